(** What it is to be an order (C78). *)
From Coq Require Import ZArith.

(** A total order that calls exactly the same values equal. *)
Definition total_order {A} (cmp : A -> A -> comparison) : Prop :=
  (forall a b, cmp a b = Eq <-> a = b)
  /\ (forall a b, cmp b a = CompOpp (cmp a b))
  /\ (forall a b c, cmp a b <> Gt -> cmp b c <> Gt -> cmp a c <> Gt).
