(** Paths and speeds: the vocabulary of C41 and C42. *)
From Coq Require Import String List NArith ZArith QArith Qabs Qminmax Bool.
From Verif Require Import Str Num Nom Dec Parsers TimingPoints Spec SpecOld.
Import ListNotations.
Local Open Scope N_scope.

(** What may follow the file name: slashes, each perhaps with a single dot. *)
Inductive back_part : str -> Prop :=
| bp_nil : back_part []
| bp_slash t : back_part t -> back_part (47 :: t)
| bp_dot t : back_part t -> back_part (47 :: 46 :: t).
(** The path [p] ends in the file name [n]. *)
Definition names_file (p n : str) : Prop :=
  exists dir back, p = dir ++ n ++ back
  /\ (dir = [] \/ exists d, dir = d ++ [47]) /\ back_part back
  /\ forallb (fun c => negb (c =? 47)) n = true /\ n <> [] /\ n <> lit "." /\ n <> lit "..".
(** A file name is a stem and an extension: the part from the last dot on, unless the only dot
    is the first character. *)
Definition stem_ext (n stem ext : str) : Prop :=
  n = stem ++ ext
  /\ ((ext = [] /\ forallb (fun c => negb (c =? 46)) (tl n) = true)
      \/ (stem <> [] /\ exists e, ext = 46 :: e /\ forallb (fun c => negb (c =? 46)) e = true)).

(** Numbers as fractions, and arithmetic that never rounds. *)
Definition frac (d : rdec) : Q := (inject_Z (numerator d) / inject_Z (denominator d))%Q.
Definition exact_div (div : rdec -> rdec -> run rdec) : Prop :=
  forall a b c, div a b = ROk c -> ~ (frac b == 0)%Q /\ (frac c == frac a / frac b)%Q.
Definition exact_mul (mul : rdec -> rdec -> run rdec) : Prop :=
  forall a b c, mul a b = ROk c -> (frac c == frac a * frac b)%Q.
(** Arithmetic that rounds: a quotient or product is off by at most [u] when its size is at
    most one, and by [u] times its size when it is bigger (both sides of the first are
    multiplied by the divisor). *)
Definition near_div (u : Q) (div : rdec -> rdec -> run rdec) : Prop :=
  forall a b c, div a b = ROk c ->
    ~ (frac b == 0)%Q /\ (Qabs (frac c * frac b - frac a) <= u * Qmax (Qabs (frac a)) (Qabs (frac b)))%Q.
Definition near_mul (u : Q) (mul : rdec -> rdec -> run rdec) : Prop :=
  forall a b c, mul a b = ROk c -> (Qabs (frac c - frac a * frac b) <= u * Qmax 1 (Qabs (frac a * frac b)))%Q.
