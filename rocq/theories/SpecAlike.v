(** Calls that do the same (C79). *)
From Coq Require Import String List NArith ZArith Bool.
From Verif Require Import Str Num.
Import ListNotations.
Local Open Scope N_scope.

(** Both give a value, and these are equal; or both panic, for the same reason. *)
Definition alike {A} (eq : A -> A -> bool) (r s : run A) : Prop :=
  match r, s with
  | ROk a, ROk b => eq a b = true
  | RPanic p, RPanic q => p = q
  | _, _ => False
  end.
(** The same for calls that may also refuse, which they then both do for the same reason. *)
Definition alike_or {A E} (eq : A -> A -> bool) (r s : res A E) : Prop :=
  match r, s with
  | ROk a, ROk b => eq a b = true
  | RErr a, RErr b => a = b
  | RPanic p, RPanic q => p = q
  | _, _ => False
  end.
