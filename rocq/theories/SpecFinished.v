(** Sections with something below them: the vocabulary of C69. *)
From Coq Require Import String List NArith ZArith Bool.
From Verif Require Import Str SpecTotal SpecParts.
Import ListNotations.
Local Open Scope N_scope.

(** The section [name] is among [cs], with another one below it. *)
Definition finished (cs : list chunk) (name : string) : Prop :=
  exists a x b, cs = a ++ x :: b /\ ch_name x = lit name /\ b <> [].
