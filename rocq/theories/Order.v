(** The derived [Ord] of the three types that have it: [ComboSkipCount] (hitobjects/types.rs:22), [Volume] of a
    hit sample (hitobjects/types.rs:200) and [Volume] of a timing point (timingpoints/types.rs:204).  A derived [cmp]
    of a struct with one field is the [cmp] of the field; for [Option], [None] comes before every [Some]. *)
From Coq Require Import String List NArith ZArith Bool.
From Verif Require Import Str Num HitObjects TimingPoints.
Import ListNotations.
Local Open Scope N_scope.

Definition combo_cmp (a b : Z) : comparison := (a ?= b)%Z.
Definition tp_volume_cmp (a b : Z) : comparison := (a ?= b)%Z.
Definition ho_volume_cmp (a b : ho_volume) : comparison :=
  match a, b with
  | None, None => Eq
  | None, Some _ => Lt
  | Some _, None => Gt
  | Some x, Some y => (x ?= y)%Z
  end.
