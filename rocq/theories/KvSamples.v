(** Concrete key/value sections for the examples. *)
From Coq Require Import String List NArith ZArith Bool.
From Verif Require Import Str Num Dec Parsers General Editor Metadata Difficulty SpecKv SpecSections.
Import ListNotations.
Local Open Scope N_scope.

Definition dnum (m : N) (sc : nat) : decimal := DNum (mkDec false m sc).
Definition general1 : general :=
  mk_general (Some (lit "audio file.mp3")) (Some (-5)%Z) (Some (lit "abc")) (Some 1000%Z) (Some CdHalf)
    (Some GsSoft) (Some (dnum 7 1)) (Some MCatch) (Some true) (Some false) None (Some true) (Some OpBelow)
    (Some (lit "skin: a")) (Some false) (Some 3%Z) None (Some true) (Some false) (Some [1; -2; 3]%Z)
    (Some (dnum 12 1)).
Definition editor1 : editor :=
  mk_editor (Some [10; -20]%Z) (Some (dnum 8 1)) (Some (dnum 4 0)) (Some 32%Z) (Some (DRaw (lit "x")))
    (Some 77%Z).
Definition metadata1 : metadata :=
  mk_metadata (Some (lit "Title: the title")) (Some []) (Some (lit "a ")) None (Some (lit "me")) (Some (lit "Hard"))
    (Some []) (Some [lit "one"; []; lit "two:"]) (Some 12%Z) (Some (-1)%Z).
Definition difficulty1 : difficulty :=
  mk_difficulty (Some (dnum 5 0)) (Some (dnum 42 1)) None (Some (dnum 90 1)) (Some (dnum 14 1)) (Some (dnum 1 0)).
