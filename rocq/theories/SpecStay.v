(** Errors in a text to which lines are appended: the vocabulary of C64. *)
From Coq Require Import String List NArith ZArith Bool.
From Verif Require Import Str Num Nom Dec Parsers General Editor Metadata Difficulty OsuFile.
Import ListNotations.
Local Open Scope N_scope.

(** The error of a section of keys and values for a text that is not of that form. *)
Definition colon_error (e : osu_err) : option osu_err :=
  match e with
  | OsuGeneral _ => Some (OsuGeneral GenColonSet)
  | OsuEditor _ => Some (OsuEditor EdColonSet)
  | OsuMetadata _ => Some (OsuMetadata MdColonSet)
  | OsuDifficulty _ => Some (OsuDifficulty DfColonSet)
  | _ => None
  end.
(** The result [r] for the longer text, [r'] being that for the shorter one: the same error or
    panic, or a later line without a colon is reported, which is looked for first. *)
Definition stays {A} (r' r : res A (line_err osu_err)) : Prop :=
  match r' with
  | ROk _ => True
  | RErr e => r = RErr e \/ exists j c, colon_error (le_err e) = Some c /\ (le_line e <= j)%Z /\ r = RErr (mk_line_err j c)
  | RPanic p => r = RPanic p \/ exists j, r = RErr (mk_line_err j (OsuMetadata MdColonSet))
  end.
(** likewise, for one section of keys and values *)
Definition stays_or {A E} (colon : E) (r' r : res A (line_err E)) : Prop :=
  match r' with
  | ROk _ => True
  | RErr e => r = RErr e \/ exists j, (le_line e <= j)%Z /\ r = RErr (mk_line_err j colon)
  | RPanic p => r = RPanic p \/ exists j, r = RErr (mk_line_err j colon)
  end.
(** for the sections that are read line by line *)
Definition stays_same {A E} (r' r : res A E) : Prop := match r' with ROk _ => True | RErr e => r = RErr e | RPanic p => r = RPanic p end.
