(** Concrete files for the examples. *)
From Coq Require Import String List NArith ZArith Bool.
From Verif Require Import Str Num Nom Dec Parsers General Editor Metadata Difficulty Colours
  TimingPoints HitObjects Storyboard NormalEvents Events Osb OsuFile Spec SpecText SpecFile
  NumFacts FileTheorems.
Import ListNotations.
Local Open Scope N_scope.

Definition s_general : sec := mk_sec (lit "General") 0 [lit "AudioFilename: a.mp3"; lit "Mode: 0"; []].
Definition s_metadata : sec := mk_sec (lit "Metadata") 2 [lit "Title:x"].
Definition s_difficulty : sec := mk_sec (lit "Difficulty") 0 [lit "HPDrainRate:5"; lit "  "].
Definition s_hitobjects : sec := mk_sec (lit "HitObjects") 0 [lit "1,2,300,1,0,0:0:0:0:"].
Definition s_bad_timing : sec := mk_sec (lit "TimingPoints") 0 [lit "100,300,4,1,0,50,1,0"; lit "200,x"].
Definition s_unknown : sec := mk_sec (lit "Stuff") 0 [lit "a"].
Definition file_text (pre : list str) (secs : list sec) (tail : list str) : str :=
  version_prefix ++ lit "14" ++ 10 :: text_of_lines (pre ++ flat_map sec_all secs ++ tail).
Definition pre1 : list str := [lit "// made by hand"; []].
Lemma version_14 : version_text (lit "14") 14%Z.
Proof. split; [|easy]. apply (u8_accepts (lit "14") 14%Z). reflexivity. Qed.
Ltac layout := apply canonical_layout; [exact version_14|reflexivity|reflexivity|reflexivity|discriminate].
