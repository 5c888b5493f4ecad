(** C64: an error in a text stays whatever lines are appended. *)
From Coq Require Import String List NArith ZArith Bool.
From Verif Require Import Str Num Dec Parsers General Editor Metadata Difficulty Colours TimingPoints HitObjects Storyboard NormalEvents
  Events Osb OsuFile SpecText SpecFile SpecTotal SpecEvents SpecParts SpecCut SpecStay Stay.
Import ListNotations.
Local Open Scope N_scope.

(** C64. The text [s] is [s'] with lines appended.  If [s'] is refused, then so is [s], with the same
    error on the same line; but a later line of the same section of keys and values that has no
    colon is reported first.  A panic stays likewise.  Texts of nothing but blank lines, and texts
    that end in an empty section if overflow is checked, can become readable. *)
Theorem C64_osu : forall dbg s s' more, lines s = lines s' ++ more -> no_loose_cr s' ->
  forallb layout_char s' = true \/ stays (osu_from_str dbg s') (osu_from_str dbg s)
  \/ (dbg = true /\ osu_from_str dbg s' = RPanic POverflow /\ exists v n cs, osu_parts s' v n cs /\ ends_empty cs).
Proof. exact osu_stay. Qed.
Print Assumptions C64_osu.
Definition bad_file : list str :=
  [lit "osu file format v14"; lit "[General]"; lit "Mode: 1"; lit "[Events]"; lit "Sprite,Nowhere,Centre,a.png,1,2"; lit " L,10,2"; lit "[Nothing]"].
Definition bad_lines (n : nat) : str := text_of_lines (firstn n bad_file).
Example C64_osu_ex :
  let read n := osu_from_str true (bad_lines n) in
  no_loose_cr (bad_lines 5) /\ lines (bad_lines 7) = lines (bad_lines 5) ++ skipn 5 bad_file /\ forallb layout_char (bad_lines 5) = false
  /\ (exists f, read 3%nat = ROk f) /\ read 4%nat = RPanic POverflow
  /\ exists e, read 5%nat = RErr (mk_line_err 4 (OsuEvents e)) /\ read 6%nat = read 5%nat /\ read 7%nat = read 5%nat.
Proof.
  cbv zeta. split; [|split; [vm_compute; reflexivity|]].
  - assert (K : forallb (fun l => negb (ends_with_char 13 l)) (lines (bad_lines 5)) = true) by (vm_compute; reflexivity).
    apply Forall_forall. intros l Hl m ->. rewrite forallb_forall in K. apply K in Hl. unfold ends_with_char in Hl. now rewrite rev_app_distr in Hl.
  - split; [reflexivity|]. split; [eexists; vm_compute; reflexivity|]. split; [vm_compute; reflexivity|]. eexists. split; [vm_compute; reflexivity|]. split; vm_compute; reflexivity.
Qed.
(** The exceptions occur. *)
Theorem C64_same_error_refuted : exists s s' more e e', lines s = lines s' ++ more /\ no_loose_cr s' /\ osu_from_str false s' = RErr e /\ osu_from_str false s = RErr e'
  /\ le_err e = OsuDifficulty DfKey /\ e' = mk_line_err (le_line e + 1) (OsuDifficulty DfColonSet).
Proof.
  exists (text_of_lines [lit "osu file format v14"; lit "[Difficulty]"; lit "Nothing:1"; lit "none"]), (text_of_lines [lit "osu file format v14"; lit "[Difficulty]"; lit "Nothing:1"]), [lit "none"].
  eexists _, _. split; [vm_compute; reflexivity|]. split.
  - repeat (constructor; [intros m H; apply (f_equal (@rev char)) in H; rewrite rev_app_distr in H; discriminate H|]). constructor.
  - split; [vm_compute; reflexivity|]. split; [vm_compute; reflexivity|]. split; reflexivity.
Qed.
Print Assumptions C64_same_error_refuted.
Theorem C64_empty_refuted : exists s s' more f p, lines s = lines s' ++ more /\ no_loose_cr s' /\ osu_from_str true s' = RPanic p /\ osu_from_str true s = ROk f.
Proof.
  exists (text_of_lines [lit "osu file format v14"; lit "[General]"; lit "Mode: 1"]), (text_of_lines [lit "osu file format v14"; lit "[General]"]), [lit "Mode: 1"].
  eexists _, _. split; [vm_compute; reflexivity|]. split.
  - repeat (constructor; [intros m H; apply (f_equal (@rev char)) in H; rewrite rev_app_distr in H; discriminate H|]). constructor.
  - split; vm_compute; reflexivity.
Qed.
Print Assumptions C64_empty_refuted.
(** A carriage return before the line end at the end of [s'] is an error only while nothing follows. *)
Theorem C64_cr_refuted : exists s s' more e f, lines s = lines s' ++ more /\ forallb layout_char s' = false /\ osu_from_str false s' = RErr e /\ osu_from_str false s = ROk f.
Proof.
  exists (lit "osu file format v14" ++ [10] ++ lit "[TimingPoints]" ++ [10] ++ lit "0,300,4,1,0,100,1,0" ++ [13; 13; 10] ++ lit "5,300,4,1,0,100,1,0"),
    (lit "osu file format v14" ++ [10] ++ lit "[TimingPoints]" ++ [10] ++ lit "0,300,4,1,0,100,1,0" ++ [13; 13; 10]), [lit "5,300,4,1,0,100,1,0"]. eexists _, _. vm_compute. repeat split.
Qed.
Print Assumptions C64_cr_refuted.

(** For storyboards there are no exceptions. *)
Theorem C64_osb : forall dbg s s' more, lines s = lines s' ++ more -> no_loose_cr s' -> stays_same (osb_from_str dbg s' 14%Z) (osb_from_str dbg s 14%Z).
Proof. exact osb_stay. Qed.
Print Assumptions C64_osb.
Definition bad_storyboard : list str := [lit "[Variables]"; lit "$a=1"; lit "b=2"; lit "$a=3"; lit "[Events]"; lit "Sprite,Pass,Centre,a.png,1,$a"; lit "[Variables]"].
Example C64_osb_ex :
  let read n := osb_from_str true (text_of_lines (firstn n bad_storyboard)) 14%Z in
  (exists f, read 2%nat = ROk f) /\ read 3%nat = RErr (mk_line_err 2 (OsbVariable VarMissingHeader)) /\ read 4%nat = read 3%nat /\ read 7%nat = read 3%nat.
Proof. cbv zeta. split; [eexists; vm_compute; reflexivity|]. repeat split; vm_compute; reflexivity. Qed.

(** The sections on their own. *)
Theorem C64_lists : forall s s' more v, lines s = lines s' ++ more ->
  stays_same (timing_points_from_str s' v) (timing_points_from_str s v) /\ stays_same (hit_objects_from_str s' v) (hit_objects_from_str s v)
  /\ stays_same (colours_from_str s' v) (colours_from_str s v) /\ stays_same (variables_from_str s') (variables_from_str s)
  /\ forall dbg vs, stays_same (events_from_str_vars dbg vs s' v) (events_from_str_vars dbg vs s v).
Proof. exact lists_stay. Qed.
Print Assumptions C64_lists.
Example C64_lists_ex :
  let a := text_of_lines [lit "0,300,4,1,0,100,1,0"; lit "5,300,4,1,0,x,1,0"] in
  exists e, timing_points_from_str a 14%Z = RErr (mk_line_err 1 e) /\ timing_points_from_str (a ++ lit "again" ++ [10]) 14%Z = RErr (mk_line_err 1 e).
Proof. cbv zeta. eexists. split; vm_compute; reflexivity. Qed.
Theorem C64_keys : forall s' s v, cut_body s' s ->
  stays_or GenColonSet (general_from_str s' v) (general_from_str s v) /\ stays_or EdColonSet (editor_from_str s' v) (editor_from_str s v)
  /\ stays_or MdColonSet (metadata_from_str s' v) (metadata_from_str s v) /\ stays_or DfColonSet (difficulty_from_str s' v) (difficulty_from_str s v).
Proof. exact keys_stay. Qed.
Print Assumptions C64_keys.
Example C64_keys_ex :
  let a := lit "BeatDivisor: 4" ++ [10; 10] ++ lit "GridSize: x" in
  exists e, editor_from_str a 14%Z = RErr (mk_line_err 2 e) /\ e <> EdColonSet
  /\ editor_from_str (a ++ [10] ++ lit "Bookmarks: 1") 14%Z = RErr (mk_line_err 2 e) /\ editor_from_str (a ++ [10; 10] ++ lit "Bookmarks") 14%Z = RErr (mk_line_err 4 EdColonSet).
Proof. cbv zeta. eexists. split; [vm_compute; reflexivity|]. split; [discriminate|]. split; vm_compute; reflexivity. Qed.
