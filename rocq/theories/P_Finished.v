(** C69: what is below a section that is finished has no effect on it. *)
From Coq Require Import String List NArith ZArith Bool.
From Verif Require Import Str Num Dec Parsers General Editor Metadata Difficulty Colours TimingPoints HitObjects Storyboard NormalEvents
  Events Osb OsuFile SpecText SpecFile SpecTotal SpecEvents SpecParts SpecFinished Finished.
Import ListNotations.
Local Open Scope N_scope.

(** C69. Two files that can be read and begin with the same lines, those of [p], have the same version
    and the same value for every section of [p] that has another section below it. *)
Theorem C69_osu : forall dbg s1 s2 p m1 m2 f1 f2, osu_from_str dbg s1 = ROk f1 -> osu_from_str dbg s2 = ROk f2 ->
  lines s1 = lines p ++ m1 -> lines s2 = lines p ++ m2 -> forallb layout_char p = false ->
  osu_version f1 = osu_version f2 /\ exists n cs, osu_parts p (osu_version f1) n cs
  /\ (finished cs "General" -> osu_general f1 = osu_general f2)
  /\ (finished cs "Editor" -> osu_editor f1 = osu_editor f2)
  /\ (finished cs "Metadata" -> osu_metadata f1 = osu_metadata f2)
  /\ (finished cs "Difficulty" -> osu_difficulty f1 = osu_difficulty f2)
  /\ (finished cs "Events" -> osu_events f1 = osu_events f2)
  /\ (finished cs "TimingPoints" -> osu_timing_points f1 = osu_timing_points f2)
  /\ (finished cs "Colours" -> osu_colours f1 = osu_colours f2)
  /\ (finished cs "HitObjects" -> osu_hitobjects f1 = osu_hitobjects f2).
Proof. exact osu_finished. Qed.
Print Assumptions C69_osu.
Definition same_start : list str := [lit "osu file format v14"; lit "[General]"; lit "Mode: 1"; lit "[Events]"; lit "//a"].
Definition one_end : str := text_of_lines (same_start ++ [lit "//b"; lit "[Colours]"; lit "Combo1: 1,2,3"]).
Definition other_end : str := text_of_lines (same_start ++ [lit "0,0,bg.png"; lit "[Difficulty]"; lit "CircleSize: 4"]).
Example C69_osu_ex : exists f1 f2, osu_from_str true one_end = ROk f1 /\ osu_from_str true other_end = ROk f2
  /\ lines one_end = lines (text_of_lines same_start) ++ [lit "//b"; lit "[Colours]"; lit "Combo1: 1,2,3"]
  /\ lines other_end = lines (text_of_lines same_start) ++ [lit "0,0,bg.png"; lit "[Difficulty]"; lit "CircleSize: 4"]
  /\ forallb layout_char (text_of_lines same_start) = false
  /\ finished [mk_chunk (lit "General") [10] (lit "Mode: 1"); mk_chunk (lit "Events") [10] (lit "//a")] "General"
  /\ ~ finished [mk_chunk (lit "General") [10] (lit "Mode: 1"); mk_chunk (lit "Events") [10] (lit "//a")] "Events"
  /\ osu_general f1 = osu_general f2 /\ osu_general f1 <> None
  /\ osu_events f1 <> osu_events f2 /\ osu_colours f1 <> osu_colours f2.
Proof.
  eexists _, _. do 5 (split; [vm_compute; reflexivity|]). split.
  { exists [], (mk_chunk (lit "General") [10] (lit "Mode: 1")), [mk_chunk (lit "Events") [10] (lit "//a")]. now repeat split. }
  split; [|vm_compute; repeat split; discriminate].
  intros ([|? [|? a]] & x & b & E & En & Nb); cbn [app] in E; [injection E as <- _; discriminate En|injection E as _ <- <-; now apply Nb|]. injection E as _ _ E. now destruct a.
Qed.
(** The same for storyboards. *)
Theorem C69_osb : forall dbg s1 s2 p m1 m2 f1 f2, osb_from_str dbg s1 14%Z = ROk (Some f1) -> osb_from_str dbg s2 14%Z = ROk (Some f2) ->
  lines s1 = lines p ++ m1 -> lines s2 = lines p ++ m2 ->
  exists n cs, osb_parts p n cs
  /\ (finished cs "Variables" -> osb_variables f1 = osb_variables f2)
  /\ (finished cs "Events" -> osb_events f1 = osb_events f2).
Proof. exact osb_finished. Qed.
Print Assumptions C69_osb.
Definition same_board : list str := [lit "[Events]"; lit "Sprite,Pass,Centre,a.png,1,2"; lit " F,0,1,2,3"; lit "[Variables]"; lit "$a=1"].
Example C69_osb_ex : exists f1 f2, osb_from_str true (text_of_lines same_board) 14%Z = ROk (Some f1)
  /\ osb_from_str true (text_of_lines (same_board ++ [lit "$b=2"])) 14%Z = ROk (Some f2)
  /\ finished [mk_chunk (lit "Events") [10] (lit "//a"); mk_chunk (lit "Variables") [10] (lit "$a=1")] "Events"
  /\ osb_events f1 = osb_events f2 /\ osb_events f1 <> None /\ osb_variables f1 <> osb_variables f2.
Proof.
  eexists _, _. do 2 (split; [vm_compute; reflexivity|]). split; [|vm_compute; repeat split; discriminate].
  exists [], (mk_chunk (lit "Events") [10] (lit "//a")), [mk_chunk (lit "Variables") [10] (lit "$a=1")]. now repeat split.
Qed.
(** A file that is cut off anywhere below its version line, perhaps inside a line, and can still be read
    differs from the whole file in the section that was cut and those below it only. *)
Theorem C69_inside : forall dbg a l r f f', osu_from_str dbg (a ++ [10] ++ l ++ r) = ROk f -> osu_from_str dbg (a ++ [10] ++ l) = ROk f' ->
  forallb layout_char a = false ->
  osu_version f' = osu_version f /\ exists n cs, osu_parts (a ++ [10]) (osu_version f') n cs
  /\ (finished cs "General" -> osu_general f' = osu_general f)
  /\ (finished cs "Editor" -> osu_editor f' = osu_editor f)
  /\ (finished cs "Metadata" -> osu_metadata f' = osu_metadata f)
  /\ (finished cs "Difficulty" -> osu_difficulty f' = osu_difficulty f)
  /\ (finished cs "Events" -> osu_events f' = osu_events f)
  /\ (finished cs "TimingPoints" -> osu_timing_points f' = osu_timing_points f)
  /\ (finished cs "Colours" -> osu_colours f' = osu_colours f)
  /\ (finished cs "HitObjects" -> osu_hitobjects f' = osu_hitobjects f).
Proof. exact osu_inside. Qed.
Print Assumptions C69_inside.
Definition whole_start : str := text_of_lines [lit "osu file format v14"; lit "[General]"; lit "Mode: 1"; lit "[Metadata]"].
Example C69_inside_ex : exists f f', osu_from_str true (whole_start ++ [10] ++ lit "BeatmapID:1" ++ lit "23") = ROk f
  /\ osu_from_str true (whole_start ++ [10] ++ lit "BeatmapID:1") = ROk f' /\ forallb layout_char whole_start = false
  /\ osu_general f' = osu_general f /\ osu_metadata f' <> osu_metadata f.
Proof. eexists _, _. do 3 (split; [vm_compute; reflexivity|]). vm_compute. split; [reflexivity|discriminate]. Qed.
(** It need not be read: it may be refused, and it may panic, overflow checks or not. *)
Theorem C69_inside_refuted : exists a l r f, osu_from_str false (a ++ [10] ++ l ++ r) = ROk f /\ forallb layout_char a = false
  /\ (forall dbg, osu_from_str dbg (a ++ [10] ++ l) = RPanic PUnwrap).
Proof. exists whole_start, (lit "BeatmapID:"), (lit "123"). eexists. split; [vm_compute; reflexivity|]. split; [reflexivity|]. intros [|]; vm_compute; reflexivity. Qed.
Print Assumptions C69_inside_refuted.
