(** C54: what becomes of a file that is saved under another version. *)
From Coq Require Import String List NArith ZArith Bool.
From Verif Require Import Str Num Dec Parsers General Editor Metadata Difficulty Colours TimingPoints HitObjects
  Storyboard NormalEvents Events Osb OsuFile Spec SpecWf SpecText SpecSections SpecFile SpecEvents SpecOld SpecWhole SpecBack SpecConvert
  Convert.
Import ListNotations.
Local Open Scope N_scope.

(** A file read from a text of any version, and given another version [b], is printed; the text
    has the sections of [saved_as b f] in the order of the format, and reading it gives
    [saved_as b f]. *)
Theorem C54_save_as : forall dbg s f b,
  osu_from_str dbg s = ROk f -> forallb no_cr (lines s) = true -> (3 <= b <= 14)%Z -> file_moves b f = true ->
  exists t secs, osu_to_string dbg (at_version b f) = ROk t
  /\ file_layout t [] b [[]; []] secs [] /\ map sec_name secs = names_of (saved_as b f)
  /\ osu_from_str dbg t = ROk (saved_as b f).
Proof. exact save_as. Qed.
Print Assumptions C54_save_as.
(** Saving that again changes nothing, if [b] has the mode of the file. *)
Theorem C54_again : forall dbg s f b,
  osu_from_str dbg s = ROk f -> forallb no_cr (lines s) = true -> (3 <= b <= 14)%Z -> file_moves b f = true ->
  mode_known (at_version b f) = true ->
  exists t, osu_to_string dbg (saved_as b f) = ROk t /\ osu_from_str dbg t = ROk (saved_as b f).
Proof. exact save_as_again. Qed.
Print Assumptions C54_again.
(** Versions 12 to 14 hold everything but the fields of [General] and [Editor] that only older
    versions have, and the colour transformations. *)
Theorem C54_late : forall b f, (12 <= b)%Z ->
  osu_version (saved_as b f) = b /\ osu_metadata (saved_as b f) = osu_metadata f /\ osu_difficulty (saved_as b f) = osu_difficulty f
  /\ osu_events (saved_as b f) = option_map (written b) (osu_events f) /\ osu_timing_points (saved_as b f) = osu_timing_points f
  /\ osu_colours (saved_as b f) = osu_colours f /\ osu_hitobjects (saved_as b f) = osu_hitobjects f
  /\ osu_general (saved_as b f) = option_map (general_at b) (osu_general f) /\ osu_editor (saved_as b f) = option_map (editor_at b) (osu_editor f).
Proof. exact saved_late. Qed.
Print Assumptions C54_late.

Definition C54_text : str :=
  text_of_lines [lit "osu file format v4"; []; lit "[General]"; lit "AudioFilename: a.mp3"; lit "AudioHash: 12ab"; lit "PreviewTime: 5"; [];
    lit "[Events]"; lit "0,0,a b.jpg"; lit "2,10,20"; lit "3,100,1,2,3"; []; lit "[TimingPoints]"; lit "0.50,344.8,4,1,1"; [];
    lit "[HitObjects]"; lit "1,2,300,1,0"; lit "64,64,-24.0,2,0,B|64:64|128:64,1,75"].
(** From version 4 to 14 the times are written 24 higher, and to version 3 the timing point
    keeps two of its fields. *)
Example C54_ex :
  forallb no_cr (lines C54_text) = true
  /\ match osu_from_str true C54_text with
     | ROk f => forallb (fun b => file_moves b f && mode_known (at_version b f)) [3; 4; 5; 6; 7; 8; 9; 10; 11; 12; 13; 14]%Z = true
         /\ osu_to_string true (at_version 14%Z f)
            = ROk (text_of_lines [lit "osu file format v14"; []; lit "[General]"; lit "AudioFilename: a.mp3"; lit "PreviewTime: 5"; [];
                     lit "[Events]"; lit "0,0,""a b.jpg"""; lit "2,34,44"; []; lit "[TimingPoints]"; lit "24.50,344.8,4,1,1,100"; [];
                     lit "[HitObjects]"; lit "1,2,324,1,0"; lit "64,64,0.0,2,0,B|64:64|128:64,1,75"])
         /\ osu_to_string true (at_version 3%Z f)
            = ROk (text_of_lines [lit "osu file format v3"; []; lit "[General]"; lit "AudioFilename: a.mp3"; lit "AudioHash: 12ab"; lit "PreviewTime: 5"; [];
                     lit "[Events]"; lit "0,0,""a b.jpg"""; lit "2,10,20"; lit "3,100,1,2,3"; []; lit "[TimingPoints]"; lit "0.50,344.8"; [];
                     lit "[HitObjects]"; lit "1,2,300,1,0,"; lit "64,64,-24,2,0,B|64:64|64:64|128:64,1,75"])
     | _ => False
     end.
Proof. vm_compute. repeat split. Qed.

(** None of the conditions can be left out.  A timing point of version 5 without effects is
    written in version 6 as a line that version 6 does not read. *)
Theorem C54_flags_refuted : exists s f t, osu_from_str true s = ROk f /\ forallb no_cr (lines s) = true
  /\ file_stays (at_version 6%Z f) = true
  /\ osu_to_string true (at_version 6%Z f) = ROk t /\ forall g, osu_from_str true t <> ROk g.
Proof.
  eexists (text_of_lines [lit "osu file format v5"; []; lit "[TimingPoints]"; lit "100,300,4,1,1,70,1"]), _, _.
  split; [vm_compute; reflexivity|]. split; [vm_compute; reflexivity|]. split; [vm_compute; reflexivity|]. split; [vm_compute; reflexivity|].
  intros g H. vm_compute in H. discriminate H.
Qed.
Print Assumptions C54_flags_refuted.
(** A line of version 3 with more than two fields is kept as it is, and becomes another timing
    point: beat length 300, meter 3, sample set 2, sample index 4, volume 1, effects 100. *)
Theorem C54_comma_refuted : exists s f t g, osu_from_str true s = ROk f /\ forallb no_cr (lines s) = true
  /\ file_stays (at_version 14%Z f) = true
  /\ osu_to_string true (at_version 14%Z f) = ROk t /\ osu_from_str true t = ROk g
  /\ osu_timing_points g <> osu_timing_points f.
Proof.
  eexists (text_of_lines [lit "osu file format v3"; []; lit "[TimingPoints]"; lit "100,300,3,2"]), _, _, _.
  split; [vm_compute; reflexivity|]. split; [vm_compute; reflexivity|]. split; [vm_compute; reflexivity|]. split; [vm_compute; reflexivity|].
  split; [vm_compute; reflexivity|]. intros H. discriminate H.
Qed.
Print Assumptions C54_comma_refuted.
(** Times of events near the smallest [i32] cannot be written in versions 3 and 4: with
    overflow checks the program stops. *)
Theorem C54_times_refuted : exists s f, osu_from_str true s = ROk f /\ forallb no_cr (lines s) = true
  /\ file_stays (at_version 3%Z f) = true /\ osu_to_string true (at_version 3%Z f) = RPanic POverflow.
Proof.
  eexists (text_of_lines [lit "osu file format v14"; []; lit "[Events]"; lit "2,-2147483648,3"]), _.
  split; [vm_compute; reflexivity|]. split; [vm_compute; reflexivity|]. split; [vm_compute; reflexivity|]. vm_compute; reflexivity.
Qed.
Print Assumptions C54_times_refuted.
(** A section that has nothing left in the new version is written as a header alone, and a
    header alone at the end of a file stops the reader. *)
Theorem C54_hollow_refuted : exists s f t, osu_from_str true s = ROk f /\ forallb no_cr (lines s) = true
  /\ osu_to_string true (at_version 14%Z f) = ROk t /\ osu_from_str true t = RPanic POverflow.
Proof.
  eexists (text_of_lines [lit "osu file format v10"; []; lit "[Editor]"; lit "CurrentTime: 3"]), _, _.
  split; [vm_compute; reflexivity|]. split; [vm_compute; reflexivity|]. split; [vm_compute; reflexivity|]. vm_compute; reflexivity.
Qed.
Print Assumptions C54_hollow_refuted.
