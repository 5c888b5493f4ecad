(** C12, C13, C40 in versions 3 and 4, and C43: where adding or subtracting 24 leaves the
    range of numbers. *)
From Coq Require Import String List NArith ZArith Bool.
From Verif Require Import Str Num Nom Dec Parsers KeyValue General Editor Metadata Difficulty Colours
  TimingPoints HitObjects Storyboard NormalEvents Events Osb OsuFile Spec SpecWf SpecText SpecKv SpecSections SpecEvents SpecFile
  SpecTotal SpecLate SpecPrint OldPanic LateTotal PrintPanic LateSamples.
Import ListNotations.
Local Open Scope N_scope.

(** ** C12: the lines on which the readers of versions 3 and 4 panic *)
Theorem C12_timing_late_line : forall v l, old_version v = true ->
  ((exists p, tp_from_str v l = RPanic p) <-> late_timing l).
Proof. exact tp_late. Qed.
Print Assumptions C12_timing_late_line.
(** The section panics at the first such line and only there. *)
Theorem C12_timing_late : forall v s, old_version v = true ->
  ((exists p, timing_points_from_str s v = RPanic p) <->
   exists a l b ts, lines s = a ++ l :: b /\ timing_points_from_str (crlf_text a) v = ROk (Some ts) /\ late_timing l).
Proof. exact timing_late. Qed.
Print Assumptions C12_timing_late.
Theorem C12_object_late_line : forall v l, old_version v = true ->
  ((exists p, ho_from_str v l = RPanic p) <-> late_object l).
Proof. exact ho_late. Qed.
Print Assumptions C12_object_late_line.
Theorem C12_objects_late : forall v s, old_version v = true ->
  ((exists p, hit_objects_from_str s v = RPanic p) <->
   exists a l b os, lines s = a ++ l :: b /\ hit_objects_from_str (crlf_text a) v = ROk (Some os) /\ late_object l).
Proof. exact objects_late. Qed.
Print Assumptions C12_objects_late.

Example C12_late_ex : late_timing (lit "79228162514264337593543950312.0001,x")
  /\ timing_points_from_str (lit "79228162514264337593543950311,1,4,1,1") 4%Z <> RPanic PDecimal
  /\ timing_points_from_str (lit "5,1,4,1,1" ++ [10] ++ lit "79228162514264337593543950312.0001,x") 4%Z = RPanic PDecimal.
Proof.
  split; [|split; [vm_compute; discriminate|vm_compute; reflexivity]].
  exists (lit "79228162514264337593543950312.0001"), (lit ",x"). split; [reflexivity|]. split; [reflexivity|]. split; [right; eexists; reflexivity|].
  exists 79228162514264337593543950312. split; [vm_compute; reflexivity|apply N.le_refl].
Qed.
Example C12_late_hold_ex : late_object (lit "1,2,3,128,0,79228162514264337593543950335:0:0")
  /\ hit_objects_from_str (lit "1,2,3,128,0,79228162514264337593543950335:0:0") 4%Z = RPanic PDecimal
  /\ exists o, hit_objects_from_str (lit "1,2,3,1,0,79228162514264337593543950335:0:0") 4%Z = o /\ o <> RPanic PDecimal.
Proof.
  split; [|split; [vm_compute; reflexivity|eexists; split; [vm_compute; reflexivity|discriminate]]]. right. right.
  exists (lit "1"), (lit "2"), (lit "3"), (lit "128"), 128%Z, (lit "0"), (lit "79228162514264337593543950335"), (lit "0:0").
  split; [reflexivity|]. split; [reflexivity|]. split; [reflexivity|]. split; [exact int_128|]. split; [split; discriminate|].
  split; [eexists; vm_compute; reflexivity|]. do 4 (split; [reflexivity|]).
  exists 79228162514264337593543950335. split; [vm_compute; reflexivity|discriminate].
Qed.

(** ** C13: events of versions 3 and 4 *)
Theorem C13_event_line_old : forall dbg v l, old_version v = true ->
  ((exists p, ev_from_line dbg v l = RPanic p) <-> (bad_number l \/ bad_loop_type l) \/ dbg = true /\ late_event l).
Proof. exact event_late. Qed.
Print Assumptions C13_event_line_old.
Theorem C13_section_old : forall dbg s v, old_version v = true ->
  ((exists p, events_from_str dbg s v = RPanic p) <->
   exists a l b evs, lines s = a ++ l :: b /\ events_from_str dbg (crlf_text a) v = ROk (Some evs) /\ stopped_at dbg evs l).
Proof. exact events_late. Qed.
Print Assumptions C13_section_old.

Example C13_old_ex : late_event (lit "2,-5,2147483640")
  /\ events_from_str true (lit "// a" ++ [10] ++ lit "2,-5,2147483640") 3%Z = RPanic POverflow
  /\ (exists l, events_from_str false (lit "// a" ++ [10] ++ lit "2,-5,2147483640") 3%Z = ROk l)
  /\ exists l, events_from_str true (lit "// a" ++ [10] ++ lit "2,-5,2147483640") 5%Z = ROk l.
Proof.
  split; [|split; [vm_compute; reflexivity|split; eexists; vm_compute; reflexivity]]. right.
  exists (lit "2"), (lit "-5"), (lit "2147483640"). split; [now left|]. split; [reflexivity|]. split; [reflexivity|]. exact late_break.
Qed.

(** ** C40: whole files of versions 3 and 4 *)
Theorem C40_safe_old : forall dbg s v cs p, file_chunks s v cs -> old_version v = true -> no_empty dbg cs ->
  (forall x l, In x cs -> ch_name x = lit "Events" -> In l (lines (ch_body x)) -> ~ bad_line l /\ (dbg = true -> ~ late_event l)) ->
  (forall x l, In x cs -> ch_name x = lit "TimingPoints" -> In l (lines (ch_body x)) -> ~ late_timing l) ->
  (forall x l, In x cs -> ch_name x = lit "HitObjects" -> In l (lines (ch_body x)) -> ~ late_object l) ->
  (forall x es t e, In x cs -> ch_name x = lit "Metadata" -> ch_body x = kv_text es ++ t -> In e es ->
     id_key (entry_key e) -> i32_text (entry_value e)) ->
  osu_from_str dbg s <> RPanic p.
Proof. exact total_safe_old. Qed.
Print Assumptions C40_safe_old.
Example C40_safe_old_ex : file_chunks sample_old 4%Z [chunk_timing]
  /\ (forall l, In l (lines (ch_body chunk_timing)) -> ~ late_timing l)
  /\ exists f, osu_from_str true sample_old = ROk f /\ osu_timing_points f <> None.
Proof. split; [exact sample_old_chunks|]. split; [exact timing_not_late|]. eexists. split; [vm_compute; reflexivity|discriminate]. Qed.

(** ** C43: printing *)
(** Printing a file panics exactly in versions 3 and 4, when a time cannot be moved back. *)
Theorem C43_print : forall dbg f, Forall storable (decimal_times f) -> Forall (fun z => in_i32 z = true) (clock_times f) ->
  ((exists p, osu_to_string dbg f = RPanic p) <->
   old_version (osu_version f) = true
   /\ (Exists too_early (decimal_times f) \/ dbg = true /\ Exists early_i32 (clock_times f))).
Proof. exact file_out. Qed.
Print Assumptions C43_print.
(** Whatever was read can be printed, in every version. *)
Theorem C43_read_print : forall dbg s f, osu_from_str dbg s = ROk f -> exists t, osu_to_string dbg f = ROk t.
Proof. exact read_print. Qed.
Print Assumptions C43_read_print.
(** Printing a storyboard file always succeeds. *)
Theorem C43_osb : forall dbg o v, exists t, osb_to_string dbg o v = ROk t.
Proof. exact osb_out. Qed.
Print Assumptions C43_osb.

Definition C43_file (v : version) (t : rdec) (b : Z) : osu_file :=
  mk_osu v None None None None None (Some [EBreak (mk_brk 0 b true)])
    (Some [mk_tp (DNum t) (DRaw (lit "x")) 4 TsNormal SiDefault 100 None None]) None None.
Example C43_print_ex :
  let low := mkDec true 79228162514264337593543950312 0 in
  Forall storable (decimal_times (C43_file 4%Z low 0%Z)) /\ Exists too_early (decimal_times (C43_file 4%Z low 0%Z))
  /\ osu_to_string false (C43_file 4%Z low 0%Z) = RPanic PDecimal
  /\ (exists t, osu_to_string false (C43_file 5%Z low 0%Z) = ROk t)
  /\ osu_to_string true (C43_file 3%Z (mkDec false 1 0) (-2147483648)%Z) = RPanic POverflow
  /\ exists t, osu_to_string false (C43_file 3%Z (mkDec false 1 0) (-2147483648)%Z) = ROk t.
Proof.
  split; [repeat constructor|]. split; [left; eexists; split; [reflexivity|discriminate]|]. split; [vm_compute; reflexivity|].
  split; [eexists; vm_compute; reflexivity|]. split; [vm_compute; reflexivity|]. eexists. vm_compute. reflexivity.
Qed.
Example C43_read_ex : exists f t, osu_from_str true sample_edge = ROk f /\ osu_timing_points f <> None /\ osu_to_string true f = ROk t.
Proof. do 2 eexists. split; [vm_compute; reflexivity|]. split; [discriminate|]. vm_compute. reflexivity. Qed.
