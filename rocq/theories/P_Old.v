(** C22: the 24 ms of versions 3 and 4. *)
From Coq Require Import String List NArith ZArith Bool.
From Verif Require Import Str Num Nom Dec Parsers Colours TimingPoints HitObjects Storyboard NormalEvents Spec SpecWf SpecOld Samples EvPanic OldFacts.
Import ListNotations.
Local Open Scope N_scope.

(** ** one time *)
(** Reading moves a decimal time by exactly 24, printing moves it back to the same number;
    the digits are the same as well, unless the number is 0 or -24 and has decimals. *)
Theorem C22_time_cancels : forall v d, old_version v = true -> wf_decimal d = true -> room d = true ->
  exists d' d'', shift_in v d = ROk d' /\ late d d' /\ shift_out v d' = ROk d'' /\ same_time d d''
  /\ (plain_for 24 d = true -> d'' = d).
Proof. exact time_cancels. Qed.
Print Assumptions C22_time_cancels.
Example C22_time_ex :
  let d := DNum (mkDec true 12345 2) in wf_decimal d = true /\ room d = true /\ plain_for 24 d = true
  /\ shift_in 3%Z d = ROk (DNum (mkDec true 9945 2)).
Proof. vm_compute. repeat split. Qed.
(** The exception exists. *)
Theorem C22_digits_refuted : exists v d d' d'', old_version v = true /\ wf_decimal d = true /\ room d = true
  /\ shift_in v d = ROk d' /\ shift_out v d' = ROk d'' /\ print_decimal d = lit "0.00" /\ print_decimal d'' = lit "0".
Proof. exists 3%Z, (DNum (mkDec false 0 2)), (DNum (mkDec false 24 0)), (DNum (mkDec false 0 0)). vm_compute. repeat split. Qed.
Print Assumptions C22_digits_refuted.
(** An integer time plus 24 minus 24 is the time, whether or not the sum wraps. *)
Theorem C22_integer_cancels : forall dbg z y, in_i32 z = true -> i32_plus dbg 24 z = Some y -> i32_plus dbg (-24) y = Some z.
Proof. exact plus_back'. Qed.
Print Assumptions C22_integer_cancels.
Example C22_integer_ex : i32_plus false 24 2147483647 = Some (-2147483625)%Z /\ i32_plus true 24 2147483647 = None
  /\ i32_plus true 24 1000 = Some 1024%Z.
Proof. vm_compute. repeat split. Qed.

(** ** hit objects *)
(** What versions 3 and 4 read is what version 5 reads from the same line, later by 24 (and, in
    version 3, without the first curve point); they read it whenever the times have room. *)
Theorem C22_objects_read : forall v s o, old_version v = true -> ho_from_str v s = ROk (Some o) ->
  exists o5, ho_from_str 5%Z s = ROk (Some o5) /\ moved late_if_room v o5 o.
Proof. exact obj_read. Qed.
Print Assumptions C22_objects_read.
Theorem C22_objects_read_ok : forall v s o5, old_version v = true -> ho_from_str 5%Z s = ROk (Some o5) -> roomy o5 = true ->
  exists o, ho_from_str v s = ROk (Some o).
Proof. exact obj_read_ok. Qed.
Print Assumptions C22_objects_read_ok.
(** Printing is what version 5 prints for the object 24 earlier; version 3 writes a comma
    behind a circle and the position in front of the curve points. *)
Theorem C22_objects_print : forall v o, old_version v = true -> roomy o = true ->
  exists o5 t, moved late v o5 o /\ (v = 3%Z -> starts_at_position o5)
  /\ ho_to_string 5%Z o5 = ROk t /\ ho_to_string v o = ROk (t ++ circle_comma v o).
Proof. exact obj_print. Qed.
Print Assumptions C22_objects_print.
(** A line read and printed in an old version comes out as in version 5. *)
Theorem C22_objects_cancel : forall v s o5, old_version v = true -> no_nl s = true ->
  ho_from_str 5%Z s = ROk (Some o5) -> roomy o5 = true -> plain_object o5 = true ->
  (v = 3%Z -> starts_at_position o5) ->
  exists o t, ho_from_str v s = ROk (Some o) /\ ho_to_string 5%Z o5 = ROk t
  /\ ho_to_string v o = ROk (t ++ circle_comma v o).
Proof. exact obj_back. Qed.
Print Assumptions C22_objects_cancel.
Example C22_objects_ex :
  exists o5 o, ho_from_str 5%Z (lit "1,2,1000.5,8,0,2000") = ROk (Some o5) /\ roomy o5 = true /\ plain_object o5 = true
  /\ ho_from_str 4%Z (lit "1,2,1000.5,8,0,2000") = ROk (Some o) /\ print_decimal (ho_time o) = lit "1024.5"
  /\ ho_to_string 4%Z o = ROk (lit "1,2,1000.5,8,0,2000").
Proof. do 2 eexists. split; [vm_compute; reflexivity|]. split; [vm_compute; reflexivity|]. split; [vm_compute; reflexivity|]. split; [vm_compute; reflexivity|]. split; [vm_compute; reflexivity|]. vm_compute. reflexivity. Qed.
Example C22_slider_ex :
  exists o5 o, ho_from_str 5%Z (lit "1,2,10,2,0,B|1:2|3:4,1,7") = ROk (Some o5) /\ roomy o5 = true /\ plain_object o5 = true
  /\ starts_at_position o5 /\ ho_from_str 3%Z (lit "1,2,10,2,0,B|1:2|3:4,1,7") = ROk (Some o)
  /\ ho_to_string 3%Z o = ROk (lit "1,2,10,2,0,B|1:2|3:4,1,7").
Proof. do 2 eexists. split; [vm_compute; reflexivity|]. split; [vm_compute; reflexivity|]. split; [vm_compute; reflexivity|]. split; [eexists; vm_compute; reflexivity|]. split; [vm_compute; reflexivity|]. vm_compute. reflexivity. Qed.
(** In the other versions nothing is moved. *)
Theorem C22_objects_new : forall v s o, old_version v = false ->
  (ho_from_str v s = ROk (Some o) <-> ho_from_str 5%Z s = ROk (Some o)).
Proof. exact obj_new. Qed.
Print Assumptions C22_objects_new.

(** ** timing points *)
(** The time is the number in front of the first comma, plus 24. *)
Theorem C22_timing_read : forall v s t, old_version v = true -> tp_from_str v s = ROk (Some t) ->
  exists x r, s = x ++ lit "," ++ r /\ no_comma x = true /\ late_if_room (decimal_of_str x) (tp_time t).
Proof. exact tp_time_read. Qed.
Print Assumptions C22_timing_read.
(** A list is written and read back with the same times; version 4 keeps the fields up to the
    sample index, version 3 only the beat length. *)
Theorem C22_timing_cancel : forall v l, old_version v = true -> forallb (old_tp_ok v) l = true ->
  exists s l', timing_points_to_string l v = ROk (Some s) /\ timing_points_from_str s v = ROk (Some l')
  /\ Forall2 (old_tp_kept v) l l'.
Proof. exact timing_old. Qed.
Print Assumptions C22_timing_cancel.
Example C22_timing_ex : old_tp_ok 4%Z tp1 = true /\ old_tp_ok 3%Z tp1 = true
  /\ exists t, tp_from_str 4%Z (lit "1000.25,300,4,2,1") = ROk (Some t) /\ print_decimal (tp_time t) = lit "1024.25"
     /\ tp_to_string 4%Z t = ROk (lit "1000.25,300,4,2,1").
Proof. split; [vm_compute; reflexivity|]. split; [vm_compute; reflexivity|]. eexists. split; [vm_compute; reflexivity|]. split; [vm_compute; reflexivity|]. vm_compute. reflexivity. Qed.

(** ** videos, breaks and colour transformations *)
(** Reading a line in an old version gives what version 5 gives, later by 24; when the sum
    is no [i32], it panics with overflow checks and wraps without.  A line that version 5
    rejects is rejected with the same error, or the overflow comes first. *)
Theorem C22_break_read : forall dbg v s, old_version v = true ->
  reads_moved dbg (brk_plus dbg 24) (brk_from_str dbg 5%Z s) (brk_from_str dbg v s).
Proof. exact brk_moved. Qed.
Print Assumptions C22_break_read.
Theorem C22_video_read : forall dbg v s, old_version v = true ->
  reads_moved dbg (vid_plus dbg 24) (vid_from_str dbg 5%Z s) (vid_from_str dbg v s).
Proof. exact vid_moved. Qed.
Print Assumptions C22_video_read.
Theorem C22_transformation_read : forall dbg v s, old_version v = true ->
  reads_moved dbg (ctr_plus dbg 24) (ctr_from_str dbg 5%Z s) (ctr_from_str dbg v s).
Proof. exact ctr_moved. Qed.
Print Assumptions C22_transformation_read.
(** Printing likewise. *)
Theorem C22_break_print : forall dbg v x, old_version v = true -> in_i32 (br_start x) = true -> in_i32 (br_end x) = true ->
  prints_moved (brk_plus dbg (-24)) (brk_to_string dbg 5%Z) (brk_to_string dbg v) x.
Proof. exact brk_out. Qed.
Print Assumptions C22_break_print.
Theorem C22_video_print : forall dbg v x, old_version v = true -> in_i32 (vi_start x) = true ->
  prints_moved (vid_plus dbg (-24)) (vid_to_string_cmd dbg 5%Z) (vid_to_string_cmd dbg v) x.
Proof. exact vid_out. Qed.
Print Assumptions C22_video_print.
Theorem C22_transformation_print : forall dbg v x, old_version v = true -> in_i32 (ctr_start x) = true ->
  prints_moved (ctr_plus dbg (-24)) (ctr_to_string dbg 5%Z) (ctr_to_string dbg v) x.
Proof. exact ctr_out. Qed.
Print Assumptions C22_transformation_print.
Example C22_break_ex :
  brk_from_str true 3%Z (lit "2,100,-5") = ROk (Some (mk_brk 124 19 true))
  /\ brk_to_string true 3%Z (mk_brk 124 19 true) = ROk (lit "2,100,-5")
  /\ brk_from_str true 3%Z (lit "2,2147483640,-5") = RPanic POverflow
  /\ brk_from_str false 3%Z (lit "2,2147483640,-5") = ROk (Some (mk_brk (-2147483632) 19 true))
  /\ brk_to_string false 3%Z (mk_brk (-2147483632) 19 true) = ROk (lit "2,2147483640,-5").
Proof. vm_compute. repeat split. Qed.
(** The other versions read as version 5 does, and print as version 5 does. *)
Theorem C22_events_new : forall dbg v, old_version v = false ->
  (forall s, brk_from_str dbg v s = brk_from_str dbg 5%Z s) /\ (forall s, vid_from_str dbg v s = vid_from_str dbg 5%Z s)
  /\ (forall s, ctr_from_str dbg v s = ctr_from_str dbg 5%Z s).
Proof. exact events_new. Qed.
Print Assumptions C22_events_new.
Theorem C22_events_new_print : forall dbg v, old_version v = false ->
  (forall x, brk_to_string dbg v x = brk_to_string dbg 5%Z x) /\ (forall x, vid_to_string_cmd dbg v x = vid_to_string_cmd dbg 5%Z x)
  /\ ((v < 14)%Z -> forall x, ctr_to_string dbg v x = ctr_to_string dbg 5%Z x).
Proof. exact events_new_out. Qed.
Print Assumptions C22_events_new_print.
(** and version 5 itself prints and reads the number as it stands *)
Theorem C22_events_five : forall dbg a b, in_i32 a = true -> in_i32 b = true ->
  brk_to_string dbg 5%Z (mk_brk a b true) = ROk (lit "2," ++ print_Z a ++ lit "," ++ print_Z b)
  /\ brk_from_str dbg 5%Z (lit "2," ++ print_Z a ++ lit "," ++ print_Z b) = ROk (Some (mk_brk a b true)).
Proof. exact brk_five. Qed.
Print Assumptions C22_events_five.
Example C22_events_new_ex : old_version 14%Z = false /\ old_version 5%Z = false
  /\ brk_from_str true 14%Z (lit "2,100,-5") = ROk (Some (mk_brk 100 (-5) true))
  /\ brk_to_string true 5%Z (mk_brk 100 (-5) true) = ROk (lit "2,100,-5")
  /\ (exists x, ctr_from_str true 5%Z (lit "3,100,1,2,3") = ROk (Some x) /\ ctr_start x = 100%Z
      /\ ctr_to_string true 13%Z x = ROk (Some (lit "3,100,1,2,3")))
  /\ exists y, vid_from_str true 9%Z (lit "1,7,a.avi,1,2") = ROk (Some y) /\ vi_start y = 7%Z
      /\ vid_to_string_cmd true 9%Z y = ROk (lit "1,7,a.avi,1,2").
Proof.
  repeat (split; [vm_compute; reflexivity|]).
  split; eexists; (split; [vm_compute; reflexivity|]); split; vm_compute; reflexivity.
Qed.
