(** C67: different values have different texts. *)
From Coq Require Import String List NArith ZArith Bool.
From Verif Require Import Str Num Nom Dec Parsers General Editor Metadata Difficulty Colours TimingPoints HitObjects
  Storyboard NormalEvents Events Osb OsuFile Spec SpecWf SpecText SpecSections SpecFile SpecEvents SpecWhole SpecBack Samples KvSamples SameText.
Import ListNotations.
Local Open Scope N_scope.

(** Two files that can be written have the same text exactly if they hold the same, apart from the
    storyboard file and from fields that their version does not write. *)
Theorem C67_files : forall dbg f g,
  file_ok f = true -> file_ok g = true -> mode_known f = true -> mode_known g = true ->
  (osu_to_string dbg f = osu_to_string dbg g <-> file_at f = file_at g).
Proof. exact files_text. Qed.
Print Assumptions C67_files.
Example C67_files_ex :
  let f n := mk_osu 14%Z None None None (Some metadata1) (Some difficulty1) None (Some [tp1]) (Some [Combo n (mk_rgb 255 128 0)]) None in
  file_ok (f 1%Z) = true /\ file_ok (f 2%Z) = true /\ mode_known (f 1%Z) = true /\ mode_known (f 2%Z) = true
  /\ file_at (f 1%Z) <> file_at (f 2%Z) /\ osu_to_string true (f 1%Z) <> osu_to_string true (f 2%Z).
Proof. repeat split; try (vm_compute; reflexivity); intros H; vm_compute in H; discriminate H. Qed.

(** In every version: files with the same text come back the same. *)
Theorem C67_any_version : forall dbg f g,
  file_can f = true -> file_can g = true -> osu_to_string dbg f = osu_to_string dbg g -> file_back f = file_back g.
Proof. exact backs_text. Qed.
Print Assumptions C67_any_version.
Example C67_any_version_ex :
  let f c := mk_osu 4%Z None None None (Some metadata1) (Some difficulty1) None None c None in
  file_can (f None) = true /\ file_can (f (Some [])) = true
  /\ osu_to_string true (f None) = osu_to_string true (f (Some [])) /\ file_back (f None) = file_back (f (Some [])).
Proof. cbv zeta. repeat split; vm_compute; reflexivity. Qed.

(** The text has the version, whatever else is in the two files. *)
Theorem C67_version : forall dbg f g t,
  osu_to_string dbg f = ROk t -> osu_to_string dbg g = ROk t -> osu_version f = osu_version g.
Proof. exact version_in_text. Qed.
Print Assumptions C67_version.
Example C67_version_ex :
  exists t, osu_to_string true (osu_new 14%Z) = ROk t /\ t = lit "osu file format v14" ++ [c_nl; c_nl]
  /\ osu_to_string true (osu_new 13%Z) <> ROk t.
Proof. eexists. split; [vm_compute; reflexivity|]. split; [reflexivity|]. intros H. vm_compute in H. discriminate H. Qed.

(** The sections that are lists, and single decimals. *)
Theorem C67_colours : forall v l k,
  (4 < v)%Z -> forallb colour_ok l = true -> forallb combo_nonneg l = true -> forallb colour_ok k = true -> forallb combo_nonneg k = true ->
  colours_to_string l v = colours_to_string k v -> l = k.
Proof. exact colours_text_inj. Qed.
Print Assumptions C67_colours.

Theorem C67_timing_points : forall v l k,
  (4 < v)%Z -> forallb (tp_ok v) l = true -> forallb (fun t => index_small (tp_sample_index t)) l = true ->
  forallb (tp_ok v) k = true -> forallb (fun t => index_small (tp_sample_index t)) k = true ->
  timing_points_to_string l v = timing_points_to_string k v -> l = k.
Proof. exact points_text_inj. Qed.
Print Assumptions C67_timing_points.

Theorem C67_hit_objects : forall v l k,
  (4 < v)%Z -> forallb (ho_ok v) l = true -> forallb (ho_ok v) k = true ->
  hit_objects_to_string l v = hit_objects_to_string k v -> l = k.
Proof. exact objects_text_inj. Qed.
Print Assumptions C67_hit_objects.
Example C67_lists_ex :
  forallb (tp_ok 14%Z) [tp1] = true /\ forallb (ho_ok 14%Z) [ho1; ho2; ho3] = true /\ forallb (ho_ok 14%Z) [ho1; ho3] = true
  /\ hit_objects_to_string [ho1; ho2; ho3] 14%Z <> hit_objects_to_string [ho1; ho3] 14%Z.
Proof. repeat split; try (vm_compute; reflexivity). intros H; vm_compute in H; discriminate H. Qed.

Theorem C67_events : forall dbg v l k,
  forallb (event_ok v) l = true -> forallb (event_ok v) k = true ->
  events_to_string dbg l v = events_to_string dbg k v -> l = k.
Proof. exact events_text_inj. Qed.
Print Assumptions C67_events.
Example C67_events_ex :
  let l b := [EComment (lit "Break Periods"); EBreak (mk_brk 100%Z 2500%Z b)] in
  forallb (event_ok 14%Z) (l true) = true /\ forallb (event_ok 14%Z) (l false) = true
  /\ events_to_string true (l true) 14%Z <> events_to_string true (l false) 14%Z.
Proof. repeat split; try (vm_compute; reflexivity). intros H; vm_compute in H; discriminate H. Qed.

Theorem C67_decimals : forall a b,
  wf_decimal a = true -> wf_decimal b = true -> print_decimal a = print_decimal b -> a = b.
Proof. exact decimals_text_inj. Qed.
Print Assumptions C67_decimals.
Example C67_decimals_ex : wf_decimal (DNum (mkDec false 10 1)) = true /\ wf_decimal (DNum (mkDec false 1 0)) = true
  /\ print_decimal (DNum (mkDec false 10 1)) = lit "1.0" /\ print_decimal (DNum (mkDec false 1 0)) = lit "1".
Proof. repeat split; vm_compute; reflexivity. Qed.

(** A value that cannot be read back can have the text of another: a decimal made from the text of a number. *)
Theorem C67_decimals_refuted : exists a b, print_decimal a = print_decimal b /\ a <> b.
Proof. exists (DRaw (lit "1")), (DNum (mkDec false 1 0)). split; [vm_compute; reflexivity|discriminate]. Qed.
Print Assumptions C67_decimals_refuted.
(** And a circle with the sample of all defaults, in a version without samples, that of one without a sample. *)
Theorem C67_hit_objects_refuted : exists v l k, hit_objects_to_string l v = hit_objects_to_string k v /\ l <> k
  /\ exists t, hit_objects_to_string l v = ROk (Some t).
Proof.
  exists 9%Z, [mk_ho (mk_pos (decimal_of_Z 1) (decimal_of_Z 2)) (decimal_of_Z 3) HitCircle false 0%Z (mk_hit_sound false false false false) None],
         [mk_ho (mk_pos (decimal_of_Z 1) (decimal_of_Z 2)) (decimal_of_Z 3) HitCircle false 0%Z (mk_hit_sound false false false false)
            (Some (mk_hit_sample SsNone SsNone HiTimingPoint None []))].
  split; [vm_compute; reflexivity|]. split; [discriminate|]. eexists. vm_compute. reflexivity.
Qed.
Print Assumptions C67_hit_objects_refuted.
