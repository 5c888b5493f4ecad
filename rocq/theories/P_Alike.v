(** C79: equal values are treated alike. *)
From Coq Require Import String List NArith ZArith Bool.
From Verif Require Import Str Num Nom Dec DecOps Parsers TimingPoints Storyboard Events Osb OsuFile Api Helpers Equal SpecWf SpecEqual SpecAlike Alike.
Import ListNotations.
Local Open Scope N_scope.

(** Products and quotients of equal numbers are equal, or both panic. *)
Theorem C79_numbers : forall a b a' b', wf_rdec a = true -> wf_rdec b = true -> wf_rdec a' = true -> wf_rdec b' = true ->
  rdec_eq a a' = true -> rdec_eq b b' = true ->
  alike rdec_eq (rdec_mul a b) (rdec_mul a' b') /\ alike rdec_eq (rdec_div a b) (rdec_div a' b').
Proof. intros; split; [apply mul_alike|apply div_alike]; assumption. Qed.
Print Assumptions C79_numbers.
(** Equal timing points have equal speeds, or none, or both panic. *)
Theorem C79_timing_points : forall t u, wf_decimal (tp_beat_length t) = true -> wf_decimal (tp_beat_length u) = true -> tp_eq t u = true ->
  alike (opt_eq rdec_eq) (calc_bpm rdec_div rdec_mul t) (calc_bpm rdec_div rdec_mul u)
  /\ alike (opt_eq rdec_eq) (calc_slider_velocity_multiplier rdec_div t) (calc_slider_velocity_multiplier rdec_div u).
Proof. intros t u W W' E. exact (conj (bpm_alike t u W W' E) (velocity_alike t u W W' E)). Qed.
Print Assumptions C79_timing_points.
(** The conversions between beats per minute and milliseconds per beat, and new points with a velocity. *)
Theorem C79_speeds : forall a b, wf_rdec a = true -> wf_rdec b = true -> rdec_eq a b = true ->
  alike rdec_eq (beat_duration_ms_to_bpm rdec_div rdec_mul a) (beat_duration_ms_to_bpm rdec_div rdec_mul b)
  /\ alike rdec_eq (bpm_to_beat_duration_ms rdec_div a) (bpm_to_beat_duration_ms rdec_div b)
  /\ forall time meter set index vol e,
     alike tp_eq (tp_new_inherited rdec_div rdec_mul time a meter set index vol e) (tp_new_inherited rdec_div rdec_mul time b meter set index vol e).
Proof.
  intros a b W W' E. split; [exact (to_bpm_alike a b W W' E)|split; [exact (to_beat_alike a b W W' E)|]].
  intros. exact (inherited_alike _ _ _ _ _ _ _ _ W W' E).
Qed.
Print Assumptions C79_speeds.
(** Equal paths: the frames of an animation have the same names, and sprites are refused alike. *)
Theorem C79_paths : forall p q, same_path p q ->
  (forall n, frame_file_names n p = frame_file_names n q)
  /\ ((sprite_new p = ROk p /\ sprite_new q = ROk q) \/ (sprite_new p = RErr tt /\ sprite_new q = RErr tt)).
Proof. intros p q H. exact (conj (fun n => frames_alike n p q H) (sprite_alike p q H)). Qed.
Print Assumptions C79_paths.
(** Equal files are equal after a storyboard was put into each, and it is refused by both for the same reason or by none. *)
Theorem C79_append : forall dbg s f g f' g' r q, osu_eq f g = true -> append_osb dbg f s = (f', r) -> append_osb dbg g s = (g', q) ->
  r = q /\ osu_eq f' g' = true.
Proof. exact append_alike. Qed.
Print Assumptions C79_append.
(** Equal commands pushed onto equal lists give equal lists, or are refused for the same reason. *)
Theorem C79_push : forall cs ds c d indentation, list_eq command_eq cs ds = true -> command_eq c d = true ->
  alike_or (list_eq command_eq) (try_push_cmd cs c indentation) (try_push_cmd ds d indentation).
Proof. exact push_alike. Qed.
Print Assumptions C79_push.
(** The digits of equal results may still differ. *)
Theorem C79_digits_refuted : exists a a' b c d, wf_rdec a = true /\ wf_rdec a' = true /\ rdec_eq a a' = true
  /\ rdec_mul a b = (ROk c : run rdec) /\ rdec_mul a' b = (ROk d : run rdec) /\ c <> d.
Proof.
  exists (mkDec false 15 1), (mkDec false 150 2), (mkDec false 2 0), (mkDec false 30 1), (mkDec false 300 2).
  vm_compute. repeat split; congruence.
Qed.
Print Assumptions C79_digits_refuted.

Example C79_ex :
  let t b := mk_tp (DNum (mkDec false 5 0)) (DNum b) 4%Z TsNormal SiDefault 50%Z (Some true) (Some 0%Z) in
  tp_eq (t (mkDec false 7 0)) (t (mkDec false 7000 3)) = true
  /\ calc_bpm rdec_div rdec_mul (t (mkDec false 7 0)) = ROk (Some (mkDec false 8571428571428571428571428574 24))
  /\ calc_bpm rdec_div rdec_mul (t (mkDec false 0 2)) = RPanic PDecimal
  /\ path_eq (lit "a/./b.png") (lit "a//b.png") = true
  /\ frame_file_names 2%Z (lit "a//b.png/") = ROk [lit "b0.png"; lit "b1.png"]
  /\ (let loop l := mk_cmd (Some 0%Z) (PLoop 2%Z l) in
      try_push_cmd [loop []] (loop []) 2%nat = ROk [loop [loop []]]
      /\ try_push_cmd [loop []] (loop []) 4%nat = RErr (InvalidIndentation 0%nat 4%nat)).
Proof. vm_compute. repeat split. Qed.
