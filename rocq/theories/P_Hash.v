(** C77: hashes agree with [==]. *)
From Coq Require Import String List NArith ZArith Bool.
From Verif Require Import Str Num Dec Parsers General Editor Metadata Difficulty Colours TimingPoints HitObjects
  Storyboard NormalEvents Events Osb OsuFile Equal HashFeed SpecEqual SpecHash Samples KvSamples EqualFacts HashFacts HashFile.
Import ListNotations.
Local Open Scope N_scope.

(** Equal files have the same hash, whatever the hasher. *)
Theorem C77_agrees : forall f g, osu_eq f g = true ->
  forall St (step : St -> hwrite -> St) s, hash_of step s (f_osu f) = hash_of step s (f_osu g).
Proof. exact hash_agrees. Qed.
Print Assumptions C77_agrees.
(** Files that are not equal hand different data to the hasher, if their paths are relative. *)
Theorem C77_tells : forall f g, relative_file f = true -> relative_file g = true -> (f_osu f = f_osu g <-> osu_eq f g = true).
Proof. exact hash_tells. Qed.
Print Assumptions C77_tells.
(** Storyboard files and events: equal ones hand over the same. *)
Theorem C77_osb : forall a b, osb_eq a b = true -> f_osb a = f_osb b.
Proof. exact osb_agrees. Qed.
Print Assumptions C77_osb.
Theorem C77_events : forall a b, event_eq a b = true -> f_event a = f_event b.
Proof. exact event_agrees. Qed.
Print Assumptions C77_events.
(** Decimals, timing points, hit objects and commands hand over the same exactly when they are equal. *)
Theorem C77_decimals : forall a b, f_decimal a = f_decimal b <-> decimal_eq a b = true.
Proof. exact decimal_told. Qed.
Print Assumptions C77_decimals.
Theorem C77_timing_points : forall a b, f_tp a = f_tp b <-> tp_eq a b = true.
Proof. exact tp_told. Qed.
Print Assumptions C77_timing_points.
Theorem C77_hit_objects : forall a b, f_ho a = f_ho b <-> ho_eq a b = true.
Proof. exact ho_told. Qed.
Print Assumptions C77_hit_objects.
Theorem C77_commands : forall a b, f_command a = f_command b <-> command_eq a b = true.
Proof. exact cmd_told. Qed.
Print Assumptions C77_commands.
(** Spellings of a path hand over the same, and relative paths that do are spellings of each other. *)
Theorem C77_paths : forall p q, same_path p q -> f_path p = f_path q.
Proof. exact path_agrees. Qed.
Print Assumptions C77_paths.
Theorem C77_relative_paths : forall p q, relative p = true -> relative q = true -> (f_path p = f_path q <-> same_path p q).
Proof. exact path_tells. Qed.
Print Assumptions C77_relative_paths.
(** A slash in front is not handed over. *)
Theorem C77_paths_refuted : exists p q, ~ same_path p q /\ f_path p = f_path q.
Proof. exists (lit "/a"), (lit "a"). split; [intros H; apply path_same in H; discriminate H|reflexivity]. Qed.
Print Assumptions C77_paths_refuted.
Definition C77_with (p : str) (d : decimal) : osu_file :=
  mk_osu 14%Z None None None (Some metadata1) None
    (Some [EBackground (mk_bg 0%Z p None [mk_cmd (Some 5%Z) (PLoop 2 [mk_cmd (Some 5%Z) (PFade EzLinear None d [])])])]) (Some [tp1]) None (Some [ho1; ho2]).
Theorem C77_tells_refuted : exists f g, osu_eq f g = false /\ f_osu f = f_osu g.
Proof. exists (C77_with (lit "/a") (DRaw [])), (C77_with (lit "a") (DRaw [])). split; vm_compute; reflexivity. Qed.
Print Assumptions C77_tells_refuted.

Example C77_ex :
  let f := C77_with (lit "a/b.png") (DNum (mkDec true 10 1)) in
  let g := C77_with (lit "a//./b.png/") (DNum (mkDec true 1000 3)) in
  let h := C77_with (lit "ab.png") (DNum (mkDec true 10 1)) in
  osu_eq f g = true /\ f <> g /\ f_osu f = f_osu g /\ forallb relative_file [f; g; h] = true /\ f_osu f <> f_osu h /\ osu_eq f h = false
  /\ length (f_osu f) = 187%nat
  /\ f_path (lit "a//./b.png/.") = [WText (lit "a"); WText (lit "b.png"); WUsize 5764607523034234881%Z]
  /\ f_decimal (DNum (mkDec true 1500 3)) = [WIsize 0; WU32 15; WU32 0; WU32 0; WFlags true 1]
  /\ f_decimal (DNum (mkDec true 0 3)) = f_decimal (DNum (mkDec false 0 0))
  /\ f_decimal (DRaw (lit "1.5x")) = [WIsize 1; WText (lit "1.5x"); WU8 255].
Proof. vm_compute. repeat split; congruence. Qed.
