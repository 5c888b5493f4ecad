(** C41: the names of the frames of an animation.  C42: the speed of a timing point. *)
From Coq Require Import String List NArith ZArith QArith Qabs Qminmax Bool.
From Verif Require Import Str Num Nom Dec Parsers TimingPoints NormalEvents Api Helpers SpecHelpers HelperFacts HelperSamples NearFacts.
Import ListNotations.
Local Open Scope N_scope.

(** Frame [i] of an animation is the file name with [i] before the extension. *)
Theorem C41_frames : forall count p n stem ext, names_file p n -> stem_ext n stem ext ->
  exists l, frame_file_names count p = ROk l /\ length l = Z.to_nat count
  /\ forall i, (i < Z.to_nat count)%nat -> nth_error l i = Some (stem ++ print_Z (Z.of_nat i) ++ ext).
Proof. exact frames_nth. Qed.
Print Assumptions C41_frames.
(** Every name has a stem and an extension. *)
Theorem C41_stem : forall n, exists stem ext, stem_ext n stem ext.
Proof. exact stem_total. Qed.
Print Assumptions C41_stem.
(** It panics exactly when the path names no file; the frame count does not matter. *)
Theorem C41_panic : forall count p,
  (exists x, frame_file_names count p = RPanic x) <-> forall n, ~ names_file p n.
Proof. exact frames_panic. Qed.
Print Assumptions C41_panic.
(** No two frames have the same name. *)
Theorem C41_distinct : forall count p l, frame_file_names count p = ROk l -> NoDup l.
Proof. exact frames_distinct. Qed.
Print Assumptions C41_distinct.
(** The directory is lost: animations in different directories have the same frames. *)
Theorem C41_directory_lost : forall count p q n, names_file p n -> names_file q n ->
  frame_file_names count p = frame_file_names count q.
Proof. exact frames_same. Qed.
Print Assumptions C41_directory_lost.
(** [Sprite::new] refuses exactly the paths that begin with a slash and keeps the others. *)
Theorem C41_sprite : forall p,
  (sprite_new p = ROk p /\ forall r, p <> 47 :: r) \/ (sprite_new p = RErr tt /\ exists r, p = 47 :: r).
Proof. exact sprite_new_spec. Qed.
Print Assumptions C41_sprite.

Example C41_ex : names_file (lit "sb/fire.tail.png") (lit "fire.tail.png")
  /\ stem_ext (lit "fire.tail.png") (lit "fire.tail") (lit ".png")
  /\ frame_file_names 2 (lit "sb/fire.tail.png") = ROk [lit "fire.tail0.png"; lit "fire.tail1.png"].
Proof.
  split; [|split; [|vm_compute; reflexivity]].
  - exists (lit "sb/"), []. split; [reflexivity|]. split; [right; now exists (lit "sb")|]. split; [constructor|].
    split; [reflexivity|]. split; [discriminate|]. split; discriminate.
  - split; [reflexivity|]. right. split; [discriminate|]. now exists (lit "png").
Qed.
Example C41_panic_ex : (exists x, frame_file_names 1 (lit "sb/..") = RPanic x) /\ (exists x, frame_file_names 0 [] = RPanic x).
Proof. split; now exists PUnwrap. Qed.
(** The quotes that a path with a space is written with are taken for part of the name; with a
    directory only the closing one is left. *)
Example C41_quote_ex :
  frame_file_names 1 (34 :: lit "sb/a b.png" ++ [34]) = ROk [lit "a b0.png" ++ [34]].
Proof. vm_compute. reflexivity. Qed.

(** What the two functions compute, for any division and multiplication: the speed of a point
    that is marked as uninherited, the multiplier of a point that is marked as inherited,
    nothing when the mark is missing or the beat length is no number. *)
Theorem C42_value : forall div mul t,
  (forall b, tp_uninherited t = Some true -> tp_beat_length t = DNum b ->
     calc_bpm div mul t = rmap Some (rbind (div (mkDec false 1 0) b) (fun x => mul x (mkDec false 60000 0)))
     /\ calc_slider_velocity_multiplier div t = ROk None)
  /\ (forall b, tp_uninherited t = Some false -> tp_beat_length t = DNum b ->
     calc_slider_velocity_multiplier div t = rmap Some (rbind (div b (mkDec true 100 0)) (fun x => div (mkDec false 1 0) x))
     /\ calc_bpm div mul t = ROk None)
  /\ ((tp_uninherited t = None \/ exists r, tp_beat_length t = DRaw r) ->
     calc_bpm div mul t = ROk None /\ calc_slider_velocity_multiplier div t = ROk None).
Proof. exact bpm_value. Qed.
Print Assumptions C42_value.
(** When nothing is rounded, beats per minute times milliseconds per beat is 60000, both ways. *)
Theorem C42_bpm : forall div mul b m, exact_div div -> exact_mul mul ->
  beat_duration_ms_to_bpm div mul b = ROk m -> (frac m * frac b == 60000)%Q.
Proof. exact bpm_exact. Qed.
Print Assumptions C42_bpm.
Theorem C42_beat : forall div b m, exact_div div -> bpm_to_beat_duration_ms div m = ROk b -> (frac m * frac b == 60000)%Q.
Proof. exact beat_exact. Qed.
Print Assumptions C42_beat.
(** ... and the multiplier of a new inherited point is the one it was made with. *)
Theorem C42_velocity : forall div mul time vel meter set index vol e t x, exact_div div -> exact_mul mul ->
  tp_new_inherited div mul time vel meter set index vol e = ROk t ->
  calc_slider_velocity_multiplier div t = ROk (Some x) -> (frac x == frac vel)%Q.
Proof. exact velocity_exact. Qed.
Print Assumptions C42_velocity.
(** With arithmetic that rounds, as the real one does, the same up to an error that is
    proportional to the rounding [u] of one operation. *)
Theorem C42_bpm_near : forall u div mul b m, (0 <= u)%Q -> near_div u div -> near_mul u mul ->
  beat_duration_ms_to_bpm div mul b = ROk m ->
  (Qabs (frac m * frac b - 60000) <= 60000 * (2 * u + u * u) * Qmax 1 (Qabs (frac b)))%Q.
Proof. exact bpm_near. Qed.
Print Assumptions C42_bpm_near.
Theorem C42_beat_near : forall u div b m, (0 <= u)%Q -> near_div u div -> bpm_to_beat_duration_ms div m = ROk b ->
  (Qabs (frac m * frac b - 60000) <= u * (1 + u + Qabs (frac b)) * Qmax 60000 (Qabs (frac m)))%Q.
Proof. exact beat_near. Qed.
Print Assumptions C42_beat_near.
Theorem C42_velocity_near : forall u div mul time vel meter set index vol e t x,
  (0 <= u)%Q -> (u <= 1 # 1000000000000)%Q -> (1 # 100 <= frac vel)%Q -> (frac vel <= 100)%Q ->
  near_div u div -> near_mul u mul ->
  tp_new_inherited div mul time vel meter set index vol e = ROk t ->
  calc_slider_velocity_multiplier div t = ROk (Some x) -> (Qabs (frac x - frac vel) <= 3000000 * u)%Q.
Proof. exact velocity_near. Qed.
Print Assumptions C42_velocity_near.

(** A beat length of zero makes [calc_bpm] panic, because dividing by zero does. *)
Theorem C42_zero : forall div mul t b, (forall x y, is_zero y = true -> exists p, div x y = RPanic p) ->
  tp_uninherited t = Some true -> tp_beat_length t = DNum b -> is_zero b = true ->
  exists p, calc_bpm div mul t = RPanic p.
Proof. exact bpm_zero. Qed.
Print Assumptions C42_zero.
(** Points of files of versions 3 and 4 carry no mark... *)
Theorem C42_old : forall s v l t, (v <= 4)%Z -> timing_points_from_str s v = ROk (Some l) -> In t l ->
  tp_uninherited t = None.
Proof. exact timing_old_none. Qed.
Print Assumptions C42_old.
(** ... so they have no speed although [uninherited] says they are uninherited: the claim
    "calc_bpm is None only for inherited points or beat lengths that are no numbers" is false. *)
Theorem C42_bpm_missing_refuted : exists s v t b, timing_points_from_str s v = ROk (Some [t])
  /\ tp_is_uninherited t = true /\ tp_beat_length t = DNum b
  /\ forall div mul, calc_bpm div mul t = ROk None.
Proof.
  exists (lit "100,300,4,1,1"), 4%Z. eexists _, _. split; [vm_compute; reflexivity|]. split; [reflexivity|].
  split; [reflexivity|]. reflexivity.
Qed.
Print Assumptions C42_bpm_missing_refuted.

Example C42_exact_ex : exact_div ex_div /\ exact_mul ex_mul.
Proof. split; [exact ex_div_exact|exact ex_mul_exact]. Qed.
Example C42_bpm_ex : exists t m, timing_points_from_str (lit "0,312.5,4,2,1,60,1,0") 14%Z = ROk (Some [t])
  /\ calc_bpm ex_div ex_mul t = ROk (Some m) /\ (frac m == 192)%Q
  /\ exists b, bpm_to_beat_duration_ms ex_div (mkDec false 192 0) = ROk b.
Proof. eexists _, _. split; [vm_compute; reflexivity|]. split; [vm_compute; reflexivity|]. split; [reflexivity|]. eexists. vm_compute. reflexivity. Qed.
Example C42_velocity_ex : exists t x, tp_new_inherited ex_div ex_mul 5 (mkDec false 125 2) 4 TsSoft SiDefault 60 0%Z = ROk t
  /\ calc_slider_velocity_multiplier ex_div t = ROk (Some x) /\ (frac x == 125 # 100)%Q.
Proof. eexists _, _. split; [vm_compute; reflexivity|]. split; [vm_compute; reflexivity|]. reflexivity. Qed.
Example C42_zero_ex : exists t b, timing_points_from_str (lit "0,0.00,4,2,1,60,1,0") 14%Z = ROk (Some [t])
  /\ tp_uninherited t = Some true /\ tp_beat_length t = DNum b /\ is_zero b = true
  /\ calc_bpm ex_div ex_mul t = RPanic PDecimal.
Proof. eexists _, _. split; [vm_compute; reflexivity|]. repeat split. Qed.
(** Cutting at the 28th decimal is such arithmetic; one seventh is not exact. *)
Example C42_near_ex : near_div tiny cut_div /\ near_mul tiny cut_mul /\ (0 <= tiny)%Q /\ (tiny <= 1 # 1000000000000)%Q.
Proof. split; [exact cut_div_near|]. split; [exact cut_mul_near|]. split; vm_compute; discriminate. Qed.
Example C42_bpm_near_ex : exists m, beat_duration_ms_to_bpm cut_div cut_mul (mkDec false 7 0) = ROk m
  /\ print_rdec m = lit "8571.4285714285714285714285680000" /\ ~ (frac m * 7 == 60000)%Q
  /\ exists b, bpm_to_beat_duration_ms cut_div (mkDec false 7 0) = ROk b /\ ~ (7 * frac b == 60000)%Q.
Proof. eexists. split; [vm_compute; reflexivity|]. split; [vm_compute; reflexivity|]. split; [intros H; vm_compute in H; discriminate|].
  eexists. split; [vm_compute; reflexivity|]. intros H; vm_compute in H; discriminate. Qed.
Example C42_velocity_near_ex : exists t x, tp_new_inherited cut_div cut_mul 5 (mkDec false 7 0) 4 TsSoft SiDefault 60 0%Z = ROk t
  /\ calc_slider_velocity_multiplier cut_div t = ROk (Some x) /\ ~ (frac x == 7)%Q.
Proof. eexists _, _. split; [vm_compute; reflexivity|]. split; [vm_compute; reflexivity|]. intros H; vm_compute in H; discriminate. Qed.
