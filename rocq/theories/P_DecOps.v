(** C65: the numbers that the speed functions of timing points compute, and when they panic. *)
From Coq Require Import String List NArith ZArith QArith Qabs Qminmax Bool.
From Verif Require Import Str Num Nom Dec DecOps Parsers TimingPoints Api Helpers SpecWf SpecOld SpecHelpers SpecDecOps RoundOps DecSpeed SpeedRead DivDigits.
Import ListNotations.
Local Open Scope Q_scope.

(** A product is the exact product rounded half to even to as many decimals as fit; there is a
    panic exactly when it is too big. *)
Theorem C65_mul : forall a b, wf_rdec a = true -> wf_rdec b = true -> computes (frac a * frac b) (rdec_mul a b).
Proof. exact mul_computes. Qed.
Print Assumptions C65_mul.
(** The same for a quotient, when the divisor is not zero. *)
Theorem C65_div : forall a b, wf_rdec a = true -> wf_rdec b = true -> ~ frac b == 0 -> computes (frac a / frac b) (rdec_div a b).
Proof. exact div_computes. Qed.
Print Assumptions C65_div.

Theorem C65_div_zero : forall a b, frac b == 0 -> rdec_div a b = (RPanic PDecimal : run rdec).
Proof. exact div_zero. Qed.
Print Assumptions C65_div_zero.
(** A quotient has no zeros at the end of its decimals, unless the mantissas divide; then it has as
    many decimals as the dividend has more than the divisor. *)
Theorem C65_div_digits : forall a b c, rdec_div a b = (ROk c : run rdec) ->
  (d_mant a mod d_mant b)%N <> 0%N -> d_scale c = 0%nat \/ (d_mant c mod 10)%N <> 0%N.
Proof. exact div_digits. Qed.
Print Assumptions C65_div_digits.
Theorem C65_div_exact_digits : forall a b c, rdec_div a b = (ROk c : run rdec) -> d_mant a <> 0%N ->
  (d_mant a mod d_mant b)%N = 0%N ->
  d_scale c = (d_scale a - d_scale b)%nat
  /\ d_mant c = (d_mant a / d_mant b * 10 ^ N.of_nat (d_scale b - d_scale a))%N.
Proof. exact div_exact. Qed.
Print Assumptions C65_div_exact_digits.
(** A product that fits has the decimals of both factors, zeros at the end included. *)
Theorem C65_mul_digits : forall a b, d_mant a <> 0%N -> d_mant b <> 0%N -> (d_scale a + d_scale b <= 28)%nat ->
  (d_mant a * d_mant b < 2 ^ 96)%N ->
  rdec_mul a b = (ROk (mkDec (xorb (d_neg a) (d_neg b)) (d_mant a * d_mant b) (d_scale a + d_scale b)) : run rdec).
Proof. exact mul_exact. Qed.
Print Assumptions C65_mul_digits.
Example C65_digits_ex :
  rdec_div (mkDec false 60000 0) (mkDec false 3200 1) = (ROk (mkDec false 1875 1) : run rdec)
  /\ (60000 mod 3200)%N <> 0%N
  /\ rdec_div (mkDec false 60000 2) (mkDec true 30 0) = (ROk (mkDec true 2000 2) : run rdec)
  /\ rdec_mul (mkDec false 150 2) (mkDec false 20 1) = (ROk (mkDec false 3000 3) : run rdec).
Proof. split; [vm_compute; reflexivity|]. split; [vm_compute; discriminate|]. split; vm_compute; reflexivity. Qed.
(** "Rounded" leaves no choice of the number, and changes no number that can be stored. *)
Theorem C65_rounded_unique : forall x c1 c2, rounds x c1 -> rounds x c2 -> frac c1 == frac c2.
Proof. exact rounds_unique. Qed.
Print Assumptions C65_rounded_unique.

Theorem C65_rounded_exact : forall x c, rounds x c -> storable_number x -> frac c == x.
Proof. exact rounds_exact. Qed.
Print Assumptions C65_rounded_exact.
(** The claim "the result is the nearest number that can be stored" is false: when rounding carries
    into the 97th bit, a whole digit is dropped. *)
Theorem C65_nearest_refuted : exists a b c c', wf_rdec a = true /\ wf_rdec b = true /\ wf_rdec c' = true
  /\ rdec_mul a b = (ROk c : run rdec) /\ Qabs (frac c' - frac a * frac b) < Qabs (frac c - frac a * frac b).
Proof.
  exists (mkDec false 12 1), (mkDec false 66023468761886947994619958613 1), (mkDec false 7922816251426433759354395034 0), (mkDec false 79228162514264337593543950335 1).
  split; [reflexivity|]. split; [reflexivity|]. split; [reflexivity|]. split; [vm_compute; reflexivity|vm_compute; reflexivity].
Qed.
Print Assumptions C65_nearest_refuted.

(** [calc_bpm] of an uninherited point: a panic when the beat length is at most 7573 units of the
    28th decimal, otherwise a number that times the beat length is 60000 up to rounding. *)
Theorem C65_calc_bpm : forall t b, tp_uninherited t = Some true -> tp_beat_length t = DNum b -> wf_rdec b = true ->
  if Qlt_le_dec (units 7573) (Qabs (frac b)) then
    exists m, calc_bpm rdec_div rdec_mul t = ROk (Some m) /\ wf_rdec m = true
    /\ Qabs (frac m * frac b - 60000) <= units 120001 * Qmax 1 (Qabs (frac b))
  else calc_bpm rdec_div rdec_mul t = RPanic PDecimal.
Proof. exact calc_bpm_cases. Qed.
Print Assumptions C65_calc_bpm.
(** [calc_slider_velocity_multiplier] of an inherited point: a panic up to 50 units. *)
Theorem C65_calc_velocity : forall t b, tp_uninherited t = Some false -> tp_beat_length t = DNum b -> wf_rdec b = true ->
  if Qlt_le_dec (units 50) (Qabs (frac b)) then
    exists m, calc_slider_velocity_multiplier rdec_div t = ROk (Some m) /\ wf_rdec m = true
    /\ Qabs (frac m * frac b + 100) <= units 1 * (2 + Qabs (frac m)) * Qmax 100 (Qabs (frac b))
  else calc_slider_velocity_multiplier rdec_div t = RPanic PDecimal.
Proof. exact calc_velocity_cases. Qed.
Print Assumptions C65_calc_velocity.
(** The two conversions... *)
Theorem C65_to_bpm : forall b, wf_rdec b = true ->
  if Qlt_le_dec (units 7573) (Qabs (frac b)) then
    exists m, beat_duration_ms_to_bpm rdec_div rdec_mul b = ROk m /\ wf_rdec m = true
    /\ Qabs (frac m * frac b - 60000) <= units 120001 * Qmax 1 (Qabs (frac b))
  else beat_duration_ms_to_bpm rdec_div rdec_mul b = RPanic PDecimal.
Proof. exact bpm_cases. Qed.
Print Assumptions C65_to_bpm.

Theorem C65_to_beat : forall m, wf_rdec m = true ->
  if Qlt_le_dec (units 30000) (Qabs (frac m)) then
    exists b, bpm_to_beat_duration_ms rdec_div m = ROk b /\ wf_rdec b = true
    /\ Qabs (frac m * frac b - 60000) <= units 1 * (2 + Qabs (frac b)) * Qmax 60000 (Qabs (frac m))
  else bpm_to_beat_duration_ms rdec_div m = RPanic PDecimal.
Proof. exact beat_cases. Qed.
Print Assumptions C65_to_beat.
(** ... and the constructor of inherited points, which panics up to 12 units. *)
Theorem C65_new_inherited : forall time vel meter set index vol e, wf_rdec vel = true ->
  if Qlt_le_dec (units 12) (Qabs (frac vel)) then
    exists t b, tp_new_inherited rdec_div rdec_mul time vel meter set index vol e = ROk t /\ tp_beat_length t = DNum b /\ wf_rdec b = true
    /\ Qabs (frac b * frac vel + 100) <= units 201 * Qmax 1 (Qabs (frac vel))
  else tp_new_inherited rdec_div rdec_mul time vel meter set index vol e = RPanic PDecimal.
Proof. exact inherited_cases. Qed.
Print Assumptions C65_new_inherited.
(** The multiplier that a new inherited point was made with comes back up to rounding. *)
Theorem C65_multiplier : forall time vel meter set index vol e t x, wf_rdec vel = true -> 1 # 100 <= frac vel -> frac vel <= 100 ->
  tp_new_inherited rdec_div rdec_mul time vel meter set index vol e = ROk t -> calc_slider_velocity_multiplier rdec_div t = ROk (Some x) ->
  Qabs (frac x - frac vel) <= units 3000000.
Proof. exact multiplier_back. Qed.
Print Assumptions C65_multiplier.

(** Points that were read: the only panics are those, for every text and version. *)
Theorem C65_read_bpm : forall s v l t, timing_points_from_str s v = ROk (Some l) -> In t l -> forall p,
  calc_bpm rdec_div rdec_mul t = RPanic p
  <-> p = PDecimal /\ tp_uninherited t = Some true /\ exists b, tp_beat_length t = DNum b /\ Qabs (frac b) <= units 7573.
Proof. exact read_bpm. Qed.
Print Assumptions C65_read_bpm.

Theorem C65_read_velocity : forall s v l t, timing_points_from_str s v = ROk (Some l) -> In t l -> forall p,
  calc_slider_velocity_multiplier rdec_div t = RPanic p
  <-> p = PDecimal /\ tp_uninherited t = Some false /\ exists b, tp_beat_length t = DNum b /\ Qabs (frac b) <= units 50.
Proof. exact read_velocity. Qed.
Print Assumptions C65_read_velocity.

(** The results are exact when every number on the way can be stored. *)
Theorem C65_bpm_exact : forall b, wf_rdec b = true -> ~ frac b == 0 -> storable_number (1 / frac b) -> storable_number (60000 / frac b) ->
  exists m, beat_duration_ms_to_bpm rdec_div rdec_mul b = ROk m /\ frac m * frac b == 60000.
Proof. exact bpm_exact_real. Qed.
Print Assumptions C65_bpm_exact.

Theorem C65_beat_exact : forall m, wf_rdec m = true -> ~ frac m == 0 -> storable_number (frac m / 60000) -> storable_number (60000 / frac m) ->
  exists b, bpm_to_beat_duration_ms rdec_div m = ROk b /\ frac m * frac b == 60000.
Proof. exact beat_exact_real. Qed.
Print Assumptions C65_beat_exact.

Theorem C65_multiplier_exact : forall time vel meter set index vol e, wf_rdec vel = true -> ~ frac vel == 0 ->
  storable_number (1 / frac vel) -> storable_number (100 / frac vel) ->
  exists t x, tp_new_inherited rdec_div rdec_mul time vel meter set index vol e = ROk t
  /\ calc_slider_velocity_multiplier rdec_div t = ROk (Some x) /\ frac x == frac vel.
Proof. exact velocity_exact_real. Qed.
Print Assumptions C65_multiplier_exact.
(** It is not enough that the result can be stored: the speed of a beat of 300 ms is not 200. *)
Theorem C65_bpm_refuted : exists s t b m, timing_points_from_str s 14%Z = ROk (Some [t]) /\ tp_beat_length t = DNum b
  /\ storable_number (60000 / frac b) /\ calc_bpm rdec_div rdec_mul t = ROk (Some m) /\ ~ frac m * frac b == 60000.
Proof.
  exists (lit "0,300,4,2,1,60,1,0"). eexists _, (mkDec false 300 0), _. split; [vm_compute; reflexivity|]. split; [reflexivity|].
  split; [exists (mkDec false 200 0); split; [reflexivity|vm_compute; reflexivity]|]. split; [vm_compute; reflexivity|]. vm_compute. discriminate.
Qed.
Print Assumptions C65_bpm_refuted.

Theorem C65_beat_refuted : exists m b, wf_rdec m = true /\ storable_number (60000 / frac m)
  /\ bpm_to_beat_duration_ms rdec_div m = ROk b /\ ~ frac m * frac b == 60000.
Proof.
  exists (mkDec false 200 0). eexists. split; [reflexivity|]. split; [exists (mkDec false 300 0); split; [reflexivity|vm_compute; reflexivity]|].
  split; [vm_compute; reflexivity|]. vm_compute. discriminate.
Qed.
Print Assumptions C65_beat_refuted.

(** ** Examples *)
(** Something is rounded, and something is too big. *)
Example C65_mul_ex : (exists c, rdec_mul (mkDec false 33333333333333333333 19) (mkDec true 7 10) = (ROk c : run rdec) /\ print_rdec c = lit "-0.0000000023333333333333333333")
  /\ rdec_mul (mkDec false 79228162514264337593543950335 0) (mkDec false 10 0) = (RPanic PDecimal : run rdec).
Proof. split; [eexists; split; vm_compute; reflexivity|vm_compute; reflexivity]. Qed.
Example C65_div_ex : (exists c, rdec_div (mkDec true 20 1) (mkDec false 3 0) = (ROk c : run rdec) /\ print_rdec c = lit "-0.6666666666666666666666666667")
  /\ (exists c, rdec_div (mkDec false 79228162514264337593543950335 0) (mkDec false 7 0) = (ROk c : run rdec) /\ print_rdec c = lit "11318308930609191084791992905")
  /\ rdec_div (mkDec false 8 0) (mkDec false 1 28) = (RPanic PDecimal : run rdec) /\ ~ frac (mkDec false 1 28) == 0.
Proof.
  split; [eexists; split; vm_compute; reflexivity|]. split; [eexists; split; vm_compute; reflexivity|]. split; [vm_compute; reflexivity|vm_compute; discriminate].
Qed.
Example C65_div_zero_ex : frac (mkDec false 0 5) == 0.
Proof. reflexivity. Qed.
Example C65_rounded_ex : rounds (1 # 3) (mkDec false 3333333333333333333333333333 28) /\ storable_number (1 # 4).
Proof.
  split; [|exists (mkDec false 25 2); split; [reflexivity|vm_compute; reflexivity]]. split; [reflexivity|]. exists 28%nat.
  split; [split; vm_compute; repeat constructor|]. split; [vm_compute; discriminate|]. split; [intros H; vm_compute in H; discriminate|now left].
Qed.
Example C65_calc_bpm_ex : exists t b m, timing_points_from_str (lit "0,7,4,2,1,60,1,0") 14%Z = ROk (Some [t]) /\ tp_uninherited t = Some true /\ tp_beat_length t = DNum b
  /\ wf_rdec b = true /\ units 7573 < Qabs (frac b) /\ calc_bpm rdec_div rdec_mul t = ROk (Some m) /\ print_rdec m = lit "8571.428571428571428571428574".
Proof. eexists _, (mkDec false 7 0), _. split; [vm_compute; reflexivity|]. split; [reflexivity|]. split; [reflexivity|]. split; [reflexivity|]. split; [vm_compute; reflexivity|]. split; vm_compute; reflexivity. Qed.
(** The border: 7573 units panic, 7574 do not. *)
Example C65_read_bpm_ex : exists t1 t2 b m, timing_points_from_str (lit "0,0.0000000000000000000000007573,4,2,1,60,1,0
0,0.0000000000000000000000007574,4,2,1,60,1,0") 14%Z = ROk (Some [t1; t2]) /\ tp_uninherited t1 = Some true /\ tp_beat_length t1 = DNum b /\ Qabs (frac b) <= units 7573
  /\ calc_bpm rdec_div rdec_mul t1 = RPanic PDecimal /\ calc_bpm rdec_div rdec_mul t2 = ROk (Some m).
Proof. eexists _, _, (mkDec false 7573 28), _. split; [vm_compute; reflexivity|]. split; [reflexivity|]. split; [reflexivity|]. split; [vm_compute; discriminate|]. split; vm_compute; reflexivity. Qed.
Example C65_read_velocity_ex : exists t1 t2 b x, timing_points_from_str (lit "0,-0.0000000000000000000000000050,4,2,1,60,0,0
0,-0.0000000000000000000000000051,4,2,1,60,0,0") 14%Z = ROk (Some [t1; t2]) /\ tp_uninherited t1 = Some false /\ tp_beat_length t1 = DNum b /\ Qabs (frac b) <= units 50
  /\ calc_slider_velocity_multiplier rdec_div t1 = RPanic PDecimal /\ calc_slider_velocity_multiplier rdec_div t2 = ROk (Some x).
Proof. eexists _, _, (mkDec true 50 28), _. split; [vm_compute; reflexivity|]. split; [reflexivity|]. split; [reflexivity|]. split; [vm_compute; discriminate|]. split; vm_compute; reflexivity. Qed.
Example C65_to_beat_ex : (exists b, bpm_to_beat_duration_ms rdec_div (mkDec false 180 0) = ROk b /\ print_rdec b = lit "333.33333333333333333333333333")
  /\ bpm_to_beat_duration_ms rdec_div (mkDec false 30000 28) = RPanic PDecimal /\ exists b, bpm_to_beat_duration_ms rdec_div (mkDec false 30001 28) = ROk b.
Proof. split; [eexists; split; vm_compute; reflexivity|]. split; [vm_compute; reflexivity|]. eexists. vm_compute. reflexivity. Qed.
Example C65_new_inherited_ex : (exists t x, tp_new_inherited rdec_div rdec_mul 5 (mkDec false 3 0) 4 TsSoft SiDefault 60 0%Z = ROk t /\ wf_rdec (mkDec false 3 0) = true
    /\ (1 # 100) <= frac (mkDec false 3 0) <= 100
    /\ calc_slider_velocity_multiplier rdec_div t = ROk (Some x) /\ ~ frac x == 3)
  /\ tp_new_inherited rdec_div rdec_mul 5 (mkDec false 12 28) 4 TsSoft SiDefault 60 0%Z = RPanic PDecimal
  /\ exists t, tp_new_inherited rdec_div rdec_mul 5 (mkDec false 13 28) 4 TsSoft SiDefault 60 0%Z = ROk t.
Proof.
  split; [eexists _, _; split; [vm_compute; reflexivity|]; split; [reflexivity|]; split; [split; vm_compute; discriminate|]; split; [vm_compute; reflexivity|vm_compute; discriminate]|].
  split; [vm_compute; reflexivity|]. eexists. vm_compute. reflexivity.
Qed.
(** A beat of 312.5 ms and a multiplier of 1.25 meet the hypotheses of the exact results. *)
Example C65_exact_ex : storable_number (1 / frac (mkDec false 3125 1)) /\ storable_number (60000 / frac (mkDec false 3125 1))
  /\ storable_number (frac (mkDec false 1875 1) / 60000) /\ storable_number (60000 / frac (mkDec false 1875 1))
  /\ storable_number (1 / frac (mkDec false 125 2)) /\ storable_number (100 / frac (mkDec false 125 2)).
Proof.
  split; [exists (mkDec false 32 4); now vm_compute|]. split; [exists (mkDec false 192 0); now vm_compute|]. split; [exists (mkDec false 3125 6); now vm_compute|].
  split; [exists (mkDec false 320 0); now vm_compute|]. split; [exists (mkDec false 8 1); now vm_compute|exists (mkDec false 80 0); now vm_compute].
Qed.
