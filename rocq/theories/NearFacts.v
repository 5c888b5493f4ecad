(** Speeds with arithmetic that rounds (C42): proofs. *)
From Coq Require Import String List NArith ZArith QArith Qabs Qminmax Bool Lia Lqa.
From Verif Require Import Str Num Nom Dec Parsers TimingPoints NormalEvents Api Helpers SpecOld SpecHelpers HelperFacts HelperSamples.
Import ListNotations.
Local Open Scope Q_scope.

Lemma abs_le x y : Qabs x <= y -> - y <= x <= y.
Proof. apply Qabs_Qle_condition. Qed.
Lemma mul_le a b c d : 0 <= a -> a <= c -> 0 <= b -> b <= d -> a * b <= c * d.
Proof. intros. nra. Qed.
Lemma abs_cases x : Qabs x == x /\ 0 <= x \/ Qabs x == - x /\ x <= 0.
Proof. destruct (Qlt_le_dec x 0) as [H|H]; [right|left]; (split; [|lra]); [apply Qabs_neg; lra|now apply Qabs_pos]. Qed.
Lemma max_ge a b : a <= Qmax a b /\ b <= Qmax a b.
Proof. split; [apply Q.le_max_l|apply Q.le_max_r]. Qed.
Lemma max_le a b c : a <= c -> b <= c -> Qmax a b <= c.
Proof. apply Q.max_lub. Qed.
Lemma bpm_near u div mul b m : 0 <= u -> near_div u div -> near_mul u mul -> beat_duration_ms_to_bpm div mul b = ROk m ->
  Qabs (frac m * frac b - 60000) <= 60000 * (2 * u + u * u) * Qmax 1 (Qabs (frac b)).
Proof.
  intros Hu Hd Hm. unfold beat_duration_ms_to_bpm. change d_one with (mkDec false 1 0). change (rdec_of_Z 60000) with (mkDec false 60000 0).
  destruct (div _ b) as [x| |] eqn:E; try easy. cbn [rbind]. intros H. apply Hd in E as [Hb E]. apply Hm in H. rewrite frac_one in E. rewrite frac_60000 in H.
  change (Qabs 1) with 1 in E. set (B := frac b) in *. set (X := frac x) in *. set (M := frac m) in *. set (K := Qmax 1 (Qabs B)) in *.
  destruct (max_ge 1 (Qabs B)) as [K1 K2]. fold K in K1, K2.
  assert (Eq : M * B - 60000 == (M - X * 60000) * B + 60000 * (X * B - 1)) by ring. rewrite Eq.
  eapply Qle_trans; [apply Qabs_triangle|]. rewrite !Qabs_Qmult. change (Qabs 60000) with 60000.
  assert (P : Qmax 1 (Qabs (X * 60000)) * Qabs B <= 60000 * (1 + u) * K).
  { rewrite <- (Q.max_mono (fun q => q * Qabs B)).
    - apply max_le.
      + pose proof (Qabs_nonneg B). nra.
      + rewrite Qabs_Qmult. change (Qabs 60000) with 60000.
        assert (T : Qabs (X * B) <= 1 + u * K).
        { setoid_replace (X * B) with ((X * B - 1) + 1) by ring. eapply Qle_trans; [apply Qabs_triangle|]. change (Qabs 1) with 1. lra. }
        rewrite Qabs_Qmult in T. nra.
    - intros p q ->. reflexivity.
    - intros p q L. apply Qmult_le_compat_r; [exact L|apply Qabs_nonneg]. }
  pose proof (Qabs_nonneg B). pose proof (Qabs_nonneg (X * B - 1)).
  assert (P2 : Qabs (M - X * 60000) * Qabs B <= u * (Qmax 1 (Qabs (X * 60000)) * Qabs B)) by nra.
  assert (P3 : u * (Qmax 1 (Qabs (X * 60000)) * Qabs B) <= u * (60000 * (1 + u) * K)).
  { rewrite !(Qmult_comm u). apply Qmult_le_compat_r; assumption. }
  lra.
Qed.
Lemma beat_near u div b m : 0 <= u -> near_div u div -> bpm_to_beat_duration_ms div m = ROk b ->
  Qabs (frac m * frac b - 60000) <= u * (1 + u + Qabs (frac b)) * Qmax 60000 (Qabs (frac m)).
Proof.
  intros Hu Hd. unfold bpm_to_beat_duration_ms. change d_one with (mkDec false 1 0). change (rdec_of_Z 60000) with (mkDec false 60000 0).
  destruct (div m _) as [x| |] eqn:E; try easy. cbn [rbind]. intros H. apply Hd in E as [_ E]. apply Hd in H as [Hx H]. rewrite frac_one in H. rewrite frac_60000 in E.
  change (Qabs 1) with 1 in H. change (Qabs 60000) with 60000 in E. rewrite Q.max_comm in E.
  set (B := frac b) in *. set (X := frac x) in *. set (M := frac m) in *. set (K := Qmax 60000 (Qabs M)) in *.
  destruct (max_ge 60000 (Qabs M)) as [K1 K2]. fold K in K1, K2.
  assert (Eq : M * B - 60000 == 60000 * (B * X - 1) + - ((X * 60000 - M) * B)) by ring. rewrite Eq.
  eapply Qle_trans; [apply Qabs_triangle|]. rewrite Qabs_opp, !Qabs_Qmult. change (Qabs 60000) with 60000.
  assert (P : 60000 * Qmax 1 (Qabs X) <= (1 + u) * K).
  { rewrite <- (Q.max_mono (fun q => 60000 * q)).
    - apply max_le; [nra|].
      assert (T : Qabs (X * 60000) <= K + u * K).
      { setoid_replace (X * 60000) with ((X * 60000 - M) + M) by ring. eapply Qle_trans; [apply Qabs_triangle|]. lra. }
      rewrite Qabs_Qmult in T. change (Qabs 60000) with 60000 in T. lra.
    - intros p q ->. reflexivity.
    - intros p q L. lra. }
  pose proof (Qabs_nonneg B).
  assert (P2 : Qabs (X * 60000 - M) * Qabs B <= u * K * Qabs B) by (apply Qmult_le_compat_r; assumption).
  assert (P3 : u * (60000 * Qmax 1 (Qabs X)) <= u * ((1 + u) * K)). { rewrite !(Qmult_comm u). apply Qmult_le_compat_r; assumption. }
  lra.
Qed.
Lemma abs_mul_le a b p q : Qabs a <= p -> Qabs b <= q -> Qabs (a * b) <= p * q.
Proof. intros H1 H2. rewrite Qabs_Qmult. pose proof (Qabs_nonneg a). pose proof (Qabs_nonneg b). apply mul_le; assumption. Qed.
Lemma near_core u v y b z w : 0 <= u -> u <= 1 # 1000000000000 -> 1 # 100 <= v -> v <= 100 ->
  Qabs (y * v - 1) <= u * Qmax 1 (Qabs v) -> Qabs (b - y * -100) <= u * Qmax 1 (Qabs (y * -100)) ->
  Qabs (z * -100 - b) <= u * Qmax (Qabs b) 100 -> Qabs (w * z - 1) <= u * Qmax 1 (Qabs z) ->
  Qabs (w - v) <= 3000000 * u.
Proof.
  intros Hu Hs V1 V2 A1 A2 A3 A4.
  assert (Up : forall x M, Qabs x <= u * M -> forall N, M <= N -> Qabs x <= N * u).
  { intros x M L N LN. eapply Qle_trans; [exact L|]. rewrite Qmult_comm. now apply Qmult_le_compat_r. }
  apply (fun H => Up _ _ H 100) in A1; [|apply max_le; [lra|rewrite Qabs_pos; lra]].
  pose proof (abs_le _ _ A1) as [Y1 Y2].
  assert (Yu : y <= 101) by nra. assert (Yl : 99 # 10000 <= y) by nra.
  apply (fun H => Up _ _ H 10100) in A2.
  2:{ apply max_le; [lra|]. rewrite Qabs_neg; lra. }
  pose proof (abs_le _ _ A2) as [B1 B2].
  apply (fun H => Up _ _ H 10101) in A3.
  2:{ apply max_le; [|lra]. rewrite Qabs_neg; lra. }
  pose proof (abs_le _ _ A3) as [Z1 Z2].
  assert (D : Qabs (y - z) <= 203 * u). { apply Qabs_Qle_condition. lra. }
  pose proof (abs_le _ _ D) as [D1 D2].
  apply (fun H => Up _ _ H 102) in A4.
  2:{ apply max_le; [lra|]. rewrite Qabs_pos; lra. }
  pose proof (abs_le _ _ A4) as [W1 W2].
  assert (Wu : w <= 103) by nra. assert (Wl : 0 <= w) by nra.
  assert (Wa : Qabs w <= 103) by (rewrite Qabs_pos; assumption). assert (Va : Qabs v <= 100) by (rewrite Qabs_pos; lra).
  assert (Eq : w - v == w * - (y * v - 1) + (v * (w * z - 1) + v * w * (y - z))) by ring. rewrite Eq.
  assert (T1 : Qabs (w * - (y * v - 1)) <= 103 * (100 * u)). { apply abs_mul_le; [exact Wa|]. now rewrite Qabs_opp. }
  assert (T2 : Qabs (v * (w * z - 1)) <= 100 * (102 * u)) by now apply abs_mul_le.
  assert (T3 : Qabs (v * w * (y - z)) <= 100 * 103 * (203 * u)). { apply abs_mul_le; [now apply abs_mul_le|exact D]. }
  eapply Qle_trans; [apply Qabs_triangle|]. pose proof (Qabs_triangle (v * (w * z - 1)) (v * w * (y - z))). lra.
Qed.
Lemma velocity_near u div mul time vel meter set index vol e t x : 0 <= u -> u <= 1 # 1000000000000 ->
  1 # 100 <= frac vel -> frac vel <= 100 -> near_div u div -> near_mul u mul ->
  tp_new_inherited div mul time vel meter set index vol e = ROk t -> calc_slider_velocity_multiplier div t = ROk (Some x) ->
  Qabs (frac x - frac vel) <= 3000000 * u.
Proof.
  intros Hu Hs V1 V2 Hd Hm H Hx. apply new_inherited_value in H as (_ & _ & _ & _ & y & b & H1 & H2 & _ & _ & H3). rewrite H3 in Hx. clear H3.
  destruct (div b (mkDec true 100 0)) as [z| |] eqn:E; try easy. cbn [rbind] in Hx.
  destruct (div (mkDec false 1 0) z) as [w| |] eqn:E2; try easy. cbn in Hx. injection Hx as ->.
  apply Hd in H1 as [_ H1]. apply Hm in H2. apply Hd in E as [_ E]. apply Hd in E2 as [_ E2].
  rewrite frac_one in H1, E2. rewrite frac_m100 in H2, E. change (Qabs 1) with 1 in *. change (Qabs (-100)) with 100 in E.
  eapply near_core; eassumption.
Qed.

(** arithmetic that cuts at the 28th decimal, as a case of this *)
Definition cut_div (a b : rdec) : run rdec :=
  let n := (numerator a * denominator b * 10 ^ 28)%Z in
  let d := (denominator a * numerator b)%Z in
  if (d =? 0)%Z then RPanic PDecimal else ROk (of_num (n / d) 28).
Definition cut_mul (a b : rdec) : run rdec :=
  ROk (of_num (numerator a * numerator b * 10 ^ 28 / (denominator a * denominator b)) 28).
Definition tiny : Q := 1 # (10 ^ 28).
Lemma cut_gen P n d : (0 < P)%Z -> d <> 0%Z ->
  Qabs (inject_Z (n * P / d) / inject_Z P * inject_Z d - inject_Z n) <= / inject_Z P * Qabs (inject_Z d).
Proof.
  intros HP Hd. pose proof (Z.div_mod (n * P) d Hd) as E. pose proof (Z.mod_bound_or (n * P) d Hd) as B.
  set (q := (n * P / d)%Z) in *. set (r := ((n * P) mod d)%Z) in *.
  assert (Ra : (Z.abs r <= Z.abs d)%Z) by lia.
  assert (PP : 0 < inject_Z P). { change 0 with (inject_Z 0). now rewrite <- Zlt_Qlt. }
  assert (NZ : ~ inject_Z P == 0) by lra.
  assert (K : inject_Z n * inject_Z P == inject_Z d * inject_Z q + inject_Z r) by (rewrite <- !inject_Z_mult, <- inject_Z_plus; now rewrite <- E).
  assert (G : inject_Z n == inject_Z d * inject_Z q / inject_Z P + inject_Z r / inject_Z P).
  { setoid_replace (inject_Z n) with (inject_Z n * inject_Z P / inject_Z P) by (field; exact NZ). rewrite K. field. exact NZ. }
  assert (Eq : inject_Z q / inject_Z P * inject_Z d - inject_Z n == / inject_Z P * - inject_Z r) by (rewrite G; field; exact NZ).
  rewrite Eq, Qabs_Qmult, Qabs_opp, (Qabs_pos (/ inject_Z P)) by (apply Qinv_le_0_compat; lra).
  rewrite !(Qmult_comm (/ _)). apply Qmult_le_compat_r; [|apply Qinv_le_0_compat; lra].
  change (inject_Z (Z.abs r) <= inject_Z (Z.abs d)). now rewrite <- Zle_Qle.
Qed.
Lemma cut_frac n d : d <> 0%Z ->
  Qabs (inject_Z (n * 10 ^ 28 / d) / inject_Z (10 ^ 28) * inject_Z d - inject_Z n) <= tiny * Qabs (inject_Z d).
Proof. intros Hd. exact (cut_gen (10 ^ 28) n d eq_refl Hd). Qed.
Lemma den_pos a : 0 < inject_Z (denominator a).
Proof. change 0 with (inject_Z 0). rewrite <- Zlt_Qlt. apply Z.pow_pos_nonneg; lia. Qed.
Lemma abs_over x p e : 0 < p -> Qabs x <= e * p -> Qabs (x / p) <= e.
Proof.
  intros Hp H. unfold Qdiv. rewrite Qabs_Qmult, (Qabs_pos (/ p)) by (apply Qinv_le_0_compat; lra).
  apply Qle_shift_div_r; [exact Hp|exact H].
Qed.
Lemma cut_div_near : near_div tiny cut_div.
Proof.
  intros a b c H. unfold cut_div in H. destruct (Z.eqb_spec (denominator a * numerator b) 0) as [|Hd]; [easy|].
  assert (Ec : of_num (numerator a * denominator b * 10 ^ 28 / (denominator a * numerator b)) 28 = c) by congruence. subst c. clear H.
  pose proof (den_pos a) as Pa. pose proof (den_pos b) as Pb. pose proof (den_nz a) as Za. pose proof (den_nz b) as Zb.
  assert (Nb : ~ inject_Z (numerator b) == 0). { intros H. change 0 with (inject_Z 0) in H. rewrite inject_Z_injective in H. rewrite H in Hd. lia. }
  split.
  { unfold frac. intros H. apply Nb. setoid_replace (inject_Z (numerator b)) with (inject_Z (numerator b) / inject_Z (denominator b) * inject_Z (denominator b)) by (field; exact Zb). rewrite H. reflexivity. }
  eapply Qle_trans; [|rewrite Qmult_comm; apply Qmult_le_compat_r; [apply Q.le_max_r|easy]].
  pose proof (cut_frac (numerator a * denominator b) (denominator a * numerator b) Hd) as C.
  unfold frac at 1. rewrite of_num_numerator. change (denominator (of_num _ 28)) with (10 ^ 28)%Z.
  set (q := inject_Z (_ / _)) in *. assert (T : ~ inject_Z (10 ^ 28) == 0) by easy. generalize dependent (inject_Z (10 ^ 28)). intros p C T.
  unfold frac. rewrite !inject_Z_mult in C.
  setoid_replace (q / p * (inject_Z (numerator b) / inject_Z (denominator b)) - inject_Z (numerator a) / inject_Z (denominator a))
    with ((q / p * (inject_Z (denominator a) * inject_Z (numerator b)) - inject_Z (numerator a) * inject_Z (denominator b)) / (inject_Z (denominator a) * inject_Z (denominator b)))
    by (field; repeat split; assumption).
  apply abs_over; [nra|]. eapply Qle_trans; [exact C|]. unfold Qdiv. rewrite !Qabs_Qmult, (Qabs_pos (inject_Z (denominator a))), (Qabs_pos (/ _)) by (try lra; apply Qinv_le_0_compat; lra).
  apply Qle_lteq. right. field. exact Zb.
Qed.
Lemma cut_mul_near : near_mul tiny cut_mul.
Proof.
  intros a b c H. unfold cut_mul in H.
  assert (Ec : of_num (numerator a * numerator b * 10 ^ 28 / (denominator a * denominator b)) 28 = c) by congruence. subst c. clear H.
  pose proof (den_pos a) as Pa. pose proof (den_pos b) as Pb. pose proof (den_nz a) as Za. pose proof (den_nz b) as Zb.
  assert (Hd : (denominator a * denominator b)%Z <> 0%Z). { change 0 with (inject_Z 0) in Pa, Pb. rewrite <- Zlt_Qlt in Pa, Pb. nia. }
  eapply Qle_trans; [|rewrite Qmult_comm; apply Qmult_le_compat_r; [apply Q.le_max_l|easy]]. rewrite Qmult_1_l.
  pose proof (cut_frac (numerator a * numerator b) (denominator a * denominator b) Hd) as C.
  unfold frac at 1. rewrite of_num_numerator. change (denominator (of_num _ 28)) with (10 ^ 28)%Z.
  set (q := inject_Z (_ / _)) in *. assert (T : ~ inject_Z (10 ^ 28) == 0) by easy. generalize dependent (inject_Z (10 ^ 28)). intros p C T.
  unfold frac. rewrite !inject_Z_mult in C.
  setoid_replace (q / p - inject_Z (numerator a) / inject_Z (denominator a) * (inject_Z (numerator b) / inject_Z (denominator b)))
    with ((q / p * (inject_Z (denominator a) * inject_Z (denominator b)) - inject_Z (numerator a) * inject_Z (numerator b)) / (inject_Z (denominator a) * inject_Z (denominator b)))
    by (field; repeat split; assumption).
  apply abs_over; [nra|]. eapply Qle_trans; [exact C|]. rewrite Qabs_pos by nra. lra.
Qed.
