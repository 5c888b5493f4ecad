(** The speeds of timing points with the arithmetic of the crate (C65): proofs. *)
From Coq Require Import String List NArith ZArith QArith Qabs Qminmax Qfield Bool Lia Lqa.
From Verif Require Import Str Num Nom Dec DecOps Parsers TimingPoints Api Helpers SpecWf SpecOld SpecHelpers SpecDecOps HelperFacts NearFacts DecOpsFacts RoundOps.
Import ListNotations.
Local Open Scope Q_scope.

Definition unit28 : Q := units 1.
Lemma unit28_eq : unit28 == 1 / tens 28.
Proof. reflexivity. Qed.
Lemma tens28 : tens 28 == inject_Z (10 ^ 28).
Proof. reflexivity. Qed.
Lemma unit_tens : unit28 * tens 28 == 1.
Proof. reflexivity. Qed.
Lemma unit_pos : 0 < unit28.
Proof. reflexivity. Qed.
Lemma max_pos x : 1 <= Qmax 1 x /\ x <= Qmax 1 x.
Proof. split; [apply Q.le_max_l|apply Q.le_max_r]. Qed.
Lemma rounds_near x c : rounds x c -> Qabs (frac c - x) <= unit28 * Qmax 1 (Qabs x).
Proof.
  intros (W & s & Hs & H1 & _ & H3). destruct (max_pos (Qabs x)) as [M1 M2]. pose proof unit_pos as U. pose proof unit_tens as UT. pose proof (tens_pos s) as P. pose proof (tens_pos 28) as P28.
  pose proof (Qabs_nonneg x) as X0. pose proof (Qabs_nonneg (frac c - x)) as E0. set (M := Qmax 1 (Qabs x)) in *. clearbody M.
  destruct H3 as [->|H3].
  - assert (Qabs (frac c - x) <= unit28 * (1 # 2)); [|nra].
    apply (Qmult_lt_0_le_reg_r _ _ (tens 28) P28). setoid_replace (unit28 * (1 # 2) * tens 28) with ((1 # 2) * (unit28 * tens 28)) by ring. rewrite UT. lra.
  - replace (s + 1)%nat with (S s) in H3 by lia. rewrite tens_S in H3.
    assert (B : 5 <= too_big * unit28) by (vm_compute; discriminate).
    apply (Qmult_lt_0_le_reg_r _ _ (tens s) P). apply Qle_trans with (1 # 2); [exact H1|].
    assert (K : too_big * unit28 <= 10 * (unit28 * M * tens s)). { setoid_replace (10 * (unit28 * M * tens s)) with ((M * (10 * tens s)) * unit28) by ring. apply Qmult_le_compat_r; [|lra]. nra. }
    lra.
Qed.
Lemma rounds_half x c : rounds x c -> Qabs (frac c - x) <= 1 # 2.
Proof. intros (W & s & Hs & H1 & _). pose proof (tens_ge1 s). pose proof (Qabs_nonneg (frac c - x)). nra. Qed.
Lemma rounds_wf x c : rounds x c -> wf_rdec c = true.
Proof. now intros []. Qed.
Lemma rounds_wd x y c : x == y -> rounds x c -> rounds y c.
Proof. intros H (W & s & K). split; [exact W|]. exists s. now setoid_rewrite H in K. Qed.

(** checked operations *)
Definition cdiv (a b : rdec) : run rdec := if wf_rdec a && wf_rdec b then rdec_div a b else RPanic PDecimal.
Definition cmul (a b : rdec) : run rdec := if wf_rdec a && wf_rdec b then rdec_mul a b else RPanic PDecimal.
Lemma computes_inv x r c : computes x r -> r = ROk c -> rounds x c.
Proof. unfold computes. destruct (Qlt_le_dec _ _); [|intros ->; easy]. intros (c' & -> & H) [= <-]. exact H. Qed.
Lemma cdiv_ok a b c : cdiv a b = ROk c -> ~ frac b == 0 /\ rounds (frac a / frac b) c.
Proof.
  unfold cdiv. destruct (wf_rdec a) eqn:Wa; [|easy]. destruct (wf_rdec b) eqn:Wb; [|easy]. cbn [andb]. intros H.
  assert (N : ~ frac b == 0) by (intros K; rewrite (div_zero a b K) in H; discriminate). split; [exact N|].
  exact (computes_inv _ _ _ (div_computes a b Wa Wb N) H).
Qed.
Lemma cmul_ok a b c : cmul a b = ROk c -> rounds (frac a * frac b) c.
Proof.
  unfold cmul. destruct (wf_rdec a) eqn:Wa; [|easy]. destruct (wf_rdec b) eqn:Wb; [|easy]. cbn [andb]. intros H. exact (computes_inv _ _ _ (mul_computes a b Wa Wb) H).
Qed.
Lemma cdiv_near : near_div unit28 cdiv.
Proof.
  intros a b c H. apply cdiv_ok in H as [N H]. split; [exact N|]. apply rounds_near in H. set (A := frac a) in *. set (B := frac b) in *. set (C := frac c) in *. clearbody A B C.
  setoid_replace (C * B - A) with ((C - A / B) * B) by (field; exact N). rewrite Qabs_Qmult. pose proof (Qabs_nonneg B) as B0. pose proof unit_pos.
  apply Qle_trans with (unit28 * Qmax 1 (Qabs (A / B)) * Qabs B); [now apply Qmult_le_compat_r|]. rewrite <- Qmult_assoc. 
  assert (K : Qmax 1 (Qabs (A / B)) * Qabs B <= Qmax (Qabs A) (Qabs B)).
  { assert (D : Qabs (A / B) * Qabs B == Qabs A) by (rewrite <- Qabs_Qmult; apply Qabs_wd; field; exact N).
    destruct (Q.max_spec 1 (Qabs (A / B))) as [[_ E]|[_ E]]; rewrite E.
    - rewrite D. apply Q.le_max_l.
    - rewrite Qmult_1_l. apply Q.le_max_r. }
  rewrite !(Qmult_comm unit28). apply Qmult_le_compat_r; [exact K|lra].
Qed.
Lemma cmul_near : near_mul unit28 cmul.
Proof. intros a b c H. apply cmul_ok in H. now apply rounds_near. Qed.
Lemma cdiv_wf a b : wf_rdec a = true -> wf_rdec b = true -> cdiv a b = rdec_div a b.
Proof. intros H1 H2. unfold cdiv. now rewrite H1, H2. Qed.
Lemma cmul_wf a b : wf_rdec a = true -> wf_rdec b = true -> cmul a b = rdec_mul a b.
Proof. intros H1 H2. unfold cmul. now rewrite H1, H2. Qed.
Lemma div_wf a b c : wf_rdec a = true -> wf_rdec b = true -> @rdec_div Empty_set a b = ROk c -> wf_rdec c = true.
Proof. intros H1 H2 H. rewrite <- cdiv_wf in H by assumption. apply cdiv_ok in H as [_ H]. now apply rounds_wf in H. Qed.
Lemma mul_wf a b c : wf_rdec a = true -> wf_rdec b = true -> @rdec_mul Empty_set a b = ROk c -> wf_rdec c = true.
Proof. intros H1 H2 H. rewrite <- cmul_wf in H by assumption. apply cmul_ok in H. now apply rounds_wf in H. Qed.

(** whole units *)
Lemma in_units c : wf_rdec c = true -> exists k : N, Qabs (frac c) * tens 28 == Qn k.
Proof.
  intros W. apply wf_lt in W as [_ W]. exists (d_mant c * p10 (28 - d_scale c))%N. rewrite Qn_mul, <- tens_p10, <- abs_frac, <- Qmult_assoc, <- tens_add.
  replace (d_scale c + (28 - d_scale c))%nat with 28%nat by lia. reflexivity.
Qed.
Lemma units_le x k : Qabs x <= units k <-> Qabs x * tens 28 <= inject_Z k.
Proof.
  unfold units. pose proof (tens_pos 28). split; intros K.
  - apply (Qmult_le_compat_r _ _ (tens 28)) in K; [|lra]. setoid_replace (inject_Z k / tens 28 * tens 28) with (inject_Z k) in K by (field; lra). exact K.
  - now apply Qle_shift_div_l.
Qed.
Lemma above c k : wf_rdec c = true -> ~ Qabs (frac c) <= units k -> inject_Z (k + 1) <= Qabs (frac c) * tens 28.
Proof. intros W H. rewrite units_le in H. destruct (in_units c W) as [m E]. rewrite E in *. rewrite <- !Zle_Qle in *. lia. Qed.
Lemma nonzero_abs x : ~ x == 0 -> 0 < Qabs x.
Proof.
  intros H. pose proof (Qabs_nonneg x). destruct (Qlt_le_dec 0 (Qabs x)) as [L|L]; [exact L|]. elim H. apply Qabs_Qle_condition in L. lra.
Qed.
Lemma abs_inv x : ~ x == 0 -> Qabs (1 / x) * Qabs x == 1.
Proof. intros H. rewrite <- Qabs_Qmult. setoid_replace (1 / x * x) with 1 by (field; exact H). reflexivity. Qed.
Lemma one_wf : wf_rdec (rdec_of_Z 1) = true.
Proof. reflexivity. Qed.
Lemma inv_ok c : wf_rdec c = true -> ~ frac c == 0 -> exists x, @rdec_div Empty_set (rdec_of_Z 1) c = ROk x /\ rounds (1 / frac c) x.
Proof.
  intros W N. pose proof (div_computes (rdec_of_Z 1) c one_wf W N) as H. change (frac (rdec_of_Z 1)) with 1 in H. unfold computes in H.
  destruct (Qlt_le_dec (Qabs (1 / frac c)) too_big) as [L|L]; [exact H|exfalso].
  pose proof (abs_inv _ N) as I. pose proof (nonzero_abs _ N) as P.
  assert (K : inject_Z (0 + 1) <= Qabs (frac c) * tens 28). { apply above; [exact W|]. rewrite units_le. change (inject_Z 0) with 0. pose proof (tens_pos 28). nra. }
  change (inject_Z (0 + 1)) with 1 in K. assert (B : tens 28 < too_big) by reflexivity. nra.
Qed.
(** what rounds to zero *)
Lemma rounds_zero y c : rounds y c -> (frac c == 0 <-> Qabs y * tens 28 <= 1 # 2).
Proof.
  intros H. split.
  - intros Z. destruct H as (W & s & Hs & H1 & _ & H3). assert (A : Qabs (frac c - y) == Qabs y) by (rewrite Z; setoid_replace (0 - y) with (- y) by ring; apply Qabs_opp). rewrite A in H1.
    destruct H3 as [->|H3]; [exact H1|]. replace (s + 1)%nat with (S s) in H3 by lia. rewrite tens_S in H3. assert (B : 6 < too_big) by reflexivity. lra.
  - intros L. apply (rounds_unique y c d_zero); [exact H|]. split; [reflexivity|]. exists 28%nat. split; [cbn; lia|]. change (frac d_zero) with 0.
    assert (A : Qabs (0 - y) == Qabs y) by (setoid_replace (0 - y) with (- y) by ring; apply Qabs_opp). rewrite A. split; [exact L|]. split; [|now left].
    intros _. now exists 0%Z.
Qed.

(** one over a number, times a constant *)
Lemma inv_mul b k lim : wf_rdec b = true -> wf_rdec k = true -> (0 < lim)%Z ->
  too_big <= Qabs (frac k) * (tens 28 / inject_Z lim - (1 # 2)) -> Qabs (frac k) * (tens 28 / inject_Z (lim + 1) + (1 # 2)) < too_big ->
  if Qlt_le_dec (units lim) (Qabs (frac b)) then exists x m, @rdec_div Empty_set (rdec_of_Z 1) b = ROk x /\ @rdec_mul Empty_set x k = ROk m /\ rounds (1 / frac b) x /\ rounds (frac x * frac k) m
  else rbind (rdec_div (rdec_of_Z 1) b) (fun x => rdec_mul x k) = (RPanic PDecimal : run rdec).
Proof.
  intros Wb Wk Hl H1 H2. assert (L0 : 0 < inject_Z lim) by (change 0 with (inject_Z 0); now rewrite <- Zlt_Qlt). pose proof (tens_pos 28) as T0.
  destruct (Qlt_le_dec (units lim) (Qabs (frac b))) as [L|L].
  - assert (N : ~ frac b == 0). { intros K. rewrite K in L. change (Qabs 0) with 0 in L. unfold units in L. assert (0 <= inject_Z lim / tens 28) by (apply Qle_shift_div_l; lra). lra. }
    destruct (inv_ok b Wb N) as (x & E & R). pose proof (mul_computes x k (rounds_wf _ _ R) Wk) as M. unfold computes in M.
    destruct (Qlt_le_dec (Qabs (frac x * frac k)) too_big) as [_|B].
    + destruct M as (m & M1 & M2). exists x, m. exact (conj E (conj M1 (conj R M2))).
    + exfalso. apply rounds_half in R. apply abs_near in R as [_ R]. pose proof (abs_inv _ N) as I. pose proof (nonzero_abs _ N) as P.
      assert (K : inject_Z (lim + 1) <= Qabs (frac b) * tens 28) by (apply above; [exact Wb|lra]).
      assert (L1 : 0 < inject_Z (lim + 1)) by (change 0 with (inject_Z 0); rewrite <- Zlt_Qlt; lia).
      assert (Y : Qabs (1 / frac b) <= tens 28 / inject_Z (lim + 1)). { apply Qle_shift_div_l; [exact L1|]. pose proof (Qabs_nonneg (1 / frac b)). nra. }
      rewrite Qabs_Qmult in B. pose proof (Qabs_nonneg (frac k)). nra.
  - destruct (Qeq_dec (frac b) 0) as [Z|N]; [now rewrite (div_zero _ _ Z)|].
    destruct (inv_ok b Wb N) as (x & E & R). rewrite E. cbn [rbind]. pose proof (mul_computes x k (rounds_wf _ _ R) Wk) as M. unfold computes in M.
    destruct (Qlt_le_dec (Qabs (frac x * frac k)) too_big) as [B|_]; [exfalso|exact M].
    apply rounds_half in R. apply abs_near in R as [R _]. pose proof (abs_inv _ N) as I. pose proof (nonzero_abs _ N) as P. rewrite units_le in L.
    assert (Y : tens 28 / inject_Z lim <= Qabs (1 / frac b)). { apply Qle_shift_div_r; [exact L0|]. pose proof (Qabs_nonneg (1 / frac b)). nra. }
    rewrite Qabs_Qmult in B. pose proof (Qabs_nonneg (frac k)). nra.
Qed.
(** one over a number divided by a constant *)
Lemma div_inv b k lim : wf_rdec b = true -> wf_rdec k = true -> 1 <= Qabs (frac k) -> Qabs (frac k) == 2 * inject_Z lim ->
  if Qlt_le_dec (units lim) (Qabs (frac b)) then exists x m, @rdec_div Empty_set b k = ROk x /\ @rdec_div Empty_set (rdec_of_Z 1) x = ROk m /\ rounds (frac b / frac k) x /\ ~ frac x == 0 /\ rounds (1 / frac x) m
  else rbind (rdec_div b k) (fun x => rdec_div (rdec_of_Z 1) x) = (RPanic PDecimal : run rdec).
Proof.
  intros Wb Wk K1 K2. assert (Nk : ~ frac k == 0) by (intros Z; rewrite Z in K1; now vm_compute in K1).
  pose proof (div_computes b k Wb Wk Nk) as D. unfold computes in D.
  assert (Ab : Qabs (frac b / frac k) * Qabs (frac k) == Qabs (frac b)) by (rewrite <- Qabs_Qmult; apply Qabs_wd; field; exact Nk).
  destruct (Qlt_le_dec (Qabs (frac b / frac k)) too_big) as [_|B].
  - destruct D as (x & E & R). rewrite E. cbn [rbind]. pose proof (rounds_zero _ _ R) as Z. pose proof (tens_pos 28).
    assert (Z' : frac x == 0 <-> Qabs (frac b) <= units lim).
    { rewrite Z, units_le. rewrite <- Ab. rewrite K2. assert (0 < inject_Z lim) by lra. split; intros; nra. }
    destruct (Qlt_le_dec (units lim) (Qabs (frac b))) as [L|L].
    + assert (Nx : ~ frac x == 0) by (rewrite Z'; lra). destruct (inv_ok x (rounds_wf _ _ R) Nx) as (m & M1 & M2). exists x, m. exact (conj eq_refl (conj M1 (conj R (conj Nx M2)))).
    + apply Z' in L. now apply div_zero.
  - exfalso. pose proof (rounds_top _ _ (rounds_self b _ Wb (Qeq_refl _))) as T. pose proof (Qabs_nonneg (frac b / frac k)). nra.
Qed.

(** ** the functions *)
Definition d60000 : rdec := rdec_of_Z 60000.
Definition dm100 : rdec := rdec_of_Z (-100).
Lemma bpm_cases b : wf_rdec b = true ->
  if Qlt_le_dec (units 7573) (Qabs (frac b)) then
    exists m, beat_duration_ms_to_bpm rdec_div rdec_mul b = ROk m /\ wf_rdec m = true
    /\ Qabs (frac m * frac b - 60000) <= units 120001 * Qmax 1 (Qabs (frac b))
  else beat_duration_ms_to_bpm rdec_div rdec_mul b = RPanic PDecimal.
Proof.
  intros W. pose proof (inv_mul b d60000 7573 W eq_refl eq_refl ltac:(vm_compute; discriminate) ltac:(vm_compute; reflexivity)) as H.
  destruct (Qlt_le_dec (units 7573) (Qabs (frac b))) as [L|L].
  - destruct H as (x & m & H1 & H2 & R1 & R2). exists m. assert (E : beat_duration_ms_to_bpm rdec_div rdec_mul b = ROk m) by (unfold beat_duration_ms_to_bpm, d_one; rewrite H1; exact H2).
    split; [exact E|]. split; [exact (rounds_wf _ _ R2)|].
    assert (E' : beat_duration_ms_to_bpm cdiv cmul b = ROk m).
    { unfold beat_duration_ms_to_bpm, d_one. rewrite (cdiv_wf _ _ one_wf W), H1. cbn [rbind]. rewrite (cmul_wf x (rdec_of_Z 60000) (rounds_wf _ _ R1) eq_refl). exact H2. }
    pose proof (bpm_near unit28 cdiv cmul b m ltac:(vm_compute; discriminate) cdiv_near cmul_near E') as B. eapply Qle_trans; [exact B|].
    apply Qmult_le_compat_r; [vm_compute; discriminate|]. destruct (max_pos (Qabs (frac b))). lra.
  - exact H.
Qed.
Lemma beat_cases m : wf_rdec m = true ->
  if Qlt_le_dec (units 30000) (Qabs (frac m)) then
    exists b, bpm_to_beat_duration_ms rdec_div m = ROk b /\ wf_rdec b = true
    /\ Qabs (frac m * frac b - 60000) <= units 1 * (2 + Qabs (frac b)) * Qmax 60000 (Qabs (frac m))
  else bpm_to_beat_duration_ms rdec_div m = RPanic PDecimal.
Proof.
  intros W. pose proof (div_inv m d60000 30000 W eq_refl ltac:(vm_compute; discriminate) ltac:(reflexivity)) as H.
  destruct (Qlt_le_dec (units 30000) (Qabs (frac m))) as [L|L].
  - destruct H as (x & b & H1 & H2 & R1 & _ & R2). exists b. assert (E : bpm_to_beat_duration_ms rdec_div m = ROk b) by (unfold bpm_to_beat_duration_ms, d_one; fold d60000; rewrite H1; exact H2).
    split; [exact E|]. split; [exact (rounds_wf _ _ R2)|].
    assert (E' : bpm_to_beat_duration_ms cdiv m = ROk b).
    { unfold bpm_to_beat_duration_ms, d_one. fold d60000. rewrite (cdiv_wf m d60000 W eq_refl), H1. cbn [rbind]. rewrite (cdiv_wf _ _ one_wf (rounds_wf _ _ R1)). exact H2. }
    pose proof (beat_near unit28 cdiv b m ltac:(vm_compute; discriminate) cdiv_near E') as B. eapply Qle_trans; [exact B|].
    apply Qmult_le_compat_r.
    + change (units 1) with unit28. rewrite !(Qmult_comm unit28). apply Qmult_le_compat_r; [|pose proof unit_pos; lra]. assert (unit28 <= 1) by (vm_compute; discriminate). lra.
    + apply Qle_trans with 60000; [vm_compute; discriminate|apply Q.le_max_l].
  - exact H.
Qed.
Lemma calc_bpm_cases t b : tp_uninherited t = Some true -> tp_beat_length t = DNum b -> wf_rdec b = true ->
  if Qlt_le_dec (units 7573) (Qabs (frac b)) then
    exists m, calc_bpm rdec_div rdec_mul t = ROk (Some m) /\ wf_rdec m = true
    /\ Qabs (frac m * frac b - 60000) <= units 120001 * Qmax 1 (Qabs (frac b))
  else calc_bpm rdec_div rdec_mul t = RPanic PDecimal.
Proof.
  intros H1 H2 W. pose proof (bpm_cases b W) as H. unfold calc_bpm. rewrite H1, H2. destruct (Qlt_le_dec _ _); [|now rewrite H].
  destruct H as (m & E & H). exists m. rewrite E. split; [reflexivity|exact H].
Qed.
Lemma calc_velocity_cases t b : tp_uninherited t = Some false -> tp_beat_length t = DNum b -> wf_rdec b = true ->
  if Qlt_le_dec (units 50) (Qabs (frac b)) then
    exists m, calc_slider_velocity_multiplier rdec_div t = ROk (Some m) /\ wf_rdec m = true
    /\ Qabs (frac m * frac b + 100) <= units 1 * (2 + Qabs (frac m)) * Qmax 100 (Qabs (frac b))
  else calc_slider_velocity_multiplier rdec_div t = RPanic PDecimal.
Proof.
  intros H1 H2 W. pose proof (div_inv b dm100 50 W eq_refl ltac:(vm_compute; discriminate) ltac:(reflexivity)) as H. unfold calc_slider_velocity_multiplier. rewrite H1, H2. fold d_one.
  fold dm100. unfold d_one. destruct (Qlt_le_dec _ _) as [L|L]; [|now rewrite H].
  destruct H as (x & m & E1 & E2 & R1 & Nx & R2). exists m. rewrite E1. cbn [rbind]. rewrite E2. split; [reflexivity|]. split; [exact (rounds_wf _ _ R2)|].
  pose proof (cdiv_near b dm100 x) as A1. rewrite cdiv_wf in A1 by (assumption || reflexivity). apply A1 in E1 as [_ E1]. clear A1.
  pose proof (cdiv_near (rdec_of_Z 1) x m) as A1. rewrite (cdiv_wf _ _ one_wf (rounds_wf _ _ R1)) in A1. apply A1 in E2 as [_ E2]. clear A1.
  change (frac dm100) with (-100) in E1. change (frac (rdec_of_Z 1)) with 1 in E2. change (Qabs (-100)) with 100 in E1. change (Qabs 1) with 1 in E2.
  change (units 1) with unit28. rewrite (Q.max_comm 100). set (B := frac b) in *. set (X := frac x) in *. set (M := frac m) in *. set (K := Qmax (Qabs B) 100) in *.
  assert (K1 : 100 <= K) by apply Q.le_max_r. assert (K2 : Qabs B <= K) by apply Q.le_max_l. pose proof unit_pos as U. assert (U1 : unit28 <= 1) by (vm_compute; discriminate).
  assert (Eq : M * B + 100 == - (100 * (M * X - 1)) + - ((X * -100 - B) * M)) by ring. rewrite Eq.
  eapply Qle_trans; [apply Qabs_triangle|]. rewrite !Qabs_opp, !Qabs_Qmult. change (Qabs 100) with 100.
  assert (P : 100 * Qmax 1 (Qabs X) <= (1 + unit28) * K).
  { rewrite <- (Q.max_mono (fun q => 100 * q)).
    - apply max_le; [nra|].
      assert (T : Qabs (X * -100) <= K + unit28 * K).
      { setoid_replace (X * -100) with ((X * -100 - B) + B) by ring. eapply Qle_trans; [apply Qabs_triangle|]. lra. }
      rewrite Qabs_Qmult in T. change (Qabs (-100)) with 100 in T. lra.
    - intros p q ->. reflexivity.
    - intros p q Lp. lra. }
  pose proof (Qabs_nonneg M) as M0.
  assert (P2 : Qabs (X * -100 - B) * Qabs M <= unit28 * K * Qabs M) by (apply Qmult_le_compat_r; assumption).
  assert (P3 : unit28 * (100 * Qmax 1 (Qabs X)) <= unit28 * (2 * K)). { rewrite !(Qmult_comm unit28). apply Qmult_le_compat_r; [|lra]. nra. }
  rewrite Qmult_assoc in P3. rewrite (Qmult_comm unit28 100) in P3. lra.
Qed.
Lemma inherited_cases time vel meter set index vol e : wf_rdec vel = true ->
  if Qlt_le_dec (units 12) (Qabs (frac vel)) then
    exists t b, tp_new_inherited rdec_div rdec_mul time vel meter set index vol e = ROk t /\ tp_beat_length t = DNum b /\ wf_rdec b = true
    /\ Qabs (frac b * frac vel + 100) <= units 201 * Qmax 1 (Qabs (frac vel))
  else tp_new_inherited rdec_div rdec_mul time vel meter set index vol e = RPanic PDecimal.
Proof.
  intros W. pose proof (inv_mul vel dm100 12 W eq_refl eq_refl ltac:(vm_compute; discriminate) ltac:(vm_compute; reflexivity)) as H. unfold tp_new_inherited. fold dm100. unfold d_one.
  destruct (Qlt_le_dec (units 12) (Qabs (frac vel))) as [L|L].
  - destruct H as (x & b & H1 & H2 & R1 & R2). rewrite H1. cbn [rbind]. rewrite H2. cbn [rbind]. eexists _, b. split; [reflexivity|]. split; [reflexivity|]. split; [exact (rounds_wf _ _ R2)|].
    pose proof (cdiv_near (rdec_of_Z 1) vel x) as A1. rewrite (cdiv_wf _ _ one_wf W) in A1. apply A1 in H1 as [_ H1]. clear A1.
    pose proof (cmul_near x dm100 b) as A1. rewrite (cmul_wf x dm100 (rounds_wf _ _ R1) eq_refl) in A1. apply A1 in H2. clear A1.
    change (frac dm100) with (-100) in H2. change (frac (rdec_of_Z 1)) with 1 in H1. change (Qabs 1) with 1 in H1.
    set (V := frac vel) in *. set (X := frac x) in *. set (B := frac b) in *. set (K := Qmax 1 (Qabs V)) in *. destruct (max_pos (Qabs V)) as [K1 K2]. fold K in K1, K2.
    pose proof unit_pos as U. assert (U1 : unit28 * 1000 <= 1) by (vm_compute; discriminate).
    assert (Eq : B * V + 100 == (B - X * -100) * V + - (100 * (X * V - 1))) by ring. rewrite Eq.
    eapply Qle_trans; [apply Qabs_triangle|]. rewrite Qabs_opp, !Qabs_Qmult. change (Qabs 100) with 100. pose proof (Qabs_nonneg V) as V0.
    assert (P : Qmax 1 (Qabs (X * -100)) * Qabs V <= 100 * (1 + unit28) * K).
    { rewrite <- (Q.max_mono (fun q => q * Qabs V)).
      - apply max_le; [nra|]. rewrite Qabs_Qmult. change (Qabs (-100)) with 100.
        assert (T : Qabs (X * V) <= 1 + unit28 * K).
        { setoid_replace (X * V) with ((X * V - 1) + 1) by ring. eapply Qle_trans; [apply Qabs_triangle|]. change (Qabs 1) with 1. lra. }
        rewrite Qabs_Qmult in T. nra.
      - intros p q ->. reflexivity.
      - intros p q Lp. apply Qmult_le_compat_r; [exact Lp|exact V0]. }
    assert (P2 : Qabs (B - X * -100) * Qabs V <= unit28 * (Qmax 1 (Qabs (X * -100)) * Qabs V)). { rewrite Qmult_assoc. apply Qmult_le_compat_r; assumption. }
    assert (P3 : unit28 * (Qmax 1 (Qabs (X * -100)) * Qabs V) <= unit28 * (100 * (1 + unit28) * K)). { apply (proj2 (Qmult_le_l _ _ unit28 U)). exact P. }
    assert (U2 : units 201 == 201 * unit28) by (vm_compute; reflexivity). rewrite U2.
    assert (P4 : 100 * unit28 * K <= 1 * K) by (apply Qmult_le_compat_r; lra).
    assert (P5 : unit28 * (100 * (1 + unit28) * K) <= unit28 * (101 * K)) by (apply (proj2 (Qmult_le_l _ _ unit28 U)); lra).
    lra.
  - destruct (rdec_div (rdec_of_Z 1) vel) as [x| |p]; cbn [rbind] in *; [|easy|congruence]. rewrite H. reflexivity.
Qed.
Lemma multiplier_back time vel meter set index vol e t x : wf_rdec vel = true -> 1 # 100 <= frac vel -> frac vel <= 100 ->
  tp_new_inherited rdec_div rdec_mul time vel meter set index vol e = ROk t -> calc_slider_velocity_multiplier rdec_div t = ROk (Some x) ->
  Qabs (frac x - frac vel) <= units 3000000.
Proof.
  intros W V1 V2 H1 H2. apply Qle_trans with (3000000 * unit28); [|vm_compute; discriminate].
  assert (H1' : tp_new_inherited cdiv cmul time vel meter set index vol e = ROk t /\ exists b, tp_beat_length t = DNum b /\ wf_rdec b = true).
  { unfold tp_new_inherited in *. unfold d_one in *. fold dm100 in *. rewrite (cdiv_wf _ _ one_wf W). destruct (rdec_div (rdec_of_Z 1) vel) as [y| |] eqn:E; try easy. cbn [rbind] in *.
    apply (div_wf _ _ _ one_wf W) in E. rewrite (cmul_wf y dm100 E eq_refl). destruct (rdec_mul y dm100) as [b| |] eqn:E2; try easy. cbn [rbind] in *. split; [exact H1|].
    injection H1 as <-. exists b. split; [reflexivity|]. exact (mul_wf y dm100 b E eq_refl E2). }
  destruct H1' as (H1' & b & Hb & Wb).
  assert (H2' : calc_slider_velocity_multiplier cdiv t = ROk (Some x)).
  { unfold calc_slider_velocity_multiplier in *. destruct (tp_uninherited t) as [[]|]; try easy. rewrite Hb in *. unfold d_one in *. fold dm100 in *. rewrite (cdiv_wf b dm100 Wb eq_refl).
    destruct (rdec_div b dm100) as [y| |] eqn:E; try easy. cbn [rbind] in *. apply (div_wf b dm100 y Wb eq_refl) in E. now rewrite (cdiv_wf _ _ one_wf E). }
  eapply velocity_near; [vm_compute; discriminate|vm_compute; discriminate|exact V1|exact V2|exact cdiv_near|exact cmul_near|exact H1'|exact H2'].
Qed.

(** ** when nothing is rounded *)
Lemma computes_storable x r : storable_number x -> computes x r -> exists c, r = ROk c /\ frac c == x /\ wf_rdec c = true.
Proof.
  intros S H. unfold computes in H. destruct (Qlt_le_dec (Qabs x) too_big) as [L|L].
  - destruct H as (c & -> & R). exists c. split; [reflexivity|]. split; [now apply rounds_exact|now apply rounds_wf in R].
  - destruct S as (c & W & E). pose proof (rounds_top _ _ (rounds_self c x W E)). lra.
Qed.
Lemma storable_wd x y : x == y -> storable_number x -> storable_number y.
Proof. intros H (c & W & E). exists c. split; [exact W|]. now rewrite E. Qed.
Lemma bpm_exact_real b : wf_rdec b = true -> ~ frac b == 0 -> storable_number (1 / frac b) -> storable_number (60000 / frac b) ->
  exists m, beat_duration_ms_to_bpm rdec_div rdec_mul b = ROk m /\ frac m * frac b == 60000.
Proof.
  intros W N S1 S2. destruct (computes_storable _ _ S1 (div_computes (rdec_of_Z 1) b one_wf W N)) as (x & E1 & F1 & W1).
  destruct (computes_storable (frac x * frac d60000) (rdec_mul x d60000)) as (m & E2 & F2 & W2).
  - apply (storable_wd (60000 / frac b)); [|exact S2]. rewrite F1. change (frac d60000) with 60000. field. exact N.
  - apply mul_computes; [exact W1|reflexivity].
  - exists m. split; [unfold beat_duration_ms_to_bpm, d_one; fold d60000; rewrite E1; exact E2|]. rewrite F2, F1. change (frac d60000) with 60000. field. exact N.
Qed.
Lemma beat_exact_real m : wf_rdec m = true -> ~ frac m == 0 -> storable_number (frac m / 60000) -> storable_number (60000 / frac m) ->
  exists b, bpm_to_beat_duration_ms rdec_div m = ROk b /\ frac m * frac b == 60000.
Proof.
  intros W N S1 S2. assert (N6 : ~ frac d60000 == 0) by (vm_compute; discriminate).
  destruct (computes_storable _ _ S1 (div_computes m d60000 W eq_refl N6)) as (x & E1 & F1 & W1).
  assert (Nx : ~ frac x == 0). { intros K. rewrite K in F1. apply N. setoid_replace (frac m) with (frac m / 60000 * 60000) by field. rewrite <- F1. ring. }
  destruct (computes_storable (frac (rdec_of_Z 1) / frac x) (rdec_div (rdec_of_Z 1) x)) as (b & E2 & F2 & W2).
  - apply (storable_wd (60000 / frac m)); [|exact S2]. rewrite F1. change (frac (rdec_of_Z 1)) with 1. field. exact N.
  - apply div_computes; [reflexivity|exact W1|exact Nx].
  - exists b. split; [unfold bpm_to_beat_duration_ms, d_one; fold d60000; rewrite E1; exact E2|]. rewrite F2, F1. change (frac (rdec_of_Z 1)) with 1. field. exact N.
Qed.
Lemma velocity_exact_real time vel meter set index vol e : wf_rdec vel = true -> ~ frac vel == 0 -> storable_number (1 / frac vel) -> storable_number (100 / frac vel) ->
  exists t x, tp_new_inherited rdec_div rdec_mul time vel meter set index vol e = ROk t /\ calc_slider_velocity_multiplier rdec_div t = ROk (Some x) /\ frac x == frac vel.
Proof.
  intros W N S1 S2. destruct (computes_storable _ _ S1 (div_computes (rdec_of_Z 1) vel one_wf W N)) as (y & E1 & F1 & W1).
  destruct (computes_storable (frac y * frac dm100) (rdec_mul y dm100)) as (b & E2 & F2 & W2).
  - destruct S2 as (c & Wc & Ec). exists (from_parts (negb (d_neg c)) (d_mant c) (d_scale c)). apply wf_lt in Wc. split; [now apply wf_parts|].
    apply (cancel_tens _ _ (d_scale c)). rewrite frac_parts, F1. change (frac dm100) with (-100).
    setoid_replace (1 / frac vel * -100 * tens (d_scale c)) with (- (100 / frac vel * tens (d_scale c))) by (field; exact N). rewrite <- Ec, frac_sgn. destruct (d_neg c); cbn [negb sgn]; ring.
  - apply mul_computes; [exact W1|reflexivity].
  - assert (Nd : ~ frac dm100 == 0) by (vm_compute; discriminate). 
    destruct (computes_storable (frac b / frac dm100) (rdec_div b dm100)) as (z & E3 & F3 & W3).
    { apply (storable_wd (1 / frac vel)); [|exact S1]. rewrite F2, F1. change (frac dm100) with (-100). field. exact N. }
    { apply div_computes; [exact W2|reflexivity|exact Nd]. }
    assert (Fz : frac z == 1 / frac vel). { rewrite F3, F2, F1. change (frac dm100) with (-100). field. exact N. }
    assert (Nz : ~ frac z == 0). { intros K. rewrite K in Fz. assert (X : 0 * frac vel == 1) by (rewrite Fz; field; exact N). rewrite Qmult_0_l in X. discriminate X. }
    destruct (computes_storable (frac (rdec_of_Z 1) / frac z) (rdec_div (rdec_of_Z 1) z)) as (x & E4 & F4 & W4).
    { apply (storable_wd (frac vel)); [|now exists vel]. rewrite Fz. change (frac (rdec_of_Z 1)) with 1. field. exact N. }
    { apply div_computes; [reflexivity|exact W3|exact Nz]. }
    eexists _, x. split; [unfold tp_new_inherited, d_one; fold dm100; rewrite E1; cbn [rbind]; rewrite E2; reflexivity|].
    split; [unfold calc_slider_velocity_multiplier, d_one; cbn [tp_uninherited tp_beat_length]; fold dm100; rewrite E3; cbn [rbind]; rewrite E4; reflexivity|].
    rewrite F4, Fz. change (frac (rdec_of_Z 1)) with 1. field. exact N.
Qed.
