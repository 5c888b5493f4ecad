(** Multiplication and division of decimals (C65): the numbers. *)
From Coq Require Import String List NArith ZArith QArith Qabs Qminmax Qfield Bool Lia Lqa.
From Verif Require Import Str Num Nom Dec DecOps Parsers SpecWf SpecOld SpecHelpers SpecDecOps DecOpsFacts.
Import ListNotations.
Local Open Scope Q_scope.

Notation Qn n := (inject_Z (Z.of_N n)).
Lemma Qn_le a b : (a <= b)%N <-> Qn a <= Qn b.
Proof. rewrite <- Zle_Qle. lia. Qed.
Lemma Qn_lt a b : (a < b)%N <-> Qn a < Qn b.
Proof. rewrite <- Zlt_Qlt. lia. Qed.
Lemma Qn_eq a b : a = b <-> Qn a == Qn b.
Proof. rewrite inject_Z_injective. lia. Qed.
Lemma Qn_mul a b : Qn (a * b) == Qn a * Qn b.
Proof. rewrite N2Z.inj_mul, inject_Z_mult. reflexivity. Qed.
Lemma Qn_add a b : Qn (a + b) == Qn a + Qn b.
Proof. rewrite N2Z.inj_add, inject_Z_plus. reflexivity. Qed.
Lemma Qn_nonneg a : 0 <= Qn a.
Proof. change 0 with (inject_Z 0). rewrite <- Zle_Qle. lia. Qed.
Lemma Qn_pos a : (0 < a)%N -> 0 < Qn a.
Proof. intros H. change 0 with (inject_Z 0). rewrite <- Zlt_Qlt. lia. Qed.
Lemma tens_p10 s : tens s == Qn (p10 s).
Proof. unfold tens. rewrite N2Z.inj_pow, nat_N_Z. reflexivity. Qed.
Lemma tens_pos s : 0 < tens s.
Proof. rewrite tens_p10. apply Qn_pos, p10_pos. Qed.
Lemma tens_ge1 s : 1 <= tens s.
Proof. rewrite tens_p10. change 1 with (Qn 1). apply Qn_le. pose proof (p10_pos s). lia. Qed.
Lemma tens_add a b : tens (a + b) == tens a * tens b.
Proof. rewrite !tens_p10, p10_add, Qn_mul. reflexivity. Qed.
Lemma tens_S a : tens (S a) == 10 * tens a.
Proof. rewrite !tens_p10, p10_S, Qn_mul. reflexivity. Qed.

Definition sgn (neg : bool) : Q := if neg then -1 else 1.
Lemma sgn_cases neg : sgn neg == 1 \/ sgn neg == -1.
Proof. destruct neg; cbn; [right|left]; reflexivity. Qed.
Lemma sgn_xor a b : sgn (xorb a b) == sgn a * sgn b.
Proof. destruct a, b; reflexivity. Qed.
Lemma abs_sgn n x : Qabs (sgn n * x) == Qabs x.
Proof. rewrite Qabs_Qmult. destruct n; cbn [sgn]; [change (Qabs (-1)) with 1|change (Qabs 1) with 1]; ring. Qed.
Lemma frac_sgn c : frac c * tens (d_scale c) == sgn (d_neg c) * Qn (d_mant c).
Proof.
  unfold frac, numerator, denominator. fold (tens (d_scale c)). pose proof (tens_pos (d_scale c)).
  destruct (d_neg c); cbn [sgn]; [rewrite inject_Z_opp|]; field; intros K; rewrite K in H; now apply Qlt_irrefl in H.
Qed.
Lemma frac_parts neg m s : frac (from_parts neg m s) * tens s == sgn neg * Qn m.
Proof.
  change s with (d_scale (from_parts neg m s)) at 2. rewrite frac_sgn. unfold from_parts. cbn [d_neg d_mant].
  destruct (N.eqb_spec m 0) as [->|]; [|reflexivity]. change (Qn 0) with 0. ring.
Qed.
Lemma wf_parts neg m s : (m < two96)%N -> (s <= 28)%nat -> wf_rdec (from_parts neg m s) = true.
Proof.
  intros H1 H2. unfold wf_rdec, from_parts. cbn [d_mant d_scale d_neg]. apply N.ltb_lt in H1. apply Nat.leb_le in H2. rewrite H1, H2. cbn [andb].
  destruct (m =? 0)%N; now destruct neg.
Qed.
Lemma wf_lt c : wf_rdec c = true -> (d_mant c < two96)%N /\ (d_scale c <= 28)%nat.
Proof. unfold wf_rdec. rewrite !andb_true_iff, N.ltb_lt, Nat.leb_le. easy. Qed.
Lemma big_Q : Qn (2 * two96 - 1) == 2 * too_big.
Proof. reflexivity. Qed.
Lemma two96_Q : Qn two96 == inject_Z (2 ^ 96).
Proof. reflexivity. Qed.

Lemma abs_mul_pos x t : 0 < t -> Qabs x * t == Qabs (x * t).
Proof. intros H. rewrite Qabs_Qmult, (Qabs_pos t) by lra. reflexivity. Qed.
Lemma sgn_scaled neg m d v : 0 < d -> Qabs (sgn neg * m - sgn neg * v / d) * d == Qabs (m * d - v).
Proof.
  intros H. setoid_replace (sgn neg * m - sgn neg * v / d) with (sgn neg * ((m * d - v) / d)) by (field; lra).
  rewrite abs_sgn, abs_mul_pos by exact H. apply Qabs_wd. field. lra.
Qed.

(** from the mantissas to the numbers *)
Lemma rounds_intro x neg m s m' s' v d : (0 < d)%N -> x * tens s == sgn neg * Qn v / Qn d -> half_even_of v d m ->
  (m' < two96)%N -> (s' <= s <= 28)%nat -> (m' * p10 s = m * p10 s')%N ->
  ((m * d)%N = v \/ s = 28%nat \/ ((2 * two96 - 1) * d <= 20 * v)%N) -> rounds x (from_parts neg m' s').
Proof.
  intros Hd Hx (H1 & H2 & H3) Hm Hs Hv Hc. pose proof (Qn_pos d Hd) as Pd. pose proof (tens_pos s) as Ps. pose proof (tens_pos s') as Ps'.
  assert (F : frac (from_parts neg m' s') * tens s == sgn neg * Qn m).
  { assert (K : frac (from_parts neg m' s') * tens s * tens s' == sgn neg * Qn m * tens s').
    { setoid_replace (frac (from_parts neg m' s') * tens s * tens s') with (frac (from_parts neg m' s') * tens s' * tens s) by ring.
      rewrite frac_parts. rewrite !tens_p10. rewrite <- !Qmult_assoc, <- !Qn_mul, Hv. reflexivity. }
    apply Qmult_inj_r in K; [exact K|lra]. }
  set (c := from_parts neg m' s') in *. split; [apply wf_parts; [exact Hm|lia]|].
  assert (Ab : Qabs (frac c - x) * tens s * Qn d == Qabs (Qn m * Qn d - Qn v)).
  { rewrite abs_mul_pos by exact Ps. rewrite <- (sgn_scaled neg) by exact Pd.
    apply Qmult_comp; [|reflexivity]. apply Qabs_wd. rewrite <- F, <- Hx. ring. }
  apply Qn_le in H1, H2. rewrite !Qn_add, !Qn_mul in H1, H2. change (Qn 2) with 2 in *.
  assert (Half : Qabs (frac c - x) * tens s <= 1 # 2).
  { apply (Qmult_lt_0_le_reg_r _ _ (Qn d) Pd). rewrite Ab. apply Qabs_Qle_condition. split; lra. }
  destruct (N.eq_dec (m * d) v) as [Ex|Ex].
  - exists 28%nat. split; [cbn; lia|]. assert (Z0 : Qabs (frac c - x) == 0).
    { assert (K : Qabs (frac c - x) * tens s * Qn d == 0) by (rewrite Ab, <- Ex, Qn_mul; setoid_replace (Qn m * Qn d - Qn m * Qn d) with 0 by ring; reflexivity).
      apply Qmult_integral in K as [K|K]; [|lra]. apply Qmult_integral in K as [K|K]; [exact K|lra]. }
    rewrite Z0. split; [lra|]. split; [|now left]. intros K. lra.
  - exists s. split; [cbn; lia|]. split; [exact Half|]. split.
    + intros T. rewrite T in Ab.
      assert (Hev : N.even m = true).
      { apply H3. destruct (Qlt_le_dec (Qn m * Qn d - Qn v) 0) as [L|L].
        - right. apply Qn_eq. rewrite Qn_add, !Qn_mul. change (Qn 2) with 2. rewrite Qabs_neg in Ab by lra. lra.
        - left. apply Qn_eq. rewrite Qn_add, !Qn_mul. change (Qn 2) with 2. rewrite Qabs_pos in Ab by lra. lra. }
      apply N.even_spec in Hev as [h Eh]. assert (F2 : frac c * tens s == sgn neg * (2 * Qn h)) by (rewrite F, Eh, Qn_mul; reflexivity). clearbody c.
      destruct neg; cbn [sgn] in F2.
      * exists (- Z.of_N h)%Z. rewrite F2, inject_Z_mult, inject_Z_opp. change (inject_Z 2) with 2. ring.
      * exists (Z.of_N h). rewrite F2, inject_Z_mult. change (inject_Z 2) with 2. ring.
    + destruct Hc as [K|[K|K]]; [now elim Ex|now left|]. right. rewrite Nat.add_comm. cbn [Nat.add]. rewrite tens_S.
      assert (X : Qabs x * tens s == Qn v / Qn d).
      { rewrite abs_mul_pos, Hx by exact Ps. setoid_replace (sgn neg * Qn v / Qn d) with (sgn neg * (Qn v / Qn d)) by (field; lra).
        rewrite abs_sgn. apply Qabs_pos. apply Qle_shift_div_l; [exact Pd|]. pose proof (Qn_nonneg v). lra. }
      setoid_replace (Qabs x * (10 * tens s)) with (10 * (Qabs x * tens s)) by ring. rewrite X.
      apply Qn_le in K. rewrite !Qn_mul in K. change (Qn 20) with 20 in K.
      setoid_replace (10 * (Qn v / Qn d)) with ((10 * Qn v) / Qn d) by (field; lra). apply Qle_shift_div_l; [exact Pd|].
      rewrite big_Q in K. generalize dependent too_big. intros W K. lra.
Qed.

(** [x] is rounded, so it is not too big *)
Lemma abs_frac c : Qabs (frac c) * tens (d_scale c) == Qn (d_mant c).
Proof. rewrite abs_mul_pos by apply tens_pos. rewrite frac_sgn, abs_sgn. apply Qabs_pos, Qn_nonneg. Qed.
Lemma mant_top c : wf_rdec c = true -> Qn (d_mant c) <= inject_Z (2 ^ 96 - 1).
Proof. intros H. apply wf_lt in H as [H _]. rewrite <- Zle_Qle. change two96 with (Z.to_N (2 ^ 96)) in H. lia. Qed.
Lemma top_Q : inject_Z (2 ^ 96 - 1) == too_big - (1 # 2).
Proof. reflexivity. Qed.
Lemma abs_near a b e : Qabs (a - b) <= e -> Qabs b <= Qabs a + e /\ Qabs a <= Qabs b + e.
Proof.
  intros H. split.
  - setoid_replace b with (a + - (a - b)) at 1 by ring. eapply Qle_trans; [apply Qabs_triangle|]. rewrite Qabs_opp. lra.
  - setoid_replace a with (b + (a - b)) at 1 by ring. eapply Qle_trans; [apply Qabs_triangle|]. lra.
Qed.
Lemma near_scaled c x s e : Qabs (frac c - x) * tens s <= e -> Qabs x * tens s <= Qabs (frac c) * tens s + e /\ Qabs (frac c) * tens s <= Qabs x * tens s + e.
Proof.
  rewrite !abs_mul_pos by apply tens_pos. intros H. apply abs_near.
  assert (K : Qabs (frac c * tens s - x * tens s) == Qabs ((frac c - x) * tens s)) by (apply Qabs_wd; ring). rewrite K. exact H.
Qed.
Lemma odd_top k : ~ Qabs (inject_Z (2 * k)) == inject_Z (2 ^ 96 - 1).
Proof. change (Qabs (inject_Z (2 * k))) with (inject_Z (Z.abs (2 * k))). rewrite inject_Z_injective. lia. Qed.
Lemma tens_mono a b : (a <= b)%nat -> tens a <= tens b.
Proof. intros H. replace b with (a + (b - a))%nat by lia. rewrite tens_add. pose proof (tens_pos a). pose proof (tens_ge1 (b - a)). nra. Qed.
Lemma tens_lt a b : (a < b)%nat -> 10 * tens a <= tens b.
Proof. intros H. rewrite <- tens_S. apply tens_mono. lia. Qed.
Lemma scaled_int c s : (d_scale c <= s)%nat -> exists z, frac c * tens s == inject_Z z.
Proof.
  intros H. assert (K : frac c * tens s == sgn (d_neg c) * Qn (d_mant c) * inject_Z (10 ^ Z.of_nat (s - d_scale c))).
  { replace s with (d_scale c + (s - d_scale c))%nat at 1 by lia. rewrite tens_add, Qmult_assoc, frac_sgn. reflexivity. }
  destruct (d_neg c); cbn [sgn] in K.
  - exists (- (Z.of_N (d_mant c) * 10 ^ Z.of_nat (s - d_scale c)))%Z. rewrite K, inject_Z_opp, inject_Z_mult. ring.
  - exists (Z.of_N (d_mant c) * 10 ^ Z.of_nat (s - d_scale c))%Z. rewrite K, inject_Z_mult. ring.
Qed.
Lemma rounds_top x c : rounds x c -> Qabs x < too_big.
Proof.
  intros (W & s & Hs & H1 & H2 & _). destruct (Qlt_le_dec (Qabs x) too_big) as [L|L]; [exact L|exfalso].
  pose proof (near_scaled _ _ _ _ H1) as [N1 N2]. pose proof (mant_top c W) as M. rewrite top_Q, <- abs_frac in M. pose proof (tens_ge1 (d_scale c)) as T1. pose proof (tens_ge1 s) as T2.
  pose proof (Qabs_nonneg (frac c)) as C0. assert (B0 : 1 <= too_big) by (vm_compute; discriminate).
  assert (M1 : Qabs (frac c) <= too_big - (1 # 2)) by nra.
  destruct (Nat.eq_dec s 0) as [->|S0].
  - assert (D0 : d_scale c = 0%nat) by lia. change (tens 0) with 1 in *. assert (Ec : Qabs (frac c) == too_big - (1 # 2)) by lra.
    assert (Et : Qabs (frac c - x) * 1 == 1 # 2) by (pose proof (abs_near (frac c) x (Qabs (frac c - x)) (Qle_refl _)); lra).
    apply H2 in Et as [k Ek]. apply (odd_top k). rewrite <- Ek, top_Q, Qmult_1_r. exact Ec.
  - assert (T3 : 10 <= tens s) by (apply Qle_trans with (tens 1); [now vm_compute|apply tens_mono; lia]).
    generalize dependent (tens s). intros T. generalize dependent too_big. intros B. intros. nra.
Qed.
Lemma int_close (a b : Z) x (e : Q) : Qabs (inject_Z a - x) <= 1 # 2 -> Qabs (inject_Z b - x) < 1 # 2 -> a = b.
Proof.
  intros H1 H2. apply Qabs_Qle_condition in H1. apply Qabs_Qlt_condition in H2. assert (K : inject_Z (a - b) < 1 /\ -1 < inject_Z (a - b)).
  { unfold Z.sub. rewrite inject_Z_plus, inject_Z_opp. lra. }
  change 1 with (inject_Z 1) in K. change (-1) with (inject_Z (-1)) in K. rewrite <- !Zlt_Qlt in K. lia.
Qed.
Lemma int_tie (a b : Z) x : Qabs (inject_Z a - x) <= 1 # 2 -> Qabs (inject_Z b - x) <= 1 # 2 ->
  (Qabs (inject_Z a - x) == 1 # 2 -> exists k, a = (2 * k)%Z) -> (Qabs (inject_Z b - x) == 1 # 2 -> exists k, b = (2 * k)%Z) -> a = b.
Proof.
  intros H1 H2 E1 E2. destruct (Qlt_le_dec (Qabs (inject_Z a - x)) (1 # 2)) as [L|L]; [symmetry; now apply (int_close _ _ x 0)|].
  destruct (Qlt_le_dec (Qabs (inject_Z b - x)) (1 # 2)) as [L'|L']; [now apply (int_close _ _ x 0)|].
  destruct (E1 ltac:(lra)) as [k ->]. destruct (E2 ltac:(lra)) as [k' ->].
  apply Qabs_Qle_condition in H1, H2. assert (K : inject_Z (2 * k - 2 * k') <= 1 /\ -1 <= inject_Z (2 * k - 2 * k')).
  { unfold Z.sub. rewrite inject_Z_plus, inject_Z_opp. lra. }
  change 1 with (inject_Z 1) in K. change (-1) with (inject_Z (-1)) in K. rewrite <- !Zle_Qle in K. lia.
Qed.
Lemma scaled_diff c x s z : frac c * tens s == inject_Z z -> Qabs (frac c - x) * tens s == Qabs (inject_Z z - x * tens s).
Proof. intros H. rewrite abs_mul_pos by apply tens_pos. apply Qabs_wd. rewrite <- H. ring. Qed.
Lemma cancel_tens a b s : a * tens s == b * tens s -> a == b.
Proof. intros H. apply Qmult_inj_r in H; [exact H|]. pose proof (tens_pos s). lra. Qed.
Lemma rounds_unique x c1 c2 : rounds x c1 -> rounds x c2 -> frac c1 == frac c2.
Proof.
  assert (G : forall c1 c2 s1 s2, (s1 < s2)%nat -> wf_rdec c2 = true -> (d_scale c1 <= s1)%nat -> (d_scale c2 <= s2 <= 28)%nat ->
    Qabs (frac c1 - x) * tens s1 <= 1 # 2 -> Qabs (frac c2 - x) * tens s2 <= 1 # 2 ->
    (Qabs (frac c2 - x) * tens s2 == 1 # 2 -> exists k, frac c2 * tens s2 == inject_Z (2 * k)) -> too_big <= Qabs x * tens (s1 + 1) -> frac c1 == frac c2).
  { clear c1 c2. intros c1 c2 s1 s2 Hs W2 D1 D2 H1 H2 T2 B. pose proof (tens_lt _ _ Hs) as L. pose proof (tens_pos s1) as P1. pose proof (tens_pos s2) as P2.
    destruct (le_gt_dec (d_scale c2) s1) as [Ds|Ds].
    - destruct (scaled_int c1 s1 D1) as [z1 Z1]. destruct (scaled_int c2 s1 Ds) as [z2 Z2].
      apply (cancel_tens _ _ s1). rewrite Z1, Z2. apply inject_Z_injective. apply (int_close _ _ (x * tens s1) 0).
      + rewrite <- (scaled_diff c1) by exact Z1. exact H1.
      + rewrite <- (scaled_diff c2) by exact Z2. pose proof (Qabs_nonneg (frac c2 - x)). nra.
    - exfalso. pose proof (mant_top c2 W2) as M. rewrite top_Q, <- abs_frac in M.
      replace (s1 + 1)%nat with (S s1) in B by lia. pose proof (tens_mono (S s1) (d_scale c2) Ds) as L1. pose proof (tens_mono (S s1) s2 Hs) as L2. pose proof (tens_pos (S s1)) as P3.
      pose proof (Qabs_nonneg (frac c2)) as C0. pose proof (Qabs_nonneg (frac c2 - x)) as E0. pose proof (abs_near (frac c2) x _ (Qle_refl _)) as [N1 N2].
      assert (Q1 : Qabs (frac c2) * tens (S s1) <= too_big - (1 # 2)) by nra.
      assert (Q2 : 1 # 2 <= Qabs (frac c2 - x) * tens (S s1)) by nra.
      assert (Q3 : Qabs (frac c2 - x) * tens s2 == 1 # 2) by nra.
      assert (Q4 : Qabs (frac c2 - x) * tens (S s1) == 1 # 2) by nra.
      assert (Es : tens s2 == tens (S s1)).
      { rewrite <- Q4 in Q3. apply (Qmult_inj_l _ _ (Qabs (frac c2 - x))); [|exact Q3]. intros K. rewrite K in Q4. lra. }
      destruct (T2 Q3) as [k Ek]. apply (odd_top k). rewrite <- Ek, top_Q, <- abs_mul_pos, Es by exact P2. nra. }
  intros (W1 & s1 & D1 & H1 & T1 & B1) (W2 & s2 & D2 & H2 & T2 & B2).
  destruct (lt_eq_lt_dec s1 s2) as [[L|<-]|L].
  - destruct B1 as [B1|B1]; [lia|]. now apply (G _ _ s1 s2).
  - destruct (scaled_int c1 s1 (proj1 D1)) as [z1 Z1]. destruct (scaled_int c2 s1 (proj1 D2)) as [z2 Z2].
    apply (cancel_tens _ _ s1). rewrite Z1, Z2. apply inject_Z_injective. rewrite (scaled_diff _ _ _ _ Z1) in *. rewrite (scaled_diff _ _ _ _ Z2) in *.
    apply (int_tie _ _ (x * tens s1)); [exact H1|exact H2| |].
    + intros K. destruct (T1 K) as [k Ek]. exists k. rewrite Z1 in Ek. exact (proj1 (inject_Z_injective _ _) Ek).
    + intros K. destruct (T2 K) as [k Ek]. exists k. rewrite Z2 in Ek. exact (proj1 (inject_Z_injective _ _) Ek).
  - destruct B2 as [B2|B2]; [lia|]. symmetry. now apply (G _ _ s2 s1).
Qed.
Lemma rounds_self c x : wf_rdec c = true -> frac c == x -> rounds x c.
Proof.
  intros W H. split; [exact W|]. exists 28%nat. apply wf_lt in W as [_ W]. split; [lia|]. assert (Z0 : Qabs (frac c - x) == 0) by (rewrite H; setoid_replace (x - x) with 0 by ring; reflexivity).
  rewrite Z0. split; [lra|]. split; [|now left]. intros K. lra.
Qed.
Lemma rounds_exact x c : rounds x c -> storable_number x -> frac c == x.
Proof. intros H (c' & W & E). rewrite <- E. apply (rounds_unique x); [exact H|now apply rounds_self]. Qed.

(** ** the operations *)
Lemma zero_frac c : is_zero c = true <-> frac c == 0.
Proof.
  unfold is_zero. rewrite N.eqb_eq. pose proof (abs_frac c) as H. pose proof (tens_pos (d_scale c)). split.
  - intros K. rewrite K in H. change (Qn 0) with 0 in H. apply Qmult_integral in H as [H|H]; [|lra].
    pose proof (Qabs_Qle_condition (frac c) 0) as [C _]. rewrite H in C. specialize (C (Qle_refl _)). lra.
  - intros K. rewrite K in H. change (Qabs 0) with 0 in H. rewrite Qmult_0_l in H. symmetry in H. apply Qn_eq. exact H.
Qed.
Lemma computes_ok x c : rounds x c -> computes x (ROk c).
Proof. intros H. unfold computes. pose proof (rounds_top _ _ H). destruct (Qlt_le_dec _ _); [|lra]. now exists c. Qed.
Lemma computes_panic x : too_big <= Qabs x -> computes x (RPanic PDecimal).
Proof. intros H. unfold computes. destruct (Qlt_le_dec _ _); [lra|reflexivity]. Qed.
Lemma computes_zero : computes 0 (ROk d_zero).
Proof. apply computes_ok. apply rounds_self; reflexivity. Qed.
Lemma computes_wd x y r : x == y -> computes x r -> computes y r.
Proof.
  intros H. unfold computes. destruct (Qlt_le_dec (Qabs x) too_big) as [L|L], (Qlt_le_dec (Qabs y) too_big) as [L'|L']; rewrite H in L; try lra; [|easy].
  intros (c & -> & W & s & K). exists c. split; [reflexivity|]. split; [exact W|]. exists s. now setoid_rewrite H in K.
Qed.
Lemma frac_form c : frac c == sgn (d_neg c) * Qn (d_mant c) / tens (d_scale c).
Proof. rewrite <- frac_sgn. pose proof (tens_pos (d_scale c)). field. lra. Qed.
Lemma mul_computes a b : wf_rdec a = true -> wf_rdec b = true -> computes (frac a * frac b) (rdec_mul a b).
Proof.
  intros Wa Wb. unfold rdec_mul. destruct (is_zero a || is_zero b) eqn:Z.
  { apply (computes_wd 0); [|apply computes_zero]. apply orb_true_iff in Z as [Z|Z]; apply zero_frac in Z; rewrite Z; ring. }
  apply orb_false_iff in Z as [Za Zb]. set (sc := (d_scale a + d_scale b)%nat).
  assert (X : frac a * frac b == sgn (xorb (d_neg a) (d_neg b)) * Qn (d_mant a * d_mant b) / tens sc).
  { unfold sc. rewrite tens_add, sgn_xor, Qn_mul, (frac_form a), (frac_form b). pose proof (tens_pos (d_scale a)). pose proof (tens_pos (d_scale b)). field. lra. }
  assert (Hsc : (sc <= 56)%nat) by (apply wf_lt in Wa, Wb; unfold sc; lia).
  assert (P : forall j m, (j <= sc)%nat -> (sc - j <= 28)%nat -> half_even_of (d_mant a * d_mant b) (p10 j) m -> (m < two96)%N ->
     (m * p10 j = d_mant a * d_mant b \/ (sc - j = 28)%nat \/ (1 <= j)%nat /\ (2 * two96 - 1) * p10 (j - 1) <= 2 * (d_mant a * d_mant b))%N ->
     rounds (frac a * frac b) (from_parts (xorb (d_neg a) (d_neg b)) m (sc - j))).
  { intros j m Hj Hk He Hm Hc. apply (rounds_intro _ _ m (sc - j) m (sc - j) (d_mant a * d_mant b * p10 (sc - j)) (p10 sc)).
    - apply p10_pos.
    - rewrite X, <- tens_p10. rewrite (Qn_mul (_ * _)), <- tens_p10. pose proof (tens_pos sc). field. lra.
    - replace sc with (j + (sc - j))%nat at 2 by lia. rewrite p10_add. apply half_even_scale; [exact He|]. pose proof (p10_pos (sc - j)). lia.
    - exact Hm.
    - lia.
    - reflexivity.
    - destruct Hc as [E|[E|[E1 E2]]].
      + left. rewrite <- E. replace sc with (j + (sc - j))%nat at 1 by lia. rewrite p10_add. lia.
      + right. now left.
      + right. right. replace sc with (S (j - 1) + (sc - j))%nat at 1 by lia. rewrite p10_add, p10_S. pose proof (p10_pos (sc - j)). nia. }
  destruct ((d_mant a <? 4294967296)%N && (d_mant b <? 4294967296)%N && (47 <? sc)%nat) eqn:Sh.
  - apply andb_true_iff in Sh as [Sh L]. apply andb_true_iff in Sh as [La Lb]. apply N.ltb_lt in La, Lb. apply Nat.ltb_lt in L. apply computes_ok.
    assert (R : rounds (frac a * frac b) (from_parts (xorb (d_neg a) (d_neg b)) 0 (sc - (sc - 28)))).
    { apply P; [lia|lia| |reflexivity|right; left; lia].
      assert (G : (2 * (d_mant a * d_mant b) < p10 (sc - 28))%N).
      { apply N.lt_le_trans with (10 ^ 20)%N; [|apply N.pow_le_mono_r; [discriminate|lia]]. change (10 ^ 20)%N with 100000000000000000000%N. nia. }
      split; [lia|]. split; [lia|]. reflexivity. }
    destruct R as (R1 & s & R2 & R3 & R4 & R5).
    assert (F0 : frac (from_parts (xorb (d_neg a) (d_neg b)) 0 (sc - (sc - 28))) == frac d_zero).
    { apply (cancel_tens _ _ (sc - (sc - 28))). rewrite frac_parts. change (Qn 0) with 0. change (frac d_zero) with 0. ring. }
    split; [reflexivity|]. exists s. split; [cbn; lia|]. setoid_rewrite F0 in R3. setoid_rewrite F0 in R4. now split.
  - destruct (fit (sc - (sc - 28)) (sc - 28) (d_mant a * d_mant b) sc) as [[m sc']|] eqn:F.
    + apply fit_spec2 in F as (j & J1 & -> & J2 & J3 & J4). apply computes_ok. apply P; [lia|lia|exact J2|exact J3|].
      destruct J4 as [->|J4].
      * destruct (le_gt_dec 28 sc) as [G|G]; [right; left; lia|]. left. replace (sc - 28)%nat with 0%nat in * by lia. destruct J2 as (Y1 & Y2 & _). change (p10 0) with 1%N in *. lia.
      * destruct (Nat.eq_dec j 0) as [->|J0]; [|right; right; split; [lia|exact J4]]. left. destruct J2 as (Y1 & Y2 & _). change (p10 0) with 1%N in *. lia.
    + apply fit_none in F. replace (sc - 28 + (sc - (sc - 28)))%nat with sc in F by lia. apply computes_panic. rewrite X.
      setoid_replace (sgn (xorb (d_neg a) (d_neg b)) * Qn (d_mant a * d_mant b) / tens sc) with (sgn (xorb (d_neg a) (d_neg b)) * (Qn (d_mant a * d_mant b) / tens sc))
        by (pose proof (tens_pos sc); field; lra).
      rewrite abs_sgn. rewrite Qabs_pos by (apply Qle_shift_div_l; [apply tens_pos|]; pose proof (Qn_nonneg (d_mant a * d_mant b)); lra).
      apply Qle_shift_div_l; [apply tens_pos|]. apply Qn_le in F. rewrite !(Qn_mul _ (p10 sc)), Qn_mul, <- tens_p10, big_Q in F. change (Qn 2) with 2 in F. lra.
Qed.
Lemma unscale_same sc : forall q, let (m, sc') := unscale sc q in (sc' <= sc)%nat /\ (m <= q)%N /\ (m * p10 sc = q * p10 sc')%N.
Proof.
  induction sc as [|sc IH]; intros q; cbn [unscale]; [repeat (split; [lia|]); reflexivity|].
  destruct (N.eqb_spec (q mod 10) 0) as [E|E]; [|repeat (split; [lia|]); reflexivity].
  specialize (IH (q / 10)%N). destruct (unscale sc (q / 10)) as [m sc']. destruct IH as (H1 & H2 & H3).
  pose proof (N.div_mod q 10 ltac:(lia)) as D. rewrite E in D. split; [lia|]. split; [lia|]. rewrite p10_S. clear E. nia.
Qed.
Lemma div_computes a b : wf_rdec a = true -> wf_rdec b = true -> ~ frac b == 0 -> computes (frac a / frac b) (rdec_div a b).
Proof.
  intros Wa Wb Nb. unfold rdec_div. destruct (is_zero b) eqn:Zb; [elim Nb; now apply zero_frac|].
  destruct (is_zero a) eqn:Za. { apply zero_frac in Za. apply (computes_wd 0); [rewrite Za; field; exact Nb|apply computes_zero]. }
  pose proof (proj1 (wf_lt _ Wa)) as La. pose proof (wf_lt _ Wa) as [_ Sa]. pose proof (wf_lt _ Wb) as [_ Sb].
  assert (Pb : (0 < d_mant b)%N) by (unfold is_zero in Zb; apply N.eqb_neq in Zb; lia).
  set (A := d_mant a) in *. set (d := d_mant b) in *. set (sc0 := (Z.of_nat (d_scale a) - Z.of_nat (d_scale b))%Z).
  pose proof (N.div_mod A d ltac:(lia)) as D. pose proof (N.mod_lt A d ltac:(lia)) as L.
  assert (I : div_state A d sc0 (A / d) (A mod d) sc0).
  { split; [lia|]. split; [exact L|]. split; [|rewrite Z.sub_diag; change (p10 (Z.to_nat 0)) with 1%N; lia]. apply N.le_lt_trans with A; [|exact La].
    apply N.div_le_upper_bound; nia. }
  assert (X : forall s, (sc0 <= s)%Z -> (0 <= s)%Z -> frac a / frac b * tens (Z.to_nat s) == sgn (xorb (d_neg a) (d_neg b)) * Qn (A * p10 (Z.to_nat (s - sc0))) / Qn d).
  { intros s H0 H1. rewrite sgn_xor, Qn_mul, <- tens_p10, (frac_form a), (frac_form b). fold A d. pose proof (Qn_pos d Pb) as Pd.
    assert (T : tens (Z.to_nat s) * tens (d_scale b) == tens (Z.to_nat (s - sc0)) * tens (d_scale a)).
    { rewrite <- !tens_add. replace (Z.to_nat (s - sc0) + d_scale a)%nat with (Z.to_nat s + d_scale b)%nat by lia. reflexivity. }
    pose proof (tens_pos (d_scale a)) as T1. pose proof (tens_pos (d_scale b)) as T2.
    setoid_replace (sgn (d_neg a) * Qn A / tens (d_scale a) / (sgn (d_neg b) * Qn d / tens (d_scale b)) * tens (Z.to_nat s))
      with (sgn (d_neg a) * Qn A / (tens (d_scale a) * sgn (d_neg b) * Qn d) * (tens (Z.to_nat s) * tens (d_scale b))) by (field; destruct (d_neg b); cbn [sgn]; lra).
    rewrite T. destruct (d_neg b); cbn [sgn]; field; lra. }
  pose proof (div_loop_good (E := Empty_set) A d sc0 La Pb 58 _ _ _ false I ltac:(lia)) as G.
  destruct (div_loop 58 d (A / d) (A mod d) sc0 false) as [[[q s] un]|e|p]; cbn [div_good] in G; [|easy|].
  - destruct G as (G1 & G2 & G3 & G4 & G5).
    assert (R : forall m s', (s' <= Z.to_nat s)%nat -> (m <= q)%N -> (m * p10 (Z.to_nat s) = q * p10 s')%N -> computes (frac a / frac b) (ROk (from_parts (xorb (d_neg a) (d_neg b)) m s'))).
    { intros m s' H1 H2 H3. apply computes_ok. eapply (rounds_intro _ _ q (Z.to_nat s) m s'); [exact Pb|apply X; lia|exact G4|lia|lia|exact H3|].
      destruct G5 as [G5|[G5|G5]]; [now left|right; left; lia|right; now right]. }
    destruct un.
    + pose proof (unscale_same (Z.to_nat s) q) as U. destruct (unscale (Z.to_nat s) q) as [m s']. destruct U as (U1 & U2 & U3). now apply R.
    + apply R; [lia|lia|reflexivity].
  - destruct G as (-> & G1 & G2). apply computes_panic. pose proof (X 0%Z G1 (Z.le_refl 0)) as X0. change (tens (Z.to_nat 0)) with 1 in X0. rewrite Qmult_1_r in X0. rewrite X0. pose proof (Qn_pos d Pb) as Pd.
    setoid_replace (sgn (xorb (d_neg a) (d_neg b)) * Qn (A * p10 (Z.to_nat (0 - sc0))) / Qn d) with (sgn (xorb (d_neg a) (d_neg b)) * (Qn (A * p10 (Z.to_nat (0 - sc0))) / Qn d)) by (field; lra).
    rewrite abs_sgn. pose proof (Qn_nonneg (A * p10 (Z.to_nat (0 - sc0)))). rewrite Qabs_pos by (apply Qle_shift_div_l; lra).
    apply Qle_shift_div_l; [exact Pd|]. rewrite Z.sub_0_l. apply Qn_le in G2. rewrite Qn_mul, (Qn_mul 2), big_Q in G2. change (Qn 2) with 2 in G2. lra.
Qed.
Lemma div_zero a b : frac b == 0 -> @rdec_div Empty_set a b = RPanic PDecimal.
Proof. intros H. unfold rdec_div. apply zero_frac in H. now rewrite H. Qed.
