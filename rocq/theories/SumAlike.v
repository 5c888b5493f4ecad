(** Sums and differences of decimals (C65), and that equal files panic alike when printed (C79). *)
From Coq Require Import String List NArith ZArith QArith Qabs Bool Lia Lqa.
From Verif Require Import Str Num Nom Dec DecOps Parsers TimingPoints HitObjects NormalEvents Events Osb OsuFile Equal SpecWf SpecOld SpecHelpers
  SpecDecOps SpecEqual SpecPrint SpecAlike DecOpsFacts RoundOps EqualFacts EqualFile PrintPanic Alike.
Import ListNotations.
Local Open Scope Q_scope.

Lemma fit_computes x neg v sc : (sc <= 28)%nat -> x == sgn neg * Qn v / tens sc ->
  computes x (match fit sc 0 v sc with Some (m, sc') => ROk (from_parts neg m sc') | None => RPanic PDecimal end).
Proof.
  intros Hsc X. destruct (fit sc 0 v sc) as [[m sc']|] eqn:F.
  - apply fit_spec2 in F as (j & J1 & -> & J2 & J3 & J4). apply computes_ok.
    apply (rounds_intro _ _ m (sc - j) m (sc - j) (v * p10 (sc - j)) (p10 sc)).
    + apply p10_pos.
    + rewrite X, <- tens_p10. rewrite Qn_mul, <- tens_p10. pose proof (tens_pos sc). field. lra.
    + replace sc with (j + (sc - j))%nat at 2 by lia. rewrite p10_add. apply half_even_scale; [exact J2|]. pose proof (p10_pos (sc - j)). lia.
    + exact J3.
    + lia.
    + reflexivity.
    + destruct (Nat.eq_dec j 0) as [->|J0].
      * left. destruct J2 as (Y1 & Y2 & _). change (p10 0) with 1%N in *. rewrite Nat.sub_0_r. nia.
      * destruct J4 as [E|J4]; [lia|]. right. right.
        replace sc with (S (j - 1) + (sc - j))%nat at 1 by lia. rewrite p10_add, p10_S. pose proof (p10_pos (sc - j)). nia.
  - apply fit_none in F. rewrite Nat.add_0_l in F. apply computes_panic. rewrite X.
    setoid_replace (sgn neg * Qn v / tens sc) with (sgn neg * (Qn v / tens sc)) by (pose proof (tens_pos sc); field; lra).
    rewrite abs_sgn. rewrite Qabs_pos by (apply Qle_shift_div_l; [apply tens_pos|]; pose proof (Qn_nonneg v); lra).
    apply Qle_shift_div_l; [apply tens_pos|]. apply Qn_le in F. rewrite !(Qn_mul _ (p10 sc)), Qn_mul, <- tens_p10, big_Q in F. change (Qn 2) with 2 in F. lra.
Qed.
Lemma frac_signed c : frac c == inject_Z (Dec.signed_mant c) / tens (d_scale c).
Proof. reflexivity. Qed.
Lemma pow10_tens n : inject_Z (pow10 n) == tens n.
Proof. reflexivity. Qed.
Lemma signed_split z : inject_Z z == sgn (z <? 0)%Z * Qn (Z.to_N (Z.abs z)).
Proof.
  rewrite Z2N.id by lia. destruct (Z.ltb_spec z 0) as [L|L]; cbn [sgn].
  - rewrite Z.abs_neq, inject_Z_opp by lia. ring.
  - rewrite Z.abs_eq by lia. ring.
Qed.
Lemma add_computes a b : wf_rdec a = true -> wf_rdec b = true -> computes (frac a + frac b) (rdec_add a b).
Proof.
  intros Wa Wb. unfold rdec_add. destruct (is_zero a) eqn:Za.
  { apply computes_ok, rounds_self; [exact Wb|]. apply zero_frac in Za. rewrite Za. ring. }
  destruct (is_zero b) eqn:Zb.
  { apply computes_ok, rounds_self; [exact Wa|]. apply zero_frac in Zb. rewrite Zb. ring. }
  set (sc := Nat.max (d_scale a) (d_scale b)).
  assert (Hsc : (sc <= 28)%nat) by (apply wf_lt in Wa, Wb; unfold sc; lia).
  apply fit_computes; [exact Hsc|]. rewrite <- signed_split, inject_Z_plus, !inject_Z_mult, !pow10_tens, !frac_signed.
  assert (A : tens sc == tens (d_scale a) * tens (sc - d_scale a)) by (rewrite <- tens_add; replace (d_scale a + (sc - d_scale a))%nat with sc by (unfold sc; lia); reflexivity).
  assert (B : tens sc == tens (d_scale b) * tens (sc - d_scale b)) by (rewrite <- tens_add; replace (d_scale b + (sc - d_scale b))%nat with sc by (unfold sc; lia); reflexivity).
  pose proof (tens_pos (d_scale a)). pose proof (tens_pos (d_scale b)). pose proof (tens_pos (sc - d_scale a)). pose proof (tens_pos (sc - d_scale b)). pose proof (tens_pos sc).
  setoid_replace (inject_Z (Dec.signed_mant a) / tens (d_scale a)) with (inject_Z (Dec.signed_mant a) * tens (sc - d_scale a) / tens sc) by (rewrite A; field; lra).
  setoid_replace (inject_Z (Dec.signed_mant b) / tens (d_scale b)) with (inject_Z (Dec.signed_mant b) * tens (sc - d_scale b) / tens sc) by (rewrite B; field; lra).
  field. lra.
Qed.
Lemma neg_wf b : wf_rdec b = true -> wf_rdec (rdec_neg b) = true.
Proof.
  intros W. unfold rdec_neg. destruct (is_zero b) eqn:Z; [exact W|]. unfold is_zero in Z. unfold wf_rdec in *. cbn [d_mant d_scale d_neg].
  rewrite !andb_true_iff in *. destruct W as [[W1 W2] W3]. repeat split; [exact W1|exact W2|]. rewrite Z. now destruct (d_neg b).
Qed.
Lemma neg_frac b : frac (rdec_neg b) == - frac b.
Proof.
  unfold rdec_neg. destruct (is_zero b) eqn:Z; [apply zero_frac in Z; rewrite Z; reflexivity|].
  rewrite !frac_form. cbn [d_neg d_mant d_scale]. pose proof (tens_pos (d_scale b)). destruct (d_neg b); cbn [negb sgn]; field; lra.
Qed.
Lemma sub_computes a b : wf_rdec a = true -> wf_rdec b = true -> computes (frac a - frac b) (rdec_sub a b).
Proof.
  intros Wa Wb. unfold rdec_sub. apply (computes_wd (frac a + frac (rdec_neg b))); [rewrite neg_frac; ring|].
  apply add_computes; [exact Wa|exact (neg_wf b Wb)].
Qed.
Lemma add_alike a b a' b' : wf_rdec a = true -> wf_rdec b = true -> wf_rdec a' = true -> wf_rdec b' = true ->
  rdec_eq a a' = true -> rdec_eq b b' = true -> alike rdec_eq (rdec_add a b) (rdec_add a' b').
Proof.
  intros Wa Wb Wa' Wb' Ea Eb. apply eq_frac in Ea. apply eq_frac in Eb.
  apply (computes_alike (frac a + frac b) (frac a' + frac b')); [rewrite Ea, Eb; reflexivity| |]; apply add_computes; assumption.
Qed.
Lemma sub_alike a b a' b' : wf_rdec a = true -> wf_rdec b = true -> wf_rdec a' = true -> wf_rdec b' = true ->
  rdec_eq a a' = true -> rdec_eq b b' = true -> alike rdec_eq (rdec_sub a b) (rdec_sub a' b').
Proof.
  intros Wa Wb Wa' Wb' Ea Eb. apply eq_frac in Ea. apply eq_frac in Eb.
  apply (computes_alike (frac a - frac b) (frac a' - frac b')); [rewrite Ea, Eb; reflexivity| |]; apply sub_computes; assumption.
Qed.

(** Printing. *)
Local Open Scope N_scope.
Lemma early_alike d e : decimal_eq d e = true -> storable e -> too_early d -> too_early e.
Proof.
  intros E S (m & -> & H). destruct e as [[n k sc]|s]; [|discriminate E]. cbn [storable d_mant] in S.
  unfold decimal_eq, rdec_eq, signed_mant in E. cbn [d_neg d_mant d_scale] in E. apply Z.eqb_eq in E. change (10 ^ Z.of_nat 0)%Z with 1%Z in E.
  assert (P : (1 <= 10 ^ Z.of_nat sc)%Z) by (apply (Z.pow_le_mono_r 10 0); lia).
  assert (N : n = true) by (destruct n; [reflexivity|]; nia). subst n.
  assert (Z0 : sc = 0%nat).
  { destruct sc as [|sc]; [reflexivity|exfalso]. rewrite Nat2Z.inj_succ, Z.pow_succ_r in * by lia.
    assert (Q : (1 <= 10 ^ Z.of_nat sc)%Z) by (apply (Z.pow_le_mono_r 10 0); lia). nia. }
  subst sc. exists k. split; [reflexivity|]. change (10 ^ Z.of_nat 0)%Z with 1%Z in E. lia.
Qed.
Lemma all_of_map {A B} (c : A -> A) (k : B -> B) (h : A -> list B) o : (forall x, h (c x) = map k (h x)) ->
  all_of (option_map (map c) o) h = map k (all_of o h).
Proof.
  intros H. destruct o as [l|]; [|reflexivity]. cbn [option_map all_of]. induction l as [|x l IH]; [reflexivity|].
  cbn [map flat_map]. rewrite map_app, H, IH. reflexivity.
Qed.
Lemma times_canon f : decimal_times (canon_file f) = map canon_decimal (decimal_times f).
Proof.
  destruct f as [v ge ed sb me di ev ti co ho]. unfold decimal_times. cbn [canon_file osu_timing_points osu_hitobjects]. rewrite map_app. f_equal.
  - apply all_of_map. intros []. reflexivity.
  - apply all_of_map. intros [po tm pa nc cs so sa]. destruct pa as [|[]| |]; reflexivity.
Qed.
Lemma clocks_canon f : clock_times (canon_file f) = clock_times f.
Proof.
  destruct f as [v ge ed sb me di ev ti co ho]. unfold clock_times. cbn [canon_file osu_events].
  rewrite (all_of_map canon_event id); [apply map_id|]. intros e. rewrite map_id. destruct e as [x|x|x|x|x|x|x|x|x|x]; destruct x; reflexivity.
Qed.
Lemma early_list l m : map canon_decimal l = map canon_decimal m -> Forall storable m -> Exists too_early l -> Exists too_early m.
Proof.
  revert m. induction l as [|d l IH]; intros [|e m] E S H; try discriminate E; [inversion H|].
  cbn [map] in E. injection E as E1 E2. apply Forall_cons_iff in S as [S1 S2]. apply Exists_cons in H as [H|H].
  - left. apply (early_alike d); [apply decimal_R; exact E1|exact S1|exact H].
  - right. exact (IH m E2 S2 H).
Qed.
Lemma version_canon f : osu_version (canon_file f) = osu_version f.
Proof. destruct f. reflexivity. Qed.
Lemma print_alike dbg f g : osu_eq f g = true -> Forall storable (decimal_times f) -> Forall storable (decimal_times g) ->
  Forall (fun z => in_i32 z = true) (clock_times f) ->
  ((exists p, osu_to_string dbg f = RPanic p) <-> (exists p, osu_to_string dbg g = RPanic p)).
Proof.
  intros E Sf Sg C. apply file_R in E.
  assert (T := times_canon f). rewrite E, times_canon in T.
  assert (K := clocks_canon f). rewrite E, clocks_canon in K.
  assert (V := version_canon f). rewrite E, version_canon in V.
  rewrite (file_out dbg f Sf C). rewrite (file_out dbg g Sg) by (rewrite K; exact C). rewrite V, K.
  assert (Exists too_early (decimal_times f) <-> Exists too_early (decimal_times g)) as ->; [|reflexivity].
  split; apply early_list; try assumption; congruence.
Qed.
