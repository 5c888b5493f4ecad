(** Which numbers and times come out of adding 24 (C76, versions 3 and 4). *)
From Coq Require Import String List NArith ZArith Bool Lia.
From Verif Require Import Str Num Dec Parsers TimingPoints NormalEvents SpecWf SpecOld SpecImage DecFacts NumFacts OldFacts OldPanic BackRead PrintPanic EvImage.
Import ListNotations.
Local Open Scope N_scope.

Lemma two96_Z : Z.of_N two96 = 79228162514264337593543950336%Z.
Proof. reflexivity. Qed.
Lemma pow_nat n : Z.of_N (10 ^ N.of_nat n) = (10 ^ Z.of_nat n)%Z.
Proof. apply pow_N. Qed.
Lemma value_abs r : Z.abs (value_of r) = Z.of_N (d_mant r).
Proof. unfold value_of. destruct (d_neg r); lia. Qed.
Lemma value_parts z sc : value_of (from_parts (z <? 0)%Z (Z.to_N (Z.abs z)) sc) = z.
Proof.
  unfold value_of, from_parts. cbn [d_neg d_mant]. destruct (Z.to_N (Z.abs z) =? 0) eqn:E; [apply N.eqb_eq in E; lia|].
  destruct (z <? 0)%Z eqn:K; lia.
Qed.
Lemma parts_value r : wf_rdec r = true -> from_parts (value_of r <? 0)%Z (Z.to_N (Z.abs (value_of r))) (d_scale r) = r.
Proof.
  unfold wf_rdec. rewrite !andb_true_iff. intros [[H1 H2] H3]. destruct r as [n m sc]. unfold value_of, from_parts. cbn [d_neg d_mant d_scale] in *.
  assert (E : Z.to_N (Z.abs (if n then (- Z.of_N m)%Z else Z.of_N m)) = m) by (destruct n; lia). rewrite E. destruct (m =? 0) eqn:Em.
  - destruct n; [discriminate H3|easy].
  - f_equal. apply N.eqb_neq in Em. destruct n; lia.
Qed.
(** the sum with 24 of a number other than zero *)
Lemma add24_is {E} d : d_mant d <> 0 -> @rdec_add E d dec24
  = (let z := (value_of d + 24 * 10 ^ Z.of_nat (d_scale d))%Z in
     match fit (d_scale d) 0 (Z.to_N (Z.abs z)) (d_scale d) with
     | Some (m, sc) => ROk (from_parts (z <? 0)%Z m sc)
     | None => RPanic PDecimal
     end).
Proof.
  intros H. unfold rdec_add, is_zero. replace (d_mant d =? 0) with false by (symmetry; now apply N.eqb_neq).
  change (d_mant dec24 =? 0) with false. cbv iota zeta. change (d_scale dec24) with 0%nat. rewrite Nat.max_0_r, Nat.sub_diag, Nat.sub_0_r.
  replace (signed_mant d * pow10 0 + signed_mant dec24 * pow10 (d_scale d))%Z with (value_of d + 24 * 10 ^ Z.of_nat (d_scale d))%Z; [reflexivity|].
  change (signed_mant dec24) with 24%Z. change (pow10 0) with 1%Z. unfold value_of, signed_mant, pow10. destruct (d_neg d); lia.
Qed.
Lemma late_given {E} r : wf_rdec r = true -> late_number r = true -> exists d, wf_rdec d = true /\ @rdec_add E d dec24 = ROk r.
Proof.
  intros W. pose proof W as W0. unfold wf_rdec in W0. rewrite !andb_true_iff in W0. destruct W0 as [[W1 W2] _]. apply N.ltb_lt in W1. apply Nat.leb_le in W2.
  unfold late_number. rewrite andb_true_iff. set (y := (value_of r - 24 * 10 ^ Z.of_nat (d_scale r))%Z). intros [H1 H2]. apply Z.ltb_lt in H1.
  destruct (y =? 0)%Z eqn:Ey.
  - apply Z.eqb_eq in Ey. cbn [negb orb] in H2. pose proof (parts_value r W) as P. replace (value_of r) with (24 * 10 ^ Z.of_nat (d_scale r))%Z in P by lia.
    apply orb_true_iff in H2 as [H2|H2]; apply Nat.eqb_eq in H2; rewrite H2 in P; rewrite <- P.
    + now exists (mkDec false 0 0).
    + exists (mkDec false 1 28). split; vm_compute; reflexivity.
  - apply Z.eqb_neq in Ey. exists (from_parts (y <? 0)%Z (Z.to_N (Z.abs y)) (d_scale r)). split.
    + unfold wf_rdec, from_parts. cbn [d_mant d_scale d_neg]. replace (Z.to_N (Z.abs y) =? 0) with false by (symmetry; apply N.eqb_neq; lia).
      rewrite orb_true_r, andb_true_r. apply andb_true_iff. split; [|now apply Nat.leb_le]. apply N.ltb_lt. unfold two96. lia.
    + rewrite add24_is by (cbn [from_parts d_mant]; lia). cbv zeta. rewrite value_parts. cbn [from_parts d_scale].
      replace (y + 24 * 10 ^ Z.of_nat (d_scale r))%Z with (value_of r) by (unfold y; lia).
      rewrite fit_0 by (rewrite value_abs; lia). now rewrite parts_value.
Qed.
Lemma pow_le n k : (n <= k)%nat -> (10 ^ Z.of_nat n <= 10 ^ Z.of_nat k)%Z.
Proof. intros H. apply Z.pow_le_mono_r; lia. Qed.
Lemma half_even_between m : m / 10 <= div_half_even m 1 <= m / 10 + 1.
Proof. split; [|apply (half_even_le m 1)]. unfold div_half_even. change (10 ^ N.of_nat 1) with 10. cbv zeta. destruct (_ ?= _); [destruct (N.even _)| |]; lia. Qed.
Lemma late_found d r : wf_rdec d = true -> @rdec_add Empty_set d dec24 = ROk r -> late_number r = true.
Proof.
  intros W. unfold wf_rdec in W. rewrite !andb_true_iff in W. destruct W as [[W1 W2] _]. apply N.ltb_lt in W1. apply Nat.leb_le in W2.
  destruct (N.eq_dec (d_mant d) 0) as [E0|E0].
  { unfold rdec_add, is_zero. rewrite E0. cbn [N.eqb]. intros [= <-]. vm_compute. reflexivity. }
  rewrite add24_is by easy. cbv zeta. set (z := (value_of d + 24 * 10 ^ Z.of_nat (d_scale d))%Z).
  pose proof (value_abs d) as Va. pose proof (pow_pos (d_scale d)) as Pp. unfold two96 in W1.
  assert (K0 : forall m, late_number (from_parts (m <? 0)%Z (Z.to_N (Z.abs m)) (d_scale d)) = true ->
    ROk (E := Empty_set) (from_parts (m <? 0)%Z (Z.to_N (Z.abs m)) (d_scale d)) = ROk r -> late_number r = true) by (intros m Hm [= <-]; exact Hm).
  destruct (N.ltb_spec (Z.to_N (Z.abs z)) two96) as [L|L].
  - rewrite fit_0 by easy. apply K0. unfold late_number. rewrite value_parts. cbn [from_parts d_scale].
    replace (z - 24 * 10 ^ Z.of_nat (d_scale d))%Z with (value_of d) by (unfold z; lia). apply andb_true_iff. split; [lia|].
    replace (value_of d =? 0)%Z with false by lia. reflexivity.
  - assert (Zp : (0 < z)%Z) by (unfold two96 in L; lia). destruct (d_scale d) as [|n] eqn:Es.
    + cbn [fit Nat.eqb]. replace (Z.to_N (Z.abs z) <? two96) with false by (symmetry; apply N.ltb_ge; lia). discriminate.
    + cbn [fit Nat.eqb]. replace (Z.to_N (Z.abs z) <? two96) with false by (symmetry; apply N.ltb_ge; lia).
      pose proof (pow_le (S n) 28 W2) as B28. pose proof (pow_le n 27 ltac:(lia)) as B27. pose proof (pow_pos n) as Pn.
      change (10 ^ Z.of_nat 28)%Z with 10000000000000000000000000000%Z in B28. change (10 ^ Z.of_nat 27)%Z with 1000000000000000000000000000%Z in B27.
      pose proof (half_even_between (Z.to_N (Z.abs z))) as Hh. set (m := div_half_even (Z.to_N (Z.abs z)) 1) in *.
      assert (Hq : Z.of_N (Z.to_N (Z.abs z) / 10) = (z / 10)%Z) by (rewrite N2Z.inj_div, Z2N.id by lia; rewrite Z.abs_eq by lia; reflexivity).
      assert (Lz : (79228162514264337593543950336 <= z)%Z) by (unfold two96 in L; lia).
      pose proof (Z.div_mod z 10 ltac:(lia)) as Dm. pose proof (Z.mod_pos_bound z 10 ltac:(lia)) as Db.
      assert (Fm : fit n 1 (Z.to_N (Z.abs z)) (S n) = Some (m, n)).
      { assert (X : m <? two96 = true) by (apply N.ltb_lt; unfold two96; lia). destruct n; cbn [fit Nat.eqb]; fold m; rewrite X; f_equal; f_equal; lia. }
      rewrite Fm. replace (z <? 0)%Z with false by lia. intros Hr. assert (r = from_parts false m n) as -> by congruence. clear Hr.
      unfold late_number. replace (value_of (from_parts false m n)) with (Z.of_N m) by (unfold value_of, from_parts; cbn [d_neg d_mant]; destruct (m =? 0); reflexivity).
      cbn [from_parts d_scale]. apply andb_true_iff. split; [lia|]. destruct (Z.eqb_spec (Z.of_N m - 24 * 10 ^ Z.of_nat n) 0) as [Y|Y]; [|reflexivity].
      cbn [negb orb]. apply orb_true_iff. right. apply Nat.eqb_eq. destruct (Nat.eq_dec n 27) as [|Hn]; [easy|exfalso].
      pose proof (pow_le n 26 ltac:(lia)) as B26. change (10 ^ Z.of_nat 26)%Z with 100000000000000000000000000%Z in B26. lia.
Qed.

(** ** the times of lines *)
Lemma time_in_range v d d' : wf_decimal d = true -> shift_in v d = ROk d' -> time_range v d' = true.
Proof.
  unfold shift_in, time_range. fold (old_version v). destruct (old_version v); [|easy]. destruct d as [r|s]; [|now intros _ [= <-]].
  cbn [wf_decimal]. intros W H. destruct (rdec_add r dec24) as [x| |] eqn:E; try discriminate H. injection H as <-. cbn [negb orb]. now apply late_found with r.
Qed.
(** Either the text itself, or a number. *)
Lemma time_back v d : wf_decimal d = true -> time_range v d = true ->
  exists d0, shift_in v d0 = ROk d /\ (d0 = d \/ exists r, d0 = DNum r /\ wf_rdec r = true).
Proof.
  unfold shift_in, time_range. fold (old_version v). destruct (old_version v); [|intros _ _; exists d; auto]. destruct d as [r|s]; [|intros _ _; exists (DRaw s); auto].
  cbn [wf_decimal negb orb]. intros W H. destruct (@late_given Empty_set r W H) as (x & X1 & X2). exists (DNum x). rewrite X2. split; [easy|]. right. eauto.
Qed.
Lemma clock_in dbg v z z' : in_i32 z = true -> time_in dbg v z = ROk z' -> clock_range dbg v z' = true.
Proof.
  intros Hz. unfold time_in, clock_range. fold (old_version v). destruct (old_version v); [|intros [= <-]; now rewrite Hz].
  unfold i32_add, i32_arith. destruct (in_i32 (z + 24)) eqn:E.
  - intros [= <-]. rewrite E. cbn [negb orb]. destruct dbg; [|easy]. cbn [negb orb andb]. unfold in_i32, i32_min in Hz. lia.
  - destruct dbg; [discriminate|]. intros [= <-]. cbn [negb orb]. rewrite andb_true_r. apply wrap_in.
Qed.
Lemma clock_back dbg v z : clock_range dbg v z = true -> exists z0, in_i32 z0 = true /\ time_in dbg v z0 = ROk z.
Proof.
  unfold time_in, clock_range. fold (old_version v). rewrite andb_true_iff. intros [Hz H]. destruct (old_version v); [|now exists z].
  cbn [negb orb] in H. unfold i32_add, i32_arith. destruct (in_i32 (z - 24)) eqn:E.
  - exists (z - 24)%Z. split; [easy|]. now rewrite Z.sub_add, Hz.
  - destruct dbg; [exfalso; cbn [negb orb] in H; unfold in_i32, i32_min, i32_max in *; lia|]. exists (z - 24 + 4294967296)%Z.
    unfold in_i32, i32_min, i32_max in *. split; [lia|]. replace ((-2147483648 <=? z - 24 + 4294967296 + 24) && (z - 24 + 4294967296 + 24 <=? 2147483647))%Z with false by lia.
    f_equal. unfold wrap_i32, i32_min. replace (z - 24 + 4294967296 + 24 - -2147483648)%Z with (z - -2147483648 + 1 * 4294967296)%Z by lia.
    rewrite Z.mod_add by lia. rewrite Z.mod_small by lia. lia.
Qed.
