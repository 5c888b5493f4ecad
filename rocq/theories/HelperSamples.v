(** Exact arithmetic for the examples of C42: a quotient that does not end is a panic. *)
From Coq Require Import String List NArith ZArith QArith Bool Lia.
From Verif Require Import Str Num Dec Parsers TimingPoints Spec SpecOld SpecHelpers Helpers.
Import ListNotations.
Local Open Scope N_scope.

Definition of_num (n : Z) (sc : nat) : rdec := mkDec (n <? 0)%Z (Z.to_N (Z.abs n)) sc.
Definition ex_mul (a b : rdec) : run rdec := ROk (of_num (numerator a * numerator b) (d_scale a + d_scale b)).
Definition ex_div (a b : rdec) : run rdec :=
  let n := (numerator a * denominator b * 10 ^ 28)%Z in
  let d := (denominator a * numerator b)%Z in
  if (d =? 0)%Z then RPanic PDecimal
  else if (n mod d =? 0)%Z then ROk (of_num (n / d) 28) else RPanic PDecimal.
Lemma of_num_numerator n sc : numerator (of_num n sc) = n.
Proof. unfold numerator, of_num. cbn [d_neg d_mant]. destruct (Z.ltb_spec n 0); rewrite Z2N.id by lia; lia. Qed.
Lemma den_nz a : ~ (inject_Z (denominator a) == 0)%Q.
Proof.
  unfold denominator. intros H. change 0%Q with (inject_Z 0) in H. rewrite inject_Z_injective in H.
  pose proof (Z.pow_pos_nonneg 10 (Z.of_nat (d_scale a)) ltac:(lia) ltac:(lia)). lia.
Qed.
Lemma ex_mul_exact : exact_mul ex_mul.
Proof.
  intros a b c [= <-]. unfold frac. rewrite of_num_numerator.
  assert (E : denominator (of_num (numerator a * numerator b) (d_scale a + d_scale b)) = (denominator a * denominator b)%Z).
  { unfold denominator, of_num. cbn [d_scale]. rewrite Nat2Z.inj_add, Z.pow_add_r by lia. reflexivity. }
  rewrite E, !inject_Z_mult. field. split; apply den_nz.
Qed.
Lemma ex_div_exact : exact_div ex_div.
Proof.
  intros a b c H. unfold ex_div in H.
  destruct (Z.eqb_spec (denominator a * numerator b) 0) as [|Hd]; [easy|].
  destruct (Z.eqb_spec ((numerator a * denominator b * 10 ^ 28) mod (denominator a * numerator b)) 0) as [Hm|]; [|easy].
  assert (Ec : of_num (numerator a * denominator b * 10 ^ 28 / (denominator a * numerator b)) 28 = c) by congruence.
  subst c. clear H. assert (Hb : ~ (inject_Z (numerator b) == 0)%Q).
  { intros H. change 0%Q with (inject_Z 0) in H. rewrite inject_Z_injective in H. rewrite H in Hd. lia. }
  assert (Hf : ~ (frac b == 0)%Q).
  { unfold frac. intros H. apply Hb. assert (K : (inject_Z (numerator b) == inject_Z (numerator b) / inject_Z (denominator b) * inject_Z (denominator b))%Q) by (field; apply den_nz).
    rewrite K, H. reflexivity. }
  split; [exact Hf|]. unfold frac. rewrite of_num_numerator.
  set (n := (numerator a * denominator b * 10 ^ 28)%Z) in *. set (d := (denominator a * numerator b)%Z) in *.
  pose proof (Z.div_mod n d Hd) as Q. rewrite Hm, Z.add_0_r in Q.
  change (denominator (of_num (n / d) 28)) with (10 ^ 28)%Z.
  assert (T : ~ (inject_Z (10 ^ 28) == 0)%Q) by easy.
  assert (K : (inject_Z n == inject_Z d * inject_Z (n / d))%Q) by now rewrite <- inject_Z_mult, <- Q.
  unfold n at 1, d at 1 in K. rewrite !inject_Z_mult in K.
  assert (Ha := den_nz a). assert (Hdb := den_nz b).
  assert (G : (inject_Z (n / d) == inject_Z (numerator a) * inject_Z (denominator b) * inject_Z (10 ^ 28) / (inject_Z (denominator a) * inject_Z (numerator b)))%Q).
  { rewrite K. field. split; assumption. }
  rewrite G. generalize dependent (inject_Z (10 ^ 28)). intros p T _ _. field. repeat split; assumption.
Qed.
