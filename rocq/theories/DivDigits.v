(** The last digits of a quotient. *)
From Coq Require Import String List NArith ZArith Bool Lia.
From Verif Require Import Str Num Nom Dec DecOps.
Import ListNotations.
Local Open Scope N_scope.

Lemma unscale_digits sc : forall q, let (m, sc') := unscale sc q in sc' = 0%nat \/ m mod 10 <> 0.
Proof.
  induction sc as [|sc IH]; intros q; cbn [unscale]; [now left|].
  destruct (N.eqb_spec (q mod 10) 0) as [E|E]; [apply IH|now right].
Qed.
Definition div_flag {E} (un : bool) (x : res (N * Z * bool) E) : Prop :=
  match x with ROk (_, _, un') => un' = un | _ => True end.
Lemma lift_flag {E} un x : @div_flag E un (lift_div un x).
Proof. now destruct x as [[q s]|]. Qed.
Lemma loop_flag {E} fuel : forall d q r s un, un = true \/ r <> 0 -> @div_flag E true (div_loop fuel d q r s un).
Proof.
  induction fuel as [|fuel IH]; intros d q r s un H; [easy|].
  assert (G : forall p, @div_flag E true
    (let q1 := q * 10 ^ N.of_nat p in let r1 := r * 10 ^ N.of_nat p in
     if two96 <=? q1 then RPanic PDecimal
     else let q2 := q1 + r1 / d in let r2 := r1 mod d in let sc2 := (s + Z.of_nat p)%Z in
       if two96 <=? q2 then lift_div true (unscale_from_overflow q2 sc2 (negb (r2 =? 0)))
       else div_loop fuel d q2 r2 sc2 true)).
  { intros p. cbv zeta. destruct (two96 <=? q * 10 ^ N.of_nat p); [easy|].
    destruct (two96 <=? _); [apply lift_flag|]. apply IH. now left. }
  cbn [div_loop]. destruct (N.eqb_spec r 0) as [R|R].
  - destruct H as [->|H]; [|easy]. destruct (0 <=? s)%Z; [easy|]. apply (G (Nat.min 9 (Z.to_nat (- s)))).
  - destruct (if (s =? 28)%Z then Some 0%nat else find_scale q s) as [[|p]|]; [|apply (G (S p))|easy].
    destruct (2 * r ?= d); [|easy|apply lift_flag]. destruct (N.odd q); [apply lift_flag|easy].
Qed.
Lemma loop_exact {E} fuel : forall d q s, 0 < d ->
  match @div_loop E fuel d q 0 s false with
  | ROk (q', s', un) => un = false /\ s' = Z.max 0 s /\ q' = q * 10 ^ Z.to_N (s' - s)
  | _ => True
  end.
Proof.
  induction fuel as [|fuel IH]; intros d q s Hd; [easy|]. cbn [div_loop]. change (0 =? 0) with true. cbv iota.
  destruct (Z.leb_spec 0 s) as [H|H].
  - split; [easy|]. split; [lia|]. rewrite Z.sub_diag. cbn. lia.
  - cbv zeta. set (p := Nat.min 9 (Z.to_nat (- s))). destruct (two96 <=? q * 10 ^ N.of_nat p); [easy|].
    rewrite N.mul_0_l, N.div_0_l, N.mod_0_l, N.add_0_r by lia. destruct (two96 <=? _).
    + unfold unscale_from_overflow. replace (s + Z.of_nat p <? 1)%Z with true by (symmetry; apply Z.ltb_lt; lia). easy.
    + specialize (IH d (q * 10 ^ N.of_nat p) (s + Z.of_nat p)%Z Hd).
      destruct (div_loop fuel d _ 0 _ false) as [[[q' s'] un]| |]; [|easy|easy]. destruct IH as (-> & H1 & ->).
      split; [easy|]. split; [lia|]. rewrite <- N.mul_assoc, <- N.pow_add_r. do 2 f_equal. lia.
Qed.
Lemma div_digits {E} a b c : @rdec_div E a b = ROk c -> d_mant a mod d_mant b <> 0 -> d_scale c = 0%nat \/ d_mant c mod 10 <> 0.
Proof.
  unfold rdec_div. destruct (is_zero b); [easy|]. destruct (is_zero a) eqn:Za.
  - intros _ H. exfalso. apply H. unfold is_zero in Za. apply N.eqb_eq in Za. rewrite Za. destruct (d_mant b); reflexivity.
  - intros H R. pose proof (loop_flag (E := E) 58 (d_mant b) (d_mant a / d_mant b) (d_mant a mod d_mant b)
      (Z.of_nat (d_scale a) - Z.of_nat (d_scale b)) false (or_intror R)) as F.
    destruct (div_loop 58 _ _ _ _ false) as [[[q s] un]| |]; [|easy|easy]. cbn [div_flag] in F. subst un.
    pose proof (unscale_digits (Z.to_nat s) q) as U. destruct (unscale (Z.to_nat s) q) as [m sc']. injection H as <-. exact U.
Qed.
Lemma div_exact {E} a b c : @rdec_div E a b = ROk c -> d_mant a <> 0 -> d_mant a mod d_mant b = 0 ->
  d_scale c = (d_scale a - d_scale b)%nat /\ d_mant c = d_mant a / d_mant b * 10 ^ N.of_nat (d_scale b - d_scale a).
Proof.
  unfold rdec_div. destruct (is_zero b) eqn:Zb; [easy|]. unfold is_zero in Zb. apply N.eqb_neq in Zb. intros H Ha R. revert H.
  replace (is_zero a) with false by (symmetry; now apply N.eqb_neq). rewrite R.
  pose proof (loop_exact (E := E) 58 (d_mant b) (d_mant a / d_mant b) (Z.of_nat (d_scale a) - Z.of_nat (d_scale b)) ltac:(lia)) as F.
  destruct (div_loop 58 _ _ _ _ false) as [[[q s] un]| |]; [|easy|easy]. destruct F as (-> & Hs & ->). injection 1 as <-. cbn [d_scale d_mant from_parts].
  split; [lia|]. do 2 f_equal. lia.
Qed.
Lemma mul_exact {E} a b : d_mant a <> 0 -> d_mant b <> 0 -> (d_scale a + d_scale b <= 28)%nat -> d_mant a * d_mant b < two96 ->
  @rdec_mul E a b = ROk (mkDec (xorb (d_neg a) (d_neg b)) (d_mant a * d_mant b) (d_scale a + d_scale b)).
Proof.
  intros Ha Hb Hs Hm. unfold rdec_mul, is_zero. apply N.eqb_neq in Ha as Za. apply N.eqb_neq in Hb as Zb. rewrite Za, Zb. cbn [orb].
  replace (Nat.ltb 47 (d_scale a + d_scale b)) with false by (symmetry; apply Nat.ltb_ge; lia). rewrite andb_false_r.
  cbv zeta. replace (d_scale a + d_scale b - 28)%nat with 0%nat by lia.
  assert (F : forall f m sc, m < two96 -> fit f 0 m sc = Some (m, sc)).
  { intros f m sc H. apply N.ltb_lt in H. destruct f; cbn [fit Nat.eqb]; rewrite H; now rewrite Nat.sub_0_r. }
  rewrite F by easy. unfold from_parts. replace (d_mant a * d_mant b =? 0) with false; [easy|]. symmetry. apply N.eqb_neq. now apply N.neq_mul_0.
Qed.
