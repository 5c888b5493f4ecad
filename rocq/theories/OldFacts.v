(** Proofs about the time offset of versions 3 and 4 (C22). *)
From Coq Require Import String List NArith ZArith Bool Lia.
From Verif Require Import Str Num Nom Dec Parsers Colours TimingPoints HitObjects Storyboard NormalEvents Spec SpecWf SpecOld StrFacts NumFacts NomFacts
  DecFacts LineFacts ColoursFacts FieldFacts TpFacts HoFacts HoObj HoImage SpecEvents EvRound EvPanic Events.
Import ListNotations.
Local Open Scope N_scope.

(** ** decimals *)
Lemma pow_pos n : (0 < 10 ^ Z.of_nat n)%Z.
Proof. apply Z.pow_pos_nonneg; lia. Qed.
Lemma pow_N n : Z.of_N (10 ^ N.of_nat n) = (10 ^ Z.of_nat n)%Z.
Proof. rewrite N2Z.inj_pow. now rewrite nat_N_Z. Qed.
Lemma fit_0 f m sc : m < two96 -> fit f 0 m sc = Some (m, sc).
Proof. intros H. destruct f; cbn [fit]; cbn [Nat.eqb]; apply N.ltb_lt in H; rewrite H; now rewrite Nat.sub_0_r. Qed.
Lemma numerator_parts z sc : numerator (from_parts (z <? 0)%Z (Z.to_N (Z.abs z)) sc) = z.
Proof.
  unfold from_parts, numerator. cbn [d_neg d_mant]. rewrite Z2N.id by lia. destruct (N.eqb_spec (Z.to_N (Z.abs z)) 0); destruct (Z.ltb_spec z 0); lia.
Qed.
Lemma parts_numerator d : wf_rdec d = true -> from_parts (numerator d <? 0)%Z (Z.to_N (Z.abs (numerator d))) (d_scale d) = d.
Proof.
  destruct d as [n m sc]. unfold wf_rdec, from_parts, numerator. cbn [d_neg d_mant d_scale]. rewrite !andb_true_iff. intros [_ H].
  replace (Z.to_N (Z.abs (if n then - Z.of_N m else Z.of_N m))) with m by (destruct n; lia).
  f_equal. destruct (N.eqb_spec m 0) as [->|Hm]; [now destruct n|]. destruct n; [|destruct (Z.ltb_spec (Z.of_N m) 0); lia].
  destruct (Z.ltb_spec (- Z.of_N m) 0); lia.
Qed.
Lemma numerator_abs d : Z.abs (numerator d) = Z.of_N (d_mant d).
Proof. unfold numerator. destruct (d_neg d); lia. Qed.
(** adding [k] is exact when it fits *)
Lemma add_int {E} d k : (Z.abs k < 1000)%Z -> k <> 0%Z -> d_mant d + Z.to_N (Z.abs k) * 10 ^ N.of_nat (d_scale d) < two96 ->
  @rdec_add E d (rdec_of_Z k) = ROk (if d_mant d =? 0 then rdec_of_Z k
     else from_parts (numerator d + k * denominator d <? 0)%Z (Z.to_N (Z.abs (numerator d + k * denominator d))) (d_scale d)).
Proof.
  intros Hk Hk0 Hr. unfold rdec_add, is_zero. destruct (d_mant d =? 0) eqn:E0; [easy|].
  assert (K : (d_mant (rdec_of_Z k) =? 0) = false) by (unfold rdec_of_Z, from_parts; cbn [d_mant]; apply N.eqb_neq; lia). rewrite K.
  replace (d_scale (rdec_of_Z k)) with 0%nat by easy. rewrite Nat.max_0_r, Nat.sub_diag, Nat.sub_0_r.
  replace (signed_mant (rdec_of_Z k)) with k by (symmetry; apply (numerator_parts k 0)).
  change (signed_mant d) with (numerator d). change (pow10 0) with 1%Z. rewrite Z.mul_1_r. change (pow10 (d_scale d)) with (denominator d).
  rewrite fit_0; [easy|]. pose proof (numerator_abs d) as Ha. pose proof (pow_N (d_scale d)) as Hp. unfold denominator.
  pose proof (pow_pos (d_scale d)) as Hpos.
  assert (Z.abs (numerator d + k * 10 ^ Z.of_nat (d_scale d)) <= Z.of_N (d_mant d) + Z.abs k * 10 ^ Z.of_nat (d_scale d))%Z.
  { etransitivity; [apply Z.abs_triangle|]. rewrite Ha, Z.abs_mul. rewrite (Z.abs_eq (10 ^ _)%Z) by lia. lia. }
  apply N2Z.inj_lt in Hr. rewrite N2Z.inj_add, N2Z.inj_mul, Hp, Z2N.id in Hr by lia. apply N2Z.inj_lt. rewrite Z2N.id by lia. lia.
Qed.
Lemma plus24 {E} d : room (DNum d) = true -> exists d', @rdec_add E d dec24 = ROk d' /\ later24 d d'
  /\ (d_mant d <> 0 -> numerator d' = (numerator d + 24 * denominator d)%Z /\ d_scale d' = d_scale d)
  /\ (d_mant d = 0 -> d' = dec24).
Proof.
  unfold room. rewrite N.ltb_lt. intros Hr. unfold dec24. rewrite (add_int d 24) by (lia || exact Hr). eexists. split; [reflexivity|].
  destruct (N.eqb_spec (d_mant d) 0) as [E0|E0].
  - split; [|split; easy]. unfold later24, numerator, denominator. rewrite E0. cbn -[Z.pow Z.mul]. change (10 ^ 0)%Z with 1%Z. destruct (d_neg d); lia.
  - split; [|split; [|easy]].
    + unfold later24. rewrite numerator_parts. match goal with |- context [denominator (from_parts ?a ?b ?c)] => change (denominator (from_parts a b c)) with (denominator d) end. reflexivity.
    + intros _. rewrite numerator_parts. auto.
Qed.
Lemma neg24 : rdec_neg dec24 = rdec_of_Z (-24).
Proof. reflexivity. Qed.
Lemma minus24 {E} d : room (DNum d) = true -> exists d', @rdec_sub E d dec24 = ROk d' /\ later24 d' d
  /\ (d_mant d <> 0 -> numerator d' = (numerator d - 24 * denominator d)%Z /\ d_scale d' = d_scale d
      /\ d' = from_parts (numerator d' <? 0)%Z (Z.to_N (Z.abs (numerator d'))) (d_scale d))
  /\ (d_mant d = 0 -> d' = rdec_of_Z (-24)).
Proof.
  unfold room. rewrite N.ltb_lt. intros Hr. unfold rdec_sub. rewrite neg24. rewrite (add_int d (-24)) by (lia || exact Hr). eexists. split; [reflexivity|].
  destruct (N.eqb_spec (d_mant d) 0) as [E0|E0].
  - split; [|split; easy]. unfold later24. change (denominator (rdec_of_Z (-24))) with 1%Z. change (numerator (rdec_of_Z (-24))) with (-24)%Z. unfold numerator. rewrite E0. destruct (d_neg d); lia.
  - split; [|split; [|easy]].
    + unfold later24. rewrite numerator_parts. match goal with |- context [denominator (from_parts ?a ?b ?c)] => change (denominator (from_parts a b c)) with (denominator d) end. lia.
    + intros _. rewrite !numerator_parts. split; [lia|]. split; [easy|]. f_equal; lia.
Qed.
(** Adding and subtracting again. *)
Lemma there_and_back {E} k d d' : (Z.abs k < 1000)%Z -> k <> 0%Z -> d_mant d + Z.to_N (Z.abs k) * 10 ^ N.of_nat (d_scale d) < two96 ->
  wf_rdec d = true -> @rdec_add E d (rdec_of_Z k) = ROk d' ->
  exists d'', @rdec_add E d' (rdec_of_Z (- k)) = ROk d'' /\ same_number d d'' /\ (plain_for k (DNum d) = true -> d'' = d).
Proof.
  intros Hk Hk0 Hr Hw. rewrite (add_int d k Hk Hk0 Hr). intros [= <-]. unfold plain_for.
  assert (Dk : forall z, denominator (rdec_of_Z z) = 1%Z) by easy.
  assert (Nk : forall z, numerator (rdec_of_Z z) = z) by (intros; apply (numerator_parts z 0)).
  assert (Mk : forall z, z <> 0%Z -> (d_mant (rdec_of_Z z) =? 0) = false) by (intros; unfold rdec_of_Z, from_parts; cbn [d_mant]; apply N.eqb_neq; lia).
  destruct (N.eqb_spec (d_mant d) 0) as [E0|E0].
  - exists (rdec_of_Z 0). split.
    { unfold rdec_add, is_zero. rewrite !Mk by lia. change (d_scale (rdec_of_Z k)) with 0%nat. change (d_scale (rdec_of_Z (- k))) with 0%nat. cbn [Nat.max Nat.sub].
      change (signed_mant (rdec_of_Z k)) with (numerator (rdec_of_Z k)). change (signed_mant (rdec_of_Z (- k))) with (numerator (rdec_of_Z (- k))).
      rewrite !Nk. change (pow10 0) with 1%Z. now replace (k * 1 + - k * 1)%Z with 0%Z by lia. }
    assert (N0 : numerator d = 0%Z) by (unfold numerator; rewrite E0; now destruct (d_neg d)). split.
    + unfold same_number. rewrite N0, Nk. lia.
    + rewrite N0. cbn [negb andb orb Z.eqb]. rewrite Nat.eqb_eq. intros Hs. rewrite <- (parts_numerator d Hw), Hs, N0. reflexivity.
  - set (z := (numerator d + k * denominator d)%Z). set (d' := from_parts _ _ _).
    assert (N' : numerator d' = z) by apply numerator_parts.
    destruct (N.eqb_spec (d_mant d') 0) as [F0|F0].
    + unfold rdec_add, is_zero. apply N.eqb_eq in F0 as F1. rewrite F1. eexists. split; [reflexivity|].
      assert (Z0 : z = 0%Z) by (pose proof (numerator_abs d') as A; rewrite F0, N' in A; lia).
      assert (N0 : numerator d = (- k * denominator d)%Z) by lia. split.
      * unfold same_number. rewrite N0, Nk, Dk. lia.
      * fold z. rewrite Z0. cbn [negb Z.eqb]. rewrite andb_false_r. cbn [orb]. rewrite Nat.eqb_eq. intros Hs.
        rewrite <- (parts_numerator d Hw), N0. unfold denominator. rewrite Hs. change (10 ^ Z.of_nat 0)%Z with 1%Z. now rewrite Z.mul_1_r.
    + unfold rdec_add, is_zero. apply N.eqb_neq in F0 as F1. rewrite F1, Mk by lia.
      change (d_scale (rdec_of_Z (- k))) with 0%nat. change (d_scale d') with (d_scale d). rewrite Nat.max_0_r, Nat.sub_diag, Nat.sub_0_r.
      change (signed_mant (rdec_of_Z (- k))) with (numerator (rdec_of_Z (- k))). change (signed_mant d') with (numerator d'). rewrite Nk, N'. change (pow10 0) with 1%Z.
      rewrite Z.mul_1_r. change (pow10 (d_scale d)) with (denominator d). subst z. replace (numerator d + k * denominator d + - k * denominator d)%Z with (numerator d) by lia.
      rewrite fit_0.
      * rewrite (parts_numerator d Hw). exists d. split; [easy|]. split; [now unfold same_number|easy].
      * rewrite numerator_abs, N2Z.id. lia.
Qed.
Lemma add_wf {E} d k d' : (Z.abs k < 1000)%Z -> k <> 0%Z -> d_mant d + Z.to_N (Z.abs k) * 10 ^ N.of_nat (d_scale d) < two96 ->
  wf_rdec d = true -> @rdec_add E d (rdec_of_Z k) = ROk d' -> wf_rdec d' = true.
Proof.
  intros Hk Hk0 Hr Hw. rewrite (add_int d k Hk Hk0 Hr). intros [= <-]. unfold wf_rdec in *. rewrite !andb_true_iff in *. destruct Hw as [[Hm Hs] _].
  destruct (N.eqb_spec (d_mant d) 0) as [E0|E0].
  - unfold rdec_of_Z, from_parts. cbn [d_mant d_scale d_neg]. split; [split; [apply N.ltb_lt; unfold two96; lia|easy]|].
    destruct (Z.to_N (Z.abs k) =? 0); cbn [negb andb orb]; [easy|]. now rewrite orb_true_r.
  - unfold from_parts. cbn [d_mant d_scale d_neg]. split; [split; [|easy]|].
    + apply N.ltb_lt. pose proof (numerator_abs d) as Ha. pose proof (pow_N (d_scale d)) as Hp. pose proof (pow_pos (d_scale d)) as Hpos. unfold denominator.
      assert (Z.abs (numerator d + k * 10 ^ Z.of_nat (d_scale d)) <= Z.of_N (d_mant d) + Z.abs k * 10 ^ Z.of_nat (d_scale d))%Z.
      { etransitivity; [apply Z.abs_triangle|]. rewrite Ha, Z.abs_mul. rewrite (Z.abs_eq (10 ^ _)%Z) by lia. lia. }
      apply N2Z.inj_lt in Hr. rewrite N2Z.inj_add, N2Z.inj_mul, Hp, Z2N.id in Hr by lia. apply N2Z.inj_lt. rewrite Z2N.id by lia. lia.
    + destruct (Z.to_N _ =? 0); cbn [negb andb orb]; [easy|]. now rewrite orb_true_r.
Qed.

(** ** the two directions on the crate's decimals *)
Lemma old_cases v : old_version v = true -> v = 3%Z \/ v = 4%Z.
Proof. unfold old_version. rewrite andb_true_iff, !Z.leb_le. lia. Qed.
Lemma shift_in_room v d : old_version v = true -> room d = true -> exists d', shift_in v d = ROk d' /\ late d d'.
Proof.
  intros Ho Hr. unfold shift_in. rewrite Ho. destruct d as [d|s]; [|eexists; split; [reflexivity|reflexivity]].
  destruct (@plus24 Empty_set d Hr) as (d' & H & Hl & _). rewrite H. eexists. split; [reflexivity|]. exact Hl.
Qed.
Lemma shift_out_room v d : old_version v = true -> room d = true -> exists d', shift_out v d = ROk d' /\ late d' d.
Proof.
  intros Ho Hr. unfold shift_out. rewrite Ho. destruct d as [d|s]; [|eexists; split; [reflexivity|reflexivity]].
  destruct (@minus24 Empty_set d Hr) as (d' & H & Hl & _). rewrite H. eexists. split; [reflexivity|]. exact Hl.
Qed.
Lemma shift_cancel v d d' : old_version v = true -> wf_decimal d = true -> room d = true -> shift_in v d = ROk d' ->
  exists d'', shift_out v d' = ROk d'' /\ same_time d d'' /\ (plain_for 24 d = true -> d'' = d).
Proof.
  intros Ho Hw Hr. unfold shift_in, shift_out. rewrite Ho. destruct d as [d|s].
  - destruct (@rdec_add Empty_set d dec24) as [x| |] eqn:E; cbn [rmap]; try easy. intros [= <-]. unfold room in Hr. apply N.ltb_lt in Hr.
    destruct (@there_and_back Empty_set 24 d x ltac:(lia) ltac:(lia) Hr Hw E) as (y & Hy & Hs & Hp). unfold rdec_sub. rewrite neg24.
    change (-24)%Z with (- (24))%Z. rewrite Hy. eexists. split; [reflexivity|]. split; [exact Hs|].
    intros Hpl. now rewrite (Hp Hpl).
  - intros [= <-]. eexists. split; [reflexivity|]. split; reflexivity.
Qed.
Lemma shift_cancel_out v d d' : old_version v = true -> wf_decimal d = true -> room d = true -> shift_out v d = ROk d' ->
  exists d'', shift_in v d' = ROk d'' /\ same_time d d'' /\ (plain_for (-24) d = true -> d'' = d).
Proof.
  intros Ho Hw Hr. unfold shift_in, shift_out. rewrite Ho. destruct d as [d|s].
  - unfold rdec_sub. rewrite neg24. destruct (@rdec_add Empty_set d (rdec_of_Z (-24))) as [x| |] eqn:E; cbn [rmap]; try easy. intros [= <-]. unfold room in Hr. apply N.ltb_lt in Hr.
    destruct (@there_and_back Empty_set (-24) d x ltac:(lia) ltac:(lia) Hr Hw E) as (y & Hy & Hs & Hp). unfold dec24.
    change (24)%Z with (- (-24))%Z. rewrite Hy. eexists. split; [reflexivity|]. split; [exact Hs|].
    intros Hpl. now rewrite (Hp Hpl).
  - intros [= <-]. eexists. split; [reflexivity|]. split; reflexivity.
Qed.
Lemma shift_out_wf v d d' : old_version v = true -> wf_dec_field d = true -> room d = true -> shift_out v d = ROk d' -> wf_dec_field d' = true.
Proof.
  intros Ho Hw Hr. unfold shift_out. rewrite Ho. destruct d as [d|s]; [|now intros [= <-]].
  unfold rdec_sub. rewrite neg24. destruct (@rdec_add Empty_set d (rdec_of_Z (-24))) as [x| |] eqn:E; cbn [rmap]; try easy. intros [= <-]. unfold room in Hr. apply N.ltb_lt in Hr.
  unfold wf_dec_field in *. apply andb_true_iff in Hw as [Hw _]. apply andb_true_iff. split; [|easy]. now apply (@add_wf Empty_set d (-24) x ltac:(lia) ltac:(lia) Hr Hw E).
Qed.
Lemma shift_new v d : old_version v = false -> shift_in v d = ROk d /\ shift_out v d = ROk d.
Proof. unfold shift_in, shift_out. now intros ->. Qed.
Lemma shift_in_late v a b : old_version v = true -> shift_in v a = ROk b -> room a = true -> late a b.
Proof. intros Ho H Hr. destruct (shift_in_room v a Ho Hr) as (x & Hx & Hl). rewrite H in Hx. now injection Hx as <-. Qed.

(** ** hit objects *)
Lemma map_run_5 {C} (p : parser C decimal) s : map_run p (shift_in 5%Z) s = p s.
Proof. unfold map_run, shift_in. change (old_version 5%Z) with false. cbn. now destruct (p s). Qed.
Lemma map_run_v {C} (p : parser C decimal) v s r t :
  map_run p (shift_in v) s = POk r t <-> exists t5, p s = POk r t5 /\ shift_in v t5 = ROk t.
Proof.
  unfold map_run. destruct (p s) as [r' a| | |]; try (split; [easy|now intros (? & ? & _)]).
  destruct (shift_in v a) as [b| |q] eqn:E; [| |];
    (split; [intros H; injection H as <- <- || easy; eauto|intros (x & [= <- <-] & H); rewrite E in H; now injection H as <- || easy]).
Qed.
Lemma pbind_iff {C A B} (p : parser C A) (q : A -> parser C B) s r b :
  pbind p q s = POk r b <-> exists r1 a, p s = POk r1 a /\ q a r1 = POk r b.
Proof. unfold pbind. destruct (p s) as [r' a| | |]; split; try easy; try (now intros (? & ? & ? & _)); [eauto|]. intros (r1 & x & [= <- <-] & H). easy. Qed.
Lemma pmap_iff {C A B} (p : parser C A) (f : A -> B) s r b : pmap f p s = POk r b <-> exists a, p s = POk r a /\ b = f a.
Proof. unfold pmap. destruct (p s) as [r' a| | |]; split; try easy; try (now intros (? & ? & _)); [intros [= <- <-]; eauto|]. intros (x & [= <- <-] & ->). easy. Qed.

Lemma common_iff v s r p t ty h :
  ho_common v s = POk r (p, t, ty, h) <-> exists t5, ho_common 5%Z s = POk r (p, t5, ty, h) /\ shift_in v t5 = ROk t.
Proof.
  unfold ho_common. split.
  - intros H. apply pbind_iff in H as (r1 & x & H1 & H). apply pbind_iff in H as (r2 & y & H2 & H).
    apply pbind_iff in H as (r3 & t' & H3 & H). apply pbind_iff in H as (r4 & ty' & H4 & H). apply pmap_iff in H as (h' & H5 & [= -> -> -> ->]).
    apply map_run_v in H3 as (t5 & H3 & Hs). exists t5. split; [|easy].
    apply pbind_iff; exists r1, x; split; [easy|]. apply pbind_iff; exists r2, y; split; [easy|].
    apply pbind_iff; exists r3, t5; split; [now rewrite map_run_5|]. apply pbind_iff; exists r4, ty'; split; [easy|]. apply pmap_iff; eauto.
  - intros (t5 & H & Hs). apply pbind_iff in H as (r1 & x & H1 & H). apply pbind_iff in H as (r2 & y & H2 & H).
    apply pbind_iff in H as (r3 & t' & H3 & H). apply pbind_iff in H as (r4 & ty' & H4 & H). apply pmap_iff in H as (h' & H5 & [= -> -> -> ->]).
    rewrite map_run_5 in H3.
    apply pbind_iff; exists r1, x; split; [easy|]. apply pbind_iff; exists r2, y; split; [easy|].
    apply pbind_iff; exists r3, t; split; [apply map_run_v; eauto|]. apply pbind_iff; exists r4, ty'; split; [easy|]. apply pmap_iff; eauto.
Qed.
Lemma curve_iff v s r c l :
  ho_curve v s = POk r (c, l) <-> exists l5, ho_curve 5%Z s = POk r (c, l5) /\ l = if (v =? 3)%Z then tl l5 else l5.
Proof.
  unfold ho_curve, alt. destruct (pmap (fun c0 => (c0, [])) _ s) as [r1 [c1 l1]| | |] eqn:E1.
  - apply pmap_iff in E1 as (x & _ & [= -> ->]). split.
    + intros [= <- <- <-]. exists []. split; [easy|]. now destruct (v =? 3)%Z.
    + intros (l5 & [= <- <- <-] & ->). now destruct (v =? 3)%Z.
  - change ((5 =? 3)%Z) with false. cbv iota. unfold pbind, pmap. destruct (preceded _ _ s) as [r2 a| | |]; [|split; [easy|now intros (? & ? & _)]..].
    destruct (preceded _ _ r2) as [r3 b| | |]; [|split; [easy|now intros (? & ? & _)]..].
    split; [intros [= <- <- <-]; eauto|intros (l5 & [= <- <- <-] & ->); easy].
  - split; [easy|now intros (? & ? & _)].
  - split; [easy|now intros (? & ? & _)].
Qed.
Lemma slider_iff v s r p hs :
  ho_slider v s = POk r (p, hs) <-> exists p5, ho_slider 5%Z s = POk r (p5, hs) /\ moved_params late_if_room v (Slider p5) (Slider p).
Proof.
  unfold ho_slider. split.
  - intros H. apply pbind_iff in H as (r1 & [c l] & H1 & H). apply curve_iff in H1 as (l5 & H1 & ->).
    apply pbind_iff in H as (r2 & sl & H2 & H). apply pbind_iff in H as (r3 & len & H3 & H). apply pmap_iff in H as ([[[[es sets] hs'] sh1] sh2] & H4 & [= -> ->]).
    eexists. split; [|cbn [moved_params]; cycle 1].
    { apply pbind_iff; exists r1, (c, l5); split; [easy|]. apply pbind_iff; exists r2, sl; split; [easy|]. apply pbind_iff; exists r3, len; split; [easy|].
      apply pmap_iff. eexists. split; [exact H4|reflexivity]. }
    reflexivity.
  - intros (p5 & H & Hm). apply pbind_iff in H as (r1 & [c l5] & H1 & H).
    apply pbind_iff in H as (r2 & sl & H2 & H). apply pbind_iff in H as (r3 & len & H3 & H). apply pmap_iff in H as ([[[[es sets] hs'] sh1] sh2] & H4 & [= -> ->]).
    cbn [moved_params sl_curve_type sl_curve_points sl_slides sl_length sl_edge_sounds sl_edge_sounds_short_hand sl_edge_sets sl_edge_sets_shorthand] in Hm. subst p.
    apply pbind_iff. exists r1, (c, if (v =? 3)%Z then tl l5 else l5). split; [apply curve_iff; eauto|]. apply pbind_iff; exists r2, sl; split; [easy|]. apply pbind_iff; exists r3, len; split; [easy|].
    apply pmap_iff. eexists. split; [exact H4|reflexivity].
Qed.
Lemma spinner_iff v s r t hs :
  ho_spinner v s = POk r (t, hs) <-> exists t5, ho_spinner 5%Z s = POk r (t5, hs) /\ shift_in v t5 = ROk t.
Proof.
  unfold ho_spinner. split.
  - intros H. apply pbind_iff in H as (r1 & a & H1 & H). apply map_run_v in H1 as (t5 & H1 & Hs). apply pmap_iff in H as (x & H & [= -> ->]).
    exists t5. split; [|easy]. apply pbind_iff; exists r1, t5; split; [now rewrite map_run_5|]. apply pmap_iff; eauto.
  - intros (t5 & H & Hs). apply pbind_iff in H as (r1 & a & H1 & H). rewrite map_run_5 in H1. apply pmap_iff in H as (x & H & [= -> ->]).
    apply pbind_iff; exists r1, t; split; [apply map_run_v; eauto|]. apply pmap_iff; eauto.
Qed.
Lemma preceded_iff {C A B} (p : parser C A) (q : parser C B) s r b : preceded p q s = POk r b <-> exists r1 a, p s = POk r1 a /\ q r1 = POk r b.
Proof. unfold preceded. rewrite pbind_iff. reflexivity. Qed.
Lemma hold_iff v s r t hs :
  ho_hold v s = POk r (t, hs) <-> exists t5, ho_hold 5%Z s = POk r (t5, hs) /\ shift_in v t5 = ROk t.
Proof.
  unfold ho_hold. split.
  - intros H. apply pbind_iff in H as (r1 & a & H1 & H). apply preceded_iff in H1 as (r0 & u & H0 & H1).
    apply map_run_v in H1 as (t5 & H1 & Hs). apply pmap_iff in H as (x & H & [= -> ->]).
    exists t5. split; [|easy]. apply pbind_iff; exists r1, t5; split; [apply preceded_iff; exists r0, u; split; [easy|now rewrite map_run_5]|]. apply pmap_iff; eauto.
  - intros (t5 & H & Hs). apply pbind_iff in H as (r1 & a & H1 & H). apply preceded_iff in H1 as (r0 & u & H0 & H1). rewrite map_run_5 in H1. apply pmap_iff in H as (x & H & [= -> ->]).
    apply pbind_iff; exists r1, t; split; [apply preceded_iff; exists r0, u; split; [easy|apply map_run_v; eauto]|]. apply pmap_iff; eauto.
Qed.

Definition shifted_params (v : version) (p5 p : ho_params) : Prop :=
  match p5, p with
  | Spinner a, Spinner b | OsuManiaHold a, OsuManiaHold b => shift_in v a = ROk b
  | _, _ => moved_params late_if_room v p5 p
  end.
Definition shifted (v : version) (o5 o : hit_object) : Prop :=
  exists p t5 t p5 q nc sk h hs, o5 = mk_ho p t5 p5 nc sk h hs /\ o = mk_ho p t q nc sk h hs
    /\ shift_in v t5 = ROk t /\ shifted_params v p5 q.
Lemma shifted_moved v o5 o : old_version v = true -> shifted v o5 o -> moved late_if_room v o5 o.
Proof.
  intros Ho (p & t5 & t & p5 & q & nc & sk & h & hs & -> & -> & Ht & Hp). unfold moved. cbn [ho_position ho_time ho_obj_params ho_new_combo ho_combo_skip_count ho_hitsound ho_hitsample].
  split; [easy|]. split; [unfold late_if_room; now apply shift_in_late with v|]. split; [|easy].
  destruct p5, q; cbn [shifted_params moved_params] in *; try easy; unfold late_if_room; now apply shift_in_late with v.
Qed.
Lemma verbose_ok {C A} (r : pres C A) a : verbose_error_to_error r = ROk a <-> exists rest, r = POk rest a.
Proof.
  destruct r as [x y|e|e|q]; cbn [verbose_error_to_error]; try (destruct (e_ctx e)); split; try easy; try (now intros [? ?]).
  - intros [= ->]. eauto.
  - now intros [? [= _ ->]].
Qed.
Lemma rmap_ok {A B E} (f : A -> B) (r : res A E) b : rmap f r = ROk b <-> exists a, r = ROk a /\ b = f a.
Proof. destruct r; cbn [rmap]; split; try easy; try (now intros (? & ? & _)); [intros [= <-]; eauto|]. now intros (x & [= ->] & ->). Qed.
Lemma obj_iff v s o : ho_from_str v s = ROk (Some o) <-> exists o5, ho_from_str 5%Z s = ROk (Some o5) /\ shifted v o5 o.
Proof.
  unfold ho_from_str. split.
  - destruct (ho_common v s) as [r [[[p t] ty] h]|e|e|q] eqn:E; try (cbn [verbose_error_to_error]; destruct (e_ctx e)); try easy.
    apply common_iff in E as (t5 & -> & Ht). destruct (combo_skip_count_try_from _) as [[sk|]| |]; try easy.
    destruct (nth_bit ty 0).
    { intros H. apply rmap_ok in H as (hs & H & [= ->]). apply verbose_ok in H as (r' & H). rewrite H. eexists. split; [reflexivity|].
      repeat eexists; eauto. }
    destruct (nth_bit ty 1).
    { intros H. apply rmap_ok in H as ([sp hs] & H & [= ->]). apply verbose_ok in H as (r' & H). apply slider_iff in H as (p5 & H & Hm). rewrite H.
      eexists. split; [reflexivity|]. do 9 eexists. split; [reflexivity|]. split; [reflexivity|]. split; [exact Ht|exact Hm]. }
    destruct (nth_bit ty 3).
    { intros H. apply rmap_ok in H as ([sp hs] & H & [= ->]). apply verbose_ok in H as (r' & H). apply spinner_iff in H as (p5 & H & Hm). rewrite H.
      eexists. split; [reflexivity|]. do 9 eexists. split; [reflexivity|]. split; [reflexivity|]. split; [exact Ht|exact Hm]. }
    destruct (nth_bit ty 7); [|easy].
    { intros H. apply rmap_ok in H as ([sp hs] & H & [= ->]). apply verbose_ok in H as (r' & H). apply hold_iff in H as (p5 & H & Hm). rewrite H.
      eexists. split; [reflexivity|]. do 9 eexists. split; [reflexivity|]. split; [reflexivity|]. split; [exact Ht|exact Hm]. }
  - intros (o5 & H & (p' & t5' & t & p5' & q & nc & sk' & h' & hs' & -> & -> & Ht & Hp)). revert H.
    destruct (ho_common 5%Z s) as [r [[[p t5] ty] h]|e|e|x] eqn:E; try (cbn [verbose_error_to_error]; destruct (e_ctx e)); try easy.
    destruct (combo_skip_count_try_from _) as [[sk|]| |] eqn:Ek; try easy.
    assert (C : shift_in v t5 = ROk t -> ho_common v s = POk r (p, t, ty, h)) by (intros Hx; apply common_iff; eauto).
    destruct (nth_bit ty 0) eqn:B0.
    { intros H. apply rmap_ok in H as (hs & H & [= -> -> -> -> -> -> ->]). apply verbose_ok in H as (r' & H). rewrite (C Ht), Ek, B0, H. now destruct q. }
    destruct (nth_bit ty 1) eqn:B1.
    { intros H. apply rmap_ok in H as ([sp hs] & H & [= -> -> -> -> -> -> ->]). apply verbose_ok in H as (r' & H). rewrite (C Ht), Ek, B0, B1.
      destruct q as [|sl|u|u]; try easy. cbn [shifted_params] in Hp. replace (ho_slider v r) with (POk (C:=ho_err) r' (sl, hs)) by (symmetry; apply slider_iff; eauto). easy. }
    destruct (nth_bit ty 3) eqn:B3.
    { intros H. apply rmap_ok in H as ([sp hs] & H & [= -> -> -> -> -> -> ->]). apply verbose_ok in H as (r' & H). rewrite (C Ht), Ek, B0, B1, B3.
      destruct q as [|sl|u|u]; try easy. cbn [shifted_params] in Hp. replace (ho_spinner v r) with (POk (C:=ho_err) r' (u, hs)) by (symmetry; apply spinner_iff; eauto). easy. }
    destruct (nth_bit ty 7) eqn:B7; [|easy].
    { intros H. apply rmap_ok in H as ([sp hs] & H & [= -> -> -> -> -> -> ->]). apply verbose_ok in H as (r' & H). rewrite (C Ht), Ek, B0, B1, B3, B7.
      destruct q as [|sl|u|u]; try easy. cbn [shifted_params] in Hp. replace (ho_hold v r) with (POk (C:=ho_err) r' (u, hs)) by (symmetry; apply hold_iff; eauto). easy. }
Qed.
Lemma obj_read v s o : old_version v = true -> ho_from_str v s = ROk (Some o) -> exists o5, ho_from_str 5%Z s = ROk (Some o5) /\ moved late_if_room v o5 o.
Proof. intros Ho H. apply obj_iff in H as (o5 & H & Hs). exists o5. split; [easy|]. now apply shifted_moved. Qed.
Lemma obj_read_ok v s o5 : old_version v = true -> ho_from_str 5%Z s = ROk (Some o5) -> roomy o5 = true -> exists o, ho_from_str v s = ROk (Some o).
Proof.
  intros Ho H Hr. unfold roomy in Hr. apply andb_true_iff in Hr as [Hr Hp]. destruct (shift_in_room v _ Ho Hr) as (t & Ht & _).
  destruct o5 as [p t5 q nc sk h hs]. cbn [ho_time ho_obj_params] in *.
  assert (exists q', shifted_params v q q') as (q' & Hq).
  { destruct q as [|sl|u|u].
    - now exists HitCircle.
    - eexists (Slider _). reflexivity.
    - destruct (shift_in_room v _ Ho Hp) as (u' & Hu & _). now exists (Spinner u').
    - destruct (shift_in_room v _ Ho Hp) as (u' & Hu & _). now exists (OsuManiaHold u'). }
  exists (mk_ho p t q' nc sk h hs). apply obj_iff. eexists. split; [exact H|]. do 9 eexists. split; [reflexivity|]. split; [reflexivity|]. auto.
Qed.

Lemma sample_old h v : (3 <= v < 10)%Z -> hit_sample_to_string h v = None.
Proof. intros H. unfold hit_sample_to_string. replace (3 <=? v)%Z with true by lia. now replace (v <=? 9)%Z with true by lia. Qed.
Lemma obj_print v o : old_version v = true -> roomy o = true ->
  exists o5 t, moved late v o5 o /\ (v = 3%Z -> starts_at_position o5)
    /\ ho_to_string 5%Z o5 = ROk t /\ ho_to_string v o = ROk (t ++ circle_comma v o).
Proof.
  intros Ho Hr. unfold roomy in Hr. apply andb_true_iff in Hr as [Hr Hp]. destruct o as [p t q nc sk h hs]. cbn [ho_time ho_obj_params] in *.
  destruct (shift_out_room v _ Ho Hr) as (t5 & Ht & Hl).
  assert (V : (3 <= v < 10)%Z) by (destruct (old_cases v Ho); lia).
  assert (S5 : forall x, shift_out 5%Z x = ROk x) by (intros; now apply shift_new).
  assert (HS : forall v', (3 <= v' < 10)%Z -> match hs with Some h0 => match hit_sample_to_string h0 v' with Some t0 => [t0] | None => [] end | None => [] end = []).
  { intros v' Hv. destruct hs; [now rewrite sample_old|easy]. }
  destruct q as [|sl|u|u].
  - exists (mk_ho p t5 HitCircle nc sk h hs). unfold ho_to_string, moved, circle_comma. cbn [ho_position ho_time ho_obj_params ho_new_combo ho_combo_skip_count ho_hitsound ho_hitsample].
    rewrite S5, Ht. cbn [rbind]. rewrite (HS v V), (HS 5%Z ltac:(lia)). eexists. split; [repeat split; easy|]. split; [easy|]. split; [reflexivity|].
    destruct (v =? 3)%Z; [easy|]. f_equal; symmetry; apply app_nil_r.
  - set (sl5 := mk_slide (sl_curve_type sl) (if (v =? 3)%Z then p :: sl_curve_points sl else sl_curve_points sl) (sl_slides sl) (sl_length sl) (sl_edge_sounds sl)
        (sl_edge_sounds_short_hand sl) (sl_edge_sets sl) (sl_edge_sets_shorthand sl)).
    exists (mk_ho p t5 (Slider sl5) nc sk h hs). unfold ho_to_string, moved, circle_comma. cbn [ho_position ho_time ho_obj_params ho_new_combo ho_combo_skip_count ho_hitsound ho_hitsample].
    rewrite S5, Ht. cbn [rbind]. rewrite (HS v V), (HS 5%Z ltac:(lia)). eexists.
    split; [repeat split; try easy; cbn [moved_params]; subst sl5; destruct sl; cbn; now destruct (v =? 3)%Z|].
    split; [intros ->; unfold starts_at_position; cbn; eauto|]. split; [reflexivity|]. f_equal. etransitivity; [|symmetry; apply app_nil_r].
    change (5 =? 3)%Z with false. subst sl5. cbn [sl_curve_type sl_curve_points sl_slides sl_length sl_edge_sounds sl_edge_sounds_short_hand sl_edge_sets sl_edge_sets_shorthand].
    unfold ho_type_to_string. cbn [ho_obj_params ho_new_combo ho_combo_skip_count]. now destruct (v =? 3)%Z.
  - destruct (shift_out_room v _ Ho Hp) as (u5 & Hu & Hul).
    exists (mk_ho p t5 (Spinner u5) nc sk h hs). unfold ho_to_string, moved, circle_comma. cbn [ho_position ho_time ho_obj_params ho_new_combo ho_combo_skip_count ho_hitsound ho_hitsample].
    rewrite !S5, Ht. cbn [rbind]. rewrite Hu. cbn [rmap]. rewrite (HS v V), (HS 5%Z ltac:(lia)). eexists. split; [repeat split; easy|]. split; [easy|]. split; [reflexivity|].
    f_equal; symmetry; apply app_nil_r.
  - destruct (shift_out_room v _ Ho Hp) as (u5 & Hu & Hul).
    exists (mk_ho p t5 (OsuManiaHold u5) nc sk h hs). unfold ho_to_string, moved, circle_comma. cbn [ho_position ho_time ho_obj_params ho_new_combo ho_combo_skip_count ho_hitsound ho_hitsample].
    rewrite !S5, Ht. cbn [rbind]. rewrite Hu. cbn [rmap]. rewrite (HS v V), (HS 5%Z ltac:(lia)). eexists. split; [repeat split; easy|]. split; [easy|]. split; [reflexivity|].
    f_equal; symmetry; apply app_nil_r.
Qed.

(** ** timing points *)
Definition old_tail (v : version) (t : timing_point) : str :=
  print_decimal (tp_beat_length t)
  ++ (if (v =? 3)%Z then []
      else lit "," ++ print_Z (tp_meter t) ++ lit "," ++ tp_sample_set_to_string (tp_sample_set_f t) ++ lit "," ++ sample_index_to_string (tp_sample_index t)).
Lemma tp_print_old v t d : old_version v = true -> shift_out v (tp_time t) = ROk d ->
  tp_to_string v t = ROk (print_decimal d ++ lit "," ++ old_tail v t).
Proof.
  intros Ho H. unfold tp_to_string. rewrite H. cbn [rmap]. f_equal. unfold old_tail. destruct (old_cases v Ho) as [-> | ->]; cbn [Z.ltb Z.eqb Z.compare Pos.compare Pos.compare_cont Pos.eqb app].
  - rewrite join_cons2. now rewrite app_nil_r.
  - now rewrite !join_cons2.
Qed.
Definition old_back (v : version) (t : timing_point) (d : decimal) : timing_point :=
  if (v =? 3)%Z then mk_tp d (tp_beat_length t) 4 TsNormal (SiIndex 1) 100 None None
  else mk_tp d (tp_beat_length t) (tp_meter t) (tp_sample_set_f t) (tp_sample_index t) 100 None None.
Lemma tp_parse_old v t d d' : old_version v = true -> old_tp_ok v t = true -> wf_dec_field d = true -> shift_in v d = ROk d' ->
  tp_parser v (print_decimal d ++ lit "," ++ old_tail v t) = POk [] (old_back v t d').
Proof.
  intros Ho Hok Hd Hs. unfold old_tp_ok in Hok. rewrite !andb_true_iff in Hok.
  destruct Hok as [[[[[[[Ht Hr] Hb] Hm] Hss] Hi] Hi'] _]. unfold tp_parser. eapply pbind_step.
  { eapply map_run_ok; [apply context_ok; now apply dfield_mid|exact Hs]. }
  eapply preceded_step; [apply context_ok, comma_ok|]. unfold old_tail, old_back. destruct (old_cases v Ho) as [-> | ->]; cbn [Z.eqb Pos.eqb].
  - apply alt_l. rewrite app_nil_r. apply (pmap_step (fun bl => mk_tp d' bl 4 TsNormal (sample_index_of_u32 1) 100 None None)). rewrite upto_yes by lia.
    unfold consume_rest_type. eapply map_res_ok; [reflexivity|]. now apply parse_print_decimal.
  - erewrite alt_r by (apply pmap_err; apply upto_no; lia).
    eapply pbind_step; [now apply dfield_mid|].
    eapply pbind_step.
    { eapply preceded_step; [apply context_ok, comma_ok|]. apply context_ok.
      apply field_mid; [apply print_Z_no_comma|now apply parse_print_i32]. }
    eapply pbind_step.
    { eapply preceded_step; [apply context_ok, comma_ok|]. apply context_ok.
      apply vfield_mid; [apply print_Z_no_comma|now apply tp_sample_set_print]. }
    apply (pmap_step (fun '(i, (vol, u, e)) => mk_tp d' (tp_beat_length t) (tp_meter t) (tp_sample_set_f t) i vol u e) _ _ _ (tp_sample_index t, (100%Z, None, None))).
    unfold tp_index_rest. eapply preceded_step; [apply context_ok, comma_ok|].
    apply alt_l. apply (pmap_step (fun i => (i, (100%Z, None, None)))). rewrite upto_yes by lia. apply context_ok. apply vrest. now apply sample_index_print.
Qed.
Lemma timing_old v l : old_version v = true -> forallb (old_tp_ok v) l = true ->
  exists s l', timing_points_to_string l v = ROk (Some s) /\ timing_points_from_str s v = ROk (Some l') /\ Forall2 (old_tp_kept v) l l'.
Proof.
  intros Ho Hok. rewrite forallb_forall in Hok.
  assert (P : forall t, In t l -> exists a t', tp_to_string v t = ROk a /\ good_line a = true /\ tp_from_str v a = ROk (Some t') /\ old_tp_kept v t t').
  { intros t Ht. specialize (Hok t Ht). pose proof Hok as Hk. unfold old_tp_ok in Hk. rewrite !andb_true_iff in Hk. destruct Hk as [[[[[[[Hw Hr] Hb] Hm] Hss] Hi] Hi'] Hcr].
    assert (Hw' : wf_decimal (tp_time t) = true) by (unfold wf_dec_field in Hw; now apply andb_true_iff in Hw).
    destruct (shift_out_room v _ Ho Hr) as (d & Hd & _). destruct (shift_cancel_out v _ d Ho Hw' Hr Hd) as (d' & Hd' & Hs & Hp).
    pose proof (shift_out_wf v _ d Ho Hw Hr Hd) as Hdw.
    exists (print_decimal d ++ lit "," ++ old_tail v t), (old_back v t d'). split; [now apply tp_print_old|]. split; [|split].
    - unfold good_line. rewrite not_blank_comma, andb_true_r. unfold old_tail. destruct (v =? 3)%Z.
      + rewrite app_nil_r, app_assoc. apply plain_app; [now rewrite no_nl_app, wf_dec_field_no_nl|now apply wf_dec_field_no_nl|exact Hcr|intros _; apply no_cr_comma].
      + rewrite !app_assoc. unfold sample_index_to_string. apply plain_print_Z. rewrite !no_nl_app, !wf_dec_field_no_nl by easy. unfold tp_sample_set_to_string. now rewrite !print_Z_no_nl.
    - unfold tp_from_str. now rewrite (tp_parse_old v t d d').
    - unfold old_tp_kept, old_back. destruct (v =? 3)%Z; cbn; repeat split; try easy. }
  clear Hok. assert (Q : exists ls l', run_list (map (tp_to_string v) l) = ROk ls /\ forallb good_line ls = true
    /\ Forall2 (fun a t => tp_from_str v a = ROk (Some t)) ls l' /\ Forall2 (old_tp_kept v) l l').
  { induction l as [|t l IH]; [now exists [], []|]. destruct (P t) as (a & t' & H1 & H2 & H3 & H4); [now left|].
    destruct IH as (ls & l' & I1 & I2 & I3 & I4); [intros; apply P; now right|]. exists (a :: ls), (t' :: l'). cbn [map run_list forallb]. rewrite H1, I1, H2. cbn [rbind rmap].
    split; [easy|]. split; [easy|]. split; now constructor. }
  destruct Q as (ls & l' & Q1 & Q2 & Q3 & Q4). exists (join [c_nl] ls), l'. unfold timing_points_to_string. rewrite Q1. split; [easy|]. split; [|easy].
  rewrite timing_points_from_str_eq, good_lines_join by easy.
  replace (parse_lines (tp_from_str v) 0 ls) with (@ROk (list (option timing_point)) (line_err tp_err) (map Some l')); [now rewrite flatten_some|].
  symmetry. apply parse_lines_ok.
  assert (Ef : filter (fun s => negb (is_blank s)) ls = ls).
  { clear -Q2. induction ls as [|a ls IH]; [easy|]. cbn [forallb filter] in *. apply andb_true_iff in Q2 as [Ha Q2]. unfold good_line in Ha. apply andb_true_iff in Ha as [_ Ha]. rewrite Ha. now rewrite IH. }
  rewrite Ef. clear -Q3. induction Q3; cbn [map]; constructor; easy.
Qed.

(** ** the three events *)
Lemma plus_add {E} dbg z k : in_i32 z = true -> (Z.abs k < 1000)%Z ->
  @i32_arith E dbg (z + k) = match i32_plus dbg k z with Some y => ROk y | None => RPanic POverflow end.
Proof.
  intros Hz Hk. unfold i32_arith, i32_plus. destruct (in_i32 (z + k)) eqn:Ei; [easy|]. destruct dbg; [easy|]. f_equal.
  unfold wrap_i32, in_i32, i32_min, i32_max in *. apply andb_true_iff in Hz as [H1 H2]. apply Z.leb_le in H1, H2. apply andb_false_iff in Ei.
  destruct (Z.ltb_spec 0 z); destruct Ei as [Ei|Ei]; apply Z.leb_gt in Ei; try lia.
  - replace (z + k - -2147483648)%Z with ((z + k - 4294967296 - -2147483648) + 1 * 4294967296)%Z by lia. rewrite Z.mod_add by lia. rewrite Z.mod_small by lia. lia.
  - replace (z + k - -2147483648)%Z with ((z + k + 4294967296 - -2147483648) + (-1) * 4294967296)%Z by lia. rewrite Z.mod_add by lia. rewrite Z.mod_small by lia. lia.
Qed.
Lemma time_in_old dbg v z : old_version v = true -> in_i32 z = true ->
  time_in dbg v z = match i32_plus dbg 24 z with Some y => ROk y | None => RPanic POverflow end.
Proof. intros Ho Hz. unfold time_in. rewrite Ho. now apply plus_add. Qed.
Lemma time_out_old dbg v z : old_version v = true -> in_i32 z = true ->
  time_to_string dbg v z = match i32_plus dbg (-24) z with Some y => time_to_string dbg 5%Z y | None => RPanic POverflow end.
Proof.
  intros Ho Hz. unfold time_to_string. rewrite Ho. change (old_version 5%Z) with false. unfold i32_sub. change (z - 24)%Z with (z + -24)%Z. rewrite plus_add by easy.
  now destruct (i32_plus dbg (-24) z).
Qed.
Lemma plus_none dbg k z : i32_plus dbg k z = None -> dbg = true.
Proof. unfold i32_plus. destruct (in_i32 _); [easy|]. now destruct dbg. Qed.
(** a field holding a time *)
Definition time_field (dbg : bool) {C} (p5 p : pres C Z) : Prop :=
  match p5 with
  | POk r z => in_i32 z = true /\ p = match i32_plus dbg 24 z with Some y => POk r y | None => PPanic POverflow end
  | _ => p = p5
  end.
Lemma time_field_of dbg v {C} (e : C) (q : parser C Z) s : old_version v = true -> (forall s r z, q s = POk r z -> in_i32 z = true) ->
  time_field dbg (context e (map_run q (time_in dbg 5%Z)) s) (context e (map_run q (time_in dbg v)) s).
Proof.
  intros Ho Hq. unfold context, map_run. destruct (q s) as [r z|x|x|x] eqn:E; try (cbn; reflexivity).
  rewrite (time_in_old dbg v z Ho) by (now apply (Hq s r)). unfold time_in. change (old_version 5%Z) with false. cbv iota. cbn [time_field]. split; [now apply (Hq s r)|].
  now destruct (i32_plus dbg 24 z).
Qed.
Lemma field_i32' {C} s r z : @comma_field_type C _ _ parse_i32 s = POk r z -> in_i32 z = true.
Proof. intros H. apply map_res_inv in H as (a & _ & H). now apply parse_i32_range in H. Qed.
Lemma rest_i32 {C} s r z : @consume_rest_type C _ _ parse_i32 s = POk r z -> in_i32 z = true.
Proof. intros H. apply map_res_inv in H as (a & _ & H). now apply parse_i32_range in H. Qed.
Lemma start_field dbg v {C} (e : C) s : old_version v = true -> time_field dbg (start_time_offset dbg 5%Z e s) (start_time_offset dbg v e s).
Proof. intros Ho. apply time_field_of; [easy|]. intros. now apply (@field_i32' C) in H. Qed.
Lemma end_field dbg v {C} (e : C) s : old_version v = true -> time_field dbg (end_time_rest dbg 5%Z e s) (end_time_rest dbg v e s).
Proof. intros Ho. apply time_field_of; [easy|]. intros. now apply (@rest_i32 C) in H. Qed.
(** what the whole line gives *)
Definition psim (dbg : bool) {C A} (move : A -> option A) (p5 p : pres C A) : Prop :=
  match p5 with
  | POk r a => p = match move a with Some b => POk r b | None => PPanic POverflow end
  | PErr e => p = PErr e \/ dbg = true /\ p = PPanic POverflow
  | PFail e => p = PFail e \/ dbg = true /\ p = PPanic POverflow
  | PPanic _ => True
  end.
Lemma psim_res dbg {C A} (move : A -> option A) (p5 p : parser C A) s : safec p5 -> psim dbg move (p5 s) (p s) ->
  reads_moved dbg move (rmap Some (verbose_error_to_error (p5 s))) (rmap Some (verbose_error_to_error (p s))).
Proof.
  intros Hs. specialize (Hs s). unfold psim. destruct (p5 s) as [r a|e|e|x]; cbn [safec_at] in Hs; [| | |easy]; intros H.
  - rewrite H. cbn [verbose_error_to_error rmap reads_moved]. now destruct (move a).
  - cbn [verbose_error_to_error]. destruct (e_ctx e) eqn:Ee; [|easy]. cbn [rmap reads_moved]. destruct H as [-> | [Hd ->]]; [left|right]; cbn; now rewrite ?Ee.
  - cbn [verbose_error_to_error]. destruct (e_ctx e) eqn:Ee; [|easy]. cbn [rmap reads_moved]. destruct H as [-> | [Hd ->]]; [left|right]; cbn; now rewrite ?Ee.
Qed.
Lemma psim_refl dbg {C A} (p : pres C A) : psim dbg Some p p.
Proof. destruct p; cbn; auto. Qed.
Lemma brk_sim dbg v s : old_version v = true -> psim dbg (brk_plus dbg 24) (brk_parser dbg 5%Z s) (brk_parser dbg v s).
Proof.
  intros Ho. unfold brk_parser, pbind. destruct (alt _ _ s) as [r sh| | |]; cbn [psim]; auto.
  unfold preceded, pbind. destruct (context BrMissingStartTime comma r) as [r1 u| | |]; cbn [psim]; auto.
  pose proof (start_field dbg v BrInvalidStartTime r1 Ho) as H. unfold time_field in H. destruct (start_time_offset dbg 5%Z BrInvalidStartTime r1) as [r2 z|e|e|x]; try (rewrite H; cbn [psim]; auto; fail).
  destruct H as [Hz ->]. unfold pmap. destruct (context BrMissingEndTime comma r2) as [r3 u'| | |] eqn:Ec.
  2-4: cbn [psim]; destruct (i32_plus dbg 24 z) eqn:Ep; [rewrite ?Ec; auto|apply plus_none in Ep; auto].
  pose proof (end_field dbg v BrInvalidEndTime r3 Ho) as H. unfold time_field in H. destruct (end_time_rest dbg 5%Z BrInvalidEndTime r3) as [r4 z'|e|e|x].
  2-4: cbn [psim]; destruct (i32_plus dbg 24 z) eqn:Ep; [rewrite ?Ec, ?H; auto|apply plus_none in Ep; auto].
  destruct H as [Hz' Hv]. cbn [psim]. unfold brk_plus. cbn [br_start br_end br_short]. destruct (i32_plus dbg 24 z); [|easy]. rewrite ?Ec, Hv. now destruct (i32_plus dbg 24 z').
Qed.
Lemma vid_sim dbg v s : old_version v = true -> psim dbg (vid_plus dbg 24) (vid_parser dbg 5%Z s) (vid_parser dbg v s).
Proof.
  intros Ho. unfold vid_parser, pbind. destruct (alt _ _ s) as [r sh| | |]; cbn [psim]; auto.
  unfold preceded at 1 3. unfold pbind. destruct (context ViMissingStartTime comma r) as [r1 u| | |]; cbn [psim]; auto.
  pose proof (start_field dbg v ViInvalidStartTime r1 Ho) as H. unfold time_field in H. destruct (start_time_offset dbg 5%Z ViInvalidStartTime r1) as [r2 z|e|e|x]; try (rewrite H; cbn [psim]; auto; fail).
  destruct H as [Hz ->]. unfold pmap. set (q := preceded _ _). destruct (q r2) as [r3 [f p]| | |] eqn:Ec.
  2-4: cbn [psim]; destruct (i32_plus dbg 24 z) eqn:Ep; [rewrite ?Ec; auto|apply plus_none in Ep; auto].
  cbn [psim]. unfold vid_plus. cbn. destruct (i32_plus dbg 24 z); [|easy]. now rewrite ?Ec.
Qed.
Lemma ctr_sim dbg v s : old_version v = true -> psim dbg (ctr_plus dbg 24) (ctr_parser dbg 5%Z s) (ctr_parser dbg v s).
Proof.
  intros Ho. unfold ctr_parser. set (q := preceded (context CtMissingRed comma) _). set (q2 := preceded (context CtMissingGreen comma) _). set (q3 := preceded (context CtMissingBlue comma) _). unfold preceded, pbind. destruct (pair _ _ s) as [r1 u| | |]; cbn [psim]; auto.
  pose proof (start_field dbg v CtInvalidStartTime r1 Ho) as H. unfold time_field in H. destruct (start_time_offset dbg 5%Z CtInvalidStartTime r1) as [r2 z|e|e|x]; try (rewrite H; cbn [psim]; auto; fail).
  destruct H as [Hz ->]. unfold pmap. destruct (q r2) as [r3 cr| | |] eqn:E1.
  2-4: cbn [psim]; destruct (i32_plus dbg 24 z) eqn:Ep; [rewrite ?E1; auto|apply plus_none in Ep; auto].
  destruct (q2 r3) as [r4 cg| | |] eqn:E2.
  2-4: cbn [psim]; destruct (i32_plus dbg 24 z) eqn:Ep; [rewrite ?E1, ?E2; auto|apply plus_none in Ep; auto].
  destruct (q3 r4) as [r5 cb| | |] eqn:E3.
  2-4: cbn [psim]; destruct (i32_plus dbg 24 z) eqn:Ep; [rewrite ?E1, ?E2, ?E3; auto|apply plus_none in Ep; auto].
  cbn [psim]. unfold ctr_plus. cbn. destruct (i32_plus dbg 24 z); [|easy]. now rewrite ?E1, ?E2, ?E3.
Qed.
Lemma brk_out dbg v x : old_version v = true -> in_i32 (br_start x) = true -> in_i32 (br_end x) = true ->
  prints_moved (brk_plus dbg (-24)) (brk_to_string dbg 5%Z) (brk_to_string dbg v) x.
Proof.
  intros Ho H1 H2. unfold prints_moved, brk_to_string, brk_plus. rewrite (time_out_old dbg v (br_start x)), (time_out_old dbg v (br_end x)) by easy.
  destruct (i32_plus dbg (-24) (br_start x)) as [a|]; [|easy]. destruct (i32_plus dbg (-24) (br_end x)) as [b|]; [easy|].
  unfold time_to_string. change (old_version 5%Z) with false. reflexivity.
Qed.
Lemma vid_out dbg v x : old_version v = true -> in_i32 (vi_start x) = true ->
  prints_moved (vid_plus dbg (-24)) (vid_to_string_cmd dbg 5%Z) (vid_to_string_cmd dbg v) x.
Proof.
  intros Ho H1. unfold prints_moved, vid_to_string_cmd, vid_plus. rewrite (time_out_old dbg v (vi_start x)) by easy.
  now destruct (i32_plus dbg (-24) (vi_start x)) as [a|].
Qed.
Lemma ctr_out dbg v x : old_version v = true -> in_i32 (ctr_start x) = true ->
  prints_moved (ctr_plus dbg (-24)) (ctr_to_string dbg 5%Z) (ctr_to_string dbg v) x.
Proof.
  intros Ho H1. unfold prints_moved, ctr_to_string, ctr_plus. rewrite (time_out_old dbg v (ctr_start x)) by easy.
  replace (v <? 14)%Z with true by (destruct (old_cases v Ho); lia). change (5 <? 14)%Z with true. cbv iota.
  now destruct (i32_plus dbg (-24) (ctr_start x)) as [a|].
Qed.
Lemma plus_back dbg z y : in_i32 z = true -> i32_plus dbg 24 z = Some y -> in_i32 y = true /\ i32_plus dbg (-24) y = if dbg || in_i32 (z + 24) then Some z else i32_plus false (-24) y.
Proof.
  intros Hz. unfold i32_plus at 1. destruct (in_i32 (z + 24)) eqn:Ei.
  - intros [= <-]. split; [easy|]. rewrite orb_true_r. unfold i32_plus. replace (z + 24 + -24)%Z with z by lia. now rewrite Hz.
  - destruct dbg; [easy|]. intros [= <-]. split; [|easy]. unfold in_i32, i32_min, i32_max in *. destruct (Z.ltb_spec 0 z); lia.
Qed.
Lemma plus_back' dbg z y : in_i32 z = true -> i32_plus dbg 24 z = Some y -> i32_plus dbg (-24) y = Some z.
Proof.
  intros Hz. unfold i32_plus. unfold in_i32, i32_min, i32_max in *. destruct ((-2147483648 <=? z + 24)%Z && (z + 24 <=? 2147483647)%Z) eqn:Ei.
  - intros [= <-]. replace (z + 24 + -24)%Z with z by lia. now rewrite Hz.
  - destruct dbg; [easy|]. intros [= <-]. destruct (Z.ltb_spec 0 z); [|lia].
    replace ((-2147483648 <=? z + 24 - 4294967296 + -24)%Z) with false by lia. cbn [andb]. destruct (Z.ltb_spec 0 (z + 24 - 4294967296)); [lia|]. f_equal. lia.
Qed.

(** ** an object read and printed again *)
Lemma shift_round v d : old_version v = true -> wf_decimal d = true -> room d = true -> plain_for 24 d = true ->
  exists d', shift_in v d = ROk d' /\ shift_out v d' = ROk d.
Proof.
  intros Ho Hw Hr Hp. destruct (shift_in_room v d Ho Hr) as (d' & Hd & _). destruct (shift_cancel v d d' Ho Hw Hr Hd) as (d2 & H2 & _ & He).
  exists d'. split; [easy|]. rewrite H2. f_equal. exact (He Hp).
Qed.
Lemma obj_back v s o5 : old_version v = true -> no_nl s = true -> ho_from_str 5%Z s = ROk (Some o5) ->
  roomy o5 = true -> plain_object o5 = true -> (v = 3%Z -> starts_at_position o5) ->
  exists o t, ho_from_str v s = ROk (Some o) /\ ho_to_string 5%Z o5 = ROk t /\ ho_to_string v o = ROk (t ++ circle_comma v o).
Proof.
  intros Ho Hn H Hr Hp H3. assert (Hi := ho_from_str_image 5%Z s o5 ltac:(lia) Hn H). unfold ho_read in Hi. rewrite !andb_true_iff in Hi.
  destruct Hi as [[[[[[_ _] Hw] _] _] Hpk] _]. unfold wf_dec_field in Hw. apply andb_true_iff in Hw as [Hw _].
  unfold roomy in Hr. apply andb_true_iff in Hr as [Hr Hr2]. unfold plain_object in Hp. apply andb_true_iff in Hp as [Hp Hp2].
  destruct o5 as [p t5 q nc sk h hs]. cbn [ho_time ho_obj_params ho_hitsample] in *. destruct (shift_round v t5 Ho Hw Hr Hp) as (t & Ht & Ht').
  assert (G : forall q' tx, shifted_params v q q' -> ho_to_string 5%Z (mk_ho p t5 q nc sk h hs) = ROk tx ->
     ho_to_string v (mk_ho p t q' nc sk h hs) = ROk (tx ++ circle_comma v (mk_ho p t q' nc sk h hs)) ->
     exists o t0, ho_from_str v s = ROk (Some o) /\ ho_to_string 5%Z (mk_ho p t5 q nc sk h hs) = ROk t0 /\ ho_to_string v o = ROk (t0 ++ circle_comma v o)).
  { intros q' tx Hq Hx Hy. exists (mk_ho p t q' nc sk h hs), tx. split; [|easy]. apply obj_iff. eexists. split; [exact H|]. do 9 eexists. split; [reflexivity|]. split; [reflexivity|]. auto. }
  assert (V : (3 <= v < 10)%Z) by (destruct (old_cases v Ho); lia).
  assert (S5 : forall x, shift_out 5%Z x = ROk x) by (intros; now apply shift_new).
  assert (HS : forall v', (3 <= v' < 10)%Z -> match hs with Some h0 => match hit_sample_to_string h0 v' with Some t0 => [t0] | None => [] end | None => [] end = []).
  { intros v' Hv. destruct hs; [now rewrite sample_old|easy]. }
  destruct q as [|sl|u|u].
  - apply (G HitCircle (join (lit ",") [print_decimal (pos_x p); print_decimal (pos_y p); print_decimal t5; ho_type_to_string (mk_ho p t5 HitCircle nc sk h hs); hit_sound_to_string h])); [easy| |];
      unfold ho_to_string, circle_comma; cbn [ho_position ho_time ho_obj_params ho_new_combo ho_combo_skip_count ho_hitsound ho_hitsample].
    + rewrite S5. cbn [rbind]. now rewrite (HS 5%Z ltac:(lia)).
    + rewrite Ht'. cbn [rbind]. rewrite (HS v V). destruct (v =? 3)%Z; [easy|]. f_equal. symmetry. apply app_nil_r.
  - set (sl' := mk_slide (sl_curve_type sl) (if (v =? 3)%Z then tl (sl_curve_points sl) else sl_curve_points sl) (sl_slides sl) (sl_length sl) (sl_edge_sounds sl)
        (sl_edge_sounds_short_hand sl) (sl_edge_sets sl) (sl_edge_sets_shorthand sl)).
    assert (exists tx, ho_to_string 5%Z (mk_ho p t5 (Slider sl) nc sk h hs) = ROk tx) as (tx & Hx)
      by (unfold ho_to_string; cbn [ho_time ho_obj_params]; rewrite S5; cbn [rbind]; eauto).
    apply (G (Slider sl') tx); [reflexivity|exact Hx|]. etransitivity; [|apply (f_equal (@ROk str Empty_set)); symmetry; apply app_nil_r]. rewrite <- Hx.
    unfold ho_to_string. cbn [ho_position ho_time ho_obj_params ho_new_combo ho_combo_skip_count ho_hitsound ho_hitsample].
    rewrite S5, Ht'. cbn [rbind]. rewrite (HS v V), (HS 5%Z ltac:(lia)). f_equal.
    change (5 =? 3)%Z with false. subst sl'. cbn [sl_curve_type sl_curve_points sl_slides sl_length sl_edge_sounds sl_edge_sounds_short_hand sl_edge_sets sl_edge_sets_shorthand].
    unfold ho_type_to_string. cbn [ho_obj_params ho_new_combo ho_combo_skip_count]. destruct (Z.eqb_spec v 3) as [->|]; [|easy].
    destruct (H3 eq_refl) as (l & El). cbn [ho_obj_params ho_position] in El. now rewrite El.
  - cbn [params_ok] in Hpk. unfold wf_dec_field in Hpk. apply andb_true_iff in Hpk as [Hpk _]. destruct (shift_round v u Ho Hpk Hr2 Hp2) as (u' & Hu & Hu').
    assert (exists tx, ho_to_string 5%Z (mk_ho p t5 (Spinner u) nc sk h hs) = ROk tx) as (tx & Hx)
      by (unfold ho_to_string; cbn [ho_time ho_obj_params]; rewrite !S5; cbn [rbind rmap]; eauto).
    apply (G (Spinner u') tx); [exact Hu|exact Hx|]. etransitivity; [|apply (f_equal (@ROk str Empty_set)); symmetry; apply app_nil_r]. rewrite <- Hx.
    unfold ho_to_string. cbn [ho_position ho_time ho_obj_params ho_new_combo ho_combo_skip_count ho_hitsound ho_hitsample].
    rewrite !S5, Ht'. cbn [rbind]. rewrite Hu'. cbn [rmap]. now rewrite (HS v V), (HS 5%Z ltac:(lia)).
  - cbn [params_ok] in Hpk. rewrite !andb_true_iff in Hpk. destruct Hpk as [[[Hpk _] _] _]. destruct (shift_round v u Ho Hpk Hr2 Hp2) as (u' & Hu & Hu').
    assert (exists tx, ho_to_string 5%Z (mk_ho p t5 (OsuManiaHold u) nc sk h hs) = ROk tx) as (tx & Hx)
      by (unfold ho_to_string; cbn [ho_time ho_obj_params]; rewrite !S5; cbn [rbind rmap]; eauto).
    apply (G (OsuManiaHold u') tx); [exact Hu|exact Hx|]. etransitivity; [|apply (f_equal (@ROk str Empty_set)); symmetry; apply app_nil_r]. rewrite <- Hx.
    unfold ho_to_string. cbn [ho_position ho_time ho_obj_params ho_new_combo ho_combo_skip_count ho_hitsound ho_hitsample].
    rewrite !S5, Ht'. cbn [rbind]. rewrite Hu'. cbn [rmap]. now rewrite (HS v V), (HS 5%Z ltac:(lia)).
Qed.
(** ** the other versions *)
Lemma obj_new v s o : old_version v = false -> (ho_from_str v s = ROk (Some o) <-> ho_from_str 5%Z s = ROk (Some o)).
Proof.
  intros Ho. assert (V : (v =? 3)%Z = false) by (unfold old_version in Ho; lia). rewrite (obj_iff v). split.
  - intros (o5 & H & (p & t5 & t & p5 & q & nc & sk & h & hs & -> & -> & Ht & Hp)). rewrite (proj1 (shift_new v t5 Ho)) in Ht. injection Ht as <-.
    assert (q = p5) as ->; [|easy].
    destruct p5 as [|a|a|a], q as [|b|b|b]; cbn [shifted_params moved_params] in Hp; try easy.
    + subst b. rewrite V. now destruct a.
    + rewrite (proj1 (shift_new v a Ho)) in Hp. now injection Hp as <-.
    + rewrite (proj1 (shift_new v a Ho)) in Hp. now injection Hp as <-.
  - intros H. exists o. split; [easy|]. destruct o as [p t q nc sk h hs]. do 9 eexists. split; [reflexivity|]. split; [reflexivity|]. split; [now apply shift_new|].
    destruct q as [|a|a|a]; cbn [shifted_params moved_params]; try easy; try (now apply shift_new). rewrite V. now destruct a.
Qed.
Lemma events_new dbg v : old_version v = false -> (forall s, brk_from_str dbg v s = brk_from_str dbg 5%Z s)
  /\ (forall s, vid_from_str dbg v s = vid_from_str dbg 5%Z s) /\ (forall s, ctr_from_str dbg v s = ctr_from_str dbg 5%Z s).
Proof.
  intros Ho. unfold brk_from_str, vid_from_str, ctr_from_str, brk_parser, vid_parser, ctr_parser, start_time_offset, end_time_rest, time_in. rewrite Ho. auto.
Qed.
Lemma events_new_out dbg v : old_version v = false -> (forall x, brk_to_string dbg v x = brk_to_string dbg 5%Z x)
  /\ (forall x, vid_to_string_cmd dbg v x = vid_to_string_cmd dbg 5%Z x)
  /\ ((v < 14)%Z -> forall x, ctr_to_string dbg v x = ctr_to_string dbg 5%Z x).
Proof.
  intros Ho. unfold brk_to_string, vid_to_string_cmd, ctr_to_string, time_to_string. rewrite Ho. split; [easy|]. split; [easy|]. intros Hv x. now replace (v <? 14)%Z with true by lia.
Qed.
(** ** timing points: the time that is read *)
Lemma tp_time_read v s t : old_version v = true -> tp_from_str v s = ROk (Some t) ->
  exists x r, s = x ++ lit "," ++ r /\ no_comma x = true /\ late_if_room (decimal_of_str x) (tp_time t).
Proof.
  intros Ho H. unfold tp_from_str in H. apply rmap_ok in H as (t' & H & [= <-]). apply verbose_ok in H as (r & H). unfold tp_parser in H.
  apply pbind_iff in H as (r1 & d & H1 & H). apply map_run_v in H1 as (d5 & H1 & Hs). apply context_inv, dfield_inv in H1 as (x & -> & Hx & ->).
  apply preceded_iff in H as (r2 & u & H2 & H). apply context_inv, comma_inv in H2 as ->. exists x, r2. split; [easy|]. split; [easy|].
  assert (E : tp_time t = d); [|rewrite E; intros Hr; now apply shift_in_late with v].
  apply alt_inv in H as [H|H].
  - apply pmap_iff in H as (b & _ & ->). easy.
  - do 3 (apply pbind_iff in H as (? & ? & _ & H)). apply pmap_iff in H as ([i [[vol un] e]] & _ & ->). easy.
Qed.
Lemma time_cancels v d : old_version v = true -> wf_decimal d = true -> room d = true ->
  exists d' d'', shift_in v d = ROk d' /\ late d d' /\ shift_out v d' = ROk d'' /\ same_time d d'' /\ (plain_for 24 d = true -> d'' = d).
Proof.
  intros Ho Hw Hr. destruct (shift_in_room v d Ho Hr) as (d' & H1 & H2). destruct (shift_cancel v d d' Ho Hw Hr H1) as (d2 & H3 & H4 & H5).
  exists d', d2. auto.
Qed.
Lemma brk_moved dbg v s : old_version v = true -> reads_moved dbg (brk_plus dbg 24) (brk_from_str dbg 5%Z s) (brk_from_str dbg v s).
Proof. intros Ho. apply psim_res; [now apply brk_safec|now apply brk_sim]. Qed.
Lemma vid_moved dbg v s : old_version v = true -> reads_moved dbg (vid_plus dbg 24) (vid_from_str dbg 5%Z s) (vid_from_str dbg v s).
Proof. intros Ho. apply psim_res; [now apply vid_safec|now apply vid_sim]. Qed.
Lemma ctr_moved dbg v s : old_version v = true -> reads_moved dbg (ctr_plus dbg 24) (ctr_from_str dbg 5%Z s) (ctr_from_str dbg v s).
Proof. intros Ho. apply psim_res; [now apply ctr_safec|now apply ctr_sim]. Qed.
Lemma brk_five dbg a b : in_i32 a = true -> in_i32 b = true ->
  brk_to_string dbg 5%Z (mk_brk a b true) = ROk (lit "2," ++ print_Z a ++ lit "," ++ print_Z b)
  /\ brk_from_str dbg 5%Z (lit "2," ++ print_Z a ++ lit "," ++ print_Z b) = ROk (Some (mk_brk a b true)).
Proof.
  intros Ha Hb. split; [reflexivity|].
  assert (H : own_ok 5%Z (EBreak (mk_brk a b true)) = true) by (cbn; unfold SpecEvents.time_ok, SpecEvents.shown_time; cbn; now rewrite Ha, Hb).
  exact (brk_step dbg 5%Z _ H).
Qed.
