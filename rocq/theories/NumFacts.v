(** Facts about integer printing and parsing. *)
From Coq Require Import String List NArith ZArith Bool Lia.
From Verif Require Import Str Num Spec StrFacts.
Import ListNotations.
Local Open Scope N_scope.

Definition all_digits (s : str) : bool := forallb is_digit s.

Lemma is_digit_range c : is_digit c = true <-> 48 <= c <= 57.
Proof. unfold is_digit. rewrite andb_true_iff, !N.leb_le. easy. Qed.

Lemma value_app a b : value (a ++ b) = value a * 10 ^ N.of_nat (length b) + value b.
Proof.
  induction a as [|c a IH]; simpl; [easy|].
  rewrite IH, app_length, Nat2N.inj_add, N.pow_add_r. lia.
Qed.

Lemma value_bound s : all_digits s = true -> value s < 10 ^ N.of_nat (length s).
Proof.
  induction s as [|c s IH]; intros H.
  - simpl. lia.
  - simpl in H. apply andb_true_iff in H as [Hc H]. apply is_digit_range in Hc.
    cbn [value length]. specialize (IH H). rewrite Nat2N.inj_succ, N.pow_succ_r'.
    assert (c - 48 <= 9) by lia. nia.
Qed.

(** ** printing *)
Lemma digits_aux_app f n acc : digits_aux f n acc = digits_aux f n [] ++ acc.
Proof.
  revert n acc. induction f as [|f IH]; intros n acc; [easy|]. cbn [digits_aux].
  destruct (N.div_eucl n 10) as [q r]. destruct (q =? 0); [easy|].
  rewrite IH, (IH q [48 + r]), <- app_assoc. easy.
Qed.
Lemma div_eucl_10 n : N.div_eucl n 10 = (n / 10, n mod 10).
Proof. unfold N.div, N.modulo. now destruct (N.div_eucl n 10). Qed.

Lemma size_div10 n : n <> 0 -> (N.size_nat (n / 10) < N.size_nat n)%nat.
Proof.
  intros Hn.
  assert (Hs : forall m, m <> 0 -> N.size_nat m = S (N.to_nat (N.log2 m))).
  { intros m Hm. rewrite <- N2Nat.inj_succ, <- N.size_log2 by easy.
    destruct m as [|p]; [easy|]. simpl. clear.
    induction p; simpl; rewrite ?IHp, ?Pos2Nat.inj_succ; easy. }
  destruct (N.eq_dec (n / 10) 0) as [->|Hq].
  - rewrite (Hs n) by easy. simpl. lia.
  - rewrite !Hs by easy.
    assert (N.log2 (n / 10) < N.log2 n); [|lia].
    assert (n / 10 <= n / 2).
    { apply N.div_le_compat_l. lia. }
    rewrite <- N.div2_div in H.
    apply N.log2_le_mono in H.
    destruct n as [|[p|p|]]; try easy; simpl N.div2 in H;
      (eapply N.le_lt_trans; [exact H|]).
    + change (N.pos p~1) with (2 * N.pos p + 1). rewrite N.log2_succ_double by easy. lia.
    + change (N.pos p~0) with (2 * N.pos p). rewrite N.log2_double by easy. lia.
Qed.

Lemma digits_aux_spec f n :
  (N.size_nat n < f)%nat ->
  all_digits (digits_aux f n []) = true /\ value (digits_aux f n []) = n
  /\ digits_aux f n [] <> [].
Proof.
  revert n. induction f as [|f IH]; intros n Hf; [lia|]. cbn [digits_aux].
  rewrite div_eucl_10.
  assert (Hm : n mod 10 < 10) by (apply N.mod_lt; lia).
  assert (Hn : n = 10 * (n / 10) + n mod 10) by (apply N.div_mod').
  assert (Hsz : n <> 0 -> (N.size_nat (n / 10) < N.size_nat n)%nat) by apply size_div10.
  remember (n mod 10) as r eqn:Er. remember (n / 10) as q eqn:Eq. clear Er.
  assert (Hd : is_digit (48 + r) = true) by (apply is_digit_range; lia).
  destruct (q =? 0) eqn:E.
  - apply N.eqb_eq in E. unfold all_digits. cbn [forallb value length].
    rewrite Hd. split; [easy|]. split; [|easy]. change (10 ^ N.of_nat 0) with 1. lia.
  - apply N.eqb_neq in E. rewrite digits_aux_app.
    assert (n <> 0) by lia. specialize (Hsz H).
    destruct (IH q) as (Ha & Hv & Hne); [lia|].
    unfold all_digits in *. rewrite forallb_app, Ha. cbn [forallb]. rewrite Hd.
    split; [easy|]. split.
    + rewrite value_app, Hv. cbn [value length].
      change (10 ^ N.of_nat 0) with 1. change (10 ^ N.of_nat 1) with 10. lia.
    + intros Hx. apply app_eq_nil in Hx as [_ Hx]. easy.
Qed.
Lemma print_N_digits n : all_digits (print_N n) = true.
Proof. apply digits_aux_spec. unfold print_N. lia. Qed.
Lemma print_N_value n : value (print_N n) = n.
Proof. apply digits_aux_spec. unfold print_N. lia. Qed.
Lemma print_N_nonempty n : print_N n <> [].
Proof. apply digits_aux_spec. unfold print_N. lia. Qed.
(** No leading zeros. *)
Lemma digits_aux_head f n :
  (N.size_nat n < f)%nat -> n <> 0 -> hd 0 (digits_aux f n []) <> 48.
Proof.
  revert n. induction f as [|f IH]; intros n Hf Hn; [lia|]. cbn [digits_aux].
  rewrite div_eucl_10.
  assert (Hnn : n = 10 * (n / 10) + n mod 10) by (apply N.div_mod').
  pose proof (size_div10 n Hn) as Hsz.
  remember (n mod 10) as r eqn:Er. remember (n / 10) as q eqn:Eq. clear Er.
  destruct (q =? 0) eqn:E.
  - apply N.eqb_eq in E. cbn [hd]. lia.
  - apply N.eqb_neq in E. rewrite digits_aux_app.
    assert (Hs : (N.size_nat q < f)%nat) by lia.
    destruct (digits_aux_spec f _ Hs) as (_ & _ & Hne).
    specialize (IH _ Hs E). destruct (digits_aux f q []); [easy|]. easy.
Qed.
Lemma print_N_head n : n <> 0 -> hd 0 (print_N n) <> 48.
Proof. intros H. apply digits_aux_head; [lia|easy]. Qed.

Lemma value_head_zero s : all_digits s = true -> s <> [] -> hd 0 s <> 48 -> 
  10 ^ N.of_nat (length s - 1) <= value s.
Proof.
  destruct s as [|c s]; [easy|]. intros H _ Hh. simpl in *.
  apply andb_true_iff in H as [Hc H]. apply is_digit_range in Hc.
  rewrite Nat.sub_0_r. assert (1 <= c - 48) by lia. nia.
Qed.

(** ** parsing *)
Lemma parse_pos_app hi acc s :
  (0 <= acc)%Z -> (acc <= hi)%Z -> all_digits s = true ->
  parse_pos hi acc s =
    (let z := (acc * 10 ^ Z.of_nat (length s) + Z.of_N (value s))%Z in
     if (z <=? hi)%Z then ROk z else RErr IPosOverflow).
Proof.
  revert acc. induction s as [|c s IH]; intros acc H0 Hacc Hd.
  - cbn. replace (acc * 1 + 0)%Z with acc by lia. now rewrite (proj2 (Z.leb_le _ _) Hacc).
  - cbn [all_digits forallb] in Hd. unfold all_digits in Hd. cbn [forallb] in Hd.
    apply andb_true_iff in Hd as [Hc Hd].
    cbn [parse_pos]. rewrite Hc. apply is_digit_range in Hc. unfold digit_val.
    cbn [value length]. rewrite Nat2Z.inj_succ, Z.pow_succ_r by lia.
    rewrite N2Z.inj_add, N2Z.inj_mul, N2Z.inj_pow, nat_N_Z. change (Z.of_N 10) with 10%Z.
    assert (Hp : (0 < 10 ^ Z.of_nat (length s))%Z) by (apply Z.pow_pos_nonneg; lia).
    set (P := (10 ^ Z.of_nat (length s))%Z) in *.
    set (d := Z.of_N (c - 48)) in *. assert (0 <= d)%Z by (unfold d; lia).
    destruct (acc * 10 + d <=? hi)%Z eqn:E.
    + apply Z.leb_le in E. rewrite (IH (acc * 10 + d)%Z ltac:(lia) E Hd). cbn zeta. fold P.
      replace ((acc * 10 + d) * P + Z.of_N (value s))%Z
        with (acc * (10 * P) + (d * P + Z.of_N (value s)))%Z by ring. easy.
    + apply Z.leb_gt in E. cbn zeta.
      replace (acc * (10 * P) + (d * P + Z.of_N (value s)) <=? hi)%Z with false; [easy|].
      symmetry. apply Z.leb_gt. nia.
Qed.
Lemma parse_neg_app lo acc s :
  (acc <= 0)%Z -> (lo <= acc)%Z -> all_digits s = true ->
  parse_neg lo acc s =
    (let z := (acc * 10 ^ Z.of_nat (length s) - Z.of_N (value s))%Z in
     if (lo <=? z)%Z then ROk z else RErr INegOverflow).
Proof.
  revert acc. induction s as [|c s IH]; intros acc H0 Hacc Hd.
  - cbn. replace (acc * 1 - 0)%Z with acc by lia. now rewrite (proj2 (Z.leb_le _ _) Hacc).
  - unfold all_digits in Hd. cbn [forallb] in Hd.
    apply andb_true_iff in Hd as [Hc Hd].
    cbn [parse_neg]. rewrite Hc. apply is_digit_range in Hc. unfold digit_val.
    cbn [value length]. rewrite Nat2Z.inj_succ, Z.pow_succ_r by lia.
    rewrite N2Z.inj_add, N2Z.inj_mul, N2Z.inj_pow, nat_N_Z. change (Z.of_N 10) with 10%Z.
    assert (Hp : (0 < 10 ^ Z.of_nat (length s))%Z) by (apply Z.pow_pos_nonneg; lia).
    set (P := (10 ^ Z.of_nat (length s))%Z) in *.
    set (d := Z.of_N (c - 48)) in *. assert (0 <= d)%Z by (unfold d; lia).
    destruct (lo <=? acc * 10 - d)%Z eqn:E.
    + apply Z.leb_le in E. rewrite (IH (acc * 10 - d)%Z ltac:(lia) E Hd). cbn zeta. fold P.
      replace ((acc * 10 - d) * P - Z.of_N (value s))%Z
        with (acc * (10 * P) - (d * P + Z.of_N (value s)))%Z by ring. easy.
    + apply Z.leb_gt in E. cbn zeta.
      replace (lo <=? acc * (10 * P) - (d * P + Z.of_N (value s)))%Z with false; [easy|].
      symmetry. apply Z.leb_gt. nia.
Qed.
Lemma parse_pos_ok_digits hi acc s z : parse_pos hi acc s = ROk z -> all_digits s = true.
Proof.
  revert acc. induction s as [|c s IH]; intros acc; [easy|]. cbn [parse_pos].
  destruct (is_digit c) eqn:E; [|easy]. destruct (_ <=? _)%Z; [|easy]. intros H.
  unfold all_digits. cbn [forallb]. rewrite E. now apply IH in H.
Qed.
Lemma parse_neg_ok_digits lo acc s z : parse_neg lo acc s = ROk z -> all_digits s = true.
Proof.
  revert acc. induction s as [|c s IH]; intros acc; [easy|]. cbn [parse_neg].
  destruct (is_digit c) eqn:E; [|easy]. destruct (_ <=? _)%Z; [|easy]. intros H.
  unfold all_digits. cbn [forallb]. rewrite E. now apply IH in H.
Qed.

Lemma parse_int_digits signed lo hi s :
  (0 <= hi)%Z -> s <> [] -> all_digits s = true ->
  parse_int signed lo hi s =
    if (Z.of_N (value s) <=? hi)%Z then ROk (Z.of_N (value s)) else RErr IPosOverflow.
Proof.
  intros Hhi Hne Hd. destruct s as [|c s]; [easy|].
  assert (Hc : is_digit c = true) by (unfold all_digits in Hd; cbn [forallb] in Hd;
    now apply andb_true_iff in Hd).
  apply is_digit_range in Hc. unfold parse_int.
  replace (c =? 43) with false by (symmetry; apply N.eqb_neq; lia).
  replace (c =? 45) with false by (symmetry; apply N.eqb_neq; lia). cbn [orb].
  rewrite parse_pos_app by (easy || lia). cbn zeta. now rewrite Z.mul_0_l, Z.add_0_l.
Qed.

Lemma print_Z_parse signed lo hi z :
  (lo <= 0 <= hi)%Z -> (lo <= z <= hi)%Z -> (signed = false -> 0 <= z)%Z ->
  parse_int signed lo hi (print_Z z) = ROk z.
Proof.
  intros H0 Hz Hs. destruct z as [|p|p].
  - cbn. destruct (0 <=? hi)%Z eqn:E; [easy|]. apply Z.leb_gt in E. lia.
  - unfold print_Z. rewrite parse_int_digits; [|lia|apply print_N_nonempty|apply print_N_digits].
    rewrite print_N_value. cbn [Z.of_N]. rewrite (proj2 (Z.leb_le _ _)) by lia. easy.
  - unfold print_Z, parse_int. change ((45 =? 43) || (45 =? 45)) with true. cbn iota.
    destruct (print_N (Npos p)) eqn:E; [now apply print_N_nonempty in E|]. rewrite <- E.
    change (45 =? 43) with false. cbn iota.
    destruct signed; [|specialize (Hs eq_refl); lia].
    rewrite parse_neg_app; [|lia|lia|apply print_N_digits]. cbn zeta.
    rewrite print_N_value, Z.mul_0_l. cbn [Z.of_N]. 
    replace (0 - Z.pos p)%Z with (Z.neg p) by easy.
    now rewrite (proj2 (Z.leb_le _ _)) by lia.
Qed.

Lemma parse_int_range signed lo hi s z :
  (lo <= 0 <= hi)%Z -> parse_int signed lo hi s = ROk z -> (lo <= z <= hi)%Z.
Proof.
  intros H0. destruct s as [|c s]; [easy|]. unfold parse_int.
  assert (Hpos : forall t, parse_pos hi 0 t = ROk z -> (lo <= z <= hi)%Z).
  { intros t H. pose proof (parse_pos_ok_digits _ _ _ _ H) as Hd.
    rewrite parse_pos_app in H by (easy || lia). cbn zeta in H.
    destruct (_ <=? _)%Z eqn:E; [|easy]. injection H as <-. apply Z.leb_le in E. lia. }
  destruct ((c =? 43) || (c =? 45)); [|apply Hpos].
  destruct s as [|d s]; [easy|]. destruct (c =? 43); [apply Hpos|].
  destruct signed; [|apply Hpos]. intros H. pose proof (parse_neg_ok_digits _ _ _ _ H) as Hd.
  rewrite parse_neg_app in H by (easy || lia). cbn zeta in H. rewrite Z.mul_0_l in H.
  pose proof (N2Z.is_nonneg (value (d :: s))) as Hw.
  remember (Z.of_N (value (d :: s))) as w eqn:Ew. clear Ew.
  destruct (lo <=? 0 - w)%Z eqn:E; [|easy]. assert (z = 0 - w)%Z by congruence.
  apply Z.leb_le in E. lia.
Qed.

Lemma parse_int_no_panic signed lo hi s p : parse_int signed lo hi s <> RPanic p.
Proof.
  destruct s as [|c s]; [easy|]. unfold parse_int.
  assert (Hpos : forall t a, parse_pos hi a t <> RPanic p).
  { intros t. induction t as [|x t IH]; intros a; [easy|]. cbn [parse_pos].
    destruct (is_digit x); [|easy]. destruct (_ <=? _)%Z; [apply IH|easy]. }
  assert (Hneg : forall t a, parse_neg lo a t <> RPanic p).
  { intros t. induction t as [|x t IH]; intros a; [easy|]. cbn [parse_neg].
    destruct (is_digit x); [|easy]. destruct (_ <=? _)%Z; [apply IH|easy]. }
  destruct ((c =? 43) || (c =? 45)); [|apply Hpos].
  destruct s; [easy|]. destruct (c =? 43); [apply Hpos|]. destruct signed; auto.
Qed.

Lemma parse_u8_no_panic s p : parse_u8 s <> RPanic p.
Proof. apply parse_int_no_panic. Qed.
Lemma parse_i32_no_panic s p : parse_i32 s <> RPanic p.
Proof. apply parse_int_no_panic. Qed.
Lemma parse_u32_no_panic s p : parse_u32 s <> RPanic p.
Proof. apply parse_int_no_panic. Qed.
Lemma parse_usize_no_panic s p : parse_usize s <> RPanic p.
Proof. apply parse_int_no_panic. Qed.

Lemma parse_print_u8 z : in_u8 z = true -> parse_u8 (print_Z z) = ROk z.
Proof. intros H. unfold in_u8 in H. apply andb_true_iff in H as [H1 H2].
  apply Z.leb_le in H1, H2. apply print_Z_parse; unfold u8_max in *; try intros _; lia. Qed.
Lemma parse_print_i32 z : in_i32 z = true -> parse_i32 (print_Z z) = ROk z.
Proof. intros H. unfold in_i32 in H. apply andb_true_iff in H as [H1 H2].
  apply Z.leb_le in H1, H2. apply print_Z_parse; unfold i32_min, i32_max in *; (lia || easy). Qed.
Lemma parse_print_u32 z : in_u32 z = true -> parse_u32 (print_Z z) = ROk z.
Proof. intros H. unfold in_u32 in H. apply andb_true_iff in H as [H1 H2].
  apply Z.leb_le in H1, H2. apply print_Z_parse; unfold u32_max in *; try intros _; lia. Qed.
Lemma parse_print_usize z : in_usize z = true -> parse_usize (print_Z z) = ROk z.
Proof. intros H. unfold in_usize in H. apply andb_true_iff in H as [H1 H2].
  apply Z.leb_le in H1, H2. apply print_Z_parse; unfold usize_max in *; try intros _; lia. Qed.

Lemma parse_u8_range s z : parse_u8 s = ROk z -> in_u8 z = true.
Proof. intros H. apply parse_int_range in H; [|unfold u8_max; lia].
  unfold in_u8. rewrite andb_true_iff, !Z.leb_le. easy. Qed.
Lemma parse_i32_range s z : parse_i32 s = ROk z -> in_i32 z = true.
Proof. intros H. apply parse_int_range in H; [|unfold i32_min, i32_max; lia].
  unfold in_i32. rewrite andb_true_iff, !Z.leb_le. easy. Qed.
Lemma parse_u32_range s z : parse_u32 s = ROk z -> in_u32 z = true.
Proof. intros H. apply parse_int_range in H; [|unfold u32_max; lia].
  unfold in_u32. rewrite andb_true_iff, !Z.leb_le. easy. Qed.
Lemma parse_usize_range s z : parse_usize s = ROk z -> in_usize z = true.
Proof. intros H. apply parse_int_range in H; [|unfold usize_max; lia].
  unfold in_usize. rewrite andb_true_iff, !Z.leb_le. easy. Qed.

(** The characters of a printed integer. *)
Definition num_char (c : char) : bool := is_digit c || (c =? 45).
Lemma print_Z_chars z : forallb num_char (print_Z z) = true.
Proof.
  assert (H : forall n, forallb num_char (print_N n) = true).
  { intros n. eapply forallb_impl; [|apply print_N_digits]. intros c Hc. unfold num_char.
    now rewrite Hc. }
  destruct z; cbn [print_Z]; [easy|apply H|]. cbn [forallb]. now rewrite H.
Qed.
Lemma print_Z_nonempty z : print_Z z <> [].
Proof. destruct z; cbn [print_Z]; try easy. apply print_N_nonempty. Qed.

(** ** the accepted integers *)
Lemma all_digits_Forall s : all_digits s = true <-> Forall digit s.
Proof.
  unfold all_digits. rewrite forallb_forall, Forall_forall. unfold digit.
  split; intros H c Hc; apply is_digit_range; auto.
Qed.
Lemma parse_int_spec signed lo hi s z :
  (lo <= 0 <= hi)%Z ->
  parse_int signed lo hi s = ROk z <-> int_text signed s z /\ (lo <= z <= hi)%Z.
Proof.
  intros H0. split.
  - intros H. split; [|now apply parse_int_range in H].
    destruct s as [|c s]; [easy|]. unfold parse_int in H.
    assert (Hpos : forall t, parse_pos hi 0 t = ROk z ->
              Forall digit t /\ z = Z.of_N (value t)).
    { intros t Ht. pose proof (parse_pos_ok_digits _ _ _ _ Ht) as Hd.
      rewrite parse_pos_app in Ht by (easy || lia). cbn zeta in Ht.
      rewrite Z.mul_0_l, Z.add_0_l in Ht. destruct (_ <=? _)%Z; [|easy].
      split; [now apply all_digits_Forall|congruence]. }
    destruct ((c =? 43) || (c =? 45)) eqn:E.
    + destruct s as [|d s]; [easy|]. destruct (c =? 43) eqn:E1.
      * apply N.eqb_eq in E1. subst c. destruct (Hpos _ H) as [Hd ->]. now apply int_plus.
      * apply N.eqb_eq in E. subst c. destruct signed.
        -- pose proof (parse_neg_ok_digits _ _ _ _ H) as Hd.
           rewrite parse_neg_app in H by (easy || lia). cbn zeta in H. rewrite Z.mul_0_l in H.
           remember (Z.of_N (value (d :: s))) as w eqn:Ew.
           destruct (lo <=? 0 - w)%Z; [|easy].
           assert (z = - w)%Z as -> by (assert (z = 0 - w)%Z by congruence; lia).
           subst w. apply int_minus; try easy. now apply all_digits_Forall.
        -- destruct (Hpos _ H) as [Hd _]. inversion Hd as [|? ? Hx]. unfold digit in Hx. lia.
    + destruct (Hpos _ H) as [Hd ->]. now apply int_plain.
  - intros [Ht Hr]. destruct Ht as [ds Hne Hd|ds Hne Hd|ds -> Hne Hd];
      apply all_digits_Forall in Hd as Hd'.
    + rewrite parse_int_digits by (easy || lia).
      now rewrite (proj2 (Z.leb_le _ _)) by lia.
    + unfold parse_int. cbn [N.eqb Pos.eqb orb]. destruct ds as [|d ds]; [easy|].
      rewrite parse_pos_app by (easy || lia). cbn zeta. rewrite Z.mul_0_l, Z.add_0_l.
      now rewrite (proj2 (Z.leb_le _ _)) by lia.
    + unfold parse_int. cbn [N.eqb Pos.eqb orb]. destruct ds as [|d ds]; [easy|].
      rewrite parse_neg_app by (easy || lia). cbn zeta. rewrite Z.mul_0_l, Z.sub_0_l.
      now rewrite (proj2 (Z.leb_le _ _)) by lia.
Qed.
Lemma i32_accepts s z :
  parse_i32 s = ROk z <-> int_text true s z /\ (- 2 ^ 31 <= z <= 2 ^ 31 - 1)%Z.
Proof. apply (parse_int_spec true). easy. Qed.
Lemma u8_accepts s z : parse_u8 s = ROk z <-> int_text false s z /\ (0 <= z <= 2 ^ 8 - 1)%Z.
Proof. apply (parse_int_spec false). easy. Qed.
Lemma u32_accepts s z : parse_u32 s = ROk z <-> int_text false s z /\ (0 <= z <= 2 ^ 32 - 1)%Z.
Proof. apply (parse_int_spec false). easy. Qed.
Lemma usize_accepts s z : parse_usize s = ROk z <-> int_text false s z /\ (0 <= z <= 2 ^ 64 - 1)%Z.
Proof. apply (parse_int_spec false). easy. Qed.
Lemma int_parsers_total s :
  (forall p, parse_i32 s <> RPanic p) /\ (forall p, parse_u8 s <> RPanic p) /\
  (forall p, parse_u32 s <> RPanic p) /\ (forall p, parse_usize s <> RPanic p).
Proof. repeat split; intros p; apply parse_int_no_panic. Qed.
Lemma print_Z_text z : int_text true (print_Z z) z /\ ((0 <= z)%Z -> int_text false (print_Z z) z).
Proof.
  assert (H : forall n sg, int_text sg (print_N n) (Z.of_N n)).
  { intros n sg. rewrite <- (print_N_value n) at 2. apply int_plain.
    - apply print_N_nonempty.
    - apply all_digits_Forall, print_N_digits. }
  destruct z as [|p|p]; cbn [print_Z].
  - split; [|intros _]; apply (H 0).
  - split; [|intros _]; apply (H (Npos p)).
  - split; [|intros Hz; lia].
    replace (Z.neg p) with (- Z.of_N (value (print_N (Npos p))))%Z by now rewrite print_N_value.
    apply int_minus; [easy|apply print_N_nonempty|apply all_digits_Forall, print_N_digits].
Qed.
Lemma int_print_parse z :
  ((- 2 ^ 31 <= z <= 2 ^ 31 - 1)%Z -> parse_i32 (print_Z z) = ROk z) /\
  ((0 <= z <= 2 ^ 8 - 1)%Z -> parse_u8 (print_Z z) = ROk z) /\
  ((0 <= z <= 2 ^ 32 - 1)%Z -> parse_u32 (print_Z z) = ROk z) /\
  ((0 <= z <= 2 ^ 64 - 1)%Z -> parse_usize (print_Z z) = ROk z).
Proof.
  destruct (print_Z_text z) as [H1 H2].
  split; [|split; [|split]]; intros H;
    [apply i32_accepts|apply u8_accepts|apply u32_accepts|apply usize_accepts]; split; auto;
    apply H2; lia.
Qed.
