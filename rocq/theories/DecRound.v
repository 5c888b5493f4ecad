(** Reading decimal literals that do not fit: rounding and refusal. *)
From Coq Require Import String List NArith ZArith Bool Lia.
From Verif Require Import Str Num Dec Spec SpecWf StrFacts NumFacts DecFacts.
Import ListNotations.
Local Open Scope N_scope.

Lemma value_lt ds : all_digits ds = true -> value ds < 10 ^ N.of_nat (length ds).
Proof.
  induction ds as [|c ds IH]; intros H; [now cbn|].
  unfold all_digits in H. cbn [forallb] in H. apply andb_true_iff in H as [Hc H].
  apply is_digit_range in Hc. specialize (IH H). cbn [value length].
  rewrite Nat2N.inj_succ, N.pow_succ_r'. nia.
Qed.

(** The rounding step. *)
Definition rounded (M d : N) : N := if 5 <=? d then M + 1 else M.
Definition round_to (neg : bool) (m : N) (k : nat) : option rdec :=
  if m <? two96 then Some (from_parts neg m k)
  else match k with O => None | S k' => Some (from_parts neg ((m + 4) / 10) k') end.
Lemma maybe_round_digit neg M c k :
  is_digit c = true -> M < two96 ->
  maybe_round neg true M c k = round_to neg (rounded M (c - 48)) k.
Proof.
  intros Hc HM. unfold maybe_round, round_to, rounded, handle_data. rewrite Hc.
  destruct (5 <=? c - 48) eqn:E.
  - destruct (two96 <=? M + 1) eqn:E2.
    + apply N.leb_le in E2. now replace (M + 1 <? two96) with false
        by (symmetry; apply N.ltb_ge; lia).
    + apply N.leb_gt in E2. now replace (M + 1 <? two96) with true
        by (symmetry; apply N.ltb_lt; lia).
  - now replace (M <? two96) with true by (symmetry; apply N.ltb_lt; lia).
Qed.

Lemma dec_loop_round neg ip fa c fb :
  all_digits ip = true -> all_digits (fa ++ c :: fb) = true ->
  value (ip ++ fa) < two96 -> (length fa <= 28)%nat ->
  (length fa = 28%nat \/ two96 <= value (ip ++ fa ++ [c])) ->
  dec_loop false neg false 0 0 (ip ++ 46 :: fa ++ c :: fb) =
  round_to neg (rounded (value (ip ++ fa)) (c - 48)) (length fa).
Proof.
  intros Hi Hf Hv Hl Ho.
  assert (Hfa : all_digits fa = true /\ is_digit c = true).
  { unfold all_digits in *. rewrite forallb_app in Hf. cbn [forallb] in Hf.
    apply andb_true_iff in Hf as [? Hf]. now apply andb_true_iff in Hf. }
  destruct Hfa as [Hfa Hc].
  assert (Hvi : value ip < two96).
  { rewrite value_app in Hv.
    pose proof (N.pow_nonzero 10 (N.of_nat (length fa)) ltac:(easy)). nia. }
  rewrite dec_loop_digits; [|easy| |easy].
  2: now rewrite N.mul_0_l, N.add_0_l.
  rewrite N.mul_0_l, N.add_0_l. cbn [orb].
  cbn [dec_loop andb]. change (is_digit 46) with false. cbn [N.eqb Pos.eqb andb negb].
  rewrite dec_loop_digits; [|easy|now rewrite <- value_app|intros _; lia].
  rewrite <- value_app, Nat.add_0_l. cbn [dec_loop andb].
  destruct (Nat.leb 28 (length fa)) eqn:E; [now apply maybe_round_digit|].
  rewrite Hc. apply Nat.leb_gt in E. destruct Ho as [Ho|Ho]; [lia|].
  rewrite app_assoc, value_app in Ho. cbn [value length] in Ho.
  change (10 ^ N.of_nat 1) with 10 in Ho. change (10 ^ N.of_nat 0) with 1 in Ho.
  rewrite N.mul_1_r, N.add_0_r in Ho.
  replace (two96 <=? value (ip ++ fa) * 10 + (c - 48)) with true
    by (symmetry; now apply N.leb_le).
  now apply maybe_round_digit.
Qed.

(** An integer part that does not fit is refused whatever follows. *)
Lemma dec_loop_big neg has m ds rest :
  all_digits ds = true -> m < two96 ->
  two96 <= m * 10 ^ N.of_nat (length ds) + value ds ->
  dec_loop false neg has m 0 (ds ++ rest) = None.
Proof.
  revert has m. induction ds as [|c ds IH]; intros has m Hd Hm Hv.
  - cbn in Hv. change (10 ^ 0) with 1 in Hv. lia.
  - unfold all_digits in Hd. cbn [forallb] in Hd. apply andb_true_iff in Hd as [Hc Hd].
    cbn [app dec_loop andb]. rewrite Hc.
    destruct (two96 <=? m * 10 + (c - 48)) eqn:E; [easy|].
    apply N.leb_gt in E. apply IH; [easy|easy|].
    cbn [value length] in Hv. rewrite Nat2N.inj_succ, N.pow_succ_r' in Hv. nia.
Qed.

Lemma dec_loop_sign sg neg s :
  sign_text sg neg -> (exists c s', s = c :: s' /\ c <> 45 /\ c <> 43) ->
  parse_rdec (sg ++ s) = dec_loop false neg false 0 0 s.
Proof.
  intros Hs (c & s' & -> & H1 & H2). destruct Hs; cbn [app]; unfold parse_rdec; [|easy|easy].
  apply N.eqb_neq in H1, H2. now rewrite H1, H2.
Qed.
Lemma digits_head ip rest :
  all_digits ip = true -> exists c s', ip ++ 46 :: rest = c :: s' /\ c <> 45 /\ c <> 43.
Proof.
  intros H. destruct ip as [|c ip].
  - exists 46, rest. now repeat split.
  - exists c, (ip ++ 46 :: rest). unfold all_digits in H. cbn [forallb] in H.
    apply andb_true_iff in H as [H _]. apply is_digit_range in H.
    repeat split; lia.
Qed.
Lemma digits_head1 ds :
  ds <> [] -> all_digits ds = true -> exists c s', ds = c :: s' /\ c <> 45 /\ c <> 43.
Proof.
  intros Hne H. destruct ds as [|c ip]; [easy|].
  exists c, ip. unfold all_digits in H. cbn [forallb] in H.
  apply andb_true_iff in H as [H _]. apply is_digit_range in H.
  repeat split; lia.
Qed.

Lemma div_cut M r v : v < r -> (M * r + v) / r = M.
Proof.
  intros H. symmetry. apply (N.div_unique _ r M v); [easy|]. ring.
Qed.
Lemma rounded_div M d r v :
  d < 10 -> v < r -> (M * (10 * r) + (d * r + v) + 5 * r) / (10 * r) = rounded M d.
Proof.
  intros Hd Hv. unfold rounded. destruct (5 <=? d) eqn:E.
  - apply N.leb_le in E. symmetry.
    apply (N.div_unique _ (10 * r) (M + 1) ((d - 5) * r + v)); [nia|].
    replace d with (d - 5 + 5) at 1 by lia. ring.
  - apply N.leb_gt in E. symmetry.
    apply (N.div_unique _ (10 * r) M ((d + 5) * r + v)); [nia|]. ring.
Qed.

Lemma parse_rounded s neg m sc k :
  dec_text s neg m sc -> (k < sc)%nat -> (k <= 28)%nat ->
  m / 10 ^ N.of_nat (sc - k) < two96 ->
  (k = 28%nat \/ two96 <= m / 10 ^ N.of_nat (sc - k - 1)) ->
  parse_rdec s =
  round_to neg ((m + 5 * 10 ^ N.of_nat (sc - k - 1)) / 10 ^ N.of_nat (sc - k)) k.
Proof.
  intros H Hk H28 Hm Ho. destruct H as [sg neg ds Hs Hne Hd|sg neg ip fp Hs Hne Hi Hf].
  { lia. }
  apply all_digits_Forall in Hi. apply all_digits_Forall in Hf.
  rewrite (dec_loop_sign sg neg); [|easy|now apply digits_head].
  rewrite <- (firstn_skipn k fp) in *.
  assert (Hla : length (firstn k fp) = k).
  { rewrite firstn_length. rewrite firstn_skipn in Hk. lia. }
  destruct (skipn k fp) as [|c fb] eqn:Efb.
  { rewrite app_nil_r, Hla in Hk. lia. }
  set (fa := firstn k fp) in *. clearbody fa. clear Efb fp.
  assert (Hd : all_digits fa = true /\ is_digit c = true /\ all_digits fb = true).
  { unfold all_digits in *. rewrite forallb_app in Hf. cbn [forallb] in Hf.
    apply andb_true_iff in Hf as [? Hf]. now apply andb_true_iff in Hf. }
  destruct Hd as (Hfa & Hc & Hfb).
  replace (length (fa ++ c :: fb) - k - 1)%nat with (length fb) in *
    by (rewrite app_length; cbn [length]; lia).
  replace (length (fa ++ c :: fb) - k)%nat with (S (length fb)) in *
    by (rewrite app_length; cbn [length]; lia).
  pose proof (value_lt fb Hfb) as Hvb.
  assert (Hc9 : c - 48 < 10) by (apply is_digit_range in Hc; lia).
  rewrite Nat2N.inj_succ, N.pow_succ_r' in *.
  set (r := 10 ^ N.of_nat (length fb)) in *.
  assert (Hr : r <> 0) by (apply N.pow_nonzero; easy).
  assert (Ev : value (ip ++ fa ++ c :: fb)
               = value (ip ++ fa) * (10 * r) + ((c - 48) * r + value fb)).
  { rewrite app_assoc, value_app. cbn [value length].
    rewrite Nat2N.inj_succ, N.pow_succ_r'. fold r. ring. }
  rewrite Ev in *.
  rewrite div_cut in Hm by nia.
  rewrite rounded_div by easy.
  rewrite dec_loop_round; [now rewrite Hla|easy|easy|easy|lia|].
  rewrite Hla. destruct Ho as [Ho|Ho]; [now left|right].
  replace (value (ip ++ fa) * (10 * r) + ((c - 48) * r + value fb))
    with ((value (ip ++ fa) * 10 + (c - 48)) * r + value fb) in Ho by ring.
  rewrite div_cut in Ho by easy.
  rewrite app_assoc, value_app. cbn [value length].
  change (10 ^ N.of_nat 1) with 10. change (10 ^ N.of_nat 0) with 1. lia.
Qed.

Lemma from_parts_sign n k c : from_parts n k c = mkDec (n && negb (k =? 0)) k c.
Proof. unfold from_parts. destruct (k =? 0), n; easy. Qed.

Lemma decimal_read_rounded s neg m sc k m' :
  dec_text s neg m sc -> (k < sc)%nat -> (k <= 28)%nat ->
  m / 10 ^ N.of_nat (sc - k) < 2 ^ 96 ->
  (k = 28%nat \/ 2 ^ 96 <= m / 10 ^ N.of_nat (sc - k - 1)) ->
  m' = (m + 5 * 10 ^ N.of_nat (sc - k - 1)) / 10 ^ N.of_nat (sc - k) ->
  (m' < 2 ^ 96 -> decimal_of_str s = DNum (mkDec (neg && negb (m' =? 0)) m' k)) /\
  (2 ^ 96 <= m' -> k = O -> decimal_of_str s = DRaw s) /\
  (2 ^ 96 <= m' -> (0 < k)%nat ->
   decimal_of_str s = DNum (mkDec neg ((m' + 4) / 10) (k - 1))).
Proof.
  intros H Hk H28 Hm Ho E. change (2 ^ 96) with two96 in *.
  pose proof (parse_rounded s neg m sc k H Hk H28 Hm Ho) as P. rewrite <- E in P. clear E Hm Ho.
  unfold round_to in P. unfold decimal_of_str. rewrite P. clear P. repeat split.
  - intros L. apply N.ltb_lt in L. rewrite L. now rewrite from_parts_sign.
  - intros L ->. now replace (m' <? two96) with false by (symmetry; now apply N.ltb_ge).
  - intros L L2. replace (m' <? two96) with false by (symmetry; now apply N.ltb_ge).
    destruct k as [|k]; [lia|]. rewrite from_parts_sign.
    replace ((m' + 4) / 10 =? 0) with false.
    + now rewrite andb_true_r, Nat.sub_succ, Nat.sub_0_r.
    + symmetry. apply N.eqb_neq. intros Z. apply N.div_small_iff in Z; [|easy].
      unfold two96 in L. lia.
Qed.

Lemma decimal_read_big s neg m sc :
  dec_text s neg m sc -> 2 ^ 96 <= m / 10 ^ N.of_nat sc -> decimal_of_str s = DRaw s.
Proof.
  intros H Hm. change (2 ^ 96) with two96 in Hm.
  unfold decimal_of_str. replace (parse_rdec s) with (@None rdec); [easy|]. symmetry.
  destruct H as [sg neg ds Hs Hne Hd|sg neg ip fp Hs Hne Hi Hf].
  - apply all_digits_Forall in Hd. change (10 ^ N.of_nat 0) with 1 in Hm.
    rewrite N.div_1_r in Hm.
    rewrite (dec_loop_sign sg neg); [|easy|now apply digits_head1].
    rewrite <- (app_nil_r ds). apply dec_loop_big; [easy|now unfold two96|lia].
  - apply all_digits_Forall in Hi. apply all_digits_Forall in Hf.
    rewrite (dec_loop_sign sg neg); [|easy|now apply digits_head].
    rewrite value_app, div_cut in Hm by now apply value_lt.
    apply dec_loop_big; [easy|now unfold two96|lia].
Qed.
