(** Facts about decimals. *)
From Coq Require Import String List NArith ZArith Bool Lia.
From Verif Require Import Str Num Dec Spec StrFacts NumFacts.
Import ListNotations.
Local Open Scope N_scope.


Lemma wf_from_parts neg m sc :
  m < two96 -> (sc <= 28)%nat -> wf_rdec (from_parts neg m sc) = true.
Proof.
  intros Hm Hsc. unfold wf_rdec, from_parts. cbn [d_mant d_scale d_neg].
  apply N.ltb_lt in Hm. apply Nat.leb_le in Hsc. rewrite Hm, Hsc.
  destruct (m =? 0); [easy|]. now rewrite orb_true_r.
Qed.

Lemma handle_data_wf neg has m sc d :
  m < two96 -> (sc <= 28)%nat -> handle_data neg has m sc = Some d -> wf_rdec d = true.
Proof.
  unfold handle_data. destruct has; [|easy]. intros Hm Hs [= <-]. now apply wf_from_parts.
Qed.
Lemma maybe_round_wf neg point m b sc d :
  m < two96 -> (sc <= 28)%nat -> maybe_round neg point m b sc = Some d -> wf_rdec d = true.
Proof.
  intros Hm Hs. unfold maybe_round.
  destruct (if is_digit b then _ else _) as [k|]; [|easy].
  destruct (5 <=? k); [|now apply handle_data_wf].
  destruct (two96 <=? m + 1) eqn:E.
  - destruct sc as [|sc]; [easy|]. apply handle_data_wf; [|lia].
    apply N.div_lt_upper_bound; [lia|]. unfold two96 in *. lia.
  - apply N.leb_gt in E. now apply handle_data_wf.
Qed.
Lemma dec_loop_wf point neg has m sc s d :
  m < two96 -> (sc <= 28)%nat -> dec_loop point neg has m sc s = Some d -> wf_rdec d = true.
Proof.
  revert point has m sc. induction s as [|b s IH]; intros point has m sc Hm Hs; cbn [dec_loop].
  - now apply handle_data_wf.
  - destruct (point && Nat.leb 28 sc) eqn:E1; [now apply maybe_round_wf|].
    destruct (is_digit b).
    + destruct (two96 <=? m * 10 + (b - 48)) eqn:E2.
      * destruct point; [|easy]. now apply maybe_round_wf.
      * apply N.leb_gt in E2. apply IH; [easy|].
        destruct point; [|easy]. cbn [andb] in E1. apply Nat.leb_gt in E1. lia.
    + destruct ((b =? 46) && negb point); [now apply IH|].
      destruct ((b =? 95) && has); [now apply IH|easy].
Qed.
Lemma parse_rdec_wf s d : parse_rdec s = Some d -> wf_rdec d = true.
Proof.
  destruct s as [|b s]; [easy|]. unfold parse_rdec.
  destruct (b =? 45); [|destruct (b =? 43)]; apply dec_loop_wf; unfold two96; lia.
Qed.
Lemma decimal_of_str_wf s : wf_decimal (decimal_of_str s) = true.
Proof.
  unfold decimal_of_str. destruct (parse_rdec s) eqn:E; cbn.
  - now apply parse_rdec_wf in E.
  - now rewrite E.
Qed.

(** ** reading a run of digits *)
Lemma dec_loop_digits point neg has m sc ds rest :
  all_digits ds = true ->
  m * 10 ^ N.of_nat (length ds) + value ds < two96 ->
  (point = true -> (sc + length ds <= 28)%nat) ->
  dec_loop point neg has m sc (ds ++ rest) =
  dec_loop point neg (has || negb (is_empty ds)) (m * 10 ^ N.of_nat (length ds) + value ds)
           (if point then sc + length ds else sc)%nat rest.
Proof.
  revert has m sc. induction ds as [|c ds IH]; intros has m sc Hd Hv Hp.
  - cbn [app length value is_empty negb]. rewrite orb_false_r.
    change (10 ^ N.of_nat 0) with 1. rewrite N.mul_1_r, N.add_0_r, Nat.add_0_r.
    now destruct point.
  - unfold all_digits in Hd. cbn [forallb] in Hd. apply andb_true_iff in Hd as [Hc Hd].
    cbn [app dec_loop].
    assert (E1 : point && Nat.leb 28 sc = false).
    { destruct point; [|easy]. specialize (Hp eq_refl). cbn [length] in Hp.
      apply Nat.leb_gt. lia. }
    rewrite E1, Hc.
    cbn [value length] in *. rewrite Nat2N.inj_succ, N.pow_succ_r' in *.
    set (P := 10 ^ N.of_nat (length ds)) in *.
    assert (HP : 1 <= P). { pose proof (N.pow_nonzero 10 (N.of_nat (length ds))). unfold P. lia. }
    assert (Ev : m * (10 * P) + ((c - 48) * P + value ds)
                 = (m * 10 + (c - 48)) * P + value ds) by ring.
    rewrite Ev in *.
    replace (two96 <=? m * 10 + (c - 48)) with false by (symmetry; apply N.leb_gt; nia).
    rewrite IH; [|easy|easy|].
    + cbn [orb]. rewrite orb_true_r. fold P. destruct point; [|easy]. f_equal. lia.
    + intros ->. specialize (Hp eq_refl). lia.
Qed.

(** What a plain decimal literal reads as: the digits before and after the point as
    one number, scaled by the number of digits after the point. *)
Lemma dec_loop_literal neg ip fp (pt : bool) :
  all_digits ip = true -> all_digits fp = true -> ip ++ fp <> [] ->
  value (ip ++ fp) < two96 -> (length fp <= 28)%nat -> (pt = false -> fp = []) ->
  dec_loop false neg false 0 0 (ip ++ (if pt then 46 :: fp else [])) =
  Some (from_parts neg (value (ip ++ fp)) (length fp)).
Proof.
  intros Hi Hf Hne Hv Hl Hpt.
  assert (Hvi : value ip < two96).
  { rewrite value_app in Hv.
    pose proof (N.pow_nonzero 10 (N.of_nat (length fp)) ltac:(easy)). nia. }
  rewrite dec_loop_digits; [|easy| |easy].
  2: now rewrite N.mul_0_l, N.add_0_l.
  rewrite N.mul_0_l, N.add_0_l. cbn [orb].
  destruct pt.
  - cbn [dec_loop andb]. change (is_digit 46) with false. cbn [N.eqb Pos.eqb andb negb].
    rewrite <- (app_nil_r fp) at 1. rewrite dec_loop_digits; [|easy| |].
    + rewrite <- value_app. cbn [dec_loop]. unfold handle_data.
      replace (negb (is_empty ip) || negb (is_empty fp)) with true; [easy|].
      destruct ip; [|easy]. destruct fp; easy.
    + now rewrite <- value_app.
    + intros _. lia.
  - rewrite (Hpt eq_refl) in *. rewrite app_nil_r in *. cbn [dec_loop length]. unfold handle_data.
    now destruct ip.
Qed.

Lemma parse_rdec_literal (sg : str) ip fp (pt : bool) :
  sg = [] \/ sg = [43] \/ sg = [45] ->
  all_digits ip = true -> all_digits fp = true -> ip ++ fp <> [] ->
  value (ip ++ fp) < two96 -> (length fp <= 28)%nat -> (pt = false -> fp = []) ->
  parse_rdec (sg ++ ip ++ (if pt then 46 :: fp else [])) =
  Some (from_parts (str_eqb sg [45]) (value (ip ++ fp)) (length fp)).
Proof.
  intros Hs Hi Hf Hne Hv Hl Hpt.
  destruct Hs as [-> | [-> | ->]]; [|now apply dec_loop_literal|now apply dec_loop_literal].
  cbn [app str_eqb]. pose proof (dec_loop_literal false ip fp pt Hi Hf Hne Hv Hl Hpt) as H.
  unfold parse_rdec. destruct ip as [|c ip].
  - destruct pt; [exact H|]. now rewrite (Hpt eq_refl) in Hne.
  - cbn [app] in *. assert (Hc : is_digit c = true)
      by (unfold all_digits in Hi; cbn [forallb] in Hi; now apply andb_true_iff in Hi).
    apply is_digit_range in Hc.
    replace (c =? 45) with false by (symmetry; apply N.eqb_neq; lia).
    now replace (c =? 43) with false by (symmetry; apply N.eqb_neq; lia).
Qed.

(** ** the printed form *)
Lemma value_zeros n s : value (repeat 48 n ++ s) = value s.
Proof.
  induction n as [|n IH]; [easy|]. cbn [repeat app value]. rewrite IH. lia.
Qed.
Lemma all_digits_zeros n : all_digits (repeat 48 n) = true.
Proof. induction n; easy. Qed.
Lemma mant_digits_ok m : all_digits (mant_digits m) = true /\ value (mant_digits m) = m.
Proof.
  unfold mant_digits. destruct (m =? 0) eqn:E.
  - apply N.eqb_eq in E. now subst.
  - split; [apply print_N_digits|apply print_N_value].
Qed.
Lemma padded_ok d :
  all_digits (padded d) = true /\ value (padded d) = d_mant d
  /\ (d_scale d <= length (padded d))%nat.
Proof.
  destruct (mant_digits_ok (d_mant d)) as [H1 H2]. unfold padded. repeat split.
  - unfold all_digits in *. rewrite forallb_app, H1. now rewrite (all_digits_zeros _).
  - now rewrite value_zeros.
  - rewrite app_length, repeat_length. lia.
Qed.

(** [print_rdec] writes a plain literal. *)
Lemma print_rdec_shape d :
  exists ip fp,
    print_rdec d = (if d_neg d then [45] else []) ++ ip ++
                   (if Nat.eqb (d_scale d) 0 then [] else 46 :: fp)
    /\ all_digits ip = true /\ all_digits fp = true /\ ip <> []
    /\ value (ip ++ fp) = d_mant d /\ length fp = d_scale d.
Proof.
  destruct (padded_ok d) as (Hd & Hv & Hl).
  unfold print_rdec, print_rdec_abs.
  set (ds := padded d) in *. set (w := (length ds - d_scale d)%nat).
  assert (Hsplit : firstn w ds ++ skipn w ds = ds) by apply firstn_skipn.
  assert (Hdi : all_digits (firstn w ds) = true /\ all_digits (skipn w ds) = true).
  { unfold all_digits in *. rewrite <- Hsplit, forallb_app, andb_true_iff in Hd. easy. }
  assert (Hlf : length (skipn w ds) = d_scale d) by (rewrite skipn_length; lia).
  exists (match firstn w ds with [] => [48] | _ => firstn w ds end), (skipn w ds).
  repeat split; try easy.
  - do 2 f_equal. destruct (skipn w ds) eqn:E; cbn [length] in Hlf; rewrite <- Hlf; easy.
  - destruct (firstn w ds); [easy|]. now destruct Hdi.
  - destruct (firstn w ds); easy.
  - rewrite <- Hv. transitivity (value (firstn w ds ++ skipn w ds)); [|now rewrite Hsplit].
    destruct (firstn w ds); [|easy]. cbn [app value]. now rewrite N.sub_diag, N.mul_0_l, N.add_0_l.
Qed.

Lemma parse_print_rdec d : wf_rdec d = true -> parse_rdec (print_rdec d) = Some d.
Proof.
  unfold wf_rdec. rewrite !andb_true_iff. intros [[Hm Hs] Hz].
  apply N.ltb_lt in Hm. apply Nat.leb_le in Hs.
  destruct (print_rdec_shape d) as (ip & fp & -> & Hi & Hf & Hne & Hv & Hl).
  replace (if Nat.eqb (d_scale d) 0 then [] else 46 :: fp)
    with (if negb (Nat.eqb (d_scale d) 0) then 46 :: fp else [])
    by (now destruct (Nat.eqb (d_scale d) 0)).
  rewrite parse_rdec_literal; try easy.
  - rewrite Hv, Hl. unfold from_parts. destruct d as [neg m sc]. cbn in *.
    destruct (m =? 0) eqn:E.
    + rewrite orb_false_r in Hz. apply negb_true_iff in Hz. now rewrite Hz.
    + now destruct neg.
  - destruct (d_neg d); auto.
  - now destruct ip.
  - now rewrite Hv.
  - now rewrite Hl.
  - intros H. apply negb_false_iff, Nat.eqb_eq in H. rewrite H in Hl. now destruct fp.
Qed.

Lemma decimal_print_parse d : wf_decimal d = true -> decimal_of_str (print_decimal d) = d.
Proof.
  destruct d as [r|s]; cbn; intros H; unfold decimal_of_str.
  - now rewrite parse_print_rdec.
  - now destruct (parse_rdec s).
Qed.

(** Characters of a printed number. *)
Definition dec_char (c : char) : bool := is_digit c || (c =? 45) || (c =? 46).
Lemma print_rdec_chars d : forallb dec_char (print_rdec d) = true.
Proof.
  destruct (print_rdec_shape d) as (ip & fp & -> & Hi & Hf & _).
  assert (H : forall s, all_digits s = true -> forallb dec_char s = true).
  { intros s. apply forallb_impl. intros c Hc. unfold dec_char. now rewrite Hc. }
  rewrite !forallb_app, (H ip Hi).
  destruct (d_neg d); destruct (Nat.eqb (d_scale d) 0); cbn [forallb andb]; try easy;
    now rewrite (H fp Hf).
Qed.
Lemma print_rdec_nonempty d : print_rdec d <> [].
Proof.
  destruct (print_rdec_shape d) as (ip & fp & -> & _ & _ & Hne & _).
  destruct (d_neg d); [easy|]. now destruct ip.
Qed.
Lemma parse_rdec_empty : parse_rdec [] = None.
Proof. easy. Qed.

(** ** against the specification *)
Lemma dec_text_parse s neg m sc :
  dec_text s neg m sc -> m < two96 -> (sc <= 28)%nat ->
  parse_rdec s = Some (mkDec (neg && negb (m =? 0)) m sc).
Proof.
  assert (Hfp : forall n k c, from_parts n k c = mkDec (n && negb (k =? 0)) k c).
  { intros n k c. unfold from_parts. destruct (k =? 0), n; easy. }
  intros H Hm Hsc. destruct H as [sg neg ds Hs Hne Hd|sg neg ip fp Hs Hne Hi Hf].
  - rewrite <- Hfp. rewrite <- (app_nil_r ds) at 1 2.
    replace neg with (str_eqb sg [45]) by now destruct Hs.
    apply (parse_rdec_literal sg ds [] false); rewrite ?app_nil_r; try easy.
    + destruct Hs; auto.
    + now apply all_digits_Forall.
  - rewrite <- Hfp. replace neg with (str_eqb sg [45]) by now destruct Hs.
    apply (parse_rdec_literal sg ip fp true); try easy.
    + destruct Hs; auto.
    + now apply all_digits_Forall.
    + now apply all_digits_Forall.
Qed.
Lemma decimal_read_exact s neg m sc :
  dec_text s neg m sc -> m < 2 ^ 96 -> (sc <= 28)%nat ->
  decimal_of_str s = DNum (mkDec (neg && negb (m =? 0)) m sc).
Proof.
  intros H Hm Hs. unfold decimal_of_str. now rewrite (dec_text_parse s neg m sc H Hm Hs).
Qed.
Lemma print_rdec_text d : dec_text (print_rdec d) (d_neg d) (d_mant d) (d_scale d).
Proof.
  destruct (print_rdec_shape d) as (ip & fp & -> & Hi & Hf & Hne & Hv & Hl).
  assert (Hs : sign_text (if d_neg d then [45] else []) (d_neg d))
    by (destruct (d_neg d); constructor).
  destruct (Nat.eqb (d_scale d) 0) eqn:E.
  - apply Nat.eqb_eq in E. rewrite E in *. destruct fp; [|easy]. rewrite app_nil_r in *.
    rewrite <- Hv. apply dec_int; try easy. now apply all_digits_Forall.
  - rewrite <- Hv, <- Hl. apply dec_frac; try easy.
    + now destruct ip.
    + now apply all_digits_Forall.
    + now apply all_digits_Forall.
Qed.
Lemma decimal_roundtrip s :
  decimal_of_str (print_decimal (decimal_of_str s)) = decimal_of_str s.
Proof. apply decimal_print_parse, decimal_of_str_wf. Qed.
