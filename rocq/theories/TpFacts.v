(** Facts about the [TimingPoints] section. *)
From Coq Require Import String List NArith ZArith Bool Lia.
From Verif Require Import Str Num Nom Dec Parsers Colours TimingPoints Spec StrFacts NumFacts NomFacts
  DecFacts LineFacts ColoursFacts FieldFacts.
Import ListNotations.
Local Open Scope N_scope.

(** ** no panic *)
Lemma np_tp_sample_set : np tp_sample_set_from_str.
Proof. unfold tp_sample_set_from_str. apply np_rmap. auto with safe. Qed.
Lemma np_sample_index : np sample_index_from_str.
Proof. unfold sample_index_from_str. apply np_rmap. auto with safe. Qed.
Lemma np_effects : np effects_from_str.
Proof. unfold effects_from_str. apply np_rmap. auto with safe. Qed.
Lemma np_tp_volume : np tp_volume_from_str.
Proof. unfold tp_volume_from_str. apply np_rmap. auto with safe. Qed.
Lemma rmap_some_none {A B E} (f : A -> B) (r : res A E) : rmap (fun a => Some (f a)) r <> ROk None.
Proof. now destruct r. Qed.
Lemma np_shift_in v : old_version v = false -> np (shift_in v).
Proof. intros H a x. unfold shift_in. now rewrite H. Qed.

Lemma upto_safe v {A} n (p : parser tp_err A) : safe p -> safe (upto v n p).
Proof.
  intros H. unfold upto. apply preceded_safe; [|easy]. apply verify_safe, total_safe, pret_total.
Qed.
Lemma upto_nofail v {A} n (p : parser tp_err A) : nofail p -> nofail (upto v n p).
Proof.
  intros H. unfold upto. apply nofail_pbind; [|easy]. apply nofail_verify, nofail_total, pret_total.
Qed.

Lemma vrest_nofail {C A E} (f : str -> res (option A) E) : nofail (@consume_rest_versioned_type C A E f).
Proof. apply nofail_map_res, nofail_total, prest_total. Qed.
Lemma rest_nofail {C A E} (f : str -> res A E) : nofail (@consume_rest_type C A E f).
Proof. apply nofail_map_res, nofail_total, prest_total. Qed.
Lemma vfield_safe {C A B E} (g : A -> B) (f : str -> res A E) :
  np f -> safe (@comma_field_versioned_type C B E (fun s => rmap (fun a => Some (g a)) (f s))).
Proof.
  intros H. apply comma_field_versioned_type_safe; [now apply np_rmap|]. intros. apply rmap_some_none.
Qed.
Lemma vrest_safe {C A B E} (g : A -> B) (f : str -> res A E) :
  np f -> safe (@consume_rest_versioned_type C B E (fun s => rmap (fun a => Some (g a)) (f s))).
Proof.
  intros H. apply consume_rest_versioned_type_safe; [now apply np_rmap|]. intros. apply rmap_some_none.
Qed.

Lemma tp_uninherited_effects_safec v : safec (tp_uninherited_effects v).
Proof.
  unfold tp_uninherited_effects. apply alt_safec.
  - apply pmap_safe, upto_safe, context_safe. auto with safe.
  - apply nofail_pmap, upto_nofail, nofail_context, nofail_map_res, nofail_total, prest_total.
  - apply pbind_safec; [apply context_safec, map_res_safe; [apply total_safe, take_while_total|auto with safe]|].
    intros. apply pmap_safec, preceded_safec; [apply context_safec, comma_safe|].
    apply context_safec. apply (vrest_safe (fun x => x)). auto with safe.
Qed.
(** The [cut] branch of the volume makes an unrecoverable error, which has a
    context. *)
Lemma tp_volume_rest_safec v : safec (tp_volume_rest v).
Proof.
  unfold tp_volume_rest.
  assert (Hv : safe (@consume_rest_versioned_type tp_err Z int_err tp_volume_from_str)).
  { apply (vrest_safe (fun x => x)). auto with safe. }
  intros s. unfold alt at 1.
  assert (Hu : match pmap (fun vol : Z => (vol, @None bool, @None effects))
                    (upto v 4 (context TpInvalidVolume
                      (cut (consume_rest_versioned_type tp_volume_from_str)))) s with
               | POk r _ => (length r <= length s)%nat
               | PErr _ => True | PFail e => e_ctx e <> None | PPanic _ => False end).
  { unfold pmap, upto, preceded, pbind, verify, pret. destruct (v <=? 4)%Z; [|easy].
    pose proof (context_safec TpInvalidVolume _ (cut_safe _ Hv) s) as H.
    destruct (context _ _ s); easy. }
  destruct (pmap _ _ s) as [r x|e|e|p]; try easy.
  apply alt_safec.
  - apply pmap_safe, context_safe. apply Hv.
  - apply nofail_pmap, nofail_context, vrest_nofail.
  - apply pbind_safec; [apply context_safec; apply (vfield_safe (fun x => x)); auto with safe|].
    intros. apply pmap_safec, preceded_safec; [apply context_safec, comma_safe|].
    apply tp_uninherited_effects_safec.
Qed.
Lemma tp_index_rest_safec v : safec (tp_index_rest v).
Proof.
  unfold tp_index_rest. apply preceded_safec; [apply context_safec, comma_safe|].
  apply alt_safec.
  - apply pmap_safe, upto_safe, context_safe. apply (vrest_safe sample_index_of_u32). auto with safe.
  - apply nofail_pmap, upto_nofail, nofail_context, vrest_nofail.
  - apply pbind_safec; [apply context_safec; apply (vfield_safe sample_index_of_u32); auto with safe|].
    intros. apply pmap_safec, preceded_safec; [apply context_safec, comma_safe|].
    apply tp_volume_rest_safec.
Qed.
Lemma dec_field_total {C} : total (@comma_field_type C decimal unit (@parse_decimal unit)).
Proof.
  intros s. destruct (take_while_total (C:=C) (fun c => negb (c =? 44)) s) as (r & a & E & L).
  exists r, (decimal_of_str a). split; [|easy]. unfold comma_field_type, map_res, comma_field.
  now rewrite E.
Qed.
Lemma map_run_safec {C A B} (p : parser C A) (f : A -> run B) : safec p -> np f -> safec (map_run p f).
Proof.
  intros H Hf s. specialize (H s). unfold map_run. destruct (p s) as [r a| | |]; try easy.
  specialize (Hf a). destruct (f a) as [b|e|x]; [easy|destruct e|now destruct (Hf x)].
Qed.
Lemma tp_parser_safec v : old_version v = false -> safec (tp_parser v).
Proof.
  intros Hv. unfold tp_parser. apply pbind_safec.
  - apply map_run_safec; [|now apply np_shift_in]. apply context_safec, total_safe, dec_field_total.
  - intros. apply preceded_safec; [apply context_safec, comma_safe|]. apply alt_safec.
    + apply pmap_safe, upto_safe. apply consume_rest_type_safe. auto with safe.
    + apply nofail_pmap, upto_nofail, rest_nofail.
    + apply pbind_safec; [apply total_safec, dec_field_total|]. intros.
      apply pbind_safec.
      { apply preceded_safec; apply context_safec; [apply comma_safe|]. apply comma_field_type_safe. auto with safe. }
      intros. apply pbind_safec.
      { apply preceded_safec; apply context_safec; [apply comma_safe|].
        apply (vfield_safe tp_sample_set_of_Z). auto with safe. }
      intros. apply pmap_safec, tp_index_rest_safec.
Qed.
Lemma tp_from_str_np v s p : old_version v = false -> tp_from_str v s <> RPanic p.
Proof.
  intros Hv. unfold tp_from_str. pose proof (verbose_np (tp_parser v) s p (tp_parser_safec v Hv)) as H.
  destruct (verbose_error_to_error (tp_parser v s)); cbn; congruence.
Qed.
Lemma tp_from_str_none v s : tp_from_str v s <> ROk None.
Proof. unfold tp_from_str. destruct (verbose_error_to_error _); easy. Qed.
(** The parsed lines are all [Some], so the section is their list. *)
Lemma tp_lines_some v s l :
  parse_lines (tp_from_str v) 0 (lines s) = ROk l -> exists xs, l = map Some xs.
Proof.
  intros H. apply parse_lines_ok in H. induction H as [|a x la lx H1 H2 IH].
  - now exists [].
  - destruct IH as [xs ->]. destruct x as [x|]; [now exists (x :: xs)|]. now apply tp_from_str_none in H1.
Qed.
Lemma timing_points_from_str_eq s v :
  timing_points_from_str s v =
  match parse_lines (tp_from_str v) 0 (lines s) with
  | ROk l => ROk (Some (flatten_opt l))
  | RErr e => RErr e
  | RPanic p => RPanic p
  end.
Proof.
  unfold timing_points_from_str, rbind.
  destruct (parse_lines (tp_from_str v) 0 (lines s)) as [l|e|p] eqn:E; try easy.
  apply tp_lines_some in E as [xs ->]. rewrite flatten_some. destruct xs as [|x xs]; [easy|].
  pose proof (run_list_unwrap_some (E:=line_err tp_err) (x :: xs)) as H. cbn [map] in *. rewrite H. easy.
Qed.
Lemma timing_points_np s v p : old_version v = false -> timing_points_from_str s v <> RPanic p.
Proof.
  intros Hv. rewrite timing_points_from_str_eq.
  pose proof (parse_lines_np (tp_from_str v) 0 (lines s) p) as H.
  destruct (parse_lines _ 0 (lines s)); try easy. intros [= ->].
  apply H; [|easy]. intros. now apply tp_from_str_np.
Qed.

(** ** error lines *)
Lemma timing_points_error_line s v i e :
  timing_points_from_str s v = RErr (mk_line_err i e) ->
  exists n l, i = Z.of_nat n /\ nth_error (lines s) n = Some l
    /\ timing_points_from_str l v = RErr (mk_line_err 0 e)
    /\ forall m l', (m < n)%nat -> nth_error (lines s) m = Some l' ->
         exists x, timing_points_from_str l' v = ROk x.
Proof.
  rewrite timing_points_from_str_eq.
  destruct (parse_lines _ 0 (lines s)) as [|e0|] eqn:E; cbn; try easy. intros [= ->].
  apply parse_lines_err in E as (n & l & -> & Hn & Hb & Hf & Hm).
  exists n, l. repeat split; try easy.
  - rewrite timing_points_from_str_eq. now rewrite (parse_lines_alone_err _ s n l e).
  - intros m l' Hlt Hl'. destruct (parse_lines_alone_ok _ s m l' Hl' (Hm m l' Hlt Hl')) as [xs Hxs].
    rewrite timing_points_from_str_eq, Hxs. eauto.
Qed.

(** ** well-formed timing points *)

Lemma tp_sample_set_print x :
  tp_sample_set_ok x = true -> tp_sample_set_from_str (tp_sample_set_to_string x) = ROk (Some x).
Proof.
  intros H. unfold tp_sample_set_from_str, tp_sample_set_to_string.
  assert (Hi : in_i32 (tp_sample_set_to_Z x) = true).
  { destruct x; try easy. cbn in H. now apply andb_true_iff in H. }
  rewrite (parse_print_i32 _ Hi). cbn [rmap]. do 2 f_equal.
  destruct x as [| | | |z]; try easy. cbn in *. unfold tp_sample_set_of_Z.
  apply andb_true_iff in H as [_ H].
  destruct (Z.eqb_spec z 0), (Z.eqb_spec z 1), (Z.eqb_spec z 2), (Z.eqb_spec z 3); subst; easy.
Qed.
Lemma wrap_i32_small z : (0 <= z <= i32_max)%Z -> wrap_i32 z = z.
Proof. unfold wrap_i32, i32_max, i32_min. intros H. rewrite Z.mod_small; lia. Qed.
Lemma wrap_i32_big z : (i32_max < z <= u32_max)%Z -> (wrap_i32 z < 0)%Z.
Proof.
  unfold wrap_i32, i32_max, u32_max, i32_min. intros H.
  replace (z - -2147483648)%Z with (z - 2147483648 + 1 * 4294967296)%Z by lia.
  rewrite Z.mod_add by lia. rewrite Z.mod_small; lia.
Qed.
Lemma sample_index_print x :
  sample_index_ok x = true -> index_small x = true ->
  sample_index_from_str (sample_index_to_string x) = ROk (Some x).
Proof.
  destruct x as [|z]; [easy|]. cbn. rewrite andb_true_iff. intros [H1 H2] H3.
  unfold sample_index_from_str, sample_index_to_string. cbn [sample_index_to_Z].
  rewrite wrap_i32_small by (unfold i32_max in *; lia).
  rewrite parse_print_u32 by (unfold in_u32, u32_max in *; lia).
  cbn [rmap]. do 2 f_equal. unfold sample_index_of_u32. destruct (Z.eqb_spec z 0); [lia|easy].
Qed.
Lemma print_bool_parse b : parse_zero_one_bool (print_bool b) = ROk b.
Proof. now destruct b. Qed.
Lemma print_bool_no_comma b : no_comma (print_bool b) = true.
Proof. now destruct b. Qed.

Lemma upto_no v {A} n (p : parser tp_err A) s : (n < v)%Z -> upto v n p s = PErr (mkErr KVerify None).
Proof.
  intros H. unfold upto, preceded, pbind, verify, pret. destruct (Z.leb_spec v n); [lia|easy].
Qed.
Lemma upto_yes v {A} n (p : parser tp_err A) s : (v <= n)%Z -> upto v n p s = p s.
Proof.
  intros H. unfold upto, preceded, pbind, verify, pret. destruct (Z.leb_spec v n); [easy|lia].
Qed.

(** a text with a comma is not an integer *)
Lemma int_text_comma signed s z : int_text signed s z -> ~ In 44 s.
Proof.
  intros H Hin. destruct H as [ds Hn Hd|ds Hn Hd|ds Hs Hn Hd].
  - rewrite Forall_forall in Hd. apply Hd in Hin. unfold digit in Hin. lia.
  - destruct Hin as [Hin|Hin]; [lia|]. rewrite Forall_forall in Hd. apply Hd in Hin.
    unfold digit in Hin. lia.
  - destruct Hin as [Hin|Hin]; [lia|]. rewrite Forall_forall in Hd. apply Hd in Hin.
    unfold digit in Hin. lia.
Qed.
Lemma parse_int_comma signed lo hi a b :
  (lo <= 0 <= hi)%Z -> exists e, parse_int signed lo hi (a ++ lit "," ++ b) = RErr e.
Proof.
  intros H0. destruct (parse_int signed lo hi (a ++ lit "," ++ b)) as [z|e|p] eqn:E; [|eauto|].
  - exfalso. apply (parse_int_spec signed lo hi _ _ H0) in E as [E _]. apply int_text_comma in E.
    apply E, in_or_app. right. now left.
  - now apply parse_int_no_panic in E.
Qed.

Lemma tp_tail_parse v vol u e :
  in_i32 vol = true -> tp_tail_ok v (mk_tp (DRaw []) (DRaw []) 0 TsNormal SiDefault 0 u e) = true ->
  (4 < v)%Z ->
  tp_volume_rest v
    (join (lit ",")
       ([print_Z vol]
        ++ (match u with Some b => [print_bool b]
            | None => match e with Some _ => [[]] | None => [] end end)
        ++ (match e with Some x => [effects_to_string x] | None => [] end)))
  = POk [] (vol, u, e).
Proof.
  intros Hvol Ht Hv. unfold tp_volume_rest.
  erewrite alt_r by (apply pmap_err; now apply upto_no).
  unfold tp_tail_ok in Ht. cbn [tp_uninherited tp_effects] in Ht.
  assert (Hc : forall b, exists er,
     pmap (fun vol => (vol, @None bool, @None effects))
         (context TpInvalidVolume (consume_rest_versioned_type tp_volume_from_str))
         (print_Z vol ++ lit "," ++ b) = PErr er).
  { intros b. destruct (parse_int_comma true i32_min i32_max (print_Z vol) b) as [er E]; [easy|].
    eexists. apply pmap_err, context_err. unfold consume_rest_versioned_type, map_res, prest.
    unfold tp_volume_from_str, parse_i32. rewrite E. reflexivity. }
  assert (Hvs : tp_volume_from_str (print_Z vol) = ROk (Some vol)).
  { unfold tp_volume_from_str. now rewrite parse_print_i32. }
  destruct u as [u|], e as [e|]; try easy; cbn [app join].
  - destruct (Hc (print_bool u ++ lit "," ++ effects_to_string e)) as [er Er].
    rewrite (alt_r _ _ _ er Er). clear Er. eapply pbind_step.
    { apply context_ok. apply vfield_mid; [apply print_Z_no_comma|exact Hvs]. }
    apply (pmap_step (fun ue => (vol, fst ue, snd ue)) _ _ _ (Some u, Some e)).
    eapply preceded_step; [apply context_ok, comma_ok|]. unfold tp_uninherited_effects.
    assert (Hn : exists er2, pmap (fun u => (Some u, @None effects))
         (upto v 5 (context TpInvalidUninherited (map_res prest parse_zero_one_bool)))
         (print_bool u ++ lit "," ++ effects_to_string e) = PErr er2).
    { destruct (Z.leb_spec v 5).
      - destruct (parse_int_comma true i32_min i32_max (print_bool u) (effects_to_string e)) as [er2 E2]; [easy|].
        eexists. apply pmap_err. rewrite upto_yes by easy. apply context_err.
        unfold map_res, prest, parse_zero_one_bool, parse_i32. rewrite E2. reflexivity.
      - eexists. apply pmap_err. now apply upto_no. }
    destruct Hn as [er2 Er2]. rewrite (alt_r _ _ _ er2 Er2). clear Er2.
    eapply pbind_step.
    { apply context_ok. eapply map_res_ok; [apply comma_field_app, print_bool_no_comma|apply print_bool_parse]. }
    apply (pmap_step (fun e => (Some u, Some e))). eapply preceded_step; [apply context_ok, comma_ok|].
    apply context_ok. apply vrest. unfold effects_from_str, effects_to_string.
    now rewrite parse_print_u32.
  - destruct (Hc (print_bool u)) as [er Er].
    rewrite (alt_r _ _ _ er Er). clear Er. eapply pbind_step.
    { apply context_ok. apply vfield_mid; [apply print_Z_no_comma|exact Hvs]. }
    apply (pmap_step (fun ue => (vol, fst ue, snd ue)) _ _ _ (Some u, None)).
    eapply preceded_step; [apply context_ok, comma_ok|]. unfold tp_uninherited_effects.
    apply alt_l. apply (pmap_step (fun u => (Some u, @None effects))).
    apply Z.leb_le in Ht. rewrite upto_yes by easy. apply context_ok.
    eapply map_res_ok; [easy|apply print_bool_parse].
  - apply alt_l. apply (pmap_step (fun vol => (vol, @None bool, @None effects))). apply context_ok.
    apply vrest. exact Hvs.
Qed.

Definition tp_tail_text (t : timing_point) : str :=
  join (lit ",")
    ([print_Z (tp_volume t)]
     ++ (match tp_uninherited t with Some b => [print_bool b]
         | None => match tp_effects t with Some _ => [[]] | None => [] end end)
     ++ (match tp_effects t with Some x => [effects_to_string x] | None => [] end)).
Definition tp_head_text (t : timing_point) : str :=
  print_decimal (tp_beat_length t) ++ lit ","
  ++ print_Z (tp_meter t) ++ lit "," ++ tp_sample_set_to_string (tp_sample_set_f t) ++ lit ","
  ++ sample_index_to_string (tp_sample_index t) ++ lit "," ++ tp_tail_text t.
Lemma join_cons2 sep a b l : join sep (a :: b :: l) = a ++ sep ++ join sep (b :: l).
Proof. reflexivity. Qed.
Lemma new_not_old v : (4 < v)%Z -> old_version v = false.
Proof. unfold old_version. lia. Qed.
Lemma tp_print_new v t : (4 < v)%Z ->
  tp_to_string v t = ROk (print_decimal (tp_time t) ++ lit "," ++ tp_head_text t).
Proof.
  intros Hv. unfold tp_to_string, shift_out. rewrite (new_not_old v Hv). cbn [rmap]. f_equal.
  replace (3 <? v)%Z with true by lia. replace (4 <? v)%Z with true by lia.
  unfold tp_head_text, tp_tail_text. cbn [app]. now rewrite !join_cons2.
Qed.
Lemma tp_parse_print v t :
  (4 < v)%Z -> tp_ok v t = true -> index_small (tp_sample_index t) = true ->
  tp_parser v (print_decimal (tp_time t) ++ lit "," ++ tp_head_text t) = POk [] t.
Proof.
  intros Hv Hok Hs. unfold tp_ok in Hok. rewrite !andb_true_iff in Hok.
  destruct Hok as [[[[[[Ht Hb] Hm] Hss] Hi] Hvol] Htl].
  unfold tp_parser. eapply pbind_step.
  { eapply map_run_ok; [apply context_ok; now apply dfield_mid|]. unfold shift_in.
    now rewrite (new_not_old v Hv). }
  eapply preceded_step; [apply context_ok, comma_ok|].
  erewrite alt_r by (apply pmap_err; apply upto_no; lia).
  unfold tp_head_text. eapply pbind_step; [now apply dfield_mid|].
  eapply pbind_step.
  { eapply preceded_step; [apply context_ok, comma_ok|]. apply context_ok.
    apply field_mid; [apply print_Z_no_comma|now apply parse_print_i32]. }
  eapply pbind_step.
  { eapply preceded_step; [apply context_ok, comma_ok|]. apply context_ok.
    apply vfield_mid; [apply print_Z_no_comma|now apply tp_sample_set_print]. }
  destruct t as [time bl meter ss i vol u e]. cbn [tp_time tp_beat_length tp_meter tp_sample_set_f
    tp_sample_index tp_volume tp_uninherited tp_effects] in *.
  apply (pmap_step (fun '(i, (vol, u, e)) => mk_tp time bl meter ss i vol u e) _ _ _ (i, (vol, u, e))).
  unfold tp_index_rest. eapply preceded_step; [apply context_ok, comma_ok|].
  erewrite alt_r by (apply pmap_err; now apply upto_no).
  eapply pbind_step.
  { apply context_ok. apply vfield_mid; [apply print_Z_no_comma|now apply sample_index_print]. }
  apply (pmap_step (fun r => (i, r))). eapply preceded_step; [apply context_ok, comma_ok|].
  unfold tp_tail_text. cbn [tp_volume tp_uninherited tp_effects]. apply tp_tail_parse; easy.
Qed.

Lemma tp_tail_plain t a :
  tp_tail_ok 5%Z t = true -> no_nl a = true -> plain_line (a ++ tp_tail_text t) = true.
Proof.
  intros Ht Ha. unfold tp_tail_text, tp_tail_ok in *.
  destruct (tp_uninherited t) as [u|], (tp_effects t) as [e|]; try easy; cbn [app join].
  - rewrite !app_assoc. apply plain_print_Z.
    rewrite !no_nl_app, Ha, print_Z_no_nl. now destruct u.
  - replace (print_bool u) with (print_Z (if u then 1 else 0)%Z) by now destruct u.
    rewrite !app_assoc. apply plain_print_Z. now rewrite !no_nl_app, Ha, print_Z_no_nl.
  - now apply plain_print_Z.
Qed.
Lemma tp_tail_ok_5 v t : tp_tail_ok v t = true -> tp_tail_ok 5%Z t = true.
Proof. unfold tp_tail_ok. now destruct (tp_uninherited t), (tp_effects t). Qed.
Lemma tp_good v t : tp_ok v t = true ->
  good_line (print_decimal (tp_time t) ++ lit "," ++ tp_head_text t) = true.
Proof.
  intros Hok. unfold tp_ok in Hok. rewrite !andb_true_iff in Hok.
  destruct Hok as [[[[[[Ht Hb] Hm] Hss] Hi] Hvol] Htl]. unfold good_line.
  rewrite not_blank_comma, andb_true_r. unfold tp_head_text. rewrite !app_assoc.
  apply tp_tail_plain; [now apply tp_tail_ok_5 in Htl|].
  rewrite !no_nl_app, !wf_dec_field_no_nl by easy.
  unfold tp_sample_set_to_string, sample_index_to_string. now rewrite !print_Z_no_nl.
Qed.

Lemma tp_print_list v l : (4 < v)%Z ->
  timing_points_to_string l v =
  ROk (Some (join [c_nl] (map (fun t => print_decimal (tp_time t) ++ lit "," ++ tp_head_text t) l))).
Proof.
  intros Hv. unfold timing_points_to_string.
  rewrite (run_list_map_ok _ (fun t => print_decimal (tp_time t) ++ lit "," ++ tp_head_text t)); [easy|].
  intros t _. now apply tp_print_new.
Qed.
Lemma flatten_parse {A E} (f : str -> res (option A) E) (pr : A -> str) l :
  (forall x, In x l -> good_line (pr x) = true /\ f (pr x) = ROk (Some x)) ->
  parse_lines f 0 (lines (join [c_nl] (map pr l))) = ROk (map Some l).
Proof.
  intros H.
  rewrite good_lines_join.
  2:{ apply forallb_forall. intros s Hs. apply in_map_iff in Hs as (x & <- & Hx). now apply H. }
  apply parse_lines_ok.
  assert (Ef : filter (fun s => negb (is_blank s)) (map pr l) = map pr l).
  { induction l as [|c l IH]; [easy|]. cbn [map filter]. destruct (H c) as [Hg _]; [now left|].
    unfold good_line in Hg. apply andb_true_iff in Hg as [_ Hg]. rewrite Hg. f_equal. apply IH.
    intros; apply H; now right. }
  rewrite Ef. clear Ef. induction l as [|c l IH]; cbn; constructor.
  - apply H. now left.
  - apply IH; intros. apply H. now right.
Qed.
Lemma timing_points_round_trip v l :
  (4 < v)%Z -> forallb (tp_ok v) l = true ->
  forallb (fun t => index_small (tp_sample_index t)) l = true ->
  exists s, timing_points_to_string l v = ROk (Some s) /\ timing_points_from_str s v = ROk (Some l).
Proof.
  intros Hv Hok Hs. rewrite forallb_forall in Hok, Hs. eexists. split; [now apply tp_print_list|].
  rewrite timing_points_from_str_eq, flatten_parse; [now rewrite flatten_some|].
  intros t Ht. split; [now apply (tp_good v), Hok|]. unfold tp_from_str.
  rewrite tp_parse_print; auto.
Qed.

(** ** a large sample index *)
Lemma parse_u32_neg z : (z < 0)%Z -> exists e, parse_u32 (print_Z z) = RErr e.
Proof.
  intros H. destruct (parse_u32 (print_Z z)) as [x|e|p] eqn:E; [|eauto|now apply parse_int_no_panic in E].
  destruct z as [|q|q]; try lia. unfold print_Z in E.
  apply (parse_int_spec false 0 u32_max) in E as [E _]; [|easy].
  inversion E as [ds Hn Hd Hx| |]; [|easy]. inversion Hd as [|? ? Hd1]; subst. unfold digit in Hd1. lia.
Qed.
Lemma sample_index_text z : sample_index_to_string (SiIndex z) = print_Z (wrap_i32 z).
Proof. unfold sample_index_to_string, sample_index_to_Z. reflexivity. Qed.
Lemma sample_index_err s er : parse_u32 s = RErr er -> sample_index_from_str s = RErr er.
Proof. unfold sample_index_from_str. intros H. rewrite H. reflexivity. Qed.
Lemma sample_index_wrap z : sample_index_ok (SiIndex z) = true -> index_small (SiIndex z) = false ->
  (wrap_i32 z < 0)%Z.
Proof.
  intros Hi Hs. apply wrap_i32_big. unfold sample_index_ok in Hi. unfold index_small in Hs.
  apply andb_true_iff in Hi as [_ Hi]. apply Z.leb_le in Hi. apply Z.leb_gt in Hs. now split.
Qed.
Lemma sample_index_big z : sample_index_ok (SiIndex z) = true -> index_small (SiIndex z) = false ->
  exists er, sample_index_from_str (sample_index_to_string (SiIndex z)) = RErr er.
Proof.
  intros Hi Hs. rewrite sample_index_text.
  destruct (parse_u32_neg (wrap_i32 z) (sample_index_wrap z Hi Hs)) as [er Er].
  exists er. exact (sample_index_err _ _ Er).
Qed.
Lemma tp_index_big v z rest :
  (4 < v)%Z -> sample_index_ok (SiIndex z) = true -> index_small (SiIndex z) = false ->
  tp_index_rest v (lit "," ++ sample_index_to_string (SiIndex z) ++ lit "," ++ rest)
  = PErr (add_ctx TpInvalidSampleIndex (mkErr KMapRes None)).
Proof.
  intros Hv Hi Hs. unfold tp_index_rest. eapply preceded_step; [apply context_ok, comma_ok|].
  destruct (sample_index_big z Hi Hs) as [er Er].
  rewrite (alt_r _ _ _ (mkErr KVerify None)); [|apply pmap_err; now apply upto_no].
  apply pbind_err, context_err, (vfield_mid_err _ _ _ er); [apply print_Z_no_comma|exact Er].
Qed.
Lemma tp_big_parser v t :
  (4 < v)%Z -> tp_ok v t = true -> index_small (tp_sample_index t) = false ->
  tp_parser v (print_decimal (tp_time t) ++ lit "," ++ tp_head_text t)
  = PErr (add_ctx TpInvalidSampleIndex (mkErr KMapRes None)).
Proof.
  intros Hv Hok Hs. unfold tp_ok in Hok. rewrite !andb_true_iff in Hok.
  destruct Hok as [[[[[[Ht Hb] Hm] Hss] Hi] Hvol] Htl].
  unfold tp_parser. eapply pbind_step.
  { eapply map_run_ok; [apply context_ok; now apply dfield_mid|]. unfold shift_in.
    now rewrite (new_not_old v Hv). }
  eapply preceded_step; [apply context_ok, comma_ok|].
  erewrite alt_r by (apply pmap_err; apply upto_no; lia).
  unfold tp_head_text. eapply pbind_step; [now apply dfield_mid|].
  eapply pbind_step.
  { eapply preceded_step; [apply context_ok, comma_ok|]. apply context_ok.
    apply field_mid; [apply print_Z_no_comma|now apply parse_print_i32]. }
  eapply pbind_step.
  { eapply preceded_step; [apply context_ok, comma_ok|]. apply context_ok.
    apply vfield_mid; [apply print_Z_no_comma|now apply tp_sample_set_print]. }
  destruct (tp_sample_index t) as [|z]; [easy|]. apply pmap_err. now apply tp_index_big.
Qed.
Lemma tp_big_index v t :
  (4 < v)%Z -> tp_ok v t = true -> index_small (tp_sample_index t) = false ->
  tp_from_str v (print_decimal (tp_time t) ++ lit "," ++ tp_head_text t) = RErr TpInvalidSampleIndex.
Proof.
  intros Hv Hok Hs. unfold tp_from_str. now rewrite tp_big_parser.
Qed.
Lemma timing_points_big_index v l :
  (4 < v)%Z -> forallb (tp_ok v) l = true ->
  (exists t, In t l /\ index_small (tp_sample_index t) = false) ->
  exists s i, timing_points_to_string l v = ROk (Some s)
    /\ timing_points_from_str s v = RErr (mk_line_err i TpInvalidSampleIndex).
Proof.
  intros Hv Hok (t & Hin & Hs). rewrite forallb_forall in Hok. eexists.
  assert (Hx : exists i, timing_points_from_str (join [c_nl] (map (fun t =>
      print_decimal (tp_time t) ++ lit "," ++ tp_head_text t) l)) v
      = RErr (mk_line_err i TpInvalidSampleIndex)).
  2:{ destruct Hx as [i Hx]. exists i. split; [now apply tp_print_list|exact Hx]. }
  rewrite timing_points_from_str_eq, good_lines_join.
  2:{ apply forallb_forall. intros s Hx. apply in_map_iff in Hx as (x & <- & Hx).
      now apply (tp_good v), Hok. }
  remember 0%Z as k eqn:Ek. clear Ek. revert k. induction l as [|x l IH]; intros k; [easy|].
  cbn [map parse_lines].
  pose proof (tp_good v x (Hok x (or_introl eq_refl))) as Hg. unfold good_line in Hg.
  apply andb_true_iff in Hg as [_ Hg]. apply negb_true_iff in Hg. rewrite Hg.
  destruct (index_small (tp_sample_index x)) eqn:Ex.
  - unfold tp_from_str at 1. rewrite tp_parse_print by (auto; apply Hok; now left).
    cbn [verbose_error_to_error rmap]. destruct Hin as [->|Hin]; [congruence|].
    destruct (IH (fun y Hy => Hok y (or_intror Hy)) Hin (k + 1)%Z) as [i Hi]. exists i.
    destruct (parse_lines _ (k + 1) _); cbn; congruence.
  - exists k. rewrite tp_big_index by (auto; apply Hok; now left). easy.
Qed.

(** ** what is read is well formed *)
Lemma tp_sample_set_of_Z_ok z : in_i32 z = true -> tp_sample_set_ok (tp_sample_set_of_Z z) = true.
Proof.
  intros H. unfold tp_sample_set_of_Z.
  destruct (Z.eqb_spec z 0), (Z.eqb_spec z 1), (Z.eqb_spec z 2), (Z.eqb_spec z 3); try easy.
  cbn. rewrite H. lia.
Qed.
Lemma sample_index_of_ok z : in_u32 z = true -> sample_index_ok (sample_index_of_u32 z) = true.
Proof.
  intros H. unfold sample_index_of_u32, in_u32 in *. destruct (Z.eqb_spec z 0); [easy|]. cbn. lia.
Qed.
Lemma rmap_inv {A B E} (f : A -> B) (r : res A E) b : rmap f r = ROk b -> exists a, r = ROk a /\ b = f a.
Proof. destruct r; cbn; try easy. intros [= <-]. eauto. Qed.
Lemma upto_inv v {A} n (p : parser tp_err A) s r a :
  upto v n p s = POk r a -> (v <= n)%Z /\ p s = POk r a.
Proof.
  intros H. destruct (Z.leb_spec v n); [now rewrite upto_yes in H|]. now rewrite upto_no in H.
Qed.
Lemma tp_ue_inv v s r u e :
  tp_uninherited_effects v s = POk r (u, e) ->
  exists b, u = Some b /\ match e with Some x => in_u32 x = true | None => (v <= 5)%Z end.
Proof.
  unfold tp_uninherited_effects. intros H. apply alt_inv in H as [H|H].
  - apply pmap_inv in H as (a & H & [= -> ->]). apply upto_inv in H as [H _]. eauto.
  - apply pbind_inv in H as (r1 & a & _ & H). apply pmap_inv in H as (x & H & [= -> ->]).
    apply pbind_inv in H as (? & ? & _ & H). apply context_inv, vrest_inv in H as [_ H].
    apply rmap_inv in H as (y & H & [= ->]). apply parse_u32_range in H. eauto.
Qed.
Lemma tp_vol_inv v s r vol u e :
  tp_volume_rest v s = POk r (vol, u, e) ->
  in_i32 vol = true /\ tp_tail_ok v (mk_tp (DRaw []) (DRaw []) 0 TsNormal SiDefault 0 u e) = true.
Proof.
  unfold tp_volume_rest. intros H. apply alt_inv in H as [H|H]; [|apply alt_inv in H as [H|H]].
  - apply pmap_inv in H as (a & H & [= -> -> ->]). apply upto_inv in H as [_ H].
    apply context_inv, cut_inv, vrest_inv in H as [_ H]. apply rmap_inv in H as (y & H & [= ->]).
    now apply parse_i32_range in H.
  - apply pmap_inv in H as (a & H & [= -> -> ->]).
    apply context_inv, vrest_inv in H as [_ H]. apply rmap_inv in H as (y & H & [= ->]).
    now apply parse_i32_range in H.
  - apply pbind_inv in H as (r1 & a & H1 & H). apply context_inv, vfield_inv in H1 as (t & _ & _ & H1).
    apply rmap_inv in H1 as (y & H1 & [= ->]). apply parse_i32_range in H1.
    apply pmap_inv in H as ([u' e'] & H & [= -> -> ->]).
    apply pbind_inv in H as (? & ? & _ & H). apply tp_ue_inv in H as (b & -> & H).
    split; [easy|]. unfold tp_tail_ok. cbn. destruct e'; [easy|lia].
Qed.
Lemma no_nl_split a b : no_nl (a ++ b) = true -> no_nl a = true /\ no_nl b = true.
Proof. rewrite no_nl_app. apply andb_true_iff. Qed.
Lemma tp_parser_ok v s r t :
  (4 < v)%Z -> no_nl s = true -> tp_parser v s = POk r t -> tp_ok v t = true.
Proof.
  intros Hv Hn H. unfold tp_parser in H. apply pbind_inv in H as (r1 & time & H1 & H).
  unfold map_run in H1.
  destruct (context TpInvalidTime (comma_field_type (@parse_decimal unit)) s) as [r0 d| | |] eqn:E0; try easy.
  unfold shift_in in H1. rewrite (new_not_old v Hv) in H1. injection H1 as -> ->.
  apply context_inv in E0. apply dfield_wf in E0 as [Htime Hn1]; [|easy].
  apply pbind_inv in H as (r2 & c & H2 & H). apply context_inv, comma_no_nl in H2; [|easy].
  apply alt_inv in H as [H|H].
  { apply pmap_inv in H as (a & H & _). apply upto_inv in H as [H _]. lia. }
  apply pbind_inv in H as (r3 & bl & H3 & H). apply dfield_wf in H3 as [Hbl Hn3]; [|easy].
  apply pbind_inv in H as (r4 & m & H4 & H). apply pbind_inv in H4 as (? & ? & _ & H4).
  apply context_inv, field_inv in H4 as (? & _ & _ & H4). apply parse_i32_range in H4.
  apply pbind_inv in H as (r5 & ss & H5 & H). apply pbind_inv in H5 as (? & ? & _ & H5).
  apply context_inv, vfield_inv in H5 as (? & _ & _ & H5). apply rmap_inv in H5 as (z5 & H5 & [= ->]).
  apply parse_i32_range, tp_sample_set_of_Z_ok in H5.
  apply pmap_inv in H as ([i [[vol u] e]] & H & ->). unfold tp_index_rest in H.
  apply pbind_inv in H as (? & ? & _ & H). apply alt_inv in H as [H|H].
  { apply pmap_inv in H as (a & H & _). apply upto_inv in H as [H _]. lia. }
  apply pbind_inv in H as (r6 & i' & H6 & H). apply context_inv, vfield_inv in H6 as (? & _ & _ & H6).
  apply rmap_inv in H6 as (z6 & H6 & [= ->]). apply parse_u32_range, sample_index_of_ok in H6.
  apply pmap_inv in H as ([[vol' u'] e'] & H & [= -> -> -> ->]).
  apply pbind_inv in H as (? & ? & _ & H). apply tp_vol_inv in H as [Hvol Ht].
  unfold tp_ok. cbn [tp_time tp_beat_length tp_meter tp_sample_set_f
    tp_sample_index tp_volume]. rewrite Htime, Hbl, H4, H5, H6, Hvol. exact Ht.
Qed.
Lemma timing_points_from_str_ok s v l :
  (4 < v)%Z -> timing_points_from_str s v = ROk (Some l) -> forallb (tp_ok v) l = true.
Proof.
  intros Hv. rewrite timing_points_from_str_eq.
  destruct (parse_lines _ 0 (lines s)) as [xs| |] eqn:E; cbn; try easy. intros [= <-].
  apply parse_lines_ok in E.
  assert (Hn : forall l, In l (filter (fun l => negb (is_blank l)) (lines s)) -> no_nl l = true).
  { intros x Hx. apply filter_In in Hx as [Hx _]. pose proof (lines_no_nl s) as H.
    rewrite forallb_forall in H. auto. }
  remember (filter _ _) as ls eqn:El. clear El.
  induction E as [|l0 x la lx H1 H2 IH]; [easy|]. destruct x as [c|]; [|now apply tp_from_str_none in H1].
  cbn. unfold tp_from_str in H1. destruct (tp_parser v l0) as [r t|e|e|] eqn:Et; cbn in H1; try easy.
  - injection H1 as ->. apply tp_parser_ok in Et; [|easy|apply Hn; now left]. rewrite Et. cbn.
    apply IH. intros. apply Hn. now right.
  - now destruct (e_ctx e).
  - now destruct (e_ctx e).
Qed.
(** Reading any text of a version from 5 on, printing and reading again. *)
Lemma timing_points_reparse s v l :
  (4 < v)%Z -> timing_points_from_str s v = ROk (Some l) ->
  exists t, timing_points_to_string l v = ROk (Some t) /\
    (if forallb (fun t => index_small (tp_sample_index t)) l
     then timing_points_from_str t v = ROk (Some l)
     else exists i, timing_points_from_str t v = RErr (mk_line_err i TpInvalidSampleIndex)).
Proof.
  intros Hv H. apply timing_points_from_str_ok in H; [|easy].
  destruct (forallb (fun t => index_small (tp_sample_index t)) l) eqn:E.
  - now apply timing_points_round_trip.
  - assert (Hx : exists t, In t l /\ index_small (tp_sample_index t) = false).
    { clear H. induction l as [|x l IH]; [easy|]. cbn in E.
      destruct (index_small (tp_sample_index x)) eqn:Ex.
      - destruct IH as (t & Ht & Hs); [easy|]. exists t. split; [now right|easy].
      - exists x. split; [now left|easy]. }
    destruct (timing_points_big_index v l Hv H Hx) as (t & i & H1 & H2). exists t. eauto.
Qed.
