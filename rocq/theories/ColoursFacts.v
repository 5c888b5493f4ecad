(** Facts about the [Colours] section. *)
From Coq Require Import String List NArith ZArith Bool Lia.
From Verif Require Import Str Num Nom Dec Parsers Colours Spec StrFacts NumFacts NomFacts LineFacts.
Import ListNotations.
Local Open Scope N_scope.

(** ** no panic *)
Lemma rgb_byte_safe : safe rgb_byte.
Proof. unfold rgb_byte. auto with safe. Qed.
Lemma rgb_parser_safec : safec rgb_parser.
Proof.
  unfold rgb_parser.
  assert (Hsep : forall e, safec (pbind (@space0 rgb_err) (fun _ => pbind (context e comma) (fun _ => space0)))).
  { intros e. apply pbind_safec; [apply total_safec, take_while_total|]. intros.
    apply pbind_safec; [apply context_safec, comma_safe|]. intros. apply total_safec, take_while_total. }
  apply pbind_safec.
  { apply preceded_safec; [apply total_safec, take_while_total|apply context_safec, rgb_byte_safe]. }
  intros. apply pbind_safec.
  { apply preceded_safec; [apply Hsep|apply context_safec, rgb_byte_safe]. }
  intros. apply pbind_safec.
  { apply preceded_safec; [apply Hsep|apply context_safec]. auto with safe. }
  intros. apply total_safec, pret_total.
Qed.
Lemma rgb_from_str_np s v p : rgb_from_str s v <> RPanic p.
Proof.
  unfold rgb_from_str. pose proof (verbose_np rgb_parser s p rgb_parser_safec) as H.
  destruct (verbose_error_to_error (rgb_parser s)); cbn; congruence.
Qed.
Lemma rgb_from_str_none s v : rgb_from_str s v <> ROk None.
Proof. unfold rgb_from_str. destruct (verbose_error_to_error (rgb_parser s)); easy. Qed.

(** an error context of the colour parser *)
Definition col_ctx_ok (c : option colour_ctx) : Prop :=
  match c with
  | None => False
  | Some (CcErr _) => True
  | Some (CcRgb i) => exists e, rgb_from_str i 3%Z = RErr e
  end.
Definition col_ctx_opt (c : option colour_ctx) : Prop := match c with None => True | _ => col_ctx_ok c end.

Lemma col_separator_safe : safe col_separator.
Proof. unfold col_separator, space0. auto 10 with safe. Qed.
Lemma col_rgb_safe v : safe (col_rgb v).
Proof.
  intros s. unfold col_rgb. apply context_safe, map_res_safe; [apply total_safe, prest_total|].
  apply np_v_unwrap.
  - intros t x. apply rgb_from_str_np.
  - intros t. apply rgb_from_str_none.
Qed.
Lemma col_combo_safe v : safe (col_combo v).
Proof.
  unfold col_combo. apply pbind_safe.
  - apply preceded_safe; [apply tag_safe|]. apply context_safe, cut_safe. auto with safe.
  - intros n. apply pmap_safe, cut_safe, preceded_safe; [|apply col_rgb_safe].
    apply context_safe, col_separator_safe.
Qed.
Lemma col_track_safe v : safe (col_track v).
Proof.
  unfold col_track. apply pmap_safe, preceded_safe; [|apply cut_safe, col_rgb_safe].
  apply pbind_safe; [apply tag_safe|]. intros. apply context_safe, cut_safe, col_separator_safe.
Qed.
Lemma col_border_safe v : safe (col_border v).
Proof.
  unfold col_border. apply pmap_safe, preceded_safe; [|apply cut_safe, col_rgb_safe].
  apply pbind_safe; [auto 10 with safe|].
  intros. apply context_safe, cut_safe, col_separator_safe.
Qed.
Lemma colour_parser_safe v : safe (colour_parser v).
Proof.
  apply alt_safe; [apply col_combo_safe|]. apply alt_safe; [apply col_track_safe|].
  apply alt_safe; [apply col_border_safe|]. apply context_safe, pfail_safe.
Qed.

Lemma errs_none_opt {A} (p : parser colour_ctx A) : errs_in is_none p -> errs_in col_ctx_opt p.
Proof. apply errs_weaken. unfold is_none. now intros c ->. Qed.
Lemma errs_separator : errs_in is_none col_separator.
Proof.
  unfold col_separator. apply errs_pbind; [apply errs_total, take_while_total|]. intros.
  apply errs_pbind; [apply errs_tag|]. intros. apply errs_total, take_while_total.
Qed.
Lemma errs_col_rgb v : errs_in col_ctx_ok (col_rgb v).
Proof.
  intros s. unfold col_rgb, context, map_res, prest, v_unwrap, rbind, unwrap.
  change (rgb_from_str s v) with (rgb_from_str s 3%Z).
  destruct (rgb_from_str s 3%Z) as [[c|]|e|p] eqn:E; try easy.
  cbn. rewrite E. eauto.
Qed.
Lemma ctx_ok_opt c : col_ctx_ok c -> col_ctx_opt c.
Proof. now destruct c. Qed.
Lemma errs_ctx_sep {A} (p : parser colour_ctx A) e :
  errs_in is_none p -> errs_in col_ctx_opt (context (CcErr e) p).
Proof. intros H. apply (errs_context is_none); [easy| |easy]. now unfold is_none. Qed.
(** an unrecoverable error has a context *)
Lemma colour_errs v : errs_in col_ctx_ok (colour_parser v).
Proof.
  assert (H1 : forall s e, col_combo v s = PFail e -> col_ctx_ok (e_ctx e)).
  { intros s e. unfold col_combo, pbind, preceded, pbind.
    destruct (tag (lit "Combo") s) as [r a|e0|e0|] eqn:Et; try easy.
    - destruct (context _ _ r) as [r2 n|e1|e1|] eqn:E; try easy.
      + unfold pmap, cut. destruct (context (CcErr ColInvalidColonSeparator) col_separator r2)
          as [r3 x|e2|e2|] eqn:E2; try easy.
        * pose proof (errs_col_rgb v r3) as H. destruct (col_rgb v r3); congruence.
        * unfold context in E2. destruct (col_separator r2) as [|e3| |] eqn:E3; try easy.
          injection E2 as <-. intros [= <-]. pose proof (errs_separator r2) as H. rewrite E3 in H.
          unfold add_ctx. now rewrite H.
        * unfold context in E2. destruct (col_separator r2) as [| |e3|] eqn:E3; try easy.
          injection E2 as <-. intros [= <-]. pose proof (errs_separator r2) as H. rewrite E3 in H.
          unfold add_ctx. now rewrite H.
      + intros [= <-]. unfold context, cut in E.
        pose proof (errs_map_res (@digit1 colour_ctx) parse_i32 errs_digit1 r) as H.
        destruct (map_res digit1 parse_i32 r) as [|e2|e2|]; try easy; injection E as <-;
          unfold add_ctx; now rewrite H.
    - pose proof (nofail_tag (C:=colour_ctx) (lit "Combo") s e0). congruence. }
  assert (H2 : forall A (p : parser colour_ctx A) s e, nofail p ->
            preceded (pbind p (fun _ => context (CcErr ColInvalidColonSeparator) (cut col_separator)))
              (cut (col_rgb v)) s = PFail e -> col_ctx_ok (e_ctx e)).
  { intros A p s e Hp. unfold preceded, pbind. specialize (Hp s).
    destruct (p s) as [r a|e0|e0|] eqn:Et; try easy; [|congruence].
    destruct (context _ _ r) as [r2 n|e1|e1|] eqn:E; try easy.
    + unfold cut. pose proof (errs_col_rgb v r2) as H. destruct (col_rgb v r2); congruence.
    + unfold context, cut in E. pose proof (errs_separator r) as H.
      destruct (col_separator r) as [|e3|e3|]; try easy; injection E as <-; intros [= <-];
        unfold add_ctx; now rewrite H. }
  intros s. unfold colour_parser, alt at 1.
  destruct (col_combo v s) as [| |e|] eqn:E1; try easy; [|now apply H1 in E1].
  unfold alt at 1. destruct (col_track v s) as [| |e2|] eqn:E2; try easy.
  2:{ unfold col_track, pmap in E2.
      destruct (preceded _ _ s) as [| |e4|] eqn:E3; try easy. injection E2 as <-.
      apply H2 in E3; [easy|apply nofail_tag]. }
  unfold alt at 1. destruct (col_border v s) as [| |e3|] eqn:E3; try easy.
  unfold col_border, pmap in E3.
  destruct (preceded _ _ s) as [| |e4|] eqn:E4; try easy. injection E3 as <-.
  apply H2 in E4; [easy|]. apply nofail_pbind; [apply nofail_tag|]. intros.
  apply nofail_pbind; [|intros; apply nofail_tag]. apply nofail_alt; apply nofail_pchar.
Qed.

Lemma colour_from_str_np v s p : colour_from_str v s <> RPanic p.
Proof.
  unfold colour_from_str, verbose_error_to_error.
  pose proof (colour_parser_safe v (trim s)) as Hs. pose proof (colour_errs v (trim s)) as He.
  destruct (colour_parser v (trim s)) as [r c|e|e|x]; try easy;
    unfold col_ctx_ok in He; destruct (e_ctx e) as [[ce|i]|]; try easy;
    destruct He as [e' He]; change min_version with 3%Z; now rewrite He.
Qed.
Lemma colours_from_str_np s v p : colours_from_str s v <> RPanic p.
Proof.
  unfold colours_from_str. destruct (old_version v); [easy|].
  pose proof (parse_lines_np (colour_from_str v) 0 (lines s) p) as H.
  destruct (parse_lines _ 0 (lines s)); cbn; try easy. intros [= ->].
  apply H; [|easy]. intros. apply colour_from_str_np.
Qed.
Lemma colour_from_str_none v s : colour_from_str v s <> ROk None.
Proof.
  unfold colour_from_str. destruct (verbose_error_to_error _) as [c|[e|i]|p]; try easy.
  now destruct (rgb_from_str i min_version).
Qed.

(** ** error lines *)
Lemma colours_error_line s v i e :
  colours_from_str s v = RErr (mk_line_err i e) ->
  exists n l, i = Z.of_nat n /\ nth_error (lines s) n = Some l
    /\ colours_from_str l v = RErr (mk_line_err 0 e)
    /\ forall m l', (m < n)%nat -> nth_error (lines s) m = Some l' ->
         exists x, colours_from_str l' v = ROk x.
Proof.
  unfold colours_from_str. destruct (old_version v) eqn:Ev; [easy|].
  destruct (parse_lines _ 0 (lines s)) as [|e0|] eqn:E; cbn; try easy. intros [= ->].
  apply parse_lines_err in E as (n & l & -> & Hn & Hb & Hf & Hm).
  exists n, l. repeat split; try easy.
  - now rewrite (parse_lines_alone_err _ s n l e).
  - intros m l' Hlt Hl'. destruct (parse_lines_alone_ok _ s m l' Hl' (Hm m l' Hlt Hl')) as [xs Hxs].
    rewrite Hxs. cbn. eauto.
Qed.

(** ** round trip *)

Lemma print_Z_digits z : (0 <= z)%Z -> all_digits (print_Z z) = true.
Proof.
  intros H. destruct z as [|p|p]; unfold print_Z; [easy|apply print_N_digits|lia].
Qed.
Lemma in_u8_range z : in_u8 z = true -> (0 <= z <= 255)%Z.
Proof. unfold in_u8, u8_max. lia. Qed.
Lemma in_i32_range z : in_i32 z = true -> (-2147483648 <= z <= 2147483647)%Z.
Proof. unfold in_i32, i32_min, i32_max. lia. Qed.

Lemma stops_space_digits s r : s <> [] -> all_digits s = true -> stops is_space0 (s ++ r) = true.
Proof.
  destruct s as [|c s]; [easy|]. intros _ H. unfold all_digits in H. cbn [forallb] in H.
  apply andb_true_iff in H as [H _]. apply is_digit_range in H. cbn [app stops].
  unfold is_space0. destruct (c =? 32) eqn:E1; [apply N.eqb_eq in E1; lia|].
  destruct (c =? 9) eqn:E2; [apply N.eqb_eq in E2; lia|]. easy.
Qed.
Lemma space0_none {C} s : stops is_space0 s = true -> @space0 C s = POk s [].
Proof. apply take_while_none. Qed.
Lemma space0_digits {C} z r : (0 <= z)%Z -> @space0 C (print_Z z ++ r) = POk (print_Z z ++ r) [].
Proof.
  intros H. apply space0_none, stops_space_digits; [apply print_Z_nonempty|now apply print_Z_digits].
Qed.
Lemma space0_comma {C} r : @space0 C (lit "," ++ r) = POk (lit "," ++ r) [].
Proof. now apply space0_none. Qed.

Lemma rgb_byte_print z r : in_u8 z = true -> stops is_digit r = true ->
  rgb_byte (print_Z z ++ r) = POk r z.
Proof.
  intros Hz Hr. pose proof (in_u8_range z Hz). unfold rgb_byte. eapply map_res_ok.
  - apply digit1_app; [apply print_Z_nonempty|apply print_Z_digits; lia|easy].
  - now apply parse_print_u8.
Qed.
Lemma rgb_print_parse c : rgb_ok c = true -> rgb_parser (rgb_to_string c) = POk [] c.
Proof.
  destruct c as [r g b]. unfold rgb_ok, rgb_to_string. cbn [rgb_r rgb_g rgb_b].
  rewrite !andb_true_iff. intros [[Hr Hg] Hb].
  pose proof (in_u8_range r Hr). pose proof (in_u8_range g Hg). pose proof (in_u8_range b Hb).
  unfold rgb_parser. eapply pbind_step.
  { eapply preceded_step; [apply space0_digits; lia|]. apply context_ok. now apply rgb_byte_print. }
  eapply pbind_step.
  { eapply preceded_step.
    - eapply pbind_step; [apply space0_comma|]. eapply pbind_step; [apply context_ok, tag_app|].
      apply space0_digits; lia.
    - apply context_ok. now apply rgb_byte_print. }
  eapply pbind_step.
  { eapply preceded_step.
    - eapply pbind_step; [apply space0_comma|]. eapply pbind_step; [apply context_ok, tag_app|].
      rewrite <- (app_nil_r (print_Z b)). apply space0_digits; lia.
    - apply context_ok. rewrite app_nil_r. unfold consume_rest_type. eapply map_res_ok; [easy|].
      now apply parse_print_u8. }
  easy.
Qed.
Lemma rgb_from_print c v : rgb_ok c = true -> rgb_from_str (rgb_to_string c) v = ROk (Some c).
Proof. intros H. unfold rgb_from_str. now rewrite rgb_print_parse. Qed.

Lemma rgb_head c r : rgb_ok c = true -> stops is_space0 (rgb_to_string c ++ r) = true.
Proof.
  destruct c as [x g b]. unfold rgb_ok, rgb_to_string. cbn [rgb_r rgb_g rgb_b].
  rewrite !andb_true_iff. intros [[Hr Hg] Hb]. pose proof (in_u8_range x Hr).
  rewrite <- app_assoc. apply stops_space_digits; [apply print_Z_nonempty|].
  apply print_Z_digits; lia.
Qed.
Lemma col_rgb_print v c : rgb_ok c = true -> col_rgb v (rgb_to_string c) = POk [] c.
Proof.
  intros H. unfold col_rgb. apply context_ok. eapply map_res_ok; [easy|].
  now rewrite rgb_from_print.
Qed.
Lemma col_separator_print c : rgb_ok c = true ->
  col_separator (lit " : " ++ rgb_to_string c) = POk (rgb_to_string c) (lit " ").
Proof.
  intros H. unfold col_separator. eapply pbind_step; [now apply (take_while_app is_space0 (lit " "))|].
  eapply pbind_step; [apply (tag_app (lit ":"))|].
  rewrite <- (app_nil_r (rgb_to_string c)). apply (take_while_app is_space0 (lit " ")); [easy|].
  now apply rgb_head.
Qed.

Lemma last_digit s : s <> [] -> all_digits s = true ->
  exists t d, s = t ++ [d] /\ is_digit d = true.
Proof.
  intros Hne H. destruct (exists_last Hne) as (t & d & ->). exists t, d. split; [easy|].
  unfold all_digits in H. rewrite forallb_app in H. cbn in H.
  apply andb_true_iff in H as [_ H]. now rewrite andb_true_r in H.
Qed.
Lemma rgb_last c : rgb_ok c = true -> exists t d, rgb_to_string c = t ++ [d] /\ is_digit d = true.
Proof.
  destruct c as [r g b]. unfold rgb_ok, rgb_to_string. cbn [rgb_r rgb_g rgb_b].
  rewrite !andb_true_iff. intros [[Hr Hg] Hb]. pose proof (in_u8_range b Hb).
  destruct (last_digit (print_Z b)) as (t & d & -> & Hd);
    [apply print_Z_nonempty|apply print_Z_digits; lia|].
  exists (print_Z r ++ lit "," ++ print_Z g ++ lit "," ++ t), d. split; [|easy].
  now rewrite <- !app_assoc.
Qed.
Lemma digit_not_ws d : is_digit d = true -> is_ws d = false.
Proof.
  intros H. apply is_digit_range in H. unfold is_ws.
  repeat match goal with |- context [?a <=? ?b] => destruct (N.leb_spec a b) end;
    repeat match goal with |- context [?a =? ?b] => destruct (N.eqb_spec a b) end; cbn; try easy; lia.
Qed.
Lemma trim_digit_end c s d : is_ws c = false -> is_digit d = true -> trim (c :: s ++ [d]) = c :: s ++ [d].
Proof. intros Hc Hd. apply trim_ends; [easy|now apply digit_not_ws]. Qed.

Lemma print_Z_clean z : clean_line (print_Z z) = true.
Proof.
  eapply forallb_impl; [|apply print_Z_chars]. intros c Hc. unfold num_char in Hc.
  apply orb_true_iff in Hc as [Hc|Hc]; [apply is_digit_range in Hc|apply N.eqb_eq in Hc];
  destruct (N.eqb_spec c 10), (N.eqb_spec c 13); cbn; try easy; lia.
Qed.
Lemma rgb_clean c : clean_line (rgb_to_string c) = true.
Proof.
  unfold rgb_to_string. unfold clean_line. rewrite !forallb_app.
  pose proof print_Z_clean as H. unfold clean_line in H. now rewrite !H.
Qed.
Lemma colour_clean c : clean_line (colour_to_string c) = true.
Proof.
  pose proof print_Z_clean as H. pose proof rgb_clean as H2. unfold clean_line in *.
  destruct c; unfold colour_to_string; rewrite !forallb_app, ?H, H2; easy.
Qed.
Lemma clean_plain s : clean_line s = true -> plain_line s = true.
Proof.
  intros H. unfold plain_line. rewrite (clean_no_nl s H). cbn.
  destruct (ends_with_char 13 s) eqn:E; [|easy].
  unfold ends_with_char in E. apply starts_with_char_spec in E as [t E].
  unfold clean_line in H. rewrite forallb_forall in H.
  assert (Hin : In 13 s) by (apply in_rev; rewrite E; now left). now apply H in Hin.
Qed.
Lemma colour_head c : exists x s, colour_to_string c = x :: s /\ is_ws x = false.
Proof. destruct c; eexists _, _; split; reflexivity. Qed.
Lemma colour_good c : good_line (colour_to_string c) = true.
Proof.
  unfold good_line. rewrite (clean_plain _ (colour_clean c)). cbn.
  rewrite is_blank_forallb. destruct (colour_head c) as (x & s & -> & Hx). cbn. now rewrite Hx.
Qed.

(** the text of a colour after its first character ends in a digit *)
Lemma colour_trim c : colour_ok c = true -> trim (colour_to_string c) = colour_to_string c.
Proof.
  intros H.
  assert (Hg : forall a x t d, rgb_to_string x = t ++ [d] -> is_digit d = true ->
             a <> [] -> (match a with c :: _ => is_ws c = false | [] => True end) ->
             trim (a ++ rgb_to_string x) = a ++ rgb_to_string x).
  { intros a x t d -> Hd Ha Hw. destruct a as [|c0 a]; [easy|]. cbn [app].
    rewrite app_assoc. now apply trim_digit_end. }
  destruct c as [n x|x|x]; cbn [colour_ok] in H.
  - apply andb_true_iff in H as [_ H]. destruct (rgb_last x H) as (t & d & E & Hd).
    unfold colour_to_string. rewrite !app_assoc. rewrite <- app_assoc. rewrite app_assoc.
    apply (Hg _ x t d E Hd); easy.
  - destruct (rgb_last x H) as (t & d & E & Hd). now apply (Hg _ x t d E Hd).
  - destruct (rgb_last x H) as (t & d & E & Hd). now apply (Hg _ x t d E Hd).
Qed.

Lemma colour_parse_print v c :
  colour_ok c = true -> combo_nonneg c = true -> colour_parser v (colour_to_string c) = POk [] c.
Proof.
  intros H Hn. destruct c as [n x|x|x]; cbn [colour_ok combo_nonneg] in *.
  - apply andb_true_iff in H as [Hi H]. apply Z.leb_le in Hn.
    unfold colour_parser. apply alt_l. unfold col_combo, colour_to_string. eapply pbind_step.
    { eapply preceded_step; [apply tag_app|]. apply context_ok, cut_ok. eapply map_res_ok.
      - apply digit1_app; [apply print_Z_nonempty|now apply print_Z_digits|easy].
      - now apply parse_print_i32. }
    apply pmap_step, cut_ok. eapply preceded_step; [apply context_ok; now apply col_separator_print|].
    now apply col_rgb_print.
  - unfold colour_parser. rewrite (alt_r _ _ _ (mkErr KTag None)) by easy.
    apply alt_l. unfold col_track, colour_to_string. apply pmap_step. eapply preceded_step.
    + eapply pbind_step.
      * change (lit "SliderTrackOverride : ") with (lit "SliderTrackOverride" ++ lit " : ").
        rewrite <- app_assoc. apply tag_app.
      * apply context_ok, cut_ok. now apply col_separator_print.
    + apply cut_ok. now apply col_rgb_print.
  - unfold colour_parser. rewrite (alt_r _ _ _ (mkErr KTag None)) by easy.
    rewrite (alt_r _ _ _ (mkErr KTag None)) by easy.
    apply alt_l. unfold col_border, colour_to_string. apply pmap_step. eapply preceded_step.
    + eapply pbind_step.
      * change (lit "SliderBorder : ") with (lit "Slider" ++ (66 :: lit "order") ++ lit " : ").
        rewrite <- !app_assoc. eapply pbind_step; [apply tag_app|].
        eapply pbind_step; [apply alt_l, pchar_app|]. apply tag_app.
      * apply context_ok, cut_ok. now apply col_separator_print.
    + apply cut_ok. now apply col_rgb_print.
Qed.
Lemma colour_from_print v c :
  colour_ok c = true -> combo_nonneg c = true ->
  colour_from_str v (colour_to_string c) = ROk (Some c).
Proof.
  intros H Hn. unfold colour_from_str. rewrite (colour_trim c H).
  now rewrite (colour_parse_print v c H Hn).
Qed.

Lemma flatten_some {A} (l : list A) : flatten_opt (map Some l) = l.
Proof. unfold flatten_opt. induction l as [|x l IH]; cbn in *; congruence. Qed.

Lemma colours_lines_ok v l :
  forallb colour_ok l = true -> forallb combo_nonneg l = true ->
  parse_lines (colour_from_str v) 0 (lines (join [c_nl] (map colour_to_string l))) = ROk (map Some l).
Proof.
  intros H Hn. rewrite forallb_forall in H, Hn.
  rewrite good_lines_join.
  2:{ apply forallb_forall. intros s Hs. apply in_map_iff in Hs as (c & <- & _). apply colour_good. }
  apply parse_lines_ok.
  assert (E : filter (fun s => negb (is_blank s)) (map colour_to_string l) = map colour_to_string l).
  { clear. induction l as [|c l IH]; [easy|]. cbn [map filter]. pose proof (colour_good c) as Hg.
    unfold good_line in Hg. apply andb_true_iff in Hg as [_ Hg]. now rewrite Hg, IH. }
  rewrite E. clear E. induction l as [|c l IH]; cbn; constructor.
  - apply colour_from_print; [apply H|apply Hn]; now left.
  - apply IH; intros; [apply H|apply Hn]; now right.
Qed.
Lemma colours_round_trip v l :
  old_version v = false -> forallb colour_ok l = true -> forallb combo_nonneg l = true ->
  exists s, colours_to_string l v = Some s /\ colours_from_str s v = ROk (Some l).
Proof.
  intros Hv H Hn. unfold colours_to_string, colours_from_str. rewrite Hv. eexists. split; [easy|].
  rewrite colours_lines_ok by easy. cbn. now rewrite flatten_some.
Qed.

(** A negative combo number is printed but not accepted. *)
Lemma colour_negative v n x :
  (n < 0)%Z -> colour_ok (Combo n x) = true ->
  colour_from_str v (colour_to_string (Combo n x)) = RErr ColInvalidComboCount.
Proof.
  intros Hn H. unfold colour_from_str. rewrite (colour_trim _ H). unfold colour_to_string.
  destruct n as [|p|p]; try lia. reflexivity.
Qed.
Lemma parse_lines_some_err {A E} (f : str -> res A E) i ls :
  (forall l q, In l ls -> f l <> RPanic q) ->
  (exists l e, In l ls /\ is_blank l = false /\ f l = RErr e) ->
  exists le, parse_lines f i ls = RErr le.
Proof.
  intros Hp (l & e & Hin & Hb & Hf).
  destruct (parse_lines f i ls) as [xs|le|p] eqn:Epl.
  - exfalso. apply parse_lines_ok in Epl.
    assert (Hin2 : In l (filter (fun l => negb (is_blank l)) ls)).
    { apply filter_In. now rewrite Hb. }
    clear -Epl Hin2 Hf. induction Epl as [|a x la lx H1 H2 IH]; [easy|].
    destruct Hin2 as [->|Hin2]; [congruence|auto].
  - eauto.
  - exfalso. revert Epl. apply parse_lines_np. intros. now apply Hp.
Qed.
Lemma colours_negative v l n x :
  old_version v = false -> forallb colour_ok l = true -> In (Combo n x) l -> (n < 0)%Z ->
  exists s e, colours_to_string l v = Some s /\ colours_from_str s v = RErr e.
Proof.
  intros Hv H Hin Hn. unfold colours_to_string, colours_from_str. rewrite Hv.
  assert (He : exists le, parse_lines (colour_from_str v) 0
                 (lines (join [c_nl] (map colour_to_string l))) = RErr le).
  { rewrite good_lines_join.
    2:{ apply forallb_forall. intros s Hs. apply in_map_iff in Hs as (c & <- & _). apply colour_good. }
    apply parse_lines_some_err; [intros; apply colour_from_str_np|].
    exists (colour_to_string (Combo n x)), ColInvalidComboCount. repeat split.
    - now apply in_map.
    - pose proof (colour_good (Combo n x)) as Hg. unfold good_line in Hg.
      apply andb_true_iff in Hg as [_ Hg]. now apply negb_true_iff.
    - apply colour_negative; [easy|]. rewrite forallb_forall in H. now apply H. }
  destruct He as [le He]. eexists _, le. split; [easy|]. now rewrite He.
Qed.

(** ** what is read is well formed *)
Lemma rgb_parser_ok s r c : rgb_parser s = POk r c -> rgb_ok c = true.
Proof.
  unfold rgb_parser. intros H.
  apply pbind_inv in H as (r1 & x & H1 & H). apply pbind_inv in H as (r2 & g & H2 & H).
  apply pbind_inv in H as (r3 & b & H3 & H). injection H as <- <-.
  unfold preceded in *. apply pbind_inv in H1 as (? & ? & _ & H1).
  apply pbind_inv in H2 as (? & ? & _ & H2). apply pbind_inv in H3 as (? & ? & _ & H3).
  apply context_inv, map_res_inv in H1 as (? & _ & H1). apply context_inv, map_res_inv in H2 as (? & _ & H2).
  apply context_inv in H3. apply map_res_inv in H3 as (? & _ & H3).
  apply parse_u8_range in H1, H2, H3. unfold rgb_ok. cbn. now rewrite H1, H2, H3.
Qed.
Lemma col_rgb_ok v s r c : col_rgb v s = POk r c -> rgb_ok c = true.
Proof.
  unfold col_rgb. intros H. apply context_inv, map_res_inv in H as (t & _ & H).
  unfold v_unwrap, rbind, rgb_from_str in H.
  destruct (rgb_parser t) as [r0 x|e|e|p] eqn:E; cbn in H; try (destruct (e_ctx e); easy); try easy.
  injection H as <-. now apply rgb_parser_ok in E.
Qed.
Lemma digit1_inv {C} s r a : @digit1 C s = POk r a -> all_digits a = true /\ a <> [].
Proof.
  unfold digit1. destruct (span _ s) as [x y] eqn:E. destruct x as [|c x]; [easy|].
  intros [= <- <-]. apply span_spec in E as (_ & H & _). easy.
Qed.
Lemma parse_i32_digits s z : all_digits s = true -> parse_i32 s = ROk z -> (0 <= z)%Z.
Proof.
  intros Hd H. destruct s as [|c s]; [easy|].
  unfold parse_i32 in H. rewrite parse_int_digits in H; [|easy|easy|easy].
  destruct (_ <=? _)%Z; [|easy]. assert (z = Z.of_N (value (c :: s))) by congruence. lia.
Qed.
Lemma colour_parser_ok v s r c :
  colour_parser v s = POk r c -> colour_ok c = true /\ combo_nonneg c = true.
Proof.
  unfold colour_parser. intros H. apply alt_inv in H as [H|H]; [|apply alt_inv in H as [H|H];
    [|apply alt_inv in H as [H|H]]].
  - unfold col_combo in H. apply pbind_inv in H as (r1 & n & H1 & H).
    apply pmap_inv in H as (x & H & ->). apply cut_inv in H. unfold preceded in *.
    apply pbind_inv in H as (? & ? & _ & H). apply col_rgb_ok in H.
    apply pbind_inv in H1 as (? & ? & _ & H1). apply context_inv, cut_inv, map_res_inv in H1 as (d & Hd & H1).
    apply digit1_inv in Hd as [Hd _]. cbn. rewrite H, (parse_i32_range _ _ H1).
    split; [easy|]. apply Z.leb_le. now apply parse_i32_digits in H1.
  - unfold col_track in H. apply pmap_inv in H as (x & H & ->). unfold preceded in H.
    apply pbind_inv in H as (? & ? & _ & H). apply cut_inv, col_rgb_ok in H. easy.
  - unfold col_border in H. apply pmap_inv in H as (x & H & ->). unfold preceded in H.
    apply pbind_inv in H as (? & ? & _ & H). apply cut_inv, col_rgb_ok in H. easy.
  - now apply context_inv in H.
Qed.
Lemma colour_from_str_ok v s c :
  colour_from_str v s = ROk (Some c) -> colour_ok c = true /\ combo_nonneg c = true.
Proof.
  unfold colour_from_str, verbose_error_to_error.
  destruct (colour_parser v (trim s)) as [r x|e|e|p] eqn:E; try easy.
  - intros [= <-]. now apply colour_parser_ok in E.
  - destruct (e_ctx e) as [[|i]|]; try easy. now destruct (rgb_from_str i min_version).
  - destruct (e_ctx e) as [[|i]|]; try easy. now destruct (rgb_from_str i min_version).
Qed.
Lemma colours_from_str_ok s v l :
  colours_from_str s v = ROk (Some l) ->
  forallb colour_ok l = true /\ forallb combo_nonneg l = true /\ old_version v = false.
Proof.
  unfold colours_from_str. destruct (old_version v); [easy|].
  destruct (parse_lines _ 0 (lines s)) as [xs| |] eqn:E; cbn; try easy. intros [= <-].
  apply parse_lines_ok in E. remember (filter _ _) as ls eqn:El. clear El.
  induction E as [|l0 x la lx H1 H2 IH]; [easy|]. destruct x as [c|]; cbn.
  - apply colour_from_str_ok in H1 as [Ha Hb]. destruct IH as (I1 & I2 & _).
    unfold flatten_opt in *. now rewrite Ha, Hb, I1, I2.
  - exact IH.
Qed.
(** Reading any text, printing the result and reading again gives the same value. *)
Lemma colours_reparse s v l :
  colours_from_str s v = ROk (Some l) ->
  exists t, colours_to_string l v = Some t /\ colours_from_str t v = ROk (Some l).
Proof.
  intros H. apply colours_from_str_ok in H as (H1 & H2 & H3). now apply colours_round_trip.
Qed.
