(** Reading a printed storyboard command. *)
From Coq Require Import String List NArith ZArith Bool Lia.
From Verif Require Import Str Num Nom Dec Parsers Unicode Storyboard Spec SpecWf SpecText SpecTypes SpecCmd
  StrFacts NumFacts NomFacts DecFacts FieldFacts LayoutFacts TriggerFacts TpFacts.
Import ListNotations.
Local Open Scope N_scope.

(** every field behind its comma *)
Definition tailf (fs : list str) : str := concat (map (fun f => 44 :: f) fs).
Lemma tailf_cons f fs : tailf (f :: fs) = 44 :: f ++ tailf fs.
Proof. easy. Qed.
Lemma tailf_app a b : tailf (a ++ b) = tailf a ++ tailf b.
Proof. unfold tailf. now rewrite map_app, concat_app. Qed.
Lemma commas_tailf h fs : commas (h :: fs) = h ++ tailf fs.
Proof.
  revert h. induction fs as [|f fs IH]; intros h; [cbn; now rewrite app_nil_r|].
  change (commas (h :: f :: fs)) with (h ++ 44 :: commas (f :: fs)). now rewrite IH.
Qed.
Lemma tailf_stops fs : stops (fun c => negb (c =? 44)) (tailf fs) = true.
Proof. now destruct fs. Qed.

Lemma alt_2 {C A} (p q : parser C A) s e X : p s = PErr e -> q s = X -> alt p q s = X.
Proof. unfold alt. now intros ->. Qed.

Section F.
  Context {C : Type}.
  Lemma comma_tailf f fs : @comma C (tailf (f :: fs)) = POk (f ++ tailf fs) (lit ",").
  Proof. rewrite tailf_cons. apply (tag_one 44). Qed.
  Lemma comma_field_tailf f fs : no_comma f = true -> @comma_field C (f ++ tailf fs) = POk (tailf fs) f.
  Proof. intros H. apply take_while_app; [easy|apply tailf_stops]. Qed.
  Lemma field_tailf {A E} (p : str -> res A E) f fs x :
    no_comma f = true -> p f = ROk x -> @comma_field_type C A E p (f ++ tailf fs) = POk (tailf fs) x.
  Proof. intros H Hp. eapply map_res_ok; [now apply comma_field_tailf|easy]. Qed.
  Lemma vfield_tailf {A E} (p : str -> res (option A) E) f fs x :
    no_comma f = true -> p f = ROk (Some x) ->
    @comma_field_versioned_type C A E p (f ++ tailf fs) = POk (tailf fs) x.
  Proof. intros H Hp. eapply map_res_ok; [now apply comma_field_tailf|]. unfold v_unwrap. now rewrite Hp. Qed.
End F.

Lemma cmd_dec_parse {E} d : cmd_dec d = true ->
  no_comma (print_decimal d) = true /\ @parse_decimal E (print_decimal d) = ROk d.
Proof.
  unfold cmd_dec. rewrite andb_true_iff. intros [Hw Hc]. split; [easy|]. unfold parse_decimal.
  now rewrite decimal_print_parse.
Qed.
Lemma c_dec_tailf d fs : cmd_dec d = true -> c_dec (print_decimal d ++ tailf fs) = POk (tailf fs) d.
Proof. intros H. destruct (@cmd_dec_parse unit d H). now apply field_tailf. Qed.
Lemma c_field_step {A} m i (p : cp A) f fs x :
  p (f ++ tailf fs) = POk (tailf fs) x -> c_field m i p (tailf (f :: fs)) = POk (tailf fs) x.
Proof.
  intros H. unfold c_field. eapply preceded_step.
  - apply context_ok, comma_tailf.
  - now apply context_ok.
Qed.

(** ** safety, for [many0] *)
Lemma c_dec_total : total c_dec.
Proof. apply dec_field_total. Qed.

Lemma easing_num e : easing_ok e = true ->
  in_i32 (easing_to_Z e) = true /\ easing_of_Z (easing_to_Z e) = e.
Proof.
  destruct e; try (split; reflexivity). cbn [easing_ok easing_to_Z]. rewrite andb_true_iff. intros [H1 H2].
  split; [easy|]. unfold easing_of_Z.
  destruct z as [|p|p]; try easy; cbn in H2.
  do 6 (destruct p as [p|p|]; try easy).
Qed.
Lemma print_Z_head z : exists c t, print_Z z = c :: t /\ num_char c = true.
Proof.
  destruct (print_Z z) as [|c t] eqn:E; [now destruct (print_Z_nonempty z)|]. exists c, t. split; [easy|].
  pose proof (print_Z_chars z) as H. rewrite E in H. cbn in H. now apply andb_true_iff in H.
Qed.
Lemma num_char_not_comma c : num_char c = true -> (44 =? c) = false /\ (c =? 44) = false.
Proof. intros H. split; apply N.eqb_neq; intros K; subst c; easy. Qed.
Lemma comma_num {C} z t : @comma C (print_Z z ++ t) = PErr (mkErr KTag None).
Proof.
  destruct (print_Z_head z) as (c & u & -> & Hc). unfold comma, tag. change (lit ",") with [44].
  cbn [app strip_prefix]. now destruct (num_char_not_comma c Hc) as [-> _].
Qed.
Lemma comma2_num {C} z t : @tag C (lit ",,") (44 :: print_Z z ++ t) = PErr (mkErr KTag None).
Proof.
  destruct (print_Z_head z) as (c & u & -> & Hc). unfold tag. change (lit ",,") with [44; 44].
  cbn [app strip_prefix]. rewrite N.eqb_refl. now destruct (num_char_not_comma c Hc) as [-> _].
Qed.
Lemma num_char_not_ws c : num_char c = true -> is_ws c = false.
Proof.
  unfold num_char. rewrite orb_true_iff, N.eqb_eq. intros [H | ->]; [|easy].
  unfold is_digit in H. apply andb_true_iff in H as [H1 H2]. apply N.leb_le in H1, H2.
  assert (c = 48 \/ c = 49 \/ c = 50 \/ c = 51 \/ c = 52 \/ c = 53 \/ c = 54 \/ c = 55 \/ c = 56 \/ c = 57)
    as K by lia.
  decompose [or] K; subst; reflexivity.
Qed.
Lemma print_Z_not_blank z : is_blank (print_Z z) = false.
Proof.
  rewrite is_blank_forallb. destruct (print_Z_head z) as (c & t & -> & H). cbn.
  now rewrite num_char_not_ws.
Qed.

Lemma c_easing_step e fs : easing_ok e = true ->
  c_easing (tailf (print_Z (easing_to_Z e) :: fs)) = POk (tailf fs) e.
Proof.
  intros H. destruct (easing_num e H) as [Hi He]. unfold c_easing. apply cut_ok.
  eapply preceded_step; [apply context_ok, comma_tailf|]. apply context_ok. unfold map_opt.
  rewrite (field_tailf parse_i32 _ _ (easing_to_Z e)); [now rewrite He|apply print_Z_no_comma|now apply parse_print_i32].
Qed.
Lemma c_start_step z fs : in_i32 z = true ->
  c_start_time (tailf (print_Z z :: fs)) = POk (tailf fs) (Some z).
Proof.
  intros H. unfold c_start_time. eapply preceded_step; [apply context_ok, comma_tailf|].
  apply context_ok, pmap_step, field_tailf; [apply print_Z_no_comma|now apply parse_print_i32].
Qed.
Lemma c_end_step et fs : opt_ok in_i32 et = true ->
  c_end_time (tailf (time_field et :: fs)) = POk (tailf fs) et.
Proof.
  intros H. unfold c_end_time. eapply preceded_step; [apply context_ok, cut_ok, comma_tailf|].
  destruct et as [z|]; cbn [time_field].
  - unfold alt, pmap at 1, verify. rewrite comma_field_tailf by apply print_Z_no_comma.
    rewrite print_Z_not_blank. cbn. apply cut_ok, pmap_step, context_ok, field_tailf;
      [apply print_Z_no_comma|now apply parse_print_i32].
  - apply alt_l, (pmap_step (fun _ => None) _ _ _ []), verify_ok; [|easy]. now apply (comma_field_tailf []).
Qed.
Lemma easing_times_step e st et f fs : easing_ok e = true -> times_ok st et = true ->
  c_easing_times (tailf (print_Z (easing_to_Z e) :: time_field st :: time_field et :: f :: fs))
  = POk (tailf (f :: fs)) (e, (st, et)).
Proof.
  intros He Ht. unfold c_easing_times, pair at 1. eapply pbind_step; [now apply c_easing_step|].
  apply pmap_step. unfold times_ok in Ht. rewrite !andb_true_iff in Ht. destruct Ht as [[H1 H2] H3].
  destruct st as [z|].
  - cbn [time_field] in *. eapply alt_2.
    + apply pmap_err, pbind_err. rewrite tailf_cons. apply comma2_num.
    + eapply pbind_step; [now apply c_start_step|]. now apply pmap_step, c_end_step.
  - destruct et; [easy|]. apply alt_l. cbn [time_field].
    eapply (pmap_step (fun _ => (None, None))). apply (pbind_step _ _ _ (tailf (f :: fs)) (lit ",,")); [reflexivity|].
    apply pmap_step. unfold peek. now rewrite comma_tailf.
Qed.

(** ** lists of values *)
Lemma safe_preceded_comma {A} (p : cp A) : safe p -> safe (preceded comma p).
Proof. intros H. now apply preceded_safe; [apply comma_safe|]. Qed.
Lemma many_fields {A} (p : cp A) (print : A -> str) l : safe p ->
  (forall x fs, In x l -> p (print x ++ tailf fs) = POk (tailf fs) x) ->
  many0 (preceded comma p) (tailf (map print l)) = POk [] l.
Proof.
  intros Hs. induction l as [|x l IH]; intros Hp; [eapply many0_stop; reflexivity|]. cbn [map].
  erewrite many0_cons.
  - rewrite IH; [reflexivity|]. intros. apply Hp. now right.
  - now apply safe_preceded_comma.
  - eapply preceded_step; [apply comma_tailf|]. apply Hp. now left.
  - rewrite tailf_cons. cbn [length]. rewrite app_length. lia.
Qed.
Lemma c_dec_safe : safe c_dec.
Proof. apply total_safe, c_dec_total. Qed.

Lemma one_step header m i ic e st et x l :
  easing_ok e = true -> times_ok st et = true -> forallb cmd_dec (x :: l) = true ->
  c_one header m i ic (header ++ tailf ([print_Z (easing_to_Z e); time_field st; time_field et]
                                        ++ map print_decimal (x :: l)))
  = POk [] ((e, (st, et)), x, l).
Proof.
  intros He Ht Hd. rewrite forallb_forall in Hd. unfold c_one.
  eapply preceded_step; [apply tag_app|]. apply cut_ok. cbn [app map].
  eapply pbind_step; [now apply easing_times_step|].
  eapply pbind_step; [apply c_field_step, c_dec_tailf, Hd; now left|].
  apply (pmap_step (fun l => (e, (st, et), x, l))). eapply terminated_step.
  - apply many_fields; [apply c_dec_safe|]. intros y fs Hy. apply c_dec_tailf, Hd. now right.
  - apply context_ok. reflexivity.
Qed.

Lemma c_cont_two_safe : safe (pair c_dec (alt (pmap (fun _ => None) eof)
   (cut (pmap Some (preceded comma c_dec))))).
Proof.
  apply pair_safe; [apply c_dec_safe|]. apply alt_safe; [apply pmap_safe, eof_safe|].
  apply cut_safe, pmap_safe, safe_preceded_comma, c_dec_safe.
Qed.
Lemma cont_two_step l : pairs_ok l = true -> c_cont_two (tailf (concat (map pair_fields l))) = POk [] l.
Proof.
  unfold c_cont_two. induction l as [|[x y] l IH]; intros H; [eapply many0_stop; reflexivity|].
  cbn [pairs_ok] in H. rewrite !andb_true_iff in H. destruct H as [[[Hx Hy] Hl] H].
  cbn [map concat]. unfold pair_fields at 1. cbn [fst snd]. erewrite many0_cons.
  - rewrite IH by easy. reflexivity.
  - apply safe_preceded_comma, c_cont_two_safe.
  - eapply preceded_step; [apply comma_tailf|]. eapply pbind_step; [now apply c_dec_tailf|].
    apply (pmap_step (fun b => (x, b))). destruct y as [y|].
    + eapply alt_2; [reflexivity|]. apply cut_ok, pmap_step. cbn [app].
      eapply preceded_step; [apply comma_tailf|]. now apply c_dec_tailf.
    + destruct l; [|easy]. reflexivity.
  - rewrite tailf_app, app_length, tailf_cons. cbn [length]. lia.
Qed.
Lemma two_step m1 i1 m2 i2 ic e st et c :
  easing_ok e = true -> times_ok st et = true -> two_ok c = true ->
  c_two_body m1 i1 m2 i2 ic
    (tailf ([print_Z (easing_to_Z e); time_field st; time_field et]
            ++ [print_decimal (fst (ct_start c)); print_decimal (snd (ct_start c))]
            ++ concat (map pair_fields (ct_rest c))))
  = POk [] ((e, (st, et)), c).
Proof.
  intros He Ht Hc. destruct c as [[x y] l]. unfold two_ok in Hc. cbn [ct_start ct_rest fst snd] in *.
  rewrite !andb_true_iff in Hc. destruct Hc as [[Hx Hy] Hl].
  unfold c_two_body. apply cut_ok. cbn [app].
  eapply pbind_step; [now apply easing_times_step|].
  eapply pbind_step; [now apply c_field_step, c_dec_tailf|].
  eapply pbind_step; [now apply c_field_step, c_dec_tailf|].
  apply (pmap_step (fun l => (e, (st, et), mk_cont (x, y) l))).
  eapply terminated_step; [now apply cont_two_step|]. apply context_ok. reflexivity.
Qed.

(** ** colours *)
Lemma c_u8_tailf z fs : in_u8 z = true -> c_u8 (print_Z z ++ tailf fs) = POk (tailf fs) z.
Proof. intros H. apply field_tailf; [apply print_Z_no_comma|now apply parse_print_u8]. Qed.
Lemma c_u8_safe : safe c_u8.
Proof. apply comma_field_type_safe, np_u8. Qed.
Lemma c_cont_colour_safe : safe c_cont_colour.
Proof. apply alt_safe; [apply pmap_safe, eof_safe|]. apply pmap_safe, safe_preceded_comma, c_u8_safe. Qed.
Definition c_rgb : cp u8x3 :=
  pbind c_u8 (fun r => pbind c_cont_colour (fun g => pmap (fun b => (r, g, b)) c_cont_colour)).
Lemma c_rgb_safe : safe c_rgb.
Proof.
  apply pbind_safe; [apply c_u8_safe|]. intros. apply pbind_safe; [apply c_cont_colour_safe|]. intros.
  apply pmap_safe, c_cont_colour_safe.
Qed.
Lemma cont_colour_some z fs : in_u8 z = true ->
  c_cont_colour (tailf (print_Z z :: fs)) = POk (tailf fs) (Some z).
Proof.
  intros H. unfold c_cont_colour. eapply alt_2; [reflexivity|]. apply pmap_step.
  eapply preceded_step; [apply comma_tailf|]. now apply c_u8_tailf.
Qed.
Lemma rgbs_step l : rgbs_ok l = true ->
  many0 (preceded comma c_rgb) (tailf (concat (map rgb_fields l))) = POk [] l.
Proof.
  induction l as [|[[r g] b] l IH]; intros H; [eapply many0_stop; reflexivity|].
  cbn [rgbs_ok] in H. rewrite !andb_true_iff in H. destruct H as [[[[[Hr Hg] Hb] H1] H2] H].
  cbn [map concat]. unfold rgb_fields at 1. erewrite many0_cons.
  - rewrite IH by easy. reflexivity.
  - apply safe_preceded_comma, c_rgb_safe.
  - eapply preceded_step; [apply comma_tailf|]. eapply pbind_step; [now apply c_u8_tailf|].
    destruct g as [g|], b as [b|]; try easy; cbn [app].
    + eapply pbind_step; [now apply cont_colour_some|].
      apply (pmap_step (fun b => (r, Some g, b))). now apply cont_colour_some.
    + destruct l; [|easy]. eapply pbind_step; [now apply cont_colour_some|]. reflexivity.
    + destruct l; [|easy]. reflexivity.
  - rewrite tailf_app, app_length, tailf_cons. cbn [length]. lia.
Qed.
Lemma rgb_safe' : safe (preceded comma c_rgb).
Proof. apply safe_preceded_comma, c_rgb_safe. Qed.
Lemma colour_step e st et c :
  easing_ok e = true -> times_ok st et = true ->
  (let '(r, g, b) := sbc_start c in in_u8 r && in_u8 g && in_u8 b) = true -> rgbs_ok (sbc_rest c) = true ->
  c_colour (lit "C" ++ tailf (let '(r, g, b) := sbc_start c in
              [print_Z (easing_to_Z e); time_field st; time_field et]
              ++ [print_Z r; print_Z g; print_Z b] ++ concat (map rgb_fields (sbc_rest c))))
  = POk [] (mk_cmd st (PColour e et c)).
Proof.
  destruct c as [[[r g] b] l]. cbn [sbc_start sbc_rest]. intros He Ht Hc Hl.
  rewrite !andb_true_iff in Hc. destruct Hc as [[Hr Hg] Hb]. unfold c_colour.
  eapply preceded_step; [apply tag_app|]. apply cut_ok. cbn [app].
  eapply pbind_step; [now apply easing_times_step|]. cbv beta iota.
  eapply pbind_step; [now apply c_field_step, c_u8_tailf|].
  eapply pbind_step; [now apply c_field_step, c_u8_tailf|].
  eapply pbind_step; [now apply c_field_step, c_u8_tailf|].
  apply (pmap_step (fun l => mk_cmd st (PColour e et (mk_sbc (r, g, b) l)))).
  eapply terminated_step; [now apply rgbs_step|]. apply context_ok. reflexivity.
Qed.

(** ** parameters *)
Lemma param_parse p : no_comma (parameter_letter p) = true
  /\ parameter_from_str (parameter_letter p) = ROk (Some p).
Proof. now destruct p. Qed.
Lemma param_tailf p fs : @comma_field_versioned_type cmd_err _ _ parameter_from_str (parameter_letter p ++ tailf fs)
  = POk (tailf fs) p.
Proof. destruct (param_parse p). now apply vfield_tailf. Qed.
Lemma np_param : np parameter_from_str.
Proof.
  intros s x. unfold parameter_from_str.
  repeat match goal with |- context [str_eqb ?a ?b] => destruct (str_eqb a b) end; easy.
Qed.
Lemma param_some s : parameter_from_str s <> ROk None.
Proof.
  unfold parameter_from_str.
  repeat match goal with |- context [str_eqb ?a ?b] => destruct (str_eqb a b) end; easy.
Qed.
Lemma parameter_step e st et p l : easing_ok e = true -> times_ok st et = true ->
  c_parameter (lit "P" ++ tailf ([print_Z (easing_to_Z e); time_field st; time_field et]
                                 ++ map parameter_letter (p :: l)))
  = POk [] (mk_cmd st (PParameter e et p l)).
Proof.
  intros He Ht. unfold c_parameter. eapply preceded_step; [apply tag_app|]. apply cut_ok. cbn [app map].
  eapply pbind_step; [now apply easing_times_step|]. cbv beta iota.
  eapply pbind_step; [apply c_field_step, param_tailf|].
  apply (pmap_step (fun l => mk_cmd st (PParameter e et p l))). eapply terminated_step.
  - apply many_fields; [apply comma_field_versioned_type_safe; [apply np_param|apply param_some]|].
    intros. apply param_tailf.
  - apply context_ok. reflexivity.
Qed.

(** ** loops and triggers *)
Lemma loop_step st n : opt_ok in_i32 st = true -> in_u32 n = true ->
  c_loop (lit "L" ++ tailf [time_field st; print_Z n]) = POk [] (mk_cmd st (PLoop n [])).
Proof.
  intros Hs Hn. unfold c_loop. apply (pmap_step (fun '(st, n) => mk_cmd st (PLoop n [])) _ _ _ (st, n)).
  eapply preceded_step; [apply tag_app|]. apply cut_ok.
  apply (pbind_step _ _ _ (tailf [print_Z n]) st).
  - destruct st as [z|]; cbn [time_field].
    + eapply alt_2; [|now apply c_start_step]. apply pmap_err. unfold pair, pbind. rewrite comma_tailf.
      apply pmap_err. unfold peek. rewrite comma_num. reflexivity.
    + now apply alt_l.
  - apply pmap_step. unfold c_field. eapply preceded_step; [apply context_ok, comma_tailf|].
    apply context_ok. change (tailf []) with (@nil N). rewrite app_nil_r. eapply map_res_ok; [apply prest_ok|]. now apply parse_print_u32.
Qed.

Lemma trigger_no_comma t : trigger_ok t = true -> no_comma (trigger_type_to_string t) = true.
Proof.
  intros _. destruct t as [ss ass ad n| |]; try easy. cbn [trigger_type_to_string].
  rewrite !no_comma_app.
  destruct ss as [[]|], ass as [[]|], ad as [[]|], n; cbn [opt_str]; rewrite ?print_Z_no_comma; reflexivity.
Qed.
Lemma tz_not_blank z fs : is_blank (tailf (print_Z z :: fs)) = false.
Proof. now rewrite tailf_cons, is_blank_forallb. Qed.
Lemma i32_field {C} z fs : in_i32 z = true ->
  @comma_field_type C _ _ parse_i32 (print_Z z ++ tailf fs) = POk (tailf fs) z.
Proof. intros H. apply field_tailf; [apply print_Z_no_comma|now apply parse_print_i32]. Qed.
Lemma i32_rest {C} z : in_i32 z = true -> @consume_rest_type C _ _ parse_i32 (print_Z z ++ tailf []) = POk [] z.
Proof.
  intros H. change (tailf []) with (@nil N). rewrite app_nil_r. eapply map_res_ok; [apply prest_ok|]. now apply parse_print_i32.
Qed.
Definition trigger_tail : cp (option Z * option Z) :=
  alt c_trigger_all (alt c_trigger_group (alt c_trigger_nothing c_trigger_end)).
Lemma trigger_tail_step et g : opt_ok in_i32 et = true -> opt_ok in_i32 g = true ->
  trigger_tail (tailf (optional_end [et; g])) = POk [] (et, g).
Proof.
  intros He Hg. unfold trigger_tail. destruct et as [e|], g as [g|]; cbn [optional_end time_field opt_ok] in *.
  - apply alt_l. unfold c_trigger_all. eapply pbind_step.
    + eapply preceded_step; [apply comma_tailf|]. now apply i32_field.
    + apply (pmap_step (fun g => (Some e, Some g))). eapply preceded_step; [apply comma_tailf|].
      apply context_ok, cut_ok. now apply i32_rest.
  - eapply alt_2.
    { unfold c_trigger_all, pbind at 1, preceded at 1, pbind at 1. rewrite comma_tailf, i32_field by easy. reflexivity. }
    eapply alt_2.
    { unfold c_trigger_group. apply pmap_err. unfold preceded, pbind, pair, pbind. rewrite comma_tailf.
      unfold pmap. rewrite comma_num. reflexivity. }
    eapply alt_2.
    { unfold c_trigger_nothing, alt, pmap, verify, prest. rewrite tz_not_blank. unfold kerr.
      rewrite tailf_cons. destruct (print_Z_head e) as (c & t & -> & Hc). reflexivity. }
    unfold c_trigger_end. apply (pmap_step (fun e => (Some e, None))).
    eapply preceded_step; [apply comma_tailf|]. apply context_ok, cut_ok. now apply i32_rest.
  - eapply alt_2; [reflexivity|]. apply alt_l. unfold c_trigger_group.
    apply (pmap_step (fun g => (None, Some g))). eapply preceded_step.
    { eapply pbind_step; [apply comma_tailf|]. apply pmap_step. cbn [app]. apply comma_tailf. }
    apply context_ok, cut_ok. now apply i32_rest.
  - reflexivity.
Qed.
Lemma trigger_step t st et g : trigger_ok t = true -> opt_ok in_i32 st = true -> opt_ok in_i32 et = true ->
  opt_ok in_i32 g = true ->
  c_trigger (lit "T" ++ tailf (trigger_type_to_string t :: optional_end [st; et; g]))
  = POk [] (mk_cmd st (PTrigger t et g [])).
Proof.
  intros Ht Hs He Hg. unfold c_trigger.
  apply (pmap_step (fun '(t, (st, (e, g))) => mk_cmd st (PTrigger t e g [])) _ _ _ (t, (st, (et, g)))).
  eapply preceded_step.
  { eapply pbind_step; [apply tag_app|]. apply pmap_step, context_ok, cut_ok, comma_tailf. }
  apply cut_ok. unfold pair at 1. eapply pbind_step.
  { apply context_ok. eapply map_res_ok; [apply comma_field_tailf, trigger_no_comma, Ht|].
    unfold v_unwrap. now rewrite (proj2 (trigger_print t Ht)). }
  apply (pmap_step (fun b => (t, b))).
  apply (pbind_step _ _ _ (tailf (optional_end [et; g])) st).
  - destruct st as [z|]; cbn [opt_ok] in *.
    + change (optional_end [Some z; et; g]) with (print_Z z :: optional_end [et; g]).
      eapply alt_2.
      { apply pmap_err. unfold pair, pbind. rewrite comma_tailf. apply pmap_err. unfold peek.
        rewrite comma_num. reflexivity. }
      eapply alt_2; [|now apply c_start_step]. unfold pmap, verify, prest. now rewrite tz_not_blank.
    + destruct (optional_end [et; g]) as [|f fs] eqn:E.
      * cbn [optional_end] in *. rewrite E. now apply alt_2 with (e := mkErr KTag None).
      * replace (optional_end [None; et; g]) with ([] :: f :: fs)
          by (change (optional_end [None; et; g])
              with (match optional_end [et; g] with [] => [] | fs => [] :: fs end); now rewrite E).
        apply alt_l. rewrite tailf_cons. cbn [app].
        apply (pmap_step (fun _ => None) _ _ _ (lit ",", lit ",")).
        eapply pbind_step; [apply (tag_one 44)|]. apply pmap_step. unfold peek. now rewrite comma_tailf.
  - apply (pmap_step (fun b => (st, b))). now apply trigger_tail_step.
Qed.
