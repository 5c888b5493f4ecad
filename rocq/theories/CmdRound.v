(** Storyboard commands: the printed text, the round trip and what the reader produces. *)
From Coq Require Import String List NArith ZArith Bool Lia.
From Verif Require Import Str Num Nom Dec Parsers Unicode Storyboard Spec SpecWf SpecText SpecTypes SpecCmd
  StrFacts NumFacts NomFacts DecFacts FieldFacts LayoutFacts TriggerFacts TpFacts CmdFacts.
Import ListNotations.
Local Open Scope N_scope.

(** ** the printed text *)
Definition cmd_ez (c : command) : Z := match cmd_easing c with Some e => easing_to_Z e | None => 0%Z end.
Lemma join_tailf h fs : join (lit ",") (h :: fs) = h ++ tailf fs.
Proof. now rewrite <- commas_join, commas_tailf. Qed.
Lemma continuing_tailf {T} (p : T -> str) l : continuing_to_string p l = tailf (map p l).
Proof. destruct l as [|x l]; [easy|]. cbn [continuing_to_string map]. now rewrite join_tailf. Qed.
Lemma flat_map_same {A B} (f g : A -> list B) l : (forall x, f x = g x) -> flat_map f l = concat (map g l).
Proof. intros H. rewrite flat_map_concat_map. f_equal. now apply map_ext. Qed.
Lemma cont_text (c : continuing decimal) : cont_to_string print_decimal c
  = print_decimal (fst (ct_start c)) ++ tailf (print_decimal (snd (ct_start c)) :: concat (map pair_fields (ct_rest c))).
Proof.
  unfold cont_to_string. cbn [app]. rewrite join_tailf. do 3 f_equal. now apply flat_map_same.
Qed.
Lemma sbc_text c : sbc_to_string c
  = let '(r, g, b) := sbc_start c in
    print_Z r ++ tailf ([print_Z g; print_Z b] ++ concat (map rgb_fields (sbc_rest c))).
Proof.
  unfold sbc_to_string. destruct (sbc_start c) as [[r g] b]. cbn [app map]. rewrite join_tailf.
  do 4 f_equal. induction (sbc_rest c) as [|[[x y] z] l IH]; [easy|]. cbn [flat_map map concat].
  rewrite map_app, IH. f_equal. destruct y, z; easy.
Qed.
Lemma timed_text h e st et f fs :
  h ++ lit "," ++ (print_Z e ++ lit "," ++ opt_Z st ++ lit "," ++ opt_Z et ++ lit "," ++ f ++ tailf fs)
  = commas (h :: [print_Z e; time_field st; time_field et] ++ f :: fs).
Proof. rewrite commas_tailf. cbn [app]. rewrite !tailf_cons. now destruct st, et. Qed.
Lemma cmd_print c : cmd_to_string [] c = commas (cmd_fields (cmd_ez c) c).
Proof.
  unfold cmd_to_string, cmd_ez, cmd_parts, cmd_fields, cmd_easing, variable_replace, subst_vars, easing_to_string.
  destruct c as [st [e et s l|e et x|e et s l|e et s l|e et s l|e et x|e et s l|e et x|e et p l|n cs|t et g cs]];
    cbn [cmd_props cmd_start]; rewrite ?continuing_tailf, ?cont_text, ?sbc_text;
    try (destruct (sbc_start x) as [[r g] b]); try apply timed_text.
  - rewrite commas_tailf, !tailf_cons. destruct st; cbn [time_field opt_Z opt_str]; now rewrite app_nil_r.
  - rewrite commas_tailf, !tailf_cons.
    destruct st, et, g; cbn [optional_end time_field is_some is_none negb orb opt_Z opt_str app];
      rewrite ?tailf_cons; cbn [app]; rewrite ?app_nil_r, <- ?app_assoc; try reflexivity.
Qed.
Lemma easing_number_to_Z e : easing_number e (easing_to_Z e).
Proof. destruct e; cbn; try reflexivity; split; (lia || reflexivity). Qed.
Lemma easing_table_nodup : NoDup easing_table.
Proof. repeat (constructor; [cbn; intros H; decompose [or] H; congruence || easy|]). constructor. Qed.
Lemma easing_number_unique e z : easing_number e z -> z = easing_to_Z e.
Proof.
  pose proof (easing_number_to_Z e) as H. revert H.
  assert (K : forall z', (0 <= z')%Z /\ nth_error easing_table (Z.to_nat z') = Some e ->
                         (0 <= z)%Z /\ nth_error easing_table (Z.to_nat z) = Some e -> z = z').
  { intros z' [H1 H2] [H3 H4]. apply Z2Nat.inj; try easy.
    apply (proj1 (NoDup_nth_error easing_table) easing_table_nodup); [|congruence].
    apply nth_error_Some. congruence. }
  destruct e; try (intros H1 H2; now apply K). easy.
Qed.
Lemma cmd_text_iff c s : cmd_text c s <-> s = cmd_to_string [] c.
Proof.
  rewrite cmd_print. unfold cmd_text. split.
  - intros (ez & H & ->). unfold cmd_ez. destruct (cmd_easing c) as [e|] eqn:E.
    + now rewrite (easing_number_unique _ _ (H e eq_refl)).
    + unfold cmd_easing, cmd_fields in *. destruct (cmd_props c); easy.
  - intros ->. exists (cmd_ez c). split; [|easy]. intros e He. unfold cmd_ez. rewrite He.
    apply easing_number_to_Z.
Qed.

(** ** reading it back *)
Lemma tag_fails {C} h s : strip_prefix h s = None -> @tag C h s = PErr (mkErr KTag None).
Proof. unfold tag. now intros ->. Qed.
Lemma one_fails h m i ic s : strip_prefix h s = None -> c_one h m i ic s = PErr (mkErr KTag None).
Proof. intros H. unfold c_one. now apply pbind_err, tag_fails. Qed.
Lemma cmd_bare_parse c : cmd_ok c = true ->
  cmd_parser (cmd_to_string [] c) = POk [] (bare c).
Proof.
  intros H. rewrite cmd_print. unfold cmd_fields, cmd_ok, cmd_ez, cmd_easing, bare in *.
  unfold cmd_parser.
  destruct c as [st [e et s l|e et x|e et s l|e et s l|e et s l|e et x|e et s l|e et x|e et p l|n cs|t et g cs]];
    cbn [cmd_props cmd_start cmd_set_subs] in *;
    try (destruct (sbc_start x) as [[r g] b] eqn:Ex);
    rewrite ?andb_true_iff in H; rewrite commas_tailf;
    (match goal with |- preceded _ _ ?s = _ => apply (preceded_step _ _ _ s []); [reflexivity|] end).
  - (* fade *) destruct H as [[H1 H2] H3].
    do 4 (eapply alt_2; [reflexivity|]). apply alt_l.
    apply (pmap_step (fun '((e, (st, et)), x, l) => mk_cmd st (PFade e et x l)) _ _ _ (e, (st, et), s, l)).
    now apply one_step.
  - (* move *) destruct H as [[H1 H2] H3]. apply alt_l.
    apply (pmap_step (fun '((e, (st, et)), x) => mk_cmd st (PMove e et x)) _ _ _ (e, (st, et), x)).
    eapply preceded_step; [|now apply two_step].
    eapply pbind_step; [apply tag_app|]. apply pmap_step. unfold peek. cbn [app]. now rewrite comma_tailf.
  - (* move_x *) destruct H as [[H1 H2] H3].
    do 8 (eapply alt_2; [reflexivity|]). apply alt_l.
    apply (pmap_step (fun '((e, (st, et)), x, l) => mk_cmd st (PMoveX e et x l)) _ _ _ (e, (st, et), s, l)).
    now apply one_step.
  - (* move_y *) destruct H as [[H1 H2] H3].
    do 6 (eapply alt_2; [reflexivity|]). apply alt_l.
    apply (pmap_step (fun '((e, (st, et)), x, l) => mk_cmd st (PMoveY e et x l)) _ _ _ (e, (st, et), s, l)).
    now apply one_step.
  - (* scale *) destruct H as [[H1 H2] H3].
    do 2 (eapply alt_2; [reflexivity|]). apply alt_l.
    apply (pmap_step (fun '((e, (st, et)), x, l) => mk_cmd st (PScale e et x l)) _ _ _ (e, (st, et), s, l)).
    now apply one_step.
  - (* vector scale *) destruct H as [[H1 H2] H3].
    do 3 (eapply alt_2; [reflexivity|]). apply alt_l.
    apply (pmap_step (fun '((e, (st, et)), x) => mk_cmd st (PVectorScale e et x)) _ _ _ (e, (st, et), x)).
    eapply preceded_step; [apply tag_app|]. now apply two_step.
  - (* rotate *) destruct H as [[H1 H2] H3].
    do 1 (eapply alt_2; [reflexivity|]). apply alt_l.
    apply (pmap_step (fun '((e, (st, et)), x, l) => mk_cmd st (PRotate e et x l)) _ _ _ (e, (st, et), s, l)).
    now apply one_step.
  - (* colour *) destruct H as [[[[[H1 H2] H3] H4] H5] H6].
    do 7 (eapply alt_2; [reflexivity|]). apply alt_l.
    pose proof (colour_step e st et x H1 H2) as K. rewrite Ex in K. apply K; [|easy].
    now rewrite H3, H4, H5.
  - (* parameter *) destruct H as [H1 H2].
    do 5 (eapply alt_2; [reflexivity|]). apply alt_l. now apply parameter_step.
  - (* loop *) destruct H as [H1 H2].
    do 10 (eapply alt_2; [reflexivity|]). apply alt_l. now apply loop_step.
  - (* trigger *) destruct H as [[[H1 H2] H3] H4].
    do 9 (eapply alt_2; [reflexivity|]). apply alt_l. now apply trigger_step.
Qed.
Lemma cmd_head c : exists h t, cmd_to_string [] c = h :: t /\ is_indent h = false.
Proof.
  rewrite cmd_print. unfold cmd_fields.
  destruct c as [st [e et s l|e et x|e et s l|e et s l|e et s l|e et x|e et s l|e et x|e et p l|n cs|t et g cs]];
    cbn [cmd_props cmd_start]; try (destruct (sbc_start x) as [[r g] b]); rewrite commas_tailf;
    (eexists; eexists; split; [reflexivity|reflexivity]).
Qed.
Lemma cmd_parse_indent n c : cmd_ok c = true -> forallb is_indent n = true ->
  cmd_parser (n ++ cmd_to_string [] c) = POk [] (bare c).
Proof.
  intros H Hn. pose proof (cmd_bare_parse c H) as K. unfold cmd_parser, preceded, pbind in *.
  destruct (cmd_head c) as (h & t & E & Hh). rewrite E in *.
  rewrite take_while_app by (easy || (cbn; now rewrite Hh)).
  change (h :: t) with ([] ++ h :: t) in K at 1. now rewrite take_while_app in K by (easy || (cbn; now rewrite Hh)).
Qed.
Lemma cmd_round n c : cmd_ok c = true -> forallb is_indent n = true ->
  cmd_from_str (n ++ cmd_to_string [] c) = ROk (Some (bare c)).
Proof. intros H Hn. unfold cmd_from_str. now rewrite cmd_parse_indent. Qed.

(** ** what the reader produces *)
Lemma decimal_of_str_cmd a : no_comma a = true -> cmd_dec (decimal_of_str a) = true.
Proof.
  intros H. unfold cmd_dec. rewrite decimal_of_str_wf. unfold decimal_of_str.
  destruct (parse_rdec a) as [r|]; [|easy]. cbn.
  pose proof (print_rdec_field r) as K. unfold field_text in K. now apply andb_true_iff in K.
Qed.
Lemma c_dec_image s r d : c_dec s = POk r d -> cmd_dec d = true.
Proof. intros H. apply dfield_inv in H as (a & -> & Ha & ->). now apply decimal_of_str_cmd. Qed.
Lemma c_field_inv {A} m i (p : cp A) s r x : c_field m i p s = POk r x -> exists s', p s' = POk r x.
Proof.
  intros H. apply pbind_inv in H as (r1 & a & H1 & H2). apply context_inv in H2. eauto.
Qed.
Lemma field_i32 s r z : @comma_field_type cmd_err _ _ parse_i32 s = POk r z -> in_i32 z = true.
Proof. intros H. apply field_inv in H as (a & _ & _ & H). now apply parse_i32_range in H. Qed.
Lemma easing_of_Z_ok z : in_i32 z = true -> easing_ok (easing_of_Z z) = true.
Proof.
  intros H. unfold easing_of_Z.
  destruct z as [|p|p]; [reflexivity| |cbn; now rewrite H].
  do 6 (destruct p as [p|p|]; try reflexivity); cbn [easing_ok]; rewrite H; reflexivity.
Qed.
Lemma start_image s r st : c_start_time s = POk r st -> exists z, st = Some z /\ in_i32 z = true.
Proof.
  intros H. apply pbind_inv in H as (r1 & a & H1 & H2). apply context_inv, pmap_inv in H2 as (z & H2 & ->).
  exists z. split; [easy|]. now apply field_i32 in H2.
Qed.
Lemma end_image s r et : c_end_time s = POk r et -> opt_ok in_i32 et = true.
Proof.
  intros H. apply pbind_inv in H as (r1 & a & H1 & H2). apply alt_inv in H2 as [H2|H2].
  - now apply pmap_inv in H2 as (x & _ & ->).
  - apply cut_inv, pmap_inv in H2 as (z & H2 & ->). apply context_inv in H2. now apply field_i32 in H2.
Qed.
Lemma easing_times_image s r e st et : c_easing_times s = POk r (e, (st, et)) ->
  easing_ok e = true /\ times_ok st et = true.
Proof.
  intros H. apply pbind_inv in H as (r1 & a & H1 & H2). apply pmap_inv in H2 as ([b1 b2] & H2 & [= -> -> ->]).
  split.
  - apply cut_inv, pbind_inv in H1 as (r2 & x & _ & H1). apply context_inv in H1. unfold map_opt in H1.
    destruct (comma_field_type parse_i32 r2) as [r3 z| | |] eqn:E; try easy. injection H1 as _ <-.
    now apply easing_of_Z_ok, (field_i32 r2 r3).
  - apply alt_inv in H2 as [H2|H2].
    + now apply pmap_inv in H2 as (x & _ & [= -> ->]).
    + apply pbind_inv in H2 as (r2 & x & H2 & H3). apply pmap_inv in H3 as (y & H3 & [= -> ->]).
      apply start_image in H2 as (z & -> & Hz). apply end_image in H3. unfold times_ok. cbn [opt_ok].
      now rewrite Hz, H3.
Qed.

(** the runs of [many0] *)
Inductive chain {C A} (p : parser C A) : str -> list A -> str -> Prop :=
| chain_nil s : chain p s [] s
| chain_cons s s' r a l : p s = POk s' a -> chain p s' l r -> chain p s (a :: l) r.
Lemma many0_chain {C A} (p : parser C A) s r l : many0 p s = POk r l -> chain p s l r.
Proof.
  unfold many0. generalize (S (length s)). intros f. revert s l. induction f as [|f IH]; intros s l; [easy|].
  cbn [many0_aux]. destruct (p s) as [r' a| | |] eqn:E; try easy.
  - destruct (Nat.eqb _ _); [easy|]. destruct (many0_aux f p r') as [r'' l'| | |] eqn:E'; try easy.
    intros [= -> <-]. econstructor; [exact E|]. now apply IH.
  - intros [= -> <-]. constructor.
Qed.
Lemma chain_forall {C A} (p : parser C A) s l r (P : A -> bool) :
  (forall s r a, p s = POk r a -> P a = true) -> chain p s l r -> forallb P l = true.
Proof. intros H K. induction K as [|s s' r a l K1 K2 IH]; [easy|]. cbn. now rewrite (H _ _ _ K1). Qed.
Lemma dec_chain s l r : chain (preceded comma c_dec) s l r -> forallb cmd_dec l = true.
Proof.
  apply chain_forall. clear. intros s r d H. apply pbind_inv in H as (r1 & a & _ & H). now apply c_dec_image in H.
Qed.
Lemma chain_comma_nil {A} (p : cp A) s l r : chain (preceded comma p) s l r -> s = [] -> l = [].
Proof. intros H ->. inversion H; subst; [easy|]. discriminate. Qed.
Lemma pairs_chain s l r :
  chain (preceded comma
    (pair c_dec (alt (pmap (fun _ => None) eof) (cut (pmap Some (preceded comma c_dec)))))) s l r ->
  pairs_ok l = true.
Proof.
  intros K. induction K as [|s s' r [x y] l K1 K2 IH]; [easy|]. cbn [pairs_ok]. rewrite IH, andb_true_r.
  apply pbind_inv in K1 as (r1 & a & _ & K1). apply pbind_inv in K1 as (r2 & b & H1 & H2).
  apply pmap_inv in H2 as (o & H2 & [= -> ->]). rewrite (c_dec_image _ _ _ H1).
  apply alt_inv in H2 as [H2|H2].
  - apply pmap_inv in H2 as (z & H2 & ->). apply eof_inv in H2 as (_ & -> & _).
    apply chain_comma_nil in K2; [|easy]. now rewrite K2.
  - apply cut_inv, pmap_inv in H2 as (z & H2 & ->). apply pbind_inv in H2 as (r3 & w & _ & H2).
    cbn. now rewrite (c_dec_image _ _ _ H2).
Qed.
Lemma c_u8_image s r z : c_u8 s = POk r z -> in_u8 z = true.
Proof. intros H. apply field_inv in H as (a & _ & _ & H). now apply parse_u8_range in H. Qed.
Lemma cont_colour_image s r o : c_cont_colour s = POk r o ->
  opt_ok in_u8 o = true /\ (o = None -> s = [] /\ r = []).
Proof.
  intros H. apply alt_inv in H as [H|H].
  - apply pmap_inv in H as (z & H & ->). now apply eof_inv in H as (-> & -> & _).
  - apply pmap_inv in H as (z & H & ->). apply pbind_inv in H as (r1 & a & _ & H). split; [|easy].
    now apply c_u8_image in H.
Qed.
Lemma rgbs_chain s l r : chain (preceded comma c_rgb) s l r -> rgbs_ok l = true.
Proof.
  intros K. induction K as [|s s' r [[x y] z] l K1 K2 IH]; [easy|]. cbn [rgbs_ok]. rewrite IH, andb_true_r.
  apply pbind_inv in K1 as (r1 & a & _ & K1). apply pbind_inv in K1 as (r2 & x' & H1 & K1).
  apply pbind_inv in K1 as (r3 & y' & H2 & K1). apply pmap_inv in K1 as (z' & H3 & [= -> -> ->]).
  rewrite (c_u8_image _ _ _ H1). pose proof H3 as K3. apply cont_colour_image in H2 as [H2 H2n], H3 as [H3 H3n].
  rewrite H2, H3. cbn [andb]. destruct z' as [z'|].
  - destruct y' as [y'|]; [easy|]. destruct (H2n eq_refl) as [_ ->]. discriminate.
  - destruct (H3n eq_refl) as [_ ->]. apply chain_comma_nil in K2; [|easy]. rewrite K2. now destruct y'.
Qed.

Lemma one_image h m i ic s r e st et x l : c_one h m i ic s = POk r (e, (st, et), x, l) ->
  easing_ok e && times_ok st et && forallb cmd_dec (x :: l) = true.
Proof.
  intros H. apply pbind_inv in H as (r1 & a & _ & H). apply cut_inv, pbind_inv in H as (r2 & t & H1 & H).
  apply pbind_inv in H as (r3 & y & H2 & H). apply pmap_inv in H as (l' & H & [= <- <- <-]).
  apply easing_times_image in H1 as [-> ->]. apply c_field_inv in H2 as (s' & H2).
  apply terminated_inv in H as (r4 & z & H & _). apply many0_chain, dec_chain in H. cbn.
  now rewrite (c_dec_image _ _ _ H2).
Qed.
Lemma two_image m1 i1 m2 i2 ic s r e st et x : c_two_body m1 i1 m2 i2 ic s = POk r (e, (st, et), x) ->
  easing_ok e && times_ok st et && two_ok x = true.
Proof.
  intros H. apply cut_inv, pbind_inv in H as (r2 & t & H1 & H).
  apply pbind_inv in H as (r3 & y & H2 & H). apply pbind_inv in H as (r4 & y' & H3 & H).
  apply pmap_inv in H as (l' & H & [= <- ->]).
  apply easing_times_image in H1 as [-> ->]. apply c_field_inv in H2 as (s' & H2), H3 as (s'' & H3).
  apply terminated_inv in H as (r5 & z & H & _). apply many0_chain, pairs_chain in H. unfold two_ok. cbn.
  now rewrite (c_dec_image _ _ _ H2), (c_dec_image _ _ _ H3).
Qed.
Lemma trigger_tail_image s r et g : trigger_tail s = POk r (et, g) ->
  opt_ok in_i32 et = true /\ opt_ok in_i32 g = true.
Proof.
  assert (R : forall s r z, @consume_rest_type cmd_err _ _ parse_i32 s = POk r z -> in_i32 z = true).
  { clear. intros s r z H. apply map_res_inv in H as (a & _ & H). now apply parse_i32_range in H. }
  intros H. unfold trigger_tail in H. repeat apply alt_inv in H as [H|H].
  - apply pbind_inv in H as (r1 & z & H1 & H). apply pmap_inv in H as (z' & H & [= -> ->]).
    apply pbind_inv in H1 as (r2 & a & _ & H1). apply pbind_inv in H as (r3 & b & _ & H).
    apply context_inv, cut_inv in H. split; [now apply field_i32 in H1|now apply R in H].
  - apply pmap_inv in H as (z' & H & [= -> ->]). apply pbind_inv in H as (r3 & b & _ & H).
    apply context_inv, cut_inv in H. split; [easy|now apply R in H].
  - now apply pmap_inv in H as (z' & H & [= -> ->]).
  - now apply pmap_inv in H as (z' & H & [= -> ->]).
  - apply pmap_inv in H as (z' & H & [= -> ->]). apply pbind_inv in H as (r3 & b & _ & H).
    apply context_inv, cut_inv in H. split; [now apply R in H|easy].
Qed.
Lemma cmd_image s c : cmd_from_str s = ROk (Some c) -> cmd_ok c = true /\ bare c = c.
Proof.
  unfold cmd_from_str. intros H. destruct (cmd_parser s) as [r c'|e|e|x] eqn:E;
    try (cbn in H; now destruct (e_ctx e)); [|easy]. injection H as ->.
  apply pbind_inv in E as (r1 & a & _ & E).
  apply alt_inv in E as [E|E].
  { apply pmap_inv in E as ([[e [st et]] x] & E & ->). apply pbind_inv in E as (r2 & b & _ & E). split; [|easy].
    now apply two_image in E. }
  apply alt_inv in E as [E|E].
  { apply pmap_inv in E as ([[[e [st et]] x] l] & E & ->). split; [|easy]. now apply one_image in E. }
  apply alt_inv in E as [E|E].
  { apply pmap_inv in E as ([[[e [st et]] x] l] & E & ->). split; [|easy]. now apply one_image in E. }
  apply alt_inv in E as [E|E].
  { apply pmap_inv in E as ([[e [st et]] x] & E & ->). apply pbind_inv in E as (r2 & b & _ & E). split; [|easy].
    now apply two_image in E. }
  apply alt_inv in E as [E|E].
  { apply pmap_inv in E as ([[[e [st et]] x] l] & E & ->). split; [|easy]. now apply one_image in E. }
  apply alt_inv in E as [E|E].
  { apply pbind_inv in E as (r2 & b & _ & E). apply cut_inv, pbind_inv in E as (r3 & [e [st et]] & E1 & E).
    apply pbind_inv in E as (r4 & p & _ & E). apply pmap_inv in E as (l & _ & ->). split; [|easy].
    apply easing_times_image in E1 as [H1 H2]. cbn. now rewrite H1, H2. }
  apply alt_inv in E as [E|E].
  { apply pmap_inv in E as ([[[e [st et]] x] l] & E & ->). split; [|easy]. now apply one_image in E. }
  apply alt_inv in E as [E|E].
  { apply pbind_inv in E as (r2 & b & _ & E). apply cut_inv, pbind_inv in E as (r3 & [e [st et]] & E1 & E).
    apply pbind_inv in E as (r4 & p1 & H1 & E). apply pbind_inv in E as (r5 & p2 & H2 & E).
    apply pbind_inv in E as (r6 & p3 & H3 & E). apply pmap_inv in E as (l & E & ->). split; [|easy].
    apply c_field_inv in H1 as (s1 & H1), H2 as (s2 & H2), H3 as (s3 & H3).
    apply terminated_inv in E as (r7 & y & E & _). apply many0_chain, rgbs_chain in E.
    apply easing_times_image in E1 as [H4 H5]. cbn.
    now rewrite H4, H5, E, (c_u8_image _ _ _ H1), (c_u8_image _ _ _ H2), (c_u8_image _ _ _ H3). }
  apply alt_inv in E as [E|E].
  { apply pmap_inv in E as ([[[e [st et]] x] l] & E & ->). split; [|easy]. now apply one_image in E. }
  apply alt_inv in E as [E|E].
  { apply pmap_inv in E as ([t [st [et g]]] & E & ->). split; [|easy]. apply pbind_inv in E as (r2 & b & _ & E).
    apply cut_inv, pbind_inv in E as (r3 & t' & H1 & E). apply pmap_inv in E as ([st' [et' g']] & E & [= -> -> -> ->]).
    apply pbind_inv in E as (r4 & st'' & H2 & E). apply pmap_inv in E as ([et'' g''] & E & [= -> -> ->]).
    apply trigger_tail_image in E as [H3 H4].
    apply context_inv, map_res_inv in H1 as (a' & _ & H1). apply v_unwrap_inv, trigger_iff in H1 as [H1 _].
    unfold cmd_ok. cbn [cmd_props cmd_start]. rewrite H1, H3, H4, !andb_true_r. cbn [andb].
    apply alt_inv in H2 as [H2|H2]; [now apply pmap_inv in H2 as (q & _ & ->)|].
    apply alt_inv in H2 as [H2|H2]; [now apply pmap_inv in H2 as (q & _ & ->)|].
    apply start_image in H2 as (z & -> & Hz). exact Hz. }
  apply alt_inv in E as [E|E]; [|discriminate].
  apply pmap_inv in E as ([st n] & E & ->). split; [|easy]. apply pbind_inv in E as (r2 & b & _ & E).
  apply cut_inv, pbind_inv in E as (r3 & st' & H1 & E). apply pmap_inv in E as (n' & E & [= -> ->]).
  apply c_field_inv in E as (s' & E). apply map_res_inv in E as (q & _ & E). apply parse_u32_range in E.
  cbn. rewrite E, andb_true_r. apply alt_inv in H1 as [H1|H1]; [now apply pmap_inv in H1 as (w & _ & ->)|].
  apply start_image in H1 as (z & -> & Hz). exact Hz.
Qed.
