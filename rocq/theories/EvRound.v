(** Printing and reading the [Events] section. *)
From Coq Require Import String List NArith ZArith Bool Lia.
From Verif Require Import Str Num Nom Dec Parsers Unicode Storyboard NormalEvents Events
  Spec SpecWf SpecText SpecTypes SpecCmd SpecEvents
  StrFacts NumFacts NomFacts DecFacts FieldFacts LineFacts LayoutFacts TpFacts CmdFacts CmdRound CmdTree EvFacts.
Import ListNotations.
Local Open Scope N_scope.

(** ** reading the own line *)
Lemma kind_of h k f fs : In (h, k) [(lit "0", NkBackground); (lit "1", NkVideo); (lit "Video", NkVideo);
    (lit "2", NkBreak); (lit "Break", NkBreak); (lit "3", NkColourTransformation); (lit "4", NkSpriteLegacy);
    (lit "5", NkAnimationLegacy); (lit "6", NkSampleLegacy); (lit "Sprite", NkOther); (lit "Animation", NkOther);
    (lit "Sample", NkOther)] ->
  ev_kind_parser (commas (h :: f :: fs)) = POk (commas (h :: f :: fs)) k.
Proof.
  rewrite commas_tailf, tailf_cons. cbn [In]. intros H.
  repeat destruct H as [H|H]; try (injection H as <- <-; reflexivity). easy.
Qed.
Lemma in_i32_dec z : in_i32 z = true -> parse_i32 (print_Z z) = ROk z.
Proof. apply parse_print_i32. Qed.
Lemma ob_common_step x f fs : origin_ok (ob_origin x) = true -> obj_dec (pos_x (ob_pos x)) = true ->
  obj_dec (pos_y (ob_pos x)) = true -> path_ok f = true ->
  ob_common (tailf (object_fields x (origin_to_string (ob_origin x)) f ++ fs))
  = POk (tailf fs) (ob_layer x, (ob_origin x, (f, ob_pos x))).
Proof.
  intros Ho Hx Hy Hf. destruct (origin_parse _ Ho) as [O1 O2]. destruct (sb_layer_parse (ob_layer x)) as [L1 L2].
  unfold obj_dec in *. apply andb_true_iff in Hx as [Hx _], Hy as [Hy _].
  destruct (@cmd_dec_parse unit _ Hx) as [X1 X2], (@cmd_dec_parse unit _ Hy) as [Y1 Y2].
  unfold ob_common, object_fields. cbn [app]. destruct (ob_pos x) as [px py]. cbn [pos_x pos_y] in *.
  eapply pbind_step; [now apply (fv_step _ _ _ _ _ (ob_layer x))|].
  apply (pmap_step (fun b => (ob_layer x, b)) _ _ _ (ob_origin x, (f, mk_pos px py))).
  eapply pbind_step; [now apply (fv_step _ _ _ _ _ (ob_origin x))|].
  apply (pmap_step (fun b => (ob_origin x, b)) _ _ _ (f, mk_pos px py)).
  eapply pbind_step; [now apply p_step, path_no_comma|].
  apply (pmap_step (fun b => (f, b)) _ _ _ (mk_pos px py)).
  apply (pmap_step (fun '(a, b) => mk_pos a b) _ _ _ (px, py)).
  eapply pbind_step; [now apply (f_step _ _ _ _ _ px)|].
  apply (pmap_step (fun b => (px, b))). now apply f_step.
Qed.
Lemma from_ok {C A} (p : parser C A) s r a : p s = POk r a -> rmap Some (verbose_error_to_error (p s)) = ROk (Some a).
Proof. now intros ->. Qed.
Lemma bg_step v x : own_ok v (EBackground x) = true ->
  bg_from_str (own_text v (EBackground x)) = ROk (Some (mk_bg (bg_start x) (bg_file x) (bg_pos x) [])).
Proof.
  cbn [own_ok own_text own_fields app]. rewrite !andb_true_iff. intros [[Hs Hf] Hp]. apply path_end in Hf as [Hf _].
  rewrite commas_tailf. apply from_ok with (r := []). apply head_step.
  apply (pmap_step (fun '(t, (f, p)) => mk_bg t f p []) _ _ _ (bg_start x, (bg_file x, bg_pos x))).
  eapply pbind_step; [now apply context_ok, i32_field|]. apply (pmap_step (fun b => (bg_start x, b))).
  eapply preceded_step; [apply ctx_comma|]. now apply fnp_step.
Qed.
Lemma vid_step dbg v x : own_ok v (EVideo x) = true ->
  vid_from_str dbg v (own_text v (EVideo x)) = ROk (Some (mk_vid (vi_start x) (vi_file x) (vi_pos x) [] (vi_short x))).
Proof.
  cbn [own_ok own_text own_fields app]. rewrite !andb_true_iff. intros [[Hs Hf] Hp]. apply path_end in Hf as [Hf _].
  destruct x as [st f p cs sh]. cbn [vi_start vi_file vi_pos vi_short] in *.
  rewrite commas_tailf. apply from_ok with (r := []).
  apply (pbind_step _ _ _ (tailf (print_Z (shown_time v st) :: f :: opt_position p)) sh); [now destruct sh|].
  eapply pbind_step; [eapply preceded_step; [apply ctx_comma|now apply start_step]|].
  apply (pmap_step (fun '(f, p) => mk_vid st f p [] sh) _ _ _ (f, p)).
  eapply preceded_step; [apply ctx_comma|]. now apply fnp_step.
Qed.
Lemma brk_step dbg v x : own_ok v (EBreak x) = true ->
  brk_from_str dbg v (own_text v (EBreak x)) = ROk (Some x).
Proof.
  cbn [own_ok own_text own_fields app]. rewrite !andb_true_iff. intros [Hs He].
  destruct x as [st en sh]. cbn [br_start br_end br_short] in *.
  rewrite commas_tailf. apply from_ok with (r := []).
  apply (pbind_step _ _ _ (tailf [print_Z (shown_time v st); print_Z (shown_time v en)]) sh); [now destruct sh|].
  eapply pbind_step; [eapply preceded_step; [apply ctx_comma|now apply start_step]|].
  apply (pmap_step (fun e => mk_brk st e sh)).
  eapply preceded_step; [apply ctx_comma|]. now apply end_step.
Qed.
Lemma ctr_step dbg v x : own_ok v (EColourTransformation x) = true ->
  ctr_from_str dbg v (own_text v (EColourTransformation x)) = ROk (Some x).
Proof.
  cbn [own_ok own_text own_fields app]. rewrite !andb_true_iff. intros [[[[_ Ht] Hr] Hg] Hb]. destruct x as [t r g b].
  cbn [ctr_start ctr_r ctr_g ctr_b] in *. rewrite commas_tailf. apply from_ok with (r := []).
  eapply pbind_step; [apply head_step; now apply start_step|].
  eapply pbind_step; [apply (f_step _ _ _ _ _ r); [apply print_Z_no_comma|now apply parse_print_u8]|].
  eapply pbind_step; [apply (f_step _ _ _ _ _ g); [apply print_Z_no_comma|now apply parse_print_u8]|].
  apply (pmap_step (fun b => mk_ct t r g b)). apply r_step. now apply parse_print_u8.
Qed.
Lemma leg_step h x : path_end_ok (lg_file x) (is_absent (lg_pos x)) = true ->
  opt_position_ok (lg_pos x) = true ->
  leg_from_str h (commas ([h; print_Z (layer_legacy_to_Z (lg_layer x)); print_Z (origin_type_to_Z (lg_origin x)); lg_file x]
      ++ opt_position (lg_pos x))) = ROk (Some (mk_leg (lg_layer x) (lg_origin x) (lg_file x) (lg_pos x) [])).
Proof.
  intros Hf Hp. apply path_end in Hf as [Hf _]. cbn [app]. rewrite commas_tailf. apply from_ok with (r := []).
  apply head_step. eapply pbind_step.
  { apply context_ok, vfield_tailf; [apply print_Z_no_comma|apply legacy_layer_parse]. }
  eapply pbind_step.
  { apply fv_step; [apply print_Z_no_comma|apply legacy_origin_parse]. }
  eapply (pmap_step (fun '(f, p) => mk_leg (lg_layer x) (lg_origin x) f p []) _ _ _ (lg_file x, lg_pos x)).
  eapply preceded_step; [apply ctx_comma|]. now apply fnp_step.
Qed.
Lemma sl_step v x : own_ok v (ESampleLegacy x) = true ->
  sl_from_str (own_text v (ESampleLegacy x))
  = ROk (Some (mk_sl (sl_time x) (sl_layer x) (sl_file x) (sl_volume x) [])).
Proof.
  cbn [own_ok own_text own_fields app]. rewrite !andb_true_iff. intros [[Ht Hf] Hv]. apply path_end in Hf as [Hf _].
  unfold obj_dec in Ht. apply andb_true_iff in Ht as [Ht _]. destruct (@cmd_dec_parse unit _ Ht) as [T1 T2].
  rewrite commas_tailf. apply from_ok with (r := []). apply head_step.
  eapply pbind_step; [now apply context_ok, (field_tailf _ _ _ (sl_time x))|].
  eapply pbind_step; [apply fv_step; [apply print_Z_no_comma|apply legacy_layer_parse]|].
  eapply pbind_step; [now apply p_step, path_no_comma|].
  apply (pmap_step (fun vol => mk_sl (sl_time x) (sl_layer x) (sl_file x) vol []) _ _ [] (sl_volume x)).
  destruct (sl_volume x) as [z|]; cbn [opt_field opt_ok] in *; [|now apply alt_l].
  eapply alt_2; [reflexivity|]. apply pmap_step, rv_step. now apply volume_parse.
Qed.
Lemma ob_step v x : own_ok v (EObject x) = true ->
  ob_from_str (own_text v (EObject x))
  = ROk (Some (mk_obj (ob_layer x) (ob_origin x) (ob_pos x) (ob_type x) [])).
Proof.
  cbn [own_ok own_text own_fields]. unfold object_ok. rewrite !andb_true_iff. intros [[[Ho Hx] Hy] Ht].
  destruct x as [ly o p ty cs]. cbn [ob_type ob_origin ob_pos ob_layer] in *. destruct ty as [f|n d l f]; rewrite ?andb_true_iff in Ht.
  - destruct Ht as [Hf _]. pose proof (ob_common_step (mk_obj ly o p (ObSprite f) cs) f [] Ho Hx Hy Hf) as K.
    rewrite app_nil_r in K. rewrite commas_tailf. apply from_ok with (r := []). apply alt_l.
    eapply preceded_step; [apply tag_app|].
    apply (pmap_step (fun '(l, (o, (f, p))) => mk_obj l o p (ObSprite f) []) _ _ _ (ly, (o, (f, p)))).
    apply cut_ok. exact K.
  - destruct Ht as [[Hf Hn] Hd]. pose proof (ob_common_step (mk_obj ly o p (ObAnimation n d l f) cs) f
        [print_Z n; print_rdec d; loop_type_to_string l] Ho Hx Hy Hf) as K.
    rewrite commas_tailf. apply from_ok with (r := []). eapply alt_2; [reflexivity|]. apply alt_l.
    apply (pmap_step (fun '((l, (o, (f, p))), (n, (d, lt))) => mk_obj l o p (ObAnimation n d lt f) [])
             _ _ [] ((ly, (o, (f, p))), (n, (d, l)))).
    eapply preceded_step; [apply tag_app|]. apply cut_ok.
    eapply pbind_step; [exact K|]. apply (pmap_step (fun b => ((ly, (o, (f, p))), b)) _ _ _ (n, (d, l))).
    eapply pbind_step; [apply (f_step _ _ _ _ _ n); [apply print_Z_no_comma|now apply parse_print_u32]|].
    apply (pmap_step (fun b => (n, b)) _ _ _ (d, l)).
    eapply pbind_step.
    { apply (f_step _ _ _ _ _ d).
      - pose proof (print_rdec_field d) as F. unfold field_text in F. now apply andb_true_iff in F.
      - unfold parse_rdec_res. now rewrite parse_print_rdec. }
    apply (pmap_step (fun b => (d, b))). apply alt_l, rv_step, loop_type_parse.
Qed.
Lemma au_step v x : own_ok v (EAudioSample x) = true ->
  au_from_str (own_text v (EAudioSample x)) = ROk (Some x).
Proof.
  cbn [own_ok own_text own_fields]. rewrite !andb_true_iff. intros [[Ht Hf] Hv]. rewrite commas_tailf.
  unfold au_from_str. destruct x as [t l f vol]. cbn [au_time au_layer_f au_file au_volume] in *.
  assert (K : au_parser (lit "Sample" ++ tailf [print_Z t; print_Z (au_layer_to_Z l); f; print_Z vol])
              = POk [] (mk_au t l f vol)).
  { unfold au_parser. eapply pbind_step; [now apply head_step, context_ok, i32_field|].
    eapply pbind_step.
    { eapply preceded_step; [apply ctx_comma|]. apply context_ok. eapply map_res_ok.
      - apply context_ok, (field_tailf _ _ _ (au_layer_to_Z l)); [apply print_Z_no_comma|now destruct l].
      - instantiate (1 := l). now destruct l. }
    eapply pbind_step; [now apply p_step, path_no_comma|].
    apply (pmap_step (fun vol => mk_au t l f vol)). eapply alt_2; [reflexivity|].
    apply (fv_step _ _ _ _ []); [apply print_Z_no_comma|now apply volume_parse]. }
  rewrite K. reflexivity.
Qed.
Lemma own_parse dbg v e : own_ok v e = true -> (forall c, e <> EComment c) ->
  ev_from_line dbg v (own_text v e) = ROk (Some (ev_set_cmds [] e)).
Proof.
  intros H Hc.
  assert (K : exists k h f fs, own_text v e = commas (h :: f :: fs) /\ ev_kind_parser (own_text v e) = POk (own_text v e) k
    /\ k = match e with EBackground _ => NkBackground | EVideo _ => NkVideo | EBreak _ => NkBreak
           | EColourTransformation _ => NkColourTransformation | ESpriteLegacy _ => NkSpriteLegacy
           | EAnimationLegacy _ => NkAnimationLegacy | ESampleLegacy _ => NkSampleLegacy | _ => NkOther end).
  { destruct e; cbn [own_text own_fields app]; unfold object_fields.
    - now destruct (Hc s).
    - do 4 eexists. split; [reflexivity|]. split; [apply kind_of; cbn; auto|reflexivity].
    - do 4 eexists. split; [reflexivity|]. split; [apply kind_of; destruct (vi_short x); cbn; auto|reflexivity].
    - do 4 eexists. split; [reflexivity|]. split; [apply kind_of; destruct (br_short x); cbn; auto 10|reflexivity].
    - do 4 eexists. split; [reflexivity|]. split; [apply kind_of; cbn; auto 10|reflexivity].
    - do 4 eexists. split; [reflexivity|]. split; [apply kind_of; cbn; auto 10|reflexivity].
    - do 4 eexists. split; [reflexivity|]. split; [apply kind_of; cbn; auto 10|reflexivity].
    - do 4 eexists. split; [reflexivity|]. split; [apply kind_of; cbn; auto 10|reflexivity].
    - destruct (ob_type x); cbn [app]; do 4 eexists; (split; [reflexivity|]); (split; [apply kind_of; cbn; auto 20|reflexivity]).
    - do 4 eexists. split; [reflexivity|]. split; [apply kind_of; cbn; auto 20|reflexivity]. }
  destruct K as (k & h & f & fs & Hk & K & ->). unfold ev_from_line. rewrite K. clear Hk K h f fs.
  destruct e.
  - now destruct (Hc s).
  - now rewrite (bg_step v x H).
  - now rewrite vid_step.
  - now rewrite brk_step.
  - now rewrite ctr_step.
  - cbn [own_ok] in H. apply andb_true_iff in H as []. cbn [own_text own_fields]. now rewrite leg_step.
  - cbn [own_ok] in H. apply andb_true_iff in H as []. cbn [own_text own_fields]. now rewrite leg_step.
  - now rewrite sl_step.
  - now rewrite ob_step.
  - replace (ob_from_str _) with (@RErr (option object) _ ObUnknownObjectType).
    + now rewrite au_step.
    + cbn [own_text own_fields]. now rewrite commas_tailf, tailf_cons.
Qed.
