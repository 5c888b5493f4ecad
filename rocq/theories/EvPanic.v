(** Facts for C13: which lines make the reader of the [Events] section panic. *)
From Coq Require Import String List NArith ZArith Bool Lia.
From Verif Require Import Str Num Nom Dec Parsers Unicode Storyboard NormalEvents Events
  Spec SpecWf StrFacts NumFacts NomFacts DecFacts LineFacts FieldFacts TpFacts HoFacts SpecText SpecTypes
  TriggerFacts SpecCmd CmdFacts CmdRound CmdTree SpecEvents EvFacts.
Import ListNotations.
Local Open Scope N_scope.

(** ** readers that never panic *)
Lemma np_layer_legacy : np layer_legacy_from_str.
Proof. intros s p. unfold layer_legacy_from_str. pose proof (parse_usize_no_panic s) as H. destruct (parse_usize s) as [z| |x]; try easy; [now destruct (layer_legacy_of_Z z)|]. intros _. now apply (H x). Qed.
Lemma layer_legacy_some s : layer_legacy_from_str s <> ROk None.
Proof. unfold layer_legacy_from_str. destruct (parse_usize s) as [z| |]; try easy. now destruct (layer_legacy_of_Z z). Qed.
Lemma np_origin_legacy : np origin_legacy_from_str.
Proof. intros s p. unfold origin_legacy_from_str. pose proof (parse_usize_no_panic s) as H. destruct (parse_usize s) as [z| |x]; try easy; [now destruct (origin_type_of_Z z)|]. intros _. now apply (H x). Qed.
Lemma origin_legacy_some s : origin_legacy_from_str s <> ROk None.
Proof. unfold origin_legacy_from_str. destruct (parse_usize s) as [z| |]; try easy. now destruct (origin_type_of_Z z). Qed.
Lemma np_au_volume : np au_volume_from_str.
Proof. intros s p. unfold au_volume_from_str. pose proof (parse_u8_no_panic s) as H. destruct (parse_u8 s) as [z| |x]; try easy; [now destruct (au_volume_of_Z z)|]. intros _. now apply (H x). Qed.
Lemma au_volume_some s : au_volume_from_str s <> ROk None.
Proof. unfold au_volume_from_str. destruct (parse_u8 s) as [z| |]; try easy. now destruct (au_volume_of_Z z). Qed.
Lemma np_sb_layer : np sb_layer_from_str.
Proof. intros s p. unfold sb_layer_from_str. now repeat destruct (str_eqb s _). Qed.
Lemma sb_layer_some s : sb_layer_from_str s <> ROk None.
Proof. unfold sb_layer_from_str. now repeat destruct (str_eqb s _). Qed.
Lemma np_origin : np origin_from_str.
Proof. intros s p. unfold origin_from_str. destruct (origin_of_name s); [easy|]. pose proof (parse_i32_no_panic s) as H. destruct (parse_i32 s) as [z| |x]; try easy. intros _. now apply (H x). Qed.
Lemma origin_some s : origin_from_str s <> ROk None.
Proof. unfold origin_from_str. destruct (origin_of_name s); [easy|]. now destruct (parse_i32 s). Qed.
Lemma np_rdec : np parse_rdec_res.
Proof. intros s p. unfold parse_rdec_res. now destruct (parse_rdec s). Qed.
Lemma np_parameter : np parameter_from_str.
Proof. intros s p. unfold parameter_from_str. now repeat destruct (str_eqb _ _). Qed.
Lemma parameter_some s : parameter_from_str s <> ROk None.
Proof. unfold parameter_from_str. now repeat destruct (str_eqb _ _). Qed.
#[local] Hint Resolve np_layer_legacy layer_legacy_some np_origin_legacy origin_legacy_some np_au_volume au_volume_some
  np_sb_layer sb_layer_some np_origin origin_some np_rdec np_parameter parameter_some np_i32 np_u32 np_u8 np_usize : ev.

Section S.
  Context {C : Type}.
  Lemma decf_total : total (@comma_field_type C _ _ (@parse_decimal unit)).
  Proof. apply dec_field_total. Qed.
  Lemma cf_safe {A E} (f : str -> res A E) : np f -> safe (@comma_field_type C _ _ f).
  Proof. apply comma_field_type_safe. Qed.
  (** a comma and a field, with their errors *)
  Lemma field_c {A} (m i : C) (p : parser C A) : safe p -> safec (preceded (context m comma) (context i p)).
  Proof. intros H. apply preceded_safec; apply context_safec; [apply comma_safe|exact H]. Qed.
  Lemma pair_eof_comma {A} (p : parser C A) (f : str -> A) : safec p -> safec (alt (pmap f eof) p).
  Proof. intros H. apply alt_safec; [apply pmap_safe, eof_safe|apply nofail_pmap, nofail_eof|exact H]. Qed.
  Lemma fnp_safec (a b c d : C) : safec (file_name_and_position a b c d).
  Proof.
    unfold file_name_and_position. apply pair_safec; [apply total_safec, comma_field_total|]. apply pair_eof_comma.
    apply pmap_safec, pair_safec; apply field_c; [apply total_safe, decf_total|].
    apply consume_rest_type_safe. apply np_decimal.
  Qed.
  Lemma time_np dbg v : old_version v = false -> forall a x, time_in dbg v a <> RPanic x.
  Proof. intros Hv a x. unfold time_in. now rewrite Hv. Qed.
  Lemma start_safec dbg v (i : C) : old_version v = false -> safec (start_time_offset dbg v i).
  Proof. intros Hv. apply context_safec, map_run_safe; [apply cf_safe, np_i32|]. intros a x. now apply time_np. Qed.
  Lemma end_safec dbg v (i : C) : old_version v = false -> safec (end_time_rest dbg v i).
  Proof. intros Hv. apply context_safec, map_run_safe; [apply consume_rest_type_safe, np_i32|]. intros a x. now apply time_np. Qed.
  Lemma head_safec (m i : C) t : safec (pair (context m (tag t)) (context i comma)).
  Proof. apply pair_safec; apply context_safec; [apply tag_safe|apply comma_safe]. Qed.
  Lemma path_safec (m : C) : safec (preceded (context m comma) comma_field).
  Proof. apply preceded_safec; [apply context_safec, comma_safe|apply total_safec, comma_field_total]. Qed.
  Lemma vf_safe {A E} (f : str -> res (option A) E) : np f -> (forall s, f s <> ROk None) ->
    safe (@comma_field_versioned_type C _ _ f).
  Proof. apply comma_field_versioned_type_safe. Qed.
End S.
Lemma bg_safec : safec bg_parser.
Proof.
  unfold bg_parser. apply preceded_safec; [apply head_safec|]. apply pmap_safec, pair_safec.
  - apply context_safec, cf_safe, np_i32.
  - apply preceded_safec; [apply context_safec, comma_safe|apply fnp_safec].
Qed.
Lemma vid_safec dbg v : old_version v = false -> safec (vid_parser dbg v).
Proof.
  intros Hv. unfold vid_parser. apply pbind_safec.
  { apply alt_safec; [apply pmap_safe, tag_safe|apply nofail_pmap, nofail_tag|apply context_safec, pmap_safe, tag_safe]. }
  intros sh. apply pbind_safec; [apply preceded_safec; [apply context_safec, comma_safe|now apply start_safec]|]. intros t.
  apply pmap_safec, preceded_safec; [apply context_safec, comma_safe|apply fnp_safec].
Qed.
Lemma brk_safec dbg v : old_version v = false -> safec (brk_parser dbg v).
Proof.
  intros Hv. unfold brk_parser. apply pbind_safec.
  { apply alt_safec; [apply pmap_safe, tag_safe|apply nofail_pmap, nofail_tag|apply context_safec, pmap_safe, tag_safe]. }
  intros sh. apply pbind_safec; [apply preceded_safec; [apply context_safec, comma_safe|now apply start_safec]|]. intros t.
  apply pmap_safec, preceded_safec; [apply context_safec, comma_safe|now apply end_safec].
Qed.
Lemma ctr_safec dbg v : old_version v = false -> safec (ctr_parser dbg v).
Proof.
  intros Hv. unfold ctr_parser.
  apply pbind_safec; [apply preceded_safec; [apply head_safec|now apply start_safec]|]. intros t.
  apply pbind_safec; [apply field_c, cf_safe, np_u8|]. intros r.
  apply pbind_safec; [apply field_c, cf_safe, np_u8|]. intros g.
  apply pmap_safec, field_c. apply consume_rest_type_safe, np_u8.
Qed.
Lemma leg_safec h : safec (leg_parser h).
Proof.
  unfold leg_parser. apply preceded_safec; [apply head_safec|].
  apply pbind_safec; [apply context_safec, vf_safe; auto with ev|]. intros l.
  apply pbind_safec; [apply field_c, vf_safe; auto with ev|]. intros o.
  apply pmap_safec, preceded_safec; [apply context_safec, comma_safe|apply fnp_safec].
Qed.
Lemma sl_safec : safec sl_parser.
Proof.
  unfold sl_parser. apply preceded_safec; [apply head_safec|].
  apply pbind_safec; [apply context_safec, total_safe, decf_total|]. intros t.
  apply pbind_safec; [apply field_c, vf_safe; auto with ev|]. intros l.
  apply pbind_safec; [apply path_safec|]. intros f. apply pmap_safec, pair_eof_comma, pmap_safec, field_c.
  apply consume_rest_versioned_type_safe; auto with ev.
Qed.
Lemma au_safec : safec au_parser.
Proof.
  unfold au_parser. apply pbind_safec; [apply preceded_safec; [apply head_safec|apply context_safec, cf_safe, np_i32]|]. intros t.
  apply pbind_safec.
  { apply field_c, map_res_safe; [apply context_safe, cf_safe, np_usize|]. intros z p. now destruct (au_layer_of_Z z). }
  intros l. apply pbind_safec; [apply path_safec|]. intros f. apply pmap_safec, pair_eof_comma, field_c, vf_safe; auto with ev.
Qed.
Lemma common_safec : safec ob_common.
Proof.
  unfold ob_common. apply pair_safec; [apply field_c, vf_safe; auto with ev|].
  apply pair_safec; [apply field_c, vf_safe; auto with ev|]. apply pair_safec; [apply path_safec|].
  apply pmap_safec, pair_safec; apply field_c, total_safe, decf_total.
Qed.
Lemma vee_np {C A} (p : parser C A) s x : safec p -> rmap Some (verbose_error_to_error (p s)) <> RPanic x.
Proof. intros H. pose proof (verbose_np p s x H) as K. destruct (verbose_error_to_error (p s)); cbn; congruence. Qed.

(** ** the object of an animation *)
Ltac flat := unfold commas; cbn [join app lit]; repeat (rewrite <- app_assoc; cbn [app lit]).
Lemma field_inv2 {C A} (m i : C) (p : parser C A) s r a :
  preceded (context m comma) (context i p) s = POk r a -> exists t, s = 44 :: t /\ p t = POk r a.
Proof.
  intros H. apply pbind_inv in H as (t & x & H1 & H2). apply context_inv in H1, H2. apply comma_inv in H1. exists t. now split.
Qed.
(** the outcome has a context if it is an error *)
Definition fine {C A} (r : pres C A) : Prop :=
  match r with POk _ _ => True | PErr e | PFail e => e_ctx e <> None | PPanic _ => False end.
Lemma safec_fine {C A} (p : parser C A) s : safec p -> fine (p s).
Proof. intros H. specialize (H s). now destruct (p s). Qed.
Lemma fine_np {C A} (r : pres C A) : fine r <-> forall x, verbose_error_to_error r <> RPanic x.
Proof.
  destruct r as [t a|e|e|x]; cbn; try (destruct (e_ctx e)); split; try easy; intros H; exfalso; now eapply H.
Qed.
Lemma fine_bind {C A B} (p : parser C A) (f : A -> parser C B) s : fine (p s) ->
  (forall r a, p s = POk r a -> fine (f a r)) -> fine (pbind p f s).
Proof. unfold pbind. destruct (p s) as [r a| | |]; cbn; try easy. intros _ H. now apply H. Qed.
Lemma fine_map {C A B} (f : A -> B) (p : parser C A) s : fine (p s) -> fine (pmap f p s).
Proof. unfold pmap, pbind. now destruct (p s). Qed.
Lemma fine_cut {C A} (p : parser C A) s : fine (p s) -> fine (cut p s).
Proof. unfold cut. now destruct (p s). Qed.
Lemma tag_cases {C} t s : (exists r, s = t ++ r /\ @tag C t s = POk r t) \/ (strip_prefix t s = None /\ exists e, @tag C t s = PErr e).
Proof.
  unfold tag. destruct (strip_prefix t s) as [r|] eqn:E; [left|right]; [|split; [easy|eexists; reflexivity]].
  exists r. apply strip_prefix_spec in E. now split.
Qed.
Lemma loop_type_bad lt : loop_type_from_str lt = RErr tt <-> lt <> lit "LoopForever" /\ lt <> lit "LoopOnce".
Proof.
  unfold loop_type_from_str. destruct (str_eqb lt (lit "LoopForever")) eqn:E1.
  - apply str_eqb_eq in E1. now split; [|intros [H _]].
  - destruct (str_eqb lt (lit "LoopOnce")) eqn:E2.
    + apply str_eqb_eq in E2. now split; [|intros [_ H]].
    + split; [|easy]. intros _. split; intros ->; discriminate.
Qed.
Lemma loop_ok lt l : loop_type_from_str lt = ROk l -> exists x, ob_loop (44 :: lt) = POk [] x.
Proof.
  intros H. unfold loop_type_from_str in H. destruct (str_eqb lt (lit "LoopForever")) eqn:E1.
  - apply str_eqb_eq in E1 as ->. eexists. vm_compute. reflexivity.
  - destruct (str_eqb lt (lit "LoopOnce")) eqn:E2; [|easy]. apply str_eqb_eq in E2 as ->. eexists. vm_compute. reflexivity.
Qed.
Lemma loop_fail lt : loop_type_from_str lt = RErr tt -> exists e, ob_loop (44 :: lt) = PErr e /\ e_ctx e = None.
Proof.
  intros H. unfold ob_loop, alt, preceded, pbind, context, comma. change (lit ",") with [44]. rewrite tag_one.
  unfold consume_rest_versioned_type, map_res, prest. unfold v_unwrap. rewrite H. cbn. eexists. split; reflexivity.
Qed.
Lemma loop_cases r : r = [] \/ (exists lt, r = 44 :: lt) ->
  fine (ob_loop r) \/ exists lt e, r = 44 :: lt /\ loop_type_from_str lt = RErr tt /\ ob_loop r = PErr e /\ e_ctx e = None.
Proof.
  intros [->|(lt & ->)]; [left; exact I|]. destruct (loop_type_from_str lt) as [l|[]|p] eqn:E.
  - destruct (loop_ok lt l E) as (x & ->). now left.
  - right. destruct (loop_fail lt E) as (e & H1 & H2). now exists lt, e.
  - unfold loop_type_from_str in E. now repeat destruct (str_eqb lt _).
Qed.
Lemma layer_iff s l : sb_layer_from_str s = ROk (Some l) <-> s = sb_layer_to_string l.
Proof.
  split; [|intros ->; now destruct l]. unfold sb_layer_from_str.
  repeat match goal with |- context [str_eqb s ?t] => destruct (str_eqb s t) eqn:?E end; intros [= <-];
    match goal with H : str_eqb s _ = true |- _ => apply str_eqb_eq in H; exact H end.
Qed.
Lemma path_inv {C} (m : C) s r a : preceded (context m comma) comma_field s = POk r a ->
  exists t, s = 44 :: t /\ comma_field (C := C) t = POk r a.
Proof.
  intros H. apply pbind_inv in H as (t & x & H1 & H2). apply context_inv in H1. apply comma_inv in H1. exists t. now split.
Qed.
(** the fields common to sprites and animations *)
Lemma common_inv s r a : ob_common s = POk r a ->
  exists layer org file x y, s = 44 :: commas [layer; org; file; x; y] ++ r
    /\ forallb no_comma [layer; org; file; x; y] = true
    /\ (exists l, layer = sb_layer_to_string l) /\ (exists o, origin_from_str org = ROk (Some o)).
Proof.
  intros H. apply pbind_inv in H as (r1 & l & H1 & H). apply pmap_inv in H as (b & H & _).
  apply pbind_inv in H as (r2 & o & H2 & H). apply pmap_inv in H as (b' & H & _).
  apply pbind_inv in H as (r3 & f & H3 & H). apply pmap_inv in H as (b'' & H & _).
  apply pmap_inv in H as (p & H & _). apply pbind_inv in H as (r4 & x & H4 & H). apply pmap_inv in H as (y & H5 & _).
  apply field_inv2 in H1 as (t1 & -> & H1). apply vfield_inv in H1 as (a1 & -> & N1 & K1).
  apply field_inv2 in H2 as (t2 & -> & H2). apply vfield_inv in H2 as (a2 & -> & N2 & K2).
  apply path_inv in H3 as (t3 & -> & H3). apply comma_field_inv in H3 as (-> & N3 & _).
  apply field_inv2 in H4 as (t4 & -> & H4). apply dfield_inv in H4 as (a4 & -> & N4 & _).
  apply field_inv2 in H5 as (t5 & -> & H5). apply dfield_inv in H5 as (a5 & -> & N5 & _).
  exists a1, a2, f, a4, a5. split; [|split; [cbn; now rewrite N1, N2, N3, N4, N5|split]].
  - flat. reflexivity.
  - exists l. now apply layer_iff.
  - now exists o.
Qed.
Lemma field_ok {C A E} (f : str -> res A E) (m i : C) a r x : no_comma a = true -> (r = [] \/ exists t, r = 44 :: t) -> f a = ROk x ->
  preceded (context m comma) (context i (comma_field_type f)) (44 :: a ++ r) = POk r x.
Proof.
  intros H1 H2 H3. eapply preceded_step; [apply context_ok; exact (tag_one _ _)|]. apply context_ok.
  eapply map_res_ok; [|exact H3]. apply take_while_app; [easy|]. destruct H2 as [->|(t & ->)]; reflexivity.
Qed.
Lemma vfield_ok {C A E} (f : str -> res (option A) E) (m i : C) a r x : no_comma a = true -> (r = [] \/ exists t, r = 44 :: t) -> f a = ROk (Some x) ->
  preceded (context m comma) (context i (comma_field_versioned_type f)) (44 :: a ++ r) = POk r x.
Proof.
  intros H1 H2 H3. eapply preceded_step; [apply context_ok; exact (tag_one _ _)|]. apply context_ok.
  eapply map_res_ok; [|unfold v_unwrap; rewrite H3; reflexivity]. apply take_while_app; [easy|]. destruct H2 as [->|(t & ->)]; reflexivity.
Qed.
Lemma common_ok layer org file x y l o r : forallb no_comma [layer; org; file; x; y] = true ->
  layer = sb_layer_to_string l -> origin_from_str org = ROk (Some o) -> (r = [] \/ exists t, r = 44 :: t) ->
  exists a, ob_common (44 :: commas [layer; org; file; x; y] ++ r) = POk r a.
Proof.
  intros Hn Hl Ho Hr. cbn [forallb] in Hn. rewrite !andb_true_iff in Hn. destruct Hn as (N1 & N2 & N3 & N4 & N5 & _).
  flat.
  assert (C : forall z : str, (exists t, lit "," ++ z = 44 :: t)) by (intros z; now exists z).
  eexists. unfold ob_common.
  eapply pbind_step; [apply (vfield_ok sb_layer_from_str) with (x := l); [easy|right; apply C|now apply layer_iff]|]. apply pmap_step.
  eapply pbind_step; [apply (vfield_ok origin_from_str) with (x := o); [easy|right; apply C|easy]|]. apply pmap_step.
  eapply pbind_step.
  { eapply preceded_step; [apply context_ok; exact (tag_one _ _)|]. apply (take_while_app _ file); [easy|reflexivity]. }
  apply pmap_step, pmap_step. eapply pbind_step; [apply (field_ok (@parse_decimal unit)); [easy|right; apply C|reflexivity]|]. apply pmap_step.
  apply (field_ok (@parse_decimal unit)); [easy|easy|reflexivity].
Qed.
Lemma or_bind {C A B} (X : Prop) (p : parser C A) (f : A -> parser C B) s : fine (p s) ->
  (forall r a, p s = POk r a -> X \/ fine (f a r)) -> X \/ fine (pbind p f s).
Proof. unfold pbind. destruct (p s) as [r a| | |]; cbn; try easy; try (now right). intros _ H. now apply H. Qed.
Lemma or_map {C A B} (X : Prop) (f : A -> B) (p : parser C A) s : X \/ fine (p s) -> X \/ fine (pmap f p s).
Proof. intros [H|H]; [now left|right; now apply fine_map]. Qed.
Lemma or_cut {C A} (X : Prop) (p : parser C A) s : X \/ fine (p s) -> X \/ fine (cut p s).
Proof. intros [H|H]; [now left|right; now apply fine_cut]. Qed.
Lemma or_pair {C A B} (X : Prop) (p : parser C A) (q : parser C B) s : fine (p s) ->
  (forall r a, p s = POk r a -> X \/ fine (q r)) -> X \/ fine (pair p q s).
Proof. intros H K. apply or_bind; [easy|]. intros r a E. apply or_map. now apply (K r a). Qed.
Lemma or_alt {C A} (X : Prop) (p q : parser C A) s : (X \/ fine (p s) \/ exists e, p s = PErr e) -> X \/ fine (q s) -> X \/ fine (alt p q s).
Proof. unfold alt. intros [H|[H|(e & ->)]] [K|K]; try (now left); try (now right). right. now destruct (p s). Qed.
Lemma tag_skip {C A} (X : Prop) t (p : parser C A) s : (forall r, s = t ++ r -> X \/ fine (p r)) ->
  X \/ fine (preceded (tag t) p s) \/ exists e, preceded (tag t) p s = PErr e.
Proof.
  intros H. unfold preceded, pbind. destruct (tag_cases (C := C) t s) as [(r & -> & E)|[_ (e & E)]]; rewrite E; [|right; right; eauto].
  destruct (H r eq_refl); [now left|right; now left].
Qed.
Lemma map_skip {C A B} (X : Prop) (f : A -> B) (p : parser C A) s :
  X \/ fine (p s) \/ (exists e, p s = PErr e) -> X \/ fine (pmap f p s) \/ (exists e, pmap f p s = PErr e).
Proof. unfold pmap. intros [H|[H|(e & ->)]]; [now left|right; left; now destruct (p s)|right; right; eauto]. Qed.
Lemma ob_bad_or s : bad_loop_type s \/ fine (ob_parser s).
Proof.
  unfold ob_parser. apply or_alt.
  { apply tag_skip. intros r _. right. now apply fine_map, fine_cut, safec_fine, common_safec. }
  apply or_alt; [|now right]. apply map_skip, tag_skip. intros r ->. apply or_cut.
  apply or_pair; [apply safec_fine, common_safec|]. intros r1 cm E3.
  apply or_pair; [apply safec_fine, field_c, cf_safe, np_u32|]. intros r2 n E4.
  apply or_pair; [apply safec_fine, field_c, cf_safe, np_rdec|]. intros r3 d E5.
  apply common_inv in E3 as (layer & org & file & x & y & -> & N1 & Hl & Ho).
  apply field_inv2 in E4 as (t4 & -> & E4). apply field_inv in E4 as (a4 & -> & N4 & K4).
  apply field_inv2 in E5 as (t5 & -> & E5). apply map_res_inv in E5 as (a5 & E5 & K5). apply comma_field_inv in E5 as (-> & N5 & Hr3).
  destruct (loop_cases r3 Hr3) as [L|(lt & e' & -> & L & _)]; [now right|left].
  exists layer, org, file, x, y, a4, a5, lt. split; [flat; reflexivity|].
  split; [cbn [forallb] in *; rewrite !andb_true_iff in *; intuition|]. split; [easy|]. split; [easy|]. split; [now exists n|].
  split; [|now apply loop_type_bad]. unfold parse_rdec_res in K5. destruct (parse_rdec a5); [eauto|easy].
Qed.
Lemma pair_err {C A B} (p : parser C A) (q : parser C B) s r a e : p s = POk r a -> q r = PErr e -> pair p q s = PErr e.
Proof. intros H K. unfold pair, pbind, pmap. now rewrite H, K. Qed.
Lemma ob_panic s : (exists p, ob_from_str s = RPanic p) <-> bad_loop_type s.
Proof.
  split.
  - intros [p H]. destruct (ob_bad_or s) as [K|K]; [easy|exfalso]. unfold ob_from_str in H.
    apply fine_np with (x := p) in K. destruct (verbose_error_to_error (ob_parser s)); cbn in *; congruence.
  - intros (layer & org & file & x & y & n & d & lt & -> & Hn & (l & Hl) & (o & Ho) & (z & Hz) & (w & Hw) & Hlt).
    cbn [forallb] in Hn. rewrite !andb_true_iff in Hn. destruct Hn as (N1 & N2 & N3 & N4 & N5 & N6 & N7 & _).
    apply loop_type_bad in Hlt. apply loop_fail in Hlt as (e & L1 & L2).
    exists PUnreachable. unfold ob_from_str.
    replace (commas [lit "Animation"; layer; org; file; x; y; n; d; lt])
      with (lit "Animation" ++ 44 :: commas [layer; org; file; x; y] ++ 44 :: n ++ 44 :: d ++ 44 :: lt)
      by (flat; reflexivity).
    destruct (common_ok layer org file x y l o (44 :: n ++ 44 :: d ++ 44 :: lt)) as (a & Ha); [cbn; now rewrite N1, N2, N3, N4, N5|easy|easy|right; eauto|].
    assert (Hn' : preceded (context ObMissingFrameCount comma) (context ObInvalidFrameCount (comma_field_type parse_u32)) (44 :: n ++ 44 :: d ++ 44 :: lt) = POk (44 :: d ++ 44 :: lt) z)
      by (apply field_ok; [easy|right; eauto|easy]).
    assert (Hd' : preceded (context ObMissingFrameDelay comma) (context ObInvalidFrameDelay (comma_field_type parse_rdec_res)) (44 :: d ++ 44 :: lt) = POk (44 :: lt) w)
      by (apply field_ok; [easy|right; eauto|unfold parse_rdec_res; now rewrite Hw]).
    replace (ob_parser (lit "Animation" ++ 44 :: commas [layer; org; file; x; y] ++ 44 :: n ++ 44 :: d ++ 44 :: lt)) with (@PFail ob_err object e); [cbn; now rewrite L2|].
    symmetry. unfold ob_parser, alt.
    replace (preceded (tag (lit "Sprite")) _ (lit "Animation" ++ _)) with (@PErr ob_err object (mkErr KTag None)) by reflexivity.
    unfold pmap at 1. erewrite (preceded_step (tag (lit "Animation"))); [|apply tag_app|unfold cut; erewrite pair_err; [reflexivity|exact Ha|]]; [reflexivity|].
    apply pair_err with (1 := Hn'). apply pair_err with (1 := Hd'). exact L1.
Qed.

(** ** triggers *)
Lemma fields_count b s : length (tt_fields false b s) = S (length (filter begins_piece s)).
Proof.
  revert b. induction s as [|c s IH]; intros b; [easy|]. cbn [tt_fields filter negb andb]. fold (begins_piece c).
  destruct (begins_piece c); cbn [length]; now rewrite IH.
Qed.
Lemma fields_count0 c s : length (tt_fields true [] (c :: s)) = S (length (filter begins_piece s)).
Proof. cbn [tt_fields negb andb app]. apply fields_count. Qed.
(** a field that is only reached with the custom index in place *)
Lemma loop_panic fs i st p : Forall (fun f => solid f = true) fs -> st_at i st -> tt_loop i fs st = RPanic p ->
  exists fs1 f fs2 st', fs = fs1 ++ f :: fs2 /\ st_at 4 st' /\ st_text st' = st_text st ++ concat fs1.
Proof.
  intros Hf. revert i st. induction Hf as [|f fs Hf1 Hf IH]; intros i st Ha; cbn [tt_loop]; [easy|].
  destruct (Nat.ltb_spec i 4) as [Hi|Hi].
  - pose proof (attempt_spec i f st Ha Hi Hf1) as K. destruct (tt_attempt 5 i f st) as [[i1 st1]| |]; cbn [rbind]; try easy.
    destruct K as [K1 K2]. intros H. apply IH in H as (fs1 & g & fs2 & st' & -> & H1 & H2); [|easy].
    exists (f :: fs1), g, fs2, st'. split; [easy|]. split; [easy|]. rewrite H2, K2. cbn [concat]. now rewrite <- app_assoc.
  - intros _. exists [], f, fs, st. split; [easy|]. cbn [concat]. rewrite app_nil_r. split; [|easy].
    revert Hi. now destruct Ha; intros Hi; try lia; constructor.
Qed.
Lemma fields_heads b s f fs1 fs2 : tt_fields false b s = fs1 ++ f :: fs2 -> fs1 <> [] -> exists c r, f = c :: r /\ begins_piece c = true.
Proof.
  revert b fs1. induction s as [|c s IH]; intros b fs1; cbn [tt_fields negb andb].
  - intros H Hn. destruct fs1 as [|x [|]]; easy.
  - fold (begins_piece c). destruct (begins_piece c) eqn:E; [|apply IH].
    intros H Hn. destruct fs1 as [|x fs1]; [easy|]. injection H as <- H. destruct fs1 as [|y fs1]; [|now apply (IH [c] (y :: fs1))].
    cbn in H. assert (K : exists r, f = c :: r).
    { clear - H. assert (G : forall b s x l, b <> [] -> tt_fields false b s = x :: l -> exists r, x = b ++ r).
      { clear. intros b s. revert b. induction s as [|c s IH]; intros b x l Hb; cbn [tt_fields negb andb].
        - intros [= <- <-]. exists []. now rewrite app_nil_r.
        - destruct (is_uppercase c || is_numeric c); [intros [= <- _]; exists []; now rewrite app_nil_r|].
          intros H. apply IH in H as (r & ->); [|now destruct b]. exists (c :: r). now rewrite <- app_assoc. }
      destruct (G [c] s f fs2 ltac:(easy) H) as (r & ->). now exists r. }
    destruct K as (r & ->). now exists c, r.
Qed.
Lemma names_head st : st_at 4 st -> exists c r, st_text st = c :: r /\ begins_piece c = true.
Proof.
  intros H. inversion H as [| | | |a b d z Hab Hz]; subst. unfold st_text. cbn [tt_ss tt_as tt_add tt_custom opt_str].
  destruct a as [a|]; [destruct a; cbn; eauto|]. rewrite (Hab eq_refl). destruct d as [d|]; [destruct d; cbn; eauto|]. cbn [opt_str app].
  assert (K : In z [0; 1; 2; 3; 4; 5; 6; 7; 8; 9]%Z) by (cbn; lia). cbn [In] in K.
  repeat (destruct K as [<-|K]; [eexists _, _; split; reflexivity|]). easy.
Qed.
Lemma trigger_panic_fwd s p : trigger_type_from_str s = RPanic p -> bad_trigger (trim s).
Proof.
  unfold trigger_type_from_str. generalize (trim s). clear s. intros s.
  destruct (str_eqb s (lit "Passing")); [easy|]. destruct (str_eqb s (lit "Failing")); [easy|].
  destruct (strip_prefix (lit "HitSound") s) as [u|] eqn:E3; [|easy]. apply strip_prefix_spec in E3 as ->.
  destruct u as [|c u]; [easy|]. rewrite fields_count0. destruct (Nat.ltb_spec 4 (S (length (filter begins_piece u)))) as [|Hl]; [easy|].
  destruct (tt_loop 0 (tt_fields true [] (c :: u)) _) as [| |q] eqn:E; try easy. intros _.
  apply loop_panic in E as (fs1 & f & fs2 & st' & H1 & H2 & H3); [|apply tt_fields_solid0|constructor].
  destruct (names_head st' H2) as (c0 & r0 & H4 & H5). cbn [st_text opt_str tt_ss tt_as tt_add tt_custom app] in H3.
  change (st_text (mk_tt None None None None)) with (@nil N) in H3. cbn [app] in H3.
  pose proof (tt_fields_concat true [] (c :: u)) as Hc. rewrite H1, concat_app in Hc. cbn [concat app] in Hc. rewrite <- H3 in Hc.
  assert (Hn : fs1 <> []) by (intros ->; rewrite H4 in H3; easy).
  cbn [tt_fields negb andb app] in H1. apply fields_heads in H1 as (d & r & -> & Hd); [|easy].
  inversion H2 as [| | | |a b ad z Hab Hz Est]; subst st'.
  assert (Hu : trigger_type_to_string (TtHitSound a b ad (Some z)) ++ d :: r ++ concat fs2 = lit "HitSound" ++ c :: u)
    by (rewrite <- Hc; unfold trigger_type_to_string, st_text; cbn [tt_ss tt_as tt_add tt_custom]; now rewrite <- !app_assoc).
  exists a, b, ad, z, d, (r ++ concat fs2). rewrite Hu. split.
  { cbn [trigger_ok]. replace ((0 <=? z) && (z <=? 9))%Z with true by lia. rewrite andb_true_r. destruct a, b; try easy. now specialize (Hab eq_refl). }
  split; [easy|]. split; [easy|]. rewrite filter_app, app_length. cbn [filter]. destruct (begins_piece c); cbn [length] in *;
    change (length (filter begins_piece (lit "HitSound"))) with 2%nat; lia.
Qed.
Lemma trigger_panic_bwd s : bad_trigger (trim s) -> exists p, trigger_type_from_str s = RPanic p.
Proof.
  unfold trigger_type_from_str. generalize (trim s). clear s. intros s (ss & ass & ad & z & c & r & Hok & -> & Hc & Hl).
  set (t := TtHitSound ss ass ad (Some z)) in *. cbn [trigger_ok t] in Hok. apply andb_true_iff in Hok as [Hw Hz].
  assert (Hz' : (0 <= z <= 9)%Z) by lia. clear Hz.
  assert (Hd : exists d, print_Z z = [d] /\ is_digit d = true).
  { assert (K : In z [0; 1; 2; 3; 4; 5; 6; 7; 8; 9]%Z) by (cbn; lia). cbn [In] in K.
    repeat (destruct K as [<-|K]; [eexists; split; reflexivity|]). easy. }
  destruct Hd as (d & Ez & Hd).
  assert (T : trigger_type_to_string t ++ c :: r = lit "HitSound" ++ concat (names_of t ++ [[d]]) ++ c :: r).
  { unfold t, trigger_type_to_string. cbn [opt_str]. rewrite Ez, concat_app. cbn [names_of concat].
    destruct ss, ass, ad; cbn [opt_str app concat]; now rewrite ?app_nil_r, <- ?app_assoc. }
  assert (W : Forall (fun w => lower_tail w = true) (names_of t ++ [[d]])).
  { apply Forall_app. split.
    - unfold t. cbn [names_of]. destruct ss as [[]|], ass as [[]|], ad as [[]|]; repeat constructor.
    - constructor; [|constructor]. cbn. now rewrite digit_splits. }
  rewrite T in *. replace (str_eqb _ (lit "Passing")) with false by reflexivity.
  replace (str_eqb _ (lit "Failing")) with false by reflexivity. rewrite strip_prefix_app.
  assert (F : tt_fields true [] (concat (names_of t ++ [[d]]) ++ c :: r) = names_of t ++ [d] :: tt_fields false [c] r).
  { assert (G : forall ws w, Forall (fun w => lower_tail w = true) ws -> tt_fields false w (concat ws ++ c :: r) = w :: ws ++ tt_fields false [c] r).
    { clear - Hc. intros ws w H. revert w. induction H as [|x ws Hx H IH]; intros w.
      - cbn [concat app tt_fields negb andb]. fold (begins_piece c). now rewrite Hc.
      - cbn [concat]. rewrite <- app_assoc, tt_word by easy. now rewrite IH. }
    replace ([d] :: tt_fields false [c] r) with ([[d]] ++ tt_fields false [c] r) by easy. rewrite app_assoc.
    destruct (names_of t ++ [[d]]) as [|w ws] eqn:Ef; [now destruct (names_of t)|]. inversion W; subst.
    cbn [concat app]. rewrite <- app_assoc, tt_word0 by easy. now rewrite G. }
  assert (Hne : exists c0 u, concat (names_of t ++ [[d]]) ++ c :: r = c0 :: u).
  { destruct (concat (names_of t ++ [[d]])) as [|c0 u]; cbn; eauto. }
  destruct Hne as (c0 & u & Hne). rewrite Hne. rewrite <- Hne.
  assert (Hlen : (length (tt_fields true [] (concat (names_of t ++ [[d]]) ++ c :: r)) <= 4)%nat).
  { rewrite filter_app, app_length in Hl. change (length (filter begins_piece (lit "HitSound"))) with 2%nat in Hl.
    rewrite filter_app, app_length in Hl. cbn [filter] in Hl. rewrite Hc in Hl. cbn [length] in Hl.
    rewrite F, app_length. cbn [length]. rewrite fields_count.
    assert (N : length (filter begins_piece (concat (names_of t ++ [[d]]))) = S (length (names_of t))).
    { rewrite concat_app, filter_app, app_length. cbn [concat app filter]. change (begins_piece d) with (splits d).
      rewrite (digit_splits d Hd). cbn [length]. unfold t. cbn [names_of].
      destruct ss as [[]|], ass as [[]|], ad as [[]|]; reflexivity. }
    lia. }
  apply Nat.ltb_ge in Hlen. rewrite Hlen, F. exists PUnreachable.
  destruct (tt_fields false [c] r) as [|f fs] eqn:Ef. { pose proof (fields_count [c] r) as K. now rewrite Ef in K. }
  assert (Hp : forall st i, st_at i st -> (i < 4)%nat -> tt_loop i ([d] :: f :: fs) st = RPanic PUnreachable).
  { clear - Hd. intros st i Hi Hlt.
    assert (P : parse_usize [d] = ROk (Z.of_N (d - 48))).
    { destruct (digit_Z d Hd) as [P1 P2]. rewrite <- P1. apply parse_print_usize. unfold in_usize, usize_max.
      rewrite andb_true_iff, !Z.leb_le. lia. }
    assert (S1 : sb_sample_set_from_str [d] = RErr tt).
    { unfold sb_sample_set_from_str. cbn [lit str_eqb]. now rewrite !andb_false_r. }
    assert (S2 : addition_from_str [d] = RErr tt).
    { unfold addition_from_str. cbn [lit str_eqb]. now rewrite !andb_false_r. }
    destruct Hi; try lia; cbn [tt_loop tt_attempt]; rewrite ?S1, ?S2, P; reflexivity. }
  unfold t. cbn [names_of map].
  destruct ss as [a|], ass as [b|]; try easy; destruct ad as [x|]; cbn [app].
  all: repeat match goal with
    | |- context [tt_loop 0 (sb_sample_set_to_string ?a :: ?r) ?st] =>
        replace (tt_loop 0 (sb_sample_set_to_string a :: r) st) with (tt_loop 1 r (mk_tt (Some a) None None None)) by (now destruct a)
    | |- context [tt_loop 1 (sb_sample_set_to_string ?b :: ?r) (mk_tt ?a _ _ _)] =>
        replace (tt_loop 1 (sb_sample_set_to_string b :: r) (mk_tt a None None None)) with (tt_loop 2 r (mk_tt a (Some b) None None)) by (now destruct b)
    | |- context [tt_loop ?i (addition_to_string ?x :: ?r) (mk_tt ?a ?b _ _)] =>
        replace (tt_loop i (addition_to_string x :: r) (mk_tt a b None None)) with (tt_loop 3 r (mk_tt a b (Some x) None)) by (now destruct x)
    end.
  all: rewrite Hp; [reflexivity|constructor; easy|lia].
Qed.

(** ** commands *)
Section M.
  Context {C : Type}.
  Lemma many0_total {A} (q : parser C A) : safe q -> nofail q -> total (many0 (preceded comma q)).
  Proof.
    intros Hs Hf. set (p := preceded comma q).
    assert (K : forall s, match p s with POk r _ => (length r < length s)%nat | PErr _ => True | _ => False end).
    { intros s. unfold p, preceded, pbind. destruct (tag_cases (C := C) (lit ",") s) as [(r & -> & E)|[_ (e & E)]]; unfold comma; rewrite E; [|easy].
      specialize (Hs r). specialize (Hf r). destruct (q r) as [r' a| |e|]; cbn in *; try easy; try lia. now destruct (Hf e). }
    clearbody p. clear q Hs Hf. intros s. unfold many0.
    assert (L : forall f s, (length s < f)%nat -> exists r l, many0_aux f p s = POk r l /\ (length r <= length s)%nat).
    { clear s. induction f as [|f IH]; intros s Hl; [lia|]. cbn [many0_aux]. specialize (K s). destruct (p s) as [r a| | |]; try easy; [|eauto].
      destruct (Nat.eqb_spec (length r) (length s)); [lia|]. destruct (IH r ltac:(lia)) as (r' & l & -> & H). exists r', (a :: l). split; [easy|lia]. }
    destruct (L (S (length s)) s ltac:(lia)) as (r & l & E & H). exists r, l. now split.
  Qed.
  Lemma nofail_dec : nofail (@comma_field_type C _ _ (@parse_decimal unit)).
  Proof. apply nofail_total, decf_total. Qed.
  Lemma nofail_field {A E} (f : str -> res A E) : nofail (@comma_field_type C _ _ f).
  Proof. apply nofail_map_res, nofail_total, comma_field_total. Qed.
  Lemma nofail_vfield {A E} (f : str -> res (option A) E) : nofail (@comma_field_versioned_type C _ _ f).
  Proof. apply nofail_map_res, nofail_total, comma_field_total. Qed.
  Lemma nofail_comma : nofail (@comma C).
  Proof. apply nofail_tag. Qed.
  Lemma nofail_peek {A} (p : parser C A) : nofail p -> nofail (peek p).
  Proof. intros H s e. specialize (H s e). unfold peek. now destruct (p s). Qed.
  Lemma pre_skip {A B} (X : Prop) (p : parser C A) (q : parser C B) s : safe p -> nofail p ->
    (forall r a, p s = POk r a -> X \/ fine (q r)) -> X \/ fine (preceded p q s) \/ exists e, preceded p q s = PErr e.
  Proof.
    intros Hs Hf H. unfold preceded, pbind. specialize (Hs s). destruct (p s) as [r a|e|e|] eqn:E; [|eauto|now destruct (Hf s e)|easy].
    destruct (H r a eq_refl); auto.
  Qed.
  Lemma ended_safec {A} (p : parser C A) (c : C) : safec p -> safec (terminated p (context c eof)).
  Proof. intros H. apply terminated_safec; [exact H|apply context_safec, eof_safe]. Qed.
End M.
Lemma start_c : safec c_start_time.
Proof. apply field_c, pmap_safe, cf_safe, np_i32. Qed.
Lemma easing_c : safec c_easing.
Proof. apply cut_safec, field_c, map_opt_safe, cf_safe, np_i32. Qed.
Lemma end_c : safec c_end_time.
Proof.
  apply preceded_safec; [apply context_safec, cut_safe, comma_safe|].
  apply alt_safec; [apply pmap_safe, verify_safe, total_safe, comma_field_total|apply nofail_pmap, nofail_verify, nofail_total, comma_field_total|].
  apply cut_safec, pmap_safec, context_safec, cf_safe, np_i32.
Qed.
Lemma times_c : safec c_easing_times.
Proof.
  apply pair_safec; [apply easing_c|]. apply alt_safec; [| |apply pair_safec; [apply start_c|apply end_c]].
  - apply pmap_safe, pair_safe; [apply tag_safe|apply peek_safe, comma_safe].
  - apply nofail_pmap, nofail_pbind; [apply nofail_tag|]. intros. apply nofail_pmap, nofail_peek, nofail_comma.
Qed.
Lemma c_dec_c m i : safec (c_field m i c_dec).
Proof. apply field_c, total_safe, decf_total. Qed.
Lemma cont_two_total : total c_cont_two.
Proof.
  apply many0_total; [apply c_cont_two_safe|]. intros s e. unfold pair, pbind, pmap.
  destruct (c_dec s) as [r a|e'|e'|] eqn:E; try easy.
  - apply map_res_inv in E as (t & E & _). apply comma_field_inv in E as (_ & _ & Hr). unfold alt, cut, preceded, pbind, pmap.
    destruct Hr as [->|(u & ->)]; [easy|]. replace (@eof cmd_err (44 :: u)) with (@PErr cmd_err str (mkErr KEof None)) by reflexivity.
    unfold comma. change (lit ",") with [44]. rewrite tag_one. destruct (decf_total (C := cmd_err) u) as (r' & d & Ed & _).
    unfold c_dec. now rewrite Ed.
  - intros [= ->]. destruct (decf_total (C := cmd_err) s) as (r & d & Ed & _). unfold c_dec in E. rewrite Ed in E. discriminate.
Qed.
Lemma two_c a b c d e : safec (c_two_body a b c d e).
Proof.
  apply cut_safec, pbind_safec; [apply times_c|]. intros. apply pbind_safec; [apply c_dec_c|]. intros.
  apply pbind_safec; [apply c_dec_c|]. intros. apply pmap_safec, ended_safec, total_safec, cont_two_total.
Qed.
Lemma one_skip X h a b c s : X \/ fine (c_one h a b c s) \/ exists e, c_one h a b c s = PErr e.
Proof.
  apply tag_skip. intros r _. right. apply fine_cut, safec_fine. apply pbind_safec; [apply times_c|]. intros.
  apply pbind_safec; [apply c_dec_c|]. intros. apply pmap_safec, ended_safec, total_safec, many0_total; [apply c_dec_safe|apply nofail_dec].
Qed.
Lemma loop_skip X s : X \/ fine (c_loop s) \/ exists e, c_loop s = PErr e.
Proof.
  apply map_skip, tag_skip. intros r _. right. apply fine_cut, safec_fine, pair_safec.
  - apply alt_safec; [| |apply start_c].
    + apply pmap_safe, pair_safe; [apply comma_safe|apply peek_safe, comma_safe].
    + apply nofail_pmap, nofail_pbind; [apply nofail_comma|]. intros. apply nofail_pmap, nofail_peek, nofail_comma.
  - apply field_c, map_res_safe; [apply total_safe, prest_total|apply np_u32].
Qed.
Lemma u8_field m i : safec (c_field m i c_u8).
Proof. apply field_c, c_u8_safe. Qed.
Lemma nofail_cont_colour : nofail c_cont_colour.
Proof.
  apply nofail_alt; [apply nofail_pmap, nofail_eof|]. apply nofail_pmap, nofail_pbind; [apply nofail_comma|]. intros. apply nofail_field.
Qed.
Lemma colour_skip X s : X \/ fine (c_colour s) \/ exists e, c_colour s = PErr e.
Proof.
  apply tag_skip. intros r _. right. apply fine_cut, safec_fine. apply pbind_safec; [apply times_c|]. intros [e [st et]].
  apply pbind_safec; [apply u8_field|]. intros. apply pbind_safec; [apply u8_field|]. intros. apply pbind_safec; [apply u8_field|]. intros.
  apply pmap_safec, ended_safec, total_safec, many0_total; [apply c_rgb_safe|].
  apply nofail_pbind; [apply nofail_field|]. intros. apply nofail_pbind; [apply nofail_cont_colour|]. intros. apply nofail_pmap, nofail_cont_colour.
Qed.
Lemma parameter_skip X s : X \/ fine (c_parameter s) \/ exists e, c_parameter s = PErr e.
Proof.
  apply tag_skip. intros r _. right. apply fine_cut, safec_fine. apply pbind_safec; [apply times_c|]. intros [e [st et]].
  apply pbind_safec; [apply field_c, vf_safe; auto with ev|]. intros.
  apply pmap_safec, ended_safec, total_safec, many0_total; [apply vf_safe; auto with ev|apply nofail_vfield].
Qed.
Lemma move_skip X s : X \/ fine (c_move s) \/ exists e, c_move s = PErr e.
Proof.
  apply map_skip, pre_skip.
  - apply pair_safe; [apply tag_safe|apply peek_safe, comma_safe].
  - apply nofail_pbind; [apply nofail_tag|]. intros. apply nofail_pmap, nofail_peek, nofail_comma.
  - intros r a _. right. apply safec_fine, two_c.
Qed.
Lemma vector_skip X s : X \/ fine (c_vector_scale s) \/ exists e, c_vector_scale s = PErr e.
Proof. apply map_skip, tag_skip. intros r _. right. apply safec_fine, two_c. Qed.
(** the text behind ["T,"] *)
Definition trigger_stop (r : str) : Prop := r = [] \/ exists r', r = 44 :: r'.
Lemma trigger_tail_fine r : trigger_stop r ->
  fine (alt c_trigger_all (alt c_trigger_group (alt c_trigger_nothing c_trigger_end)) r).
Proof.
  intros [->|(u & ->)]; [exact I|].
  assert (H : False \/ fine (alt c_trigger_all (alt c_trigger_group (alt c_trigger_nothing c_trigger_end)) (44 :: u))); [|now destruct H].
  apply or_alt.
  { unfold c_trigger_all, pbind. destruct (preceded comma (comma_field_type parse_i32) (44 :: u)) as [r a|e|e|] eqn:E; [|eauto| |].
    - apply map_skip, pre_skip; [apply comma_safe|apply nofail_comma|]. intros. right.
      apply safec_fine, context_safec, cut_safe, consume_rest_type_safe, np_i32.
    - exfalso. assert (K : nofail (preceded (@comma cmd_err) (comma_field_type parse_i32))) by (apply nofail_pbind; [apply nofail_comma|intros; apply nofail_field]).
      now apply (K (44 :: u) e).
    - assert (K : safe (preceded (@comma cmd_err) (comma_field_type parse_i32))) by (apply preceded_safe; [apply comma_safe|apply cf_safe, np_i32]).
      specialize (K (44 :: u)). now rewrite E in K. }
  apply or_alt.
  { apply map_skip, pre_skip; [apply pair_safe; apply comma_safe|apply nofail_pbind; [apply nofail_comma|intros; apply nofail_pmap, nofail_comma]|].
    intros. right. apply safec_fine, context_safec, cut_safe, consume_rest_type_safe, np_i32. }
  apply or_alt.
  { right. unfold c_trigger_nothing, alt, pmap, verify, prest. destruct (is_blank (44 :: u)); [left; exact I|].
    destruct (str_eqb (44 :: u) (lit ",")); [left; exact I|right; eexists; reflexivity]. }
  right. unfold c_trigger_end. apply fine_map. unfold preceded, pbind, comma. change (lit ",") with [44]. rewrite tag_one.
  apply safec_fine, context_safec, cut_safe, consume_rest_type_safe, np_i32.
Qed.
Definition trigger_start : cp (option Z) :=
  alt (pmap (fun _ => None) (pair comma (peek comma))) (alt (pmap (fun _ => None) (verify prest is_blank)) c_start_time).
Lemma trigger_start_c : safec trigger_start.
Proof.
  apply alt_safec.
  - apply pmap_safe, pair_safe; [apply comma_safe|apply peek_safe, comma_safe].
  - apply nofail_pmap, nofail_pbind; [apply nofail_comma|]. intros. apply nofail_pmap, nofail_peek, nofail_comma.
  - apply alt_safec; [apply pmap_safe, verify_safe, total_safe, prest_total|apply nofail_pmap, nofail_verify, nofail_total, prest_total|apply start_c].
Qed.
Lemma trigger_start_stop s r a : trigger_start s = POk r a -> trigger_stop r.
Proof.
  intros H. apply alt_inv in H as [H|H].
  - apply pmap_inv in H as (x & H & _). apply pbind_inv in H as (r1 & c & _ & H). apply pmap_inv in H as (y & H & _).
    unfold peek in H. destruct (@comma cmd_err r1) eqn:E; try easy. injection H as -> ->. apply comma_inv in E. right. eexists. exact E.
  - apply alt_inv in H as [H|H].
    + apply pmap_inv in H as (x & H & _). apply verify_inv in H as [H _]. unfold prest in H. injection H as <- _. now left.
    + apply field_inv2 in H as (t & -> & H). apply pmap_inv in H as (x & H & _). apply map_res_inv in H as (y & H & _).
      apply comma_field_inv in H. apply H.
Qed.
Lemma trigger_skip s :
  (exists t r, s = lit "T," ++ t ++ r /\ no_comma t = true /\ trigger_stop r /\ bad_trigger (trim t))
  \/ fine (c_trigger s) \/ exists e, c_trigger s = PErr e.
Proof.
  apply map_skip.
  destruct (tag_cases (C := cmd_err) (lit "T") s) as [(r & -> & E)|[_ (e & E)]].
  2:{ right. right. exists e. unfold preceded, pbind. unfold pair at 1, pbind. now rewrite E. }
  destruct (tag_cases (C := cmd_err) (lit ",") r) as [(u & -> & E2)|[_ (e & E2)]].
  2:{ right. left. unfold preceded, pbind. unfold pair at 1, pbind. rewrite E. unfold pmap at 1, context at 1, cut at 1. unfold comma at 1. rewrite E2.
      cbn. unfold add_ctx. destruct (e_ctx e) eqn:Ee; [now rewrite Ee|easy]. }
  match goal with |- _ \/ fine ?Y \/ _ => replace Y with (cut (pair (context CmdInvalidTriggerType (map_res comma_field (fun s => v_unwrap (trigger_type_from_str s))))
    (pair trigger_start (alt c_trigger_all (alt c_trigger_group (alt c_trigger_nothing c_trigger_end))))) u) by reflexivity end.
  match goal with |- ?X \/ _ => assert (K : X \/ fine (cut (pair (context CmdInvalidTriggerType (map_res comma_field (fun s => v_unwrap (trigger_type_from_str s))))
    (pair trigger_start (alt c_trigger_all (alt c_trigger_group (alt c_trigger_nothing c_trigger_end))))) u)); [|destruct K; [now left|right; now left]] end.
  destruct (comma_field_total (C := cmd_err) u) as (r & t & Ef & _). pose proof (comma_field_inv _ _ _ Ef) as (Eu & Hn & Hr).
  destruct (trigger_type_from_str t) as [o|er|p] eqn:Et.
  3:{ left. exists t, r. subst u. split; [easy|]. split; [easy|]. split; [easy|]. now apply trigger_panic_fwd in Et. }
  - apply or_cut, or_pair; [unfold context, map_res; rewrite Ef, Et; destruct o; [easy|now destruct (trigger_never_none t)]|].
    intros r1 a H. apply or_pair; [apply safec_fine, trigger_start_c|]. intros r2 b H2. right. apply trigger_tail_fine. now apply trigger_start_stop in H2.
  - apply or_cut, or_pair; [unfold context, map_res; now rewrite Ef, Et|]. intros r1 a H. exfalso.
    unfold context, map_res in H. now rewrite Ef, Et in H.
Qed.
Definition cmd_alts : cp command :=
  alt c_move (alt c_rotate (alt c_scale (alt c_vector_scale (alt c_fade (alt c_parameter
  (alt c_move_y (alt c_colour (alt c_move_x (alt c_trigger (alt c_loop (context CmdUnknownCommandType pfail))))))))))).
Lemma cmd_alts_or s :
  (exists t r, s = lit "T," ++ t ++ r /\ no_comma t = true /\ trigger_stop r /\ bad_trigger (trim t)) \/ fine (cmd_alts s).
Proof.
  unfold cmd_alts. apply or_alt; [apply move_skip|]. apply or_alt; [apply map_skip, one_skip|]. apply or_alt; [apply map_skip, one_skip|].
  apply or_alt; [apply vector_skip|]. apply or_alt; [apply map_skip, one_skip|]. apply or_alt; [apply parameter_skip|].
  apply or_alt; [apply map_skip, one_skip|]. apply or_alt; [apply colour_skip|]. apply or_alt; [apply map_skip, one_skip|].
  apply or_alt; [apply trigger_skip|]. apply or_alt; [apply loop_skip|]. now right.
Qed.
Definition bad_trigger_line (s : str) : Prop :=
  exists ind t r, s = ind ++ lit "T," ++ t ++ r /\ forallb is_indent ind = true /\ no_comma t = true
    /\ (r = [] \/ exists r', r = 44 :: r') /\ bad_trigger (trim t).
Lemma cmd_panic s : (exists p, cmd_from_str s = RPanic p) <-> bad_trigger_line s.
Proof.
  split.
  - intros [p H]. unfold cmd_from_str in H. assert (K : bad_trigger_line s \/ fine (cmd_parser s)).
    { change cmd_parser with (preceded (take_while is_indent) cmd_alts). apply or_bind; [apply safec_fine, total_safec, take_while_total|].
      intros r a E. apply take_while_inv in E as (-> & Ha & _). destruct (cmd_alts_or r) as [(t & u & -> & H1 & H2 & H3)|K]; [left|now right].
      now exists a, t, u. }
    destruct K as [K|K]; [easy|]. apply fine_np with (x := p) in K. exfalso. destruct (verbose_error_to_error (cmd_parser s)); cbn in *; congruence.
  - intros (ind & t & r & -> & Hi & Hn & Hr & Hb). apply trigger_panic_bwd in Hb as (p & Hp). exists p.
    unfold cmd_from_str. change cmd_parser with (preceded (take_while is_indent) cmd_alts).
    erewrite preceded_step; [|apply (take_while_app is_indent ind (lit "T," ++ t ++ r)); [easy|reflexivity]|reflexivity].
    assert (E : cmd_alts (lit "T," ++ t ++ r) = PPanic p); [|now rewrite E].
    change (cmd_alts (lit "T," ++ t ++ r)) with (alt c_trigger (alt c_loop (context CmdUnknownCommandType pfail)) (lit "T," ++ t ++ r)).
    unfold alt. replace (c_trigger (lit "T," ++ t ++ r)) with (@PPanic cmd_err command p); [reflexivity|]. symmetry.
    unfold c_trigger, pmap at 1. erewrite preceded_step with (r := t ++ r); [|reflexivity|reflexivity].
    unfold cut, pair at 1, pbind, context, map_res.
    assert (Ef : @comma_field cmd_err (t ++ r) = POk r t) by (apply take_while_app; [easy|destruct Hr as [->|(u & ->)]; reflexivity]).
    rewrite Ef. unfold v_unwrap. now rewrite Hp.
Qed.

(** ** the byte offset *)
Lemma slice_some n s q : slice_from_byte n s = Some q -> exists p, s = p ++ q /\ utf8_length p = n.
Proof.
  revert n. induction s as [|c s IH]; intros n; cbn [slice_from_byte].
  - destruct n; [|easy]. intros [= <-]. now exists [].
  - destruct n as [|n]; [intros [= <-]; now exists []|]. destruct (Nat.leb_spec (utf8_width c) (S n)); [|easy].
    intros E. apply IH in E as (p & -> & E). exists (c :: p). split; [easy|]. cbn. fold (utf8_length p). rewrite E. lia.
Qed.
Lemma utf8_width_pos c : (1 <= utf8_width c)%nat.
Proof. unfold utf8_width. destruct (c <? 128), (c <? 2048), (c <? 65536); lia. Qed.
Lemma slice_prefix p q : slice_from_byte (utf8_length p) (p ++ q) = Some q.
Proof.
  induction p as [|c p IH]; [now destruct q|]. cbn [app utf8_length fold_right]. fold (utf8_length p).
  pose proof (utf8_width_pos c). destruct (utf8_width c + utf8_length p)%nat as [|n] eqn:E; [lia|]. cbn [slice_from_byte]. rewrite <- E.
  destruct (Nat.leb_spec (utf8_width c) (utf8_width c + utf8_length p)); [|lia].
  now replace (utf8_width c + utf8_length p - utf8_width c)%nat with (utf8_length p) by lia.
Qed.
Lemma position_some s i : position (fun c => c =? 44) s = Some i <-> exists a b, s = a ++ 44 :: b /\ no_comma a = true /\ length a = i.
Proof.
  revert i. induction s as [|c s IH]; intros i; cbn [position].
  - split; [easy|]. intros ([|] & b & H & _); easy.
  - destruct (N.eqb_spec c 44) as [->|Hc].
    + split; [intros [= <-]; now exists [], s|]. intros ([|d a] & b & H & Hn & <-); [easy|]. injection H as <- H. now cbn in Hn.
    + split.
      * destruct (position _ s) as [j|] eqn:E; cbn; [|easy]. intros [= <-]. destruct (proj1 (IH j) eq_refl) as (a & b & -> & Hn & <-).
        exists (c :: a), b. split; [easy|]. split; [|easy]. cbn. apply N.eqb_neq in Hc. now rewrite Hc.
      * intros ([|d a] & b & H & Hn & <-); [injection H as H _; congruence|]. injection H as <- ->. cbn in Hn. apply andb_true_iff in Hn as [_ Hn].
        assert (K : position (fun c => c =? 44) (a ++ 44 :: b) = Some (length a)) by (apply IH; now exists a, b). now rewrite K.
Qed.
Lemma header_panic s : (exists p, line_without_header s = RPanic p) <-> bad_offset s.
Proof.
  unfold line_without_header. split.
  - intros [p H]. destruct (position _ s) as [i|] eqn:E; [|easy]. destruct (slice_from_byte (S i) s) eqn:F; [easy|].
    apply position_some in E as (a & b & -> & Hn & <-). exists a, b. split; [easy|]. split; [easy|]. intros p' q E K.
    rewrite E, <- K, slice_prefix in F. easy.
  - intros (a & b & E & Hn & H). exists PSlice.
    assert (K : position (fun c => c =? 44) s = Some (length a)) by (apply position_some; now exists a, b). rewrite K.
    destruct (slice_from_byte (S (length a)) s) as [q|] eqn:F; [|easy]. apply slice_some in F as (p & F & G). now destruct (H p q F).
Qed.
Lemma command_panic s : (exists p, cmd_parse [] s = RPanic p) <-> bad_command s.
Proof.
  unfold cmd_parse. cbn [expand_vars]. split.
  - intros [p H]. destruct (line_without_header s) as [t|e|q] eqn:E; cbn [rbind] in H; [|easy|left; apply header_panic; eauto].
    right. apply cmd_panic. eauto.
  - intros [H|H]; [apply header_panic in H as (p & ->); now exists p|]. apply cmd_panic in H as (p & H).
    destruct (line_without_header s) as [t|e|q] eqn:E; cbn [rbind]; [now exists p| |now exists q].
    unfold line_without_header in E. destruct (position _ s); [|easy]. now destruct (slice_from_byte _ s).
Qed.

(** ** own lines *)
Lemma nk_cases k t s :
  (strip_prefix t s = None /\ exists e, nk k (tag t) s = PErr e)
  \/ (exists r, s = t ++ r /\ (r = [] \/ exists u, r = 44 :: u) /\ nk k (tag t) s = POk s k)
  \/ (exists c r e, s = t ++ c :: r /\ c <> 44 /\ nk k (tag t) s = PFail e).
Proof.
  unfold nk, pmap, peek, pair, pbind, pmap. destruct (tag_cases (C := unit) t s) as [(r & -> & E)|[H (e & E)]]; rewrite E; [|left; eauto].
  right. destruct r as [|c r]; [left; exists []; split; [easy|]; now split; [left|]|]. unfold cut, alt, eof, comma. cbn.
  destruct (N.eqb_spec 44 c) as [<-|Hc]; [left; exists (44 :: r); split; [easy|]; split; [right; eauto|easy]|].
  right. exists c, r. eexists. split; [easy|]. split; [congruence|].
  unfold tag. cbn [strip_prefix lit]. apply N.eqb_neq in Hc. unfold tag in *. change (lit ",") with [44]. cbn [strip_prefix]. rewrite Hc. reflexivity.
Qed.
Lemma alt_tag {C} t u s : strip_prefix t s = None -> @alt C _ (tag t) (tag u) s = tag u s.
Proof. unfold alt, tag. now intros ->. Qed.
Lemma nk2_cases k t u s : (forall r, strip_prefix t (u ++ r) = None) ->
  (exists e, nk k (alt (tag t) (tag u)) s = PErr e)
  \/ (nk k (alt (tag t) (tag u)) s = POk s k)
  \/ (exists h c r e, (h = t \/ h = u) /\ s = h ++ c :: r /\ c <> 44 /\ nk k (alt (tag t) (tag u)) s = PFail e).
Proof.
  intros Hd. destruct (tag_cases (C := unit) t s) as [(r & -> & E)|[H (e & E)]].
  - assert (K : nk k (alt (tag t) (tag u)) (t ++ r) = nk k (tag t) (t ++ r)).
    { unfold nk, pmap, peek, pair, pbind, alt. now rewrite E. }
    rewrite K. destruct (nk_cases k t (t ++ r)) as [[K1 _]|[(r' & _ & _ & K1)|(c & r' & e & K1 & K2 & K3)]].
    + rewrite strip_prefix_app in K1. easy.
    + right. now left.
    + right. right. exists t, c, r', e. auto.
  - assert (K : nk k (alt (tag t) (tag u)) s = nk k (tag u) s).
    { unfold nk, pmap, peek, pair, pbind, alt. now rewrite E. }
    rewrite K. destruct (nk_cases k u s) as [[_ K1]|[(r' & _ & _ & K1)|(c & r' & e' & K1 & K2 & K3)]]; [now left|right; now left|].
    right. right. exists u, c, r', e'. auto.
Qed.
Lemma kind_or s : bad_number s \/ exists k, ev_kind_parser s = POk s k.
Proof.
  unfold ev_kind_parser.
  assert (A : forall k t q, In t event_numbers -> (bad_number s \/ exists k', q s = POk s k') ->
    bad_number s \/ exists k', alt (nk k (tag t)) q s = POk s k').
  { intros k t q Hin Hq. unfold alt. destruct (nk_cases k t s) as [[_ (e & ->)]|[(r & _ & _ & ->)|(c & r & e & H1 & H2 & ->)]]; [easy|right; eauto|].
    left. now exists t, c, r. }
  assert (B : forall k t u q, In t event_numbers -> In u event_numbers -> (forall r, strip_prefix t (u ++ r) = None) ->
    (bad_number s \/ exists k', q s = POk s k') -> bad_number s \/ exists k', alt (nk k (alt (tag t) (tag u))) q s = POk s k').
  { intros k t u q Ht Hu Hd Hq. unfold alt at 1. destruct (nk2_cases k t u s Hd) as [(e & ->)|[->|(h & c & r & e & Hh & H1 & H2 & ->)]]; [easy|right; eauto|].
    left. exists h, c, r. split; [now destruct Hh; subst h|easy]. }
  apply A; [cbn; auto 20|]. apply B; [cbn; auto 20|cbn; auto 20|easy|]. apply B; [cbn; auto 20|cbn; auto 20|easy|].
  do 4 (apply A; [cbn; auto 20|]). right. now exists NkOther.
Qed.
Lemma nk_fail k (hd : parser unit str) s c r a : hd s = POk (c :: r) a -> c <> 44 -> exists e, nk k hd s = PFail e.
Proof.
  intros H Hc. unfold nk, pmap, peek, pair, pbind, pmap. rewrite H. unfold cut, alt, eof, comma, tag. change (lit ",") with [44]. cbn [strip_prefix].
  apply N.eqb_neq in Hc. rewrite N.eqb_sym, Hc. eexists. reflexivity.
Qed.
Lemma alt_fail {C A} (p q : parser C A) s e : p s = PFail e -> alt p q s = PFail e.
Proof. unfold alt. now intros ->. Qed.
Lemma number_fails s : bad_number s -> exists e, ev_kind_parser s = PFail e.
Proof.
  intros (h & c & r & Hin & -> & Hc).
  assert (T : forall t k, exists e, nk k (tag t) (t ++ c :: r) = PFail e) by (intros t k; eapply nk_fail; [apply tag_app|easy]).
  assert (T1 : forall t u k, exists e, nk k (alt (tag t) u) (t ++ c :: r) = PFail e).
  { intros t u k. eapply nk_fail; [|exact Hc]. apply alt_l, tag_app. }
  assert (T2 : forall t u k e, @tag unit t (u ++ c :: r) = PErr e -> exists e, nk k (alt (tag t) (tag u)) (u ++ c :: r) = PFail e).
  { intros t u k e E. eapply nk_fail; [|exact Hc]. erewrite alt_r by exact E. apply tag_app. }
  unfold event_numbers in Hin. cbn [In] in Hin. unfold ev_kind_parser.
  destruct Hin as [<-|[<-|[<-|[<-|[<-|[<-|[<-|[<-|[<-|[]]]]]]]]]].
  - destruct (T (lit "0") NkBackground) as (e & E). exists e. apply alt_fail, E.
  - destruct (T1 (lit "1") (tag (lit "Video")) NkVideo) as (e & E). exists e. do 1 (erewrite alt_r by reflexivity). apply alt_fail, E.
  - destruct (T2 (lit "1") (lit "Video") NkVideo _ eq_refl) as (e & E). exists e. do 1 (erewrite alt_r by reflexivity). apply alt_fail, E.
  - destruct (T1 (lit "2") (tag (lit "Break")) NkBreak) as (e & E). exists e. do 2 (erewrite alt_r by reflexivity). apply alt_fail, E.
  - destruct (T2 (lit "2") (lit "Break") NkBreak _ eq_refl) as (e & E). exists e. do 2 (erewrite alt_r by reflexivity). apply alt_fail, E.
  - destruct (T (lit "3") NkColourTransformation) as (e & E). exists e. do 3 (erewrite alt_r by reflexivity). apply alt_fail, E.
  - destruct (T (lit "4") NkSpriteLegacy) as (e & E). exists e. do 4 (erewrite alt_r by reflexivity). apply alt_fail, E.
  - destruct (T (lit "5") NkAnimationLegacy) as (e & E). exists e. do 5 (erewrite alt_r by reflexivity). apply alt_fail, E.
  - destruct (T (lit "6") NkSampleLegacy) as (e & E). exists e. do 6 (erewrite alt_r by reflexivity). apply alt_fail, E.
Qed.
Lemma own_panic dbg v s : old_version v = false ->
  ((exists p, ev_from_line dbg v s = RPanic p) <-> bad_number s \/ bad_loop_type s).
Proof.
  intros Hv. unfold ev_from_line.
  assert (K : forall A B E F (f : A -> B) (g : E -> F) r, (forall x, r <> RPanic x) -> forall x, rmap2 f g r <> RPanic x).
  { intros A B E F f g r H x. specialize (H x). destruct r as [[]| |]; cbn; congruence. }
  split.
  - intros [p H]. destruct (kind_or s) as [|(k & E)]; [now left|right]. rewrite E in H. apply ob_panic. destruct k.
    1-7: exfalso; revert H; apply K; intros x; apply vee_np.
    + apply bg_safec. + now apply vid_safec. + now apply brk_safec. + now apply ctr_safec. + apply leg_safec. + apply leg_safec. + apply sl_safec.
    + destruct (ob_from_str s) as [o|er|q]; [easy| |eauto]. exfalso. destruct er; try easy.
      assert (L : forall x, rmap2 EAudioSample EvAudioSample (au_from_str s) <> RPanic x).
      { apply K. intros x. unfold au_from_str. destruct s; [easy|]. apply vee_np, au_safec. }
      destruct (rmap2 EAudioSample EvAudioSample (au_from_str s)) as [a|er2|q]; [easy|destruct er2; try easy; now destruct e|now apply (L q)].
  - intros [H|H]; [apply number_fails in H as (e & ->); now exists PUnwrap|].
    assert (E : ev_kind_parser s = POk s NkOther) by (destruct H as (a & b & c & d & e & f & g & h & -> & _); reflexivity).
    rewrite E. apply ob_panic in H as (p & ->). now exists p.
Qed.

(** ** the section *)
Lemma indent_pos s : Nat.ltb 0 (indent_of s) = indented s.
Proof. unfold indent_of, indented. destruct s as [|c s]; [easy|]. cbn [span]. destruct (is_indent c); [|easy]. now destruct (span is_indent s). Qed.
Lemma takes_alt evs : takes_commands evs <-> exists l e, evs = l ++ [e] /\ ev_cmds e <> None.
Proof. split; intros (l & e & -> & H); exists l, e; (split; [easy|]); now destruct e. Qed.
Lemma step_panic dbg v evs s : old_version v = false -> is_blank s = false ->
  ((exists p, ev_step dbg v [] evs s = RPanic p) <-> bad_line s /\ (indented s = true -> takes_commands evs)).
Proof.
  intros Hv Hb. rewrite takes_alt. unfold ev_step, bad_line. destruct (strip_prefix (lit "//") s) as [c|] eqn:E; [split; [now intros [p H]|now intros [[_ [H _]] _]]|].
  rewrite indent_pos. destruct (indented s) eqn:Ei.
  - rewrite <- command_panic. destruct (last_opt_cases evs) as [[-> ->]|(l & e & -> & ->)].
    { split; [now intros [p H]|]. intros [_ H]. destruct (H eq_refl) as (l & e & He & _). now destruct l. }
    destruct (ev_cmds e) as [cs|] eqn:Ec.
    2:{ split; [now intros [p H]|]. intros [_ H]. destruct (H eq_refl) as (l' & e' & He & He'). apply app_inj_tail in He as [_ ->]. congruence. }
    split.
    + intros [p H]. split; [|intros _; exists l, e; split; [easy|congruence]]. split; [easy|]. split; [easy|].
      destruct (cmd_parse [] s) as [[c|]|er|q]; cbn [rmap_err rbind] in H; try easy; [|eauto]. exfalso.
      assert (Hp : (1 <= indent_of s)%nat) by (rewrite <- indent_pos in Ei; now apply Nat.ltb_lt in Ei).
      pose proof (try_push_spec cs c (indent_of s) Hp) as K. destruct (try_push_cmd cs c (indent_of s)) as [|[]|]; easy.
    + intros [(_ & _ & (p & ->)) _]. now exists p.
  - rewrite <- (own_panic dbg v s Hv). split.
    + intros [p H]. split; [|easy]. split; [easy|]. split; [easy|]. destruct (ev_from_line dbg v s); cbn in H; try easy. eauto.
    + intros [(_ & _ & (p & ->)) _]. now exists p.
Qed.
Lemma loop_app dbg v vars a b : forall i evs, ev_loop dbg v vars i evs (a ++ b)
  = match ev_loop dbg v vars i evs a with ROk evs' => ev_loop dbg v vars (i + Z.of_nat (length a)) evs' b | RErr e => RErr e | RPanic p => RPanic p end.
Proof.
  induction a as [|x a IH]; intros i evs; cbn [app ev_loop length]; [f_equal; lia|].
  replace (i + Z.of_nat (S (length a)))%Z with (i + 1 + Z.of_nat (length a))%Z by lia.
  destruct (is_blank x); [apply IH|]. destruct (ev_step dbg v vars evs x); [apply IH|easy|easy].
Qed.
Lemma loop_panics dbg v ls : old_version v = false -> forall i evs p, ev_loop dbg v [] i evs ls = RPanic p ->
  exists a l b evs', ls = a ++ l :: b /\ ev_loop dbg v [] i evs a = ROk evs' /\ bad_line l /\ (indented l = true -> takes_commands evs').
Proof.
  intros Hv. induction ls as [|l ls IH]; intros i evs p; cbn [ev_loop]; [easy|].
  destruct (is_blank l) eqn:Eb.
  - intros H. apply IH in H as (a & x & b & evs' & -> & H1 & H2). exists (l :: a), x, b, evs'. split; [easy|]. cbn [ev_loop]. now rewrite Eb.
  - destruct (ev_step dbg v [] evs l) as [evs1|e|q] eqn:E; [|easy|].
    + intros H. apply IH in H as (a & x & b & evs' & -> & H1 & H2). exists (l :: a), x, b, evs'. split; [easy|]. cbn [ev_loop]. now rewrite Eb, E.
    + intros _. exists [], l, ls, evs. split; [easy|]. split; [easy|]. apply (step_panic dbg v evs l Hv Eb). eauto.
Qed.
Lemma events_panic dbg v s : old_version v = false ->
  ((exists p, events_from_str dbg s v = RPanic p) <->
   exists a l b evs, lines s = a ++ l :: b /\ ev_loop dbg v [] 0 [] a = ROk evs /\ bad_line l /\ (indented l = true -> takes_commands evs)).
Proof.
  intros Hv. unfold events_from_str, events_from_str_vars. split.
  - intros [p H]. destruct (ev_loop dbg v [] 0 [] (lines s)) as [|e|q] eqn:E; try easy. now apply loop_panics in E.
  - intros (a & l & b & evs & -> & H1 & H2 & H3). rewrite loop_app, H1. cbn [ev_loop]. pose proof (proj1 H2) as Hb. rewrite Hb.
    destruct (proj2 (step_panic dbg v evs l Hv Hb) (conj H2 H3)) as (p & ->). now exists p.
Qed.
Lemma lines_cut s t : lines (s ++ 10 :: t) = lines (s ++ [10]) ++ lines t.
Proof.
  induction s as [|c s IH]; [easy|]. cbn [app lines]. rewrite IH. destruct (c =? c_nl); [easy|].
  replace (match s ++ 10 :: t with d :: _ => d =? c_nl | [] => false end) with (match s ++ [10] with d :: _ => d =? c_nl | [] => false end) by now destruct s.
  destruct (_ && _); [easy|]. destruct (lines (s ++ [10])) as [|l ls] eqn:E; [|easy]. exfalso. clear - E.
  assert (K : forall s, lines (s ++ [10]) <> []); [|now apply (K s)]. clear. induction s as [|c s IH]; [easy|]. cbn [app lines].
  destruct (c =? c_nl); [easy|]. destruct (_ && _); [easy|]. now destruct (lines (s ++ [10])).
Qed.
(** A bad line below text that is read stops the reader, whatever follows. *)
Lemma bad_line_panics dbg v s l t evs : old_version v = false ->
  events_from_str dbg (s ++ [10]) v = ROk (Some evs) -> plain_line l = true -> bad_line l -> (indented l = true -> takes_commands evs) ->
  exists p, events_from_str dbg (s ++ [10] ++ l ++ [10] ++ t) v = RPanic p.
Proof.
  intros Hv H Hl Hb Ht. apply events_panic; [easy|]. unfold plain_line in Hl. apply andb_true_iff in Hl as [Hl1 Hl2]. apply negb_true_iff in Hl2.
  exists (lines (s ++ [10])), l, (lines t), evs. split; [|split; [|easy]].
  - cbn [app]. rewrite lines_cut. f_equal. now apply lines_app_nl.
  - unfold events_from_str, events_from_str_vars in H. destruct (ev_loop dbg v [] 0 [] (lines (s ++ [10]))); cbn in H; congruence.
Qed.
Lemma calm_events dbg v s p : old_version v = false -> (forall l, In l (lines s) -> ~ bad_line l) -> events_from_str dbg s v <> RPanic p.
Proof.
  intros Hv H E. destruct (proj1 (events_panic dbg v s Hv) (ex_intro _ p E)) as (a & l & b & evs & Hs & _ & Hb & _).
  apply (H l); [rewrite Hs; apply in_elt|easy].
Qed.
Lemma lines_crlf ls : forallb no_nl ls = true -> lines (crlf_text ls) = ls.
Proof.
  induction ls as [|l ls IH]; [easy|]. cbn [forallb]. intros H. apply andb_true_iff in H as [Hl H]. specialize (IH H).
  unfold crlf_text in *. cbn [map concat]. rewrite <- app_assoc. cbn [app]. rewrite <- IH at 2. generalize (concat (map (fun l => l ++ [13; 10]) ls)). intros t.
  clear - Hl. induction l as [|c l IH]; [reflexivity|]. cbn [no_nl forallb] in Hl. apply andb_true_iff in Hl as [Hc Hl].
  cbn [app lines]. rewrite (IH Hl). apply negb_true_iff in Hc. unfold c_nl, c_cr. rewrite Hc.
  replace (match l ++ 13 :: 10 :: t with d :: _ => d =? 10 | [] => false end) with false; [now rewrite andb_false_r|].
  destruct l as [|d l]; [easy|]. cbn [no_nl forallb] in Hl. apply andb_true_iff in Hl as [Hd _]. now apply negb_true_iff in Hd.
Qed.
Lemma section_panics dbg s v : old_version v = false ->
  ((exists p, events_from_str dbg s v = RPanic p) <->
   exists a l b evs, lines s = a ++ l :: b /\ events_from_str dbg (crlf_text a) v = ROk (Some evs) /\ bad_line l /\ (indented l = true -> takes_commands evs)).
Proof.
  intros Hv. rewrite (events_panic dbg v s Hv).
  assert (K : forall a l b, lines s = a ++ l :: b -> lines (crlf_text a) = a).
  { intros a l b E. apply lines_crlf. pose proof (lines_no_nl s) as H. rewrite E, forallb_app in H. now apply andb_true_iff in H. }
  split; intros (a & l & b & evs & H1 & H2 & H3); exists a, l, b, evs; (split; [easy|]); (split; [|easy]); specialize (K _ _ _ H1);
    unfold events_from_str, events_from_str_vars in *; rewrite K in *; destruct (ev_loop dbg v [] 0 [] a); cbn in *; congruence.
Qed.
