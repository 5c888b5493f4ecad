(** Facts about the [HitObjects] section. *)
From Coq Require Import String List NArith ZArith Bool Lia.
From Verif Require Import Str Num Nom Dec Parsers Colours TimingPoints HitObjects Spec StrFacts NumFacts
  NomFacts DecFacts LineFacts ColoursFacts FieldFacts TpFacts.
Import ListNotations.
Local Open Scope N_scope.

(** ** no panic *)
Lemma np_sample_set : np sample_set_from_str.
Proof. unfold sample_set_from_str. apply np_rmap. auto with safe. Qed.
Lemma sample_set_some s : sample_set_from_str s <> ROk None.
Proof. unfold sample_set_from_str. now destruct (parse_usize s). Qed.
Lemma np_hit_sound : np hit_sound_from_str.
Proof. unfold hit_sound_from_str. apply np_rmap. auto with safe. Qed.
Lemma hit_sound_some s : hit_sound_from_str s <> ROk None.
Proof. unfold hit_sound_from_str. now destruct (parse_u8 s). Qed.
Lemma np_ho_index : np ho_index_from_str.
Proof. unfold ho_index_from_str. apply np_rmap. auto with safe. Qed.
Lemma ho_index_some s : ho_index_from_str s <> ROk None.
Proof. unfold ho_index_from_str. now destruct (parse_usize s). Qed.
Lemma np_ho_volume : np ho_volume_from_str.
Proof.
  intros s p. unfold ho_volume_from_str. pose proof (parse_u8_no_panic s) as H.
  destruct (parse_u8 s) as [z|e|q]; [|easy|now destruct (H q)].
  unfold ho_volume_new. destruct (z =? 0)%Z eqn:E0; [easy|]. rewrite E0. now destruct (100 <? z)%Z.
Qed.
Lemma ho_volume_some s : ho_volume_from_str s <> ROk None.
Proof.
  unfold ho_volume_from_str. destruct (parse_u8 s) as [z|e|q]; try easy.
  unfold ho_volume_new. destruct (z =? 0)%Z eqn:E0; [easy|]. rewrite E0. now destruct (100 <? z)%Z.
Qed.
Lemma np_curve_type : np curve_type_from_str.
Proof.
  intros s p. unfold curve_type_from_str.
  repeat match goal with |- context [str_eqb ?a ?b] => destruct (str_eqb a b) end; easy.
Qed.
Lemma curve_type_some s : curve_type_from_str s <> ROk None.
Proof.
  unfold curve_type_from_str.
  repeat match goal with |- context [str_eqb ?a ?b] => destruct (str_eqb a b) end; easy.
Qed.
Lemma edge_set_parser_safec : safec edge_set_parser.
Proof.
  unfold edge_set_parser. apply pbind_safec.
  - apply terminated_safec; apply context_safec; [|apply tag_safe].
    apply map_res_safe; [apply total_safe, take_while_total|].
    apply np_v_unwrap; [apply np_sample_set|apply sample_set_some].
  - intros. apply pmap_safec, context_safec, consume_rest_versioned_type_safe;
      [apply np_sample_set|apply sample_set_some].
Qed.
Lemma np_edge_set : np edge_set_from_str.
Proof.
  intros s p. unfold edge_set_from_str. pose proof (verbose_np edge_set_parser s p edge_set_parser_safec).
  destruct (verbose_error_to_error _); cbn; congruence.
Qed.
Lemma edge_set_some s : edge_set_from_str s <> ROk None.
Proof. unfold edge_set_from_str. now destruct (verbose_error_to_error _). Qed.
Lemma curve_point_parser_safec : safec curve_point_parser.
Proof.
  unfold curve_point_parser. apply pbind_safec.
  - apply terminated_safec; apply context_safec; [|apply tag_safe].
    apply map_res_safe; [apply total_safe, take_while_total|]. auto with safe.
  - intros. apply pmap_safec, context_safec, consume_rest_type_safe. auto with safe.
Qed.
Lemma np_curve_point : np curve_point_from_str.
Proof.
  intros s p. unfold curve_point_from_str.
  pose proof (verbose_np curve_point_parser s p curve_point_parser_safec).
  destruct (verbose_error_to_error _); cbn; congruence.
Qed.
Lemma curve_point_some s : curve_point_from_str s <> ROk None.
Proof. unfold curve_point_from_str. now destruct (verbose_error_to_error _). Qed.

Lemma hs_optional_safec {A} (p : parser hs_err A) : safec p -> safec (hs_optional p).
Proof.
  intros H. unfold hs_optional.
  assert (Hn : nofail (@nothing hs_err)).
  { apply nofail_pbind; [apply nofail_total, take_while_total|]. intros. apply nofail_eof. }
  apply alt_safec.
  - apply pmap_safe, preceded_safe; [apply tag_safe|apply nothing_safe].
  - apply nofail_pmap, nofail_pbind; [apply nofail_tag|easy].
  - apply alt_safec; [apply pmap_safe, nothing_safe|now apply nofail_pmap|].
    apply preceded_safec; [apply context_safec, tag_safe|now apply pmap_safec].
Qed.
Lemma hs_field_total : total hs_field.
Proof. apply take_while_total. Qed.
Lemma hs_sample_set_safec : safec hs_sample_set.
Proof.
  unfold hs_sample_set. apply context_safec, map_res_safe; [apply total_safe, hs_field_total|].
  apply np_v_unwrap; [apply np_sample_set|apply sample_set_some].
Qed.
Lemma nothing_nofail {C} : nofail (@nothing C).
Proof. apply nofail_pbind; [apply nofail_total, take_while_total|]. intros. apply nofail_eof. Qed.
Lemma hit_sample_parser_safec : safec hit_sample_parser.
Proof.
  unfold hit_sample_parser. apply alt_safec; [apply pmap_safe, nothing_safe|apply nofail_pmap, nothing_nofail|].
  apply pbind_safec.
  { apply alt_safec; [apply pmap_safe, nothing_safe|apply nofail_pmap, nothing_nofail|].
    apply pmap_safec, hs_sample_set_safec. }
  intros. apply pbind_safec; [apply hs_optional_safec, hs_sample_set_safec|].
  intros. apply pbind_safec.
  { apply hs_optional_safec, context_safec, map_res_safe; [apply total_safe, hs_field_total|].
    apply np_v_unwrap; [apply np_ho_index|apply ho_index_some]. }
  intros. apply pbind_safec.
  { apply hs_optional_safec, context_safec, map_res_safe; [apply total_safe, hs_field_total|].
    apply np_v_unwrap; [apply np_ho_volume|apply ho_volume_some]. }
  intros. apply pmap_safec, hs_optional_safec, total_safec, hs_field_total.
Qed.
Lemma np_hit_sample : np hit_sample_from_str.
Proof.
  intros s p. unfold hit_sample_from_str.
  pose proof (verbose_np hit_sample_parser s p hit_sample_parser_safec).
  destruct (verbose_error_to_error _); cbn; congruence.
Qed.
Lemma hit_sample_some s : hit_sample_from_str s <> ROk None.
Proof. unfold hit_sample_from_str. now destruct (verbose_error_to_error _). Qed.

Lemma ho_sample_safec {A} (sep : parser ho_err A) : safe sep ->
  safec (alt (pmap (fun _ => None) nothing)
        (pmap Some (preceded (context HoMissingHitSample sep)
           (context HoInvalidHitSample
              (map_res prest (fun s => v_unwrap (hit_sample_from_str s))))))).
Proof.
  intros H. apply alt_safec; [apply pmap_safe, nothing_safe|apply nofail_pmap, nothing_nofail|].
  apply pmap_safec, preceded_safec; apply context_safec; [easy|].
  apply map_res_safe; [apply total_safe, prest_total|].
  apply np_v_unwrap; [apply np_hit_sample|apply hit_sample_some].
Qed.
Lemma ho_hitsample_safec : safec ho_hitsample_p.
Proof. apply ho_sample_safec, comma_safe. Qed.
Lemma ho_hold_hitsample_safec : safec ho_hold_hitsample.
Proof. apply ho_sample_safec, pchar_safe. Qed.
Lemma cdec_safec e1 e2 :
  safec (preceded (context e1 comma) (context e2 (comma_field_type (C:=ho_err) (@parse_decimal unit)))).
Proof.
  apply preceded_safec; apply context_safec; [apply comma_safe|apply total_safe, dec_field_total].
Qed.
Lemma ho_common_safec v : old_version v = false -> safec (ho_common v).
Proof.
  intros Hv. unfold ho_common.
  apply pbind_safec; [apply context_safec, total_safe, dec_field_total|]. intros.
  apply pbind_safec; [apply cdec_safec|]. intros.
  apply pbind_safec; [apply map_run_safec; [apply cdec_safec|now apply np_shift_in]|]. intros.
  apply pbind_safec.
  { apply preceded_safec; apply context_safec; [apply comma_safe|]. apply comma_field_type_safe. auto with safe. }
  intros. apply pmap_safec, preceded_safec; apply context_safec; [apply comma_safe|].
  apply comma_field_versioned_type_safe; [apply np_hit_sound|apply hit_sound_some].
Qed.
Lemma ho_curve_safec v : safec (ho_curve v).
Proof.
  unfold ho_curve. apply alt_safec2.
  - apply pmap_safec, preceded_safec; apply context_safec; [apply comma_safe|].
    apply comma_field_versioned_type_safe; [apply np_curve_type|apply curve_type_some].
  - apply pbind_safec.
    + apply preceded_safec; apply context_safec; [apply comma_safe|].
      apply map_res_safe; [apply total_safe, take_while_total|].
      apply np_v_unwrap; [apply np_curve_type|apply curve_type_some].
    + intros. apply pmap_safec, preceded_safec; apply context_safec; [apply pchar_safe|].
      apply pipe_vec_safe; [apply np_curve_point|apply curve_point_some].
Qed.
Lemma ho_edges_safec : safec ho_edges.
Proof.
  unfold ho_edges. apply alt_safec; [apply pmap_safe, nothing_safe|apply nofail_pmap, nothing_nofail|].
  apply pbind_safec.
  { apply preceded_safec; apply context_safec; [apply comma_safe|].
    apply pipe_vec_safe; [apply np_hit_sound|apply hit_sound_some]. }
  intros. apply pmap_safec.
  apply alt_safec; [apply pmap_safe, nothing_safe|apply nofail_pmap, nothing_nofail|].
  apply pbind_safec; [|intros; apply pmap_safec, ho_hitsample_safec].
  apply preceded_safec; apply context_safec; [apply comma_safe|].
  apply pipe_vec_safe; [apply np_edge_set|apply edge_set_some].
Qed.
Lemma ho_slider_safec v : safec (ho_slider v).
Proof.
  unfold ho_slider. apply pbind_safec; [apply ho_curve_safec|]. intros [ct cps].
  apply pbind_safec.
  { apply preceded_safec; apply context_safec; [apply comma_safe|]. apply comma_field_type_safe. auto with safe. }
  intros. apply pbind_safec; [apply cdec_safec|]. intros. apply pmap_safec, ho_edges_safec.
Qed.
Lemma ho_spinner_safec v : old_version v = false -> safec (ho_spinner v).
Proof.
  intros Hv. unfold ho_spinner.
  apply pbind_safec; [apply map_run_safec; [apply cdec_safec|now apply np_shift_in]|]. intros.
  apply pmap_safec, ho_hitsample_safec.
Qed.
Lemma ho_hold_safec v : old_version v = false -> safec (ho_hold v).
Proof.
  intros Hv. unfold ho_hold. apply pbind_safec.
  - apply preceded_safec; [apply context_safec, comma_safe|].
    apply map_run_safec; [|now apply np_shift_in].
    apply context_safec, map_res_safe; [apply take_until_safe|]. auto with safe.
  - intros. apply pmap_safec, ho_hold_hitsample_safec.
Qed.
Lemma skip_ok ty : combo_skip_count_try_from (Z.land (Z.shiftr ty 4) 7) = ROk (Some (Z.land (Z.shiftr ty 4) 7)).
Proof.
  assert (H : (Z.land (Z.shiftr ty 4) 7 < 8)%Z).
  { change 7%Z with (Z.ones 3). rewrite Z.land_ones by lia. now apply (Z.mod_pos_bound (Z.shiftr ty 4) (2 ^ 3)). }
  unfold combo_skip_count_try_from. destruct (Z.ltb_spec 7 (Z.land (Z.shiftr ty 4) 7)); [lia|easy].
Qed.
Lemma verbose_np_rmap {C A B} (p : parser C A) (f : A -> B) s x :
  safec p -> rmap f (verbose_error_to_error (p s)) <> RPanic x.
Proof.
  intros H. pose proof (verbose_np p s x H). destruct (verbose_error_to_error (p s)); cbn; congruence.
Qed.
Lemma ho_from_str_np v s p : old_version v = false -> ho_from_str v s <> RPanic p.
Proof.
  intros Hv. unfold ho_from_str. pose proof (ho_common_safec v Hv s) as H.
  destruct (ho_common v s) as [r [[[pos time] ty] snd_]|e|e|q]; try easy.
  - rewrite skip_ok. destruct (nth_bit ty 0); [apply verbose_np_rmap, ho_hitsample_safec|].
    destruct (nth_bit ty 1); [apply verbose_np_rmap, ho_slider_safec|].
    destruct (nth_bit ty 3); [now apply verbose_np_rmap, ho_spinner_safec|].
    destruct (nth_bit ty 7); [now apply verbose_np_rmap, ho_hold_safec|]. easy.
  - cbn in *. now destruct (e_ctx e).
  - cbn in *. now destruct (e_ctx e).
Qed.
Lemma ho_from_str_none v s : ho_from_str v s <> ROk None.
Proof.
  unfold ho_from_str. destruct (ho_common v s) as [r [[[pos time] ty] snd_]|e|e|q]; try easy;
    try (cbn; now destruct (e_ctx e)).
  destruct (combo_skip_count_try_from _) as [[k|]| |]; try easy. cbv beta iota zeta.
  destruct (nth_bit ty 0); [now destruct (verbose_error_to_error _)|].
  destruct (nth_bit ty 1); [now destruct (verbose_error_to_error _) as [[]| |]|].
  destruct (nth_bit ty 3); [now destruct (verbose_error_to_error _) as [[]| |]|].
  destruct (nth_bit ty 7); [now destruct (verbose_error_to_error _) as [[]| |]|]. easy.
Qed.
Lemma hit_objects_np s v p : old_version v = false -> hit_objects_from_str s v <> RPanic p.
Proof.
  intros Hv. unfold hit_objects_from_str.
  pose proof (parse_lines_np (fun l => v_unwrap (ho_from_str v l)) 0 (lines s) p) as H.
  destruct (parse_lines _ 0 (lines s)); cbn; try easy. intros [= ->].
  apply H; [|easy]. intros l _ q. apply np_v_unwrap; [intros a x; now apply ho_from_str_np|apply ho_from_str_none].
Qed.

(** ** error lines *)
Lemma hit_objects_error_line s v i e :
  hit_objects_from_str s v = RErr (mk_line_err i e) ->
  exists n l, i = Z.of_nat n /\ nth_error (lines s) n = Some l
    /\ hit_objects_from_str l v = RErr (mk_line_err 0 e)
    /\ forall m l', (m < n)%nat -> nth_error (lines s) m = Some l' ->
         exists x, hit_objects_from_str l' v = ROk x.
Proof.
  unfold hit_objects_from_str.
  destruct (parse_lines _ 0 (lines s)) as [|e0|] eqn:E; cbn; try easy. intros [= ->].
  apply parse_lines_err in E as (n & l & -> & Hn & Hb & Hf & Hm).
  exists n, l. repeat split; try easy.
  - now rewrite (parse_lines_alone_err _ s n l e).
  - intros m l' Hlt Hl'. destruct (parse_lines_alone_ok (fun l => v_unwrap (ho_from_str v l)) s m l' Hl' (Hm m l' Hlt Hl')) as [xs Hxs].
    rewrite Hxs. cbn. eauto.
Qed.

(** ** pipe separated lists *)
Definition stop_comma (s : str) : bool := match s with [] => true | c :: _ => c =? 44 end.
Lemma stop_comma_item s : stop_comma s = true -> stops item_char s = true.
Proof. destruct s as [|c s]; [easy|]. cbn. intros H. apply N.eqb_eq in H. now subst. Qed.
Lemma stop_comma_tag {C} s : stop_comma s = true -> exists e, @tag C (lit "|") s = PErr e.
Proof.
  destruct s as [|c s]; [intros _; eexists; reflexivity|]. cbn. intros H. apply N.eqb_eq in H. subst. eexists; reflexivity.
Qed.
Section Pipe.
  Context {C A E : Type}.
  Variable f : str -> res (option A) E.
  Variable pr : A -> str.
  Let p : parser C A := map_res (take_while item_char) (fun s => v_unwrap (f s)).
  Lemma pipe_item x rest :
    item_text (pr x) = true -> f (pr x) = ROk (Some x) -> stops item_char rest = true ->
    p (pr x ++ rest) = POk rest x.
  Proof.
    intros H1 H2 H3. eapply map_res_ok; [now apply take_while_app|]. unfold v_unwrap. now rewrite H2.
  Qed.
  Lemma pipe_tail l rest fuel :
    (forall x, In x l -> item_text (pr x) = true /\ f (pr x) = ROk (Some x)) ->
    stop_comma rest = true -> (length l < fuel)%nat ->
    sep_tail fuel (tag (lit "|")) p (flat_map (fun x => lit "|" ++ pr x) l ++ rest) = POk rest l.
  Proof.
    revert fuel. induction l as [|x l IH]; intros fuel H Hr Hf; destruct fuel as [|fuel]; try (cbn in Hf; lia).
    - cbn [flat_map app]. cbn [sep_tail]. destruct (@stop_comma_tag C rest Hr) as [e ->]. easy.
    - cbn [flat_map]. rewrite <- !app_assoc. cbn [sep_tail]. rewrite tag_app.
      assert (Hl : Nat.eqb (length (pr x ++ flat_map (fun x => lit "|" ++ pr x) l ++ rest))
                 (length (lit "|" ++ pr x ++ flat_map (fun x => lit "|" ++ pr x) l ++ rest)) = false).
      { apply Nat.eqb_neq. cbn [app length]. unfold lit. cbn. lia. }
      rewrite Hl. destruct (H x (or_introl eq_refl)) as [H1 H2]. rewrite pipe_item; [|easy|easy|].
      + rewrite IH; [easy|intros; apply H; now right|easy|cbn in Hf; lia].
      + destruct l as [|y l]; [now apply stop_comma_item|easy].
  Qed.
  Lemma pipe_join x l : join (lit "|") (map pr (x :: l)) = pr x ++ flat_map (fun x => lit "|" ++ pr x) l.
  Proof.
    revert x. induction l as [|y l IH]; intros x; [cbn; now rewrite app_nil_r|].
    cbn [map] in *. rewrite join_cons2, IH. cbn [flat_map]. now rewrite <- !app_assoc.
  Qed.
  Lemma pipe_vec_print l rest :
    l <> [] ->
    (forall x, In x l -> item_text (pr x) = true /\ f (pr x) = ROk (Some x)) ->
    stop_comma rest = true ->
    @pipe_vec_versioned_map C A E f (pipe_vec_to_string pr l ++ rest) = POk rest l.
  Proof.
    intros Hne H Hr. destruct l as [|x l]; [easy|]. clear Hne.
    unfold pipe_vec_to_string. rewrite pipe_join, <- app_assoc.
    destruct (H x (or_introl eq_refl)) as [H1 H2].
    unfold pipe_vec_versioned_map, separated_list0. fold item_char. fold p.
    rewrite pipe_item; [|easy|easy|destruct l as [|y l]; [now apply stop_comma_item|easy]].
    rewrite pipe_tail; [easy|intros; apply H; now right|easy|].
    clear. induction l as [|y l IH]; cbn in *; [lia|]. rewrite !app_length in *. lia.
  Qed.
  Lemma pipe_vec_empty rest e :
    f [] = RErr e -> stop_comma rest = true -> @pipe_vec_versioned_map C A E f rest = POk rest [].
  Proof.
    intros Hf Hr. unfold pipe_vec_versioned_map, separated_list0, map_res. fold item_char.
    rewrite take_while_none by now apply stop_comma_item. unfold v_unwrap. now rewrite Hf.
  Qed.
  (** inversion *)
  Lemma sep_tail_inv fuel s r l :
    sep_tail fuel (tag (lit "|")) p s = POk r l ->
    (exists a, s = a ++ r) /\ Forall (fun x => exists t, item_text t = true /\ f t = ROk (Some x)) l.
  Proof.
    revert s r l. induction fuel as [|fuel IH]; intros s r l; cbn [sep_tail]; [easy|].
    destruct (tag (lit "|") s) as [r1 a1| | |] eqn:Et; try easy.
    - destruct (Nat.eqb _ _); [easy|].
      destruct (p r1) as [r2 x| | |] eqn:Ep; try easy.
      + destruct (sep_tail fuel (tag (lit "|")) p r2) as [r3 l3| | |] eqn:E3; try easy.
        intros [= <- <-]. apply IH in E3 as [[a Ha] Hl]. apply tag_inv in Et as [-> _].
        apply map_res_inv in Ep as (t & Ht & Hx). apply take_while_inv in Ht as (-> & Ht & _).
        subst. split; [exists (lit "|" ++ t ++ a); now rewrite <- !app_assoc|].
        constructor; [|easy]. exists t. split; [easy|now apply v_unwrap_inv].
      + intros [= <- <-]. split; [now exists []|constructor].
    - intros [= <- <-]. split; [now exists []|constructor].
  Qed.
  Lemma pipe_vec_inv s r l :
    @pipe_vec_versioned_map C A E f s = POk r l ->
    (exists a, s = a ++ r) /\ Forall (fun x => exists t, item_text t = true /\ f t = ROk (Some x)) l.
  Proof.
    unfold pipe_vec_versioned_map, separated_list0. fold item_char. fold p.
    destruct (p s) as [r1 x| | |] eqn:Ep; try easy.
    - destruct (sep_tail _ _ _ _) as [r3 l3| | |] eqn:E3; try easy.
      intros [= <- <-]. apply sep_tail_inv in E3 as [[a Ha] Hl].
      apply map_res_inv in Ep as (t & Ht & Hx). apply take_while_inv in Ht as (-> & Ht & _).
      subst. split; [exists (t ++ a); now rewrite <- !app_assoc|].
      constructor; [|easy]. exists t. split; [easy|now apply v_unwrap_inv].
    - intros [= <- <-]. split; [now exists []|constructor].
  Qed.
End Pipe.
