(** What is printed for every value (C52). *)
From Coq Require Import String List NArith ZArith Bool Lia.
From Verif Require Import Str Num Nom Dec Parsers KeyValue General Editor Metadata Difficulty Colours TimingPoints HitObjects Unicode Storyboard
  NormalEvents Events Osb OsuFile Spec SpecWf SpecText SpecSections SpecTypes SpecCmd SpecEvents SpecEvSection SpecWrite
  StrFacts NumFacts NomFacts DecFacts LineFacts FieldFacts TpFacts HoFacts LayoutFacts KvTheorems CmdFacts CmdRound CmdTree EvSection.
Import ListNotations.
Local Open Scope N_scope.

Lemma moves_old v : old_version v = moves v.
Proof. unfold old_version, moves. lia. Qed.

Lemma contains_cons p c s : contains p (c :: s) = false -> starts_with p (c :: s) = false /\ contains p s = false.
Proof.
  unfold contains. cbn [find_sub]. destruct (starts_with p (c :: s)); [easy|]. destruct (find_sub p s) as [[a b]|]; easy.
Qed.
Lemma replace_absent p r s : contains p s = false -> replace p r s = s.
Proof.
  destruct p as [|x p].
  - unfold contains. destruct s; cbn; easy.
  - change (replace (x :: p) r s) with (replace_ne (x :: p) r 0 s). induction s as [|c s IH]; [easy|]. intros H.
    apply contains_cons in H. destruct H as [H1 H2]. cbn [replace_ne]. now rewrite H1, IH.
Qed.
Lemma put_subst vars s : subst_vars vars s = put_names vars s.
Proof.
  revert s. induction vars as [|x vars IH]; intros s; [easy|]. cbn [subst_vars]. rewrite IH. unfold put_names. cbn [fold_left]. f_equal.
  destruct (contains (var_value x) s) eqn:E; [easy|]. now rewrite replace_absent.
Qed.

(** ** commands *)
Lemma easing_no_Z e : easing_to_Z e = easing_no e.
Proof. destruct e; reflexivity. Qed.
Lemma command_layout vars c : cmd_to_string vars c = command_text vars c.
Proof.
  pose proof (cmd_print c) as P. unfold command_text. replace (match cmd_easing c with Some e => easing_no e | None => 0%Z end) with (cmd_ez c).
  2:{ unfold cmd_ez. destruct (cmd_easing c); [|easy]. apply easing_no_Z. }
  unfold cmd_to_string in *. destruct (cmd_parts c) as [h t] eqn:E. unfold variable_replace in *. cbn [subst_vars] in P.
  assert (K : exists fs, cmd_fields (cmd_ez c) c = h :: fs /\ fs <> []).
  { unfold cmd_parts in E. unfold cmd_fields. destruct (cmd_props c); try (destruct (sbc_start c0) as [[? ?] ?]); injection E as <- _; eexists; (split; [reflexivity|easy]). }
  destruct K as (fs & Ef & Hf). rewrite Ef in *. destruct fs as [|f fs]; [easy|].
  change (commas (h :: f :: fs)) with (h ++ 44 :: commas (f :: fs)) in P. apply app_inv_head in P. injection P as P.
  rewrite put_subst. now subst t.
Qed.
Lemma command_head vars c : exists x s, command_text vars c = x :: s.
Proof.
  rewrite <- command_layout. unfold cmd_to_string. destruct (cmd_parts c) as [h t]. unfold variable_replace. destruct h; cbn; eauto.
Qed.

(** ** lines *)
Lemma text_cons x l : l <> [] -> text_of_lines (x :: l) = x ++ 10 :: text_of_lines l.
Proof. now destruct l. Qed.
Lemma text_app a b : a <> [] -> b <> [] -> text_of_lines (a ++ b) = text_of_lines a ++ 10 :: text_of_lines b.
Proof.
  intros Ha Hb. induction a as [|x a IH]; [easy|]. destruct a as [|y a].
  - cbn [app text_of_lines]. now apply text_cons.
  - cbn [app]. rewrite text_cons by easy. change (y :: a ++ b) with ((y :: a) ++ b). rewrite IH by easy. rewrite (text_cons x (y :: a)) by easy. now rewrite <- app_assoc.
Qed.
Lemma text_concat (ls : list (list str)) : text_of_lines (concat ls) = join [10] (map text_of_lines (filter (fun x => negb (is_empty x)) ls)).
Proof.
  induction ls as [|x ls IH]; [easy|]. destruct x as [|a x]; [exact IH|]. cbn [concat filter is_empty negb map].
  destruct (filter _ ls) as [|y zs] eqn:E.
  - assert (K : concat ls = []).
    { clear IH. induction ls as [|z ls IHl]; [easy|]. destruct z; [now apply IHl|easy]. }
    rewrite K, app_nil_r. easy.
  - assert (K : concat ls <> []).
    { intros K. assert (In y (filter (fun x => negb (is_empty x)) ls)) as H by (rewrite E; now left). apply filter_In in H. destruct H as [H1 H2].
      destruct y as [|b y]; [easy|]. assert (In b (concat ls)) as H by (apply in_concat; exists (b :: y); split; [easy|now left]). now rewrite K in H. }
    rewrite text_app by easy. cbn [map]. rewrite join_cons2. cbn [app]. now rewrite IH.
Qed.

(** ** events *)
Lemma path_layout p : print_file_path p = path_field p.
Proof.
  unfold print_file_path, path_field, contains_char, ends_with_char, starts_with_char.
  replace (existsb (N.eqb 32) p) with (existsb (fun c => c =? 32) p) by (induction p as [|x p IH]; [easy|]; cbn; now rewrite IH, N.eqb_sym).
  destruct (existsb _ p); [|easy]. cbn [andb]. destruct p as [|a p]; [easy|]. destruct (rev (a :: p)) as [|b q] eqn:E.
  - apply (f_equal (@length _)) in E. rewrite rev_length in E. discriminate E.
  - cbv beta iota. destruct (N.eqb_spec a 34) as [->|Ha]; cbn [andb negb].
    + rewrite E. destruct (N.eqb_spec b 34) as [->|Hb]; cbn [negb]; [easy|]. cbn [app]. destruct b as [|b]; [easy|].
      repeat (destruct b as [b|b|]; try easy).
    + cbn [app]. destruct a as [|a]; [easy|]. repeat (destruct a as [a|a|]; try easy).
Qed.
Lemma clock_layout dbg v t : prints (time_to_string dbg v t) (option_map print_Z (back_clock dbg v t)).
Proof.
  unfold time_to_string, back_clock. rewrite moves_old. destruct (moves v); [|reflexivity].
  unfold i32_sub, i32_arith, in_i32, i32_min, i32_max. cbv zeta. change (- 2147483648)%Z with (-2147483648)%Z.
  destruct (_ && _); [reflexivity|]. destruct dbg; [cbn; eauto|]. unfold wrap_i32, i32_min, as_i32. cbn [rmap option_map prints]. do 2 f_equal.
Qed.
Definition row (vars : list variable) (x : nat * command) : str := repeat 32 (fst x) ++ command_text vars (snd x).
Lemma with_layout vars s cs : with_cmds vars s cs = ROk (Some (text_of_lines (s :: map (row vars) (preorders 1 cs)))).
Proof.
  unfold with_cmds, commands_to_string. rewrite cts_outer_walk. cbn [rmap]. do 2 f_equal.
  rewrite (map_ext (walk_line vars) (row vars)) by (intros x; unfold walk_line, row; now rewrite command_layout).
  rewrite <- text_of_lines_join. destruct (preorders 1 cs) as [|x l]; [cbn; now rewrite app_nil_r|].
  rewrite text_cons by easy. cbn [map]. f_equal. destruct (text_of_lines (row vars x :: map (row vars) l)) eqn:E; [|easy].
  exfalso. assert (K : exists c t, row vars x = c :: t).
  { unfold row. destruct (command_head vars (snd x)) as (c & t & ->). destruct (repeat 32 (fst x)); cbn; eauto. }
  destruct K as (c & t & K). rewrite K in E. destruct (map (row vars) l); discriminate E.
Qed.
Lemma event_out_eq v vars e : event_out v vars e = match own_fields v e with
  | Some fs => commas fs :: map (row (vars_for vars e)) (preorders 1 (commands_of e)) | None => [] end.
Proof. reflexivity. Qed.
Definition shown_text (ls : list str) : option str := match ls with [] => None | _ => Some (text_of_lines ls) end.
Lemma legacy_layout h x : leg_to_string h x
  = commas ([h; print_Z (layer_no (lg_layer x)); print_Z (origin_no (lg_origin x)); path_field (lg_file x)] ++ opt_position (lg_pos x)).
Proof.
  unfold leg_to_string. rewrite path_layout, commas_join. 
  replace (layer_legacy_to_Z (lg_layer x)) with (layer_no (lg_layer x)) by (now destruct (lg_layer x)).
  replace (origin_type_to_Z (lg_origin x)) with (origin_no (lg_origin x)) by (now destruct (lg_origin x)).
  destruct (lg_pos x) as [p|]; cbn [opt_position app position_str]; rewrite ?join_cons2; cbn [join]; rewrite ?app_nil_r; easy.
Qed.
Lemma origin_layout o : origin_to_string o = origin_field o.
Proof. unfold origin_to_string, origin_field. destruct (or_type o) as [t|z], (or_short o); try easy; now destruct t. Qed.
Lemma object_layout x : ob_to_string_cmd x = match own_fields 14%Z (EObject x) with Some fs => commas fs | None => [] end.
Proof.
  unfold ob_to_string_cmd, own_fields. rewrite origin_layout. replace (sb_layer_to_string (ob_layer x)) with (layer_name (ob_layer x)) by (now destruct (ob_layer x)).
  destruct (ob_type x) as [f|n d l f]; rewrite path_layout, commas_join; cbn [app]; rewrite ?join_cons2; cbn [join]; rewrite <- ?app_assoc; [easy|].
  replace (loop_type_to_string l) with (loop_word l) by (now destruct l). easy.
Qed.
Lemma event_layout dbg v vars e : prints (ev_to_string dbg v vars e) (option_map (fun x => shown_text (event_out v vars x)) (back_event dbg v e)).
Proof.
  destruct e as [c|x|x|x|x|x|x|x|x|x]; cbn [ev_to_string back_event option_map prints].
  - easy.
  - rewrite with_layout. rewrite event_out_eq. cbn [own_fields shown_text commands_of vars_for]. do 4 f_equal. unfold bg_to_string_cmd.
    rewrite path_layout, commas_join. destruct (bg_pos x) as [p|]; cbn [opt_position app position_str]; rewrite ?join_cons2; cbn [join]; rewrite ?app_nil_r; easy.
  - pose proof (clock_layout dbg v (vi_start x)) as C. unfold vid_to_string_cmd. destruct (back_clock dbg v (vi_start x)) as [t|]; cbn [option_map prints] in *.
    + rewrite C. cbn [rmap rbind]. rewrite with_layout. rewrite event_out_eq. cbn [own_fields shown_text commands_of vars_for vi_cmds vi_start vi_file vi_pos vi_short].
      do 4 f_equal. rewrite path_layout, commas_join.
      destruct (vi_short x), (vi_pos x) as [p|]; cbn [opt_position app position_str]; rewrite ?join_cons2; cbn [join]; rewrite ?app_nil_r; easy.
    + destruct C as (p & C). rewrite C. cbn. eauto.
  - unfold brk_to_string. pose proof (clock_layout dbg v (br_start x)) as C. pose proof (clock_layout dbg v (br_end x)) as D.
    destruct (back_clock dbg v (br_start x)) as [s|]; cbn [option_map prints opt_map2] in *; [|destruct C as (p & ->); cbn; eauto].
    rewrite C. cbn [rbind]. destruct (back_clock dbg v (br_end x)) as [t|]; cbn [option_map prints] in *; [|destruct D as (p & ->); cbn; eauto].
    rewrite D. cbn [rmap]. rewrite event_out_eq. cbn [own_fields shown_text commands_of br_start br_end br_short]. cbn [preorders map concat text_of_lines]. do 2 f_equal.
  - unfold ctr_to_string. pose proof (clock_layout dbg v (ctr_start x)) as C. unfold event_out. destruct (Z.ltb_spec v 14).
    + destruct (back_clock dbg v (ctr_start x)) as [s|]; cbn [option_map prints] in *; [|destruct C as (p & ->); cbn; eauto].
      rewrite C. cbn [rmap own_fields]. replace (14 <=? v)%Z with false by lia. cbn [shown_text commands_of ctr_start ctr_r ctr_g ctr_b]. cbn [preorders map concat text_of_lines].
      do 2 f_equal.
    + unfold back_clock. replace (moves v) with false by (unfold moves; lia). cbn [option_map prints own_fields]. replace (14 <=? v)%Z with true by lia. easy.
  - rewrite with_layout, legacy_layout. easy.
  - rewrite with_layout, legacy_layout. easy.
  - rewrite with_layout. rewrite event_out_eq. cbn [own_fields shown_text commands_of vars_for]. do 4 f_equal. unfold sl_to_string. rewrite path_layout, commas_join.
    replace (layer_legacy_to_Z (sl_layer x)) with (layer_no (sl_layer x)) by (now destruct (sl_layer x)).
    destruct (sl_volume x); cbn [opt_field app]; rewrite ?join_cons2; cbn [join]; rewrite ?app_nil_r; easy.
  - rewrite with_layout, object_layout. easy.
  - unfold au_to_string. rewrite path_layout. replace (au_layer_to_Z (au_layer_f x)) with (au_layer_no (au_layer_f x)) by (now destruct (au_layer_f x)). easy.
Qed.

(** ** lists *)
Lemma run_prints {A B C} (p : A -> run B) (b : A -> option C) (t : C -> B) l : (forall a, prints (p a) (option_map t (b a))) ->
  prints (run_list (map p l)) (option_map (map t) (all_some b l)).
Proof.
  intros H. induction l as [|a l IH]; [reflexivity|]. cbn [map run_list all_some]. specialize (H a). destruct (b a) as [c|]; cbn [option_map prints opt_map2] in *.
  - rewrite H. cbn [rbind]. destruct (all_some b l) as [cs|]; cbn [option_map prints] in *.
    + rewrite IH. reflexivity.
    + destruct IH as (q & ->). cbn. eauto.
  - destruct H as (q & ->). cbn. eauto.
Qed.
Lemma prints_map {A B} (f : A -> B) r o : prints r o -> prints (rmap f r) (option_map f o).
Proof. destruct o as [a|]; cbn; [intros ->; easy|intros (p & ->); cbn; eauto]. Qed.
Lemma flatten_shown (ls : list (list str)) : join [10] (flatten_opt (map shown_text ls)) = text_of_lines (concat ls).
Proof.
  rewrite text_concat. f_equal. induction ls as [|x ls IH]; [easy|]. destruct x as [|a x]; [exact IH|].
  cbn [map shown_text filter is_empty negb]. rewrite <- IH. reflexivity.
Qed.
Lemma events_layout dbg vars l v : prints (events_to_string_vars dbg vars l v)
  (option_map (fun l => Some (text_of_lines (concat (map (event_out v vars) l)))) (all_some (back_event dbg v) l)).
Proof.
  unfold events_to_string_vars. pose proof (run_prints _ _ _ l (event_layout dbg v vars)) as H.
  apply (prints_map (fun ls => Some (map_string_new_line ls))) in H. destruct (all_some (back_event dbg v) l) as [k|]; cbn [option_map prints] in *; [|exact H].
  rewrite H. do 2 f_equal. unfold map_string_new_line. rewrite <- flatten_shown, map_map. easy.
Qed.

(** ** timing points *)
Lemma dec_layout v d : prints (shift_out v d) (back_dec v d).
Proof.
  unfold shift_out, back_dec. rewrite moves_old. destruct d as [r|s]; [|destruct (moves v); reflexivity]. destruct (moves v); [|reflexivity].
  change dec24 with (mkDec false 24 0). destruct (rdec_sub r (mkDec false 24 0)) as [x|[]|p]; cbn; eauto.
Qed.
Lemma index_layout x : sample_index_to_Z x = tp_index_out x.
Proof. destruct x as [|z]; [easy|]. cbn. unfold wrap_i32, as_i32, i32_min. reflexivity. Qed.
Lemma timing_layout v t : prints (tp_to_string v t) (option_map (tp_row v) (back_timing v t)).
Proof.
  unfold tp_to_string, back_timing. pose proof (dec_layout v (tp_time t)) as D. destruct (back_dec v (tp_time t)) as [x|]; cbn [option_map prints] in *.
  - rewrite D. cbn [rmap]. f_equal. unfold tp_row. cbn [tp_time tp_beat_length tp_meter tp_sample_set_f tp_sample_index tp_volume tp_uninherited tp_effects].
    rewrite commas_join. f_equal. f_equal. unfold sample_index_to_string. rewrite index_layout. f_equal.
    + destruct (Z.ltb_spec 3 v); [now replace (v <=? 3)%Z with false by lia|now replace (v <=? 3)%Z with true by lia].
    + destruct (Z.ltb_spec 4 v); [replace (v <=? 4)%Z with false by lia|now replace (v <=? 4)%Z with true by lia].
      destruct (tp_uninherited t), (tp_effects t); reflexivity.
  - destruct D as (p & ->). cbn. eauto.
Qed.
Lemma timings_layout v l : prints (timing_points_to_string l v)
  (option_map (fun l => Some (text_of_lines (map (tp_row v) l))) (all_some (back_timing v) l)).
Proof.
  unfold timing_points_to_string. pose proof (run_prints _ _ _ l (timing_layout v)) as H. apply (prints_map (fun ls => Some (join [c_nl] ls))) in H.
  destruct (all_some (back_timing v) l) as [k|]; cbn [option_map prints] in *; [|exact H]. now rewrite H, text_of_lines_join.
Qed.

(** ** hit objects *)
Lemma sample_part_layout v h : match hit_sample_to_string h v with Some t => [t] | None => [] end = sample_part v (Some h).
Proof.
  unfold hit_sample_to_string, sample_part. destruct ((3 <=? v) && (v <=? 9))%Z; [easy|]. destruct ((10 <=? v) && (v <=? 11))%Z; [now rewrite app_nil_r|].
  now rewrite <- !app_assoc.
Qed.
Lemma type_same o o' : ho_obj_params o' = ho_obj_params o \/ (exists a b, ho_obj_params o = Spinner a /\ ho_obj_params o' = Spinner b)
  \/ (exists a b, ho_obj_params o = OsuManiaHold a /\ ho_obj_params o' = OsuManiaHold b) ->
  ho_new_combo o' = ho_new_combo o -> ho_combo_skip_count o' = ho_combo_skip_count o -> type_number o' = type_number o.
Proof.
  intros H E1 E2. unfold type_number. rewrite E1, E2. destruct H as [->|[(a & b & -> & ->)|(a & b & -> & ->)]]; easy.
Qed.
Lemma edge_layout p hs :
  let has_sample := match hs with Some _ => true | None => false end in
  let has_sets := negb (is_empty (sl_edge_sets p)) || negb (sl_edge_sets_shorthand p) || has_sample in
  (if negb (is_empty (sl_edge_sounds p)) || negb (sl_edge_sounds_short_hand p) || has_sets
   then [pipe_vec_to_string hit_sound_to_string (sl_edge_sounds p)] else [])
  ++ (if has_sets then [pipe_vec_to_string edge_set_to_string (sl_edge_sets p)] else []) = edge_parts p hs.
Proof.
  cbv zeta. rewrite (pipe_ext hit_sound_to_string (fun h => print_Z (sound_number h))) by apply sound_layout.
  rewrite (pipe_ext edge_set_to_string edge_set_text) by easy. unfold edge_parts, absent.
  destruct (sl_edge_sets p), (sl_edge_sets_shorthand p), hs, (sl_edge_sounds p), (sl_edge_sounds_short_hand p); reflexivity.
Qed.
Lemma slider_layout (props : list str) letter (pts : list curve_point) rest : props <> [] -> rest <> [] ->
  join (lit ",") (props ++ [letter]) ++ (if is_empty pts then lit "," else lit "|")
  ++ join (lit ",") ((if is_empty pts then [] else [pipe_vec_to_string curve_point_to_string pts]) ++ rest)
  = join (lit ",") (props ++ bars (letter :: map point_text pts) :: rest).
Proof.
  intros Hp Hr. rewrite (join_app (lit ",") props [letter]) by easy. destruct rest as [|r rest]; [easy|].
  assert (E : forall x, join (lit ",") (props ++ x :: r :: rest) = join (lit ",") props ++ lit "," ++ x ++ lit "," ++ join (lit ",") (r :: rest)).
  { intros x. rewrite join_app by easy. now rewrite join_cons2. }
  rewrite E. destruct pts as [|p pts]; cbn [is_empty].
  - cbn [app map bars]. change (join (lit ",") [letter]) with letter. now rewrite <- !app_assoc.
  - rewrite (pipe_ext curve_point_to_string point_text) by easy. cbn [app]. rewrite join_cons2. change (join (lit ",") [letter]) with letter.
    change (bars (letter :: map point_text (p :: pts))) with (letter ++ 124 :: bars (map point_text (p :: pts))). now rewrite <- !app_assoc.
Qed.
Lemma hit_layout v o : three_bits o -> prints (ho_to_string v o) (option_map (ho_row v) (back_object v o)).
Proof.
  intros Hs. unfold ho_to_string, back_object, ho_type_to_string. rewrite (type_layout o Hs).
  pose proof (dec_layout v (ho_time o)) as D. destruct (back_dec v (ho_time o)) as [x|]; cbn [opt_map2 option_map prints] in *.
  2:{ destruct D as (p & ->). cbn. eauto. }
  rewrite D. cbn [rbind]. rewrite sound_layout.
  replace (match ho_hitsample o with Some h => match hit_sample_to_string h v with Some t => [t] | None => [] end | None => [] end)
    with (sample_part v (ho_hitsample o)) by (destruct (ho_hitsample o); [now rewrite sample_part_layout|easy]).
  destruct (ho_obj_params o) as [|p|t|t] eqn:Eo; cbn [option_map opt_map2].
  - cbn [prints]. f_equal. unfold ho_row. cbn [ho_position ho_time ho_obj_params ho_new_combo ho_combo_skip_count ho_hitsound ho_hitsample].
    match goal with |- context [type_number (mk_ho ?a ?b ?c ?d ?e ?f ?g)] => rewrite (type_same o (mk_ho a b c d e f g)) by (cbn; rewrite ?Eo; eauto 8) end. rewrite commas_join. destruct (Z.eqb_spec v 3) as [->|]; [|now rewrite app_nil_r].
    replace (sample_part 3%Z (ho_hitsample o)) with (@nil str) by (now destruct (ho_hitsample o)). cbn [app]. rewrite ?join_cons2. cbn [join]. now rewrite <- ?app_assoc.
  - cbn [prints]. f_equal. unfold ho_row. cbn [ho_position ho_time ho_obj_params ho_new_combo ho_combo_skip_count ho_hitsound ho_hitsample].
    match goal with |- context [type_number (mk_ho ?a ?b ?c ?d ?e ?f ?g)] => rewrite (type_same o (mk_ho a b c d e f g)) by (cbn; rewrite ?Eo; eauto 8) end. rewrite commas_join.
    set (props := [print_decimal (pos_x (ho_position o)); print_decimal (pos_y (ho_position o)); print_decimal x; print_Z (type_number o); print_Z (sound_number (ho_hitsound o))]).
    replace (curve_type_to_string (sl_curve_type p)) with (curve_letter (sl_curve_type p)) by (now destruct (sl_curve_type p)).
    pose proof (edge_layout p (ho_hitsample o)) as Ee. cbv zeta in Ee. rewrite <- Ee. clear Ee. rewrite <- !app_assoc.
    destruct (Z.eqb_spec v 3) as [->|Hv]; cbn [orb].
    + exact (slider_layout props _ (ho_position o :: sl_curve_points p) ([print_Z (sl_slides p); print_decimal (sl_length p)] ++ _) ltac:(easy) ltac:(easy)).
    + pose proof (slider_layout props (curve_letter (sl_curve_type p)) (sl_curve_points p)) as K. destruct (sl_curve_points p) as [|c l]; cbn [is_empty negb] in *.
      * exact (K ([print_Z (sl_slides p); print_decimal (sl_length p)] ++ _) ltac:(easy) ltac:(easy)).
      * exact (K ([print_Z (sl_slides p); print_decimal (sl_length p)] ++ _) ltac:(easy) ltac:(easy)).
  - pose proof (dec_layout v t) as T. destruct (back_dec v t) as [y|]; cbn [option_map prints] in *; [|destruct T as (q & ->); cbn; eauto].
    rewrite T. cbn [rmap]. f_equal. unfold ho_row. cbn [ho_position ho_time ho_obj_params ho_new_combo ho_combo_skip_count ho_hitsound ho_hitsample].
    match goal with |- context [type_number (mk_ho ?a ?b ?c ?d ?e ?f ?g)] => rewrite (type_same o (mk_ho a b c d e f g)) by (cbn; rewrite ?Eo; eauto 8) end. now rewrite commas_join.
  - pose proof (dec_layout v t) as T. destruct (back_dec v t) as [y|]; cbn [option_map prints] in *; [|destruct T as (q & ->); cbn; eauto].
    rewrite T. cbn [rmap]. f_equal. unfold ho_row. cbn [ho_position ho_time ho_obj_params ho_new_combo ho_combo_skip_count ho_hitsound ho_hitsample].
    match goal with |- context [type_number (mk_ho ?a ?b ?c ?d ?e ?f ?g)] => rewrite (type_same o (mk_ho a b c d e f g)) by (cbn; rewrite ?Eo; eauto 8) end. rewrite commas_join. cbn [app]. rewrite ?join_cons2. cbn [join]. rewrite <- ?app_assoc. do 11 f_equal.
    destruct (ho_hitsample o) as [h|]; [|easy]. unfold sample_part. destruct ((3 <=? v) && (v <=? 9))%Z; [easy|]. cbn [concat]. now rewrite app_nil_r.
Qed.
Lemma objects_layout v l : Forall three_bits l -> prints (hit_objects_to_string l v)
  (option_map (fun l => Some (text_of_lines (map (ho_row v) l))) (all_some (back_object v) l)).
Proof.
  intros Hl. unfold hit_objects_to_string.
  assert (H : prints (run_list (map (ho_to_string v) l)) (option_map (map (ho_row v)) (all_some (back_object v) l))).
  { induction Hl as [|o l Ho _ IH]; [reflexivity|]. cbn [map run_list all_some]. pose proof (hit_layout v o Ho) as H.
    destruct (back_object v o) as [c|]; cbn [option_map prints opt_map2] in *; [|destruct H as (q & ->); cbn; eauto].
    rewrite H. cbn [rbind]. destruct (all_some (back_object v) l) as [cs|]; cbn [option_map prints] in *; [now rewrite IH|destruct IH as (q & ->); cbn; eauto]. }
  apply (prints_map (fun ls => Some (join [c_nl] ls))) in H.
  destruct (all_some (back_object v) l) as [k|]; cbn [option_map prints] in *; [|exact H]. now rewrite H, text_of_lines_join.
Qed.

(** ** files *)
Lemma spaced_layout L : Forall (fun x => x <> []) L -> text_of_lines (spaced_out L) = join [10; 10] (map text_of_lines L).
Proof.
  induction 1 as [|x L Hx HL IH]; [easy|]. destruct L as [|y L]; [easy|].
  change (spaced_out (x :: y :: L)) with (x ++ [] :: spaced_out (y :: L)). rewrite text_app by easy. cbn [map]. rewrite join_cons2. cbn [map] in IH. rewrite <- IH.
  rewrite text_cons; [easy|]. inversion HL; subst. destruct L; [easy|]. cbn [spaced_out]. now destruct y.
Qed.
Lemma titled_layout name o : out_section name (option_map text_of_lines o) = map text_of_lines (titled name o).
Proof.
  destruct o as [ls|]; [|easy]. cbn [option_map out_section titled map]. f_equal. destruct ls as [|x ls].
  - cbn. now rewrite <- !app_assoc.
  - rewrite (text_cons _ (x :: ls)) by easy. now rewrite <- !app_assoc.
Qed.
Lemma titled_full name o : Forall (fun x => x <> []) (titled name o).
Proof. destruct o as [ls|]; repeat constructor. easy. Qed.
Lemma obind_lines {A} (o : option A) (f : A -> option str) g : (forall a, f a = Some (text_of_lines (g a))) -> obind o f = option_map text_of_lines (option_map g o).
Proof. intros H. destruct o as [a|]; [exact (H a)|easy]. Qed.
Lemma colours_out v o : obind o (fun x => colours_to_string x v) = option_map text_of_lines (opt_if (negb (moves v)) (option_map (map colour_text) o)).
Proof.
  destruct o as [l|]; cbn [obind option_map]; [|now destruct (moves v)]. unfold colours_to_string. rewrite moves_old. destruct (moves v); [easy|]. cbn [negb opt_if option_map].
  f_equal. rewrite text_of_lines_join. f_equal.
Qed.
Lemma opt_prints {A B} (o : option A) (p : A -> run (option str)) (b : A -> option B) (t : B -> list str) :
  (forall a, o = Some a -> prints (p a) (option_map (fun x => Some (text_of_lines (t x))) (b a))) ->
  prints (run_opt o p) (option_map (fun x => option_map text_of_lines (option_map t x)) (some_of b o)).
Proof.
  intros H. destruct o as [a|]; [|reflexivity]. specialize (H a eq_refl). cbn [run_opt some_of]. destruct (b a); exact H.
Qed.
Lemma file_layout dbg f : objects_fit f -> prints (osu_to_string dbg f) (option_map (fun g => text_of_lines (file_lines g)) (back_file dbg f)).
Proof.
  intros Hf. unfold osu_to_string, back_file.
  pose proof (opt_prints (osu_events f) (fun l => events_to_string dbg l (osu_version f)) (all_some (back_event dbg (osu_version f))) (fun l => concat (map (event_out (osu_version f) []) l))
    (fun l _ => events_layout dbg [] l (osu_version f))) as E.
  destruct (some_of (all_some (back_event dbg (osu_version f))) (osu_events f)) as [ev|]; cbn [option_map prints] in E; [|destruct E as (p & ->); cbn; eauto].
  rewrite E. cbn [rbind]. clear E.
  pose proof (opt_prints (osu_timing_points f) (fun l => timing_points_to_string l (osu_version f)) (all_some (back_timing (osu_version f))) (map (tp_row (osu_version f)))
    (fun l _ => timings_layout (osu_version f) l)) as E.
  destruct (some_of (all_some (back_timing (osu_version f))) (osu_timing_points f)) as [tp|]; cbn [option_map prints] in E; [|destruct E as (p & ->); cbn; eauto].
  rewrite E. cbn [rbind]. clear E.
  pose proof (opt_prints (osu_hitobjects f) (fun l => hit_objects_to_string l (osu_version f)) (all_some (back_object (osu_version f))) (map (ho_row (osu_version f)))) as E.
  specialize (E ltac:(intros l El; unfold objects_fit in Hf; rewrite El in Hf; exact (objects_layout (osu_version f) l Hf))).
  destruct (some_of (all_some (back_object (osu_version f))) (osu_hitobjects f)) as [ho|]; cbn [option_map prints] in E; [|destruct E as (p & ->); cbn; eauto].
  rewrite E. cbn [rbind option_map prints]. clear E. f_equal. unfold file_lines.
  cbn [osu_version osu_general osu_editor osu_metadata osu_difficulty osu_events osu_timing_points osu_colours osu_hitobjects].
  rewrite (obind_lines _ _ (general_lines (osu_version f))) by (intros; apply general_layout).
  rewrite (obind_lines _ _ (editor_lines (osu_version f))) by (intros; apply editor_layout).
  rewrite (obind_lines _ _ metadata_lines) by (intros; apply metadata_layout).
  rewrite (obind_lines _ _ (difficulty_lines (osu_version f))) by (intros; apply difficulty_layout).
  rewrite colours_out. rewrite !titled_layout, <- !map_app.
  match goal with |- _ = text_of_lines (_ :: [] :: match spaced_out ?L with _ => _ end) => assert (HL : Forall (fun x => x <> []) L) by (repeat (apply Forall_app; split; [apply titled_full|]); apply titled_full); set (K := L) in * end.
  change c_nl with 10. rewrite <- (spaced_layout K HL). destruct (spaced_out K) as [|x l]; [cbn [text_of_lines]; now rewrite <- app_assoc|].
  rewrite (text_cons _ ([] :: x :: l)), (text_cons _ (x :: l)) by easy. now rewrite <- !app_assoc.
Qed.
Lemma osb_layout dbg o v : osb_to_string dbg o v = ROk (if (v <? 14)%Z then None else Some (text_of_lines (osb_lines v o))).
Proof.
  unfold osb_to_string. destruct (Z.ltb_spec v 14) as [|Hv]; [easy|]. set (vars := match osb_variables o with Some vs => vs | None => [] end).
  assert (M : moves v = false) by (unfold moves; lia).
  assert (B : forall l, all_some (back_event dbg v) l = Some l).
  { induction l as [|e l IH]; [easy|]. cbn [all_some]. rewrite IH. destruct e; cbn [back_event]; unfold back_clock; rewrite ?M; cbn; try easy; now destruct x. }
  assert (E : match osb_events o with Some es => rbind (events_to_string_vars dbg vars es v) (fun t => rmap Some (unwrap t)) | None => ROk None end
              = ROk (option_map text_of_lines (option_map (fun l => concat (map (event_out v vars) l)) (osb_events o)))).
  { destruct (osb_events o) as [es|]; [|easy]. pose proof (events_layout dbg vars es v) as E. rewrite B in E. cbn [option_map prints] in E. rewrite E. easy. }
  rewrite E. cbn [rmap]. do 2 f_equal. unfold osb_lines. fold vars.
  replace (match osb_variables o with Some vs => [lit "[Variables]" ++ [c_nl] ++ join [c_nl] (map var_to_string vs)] | None => [] end)
    with (out_section "Variables" (option_map text_of_lines (option_map (map variable_line_out) (osb_variables o)))).
  2:{ destruct (osb_variables o) as [vs|]; [|easy]. cbn [option_map out_section]. now rewrite text_of_lines_join. }
  match goal with |- join _ (_ ++ match option_map text_of_lines ?x with _ => _ end) = _ => change (match option_map text_of_lines x with Some t => [lit "[Events]" ++ [c_nl] ++ t] | None => [] end) with (out_section "Events" (option_map text_of_lines x)) end.
  rewrite !titled_layout, <- map_app. symmetry. apply spaced_layout. apply Forall_app. split; apply titled_full.
Qed.
