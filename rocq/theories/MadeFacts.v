(** Hit objects built by a program are written and read back (C59). *)
From Coq Require Import String List NArith ZArith Bool Lia.
From Verif Require Import Str Num Nom Dec Parsers KeyValue KvFields General Editor Metadata Difficulty Colours TimingPoints HitObjects Storyboard NormalEvents Events Osb OsuFile
  Spec SpecWf SpecText SpecKv SpecSections SpecFile SpecTypes SpecCmd SpecEvents SpecOld SpecWhole SpecBack SpecMade
  StrFacts NumFacts NomFacts DecFacts LineFacts ColoursFacts FieldFacts TpFacts HoFacts HoImage HoObj LayoutFacts WholeFacts OldFacts BackFacts.
Import ListNotations.
Local Open Scope N_scope.

Lemma filled_head o : pos_x (ho_position (filled o)) = pos_x (ho_position o).
Proof. unfold filled. destruct (ho_obj_params o); try easy. now destruct (ho_hitsample o). Qed.
Lemma filled_read o : ho_typed o = true -> ho_read (filled o) = true.
Proof.
  unfold ho_typed, ho_read, filled. rewrite !andb_true_iff. intros [[[[[[Hx Hy] Ht] Hs1] Hs2] Hp] Hh].
  destruct (ho_obj_params o) as [|p|t|t] eqn:Ep.
  - rewrite Ep. cbn [params_ok]. now rewrite Hx, Hy, Ht, Hs1, Hs2, Hh.
  - cbn [ho_position ho_time ho_obj_params ho_new_combo ho_combo_skip_count ho_hitsound ho_hitsample]. rewrite Hx, Hy, Ht, Hs1, Hs2, Hh.
    cbn [params_ok]. unfold slide_ok, shorthand_ok. cbn [sl_curve_type sl_curve_points sl_slides sl_length sl_edge_sounds sl_edge_sounds_short_hand sl_edge_sets sl_edge_sets_shorthand].
    rewrite !andb_true_iff in Hp. destruct Hp as [[[P1 P2] P3] P4]. rewrite P1, P2, P3, P4. cbn [andb]. split; [|easy]. split; [easy|].
    unfold sounds_out, sets_out. destruct (sl_edge_sounds p), (sl_edge_sets p), (ho_hitsample o), (sl_edge_sounds_short_hand p), (sl_edge_sets_shorthand p); reflexivity.
  - rewrite Ep. cbn [params_ok]. now rewrite Hx, Hy, Ht, Hs1, Hs2, Hh, Hp.
  - rewrite !andb_true_iff in Hp. destruct Hp as [[P1 P2] P3]. destruct (ho_hitsample o) as [h|] eqn:Eh.
    + rewrite Ep, Eh. cbn [params_ok]. now rewrite Hx, Hy, Ht, Hs1, Hs2, Hh, P1, P2, P3.
    + cbn [ho_position ho_time ho_obj_params ho_new_combo ho_combo_skip_count ho_hitsound ho_hitsample params_ok]. now rewrite Hx, Hy, Ht, Hs1, Hs2, P1, P2, P3.
Qed.
(** Only a hold without sample is printed differently, in the versions that have samples. *)
Lemma filled_print v o : (v <= 9)%Z /\ (3 <= v)%Z \/ match ho_obj_params o, ho_hitsample o with OsuManiaHold _, None => False | _, _ => True end ->
  ho_to_string v o = ho_to_string v (filled o).
Proof.
  intros H. unfold filled. destruct (ho_obj_params o) as [|p|t|t] eqn:Ep; try easy.
  - unfold ho_to_string, ho_type_to_string, ho_type_flags. cbn [ho_position ho_time ho_obj_params ho_new_combo ho_combo_skip_count ho_hitsound ho_hitsample]. rewrite Ep.
    cbn [sl_curve_type sl_curve_points sl_slides sl_length sl_edge_sounds sl_edge_sounds_short_hand sl_edge_sets sl_edge_sets_shorthand].
    assert (E1 : negb (is_empty (sl_edge_sets p)) || negb (sets_out p (ho_hitsample o)) || match ho_hitsample o with Some _ => true | None => false end
               = negb (is_empty (sl_edge_sets p)) || negb (sl_edge_sets_shorthand p) || match ho_hitsample o with Some _ => true | None => false end)
      by (unfold sets_out; destruct (sl_edge_sets p), (ho_hitsample o), (sl_edge_sets_shorthand p); reflexivity).
    rewrite E1.
    assert (E2 : negb (is_empty (sl_edge_sounds p)) || negb (sounds_out p (ho_hitsample o)) || (negb (is_empty (sl_edge_sets p)) || negb (sl_edge_sets_shorthand p) || match ho_hitsample o with Some _ => true | None => false end)
               = negb (is_empty (sl_edge_sounds p)) || negb (sl_edge_sounds_short_hand p) || (negb (is_empty (sl_edge_sets p)) || negb (sl_edge_sets_shorthand p) || match ho_hitsample o with Some _ => true | None => false end))
      by (unfold sounds_out, sets_out; destruct (sl_edge_sounds p), (sl_edge_sets p), (ho_hitsample o), (sl_edge_sounds_short_hand p), (sl_edge_sets_shorthand p); reflexivity).
    rewrite E2. reflexivity.
  - destruct (ho_hitsample o) as [h|] eqn:Eh; [easy|]. destruct H as [H|[]].
    unfold ho_to_string, ho_type_to_string, ho_type_flags. cbn [ho_position ho_time ho_obj_params ho_new_combo ho_combo_skip_count ho_hitsound ho_hitsample]. rewrite Ep, Eh.
    now rewrite sample_old by lia.
Qed.
Lemma bare_hold_print v o t : (4 < v)%Z -> ho_obj_params o = OsuManiaHold t -> ho_hitsample o = None ->
  ho_to_string v o = ROk (ho_head o ++ lit "," ++ print_decimal t ++ lit ":").
Proof.
  intros Hv Ep Eh. unfold ho_to_string, shift_out. rewrite Ep, Eh, (new_not_old v Hv). cbn [rbind rmap app]. f_equal.
  rewrite !join_cons2. cbn [join]. unfold ho_head. rewrite app_nil_r. now rewrite <- ?app_assoc.
Qed.
Lemma any_row v o : (3 <= v)%Z -> ho_can v o = true -> ho_row_at v o.
Proof.
  intros Hv H. destruct (old_version v) eqn:E; [now apply ho_row_old|]. apply ho_row_new; [|easy]. rewrite <- is_old in E. destruct (Z.eqb_spec v 3), (Z.eqb_spec v 4); try easy. lia.
Qed.
Lemma filled_row v o : (3 <= v)%Z -> ho_can v (filled o) = true ->
  row (fun o => pos_x (ho_position o)) (ho_to_string v) (fun s => v_unwrap (ho_from_str v s)) (fun o => ho_back v (filled o)) o.
Proof.
  intros Hv H. pose proof (any_row v _ Hv H) as (a & d & r & R1 & R2 & R3 & R4 & R5 & R6). rewrite filled_head in R4, R5.
  assert (D : ((v <= 9)%Z /\ (3 <= v)%Z \/ match ho_obj_params o, ho_hitsample o with OsuManiaHold _, None => False | _, _ => True end)
    \/ (9 < v)%Z /\ exists t, ho_obj_params o = OsuManiaHold t /\ ho_hitsample o = None).
  { destruct (ho_obj_params o) as [| | |t] eqn:Ep; auto. destruct (ho_hitsample o) eqn:Eh; auto. destruct (Z.le_gt_cases v 9); [auto|]. right. split; [easy|]. now exists t. }
  destruct D as [D|(L & t & Ep & Eh)].
  - exists a, d, r. rewrite (filled_print v o D). auto 10.
  - clear a d r R1 R2 R3 R4 R5 R6. assert (Ef : filled o = with_sample o (Some no_sample)) by (unfold filled, with_sample; rewrite Ep, Eh; reflexivity).
    assert (Hr : ho_read (filled o) = true) by (unfold ho_can in H; rewrite !andb_true_iff in H; easy).
    assert (Pf : ho_obj_params (filled o) = OsuManiaHold t) by now rewrite Ef.
    assert (Hh : ho_head (filled o) = ho_head o) by (rewrite Ef; unfold ho_head, with_sample, ho_type_to_string, ho_type_flags; cbn [ho_position ho_time ho_obj_params ho_new_combo ho_combo_skip_count ho_hitsound]; reflexivity).
    destruct (head_good _ Hr) as (Hn & _ & r & Hg). rewrite Hh in Hn, Hg. rewrite filled_head in Hg.
    exists (ho_head o ++ lit "," ++ print_decimal t ++ lit ":"). do 2 eexists. split; [now apply bare_hold_print; [lia| |]|]. split; [|split; [apply Hg|]].
    + unfold good_line. rewrite Hg at 2. change (44 :: ?x) with (lit "," ++ x). rewrite not_blank_comma, andb_true_r. unfold ho_read in Hr. rewrite !andb_true_iff in Hr. destruct Hr as [[_ Hp] _].
      rewrite Pf in Hp. cbn [params_ok] in Hp. rewrite !andb_true_iff in Hp. rewrite !app_assoc. unfold plain_line. rewrite !no_nl_app, Hn, dec_no_nl_print by easy. apply no_cr_colon.
    + split; [easy|]. split; [easy|]. rewrite <- Hh, (hold_bare_read v (filled o) t) by (easy || lia). cbn.
      rewrite ho_back_new by (apply new_not_old; lia). unfold sample_back. rewrite Ef. cbn [with_sample ho_hitsample ho_obj_params].
      replace (v <=? 9)%Z with false by lia. now destruct (v <=? 11)%Z.
Qed.
Lemma made_objects v l : (3 <= v)%Z -> forallb (ho_can v) (map filled l) = true -> starts_ok (map (fun o => pos_x (ho_position o)) l) = true ->
  exists ls, hit_objects_to_string l v = ROk (Some (text_of_lines ls)) /\ part (fun t => hit_objects_from_str t v) ls (map (fun o => ho_back v (filled o)) l).
Proof.
  intros Hv H Hs. rewrite forallb_forall in H.
  destruct (rows (fun o => pos_x (ho_position o)) _ _ _ l (fun o Hi => filled_row v o Hv (H _ (in_map filled _ _ Hi))) Hs) as (ls & H1 & H2 & H3 & H4 & H5).
  exists ls. unfold hit_objects_to_string. rewrite H1, text_of_lines_join. split; [easy|]. apply good_part; auto.
  - intros s s' E. unfold hit_objects_from_str. now rewrite E.
  - rewrite text_of_lines_join. unfold hit_objects_from_str. now rewrite good_lines_join, H5.
Qed.
Lemma made_section v l : (3 <= v)%Z -> forallb (ho_can v) (map filled l) = true -> starts_ok (map (fun o => pos_x (ho_position o)) l) = true ->
  exists t, hit_objects_to_string l v = ROk (Some t) /\ hit_objects_from_str t v = ROk (Some (map (fun o => ho_back v (filled o)) l)).
Proof. intros Hv H Hs. destruct (made_objects v l Hv H Hs) as (ls & H1 & H2 & H3 & H4). eauto. Qed.
Lemma made_file dbg f : file_can (file_filled f) = true ->
  exists t secs, osu_to_string dbg f = ROk t
  /\ file_layout t [] (osu_version f) [[]; []] secs [] /\ map sec_name secs = names_of (file_back (file_filled f))
  /\ osu_from_str dbg t = ROk (file_back (file_filled f)).
Proof.
  intros H. pose proof (whole_from dbg f (option_map (map (ho_back (osu_version f))) (option_map (map filled) (osu_hitobjects f)))) as W.
  apply W; clear W.
  - unfold file_can, file_filled in *. cbn [osu_version osu_general osu_editor osu_metadata osu_difficulty osu_events osu_timing_points osu_colours osu_hitobjects] in *. rewrite !andb_true_iff in *. tauto.
  - unfold file_can, file_filled in H. cbn [osu_version osu_general osu_editor osu_metadata osu_difficulty osu_events osu_timing_points osu_colours osu_hitobjects] in H.
    rewrite !andb_true_iff in H. destruct (osu_hitobjects f) as [l|]; [|easy]. cbn [option_map] in *. destruct H as [H Hh]. cbn [opt_all] in Hh. apply andb_true_iff in Hh as [Hc Hst].
    rewrite map_map. apply made_objects; try easy.
    + destruct H as [[[[[[[[HV _] _] _] _] _] _] _] _]. now apply Z.leb_le in HV.
    + rewrite map_map in Hst. erewrite <- map_ext; [exact Hst|]. intros o. apply filled_head.
Qed.
