(** Saving a file under another version (C54): proofs. *)
From Coq Require Import String List NArith ZArith Bool Lia.
From Verif Require Import Str Num Nom Dec Parsers KeyValue KvFields General Editor Metadata Difficulty Colours TimingPoints HitObjects Storyboard NormalEvents Events Osb OsuFile
  Spec SpecWf SpecText SpecKv SpecSections SpecFile SpecTypes SpecCmd SpecEvents SpecOld SpecWhole SpecBack SpecConvert
  StrFacts NumFacts NomFacts DecFacts LineFacts ColoursFacts FieldFacts TpFacts HoFacts HoImage LayoutFacts KvTheorems KvImage KvLines FileFacts FileLoop FileTheorems EvImage
  EvLoop WholeFacts WholeRead OldFacts SpecLate SpecPrint PrintPanic BackFacts BackSettle BackRead.
Import ListNotations.
Local Open Scope N_scope.

(** ** timing points *)
Definition tp_any (t : timing_point) : bool :=
  wf_dec_field (tp_time t) && SpecEvents.dec_line (tp_beat_length t) && no_cr_end (print_decimal (tp_beat_length t))
  && in_i32 (tp_meter t) && tp_sample_set_ok (tp_sample_set_f t) && sample_index_ok (tp_sample_index t)
  && in_i32 (tp_volume t) && tp_tail_ok 5%Z t.
Lemma wf_dec_line d : wf_dec_field d = true -> SpecEvents.dec_line d = true.
Proof.
  unfold wf_dec_field, SpecEvents.dec_line. rewrite !andb_true_iff. intros [-> H]. split; [easy|]. destruct d; [easy|]. cbn in *. unfold field_text in H. now apply andb_true_iff in H.
Qed.
Lemma tp_image_any v s r t : (3 <= v)%Z -> no_nl s = true -> no_cr s = true -> tp_parser v s = POk r t -> tp_any t = true.
Proof.
  intros Hv Hn Hc H. unfold tp_parser in H. apply pbind_inv in H as (r1 & time & H1 & H).
  apply map_run_v in H1 as (d5 & H1 & Hs). apply context_inv in H1. pose proof H1 as H1'. apply dfield_wf in H1 as [Htime Hn1]; [|easy].
  apply shift_in_field with (v := v) (d' := time) in Htime; [|easy]. apply dfield_inv in H1' as (x & -> & _ & _). apply no_cr_app in Hc.
  apply preceded_iff in H as (r2 & u & H2 & H). apply context_inv in H2. pose proof H2 as H2'. apply comma_no_nl in H2; [|easy].
  assert (Hc2 : no_cr r2 = true).
  { unfold comma in H2'. apply tag_inv in H2' as [-> _]. now apply no_cr_app in Hc. }
  unfold tp_any. apply alt_inv in H as [H|H].
  - apply pmap_iff in H as (b & H & ->). apply upto_inv in H as [_ H]. unfold consume_rest_type in H. apply map_res_inv in H as (y & H & H'). injection H as <- <-. injection H' as <-.
    cbn [tp_time tp_beat_length tp_meter tp_sample_set_f tp_sample_index tp_volume]. rewrite Htime, dec_line_of, dec_of_no_cr by easy. easy.
  - apply pbind_inv in H as (r3 & bl & H3 & H). pose proof H3 as H3'. apply dfield_wf in H3 as [Hbl Hn3]; [|easy].
    assert (Hbc : no_cr_end (print_decimal bl) = true).
    { apply dfield_inv in H3' as (x3 & -> & _ & ->). apply dec_of_no_cr. unfold no_cr in *. rewrite forallb_app in Hc2. now apply andb_true_iff in Hc2. }
    apply pbind_inv in H as (r4 & m & H4 & H). apply pbind_inv in H4 as (? & ? & _ & H4).
    apply context_inv, field_inv in H4 as (? & _ & _ & H4). apply parse_i32_range in H4.
    apply pbind_inv in H as (r5 & ss & H5 & H). apply pbind_inv in H5 as (? & ? & _ & H5).
    apply context_inv, vfield_inv in H5 as (? & _ & _ & H5). apply rmap_inv in H5 as (z5 & H5 & [= ->]).
    apply parse_i32_range, tp_sample_set_of_Z_ok in H5.
    apply pmap_inv in H as ([i [[vol u'] e]] & H & ->). cbn [tp_time tp_beat_length tp_meter tp_sample_set_f tp_sample_index tp_volume]. rewrite Htime, (wf_dec_line _ Hbl), Hbc, H4, H5. cbn [andb].
    unfold tp_index_rest in H. apply pbind_inv in H as (? & ? & _ & H). apply alt_inv in H as [H|H].
    + apply pmap_inv in H as (a & H & [= -> -> -> ->]). apply upto_inv in H as [_ H]. apply context_inv, vrest_inv in H as [_ H]. apply rmap_inv in H as (z6 & H6 & [= ->]).
      apply parse_u32_range, sample_index_of_ok in H6. now rewrite H6.
    + apply pbind_inv in H as (r6 & i' & H6 & H). apply context_inv, vfield_inv in H6 as (? & _ & _ & H6). apply rmap_inv in H6 as (z6 & H6 & [= ->]).
      apply parse_u32_range, sample_index_of_ok in H6. apply pmap_inv in H as ([[vol' u''] e'] & H & [= -> -> -> ->]).
      apply pbind_inv in H as (? & ? & _ & H). apply tp_vol_inv in H as [Hvol Ht]. rewrite H6, Hvol. cbn [andb].
      unfold tp_tail_ok in *. cbn [tp_uninherited tp_effects] in *. now destruct u'', e'.
Qed.
Lemma timing_image_any v s l : (3 <= v)%Z -> no_cr s = true -> timing_points_from_str s v = ROk (Some l) -> forallb tp_any l = true.
Proof.
  intros Hv Hc. rewrite timing_points_from_str_eq. destruct (parse_lines _ 0 (lines s)) as [xs| |] eqn:E; cbn; try easy. intros [= <-].
  apply parse_lines_ok in E.
  assert (Hn : forall l, In l (filter (fun l => negb (is_blank l)) (lines s)) -> no_nl l = true /\ no_cr l = true).
  { intros x Hx. apply filter_In in Hx as [Hx _]. pose proof (lines_no_nl s) as H. pose proof (no_cr_lines s Hc) as H'. rewrite forallb_forall in H, H'. auto. }
  remember (filter _ _) as ls eqn:El. clear El.
  induction E as [|l0 x la lx H1 H2 IH]; [easy|]. destruct x as [c|]; [|now apply tp_from_str_none in H1].
  unfold tp_from_str in H1. apply rmap_ok in H1 as (t & H1 & [= ->]). apply verbose_ok in H1 as (r & H1).
  cbn. destruct (Hn l0 (or_introl eq_refl)). rewrite (tp_image_any v l0 r t) by easy. apply IH. intros. apply Hn. now right.
Qed.
Lemma tp_any_can b t : (3 <= b)%Z -> tp_any t = true -> tp_fits b t = true -> index_small (tp_sample_index t) = true ->
  (negb ((b =? 3) || (b =? 4))%Z || room (tp_time t)) = true -> tp_can b t = true.
Proof.
  unfold tp_any, tp_fits, tp_can. rewrite !andb_true_iff. intros Hb [[[[[[[A1 A2] A3] A4] A5] A6] A7] A8] [F1 F2] Hi Hr.
  assert (B : (b =? 3)%Z = false -> wf_dec_field (tp_beat_length t) = true).
  { intros E. rewrite E in F1. cbn [orb] in F1. unfold wf_dec_field, SpecEvents.dec_line in *. apply andb_true_iff in A2 as [-> A2]. destruct (tp_beat_length t); [easy|]. cbn in *. unfold field_text. now rewrite F1, A2. }
  destruct (Z.eqb_spec b 3) as [->|N3]; [|destruct (Z.eqb_spec b 4) as [->|N4]].
  - cbn in Hr. now rewrite A1, A2, A3, Hr.
  - cbn in Hr. rewrite A1, Hr, B, A4, A5, A6, Hi by easy. easy.
  - unfold tp_ok. rewrite A1, B, A4, A5, A6, A7, Hi by easy. cbn [andb]. rewrite andb_true_r. unfold tp_tail_ok, flags_whole in *.
    destruct (tp_uninherited t), (tp_effects t); try easy. rewrite orb_false_r in F2. exact F2.
Qed.

(** ** events *)
Lemma fits_time b t : in_i32 t = true -> in_i32 (shown_time b t) = true -> time_ok b t = true.
Proof. unfold time_ok. now intros -> ->. Qed.
Lemma time_new t : time_ok 5%Z t = true -> in_i32 t = true.
Proof. unfold time_ok. now intros [H _]%andb_true_iff. Qed.
Lemma own_moves b e : in_version b e = true -> event_fits b (written_event e) = true -> own_ok 5%Z (written_event e) = true -> own_ok b (written_event e) = true.
Proof.
  destruct e; cbn [in_version written_event event_fits times_of forallb own_ok]; unfold event_fits; cbn [times_of forallb vi_start br_start br_end ctr_start]; intros Hv Hf H; try easy.
  - rewrite !andb_true_iff in *. destruct H as [[H1 H2] H3], Hf as [Hf _]. rewrite fits_time; [easy|now apply time_new|easy].
  - rewrite !andb_true_iff in *. destruct H as [H1 H2], Hf as [Hf [Hg _]]. split; (apply fits_time; [now apply time_new|easy]).
  - rewrite !andb_true_iff in *. destruct H as [[[[_ H1] H2] H3] H4], Hf as [Hf _]. rewrite Hv, fits_time; [easy|now apply time_new|easy].
Qed.
Lemma events_move b l : Forall (read_event 5%Z) l -> forallb (event_fits b) (written b l) = true -> forallb (event_ok b) (written b l) = true.
Proof.
  unfold written. induction 1 as [|e l [K1 K2] E IH]; [easy|]. cbn [filter]. destruct (in_version b e) eqn:Hv; [|easy]. cbn [map forallb].
  rewrite !andb_true_iff. intros [H1 H2]. split; [|now apply IH]. unfold event_ok. rewrite written_cmds, K1, own_moves; try easy. apply K2. now destruct e.
Qed.

(** ** the file *)
Lemma moved_can dbg s f b : osu_from_str dbg s = ROk f -> forallb no_cr (lines s) = true -> (3 <= b <= 14)%Z -> file_moves b f = true ->
  file_can (file_written (at_version b f)) = true.
Proof.
  intros H Hs Hb Hk. destruct (file_from _ _ _ H Hs) as [(K1 & K2 & K3 & K4 & K5 & K6 & K7 & K8) Hv]. clear H Hs.
  destruct f as [v g e o m d ev tp c h]. unfold file_can, file_moves, file_stays, file_written, at_version in *.
  cbn [osu_version osu_general osu_editor osu_metadata osu_difficulty osu_events osu_timing_points osu_colours osu_hitobjects] in *.
  rewrite !andb_true_iff in Hk. destruct Hk as [[[[[[[[[H1 H2] H3] H4] H5] H6] H7] H8] He] Ht].
  rewrite !andb_true_iff. repeat split; try (apply Z.leb_le; lia).
  + revert H1. apply (opt_all_from _ _ _ _) with (2 := K1). intros body x _ Hx ->. now rewrite (general_image _ _ _ Hx).
  + revert H2. apply (opt_all_from _ _ _ _) with (2 := K2). intros body x _ Hx ->. now rewrite (editor_image _ _ _ Hx).
  + revert H3. apply (opt_all_from _ _ _ _) with (2 := K3). intros body x _ Hx ->. now rewrite (metadata_image _ _ _ Hx).
  + revert H4. apply (opt_all_from _ _ _ _) with (2 := K4). intros body x _ Hx ->. now rewrite (difficulty_image _ _ _ Hx).
  + destruct ev as [l|]; [|easy]. cbn in *. rewrite H5. destruct (K5 l eq_refl) as (body & B1 & B2). cbn [andb].
    apply events_move; [|easy]. eapply read_events_new; [|exact B2]. now apply no_cr_lines.
  + destruct tp as [l|]; [|easy]. cbn [opt_all] in *. destruct (K6 l eq_refl) as (body & B1 & B2). rewrite !andb_true_iff in H6. destruct H6 as [[P1 P2] P3]. rewrite P2, andb_true_r.
    pose proof (timing_image_any v body l ltac:(lia) B1 B2) as P. rewrite forallb_forall in *. intros y Hy. apply tp_any_can; auto; [lia|].
    destruct ((b =? 3) || (b =? 4))%Z; [|easy]. cbn [negb orb] in *. rewrite forallb_forall in P3. auto.
  + revert H7. apply (opt_all_from _ _ _ _) with (2 := K7). intros body x _ Hx Hp. destruct (b <=? 4)%Z; [easy|]. cbn [orb] in *. rewrite Hp. destruct (colours_from_str_ok _ _ _ Hx) as (C1 & C2 & _). now rewrite C1, C2.
  + revert H8. apply (opt_all_from _ _ _ _) with (2 := K8). intros body x _ Hx Hp. rewrite !andb_true_iff in Hp. destruct Hp as [[[P1 P2] P3] P4]. rewrite P3, andb_true_r.
    pose proof (objects_image _ _ _ Hx) as R. rewrite forallb_forall in *. intros y Hy. unfold ho_can. rewrite R, P1, P2 by easy. cbn [andb].
    destruct ((b =? 3) || (b =? 4))%Z; [|easy]. cbn [negb orb] in *. rewrite forallb_forall in P4. now apply P4.
Qed.
Lemma save_as dbg s f b : osu_from_str dbg s = ROk f -> forallb no_cr (lines s) = true -> (3 <= b <= 14)%Z -> file_moves b f = true ->
  exists t secs, osu_to_string dbg (at_version b f) = ROk t
  /\ file_layout t [] b [[]; []] secs [] /\ map sec_name secs = names_of (saved_as b f)
  /\ osu_from_str dbg t = ROk (saved_as b f).
Proof.
  intros H Hs Hb Hk. pose proof (moved_can _ _ _ _ H Hs Hb Hk) as Hc. destruct (whole_any dbg _ Hc) as (t & secs & H1 & H2 & H3 & H4). exists t, secs. rewrite WholeRead.print_written in H1. easy.
Qed.
Lemma save_as_again dbg s f b : osu_from_str dbg s = ROk f -> forallb no_cr (lines s) = true -> (3 <= b <= 14)%Z -> file_moves b f = true ->
  mode_known (at_version b f) = true -> exists t, osu_to_string dbg (saved_as b f) = ROk t /\ osu_from_str dbg t = ROk (saved_as b f).
Proof.
  intros H Hs Hb Hk Hm. pose proof (moved_can _ _ _ _ H Hs Hb Hk) as Hc. now apply file_settles.
Qed.

(** ** to version 12 and later *)
Lemma saved_late b f : (12 <= b)%Z ->
  osu_version (saved_as b f) = b /\ osu_metadata (saved_as b f) = osu_metadata f /\ osu_difficulty (saved_as b f) = osu_difficulty f
  /\ osu_events (saved_as b f) = option_map (written b) (osu_events f) /\ osu_timing_points (saved_as b f) = osu_timing_points f
  /\ osu_colours (saved_as b f) = osu_colours f /\ osu_hitobjects (saved_as b f) = osu_hitobjects f
  /\ osu_general (saved_as b f) = option_map (general_at b) (osu_general f) /\ osu_editor (saved_as b f) = option_map (editor_at b) (osu_editor f).
Proof.
  intros Hb. unfold saved_as, file_back. cbn [file_written at_version osu_version osu_general osu_editor osu_metadata osu_difficulty osu_events osu_timing_points osu_colours osu_hitobjects].
  replace (b <=? 4)%Z with false by lia.
  assert (M : forall A (g : A -> A) (o : option (list A)), (forall a, g a = a) -> option_map (map g) o = o).
  { intros A g o Hg. destruct o as [l|]; [|easy]. cbn. f_equal. rewrite (map_ext g (fun x => x)) by easy. apply map_id. }
  repeat split; try apply M.
  - intros t. unfold tp_back. replace (b =? 3)%Z with false by lia. now replace (b =? 4)%Z with false by lia.
  - assert (T : forall d, time_back b d = d).
    { intros d. unfold time_back. replace (b =? 3)%Z with false by lia. replace (b =? 4)%Z with false by lia. now destruct d. }
    intros [p t q nc sk h hs]. unfold ho_back, sample_back, params_back. cbn [ho_position ho_time ho_obj_params ho_new_combo ho_combo_skip_count ho_hitsound ho_hitsample].
    replace (b <=? 9)%Z with false by lia. replace (b <=? 11)%Z with false by lia. rewrite T. f_equal. destruct q; now rewrite ?T.
Qed.
