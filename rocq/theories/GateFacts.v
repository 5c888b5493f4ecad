(** Proofs about version gates (C32). *)
From Coq Require Import String List NArith ZArith Bool Lia.
From Verif Require Import Str Num Nom Dec Parsers KeyValue KvFields General Editor Metadata Difficulty Colours
  TimingPoints HitObjects Storyboard NormalEvents Events Osb OsuFile Defaults Spec SpecWf SpecSections SpecGate
  StrFacts NumFacts NomFacts DecFacts LineFacts ColoursFacts KvFacts KvSem KvSections KvTheorems KvImage.
Import ListNotations.
Local Open Scope N_scope.

Lemma countdown_agrees : agrees has_countdown any countdown_from_str countdown_to_string countdown_default.
Proof.
  intros v. unfold has_countdown. fold (old_version v). unfold countdown_default, countdown_to_string.
  destruct (old_version v) eqn:E; cbn [negb].
  - repeat split. intros s. unfold countdown_from_str. now rewrite E.
  - split; [now exists CdNormal|]. split.
    + intros s. unfold countdown_from_str. rewrite E. destruct (parse_usize s) as [r| |]; try easy.
      now destruct (countdown_from_repr r v) as [[c|]|].
    + intros x _. eexists. split; [reflexivity|]. now apply reads_countdown.
Qed.
Lemma sample_set_agrees : agrees has_sample_set any gsample_set_from_str gsample_set_to_string gsample_set_default.
Proof.
  intros v. unfold has_sample_set, gsample_set_default, gsample_set_to_string, gsample_set_from_str.
  destruct (v =? 3)%Z; cbn [negb]; [easy|]. split; [now exists GsNormal|]. split.
  - intros s. repeat (destruct (str_eqb s _); [easy|]). easy.
  - intros x _. eexists. split; [reflexivity|]. now destruct x.
Qed.
Lemma overlay_agrees : agrees has_overlay any overlay_position_from_str overlay_position_to_string overlay_position_default.
Proof.
  intros v. unfold has_overlay. fold (no_overlay v). unfold overlay_position_default, overlay_position_to_string, overlay_position_from_str.
  destruct (no_overlay v); cbn [negb]; [easy|]. split; [now exists OpNoChange|]. split.
  - intros s. repeat (destruct (str_eqb s _); [easy|]). easy.
  - intros x _. eexists. split; [reflexivity|]. now destruct x.
Qed.
Lemma colours_agree :
  agrees has_colours (fun l => forallb colour_ok l && forallb combo_nonneg l) colours_from_str colours_to_string colours_default.
Proof.
  intros v. unfold has_colours. fold (old_version v). unfold colours_default. destruct (old_version v) eqn:E; cbn [negb].
  - unfold colours_from_str, colours_to_string. rewrite E. easy.
  - split; [now exists []|]. split.
    + intros s. unfold colours_from_str. rewrite E. now destruct (parse_lines _ _ _).
    + intros x H. apply andb_true_iff in H as [H1 H2].
      now apply colours_round_trip.
Qed.
Lemma osb_agrees dbg v :
  if has_osb v
  then (forall s, osb_from_str dbg s v <> ROk None) /\ (forall o, osb_to_string dbg o v <> ROk None)
  else (forall s, osb_from_str dbg s v = ROk None) /\ (forall o, osb_to_string dbg o v = ROk None).
Proof.
  unfold has_osb, osb_from_str, osb_to_string. rewrite leb_ltb. destruct (v <? 14)%Z; cbn [negb]; [easy|]. split.
  - intros s. destruct (split_pre (lines s)) as [pre rest]. destruct (unexpected_line 0 pre); [easy|].
    destruct (many0 _ _); try easy. now destruct (osb_loop _ _ _ _ _ _).
  - intros o. match goal with |- rmap _ ?r <> _ => now destruct r end.
Qed.

Lemma text_agrees {E} df : (forall v, exists d, df v = Some d) -> agrees (E:=E) all_versions any from_text to_text df.
Proof.
  intros H v. unfold all_versions. split; [destruct (H v) as [d Hd]; now exists d|]. split; [easy|]. intros x _. now exists x.
Qed.
Lemma int_agrees {E} (f : int_err -> E) d : in_i32 d = true -> agrees all_versions in_i32 (from_int f) to_int (always d).
Proof.
  intros H v. unfold all_versions. split; [now exists d|]. split.
  - intros s. unfold from_int, nv. now destruct (parse_i32 s).
  - intros x Hx. exists (print_Z x). split; [easy|]. now apply reads_int.
Qed.
Lemma flag_agrees d : agrees all_versions any from_zero_one to_zero_one (always d).
Proof.
  intros v. unfold all_versions. split; [now exists d|]. split.
  - intros s. unfold from_zero_one, nv. now destruct (parse_zero_one_bool s).
  - intros x _. exists (print_bool x). split; [easy|]. now apply reads_flag.
Qed.
Lemma dec_agrees {E} d : dec_value d = true -> agrees (E:=E) all_versions dec_value from_dec to_dec (always d).
Proof.
  intros H v. unfold all_versions. split; [now exists d|]. split; [easy|].
  intros x Hx. exists (print_decimal x). split; [easy|]. now apply reads_dec.
Qed.

Lemma audio_hash_gate :
  read_always (E:=general_err) has_audio_hash any from_text to_audio_hash
  /\ forall v, audio_hash_default v = if has_audio_hash v then Some [] else None.
Proof.
  unfold read_always, has_audio_hash, to_audio_hash, audio_hash_default. setoid_rewrite leb_ltb. split.
  - intros v. split; [easy|]. destruct (13 <? v)%Z; cbn [negb]; (split; [easy|]); [easy|]. intros _ x _. now exists x.
  - intros v. now destruct (13 <? v)%Z.
Qed.
Lemma editor_bookmarks_gate :
  read_always has_editor_fields (forallb in_i32) from_editor_bookmarks to_editor_bookmarks.
Proof.
  intros v. unfold has_editor_fields, to_editor_bookmarks. rewrite leb_ltb. split.
  - intros s. unfold from_editor_bookmarks, nv. now destruct (parse_int_list _ _ _).
  - destruct (5 <? v)%Z; cbn [negb]; (split; [easy|]); [easy|]. intros _ x Hx. eexists. split; [reflexivity|]. now apply reads_ints.
Qed.
Lemma editor_spacing_gate : read_always (E:=general_err) has_editor_fields dec_value from_dec to_editor_distance_spacing.
Proof.
  intros v. unfold has_editor_fields, to_editor_distance_spacing. rewrite leb_ltb. split; [easy|].
  destruct (5 <? v)%Z; cbn [negb]; (split; [easy|]); [easy|]. intros _ x Hx. eexists. split; [reflexivity|]. now apply reads_dec.
Qed.
Lemma current_time_gate : read_always (fun v => (v =? 10)%Z) in_i32 (from_int EdInt) to_current_time.
Proof.
  intros v. unfold to_current_time. split.
  - intros s. unfold from_int, nv. now destruct (parse_i32 s).
  - destruct (v =? 10)%Z; cbn [negb]; (split; [easy|]); [|easy]. intros _ x Hx. eexists. split; [reflexivity|]. now apply reads_int.
Qed.

Lemma mode_gates v :
  (forall s m, mode_from_str s v = ROk (Some m) -> has_mode v m = true)
  /\ (forall m, exists s, mode_to_string m v = Some s
        /\ mode_from_str s v = ROk (if has_mode v m then Some m else None))
  /\ (forall d, mode_default v = Some d -> has_mode v d = true).
Proof.
  assert (Hm : forall m, mode_from_str (print_Z (mode_repr m)) v = ROk (opt_if (has_mode v m) (Some m))) by (intros m; apply reads_mode).
  split; [|split].
  - intros s m H. unfold mode_from_str in H. destruct (parse_usize s) as [r| |]; try easy.
    assert (Hg : forall x, mode_gate x v = opt_if (has_mode v x) (Some x)).
    { intros x. specialize (Hm x). unfold mode_from_str in Hm. rewrite parse_print_usize in Hm by now destruct x. destruct x; cbn in Hm; now injection Hm. }
    repeat rewrite Hg in H. unfold opt_if in H.
    repeat (destruct (_ =? _)%Z; [cbn [rmap_err] in H; match type of H with context [has_mode v ?x] => destruct (has_mode v x) eqn:E; [now injection H as <-|easy] end|]).
    easy.
  - intros m. exists (print_Z (mode_repr m)). split; [easy|]. rewrite Hm. unfold opt_if. now destruct (has_mode v m).
  - now intros d [= <-].
Qed.

Ltac each H := repeat (destruct H as [<-|H]; [|]); try now destruct H.
Lemma nv_some {A E} (f : str -> res A E) s v : nv f s v <> ROk None.
Proof. unfold nv. now destruct (f s). Qed.
Lemma plain_general f : In f general_fields -> is_versioned (f_name f) = false ->
  forall v, (forall s, f_from f s v <> ROk None) /\ (forall x, f_to f x v <> None).
Proof.
  intros H Hn v. each H; first [now vm_compute in Hn|split; [intros s; apply nv_some|easy]].
Qed.
Lemma plain_editor f : In f editor_fields -> is_versioned (f_name f) = false ->
  forall v, (forall s, f_from f s v <> ROk None) /\ (forall x, f_to f x v <> None).
Proof.
  intros H Hn v. each H; first [now vm_compute in Hn|split; [intros s; apply nv_some|easy]].
Qed.
Lemma plain_metadata f : In f metadata_fields ->
  forall v, (forall s, f_from f s v <> ROk None) /\ (forall x, f_to f x v <> None).
Proof. intros H v. each H; (split; [intros s; apply nv_some|easy]). Qed.
Lemma plain_difficulty f : In f difficulty_fields ->
  forall v, (forall s, f_from f s v <> ROk None) /\ (forall x, f_to f x v <> None).
Proof. intros H v. each H; (split; [intros s; apply nv_some|easy]). Qed.

(** ** Whole files *)
Lemma general_gated s v g : general_from_str s v = ROk (Some g) -> gated_general v g.
Proof.
  intros H. destruct (general_read_gates _ _ _ H) as (H1 & H2 & H3 & H4). unfold gated_general, opt_if in *. repeat split.
  - intros K. destruct (has_countdown v); [easy|]. now rewrite <- H1 in K.
  - intros K. destruct (has_sample_set v); [easy|]. now rewrite <- H2 in K.
  - intros K. destruct (has_overlay v); [easy|]. now rewrite <- H3 in K.
  - intros m E. rewrite E in H4. now destruct (has_mode v m).
Qed.
Lemma colours_gated s v l : colours_from_str s v = ROk (Some l) -> has_colours v = true.
Proof. unfold colours_from_str, has_colours. fold (old_version v). now destruct (old_version v). Qed.
Lemma section_gated dbg f name body line g : osu_section dbg f name body line = Some (ROk g) -> gated_file f -> gated_file g.
Proof.
  intros H K. destruct f as [v g0 e o m d ev tp c h]. unfold osu_section in H. unfold gated_file in *.
  cbn [osu_version osu_general osu_colours osu_osb] in *. destruct K as (K1 & K2 & K3).
  repeat (destruct (str_eqb name _); [|]); try easy;
    match type of H with Some (rmap _ ?r) = _ => destruct r as [y| |] eqn:E; try easy; injection H as <- end;
    cbn [osu_version osu_general osu_colours osu_osb]; (split; [|split]); auto.
  - intros g ->. unfold processing_line in E. destruct (general_from_str body v) as [z| |] eqn:Eg; try easy. injection E as ->. eapply general_gated. eauto.
  - intros Hy. unfold processing_line in E. destruct (colours_from_str body v) as [z| |] eqn:Eg; try easy. injection E as ->.
    destruct y as [l|]; [|easy]. eapply colours_gated. eauto.
Qed.
Lemma loop_gated dbg l : forall line parsed acc f, gated_file acc -> osu_loop dbg line parsed acc l = ROk f -> gated_file f.
Proof.
  induction l as [|[[[ws name] ws2] body] l IH]; intros line parsed acc f Ha H; cbn [osu_loop] in H; [now injection H as <-|].
  destruct (mem_str name parsed); [easy|]. destruct (osu_section _ _ _ _ _) as [r|] eqn:E; [|easy]. destruct r as [acc'| |]; try easy.
  cbn [rbind] in H. destruct (usize_pred dbg (lines_count body)) as [n| |]; try easy. cbn [rbind] in H.
  eapply IH; [|exact H]. eapply section_gated; eauto.
Qed.
Lemma file_gated dbg s f : osu_from_str dbg s = ROk f -> gated_file f.
Proof.
  unfold osu_from_str. intros H. destruct (version_parser s) as [s' [ws v]|e| |] eqn:Ev; try easy; [|now destruct (e_kind e)].
  destruct (negb _); [easy|]. destruct (split_pre (lines s')) as [pre rest]. destruct (unexpected_line 0 pre); [easy|].
  destruct (many0 _ _) as [r l| | |]; try easy. eapply loop_gated; [|exact H]. unfold gated_file. cbn. easy.
Qed.
Lemma append_gated dbg f s : gated_file f -> gated_file (fst (append_osb dbg f s)).
Proof.
  intros (H1 & H2 & H3). unfold append_osb. destruct (osb_from_str dbg s (osu_version f)) as [o| |] eqn:E; cbn [fst]; try easy.
  unfold gated_file, set_osb. cbn [osu_version osu_general osu_colours osu_osb]. repeat split; try apply H1; auto.
  intros Ho. pose proof (osb_agrees dbg (osu_version f)) as A. destruct (has_osb (osu_version f)); [easy|]. destruct A as [A _]. rewrite A in E. now injection E as <-.
Qed.

Lemma written_general_text v g : general_to_string (written_general v g) v = general_to_string g v.
Proof.
  rewrite !general_layout. do 2 f_equal. unfold general_lines, written_general.
  cbn [general_audio_filename general_audio_lead_in general_audio_hash general_preview_time general_countdown general_sample_set
       general_stack_leniency general_mode general_letterbox_in_breaks general_story_fire_in_front general_use_skin_sprites
       general_always_show_playfield general_overlay_position general_skin_preference general_epilepsy_warning
       general_countdown_offset general_special_style general_widescreen_storyboard general_samples_match_playback_rate
       general_editor_bookmarks general_editor_distance_spacing].
  unfold opt_if. destruct (has_audio_hash v), (has_countdown v), (has_sample_set v), (has_overlay v), (has_editor_fields v); reflexivity.
Qed.
Lemma written_editor_text v e : editor_to_string (written_editor v e) v = editor_to_string e v.
Proof.
  rewrite !editor_layout. do 2 f_equal. unfold editor_lines, written_editor.
  cbn [editor_bookmarks editor_distance_spacing editor_beat_divisor editor_grid_size editor_timeline_zoom editor_current_time].
  unfold opt_if. destruct (v =? 10)%Z; reflexivity.
Qed.
Lemma print_without_absent dbg f :
  osu_to_string dbg (without_absent f) = osu_to_string dbg f
  /\ osu_osb_to_string dbg (without_absent f) = osu_osb_to_string dbg f.
Proof.
  destruct f as [v g e o m d ev tp c h]. unfold osu_to_string, osu_osb_to_string, without_absent.
  cbn [osu_version osu_general osu_editor osu_osb osu_metadata osu_difficulty osu_events osu_timing_points osu_colours osu_hitobjects]. split.
  - assert (Hg : obind (option_map (written_general v) g) (fun x => general_to_string x v) = obind g (fun x => general_to_string x v)).
    { destruct g as [g|]; [|easy]. apply written_general_text. }
    assert (He : obind (option_map (written_editor v) e) (fun x => editor_to_string x v) = obind e (fun x => editor_to_string x v)).
    { destruct e as [e|]; [|easy]. apply written_editor_text. }
    assert (Hc : obind (opt_if (has_colours v) c) (fun x => colours_to_string x v) = obind c (fun x => colours_to_string x v)).
    { unfold opt_if, has_colours. fold (old_version v). destruct (old_version v) eqn:E; [|easy]. destruct c as [c|]; [|easy]. cbn. unfold colours_to_string. now rewrite E. }
    now rewrite Hg, He, Hc.
  - unfold opt_if. pose proof (osb_agrees dbg v) as A. destruct (has_osb v); [easy|]. destruct o as [o|]; [|easy]. now rewrite (proj2 A).
Qed.

(** ** Single values *)
Lemma transformation_gate dbg v :
  (forall s, ctr_from_str dbg v s <> ROk None)
  /\ (has_transformation v = false -> forall x, ctr_to_string dbg v x = ROk None)
  /\ (has_transformation v = true -> forall x, ctr_to_string dbg v x <> ROk None).
Proof.
  unfold has_transformation, ctr_from_str, ctr_to_string. split; [|destruct (v <? 14)%Z; (split; [easy|])].
  - intros s. now destruct (verbose_error_to_error _).
  - intros _ x. now destruct (time_to_string dbg v (ctr_start x)).
  - easy.
Qed.
Lemma hit_sample_gate v :
  (forall s, hit_sample_from_str s <> ROk None)
  /\ (forall h, hit_sample_to_string h v = None <-> (3 <= v <= 9)%Z).
Proof.
  split; [intros s; unfold hit_sample_from_str; now destruct (verbose_error_to_error _)|].
  intros h. unfold hit_sample_to_string. destruct ((3 <=? v) && (v <=? 9))%Z eqn:E.
  - apply andb_true_iff in E as [E1 E2]. apply Z.leb_le in E1, E2. split; [lia|easy].
  - split; [destruct ((10 <=? v) && (v <=? 11))%Z; discriminate|]. intros [H1 H2]. apply Z.leb_le in H1, H2. now rewrite H1, H2 in E.
Qed.
Lemma plain_defaults :
  agrees (E:=general_err) all_versions any from_text to_text audio_filename_default
  /\ agrees all_versions in_i32 gen_int to_int audio_lead_in_default
  /\ agrees all_versions in_i32 gen_int to_int preview_time_default
  /\ agrees (E:=general_err) all_versions dec_value from_dec to_dec stack_leniency_default
  /\ agrees all_versions any from_zero_one to_zero_one letterbox_in_breaks_default
  /\ agrees all_versions any from_zero_one to_zero_one story_fire_in_front_default
  /\ agrees all_versions any from_zero_one to_zero_one use_skin_sprites_default
  /\ agrees all_versions any from_zero_one to_zero_one always_show_playfield_default
  /\ agrees (E:=general_err) all_versions any from_text to_text skin_preference_default
  /\ agrees all_versions any from_zero_one to_zero_one epilepsy_warning_default
  /\ agrees all_versions in_i32 gen_int to_int countdown_offset_default
  /\ agrees all_versions any from_zero_one to_zero_one special_style_default
  /\ agrees all_versions any from_zero_one to_zero_one widescreen_storyboard_default
  /\ agrees all_versions any from_zero_one to_zero_one samples_match_playback_rate_default.
Proof.
  repeat match goal with |- _ /\ _ => split end;
    first [apply flag_agrees|apply int_agrees; reflexivity|apply dec_agrees; reflexivity|apply text_agrees; intros v; now eexists].
Qed.

(** ** the texts of the defaults *)
Lemma default_texts :
  default_text all_versions to_text audio_filename_default ""
  /\ default_text all_versions to_int audio_lead_in_default "0"
  /\ default_text all_versions to_int preview_time_default "-1"
  /\ default_text has_countdown countdown_to_string countdown_default "1"
  /\ default_text has_sample_set gsample_set_to_string gsample_set_default "Normal"
  /\ default_text all_versions to_dec stack_leniency_default "0.7"
  /\ default_text all_versions mode_to_string mode_default "0"
  /\ default_text all_versions to_zero_one letterbox_in_breaks_default "0"
  /\ default_text all_versions to_zero_one story_fire_in_front_default "1"
  /\ default_text all_versions to_zero_one use_skin_sprites_default "0"
  /\ default_text all_versions to_zero_one always_show_playfield_default "0"
  /\ default_text has_overlay overlay_position_to_string overlay_position_default "NoChange"
  /\ default_text all_versions to_text skin_preference_default ""
  /\ default_text all_versions to_zero_one epilepsy_warning_default "0"
  /\ default_text all_versions to_int countdown_offset_default "0"
  /\ default_text all_versions to_zero_one special_style_default "0"
  /\ default_text all_versions to_zero_one widescreen_storyboard_default "0"
  /\ default_text all_versions to_zero_one samples_match_playback_rate_default "0".
Proof.
  unfold default_text, all_versions.
  repeat split; try (intros v; eexists; split; [reflexivity|vm_compute; reflexivity]); intros v;
  unfold countdown_default, gsample_set_default, overlay_position_default, has_countdown, has_sample_set, has_overlay, countdown_to_string, gsample_set_to_string, overlay_position_to_string.
  - unfold old_version. destruct ((3 <=? v) && (v <=? 4))%Z; cbn [negb]; [reflexivity|]. eexists. split; reflexivity.
  - destruct (v =? 3)%Z; cbn [negb]; [reflexivity|]. eexists. split; reflexivity.
  - unfold no_overlay. destruct ((3 <=? v) && (v <=? 13))%Z; cbn [negb]; [reflexivity|]. eexists. split; reflexivity.
Qed.
