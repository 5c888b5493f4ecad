(** Which values the key/value sections give (C76). *)
From Coq Require Import String List NArith ZArith Bool Lia Permutation.
From Verif Require Import Str Num Nom Dec Parsers KeyValue KvFields General Editor Metadata Difficulty Spec
  SpecWf SpecKv SpecText SpecSections SpecTypes SpecCmd SpecImage StrFacts NumFacts NomFacts DecFacts LineFacts SplitFacts LayoutFacts
  KvFacts KvSem KvSections KvTheorems KvLines KvImage KvStatements SpecLine SpecEvLine SpecKvRead KvRead.
Import ListNotations.
Local Open Scope N_scope.

(** ** the tables with printers that write in every version *)
Definition general_all : list (field general general_err) := [
  mk_field (lit "AudioFilename") from_text to_text general_audio_filename general_set_audio_filename;
  mk_field (lit "AudioLeadIn") gen_int to_int general_audio_lead_in general_set_audio_lead_in;
  mk_field (lit "AudioHash") from_text to_text general_audio_hash general_set_audio_hash;
  mk_field (lit "PreviewTime") gen_int to_int general_preview_time general_set_preview_time;
  mk_field (lit "Countdown") countdown_from_str countdown_to_string general_countdown general_set_countdown;
  mk_field (lit "SampleSet") gsample_set_from_str gsample_set_to_string general_sample_set general_set_sample_set;
  mk_field (lit "StackLeniency") from_dec to_dec general_stack_leniency general_set_stack_leniency;
  mk_field (lit "Mode") mode_from_str mode_to_string general_mode general_set_mode;
  mk_field (lit "LetterboxInBreaks") from_zero_one to_zero_one general_letterbox_in_breaks general_set_letterbox_in_breaks;
  mk_field (lit "StoryFireInFront") from_zero_one to_zero_one general_story_fire_in_front general_set_story_fire_in_front;
  mk_field (lit "UseSkinSprites") from_zero_one to_zero_one general_use_skin_sprites general_set_use_skin_sprites;
  mk_field (lit "AlwaysShowPlayfield") from_zero_one to_zero_one general_always_show_playfield general_set_always_show_playfield;
  mk_field (lit "OverlayPosition") overlay_position_from_str overlay_position_to_string general_overlay_position general_set_overlay_position;
  mk_field (lit "SkinPreference") from_text to_text general_skin_preference general_set_skin_preference;
  mk_field (lit "EpilepsyWarning") from_zero_one to_zero_one general_epilepsy_warning general_set_epilepsy_warning;
  mk_field (lit "CountdownOffset") gen_int to_int general_countdown_offset general_set_countdown_offset;
  mk_field (lit "SpecialStyle") from_zero_one to_zero_one general_special_style general_set_special_style;
  mk_field (lit "WidescreenStoryboard") from_zero_one to_zero_one general_widescreen_storyboard general_set_widescreen_storyboard;
  mk_field (lit "SamplesMatchPlaybackRate") from_zero_one to_zero_one general_samples_match_playback_rate general_set_samples_match_playback_rate;
  mk_field (lit "EditorBookmarks") from_editor_bookmarks (nvp print_int_list) general_editor_bookmarks general_set_editor_bookmarks;
  mk_field (lit "EditorDistanceSpacing") from_dec to_dec general_editor_distance_spacing general_set_editor_distance_spacing].
Lemma general_all_laws : field_laws general_all general_new general_spacing.
Proof. prove_laws general_all. reflexivity. Qed.
Lemma general_all_same s v : kv_from_str general_errs general_all general_new s v = general_from_str s v.
Proof. reflexivity. Qed.
Lemma general_all_rt v g : general_range v g = true -> forall f x, In f general_all -> f_get f g = Some x ->
  field_rt f v x (f_get f g).
Proof.
  intros H f x Hf Hx. unfold general_range in H. rewrite !andb_true_iff in H. destruct H as [[[[H G1] G2] G3] G4].
  unfold general_ok in H. conj_ok H.
  each_field Hf; rt_open; try rewrite Hx; try kind v Hx.
  - rewrite Hx in G1. cbn in G1. unfold countdown_to_string. unfold has_countdown in G1. fold (old_version v) in G1.
    destruct (old_version v) eqn:Eo; [easy|]. now apply reads_countdown.
  - rewrite Hx in G2. cbn in G2. unfold gsample_set_to_string, gsample_set_from_str. unfold has_sample_set in G2.
    destruct (v =? 3)%Z; [easy|]. now destruct x.
  - rewrite Hx in G4. cbn in G4. pose proof (reads_mode x v) as (R1 & R2 & R3). unfold opt_if in R3. rewrite G4 in R3. easy.
  - rewrite Hx in G3. cbn in G3. unfold overlay_position_to_string, overlay_position_from_str. unfold has_overlay in G3. fold (no_overlay v) in G3.
    destruct (no_overlay v) eqn:Eo; [easy|]. now destruct x.
Qed.
Lemma general_gives v g : some_text (fun s => general_from_str s v) g <-> general_range v g = true.
Proof.
  split.
  - intros [s H]. pose proof (general_image _ _ _ H) as H0. apply general_read_gates in H as (H1 & H2 & H3 & H4).
    unfold general_range. rewrite H0. cbn [andb]. rewrite !andb_true_iff. repeat split; apply opt_all_intro; intros x Hx.
    + rewrite Hx in H1. unfold opt_if in H1. now destruct (has_countdown v).
    + rewrite Hx in H2. unfold opt_if in H2. now destruct (has_sample_set v).
    + rewrite Hx in H3. unfold opt_if in H3. now destruct (has_overlay v).
    + rewrite Hx in H4. unfold opt_if in H4. now destruct (has_mode v x).
  - intros H. destruct (kv_round_trip general_errs _ _ _ general_all_laws g g v) as (t & Ht & Hr).
    + now apply general_all_rt.
    + auto.
    + exists t. exact Hr.
Qed.
(** ** the others *)
Lemma editor_any_version s v w : editor_from_str s v = editor_from_str s w.
Proof. destruct (every_text_has_entries s) as (es & t & -> & H1 & H2). now rewrite !editor_reads_eq. Qed.
Lemma editor_gives v e : some_text (fun s => editor_from_str s v) e <-> editor_ok e = true.
Proof.
  split; [intros [s H]; now apply editor_image in H|]. intros H. exists (text_of_lines (editor_lines 10%Z e)).
  rewrite (editor_any_version _ v 10%Z), editor_round_trip by easy. rewrite editor_read_at by now left. easy.
Qed.
Lemma metadata_gives v m : some_text (fun s => metadata_from_str s v) m <-> metadata_ok m = true.
Proof.
  split; [intros [s H]; now apply metadata_image in H|]. intros H. eexists. now apply metadata_round_trip.
Qed.
Lemma difficulty_gives v d : some_text (fun s => difficulty_from_str s v) d <-> difficulty_ok d = true.
Proof.
  split; [intros [s H]; now apply difficulty_image in H|]. intros H. eexists. apply (difficulty_round_trip d v). easy.
Qed.
