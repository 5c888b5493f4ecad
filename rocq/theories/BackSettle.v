(** A file that was written and read back once does not change any more (C33). *)
From Coq Require Import String List NArith ZArith Bool Lia.
From Verif Require Import Str Num Nom Dec Parsers General Editor Metadata Difficulty Colours TimingPoints HitObjects Storyboard NormalEvents Events Osb OsuFile
  Spec SpecWf SpecText SpecKv SpecSections SpecFile SpecTypes SpecCmd SpecEvents SpecOld SpecWhole SpecBack
  StrFacts NumFacts NomFacts DecFacts LineFacts EvLoop WholeFacts WholeRead OldFacts BackFacts.
Import ListNotations.
Local Open Scope N_scope.

(** ** times *)
Lemma time_back_cases v d : time_back v d = d \/ exists r, d = DNum r /\ (time_back v d = DNum (mkDec false 0 0) \/ time_back v d = DNum (mkDec false 24 0)).
Proof.
  unfold time_back. destruct d as [r|s]; [|now left]. destruct (_ || _)%bool; [|now left]. destruct (_ =? 0)%Z; [right; eauto|].
  destruct (_ =? _)%Z; [right; eauto|now left].
Qed.
Lemma time_back_twice v d : time_back v (time_back v d) = time_back v d.
Proof.
  destruct (time_back_cases v d) as [E|(r & -> & [E|E])]; rewrite E; try exact E.
  - unfold time_back. destruct (_ || _)%bool; reflexivity.
  - unfold time_back. destruct (_ || _)%bool; reflexivity.
Qed.
(** What holds of [d], 0 and 24 holds of [time_back v d]. *)
Lemma time_back_keeps v (P : decimal -> bool) d : P (DNum (mkDec false 0 0)) = true -> P (DNum (mkDec false 24 0)) = true ->
  P d = true -> P (time_back v d) = true.
Proof. intros H0 H24 H. destruct (time_back_cases v d) as [E|(r & -> & [E|E])]; now rewrite E. Qed.

(** ** timing points *)
Lemma tp_back_twice v t : tp_back v (tp_back v t) = tp_back v t.
Proof. unfold tp_back. destruct (v =? 3)%Z; cbn; [now rewrite time_back_twice|]. destruct (v =? 4)%Z; cbn; [now rewrite time_back_twice|easy]. Qed.
Lemma tp_back_can v t : tp_can v t = true -> tp_can v (tp_back v t) = true.
Proof.
  unfold tp_can, tp_back. destruct (v =? 3)%Z; cbn [tp_time tp_beat_length].
  - rewrite !andb_true_iff. intros [[[A B] C] D]. repeat split; try easy; apply time_back_keeps; easy.
  - destruct (v =? 4)%Z; [|easy]. cbn [tp_time tp_beat_length tp_meter tp_sample_set_f tp_sample_index].
    rewrite !andb_true_iff. intros [[[[[[A B] C] D] F] G] I]. repeat split; try easy; apply time_back_keeps; easy.
Qed.

(** ** hit objects *)
Lemma sample_back_twice v o : sample_back v (ho_back v o) = sample_back v o.
Proof.
  unfold sample_back, ho_back. cbn [ho_obj_params ho_hitsample]. destruct (v <=? 9)%Z eqn:E9.
  - now destruct (ho_obj_params o).
  - unfold sample_back. rewrite E9. destruct (v <=? 11)%Z; [|easy]. now destruct (ho_hitsample o).
Qed.
Lemma ho_back_twice v o : ho_back v (ho_back v o) = ho_back v o.
Proof.
  unfold ho_back at 1. rewrite sample_back_twice. unfold ho_back. cbn [ho_position ho_time ho_obj_params ho_new_combo ho_combo_skip_count ho_hitsound ho_hitsample].
  rewrite time_back_twice. f_equal. destruct (ho_obj_params o); cbn [params_back]; now rewrite ?time_back_twice.
Qed.
Lemma params_back_ok v o : params_ok (ho_obj_params o) (ho_hitsample o) = true -> params_ok (params_back v (ho_obj_params o)) (sample_back v o) = true.
Proof.
  unfold sample_back. destruct (ho_obj_params o) as [|p|t|t]; cbn [params_back params_ok].
  - easy.
  - destruct (v <=? 9)%Z; [|destruct (v <=? 11)%Z; [|easy]].
    + unfold slide_ok. rewrite !andb_true_iff. intros [Hr Hsh]. split; [easy|].
      unfold shorthand_ok in *. destruct (ho_hitsample o); [|easy]. destruct (sl_edge_sounds_short_hand p); [rewrite !andb_true_iff in Hsh; easy|]. now destruct (sl_edge_sets_shorthand p); [rewrite !andb_true_iff in Hsh|].
    + unfold slide_ok, shorthand_ok. now destruct (ho_hitsample o).
  - intros H. apply time_back_keeps; easy.
  - rewrite !andb_true_iff. intros [[[A B] C] D]. repeat split; try (apply time_back_keeps; easy).
    destruct (v <=? 9)%Z; [easy|]. destruct (v <=? 11)%Z; [|easy]. now destruct (ho_hitsample o).
Qed.
Lemma sample_back_ok v o : match ho_hitsample o with Some h => hit_sample_read h && no_nl (hs_filename h) | None => true end = true ->
  match sample_back v o with Some h => hit_sample_read h && no_nl (hs_filename h) | None => true end = true.
Proof.
  unfold sample_back. destruct (v <=? 9)%Z; [intros _; destruct (ho_obj_params o); try easy; now destruct (v =? 3)%Z|].
  destruct (v <=? 11)%Z; [|easy]. destruct (ho_hitsample o) as [h|]; [|easy]. cbn [option_map]. unfold hit_sample_read. cbn [hs_normal hs_addition hs_index hs_volume hs_filename].
  rewrite !andb_true_iff. easy.
Qed.
Lemma ho_back_read v o : ho_read o = true -> ho_read (ho_back v o) = true.
Proof.
  unfold ho_read, ho_back. cbn [ho_position ho_time ho_obj_params ho_new_combo ho_combo_skip_count ho_hitsound ho_hitsample].
  rewrite !andb_true_iff. intros [[[[[[Hx Hy] Ht] Hs1] Hs2] Hp] Hh]. repeat split; try easy.
  - apply time_back_keeps; easy.
  - now apply params_back_ok.
  - now apply sample_back_ok.
Qed.
Lemma ho_back_can v o : ho_can v o = true -> ho_can v (ho_back v o) = true.
Proof.
  unfold ho_can. rewrite ho_back_twice, !andb_true_iff. intros [[[Hr Hk] Hf] Hro]. repeat split; try easy.
  - now apply ho_back_read.
  - revert Hf. unfold position_fits, ho_back. cbn [ho_obj_params ho_position]. now destruct (ho_obj_params o).
  - destruct ((v =? 3) || (v =? 4))%Z; [|easy]. cbn [negb orb] in *. unfold roomy in *. unfold ho_back. cbn [ho_obj_params ho_time]. apply andb_true_iff in Hro. apply andb_true_iff. destruct Hro as [H1 H2].
    split; [now apply time_back_keeps|]. destruct (ho_obj_params o); cbn [params_back]; try easy; now apply time_back_keeps.
Qed.

(** ** the other sections *)
Lemma general_at_twice v g : general_at v (general_at v g) = general_at v g.
Proof.
  unfold general_at, opt_if. cbn. destruct (has_audio_hash v), (has_countdown v), (has_sample_set v), (has_overlay v), (has_editor_fields v); try easy;
  (destruct (general_mode g) as [m|]; [|easy]; destruct (has_mode v m) eqn:E; [now rewrite E|easy]).
Qed.
Lemma editor_at_twice v e : editor_at v (editor_at v e) = editor_at v e.
Proof. unfold editor_at, opt_if. cbn. now destruct (v =? 10)%Z. Qed.
Lemma general_at_ok v g : general_ok g = true -> general_ok (general_at v g) = true.
Proof.
  unfold general_ok, general_at, opt_if. cbn [general_audio_filename general_audio_lead_in general_audio_hash general_preview_time general_stack_leniency
    general_skin_preference general_countdown_offset general_editor_bookmarks general_editor_distance_spacing].
  rewrite !andb_true_iff. intros [[[[[[[[A B] C] D] F] G] I] J] K]. repeat split; try easy; try (now destruct (has_audio_hash v)); now destruct (has_editor_fields v).
Qed.
Lemma editor_at_ok v e : editor_ok e = true -> editor_ok (editor_at v e) = true.
Proof.
  unfold editor_ok, editor_at, opt_if. cbn [editor_bookmarks editor_distance_spacing editor_beat_divisor editor_grid_size editor_timeline_zoom editor_current_time].
  rewrite !andb_true_iff. intros [[[[[A B] C] D] F] G]. repeat split; try easy. now destruct (v =? 10)%Z.
Qed.
Lemma starts_ext {A B} (k : A -> decimal) (k' : B -> decimal) (f : A -> B) l : (forall x, visible_start (k x) = true -> visible_start (k' (f x)) = true) ->
  (forall x, no_bracket (k x) = true -> no_bracket (k' (f x)) = true) -> starts_ok (map k l) = true -> starts_ok (map k' (map f l)) = true.
Proof.
  intros Hv Hb. unfold starts_ok. destruct l as [|a l]; [easy|]. cbn [map]. rewrite !andb_true_iff. intros [H1 H2]. split; [auto|].
  change (k a :: map k l) with (map k (a :: l)) in H2. change (k' (f a) :: map k' (map f l)) with (map k' (map f (a :: l))).
  rewrite !forallb_map. rewrite forallb_map in H2. rewrite forallb_forall in *. auto.
Qed.
Lemma opt_all_map {A B} (p : A -> bool) (q : B -> bool) (f : A -> B) o : (forall x, o = Some x -> p x = true -> q (f x) = true) -> opt_all p o = true -> opt_all q (option_map f o) = true.
Proof. intros H. destruct o; [cbn; auto|easy]. Qed.
Lemma map_twice {A} (f : A -> A) l : (forall x, f (f x) = f x) -> map f (map f l) = map f l.
Proof. intros H. rewrite map_map. now apply map_ext. Qed.
Lemma option_twice {A} (f : A -> A) o : (forall x, f (f x) = f x) -> option_map f (option_map f o) = option_map f o.
Proof. intros H. destruct o; cbn; now rewrite ?H. Qed.

Lemma file_back_twice f : file_back (file_back f) = file_back f.
Proof.
  unfold file_back. cbn [osu_version osu_general osu_editor osu_metadata osu_difficulty osu_events osu_timing_points osu_colours osu_hitobjects]. f_equal.
  - apply option_twice, general_at_twice.
  - apply option_twice, editor_at_twice.
  - apply option_twice. intros l. apply map_twice, tp_back_twice.
  - now destruct (_ <=? 4)%Z.
  - apply option_twice. intros l. apply map_twice, ho_back_twice.
Qed.
Lemma file_back_can f : file_can f = true -> mode_known f = true -> file_can (file_back f) = true.
Proof.
  intros H Hm. unfold file_can, file_back, mode_known in *. cbn [osu_version osu_general osu_editor osu_metadata osu_difficulty osu_events osu_timing_points osu_colours osu_hitobjects].
  set (v := osu_version f) in *. rewrite !andb_true_iff in H. destruct H as [[[[[[[[Hv Hg] He] Hmd] Hd] Hev] Htp] Hc] Hh]. rewrite !andb_true_iff. repeat split; try easy.
  - revert Hg. apply opt_all_map. intros g E. rewrite E in Hm. cbn in Hm. rewrite general_lines_at by easy. rewrite !andb_true_iff. intros [? ?]. split; [now apply general_at_ok|easy].
  - revert He. apply opt_all_map. intros e _. rewrite editor_lines_at, !andb_true_iff. intros [? ?]. split; [now apply editor_at_ok|easy].
  - revert Htp. apply opt_all_map. intros l _. rewrite !andb_true_iff. intros [A B]. split.
    + rewrite forallb_map. rewrite forallb_forall in *. intros x Hx. apply tp_back_can. auto.
    + revert B. apply starts_ext; intros x Hx; unfold tp_back; destruct (v =? 3)%Z; try destruct (v =? 4)%Z; cbn [tp_time]; try easy; now apply time_back_keeps.
  - destruct (v <=? 4)%Z; [easy|]. exact Hc.
  - revert Hh. apply opt_all_map. intros l _. rewrite !andb_true_iff. intros [A B]. split.
    + rewrite forallb_map. rewrite forallb_forall in *. intros x Hx. apply ho_back_can. auto.
    + revert B. apply starts_ext; easy.
Qed.
Lemma file_settles dbg f : file_can f = true -> mode_known f = true -> exists t, osu_to_string dbg (file_back f) = ROk t /\ osu_from_str dbg t = ROk (file_back f).
Proof.
  intros H Hm. destruct (whole_any dbg _ (file_back_can f H Hm)) as (t & secs & H1 & _ & _ & H2). exists t. split; [easy|]. now rewrite file_back_twice in H2.
Qed.
