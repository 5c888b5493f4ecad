(** Files of any version that were read are written and read back (C33). *)
From Coq Require Import String List NArith ZArith Bool Lia.
From Verif Require Import Str Num Nom Dec Parsers KeyValue KvFields General Editor Metadata Difficulty Colours TimingPoints HitObjects Storyboard NormalEvents Events Osb OsuFile
  Spec SpecWf SpecText SpecKv SpecSections SpecFile SpecTypes SpecCmd SpecEvents SpecOld SpecWhole SpecBack
  StrFacts NumFacts NomFacts DecFacts LineFacts ColoursFacts FieldFacts TpFacts HoFacts HoImage LayoutFacts KvTheorems KvImage KvLines FileFacts FileLoop FileTheorems EvImage
  EvLoop WholeFacts WholeRead OldFacts SpecLate SpecPrint PrintPanic BackFacts BackSettle.
Import ListNotations.
Local Open Scope N_scope.

(** ** the 24 of versions 3 and 4 *)
Lemma add24_wf d d' : wf_rdec d = true -> @rdec_add Empty_set d dec24 = ROk d' -> wf_rdec d' = true.
Proof.
  destruct d as [n m sc]. unfold wf_rdec. cbn [d_mant d_scale d_neg]. rewrite !andb_true_iff. intros [[Hm Hs] Hn]. unfold rdec_add, is_zero. cbn [d_mant]. change (d_mant dec24 =? 0) with false.
  destruct (m =? 0); [now intros [= <-]|]. cbn [d_scale]. change (d_scale dec24) with 0%nat. rewrite Nat.max_0_r.
  destruct (fit _ _ _ _) as [[m' sc']|] eqn:E; [|easy]. intros [= <-]. apply fit_spec in E as (H1 & j & Hj & -> & _). unfold from_parts. cbn [d_mant d_neg d_scale].
  split; [split; [now apply N.ltb_lt|]|].
  - apply Nat.leb_le in Hs. apply Nat.leb_le. lia.
  - destruct (m' =? 0); [easy|]. apply orb_true_r.
Qed.
Lemma shift_in_wf v d d' : wf_decimal d = true -> shift_in v d = ROk d' -> wf_decimal d' = true.
Proof.
  unfold shift_in. destruct (old_version v); [|now intros ? [= <-]]. destruct d as [r|s]; [|now intros ? [= <-]]. intros Hw H. apply rmap_ok in H as (y & H & ->).
  now apply add24_wf with r.
Qed.
Lemma shift_in_raw v d d' : shift_in v d = ROk d' -> d' = d \/ exists r r', d = DNum r /\ d' = DNum r'.
Proof.
  unfold shift_in. destruct (old_version v); [|intros [= <-]; auto]. destruct d as [r|s]; [|intros [= <-]; auto]. intros H. apply rmap_ok in H as (y & H & ->). right. eauto.
Qed.
Lemma shift_in_field v d d' : wf_dec_field d = true -> shift_in v d = ROk d' -> wf_dec_field d' = true.
Proof.
  unfold wf_dec_field. rewrite !andb_true_iff. intros [H1 H2] H. split; [now apply shift_in_wf with v d|]. destruct (shift_in_raw _ _ _ H) as [->|(r & r' & -> & ->)]; easy.
Qed.

(** ** hit objects *)
Lemma object_image v s o : no_nl s = true -> ho_from_str v s = ROk (Some o) -> ho_read o = true.
Proof.
  intros Hn H. apply obj_iff in H as (o5 & H & Hs). apply ho_from_str_image in H; [|lia|easy].
  destruct Hs as (p & t5 & t & p5 & q & nc & sk & h & hs & -> & -> & Ht & Hp). unfold ho_read in *. cbn [ho_position ho_time ho_obj_params ho_new_combo ho_combo_skip_count ho_hitsound ho_hitsample] in *.
  rewrite !andb_true_iff in *. destruct H as [[[[[[Hx Hy] Htm] Hs1] Hs2] H2] Hh]. repeat split; try easy.
  - now apply shift_in_field with v t5.
  - destruct p5 as [|a|a|a], q as [|b|b|b]; cbn [shifted_params moved_params params_ok] in *; try easy.
    + rewrite Hp. unfold slide_ok, shorthand_ok in *. cbn [sl_curve_points sl_slides sl_length sl_edge_sets sl_edge_sounds_short_hand sl_edge_sets_shorthand sl_edge_sounds].
      rewrite !andb_true_iff in *. destruct H2 as [[[[A B] C] D] E]. repeat split; try easy. destruct (v =? 3)%Z; [|easy]. destruct (sl_curve_points a); [easy|]. cbn [tl]. now apply andb_true_iff in A.
    + now apply shift_in_field with v a.
    + rewrite !andb_true_iff in *. destruct H2 as [[[A B] C] D]. split; [split; [split|]|]; try easy.
      * now apply shift_in_wf with v a.
      * destruct (shift_in_raw _ _ _ Hp) as [->|(r & r' & -> & ->)]; easy.
      * destruct (shift_in_raw _ _ _ Hp) as [->|(r & r' & -> & ->)]; easy.
Qed.
Lemma objects_image v s l : hit_objects_from_str s v = ROk (Some l) -> forallb ho_read l = true.
Proof.
  unfold hit_objects_from_str. destruct (parse_lines _ 0 (lines s)) as [xs| |] eqn:E; cbn; try easy. intros [= <-].
  apply parse_lines_ok in E.
  assert (Hn : forall l, In l (filter (fun l => negb (is_blank l)) (lines s)) -> no_nl l = true).
  { intros x Hx. apply filter_In in Hx as [Hx _]. pose proof (lines_no_nl s) as H. rewrite forallb_forall in H. auto. }
  remember (filter _ _) as ls eqn:El. clear El.
  induction E as [|l0 x la lx H1 H2 IH]; [easy|]. apply v_unwrap_inv, object_image in H1; [|apply Hn; now left].
  cbn. rewrite H1. apply IH. intros. apply Hn. now right.
Qed.

(** ** timing points *)
(** All that [tp_can] asks for, except [room] and [index_small]. *)
Definition tp_could (v : version) (t : timing_point) : bool :=
  wf_dec_field (tp_time t)
  && (if (v =? 3)%Z then SpecEvents.dec_line (tp_beat_length t) && no_cr_end (print_decimal (tp_beat_length t))
      else wf_dec_field (tp_beat_length t) && in_i32 (tp_meter t) && tp_sample_set_ok (tp_sample_set_f t) && sample_index_ok (tp_sample_index t)).
Lemma no_cr_app a b : no_cr (a ++ b) = true -> no_cr b = true.
Proof. unfold no_cr. rewrite forallb_app, andb_true_iff. easy. Qed.
Lemma no_cr_no_end s : no_cr s = true -> no_cr_end s = true.
Proof.
  intros H. unfold no_cr_end. apply negb_true_iff. destruct s as [|c s] using rev_ind; [easy|]. rewrite ends_with_char_snoc. unfold no_cr in H. rewrite forallb_app in H. apply andb_true_iff in H as [_ H]. cbn [forallb] in H. apply andb_true_iff in H as [H _]. now apply negb_true_iff.
Qed.
Lemma dec_of_no_cr s : no_cr s = true -> no_cr_end (print_decimal (decimal_of_str s)) = true.
Proof.
  intros H. unfold decimal_of_str. destruct (parse_rdec s) as [r|]; cbn [print_decimal]; [apply num_no_cr|now apply no_cr_no_end].
Qed.
Lemma dec_line_of s : no_nl s = true -> SpecEvents.dec_line (decimal_of_str s) = true.
Proof. intros H. unfold dec_line. rewrite decimal_of_str_wf. unfold decimal_of_str. now destruct (parse_rdec s). Qed.
Lemma tp_image v s r t : (3 <= v)%Z -> no_nl s = true -> no_cr s = true -> tp_parser v s = POk r t -> tp_could v t = true.
Proof.
  intros Hv Hn Hc H. unfold tp_parser in H. apply pbind_inv in H as (r1 & time & H1 & H).
  apply map_run_v in H1 as (d5 & H1 & Hs). apply context_inv in H1. pose proof H1 as H1'. apply dfield_wf in H1 as [Htime Hn1]; [|easy].
  apply shift_in_field with (v := v) (d' := time) in Htime; [|easy]. apply dfield_inv in H1' as (x & -> & _ & _). apply no_cr_app in Hc.
  apply preceded_iff in H as (r2 & u & H2 & H). apply context_inv in H2. pose proof H2 as H2'. apply comma_no_nl in H2; [|easy].
  assert (Hc2 : no_cr r2 = true).
  { unfold comma in H2'. apply tag_inv in H2' as [-> _]. now apply no_cr_app in Hc. }
  unfold tp_could. destruct (Z.eqb_spec v 3) as [->|N3].
  - erewrite alt_l in H by (apply pmap_step; rewrite upto_yes by lia; unfold consume_rest_type; eapply map_res_ok; reflexivity).
    injection H as <- <-. cbn [tp_time tp_beat_length]. rewrite Htime, dec_line_of, dec_of_no_cr by easy. easy.
  - apply alt_inv in H as [H|H]. { apply pmap_iff in H as (b & H & _). apply upto_inv in H as [H _]. lia. }
    apply pbind_inv in H as (r3 & bl & H3 & H). apply dfield_wf in H3 as [Hbl Hn3]; [|easy].
    apply pbind_inv in H as (r4 & m & H4 & H). apply pbind_inv in H4 as (? & ? & _ & H4).
    apply context_inv, field_inv in H4 as (? & _ & _ & H4). apply parse_i32_range in H4.
    apply pbind_inv in H as (r5 & ss & H5 & H). apply pbind_inv in H5 as (? & ? & _ & H5).
    apply context_inv, vfield_inv in H5 as (? & _ & _ & H5). apply rmap_inv in H5 as (z5 & H5 & [= ->]).
    apply parse_i32_range, tp_sample_set_of_Z_ok in H5.
    apply pmap_inv in H as ([i [[vol u'] e]] & H & ->). cbn [tp_time tp_beat_length tp_meter tp_sample_set_f tp_sample_index]. rewrite Htime, Hbl, H4, H5. cbn [andb].
    unfold tp_index_rest in H. apply pbind_inv in H as (? & ? & _ & H). apply alt_inv in H as [H|H].
    + apply pmap_inv in H as (a & H & [= -> _ _ _]). apply upto_inv in H as [_ H]. apply context_inv, vrest_inv in H as [_ H]. apply rmap_inv in H as (z6 & H6 & [= ->]).
      now apply parse_u32_range, sample_index_of_ok in H6.
    + apply pbind_inv in H as (r6 & i' & H6 & H). apply context_inv, vfield_inv in H6 as (? & _ & _ & H6). apply rmap_inv in H6 as (z6 & H6 & [= ->]).
      apply parse_u32_range, sample_index_of_ok in H6. now apply pmap_inv in H as ([[vol' u''] e'] & H & [= -> _ _ _]).
Qed.
Lemma timing_image v s l : (3 <= v)%Z -> no_cr s = true -> timing_points_from_str s v = ROk (Some l) -> forallb (tp_could v) l = true.
Proof.
  intros Hv Hc. rewrite timing_points_from_str_eq. destruct (parse_lines _ 0 (lines s)) as [xs| |] eqn:E; cbn; try easy. intros [= <-].
  apply parse_lines_ok in E.
  assert (Hn : forall l, In l (filter (fun l => negb (is_blank l)) (lines s)) -> no_nl l = true /\ no_cr l = true).
  { intros x Hx. apply filter_In in Hx as [Hx _]. pose proof (lines_no_nl s) as H. pose proof (no_cr_lines s Hc) as H'. rewrite forallb_forall in H, H'. auto. }
  remember (filter _ _) as ls eqn:El. clear El.
  induction E as [|l0 x la lx H1 H2 IH]; [easy|]. destruct x as [c|]; [|now apply tp_from_str_none in H1].
  unfold tp_from_str in H1. apply rmap_ok in H1 as (t & H1 & [= ->]). apply verbose_ok in H1 as (r & H1).
  cbn. destruct (Hn l0 (or_introl eq_refl)). rewrite (tp_image v l0 r t) by easy. apply IH. intros. apply Hn. now right.
Qed.

(** ** the file *)
Lemma read_file_can dbg s f : osu_from_str dbg s = ROk f -> forallb no_cr (lines s) = true -> dbg = true \/ (5 <= osu_version f)%Z -> file_stays f = true ->
  file_can (file_written f) = true /\ mode_known (file_written f) = true.
Proof.
  intros H Hs Hdbg Hk. destruct (file_from _ _ _ H Hs) as [(K1 & K2 & K3 & K4 & K5 & K6 & K7 & K8) Hv]. clear H Hs. split.
  - destruct f as [v g e o m d ev tp c h]. unfold file_can, file_stays, file_written in *.
    cbn [osu_version osu_general osu_editor osu_metadata osu_difficulty osu_events osu_timing_points osu_colours osu_hitobjects] in *.
    rewrite !andb_true_iff in Hk. destruct Hk as [[[[[[[H1 H2] H3] H4] H5] H6] H7] H8].
    rewrite !andb_true_iff. repeat split; try (apply Z.leb_le; lia).
    + revert H1. apply (opt_all_from _ _ _ _) with (2 := K1). intros body x _ Hx ->. now rewrite (general_image _ _ _ Hx).
    + revert H2. apply (opt_all_from _ _ _ _) with (2 := K2). intros body x _ Hx ->. now rewrite (editor_image _ _ _ Hx).
    + revert H3. apply (opt_all_from _ _ _ _) with (2 := K3). intros body x _ Hx ->. now rewrite (metadata_image _ _ _ Hx).
    + revert H4. apply (opt_all_from _ _ _ _) with (2 := K4). intros body x _ Hx ->. now rewrite (difficulty_image _ _ _ Hx).
    + destruct ev as [l|]; [|easy]. cbn in *. rewrite H5. destruct (K5 l eq_refl) as (body & B1 & B2). cbn [andb].
      apply (written_events_ok dbg body); [destruct Hdbg as [->|]; [now left|right; apply new_not_old; lia]|now apply no_cr_lines|easy].
    + revert H6. apply (opt_all_from _ _ _ _) with (2 := K6). intros body x Hb Hx Hp. rewrite !andb_true_iff in Hp. destruct Hp as [[P1 P2] P3]. rewrite P2, andb_true_r.
      pose proof (timing_image v body x ltac:(lia) Hb Hx) as P. rewrite forallb_forall in *. intros y Hy. specialize (P y Hy). specialize (P1 y Hy). unfold tp_could, tp_can in *.
      rewrite is_old in P3. destruct (Z.eqb_spec v 3) as [->|N3]; [|destruct (Z.eqb_spec v 4) as [->|N4]].
      * change (old_version 3%Z) with true in P3. cbn [negb orb] in P3. rewrite forallb_forall in P3. specialize (P3 y Hy). rewrite !andb_true_iff in *. tauto.
      * change (old_version 4%Z) with true in P3. cbn [negb orb] in P3. rewrite forallb_forall in P3. specialize (P3 y Hy). rewrite !andb_true_iff in *. tauto.
      * pose proof (timing_points_from_str_ok body v x ltac:(lia) Hx) as P'. rewrite forallb_forall in P'. now rewrite P', P1.
    + revert H7. apply (opt_all_from _ _ _ _) with (2 := K7). intros body x _ Hx Hp. destruct (v <=? 4)%Z; [easy|]. cbn [orb] in *. rewrite Hp. destruct (colours_from_str_ok _ _ _ Hx) as (C1 & C2 & _). now rewrite C1, C2.
    + revert H8. apply (opt_all_from _ _ _ _) with (2 := K8). intros body x _ Hx Hp. rewrite !andb_true_iff in Hp. destruct Hp as [[[P1 P2] P3] P4]. rewrite P3, andb_true_r.
      pose proof (objects_image _ _ _ Hx) as R. rewrite forallb_forall in *. intros y Hy. unfold ho_can. rewrite R, P1, P2 by easy. cbn [andb].
      destruct ((v =? 3) || (v =? 4))%Z; [|easy]. cbn [negb orb] in *. rewrite forallb_forall in P4. now apply P4.
  - unfold mode_known. cbn [file_written osu_version osu_general]. destruct (osu_general f) as [g|]; [|easy]. destruct (K1 g eq_refl) as (body & _ & B). cbn.
    apply general_read_gates in B as (_ & _ & _ & B). destruct (general_mode g) as [m|]; [|easy]. cbn. unfold opt_if in B. now destruct (has_mode _ m).
Qed.
Lemma reread_any dbg s f : osu_from_str dbg s = ROk f -> forallb no_cr (lines s) = true -> dbg = true \/ (5 <= osu_version f)%Z -> file_stays f = true ->
  let g := file_back (file_written f) in
  (exists t, osu_to_string dbg f = ROk t /\ osu_from_str dbg t = ROk g) /\ (exists t, osu_to_string dbg g = ROk t /\ osu_from_str dbg t = ROk g).
Proof.
  intros H Hs Hd Hk. destruct (read_file_can _ _ _ H Hs Hd Hk) as [Hc Hm]. split; [|now apply file_settles].
  destruct (whole_any dbg _ Hc) as (t & secs & H1 & _ & _ & H2). exists t. now rewrite print_written in H1.
Qed.

(** ** the files of [SpecWhole.file_ok] *)
Lemma ho_ok_back v o : (4 < v)%Z -> ho_ok v o = true -> ho_can v o = true /\ ho_back v o = o.
Proof.
  intros Hv H. unfold ho_ok in H. rewrite !andb_true_iff in H. destruct H as [[Hr Hk] Hs]. pose proof (new_not_old v Hv) as Ho.
  assert (B : ho_back v o = o).
  { rewrite ho_back_new by easy. destruct o as [p t q nc sk h hs]. unfold with_sample, sample_back. cbn [ho_position ho_time ho_obj_params ho_new_combo ho_combo_skip_count ho_hitsound ho_hitsample] in *. f_equal.
    unfold ho_read in Hr. cbn [ho_position ho_time ho_obj_params ho_combo_skip_count ho_hitsample] in Hr. rewrite !andb_true_iff in Hr. destruct Hr as [[_ Hp] _].
    unfold sample_in_version in Hs. destruct (Z.leb_spec v 9) as [L|L].
    - destruct hs as [x|]; [lia|]. destruct q; try easy; [|cbn in Hp; now rewrite andb_false_r in Hp]. now replace (v =? 3)%Z with false by lia.
    - destruct (Z.leb_spec v 11) as [L'|L']; [|easy]. destruct hs as [x|]; [|easy]. replace (12 <=? v)%Z with false in Hs by lia. cbn [orb] in Hs. rewrite !andb_true_iff in Hs. destruct Hs as [[_ Hvo] Hn].
      destruct x as [a b i vo n]. cbn in *. destruct vo; [easy|]. now destruct n. }
  split; [|easy]. unfold ho_can. rewrite B, Hr, Hk, is_old, Ho. unfold position_fits. destruct (ho_obj_params o); try easy. replace (v =? 3)%Z with false by lia. easy.
Qed.
Lemma map_same {A} (f : A -> A) l : (forall x, In x l -> f x = x) -> map f l = l.
Proof. intros H. rewrite <- (map_id l) at 2. now apply map_ext_in. Qed.
Lemma ok_can f : file_ok f = true -> file_can f = true /\ file_back f = file_at f.
Proof.
  unfold file_ok, file_can, file_back, file_at. set (v := osu_version f). rewrite !andb_true_iff. intros [[[[[[[[[Hv1 Hv2] Hg] He] Hm] Hd] Hev] Htp] Hc] Hh]. assert (Hv : (4 < v)%Z) by lia. split.
  - repeat split; try easy; try lia.
    + destruct (osu_timing_points f) as [l|]; [|easy]. cbn in *. rewrite !andb_true_iff in *. destruct Htp as [[A B] C]. split; [|easy]. rewrite forallb_forall in *. intros x Hx. unfold tp_can.
      replace (v =? 3)%Z with false by lia. replace (v =? 4)%Z with false by lia. now rewrite A, B.
    + destruct (osu_colours f) as [l|]; [|easy]. cbn in *. now replace (v <=? 4)%Z with false by lia.
    + destruct (osu_hitobjects f) as [l|]; [|easy]. cbn in *. rewrite !andb_true_iff in *. destruct Hh as [A B]. split; [|easy]. rewrite forallb_forall in *. intros x Hx. now apply ho_ok_back; [|apply A].
  - f_equal.
    + destruct (osu_timing_points f) as [l|]; [|easy]. cbn [option_map]. f_equal. apply map_same. intros x _. unfold tp_back. replace (v =? 3)%Z with false by lia. now replace (v =? 4)%Z with false by lia.
    + now replace (v <=? 4)%Z with false by lia.
    + destruct (osu_hitobjects f) as [l|]; [|easy]. cbn in *. f_equal. apply andb_true_iff in Hh as [A _]. rewrite forallb_forall in A. apply map_same. intros x Hx. now apply ho_ok_back; [|apply A].
Qed.
