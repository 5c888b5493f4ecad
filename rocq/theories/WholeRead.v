(** Proofs about printing a file that was read (C33). *)
From Coq Require Import String List NArith ZArith Bool Lia.
From Verif Require Import Str Num Nom Dec Parsers KeyValue KvFields General Editor Metadata Difficulty Colours
  TimingPoints HitObjects Storyboard NormalEvents Events Osb OsuFile Spec SpecWf SpecText SpecKv SpecSections
  SpecFile SpecTypes SpecCmd SpecEvents SpecWhole StrFacts NumFacts NomFacts LineFacts ColoursFacts TpFacts HoImage
  LayoutFacts KvTheorems KvImage KvLines FileFacts FileLoop FileTheorems EvImage WholeFacts.
Import ListNotations.
Local Open Scope N_scope.

Lemma no_cr_tail c s : forallb no_cr (lines (c :: s)) = true -> forallb no_cr (lines s) = true.
Proof.
  cbn [lines]. destruct (c =? c_nl); [easy|]. destruct (_ && _); [easy|]. destruct (lines s) as [|l ls]; [easy|].
  cbn [forallb]. unfold no_cr at 1. cbn [forallb]. rewrite !andb_true_iff. intros [[_ H1] H2]. auto.
Qed.
Lemma no_cr_suffix a s : forallb no_cr (lines (a ++ s)) = true -> forallb no_cr (lines s) = true.
Proof. induction a as [|c a IH]; [easy|]. cbn [app]. intros H. apply no_cr_tail in H. auto. Qed.
Lemma no_cr_join ls : forallb no_cr ls = true -> no_cr (join [c_nl] ls) = true.
Proof.
  induction ls as [|l ls IH]; [easy|]. cbn [forallb]. rewrite andb_true_iff. intros [H1 H2]. destruct ls as [|m ls]; [exact H1|].
  rewrite join_cons2. unfold no_cr in *. rewrite !forallb_app. now rewrite H1, IH.
Qed.
Lemma no_cr_lines s : no_cr s = true -> forallb no_cr (lines s) = true.
Proof.
  intros H. apply forallb_forall. intros l Hl. unfold no_cr in *. rewrite forallb_forall in *. intros c Hc. apply H. eapply lines_chars; eauto.
Qed.
Lemma square_chars s r ws n ws2 body : @square_section unit s = POk r (ws, n, ws2, body) -> no_cr s = true -> no_cr body = true /\ no_cr r = true.
Proof.
  unfold square_section. intros H Hs. unfold no_cr in *. apply pbind_inv in H as (r1 & a1 & H1 & H). apply take_while_inv in H1 as (-> & _).
  apply pbind_inv in H as (r2 & a2 & H2 & H). unfold delimited in H2. apply pbind_inv in H2 as (r3 & a3 & H3 & H2). apply tag_inv in H3 as [-> _].
  apply terminated_inv in H2 as (r4 & b & H4 & H5). apply take_while_inv in H4 as (-> & _). apply tag_inv in H5 as [-> _].
  apply pbind_inv in H as (r5 & a5 & H6 & H). apply take_while_inv in H6 as (-> & _). apply pmap_inv in H as (x & H & E). injection E as -> -> -> ->.
  rewrite !forallb_app, !andb_true_iff in Hs. destruct Hs as (_ & _ & _ & _ & _ & Hs).
  apply alt_inv in H as [H|H].
  - unfold take_until in H. destruct (find_sub _ r5) as [[p q]|] eqn:E; [|easy]. injection H as -> ->. apply find_sub_spec in E as [E _]. subst r5.
    rewrite forallb_app, andb_true_iff in Hs. easy.
  - injection H as <- <-. easy.
Qed.
Lemma many_chars f : forall s r l, many0_aux f (@square_section unit) s = POk r l -> no_cr s = true -> Forall (fun q => no_cr (snd q) = true) l.
Proof.
  induction f as [|f IH]; [easy|]. intros s r l. cbn [many0_aux]. destruct (square_section s) as [r1 [[[ws n] ws2] body]| | |] eqn:E; try easy.
  - destruct (Nat.eqb _ _); [easy|]. intros H Hs. destruct (square_chars _ _ _ _ _ _ E Hs) as [Hb Hr].
    destruct (many0_aux f _ r1) as [r2 l2| | |] eqn:E2; try easy. injection H as <- <-. constructor; [easy|]. eauto.
  - intros [= <- <-] _. constructor.
Qed.
Lemma split_suffix ls : forall a b, split_pre ls = (a, b) -> ls = a ++ b.
Proof.
  induction ls as [|l ls IH]; cbn [split_pre]; [now intros a b [= <- <-]|]. destruct (pre_section l).
  - destruct (split_pre ls) as [a b] eqn:E. intros a' b' [= <- <-]. cbn [app]. f_equal. now apply IH.
  - now intros a b [= <- <-].
Qed.

(** Each section that is there was read from some text without carriage returns. *)
Definition read_from {T E} (from : str -> res (option T) E) (o : option T) : Prop :=
  forall x, o = Some x -> exists body, no_cr body = true /\ from body = ROk (Some x).
Definition all_from (dbg : bool) (f : osu_file) : Prop :=
  let v := osu_version f in
  read_from (fun t => general_from_str t v) (osu_general f) /\ read_from (fun t => editor_from_str t v) (osu_editor f)
  /\ read_from (fun t => metadata_from_str t v) (osu_metadata f) /\ read_from (fun t => difficulty_from_str t v) (osu_difficulty f)
  /\ read_from (fun t => events_from_str dbg t v) (osu_events f) /\ read_from (fun t => timing_points_from_str t v) (osu_timing_points f)
  /\ read_from (fun t => colours_from_str t v) (osu_colours f) /\ read_from (fun t => hit_objects_from_str t v) (osu_hitobjects f).
Lemma processed {T E} (conv : E -> osu_err) (from : str -> res (option T) (line_err E)) body line x :
  no_cr body = true -> processing_line conv (from body) line = ROk x -> read_from from x.
Proof.
  intros Hb H y ->. exists body. split; [easy|]. unfold processing_line in H. destruct (from body); try easy. now injection H as ->.
Qed.
Lemma section_from dbg f name body line g : no_cr body = true -> osu_section dbg f name body line = Some (ROk g) ->
  all_from dbg f -> all_from dbg g /\ osu_version g = osu_version f.
Proof.
  intros Hb H K. destruct f as [v g0 e o m d ev tp c h]. unfold osu_section in H. unfold all_from in *.
  cbn [osu_version osu_general osu_editor osu_metadata osu_difficulty osu_events osu_timing_points osu_colours osu_hitobjects] in *.
  destruct K as (K1 & K2 & K3 & K4 & K5 & K6 & K7 & K8).
  destruct (str_eqb name (lit "General")).
  { destruct (processing_line OsuGeneral (general_from_str body v) line) as [y| |] eqn:E; try easy. injection H as <-.
    apply (processed _ (fun t => general_from_str t v) body line y Hb) in E. cbn. auto 20. }
  destruct (str_eqb name (lit "Editor")).
  { destruct (processing_line OsuEditor (editor_from_str body v) line) as [y| |] eqn:E; try easy. injection H as <-.
    apply (processed _ (fun t => editor_from_str t v) body line y Hb) in E. cbn. auto 20. }
  destruct (str_eqb name (lit "Metadata")).
  { destruct (processing_line OsuMetadata (metadata_from_str body v) line) as [y| |] eqn:E; try easy. injection H as <-.
    apply (processed _ (fun t => metadata_from_str t v) body line y Hb) in E. cbn. auto 20. }
  destruct (str_eqb name (lit "Difficulty")).
  { destruct (processing_line OsuDifficulty (difficulty_from_str body v) line) as [y| |] eqn:E; try easy. injection H as <-.
    apply (processed _ (fun t => difficulty_from_str t v) body line y Hb) in E. cbn. auto 20. }
  destruct (str_eqb name (lit "Events")).
  { destruct (processing_line OsuEvents (events_from_str dbg body v) line) as [y| |] eqn:E; try easy. injection H as <-.
    apply (processed _ (fun t => events_from_str dbg t v) body line y Hb) in E. cbn. auto 20. }
  destruct (str_eqb name (lit "TimingPoints")).
  { destruct (processing_line OsuTimingPoints (timing_points_from_str body v) line) as [y| |] eqn:E; try easy. injection H as <-.
    apply (processed _ (fun t => timing_points_from_str t v) body line y Hb) in E. cbn. auto 20. }
  destruct (str_eqb name (lit "Colours")).
  { destruct (processing_line OsuColours (colours_from_str body v) line) as [y| |] eqn:E; try easy. injection H as <-.
    apply (processed _ (fun t => colours_from_str t v) body line y Hb) in E. cbn. auto 20. }
  destruct (str_eqb name (lit "HitObjects")); [|easy].
  destruct (processing_line OsuHitObjects (hit_objects_from_str body v) line) as [y| |] eqn:E; try easy. injection H as <-.
  apply (processed _ (fun t => hit_objects_from_str t v) body line y Hb) in E. cbn. auto 20.
Qed.
Lemma loop_from dbg l : forall line parsed acc f, Forall (fun q => no_cr (snd q) = true) l -> all_from dbg acc ->
  osu_loop dbg line parsed acc l = ROk f -> all_from dbg f /\ osu_version f = osu_version acc.
Proof.
  induction l as [|[[[ws name] ws2] body] l IH]; intros line parsed acc f Hl Ha H; cbn [osu_loop] in H; [injection H as <-; auto|].
  inversion Hl as [|? ? Hb Hl']; subst. cbn [snd] in Hb. destruct (mem_str name parsed); [easy|].
  destruct (osu_section _ _ _ _ _) as [r|] eqn:E; [|easy]. destruct r as [acc'| |]; try easy. cbn [rbind] in H.
  destruct (section_from _ _ _ _ _ _ Hb E Ha) as [Ha' Hv]. destruct (usize_pred dbg (lines_count body)) as [n| |]; try easy. cbn [rbind] in H.
  destruct (IH _ _ _ _ Hl' Ha' H) as [K1 K2]. split; [easy|]. now rewrite K2.
Qed.
Lemma file_from dbg s f : osu_from_str dbg s = ROk f -> forallb no_cr (lines s) = true ->
  all_from dbg f /\ (3 <= osu_version f <= 14)%Z.
Proof.
  unfold osu_from_str. intros H Hs. destruct (version_parser s) as [s' [ws v]|e| |] eqn:Ev; try easy; [|now destruct (e_kind e)].
  destruct (negb _) eqn:En; [easy|]. apply negb_false_iff, andb_true_iff in En as [E1 E2]. apply Z.leb_le in E1, E2.
  assert (Hs' : forallb no_cr (lines s') = true).
  { unfold version_parser, pair in Ev. apply pbind_inv in Ev as (r1 & a1 & H1 & Ev). apply take_while_inv in H1 as (-> & _). apply pmap_inv in Ev as (b & Ev & _).
    unfold preceded in Ev. apply pbind_inv in Ev as (r2 & a2 & H2 & Ev). apply pbind_inv in H2 as (r3 & a3 & H3 & H2).
    apply tag_inv in H2 as [K2 _]. apply map_res_inv in Ev as (n & Ev & _). apply take_while_inv in Ev as (K3 & _).
    apply no_cr_suffix in Hs. assert (Hr : forallb no_cr (lines r3) = true).
    { apply alt_inv in H3 as [H3|H3]; [apply tag_inv in H3 as [K _]; rewrite K in Hs; now apply no_cr_suffix in Hs|now injection H3 as <- _]. }
    rewrite K2, K3 in Hr. now do 2 apply no_cr_suffix in Hr. }
  destruct (split_pre (lines s')) as [pre rest] eqn:Ep. apply split_suffix in Ep. rewrite Ep, forallb_app, andb_true_iff in Hs'. destruct Hs' as [_ Hr].
  destruct (unexpected_line 0 pre); [easy|]. destruct (many0 _ _) as [r l| | |] eqn:Em; try easy. unfold many0 in Em. apply many_chars in Em; [|now apply no_cr_join].
  apply loop_from in H as [H Hv]; [|easy|]. { split; [easy|]. rewrite Hv. cbn. unfold min_version, latest_version in *. lia. }
  unfold all_from, osu_new. cbn. unfold read_from. repeat split; easy.
Qed.

Lemma opt_all_from {T E} (from : str -> res (option T) E) (p q : T -> bool) o :
  (forall body x, no_cr body = true -> from body = ROk (Some x) -> p x = true -> q x = true) ->
  read_from from o -> opt_all p o = true -> opt_all q o = true.
Proof. intros H Hf. destruct o as [x|]; [|easy]. cbn. intros Hp. destruct (Hf x eq_refl) as (body & H1 & H2). eauto. Qed.
Lemma read_file_ok dbg s f : osu_from_str dbg s = ROk f -> forallb no_cr (lines s) = true -> file_kept f = true ->
  file_ok (file_written f) = true.
Proof.
  intros H Hs Hk. destruct (file_from _ _ _ H Hs) as [(K1 & K2 & K3 & K4 & K5 & K6 & K7 & K8) Hv]. clear H Hs.
  destruct f as [v g e o m d ev tp c h]. unfold file_ok, file_kept, file_written in *.
  cbn [osu_version osu_general osu_editor osu_metadata osu_difficulty osu_events osu_timing_points osu_colours osu_hitobjects] in *.
  rewrite !andb_true_iff in Hk. destruct Hk as [[[[[[[[H0 H1] H2] H3] H4] H5] H6] H7] H8]. apply Z.leb_le in H0. assert (Hn : (4 < v)%Z) by lia.
  rewrite !andb_true_iff. repeat split; try (apply Z.leb_le; lia).
  - revert H1. apply (opt_all_from _ _ _ _) with (2 := K1). intros body x _ Hx ->. now rewrite (general_image _ _ _ Hx).
  - revert H2. apply (opt_all_from _ _ _ _) with (2 := K2). intros body x _ Hx ->. now rewrite (editor_image _ _ _ Hx).
  - revert H3. apply (opt_all_from _ _ _ _) with (2 := K3). intros body x _ Hx ->. now rewrite (metadata_image _ _ _ Hx).
  - revert H4. apply (opt_all_from _ _ _ _) with (2 := K4). intros body x _ Hx ->. now rewrite (difficulty_image _ _ _ Hx).
  - destruct ev as [l|]; [|easy]. cbn in *. rewrite H5. destruct (K5 l eq_refl) as (body & B1 & B2). cbn [andb].
    apply (written_events_ok dbg body); [right; now apply new_not_old|now apply no_cr_lines|easy].
  - revert H6. apply (opt_all_from _ _ _ _) with (2 := K6). intros body x _ Hx Hp. apply andb_true_iff in Hp as [P1 P2]. now rewrite P1, P2, (timing_points_from_str_ok _ _ _ Hn Hx).
  - revert H7. apply (opt_all_from _ _ _ _) with (2 := K7). intros body x _ Hx ->. destruct (colours_from_str_ok _ _ _ Hx) as (C1 & C2 & _). now rewrite C1, C2.
  - revert H8. apply (opt_all_from _ _ _ _) with (2 := K8). intros body x _ Hx Hp. rewrite !andb_true_iff in Hp. destruct Hp as [[P1 P2] P3]. rewrite P3, andb_true_r.
    pose proof (hit_objects_from_str_ok _ _ _ Hn Hx) as R. apply forallb_forall. intros y Hy. unfold ho_ok. rewrite forallb_forall in R, P1, P2. now rewrite R, P1, P2.
Qed.
Lemma print_written dbg f : osu_to_string dbg (file_written f) = osu_to_string dbg f.
Proof.
  unfold osu_to_string, file_written. cbn [osu_version osu_general osu_editor osu_metadata osu_difficulty osu_events osu_timing_points osu_colours osu_hitobjects].
  destruct (osu_events f) as [l|]; [|easy]. cbn [option_map run_opt]. unfold events_to_string. now rewrite <- events_print_written.
Qed.
Lemma general_lines_at v g : opt_all (has_mode v) (general_mode g) = true -> general_lines v (general_at v g) = general_lines v g.
Proof.
  intros H. assert (M : general_mode (general_at v g) = general_mode g) by (cbn; destruct (general_mode g) as [m|]; [|easy]; cbn in H; now rewrite H).
  unfold general_lines. rewrite M. clear M H. unfold general_at, opt_if. cbn. now destruct (has_audio_hash v), (has_countdown v), (has_sample_set v), (has_overlay v), (has_editor_fields v).
Qed.
Lemma editor_lines_at v e : editor_lines v (editor_at v e) = editor_lines v e.
Proof. unfold editor_lines, editor_at, opt_if. cbn. now destruct (v =? 10)%Z. Qed.
Lemma print_at dbg f : mode_known f = true -> osu_to_string dbg (file_at f) = osu_to_string dbg f.
Proof.
  intros Hm. unfold mode_known in Hm. unfold osu_to_string, file_at. cbn [osu_version osu_general osu_editor osu_metadata osu_difficulty osu_events osu_timing_points osu_colours osu_hitobjects].
  replace (obind (option_map (general_at (osu_version f)) (osu_general f)) (fun x => general_to_string x (osu_version f)))
    with (obind (osu_general f) (fun x => general_to_string x (osu_version f)))
    by (destruct (osu_general f); [|easy]; cbn [option_map obind]; rewrite !general_layout, general_lines_at; [reflexivity|exact Hm]).
  replace (obind (option_map (editor_at (osu_version f)) (osu_editor f)) (fun x => editor_to_string x (osu_version f)))
    with (obind (osu_editor f) (fun x => editor_to_string x (osu_version f)))
    by (destruct (osu_editor f); [|easy]; cbn [option_map obind]; now rewrite !editor_layout, editor_lines_at).
  easy.
Qed.
Lemma file_reread dbg s f : osu_from_str dbg s = ROk f -> forallb no_cr (lines s) = true -> file_kept f = true ->
  exists t, osu_to_string dbg f = ROk t /\ osu_from_str dbg t = ROk (file_at (file_written f))
  /\ osu_to_string dbg (file_at (file_written f)) = ROk t.
Proof.
  intros H Hs Hk. destruct (whole_file dbg _ (read_file_ok _ _ _ H Hs Hk)) as (t & secs & H1 & _ & _ & H2).
  exists t. rewrite print_at, H1; [rewrite print_written in H1; auto|]. unfold mode_known. cbn [file_written osu_version osu_general].
  destruct (file_from _ _ _ H Hs) as [(K1 & _) _]. destruct (osu_general f) as [g|]; [|easy]. destruct (K1 g eq_refl) as (body & _ & B). cbn.
  apply general_read_gates in B as (_ & _ & _ & B). destruct (general_mode g) as [m|]; [|easy]. cbn. unfold opt_if in B. now destruct (has_mode _ m).
Qed.
