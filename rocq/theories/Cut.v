(** Files that are cut off (C63): proofs. *)
From Coq Require Import String List NArith ZArith Bool Lia.
From Verif Require Import Str Num Nom Dec Parsers General Editor Metadata Difficulty Colours TimingPoints HitObjects Storyboard
  NormalEvents Events Osb OsuFile Spec SpecWf SpecKv SpecText SpecSections SpecFile SpecTotal SpecOsb SpecLine SpecEvLine SpecEvents
  SpecEvSection SpecKvRead SpecParts SpecMeans SpecEnds SpecEdit SpecCut StrFacts KvFacts KvRead KvStatements Means EvPanic EvSection FileTheorems
  Parts Ends Edit TpFacts FileFacts TotalFacts.
Import ListNotations.
Local Open Scope N_scope.

(** ** commands and events *)
Scheme cut_cmds_ind2 := Induction for cut_cmds Sort Prop
with cut_cmd_ind2 := Induction for cut_cmd Sort Prop.
Lemma app_split_cons {A} (a b c d : list A) x y : a ++ x :: b = c ++ y :: d ->
  (a = c /\ x = y /\ b = d) \/ (exists m, a = c ++ y :: m /\ d = m ++ x :: b) \/ (exists m, c = a ++ x :: m /\ b = m ++ y :: d).
Proof.
  intros H. apply app_split in H as [(m & -> & H)|(m & Hm & -> & H)].
  - destruct m as [|z m]; cbn in H.
    + left. rewrite app_nil_r. injection H as -> ->. easy.
    + injection H as -> ->. right. left. now exists m.
  - destruct m as [|z m]; [easy|]. cbn in H. injection H as -> ->. right. right. now exists m.
Qed.
Lemma cut_cmds_trans l m : cut_cmds l m -> forall n, cut_cmds m n -> cut_cmds l n.
Proof.
  revert l m. fix IH 3. intros l m H n K.
  destruct H as [p q|p c' c q H].
  - inversion K as [p0 q0 E1 E2|p0 d' d q0 H' E1 E2]; subst.
    + rewrite <- app_assoc. constructor.
    + destruct q as [|z q] using rev_ind.
      * rewrite app_nil_r in E1. subst p. now constructor.
      * clear IHq. rewrite app_assoc in E1. apply app_inj_tail in E1 as [-> _]. rewrite <- app_assoc. constructor.
  - inversion K as [p0 q0 E1 E2|p0 d' d q0 H' E1 E2]; subst.
    + rewrite <- app_assoc. cbn [app]. now constructor.
    + destruct q as [|z q _] using rev_ind.
      * apply app_inj_tail in E1 as [-> ->]. apply cc_inside. clear K. revert H H'. destruct c as [t pr].
        intros H H'. inversion H; subst; inversion H'; subst; constructor; eapply IH; eassumption.
      * change (p ++ c :: q ++ [z]) with (p ++ (c :: q) ++ [z]) in E1. rewrite app_assoc in E1. apply app_inj_tail in E1 as [-> _].
        rewrite <- app_assoc. cbn [app]. now constructor.
Qed.
Lemma cut_cmds_refl l : cut_cmds l l.
Proof. rewrite <- (app_nil_r l) at 2. constructor. Qed.
Lemma place_cut c k : forall d ind cs cs', place k d ind c cs = ROk cs' -> cut_cmds cs cs'.
Proof.
  induction k as [|k IH]; intros d ind cs cs' H; cbn [place] in H; [injection H as <-; constructor|].
  destruct (rev cs) as [|x b] eqn:E; [easy|]. assert (cs = rev b ++ [x]) as -> by (rewrite <- (rev_involutive cs), E; easy).
  destruct x as [t pr]. cbn [cmd_props cmd_start] in H.
  destruct pr; try easy.
  all: destruct (place k (S d) ind c _) as [l| |] eqn:P; cbn [rmap] in H; try easy; injection H as <-; apply cc_inside; constructor; eapply IH; exact P.
Qed.
Lemma with_with cs ds e : with_commands cs (with_commands ds e) = with_commands cs e.
Proof. destruct e as [|[]|[]| | |[]|[]|[]|[]|]; easy. Qed.
Lemma commands_with cs e : commands_of (with_commands cs e) = cs \/ forall ds, with_commands ds e = e.
Proof. destruct e as [|[]|[]| | |[]|[]|[]|[]|]; (now left) || now right. Qed.
Lemma snoc_split {A} (p : list A) x a b : p ++ [x] = a ++ b -> (b = [] /\ a = p ++ [x]) \/ exists q, p = a ++ q /\ b = q ++ [x].
Proof.
  intros H. destruct b as [|z b _] using rev_ind; [left; rewrite app_nil_r in H; now split|]. right. exists b.
  rewrite app_assoc in H. apply app_inj_tail in H as [-> ->]. easy.
Qed.
Lemma cut_events_trans l m n : cut_events l m -> cut_events m n -> cut_events l n.
Proof.
  intros [(q & ->)|(p & e & cs & q & -> & -> & H)] [(q' & ->)|(p' & e' & cs' & q' & -> & E & H')].
  - left. exists (q ++ q'). now rewrite app_assoc.
  - symmetry in E. apply snoc_split in E as [(-> & ->)|(r & -> & ->)].
    + right. now exists p', e', cs', q'.
    + left. exists (r ++ e' :: q'). now rewrite <- app_assoc.
  - right. exists p, e, cs, (q ++ q'). now rewrite <- app_assoc.
  - right. destruct q as [|z q _] using rev_ind.
    + apply app_inj_tail in E as [-> ->]. rewrite with_with. exists p', e', cs, q'. split; [easy|]. split; [easy|].
      destruct (commands_with cs' e') as [K|K]; [rewrite K in H; eapply cut_cmds_trans; eassumption|]. now rewrite K in H.
    + change (p ++ e :: q ++ [z]) with (p ++ (e :: q) ++ [z]) in E. rewrite app_assoc in E. apply app_inj_tail in E as [<- _].
      exists p, e, cs, (q ++ e' :: q'). split; [now rewrite <- app_assoc|]. easy.
Qed.
Lemma cut_events_refl l : cut_events l l.
Proof. left. exists []. now rewrite app_nil_r. Qed.
Lemma with_same e : with_commands (commands_of e) e = e.
Proof. destruct e as [|[]|[]| | |[]|[]|[]|[]|]; easy. Qed.
Lemma next_cut dbg v vs evs l evs' : ev_next dbg v vs evs l (ROk evs') -> cut_events evs evs'.
Proof.
  intros H. inversion H as [c E1 E2|l0 h fs Hc Hd Hf E1 E2| | |l0 q l' es e Hd Ht Hs Hw E0 E1 E2]; subst.
  - left. now exists [EComment c].
  - destruct (ev_line dbg v h fs) as [e| |]; cbn [rmap] in E2; try easy. injection E2 as <-. left. now exists [e].
  - destruct (rd_command l') as [c| |]; cbn [rmap_err rbind] in E2; try easy.
    destruct (place _ _ _ _ _) as [cs| |] eqn:P; cbn [rmap_err rmap] in E2; try easy. injection E2 as <-. apply place_cut in P.
    right. exists es, (with_commands cs e), (commands_of e), []. split; [easy|]. rewrite with_with, with_same. split; [easy|].
    destruct (commands_with cs e) as [K|K]; [now rewrite K|]. rewrite K. apply cut_cmds_refl.
Qed.
Lemma loop_cut dbg v vs ls : forall i evs evs', ev_loop dbg v vs i evs ls = ROk evs' -> cut_events evs evs'.
Proof.
  induction ls as [|l ls IH]; intros i evs evs' H; cbn [ev_loop] in H; [injection H as <-; apply cut_events_refl|].
  destruct (is_blank l) eqn:Eb; [eapply IH; exact H|]. destruct (ev_step dbg v vs evs l) as [e| |] eqn:E; try easy.
  apply next_is in E; [|easy]. eapply cut_events_trans; [eapply next_cut; exact E|eapply IH; exact H].
Qed.
Lemma events_lines_cut dbg vs v s a more xs : lines s = lines a ++ more -> events_from_str_vars dbg vs s v = ROk (Some xs) ->
  exists xs', events_from_str_vars dbg vs a v = ROk (Some xs') /\ cut_events xs' xs.
Proof.
  intros E H. unfold events_from_str_vars in *. rewrite E, loop_app in H.
  destruct (ev_loop dbg v vs 0 [] (lines a)) as [xs'| |]; cbn [rmap] in *; try easy. exists xs'. split; [easy|].
  destruct (ev_loop _ _ _ _ xs' more) as [ys| |] eqn:K; cbn [rmap] in H; try easy. injection H as <-. eapply loop_cut; exact K.
Qed.

(** ** lists of lines *)
Lemma ends_char c b : ends_with_char c b = true -> exists m, b = m ++ [c].
Proof.
  unfold ends_with_char. intros H. destruct (rev b) as [|d r] eqn:E; [discriminate|]. cbn in H. apply N.eqb_eq in H as ->. exists (rev r).
  now rewrite <- (rev_involutive b), E.
Qed.
Lemma lines_body b' r : ends_with_char 13 b' = false -> exists c, lines (b' ++ 10 :: r) = lines b' ++ lines c.
Proof.
  intros H. destruct b' as [|c0 b0] eqn:Eb; [now exists (10 :: r)|]. rewrite <- Eb in *.
  destruct (ends_with_char 10 b') eqn:E.
  - apply ends_char in E as [m ->]. exists (10 :: r). rewrite <- app_assoc. cbn [app]. apply lines_cut.
  - exists r. rewrite lines_cut. f_equal. apply newline_lines; [now subst|easy|easy].
Qed.
Lemma cut_body_lines b' b : cut_body b' b -> ends_with_char 13 b' = false \/ b' = b -> exists c, lines b = lines b' ++ lines c.
Proof.
  intros [->|[->|(r & ->)]] H.
  - now exists b.
  - exists []. cbn. now rewrite app_nil_r.
  - destruct H as [H|H]; [now apply lines_body|]. apply (f_equal (@length _)) in H. rewrite app_length in H. cbn in H. lia.
Qed.
Lemma pieces_cut {A E} (rd : str -> res (option (list A)) (line_err E)) : in_pieces rd -> forall s a b xs,
  lines s = lines a ++ lines b -> rd s = ROk (Some xs) -> exists xs', rd a = ROk (Some xs') /\ begins_with xs' xs.
Proof.
  intros P s a b xs El H. rewrite (P s a b El) in H. unfold one_after in H.
  destruct (rd a) as [[x|]| |]; destruct (rd b) as [[y|]| |]; try easy. injection H as <-. exists x. split; [easy|]. now exists y.
Qed.
Lemma pieces_none {A E} (rd : str -> res (option (list A)) (line_err E)) : in_pieces rd -> forall s a b,
  lines s = lines a ++ lines b -> rd s = ROk None -> exists x, rd a = ROk x.
Proof.
  intros P s a b El H. rewrite (P s a b El) in H. unfold one_after in H. destruct (rd a) as [x| |]; [now exists x|..]; destruct (rd b) as [[y|]| |]; easy.
Qed.

(** ** keys and values *)
Definition kvs (es : list kv_entry) : list (str * str) := map (fun e => (entry_key e, entry_value e)) es.
Lemma value_kvs es k : value_of es k = option_map snd (find (fun p => str_eqb k (fst p)) (kvs es)).
Proof. unfold value_of. induction es as [|e es IH]; cbn [find kvs map fst]; [easy|]. destruct (str_eqb k (entry_key e)); [easy|exact IH]. Qed.
Lemma value_cut es' es m k : kvs es = kvs es' ++ m -> absent_or (value_of es' k) (value_of es k).
Proof.
  intros E. rewrite !value_kvs, E. clear E. induction (kvs es') as [|x l IH]; cbn [app find]; [now left|]. destruct (str_eqb k (fst x)); [now right|exact IH].
Qed.
Lemma past {A} (x y b r : list A) c : ~ In c x -> x ++ y = b ++ c :: r -> exists m, b = x ++ m /\ y = m ++ c :: r.
Proof.
  intros N H. apply app_split in H as [(m & -> & H)|(m & Hm & -> & H)]; [|now exists m].
  destruct m as [|z m]; cbn in H; [exists []; rewrite !app_nil_r; now split|]. injection H as <- _. elim N. apply in_or_app. right. now left.
Qed.
Lemma forallb_no (f : char -> bool) c s : forallb f s = true -> f c = false -> ~ In c s.
Proof. intros H K I. rewrite forallb_forall in H. apply H in I. congruence. Qed.
Lemma gap_prefix m n : gap_ok (m ++ n) = true -> gap_ok m = true.
Proof.
  unfold gap_ok. rewrite forallb_app, !andb_true_iff. intros [[H1 H2] H3]. split; [easy|]. now destruct m.
Qed.
Lemma blank_prefix m n : is_blank (m ++ n) = true -> is_blank m = true.
Proof. rewrite !blank_forall, forallb_app, andb_true_iff. easy. Qed.
Lemma first_line_in c t : In c (first_line t) -> In c t.
Proof.
  unfold first_line. induction t as [|d t IH]; cbn [span]; [easy|]. destruct (negb (d =? 10)); [|easy]. destruct (span _ t) as [a b]. cbn [fst] in *.
  intros [->|H]; [now left|right; auto].
Qed.
Lemma blank_first t : is_blank t = true -> contains_char 58 (first_line t) = false.
Proof.
  intros H. destruct (contains_char 58 (first_line t)) eqn:E; [|easy]. apply existsb_exists in E as (c & E & K). apply N.eqb_eq in K as <-.
  apply first_line_in in E. rewrite blank_forall, forallb_forall in H. now apply H in E.
Qed.
Lemma entries_cut r : forall es t b', fits_after es t -> kv_text es ++ t = b' ++ 10 :: r ->
  exists es' t' m, b' = kv_text es' ++ t' /\ fits_after es' t' /\ kvs es = kvs es' ++ m /\ (es <> [] -> es' <> []).
Proof.
  induction es as [|e es IH]; intros t b' (H1 & H2 & H3) E.
  - cbn [kv_text map concat app] in E. subst t. exists [], b', []. split; [easy|]. split; [|easy]. split; [easy|]. apply blank_prefix in H3. split; [|easy].
    unfold rest_after. now rewrite blank_first.
  - destruct e as [[k rst] gap]. cbn [kv_text map concat] in E. fold (kv_text es) in E. unfold entry_text in E. cbn [entry_key entry_rest entry_gap fst snd] in E.
    pose proof H1 as H1'. cbn [entries_ok] in H1'. rewrite !andb_true_iff in H1'. destruct H1' as [[He Hes] Hn].
    pose proof He as He'. unfold entry_ok in He'. rewrite !andb_true_iff in He'. destruct He' as [[Hk Hr] Hg]. cbn [entry_key entry_rest entry_gap fst snd] in *.
    assert (Ne : ~ In 10 (k ++ 58 :: rst)).
    { intros K. apply in_app_or in K as [K|[K|K]]; [|discriminate|].
      - now apply (forallb_no _ 10 k Hk).
      - now apply (forallb_no _ 10 rst Hr). }
    replace (((k ++ 58 :: rst ++ gap) ++ kv_text es) ++ t) with ((k ++ 58 :: rst) ++ gap ++ kv_text es ++ t) in E by (repeat (rewrite <- !app_assoc; cbn [app]); reflexivity).
    apply (past _ _ _ _ _ Ne) in E as (m & -> & E). apply app_split in E as [(m2 & -> & E)|(m3 & Hm3 & -> & E)].
    + exists [(k, rst, m)], [], (kvs es). split; [|split; [|split; [easy|discriminate]]].
      * cbn [kv_text map concat]. unfold entry_text. cbn [entry_key entry_rest entry_gap fst snd]. rewrite !app_nil_r. repeat (rewrite <- !app_assoc; cbn [app]). reflexivity.
      * split; [|easy]. cbn [entries_ok]. unfold entry_ok. cbn [entry_key entry_rest entry_gap fst snd]. apply gap_prefix in Hg. now rewrite Hk, Hr, Hg.
    + assert (Hf : fits_after es t).
      { split; [easy|]. split; [|easy]. unfold rest_after in H2 |- *. apply andb_true_iff in H2 as [H2 H4]. rewrite H2. cbn [andb]. destruct es as [|e2 es]; [easy|]. exact H4. }
      destruct (IH t m3 Hf E) as (es1 & t1 & q & -> & (F1 & F2 & F3) & Eq & Hne).
      exists ((k, rst, gap) :: es1), t1, q. split; [|split; [|split; [|discriminate]]].
      * cbn [kv_text map concat]. fold (kv_text es1). unfold entry_text. cbn [entry_key entry_rest entry_gap fst snd]. repeat (rewrite <- !app_assoc; cbn [app]). reflexivity.
      * split; [|split; [|easy]].
        -- cbn [entries_ok]. rewrite He, F1. cbn [andb]. destruct es1 as [|e1 es1]; [easy|]. destruct es as [|e2 es]; [discriminate Eq|].
           cbn [kvs map app] in Eq. injection Eq as Ek _ _. rewrite <- Ek. exact Hn.
        -- destruct es1 as [|e1 es1]; [|exact F2]. destruct es as [|e2 es]; [|elim Hne; easy].
           unfold rest_after. rewrite (blank_first t1 F3). cbn [negb andb last entry_gap snd]. destruct t1 as [|c t1]; [easy|]. cbn [kv_text map concat app] in E. subst t.
           unfold rest_after in H2. apply andb_true_iff in H2 as [_ H2]. cbn [is_empty last entry_gap snd orb app head_is] in *. exact H2.
      * cbn [kvs map app]. f_equal. exact Eq.
Qed.
Lemma body_entries es t b' : fits_after es t -> cut_body b' (kv_text es ++ t) ->
  exists es' t' m, b' = kv_text es' ++ t' /\ fits_after es' t' /\ kvs es = kvs es' ++ m.
Proof.
  intros H [->|[->|(r & E)]].
  - exists [], [], (kvs es). split; [easy|]. split; [|easy]. now split.
  - exists es, t, []. split; [easy|]. split; [easy|]. now rewrite app_nil_r.
  - destruct (entries_cut r es t b' H E) as (es' & t' & m & H1 & H2 & H3 & _). now exists es', t', m.
Qed.
Lemma keys_kvs es : map entry_key es = map fst (kvs es).
Proof. unfold kvs. rewrite map_map. reflexivity. Qed.
Lemma bad_cut {E} table (unknown dup : E) es' es m : kvs es = kvs es' ++ m -> first_bad table unknown dup 0 [] es = ROk tt ->
  first_bad table unknown dup 0 [] es' = ROk tt.
Proof.
  intros Ek H. apply bad_none in H as (H1 & H2 & H3). apply bad_none. split; [|split; [|easy]].
  - assert (K : Forall (fun p => reader_of unknown table (fst p) (snd p) = ROk tt) (kvs es)) by (unfold kvs; now apply Forall_map).
    rewrite Ek in K. apply Forall_app in K as [K _]. unfold kvs in K. now apply Forall_map in K.
  - rewrite keys_kvs in *. rewrite Ek, map_app in H2. now apply nodup_split in H2.
Qed.
Lemma kv_cut {A E} table (unknown dup colon : E) (build : (str -> option str) -> A) (rd : str -> res (option A) (line_err E)) (R : A -> A -> Prop) :
  (forall es t, entries_ok es = true -> rest_after es t = true -> rd (kv_text es ++ t) = rmap Some (kv_reads table unknown dup colon build es t)) ->
  (forall get' get, (forall k, absent_or (get' k) (get k)) -> R (build get') (build get)) ->
  forall b' b x, cut_body b' b -> rd b = ROk x -> exists g' g, rd b' = ROk (Some g') /\ x = Some g /\ R g' g.
Proof.
  intros Hrd HR b' b x Hc H. destruct (every_text_has_entries b) as (es & t & -> & H1 & H2).
  assert (H3 : is_blank t = true).
  { rewrite Hrd in H by easy. unfold kv_reads in H. destruct (first_bad _ _ _ _ _ _) as [[]| |]; destruct (is_blank t); easy. }
  assert (Hf : fits_after es t) by easy.
  destruct (body_entries es t b' Hf Hc) as (es' & t' & m & -> & Hf' & Ek).
  assert (exists g, x = Some g) as (g & ->).
  { rewrite (reads_are table unknown dup colon build rd Hrd es t Hf) in H. destruct (first_bad _ _ _ _ _ _); cbn in H; try easy. injection H as <-. eauto. }
  pose proof (reads_ok table unknown dup colon build rd Hrd es t g Hf H) as [Hb ->].
  exists (build (value_of es')), (build (value_of es)). split; [|split; [easy|]].
  - rewrite (reads_are table unknown dup colon build rd Hrd es' t' Hf'). now rewrite (bad_cut _ _ _ _ _ _ Ek Hb).
  - apply HR. intros k. eapply value_cut; exact Ek.
Qed.
Lemma of_key_cut {A E} get' get name (rd : str -> res (option A) E) : (forall k, absent_or (get' k) (get k)) -> absent_or (of_key get' name rd) (of_key get name rd).
Proof. intros H. unfold of_key. destruct (H (lit name)) as [-> | ->]; [now left|now right]. Qed.
Ltac all_fields H := repeat (apply conj; [apply of_key_cut; exact H|]); apply of_key_cut; exact H.
Lemma general_body v b' b x : cut_body b' b -> general_from_str b v = ROk x -> exists g' g, general_from_str b' v = ROk (Some g') /\ x = Some g /\ some_general g' g.
Proof.
  apply (kv_cut (general_table v) GenKey GenDup GenColonSet (general_of v) (fun s => general_from_str s v)).
  - intros es t H1 H2. exact (general_reads_eq es t v H1 H2).
  - intros get' get H. unfold some_general, general_of. cbv zeta. cbn [general_audio_filename general_audio_lead_in general_audio_hash general_preview_time
      general_countdown general_sample_set general_stack_leniency general_mode general_letterbox_in_breaks general_story_fire_in_front general_use_skin_sprites
      general_always_show_playfield general_overlay_position general_skin_preference general_epilepsy_warning general_countdown_offset general_special_style
      general_widescreen_storyboard general_samples_match_playback_rate general_editor_bookmarks general_editor_distance_spacing]. all_fields H.
Qed.
Lemma editor_body v b' b x : cut_body b' b -> editor_from_str b v = ROk x -> exists g' g, editor_from_str b' v = ROk (Some g') /\ x = Some g /\ some_editor g' g.
Proof.
  apply (kv_cut editor_table EdKey EdDup EdColonSet editor_of (fun s => editor_from_str s v)).
  - intros es t H1 H2. exact (editor_reads_eq es t v H1 H2).
  - intros get' get H. unfold some_editor, editor_of. cbv zeta. cbn [editor_bookmarks editor_distance_spacing editor_beat_divisor editor_grid_size editor_timeline_zoom
      editor_current_time]. all_fields H.
Qed.
Lemma metadata_body v b' b x : cut_body b' b -> metadata_from_str b v = ROk x -> exists g' g, metadata_from_str b' v = ROk (Some g') /\ x = Some g /\ some_metadata g' g.
Proof.
  apply (kv_cut metadata_table MdKey MdDup MdColonSet metadata_of (fun s => metadata_from_str s v)).
  - intros es t H1 H2. exact (metadata_reads_eq es t v H1 H2).
  - intros get' get H. unfold some_metadata, metadata_of. cbv zeta. cbn [metadata_title metadata_title_unicode metadata_artist metadata_artist_unicode metadata_creator
      metadata_version metadata_source metadata_tags metadata_beatmap_id metadata_beatmap_set_id]. all_fields H.
Qed.
Lemma difficulty_body v b' b x : cut_body b' b -> difficulty_from_str b v = ROk x ->
  exists g' g, difficulty_from_str b' v = ROk (Some g') /\ x = Some g /\ some_difficulty g' g.
Proof.
  apply (kv_cut difficulty_table DfKey DfDup DfColonSet difficulty_of (fun s => difficulty_from_str s v)).
  - intros es t H1 H2. exact (difficulty_reads_eq es t v H1 H2).
  - intros get' get H. unfold some_difficulty, difficulty_of. cbv zeta. cbn [difficulty_hp_drain_rate difficulty_circle_size difficulty_overall_difficulty
      difficulty_approach_rate difficulty_slider_multiplier difficulty_slider_tickrate]. all_fields H.
Qed.

(** ** sections of a text *)
Lemma falls_nil w : forallb layout_char w = true -> falls_apart w [].
Proof.
  intros H. apply fa_end. intros w0 n r _ _ ->. rewrite !forallb_app in H. rewrite !andb_true_iff in H. destruct H as (_ & H & _). discriminate H.
Qed.
Lemma contains_prefix p a b : contains p a = true -> contains p (a ++ b) = true.
Proof. rewrite !contains_iff. intros (x & y & ->). exists x, (y ++ b). now rewrite <- !app_assoc. Qed.
Definition cut_with (T' : str) (cs' cs : list chunk) : Prop :=
  exists a, (cs' = a /\ exists b, cs = a ++ b)
  \/ exists x' x b p, cs' = a ++ [x'] /\ cs = a ++ x :: b /\ cut_chunk x' x /\ T' = p ++ ch_body x'.
Lemma falls_cut T cs : falls_apart T cs -> forall T' R, T = T' ++ 10 :: R ->
  exists cs', falls_apart T' cs' /\ cut_with T' cs' cs.
Proof.
  induction 1 as [t Ht|w x more cs Hw Hx Hm Hf IH]; intros T' R E.
  - exists []. split; [|exists []; left; split; [easy|now exists []]]. apply fa_end. intros w n r H1 H2 ->.
    apply (Ht w n (r ++ 10 :: R) H1 H2). rewrite E. repeat (rewrite <- !app_assoc; cbn [app]). reflexivity.
  - apply app_split in E as [(m & -> & E)|(m & Hmm & -> & E)].
    { exists []. split; [apply falls_nil; rewrite forallb_app in Hw; now apply andb_true_iff in Hw|]. exists []. left. split; [easy|]. now eexists. }
    pose proof Hx as Hx'. unfold chunk_ok in Hx'. rewrite !andb_true_iff in Hx'. destruct Hx' as [[[Hn Hs] Hb] Hc].
    destruct x as [name space body]. cbn [ch_name ch_space ch_body] in *. unfold chunk_text in E. cbn [ch_name ch_space ch_body] in E.
    replace ((lit "[" ++ name ++ lit "]" ++ space ++ body) ++ more) with ((lit "[" ++ name ++ lit "]") ++ space ++ body ++ more) in E by (rewrite <- !app_assoc; reflexivity).
    apply past in E as (m1 & -> & E).
    2:{ intros K. apply in_app_or in K as [[K|[]]|K]; [discriminate|]. apply in_app_or in K as [K|[K|[]]]; [|discriminate]. now apply (forallb_no _ 10 name Hn). }
    (* the last section, [more] being cut off *)
    assert (last_one : forall sp b, forallb layout_char sp = true -> match b with c :: _ => negb (layout_char c) | [] => true end = true ->
      contains [10; 91] b = false -> cut_body b body -> b = [] \/ sp = space ->
      exists cs', falls_apart (w ++ (lit "[" ++ name ++ lit "]") ++ sp ++ b) cs' /\ cut_with (w ++ (lit "[" ++ name ++ lit "]") ++ sp ++ b) cs' (mk_chunk name space body :: cs)).
    { intros sp b H1 H2 H3 H4 H5. exists [mk_chunk name sp b]. split.
      - replace (w ++ (lit "[" ++ name ++ lit "]") ++ sp ++ b) with (w ++ chunk_text (mk_chunk name sp b) ++ []) by (unfold chunk_text; cbn [ch_name ch_space ch_body]; rewrite app_nil_r, <- !app_assoc; reflexivity).
        constructor; [easy| |now left|now apply falls_nil]. unfold chunk_ok. cbn [ch_name ch_space ch_body]. now rewrite Hn, H1, H2, H3.
      - exists []. right. exists (mk_chunk name sp b), (mk_chunk name space body), cs, (w ++ (lit "[" ++ name ++ lit "]") ++ sp). repeat (split; [easy|]). now rewrite <- !app_assoc. }
    apply app_split in E as [(m2 & -> & E)|(m2 & Hm2 & -> & E)].
    { destruct (last_one m1 []) as (c & K); [|easy|easy|now left|now left|rewrite app_nil_r in K; now exists c]. rewrite forallb_app in Hs. now apply andb_true_iff in Hs. }
    apply negb_true_iff in Hc. apply app_split in E as [(m3 & -> & E)|(m3 & Hm3 & -> & E)].
    { apply last_one; [easy|now destruct m2| | |now right].
      - destruct (contains [10; 91] m2) eqn:K; [|easy]. now rewrite (contains_prefix _ m2 m3 K) in Hc.
      - destruct m3 as [|z m3]; [right; left; now rewrite app_nil_r|]. injection E as <- E. right. right. now exists m3. }
    destruct (IH m3 R E) as (cs' & H1 & H2).
    destruct Hm as [->|(Hbody & t & ->)]; [destruct m3; discriminate E|].
    destruct m3 as [|z m3]; [easy|]. injection E as <- E. destruct m3 as [|y m3]; cbn in E; [discriminate E|]. injection E as <- E.
    exists (mk_chunk name space body :: cs'). split.
    + replace (w ++ (lit "[" ++ name ++ lit "]") ++ space ++ body ++ 10 :: 91 :: m3) with (w ++ chunk_text (mk_chunk name space body) ++ 10 :: 91 :: m3)
        by (unfold chunk_text; cbn [ch_name ch_space ch_body]; rewrite <- !app_assoc; reflexivity).
      constructor; [easy|easy|right; split; [easy|now exists m3]|easy].
    + destruct H2 as [a [(-> & b & ->)|(x' & x & b & p & -> & -> & H4 & H6)]].
      * exists (mk_chunk name space body :: a). left. split; [easy|]. now exists b.
      * exists (mk_chunk name space body :: a). right. exists x', x, b, (w ++ (lit "[" ++ name ++ lit "]") ++ space ++ body ++ p). repeat (split; [easy|]).
        rewrite H6, <- !app_assoc. reflexivity.
Qed.
Lemma begins_cut k pre ls n cs ls' more : begins k pre ls n cs -> pre ++ ls = ls' ++ more ->
  exists pre1 ls1 n1 cs1, ls' = pre1 ++ ls1 /\ begins k pre1 ls1 n1 cs1 /\ cut_with (join [10] ls1) cs1 cs.
Proof.
  intros (H1 & H2 & H3 & H4) E. apply app_split in E as [(m & -> & E)|(m & Hm & -> & E)].
  - exists ls', [], n, []. split; [now rewrite app_nil_r|]. split; [|exists []; left; split; [easy|now exists cs]].
    split; [rewrite forallb_app in H1; now apply andb_true_iff in H1|]. split; [easy|]. split; [now apply falls_nil|now left].
  - destruct more as [|z more].
    { rewrite app_nil_r in E. subst m. exists pre, ls, n, cs. split; [easy|]. split; [easy|]. exists cs. left. split; [easy|]. exists []. now rewrite app_nil_r. }
    assert (J : join [10] ls = join [10] m ++ 10 :: join [10] (z :: more)) by (rewrite E; now apply (join_app [10])).
    destruct (falls_cut _ _ H3 _ _ J) as (cs1 & F1 & F2).
    assert (F3 : match m with [] => True | l :: _ => head_line l = true end) by (destruct m; [easy|]; now rewrite E in H2).
    destruct (sections_begin _ _ F1) as [-> |(w & t & Ew & Hw)].
    + exists pre, m, n, []. split; [easy|]. split; [|easy]. split; [easy|]. split; [easy|]. split; [easy|now left].
    + eexists pre, m, _, cs1. split; [easy|]. split; [|easy]. split; [easy|]. split; [easy|]. split; [easy|]. right. exists w, t. repeat (split; [easy|]). reflexivity.
Qed.
Lemma suffix_no_cr T p b : T = p ++ b -> ends_with_char 13 T = false -> ends_with_char 13 b = false.
Proof. intros ->. destruct b as [|c b]; [easy|]. now rewrite ends_with_char_app. Qed.
Lemma join_no_cr ls : Forall (fun l => ends_with_char 13 l = false) ls -> ends_with_char 13 (join [10] ls) = false.
Proof.
  intros H. destruct ls as [|l ls _] using rev_ind; [easy|]. apply Forall_app in H as [_ H]. inversion_clear H.
  destruct ls as [|x ls]; [easy|]. rewrite join_app by easy. cbn [join app]. destruct l as [|c l]; [now rewrite ends_with_char_snoc|].
  rewrite ends_with_char_app by easy. change (10 :: c :: l) with ([10] ++ c :: l). now rewrite ends_with_char_app.
Qed.
Lemma cut_with_chunks T cs' cs : cut_with T cs' cs -> cut_chunks cs' cs.
Proof. intros [a [H|(x' & x & b & p & H1 & H2 & H3 & _)]]; exists a; [now left|right; now exists x', x, b]. Qed.

(** ** the version line *)
Lemma parts_ends s t v n cs : lines s = lines t -> osu_parts s v n cs -> osu_parts t v n cs.
Proof.
  intros E (ws & num & rest & pre & ls & K & Hv & El & Hp & Hl & Hf & Hn).
  destruct (same_lines_head s t ws num rest E K) as (ws' & rest' & K' & W & R).
  destruct R as [R|[R1 R2]].
  - exists ws', num, rest', pre, ls. repeat (split; [congruence || easy|]). now rewrite W.
  - assert (C : ls = []).
    { rewrite El in R1. destruct ls as [|l ls]; [easy|exfalso]. destruct R1 as [R1|R1]; [now destruct pre|]. destruct pre as [|p pre]; [|destruct pre; discriminate R1]. injection R1 as -> ->. discriminate Hl. }
    subst ls. assert (cs = []).
    { destruct cs as [|x cs]; [easy|exfalso]. destruct Hn as [Hn|(w & t' & Hn & _)]; [discriminate|]. now destruct w. }
    subst cs. exists ws', num, rest', (lines rest'), []. rewrite app_nil_r. do 3 (split; [easy|]). split; [destruct R2 as [-> | ->]; easy|]. split; [easy|]. split; [easy|now left].
Qed.
Lemma crlf_end ls : crlf_text ls = [] \/ exists m, crlf_text ls = m ++ [10].
Proof.
  destruct ls as [|l ls _] using rev_ind; [now left|right]. unfold crlf_text. rewrite map_app, concat_app. cbn [map concat]. rewrite app_nil_r.
  exists (concat (map (fun l => l ++ [13; 10]) ls) ++ l ++ [13]). repeat (rewrite <- !app_assoc; cbn [app]). reflexivity.
Qed.
Lemma crlf_app a b : crlf_text (a ++ b) = crlf_text a ++ crlf_text b.
Proof. unfold crlf_text. now rewrite map_app, concat_app. Qed.
Lemma head_is_text s ws num rest : version_head s ws num rest -> exists bom, s = ws ++ bom ++ version_prefix ++ num ++ rest
  /\ forallb layout_char ws = true /\ (bom = [] \/ bom = [65279]) /\ forallb solid num = true /\ (rest = [] \/ exists c t, rest = c :: t /\ (c = 10 \/ c = 13)).
Proof. intros [ws0 bom num0 rest0 H1 H2 H3 H4]. now exists bom. Qed.
Lemma head_cut m M ws num rest : version_head ((m ++ [10]) ++ M) ws num rest ->
  forallb layout_char (m ++ [10]) = true \/ exists r, version_head (m ++ [10]) ws num (r ++ [10]) /\ rest = (r ++ [10]) ++ M.
Proof.
  intros H. apply head_is_text in H as (bom & E & Hw & Hb & Hn & Hr).
  apply app_split in E as [(q & E1 & E2)|(q & Hq & -> & E2)].
  2:{ left. rewrite forallb_app in Hw. now apply andb_true_iff in Hw. }
  destruct q as [|z q _] using rev_ind.
  { left. rewrite app_nil_r in E1. congruence. }
  right. rewrite app_assoc in E1. apply app_inj_tail in E1 as [-> <-].
  replace (bom ++ version_prefix ++ num ++ rest) with ((bom ++ version_prefix ++ num) ++ rest) in E2 by now rewrite <- !app_assoc.
  rewrite <- (app_assoc q) in E2. cbn [app] in E2. apply past in E2 as (r & -> & ->).
  2:{ intros K. apply in_app_or in K as [K|K]; [destruct Hb as [->| ->]; [easy|destruct K as [K|[]]; discriminate]|].
      apply in_app_or in K as [K|K]; [apply (forallb_no _ 10 version_prefix prefix_solid) in K; easy|now apply (forallb_no _ 10 num Hn)]. }
  exists r. split; [|now rewrite <- app_assoc].
  replace ((ws ++ (bom ++ version_prefix ++ num) ++ r) ++ [10]) with (ws ++ bom ++ version_prefix ++ num ++ r ++ [10]) by now rewrite <- !app_assoc.
  constructor; [easy|easy|easy|]. right. destruct r as [|c r]; [exists 10, []; split; [easy|now left]|].
  destruct Hr as [Hr|(c0 & t & Hr & Hc)]; [discriminate|]. injection Hr as -> _. exists c0, (r ++ [10]). easy.
Qed.
Definition no_end_cr (ls : list str) : Prop := Forall (fun l => ends_with_char 13 l = false) ls.
Lemma no_end_tail c s : no_end_cr (lines (c :: s)) -> no_end_cr (lines s).
Proof.
  unfold no_end_cr. cbn [lines]. destruct (c =? c_nl); [now inversion 1|]. destruct (_ && _); [easy|]. destruct (lines s) as [|l ls]; [easy|].
  inversion_clear 1 as [|? ? H1 H2]. constructor; [|easy]. destruct l as [|d l]; [easy|]. change (c :: d :: l) with ([c] ++ d :: l) in H1. now rewrite ends_with_char_app in H1.
Qed.
Lemma no_end_suffix a s : no_end_cr (lines (a ++ s)) -> no_end_cr (lines s).
Proof. induction a as [|c a IH]; [easy|]. cbn [app]. intros H. apply no_end_tail in H. auto. Qed.
Lemma loose_end s : no_loose_cr s -> no_end_cr (lines s).
Proof.
  unfold no_loose_cr, no_end_cr. apply Forall_impl. intros l H. destruct (ends_with_char 13 l) eqn:E; [|easy]. apply ends_char in E as [m ->]. now elim (H m).
Qed.
Lemma layout_crlf s : forallb layout_char (crlf_text (lines s)) = true -> forallb layout_char s = true.
Proof.
  pose proof (lines_made s) as M. revert M. generalize (lines s). intros ls M. induction M as [|l Hl Hn|l s ls H1 H2 M IH|l s ls H1 M IH]; [easy| | |].
  - cbn [crlf_text map concat]. unfold crlf_text. cbn [map concat]. rewrite app_nil_r, forallb_app, andb_true_iff. easy.
  - unfold crlf_text. cbn [map concat]. fold (crlf_text ls). rewrite !forallb_app, !andb_true_iff. intros [[K1 _] K2]. split; [easy|]. cbn [forallb]. now rewrite (IH K2).
  - unfold crlf_text. cbn [map concat]. fold (crlf_text ls). rewrite !forallb_app, !andb_true_iff. intros [[K1 _] K2]. split; [easy|]. cbn [forallb]. now rewrite (IH K2).
Qed.
Definition safe_cut (s' : str) (cs' cs : list chunk) : Prop := exists T, cut_with T cs' cs /\ (no_loose_cr s' -> ends_with_char 13 T = false).
Lemma parts_cut s s' more v n cs : lines s = lines s' ++ more -> osu_parts s v n cs ->
  forallb layout_char s' = true \/ exists n' cs', osu_parts s' v n' cs' /\ safe_cut s' cs' cs.
Proof.
  intros El Hp.
  assert (L' : lines (crlf_text (lines s')) = lines s') by (apply (lines_rest s' []); reflexivity).
  assert (Lm : lines (crlf_text more) = more) by (eapply lines_rest; exact El).
  assert (Ls : lines (crlf_text (lines s')  ++ crlf_text more) = lines s) by (rewrite <- crlf_app, <- El; apply (lines_rest s []); reflexivity).
  apply (parts_ends s (crlf_text (lines s') ++ crlf_text more) v n cs (eq_sym Ls)) in Hp. clear El Ls s.
  destruct (crlf_end (lines s')) as [E0|(m & Em)].
  { left. apply layout_crlf. now rewrite E0. }
  rewrite Em in Hp. destruct Hp as (ws & num & rest & pre & ls & K & Hv & El & Hb).
  destruct (head_cut _ _ _ _ _ K) as [H|(r & K' & ->)].
  { left. apply layout_crlf. now rewrite Em. }
  right. rewrite <- app_assoc in El. cbn [app] in El. rewrite lines_cut, Lm in El. symmetry in El.
  destruct (begins_cut _ _ _ _ _ _ _ Hb El) as (pre1 & ls1 & n1 & cs1 & El1 & B1 & C1).
  exists n1, cs1. split.
  - apply (parts_ends (m ++ [10])); [now rewrite <- Em|]. exists ws, num, (r ++ [10]), pre1, ls1. easy.
  - exists (join [10] ls1). split; [easy|]. intros Hc. apply loose_end in Hc. rewrite <- L', Em in Hc. apply join_no_cr.
    apply head_is_text in K' as (bom & Ek & _). rewrite Ek in Hc.
    replace (ws ++ bom ++ version_prefix ++ num ++ r ++ [10]) with ((ws ++ bom ++ version_prefix ++ num) ++ r ++ [10]) in Hc by now rewrite <- !app_assoc.
    apply no_end_suffix in Hc. rewrite El1 in Hc. now apply Forall_app in Hc.
Qed.
Lemma osb_parts_cut s s' more n cs : lines s = lines s' ++ more -> osb_parts s n cs -> exists n' cs', osb_parts s' n' cs' /\ safe_cut s' cs' cs.
Proof.
  intros El (pre & ls & Es & Hb). rewrite El in Es. symmetry in Es. destruct (begins_cut _ _ _ _ _ _ _ Hb Es) as (pre1 & ls1 & n1 & cs1 & El1 & B1 & C1).
  exists n1, cs1. split; [now exists pre1, ls1|]. exists (join [10] ls1). split; [easy|]. intros Hc. apply loose_end in Hc. apply join_no_cr. rewrite El1 in Hc. now apply Forall_app in Hc.
Qed.

(** ** files *)
Definition cuts {A E} (rd : str -> res (option A) E) (R : A -> A -> Prop) : Prop := forall b' b x, cut_body b' b -> ends_with_char 13 b' = false -> rd b = ROk x ->
  exists x', rd b' = ROk x' /\ (x' = x \/ exists a' a, x' = Some a' /\ x = Some a /\ R a' a).
Lemma cuts_general v : cuts (fun t => general_from_str t v) some_general.
Proof. intros b' b x H _ K. destruct (general_body v b' b x H K) as (g' & g & H1 & H2 & H3). exists (Some g'). split; [easy|]. right. now exists g', g. Qed.
Lemma cuts_editor v : cuts (fun t => editor_from_str t v) some_editor.
Proof. intros b' b x H _ K. destruct (editor_body v b' b x H K) as (g' & g & H1 & H2 & H3). exists (Some g'). split; [easy|]. right. now exists g', g. Qed.
Lemma cuts_metadata v : cuts (fun t => metadata_from_str t v) some_metadata.
Proof. intros b' b x H _ K. destruct (metadata_body v b' b x H K) as (g' & g & H1 & H2 & H3). exists (Some g'). split; [easy|]. right. now exists g', g. Qed.
Lemma cuts_difficulty v : cuts (fun t => difficulty_from_str t v) some_difficulty.
Proof. intros b' b x H _ K. destruct (difficulty_body v b' b x H K) as (g' & g & H1 & H2 & H3). exists (Some g'). split; [easy|]. right. now exists g', g. Qed.
Lemma cuts_pieces {A E} (rd : str -> res (option (list A)) (line_err E)) : in_pieces rd -> (forall s, rd s <> ROk None) -> cuts rd begins_with.
Proof.
  intros P N b' b x H Hc K. destruct (cut_body_lines b' b H (or_introl Hc)) as (c & El). destruct x as [xs|]; [|now apply N in K].
  destruct (pieces_cut rd P b b' c xs El K) as (xs' & H1 & H2). exists (Some xs'). split; [easy|]. right. now exists xs', xs.
Qed.
Lemma cuts_points v : cuts (fun t => timing_points_from_str t v) begins_with.
Proof. apply cuts_pieces; [apply points_pieces|]. intros s. rewrite timing_points_from_str_eq. now destruct (parse_lines _ _ _). Qed.
Lemma cuts_objects v : cuts (fun t => hit_objects_from_str t v) begins_with.
Proof. apply cuts_pieces; [apply objects_pieces|]. intros s. unfold hit_objects_from_str. now destruct (parse_lines _ _ _). Qed.
Lemma cuts_colours v : cuts (fun t => colours_from_str t v) begins_with.
Proof.
  destruct (old_version v) eqn:Ev.
  - intros b' b x _ _ K. unfold colours_from_str in *. rewrite Ev in *. exists x. split; [easy|now left].
  - apply cuts_pieces; [apply colours_pieces|]. intros s. unfold colours_from_str. rewrite Ev. now destruct (parse_lines _ _ _).
Qed.
Lemma cuts_variables : cuts variables_read begins_with.
Proof.
  intros b' b x. rewrite <- !variables_read_eq. apply (cuts_pieces (fun s => rmap Some (variables_from_str s))); [apply variables_pieces|].
  intros s. now destruct (variables_from_str s).
Qed.
Lemma cuts_events dbg vs v : cuts (fun t => events_from_str_vars dbg vs t v) cut_events.
Proof.
  intros b' b x H Hc K. destruct (cut_body_lines b' b H (or_introl Hc)) as (c & El). destruct (events_some dbg vs b v x K) as [xs ->].
  destruct (events_lines_cut dbg vs v b b' (lines c) xs El K) as (xs' & H1 & H2). exists (Some xs'). split; [easy|]. right. now exists xs', xs.
Qed.
Lemma can_cut {A E F} (f : E -> F) (rd : str -> res (option A) (line_err E)) R b' b : cuts rd R -> cut_body b' b -> ends_with_char 13 b' = false ->
  can_be f rd b = ROk tt -> can_be f rd b' = ROk tt.
Proof.
  intros C H Hc K. unfold can_be in *. destruct (rd b) as [x| |] eqn:E0; try easy. destruct (C b' b x H Hc E0) as (x' & -> & _). easy.
Qed.
Lemma named_cut dbg v x' x rd : ch_name x' = ch_name x -> cut_body (ch_body x') (ch_body x) -> ends_with_char 13 (ch_body x') = false ->
  named (osu_table dbg v) x = Some rd -> rd (ch_body x) = ROk tt -> named (osu_table dbg v) x' = Some rd /\ rd (ch_body x') = ROk tt.
Proof.
  intros En Hb Hc Hn Hr. split; [unfold named in *; now rewrite En|]. unfold named, osu_table in Hn. cbn [find fst] in Hn.
  repeat match type of Hn with context [if ?c then _ else _] => destruct c end; cbn [option_map snd] in Hn; try discriminate Hn; injection Hn as <-; revert Hr; eapply can_cut; try eassumption.
  - apply cuts_general.
  - apply cuts_editor.
  - apply cuts_metadata.
  - apply cuts_difficulty.
  - apply cuts_events.
  - apply cuts_points.
  - apply cuts_colours.
  - apply cuts_objects.
Qed.
Lemma find_app {A} (f : A -> bool) a b : find f (a ++ b) = match find f a with Some x => Some x | None => find f b end.
Proof. induction a as [|x a IH]; cbn [app find]; [easy|]. now destruct (f x). Qed.
Lemma not_found cs name : find (fun x => str_eqb (ch_name x) (lit name)) cs = None -> ~ In (lit name) (map ch_name cs).
Proof.
  intros H K. apply in_map_iff in K as (x & E & K). eapply find_none in H; [|exact K]. cbn in H. apply str_eqb_neq in H. now elim H.
Qed.
Lemma section_first {A E} (R : A -> A -> Prop) a b name (rd : str -> res (option A) E) : section_cut a name R (section_of a name rd) (section_of (a ++ b) name rd).
Proof. unfold section_of. rewrite find_app. destruct (find _ a) eqn:F; [now left|]. right. left. split; [easy|now apply not_found]. Qed.
Lemma last_snoc a x : last_name (a ++ [x]) = ch_name x.
Proof. unfold last_name. now rewrite rev_app_distr. Qed.
Lemma section_last {A E} (R : A -> A -> Prop) a x' x b name (rd : str -> res (option A) E) : cuts rd R -> ch_name x' = ch_name x -> cut_body (ch_body x') (ch_body x) ->
  ends_with_char 13 (ch_body x') = false -> (ch_name x = lit name -> exists y, rd (ch_body x) = ROk y) ->
  section_cut (a ++ [x']) name R (section_of (a ++ [x']) name rd) (section_of (a ++ x :: b) name rd).
Proof.
  intros C En Hb Hc Hr. unfold section_cut, section_of. rewrite !find_app. destruct (find _ a) eqn:F; [now left|]. cbn [find]. rewrite En.
  destruct (str_eqb (ch_name x) (lit name)) eqn:K.
  - apply str_eqb_eq in K. destruct (Hr K) as (y & Hy). rewrite Hy. destruct (C _ _ _ Hb Hc Hy) as (y' & -> & [->|H]); [now left|]. right. right. split; [|easy].
    rewrite last_snoc. congruence.
  - right. left. split; [easy|]. apply str_eqb_neq in K. apply not_found in F. rewrite map_app. intros L. apply in_app_or in L as [L|[L|[]]]; [easy|congruence].
Qed.
Lemma named_reads {A E F} (table : list (string * (str -> res unit (line_err F)))) (f : E -> F) (rd : str -> res (option A) (line_err E)) name x :
  named table (mk_chunk (lit name) [] []) = Some (can_be f rd) -> (exists r, named table x = Some r /\ r (ch_body x) = ROk tt) ->
  ch_name x = lit name -> exists y, rd (ch_body x) = ROk y.
Proof.
  intros H (r & Hr & K) En. unfold named in *. cbn [ch_name] in H. rewrite En in Hr. rewrite H in Hr. injection Hr as <-.
  unfold can_be in K. destruct (rd (ch_body x)) as [y| |]; try easy. now exists y.
Qed.
Lemma osu_of_cut dbg v a x' x b : ch_name x' = ch_name x -> cut_body (ch_body x') (ch_body x) -> ends_with_char 13 (ch_body x') = false ->
  (exists r, named (osu_table dbg v) x = Some r /\ r (ch_body x) = ROk tt) ->
  cut_file (a ++ [x']) (osu_of dbg v (a ++ [x'])) (osu_of dbg v (a ++ x :: b)).
Proof.
  intros En Hb Hc Hr. unfold cut_file, osu_of. cbn [osu_version osu_general osu_editor osu_osb osu_metadata osu_difficulty osu_events osu_timing_points osu_colours osu_hitobjects].
  split; [easy|]. split; [easy|].
  split; [apply section_last; [apply cuts_general|easy|easy|easy|]|].
  { exact (named_reads (osu_table dbg v) OsuGeneral (fun t => general_from_str t v) "General" x eq_refl Hr). }
  split; [apply section_last; [apply cuts_editor|easy|easy|easy|]|].
  { exact (named_reads (osu_table dbg v) OsuEditor (fun t => editor_from_str t v) "Editor" x eq_refl Hr). }
  split; [apply section_last; [apply cuts_metadata|easy|easy|easy|]|].
  { exact (named_reads (osu_table dbg v) OsuMetadata (fun t => metadata_from_str t v) "Metadata" x eq_refl Hr). }
  split; [apply section_last; [apply cuts_difficulty|easy|easy|easy|]|].
  { exact (named_reads (osu_table dbg v) OsuDifficulty (fun t => difficulty_from_str t v) "Difficulty" x eq_refl Hr). }
  split; [apply section_last; [apply cuts_events|easy|easy|easy|]|].
  { exact (named_reads (osu_table dbg v) OsuEvents (fun t => events_from_str dbg t v) "Events" x eq_refl Hr). }
  split; [apply section_last; [apply cuts_points|easy|easy|easy|]|].
  { exact (named_reads (osu_table dbg v) OsuTimingPoints (fun t => timing_points_from_str t v) "TimingPoints" x eq_refl Hr). }
  split; apply section_last; try easy; [apply cuts_colours| |apply cuts_objects|].
  { exact (named_reads (osu_table dbg v) OsuColours (fun t => colours_from_str t v) "Colours" x eq_refl Hr). }
  { exact (named_reads (osu_table dbg v) OsuHitObjects (fun t => hit_objects_from_str t v) "HitObjects" x eq_refl Hr). }
Qed.
Lemma osu_of_first dbg v a b : cut_file a (osu_of dbg v a) (osu_of dbg v (a ++ b)).
Proof.
  unfold cut_file, osu_of. cbn [osu_version osu_general osu_editor osu_osb osu_metadata osu_difficulty osu_events osu_timing_points osu_colours osu_hitobjects].
  split; [easy|]. split; [easy|]. repeat (split; [apply section_first|]). apply section_first.
Qed.
Lemma good_first {E} table (dup unknown : E) checks a b n n' : first_bad_section table dup unknown checks n [] (a ++ b) = ROk tt ->
  first_bad_section table dup unknown checks n' [] a = ROk tt.
Proof.
  intros H. apply sections_none in H as (H1 & H2 & _). apply sections_none. apply Forall_app in H1 as [H1 _]. rewrite map_app in H2. apply nodup_split in H2 as (H2 & _). now split.
Qed.
Lemma good_at {E} table (dup unknown : E) checks a x b n : first_bad_section table dup unknown checks n [] (a ++ x :: b) = ROk tt ->
  ~ In (ch_name x) (map ch_name a) /\ exists r, named table x = Some r /\ r (ch_body x) = ROk tt.
Proof.
  intros H. apply sections_none in H as (H1 & H2 & _). apply Forall_app in H1 as [_ H1]. inversion_clear H1 as [|? ? (r & K1 & K2 & _) _].
  split; [|now exists r]. rewrite map_app in H2. cbn [map] in H2. apply NoDup_remove_2 in H2. intros K. apply H2. apply in_or_app. now left.
Qed.
Lemma file_cut dbg s s' v n n' cs cs' T f : osu_parts s v n cs -> osu_from_str dbg s = ROk f -> osu_parts s' v n' cs' -> cut_with T cs' cs -> ends_with_char 13 T = false ->
  (exists f', osu_from_str dbg s' = ROk f' /\ cut_file cs' f' f)
  \/ (dbg = true /\ osu_from_str dbg s' = RPanic POverflow /\ ends_empty cs').
Proof.
  intros Hp Hr Hp' Hc Ht. destruct (osu_read_inv dbg s v n cs f Hp Hr) as [Hg ->]. rewrite (osu_parts_read dbg s' v n' cs' Hp'). unfold osu_reads.
  destruct Hc as [a [(-> & b & ->)|(x' & x & b & p & -> & -> & (En & Hb & _) & HT)]].
  - left. rewrite (good_first _ _ _ _ _ _ _ n' Hg). cbn [rmap]. eexists. split; [reflexivity|apply osu_of_first].
  - pose proof (good_at _ _ _ _ _ _ _ _ Hg) as (Na & r & Hn & Hx). apply good_first with (n' := 0%Z) in Hg. pose proof (suffix_no_cr _ _ _ HT Ht) as Hc.
    destruct (named_cut dbg v x' x r En Hb Hc Hn Hx) as [Hn' Hx'].
    rewrite sections_put by (rewrite app_nil_r; easy || now rewrite En). rewrite Hn', Hx'.
    destruct (dbg && is_empty (ch_body x')) eqn:Ed.
    + right. apply andb_true_iff in Ed as [-> Ed]. split; [easy|]. split; [easy|]. exists a, x'. split; [easy|]. now destruct (ch_body x').
    + left. cbn [first_bad_section rmap]. eexists. split; [reflexivity|]. apply osu_of_cut; [easy|easy|easy|now exists r].
Qed.

(** ** storyboards *)
Lemma osb_named_cut dbg vs x' x rd : ch_name x' = ch_name x -> cut_body (ch_body x') (ch_body x) -> ends_with_char 13 (ch_body x') = false ->
  named (osb_table dbg vs) x = Some rd -> rd (ch_body x) = ROk tt -> named (osb_table dbg vs) x' = Some rd /\ rd (ch_body x') = ROk tt.
Proof.
  intros En Hb Hc Hn Hr. split; [unfold named in *; now rewrite En|]. unfold named, osb_table in Hn. cbn [find fst] in Hn.
  repeat match type of Hn with context [if ?c then _ else _] => destruct c end; cbn [option_map snd] in Hn; try discriminate Hn; injection Hn as <-; revert Hr; eapply can_cut; try eassumption.
  - apply cuts_variables.
  - apply cuts_events.
Qed.
Lemma vars_cut T cs' cs : cut_with T cs' cs -> variables_above cs' = variables_above cs \/ ~ In (lit "Events") (map ch_name cs').
Proof.
  assert (D : forall l : list str, In (lit "Events") l \/ ~ In (lit "Events") l).
  { intros l. destruct (existsb (str_eqb (lit "Events")) l) eqn:K; [left; now apply existsb_in|right; rewrite <- existsb_in; congruence]. }
  intros [a [(-> & b & ->)|(x' & x & b & p & -> & -> & (En & Hb & _) & HT)]]; destruct (D (map ch_name a)) as [H|H].
  - left. rewrite <- (app_nil_r a) at 1. now apply above_below.
  - now right.
  - left. now apply above_below.
  - destruct (str_eqb (ch_name x) (lit "Events")) eqn:K.
    + apply str_eqb_eq in K. left. rewrite !above_events; congruence.
    + right. apply str_eqb_neq in K. rewrite map_app. intros L. apply in_app_or in L as [L|[L|[]]]; [easy|congruence].
Qed.
Lemma good_tables dbg vs vs' cs n : ~ In (lit "Events") (map ch_name cs) ->
  first_bad_section (osb_table dbg vs) OsbDuplicateSections OsbUnknownSection false n [] cs = ROk tt ->
  first_bad_section (osb_table dbg vs') OsbDuplicateSections OsbUnknownSection false n [] cs = ROk tt.
Proof.
  intros N H. apply sections_none in H as (H1 & H2 & _). apply sections_none. split; [|now split].
  apply Forall_forall. intros x Hx. rewrite Forall_forall in H1. destruct (H1 x Hx) as (r & K1 & K2 & K3). exists r. split; [|now split].
  unfold named, osb_table in *. cbn [find fst] in *. destruct (str_eqb (ch_name x) (lit "Variables")); [exact K1|].
  destruct (str_eqb (ch_name x) (lit "Events")) eqn:E; [|exact K1]. apply str_eqb_eq in E. elim N. rewrite <- E. now apply in_map.
Qed.
Lemma osb_of_cut dbg T cs' cs n : cut_with T cs' cs -> ends_with_char 13 T = false ->
  first_bad_section (osb_table dbg (variables_above cs)) OsbDuplicateSections OsbUnknownSection false n [] cs = ROk tt ->
  cut_osb cs' (osb_of dbg cs') (osb_of dbg cs)
  /\ forall n', first_bad_section (osb_table dbg (variables_above cs)) OsbDuplicateSections OsbUnknownSection false n' [] cs' = ROk tt.
Proof.
  intros Hc Ht Hg. pose proof (vars_cut T cs' cs Hc) as Hv. unfold cut_osb, osb_of. cbn [osb_variables osb_events].
  set (vs := variables_above cs) in *.
  assert (He : section_cut cs' "Events" cut_events (section_of cs' "Events" (fun t => events_from_str_vars dbg vs t 14%Z))
      (section_of cs "Events" (fun t => events_from_str_vars dbg vs t 14%Z)) ->
    section_cut cs' "Events" cut_events (section_of cs' "Events" (fun t => events_from_str_vars dbg (variables_above cs') t 14%Z))
      (section_of cs "Events" (fun t => events_from_str_vars dbg vs t 14%Z))).
  { destruct Hv as [->|Hv]; [easy|]. intros _. right. left. split; [|easy]. apply section_of_none. intros y Hy K. apply Hv. rewrite <- K. now apply in_map. }
  clearbody vs. clear Hv.
  destruct Hc as [a [(-> & b & ->)|(x' & x & b & p & -> & -> & (En & Hb & _) & HT)]].
  - split; [|intros n'; eapply good_first; exact Hg]. split; [apply section_first|]. apply He. apply section_first.
  - pose proof (good_at _ _ _ _ _ _ _ _ Hg) as (Na & r & Hn & Hx). apply good_first with (n' := 0%Z) in Hg. pose proof (suffix_no_cr _ _ _ HT Ht) as Hc.
    assert (Hr : exists r, named (osb_table dbg vs) x = Some r /\ r (ch_body x) = ROk tt) by now exists r.
    destruct (osb_named_cut dbg vs x' x r En Hb Hc Hn Hx) as [Hn' Hx']. split.
    + split; [|apply He]; apply section_last; try easy; [apply cuts_variables| |apply cuts_events|].
      * exact (named_reads (osb_table dbg vs) OsbVariable variables_read "Variables" x eq_refl Hr).
      * exact (named_reads (osb_table dbg vs) OsbEvents (fun t => events_from_str_vars dbg vs t 14%Z) "Events" x eq_refl Hr).
    + intros n'. rewrite sections_put by (rewrite app_nil_r; easy || now rewrite En). rewrite Hn', Hx'. reflexivity.
Qed.
Lemma osb_cut dbg s s' more f : osb_from_str dbg s 14%Z = ROk (Some f) -> lines s = lines s' ++ more -> no_loose_cr s' ->
  exists n' cs' f', osb_parts s' n' cs' /\ osb_from_str dbg s' 14%Z = ROk (Some f') /\ cut_osb cs' f' f.
Proof.
  intros Hr El Hc. destruct (osb_cases s) as [(k & H)|(n & cs & Hp)]; [now rewrite (osb_stray_read dbg s k H) in Hr|].
  destruct (osb_parts_cut s s' more n cs El Hp) as (n' & cs' & Hp' & T & Hw & Ht). specialize (Ht Hc).
  destruct (osb_read_inv dbg s n cs f Hp Hr) as [Hg ->]. destruct (osb_of_cut dbg T cs' cs n Hw Ht Hg) as [H1 H2].
  exists n', cs', (osb_of dbg cs'). split; [easy|]. split; [|easy]. rewrite (osb_parts_read dbg s' n' cs' Hp'). unfold osb_reads.
  assert (K : first_bad_section (osb_table dbg (variables_above cs')) OsbDuplicateSections OsbUnknownSection false n' [] cs' = ROk tt).
  { destruct (vars_cut T cs' cs Hw) as [->|N]; [apply H2|]. eapply good_tables; [exact N|apply H2]. }
  now rewrite K.
Qed.
Lemma layout_no_version s : forallb layout_char s = true -> no_version s.
Proof.
  intros H ws num rest K. apply head_is_text in K as (bom & -> & _ & Hb & _). rewrite !forallb_app, !andb_true_iff in H. destruct H as (_ & _ & H & _). discriminate H.
Qed.
Lemma layout_refused dbg s : forallb layout_char s = true -> osu_from_str dbg s = RErr (mk_line_err 0 OsuFileVersionDefinedWrong).
Proof.
  intros H. apply layout_no_version in H. destruct (vp_inv s) as [(ws & num & rest & Hh)|[Hv _]]; [now elim (H ws num rest)|]. unfold osu_from_str. now rewrite Hv.
Qed.
Lemma osu_cut dbg s s' more f : osu_from_str dbg s = ROk f -> lines s = lines s' ++ more -> no_loose_cr s' ->
  (forallb layout_char s' = true /\ osu_from_str dbg s' = RErr (mk_line_err 0 OsuFileVersionDefinedWrong))
  \/ exists n' cs', osu_parts s' (osu_version f) n' cs'
     /\ ((exists f', osu_from_str dbg s' = ROk f' /\ cut_file cs' f' f)
         \/ (dbg = true /\ osu_from_str dbg s' = RPanic POverflow /\ ends_empty cs')).
Proof.
  intros Hr El Hc. destruct (osu_cases s) as [H|[H|[(k & H)|(v & n & cs & Hp)]]].
  - apply (version_missing dbg) in H as [j H]. congruence.
  - apply (version_invalid dbg) in H as [j H]. congruence.
  - now rewrite (total_stray dbg s k H) in Hr.
  - assert (Ev : osu_version f = v) by (destruct (osu_read_inv dbg s v n cs f Hp Hr) as [_ K]; rewrite K; now unfold osu_of). rewrite Ev.
    destruct (parts_cut s s' more v n cs El Hp) as [H|(n' & cs' & Hp' & T & Hw & Ht)].
    + left. split; [easy|now apply layout_refused].
    + right. exists n', cs'. split; [easy|]. specialize (Ht Hc). exact (file_cut dbg s s' v n n' cs cs' T f Hp Hr Hp' Hw Ht).
Qed.
Lemma osu_cut_release s s' more f : osu_from_str false s = ROk f -> lines s = lines s' ++ more -> no_loose_cr s' -> forallb layout_char s' = false ->
  exists n' cs' f', osu_parts s' (osu_version f) n' cs' /\ osu_from_str false s' = ROk f' /\ cut_file cs' f' f.
Proof.
  intros Hr El Hc Hl. destruct (osu_cut false s s' more f Hr El Hc) as [[H _]|(n' & cs' & Hp & [(f' & H1 & H2)|(H & _)])]; [congruence| |discriminate].
  now exists n', cs', f'.
Qed.
Lemma parts_cut_plain s s' more v n cs : lines s = lines s' ++ more -> osu_parts s v n cs ->
  forallb layout_char s' = true \/ exists n' cs', osu_parts s' v n' cs' /\ cut_chunks cs' cs.
Proof.
  intros El Hp. destruct (parts_cut s s' more v n cs El Hp) as [H|(n' & cs' & H & T & K & _)]; [now left|]. right. exists n', cs'. split; [easy|]. eapply cut_with_chunks; exact K.
Qed.
Lemma osb_parts_plain s s' more n cs : lines s = lines s' ++ more -> osb_parts s n cs -> exists n' cs', osb_parts s' n' cs' /\ cut_chunks cs' cs.
Proof.
  intros El Hp. destruct (osb_parts_cut s s' more n cs El Hp) as (n' & cs' & H & T & K & _). exists n', cs'. split; [easy|]. eapply cut_with_chunks; exact K.
Qed.
Lemma rest_text s a b : lines s = lines a ++ b -> lines s = lines a ++ lines (crlf_text b).
Proof. intros H. rewrite (lines_rest s (lines a) b H). exact H. Qed.
Lemma lists_cut s s' more v : lines s = lines s' ++ more ->
  (forall xs, timing_points_from_str s v = ROk (Some xs) -> exists xs', timing_points_from_str s' v = ROk (Some xs') /\ begins_with xs' xs)
  /\ (forall xs, hit_objects_from_str s v = ROk (Some xs) -> exists xs', hit_objects_from_str s' v = ROk (Some xs') /\ begins_with xs' xs)
  /\ (forall xs, colours_from_str s v = ROk (Some xs) -> exists xs', colours_from_str s' v = ROk (Some xs') /\ begins_with xs' xs)
  /\ (forall xs, variables_from_str s = ROk xs -> exists xs', variables_from_str s' = ROk xs' /\ begins_with xs' xs).
Proof.
  intros H. apply rest_text in H. repeat split; intros xs K.
  - exact (pieces_cut _ (points_pieces v) s s' _ xs H K).
  - exact (pieces_cut _ (objects_pieces v) s s' _ xs H K).
  - exact (pieces_cut _ (colours_pieces v) s s' _ xs H K).
  - destruct (pieces_cut _ variables_pieces s s' _ xs H) as (xs' & H1 & H2); [now rewrite K|]. exists xs'. split; [|easy].
    destruct (variables_from_str s'); cbn in H1; congruence.
Qed.
Lemma keys_cut s s' v : cut_body s' s ->
  (forall x, general_from_str s v = ROk (Some x) -> exists x', general_from_str s' v = ROk (Some x') /\ some_general x' x)
  /\ (forall x, editor_from_str s v = ROk (Some x) -> exists x', editor_from_str s' v = ROk (Some x') /\ some_editor x' x)
  /\ (forall x, metadata_from_str s v = ROk (Some x) -> exists x', metadata_from_str s' v = ROk (Some x') /\ some_metadata x' x)
  /\ (forall x, difficulty_from_str s v = ROk (Some x) -> exists x', difficulty_from_str s' v = ROk (Some x') /\ some_difficulty x' x).
Proof.
  intros H. repeat split; intros x K.
  - destruct (general_body v s' s _ H K) as (g' & g & H1 & H2 & H3). injection H2 as <-. now exists g'.
  - destruct (editor_body v s' s _ H K) as (g' & g & H1 & H2 & H3). injection H2 as <-. now exists g'.
  - destruct (metadata_body v s' s _ H K) as (g' & g & H1 & H2 & H3). injection H2 as <-. now exists g'.
  - destruct (difficulty_body v s' s _ H K) as (g' & g & H1 & H2 & H3). injection H2 as <-. now exists g'.
Qed.
