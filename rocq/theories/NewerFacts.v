(** The same text below two version lines. *)
From Coq Require Import String List NArith ZArith Bool Lia.
From Verif Require Import Str Num Nom Dec Parsers KeyValue KvFields General Editor Metadata Difficulty Colours
  TimingPoints HitObjects Storyboard NormalEvents Events Osb OsuFile SpecSections SpecFile SpecLine SpecNewer
  NumFacts FileFacts LineRead HoRead KvRead.
Import ListNotations.
Local Open Scope N_scope.

Definition newer {A E} (bad : E -> Prop) (k : A -> A) (ra rb : res A E) : Prop :=
  match rb with
  | ROk x => ra = ROk (k x)
  | RErr e => ra = RErr e \/ bad e
  | RPanic p => ra = RPanic p
  end.
Lemma newer_refl {A E} (bad : E -> Prop) (r : res A E) : newer bad (fun x => x) r r.
Proof. destruct r; cbn; auto. Qed.
Definition bad_line {E} (bad : E -> Prop) (e : line_err E) : Prop := bad (le_err e).
Definition same {A} (x : A) : A := x.

Lemma newer_lines {A E} bad (fa fb : str -> res A E) : (forall l, newer bad same (fa l) (fb l)) ->
  forall ls i, newer (bad_line bad) same (parse_lines fa i ls) (parse_lines fb i ls).
Proof.
  intros H. induction ls as [|l ls IH]; intros i; cbn; [reflexivity|].
  destruct (is_blank l); [apply IH|]. specialize (H l). specialize (IH (i + 1)%Z).
  destruct (fb l) as [x|e|p]; cbn in H.
  - rewrite H. unfold same in *. destruct (parse_lines fb (i + 1) ls) as [y|e|p]; cbn in IH |- *.
    + now rewrite IH.
    + destruct IH as [->|B]; [now left|now right].
    + now rewrite IH.
  - cbn. destruct H as [->|B]; [now left|right; exact B].
  - now rewrite H.
Qed.

(** ** key/value sections *)
Section Kv.
  Context {S E : Type}.
  Variables (errs : kv_errs E) (new : S) (a b : version) (bad : E -> Prop) (k : S -> S).
  Definition field_newer (f : field S E) : Prop :=
    forall value sec, newer bad k (rmap (fun x => f_set f x (k sec)) (f_from f value a))
                                  (rmap (fun x => f_set f x sec) (f_from f value b)).
  Lemma assign_newer fs : Forall field_newer fs -> forall name value sec,
    match kv_assign fs name value b sec with
    | Some r => exists r', kv_assign fs name value a (k sec) = Some r' /\ newer bad k r' r
    | None => kv_assign fs name value a (k sec) = None
    end.
  Proof.
    induction 1 as [|f fs H _ IH]; intros name value sec; cbn; [reflexivity|].
    destruct (str_eqb name (f_name f)); [|apply IH].
    eexists. split; [reflexivity|]. apply H.
  Qed.
  Lemma loop_newer fs : Forall field_newer fs -> forall l i parsed sec,
    newer (bad_line bad) k (kv_loop errs fs a i parsed (k sec) l) (kv_loop errs fs b i parsed sec l).
  Proof.
    intros H. induction l as [|[[[name w] value] ws2] l IH]; intros i parsed sec; cbn [kv_loop]; [reflexivity|].
    destruct (mem_str name parsed); [now left|].
    pose proof (assign_newer fs H name value sec) as A. destruct (kv_assign fs name value b sec) as [[x|e|p]|].
    - destruct A as (r & -> & A). cbn in A. rewrite A. apply IH.
    - destruct A as (r & -> & [->|A]); [now left|right; exact A].
    - destruct A as (r & -> & A). cbn in A. rewrite A. reflexivity.
    - rewrite A. now left.
  Qed.
  Lemma section_newer fs : Forall field_newer fs -> k new = new -> forall s,
    newer (bad_line bad) (option_map k) (kv_from_str errs fs new s a) (kv_from_str errs fs new s b).
  Proof.
    intros H N s. unfold kv_from_str. destruct (get_colon_field_value_lines s) as [rest l|e|e|p]; try reflexivity.
    destruct (negb (is_blank rest)); [now left|]. pose proof (loop_newer fs H l 0 [] new) as L. rewrite N in L.
    destruct (kv_loop errs fs b 0 [] new l) as [x|e|p]; cbn in L |- *.
    - now rewrite L.
    - destruct L as [->|L]; [now left|now right].
    - now rewrite L.
  Qed.
End Kv.
Lemma fields_same {S E} (errs : kv_errs E) (fs : list (field S E)) new a b :
  Forall (fun f => forall s, f_from f s a = f_from f s b) fs -> forall s, kv_from_str errs fs new s a = kv_from_str errs fs new s b.
Proof.
  intros H s. assert (N : newer (bad_line (fun _ => False)) (option_map same) (kv_from_str errs fs new s a) (kv_from_str errs fs new s b)).
  { apply section_newer; [|reflexivity]. eapply Forall_impl; [|exact H]. intros f F value sec. cbn. rewrite F.
    destruct (f_from f value b); cbn; auto. }
  destruct (kv_from_str errs fs new s b) as [[x|]|e|p]; cbn in N; try exact N. now destruct N.
Qed.
Lemma editor_same s a b : editor_from_str s a = editor_from_str s b.
Proof. apply fields_same. repeat constructor. Qed.
Lemma metadata_same s a b : metadata_from_str s a = metadata_from_str s b.
Proof. apply fields_same. repeat constructor. Qed.
Lemma difficulty_same s a b : difficulty_from_str s a = difficulty_from_str s b.
Proof. apply fields_same. repeat constructor. Qed.

Definition general_bad (a b : version) (e : general_err) : Prop := (a <= 13)%Z /\ b = 14%Z /\ e = GenOverlay.
Lemma old5 v : (5 <= v)%Z -> old_version v = false.
Proof. intros H. unfold old_version. apply andb_false_iff. right. lia. Qed.
Lemma mode_up a b m : (5 <= a)%Z -> (a <= b)%Z -> has_mode a m = true -> has_mode b m = true.
Proof.
  intros A B. destruct m; cbn; try reflexivity; rewrite !orb_true_iff; intros [H|H]; rewrite ?Z.ltb_lt, ?Z.leb_le in *; lia.
Qed.
Lemma mode_newer a b s : (5 <= a)%Z -> (a <= b)%Z ->
  mode_from_str s a = rmap (fun o => match o with Some m => if has_mode a m then Some m else None | None => None end) (mode_from_str s b).
Proof.
  intros A B. unfold mode_from_str. destruct (parse_usize s) as [z|e|p]; try reflexivity. cbn.
  assert (G : forall m, mode_gate m a = match mode_gate m b with Some m => if has_mode a m then Some m else None | None => None end).
  { intros m. rewrite !mode_gate_has. destruct (has_mode a m) eqn:Ha.
    - now rewrite (mode_up a b m A B Ha), Ha.
    - destruct (has_mode b m); [now rewrite Ha|reflexivity]. }
  destruct (z =? 0)%Z; [cbn; now rewrite G|]. destruct (z =? 1)%Z; [cbn; now rewrite G|].
  destruct (z =? 2)%Z; [cbn; now rewrite G|]. destruct (z =? 3)%Z; [cbn; now rewrite G|]. reflexivity.
Qed.
Lemma overlay_newer a b s : (5 <= a)%Z -> (a <= b <= 14)%Z ->
  newer (general_bad a b) (fun o => if has_overlay a then o else None) (overlay_position_from_str s a) (overlay_position_from_str s b).
Proof.
  intros A B. unfold overlay_position_from_str. replace (no_overlay a) with (negb (has_overlay a)) by (unfold has_overlay, no_overlay; apply negb_involutive).
  destruct (has_overlay a) eqn:Ha; cbn [negb].
  - assert (b = a) as -> by (unfold has_overlay in Ha; apply negb_true_iff, andb_false_iff in Ha; lia).
    unfold has_overlay in Ha. unfold no_overlay. apply negb_true_iff in Ha. rewrite Ha. apply newer_refl.
  - destruct (no_overlay b) eqn:Hb; [reflexivity|].
    repeat match goal with |- context [str_eqb s ?l] => destruct (str_eqb s l); [reflexivity|] end.
    cbn. right. unfold has_overlay in Ha. apply negb_false_iff, andb_true_iff in Ha.
    unfold no_overlay in Hb. apply andb_false_iff in Hb. unfold general_bad. repeat split; lia.
Qed.
Lemma general_newer a b s : (5 <= a)%Z -> (a <= b <= 14)%Z ->
  newer (bad_line (general_bad a b)) (option_map (general_seen a)) (general_from_str s a) (general_from_str s b).
Proof.
  intros A B. apply section_newer.
  2: { unfold general_new, general_seen. cbn. now destruct (has_overlay a). }
  assert (Pl : forall f : field general general_err, (forall value, f_from f value a = f_from f value b) ->
    (forall x sec, f_set f x (general_seen a sec) = general_seen a (f_set f x sec)) -> field_newer a b (general_bad a b) (general_seen a) f).
  { intros f F G value sec. rewrite F. destruct (f_from f value b) as [x|e|p]; cbn; [now rewrite G|now left|reflexivity]. }
  assert (Cd : forall value, countdown_from_str value a = countdown_from_str value b)
    by (intros value; unfold countdown_from_str, countdown_from_repr; rewrite !old5 by lia; reflexivity).
  assert (Ss : forall value, gsample_set_from_str value a = gsample_set_from_str value b).
  { intros value. unfold gsample_set_from_str. replace (a =? 3)%Z with false by (symmetry; apply Z.eqb_neq; lia).
    replace (b =? 3)%Z with false by (symmetry; apply Z.eqb_neq; lia). reflexivity. }
  unfold general_fields.
  do 4 (apply Forall_cons; [apply Pl; [reflexivity|reflexivity]|]).
  apply Forall_cons; [apply Pl; [exact Cd|reflexivity]|].
  apply Forall_cons; [apply Pl; [exact Ss|reflexivity]|].
  apply Forall_cons; [apply Pl; [reflexivity|reflexivity]|].
  apply Forall_cons.
  { intros value sec. cbn [mk_field f_from f_set]. rewrite (mode_newer a b) by lia.
    destruct (mode_from_str value b) as [x|e|p]; cbn; [reflexivity|now left|reflexivity]. }
  do 4 (apply Forall_cons; [apply Pl; [reflexivity|reflexivity]|]).
  apply Forall_cons.
  { intros value sec. cbn [mk_field f_from f_set]. pose proof (overlay_newer a b value A B) as O.
    destruct (overlay_position_from_str value b) as [x|e|p]; cbn in O |- *.
    - rewrite O. reflexivity.
    - destruct O as [->|O]; [now left|now right].
    - now rewrite O. }
  do 8 (apply Forall_cons; [apply Pl; [reflexivity|reflexivity]|]).
  apply Forall_nil.
Qed.

(** ** the other sections *)
Lemma colours_newer a b s : (5 <= a)%Z -> (5 <= b)%Z -> colours_from_str s a = colours_from_str s b.
Proof. intros A B. unfold colours_from_str. rewrite !old5 by lia. reflexivity. Qed.

Definition tp_bad (a b : version) (e : tp_err) : Prop := a = 5%Z /\ (6 <= b)%Z /\ e = TpMissingEffects.
Lemma next_newer {A B E X} bad m i (rd : str -> res A X) fs (ka kb : A -> list str -> res B E) :
  (forall x l, newer bad same (ka x l) (kb x l)) -> newer bad same (next m i rd fs ka) (next m i rd fs kb).
Proof. intros H. destruct fs as [|f fs]; cbn; [now left|]. destruct (rd f); cbn; [apply H|now left|reflexivity]. Qed.
Lemma tp_newer a b s : (5 <= a)%Z -> (a <= b)%Z -> newer (tp_bad a b) same (tp_from_str a s) (tp_from_str b s).
Proof.
  intros A B. assert (F : fields_of s (pieces 44 s)) by (apply pieces_fields).
  rewrite !(tp_line_reads _ s _ F).
  assert (L : newer (tp_bad a b) same (tp_line a (pieces 44 s)) (tp_line b (pieces 44 s))).
  { unfold tp_line. apply next_newer. intros t fs.
    unfold shift_in. rewrite !old5 by lia. cbn [andthen].
    replace (a <=? 3)%Z with false by (symmetry; apply Z.leb_gt; lia).
    replace (b <=? 3)%Z with false by (symmetry; apply Z.leb_gt; lia).
    replace (a <=? 4)%Z with false by (symmetry; apply Z.leb_gt; lia).
    replace (b <=? 4)%Z with false by (symmetry; apply Z.leb_gt; lia).
    apply next_newer. intros bl fs1. apply next_newer. intros m fs2. apply next_newer. intros ss fs3.
    apply next_newer. intros i fs4. destruct fs4 as [|f4 fs4]; [now left|].
    apply next_newer. intros vol fs5. destruct fs5 as [|f5 fs5]; [reflexivity|].
    apply next_newer. intros u fs6. destruct fs6 as [|f6 fs6]; [|apply newer_refl].
    destruct (Z.leb_spec b 5).
    - replace (a <=? 5)%Z with true by (symmetry; apply Z.leb_le; lia). reflexivity.
    - destruct (Z.leb_spec a 5); [right; unfold tp_bad; repeat split; lia|now left]. }
  destruct (tp_line b (pieces 44 s)) as [x|e|p]; cbn in L |- *.
  - now rewrite L.
  - destruct L as [->|L]; [now left|now right].
  - now rewrite L.
Qed.
Lemma tps_newer a b s : (5 <= a)%Z -> (a <= b)%Z ->
  newer (bad_line (tp_bad a b)) same (timing_points_from_str s a) (timing_points_from_str s b).
Proof.
  intros A B. unfold timing_points_from_str.
  pose proof (newer_lines _ _ _ (fun l => tp_newer a b l A B) (lines s) 0) as L.
  destruct (parse_lines (tp_from_str b) 0 (lines s)) as [x|e|p]; cbn in L; cbn [rbind].
  - rewrite L. apply newer_refl.
  - destruct L as [->|L]; [now left|now right].
  - now rewrite L.
Qed.
Lemma lines_same {A E} (f g : str -> res A E) : (forall l, f l = g l) -> forall ls i, parse_lines f i ls = parse_lines g i ls.
Proof.
  intros H. induction ls as [|l ls IH]; intros i; cbn; [reflexivity|]. rewrite H, IH. reflexivity.
Qed.
Lemma objects_newer a b s : (5 <= a)%Z -> (5 <= b)%Z -> hit_objects_from_str s a = hit_objects_from_str s b.
Proof.
  intros A B. unfold hit_objects_from_str. f_equal. apply lines_same. intros l. f_equal.
  unfold ho_from_str, ho_slider, ho_curve, ho_spinner, ho_hold, ho_common, shift_in.
  rewrite !old5 by lia. replace (a =? 3)%Z with false by (symmetry; apply Z.eqb_neq; lia).
  replace (b =? 3)%Z with false by (symmetry; apply Z.eqb_neq; lia). reflexivity.
Qed.
Lemma events_newer dbg a b s : (5 <= a)%Z -> (5 <= b)%Z -> events_from_str dbg s a = events_from_str dbg s b.
Proof.
  intros A B. unfold events_from_str, events_from_str_vars. f_equal.
  assert (T : forall t, time_in dbg a t = time_in dbg b t) by (intros t; unfold time_in; rewrite !old5 by lia; reflexivity).
  assert (Ev : forall l, ev_from_line dbg a l = ev_from_line dbg b l).
  { intros l. unfold ev_from_line, vid_from_str, brk_from_str, ctr_from_str, vid_parser, brk_parser, ctr_parser, start_time_offset, end_time_rest, time_in.
    rewrite !old5 by lia. reflexivity. }
  generalize (@nil event) 0%Z. induction (lines s) as [|l ls IH]; intros evs i; cbn [ev_loop]; [reflexivity|].
  destruct (is_blank l); [apply IH|]. unfold ev_step. rewrite Ev.
  match goal with |- match ?x with _ => _ end = _ => destruct x end; auto.
Qed.

(** ** the file *)
Lemma section_file_newer dbg a b f name body line : (5 <= a)%Z -> (a <= b <= 14)%Z -> osu_version f = b ->
  match osu_section dbg f name body line with
  | None => osu_section dbg (seen_by a f) name body line = None
  | Some r => exists r', osu_section dbg (seen_by a f) name body line = Some r'
                         /\ newer (bad_line (newer_refuses a b)) (seen_by a) r' r
                         /\ forall f', r = ROk f' -> osu_version f' = b
  end.
Proof.
  intros A B V. destruct f as [v g e o m d ev tp c h]. cbn in V. subst v.
  unfold osu_section, seen_by; cbn [osu_general osu_editor osu_osb osu_metadata osu_difficulty osu_events osu_timing_points osu_colours osu_hitobjects option_map].
  assert (P : forall {X E} (r : res X (line_err E)) (w : E -> osu_err) (k : X -> osu_file) (k' : X -> osu_file), 
     (forall x, k' x = seen_by a (k x)) -> (forall x, osu_version (k x) = b) ->
     exists r', Some (rmap k' (processing_line w r line)) = Some r' /\ newer (bad_line (newer_refuses a b)) (seen_by a) r' (rmap k (processing_line w r line))
       /\ forall f', rmap k (processing_line w r line) = ROk f' -> osu_version f' = b).
  { intros X E r w k k' K V. eexists. split; [reflexivity|]. destruct r as [x|z|p]; cbn; (split; [|intros f' F; try discriminate]).
    - now rewrite K.
    - injection F as <-. apply V.
    - now left.
    - reflexivity. }
  destruct (str_eqb name (lit "General")).
  { eexists. split; [reflexivity|]. pose proof (general_newer a b body A B) as G.
    destruct (general_from_str body b) as [x|[i z]|p]; cbn in G |- *; (split; [|intros f' F; try discriminate]).
    - rewrite G. reflexivity.
    - injection F as <-. reflexivity.
    - destruct G as [->|(G1 & G2 & G3)]; [now left|]. right. left. cbn in G3 |- *. subst z. auto.
    - now rewrite G. }
  destruct (str_eqb name (lit "Editor")); [rewrite (editor_same _ a b); apply P; reflexivity|].
  destruct (str_eqb name (lit "Metadata")); [rewrite (metadata_same _ a b); apply P; reflexivity|].
  destruct (str_eqb name (lit "Difficulty")); [rewrite (difficulty_same _ a b); apply P; reflexivity|].
  destruct (str_eqb name (lit "Events")); [rewrite (events_newer _ a b) by lia; apply P; reflexivity|].
  destruct (str_eqb name (lit "TimingPoints")).
  { eexists. split; [reflexivity|]. pose proof (tps_newer a b body A ltac:(lia)) as G.
    destruct (timing_points_from_str body b) as [x|[i z]|p]; cbn in G |- *; (split; [|intros f' F; try discriminate]).
    - rewrite G. reflexivity.
    - injection F as <-. reflexivity.
    - destruct G as [->|(G1 & G2 & G3)]; [now left|]. right. right. cbn in G3 |- *. subst z. auto.
    - now rewrite G. }
  destruct (str_eqb name (lit "Colours")); [rewrite (colours_newer a b) by lia; apply P; reflexivity|].
  destruct (str_eqb name (lit "HitObjects")); [rewrite (objects_newer a b) by lia; apply P; reflexivity|].
  reflexivity.
Qed.
Lemma loop_file_newer dbg a b : (5 <= a)%Z -> (a <= b <= 14)%Z -> forall l line parsed f, osu_version f = b ->
  newer (bad_line (newer_refuses a b)) (seen_by a) (osu_loop dbg line parsed (seen_by a f) l) (osu_loop dbg line parsed f l).
Proof.
  intros A B. induction l as [|[[[ws name] ws2] body] l IH]; intros line parsed f V; cbn [osu_loop]; [reflexivity|].
  destruct (mem_str name parsed); [now left|].
  pose proof (section_file_newer dbg a b f name body (line + lines_count ws + lines_count ws2)%Z A B V) as S.
  destruct (osu_section dbg f name body _) as [r|]; [|rewrite S; now left].
  destruct S as (r' & -> & N & W). destruct r as [f'|e|p]; cbn in N |- *.
  - rewrite N. cbn [rbind]. destruct (usize_pred dbg (lines_count body)) as [n|e|p]; cbn; [|now left|reflexivity].
    apply IH. now apply W.
  - destruct N as [->|N]; [now left|now right].
  - now rewrite N.
Qed.
Lemma file_newer dbg a b s t ws n m rest : version_head s ws n rest -> version_head t ws m rest ->
  version_text n a -> version_text m b -> (5 <= a)%Z -> (a <= b)%Z ->
  match osu_from_str dbg t with
  | ROk g => osu_from_str dbg s = ROk (seen_by a g)
  | RErr e => osu_from_str dbg s = RErr e \/ newer_refuses a b (le_err e)
  | RPanic p => osu_from_str dbg s = RPanic p
  end.
Proof.
  intros Hs Ht (Na & Ra) (Nb & Rb) A B. unfold osu_from_str.
  rewrite (vp_head _ _ _ _ Hs), (vp_head _ _ _ _ Ht).
  rewrite (proj2 (u8_accepts n a)) by (split; [exact Na|lia]). rewrite (proj2 (u8_accepts m b)) by (split; [exact Nb|lia]).
  replace (negb ((min_version <=? a)%Z && (a <=? latest_version)%Z)) with false by (unfold min_version, latest_version; symmetry; apply negb_false_iff, andb_true_iff; lia).
  replace (negb ((min_version <=? b)%Z && (b <=? latest_version)%Z)) with false by (unfold min_version, latest_version; symmetry; apply negb_false_iff, andb_true_iff; lia).
  destruct (split_pre (lines rest)) as [pre body]. destruct (unexpected_line 0 pre); [now left|].
  destruct (many0 (@square_section unit) (join [c_nl] body)) as [r secs|e|e|p]; try reflexivity.
  change (osu_new a) with (seen_by a (osu_new b)). apply loop_file_newer; [lia|lia|reflexivity].
Qed.
Lemma file_between dbg a b s t ws n m rest : version_head s ws n rest -> version_head t ws m rest ->
  version_text n a -> version_text m b -> (6 <= a)%Z -> (a <= b)%Z -> (b <= 13)%Z ->
  osu_from_str dbg s = rmap (seen_by a) (osu_from_str dbg t).
Proof.
  intros Hs Ht Na Nb A B C. pose proof (file_newer dbg a b s t ws n m rest Hs Ht Na Nb ltac:(lia) B) as F.
  destruct (osu_from_str dbg t) as [g|e|p]; cbn; try exact F.
  destruct F as [F|[(_ & E & _)|(E & _)]]; [exact F|lia|lia].
Qed.
Lemma file_older dbg a b s t ws n m rest g : version_head s ws n rest -> version_head t ws m rest ->
  version_text n a -> version_text m b -> (5 <= a)%Z -> (a <= b)%Z ->
  osu_from_str dbg t = ROk g -> osu_from_str dbg s = ROk (seen_by a g).
Proof.
  intros Hs Ht Na Nb A B G. pose proof (file_newer dbg a b s t ws n m rest Hs Ht Na Nb A B) as F. now rewrite G in F.
Qed.
Lemma file_later dbg a b s t ws n m rest f : version_head s ws n rest -> version_head t ws m rest ->
  version_text n a -> version_text m b -> (5 <= a)%Z -> (a <= b)%Z ->
  osu_from_str dbg s = ROk f ->
  (exists g, osu_from_str dbg t = ROk g /\ f = seen_by a g)
  \/ exists j e, osu_from_str dbg t = RErr (mk_line_err j e) /\ newer_refuses a b e.
Proof.
  intros Hs Ht Na Nb A B G. pose proof (file_newer dbg a b s t ws n m rest Hs Ht Na Nb A B) as F. rewrite G in F.
  destruct (osu_from_str dbg t) as [g|[j e]|p].
  - left. exists g. injection F as ->. auto.
  - right. exists j, e. destruct F as [F|F]; [discriminate|auto].
  - discriminate.
Qed.
Definition mania_text : str := [c_nl] ++ lit "[General]" ++ [c_nl] ++ lit "Mode: 3" ++ [c_nl] ++ lit "OverlayPosition: Above"
  ++ [c_nl] ++ lit "AudioHash: x" ++ [c_nl] ++ lit "[TimingPoints]" ++ [c_nl] ++ lit "1,2,4,1,0,50,1,0".
Lemma under_head n rest : forallb (fun c => negb (c =? 13) && negb (c =? 10)) (lit n) = true ->
  version_head (under n ([c_nl] ++ rest)) [] (lit n) ([c_nl] ++ rest).
Proof.
  intros H. apply (vh [] [] (lit n) ([c_nl] ++ rest)); [reflexivity|now left|exact H|].
  right. exists c_nl, rest. split; [reflexivity|now left].
Qed.
