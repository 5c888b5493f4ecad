(** Which files reading gives (C76). *)
From Coq Require Import String List NArith ZArith Bool Lia.
From Verif Require Import Str Num Nom Dec Parsers KeyValue KvFields General Editor Metadata Difficulty Colours TimingPoints HitObjects
  Storyboard NormalEvents Events Osb OsuFile Spec SpecWf SpecKv SpecText SpecSections SpecFile SpecTypes SpecCmd SpecEvents SpecWhole SpecTotal
  SpecLine SpecEvLine SpecColLine SpecEvSection SpecKvRead SpecParts SpecMeans SpecWalk SpecImage SpecImageFile
  StrFacts NumFacts NomFacts DecFacts LineFacts SplitFacts LayoutFacts
  KvFacts KvSem KvSections KvTheorems KvStatements KvRead EvSection HoRead Ends TpFacts WholeFacts WalkFacts Means ImageKv ImageLine ImageObj ImageCmd ImageEv ImageBody.
Import ListNotations.
Local Open Scope N_scope.

(** ** the sections with keys *)
Lemma general_body v g : general_range v g = true -> exists b, stands b = true /\ general_from_str b v = ROk (Some g).
Proof.
  intros H. apply general_gives in H as [s H]. rewrite <- general_all_same in H.
  destruct (kv_body general_errs general_all general_new general_spacing general_all_laws eq_refl s v g H) as (b & H1 & H2). exists b. now rewrite general_all_same in H2.
Qed.
Lemma editor_body v e : editor_ok e = true -> exists b, stands b = true /\ editor_from_str b v = ROk (Some e).
Proof. intros H. apply (editor_gives v) in H as [s H]. exact (kv_body _ _ _ _ editor_laws eq_refl s v e H). Qed.
Lemma metadata_body v e : metadata_ok e = true -> exists b, stands b = true /\ metadata_from_str b v = ROk (Some e).
Proof. intros H. apply (metadata_gives v) in H as [s H]. exact (kv_body _ _ _ _ metadata_laws eq_refl s v e H). Qed.
Lemma difficulty_body v e : difficulty_ok e = true -> exists b, stands b = true /\ difficulty_from_str b v = ROk (Some e).
Proof. intros H. apply (difficulty_gives v) in H as [s H]. exact (kv_body _ _ _ _ difficulty_laws eq_refl s v e H). Qed.

(** ** the parts of a file *)
Definition part_name (p : SpecMeans.part) : str :=
  lit match p with
      | PaGeneral _ => "General" | PaEditor _ => "Editor" | PaMetadata _ => "Metadata" | PaDifficulty _ => "Difficulty"
      | PaEvents _ => "Events" | PaTimingPoints _ => "TimingPoints" | PaColours _ => "Colours" | PaHitObjects _ => "HitObjects"
      | PaNothing => ""
      end%string.
Definition part_reads (dbg : bool) (v : version) (b : str) (p : SpecMeans.part) : Prop :=
  match p with
  | PaGeneral x => general_from_str b v = ROk (Some x)
  | PaEditor x => editor_from_str b v = ROk (Some x)
  | PaMetadata x => metadata_from_str b v = ROk (Some x)
  | PaDifficulty x => difficulty_from_str b v = ROk (Some x)
  | PaEvents x => events_from_str dbg b v = ROk (Some x)
  | PaTimingPoints x => timing_points_from_str b v = ROk (Some x)
  | PaColours x => colours_from_str b v = ROk (Some x)
  | PaHitObjects x => hit_objects_from_str b v = ROk (Some x)
  | PaNothing => False
  end.
Definition part_range (dbg : bool) (v : version) (p : SpecMeans.part) : bool :=
  match p with
  | PaGeneral x => general_range v x
  | PaEditor x => editor_ok x
  | PaMetadata x => metadata_ok x
  | PaDifficulty x => difficulty_ok x
  | PaEvents x => forallb (event_in dbg v) x
  | PaTimingPoints x => points_range v x
  | PaColours x => colours_range v x
  | PaHitObjects x => objects_range v x
  | PaNothing => false
  end.
Lemma as_part_ok {A E} (mk : A -> SpecMeans.part) (f : E -> osu_err) r p : as_part mk f r = ROk p <-> exists a, r = ROk a /\ p = mk a.
Proof.
  destruct r; cbn; [|split; [discriminate|now intros (? & ? & _)]..]. split; [intros H; injection H as <-; eauto|].
  intros (b & H & ->). now injection H as <-.
Qed.
Lemma rmap_some {A E} (r : res A E) a : rmap Some r = ROk (Some a) <-> r = ROk a.
Proof. destruct r; cbn; [|easy..]. split; congruence. Qed.
Lemma means_reads dbg v n b p : section_means dbg v n b (ROk p) -> p = PaNothing \/ part_reads dbg v b p.
Proof.
  intros H. remember (ROk p) as r eqn:E. destruct H; try (apply as_part_ok in E as (a & E & ->); right; cbn [part_reads]).
  - rewrite general_reads_eq by easy. now rewrite E.
  - rewrite editor_reads_eq by easy. now rewrite E.
  - rewrite metadata_reads_eq by easy. now rewrite E.
  - rewrite difficulty_reads_eq by easy. now rewrite E.
  - apply events_section in H. now rewrite H, E.
  - apply timing_points_section in H. now rewrite H, E.
  - apply (colours_section s v) in H0; [|unfold old_version; lia]. now rewrite H0, E.
  - left. congruence.
  - apply hit_objects_section in H. now rewrite H, E.
Qed.
Lemma reads_means dbg v b p : part_reads dbg v b p -> section_means dbg v (part_name p) b (ROk p).
Proof.
  intros H. assert (I : In (part_name p) section_names) by (destruct p; [vm_compute; tauto..|easy]).
  destruct (section_total dbg v (part_name p) b I) as [r Hr]. replace (ROk p) with r; [easy|].
  remember (part_name p) as n eqn:En. destruct Hr; destruct p; try discriminate En; cbn [part_reads] in H.
  - rewrite general_reads_eq in H by easy. apply (proj1 (rmap_some _ _)) in H. now rewrite H.
  - rewrite editor_reads_eq in H by easy. apply (proj1 (rmap_some _ _)) in H. now rewrite H.
  - rewrite metadata_reads_eq in H by easy. apply (proj1 (rmap_some _ _)) in H. now rewrite H.
  - rewrite difficulty_reads_eq in H by easy. apply (proj1 (rmap_some _ _)) in H. now rewrite H.
  - apply events_section in H0. rewrite H0 in H. apply (proj1 (rmap_some _ _)) in H. now rewrite H.
  - apply timing_points_section in H0. rewrite H0 in H. apply (proj1 (rmap_some _ _)) in H. now rewrite H.
  - apply (colours_section s v) in H1; [|unfold old_version; lia]. rewrite H1 in H. apply (proj1 (rmap_some _ _)) in H. now rewrite H.
  - unfold colours_from_str in H. replace (old_version v) with true in H by (unfold old_version; lia). discriminate H.
  - apply hit_objects_section in H0. rewrite H0 in H. apply (proj1 (rmap_some _ _)) in H. now rewrite H.
Qed.
Lemma part_given dbg v p : part_range dbg v p = true -> exists b, stands b = true /\ part_reads dbg v b p.
Proof.
  destruct p; cbn [part_range part_reads]; intros H; [now apply general_body|now apply editor_body|now apply metadata_body|now apply difficulty_body| | | | |easy].
  - now apply events_body.
  - now apply points_body.
  - now apply colours_body.
  - now apply objects_body.
Qed.
Lemma part_found dbg v b p : b = [] \/ stands b = true -> part_reads dbg v b p -> part_range dbg v p = true.
Proof.
  intros Hb. destruct p; cbn [part_range part_reads]; intros H.
  - apply general_gives. now exists b.
  - apply (editor_gives v). now exists b.
  - apply (metadata_gives v). now exists b.
  - apply (difficulty_gives v). now exists b.
  - apply (events_give dbg v). now exists b.
  - destruct Hb as [->|Hb].
    + apply timing_points_items in H. inversion H. reflexivity.
    + apply points_body. eauto.
  - assert (K : some_text (fun s => colours_from_str s v) l) by now exists b. apply colours_gives in K as [K1 K2]. unfold colours_range.
    rewrite K2, andb_true_r. lia.
  - destruct Hb as [->|Hb].
    + apply hit_objects_items in H. inversion H. reflexivity.
    + apply (objects_body v). eauto.
  - easy.
Qed.
Lemma chunk_stands x : chunk_ok x = true -> ch_body x = [] \/ stands (ch_body x) = true.
Proof.
  unfold chunk_ok, stands. rewrite !andb_true_iff. intros [[_ H1] H2]. destruct (ch_body x); [now left|]. right. now rewrite H1.
Qed.
Lemma apart_ok t cs : falls_apart t cs -> Forall (fun x => chunk_ok x = true) cs.
Proof. induction 1; constructor; easy. Qed.

(** ** what a file can be *)
Lemma put_range dbg f p : osu_range dbg f = true -> p = PaNothing \/ part_range dbg (osu_version f) p = true -> osu_range dbg (put p f) = true.
Proof.
  destruct f as [v g e o m d ev tp c h]. unfold osu_range. rewrite put_keeps.
  intros H [->|K]; revert H; [|revert K; destruct p]; cbn [put part_range osu_version osu_general osu_editor osu_osb osu_metadata osu_difficulty osu_events osu_timing_points osu_colours osu_hitobjects opt_all];
    rewrite ?andb_true_iff; intros; tauto || easy.
Qed.
Lemma sections_range dbg v n before f cs f' : sections_mean dbg v n before f cs (ROk f') -> osu_version f = v ->
  Forall (fun x => chunk_ok x = true) cs -> osu_range dbg f = true -> osu_version f' = v /\ osu_range dbg f' = true.
Proof.
  intros H. remember (ROk f') as r eqn:E. induction H as [| | | | | |n before f x cs p r H1 H2 H3 H4 IH]; try discriminate E.
  - injection E as <-. auto.
  - intros Ev Hc Hf. apply Forall_cons_iff in Hc as [Hx Hc]. apply means_reads in H2.
    apply IH; [easy|now rewrite put_keeps|easy|]. apply put_range; [easy|]. rewrite Ev. destruct H2 as [H2|H2]; [now left|right].
    apply part_found in H2; [easy|now apply chunk_stands].
Qed.

(** ** a text for a file *)
Definition chunks_text (cs : list chunk) : str := concat (map (fun x => 10 :: chunk_text x) cs).
Lemma apart_chunks cs : Forall (fun x => chunk_ok x = true /\ ch_body x <> []) cs -> falls_apart (chunks_text cs) cs.
Proof.
  induction 1 as [|x cs [H1 H2] _ IH].
  - constructor. intros w n r _ _ H. destruct w; discriminate H.
  - unfold chunks_text. cbn [map concat]. fold (chunks_text cs). change ((10 :: chunk_text x) ++ chunks_text cs) with ([10] ++ chunk_text x ++ chunks_text cs).
    constructor; [easy|easy| |easy]. destruct cs as [|y cs]; [now left|]. right. split; [easy|]. eexists. unfold chunks_text. cbn [map concat]. reflexivity.
Qed.
Lemma pieces_join c s : join [c] (pieces c s) = s.
Proof.
  induction s as [|d s IH]; [easy|]. cbn [pieces]. destruct (pieces c s) as [|p ps] eqn:E.
  - destruct (pieces_spec c s) as (? & ? & K & _). congruence.
  - destruct (d =? c) eqn:K.
    + apply N.eqb_eq in K. subst d. rewrite join_cons2, IH. reflexivity.
    + rewrite <- IH. destruct ps; reflexivity.
Qed.
Lemma pieces_flat s : forallb no_nl (pieces 10 s) = true.
Proof. destruct (pieces_spec 10 s) as (f & fs & -> & _ & H1 & H2). cbn [forallb]. apply andb_true_iff. split; [exact H1|exact H2]. Qed.
Lemma trim_opens l : opens l = true -> starts_with_char 91 (trim l) = true.
Proof.
  destruct l as [|c l]; [easy|]. cbn [opens starts_with_char]. intros H. apply N.eqb_eq in H. subst c.
  unfold trim. cbn [trim_start]. replace (is_ws 91) with false by reflexivity. cbn [trim_end]. replace (is_ws 91) with false by reflexivity.
  destruct (trim_end l); easy.
Qed.
Lemma begins_for cs k : Forall (fun x => chunk_ok x = true /\ ch_body x <> []) cs ->
  exists rest ls n, (rest = [] \/ exists t, rest = 10 :: t) /\ lines rest = (if is_empty cs then [] else [[]]) ++ ls
    /\ begins k (if is_empty cs then [] else [[]]) ls n cs.
Proof.
  intros H. destruct cs as [|x cs].
  - exists [], [], 0%Z. split; [now left|]. split; [easy|]. split; [easy|]. split; [easy|]. split; [apply (apart_chunks []); constructor|now left].
  - set (t := chunk_text x ++ chunks_text cs). exists (10 :: crlf_text (pieces 10 t)), (pieces 10 t), (k + 1)%Z. split; [right; eauto|].
    cbn [is_empty app lines c_nl]. change (10 =? c_nl) with true. cbv iota. rewrite crlf_lines_of by apply pieces_flat. split; [easy|].
    assert (A : opens t = true) by reflexivity. split; [easy|]. split.
    + destruct (pieces 10 t) as [|l ls] eqn:E; [easy|]. unfold SpecTotal.head_line. rewrite trim_opens; [easy|]. rewrite <- (opens_piece 10), E in A by easy. exact A.
    + rewrite pieces_join. split.
      * apply Forall_cons_iff in H as [[H1 H2] H]. apply (fa_section []); [easy|easy| |now apply apart_chunks].
        destruct cs as [|y cs]; [now left|]. right. split; [easy|]. eexists. unfold chunks_text. cbn [map concat]. reflexivity.
      * right. exists []. eexists. split; [reflexivity|]. split; [easy|]. cbn [length rows lines]. unfold rows. cbn [lines length]. lia.
Qed.
Lemma text_with v cs : (3 <= v <= 14)%Z -> Forall (fun x => chunk_ok x = true /\ ch_body x <> []) cs -> exists s n, osu_parts s v n cs.
Proof.
  intros Hv H. destruct (begins_for cs (rows []) H) as (rest & ls & n & H1 & H2 & H3).
  exists ([] ++ [] ++ version_prefix ++ print_Z v ++ rest), n, [], (print_Z v), rest, (if is_empty cs then [] else [[]]), ls.
  split; [|split; [now apply print_version|easy]]. apply (vh [] []); [easy|now left| |].
  - eapply forallb_impl; [|apply print_Z_chars]. intros c Hc. apply andb_true_iff. split; apply negb_true_iff, N.eqb_neq; intros ->; discriminate Hc.
  - destruct H1 as [->|[t ->]]; [now left|]. right. eauto.
Qed.

(** ** the sections that are there *)
Definition there {A} (mk : A -> SpecMeans.part) (o : option A) : list SpecMeans.part := match o with Some a => [mk a] | None => [] end.
Definition parts_of (f : osu_file) : list SpecMeans.part :=
  there PaGeneral (osu_general f) ++ there PaEditor (osu_editor f) ++ there PaMetadata (osu_metadata f) ++ there PaDifficulty (osu_difficulty f)
  ++ there PaEvents (osu_events f) ++ there PaTimingPoints (osu_timing_points f) ++ there PaColours (osu_colours f) ++ there PaHitObjects (osu_hitobjects f).
Lemma there_range {A} dbg v (mk : A -> SpecMeans.part) (q : A -> bool) o : (forall a, part_range dbg v (mk a) = q a) -> opt_all q o = true ->
  Forall (fun p => part_range dbg v p = true) (there mk o).
Proof. intros H. destruct o as [a|]; cbn; [|constructor]. intros K. constructor; [now rewrite H|constructor]. Qed.
Lemma parts_range dbg f : osu_range dbg f = true -> Forall (fun p => part_range dbg (osu_version f) p = true) (parts_of f).
Proof.
  unfold osu_range. rewrite !andb_true_iff. intros H. unfold parts_of. rewrite !Forall_app.
  repeat split; eapply there_range; try (intros; reflexivity); cbn beta; tauto.
Qed.
Lemma parts_put f : osu_osb f = None -> fold_left (fun g p => put p g) (parts_of f) (osu_new (osu_version f)) = f.
Proof.
  destruct f as [v g e o m d ev tp c h]. cbn [osu_osb osu_version]. intros ->. unfold parts_of.
  cbn [osu_version osu_general osu_editor osu_osb osu_metadata osu_difficulty osu_events osu_timing_points osu_colours osu_hitobjects].
  destruct g, e, m, d, ev, tp, c, h; reflexivity.
Qed.
Definition given {A} (o : option A) : bool := match o with Some _ => true | None => false end.
Lemma parts_names f : NoDup (map part_name (parts_of f)).
Proof.
  assert (G : forall l : list (str * bool), NoDup (map fst l) -> NoDup (map fst (filter snd l))).
  { induction l as [|[n b] l IH]; [easy|]. cbn [map fst filter snd]. intros H. apply NoDup_cons_iff in H as [H1 H2]. destruct b; [|auto].
    cbn [map fst]. constructor; [|auto]. intros K. apply H1. apply in_map_iff in K as (y & <- & K). apply filter_In in K as [K _]. now apply in_map. }
  assert (E : exists bs, length bs = 8%nat /\ map part_name (parts_of f) = map fst (filter snd (combine section_names bs))).
  { destruct f as [v g e o m d ev tp c h]. unfold parts_of.
    cbn [osu_version osu_general osu_editor osu_osb osu_metadata osu_difficulty osu_events osu_timing_points osu_colours osu_hitobjects].
    exists [given g; given e; given m; given d; given ev; given tp; given c; given h]. split; [easy|]. destruct g, e, m, d, ev, tp, c, h; reflexivity. }
  destruct E as (bs & Hb & ->). apply G.
  assert (M : map fst (combine section_names bs) = section_names) by (do 9 (destruct bs as [|? bs]; try discriminate Hb); reflexivity).
  rewrite M. repeat constructor; cbn; intros K; repeat (destruct K as [K|K]; [discriminate K|]); exact K.
Qed.
Lemma sections_put dbg v ps : forall cs n before f, NoDup (map part_name ps) -> (forall k, In k (map part_name ps) -> ~ In k before) ->
  Forall2 (fun p x => ch_name x = part_name p /\ ch_body x <> [] /\ part_reads dbg v (ch_body x) p) ps cs ->
  sections_mean dbg v n before f cs (ROk (fold_left (fun g p => put p g) ps f)).
Proof.
  induction ps as [|p ps IH]; intros cs n before f Hn Hb H; inversion H as [|p' x ps' cs' (K1 & K2 & K3) K4]; subst; cbn [fold_left]; [constructor|].
  cbn [map] in *. apply NoDup_cons_iff in Hn as [N1 N2]. rewrite <- K1 in *. apply ss_next with (p := p).
  - apply Hb. now left.
  - rewrite K1. now apply reads_means.
  - now right.
  - apply IH; [easy| |easy]. intros k Hk [<-|Hi]; [easy|]. apply (Hb k); [now right|easy].
Qed.
Lemma chunks_for dbg v ps : Forall (fun p => part_range dbg v p = true) ps ->
  exists cs, Forall (fun x => chunk_ok x = true /\ ch_body x <> []) cs
    /\ Forall2 (fun p x => ch_name x = part_name p /\ ch_body x <> [] /\ part_reads dbg v (ch_body x) p) ps cs.
Proof.
  induction 1 as [|p ps H _ (cs & C1 & C2)]; [exists []; split; constructor|].
  destruct (part_given dbg v p H) as (b & B1 & B2). exists (mk_chunk (part_name p) [10] b :: cs).
  assert (N : b <> []) by (intros ->; discriminate B1).
  assert (C : chunk_ok (mk_chunk (part_name p) [10] b) = true).
  { unfold chunk_ok. cbn [ch_name ch_space ch_body]. unfold stands in B1. apply andb_true_iff in B1 as [B1 ->].
    replace (forallb name_char (part_name p)) with true by (destruct p; reflexivity). destruct b as [|c b]; [easy|]. rewrite B1. reflexivity. }
  split; constructor; easy.
Qed.
Lemma file_gives dbg f : (exists s, osu_from_str dbg s = ROk f) <-> osu_range dbg f = true.
Proof.
  split.
  - intros [s H]. apply file_means_iff in H. remember (ROk f) as r eqn:E. destruct H as [| | |v n cs r P H]; try discriminate E. subst r.
    assert (V : osu_version f = v).
    { revert H. generalize (osu_new v) (eq_refl : osu_version (osu_new v) = v) (@nil str) n. clear. intros g Hg before n H.
      remember (ROk f) as r eqn:E. revert Hg. induction H; try discriminate E; intros Hg; [now injection E as <-|]. apply IHsections_mean; [easy|now rewrite put_keeps]. }
    destruct P as (ws & num & rest & pre & ls & _ & [_ Hr] & _ & _ & _ & A & _). apply apart_ok in A.
    apply (sections_range dbg v n [] (osu_new v) cs f H eq_refl A). unfold osu_range, osu_new. cbn. lia.
  - intros H. pose proof H as H0. unfold osu_range in H0. rewrite !andb_true_iff in H0.
    assert (V : (3 <= osu_version f <= 14)%Z) by lia. assert (O : osu_osb f = None) by (destruct (osu_osb f); [exfalso; cbn [absent] in H0; intuition discriminate|easy]).
    destruct (chunks_for dbg (osu_version f) (parts_of f) (parts_range dbg f H)) as (cs & C1 & C2).
    destruct (text_with (osu_version f) cs V C1) as (s & n & P). exists s. apply file_means_iff. apply fm_sections with (v := osu_version f) (n := n) (cs := cs); [easy|].
    rewrite <- (parts_put f O) at 3. apply sections_put; [apply parts_names|easy|easy].
Qed.
