(** Blanks in a line (C72): proofs. *)
From Coq Require Import String List NArith ZArith Bool Lia.
From Verif Require Import Str Num Nom Dec Parsers KeyValue General Editor Metadata Difficulty Colours TimingPoints HitObjects Storyboard NormalEvents Events Osb OsuFile
  Spec SpecWf SpecText SpecFile SpecTotal SpecKv SpecLine SpecEvLine SpecKvRead SpecColLine SpecParts SpecWalk SpecBlanks
  StrFacts NumFacts TotalFacts KvRead ColRead WalkFacts Parts.
Import ListNotations.
Local Open Scope N_scope.

(** ** keys and values *)
Section Kv.
  Context {A E : Type}.
  Variable table : list (string * (str -> res unit E)).
  Variables unknown dup colon : E.
  Variable build : (str -> option str) -> A.
  Hypothesis ext : forall g h, (forall k, g k = h k) -> build g = build h.
  Lemma value_of_same es es' k : map (fun e => (entry_key e, entry_value e)) es = map (fun e => (entry_key e, entry_value e)) es' ->
    value_of es k = value_of es' k.
  Proof.
    unfold value_of. revert es'. induction es as [|e es IH]; intros [|e' es'] H; try discriminate H; [reflexivity|].
    cbn [map] in H. apply (f_equal (fun l => (hd (@nil N, @nil N) l, tl l))) in H. cbn [hd tl] in H.
    apply pair_equal_spec in H as [H1 H2]. apply pair_equal_spec in H1 as [Hk Hv]. cbn [find]. rewrite Hk.
    destruct (str_eqb k (entry_key e')); [cbn; now rewrite Hv|]. now apply IH.
  Qed.
  Lemma first_bad_same es : forall es' i j before, map (fun e => (entry_key e, entry_value e)) es = map (fun e => (entry_key e, entry_value e)) es' ->
    first_bad table unknown dup i before es = ROk tt -> first_bad table unknown dup j before es' = ROk tt.
  Proof.
    induction es as [|e es IH]; intros [|e' es'] i j before H; try discriminate H; [easy|].
    cbn [map] in H. apply (f_equal (fun l => (hd (@nil N, @nil N) l, tl l))) in H. cbn [hd tl] in H.
    apply pair_equal_spec in H as [H1 H2]. apply pair_equal_spec in H1 as [Hk Hv]. cbn [first_bad]. rewrite Hk, Hv.
    destruct (if existsb _ before then _ else _); try easy. now apply IH.
  Qed.
  Lemma reads_same es es' t x : map (fun e => (entry_key e, entry_value e)) es = map (fun e => (entry_key e, entry_value e)) es' ->
    kv_reads table unknown dup colon build es t = ROk x -> kv_reads table unknown dup colon build es' t = ROk x.
  Proof.
    unfold kv_reads. intros H. destruct (is_blank t); [|easy].
    destruct (first_bad table unknown dup 0 [] es) as [[]| |] eqn:F; cbn; try easy. intros [= <-].
    rewrite (first_bad_same es es' 0%Z 0%Z [] H F). cbn. f_equal. apply ext. intros k. symmetry. now apply value_of_same.
  Qed.
  Lemma first_bad_equal es : forall es' i before, map (fun e => (entry_key e, entry_value e, rows (entry_gap e))) es = map (fun e => (entry_key e, entry_value e, rows (entry_gap e))) es' ->
    first_bad table unknown dup i before es = first_bad table unknown dup i before es'.
  Proof.
    induction es as [|e es IH]; intros [|e' es'] i before H; try discriminate H; [easy|].
    cbn [map] in H. apply (f_equal (fun l => (hd (@nil N, @nil N, 0%Z) l, tl l))) in H. cbn [hd tl] in H.
    apply pair_equal_spec in H as [H1 H2]. apply pair_equal_spec in H1 as [H1 Hr]. apply pair_equal_spec in H1 as [Hk Hv]. cbn [first_bad]. rewrite Hk, Hv.
    unfold rows in Hr. rewrite Hr. destruct (if existsb _ before then _ else _); try easy. now apply IH.
  Qed.
  Lemma reads_equal es es' t : map (fun e => (entry_key e, entry_value e, rows (entry_gap e))) es = map (fun e => (entry_key e, entry_value e, rows (entry_gap e))) es' ->
    kv_reads table unknown dup colon build es t = kv_reads table unknown dup colon build es' t.
  Proof.
    unfold kv_reads. intros H. destruct (is_blank t).
    - rewrite (first_bad_equal es es' 0%Z [] H). destruct (first_bad table unknown dup 0 [] es') as [[]| |]; cbn; try easy.
      f_equal. apply ext. intros k. apply value_of_same.
      apply (f_equal (map fst)) in H. rewrite !map_map in H. exact H.
    - do 2 f_equal. apply (f_equal (map snd)) in H. rewrite !map_map in H. unfold rows in H. cbn [snd] in H. now rewrite H.
  Qed.
End Kv.
Lemma of_key_ext {A E} g h k (rd : str -> res (option A) E) : (forall k, g k = h k) -> of_key g k rd = of_key h k rd.
Proof. intros H. unfold of_key. now rewrite H. Qed.
Lemma general_ext v g h : (forall k, g k = h k) -> general_of v g = general_of v h.
Proof. intros H. unfold general_of. cbv zeta. rewrite !(fun A E k rd => @of_key_ext A E g h k rd H). reflexivity. Qed.
Lemma editor_ext g h : (forall k, g k = h k) -> editor_of g = editor_of h.
Proof. intros H. unfold editor_of. cbv zeta. rewrite !(fun A E k rd => @of_key_ext A E g h k rd H). reflexivity. Qed.
Lemma metadata_ext g h : (forall k, g k = h k) -> metadata_of g = metadata_of h.
Proof. intros H. unfold metadata_of. cbv zeta. rewrite !(fun A E k rd => @of_key_ext A E g h k rd H). reflexivity. Qed.
Lemma difficulty_ext g h : (forall k, g k = h k) -> difficulty_of g = difficulty_of h.
Proof. intros H. unfold difficulty_of. cbv zeta. rewrite !(fun A E k rd => @of_key_ext A E g h k rd H). reflexivity. Qed.
Lemma ok_map {A E} (r : res A E) x : rmap Some r = ROk x -> exists y, r = ROk y /\ x = Some y.
Proof. destruct r; cbn; try easy. intros [= <-]. eauto. Qed.
Ltac respace Hkv eqn ext :=
  destruct Hkv as (es & es' & t & (-> & A1 & A2) & (-> & B1 & B2) & M); rewrite !eqn by easy;
  intros H; apply ok_map in H as (y & H & ->);
  eapply reads_same in H; [|exact ext|exact M]; unfold general_reads, editor_reads, metadata_reads, difficulty_reads in *; rewrite H; reflexivity.
Lemma keys_read s s' v : keys_respaced s s' ->
  (forall x, general_from_str s v = ROk x -> general_from_str s' v = ROk x)
  /\ (forall x, editor_from_str s v = ROk x -> editor_from_str s' v = ROk x)
  /\ (forall x, metadata_from_str s v = ROk x -> metadata_from_str s' v = ROk x)
  /\ (forall x, difficulty_from_str s v = ROk x -> difficulty_from_str s' v = ROk x).
Proof.
  intros K. split; [|split; [|split]]; intros x.
  - respace K general_reads_eq (general_ext v).
  - respace K editor_reads_eq editor_ext.
  - respace K metadata_reads_eq metadata_ext.
  - respace K difficulty_reads_eq difficulty_ext.
Qed.
Lemma keys_equal s s' v : keys_respaced_in_line s s' ->
  general_from_str s v = general_from_str s' v /\ editor_from_str s v = editor_from_str s' v
  /\ metadata_from_str s v = metadata_from_str s' v /\ difficulty_from_str s v = difficulty_from_str s' v.
Proof.
  intros (es & es' & t & (-> & A1 & A2) & (-> & B1 & B2) & M).
  rewrite !general_reads_eq, !editor_reads_eq, !metadata_reads_eq, !difficulty_reads_eq by easy.
  unfold general_reads, editor_reads, metadata_reads, difficulty_reads.
  rewrite (reads_equal _ _ _ _ _ (general_ext v) es es' t M), (reads_equal _ _ _ _ _ editor_ext es es' t M),
    (reads_equal _ _ _ _ _ metadata_ext es es' t M), (reads_equal _ _ _ _ _ difficulty_ext es es' t M). easy.
Qed.
(** a key with a blank is unknown *)
Section Bad.
  Context {A E : Type}.
  Variable table : list (string * (str -> res unit E)).
  Variables unknown dup colon : E.
  Variable build : (str -> option str) -> A.
  Hypothesis none : forallb (fun p => forallb (fun c => negb (blank_char c)) (lit (fst p))) table = true.
  Lemma blank_unknown k x : with_blank k -> reader_of unknown table k x = RErr unknown.
  Proof.
    intros (c & Hc & Hb). clear -none Hc Hb. induction table as [|[n rd] l IH]; [reflexivity|]. cbn [reader_of forallb fst] in *.
    apply andb_true_iff in none as [H1 H2]. destruct (str_eqb k (lit n)) eqn:K; [|now apply IH].
    apply str_eqb_eq in K. subst k. rewrite forallb_forall in H1. apply H1 in Hc. now rewrite Hb in Hc.
  Qed.
  Lemma blank_bad es : forall i before, (exists e, In e es /\ with_blank (entry_key e)) -> first_bad table unknown dup i before es <> ROk tt.
  Proof.
    induction es as [|e es IH]; intros i before (e0 & He & Hb); [easy|]. cbn [first_bad].
    destruct He as [->|He].
    - destruct (existsb _ before); [easy|]. rewrite blank_unknown by easy. easy.
    - destruct (if existsb _ before then _ else _); try easy. apply IH. now exists e0.
  Qed.
  Lemma blank_no es t x : (exists e, In e es /\ with_blank (entry_key e)) -> kv_reads table unknown dup colon build es t <> ROk x.
  Proof.
    intros H. unfold kv_reads. destruct (is_blank t); [|easy]. pose proof (blank_bad es 0%Z [] H) as K.
    destruct (first_bad table unknown dup 0 [] es) as [[]| |]; easy.
  Qed.
End Bad.
Lemma key_blank es t s v : of_entries es t s -> (exists e, In e es /\ with_blank (entry_key e)) ->
  (forall x, general_from_str s v <> ROk x) /\ (forall x, editor_from_str s v <> ROk x)
  /\ (forall x, metadata_from_str s v <> ROk x) /\ (forall x, difficulty_from_str s v <> ROk x).
Proof.
  intros (-> & H1 & H2) He. rewrite general_reads_eq, editor_reads_eq, metadata_reads_eq, difficulty_reads_eq by easy.
  split; [|split; [|split]]; intros x H; apply ok_map in H as (y & H & ->); revert H; apply blank_no; try assumption; reflexivity.
Qed.
(** a number with a blank is none *)
Lemma int_no_blank signed s z : int_text signed s z -> ~ with_blank s.
Proof.
  intros H (c & Hc & Hb).
  assert (D : forall ds, Forall digit ds -> In c ds -> False).
  { intros ds Hd Hi. rewrite Forall_forall in Hd. apply Hd in Hi. unfold digit in Hi. unfold blank_char in Hb.
    apply orb_true_iff in Hb as [Hb|Hb]; apply N.eqb_eq in Hb; lia. }
  inversion H as [ds Hn Hd|ds Hn Hd|ds Hs Hn Hd]; subst.
  - now apply (D s).
  - destruct Hc as [<-|Hc]; [discriminate Hb|now apply (D ds)].
  - destruct Hc as [<-|Hc]; [discriminate Hb|now apply (D ds)].
Qed.
Lemma number_blank s : with_blank s -> (forall z, parse_i32 s <> ROk z) /\ (forall z, parse_u8 s <> ROk z) /\ (forall z, parse_u32 s <> ROk z) /\ (forall z, parse_usize s <> ROk z).
Proof.
  intros H. repeat split; intros z K; [apply i32_accepts in K|apply u8_accepts in K|apply u32_accepts in K|apply usize_accepts in K]; destruct K as [K _]; now apply int_no_blank in K.
Qed.

(** ** colours *)
Lemma without_app a b : without_blanks (a ++ b) = without_blanks a ++ without_blanks b.
Proof. apply filter_app. Qed.
Lemma without_spaces s : spaces s = true -> without_blanks s = [].
Proof.
  unfold spaces, without_blanks. induction s as [|c s IH]; [easy|]. cbn [forallb filter]. intros H. apply andb_true_iff in H as [H1 H2].
  unfold blank_char at 1. rewrite H1. now apply IH.
Qed.
Lemma without_none s : ~ with_blank s -> without_blanks s = s.
Proof.
  unfold without_blanks. induction s as [|c s IH]; [easy|]. intros H. cbn [filter]. destruct (blank_char c) eqn:B.
  - elim H. exists c. split; [now left|easy].
  - cbn [negb]. f_equal. apply IH. intros (d & Hd & Hb). apply H. exists d. split; [now right|easy].
Qed.
Lemma without_digits ds : Forall digit ds -> without_blanks ds = ds.
Proof.
  intros H. apply without_none. destruct ds as [|d ds]; [intros (c & [] & _)|].
  apply (int_no_blank false _ (Z.of_N (value (d :: ds)))). now apply int_plain.
Qed.
Lemma without_rgb t x : rgb_text t x -> rgb_text (without_blanks t) x.
Proof.
  intros H. destruct H as [s0 r s1 s2 g s3 s4 b vr vg vb Hs Hr Hg Hb Hv]. cbn [forallb] in Hs. rewrite !andb_true_iff in Hs.
  destruct Hs as (H0 & H1 & H2 & H3 & H4 & _).
  rewrite !without_app, !(without_spaces _ H0), !(without_spaces _ H1), !(without_spaces _ H2), !(without_spaces _ H3), !(without_spaces _ H4).
  rewrite (without_none b) by now apply (int_no_blank _ _ _ Hb).
  assert (Er : without_blanks r = r) by (destruct Hr; now apply without_digits).
  assert (Eg : without_blanks g = g) by (destruct Hg; now apply without_digits). rewrite Er, Eg.
  apply (rgb_parts [] r [] [] g [] [] b); easy.
Qed.
Lemma without_colour s c : colour_text s c -> colour_text (without_blanks s) c.
Proof.
  intros H. destruct H as [ds s1 s2 t x Hn Hd Hv H1 H2 Ht|s1 s2 t x H1 H2 Ht|b s1 s2 t x Hb H1 H2 Ht];
    rewrite !without_app, (without_spaces _ H1), (without_spaces _ H2).
  - rewrite (without_digits ds Hd). now apply (text_combo ds [] []); try apply without_rgb.
  - now apply (text_track [] []); try apply without_rgb.
  - replace (without_blanks b) with b by (destruct Hb as [->| ->]; reflexivity). now apply (text_border b [] []); try apply without_rgb.
Qed.
Lemma blank_ws c : blank_char c = true -> is_ws c = true.
Proof. unfold blank_char. intros H. apply orb_true_iff in H as [H|H]; apply N.eqb_eq in H as ->; reflexivity. Qed.
Lemma without_start s : trim_start (without_blanks s) = without_blanks (trim_start s).
Proof.
  unfold without_blanks. induction s as [|c s IH]; [easy|]. cbn [filter trim_start]. destruct (blank_char c) eqn:B.
  - rewrite (blank_ws c B). exact IH.
  - cbn [negb trim_start]. destruct (is_ws c) eqn:W; [exact IH|]. cbn [filter]. now rewrite B.
Qed.
Lemma without_nil s : without_blanks s = [] -> forallb is_ws s = true.
Proof.
  unfold without_blanks. induction s as [|c s IH]; [easy|]. cbn [filter forallb]. destruct (blank_char c) eqn:B; [|easy].
  intros H. rewrite (blank_ws c B). now apply IH.
Qed.
Lemma without_end s : trim_end (without_blanks s) = without_blanks (trim_end s).
Proof.
  induction s as [|c s IH]; [easy|]. cbn [trim_end]. unfold without_blanks at 1. cbn [filter]. fold (without_blanks s). destruct (blank_char c) eqn:B.
  - cbn [negb]. rewrite IH. destruct (trim_end s) as [|d t]; [now rewrite (blank_ws c B)|]. unfold without_blanks at 2. cbn [filter]. now rewrite B.
  - cbn [negb trim_end]. rewrite IH. destruct (trim_end s) as [|d t] eqn:T.
    + cbn. destruct (is_ws c); [reflexivity|]. cbn. now rewrite B.
    + destruct (without_blanks (d :: t)) as [|e u] eqn:W.
      * apply without_nil in W. destruct (trim_end_incl s) as (b & Hs & Hb). rewrite T in Hs.
        assert (K : trim_end s = []) by (apply trim_end_nil; rewrite Hs, forallb_app, W, Hb; reflexivity). congruence.
      * rewrite <- W. unfold without_blanks at 2. cbn [filter]. rewrite B. reflexivity.
Qed.
Lemma without_trim s : trim (without_blanks s) = without_blanks (trim s).
Proof. unfold trim. now rewrite without_start, without_end. Qed.
Lemma without_blank s : is_blank (without_blanks s) = is_blank s.
Proof.
  rewrite !is_blank_forallb. unfold without_blanks. induction s as [|c s IH]; [easy|]. cbn [filter forallb]. destruct (blank_char c) eqn:B.
  - rewrite (blank_ws c B). exact IH.
  - cbn [negb forallb]. now rewrite IH.
Qed.
Lemma line_without l c : col_line l = ROk c -> col_line (without_blanks l) = ROk c.
Proof. rewrite !col_accepts, without_trim. apply without_colour. Qed.
Lemma colour_without v l c : colour_from_str v l = ROk (Some c) -> colour_from_str v (without_blanks l) = ROk (Some c).
Proof. rewrite !colour_accepts, without_trim. apply without_colour. Qed.
Lemma colours_without s s' v x : lines s' = map without_blanks (lines s) -> colours_from_str s v = ROk x -> colours_from_str s' v = ROk x.
Proof.
  intros L H. destruct (old_version v) eqn:O; [unfold colours_from_str in *; now rewrite O in *|].
  destruct x as [l|]; [|unfold colours_from_str in H; rewrite O in H; now destruct (parse_lines _ _ _)].
  rewrite colours_items in * by exact O. unfold full_lines in *. rewrite L. clear L. revert l H.
  induction (lines s) as [|a ls IH]; intros l H; [exact H|]. cbn [map filter] in *. rewrite without_blank.
  destruct (is_blank a); cbn [negb] in *; [now apply IH|]. inversion H as [|? c ? m H1 H2]; subst.
  constructor; [now apply line_without|now apply IH].
Qed.

(** ** files *)
Lemma seen_same x y before : ch_name x = ch_name y -> seen x before = seen y before.
Proof. unfold seen. now intros ->. Qed.
Lemma nonempty_entries es : is_empty (kv_text es) = true -> es = [].
Proof. destruct es as [|e es]; [easy|]. unfold kv_text. cbn [map concat]. unfold entry_text. now destruct (entry_key e). Qed.
Lemma same_empty x y : respaced x y -> is_empty (ch_body x) = is_empty (ch_body y).
Proof.
  intros [_ [->|[[_ (es & es' & t & (-> & _) & (-> & _) & M)]|[_ L]]]]; [easy| |].
  - destruct es as [|e es], es' as [|e' es']; try discriminate M; [easy|].
    unfold kv_text. cbn [map concat]. unfold entry_text. now destruct (entry_key e), (entry_key e').
  - assert (K : forall s, is_empty s = is_empty (lines s)).
    { intros [|c s]; [easy|]. pose proof (lines_count_nonempty (c :: s) ltac:(easy)) as Q. unfold lines_count in Q. now destruct (lines (c :: s)). }
    rewrite (K (ch_body x)), (K (ch_body y)), L. now destruct (lines (ch_body x)).
Qed.
Definition keeps {A E} (k : string) (rd : str -> res A E) : Prop := forall x y a, respaced x y -> ch_name x = lit k -> rd (ch_body x) = ROk a -> rd (ch_body y) = ROk a.
Lemma keeps_all dbg v : keeps "General" (fun t => general_from_str t v) /\ keeps "Editor" (fun t => editor_from_str t v)
  /\ keeps "Metadata" (fun t => metadata_from_str t v) /\ keeps "Difficulty" (fun t => difficulty_from_str t v)
  /\ keeps "Events" (fun t => events_from_str dbg t v) /\ keeps "TimingPoints" (fun t => timing_points_from_str t v)
  /\ keeps "Colours" (fun t => colours_from_str t v) /\ keeps "HitObjects" (fun t => hit_objects_from_str t v).
Proof.
  repeat match goal with |- _ /\ _ => split end; intros x y a [N [B|[[(k & Hk & Nk) K]|[C L]]]] Nx H; try (now rewrite <- B);
    try (now apply (keys_read _ _ v K)); try (rewrite Nx in C; discriminate C);
    try (exfalso; rewrite Nx in Nk; unfold key_sections in Hk; cbn [In] in Hk; repeat (destruct Hk as [<-|Hk]; [discriminate Nk|]); destruct Hk).
  now apply (colours_without _ _ v a L).
Qed.
Definition row_keeps {E} (p : string * (str -> res unit (line_err E))) : Prop :=
  forall x y, respaced x y -> ch_name x = lit (fst p) -> snd p (ch_body x) = ROk tt -> snd p (ch_body y) = ROk tt.
Lemma can_keeps {A E F} k (f : E -> F) (rd : str -> res A (line_err E)) : keeps k rd -> row_keeps (k, can_be f rd).
Proof.
  intros K x y R N. cbn [fst snd] in *. unfold can_be. destruct (rd (ch_body x)) as [a|e|p] eqn:H; try easy. now rewrite (K x y a R N H).
Qed.
Lemma table_keeps dbg v : Forall row_keeps (osu_table dbg v).
Proof.
  pose proof (keeps_all dbg v) as (K1 & K2 & K3 & K4 & K5 & K6 & K7 & K8).
  unfold osu_table. repeat (apply Forall_cons; [now apply can_keeps|]). apply Forall_nil.
Qed.
Lemma first_same dbg v cs : forall cs' n n' before, Forall2 respaced cs cs' ->
  first_bad_section (osu_table dbg v) OsuDuplicateSections OsuUnknownSection dbg n before cs = ROk tt ->
  first_bad_section (osu_table dbg v) OsuDuplicateSections OsuUnknownSection dbg n' before cs' = ROk tt.
Proof.
  pose proof (table_keeps dbg v) as T.
  induction cs as [|x cs IH]; intros cs' n n' before F; inversion F as [|? y ? cs2 R F']; subst; [easy|]. cbn [first_bad_section].
  pose proof (proj1 R) as N. rewrite (seen_same x y before N). destruct (seen y before); [easy|].
  unfold named. rewrite <- N. destruct (find (fun r => str_eqb (ch_name x) (lit (fst r))) (osu_table dbg v)) as [p|] eqn:P; [|easy].
  apply find_some in P as [Pin Pn]. apply str_eqb_eq in Pn. cbn [option_map].
  rewrite Forall_forall in T. specialize (T p Pin x y R Pn).
  destruct (snd p (ch_body x)) as [[]|e|q]; try easy. rewrite (T eq_refl), (same_empty x y R).
  destruct (dbg && is_empty (ch_body y)); [easy|]. now apply IH.
Qed.
Lemma first_all {E} (table : list (string * (str -> res unit (line_err E)))) dup unknown checks cs : forall n before x p,
  first_bad_section table dup unknown checks n before cs = ROk tt -> In x cs ->
  find (fun r => str_eqb (ch_name x) (lit (fst r))) table = Some p -> snd p (ch_body x) = ROk tt.
Proof.
  induction cs as [|y cs IH]; intros n before x p H Hx Hp; [easy|]. cbn [first_bad_section] in H.
  destruct (seen y before); [easy|]. destruct (named table y) as [rd|] eqn:N; [|easy]. destruct (rd (ch_body y)) as [[]|e|q] eqn:R; try easy.
  destruct (checks && _); [easy|]. destruct Hx as [->|Hx]; [|now apply (IH _ _ x p H)].
  unfold named in N. rewrite Hp in N. injection N as <-. exact R.
Qed.
Lemma section_same {A E} k (rd : str -> res (option A) (line_err E)) cs cs' : keeps k rd -> Forall2 respaced cs cs' ->
  (forall x, In x cs -> ch_name x = lit k -> exists a, rd (ch_body x) = ROk a) -> section_of cs' k rd = section_of cs k rd.
Proof.
  intros K F G. unfold section_of. induction F as [|x y cs cs' R F IH]; [easy|]. cbn [find]. rewrite <- (proj1 R).
  destruct (str_eqb (ch_name x) (lit k)) eqn:N.
  - apply str_eqb_eq in N. destruct (G x (or_introl eq_refl) N) as [a Ha]. now rewrite Ha, (K x y a R N Ha).
  - apply IH. intros z Hz. apply G. now right.
Qed.
Lemma readable dbg v n cs : first_bad_section (osu_table dbg v) OsuDuplicateSections OsuUnknownSection dbg n [] cs = ROk tt -> forall x, In x cs ->
  (ch_name x = lit "General" -> exists a, general_from_str (ch_body x) v = ROk a) /\ (ch_name x = lit "Editor" -> exists a, editor_from_str (ch_body x) v = ROk a)
  /\ (ch_name x = lit "Metadata" -> exists a, metadata_from_str (ch_body x) v = ROk a) /\ (ch_name x = lit "Difficulty" -> exists a, difficulty_from_str (ch_body x) v = ROk a)
  /\ (ch_name x = lit "Events" -> exists a, events_from_str dbg (ch_body x) v = ROk a) /\ (ch_name x = lit "TimingPoints" -> exists a, timing_points_from_str (ch_body x) v = ROk a)
  /\ (ch_name x = lit "Colours" -> exists a, colours_from_str (ch_body x) v = ROk a) /\ (ch_name x = lit "HitObjects" -> exists a, hit_objects_from_str (ch_body x) v = ROk a).
Proof.
  intros H x Hx. pose proof (fun p => first_all _ _ _ _ _ _ _ x p H Hx) as R.
  repeat match goal with |- _ /\ _ => split end; intros N; rewrite N in R; specialize (R _ eq_refl); cbn [snd] in R; unfold can_be in R;
    match type of R with match ?r with _ => _ end = _ => destruct r as [a|e|q]; [now exists a|discriminate R|discriminate R] end.
Qed.
Lemma reads_respaced dbg v n n' cs cs' f : Forall2 respaced cs cs' -> osu_reads dbg v n cs = ROk f -> osu_reads dbg v n' cs' = ROk f.
Proof.
  intros F. unfold osu_reads.
  destruct (first_bad_section (osu_table dbg v) OsuDuplicateSections OsuUnknownSection dbg n [] cs) as [[]|e|p] eqn:B; cbn [rmap rbind]; [|discriminate|discriminate].
  rewrite (first_same dbg v cs cs' n n' [] F B). cbn [rmap rbind]. intros [= <-]. f_equal.
  pose proof (keeps_all dbg v) as (K1 & K2 & K3 & K4 & K5 & K6 & K7 & K8). pose proof (readable dbg v n cs B) as G.
  unfold osu_of.
  rewrite (section_same _ _ cs cs' K1 F (fun x Hx => proj1 (G x Hx))).
  rewrite (section_same _ _ cs cs' K2 F (fun x Hx => proj1 (proj2 (G x Hx)))).
  rewrite (section_same _ _ cs cs' K3 F (fun x Hx => proj1 (proj2 (proj2 (G x Hx))))).
  rewrite (section_same _ _ cs cs' K4 F (fun x Hx => proj1 (proj2 (proj2 (proj2 (G x Hx)))))).
  rewrite (section_same _ _ cs cs' K5 F (fun x Hx => proj1 (proj2 (proj2 (proj2 (proj2 (G x Hx))))))).
  rewrite (section_same _ _ cs cs' K6 F (fun x Hx => proj1 (proj2 (proj2 (proj2 (proj2 (proj2 (G x Hx)))))))).
  rewrite (section_same _ _ cs cs' K7 F (fun x Hx => proj1 (proj2 (proj2 (proj2 (proj2 (proj2 (proj2 (G x Hx))))))))).
  rewrite (section_same _ _ cs cs' K8 F (fun x Hx => proj2 (proj2 (proj2 (proj2 (proj2 (proj2 (proj2 (G x Hx))))))))).
  reflexivity.
Qed.
Lemma file_respaced dbg s s' v n n' cs cs' f : osu_parts s v n cs -> osu_parts s' v n' cs' -> Forall2 respaced cs cs' ->
  osu_from_str dbg s = ROk f -> osu_from_str dbg s' = ROk f.
Proof. intros P P' F. rewrite (osu_parts_read dbg s v n cs P), (osu_parts_read dbg s' v n' cs' P'). now apply reads_respaced. Qed.
