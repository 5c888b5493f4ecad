(** Comment lines (C73): proofs. *)
From Coq Require Import String List NArith ZArith Bool Lia.
From Verif Require Import Str Num Nom Dec Parsers KeyValue General Editor Metadata Difficulty Colours TimingPoints HitObjects Storyboard NormalEvents Events Osb OsuFile
  Spec SpecWf SpecText SpecFile SpecTotal SpecKv SpecLine SpecEvents SpecEvLine SpecEvSection SpecKvRead SpecColLine SpecParts SpecWalk SpecEdit SpecBlanks SpecComments
  StrFacts KvStatements Blanks NumFacts LineRead HoRead TotalFacts KvRead ColRead EvRead EvSection EvPanic WalkFacts Parts Edit.
Import ListNotations.
Local Open Scope N_scope.

Lemma out_blank c : is_blank (out c) = false.
Proof. rewrite is_blank_forallb. reflexivity. Qed.
Lemma out_raw t : decimal_of_str (out t) = DRaw (out t).
Proof. reflexivity. Qed.
Lemma pieces_first l : exists fs, pieces 44 l = first_field l :: fs.
Proof.
  unfold first_field. induction l as [|c l [fs IH]]; [now exists []|]. cbn [pieces span]. rewrite IH.
  destruct (c =? 44); cbn [negb]; [now eexists|]. destruct (span _ l) as [a b]. cbn [fst]. now eexists.
Qed.
Lemma pieces_out l f fs : pieces 44 l = f :: fs -> pieces 44 (out l) = out f :: fs.
Proof. intros H. change (out l) with (47 :: 47 :: l). cbn [pieces]. rewrite H. reflexivity. Qed.
Lemma raw_shift v s : shift_in v (DRaw s) = ROk (DRaw s).
Proof. unfold shift_in. now destruct (old_version v). Qed.

Lemma tp_out v l x : tp_line v (pieces 44 l) = ROk x -> tp_line v (pieces 44 (out l)) = ROk (with_time (DRaw (out (first_field l))) x).
Proof.
  destruct (pieces_first l) as [fs H]. rewrite H, (pieces_out l _ _ H). unfold tp_line. cbn [next]. unfold rd_dec. cbv beta iota. rewrite out_raw, raw_shift.
  destruct (shift_in v (decimal_of_str (first_field l))) as [t|[]|]; cbn [andthen]; try discriminate. unfold last_field, next.
  repeat match goal with
  | |- ROk _ = ROk _ -> _ => intros [= <-]; reflexivity
  | |- RErr _ = _ -> _ => discriminate
  | |- RPanic _ = _ -> _ => discriminate
  | |- match ?a with _ => _ end = _ -> _ => destruct a
  | |- (if ?a then _ else _) = _ -> _ => destruct a
  end.
Qed.
Lemma ho_out v l o : ho_line v (pieces 44 l) = ROk o -> ho_line v (pieces 44 (out l)) = ROk (with_x (DRaw (out (first_field l))) o).
Proof.
  destruct (pieces_first l) as [fs H]. rewrite H, (pieces_out l _ _ H). unfold ho_line. cbn [next]. unfold rd_dec. cbv beta iota. rewrite out_raw.
  generalize (decimal_of_str (first_field l)) as x. generalize (DRaw (out (first_field l))) as y. clear H. intros y x.
  unfold slider_line, edges_line, sample_end, last_field, next, andthen. cbv zeta.
  repeat match goal with
  | |- ROk _ = ROk _ -> _ => intros [= <-]; reflexivity
  | |- RErr _ = _ -> _ => discriminate
  | |- RPanic _ = _ -> _ => discriminate
  | |- match ?a with _ => _ end = _ -> _ => destruct a
  | |- (if ?a then _ else _) = _ -> _ => destruct a
  end.
Qed.

(** a line in the middle of a list *)
Lemma list_out {X} (P : str -> X -> Prop) (f : str -> X -> X) s s' a l b xs :
  (forall l x, P l x -> P (out l) (f l x)) -> lines s = a ++ l :: b -> lines s' = a ++ out l :: b -> is_blank l = false ->
  Forall2 P (full_lines s) xs ->
  exists p x q, xs = p ++ x :: q /\ length p = length (filter (fun l => negb (is_blank l)) a) /\ Forall2 P (full_lines s') (p ++ f l x :: q).
Proof.
  intros H L L' B F. unfold full_lines in *. rewrite L, filter_app in F. cbn [filter] in F. rewrite B in F. cbn [negb] in F.
  apply Forall2_app_inv_l in F as (p & r & F1 & F2 & ->). inversion F2 as [|? x ? q Px F3]; subst.
  exists p, x, q. split; [reflexivity|]. split; [clear -F1; induction F1; [reflexivity|cbn [length]; now f_equal]|].
  rewrite L', filter_app. cbn [filter]. rewrite out_blank. cbn [negb]. apply Forall2_app; [exact F1|]. constructor; [now apply H|exact F3].
Qed.
Lemma points_out s s' v a l b xs : lines s = a ++ l :: b -> lines s' = a ++ out l :: b -> is_blank l = false -> timing_points_from_str s v = ROk (Some xs) ->
  exists p x q, xs = p ++ x :: q /\ length p = length (filter (fun l => negb (is_blank l)) a)
  /\ timing_points_from_str s' v = ROk (Some (p ++ with_time (DRaw (out (first_field l))) x :: q)).
Proof.
  intros L L' B H. apply timing_points_items in H.
  destruct (list_out _ (fun l => with_time (DRaw (out (first_field l)))) s s' a l b xs (tp_out v) L L' B H) as (p & x & q & E & Len & F).
  exists p, x, q. split; [exact E|]. split; [exact Len|]. now apply timing_points_items.
Qed.
Lemma objects_out s s' v a l b xs : lines s = a ++ l :: b -> lines s' = a ++ out l :: b -> is_blank l = false -> hit_objects_from_str s v = ROk (Some xs) ->
  exists p x q, xs = p ++ x :: q /\ length p = length (filter (fun l => negb (is_blank l)) a)
  /\ hit_objects_from_str s' v = ROk (Some (p ++ with_x (DRaw (out (first_field l))) x :: q)).
Proof.
  intros L L' B H. apply hit_objects_items in H.
  destruct (list_out _ (fun l => with_x (DRaw (out (first_field l)))) s s' a l b xs (ho_out v) L L' B H) as (p & x & q & E & Len & F).
  exists p, x, q. split; [exact E|]. split; [exact Len|]. now apply hit_objects_items.
Qed.

(** colours and variables *)
Lemma colour_out l c : trim l = out c -> col_line l = RErr ColUnknownType.
Proof. intros H. unfold col_line. now rewrite H. Qed.
Lemma colours_out s v l c : old_version v = false -> In l (lines s) -> trim l = out c -> forall x, colours_from_str s v <> ROk x.
Proof.
  intros O Hl Hc x H. destruct x as [x|].
  - apply colours_items in H; [|exact O]. assert (Hf : In l (full_lines s)).
    { apply filter_In. split; [exact Hl|]. unfold is_blank. rewrite Hc. reflexivity. }
    clear -H Hf Hc. induction H as [|a b ls xs Hab F IH]; [easy|]. destruct Hf as [->|Hf]; [|now apply IH]. rewrite (colour_out l c Hc) in Hab. discriminate.
  - unfold colours_from_str in H. rewrite O in H. destruct (parse_lines _ _ _); discriminate.
Qed.
Lemma variables_out s c : In (out c) (lines s) -> forall x, variables_from_str s <> ROk x.
Proof.
  unfold variables_from_str. generalize 0%Z. induction (lines s) as [|l ls IH]; intros i H x; [easy|]. cbn [parse_lines].
  destruct H as [->|H].
  - rewrite out_blank. cbn [rbind v_unwrap]. discriminate.
  - destruct (is_blank l); [now apply IH|]. destruct (v_unwrap (var_from_str l)); cbn [rbind]; try discriminate.
    specialize (IH (i + 1)%Z H). destruct (parse_lines _ (i + 1)%Z ls) as [y|e|q]; try discriminate. now destruct (IH y).
Qed.

(** keys and values *)
Section Unknown.
  Context {A E : Type}.
  Variable table : list (string * (str -> res unit E)).
  Variables unknown dup colon : E.
  Variable build : (str -> option str) -> A.
  Hypothesis none : forallb (fun p => forallb (fun c => negb (c =? 47)) (lit (fst p))) table = true.
  Lemma slash_unknown k x : In 47 k -> reader_of unknown table k x = RErr unknown.
  Proof.
    intros Hc. clear -none Hc. induction table as [|[n rd] l IH]; [reflexivity|]. cbn [reader_of forallb fst] in *.
    apply andb_true_iff in none as [H1 H2]. destruct (str_eqb k (lit n)) eqn:K; [|now apply IH].
    apply str_eqb_eq in K. subst k. rewrite forallb_forall in H1. now apply H1 in Hc.
  Qed.
  Lemma slash_bad es : forall i before, (exists e, In e es /\ In 47 (entry_key e)) -> first_bad table unknown dup i before es <> ROk tt.
  Proof.
    induction es as [|e es IH]; intros i before (e0 & He & Hb); [easy|]. cbn [first_bad].
    destruct He as [->|He].
    - destruct (existsb _ before); [easy|]. rewrite slash_unknown by easy. easy.
    - destruct (if existsb _ before then _ else _); try easy. apply IH. now exists e0.
  Qed.
  Lemma slash_no es t x : is_blank t = true -> (exists e, In e es /\ In 47 (entry_key e)) -> kv_reads table unknown dup colon build es t <> ROk x.
  Proof.
    intros B H. unfold kv_reads. rewrite B. pose proof (slash_bad es 0%Z [] H) as K.
    destruct (first_bad table unknown dup 0 [] es) as [[]| |]; easy.
  Qed.
  Lemma rest_no es t x : is_blank t = false -> kv_reads table unknown dup colon build es t <> ROk x.
  Proof. intros B. unfold kv_reads. now rewrite B. Qed.
End Unknown.
Lemma gap_then g w q r : forallb (fun c => blank_char c || break_char c) g = true -> forallb blank_char w = true ->
  g ++ r = w ++ lit "//" ++ q -> exists w', forallb blank_char w' = true /\ r = w' ++ lit "//" ++ q.
Proof.
  revert w. induction g as [|c g IH]; intros w G W H; [now exists w|]. cbn [forallb] in G. apply andb_true_iff in G as [Gc G].
  destruct w as [|d w]; cbn [app] in H.
  - injection H as -> _. discriminate.
  - injection H as -> H. cbn [forallb] in W. apply andb_true_iff in W as [_ W]. now apply (IH w).
Qed.
Lemma key_then k w q r : forallb blank_char w = true -> k ++ 58 :: r = w ++ lit "//" ++ q -> In 47 k.
Proof.
  revert w. induction k as [|c k IH]; intros w W H.
  - destruct w as [|d w]; cbn [app] in H; [discriminate|]. injection H as <- _. discriminate.
  - destruct w as [|d w]; cbn [app] in H; [injection H as -> _; now left|]. injection H as _ H. right. apply (IH w); [|exact H].
    cbn [forallb] in W. now apply andb_true_iff in W.
Qed.
(** a line break is in a gap *)
Lemma break_in a r p x : ~ In 10 a -> a ++ r = p ++ 10 :: x -> exists p', p = a ++ p' /\ r = p' ++ 10 :: x.
Proof.
  revert p. induction a as [|c a IH]; intros p N H; [now exists p|]. destruct p as [|d p]; cbn [app] in H.
  - injection H as -> _. destruct N. now left.
  - injection H as <- H. destruct (IH p) as (p' & -> & E); [intros K; apply N; now right|exact H|]. now exists p'.
Qed.
Lemma gap_break g r p x : forallb (fun c => blank_char c || break_char c) g = true -> g ++ r = p ++ 10 :: x ->
  (exists g', forallb (fun c => blank_char c || break_char c) g' = true /\ g' ++ r = x) \/ exists p', r = p' ++ 10 :: x.
Proof.
  revert p. induction g as [|c g IH]; intros p G H; [right; now exists p|]. cbn [forallb] in G. apply andb_true_iff in G as [_ G].
  destruct p as [|d p]; cbn [app] in H; injection H as -> H; [left; now exists g|]. now apply (IH p).
Qed.
Lemma comment_entry es t : forall s, s = kv_text es ++ t -> entries_ok es = true -> is_blank t = true -> has_comment s ->
  exists e, In e es /\ In 47 (entry_key e).
Proof.
  induction es as [|e es IH]; intros s E O B (p & w & q & H & P & W).
  - cbn [kv_text map concat app] in E. subst s. exfalso. rewrite is_blank_forallb, forallb_forall in B. assert (K : In 47 t).
    { rewrite H. rewrite !in_app_iff. right; right; left. now left. }
    apply B in K. discriminate.
  - unfold kv_text in E. cbn [map concat] in E. change (concat (map entry_text es)) with (kv_text es) in E.
    cbn [entries_ok] in O. rewrite !andb_true_iff in O. destruct O as [[O1 O2] O3].
    unfold entry_ok in O1. rewrite !andb_true_iff in O1. destruct O1 as [[K R] G].
    unfold gap_ok in G. apply andb_true_iff in G as [G _].
    assert (rec : has_comment (kv_text es ++ t) -> exists e0, In e0 (e :: es) /\ In 47 (entry_key e0)).
    { intros C. destruct (IH _ eq_refl O2 B C) as (e0 & I1 & I2). exists e0. split; [now right|exact I2]. }
    unfold entry_text in E. rewrite H in E. destruct P as [->|[p' ->]].
    + exists e. split; [now left|]. cbn [app] in E. rewrite <- !app_assoc in E. cbn [app] in E. symmetry in E. apply key_then in E; [exact E|exact W].
    + rewrite <- !app_assoc in E. cbn [app] in E. rewrite <- !app_assoc in E. symmetry in E.
      change (entry_key e ++ 58 :: entry_rest e ++ entry_gap e ++ kv_text es ++ t) with (entry_key e ++ (58 :: entry_rest e) ++ entry_gap e ++ kv_text es ++ t) in E.
      rewrite app_assoc in E. apply break_in in E as (p1 & -> & E).
      2:{ rewrite in_app_iff. unfold key_ok, rest_ok in *. rewrite forallb_forall in K, R. intros [I|[I|I]]; [apply K in I|discriminate I|apply R in I]; discriminate I. }
      apply gap_break in E as [(g & Hg & E)|(p2 & E)]; [| |exact G].
      * apply gap_then in E as (w' & W' & E); [|exact Hg|exact W]. apply rec. exists [], w', q. split; [exact E|]. split; [now left|exact W'].
      * apply rec. exists (p2 ++ [10]), w, q. split; [rewrite <- app_assoc; exact E|]. split; [right; now exists p2|exact W].
Qed.
Lemma keys_out s v : has_comment s -> (forall x, general_from_str s v <> ROk x) /\ (forall x, editor_from_str s v <> ROk x)
  /\ (forall x, metadata_from_str s v <> ROk x) /\ (forall x, difficulty_from_str s v <> ROk x).
Proof.
  intros C. destruct (every_text_has_entries s) as (es & t & E & O & R).
  rewrite E, general_reads_eq, editor_reads_eq, metadata_reads_eq, difficulty_reads_eq by assumption.
  destruct (is_blank t) eqn:B.
  - pose proof (comment_entry es t s E O B C) as K.
    split; [|split; [|split]]; intros x H; apply ok_map in H as (y & H & ->); revert H; (apply slash_no; [reflexivity|exact B|exact K]).
  - split; [|split; [|split]]; intros x H; apply ok_map in H as (y & H & ->); revert H; apply rest_no; exact B.
Qed.

(** events *)
Lemma out_opens m c ls : lines m = out c :: ls -> opens m.
Proof.
  intros L a l b H A B. rewrite L in H. destruct a as [|x a]; cbn [app] in H.
  - now injection H as <- _.
  - injection H as <- _. cbn [forallb] in A. now rewrite out_blank in A.
Qed.
Lemma comment_alone dbg vs v m c : lines m = [out c] -> events_from_str_vars dbg vs m v = ROk (Some [EComment c]).
Proof.
  intros L. apply (events_section_vars dbg vs m v (ROk [EComment c])). rewrite L. apply sec_line with [EComment c]; [apply out_blank|apply (next_comment dbg v vs [] c)|constructor].
Qed.
Lemma comment_between dbg vs v s s' a b c evs : lines s = lines a ++ lines b -> lines s' = lines a ++ out c :: lines b -> opens b ->
  events_from_str_vars dbg vs s v = ROk (Some evs) ->
  exists p q, evs = p ++ q /\ events_from_str_vars dbg vs a v = ROk (Some p) /\ events_from_str_vars dbg vs b v = ROk (Some q)
  /\ events_from_str_vars dbg vs s' v = ROk (Some (p ++ EComment c :: q)).
Proof.
  intros L L' O H. rewrite (events_pieces dbg vs v s a b L O) in H. pose (m := crlf_text [out c]). pose (mb := crlf_text (out c :: lines b)).
  assert (Lmb : lines mb = out c :: lines b) by now apply (lines_rest s' (lines a)).
  assert (Lm : lines m = [out c]).
  { apply lines_crlf. pose proof (lines_no_nl mb) as N. rewrite Lmb in N. cbn [forallb] in *. apply andb_true_iff in N as [N _]. now rewrite N. }
  assert (L2 : lines s' = lines a ++ lines mb) by now rewrite Lmb.
  rewrite (events_pieces dbg vs v s' a mb L2 (out_opens mb c _ Lmb)).
  assert (L3 : lines mb = lines m ++ lines b) by now rewrite Lm, Lmb.
  rewrite (events_pieces dbg vs v mb m b L3 O), (comment_alone dbg vs v m c Lm).
  destruct (events_from_str_vars dbg vs a v) as [[p|]|e|x]; destruct (events_from_str_vars dbg vs b v) as [[q|]|e'|x']; cbn [one_after] in *; try discriminate.
  injection H as <-. exists p, q. easy.
Qed.
Lemma blanks_then dbg v vs c bl l rest : forallb is_blank bl = true -> is_blank l = false -> depth l <> 0%nat -> forall i,
  ev_section dbg v vs i [EComment c] (bl ++ l :: rest) (RErr (mk_line_err (i + Z.of_nat (length bl)) EvStoryboardCmdWithNoSprite)).
Proof.
  intros Hb Hl D. induction bl as [|x bl IH]; intros i; cbn [app length].
  - replace (i + Z.of_nat 0)%Z with i by lia. apply sec_error; [exact Hl|]. apply next_nowhere; [exact D|].
    intros (l0 & e & E & T). destruct l0 as [|y l0]; [injection E as <-; exact T|]. now destruct l0.
  - cbn [forallb] in Hb. apply andb_true_iff in Hb as [Hx Hb]. apply sec_blank; [exact Hx|].
    replace (i + Z.of_nat (S (length bl)))%Z with ((i + 1) + Z.of_nat (length bl))%Z by lia. now apply IH.
Qed.
Lemma comment_cuts dbg vs v s a c bl l rest p : lines s = lines a ++ out c :: bl ++ l :: rest -> forallb is_blank bl = true -> is_blank l = false -> depth l <> 0%nat ->
  events_from_str_vars dbg vs a v = ROk (Some p) ->
  events_from_str_vars dbg vs s v = RErr (mk_line_err (rows a + 1 + Z.of_nat (length bl)) EvStoryboardCmdWithNoSprite).
Proof.
  intros L Hb Hl D Ha. pose (m := crlf_text (out c :: bl ++ l :: rest)).
  assert (Lm : lines m = out c :: bl ++ l :: rest) by now apply (lines_rest s (lines a)).
  assert (L2 : lines s = lines a ++ lines m) by now rewrite Lm.
  rewrite (events_pieces dbg vs v s a m L2 (out_opens m c _ Lm)), Ha.
  assert (M : events_from_str_vars dbg vs m v = RErr (mk_line_err (1 + Z.of_nat (length bl)) EvStoryboardCmdWithNoSprite)).
  { apply (events_section_vars dbg vs m v (RErr _)). rewrite Lm. apply sec_line with [EComment c]; [apply out_blank|apply (next_comment dbg v vs [] c)|].
    now apply blanks_then. }
  rewrite M. cbn [one_after le_line le_err]. do 2 f_equal. lia.
Qed.

(** before the sections *)
Lemma out_skip c : skip_line (out c) = true.
Proof.
  unfold skip_line. apply orb_true_iff. right. unfold trim. change (trim_start (out c)) with (out c).
  destruct (trim_end_incl (out c)) as (w & E & W). destruct (trim_end (out c)) as [|x [|y t]].
  - cbn [app] in E. subst w. discriminate W.
  - cbn [app] in E. injection E as <- <-. discriminate W.
  - cbn [app] in E. injection E as <- <- _. reflexivity.
Qed.
Lemma respaced_refl cs : Forall2 respaced cs cs.
Proof. induction cs; constructor; [|assumption]. split; [reflexivity|now left]. Qed.
Lemma comment_before dbg s s' ws num rest rest' v a b ls n cs c : version_head s ws num rest -> version_head s' ws num rest' -> version_text num v ->
  lines rest = a ++ b ++ ls -> lines rest' = a ++ out c :: b ++ ls -> head_line (out c) = false ->
  begins (rows ws) (a ++ b) ls n cs -> osu_parts s v n cs /\ osu_parts s' v (n + 1) cs
  /\ forall f, osu_from_str dbg s = ROk f <-> osu_from_str dbg s' = ROk f.
Proof.
  intros H H' V L L' N B.
  assert (P : osu_parts s v n cs).
  { exists ws, num, rest, (a ++ b), ls. split; [exact H|]. split; [exact V|]. split; [now rewrite L, app_assoc|exact B]. }
  assert (P' : osu_parts s' v (n + 1) cs).
  { exists ws, num, rest', (a ++ out c :: b), ls. split; [exact H'|]. split; [exact V|]. split; [rewrite L', <- app_assoc; reflexivity|].
    destruct B as (B1 & B2 & B3 & B4). unfold begins. split; [|split; [exact B2|split; [exact B3|]]].
    - rewrite forallb_app in *. cbn [forallb]. apply andb_true_iff in B1 as [-> ->]. rewrite N.
      now rewrite out_skip.
    - destruct B4 as [->|(w & t & E & W & ->)]; [now left|]. right. exists w, t. split; [exact E|]. split; [exact W|].
      rewrite !app_length. cbn [length]. lia. }
  split; [exact P|]. split; [exact P'|]. intros f. rewrite (osu_parts_read dbg s v n cs P), (osu_parts_read dbg s' v (n + 1) cs P').
  pose proof (respaced_refl cs) as R. split; apply reads_respaced; exact R.
Qed.
Lemma section_moved {E} (table : list (string * (str -> res unit (line_err E)))) dup unknown checks cs : forall n n' before,
  first_bad_section table dup unknown checks n before cs = ROk tt -> first_bad_section table dup unknown checks n' before cs = ROk tt.
Proof.
  induction cs as [|x cs IH]; intros n n' before; [easy|]. cbn [first_bad_section]. destruct (seen x before); [easy|].
  destruct (named table x) as [rd|]; [|easy]. destruct (rd (ch_body x)); try easy. destruct (checks && _); [easy|]. apply IH.
Qed.
Lemma comment_before_osb dbg s s' a b ls n cs c : lines s = a ++ b ++ ls -> lines s' = a ++ out c :: b ++ ls -> head_line (out c) = false ->
  begins 0 (a ++ b) ls n cs -> osb_parts s n cs /\ osb_parts s' (n + 1) cs
  /\ forall f, osb_from_str dbg s 14%Z = ROk f <-> osb_from_str dbg s' 14%Z = ROk f.
Proof.
  intros L L' N B.
  assert (P : osb_parts s n cs). { exists (a ++ b), ls. split; [now rewrite L, app_assoc|exact B]. }
  assert (P' : osb_parts s' (n + 1) cs).
  { exists (a ++ out c :: b), ls. split; [rewrite L', <- app_assoc; reflexivity|].
    destruct B as (B1 & B2 & B3 & B4). unfold begins. split; [|split; [exact B2|split; [exact B3|]]].
    - rewrite forallb_app in *. cbn [forallb]. apply andb_true_iff in B1 as [-> ->]. rewrite N. now rewrite out_skip.
    - destruct B4 as [->|(w & t & E & W & ->)]; [now left|]. right. exists w, t. split; [exact E|]. split; [exact W|].
      rewrite !app_length. cbn [length]. lia. }
  split; [exact P|]. split; [exact P'|]. intros f. rewrite (osb_parts_read dbg s n cs P), (osb_parts_read dbg s' (n + 1) cs P').
  unfold osb_reads. pose proof (section_moved (osb_table dbg (variables_above cs)) OsbDuplicateSections OsbUnknownSection false cs) as M.
  destruct (first_bad_section _ _ _ _ n [] cs) as [[]| |] eqn:F; destruct (first_bad_section _ _ _ _ (n + 1) [] cs) as [[]| |] eqn:G;
    try (apply (M n (n + 1)%Z) in F; congruence); try (apply (M (n + 1)%Z n) in G; congruence); cbn [rmap rbind]; split; intros H; (exact H || discriminate).
Qed.
