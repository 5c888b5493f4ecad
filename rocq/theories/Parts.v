(** Whole files are read section by section (C51). *)
From Coq Require Import String List NArith ZArith Bool Lia.
From Verif Require Import Str Num Nom Dec Parsers KeyValue General Editor Metadata Difficulty Colours
  TimingPoints HitObjects Storyboard NormalEvents Events Osb OsuFile Spec SpecText SpecFile SpecTotal SpecOsb SpecParts
  StrFacts NumFacts NomFacts LayoutFacts FileFacts FileLoop FileTheorems TotalFacts OsbFacts.
Import ListNotations.
Local Open Scope N_scope.

Lemma rmap_ext_ok {A B E} (f g : A -> B) (r : res A E) : (forall a, r = ROk a -> f a = g a) -> rmap f r = rmap g r.
Proof. destruct r; cbn; intros H; [now rewrite (H a)|easy|easy]. Qed.

(** ** the white space before the sections *)
Definition later {A} (cs : list A) (w : str) : list str := w :: repeat [10] (length cs).
(** a section is empty only at the end *)
Fixpoint inner_full (cs : list chunk) : Prop :=
  match cs with
  | x :: (_ :: _) as cs' => ch_body x <> [] /\ inner_full cs'
  | _ => True
  end.
Lemma no_sections cs : falls_apart [] cs -> cs = [].
Proof.
  intros H. inversion H as [|w x more cs' Hw Hx Hm Hf E]; [easy|]. exfalso. apply app_eq_nil in E as [_ E].
  discriminate E.
Qed.
Lemma space_unique w t w' t' : forallb layout_char w = true -> forallb layout_char w' = true -> w ++ 91 :: t = w' ++ 91 :: t' -> w = w'.
Proof.
  intros H1 H2 E. pose proof (span_app layout_char w (91 :: t) H1 eq_refl) as K1. pose proof (span_app layout_char w' (91 :: t') H2 eq_refl) as K2.
  rewrite E, K2 in K1. now injection K1.
Qed.
Lemma many0_spaces T cs : falls_apart T cs -> forall w t, T = w ++ 91 :: t -> forallb layout_char w = true ->
  exists r, many0 (@square_section unit) T = POk r (with_space (later cs w) cs).
Proof.
  induction 1 as [T H|w x more cs Hw Hx Hm H IH]; intros w0 t E Hw0.
  - destruct (many0_chunks T [] (fa_end T H)) as (ws & r & K). now exists r.
  - pose proof (square_chunk w x more Hw Hx Hm) as Hq.
    assert (w0 = w) as ->.
    { unfold chunk_text in E. rewrite <- !app_assoc in E. change (lit "[") with [91] in E. cbn [app] in E. symmetry in E. exact (space_unique _ _ _ _ Hw0 Hw E). }
    assert (K : exists r, many0 (@square_section unit) more = POk r (with_space (repeat [10] (length (x :: cs))) cs)).
    { destruct Hm as [-> |[_ [t' ->]]].
      - rewrite (no_sections cs H). destruct (many0_chunks [] [] ltac:(rewrite (no_sections cs H) in H; exact H)) as (ws & r & K). now exists r.
      - exact (IH [10] t' eq_refl eq_refl). }
    destruct K as [r K]. exists r. rewrite (many0_cons _ _ _ _ square_section_safe Hq), K; [reflexivity|].
    unfold chunk_text. rewrite !app_length. change (length (lit "[")) with 1%nat. lia.
Qed.
Lemma falls_full T cs : falls_apart T cs -> inner_full cs.
Proof.
  induction 1 as [|w x more cs Hw Hx Hm H IH]; [exact I|]. destruct cs as [|y cs]; [exact I|]. split; [|exact IH].
  destruct Hm as [-> |[Hm _]]; [now apply no_sections in H|exact Hm].
Qed.
Lemma rows_count s : rows s = lines_count s.
Proof. reflexivity. Qed.
Lemma rows_pos s : s <> [] -> (rows s <> 0)%Z.
Proof. intros H. apply Z.eqb_neq. exact (lines_count_nonempty s H). Qed.
Lemma rows_nl : rows [10] = 1%Z.
Proof. reflexivity. Qed.
Definition same_names (parsed before : list str) : Prop := forall n, mem_str n parsed = existsb (str_eqb n) before.
Lemma same_names_cons n parsed before : same_names parsed before -> same_names (parsed ++ [n]) (n :: before).
Proof.
  intros H m. cbn [existsb]. rewrite <- (H m). unfold mem_str. rewrite existsb_app. cbn [existsb].
  now rewrite orb_false_r, orb_comm.
Qed.

(** ** .osu files *)
Definition osu_put (dbg : bool) (acc : osu_file) (x : chunk) : osu_file :=
  match osu_section dbg acc (ch_name x) (ch_body x) 0 with Some (ROk f) => f | _ => acc end.
Definition shifted {A E} (i : Z) (a : A) (r : res unit (line_err E)) : res A (line_err E) :=
  match r with ROk _ => ROk a | RErr e => RErr (mk_line_err (i + le_line e) (le_err e)) | RPanic p => RPanic p end.
Lemma section_step dbg acc x i : osu_section dbg acc (ch_name x) (ch_body x) i
  = option_map (fun rd => shifted i (osu_put dbg acc x) (rd (ch_body x))) (named (osu_table dbg (osu_version acc)) x).
Proof.
  destruct acc as [v g e o m d ev tp c h]. cbn [osu_version]. unfold named, osu_table, osu_put, osu_section. cbn [find fst].
  repeat match goal with
  | |- context [str_eqb (ch_name x) ?t] =>
      destruct (str_eqb (ch_name x) t);
      [cbn [option_map snd]; f_equal; unfold can_be;
       match goal with |- context [processing_line _ ?r _] => destruct r as [a|[j q]|p] end; cbn; try reflexivity; now rewrite (Z.add_comm i j)|]
  end.
  reflexivity.
Qed.
Lemma put_version dbg acc x : osu_version (osu_put dbg acc x) = osu_version acc.
Proof.
  destruct acc as [v g e o m d ev tp c h]. cbn [osu_version]. unfold osu_put, osu_section.
  repeat match goal with
  | |- context [str_eqb (ch_name x) ?t] =>
      destruct (str_eqb (ch_name x) t);
      [match goal with |- context [processing_line _ ?r _] => destruct r as [a|[j q]|p] end; reflexivity|]
  end.
  reflexivity.
Qed.
Lemma osu_loop_parts dbg cs : forall w line parsed before acc, inner_full cs -> same_names parsed before ->
  osu_loop dbg line parsed acc (with_space (later cs w) cs)
  = rmap (fun _ => fold_left (osu_put dbg) cs acc)
      (first_bad_section (osu_table dbg (osu_version acc)) OsuDuplicateSections OsuUnknownSection dbg (line + rows w) before cs).
Proof.
  induction cs as [|x cs IH]; intros w line parsed before acc Hi Hn; [reflexivity|].
  cbn [with_space later osu_loop first_bad_section fold_left tl]. rewrite (Hn (ch_name x)). unfold seen.
  destruct (existsb (str_eqb (ch_name x)) before); [reflexivity|]. rewrite section_step.
  destruct (named (osu_table dbg (osu_version acc)) x) as [rd|]; cbn [option_map]; [|reflexivity].
  destruct (rd (ch_body x)) as [[]|e|p]; cbn [shifted rbind rmap]; [|reflexivity|reflexivity].
  destruct (ch_body x) as [|c b] eqn:Eb.
  - change (lines_count []) with 0%Z. unfold usize_pred. rewrite Z.eqb_refl. cbn [is_empty]. destruct dbg; [reflexivity|]. cbn [andb rbind].
    destruct cs as [|y cs]; [reflexivity|]. destruct Hi as [Hi _]. now rewrite Eb in Hi.
  - rewrite <- Eb in *. assert (Hb : ch_body x <> []) by (rewrite Eb; easy). unfold usize_pred. rewrite (lines_count_nonempty _ Hb).
    replace (is_empty (ch_body x)) with false by now rewrite Eb. rewrite andb_false_r. cbn [rbind].
    change (repeat [10] (length (x :: cs))) with (later cs [10]).
    rewrite (IH [10] _ _ (ch_name x :: before) (osu_put dbg acc x)); [|destruct cs; [exact I|now destruct Hi]|now apply same_names_cons].
    rewrite put_version. f_equal. f_equal. unfold chunk_rows. rewrite rows_nl. unfold rows, lines_count. lia.
Qed.
Lemma holds_section {A E} cs k (rd : str -> res (option A) E) f :
  holds (map ch_sec cs) k rd None f -> f = section_of cs k rd.
Proof.
  intros [H1 H2]. unfold section_of. destruct (find _ cs) as [x|] eqn:F.
  - apply find_some in F as [F1 F2]. apply str_eqb_eq in F2. pose proof (H1 (ch_sec x) (in_map ch_sec _ _ F1) F2) as K. change (sec_body (ch_sec x)) with (ch_body x) in K. now rewrite K.
  - apply H2. intros y Hy. apply in_map_iff in Hy as (x & <- & Hx). intros K. apply (find_none _ _ F) in Hx. cbv beta in Hx.
    apply str_eqb_neq in Hx. now apply Hx.
Qed.
Lemma describes_of dbg v cs f : describes dbg v (map ch_sec cs) (osu_new v) f -> f = osu_of dbg v cs.
Proof.
  intros (H0 & H1 & H2 & H3 & H4 & H5 & H6 & H7 & H8 & H9). unfold osu_of.
  apply holds_section in H2, H3, H4, H5, H6, H7, H8, H9. destruct f. cbn in *. congruence.
Qed.
Lemma parts_chunks s v n cs : osu_parts s v n cs -> file_chunks s v cs.
Proof. intros (ws & num & rest & pre & ls & Hh & Hv & E & H1 & H2 & H3 & _). now exists ws, num, rest, pre, ls. Qed.
Lemma osu_parts_read dbg s v n cs : osu_parts s v n cs -> osu_from_str dbg s = osu_reads dbg v n cs.
Proof.
  intros H. pose proof (parts_chunks _ _ _ _ H) as Hc. destruct H as (ws & num & rest & pre & ls & Hh & Hv & E & Hp & Hl & Hf & Hn).
  destruct Hn as [-> |(w & t & Ew & Hw & ->)].
  { unfold osu_reads. cbn [first_bad_section rmap]. now rewrite (total_ignored dbg s v Hc). }
  assert (L : osu_from_str dbg s = rmap (fun _ => fold_left (osu_put dbg) cs (osu_new v))
    (first_bad_section (osu_table dbg v) OsuDuplicateSections OsuUnknownSection dbg (rows ws + Z.of_nat (length pre) + rows w) [] cs)).
  { rewrite (version_read dbg s ws num rest v Hh Hv), E, split_pre_cut by (easy || exact (forallb_and_r _ _ _ Hp)).
    rewrite unexpected_none by easy. destruct (many0_spaces _ _ Hf w t Ew Hw) as [r K]. change [c_nl] with [10]. rewrite K.
    exact (osu_loop_parts dbg cs w _ [] [] (osu_new v) (falls_full _ _ Hf) (fun _ => eq_refl)). }
  unfold osu_reads. rewrite L. apply rmap_ext_ok. intros [] Hok.
  rewrite Hok in L. cbn [rmap] in L. apply (total_read dbg s v cs _ Hc) in L as [(L1 & _ & L2) _].
  now apply describes_of.
Qed.
(** where the sections begin *)
Lemma sections_begin T cs : falls_apart T cs -> cs = [] \/ exists w t, T = w ++ 91 :: t /\ forallb layout_char w = true.
Proof.
  intros H. inversion H as [|w x more cs' Hw Hx Hm Hf E]; [now left|right]. subst. unfold chunk_text. rewrite <- !app_assoc.
  change (lit "[") with [91]. eexists w, _. split; [reflexivity|exact Hw].
Qed.
Lemma begins_total k pre ls : forallb (fun l => skip_line l && negb (head_line l)) pre = true ->
  match ls with [] => True | l :: _ => head_line l = true end -> exists n cs, begins k pre ls n cs.
Proof.
  intros H1 H2. destruct (falls_apart_total (join [10] ls)) as [cs H3]. destruct (sections_begin _ _ H3) as [-> |(w & t & E & Hw)].
  - exists 0%Z, []. repeat (split; [assumption|]). now left.
  - eexists _, cs. repeat (split; [assumption|]). right. exists w, t. repeat (split; [assumption|]). reflexivity.
Qed.
Lemma osu_parts_total s v cs : file_chunks s v cs -> exists n, osu_parts s v n cs.
Proof.
  intros (ws & num & rest & pre & ls & Hh & Hv & E & Hp & Hl & Hf). destruct (begins_total (rows ws) pre ls Hp Hl) as (n & cs' & B).
  assert (cs' = cs) as -> by (destruct B as (_ & _ & B & _); exact (falls_apart_unique _ _ _ B Hf)). exists n, ws, num, rest, pre, ls. easy.
Qed.
Lemma osu_cases s : no_version s \/ bad_version s \/ (exists k, file_stray s k) \/ exists v n cs, osu_parts s v n cs.
Proof.
  destruct (total_cases s) as [H|[H|[H|(v & cs & H)]]]; [now left|right; now left|right; right; now left|].
  right. right. right. destruct (osu_parts_total s v cs H) as [n Hn]. now exists v, n, cs.
Qed.

(** ** .osb files *)
Lemma variable_of_eq l : v_unwrap (var_from_str l) = variable_of l.
Proof.
  destruct l as [|c l]; [reflexivity|]. destruct (N.eqb_spec c 36) as [-> |Hc].
  - rewrite var_dollar. unfold variable_of. change (fun c => negb ((c =? 61) || (c =? 10))) with (fun c => negb ((c =? 61) || (c =? 10))).
    replace (span (fun c : N => negb ((c =? 61) || (c =? 10))) l) with (span OsbFacts.name_char l) by reflexivity.
    destruct (span OsbFacts.name_char l) as [n [|d r]]; [reflexivity|]. cbn [strip_prefix]. destruct (N.eqb_spec 61 d) as [<- |Hd]; [reflexivity|].
    cbn. destruct d as [|p]; [reflexivity|]. do 6 (destruct p; try reflexivity). now elim Hd.
  - replace (variable_of (c :: l)) with (@RErr variable _ VarMissingHeader).
    + unfold var_from_str, var_parser, preceded, pbind, context, tag. change (lit "$") with [36]. cbn [strip_prefix].
      destruct (N.eqb_spec 36 c) as [<- |_]; [easy|]. reflexivity.
    + unfold variable_of. destruct c as [|p]; [reflexivity|]. do 6 (destruct p; try reflexivity). now elim Hc.
Qed.
Lemma variables_read_eq s : rmap Some (variables_from_str s) = variables_read s.
Proof.
  unfold variables_from_str, variables_read. f_equal. generalize 0%Z. induction (lines s) as [|l ls IH]; intros i; [reflexivity|].
  cbn [parse_lines variables_of]. destruct (is_blank l); [apply IH|]. rewrite variable_of_eq. destruct (variable_of l); [|reflexivity|reflexivity].
  now rewrite IH.
Qed.
Lemma first_bad_fresh {E} table (dup unknown : E) checks cs : forall n before, first_bad_section table dup unknown checks n before cs = ROk tt ->
  forall y, In y cs -> ~ In (ch_name y) before.
Proof.
  induction cs as [|x cs IH]; intros n before H y Hy; [easy|]. cbn [first_bad_section] in H. destruct (seen x before) eqn:S; [easy|].
  destruct (named table x) as [rd|]; [|easy]. destruct (rd (ch_body x)); try easy. destruct (checks && _); [easy|].
  destruct Hy as [<- |Hy].
  - intros K. unfold seen in S. assert (T : existsb (str_eqb (ch_name x)) before = true); [|congruence].
    apply existsb_exists. exists (ch_name x). split; [exact K|now apply str_eqb_eq].
  - intros K. apply (IH _ _ H y Hy). now right.
Qed.
Lemma section_of_none {A E} cs k (rd : str -> res (option A) E) : (forall y, In y cs -> ch_name y <> lit k) -> section_of cs k rd = None.
Proof.
  intros H. unfold section_of. destruct (find _ cs) as [x|] eqn:F; [|easy]. apply find_some in F as [F1 F2]. apply str_eqb_eq in F2. now elim (H x F1).
Qed.
Lemma section_of_cons {A E} x cs k (rd : str -> res (option A) E) :
  section_of (x :: cs) k rd = if str_eqb (ch_name x) (lit k) then match rd (ch_body x) with ROk a => a | _ => None end else section_of cs k rd.
Proof. unfold section_of. cbn [find]. now destruct (str_eqb (ch_name x) (lit k)). Qed.
Lemma events_some dbg vs t v es : events_from_str_vars dbg vs t v = ROk es -> exists l, es = Some l.
Proof. unfold events_from_str_vars. destruct (ev_loop _ _ _ _ _ _) as [a| |]; cbn; try easy. intros [= <-]. now eexists. Qed.
Definition or_else {A} (a b : option A) : option A := match a with Some x => Some x | None => b end.
Definition osb_fin (dbg : bool) (vs : list variable) (acc : osb) (cs : list chunk) : osb :=
  mk_osb (or_else (section_of cs "Variables" variables_read) (osb_variables acc))
    (or_else (section_of cs "Events" (fun t => events_from_str_vars dbg vs t 14%Z)) (osb_events acc)).
Lemma osb_loop_parts dbg vs cs : forall w line parsed before acc, inner_full cs -> same_names parsed before ->
  In (lit "Events") before \/ vs = match osb_variables acc with Some l => l | None => variables_above cs end ->
  (osb_variables acc <> None -> In (lit "Variables") before) ->
  osb_loop dbg 14%Z line parsed acc (with_space (later cs w) cs)
  = rmap (fun _ => osb_fin dbg vs acc cs)
      (first_bad_section (osb_table dbg vs) OsbDuplicateSections OsbUnknownSection false (line + rows w) before cs).
Proof.
  induction cs as [|x cs IH]; intros w line parsed before acc Hi Hn Hv Hs; [now destruct acc|].
  cbn [with_space later osb_loop first_bad_section tl]. rewrite (Hn (ch_name x)). unfold seen.
  destruct (existsb (str_eqb (ch_name x)) before) eqn:S; [reflexivity|].
  assert (New : ~ In (ch_name x) before).
  { intros K. assert (T : existsb (str_eqb (ch_name x)) before = true); [|congruence]. apply existsb_exists. exists (ch_name x). split; [exact K|now apply str_eqb_eq]. }
  change (repeat [10] (length (x :: cs))) with (later cs [10]).
  assert (Hi' : inner_full cs) by (destruct cs; [exact I|now destruct Hi]).
  assert (Hl : cs <> [] -> (line + lines_count w + lines_count (ch_space x) + Z.max 0 (lines_count (ch_body x) - 1) + rows [10%N] = line + rows w + chunk_rows x)%Z).
  { intros Hc. destruct cs as [|y cs]; [easy|]. destruct Hi as [Hb _]. apply rows_pos in Hb. rewrite rows_nl. unfold chunk_rows, rows, lines_count in *. lia. }
  assert (Next : forall acc', (In (lit "Events") (ch_name x :: before) \/ vs = match osb_variables acc' with Some l => l | None => variables_above cs end) ->
     (osb_variables acc' <> None -> In (lit "Variables") (ch_name x :: before)) ->
     osb_loop dbg 14%Z (line + lines_count w + lines_count (ch_space x) + Z.max 0 (lines_count (ch_body x) - 1)) (parsed ++ [ch_name x]) acc' (with_space (later cs [10]) cs)
     = rmap (fun _ => osb_fin dbg vs acc' cs) (first_bad_section (osb_table dbg vs) OsbDuplicateSections OsbUnknownSection false
         (line + rows w + chunk_rows x) (ch_name x :: before) cs)).
  { intros acc' H1 H2. rewrite (IH [10] _ _ (ch_name x :: before) acc' Hi' (same_names_cons _ _ _ Hn) H1 H2).
    destruct cs as [|y cs]; [reflexivity|]. now rewrite Hl by easy. }
  unfold named, osb_table. cbn [find fst]. destruct (str_eqb (ch_name x) (lit "Variables")) eqn:NV.
  { cbn [option_map snd]. apply str_eqb_eq in NV. unfold can_be at 1. rewrite <- variables_read_eq.
    destruct (variables_from_str (ch_body x)) as [l|[j e]|p] eqn:R; unfold processing_line; cbn [rmap rbind rmap_err le_line le_err];
      [|now rewrite (Z.add_comm j)|reflexivity].
    cbn [andb]. rewrite Next.
    - apply rmap_ext_ok. intros [] Hok. pose proof (first_bad_fresh _ _ _ _ _ _ _ Hok) as Fr. unfold osb_fin. rewrite !section_of_cons, NV.
      change (str_eqb (lit "Variables") (lit "Variables")) with true. change (str_eqb (lit "Variables") (lit "Events")) with false. cbn iota.
      rewrite (section_of_none cs "Variables") by (intros y Hy K; apply (Fr y Hy); rewrite K, NV; now left).
      rewrite <- variables_read_eq, R. reflexivity.
    - destruct Hv as [Hv|Hv]; [left; now right|right]. cbn [osb_variables]. destruct (osb_variables acc) as [l0|].
      + elim New. rewrite NV. apply Hs. easy.
      + cbn [variables_above] in Hv. rewrite NV in Hv. change (str_eqb (lit "Variables") (lit "Events")) with false in Hv.
        change (str_eqb (lit "Variables") (lit "Variables")) with true in Hv. cbn iota in Hv. now rewrite <- variables_read_eq, R in Hv.
    - intros _. rewrite NV. now left. }
  destruct (str_eqb (ch_name x) (lit "Events")) eqn:NE; [|reflexivity].
  cbn [option_map snd]. apply str_eqb_eq in NE. unfold can_be at 1.
  assert (Hvs : match osb_variables acc with Some vs => vs | None => [] end = vs).
  { destruct Hv as [Hv|Hv]; [elim New; now rewrite NE|]. rewrite Hv. destruct (osb_variables acc); [easy|]. cbn [variables_above]. now rewrite NE. }
  rewrite Hvs. destruct (events_from_str_vars dbg vs (ch_body x) 14%Z) as [es|[j e]|p] eqn:R; unfold processing_line; cbn [rmap rbind rmap_err le_line le_err];
    [|now rewrite (Z.add_comm j)|reflexivity].
  cbn [andb]. rewrite Next.
  - apply rmap_ext_ok. intros [] Hok. pose proof (first_bad_fresh _ _ _ _ _ _ _ Hok) as Fr. unfold osb_fin. rewrite !section_of_cons, NE.
    change (str_eqb (lit "Events") (lit "Variables")) with false. change (str_eqb (lit "Events") (lit "Events")) with true. cbn iota.
    rewrite (section_of_none cs "Events") by (intros y Hy K; apply (Fr y Hy); rewrite K, NE; now left).
    rewrite R. destruct (events_some _ _ _ _ _ R) as [l ->]. reflexivity.
  - left. rewrite NE. now left.
  - cbn [osb_variables]. intros K. right. now apply Hs.
Qed.
Lemma or_else_none {A} (a : option A) : or_else a None = a.
Proof. now destruct a. Qed.
Lemma osb_parts_read dbg s n cs : osb_parts s n cs -> osb_from_str dbg s 14%Z = rmap Some (osb_reads dbg n cs).
Proof.
  intros (pre & ls & E & Hp & Hl & Hf & Hn). unfold osb_from_str. change (14 <? 14)%Z with false. cbn iota.
  rewrite E, split_pre_cut by (easy || exact (forallb_and_r _ _ _ Hp)). rewrite unexpected_none by easy. change [c_nl] with [10].
  destruct Hn as [-> |(w & t & Ew & Hw & ->)].
  { destruct (many0_chunks _ _ Hf) as (ws & r & K). rewrite K. reflexivity. }
  destruct (many0_spaces _ _ Hf w t Ew Hw) as [r K]. rewrite K. f_equal.
  rewrite (osb_loop_parts dbg (variables_above cs) cs w _ [] [] (mk_osb None None) (falls_full _ _ Hf) (fun _ => eq_refl)); [|now right|easy].
  unfold osb_reads, osb_fin, osb_of. cbn [osb_variables osb_events]. now rewrite !or_else_none.
Qed.
Lemma osb_stray_read dbg s k : osb_stray s k -> osb_from_str dbg s 14%Z = RErr (mk_line_err (Z.of_nat k) OsbUnexpectedLine).
Proof.
  intros (pre & l & ls & E & Hp & Hs & Hl & ->). unfold osb_from_str. change (14 <? 14)%Z with false. cbn iota. rewrite E.
  destruct (head_split ls) as (p2 & more & -> & H1 & H2).
  replace (pre ++ l :: p2 ++ more) with ((pre ++ l :: p2) ++ more) by now rewrite <- app_assoc.
  rewrite split_pre_cut; [|rewrite forallb_app; cbn [forallb]; now rewrite (forallb_and_r _ _ _ Hp), Hl, H1|exact H2].
  now rewrite (unexpected_app pre l p2 Hp Hs).
Qed.
Lemma osb_cases s : (exists k, osb_stray s k) \/ exists n cs, osb_parts s n cs.
Proof.
  destruct (head_split (lines s)) as (pre & more & E & H1 & H2).
  destruct (stray_split pre H1) as [H|(a & l & b & -> & H3 & H4 & H5)].
  - right. destruct (begins_total 0 pre more H H2) as (n & cs & B). exists n, cs, pre, more. easy.
  - left. exists (length a), a, l, (b ++ more). rewrite E, <- app_assoc. easy.
Qed.

(** ** one reading only *)
Lemma split_unique pre ls pre' ls' : pre ++ ls = pre' ++ ls' ->
  forallb (fun l => skip_line l && negb (head_line l)) pre = true -> forallb (fun l => skip_line l && negb (head_line l)) pre' = true ->
  match ls with [] => True | l :: _ => head_line l = true end -> match ls' with [] => True | l :: _ => head_line l = true end ->
  pre' = pre /\ ls' = ls.
Proof.
  intros E H1 H2 H3 H4. apply forallb_and_r in H1, H2. apply (f_equal split_pre) in E. rewrite !split_pre_cut in E by easy. now injection E as -> ->.
Qed.
Lemma begins_unique k pre ls n cs pre' ls' n' cs' : pre ++ ls = pre' ++ ls' -> begins k pre ls n cs -> begins k pre' ls' n' cs' ->
  cs' = cs /\ (n' = n \/ cs = []).
Proof.
  intros E (H1 & H2 & H3 & H4) (K1 & K2 & K3 & K4). destruct (split_unique _ _ _ _ E H1 K1 H2 K2) as [-> ->].
  assert (C : cs' = cs) by exact (falls_apart_unique _ _ _ K3 H3). split; [exact C|]. subst cs'.
  destruct H4 as [H4|(w & t & Hw1 & Hw2 & ->)]; [now right|]. destruct K4 as [K4|(w' & t' & Kw1 & Kw2 & ->)]; [now right|left].
  rewrite Hw1 in Kw1. now rewrite (space_unique _ _ _ _ Hw2 Kw2 Kw1).
Qed.
Lemma osu_parts_unique s v n cs v' n' cs' : osu_parts s v n cs -> osu_parts s v' n' cs' -> v' = v /\ cs' = cs /\ (n' = n \/ cs = []).
Proof.
  intros (ws & num & rest & pre & ls & Hh & Hv & E & B) (ws' & num' & rest' & pre' & ls' & Hh' & Hv' & E' & B').
  destruct (head_unique _ _ _ _ _ _ _ _ _ Hh Hv Hh' Hv') as (-> & -> & ->). split; [easy|]. rewrite E in E'.
  exact (begins_unique _ _ _ _ _ _ _ _ _ E' B B').
Qed.
Lemma osb_parts_unique s n cs n' cs' : osb_parts s n cs -> osb_parts s n' cs' -> cs' = cs /\ (n' = n \/ cs = []).
Proof. intros (pre & ls & E & B) (pre' & ls' & E' & B'). rewrite E in E'. exact (begins_unique _ _ _ _ _ _ _ _ _ E' B B'). Qed.
Lemma osb_stray_parts s k n cs : osb_stray s k -> ~ osb_parts s n cs.
Proof.
  intros (pre & l & ls & E & Hp & Hs & Hl & ->) (pre' & ls' & E' & Hp' & Hl' & _).
  rewrite E in E'. destruct (head_split ls) as (p2 & more & -> & H1 & H2).
  replace (pre ++ l :: p2 ++ more) with ((pre ++ l :: p2) ++ more) in E' by now rewrite <- app_assoc.
  apply (f_equal split_pre) in E'.
  rewrite !split_pre_cut in E'; auto; [|exact (forallb_and_r _ _ _ Hp')|rewrite forallb_app; cbn [forallb]; now rewrite (forallb_and_r _ _ _ Hp), Hl, H1].
  injection E' as E' _. pose proof (unexpected_none _ Hp' 0%Z) as K. rewrite <- E', (unexpected_app _ _ _ Hp Hs) in K. easy.
Qed.
