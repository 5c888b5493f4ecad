(** Whole files mean what the rules say (C53). *)
From Coq Require Import String List NArith ZArith Bool Lia.
From Verif Require Import Str Num Nom Dec Parsers KeyValue General Editor Metadata Difficulty Colours
  TimingPoints HitObjects Storyboard NormalEvents Events Osb OsuFile Spec SpecKv SpecText SpecSections SpecFile SpecTotal SpecOsb SpecLine
  SpecEvLine SpecColLine SpecEvSection SpecKvRead SpecParts SpecMeans
  StrFacts NumFacts NomFacts LayoutFacts FileFacts FileLoop FileTheorems TotalFacts OsbFacts KvStatements KvTheorems EvSection KvRead Parts.
Import ListNotations.
Local Open Scope N_scope.

Definition moved {A E} (i : Z) (r : res A (line_err E)) : res A (line_err E) :=
  match r with ROk a => ROk a | RErr e => RErr (mk_line_err (i + le_line e) (le_err e)) | RPanic p => RPanic p end.
Lemma section_sound dbg f name body r i : section_means dbg (osu_version f) name body r ->
  osu_section dbg f name body i = Some (rmap (fun p => put p f) (moved i r)).
Proof.
  destruct f as [v g e o m d ev tp c h]. cbn [osu_version]. intros H. destruct H; unfold osu_section;
    repeat match goal with |- context [str_eqb (lit ?a) (lit ?b)] =>
      let x := eval vm_compute in (str_eqb (lit a) (lit b)) in change (str_eqb (lit a) (lit b)) with x end; cbv iota; f_equal.
  - rewrite general_reads_eq by easy. destruct (general_reads v es t) as [a|[j q]|p]; cbn; [easy|now rewrite Z.add_comm|easy].
  - rewrite editor_reads_eq by easy. destruct (editor_reads es t) as [a|[j q]|p]; cbn; [easy|now rewrite Z.add_comm|easy].
  - rewrite metadata_reads_eq by easy. destruct (metadata_reads es t) as [a|[j q]|p]; cbn; [easy|now rewrite Z.add_comm|easy].
  - rewrite difficulty_reads_eq by easy. destruct (difficulty_reads es t) as [a|[j q]|p]; cbn; [easy|now rewrite Z.add_comm|easy].
  - apply events_section in H. rewrite H. destruct r as [a|[j q]|p]; cbn; [easy|now rewrite Z.add_comm|easy].
  - apply timing_points_section in H. rewrite H. destruct r as [a|[j q]|p]; cbn; [easy|now rewrite Z.add_comm|easy].
  - apply (colours_section s v) in H0; [|unfold old_version; lia]. rewrite H0. destruct r as [a|[j q]|p]; cbn; [easy|now rewrite Z.add_comm|easy].
  - unfold colours_from_str. replace (old_version v) with true by (unfold old_version; lia). easy.
  - apply hit_objects_section in H. rewrite H. destruct r as [a|[j q]|p]; cbn; [easy|now rewrite Z.add_comm|easy].
Qed.
Lemma section_total dbg v name body : In name section_names -> exists r, section_means dbg v name body r.
Proof.
  intros H. destruct (every_text_has_entries body) as (es & t & -> & H1 & H2). set (s := kv_text es ++ t).
  cbn [section_names In] in H. destruct H as [<-|[<-|[<-|[<-|[<-|[<-|[<-|[<-|[]]]]]]]]].
  - eexists. now constructor.
  - eexists. now constructor.
  - eexists. now constructor.
  - eexists. now constructor.
  - eexists. apply sm_events. now apply section_is.
  - eexists. apply sm_timing_points. now apply list_is.
  - destruct (old_version v) eqn:E; unfold old_version in E.
    + eexists. apply sm_no_colours. lia.
    + eexists. apply sm_colours; [lia|now apply list_is].
  - eexists. apply sm_hit_objects. now apply list_is.
Qed.
Lemma section_known dbg v name body r : section_means dbg v name body r -> In name section_names.
Proof. intros H. destruct H; vm_compute; tauto. Qed.
Lemma section_unknown dbg f name body i : ~ In name section_names -> osu_section dbg f name body i = None.
Proof.
  intros H. destruct f as [v g e o m d ev tp c h]. unfold osu_section.
  repeat match goal with |- context [str_eqb name ?t] =>
    destruct (str_eqb name t) eqn:?K; [apply str_eqb_eq in K; subst name; exfalso; apply H; vm_compute; tauto|clear K] end.
  reflexivity.
Qed.
Lemma put_keeps p f : osu_version (put p f) = osu_version f.
Proof. now destruct f, p. Qed.
Lemma seen_iff n before : existsb (str_eqb n) before = true <-> In n before.
Proof.
  rewrite existsb_exists. split.
  - intros (x & Hx & K). apply str_eqb_eq in K. now subst.
  - intros H. exists n. split; [easy|now apply str_eqb_eq].
Qed.
Lemma not_seen n before : ~ In n before -> existsb (str_eqb n) before = false.
Proof. intros H. destruct (existsb (str_eqb n) before) eqn:E; [now apply seen_iff in E|easy]. Qed.

Lemma sections_sound dbg v n before f cs r : sections_mean dbg v n before f cs r ->
  forall w line parsed, n = (line + rows w)%Z -> osu_version f = v -> inner_full cs -> same_names parsed before ->
  osu_loop dbg line parsed f (with_space (later cs w) cs) = r.
Proof.
  induction 1 as [n before f|n before f x cs Hs|n before f x cs Hs Hu|n before f x cs i e Hs Hm|n before f x cs p Hs Hm
    |n before f x cs p Hs Hm Hd Hb|n before f x cs p r Hs Hm Hd _ IH]; intros w line parsed En Ev Hi Hn;
    [reflexivity| | | | | |]; cbn [with_space later osu_loop tl]; rewrite (Hn (ch_name x)); unfold rows in En; fold (lines_count w) in En.
  - apply seen_iff in Hs. now rewrite Hs, En.
  - apply not_seen in Hs. now rewrite Hs, section_unknown, En.
  - apply not_seen in Hs. subst v. rewrite Hs, (section_sound dbg f _ _ _ _ Hm). cbn. now rewrite En.
  - apply not_seen in Hs. subst v. now rewrite Hs, (section_sound dbg f _ _ _ _ Hm).
  - apply not_seen in Hs. subst v. rewrite Hs, (section_sound dbg f _ _ _ _ Hm). cbn [moved rmap rbind]. rewrite Hb, Hd. reflexivity.
  - apply not_seen in Hs. subst v. rewrite Hs, (section_sound dbg f _ _ _ _ Hm). cbn [moved rmap rbind].
    change (repeat [10] (length (x :: cs))) with (later cs [10]).
    assert (Hi' : inner_full cs) by (destruct cs; [exact I|now destruct Hi]).
    destruct (ch_body x) as [|c b] eqn:Eb.
    + destruct Hd as [->|Hd]; [|easy]. destruct cs as [|y cs]; [|destruct Hi as [Hi _]; now rewrite Eb in Hi].
      change (lines_count []) with 0%Z. cbn [usize_pred Z.eqb rbind].
      specialize (IH [10] (n + chunk_rows x - 1)%Z (parsed ++ [ch_name x])). cbn [with_space osu_loop] in IH |- *. apply IH; [|now rewrite put_keeps|exact I|now apply same_names_cons].
      rewrite rows_nl. lia.
    + rewrite <- Eb in *. assert (Hb : ch_body x <> []) by (rewrite Eb; easy). unfold usize_pred. rewrite (lines_count_nonempty _ Hb).
      cbn [rbind]. apply IH; [|now rewrite put_keeps|easy|now apply same_names_cons].
      rewrite rows_nl. unfold chunk_rows, rows, lines_count in *. lia.
Qed.
Lemma sections_total dbg v cs : forall n before f, exists r, sections_mean dbg v n before f cs r.
Proof.
  induction cs as [|x cs IH]; intros n before f; [eexists; constructor|].
  destruct (existsb (str_eqb (ch_name x)) before) eqn:E; [apply seen_iff in E; eexists; now apply ss_again|].
  assert (Hs : ~ In (ch_name x) before) by (intros H; apply seen_iff in H; congruence).
  destruct (existsb (str_eqb (ch_name x)) section_names) eqn:K.
  2:{ eexists. apply ss_unknown; [easy|]. intros H. apply seen_iff in H. congruence. }
  apply seen_iff in K. destruct (section_total dbg v _ (ch_body x) K) as [[p|[i e]|p] Hm].
  - destruct (IH (n + chunk_rows x)%Z (ch_name x :: before) (put p f)) as [r Hr].
    destruct dbg; [destruct (ch_body x) as [|c b] eqn:Eb|].
    + eexists. apply ss_empty with (p := p); [easy|now rewrite Eb|easy|easy].
    + eexists. eapply ss_next; [easy|rewrite Eb; eassumption|right; now rewrite Eb|eassumption].
    + eexists. eapply ss_next; [easy|eassumption|now left|eassumption].
  - eexists. eapply ss_error; eassumption.
  - eexists. eapply ss_panic; eassumption.
Qed.
Lemma file_sound dbg s r : file_means dbg s r -> osu_from_str dbg s = r.
Proof.
  intros H. destruct H as [H|H|k H|v n cs r H Hr].
  - apply (version_missing dbg) in H as [j H]. rewrite H. do 2 f_equal. exact (version_error_line dbg s j _ H eq_refl).
  - apply (version_invalid dbg) in H as [j H]. rewrite H. do 2 f_equal. exact (version_error_line dbg s j _ H eq_refl).
  - now apply total_stray.
  - destruct H as (ws & num & rest & pre & ls & Hh & Hv & E & Hp & Hl & Hf & Hn).
    rewrite (version_read dbg s ws num rest v Hh Hv), E, split_pre_cut by (easy || exact (forallb_and_r _ _ _ Hp)).
    rewrite unexpected_none by easy. change [c_nl] with [10].
    destruct Hn as [-> |(w & t & Ew & Hw & ->)].
    + destruct (many0_chunks _ _ Hf) as (w & r' & K). rewrite K. inversion Hr; subst. destruct w; reflexivity.
    + destruct (many0_spaces _ _ Hf w t Ew Hw) as [r' K]. rewrite K.
      apply (sections_sound _ _ _ _ _ _ _ Hr); [easy|easy|exact (falls_full _ _ Hf)|easy].
Qed.
Lemma file_total dbg s : exists r, file_means dbg s r.
Proof.
  destruct (osu_cases s) as [H|[H|[(k & H)|(v & n & cs & H)]]].
  - eexists. now apply fm_no_version.
  - eexists. now apply fm_bad_version.
  - eexists. now apply fm_stray with (k := k).
  - destruct (sections_total dbg v cs n [] (osu_new v)) as [r Hr]. exists r. now apply fm_sections with (v := v) (n := n) (cs := cs).
Qed.
Lemma file_means_iff dbg s r : osu_from_str dbg s = r <-> file_means dbg s r.
Proof.
  split; [|apply file_sound]. intros <-. destruct (file_total dbg s) as [r H]. now rewrite (file_sound _ _ _ H).
Qed.

(** ** .osb files *)
Lemma variables_model s : variables_from_str s = variables_of 0 (lines s).
Proof.
  pose proof (variables_read_eq s) as H. unfold variables_read in H.
  destruct (variables_from_str s), (variables_of 0 (lines s)); cbn in H; congruence.
Qed.
Lemma osb_sections_sound dbg n before o cs r : osb_sections_mean dbg n before o cs r ->
  forall w line parsed, n = (line + rows w)%Z -> inner_full cs -> same_names parsed before ->
  osb_loop dbg 14%Z line parsed o (with_space (later cs w) cs) = r.
Proof.
  assert (Hl : forall x cs line w, inner_full (x :: cs) ->  cs <> [] ->
    (line + rows w + chunk_rows x = line + lines_count w + lines_count (ch_space x) + Z.max 0 (lines_count (ch_body x) - 1) + rows [10%N])%Z).
  { clear cs. intros x cs line w Hi Hc. destruct cs as [|y cs]; [easy|]. destruct Hi as [Hb _]. apply rows_pos in Hb. rewrite rows_nl. unfold chunk_rows, rows, lines_count in *. lia. }
  induction 1 as [n before o|n before o x cs Hs|n before o x cs Hs Hu|n before o x cs i e Hs Hk Hm|n before o x cs vs r Hs Hk Hm Hr IH
    |n before o x cs i e Hs Hk Hm|n before o x cs p Hs Hk Hm|n before o x cs es r Hs Hk Hm Hr IH]; intros w line parsed En Hi Hn;
    [reflexivity| | | | | | |]; cbn [with_space later osb_loop tl]; rewrite (Hn (ch_name x)).
  - apply seen_iff in Hs. rewrite Hs, En. reflexivity.
  - apply not_seen in Hs. rewrite Hs, En.
    destruct (str_eqb (ch_name x) (lit "Variables")) eqn:K; [apply str_eqb_eq in K; exfalso; apply Hu; rewrite K; now left|].
    destruct (str_eqb (ch_name x) (lit "Events")) eqn:K'; [apply str_eqb_eq in K'; exfalso; apply Hu; rewrite K'; right; now left|]. reflexivity.
  - apply not_seen in Hs. rewrite Hs, Hk, variables_model, Hm.
    change (str_eqb (lit "Variables") (lit "Variables")) with true. cbn. do 2 f_equal. unfold rows, lines_count in *. lia.
  - pose proof (not_seen _ _ Hs) as Hs'. rewrite Hs', variables_model, Hm.
    replace (str_eqb (ch_name x) (lit "Variables")) with true by (symmetry; now apply str_eqb_eq). cbn [processing_line rmap rmap_err rbind].
    change (repeat [10] (length (x :: cs))) with (later cs [10]).
    assert (Hi' : inner_full cs) by (destruct cs; [exact I|now destruct Hi]).
    destruct cs as [|y cs]; [inversion Hr; reflexivity|].
    apply IH; [rewrite En; now apply (Hl x (y :: cs))|easy|now apply same_names_cons].
  - apply not_seen in Hs. apply events_section_vars in Hm. unfold vars_or_none in Hm. rewrite Hs, Hk, Hm.
    change (str_eqb (lit "Events") (lit "Variables")) with false. change (str_eqb (lit "Events") (lit "Events")) with true. cbn. do 2 f_equal. unfold rows, lines_count in *. lia.
  - apply not_seen in Hs. apply events_section_vars in Hm. unfold vars_or_none in Hm. rewrite Hs, Hk, Hm.
    change (str_eqb (lit "Events") (lit "Variables")) with false. change (str_eqb (lit "Events") (lit "Events")) with true. reflexivity.
  - pose proof (not_seen _ _ Hs) as Hs'. apply events_section_vars in Hm. unfold vars_or_none in Hm. rewrite Hs', Hm.
    replace (str_eqb (ch_name x) (lit "Variables")) with false by now rewrite Hk.
    replace (str_eqb (ch_name x) (lit "Events")) with true by (symmetry; now apply str_eqb_eq). cbn [processing_line rmap rmap_err rbind].
    change (repeat [10] (length (x :: cs))) with (later cs [10]).
    assert (Hi' : inner_full cs) by (destruct cs; [exact I|now destruct Hi]).
    destruct cs as [|y cs]; [inversion Hr; reflexivity|].
    apply IH; [rewrite En; now apply (Hl x (y :: cs))|easy|now apply same_names_cons].
Qed.
Lemma osb_sections_total dbg cs : forall n before o, exists r, osb_sections_mean dbg n before o cs r.
Proof.
  induction cs as [|x cs IH]; intros n before o; [eexists; constructor|].
  destruct (existsb (str_eqb (ch_name x)) before) eqn:E; [apply seen_iff in E; eexists; now apply os_again|].
  assert (Hs : ~ In (ch_name x) before) by (intros H; apply seen_iff in H; congruence).
  destruct (str_eqb (ch_name x) (lit "Variables")) eqn:K.
  { apply str_eqb_eq in K. destruct (variables_of 0 (lines (ch_body x))) as [vs|[i e]|p] eqn:R.
    - destruct (IH (n + chunk_rows x)%Z (ch_name x :: before) (mk_osb (Some vs) (osb_events o))) as [r Hr].
      exists r. now apply os_variables with (vs := vs).
    - eexists. eapply os_bad_variable; eassumption.
    - exfalso. rewrite <- variables_model in R. now apply variables_no_panic in R. }
  destruct (str_eqb (ch_name x) (lit "Events")) eqn:K'.
  { apply str_eqb_eq in K'. destruct (ev_loop dbg 14%Z (vars_or_none (osb_variables o)) 0 [] (lines (ch_body x))) as [es|[i e]|p] eqn:R; apply section_is in R.
    - destruct (IH (n + chunk_rows x)%Z (ch_name x :: before) (mk_osb (osb_variables o) (Some es))) as [r Hr].
      exists r. now apply os_events with (es := es).
    - eexists. eapply os_bad_event; eassumption.
    - eexists. eapply os_panic; eassumption. }
  eexists. apply os_unknown; [easy|]. intros [H|[H|[]]].
  - rewrite <- H in K. discriminate.
  - rewrite <- H in K'. discriminate.
Qed.
Lemma osb_sound dbg s r : osb_means dbg s r -> osb_from_str dbg s 14%Z = rmap Some r.
Proof.
  intros H. destruct H as [k H|n cs r H Hr]; [now apply osb_stray_read|].
  destruct H as (pre & ls & E & Hp & Hl & Hf & Hn). unfold osb_from_str. change (14 <? 14)%Z with false. cbn iota.
  rewrite E, split_pre_cut by (easy || exact (forallb_and_r _ _ _ Hp)). rewrite unexpected_none by easy. change [c_nl] with [10].
  destruct Hn as [-> |(w & t & Ew & Hw & ->)].
  { destruct (many0_chunks _ _ Hf) as (ws & r' & K). rewrite K. inversion Hr; subst. now destruct ws. }
  destruct (many0_spaces _ _ Hf w t Ew Hw) as [r' K]. rewrite K. f_equal.
  apply (osb_sections_sound _ _ _ _ _ _ Hr); [easy|exact (falls_full _ _ Hf)|easy].
Qed.
Lemma osb_total dbg s : exists r, osb_means dbg s r.
Proof.
  destruct (osb_cases s) as [(k & H)|(n & cs & H)].
  - eexists. now apply om_stray with (k := k).
  - destruct (osb_sections_total dbg cs n [] (mk_osb None None)) as [r Hr]. exists r. now apply om_sections with (n := n) (cs := cs).
Qed.
Lemma osb_means_iff dbg s r : osb_from_str dbg s 14%Z = rmap Some r <-> osb_means dbg s r.
Proof.
  split; [|apply osb_sound]. intros H. destruct (osb_total dbg s) as [r' H']. rewrite (osb_sound _ _ _ H') in H.
  replace r with r'; [easy|]. destruct r, r'; cbn in H; congruence.
Qed.
