(** Which storyboard files reading gives (C76). *)
From Coq Require Import String List NArith ZArith Bool Lia.
From Verif Require Import Str Num Nom Dec Parsers KeyValue KvFields General Editor Metadata Difficulty Colours TimingPoints HitObjects
  Storyboard NormalEvents Events Osb OsuFile Spec SpecWf SpecKv SpecText SpecSections SpecFile SpecTypes SpecCmd SpecEvents SpecWhole SpecTotal SpecOsb
  SpecLine SpecEvLine SpecColLine SpecEvSection SpecKvRead SpecParts SpecMeans SpecWalk SpecImage SpecImageFile
  StrFacts NumFacts NomFacts DecFacts LineFacts SplitFacts LayoutFacts CmdRound CmdRead
  KvFacts KvSem KvSections KvTheorems KvStatements KvRead EvSection HoRead Ends WholeFacts WalkFacts Means
  ImageKv ImageLine ImageObj ImageCmd ImageEv ImageBody ImageFile.
Import ListNotations.
Local Open Scope N_scope.

(** ** values in place of names *)
Lemma swapped_flat a b s t : no_nl b = true -> swapped a b s t -> no_nl s = true -> no_nl t = true.
Proof.
  intros Hb H. induction H as [|s t Ha _ IH|c s t _ _ IH|s _]; intros Hs; [easy| | |].
  - rewrite no_nl_app in *. apply andb_true_iff in Hs as [_ Hs]. now rewrite Hb, IH.
  - change (no_nl (c :: s)) with (no_nl ([c] ++ s)) in Hs. change (no_nl (c :: t)) with (no_nl ([c] ++ t)). rewrite no_nl_app in *.
    apply andb_true_iff in Hs as [H1 Hs]. now rewrite H1, IH.
  - rewrite no_nl_app, Hb. cbn [andb]. induction s as [|c s IH]; [easy|]. cbn [map concat].
    change ((c :: b) ++ concat (map (fun c => c :: b) s)) with ([c] ++ b ++ concat (map (fun c => c :: b) s)).
    change (no_nl (c :: s)) with (no_nl ([c] ++ s)) in Hs. rewrite no_nl_app in Hs. apply andb_true_iff in Hs as [H1 Hs].
    rewrite !no_nl_app, H1, Hb. now apply IH.
Qed.
Lemma values_flat q vs l l' : forallb variable_range vs = true -> with_values q vs l l' -> no_nl l = true -> no_nl l' = true.
Proof.
  intros Hv H. induction H as [|x vs l l1 l2 a b _ Hs _ IH|x vs l l2 _ _ IH]; intros Hl; [easy| |]; cbn [forallb] in Hv; apply andb_true_iff in Hv as [H1 H2].
  - apply IH; [easy|]. apply swapped_flat in Hs; [easy| |easy]. unfold variable_range in H1. now apply andb_true_iff in H1.
  - auto.
Qed.
Lemma event_new dbg v e : (4 < v)%Z -> event_in dbg v e = event_range e.
Proof.
  intros Hv. unfold event_in. destruct (event_range e) eqn:E; [|easy]. unfold event_range in E. apply andb_true_iff in E as [E _].
  destruct e; cbn [own_range clocks_range] in *; try reflexivity; unfold clock_range; replace ((3 <=? v) && (v <=? 4))%Z with false by lia;
    rewrite !andb_true_iff in E; cbn [negb orb andb]; rewrite ?andb_true_r, ?andb_true_iff; tauto.
Qed.
Lemma forallb_ext' {A} (p q : A -> bool) l : (forall x, p x = q x) -> forallb p l = forallb q l.
Proof. intros H. induction l as [|x l IH]; [easy|]. cbn [forallb]. now rewrite H, IH. Qed.
Lemma events_found dbg v vs s l : (4 < v)%Z -> forallb variable_range vs = true -> events_from_str_vars dbg vs s v = ROk (Some l) ->
  forallb event_range l = true.
Proof.
  intros Hv Hvs H. rewrite <- (forallb_ext' (event_in dbg v)) by (intros; now apply event_new). rewrite items_range. apply lines_items in H. assert (Hn : forallb no_nl (full_lines s) = true).
  { apply forallb_forall. intros x Hx. apply filter_In in Hx as [Hx _]. pose proof (lines_no_nl s) as K. rewrite forallb_forall in K. auto. }
  assert (Hb : Forall (fun x => match x with ItEvent e => commands_of e = [] | _ => True end) (SpecWalk.items l)).
  { unfold SpecWalk.items. clear. induction l as [|e l IH]; [constructor|]. cbn [map concat]. apply Forall_app. split; [|exact IH].
    unfold event_items. constructor; [apply (own_bare false 14%Z)|]. apply Forall_map, Forall_forall. easy. }
  revert Hn Hb. induction H as [|a x ls xs H _ IH]; [constructor|]. cbn [forallb]. rewrite andb_true_iff, Forall_cons_iff. intros [H1 H2] [B1 B2].
  constructor; [|auto]. destruct x as [e|d c]; cbn [item_range].
  - assert (K : line_item dbg v [] a (ItEvent e)) by (inversion H; subst; econstructor; eauto). apply event_item_read in K as [K1 K2]; easy.
  - inversion H as [| |l' q l'' c' Hd Hq Hw Hc]; subst. split; [easy|].
    assert (R : cmd_from_str l'' = ROk (Some c)) by now rewrite cmd_reads, Hc. apply cmd_image in R as [R1 R2]. repeat split; try easy.
    apply command_flat in Hc; [easy|]. now apply (values_flat q vs a).
Qed.
(** ** the sections *)
Lemma variable_start line x : variable_of line = ROk x -> opens line = false.
Proof.
  intros H. destruct (opens line) eqn:E; [|easy]. destruct line as [|c l]; [easy|]. cbn [opens starts_with_char] in E. apply N.eqb_eq in E. subst c.
  discriminate H.
Qed.
Lemma variables_body l : forallb variable_range l = true -> exists b, stands b = true /\ variables_of 0 (lines b) = ROk l.
Proof.
  intros H. apply variables_gives in H as [s H]. rewrite variables_model in H. apply variable_lines in H.
  destruct (list_body (fun line x => variable_of line = ROk x) (fun _ => false) l variable_start) as [_ K]. rewrite existsb_none in K.
  destruct K as (b & B1 & B2); [split; [|easy]; now exists s|]. exists b. split; [easy|]. now apply variable_lines.
Qed.
Lemma osb_sections_range dbg n before o cs o' : osb_sections_mean dbg n before o cs (ROk o') -> osb_range o = true -> osb_range o' = true.
Proof.
  intros H. remember (ROk o') as r eqn:E. induction H; try discriminate E; intros Ho.
  - injection E as <-. easy.
  - apply IHosb_sections_mean; [easy|]. unfold osb_range in *. cbn [osb_variables osb_events opt_all]. apply andb_true_iff in Ho as [_ Ho]. rewrite Ho, andb_true_r.
    apply variables_gives. exists (ch_body x). now rewrite variables_model.
  - apply IHosb_sections_mean; [easy|]. unfold osb_range in *. cbn [osb_variables osb_events opt_all]. apply andb_true_iff in Ho as [Ho _]. rewrite Ho. cbn [andb].
    apply (events_found dbg 14%Z (vars_or_none (osb_variables o)) (ch_body x)); [easy|now destruct (osb_variables o)|].
    change (ROk (Some es)) with (rmap (E := line_err ev_err) Some (ROk es)). now apply events_section_vars.
Qed.
Lemma osb_gives dbg o : (exists s, osb_from_str dbg s 14%Z = ROk (Some o)) <-> osb_range o = true.
Proof.
  split.
  - intros [s H]. change (ROk (Some o)) with (rmap (E := line_err osb_err) Some (ROk o)) in H. apply osb_means_iff in H.
    remember (ROk o) as r eqn:E. destruct H as [|n cs r P H]; try discriminate E. subst r. now apply osb_sections_range in H.
  - intros H. unfold osb_range in H. apply andb_true_iff in H as [H1 H2]. destruct o as [vs es]. cbn [osb_variables osb_events] in *.
    assert (A : exists ce, Forall (fun x => chunk_ok x = true /\ ch_body x <> []) ce
      /\ forall n cs r, (forall n before, incl before [lit "Events"] -> osb_sections_mean dbg n before (mk_osb None es) cs r) ->
           osb_sections_mean dbg n [] (mk_osb None None) (ce ++ cs) r).
    { destruct es as [es|]; [|exists []; split; [constructor|intros; now apply H]]. cbn [opt_all] in H2.
      rewrite <- (forallb_ext' (event_in dbg 14%Z)) in H2 by (intros; now apply event_new). apply (events_body dbg 14%Z) in H2 as (b & B1 & B2). exists [mk_chunk (lit "Events") [10] b]. split.
      - constructor; [|constructor]. unfold chunk_ok, stands in *. cbn [ch_name ch_space ch_body]. destruct b as [|c b]; [easy|]. split; [exact B1|easy].
      - intros n cs r K. cbn [app]. apply os_events with (es := es); [easy|reflexivity| |apply K; now intros k [<-|[]]; left].
        apply events_section_vars. exact B2. }
    assert (B : exists cv, Forall (fun x => chunk_ok x = true /\ ch_body x <> []) cv
      /\ forall n before, incl before [lit "Events"] -> osb_sections_mean dbg n before (mk_osb None es) cv (ROk (mk_osb vs es))).
    { destruct vs as [vs|]; [|exists []; split; constructor]. cbn [opt_all] in H1. apply variables_body in H1 as (b & B1 & B2).
      exists [mk_chunk (lit "Variables") [10] b]. split.
      - constructor; [|constructor]. unfold chunk_ok, stands in *. cbn [ch_name ch_space ch_body]. destruct b as [|c b]; [easy|]. split; [exact B1|easy].
      - intros n before Hb. apply os_variables with (vs := vs); [|reflexivity|exact B2|constructor]. cbn [ch_name]. intros K. apply Hb in K as [K|[]]. discriminate K. }
    destruct A as (ce & A1 & A2), B as (cv & B1 & B2). destruct (begins_for (ce ++ cv) 0) as (rest & ls & n & _ & L1 & L2); [now apply Forall_app|].
    exists rest. change (ROk (Some (mk_osb vs es))) with (rmap (E := line_err osb_err) Some (ROk (mk_osb vs es))). apply osb_means_iff.
    apply om_sections with (n := n) (cs := ce ++ cv); [|now apply A2]. now exists (if is_empty (ce ++ cv) then [] else [[]]), ls.
Qed.
