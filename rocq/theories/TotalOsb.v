(** Facts behind C61: the reader of .osb files on any text. *)
From Coq Require Import String List NArith ZArith Bool Lia.
From Verif Require Import Str Num Nom Dec Parsers Storyboard NormalEvents Events Osb OsuFile Spec SpecWf SpecText SpecTypes SpecEvents SpecFile
  SpecEvSection SpecOsb SpecTotal SpecParts SpecTotalOsb StrFacts CmdFacts CmdTree EvFacts EvPanic EvSection FileFacts FileLoop OsbFacts TotalFacts.
Import ListNotations.
Local Open Scope N_scope.

(** ** events with variables *)
Lemma command_with_panic vs s : (exists p, cmd_parse vs s = RPanic p) <->
  bad_offset s \/ exists q s', searched s q /\ with_values q vs s s' /\ trigger_stops s'.
Proof.
  unfold cmd_parse. split.
  - intros [p H]. destruct (line_without_header s) as [q|e|e] eqn:E; cbn [rbind] in H; [|easy|left; apply header_panic; eauto].
    right. exists q, (expand_vars vs q s). split; [now apply searched_iff|]. split; [now apply with_values_iff|]. apply cmd_panic. eauto.
  - intros [H|(q & s' & H1 & H2 & H3)]; [apply header_panic in H as (p & ->); now exists p|].
    apply searched_iff in H1. apply with_values_iff in H2. rewrite H1. cbn [rbind]. rewrite H2. now apply cmd_panic.
Qed.
Lemma step_with_panic dbg v vs evs s : old_version v = false -> is_blank s = false ->
  ((exists p, ev_step dbg v vs evs s = RPanic p) <-> bad_line_with vs s /\ (indented s = true -> takes_commands evs)).
Proof.
  intros Hv Hb. rewrite takes_alt. unfold ev_step, bad_line_with. destruct (strip_prefix (lit "//") s) as [c|] eqn:E; [split; [now intros [p H]|now intros [[_ [H _]] _]]|].
  rewrite indent_pos. destruct (indented s) eqn:Ei.
  - rewrite <- command_with_panic. destruct (last_opt_cases evs) as [[-> ->]|(l & e & -> & ->)].
    { split; [now intros [p H]|]. intros [_ H]. destruct (H eq_refl) as (l & e & He & _). now destruct l. }
    destruct (ev_cmds e) as [cs|] eqn:Ec.
    2:{ split; [now intros [p H]|]. intros [_ H]. destruct (H eq_refl) as (l' & e' & He & He'). apply app_inj_tail in He as [_ ->]. congruence. }
    split.
    + intros [p H]. split; [|intros _; exists l, e; split; [easy|congruence]]. split; [easy|]. split; [easy|].
      destruct (cmd_parse vs s) as [[c|]|er|q]; cbn [rmap_err rbind] in H; try easy; [|eauto]. exfalso.
      assert (Hp : (1 <= indent_of s)%nat) by (rewrite <- indent_pos in Ei; now apply Nat.ltb_lt in Ei).
      pose proof (try_push_spec cs c (indent_of s) Hp) as K. destruct (try_push_cmd cs c (indent_of s)) as [|[]|]; easy.
    + intros [(_ & _ & (p & ->)) _]. now exists p.
  - rewrite <- (own_panic dbg v s Hv). split.
    + intros [p H]. split; [|easy]. split; [easy|]. split; [easy|]. destruct (ev_from_line dbg v s); cbn in H; try easy. eauto.
    + intros [(_ & _ & (p & ->)) _]. now exists p.
Qed.
Lemma loop_with_panics dbg v vs ls : old_version v = false -> forall i evs p, ev_loop dbg v vs i evs ls = RPanic p ->
  exists a l b evs', ls = a ++ l :: b /\ ev_loop dbg v vs i evs a = ROk evs' /\ bad_line_with vs l /\ (indented l = true -> takes_commands evs').
Proof.
  intros Hv. induction ls as [|l ls IH]; intros i evs p; cbn [ev_loop]; [easy|].
  destruct (is_blank l) eqn:Eb.
  - intros H. apply IH in H as (a & x & b & evs' & -> & H1 & H2). exists (l :: a), x, b, evs'. split; [easy|]. cbn [ev_loop]. now rewrite Eb.
  - destruct (ev_step dbg v vs evs l) as [evs1|e|q] eqn:E; [|easy|].
    + intros H. apply IH in H as (a & x & b & evs' & -> & H1 & H2). exists (l :: a), x, b, evs'. split; [easy|]. cbn [ev_loop]. now rewrite Eb, E.
    + intros _. exists [], l, ls, evs. split; [easy|]. split; [easy|]. apply (step_with_panic dbg v vs evs l Hv Eb). eauto.
Qed.
Lemma events_with_panic dbg v vs s : old_version v = false ->
  (panics (events_from_str_vars dbg vs s v) <->
   exists a l b evs, lines s = a ++ l :: b /\ events_from_str_vars dbg vs (crlf_text a) v = ROk (Some evs)
     /\ bad_line_with vs l /\ (indented l = true -> takes_commands evs)).
Proof.
  intros Hv. unfold panics, events_from_str_vars. split.
  - intros [p H]. destruct (ev_loop dbg v vs 0 [] (lines s)) as [|e|q] eqn:E; try easy.
    apply loop_with_panics in E as (a & l & b & evs & E & H1 & H2); [|easy]. exists a, l, b, evs. split; [easy|]. split; [|easy].
    rewrite lines_crlf; [now rewrite H1|]. pose proof (lines_no_nl s) as K. rewrite E, forallb_app in K. now apply andb_true_iff in K as [K _].
  - intros (a & l & b & evs & E & H1 & H2 & H3).
    rewrite lines_crlf in H1 by (pose proof (lines_no_nl s) as K; rewrite E, forallb_app in K; now apply andb_true_iff in K as [K _]).
    destruct (ev_loop dbg v vs 0 [] a) as [evs'| |] eqn:E1; try easy. injection H1 as ->.
    rewrite E, loop_app, E1. cbn [ev_loop]. pose proof (proj1 H2) as Hb. rewrite Hb.
    destruct (proj2 (step_with_panic dbg v vs evs l Hv Hb) (conj H2 H3)) as (p & ->). now exists p.
Qed.

(** ** texts *)
(** the sections of the text [s] *)
Definition osb_chunks (s : str) (cs : list chunk) : Prop := exists n, osb_parts s n cs.
Lemma osb_chunks_loop dbg s cs : osb_chunks s cs ->
  exists line ws, osb_from_str dbg s 14%Z = rmap Some (osb_loop dbg 14%Z line [] (mk_osb None None) (with_space ws cs)).
Proof.
  intros (n & pre & ls & E & Hp & Hl & Hf & _). unfold osb_from_str. cbn [Z.ltb Z.compare Pos.compare Pos.compare_cont].
  rewrite E, split_pre_cut by (easy || exact (forallb_and_r _ _ _ Hp)).
  rewrite unexpected_none by easy. apply many0_chunks in Hf as (ws & r & Hf). change [c_nl] with [10]. rewrite Hf. eexists _, ws. reflexivity.
Qed.
(** ** sections *)
Definition osb_step (dbg : bool) (acc : osb) (x : chunk) (m : osb) : Prop :=
  (ch_name x = lit "Variables" /\ exists vs, variables_are (ch_body x) vs /\ m = mk_osb (Some vs) (osb_events acc))
  \/ (ch_name x = lit "Events" /\ exists l, events_from_str_vars dbg (vars_or_none (osb_variables acc)) (ch_body x) 14%Z = ROk (Some l)
        /\ m = mk_osb (osb_variables acc) (Some l)).
Inductive osb_goes (dbg : bool) : list str -> osb -> list chunk -> osb -> Prop :=
| og_nil parsed acc : osb_goes dbg parsed acc [] acc
| og_cons parsed acc x m cs f : ~ In (ch_name x) parsed -> osb_step dbg acc x m ->
    osb_goes dbg (parsed ++ [ch_name x]) m cs f -> osb_goes dbg parsed acc (x :: cs) f.
Lemma osb_goes_names dbg parsed acc cs f : osb_goes dbg parsed acc cs f ->
  Forall (fun x => In (sec_name x) osb_names) (map ch_sec cs) /\ (forall x, In x (map ch_sec cs) -> ~ In (sec_name x) parsed)
  /\ NoDup (map sec_name (map ch_sec cs)).
Proof.
  induction 1 as [|parsed acc x m cs f Hp Hs H (K1 & K2 & K3)]; [repeat split; easy || constructor|]. cbn [map].
  assert (Hd : forall y, In y (map ch_sec cs) -> sec_name y <> sec_name (ch_sec x)).
  { intros y Hy E. apply (K2 y Hy). rewrite in_app_iff, E. right. now left. }
  split; [|split; [|apply NoDup_cons_names; now split]].
  - constructor; [|easy]. cbn. destruct Hs as [[-> _]|[-> _]]; auto.
  - intros y [<- |Hy]; [exact Hp|]. intros E. apply (K2 y Hy). rewrite in_app_iff. now left.
Qed.
Lemma osb_goes_means dbg cs o : shape (map ch_sec cs) -> (osb_goes dbg [] (mk_osb None None) cs o <-> means dbg (map ch_sec cs) o).
Proof.
  pose proof names_differ as N. intros Hsh.
  assert (One : forall p acc x f, osb_goes dbg p acc [x] f <-> ~ In (ch_name x) p /\ osb_step dbg acc x f).
  { intros p acc x f. split.
    - intros H. inversion H as [|? ? ? m ? ? H1 H2 H3]; subst. inversion H3; subst. easy.
    - intros [H1 H2]. econstructor; [easy|exact H2|constructor]. }
  assert (Two : forall p acc x y f, osb_goes dbg p acc [x; y] f <-> ~ In (ch_name x) p /\ exists m, osb_step dbg acc x m
      /\ ~ In (ch_name y) (p ++ [ch_name x]) /\ osb_step dbg m y f).
  { intros p acc x y f. split.
    - intros H. inversion H as [|? ? ? m ? ? H1 H2 H3]; subst. apply One in H3. split; [easy|]. exists m. easy.
    - intros (H1 & m & H2 & H3 & H4). econstructor; [easy|exact H2|]. now apply One. }
  destruct cs as [|x [|y [|z cs]]]; cbn [map] in *.
  - cbn [means]. split; [intros H; now inversion H|intros ->; constructor].
  - rewrite One. unfold osb_step. cbn [means osb_variables osb_events vars_or_none]. unfold ch_sec. cbn [sec_name sec_body sec_lines]. 
    change (join [10] [ch_body x]) with (ch_body x). cbn [In]. split; [now intros [_ H]|intros H; split; [tauto|exact H]].
  - rewrite Two. cbn [means]. change (sec_name (ch_sec x)) with (ch_name x). change (sec_name (ch_sec y)) with (ch_name y).
    change (sec_body (ch_sec x)) with (ch_body x). change (sec_body (ch_sec y)) with (ch_body y).
    assert (S : (ch_name x = lit "Variables" /\ ch_name y = lit "Events") \/ (ch_name x = lit "Events" /\ ch_name y = lit "Variables")).
    { clear -Hsh. inversion Hsh; subst; auto. }
    unfold osb_step. cbn [osb_variables osb_events vars_or_none app In].
    destruct S as [[S1 S2]|[S1 S2]]; rewrite S1, S2; split.
    + intros (_ & m & [[_ (vs & H1 & ->)]|[H _]] & _ & [[H' _]|[_ (l & H2 & ->)]]); try congruence. cbn in H2. left. split; [easy|]. exists vs, l. easy.
    + intros [[_ (vs & l & H1 & H2 & ->)]|[H _]]; [|congruence]. split; [tauto|]. exists (mk_osb (Some vs) None). split; [left; split; [easy|now exists vs]|].
      split; [intuition congruence|]. right. split; [easy|]. now exists l.
    + intros (_ & m & [[H _]|[_ (l & H2 & ->)]] & _ & [[_ (vs & H1 & ->)]|[H' _]]); try congruence. right. split; [easy|]. exists vs, l. easy.
    + intros [[H _]|[_ (vs & l & H1 & H2 & ->)]]; [congruence|]. split; [tauto|]. exists (mk_osb None (Some l)). split; [right; split; [easy|now exists l]|].
      split; [intuition congruence|]. left. split; [easy|]. now exists vs.
  - exfalso. inversion Hsh.
Qed.
Lemma osb_goes_iff dbg cs o : osb_goes dbg [] (mk_osb None None) cs o <-> osb_all_read dbg (map ch_sec cs) o.
Proof.
  unfold osb_all_read. split.
  - intros H. destruct (osb_goes_names _ _ _ _ _ H) as (K1 & _ & K3). pose proof (shapes _ K3 K1) as Hsh.
    repeat split; [easy|easy| |]; apply (means_is dbg _ o Hsh); now apply osb_goes_means.
  - intros (K1 & K2 & K3). pose proof (shapes _ K1 K2) as Hsh. apply osb_goes_means; [easy|]. now apply means_is.
Qed.
Lemma osb_loop_goes dbg parsed acc before g : osb_goes dbg parsed acc before g -> forall ws line rest,
  exists line' ws', osb_loop dbg 14%Z line parsed acc (with_space ws (before ++ rest))
    = osb_loop dbg 14%Z line' (parsed ++ map ch_name before) g (with_space ws' rest).
Proof.
  induction 1 as [parsed acc|parsed acc x m cs f Hp Hs H IH]; intros ws line rest.
  - exists line, ws. cbn [app map]. now rewrite app_nil_r.
  - cbn [app with_space osb_loop map]. apply mem_str_not_In in Hp. rewrite Hp.
    replace (parsed ++ ch_name x :: map ch_name cs) with ((parsed ++ [ch_name x]) ++ map ch_name cs) by now rewrite <- app_assoc.
    destruct Hs as [[E (vs & Hv & ->)]|[E (l & Hl & ->)]]; rewrite E in *.
    + rewrite str_eqb_refl. apply variables_iff in Hv. rewrite Hv. cbn [processing_line rmap_err rmap rbind]. apply IH.
    + replace (str_eqb (lit "Events") (lit "Variables")) with false by reflexivity. rewrite str_eqb_refl.
      fold (vars_or_none (osb_variables acc)). rewrite Hl. cbn [processing_line rmap_err rmap rbind]. apply IH.
Qed.
Definition osb_wrong dbg parsed acc x e : Prop :=
  (In (ch_name x) parsed /\ e = OsbDuplicateSections)
  \/ (~ In (ch_name x) parsed /\ ~ In (ch_name x) osb_names /\ e = OsbUnknownSection)
  \/ (~ In (ch_name x) parsed /\ ch_name x = lit "Variables" /\ exists k e', variables_from_str (ch_body x) = RErr (mk_line_err k e') /\ e = OsbVariable e')
  \/ (~ In (ch_name x) parsed /\ ch_name x = lit "Events" /\ exists k e',
        events_from_str_vars dbg (vars_or_none (osb_variables acc)) (ch_body x) 14%Z = RErr (mk_line_err k e') /\ e = OsbEvents e').
Definition osb_bursts dbg parsed acc x : Prop :=
  ~ In (ch_name x) parsed /\ ch_name x = lit "Events" /\ panics (events_from_str_vars dbg (vars_or_none (osb_variables acc)) (ch_body x) 14%Z).
Lemma osb_loop_wrong dbg parsed acc x e rest : osb_wrong dbg parsed acc x e -> forall line ws,
  exists j, osb_loop dbg 14%Z line parsed acc (with_space ws (x :: rest)) = RErr (mk_line_err j e).
Proof.
  intros H line ws. cbn [with_space osb_loop].
  destruct H as [[H ->]|[(H & Hn & ->)|[(H & E & k & e' & Hr & ->)|(H & E & k & e' & Hr & ->)]]].
  - apply mem_str_In in H. rewrite H. eexists; reflexivity.
  - apply mem_str_not_In in H. rewrite H.
    destruct (str_eqb (ch_name x) (lit "Variables")) eqn:E1; [apply str_eqb_eq in E1; exfalso; apply Hn; rewrite E1; now left|].
    destruct (str_eqb (ch_name x) (lit "Events")) eqn:E2; [apply str_eqb_eq in E2; exfalso; apply Hn; rewrite E2; right; now left|].
    eexists; reflexivity.
  - apply mem_str_not_In in H. rewrite H, E, str_eqb_refl, Hr. eexists; reflexivity.
  - apply mem_str_not_In in H. rewrite H, E. replace (str_eqb (lit "Events") (lit "Variables")) with false by reflexivity.
    rewrite str_eqb_refl. fold (vars_or_none (osb_variables acc)). rewrite Hr. eexists; reflexivity.
Qed.
Lemma osb_loop_bursts dbg parsed acc x rest : osb_bursts dbg parsed acc x -> forall line ws,
  exists p, osb_loop dbg 14%Z line parsed acc (with_space ws (x :: rest)) = RPanic p.
Proof.
  intros (H & E & p & Hr) line ws. cbn [with_space osb_loop].
  apply mem_str_not_In in H. rewrite H, E. replace (str_eqb (lit "Events") (lit "Variables")) with false by reflexivity.
  rewrite str_eqb_refl. fold (vars_or_none (osb_variables acc)). rewrite Hr. eexists; reflexivity.
Qed.
Lemma osb_loop_cases dbg cs : forall parsed acc,
  (exists f, osb_goes dbg parsed acc cs f)
  \/ exists before x rest g, cs = before ++ x :: rest /\ osb_goes dbg parsed acc before g
     /\ ((exists e, osb_wrong dbg (parsed ++ map ch_name before) g x e) \/ osb_bursts dbg (parsed ++ map ch_name before) g x).
Proof.
  induction cs as [|x cs IH]; intros parsed acc; [left; eexists; constructor|].
  assert (Now : ((exists e, osb_wrong dbg parsed acc x e) \/ osb_bursts dbg parsed acc x)
     \/ (~ In (ch_name x) parsed /\ exists m, osb_step dbg acc x m)).
  { destruct (in_dec (list_eq_dec N.eq_dec) (ch_name x) parsed) as [H1|H1].
    { left. left. eexists. left. split; [exact H1|reflexivity]. }
    destruct (in_dec (list_eq_dec N.eq_dec) (ch_name x) osb_names) as [H2|H2].
    2:{ left. left. eexists. right. left. repeat split; [exact H1|exact H2]. }
    destruct H2 as [H2|[H2|[]]]; symmetry in H2.
    - destruct (variables_from_str (ch_body x)) as [vs|[k e]|p] eqn:E.
      + right. split; [exact H1|]. exists (mk_osb (Some vs) (osb_events acc)). left. split; [exact H2|]. exists vs. split; [now apply variables_iff|easy].
      + left. left. exists (OsbVariable e). right. right. left. repeat split; [exact H1|exact H2|]. now exists k, e.
      + exfalso. now apply variables_no_panic in E.
    - destruct (events_from_str_vars dbg (vars_or_none (osb_variables acc)) (ch_body x) 14%Z) as [[l|]|[k e]|p] eqn:E.
      + right. split; [exact H1|]. exists (mk_osb (osb_variables acc) (Some l)). right. split; [exact H2|]. now exists l.
      + exfalso. unfold events_from_str_vars in E. now destruct (ev_loop _ _ _ _ _ _).
      + left. left. exists (OsbEvents e). right. right. right. repeat split; [exact H1|exact H2|]. now exists k, e.
      + left. right. repeat split; [exact H1|exact H2|]. now exists p. }
  destruct Now as [Bad|(H1 & m & H4)].
  - right. exists [], x, cs, acc. cbn [map app]. rewrite app_nil_r. split; [easy|]. split; [constructor|exact Bad].
  - destruct (IH (parsed ++ [ch_name x]) m) as [[f Hf]|(before & y & rest & g & -> & Hg & Bad)].
    + left. exists f. now apply og_cons with m.
    + right. exists (x :: before), y, rest, g. split; [easy|]. split; [now apply og_cons with m|].
      cbn [map]. rewrite <- app_assoc in Bad. exact Bad.
Qed.
Lemma osb_outcome dbg s cs : osb_chunks s cs ->
  (exists f, osb_goes dbg [] (mk_osb None None) cs f /\ osb_from_str dbg s 14%Z = ROk (Some f))
  \/ (exists before x rest g e j, cs = before ++ x :: rest /\ osb_goes dbg [] (mk_osb None None) before g
       /\ osb_wrong dbg (map ch_name before) g x e /\ osb_from_str dbg s 14%Z = RErr (mk_line_err j e))
  \/ (exists before x rest g p, cs = before ++ x :: rest /\ osb_goes dbg [] (mk_osb None None) before g
       /\ osb_bursts dbg (map ch_name before) g x /\ osb_from_str dbg s 14%Z = RPanic p).
Proof.
  intros H. destruct (osb_chunks_loop dbg s cs H) as (line & ws & ->).
  destruct (osb_loop_cases dbg cs [] (mk_osb None None)) as [[f Hf]|(before & x & rest & g & -> & Hg & [[e Bad]|Bad])]; cbn [app] in *.
  - left. exists f. split; [exact Hf|]. destruct (osb_loop_goes _ _ _ _ _ Hf ws line []) as (l' & w' & E). rewrite app_nil_r in E. now rewrite E.
  - right. left. destruct (osb_loop_goes _ _ _ _ _ Hg ws line (x :: rest)) as (l' & w' & ->). cbn [app].
    destruct (osb_loop_wrong _ _ _ _ _ rest Bad l' w') as [j ->]. exists before, x, rest, g, e, j. easy.
  - right. right. destruct (osb_loop_goes _ _ _ _ _ Hg ws line (x :: rest)) as (l' & w' & ->). cbn [app].
    destruct (osb_loop_bursts _ _ _ _ rest Bad l' w') as [p ->]. exists before, x, rest, g, p. easy.
Qed.
Lemma osb_total_read dbg s cs o : osb_chunks s cs -> (osb_from_str dbg s 14%Z = ROk (Some o) <-> osb_all_read dbg (map ch_sec cs) o).
Proof.
  intros H. rewrite <- osb_goes_iff. split.
  - intros E. destruct (osb_outcome dbg s cs H) as [(f & Hf & E')|[(b & x & r & g & e & j & _ & _ & _ & E')|(b & x & r & g & p & _ & _ & _ & E')]]; rewrite E in E'; try easy.
    injection E' as ->. exact Hf.
  - intros Hf. destruct (osb_chunks_loop dbg s cs H) as (line & ws & ->).
    destruct (osb_loop_goes _ _ _ _ _ Hf ws line []) as (l' & w' & E). rewrite app_nil_r in E. now rewrite E.
Qed.
Lemma wrong_complaint dbg before g x e : (exists d, osb_complaint dbg (map ch_sec before) (vars_or_none (osb_variables g)) (ch_sec x) d e)
  <-> osb_wrong dbg (map ch_name before) g x e.
Proof.
  pose proof (chunks_names before) as N. split.
  - intros [d H]. destruct H as [H|H1 H2|k l more good H1 Hn Hb Hk Hg Hbl Hno|k e H1 Hn Hr]; rewrite N in *.
    + now left.
    + right. left. easy.
    + right. right. left. split; [exact H1|]. split; [exact Hn|]. exists k. eexists. split; [|reflexivity].
      apply variables_err. exists good, l, more. auto 10.
    + right. right. right. split; [exact H1|]. split; [exact Hn|]. exists k, e. split; [exact Hr|reflexivity].
  - intros [[H ->]|[(H & Hn & ->)|[(H & E & k & e' & Hr & ->)|(H & E & k & e' & Hr & ->)]]].
    + eexists. apply osb_duplicate. now rewrite N.
    + eexists. apply osb_unknown; [now rewrite N|exact Hn].
    + apply variables_err in Hr as (good & l & more & Hl & Hk & Hg & Hb & Hno & ->). eexists. apply (osb_bad_variable _ _ _ (ch_sec x) k l more good); try assumption; now rewrite N.
    + eexists. apply osb_bad_event with (k := k); [now rewrite N|exact E|exact Hr].
Qed.
Lemma osb_total_error dbg s cs e : osb_chunks s cs ->
  ((exists j, osb_from_str dbg s 14%Z = RErr (mk_line_err j e)) <->
   exists before x g d, osb_reaches dbg cs before x g /\ osb_complaint dbg (map ch_sec before) (vars_or_none (osb_variables g)) (ch_sec x) d e).
Proof.
  intros H. split.
  - intros [j E]. destruct (osb_outcome dbg s cs H) as [(f & Hf & E')|[(b & x & r & g & e' & j' & -> & Hg & Hw & E')|(b & x & r & g & p & _ & _ & _ & E')]]; rewrite E in E'; try easy.
    injection E' as <- <-. apply wrong_complaint in Hw as [d Hw]. exists b, x, g, d. split; [|exact Hw]. split; [now exists r|]. now apply osb_goes_iff.
  - intros (b & x & g & d & [[r ->] Hg] & Hc). apply osb_goes_iff in Hg.
    assert (Hw : osb_wrong dbg (map ch_name b) g x e) by (apply wrong_complaint; now exists d).
    destruct (osb_chunks_loop dbg s _ H) as (line & ws & ->).
    destruct (osb_loop_goes _ _ _ _ _ Hg ws line (x :: r)) as (l' & w' & ->). cbn [app].
    destruct (osb_loop_wrong _ _ _ _ _ r Hw l' w') as [j ->]. now exists j.
Qed.
Lemma osb_total_panic dbg s cs : osb_chunks s cs -> (panics (osb_from_str dbg s 14%Z) <->
  exists before x g, osb_reaches dbg cs before x g /\ ~ In (ch_name x) (map ch_name before) /\ ch_name x = lit "Events"
    /\ panics (events_from_str_vars dbg (vars_or_none (osb_variables g)) (ch_body x) 14%Z)).
Proof.
  intros H. split.
  - intros [p E]. destruct (osb_outcome dbg s cs H) as [(f & Hf & E')|[(b & x & r & g & e' & j' & _ & _ & _ & E')|(b & x & r & g & q & -> & Hg & Hb & E')]]; rewrite E in E'; try easy.
    exists b, x, g. split; [|exact Hb]. split; [now exists r|]. now apply osb_goes_iff.
  - intros (b & x & g & [[r ->] Hg] & Hb). apply osb_goes_iff in Hg.
    destruct (osb_chunks_loop dbg s _ H) as (line & ws & ->).
    destruct (osb_loop_goes _ _ _ _ _ Hg ws line (x :: r)) as (l' & w' & ->). cbn [app].
    destruct (osb_loop_bursts dbg (map ch_name b) g x r Hb l' w') as [p ->]. now exists p.
Qed.
Lemma osb_total_safe dbg s cs p : osb_chunks s cs ->
  (forall before x g l, osb_reaches dbg cs before x g -> ch_name x = lit "Events" -> In l (lines (ch_body x)) ->
     ~ bad_line_with (vars_or_none (osb_variables g)) l) ->
  osb_from_str dbg s 14%Z <> RPanic p.
Proof.
  intros H Hs E. assert (K : panics (osb_from_str dbg s 14%Z)) by now exists p.
  apply (osb_total_panic dbg s cs H) in K as (b & x & g & Hr & _ & Hn & Hp).
  apply events_with_panic in Hp as (a & l & c & evs & Hl & _ & Hb & _); [|easy].
  apply (Hs b x g l Hr Hn); [rewrite Hl; apply in_elt|exact Hb].
Qed.
Lemma osb_total_ignored dbg s : osb_chunks s [] -> osb_from_str dbg s 14%Z = ROk (Some (mk_osb None None)).
Proof. intros H. apply (osb_total_read dbg s [] _ H). apply osb_goes_iff. constructor. Qed.
