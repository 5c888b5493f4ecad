(** Every text is read, refused or makes the reader panic for a reason (C40). *)
From Coq Require Import String List NArith ZArith Bool Lia.
From Verif Require Import Str Num Nom Dec Parsers KeyValue General Editor Metadata Difficulty Colours
  TimingPoints HitObjects Storyboard NormalEvents Events Osb OsuFile Spec SpecText SpecKv SpecSections SpecEvents SpecFile SpecTotal
  KvImage KvStatements ColoursFacts TpFacts HoFacts EvPanic
  StrFacts NumFacts NomFacts LayoutFacts TriggerFacts FileFacts FileLoop FileTheorems FileEmpty.
Import ListNotations.
Local Open Scope N_scope.

(** ** the sections of a text *)
Lemma name_char_eq c : name_char c = negb ((c =? 93) || (c =? 10)).
Proof. unfold name_char. now rewrite negb_orb. Qed.
Lemma square_chunk w x more : forallb layout_char w = true -> chunk_ok x = true ->
  (more = [] \/ ch_body x <> [] /\ exists t, more = [10; 91] ++ t) ->
  @square_section unit (w ++ chunk_text x ++ more) = POk more (w, ch_name x, ch_space x, ch_body x).
Proof.
  intros Hw Hx Hm. unfold chunk_ok in Hx. rewrite !andb_true_iff in Hx. destruct Hx as [[[Hn Hs] Hb] Hc].
  unfold square_section, multispace0, delimited, chunk_text. rewrite <- !app_assoc.
  eapply pbind_step; [apply take_while_app; [exact Hw|reflexivity]|]. cbn [app lit].
  eapply pbind_step.
  { eapply preceded_step; [apply (tag_one 91)|]. eapply terminated_step.
    - unfold take_till. apply take_while_app; [|reflexivity]. rewrite <- Hn. apply forallb_same. intros c. now rewrite name_char_eq.
    - apply (tag_one 93). }
  cbv beta. eapply pbind_step.
  { apply take_while_app; [exact Hs|]. destruct (ch_body x) as [|c b].
    - destruct Hm as [-> |[[] _]]; easy.
    - cbn [app stops]. change (is_multispace c) with (layout_char c). exact Hb. }
  apply pmap_step. apply negb_true_iff in Hc. unfold contains in Hc. destruct (find_sub [10; 91] (ch_body x)) as [|] eqn:F; [easy|].
  destruct Hm as [-> |[_ [t ->]]].
  - rewrite app_nil_r. erewrite alt_r; [reflexivity|]. unfold take_until. change [c_nl; 91] with [10; 91]. rewrite F. reflexivity.
  - apply alt_l. unfold take_until. change [c_nl; 91] with [10; 91].
    assert (G : find_sub [10; 91] (ch_body x ++ [10; 91] ++ t) = Some (ch_body x, [10; 91] ++ t)); [|now rewrite G].
    clear -F. induction (ch_body x) as [|c b IH]; [reflexivity|]. cbn [app find_sub] in *.
    destruct (starts_with [10; 91] (c :: b)) eqn:E; [easy|].
    assert (E2 : starts_with [10; 91] (c :: b ++ [10; 91] ++ t) = false).
    { unfold starts_with in *. cbn [strip_prefix] in *. destruct (10 =? c); [|easy]. destruct b as [|d b]; [reflexivity|].
      cbn [app]. now destruct (91 =? d). }
    cbn [app] in E2, IH. rewrite E2. destruct (find_sub [10; 91] b) as [[]|]; [easy|]. rewrite IH by easy. reflexivity.
Qed.
Lemma square_inv t : (exists w x more, t = w ++ chunk_text x ++ more /\ forallb layout_char w = true /\ chunk_ok x = true
    /\ (more = [] \/ ch_body x <> [] /\ exists t, more = [10; 91] ++ t))
  \/ (exists e, @square_section unit t = PErr e)
     /\ (forall w n r, forallb layout_char w = true -> forallb name_char n = true -> t <> w ++ lit "[" ++ n ++ lit "]" ++ r).
Proof.
  destruct (span is_multispace t) as [w t1] eqn:E1. destruct (span_spec _ _ _ _ E1) as (-> & Hw & H1).
  assert (U : forall w' u, forallb layout_char w' = true -> w ++ t1 = w' ++ 91 :: u -> w = w' /\ t1 = 91 :: u).
  { intros w' u Hw' E. pose proof (span_app is_multispace w' (91 :: u) Hw' eq_refl) as K. rewrite <- E, E1 in K. injection K as -> ->. easy. }
  assert (S : @square_section unit (w ++ t1) = pbind (delimited (tag (lit "[")) (take_till (fun c => (c =? 93) || (c =? 10)))
                     (tag (lit "]"))) (fun name =>
    pbind multispace0 (fun ws2 =>
    pmap (fun body => (w, name, ws2, body)) (alt (take_until [c_nl; 91]) prest))) t1).
  { unfold square_section, multispace0 at 1, pbind at 1, take_while. now rewrite E1. }
  destruct t1 as [|c t1].
  { right. split; [rewrite S; eexists; reflexivity|]. intros w' n r Hw' Hn E. destruct (U w' _ Hw' E) as [_ K]. easy. }
  destruct (N.eqb_spec c 91) as [->|Hc].
  2:{ right. split.
      - rewrite S. unfold delimited, preceded, pbind, tag. apply N.eqb_neq in Hc. rewrite N.eqb_sym in Hc.
        replace (strip_prefix (lit "[") (c :: t1)) with (@None str); [eexists; reflexivity|].
        change (strip_prefix (lit "[") (c :: t1)) with (if 91 =? c then Some t1 else None). now rewrite Hc.
      - intros w' n r Hw' Hn E. destruct (U w' _ Hw' E) as [_ K]. injection K as K _. congruence. }
  destruct (span name_char t1) as [n t2] eqn:E2. destruct (span_spec _ _ _ _ E2) as (-> & Hn & H2).
  assert (Hn' : forallb (fun c => negb ((c =? 93) || (c =? 10))) n = true) by (rewrite <- Hn; apply forallb_same; intros c; now rewrite name_char_eq).
  destruct t2 as [|d t2].
  { right. split.
    - rewrite S. unfold delimited. rewrite app_nil_r. unfold preceded, pbind. rewrite (tag_one 91).
      unfold terminated, pbind, take_till. rewrite take_while_all by easy. eexists. reflexivity.
    - intros w' n' r Hw' Hn'' E. destruct (U w' _ Hw' E) as [_ K]. injection K as K. rewrite app_nil_r in K. subst n.
      rewrite !forallb_app in Hn. cbn in Hn. rewrite !andb_false_r in Hn. easy. }
  cbn [stops] in H2. apply negb_true_iff in H2 || idtac.
  destruct (N.eqb_spec d 93) as [->|Hd].
  2:{ right. assert (d = 10) by (unfold name_char in H2; apply N.eqb_neq in Hd; rewrite Hd in H2; cbn in H2; destruct (N.eqb_spec d 10); [easy|now cbn in H2]). subst d. split.
      - rewrite S. unfold delimited, preceded, pbind. rewrite (tag_one 91).
        unfold terminated, pbind, take_till. rewrite take_while_app by easy. eexists. reflexivity.
      - intros w' n' r Hw' Hn'' E. destruct (U w' _ Hw' E) as [_ K]. injection K as K.
        pose proof (span_app name_char n' (93 :: r) Hn'' eq_refl) as K2. change (lit "]" ++ r) with (93 :: r) in K. rewrite <- K, E2 in K2. injection K2 as _ K2. easy. }
  left. destruct (span is_multispace t2) as [sp t3] eqn:E3. destruct (span_spec _ _ _ _ E3) as (-> & Hs & H3).
  destruct (find_sub [10; 91] t3) as [[b m]|] eqn:F.
  - pose proof F as F'. apply find_sub_spec in F as [-> F]. apply starts_with_spec in F as [u ->].
    exists w, (mk_chunk n sp b), ([10; 91] ++ u). unfold chunk_text. cbn [ch_name ch_space ch_body]. split.
    { cbn [lit app]. rewrite <- !app_assoc. cbn [app]. now rewrite <- !app_assoc. }
    split; [exact Hw|].
    assert (Hb : b <> []). { intros ->. cbn in H3. easy. }
    split; [|right; split; [exact Hb|eauto]].
    unfold chunk_ok. cbn [ch_name ch_space ch_body]. rewrite !andb_true_iff. repeat split; auto.
    + destruct b as [|c b]; [easy|]. cbn [app stops] in H3. change (layout_char c) with (is_multispace c). now rewrite H3.
    + apply negb_true_iff. unfold contains. clear -F'. destruct (find_sub [10; 91] b) as [[a q]|] eqn:G; [exfalso|easy].
      assert (K : forall b a q, find_sub [10; 91] b = Some (a, q) -> forall r, find_sub [10; 91] (b ++ r) = Some (a, q ++ r)).
      { clear. induction b as [|c b IH]; intros a q G r; [easy|]. cbn [find_sub] in G.
        destruct (starts_with [10; 91] (c :: b)) eqn:E.
        - injection G as <- <-. apply starts_with_spec in E as [u E]. cbn [app]. cbn in E. injection E as -> ->. reflexivity.
        - destruct (find_sub [10; 91] b) as [[a' q']|] eqn:G'; [|easy]. injection G as <- <-. cbn [app find_sub].
          destruct (starts_with [10; 91] (c :: b ++ r)) eqn:E'.
          + exfalso. apply starts_with_spec in E' as [u E']. cbn in E'. injection E' as -> E'. destruct b as [|d b]; [easy|].
            cbn [app] in E'. injection E' as -> _. now cbn in E.
          + rewrite (IH _ _ eq_refl). reflexivity. }
      rewrite (K _ _ _ G) in F'. apply find_sub_spec in G as [_ G]. injection F' as _ F'.
      apply (f_equal (@length N)) in F'. rewrite app_length in F'. cbn [length] in F'. destruct q; [easy|]. cbn [length] in F'. lia.
  - exists w, (mk_chunk n sp t3), []. unfold chunk_text. cbn [ch_name ch_space ch_body]. split.
    { rewrite app_nil_r. reflexivity. }
    split; [exact Hw|]. split; [|now left].
    unfold chunk_ok. cbn [ch_name ch_space ch_body]. rewrite !andb_true_iff. repeat split; auto.
    + destruct t3 as [|c t3]; [easy|]. change (layout_char c) with (is_multispace c). now rewrite H3.
    + unfold contains. now rewrite F.
Qed.

Lemma falls_apart_total t : exists cs, falls_apart t cs.
Proof.
  remember (length t) as n eqn:Hn. revert t Hn. induction n as [n IH] using lt_wf_ind. intros t ->.
  destruct (square_inv t) as [(w & x & more & -> & Hw & Hx & Hm)|[_ H]].
  - destruct (IH (length more)) with more as [cs Hc]; [|reflexivity|exists (x :: cs); now apply fa_section].
    unfold chunk_text. rewrite !app_length. change (length (lit "[")) with 1%nat. lia.
  - exists []. now apply fa_end.
Qed.
(** what the reader of sections makes of them: the white space before a section matters only
    for the line numbers *)
Fixpoint with_space (ws : list str) (cs : list chunk) : list (str * str * str * str) :=
  match cs with
  | [] => []
  | x :: cs' => (match ws with w :: _ => w | [] => [] end, ch_name x, ch_space x, ch_body x) :: with_space (tl ws) cs'
  end.
Lemma many0_chunks t cs : falls_apart t cs -> exists ws r, many0 (@square_section unit) t = POk r (with_space ws cs).
Proof.
  induction 1 as [t H|w x more cs Hw Hx Hm H IH].
  - exists [], t. destruct (square_inv t) as [(w & x & more & -> & Hw & Hx & _)|[[e He] _]].
    + exfalso. unfold chunk_ok in Hx. rewrite !andb_true_iff in Hx. destruct Hx as [[[Hn _] _] _].
      apply (H w (ch_name x) (ch_space x ++ ch_body x ++ more) Hw Hn). unfold chunk_text. now rewrite <- !app_assoc.
    + exact (many0_stop _ _ _ He).
  - destruct IH as (ws & r & IH). exists (w :: ws), r. pose proof (square_chunk w x more Hw Hx Hm) as Hq.
    rewrite (many0_cons _ _ _ _ square_section_safe Hq), IH; [reflexivity|].
    unfold chunk_text. rewrite !app_length. change (length (lit "[")) with 1%nat. lia.
Qed.
Lemma falls_apart_unique t a b : falls_apart t a -> falls_apart t b -> a = b.
Proof.
  intros Ha Hb. apply many0_chunks in Ha as (wa & ra & Ha). apply many0_chunks in Hb as (wb & rb & Hb).
  rewrite Ha in Hb. injection Hb as _ Hb. clear -Hb. revert wa wb b Hb. induction a as [|[n s x] a IH]; intros wa wb [|[n' s' x'] b] H; try easy.
  cbn [with_space ch_name ch_space ch_body] in H. injection H as _ -> -> -> H. f_equal. now apply IH in H.
Qed.

(** ** the loop over the sections *)
Lemma lines_count_nonempty s : s <> [] -> (lines_count s =? 0)%Z = false.
Proof.
  intros H. unfold lines_count. apply Z.eqb_neq.
  assert (K : lines s <> []); [|destruct (lines s); [easy|cbn [length]; lia]].
  induction s as [|c s IH]; [easy|]. cbn [lines]. destruct (c =? c_nl); [easy|].
  destruct ((c =? c_cr) && _) eqn:E; [|now destruct (lines s)]. apply IH. now destruct s; [rewrite andb_false_r in E|].
Qed.
Lemma known_dec x : known x \/ ~ known x.
Proof. destruct (in_dec (list_eq_dec N.eq_dec) (sec_name x) section_names) as [H|H]; [now left|now right]. Qed.
Lemma rmap_pl_panic {A B E F} (g : A -> B) (f : E -> F) (r : res A (line_err E)) i p :
  rmap g (processing_line f r i) = RPanic p <-> r = RPanic p.
Proof. destruct r as [|[]|]; cbn; split; intros H; congruence. Qed.
Lemma section_panic dbg acc x i : (exists p, osu_section dbg acc (sec_name x) (sec_body x) i = Some (RPanic p)) <-> breaks dbg (osu_version acc) x.
Proof.
  destruct acc as [v g e o m d ev tp c h]. cbn [osu_version]. unfold breaks, panics, osu_section.
  repeat match goal with
  | |- context [str_eqb (sec_name x) ?t] =>
      let E := fresh "E" in destruct (str_eqb (sec_name x) t) eqn:E;
      [apply str_eqb_eq in E; split;
       [intros [p H]; injection H as H; apply rmap_pl_panic in H; rewrite E; clear -H; eauto 12
       |rewrite E; intros H; decompose [or and] H; try discriminate; match goal with K : exists p, _ |- _ => destruct K as [p K]; exists p; f_equal; now apply rmap_pl_panic end]
      |apply str_eqb_neq in E]
  end.
  split; [now intros [p H]|]. intros H; decompose [or and] H; congruence.
Qed.
Inductive goes (dbg : bool) : list str -> osu_file -> list chunk -> osu_file -> Prop :=
| goes_nil parsed acc : goes dbg parsed acc [] acc
| goes_cons parsed acc x m cs f : ~ In (ch_name x) parsed -> known (ch_sec x) -> describes dbg (osu_version acc) [ch_sec x] acc m ->
    (dbg = true -> ch_body x <> []) -> goes dbg (parsed ++ [ch_name x]) m cs f -> goes dbg parsed acc (x :: cs) f.
Lemma no_empty_cons dbg x cs : no_empty dbg (x :: cs) <-> (dbg = true -> ch_body x <> []) /\ no_empty dbg cs.
Proof. unfold no_empty. split; [intros H; split; intros E; specialize (H E); now inversion H|intros [H1 H2] E; constructor; auto]. Qed.
Lemma goes_iff dbg cs : forall parsed acc f, goes dbg parsed acc cs f <->
  Forall known (map ch_sec cs) /\ (forall x, In x (map ch_sec cs) -> ~ In (sec_name x) parsed) /\ NoDup (map sec_name (map ch_sec cs))
  /\ describes dbg (osu_version acc) (map ch_sec cs) acc f /\ no_empty dbg cs.
Proof.
  induction cs as [|x cs IH]; intros parsed acc f.
  - cbn [map]. rewrite describes_nil by easy. split.
    + intros H. inversion H. subst. repeat split; easy || constructor.
    + intros (_ & _ & _ & -> & _). constructor.
  - cbn [map]. change (sec_name (ch_sec x) :: map sec_name (map ch_sec cs)) with (map sec_name (ch_sec x :: map ch_sec cs)).
    rewrite NoDup_cons_names, Forall_cons_iff, no_empty_cons. split.
    + intros H. inversion H as [|? ? ? m ? ? Hp Hk Hd Hb Hg]; subst. apply IH in Hg as (K1 & K2 & K3 & K4 & K5).
      assert (Hdis : forall y, In y (map ch_sec cs) -> sec_name y <> sec_name (ch_sec x)).
      { intros y Hy He. apply (K2 y Hy). rewrite in_app_iff, He. right. now left. }
      split; [now split|]. split; [|split; [now split|split; [|now split]]].
      * intros y [<- |Hy]; [exact Hp|]. intros Hin. apply (K2 y Hy). rewrite in_app_iff. now left.
      * apply describes_cons; [exact Hdis|]. exists m. split; [exact Hd|]. now rewrite (describes_version _ _ _ _ _ Hd) in K4.
    + intros ([Hk1 Hk2] & Hp & [Hn1 Hn2] & Hd & Hb1 & Hb2). apply describes_cons in Hd; [|exact Hn1]. destruct Hd as (m & Hd1 & Hd2).
      apply goes_cons with m; auto.
      * exact (Hp (ch_sec x) (or_introl eq_refl)).
      * apply IH. rewrite (describes_version _ _ _ _ _ Hd1). split; [exact Hk2|]. split; [|now split].
        intros y Hy. rewrite in_app_iff. intros [H|[H|[]]]; [now apply (Hp y (or_intror Hy))|]. now apply (Hn1 y Hy).
Qed.
Lemma loop_goes dbg parsed acc before g : goes dbg parsed acc before g -> forall ws line rest,
  exists line' ws', osu_loop dbg line parsed acc (with_space ws (before ++ rest))
    = osu_loop dbg line' (parsed ++ map ch_name before) g (with_space ws' rest).
Proof.
  induction 1 as [parsed acc|parsed acc x m cs f Hp Hk Hd Hb H IH]; intros ws line rest.
  - exists line, ws. cbn [app map]. now rewrite app_nil_r.
  - cbn [app with_space osu_loop map]. apply mem_str_not_In in Hp. rewrite Hp.
    apply (section_ok dbg acc (ch_sec x) (line + lines_count (match ws with w :: _ => w | [] => [] end) + lines_count (ch_space x)) m Hk) in Hd.
    change (sec_name (ch_sec x)) with (ch_name x) in Hd. change (sec_body (ch_sec x)) with (ch_body x) in Hd.
    rewrite Hd. cbn [rbind]. replace (parsed ++ ch_name x :: map ch_name cs) with ((parsed ++ [ch_name x]) ++ map ch_name cs) by now rewrite <- app_assoc.
    unfold usize_pred.
    destruct (Z.eqb_spec (lines_count (ch_body x)) 0) as [E|E].
    + destruct dbg; [apply Z.eqb_eq in E; rewrite lines_count_nonempty in E by (now apply Hb); discriminate E|].
      cbn [rbind]. apply IH.
    + cbn [rbind]. apply IH.
Qed.

(** what goes wrong at the section [x] after the names [parsed] *)
Definition wrong dbg v parsed x d e : Prop :=
  (In (ch_name x) parsed /\ d = 0%Z /\ e = OsuDuplicateSections)
  \/ (~ In (ch_name x) parsed /\ ~ known (ch_sec x) /\ d = 0%Z /\ e = OsuUnknownSection)
  \/ (~ In (ch_name x) parsed /\ exists k, refused dbg v (ch_sec x) k e /\ d = (1 + 0 + k)%Z).
Definition bursts (dbg : bool) v parsed x : Prop :=
  ~ In (ch_name x) parsed /\ (breaks dbg v (ch_sec x) \/ dbg = true /\ known (ch_sec x) /\ ch_body x = []).
Lemma loop_wrong dbg parsed acc x d e rest : wrong dbg (osu_version acc) parsed x d e -> forall line ws,
  exists j, osu_loop dbg line parsed acc (with_space ws (x :: rest)) = RErr (mk_line_err j e).
Proof.
  intros H line ws. cbn [with_space osu_loop].
  destruct H as [(H & _ & ->)|[(H1 & H2 & _ & ->)|(H1 & k & H2 & _)]].
  - apply mem_str_In in H. rewrite H. eexists; reflexivity.
  - apply mem_str_not_In in H1. rewrite H1.
    eapply section_unknown in H2. change (sec_name (ch_sec x)) with (ch_name x) in H2. change (sec_body (ch_sec x)) with (ch_body x) in H2.
    rewrite H2. eexists; reflexivity.
  - apply mem_str_not_In in H1. rewrite H1.
    eapply section_refused in H2. change (sec_name (ch_sec x)) with (ch_name x) in H2. change (sec_body (ch_sec x)) with (ch_body x) in H2.
    rewrite H2. cbn [rbind]. eexists; reflexivity.
Qed.
Lemma loop_bursts dbg parsed acc x rest : (3 <= osu_version acc <= 14)%Z -> bursts dbg (osu_version acc) parsed x -> forall line ws,
  exists p, osu_loop dbg line parsed acc (with_space ws (x :: rest)) = RPanic p.
Proof.
  intros Hv [H1 H2] line ws. cbn [with_space osu_loop]. apply mem_str_not_In in H1. rewrite H1.
  destruct H2 as [H2|(-> & H2 & H3)].
  - eapply section_panic in H2. destruct H2 as [p H2].
    change (sec_name (ch_sec x)) with (ch_name x) in H2. change (sec_body (ch_sec x)) with (ch_body x) in H2.
    rewrite H2. cbn [rbind]. now exists p.
  - rewrite H3. destruct (section_empty true acc (ch_name x) (line + lines_count (match ws with w :: _ => w | [] => [] end) + lines_count (ch_space x)) H2 Hv) as [f Hf].
    rewrite Hf. cbn. now exists POverflow.
Qed.
Lemma goes_version dbg parsed acc cs f : goes dbg parsed acc cs f -> osu_version f = osu_version acc.
Proof. induction 1 as [|parsed acc x m cs f _ _ Hd _ _ IH]; [easy|]. rewrite IH. exact (describes_version _ _ _ _ _ Hd). Qed.
Lemma loop_cases dbg cs : forall parsed acc,
  (exists f, goes dbg parsed acc cs f)
  \/ exists before x rest g, cs = before ++ x :: rest /\ goes dbg parsed acc before g
     /\ ((exists d e, wrong dbg (osu_version acc) (parsed ++ map ch_name before) x d e)
         \/ bursts dbg (osu_version acc) (parsed ++ map ch_name before) x).
Proof.
  induction cs as [|x cs IH]; intros parsed acc; [left; eexists; constructor|].
  assert (Now : ((exists d e, wrong dbg (osu_version acc) parsed x d e) \/ bursts dbg (osu_version acc) parsed x)
     \/ (~ In (ch_name x) parsed /\ known (ch_sec x) /\ (dbg = true -> ch_body x <> [])
         /\ exists m, describes dbg (osu_version acc) [ch_sec x] acc m)).
  { destruct (in_dec (list_eq_dec N.eq_dec) (ch_name x) parsed) as [H1|H1].
    { left. left. exists 0%Z, OsuDuplicateSections. left. easy. }
    destruct (known_dec (ch_sec x)) as [H2|H2].
    2:{ left. left. exists 0%Z, OsuUnknownSection. right. left. easy. }
    destruct (osu_section dbg acc (sec_name (ch_sec x)) (sec_body (ch_sec x)) 0) as [[m|[j e]|p]|] eqn:E.
    - assert (B : (dbg = true /\ ch_body x = []) \/ (dbg = true -> ch_body x <> [])).
      { destruct dbg; [|right; easy]. destruct (ch_body x); [now left|right; easy]. }
      destruct B as [[B1 B2]|B].
      + left. right. split; [exact H1|]. right. easy.
      + right. repeat (split; [assumption|]). exists m. now apply (section_ok dbg acc (ch_sec x) 0 m H2).
    - left. left. apply section_err_inv in E. exists (1 + 0 + (j - 0))%Z, e. right. right. split; [exact H1|]. now exists (j - 0)%Z.
    - left. right. split; [exact H1|]. left. eapply section_panic. exists p. exact E.
    - exfalso. now apply section_unknown in E. }
  destruct Now as [Bad|(H1 & H2 & H3 & m & H4)].
  - right. exists [], x, cs, acc. cbn [map app]. rewrite app_nil_r. split; [easy|]. split; [constructor|exact Bad].
  - destruct (IH (parsed ++ [ch_name x]) m) as [[f Hf]|(before & y & rest & g & -> & Hg & Bad)].
    + left. exists f. now apply goes_cons with m.
    + right. exists (x :: before), y, rest, g. split; [easy|]. split; [now apply goes_cons with m|].
      cbn [map]. rewrite (describes_version _ _ _ _ _ H4), <- app_assoc in Bad. exact Bad.
Qed.

(** ** the lines before the first section *)
Lemma pre_section_head l : pre_section l = negb (head_line l).
Proof. unfold pre_section, head_line. rewrite ?trim_trim. now rewrite negb_orb. Qed.
Lemma unexpected_app pre l ls : forallb (fun l => skip_line l && negb (head_line l)) pre = true -> skip_line l = false ->
  forall i, unexpected_line i (pre ++ l :: ls) = Some (i + Z.of_nat (length pre))%Z.
Proof.
  induction pre as [|x pre IH]; intros Hp Hl i; cbn [app unexpected_line length].
  - unfold skip_line in Hl. apply orb_false_iff in Hl as [-> ->]. f_equal. lia.
  - cbn [forallb] in Hp. rewrite !andb_true_iff in Hp. destruct Hp as [[Hx _] Hp].
    unfold skip_line in Hx. apply orb_true_iff in Hx. rewrite IH by easy. destruct (is_empty (trim x)), (starts_with (lit "//") (trim x)); f_equal; lia.
Qed.
Lemma split_pre_cut pre ls : forallb (fun l => negb (head_line l)) pre = true -> match ls with [] => True | l :: _ => head_line l = true end ->
  split_pre (pre ++ ls) = (pre, ls).
Proof.
  intros Hp Hl. induction pre as [|x pre IH].
  - cbn [app]. destruct ls as [|l ls]; [easy|]. cbn [split_pre]. now rewrite pre_section_head, Hl.
  - cbn [forallb] in Hp. apply andb_true_iff in Hp as [Hx Hp]. cbn [app split_pre]. now rewrite pre_section_head, Hx, (IH Hp).
Qed.
Lemma unexpected_none pre : forallb (fun l => skip_line l && negb (head_line l)) pre = true -> forall i, unexpected_line i pre = None.
Proof.
  induction pre as [|x pre IH]; intros Hp i; [easy|]. cbn [unexpected_line].
  cbn [forallb] in Hp. rewrite !andb_true_iff in Hp. destruct Hp as [[Hx _] Hp].
  unfold skip_line in Hx. rewrite !IH by easy. now destruct (is_empty (trim x)), (starts_with (lit "//") (trim x)).
Qed.
Lemma forallb_and_r {A} (f g : A -> bool) l : forallb (fun x => f x && g x) l = true -> forallb g l = true.
Proof. rewrite !forallb_forall. intros H x Hx. specialize (H x Hx). now apply andb_true_iff in H. Qed.
Lemma head_split ls : exists pre more, ls = pre ++ more /\ forallb (fun l => negb (head_line l)) pre = true
  /\ match more with [] => True | l :: _ => head_line l = true end.
Proof.
  induction ls as [|l ls (pre & more & -> & H1 & H2)]; [exists [], []; easy|].
  destruct (head_line l) eqn:E; [now exists [], (l :: pre ++ more)|].
  exists (l :: pre), more. split; [easy|]. split; [|easy]. cbn [forallb]. now rewrite E.
Qed.
Lemma stray_split pre : forallb (fun l => negb (head_line l)) pre = true ->
  forallb (fun l => skip_line l && negb (head_line l)) pre = true
  \/ exists a l b, pre = a ++ l :: b /\ forallb (fun l => skip_line l && negb (head_line l)) a = true /\ skip_line l = false /\ head_line l = false.
Proof.
  induction pre as [|x pre IH]; intros Hp; [now left|]. cbn [forallb] in *. apply andb_true_iff in Hp as [Hx Hp].
  destruct (skip_line x) eqn:E.
  - destruct (IH Hp) as [H|(a & l & b & -> & H1 & H2)]; [left; now rewrite Hx, H|].
    right. exists (x :: a), l, b. split; [easy|]. split; [|easy]. cbn [forallb]. now rewrite E, Hx, H1.
  - right. exists [], x, pre. apply negb_true_iff in Hx. easy.
Qed.
(** ** whole files *)
Lemma total_cases s : no_version s \/ bad_version s \/ (exists k, file_stray s k) \/ exists v cs, file_chunks s v cs.
Proof.
  destruct (vp_inv s) as [(ws & num & rest & Hh)|[_ H]]; [|left; exact H]. right.
  destruct (version_dec num) as [[v Hv]|Hb]; [|left; now exists ws, num, rest]. right.
  destruct (head_split (lines rest)) as (pre & more & E & H1 & H2).
  destruct (stray_split pre H1) as [H|(a & l & b & -> & H3 & H4 & H5)].
  - right. destruct (falls_apart_total (join [10] more)) as [cs Hc]. exists v, cs, ws, num, rest, pre, more. easy.
  - left. exists (length a), ws, num, rest, v, a, l, (b ++ more). rewrite E, <- app_assoc. easy.
Qed.
Lemma total_stray dbg s k : file_stray s k -> osu_from_str dbg s = RErr (mk_line_err (Z.of_nat k) OsuUnexpectedLine).
Proof.
  intros (ws & num & rest & v & pre & l & ls & Hh & Hv & E & Hp & Hs & Hl & ->). rewrite (version_read dbg s ws num rest v Hh Hv), E.
  destruct (head_split ls) as (p2 & more & -> & H1 & H2).
  replace (pre ++ l :: p2 ++ more) with ((pre ++ l :: p2) ++ more) by now rewrite <- app_assoc.
  rewrite split_pre_cut; [|rewrite forallb_app; cbn [forallb]; now rewrite (forallb_and_r _ _ _ Hp), Hl, H1|exact H2].
  now rewrite (unexpected_app pre l p2 Hp Hs).
Qed.
Lemma chunks_loop dbg s v cs : file_chunks s v cs -> (3 <= v <= 14)%Z /\ exists line ws, osu_from_str dbg s = osu_loop dbg line [] (osu_new v) (with_space ws cs).
Proof.
  intros (w & num & rest & pre & ls & Hh & Hv & E & Hp & Hl & Hf). split; [now destruct Hv|].
  rewrite (version_read dbg s w num rest v Hh Hv), E, split_pre_cut by (easy || exact (forallb_and_r _ _ _ Hp)).
  rewrite unexpected_none by easy. apply many0_chunks in Hf as (ws & r & Hf). change [c_nl] with [10]. rewrite Hf. eexists _, ws. reflexivity.
Qed.
Lemma chunks_names cs : map sec_name (map ch_sec cs) = map ch_name cs.
Proof. rewrite map_map. reflexivity. Qed.
Lemma goes_read dbg v cs f : goes dbg [] (osu_new v) cs f <-> all_read dbg v (map ch_sec cs) (osu_new v) f /\ no_empty dbg cs.
Proof.
  rewrite goes_iff. unfold all_read. change (osu_version (osu_new v)) with v. split.
  - intros (H1 & _ & H3 & H4 & H5). easy.
  - intros ((H1 & H2 & H3) & H4). repeat (split; [easy|]). easy.
Qed.
Lemma wrong_complaint dbg v before x d e : wrong dbg v (map ch_name before) x d e <-> complaint dbg v (map ch_sec before) (ch_sec x) d e.
Proof.
  unfold wrong. split.
  - intros [(H & -> & ->)|[(H1 & H2 & -> & ->)|(H1 & k & H2 & ->)]].
    + apply bad_duplicate. now rewrite chunks_names.
    + apply bad_unknown; [now rewrite chunks_names|exact H2].
    + apply (bad_text dbg v (map ch_sec before) (ch_sec x) k e); [now rewrite chunks_names|exact H2].
  - intros H. destruct H as [H|H1 H2|k e H1 H2]; rewrite chunks_names in *.
    + left. easy.
    + right. left. easy.
    + right. right. split; [exact H1|]. now exists k.
Qed.
Lemma goes_reaches dbg v cs before x rest g : cs = before ++ x :: rest -> goes dbg [] (osu_new v) before g -> reaches dbg v cs before x g.
Proof. intros E H. apply goes_read in H as [H1 H2]. split; [now exists rest|easy]. Qed.
Lemma total_read dbg s v cs f : file_chunks s v cs -> (osu_from_str dbg s = ROk f <-> all_read dbg v (map ch_sec cs) (osu_new v) f /\ no_empty dbg cs).
Proof.
  intros H. destruct (chunks_loop dbg s v cs H) as (Hv & line & ws & E). rewrite E, <- goes_read. split.
  - intros Hl. destruct (loop_cases dbg cs [] (osu_new v)) as [[g Hg]|(before & x & rest & g & -> & Hg & Bad)].
    + destruct (loop_goes _ _ _ _ _ Hg ws line []) as (l' & w' & Hw). rewrite app_nil_r in Hw. rewrite Hw in Hl. cbn in Hl. now injection Hl as <-.
    + exfalso. destruct (loop_goes _ _ _ _ _ Hg ws line (x :: rest)) as (l' & w' & Hw). rewrite Hw in Hl.
      rewrite <- (goes_version _ _ _ _ _ Hg) in Bad. destruct Bad as [(d & e & Bad)|Bad].
      * destruct (loop_wrong _ _ _ _ _ _ rest Bad l' w') as [j Hj]. congruence.
      * apply loop_bursts with (rest := rest) (line := l') (ws := w') in Bad; [|rewrite (goes_version _ _ _ _ _ Hg); exact Hv]. destruct Bad as [p Hp]. congruence.
  - intros Hg. destruct (loop_goes _ _ _ _ _ Hg ws line []) as (l' & w' & Hw). rewrite app_nil_r in Hw. now rewrite Hw.
Qed.
Lemma total_error dbg s v cs e : file_chunks s v cs -> ((exists j, osu_from_str dbg s = RErr (mk_line_err j e)) <->
  exists before x g d, reaches dbg v cs before x g /\ complaint dbg v (map ch_sec before) (ch_sec x) d e).
Proof.
  intros H. destruct (chunks_loop dbg s v cs H) as (Hv & line & ws & E). rewrite E. split.
  - intros [j Hl]. destruct (loop_cases dbg cs [] (osu_new v)) as [[g Hg]|(before & x & rest & g & -> & Hg & Bad)].
    + destruct (loop_goes _ _ _ _ _ Hg ws line []) as (l' & w' & Hw). rewrite app_nil_r in Hw. rewrite Hw in Hl. easy.
    + destruct (loop_goes _ _ _ _ _ Hg ws line (x :: rest)) as (l' & w' & Hw). rewrite Hw in Hl.
      rewrite <- (goes_version _ _ _ _ _ Hg) in Bad. destruct Bad as [(d & e' & Bad)|Bad].
      * destruct (loop_wrong _ _ _ _ _ _ rest Bad l' w') as [j' Hj]. rewrite Hj in Hl. injection Hl as _ ->.
        exists before, x, g, d. split; [now apply goes_reaches with rest|]. apply wrong_complaint. now rewrite (goes_version _ _ _ _ _ Hg) in Bad.
      * apply loop_bursts with (rest := rest) (line := l') (ws := w') in Bad; [|rewrite (goes_version _ _ _ _ _ Hg); exact Hv]. destruct Bad as [p Hp]. congruence.
  - intros (before & x & g & d & ((rest & ->) & Hb & Hr) & Hc). assert (Hg : goes dbg [] (osu_new v) before g) by now apply goes_read.
    destruct (loop_goes _ _ _ _ _ Hg ws line (x :: rest)) as (l' & w' & Hw). rewrite Hw. apply wrong_complaint in Hc.
    apply (loop_wrong dbg ([] ++ map ch_name before) g x d e rest). now rewrite (goes_version _ _ _ _ _ Hg).
Qed.
Lemma total_panic dbg s v cs : file_chunks s v cs -> (panics (osu_from_str dbg s) <->
  exists before x g, reaches dbg v cs before x g /\ ~ In (ch_name x) (map ch_name before)
    /\ (breaks dbg v (ch_sec x) \/ dbg = true /\ In (ch_name x) section_names /\ ch_body x = [])).
Proof.
  intros H. destruct (chunks_loop dbg s v cs H) as (Hv & line & ws & E). unfold panics. rewrite E. split.
  - intros [j Hl]. destruct (loop_cases dbg cs [] (osu_new v)) as [[g Hg]|(before & x & rest & g & -> & Hg & Bad)].
    + destruct (loop_goes _ _ _ _ _ Hg ws line []) as (l' & w' & Hw). rewrite app_nil_r in Hw. rewrite Hw in Hl. easy.
    + destruct (loop_goes _ _ _ _ _ Hg ws line (x :: rest)) as (l' & w' & Hw). rewrite Hw in Hl.
      destruct Bad as [(d & e' & Bad)|Bad].
      * rewrite <- (goes_version _ _ _ _ _ Hg) in Bad. destruct (loop_wrong _ _ _ _ _ _ rest Bad l' w') as [j' Hj]. congruence.
      * exists before, x, g. split; [now apply goes_reaches with rest|]. exact Bad.
  - intros (before & x & g & ((rest & ->) & Hb & Hr) & Hc). assert (Hg : goes dbg [] (osu_new v) before g) by now apply goes_read.
    destruct (loop_goes _ _ _ _ _ Hg ws line (x :: rest)) as (l' & w' & Hw). rewrite Hw.
    apply (loop_bursts dbg ([] ++ map ch_name before) g x rest); rewrite (goes_version _ _ _ _ _ Hg); [exact Hv|exact Hc].
Qed.
(** ** one reading only *)
Lemma head_unique s ws num rest v ws' num' rest' v' : version_head s ws num rest -> version_text num v ->
  version_head s ws' num' rest' -> version_text num' v' -> ws' = ws /\ rest' = rest /\ v' = v.
Proof.
  intros H1 [V1 R1] H2 [V2 R2]. pose proof (vp_head _ _ _ _ H1) as P1. pose proof (vp_head _ _ _ _ H2) as P2.
  replace (parse_u8 num) with (@ROk Z int_err v) in P1 by (symmetry; apply u8_accepts; split; [exact V1|lia]).
  replace (parse_u8 num') with (@ROk Z int_err v') in P2 by (symmetry; apply u8_accepts; split; [exact V2|lia]).
  rewrite P1 in P2. now injection P2.
Qed.
Lemma chunks_unique s v cs v' cs' : file_chunks s v cs -> file_chunks s v' cs' -> v' = v /\ cs' = cs.
Proof.
  intros (w & num & rest & pre & ls & Hh & Hv & E & Hp & Hl & Hf) (w' & num' & rest' & pre' & ls' & Hh' & Hv' & E' & Hp' & Hl' & Hf').
  destruct (head_unique _ _ _ _ _ _ _ _ _ Hh Hv Hh' Hv') as (-> & -> & ->). split; [easy|].
  rewrite E in E'. apply forallb_and_r in Hp, Hp'. apply (f_equal split_pre) in E'. rewrite !split_pre_cut in E' by easy. injection E' as <- <-.
  exact (falls_apart_unique _ _ _ Hf' Hf).
Qed.
Lemma stray_chunks s k v cs : file_stray s k -> ~ file_chunks s v cs.
Proof.
  intros H (w' & num' & rest' & pre' & ls' & Hh' & Hv' & E' & Hp' & Hl' & Hf').
  destruct H as (ws & num & rest & v' & pre & l & ls & Hh & Hv & E & Hp & Hs & Hl & ->).
  destruct (head_unique _ _ _ _ _ _ _ _ _ Hh Hv Hh' Hv') as (-> & -> & ->).
  rewrite E in E'. destruct (head_split ls) as (p2 & more & -> & H1 & H2).
  replace (pre ++ l :: p2 ++ more) with ((pre ++ l :: p2) ++ more) in E' by now rewrite <- app_assoc.
  apply (f_equal split_pre) in E'.
  rewrite !split_pre_cut in E'; auto; [|exact (forallb_and_r _ _ _ Hp')|rewrite forallb_app; cbn [forallb]; now rewrite (forallb_and_r _ _ _ Hp), Hl, H1].
  injection E' as E' _. pose proof (unexpected_none _ Hp' 0%Z) as K. rewrite <- E', (unexpected_app _ _ _ Hp Hs) in K. easy.
Qed.
Lemma total_unique s : 
  (no_version s -> ~ bad_version s /\ (forall k, ~ file_stray s k) /\ forall v cs, ~ file_chunks s v cs)
  /\ (bad_version s -> (forall k, ~ file_stray s k) /\ forall v cs, ~ file_chunks s v cs)
  /\ (forall k, file_stray s k -> (forall k', file_stray s k' -> k' = k) /\ forall v cs, ~ file_chunks s v cs)
  /\ forall v cs, file_chunks s v cs -> forall v' cs', file_chunks s v' cs' -> v' = v /\ cs' = cs.
Proof.
  assert (F : forall dbg v cs e, file_chunks s v cs -> version_error e = true -> forall j, osu_from_str dbg s <> RErr (mk_line_err j e)).
  { intros dbg v cs e H He j Hj. assert (K : exists j, osu_from_str dbg s = RErr (mk_line_err j e)) by now exists j.
    apply (total_error dbg s v cs e H) in K as (before & x & g & d & _ & Hc). destruct Hc as [| |k e Hc Hr]; [easy|easy|]. now destruct Hr. }
  split; [|split; [|split]].
  - intros H. split; [|split].
    + intros (ws & num & rest & Hh & _). exact (H _ _ _ Hh).
    + intros k (ws & num & rest & v & pre & l & ls & Hh & _). exact (H _ _ _ Hh).
    + intros v cs (ws & num & rest & pre & ls & Hh & _). exact (H _ _ _ Hh).
  - intros (ws & num & rest & Hh & Hb). pose proof (version_bad true s ws num rest Hh Hb) as Hr. split.
    + intros k Hk. rewrite (total_stray true s k Hk) in Hr. easy.
    + intros v cs Hc. exact (F true v cs OsuInvalidFileVersion Hc eq_refl _ Hr).
  - intros k Hk. split; [|intros v cs; now apply stray_chunks with k].
    intros k' Hk'. pose proof (total_stray true s k Hk) as R. rewrite (total_stray true s k' Hk') in R. injection R as R. lia.
  - intros v cs H v' cs' H'. now apply (chunks_unique s).
Qed.
Lemma total_ignored dbg s v : file_chunks s v [] -> osu_from_str dbg s = ROk (osu_new v).
Proof.
  intros H. apply (total_read dbg s v [] _ H). split; [|intros _; constructor]. split; [constructor|]. split; [constructor|].
  cbn [map]. now apply describes_nil.
Qed.
Lemma total_safe dbg s v cs p : file_chunks s v cs -> old_version v = false -> no_empty dbg cs ->
  (forall x l, In x cs -> ch_name x = lit "Events" -> In l (lines (ch_body x)) -> ~ bad_line l) ->
  (forall x es t e, In x cs -> ch_name x = lit "Metadata" -> ch_body x = kv_text es ++ t -> In e es -> id_key (entry_key e) -> i32_text (entry_value e)) ->
  osu_from_str dbg s <> RPanic p.
Proof.
  intros H Ho Hn He Hm Hp. assert (K : panics (osu_from_str dbg s)) by now exists p.
  apply (total_panic dbg s v cs H) in K as (before & x & g & ((rest & E) & _) & _ & Hb).
  assert (Hx : In x cs) by (rewrite E, in_app_iff; right; now left).
  destruct Hb as [Hb|(-> & _ & Hb)]; [|specialize (Hn eq_refl); rewrite Forall_forall in Hn; exact (Hn x Hx Hb)].
  unfold breaks, panics in Hb. change (sec_name (ch_sec x)) with (ch_name x) in Hb. change (sec_body (ch_sec x)) with (ch_body x) in Hb.
  destruct Hb as [[_ [q Hb]]|[[_ [q Hb]]|[[N [q Hb]]|[[_ [q Hb]]|[[N [q Hb]]|[[_ [q Hb]]|[[_ [q Hb]]|[_ [q Hb]]]]]]]]].
  - now apply general_np in Hb.
  - now apply editor_np in Hb.
  - apply metadata_panics in Hb as (_ & es1 & e & es2 & t & Eb & _ & _ & _ & _ & _ & Hi & Hv).
    apply Hv. apply (Hm x _ _ e Hx N Eb); [rewrite in_app_iff; right; now left|exact Hi].
  - now apply difficulty_np in Hb.
  - apply calm_events in Hb; [easy|exact Ho|]. intros l. now apply He.
  - now apply timing_points_np in Hb.
  - now apply colours_from_str_np in Hb.
  - now apply hit_objects_np in Hb.
Qed.
