(** Errors in a text to which lines are appended (C64): proofs. *)
From Coq Require Import String List NArith ZArith Bool Lia.
From Verif Require Import Str Num Nom Dec Parsers General Editor Metadata Difficulty Colours TimingPoints HitObjects Storyboard
  NormalEvents Events Osb OsuFile Spec SpecWf SpecKv SpecText SpecSections SpecFile SpecTotal SpecOsb SpecLine SpecEvLine SpecEvents
  SpecEvSection SpecKvRead SpecParts SpecMeans SpecEnds SpecEdit SpecCut SpecStay StrFacts KvFacts KvRead KvStatements Means EvPanic EvSection FileTheorems
  Parts Ends Edit TpFacts FileFacts TotalFacts KvImage Cut.
Import ListNotations.
Local Open Scope N_scope.

(** ** lists of lines, events *)
Lemma pieces_stay {A E} (rd : str -> res (option (list A)) (line_err E)) s a b : in_pieces rd -> lines s = lines a ++ lines b -> stays_same (rd a) (rd s).
Proof. intros P El. rewrite (P s a b El). unfold one_after. now destruct (rd a). Qed.
Lemma events_stay dbg vs v s a more : lines s = lines a ++ more -> stays_same (events_from_str_vars dbg vs a v) (events_from_str_vars dbg vs s v).
Proof. intros E. unfold events_from_str_vars. rewrite E, loop_app. now destruct (ev_loop dbg v vs 0 [] (lines a)). Qed.

(** ** keys and values *)
(** [es'] are the first entries of [es]; the gap of the last one may be shorter. *)
Definition first_entries (es' es : list kv_entry) : Prop :=
  exists a e e' m, es = a ++ e :: m /\ es' = a ++ [e'] /\ entry_key e' = entry_key e /\ entry_rest e' = entry_rest e.
Lemma first_line_cut t r : (exists u, first_line (t ++ 10 :: r) = first_line t ++ u) /\ contains_char 58 (first_line (t ++ 10 :: r)) = contains_char 58 (first_line t).
Proof.
  assert (H : first_line (t ++ 10 :: r) = first_line t).
  { unfold first_line. induction t as [|c t IH]; cbn [app span]; [reflexivity|]. destruct (negb (c =? 10)); [|easy].
    destruct (span _ (t ++ 10 :: r)), (span _ t). cbn [fst] in *. now f_equal. }
  rewrite H. split; [exists []; now rewrite app_nil_r|easy].
Qed.
Lemma entries_first r : forall es t b', entries_ok es = true -> rest_after es t = true -> kv_text es ++ t = b' ++ 10 :: r ->
  exists es' t', b' = kv_text es' ++ t' /\ entries_ok es' = true /\ rest_after es' t' = true
  /\ ((es' = es /\ t = t' ++ 10 :: r) \/ (first_entries es' es /\ t' = [])).
Proof.
  induction es as [|e es IH]; intros t b' H1 H2 E.
  - cbn [kv_text map concat app] in E. subst t. exists [], b'. split; [easy|]. split; [easy|]. split; [|now left].
    unfold rest_after in *. now rewrite (proj2 (first_line_cut b' r)) in H2.
  - destruct e as [[k rst] gap]. cbn [kv_text map concat] in E. fold (kv_text es) in E. unfold entry_text in E. cbn [entry_key entry_rest entry_gap fst snd] in E.
    pose proof H1 as H1'. cbn [entries_ok] in H1'. rewrite !andb_true_iff in H1'. destruct H1' as [[He Hes] Hn].
    pose proof He as He'. unfold entry_ok in He'. rewrite !andb_true_iff in He'. destruct He' as [[Hk Hr] Hg]. cbn [entry_key entry_rest entry_gap fst snd] in *.
    assert (Ne : ~ In 10 (k ++ 58 :: rst)).
    { intros K. apply in_app_or in K as [K|[K|K]]; [|discriminate|].
      - now apply (forallb_no _ 10 k Hk).
      - now apply (forallb_no _ 10 rst Hr). }
    replace (((k ++ 58 :: rst ++ gap) ++ kv_text es) ++ t) with ((k ++ 58 :: rst) ++ gap ++ kv_text es ++ t) in E by (repeat (rewrite <- !app_assoc; cbn [app]); reflexivity).
    apply (past _ _ _ _ _ Ne) in E as (m & -> & E). apply app_split in E as [(m2 & -> & E)|(m3 & Hm3 & -> & E)].
    + exists [(k, rst, m)], []. split; [|split; [|split; [easy|right; split; [|easy]]]].
      * cbn [kv_text map concat]. unfold entry_text. cbn [entry_key entry_rest entry_gap fst snd]. rewrite !app_nil_r. repeat (rewrite <- !app_assoc; cbn [app]). reflexivity.
      * cbn [entries_ok]. unfold entry_ok. cbn [entry_key entry_rest entry_gap fst snd]. apply gap_prefix in Hg. now rewrite Hk, Hr, Hg.
      * exists [], (k, rst, m ++ m2), (k, rst, m), es. easy.
    + assert (Hf : rest_after es t = true).
      { unfold rest_after in H2 |- *. apply andb_true_iff in H2 as [H2 H4]. rewrite H2. cbn [andb]. destruct es as [|e2 es]; [easy|]. exact H4. }
      destruct (IH t m3 Hes Hf E) as (es1 & t1 & -> & F1 & F2 & F3).
      assert (Fk : match es1 with [] => es = [] /\ t = t1 ++ 10 :: r | e1 :: _ => match es with e2 :: _ => entry_key e1 = entry_key e2 | [] => False end end).
      { destruct F3 as [[-> Et]|[(a & e & e' & m & -> & -> & K & _) _]]; [now destruct es|]. now destruct a. }
      exists ((k, rst, gap) :: es1), t1. split; [|split; [|split]].
      * cbn [kv_text map concat]. fold (kv_text es1). unfold entry_text. cbn [entry_key entry_rest entry_gap fst snd]. repeat (rewrite <- !app_assoc; cbn [app]). reflexivity.
      * cbn [entries_ok]. rewrite He, F1. cbn [andb]. destruct es1 as [|e1 es1]; [easy|]. destruct es as [|e2 es]; [easy|]. now rewrite Fk.
      * destruct es1 as [|e1 es1]; [|exact F2]. destruct Fk as [-> Et].
        unfold rest_after in *. apply andb_true_iff in F2 as [F2 _]. rewrite F2. cbn [andb last entry_gap snd]. destruct t1 as [|c t1]; [easy|]. subst t.
        apply andb_true_iff in H2 as [_ H2]. cbn [is_empty last entry_gap snd orb app head_is] in *. exact H2.
      * destruct F3 as [[-> Et]|[(a & e & e' & m & -> & -> & K) ->]]; [now left|right]. split; [|easy]. exists ((k, rst, gap) :: a), e, e', m. easy.
Qed.
Definition gap_rows (es : list kv_entry) : Z := fold_right Z.add 0%Z (map (fun e => Z.of_nat (length (lines (entry_gap e)))) es).
Lemma gap_rows_app a b : gap_rows (a ++ b) = (gap_rows a + gap_rows b)%Z.
Proof. induction a as [|e a IH]; [easy|]. unfold gap_rows in *. cbn [app map fold_right]. rewrite IH. lia. Qed.
Lemma gap_rows_pos es : (0 <= gap_rows es)%Z.
Proof. induction es as [|e es IH]; unfold gap_rows in *; cbn [map fold_right]; lia. Qed.
Section Bad.
  Context {E : Type}.
  Variable table : list (string * (str -> res unit E)).
  Variables unknown dup : E.
  Notation bad := (first_bad table unknown dup).
  Lemma bad_stays a e e' m : entry_key e' = entry_key e -> entry_rest e' = entry_rest e -> forall i before,
    bad i before (a ++ [e']) = ROk tt \/ bad i before (a ++ e :: m) = bad i before (a ++ [e']).
  Proof.
    intros Hk Hr. assert (Hv : entry_value e' = entry_value e) by (unfold entry_value; now rewrite Hr).
    induction a as [|x a IH]; intros i before; cbn [app first_bad].
    - rewrite Hk, Hv. destruct (if existsb _ before then _ else _); [now left|now right|now right].
    - destruct (if existsb _ before then _ else _); [apply IH|now right|now right].
  Qed.
  Lemma bad_first es' es : first_entries es' es -> bad 0 [] es' = ROk tt \/ bad 0 [] es = bad 0 [] es'.
  Proof. intros (a & e & e' & m & -> & -> & Hk & Hr). now apply bad_stays. Qed.
  Lemma bad_line es : forall i before x, bad i before es = RErr x -> (i <= le_line x <= i + gap_rows es)%Z.
  Proof.
    induction es as [|e es IH]; intros i before x H; cbn [first_bad] in H; [discriminate|].
    pose proof (gap_rows_pos es). unfold gap_rows in *. cbn [map fold_right].
    destruct (if existsb _ before then _ else _); [|injection H as <-; cbn [le_line]; lia|discriminate].
    apply IH in H. lia.
  Qed.
  Lemma bad_line_first es' es x : first_entries es' es -> bad 0 [] es' = RErr x -> (0 <= le_line x <= gap_rows es)%Z.
  Proof. intros H K. destruct (bad_first es' es H) as [L|L]; [congruence|]. rewrite <- L in K. now apply bad_line in K. Qed.
End Bad.
Lemma kv_stay {A E} table (unknown dup colon : E) (build : (str -> option str) -> A) (rd : str -> res (option A) (line_err E)) :
  (forall es t, entries_ok es = true -> rest_after es t = true -> rd (kv_text es ++ t) = rmap Some (kv_reads table unknown dup colon build es t)) ->
  forall b' b, cut_body b' b -> stays_or colon (rd b') (rd b).
Proof.
  intros Hrd b' b Hc.
  assert (H0 : forall r : res (option A) (line_err E), stays_or colon r r) by (intros [x|e|p]; cbn [stays_or]; [easy|now left|now left]).
  destruct Hc as [->|[->|(r & ->)]]; [|apply H0|].
  { change (@nil char) with (kv_text [] ++ []) at 1. rewrite (Hrd [] []) by easy. exact I. }
  destruct (every_text_has_entries (b' ++ 10 :: r)) as (es & t & Ee & H1 & H2).
  destruct (entries_first r es t b' H1 H2 (eq_sym Ee)) as (es' & t' & Eb & H3 & H4 & H5). rewrite Ee, (Hrd es t H1 H2), Eb, (Hrd es' t' H3 H4). unfold kv_reads.
  fold (gap_rows es). fold (gap_rows es'). destruct H5 as [[-> ->]|[Hf ->]].
  - destruct (is_blank t') eqn:Eb'.
    + destruct (is_blank (t' ++ 10 :: r)); [apply H0|]. destruct (first_bad table unknown dup 0 [] es) as [x|e|p] eqn:F; cbn [rmap stays_or]; [easy| |].
      * right. exists (gap_rows es). split; [|easy]. apply bad_line in F. lia.
      * right. now exists (gap_rows es).
    + destruct (is_blank (t' ++ 10 :: r)) eqn:K; [|apply H0]. apply blank_prefix in K. congruence.
  - change (is_blank []) with true. cbn iota. destruct (first_bad table unknown dup 0 [] es') as [x|e|p] eqn:F; cbn [rmap stays_or]; [easy| |].
    + destruct (is_blank t).
      * left. destruct (bad_first table unknown dup es' es Hf) as [K|K]; [congruence|]. now rewrite K, F.
      * right. exists (gap_rows es). split; [|easy]. now apply (bad_line_first table unknown dup es' es e Hf) in F.
    + destruct (is_blank t).
      * left. destruct (bad_first table unknown dup es' es Hf) as [K|K]; [congruence|]. now rewrite K, F.
      * right. now exists (gap_rows es).
Qed.
Lemma keys_stay b' b v : cut_body b' b ->
  stays_or GenColonSet (general_from_str b' v) (general_from_str b v) /\ stays_or EdColonSet (editor_from_str b' v) (editor_from_str b v)
  /\ stays_or MdColonSet (metadata_from_str b' v) (metadata_from_str b v) /\ stays_or DfColonSet (difficulty_from_str b' v) (difficulty_from_str b v).
Proof.
  intros H. repeat apply conj.
  - apply (kv_stay (general_table v) GenKey GenDup GenColonSet (general_of v) (fun s => general_from_str s v)); [|easy]. intros es t H1 H2. exact (general_reads_eq es t v H1 H2).
  - apply (kv_stay editor_table EdKey EdDup EdColonSet editor_of (fun s => editor_from_str s v)); [|easy]. intros es t H1 H2. exact (editor_reads_eq es t v H1 H2).
  - apply (kv_stay metadata_table MdKey MdDup MdColonSet metadata_of (fun s => metadata_from_str s v)); [|easy]. intros es t H1 H2. exact (metadata_reads_eq es t v H1 H2).
  - apply (kv_stay difficulty_table DfKey DfDup DfColonSet difficulty_of (fun s => difficulty_from_str s v)); [|easy]. intros es t H1 H2. exact (difficulty_reads_eq es t v H1 H2).
Qed.

(** ** sections of a file *)
Lemma same_stays {A E} (f : E -> osu_err) (rd : str -> res A (line_err E)) b' b : stays_same (rd b') (rd b) -> stays (can_be f rd b') (can_be f rd b).
Proof. unfold can_be. destruct (rd b') as [x|e|p]; cbn [stays_same stays]; [easy|intros ->; now left|intros ->; now left]. Qed.
Lemma or_stays {A E} (f : E -> osu_err) colon (rd : str -> res A (line_err E)) b' b : (forall e, colon_error (f e) = Some (f colon)) ->
  (f colon = OsuMetadata MdColonSet \/ forall p, rd b' <> RPanic p) -> stays_or colon (rd b') (rd b) -> stays (can_be f rd b') (can_be f rd b).
Proof.
  intros Hf Hp. unfold can_be. destruct (rd b') as [x|e|p] eqn:E0; cbn [stays_or stays]; [easy| |].
  - intros [->|(j & Hj & ->)]; [now left|right]. exists j, (f colon). cbn [le_err le_line]. now rewrite Hf.
  - intros [->|(j & ->)]; [now left|right]. exists j. cbn [le_err le_line]. destruct Hp as [->|Hp]; [easy|now elim (Hp p)].
Qed.
Lemma stays_refl {A} (r : res A (line_err osu_err)) : stays r r.
Proof. destruct r; cbn [stays]; [easy|now left|now left]. Qed.
Lemma same_refl {A E} (r : res A E) : stays_same r r.
Proof. now destruct r. Qed.
Lemma points_body b' b v : cut_body b' b -> ends_with_char 13 b' = false -> stays_same (timing_points_from_str b' v) (timing_points_from_str b v).
Proof. intros H Hc. destruct (cut_body_lines b' b H (or_introl Hc)) as (c & El). exact (pieces_stay _ b b' c (points_pieces v) El). Qed.
Lemma objects_body b' b v : cut_body b' b -> ends_with_char 13 b' = false -> stays_same (hit_objects_from_str b' v) (hit_objects_from_str b v).
Proof. intros H Hc. destruct (cut_body_lines b' b H (or_introl Hc)) as (c & El). exact (pieces_stay _ b b' c (objects_pieces v) El). Qed.
Lemma colours_body b' b v : cut_body b' b -> ends_with_char 13 b' = false -> stays_same (colours_from_str b' v) (colours_from_str b v).
Proof. intros H Hc. destruct (cut_body_lines b' b H (or_introl Hc)) as (c & El). exact (pieces_stay _ b b' c (colours_pieces v) El). Qed.
Lemma events_body dbg vs b' b v : cut_body b' b -> ends_with_char 13 b' = false -> stays_same (events_from_str_vars dbg vs b' v) (events_from_str_vars dbg vs b v).
Proof. intros H Hc. destruct (cut_body_lines b' b H (or_introl Hc)) as (c & El). exact (events_stay _ _ _ b b' _ El). Qed.
Lemma variables_body b' b : cut_body b' b -> ends_with_char 13 b' = false -> stays_same (variables_read b') (variables_read b).
Proof.
  intros H Hc. destruct (cut_body_lines b' b H (or_introl Hc)) as (c & El). rewrite <- !variables_read_eq.
  exact (pieces_stay (fun s => rmap Some (variables_from_str s)) b b' c variables_pieces El).
Qed.
Lemma named_stay dbg v x' x rd : ch_name x' = ch_name x -> cut_body (ch_body x') (ch_body x) -> ends_with_char 13 (ch_body x') = false ->
  named (osu_table dbg v) x = Some rd -> stays (rd (ch_body x')) (rd (ch_body x)) /\ (ch_body x' = [] -> rd (ch_body x') = ROk tt).
Proof.
  intros En Hb Hc Hn. unfold named, osu_table in Hn. cbn [find fst] in Hn. destruct (keys_stay _ _ v Hb) as (K1 & K2 & K3 & K4).
  repeat match type of Hn with context [if ?c then _ else _] => destruct c end; cbn [option_map snd] in Hn; try discriminate Hn; injection Hn as <-; split.
  - apply (or_stays OsuGeneral GenColonSet); [easy|right; intros p; apply general_np|exact K1].
  - intros ->. reflexivity.
  - apply (or_stays OsuEditor EdColonSet); [easy|right; intros p; apply editor_np|exact K2].
  - intros ->. reflexivity.
  - apply (or_stays OsuMetadata MdColonSet); [easy|now left|exact K3].
  - intros ->. reflexivity.
  - apply (or_stays OsuDifficulty DfColonSet); [easy|right; intros p; apply difficulty_np|exact K4].
  - intros ->. reflexivity.
  - apply same_stays. now apply events_body.
  - intros ->. reflexivity.
  - apply same_stays. now apply points_body.
  - intros ->. reflexivity.
  - apply same_stays. now apply colours_body.
  - intros ->. unfold can_be, colours_from_str. now destruct (old_version v).
  - apply same_stays. now apply objects_body.
  - intros ->. reflexivity.
Qed.
Section Longer.
  Context {E : Type}.
  Variable table : list (string * (str -> res unit (line_err E))).
  Variables dup unknown : E.
  Variable checks : bool.
  Variable R : res unit (line_err E) -> res unit (line_err E) -> Prop.
  Definition moved (k : Z) (r : res unit (line_err E)) : res unit (line_err E) := match r with RErr e => RErr (mk_line_err (k + le_line e) (le_err e)) | _ => r end.
  Hypothesis R_ok : forall r, R (ROk tt) r.
  Hypothesis R_refl : forall r, R r r.
  Hypothesis R_bad : forall r' r, R r' r -> r' <> ROk tt -> r <> ROk tt.
  Hypothesis R_moved : forall k r' r, R r' r -> R (moved k r') (moved k r).
  Hypothesis R_read : forall x' x rd, ch_name x' = ch_name x -> cut_body (ch_body x') (ch_body x) -> ends_with_char 13 (ch_body x') = false ->
    named table x = Some rd -> R (rd (ch_body x')) (rd (ch_body x)) /\ (ch_body x' = [] -> rd (ch_body x') = ROk tt).
  Notation bad := (first_bad_section table dup unknown checks).
  Lemma sections_longer a b : forall n before, bad n before a = ROk tt \/ bad n before (a ++ b) = bad n before a.
  Proof.
    induction a as [|x a IH]; intros n before; cbn [app first_bad_section]; [now left|].
    destruct (seen x before); [now right|]. destruct (named table x) as [rd|]; [|now right]. destruct (rd (ch_body x)); [|now right|now right].
    destruct (checks && _); [now right|apply IH].
  Qed.
  Lemma sections_stay T cs' cs n : cut_with T cs' cs -> ends_with_char 13 T = false ->
    R (bad n [] cs') (bad n [] cs) \/ (checks = true /\ bad n [] cs' = RPanic POverflow /\ ends_empty cs').
  Proof.
    intros [a [(-> & b & ->)|(x' & x & b & p & -> & -> & (En & Hb & Hs) & HT)]] Ht.
    - left. destruct (sections_longer a b n []) as [-> | ->]; auto.
    - pose proof (suffix_no_cr _ _ _ HT Ht) as Hc. destruct (sections_longer a [x'] n []) as [H|H1].
      2:{ destruct (sections_longer a (x :: b) n []) as [H2|H2]; [|left; rewrite H1, H2; apply R_refl].
          rewrite (sections_app _ _ _ _ a (x :: b) n [] H2) in *. rewrite H1, H2. left. apply R_ok. }
      rewrite (sections_app _ _ _ _ a [x'] n [] H), (sections_app _ _ _ _ a (x :: b) n [] H). generalize (n + chunks_rows a)%Z (rev (map ch_name a) ++ []). clear H n. intros n before.
      cbn [first_bad_section]. assert (Es : seen x' before = seen x before) by (unfold seen; now rewrite En). rewrite Es. destruct (seen x before); [left; apply R_refl|].
      assert (Em : named table x' = named table x) by (unfold named; now rewrite En). rewrite Em. destruct (named table x) as [rd|] eqn:Er; [|left; apply R_refl].
      destruct (R_read x' x rd En Hb Hc Er) as [K1 K2].
      assert (D : rd (ch_body x') = ROk tt \/ rd (ch_body x') <> ROk tt) by (destruct (rd (ch_body x')) as [[]| |]; [now left|now right|now right]).
      destruct D as [D|D].
      + rewrite D. destruct (checks && is_empty (ch_body x')) eqn:Ec; [|left; apply R_ok]. right. apply andb_true_iff in Ec as [-> Ec]. split; [easy|]. split; [easy|].
        exists a, x'. split; [easy|]. now destruct (ch_body x').
      + left. pose proof (R_bad _ _ K1 D) as D2. destruct Hs as [Hs|Hs]; [now elim D; apply K2|]. rewrite Hs.
        apply (R_moved (n + rows (ch_space x))) in K1. revert K1 D D2. destruct (rd (ch_body x')) as [[]|e'|p']; [easy|..]; destruct (rd (ch_body x)) as [[]|e|q]; easy.
  Qed.
End Longer.
Lemma osu_sections_stay dbg v T cs' cs n : cut_with T cs' cs -> ends_with_char 13 T = false ->
  stays (osu_reads dbg v n cs') (osu_reads dbg v n cs) \/ (dbg = true /\ osu_reads dbg v n cs' = RPanic POverflow /\ ends_empty cs').
Proof.
  intros Hc Ht. unfold osu_reads.
  destruct (sections_stay (osu_table dbg v) OsuDuplicateSections OsuUnknownSection dbg stays) with (T := T) (cs' := cs') (cs := cs) (n := n) as [H|(H1 & H2 & H3)]; try easy.
  - apply stays_refl.
  - intros [[]|e|p] r; cbn [stays]; [easy| |]; intros [->|H] _; try easy; [destruct H as (j & c & _ & _ & ->)|destruct H as (j & ->)]; easy.
  - intros k [[]|e|p] r; cbn [stays moved]; [easy| |].
    + intros [->|(j & c & H1 & H2 & ->)]; [now left|right]. exists (k + j)%Z, c. cbn [le_line le_err]. split; [easy|]. split; [lia|easy].
    + intros [->|(j & ->)]; [now left|right]. now exists (k + j)%Z.
  - intros x' x rd. apply named_stay.
  - left. revert H. destruct (first_bad_section _ _ _ _ n [] cs') as [[]|e|p]; cbn [stays rmap]; [easy| |].
    + intros [->|(j & c & H1 & H2 & ->)]; [now left|right; now exists j, c].
    + intros [->|(j & ->)]; [now left|right; now exists j].
  - right. rewrite H2. easy.
Qed.
Lemma osb_sections_stay dbg vs T cs' cs n : cut_with T cs' cs -> ends_with_char 13 T = false ->
  stays_same (first_bad_section (osb_table dbg vs) OsbDuplicateSections OsbUnknownSection false n [] cs')
    (first_bad_section (osb_table dbg vs) OsbDuplicateSections OsbUnknownSection false n [] cs).
Proof.
  intros Hc Ht.
  destruct (sections_stay (osb_table dbg vs) OsbDuplicateSections OsbUnknownSection false stays_same) with (T := T) (cs' := cs') (cs := cs) (n := n) as [H|(H1 & _)]; try easy.
  - apply same_refl.
  - now intros [[]|e|p] r; cbn [stays_same]; [|intros ->|intros ->].
  - now intros k [[]|e|p] r; cbn [stays_same moved]; [|intros ->|intros ->].
  - intros x' x rd En Hb Hcr Hn. unfold named, osb_table in Hn. cbn [find fst] in Hn.
    assert (C : forall A E F (f : E -> F) (rd : str -> res A (line_err E)) b' b, stays_same (rd b') (rd b) -> stays_same (can_be f rd b') (can_be f rd b)).
    { intros A E F f rd0 b' b. unfold can_be. now destruct (rd0 b'); cbn [stays_same]; [|intros ->|intros ->]. }
    repeat match type of Hn with context [if ?c then _ else _] => destruct c end; cbn [option_map snd] in Hn; try discriminate Hn; injection Hn as <-; split.
    + apply C. now apply variables_body.
    + intros ->. reflexivity.
    + apply C. now apply events_body.
    + intros ->. reflexivity.
Qed.
Lemma tables_same dbg vs vs' cs : ~ In (lit "Events") (map ch_name cs) -> forall n before,
  first_bad_section (osb_table dbg vs) OsbDuplicateSections OsbUnknownSection false n before cs
  = first_bad_section (osb_table dbg vs') OsbDuplicateSections OsbUnknownSection false n before cs.
Proof.
  induction cs as [|x cs IH]; intros N n before; cbn [first_bad_section]; [easy|]. destruct (seen x before); [easy|].
  assert (Em : named (osb_table dbg vs) x = named (osb_table dbg vs') x).
  { unfold named, osb_table. cbn [find fst]. destruct (str_eqb (ch_name x) (lit "Variables")); [easy|]. destruct (str_eqb (ch_name x) (lit "Events")) eqn:K; [|easy].
    apply str_eqb_eq in K. elim N. left. exact K. }
  rewrite Em. destruct (named (osb_table dbg vs') x) as [rd|]; [|reflexivity]. destruct (rd (ch_body x)); [|reflexivity|reflexivity]. cbn [andb]. apply IH. intros K. apply N. now right.
Qed.
Lemma osb_reads_stay dbg T cs' cs n : cut_with T cs' cs -> ends_with_char 13 T = false -> stays_same (osb_reads dbg n cs') (osb_reads dbg n cs).
Proof.
  intros Hc Ht. unfold osb_reads. pose proof (osb_sections_stay dbg (variables_above cs) T cs' cs n Hc Ht) as H.
  assert (E : first_bad_section (osb_table dbg (variables_above cs')) OsbDuplicateSections OsbUnknownSection false n [] cs'
    = first_bad_section (osb_table dbg (variables_above cs)) OsbDuplicateSections OsbUnknownSection false n [] cs').
  { destruct (vars_cut T cs' cs Hc) as [->|N]; [easy|now apply tables_same]. }
  rewrite E. clear E. revert H. destruct (first_bad_section _ _ _ _ n [] cs'); cbn [stays_same rmap]; [intros _; exact I|intros K; rewrite K; reflexivity|intros K; rewrite K; reflexivity].
Qed.

(** ** the text before the sections *)
Lemma begins_longer k pre ls n cs more : begins k pre ls n cs -> cs <> [] -> exists cs2, begins k pre (ls ++ more) n cs2 /\ cut_with (join [10] ls) cs cs2.
Proof.
  intros (H1 & H2 & H3 & H4) Hne. destruct more as [|z more].
  { exists cs. rewrite app_nil_r. split; [easy|]. exists cs. left. split; [easy|]. exists []. now rewrite app_nil_r. }
  assert (Hl : ls <> []) by (intros ->; apply Hne; exact (no_sections _ H3)).
  assert (J : join [10] (ls ++ z :: more) = join [10] ls ++ 10 :: join [10] (z :: more)) by now apply (join_app [10]).
  destruct (falls_apart_total (join [10] (ls ++ z :: more))) as [cs2 F]. destruct (falls_cut _ _ F _ _ J) as (cs1 & F1 & F2).
  rewrite (falls_apart_unique _ _ _ F1 H3) in F2. exists cs2. split; [|easy]. split; [easy|]. split; [now destruct ls|]. split; [easy|].
  destruct H4 as [H4|(w & t & Ew & Hw & Hn)]; [easy|right]. exists w, (t ++ 10 :: join [10] (z :: more)). rewrite J, Ew, <- app_assoc. easy.
Qed.
Lemma head_longer m M ws num rest : version_head (m ++ [10]) ws num rest -> exists r, rest = r ++ [10] /\ version_head ((m ++ [10]) ++ M) ws num (rest ++ M).
Proof.
  intros H. destruct (head_cut m [] ws num rest) as [K|(r & K1 & K2)]; [now rewrite app_nil_r|now elim (layout_no_version _ K ws num rest)|].
  rewrite app_nil_r in K2. exists r. split; [easy|]. subst rest. apply head_is_text in H as (bom & E & Hw & Hb & Hn & Hr). rewrite E.
  replace ((ws ++ bom ++ version_prefix ++ num ++ r ++ [10]) ++ M) with (ws ++ bom ++ version_prefix ++ num ++ (r ++ [10]) ++ M) by (rewrite <- !app_assoc; reflexivity).
  constructor; [easy|easy|easy|]. right. destruct Hr as [Hr|(c & t & Hr & Hc)]; [now destruct r|]. exists c, (t ++ M). split; [now rewrite Hr|easy].
Qed.
Lemma head_appended s s' more ws num rest : lines s = lines s' ++ more -> version_head s' ws num rest ->
  exists ws2 rest1 rest2, version_head s ws2 num rest2 /\ rows ws2 = rows ws /\ same_rest (lines rest) (lines rest1) /\ same_rest (lines rest1 ++ more) (lines rest2)
  /\ (no_loose_cr s' -> no_end_cr (lines rest1)).
Proof.
  intros El H.
  assert (L' : lines (crlf_text (lines s')) = lines s') by (apply (lines_rest s' []); reflexivity).
  assert (Lm : lines (crlf_text more) = more) by (eapply lines_rest; exact El).
  assert (Ls : lines (crlf_text (lines s')  ++ crlf_text more) = lines s) by (rewrite <- crlf_app, <- El; apply (lines_rest s []); reflexivity).
  destruct (same_lines_head s' (crlf_text (lines s')) ws num rest (eq_sym L') H) as (ws1 & rest1 & H1 & W1 & R1).
  destruct (crlf_end (lines s')) as [E0|(m & Em)].
  { rewrite E0 in H1. now elim (layout_no_version [] eq_refl ws1 num rest1). }
  rewrite Em in *. destruct (head_longer m (crlf_text more) ws1 num rest1 H1) as (r & Er & H2).
  destruct (same_lines_head _ s ws1 num _ Ls H2) as (ws2 & rest2 & H3 & W2 & R2).
  exists ws2, rest1, rest2. split; [easy|]. split; [congruence|]. split; [easy|]. split.
  - subst rest1. rewrite <- app_assoc in R2. cbn [app] in R2. now rewrite lines_cut, Lm in R2.
  - intros Hc. apply loose_end in Hc. rewrite <- L' in Hc. apply head_is_text in H1 as (bom & Ek & _). rewrite Ek in Hc.
    replace (ws1 ++ bom ++ version_prefix ++ num ++ rest1) with ((ws1 ++ bom ++ version_prefix ++ num) ++ rest1) in Hc by now rewrite <- !app_assoc.
    now apply no_end_suffix in Hc.
Qed.
Lemma rest_same a b pre l ls : same_rest a b -> a = pre ++ l :: ls -> l <> [] -> b = a.
Proof. intros [->|[[->| ->] _]]; [easy|now destruct pre|]. intros E N. destruct pre as [|p pre]; [injection E as <- _; easy|destruct pre; discriminate E]. Qed.
Lemma parts_longer s s' more v n cs : lines s = lines s' ++ more -> osu_parts s' v n cs -> cs <> [] ->
  exists cs2, osu_parts s v n cs2 /\ exists T, cut_with T cs cs2 /\ (no_loose_cr s' -> ends_with_char 13 T = false).
Proof.
  intros El (ws & num & rest & pre & ls & H1 & H2 & H3 & H4) Hne.
  destruct (head_appended s s' more ws num rest El H1) as (ws2 & rest1 & rest2 & K1 & K2 & K3 & K4 & K5).
  destruct (begins_longer _ _ _ _ _ more H4 Hne) as (cs2 & B & C). exists cs2.
  assert (exists l ls0, ls = l :: ls0 /\ l <> []) as (l & ls0 & -> & Hl).
  { destruct H4 as (_ & Hh & Hf & _). destruct ls as [|l ls0]; [elim Hne; exact (no_sections _ Hf)|]. exists l, ls0. split; [easy|]. intros ->. discriminate Hh. }
  pose proof (rest_same _ _ _ _ _ K3 H3 Hl) as E1. rewrite E1, H3 in K4, K5. rewrite <- app_assoc in K4. cbn [app] in K4. pose proof (rest_same _ _ _ _ _ K4 eq_refl Hl) as E2.
  split.
  - exists ws2, num, rest2, pre, (l :: ls0 ++ more). split; [easy|]. split; [easy|]. split; [easy|]. now rewrite K2.
  - exists (join [10] (l :: ls0)). split; [easy|]. intros Hc. apply join_no_cr. specialize (K5 Hc). now apply Forall_app in K5.
Qed.
Lemma stray_longer s s' more k : lines s = lines s' ++ more -> file_stray s' k -> file_stray s k.
Proof.
  intros El (ws & num & rest & v & pre & l & ls & H1 & H2 & H3 & H4 & H5 & H6 & H7).
  destruct (head_appended s s' more ws num rest El H1) as (ws2 & rest1 & rest2 & K1 & K2 & K3 & K4 & K5).
  assert (Hl : l <> []) by (intros ->; discriminate H5).
  pose proof (rest_same _ _ _ _ _ K3 H3 Hl) as E1. rewrite E1, H3 in K4. rewrite <- app_assoc in K4. cbn [app] in K4. pose proof (rest_same _ _ _ _ _ K4 eq_refl Hl) as E2.
  exists ws2, num, rest2, v, pre, l, (ls ++ more). easy.
Qed.
Lemma no_version_longer s s' more : lines s = lines s' ++ more -> no_version s' -> forallb layout_char s' = true \/ no_version s.
Proof.
  intros El N.
  assert (L' : lines (crlf_text (lines s')) = lines s') by (apply (lines_rest s' []); reflexivity).
  assert (Ls : lines (crlf_text (lines s')  ++ crlf_text more) = lines s) by (rewrite <- crlf_app, <- El; apply (lines_rest s []); reflexivity).
  destruct (forallb layout_char s') eqn:Ly; [now left|right]. intros ws num rest H.
  destruct (same_lines_head s _ ws num rest (eq_sym Ls) H) as (ws1 & rest1 & H1 & _).
  destruct (crlf_end (lines s')) as [E0|(m & Em)].
  { enough (forallb layout_char s' = true) by congruence. apply layout_crlf. now rewrite E0. }
  rewrite Em in H1. destruct (head_cut m _ _ _ _ H1) as [K|(r & K & _)].
  { enough (forallb layout_char s' = true) by congruence. apply layout_crlf. now rewrite Em. }
  rewrite <- Em in K. destruct (same_lines_head _ s' _ _ _ L' K) as (ws2 & rest2 & K2 & _). exact (N _ _ _ K2).
Qed.

(** ** files *)
Lemma missing_read dbg s : no_version s -> osu_from_str dbg s = RErr (mk_line_err 0 OsuFileVersionDefinedWrong).
Proof. intros H. destruct (vp_inv s) as [(ws & num & rest & Hh)|[Hv _]]; [now elim (H ws num rest)|]. unfold osu_from_str. now rewrite Hv. Qed.
Lemma osu_stay dbg s s' more : lines s = lines s' ++ more -> no_loose_cr s' ->
  forallb layout_char s' = true \/ stays (osu_from_str dbg s') (osu_from_str dbg s)
  \/ (dbg = true /\ osu_from_str dbg s' = RPanic POverflow /\ exists v n cs, osu_parts s' v n cs /\ ends_empty cs).
Proof.
  intros El Hc. destruct (osu_cases s') as [H|[H|[(k & H)|(v & n & cs & Hp)]]].
  - destruct (no_version_longer s s' more El H) as [K|K]; [now left|right; left]. rewrite (missing_read dbg s' H), (missing_read dbg s K). now left.
  - right. left. destruct H as (ws & num & rest & H & Hv). destruct (head_appended s s' more ws num rest El H) as (ws2 & rest1 & rest2 & K1 & _).
    rewrite (version_bad dbg s' ws num rest H Hv), (version_bad dbg s ws2 num rest2 K1 Hv). now left.
  - right. left. rewrite (total_stray dbg s' k H), (total_stray dbg s k (stray_longer s s' more k El H)). now left.
  - right. destruct cs as [|x cs].
    + left. rewrite (osu_parts_read dbg s' v n [] Hp). exact I.
    + destruct (parts_longer s s' more v n (x :: cs) El Hp) as (cs2 & Hp2 & T & Hw & Ht); [easy|]. specialize (Ht Hc).
      rewrite (osu_parts_read dbg s' v n _ Hp), (osu_parts_read dbg s v n _ Hp2).
      destruct (osu_sections_stay dbg v T (x :: cs) cs2 n Hw Ht) as [K|(K1 & K2 & K3)]; [now left|right]. split; [easy|]. split; [easy|]. now exists v, n, (x :: cs).
Qed.
Lemma osb_stay dbg s s' more : lines s = lines s' ++ more -> no_loose_cr s' -> stays_same (osb_from_str dbg s' 14%Z) (osb_from_str dbg s 14%Z).
Proof.
  intros El Hc. destruct (osb_cases s') as [(k & H)|(n & cs & Hp)].
  - rewrite (osb_stray_read dbg s' k H). destruct H as (pre & l & ls & E & H). cbn [stays_same]. apply osb_stray_read. exists pre, l, (ls ++ more). rewrite El, E, <- app_assoc. easy.
  - destruct cs as [|x cs]; [now rewrite (osb_parts_read dbg s' n [] Hp)|]. pose proof Hp as (pre & ls & E & B).
    destruct (begins_longer _ _ _ _ _ more B) as (cs2 & B2 & C); [easy|].
    assert (Hp2 : osb_parts s n cs2) by (exists pre, (ls ++ more); split; [now rewrite El, E, <- app_assoc|easy]).
    rewrite (osb_parts_read dbg s' n _ Hp), (osb_parts_read dbg s n _ Hp2).
    assert (Ht : ends_with_char 13 (join [10] ls) = false) by (apply loose_end in Hc; apply join_no_cr; rewrite E in Hc; now apply Forall_app in Hc).
    pose proof (osb_reads_stay dbg _ _ _ n C Ht) as K. revert K. destruct (osb_reads dbg n (x :: cs)); cbn [stays_same rmap]; [easy|intros ->; easy|intros ->; easy].
Qed.
Lemma variables_stay s s' more : lines s = lines s' ++ more -> stays_same (variables_from_str s') (variables_from_str s).
Proof.
  intros H. apply rest_text in H. pose proof (pieces_stay (fun s => rmap Some (variables_from_str s)) s s' _ variables_pieces H) as K. cbv beta in K. revert K.
  destruct (variables_from_str s') as [x|e|p], (variables_from_str s) as [y|f|q]; cbn [rmap stays_same]; congruence.
Qed.
Lemma lists_stay s s' more v : lines s = lines s' ++ more ->
  stays_same (timing_points_from_str s' v) (timing_points_from_str s v) /\ stays_same (hit_objects_from_str s' v) (hit_objects_from_str s v)
  /\ stays_same (colours_from_str s' v) (colours_from_str s v) /\ stays_same (variables_from_str s') (variables_from_str s)
  /\ forall dbg vs, stays_same (events_from_str_vars dbg vs s' v) (events_from_str_vars dbg vs s v).
Proof.
  intros H. pose proof (rest_text _ _ _ H) as K. split; [exact (pieces_stay _ s s' _ (points_pieces v) K)|]. split; [exact (pieces_stay _ s s' _ (objects_pieces v) K)|].
  split; [exact (pieces_stay _ s s' _ (colours_pieces v) K)|]. split; [exact (variables_stay s s' more H)|]. intros dbg vs. exact (events_stay dbg vs v s s' more H).
Qed.
