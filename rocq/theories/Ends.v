(** Line endings (C56): proofs. *)
From Coq Require Import String List NArith ZArith Bool Lia.
From Verif Require Import Str Num Nom Dec Parsers General Editor Metadata Difficulty Colours TimingPoints HitObjects Storyboard
  NormalEvents Events Osb OsuFile Trimmer Spec SpecWf SpecKv SpecText SpecSections SpecFile SpecTotal SpecOsb SpecLine SpecEvLine SpecEvents
  SpecEvSection SpecKvRead SpecParts SpecMeans SpecEnds StrFacts KvFacts KvRead Means EvPanic.
Import ListNotations.
Local Open Scope N_scope.

(** ** [lines] *)
Lemma lines_app_crlf l s : no_nl l = true -> lines (l ++ 13 :: 10 :: s) = l :: lines s.
Proof.
  induction l as [|c l IH]; [reflexivity|]. cbn [no_nl forallb]. intros H. apply andb_true_iff in H as [Hc Hl].
  cbn [app lines]. rewrite (IH Hl). apply negb_true_iff in Hc. unfold c_nl, c_cr. rewrite Hc.
  replace (match l ++ 13 :: 10 :: s with d :: _ => d =? 10 | [] => false end) with false; [now rewrite andb_false_r|].
  destruct l as [|d l]; [easy|]. cbn [no_nl forallb] in Hl. apply andb_true_iff in Hl as [Hd _]. now apply negb_true_iff in Hd.
Qed.
Lemma made_lines s ls : made_of s ls -> lines s = ls.
Proof.
  induction 1; [easy|now apply lines_single|rewrite lines_app_nl by easy; now f_equal|rewrite lines_app_crlf by easy; now f_equal].
Qed.
Lemma cut_nl s : no_nl s = true \/ exists l t, s = l ++ 10 :: t /\ no_nl l = true.
Proof.
  induction s as [|c s [IH|(l & t & -> & IH)]]; [now left| |].
  - destruct (N.eqb_spec c 10) as [->|N]; [right; now exists [], s|left]. unfold no_nl in *. cbn [forallb]. rewrite IH. apply N.eqb_neq in N. now rewrite N.
  - right. destruct (N.eqb_spec c 10) as [->|N]; [now exists [], (l ++ 10 :: t)|]. exists (c :: l), t. split; [easy|]. unfold no_nl in *. cbn [forallb]. rewrite IH. apply N.eqb_neq in N. now rewrite N.
Qed.
Lemma ends_cr l : ends_with_char 13 l = true -> exists m, l = m ++ [13].
Proof.
  unfold ends_with_char. intros H. destruct (rev l) as [|c r] eqn:E; [discriminate|]. cbn in H. apply N.eqb_eq in H as ->. exists (rev r).
  now rewrite <- (rev_involutive l), E.
Qed.
Lemma no_nl_app a b : no_nl (a ++ b) = no_nl a && no_nl b.
Proof. apply forallb_app. Qed.
Lemma lines_made s : made_of s (lines s).
Proof.
  remember (length s) as n eqn:En. revert s En. induction n as [n IH] using lt_wf_ind. intros s ->.
  destruct (cut_nl s) as [H|(l & t & -> & H)].
  - destruct s as [|c s]; [apply mo_nil|]. rewrite lines_single by easy. now apply mo_last.
  - assert (L : made_of t (lines t)) by (eapply IH; [|reflexivity]; rewrite app_length; cbn; lia).
    destruct (ends_with_char 13 l) eqn:E.
    + apply ends_cr in E as [m ->]. rewrite no_nl_app in H. apply andb_true_iff in H as [H _]. rewrite <- app_assoc. cbn [app].
      rewrite lines_app_crlf by easy. now apply mo_crlf.
    + rewrite lines_app_nl by easy. now apply mo_lf.
Qed.
Lemma lines_iff s ls : lines s = ls <-> made_of s ls.
Proof. split; [intros <-; apply lines_made|apply made_lines]. Qed.
Definition tail_of (l e s : str) (ls : list str) : Prop :=
  (e = [] /\ s = [] /\ ls = [] /\ l <> []) \/ (e = [10] /\ ends_with_char 13 l = false) \/ e = [13; 10].
Lemma made_cons s l ls : made_of s (l :: ls) -> exists e s', s = l ++ e ++ s' /\ made_of s' ls /\ no_nl l = true /\ tail_of l e s' ls.
Proof.
  intros H. inversion H; subst.
  - exists [], []. rewrite !app_nil_r. split; [easy|]. split; [apply mo_nil|]. split; [easy|]. now left.
  - exists [10], s0. split; [easy|]. split; [easy|]. split; [easy|]. right. now left.
  - exists [13; 10], s0. split; [easy|]. split; [easy|]. split; [easy|]. right. now right.
Qed.
Lemma tail_lines l e s ls : tail_of l e s ls -> no_nl l = true -> e <> [] -> lines (l ++ e ++ s) = l :: lines s.
Proof. intros [(-> & _)|[(-> & H)| ->]] N E; [easy|now apply lines_app_nl|now apply lines_app_crlf]. Qed.

(** ** the version line *)
Lemma app_split {A} (a b c d : list A) : a ++ b = c ++ d -> (exists m, a = c ++ m /\ d = m ++ b) \/ (exists m, m <> [] /\ c = a ++ m /\ b = m ++ d).
Proof.
  revert c. induction a as [|x a IH]; intros c H.
  - cbn in H. destruct c as [|y c]; [left; now exists []|]. right. now exists (y :: c).
  - destruct c as [|y c]; [left; now exists (x :: a)|]. cbn in H. injection H as -> H. destruct (IH c H) as [(m & -> & ->)|(m & Hm & -> & ->)].
    + left. now exists m.
    + right. now exists m.
Qed.
Definition solid (c : char) : bool := negb (c =? 13) && negb (c =? 10).
Lemma prefix_solid : forallb solid version_prefix = true.
Proof. reflexivity. Qed.
Lemma head_in l e s ls ws num rest : tail_of l e s ls -> no_nl l = true -> version_head (l ++ e ++ s) ws num rest ->
  (e <> [] /\ forallb layout_char l = true /\ exists ws', ws = l ++ e ++ ws' /\ version_head s ws' num rest)
  \/ exists bom u, l = ws ++ bom ++ version_prefix ++ num ++ u /\ rest = u ++ e ++ s /\ forallb layout_char ws = true /\ (bom = [] \/ bom = [65279])
     /\ forallb solid num = true /\ (u = [] \/ exists u', u = 13 :: u').
Proof.
  intros T N H. inversion H as [ws0 bom num0 rest0 Hw Hb Hn Hr E]. subst ws0 num0 rest0. clear H.
  assert (S : exists z0 Z, bom ++ version_prefix ++ num = z0 :: Z /\ layout_char z0 = false /\ forallb solid (z0 :: Z) = true).
  { destruct Hb as [->| ->].
    - eexists _, _. split; [reflexivity|]. split; [reflexivity|]. change (forallb solid (version_prefix ++ num) = true). now rewrite forallb_app, prefix_solid.
    - eexists _, _. split; [reflexivity|]. split; [reflexivity|]. change (forallb solid (65279 :: version_prefix ++ num) = true). cbn [forallb]. now rewrite forallb_app, prefix_solid. }
  destruct S as (z0 & Z & EZ & Hz & HZ).
  assert (E' : ws ++ (z0 :: Z) ++ rest = (l ++ e) ++ s) by (rewrite <- EZ, <- !app_assoc; exact E).
  apply app_split in E' as [(m & -> & Es)|(m & Hm & El & Es)].
  - rewrite forallb_app in Hw. apply andb_true_iff in Hw as [Hw Hm]. rewrite forallb_app in Hw. apply andb_true_iff in Hw as [Hl He].
    destruct e as [|c e].
    + exfalso. destruct T as [(_ & -> & _)|[(T & _)|T]]; [|discriminate..]. now destruct m.
    + left. split; [easy|]. split; [easy|]. exists m. split; [now rewrite <- app_assoc|]. rewrite Es, <- EZ, <- !app_assoc. now constructor.
  - right. assert (El' : exists y, l = ws ++ y /\ m = y ++ e /\ y <> []).
    { apply app_split in El as [(y & Ey & Em)|(y & Hy & -> & ->)]; [|exfalso].
      - destruct y as [|y0 y]; [exfalso|now exists (y0 :: y)]. rewrite app_nil_r in Ey. cbn in Em. subst e. destruct m as [|m0 m]; [easy|]. cbn in Es. injection Es as <- _.
        destruct T as [(T & _)|[(T & _)|T]]; [discriminate|injection T as -> _; discriminate|injection T as -> _; discriminate].
      - destruct m as [|m0 m]; [easy|]. cbn in Es. injection Es as <- _.
        assert (K : In z0 (y ++ z0 :: m)) by apply in_elt. destruct T as [(T & _)|[(T & _)|T]]; [now destruct y|..]; rewrite T in K; cbn in K; destruct K as [<-|K]; try discriminate Hz; [easy|]. destruct K as [<-|K]; [discriminate Hz|easy]. }
    destruct El' as (y & -> & -> & Hy). rewrite <- app_assoc in Es. apply app_split in Es as [(u & EZ' & Eu)|(u & Hu & -> & ->)].
    + (* the line ends inside the solid part *)
      destruct u as [|u0 u].
      * rewrite app_nil_r in EZ'. exists bom, []. cbn in Eu. rewrite app_nil_r. rewrite <- Eu. rewrite <- EZ', <- EZ. repeat split; try easy. now left.
      * exfalso. rewrite EZ', forallb_app in HZ. apply andb_true_iff in HZ as [_ HZ]. cbn [forallb] in HZ. apply andb_true_iff in HZ as [HZ _].
        destruct T as [(-> & -> & _)|[(-> & _)| ->]]; [discriminate Eu|injection Eu as <- _; discriminate|injection Eu as <- _; discriminate].
    + exists bom, u. split; [now rewrite <- EZ, <- !app_assoc|]. split; [easy|]. repeat split; try easy. right.
      destruct u as [|u0 u]; [easy|]. destruct Hr as [Hr|(c & t & Hr & Hc)]; [discriminate|]. injection Hr as -> _.
      destruct Hc as [->| ->]; [exfalso|now exists u].
      rewrite !no_nl_app in N. rewrite !andb_true_iff in N. destruct N as [_ [_ N]]. discriminate N.
Qed.
Definition same_rest (a b : list str) : Prop := a = b \/ ((a = [] \/ a = [[]]) /\ (b = [] \/ b = [[]])).
Lemma rest_lines u l e s ls : (u = [] \/ exists m, l = m ++ u) -> tail_of l e s ls -> no_nl l = true -> no_nl u = true ->
  same_rest (lines (u ++ e ++ s)) (u :: lines s).
Proof.
  intros Hu T N Nu. destruct T as [(-> & -> & -> & _)|[(-> & E)| ->]].
  - cbn. rewrite app_nil_r. destruct u as [|c u]; [right; split; now left + right|]. left. now apply lines_single.
  - left. apply lines_app_nl; [easy|]. destruct u as [|c u]; [easy|]. destruct Hu as [Hu|[m ->]]; [easy|]. now rewrite ends_with_char_app in E.
  - left. now apply lines_app_crlf.
Qed.
Lemma same_sym a b : same_rest a b -> same_rest b a.
Proof. intros [->|[H1 H2]]; [now left|now right]. Qed.
Lemma same_trans a b c : same_rest a b -> same_rest b c -> same_rest a c.
Proof. intros [->|[H1 H2]]; [easy|]. intros [->|[H3 H4]]; now right. Qed.
Lemma head_nil ws num rest : ~ version_head [] ws num rest.
Proof.
  intros H. inversion H as [? bom ? ? _ _ _ _ E]. apply (f_equal (@length _)) in E. rewrite !app_length in E. change (length version_prefix) with 17%nat in E. cbn in E. lia.
Qed.
Lemma head_ends ls : forall s t ws num rest, made_of s ls -> made_of t ls -> version_head s ws num rest ->
  exists ws' rest', version_head t ws' num rest' /\ rows ws' = rows ws /\ same_rest (lines rest) (lines rest').
Proof.
  induction ls as [|l ls IH]; intros s t ws num rest Hs Ht H.
  - inversion Hs; subst. now apply head_nil in H.
  - apply made_cons in Hs as (e & s' & -> & Hs & N & T). apply made_cons in Ht as (e' & t' & -> & Ht & _ & T').
    destruct (head_in _ _ _ _ _ _ _ T N H) as [(He & Hl & ws' & -> & H')|(bom & u & -> & -> & Hw & Hb & Hn & Hu)].
    + destruct (IH _ _ _ _ _ Hs Ht H') as (ws2 & rest2 & H2 & Hr & Hrest).
      assert (He' : e' <> []).
      { intros ->. destruct T' as [(_ & -> & -> & _)|[(T' & _)|T']]; [|discriminate..]. inversion Hs; subst. now apply head_nil in H'. }
      exists (l ++ e' ++ ws2), rest2. split; [|split; [|easy]].
      * inversion H2 as [? bom ? ? G1 G2 G3 G4 E]; subst. replace (l ++ e' ++ ws2 ++ bom ++ version_prefix ++ num ++ rest2) with ((l ++ e' ++ ws2) ++ bom ++ version_prefix ++ num ++ rest2) by now rewrite <- !app_assoc.
        constructor; try easy.
        rewrite !forallb_app, Hl, G1, andb_true_r. cbn [andb]. destruct T' as [(T' & _)|[(-> & _)| ->]]; [now elim He'|easy..].
      * unfold rows in *. 
        assert (R : forall e s w, tail_of l e s ls -> e <> [] -> length (lines (l ++ e ++ w)) = S (length (lines w))).
        { clear - N. intros e s w [(-> & _)|[(-> & E)| ->]] K; [easy|cbn [app]; now rewrite lines_app_nl|cbn [app]; now rewrite lines_app_crlf]. }
        rewrite (R e' t' ws2 T' He'), (R e s' ws' T He). lia.
    + exists ws, (u ++ e' ++ t'). split; [|split; [easy|]].
      * rewrite <- !app_assoc. constructor; try easy. destruct Hu as [->|[u' ->]]; [|right; eexists _, _; split; [reflexivity|now right]].
        destruct T' as [(-> & -> & _)|[(-> & _)| ->]]; [now left|right; eexists _, _; split; [reflexivity|now left]|right; eexists _, _; split; [reflexivity|now right]].
      * assert (Nu : no_nl u = true) by (rewrite !no_nl_app, !andb_true_iff in N; easy).
        assert (Ls : lines s' = lines t') by (apply made_lines in Hs, Ht; congruence).
        eapply same_trans; [eapply rest_lines; [right|exact T|easy|easy]|apply same_sym; rewrite Ls; eapply rest_lines; [right|exact T'|easy|easy]].
        all: exists (ws ++ bom ++ version_prefix ++ num); now rewrite <- !app_assoc.
Qed.
Lemma same_lines_head s t ws num rest : lines s = lines t -> version_head s ws num rest ->
  exists ws' rest', version_head t ws' num rest' /\ rows ws' = rows ws /\ same_rest (lines rest) (lines rest').
Proof. intros E. apply (head_ends (lines s)); [apply lines_made|rewrite E; apply lines_made]. Qed.
Lemma ends_means dbg s t r : lines s = lines t -> file_means dbg s r -> file_means dbg t r.
Proof.
  intros E H. destruct H as [H|H|k H|v n cs r H Hr].
  - apply fm_no_version. intros ws num rest K. destruct (same_lines_head t s ws num rest (eq_sym E) K) as (ws' & rest' & K' & _). now apply H in K'.
  - apply fm_bad_version. destruct H as (ws & num & rest & K & Hv). destruct (same_lines_head s t ws num rest E K) as (ws' & rest' & K' & _). now exists ws', num, rest'.
  - apply fm_stray. destruct H as (ws & num & rest & v & pre & l & ls & K & Hv & El & Hp & Hl & Hh & ->).
    destruct (same_lines_head s t ws num rest E K) as (ws' & rest' & K' & _ & R). exists ws', num, rest', v, pre, l, ls. split; [easy|]. split; [easy|].
    split; [|easy]. destruct R as [R|[[R|R] _]]; [congruence| |]; rewrite El in R.
    + now destruct pre.
    + destruct pre as [|p pre]; [|destruct pre; discriminate R]. injection R as -> ->. discriminate Hl.
  - destruct H as (ws & num & rest & pre & ls & K & Hv & El & Hp & Hl & Hf & Hn).
    destruct (same_lines_head s t ws num rest E K) as (ws' & rest' & K' & W & R).
    destruct R as [R|[R1 R2]].
    + apply fm_sections with (v := v) (n := n) (cs := cs); [|easy]. exists ws', num, rest', pre, ls. repeat (split; [congruence || easy|]). now rewrite W.
    + assert (C : ls = []).
      { rewrite El in R1. destruct ls as [|l ls]; [easy|exfalso]. destruct R1 as [R1|R1]; [now destruct pre|]. destruct pre as [|p pre]; [|destruct pre; discriminate R1]. injection R1 as -> ->. discriminate Hl. }
      subst ls. assert (cs = []).
      { destruct cs as [|x cs]; [easy|exfalso]. destruct Hn as [Hn|(w & t' & Hn & _)]; [discriminate|]. now destruct w. }
      subst cs. apply fm_sections with (v := v) (n := n) (cs := []); [|inversion Hr; subst; constructor].
      exists ws', num, rest', (lines rest'), []. rewrite app_nil_r. do 3 (split; [easy|]). split; [destruct R2 as [-> | ->]; easy|]. split; [easy|]. split; [easy|now left].
Qed.
Lemma ends_osu dbg s t : lines s = lines t -> osu_from_str dbg s = osu_from_str dbg t.
Proof. intros E. apply file_means_iff. apply (ends_means dbg t s); [easy|]. now apply file_means_iff. Qed.

(** ** key/value sections *)
Fixpoint cr (s : str) : str :=
  match s with
  | [] => []
  | c :: s' => if c =? 10 then 13 :: 10 :: cr s'
               else if (c =? 13) && starts_with_char 10 s' then cr s' else c :: cr s'
  end.
Lemma cr_lines s : crlf_text (lines s) = cr s \/ crlf_text (lines s) = cr s ++ [13; 10].
Proof.
  induction s as [|c s IH]; [now left|]. cbn [lines cr]. unfold c_nl, c_cr. fold (starts_with_char 10 s).
  destruct (c =? 10); [unfold crlf_text in *; cbn [map concat app]; destruct IH as [-> | ->]; [now left|now right]|].
  destruct ((c =? 13) && starts_with_char 10 s); [easy|].
  destruct (lines s) as [|l ls] eqn:E.
  - destruct s as [|d s]; [right; reflexivity|]. exfalso. pose proof (lines_made (d :: s)) as M. rewrite E in M. inversion M.
  - unfold crlf_text in *. cbn [map concat app] in *. destruct IH as [-> | ->]; [now left|now right].
Qed.
Lemma cr_app a b : last a 0 <> 13 \/ starts_with_char 10 b = false -> cr (a ++ b) = cr a ++ cr b.
Proof.
  induction a as [|c a IH]; [easy|]. intros H. cbn [app cr].
  assert (I : a <> [] -> cr (a ++ b) = cr a ++ cr b) by (intros K; apply IH; destruct a; [easy|exact H]).
  destruct a as [|d a].
  - cbn [app starts_with_char cr]. rewrite andb_false_r. destruct (N.eqb_spec c 10); [easy|]. destruct (N.eqb_spec c 13) as [->|]; [|easy]. cbn [andb].
    destruct H as [H|H]; [now elim H|]. now rewrite H.
  - specialize (I ltac:(easy)). rewrite I. cbn [app starts_with_char]. destruct (c =? 10); [easy|]. now destruct ((c =? 13) && (d =? 10)).
Qed.
Lemma cr_id a : no_nl a = true -> cr a = a.
Proof.
  induction a as [|c a IH]; [easy|]. cbn [no_nl forallb]. intros H. apply andb_true_iff in H as [Hc H]. apply negb_true_iff in Hc. cbn [cr]. rewrite Hc, (IH H).
  replace (starts_with_char 10 a) with false; [now rewrite andb_false_r|]. destruct a as [|d a]; [easy|]. cbn [no_nl forallb] in H. apply andb_true_iff in H as [Hd _]. now apply negb_true_iff in Hd.
Qed.
Lemma cr_head s : starts_with_char 10 (cr s) = false.
Proof.
  induction s as [|c s IH]; [easy|]. cbn [cr]. destruct (c =? 10) eqn:E; [easy|]. destruct ((c =? 13) && _); [easy|]. exact E.
Qed.
Lemma lines_cr s : lines (cr s) = lines s.
Proof.
  induction s as [|c s IH]; [easy|]. cbn [lines cr]. unfold c_nl, c_cr. fold (starts_with_char 10 s). destruct (c =? 10) eqn:E; [cbn; now rewrite IH|].
  destruct ((c =? 13) && starts_with_char 10 s); [easy|]. cbn [lines]. unfold c_nl, c_cr. fold (starts_with_char 10 (cr s)). now rewrite E, cr_head, andb_false_r, IH.
Qed.
Lemma cr_forall f s : f 13 = true -> f 10 = true -> forallb f (cr s) = forallb f s.
Proof.
  intros F1 F2. induction s as [|c s IH]; [easy|]. cbn [cr]. destruct (N.eqb_spec c 10) as [->|]; [cbn [forallb]; now rewrite F1, F2, IH|].
  destruct (N.eqb_spec c 13) as [->|]; [|cbn [andb forallb]; now rewrite IH]. cbn [andb]. destruct (starts_with_char 10 s); cbn [forallb]; now rewrite IH, F1.
Qed.
Lemma cr_head_is f s : f 13 = f 10 -> head_is f (cr s) = head_is f s.
Proof.
  intros F. induction s as [|c s IH]; [easy|]. cbn [cr]. destruct (N.eqb_spec c 10) as [->|]; [easy|]. destruct (N.eqb_spec c 13) as [->|]; [|easy]. cbn [andb].
  destruct (starts_with_char 10 s) eqn:E; [|easy]. rewrite IH. destruct s as [|d s]; [easy|]. cbn in E. apply N.eqb_eq in E as ->. now symmetry.
Qed.
Lemma cr_empty s : is_empty (cr s) = is_empty s.
Proof.
  induction s as [|c s IH]; [easy|]. cbn [cr]. destruct (c =? 10); [easy|]. destruct ((c =? 13) && starts_with_char 10 s) eqn:E; [|easy]. rewrite IH.
  destruct s; [now rewrite andb_false_r in E|easy].
Qed.
Lemma blank_forall s : is_blank s = forallb is_ws s.
Proof.
  unfold is_blank, trim. destruct (trim_start_incl s) as (a & E & Ha). rewrite E at 2. rewrite forallb_app, Ha. cbn [andb].
  pose proof (trim_end_nil (trim_start s)) as T. destruct (trim_end (trim_start s)); cbn [is_empty]; symmetry; [now apply T|].
  destruct (forallb is_ws (trim_start s)); [|easy]. now discriminate (proj2 T eq_refl).
Qed.
Lemma cr_blank s : is_blank (cr s) = is_blank s.
Proof. rewrite !blank_forall. now apply cr_forall. Qed.
Lemma cr_first s : contains_char 58 (first_line (cr s)) = contains_char 58 (first_line s).
Proof.
  unfold first_line. induction s as [|c s IH]; [easy|]. cbn [cr]. destruct (N.eqb_spec c 10) as [->|N]; [reflexivity|].
  destruct (N.eqb_spec c 13) as [->|].
  - cbn [andb]. destruct (starts_with_char 10 s) eqn:E.
    + destruct s as [|d s]; [easy|]. cbn in E. apply N.eqb_eq in E as ->. reflexivity.
    + cbn [span N.eqb negb Pos.eqb]. destruct (span _ (cr s)), (span _ s). exact IH.
  - cbn [andb]. cbn [span]. apply N.eqb_neq in N. rewrite N. cbn [negb]. destruct (span _ (cr s)), (span _ s). cbn [fst contains_char existsb] in *. unfold contains_char in *. cbn [existsb]. now rewrite IH.
Qed.
Definition cre (e : kv_entry) : kv_entry := (entry_key e, entry_rest e, cr (entry_gap e)).
Lemma rest_no_nl r : rest_ok r = true -> no_nl r = true /\ last r 0 <> 13.
Proof.
  unfold rest_ok, no_nl, break_char. induction r as [|c r IH]; [easy|]. cbn [forallb]. intros H. apply andb_true_iff in H as [Hc H]. destruct (IH H) as [I1 I2].
  rewrite negb_orb in Hc. apply andb_true_iff in Hc as [H1 H2]. rewrite H2, I1. split; [easy|]. destruct r; [|easy]. cbn. apply negb_true_iff, N.eqb_neq in H1. easy.
Qed.
Lemma cre_text e : entry_ok e = true -> entry_text (cre e) = cr (entry_text e).
Proof.
  unfold entry_ok, entry_text. intros H. rewrite !andb_true_iff in H. destruct H as [[Hk Hr] _]. apply rest_no_nl in Hr as [N1 N2].
  change (entry_key (cre e)) with (entry_key e). change (entry_rest (cre e)) with (entry_rest e). change (entry_gap (cre e)) with (cr (entry_gap e)).
  rewrite cr_app by now right. rewrite (cr_id (entry_key e)).
  - f_equal. change (cr (58 :: entry_rest e ++ entry_gap e)) with (58 :: cr (entry_rest e ++ entry_gap e)). f_equal. rewrite cr_app by now left. now rewrite (cr_id (entry_rest e)).
  - unfold key_ok, no_nl in *. rewrite forallb_forall in *. intros c Hc. specialize (Hk c Hc). rewrite negb_orb in Hk. now apply andb_true_iff in Hk.
Qed.
Lemma head_no s : head_is (fun c => blank_char c || break_char c) s = false -> starts_with_char 10 s = false.
Proof. destruct s as [|c s]; [easy|]. cbn. destruct (N.eqb_spec c 10) as [->|]; easy. Qed.
Lemma cre_ok e : entry_ok e = true -> entry_ok (cre e) = true.
Proof.
  unfold entry_ok, gap_ok. change (entry_key (cre e)) with (entry_key e). change (entry_rest (cre e)) with (entry_rest e). change (entry_gap (cre e)) with (cr (entry_gap e)).
  now rewrite cr_forall, cr_empty, cr_head_is.
Qed.
Lemma cre_entries es : entries_ok es = true -> entries_ok (map cre es) = true.
Proof.
  induction es as [|e es IH]; [easy|]. cbn [entries_ok map]. intros H. rewrite !andb_true_iff in H. destruct H as [[H1 H2] H3]. rewrite (cre_ok e H1), (IH H2). cbn [andb].
  destruct es as [|e' es]; [easy|]. cbn [map]. change (entry_gap (cre e)) with (cr (entry_gap e)). change (entry_key (cre e')) with (entry_key e'). now rewrite cr_empty.
Qed.
Lemma cre_last es : entry_gap (last (map cre es) ([], [], [])) = cr (entry_gap (last es ([], [], []))).
Proof. induction es as [|e es IH]; [easy|]. destruct es as [|e' es]; [easy|]. exact IH. Qed.
Lemma cre_rest es t : rest_after es t = true -> rest_after (map cre es) (cr t) = true.
Proof.
  unfold rest_after. rewrite cr_first, cr_empty, cr_head_is by easy. destruct es as [|e es]; [easy|]. rewrite cre_last, cr_empty. easy.
Qed.
Lemma cre_kv es t : entries_ok es = true -> rest_after es t = true -> cr (kv_text es ++ t) = kv_text (map cre es) ++ cr t.
Proof.
  unfold kv_text. induction es as [|e es IH]; [easy|]. intros H R. cbn [entries_ok] in H. rewrite !andb_true_iff in H. destruct H as [[H1 H2] H3].
  cbn [map concat]. rewrite <- !app_assoc, cre_text by easy. rewrite cr_app.
  - f_equal. destruct es as [|e' es]; [easy|]. apply IH; [easy|]. exact R.
  - right. destruct es as [|e' es].
    + cbn. unfold rest_after in R. apply andb_true_iff in R as [_ R]. destruct t; [easy|]. cbn [is_empty orb] in R. apply andb_true_iff in R as [_ R]. apply negb_true_iff in R. now apply head_no.
    + cbn [map concat]. apply andb_true_iff in H3 as [_ H3]. apply negb_true_iff in H3. unfold entry_text. destruct (entry_key e') as [|k0 k]; [easy|]. now apply head_no in H3.
Qed.
(** the last gap does not matter *)
Definition adde (x : str) (e : kv_entry) : kv_entry := (entry_key e, entry_rest e, entry_gap e ++ x).
Lemma add_entries a e : entries_ok (a ++ [e]) = true -> entries_ok (a ++ [adde [13; 10] e]) = true.
Proof.
  induction a as [|x a IH].
  - cbn. unfold entry_ok, gap_ok. change (entry_gap (adde _ e)) with (entry_gap e ++ [13; 10]). change (entry_key (adde _ e)) with (entry_key e). change (entry_rest (adde _ e)) with (entry_rest e).
    rewrite !andb_true_r, !andb_true_iff, forallb_app. intros [[H1 H2] [H3 H4]]. repeat split; try easy; [now rewrite H3|]. destruct (entry_gap e); [easy|]. exact H4.
  - cbn [app entries_ok]. rewrite !andb_true_iff. intros [[H1 H2] H3]. split; [split; [easy|now apply IH]|]. destruct a as [|y a]; [exact H3|exact H3].
Qed.
Lemma first_crlf t : contains_char 58 (first_line (t ++ [13; 10])) = contains_char 58 (first_line t).
Proof.
  unfold first_line. induction t as [|c t IH]; [easy|]. cbn [app span]. destruct (negb (c =? 10)); [|easy].
  destruct (span _ (t ++ _)), (span _ t). cbn [fst] in *. unfold contains_char in *. cbn [existsb]. now rewrite IH.
Qed.
Section Same.
  Context {A E : Type} (table : list (string * (str -> res unit E))) (unknown dup colon : E) (build : (str -> option str) -> A).
  Hypothesis ext : forall g h, (forall k, g k = h k) -> build g = build h.
  Definition grows (e : kv_entry) : Z := Z.of_nat (length (lines (entry_gap e))).
  Inductive sim : list kv_entry -> list kv_entry -> Prop :=
  | sim_nil : sim [] []
  | sim_last e e' : fst e = fst e' -> sim [e] [e']
  | sim_cons e e' es es' : fst e = fst e' -> grows e = grows e' -> sim es es' -> sim (e :: es) (e' :: es').
  Lemma sim_bad es es' : sim es es' -> forall i before, first_bad table unknown dup i before es = first_bad table unknown dup i before es'.
  Proof.
    induction 1 as [|e e' H|e e' es es' H G S IH]; intros i before; [easy|..]; cbn [first_bad]; unfold entry_key, entry_value, entry_rest; rewrite H; [easy|].
    fold (entry_key e'). unfold grows in G. rewrite G. destruct (if existsb _ _ then _ else _); easy.
  Qed.
  Lemma sim_value es es' k : sim es es' -> value_of es k = value_of es' k.
  Proof.
    unfold value_of. induction 1 as [|e e' H|e e' es es' H G S IH]; [easy|..]; cbn [find]; unfold entry_key, entry_value, entry_rest; rewrite H; destruct (str_eqb k (fst (fst e'))); try easy.
    - cbn [option_map]. now rewrite H.
    - cbn [option_map]. now rewrite H.
  Qed.
  Lemma sim_reads es es' t t' : sim es es' -> is_blank t = is_blank t' -> (is_blank t = true \/ map grows es = map grows es') ->
    kv_reads table unknown dup colon build es t = kv_reads table unknown dup colon build es' t'.
  Proof.
    intros S B G. unfold kv_reads. rewrite <- B. destruct (is_blank t).
    - rewrite (sim_bad _ _ S). rewrite (ext (value_of es) (value_of es')) by (intros k; now apply sim_value). reflexivity.
    - destruct G as [G|G]; [discriminate|]. change (map (fun e => Z.of_nat (length (lines (entry_gap e))))) with (map grows). now rewrite G.
  Qed.
  Lemma sim_map f es : (forall e, fst (f e) = fst e /\ grows (f e) = grows e) -> sim es (map f es).
  Proof. intros H. induction es as [|e es IH]; [constructor|]. destruct (H e). now constructor. Qed.
  Lemma sim_snoc a e e' : fst e = fst e' -> sim (a ++ [e]) (a ++ [e']).
  Proof. intros H. induction a as [|x a IH]; [now constructor|]. now constructor. Qed.
  Variable rd : str -> res (option A) (line_err E).
  Hypothesis reads : forall es t, entries_ok es = true -> rest_after es t = true -> rd (kv_text es ++ t) = rmap Some (kv_reads table unknown dup colon build es t).
  Lemma rd_cr s : rd (cr s) = rd s.
  Proof.
    destruct (@kv_lines_decompose unit s) as (es & t & -> & He & Ht & _). rewrite cre_kv, !reads by (easy || now apply cre_entries || now apply cre_rest). f_equal. symmetry.
    assert (F : forall e, fst (cre e) = fst e /\ grows (cre e) = grows e) by (intros [[k r] g]; split; [easy|]; unfold grows; cbn; now rewrite lines_cr).
    apply sim_reads; [now apply sim_map|symmetry; apply cr_blank|right]. rewrite map_map. apply map_ext. intros e. symmetry. apply F.
  Qed.
  Lemma rd_more s : rd (s ++ [13; 10]) = rd s.
  Proof.
    destruct (@kv_lines_decompose unit s) as (es & t & -> & He & Ht & _).
    assert (B : is_blank (t ++ [13; 10]) = is_blank t) by (rewrite !blank_forall, forallb_app; apply andb_true_r).
    destruct (is_empty es || negb (is_empty t)) eqn:C.
    - rewrite <- app_assoc. rewrite !reads; try easy.
      + f_equal. apply sim_reads; [|easy|now right]. clear. induction es; now constructor.
      + unfold rest_after in *. rewrite first_crlf. destruct es as [|e es]; [exact Ht|]. cbn in C. destruct t as [|c t]; [discriminate|]. exact Ht.
    - destruct t as [|c t]; [|now rewrite orb_true_r in C]. destruct es as [|e0 es0]; [discriminate|]. rewrite !app_nil_r.
      destruct (@exists_last _ (e0 :: es0) ltac:(easy)) as (a & e & Ee). rewrite Ee in *. clear Ee e0 es0 C.
      assert (X : kv_text (a ++ [e]) ++ [13; 10] = kv_text (a ++ [adde [13; 10] e])).
      { unfold kv_text. rewrite !map_app, !concat_app, <- app_assoc. f_equal. cbn [map concat]. rewrite !app_nil_r. unfold entry_text, adde. cbn [fst snd entry_key entry_rest entry_gap]. rewrite <- app_assoc. cbn [app]. now rewrite <- !app_assoc. }
      rewrite X. rewrite <- (app_nil_r (kv_text (a ++ [adde _ e]))), <- (app_nil_r (kv_text (a ++ [e]))). rewrite !reads; try easy.
      + f_equal. apply sim_reads; [apply sim_snoc; now destruct e as [[? ?] ?]|easy|now left].
      + now apply add_entries.
      + unfold rest_after. cbn. now destruct a.
  Qed.
  Lemma rd_lines s t : lines s = lines t -> rd s = rd t.
  Proof.
    assert (K : forall s, rd s = rd (crlf_text (lines s))).
    { clear s t. intros s. destruct (cr_lines s) as [-> | ->]; [|rewrite rd_more]; symmetry; apply rd_cr. }
    intros H. rewrite (K s), (K t). now rewrite H.
  Qed.
End Same.
Lemma ends_general s t v : lines s = lines t -> general_from_str s v = general_from_str t v.
Proof.
  apply (rd_lines (general_table v) GenKey GenDup GenColonSet (general_of v)) with (rd := fun s => general_from_str s v).
  - intros g h H. unfold general_of, of_key. now rewrite !H.
  - intros es x He Ht. now apply general_reads_eq.
Qed.
Lemma ends_editor s t v : lines s = lines t -> editor_from_str s v = editor_from_str t v.
Proof.
  apply (rd_lines editor_table EdKey EdDup EdColonSet editor_of) with (rd := fun s => editor_from_str s v).
  - intros g h H. unfold editor_of, of_key. now rewrite !H.
  - intros es x He Ht. now apply editor_reads_eq.
Qed.
Lemma ends_metadata s t v : lines s = lines t -> metadata_from_str s v = metadata_from_str t v.
Proof.
  apply (rd_lines metadata_table MdKey MdDup MdColonSet metadata_of) with (rd := fun s => metadata_from_str s v).
  - intros g h H. unfold metadata_of, of_key. now rewrite !H.
  - intros es x He Ht. now apply metadata_reads_eq.
Qed.
Lemma ends_difficulty s t v : lines s = lines t -> difficulty_from_str s v = difficulty_from_str t v.
Proof.
  apply (rd_lines difficulty_table DfKey DfDup DfColonSet difficulty_of) with (rd := fun s => difficulty_from_str s v).
  - intros g h H. unfold difficulty_of, of_key. now rewrite !H.
  - intros es x He Ht. now apply difficulty_reads_eq.
Qed.
Lemma ends_sections dbg s t v : lines s = lines t ->
  general_from_str s v = general_from_str t v /\ editor_from_str s v = editor_from_str t v
  /\ metadata_from_str s v = metadata_from_str t v /\ difficulty_from_str s v = difficulty_from_str t v
  /\ events_from_str dbg s v = events_from_str dbg t v /\ timing_points_from_str s v = timing_points_from_str t v
  /\ colours_from_str s v = colours_from_str t v /\ hit_objects_from_str s v = hit_objects_from_str t v.
Proof.
  intros H. split; [now apply ends_general|]. split; [now apply ends_editor|]. split; [now apply ends_metadata|]. split; [now apply ends_difficulty|].
  unfold events_from_str, events_from_str_vars, timing_points_from_str, colours_from_str, hit_objects_from_str. now rewrite H.
Qed.
Lemma ends_osb dbg s t v f : lines s = lines t ->
  osb_from_str dbg s v = osb_from_str dbg t v /\ append_osb dbg f s = append_osb dbg f t /\ osu_str_trimmer s = osu_str_trimmer t.
Proof.
  intros H. assert (K : forall v, osb_from_str dbg s v = osb_from_str dbg t v) by (intros w; unfold osb_from_str; now rewrite H).
  split; [apply K|]. split; [unfold append_osb; now rewrite K|]. unfold osu_str_trimmer. now rewrite H.
Qed.

(** ** changing the endings *)
Lemma crlf_lines s : no_crlf s = true -> lines (with_ends [13; 10] s) = lines s.
Proof.
  unfold with_ends. induction s as [|c s IH]; [easy|]. cbn [no_crlf flat_map lines]. intros H. apply andb_true_iff in H as [Hc H]. apply negb_true_iff in Hc.
  unfold c_nl, c_cr. fold (starts_with_char 10 s). rewrite Hc. destruct (c =? 10) eqn:E; [cbn; now rewrite (IH H)|]. cbn [app lines]. unfold c_nl, c_cr. rewrite E, (IH H).
  destruct s as [|d s]; [now rewrite andb_false_r|]. cbn [flat_map]. destruct (d =? 10) eqn:Ed; cbn [app]; [now rewrite andb_false_r|]. now rewrite Ed, andb_false_r.
Qed.
Lemma newline_lines s : s <> [] -> ends_with_char 10 s = false -> ends_with_char 13 s = false -> lines (s ++ [10]) = lines s.
Proof.
  intros H1 H2 H3. induction s as [|c s IH]; [easy|]. destruct s as [|d s].
  - cbn in *. unfold c_nl, c_cr. rewrite H2, H3. reflexivity.
  - assert (X : forall x, ends_with_char x (c :: d :: s) = ends_with_char x (d :: s)) by (intros x; apply (ends_with_char_app x [c]); easy).
    rewrite X in H2, H3. specialize (IH ltac:(easy) H2 H3). cbn [app lines] in *. now rewrite IH.
Qed.
Lemma ends_crlf dbg s : no_crlf s = true -> osu_from_str dbg (with_ends [13; 10] s) = osu_from_str dbg s.
Proof. intros H. now apply ends_osu, crlf_lines. Qed.
Lemma ends_newline dbg s : s <> [] -> ends_with_char 10 s = false -> ends_with_char 13 s = false -> osu_from_str dbg (s ++ [10]) = osu_from_str dbg s.
Proof. intros H1 H2 H3. now apply ends_osu, newline_lines. Qed.
