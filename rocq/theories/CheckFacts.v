(** Facts for C60. *)
From Coq Require Import String List NArith ZArith Bool Lia Permutation.
From Verif Require Import Str Num Nom Dec Parsers KeyValue KvFields General Editor Metadata Difficulty Colours TimingPoints HitObjects Storyboard NormalEvents Events Osb OsuFile Trimmer
  Spec SpecWf SpecText SpecKv SpecSections SpecFile SpecOsb SpecWhole SpecBack SpecTrim SpecEnds SpecBlank SpecCheck
  StrFacts NumFacts NomFacts LineFacts FieldFacts KvSem KvImage KvLines KvSections KvStatements WholeFacts KvFacts FileLoop FileTheorems TrimFacts Ends Blank BackFacts BackSettle OsbFacts.
Import ListNotations.
Local Open Scope N_scope.

Definition tl_lines (ls : list str) : list str := filter (fun l => negb (is_empty l)) (map norm_line ls).
Lemma tl_app a b : tl_lines (a ++ b) = tl_lines a ++ tl_lines b.
Proof. unfold tl_lines. now rewrite map_app, filter_app. Qed.
Lemma norm_blank l : blank_line l = true -> norm_line l = [].
Proof.
  intros H. unfold norm_line. assert (E : trim l = []); [|now rewrite E].
  unfold trim. assert (E : trim_start l = []); [|now rewrite E]. apply trim_start_nil. unfold blank_line in H. rewrite forallb_forall in *.
  intros c Hc. specialize (H c Hc). unfold layout_char in H. rewrite !orb_true_iff, !N.eqb_eq in H. destruct H as [[[->| ->]| ->]| ->]; reflexivity.
Qed.
Lemma tl_packed ls : tl_lines (packed ls) = tl_lines ls.
Proof.
  unfold tl_lines, packed. induction ls as [|l ls IH]; [easy|]. cbn [filter map]. destruct (blank_line l) eqn:E; cbn [negb].
  - rewrite (norm_blank l E). cbn [is_empty negb]. exact IH.
  - cbn [map filter]. now rewrite IH.
Qed.
Lemma norm_cr l : norm_line (l ++ [13]) = norm_line l.
Proof.
  unfold norm_line. f_equal. unfold trim. rewrite !trim_comm. f_equal. induction l as [|c l IH]; [reflexivity|]. cbn [app trim_end]. now rewrite IH.
Qed.
Lemma tl_body ls : forallb no_nl ls = true -> tl_lines (lines (text_of_lines ls)) = tl_lines ls.
Proof.
  assert (C : forall l s, no_nl l = true -> tl_lines (lines (l ++ 10 :: s)) = tl_lines [l] ++ tl_lines (lines s)).
  { intros l s H. destruct (ends_with_char 13 l) eqn:E.
    - destruct l as [|c l] using rev_ind; [easy|]. clear IHl. unfold ends_with_char in E. rewrite rev_app_distr in E. cbn [rev app] in E. apply N.eqb_eq in E. subst c.
      unfold no_nl in H. rewrite forallb_app in H. apply andb_true_iff in H as [H _].
      rewrite <- app_assoc. cbn [app]. rewrite lines_app_crlf by exact H. change (l :: lines s) with ([l] ++ lines s). rewrite tl_app. f_equal. unfold tl_lines. cbn [map]. now rewrite norm_cr.
    - rewrite lines_app_nl by easy. change (l :: lines s) with ([l] ++ lines s). now rewrite tl_app. }
  induction ls as [|l ls IH]; [reflexivity|]. cbn [forallb]. intros H. apply andb_true_iff in H as [Hl H]. destruct ls as [|m ls].
  - cbn [text_of_lines]. destruct l as [|c l]; [reflexivity|]. now rewrite lines_single.
  - cbn [text_of_lines]. rewrite C by easy. specialize (IH H). cbn [text_of_lines] in IH. rewrite IH. now rewrite <- tl_app.
Qed.

(** ** the sections in the trimmer *)
Lemma name_header name : In name section_names -> norm_line (91 :: name ++ [93]) = 91 :: name ++ [93] /\ header_line (91 :: name ++ [93]) = true.
Proof.
  unfold section_names. cbn [map In]. intros H. repeat destruct H as [<-|H]; try easy; split; reflexivity.
Qed.
Lemma sec_lines_of x : sec_ok x = true -> In (sec_name x) section_names -> tl_lines (sec_all x) = (91 :: sec_name x ++ [93]) :: tl_lines (said x).
Proof.
  intros H Hn. unfold sec_all. change ((91 :: sec_name x ++ [93]) :: repeat [] (sec_gap x) ++ sec_lines x) with ([91 :: sec_name x ++ [93]] ++ (repeat [] (sec_gap x) ++ sec_lines x)).
  rewrite !tl_app. replace (tl_lines (repeat [] (sec_gap x))) with (@nil str) by (induction (sec_gap x) as [|n IH]; [easy|]; exact IH).
  unfold said. rewrite tl_packed. unfold sec_body. rewrite tl_body.
  - unfold tl_lines at 1. cbn [map filter]. now rewrite (proj1 (name_header _ Hn)).
  - unfold sec_ok in H. apply andb_true_iff in H as [_ H]. rewrite forallb_forall in *. intros l Hl. specialize (H l Hl). now apply andb_true_iff in H as [H _].
Qed.
Lemma skip_split r : exists w, r = w ++ skip_blanks r /\ forallb blank_char w = true.
Proof. induction r as [|c r (w & E & H)]; [now exists []|]. cbn [skip_blanks]. destruct (blank_char c) eqn:B; [|now exists []]. exists (c :: w). cbn. rewrite B, H. now rewrite <- E. Qed.
Lemma line_parts l : contains_char 58 l = true -> exists w, l = line_key l ++ 58 :: w ++ line_value l /\ forallb blank_char w = true.
Proof.
  intros H. unfold line_key, line_value. destruct (span (fun c => negb (c =? 58)) l) as [k r] eqn:E. apply span_spec in E as (-> & Hk & Hr). cbn [fst snd].
  destruct r as [|c r].
  - exfalso. rewrite app_nil_r in H. apply contains_char_spec in H. rewrite forallb_forall in Hk. now specialize (Hk _ H).
  - apply negb_false_iff, N.eqb_eq in Hr. subst c. cbn [tl]. destruct (skip_split r) as (w & Hw & Bw). exists w. split; [|easy]. now rewrite <- Hw.
Qed.
Definition said_text (kv : str * str) : str := filter (fun c => negb (c =? 65279)) (squeeze (fst kv ++ 58 :: snd kv)).
Lemma squeeze_line l : contains_char 58 l = true -> squeeze (norm_line l) = said_text (line_key l, line_value l).
Proof.
  intros H. rewrite squeeze_norm. unfold said_text. cbn [fst snd]. f_equal. destruct (line_parts l H) as (w & E & B). rewrite E at 1.
  unfold squeeze. rewrite !filter_app. f_equal. cbn [filter]. f_equal. rewrite filter_app. replace (filter (fun c => negb (is_ws c)) w) with (@nil N); [easy|].
  symmetry. clear - B. induction w as [|c w IH]; [easy|]. cbn [forallb filter] in *. apply andb_true_iff in B as [Bc B].
  unfold blank_char in Bc. rewrite orb_true_iff, !N.eqb_eq in Bc. destruct Bc as [->| ->]; cbn; now apply IH.
Qed.
Definition known_key (l : str) : bool := negb (is_empty (line_key l)) && forallb key_char (line_key l).
Lemma known_lines ls : forallb (contains_char 58) ls = true -> forallb known_key ls = true ->
  forallb (fun l => negb (header_line l)) (tl_lines ls) = true /\ forallb has_colon (tl_lines ls) = true
  /\ map squeeze (tl_lines ls) = map said_text (map (fun l => (line_key l, line_value l)) ls).
Proof.
  induction ls as [|l ls IH]; [easy|]. cbn [forallb]. rewrite !andb_true_iff. intros [Hc H] [Hk K]. destruct (IH H K) as (I1 & I2 & I3).
  change (l :: ls) with ([l] ++ ls). rewrite tl_app. unfold known_key in Hk. apply andb_true_iff in Hk as [Hk1 Hk2].
  destruct (line_parts l Hc) as (w & E & _). destruct (key_line (line_key l) (w ++ line_value l)) as (L1 & L2 & L3); [now destruct (line_key l)|easy|]. rewrite <- E in L1, L2, L3.
  assert (T : tl_lines [l] = [norm_line l]) by (unfold tl_lines; cbn [map filter]; now destruct (norm_line l)). rewrite T.
  rewrite !map_app, !forallb_app, I1, I2, I3. cbn [forallb map app]. rewrite L1, L2. split; [easy|]. split; [easy|]. now rewrite squeeze_line.
Qed.
Definition ready (st : tstate) : Prop := ts_in_sections st = false -> ts_inner st = [] /\ ts_coloned st = true.
Definition alike (st st' : tstate) : Prop :=
  sort_push st = sort_push st' /\ ts_in_sections st = ts_in_sections st' /\ ts_first st = ts_first st' /\ (ts_in_sections st = false -> st = st') /\ ready st.
Lemma header_step st st' h : header_line h = true -> alike st st' -> exists bd f, step2 st h = mk_ts bd [] true f true /\ step2 st' h = mk_ts bd [] true f true.
Proof.
  intros H (A1 & A2 & A3 & A4 & A5). unfold step2. rewrite H, <- A2. destruct (ts_in_sections st) eqn:E; cbn [negb].
  - rewrite <- A1, <- A3. eauto.
  - rewrite <- (A4 eq_refl). destruct (A5 E) as [-> ->]. eauto.
Qed.
Lemma sec_step x y st st' : sec_ok x = true -> sec_ok y = true -> In (sec_name x) section_names -> relaid x y ->
  (In (sec_name x) key_sections -> forallb kv_line_ok (said x) = true -> forallb kv_line_ok (said y) = true -> forallb known_key (said x) = true /\ forallb known_key (said y) = true) -> alike st st' ->
  alike (fold_left step2 (tl_lines (sec_all x)) st) (fold_left step2 (tl_lines (sec_all y)) st').
Proof.
  intros Hx Hy Hn [En R] K A. rewrite (sec_lines_of x Hx Hn). rewrite En in Hn at 1. rewrite (sec_lines_of y Hy Hn). rewrite <- En. rewrite <- En in Hn.
  cbn [fold_left]. destruct (header_step st st' _ (proj2 (name_header _ Hn)) A) as (bd & f & -> & ->).
  destruct R as [(Hk & Kx & Ky & P)|E].
  - destruct (K Hk Kx Ky) as [K1 K2].
    assert (C : forall ls, forallb kv_line_ok ls = true -> forallb (contains_char 58) ls = true).
    { intros ls H. rewrite forallb_forall in *. intros l Hl. specialize (H l Hl). unfold kv_line_ok in H. now rewrite !andb_true_iff in H. }
    destruct (known_lines _ (C _ Kx) K1) as (X1 & X2 & X3), (known_lines _ (C _ Ky) K2) as (Y1 & Y2 & Y3).
    rewrite (proj1 (body_loop _ X1 bd [] f) X2), (proj1 (body_loop _ Y1 bd [] f) Y2). cbn [app]. rewrite X3, Y3. split; [|easy].
    unfold sort_push. cbn [ts_builder ts_inner]. f_equal. apply sort_perm_eq. now apply Permutation_map.
  - rewrite E. set (z := fold_left step2 _ _). assert (T : ts_in_sections z = true) by (apply in_sections; now left). repeat split; try easy; congruence.
Qed.
Lemma secs_step secs secs' : Forall2 relaid secs secs' -> forall st st', forallb sec_ok secs = true -> forallb sec_ok secs' = true ->
  Forall (fun x => In (sec_name x) section_names) secs ->
  Forall (fun x => In (sec_name x) key_sections -> forallb kv_line_ok (said x) = true -> forallb known_key (said x) = true) secs ->
  Forall (fun x => In (sec_name x) key_sections -> forallb kv_line_ok (said x) = true -> forallb known_key (said x) = true) secs' -> alike st st' ->
  alike (fold_left step2 (tl_lines (flat_map sec_all secs)) st) (fold_left step2 (tl_lines (flat_map sec_all secs')) st').
Proof.
  induction 1 as [|x y l l' R _ IH]; intros st st' H1 H2 N K1 K2 A; [exact A|]. cbn [forallb flat_map] in *.
  apply andb_true_iff in H1 as [X1 H1], H2 as [X2 H2]. inversion_clear N as [|? ? Nx N']. inversion_clear K1 as [|? ? Kx K1']. inversion_clear K2 as [|? ? Ky K2'].
  rewrite !tl_app, !fold_left_app. apply IH; try easy. apply sec_step; try easy. intros Hk L1 L2. split; [now apply Kx|]. apply Ky; [|easy]. now rewrite <- (proj1 R).
Qed.
Lemma pre_lines pre : forallb pre_ok pre = true -> forallb (fun l => negb (header_line l)) (tl_lines pre) = true.
Proof.
  induction pre as [|l pre IH]; [easy|]. cbn [forallb]. intros H. apply andb_true_iff in H as [Hl H]. change (l :: pre) with ([l] ++ pre). rewrite tl_app, forallb_app, (IH H), andb_true_r.
  unfold pre_ok in Hl. rewrite !andb_true_iff in Hl. destruct Hl as [[_ Hl] _]. unfold tl_lines, norm_line. cbn [map filter]. destruct (trim l) as [|c t]; [reflexivity|].
  cbn [is_empty orb] in Hl. unfold starts_with in Hl. change (lit "//") with [47; 47] in Hl. cbn [strip_prefix] in Hl. destruct (N.eqb_spec 47 c) as [<-|]; [reflexivity|discriminate Hl].
Qed.
Lemma version_norm bom v : (bom = [] \/ bom = [65279]) -> (3 <= v <= 14)%Z ->
  norm_line (bom ++ version_prefix ++ print_Z v) = version_prefix ++ print_Z v.
Proof.
  intros Hb Hv. assert (C : (v = 3 \/ v = 4 \/ v = 5 \/ v = 6 \/ v = 7 \/ v = 8 \/ v = 9 \/ v = 10 \/ v = 11 \/ v = 12 \/ v = 13 \/ v = 14)%Z) by lia.
  destruct Hb as [->| ->]; repeat destruct C as [->|C]; try (subst v); reflexivity.
Qed.
Lemma trim_laid s v secs : laid_out s v secs -> (3 <= v <= 14)%Z ->
  osu_str_trimmer s = join [10] (sort_push (fold_left step2 (tl_lines (flat_map sec_all secs)) (mk_ts [version_prefix ++ print_Z v] [] false false true))).
Proof.
  intros (bom & pre & Hb & E & Hp & Hs) Hv. unfold osu_str_trimmer. rewrite loop_lines. fold (tl_lines (lines s)). rewrite E. change c_nl with 10. f_equal. f_equal.
  change ((bom ++ version_prefix ++ print_Z v) :: pre ++ flat_map sec_all secs) with ([bom ++ version_prefix ++ print_Z v] ++ (pre ++ flat_map sec_all secs)).
  rewrite !tl_app, !fold_left_app. f_equal. unfold tl_lines at 2. cbn [map]. rewrite (version_norm bom v Hb Hv). cbn [filter]. change (is_empty (version_prefix ++ print_Z v)) with false. cbn [negb fold_left].
  assert (Q : step2 (mk_ts [] [] false true true) (version_prefix ++ print_Z v) = mk_ts [version_prefix ++ print_Z v] [] false false true) by (unfold step2; reflexivity).
  rewrite Q. apply pre_loop. now apply pre_lines.
Qed.

(** ** reading *)
Lemma kv_plain l : kv_line_ok l = true -> no_nl l = true /\ ends_with_char 13 l = false /\ l <> [] /\ blank_line l = false.
Proof.
  unfold kv_line_ok. rewrite !andb_true_iff. intros [[H1 H2] H3]. unfold rest_ok in H2. rewrite forallb_forall in H2.
  assert (K : forall c, In c l -> (c =? 13) = false /\ (c =? 10) = false).
  { intros c Hc. specialize (H2 c Hc). unfold break_char in H2. now destruct (c =? 13), (c =? 10). }
  split; [unfold no_nl; apply forallb_forall; intros c Hc; now rewrite (proj2 (K c Hc))|]. split; [|split].
  - unfold ends_with_char. destruct (rev l) as [|c r] eqn:E; [easy|]. assert (Hc : In c l) by (apply in_rev; rewrite E; now left). destruct (K c Hc) as [K1 _]. cbn [starts_with_char]. first [exact K1|rewrite N.eqb_sym; exact K1].
  - now intros ->.
  - apply contains_char_spec in H1. unfold blank_line. apply not_true_is_false. intros H. rewrite forallb_forall in H. now specialize (H _ H1).
Qed.
Lemma kv_lines ls : forallb kv_line_ok ls = true -> lines (text_of_lines ls) = ls /\ packed ls = ls.
Proof.
  induction ls as [|l ls IH]; [easy|]. cbn [forallb]. intros H. apply andb_true_iff in H as [Hl H]. destruct (kv_plain l Hl) as (N & C & E & B). destruct (IH H) as [I1 I2].
  split; [|unfold packed in *; cbn [filter]; rewrite B; cbn [negb]; now rewrite I2].
  destruct ls as [|m ls]; [cbn [text_of_lines]; now apply lines_single|]. cbn [text_of_lines]. rewrite lines_app_nl by easy. f_equal. exact I1.
Qed.
Lemma line_kr_split l : line_kr l = (line_key l, tl (snd (span (fun c => negb (c =? 58)) l))).
Proof. unfold line_kr, line_key. now destruct (span _ l). Qed.
Lemma said_visible x : sec_ok x = true -> forallb kv_line_ok (said x) = true -> visible (said x) = true.
Proof.
  intros H K. destruct (sec_visible x H) as [V _]. unfold said in *. destruct (lines (sec_body x)) as [|[|c l] ls]; try discriminate V. cbn [visible] in V.
  unfold packed. cbn [filter blank_line forallb]. apply negb_true_iff in V. rewrite V. cbn [andb negb visible]. now rewrite V.
Qed.
Section Relaid.
  Context {S E : Type}.
  Variable errs : kv_errs E.
  Variable fields : list (field S E).
  Variable new : S.
  Variable spacing : str -> version -> str.
  Hypothesis laws : field_laws fields new spacing.
  Hypothesis same : forall s t v, visible (lines s) = true -> visible (lines t) = true -> packed (lines s) = packed (lines t) ->
    no_line (kv_from_str errs fields new s v) = no_line (kv_from_str errs fields new t v).
  Lemma said_read x v g : sec_ok x = true -> forallb kv_line_ok (said x) = true ->
    (kv_from_str errs fields new (sec_body x) v = ROk g <-> kv_from_str errs fields new (text_of_lines (said x)) v = ROk g).
  Proof.
    intros H K. destruct (kv_lines _ K) as [K1 K2].
    assert (Q := same (sec_body x) (text_of_lines (said x)) v (proj1 (sec_visible x H))). rewrite K1 in Q. specialize (Q (said_visible x H K)). rewrite K2 in Q. specialize (Q eq_refl).
    destruct (kv_from_str errs fields new (sec_body x) v) as [a|[i e]|p], (kv_from_str errs fields new (text_of_lines (said x)) v) as [a'|[i' e']|p']; cbn in Q; try discriminate Q; split; intros R; try discriminate R; now inversion Q; subst.
  Qed.
  Lemma relaid_read x y v g : sec_ok x = true -> sec_ok y = true -> forallb kv_line_ok (said x) = true -> forallb kv_line_ok (said y) = true ->
    Permutation (map (fun l => (line_key l, line_value l)) (said x)) (map (fun l => (line_key l, line_value l)) (said y)) ->
    kv_from_str errs fields new (sec_body y) v = ROk g -> kv_from_str errs fields new (sec_body x) v = ROk g.
  Proof.
    intros Hx Hy Kx Ky P R. apply (said_read x v g Hx Kx). apply (said_read y v g Hy Ky) in R.
    destruct (kr_lines_text _ Kx) as [-> Ex]. destruct (kr_lines_text _ Ky) as [Ty Ey]. rewrite Ty in R. destruct g as [sec|]; [|now apply (kv_from_str_some errs fields new) in R].
    revert R. apply (kv_permutation errs fields new spacing laws); try easy. rewrite !with_gaps_key_value, !map_map.
    erewrite (map_ext _ (fun l => (line_key l, line_value l))) by (intros l; rewrite line_kr_split; reflexivity).
    erewrite (map_ext (fun x0 => (fst (line_kr x0), skip_blanks (snd (line_kr x0)))) (fun l => (line_key l, line_value l))) by (intros l; rewrite line_kr_split; reflexivity).
    now apply Permutation_sym.
  Qed.
  Lemma read_keys x v g : sec_ok x = true -> forallb kv_line_ok (said x) = true -> kv_from_str errs fields new (sec_body x) v = ROk g ->
    forall l, In l (said x) -> In (line_key l) (map f_name fields).
  Proof.
    intros Hx K R l Hl. apply (said_read x v g Hx K) in R. destruct (kr_lines_text _ K) as [T Ok]. rewrite T in R.
    destruct (in_dec (list_eq_dec N.eq_dec) (line_key l) (map f_name fields)) as [H|H]; [exact H|exfalso].
    revert R. rewrite <- (app_nil_r (kv_text _)). apply (kv_duplicate errs fields new (law_names _ _ _ laws)); [exact Ok|apply entries_rest_nil|].
    right. assert (I : In (line_key l) (map entry_key (with_gaps (map line_kr (said x))))).
    { rewrite with_gaps_keys, map_map. replace (line_key l) with (fst (line_kr l)) by now rewrite line_kr_split. now apply (in_map (fun z => fst (line_kr z))). }
    apply in_map_iff in I as (e & Ee & Ie). exists e. now rewrite Ee.
  Qed.
End Relaid.

(** ** files *)
Lemma laid_layout s v secs : laid_out s v secs -> (3 <= v <= 14)%Z -> exists s' pre, lines s' = lines s /\ file_layout s' [] v pre secs [].
Proof.
  intros (bom & pre & Hb & E & Hp & Hs) Hv. exists (text_of_lines (crlf_of (lines s))), ([] :: pre). split; [apply crlf_made|].
  pose proof (crlf_made s) as M. rewrite E in M |- *. unfold crlf_of in M |- *. cbn [map app] in M |- *.
  rewrite text_cons in M |- * by (now destruct pre, secs). set (X := text_of_lines _) in M |- *.
  assert (N : no_nl (bom ++ version_prefix ++ print_Z v) = true).
  { assert (C : (v = 3 \/ v = 4 \/ v = 5 \/ v = 6 \/ v = 7 \/ v = 8 \/ v = 9 \/ v = 10 \/ v = 11 \/ v = 12 \/ v = 13 \/ v = 14)%Z) by lia.
    destruct Hb as [->| ->]; repeat destruct C as [->|C]; try (subst v); reflexivity. }
  rewrite <- app_assoc in M. cbn [app] in M. rewrite lines_app_crlf in M by exact N. injection M as M.
  exists (print_Z v), (13 :: 10 :: X). split; [|split; [|split; [|split]]].
  - replace (((bom ++ version_prefix ++ print_Z v) ++ [13]) ++ 10 :: X) with ([] ++ bom ++ version_prefix ++ print_Z v ++ 13 :: 10 :: X) by (cbn [app]; now rewrite <- !app_assoc).
    constructor; [easy|exact Hb| |right; eauto].
    assert (C : (v = 3 \/ v = 4 \/ v = 5 \/ v = 6 \/ v = 7 \/ v = 8 \/ v = 9 \/ v = 10 \/ v = 11 \/ v = 12 \/ v = 13 \/ v = 14)%Z) by lia.
    repeat destruct C as [->|C]; try (subst v); reflexivity.
  - now apply print_version.
  - change (lines ([] ++ 13 :: 10 :: X) = ([] :: pre) ++ flat_map sec_all secs ++ []). rewrite (lines_app_crlf [] X eq_refl). cbn [app]. f_equal. rewrite app_nil_r. exact M.
  - cbn [forallb]. now rewrite Hp.
  - exact Hs.
Qed.
Lemma laid_read dbg s v secs f : laid_out s v secs -> (3 <= v <= 14)%Z -> (osu_from_str dbg s = ROk f <-> all_read dbg v secs (osu_new v) f).
Proof.
  intros H Hv. destruct (laid_layout s v secs H Hv) as (s' & pre & E & L). rewrite <- (ends_osu dbg s' s E). now apply (read_ok_iff dbg s' [] v pre secs []).
Qed.
Lemma holds_relaid {T E} secs secs' name (from : str -> res T E) old new : Forall2 relaid secs secs' ->
  (forall x y, In x secs -> In y secs' -> relaid x y -> sec_name x = lit name -> from (sec_body y) = ROk new -> from (sec_body x) = ROk new) ->
  holds secs' name from old new -> holds secs name from old new.
Proof.
  intros F H [H1 H2]. split.
  - intros x Hx Hn. assert (P : exists y, In y secs' /\ relaid x y).
    { clear - F Hx. induction F as [|a b l l' R F IH]; [easy|]. destruct Hx as [->|Hx]; [exists b; split; [now left|easy]|]. destruct (IH Hx) as (y & I & R'). exists y. split; [now right|easy]. }
    destruct P as (y & Hy & R). apply (H x y); try easy. apply H1; [easy|]. now rewrite <- (proj1 R).
  - intros K. apply H2. intros y Hy Hn. assert (P : exists x, In x secs /\ relaid x y).
    { clear - F Hy. induction F as [|a b l l' R F IH]; [easy|]. destruct Hy as [->|Hy]; [exists a; split; [now left|easy]|]. destruct (IH Hy) as (x & I & R'). exists x. split; [now right|easy]. }
    destruct P as (x & Hx & R). apply (K x Hx). now rewrite (proj1 R).
Qed.
Lemma no_line_ok {A E} (r r' : res A (line_err E)) a : no_line r = no_line r' -> r' = ROk a -> r = ROk a.
Proof. intros H ->. destruct r as [b|[i e]|p]; cbn in H; [now inversion H|easy..]. Qed.
Lemma relaid_names secs secs' : Forall2 relaid secs secs' -> map sec_name secs = map sec_name secs'.
Proof. induction 1 as [|x y l l' [E _] _ IH]; [easy|]. cbn [map]. now rewrite E, IH. Qed.
Lemma relaid_all dbg v secs secs' g f : forallb sec_ok secs = true -> forallb sec_ok secs' = true -> Forall2 relaid secs secs' ->
  all_read dbg v secs' g f -> all_read dbg v secs g f.
Proof.
  intros O O' F (Nd & Nm & D). rewrite forallb_forall in O, O'. split; [now rewrite (relaid_names _ _ F)|]. split.
  { rewrite Forall_forall in *. intros x Hx. assert (I : In (sec_name x) (map sec_name secs)) by now apply in_map. rewrite (relaid_names _ _ F) in I. apply in_map_iff in I as (y & <- & Hy). now apply Nm. }
  destruct D as (D1 & D2 & D3 & D4 & D5 & D6 & D7 & D8 & D9 & D10). split; [exact D1|]. split; [exact D2|].
  assert (V : forall x, In x secs -> visible (lines (sec_body x)) = true) by (intros x Hx; apply sec_visible; now apply O).
  assert (V' : forall x, In x secs' -> visible (lines (sec_body x)) = true) by (intros x Hx; apply sec_visible; now apply O').
  split; [|split; [|split; [|split; [|split; [|split; [|split]]]]]].
  - revert D3. apply holds_relaid; [exact F|]. intros x y Hx Hy [_ [(_ & Kx & Ky & P)|S]] _.
    + apply (relaid_read general_errs _ _ _ general_laws); auto. intros. now apply keys_same.
    + apply no_line_ok. now apply (keys_same _ _ v (V x Hx) (V' y Hy) S).
  - revert D4. apply holds_relaid; [exact F|]. intros x y Hx Hy [_ [(_ & Kx & Ky & P)|S]] _.
    + apply (relaid_read editor_errs _ _ _ editor_laws); auto. intros. now apply keys_same.
    + apply no_line_ok. now apply (keys_same _ _ v (V x Hx) (V' y Hy) S).
  - revert D5. apply holds_relaid; [exact F|]. intros x y Hx Hy [_ [(_ & Kx & Ky & P)|S]] _.
    + apply (relaid_read metadata_errs _ _ _ metadata_laws); auto. intros. now apply keys_same.
    + apply no_line_ok. now apply (keys_same _ _ v (V x Hx) (V' y Hy) S).
  - revert D6. apply holds_relaid; [exact F|]. intros x y Hx Hy [_ [(_ & Kx & Ky & P)|S]] _.
    + apply (relaid_read difficulty_errs _ _ _ difficulty_laws); auto. intros. now apply keys_same.
    + apply no_line_ok. now apply (keys_same _ _ v (V x Hx) (V' y Hy) S).
  - revert D7. apply holds_relaid; [exact F|]. intros x y Hx Hy [_ [(I & _)|S]] Hn; [exfalso; rewrite Hn in I; cbn in I; repeat (destruct I as [I|I]; [discriminate I|]); exact I|].
    apply no_line_ok. now apply (lists_packed dbg [] _ _ v S).
  - revert D8. apply holds_relaid; [exact F|]. intros x y Hx Hy [_ [(I & _)|S]] Hn; [exfalso; rewrite Hn in I; cbn in I; repeat (destruct I as [I|I]; [discriminate I|]); exact I|].
    apply no_line_ok. now apply (lists_packed dbg [] _ _ v S).
  - revert D9. apply holds_relaid; [exact F|]. intros x y Hx Hy [_ [(I & _)|S]] Hn; [exfalso; rewrite Hn in I; cbn in I; repeat (destruct I as [I|I]; [discriminate I|]); exact I|].
    apply no_line_ok. now apply (lists_packed dbg [] _ _ v S).
  - revert D10. apply holds_relaid; [exact F|]. intros x y Hx Hy [_ [(I & _)|S]] Hn; [exfalso; rewrite Hn in I; cbn in I; repeat (destruct I as [I|I]; [discriminate I|]); exact I|].
    apply no_line_ok. now apply (lists_packed dbg [] _ _ v S).
Qed.
Lemma known_of ls keys : forallb (fun k => negb (is_empty k) && forallb key_char k) keys = true -> (forall l, In l ls -> In (line_key l) keys) -> forallb known_key ls = true.
Proof. intros K H. rewrite forallb_forall in *. intros l Hl. exact (K _ (H l Hl)). Qed.
Lemma read_known dbg v secs g f x : forallb sec_ok secs = true -> all_read dbg v secs g f -> In x secs -> In (sec_name x) key_sections ->
  forallb kv_line_ok (said x) = true -> forallb known_key (said x) = true.
Proof.
  intros O (_ & _ & D) Hx Hk K. destruct D as (_ & _ & D3 & D4 & D5 & D6 & _). rewrite forallb_forall in O. specialize (O x Hx).
  cbn [key_sections map In] in Hk. destruct Hk as [E|[E|[E|[E|[]]]]]; symmetry in E.
  - apply (known_of _ (map f_name general_fields)); [vm_compute; reflexivity|]. apply (read_keys general_errs _ _ _ general_laws) with (v := v) (g := osu_general f); auto; [intros; now apply keys_same|]. now apply D3.
  - apply (known_of _ (map f_name editor_fields)); [vm_compute; reflexivity|]. apply (read_keys editor_errs _ _ _ editor_laws) with (v := v) (g := osu_editor f); auto; [intros; now apply keys_same|]. now apply D4.
  - apply (known_of _ (map f_name metadata_fields)); [vm_compute; reflexivity|]. apply (read_keys metadata_errs _ _ _ metadata_laws) with (v := v) (g := osu_metadata f); auto; [intros; now apply keys_same|]. now apply D5.
  - apply (known_of _ (map f_name difficulty_fields)); [vm_compute; reflexivity|]. apply (read_keys difficulty_errs _ _ _ difficulty_laws) with (v := v) (g := osu_difficulty f); auto; [intros; now apply keys_same|]. now apply D6.
Qed.

Lemma check dbg v s t secs secs' g : (3 <= v <= 14)%Z -> laid_out s v secs -> laid_out t v secs' -> Forall2 relaid secs secs' ->
  osu_from_str dbg t = ROk g -> osu_from_str dbg s = ROk g /\ osu_str_eq s t = true.
Proof.
  intros Hv Ls Lt F R. pose proof Ls as (_ & _ & _ & _ & _ & Os). pose proof Lt as (_ & _ & _ & _ & _ & Ot).
  apply (laid_read dbg t v secs' g Lt Hv) in R. pose proof (relaid_all dbg v secs secs' _ g Os Ot F R) as R'.
  split; [now apply (laid_read dbg s v secs g Ls Hv)|]. apply eq_iff. rewrite (trim_laid s v secs Ls Hv), (trim_laid t v secs' Lt Hv). f_equal.
  apply (secs_step secs secs' F); try easy.
  - exact (proj1 (proj2 R')).
  - apply Forall_forall. intros x Hx Hk K. now apply (read_known dbg v secs (osu_new v) g x).
  - apply Forall_forall. intros x Hx Hk K. now apply (read_known dbg v secs' (osu_new v) g x).
Qed.

(** ** saved files *)
Lemma saved_laid dbg f t secs : (3 <= osu_version f <= 14)%Z -> osu_to_string dbg f = ROk t -> file_layout t [] (osu_version f) [[]; []] secs [] -> laid_out t (osu_version f) secs.
Proof.
  intros Hv P (num & rest & Hd & Ht & Hl & Hp & Hs).
  assert (X : exists X, t = version_prefix ++ print_Z (osu_version f) ++ 10 :: 10 :: X).
  { unfold osu_to_string in P. repeat (match type of P with rbind ?r _ = _ => destruct r as [?|[]|?]; cbn [rbind] in P; [|discriminate P] end).
    injection P as <-. eexists. reflexivity. }
  destruct X as (X & EX).
  assert (Y : exists bom, (bom = [] \/ bom = [65279]) /\ forallb (fun c => negb (c =? 13) && negb (c =? 10)) num = true
    /\ (rest = [] \/ exists c t, rest = c :: t /\ (c = 10 \/ c = 13)) /\ t = bom ++ version_prefix ++ num ++ rest).
  { clear - Hd. remember [] as ws eqn:W. revert W. destruct Hd as [ws bom num rest Hw Hb Hn Hr]. intros ->. exists bom. split; [exact Hb|]. split; [exact Hn|]. split; [exact Hr|reflexivity]. }
  destruct Y as (bom & Hb & Hn & Hr & E1). rewrite EX in E1.
  destruct Hb as [->| ->]; [|discriminate E1]. cbn [app] in E1. apply app_inv_head in E1.
  assert (D : forallb (fun c => negb (c =? 13) && negb (c =? 10)) (print_Z (osu_version f)) = true).
  { assert (C : (osu_version f = 3 \/ osu_version f = 4 \/ osu_version f = 5 \/ osu_version f = 6 \/ osu_version f = 7 \/ osu_version f = 8 \/ osu_version f = 9 \/ osu_version f = 10 \/ osu_version f = 11 \/ osu_version f = 12 \/ osu_version f = 13 \/ osu_version f = 14)%Z) by lia.
    repeat destruct C as [->|C]; try rewrite C; reflexivity. }
  assert (Q : rest = 10 :: 10 :: X).
  { apply (f_equal (fun z => snd (span (fun c => negb (c =? 13) && negb (c =? 10)) z))) in E1. rewrite !span_app in E1; try easy.
    destruct Hr as [->|(c & r & -> & [->| ->])]; easy. }
  exists [], [[]]. split; [now left|]. split; [|easy]. rewrite EX, app_assoc. rewrite lines_app_nl.
  - cbn [app]. f_equal. rewrite Q, app_nil_r, (lines_app_nl [] (10 :: X) eq_refl eq_refl : lines (10 :: 10 :: X) = _) in Hl. cbn [app] in Hl. injection Hl as Hl. rewrite (lines_app_nl [] X eq_refl eq_refl : lines (10 :: X) = _). now rewrite Hl.
  - unfold no_nl. rewrite forallb_app. apply andb_true_iff. split; [reflexivity|]. rewrite forallb_forall in *. intros c Hc. specialize (D c Hc). now apply andb_true_iff in D as [_ D].
  - assert (C : (osu_version f = 3 \/ osu_version f = 4 \/ osu_version f = 5 \/ osu_version f = 6 \/ osu_version f = 7 \/ osu_version f = 8 \/ osu_version f = 9 \/ osu_version f = 10 \/ osu_version f = 11 \/ osu_version f = 12 \/ osu_version f = 13 \/ osu_version f = 14)%Z) by lia.
    repeat destruct C as [->|C]; try rewrite C; reflexivity.
Qed.
Lemma can_version f : file_can f = true -> (3 <= osu_version f <= 14)%Z.
Proof. unfold file_can. rewrite !andb_true_iff. intros H. destruct H as [[[[[[[[[H1 H2] _] _] _] _] _] _] _] _]. now apply Z.leb_le in H1, H2. Qed.
Lemma saved_check dbg f : file_can f = true -> mode_known f = true -> exists t secs,
  osu_to_string dbg (file_back f) = ROk t /\ laid_out t (osu_version f) secs /\ map sec_name secs = names_of (file_back f)
  /\ forall s secs', laid_out s (osu_version f) secs' -> Forall2 relaid secs' secs ->
     osu_from_str dbg s = ROk (file_back f) /\ osu_str_eq t s = true.
Proof.
  intros H Hm. destruct (whole_any dbg _ (file_back_can f H Hm)) as (t & secs & H1 & H2 & H3 & H4). rewrite file_back_twice in H3, H4.
  pose proof (can_version _ (file_back_can f H Hm)) as Hv. pose proof (saved_laid dbg (file_back f) t secs Hv H1 H2) as L.
  exists t, secs. split; [exact H1|]. split; [exact L|]. split; [exact H3|]. intros s secs' Ls F.
  destruct (check dbg _ s t secs' secs _ Hv Ls L F H4) as [C1 C2]. split; [exact C1|]. apply eq_iff. symmetry. now apply eq_iff.
Qed.

(** ** storyboard files *)
Definition like (st st' : tstate) : Prop := ts_builder st = ts_builder st' /\ ts_inner st = ts_inner st' /\ ts_in_sections st = ts_in_sections st' /\ ts_coloned st = ts_coloned st'.
Lemma like_step st st' l : ts_in_sections st = true -> like st st' -> ts_in_sections (step2 st l) = true /\ like (step2 st l) (step2 st' l).
Proof.
  destruct st as [b i s f c], st' as [b' i' s' f' c']. unfold like. cbn [ts_builder ts_inner ts_in_sections ts_coloned]. intros -> (-> & -> & <- & ->).
  unfold step2, sort_push. cbn [ts_builder ts_inner ts_in_sections ts_coloned ts_first negb]. destruct (header_line l), (has_colon l), c'; cbn; repeat split.
Qed.
Lemma like_fold ls : forall st st', ts_in_sections st = true -> like st st' -> like (fold_left step2 ls st) (fold_left step2 ls st').
Proof. induction ls as [|l ls IH]; intros st st' H L; [exact L|]. cbn [fold_left]. destruct (like_step st st' l H L). now apply IH. Qed.
Lemma pre_first l : pre_ok l = true -> tl_lines [l] = [] \/ exists t, tl_lines [l] = [47 :: t].
Proof.
  unfold pre_ok. rewrite !andb_true_iff. intros [[_ H] _]. unfold tl_lines, norm_line. cbn [map filter]. destruct (trim l) as [|c t]; [now left|].
  cbn [is_empty orb] in H. unfold starts_with in H. change (lit "//") with [47; 47] in H. cbn [strip_prefix] in H. destruct (N.eqb_spec 47 c) as [<-|]; [right; eexists; reflexivity|discriminate H].
Qed.
Lemma pre_none pre : forallb pre_ok pre = true -> exists f, fold_left step2 (tl_lines pre) (mk_ts [] [] false true true) = mk_ts [] [] false f true.
Proof.
  induction pre as [|l pre IH]; [now exists true|]. cbn [forallb]. intros H. apply andb_true_iff in H as [Hl H]. change (l :: pre) with ([l] ++ pre). rewrite tl_app.
  destruct (pre_first l Hl) as [->|(t & ->)]; [now apply IH|]. cbn [app fold_left]. exists false.
  assert (Q : step2 (mk_ts [] [] false true true) (47 :: t) = mk_ts [] [] false false true) by reflexivity. rewrite Q. apply pre_loop. now apply pre_lines.
Qed.
Lemma blank_secs secs secs' : Forall2 same_sec secs secs' -> forallb sec_ok secs = true -> forallb sec_ok secs' = true -> tl_lines (flat_map sec_all secs) = tl_lines (flat_map sec_all secs').
Proof.
  assert (B : forall x, sec_ok x = true -> tl_lines (sec_all x) = tl_lines [91 :: sec_name x ++ [93]] ++ tl_lines (said x)).
  { intros x H. unfold sec_all. change ((91 :: sec_name x ++ [93]) :: repeat [] (sec_gap x) ++ sec_lines x) with ([91 :: sec_name x ++ [93]] ++ (repeat [] (sec_gap x) ++ sec_lines x)).
    rewrite !tl_app. replace (tl_lines (repeat [] (sec_gap x))) with (@nil str) by (induction (sec_gap x) as [|n IH]; [easy|]; exact IH).
    unfold said. rewrite tl_packed. unfold sec_body. rewrite tl_body; [easy|].
    unfold sec_ok in H. apply andb_true_iff in H as [_ H]. rewrite forallb_forall in *. intros l Hl. specialize (H l Hl). now apply andb_true_iff in H as [H _]. }
  induction 1 as [|x y l l' [En E] _ IH]; intros H1 H2; [easy|]. cbn [forallb flat_map] in *. apply andb_true_iff in H1 as [X1 H1], H2 as [X2 H2].
  rewrite !tl_app, (IH H1 H2), (B x X1), (B y X2), En. unfold said. now rewrite E.
Qed.
Lemma header_start st st' h : header_line h = true -> ts_in_sections st = false -> like st st' -> ts_in_sections (step2 st h) = true /\ like (step2 st h) (step2 st' h).
Proof.
  destruct st as [b i s f c], st' as [b' i' s' f' c']. unfold like. cbn [ts_builder ts_inner ts_in_sections ts_coloned]. intros H -> (-> & -> & <- & ->).
  unfold step2. cbn [ts_builder ts_inner ts_in_sections ts_coloned ts_first negb]. rewrite H. repeat split.
Qed.
Lemma osb_trim s t pre pre' secs secs' : osb_layout s pre secs [] -> osb_layout t pre' secs' [] -> Forall2 same_sec secs secs' ->
  Forall (fun x => In (sec_name x) osb_names) secs -> osu_str_eq s t = true.
Proof.
  intros (L1 & P1 & S1) (L2 & P2 & S2) F N. apply eq_iff. unfold osu_str_trimmer. rewrite !loop_lines. fold (tl_lines (lines s)) (tl_lines (lines t)). rewrite L1, L2, !app_nil_r, !tl_app, !fold_left_app.
  rewrite (blank_secs secs secs' F S1 S2). destruct (pre_none pre P1) as (f & ->), (pre_none pre' P2) as (f' & ->). f_equal.
  set (z := tl_lines (flat_map sec_all secs')). assert (Z : z = [] \/ exists h r, z = h :: r /\ header_line h = true).
  { unfold z. rewrite <- (blank_secs secs secs' F S1 S2). clear - N. destruct secs as [|x l]; [now left|]. right. inversion_clear N as [|? ? Hx _]. unfold flat_map. cbn [app]. rewrite tl_app. unfold sec_all.
    change ((91 :: sec_name x ++ [93]) :: repeat [] (sec_gap x) ++ sec_lines x) with ([91 :: sec_name x ++ [93]] ++ (repeat [] (sec_gap x) ++ sec_lines x)). rewrite tl_app.
    destruct Hx as [<-|[<-|[]]]; eexists; eexists; (split; [reflexivity|reflexivity]). }
  destruct Z as [->|(h & r & -> & H)]; [reflexivity|]. cbn [fold_left].
  destruct (header_start (mk_ts [] [] false f true) (mk_ts [] [] false f' true) h H eq_refl (conj eq_refl (conj eq_refl (conj eq_refl eq_refl)))) as [H1 H2].
  destruct (like_fold r _ _ H1 H2) as (A & B & _). unfold sort_push. now rewrite A, B.
Qed.
Lemma osb_check dbg s t pre pre' secs secs' o : osb_layout s pre secs [] -> osb_layout t pre' secs' [] -> Forall2 same_sec secs secs' ->
  osb_from_str dbg t 14%Z = ROk (Some o) -> osb_from_str dbg s 14%Z = ROk (Some o) /\ osu_str_eq s t = true.
Proof.
  intros L1 L2 F R. pose proof (osb_packed dbg _ _ _ _ _ _ _ _ L1 eq_refl L2 eq_refl F) as P. apply (no_line_ok _ _ _ P) in R. split; [exact R|].
  apply (osb_trim s t pre pre' secs secs' L1 L2 F). apply (osb_read dbg _ _ _ _ _ L1 eq_refl) in R. exact (proj1 (proj2 R)).
Qed.
