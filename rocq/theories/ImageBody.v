(** Bodies of sections in files, for the values of C76. *)
From Coq Require Import String List NArith ZArith Bool Lia.
From Verif Require Import Str Num Nom Dec Parsers KeyValue KvFields General Editor Metadata Difficulty Colours TimingPoints HitObjects
  Storyboard NormalEvents Events Osb OsuFile Spec SpecWf SpecKv SpecText SpecSections SpecFile SpecTypes SpecCmd SpecEvents SpecWhole SpecTotal
  SpecLine SpecEvLine SpecColLine SpecEvSection SpecKvRead SpecWalk SpecImage SpecImageFile
  StrFacts NumFacts NomFacts DecFacts LineFacts SplitFacts LayoutFacts
  KvFacts KvSem KvSections KvTheorems KvStatements KvRead Ends WalkFacts HoRead BackRead ImageKv ImageLine ImageObj ImageCmd ImageEv ImageOld.
Import ListNotations.
Local Open Scope N_scope.

Definition opens (s : str) : bool := starts_with_char 91 s.
(** ** lines that begin with a bracket *)
Lemma starts_two s : starts_with [10; 91] s = match s with a :: b :: _ => (10 =? a) && (91 =? b) | _ => false end.
Proof. unfold starts_with. destruct s as [|a [|b s]]; cbn [strip_prefix]; [easy|now destruct (10 =? a)|]. now destruct (10 =? a), (91 =? b). Qed.
Lemma contains_step c s : contains [10; 91] (c :: s) = ((c =? 10) && opens s) || contains [10; 91] s.
Proof.
  unfold contains. cbn [find_sub]. rewrite starts_two. unfold opens, starts_with_char. rewrite (N.eqb_sym c 10).
  destruct s as [|b s]; [now rewrite andb_false_r|]. rewrite (N.eqb_sym b 91). destruct ((10 =? c) && (91 =? b)); [easy|].
  now destruct (find_sub [10; 91] (b :: s)) as [[? ?]|].
Qed.
Lemma contains_flat a s : no_nl a = true -> contains [10; 91] (a ++ s) = contains [10; 91] s.
Proof.
  induction a as [|c a IH]; [easy|]. unfold no_nl. cbn [forallb app]. intros H. apply andb_true_iff in H as [H1 H2]. rewrite contains_step, IH by easy.
  apply negb_true_iff in H1. now rewrite H1.
Qed.
Lemma contains_gap a s : forallb (fun c => negb (c =? 91)) a = true -> opens s = false -> contains [10; 91] (a ++ s) = contains [10; 91] s.
Proof.
  induction a as [|c a IH]; [easy|]. cbn [forallb app]. intros H K. apply andb_true_iff in H as [H1 H2]. rewrite contains_step, IH by easy.
  replace (opens (a ++ s)) with false; [now rewrite andb_false_r|]. destruct a as [|d a]; [easy|]. cbn [app opens starts_with_char forallb] in *.
  apply andb_true_iff in H2 as [H2 _]. now apply negb_true_iff in H2.
Qed.
Lemma contains_no a : forallb (fun c => negb (c =? 91)) a = true -> contains [10; 91] a = false.
Proof. intros H. rewrite <- (app_nil_r a). now rewrite contains_gap. Qed.
Lemma contains_crlf ls : forallb no_nl ls = true -> contains [10; 91] (crlf_text ls) = existsb opens (tl ls).
Proof.
  induction ls as [|l ls IH]; [easy|]. cbn [forallb]. intros H. apply andb_true_iff in H as [H1 H2]. unfold crlf_text. cbn [map concat].
  rewrite <- app_assoc, contains_flat by easy. cbn [app]. fold (crlf_text ls). rewrite !contains_step, (IH H2). cbn [N.eqb Pos.eqb andb orb tl].
  destruct ls as [|m ls]; [easy|]. cbn [tl existsb]. f_equal. unfold crlf_text. cbn [map concat]. now destruct m.
Qed.
(** the lines of a body *)
Lemma opens_first s : opens (hd [] (lines s)) = opens s.
Proof.
  induction s as [|c s IH]; [easy|]. cbn [lines]. unfold c_nl, c_cr. destruct (c =? 10) eqn:E1.
  - apply N.eqb_eq in E1. now subst c.
  - destruct ((c =? 13) && match s with d :: _ => d =? 10 | [] => false end) eqn:E2.
    + apply andb_true_iff in E2 as [E2 E3]. destruct s as [|d s]; [easy|]. apply N.eqb_eq in E2, E3. subst c d. easy.
    + now destruct (lines s).
Qed.
Lemma contains_lines s : existsb opens (tl (lines s)) = true -> contains [10; 91] s = true.
Proof.
  induction s as [|c s IH]; [easy|]. cbn [lines]. rewrite contains_step. unfold c_nl, c_cr. destruct (c =? 10) eqn:E1.
  - cbn [tl andb]. rewrite <- opens_first. destruct (lines s) as [|l ls]; [easy|]. cbn [existsb hd tl orb] in *. intros H.
    apply orb_true_iff in H as [->|H]; [easy|]. now rewrite IH, orb_true_r.
  - destruct ((c =? 13) && match s with d :: _ => d =? 10 | [] => false end) eqn:E2; intros H.
    + cbn [andb orb]. now apply IH.
    + cbn [andb orb]. apply IH. now destruct (lines s).
Qed.
Lemma existsb_tl_filter {A} (p q : A -> bool) l : existsb p (tl l) = false -> existsb p (tl (filter q l)) = false.
Proof.
  destruct l as [|x l]; [easy|]. cbn [tl]. intros H.
  assert (K : forall m, existsb p m = false -> existsb p (filter q m) = false).
  { clear. induction m as [|y m IH]; [easy|]. cbn [existsb filter]. intros H. apply orb_false_iff in H as [H1 H2].
    destruct (q y); cbn [existsb]; [rewrite H1|]; auto. }
  cbn [filter]. destruct (q x); cbn [tl]; [auto|]. specialize (K _ H). destruct (filter q l); [easy|]. cbn [existsb tl] in *.
  now apply orb_false_iff in K.
Qed.
Lemma body_opens b : contains [10; 91] b = false -> existsb opens (tl (full_lines b)) = false.
Proof.
  intros H. apply existsb_tl_filter. destruct (existsb opens (tl (lines b))) eqn:E; [|easy]. apply contains_lines in E. congruence.
Qed.

(** ** bodies that can stand in a file *)
Definition stands (b : str) : bool :=
  match b with c :: _ => negb (layout_char c) | [] => false end && negb (contains [10; 91] b).
(** a line that is blank but not left out below a header *)
Definition gap_line : str := [12288].
Lemma body_for fs : forallb no_nl fs = true -> forallb (fun l => negb (is_blank l)) fs = true -> existsb opens (tl fs) = false ->
  exists b, stands b = true /\ full_lines b = fs.
Proof.
  intros H1 H2 H3.
  assert (F : filter (fun l => negb (is_blank l)) fs = fs).
  { clear - H2. induction fs as [|x ls IH]; [easy|]. cbn [forallb filter] in *. apply andb_true_iff in H2 as [-> H2]. f_equal. now apply IH. }
  destruct (opens (hd [] fs)) eqn:E.
  - exists (crlf_text fs). unfold full_lines. rewrite crlf_lines_of by easy. split; [|easy]. unfold stands. rewrite contains_crlf, H3 by easy.
    destruct fs as [|[|c l] fs]; [easy|easy|]. cbn [hd opens starts_with_char] in E. apply N.eqb_eq in E. subst c. reflexivity.
  - exists (crlf_text (gap_line :: fs)). unfold full_lines. rewrite crlf_lines_of by (cbn [forallb]; now rewrite H1). split.
    + unfold stands. rewrite contains_crlf by (cbn [forallb]; now rewrite H1). cbn [tl]. destruct fs as [|l fs]; [reflexivity|].
      cbn [existsb hd tl] in *. now rewrite E, H3.
    + cbn [filter]. replace (is_blank gap_line) with true by reflexivity. exact F.
Qed.
(** [P]: the lines and their values; [q]: the values of lines that begin with a bracket *)
Lemma list_body {A} (P : str -> A -> Prop) (q : A -> bool) l : (forall line x, P line x -> opens line = q x) ->
  ((exists b, stands b = true /\ Forall2 P (full_lines b) l)
   <-> (exists s, Forall2 P (full_lines s) l) /\ existsb q (tl l) = false).
Proof.
  intros HP. assert (E : forall ls m, Forall2 P ls m -> existsb opens ls = existsb q m).
  { induction 1 as [|a x ls m H _ IH]; [easy|]. cbn [existsb]. now rewrite IH, (HP _ _ H). }
  assert (E' : forall ls m, Forall2 P ls m -> existsb opens (tl ls) = existsb q (tl m)).
  { intros ls m H. destruct H; [easy|]. now apply E. }
  split.
  - intros (b & H1 & H2). split; [eauto|]. rewrite <- (E' _ _ H2). apply body_opens. unfold stands in H1. apply andb_true_iff in H1 as [_ H1].
    now apply negb_true_iff in H1.
  - intros [[s H1] H2]. rewrite <- (E' _ _ H1) in H2. destruct (body_for (full_lines s)) as (b & B1 & B2).
    + apply forallb_forall. intros x Hx. apply filter_In in Hx as [Hx _]. pose proof (lines_no_nl s) as K. rewrite forallb_forall in K. auto.
    + apply forallb_forall. intros x Hx. now apply filter_In in Hx.
    + easy.
    + exists b. now rewrite B2.
Qed.

(** ** timing points and hit objects *)
Lemma bracket_raw f : negb (no_bracket (decimal_of_str f)) = opens f.
Proof.
  destruct f as [|c f]; [reflexivity|]. cbn [opens starts_with_char]. destruct (c =? 91) eqn:E.
  - apply N.eqb_eq in E. subst c. assert (K : parse_rdec (91 :: f) = None) by reflexivity. unfold decimal_of_str. rewrite K. reflexivity.
  - unfold decimal_of_str. destruct (parse_rdec (c :: f)); cbn [no_bracket]; [easy|]. now rewrite E.
Qed.
Lemma opens_piece c s : c <> 91 -> opens (hd [] (pieces c s)) = opens s.
Proof.
  intros H. destruct s as [|d s]; [easy|]. cbn [pieces opens starts_with_char]. destruct (pieces c s) as [|p ps] eqn:E.
  - destruct (pieces_spec c s) as (? & ? & K & _). congruence.
  - destruct (d =? c) eqn:K; [|easy]. apply N.eqb_eq in K. subst d. cbn. symmetry. now apply N.eqb_neq.
Qed.
Lemma shift_bracket v d d' : shift_in v d = ROk d' -> no_bracket d' = no_bracket d.
Proof. intros H. destruct (shift_in_raw _ _ _ H) as [->|(r & r' & -> & ->)]; reflexivity. Qed.
Lemma point_start v line x : tp_line v (pieces 44 line) = ROk x -> opens line = negb (no_bracket (tp_time x)).
Proof.
  enough (K : oks (fun x => opens line = negb (no_bracket (tp_time x))) (tp_line v (pieces 44 line))) by apply K.
  rewrite <- (opens_piece 44 line) by easy. unfold tp_line, next at 1. destruct (pieces 44 line) as [|f fs]; [easy|]. cbn [hd]. unfold rd_dec at 1.
  destruct (shift_in v (decimal_of_str f)) as [t|[]|] eqn:Es; [|easy]. cbn [andthen]. rewrite <- bracket_raw, <- (shift_bracket v _ _ Es).
  repeat first [apply oks_next; intros | apply oks_last; intros | match goal with |- oks _ (match ?x with _ => _ end) => destruct x end
    | apply oks_err | apply oks_ok; reflexivity].
Qed.
Lemma object_start v line x : SpecLine.ho_line v (pieces 44 line) = ROk x -> opens line = negb (no_bracket (pos_x (ho_position x))).
Proof.
  enough (K : oks (fun x => opens line = negb (no_bracket (pos_x (ho_position x)))) (SpecLine.ho_line v (pieces 44 line))) by apply K.
  rewrite <- (opens_piece 44 line) by easy. unfold SpecLine.ho_line, next at 1. destruct (pieces 44 line) as [|f fs]; [easy|]. cbn [hd]. unfold rd_dec at 1.
  rewrite <- bracket_raw.
  repeat first [apply oks_next; intros | apply oks_last; intros | apply oks_andthen; intros | apply oks_sample; intros | apply oks_slider; intros
    | match goal with |- oks _ (match ?x with _ => _ end) => destruct x end
    | apply oks_err | apply oks_ok; reflexivity | easy].
Qed.
Lemma existsb_tl {A} (p : A -> bool) l : existsb (fun x => negb (p x)) (tl l) = false <-> forallb p (tl l) = true.
Proof.
  destruct l as [|x l]; [easy|]. cbn [tl]. clear x. induction l as [|x l IH]; [easy|]. cbn [existsb forallb].
  rewrite orb_false_iff, andb_true_iff, negb_false_iff. tauto.
Qed.
Lemma tl_map {A B} (f : A -> B) l : tl (map f l) = map f (tl l).
Proof. now destruct l. Qed.
Lemma forallb_map {A B} (f : A -> B) p l : forallb p (map f l) = forallb (fun x => p (f x)) l.
Proof. induction l as [|x l IH]; [easy|]. cbn. now rewrite IH. Qed.
Lemma points_body v l :
  (exists b, stands b = true /\ timing_points_from_str b v = ROk (Some l)) <-> points_range v l = true.
Proof.
  unfold points_range. rewrite andb_true_iff, <- (points_give v l), tl_map, forallb_map, <- existsb_tl.
  pose proof (list_body (fun line x => tp_line v (pieces 44 line) = ROk x) (fun x => negb (no_bracket (tp_time x))) l
    (fun line x H => point_start v line x H)) as K. unfold some_text.
  assert (E : forall s, timing_points_from_str s v = ROk (Some l) <-> Forall2 (fun line x => tp_line v (pieces 44 line) = ROk x) (full_lines s) l)
    by (intros s; apply timing_points_items).
  split.
  - intros (b & B1 & B2). apply E in B2. destruct K as [K _]. destruct K as [[s K1] K2]; [eauto|]. split; [|easy]. exists s. now apply E.
  - intros [[s H1] H2]. apply E in H1. destruct K as [_ K]. destruct K as (b & B1 & B2); [eauto|]. exists b. split; [easy|]. now apply E.
Qed.
Lemma objects_body v l :
  (exists b, stands b = true /\ hit_objects_from_str b v = ROk (Some l)) <-> objects_range v l = true.
Proof.
  unfold objects_range. rewrite andb_true_iff, <- (objects_give v l), tl_map, forallb_map, <- existsb_tl.
  pose proof (list_body (fun line x => SpecLine.ho_line v (pieces 44 line) = ROk x) (fun x => negb (no_bracket (pos_x (ho_position x)))) l
    (fun line x H => object_start v line x H)) as K. unfold some_text.
  assert (E : forall s, hit_objects_from_str s v = ROk (Some l) <-> Forall2 (fun line x => SpecLine.ho_line v (pieces 44 line) = ROk x) (full_lines s) l)
    by (intros s; apply hit_objects_items).
  split.
  - intros (b & B1 & B2). apply E in B2. destruct K as [K _]. destruct K as [[s K1] K2]; [eauto|]. split; [|easy]. exists s. now apply E.
  - intros [[s H1] H2]. apply E in H1. destruct K as [_ K]. destruct K as (b & B1 & B2); [eauto|]. exists b. split; [easy|]. now apply E.
Qed.

(** ** events and colours *)
Lemma event_start dbg v vs line x : line_item dbg v vs line x -> opens line = false.
Proof.
  intros H. destruct (opens line) eqn:E; [|easy]. destruct line as [|c l]; [easy|]. cbn [opens starts_with_char] in E. apply N.eqb_eq in E. subst c.
  inversion H as [c E|l' h fs e H1 H2 H3 H4 H5|l' q l'' c H1 H2 H3 H4]; subst; [|exfalso; now apply H1].
  destruct H3 as (H3 & H6 & H7). exfalso. clear - H4 H6. destruct h as [|c h].
  - cbn in H6. destruct fs; discriminate.
  - assert (c = 91) as -> by (destruct fs; cbn in H6; congruence). discriminate H4.
Qed.
Lemma colour_start line x : col_line line = ROk x -> opens line = false.
Proof.
  intros H. destruct (opens line) eqn:E; [|easy]. destruct line as [|c l]; [easy|]. cbn [opens starts_with_char] in E. apply N.eqb_eq in E. subst c.
  exfalso. assert (K : exists t, trim (91 :: l) = 91 :: t).
  { unfold trim. cbn [trim_start]. replace (is_ws 91) with false by reflexivity. cbn [trim_end]. replace (is_ws 91) with false by reflexivity.
    destruct (trim_end l); eauto. }
  destruct K as [t K]. unfold col_line in H. rewrite K in H. discriminate H.
Qed.
Lemma existsb_none {A} (l : list A) : existsb (fun _ => false) l = false.
Proof. now induction l. Qed.
Lemma events_body dbg v l :
  (exists b, stands b = true /\ events_from_str dbg b v = ROk (Some l)) <-> forallb (event_in dbg v) l = true.
Proof.
  rewrite <- (events_give dbg v l). unfold some_text.
  pose proof (list_body (line_item dbg v []) (fun _ => false) (SpecWalk.items l) (event_start dbg v [])) as K. rewrite existsb_none in K. split.
  - intros (b & B1 & B2). eauto.
  - intros [s H1]. apply lines_items0 in H1. destruct K as [_ K]. destruct K as (b & B1 & B2); [eauto|]. exists b. split; [easy|]. now apply lines_items0.
Qed.
Lemma colours_body v l :
  (exists b, stands b = true /\ colours_from_str b v = ROk (Some l)) <-> colours_range v l = true.
Proof.
  unfold colours_range. fold (old_version v). destruct (old_version v) eqn:O.
  { split; [|easy]. intros (b & _ & H). unfold colours_from_str in H. rewrite O in H. discriminate H. }
  cbn [negb andb].
  assert (G : some_text (fun s => colours_from_str s v) l <-> forallb colour_range l = true) by (rewrite colours_gives; unfold old_version in O; split; [easy|split; [lia|easy]]).
  rewrite <- G. unfold some_text.
  pose proof (list_body (fun line x => col_line line = ROk x) (fun _ => false) l colour_start) as K. rewrite existsb_none in K. split.
  - intros (b & B1 & B2). eauto.
  - intros [s H1]. apply colours_items in H1; [|easy]. destruct K as [_ K]. destruct K as (b & B1 & B2); [eauto|]. exists b. split; [easy|]. now apply colours_items.
Qed.

(** ** keys and values *)
Definition key_starts (k : str) : bool := match k with c :: _ => negb (layout_char c) && negb (c =? 91) | [] => false end.
Lemma blank_plain t : is_blank t = true -> forallb (fun c => negb (c =? 91)) t = true.
Proof.
  rewrite is_blank_forallb. apply forallb_impl. intros c H. destruct (c =? 91) eqn:E; [|easy]. apply N.eqb_eq in E. subst c. discriminate H.
Qed.
Lemma kv_flat es t : entries_ok es = true -> is_blank t = true -> Forall (fun e => key_starts (entry_key e) = true) es ->
  contains [10; 91] (kv_text es ++ t) = false /\ opens (kv_text es ++ t) = false.
Proof.
  intros H Ht. induction es as [|e es IH]; intros Hk.
  - cbn [kv_text map concat app]. apply blank_plain in Ht. split; [now apply contains_no|]. destruct t; [easy|]. cbn [forallb opens starts_with_char] in *.
    apply andb_true_iff in Ht as [Ht _]. now apply negb_true_iff in Ht.
  - apply Forall_cons_iff in Hk as [Hk1 Hk]. cbn [entries_ok] in H. rewrite !andb_true_iff in H. destruct H as [[H1 H2] _]. specialize (IH H2 Hk).
    destruct IH as [I1 I2]. unfold entry_ok in H1. rewrite !andb_true_iff in H1. destruct H1 as [[K1 K2] K3].
    unfold kv_text. cbn [map concat]. fold (kv_text es). unfold entry_text.
    assert (E : ((entry_key e ++ 58 :: entry_rest e ++ entry_gap e) ++ kv_text es) ++ t
      = (entry_key e ++ 58 :: entry_rest e) ++ entry_gap e ++ kv_text es ++ t) by now rewrite <- !app_assoc, <- ?app_comm_cons, <- ?app_assoc.
    rewrite E. split.
    + rewrite contains_flat.
      * rewrite contains_gap; [easy| |easy]. unfold gap_ok in K3. apply andb_true_iff in K3 as [K3 _]. eapply forallb_impl; [|exact K3].
        intros c Hc. destruct (c =? 91) eqn:Ec; [|easy]. apply N.eqb_eq in Ec. subst c. discriminate Hc.
      * unfold no_nl. rewrite forallb_app. cbn [forallb]. apply andb_true_iff. split; [|apply andb_true_iff; split; [easy|]].
        -- eapply forallb_impl; [|exact K1]. intros c Hc. cbn beta in Hc. rewrite negb_orb in Hc. now apply andb_true_iff in Hc.
        -- eapply forallb_impl; [|exact K2]. intros c Hc. unfold break_char in Hc. rewrite negb_orb in Hc. now apply andb_true_iff in Hc.
    + destruct (entry_key e) as [|c k]; [easy|]. cbn [app opens starts_with_char]. cbn [key_starts] in Hk1. apply andb_true_iff in Hk1 as [_ Hk1].
      now apply negb_true_iff in Hk1.
Qed.
Section Kv.
  Context {S E : Type}.
  Variable errs : kv_errs E.
  Variable fields : list (field S E).
  Variable new : S.
  Variable spacing : str -> version -> str.
  Hypothesis laws : field_laws fields new spacing.
  Hypothesis keys : forallb (fun f => key_starts (f_name f)) fields = true.
  Lemma kv_body s v x : kv_from_str errs fields new s v = ROk (Some x) ->
    exists b, stands b = true /\ kv_from_str errs fields new b v = ROk (Some x).
  Proof.
    intros H. pose proof H as H0. apply (kv_from_str_ok errs fields new spacing laws) in H as (es & t & -> & H1 & H2 & H3 & H4 & H5 & H6).
    assert (K : Forall (fun e => key_starts (entry_key e) = true) es).
    { apply Forall_forall. intros e He. destruct (H5 e He) as (f & y & Hf & <- & _). rewrite forallb_forall in keys. now apply keys. }
    destruct (kv_flat es t H1 H3 K) as [F1 F2]. destruct es as [|e es].
    - exists gap_line. split; [reflexivity|]. apply (kv_from_str_ok errs fields new spacing laws). exists [], gap_line. repeat split; auto; constructor.
    - exists (kv_text (e :: es) ++ t). split; [|easy]. unfold stands. rewrite F1. rewrite andb_true_r. apply Forall_inv in K.
      unfold kv_text, entry_text. cbn [map concat]. destruct (entry_key e) as [|c k]; [easy|]. cbn [app]. cbn [key_starts] in K. now apply andb_true_iff in K.
  Qed.
End Kv.
