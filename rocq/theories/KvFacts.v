(** Facts about the reader and printer of key/value sections. *)
From Coq Require Import String List NArith ZArith Bool Lia.
From Verif Require Import Str Num Nom Dec Parsers KeyValue Spec SpecKv StrFacts NumFacts NomFacts.
Import ListNotations.
Local Open Scope N_scope.

(** ** one line *)
Definition entry4 (e : kv_entry) : str * str * str * str :=
  (entry_key e, fst (span is_space0 (entry_rest e)), entry_value e, entry_gap e).
Definition ms_char (c : char) : bool := blank_char c || break_char c.
Lemma ms_multispace c : is_multispace c = ms_char c.
Proof. unfold is_multispace, ms_char, blank_char, break_char. now rewrite <- !orb_assoc. Qed.

Lemma skip_blanks_span s : snd (span is_space0 s) = skip_blanks s.
Proof.
  induction s as [|c s IH]; [easy|]. cbn [span skip_blanks].
  change (is_space0 c) with (blank_char c).
  destruct (blank_char c); [destruct (span is_space0 s)|]; easy.
Qed.
Lemma span_ext f g s : (forall c, f c = g c) -> span f s = span g s.
Proof.
  intros H. induction s as [|c s IH]; [easy|]. cbn [span]. rewrite H, IH. easy.
Qed.
Lemma field_line_eq {C} s :
  @field_line C s =
  let (k, s1) := span (fun c => negb ((c =? 58) || (c =? 10))) s in
  match s1 with
  | c :: s2 =>
      if c =? 58 then
        let (g, s3) := span is_space0 s2 in
        let (x, s4) := span (fun c => negb (break_char c)) s3 in
        let (w, s5) := span ms_char s4 in POk s5 (k, g, x, w)
      else kerr KChar
  | [] => kerr KChar
  end.
Proof.
  unfold field_line, terminated, pmap, pbind, pret, take_till, take_while, space0, multispace0, take_while.
  destruct (span (fun c => negb ((c =? 58) || (c =? 10))) s) as [k s1]. unfold pchar.
  destruct s1 as [|c s2]; [easy|]. cbn beta iota. destruct (c =? 58); [|easy].
  destruct (span is_space0 s2) as [g s3].
  change (span (fun c0 : N => negb ((c0 =? 13) || (c0 =? 10))) s3)
    with (span (fun c => negb (break_char c)) s3).
  destruct (span (fun c => negb (break_char c)) s3) as [x s4].
  rewrite (span_ext is_multispace ms_char) by apply ms_multispace.
  now destruct (span ms_char s4).
Qed.

Lemma field_line_safe {C} : safe (@field_line C).
Proof.
  intros s. rewrite field_line_eq.
  destruct (span _ s) as [k s1] eqn:E1. apply span_spec in E1 as (-> & _ & _).
  destruct s1 as [|c s2]; [easy|]. destruct (c =? 58); [|easy].
  destruct (span is_space0 s2) as [g s3] eqn:E2. apply span_spec in E2 as (-> & _ & _).
  destruct (span _ s3) as [x s4] eqn:E3. apply span_spec in E3 as (-> & _ & _).
  destruct (span ms_char s4) as [w s5] eqn:E4. apply span_spec in E4 as (-> & _ & _).
  cbn [safe_at]. rewrite !app_length. cbn [length]. rewrite !app_length. lia.
Qed.
Lemma head_is_span f s : head_is f s = false -> span f s = ([], s).
Proof. destruct s as [|c s]; [easy|]. cbn. now intros ->. Qed.
Lemma key_stop k t : key_ok k = true ->
  span (fun c => negb ((c =? 58) || (c =? 10))) (k ++ 58 :: t) = (k, 58 :: t).
Proof. intros H. now apply span_app. Qed.
Lemma break_not_blank c : break_char c = true -> is_space0 c = false.
Proof.
  unfold break_char. intros H. apply orb_true_iff in H as [H|H]; apply N.eqb_eq in H; now subst.
Qed.
Lemma blank_not_break c : is_space0 c = true -> break_char c = false.
Proof.
  unfold is_space0. intros H. apply orb_true_iff in H as [H|H]; apply N.eqb_eq in H; now subst.
Qed.
Lemma rest_split r w :
  rest_ok r = true -> (is_empty w || head_is break_char w) = true ->
  exists g, r = g ++ skip_blanks r /\ span is_space0 (r ++ w) = (g, skip_blanks r ++ w)
            /\ fst (span is_space0 r) = g.
Proof.
  intros Hr Hw. induction r as [|c r IH].
  - exists []. cbn [app skip_blanks]. repeat split. apply head_is_span.
    destruct w as [|c w]; [easy|]. now apply break_not_blank.
  - cbn in Hr. apply andb_true_iff in Hr as [Hc Hr]. destruct (IH Hr) as (g & Hg & Hs & Hf).
    cbn [skip_blanks app span]. change (is_space0 c) with (blank_char c).
    destruct (blank_char c).
    + exists (c :: g). rewrite Hs. destruct (span is_space0 r) as [g' r'] eqn:E. cbn in Hf. subst g'.
      repeat split. cbn. congruence.
    + now exists [].
Qed.
Lemma skip_blanks_ok r : rest_ok r = true -> rest_ok (skip_blanks r) = true.
Proof.
  induction r as [|c r IH]; [easy|]. cbn. intros H. apply andb_true_iff in H as [Hc Hr].
  destruct (blank_char c); [auto|]. cbn. now rewrite Hc.
Qed.
Lemma field_line_ok {C} e t :
  entry_ok e = true -> head_is ms_char t = false -> (entry_gap e = [] -> t = []) ->
  @field_line C (entry_text e ++ t) = POk t (entry4 e).
Proof.
  destruct e as [[k r] w]. unfold entry_ok, entry_text, entry4, entry_value. unfold entry_key, entry_rest, entry_gap.
  cbn [fst snd]. rewrite !andb_true_iff. intros [[Hk Hr] Hw] Ht Hwt. unfold gap_ok in Hw.
  apply andb_true_iff in Hw as [Hw Hw2].
  rewrite field_line_eq. rewrite <- app_assoc. cbn [app]. rewrite key_stop by easy.
  rewrite N.eqb_refl. rewrite <- app_assoc.
  assert (Hwt2 : is_empty (w ++ t) || head_is break_char (w ++ t) = true).
  { destruct w as [|c w]; [now rewrite Hwt|]. exact Hw2. }
  destruct (rest_split r (w ++ t) Hr Hwt2) as (g & Hg & Hs & Hf). rewrite Hs, Hf.
  rewrite (span_app _ (skip_blanks r) (w ++ t)).
  2:{ now apply skip_blanks_ok. }
  2:{ destruct w as [|c w]; [now rewrite Hwt|]. cbn in *. now rewrite Hw2. }
  rewrite (span_app ms_char w t); [easy|exact Hw|now apply head_is_span].
Qed.
Lemma field_line_inv {C} s t x :
  @field_line C s = POk t x ->
  exists e, s = entry_text e ++ t /\ entry_ok e = true /\ x = entry4 e
            /\ head_is ms_char t = false /\ (entry_gap e = [] -> t = []).
Proof.
  rewrite field_line_eq. destruct (span _ s) as [k s1] eqn:E1. apply span_spec in E1 as (-> & Hk & H1).
  destruct s1 as [|c s2]; [easy|]. destruct (c =? 58) eqn:Ec; [|easy]. apply N.eqb_eq in Ec. subst c.
  destruct (span is_space0 s2) as [g s3] eqn:E2. apply span_spec in E2 as (-> & Hg & H2).
  destruct (span _ s3) as [y s4] eqn:E3. apply span_spec in E3 as (-> & Hy & H3).
  destruct (span ms_char s4) as [w s5] eqn:E4. apply span_spec in E4 as (-> & Hw & H4).
  intros [= <- <-]. exists (k, g ++ y, w).
  assert (Hsk : skip_blanks (g ++ y) = y).
  { clear - Hg H2 H3. induction g as [|c g IH]; cbn [app skip_blanks].
    - destruct y as [|c y]; [easy|]. cbn in *. change (is_space0 c) with (blank_char c) in H2. now rewrite H2.
    - cbn in Hg. apply andb_true_iff in Hg as [Hc Hg]. change (is_space0 c) with (blank_char c) in Hc.
      rewrite Hc. auto. }
  assert (Hfs : fst (span is_space0 (g ++ y)) = g).
  { rewrite span_app; [easy|easy|]. apply head_is_span. destruct y as [|c y]; [easy|]. exact H2. }
  split; [|split; [|split; [|split]]].
  - unfold entry_text, entry_key, entry_rest, entry_gap. cbn [fst snd].
    rewrite <- !app_assoc. cbn [app]. now rewrite <- !app_assoc.
  - unfold entry_ok, entry_text, entry_key, entry_rest, entry_gap, gap_ok. cbn [fst snd].
    rewrite !andb_true_iff. repeat split.
    + exact Hk.
    + unfold rest_ok. rewrite forallb_app. apply andb_true_iff. split; [|exact Hy].
      clear - Hg. induction g as [|c g IH]; [easy|]. cbn in *. apply andb_true_iff in Hg as [Hc Hg].
      rewrite IH by easy. now rewrite blank_not_break.
    + exact Hw.
    + destruct w as [|c w]; [easy|]. cbn in *. now destruct (break_char c).
  - unfold entry4, entry_value, entry_key, entry_rest, entry_gap. cbn [fst snd]. now rewrite Hsk, Hfs.
  - destruct s5 as [|c s5]; [easy|]. exact H4.
  - unfold entry_gap. cbn. intros ->. destruct s5 as [|c s5]; [easy|]. cbn in *.
    unfold ms_char in H4. destruct (break_char c); [|easy]. now rewrite orb_true_r in H4.
Qed.
Lemma field_line_err {C} s :
  contains_char 58 (first_line s) = false -> @field_line C s = PErr (mkErr KChar None).
Proof.
  intros H. rewrite field_line_eq.
  destruct (span (fun c => negb ((c =? 58) || (c =? 10))) s) as [k s1] eqn:E1.
  apply span_spec in E1 as (-> & Hk & H1). destruct s1 as [|c s2]; [easy|].
  destruct (c =? 58) eqn:Ec; [|easy]. apply N.eqb_eq in Ec. subst c.
  exfalso. revert H. apply eq_true_false_abs. apply contains_char_spec.
  unfold first_line. clear - Hk. induction k as [|c k IH]; cbn [app span].
  { change (negb (58 =? 10)) with true. cbn iota. destruct (span _ s2). now left. }
  cbn in Hk. apply andb_true_iff in Hk as [Hc Hk]. specialize (IH Hk).
  destruct (c =? 10); [now rewrite orb_true_r in Hc|]. cbn [negb].
  destruct (span (fun c0 : N => negb (c0 =? 10)) (k ++ 58 :: s2)) as [a b]. now right.
Qed.
Lemma field_line_err_inv {C} s e :
  @field_line C s = PErr e -> contains_char 58 (first_line s) = false.
Proof.
  rewrite field_line_eq.
  destruct (span (fun c => negb ((c =? 58) || (c =? 10))) s) as [k s1] eqn:E1.
  apply span_spec in E1 as (-> & Hk & H1). unfold first_line.
  assert (Hkn : forallb (fun c => negb (c =? 10)) k = true).
  { eapply forallb_impl; [|exact Hk]. intros c. cbn beta. now destruct (c =? 58), (c =? 10). }
  assert (Hk58 : contains_char 58 k = false).
  { destruct (contains_char 58 k) eqn:E; [|easy]. apply contains_char_spec in E.
    rewrite forallb_forall in Hk. specialize (Hk _ E). easy. }
  destruct s1 as [|c s2].
  - intros _. rewrite app_nil_r, span_all by easy. exact Hk58.
  - destruct (c =? 58) eqn:Ec.
    + destruct (span is_space0 s2) as [g s3]. destruct (span _ s3) as [y s4].
      destruct (span ms_char s4) as [w s5]. easy.
    + intros _. rewrite span_app; [exact Hk58|easy|].
      now apply span_stop.
Qed.

(** ** all lines *)
Lemma entry_text_length e : (0 < length (entry_text e))%nat.
Proof. unfold entry_text. rewrite app_length. cbn. lia. Qed.
Lemma kv_text_cons e es : kv_text (e :: es) = entry_text e ++ kv_text es.
Proof. easy. Qed.
Lemma head_is_app f a b : a <> [] -> head_is f (a ++ b) = head_is f a.
Proof. now destruct a. Qed.
Lemma entry_head f e b :
  head_is f (entry_text e ++ b) = match entry_key e with [] => f 58 | c :: _ => f c end.
Proof. unfold entry_text. now destruct (entry_key e). Qed.
Lemma entry_ms e b :
  head_is ms_char (entry_key e) = false -> head_is ms_char (entry_text e ++ b) = false.
Proof. intros H. rewrite entry_head. now destruct (entry_key e). Qed.
Lemma last_cons2 {A} (x y : A) l d : last (x :: y :: l) d = last (y :: l) d.
Proof. easy. Qed.
Lemma kv_lines_ok {C} es t :
  entries_ok es = true -> rest_after es t = true ->
  @get_colon_field_value_lines C (kv_text es ++ t) = POk t (map entry4 es).
Proof.
  unfold get_colon_field_value_lines. intros He Ht.
  assert (Hc : contains_char 58 (first_line t) = false).
  { unfold rest_after in Ht. apply andb_true_iff in Ht as [Ht _]. now destruct (contains_char _ _). }
  induction es as [|e es IH].
  - cbn [kv_text map concat app]. eapply many0_stop. now apply field_line_err.
  - cbn [entries_ok] in He. rewrite !andb_true_iff in He. destruct He as [[He Hes] Hn].
    rewrite kv_text_cons, <- app_assoc. cbn [map].
    assert (Hl : field_line (C:=C) (entry_text e ++ kv_text es ++ t) = POk (kv_text es ++ t) (entry4 e)).
    { apply field_line_ok; [easy| |].
      - destruct es as [|e' es].
        + cbn [kv_text map concat app]. unfold rest_after in Ht. apply andb_true_iff in Ht as [_ Ht].
          destruct t; [easy|]. cbn [is_empty orb] in Ht. apply andb_true_iff in Ht as [_ Ht].
          now apply negb_true_iff in Ht.
        + apply andb_true_iff in Hn as [_ Hn]. apply negb_true_iff in Hn.
          rewrite kv_text_cons, <- app_assoc. now apply entry_ms.
      - intros Hg. destruct es as [|e' es].
        + unfold rest_after in Ht. apply andb_true_iff in Ht as [_ Ht]. cbn [last] in Ht. rewrite Hg in Ht.
          now destruct t.
        + rewrite Hg in Hn. easy. }
    rewrite (many0_cons _ _ _ _ field_line_safe Hl).
    2:{ rewrite !app_length. pose proof (entry_text_length e). lia. }
    destruct es as [|e' es].
    + cbn [kv_text map concat app]. rewrite (many0_stop _ t _ (field_line_err t Hc)). easy.
    + rewrite IH; [easy|easy|]. unfold rest_after in *. exact Ht.
Qed.
Lemma kv_lines_decompose {C} s :
  exists es t, s = kv_text es ++ t /\ entries_ok es = true /\ rest_after es t = true
    /\ @get_colon_field_value_lines C s = POk t (map entry4 es).
Proof.
  remember (length s) as n eqn:Hn. revert s Hn.
  induction n as [n IH] using lt_wf_ind. intros s ->.
  destruct (@field_line C s) as [t x|e|e|p] eqn:E.
  - apply field_line_inv in E as (e & -> & He & -> & Ht & Hg).
    destruct (IH (length t)) with (s := t) as (es & t' & -> & Hes & Ht' & Hr); [|easy|].
    { rewrite app_length. pose proof (entry_text_length e). lia. }
    assert (Hok : entries_ok (e :: es) = true).
    { cbn [entries_ok]. rewrite He, Hes. cbn [andb]. destruct es as [|e' es]; [easy|].
      rewrite kv_text_cons, <- app_assoc, entry_head in Ht.
      apply andb_true_iff. split.
      - destruct (entry_gap e); [|easy]. specialize (Hg eq_refl).
        apply (f_equal (@length _)) in Hg. rewrite kv_text_cons, !app_length in Hg.
        pose proof (entry_text_length e'). cbn in Hg. lia.
      - destruct (entry_key e'); [easy|]. cbn. unfold ms_char in Ht. now rewrite Ht. }
    assert (Hra : rest_after (e :: es) t' = true).
    { unfold rest_after in *. apply andb_true_iff in Ht' as [H1 H2]. rewrite H1. cbn [andb].
      destruct es as [|e' es]; [|now rewrite last_cons2].
      cbn [kv_text map concat app] in *. cbn [last]. destruct t' as [|c t']; [easy|].
      cbn [is_empty orb]. apply andb_true_iff. split.
      - destruct (entry_gap e); [now discriminate Hg|easy].
      - unfold ms_char in Ht. cbn in *. now rewrite Ht. }
    exists (e :: es), t'. split; [now rewrite kv_text_cons, <- app_assoc|]. split; [easy|]. split; [easy|].
    rewrite app_assoc, <- kv_text_cons. now apply kv_lines_ok.
  - exists [], s. apply field_line_err_inv in E. unfold rest_after. rewrite E. repeat split; try easy.
    apply (many0_stop _ s (mkErr KChar None)). now apply field_line_err.
  - exfalso. rewrite field_line_eq in E. destruct (span _ s) as [k [|c s2]]; [easy|].
    destruct (c =? 58); [|easy]. destruct (span _ s2) as [g s3], (span _ s3) as [y s4], (span _ s4). easy.
  - pose proof (field_line_safe (C:=C) s) as H. rewrite E in H. easy.
Qed.

(** ** the loop *)
Definition gap_lines (es : list kv_entry) : Z :=
  fold_right Z.add 0%Z (map (fun e => lines_count (entry_gap e)) es).
Section Loop.
  Context {S E : Type}.
  Variable errs : kv_errs E.
  Variable fields : list (field S E).
  Variable new : S.
  Hypothesis names : NoDup (map f_name fields).

  Lemma kv_from_str_eq s v es t :
    s = kv_text es ++ t -> entries_ok es = true -> rest_after es t = true ->
    kv_from_str errs fields new s v =
    if is_blank t then rmap Some (kv_loop errs fields v 0 [] new (map entry4 es))
    else RErr (mk_line_err (gap_lines es) (ke_colon errs)).
  Proof.
    intros -> He Ht. unfold kv_from_str. rewrite kv_lines_ok by easy.
    destruct (is_blank t); [easy|]. cbn [negb]. do 3 f_equal. rewrite map_map. easy.
  Qed.

  Lemma kv_assign_in (fs : list (field S E)) (f : field S E) value v sec :
    NoDup (map f_name fs) -> In f fs ->
    kv_assign fs (f_name f) value v sec = Some (rmap (fun x => f_set f x sec) (f_from f value v)).
  Proof.
    induction fs as [|g fs IH]; intros Hn Hin; [easy|]. cbn [kv_assign]. cbn [map] in Hn.
    apply NoDup_cons_iff in Hn as [Hg Hn]. destruct Hin as [->|Hin].
    - now rewrite str_eqb_refl.
    - destruct (str_eqb (f_name f) (f_name g)) eqn:Eq; [|now apply IH].
      apply str_eqb_eq in Eq. exfalso. apply Hg. rewrite <- Eq. now apply in_map.
  Qed.
  Lemma kv_assign_none (fs : list (field S E)) name value v sec :
    ~ In name (map f_name fs) -> kv_assign fs name value v sec = None.
  Proof.
    induction fs as [|g fs IH]; intros Hn; [easy|]. cbn [kv_assign]. cbn [map] in Hn.
    destruct (str_eqb name (f_name g)) eqn:Eq.
    - apply str_eqb_eq in Eq. exfalso. apply Hn. left. congruence.
    - apply IH. intros H. apply Hn. now right.
  Qed.
  Lemma known_dec name : In name (map f_name fields) \/ ~ In name (map f_name fields).
  Proof.
    destruct (mem_str name (map f_name fields)) eqn:Em.
    - left. now apply mem_str_In.
    - right. now apply mem_str_not_In.
  Qed.

  (** An entry that is accepted: a documented key with a readable value. *)
  Definition good_entry (v : version) (e : kv_entry) : Prop :=
    exists f x, In f fields /\ f_name f = entry_key e /\ f_from f (entry_value e) v = ROk x.

  Fixpoint kv_fold (v : version) (sec : S) (es : list kv_entry) : S :=
    match es with
    | [] => sec
    | e :: es' =>
        kv_fold v match kv_assign fields (entry_key e) (entry_value e) v sec with
                  | Some (ROk sec') => sec'
                  | _ => sec
                  end es'
    end.
  Lemma good_assign v e sec : good_entry v e ->
    exists sec', kv_assign fields (entry_key e) (entry_value e) v sec = Some (ROk sec').
  Proof.
    intros (f & x & Hin & Hf & Hx). rewrite <- Hf. rewrite kv_assign_in by easy. rewrite Hx. cbn. eauto.
  Qed.
  Lemma assign_good v e sec sec' :
    kv_assign fields (entry_key e) (entry_value e) v sec = Some (ROk sec') -> good_entry v e.
  Proof.
    destruct (known_dec (entry_key e)) as [H|H].
    - apply in_map_iff in H as (f & Hf & Hin). rewrite <- Hf. rewrite kv_assign_in by easy.
      destruct (f_from f (entry_value e) v) as [x|?|?] eqn:Ex; cbn; try easy. intros _. now exists f, x.
    - rewrite kv_assign_none by easy. easy.
  Qed.
  Lemma kv_loop_ok v n parsed sec sec' es :
    kv_loop errs fields v n parsed sec (map entry4 es) = ROk sec' <->
    NoDup (map entry_key es) /\ (forall k, In k (map entry_key es) -> ~ In k parsed)
    /\ (forall e, In e es -> good_entry v e) /\ sec' = kv_fold v sec es.
  Proof.
    revert n parsed sec. induction es as [|e es IH]; intros n parsed sec.
    - cbn. split; [intros [= ->]|intros (_ & _ & _ & ->)]; [|easy]. repeat split; try easy. constructor.
    - cbn [map kv_loop]. unfold entry4 at 1. cbn [kv_fold].
      destruct (mem_str (entry_key e) parsed) eqn:Em.
      { apply mem_str_In in Em. split; [easy|]. intros (_ & H & _). exfalso. apply (H (entry_key e)); [now left|easy]. }
      apply mem_str_not_In in Em.
      destruct (kv_assign fields (entry_key e) (entry_value e) v sec) as [[s1|er|p]|] eqn:Ea.
      + rewrite IH. cbn [map]. rewrite NoDup_cons_iff. split.
        * intros (Hn & Hp & Hg & ->). split; [split; [|easy]|].
          { intros Hin. apply (Hp _ Hin). apply in_or_app. right. now left. }
          split; [|split; [|easy]].
          -- intros k [<-|Hk]; [easy|]. intros Hin. apply (Hp _ Hk). apply in_or_app. now left.
          -- intros e' [<-|He']; [now apply assign_good in Ea|auto].
        * intros ((Hn1 & Hn) & Hp & Hg & ->). split; [easy|]. split; [|split; [|easy]].
          -- intros k Hk Hin. apply in_app_or in Hin as [Hin|[<-|[]]]; [|easy].
             apply (Hp k); [now right|easy].
          -- intros e' He'. apply Hg. now right.
      + split; [easy|]. intros (_ & _ & Hg & _). destruct (good_assign v e sec) as [? H]; [apply Hg; now left|].
        congruence.
      + split; [easy|]. intros (_ & _ & Hg & _). destruct (good_assign v e sec) as [? H]; [apply Hg; now left|].
        congruence.
      + split; [easy|]. intros (_ & _ & Hg & _). destruct (good_assign v e sec) as [? H]; [apply Hg; now left|].
        congruence.
  Qed.
  (** The entry the loop stops at. *)
  Definition stops_with (v : version) (before : list str) (e : kv_entry) (r : res S E) : Prop :=
    In (entry_key e) before /\ r = RErr (ke_dup errs)
    \/ ~ In (entry_key e) before
       /\ (~ In (entry_key e) (map f_name fields) /\ r = RErr (ke_key errs)
           \/ exists f, In f fields /\ f_name f = entry_key e
                /\ ((exists er, f_from f (entry_value e) v = RErr er /\ r = RErr er)
                    \/ exists p, f_from f (entry_value e) v = RPanic p /\ r = RPanic p)).
  Lemma kv_loop_stop v n parsed sec es :
    (exists sec', kv_loop errs fields v n parsed sec (map entry4 es) = ROk sec')
    \/ exists es1 e es2 r, es = es1 ++ e :: es2
         /\ NoDup (map entry_key es1) /\ (forall k, In k (map entry_key es1) -> ~ In k parsed)
         /\ (forall e, In e es1 -> good_entry v e)
         /\ stops_with v (parsed ++ map entry_key es1) e r
         /\ kv_loop errs fields v n parsed sec (map entry4 es)
            = rmap_err (mk_line_err (n + gap_lines es1)%Z) r
         /\ (forall x, r <> ROk x).
  Proof.
    revert n parsed sec. induction es as [|e es IH]; intros n parsed sec.
    - left. cbn. eauto.
    - cbn [map kv_loop]. unfold entry4 at 1 3.
      destruct (mem_str (entry_key e) parsed) eqn:Em.
      { right. exists [], e, es, (RErr (ke_dup errs)). apply mem_str_In in Em. cbn [app map].
        split; [easy|]. split; [constructor|]. split; [easy|]. split; [easy|]. split.
        - left. rewrite app_nil_r. easy.
        - split; [|easy]. cbn. do 2 f_equal. lia. }
      apply mem_str_not_In in Em.
      destruct (kv_assign fields (entry_key e) (entry_value e) v sec) as [[s1|er|p]|] eqn:Ea.
      + destruct (IH (n + lines_count (entry_gap e))%Z (parsed ++ [entry_key e]) s1)
          as [[sec' H]|(es1 & e1 & es2 & r & -> & Hn & Hp & Hg & Hst & Hr & Hno)]; [left; eauto|].
        right. exists (e :: es1), e1, es2, r. split; [easy|]. cbn [map]. repeat split.
        * constructor; [|easy]. intros Hin. apply (Hp _ Hin). apply in_or_app. right. now left.
        * intros k [<-|Hk]; [easy|]. intros Hin. apply (Hp _ Hk). apply in_or_app. now left.
        * intros e' [<-|He']; [now apply assign_good in Ea|auto].
        * rewrite <- app_assoc in Hst. exact Hst.
        * rewrite Hr. f_equal. f_equal. unfold gap_lines. cbn [map fold_right]. lia.
        * exact Hno.
      + right. exists [], e, es, (RErr er). cbn [app map].
        split; [easy|]. split; [constructor|]. split; [easy|]. split; [easy|]. split.
        * rewrite app_nil_r. right. split; [easy|]. right.
          destruct (known_dec (entry_key e)) as [H|H]; [|now rewrite kv_assign_none in Ea].
          apply in_map_iff in H as (f & Hf & Hin). exists f. split; [easy|]. split; [easy|].
          rewrite <- Hf in Ea. rewrite kv_assign_in in Ea by easy.
          destruct (f_from f (entry_value e) v) as [x|er'|p'] eqn:Ex; cbn in Ea; try easy.
          left. exists er'. split; [easy|]. congruence.
        * split; [|easy]. cbn. do 2 f_equal. lia.
      + right. exists [], e, es, (RPanic p). cbn [app map].
        split; [easy|]. split; [constructor|]. split; [easy|]. split; [easy|]. split.
        * rewrite app_nil_r. right. split; [easy|]. right.
          destruct (known_dec (entry_key e)) as [H|H]; [|now rewrite kv_assign_none in Ea].
          apply in_map_iff in H as (f & Hf & Hin). exists f. split; [easy|]. split; [easy|].
          rewrite <- Hf in Ea. rewrite kv_assign_in in Ea by easy.
          destruct (f_from f (entry_value e) v) as [x|er'|p'] eqn:Ex; cbn in Ea; try easy.
          right. exists p'. split; [easy|]. congruence.
        * split; [|easy]. cbn. easy.
      + right. exists [], e, es, (RErr (ke_key errs)). cbn [app map].
        split; [easy|]. split; [constructor|]. split; [easy|]. split; [easy|]. split.
        * rewrite app_nil_r. right. split; [easy|]. left. split; [|easy].
          intros H. apply in_map_iff in H as (f & Hf & Hin). rewrite <- Hf in Ea.
          now rewrite kv_assign_in in Ea.
        * split; [|easy]. cbn. do 2 f_equal. lia.
  Qed.
End Loop.
