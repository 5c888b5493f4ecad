(** The line an error of a key/value section is reported at. *)
From Coq Require Import String List NArith ZArith Bool Lia.
From Verif Require Import Str Num Nom Dec Parsers KeyValue Spec SpecKv SpecText StrFacts NumFacts NomFacts
  LineFacts KvFacts KvSem.
Import ListNotations.
Local Open Scope N_scope.

Inductive gap_lang : str -> Prop :=
| gl_nil : gap_lang []
| gl_nl w : gap_lang w -> gap_lang (10 :: w)
| gl_crnl w : gap_lang w -> gap_lang (13 :: 10 :: w).
Lemma unindented_suffix a b : unindented (a ++ b) = true -> unindented b = true.
Proof.
  induction a as [|c a IH]; [easy|]. cbn [app unindented]. intros H. apply andb_true_iff in H as [_ H]. auto.
Qed.
Lemma gap_lang_of w X :
  forallb ms_char w = true -> head_is blank_char (w ++ X) = false -> head_is ms_char X = false ->
  unindented (w ++ X) = true -> gap_lang w.
Proof.
  remember (length w) as n eqn:Hn. revert w Hn. induction n as [n IH] using lt_wf_ind. intros w ->.
  destruct w as [|c w]; [constructor|]. cbn [app forallb head_is unindented length]. intros Hm Hb HX Hu.
  apply andb_true_iff in Hm as [Hc Hm]. apply andb_true_iff in Hu as [Hu1 Hu].
  unfold ms_char in Hc. rewrite Hb in Hc. cbn [orb] in Hc. unfold break_char in Hc.
  apply orb_true_iff in Hc as [Hc|Hc]; apply N.eqb_eq in Hc; subst c.
  - cbn in Hu1. destruct w as [|d w].
    + cbn [app] in Hu1. exfalso. destruct X as [|d X]; [easy|]. cbn in Hu1, HX. apply N.eqb_eq in Hu1. now subst.
    + cbn in Hu1. apply N.eqb_eq in Hu1. subst d. constructor. cbn [app forallb unindented] in *.
      apply andb_true_iff in Hu as [Hu1 Hu]. apply andb_true_iff in Hm as [_ Hm].
      eapply (IH (length w)); [cbn; lia|easy|easy| |easy|easy]. now apply negb_true_iff in Hu1.
  - cbn in Hu1. apply negb_true_iff in Hu1. constructor. apply (IH (length w)); try easy. cbn; lia.
Qed.
Lemma lines_app_crnl l s : no_nl l = true -> lines (l ++ 13 :: 10 :: s) = l :: lines s.
Proof.
  induction l as [|c l IH]; intros Hn; [easy|]. simpl in Hn. apply andb_true_iff in Hn as [Hc Hn].
  cbn [app lines]. unfold c_nl, c_cr in *. apply negb_true_iff in Hc. rewrite Hc. rewrite (IH Hn).
  destruct l as [|d l]; cbn [app].
  - now rewrite andb_false_r.
  - simpl in Hn. apply andb_true_iff in Hn as [Hd _]. apply negb_true_iff in Hd. rewrite Hd.
    now rewrite andb_false_r.
Qed.
Lemma gap_lines_app w X : gap_lang w -> lines (w ++ X) = repeat [] (length (lines w)) ++ lines X.
Proof.
  induction 1 as [|w _ IH|w _ IH]; [easy|..]; cbn [app].
  - change (lines (10 :: w ++ X)) with ([] :: lines (w ++ X)). rewrite IH.
    now change (lines (10 :: w)) with ([] :: lines w).
  - change (lines (13 :: 10 :: w ++ X)) with ([] :: lines (w ++ X)). rewrite IH.
    now change (lines (13 :: 10 :: w)) with ([] :: lines w).
Qed.

Definition entry_line (e : kv_entry) : str := entry_key e ++ 58 :: entry_rest e.
Lemma entry_line_text e : entry_text e = entry_line e ++ entry_gap e.
Proof. unfold entry_text, entry_line. now rewrite <- app_assoc. Qed.
Lemma entry_line_no_nl e : entry_ok e = true -> no_nl (entry_line e) = true.
Proof.
  unfold entry_ok. rewrite !andb_true_iff. intros [[Hk Hr] _]. unfold no_nl, entry_line.
  rewrite forallb_app. apply andb_true_iff. split.
  - eapply forallb_impl; [|exact Hk]. intros c. cbn beta. unfold c_nl. now destruct (c =? 58), (c =? 10).
  - cbn [forallb]. change (negb (58 =? 10)) with true. cbn [andb].
    eapply forallb_impl; [|exact Hr]. intros c. unfold break_char. now destruct (c =? 13), (c =? 10).
Qed.
Lemma entry_line_end e : entry_ok e = true -> ends_with_char 13 (entry_line e) = false.
Proof.
  unfold entry_ok. rewrite !andb_true_iff. intros [[_ Hr] _]. unfold entry_line.
  rewrite ends_with_char_app by easy. destruct (entry_rest e) as [|c r] using rev_ind; [easy|].
  rewrite app_comm_cons, ends_with_char_app by easy. unfold rest_ok in Hr. rewrite forallb_app in Hr.
  apply andb_true_iff in Hr as [_ Hr]. cbn in Hr. unfold break_char in Hr.
  unfold ends_with_char. cbn. now destruct (c =? 13).
Qed.
(** The lines of one entry with a gap. *)
Lemma entry_lines e X :
  entry_ok e = true -> entry_gap e <> [] -> head_is ms_char X = false ->
  unindented (entry_text e ++ X) = true ->
  lines (entry_text e ++ X)
  = entry_line e :: repeat [] (length (lines (entry_gap e)) - 1) ++ lines X
  /\ (0 < length (lines (entry_gap e)))%nat.
Proof.
  intros He Hg HX Hu. rewrite entry_line_text in *. rewrite <- app_assoc in *.
  pose proof (unindented_suffix _ _ Hu) as Hu2.
  assert (Hgl : gap_lang (entry_gap e)).
  { unfold entry_ok in He. rewrite !andb_true_iff in He. destruct He as [_ He]. unfold gap_ok in He.
    apply andb_true_iff in He as [H1 H2]. apply (gap_lang_of _ X); try easy.
    destruct (entry_gap e) as [|c w]; [easy|]. cbn in H2 |- *. now apply break_not_blank. }
  pose proof (entry_line_no_nl e He) as Hn. pose proof (entry_line_end e He) as Hend.
  inversion Hgl as [Hw|w Hw Hw2|w Hw Hw2]; [now destruct Hg|..].
  - cbn [app]. rewrite lines_app_nl by easy. rewrite gap_lines_app by easy.
    change (lines (10 :: w)) with ([] :: lines w). cbn [length]. now rewrite Nat.sub_1_r, Nat.pred_succ; split; [|lia].
  - cbn [app]. rewrite lines_app_crnl by easy. rewrite gap_lines_app by easy.
    change (lines (13 :: 10 :: w)) with ([] :: lines w). cbn [length]. now rewrite Nat.sub_1_r, Nat.pred_succ; split; [|lia].
Qed.
Definition entries_lines (es : list kv_entry) : list str :=
  flat_map (fun e => entry_line e :: repeat [] (length (lines (entry_gap e)) - 1)) es.
Lemma all_entries_lines es X :
  (forall e, In e es -> entry_ok e = true /\ entry_gap e <> []) ->
  (forall e, In e (tl es) -> head_is ms_char (entry_key e) = false) ->
  head_is ms_char X = false -> unindented (kv_text es ++ X) = true ->
  lines (kv_text es ++ X) = entries_lines es ++ lines X
  /\ Z.of_nat (length (entries_lines es)) = gap_lines es.
Proof.
  induction es as [|e es IH]; intros Hok Hh HX Hu; [easy|].
  rewrite kv_text_cons, <- app_assoc in *. cbn [entries_lines flat_map].
  destruct (Hok e (or_introl eq_refl)) as [He Hg].
  assert (HX2 : head_is ms_char (kv_text es ++ X) = false).
  { destruct es as [|e' es]; [easy|]. rewrite kv_text_cons, <- app_assoc. apply entry_ms. apply Hh. now left. }
  destruct (entry_lines e (kv_text es ++ X) He Hg HX2 Hu) as [-> Hlen].
  destruct IH as [-> Hl]; try easy.
  - intros; apply Hok; now right.
  - intros e' He'. apply Hh. cbn [tl]. destruct es; [easy|]. now right.
  - now apply unindented_suffix in Hu.
  - fold (entries_lines es). split; [now rewrite app_comm_cons, app_assoc|].
    cbn [app length]. rewrite app_length, repeat_length. unfold gap_lines in *. cbn [map fold_right].
    rewrite <- Hl. unfold lines_count. lia.
Qed.
Lemma entries_lines_in es l : In l (entries_lines es) -> l = [] \/ exists e, In e es /\ l = entry_line e.
Proof.
  unfold entries_lines. intros H. apply in_flat_map in H as (e & He & [<-|H]).
  - right. eauto.
  - left. now apply repeat_spec in H.
Qed.
Lemma entries_lines_nth es m l : nth_error (entries_lines es) m = Some l ->
  l = [] \/ exists e, In e es /\ l = entry_line e.
Proof. intros H. apply entries_lines_in. now apply nth_error_In in H. Qed.
Lemma entries_lines_has es e : In e es -> exists m, nth_error (entries_lines es) m = Some (entry_line e).
Proof.
  intros H. apply In_nth_error. unfold entries_lines. apply in_flat_map. exists e. split; [easy|now left].
Qed.
Lemma line_key_entry e : entry_ok e = true -> line_key (entry_line e) = entry_key e.
Proof.
  unfold entry_ok. rewrite !andb_true_iff. intros [[Hk _] _]. unfold line_key, entry_line.
  rewrite span_app; [easy| |easy]. eapply forallb_impl; [|exact Hk]. intros c. cbn beta. now destruct (c =? 58), (c =? 10).
Qed.
Lemma entry_line_colon e : contains_char 58 (entry_line e) = true.
Proof. apply contains_char_spec. unfold entry_line. apply in_or_app. right. now left. Qed.
Lemma entries_ok_app es1 e es2 : entries_ok (es1 ++ e :: es2) = true ->
  (forall x, In x es1 -> entry_ok x = true /\ entry_gap x <> [])
  /\ (forall x, In x (tl (es1 ++ [e])) -> head_is ms_char (entry_key x) = false)
  /\ entries_ok (e :: es2) = true.
Proof.
  induction es1 as [|x es1 IH]; intros H.
  - cbn [app] in *. repeat split; try easy.
  - cbn [app entries_ok] in H. rewrite !andb_true_iff in H. destruct H as [[Hx H] Hn].
    destruct (IH H) as (I1 & I2 & I3).
    assert (Hnx : exists y l, es1 ++ e :: es2 = y :: l /\ In y (es1 ++ [e])).
    { destruct es1 as [|y l]; cbn [app]; [exists e, es2|exists y, (l ++ e :: es2)]; split; try easy; now left. }
    destruct Hnx as (y & l & Hy & _). rewrite Hy in Hn. apply andb_true_iff in Hn as [Hn1 Hn2].
    repeat split.
    + destruct H0 as [<-|H0]; [easy|]. now apply I1.
    + destruct H0 as [<-|H0]; [|now apply I1]. destruct (entry_gap x); easy.
    + cbn [app tl]. intros z Hz. apply negb_true_iff in Hn2.
      destruct es1 as [|y' es1]; cbn [app] in *.
      * destruct Hz as [<-|[]]. injection Hy as <- <-. exact Hn2.
      * injection Hy as <- <-. destruct Hz as [<-|Hz]; [exact Hn2|]. apply I2. exact Hz.
    + exact I3.
Qed.

Section ErrorLine.
  Context {S E : Type}.
  Variable errs : kv_errs E.
  Variable fields : list (field S E).
  Variable new : S.
  Hypothesis names : NoDup (map f_name fields).
  Notation from := (kv_from_str errs fields new).

  Definition single (e : kv_entry) : kv_entry := (entry_key e, entry_rest e, []).
  Lemma single_text e : entry_line e = kv_text [single e] ++ [].
  Proof.
    unfold kv_text, entry_text, single, entry_line, entry_key, entry_rest, entry_gap. cbn. now rewrite !app_nil_r.
  Qed.
  Lemma from_single e v : entry_ok e = true ->
    from (entry_line e) v = rmap Some (kv_loop errs fields v 0 [] new (map entry4 [single e])).
  Proof.
    intros He. rewrite (kv_from_str_eq errs fields new _ v [single e] [] (single_text e)); try easy.
    unfold entry_ok in He. rewrite !andb_true_iff in He. destruct He as [[H1 H2] _]. cbn [entries_ok].
    rewrite !andb_true_r. unfold entry_ok, single, entry_key, entry_rest, entry_gap in *. cbn [fst snd].
    now rewrite H1, H2.
  Qed.
  Lemma loop_single e v :
    kv_loop errs fields v 0 [] new (map entry4 [single e])
    = match kv_assign fields (entry_key e) (entry_value e) v new with
      | None => RErr (mk_line_err 0 (ke_key errs))
      | Some (RErr er) => RErr (mk_line_err 0 er)
      | Some (RPanic p) => RPanic p
      | Some (ROk sec) => ROk sec
      end.
  Proof. reflexivity. Qed.
  Lemma from_empty v : exists x, from [] v = ROk x.
  Proof. rewrite (kv_from_str_eq errs fields new [] v [] [] eq_refl); try easy. eexists. reflexivity. Qed.
  Lemma good_single e v : entry_ok e = true -> good_entry fields v e -> exists x, from (entry_line e) v = ROk x.
  Proof.
    intros He Hg. rewrite from_single by easy.
    destruct (kv_loop errs fields v 0 [] new (map entry4 [single e])) as [x|x|x] eqn:El; [now eexists| |];
    exfalso; assert (H : kv_loop errs fields v 0 [] new (map entry4 [single e]) = ROk (kv_fold fields v new [single e]));
    try congruence; (apply kv_loop_ok; [easy|]; repeat split; try easy;
      [repeat constructor; easy|intros e' [<-|[]]; exact Hg]).
  Qed.
  Lemma good_lines es v m l :
    (forall x, In x es -> entry_ok x = true) -> (forall x, In x es -> good_entry fields v x) ->
    nth_error (entries_lines es) m = Some l -> exists x, from l v = ROk x.
  Proof.
    intros Ho Hg H. apply entries_lines_nth in H as [->|(e & He & ->)]; [apply from_empty|].
    apply good_single; auto.
  Qed.
  Lemma kv_error_line s v i er :
    unindented s = true -> from s v = RErr (mk_line_err i er) ->
    exists n line, i = Z.of_nat n /\ nth_error (lines s) n = Some line
      /\ (er = ke_colon errs /\ contains_char 58 line = false
          /\ (forall m l, (m < n)%nat -> nth_error (lines s) m = Some l -> l = [] \/ contains_char 58 l = true)
          \/ (forall m l, (m < n)%nat -> nth_error (lines s) m = Some l -> exists x, from l v = ROk x)
             /\ contains_char 58 line = true
             /\ (from line v = RErr (mk_line_err 0 er)
                 \/ er = ke_dup errs /\ exists m l, (m < n)%nat /\ nth_error (lines s) m = Some l
                      /\ contains_char 58 l = true /\ line_key l = line_key line)).
  Proof.
    intros Hu. destruct (kv_lines_decompose (C:=unit) s) as (es & t & -> & He & Ht & _).
    rewrite (kv_from_str_eq errs fields new _ v es t eq_refl He Ht).
    destruct (is_blank t) eqn:Eb.
    - destruct (kv_loop_stop errs fields names v 0 [] new es)
        as [[sec' ->]|(es1 & e & es2 & r & -> & Hn & _ & Hg & Hst & -> & Hno)]; [easy|].
      intros Hi.
      destruct (entries_ok_app _ _ _ He) as (Ho1 & Hh & Ho2).
      assert (Hoe : entry_ok e = true).
      { cbn [entries_ok] in Ho2. rewrite !andb_true_iff in Ho2. easy. }
      set (X := kv_text (e :: es2) ++ t).
      assert (HX : kv_text (es1 ++ e :: es2) ++ t = kv_text es1 ++ X).
      { unfold X, kv_text. now rewrite map_app, concat_app, <- app_assoc. }
      rewrite HX in *.
      assert (HXl : exists ls, lines X = entry_line e :: ls).
      { unfold X. pose proof (unindented_suffix _ _ Hu) as HuX. unfold X in HuX.
        rewrite kv_text_cons, <- app_assoc in *. destruct (entry_gap e) as [|c w] eqn:Eg.
        - assert (Hnil : kv_text es2 ++ t = []).
          { cbn [entries_ok] in Ho2. rewrite !andb_true_iff in Ho2. destruct Ho2 as [_ H2].
            destruct es2 as [|e2 es2]; [|now rewrite Eg in H2]. cbn.
            unfold rest_after in Ht. destruct (es1 ++ [e]) eqn:E1; [now destruct es1|]. rewrite <- E1 in Ht.
            rewrite last_last, Eg in Ht. apply andb_true_iff in Ht as [_ Ht]. now destruct t. }
          rewrite Hnil, app_nil_r, entry_line_text, Eg, app_nil_r. exists [].
          apply lines_single; [now apply entry_line_no_nl|]. unfold entry_line. now destruct (entry_key e).
        - destruct (entry_lines e (kv_text es2 ++ t) Hoe) as [-> _]; [now rewrite Eg| |easy|eexists; reflexivity].
          destruct es2 as [|e2 es2].
          + cbn. unfold rest_after in Ht. destruct (es1 ++ [e]) eqn:E1; [now destruct es1|]. rewrite <- E1 in Ht.
            rewrite last_last in Ht. apply andb_true_iff in Ht as [_ Ht]. destruct t as [|d t]; [easy|].
            cbn [is_empty orb] in Ht. apply andb_true_iff in Ht as [_ Ht]. now apply negb_true_iff in Ht.
          + rewrite kv_text_cons, <- app_assoc. apply entry_ms.
            cbn [entries_ok] in Ho2. rewrite !andb_true_iff in Ho2. destruct Ho2 as [_ [_ Ho2]].
            now apply negb_true_iff in Ho2. }
      destruct HXl as [ls HXl].
      assert (Hlines : lines (kv_text es1 ++ X) = entries_lines es1 ++ lines X
                       /\ Z.of_nat (length (entries_lines es1)) = gap_lines es1).
      { destruct es1 as [|e1 es1]; [easy|]. apply all_entries_lines; try easy.
        - intros x Hx. apply Hh. cbn [app tl] in *. apply in_or_app. now left.
        - unfold X. rewrite kv_text_cons, <- app_assoc. apply entry_ms. apply Hh. cbn [app tl].
          apply in_or_app. right. now left. }
      destruct Hlines as [Hlines Hlen].
      exists (length (entries_lines es1)), (entry_line e).
      assert (Hnth : nth_error (lines (kv_text es1 ++ X)) (length (entries_lines es1)) = Some (entry_line e)).
      { rewrite Hlines, nth_error_app2, Nat.sub_diag by lia. now rewrite HXl. }
      destruct r as [x|er'|p]; [now destruct (Hno x)| |easy]. cbn [rmap_err rmap] in Hi. injection Hi as <- <-.
      split; [now rewrite Hlen|]. split; [easy|]. right.
      assert (Hbefore : forall m, (m < length (entries_lines es1))%nat ->
                nth_error (lines (kv_text es1 ++ X)) m = nth_error (entries_lines es1) m).
      { intros m Hm. rewrite Hlines. now apply nth_error_app1. }
      split; [|split].
      + intros m l Hm. rewrite (Hbefore m Hm). apply good_lines; [intros; now apply Ho1|exact Hg].
      + apply entry_line_colon.
      + cbn [app] in Hst. destruct Hst as [[Hdup Her]|[Hnd Hst]].
        * right. injection Her as ->. split; [easy|]. apply in_map_iff in Hdup as (e0 & Hk & He0).
          destruct (entries_lines_has es1 e0 He0) as [m Hm].
          assert (Hml : (m < length (entries_lines es1))%nat) by (apply nth_error_Some; congruence).
          exists m, (entry_line e0). split; [easy|]. rewrite (Hbefore m Hml). split; [easy|].
          split; [apply entry_line_colon|]. rewrite !line_key_entry; auto. now apply Ho1.
        * left. rewrite from_single by easy. rewrite loop_single.
          destruct Hst as [[Hunk Her]|(f & Hf & Hfn & [(er2 & Hx & Her)|(q & _ & Her)])]; [| |easy].
          -- injection Her as ->. rewrite kv_assign_none by easy. reflexivity.
          -- injection Her as ->. rewrite <- Hfn, kv_assign_in by easy. rewrite Hx. reflexivity.
    - intros [= <- <-].
      assert (Htn : t <> []) by (intros ->; easy).
      assert (Hc : contains_char 58 (first_line t) = false).
      { unfold rest_after in Ht. apply andb_true_iff in Ht as [Ht _]. now apply negb_true_iff in Ht. }
      assert (Htl : exists l ls, lines t = l :: ls /\ contains_char 58 l = false).
      { clear - Htn Hc. unfold first_line in Hc. destruct (span (fun c => negb (c =? 10)) t) as [a b] eqn:Es.
        apply span_spec in Es as (-> & Ha & Hb). cbn [fst] in Hc. change (no_nl a = true) in Ha.
        destruct b as [|d b].
        - rewrite app_nil_r in *. exists a, []. split; [|easy]. now apply lines_single.
        - apply negb_false_iff, N.eqb_eq in Hb. subst d.
          destruct (ends_with_char 13 a) eqn:Ea.
          + destruct a as [|c a'] using rev_ind; [easy|]. rewrite ends_with_char_app in Ea by easy.
            unfold ends_with_char in Ea. cbn in Ea. apply N.eqb_eq in Ea. subst c.
            rewrite <- app_assoc. cbn [app]. exists a', (lines b). split.
            * apply lines_app_crnl. unfold no_nl in *. rewrite forallb_app in Ha. now apply andb_true_iff in Ha.
            * destruct (contains_char 58 a') eqn:E'; [|easy]. apply contains_char_spec in E'.
              assert (Hx : contains_char 58 (a' ++ [13]) = true)
                by (apply contains_char_spec, in_or_app; now left). congruence.
          + exists a, (lines b). split; [now apply lines_app_nl|easy]. }
      destruct Htl as (l0 & ls & Hl & Hl0).
      assert (Hlines : lines (kv_text es ++ t) = entries_lines es ++ lines t
                       /\ Z.of_nat (length (entries_lines es)) = gap_lines es).
      { destruct es as [|e0 es0] eqn:Ees; [easy|]. rewrite <- Ees in *.
        assert (Hh2 : head_is ms_char t = false /\ entry_gap (last es ([],[],[])) <> []).
        { unfold rest_after in Ht. rewrite Ees in Ht. rewrite <- Ees in Ht. apply andb_true_iff in Ht as [_ Ht].
          destruct t as [|d t]; [easy|]. cbn [is_empty orb] in Ht. apply andb_true_iff in Ht as [Ht1 Ht2].
          split; [now apply negb_true_iff in Ht2|]. now destruct (entry_gap _). }
        destruct Hh2 as [Hh2 Hg2].
        assert (Hsplit : es = removelast es ++ [last es ([],[],[])]) by (apply app_removelast_last; now rewrite Ees).
        rewrite Hsplit in He. destruct (entries_ok_app _ _ _ He) as (Ho1 & Hh & Ho2). rewrite <- Hsplit in Hh.
        apply all_entries_lines; try easy.
        intros x Hx. rewrite Hsplit in Hx. apply in_app_or in Hx as [Hx|[<-|[]]]; [now apply Ho1|].
        split; [|easy]. cbn [entries_ok] in Ho2. rewrite !andb_true_iff in Ho2. easy. }
      destruct Hlines as [Hlines Hlen]. exists (length (entries_lines es)), l0.
      split; [easy|]. rewrite Hlines. split.
      { rewrite nth_error_app2, Nat.sub_diag by lia. now rewrite Hl. }
      left. split; [easy|]. split; [easy|]. intros m l Hm Hnth. rewrite nth_error_app1 in Hnth by easy.
      apply entries_lines_nth in Hnth as [->|(e & _ & ->)]; [now left|right; apply entry_line_colon].
  Qed.
End ErrorLine.

(** ** all the lines of an accepted text *)
Lemma lines_all es t :
  entries_ok es = true -> rest_after es t = true -> unindented (kv_text es ++ t) = true ->
  lines (kv_text es ++ t) = entries_lines es ++ lines t.
Proof.
  induction es as [|e es IH]; intros He Ht Hu; [easy|].
  cbn [entries_ok] in He. rewrite !andb_true_iff in He. destruct He as [[He Hes] Hn].
  rewrite kv_text_cons, <- app_assoc in *. cbn [entries_lines flat_map]. fold (entries_lines es).
  destruct es as [|e' es].
  - cbn [kv_text map concat app] in *. unfold rest_after in Ht. apply andb_true_iff in Ht as [_ Ht].
    cbn [last] in Ht. destruct (entry_gap e) as [|c w] eqn:Eg.
    + destruct t as [|d t]; [|easy]. rewrite app_nil_r, entry_line_text, Eg, app_nil_r. cbn.
      apply lines_single; [now apply entry_line_no_nl|]. unfold entry_line. now destruct (entry_key e).
    + rewrite <- Eg. destruct (entry_lines e t He) as [Hl _]; [now rewrite Eg| |easy|].
      * destruct t as [|d t]; [easy|]. cbn [is_empty orb] in Ht. apply andb_true_iff in Ht as [_ Ht].
        now apply negb_true_iff in Ht.
      * rewrite Hl. cbn [app]. now rewrite app_nil_r.
  - apply andb_true_iff in Hn as [Hn1 Hn2]. apply negb_true_iff in Hn2.
    destruct (entry_lines e (kv_text (e' :: es) ++ t) He) as [Hl _].
    + now destruct (entry_gap e).
    + rewrite kv_text_cons, <- app_assoc. now apply entry_ms.
    + easy.
    + rewrite Hl, IH; [|easy|exact Ht|now apply unindented_suffix in Hu].
      cbn [app]. now rewrite <- app_assoc.
Qed.
Lemma entries_lines_colon es :
  filter (contains_char 58) (entries_lines es) = map entry_line es.
Proof.
  induction es as [|e es IH]; [easy|]. cbn [entries_lines flat_map map app filter].
  rewrite entry_line_colon. f_equal. fold (entries_lines es). rewrite filter_app, IH.
  induction (length (lines (entry_gap e)) - 1)%nat; [easy|]. cbn. easy.
Qed.
Lemma blank_no_colon s : is_blank s = true -> contains_char 58 s = false.
Proof.
  rewrite is_blank_forallb. intros H. destruct (contains_char 58 s) eqn:Ec; [|easy].
  apply contains_char_spec in Ec. rewrite forallb_forall in H. specialize (H _ Ec). easy.
Qed.
Lemma lines_chars s l c : In l (lines s) -> In c l -> In c s.
Proof.
  revert l. induction s as [|d s IH]; intros l Hl Hc; [easy|]. cbn [lines] in Hl.
  destruct (d =? c_nl); [destruct Hl as [<-|Hl]; [easy|right; eauto]|].
  destruct (_ && _); [right; eauto|]. destruct (lines s) as [|l0 ls].
  - destruct Hl as [<-|[]]. destruct Hc as [<-|[]]. now left.
  - destruct Hl as [<-|Hl].
    + destruct Hc as [<-|Hc]; [now left|]. right. apply (IH l0); [now left|easy].
    + right. apply (IH l); [now right|easy].
Qed.
Lemma blank_lines s : is_blank s = true -> forall l, In l (lines s) -> is_blank l = true.
Proof.
  rewrite is_blank_forallb. intros H l Hl. rewrite is_blank_forallb. apply forallb_forall. intros c Hc.
  rewrite forallb_forall in H. apply H. now apply (lines_chars s l).
Qed.
Section Accepted.
  Context {S E : Type}.
  Variable errs : kv_errs E.
  Variable fields : list (field S E).
  Variable new : S.
  Hypothesis names : NoDup (map f_name fields).
  Notation from := (kv_from_str errs fields new).
  Lemma kv_accepted s v x : from s v = ROk x ->
    exists es t, s = kv_text es ++ t /\ entries_ok es = true /\ rest_after es t = true
      /\ is_blank t = true /\ NoDup (map entry_key es)
      /\ forall e, In e es -> In (entry_key e) (map f_name fields).
  Proof.
    destruct (kv_lines_decompose (C:=unit) s) as (es & t & Hs & He & Ht & _).
    rewrite (kv_from_str_eq errs fields new s v es t Hs He Ht).
    destruct (is_blank t) eqn:Eb; [|easy].
    destruct (kv_loop errs fields v 0 [] new (map entry4 es)) as [sec'|?|?] eqn:El; try easy.
    apply kv_loop_ok in El; [|easy]. destruct El as (Hn & _ & Hg & _). intros _.
    exists es, t. repeat split; auto. intros e Hin. destruct (Hg e Hin) as (f & y & Hf & <- & _). now apply in_map.
  Qed.
  Lemma kv_accepted_lines s v x : unindented s = true -> from s v = ROk x ->
    NoDup (map line_key (filter (contains_char 58) (lines s)))
    /\ (forall l, In l (lines s) -> contains_char 58 l = true -> In (line_key l) (map f_name fields))
    /\ (forall l, In l (lines s) -> contains_char 58 l = false -> is_blank l = true).
  Proof.
    intros Hu H. apply kv_accepted in H as (es & t & -> & He & Ht & Hb & Hn & Hk).
    assert (Hok : forall e, In e es -> entry_ok e = true).
    { clear - He. induction es as [|e es IH]; [easy|]. cbn [entries_ok] in He. rewrite !andb_true_iff in He.
      destruct He as [[He Hes] _]. intros x [<-|Hx]; auto. }
    rewrite lines_all by easy.
    assert (Hf : filter (contains_char 58) (lines t) = []).
    { clear - Hb. pose proof (blank_lines t Hb) as H. induction (lines t) as [|l ls IH]; [easy|].
      cbn [filter]. rewrite (blank_no_colon l) by (apply H; now left). apply IH. intros; apply H; now right. }
    split; [|split].
    - rewrite filter_app, entries_lines_colon, Hf, app_nil_r, map_map.
      erewrite map_ext_in; [exact Hn|]. intros e Hin. apply line_key_entry. auto.
    - intros l Hin Hc. apply in_app_or in Hin as [Hin|Hin].
      + apply entries_lines_in in Hin as [->|(e & Hin & ->)]; [easy|]. rewrite line_key_entry by auto. auto.
      + rewrite (blank_no_colon l) in Hc by now apply (blank_lines t). easy.
    - intros l Hin Hc. apply in_app_or in Hin as [Hin|Hin].
      + apply entries_lines_in in Hin as [->|(e & Hin & ->)]; [easy|]. now rewrite entry_line_colon in Hc.
      + now apply (blank_lines t).
  Qed.
  Lemma kv_duplicate es t v : entries_ok es = true -> rest_after es t = true ->
    ~ NoDup (map entry_key es) \/ (exists e, In e es /\ ~ In (entry_key e) (map f_name fields)) ->
    forall x, from (kv_text es ++ t) v <> ROk x.
  Proof.
    intros He Ht Hbad x. rewrite (kv_from_str_eq errs fields new _ v es t eq_refl He Ht).
    destruct (is_blank t); [|easy].
    destruct (kv_loop errs fields v 0 [] new (map entry4 es)) as [sec'|?|?] eqn:El; try easy.
    apply kv_loop_ok in El; [|easy]. destruct El as (Hn & _ & Hg & _). intros _.
    destruct Hbad as [Hbad|(e & Hin & Hbad)]; [easy|].
    destruct (Hg e Hin) as (f & y & Hf & Hk & _). apply Hbad. rewrite <- Hk. now apply in_map.
  Qed.
End Accepted.
