(** What a key/value section means, from the laws of its fields. *)
From Coq Require Import String List NArith ZArith Bool Lia Permutation.
From Verif Require Import Str Num Nom Dec Parsers KeyValue Spec SpecKv SpecText StrFacts NumFacts NomFacts
  LineFacts KvFacts LayoutFacts.
Import ListNotations.
Local Open Scope N_scope.

Definition find_key (k : str) (es : list kv_entry) : option kv_entry :=
  find (fun e => str_eqb (entry_key e) k) es.
Lemma find_key_some k es e : find_key k es = Some e -> In e es /\ entry_key e = k.
Proof. intros H. apply find_some in H as [H1 H2]. now apply str_eqb_eq in H2. Qed.
Lemma find_key_none k es : find_key k es = None <-> ~ In k (map entry_key es).
Proof.
  split.
  - intros H Hin. apply in_map_iff in Hin as (e & <- & He).
    pose proof (find_none _ _ H e He) as Hf. cbn in Hf. now rewrite str_eqb_refl in Hf.
  - intros H. unfold find_key. destruct (find _ es) as [e|] eqn:Ef; [|easy].
    apply find_some in Ef as [H1 H2]. apply str_eqb_eq in H2. exfalso. apply H. rewrite <- H2. now apply in_map.
Qed.
Lemma find_key_in k es e :
  NoDup (map entry_key es) -> In e es -> entry_key e = k -> find_key k es = Some e.
Proof.
  intros Hn Hin Hk. unfold find_key. induction es as [|e' es IH]; [easy|]. cbn [find].
  cbn [map] in Hn. apply NoDup_cons_iff in Hn as [H1 H2]. destruct Hin as [->|Hin].
  - subst k. now rewrite str_eqb_refl.
  - destruct (str_eqb (entry_key e') k) eqn:Ek; [|now apply IH].
    apply str_eqb_eq in Ek. exfalso. apply H1. rewrite Ek, <- Hk. now apply in_map.
Qed.

Section Sem.
  Context {S E : Type}.
  Variable errs : kv_errs E.
  Variable fields : list (field S E).
  Variable new : S.
  Variable spacing : str -> version -> str.
  Record field_laws : Prop := {
    law_names : NoDup (map f_name fields);
    law_get_set : forall f x s, In f fields -> f_get f (f_set f x s) = x;
    law_get_other : forall f g x s, In f fields -> In g fields -> f_name f <> f_name g ->
      f_get g (f_set f x s) = f_get g s;
    law_ext : forall s1 s2, (forall f, In f fields -> f_get f s1 = f_get f s2) -> s1 = s2;
    law_new : forall f, In f fields -> f_get f new = None;
    law_key : forall f, In f fields ->
      key_ok (f_name f) = true /\ head_is ms_char (f_name f) = false;
    law_spacing : forall k v, forallb blank_char (spacing k v) = true }.
  Hypothesis laws : field_laws.

  (** The value of a field, from the entries. *)
  Definition value_at (f : field S E) (v : version) (es : list kv_entry) : option (f_ty f) :=
    match find_key (f_name f) es with
    | Some e => match f_from f (entry_value e) v with ROk x => x | _ => None end
    | None => None
    end.
  Lemma same_name f g : In f fields -> In g fields -> f_name f = f_name g -> f = g.
  Proof.
    pose proof (law_names laws) as Hn. revert Hn. clear laws. induction fields as [|h fs IH]; [easy|].
    cbn [map In]. intros Hn Hf Hg Heq. apply NoDup_cons_iff in Hn as [H1 H2].
    destruct Hf as [->|Hf], Hg as [->|Hg]; [easy|..|auto].
    - exfalso. apply H1. rewrite Heq. now apply in_map.
    - exfalso. apply H1. rewrite <- Heq. now apply in_map.
  Qed.
  Lemma kv_fold_get v es sec f :
    In f fields -> NoDup (map entry_key es) -> (forall e, In e es -> good_entry fields v e) ->
    f_get f (kv_fold fields v sec es)
    = match find_key (f_name f) es with
      | Some e => match f_from f (entry_value e) v with ROk x => x | _ => None end
      | None => f_get f sec
      end.
  Proof.
    intros Hf. revert sec. induction es as [|e es IH]; intros sec Hn Hg; [easy|].
    cbn [map] in Hn. apply NoDup_cons_iff in Hn as [Hn1 Hn2]. cbn [kv_fold].
    rewrite IH; [|easy|intros; apply Hg; now right].
    destruct (Hg e (or_introl eq_refl)) as (g & x & Hgin & Hgn & Hgx).
    rewrite <- Hgn. rewrite (kv_assign_in fields g) by (easy || apply (law_names laws)).
    rewrite Hgx. cbn [rmap]. unfold find_key. cbn [find]. rewrite <- Hgn.
    destruct (str_eqb (f_name g) (f_name f)) eqn:En.
    - apply str_eqb_eq in En. pose proof (same_name g f Hgin Hf En) as <-. rewrite Hgx.
      fold (find_key (f_name g) es).
      assert (Hnone : find_key (f_name g) es = None) by (apply find_key_none; now rewrite Hgn).
      rewrite Hnone. now apply (law_get_set laws).
    - fold (find_key (f_name f) es). destruct (find_key (f_name f) es); [easy|].
      apply (law_get_other laws); try easy. intros Heq. rewrite Heq, str_eqb_refl in En. easy.
  Qed.
  Lemma kv_from_str_ok s v sec :
    kv_from_str errs fields new s v = ROk (Some sec) <->
    exists es t, s = kv_text es ++ t /\ entries_ok es = true /\ rest_after es t = true
      /\ is_blank t = true /\ NoDup (map entry_key es) /\ (forall e, In e es -> good_entry fields v e)
      /\ forall f, In f fields -> f_get f sec = value_at f v es.
  Proof.
    assert (Hval : forall es, NoDup (map entry_key es) -> (forall e, In e es -> good_entry fields v e) ->
              forall f, In f fields -> f_get f (kv_fold fields v new es) = value_at f v es).
    { intros es Hn Hg f Hf. rewrite kv_fold_get by easy. unfold value_at.
      destruct (find_key (f_name f) es); [easy|]. now apply (law_new laws). }
    split.
    - destruct (kv_lines_decompose (C:=unit) s) as (es & t & Hs & He & Ht & _).
      rewrite (kv_from_str_eq errs fields new s v es t Hs He Ht).
      destruct (is_blank t) eqn:Eb; [|easy].
      destruct (kv_loop errs fields v 0 [] new (map entry4 es)) as [sec'|?|?] eqn:El; try easy.
      cbn [rmap]. intros [= ->]. apply kv_loop_ok in El; [|apply (law_names laws)].
      destruct El as (Hn & _ & Hg & ->). exists es, t. repeat split; auto.
    - intros (es & t & Hs & He & Ht & Hb & Hn & Hg & Hf).
      rewrite (kv_from_str_eq errs fields new s v es t Hs He Ht), Hb.
      assert (El : kv_loop errs fields v 0 [] new (map entry4 es) = ROk (kv_fold fields v new es)).
      { apply kv_loop_ok; [apply (law_names laws)|]. repeat split; auto. }
      rewrite El. cbn [rmap]. do 2 f_equal. apply (law_ext laws). intros f Hin. rewrite Hf by easy. now apply Hval.
  Qed.
  Lemma kv_from_str_some s v : kv_from_str errs fields new s v <> ROk None.
  Proof.
    destruct (kv_lines_decompose (C:=unit) s) as (es & t & Hs & He & Ht & _).
    rewrite (kv_from_str_eq errs fields new s v es t Hs He Ht).
    destruct (is_blank t); [|easy]. destruct (kv_loop _ _ _ _ _ _ _); easy.
  Qed.
  Lemma kv_from_str_np s v p :
    (forall f, In f fields -> forall x q, f_from f x v <> RPanic q) ->
    kv_from_str errs fields new s v <> RPanic p.
  Proof.
    intros Hnp. destruct (kv_lines_decompose (C:=unit) s) as (es & t & Hs & He & Ht & _).
    rewrite (kv_from_str_eq errs fields new s v es t Hs He Ht).
    destruct (is_blank t); [|easy].
    destruct (kv_loop_stop errs fields (law_names laws) v 0 [] new es)
      as [[sec' ->]|(es1 & e & es2 & r & _ & _ & _ & _ & Hst & -> & _)]; [easy|].
    destruct Hst as [[_ ->]|[_ [[_ ->]|(f & Hf & _ & [(er & _ & ->)|(q & Hq & ->)])]]]; try easy.
    now apply Hnp in Hq.
  Qed.

  (** *** order of the entries *)
  Lemma entries_rest_nil es : rest_after es [] = true.
  Proof. unfold rest_after. cbn. now destruct es. Qed.
  Definition key_value (e : kv_entry) : str * str := (entry_key e, entry_value e).
  Lemma kv_permutation es es' v sec :
    entries_ok es = true -> entries_ok es' = true ->
    Permutation (map key_value es) (map key_value es') ->
    kv_from_str errs fields new (kv_text es) v = ROk (Some sec) ->
    kv_from_str errs fields new (kv_text es') v = ROk (Some sec).
  Proof.
    intros He He' Hp H.
    rewrite <- (app_nil_r (kv_text es)) in H.
    rewrite (kv_from_str_eq errs fields new _ v es [] eq_refl He (entries_rest_nil es)) in H.
    cbn [is_blank] in H. change (is_blank []) with true in H. cbn iota in H.
    destruct (kv_loop errs fields v 0 [] new (map entry4 es)) as [sec'|?|?] eqn:El; try easy.
    cbn [rmap] in H. injection H as ->. apply kv_loop_ok in El; [|apply (law_names laws)].
    destruct El as (Hn & _ & Hg & ->).
    assert (Hk : Permutation (map entry_key es) (map entry_key es')).
    { apply (Permutation_map fst) in Hp. rewrite !map_map in Hp. exact Hp. }
    assert (Hn' : NoDup (map entry_key es')) by now apply (Permutation_NoDup Hk).
    assert (Hin : forall e', In e' es' -> exists e, In e es /\ entry_key e = entry_key e'
                    /\ entry_value e = entry_value e').
    { intros e' He1. apply (in_map key_value) in He1. apply (Permutation_in _ (Permutation_sym Hp)) in He1.
      apply in_map_iff in He1 as (e & Heq & He1). exists e. split; [easy|]. now injection Heq. }
    apply kv_from_str_ok. exists es', []. rewrite app_nil_r.
    split; [easy|]. split; [easy|]. split; [apply entries_rest_nil|]. split; [easy|]. split; [easy|].
    split.
    - intros e' He1. destruct (Hin e' He1) as (e & He2 & Hk1 & Hv1).
      destruct (Hg e He2) as (f & x & Hf & Hfn & Hx). exists f, x. rewrite <- Hk1, <- Hv1. easy.
    - intros f Hf. rewrite kv_fold_get by easy. unfold value_at.
      destruct (find_key (f_name f) es') as [e'|] eqn:E'.
      + apply find_key_some in E' as [H1 H2]. destruct (Hin e' H1) as (e & He2 & Hk1 & Hv1).
        rewrite (find_key_in (f_name f) es e) by (easy || congruence). now rewrite Hv1.
      + apply find_key_none in E'.
        assert (E2 : find_key (f_name f) es = None).
        { apply find_key_none. intros Hx. apply E'. now apply (Permutation_in _ Hk). }
        rewrite E2. now apply (law_new laws).
  Qed.

  (** *** printing *)
  (** Lines [key:rest] put together. *)
  Definition kr_line (x : str * str) : str := fst x ++ 58 :: snd x.
  Fixpoint with_gaps (l : list (str * str)) : list kv_entry :=
    match l with
    | [] => []
    | [x] => [(x, [])]
    | x :: l' => (x, [10]) :: with_gaps l'
    end.
  Lemma with_gaps_text l : kv_text (with_gaps l) = text_of_lines (map kr_line l).
  Proof.
    induction l as [|x l IH]; [easy|]. destruct l as [|y l].
    - unfold kv_text, entry_text, entry_key, entry_rest, entry_gap. cbn. now rewrite !app_nil_r.
    - change (with_gaps (x :: y :: l)) with ((x, [10]) :: with_gaps (y :: l)).
      rewrite kv_text_cons, IH. unfold entry_text, entry_key, entry_rest, entry_gap. cbn [fst snd].
      change (text_of_lines (map kr_line (x :: y :: l)))
        with (kr_line x ++ 10 :: text_of_lines (map kr_line (y :: l))).
      unfold kr_line at 2. rewrite <- !app_assoc. cbn [app]. now rewrite <- !app_assoc.
  Qed.
  Lemma with_gaps_map l : map fst (with_gaps l) = l.
  Proof.
    induction l as [|x l IH]; [easy|]. destruct l as [|y l]; [easy|].
    change (with_gaps (x :: y :: l)) with ((x, [10]) :: with_gaps (y :: l)). cbn [map fst]. now rewrite IH.
  Qed.
  Lemma with_gaps_ok l :
    (forall x, In x l -> key_ok (fst x) = true /\ head_is ms_char (fst x) = false /\ rest_ok (snd x) = true) ->
    entries_ok (with_gaps l) = true.
  Proof.
    induction l as [|x l IH]; intros H; [easy|].
    destruct (H x (or_introl eq_refl)) as (H1 & H2 & H3). destruct l as [|y l].
    - cbn. unfold entry_ok, entry_key, entry_rest, entry_gap. cbn [fst snd]. now rewrite H1, H3.
    - change (with_gaps (x :: y :: l)) with ((x, [10]) :: with_gaps (y :: l)).
      destruct (H y (or_intror (or_introl eq_refl))) as (_ & Hy & _). unfold ms_char in Hy.
      assert (Hw : exists g, with_gaps (y :: l) = (y, g) :: tl (with_gaps (y :: l))).
      { destruct l; [now exists []|now exists [10]]. }
      destruct Hw as [g Hw].
      cbn [entries_ok]. rewrite IH by (intros; apply H; now right). rewrite Hw.
      unfold entry_ok, entry_key, entry_rest, entry_gap. cbn [fst snd]. rewrite H1, H3, Hy. easy.
  Qed.
  Lemma with_gaps_in l e : In e (with_gaps l) -> In (fst e) l.
  Proof. intros H. rewrite <- (with_gaps_map l). now apply in_map. Qed.
  Lemma with_gaps_keys l : map entry_key (with_gaps l) = map fst l.
  Proof. rewrite <- (with_gaps_map l) at 2. now rewrite map_map. Qed.

  (** The key and the text after the colon of the printed fields. *)
  Definition field_kr (v : version) (sec : S) (f : field S E) : option (str * str) :=
    match f_get f sec with
    | Some x => match f_to f x v with
                | Some t => Some (f_name f, spacing (f_name f) v ++ t)
                | None => None
                end
    | None => None
    end.
  Lemma kv_to_string_text sec v :
    kv_to_string fields spacing sec v
    = Some (text_of_lines (map kr_line (flatten_opt (map (field_kr v sec) fields)))).
  Proof.
    unfold kv_to_string. rewrite text_of_lines_join. do 2 f_equal.
    clear. induction fields as [|f fs IH]; [easy|]. cbn [map]. unfold flatten_opt in *. cbn [flat_map].
    rewrite IH, map_app. f_equal. unfold kv_field_line, field_kr.
    destruct (f_get f sec) as [x|]; [|easy]. now destruct (f_to f x v).
  Qed.
  Lemma skip_blanks_app a t :
    forallb blank_char a = true -> head_is blank_char t = false -> skip_blanks (a ++ t) = t.
  Proof.
    intros Ha Ht. induction a as [|c a IH]; cbn [app].
    - destruct t as [|c t]; [easy|]. cbn in *. now rewrite Ht.
    - cbn in *. apply andb_true_iff in Ha as [-> Ha]. auto.
  Qed.
  Lemma blanks_rest_ok a : forallb blank_char a = true -> rest_ok a = true.
  Proof.
    intros H. eapply forallb_impl; [|exact H]. intros c Hc. now rewrite blank_not_break.
  Qed.
  (** The field prints [x] as a text it reads as [y]. *)
  Definition field_rt (f : field S E) (v : version) (x : f_ty f) (y : option (f_ty f)) : Prop :=
    match f_to f x v with
    | None => y = None
    | Some t => rest_ok t = true /\ head_is blank_char t = false /\ f_from f t v = ROk y
    end.
  Lemma field_kr_in v sec l kr :
    (forall f, In f l -> In f fields) ->
    In kr (flatten_opt (map (field_kr v sec) l)) ->
    exists f x t, In f l /\ f_get f sec = Some x /\ f_to f x v = Some t
      /\ kr = (f_name f, spacing (f_name f) v ++ t).
  Proof.
    intros Hsub. induction l as [|f l IH]; [easy|]. cbn [map]. unfold flatten_opt in *. cbn [flat_map].
    intros H. apply in_app_or in H as [H|H].
    - unfold field_kr in H. destruct (f_get f sec) as [x|] eqn:Ex; [|easy].
      destruct (f_to f x v) as [t|] eqn:Et; [|easy]. destruct H as [<-|[]].
      exists f, x, t. repeat split; auto. now left.
    - destruct IH as (g & x & t & Hin & H'); [intros; apply Hsub; now right|easy|].
      exists g, x, t. split; [now right|easy].
  Qed.
  Lemma field_kr_keys v sec l :
    NoDup (map f_name l) -> NoDup (map fst (flatten_opt (map (field_kr v sec) l))).
  Proof.
    induction l as [|f l IH]; intros Hn; [constructor|]. cbn [map] in *. unfold flatten_opt in *. cbn [flat_map].
    apply NoDup_cons_iff in Hn as [H1 H2]. specialize (IH H2).
    unfold field_kr at 1. destruct (f_get f sec) as [x|]; [|easy]. destruct (f_to f x v) as [t|]; [|easy].
    cbn [app map fst]. constructor; [|easy]. intros Hin. apply H1.
    clear - Hin. induction l as [|g l IH]; [easy|]. cbn [map flat_map] in *.
    rewrite map_app in Hin. apply in_app_or in Hin as [Hin|Hin]; [|right; auto]. left.
    unfold field_kr in Hin. destruct (f_get g sec); [|easy]. destruct (f_to g _ v); [|easy].
    now destruct Hin as [<-|[]].
  Qed.
  Lemma kv_round_trip sec sec' v :
    (forall f x, In f fields -> f_get f sec = Some x -> field_rt f v x (f_get f sec')) ->
    (forall f, In f fields -> f_get f sec = None -> f_get f sec' = None) ->
    exists t, kv_to_string fields spacing sec v = Some t
              /\ kv_from_str errs fields new t v = ROk (Some sec').
  Proof.
    intros Hrt Hnone. eexists. split; [apply kv_to_string_text|].
    set (l := flatten_opt (map (field_kr v sec) fields)).
    assert (Hl : forall kr, In kr l -> exists f x t, In f fields /\ f_get f sec = Some x /\ f_to f x v = Some t
      /\ kr = (f_name f, spacing (f_name f) v ++ t)).
    { intros kr Hkr. apply field_kr_in in Hkr; auto. }
    assert (Hkeys : NoDup (map fst l)) by (apply field_kr_keys, (law_names laws)).
    apply kv_from_str_ok. exists (with_gaps l), []. rewrite app_nil_r, with_gaps_text.
    assert (Hval : forall e, In e (with_gaps l) -> exists f x t, In f fields /\ f_get f sec = Some x
              /\ f_to f x v = Some t /\ entry_key e = f_name f /\ entry_value e = t
              /\ f_from f t v = ROk (f_get f sec')).
    { intros e He. apply with_gaps_in in He. destruct (Hl _ He) as (f & x & t & Hf & Hx & Ht & Hkr).
      pose proof (Hrt f x Hf Hx) as Hr. unfold field_rt in Hr. rewrite Ht in Hr. destruct Hr as (H1 & H2 & H3).
      exists f, x, t. unfold entry_key, entry_value, entry_rest. rewrite Hkr. cbn [fst snd].
      repeat split; auto. apply skip_blanks_app; [apply (law_spacing laws)|easy]. }
    split; [easy|]. split; [|split; [apply entries_rest_nil|split; [easy|split; [|split]]]].
    - apply with_gaps_ok. intros kr Hkr. destruct (Hl _ Hkr) as (f & x & t & Hf & Hx & Ht & ->). cbn [fst snd].
      destruct (law_key laws f Hf) as [H1 H2]. split; [easy|]. split; [easy|].
      pose proof (Hrt f x Hf Hx) as Hr. unfold field_rt in Hr. rewrite Ht in Hr. destruct Hr as (H3 & _ & _).
      unfold rest_ok in *. rewrite forallb_app. apply andb_true_iff. split; [|easy].
      apply blanks_rest_ok, (law_spacing laws).
    - now rewrite with_gaps_keys.
    - intros e He. destruct (Hval e He) as (f & x & t & Hf & Hx & Ht & Hk & Hv & Hr).
      exists f, (f_get f sec'). rewrite Hk, Hv. easy.
    - intros f Hf. unfold value_at. destruct (find_key (f_name f) (with_gaps l)) as [e|] eqn:Ef.
      + apply find_key_some in Ef as [He Hk]. destruct (Hval e He) as (g & x & t & Hg & Hx & Ht & Hk2 & Hv & Hr).
        rewrite Hk in Hk2. pose proof (same_name f g Hf Hg Hk2) as <-. rewrite Hv, Hr. easy.
      + destruct (f_get f sec) as [x|] eqn:Ex; [|now apply Hnone].
        pose proof (Hrt f x Hf Ex) as Hr. unfold field_rt in Hr.
        destruct (f_to f x v) as [t|] eqn:Et; [|easy].
        exfalso. apply find_key_none in Ef. apply Ef. rewrite with_gaps_keys.
        apply in_map_iff. exists (f_name f, spacing (f_name f) v ++ t). split; [easy|].
        unfold l. clear - Hf Ex Et. induction fields as [|g fs IH]; [easy|].
        unfold flatten_opt in *. cbn [map flat_map]. apply in_or_app. destruct Hf as [->|Hf]; [|right; auto].
        left. unfold field_kr. rewrite Ex, Et. now left.
  Qed.

  (** *** what is read *)
  Lemma value_rest_ok es e :
    entries_ok es = true -> In e es ->
    rest_ok (entry_value e) = true /\ head_is blank_char (entry_value e) = false.
  Proof.
    intros H Hin. assert (He : entry_ok e = true).
    { revert H. induction es as [|e' es IH]; [easy|]. cbn [entries_ok]. rewrite !andb_true_iff.
      intros [[H1 H2] _]. destruct Hin as [->|Hin]; auto. }
    unfold entry_ok in He. rewrite !andb_true_iff in He. destruct He as [[_ Hr] _].
    unfold entry_value. split; [now apply skip_blanks_ok|].
    clear. induction (entry_rest e) as [|c r IH]; [easy|]. cbn. destruct (blank_char c) eqn:Ec; [easy|].
    cbn. exact Ec.
  Qed.
  Lemma kv_read_value s v sec f x :
    kv_from_str errs fields new s v = ROk (Some sec) -> In f fields -> f_get f sec = Some x ->
    exists t, rest_ok t = true /\ head_is blank_char t = false /\ f_from f t v = ROk (Some x).
  Proof.
    intros H Hf Hx. apply kv_from_str_ok in H as (es & t & _ & He & _ & _ & _ & Hg & Hv).
    rewrite (Hv f Hf) in Hx. unfold value_at in Hx.
    destruct (find_key (f_name f) es) as [e|] eqn:Ef; [|easy]. apply find_key_some in Ef as [Hin _].
    destruct (f_from f (entry_value e) v) as [y|?|?] eqn:Ey; try easy. subst y.
    exists (entry_value e). destruct (value_rest_ok es e He Hin). auto.
  Qed.
End Sem.
