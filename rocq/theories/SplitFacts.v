(** Facts about [split_on] and about separated lists whose items are what a separator
    splits off. *)
From Coq Require Import String List NArith ZArith Bool Lia.
From Verif Require Import Str Num Nom Dec Parsers KeyValue KvFields Spec StrFacts NumFacts NomFacts LineFacts.
Import ListNotations.
Local Open Scope N_scope.

Definition lacks (c : char) (s : str) : bool := forallb (fun d => negb (d =? c)) s.
Lemma split_on_nonempty c s : split_on c s <> [].
Proof. destruct s as [|d s]; cbn; [easy|]. destruct (d =? c); [easy|]. now destruct (split_on c s). Qed.
Lemma split_on_lacks c s : forallb (lacks c) (split_on c s) = true.
Proof.
  induction s as [|d s IH]; [easy|]. cbn [split_on]. destruct (d =? c) eqn:E; [easy|].
  destruct (split_on c s) as [|x l]; cbn in *; rewrite E; [easy|exact IH].
Qed.
Lemma split_on_join c s : join [c] (split_on c s) = s.
Proof.
  induction s as [|d s IH]; [easy|]. cbn [split_on]. destruct (d =? c) eqn:E.
  - apply N.eqb_eq in E. subst d. rewrite join_cons by apply split_on_nonempty. now rewrite IH.
  - destruct (split_on c s) as [|x l] eqn:El; [now apply split_on_nonempty in El|].
    destruct l as [|y l].
    + cbn in *. now rewrite IH.
    + change (join [c] ((d :: x) :: y :: l)) with (d :: join [c] (x :: y :: l)). now rewrite IH.
Qed.
Lemma split_lacks c x : lacks c x = true -> split_on c x = [x].
Proof.
  induction x as [|d x IH]; [easy|]. cbn. intros H. apply andb_true_iff in H as [Hd Hx].
  apply negb_true_iff in Hd. rewrite Hd. now rewrite IH.
Qed.
Lemma split_cons c x s : lacks c x = true -> split_on c (x ++ c :: s) = x :: split_on c s.
Proof.
  induction x as [|d x IH]; cbn [app split_on].
  - now rewrite N.eqb_refl.
  - cbn. intros H. apply andb_true_iff in H as [Hd Hx].
    apply negb_true_iff in Hd. rewrite Hd. now rewrite IH.
Qed.
Lemma join_split c l : l <> [] -> forallb (lacks c) l = true -> split_on c (join [c] l) = l.
Proof.
  intros Hne. induction l as [|x l IH]; [easy|]. cbn [forallb]. intros H. apply andb_true_iff in H as [Hx Hl].
  destruct l as [|y l]; [now apply split_lacks|].
  rewrite join_cons by easy. cbn [app]. rewrite split_cons by easy. now rewrite IH.
Qed.
Lemma join_tail c x l : join [c] (x :: l) = x ++ flat_map (fun y => c :: y) l.
Proof.
  revert x. induction l as [|y l IH]; intros x; [cbn; now rewrite app_nil_r|].
  rewrite join_cons by easy. rewrite IH. easy.
Qed.

Section Sep.
  Context {C A E : Type}.
  Variable c : char.
  Variable g : str -> res A E.
  Hypothesis g_np : forall x p, g x <> RPanic p.
  Let p : parser C A := map_res (take_till (fun d => d =? c)) g.
  (** The items read and the items left. *)
  Fixpoint take_ok (l : list str) : list A * list str :=
    match l with
    | [] => ([], [])
    | x :: l' => match g x with
                 | ROk y => (y :: fst (take_ok l'), snd (take_ok l'))
                 | _ => ([], l)
                 end
    end.
  Lemma sep_item x l : lacks c x = true ->
    p (x ++ flat_map (fun y => c :: y) l)
    = match g x with
      | ROk y => POk (flat_map (fun y => c :: y) l) y
      | RErr _ => kerr KMapRes
      | RPanic q => PPanic q
      end.
  Proof.
    intros Hx. unfold p, map_res, take_till, take_while.
    rewrite (span_app _ x (flat_map (fun y => c :: y) l)); [easy|exact Hx|].
    destruct l as [|y l]; [easy|]. cbn [flat_map app]. apply span_stop. now rewrite N.eqb_refl.
  Qed.
  Lemma sep_tail_items l fuel :
    forallb (lacks c) l = true -> (length l < fuel)%nat ->
    sep_tail fuel (tag [c]) p (flat_map (fun y => c :: y) l)
    = POk (flat_map (fun y => c :: y) (snd (take_ok l))) (fst (take_ok l)).
  Proof.
    revert fuel. induction l as [|x l IH]; intros [|fuel] Hl Hf; try (cbn in Hf; lia).
    - easy.
    - cbn [forallb] in Hl. apply andb_true_iff in Hl as [Hx Hl]. cbn [flat_map app sep_tail].
      unfold tag at 1. cbn [strip_prefix]. rewrite N.eqb_refl.
      assert (Hlen : Nat.eqb (length (x ++ flat_map (fun y => c :: y) l))
                       (length (c :: x ++ flat_map (fun y => c :: y) l)) = false).
      { apply Nat.eqb_neq. cbn. lia. }
      rewrite Hlen, sep_item by easy. cbn [take_ok].
      destruct (g x) as [y|e|q] eqn:Eg; [|easy|now apply g_np in Eg].
      rewrite IH by (easy || (cbn in Hf; lia)). easy.
  Qed.
  Lemma separated_items x l :
    lacks c x = true -> forallb (lacks c) l = true ->
    separated_list0 (tag [c]) p (join [c] (x :: l))
    = match g x with
      | ROk y => POk (flat_map (fun y => c :: y) (snd (take_ok l))) (y :: fst (take_ok l))
      | _ => POk (join [c] (x :: l)) []
      end.
  Proof.
    intros Hx Hl. unfold separated_list0. rewrite join_tail. rewrite sep_item by easy.
    destruct (g x) as [y|e|q] eqn:Eg; [|easy|now apply g_np in Eg].
    rewrite sep_tail_items; [easy|easy|].
    clear. induction l as [|z l IH]; cbn in *; [lia|]. rewrite app_length. lia.
  Qed.
  Lemma take_ok_all l zs : Forall2 (fun x z => g x = ROk z) l zs -> take_ok l = (zs, []).
  Proof. induction 1 as [|x z l zs H1 H2 IH]; [easy|]. cbn. now rewrite H1, IH. Qed.
  Lemma take_ok_spec l : exists zs r, take_ok l = (zs, r)
    /\ ((r = [] /\ Forall2 (fun x z => g x = ROk z) l zs)
        \/ exists l1 x r' e, l = l1 ++ x :: r' /\ r = x :: r' /\ g x = RErr e
             /\ Forall2 (fun x z => g x = ROk z) l1 zs).
  Proof.
    induction l as [|x l (zs & r & IH & H)]; [exists [], []; split; [easy|]; left; now split|].
    cbn [take_ok]. destruct (g x) as [y|e|q] eqn:Eg; [..|now apply g_np in Eg].
    - rewrite IH. exists (y :: zs), r. split; [easy|]. destruct H as [[-> H]|(l1 & x' & r' & e & -> & -> & He & H)].
      + left. split; [easy|]. now constructor.
      + right. exists (x :: l1), x', r', e. repeat split; try easy. now constructor.
    - exists [], (x :: l). split; [easy|]. right. exists [], x, l, e. repeat split; [easy|]. constructor.
  Qed.
End Sep.

(** ** comma separated integers *)
Section IntList.
  Context {E : Type}.
  Variable ferr : int_err -> E.
  Variable flist : E.
  Definition item_err (e : int_err) : E := match e with IEmpty => flist | _ => ferr e end.
  Lemma parse_i32_empty : parse_i32 [] = RErr IEmpty.
  Proof. reflexivity. Qed.
  Lemma take_till_item c x l : lacks c x = true ->
    @take_till unit (fun d => d =? c) (x ++ flat_map (fun y => c :: y) l)
    = POk (flat_map (fun y => c :: y) l) x.
  Proof.
    intros Hx. unfold take_till, take_while.
    rewrite (span_app _ x (flat_map (fun y => c :: y) l)); [easy|exact Hx|].
    destruct l as [|y l]; [easy|]. cbn [flat_map app]. apply span_stop. now rewrite N.eqb_refl.
  Qed.
  (** The outcome of reading the items in turn. *)
  Fixpoint items_read (l : list str) : res (list Z) E :=
    match l with
    | [] => ROk []
    | x :: l' => match parse_i32 x with
                 | ROk z => rmap (cons z) (items_read l')
                 | RErr e => RErr (item_err e)
                 | RPanic p => RPanic p
                 end
    end.
  Lemma items_read_ok l zs :
    items_read l = ROk zs <-> Forall2 (fun x z => parse_i32 x = ROk z) l zs.
  Proof.
    revert zs. induction l as [|x l IH]; intros zs; cbn [items_read].
    - split; [intros [= <-]; constructor|]. intros H. now inversion H.
    - destruct (parse_i32 x) as [z|e|p] eqn:Ex.
      + split.
        * destruct (items_read l) as [ys|?|?]; cbn; try easy. intros [= <-].
          constructor; [easy|]. now apply IH.
        * intros H. inversion H as [|? ? ? ? H1 H2]; subst. apply IH in H2. rewrite H2. cbn. congruence.
      + split; [easy|]. intros H. inversion H. congruence.
      + split; [easy|]. intros H. inversion H. congruence.
  Qed.
  Lemma items_read_err l1 x l2 e zs :
    Forall2 (fun x z => parse_i32 x = ROk z) l1 zs -> parse_i32 x = RErr e ->
    items_read (l1 ++ x :: l2) = RErr (item_err e).
  Proof.
    intros H He. induction H as [|y z l1 zs H1 H2 IH]; cbn [app items_read].
    - now rewrite He.
    - now rewrite H1, IH.
  Qed.
  Lemma parse_int_list_eq s :
    parse_int_list ferr flist s = match s with [] => ROk [] | _ => items_read (split_on 44 s) end.
  Proof.
    destruct s as [|c0 s0]; [reflexivity|]. set (s := c0 :: s0).
    assert (Hs : s <> []) by easy. clearbody s. clear c0 s0.
    destruct (split_on 44 s) as [|x l] eqn:El; [now apply split_on_nonempty in El|].
    pose proof (split_on_lacks 44 s) as Hl. rewrite El in Hl. cbn [forallb] in Hl.
    apply andb_true_iff in Hl as [Hx Hl].
    assert (Hj : s = join [44] (x :: l)) by (rewrite <- El; symmetry; apply split_on_join).
    unfold parse_int_list. unfold comma. change (lit ",") with [44]. rewrite Hj at 1.
    rewrite separated_items by (easy || apply parse_i32_no_panic). cbn [items_read].
    destruct (parse_i32 x) as [z|e|q] eqn:Ex; [..|now apply parse_i32_no_panic in Ex].
    - destruct (take_ok_spec parse_i32 parse_i32_no_panic l) as (zs & r & -> & H). cbn [fst snd].
      destruct H as [[-> H]|(l1 & y & r' & e & -> & -> & He & H)].
      + cbn [flat_map]. apply items_read_ok in H. now rewrite H.
      + cbn [flat_map app]. rewrite (items_read_err _ _ _ _ _ H He). cbn [rmap].
        assert (Hlt : Nat.ltb (length (44 :: y ++ flat_map (fun y => 44 :: y) r')) (length s) = true).
        { apply Nat.ltb_lt. rewrite Hj, join_tail, flat_map_app. cbn [flat_map].
          destruct x as [|c x]; [now rewrite parse_i32_empty in Ex|].
          rewrite !app_length. cbn [length app]. rewrite !app_length. lia. }
        rewrite Hlt. cbn [strip_prefix]. rewrite N.eqb_refl.
        rewrite forallb_app in Hl. apply andb_true_iff in Hl as [_ Hl]. cbn [forallb] in Hl.
        apply andb_true_iff in Hl as [Hy _].
        rewrite take_till_item by easy. rewrite He. now destruct e.
    - assert (Hlt : Nat.ltb (length (join [44] (x :: l))) (length s) = false).
      { apply Nat.ltb_ge. now rewrite <- Hj. }
      rewrite <- Hj. rewrite Hj in Hlt at 1. rewrite <- Hj in Hlt. destruct s as [|c s]; [easy|].
      rewrite Hlt. rewrite Hj, join_tail. rewrite take_till_item by easy. rewrite Ex. now destruct e.
  Qed.
End IntList.
