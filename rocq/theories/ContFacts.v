(** Facts about the lists whose last entry may be incomplete. *)
From Coq Require Import String List NArith ZArith Bool Lia.
From Verif Require Import Str Num Nom Dec Parsers Storyboard NormalEvents Api SpecTypes.
Import ListNotations.
Local Open Scope N_scope.

Lemma olc_iff {A} (full : A -> Prop) l : only_last_cut full l <-> Forall full (removelast l).
Proof.
  split.
  - induction l as [|x l IH] using rev_ind; intros H; [constructor|].
    rewrite removelast_last. apply Forall_forall. intros y Hy.
    apply in_split in Hy as (a & b & ->). apply (H a y (b ++ [x])).
    + rewrite <- app_assoc. reflexivity.
    + now destruct b.
  - intros H a x b -> Hb. rewrite removelast_app in H by easy. apply Forall_app in H as [_ H].
    cbn [removelast] in H. destruct b; [easy|]. now inversion H.
Qed.
Lemma is_none_spec {A} (o : option A) : is_none o = true <-> o = None.
Proof. now destruct o. Qed.
Lemma any_i_last {A} (f : A -> bool) l n k : n = (k + length l)%nat ->
  any_i (fun i x => f x && negb (Nat.eqb i (n - 1))) k l = existsb f (removelast l).
Proof.
  revert k. induction l as [|x l IH]; intros k Hn; [easy|]. cbn [any_i]. cbn [length] in Hn.
  rewrite IH by lia. cbn [removelast]. destruct l as [|y l].
  - cbn [length] in Hn. replace (n - 1)%nat with k by lia. rewrite Nat.eqb_refl. cbn [negb].
    now rewrite andb_false_r.
  - cbn [length] in Hn. destruct (Nat.eqb_spec k (n - 1)); [lia|]. cbn [negb]. rewrite andb_true_r. easy.
Qed.
Lemma not_existsb {A} (f : A -> bool) (P : A -> Prop) l :
  (forall x, f x = false <-> P x) -> (existsb f l = false <-> Forall P l).
Proof.
  intros H. induction l as [|x l IH]; cbn; [easy|]. rewrite orb_false_iff, H, IH. split.
  - intros [? ?]. now constructor.
  - intros K. now inversion K.
Qed.
Lemma full_pair_b {T} (x : T * option T) : is_none (snd x) = false <-> full_pair x.
Proof. unfold full_pair. destruct (snd x); cbn; split; congruence. Qed.

(** ** pairs *)
Lemma cont_new_iff {T} (s : T * T) r :
  (only_last_cut full_pair r /\ cont_new s r = ROk (mk_cont s r))
  \/ (~ only_last_cut full_pair r /\ cont_new s r = RErr tt).
Proof.
  unfold cont_new. rewrite (any_i_last (fun x => is_none (snd x)) r (length r) 0) by easy.
  rewrite olc_iff, <- (not_existsb _ _ _ full_pair_b).
  destruct (existsb _ _); [right|left]; now split.
Qed.
Lemma usize_pos {E} dbg z : (0 <= z <= usize_max)%Z -> @usize_arith E dbg z = ROk z.
Proof. intros H. unfold usize_arith, in_usize. now rewrite (proj2 (andb_true_iff _ _)) by lia. Qed.
Lemma last_opt_snoc {A} l (x : A) : last_opt (l ++ [x]) = Some x.
Proof. unfold last_opt. now rewrite rev_app_distr. Qed.
Lemma set_last_snoc {A} f l (x : A) : set_last f (l ++ [x]) = l ++ [f x].
Proof.
  induction l as [|y l IH]; [easy|]. cbn [app]. destruct (l ++ [x]) eqn:E; [now destruct l|].
  change (y :: set_last f (a :: l0) = y :: l ++ [f x]). now rewrite IH.
Qed.
Lemma get_z_nth {A} (l : list A) i : (0 <= i)%Z -> get_z l i = nth_error l (Z.to_nat i).
Proof.
  intros Hi. unfold get_z. destruct (Z.ltb_spec i (Z.of_nat (length l))); [easy|].
  symmetry. apply nth_error_None. lia.
Qed.
Lemma get_z_far {A} (l : list A) i : (Z.of_nat (length l) <= i)%Z -> get_z l i = None.
Proof. intros H. unfold get_z. now destruct (Z.ltb_spec i (Z.of_nat (length l))); [lia|]. Qed.

Lemma len_small {A} (l : list A) : len_ok l -> (Z.of_nat (length l) <= usize_max)%Z.
Proof. unfold len_ok, usize_max. change (2 ^ 63)%Z with 9223372036854775808%Z. lia. Qed.

Lemma meaning_app {T} (p : T) a b :
  meaning p (a ++ b) = meaning p a ++ meaning (fold_left (fun q x => match snd x with Some y => y | None => q end) a p) b.
Proof.
  revert p. induction a as [|[x [y|]] a IH]; intros p; cbn; [easy| |]; now rewrite IH.
Qed.

Inductive push_shape {T} (s : T * T) (f : T * option T) : list (T * option T) -> list (T * option T) -> Prop :=
| ps_nil : push_shape s f [] [f]
| ps_full l x : full_pair x -> push_shape s f (l ++ [x]) (l ++ [x; f])
| ps_one x : push_shape s f [(x, None)] [(x, Some (snd s)); f]
| ps_cut l y x : push_shape s f (l ++ [y; (x, None)]) (l ++ [y; (x, snd y); f]).

Lemma cont_push_shape {T} dbg (c : continuing T) f : len_ok (ct_rest c) ->
  (dbg = true /\ (exists x, ct_rest c = [(x, None)]) /\ cont_push dbg c f = RPanic POverflow)
  \/ exists r, cont_push dbg c f = ROk (mk_cont (ct_start c) r) /\ push_shape (ct_start c) f (ct_rest c) r
               /\ (forall x, ct_rest c = [(x, None)] -> dbg = false).
Proof.
  intros Hl. apply len_small in Hl. destruct c as [s r]. cbn [ct_start ct_rest] in *.
  unfold cont_push. cbn [ct_start ct_rest].
  destruct r as [|[x o] l _] using rev_ind.
  { right. exists [f]. repeat split; [constructor|easy]. }
  rewrite last_opt_snoc. destruct o as [o|].
  { right. eexists. repeat split.
    - rewrite <- app_assoc. now apply ps_full.
    - intros z H. apply (app_inj_tail l []) in H as [_ H]. discriminate. }
  destruct l as [|y l _] using rev_ind.
  { cbn [app length]. unfold usize_arith. cbn [in_usize]. replace (in_usize _) with false by reflexivity.
    destruct dbg; [left|right].
    - repeat split. now exists x.
    - cbn [rbind]. rewrite get_z_far by (vm_compute; discriminate). eexists. split; [reflexivity|]. split; [apply ps_one|easy]. }
  right. rewrite usize_pos by (rewrite !app_length in *; cbn [length] in *; lia). cbn [rbind].
  rewrite get_z_nth by (rewrite !app_length; cbn [length]; lia).
  replace (nth_error _ _) with (Some y).
  2:{ rewrite <- app_assoc. rewrite nth_error_app2 by (rewrite !app_length; cbn [length]; lia).
      replace (_ - _)%nat with 0%nat by (rewrite !app_length; cbn [length]; lia). easy. }
  rewrite set_last_snoc. cbn [fst]. eexists. repeat split.
  - rewrite <- !app_assoc. cbn [app]. apply ps_cut.
  - intros z H. rewrite <- app_assoc in H. now destruct l as [|? [|? ?]].
Qed.
Lemma push_shape_facts {T} (s : T * T) f r r' : push_shape s f r r' ->
  meaning (snd s) r' = meaning (snd s) (r ++ [f])
  /\ (only_last_cut full_pair r -> only_last_cut full_pair r').
Proof.
  intros [|l x Hx|x|l [y o] x].
  - split; [easy|]. rewrite !olc_iff. constructor.
  - split; [now rewrite <- app_assoc|]. rewrite !olc_iff. intros H. rewrite removelast_last in H.
    replace (l ++ [x; f]) with ((l ++ [x]) ++ [f]) by now rewrite <- app_assoc. rewrite removelast_last.
    apply Forall_app. auto.
  - split; [easy|]. rewrite !olc_iff. cbn. intros _. now constructor.
  - cbn [snd]. split.
    + rewrite <- app_assoc. rewrite !meaning_app. f_equal. cbn. now destruct o.
    + rewrite !olc_iff. intros H. replace (l ++ [(y, o); (x, None)]) with ((l ++ [(y, o)]) ++ [(x, None)]) in H by now rewrite <- app_assoc.
      rewrite removelast_last in H. apply Forall_app in H as [H1 H2]. inversion H2; subst.
      replace (l ++ [(y, o); (x, o); f]) with ((l ++ [(y, o); (x, o)]) ++ [f]) by now rewrite <- app_assoc.
      rewrite removelast_last. apply Forall_app. split; [easy|]. constructor; [easy|]. now constructor.
Qed.
Lemma set_nth_length {A} n (a : A) l : length (set_nth n a l) = length l.
Proof. revert n. induction l as [|x l IH]; intros [|n]; cbn; auto. Qed.
Lemma set_nth_olc {A} (full : A -> Prop) n a l : only_last_cut full l -> (n < length l)%nat ->
  (n = (length l - 1)%nat \/ full a) -> only_last_cut full (set_nth n a l).
Proof.
  rewrite !olc_iff. revert n. induction l as [|x l IH]; intros n H Hn Ha; [easy|].
  destruct l as [|y l].
  { destruct n; [constructor|cbn in Hn; lia]. }
  cbn [removelast] in H. inversion H; subst. destruct n as [|n].
  - cbn [set_nth]. destruct Ha as [Ha|Ha]; [cbn in Ha; lia|]. cbn [removelast]. now constructor.
  - assert (K : Forall full (removelast (set_nth n a (y :: l)))).
    { apply IH; [easy|cbn in *; lia|]. destruct Ha as [Ha|Ha]; [left; cbn in *; lia|now right]. }
    change (set_nth (S n) a (x :: y :: l)) with (x :: set_nth n a (y :: l)).
    destruct (set_nth n a (y :: l)) as [|z t]; [constructor|].
    change (removelast (x :: z :: t)) with (x :: removelast (z :: t)). now constructor.
Qed.
Lemma set_nth_forall {A} (P : A -> Prop) n a l : Forall P l -> P a -> Forall P (set_nth n a l).
Proof.
  intros H Ha. revert n. induction H as [|x l Hx H IH]; intros [|n]; cbn; constructor; auto.
Qed.
Lemma get_z_lt {A} (l : list A) i y : get_z l i = Some y -> (i < Z.of_nat (length l))%Z.
Proof. unfold get_z. now destruct (Z.ltb_spec i (Z.of_nat (length l))). Qed.
Lemma cont_set_spec {T} dbg (c : continuing T) i f : len_ok (ct_rest c) -> (0 <= i < 2 ^ 64)%Z ->
  match cont_set dbg c i f with
  | ROk c' => ct_start c' = ct_start c /\ (i < Z.of_nat (length (ct_rest c)))%Z
              /\ (last_index (ct_rest c) i \/ full_pair f)
              /\ ct_rest c' = set_nth (Z.to_nat i) f (ct_rest c)
  | RErr CsIndexOutOfBounds => (Z.of_nat (length (ct_rest c)) <= i)%Z
  | RErr CsInvalidSecondFieldOption => ~ last_index (ct_rest c) i /\ snd f = None
  | RPanic p => p = POverflow /\ dbg = true /\ ct_rest c = []
  end.
Proof.
  intros Hl Hi. change (2 ^ 64)%Z with (usize_max + 1)%Z in Hi. apply len_small in Hl. destruct c as [s r]. unfold cont_set, last_index. cbn [ct_start ct_rest] in *.
  destruct r as [|y r].
  { cbn [length]. unfold usize_arith. replace (in_usize _) with false by reflexivity. destruct dbg; [easy|].
    cbn [rbind]. rewrite get_z_far by (cbn; lia).
    destruct (Z.eqb_spec i ((Z.of_nat 0 - 1) mod 18446744073709551616)); cbn [negb andb].
    - cbn. lia.
    - destruct f as [x [o|]]; cbn; [lia|]. split; [lia|easy]. }
  rewrite usize_pos by (cbn [length] in *; lia). cbn [rbind].
  destruct (Z.eqb_spec i (Z.of_nat (length (y :: r)) - 1)) as [Hi1|Hi1]; cbn [negb andb].
  - destruct (get_z (y :: r) i) eqn:E.
    + apply get_z_lt in E. cbn [ct_start ct_rest]. repeat split; auto.
    + rewrite get_z_nth in E by lia. apply nth_error_None in E. lia.
  - destruct (is_none (snd f)) eqn:Ef; [split; [easy|now apply is_none_spec]|].
    destruct (get_z (y :: r) i) eqn:E.
    + apply get_z_lt in E. cbn [ct_start ct_rest]. repeat split; auto. right. now apply full_pair_b.
    + rewrite get_z_nth in E by lia. apply nth_error_None in E. lia.
Qed.

Lemma cont_shape {T} dbg (c : continuing T) : cont_value dbg c -> only_last_cut full_pair (ct_rest c).
Proof.
  induction 1 as [s r c H|c s _ IH|c f c' _ IH Hl H|c i f c' _ IH Hl Hi H].
  - destruct (cont_new_iff s r) as [[Hr E]|[_ E]]; rewrite E in H; [|easy]. injection H as <-. exact Hr.
  - exact IH.
  - destruct (cont_push_shape dbg c f Hl) as [(_ & _ & E)|(r & E & Hs & _)]; rewrite E in H; [easy|].
    injection H as <-. apply push_shape_facts in Hs as [_ Hs]. auto.
  - pose proof (cont_set_spec dbg c i f Hl Hi) as K. rewrite H in K.
    destruct K as (_ & Hlt & Hf & ->). apply set_nth_olc; [easy|lia|].
    destruct Hf as [Hf|Hf]; [left; unfold last_index in Hf; lia|now right].
Qed.
Lemma cont_push_facts {T} dbg (c c' : continuing T) f : len_ok (ct_rest c) -> cont_push dbg c f = ROk c' ->
  ct_start c' = ct_start c
  /\ meaning (snd (ct_start c)) (ct_rest c') = meaning (snd (ct_start c)) (ct_rest c ++ [f])
  /\ last (ct_rest c') f = f /\ length (ct_rest c') = S (length (ct_rest c)).
Proof.
  intros Hl H. destruct (cont_push_shape dbg c f Hl) as [(_ & _ & E)|(r & E & Hs & _)]; rewrite E in H; [easy|].
  injection H as <-. cbn [ct_start ct_rest]. split; [easy|]. split; [now apply push_shape_facts in Hs|].
  destruct Hs as [|l x Hx|x|l [y o] x]; [easy| |easy|].
  - replace (l ++ [x; f]) with ((l ++ [x]) ++ [f]) by now rewrite <- app_assoc.
    rewrite last_last, !app_length. cbn. split; [easy|lia].
  - replace (l ++ [(y, o); (x, snd (y, o)); f]) with ((l ++ [(y, o); (x, o)]) ++ [f]) by now rewrite <- app_assoc.
    rewrite last_last, !app_length. cbn. split; [easy|lia].
Qed.
Lemma cont_push_panics {T} dbg (c : continuing T) f p : len_ok (ct_rest c) ->
  (cont_push dbg c f = RPanic p
   <-> p = POverflow /\ dbg = true /\ exists x, ct_rest c = [(x, None)]).
Proof.
  intros Hl. destruct (cont_push_shape dbg c f Hl) as [(-> & Hx & E)|(r & E & _ & Hs)]; rewrite E.
  - split; [intros [= <-]; auto|intros (-> & _ & _); easy].
  - split; [easy|]. intros (_ & -> & x & Hx). now apply Hs in Hx.
Qed.

(** ** colours *)
Lemma rgb_full_b r g b : full_rgb (r, g, b) <-> is_none g = false /\ is_none b = false.
Proof. destruct g, b; cbn; split; intros [? ?]; split; easy. Qed.
Lemma sbc_check_iff l n k : n = (k + length l)%nat ->
  (sbc_check n k l = None <-> Forall full_rgb (removelast l) /\ Forall rgb_prefix l).
Proof.
  revert k. induction l as [|[[r g] b] l IH]; intros k Hn.
  { cbn. split; [intros _; split; constructor|easy]. }
  cbn [sbc_check]. cbn [length] in Hn. specialize (IH (S k) ltac:(lia)).
  destruct l as [|y l].
  - cbn [length] in Hn. replace (n - 1)%nat with k by lia. rewrite Nat.eqb_refl. cbn [negb andb].
    cbn [removelast]. cbn [sbc_check]. destruct g as [g|], b as [b|]; cbn; (split; [intros H|intros [_ H]; inversion H; subst; cbn in *; try easy]).
    all: try easy. all: try (split; [constructor|]; constructor; [|constructor]; cbn; congruence).
    exfalso. now specialize (H2 eq_refl).
  - cbn [length] in Hn. destruct (Nat.eqb_spec k (n - 1)); [lia|]. cbn [negb andb].
    change (removelast ((r, g, b) :: y :: l)) with ((r, g, b) :: removelast (y :: l)).
    rewrite (Forall_cons_iff full_rgb), (Forall_cons_iff rgb_prefix (r, g, b)), rgb_full_b. destruct g as [g|], b as [b|]; cbn [is_none is_some negb andb];
      cbn [rgb_prefix]; try (split; [easy|]; intros [[[] ?] ?]; easy).
    rewrite IH. split; [intros [? ?]|intros [[? ?] [? ?]]]; repeat split; easy.
Qed.
Lemma sbc_new_iff s r :
  (only_last_cut full_rgb r /\ Forall rgb_prefix r /\ sbc_new s r = ROk (mk_sbc s r))
  \/ (~ (only_last_cut full_rgb r /\ Forall rgb_prefix r) /\ exists e, sbc_new s r = RErr e).
Proof.
  unfold sbc_new. rewrite olc_iff. pose proof (sbc_check_iff r (length r) 0 eq_refl) as H.
  destruct (sbc_check (length r) 0 r) as [e|].
  - right. split; [|now exists e]. intros K. apply H in K. easy.
  - left. destruct (proj1 H eq_refl) as [H1 H2]. auto.
Qed.
Lemma sbc_set_spec dbg c i f : len_ok (sbc_rest c) -> (0 <= i < 2 ^ 64)%Z ->
  match sbc_set dbg c i f with
  | ROk c' => sbc_start c' = sbc_start c /\ (i < Z.of_nat (length (sbc_rest c)))%Z
              /\ (last_index (sbc_rest c) i \/ full_rgb f) /\ rgb_prefix f
              /\ sbc_rest c' = set_nth (Z.to_nat i) f (sbc_rest c)
  | RErr ScIndexOutOfBounds => (Z.of_nat (length (sbc_rest c)) <= i)%Z
  | RErr (ScInvalidFieldOption _) => ~ rgb_prefix f \/ (~ last_index (sbc_rest c) i /\ ~ full_rgb f)
  | RPanic p => p = POverflow /\ dbg = true /\ sbc_rest c = []
  end.
Proof.
  intros Hl Hi. change (2 ^ 64)%Z with (usize_max + 1)%Z in Hi. apply len_small in Hl.
  destruct c as [s r]. destruct f as [[fr g] b]. unfold sbc_set, last_index. cbn [sbc_start sbc_rest] in *.
  assert (Hn : is_none g && is_some b = false <-> rgb_prefix (fr, g, b)).
  { destruct g, b; cbn; split; intros; try easy. now specialize (H eq_refl). }
  destruct r as [|y r].
  { cbn [length]. unfold usize_arith. replace (in_usize _) with false by reflexivity. destruct dbg; [easy|].
    cbn [rbind]. rewrite get_z_far by (cbn; lia).
    destruct (negb _ && is_none g) eqn:E1.
    { right. split; [lia|]. rewrite rgb_full_b. apply andb_true_iff in E1 as [_ E1]. rewrite E1. intros [? ?]. easy. }
    destruct (negb _ && is_none b) eqn:E2.
    { right. split; [lia|]. rewrite rgb_full_b. apply andb_true_iff in E2 as [_ E2]. rewrite E2. intros [? ?]. easy. }
    cbn [orb]. destruct (is_none g && is_some b) eqn:E3; [|cbn; lia].
    left. intros K. apply Hn in K. congruence. }
  rewrite usize_pos by (cbn [length] in *; lia). cbn [rbind].
  destruct (Z.eqb_spec i (Z.of_nat (length (y :: r)) - 1)) as [Hi1|Hi1]; cbn [negb andb orb].
  - destruct (is_none g && is_some b) eqn:E3; [left; intros K; apply Hn in K; congruence|].
    destruct (get_z (y :: r) i) eqn:E.
    + apply get_z_lt in E. cbn [sbc_start sbc_rest]. apply proj1 in Hn. repeat split; auto.
    + rewrite get_z_nth in E by lia. apply nth_error_None in E. lia.
  - destruct (is_none g) eqn:E1; [right; split; [easy|]; rewrite rgb_full_b, E1; intros [? ?]; easy|].
    destruct (is_none b) eqn:E2; [right; split; [easy|]; rewrite rgb_full_b, E2; intros [? ?]; easy|].
    cbn [orb andb] in *.
    destruct (get_z (y :: r) i) eqn:E.
    + apply get_z_lt in E. cbn [sbc_start sbc_rest]. split; [easy|]. split; [easy|].
      split; [right; now apply rgb_full_b|]. split; [now apply Hn|easy].
    + rewrite get_z_nth in E by lia. apply nth_error_None in E. lia.
Qed.
Lemma rgbs_shape dbg c : rgbs_value dbg c ->
  only_last_cut full_rgb (sbc_rest c) /\ Forall rgb_prefix (sbc_rest c).
Proof.
  induction 1 as [s r c H|c i f c' _ IH Hl Hi H].
  - destruct (sbc_new_iff s r) as [(H1 & H2 & E)|[_ [e E]]]; rewrite E in H; [|easy]. injection H as <-. auto.
  - pose proof (sbc_set_spec dbg c i f Hl Hi) as K. rewrite H in K.
    destruct K as (_ & Hlt & Hf & Hp & ->). destruct IH as [I1 I2]. split.
    + apply set_nth_olc; [easy|lia|]. destruct Hf as [Hf|Hf]; [left; unfold last_index in Hf; lia|now right].
    + now apply set_nth_forall.
Qed.
(** a push after an entry with a green part keeps the rule *)
Lemma rgbs_push_keeps dbg c f c' : len_ok (sbc_rest c) ->
  only_last_cut full_rgb (sbc_rest c) -> Forall rgb_prefix (sbc_rest c) ->
  (forall l r b, sbc_rest c <> l ++ [(r, None, b)]) -> rgb_prefix f -> sbc_push dbg c f = ROk c' ->
  only_last_cut full_rgb (sbc_rest c') /\ Forall rgb_prefix (sbc_rest c').
Proof.
  intros Hl. apply len_small in Hl. destruct c as [[[s1 s2] s3] r]. unfold sbc_push. cbn [sbc_start sbc_rest] in *.
  rewrite !olc_iff. intros H1 H2 H3 Hf.
  destruct r as [|[[x g] b] l _] using rev_ind.
  { cbn. intros [= <-]. cbn. split; [constructor|]. now repeat constructor. }
  rewrite last_opt_snoc. rewrite removelast_last in H1. apply Forall_app in H2 as [H2 H2'].
  destruct g as [g|]; [|exfalso; now apply (H3 l x b)].
  destruct b as [b|].
  { intros [= <-]. cbn [sbc_rest]. rewrite removelast_last. split; rewrite !Forall_app; repeat split; auto.
    now repeat constructor. }
  destruct l as [|y l _] using rev_ind.
  { cbn [app length]. unfold usize_arith. replace (in_usize _) with false by reflexivity.
    destruct dbg; [easy|]. cbn [rbind]. rewrite get_z_far by (vm_compute; discriminate). intros [= <-]. cbn.
    split; repeat constructor; easy. }
  rewrite usize_pos by (rewrite !app_length in *; cbn [length] in *; lia). cbn [rbind].
  rewrite get_z_nth by (rewrite !app_length; cbn [length]; lia).
  replace (nth_error _ _) with (Some y).
  2:{ rewrite <- app_assoc. rewrite nth_error_app2 by (rewrite !app_length; cbn [length]; lia).
      replace (_ - _)%nat with 0%nat by (rewrite !app_length; cbn [length]; lia). easy. }
  rewrite set_last_snoc. intros [= <-]. cbn [sbc_rest]. rewrite removelast_last.
  apply Forall_app in H1 as [H1 H1']. inversion H1'; subst. destruct y as [[y1 y2] y3].
  apply rgb_full_b in H4 as H4. destruct H4 as [Hy2 Hy3].
  apply Forall_app in H2 as [H2 H2''].
  split; rewrite !Forall_app; repeat split; auto.
  - constructor; [|constructor]. apply rgb_full_b. now rewrite Hy3.
  - constructor; [|constructor]. cbn. easy.
Qed.
Lemma sbc_push_panics dbg c f p : len_ok (sbc_rest c) ->
  (sbc_push dbg c f = RPanic p
   <-> p = POverflow /\ dbg = true /\ exists x, sbc_rest c = [x] /\ ~ full_rgb x).
Proof.
  intros Hl. apply len_small in Hl. destruct c as [[[s1 s2] s3] r]. unfold sbc_push. cbn [sbc_start sbc_rest] in *.
  destruct r as [|[[x g] b] l _] using rev_ind.
  { cbn. split; [easy|]. intros (_ & _ & x & ? & _). easy. }
  rewrite last_opt_snoc.
  destruct l as [|y l _] using rev_ind.
  - cbn [app length]. unfold usize_arith. replace (in_usize _) with false by reflexivity.
    destruct g as [g|]; [destruct b as [b|]|].
    + split; [easy|]. intros (_ & _ & z & [= <-] & Hz). exfalso. apply Hz. now apply rgb_full_b.
    + destruct dbg; cbn [rbind]; [|split; [easy|intros (_ & ? & _); easy]].
      split; [intros [= <-]|intros (-> & _ & _); easy]. repeat split. eexists. split; [reflexivity|].
      rewrite rgb_full_b. intros [_ ?]. easy.
    + destruct dbg; cbn [rbind]; [|split; [easy|intros (_ & ? & _); easy]].
      split; [intros [= <-]|intros (-> & _ & _); easy]. repeat split. eexists. split; [reflexivity|].
      rewrite rgb_full_b. intros [? _]. easy.
  - split.
    + rewrite usize_pos by (rewrite !app_length in *; cbn [length] in *; lia). cbn [rbind]. now destruct g, b.
    + intros (_ & _ & z & Hz & _). exfalso. now destruct l as [|? [|? ?]].
Qed.
Lemma rgbs_push_breaks : exists c f c',
  rgbs_value true c /\ rgb_prefix f /\ sbc_push true c f = ROk c'
  /\ ~ only_last_cut full_rgb (sbc_rest c').
Proof.
  exists (mk_sbc (1, 2, 3) [(4, Some 5, Some 6); (7, None, None)])%Z, (8, None, None)%Z.
  eexists. split; [|split; [|split; [vm_compute; reflexivity|]]].
  - apply (rgv_new _ (1, 2, 3)%Z [(4, Some 5, Some 6); (7, None, None)]%Z). reflexivity.
  - easy.
  - cbn [sbc_rest]. rewrite olc_iff. cbn [removelast]. intros H. inversion H; subst. inversion H3; subst.
    destruct H4. easy.
Qed.
Lemma rgbs_push_entry : exists c f c',
  rgbs_value true c /\ sbc_push true c f = ROk c' /\ ~ Forall rgb_prefix (sbc_rest c').
Proof.
  exists (mk_sbc (1, 2, 3) [])%Z, (8, None, Some 1)%Z.
  eexists. split; [|split; [vm_compute; reflexivity|]].
  - eapply (rgv_new _ (1, 2, 3)%Z []). reflexivity.
  - cbn [sbc_rest]. intros H. inversion H; subst. cbn in H2. now specialize (H2 eq_refl).
Qed.
