(** What is handed to a hasher (C77). *)
From Coq Require Import String List NArith ZArith Bool Lia.
From Verif Require Import Str Num Dec Parsers General Editor Metadata Difficulty Colours TimingPoints HitObjects
  Storyboard NormalEvents Events Osb OsuFile Equal HashFeed SpecEqual SpecHash StrFacts SplitFacts EqualFacts EqualFile.
Import ListNotations.
Local Open Scope N_scope.

(** Equal values write the same; what is written, whatever follows, tells the value. *)
Definition coded {A} (ok : A -> bool) (f : feed A) (eq : A -> A -> bool) : Prop :=
  (forall a b, eq a b = true -> f a = f b)
  /\ (forall a b r s, ok a = true -> ok b = true -> f a ++ r = f b ++ s -> eq a b = true /\ r = s).
Definition all {A} (_ : A) : bool := true.
Lemma agree {A} {ok} {f : feed A} {eq} a b : coded ok f eq -> eq a b = true -> f a = f b.
Proof. intros [H _]. apply H. Qed.
Lemma tell {A} {f : feed A} {eq} a b r s : coded all f eq -> f a ++ r = f b ++ s -> eq a b = true /\ r = s.
Proof. intros [_ H]. now apply H. Qed.
Lemma tell_ok {A} {ok} {f : feed A} {eq} a b r s : coded ok f eq -> ok a = true -> ok b = true -> f a ++ r = f b ++ s -> eq a b = true /\ r = s.
Proof. intros [_ H]. now apply H. Qed.
Lemma both {A} (a b c d : list A) : a = b -> c = d -> a ++ c = b ++ d.
Proof. congruence. Qed.

Lemma c_one {A} (w : A -> hwrite) eq : exact eq -> (forall a b, w a = w b -> a = b) -> coded all (fun x => [w x]) eq.
Proof.
  intros E I. split; [intros a b H; apply E in H; now subst|]. intros a b r s _ _ H. injection H as H ->. split; [|easy]. apply E. now apply I.
Qed.
Lemma c_u8 : coded all f_u8 Z.eqb. Proof. apply c_one; [exact Z_E|congruence]. Qed.
Lemma c_u32 : coded all f_u32 Z.eqb. Proof. apply c_one; [exact Z_E|congruence]. Qed.
Lemma c_i32 : coded all f_i32 Z.eqb. Proof. apply c_one; [exact Z_E|congruence]. Qed.
Lemma c_usize : coded all f_usize Z.eqb. Proof. apply c_one; [exact Z_E|congruence]. Qed.
Lemma c_bool : coded all f_bool Bool.eqb. Proof. apply c_one; [exact bool_E|]. now intros [] []. Qed.
Lemma c_tag {A} (tag : A -> Z) eq : exact eq -> (forall a b, tag a = tag b -> a = b) -> coded all (f_tag tag) eq.
Proof. intros E I. apply c_one; [exact E|]. intros a b [= H]. now apply I. Qed.
Lemma c_text : coded all f_text str_eqb.
Proof.
  split; [intros a b H; apply str_eqb_eq in H; now subst|]. intros a b r s _ _ H. injection H as -> ->. split; [|easy]. now apply str_eqb_eq.
Qed.
Definition ok_opt {A} (ok : A -> bool) (o : option A) : bool := match o with Some x => ok x | None => true end.
Lemma c_opt_ok {A} ok (f : feed A) eq : coded ok f eq -> coded (ok_opt ok) (f_opt f) (opt_eq eq).
Proof.
  intros C. split.
  - intros [a|] [b|] H; cbn [opt_eq f_opt] in *; try easy. f_equal. now apply C.
  - intros [a|] [b|] r s Ha Hb H; cbn [opt_eq f_opt ok_opt app] in *; try discriminate H; injection H as H; [|now split].
    now apply C in H.
Qed.
Lemma c_weak {A} (ok ok' : A -> bool) f eq : (forall x, ok x = true -> ok' x = true) -> coded ok' f eq -> coded ok f eq.
Proof. intros H [C1 C2]. split; [exact C1|]. intros a b r s Ha Hb. apply C2; now apply H. Qed.
Lemma c_opt {A} (f : feed A) eq : coded all f eq -> coded all (f_opt f) (opt_eq eq).
Proof. intros C. apply (c_weak _ (ok_opt all)); [now intros []|]. now apply c_opt_ok. Qed.
Lemma c_vec_ok {A} ok (f : feed A) eq : coded ok f eq -> coded (forallb ok) (f_vec f) (list_eq eq).
Proof.
  intros C. split.
  - intros a b H. unfold f_vec, f_len. enough (K : length a = length b /\ flat_map f a = flat_map f b) by (destruct K; congruence).
    revert b H. induction a as [|x a IH]; intros [|y b] H; cbn [list_eq flat_map length] in *; try easy.
    apply andb_true_iff in H as [H1 H2]. apply C in H1. destruct (IH _ H2) as [K1 K2]. split; congruence.
  - intros a b r s Ha Hb H. unfold f_vec, f_len in H. cbn [app] in H. injection H as L H. apply Nat2Z.inj in L.
    revert b L Ha Hb H. induction a as [|x a IH]; intros [|y b] L Ha Hb H; try discriminate L; cbn [list_eq flat_map length app forallb] in *; [easy|].
    apply andb_true_iff in Ha as [Ha1 Ha2]. apply andb_true_iff in Hb as [Hb1 Hb2]. rewrite <- !app_assoc in H.
    apply (tell_ok _ _ _ _ C) in H as [H1 H]; [|easy|easy]. injection L as L. destruct (IH _ L Ha2 Hb2 H) as [H2 H3]. now rewrite H1, H2.
Qed.
Lemma all_list {A} (l : list A) : forallb all l = true.
Proof. induction l; easy. Qed.
Lemma c_vec {A} (f : feed A) eq : coded all f eq -> coded all (f_vec f) (list_eq eq).
Proof. intros C. apply (c_weak _ (forallb all)); [intros; apply all_list|]. now apply c_vec_ok. Qed.
Lemma c_ints : coded all f_ints (list_eq Z.eqb).
Proof.
  split; [intros a b H; apply (list_E _ Z_E) in H; now subst|]. intros a b r s _ _ H. injection H as _ -> ->. split; [|easy].
  now apply (list_E _ Z_E).
Qed.
Lemma c_pair {A B} (f : feed A) (g : feed B) ea eb : coded all f ea -> coded all g eb -> coded all (f_pair f g) (pair_eq ea eb).
Proof.
  intros C D. split.
  - intros [a1 a2] [b1 b2] H. unfold pair_eq, f_pair in *. cbn [fst snd] in *. apply andb_true_iff in H as [H1 H2]. apply C in H1. apply D in H2. congruence.
  - intros [a1 a2] [b1 b2] r s _ _ H. unfold pair_eq, f_pair in *. cbn [fst snd] in *. rewrite <- !app_assoc in H.
    apply (tell _ _ _ _ C) in H as [H1 H]. apply (tell _ _ _ _ D) in H as [H2 H]. now rewrite H1, H2.
Qed.

(** ** numbers *)
Lemma drop_strip m sc : drop_zeros m sc = strip_zeros m sc.
Proof.
  revert m. induction sc as [|k IH]; intros m; [easy|]. cbn [drop_zeros strip_zeros]. destruct (m mod 10 =? 0) eqn:E.
  - apply N.eqb_eq in E. rewrite E. apply IH.
  - apply N.eqb_neq in E. destruct (0 <? m mod 10) eqn:K; [easy|]. apply N.ltb_ge, N.le_0_r in K. now destruct E.
Qed.
Lemma normal_canon d : normalize d = canon_dec d.
Proof.
  unfold normalize, canon_dec. destruct (d_mant d =? 0) eqn:E.
  - apply N.eqb_eq in E. rewrite E, strip_zero. now rewrite andb_false_r.
  - rewrite drop_strip. destruct (strip_zeros _ _). now rewrite andb_true_r.
Qed.
Lemma words m n : m mod 2 ^ 32 = n mod 2 ^ 32 -> (m / 2 ^ 32) mod 2 ^ 32 = (n / 2 ^ 32) mod 2 ^ 32 -> m / 2 ^ 64 = n / 2 ^ 64 -> m = n.
Proof.
  assert (K : forall x, x = 2 ^ 64 * (x / 2 ^ 64) + 2 ^ 32 * ((x / 2 ^ 32) mod 2 ^ 32) + x mod 2 ^ 32).
  { intros x. change (2 ^ 64) with (2 ^ 32 * 2 ^ 32). rewrite <- N.div_div by easy.
    pose proof (N.div_mod' x (2 ^ 32)) as A. pose proof (N.div_mod' (x / 2 ^ 32) (2 ^ 32)) as B.
    set (q := x / 2 ^ 32) in *. rewrite <- N.mul_assoc, <- N.mul_add_distr_l, <- B. exact A. }
  intros A B C. rewrite (K m), (K n). congruence.
Qed.
Lemma c_rdec : coded all f_rdec rdec_eq.
Proof.
  split.
  - intros a b H. apply rdec_R in H. unfold f_rdec. now rewrite !normal_canon, H.
  - intros a b r s _ _ H. unfold f_rdec in H. cbv zeta in H. cbn [app] in H. injection H as H1 H2 H3 H4 H5 ->. split; [|easy].
    apply rdec_R. rewrite <- !normal_canon. apply N2Z.inj in H1, H2, H3.
    pose proof (words _ _ H1 H2 H3) as M. destruct (normalize a), (normalize b). cbn in *. congruence.
Qed.

(** ** paths *)
Lemma chunks_app x cur s : lacks 47 x = true -> path_chunks cur false (x ++ s) = path_chunks (cur ++ x) false s.
Proof.
  revert cur. induction x as [|c x IH]; intros cur H; cbn [app]; [now rewrite app_nil_r|]. apply lacks_head in H as [H1 H2].
  cbn [path_chunks]. rewrite H1, IH by easy. now rewrite <- app_assoc.
Qed.
Lemma dot_next_is y l : lacks 47 y = true -> dot_next (y ++ tail_text l) = str_eqb y [46].
Proof.
  intros H. destruct y as [|c y]; cbn [app].
  - destruct l as [|z l]; [easy|]. change (tail_text (z :: l)) with (47 :: z ++ tail_text l). cbn [dot_next]. now destruct (z ++ tail_text l).
  - apply lacks_head in H as [H1 H2]. destruct y as [|d y]; cbn [app].
    + cbn [str_eqb]. rewrite andb_true_r. destruct l as [|z l]; [easy|]. change (tail_text (z :: l)) with (47 :: z ++ tail_text l).
      cbn [dot_next]. now rewrite andb_true_r.
    + apply lacks_head in H2 as [H2 _]. cbn [dot_next str_eqb]. now rewrite H2, !andb_false_r.
Qed.
Lemma chunks_tail l cur : forallb (lacks 47) l = true -> path_chunks cur false (tail_text l) = end_chunk cur ++ kept l.
Proof.
  revert cur. induction l as [|y l IH]; intros cur H; [cbn; now rewrite app_nil_r|]. cbn [forallb] in H. apply andb_true_iff in H as [H1 H2].
  change (tail_text (y :: l)) with (47 :: y ++ tail_text l). cbn [path_chunks N.eqb Pos.eqb]. rewrite dot_next_is by easy. f_equal.
  unfold kept. cbn [filter]. fold (kept l). unfold plain_component at 1. destruct (str_eqb y [46]) eqn:E.
  - apply str_eqb_eq in E. subst y. cbn [app path_chunks]. rewrite IH by easy. reflexivity.
  - rewrite chunks_app, IH by easy. cbn [app]. now destruct y.
Qed.
Definition unrooted (cs : list str) : list str := match cs with x :: l => if str_eqb x [47] then l else cs | [] => [] end.
Lemma chunks_components p : path_chunks [] false p = unrooted (components p).
Proof.
  destruct (split_form p) as (x & l & H & ->). rewrite components_form by easy. pose proof H as H0. cbn [forallb] in H. apply andb_true_iff in H as [H1 H2].
  rewrite chunks_app, chunks_tail by easy. cbn [app]. destruct x as [|c x].
  - now destruct l.
  - cbn [end_chunk app unrooted str_eqb]. apply lacks_head in H1 as [H1 _]. now rewrite H1.
Qed.
Lemma relative_components p : relative p = true -> unrooted (components p) = components p.
Proof.
  destruct (split_form p) as (x & l & H & ->). rewrite components_form by easy. cbn [forallb] in H. apply andb_true_iff in H as [H1 H2].
  destruct x as [|c x].
  - destruct l as [|y l]; [easy|]. discriminate.
  - intros _. cbn [unrooted str_eqb]. apply lacks_head in H1 as [H1 _]. now rewrite H1.
Qed.
Lemma texts_tell a b x y (r s : list hwrite) : map WText a ++ WUsize x :: r = map WText b ++ WUsize y :: s -> a = b /\ r = s.
Proof.
  revert b. induction a as [|c a IH]; intros [|d b] H; cbn [map app] in H; try discriminate H; injection H as H.
  - now subst.
  - subst. apply IH in H0 as [-> ->]. easy.
Qed.
Lemma path_components p q : path_eq p q = true <-> components p = components q.
Proof. apply (list_E _ str_E). Qed.
Lemma c_path : coded relative f_path path_eq.
Proof.
  split.
  - intros p q H. apply path_components in H. unfold f_path. now rewrite !chunks_components, H.
  - intros p q r s Hp Hq H. unfold f_path in H. cbv zeta in H. rewrite <- !app_assoc in H. cbn [app] in H.
    apply texts_tell in H as [H ->]. split; [|easy]. apply path_components. rewrite !chunks_components in H. now rewrite !relative_components in H.
Qed.
Lemma path_told p q : f_path p = f_path q <-> unrooted (components p) = unrooted (components q).
Proof.
  rewrite <- !chunks_components. split.
  - intros H. unfold f_path in H. cbv zeta in H. now apply texts_tell in H.
  - intros H. unfold f_path. now rewrite H.
Qed.
