(** Facts about strings. *)
From Coq Require Import String List NArith ZArith Bool Lia Permutation.
From Verif Require Import Str.
From Verif Require Export SpecWf.
Import ListNotations.
Local Open Scope N_scope.

Lemma str_eqb_eq a b : str_eqb a b = true <-> a = b.
Proof.
  revert b; induction a as [|x a IH]; intros [|y b]; simpl; split; try easy.
  - rewrite andb_true_iff, N.eqb_eq, IH. now intros [-> ->].
  - intros [= -> ->]. now rewrite N.eqb_refl, (proj2 (IH b) eq_refl).
Qed.
Lemma str_eqb_refl a : str_eqb a a = true.
Proof. now apply str_eqb_eq. Qed.
Lemma str_eqb_neq a b : str_eqb a b = false <-> a <> b.
Proof. rewrite <- str_eqb_eq. destruct (str_eqb a b); split; congruence. Qed.
Lemma str_eqb_sym a b : str_eqb a b = str_eqb b a.
Proof.
  destruct (str_eqb a b) eqn:E; symmetry.
  - apply str_eqb_eq in E; subst. apply str_eqb_refl.
  - apply str_eqb_neq in E. apply str_eqb_neq. congruence.
Qed.

Lemma mem_str_In x l : mem_str x l = true <-> In x l.
Proof.
  unfold mem_str. rewrite existsb_exists. split.
  - intros [y [H E]]. apply str_eqb_eq in E. now subst.
  - intros H. exists x. split; [easy|apply str_eqb_refl].
Qed.
Lemma mem_str_not_In x l : mem_str x l = false <-> ~ In x l.
Proof. rewrite <- mem_str_In. destruct (mem_str x l); split; congruence. Qed.

(** ** [span] *)
Lemma span_app f a b :
  forallb f a = true -> span f b = ([], b) -> span f (a ++ b) = (a, b).
Proof.
  intros Ha Hb. induction a as [|c a IH]; simpl in *; [easy|].
  apply andb_true_iff in Ha as [-> Ha]. now rewrite (IH Ha).
Qed.
Lemma span_all f a : forallb f a = true -> span f a = (a, []).
Proof. intros H. rewrite <- (app_nil_r a) at 1. now apply span_app. Qed.
Lemma span_stop f c b : f c = false -> span f (c :: b) = ([], c :: b).
Proof. intros H. simpl. now rewrite H. Qed.
Lemma span_spec f s a b :
  span f s = (a, b) ->
  s = a ++ b /\ forallb f a = true /\ (match b with [] => True | c :: _ => f c = false end).
Proof.
  revert a b. induction s as [|c s IH]; simpl; intros a b H.
  - injection H as <- <-. easy.
  - destruct (f c) eqn:E.
    + destruct (span f s) as [a' b'] eqn:E2. injection H as <- <-.
      destruct (IH _ _ eq_refl) as (-> & Ha & Hb). simpl. now rewrite E.
    + injection H as <- <-. simpl. now rewrite E.
Qed.
Lemma span_app_eq f s : fst (span f s) ++ snd (span f s) = s.
Proof. destruct (span f s) eqn:E. now apply span_spec in E as [-> _]. Qed.

(** ** [strip_prefix], [starts_with] *)
Lemma strip_prefix_app p s : strip_prefix p (p ++ s) = Some s.
Proof. induction p; simpl; [easy|]. now rewrite N.eqb_refl. Qed.
Lemma strip_prefix_spec p s t : strip_prefix p s = Some t <-> s = p ++ t.
Proof.
  revert s t. induction p as [|x p IH]; intros [|y s] t; simpl; split; intros H; try easy;
    try congruence.
  - destruct (x =? y) eqn:E; [|easy]. apply N.eqb_eq in E. subst. apply IH in H. now subst.
  - injection H as -> ->. rewrite N.eqb_refl. now apply IH.
Qed.
Lemma starts_with_spec p s : starts_with p s = true <-> exists t, s = p ++ t.
Proof.
  unfold starts_with. destruct (strip_prefix p s) as [t|] eqn:E; split; try easy.
  - intros _. exists t. now apply strip_prefix_spec.
  - intros [t ->]. now rewrite strip_prefix_app in E.
Qed.
Lemma starts_with_char_spec c s : starts_with_char c s = true <-> exists t, s = c :: t.
Proof.
  destruct s as [|d s]; simpl; split; try easy.
  - now intros [t H].
  - intros H. apply N.eqb_eq in H. subst. now exists s.
  - intros [t [= -> _]]. apply N.eqb_refl.
Qed.
Lemma ends_with_char_app c s t : t <> [] -> ends_with_char c (s ++ t) = ends_with_char c t.
Proof.
  intros H. unfold ends_with_char. rewrite rev_app_distr.
  destruct (rev t) eqn:E; [|easy]. apply (f_equal (@rev _)) in E. rewrite rev_involutive in E. easy.
Qed.
Lemma ends_with_char_snoc c s d : ends_with_char c (s ++ [d]) = (d =? c).
Proof. unfold ends_with_char. now rewrite rev_app_distr. Qed.

(** ** [join] and [split_on] *)
Lemma join_cons sep x l : l <> [] -> join sep (x :: l) = x ++ sep ++ join sep l.
Proof. now destruct l. Qed.
Lemma join_app sep a b : a <> [] -> b <> [] -> join sep (a ++ b) = join sep a ++ sep ++ join sep b.
Proof.
  intros Ha Hb. induction a as [|x a IH]; [easy|]. destruct a as [|y a].
  - simpl app at 1. rewrite join_cons by easy. easy.
  - rewrite (join_cons sep x (y :: a)) by easy. simpl app at 1.
    change (x :: y :: a ++ b) with (x :: ((y :: a) ++ b)).
    rewrite join_cons by easy. rewrite IH by easy. now rewrite <- !app_assoc.
Qed.

Definition clean_line (s : str) : bool :=
  forallb (fun c => negb (c =? 10) && negb (c =? 13)) s.

Lemma clean_no_nl s : clean_line s = true -> no_nl s = true.
Proof.
  unfold clean_line, no_nl. rewrite !forallb_forall. intros H c Hc.
  specialize (H c Hc). apply andb_true_iff in H. easy.
Qed.

(** A line that [lines] returns unchanged: no ['\n'], and no ['\r'] at its end. *)
Definition plain_line (s : str) : bool := no_nl s && negb (ends_with_char 13 s).

Lemma lines_app_nl l s :
  no_nl l = true -> ends_with_char 13 l = false -> lines (l ++ 10 :: s) = l :: lines s.
Proof.
  induction l as [|c l IH]; intros Hn He.
  - simpl. easy.
  - simpl in Hn. apply andb_true_iff in Hn as [Hc Hn].
    cbn [app lines]. unfold c_nl, c_cr.
    apply negb_true_iff in Hc. rewrite Hc.
    destruct l as [|d l].
    + cbn [app]. unfold ends_with_char in He. simpl in He. rewrite He. simpl. easy.
    + assert (He' : ends_with_char 13 (d :: l) = false).
      { rewrite <- He. symmetry. apply (ends_with_char_app 13 [c]). easy. }
      rewrite (IH Hn He'). cbn [app].
      simpl in Hn. apply andb_true_iff in Hn as [Hd _]. apply negb_true_iff in Hd. rewrite Hd.
      now rewrite andb_false_r.
Qed.
Lemma lines_single l :
  no_nl l = true -> l <> [] -> lines l = [l].
Proof.
  induction l as [|c l IH]; intros Hn Hne; [easy|].
  simpl in Hn. apply andb_true_iff in Hn as [Hc Hn]. apply negb_true_iff in Hc.
  cbn [lines]. unfold c_nl, c_cr. rewrite Hc.
  destruct l as [|d l].
  - rewrite andb_false_r. easy.
  - rewrite (IH Hn) by easy. simpl in Hn. apply andb_true_iff in Hn as [Hd _].
    apply negb_true_iff in Hd. rewrite Hd, andb_false_r. easy.
Qed.

(** [lines] inverts [join "\n"] (up to a final empty line). *)
Lemma lines_join ls :
  forallb plain_line ls = true -> (forall l, last ls [1] = l -> l <> []) ->
  lines (join [c_nl] ls) = ls.
Proof.
  induction ls as [|l ls IH]; intros Hp Hl; [easy|].
  cbn [forallb] in Hp. apply andb_true_iff in Hp as [Hpl Hp]. unfold plain_line in Hpl.
  apply andb_true_iff in Hpl as [Hn He]. apply negb_true_iff in He.
  destruct ls as [|l2 ls].
  - simpl. apply lines_single; [easy|]. now apply Hl.
  - rewrite join_cons by easy. change (l ++ [c_nl] ++ ?x) with (l ++ 10 :: x).
    rewrite lines_app_nl by easy. f_equal. apply IH; [easy|]. intros x Hx. now apply Hl.
Qed.

(** Every line [lines] returns has no ['\n']. *)
Lemma lines_no_nl s : forallb no_nl (lines s) = true.
Proof.
  induction s as [|c s IH]; [easy|]. cbn [lines]. unfold c_nl, c_cr.
  destruct (c =? 10) eqn:E; [easy|].
  destruct ((c =? 13) && _) eqn:E2; [easy|].
  destruct (lines s) as [|l ls].
  - simpl. now rewrite E.
  - simpl in *. now rewrite E.
Qed.

(** ** whitespace *)
Lemma trim_start_nil s : trim_start s = [] <-> forallb is_ws s = true.
Proof.
  induction s as [|c s IH]; simpl; [easy|]. destruct (is_ws c); simpl; [easy|]. split; easy.
Qed.
Lemma trim_end_nil s : trim_end s = [] <-> forallb is_ws s = true.
Proof.
  induction s as [|c s IH]; simpl; [easy|]. destruct (trim_end s) eqn:E.
  - destruct (is_ws c); simpl; [|split; easy]. rewrite <- IH. easy.
  - split; [easy|]. intros H. apply andb_true_iff in H as [_ H]. apply IH in H. easy.
Qed.
Lemma trim_start_incl s : exists a, s = a ++ trim_start s /\ forallb is_ws a = true.
Proof.
  induction s as [|c s [a [Ha Hw]]]; simpl; [now exists []|].
  destruct (is_ws c) eqn:E.
  - exists (c :: a). simpl. rewrite E, <- Ha. easy.
  - now exists [].
Qed.
Lemma trim_end_incl s : exists b, s = trim_end s ++ b /\ forallb is_ws b = true.
Proof.
  induction s as [|c s [b [Hb Hw]]]; simpl; [now exists []|].
  destruct (trim_end s) eqn:E.
  - destruct (is_ws c) eqn:Ec.
    + exists (c :: s). simpl. rewrite Ec. split; [easy|]. now apply trim_end_nil.
    + exists s. simpl in *. split; [easy|]. now apply trim_end_nil.
  - exists b. simpl. rewrite Hb at 1. easy.
Qed.
Lemma is_blank_forallb s : is_blank s = forallb is_ws s.
Proof.
  apply eq_true_iff_eq. unfold is_blank, trim. rewrite <- trim_start_nil.
  destruct (trim_start_incl s) as [a [Ha Hw]].
  transitivity (trim_end (trim_start s) = []).
  { destruct (trim_end (trim_start s)); easy. }
  rewrite trim_end_nil. split.
  - intros H. apply (proj2 (trim_start_nil s)). rewrite Ha, forallb_app, Hw, H. easy.
  - intros ->. easy.
Qed.
Lemma trim_ends s c d :
  is_ws c = false -> is_ws d = false -> trim (c :: s ++ [d]) = c :: s ++ [d].
Proof.
  intros Hc Hd. unfold trim. simpl. rewrite Hc. simpl.
  assert (H : trim_end (s ++ [d]) = s ++ [d]).
  { induction s as [|x s IH]; simpl; [now rewrite Hd|]. rewrite IH. now destruct s. }
  rewrite H. now destruct s.
Qed.
Lemma trim_one c : is_ws c = false -> trim [c] = [c].
Proof. intros H. unfold trim. simpl. rewrite H. simpl. now rewrite H. Qed.

(** ** [find_sub], [contains] *)
Lemma find_sub_spec p s a b :
  find_sub p s = Some (a, b) -> s = a ++ b /\ starts_with p b = true.
Proof.
  revert a b. induction s as [|c s IH]; simpl; intros a b H.
  - destruct (starts_with p []) eqn:E; [|easy]. injection H as <- <-. easy.
  - destruct (starts_with p (c :: s)) eqn:E.
    + injection H as <- <-. easy.
    + destruct (find_sub p s) as [[a' b']|] eqn:E2; [|easy]. injection H as <- <-.
      destruct (IH _ _ eq_refl) as [-> H]. easy.
Qed.
Lemma contains_char_spec c s : contains_char c s = true <-> In c s.
Proof.
  unfold contains_char. rewrite existsb_exists. split.
  - intros [x [H E]]. apply N.eqb_eq in E. now subst.
  - intros H. exists c. split; [easy|apply N.eqb_refl].
Qed.

(** Lists of outcomes. *)
Lemma forallb_Forall {A} (f : A -> bool) l : forallb f l = true <-> Forall (fun x => f x = true) l.
Proof. rewrite forallb_forall, Forall_forall. easy. Qed.

Lemma forallb_impl {A} (f g : A -> bool) l :
  (forall x, f x = true -> g x = true) -> forallb f l = true -> forallb g l = true.
Proof. rewrite !forallb_forall. intros H H1 x Hx. auto. Qed.
