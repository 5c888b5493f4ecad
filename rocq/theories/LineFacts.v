(** Facts about the line based sections. *)
From Coq Require Import String List NArith ZArith Bool Lia.
From Verif Require Import Str Num Nom Dec Parsers Colours TimingPoints Spec StrFacts.
Import ListNotations.
Local Open Scope N_scope.

(** The outcome of a line based section, line by line. *)
Lemma parse_lines_err {A E} (f : str -> res A E) i ls j e :
  parse_lines f i ls = RErr (mk_line_err j e) <->
  exists n l, j = (i + Z.of_nat n)%Z /\ nth_error ls n = Some l
    /\ is_blank l = false /\ f l = RErr e
    /\ forall m l', (m < n)%nat -> nth_error ls m = Some l' ->
         is_blank l' = true \/ exists a, f l' = ROk a.
Proof.
  revert i. induction ls as [|x ls IH]; intros i; cbn [parse_lines].
  - split; [easy|]. intros (n & l & _ & Hn & _). now destruct n.
  - destruct (is_blank x) eqn:Ex; [|destruct (f x) as [a|e'|p] eqn:Ef].
    + rewrite IH. split.
      * intros (n & l & -> & Hn & Hb & Hf & Hm). exists (S n), l.
        split; [lia|]. repeat split; try easy. intros [|m] l' Hlt Hl'.
        -- injection Hl' as <-. now left.
        -- now apply (Hm m); [lia|].
      * intros ([|n] & l & -> & Hn & Hb & Hf & Hm).
        -- injection Hn as ->. congruence.
        -- exists n, l. split; [lia|]. repeat split; try easy. intros m l' Hlt Hl'.
           apply (Hm (S m)); [lia|easy].
    + transitivity (parse_lines f (i + 1) ls = RErr (mk_line_err j e)).
      { destruct (parse_lines f (i + 1) ls) as [?|?|?]; cbn; split; congruence. }
      rewrite IH. split.
      * intros (n & l & -> & Hn & Hb & Hf & Hm). exists (S n), l.
        split; [lia|]. repeat split; try easy. intros [|m] l' Hlt Hl'.
        -- injection Hl' as <-. right. now exists a.
        -- now apply (Hm m); [lia|].
      * intros ([|n] & l & -> & Hn & Hb & Hf & Hm).
        -- injection Hn as ->. congruence.
        -- exists n, l. split; [lia|]. repeat split; try easy. intros m l' Hlt Hl'.
           apply (Hm (S m)); [lia|easy].
    + split.
      * intros [= <- <-]. exists 0%nat, x. repeat split; try easy. lia.
      * intros ([|n] & l & -> & Hn & Hb & Hf & Hm).
        -- injection Hn as ->. rewrite Ef in Hf. injection Hf as ->. do 2 f_equal. lia.
        -- destruct (Hm 0%nat x ltac:(lia) eq_refl) as [H|[a H]]; congruence.
    + split; [easy|]. intros ([|n] & l & -> & Hn & Hb & Hf & Hm).
      * injection Hn as ->. congruence.
      * destruct (Hm 0%nat x ltac:(lia) eq_refl) as [H|[a H]]; congruence.
Qed.

Lemma parse_lines_np {A E} (f : str -> res A E) i ls p :
  (forall l, In l ls -> forall q, f l <> RPanic q) -> parse_lines f i ls <> RPanic p.
Proof.
  revert i. induction ls as [|x ls IH]; intros i H; cbn [parse_lines]; [easy|].
  assert (H2 : parse_lines f (i + 1) ls <> RPanic p) by (apply IH; intros; apply H; now right).
  destruct (is_blank x); [easy|]. pose proof (H x (or_introl eq_refl)) as Hx.
  destruct (f x); [|easy|now destruct (Hx p0)].
  destruct (parse_lines f (i + 1) ls); cbn; congruence.
Qed.

(** [parse_lines] reads the non-blank lines in order. *)
Lemma parse_lines_ok {A E} (f : str -> res A E) i ls xs :
  parse_lines f i ls = ROk xs <->
  Forall2 (fun l x => f l = ROk x) (filter (fun l => negb (is_blank l)) ls) xs.
Proof.
  revert i xs. induction ls as [|x ls IH]; intros i xs; cbn [parse_lines filter].
  - split; [intros [= <-]; constructor|]. intros H. now inversion H.
  - destruct (is_blank x); cbn [negb]; [apply IH|].
    destruct (f x) as [a|e|p] eqn:Ef.
    + split.
      * destruct (parse_lines f (i + 1) ls) eqn:Epl; cbn; try easy. intros [= <-].
        constructor; [easy|]. now apply (IH (i + 1)%Z).
      * intros H. inversion H as [|? ? ? ? H1 H2]; subst.
        apply (IH (i + 1)%Z) in H2. rewrite H2. cbn. congruence.
    + split; [easy|]. intros H. inversion H. congruence.
    + split; [easy|]. intros H. inversion H. congruence.
Qed.

(** Printed lines are read back. *)
Definition good_line (s : str) : bool := plain_line s && negb (is_blank s).
Lemma good_nonempty s : good_line s = true -> s <> [].
Proof. intros H ->. easy. Qed.
Lemma good_lines_join ls :
  forallb good_line ls = true -> lines (join [c_nl] ls) = ls.
Proof.
  intros H. apply lines_join.
  - eapply forallb_impl; [|exact H]. intros l Hl. unfold good_line in Hl.
    now apply andb_true_iff in Hl.
  - intros l <-. destruct ls as [|a ls]; [easy|].
    assert (Hin : In (last (a :: ls) [1]) (a :: ls)).
    { clear. revert a. induction ls as [|b ls IH]; intros a; [now left|]. right. apply IH. }
    rewrite forallb_forall in H. apply good_nonempty, H, Hin.
Qed.
Lemma parse_lines_print {A E} (f : str -> res A E) (pr : A -> str) i l :
  (forall x, In x l -> good_line (pr x) = true /\ f (pr x) = ROk x) ->
  parse_lines f i (map pr l) = ROk l.
Proof.
  intros H. apply parse_lines_ok.
  assert (Hf : filter (fun l => negb (is_blank l)) (map pr l) = map pr l).
  { induction l as [|x l IH]; [easy|]. cbn [map filter].
    destruct (H x (or_introl eq_refl)) as [Hg _]. unfold good_line in Hg.
    apply andb_true_iff in Hg as [_ Hg]. rewrite Hg. f_equal. apply IH. intros y Hy. apply H. now right. }
  rewrite Hf. clear Hf. induction l as [|x l IH]; cbn; constructor.
  - now apply H; left.
  - apply IH. intros y Hy. apply H. now right.
Qed.
Lemma lines_print_ok {A E} (f : str -> res A E) (pr : A -> str) l :
  (forall x, In x l -> good_line (pr x) = true /\ f (pr x) = ROk x) ->
  parse_lines f 0 (lines (join [c_nl] (map pr l))) = ROk l.
Proof.
  intros H. rewrite good_lines_join; [now apply parse_lines_print|].
  apply forallb_forall. intros s Hs. apply in_map_iff in Hs as (x & <- & Hx). now apply H.
Qed.

(** A line taken alone. *)
Lemma line_no_nl s n l : nth_error (lines s) n = Some l -> no_nl l = true.
Proof.
  intros H. apply nth_error_In in H. pose proof (lines_no_nl s) as Hl.
  rewrite forallb_forall in Hl. auto.
Qed.
Lemma lines_one s n l : nth_error (lines s) n = Some l -> is_blank l = false -> lines l = [l].
Proof.
  intros H Hb. apply lines_single; [now apply line_no_nl in H|]. now intros ->.
Qed.
Lemma lines_blank_one s n l : nth_error (lines s) n = Some l -> lines l = [] \/ lines l = [l].
Proof.
  intros H. destruct l as [|c l]; [now left|]. right. apply lines_single; [|easy].
  now apply line_no_nl in H.
Qed.
Lemma parse_lines_alone_ok {A E} (f : str -> res A E) s n l :
  nth_error (lines s) n = Some l ->
  is_blank l = true \/ (exists a, f l = ROk a) -> exists xs, parse_lines f 0 (lines l) = ROk xs.
Proof.
  intros H Hok. destruct (lines_blank_one s n l H) as [-> | ->]; cbn [parse_lines].
  - eauto.
  - destruct (is_blank l) eqn:Ebl; [eauto|]. destruct Hok as [Hb|[a ->]]; [congruence|]. cbn. eauto.
Qed.
Lemma parse_lines_alone_err {A E} (f : str -> res A E) s n l e :
  nth_error (lines s) n = Some l -> is_blank l = false -> f l = RErr e ->
  parse_lines f 0 (lines l) = RErr (mk_line_err 0 e).
Proof.
  intros H Hb He. rewrite (lines_one s n l H Hb). cbn [parse_lines]. now rewrite Hb, He.
Qed.

(** [run_list]. *)
Lemma run_list_ok {A E} (l : list (res A E)) xs :
  run_list l = ROk xs <-> Forall2 (fun r x => r = ROk x) l xs.
Proof.
  revert xs. induction l as [|r l IH]; intros xs; cbn [run_list].
  - split; [intros [= <-]; constructor|]. intros H. now inversion H.
  - destruct r as [a|e|p]; cbn [rbind].
    + split.
      * destruct (run_list l) eqn:Erl; cbn; try easy. intros [= <-]. constructor; [easy|]. now apply IH.
      * intros H. inversion H as [|? ? ? ? H1 H2]; subst. apply IH in H2. rewrite H2. cbn. congruence.
    + split; [easy|]. intros H. inversion H. congruence.
    + split; [easy|]. intros H. inversion H. congruence.
Qed.
Lemma run_list_map_ok {A B E} (f : A -> res B E) (g : A -> B) l :
  (forall x, In x l -> f x = ROk (g x)) -> run_list (map f l) = ROk (map g l).
Proof.
  intros H. apply run_list_ok. induction l as [|x l IH]; cbn; constructor.
  - apply H. now left.
  - apply IH. intros y Hy. apply H. now right.
Qed.
Lemma run_list_unwrap_some {A E} (l : list A) :
  @run_list A E (map unwrap (map Some l)) = ROk l.
Proof. induction l as [|x l IH]; cbn in *; [easy|]. now rewrite IH. Qed.
