(** The four key/value sections. *)
From Coq Require Import String List NArith ZArith Bool Lia Permutation.
From Verif Require Import Str Num Nom Dec Parsers KeyValue KvFields General Editor Metadata Difficulty Spec
  SpecWf SpecKv SpecText SpecSections StrFacts NumFacts NomFacts DecFacts LineFacts SplitFacts LayoutFacts
  KvFacts KvSem.
Import ListNotations.
Local Open Scope N_scope.

(** ** texts of values *)
Definition value_char (c : char) : bool := negb (blank_char c) && negb (break_char c).
Lemma value_chars s : forallb value_char s = true -> rest_ok s = true /\ head_is blank_char s = false.
Proof.
  intros H. split.
  - eapply forallb_impl; [|exact H]. intros c Hc. unfold value_char in Hc. now apply andb_true_iff in Hc.
  - destruct s as [|c s]; [easy|]. cbn in H. apply andb_true_iff in H as [H _]. unfold value_char in H.
    apply andb_true_iff in H as [H _]. now apply negb_true_iff in H.
Qed.
Lemma text_value_iff s : text_value s = true <-> rest_ok s = true /\ head_is blank_char s = false.
Proof. unfold text_value. now rewrite andb_true_iff, negb_true_iff. Qed.
Lemma digit_value_char c : is_digit c = true -> value_char c = true.
Proof.
  intros H. apply is_digit_range in H. unfold value_char, blank_char, break_char.
  rewrite andb_true_iff, !negb_true_iff, !orb_false_iff, !N.eqb_neq. lia.
Qed.
Lemma num_value_char c : num_char c = true -> value_char c = true.
Proof.
  unfold num_char. intros H. apply orb_true_iff in H as [H|H]; [now apply digit_value_char|].
  apply N.eqb_eq in H. now subst.
Qed.
Lemma dec_value_char c : dec_char c = true -> value_char c = true.
Proof.
  unfold dec_char. intros H. rewrite !orb_true_iff in H. destruct H as [[H|H]|H].
  - now apply digit_value_char.
  - apply N.eqb_eq in H. now subst.
  - apply N.eqb_eq in H. now subst.
Qed.
Lemma print_Z_value z : rest_ok (print_Z z) = true /\ head_is blank_char (print_Z z) = false.
Proof.
  apply value_chars. eapply forallb_impl; [|apply print_Z_chars]. apply num_value_char.
Qed.
Lemma print_decimal_value d :
  dec_value d = true -> rest_ok (print_decimal d) = true /\ head_is blank_char (print_decimal d) = false.
Proof.
  unfold dec_value. intros H. apply andb_true_iff in H as [_ H]. destruct d as [r|s]; cbn [print_decimal].
  - apply value_chars. eapply forallb_impl; [|apply print_rdec_chars]. apply dec_value_char.
  - now apply text_value_iff.
Qed.
Lemma join_chars (f : char -> bool) sep l :
  forallb f sep = true -> forallb (forallb f) l = true -> forallb f (join sep l) = true.
Proof.
  intros Hs. induction l as [|x l IH]; [easy|]. cbn [forallb]. intros H. apply andb_true_iff in H as [Hx Hl].
  destruct l as [|y l]; [easy|]. rewrite join_cons by easy. now rewrite !forallb_app, Hx, Hs, IH.
Qed.
Lemma print_int_list_value l :
  rest_ok (print_int_list l) = true /\ head_is blank_char (print_int_list l) = false.
Proof.
  apply value_chars. apply join_chars; [easy|]. induction l as [|z l IH]; [easy|]. cbn [map forallb].
  rewrite IH, andb_true_r. eapply forallb_impl; [|apply print_Z_chars]. apply num_value_char.
Qed.

(** ** reading back values *)
Lemma int_list_round_trip {E} (ferr : int_err -> E) flist l :
  forallb in_i32 l = true -> parse_int_list ferr flist (print_int_list l) = ROk l.
Proof.
  intros H. rewrite parse_int_list_eq. destruct l as [|z l]; [reflexivity|].
  destruct (print_int_list (z :: l)) as [|c0 t0] eqn:Ep.
  { exfalso. unfold print_int_list in Ep. cbn [map] in Ep. destruct l as [|y l].
    - cbn [map join] in Ep. now apply print_Z_nonempty in Ep.
    - cbn [map] in Ep. rewrite join_cons in Ep by easy. apply app_eq_nil in Ep as [Ep _].
      now apply print_Z_nonempty in Ep. }
  rewrite <- Ep. unfold print_int_list. change (lit ",") with [44]. rewrite join_split; [|easy|].
  - apply items_read_ok. clear Ep. induction (z :: l) as [|y ys IH]; cbn [map]; constructor.
    + cbn [forallb] in H. apply andb_true_iff in H as [H _]. now apply parse_print_i32.
    + cbn [forallb] in H. apply andb_true_iff in H as [_ H]. auto.
  - apply forallb_forall. intros s Hs. apply in_map_iff in Hs as (y & <- & _).
    eapply forallb_impl; [|apply print_Z_chars]. intros c Hc. unfold num_char in Hc.
    apply orb_true_iff in Hc as [Hc|Hc].
    + apply is_digit_range in Hc. apply negb_true_iff, N.eqb_neq. lia.
    + apply N.eqb_eq in Hc. now subst.
Qed.
Lemma int_list_range {E} (ferr : int_err -> E) flist s l :
  parse_int_list ferr flist s = ROk l -> forallb in_i32 l = true.
Proof.
  rewrite parse_int_list_eq. destruct s as [|c s]; [now intros [= <-]|]. intros H. apply items_read_ok in H.
  induction H as [|x z xs zs H1 H2 IH]; [easy|]. cbn. rewrite IH, andb_true_r.
  now apply parse_i32_range in H1.
Qed.
Lemma parse_int_list_np {E} (ferr : int_err -> E) flist s p : parse_int_list ferr flist s <> RPanic p.
Proof.
  rewrite parse_int_list_eq. destruct s as [|c s]; [easy|].
  induction (split_on 44 (c :: s)) as [|x l IH]; [easy|]. cbn [items_read].
  destruct (parse_i32 x) eqn:Ex; [|easy|now apply parse_i32_no_panic in Ex].
  destruct (items_read ferr flist l); cbn; congruence.
Qed.

Lemma sep_tail_ext {C A B} (sep : parser C B) (p q : parser C A) fuel s :
  (forall s, p s = q s) -> sep_tail fuel sep p s = sep_tail fuel sep q s.
Proof.
  intros H. revert s. induction fuel as [|f IH]; intros s; [easy|]. cbn [sep_tail].
  destruct (sep s) as [r x| | |]; try easy. destruct (Nat.eqb _ _); [easy|]. rewrite H.
  destruct (q r) as [r' a| | |]; try easy. now rewrite IH.
Qed.
Lemma from_tags_eq s v : from_tags s v = ROk (Some (split_on 32 s)).
Proof.
  unfold from_tags, nv.
  assert (H : @separated_list0 unit _ _ (tag (lit " ")) (take_till (fun c => c =? 32)) s
              = POk [] (split_on 32 s)).
  { transitivity (@separated_list0 unit _ _ (tag [32])
                    (map_res (take_till (fun c => c =? 32)) (fun x => @ROk str unit x)) s).
    { unfold separated_list0.
      assert (He : forall s, @take_till unit (fun c => c =? 32) s
                   = map_res (take_till (fun c => c =? 32)) (fun x => @ROk str unit x) s).
      { intros s0. unfold map_res. now destruct (take_till (fun c => c =? 32) s0). }
      rewrite <- He. destruct (take_till (fun c => c =? 32) s) as [r a| | |]; try easy.
      change (lit " ") with [32]. rewrite (sep_tail_ext _ _ _ _ r He). easy. }
    destruct (split_on 32 s) as [|x l] eqn:El; [now apply split_on_nonempty in El|].
    pose proof (split_on_lacks 32 s) as Hl. rewrite El in Hl. cbn [forallb] in Hl.
    apply andb_true_iff in Hl as [Hx Hl].
    rewrite <- (split_on_join 32 s) at 1. rewrite El.
    rewrite separated_items by easy.
    rewrite (take_ok_all _ l l); [easy|]. clear. induction l; constructor; auto. }
  rewrite H. easy.
Qed.
Lemma tags_value_text l : tags_value l = true ->
  rest_ok (join (lit " ") l) = true /\ head_is blank_char (join (lit " ") l) = false
  /\ split_on 32 (join (lit " ") l) = l.
Proof.
  change (lit " ") with [32]. destruct l as [|x l]; [easy|]. destruct l as [|y l].
  - cbn [tags_value join]. intros H. apply andb_true_iff in H as [H1 H2]. apply text_value_iff in H2 as [H2 H3].
    repeat split; try easy. now apply split_lacks.
  - intros H. change (tags_value (x :: y :: l)) with
      (negb (is_empty x) && text_value x
       && forallb (fun t => forallb (fun c => negb (c =? 32)) t && rest_ok t) (x :: y :: l)) in H.
    rewrite !andb_true_iff in H. destruct H as [[Hne Hx] Hl]. apply text_value_iff in Hx as [H2 H3].
    split; [|split].
    + apply join_chars; [easy|]. eapply forallb_impl; [|exact Hl]. intros t Ht.
      now apply andb_true_iff in Ht.
    + rewrite join_cons by easy. now destruct x.
    + apply join_split; [easy|]. eapply forallb_impl; [|exact Hl]. intros t Ht.
      now apply andb_true_iff in Ht.
Qed.
Lemma split_rest c s : rest_ok s = true -> forallb rest_ok (split_on c s) = true.
Proof.
  induction s as [|d s IH]; [easy|]. cbn [split_on]. intros H. cbn in H. apply andb_true_iff in H as [Hd Hs].
  specialize (IH Hs). destruct (d =? c); [exact IH|].
  destruct (split_on c s) as [|x l] eqn:El; [now apply split_on_nonempty in El|].
  cbn in *. now rewrite Hd.
Qed.
Lemma split_tags_value s :
  rest_ok s = true -> head_is blank_char s = false -> tags_value (split_on 32 s) = true.
Proof.
  intros Hr Hh. pose proof (split_rest 32 s Hr) as H1. pose proof (split_on_lacks 32 s) as H2.
  pose proof (split_on_join 32 s) as Hj.
  destruct (split_on 32 s) as [|x l] eqn:El; [now apply split_on_nonempty in El|]. destruct l as [|y l].
  - cbn [join] in Hj. subst x. cbn [forallb] in H2. rewrite andb_true_r in H2. unfold tags_value.
    rewrite andb_true_iff. split; [exact H2|]. now apply text_value_iff.
  - change (tags_value (x :: y :: l)) with
      (negb (is_empty x) && text_value x
       && forallb (fun t => forallb (fun c => negb (c =? 32)) t && rest_ok t) (x :: y :: l)).
    rewrite !andb_true_iff. rewrite join_cons in Hj by easy.
    assert (Hne : x <> []). { intros ->. cbn in Hj. subst s. easy. }
    repeat split.
    + now destruct x.
    + apply text_value_iff. cbn [forallb] in H1. apply andb_true_iff in H1 as [H1 _]. split; [easy|].
      subst s. now destruct x.
    + apply forallb_forall. intros t Ht. rewrite forallb_forall in H1, H2. rewrite (H1 t Ht), andb_true_r.
      now apply (H2 t Ht).
Qed.

(** ** the kinds of fields *)
Definition reads {A E} (from : str -> version -> res (option A) E) (t : str) (v : version) (y : option A) : Prop :=
  rest_ok t = true /\ head_is blank_char t = false /\ from t v = ROk y.
Lemma reads_text {E} s v : text_value s = true -> reads (E:=E) from_text s v (Some s).
Proof. intros H. apply text_value_iff in H as [H1 H2]. now repeat split. Qed.
Lemma reads_dec {E} d v : dec_value d = true -> reads (E:=E) from_dec (print_decimal d) v (Some d).
Proof.
  intros H. destruct (print_decimal_value d H) as [H1 H2]. repeat split; try easy.
  unfold from_dec, nv, parse_decimal. cbn [rmap]. unfold dec_value in H. apply andb_true_iff in H as [H _].
  now rewrite decimal_print_parse.
Qed.
Lemma reads_int {E} (f : int_err -> E) z v : in_i32 z = true -> reads (from_int f) (print_Z z) v (Some z).
Proof.
  intros H. destruct (print_Z_value z) as [H1 H2]. repeat split; try easy.
  unfold from_int, nv. now rewrite parse_print_i32.
Qed.
Lemma reads_id z v : in_i32 z = true -> reads from_id (print_Z z) v (Some z).
Proof.
  intros H. destruct (print_Z_value z) as [H1 H2]. repeat split; try easy.
  unfold from_id, nv. now rewrite parse_print_i32.
Qed.
Lemma reads_ints {E} (f : int_err -> E) e l v :
  forallb in_i32 l = true -> reads (nv (parse_int_list f e)) (print_int_list l) v (Some l).
Proof.
  intros H. destruct (print_int_list_value l) as [H1 H2]. repeat split; try easy.
  unfold nv. now rewrite int_list_round_trip.
Qed.
Lemma reads_flag b v : reads from_zero_one (print_bool b) v (Some b).
Proof. now destruct b. Qed.
Lemma reads_tags l v : tags_value l = true -> reads from_tags (join (lit " ") l) v (Some l).
Proof.
  intros H. destruct (tags_value_text l H) as (H1 & H2 & H3). repeat split; try easy.
  rewrite from_tags_eq. now rewrite H3.
Qed.
Lemma reads_countdown c v : old_version v = false ->
  reads countdown_from_str (print_Z (countdown_repr c)) v (Some c).
Proof.
  intros H. unfold reads, countdown_from_str, countdown_from_repr. rewrite H. now destruct c.
Qed.
Lemma reads_mode m v :
  reads mode_from_str (print_Z (mode_repr m)) v (opt_if (has_mode v m) (Some m)).
Proof.
  destruct (print_Z_value (mode_repr m)) as [H1 H2]. repeat split; try easy.
  unfold mode_from_str. rewrite parse_print_usize by now destruct m.
  assert (Hg : mode_gate m v = opt_if (has_mode v m) (Some m)).
  { destruct m; unfold mode_gate, has_mode, opt_if;
      repeat match goal with |- context [(?a <=? ?b)%Z] => destruct (Z.leb_spec a b) end;
      repeat match goal with |- context [(?a <? ?b)%Z] => destruct (Z.ltb_spec a b) end;
      cbn; try reflexivity; exfalso; lia. }
  destruct m; cbn [mode_repr]; cbn; now rewrite Hg.
Qed.

(** ** law tactics *)
Fixpoint nodup_str (l : list str) : bool :=
  match l with [] => true | x :: l' => negb (mem_str x l') && nodup_str l' end.
Lemma nodup_str_ok l : nodup_str l = true -> NoDup l.
Proof.
  induction l as [|x l IH]; [constructor|]. cbn. intros H. apply andb_true_iff in H as [H1 H2].
  constructor; [|auto]. intros Hin. apply negb_true_iff in H1.
  assert (Hm : mem_str x l = true) by now apply mem_str_In. congruence.
Qed.
Ltac each_field H := repeat (destruct H as [<-|H]; [|]); [..|destruct H].
Ltac prove_laws ext :=
  constructor;
  [ apply nodup_str_ok; reflexivity
  | intros f x s Hf; each_field Hf; reflexivity
  | intros f g x s Hf Hg; each_field Hf; each_field Hg; intros Hne; first [now exfalso; apply Hne | reflexivity]
  | intros s1 s2 H; apply Forall_forall in H; unfold ext in H;
    repeat match type of H with Forall _ (_ :: _) =>
      let H0 := fresh "F" in pose proof (Forall_inv H) as H0; cbn in H0; apply Forall_inv_tail in H end;
    clear H; destruct s1, s2; cbn in *; subst; reflexivity
  | intros f Hf; each_field Hf; reflexivity
  | intros f Hf; each_field Hf; split; reflexivity
  | ].
Lemma editor_laws : field_laws editor_fields editor_new editor_spacing.
Proof. prove_laws editor_fields. reflexivity. Qed.
Lemma metadata_laws : field_laws metadata_fields metadata_new metadata_spacing.
Proof. prove_laws metadata_fields. reflexivity. Qed.
Lemma difficulty_laws : field_laws difficulty_fields difficulty_new difficulty_spacing.
Proof.
  prove_laws difficulty_fields. intros k v. unfold difficulty_spacing.
  repeat match goal with |- context [if ?b then _ else _] => destruct b end; reflexivity.
Qed.
Lemma general_laws : field_laws general_fields general_new general_spacing.
Proof. prove_laws general_fields. reflexivity. Qed.
