(** The orders of volumes and combo skip counts (C78). *)
From Coq Require Import String List NArith ZArith Bool Lia.
From Verif Require Import Str Num TimingPoints HitObjects Api Values Order Spec SpecTypes SpecOrder NumFacts TypeFacts.
Import ListNotations.
Local Open Scope N_scope.

Lemma Z_total : total_order Z.compare.
Proof.
  repeat split.
  - apply Z.compare_eq.
  - intros ->. apply Z.compare_refl.
  - intros a b. apply Z.compare_antisym.
  - intros a b c H1 H2. exact (Z.le_trans a b c H1 H2).
Qed.
Lemma volume_total : total_order ho_volume_cmp.
Proof.
  destruct Z_total as [He [Ho Ht]]. split; [|split].
  - intros [a|] [b|]; cbn [ho_volume_cmp]; split; try discriminate; try reflexivity.
    + intros H. apply He in H. subst. reflexivity.
    + intros H. injection H as ->. apply He. reflexivity.
  - intros [a|] [b|]; cbn [ho_volume_cmp]; try reflexivity. apply Ho.
  - intros [a|] [b|] [c|]; cbn [ho_volume_cmp]; intros H1 H2; try (exact (Ht _ _ _ H1 H2)); congruence.
Qed.
Lemma all_total : total_order combo_cmp /\ total_order tp_volume_cmp /\ total_order ho_volume_cmp.
Proof. repeat apply conj; try apply Z_total; apply volume_total. Qed.
Lemma volume_number v a b x y : sample_volume a -> sample_volume b ->
  integer_from_ho_volume a v = Some x -> integer_from_ho_volume b v = Some y -> ho_volume_cmp a b = (x ?= y)%Z.
Proof.
  unfold integer_from_ho_volume. intros Ha Hb Ex Ey. injection Ex as <-. injection Ey as <-.
  apply sample_volume_bounds in Ha. apply sample_volume_bounds in Hb.
  destruct Ha as [->|[x [-> Hx]]], Hb as [->|[y [-> Hy]]]; cbn [ho_volume_cmp ho_volume_to_Z]; try reflexivity; symmetry.
  - apply Z.compare_lt_iff. lia.
  - apply Z.compare_gt_iff. lia.
Qed.
Lemma volume_least a : ho_volume_cmp (ho_volume_use_timing_point a) a <> Gt.
Proof. destruct a; discriminate. Qed.
Lemma combo_order a b c d : combo_new a = ROk (Some c) -> combo_new b = ROk (Some d) -> combo_cmp c d = (a ?= b)%Z.
Proof.
  unfold combo_new, combo_skip_count_try_from.
  destruct (7 <? a)%Z; [discriminate|]. intros Ha. injection Ha as <-. destruct (7 <? b)%Z; [discriminate|]. intros Hb. injection Hb as <-. reflexivity.
Qed.
Lemma tp_volume_order x y a b : in_i32 x = true -> in_i32 y = true ->
  tp_volume_from_str (print_Z x) = ROk (Some a) -> tp_volume_from_str (print_Z y) = ROk (Some b) -> tp_volume_cmp a b = (x ?= y)%Z.
Proof.
  unfold tp_volume_from_str. intros Hx Hy. rewrite (parse_print_i32 x Hx), (parse_print_i32 y Hy). cbn [rmap].
  intros [= <-] [= <-]. reflexivity.
Qed.
