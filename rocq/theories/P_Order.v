(** C78: the orders of volumes and combo skip counts. *)
From Coq Require Import String List NArith ZArith Bool.
From Verif Require Import Str Num TimingPoints HitObjects Api Values Order Spec SpecTypes SpecOrder OrderFacts.
Import ListNotations.
Local Open Scope N_scope.

(** All three are total orders, in which only the same value is equal. *)
Theorem C78_total : total_order combo_cmp /\ total_order tp_volume_cmp /\ total_order ho_volume_cmp.
Proof. exact all_total. Qed.
Print Assumptions C78_total.
(** Volumes of samples are ordered as the numbers they are converted to, whatever was done to make them. *)
Theorem C78_sample_volume : forall v a b x y, sample_volume a -> sample_volume b ->
  integer_from_ho_volume a v = Some x -> integer_from_ho_volume b v = Some y -> ho_volume_cmp a b = (x ?= y)%Z.
Proof. exact volume_number. Qed.
Print Assumptions C78_sample_volume.
(** The volume of the timing point, however loud that is, comes first. *)
Theorem C78_timing_point : forall a, ho_volume_cmp (ho_volume_use_timing_point a) a <> Gt.
Proof. exact volume_least. Qed.
Print Assumptions C78_timing_point.
(** Combo skip counts are ordered as the numbers they were made from. *)
Theorem C78_combo : forall a b c d, combo_new a = ROk (Some c) -> combo_new b = ROk (Some d) -> combo_cmp c d = (a ?= b)%Z.
Proof. exact combo_order. Qed.
Print Assumptions C78_combo.
(** Volumes of timing points are ordered as the numbers they were read from. *)
Theorem C78_tp_volume : forall x y a b, in_i32 x = true -> in_i32 y = true ->
  tp_volume_from_str (print_Z x) = ROk (Some a) -> tp_volume_from_str (print_Z y) = ROk (Some b) -> tp_volume_cmp a b = (x ?= y)%Z.
Proof. exact tp_volume_order. Qed.
Print Assumptions C78_tp_volume.

Example C78_ex :
  sample_volume (Some 40%Z) /\ sample_volume None /\ ho_volume_cmp None (Some 1%Z) = Lt /\ ho_volume_cmp (Some 40%Z) (Some 9%Z) = Gt
  /\ integer_from_ho_volume (Some 40%Z) 14%Z = Some 40%Z /\ integer_from_ho_volume None 14%Z = Some 0%Z
  /\ ho_volume_cmp None (Some 0%Z) <> (0 ?= 0)%Z
  /\ combo_new 2%Z = ROk (Some 2%Z) /\ combo_new 7%Z = ROk (Some 7%Z) /\ combo_cmp 2 7 = Lt /\ tp_volume_cmp (-5) 100 = Lt
  /\ tp_volume_from_str (lit "-5") = ROk (Some (-5)%Z).
Proof.
  split; [apply (sv_text (lit "40")); reflexivity|]. split; [apply sv_default|]. vm_compute. repeat split; discriminate.
Qed.
