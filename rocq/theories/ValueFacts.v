(** Values made by a program (C55): proofs. *)
From Coq Require Import String List NArith ZArith Bool Lia.
From Verif Require Import Str Num Nom Dec Parsers General TimingPoints HitObjects Storyboard NormalEvents Values
  Spec SpecWf SpecText SpecCmd SpecEvents StrFacts NumFacts DecFacts.
Import ListNotations.
Local Open Scope N_scope.

(** ** decimals *)
Lemma try_make_spec d d' r : decimal_try_make d = (d', r) ->
  d' = (match d with DNum _ => d | DRaw s => decimal_of_str s end)
  /\ (r = ROk tt /\ (exists x, d' = DNum x) \/ r = RErr tt /\ d' = d /\ exists s, d = DRaw s).
Proof.
  unfold decimal_try_make, decimal_of_str. destruct d as [x|s]; [intros [= <- <-]; eauto|].
  destruct (parse_rdec s); intros [= <- <-]; split; eauto 6.
Qed.
Lemma try_make_twice d d' r : decimal_try_make d = (d', r) -> decimal_try_make d' = (d', r).
Proof.
  intros H. destruct d as [x|s]; cbn in H; [now injection H as <- <-|]. destruct (parse_rdec s) eqn:E; injection H as <- <-; [easy|]. cbn. now rewrite E.
Qed.
Lemma try_make_reads s d' r : decimal_try_make (decimal_new_from_str s) = (d', r) ->
  decimal_from (print_decimal (decimal_new_from_str s)) = d' /\ decimal_from (print_decimal d') = d'.
Proof.
  intros H. apply try_make_spec in H as [H _]. cbn in *. split; [easy|]. subst d'. apply decimal_print_parse, decimal_of_str_wf.
Qed.
Lemma print_int neg m : print_rdec (mkDec neg m 0) = (if neg then [45] else []) ++ print_N m.
Proof.
  unfold print_rdec, print_rdec_abs, padded, mant_digits. cbn [d_neg d_scale d_mant]. f_equal. cbn [Nat.sub repeat app]. rewrite Nat.sub_0_r, firstn_all, skipn_all, app_nil_r.
  destruct (N.eqb_spec m 0) as [->|]; [reflexivity|]. pose proof (print_N_nonempty m). now destruct (print_N m).
Qed.
Lemma from_i32_print z : in_i32 z = true -> print_decimal (decimal_from_i32 z) = print_Z z /\ decimal_from (print_Z z) = decimal_from_i32 z.
Proof.
  intros H. unfold in_i32, i32_min, i32_max in H. rewrite andb_true_iff, !Z.leb_le in H.
  assert (P : print_decimal (decimal_from_i32 z) = print_Z z).
  { unfold decimal_from_i32, decimal_of_Z, rdec_of_Z, from_parts. cbn [print_decimal]. rewrite print_int. now destruct z. }
  split; [easy|]. rewrite <- P. apply decimal_print_parse. unfold decimal_from_i32, decimal_of_Z, rdec_of_Z, from_parts, wf_decimal, wf_rdec. cbn [d_mant d_scale d_neg].
  rewrite !andb_true_iff. split; [split; [apply N.ltb_lt; unfold two96; lia|easy]|]. destruct (Z.to_N (Z.abs z) =? 0); [easy|]. apply orb_true_r.
Qed.

(** ** tables *)
Lemma table_of {A} (l : list A) (of : Z -> option A) z x :
  (forall n, (n < length l)%nat -> of (Z.of_nat n) = nth_error l n) -> (forall y, (y < 0 \/ Z.of_nat (length l) <= y)%Z -> of y = None) ->
  of z = Some x <-> numbered l x z.
Proof.
  intros H1 H2. unfold numbered. destruct (Z_lt_dec z 0) as [L|L]; [|destruct (Z_le_dec (Z.of_nat (length l)) z) as [G|G]].
  - rewrite H2 by lia. split; [easy|lia].
  - rewrite H2 by lia. split; [easy|]. intros [_ H]. assert (Z.to_nat z < length l)%nat by (apply nth_error_Some; congruence). lia.
  - specialize (H1 (Z.to_nat z) ltac:(lia)). rewrite Z2Nat.id in H1 by lia. rewrite H1. split; [split; [lia|easy]|easy].
Qed.
Ltac bits z := destruct z as [|z|z]; [|do 6 (try destruct z as [z|z|])|].
Ltac small n := do 35 (destruct n as [|n]; [reflexivity|]).
Lemma origin_type_of_table z x : origin_type_of_Z z = Some x <-> numbered origin_types x z.
Proof.
  apply table_of; cbn [length origin_types].
  - intros n Hn. do 10 (destruct n as [|n]; [reflexivity|]). lia.
  - intros y Hy. bits y; try reflexivity; exfalso; lia.
Qed.
Lemma layer_legacy_of_table z x : layer_legacy_of_Z z = Some x <-> numbered legacy_layers x z.
Proof.
  apply table_of; cbn [length legacy_layers].
  - intros n Hn. do 6 (destruct n as [|n]; [reflexivity|]). lia.
  - intros y Hy. bits y; try reflexivity; exfalso; lia.
Qed.
Lemma au_layer_of_table z x : au_layer_of_Z z = Some x <-> numbered [AlBackground; AlFail; AlPass; AlForeground] x z.
Proof.
  apply table_of; cbn [length].
  - intros n Hn. do 4 (destruct n as [|n]; [reflexivity|]). lia.
  - intros y Hy. bits y; try reflexivity; exfalso; lia.
Qed.
Lemma countdown_table z x v : old_version v = false -> countdown_from_repr z v = Some (Some x) <-> numbered [NoCountdown; CdNormal; CdHalf; CdDouble] x z.
Proof.
  intros Hv. rewrite <- (table_of _ (fun z => match countdown_from_repr z v with Some o => o | None => None end)).
  - destruct (countdown_from_repr z v) as [o|]; [|easy]. split; [now intros [= ->]|now intros ->].
  - intros n Hn. unfold countdown_from_repr. rewrite Hv. cbn [length] in Hn. do 4 (destruct n as [|n]; [reflexivity|]). lia.
  - intros y Hy. cbn [length] in Hy. unfold countdown_from_repr. rewrite Hv. destruct (Z.eqb_spec y 0); [lia|]. destruct (Z.eqb_spec y 1); [lia|]. destruct (Z.eqb_spec y 2); [lia|]. destruct (Z.eqb_spec y 3); [lia|]. easy.
Qed.
Lemma origin_type_to_table z x : origin_type_to_Z x = z <-> numbered origin_types x z.
Proof. rewrite <- origin_type_of_table. split; [intros <-; now destruct x|]. bits z; cbn; now intros [= <-]. Qed.
Lemma layer_legacy_to_table z x : layer_legacy_to_Z x = z <-> numbered legacy_layers x z.
Proof. rewrite <- layer_legacy_of_table. split; [intros <-; now destruct x|]. bits z; cbn; now intros [= <-]. Qed.
Lemma easing_of_table z x : easing_of_Z z = x <-> match x with EzOther n => n = z /\ ~ (0 <= z < 35)%Z | _ => numbered easing_table x z end.
Proof.
  assert (T : numbered easing_table x z <-> (match easing_of_Z z with EzOther _ => None | e => Some e end) = Some x).
  { symmetry. apply (table_of easing_table (fun z => match easing_of_Z z with EzOther _ => None | e => Some e end)); cbn [length easing_table].
    - intros n Hn. small n. lia.
    - intros y Hy. bits y; try reflexivity; exfalso; lia. }
  destruct x; try (rewrite T; destruct (easing_of_Z z); split; congruence).
  clear T. split.
  - intros H. assert (Z : z0 = z /\ easing_of_Z z = EzOther z) by (revert H; bits z; cbn; intros [= <-]; easy). destruct Z as [-> Z]. split; [easy|]. clear H. intros L.
    rewrite <- (Z2Nat.id z) in Z by lia. remember (Z.to_nat z) as n eqn:En. do 35 (destruct n as [|n]; [discriminate Z|]). lia.
  - intros [-> L]. bits z; try reflexivity; exfalso; lia.
Qed.
Lemma easing_to_table z x : easing_to_Z x = z <-> easing_number x z.
Proof.
  unfold easing_number. pose proof (easing_of_table z x) as T. unfold numbered in T.
  destruct x; cbn [easing_to_Z]; try (rewrite <- T; split; [intros <-; reflexivity|]; let H := fresh in bits z; intros H; first [reflexivity|discriminate H]). split; congruence.
Qed.

(** ** sample sets and indices *)
Lemma tp_sample_set_table z x : tp_sample_set_of_Z z = x
  <-> match x with TsOther n => n = z /\ ~ (0 <= z < 4)%Z | _ => numbered [TsBeatmapDefault; TsNormal; TsSoft; TsDrum] x z end.
Proof.
  unfold tp_sample_set_of_Z, numbered.
  destruct (Z.eqb_spec z 0) as [->|]; [destruct x; cbn; split; try easy; lia|]. destruct (Z.eqb_spec z 1) as [->|]; [destruct x; cbn; split; try easy; lia|].
  destruct (Z.eqb_spec z 2) as [->|]; [destruct x; cbn; split; try easy; lia|]. destruct (Z.eqb_spec z 3) as [->|]; [destruct x; cbn; split; try easy; lia|].
  assert (N : forall y, ~ ((0 <= z)%Z /\ nth_error [TsBeatmapDefault; TsNormal; TsSoft; TsDrum] (Z.to_nat z) = Some y)).
  { intros y [H0 H]. assert (Z.to_nat z < 4)%nat by (apply (nth_error_Some [TsBeatmapDefault; TsNormal; TsSoft; TsDrum]); congruence). lia. }
  destruct x; try (split; [easy|intros H; now apply N in H]). split; [intros [= ->]; lia|now intros [-> _]].
Qed.
Lemma sample_set_table z x : sample_set_of_Z z = x
  <-> match x with SsOther n => n = z /\ ~ (0 <= z < 4)%Z | _ => numbered [SsNone; SsNormal; SsSoft; SsDrum] x z end.
Proof.
  unfold sample_set_of_Z, numbered.
  destruct (Z.eqb_spec z 0) as [->|]; [destruct x; cbn; split; try easy; lia|]. destruct (Z.eqb_spec z 1) as [->|]; [destruct x; cbn; split; try easy; lia|].
  destruct (Z.eqb_spec z 2) as [->|]; [destruct x; cbn; split; try easy; lia|]. destruct (Z.eqb_spec z 3) as [->|]; [destruct x; cbn; split; try easy; lia|].
  assert (N : forall y, ~ ((0 <= z)%Z /\ nth_error [SsNone; SsNormal; SsSoft; SsDrum] (Z.to_nat z) = Some y)).
  { intros y [H0 H]. assert (Z.to_nat z < 4)%nat by (apply (nth_error_Some [SsNone; SsNormal; SsSoft; SsDrum]); congruence). lia. }
  destruct x; try (split; [easy|intros H; now apply N in H]). split; [intros [= ->]; lia|now intros [-> _]].
Qed.
Lemma sets_back z : tp_sample_set_to_Z (tp_sample_set_of_Z z) = z /\ sample_set_to_Z (sample_set_of_Z z) = z.
Proof.
  unfold tp_sample_set_of_Z, sample_set_of_Z. destruct (Z.eqb_spec z 0); [easy|]. destruct (Z.eqb_spec z 1); [easy|]. destruct (Z.eqb_spec z 2); [easy|]. destruct (Z.eqb_spec z 3); easy.
Qed.
Lemma index_back z : (0 <= z <= u32_max)%Z -> sample_index_to_Z (sample_index_of_u32 z) = if (z <? 2 ^ 31)%Z then z else (z - 2 ^ 32)%Z.
Proof.
  unfold u32_max. intros H. unfold sample_index_of_u32. destruct (Z.eqb_spec z 0) as [->|]; [easy|]. cbn [sample_index_to_Z]. unfold wrap_i32, i32_min.
  change (2 ^ 31)%Z with 2147483648%Z. change (2 ^ 32)%Z with 4294967296%Z. destruct (Z.ltb_spec z 2147483648).
  - rewrite Z.mod_small; lia.
  - replace (z - -2147483648)%Z with (z - 2147483648 + 1 * 4294967296)%Z by lia. rewrite Z.mod_add, Z.mod_small; lia.
Qed.
Lemma ho_index_back z : ho_index_to_Z (ho_index_of_Z z) = z.
Proof. unfold ho_index_of_Z. now destruct (Z.eqb_spec z 0) as [->|]. Qed.
Lemma error_lines {A E F G} (f : E -> F) (g : F -> G) (r : res A E) k j i :
  error_processing_line g (error_processing_line f (error_new_from_result r k) j) i = error_new_from_result_into (fun e => g (f e)) r (k + j + i).
Proof. now destruct r. Qed.

(** ** in the words of P_Values.v *)
Lemma repr_iff {A} (o : option A) x : repr o = ROk (Some x) <-> o = Some x.
Proof. destruct o; cbn; split; congruence. Qed.
Lemma origin_tables z x v :
  (origin_legacy_from_repr z v = ROk (Some x) <-> numbered origin_types x z)
  /\ (origin_type_try_from z v = ROk (Some x) <-> numbered origin_types x z)
  /\ (usize_from_origin_legacy x v = Some z <-> numbered origin_types x z)
  /\ (integer_from_origin_type x v = Some z <-> numbered origin_types x z).
Proof.
  unfold origin_legacy_from_repr, origin_type_try_from, usize_from_origin_legacy, integer_from_origin_type.
  assert (T : Some (origin_type_to_Z x) = Some z <-> numbered origin_types x z) by (rewrite <- origin_type_to_table; split; congruence).
  split; [now rewrite repr_iff, origin_type_of_table|]. split; [|easy].
  rewrite <- origin_type_of_table. destruct (origin_type_of_Z z); split; congruence.
Qed.
Lemma layer_tables z x v :
  (layer_legacy_from_repr z v = ROk (Some x) <-> numbered legacy_layers x z)
  /\ (usize_from_layer_legacy x v = Some z <-> numbered legacy_layers x z).
Proof.
  unfold layer_legacy_from_repr, usize_from_layer_legacy. split; [now rewrite repr_iff, layer_legacy_of_table|].
  rewrite <- layer_legacy_to_table. split; congruence.
Qed.
Lemma au_layer_tables z x (v : version) : au_layer_from_repr z v = ROk (Some x) <-> numbered sample_layers x z.
Proof. unfold au_layer_from_repr. rewrite repr_iff. apply au_layer_of_table. Qed.
Lemma old_not v : old_version v = false <-> ~ (3 <= v <= 4)%Z.
Proof. unfold old_version. rewrite andb_false_iff, !Z.leb_gt. lia. Qed.
Lemma countdown_tables z x v :
  countdown_from_repr_v z v = ROk (Some x) <-> ~ (3 <= v <= 4)%Z /\ numbered [NoCountdown; CdNormal; CdHalf; CdDouble] x z.
Proof.
  rewrite <- old_not. unfold countdown_from_repr_v. destruct (old_version v) eqn:E.
  - unfold countdown_from_repr. rewrite E. split; [easy|now intros [? _]].
  - rewrite <- (countdown_table z x v E). destruct (countdown_from_repr z v); split; try easy; [now intros [= ->]|now intros [_ [= ->]]].
Qed.
Lemma none_iff {A} (l : list A) (o : option A) z : (forall x, o = Some x <-> numbered l x z) -> o = None <-> ~ (0 <= z < Z.of_nat (length l))%Z.
Proof.
  intros H. destruct o as [x|].
  - pose proof (proj1 (H x) eq_refl) as [H0 N]. assert (Z.to_nat z < length l)%nat by (apply nth_error_Some; congruence). split; [easy|lia].
  - split; [|easy]. intros _ R. destruct (nth_error l (Z.to_nat z)) as [y|] eqn:N; [|apply nth_error_None in N; lia].
    assert (T : None = Some y) by (apply H; split; [lia|easy]). discriminate T.
Qed.
Lemma refused z v :
  (origin_legacy_from_repr z v = RErr InvalidRepr <-> ~ (0 <= z < 10)%Z)
  /\ (origin_type_try_from z v = RErr tt <-> ~ (0 <= z < 10)%Z)
  /\ (layer_legacy_from_repr z v = RErr InvalidRepr <-> ~ (0 <= z < 6)%Z)
  /\ (au_layer_from_repr z v = RErr InvalidRepr <-> ~ (0 <= z < 4)%Z)
  /\ (countdown_from_repr_v z v = RErr InvalidRepr <-> ~ (3 <= v <= 4)%Z /\ ~ (0 <= z < 4)%Z).
Proof.
  unfold origin_legacy_from_repr, origin_type_try_from, layer_legacy_from_repr, au_layer_from_repr.
  assert (R : forall A (o : option A), repr o = RErr InvalidRepr <-> o = None) by (intros A [a|]; cbn; split; congruence).
  rewrite !R. pose proof (none_iff _ _ z (fun x => origin_type_of_table z x)) as T1.
  pose proof (none_iff _ _ z (fun x => layer_legacy_of_table z x)) as T2. pose proof (none_iff _ _ z (fun x => au_layer_of_table z x)) as T3.
  split; [exact T1|]. split; [rewrite <- T1; destruct (origin_type_of_Z z); split; congruence|]. split; [exact T2|]. split; [exact T3|].
  rewrite <- old_not. unfold countdown_from_repr_v, countdown_from_repr. destruct (old_version v); [split; [easy|now intros [? _]]|].
  destruct (Z.eqb_spec z 0); [split; [easy|lia]|]. destruct (Z.eqb_spec z 1); [split; [easy|lia]|]. destruct (Z.eqb_spec z 2); [split; [easy|lia]|]. destruct (Z.eqb_spec z 3); [split; [easy|lia]|].
  split; [intros _; split; [easy|lia]|easy].
Qed.
Lemma easing_tables z x (v : version) : easing_from z v = Some x
  <-> match x with EzOther n => n = z /\ ~ (0 <= z < 35)%Z | _ => numbered easing_table x z end.
Proof. rewrite <- easing_of_table. unfold easing_from. split; congruence. Qed.
Lemma easing_numbers z x (v : version) : integer_from_easing x v = Some z <-> easing_number x z.
Proof. rewrite <- easing_to_table. unfold integer_from_easing. split; congruence. Qed.
Lemma easing_back z x v : easing_from z v = Some x -> integer_from_easing x v = Some z.
Proof.
  rewrite easing_tables, easing_numbers. unfold easing_number, numbered. destruct x; easy.
Qed.
Lemma sample_set_tables z :
  (forall x v, tp_sample_set_from z v = Some x
     <-> match x with TsOther n => n = z /\ ~ (0 <= z < 4)%Z | _ => numbered [TsBeatmapDefault; TsNormal; TsSoft; TsDrum] x z end)
  /\ (forall x, sample_set_of_Z z = x
     <-> match x with SsOther n => n = z /\ ~ (0 <= z < 4)%Z | _ => numbered [SsNone; SsNormal; SsSoft; SsDrum] x z end)
  /\ (forall x v, tp_sample_set_from z v = Some x -> integer_from_tp_sample_set x v = Some z)
  /\ (forall v, usize_from_sample_set (sample_set_of_Z z) v = Some z).
Proof.
  unfold tp_sample_set_from, integer_from_tp_sample_set, usize_from_sample_set. pose proof (sets_back z) as [B1 B2].
  split; [intros x _; rewrite <- tp_sample_set_table; split; congruence|]. split; [intros x; apply sample_set_table|].
  split; [intros x _ [= <-]; now rewrite B1|intros _; now rewrite B2].
Qed.
Lemma indices v :
  (forall z x, ho_index_from z v = Some x -> usize_from_ho_index x v = Some z)
  /\ (forall z x, (0 <= z <= u32_max)%Z -> sample_index_from z v = Some x ->
        integer_from_sample_index x v = Some (if (z <? 2 ^ 31)%Z then z else (z - 2 ^ 32)%Z)).
Proof.
  unfold ho_index_from, usize_from_ho_index, sample_index_from, integer_from_sample_index.
  split; [intros z x [= <-]; now rewrite ho_index_back|intros z x H [= <-]; now rewrite index_back].
Qed.
Lemma error_lines_spec {A E F G} (f : E -> F) (g : F -> G) (r : res A E) k j i :
  error_processing_line g (error_processing_line f (error_new_from_result r k) j) i
  = match r with ROk a => ROk a | RErr e => RErr (mk_line_err (k + j + i) (g (f e))) | RPanic p => RPanic p end.
Proof. now destruct r. Qed.
Lemma error_kept {A E F} (f : E -> F) (e : E) (r : res A E) k :
  error_into f (error_new e k) = mk_line_err k (f e) /\ error_new_into f e k = mk_line_err k (f e)
  /\ error_from e = mk_line_err 0%Z e
  /\ error_result_into f (error_new_from_result r k) = error_new_from_result_into f r k
  /\ error_processing_line f (error_new_from_result r 0) k = error_new_from_result_into f r k.
Proof. now destruct r. Qed.
