(** C55: values made by a program. *)
From Coq Require Import String List NArith ZArith Bool Lia.
From Verif Require Import Str Num Nom Dec Parsers General TimingPoints HitObjects Storyboard NormalEvents Values
  Spec SpecWf SpecText SpecCmd SpecEvents Values Api SpecTypes ValueFacts MadeMore.
Import ListNotations.
Local Open Scope N_scope.

(** [try_make_decimal] leaves the number that the text is read as, or the text as it was
    together with an error; numbers are left alone. *)
Theorem C55_decimal_make : forall d d' r, decimal_try_make d = (d', r) ->
  d' = (match d with DNum _ => d | DRaw s => decimal_of_str s end)
  /\ (r = ROk tt /\ (exists x, d' = DNum x) \/ r = RErr tt /\ d' = d /\ exists s, d = DRaw s).
Proof. exact try_make_spec. Qed.
Print Assumptions C55_decimal_make.
(** A second call changes nothing and has the same outcome. *)
Theorem C55_decimal_again : forall d d' r, decimal_try_make d = (d', r) -> decimal_try_make d' = (d', r).
Proof. exact try_make_twice. Qed.
Print Assumptions C55_decimal_again.
(** Whatever text a decimal was made from, printing and reading it gives what
    [try_make_decimal] gives, and from then on printing and reading changes nothing. *)
Theorem C55_decimal_reads : forall s d' r, decimal_try_make (decimal_new_from_str s) = (d', r) ->
  decimal_from (print_decimal (decimal_new_from_str s)) = d' /\ decimal_from (print_decimal d') = d'.
Proof. exact try_make_reads. Qed.
Print Assumptions C55_decimal_reads.
Example C55_decimal_ex :
  decimal_try_make (decimal_new_from_str (lit "1.50")) = (DNum (mkDec false 150 2), ROk tt)
  /\ decimal_try_make (decimal_new_from_str (lit "1,5")) = (DRaw (lit "1,5"), RErr tt).
Proof. vm_compute. easy. Qed.
(** A decimal made by [new_from_str] is not equal to the one its text is read as. *)
Theorem C55_decimal_refuted : exists s, decimal_from (print_decimal (decimal_new_from_str s)) <> decimal_new_from_str s.
Proof. exists (lit "1"). vm_compute. discriminate. Qed.
Print Assumptions C55_decimal_refuted.
(** The decimal of an [i32] prints as the [i32] does, and is what that text is read as. *)
Theorem C55_decimal_int : forall z, in_i32 z = true ->
  print_decimal (decimal_from_i32 z) = print_Z z /\ decimal_from (print_Z z) = decimal_from_i32 z.
Proof. exact from_i32_print. Qed.
Print Assumptions C55_decimal_int.
Example C55_decimal_int_ex : in_i32 (-2147483648) = true /\ print_decimal (decimal_from_i32 (-2147483648)) = lit "-2147483648".
Proof. vm_compute. easy. Qed.

(** Origins, layers and countdowns: a number is taken exactly if it has a place in the table,
    and the number of a value is its place. *)
Theorem C55_origin : forall z x v,
  (origin_legacy_from_repr z v = ROk (Some x) <-> numbered origin_types x z)
  /\ (origin_type_try_from z v = ROk (Some x) <-> numbered origin_types x z)
  /\ (usize_from_origin_legacy x v = Some z <-> numbered origin_types x z)
  /\ (integer_from_origin_type x v = Some z <-> numbered origin_types x z).
Proof. exact origin_tables. Qed.
Print Assumptions C55_origin.
Theorem C55_layer : forall z x v,
  (layer_legacy_from_repr z v = ROk (Some x) <-> numbered legacy_layers x z)
  /\ (usize_from_layer_legacy x v = Some z <-> numbered legacy_layers x z).
Proof. exact layer_tables. Qed.
Print Assumptions C55_layer.
Theorem C55_sample_layer : forall z x v, au_layer_from_repr z v = ROk (Some x) <-> numbered sample_layers x z.
Proof. exact au_layer_tables. Qed.
Print Assumptions C55_sample_layer.
(** Countdowns have no numbers in versions 3 and 4. *)
Theorem C55_countdown : forall z x v,
  countdown_from_repr_v z v = ROk (Some x) <-> ~ (3 <= v <= 4)%Z /\ numbered [NoCountdown; CdNormal; CdHalf; CdDouble] x z.
Proof. exact countdown_tables. Qed.
Print Assumptions C55_countdown.
(** A number without a place is refused as such, never anything else. *)
Theorem C55_refused : forall z v,
  (origin_legacy_from_repr z v = RErr InvalidRepr <-> ~ (0 <= z < 10)%Z)
  /\ (origin_type_try_from z v = RErr tt <-> ~ (0 <= z < 10)%Z)
  /\ (layer_legacy_from_repr z v = RErr InvalidRepr <-> ~ (0 <= z < 6)%Z)
  /\ (au_layer_from_repr z v = RErr InvalidRepr <-> ~ (0 <= z < 4)%Z)
  /\ (countdown_from_repr_v z v = RErr InvalidRepr <-> ~ (3 <= v <= 4)%Z /\ ~ (0 <= z < 4)%Z).
Proof. exact refused. Qed.
Print Assumptions C55_refused.
Example C55_tables_ex :
  origin_legacy_from_repr 6 14%Z = ROk (Some OtCustom) /\ layer_legacy_from_repr 9 14%Z = RErr InvalidRepr
  /\ countdown_from_repr_v 2 5%Z = ROk (Some CdHalf) /\ countdown_from_repr_v 9 3%Z = ROk None.
Proof. vm_compute. easy. Qed.

(** Easings: a number has the easing at its place, or is kept as it is. *)
Theorem C55_easing : forall z x v, easing_from z v = Some x
  <-> match x with EzOther n => n = z /\ ~ (0 <= z < 35)%Z | _ => numbered easing_table x z end.
Proof. exact easing_tables. Qed.
Print Assumptions C55_easing.
Theorem C55_easing_number : forall z x v, integer_from_easing x v = Some z <-> easing_number x z.
Proof. exact easing_numbers. Qed.
Print Assumptions C55_easing_number.
Theorem C55_easing_back : forall z x v, easing_from z v = Some x -> integer_from_easing x v = Some z.
Proof. exact easing_back. Qed.
Print Assumptions C55_easing_back.
Example C55_easing_ex : easing_from 14 14%Z = Some EzQuintInOut /\ easing_from 35 14%Z = Some (EzOther 35) /\ easing_from (-1) 14%Z = Some (EzOther (-1)).
Proof. vm_compute. easy. Qed.
(** The other way is not true of an [Other] that holds the number of a known easing. *)
Theorem C55_easing_refuted : exists x y z v, integer_from_easing x v = Some z /\ easing_from z v = Some y /\ x <> y.
Proof. exists (EzOther 3), EzQuadIn, 3%Z, 14%Z. vm_compute. easy. Qed.
Print Assumptions C55_easing_refuted.

(** Sample sets of timing points and hit objects. *)
Theorem C55_sample_sets : forall z,
  (forall x v, tp_sample_set_from z v = Some x
     <-> match x with TsOther n => n = z /\ ~ (0 <= z < 4)%Z | _ => numbered [TsBeatmapDefault; TsNormal; TsSoft; TsDrum] x z end)
  /\ (forall x, sample_set_of_Z z = x
     <-> match x with SsOther n => n = z /\ ~ (0 <= z < 4)%Z | _ => numbered [SsNone; SsNormal; SsSoft; SsDrum] x z end)
  /\ (forall x v, tp_sample_set_from z v = Some x -> integer_from_tp_sample_set x v = Some z)
  /\ (forall v, usize_from_sample_set (sample_set_of_Z z) v = Some z).
Proof. exact sample_set_tables. Qed.
Print Assumptions C55_sample_sets.
Example C55_sample_sets_ex : tp_sample_set_from 3 14%Z = Some TsDrum /\ tp_sample_set_from 4 14%Z = Some (TsOther 4) /\ sample_set_of_Z 0 = SsNone.
Proof. vm_compute. easy. Qed.
(** Sample indices of hit objects keep every number; those of timing points keep only the
    numbers below 2^31, and give the others back less 2^32. *)
Theorem C55_index : forall v,
  (forall z x, ho_index_from z v = Some x -> usize_from_ho_index x v = Some z)
  /\ (forall z x, (0 <= z <= u32_max)%Z -> sample_index_from z v = Some x ->
        integer_from_sample_index x v = Some (if (z <? 2 ^ 31)%Z then z else (z - 2 ^ 32)%Z)).
Proof. exact indices. Qed.
Print Assumptions C55_index.
Example C55_index_ex : exists x, sample_index_from 4294967295 14%Z = Some x /\ integer_from_sample_index x 14%Z = Some (-1)%Z.
Proof. exists (SiIndex 4294967295). split; reflexivity. Qed.

(** Errors that pass through two readers are reported at the sum of the lines, with both
    conversions applied; values and panics pass unchanged. *)
Theorem C55_errors : forall {A E F G} (f : E -> F) (g : F -> G) (r : res A E) k j i,
  error_processing_line g (error_processing_line f (error_new_from_result r k) j) i
  = match r with ROk a => ROk a | RErr e => RErr (mk_line_err (k + j + i) (g (f e))) | RPanic p => RPanic p end.
Proof. exact @error_lines_spec. Qed.
Print Assumptions C55_errors.
(** The other ways to make or convert an error keep the line: [from] is line 0, [into] the same line. *)
Theorem C55_errors_kept : forall {A E F} (f : E -> F) (e : E) (r : res A E) k,
  error_into f (error_new e k) = mk_line_err k (f e) /\ error_new_into f e k = mk_line_err k (f e)
  /\ error_from e = mk_line_err 0%Z e
  /\ error_result_into f (error_new_from_result r k) = error_new_from_result_into f r k
  /\ error_processing_line f (error_new_from_result r 0) k = error_new_from_result_into f r k.
Proof. exact @error_kept. Qed.
Print Assumptions C55_errors_kept.
Example C55_errors_ex :
  error_processing_line (fun e => (1, e)) (error_processing_line (fun e => (2, e)) (error_new_from_result (RErr 7 : res N N) 3) 10) 100
  = RErr (mk_line_err 113%Z (1, (2, 7))).
Proof. reflexivity. Qed.

(** A hit sound from a number is its four lowest bits; [Decimal::new] keeps the number, and
    [parse] never fails. *)
Theorem C55_hit_sound : forall z v, (0 <= z <= 255)%Z -> exists h, hit_sound_from z v = Some h
  /\ hit_sound_whistle h = Z.odd (z / 2) /\ hit_sound_finish h = Z.odd (z / 4) /\ hit_sound_clap h = Z.odd (z / 8)
  /\ hit_sound_normal h = (Z.odd z || (z mod 16 =? 0)%Z) /\ hit_sound_to_string h = print_Z (z mod 16).
Proof. exact hit_sound_number. Qed.
Print Assumptions C55_hit_sound.
Example C55_hit_sound_ex : hit_sound_from 250 14%Z = Some (mk_hit_sound false true false true).
Proof. reflexivity. Qed.
(** The number of a volume is 0 exactly if the timing point's is used, and sets it again otherwise. *)
Theorem C55_volume : forall v,
  (forall x, sample_volume x -> exists z, integer_from_ho_volume x v = Some z /\ (0 <= z <= 100)%Z /\ (z = 0%Z <-> x = None))
  /\ (forall x z, sample_volume x -> integer_from_ho_volume x v = Some z -> z <> 0%Z -> forall y, ho_volume_set y z = (x, ROk tt)).
Proof. exact volume_number_back. Qed.
Print Assumptions C55_volume.
Example C55_volume_ex : sample_volume None /\ integer_from_ho_volume (Some 100%Z) 14%Z = Some 100%Z.
Proof. split; [exact sv_default|reflexivity]. Qed.
Theorem C55_decimal_new : forall r s, print_decimal (decimal_new r) = print_rdec r /\ (wf_rdec r = true -> decimal_from (print_rdec r) = decimal_new r)
  /\ decimal_from_str s = ROk (decimal_from s).
Proof. exact decimal_made. Qed.
Print Assumptions C55_decimal_new.
Example C55_decimal_new_ex : wf_rdec (mkDec true 150 2) = true /\ decimal_from (lit "-1.50") = decimal_new (mkDec true 150 2).
Proof. split; reflexivity. Qed.
