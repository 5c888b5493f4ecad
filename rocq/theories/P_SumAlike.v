(** C65 and C79, continued: sums and differences, and printing. *)
From Coq Require Import String List NArith ZArith QArith Bool.
From Verif Require Import Str Num Nom Dec DecOps Parsers TimingPoints OsuFile Equal SpecWf SpecHelpers SpecDecOps SpecEqual SpecPrint SpecAlike SumAlike.
Import ListNotations.
Local Open Scope Q_scope.

(** Sums and differences, with which times are moved in versions 3 and 4, are the exact ones, rounded to the decimals that fit. *)
Theorem C65_add : forall a b, wf_rdec a = true -> wf_rdec b = true -> computes (frac a + frac b) (rdec_add a b).
Proof. exact add_computes. Qed.
Print Assumptions C65_add.
Theorem C65_sub : forall a b, wf_rdec a = true -> wf_rdec b = true -> computes (frac a - frac b) (rdec_sub a b).
Proof. exact sub_computes. Qed.
Print Assumptions C65_sub.
(** Sums and differences of equal numbers are equal, or both panic. *)
Theorem C79_sums : forall a b a' b', wf_rdec a = true -> wf_rdec b = true -> wf_rdec a' = true -> wf_rdec b' = true ->
  rdec_eq a a' = true -> rdec_eq b b' = true ->
  alike rdec_eq (rdec_add a b) (rdec_add a' b') /\ alike rdec_eq (rdec_sub a b) (rdec_sub a' b').
Proof. intros; split; [apply add_alike|apply sub_alike]; assumption. Qed.
Print Assumptions C79_sums.
(** Of equal files both can be printed or none. *)
Theorem C79_print : forall dbg f g, osu_eq f g = true -> Forall storable (decimal_times f) -> Forall storable (decimal_times g) ->
  Forall (fun z => in_i32 z = true) (clock_times f) ->
  ((exists p, osu_to_string dbg f = RPanic p) <-> (exists p, osu_to_string dbg g = RPanic p)).
Proof. exact print_alike. Qed.
Print Assumptions C79_print.

(** The largest number and a half: rounded to the even neighbour, which does not fit.  A number with 28 decimals loses some when 24 is added. *)
Example C65_sum_ex :
  rdec_add (mkDec false 79228162514264337593543950335 0) (mkDec false 5 1) = (RPanic PDecimal : run rdec)
  /\ rdec_add (mkDec false 79228162514264337593543950335 0) (mkDec false 49 2) = (ROk (mkDec false 79228162514264337593543950335 0) : run rdec)
  /\ rdec_add (mkDec false 11111111111111111111111111115 28) dec24 = (ROk (mkDec false 25111111111111111111111111112 27) : run rdec)
  /\ rdec_sub (mkDec false 240 1) dec24 = (ROk (mkDec false 0 1) : run rdec).
Proof. vm_compute. repeat split. Qed.
Example C79_print_ex :
  let f b := mk_osu 4%Z None None None None None None (Some [mk_tp (DNum b) (DNum (mkDec false 5 0)) 4%Z TsNormal SiDefault 50%Z (Some true) (Some 0%Z)]) None None in
  osu_eq (f (mkDec true 79228162514264337593543950335 0)) (f (mkDec true 79228162514264337593543950335 0)) = true
  /\ osu_to_string true (f (mkDec true 79228162514264337593543950335 0)) = RPanic PDecimal
  /\ osu_eq (f (mkDec false 7 0)) (f (mkDec false 700 2)) = true
  /\ osu_to_string true (f (mkDec false 7 0)) = ROk (lit "osu file format v4" ++ [10%N; 10%N] ++ lit "[TimingPoints]" ++ [10%N] ++ lit "-17,5,4,1,0")
  /\ osu_to_string true (f (mkDec false 700 2)) = ROk (lit "osu file format v4" ++ [10%N; 10%N] ++ lit "[TimingPoints]" ++ [10%N] ++ lit "-17.00,5,4,1,0").
Proof. vm_compute. repeat split. Qed.
