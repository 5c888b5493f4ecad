(** Property theorems C01, C02: numbers in text. *)
From Coq Require Import String List NArith ZArith Bool.
From Verif Require Import Str Num Dec Spec SpecWf SpecDec NumFacts DecFacts DecRound DecExact.
Import ListNotations.
Local Open Scope N_scope.

(** C01. Reading a text as a decimal never fails; printing the result and reading it
    again gives the same value, so printing is stable after one pass. *)
Theorem C01_decimal_round_trip : forall s,
  decimal_of_str (print_decimal (decimal_of_str s)) = decimal_of_str s.
Proof. exact decimal_roundtrip. Qed.
Print Assumptions C01_decimal_round_trip.

(** Any decimal value that satisfies the type's invariant survives, not only the ones
    just read. *)
Theorem C01_decimal_print_parse : forall d,
  wf_decimal d = true -> decimal_of_str (print_decimal d) = d.
Proof. exact decimal_print_parse. Qed.
Print Assumptions C01_decimal_print_parse.

(** Reading establishes the invariant. *)
Theorem C01_decimal_read_wf : forall s, wf_decimal (decimal_of_str s) = true.
Proof. exact decimal_of_str_wf. Qed.
Print Assumptions C01_decimal_read_wf.

(** A literal with at most 28 decimals and a 96-bit mantissa is read exactly: same
    digits, same scale. *)
Theorem C01_decimal_read_exact : forall s neg m sc,
  dec_text s neg m sc -> m < 2 ^ 96 -> (sc <= 28)%nat ->
  decimal_of_str s = DNum (mkDec (neg && negb (m =? 0)) m sc).
Proof. exact decimal_read_exact. Qed.
Print Assumptions C01_decimal_read_exact.

(** A literal with more digits than that is cut at the last scale [k] that fits and
    rounded half up there.  When the rounding itself carries over the 96 bits, one more
    digit is given up, or, with none left, the text is kept as raw text. *)
Theorem C01_decimal_read_rounded : forall s neg m sc k m',
  dec_text s neg m sc -> (k < sc)%nat -> (k <= 28)%nat ->
  m / 10 ^ N.of_nat (sc - k) < 2 ^ 96 ->
  (k = 28%nat \/ 2 ^ 96 <= m / 10 ^ N.of_nat (sc - k - 1)) ->
  m' = (m + 5 * 10 ^ N.of_nat (sc - k - 1)) / 10 ^ N.of_nat (sc - k) ->
  (m' < 2 ^ 96 -> decimal_of_str s = DNum (mkDec (neg && negb (m' =? 0)) m' k)) /\
  (2 ^ 96 <= m' -> k = O -> decimal_of_str s = DRaw s) /\
  (2 ^ 96 <= m' -> (0 < k)%nat ->
   decimal_of_str s = DNum (mkDec neg ((m' + 4) / 10) (k - 1))).
Proof. exact decimal_read_rounded. Qed.
Print Assumptions C01_decimal_read_rounded.

(** A literal whose integer part needs more than 96 bits is kept as raw text. *)
Theorem C01_decimal_read_big : forall s neg m sc,
  dec_text s neg m sc -> 2 ^ 96 <= m / 10 ^ N.of_nat sc -> decimal_of_str s = DRaw s.
Proof. exact decimal_read_big. Qed.
Print Assumptions C01_decimal_read_big.

(** What is printed is a literal denoting exactly the stored number. *)
Theorem C01_decimal_print_exact : forall d,
  dec_text (print_rdec d) (d_neg d) (d_mant d) (d_scale d).
Proof. exact print_rdec_text. Qed.
Print Assumptions C01_decimal_print_exact.

(** Exactly which texts are numbers, and which number each of them is; every other text is
    kept as it is. *)
Theorem C01_decimal_exact : forall s d,
  decimal_of_str s = DNum d <-> exists neg m sc, number_text s neg m sc /\ d = mkDec (neg && negb (m =? 0)) m sc.
Proof. exact decimal_exact. Qed.
Print Assumptions C01_decimal_exact.
Theorem C01_decimal_raw : forall s t,
  decimal_of_str s = DRaw t <-> t = s /\ forall neg m sc, ~ number_text s neg m sc.
Proof. exact decimal_raw. Qed.
Print Assumptions C01_decimal_raw.
(** underscores and a point at the end are allowed *)
Example C01_ex_exact :
  number_text (lit "-007_5.") true 75 0 /\ decimal_of_str (lit "-007_5.") = DNum (mkDec true 75 0).
Proof.
  split; [|vm_compute; reflexivity].
  apply (nt_fits _ true true (lit "007_5") []); [|discriminate|reflexivity|repeat constructor].
  apply (num_point (lit "-") true (lit "007_5") []); [constructor|reflexivity|reflexivity].
Qed.
(** behind the digit that decides the rounding nothing is looked at *)
Example C01_ex_cut :
  number_text (lit "1.00000000000000000000000000016.-x") false 10000000000000000000000000002 28
  /\ decimal_of_str (lit "1.00000000000000000000000000016.-x") = DNum (mkDec false 10000000000000000000000000002 28)
  /\ decimal_of_str (lit "1.0000000000000000000000000001x") = DRaw (lit "1.0000000000000000000000000001x").
Proof.
  split; [|vm_compute; auto].
  apply (nt_long (lit "1.0000000000000000000000000001") false (lit "1") (lit "000000000000000000000000000") 49 54 (lit ".-x") 6).
  - apply (num_point [] false (lit "1")); [constructor|reflexivity|reflexivity].
  - split; discriminate.
  - reflexivity.
  - reflexivity.
  - apply (cut_digit 54). split; discriminate.
  - apply r_up; [discriminate|reflexivity].
Qed.
Example C01_ex_number :
  decimal_of_str (lit "-12.500") = DNum (mkDec true 12500 3)
  /\ print_decimal (decimal_of_str (lit "-12.500")) = lit "-12.500"
  /\ wf_decimal (DNum (mkDec true 12500 3)) = true.
Proof. vm_compute. auto. Qed.
Example C01_ex_raw :
  decimal_of_str (lit "1e5x") = DRaw (lit "1e5x") /\ wf_decimal (DRaw (lit "1e5x")) = true.
Proof. vm_compute. auto. Qed.
Example C01_ex_literal : dec_text (lit "-12.500") true 12500 3.
Proof.
  apply (dec_frac (lit "-") true (lit "12") (lit "500")).
  - constructor.
  - discriminate.
  - repeat constructor; discriminate.
  - repeat constructor; discriminate.
Qed.
Example C01_ex_rounded :
  let s := lit "0.12345678901234567890123456785" in
  dec_text s false 12345678901234567890123456785 29
  /\ 12345678901234567890123456785 / 10 ^ N.of_nat (29 - 28) < 2 ^ 96
  /\ decimal_of_str s = DNum (mkDec false 1234567890123456789012345679 28)
  /\ decimal_of_str (lit "7.92281625142643375935439503357")
     = DNum (mkDec false 7922816251426433759354395034 27)
  /\ decimal_of_str (lit "79228162514264337593543950335.5")
     = DRaw (lit "79228162514264337593543950335.5").
Proof.
  split; [|now vm_compute].
  apply (dec_frac [] false (lit "0") (lit "12345678901234567890123456785")).
  - constructor.
  - discriminate.
  - repeat constructor; discriminate.
  - repeat constructor; discriminate.
Qed.
Example C01_ex_big :
  dec_text (lit "79228162514264337593543950336") false 79228162514264337593543950336 0
  /\ decimal_of_str (lit "79228162514264337593543950336")
     = DRaw (lit "79228162514264337593543950336").
Proof.
  split; [|now vm_compute].
  apply (dec_int [] false (lit "79228162514264337593543950336")).
  - constructor.
  - discriminate.
  - repeat constructor; discriminate.
Qed.
(** Text after the first digit that does not fit is never looked at. *)
Example C01_ex_junk :
  decimal_of_str (lit "0.00000000000000000000000000014junk") = DNum (mkDec false 1 28).
Proof. vm_compute. reflexivity. Qed.
(** The first pass may normalise the text. *)
Example C01_ex_normalised : print_decimal (decimal_of_str (lit "+007_5.")) = lit "75".
Proof. vm_compute. reflexivity. Qed.

(** C02. A text is accepted as an integer exactly when it denotes an integer of the
    type's range, and then that integer is the result: nothing wraps. *)
Theorem C02_i32_accepts : forall s z,
  parse_i32 s = ROk z <-> int_text true s z /\ (- 2 ^ 31 <= z <= 2 ^ 31 - 1)%Z.
Proof. exact i32_accepts. Qed.
Print Assumptions C02_i32_accepts.
Theorem C02_u8_accepts : forall s z,
  parse_u8 s = ROk z <-> int_text false s z /\ (0 <= z <= 2 ^ 8 - 1)%Z.
Proof. exact u8_accepts. Qed.
Print Assumptions C02_u8_accepts.
Theorem C02_u32_accepts : forall s z,
  parse_u32 s = ROk z <-> int_text false s z /\ (0 <= z <= 2 ^ 32 - 1)%Z.
Proof. exact u32_accepts. Qed.
Print Assumptions C02_u32_accepts.
Theorem C02_usize_accepts : forall s z,
  parse_usize s = ROk z <-> int_text false s z /\ (0 <= z <= 2 ^ 64 - 1)%Z.
Proof. exact usize_accepts. Qed.
Print Assumptions C02_usize_accepts.

(** Every other text is an error, never a panic. *)
Theorem C02_int_total : forall s,
  (forall p, parse_i32 s <> RPanic p) /\ (forall p, parse_u8 s <> RPanic p) /\
  (forall p, parse_u32 s <> RPanic p) /\ (forall p, parse_usize s <> RPanic p).
Proof. exact int_parsers_total. Qed.
Print Assumptions C02_int_total.

(** Every value of the type survives printing and parsing. *)
Theorem C02_int_round_trip : forall z,
  ((- 2 ^ 31 <= z <= 2 ^ 31 - 1)%Z -> parse_i32 (print_Z z) = ROk z) /\
  ((0 <= z <= 2 ^ 8 - 1)%Z -> parse_u8 (print_Z z) = ROk z) /\
  ((0 <= z <= 2 ^ 32 - 1)%Z -> parse_u32 (print_Z z) = ROk z) /\
  ((0 <= z <= 2 ^ 64 - 1)%Z -> parse_usize (print_Z z) = ROk z).
Proof. exact int_print_parse. Qed.
Print Assumptions C02_int_round_trip.

Example C02_ex_text : int_text true (lit "-0042") (-42)%Z.
Proof. apply (int_minus true (lit "0042")); [reflexivity|discriminate|].
  repeat constructor; discriminate. Qed.
Example C02_ex_accept : parse_i32 (lit "-2147483648") = ROk (-2147483648)%Z.
Proof. vm_compute. reflexivity. Qed.
Example C02_ex_overflow : parse_i32 (lit "2147483648") = RErr IPosOverflow.
Proof. vm_compute. reflexivity. Qed.
Example C02_ex_unsigned : parse_u8 (lit "-0") = RErr IInvalidDigit.
Proof. vm_compute. reflexivity. Qed.
