(** [rust_decimal] 1.35: [FromStr], [Display], addition and subtraction, and the
    crate's own [Decimal] wrapper (osu_file/types.rs:275-350).

    The [rust_decimal] part is transcribed from the published source from memory
    (the crate's dependencies are not in the sandbox); it is part of the trusted
    base.  A value is sign, 96-bit mantissa and scale 0..28. *)
From Coq Require Import String List NArith ZArith Bool.
From Verif Require Import Str Num.
Import ListNotations.
Local Open Scope N_scope.

Record rdec := mkDec { d_neg : bool; d_mant : N; d_scale : nat }.

Definition two96 : N := 79228162514264337593543950336.

(** [Decimal::from_parts]: zero is never negative. *)
Definition from_parts (neg : bool) (m : N) (sc : nat) : rdec :=
  mkDec (if m =? 0 then false else neg) m sc.

(** [handle_data] (str.rs): error without any digit. *)
Definition handle_data (neg has : bool) (m : N) (sc : nat) : option rdec :=
  if has then Some (from_parts neg m sc) else None.

(** [maybe_round] (str.rs): round half up on the next byte; the bytes after it are
    never looked at. *)
Definition maybe_round (neg point : bool) (m : N) (next : char) (sc : nat) : option rdec :=
  let d := if is_digit next then Some (next - 48)
           else if next =? 95 then Some 0
           else if (next =? 46) && point then Some 0
           else None in
  match d with
  | None => None
  | Some d =>
      if 5 <=? d then
        let m1 := m + 1 in
        if two96 <=? m1 then
          match sc with
          | O => None
          | S sc' => handle_data neg true ((m1 + 4) / 10) sc'
          end
        else handle_data neg true m1 sc
      else handle_data neg true m sc
  end.

(** The byte loop of [parse_str_radix_10] (the 64-bit fast path and the 128-bit
    path accept and compute the same, so they are one function here). *)
Fixpoint dec_loop (point neg has : bool) (m : N) (sc : nat) (s : str) : option rdec :=
  match s with
  | [] => handle_data neg has m sc
  | b :: s' =>
      if point && Nat.leb 28 sc then maybe_round neg point m b sc
      else if is_digit b then
        let m' := m * 10 + (b - 48) in
        if two96 <=? m' then
          (if point then maybe_round neg point m b sc else None)
        else dec_loop point neg true m' (if point then S sc else sc) s'
      else if (b =? 46) && negb point then dec_loop true neg has m sc s'
      else if (b =? 95) && has then dec_loop point neg true m sc s'
      else None
  end.

(** [<rust_decimal::Decimal as FromStr>::from_str]. *)
Definition parse_rdec (s : str) : option rdec :=
  match s with
  | [] => None
  | b :: s' => if b =? 45 then dec_loop false true false 0 0 s'
               else if b =? 43 then dec_loop false false false 0 0 s'
               else dec_loop false false false 0 0 s
  end.

(** Digits of the mantissa, empty for zero, padded with zeros up to the scale
    ([to_str_internal]). *)
Definition mant_digits (m : N) : str := if m =? 0 then [] else print_N m.
Definition padded (d : rdec) : str :=
  let ds := mant_digits (d_mant d) in repeat 48 (d_scale d - length ds) ++ ds.

(** [Display for rust_decimal::Decimal]. *)
Definition print_rdec_abs (d : rdec) : str :=
  let ds := padded d in
  let whole := (length ds - d_scale d)%nat in
  let ip := firstn whole ds in
  let fp := skipn whole ds in
  (match ip with [] => [48] | _ => ip end) ++
  (match fp with [] => [] | _ => 46 :: fp end).
Definition print_rdec (d : rdec) : str :=
  (if d_neg d then [45] else []) ++ print_rdec_abs d.

(** Signed integer value of the mantissa at a common scale. *)
Definition signed_mant (d : rdec) : Z :=
  if d_neg d then (- Z.of_N (d_mant d))%Z else Z.of_N (d_mant d).
Definition pow10 (n : nat) : Z := (10 ^ Z.of_nat n)%Z.
Definition is_zero (d : rdec) : bool := d_mant d =? 0.
Definition rdec_neg (d : rdec) : rdec :=
  if is_zero d then d else mkDec (negb (d_neg d)) (d_mant d) (d_scale d).

(** Divide by [10^k] rounding half to even. *)
Definition div_half_even (n : N) (k : nat) : N :=
  let p := 10 ^ N.of_nat k in
  let q := n / p in
  let r := n mod p in
  match 2 * r ?= p with
  | Lt => q
  | Gt => q + 1
  | Eq => if N.even q then q else q + 1
  end.
(** Smallest reduction of the scale that fits 96 bits; [None] when even scale 0
    does not fit. *)
Fixpoint fit (fuel : nat) (k : nat) (m : N) (sc : nat) : option (N * nat) :=
  let m' := if Nat.eqb k 0 then m else div_half_even m k in
  if m' <? two96 then Some (m', sc - k)%nat
  else match fuel with
       | O => None
       | S f => fit f (S k) m sc
       end.

(** [a + b]; panics on overflow ("Addition overflowed"). *)
Definition rdec_add {E} (a b : rdec) : res rdec E :=
  if is_zero a then ROk b
  else if is_zero b then ROk a
  else
    let sc := Nat.max (d_scale a) (d_scale b) in
    let z := (signed_mant a * pow10 (sc - d_scale a) +
              signed_mant b * pow10 (sc - d_scale b))%Z in
    match fit sc 0 (Z.to_N (Z.abs z)) sc with
    | Some (m, sc') => ROk (from_parts (z <? 0)%Z m sc')
    | None => RPanic PDecimal
    end.
(** [a - b]. *)
Definition rdec_sub {E} (a b : rdec) : res rdec E := rdec_add a (rdec_neg b).

Definition rdec_of_Z (z : Z) : rdec := from_parts (z <? 0)%Z (Z.to_N (Z.abs z)) 0.

(** The crate's [Decimal] (osu_file/types.rs:275-278): a number or raw text. *)
Inductive decimal := DNum (d : rdec) | DRaw (s : str).

(** [From<&str> for Decimal] and [FromStr for Decimal] (osu_file/types.rs:309-315,
    335-344); the error type is never used. *)
Definition decimal_of_str (s : str) : decimal :=
  match parse_rdec s with Some d => DNum d | None => DRaw s end.
Definition parse_decimal {E} (s : str) : res decimal E := ROk (decimal_of_str s).

(** [Display for Decimal] (osu_file/types.rs:317-321). *)
Definition print_decimal (d : decimal) : str :=
  match d with DNum r => print_rdec r | DRaw s => s end.

(** [From<i32> for Decimal] (osu_file/types.rs:329-333). *)
Definition decimal_of_Z (z : Z) : decimal := DNum (rdec_of_Z z).

(** [Decimal::try_make_decimal] (osu_file/types.rs:290-298). *)
Definition try_make_decimal (d : decimal) : option decimal :=
  match d with
  | DNum _ => Some d
  | DRaw s => option_map DNum (parse_rdec s)
  end.
