(** Rust integers: printing and [FromStr].  Nothing here comes from /repo; these are
    the std functions the crate calls. *)
From Coq Require Import String List NArith ZArith Bool.
From Verif Require Import Str.
Import ListNotations.
Local Open Scope N_scope.

(** Decimal digits of a number, most significant first ([Display for uN]). *)
Fixpoint digits_aux (fuel : nat) (n : N) (acc : str) : str :=
  match fuel with
  | O => acc
  | S f => let (q, r) := N.div_eucl n 10 in
           let acc' := (48 + r) :: acc in
           if q =? 0 then acc' else digits_aux f q acc'
  end.
Definition print_N (n : N) : str := digits_aux (S (N.size_nat n)) n [].

(** [Display for iN]. *)
Definition print_Z (z : Z) : str :=
  match z with
  | Z0 => [48]
  | Zpos p => print_N (Npos p)
  | Zneg p => 45 :: print_N (Npos p)
  end.

(** [core::num::IntErrorKind]. *)
Inductive int_err := IEmpty | IInvalidDigit | IPosOverflow | INegOverflow.

Definition is_digit (c : char) : bool := (48 <=? c) && (c <=? 57).
Definition digit_val (c : char) : Z := Z.of_N (c - 48).

(** The digit loop of [from_str_radix]: positive and negative accumulation with
    checked arithmetic. *)
Fixpoint parse_pos (hi : Z) (acc : Z) (s : str) : res Z int_err :=
  match s with
  | [] => ROk acc
  | c :: s' =>
      if is_digit c then
        let acc' := (acc * 10 + digit_val c)%Z in
        if (acc' <=? hi)%Z then parse_pos hi acc' s' else RErr IPosOverflow
      else RErr IInvalidDigit
  end.
Fixpoint parse_neg (lo : Z) (acc : Z) (s : str) : res Z int_err :=
  match s with
  | [] => ROk acc
  | c :: s' =>
      if is_digit c then
        let acc' := (acc * 10 - digit_val c)%Z in
        if (lo <=? acc')%Z then parse_neg lo acc' s' else RErr INegOverflow
      else RErr IInvalidDigit
  end.

(** [<int>::from_str] for the type with range [lo..=hi]; [signed] tells whether a
    leading ['-'] is accepted. *)
Definition parse_int (signed : bool) (lo hi : Z) (s : str) : res Z int_err :=
  match s with
  | [] => RErr IEmpty
  | c :: s' =>
      if (c =? 43) || (c =? 45) then
        match s' with
        | [] => RErr IInvalidDigit
        | _ => if c =? 43 then parse_pos hi 0 s'
               else if signed then parse_neg lo 0 s'
               else parse_pos hi 0 s
        end
      else parse_pos hi 0 s
  end.

Definition u8_max : Z := 255.
Definition i32_min : Z := -2147483648.
Definition i32_max : Z := 2147483647.
Definition u32_max : Z := 4294967295.
Definition usize_max : Z := 18446744073709551615.  (** 64-bit target *)

Definition parse_u8 : str -> res Z int_err := parse_int false 0 u8_max.
Definition parse_i32 : str -> res Z int_err := parse_int true i32_min i32_max.
Definition parse_u32 : str -> res Z int_err := parse_int false 0 u32_max.
Definition parse_usize : str -> res Z int_err := parse_int false 0 usize_max.

Definition in_u8 (z : Z) : bool := ((0 <=? z) && (z <=? u8_max))%Z.
Definition in_i32 (z : Z) : bool := ((i32_min <=? z) && (z <=? i32_max))%Z.
Definition in_u32 (z : Z) : bool := ((0 <=? z) && (z <=? u32_max))%Z.
Definition in_usize (z : Z) : bool := ((0 <=? z) && (z <=? usize_max))%Z.

(** [i32] arithmetic: overflow panics when [dbg] (overflow checks on), wraps otherwise. *)
Definition wrap_i32 (z : Z) : Z :=
  ((z - i32_min) mod 4294967296 + i32_min)%Z.
Definition i32_arith {E} (dbg : bool) (z : Z) : res Z E :=
  if in_i32 z then ROk z else if dbg then RPanic POverflow else ROk (wrap_i32 z).
Definition i32_add {E} (dbg : bool) (a b : Z) : res Z E := i32_arith dbg (a + b).
Definition i32_sub {E} (dbg : bool) (a b : Z) : res Z E := i32_arith dbg (a - b).

(** [usize] arithmetic. *)
Definition usize_arith {E} (dbg : bool) (z : Z) : res Z E :=
  if in_usize z then ROk z else if dbg then RPanic POverflow
  else ROk (z mod 18446744073709551616)%Z.
