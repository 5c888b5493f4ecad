(** [rust_decimal] 1.35: multiplication and division (ops/mul.rs, ops/div.rs, ops/common.rs), which the
    speed functions of timing points use (timingpoints/mod.rs:95-187).

    Transcribed from the published source from memory, like [Dec.v]; part of the trusted base.
    The source works with words of 32 bits and has paths for small operands; here the
    mantissas are numbers and the paths, which compute the same, are one. *)
From Coq Require Import String List NArith ZArith Bool.
From Verif Require Import Str Num Nom Dec.
Import ListNotations.
Local Open Scope N_scope.

Definition d_zero : rdec := mkDec false 0 0.

(** [mul_impl] (ops/mul.rs): the product of the mantissas is cut to 96 bits and 28 decimals,
    rounding half to even ([Buf24::rescale]).  Two mantissas of 32 bits with more than 47 decimals
    together give zero at once. *)
Definition rdec_mul {E} (a b : rdec) : res rdec E :=
  if is_zero a || is_zero b then ROk d_zero
  else
    let sc := (d_scale a + d_scale b)%nat in
    if (d_mant a <? 4294967296) && (d_mant b <? 4294967296) && Nat.ltb 47 sc then ROk d_zero
    else
      let k := (sc - 28)%nat in
      match fit (sc - k) k (d_mant a * d_mant b) sc with
      | Some (m, sc') => ROk (from_parts (xorb (d_neg a) (d_neg b)) m sc')
      | None => RPanic PDecimal
      end.

(** [Buf12::find_scale] (ops/common.rs): how many digits, at most nine, can be appended to the quotient
    without leaving 96 bits or 28 decimals; [None] when the scale stays negative. *)
Definition find_scale (q : N) (scale : Z) : option nat :=
  match find (fun x => (Z.of_nat x <=? 28 - scale)%Z && (q * 10 ^ N.of_nat x <? two96)) [9; 8; 7; 6; 5; 4; 3; 2; 1; 0]%nat with
  | Some x => if negb (Nat.eqb x 9) && (Z.of_nat x + scale <? 0)%Z then None else Some x
  | None => if (scale <? 0)%Z then None else Some 0%nat
  end.
(** [unscale_from_overflow] (ops/div.rs): the quotient does not fit; its last digit is rounded away.
    [sticky] says that something not zero follows. *)
Definition unscale_from_overflow (q : N) (scale : Z) (sticky : bool) : option (N * Z) :=
  if (scale <? 1)%Z then None
  else
    let m := q / 10 in
    let r := q mod 10 in
    Some (if (5 <? r) || ((r =? 5) && (sticky || N.odd m)) then m + 1 else m, (scale - 1)%Z).
(** [round_up] (ops/div.rs). *)
Definition round_up (q : N) (scale : Z) : option (N * Z) :=
  if q + 1 <? two96 then Some (q + 1, scale) else unscale_from_overflow (q + 1) scale true.
(** The loop of [div_impl] (ops/div.rs): [q] is the quotient so far, at [scale], and [r] the remainder.
    The flag says that there was a remainder. *)
Definition lift_div {E} (un : bool) (x : option (N * Z)) : res (N * Z * bool) E :=
  match x with Some (q, sc) => ROk (q, sc, un) | None => RPanic PDecimal end.
Fixpoint div_loop {E} (fuel : nat) (d q r : N) (scale : Z) (un : bool) : res (N * Z * bool) E :=
  match fuel with
  | O => RPanic PFuel
  | S fuel' =>
      let go (p : nat) (un' : bool) :=
        let q1 := q * 10 ^ N.of_nat p in
        let r1 := r * 10 ^ N.of_nat p in
        if two96 <=? q1 then RPanic PDecimal
        else
          let q2 := q1 + r1 / d in
          let r2 := r1 mod d in
          let sc2 := (scale + Z.of_nat p)%Z in
          if two96 <=? q2 then lift_div un' (unscale_from_overflow q2 sc2 (negb (r2 =? 0)))
          else div_loop fuel' d q2 r2 sc2 un' in
      if r =? 0 then
        if (0 <=? scale)%Z then ROk (q, scale, un) else go (Nat.min 9 (Z.to_nat (- scale))) un
      else
        match (if (scale =? 28)%Z then Some 0%nat else find_scale q scale) with
        | None => RPanic PDecimal
        | Some O => match 2 * r ?= d with
                    | Lt => ROk (q, scale, true)
                    | Gt => lift_div true (round_up q scale)
                    | Eq => if N.odd q then lift_div true (round_up q scale) else ROk (q, scale, true)
                    end
        | Some p => go p true
        end
  end.
(** [unscale] (ops/div.rs): zeros at the end of the decimals go. *)
Fixpoint unscale (sc : nat) (q : N) : N * nat :=
  match sc with
  | O => (q, O)
  | S sc' => if q mod 10 =? 0 then unscale sc' (q / 10) else (q, sc)
  end.
(** [div_impl] (ops/div.rs), and [/], which panics on a division by zero and on overflow. *)
Definition rdec_div {E} (a b : rdec) : res rdec E :=
  if is_zero b then RPanic PDecimal
  else if is_zero a then ROk d_zero
  else
    let neg := xorb (d_neg a) (d_neg b) in
    match div_loop 58 (d_mant b) (d_mant a / d_mant b) (d_mant a mod d_mant b) (Z.of_nat (d_scale a) - Z.of_nat (d_scale b)) false with
    | ROk (q, sc, un) => let (m, sc') := if un : bool then unscale (Z.to_nat sc) q else (q, Z.to_nat sc) in
                         ROk (from_parts neg m sc')
    | RErr e => RErr e
    | RPanic p => RPanic p
    end.
