(** Products and quotients of decimals: the vocabulary of C65. *)
From Coq Require Import String List NArith ZArith QArith Qabs Bool.
From Verif Require Import Str Num Nom Dec Parsers SpecWf SpecOld SpecHelpers.
Import ListNotations.
Local Open Scope Q_scope.

(** [10 ^ s], and the first number that is too big for 96 bits once it is rounded. *)
Definition tens (s : nat) : Q := inject_Z (10 ^ Z.of_nat s).
Definition too_big : Q := inject_Z (2 ^ 96) - (1 # 2).
(** [c] is the number [x], rounded half to even to [s] decimals, where [s] is the most decimals,
    at most 28, with which the digits of the rounded number fit 96 bits. *)
Definition rounds (x : Q) (c : rdec) : Prop :=
  wf_rdec c = true
  /\ exists s, (d_scale c <= s <= 28)%nat
     /\ Qabs (frac c - x) * tens s <= 1 # 2
     /\ (Qabs (frac c - x) * tens s == 1 # 2 -> exists k : Z, frac c * tens s == inject_Z (2 * k))
     /\ (s = 28%nat \/ too_big <= Qabs x * tens (s + 1)).
(** An operation whose exact result is [x]: the rounded number, or a panic when there is none. *)
Definition computes (x : Q) (r : run rdec) : Prop :=
  if Qlt_le_dec (Qabs x) too_big then exists c, r = ROk c /\ rounds x c else r = RPanic PDecimal.
(** [x] is a decimal of 96 bits and 28 decimals. *)
Definition storable_number (x : Q) : Prop := exists c, wf_rdec c = true /\ frac c == x.
(** [k] units of the 28th decimal *)
Definition units (k : Z) : Q := inject_Z k / tens 28.
