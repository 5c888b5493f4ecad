(** Which texts are decimals, and which number each of them is (C01). *)
From Coq Require Import String List NArith ZArith Bool.
From Verif Require Import Str Dec Spec.
Import ListNotations.
Local Open Scope N_scope.

(** a digit, or the underscore that may stand between digits *)
Definition digit_char (c : char) : bool := (48 <=? c) && (c <=? 57).
Definition mark_char (c : char) : bool := digit_char c || (c =? 95).
Definition digits_in (s : str) : str := filter digit_char s.
(** Digits and underscores, at most one point; the first of them is no underscore. *)
Inductive numeral : str -> bool -> bool -> str -> str -> Prop :=
| num_whole sg neg ip : sign_text sg neg -> forallb mark_char ip = true -> starts_with_char 95 ip = false ->
    numeral (sg ++ ip) neg false ip []
| num_point sg neg ip fp : sign_text sg neg -> forallb mark_char (ip ++ fp) = true -> starts_with_char 95 (ip ++ fp) = false ->
    numeral (sg ++ ip ++ 46 :: fp) neg true ip fp.
(** the digits before and after the point as one number, and how many are behind the point *)
Definition mantissa (ip fp : str) : N := value (digits_in (ip ++ fp)).
Definition decimals (fp : str) : nat := length (digits_in fp).
(** what a character counts for when it is the first that is cut off *)
Inductive cut_value : char -> N -> Prop :=
| cut_digit c : digit c -> cut_value c (c - 48)
| cut_mark : cut_value 95 0
| cut_point : cut_value 46 0.
(** half up; when this does not fit, with one decimal less *)
Inductive cut_rounded (m : N) (sc : nat) (r : N) : N -> nat -> Prop :=
| r_down : r < 5 -> cut_rounded m sc r m sc
| r_up : 5 <= r -> m + 1 < 2 ^ 96 -> cut_rounded m sc r (m + 1) sc
| r_carry k : 5 <= r -> 2 ^ 96 <= m + 1 -> sc = S k -> cut_rounded m sc r ((m + 5) / 10) k.
(** [number_text s neg m sc]: the text [s] is read as the number m / 10^sc with this sign.
    A text that fits is that number.  A text with more than 28 decimals, or with a decimal that
    does not fit into 96 bits, is cut there and rounded; what comes behind is not looked at. *)
Inductive number_text : str -> bool -> N -> nat -> Prop :=
| nt_fits s neg pt ip fp : numeral s neg pt ip fp -> digits_in (ip ++ fp) <> [] ->
    mantissa ip fp < 2 ^ 96 -> (decimals fp <= 28)%nat -> number_text s neg (mantissa ip fp) (decimals fp)
| nt_long s neg ip fp d c rest r m sc : numeral s neg true ip (fp ++ [d]) -> digit d ->
    mantissa ip (fp ++ [d]) < 2 ^ 96 -> decimals (fp ++ [d]) = 28%nat ->
    cut_value c r -> cut_rounded (mantissa ip (fp ++ [d])) 28 r m sc -> number_text (s ++ c :: rest) neg m sc
| nt_wide s neg ip fp c rest m sc : numeral s neg true ip fp ->
    mantissa ip fp < 2 ^ 96 -> (decimals fp < 28)%nat -> digit c -> 2 ^ 96 <= 10 * mantissa ip fp + (c - 48) ->
    cut_rounded (mantissa ip fp) (decimals fp) (c - 48) m sc -> number_text (s ++ c :: rest) neg m sc.
