(** Specification vocabulary used in the property theorems.

    Nothing here refers to the parsers and printers of the model: these are the plain
    mathematical notions the properties are stated with. *)
From Coq Require Import String List NArith ZArith Bool.
From Verif Require Import Str.
Import ListNotations.
Local Open Scope N_scope.

(** ** numbers in text *)
(** an ASCII digit *)
Definition digit (c : char) : Prop := 48 <= c <= 57.
(** Positional value of a string of digits. *)
Fixpoint value (s : str) : N :=
  match s with
  | [] => 0
  | c :: s' => (c - 48) * 10 ^ N.of_nat (length s') + value s'
  end.
(** [int_text signed s z]: the text [s] is an optionally signed decimal integer
    denoting [z]; a minus sign only when [signed]. *)
Inductive int_text (signed : bool) : str -> Z -> Prop :=
| int_plain ds : ds <> [] -> Forall digit ds -> int_text signed ds (Z.of_N (value ds))
| int_plus ds : ds <> [] -> Forall digit ds -> int_text signed (43 :: ds) (Z.of_N (value ds))
| int_minus ds : signed = true -> ds <> [] -> Forall digit ds ->
                 int_text signed (45 :: ds) (- Z.of_N (value ds))%Z.
(** [dec_text s neg m sc]: the text [s] is a plain decimal literal denoting
    [(-1)^neg * m / 10^sc]. *)
Inductive sign_text : str -> bool -> Prop :=
| sign_none : sign_text [] false
| sign_plus : sign_text [43] false
| sign_minus : sign_text [45] true.
Inductive dec_text : str -> bool -> N -> nat -> Prop :=
| dec_int sg neg ds :
    sign_text sg neg -> ds <> [] -> Forall digit ds ->
    dec_text (sg ++ ds) neg (value ds) 0
| dec_frac sg neg ip fp :
    sign_text sg neg -> ip ++ fp <> [] -> Forall digit ip -> Forall digit fp ->
    dec_text (sg ++ ip ++ 46 :: fp) neg (value (ip ++ fp)) (length fp).
