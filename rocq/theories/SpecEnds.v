(** The line endings of a text. *)
From Coq Require Import String List NArith ZArith Bool.
From Verif Require Import Str SpecWf SpecText SpecFile.
Import ListNotations.
Local Open Scope N_scope.

(** [made_of s ls]: the text [s] is made of the lines [ls].  A line ends with a line feed or with
    carriage return and line feed; the last one, unless it is empty, can do without. *)
Inductive made_of : str -> list str -> Prop :=
| mo_nil : made_of [] []
| mo_last l : l <> [] -> no_nl l = true -> made_of l [l]
| mo_lf l s ls : no_nl l = true -> ends_with_char 13 l = false -> made_of s ls -> made_of (l ++ 10 :: s) (l :: ls)
| mo_crlf l s ls : no_nl l = true -> made_of s ls -> made_of (l ++ 13 :: 10 :: s) (l :: ls).
(** every line feed replaced by [e] *)
Definition with_ends (e s : str) : str := flat_map (fun c => if c =? 10 then e else [c]) s.
(** no line feed after a carriage return *)
Fixpoint no_crlf (s : str) : bool :=
  match s with
  | c :: s' => negb ((c =? 13) && starts_with_char 10 s') && no_crlf s'
  | [] => true
  end.
