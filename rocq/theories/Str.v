(** Strings and the parts of the Rust standard library's [str] the crate uses.

    A Rust [&str] is modelled as the list of its Unicode scalar values (as [N]).
    Nothing in this file comes from /repo; it models std functions that the
    crate calls.  Byte offsets appear only in [slice_from_byte]. *)
From Coq Require Import Ascii String List NArith ZArith Bool.
Import ListNotations.
Local Open Scope N_scope.

Notation char := N (only parsing).
Notation str := (list N) (only parsing).

(** String literals. *)
Fixpoint lit (s : string) : str :=
  match s with
  | EmptyString => []
  | String a s' => N_of_ascii a :: lit s'
  end.
Arguments lit s%string_scope.

(** Common characters. *)
Definition c_nl : char := 10.
Definition c_cr : char := 13.
Definition c_tab : char := 9.
Definition c_sp : char := 32.
Definition c_comma : char := 44.
Definition c_colon : char := 58.
Definition c_bom : char := 65279.

(** [==] on strings. *)
Fixpoint str_eqb (a b : str) : bool :=
  match a, b with
  | [], [] => true
  | x :: a', y :: b' => (x =? y) && str_eqb a' b'
  | _, _ => false
  end.

(** Panics are values of the model. *)
Inductive panic :=
| POverflow      (** arithmetic overflow (only in builds with overflow checks) *)
| PUnwrap        (** [unwrap] on [None]/[Err] *)
| PUnreachable   (** [unreachable!] *)
| PSlice         (** slicing a [str] off a character boundary *)
| PDecimal       (** [rust_decimal] addition/subtraction overflow *)
| PFuel.         (** fuel exhausted: never happens, see [NomFacts] *)

(** Outcome of a Rust function returning [Result<A, E>]: also panics. *)
Inductive res (A E : Type) :=
| ROk (a : A)
| RErr (e : E)
| RPanic (p : panic).
Arguments ROk {A E} a.
Arguments RErr {A E} e.
Arguments RPanic {A E} p.

Definition rbind {A B E} (r : res A E) (f : A -> res B E) : res B E :=
  match r with ROk a => f a | RErr e => RErr e | RPanic p => RPanic p end.
Definition rmap {A B E} (f : A -> B) (r : res A E) : res B E :=
  match r with ROk a => ROk (f a) | RErr e => RErr e | RPanic p => RPanic p end.
Definition rmap_err {A E F} (f : E -> F) (r : res A E) : res A F :=
  match r with ROk a => ROk a | RErr e => RErr (f e) | RPanic p => RPanic p end.

(** A computation that cannot return an error but may panic (printers). *)
Notation run A := (res A Empty_set) (only parsing).

(** [Option::unwrap]. *)
Definition unwrap {A E} (o : option A) : res A E :=
  match o with Some a => ROk a | None => RPanic PUnwrap end.

(** [char::is_whitespace] (Unicode White_Space). *)
Definition is_ws (c : char) : bool :=
  ((9 <=? c) && (c <=? 13)) || (c =? 32) || (c =? 133) || (c =? 160) ||
  (c =? 5760) || ((8192 <=? c) && (c <=? 8202)) || (c =? 8232) || (c =? 8233) ||
  (c =? 8239) || (c =? 8287) || (c =? 12288).

(** [str::trim_start], [trim_end], [trim]. *)
Fixpoint trim_start (s : str) : str :=
  match s with
  | [] => []
  | c :: s' => if is_ws c then trim_start s' else s
  end.
Fixpoint trim_end (s : str) : str :=
  match s with
  | [] => []
  | c :: s' => match trim_end s' with
               | [] => if is_ws c then [] else [c]
               | t => c :: t
               end
  end.
Definition trim (s : str) : str := trim_end (trim_start s).

(** [str::is_empty]. *)
Definition is_empty {A} (s : list A) : bool :=
  match s with [] => true | _ => false end.

(** [s.trim().is_empty()]. *)
Definition is_blank (s : str) : bool := is_empty (trim s).

(** [str::lines]: split after each ['\n'], drop the ['\n'] and one ['\r'] before it;
    no final empty line. *)
Fixpoint lines (s : str) : list str :=
  match s with
  | [] => []
  | c :: s' =>
      if c =? c_nl then [] :: lines s'
      else if (c =? c_cr) && (match s' with d :: _ => d =? c_nl | [] => false end)
      then lines s'
      else match lines s' with
           | [] => [[c]]
           | l :: ls => (c :: l) :: ls
           end
  end.
Definition lines_count (s : str) : Z := Z.of_nat (length (lines s)).

(** [str::strip_prefix]. *)
Fixpoint strip_prefix (p s : str) : option str :=
  match p, s with
  | [], _ => Some s
  | x :: p', y :: s' => if x =? y then strip_prefix p' s' else None
  | _ :: _, [] => None
  end.
Definition starts_with (p s : str) : bool :=
  match strip_prefix p s with Some _ => true | None => false end.
Definition starts_with_char (c : char) (s : str) : bool :=
  match s with d :: _ => d =? c | [] => false end.
Definition ends_with_char (c : char) (s : str) : bool :=
  starts_with_char c (rev s).

(** [str::find] of a substring: the text before the first occurrence and the text
    from it on. *)
Fixpoint find_sub (p s : str) : option (str * str) :=
  if starts_with p s then Some ([], s)
  else match s with
       | [] => None
       | c :: s' => match find_sub p s' with
                    | Some (a, b) => Some (c :: a, b)
                    | None => None
                    end
       end.
Definition contains (p s : str) : bool :=
  match find_sub p s with Some _ => true | None => false end.
Definition contains_char (c : char) (s : str) : bool := existsb (N.eqb c) s.

(** [str::replace]: non-overlapping, left to right.  The empty pattern matches at
    every character boundary.  [skip] counts the characters of the current match
    still to be dropped. *)
Fixpoint replace_ne (p r : str) (skip : nat) (s : str) : str :=
  match skip, s with
  | S k, _ :: s' => replace_ne p r k s'
  | S _, [] => []
  | O, [] => []
  | O, c :: s' =>
      if starts_with p s then r ++ replace_ne p r (length p - 1) s'
      else c :: replace_ne p r 0 s'
  end.
Definition replace (p r s : str) : str :=
  match p with
  | [] => r ++ flat_map (fun c => c :: r) s
  | _ => replace_ne p r 0 s
  end.

(** [str::split(char)]: always at least one piece. *)
Fixpoint split_on (c : char) (s : str) : list str :=
  match s with
  | [] => [[]]
  | d :: s' => if d =? c then [] :: split_on c s'
               else match split_on c s' with
                    | [] => [[d]]
                    | l :: ls => (d :: l) :: ls
                    end
  end.

(** [[T]::join]. *)
Fixpoint join (sep : str) (l : list str) : str :=
  match l with
  | [] => []
  | [x] => x
  | x :: l' => x ++ sep ++ join sep l'
  end.

(** Longest prefix satisfying a predicate, and the rest. *)
Fixpoint span (f : char -> bool) (s : str) : str * str :=
  match s with
  | [] => ([], [])
  | c :: s' => if f c then let (a, b) := span f s' in (c :: a, b) else ([], s)
  end.

(** UTF-8 width of a scalar value, and [&s[i..]] for a byte offset: [None] is the
    panic "byte index is not a char boundary" or "out of range". *)
Definition utf8_width (c : char) : nat :=
  if c <? 128 then 1 else if c <? 2048 then 2 else if c <? 65536 then 3 else 4.
Fixpoint slice_from_byte (i : nat) (s : str) : option str :=
  match i, s with
  | O, _ => Some s
  | _, [] => None
  | _, c :: s' => if Nat.leb (utf8_width c) i then slice_from_byte (i - utf8_width c) s'
                  else None
  end.

(** [chars().position(..)]. *)
Fixpoint position (f : char -> bool) (s : str) : option nat :=
  match s with
  | [] => None
  | c :: s' => if f c then Some O else option_map S (position f s')
  end.

(** [Ord for str]: byte-wise comparison of UTF-8 = comparison of scalar values. *)
Fixpoint str_leb (a b : str) : bool :=
  match a, b with
  | [], _ => true
  | _ :: _, [] => false
  | x :: a', y :: b' => if x <? y then true else if x =? y then str_leb a' b' else false
  end.

(** [slice::sort] (stable). *)
Fixpoint insert_str (x : str) (l : list str) : list str :=
  match l with
  | [] => [x]
  | y :: l' => if str_leb x y then x :: l else y :: insert_str x l'
  end.
Fixpoint sort_str (l : list str) : list str :=
  match l with [] => [] | x :: l' => insert_str x (sort_str l') end.

Definition mem_str (x : str) (l : list str) : bool := existsb (str_eqb x) l.
