(** src/lib.rs: the text normal form the crate compares files with. *)
From Coq Require Import String List NArith ZArith Bool.
From Verif Require Import Str.
Import ListNotations.
Local Open Scope N_scope.

(** [line.starts_with('[') && line.ends_with(']')]. *)
Definition is_header (line : str) : bool := starts_with_char 91 line && ends_with_char 93 line.

(** The [filter] on a line with a colon (lib.rs:90-109): [header] starts [true] and
    only becomes [false] in a branch guarded by [!header], so every whitespace
    character goes. *)
Fixpoint strip_line (header value : bool) (s : str) : str :=
  match s with
  | [] => []
  | c :: s' =>
      if negb header && negb value && (c =? 58) then c :: strip_line false true s'
      else if header && is_ws c then strip_line header value s'
      else c :: strip_line header value s'
  end.

(** The mutable state of [osu_str_trimmer] (lib.rs:45-49). *)
Record tstate := mk_ts { ts_builder : list str; ts_inner : list str;
                         ts_in_sections : bool; ts_first : bool; ts_coloned : bool }.

(** [section_values_sort_and_push] (lib.rs:51-55). *)
Definition sort_push (st : tstate) : list str := ts_builder st ++ sort_str (ts_inner st).

(** The body of the loop (lib.rs:57-122). *)
Definition trim_step (st : tstate) (line : str) : tstate :=
  let line := replace [c_bom] [] (trim line) in
  if is_empty line then st
  else if negb (ts_in_sections st) then
    if is_header line
    then mk_ts (ts_builder st ++ [line]) (ts_inner st) true (ts_first st) (ts_coloned st)
    else mk_ts (if ts_first st && starts_with (lit "osu file format v") line
                then ts_builder st ++ [line] else ts_builder st)
               (ts_inner st) false false (ts_coloned st)
  else if is_header line
  then mk_ts (sort_push st ++ [line]) [] true (ts_first st) true
  else if contains_char 58 line then
    let line := strip_line true false line in
    if ts_coloned st
    then mk_ts (ts_builder st) (ts_inner st ++ [line]) true (ts_first st) true
    else mk_ts (ts_builder st ++ [line]) (ts_inner st) true (ts_first st) false
  else mk_ts (ts_builder st ++ ts_inner st ++ [line]) [] true (ts_first st) false.

(** [osu_str_trimmer] (lib.rs:44-127). *)
Definition osu_str_trimmer (s : str) : str :=
  join [c_nl] (sort_push (fold_left trim_step (lines s) (mk_ts [] [] false true true))).
(** [osu_str_eq] (lib.rs:130-135). *)
Definition osu_str_eq (l r : str) : bool := str_eqb (osu_str_trimmer l) (osu_str_trimmer r).
