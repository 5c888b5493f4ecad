(** src/parsers.rs, src/helper/, and the shared types of src/osu_file/types.rs. *)
From Coq Require Import String List NArith ZArith Bool.
From Verif Require Import Str Num Nom Dec.
Import ListNotations.
Local Open Scope N_scope.

(** [Version] is [u8] (osu_file/types.rs:17), the constants are lines 14-15. *)
Definition version := Z.
Definition latest_version : version := 14%Z.
Definition min_version : version := 3%Z.
(** [(3..=4).contains(&version)], used wherever times are shifted. *)
Definition old_version (v : version) : bool := (3 <=? v)%Z && (v <=? 4)%Z.

(** [Error<E>] (osu_file/types.rs:37-44): an error with a line index. *)
Record line_err (E : Type) := mk_line_err { le_line : Z; le_err : E }.
Arguments mk_line_err {E} le_line le_err.
Arguments le_line {E} l.
Arguments le_err {E} l.

(** [Error::new_from_result_into] (osu_file/types.rs:94-105). *)
Definition err_at {A E F} (f : E -> F) (r : res A E) (i : Z) : res A (line_err F) :=
  rmap_err (fun e => mk_line_err i (f e)) r.
(** [Error::processing_line] (osu_file/types.rs:132-143). *)
Definition processing_line {A E F} (f : E -> F) (r : res A (line_err E)) (i : Z)
  : res A (line_err F) :=
  rmap_err (fun e => mk_line_err (le_line e + i)%Z (f (le_err e))) r.

(** [Position] (osu_file/types.rs:19-26). *)
Record position_t := mk_pos { pos_x : decimal; pos_y : decimal }.

(** [FilePath] (osu_file/types.rs:201-203).  A [PathBuf] built from a [&str] is that
    text; paths that are not valid UTF-8 are not modelled. *)
Definition file_path := str.

(** [FilePath::to_string] (osu_file/types.rs:220-239): quotes around a path with a
    space, unless it already starts and ends with a quote. *)
Definition print_file_path (p : file_path) : str :=
  if contains_char 32 p && negb (starts_with_char 34 p && ends_with_char 34 p)
  then [34] ++ p ++ [34]
  else p.

(** [helper::pipe_vec_to_string] (helper/mod.rs:10-18); the printers it is used
    with never return [None]. *)
Definition pipe_vec_to_string {A} (f : A -> str) (l : list A) : str :=
  join (lit "|") (map f l).

(** [helper::nth_bit_state_i64] (helper/mod.rs:20-22). *)
Definition nth_bit (value : Z) (n : Z) : bool := Z.testbit value n.

(** [ParseZeroOneBoolError], [helper::parse_zero_one_bool] (helper/mod.rs:24-40);
    the literal patterns make the parsed type [i32]. *)
Inductive bool_err := BoolInt (e : int_err) | BoolInvalidValue.
Definition parse_zero_one_bool (s : str) : res bool bool_err :=
  match parse_i32 s with
  | ROk 0%Z => ROk false
  | ROk 1%Z => ROk true
  | ROk _ => RErr BoolInvalidValue
  | RErr e => RErr (BoolInt e)
  | RPanic p => RPanic p
  end.
(** [( *v as u8 ).to_string()] (helper/macros.rs:98). *)
Definition print_bool (b : bool) : str := if b then lit "1" else lit "0".

(** [MapOptStringNewLine] (helper/trait_ext.rs:1-8): drop the [None]s, join with
    newlines. *)
Definition flatten_opt {A} (l : list (option A)) : list A :=
  flat_map (fun o => match o with Some a => [a] | None => [] end) l.
Definition map_string_new_line (l : list (option str)) : str := join [c_nl] (flatten_opt l).

(** [T::from_str(s, version).map(|v| v.unwrap())]. *)
Definition v_unwrap {A E} (r : res (option A) E) : res A E := rbind r unwrap.

Section P.
  Context {C : Type}.

  (** parsers.rs:45-58. *)
  Definition field_line : parser C (str * str * str * str) :=
    pbind (terminated (take_till (fun c => (c =? 58) || (c =? 10))) (pchar 58)) (fun name =>
    pbind space0 (fun ws =>
    pbind (take_till (fun c => (c =? 13) || (c =? 10))) (fun value =>
    pmap (fun ws2 => (name, ws, value, ws2)) multispace0))).
  Definition get_colon_field_value_lines : parser C (list (str * str * str * str)) :=
    many0 field_line.

  (** parsers.rs:60-73. *)
  Definition pipe_vec_versioned_map {A E} (f : str -> res (option A) E) : parser C (list A) :=
    separated_list0 (tag (lit "|"))
      (map_res (take_while (fun c => negb ((c =? 124) || (c =? 44) || (c =? 13) || (c =? 10))))
               (fun s => v_unwrap (f s))).

  (** parsers.rs:75-80. *)
  Definition comma : parser C str := tag (lit ",").
  (** parsers.rs:82-87. *)
  Definition comma_field : parser C str := take_while (fun c => negb (c =? 44)).
  (** parsers.rs:89-95. *)
  Definition comma_field_type {A E} (f : str -> res A E) : parser C A := map_res comma_field f.
  (** parsers.rs:97-107. *)
  Definition comma_field_versioned_type {A E} (f : str -> res (option A) E) : parser C A :=
    map_res comma_field (fun s => v_unwrap (f s)).
  (** parsers.rs:109-115. *)
  Definition consume_rest_type {A E} (f : str -> res A E) : parser C A := map_res prest f.
  (** parsers.rs:117-127. *)
  Definition consume_rest_versioned_type {A E} (f : str -> res (option A) E) : parser C A :=
    map_res prest (fun s => v_unwrap (f s)).
  (** parsers.rs:129-134. *)
  Definition nothing : parser C str := preceded space0 eof.
  (** parsers.rs:136-145. *)
  Definition square_section : parser C (str * str * str * str) :=
    pbind multispace0 (fun ws =>
    pbind (delimited (tag (lit "[")) (take_till (fun c => (c =? 93) || (c =? 10)))
                     (tag (lit "]"))) (fun name =>
    pbind multispace0 (fun ws2 =>
    pmap (fun body => (ws, name, ws2, body)) (alt (take_until [c_nl; 91]) prest)))).
End P.
