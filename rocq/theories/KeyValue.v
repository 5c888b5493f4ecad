(** The [general_section!] macro (src/helper/macros.rs:103-234), once for all the
    key/value sections.  The macro is instantiated with a list of fields; here a
    field is a record of its key, reader, printer and accessors. *)
From Coq Require Import String List NArith ZArith Bool.
From Verif Require Import Str Num Nom Dec Parsers.
Import ListNotations.
Local Open Scope N_scope.

(** One field of a section [S] with error enum [E].  [f_from] is the
    [VersionedFromStr] of the field type with its error already converted by
    [Into] (an [E]-less error [()] would be [unreachable!]; those readers never
    fail), [f_to] its [VersionedToString]. *)
Record field (S E : Type) := mk_field_t {
  f_ty : Type;
  f_name : str;
  f_from : str -> version -> res (option f_ty) E;
  f_to : f_ty -> version -> option str;
  f_get : S -> option f_ty;
  f_set : option f_ty -> S -> S }.
Arguments f_ty {S E} f.
Arguments f_name {S E} f.
Arguments f_from {S E} f.
Arguments f_to {S E} f.
Arguments f_get {S E} f.
Arguments f_set {S E} f.
Definition mk_field {S E T} (name : str) (from : str -> version -> res (option T) E)
  (to : T -> version -> option str) (get : S -> option T) (set : option T -> S -> S)
  : field S E := mk_field_t S E T name from to get set.

(** The three errors every section enum has. *)
Record kv_errs (E : Type) := mk_kv_errs { ke_colon : E; ke_key : E; ke_dup : E }.
Arguments mk_kv_errs {E} ke_colon ke_key ke_dup.
Arguments ke_colon {E} k.
Arguments ke_key {E} k.
Arguments ke_dup {E} k.

Section KV.
  Context {S E : Type}.
  Variable errs : kv_errs E.
  Variable fields : list (field S E).
  Variable new : S.
  (** the [$spacing] expression: per key and version (macros.rs:195, 214-229) *)
  Variable spacing : str -> version -> str.

  (** [match name { stringify!($field_type) => .. }] (macros.rs:142-149): [None] is
      the [_] arm. *)
  Fixpoint kv_assign (fs : list (field S E)) (name value : str) (v : version) (sec : S)
    : option (res S E) :=
    match fs with
    | [] => None
    | f :: fs' => if str_eqb name (f_name f)
                  then Some (rmap (fun x => f_set f x sec) (f_from f value v))
                  else kv_assign fs' name value v sec
    end.

  (** The loop over the parsed lines (macros.rs:134-153). *)
  Fixpoint kv_loop (v : version) (line_count : Z) (parsed : list str) (sec : S)
    (l : list (str * str * str * str)) : res S (line_err E) :=
    match l with
    | [] => ROk sec
    | (name, _, value, ws2) :: l' =>
        if mem_str name parsed then RErr (mk_line_err line_count (ke_dup errs))
        else match kv_assign fields name value v sec with
             | None => RErr (mk_line_err line_count (ke_key errs))
             | Some (RErr e) => RErr (mk_line_err line_count e)
             | Some (RPanic p) => RPanic p
             | Some (ROk sec') =>
                 kv_loop v (line_count + lines_count ws2)%Z (parsed ++ [name]) sec' l'
             end
    end.

  (** [from_str] (macros.rs:122-156). *)
  Definition kv_from_str (s : str) (v : version) : res (option S) (line_err E) :=
    match @get_colon_field_value_lines unit s with
    | POk rest l =>
        if negb (is_blank rest) then
          RErr (mk_line_err
                  (fold_right Z.add 0%Z (map (fun '(_, _, _, ws) => lines_count ws) l))
                  (ke_colon errs))
        else rmap Some (kv_loop v 0 [] new l)
    | PErr _ | PFail _ => RPanic PUnwrap
    | PPanic p => RPanic p
    end.

  (** One line of output, if the field is present and the version prints it
      (macros.rs:162-168). *)
  Definition kv_field_line (v : version) (sec : S) (f : field S E) : option str :=
    match f_get f sec with
    | Some x => match f_to f x v with
                | Some t => Some (f_name f ++ [c_colon] ++ spacing (f_name f) v ++ t)
                | None => None
                end
    | None => None
    end.

  (** [to_string] (macros.rs:158-172). *)
  Definition kv_to_string (sec : S) (v : version) : option str :=
    Some (join [c_nl] (flatten_opt (map (kv_field_line v sec) fields))).
End KV.
