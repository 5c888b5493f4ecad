(** Readers and printers of the simple field types of the key/value sections
    ([versioned_field!], src/helper/macros.rs:52-101). *)
From Coq Require Import String List NArith ZArith Bool.
From Verif Require Import Str Num Nom Dec Parsers KeyValue.
Import ListNotations.
Local Open Scope N_scope.

(** A [no_versions] field: the inner reader ignores the version and the value is
    always [Some] (macros.rs:68-93). *)
Definition nv {A E} (f : str -> res A E) : str -> version -> res (option A) E :=
  fun s _ => rmap Some (f s).
(** A printer that ignores the version (macros.rs:72, 79, 86, 92). *)
Definition nvp {A} (f : A -> str) : A -> version -> option str := fun x _ => Some (f x).

(** [Ok(s.to_string())] and [Ok(PathBuf::from(s))]. *)
Definition from_text {E} : str -> version -> res (option str) E := nv (fun s => ROk s).
Definition to_text : str -> version -> option str := nvp (fun s => s).

(** [s.parse()] into the crate's [Decimal]: never fails. *)
Definition from_dec {E} : str -> version -> res (option decimal) E := nv parse_decimal.
Definition to_dec : decimal -> version -> option str := nvp print_decimal.

(** [s.parse::<Integer>()] with the section's [ParseIntError] variant. *)
Definition from_int {E} (f : int_err -> E) : str -> version -> res (option Z) E :=
  nv (fun s => rmap_err f (parse_i32 s)).
Definition to_int : Z -> version -> option str := nvp print_Z.

(** The comma separated integer list of [Bookmarks] (editor/mod.rs:15-50) and
    [EditorBookmarks] (general/mod.rs:42-76); [ferr], [flist] are the section's
    [ParseIntError] and [InvalidCommaList] variants. *)
Definition parse_int_list {E} (ferr : int_err -> E) (flist : E) (s : str) : res (list Z) E :=
  match @separated_list0 unit _ _ comma
          (map_res (take_till (fun c => c =? 44)) parse_i32) s with
  | POk r l =>
      match r with
      | [] => ROk l
      | _ =>
          let r' := if Nat.ltb (length r) (length s)
                    then match strip_prefix (lit ",") r with Some x => x | None => r end
                    else r in
          match @take_till unit (fun c => c =? 44) r' with
          | POk _ x =>
              match parse_i32 x with
              | RErr IEmpty => RErr flist
              | RErr e => RErr (ferr e)
              | ROk _ => RPanic PUnwrap          (* [unwrap_err] *)
              | RPanic p => RPanic p
              end
          | PErr _ | PFail _ => RPanic PUnwrap
          | PPanic p => RPanic p
          end
      end
  | PErr _ | PFail _ => RPanic PUnwrap
  | PPanic p => RPanic p
  end.
Definition print_int_list (l : list Z) : str := join (lit ",") (map print_Z l).
