(** src/osu_file/editor: the [Editor] section. *)
From Coq Require Import String List NArith ZArith Bool.
From Verif Require Import Str Num Nom Dec Parsers KeyValue KvFields.
Import ListNotations.
Local Open Scope N_scope.

(** editor/error.rs:7-26. *)
Inductive editor_err := EdInt (e : int_err) | EdColonSet | EdKey | EdCommaList | EdDup.

(** [Bookmarks] (editor/mod.rs:15-50). *)
Definition from_bookmarks : str -> version -> res (option (list Z)) editor_err :=
  nv (parse_int_list EdInt EdCommaList).
Definition to_bookmarks : list Z -> version -> option str := nvp print_int_list.
(** [CurrentTime] (editor/mod.rs:55-63): printed only in version 10. *)
Definition to_current_time (z : Z) (v : version) : option str :=
  if negb (v =? 10)%Z then None else Some (print_Z z).

(** [Editor] (editor/mod.rs:65-83): every field is optional. *)
Record editor := mk_editor {
  editor_bookmarks : option (list Z);
  editor_distance_spacing : option decimal;
  editor_beat_divisor : option decimal;
  editor_grid_size : option Z;
  editor_timeline_zoom : option decimal;
  editor_current_time : option Z }.

(** [Editor::new] (helper/macros.rs:116-120). *)
Definition editor_new : editor := mk_editor None None None None None None.

(** Field assignment [section.$field = ..] (helper/macros.rs:145). *)
Definition editor_set_bookmarks (v : option (list Z)) (s : editor) : editor :=
  mk_editor v (editor_distance_spacing s) (editor_beat_divisor s) (editor_grid_size s) (editor_timeline_zoom s) (editor_current_time s).
Definition editor_set_distance_spacing (v : option decimal) (s : editor) : editor :=
  mk_editor (editor_bookmarks s) v (editor_beat_divisor s) (editor_grid_size s) (editor_timeline_zoom s) (editor_current_time s).
Definition editor_set_beat_divisor (v : option decimal) (s : editor) : editor :=
  mk_editor (editor_bookmarks s) (editor_distance_spacing s) v (editor_grid_size s) (editor_timeline_zoom s) (editor_current_time s).
Definition editor_set_grid_size (v : option Z) (s : editor) : editor :=
  mk_editor (editor_bookmarks s) (editor_distance_spacing s) (editor_beat_divisor s) v (editor_timeline_zoom s) (editor_current_time s).
Definition editor_set_timeline_zoom (v : option decimal) (s : editor) : editor :=
  mk_editor (editor_bookmarks s) (editor_distance_spacing s) (editor_beat_divisor s) (editor_grid_size s) v (editor_current_time s).
Definition editor_set_current_time (v : option Z) (s : editor) : editor :=
  mk_editor (editor_bookmarks s) (editor_distance_spacing s) (editor_beat_divisor s) (editor_grid_size s) (editor_timeline_zoom s) v.

(** The fields in declaration order with their key, reader and printer. *)
Definition editor_fields : list (field editor editor_err) := [
  mk_field (lit "Bookmarks") from_bookmarks to_bookmarks editor_bookmarks editor_set_bookmarks;
  mk_field (lit "DistanceSpacing") from_dec to_dec editor_distance_spacing editor_set_distance_spacing;
  mk_field (lit "BeatDivisor") from_dec to_dec editor_beat_divisor editor_set_beat_divisor;
  mk_field (lit "GridSize") (from_int EdInt) to_int editor_grid_size editor_set_grid_size;
  mk_field (lit "TimelineZoom") from_dec to_dec editor_timeline_zoom editor_set_timeline_zoom;
  mk_field (lit "CurrentTime") (from_int EdInt) to_current_time editor_current_time editor_set_current_time].

Definition editor_errs : kv_errs editor_err := mk_kv_errs EdColonSet EdKey EdDup.
(** The spacing is one space (editor/mod.rs:82). *)
Definition editor_spacing (_ : str) (_ : version) : str := lit " ".

Definition editor_from_str : str -> version -> res (option editor) (line_err editor_err) :=
  kv_from_str editor_errs editor_fields editor_new.
Definition editor_to_string : editor -> version -> option str :=
  kv_to_string editor_fields editor_spacing.
