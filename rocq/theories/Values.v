(** Values made by a program rather than read: [Decimal] and the conversions between the
    enumerations and numbers.  The version argument of [VersionedFrom] is unused in the code
    except by [Countdown]. *)
From Coq Require Import String List NArith ZArith Bool.
From Verif Require Import Str Num Nom Dec Parsers General TimingPoints HitObjects Storyboard NormalEvents.
Import ListNotations.
Local Open Scope N_scope.

(** [Decimal::new], [new_from_str], [From<i32>], [From<&str>], [FromStr] (osu_file/types.rs:284-290,
    310-316, 323-344). *)
Definition decimal_new (r : rdec) : decimal := DNum r.
Definition decimal_new_from_str (s : str) : decimal := DRaw s.
Definition decimal_from_i32 (z : Z) : decimal := decimal_of_Z z.
Definition decimal_from (s : str) : decimal := decimal_of_str s.
Definition decimal_from_str (s : str) : res decimal unit := ROk (decimal_from s).
(** [try_make_decimal] (osu_file/types.rs:293-301): the value afterwards, and the result; the
    error is [rust_decimal]'s. *)
Definition decimal_try_make (d : decimal) : decimal * res unit unit :=
  match d with
  | DNum _ => (d, ROk tt)
  | DRaw s => match parse_rdec s with Some r => (DNum r, ROk tt) | None => (d, RErr tt) end
  end.

(** [InvalidRepr] (osu_file/types.rs:252-256). *)
Inductive invalid_repr := InvalidRepr.
Definition repr {A} (o : option A) : res (option A) invalid_repr :=
  match o with Some x => ROk (Some x) | None => RErr InvalidRepr end.
(** normal_event/types.rs:47-65 and 88-102; audio_sample/mod.rs:175-185. *)
Definition origin_legacy_from_repr (z : Z) (v : version) : res (option origin_type) invalid_repr := repr (origin_type_of_Z z).
Definition layer_legacy_from_repr (z : Z) (v : version) : res (option layer_legacy) invalid_repr := repr (layer_legacy_of_Z z).
Definition au_layer_from_repr (z : Z) (v : version) : res (option au_layer) invalid_repr := repr (au_layer_of_Z z).
(** general/types.rs:22-35. *)
Definition countdown_from_repr_v (z : Z) (v : version) : res (option countdown) invalid_repr :=
  match countdown_from_repr z v with Some o => ROk o | None => RErr InvalidRepr end.
(** sprites.rs:421-439: the error is [UnknownVariant]. *)
Definition origin_type_try_from (z : Z) (v : version) : res (option origin_type) unit :=
  match origin_type_of_Z z with Some x => ROk (Some x) | None => RErr tt end.
(** normal_event/types.rs:30-44, 114-125; sprites.rs:441-456. *)
Definition usize_from_origin_legacy (o : origin_type) (v : version) : option Z := Some (origin_type_to_Z o).
Definition usize_from_layer_legacy (o : layer_legacy) (v : version) : option Z := Some (layer_legacy_to_Z o).
Definition integer_from_origin_type (o : origin_type) (v : version) : option Z := Some (origin_type_to_Z o).
(** storyboard/types.rs:245-330. *)
Definition easing_from (z : Z) (v : version) : option easing := Some (easing_of_Z z).
Definition integer_from_easing (e : easing) (v : version) : option Z := Some (easing_to_Z e).
(** timingpoints/types.rs:22-48, 86-96, 168-191, 215-225. *)
Definition tp_sample_set_from (z : Z) (v : version) : option tp_sample_set := Some (tp_sample_set_of_Z z).
Definition integer_from_tp_sample_set (x : tp_sample_set) (v : version) : option Z := Some (tp_sample_set_to_Z x).
Definition sample_index_from (z : Z) (v : version) : option sample_index := Some (sample_index_of_u32 z).
Definition integer_from_sample_index (x : sample_index) (v : version) : option Z := Some (sample_index_to_Z x).
(** hitobjects/types.rs:156-166, 371-385, 441-462, 210-219. *)
Definition usize_from_sample_set (x : sample_set) (v : version) : option Z := Some (sample_set_to_Z x).
Definition hit_sound_from (z : Z) (v : version) : option hit_sound := Some (hit_sound_of_u8 z).
Definition ho_index_from (z : Z) (v : version) : option ho_index := Some (ho_index_of_Z z).
Definition usize_from_ho_index (x : ho_index) (v : version) : option Z := Some (ho_index_to_Z x).
Definition integer_from_ho_volume (x : ho_volume) (v : version) : option Z := Some (ho_volume_to_Z x).

(** [Error<E>] (osu_file/types.rs:67-152, 165-173): [f] is the [Into] of the errors. *)
Definition error_new {E} (e : E) (line : Z) : line_err E := mk_line_err line e.
Definition error_new_into {E F} (f : E -> F) (e : E) (line : Z) : line_err F := mk_line_err line (f e).
Definition error_new_from_result {A E} (r : res A E) (line : Z) : res A (line_err E) :=
  rmap_err (fun e => mk_line_err line e) r.
Definition error_new_from_result_into {A E F} (f : E -> F) (r : res A E) (line : Z) : res A (line_err F) :=
  rmap_err (fun e => mk_line_err line (f e)) r.
Definition error_into {E F} (f : E -> F) (e : line_err E) : line_err F := mk_line_err (le_line e) (f (le_err e)).
Definition error_result_into {A E F} (f : E -> F) (r : res A (line_err E)) : res A (line_err F) :=
  rmap_err (fun e => mk_line_err (le_line e) (f (le_err e))) r.
Definition error_processing_line {A E F} (f : E -> F) (r : res A (line_err E)) (line : Z) : res A (line_err F) :=
  rmap_err (fun e => mk_line_err (le_line e + line) (f (le_err e))) r.
Definition error_from {E} (e : E) : line_err E := mk_line_err 0 e.
