(** Well-formed values: the data-type invariants used as hypotheses of the property
    theorems.  Every predicate is a boolean function that looks only at the fields of
    a value, never at what the reader or the printer does with it. *)
From Coq Require Import String List NArith ZArith Bool.
From Verif Require Import Str Num Nom Dec Parsers Colours TimingPoints HitObjects.
Import ListNotations.
Local Open Scope N_scope.

(** ** text *)
(** No line feed. *)
Definition no_nl (s : str) : bool := forallb (fun c => negb (c =? 10)) s.

(** ** decimals *)
(** A [rust_decimal] value: 96-bit mantissa, scale at most 28, no negative zero. *)
Definition wf_rdec (d : rdec) : bool :=
  (d_mant d <? two96) && Nat.leb (d_scale d) 28 && (negb (d_neg d) || negb (d_mant d =? 0)).
(** A value of the crate's [Decimal] that reading a text can produce: raw text only
    when the text is not a number. *)
Definition wf_decimal (d : decimal) : bool :=
  match d with
  | DNum r => wf_rdec r
  | DRaw s => match parse_rdec s with Some _ => false | None => true end
  end.

(** ** comma separated fields *)
(** A text without comma. *)
Definition no_comma (s : str) : bool := forallb (fun c => negb (c =? 44)) s.
(** A text that can stand in a comma separated field of one line. *)
Definition field_text (s : str) : bool := no_comma s && no_nl s.
(** A decimal whose text can stand in a field. *)
Definition dec_field (d : decimal) : bool :=
  match d with DNum _ => true | DRaw s => field_text s end.
Definition wf_dec_field (d : decimal) : bool := wf_decimal d && dec_field d.

(** ** colours *)
Definition rgb_ok (c : rgb) : bool := in_u8 (rgb_r c) && in_u8 (rgb_g c) && in_u8 (rgb_b c).
(** The ranges of the Rust types ([i32] combo number, [u8] channels). *)
Definition colour_ok (c : colour) : bool :=
  match c with
  | Combo n x => in_i32 n && rgb_ok x
  | SliderTrackOverride x | SliderBorder x => rgb_ok x
  end.
(** A combo number is not negative. *)
Definition combo_nonneg (c : colour) : bool :=
  match c with Combo n _ => (0 <=? n)%Z | _ => true end.

(** ** timing points *)
Definition tp_sample_set_ok (x : tp_sample_set) : bool :=
  match x with TsOther z => in_i32 z && negb ((0 <=? z)%Z && (z <=? 3)%Z) | _ => true end.
Definition sample_index_ok (x : sample_index) : bool :=
  match x with SiDefault => true | SiIndex z => (1 <=? z)%Z && (z <=? u32_max)%Z end.
(** The index is also an [i32]. *)
Definition index_small (x : sample_index) : bool :=
  match x with SiDefault => true | SiIndex z => (z <=? i32_max)%Z end.
(** What version [v] can express after the volume: the flags come together, except
    in version 5, where the effects can be missing. *)
Definition tp_tail_ok (v : version) (t : timing_point) : bool :=
  match tp_uninherited t, tp_effects t with
  | None, None => true
  | Some _, Some e => in_u32 e
  | Some _, None => (v <=? 5)%Z
  | None, Some _ => false
  end.
Definition tp_ok (v : version) (t : timing_point) : bool :=
  wf_dec_field (tp_time t) && wf_dec_field (tp_beat_length t) && in_i32 (tp_meter t)
  && tp_sample_set_ok (tp_sample_set_f t) && sample_index_ok (tp_sample_index t)
  && in_i32 (tp_volume t) && tp_tail_ok v t.

(** ** items of a `|` list *)
Definition item_char (c : char) : bool := negb ((c =? 124) || (c =? 44) || (c =? 13) || (c =? 10)).
Definition item_text (s : str) : bool := forallb item_char s.

(** ** hit samples *)
Definition sample_set_ok (x : sample_set) : bool :=
  match x with SsOther z => (4 <=? z)%Z && (z <=? usize_max)%Z | _ => true end.
Definition ho_index_ok (x : ho_index) : bool :=
  match x with HiTimingPoint => true | HiIndex z => (1 <=? z)%Z && (z <=? usize_max)%Z end.
Definition ho_volume_ok (x : ho_volume) : bool :=
  match x with None => true | Some z => (1 <=? z)%Z && (z <=? 100)%Z end.
(** A file name that can end a hit sample: no colon, and not only blanks. *)
Definition sample_name_ok (s : str) : bool :=
  forallb (fun c => negb (c =? 58)) s && (is_empty s || negb (forallb is_space0 s)).
Definition hit_sample_ok (h : hit_sample) : bool :=
  sample_set_ok (hs_normal h) && sample_set_ok (hs_addition h) && ho_index_ok (hs_index h)
  && ho_volume_ok (hs_volume h) && sample_name_ok (hs_filename h).
Definition no_colon (s : str) : bool := forallb (fun c => negb (c =? 58)) s.
(** A name of blanks only is cut when it is read back. *)
Definition name_kept (s : str) : bool := is_empty s || negb (forallb is_space0 s).
Definition hit_sample_read (h : hit_sample) : bool :=
  sample_set_ok (hs_normal h) && sample_set_ok (hs_addition h) && ho_index_ok (hs_index h)
  && ho_volume_ok (hs_volume h) && no_colon (hs_filename h).

(** ** hit objects *)
Definition dec_item (d : decimal) : bool := match d with DNum _ => true | DRaw s => item_text s end.
Definition dec_no_colon (d : decimal) : bool := match d with DNum _ => true | DRaw s => no_colon s end.
Definition dec_no_nl (d : decimal) : bool := match d with DNum _ => true | DRaw s => no_nl s end.
(** [x:y]: neither has a separator of the list, [x] has no colon. *)
Definition point_ok (p : curve_point) : bool :=
  wf_decimal (pos_x p) && wf_decimal (pos_y p) && dec_item (pos_x p) && dec_item (pos_y p)
  && dec_no_colon (pos_x p).
Definition edge_set_ok (x : edge_set) : bool := sample_set_ok (es_normal x) && sample_set_ok (es_addition x).
(** The shorthand flags say which of the trailing lists are written. *)
Definition shorthand_ok (p : slide_params) (hs : option hit_sample) : bool :=
  if sl_edge_sounds_short_hand p
  then is_empty (sl_edge_sounds p) && is_empty (sl_edge_sets p) && sl_edge_sets_shorthand p
       && match hs with None => true | _ => false end
  else if sl_edge_sets_shorthand p
  then is_empty (sl_edge_sets p) && match hs with None => true | _ => false end
  else true.
Definition slide_ok (p : slide_params) (hs : option hit_sample) : bool :=
  forallb point_ok (sl_curve_points p) && in_i32 (sl_slides p) && wf_dec_field (sl_length p)
  && forallb edge_set_ok (sl_edge_sets p) && shorthand_ok p hs.
Definition params_ok (p : ho_params) (hs : option hit_sample) : bool :=
  match p with
  | HitCircle => true
  | Slider p => slide_ok p hs
  | Spinner t => wf_dec_field t
  | OsuManiaHold t =>
      wf_decimal t && dec_no_colon t && dec_no_nl t && match hs with Some _ => true | None => false end
  end.
(** What the reader produces for a line. *)
Definition ho_read (o : hit_object) : bool :=
  wf_dec_field (pos_x (ho_position o)) && wf_dec_field (pos_y (ho_position o)) && wf_dec_field (ho_time o)
  && (0 <=? ho_combo_skip_count o)%Z && (ho_combo_skip_count o <=? 7)%Z
  && params_ok (ho_obj_params o) (ho_hitsample o)
  && match ho_hitsample o with Some h => hit_sample_read h && no_nl (hs_filename h) | None => true end.
(** The text that ends the line does not end in a carriage return, and a sample
    file name is not made of blanks only. *)
Definition no_cr_end (s : str) : bool := negb (ends_with_char 13 s).
Definition ho_keeps (o : hit_object) : bool :=
  match ho_hitsample o with
  | Some h => no_cr_end (hs_filename h) && name_kept (hs_filename h)
  | None => match ho_obj_params o with
            | Spinner t => no_cr_end (print_decimal t)
            | Slider p => negb (sl_edge_sounds_short_hand p) || no_cr_end (print_decimal (sl_length p))
            | _ => true
            end
  end.
(** The parts of a hit sample that version [v] writes: nothing before 10, no volume
    and file name before 12. *)
Definition sample_in_version (v : version) (hs : option hit_sample) : bool :=
  match hs with
  | None => true
  | Some h => (12 <=? v)%Z
              || ((10 <=? v)%Z && match hs_volume h with None => true | _ => false end
                  && is_empty (hs_filename h))
  end.
Definition ho_ok (v : version) (o : hit_object) : bool :=
  ho_read o && ho_keeps o && sample_in_version v (ho_hitsample o).
