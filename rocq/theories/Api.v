(** The constructors, getters and setters that reading and printing do not use.  A
    [&mut self] method maps the value before the call to the value after it; when it
    also returns something, to the pair of both. *)
From Coq Require Import String List NArith ZArith Bool.
From Verif Require Import Str Num Nom Dec Parsers Colours TimingPoints HitObjects Storyboard NormalEvents.
Import ListNotations.
Local Open Scope N_scope.

(** [ComboSkipCount]: [default] is the derived one, [new], [set]
    (hitobjects/types.rs:22-39). *)
Definition combo_default : combo_skip_count := 0%Z.
Definition combo_new (count : Z) : res (option combo_skip_count) unit :=
  combo_skip_count_try_from count.
Definition combo_set (c : combo_skip_count) (count : Z) : combo_skip_count * res unit unit :=
  match v_unwrap (combo_skip_count_try_from count) with
  | ROk x => (x, ROk tt)
  | RErr e => (c, RErr e)
  | RPanic p => (c, RPanic p)
  end.

(** [Volume] of a hit sample: [default], [set_volume],
    [set_use_timing_point_volume] (hitobjects/types.rs:204-208, 246-265). *)
Definition ho_volume_default : ho_volume := None.
Definition ho_volume_set (old : ho_volume) (z : Z) : ho_volume * res unit vol_set_err :=
  if (z =? 0)%Z then (old, RErr VolumeTooLow)
  else if (100 <? z)%Z then (old, RErr VolumeTooHigh)
  else (Some z, ROk tt).
Definition ho_volume_use_timing_point (old : ho_volume) : ho_volume := None.

(** [Volume] of an audio sample: [new], [set] (audio_sample/mod.rs:116-134).  The
    error is always [VolumeTooHigh]. *)
Definition au_volume_try_from (z : Z) : res (option Z) unit :=
  match au_volume_of_Z z with Some x => ROk (Some x) | None => RErr tt end.
Definition au_volume_new (z : Z) : res Z unit := v_unwrap (au_volume_try_from z).
Definition au_volume_set (old z : Z) : Z * res unit unit :=
  match v_unwrap (au_volume_try_from z) with
  | ROk x => (x, ROk tt)
  | RErr e => (old, RErr e)
  | RPanic p => (old, RPanic p)
  end.

(** [HitSound] (hitobjects/types.rs:314-361); [default] is the derived one. *)
Definition hit_sound_default : hit_sound := mk_hit_sound false false false false.
Definition hit_sound_new (normal whistle finish clap : bool) : hit_sound :=
  mk_hit_sound normal whistle finish clap.
Definition hit_sound_normal (h : hit_sound) : bool :=
  if negb (snd_normal h) && negb (snd_whistle h) && negb (snd_finish h) && negb (snd_clap h)
  then true else snd_normal h.
Definition hit_sound_whistle (h : hit_sound) : bool := snd_whistle h.
Definition hit_sound_finish (h : hit_sound) : bool := snd_finish h.
Definition hit_sound_clap (h : hit_sound) : bool := snd_clap h.
Definition hit_sound_set_normal (h : hit_sound) (b : bool) : hit_sound :=
  mk_hit_sound b (snd_whistle h) (snd_finish h) (snd_clap h).
Definition hit_sound_set_whistle (h : hit_sound) (b : bool) : hit_sound :=
  mk_hit_sound (snd_normal h) b (snd_finish h) (snd_clap h).
Definition hit_sound_set_finish (h : hit_sound) (b : bool) : hit_sound :=
  mk_hit_sound (snd_normal h) (snd_whistle h) b (snd_clap h).
Definition hit_sound_set_clap (h : hit_sound) (b : bool) : hit_sound :=
  mk_hit_sound (snd_normal h) (snd_whistle h) (snd_finish h) b.

(** [TimingPoint]: [new_uninherited], [set_*], [uninherited]
    (timingpoints/mod.rs:131-150, 184-260). *)
Definition tp_new_uninherited (time : Z) (beat_duration_ms : decimal) (meter : Z)
  (set : tp_sample_set) (index : sample_index) (volume : Z) (e : effects) : timing_point :=
  mk_tp (decimal_of_Z time) beat_duration_ms meter set index volume (Some true) (Some e).
Definition tp_set_time (t : timing_point) (time : Z) : timing_point :=
  mk_tp (decimal_of_Z time) (tp_beat_length t) (tp_meter t) (tp_sample_set_f t)
        (tp_sample_index t) (tp_volume t) (tp_uninherited t) (tp_effects t).
Definition tp_set_uninherited (t : timing_point) (b : bool) : timing_point :=
  mk_tp (tp_time t) (tp_beat_length t) (tp_meter t) (tp_sample_set_f t)
        (tp_sample_index t) (tp_volume t) (Some b) (tp_effects t).
Definition tp_set_meter (t : timing_point) (meter : Z) : timing_point :=
  mk_tp (tp_time t) (tp_beat_length t) meter (tp_sample_set_f t)
        (tp_sample_index t) (tp_volume t) (tp_uninherited t) (tp_effects t).
Definition tp_set_sample_set (t : timing_point) (set : tp_sample_set) : timing_point :=
  mk_tp (tp_time t) (tp_beat_length t) (tp_meter t) set
        (tp_sample_index t) (tp_volume t) (tp_uninherited t) (tp_effects t).
Definition tp_set_volume (t : timing_point) (volume : Z) : timing_point :=
  mk_tp (tp_time t) (tp_beat_length t) (tp_meter t) (tp_sample_set_f t)
        (tp_sample_index t) volume (tp_uninherited t) (tp_effects t).
(** Assignment through [sample_index_mut] and [effects_mut]. *)
Definition tp_put_sample_index (t : timing_point) (index : sample_index) : timing_point :=
  mk_tp (tp_time t) (tp_beat_length t) (tp_meter t) (tp_sample_set_f t)
        index (tp_volume t) (tp_uninherited t) (tp_effects t).
Definition tp_put_effects (t : timing_point) (e : option effects) : timing_point :=
  mk_tp (tp_time t) (tp_beat_length t) (tp_meter t) (tp_sample_set_f t)
        (tp_sample_index t) (tp_volume t) (tp_uninherited t) e.
Definition tp_is_uninherited (t : timing_point) : bool :=
  match tp_uninherited t with Some b => b | None => true end.

(** [Position::default] (osu_file/types.rs:28-35), [Decimal::default] (346-350). *)
Definition decimal_default : decimal := DNum (mkDec false 0 0).
Definition position_default : position_t := mk_pos (decimal_of_Z 256) (decimal_of_Z 192).
(** [hitcircle_default], [spinner_default], [osu_mania_hold_default]
    (hitobjects/mod.rs:120-162), [SlideParams::new] (595-613). *)
Definition hitcircle_default : hit_object :=
  mk_ho position_default decimal_default HitCircle false combo_default hit_sound_default None.
Definition spinner_default : hit_object :=
  mk_ho position_default decimal_default (Spinner decimal_default) false combo_default
        hit_sound_default None.
Definition osu_mania_hold_default : hit_object :=
  mk_ho (mk_pos (decimal_of_Z 0) (pos_y position_default)) decimal_default
        (OsuManiaHold decimal_default) false combo_default hit_sound_default None.
Definition slide_params_new (ct : curve_type) (pts : list curve_point) (slides : Z)
  (len : decimal) (sounds : list hit_sound) (sets : list edge_set) : slide_params :=
  mk_slide ct pts slides len sounds true sets true.

(** [FilePath::set], [get] (osu_file/types.rs:205-218). *)
Definition file_path_set (old path : file_path) : file_path := path.
Definition file_path_get (p : file_path) : file_path := p.

(** [Display for Error<E>] and [display_error_with_line]
    (osu_file/types.rs:57-65, 156-163); [show] is [Display] of the error itself.
    [line_index + 1] cannot overflow for the index of a line of a text. *)
Definition error_to_string {E} (show : E -> str) (e : line_err E) : str :=
  lit "Line " ++ print_Z (le_line e + 1) ++ lit ", " ++ show (le_err e).
Definition display_error_with_line {E} (show : E -> str) (e : line_err E) (file_input : str) : str :=
  lit "Line " ++ print_Z (le_line e + 1) ++ lit ": "
  ++ match nth_error (lines file_input) (Z.to_nat (le_line e)) with Some l => l | None => [] end
  ++ lit ", " ++ show (le_err e).
