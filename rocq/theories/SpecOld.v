(** The time offset of versions 3 and 4 (C22). *)
From Coq Require Import String List NArith ZArith Bool.
From Verif Require Import Str Num Dec Parsers TimingPoints HitObjects Storyboard NormalEvents Spec SpecWf.
Import ListNotations.
Local Open Scope N_scope.

(** The numerator of a decimal over [10 ^ d_scale]. *)
Definition numerator (d : rdec) : Z := if d_neg d then (- Z.of_N (d_mant d))%Z else Z.of_N (d_mant d).
Definition denominator (d : rdec) : Z := (10 ^ Z.of_nat (d_scale d))%Z.
(** [later24 a b]: as numbers, [b = a + 24]; [same_number a b]: [b = a]. *)
Definition later24 (a b : rdec) : Prop :=
  (numerator b * denominator a = (numerator a + 24 * denominator a) * denominator b)%Z.
Definition same_number (a b : rdec) : Prop := (numerator b * denominator a = numerator a * denominator b)%Z.
(** ... text that is not a number stays as it is. *)
Definition late (a b : decimal) : Prop :=
  match a, b with
  | DNum x, DNum y => later24 x y
  | DRaw s, DRaw t => s = t
  | _, _ => False
  end.
Definition same_time (a b : decimal) : Prop :=
  match a, b with
  | DNum x, DNum y => same_number x y
  | DRaw s, DRaw t => s = t
  | _, _ => False
  end.
(** 24 can be added or subtracted within 96 bits, without dropping digits *)
Definition room (d : decimal) : bool :=
  match d with
  | DNum r => d_mant r + 24 * 10 ^ N.of_nat (d_scale r) <? two96
  | DRaw _ => true
  end.
(** adding [k] and subtracting it again loses the scale of the two numbers [0] and [- k], because
    a zero appears on the way *)
Definition plain_for (k : Z) (d : decimal) : bool :=
  match d with
  | DNum r => negb (numerator r =? 0)%Z && negb (numerator r + k * denominator r =? 0)%Z || Nat.eqb (d_scale r) 0
  | DRaw _ => true
  end.

(** [moved R v o5 o]: the object [o] of version [v] is [o5] of version 5 with times related by
    [R]; in version 3 the first curve point of [o5] is not in [o]. *)
Definition moved_params (R : decimal -> decimal -> Prop) (v : version) (p5 p : ho_params) : Prop :=
  match p5, p with
  | HitCircle, HitCircle => True
  | Slider a, Slider b =>
      b = mk_slide (sl_curve_type a) (if (v =? 3)%Z then tl (sl_curve_points a) else sl_curve_points a)
            (sl_slides a) (sl_length a) (sl_edge_sounds a) (sl_edge_sounds_short_hand a) (sl_edge_sets a)
            (sl_edge_sets_shorthand a)
  | Spinner a, Spinner b => R a b
  | OsuManiaHold a, OsuManiaHold b => R a b
  | _, _ => False
  end.
Definition moved (R : decimal -> decimal -> Prop) (v : version) (o5 o : hit_object) : Prop :=
  ho_position o = ho_position o5 /\ R (ho_time o5) (ho_time o)
  /\ moved_params R v (ho_obj_params o5) (ho_obj_params o) /\ ho_new_combo o = ho_new_combo o5
  /\ ho_combo_skip_count o = ho_combo_skip_count o5 /\ ho_hitsound o = ho_hitsound o5
  /\ ho_hitsample o = ho_hitsample o5.
Definition late_if_room (a b : decimal) : Prop := room a = true -> late a b.
Definition roomy (o : hit_object) : bool :=
  room (ho_time o)
  && match ho_obj_params o with Spinner t | OsuManiaHold t => room t | _ => true end.
(** what version 3 writes: a comma after a circle, and the position as the first curve point *)
Definition starts_at_position (o : hit_object) : Prop :=
  match ho_obj_params o with
  | Slider p => exists l, sl_curve_points p = ho_position o :: l
  | _ => True
  end.
Definition circle_comma (v : version) (o : hit_object) : str :=
  match ho_obj_params o with HitCircle => if (v =? 3)%Z then lit "," else [] | _ => [] end.

(** Timing points: what version 3 and version 4 write and read back; the time is the same
    number, and the same digits when [plain_for (-24)]. *)
Definition old_tp_ok (v : version) (t : timing_point) : bool :=
  wf_dec_field (tp_time t) && room (tp_time t) && wf_dec_field (tp_beat_length t) && in_i32 (tp_meter t)
  && tp_sample_set_ok (tp_sample_set_f t) && sample_index_ok (tp_sample_index t) && index_small (tp_sample_index t)
  && (negb (v =? 3)%Z || no_cr_end (print_decimal (tp_beat_length t))).
Definition old_tp_kept (v : version) (t t' : timing_point) : Prop :=
  same_time (tp_time t) (tp_time t') /\ (plain_for (-24) (tp_time t) = true -> tp_time t' = tp_time t)
  /\ tp_beat_length t' = tp_beat_length t
  /\ (if (v =? 3)%Z
      then tp_meter t' = 4%Z /\ tp_sample_set_f t' = TsNormal /\ tp_sample_index t' = SiIndex 1
      else tp_meter t' = tp_meter t /\ tp_sample_set_f t' = tp_sample_set_f t /\ tp_sample_index t' = tp_sample_index t)
  /\ tp_volume t' = 100%Z /\ tp_uninherited t' = None /\ tp_effects t' = None.

(** Adding [k] to an [i32]: [None] is an overflow panic (overflow checks on), otherwise the sum
    is taken modulo [2 ^ 32]. *)
Definition i32_plus (dbg : bool) (k z : Z) : option Z :=
  if in_i32 (z + k) then Some (z + k)%Z
  else if dbg then None
  else Some (if (0 <? z)%Z then z + k - 4294967296 else z + k + 4294967296)%Z.
(** The three events with a shifted time, and the same event with times moved by [k]. *)
Definition brk_plus (dbg : bool) (k : Z) (x : break_t) : option break_t :=
  match i32_plus dbg k (br_start x), i32_plus dbg k (br_end x) with
  | Some a, Some b => Some (mk_brk a b (br_short x))
  | _, _ => None
  end.
Definition vid_plus (dbg : bool) (k : Z) (x : video) : option video :=
  match i32_plus dbg k (vi_start x) with
  | Some a => Some (mk_vid a (vi_file x) (vi_pos x) (vi_cmds x) (vi_short x))
  | None => None
  end.
Definition ctr_plus (dbg : bool) (k : Z) (x : colour_tr) : option colour_tr :=
  match i32_plus dbg k (ctr_start x) with
  | Some a => Some (mk_ct a (ctr_r x) (ctr_g x) (ctr_b x))
  | None => None
  end.
(** [reads_moved dbg move r5 r]: what the old reader returns, given what the reader of version 5
    returns. *)
Definition reads_moved {A E} (dbg : bool) (move : A -> option A) (r5 r : res (option A) E) : Prop :=
  match r5 with
  | ROk (Some x) => r = match move x with Some y => ROk (Some y) | None => RPanic POverflow end
  | ROk None => False
  | RErr e => r = RErr e \/ dbg = true /\ r = RPanic POverflow
  | RPanic _ => False
  end.
(** [prints_moved move p5 p x]: what the old printer returns for [x], given the printer of
    version 5. *)
Definition prints_moved {A T} (move : A -> option A) (p5 p : A -> run T) (x : A) : Prop :=
  p x = match move x with Some y => p5 y | None => RPanic POverflow end.
Definition plain_object (o : hit_object) : bool :=
  plain_for 24 (ho_time o)
  && match ho_obj_params o with Spinner t | OsuManiaHold t => plain_for 24 t | _ => true end.
