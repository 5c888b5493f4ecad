(** The times that printing a file of version 3 or 4 moves back by 24 (C43). *)
From Coq Require Import String List NArith ZArith Bool.
From Verif Require Import Str Num Dec Parsers TimingPoints HitObjects Storyboard NormalEvents Events Osb OsuFile.
Import ListNotations.
Local Open Scope N_scope.

(** What the 96 bits of a decimal number can hold. *)
Definition storable (d : decimal) : Prop :=
  match d with DNum r => d_mant r < 79228162514264337593543950336 | DRaw _ => True end.
(** A whole number within 24 of [- 2 ^ 96]. *)
Definition too_early (d : decimal) : Prop :=
  exists m, d = DNum (mkDec true m 0) /\ 79228162514264337593543950312 <= m.
(** An [i32] within 24 of [- 2 ^ 31]. *)
Definition early_i32 (z : Z) : Prop := (z < -2147483624)%Z.

Definition all_of {A B} (o : option (list A)) (f : A -> list B) : list B :=
  match o with Some l => flat_map f l | None => [] end.
Definition object_times (o : hit_object) : list decimal :=
  ho_time o :: match ho_obj_params o with Spinner t | OsuManiaHold t => [t] | _ => [] end.
(** The times of the timing points, of the hit objects, and of the ends of spinners and hold
    notes. *)
Definition decimal_times (f : osu_file) : list decimal :=
  all_of (osu_timing_points f) (fun t => [tp_time t]) ++ all_of (osu_hitobjects f) object_times.
(** The times of the videos, breaks and colour transformations. *)
Definition event_times (e : event) : list Z :=
  match e with
  | EVideo x => [vi_start x]
  | EBreak x => [br_start x; br_end x]
  | EColourTransformation x => [ctr_start x]
  | _ => []
  end.
Definition clock_times (f : osu_file) : list Z := all_of (osu_events f) event_times.
