(** Saving a file under another version of the format (C54). *)
From Coq Require Import String List NArith ZArith Bool.
From Verif Require Import Str Num Nom Dec Parsers General Editor Metadata Difficulty Colours
  TimingPoints HitObjects Storyboard NormalEvents Events Osb OsuFile Spec SpecWf SpecText SpecKv SpecSections
  SpecFile SpecTypes SpecCmd SpecEvents SpecOld SpecWhole SpecBack.
Import ListNotations.
Local Open Scope N_scope.

(** [osu_file.version = b]; the field is public. *)
Definition at_version (b : version) (f : osu_file) : osu_file :=
  mk_osu b (osu_general f) (osu_editor f) (osu_osb f) (osu_metadata f) (osu_difficulty f)
    (osu_events f) (osu_timing_points f) (osu_colours f) (osu_hitobjects f).

(** The times of an event that versions 3 and 4 write 24 lower: they must stay an [i32]. *)
Definition times_of (e : event) : list Z :=
  match e with
  | EVideo x => [vi_start x]
  | EBreak x => [br_start x; br_end x]
  | EColourTransformation x => [ctr_start x]
  | _ => []
  end.
Definition event_fits (b : version) (e : event) : bool := forallb (fun t => in_i32 (shown_time b t)) (times_of e).
(** A beat length read from version 3 may be the rest of the line with its commas, and a
    timing point of version 5 or before may have [uninherited] without [effects]. *)
Definition one_field (d : decimal) : bool := match d with DNum _ => true | DRaw s => no_comma s end.
Definition flags_whole (t : timing_point) : bool :=
  match tp_uninherited t, tp_effects t with Some _, None => false | _, _ => true end.
Definition tp_fits (b : version) (t : timing_point) : bool :=
  ((b =? 3)%Z || one_field (tp_beat_length t)) && ((b <=? 5)%Z || flags_whole t).
Definition file_moves (b : version) (f : osu_file) : bool :=
  file_stays (at_version b f)
  && opt_all (fun l => forallb (event_fits b) (written b l)) (osu_events f)
  && opt_all (forallb (tp_fits b)) (osu_timing_points f).
(** what is read again *)
Definition saved_as (b : version) (f : osu_file) : osu_file := file_back (file_written (at_version b f)).
