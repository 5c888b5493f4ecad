(** Which files reading gives: the vocabulary of C76 for whole files. *)
From Coq Require Import String List NArith ZArith Bool.
From Verif Require Import Str Num Dec Parsers General Editor Metadata Difficulty Colours TimingPoints HitObjects Storyboard
  NormalEvents Events Osb OsuFile SpecWf SpecSections SpecCmd SpecEvents SpecWhole SpecImage.
Import ListNotations.
Local Open Scope N_scope.

Definition absent {A} (o : option A) : bool := match o with Some _ => false | None => true end.
(** A line that begins with a bracket ends the section, unless it is the first one. *)
Definition points_range (v : version) (l : list timing_point) : bool :=
  forallb (tp_range v) l && forallb no_bracket (tl (map tp_time l)).
Definition objects_range (v : version) (l : list hit_object) : bool :=
  forallb (ho_range v) l && forallb no_bracket (tl (map (fun o => pos_x (ho_position o)) l)).
(** Versions 3 and 4 have no colours. *)
Definition colours_range (v : version) (l : list colour) : bool := negb ((3 <=? v) && (v <=? 4))%Z && forallb colour_range l.
(** The build matters only for the times of events in versions 3 and 4. *)
Definition osu_range (dbg : bool) (f : osu_file) : bool :=
  let v := osu_version f in
  (3 <=? v)%Z && (v <=? 14)%Z && absent (osu_osb f)
  && opt_all (general_range v) (osu_general f) && opt_all editor_ok (osu_editor f) && opt_all metadata_ok (osu_metadata f)
  && opt_all difficulty_ok (osu_difficulty f) && opt_all (forallb (event_in dbg v)) (osu_events f)
  && opt_all (points_range v) (osu_timing_points f) && opt_all (colours_range v) (osu_colours f)
  && opt_all (objects_range v) (osu_hitobjects f).
Definition osb_range (o : osb) : bool :=
  opt_all (forallb variable_range) (osb_variables o) && opt_all (forallb event_range) (osb_events o).
