(** What it means when [osu_str_eq] finds two texts equal (C74). *)
From Coq Require Import String List NArith ZArith Bool Permutation.
From Verif Require Import Str Num Parsers General Editor Metadata Difficulty Colours TimingPoints HitObjects Events OsuFile
  SpecTrim SpecKv SpecFile SpecCheck SpecWalk.
Import ListNotations.
Local Open Scope N_scope.

(** no blank in it *)
Definition gapless (l : str) : bool := forallb (fun c => negb (is_ws c)) l.
(** A line of a list without blanks at its ends, and without any blank if it has a colon. *)
Definition bare_line (l : str) : bool := str_eqb (trim l) l && (negb (has_colon l) || gapless l).
(** A line of a key and a value that has no blanks but those after the colon. *)
Definition bare_value (l : str) : bool := kv_line_ok l && gapless (line_value l).
(** Blanks in the lines of [Colours] mean nothing, but no line may look like a header. *)
Definition bare (x : sec) : bool :=
  if existsb (str_eqb (sec_name x)) key_sections then forallb bare_value (said x)
  else if str_eqb (sec_name x) (lit "Colours") then forallb (fun l => negb (header_line (trim l))) (full_lines (sec_body x))
  else forallb bare_line (full_lines (sec_body x)).

(** the same things in some order *)
Definition shuffled {A} (a b : option (list A)) : Prop :=
  match a, b with Some l, Some m => Permutation l m | None, None => True | _, _ => False end.
Definition same_but_order (f g : osu_file) : Prop :=
  osu_version f = osu_version g /\ osu_osb f = osu_osb g
  /\ osu_general f = osu_general g /\ osu_editor f = osu_editor g /\ osu_metadata f = osu_metadata g /\ osu_difficulty f = osu_difficulty g
  /\ shuffled (option_map items (osu_events f)) (option_map items (osu_events g))
  /\ shuffled (osu_timing_points f) (osu_timing_points g)
  /\ shuffled (osu_colours f) (osu_colours g) /\ shuffled (osu_hitobjects f) (osu_hitobjects g).
(** the section of that name has a line without a colon *)
Definition has_plain_line (secs : list sec) (name : string) : Prop :=
  exists x l, In x secs /\ sec_name x = lit name /\ In l (full_lines (sec_body x)) /\ has_colon l = false.
