(** Files that are cut off at the end of a line: the vocabulary of C63. *)
From Coq Require Import String List NArith ZArith Bool.
From Verif Require Import Str Num Nom Dec Parsers General Editor Metadata Difficulty Colours TimingPoints HitObjects Storyboard
  NormalEvents Events Osb OsuFile SpecText SpecEvents SpecEvSection SpecFile SpecTotal SpecParts.
Import ListNotations.
Local Open Scope N_scope.

(** ** Texts *)
(** No line ends in a carriage return, once the line ends are taken off. *)
Definition no_loose_cr (s : str) : Prop := Forall (fun l => forall m, l <> m ++ [13]) (lines s).
(** [b] is [b'] or begins with [b'] and a line feed, or [b'] is empty. *)
Definition cut_body (b' b : str) : Prop := b' = [] \/ b' = b \/ exists r, b = b' ++ 10 :: r.
Definition cut_chunk (x' x : chunk) : Prop :=
  ch_name x' = ch_name x /\ cut_body (ch_body x') (ch_body x) /\ (ch_body x' = [] \/ ch_space x' = ch_space x).
(** The sections [cs'] are the first ones of [cs], the last of which may be cut off. *)
Definition cut_chunks (cs' cs : list chunk) : Prop :=
  exists a, (cs' = a /\ exists b, cs = a ++ b)
  \/ exists x' x b, cs' = a ++ [x'] /\ cs = a ++ x :: b /\ cut_chunk x' x.

(** ** Values *)
Definition begins_with {A} (l' l : list A) : Prop := exists q, l = l' ++ q.
(** [cut_cmds l' l]: the first of the commands [l], the last of which may be cut off as well. *)
Inductive cut_cmds : list command -> list command -> Prop :=
| cc_here p q : cut_cmds p (p ++ q)
| cc_inside p c' c q : cut_cmd c' c -> cut_cmds (p ++ [c']) (p ++ c :: q)
with cut_cmd : command -> command -> Prop :=
| cc_loop t n l' l : cut_cmds l' l -> cut_cmd (mk_cmd t (PLoop n l')) (mk_cmd t (PLoop n l))
| cc_trigger t y e g l' l : cut_cmds l' l -> cut_cmd (mk_cmd t (PTrigger y e g l')) (mk_cmd t (PTrigger y e g l)).
(** the first of the events [l]; the last one may have got some of its commands only *)
Definition cut_events (l' l : list event) : Prop :=
  begins_with l' l
  \/ exists p e cs q, l = p ++ e :: q /\ l' = p ++ [with_commands cs e] /\ cut_cmds cs (commands_of e).
(** some of the fields *)
Definition absent_or {A} (x' x : option A) : Prop := x' = None \/ x' = x.
Definition some_general (x y : general) : Prop :=
  absent_or (general_audio_filename x) (general_audio_filename y)
  /\ absent_or (general_audio_lead_in x) (general_audio_lead_in y)
  /\ absent_or (general_audio_hash x) (general_audio_hash y)
  /\ absent_or (general_preview_time x) (general_preview_time y)
  /\ absent_or (general_countdown x) (general_countdown y)
  /\ absent_or (general_sample_set x) (general_sample_set y)
  /\ absent_or (general_stack_leniency x) (general_stack_leniency y)
  /\ absent_or (general_mode x) (general_mode y)
  /\ absent_or (general_letterbox_in_breaks x) (general_letterbox_in_breaks y)
  /\ absent_or (general_story_fire_in_front x) (general_story_fire_in_front y)
  /\ absent_or (general_use_skin_sprites x) (general_use_skin_sprites y)
  /\ absent_or (general_always_show_playfield x) (general_always_show_playfield y)
  /\ absent_or (general_overlay_position x) (general_overlay_position y)
  /\ absent_or (general_skin_preference x) (general_skin_preference y)
  /\ absent_or (general_epilepsy_warning x) (general_epilepsy_warning y)
  /\ absent_or (general_countdown_offset x) (general_countdown_offset y)
  /\ absent_or (general_special_style x) (general_special_style y)
  /\ absent_or (general_widescreen_storyboard x) (general_widescreen_storyboard y)
  /\ absent_or (general_samples_match_playback_rate x) (general_samples_match_playback_rate y)
  /\ absent_or (general_editor_bookmarks x) (general_editor_bookmarks y)
  /\ absent_or (general_editor_distance_spacing x) (general_editor_distance_spacing y).
Definition some_editor (x y : editor) : Prop :=
  absent_or (editor_bookmarks x) (editor_bookmarks y)
  /\ absent_or (editor_distance_spacing x) (editor_distance_spacing y)
  /\ absent_or (editor_beat_divisor x) (editor_beat_divisor y)
  /\ absent_or (editor_grid_size x) (editor_grid_size y)
  /\ absent_or (editor_timeline_zoom x) (editor_timeline_zoom y)
  /\ absent_or (editor_current_time x) (editor_current_time y).
Definition some_metadata (x y : metadata) : Prop :=
  absent_or (metadata_title x) (metadata_title y)
  /\ absent_or (metadata_title_unicode x) (metadata_title_unicode y)
  /\ absent_or (metadata_artist x) (metadata_artist y)
  /\ absent_or (metadata_artist_unicode x) (metadata_artist_unicode y)
  /\ absent_or (metadata_creator x) (metadata_creator y)
  /\ absent_or (metadata_version x) (metadata_version y)
  /\ absent_or (metadata_source x) (metadata_source y)
  /\ absent_or (metadata_tags x) (metadata_tags y)
  /\ absent_or (metadata_beatmap_id x) (metadata_beatmap_id y)
  /\ absent_or (metadata_beatmap_set_id x) (metadata_beatmap_set_id y).
Definition some_difficulty (x y : difficulty) : Prop :=
  absent_or (difficulty_hp_drain_rate x) (difficulty_hp_drain_rate y)
  /\ absent_or (difficulty_circle_size x) (difficulty_circle_size y)
  /\ absent_or (difficulty_overall_difficulty x) (difficulty_overall_difficulty y)
  /\ absent_or (difficulty_approach_rate x) (difficulty_approach_rate y)
  /\ absent_or (difficulty_slider_multiplier x) (difficulty_slider_multiplier y)
  /\ absent_or (difficulty_slider_tickrate x) (difficulty_slider_tickrate y).

(** ** Files *)
Definition last_name (cs : list chunk) : str := match rev cs with x :: _ => ch_name x | [] => [] end.
(** the last section has nothing but blank lines after its header *)
Definition ends_empty (cs : list chunk) : Prop := exists a x, cs = a ++ [x] /\ ch_body x = [].
(** [cs] are the sections of the text that is left.  The section is as it was, or it is not among
    them, or it is the last one and its value is related by [R] to what it was. *)
Definition section_cut {A} (cs : list chunk) (name : string) (R : A -> A -> Prop) (x' x : option A) : Prop :=
  x' = x \/ (x' = None /\ ~ In (lit name) (map ch_name cs)) \/ (last_name cs = lit name /\ exists a' a, x' = Some a' /\ x = Some a /\ R a' a).
(** A file, and the same one cut off, of which the sections [cs] are left. *)
Definition cut_file (cs : list chunk) (f' f : osu_file) : Prop :=
  osu_version f' = osu_version f /\ osu_osb f' = osu_osb f
  /\ section_cut cs "General" some_general (osu_general f') (osu_general f)
  /\ section_cut cs "Editor" some_editor (osu_editor f') (osu_editor f)
  /\ section_cut cs "Metadata" some_metadata (osu_metadata f') (osu_metadata f)
  /\ section_cut cs "Difficulty" some_difficulty (osu_difficulty f') (osu_difficulty f)
  /\ section_cut cs "Events" cut_events (osu_events f') (osu_events f)
  /\ section_cut cs "TimingPoints" begins_with (osu_timing_points f') (osu_timing_points f)
  /\ section_cut cs "Colours" begins_with (osu_colours f') (osu_colours f)
  /\ section_cut cs "HitObjects" begins_with (osu_hitobjects f') (osu_hitobjects f).
Definition cut_osb (cs : list chunk) (f' f : osb) : Prop :=
  section_cut cs "Variables" begins_with (osb_variables f') (osb_variables f)
  /\ section_cut cs "Events" cut_events (osb_events f') (osb_events f).
