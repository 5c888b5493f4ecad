(** The same text below two version lines: what an older version sees of what a newer one reads. *)
From Coq Require Import String List NArith ZArith Bool.
From Verif Require Import Str Num Nom Dec Parsers KvFields General Editor Metadata Difficulty Colours
  TimingPoints HitObjects Storyboard NormalEvents Events Osb OsuFile SpecSections SpecFile.
Import ListNotations.
Local Open Scope N_scope.

(** Game mode and overlay position are gone where the version does not have them; nothing else is. *)
Definition general_seen (a : version) (g : general) : general :=
  mk_general (general_audio_filename g) (general_audio_lead_in g) (general_audio_hash g)
    (general_preview_time g) (general_countdown g) (general_sample_set g) (general_stack_leniency g)
    (match general_mode g with Some m => if has_mode a m then Some m else None | None => None end)
    (general_letterbox_in_breaks g) (general_story_fire_in_front g) (general_use_skin_sprites g)
    (general_always_show_playfield g) (if has_overlay a then general_overlay_position g else None)
    (general_skin_preference g) (general_epilepsy_warning g) (general_countdown_offset g)
    (general_special_style g) (general_widescreen_storyboard g) (general_samples_match_playback_rate g)
    (general_editor_bookmarks g) (general_editor_distance_spacing g).
Definition seen_by (a : version) (f : osu_file) : osu_file :=
  mk_osu a (option_map (general_seen a) (osu_general f)) (osu_editor f) (osu_osb f) (osu_metadata f)
    (osu_difficulty f) (osu_events f) (osu_timing_points f) (osu_colours f) (osu_hitobjects f).

(** The two things that a newer version refuses and an older one does not: version 14 reads the
    overlay position, which the others skip, and versions from 6 on want the effects of a timing
    point that says whether it is inherited. *)
Definition newer_refuses (a b : version) (e : osu_err) : Prop :=
  ((a <= 13)%Z /\ b = 14%Z /\ e = OsuGeneral GenOverlay)
  \/ (a = 5%Z /\ (6 <= b)%Z /\ e = OsuTimingPoints TpMissingEffects).

(** A text below the version line with the number [n]. *)
Definition under (n : string) (rest : str) : str := version_prefix ++ lit n ++ rest.
