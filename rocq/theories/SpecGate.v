(** Which versions have what (C32). *)
From Coq Require Import String List NArith ZArith Bool.
From Verif Require Import Str Num Dec Parsers KeyValue General Editor Colours OsuFile SpecSections.
Import ListNotations.
Local Open Scope N_scope.

(** [agrees present ok rd pr df]: reader [rd], printer [pr] and default [df] agree that exactly
    the versions with [present] have the type.  A version without it reads every text as
    nothing, prints nothing and has no default; a version with it never reads a text as
    nothing, has a default, and prints every value of [ok] as a text that is read as that value. *)
Definition agrees {A E} (present : version -> bool) (ok : A -> bool)
  (rd : str -> version -> res (option A) E) (pr : A -> version -> option str)
  (df : version -> option A) : Prop :=
  forall v,
    if present v
    then (exists d, df v = Some d /\ ok d = true)
         /\ (forall s, rd s v <> ROk None)
         /\ (forall x, ok x = true -> exists s, pr x v = Some s /\ rd s v = ROk (Some x))
    else df v = None /\ (forall s, rd s v = ROk None) /\ (forall x, pr x v = None).

(** The reader knows the type in every version, the printer only in those with [present]. *)
Definition read_always {A E} (present : version -> bool) (ok : A -> bool)
  (rd : str -> version -> res (option A) E) (pr : A -> version -> option str) : Prop :=
  forall v,
    (forall s, rd s v <> ROk None)
    /\ (present v = false -> forall x, pr x v = None)
    /\ (present v = true -> forall x, ok x = true -> exists s, pr x v = Some s /\ rd s v = ROk (Some x)).

(** every version has it *)
Definition all_versions (_ : version) : bool := true.
Definition any {A} (_ : A) : bool := true.

(** The keys whose type depends on the version. *)
Definition versioned_keys : list str :=
  [lit "AudioHash"; lit "Countdown"; lit "SampleSet"; lit "Mode"; lit "OverlayPosition";
   lit "EditorBookmarks"; lit "EditorDistanceSpacing"; lit "CurrentTime"].
Definition is_versioned (k : str) : bool := existsb (str_eqb k) versioned_keys.

(** Versions 5 and later have colours, 14 and later a storyboard file. *)
Definition has_colours (v : version) : bool := negb ((3 <=? v)%Z && (v <=? 4)%Z).
Definition has_osb (v : version) : bool := (14 <=? v)%Z.
(** Colour transformations are not written from version 14 on. *)
Definition has_transformation (v : version) : bool := (v <? 14)%Z.

(** A file holds only what its version has. *)
Definition gated_general (v : version) (g : general) : Prop :=
  (general_countdown g <> None -> has_countdown v = true)
  /\ (general_sample_set g <> None -> has_sample_set v = true)
  /\ (general_overlay_position g <> None -> has_overlay v = true)
  /\ (forall m, general_mode g = Some m -> has_mode v m = true).
Definition gated_file (f : osu_file) : Prop :=
  (forall g, osu_general f = Some g -> gated_general (osu_version f) g)
  /\ (osu_colours f <> None -> has_colours (osu_version f) = true)
  /\ (osu_osb f <> None -> has_osb (osu_version f) = true).
(** [f] without the values its version does not write; a game mode is always written. *)
Definition written_general (v : version) (g : general) : general :=
  mk_general (general_audio_filename g) (general_audio_lead_in g)
    (opt_if (has_audio_hash v) (general_audio_hash g)) (general_preview_time g)
    (opt_if (has_countdown v) (general_countdown g)) (opt_if (has_sample_set v) (general_sample_set g))
    (general_stack_leniency g) (general_mode g)
    (general_letterbox_in_breaks g) (general_story_fire_in_front g) (general_use_skin_sprites g)
    (general_always_show_playfield g) (opt_if (has_overlay v) (general_overlay_position g))
    (general_skin_preference g) (general_epilepsy_warning g) (general_countdown_offset g)
    (general_special_style g) (general_widescreen_storyboard g) (general_samples_match_playback_rate g)
    (opt_if (has_editor_fields v) (general_editor_bookmarks g))
    (opt_if (has_editor_fields v) (general_editor_distance_spacing g)).
Definition written_editor (v : version) (e : editor) : editor :=
  mk_editor (editor_bookmarks e) (editor_distance_spacing e) (editor_beat_divisor e) (editor_grid_size e)
    (editor_timeline_zoom e) (opt_if (v =? 10)%Z (editor_current_time e)).
Definition without_absent (f : osu_file) : osu_file :=
  let v := osu_version f in
  mk_osu v (option_map (written_general v) (osu_general f)) (option_map (written_editor v) (osu_editor f))
    (opt_if (has_osb v) (osu_osb f)) (osu_metadata f) (osu_difficulty f) (osu_events f)
    (osu_timing_points f) (opt_if (has_colours v) (osu_colours f)) (osu_hitobjects f).

(** The default is written as the text [t], in the versions that have the type. *)
Definition default_text {A} (present : version -> bool) (pr : A -> version -> option str) (df : version -> option A) (t : string) : Prop :=
  forall v, if present v then exists d, df v = Some d /\ pr d v = Some (lit t) else df v = None.
