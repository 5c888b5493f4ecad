(** Edits: what a change of one part of a text, or of a value, does to the other: the
    vocabulary of C62. *)
From Coq Require Import String List NArith ZArith Bool.
From Verif Require Import Str Num Nom Dec Parsers General Editor Metadata Difficulty Colours TimingPoints HitObjects Storyboard
  NormalEvents Events Osb OsuFile SpecText SpecKv SpecSections SpecKvRead SpecEvSection SpecTotal SpecParts SpecWrite.
Import ListNotations.
Local Open Scope N_scope.

(** ** Lists of lines *)
(** What a text reads to whose lines are those of one text and then those of another, the first
    of [n] lines reading to [r] and the second to [r']. *)
Definition one_after {A E} (r : res (option (list A)) (line_err E)) (n : Z) (r' : res (option (list A)) (line_err E))
  : res (option (list A)) (line_err E) :=
  match r, r' with
  | ROk (Some x), ROk (Some y) => ROk (Some (x ++ y))
  | ROk _, ROk _ => ROk None
  | ROk _, RErr e => RErr (mk_line_err (n + le_line e) (le_err e))
  | ROk _, RPanic p => RPanic p
  | _, _ => r
  end.
Definition in_pieces {A E} (rd : str -> res (option (list A)) (line_err E)) : Prop :=
  forall s a b, lines s = lines a ++ lines b -> rd s = one_after (rd a) (rows a) (rd b).
(** The lines of [m] between those of [a] and [b] are replaced by those of [m']: the entries in
    their place are replaced, or the first of them that is bad is reported. *)
Definition edits_lines {A E} (rd : str -> res (option (list A)) (line_err E)) : Prop :=
  forall s s' a m m' b xs, rd s = ROk (Some xs) ->
  lines s = lines a ++ lines m ++ lines b -> lines s' = lines a ++ lines m' ++ lines b ->
  exists p y q, xs = p ++ y ++ q /\ rd a = ROk (Some p) /\ rd m = ROk (Some y) /\ rd b = ROk (Some q)
  /\ rd s' = match rd m' with
             | ROk (Some y') => ROk (Some (p ++ y' ++ q))
             | ROk None => ROk None
             | RErr e => RErr (mk_line_err (rows a + le_line e) (le_err e))
             | RPanic i => RPanic i
             end.
(** The first line of [s] that is not blank is no command, so that it does not belong to
    what is above. *)
Definition opens (s : str) : Prop := forall a l b, lines s = a ++ l :: b -> forallb is_blank a = true -> is_blank l = false -> depth l = 0%nat.

(** ** Keys *)
(** The field [name] after the entry of [key] has got the value [val] (none: was taken out). *)
Definition read_into {A E} (key : str) (val : option str) (name : string) (rd : str -> res (option A) E) (old : option A) : option A :=
  if str_eqb key (lit name) then match val with Some s => match rd s with ROk x => x | _ => None end | None => None end else old.
Definition general_put (v : version) (key : str) (val : option str) (s : general) : general :=
  let at_key {A} := @read_into A general_err key val in
  mk_general
    (at_key "AudioFilename"%string any_text (general_audio_filename s))
    (at_key "AudioLeadIn"%string (int_value GenInt) (general_audio_lead_in s))
    (at_key "AudioHash"%string any_text (general_audio_hash s))
    (at_key "PreviewTime"%string (int_value GenInt) (general_preview_time s))
    (at_key "Countdown"%string (countdown_value v) (general_countdown s))
    (at_key "SampleSet"%string (sample_set_value v) (general_sample_set s))
    (at_key "StackLeniency"%string any_dec (general_stack_leniency s))
    (at_key "Mode"%string (mode_value v) (general_mode s))
    (at_key "LetterboxInBreaks"%string flag_value (general_letterbox_in_breaks s))
    (at_key "StoryFireInFront"%string flag_value (general_story_fire_in_front s))
    (at_key "UseSkinSprites"%string flag_value (general_use_skin_sprites s))
    (at_key "AlwaysShowPlayfield"%string flag_value (general_always_show_playfield s))
    (at_key "OverlayPosition"%string (overlay_value v) (general_overlay_position s))
    (at_key "SkinPreference"%string any_text (general_skin_preference s))
    (at_key "EpilepsyWarning"%string flag_value (general_epilepsy_warning s))
    (at_key "CountdownOffset"%string (int_value GenInt) (general_countdown_offset s))
    (at_key "SpecialStyle"%string flag_value (general_special_style s))
    (at_key "WidescreenStoryboard"%string flag_value (general_widescreen_storyboard s))
    (at_key "SamplesMatchPlaybackRate"%string flag_value (general_samples_match_playback_rate s))
    (at_key "EditorBookmarks"%string (ints_value GenInt GenCommaList) (general_editor_bookmarks s))
    (at_key "EditorDistanceSpacing"%string any_dec (general_editor_distance_spacing s)).
Definition editor_put (key : str) (val : option str) (s : editor) : editor :=
  let at_key {A} := @read_into A editor_err key val in
  mk_editor
    (at_key "Bookmarks"%string (ints_value EdInt EdCommaList) (editor_bookmarks s))
    (at_key "DistanceSpacing"%string any_dec (editor_distance_spacing s))
    (at_key "BeatDivisor"%string any_dec (editor_beat_divisor s))
    (at_key "GridSize"%string (int_value EdInt) (editor_grid_size s))
    (at_key "TimelineZoom"%string any_dec (editor_timeline_zoom s))
    (at_key "CurrentTime"%string (int_value EdInt) (editor_current_time s)).
Definition metadata_put (key : str) (val : option str) (s : metadata) : metadata :=
  let at_key {A} := @read_into A metadata_err key val in
  mk_metadata
    (at_key "Title"%string any_text (metadata_title s))
    (at_key "TitleUnicode"%string any_text (metadata_title_unicode s))
    (at_key "Artist"%string any_text (metadata_artist s))
    (at_key "ArtistUnicode"%string any_text (metadata_artist_unicode s))
    (at_key "Creator"%string any_text (metadata_creator s))
    (at_key "Version"%string any_text (metadata_version s))
    (at_key "Source"%string any_text (metadata_source s))
    (at_key "Tags"%string tags_value_of (metadata_tags s))
    (at_key "BeatmapID"%string id_value (metadata_beatmap_id s))
    (at_key "BeatmapSetID"%string id_value (metadata_beatmap_set_id s)).
Definition difficulty_put (key : str) (val : option str) (s : difficulty) : difficulty :=
  let at_key {A} := @read_into A difficulty_err key val in
  mk_difficulty
    (at_key "HPDrainRate"%string any_dec (difficulty_hp_drain_rate s))
    (at_key "CircleSize"%string any_dec (difficulty_circle_size s))
    (at_key "OverallDifficulty"%string any_dec (difficulty_overall_difficulty s))
    (at_key "ApproachRate"%string any_dec (difficulty_approach_rate s))
    (at_key "SliderMultiplier"%string any_dec (difficulty_slider_multiplier s))
    (at_key "SliderTickRate"%string any_dec (difficulty_slider_tickrate s)).
Definition entry_rows (es : list kv_entry) : Z := fold_right Z.add 0%Z (map (fun e => Z.of_nat (length (lines (entry_gap e)))) es).
(** A reader of keys and values.  [put] is as above; [good] says whether a value of a key can be
    read. *)
Section Keys.
  Context {A E : Type}.
  Variable rd : str -> res (option A) (line_err E).
  Variable put : str -> option str -> A -> A.
  Variable good : str -> str -> res unit E.
  Definition fits_after (es : list kv_entry) (t : str) : Prop := entries_ok es = true /\ rest_after es t = true /\ is_blank t = true.
  (** The entry [e] is put between others: its field is set, and nothing else; or it is reported. *)
  Definition edits_keys : Prop := forall a b e old t t' g,
    rd (kv_text (a ++ old ++ b) ++ t) = ROk (Some g) ->
    fits_after (a ++ old ++ b) t -> fits_after (a ++ e :: b) t' ->
    (old = [] /\ ~ In (entry_key e) (map entry_key (a ++ b)) \/ exists o, old = [o] /\ entry_key o = entry_key e) ->
    rd (kv_text (a ++ e :: b) ++ t') = match good (entry_key e) (entry_value e) with
                                       | ROk _ => ROk (Some (put (entry_key e) (Some (entry_value e)) g))
                                       | RErr x => RErr (mk_line_err (entry_rows a) x)
                                       | RPanic p => RPanic p
                                       end.
  (** The entry [e] is taken out: its field is gone, and nothing else. *)
  Definition drops_keys : Prop := forall a b e t t' g,
    rd (kv_text (a ++ e :: b) ++ t) = ROk (Some g) -> fits_after (a ++ e :: b) t -> fits_after (a ++ b) t' ->
    rd (kv_text (a ++ b) ++ t') = ROk (Some (put (entry_key e) None g)).
End Keys.

(** ** Sections *)
(** The file after the section [k] has got the text [body] (none: was taken out). *)
Definition put_section (dbg : bool) (v : version) (k : str) (body : option str) (f : osu_file) : osu_file :=
  mk_osu (osu_version f)
    (read_into k body "General" (fun t => general_from_str t v) (osu_general f))
    (read_into k body "Editor" (fun t => editor_from_str t v) (osu_editor f))
    (osu_osb f)
    (read_into k body "Metadata" (fun t => metadata_from_str t v) (osu_metadata f))
    (read_into k body "Difficulty" (fun t => difficulty_from_str t v) (osu_difficulty f))
    (read_into k body "Events" (fun t => events_from_str dbg t v) (osu_events f))
    (read_into k body "TimingPoints" (fun t => timing_points_from_str t v) (osu_timing_points f))
    (read_into k body "Colours" (fun t => colours_from_str t v) (osu_colours f))
    (read_into k body "HitObjects" (fun t => hit_objects_from_str t v) (osu_hitobjects f)).
Definition chunks_rows (cs : list chunk) : Z := fold_right Z.add 0%Z (map chunk_rows cs).

(** ** Values *)
(** All of the statements are true but one at most. *)
Definition all_but_one (l : list Prop) : Prop := exists a x b, l = a ++ x :: b /\ Forall (fun p => p) (a ++ b).
Definition general_agree (x y : general) : list Prop :=
  [general_audio_filename x = general_audio_filename y;
   general_audio_lead_in x = general_audio_lead_in y;
   general_audio_hash x = general_audio_hash y;
   general_preview_time x = general_preview_time y;
   general_countdown x = general_countdown y;
   general_sample_set x = general_sample_set y;
   general_stack_leniency x = general_stack_leniency y;
   general_mode x = general_mode y;
   general_letterbox_in_breaks x = general_letterbox_in_breaks y;
   general_story_fire_in_front x = general_story_fire_in_front y;
   general_use_skin_sprites x = general_use_skin_sprites y;
   general_always_show_playfield x = general_always_show_playfield y;
   general_overlay_position x = general_overlay_position y;
   general_skin_preference x = general_skin_preference y;
   general_epilepsy_warning x = general_epilepsy_warning y;
   general_countdown_offset x = general_countdown_offset y;
   general_special_style x = general_special_style y;
   general_widescreen_storyboard x = general_widescreen_storyboard y;
   general_samples_match_playback_rate x = general_samples_match_playback_rate y;
   general_editor_bookmarks x = general_editor_bookmarks y;
   general_editor_distance_spacing x = general_editor_distance_spacing y].
Definition editor_agree (x y : editor) : list Prop :=
  [editor_bookmarks x = editor_bookmarks y;
   editor_distance_spacing x = editor_distance_spacing y;
   editor_beat_divisor x = editor_beat_divisor y;
   editor_grid_size x = editor_grid_size y;
   editor_timeline_zoom x = editor_timeline_zoom y;
   editor_current_time x = editor_current_time y].
Definition metadata_agree (x y : metadata) : list Prop :=
  [metadata_title x = metadata_title y;
   metadata_title_unicode x = metadata_title_unicode y;
   metadata_artist x = metadata_artist y;
   metadata_artist_unicode x = metadata_artist_unicode y;
   metadata_creator x = metadata_creator y;
   metadata_version x = metadata_version y;
   metadata_source x = metadata_source y;
   metadata_tags x = metadata_tags y;
   metadata_beatmap_id x = metadata_beatmap_id y;
   metadata_beatmap_set_id x = metadata_beatmap_set_id y].
Definition difficulty_agree (x y : difficulty) : list Prop :=
  [difficulty_hp_drain_rate x = difficulty_hp_drain_rate y;
   difficulty_circle_size x = difficulty_circle_size y;
   difficulty_overall_difficulty x = difficulty_overall_difficulty y;
   difficulty_approach_rate x = difficulty_approach_rate y;
   difficulty_slider_multiplier x = difficulty_slider_multiplier y;
   difficulty_slider_tickrate x = difficulty_slider_tickrate y].
(** The same lines, but for one line at most, which may be missing in either. *)
Definition one_line_apart (l l' : list str) : Prop :=
  exists P M M' Q, l = P ++ M ++ Q /\ l' = P ++ M' ++ Q /\ (length M <= 1)%nat /\ (length M' <= 1)%nat.
(** [out] prints a list.  Its entries [y] take up the lines [row] of them, moved by [back]; in
    place of [y], [y'] is printed, and nothing else changes.  [shown]: some entry stays that has a
    line. *)
Definition prints_in_place {A} (out : list A -> run str) (back : A -> option A) (row : A -> list str) (fit shown : A -> Prop) : Prop :=
  forall p y y' q t, Exists shown (p ++ q) -> Forall fit (p ++ y ++ q) -> Forall fit y' -> out (p ++ y ++ q) = ROk t ->
  exists P z Q, all_some back y = Some z /\ t = text_of_lines (P ++ concat (map row z) ++ Q)
  /\ prints (out (p ++ y' ++ q)) (option_map (fun z' => text_of_lines (P ++ concat (map row z') ++ Q)) (all_some back y')).
Definition no_transformation (e : event) : Prop := match e with EColourTransformation _ => False | _ => True end.
Definition with_general (x : option general) (f : osu_file) : osu_file :=
  mk_osu (osu_version f) x (osu_editor f) (osu_osb f) (osu_metadata f) (osu_difficulty f) (osu_events f) (osu_timing_points f) (osu_colours f) (osu_hitobjects f).
Definition with_editor (x : option editor) (f : osu_file) : osu_file :=
  mk_osu (osu_version f) (osu_general f) x (osu_osb f) (osu_metadata f) (osu_difficulty f) (osu_events f) (osu_timing_points f) (osu_colours f) (osu_hitobjects f).
Definition with_metadata (x : option metadata) (f : osu_file) : osu_file :=
  mk_osu (osu_version f) (osu_general f) (osu_editor f) (osu_osb f) x (osu_difficulty f) (osu_events f) (osu_timing_points f) (osu_colours f) (osu_hitobjects f).
Definition with_difficulty (x : option difficulty) (f : osu_file) : osu_file :=
  mk_osu (osu_version f) (osu_general f) (osu_editor f) (osu_osb f) (osu_metadata f) x (osu_events f) (osu_timing_points f) (osu_colours f) (osu_hitobjects f).
Definition with_events (x : option (list event)) (f : osu_file) : osu_file :=
  mk_osu (osu_version f) (osu_general f) (osu_editor f) (osu_osb f) (osu_metadata f) (osu_difficulty f) x (osu_timing_points f) (osu_colours f) (osu_hitobjects f).
Definition with_points (x : option (list timing_point)) (f : osu_file) : osu_file :=
  mk_osu (osu_version f) (osu_general f) (osu_editor f) (osu_osb f) (osu_metadata f) (osu_difficulty f) (osu_events f) x (osu_colours f) (osu_hitobjects f).
Definition with_colours (x : option (list colour)) (f : osu_file) : osu_file :=
  mk_osu (osu_version f) (osu_general f) (osu_editor f) (osu_osb f) (osu_metadata f) (osu_difficulty f) (osu_events f) (osu_timing_points f) x (osu_hitobjects f).
Definition with_objects (x : option (list hit_object)) (f : osu_file) : osu_file :=
  mk_osu (osu_version f) (osu_general f) (osu_editor f) (osu_osb f) (osu_metadata f) (osu_difficulty f) (osu_events f) (osu_timing_points f) (osu_colours f) x.
