(** The documented text of the key/value sections, written down separately from the
    field tables of the model, and the well-formed values. *)
From Coq Require Import String List NArith ZArith Bool.
From Verif Require Import Str Num Dec Parsers General Editor Metadata Difficulty Spec SpecWf SpecKv SpecText.
Import ListNotations.
Local Open Scope N_scope.

(** ** values that fit on a line *)
(** no line break inside, no blank in front *)
Definition text_value (s : str) : bool := rest_ok s && negb (head_is blank_char s).
Definition dec_value (d : decimal) : bool :=
  wf_decimal d && match d with DNum _ => true | DRaw s => text_value s end.
(** Tags are split at single spaces: a tag has no space, the first one is not empty
    (unless it is the only one), and there is at least one. *)
Definition tags_value (l : list str) : bool :=
  match l with
  | [] => false
  | [x] => forallb (fun c => negb (c =? 32)) x && text_value x
  | x :: l' => negb (is_empty x) && text_value x
               && forallb (fun t => forallb (fun c => negb (c =? 32)) t && rest_ok t) l
  end.
Definition opt_all {A} (f : A -> bool) (o : option A) : bool :=
  match o with Some x => f x | None => true end.
Definition opt_if {A} (b : bool) (o : option A) : option A := if b then o else None.

(** ** lines [key:value] *)
Definition kv_line (key : string) (gap : str) (t : option str) : list str :=
  match t with Some t => [lit key ++ lit ":" ++ gap ++ t] | None => [] end.
Definition num_text (o : option Z) : option str := option_map print_Z o.
Definition dec_line (o : option decimal) : option str := option_map print_decimal o.
Definition flag_text (o : option bool) : option str := option_map bool_text o.
Definition ints_text (o : option (list Z)) : option str := option_map (fun l => commas (map print_Z l)) o.
Fixpoint spaced (l : list str) : str :=
  match l with
  | [] => []
  | [x] => x
  | x :: l' => x ++ 32 :: spaced l'
  end.

(** ** [General] *)
Definition countdown_number (c : countdown) : Z :=
  match c with NoCountdown => 0 | CdNormal => 1 | CdHalf => 2 | CdDouble => 3 end%Z.
Definition mode_number (m : mode) : Z :=
  match m with MOsu => 0 | MTaiko => 1 | MCatch => 2 | MMania => 3 end%Z.
Definition sample_set_name (x : gsample_set) : str :=
  match x with GsNormal => lit "Normal" | GsSoft => lit "Soft" | GsDrum => lit "Drum"
             | GsNone => lit "None" end.
Definition overlay_name (x : overlay_position) : str :=
  match x with OpNoChange => lit "NoChange" | OpBelow => lit "Below" | OpAbove => lit "Above" end.

(** the versions that have a field *)
Definition has_countdown (v : version) : bool := negb ((3 <=? v)%Z && (v <=? 4)%Z).
Definition has_sample_set (v : version) : bool := negb (v =? 3)%Z.
Definition has_overlay (v : version) : bool := negb ((3 <=? v)%Z && (v <=? 13)%Z).
Definition has_audio_hash (v : version) : bool := (v <=? 13)%Z.
Definition has_editor_fields (v : version) : bool := (v <=? 5)%Z.
(** taiko from 5 on, catch from 7 on, mania from 10 on; versions below 3 are not gated *)
Definition has_mode (v : version) (m : mode) : bool :=
  match m with
  | MOsu => true
  | MTaiko => (v <? 3)%Z || (5 <=? v)%Z
  | MCatch => (v <? 3)%Z || (7 <=? v)%Z
  | MMania => (v <? 3)%Z || (10 <=? v)%Z
  end.

Definition general_lines (v : version) (g : general) : list str :=
  let line k t := kv_line k (lit " ") t in
  line "AudioFilename"%string (general_audio_filename g)
  ++ line "AudioLeadIn"%string (num_text (general_audio_lead_in g))
  ++ line "AudioHash"%string (opt_if (has_audio_hash v) (general_audio_hash g))
  ++ line "PreviewTime"%string (num_text (general_preview_time g))
  ++ line "Countdown"%string
       (opt_if (has_countdown v) (num_text (option_map countdown_number (general_countdown g))))
  ++ line "SampleSet"%string
       (opt_if (has_sample_set v) (option_map sample_set_name (general_sample_set g)))
  ++ line "StackLeniency"%string (dec_line (general_stack_leniency g))
  ++ line "Mode"%string (num_text (option_map mode_number (general_mode g)))
  ++ line "LetterboxInBreaks"%string (flag_text (general_letterbox_in_breaks g))
  ++ line "StoryFireInFront"%string (flag_text (general_story_fire_in_front g))
  ++ line "UseSkinSprites"%string (flag_text (general_use_skin_sprites g))
  ++ line "AlwaysShowPlayfield"%string (flag_text (general_always_show_playfield g))
  ++ line "OverlayPosition"%string
       (opt_if (has_overlay v) (option_map overlay_name (general_overlay_position g)))
  ++ line "SkinPreference"%string (general_skin_preference g)
  ++ line "EpilepsyWarning"%string (flag_text (general_epilepsy_warning g))
  ++ line "CountdownOffset"%string (num_text (general_countdown_offset g))
  ++ line "SpecialStyle"%string (flag_text (general_special_style g))
  ++ line "WidescreenStoryboard"%string (flag_text (general_widescreen_storyboard g))
  ++ line "SamplesMatchPlaybackRate"%string (flag_text (general_samples_match_playback_rate g))
  ++ line "EditorBookmarks"%string (opt_if (has_editor_fields v) (ints_text (general_editor_bookmarks g)))
  ++ line "EditorDistanceSpacing"%string
       (opt_if (has_editor_fields v) (dec_line (general_editor_distance_spacing g))).
(** what version [v] can express of it *)
Definition general_at (v : version) (g : general) : general :=
  mk_general
    (general_audio_filename g) (general_audio_lead_in g)
    (opt_if (has_audio_hash v) (general_audio_hash g)) (general_preview_time g)
    (opt_if (has_countdown v) (general_countdown g)) (opt_if (has_sample_set v) (general_sample_set g))
    (general_stack_leniency g)
    (match general_mode g with Some m => opt_if (has_mode v m) (Some m) | None => None end)
    (general_letterbox_in_breaks g) (general_story_fire_in_front g) (general_use_skin_sprites g)
    (general_always_show_playfield g) (opt_if (has_overlay v) (general_overlay_position g))
    (general_skin_preference g) (general_epilepsy_warning g) (general_countdown_offset g)
    (general_special_style g) (general_widescreen_storyboard g) (general_samples_match_playback_rate g)
    (opt_if (has_editor_fields v) (general_editor_bookmarks g))
    (opt_if (has_editor_fields v) (general_editor_distance_spacing g)).
Definition general_ok (g : general) : bool :=
  opt_all text_value (general_audio_filename g) && opt_all in_i32 (general_audio_lead_in g)
  && opt_all text_value (general_audio_hash g) && opt_all in_i32 (general_preview_time g)
  && opt_all dec_value (general_stack_leniency g) && opt_all text_value (general_skin_preference g)
  && opt_all in_i32 (general_countdown_offset g)
  && opt_all (forallb in_i32) (general_editor_bookmarks g)
  && opt_all dec_value (general_editor_distance_spacing g).
Definition general_keys : list str :=
  map lit ["AudioFilename"; "AudioLeadIn"; "AudioHash"; "PreviewTime"; "Countdown"; "SampleSet";
           "StackLeniency"; "Mode"; "LetterboxInBreaks"; "StoryFireInFront"; "UseSkinSprites";
           "AlwaysShowPlayfield"; "OverlayPosition"; "SkinPreference"; "EpilepsyWarning";
           "CountdownOffset"; "SpecialStyle"; "WidescreenStoryboard"; "SamplesMatchPlaybackRate";
           "EditorBookmarks"; "EditorDistanceSpacing"]%string.

(** ** [Editor] *)
Definition editor_lines (v : version) (e : editor) : list str :=
  let line k t := kv_line k (lit " ") t in
  line "Bookmarks"%string (ints_text (editor_bookmarks e))
  ++ line "DistanceSpacing"%string (dec_line (editor_distance_spacing e))
  ++ line "BeatDivisor"%string (dec_line (editor_beat_divisor e))
  ++ line "GridSize"%string (num_text (editor_grid_size e))
  ++ line "TimelineZoom"%string (dec_line (editor_timeline_zoom e))
  ++ line "CurrentTime"%string (opt_if (v =? 10)%Z (num_text (editor_current_time e))).
Definition editor_at (v : version) (e : editor) : editor :=
  mk_editor (editor_bookmarks e) (editor_distance_spacing e) (editor_beat_divisor e) (editor_grid_size e)
    (editor_timeline_zoom e) (opt_if (v =? 10)%Z (editor_current_time e)).
Definition editor_ok (e : editor) : bool :=
  opt_all (forallb in_i32) (editor_bookmarks e) && opt_all dec_value (editor_distance_spacing e)
  && opt_all dec_value (editor_beat_divisor e) && opt_all in_i32 (editor_grid_size e)
  && opt_all dec_value (editor_timeline_zoom e) && opt_all in_i32 (editor_current_time e).
Definition editor_keys : list str :=
  map lit ["Bookmarks"; "DistanceSpacing"; "BeatDivisor"; "GridSize"; "TimelineZoom"; "CurrentTime"]%string.

(** ** [Metadata] *)
Definition metadata_lines (m : metadata) : list str :=
  let line k t := kv_line k [] t in
  line "Title"%string (metadata_title m)
  ++ line "TitleUnicode"%string (metadata_title_unicode m)
  ++ line "Artist"%string (metadata_artist m)
  ++ line "ArtistUnicode"%string (metadata_artist_unicode m)
  ++ line "Creator"%string (metadata_creator m)
  ++ line "Version"%string (metadata_version m)
  ++ line "Source"%string (metadata_source m)
  ++ line "Tags"%string (option_map spaced (metadata_tags m))
  ++ line "BeatmapID"%string (num_text (metadata_beatmap_id m))
  ++ line "BeatmapSetID"%string (num_text (metadata_beatmap_set_id m)).
Definition metadata_ok (m : metadata) : bool :=
  opt_all text_value (metadata_title m) && opt_all text_value (metadata_title_unicode m)
  && opt_all text_value (metadata_artist m) && opt_all text_value (metadata_artist_unicode m)
  && opt_all text_value (metadata_creator m) && opt_all text_value (metadata_version m)
  && opt_all text_value (metadata_source m) && opt_all tags_value (metadata_tags m)
  && opt_all in_i32 (metadata_beatmap_id m) && opt_all in_i32 (metadata_beatmap_set_id m).
Definition metadata_keys : list str :=
  map lit ["Title"; "TitleUnicode"; "Artist"; "ArtistUnicode"; "Creator"; "Version"; "Source"; "Tags";
           "BeatmapID"; "BeatmapSetID"]%string.

(** ** [Difficulty] *)
Definition difficulty_lines (v : version) (d : difficulty) : list str :=
  let line k t := kv_line k [] t in
  line "HPDrainRate"%string (dec_line (difficulty_hp_drain_rate d))
  ++ line "CircleSize"%string (dec_line (difficulty_circle_size d))
  ++ line "OverallDifficulty"%string (dec_line (difficulty_overall_difficulty d))
  ++ line "ApproachRate"%string (dec_line (difficulty_approach_rate d))
  ++ line "SliderMultiplier"%string (dec_line (difficulty_slider_multiplier d))
  ++ kv_line "SliderTickRate" (if (3 <=? v)%Z && (v <=? 4)%Z then lit " " else [])
       (dec_line (difficulty_slider_tickrate d)).
Definition difficulty_ok (d : difficulty) : bool :=
  opt_all dec_value (difficulty_hp_drain_rate d) && opt_all dec_value (difficulty_circle_size d)
  && opt_all dec_value (difficulty_overall_difficulty d) && opt_all dec_value (difficulty_approach_rate d)
  && opt_all dec_value (difficulty_slider_multiplier d) && opt_all dec_value (difficulty_slider_tickrate d).
Definition difficulty_keys : list str :=
  map lit ["HPDrainRate"; "CircleSize"; "OverallDifficulty"; "ApproachRate"; "SliderMultiplier";
           "SliderTickRate"]%string.

(** the text of an [i32] *)
Definition i32_text (s : str) : Prop := exists z, int_text true s z /\ (- 2 ^ 31 <= z <= 2 ^ 31 - 1)%Z.
(** the keys whose value is unwrapped *)
Definition id_key (k : str) : Prop := k = lit "BeatmapID" \/ k = lit "BeatmapSetID".
