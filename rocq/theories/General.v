(** src/osu_file/general: the [General] section. *)
From Coq Require Import String List NArith ZArith Bool.
From Verif Require Import Str Num Nom Dec Parsers KeyValue KvFields.
Import ListNotations.
Local Open Scope N_scope.

(** general/error.rs:46-82. *)
Inductive game_mode_err := GmUnknown | GmInt (e : int_err).
Inductive countdown_err := CdUnknown | CdInt (e : int_err).

(** general/error.rs:7-42 (the variants that can be produced). *)
Inductive general_err :=
| GenInt (e : int_err)
| GenBool (e : bool_err)
| GenCountdown (e : countdown_err)
| GenMode (e : game_mode_err)
| GenSampleSet
| GenOverlay
| GenColonSet
| GenKey
| GenDup
| GenCommaList.

Definition gen_int : str -> version -> res (option Z) general_err := from_int GenInt.
(** The boolean fields (general/mod.rs:32-41). *)
Definition from_zero_one : str -> version -> res (option bool) general_err :=
  nv (fun s => rmap_err GenBool (parse_zero_one_bool s)).
Definition to_zero_one : bool -> version -> option str := nvp print_bool.

(** [AudioHash] (general/mod.rs:26-29): printed up to version 13. *)
Definition to_audio_hash (s : str) (v : version) : option str :=
  if (13 <? v)%Z then None else Some s.
(** [EditorBookmarks] (general/mod.rs:42-84): printed up to version 5. *)
Definition from_editor_bookmarks : str -> version -> res (option (list Z)) general_err :=
  nv (parse_int_list GenInt GenCommaList).
Definition to_editor_bookmarks (l : list Z) (v : version) : option str :=
  if (5 <? v)%Z then None else Some (print_int_list l).
(** [EditorDistanceSpacing] (general/mod.rs:85-93): printed up to version 5. *)
Definition to_editor_distance_spacing (d : decimal) (v : version) : option str :=
  if (5 <? v)%Z then None else Some (print_decimal d).

(** [Countdown] (general/types.rs:8-67). *)
Inductive countdown := NoCountdown | CdNormal | CdHalf | CdDouble.
Definition countdown_repr (c : countdown) : Z :=
  match c with NoCountdown => 0 | CdNormal => 1 | CdHalf => 2 | CdDouble => 3 end%Z.
Definition countdown_from_repr (r : Z) (v : version) : option (option countdown) :=
  if old_version v then Some None
  else if (r =? 0)%Z then Some (Some NoCountdown)
  else if (r =? 1)%Z then Some (Some CdNormal)
  else if (r =? 2)%Z then Some (Some CdHalf)
  else if (r =? 3)%Z then Some (Some CdDouble)
  else None.                                        (* [Err(InvalidRepr)] *)
Definition countdown_from_str (s : str) (v : version) : res (option countdown) general_err :=
  rmap_err GenCountdown
    (if old_version v then ROk None
     else match parse_usize s with
          | ROk r => match countdown_from_repr r v with
                     | Some (Some c) => ROk (Some c)
                     | Some None => RErr CdUnknown
                     | None => RErr CdUnknown
                     end
          | RErr e => RErr (CdInt e)
          | RPanic p => RPanic p
          end).
Definition countdown_to_string (c : countdown) (v : version) : option str :=
  if old_version v then None else Some (print_Z (countdown_repr c)).
Definition countdown_default (v : version) : option countdown :=
  if old_version v then None else Some CdNormal.

(** [SampleSet] (general/types.rs:69-128). *)
Inductive gsample_set := GsNormal | GsSoft | GsDrum | GsNone.
Definition gsample_set_to_string (x : gsample_set) (v : version) : option str :=
  if (v =? 3)%Z then None
  else Some (match x with
             | GsNormal => lit "Normal" | GsSoft => lit "Soft"
             | GsDrum => lit "Drum" | GsNone => lit "None" end).
Definition gsample_set_from_str (s : str) (v : version) : res (option gsample_set) general_err :=
  if (v =? 3)%Z then ROk None
  else if str_eqb s (lit "Normal") then ROk (Some GsNormal)
  else if str_eqb s (lit "Soft") then ROk (Some GsSoft)
  else if str_eqb s (lit "Drum") then ROk (Some GsDrum)
  else if str_eqb s (lit "None") then ROk (Some GsNone)
  else RErr GenSampleSet.
Definition gsample_set_default (v : version) : option gsample_set :=
  if (v =? 3)%Z then None else Some GsNormal.

(** [Mode] (general/types.rs:130-184). *)
Inductive mode := MOsu | MTaiko | MCatch | MMania.
Definition mode_repr (m : mode) : Z :=
  match m with MOsu => 0 | MTaiko => 1 | MCatch => 2 | MMania => 3 end%Z.
Definition mode_gate (m : mode) (v : version) : option mode :=
  if ((3 <=? v)%Z && (v <=? 4)%Z) && negb (match m with MOsu => true | _ => false end) then None
  else if ((5 <=? v)%Z && (v <=? 6)%Z)
          && negb (match m with MOsu | MTaiko => true | _ => false end) then None
  else if ((7 <=? v)%Z && (v <=? 9)%Z)
          && (match m with MMania => true | _ => false end) then None
  else Some m.
Definition mode_from_str (s : str) (v : version) : res (option mode) general_err :=
  rmap_err GenMode
    (match parse_usize s with
     | ROk r =>
         if (r =? 0)%Z then ROk (mode_gate MOsu v)
         else if (r =? 1)%Z then ROk (mode_gate MTaiko v)
         else if (r =? 2)%Z then ROk (mode_gate MCatch v)
         else if (r =? 3)%Z then ROk (mode_gate MMania v)
         else RErr GmUnknown
     | RErr e => RErr (GmInt e)
     | RPanic p => RPanic p
     end).
Definition mode_to_string (m : mode) (_ : version) : option str := Some (print_Z (mode_repr m)).
Definition mode_default (_ : version) : option mode := Some MOsu.

(** [OverlayPosition] (general/types.rs:186-237). *)
Inductive overlay_position := OpNoChange | OpBelow | OpAbove.
Definition no_overlay (v : version) : bool := (3 <=? v)%Z && (v <=? 13)%Z.
Definition overlay_position_to_string (x : overlay_position) (v : version) : option str :=
  if no_overlay v then None
  else Some (match x with
             | OpNoChange => lit "NoChange" | OpBelow => lit "Below" | OpAbove => lit "Above" end).
Definition overlay_position_from_str (s : str) (v : version)
  : res (option overlay_position) general_err :=
  if no_overlay v then ROk None
  else if str_eqb s (lit "NoChange") then ROk (Some OpNoChange)
  else if str_eqb s (lit "Below") then ROk (Some OpBelow)
  else if str_eqb s (lit "Above") then ROk (Some OpAbove)
  else RErr GenOverlay.
Definition overlay_position_default (v : version) : option overlay_position :=
  if no_overlay v then None else Some OpNoChange.

(** [General] (general/mod.rs:95-158): every field is optional. *)
Record general := mk_general {
  general_audio_filename : option str;
  general_audio_lead_in : option Z;
  general_audio_hash : option str;
  general_preview_time : option Z;
  general_countdown : option countdown;
  general_sample_set : option gsample_set;
  general_stack_leniency : option decimal;
  general_mode : option mode;
  general_letterbox_in_breaks : option bool;
  general_story_fire_in_front : option bool;
  general_use_skin_sprites : option bool;
  general_always_show_playfield : option bool;
  general_overlay_position : option overlay_position;
  general_skin_preference : option str;
  general_epilepsy_warning : option bool;
  general_countdown_offset : option Z;
  general_special_style : option bool;
  general_widescreen_storyboard : option bool;
  general_samples_match_playback_rate : option bool;
  general_editor_bookmarks : option (list Z);
  general_editor_distance_spacing : option decimal }.

(** [General::new] (helper/macros.rs:116-120). *)
Definition general_new : general := mk_general None None None None None None None None None None None None None None None None None None None None None.

(** Field assignment [section.$field = ..] (helper/macros.rs:145). *)
Definition general_set_audio_filename (v : option str) (s : general) : general :=
  mk_general v (general_audio_lead_in s) (general_audio_hash s) (general_preview_time s) (general_countdown s) (general_sample_set s) (general_stack_leniency s) (general_mode s) (general_letterbox_in_breaks s) (general_story_fire_in_front s) (general_use_skin_sprites s) (general_always_show_playfield s) (general_overlay_position s) (general_skin_preference s) (general_epilepsy_warning s) (general_countdown_offset s) (general_special_style s) (general_widescreen_storyboard s) (general_samples_match_playback_rate s) (general_editor_bookmarks s) (general_editor_distance_spacing s).
Definition general_set_audio_lead_in (v : option Z) (s : general) : general :=
  mk_general (general_audio_filename s) v (general_audio_hash s) (general_preview_time s) (general_countdown s) (general_sample_set s) (general_stack_leniency s) (general_mode s) (general_letterbox_in_breaks s) (general_story_fire_in_front s) (general_use_skin_sprites s) (general_always_show_playfield s) (general_overlay_position s) (general_skin_preference s) (general_epilepsy_warning s) (general_countdown_offset s) (general_special_style s) (general_widescreen_storyboard s) (general_samples_match_playback_rate s) (general_editor_bookmarks s) (general_editor_distance_spacing s).
Definition general_set_audio_hash (v : option str) (s : general) : general :=
  mk_general (general_audio_filename s) (general_audio_lead_in s) v (general_preview_time s) (general_countdown s) (general_sample_set s) (general_stack_leniency s) (general_mode s) (general_letterbox_in_breaks s) (general_story_fire_in_front s) (general_use_skin_sprites s) (general_always_show_playfield s) (general_overlay_position s) (general_skin_preference s) (general_epilepsy_warning s) (general_countdown_offset s) (general_special_style s) (general_widescreen_storyboard s) (general_samples_match_playback_rate s) (general_editor_bookmarks s) (general_editor_distance_spacing s).
Definition general_set_preview_time (v : option Z) (s : general) : general :=
  mk_general (general_audio_filename s) (general_audio_lead_in s) (general_audio_hash s) v (general_countdown s) (general_sample_set s) (general_stack_leniency s) (general_mode s) (general_letterbox_in_breaks s) (general_story_fire_in_front s) (general_use_skin_sprites s) (general_always_show_playfield s) (general_overlay_position s) (general_skin_preference s) (general_epilepsy_warning s) (general_countdown_offset s) (general_special_style s) (general_widescreen_storyboard s) (general_samples_match_playback_rate s) (general_editor_bookmarks s) (general_editor_distance_spacing s).
Definition general_set_countdown (v : option countdown) (s : general) : general :=
  mk_general (general_audio_filename s) (general_audio_lead_in s) (general_audio_hash s) (general_preview_time s) v (general_sample_set s) (general_stack_leniency s) (general_mode s) (general_letterbox_in_breaks s) (general_story_fire_in_front s) (general_use_skin_sprites s) (general_always_show_playfield s) (general_overlay_position s) (general_skin_preference s) (general_epilepsy_warning s) (general_countdown_offset s) (general_special_style s) (general_widescreen_storyboard s) (general_samples_match_playback_rate s) (general_editor_bookmarks s) (general_editor_distance_spacing s).
Definition general_set_sample_set (v : option gsample_set) (s : general) : general :=
  mk_general (general_audio_filename s) (general_audio_lead_in s) (general_audio_hash s) (general_preview_time s) (general_countdown s) v (general_stack_leniency s) (general_mode s) (general_letterbox_in_breaks s) (general_story_fire_in_front s) (general_use_skin_sprites s) (general_always_show_playfield s) (general_overlay_position s) (general_skin_preference s) (general_epilepsy_warning s) (general_countdown_offset s) (general_special_style s) (general_widescreen_storyboard s) (general_samples_match_playback_rate s) (general_editor_bookmarks s) (general_editor_distance_spacing s).
Definition general_set_stack_leniency (v : option decimal) (s : general) : general :=
  mk_general (general_audio_filename s) (general_audio_lead_in s) (general_audio_hash s) (general_preview_time s) (general_countdown s) (general_sample_set s) v (general_mode s) (general_letterbox_in_breaks s) (general_story_fire_in_front s) (general_use_skin_sprites s) (general_always_show_playfield s) (general_overlay_position s) (general_skin_preference s) (general_epilepsy_warning s) (general_countdown_offset s) (general_special_style s) (general_widescreen_storyboard s) (general_samples_match_playback_rate s) (general_editor_bookmarks s) (general_editor_distance_spacing s).
Definition general_set_mode (v : option mode) (s : general) : general :=
  mk_general (general_audio_filename s) (general_audio_lead_in s) (general_audio_hash s) (general_preview_time s) (general_countdown s) (general_sample_set s) (general_stack_leniency s) v (general_letterbox_in_breaks s) (general_story_fire_in_front s) (general_use_skin_sprites s) (general_always_show_playfield s) (general_overlay_position s) (general_skin_preference s) (general_epilepsy_warning s) (general_countdown_offset s) (general_special_style s) (general_widescreen_storyboard s) (general_samples_match_playback_rate s) (general_editor_bookmarks s) (general_editor_distance_spacing s).
Definition general_set_letterbox_in_breaks (v : option bool) (s : general) : general :=
  mk_general (general_audio_filename s) (general_audio_lead_in s) (general_audio_hash s) (general_preview_time s) (general_countdown s) (general_sample_set s) (general_stack_leniency s) (general_mode s) v (general_story_fire_in_front s) (general_use_skin_sprites s) (general_always_show_playfield s) (general_overlay_position s) (general_skin_preference s) (general_epilepsy_warning s) (general_countdown_offset s) (general_special_style s) (general_widescreen_storyboard s) (general_samples_match_playback_rate s) (general_editor_bookmarks s) (general_editor_distance_spacing s).
Definition general_set_story_fire_in_front (v : option bool) (s : general) : general :=
  mk_general (general_audio_filename s) (general_audio_lead_in s) (general_audio_hash s) (general_preview_time s) (general_countdown s) (general_sample_set s) (general_stack_leniency s) (general_mode s) (general_letterbox_in_breaks s) v (general_use_skin_sprites s) (general_always_show_playfield s) (general_overlay_position s) (general_skin_preference s) (general_epilepsy_warning s) (general_countdown_offset s) (general_special_style s) (general_widescreen_storyboard s) (general_samples_match_playback_rate s) (general_editor_bookmarks s) (general_editor_distance_spacing s).
Definition general_set_use_skin_sprites (v : option bool) (s : general) : general :=
  mk_general (general_audio_filename s) (general_audio_lead_in s) (general_audio_hash s) (general_preview_time s) (general_countdown s) (general_sample_set s) (general_stack_leniency s) (general_mode s) (general_letterbox_in_breaks s) (general_story_fire_in_front s) v (general_always_show_playfield s) (general_overlay_position s) (general_skin_preference s) (general_epilepsy_warning s) (general_countdown_offset s) (general_special_style s) (general_widescreen_storyboard s) (general_samples_match_playback_rate s) (general_editor_bookmarks s) (general_editor_distance_spacing s).
Definition general_set_always_show_playfield (v : option bool) (s : general) : general :=
  mk_general (general_audio_filename s) (general_audio_lead_in s) (general_audio_hash s) (general_preview_time s) (general_countdown s) (general_sample_set s) (general_stack_leniency s) (general_mode s) (general_letterbox_in_breaks s) (general_story_fire_in_front s) (general_use_skin_sprites s) v (general_overlay_position s) (general_skin_preference s) (general_epilepsy_warning s) (general_countdown_offset s) (general_special_style s) (general_widescreen_storyboard s) (general_samples_match_playback_rate s) (general_editor_bookmarks s) (general_editor_distance_spacing s).
Definition general_set_overlay_position (v : option overlay_position) (s : general) : general :=
  mk_general (general_audio_filename s) (general_audio_lead_in s) (general_audio_hash s) (general_preview_time s) (general_countdown s) (general_sample_set s) (general_stack_leniency s) (general_mode s) (general_letterbox_in_breaks s) (general_story_fire_in_front s) (general_use_skin_sprites s) (general_always_show_playfield s) v (general_skin_preference s) (general_epilepsy_warning s) (general_countdown_offset s) (general_special_style s) (general_widescreen_storyboard s) (general_samples_match_playback_rate s) (general_editor_bookmarks s) (general_editor_distance_spacing s).
Definition general_set_skin_preference (v : option str) (s : general) : general :=
  mk_general (general_audio_filename s) (general_audio_lead_in s) (general_audio_hash s) (general_preview_time s) (general_countdown s) (general_sample_set s) (general_stack_leniency s) (general_mode s) (general_letterbox_in_breaks s) (general_story_fire_in_front s) (general_use_skin_sprites s) (general_always_show_playfield s) (general_overlay_position s) v (general_epilepsy_warning s) (general_countdown_offset s) (general_special_style s) (general_widescreen_storyboard s) (general_samples_match_playback_rate s) (general_editor_bookmarks s) (general_editor_distance_spacing s).
Definition general_set_epilepsy_warning (v : option bool) (s : general) : general :=
  mk_general (general_audio_filename s) (general_audio_lead_in s) (general_audio_hash s) (general_preview_time s) (general_countdown s) (general_sample_set s) (general_stack_leniency s) (general_mode s) (general_letterbox_in_breaks s) (general_story_fire_in_front s) (general_use_skin_sprites s) (general_always_show_playfield s) (general_overlay_position s) (general_skin_preference s) v (general_countdown_offset s) (general_special_style s) (general_widescreen_storyboard s) (general_samples_match_playback_rate s) (general_editor_bookmarks s) (general_editor_distance_spacing s).
Definition general_set_countdown_offset (v : option Z) (s : general) : general :=
  mk_general (general_audio_filename s) (general_audio_lead_in s) (general_audio_hash s) (general_preview_time s) (general_countdown s) (general_sample_set s) (general_stack_leniency s) (general_mode s) (general_letterbox_in_breaks s) (general_story_fire_in_front s) (general_use_skin_sprites s) (general_always_show_playfield s) (general_overlay_position s) (general_skin_preference s) (general_epilepsy_warning s) v (general_special_style s) (general_widescreen_storyboard s) (general_samples_match_playback_rate s) (general_editor_bookmarks s) (general_editor_distance_spacing s).
Definition general_set_special_style (v : option bool) (s : general) : general :=
  mk_general (general_audio_filename s) (general_audio_lead_in s) (general_audio_hash s) (general_preview_time s) (general_countdown s) (general_sample_set s) (general_stack_leniency s) (general_mode s) (general_letterbox_in_breaks s) (general_story_fire_in_front s) (general_use_skin_sprites s) (general_always_show_playfield s) (general_overlay_position s) (general_skin_preference s) (general_epilepsy_warning s) (general_countdown_offset s) v (general_widescreen_storyboard s) (general_samples_match_playback_rate s) (general_editor_bookmarks s) (general_editor_distance_spacing s).
Definition general_set_widescreen_storyboard (v : option bool) (s : general) : general :=
  mk_general (general_audio_filename s) (general_audio_lead_in s) (general_audio_hash s) (general_preview_time s) (general_countdown s) (general_sample_set s) (general_stack_leniency s) (general_mode s) (general_letterbox_in_breaks s) (general_story_fire_in_front s) (general_use_skin_sprites s) (general_always_show_playfield s) (general_overlay_position s) (general_skin_preference s) (general_epilepsy_warning s) (general_countdown_offset s) (general_special_style s) v (general_samples_match_playback_rate s) (general_editor_bookmarks s) (general_editor_distance_spacing s).
Definition general_set_samples_match_playback_rate (v : option bool) (s : general) : general :=
  mk_general (general_audio_filename s) (general_audio_lead_in s) (general_audio_hash s) (general_preview_time s) (general_countdown s) (general_sample_set s) (general_stack_leniency s) (general_mode s) (general_letterbox_in_breaks s) (general_story_fire_in_front s) (general_use_skin_sprites s) (general_always_show_playfield s) (general_overlay_position s) (general_skin_preference s) (general_epilepsy_warning s) (general_countdown_offset s) (general_special_style s) (general_widescreen_storyboard s) v (general_editor_bookmarks s) (general_editor_distance_spacing s).
Definition general_set_editor_bookmarks (v : option (list Z)) (s : general) : general :=
  mk_general (general_audio_filename s) (general_audio_lead_in s) (general_audio_hash s) (general_preview_time s) (general_countdown s) (general_sample_set s) (general_stack_leniency s) (general_mode s) (general_letterbox_in_breaks s) (general_story_fire_in_front s) (general_use_skin_sprites s) (general_always_show_playfield s) (general_overlay_position s) (general_skin_preference s) (general_epilepsy_warning s) (general_countdown_offset s) (general_special_style s) (general_widescreen_storyboard s) (general_samples_match_playback_rate s) v (general_editor_distance_spacing s).
Definition general_set_editor_distance_spacing (v : option decimal) (s : general) : general :=
  mk_general (general_audio_filename s) (general_audio_lead_in s) (general_audio_hash s) (general_preview_time s) (general_countdown s) (general_sample_set s) (general_stack_leniency s) (general_mode s) (general_letterbox_in_breaks s) (general_story_fire_in_front s) (general_use_skin_sprites s) (general_always_show_playfield s) (general_overlay_position s) (general_skin_preference s) (general_epilepsy_warning s) (general_countdown_offset s) (general_special_style s) (general_widescreen_storyboard s) (general_samples_match_playback_rate s) (general_editor_bookmarks s) v.

(** The fields in declaration order with their key, reader and printer. *)
Definition general_fields : list (field general general_err) := [
  mk_field (lit "AudioFilename") from_text to_text general_audio_filename general_set_audio_filename;
  mk_field (lit "AudioLeadIn") gen_int to_int general_audio_lead_in general_set_audio_lead_in;
  mk_field (lit "AudioHash") from_text to_audio_hash general_audio_hash general_set_audio_hash;
  mk_field (lit "PreviewTime") gen_int to_int general_preview_time general_set_preview_time;
  mk_field (lit "Countdown") countdown_from_str countdown_to_string general_countdown general_set_countdown;
  mk_field (lit "SampleSet") gsample_set_from_str gsample_set_to_string general_sample_set general_set_sample_set;
  mk_field (lit "StackLeniency") from_dec to_dec general_stack_leniency general_set_stack_leniency;
  mk_field (lit "Mode") mode_from_str mode_to_string general_mode general_set_mode;
  mk_field (lit "LetterboxInBreaks") from_zero_one to_zero_one general_letterbox_in_breaks general_set_letterbox_in_breaks;
  mk_field (lit "StoryFireInFront") from_zero_one to_zero_one general_story_fire_in_front general_set_story_fire_in_front;
  mk_field (lit "UseSkinSprites") from_zero_one to_zero_one general_use_skin_sprites general_set_use_skin_sprites;
  mk_field (lit "AlwaysShowPlayfield") from_zero_one to_zero_one general_always_show_playfield general_set_always_show_playfield;
  mk_field (lit "OverlayPosition") overlay_position_from_str overlay_position_to_string general_overlay_position general_set_overlay_position;
  mk_field (lit "SkinPreference") from_text to_text general_skin_preference general_set_skin_preference;
  mk_field (lit "EpilepsyWarning") from_zero_one to_zero_one general_epilepsy_warning general_set_epilepsy_warning;
  mk_field (lit "CountdownOffset") gen_int to_int general_countdown_offset general_set_countdown_offset;
  mk_field (lit "SpecialStyle") from_zero_one to_zero_one general_special_style general_set_special_style;
  mk_field (lit "WidescreenStoryboard") from_zero_one to_zero_one general_widescreen_storyboard general_set_widescreen_storyboard;
  mk_field (lit "SamplesMatchPlaybackRate") from_zero_one to_zero_one general_samples_match_playback_rate general_set_samples_match_playback_rate;
  mk_field (lit "EditorBookmarks") from_editor_bookmarks to_editor_bookmarks general_editor_bookmarks general_set_editor_bookmarks;
  mk_field (lit "EditorDistanceSpacing") from_dec to_editor_distance_spacing general_editor_distance_spacing general_set_editor_distance_spacing].

Definition general_errs : kv_errs general_err := mk_kv_errs GenColonSet GenKey GenDup.
(** The spacing is one space (general/mod.rs:157). *)
Definition general_spacing (_ : str) (_ : version) : str := lit " ".

Definition general_from_str : str -> version -> res (option general) (line_err general_err) :=
  kv_from_str general_errs general_fields general_new.
Definition general_to_string : general -> version -> option str :=
  kv_to_string general_fields general_spacing.
