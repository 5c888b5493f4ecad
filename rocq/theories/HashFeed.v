(** [Hash] on what is read: the data that the derived [Hash] of the types of the crate hands to a
    [Hasher], in the order in which it is written.  A derived [Hash] goes field by field, in the
    order of the declaration; an [enum] writes its discriminant first.  No type of the crate has a [Hash]
    written by hand.  [rust_decimal::Decimal], [Either], [Option], [Vec], [String] and [Path]
    are transcribed from their crates and the standard library. *)
From Coq Require Import String List NArith ZArith Bool.
From Verif Require Import Str Num Dec Parsers General Editor Metadata Difficulty Colours TimingPoints HitObjects
  Storyboard NormalEvents Events Osb OsuFile.
Import ListNotations.
Local Open Scope N_scope.

(** One call of a method of [Hasher].  [WText] is [write] with the bytes of a text, [WInts]
    [write] with the bytes of a slice of [i32]; [WFlags] is the [write_u32] with the flags of a number
    (scale in bits 16 to 23, sign in bit 31). *)
Inductive hwrite :=
| WU8 (z : Z) | WU32 (z : Z) | WI32 (z : Z) | WUsize (z : Z) | WIsize (z : Z)
| WText (s : str) | WInts (l : list Z) | WFlags (neg : bool) (scale : nat).
Definition feed (A : Type) : Type := A -> list hwrite.
Definition f_u8 : feed Z := fun z => [WU8 z].
Definition f_u32 : feed Z := fun z => [WU32 z].
Definition f_i32 : feed Z := fun z => [WI32 z].
Definition f_usize : feed Z := fun z => [WUsize z].
Definition f_bool : feed bool := fun b => [WU8 (if b then 1 else 0)].
(** an [enum] without fields *)
Definition f_tag {A} (tag : A -> Z) : feed A := fun x => [WIsize (tag x)].
(** [Option], [Vec], a vector of [i32] (one [write]), [String] (the bytes and 0xff) *)
Definition f_opt {A} (f : feed A) : feed (option A) :=
  fun o => match o with None => [WIsize 0] | Some x => WIsize 1 :: f x end.
Definition f_len {A} (l : list A) : hwrite := WUsize (Z.of_nat (length l)).
Definition f_vec {A} (f : feed A) : feed (list A) := fun l => f_len l :: flat_map f l.
Definition f_ints : feed (list Z) := fun l => [f_len l; WInts l].
Definition f_text : feed str := fun s => [WText s; WU8 255].

(** [rust_decimal::Decimal]: the three words of the mantissa and the flags of [normalize] *)
Fixpoint drop_zeros (m : N) (sc : nat) : N * nat :=
  match sc with
  | O => (m, O)
  | S k => if 0 <? m mod 10 then (m, sc) else drop_zeros (m / 10) k
  end.
Definition normalize (d : rdec) : rdec :=
  if d_mant d =? 0 then mkDec false 0 0
  else let (m, sc) := drop_zeros (d_mant d) (d_scale d) in mkDec (d_neg d) m sc.
Definition f_rdec : feed rdec := fun d =>
  let n := normalize d in
  [WU32 (Z.of_N (d_mant n mod 2 ^ 32)); WU32 (Z.of_N ((d_mant n / 2 ^ 32) mod 2 ^ 32)); WU32 (Z.of_N (d_mant n / 2 ^ 64));
   WFlags (d_neg n) (d_scale n)].
(** [Decimal] (types.rs:275-278) *)
Definition f_decimal : feed decimal := fun d =>
  match d with DNum x => WIsize 0 :: f_rdec x | DRaw s => WIsize 1 :: f_text s end.

(** [Path] (library/std/src/path.rs): a loop over the bytes; [cur] is what lies between
    [component_start] and the place, [skip] says that the place lies before [component_start].
    Behind a separator a dot is skipped if it is the last byte or a separator follows. *)
Definition dot_next (s : str) : bool :=
  match s with [c] => c =? 46 | c :: d :: _ => (c =? 46) && (d =? 47) | [] => false end.
Definition end_chunk (cur : str) : list str := match cur with [] => [] | _ => [cur] end.
Fixpoint path_chunks (cur : str) (skip : bool) (s : str) : list str :=
  match s with
  | [] => end_chunk cur
  | c :: s' =>
      if skip then path_chunks cur false s'
      else if c =? 47 then end_chunk cur ++ path_chunks [] (dot_next s') s'
      else path_chunks (cur ++ [c]) false s'
  end.
(** [chunk_bits]: the byte lengths, added up, with a rotation by two bits after each *)
Definition rotate_right_2 (n : N) : N := n / 4 + (n mod 4) * 2 ^ 62.
Definition byte_len (s : str) : N := fold_left (fun n c => n + N.of_nat (utf8_width c)) s 0.
Definition chunk_bits (cs : list str) : N := fold_left (fun b c => rotate_right_2 ((b + byte_len c) mod 2 ^ 64)) cs 0.
Definition f_path : feed str := fun p =>
  let cs := path_chunks [] false p in map WText cs ++ [WUsize (Z.of_N (chunk_bits cs))].

(** [Position] (types.rs:19-26) *)
Definition f_pos : feed position_t := fun p => f_decimal (pos_x p) ++ f_decimal (pos_y p).

(** ** [General] (general/mod.rs, general/types.rs; derived in helper/macros.rs:3,105) *)
Definition tag_countdown (x : countdown) : Z := match x with NoCountdown => 0 | CdNormal => 1 | CdHalf => 2 | CdDouble => 3 end.
Definition tag_gsample_set (x : gsample_set) : Z := match x with GsNormal => 0 | GsSoft => 1 | GsDrum => 2 | GsNone => 3 end.
Definition tag_mode (x : mode) : Z := match x with MOsu => 0 | MTaiko => 1 | MCatch => 2 | MMania => 3 end.
Definition tag_overlay_position (x : overlay_position) : Z := match x with OpNoChange => 0 | OpBelow => 1 | OpAbove => 2 end.
Definition f_general : feed general := fun g =>
  f_opt f_path (general_audio_filename g) ++ f_opt f_i32 (general_audio_lead_in g) ++ f_opt f_text (general_audio_hash g)
  ++ f_opt f_i32 (general_preview_time g) ++ f_opt (f_tag tag_countdown) (general_countdown g)
  ++ f_opt (f_tag tag_gsample_set) (general_sample_set g) ++ f_opt f_decimal (general_stack_leniency g)
  ++ f_opt (f_tag tag_mode) (general_mode g) ++ f_opt f_bool (general_letterbox_in_breaks g)
  ++ f_opt f_bool (general_story_fire_in_front g) ++ f_opt f_bool (general_use_skin_sprites g)
  ++ f_opt f_bool (general_always_show_playfield g) ++ f_opt (f_tag tag_overlay_position) (general_overlay_position g)
  ++ f_opt f_text (general_skin_preference g) ++ f_opt f_bool (general_epilepsy_warning g)
  ++ f_opt f_i32 (general_countdown_offset g) ++ f_opt f_bool (general_special_style g)
  ++ f_opt f_bool (general_widescreen_storyboard g) ++ f_opt f_bool (general_samples_match_playback_rate g)
  ++ f_opt f_ints (general_editor_bookmarks g) ++ f_opt f_decimal (general_editor_distance_spacing g).

(** ** [Editor], [Metadata], [Difficulty] *)
Definition f_editor : feed editor := fun e =>
  f_opt f_ints (editor_bookmarks e) ++ f_opt f_decimal (editor_distance_spacing e) ++ f_opt f_decimal (editor_beat_divisor e)
  ++ f_opt f_i32 (editor_grid_size e) ++ f_opt f_decimal (editor_timeline_zoom e) ++ f_opt f_i32 (editor_current_time e).
Definition f_metadata : feed metadata := fun m =>
  f_opt f_text (metadata_title m) ++ f_opt f_text (metadata_title_unicode m) ++ f_opt f_text (metadata_artist m)
  ++ f_opt f_text (metadata_artist_unicode m) ++ f_opt f_text (metadata_creator m) ++ f_opt f_text (metadata_version m)
  ++ f_opt f_text (metadata_source m) ++ f_opt (f_vec f_text) (metadata_tags m) ++ f_opt f_i32 (metadata_beatmap_id m)
  ++ f_opt f_i32 (metadata_beatmap_set_id m).
Definition f_difficulty : feed difficulty := fun d =>
  f_opt f_decimal (difficulty_hp_drain_rate d) ++ f_opt f_decimal (difficulty_circle_size d)
  ++ f_opt f_decimal (difficulty_overall_difficulty d) ++ f_opt f_decimal (difficulty_approach_rate d)
  ++ f_opt f_decimal (difficulty_slider_multiplier d) ++ f_opt f_decimal (difficulty_slider_tickrate d).

(** ** [Colour] (colours/mod.rs:76), [Rgb] (colours/types.rs:10) *)
Definition f_rgb : feed rgb := fun c => f_u8 (rgb_r c) ++ f_u8 (rgb_g c) ++ f_u8 (rgb_b c).
Definition f_colour : feed colour := fun c =>
  match c with
  | Combo n c => WIsize 0 :: f_i32 n ++ f_rgb c
  | SliderTrackOverride c => WIsize 1 :: f_rgb c
  | SliderBorder c => WIsize 2 :: f_rgb c
  end.

(** ** [TimingPoint] (timingpoints/mod.rs:82) and its types (timingpoints/types.rs:7-204) *)
Definition f_tp_sample_set : feed tp_sample_set := fun x =>
  match x with
  | TsBeatmapDefault => [WIsize 0] | TsNormal => [WIsize 1] | TsSoft => [WIsize 2] | TsDrum => [WIsize 3]
  | TsOther z => WIsize 4 :: f_i32 z
  end.
Definition f_sample_index : feed sample_index := fun x => match x with SiDefault => [WIsize 0] | SiIndex z => WIsize 1 :: f_u32 z end.
Definition f_tp : feed timing_point := fun t =>
  f_decimal (tp_time t) ++ f_decimal (tp_beat_length t) ++ f_i32 (tp_meter t) ++ f_tp_sample_set (tp_sample_set_f t)
  ++ f_sample_index (tp_sample_index t) ++ f_i32 (tp_volume t) ++ f_opt f_bool (tp_uninherited t) ++ f_opt f_u32 (tp_effects t).

(** ** [HitObject] (hitobjects/mod.rs:78-583) and its types (hitobjects/types.rs) *)
Definition f_sample_set : feed sample_set := fun x =>
  match x with
  | SsNone => [WIsize 0] | SsNormal => [WIsize 1] | SsSoft => [WIsize 2] | SsDrum => [WIsize 3]
  | SsOther z => WIsize 4 :: f_usize z
  end.
Definition f_edge_set : feed edge_set := fun x => f_sample_set (es_normal x) ++ f_sample_set (es_addition x).
Definition f_hit_sound : feed hit_sound := fun x =>
  f_bool (snd_normal x) ++ f_bool (snd_whistle x) ++ f_bool (snd_finish x) ++ f_bool (snd_clap x).
Definition tag_curve_type (x : curve_type) : Z := match x with Bezier => 0 | Centripetal => 1 | Linear => 2 | PerfectCircle => 3 end.
Definition f_ho_index : feed ho_index := fun x => match x with HiTimingPoint => [WIsize 0] | HiIndex z => WIsize 1 :: f_usize z end.
Definition f_hit_sample : feed hit_sample := fun x =>
  f_sample_set (hs_normal x) ++ f_sample_set (hs_addition x) ++ f_ho_index (hs_index x) ++ f_opt f_u8 (hs_volume x)
  ++ f_text (hs_filename x).
Definition f_slide : feed slide_params := fun x =>
  f_tag tag_curve_type (sl_curve_type x) ++ f_vec f_pos (sl_curve_points x) ++ f_i32 (sl_slides x) ++ f_decimal (sl_length x)
  ++ f_vec f_hit_sound (sl_edge_sounds x) ++ f_bool (sl_edge_sounds_short_hand x)
  ++ f_vec f_edge_set (sl_edge_sets x) ++ f_bool (sl_edge_sets_shorthand x).
Definition f_ho_params : feed ho_params := fun x =>
  match x with
  | HitCircle => [WIsize 0]
  | Slider p => WIsize 1 :: f_slide p
  | Spinner t => WIsize 2 :: f_decimal t
  | OsuManiaHold t => WIsize 3 :: f_decimal t
  end.
Definition f_ho : feed hit_object := fun o =>
  f_pos (ho_position o) ++ f_decimal (ho_time o) ++ f_ho_params (ho_obj_params o) ++ f_bool (ho_new_combo o)
  ++ f_u8 (ho_combo_skip_count o) ++ f_hit_sound (ho_hitsound o) ++ f_opt f_hit_sample (ho_hitsample o).

(** ** storyboard commands (events/storyboard/cmds/mod.rs:24-285, cmds/types.rs, types.rs) *)
Definition tag_sb_sample_set (x : sb_sample_set) : Z := match x with SbAll => 0 | SbNormal => 1 | SbSoft => 2 | SbDrum => 3 end.
Definition tag_addition (x : addition) : Z := match x with AdWhistle => 0 | AdFinish => 1 | AdClap => 2 end.
Definition f_trigger_type : feed trigger_type := fun x =>
  match x with
  | TtHitSound s a d c =>
      WIsize 0 :: f_opt (f_tag tag_sb_sample_set) s ++ f_opt (f_tag tag_sb_sample_set) a ++ f_opt (f_tag tag_addition) d ++ f_opt f_usize c
  | TtPassing => [WIsize 1]
  | TtFailing => [WIsize 2]
  end.
(** the variants of [Easing] (storyboard/types.rs:205-246) stand in the order of their numbers *)
Definition f_easing : feed easing := fun e => match e with EzOther z => WIsize 35 :: f_i32 z | _ => [WIsize (easing_to_Z e)] end.
Definition tag_parameter (x : parameter) : Z := match x with PaFlipH => 0 | PaFlipV => 1 | PaAdditive => 2 end.
Definition f_pair {A B} (f : feed A) (g : feed B) : feed (A * B) := fun p => f (fst p) ++ g (snd p).
Definition f_continuing : feed (continuing decimal) := fun c =>
  f_pair f_decimal f_decimal (ct_start c) ++ f_vec (f_pair f_decimal (f_opt f_decimal)) (ct_rest c).
Definition f_sb_colours : feed sb_colours := fun c =>
  f_pair (f_pair f_u8 f_u8) f_u8 (sbc_start c) ++ f_vec (f_pair (f_pair f_u8 (f_opt f_u8)) (f_opt f_u8)) (sbc_rest c).
Fixpoint f_command (c : command) : list hwrite :=
  match c with mk_cmd s p => f_opt f_i32 s ++ f_properties p end
with f_properties (p : cmd_properties) : list hwrite :=
  match p with
  | PFade e t s l => WIsize 0 :: f_easing e ++ f_opt f_i32 t ++ f_decimal s ++ f_vec f_decimal l
  | PMove e t c => WIsize 1 :: f_easing e ++ f_opt f_i32 t ++ f_continuing c
  | PMoveX e t s l => WIsize 2 :: f_easing e ++ f_opt f_i32 t ++ f_decimal s ++ f_vec f_decimal l
  | PMoveY e t s l => WIsize 3 :: f_easing e ++ f_opt f_i32 t ++ f_decimal s ++ f_vec f_decimal l
  | PScale e t s l => WIsize 4 :: f_easing e ++ f_opt f_i32 t ++ f_decimal s ++ f_vec f_decimal l
  | PVectorScale e t c => WIsize 5 :: f_easing e ++ f_opt f_i32 t ++ f_continuing c
  | PRotate e t s l => WIsize 6 :: f_easing e ++ f_opt f_i32 t ++ f_decimal s ++ f_vec f_decimal l
  | PColour e t c => WIsize 7 :: f_easing e ++ f_opt f_i32 t ++ f_sb_colours c
  | PParameter e t x l => WIsize 8 :: f_easing e ++ f_opt f_i32 t ++ f_tag tag_parameter x ++ f_vec (f_tag tag_parameter) l
  | PLoop n l => WIsize 9 :: f_u32 n ++ f_vec f_command l
  | PTrigger x t g l => WIsize 10 :: f_trigger_type x ++ f_opt f_i32 t ++ f_opt f_i32 g ++ f_vec f_command l
  end.

(** ** events (events/mod.rs:28-329, normal_event, audio_sample, storyboard/sprites.rs) *)
Definition f_background : feed background := fun x =>
  f_i32 (bg_start x) ++ f_path (bg_file x) ++ f_opt f_pos (bg_pos x) ++ f_vec f_command (bg_cmds x).
Definition f_video : feed video := fun x =>
  f_i32 (vi_start x) ++ f_path (vi_file x) ++ f_opt f_pos (vi_pos x) ++ f_vec f_command (vi_cmds x) ++ f_bool (vi_short x).
Definition f_break : feed break_t := fun x => f_i32 (br_start x) ++ f_i32 (br_end x) ++ f_bool (br_short x).
Definition f_colour_tr : feed colour_tr := fun x => f_i32 (ctr_start x) ++ f_u8 (ctr_r x) ++ f_u8 (ctr_g x) ++ f_u8 (ctr_b x).
(** the variants of the layers and of the origins stand in the order of their numbers; the one
    of an origin is its place, which is its number in the file too (normal_event/types.rs:9-20, sprites.rs:302-313) *)
Definition tag_origin (x : origin_type) : Z :=
  match x with
  | OtTopLeft => 0 | OtCentre => 1 | OtCentreLeft => 2 | OtTopRight => 3 | OtBottomCentre => 4
  | OtTopCentre => 5 | OtCustom => 6 | OtCentreRight => 7 | OtBottomLeft => 8 | OtBottomRight => 9
  end.
Definition f_legacy : feed legacy := fun x =>
  f_tag layer_legacy_to_Z (lg_layer x) ++ f_tag tag_origin (lg_origin x) ++ f_path (lg_file x) ++ f_opt f_pos (lg_pos x)
  ++ f_vec f_command (lg_cmds x).
Definition f_sample_legacy : feed sample_legacy := fun x =>
  f_decimal (sl_time x) ++ f_tag layer_legacy_to_Z (sl_layer x) ++ f_path (sl_file x) ++ f_opt f_u8 (sl_volume x)
  ++ f_vec f_command (sl_cmds x).
Definition f_audio_sample : feed audio_sample := fun x =>
  f_i32 (au_time x) ++ f_tag au_layer_to_Z (au_layer_f x) ++ f_path (au_file x) ++ f_u8 (au_volume x).
Definition f_origin_either : feed origin_either := fun x =>
  match x with OLeft t => WIsize 0 :: f_tag tag_origin t | ORight z => WIsize 1 :: f_i32 z end.
Definition f_origin : feed origin := fun x => f_origin_either (or_type x) ++ f_bool (or_short x).
Definition tag_loop_type (x : loop_type) : Z := match x with LoopForever => 0 | LoopOnce => 1 end.
Definition tag_sb_layer (x : sb_layer) : Z :=
  match x with LyBackground => 0 | LyFail => 1 | LyPass => 2 | LyForeground => 3 | LyOverlay => 4 end.
Definition f_object_type : feed object_type := fun x =>
  match x with
  | ObSprite f => WIsize 0 :: f_path f
  | ObAnimation n d l f => WIsize 1 :: f_u32 n ++ f_rdec d ++ f_tag tag_loop_type l ++ f_path f
  end.
Definition f_object : feed object := fun x =>
  f_tag tag_sb_layer (ob_layer x) ++ f_origin (ob_origin x) ++ f_pos (ob_pos x) ++ f_object_type (ob_type x)
  ++ f_vec f_command (ob_cmds x).
Definition f_event : feed event := fun e =>
  match e with
  | EComment s => WIsize 0 :: f_text s
  | EBackground x => WIsize 1 :: f_background x
  | EVideo x => WIsize 2 :: f_video x
  | EBreak x => WIsize 3 :: f_break x
  | EColourTransformation x => WIsize 4 :: f_colour_tr x
  | ESpriteLegacy x => WIsize 5 :: f_legacy x
  | EAnimationLegacy x => WIsize 6 :: f_legacy x
  | ESampleLegacy x => WIsize 7 :: f_sample_legacy x
  | EObject x => WIsize 8 :: f_object x
  | EAudioSample x => WIsize 9 :: f_audio_sample x
  end.

(** ** [Variable] (osb/types.rs:11), [Osb] (osb/mod.rs:13), [OsuFile] (osu_file/mod.rs:39) *)
Definition f_variable : feed variable := fun x => f_text (var_name x) ++ f_text (var_value x).
Definition f_osb : feed osb := fun x => f_opt (f_vec f_variable) (osb_variables x) ++ f_opt (f_vec f_event) (osb_events x).
Definition f_osu : feed osu_file := fun f =>
  f_u8 (osu_version f) ++ f_opt f_general (osu_general f) ++ f_opt f_editor (osu_editor f) ++ f_opt f_osb (osu_osb f)
  ++ f_opt f_metadata (osu_metadata f) ++ f_opt f_difficulty (osu_difficulty f) ++ f_opt (f_vec f_event) (osu_events f)
  ++ f_opt (f_vec f_tp) (osu_timing_points f) ++ f_opt (f_vec f_colour) (osu_colours f) ++ f_opt (f_vec f_ho) (osu_hitobjects f).
(** What a hasher makes of it: a state that every call changes. *)
Definition hash_of {S} (step : S -> hwrite -> S) (s : S) (w : list hwrite) : S := fold_left step w s.
