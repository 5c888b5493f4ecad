(** [==] on what is read: the [PartialEq] that the types of the crate derive.  A derived
    comparison goes field by field, in every type from [OsuFile] (osu_file/mod.rs:39) down to
    the smallest.  Two types of other crates compare by meaning: [rust_decimal::Decimal]
    by the number, so that 1.0 is 1.00, and [PathBuf] by the components, so that a//b is a/b.
    No type of the crate has a comparison written by hand. *)
From Coq Require Import String List NArith ZArith Bool.
From Verif Require Import Str Num Dec Parsers General Editor Metadata Difficulty Colours TimingPoints HitObjects
  Storyboard NormalEvents Events Osb OsuFile.
Import ListNotations.
Local Open Scope N_scope.

(** [PartialEq] of [Option] and of [Vec] *)
Definition opt_eq {A} (eq : A -> A -> bool) (a b : option A) : bool :=
  match a, b with Some x, Some y => eq x y | None, None => true | _, _ => false end.
Definition list_eq {A} (eq : A -> A -> bool) : list A -> list A -> bool :=
  fix go a b := match a, b with
                | [], [] => true
                | x :: a', y :: b' => eq x y && go a' b'
                | _, _ => false
                end.

(** [rust_decimal::Decimal]: the numbers are compared *)
Definition signed_mant (d : rdec) : Z := if d_neg d then (- Z.of_N (d_mant d))%Z else Z.of_N (d_mant d).
Definition rdec_eq (a b : rdec) : bool :=
  (signed_mant a * 10 ^ Z.of_nat (d_scale b) =? signed_mant b * 10 ^ Z.of_nat (d_scale a))%Z.
(** [Decimal] (types.rs:275-278): [Either<rust_decimal::Decimal, String>] *)
Definition decimal_eq (a b : decimal) : bool :=
  match a, b with DNum x, DNum y => rdec_eq x y | DRaw s, DRaw t => str_eqb s t | _, _ => false end.

(** [PathBuf] on Unix: [Path::components].  Empty components and dots are left out, but a
    dot at the very front stays; a slash at the front is a component of its own. *)
Definition plain_component (s : str) : bool := negb (str_eqb s [] || str_eqb s [46]).
Definition components (p : str) : list str :=
  match p with
  | 47 :: _ => [47] :: filter plain_component (split_on 47 p)
  | _ => match split_on 47 p with
         | [46] :: l => [46] :: filter plain_component l
         | l => filter plain_component l
         end
  end.
(** [FilePath] (types.rs:201-203), and [PathBuf] itself (general/mod.rs:24) *)
Definition path_eq (p q : str) : bool := list_eq str_eqb (components p) (components q).

(** [Position] (types.rs:19-26) *)
Definition pos_eq (a b : position_t) : bool := decimal_eq (pos_x a) (pos_x b) && decimal_eq (pos_y a) (pos_y b).

(** ** [General] (general/mod.rs; derived in helper/macros.rs:3,105) *)
Scheme Boolean Equality for countdown.
Scheme Boolean Equality for gsample_set.
Scheme Boolean Equality for mode.
Scheme Boolean Equality for overlay_position.
Definition general_eq (a b : general) : bool :=
  opt_eq path_eq (general_audio_filename a) (general_audio_filename b)
  && opt_eq Z.eqb (general_audio_lead_in a) (general_audio_lead_in b)
  && opt_eq str_eqb (general_audio_hash a) (general_audio_hash b)
  && opt_eq Z.eqb (general_preview_time a) (general_preview_time b)
  && opt_eq countdown_beq (general_countdown a) (general_countdown b)
  && opt_eq gsample_set_beq (general_sample_set a) (general_sample_set b)
  && opt_eq decimal_eq (general_stack_leniency a) (general_stack_leniency b)
  && opt_eq mode_beq (general_mode a) (general_mode b)
  && opt_eq Bool.eqb (general_letterbox_in_breaks a) (general_letterbox_in_breaks b)
  && opt_eq Bool.eqb (general_story_fire_in_front a) (general_story_fire_in_front b)
  && opt_eq Bool.eqb (general_use_skin_sprites a) (general_use_skin_sprites b)
  && opt_eq Bool.eqb (general_always_show_playfield a) (general_always_show_playfield b)
  && opt_eq overlay_position_beq (general_overlay_position a) (general_overlay_position b)
  && opt_eq str_eqb (general_skin_preference a) (general_skin_preference b)
  && opt_eq Bool.eqb (general_epilepsy_warning a) (general_epilepsy_warning b)
  && opt_eq Z.eqb (general_countdown_offset a) (general_countdown_offset b)
  && opt_eq Bool.eqb (general_special_style a) (general_special_style b)
  && opt_eq Bool.eqb (general_widescreen_storyboard a) (general_widescreen_storyboard b)
  && opt_eq Bool.eqb (general_samples_match_playback_rate a) (general_samples_match_playback_rate b)
  && opt_eq (list_eq Z.eqb) (general_editor_bookmarks a) (general_editor_bookmarks b)
  && opt_eq decimal_eq (general_editor_distance_spacing a) (general_editor_distance_spacing b).

(** ** [Editor], [Metadata], [Difficulty] *)
Definition editor_eq (a b : editor) : bool :=
  opt_eq (list_eq Z.eqb) (editor_bookmarks a) (editor_bookmarks b)
  && opt_eq decimal_eq (editor_distance_spacing a) (editor_distance_spacing b)
  && opt_eq decimal_eq (editor_beat_divisor a) (editor_beat_divisor b)
  && opt_eq Z.eqb (editor_grid_size a) (editor_grid_size b)
  && opt_eq decimal_eq (editor_timeline_zoom a) (editor_timeline_zoom b)
  && opt_eq Z.eqb (editor_current_time a) (editor_current_time b).
Definition metadata_eq (a b : metadata) : bool :=
  opt_eq str_eqb (metadata_title a) (metadata_title b)
  && opt_eq str_eqb (metadata_title_unicode a) (metadata_title_unicode b)
  && opt_eq str_eqb (metadata_artist a) (metadata_artist b)
  && opt_eq str_eqb (metadata_artist_unicode a) (metadata_artist_unicode b)
  && opt_eq str_eqb (metadata_creator a) (metadata_creator b)
  && opt_eq str_eqb (metadata_version a) (metadata_version b)
  && opt_eq str_eqb (metadata_source a) (metadata_source b)
  && opt_eq (list_eq str_eqb) (metadata_tags a) (metadata_tags b)
  && opt_eq Z.eqb (metadata_beatmap_id a) (metadata_beatmap_id b)
  && opt_eq Z.eqb (metadata_beatmap_set_id a) (metadata_beatmap_set_id b).
Definition difficulty_eq (a b : difficulty) : bool :=
  opt_eq decimal_eq (difficulty_hp_drain_rate a) (difficulty_hp_drain_rate b)
  && opt_eq decimal_eq (difficulty_circle_size a) (difficulty_circle_size b)
  && opt_eq decimal_eq (difficulty_overall_difficulty a) (difficulty_overall_difficulty b)
  && opt_eq decimal_eq (difficulty_approach_rate a) (difficulty_approach_rate b)
  && opt_eq decimal_eq (difficulty_slider_multiplier a) (difficulty_slider_multiplier b)
  && opt_eq decimal_eq (difficulty_slider_tickrate a) (difficulty_slider_tickrate b).

(** ** [Colour] (colours/mod.rs:76), [Rgb] (colours/types.rs:10) *)
Definition rgb_eq (a b : rgb) : bool :=
  Z.eqb (rgb_r a) (rgb_r b) && Z.eqb (rgb_g a) (rgb_g b) && Z.eqb (rgb_b a) (rgb_b b).
Definition colour_eq (a b : colour) : bool :=
  match a, b with
  | Combo n c, Combo m d => Z.eqb n m && rgb_eq c d
  | SliderTrackOverride c, SliderTrackOverride d => rgb_eq c d
  | SliderBorder c, SliderBorder d => rgb_eq c d
  | _, _ => false
  end.

(** ** [TimingPoint] (timingpoints/mod.rs:82) and its types (timingpoints/types.rs:7-204) *)
Definition tp_sample_set_eq (a b : tp_sample_set) : bool :=
  match a, b with
  | TsBeatmapDefault, TsBeatmapDefault | TsNormal, TsNormal | TsSoft, TsSoft | TsDrum, TsDrum => true
  | TsOther x, TsOther y => Z.eqb x y
  | _, _ => false
  end.
Definition sample_index_eq (a b : sample_index) : bool :=
  match a, b with SiDefault, SiDefault => true | SiIndex x, SiIndex y => Z.eqb x y | _, _ => false end.
Definition tp_eq (a b : timing_point) : bool :=
  decimal_eq (tp_time a) (tp_time b) && decimal_eq (tp_beat_length a) (tp_beat_length b)
  && Z.eqb (tp_meter a) (tp_meter b) && tp_sample_set_eq (tp_sample_set_f a) (tp_sample_set_f b)
  && sample_index_eq (tp_sample_index a) (tp_sample_index b) && Z.eqb (tp_volume a) (tp_volume b)
  && opt_eq Bool.eqb (tp_uninherited a) (tp_uninherited b) && opt_eq Z.eqb (tp_effects a) (tp_effects b).

(** ** [HitObject] (hitobjects/mod.rs:78-583) and its types (hitobjects/types.rs) *)
Definition sample_set_eq (a b : sample_set) : bool :=
  match a, b with
  | SsNone, SsNone | SsNormal, SsNormal | SsSoft, SsSoft | SsDrum, SsDrum => true
  | SsOther x, SsOther y => Z.eqb x y
  | _, _ => false
  end.
Definition edge_set_eq (a b : edge_set) : bool :=
  sample_set_eq (es_normal a) (es_normal b) && sample_set_eq (es_addition a) (es_addition b).
Definition hit_sound_eq (a b : hit_sound) : bool :=
  Bool.eqb (snd_normal a) (snd_normal b) && Bool.eqb (snd_whistle a) (snd_whistle b)
  && Bool.eqb (snd_finish a) (snd_finish b) && Bool.eqb (snd_clap a) (snd_clap b).
Scheme Boolean Equality for curve_type.
Definition ho_index_eq (a b : ho_index) : bool :=
  match a, b with HiTimingPoint, HiTimingPoint => true | HiIndex x, HiIndex y => Z.eqb x y | _, _ => false end.
Definition hit_sample_eq (a b : hit_sample) : bool :=
  sample_set_eq (hs_normal a) (hs_normal b) && sample_set_eq (hs_addition a) (hs_addition b)
  && ho_index_eq (hs_index a) (hs_index b) && opt_eq Z.eqb (hs_volume a) (hs_volume b)
  && str_eqb (hs_filename a) (hs_filename b).
Definition slide_eq (a b : slide_params) : bool :=
  curve_type_beq (sl_curve_type a) (sl_curve_type b) && list_eq pos_eq (sl_curve_points a) (sl_curve_points b)
  && Z.eqb (sl_slides a) (sl_slides b) && decimal_eq (sl_length a) (sl_length b)
  && list_eq hit_sound_eq (sl_edge_sounds a) (sl_edge_sounds b)
  && Bool.eqb (sl_edge_sounds_short_hand a) (sl_edge_sounds_short_hand b)
  && list_eq edge_set_eq (sl_edge_sets a) (sl_edge_sets b)
  && Bool.eqb (sl_edge_sets_shorthand a) (sl_edge_sets_shorthand b).
Definition ho_params_eq (a b : ho_params) : bool :=
  match a, b with
  | HitCircle, HitCircle => true
  | Slider p, Slider q => slide_eq p q
  | Spinner x, Spinner y => decimal_eq x y
  | OsuManiaHold x, OsuManiaHold y => decimal_eq x y
  | _, _ => false
  end.
Definition ho_eq (a b : hit_object) : bool :=
  pos_eq (ho_position a) (ho_position b) && decimal_eq (ho_time a) (ho_time b)
  && ho_params_eq (ho_obj_params a) (ho_obj_params b) && Bool.eqb (ho_new_combo a) (ho_new_combo b)
  && Z.eqb (ho_combo_skip_count a) (ho_combo_skip_count b) && hit_sound_eq (ho_hitsound a) (ho_hitsound b)
  && opt_eq hit_sample_eq (ho_hitsample a) (ho_hitsample b).

(** ** storyboard commands (events/storyboard/cmds/mod.rs:24-285, cmds/types.rs, types.rs) *)
Scheme Boolean Equality for sb_sample_set.
Scheme Boolean Equality for addition.
Definition trigger_type_eq (a b : trigger_type) : bool :=
  match a, b with
  | TtHitSound s x d c, TtHitSound s' x' d' c' =>
      opt_eq sb_sample_set_beq s s' && opt_eq sb_sample_set_beq x x' && opt_eq addition_beq d d' && opt_eq Z.eqb c c'
  | TtPassing, TtPassing | TtFailing, TtFailing => true
  | _, _ => false
  end.
Scheme Boolean Equality for positive.
Scheme Boolean Equality for Z.
Scheme Boolean Equality for easing.
Scheme Boolean Equality for parameter.
Definition pair_eq {A B} (ea : A -> A -> bool) (eb : B -> B -> bool) (a b : A * B) : bool :=
  ea (fst a) (fst b) && eb (snd a) (snd b).
Definition continuing_eq {T} (eq : T -> T -> bool) (a b : continuing T) : bool :=
  pair_eq eq eq (ct_start a) (ct_start b) && list_eq (pair_eq eq (opt_eq eq)) (ct_rest a) (ct_rest b).
Definition sb_colours_eq (a b : sb_colours) : bool :=
  pair_eq (pair_eq Z.eqb Z.eqb) Z.eqb (sbc_start a) (sbc_start b)
  && list_eq (pair_eq (pair_eq Z.eqb (opt_eq Z.eqb)) (opt_eq Z.eqb)) (sbc_rest a) (sbc_rest b).
Fixpoint command_eq (a b : command) {struct a} : bool :=
  match a, b with mk_cmd s p, mk_cmd t q => opt_eq Z.eqb s t && properties_eq p q end
with properties_eq (p q : cmd_properties) {struct p} : bool :=
  match p, q with
  | PFade e t s l, PFade e' t' s' l' | PMoveX e t s l, PMoveX e' t' s' l' | PMoveY e t s l, PMoveY e' t' s' l'
  | PScale e t s l, PScale e' t' s' l' | PRotate e t s l, PRotate e' t' s' l' =>
      easing_beq e e' && opt_eq Z.eqb t t' && decimal_eq s s' && list_eq decimal_eq l l'
  | PMove e t c, PMove e' t' c' | PVectorScale e t c, PVectorScale e' t' c' =>
      easing_beq e e' && opt_eq Z.eqb t t' && continuing_eq decimal_eq c c'
  | PColour e t c, PColour e' t' c' => easing_beq e e' && opt_eq Z.eqb t t' && sb_colours_eq c c'
  | PParameter e t x l, PParameter e' t' x' l' =>
      easing_beq e e' && opt_eq Z.eqb t t' && parameter_beq x x' && list_eq parameter_beq l l'
  | PLoop n l, PLoop n' l' => Z.eqb n n' && list_eq command_eq l l'
  | PTrigger x t g l, PTrigger x' t' g' l' =>
      trigger_type_eq x x' && opt_eq Z.eqb t t' && opt_eq Z.eqb g g' && list_eq command_eq l l'
  | _, _ => false
  end.

(** ** events (events/mod.rs:28-329, normal_event, audio_sample, storyboard/sprites.rs) *)
Scheme Boolean Equality for origin_type.
Scheme Boolean Equality for layer_legacy.
Scheme Boolean Equality for au_layer.
Scheme Boolean Equality for sb_layer.
Scheme Boolean Equality for loop_type.
Definition background_eq (a b : background) : bool :=
  Z.eqb (bg_start a) (bg_start b) && path_eq (bg_file a) (bg_file b) && opt_eq pos_eq (bg_pos a) (bg_pos b)
  && list_eq command_eq (bg_cmds a) (bg_cmds b).
Definition video_eq (a b : video) : bool :=
  Z.eqb (vi_start a) (vi_start b) && path_eq (vi_file a) (vi_file b) && opt_eq pos_eq (vi_pos a) (vi_pos b)
  && list_eq command_eq (vi_cmds a) (vi_cmds b) && Bool.eqb (vi_short a) (vi_short b).
Definition break_eq (a b : break_t) : bool :=
  Z.eqb (br_start a) (br_start b) && Z.eqb (br_end a) (br_end b) && Bool.eqb (br_short a) (br_short b).
Definition colour_tr_eq (a b : colour_tr) : bool :=
  Z.eqb (ctr_start a) (ctr_start b) && Z.eqb (ctr_r a) (ctr_r b) && Z.eqb (ctr_g a) (ctr_g b) && Z.eqb (ctr_b a) (ctr_b b).
Definition legacy_eq (a b : legacy) : bool :=
  layer_legacy_beq (lg_layer a) (lg_layer b) && origin_type_beq (lg_origin a) (lg_origin b)
  && path_eq (lg_file a) (lg_file b) && opt_eq pos_eq (lg_pos a) (lg_pos b) && list_eq command_eq (lg_cmds a) (lg_cmds b).
Definition sample_legacy_eq (a b : sample_legacy) : bool :=
  decimal_eq (sl_time a) (sl_time b) && layer_legacy_beq (sl_layer a) (sl_layer b) && path_eq (sl_file a) (sl_file b)
  && opt_eq Z.eqb (sl_volume a) (sl_volume b) && list_eq command_eq (sl_cmds a) (sl_cmds b).
Definition audio_sample_eq (a b : audio_sample) : bool :=
  Z.eqb (au_time a) (au_time b) && au_layer_beq (au_layer_f a) (au_layer_f b) && path_eq (au_file a) (au_file b)
  && Z.eqb (au_volume a) (au_volume b).
Definition origin_eq (a b : origin) : bool :=
  match or_type a, or_type b with
  | OLeft x, OLeft y => origin_type_beq x y
  | ORight x, ORight y => Z.eqb x y
  | _, _ => false
  end && Bool.eqb (or_short a) (or_short b).
Definition object_type_eq (a b : object_type) : bool :=
  match a, b with
  | ObSprite f, ObSprite g => path_eq f g
  | ObAnimation n d l f, ObAnimation n' d' l' f' => Z.eqb n n' && rdec_eq d d' && loop_type_beq l l' && path_eq f f'
  | _, _ => false
  end.
Definition object_eq (a b : object) : bool :=
  sb_layer_beq (ob_layer a) (ob_layer b) && origin_eq (ob_origin a) (ob_origin b) && pos_eq (ob_pos a) (ob_pos b)
  && object_type_eq (ob_type a) (ob_type b) && list_eq command_eq (ob_cmds a) (ob_cmds b).
Definition event_eq (a b : event) : bool :=
  match a, b with
  | EComment s, EComment t => str_eqb s t
  | EBackground x, EBackground y => background_eq x y
  | EVideo x, EVideo y => video_eq x y
  | EBreak x, EBreak y => break_eq x y
  | EColourTransformation x, EColourTransformation y => colour_tr_eq x y
  | ESpriteLegacy x, ESpriteLegacy y | EAnimationLegacy x, EAnimationLegacy y => legacy_eq x y
  | ESampleLegacy x, ESampleLegacy y => sample_legacy_eq x y
  | EObject x, EObject y => object_eq x y
  | EAudioSample x, EAudioSample y => audio_sample_eq x y
  | _, _ => false
  end.

(** ** [Variable] (osb/types.rs:11), [Osb] (osb/mod.rs:13), [OsuFile] (osu_file/mod.rs:39) *)
Definition variable_eq (a b : variable) : bool := str_eqb (var_name a) (var_name b) && str_eqb (var_value a) (var_value b).
Definition osb_eq (a b : osb) : bool :=
  opt_eq (list_eq variable_eq) (osb_variables a) (osb_variables b) && opt_eq (list_eq event_eq) (osb_events a) (osb_events b).
Definition osu_eq (a b : osu_file) : bool :=
  Z.eqb (osu_version a) (osu_version b)
  && opt_eq general_eq (osu_general a) (osu_general b) && opt_eq editor_eq (osu_editor a) (osu_editor b)
  && opt_eq osb_eq (osu_osb a) (osu_osb b) && opt_eq metadata_eq (osu_metadata a) (osu_metadata b)
  && opt_eq difficulty_eq (osu_difficulty a) (osu_difficulty b)
  && opt_eq (list_eq event_eq) (osu_events a) (osu_events b)
  && opt_eq (list_eq tp_eq) (osu_timing_points a) (osu_timing_points b)
  && opt_eq (list_eq colour_eq) (osu_colours a) (osu_colours b)
  && opt_eq (list_eq ho_eq) (osu_hitobjects a) (osu_hitobjects b).
