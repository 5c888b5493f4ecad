(** The texts of the errors: [Display] of the error types, as the [#[error(...)]] attributes
    give them ([transparent] shows the inner error). *)
From Coq Require Import String List NArith ZArith Bool.
From Verif Require Import Str Num Nom Dec Parsers General Editor Metadata Difficulty Colours TimingPoints HitObjects Storyboard NormalEvents Events Osb OsuFile Api.
Import ListNotations.
Local Open Scope N_scope.

(** [ParseIntError] of the standard library. *)
Definition int_message (e : int_err) : str :=
  match e with
  | IEmpty => lit "cannot parse integer from empty string"
  | IInvalidDigit => lit "invalid digit found in string"
  | IPosOverflow => lit "number too large to fit in target type"
  | INegOverflow => lit "number too small to fit in target type"
  end.
(** [ParseZeroOneBoolError] (helper/mod.rs:34-40). *)
Definition bool_message (e : bool_err) : str :=
  match e with
  | BoolInt e => int_message e
  | BoolInvalidValue => lit "Error parsing value as `true` or `false`, expected value of 0 or 1"
  end.
(** [ParseCountdownSpeedError], [ParseGameModeError] (general/error.rs:46-69). *)
Definition countdown_message (e : countdown_err) : str :=
  match e with
  | CdUnknown => lit "Unknown `CountdownSpeed` variant"
  | CdInt _ => lit "There was a problem parsing the `str` as an `Integer`"
  end.
Definition mode_message (e : game_mode_err) : str :=
  match e with
  | GmUnknown => lit "Unknown `GameMode` variant"
  | GmInt e => int_message e
  end.

(** [ParseError] (general/error.rs:10-42). *)
Definition general_message (e : general_err) : str :=
  match e with
  | GenInt e => int_message e
  | GenBool e => bool_message e
  | GenCountdown e => countdown_message e
  | GenMode e => mode_message e
  | GenSampleSet => lit "Unknown `SampleSet` variant"
  | GenOverlay => lit "Unknown `OverlayPosition` variant"
  | GenColonSet => lit "Invalid colon set, expected format of `key: value`"
  | GenKey => lit "The key doesn't exist in `General`"
  | GenDup => lit "Duplicate field were found in `General`"
  | GenCommaList => lit "Invalid comma list, expected format of `key: value, value, value, ...`"
  end.
(** [ParseError] (editor/error.rs:10-26). *)
Definition editor_message (e : editor_err) : str :=
  match e with
  | EdInt e => int_message e
  | EdColonSet => lit "Invalid colon set, expected format of `key: value`"
  | EdKey => lit "The key doesn't exist in `Editor`"
  | EdCommaList => lit "Invalid comma list, expected format of `key: value, value, value, ...`"
  | EdDup => lit "Duplicate field in `Editor`"
  end.
(** [ParseError] (metadata/error.rs:10-23). *)
Definition metadata_message (e : metadata_err) : str :=
  match e with
  | MdDup => lit "There is a duplicate field in the `Metadata` section"
  | MdColonSet => lit "Invalid colon set, expected format of `key: value`"
  | MdKey => lit "The key doesn't exist in `General`"
  end.
(** [ParseError] (difficulty/error.rs:8-18). *)
Definition difficulty_message (e : difficulty_err) : str :=
  match e with
  | DfColonSet => lit "Invalid colon set, expected format of `key: value`"
  | DfKey => lit "The key doesn't exist in `Difficulty`"
  | DfDup => lit "Duplicate field in `Difficulty`"
  end.
(** [ParseRgbError] (colours/error.rs:32-48). *)
Definition rgb_message (e : rgb_err) : str :=
  match e with
  | RgbInvalidRed => lit "Invalid red value"
  | RgbInvalidGreen => lit "Invalid green value"
  | RgbInvalidBlue => lit "Invalid blue value"
  | RgbMissingGreen => lit "Missing green value"
  | RgbMissingBlue => lit "Missing blue value"
  end.
(** [ParseColourError] (colours/error.rs:13-26). *)
Definition colour_message (e : colour_err) : str :=
  match e with
  | ColInvalidComboCount => lit "Invalid additive combo count"
  | ColInvalidColonSeparator => lit "Invalid colon separator"
  | ColRgb e => rgb_message e
  | ColUnknownType => lit "Unknown colour type"
  end.
(** [ParseTimingPointError] (timingpoints/error.rs:15-58). *)
Definition tp_message (e : tp_err) : str :=
  match e with
  | TpInvalidTime => lit "Invalid `time` value"
  | TpMissingBeatLength => lit "Missing `beat_length` field"
  | TpMissingMeter => lit "Missing `meter` field"
  | TpInvalidMeter => lit "Invalid `meter` value"
  | TpMissingSampleSet => lit "Missing `sample_set` field"
  | TpInvalidSampleSet => lit "Invalid `sample_set` value"
  | TpMissingSampleIndex => lit "Missing `sample_index` field"
  | TpInvalidSampleIndex => lit "Invalid `sample_index` value"
  | TpMissingVolume => lit "Missing `volume` field"
  | TpInvalidVolume => lit "Invalid `volume` value"
  | TpMissingEffects => lit "Missing `effects` field"
  | TpInvalidEffects => lit "Invalid `effects` value"
  | TpMissingUninherited => lit "Missing `uninherited` field"
  | TpInvalidUninherited => lit "Invalid `uninherited` value"
  end.
(** [ParseHitObjectError] (hitobjects/error.rs:37-119). *)
Definition ho_message (e : ho_err) : str :=
  match e with
  | HoInvalidHitSound => lit "Invalid `hit_sound` value"
  | HoMissingHitSound => lit "Missing `hit_sound` field"
  | HoMissingHitSample => lit "Missing `hit_sample` field"
  | HoInvalidHitSample => lit "Invalid `hit_sample` value"
  | HoInvalidX => lit "Invalid `x` value"
  | HoMissingX => lit "Missing `x` field"
  | HoInvalidY => lit "Invalid `y` value"
  | HoMissingY => lit "Missing `y` field"
  | HoMissingObjType => lit "Missing `obj_type` field"
  | HoInvalidObjType => lit "Invalid `obj_type` value"
  | HoMissingTime => lit "Missing `time` field"
  | HoInvalidTime => lit "Invalid `time` value"
  | HoInvalidCurveType => lit "Invalid `curve_type` value"
  | HoMissingCurveType => lit "Missing `curve_type` field"
  | HoInvalidCurvePoint => lit "Invalid `curve_point` value"
  | HoMissingCurvePoint => lit "Missing `curve_point` field"
  | HoInvalidEdgeSound => lit "Invalid `edge_sound` value"
  | HoMissingEdgeSound => lit "Missing `edge_sound` field"
  | HoInvalidEdgeSet => lit "Invalid `edge_set` value"
  | HoMissingEdgeSet => lit "Missing `edge_set` field"
  | HoInvalidSlidesCount => lit "Invalid `slides_count` value"
  | HoMissingSlidesCount => lit "Missing `slides_count` field"
  | HoInvalidLength => lit "Invalid `length` value"
  | HoMissingLength => lit "Missing `length` field"
  | HoInvalidEndTime => lit "Invalid `end_time` value"
  | HoMissingEndTime => lit "Missing `end_time` field"
  | HoUnknownObjType => lit "Unknown object type"
  end.
(** [ParseBackgroundError] (events/normal_event/error.rs:10-27). *)
Definition bg_message (e : bg_err) : str :=
  match e with
  | BgWrongEventType => lit "Wrong event type"
  | BgMissingStartTime => lit "Missing `start_time` field"
  | BgInvalidStartTime => lit "Invalid `start_time` value"
  | BgMissingFileName => lit "Missing `file_name` field"
  | BgMissingX => lit "Missing `x` field"
  | BgInvalidX => lit "Invalid `x` value"
  | BgMissingY => lit "Missing `y` field"
  | BgInvalidY => lit "Invalid `y` value"
  end.
(** [ParseVideoError] (events/normal_event/error.rs:33-50). *)
Definition vid_message (e : vid_err) : str :=
  match e with
  | ViWrongEventType => lit "Wrong event type"
  | ViMissingStartTime => lit "Missing `start_time` field"
  | ViInvalidStartTime => lit "Invalid `start_time` value"
  | ViMissingFileName => lit "Missing `file_name` field"
  | ViMissingX => lit "Missing `x` field"
  | ViInvalidX => lit "Invalid `x` value"
  | ViMissingY => lit "Missing `y` field"
  | ViInvalidY => lit "Invalid `y` value"
  end.
(** [ParseBreakError] (events/normal_event/error.rs:56-67). *)
Definition brk_message (e : brk_err) : str :=
  match e with
  | BrWrongEventType => lit "Wrong event type"
  | BrMissingStartTime => lit "Missing `start_time` field"
  | BrInvalidStartTime => lit "Invalid `start_time` value"
  | BrMissingEndTime => lit "Missing `end_time` field"
  | BrInvalidEndTime => lit "Invalid `end_time` value"
  end.
(** [ParseColourTransformationError] (events/normal_event/error.rs:73-96). *)
Definition ct_message (e : ct_err) : str :=
  match e with
  | CtWrongEventType => lit "Wrong event type"
  | CtMissingStartTime => lit "Missing `start_time` field"
  | CtInvalidStartTime => lit "Invalid `start_time` value"
  | CtMissingRed => lit "Missing `red` field"
  | CtInvalidRed => lit "Invalid `red` value"
  | CtMissingGreen => lit "Missing `green` field"
  | CtInvalidGreen => lit "Invalid `green` value"
  | CtMissingBlue => lit "Missing `blue` field"
  | CtInvalidBlue => lit "Invalid `blue` value"
  end.
(** [ParseSpriteLegacyError] (events/normal_event/error.rs:102-123). and [ParseAnimationLegacyError], which has the
    same texts (129-152). *)
Definition leg_message (e : leg_err) : str :=
  match e with
  | LgWrongEventType => lit "Wrong event type"
  | LgMissingLayer => lit "Missing `layer` field"
  | LgInvalidLayer => lit "Invalid `layer` value"
  | LgMissingOrigin => lit "Missing `origin` field"
  | LgInvalidOrigin => lit "Invalid `origin` value"
  | LgMissingFileName => lit "Missing `file_name` field"
  | LgMissingX => lit "Missing `x` field"
  | LgInvalidX => lit "Invalid `x` value"
  | LgMissingY => lit "Missing `y` field"
  | LgInvalidY => lit "Invalid `y` value"
  end.
(** [ParseSampleLegacyError] (events/normal_event/error.rs:156-173). *)
Definition sl_message (e : sl_err) : str :=
  match e with
  | SlMissingTime => lit "Missing `time` field"
  | SlInvalidTime => lit "Invalid `time` value"
  | SlWrongEventType => lit "Wrong event type"
  | SlMissingFileName => lit "Missing `file_name` field"
  | SlMissingVolume => lit "Missing `volume` field"
  | SlInvalidVolume => lit "Invalid `volume` value"
  | SlMissingLayer => lit "Missing `layer` field"
  | SlInvalidLayer => lit "Invalid `layer` value"
  end.
(** [ParseAudioSampleError] (events/audio_sample/error.rs:10-27). *)
Definition au_message (e : au_err) : str :=
  match e with
  | AuMissingTime => lit "Missing `time` field"
  | AuInvalidTime => lit "Invalid `time` value"
  | AuMissingLayer => lit "Missing `layer` field"
  | AuInvalidLayer => lit "Invalid `layer` value"
  | AuMissingVolume => lit "Missing `volume` field"
  | AuInvalidVolume => lit "Invalid `volume` value"
  | AuWrongEvent => lit "Wrong event type"
  | AuMissingFilepath => lit "Missing `filepath` field"
  end.
(** [ParseObjectError] (events/storyboard/error.rs:17-50). *)
Definition ob_message (e : ob_err) : str :=
  match e with
  | ObUnknownObjectType => lit "Unknown object type"
  | ObMissingLayer => lit "Missing layer field"
  | ObInvalidLayer => lit "Invalid layer value"
  | ObMissingOrigin => lit "Missing origin field"
  | ObInvalidOrigin => lit "Invalid origin value"
  | ObMissingFilePath => lit "Missing file path field"
  | ObMissingPositionX => lit "Missing position x field"
  | ObInvalidPositionX => lit "Invalid position x value"
  | ObMissingPositionY => lit "Missing position y field"
  | ObInvalidPositionY => lit "Invalid position y value"
  | ObMissingFrameCount => lit "Missing frame count field"
  | ObInvalidFrameCount => lit "Invalid frame count value"
  | ObMissingFrameDelay => lit "Missing frame delay field"
  | ObInvalidFrameDelay => lit "Invalid frame delay value"
  | ObMissingLoopType => lit "Missing loop type field"
  | ObInvalidLoopType => lit "Invalid loop type value"
  end.
(** [ParseCommandError] (events/storyboard/error.rs:69-193). *)
Definition cmd_message (e : cmd_err) : str :=
  match e with
  | CmdUnknownCommandType => lit "Unknown command type"
  | CmdMissingStartTime => lit "Missing `start_time` field"
  | CmdInvalidStartTime => lit "Invalid `start_time` value"
  | CmdMissingLoopCount => lit "Missing `loop_count` field"
  | CmdInvalidLoopCount => lit "Invalid `loop_count` value"
  | CmdMissingTriggerType => lit "Missing `trigger_type` field"
  | CmdInvalidTriggerType => lit "Invalid `trigger_type` value"
  | CmdInvalidGroupNumber => lit "Invalid `group_number` value"
  | CmdMissingEndTime => lit "Missing `end_time` field"
  | CmdInvalidEndTime => lit "Invalid `end_time` value"
  | CmdMissingEasing => lit "Missing `easing` field"
  | CmdInvalidEasing => lit "Invalid `easing` value"
  | CmdMissingRed => lit "Missing `red` field"
  | CmdMissingGreen => lit "Missing `green` field"
  | CmdMissingBlue => lit "Missing `blue` field"
  | CmdInvalidRed => lit "Invalid `red` value"
  | CmdInvalidGreen => lit "Invalid `green` value"
  | CmdInvalidBlue => lit "Invalid `blue` value"
  | CmdInvalidContinuingColours => lit "Invalid continuing colour value"
  | CmdMissingParameterType => lit "Missing `parameter_type` field"
  | CmdInvalidParameterType => lit "Invalid `parameter_type` value"
  | CmdInvalidContinuingParameters => lit "Invalid continuing parameter value"
  | CmdMissingMoveX => lit "Missing `move_x` field"
  | CmdInvalidMoveX => lit "Invalid `move_x` value"
  | CmdMissingMoveY => lit "Missing `move_y` field"
  | CmdInvalidMoveY => lit "Invalid `move_y` value"
  | CmdInvalidContinuingMove => lit "Invalid continuing move value"
  | CmdMissingScaleX => lit "Missing `scale_x` field"
  | CmdInvalidScaleX => lit "Invalid `scale_x` value"
  | CmdMissingScaleY => lit "Missing `scale_y` field"
  | CmdInvalidScaleY => lit "Invalid `scale_y` value"
  | CmdInvalidContinuingScales => lit "Invalid continuing scale value"
  | CmdMissingStartOpacity => lit "Missing `start_opacity` field"
  | CmdInvalidStartOpacity => lit "Invalid `start_opacity` value"
  | CmdInvalidContinuingOpacities => lit "Invalid continuing opacity value"
  | CmdMissingStartScale => lit "Missing `start_scale` field"
  | CmdInvalidStartScale => lit "Invalid `start_scale` value"
  | CmdInvalidContinuingScale => lit "Invalid continuing scale value"
  | CmdMissingStartRotation => lit "Missing `start_rotation` field"
  | CmdInvalidStartRotation => lit "Invalid `start_rotation` value"
  | CmdInvalidContinuingRotation => lit "Invalid continuing rotation value"
  end.
(** [CommandPushError] (storyboard/error.rs:10-13); the numbers are printed as [usize]. *)
Definition push_message (e : push_err) : str :=
  match e with
  | InvalidIndentation a b =>
      lit "Invalid indentation, expected " ++ print_Z (Z.of_nat a) ++ lit ", got " ++ print_Z (Z.of_nat b)
  end.
(** [events::ParseError] (events/error.rs:8-47). *)
Definition ev_message (e : ev_err) : str :=
  match e with
  | EvStoryboardCmdWithNoSprite => lit "A storyboard command was used without defined sprite or animation sprite"
  | EvBackground e => bg_message e
  | EvVideo e => vid_message e
  | EvBreak e => brk_message e
  | EvColourTransformation e => ct_message e
  | EvSpriteLegacy e | EvAnimationLegacy e => leg_message e
  | EvSampleLegacy e => sl_message e
  | EvPush e => push_message e
  | EvCommand e => cmd_message e
  | EvObject e => ob_message e
  | EvAudioSample e => au_message e
  | EvUnknownEventType => lit "Unknown event type"
  end.
(** [ParseVariableError], [osb::ParseError] (osb/error.rs:6-37). *)
Definition var_message (e : var_err) : str :=
  match e with
  | VarMissingHeader => lit "Missing the header `$`"
  | VarMissingEquals => lit "Missing `=` for assignment"
  end.
Definition osb_message (e : osb_err) : str :=
  match e with
  | OsbUnexpectedLine => lit "Unexpected line before any section"
  | OsbDuplicateSections => lit "There are multiple sections defined as the same name"
  | OsbUnknownSection => lit "There is an unknown section"
  | OsbVariable e => var_message e
  | OsbEvents e => ev_message e
  end.
(** [ParseError] (osu_file/mod.rs:322-397); the two constants are in the text. *)
Definition osu_message (e : osu_err) : str :=
  match e with
  | OsuInvalidFileVersion =>
      lit "Invalid file version, expected versions from " ++ print_Z min_version ++ lit " ~ " ++ print_Z latest_version
  | OsuFileVersionDefinedWrong => lit "File version defined wrong, expected `osu file format v..` at the start"
  | OsuUnexpectedLine => lit "Unexpected line before any section"
  | OsuDuplicateSections => lit "There are multiple sections defined as the same name"
  | OsuUnknownSection => lit "There is an unknown section"
  | OsuGeneral e => general_message e
  | OsuEditor e => editor_message e
  | OsuMetadata e => metadata_message e
  | OsuDifficulty e => difficulty_message e
  | OsuEvents e => ev_message e
  | OsuTimingPoints e => tp_message e
  | OsuColours e => colour_message e
  | OsuHitObjects e => ho_message e
  end.
(** What the user sees: [format!("{err}")] and [err.display_error_with_line(text)]. *)
Definition osu_error_text (e : line_err osu_err) : str := error_to_string osu_message e.
Definition osu_error_with_line (e : line_err osu_err) (s : str) : str := display_error_with_line osu_message e s.
Definition osb_error_text (e : line_err osb_err) : str := error_to_string osb_message e.
Definition osb_error_with_line (e : line_err osb_err) (s : str) : str := display_error_with_line osb_message e s.
