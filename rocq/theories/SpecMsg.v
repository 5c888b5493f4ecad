(** What an error should say: the specification side of C44. *)
From Coq Require Import String List NArith ZArith Bool.
From Verif Require Import Str Num Parsers General Colours TimingPoints HitObjects Storyboard NormalEvents Events.
Import ListNotations.
Local Open Scope N_scope.

(** [distinct show]: a reader of the text can tell which error it was. *)
Definition distinct {E} (show : E -> str) : Prop := forall a b, show a = show b -> a = b.
(** the number that could not be read, for the errors of [General] that pass it on unchanged *)
Definition passed_on (e : general_err) : option int_err :=
  match e with
  | GenInt i | GenBool (BoolInt i) | GenMode (GmInt i) => Some i
  | _ => None
  end.
Definition countdown_number (e : general_err) : bool :=
  match e with GenCountdown (CdInt _) => true | _ => false end.
(** the text for a key that the named section does not have *)
Definition no_such_key (name : str) : str := lit "The key doesn't exist in `" ++ name ++ lit "`".

(** ** the fields (C44) *)
(** what is wrong with a line: a field is not there, a field has no value that it could have, the
    values after the first ones do not fit, or the line is of another kind *)
Inductive fault := Missing (field : string) | Invalid (field : string) | Continuing (what : string) | Kind.
(** [says q e t f]: the text [t] says that [f] is wrong, with the name of the field between two
    [q]; a field that is not there is called [e] *)
Definition says (q e : string) (t : str) (f : fault) : Prop :=
  match f with
  | Missing x => t = lit "Missing " ++ lit q ++ lit x ++ lit q ++ lit " " ++ lit e
  | Invalid x => t = lit "Invalid " ++ lit q ++ lit x ++ lit q ++ lit " value"
  | Continuing x => t = lit "Invalid continuing " ++ lit x ++ lit " value"
  | Kind => t = lit "Wrong event type" \/ t = lit "Unknown object type" \/ t = lit "Unknown command type"
  end.
Definition tp_fault (e : tp_err) : fault :=
  match e with
  | TpInvalidTime => Invalid "time" | TpMissingBeatLength => Missing "beat_length"
  | TpMissingMeter => Missing "meter" | TpInvalidMeter => Invalid "meter"
  | TpMissingSampleSet => Missing "sample_set" | TpInvalidSampleSet => Invalid "sample_set"
  | TpMissingSampleIndex => Missing "sample_index" | TpInvalidSampleIndex => Invalid "sample_index"
  | TpMissingVolume => Missing "volume" | TpInvalidVolume => Invalid "volume"
  | TpMissingEffects => Missing "effects" | TpInvalidEffects => Invalid "effects"
  | TpMissingUninherited => Missing "uninherited" | TpInvalidUninherited => Invalid "uninherited"
  end%string.
Definition ho_fault (e : ho_err) : fault :=
  match e with
  | HoInvalidHitSound => Invalid "hit_sound" | HoMissingHitSound => Missing "hit_sound"
  | HoMissingHitSample => Missing "hit_sample" | HoInvalidHitSample => Invalid "hit_sample"
  | HoInvalidX => Invalid "x" | HoMissingX => Missing "x" | HoInvalidY => Invalid "y"
  | HoMissingY => Missing "y" | HoMissingObjType => Missing "obj_type"
  | HoInvalidObjType => Invalid "obj_type" | HoMissingTime => Missing "time" | HoInvalidTime => Invalid "time"
  | HoInvalidCurveType => Invalid "curve_type" | HoMissingCurveType => Missing "curve_type"
  | HoInvalidCurvePoint => Invalid "curve_point" | HoMissingCurvePoint => Missing "curve_point"
  | HoInvalidEdgeSound => Invalid "edge_sound" | HoMissingEdgeSound => Missing "edge_sound"
  | HoInvalidEdgeSet => Invalid "edge_set" | HoMissingEdgeSet => Missing "edge_set"
  | HoInvalidSlidesCount => Invalid "slides_count" | HoMissingSlidesCount => Missing "slides_count"
  | HoInvalidLength => Invalid "length" | HoMissingLength => Missing "length"
  | HoInvalidEndTime => Invalid "end_time" | HoMissingEndTime => Missing "end_time" | HoUnknownObjType => Kind
  end%string.
Definition bg_fault (e : bg_err) : fault :=
  match e with
  | BgWrongEventType => Kind | BgMissingStartTime => Missing "start_time"
  | BgInvalidStartTime => Invalid "start_time" | BgMissingFileName => Missing "file_name"
  | BgMissingX => Missing "x" | BgInvalidX => Invalid "x" | BgMissingY => Missing "y"
  | BgInvalidY => Invalid "y"
  end%string.
Definition vid_fault (e : vid_err) : fault :=
  match e with
  | ViWrongEventType => Kind | ViMissingStartTime => Missing "start_time"
  | ViInvalidStartTime => Invalid "start_time" | ViMissingFileName => Missing "file_name"
  | ViMissingX => Missing "x" | ViInvalidX => Invalid "x" | ViMissingY => Missing "y"
  | ViInvalidY => Invalid "y"
  end%string.
Definition brk_fault (e : brk_err) : fault :=
  match e with
  | BrWrongEventType => Kind | BrMissingStartTime => Missing "start_time"
  | BrInvalidStartTime => Invalid "start_time" | BrMissingEndTime => Missing "end_time"
  | BrInvalidEndTime => Invalid "end_time"
  end%string.
Definition ct_fault (e : ct_err) : fault :=
  match e with
  | CtWrongEventType => Kind | CtMissingStartTime => Missing "start_time"
  | CtInvalidStartTime => Invalid "start_time" | CtMissingRed => Missing "red" | CtInvalidRed => Invalid "red"
  | CtMissingGreen => Missing "green" | CtInvalidGreen => Invalid "green" | CtMissingBlue => Missing "blue"
  | CtInvalidBlue => Invalid "blue"
  end%string.
Definition leg_fault (e : leg_err) : fault :=
  match e with
  | LgWrongEventType => Kind | LgMissingLayer => Missing "layer" | LgInvalidLayer => Invalid "layer"
  | LgMissingOrigin => Missing "origin" | LgInvalidOrigin => Invalid "origin"
  | LgMissingFileName => Missing "file_name" | LgMissingX => Missing "x" | LgInvalidX => Invalid "x"
  | LgMissingY => Missing "y" | LgInvalidY => Invalid "y"
  end%string.
Definition sl_fault (e : sl_err) : fault :=
  match e with
  | SlMissingTime => Missing "time" | SlInvalidTime => Invalid "time" | SlWrongEventType => Kind
  | SlMissingFileName => Missing "file_name" | SlMissingVolume => Missing "volume"
  | SlInvalidVolume => Invalid "volume" | SlMissingLayer => Missing "layer"
  | SlInvalidLayer => Invalid "layer"
  end%string.
Definition au_fault (e : au_err) : fault :=
  match e with
  | AuMissingTime => Missing "time" | AuInvalidTime => Invalid "time" | AuMissingLayer => Missing "layer"
  | AuInvalidLayer => Invalid "layer" | AuMissingVolume => Missing "volume"
  | AuInvalidVolume => Invalid "volume" | AuWrongEvent => Kind | AuMissingFilepath => Missing "filepath"
  end%string.
Definition ob_fault (e : ob_err) : fault :=
  match e with
  | ObUnknownObjectType => Kind | ObMissingLayer => Missing "layer" | ObInvalidLayer => Invalid "layer"
  | ObMissingOrigin => Missing "origin" | ObInvalidOrigin => Invalid "origin"
  | ObMissingFilePath => Missing "file path" | ObMissingPositionX => Missing "position x"
  | ObInvalidPositionX => Invalid "position x" | ObMissingPositionY => Missing "position y"
  | ObInvalidPositionY => Invalid "position y" | ObMissingFrameCount => Missing "frame count"
  | ObInvalidFrameCount => Invalid "frame count" | ObMissingFrameDelay => Missing "frame delay"
  | ObInvalidFrameDelay => Invalid "frame delay" | ObMissingLoopType => Missing "loop type"
  | ObInvalidLoopType => Invalid "loop type"
  end%string.
Definition cmd_fault (e : cmd_err) : fault :=
  match e with
  | CmdUnknownCommandType => Kind | CmdMissingStartTime => Missing "start_time"
  | CmdInvalidStartTime => Invalid "start_time" | CmdMissingLoopCount => Missing "loop_count"
  | CmdInvalidLoopCount => Invalid "loop_count" | CmdMissingTriggerType => Missing "trigger_type"
  | CmdInvalidTriggerType => Invalid "trigger_type" | CmdInvalidGroupNumber => Invalid "group_number"
  | CmdMissingEndTime => Missing "end_time" | CmdInvalidEndTime => Invalid "end_time"
  | CmdMissingEasing => Missing "easing" | CmdInvalidEasing => Invalid "easing"
  | CmdMissingRed => Missing "red" | CmdMissingGreen => Missing "green" | CmdMissingBlue => Missing "blue"
  | CmdInvalidRed => Invalid "red" | CmdInvalidGreen => Invalid "green" | CmdInvalidBlue => Invalid "blue"
  | CmdInvalidContinuingColours => Continuing "colour" | CmdMissingParameterType => Missing "parameter_type"
  | CmdInvalidParameterType => Invalid "parameter_type"
  | CmdInvalidContinuingParameters => Continuing "parameter" | CmdMissingMoveX => Missing "move_x"
  | CmdInvalidMoveX => Invalid "move_x" | CmdMissingMoveY => Missing "move_y"
  | CmdInvalidMoveY => Invalid "move_y" | CmdInvalidContinuingMove => Continuing "move"
  | CmdMissingScaleX => Missing "scale_x" | CmdInvalidScaleX => Invalid "scale_x"
  | CmdMissingScaleY => Missing "scale_y" | CmdInvalidScaleY => Invalid "scale_y"
  | CmdInvalidContinuingScales => Continuing "scale" | CmdMissingStartOpacity => Missing "start_opacity"
  | CmdInvalidStartOpacity => Invalid "start_opacity" | CmdInvalidContinuingOpacities => Continuing "opacity"
  | CmdMissingStartScale => Missing "start_scale" | CmdInvalidStartScale => Invalid "start_scale"
  | CmdInvalidContinuingScale => Continuing "scale" | CmdMissingStartRotation => Missing "start_rotation"
  | CmdInvalidStartRotation => Invalid "start_rotation"
  | CmdInvalidContinuingRotation => Continuing "rotation"
  end%string.
Definition rgb_fault (e : rgb_err) : fault :=
  match e with
  | RgbInvalidRed => Invalid "red" | RgbInvalidGreen => Invalid "green" | RgbInvalidBlue => Invalid "blue"
  | RgbMissingGreen => Missing "green" | RgbMissingBlue => Missing "blue"
  end%string.

(** ** the words (C44) *)
Fixpoint begins (p s : str) : bool :=
  match p, s with [], _ => true | x :: p', y :: s' => (x =? y) && begins p' s' | _, [] => false end.
Fixpoint mentions (w s : str) : bool := begins w s || match s with [] => false | _ :: s' => mentions w s' end.
Definition words (l : list string) (s : str) : Prop := forallb (fun w => mentions (lit w) s) l = true.
