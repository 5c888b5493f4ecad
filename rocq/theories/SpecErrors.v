(** Which errors a text can give (C75). *)
From Coq Require Import String List NArith ZArith Bool.
From Verif Require Import Str Num Parsers General Editor Metadata Difficulty Colours TimingPoints HitObjects Storyboard
  NormalEvents Events Osb OsuFile.
Import ListNotations.
Local Open Scope N_scope.

(** Natural numbers have no smallest value to fall below: a sign is no digit. *)
Definition natural_gives (e : int_err) : bool := match e with INegOverflow => false | _ => true end.
Definition general_gives (e : general_err) : bool :=
  match e with
  | GenCountdown (CdInt i) | GenMode (GmInt i) => natural_gives i
  | _ => true
  end.
(** The first field is always there, every text is a time, and the volume and the flag are looked for only
    when there is a field. *)
Definition tp_gives (e : tp_err) : bool :=
  match e with TpInvalidTime | TpMissingUninherited => false | _ => true end.
(** Every text is a decimal, and lists that cannot be read are reported as the absence of what follows. *)
Definition ho_gives (e : ho_err) : bool :=
  match e with
  | HoMissingX | HoInvalidX | HoInvalidY | HoInvalidTime | HoInvalidLength | HoMissingCurvePoint | HoInvalidCurvePoint
  | HoMissingEdgeSound | HoInvalidEdgeSound | HoInvalidEdgeSet => false
  | _ => true
  end.
(** The kind of an event is known when its line is read; decimals again. *)
Definition bg_gives (e : bg_err) : bool :=
  match e with BgWrongEventType | BgMissingX | BgInvalidX | BgInvalidY => false | _ => true end.
Definition vid_gives (e : vid_err) : bool :=
  match e with ViWrongEventType | ViMissingX | ViInvalidX | ViInvalidY => false | _ => true end.
Definition brk_gives (e : brk_err) : bool := match e with BrWrongEventType => false | _ => true end.
Definition ct_gives (e : ct_err) : bool := match e with CtWrongEventType => false | _ => true end.
Definition leg_gives (e : leg_err) : bool :=
  match e with LgWrongEventType | LgMissingX | LgInvalidX | LgInvalidY => false | _ => true end.
Definition sl_gives (e : sl_err) : bool :=
  match e with SlWrongEventType | SlInvalidTime | SlMissingVolume => false | _ => true end.
Definition au_gives (e : au_err) : bool := match e with AuWrongEvent | AuMissingVolume => false | _ => true end.
(** a wrong loop type panics *)
Definition ob_gives (e : ob_err) : bool :=
  match e with
  | ObUnknownObjectType | ObInvalidPositionX | ObInvalidPositionY | ObMissingLoopType | ObInvalidLoopType => false
  | _ => true
  end.
Definition cmd_gives (e : cmd_err) : bool :=
  match e with
  | CmdInvalidMoveX | CmdInvalidMoveY | CmdInvalidContinuingMove | CmdInvalidScaleX | CmdInvalidScaleY
  | CmdInvalidContinuingScales | CmdInvalidStartOpacity | CmdInvalidContinuingOpacities | CmdInvalidStartScale
  | CmdInvalidContinuingScale | CmdInvalidStartRotation | CmdInvalidContinuingRotation => false
  | _ => true
  end.
(** The first number is not the deepest possible level (C44_indentation): it is 1, or two less than the level
    that has no command to hold the next one. *)
Definition push_gives (e : push_err) : bool :=
  let 'InvalidIndentation a b := e in (Nat.eqb a 1 && Nat.leb 2 b) || Nat.leb (a + 3) b.
Definition ev_gives (e : ev_err) : bool :=
  match e with
  | EvStoryboardCmdWithNoSprite | EvUnknownEventType => true
  | EvBackground e => bg_gives e | EvVideo e => vid_gives e | EvBreak e => brk_gives e
  | EvColourTransformation e => ct_gives e | EvSpriteLegacy e | EvAnimationLegacy e => leg_gives e
  | EvSampleLegacy e => sl_gives e | EvPush e => push_gives e | EvCommand e => cmd_gives e
  | EvObject e => ob_gives e | EvAudioSample e => au_gives e
  end.
Definition osu_gives (e : osu_err) : bool :=
  match e with
  | OsuGeneral e => general_gives e
  | OsuEvents e => ev_gives e
  | OsuTimingPoints e => tp_gives e
  | OsuHitObjects e => ho_gives e
  | _ => true
  end.
Definition osb_gives (e : osb_err) : bool := match e with OsbEvents e => ev_gives e | _ => true end.
