(** How the lines of [Events] are read, field by field. *)
From Coq Require Import String List NArith ZArith Bool.
From Verif Require Import Str Num Dec Parsers Unicode Storyboard NormalEvents Events SpecWf SpecText SpecLine.
Import ListNotations.
Local Open Scope N_scope.

(** ** events *)
(** one of a table of numbered names *)
Definition rd_nth {A} (l : list A) (s : str) : res A unit :=
  match parse_usize s with
  | ROk z => if (z <? Z.of_nat (length l))%Z
             then match nth_error l (Z.to_nat z) with Some a => ROk a | None => RErr tt end
             else RErr tt
  | _ => RErr tt
  end.
Definition rd_layer : str -> res layer_legacy unit :=
  rd_nth [LlBackground; LlFail; LlPass; LlForeground; LlOverlay; LlVideo].
Definition all_origins : list origin_type :=
  [OtTopLeft; OtCentre; OtCentreLeft; OtTopRight; OtBottomCentre; OtTopCentre; OtCustom; OtCentreRight;
   OtBottomLeft; OtBottomRight].
Definition rd_origin : str -> res origin_type unit := rd_nth all_origins.
Definition rd_au_layer : str -> res au_layer unit := rd_nth [AlBackground; AlFail; AlPass; AlForeground].
Definition rd_au_volume (s : str) : res Z unit :=
  match parse_u8 s with ROk z => if (z <=? 100)%Z then ROk z else RErr tt | _ => RErr tt end.
(** one of a table of names *)
Fixpoint rd_name {A} (l : list (string * A)) (s : str) : res A unit :=
  match l with
  | [] => RErr tt
  | (n, a) :: l' => if str_eqb s (lit n) then ROk a else rd_name l' s
  end.
Definition rd_sb_layer : str -> res sb_layer unit :=
  rd_name [("Background", LyBackground); ("Fail", LyFail); ("Pass", LyPass); ("Foreground", LyForeground);
           ("Overlay", LyOverlay)]%string.
Definition rd_loop_type : str -> res loop_type unit :=
  rd_name [("LoopForever", LoopForever); ("LoopOnce", LoopOnce)]%string.
Definition rd_sb_origin (s : str) : res origin unit :=
  match rd_name [("TopLeft", OtTopLeft); ("Centre", OtCentre); ("CentreLeft", OtCentreLeft); ("TopRight", OtTopRight);
                 ("BottomCentre", OtBottomCentre); ("TopCentre", OtTopCentre); ("Custom", OtCustom);
                 ("CentreRight", OtCentreRight); ("BottomLeft", OtBottomLeft); ("BottomRight", OtBottomRight)]%string s with
  | ROk t => ROk (mk_origin (OLeft t) false)
  | _ => match parse_i32 s with
         | ROk z => ROk (mk_origin (if ((0 <=? z) && (z <? 10))%Z
                                    then match nth_error all_origins (Z.to_nat z) with
                                         | Some t => OLeft t
                                         | None => ORight z
                                         end
                                    else ORight z) true)
         | _ => RErr tt
         end
  end.
Definition rd_rdec (s : str) : res rdec unit := match parse_rdec s with Some d => ROk d | None => RErr tt end.

(** a file name, then nothing or both coordinates, the second being the rest of the line *)
Definition file_pos {B E} (mf mx my : E) (fs : list str) (k : file_path -> option position_t -> res B E) : res B E :=
  next mf mf rd_text fs (fun f fs =>
  match fs with
  | [] => k f None
  | _ => next mx mx rd_dec fs (fun x fs =>
         last_field my my rd_dec fs (fun y => k f (Some (mk_pos x y))))
  end).
Definition bg_line (fs : list str) : res background bg_err :=
  next BgMissingStartTime BgInvalidStartTime parse_i32 fs (fun t fs =>
  file_pos BgMissingFileName BgMissingX BgMissingY fs (fun f p => ROk (mk_bg t f p []))).
Section Shifted.
  Variable dbg : bool.
  Variable v : version.
  Definition vid_line (short : bool) (fs : list str) : res video vid_err :=
    next ViMissingStartTime ViInvalidStartTime parse_i32 fs (fun t fs =>
    andthen (time_in dbg v t) (fun t =>
    file_pos ViMissingFileName ViMissingX ViMissingY fs (fun f p => ROk (mk_vid t f p [] short)))).
  Definition brk_line (short : bool) (fs : list str) : res break_t brk_err :=
    next BrMissingStartTime BrInvalidStartTime parse_i32 fs (fun t fs =>
    andthen (time_in dbg v t) (fun t =>
    last_field BrMissingEndTime BrInvalidEndTime parse_i32 fs (fun e =>
    andthen (time_in dbg v e) (fun e => ROk (mk_brk t e short))))).
  Definition ctr_line (fs : list str) : res colour_tr ct_err :=
    next CtMissingStartTime CtInvalidStartTime parse_i32 fs (fun t fs =>
    andthen (time_in dbg v t) (fun t =>
    next CtMissingRed CtInvalidRed parse_u8 fs (fun r fs =>
    next CtMissingGreen CtInvalidGreen parse_u8 fs (fun g fs =>
    last_field CtMissingBlue CtInvalidBlue parse_u8 fs (fun b => ROk (mk_ct t r g b)))))).
End Shifted.
Definition leg_line (fs : list str) : res legacy leg_err :=
  next LgMissingLayer LgInvalidLayer rd_layer fs (fun l fs =>
  next LgMissingOrigin LgInvalidOrigin rd_origin fs (fun o fs =>
  file_pos LgMissingFileName LgMissingX LgMissingY fs (fun f p => ROk (mk_leg l o f p [])))).
Definition sl_line (fs : list str) : res sample_legacy sl_err :=
  next SlMissingTime SlInvalidTime rd_dec fs (fun t fs =>
  next SlMissingLayer SlInvalidLayer rd_layer fs (fun l fs =>
  next SlMissingFileName SlMissingFileName rd_text fs (fun f fs =>
  match fs with
  | [] => ROk (mk_sl t l f None [])
  | _ => last_field SlMissingVolume SlInvalidVolume rd_au_volume fs (fun vol => ROk (mk_sl t l f (Some vol) []))
  end))).
(** fields behind the volume are ignored *)
Definition au_line (fs : list str) : res audio_sample au_err :=
  next AuMissingTime AuInvalidTime parse_i32 fs (fun t fs =>
  next AuMissingLayer AuInvalidLayer rd_au_layer fs (fun l fs =>
  next AuMissingFilepath AuMissingFilepath rd_text fs (fun f fs =>
  match fs with
  | [] => ROk (mk_au t l f 100)
  | _ => next AuMissingVolume AuInvalidVolume rd_au_volume fs (fun vol _ => ROk (mk_au t l f vol))
  end))).
(** fields behind those of a sprite are ignored *)
Definition ob_fields {B} (fs : list str)
  (k : sb_layer -> origin -> file_path -> position_t -> list str -> res B ob_err) : res B ob_err :=
  next ObMissingLayer ObInvalidLayer rd_sb_layer fs (fun l fs =>
  next ObMissingOrigin ObInvalidOrigin rd_sb_origin fs (fun o fs =>
  next ObMissingFilePath ObMissingFilePath rd_text fs (fun f fs =>
  next ObMissingPositionX ObInvalidPositionX rd_dec fs (fun x fs =>
  next ObMissingPositionY ObInvalidPositionY rd_dec fs (fun y fs => k l o f (mk_pos x y) fs))))).
Definition sprite_line (fs : list str) : res object ob_err :=
  ob_fields fs (fun l o f p _ => ROk (mk_obj l o p (ObSprite f) [])).
(** a wrong loop type panics *)
Definition animation_line (fs : list str) : res object ob_err :=
  ob_fields fs (fun l o f p fs =>
  next ObMissingFrameCount ObInvalidFrameCount parse_u32 fs (fun n fs =>
  next ObMissingFrameDelay ObInvalidFrameDelay rd_rdec fs (fun d fs =>
  let obj lt := ROk (mk_obj l o p (ObAnimation n d lt f) []) in
  match fs with
  | [] => obj LoopForever
  | _ => match rd_loop_type (commas fs) with
         | ROk lt => obj lt
         | _ => RPanic PUnreachable
         end
  end))).

(** The event of a line with the fields [h :: fs]: [h] is its name.  A name that only begins like a
    numbered one panics; one that only begins like a storyboard event's counts as having no fields. *)
Definition ev_line (dbg : bool) (v : version) (h : str) (fs : list str) : res event ev_err :=
  let on name (exact other : res event ev_err) :=
    match strip_prefix (lit name) h with
    | Some [] => exact
    | Some _ => RPanic PUnwrap
    | None => other
    end in
  let from {A E} name (rd : list str -> res A E) (mk : A -> event) (err : E -> ev_err) (other : res event ev_err) :=
    match strip_prefix (lit name) h with
    | Some r => rmap_err err (rmap mk (rd (if is_empty r then fs else [])))
    | None => other
    end in
  on "0"%string (rmap_err EvBackground (rmap EBackground (bg_line fs)))
 (on "1"%string (rmap_err EvVideo (rmap EVideo (vid_line dbg v true fs)))
 (on "Video"%string (rmap_err EvVideo (rmap EVideo (vid_line dbg v false fs)))
 (on "2"%string (rmap_err EvBreak (rmap EBreak (brk_line dbg v true fs)))
 (on "Break"%string (rmap_err EvBreak (rmap EBreak (brk_line dbg v false fs)))
 (on "3"%string (rmap_err EvColourTransformation (rmap EColourTransformation (ctr_line dbg v fs)))
 (on "4"%string (rmap_err EvSpriteLegacy (rmap ESpriteLegacy (leg_line fs)))
 (on "5"%string (rmap_err EvAnimationLegacy (rmap EAnimationLegacy (leg_line fs)))
 (on "6"%string (rmap_err EvSampleLegacy (rmap ESampleLegacy (sl_line fs)))
 (from "Sprite"%string sprite_line EObject EvObject
 (from "Animation"%string animation_line EObject EvObject
 (from "Sample"%string au_line EAudioSample EvAudioSample
 (RErr EvUnknownEventType)))))))))))).

(** ** commands *)
Definition all_easings : list easing :=
  [EzLinear; EzEasingOut; EzEasingIn; EzQuadIn; EzQuadOut; EzQuadInOut; EzCubicIn; EzCubicOut; EzCubicInOut;
   EzQuartIn; EzQuartOut; EzQuartInOut; EzQuintIn; EzQuintOut; EzQuintInOut; EzSineIn; EzSineOut; EzSineInOut;
   EzExpoIn; EzExpoOut; EzExpoInOut; EzCircIn; EzCircOut; EzCircInOut; EzElasticIn; EzElasticOut;
   EzElasticHalfOut; EzElasticQuarterOut; EzElasticInOut; EzBackIn; EzBackOut; EzBackInOut; EzBounceIn;
   EzBounceOut; EzBounceInOut].
(** numbers outside the table are kept *)
Definition rd_easing (s : str) : res easing int_err :=
  rmap (fun z => match (if (0 <=? z)%Z && (z <? 35)%Z then nth_error all_easings (Z.to_nat z) else None) with
                 | Some e => e
                 | None => EzOther z
                 end) (parse_i32 s).
(** Easing, start and end time; both times may be left out together, the end time also alone. *)
Definition times {B} (fs : list str) (k : easing -> option Z -> option Z -> list str -> res B cmd_err) : res B cmd_err :=
  next CmdMissingEasing CmdInvalidEasing rd_easing fs (fun e fs =>
  match fs with
  | [] :: [] :: f :: fs => k e None None (f :: fs)
  | _ => next CmdMissingStartTime CmdInvalidStartTime parse_i32 fs (fun st fs =>
         match fs with
         | [] => RErr CmdMissingEndTime
         | f :: fs => if is_blank f then k e (Some st) None fs
                      else next CmdMissingEndTime CmdInvalidEndTime parse_i32 (f :: fs) (fun et fs =>
                           k e (Some st) (Some et) fs)
         end)
  end).
Fixpoint in_twos (fs : list str) : list (decimal * option decimal) :=
  match fs with
  | [] => []
  | [x] => [(decimal_of_str x, None)]
  | x :: y :: fs => (decimal_of_str x, Some (decimal_of_str y)) :: in_twos fs
  end.
Definition one_line (missing : cmd_err) (fs : list str)
  (mk : easing -> option Z -> decimal -> list decimal -> cmd_properties) : res command cmd_err :=
  times fs (fun e st et fs =>
  next missing missing rd_dec fs (fun x fs => ROk (mk_cmd st (mk e et x (map decimal_of_str fs))))).
Definition two_line (m1 m2 : cmd_err) (fs : list str)
  (mk : easing -> option Z -> continuing decimal -> cmd_properties) : res command cmd_err :=
  times fs (fun e st et fs =>
  next m1 m1 rd_dec fs (fun x fs =>
  next m2 m2 rd_dec fs (fun y fs => ROk (mk_cmd st (mk e et (mk_cont (x, y) (in_twos fs))))))).
(** colours in threes; the last may lack its blue or its green and blue *)
Fixpoint in_threes (fs : list str) : option (list u8x3) :=
  match fs with
  | [] => Some []
  | [r] => match parse_u8 r with ROk r => Some [(r, None, None)] | _ => None end
  | [r; g] => match parse_u8 r, parse_u8 g with
              | ROk r, ROk g => Some [(r, Some g, None)]
              | _, _ => None
              end
  | r :: g :: b :: fs => match parse_u8 r, parse_u8 g, parse_u8 b, in_threes fs with
                         | ROk r, ROk g, ROk b, Some l => Some ((r, Some g, Some b) :: l)
                         | _, _, _, _ => None
                         end
  end.
Definition colour_line (fs : list str) : res command cmd_err :=
  times fs (fun e st et fs =>
  next CmdMissingRed CmdInvalidRed parse_u8 fs (fun r fs =>
  next CmdMissingGreen CmdInvalidGreen parse_u8 fs (fun g fs =>
  next CmdMissingBlue CmdInvalidBlue parse_u8 fs (fun b fs =>
  match in_threes fs with
  | Some l => ROk (mk_cmd st (PColour e et (mk_sbc (r, g, b) l)))
  | None => RErr CmdInvalidContinuingColours
  end)))).
Definition rd_parameter : str -> res parameter unit :=
  rd_name [("H", PaFlipH); ("V", PaFlipV); ("A", PaAdditive)]%string.
Definition parameter_line (fs : list str) : res command cmd_err :=
  times fs (fun e st et fs =>
  next CmdMissingParameterType CmdInvalidParameterType rd_parameter fs (fun p fs =>
  match all_items rd_parameter fs with
  | Some l => ROk (mk_cmd st (PParameter e et p l))
  | None => RErr CmdInvalidContinuingParameters
  end)).
Definition loop_line (fs : list str) : res command cmd_err :=
  let count st fs := last_field CmdMissingLoopCount CmdInvalidLoopCount parse_u32 fs (fun n =>
                     ROk (mk_cmd st (PLoop n []))) in
  match fs with
  | [] :: f :: fs => count None (f :: fs)
  | _ => next CmdMissingStartTime CmdInvalidStartTime parse_i32 fs (fun st fs => count (Some st) fs)
  end.

(** The name of a trigger in pieces: a new one begins at every upper case letter and digit. *)
Definition hump (c : char) : bool := is_uppercase c || is_numeric c.
Fixpoint humps (s : str) : list str :=
  match s with
  | [] => []
  | c :: s' => match humps s' with
               | (d :: x) :: xs => if hump d then [c] :: (d :: x) :: xs else (c :: d :: x) :: xs
               | _ => [[c]]
               end
  end.
Definition take_opt {A X} (rd : str -> res A X) (fs : list str) : option A * list str :=
  match fs with
  | f :: fs' => match rd f with ROk a => (Some a, fs') | _ => (None, fs) end
  | [] => (None, [])
  end.
Definition rd_sb_set : str -> res sb_sample_set unit :=
  rd_name [("All", SbAll); ("Normal", SbNormal); ("Soft", SbSoft); ("Drum", SbDrum)]%string.
Definition rd_addition : str -> res addition unit :=
  rd_name [("Whistle", AdWhistle); ("Finish", AdFinish); ("Clap", AdClap)]%string.
(** set, set of the additions, addition and number, each optional; anything behind a number panics *)
Definition hit_sound_trigger (fs : list str) : res trigger_type trigger_err :=
  if (4 <? Z.of_nat (length fs))%Z then RErr TtTooManyHitSoundFields
  else let (s, fs) := take_opt rd_sb_set fs in
       let (a, fs) := take_opt rd_sb_set fs in
       let (d, fs) := take_opt rd_addition fs in
       let (n, fs) := take_opt parse_usize fs in
       match fs, n with
       | [], _ => ROk (TtHitSound s a d n)
       | _, Some _ => RPanic PUnreachable
       | _, None => RErr TtUnknownHitSoundType
       end.
Definition rd_trigger (s : str) : res trigger_type trigger_err :=
  let s := trim s in
  if str_eqb s (lit "Passing") then ROk TtPassing
  else if str_eqb s (lit "Failing") then ROk TtFailing
  else match strip_prefix (lit "HitSound") s with
       | Some t => hit_sound_trigger (humps t)
       | None => RErr TtUnknownTriggerType
       end.
(** End time and group: nothing, [,end], [,,group] or [,end,group]. *)
Definition trigger_end {B} (fs : list str) (k : option Z -> option Z -> res B cmd_err) : res B cmd_err :=
  match fs with
  | [] | [[]] => k None None
  | [e] => next CmdInvalidEndTime CmdInvalidEndTime parse_i32 [e] (fun e _ => k (Some e) None)
  | [] :: fs => last_field CmdInvalidGroupNumber CmdInvalidGroupNumber parse_i32 fs (fun g => k None (Some g))
  | e :: fs => next CmdInvalidEndTime CmdInvalidEndTime parse_i32 (e :: fs) (fun e fs =>
               last_field CmdInvalidGroupNumber CmdInvalidGroupNumber parse_i32 fs (fun g => k (Some e) (Some g)))
  end.
Definition trigger_line (fs : list str) : res command cmd_err :=
  next CmdMissingTriggerType CmdInvalidTriggerType rd_trigger fs (fun t fs =>
  let rest st fs := trigger_end fs (fun e g => ROk (mk_cmd st (PTrigger t e g []))) in
  match fs with
  | [] => rest None []
  | [] :: f :: fs => rest None (f :: fs)
  | _ => next CmdMissingStartTime CmdInvalidStartTime parse_i32 fs (fun st fs => rest (Some st) fs)
  end).

(** The command of a line with the fields [h :: fs], [h] without the indentation. *)
Definition cmd_fields (h : str) (fs : list str) : res command cmd_err :=
  let on name (rd : list str -> res command cmd_err) (other : res command cmd_err) :=
    match strip_prefix (lit name) h with
    | Some r => rd (if is_empty r then fs else [])
    | None => other
    end in
  on "R"%string (fun fs => one_line CmdMissingStartRotation fs PRotate)
 (on "S"%string (fun fs => one_line CmdMissingStartScale fs PScale)
 (on "V"%string (fun fs => two_line CmdMissingScaleX CmdMissingScaleY fs PVectorScale)
 (on "F"%string (fun fs => one_line CmdMissingStartOpacity fs PFade)
 (on "P"%string parameter_line
 (on "C"%string colour_line
 (on "MX"%string (fun fs => one_line CmdMissingMoveX fs PMoveX)
 (on "MY"%string (fun fs => one_line CmdMissingMoveY fs PMoveY)
 (on "T"%string trigger_line
 (on "L"%string loop_line
 (match fs with
  | _ :: _ => if str_eqb h (lit "M") then two_line CmdMissingMoveX CmdMissingMoveY fs PMove
              else RErr CmdUnknownCommandType
  | [] => RErr CmdUnknownCommandType
  end)))))))))).
Definition rd_command (s : str) : res command cmd_err :=
  match pieces 44 (snd (span (fun c => (c =? 32) || (c =? 95)) s)) with
  | h :: fs => cmd_fields h fs
  | [] => RErr CmdUnknownCommandType
  end.
