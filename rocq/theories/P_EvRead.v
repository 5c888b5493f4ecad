(** C47 to C49: lines of events, of commands and of colours are read field by field; the
    sections made of lines are read line by line. *)
From Coq Require Import String List NArith ZArith Bool.
From Verif Require Import Str Num Dec Parsers Colours TimingPoints HitObjects Storyboard NormalEvents Events SpecWf SpecText
  SpecLine SpecEvents SpecEvLine SpecEvSection SpecColLine HoRead EvRead CmdRead ColRead EvSection.
Import ListNotations.
Local Open Scope N_scope.

Definition num (n : N) : decimal := DNum (mkDec false n 0).

(** The line [s] of an event is read as [ev_line] says, in every version. *)
Theorem C47_event_line : forall dbg v s h fs, fields_of s (h :: fs) ->
  ev_from_line dbg v s = rmap Some (ev_line dbg v h fs).
Proof. exact ev_line_reads. Qed.
Print Assumptions C47_event_line.
Example C47_event_line_example :
  let s := lit "Animation,Fail,Centre,a.png,320,240.5,3,50,LoopOnce" in
  fields_of s (lit "Animation" :: pieces 44 (lit "Fail,Centre,a.png,320,240.5,3,50,LoopOnce"))
  /\ ev_from_line true 14%Z s
     = ROk (Some (EObject (mk_obj LyFail (mk_origin (OLeft OtCentre) false) (mk_pos (num 320) (DNum (mkDec false 2405 1)))
         (ObAnimation 3 (mkDec false 50 0) LoopOnce (lit "a.png")) [])))
  /\ ev_from_line true 14%Z (lit "2,100,200") = ROk (Some (EBreak (mk_brk 100 200 true)))
  /\ ev_from_line true 4%Z (lit "Break,100,200") = ROk (Some (EBreak (mk_brk 124 224 false)))
  /\ ev_from_line true 14%Z (lit "2,100") = RErr (EvBreak BrMissingEndTime)
  /\ ev_from_line true 14%Z (lit "2,100,x") = RErr (EvBreak BrInvalidEndTime)
  /\ ev_from_line true 14%Z (lit "0,0,a.jpg,1") = RErr (EvBackground BgMissingY)
  /\ ev_from_line true 14%Z (lit "Sprite,Pass,12,a.png,1,2,3,4")
     = ROk (Some (EObject (mk_obj LyPass (mk_origin (ORight 12) true) (mk_pos (num 1) (num 2)) (ObSprite (lit "a.png")) [])))
  /\ ev_from_line true 14%Z (lit "Spritex,Pass") = RErr (EvObject ObMissingLayer)
  /\ ev_from_line true 14%Z (lit "Breaks,1,2") = RPanic PUnwrap
  /\ ev_from_line true 14%Z (lit "Animation,Fail,Centre,a.png,320,240.5,3,50,Loop") = RPanic PUnreachable
  /\ ev_from_line true 14%Z (lit "Sample,1,0,a.wav,101") = RErr (EvAudioSample AuInvalidVolume)
  /\ ev_from_line true 14%Z (lit "sprite,Pass") = RErr EvUnknownEventType.
Proof. cbv zeta. split; [now apply fields_pieces|]. repeat split; vm_compute; reflexivity. Qed.

(** The whole section: every line in turn, blank ones apart, is put behind the events above it as
    [ev_next] says; the first line that fails is the one reported.  There are no variables here ([[]]). *)
Theorem C47_section : forall dbg s v r,
  events_from_str dbg s v = rmap Some r <-> ev_section dbg v [] 0 [] (lines s) r.
Proof. exact events_section. Qed.
Print Assumptions C47_section.
Example C47_section_example :
  let text l := join [10] (map lit l) in
  events_from_str true (text ["//x"; "0,0,a.jpg"; ""; " L,0,2"; "_ F,1,0,9,0.5"; " S,0,5,,1"; "2,1,2"]%string) 14%Z
  = ROk (Some [EComment (lit "x");
      EBackground (mk_bg 0 (lit "a.jpg") None
        [mk_cmd (Some 0%Z) (PLoop 2 [mk_cmd (Some 0%Z) (PFade EzEasingOut (Some 9%Z) (DNum (mkDec false 5 1)) [])]);
         mk_cmd (Some 5%Z) (PScale EzLinear None (num 1) [])]);
      EBreak (mk_brk 1 2 true)])
  /\ events_from_str true (text ["0,0,a.jpg"; " S,0,5,,1"; "  S,0,5,,1"]%string) 14%Z
     = RErr (mk_line_err 2 (EvPush (InvalidIndentation 1 2)))
  /\ events_from_str true (text ["0,0,a.jpg"; ""; "   S,0,5,,1"]%string) 14%Z
     = RErr (mk_line_err 2 (EvPush (InvalidIndentation 1 3)))
  /\ events_from_str true (text ["0,0,a.jpg"; " L,0,2"; "   S,0,5,,1"]%string) 14%Z
     = RErr (mk_line_err 2 (EvPush (InvalidIndentation 0 3)))
  /\ events_from_str true (text ["2,1,2"; " S,0,5,,1"]%string) 14%Z = RErr (mk_line_err 1 EvStoryboardCmdWithNoSprite)
  /\ events_from_str true (text ["0,0,a.jpg"; " Q,0,5,,1"]%string) 14%Z
     = RErr (mk_line_err 1 (EvCommand CmdUnknownCommandType)).
Proof. repeat split; vm_compute; reflexivity. Qed.

(** The line [s] of a command is read as [rd_command] says. *)
Theorem C48_command_line : forall s, cmd_from_str s = rmap Some (rd_command s).
Proof. exact cmd_reads. Qed.
Print Assumptions C48_command_line.
Example C48_command_line_example :
  cmd_from_str (lit "  C,3,10,,1,2,3,4,5")
    = ROk (Some (mk_cmd (Some 10%Z) (PColour EzQuadIn None (mk_sbc (1, 2, 3)%Z [(4%Z, Some 5%Z, None)]))))
  /\ cmd_from_str (lit "M,40,,,1,2,3") = ROk (Some (mk_cmd None (PMove (EzOther 40) None (mk_cont (num 1, num 2) [(num 3, None)]))))
  /\ cmd_from_str (lit "M") = RErr CmdUnknownCommandType
  /\ cmd_from_str (lit "MX,0,1,2") = RErr CmdMissingMoveX
  /\ cmd_from_str (lit "MX,0,1") = RErr CmdMissingEndTime
  /\ cmd_from_str (lit "F,0,,5,1") = RErr CmdInvalidStartTime
  /\ cmd_from_str (lit "P,0,1,2,H,V,X") = RErr CmdInvalidContinuingParameters
  /\ cmd_from_str (lit "L,5") = RErr CmdMissingLoopCount
  /\ cmd_from_str (lit "L,5,-1") = RErr CmdInvalidLoopCount
  /\ cmd_from_str (lit "T,HitSoundSoftWhistle3,1,2,4")
     = ROk (Some (mk_cmd (Some 1%Z) (PTrigger (TtHitSound (Some SbSoft) None (Some AdWhistle) (Some 3%Z)) (Some 2%Z) (Some 4%Z) []))).
Proof. repeat split; vm_compute; reflexivity. Qed.

(** The name of a trigger is read as [rd_trigger] says. *)
Theorem C48_trigger : forall s, trigger_type_from_str s = rmap Some (rd_trigger s).
Proof. exact trigger_reads. Qed.
Print Assumptions C48_trigger.
Example C48_trigger_example :
  trigger_type_from_str (lit " HitSoundDrumAllClap7 ")
    = ROk (Some (TtHitSound (Some SbDrum) (Some SbAll) (Some AdClap) (Some 7%Z)))
  /\ trigger_type_from_str (lit "HitSoundClapDrum") = RErr TtUnknownHitSoundType
  /\ trigger_type_from_str (lit "HitSoundAllAllClap12") = RErr TtTooManyHitSoundFields
  /\ trigger_type_from_str (lit "HitSound12") = RPanic PUnreachable
  /\ trigger_type_from_str (lit "Failed") = RErr TtUnknownTriggerType.
Proof. repeat split; vm_compute; reflexivity. Qed.

(** A colour is read component by component, from any text. *)
Theorem C49_rgb : forall s v, rgb_from_str s v = rmap Some (rgb_line (pieces 44 s)).
Proof. exact rgb_reads. Qed.
Print Assumptions C49_rgb.
Theorem C49_rgb_accepts : forall s v x, rgb_from_str s v = ROk (Some x) <-> rgb_text s x.
Proof. exact rgb_from_accepts. Qed.
Print Assumptions C49_rgb_accepts.
Example C49_rgb_example :
  rgb_from_str (lit " 1 ,2,  +255") 14%Z = ROk (Some (mk_rgb 1 2 255))
  /\ rgb_text (lit " 1 ,2,  +255") (mk_rgb 1 2 255)
  /\ rgb_from_str (lit "+1,2,3") 14%Z = RErr RgbInvalidRed
  /\ rgb_from_str (lit "1 x,2,3") 14%Z = RErr RgbMissingGreen
  /\ rgb_from_str (lit "1,2") 14%Z = RErr RgbMissingBlue
  /\ rgb_from_str (lit "1,2,3,4") 14%Z = RErr RgbInvalidBlue
  /\ rgb_from_str (lit "1,2,3 ") 14%Z = RErr RgbInvalidBlue.
Proof. split; [reflexivity|]. split; [now apply (C49_rgb_accepts _ 14%Z)|]. repeat split. Qed.

(** The line of a colour is read as [col_line] says; the accepted lines are the ones of [colour_text]. *)
Theorem C49_line : forall v s, colour_from_str v s = rmap Some (col_line s).
Proof. exact col_reads. Qed.
Print Assumptions C49_line.
Theorem C49_accepts : forall v s c, colour_from_str v s = ROk (Some c) <-> colour_text (trim s) c.
Proof. exact colour_accepts. Qed.
Print Assumptions C49_accepts.
Example C49_line_example :
  colour_from_str 14%Z (lit "  Combo12  :  1 , 2 ,  3  ") = ROk (Some (Combo 12 (mk_rgb 1 2 3)))
  /\ colour_text (trim (lit "  Combo12  :  1 , 2 ,  3  ")) (Combo 12 (mk_rgb 1 2 3))
  /\ colour_from_str 14%Z (lit "Sliderborder:0,0,0") = ROk (Some (SliderBorder (mk_rgb 0 0 0)))
  /\ colour_from_str 14%Z (lit "SliderBorders:0,0,0") = RErr ColInvalidColonSeparator
  /\ colour_from_str 14%Z (lit "Combo-1:0,0,0") = RErr ColInvalidComboCount
  /\ colour_from_str 14%Z (lit "Combo1:0,0") = RErr (ColRgb RgbMissingBlue)
  /\ colour_from_str 14%Z (lit "combo1:0,0,0") = RErr ColUnknownType.
Proof. split; [reflexivity|]. split; [now apply (C49_accepts 14%Z)|]. repeat split. Qed.

(** The other sections made of lines: every line that is not blank in turn; the first one that fails
    is reported with its number. *)
Theorem C49_section : forall s v r, old_version v = false ->
  (colours_from_str s v = rmap Some r <-> list_section col_line 0 (lines s) r).
Proof. exact colours_section. Qed.
Print Assumptions C49_section.
Theorem C45_section : forall s v r,
  timing_points_from_str s v = rmap Some r <-> list_section (fun l => tp_line v (pieces 44 l)) 0 (lines s) r.
Proof. exact timing_points_section. Qed.
Print Assumptions C45_section.
Theorem C46_section : forall s v r,
  hit_objects_from_str s v = rmap Some r <-> list_section (fun l => ho_line v (pieces 44 l)) 0 (lines s) r.
Proof. exact hit_objects_section. Qed.
Print Assumptions C46_section.
Example C49_section_example :
  let text l := join [10] (map lit l) in
  colours_from_str (text ["Combo1:1,2,3"; " "; "SliderBorder : 4,5,6"]%string) 14%Z
    = ROk (Some [Combo 1 (mk_rgb 1 2 3); SliderBorder (mk_rgb 4 5 6)])
  /\ colours_from_str (text ["Combo1:1,2,3"; " "; "SliderBorder : 4,5,"; "x"]%string) 14%Z
     = RErr (mk_line_err 2 (ColRgb RgbInvalidBlue))
  /\ timing_points_from_str (text ["0,1,4,1,0,50,1,0"; ""; "0,1,4,1,0"]%string) 14%Z = RErr (mk_line_err 2 TpMissingVolume)
  /\ hit_objects_from_str (text [""; "1,2,3,1"]%string) 14%Z = RErr (mk_line_err 1 HoMissingHitSound).
Proof. repeat split; vm_compute; reflexivity. Qed.
