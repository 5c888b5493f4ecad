(** Property theorems C44: what an error says. *)
From Coq Require Import String List NArith ZArith Bool.
From Verif Require Import Str Num Nom Dec Parsers General Editor Metadata Difficulty Colours
  TimingPoints HitObjects Storyboard NormalEvents Events Osb OsuFile Api Messages Spec SpecText
  SpecFile SpecMsg SpecOsb FileLoop FileTheorems FileSamples MessageFacts OsbFacts MsgFields.
Import ListNotations.
Local Open Scope N_scope.

(** When no earlier section ends in a blank line, the error shows the line that is at fault,
    with its number counted from one. *)
Theorem C44_shows_line : forall dbg s n v pre before x rest tail f0 d e l,
  file_layout s (repeat 10 n) v pre (before ++ x :: rest) tail -> ended tail = true ->
  all_read dbg v before (osu_new v) f0 -> complaint dbg v before x d e ->
  forallb (fun y => negb (blank_end y)) before = true ->
  nth_error (sec_all x) (Z.to_nat d) = Some l -> (0 <= d)%Z ->
  exists err, osu_from_str dbg s = RErr err
    /\ nth_error (lines s) (n + true_line pre before + Z.to_nat d) = Some l
    /\ osu_error_text err
       = lit "Line " ++ print_Z (Z.of_nat (n + true_line pre before) + d + 1) ++ lit ", " ++ osu_message e
    /\ osu_error_with_line err s
       = lit "Line " ++ print_Z (Z.of_nat (n + true_line pre before) + d + 1) ++ lit ": " ++ l
         ++ lit ", " ++ osu_message e.
Proof. exact shows_line. Qed.
Print Assumptions C44_shows_line.
Example C44_shows_line_ex :
  let s := file_text pre1 [s_bad_timing; s_metadata] [] in
  forallb (fun y => negb (blank_end y)) [] = true
  /\ nth_error (sec_all s_bad_timing) 2 = Some (lit "200,x")
  /\ match osu_from_str true s with
     | RErr err => osu_error_with_line err s = lit "Line 6: 200,x, Missing `meter` field"
     | _ => False
     end.
Proof. vm_compute. repeat split. Qed.
(** With a blank line at the end of an earlier section, another line is shown. *)
Theorem C44_shows_line_refuted : exists s err,
  osu_from_str true s = RErr err /\ le_err err = OsuTimingPoints TpMissingMeter
  /\ osu_error_with_line err s = lit "Line 9: 100,300,4,1,0,50,1,0, Missing `meter` field".
Proof.
  exists (file_text pre1 [s_general; s_bad_timing] []), (mk_line_err 8%Z (OsuTimingPoints TpMissingMeter)).
  vm_compute. repeat split.
Qed.
Print Assumptions C44_shows_line_refuted.

(** The text gives the line number and the message. *)
Theorem C44_text : forall a b, osu_error_text a = osu_error_text b ->
  le_line a = le_line b /\ osu_message (le_err a) = osu_message (le_err b).
Proof. exact text_tell. Qed.
Print Assumptions C44_text.
Example C44_text_ex :
  osu_error_text (mk_line_err 0 OsuInvalidFileVersion)
  = lit "Line 1, Invalid file version, expected versions from 3 ~ 14".
Proof. reflexivity. Qed.

(** Within a kind of line, the message tells which field was wrong, and how. *)
Theorem C44_distinct :
  distinct tp_message /\ distinct ho_message /\ distinct colour_message
  /\ distinct editor_message /\ distinct metadata_message /\ distinct difficulty_message
  /\ distinct bg_message /\ distinct vid_message /\ distinct brk_message /\ distinct ct_message
  /\ distinct leg_message /\ distinct sl_message /\ distinct au_message /\ distinct ob_message
  /\ distinct push_message.
Proof.
  exact (conj tp_tell (conj ho_tell (conj col_tell (conj ed_tell (conj md_tell (conj df_tell
    (conj bg_tell (conj vid_tell (conj brk_tell (conj ct_tell (conj leg_tell (conj sl_tell
    (conj au_tell (conj ob_tell push_tell)))))))))))))).
Qed.
Print Assumptions C44_distinct.
Example C44_distinct_ex :
  tp_message TpMissingMeter = lit "Missing `meter` field"
  /\ tp_message TpInvalidMeter = lit "Invalid `meter` value"
  /\ push_message (InvalidIndentation 2 10) = lit "Invalid indentation, expected 2, got 10".
Proof. repeat split. Qed.
(** In [General] a number that could not be read is shown without the name of its field. *)
Theorem C44_general : forall a b, general_message a = general_message b ->
  a = b \/ (exists i, passed_on a = Some i /\ passed_on b = Some i)
  \/ (countdown_number a = true /\ countdown_number b = true).
Proof. exact general_tell. Qed.
Print Assumptions C44_general.
Example C44_general_ex :
  general_message (GenInt IInvalidDigit) = general_message (GenMode (GmInt IInvalidDigit))
  /\ general_message (GenInt IInvalidDigit) <> general_message (GenInt IEmpty).
Proof. split; [reflexivity|discriminate]. Qed.
(** Storyboard commands: all but two. *)
Theorem C44_commands : forall a b, cmd_message a = cmd_message b ->
  a = b \/ (a = CmdInvalidContinuingScale /\ b = CmdInvalidContinuingScales)
  \/ (a = CmdInvalidContinuingScales /\ b = CmdInvalidContinuingScale).
Proof. exact cmd_tell. Qed.
Print Assumptions C44_commands.
Theorem C44_commands_refuted : exists a b, a <> b /\ cmd_message a = cmd_message b.
Proof. exists CmdInvalidContinuingScale, CmdInvalidContinuingScales. now split. Qed.
Print Assumptions C44_commands_refuted.

(** A command line that is indented too far is told its own indentation and one that would do, or 0. *)
Theorem C44_indentation : forall cs c n err, (1 <= n)%nat -> try_push_cmd cs c n = RErr err ->
  exists e, push_message err = lit "Invalid indentation, expected " ++ print_Z (Z.of_nat e) ++ lit ", got " ++ print_Z (Z.of_nat n)
  /\ (e = 0%nat \/ exists cs', try_push_cmd cs c e = ROk cs').
Proof. exact indentation_says. Qed.
Print Assumptions C44_indentation.
(** The 0 is wrong: nothing can be put there, and 2 would do. *)
Theorem C44_indentation_refuted : exists cs c err, try_push_cmd cs c 3 = RErr err
  /\ push_message err = lit "Invalid indentation, expected 0, got 3"
  /\ try_push_cmd cs c 0 = RPanic PUnreachable /\ exists cs', try_push_cmd cs c 2 = ROk cs'.
Proof.
  exists [mk_cmd None (PLoop 1 [])], (mk_cmd None (PLoop 2 [])), (InvalidIndentation 0 3).
  repeat split; try (vm_compute; reflexivity). eexists. vm_compute. reflexivity.
Qed.
Print Assumptions C44_indentation_refuted.
Example C44_indentation_ex : let l k := mk_cmd None (PLoop 1 k) in
  try_push_cmd [l [l [l []]]] (l []) 5 = RErr (InvalidIndentation 2 5)
  /\ (exists cs', try_push_cmd [l [l [l []]]] (l []) 2 = ROk cs')
  /\ push_message (InvalidIndentation 2 5) = lit "Invalid indentation, expected 2, got 5".
Proof. cbv zeta. split; [vm_compute; reflexivity|]. split; [eexists; vm_compute; reflexivity|vm_compute; reflexivity]. Qed.

(** The message for an unknown key names the section — except in [Metadata]. *)
Theorem C44_unknown_key :
  general_message GenKey = no_such_key (lit "General")
  /\ editor_message EdKey = no_such_key (lit "Editor")
  /\ difficulty_message DfKey = no_such_key (lit "Difficulty").
Proof. repeat split. Qed.
Print Assumptions C44_unknown_key.
Theorem C44_unknown_key_refuted : exists s err,
  osu_from_str true s = RErr err /\ le_err err = OsuMetadata MdKey
  /\ osu_error_with_line err s
     = lit "Line 3: Foo:bar, " ++ no_such_key (lit "General")
  /\ no_such_key (lit "General") <> no_such_key (lit "Metadata").
Proof.
  exists (version_prefix ++ lit "14" ++ [10] ++ lit "[Metadata]" ++ [10] ++ lit "Foo:bar"),
    (mk_line_err 2 (OsuMetadata MdKey)).
  vm_compute. repeat split. discriminate.
Qed.
Print Assumptions C44_unknown_key_refuted.

(** A message names the field that is missing or that cannot be read. *)
Theorem C44_fields :
  (forall e, says "`" "field" (tp_message e) (tp_fault e)) /\ (forall e, says "`" "field" (ho_message e) (ho_fault e))
  /\ (forall e, says "`" "field" (bg_message e) (bg_fault e)) /\ (forall e, says "`" "field" (vid_message e) (vid_fault e))
  /\ (forall e, says "`" "field" (brk_message e) (brk_fault e)) /\ (forall e, says "`" "field" (ct_message e) (ct_fault e))
  /\ (forall e, says "`" "field" (leg_message e) (leg_fault e)) /\ (forall e, says "`" "field" (sl_message e) (sl_fault e))
  /\ (forall e, says "`" "field" (au_message e) (au_fault e)) /\ (forall e, says "" "field" (ob_message e) (ob_fault e))
  /\ (forall e, says "`" "field" (cmd_message e) (cmd_fault e)) /\ (forall e, says "" "value" (rgb_message e) (rgb_fault e)).
Proof.
  exact (conj tp_says (conj ho_says (conj bg_says (conj vid_says (conj brk_says (conj ct_says (conj leg_says (conj sl_says
    (conj au_says (conj ob_says (conj cmd_says rgb_says))))))))))).
Qed.
Print Assumptions C44_fields.
Example C44_fields_ex :
  tp_fault TpMissingMeter = Missing "meter" /\ tp_message TpMissingMeter = lit "Missing `meter` field"
  /\ ob_message ObInvalidPositionX = lit "Invalid position x value".
Proof. repeat split. Qed.
(** The other messages have the words that tell what is wrong. *)
Theorem C44_words :
  (words ["empty"]%string (int_message IEmpty) /\ words ["invalid digit"]%string (int_message IInvalidDigit)
   /\ words ["too large"]%string (int_message IPosOverflow) /\ words ["too small"]%string (int_message INegOverflow)
   /\ words ["0 or 1"]%string (bool_message BoolInvalidValue))
  /\ (words ["Unknown"; "`CountdownSpeed`"]%string (general_message (GenCountdown CdUnknown))
   /\ words ["Unknown"; "`GameMode`"]%string (general_message (GenMode GmUnknown))
   /\ words ["Unknown"; "`SampleSet`"]%string (general_message GenSampleSet)
   /\ words ["Unknown"; "`OverlayPosition`"]%string (general_message GenOverlay)
   /\ words ["Duplicate field"; "`General`"]%string (general_message GenDup)
   /\ words ["colon set"; "`key: value`"]%string (general_message GenColonSet)
   /\ words ["comma list"]%string (general_message GenCommaList))
  /\ (words ["Duplicate field"; "`Editor`"]%string (editor_message EdDup) /\ words ["colon set"; "`key: value`"]%string (editor_message EdColonSet)
   /\ words ["comma list"]%string (editor_message EdCommaList))
  /\ (words ["duplicate field"; "`Metadata`"]%string (metadata_message MdDup) /\ words ["colon set"; "`key: value`"]%string (metadata_message MdColonSet))
  /\ (words ["Duplicate field"; "`Difficulty`"]%string (difficulty_message DfDup)
   /\ words ["colon set"; "`key: value`"]%string (difficulty_message DfColonSet))
  /\ (words ["combo count"]%string (colour_message ColInvalidComboCount) /\ words ["colon separator"]%string (colour_message ColInvalidColonSeparator)
   /\ words ["Unknown colour type"]%string (colour_message ColUnknownType))
  /\ (words ["command"; "without defined sprite"]%string (ev_message EvStoryboardCmdWithNoSprite)
   /\ words ["Unknown event type"]%string (ev_message EvUnknownEventType))
  /\ (words ["Missing"; "`$`"]%string (osb_message (OsbVariable VarMissingHeader))
   /\ words ["Missing"; "`=`"]%string (osb_message (OsbVariable VarMissingEquals)))
  /\ (words ["before any section"]%string (osb_message OsbUnexpectedLine) /\ words ["multiple sections"; "same name"]%string (osb_message OsbDuplicateSections)
   /\ words ["unknown section"]%string (osb_message OsbUnknownSection))
  /\ (words ["before any section"]%string (osu_message OsuUnexpectedLine) /\ words ["multiple sections"; "same name"]%string (osu_message OsuDuplicateSections)
   /\ words ["unknown section"]%string (osu_message OsuUnknownSection)
   /\ words ["Invalid file version"; "3 ~ 14"]%string (osu_message OsuInvalidFileVersion)
   /\ words ["version defined wrong"; "`osu file format v..`"]%string (osu_message OsuFileVersionDefinedWrong)).
Proof. repeat split. Qed.
Print Assumptions C44_words.
Example C44_words_ex : words ["digit"]%string (lit "invalid digit found in string") /\ ~ words ["letter"]%string (lit "invalid digit found in string").
Proof. split; [reflexivity|discriminate]. Qed.
(** An error of a section, of an event or of a number inside is shown as it is. *)
Theorem C44_inner :
  (forall e, osu_message (OsuGeneral e) = general_message e) /\ (forall e, osu_message (OsuEditor e) = editor_message e)
  /\ (forall e, osu_message (OsuMetadata e) = metadata_message e) /\ (forall e, osu_message (OsuDifficulty e) = difficulty_message e)
  /\ (forall e, osu_message (OsuEvents e) = ev_message e) /\ (forall e, osu_message (OsuTimingPoints e) = tp_message e)
  /\ (forall e, osu_message (OsuColours e) = colour_message e) /\ (forall e, osu_message (OsuHitObjects e) = ho_message e)
  /\ (forall e, osb_message (OsbEvents e) = ev_message e) /\ (forall e, ev_message (EvBackground e) = bg_message e)
  /\ (forall e, ev_message (EvVideo e) = vid_message e) /\ (forall e, ev_message (EvBreak e) = brk_message e)
  /\ (forall e, ev_message (EvColourTransformation e) = ct_message e) /\ (forall e, ev_message (EvSpriteLegacy e) = leg_message e)
  /\ (forall e, ev_message (EvAnimationLegacy e) = leg_message e) /\ (forall e, ev_message (EvSampleLegacy e) = sl_message e)
  /\ (forall e, ev_message (EvCommand e) = cmd_message e) /\ (forall e, ev_message (EvObject e) = ob_message e)
  /\ (forall e, ev_message (EvAudioSample e) = au_message e) /\ (forall e, ev_message (EvPush e) = push_message e)
  /\ (forall e, general_message (GenInt e) = int_message e) /\ (forall e, general_message (GenBool (BoolInt e)) = int_message e)
  /\ (forall e, general_message (GenMode (GmInt e)) = int_message e) /\ (forall e, editor_message (EdInt e) = int_message e)
  /\ (forall e, colour_message (ColRgb e) = rgb_message e).
Proof. repeat split. Qed.
Print Assumptions C44_inner.
(** Storyboard files: as for [.osu] files. *)
Theorem C44_osb_shows_line : forall dbg s pre before x rest tail o d e l,
  osb_layout s pre (before ++ x :: rest) tail -> ended tail = true ->
  osb_all_read dbg before o -> osb_complaint dbg before (vars_or_none (osb_variables o)) x d e ->
  forallb (fun y => negb (blank_end y)) before = true ->
  nth_error (sec_all x) (Z.to_nat d) = Some l -> (0 <= d)%Z ->
  exists err, osb_from_str dbg s 14%Z = RErr err
    /\ nth_error (lines s) (true_line pre before + Z.to_nat d) = Some l
    /\ osb_error_text err
       = lit "Line " ++ print_Z (Z.of_nat (true_line pre before) + d + 1) ++ lit ", " ++ osb_message e
    /\ osb_error_with_line err s
       = lit "Line " ++ print_Z (Z.of_nat (true_line pre before) + d + 1) ++ lit ": " ++ l
         ++ lit ", " ++ osb_message e.
Proof. exact osb_shows_line. Qed.
Print Assumptions C44_osb_shows_line.
Definition C44_osb_text : str := join [10] [lit "[Variables]"; lit "$a=1"; lit "[Events]"; lit "//x"; lit " F,0,0,$a,1"].
Example C44_osb_ex : exists before x o d,
  osb_layout C44_osb_text [] (before ++ x :: []) [] /\ osb_all_read true before o
  /\ osb_complaint true before (vars_or_none (osb_variables o)) x d (OsbEvents EvStoryboardCmdWithNoSprite)
  /\ forallb (fun y => negb (blank_end y)) before = true /\ d = 2%Z
  /\ nth_error (sec_all x) 2 = Some (lit " F,0,0,$a,1")
  /\ match osb_from_str true C44_osb_text 14%Z with
     | RErr err => osb_error_text err = lit "Line 5, A storyboard command was used without defined sprite or animation sprite"
     | _ => False
     end.
Proof.
  set (b := [mk_sec (lit "Variables") 0 [lit "$a=1"]]).
  set (x := mk_sec (lit "Events") 0 [lit "//x"; lit " F,0,0,$a,1"]).
  exists b, x, (mk_osb (Some [mk_var (lit "a") (lit "1")]) None), 2%Z.
  split; [repeat split; vm_compute; reflexivity|]. split.
  - apply (proj1 (osb_read true (join [10] (flat_map sec_all b)) [] b [] _ ltac:(repeat split; vm_compute; reflexivity) eq_refl)).
    vm_compute. reflexivity.
  - split; [|repeat split; vm_compute; reflexivity].
    apply (osb_bad_event true b _ x 1%Z); [cbn; intros [H|[]]; discriminate|reflexivity|vm_compute; reflexivity].
Qed.
