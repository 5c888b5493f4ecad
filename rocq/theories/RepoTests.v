(** The unit tests of the crate (/repo/src/tests), run on the model.  They check the reading of
    the code; they are not theorems.  The tests on whole files were run outside Coq (DESIGN.md). *)
From Coq Require Import String List NArith ZArith Bool.
From Verif Require Import Str Num Nom Dec Parsers General Editor Metadata Difficulty Colours TimingPoints HitObjects Storyboard
  NormalEvents Events Osb OsuFile Trimmer Api Messages Helpers.
Import ListNotations.
Local Open Scope N_scope.

Definition rows (l : list string) : str := join [10] (map lit l).
Definition dec (m : N) (sc : nat) : decimal := DNum (mkDec false m sc).
Definition neg_dec (m : N) (sc : nat) : decimal := DNum (mkDec true m sc).
Definition message_of {A E} (m : E -> str) (r : res A E) : option str := match r with RErr e => Some (m e) | _ => None end.
Definition line_of {A E} (r : res A (line_err E)) : option Z := match r with RErr e => Some (le_line e) | _ => None end.

(** ** tests/mod.rs *)
Definition general_text : str := rows
  ["AudioFilename: test.mp3"; "AudioLeadIn: 555"; "PreviewTime: 5"; "Countdown: 3"; "SampleSet: Soft"; "StackLeniency: 0.9"; "Mode: 1";
   "LetterboxInBreaks: 1"; "StoryFireInFront: 0"; "UseSkinSprites: 1"; "AlwaysShowPlayfield: 0"; "OverlayPosition: Above"; "SkinPreference: myskin";
   "EpilepsyWarning: 1"; "CountdownOffset: 120"; "SpecialStyle: 1"; "WidescreenStoryboard: 1"; "SamplesMatchPlaybackRate: 1"]%string.
Definition general_value : general :=
  mk_general (Some (lit "test.mp3")) (Some 555%Z) None (Some 5%Z) (Some CdDouble) (Some GsSoft) (Some (dec 9 1)) (Some MTaiko) (Some true) (Some false)
    (Some true) (Some false) (Some OpAbove) (Some (lit "myskin")) (Some true) (Some 120%Z) (Some true) (Some true) (Some true) None None.
Example general_parse_v14 : general_from_str general_text 14%Z = ROk (Some general_value) /\ general_to_string general_value 14%Z = Some general_text.
Proof. vm_compute. split; reflexivity. Qed.
Definition editor_text : str := rows
  ["Bookmarks: 11018,21683,32349,37683,48349,59016,69683,80349,91016"; "DistanceSpacing: 0.8"; "BeatDivisor: 12"; "GridSize: 8"; "TimelineZoom: 2"]%string.
Definition editor_value : editor :=
  mk_editor (Some [11018; 21683; 32349; 37683; 48349; 59016; 69683; 80349; 91016]%Z) (Some (dec 8 1)) (Some (dec 12 0)) (Some 8%Z) (Some (dec 2 0)) None.
Example editor_parse_v14 : editor_from_str editor_text 14%Z = ROk (Some editor_value) /\ editor_to_string editor_value 14%Z = Some editor_text.
Proof. vm_compute. split; reflexivity. Qed.
Definition japanese : str := [33311; 26408; 26234; 20171].
Definition metadata_text : str := rows
  ["Title:LOVE IS ORANGE"; "TitleUnicode:LOVE IS ORANGE"; "Artist:Orange Lounge"; "ArtistUnicode:Orange Lounge"; "Creator:Xnery"; "Version:Bittersweet Love";
   "Source:beatmania IIDX 8th style"; "Tags:famoss "]%string ++ japanese ++ rows [" tomosuke funaki videogame Tart&Toffee"; "BeatmapID:3072232"; "BeatmapSetID:1499093"]%string.
Definition metadata_value : metadata :=
  mk_metadata (Some (lit "LOVE IS ORANGE")) (Some (lit "LOVE IS ORANGE")) (Some (lit "Orange Lounge")) (Some (lit "Orange Lounge")) (Some (lit "Xnery"))
    (Some (lit "Bittersweet Love")) (Some (lit "beatmania IIDX 8th style"))
    (Some [lit "famoss"; japanese; lit "tomosuke"; lit "funaki"; lit "videogame"; lit "Tart&Toffee"]) (Some 3072232%Z) (Some 1499093%Z).
Example metadata_parse_v14 : metadata_from_str metadata_text 14%Z = ROk (Some metadata_value) /\ metadata_to_string metadata_value 14%Z = Some metadata_text.
Proof. vm_compute. split; reflexivity. Qed.
Definition difficulty_text : str := rows
  ["HPDrainRate:8"; "CircleSize:5"; "OverallDifficulty:8"; "ApproachRate:5"; "SliderMultiplier:1.4"; "SliderTickRate:1"]%string.
Definition difficulty_value : difficulty :=
  mk_difficulty (Some (dec 8 0)) (Some (dec 5 0)) (Some (dec 8 0)) (Some (dec 5 0)) (Some (dec 14 1)) (Some (dec 1 0)).
Example difficulty_parse_v14 : difficulty_from_str difficulty_text 14%Z = ROk (Some difficulty_value) /\ difficulty_to_string difficulty_value 14%Z = Some difficulty_text.
Proof. vm_compute. split; reflexivity. Qed.
Definition colours_text : str := rows ["Combo1 : 255,128,255"; "SliderTrackOverride : 100,99,70"; "SliderBorder : 120,130,140"]%string.
Definition colours_value : list colour := [Combo 1 (mk_rgb 255 128 255); SliderTrackOverride (mk_rgb 100 99 70); SliderBorder (mk_rgb 120 130 140)].
Example colours_parse_v14 : colours_from_str colours_text 14%Z = ROk (Some colours_value) /\ colours_to_string colours_value 14%Z = Some colours_text.
Proof. vm_compute. split; reflexivity. Qed.
(** [new_inherited] with the multiplier 4 has the beat length -25. *)
Definition timing_text : str := rows ["10000,333.33,4,0,0,100,1,1"; "12000,-25,4,3,0,100,0,1"]%string.
Definition timing_value : list timing_point :=
  [mk_tp (dec 10000 0) (dec 33333 2) 4 TsBeatmapDefault SiDefault 100 (Some true) (Some 1%Z);
   mk_tp (dec 12000 0) (neg_dec 25 0) 4 TsDrum SiDefault 100 (Some false) (Some 1%Z)].
Example timing_points_parse_v14 : timing_points_from_str timing_text 14%Z = ROk (Some timing_value) /\ timing_points_to_string timing_value 14%Z = ROk (Some timing_text).
Proof. vm_compute. split; reflexivity. Qed.
Definition events_text : str := rows ["0,0,""bg2.jpg"",0,0"; "0,0,bg2.jpg,0,1"; "//Break Periods"; "2,100,163"]%string.
Definition events_value : list event :=
  [EBackground (mk_bg 0 (lit """bg2.jpg""") (Some (mk_pos (dec 0 0) (dec 0 0))) []); EBackground (mk_bg 0 (lit "bg2.jpg") (Some (mk_pos (dec 0 0) (dec 1 0))) []);
   EComment (lit "Break Periods"); EBreak (break_new 100 163)].
Example events_parse_v14 : events_from_str true events_text 14%Z = ROk (Some events_value) /\ events_to_string true events_value 14%Z = ROk (Some events_text).
Proof. vm_compute. split; reflexivity. Qed.
Example colour_parse_error : message_of colour_message (colour_from_str 14%Z (lit "Combo1: foo")) = Some (lit "Invalid red value").
Proof. vm_compute. reflexivity. Qed.
Example editor_bookmarks_error :
  message_of editor_message (from_bookmarks (lit "0,foo") 14%Z) = Some (lit "invalid digit found in string")
  /\ message_of editor_message (from_bookmarks (lit "0-") 14%Z) = Some (lit "invalid digit found in string")
  /\ message_of editor_message (from_bookmarks (lit "0,,") 14%Z) = Some (lit "Invalid comma list, expected format of `key: value, value, value, ...`").
Proof. vm_compute. repeat split. Qed.

(** ** tests/error_line_index.rs *)
Definition in_file (name : string) (body : str) : str := rows ["osu file format v14"; ""; ""; ""]%string ++ [10] ++ lit "[" ++ lit name ++ lit "]" ++ [10] ++ body.
Example error_line_index :
  (let s := rows ["AudioFilename: audio.mp3"; "foo: bar"]%string in
   line_of (general_from_str s 14%Z) = Some 1%Z /\ line_of (osu_from_str true (in_file "General" s)) = Some 6%Z)
  /\ (let s := rows ["Combo1 : 255,128,255"; "foobar"]%string in
   line_of (colours_from_str s 14%Z) = Some 1%Z /\ line_of (osu_from_str true (in_file "Colours" s)) = Some 6%Z)
  /\ (let s := rows ["HPDrainRate:8"; "foobar"]%string in
   line_of (difficulty_from_str s 14%Z) = Some 1%Z /\ line_of (osu_from_str true (in_file "Difficulty" s)) = Some 6%Z)
  /\ (let s := rows ["DistanceSpacing: 0.8"; "foobar"]%string in
   line_of (editor_from_str s 14%Z) = Some 1%Z /\ line_of (osu_from_str true (in_file "Editor" s)) = Some 6%Z)
  /\ (let s := rows ["0,0,""bg.jpg"",0,0"; "foobar"]%string in
   line_of (events_from_str true s 14%Z) = Some 1%Z /\ line_of (osu_from_str true (in_file "Events" s)) = Some 6%Z)
  /\ (let s := rows ["51,192,350,128,2,849:0:0:0:0:"; "foobar"]%string in
   line_of (hit_objects_from_str s 14%Z) = Some 1%Z /\ line_of (osu_from_str true (in_file "HitObjects" s)) = Some 6%Z)
  /\ (let s := rows ["Title:foo"; "foobar"]%string in
   line_of (metadata_from_str s 14%Z) = Some 1%Z /\ line_of (osu_from_str true (in_file "Metadata" s)) = Some 6%Z)
  /\ (let s := rows ["350,333.333333333333,4,2,1,60,1,0"; "foobar"]%string in
   line_of (timing_points_from_str s 14%Z) = Some 1%Z /\ line_of (osu_from_str true (in_file "TimingPoints" s)) = Some 6%Z).
Proof. vm_compute. repeat split. Qed.
(** The test expects line 7 although the bad line is line 8 (counted from 0), see C16. *)
Example double_sections :
  line_of (osu_from_str true (rows ["osu file format v14"; "[General]"; ""; "AudioFilename: audio.mp3"; ""; ""; "[TimingPoints]"; "350,333.333333333333,4,2,1,60,1,0"; "foobar"]%string)) = Some 7%Z.
Proof. vm_compute. reflexivity. Qed.

(** ** tests/hitobjects *)
Example hitobject_errors :
  message_of ho_message (ho_from_str 14%Z (lit "1")) = Some (lit "Missing `y` field")
  /\ message_of ho_message (ho_from_str 14%Z (lit "0,0,0,0,0,0:0:0:0:")) = Some (lit "Unknown object type")
  /\ message_of ho_message (ho_from_str 14%Z (lit "0,0,0,2,0")) = Some (lit "Missing `curve_type` field").
Proof. vm_compute. repeat split. Qed.
Definition ho_kept (s : string) : bool :=
  match ho_from_str 14%Z (lit s) with
  | ROk (Some o) => match ho_to_string 14%Z o with ROk t => str_eqb t (lit s) | _ => false end
  | _ => false
  end.
Example hitobjects_parse : forallb ho_kept
  ["221,350,9780,1,0,0:0:0:0:"; "31,85,3049,2,0,B|129:55|123:136|228:86,1,172.51,2|0,3:2|0:2,0:2:0:0:"; "256,192,33598,12,0,431279,0:0:0:0:";
   "51,192,350,128,2,849:0:0:0:0:"; "221,350,9780,1,0"; "31,85,3049,2,0,B|129:55|123:136|228:86,1,172.51"]%string = true.
Proof. vm_compute. reflexivity. Qed.

(** ** tests/storyboard *)
Definition have_fun : str := lit """Text\Play2-HaveFunH.png""".
Definition explosion : str := lit """Other\Play3\explosion.png""".
Example legacy_parse :
  (let x := mk_leg LlBackground OtCentre have_fun (Some (mk_pos (dec 320 0) (dec 240 0))) [] in let s := lit "4,0,1," ++ have_fun ++ lit ",320,240" in
   leg_from_str (lit "4") s = ROk (Some x) /\ leg_to_string (lit "4") x = s)
  /\ (let x := mk_leg LlBackground OtCentre explosion (Some (mk_pos (dec 418 0) (dec 108 0))) [] in let s := lit "5,0,1," ++ explosion ++ lit ",418,108" in
   leg_from_str (lit "5") s = ROk (Some x) /\ leg_to_string (lit "5") x = s)
  /\ (let x := mk_sl (dec 55 0) LlBackground have_fun (Some 60%Z) [] in let s := lit "6,55,0," ++ have_fun ++ lit ",60" in
   sl_from_str s = ROk (Some x) /\ sl_to_string x = s)
  /\ (let x := mk_sl (dec 55 0) LlBackground have_fun None [] in let s := lit "6,55,0," ++ have_fun in
   sl_from_str s = ROk (Some x) /\ sl_to_string x = s).
Proof. vm_compute. repeat split. Qed.
Definition sprite_text : str := rows
  ["Sprite,Pass,Centre,""Text\Play2-HaveFunH.png"",320,240"; "Animation,Fail,BottomCentre,""Other\Play3\explosion.png"",418,108,12,31,LoopForever"]%string.
Definition sprite_of (c : list command) : object := mk_obj LyPass (mk_origin (OLeft OtCentre) false) (mk_pos (dec 320 0) (dec 240 0)) (ObSprite have_fun) c.
Definition animation_of (c : list command) : object :=
  mk_obj LyFail (mk_origin (OLeft OtBottomCentre) false) (mk_pos (dec 418 0) (dec 108 0)) (ObAnimation 12 (mkDec false 31 0) LoopForever explosion) c.
Example storyboard_sprites_parse :
  let x := [EObject (sprite_of []); EObject (animation_of [])] in
  events_from_str true sprite_text 14%Z = ROk (Some x) /\ events_to_string true x 14%Z = ROk (Some sprite_text).
Proof. vm_compute. split; reflexivity. Qed.
Example frame_names : frame_file_names 4 (lit "testfile.png") = ROk (map lit ["testfile0.png"; "testfile1.png"; "testfile2.png"; "testfile3.png"]%string).
Proof. vm_compute. reflexivity. Qed.
Definition cmds_text : str := rows
  ["Sprite,Pass,Centre,""Text\Play2-HaveFunH.png"",320,240"; " F,0,-28,,1"; " M,3,100,120,140,180.123123,200,200"; " MX,3,100,120,140,180.123123";
   " MY,3,100,120,140,180.123123"; " S,0,-28,,0.4"; " V,8,5000,5500,0.5,2,2,0.5"; " R,7,5000,5500,-0.785,0.785"; " C,6,50000,50001,0,0,0,255,255,255";
   " P,5,300,350,H"; " P,5,300,350,V"; " P,5,300,350,A"; " L,500,10"; "  L,10,10"; "   M,3,100,120,140,180.123123,200,200"; "   S,0,-28,,0.4";
   " T,HitSound,0,10"; "  L,10,10"; "   M,3,100,120,140,180.123123,200,200";
   "Animation,Fail,BottomCentre,""Other\Play3\explosion.png"",418,108,12,31,LoopForever"; " T,HitSoundClap,0,10"; " T,HitSoundFinish,0,10";
   " T,HitSoundWhistle,0,10"; " T,HitSoundDrumWhistle,0,10"; " T,HitSoundSoft,0,10"; " T,HitSoundAllSoft,0,10"; " T,HitSoundDrumClap0,0,10";
   " T,HitSound6,0,10"; " T,Passing,0,10"; " T,Failing,0,10"]%string.
Definition move_cmd : command := mk_cmd (Some 100%Z) (PMove EzQuadIn (Some 120%Z) (mk_cont (dec 140 0, dec 180123123 6) [(dec 200 0, Some (dec 200 0))])).
Definition scale_cmd : command := mk_cmd (Some (-28)%Z) (PScale EzLinear None (dec 4 1) []).
Definition par_cmd (p : parameter) : command := mk_cmd (Some 300%Z) (PParameter EzQuadInOut (Some 350%Z) p []).
Definition hs_cmd (t : trigger_type) (l : list command) : command := mk_cmd (Some 0%Z) (PTrigger t (Some 10%Z) None l).
Definition cmds_value : list event :=
  [EObject (sprite_of
     [mk_cmd (Some (-28)%Z) (PFade EzLinear None (dec 1 0) []); move_cmd;
      mk_cmd (Some 100%Z) (PMoveX EzQuadIn (Some 120%Z) (dec 140 0) [dec 180123123 6]);
      mk_cmd (Some 100%Z) (PMoveY EzQuadIn (Some 120%Z) (dec 140 0) [dec 180123123 6]);
      scale_cmd;
      mk_cmd (Some 5000%Z) (PVectorScale EzCubicInOut (Some 5500%Z) (mk_cont (dec 5 1, dec 2 0) [(dec 2 0, Some (dec 5 1))]));
      mk_cmd (Some 5000%Z) (PRotate EzCubicOut (Some 5500%Z) (neg_dec 785 3) [dec 785 3]);
      mk_cmd (Some 50000%Z) (PColour EzCubicIn (Some 50001%Z) (mk_sbc (0, 0, 0)%Z [(255%Z, Some 255%Z, Some 255%Z)]));
      par_cmd PaFlipH; par_cmd PaFlipV; par_cmd PaAdditive;
      mk_cmd (Some 500%Z) (PLoop 10 [mk_cmd (Some 10%Z) (PLoop 10 [move_cmd; scale_cmd])]);
      hs_cmd (TtHitSound None None None None) [mk_cmd (Some 10%Z) (PLoop 10 [move_cmd])]]);
   EObject (animation_of
     [hs_cmd (TtHitSound None None (Some AdClap) None) []; hs_cmd (TtHitSound None None (Some AdFinish) None) []; hs_cmd (TtHitSound None None (Some AdWhistle) None) [];
      hs_cmd (TtHitSound (Some SbDrum) None (Some AdWhistle) None) []; hs_cmd (TtHitSound (Some SbSoft) None None None) [];
      hs_cmd (TtHitSound (Some SbAll) (Some SbSoft) None None) []; hs_cmd (TtHitSound (Some SbDrum) None (Some AdClap) (Some 0%Z)) [];
      hs_cmd (TtHitSound None None None (Some 6%Z)) []; hs_cmd TtPassing []; hs_cmd TtFailing []])].
Example storyboard_sprites_cmd_parse :
  events_from_str true cmds_text 14%Z = ROk (Some cmds_value) /\ events_to_string true cmds_value 14%Z = ROk (Some cmds_text).
Proof. vm_compute. split; reflexivity. Qed.
Definition cmd_is (s : string) (c : command) : Prop := cmd_from_str (lit s) = ROk (Some c).
Example commands :
  cmd_is "C,0,0,0,255,255,255,255,255,255,0" (mk_cmd (Some 0%Z) (PColour EzLinear (Some 0%Z) (mk_sbc (255, 255, 255)%Z [(255%Z, Some 255%Z, Some 255%Z); (0%Z, None, None)])))
  /\ cmd_is "P,0,0,,H,V,A" (mk_cmd (Some 0%Z) (PParameter EzLinear None PaFlipH [PaFlipV; PaAdditive]))
  /\ cmd_is "T,HitSound,0,0,5" (mk_cmd (Some 0%Z) (PTrigger (TtHitSound None None None None) (Some 0%Z) (Some 5%Z) []))
  /\ cmd_is "M,0,0,0,-5,10,55" (mk_cmd (Some 0%Z) (PMove EzLinear (Some 0%Z) (mk_cont (neg_dec 5 0, dec 10 0) [(dec 55 0, None)])))
  /\ cmd_is "F,0,0,0,1,0,0.5,0,0.25,0" (mk_cmd (Some 0%Z) (PFade EzLinear (Some 0%Z) (dec 1 0) [dec 0 0; dec 5 1; dec 0 0; dec 25 2; dec 0 0])).
Proof. vm_compute. repeat split. Qed.
Definition cmd_kept (s : string) : bool := match cmd_from_str (lit s) with ROk (Some c) => str_eqb (cmd_to_string [] c) (lit s) | _ => false end.
Example trigger : forallb cmd_kept ["T,HitSound,0,1,2"; "T,HitSound,0,,1"; "T,HitSound,0,1"; "T,HitSound,0"]%string = true.
Proof. vm_compute. reflexivity. Qed.
Definition cmd_says (s m : string) : Prop := message_of cmd_message (cmd_from_str (lit s)) = Some (lit m).
Example storyboard_cmd_errors :
  cmd_says "foo,0,0,0,0,0,0" "Unknown command type" /\ cmd_says "F" "Missing `easing` field" /\ cmd_says "F,this is wrong!,123" "Invalid `easing` value"
  /\ cmd_says "F,0" "Missing `start_time` field" /\ cmd_says "F,0,foo" "Invalid `start_time` value" /\ cmd_says "F,0,0" "Missing `end_time` field"
  /\ cmd_says "F,0,0,foo" "Invalid `end_time` value" /\ cmd_says "F,0,0,0" "Missing `start_opacity` field" /\ cmd_says "L,0" "Missing `loop_count` field"
  /\ cmd_says "C,0,0,0,255,255,255,foo" "Invalid continuing colour value" /\ cmd_says "C,0,0,1,foo" "Invalid `red` value"
  /\ cmd_says "C,0,0,1,255" "Missing `green` field" /\ cmd_says "V,0,0,0,0.5" "Missing `scale_y` field".
Proof. vm_compute. repeat split. Qed.

(** ** tests/osu_files: two files with an error *)
Definition osb_with_error : str := concat (map (fun l => lit l ++ [13; 10])
  ["[Variables]"; "$c1=255,128,255"; "$c2=192,192,192"; "$c3=119,108,181"; ""; "[Events]"; "//Background and Video events"; "//Storyboard Layer 0 (Background)";
   "Sprite,Background,TopLeft,""new-beginnings.jpg"",0,0"; "Sprite,Background,Centre,""SB\omega tringle.jpg"",320,0"; " F,0,-28,,1"; " S,0,-28,,0.4";
   " MY,0,-28,4587,260,200"; " F,0,4587,,0"; " F,0,126433,,1"; " MY,0,127356,133818,280,200"; " F,0,133818,,0";
   "Sprite,Background,Centre,""SB\gray with a hole.png"",320,240"; " F,0,-200,,0"; " F,0,-28,,1"; " foo"]%string).
Definition leading_ws_w_err : str := rows [""; ""; "osu file format v14"; ""; "[General]"; "AudioFilename: audio.mp3"; "lmao"]%string.
Definition error_text_of {A E} (m : E -> str) (r : res A (line_err E)) : option str := match r with RErr e => Some (error_to_string m e) | _ => None end.
Example error_lines :
  error_text_of osu_message (osu_from_str true leading_ws_w_err) = Some (lit "Line 7, Invalid colon set, expected format of `key: value`")
  /\ error_text_of osb_message (osb_from_str true osb_with_error 14%Z) = Some (lit "Line 20, Unknown command type").
Proof. vm_compute. repeat split. Qed.
(** The test [error_line_index_osb] names line 21, which is where the bad line stands, but compares with
    [assert_eq_osu_str]: both texts are trimmed to nothing, so any message passes. *)
Example error_lines_not_compared :
  osu_str_eq (lit "Line 20, Unknown command type") (lit "Line 21, Unknown command type") = true /\ osu_str_trimmer (lit "Line 20, Unknown command type") = [].
Proof. vm_compute. split; reflexivity. Qed.
