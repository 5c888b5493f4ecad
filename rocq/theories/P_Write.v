(** C52: what is printed for every value, in every version.  [prints r o]: the result of printing
    is the text in [o], or a panic where there is none. *)
From Coq Require Import String List NArith ZArith Bool.
From Verif Require Import Str Num Dec Parsers General Editor Metadata Difficulty Colours TimingPoints HitObjects Unicode Storyboard
  NormalEvents Events Osb OsuFile SpecText SpecSections SpecTypes SpecCmd SpecEvents SpecEvSection SpecWrite KvTheorems EvSection Write.
Import ListNotations.
Local Open Scope N_scope.

(** ** the key/value sections: the lines of the fields that are there and that the version has *)
Theorem C52_general : forall g v, general_to_string g v = Some (text_of_lines (general_lines v g)).
Proof. exact general_layout. Qed.
Print Assumptions C52_general.
Theorem C52_editor : forall e v, editor_to_string e v = Some (text_of_lines (editor_lines v e)).
Proof. exact editor_layout. Qed.
Print Assumptions C52_editor.
Theorem C52_metadata : forall m v, metadata_to_string m v = Some (text_of_lines (metadata_lines m)).
Proof. exact metadata_layout. Qed.
Print Assumptions C52_metadata.
Theorem C52_difficulty : forall d v, difficulty_to_string d v = Some (text_of_lines (difficulty_lines v d)).
Proof. exact difficulty_layout. Qed.
Print Assumptions C52_difficulty.
Theorem C52_colours : forall v o, obind o (fun l => colours_to_string l v)
  = option_map text_of_lines (opt_if (negb (moves v)) (option_map (map colour_text) o)).
Proof. exact colours_out. Qed.
Print Assumptions C52_colours.

(** ** the line based sections: first every time is moved back in versions 3 and 4, then each
    entry becomes a line *)
Theorem C52_timing_points : forall v l, prints (timing_points_to_string l v)
  (option_map (fun l => Some (text_of_lines (map (tp_row v) l))) (all_some (back_timing v) l)).
Proof. exact timings_layout. Qed.
Print Assumptions C52_timing_points.
Theorem C52_hit_objects : forall v l, Forall three_bits l -> prints (hit_objects_to_string l v)
  (option_map (fun l => Some (text_of_lines (map (ho_row v) l))) (all_some (back_object v) l)).
Proof. exact objects_layout. Qed.
Print Assumptions C52_hit_objects.
Example C52_lines_ex :
  let t := mk_tp (DNum (mkDec false 1000 1)) (DRaw (lit "x")) 4 TsSoft (SiIndex 2147483648) 60 None (Some 9%Z) in
  let p := mk_pos (DNum (mkDec false 1 0)) (DNum (mkDec false 2 0)) in
  let o q (hs : option hit_sample) := mk_ho p (DNum (mkDec false 5 0)) q true 2%Z (mk_hit_sound false true false true) hs in
  let s := mk_slide PerfectCircle [] 1 (DNum (mkDec false 3 0)) [] true [] true in
  let h := mk_hit_sample SsSoft SsNone HiTimingPoint None (lit "f") in
  tp_row 3%Z t = lit "100.0,x" /\ tp_row 4%Z t = lit "100.0,x,4,2,-2147483648" /\ tp_row 14%Z t = lit "100.0,x,4,2,-2147483648,60,,9"
  /\ option_map (tp_row 4%Z) (back_timing 4%Z t) = Some (lit "76.0,x,4,2,-2147483648")
  /\ ho_row 14%Z (o HitCircle (Some h)) = lit "1,2,5,37,10,2:0:0:0:f" /\ ho_row 11%Z (o HitCircle (Some h)) = lit "1,2,5,37,10,2:0:0"
  /\ ho_row 9%Z (o HitCircle (Some h)) = lit "1,2,5,37,10" /\ ho_row 3%Z (o HitCircle (Some h)) = lit "1,2,5,37,10,"
  /\ ho_row 14%Z (o (Slider s) (Some h)) = lit "1,2,5,38,10,P,1,3,,,2:0:0:0:f" /\ ho_row 9%Z (o (Slider s) None) = lit "1,2,5,38,10,P,1,3"
  /\ ho_row 3%Z (o (Slider s) None) = lit "1,2,5,38,10,P|1:2,1,3"
  /\ option_map (ho_row 4%Z) (back_object 4%Z (o (OsuManiaHold (DNum (mkDec false 30 0))) None)) = Some (lit "1,2,-19,164,10,6:")
  /\ Forall three_bits [o HitCircle None].
Proof. vm_compute. repeat split; try easy. repeat constructor; easy. Qed.

(** ** events *)
Theorem C52_replace : forall a b s t, swapped a b s t <-> t = replace a b s.
Proof. exact replace_swapped. Qed.
Print Assumptions C52_replace.
Theorem C52_command : forall vars c, cmd_to_string vars c = command_text vars c.
Proof. exact command_layout. Qed.
Print Assumptions C52_command.
Theorem C52_events : forall dbg vars l v, prints (events_to_string_vars dbg vars l v)
  (option_map (fun l => Some (text_of_lines (concat (map (event_out v vars) l)))) (all_some (back_event dbg v) l)).
Proof. exact events_layout. Qed.
Print Assumptions C52_events.
Definition C52_events_list : list event :=
  [EComment (lit "c"); EBreak (mk_brk 24 (-2147483648) false);
   EBackground (mk_bg 5 (lit "my bg.png") None [mk_cmd (Some 1%Z) (PLoop 2 [mk_cmd None (PFade EzQuadIn None (DNum (mkDec false 1 0)) [])])]);
   EColourTransformation (mk_ct 30 1 2 3);
   EObject (mk_obj LyPass (mk_origin (OLeft OtCentre) true) (mk_pos (DNum (mkDec false 320 0)) (DNum (mkDec false 240 0)))
     (ObAnimation 3 (mkDec false 25 1) LoopOnce (lit "a.png")) [mk_cmd (Some 120%Z) (PMove EzLinear (Some 12%Z) (mk_cont (DNum (mkDec false 12 0), DNum (mkDec false 0 0)) []))])].
Definition C52_x : list variable := [mk_var (lit "x") (lit "12")].
Example C52_events_ex :
  events_to_string_vars false C52_x C52_events_list 4%Z = ROk (Some (text_of_lines
    [lit "//c"; lit "Break,0,2147483624"; 48 :: 44 :: lit "5," ++ 34 :: lit "my bg.png" ++ [34]; lit " L,1,2"; lit "  F,3,,,1"; lit "3,6,1,2,3";
     lit "Animation,Pass,1,a.png,320,240,3,2.5,LoopOnce"; lit " M,0,$x0,$x,$x,0"]))
  /\ all_some (back_event true 4%Z) C52_events_list = None
  /\ option_map (fun l => concat (map (event_out 4%Z C52_x) l)) (all_some (back_event false 4%Z) C52_events_list)
     = Some [lit "//c"; lit "Break,0,2147483624"; 48 :: 44 :: lit "5," ++ 34 :: lit "my bg.png" ++ [34]; lit " L,1,2"; lit "  F,3,,,1"; lit "3,6,1,2,3";
            lit "Animation,Pass,1,a.png,320,240,3,2.5,LoopOnce"; lit " M,0,$x0,$x,$x,0"]
  /\ concat (map (event_out 14%Z []) [EColourTransformation (mk_ct 30 1 2 3)]) = [].
Proof. vm_compute. repeat split. Qed.

(** ** whole files *)
Theorem C52_file : forall dbg f, objects_fit f -> prints (osu_to_string dbg f) (option_map (fun g => text_of_lines (file_lines g)) (back_file dbg f)).
Proof. exact file_layout. Qed.
Print Assumptions C52_file.
Theorem C52_osb : forall dbg o v, osb_to_string dbg o v = ROk (if (v <? 14)%Z then None else Some (text_of_lines (osb_lines v o))).
Proof. exact osb_layout. Qed.
Print Assumptions C52_osb.
Example C52_file_ex :
  let d := mk_difficulty (Some (DNum (mkDec false 5 0))) None None None None (Some (DNum (mkDec false 1 0))) in
  let f v := mk_osu v None (Some (mk_editor None None None None None None)) None None (Some d) (Some [EBreak (mk_brk 24 48 true)]) None (Some [Combo 1 (mk_rgb 1 2 3)])
    (Some [mk_ho (mk_pos (DNum (mkDec false 1 0)) (DNum (mkDec false 2 0))) (DNum (mkDec false 24 0)) HitCircle false 0%Z (mk_hit_sound false false false false) None]) in
  objects_fit (f 14%Z)
  /\ option_map file_lines (back_file true (f 14%Z)) = Some [lit "osu file format v14"; []; lit "[Editor]"; []; []; lit "[Difficulty]"; lit "HPDrainRate:5"; lit "SliderTickRate:1"; [];
       lit "[Events]"; lit "2,24,48"; []; lit "[Colours]"; lit "Combo1 : 1,2,3"; []; lit "[HitObjects]"; lit "1,2,24,1,0"]
  /\ option_map file_lines (back_file true (f 3%Z)) = Some [lit "osu file format v3"; []; lit "[Editor]"; []; []; lit "[Difficulty]"; lit "HPDrainRate:5"; lit "SliderTickRate: 1"; [];
       lit "[Events]"; lit "2,0,24"; []; lit "[HitObjects]"; lit "1,2,0,1,0,"]
  /\ option_map file_lines (back_file true (mk_osu 14%Z None None None None None None None None None)) = Some [lit "osu file format v14"; []; []]
  /\ osb_lines 14%Z (mk_osb (Some C52_x) (Some [EAudioSample (mk_au 1 AlPass (lit "a") 100)])) = [lit "[Variables]"; lit "$x=12"; []; lit "[Events]"; lit "Sample,1,2,a,100"].
Proof. split; [repeat constructor; easy|]. vm_compute. repeat split. Qed.
