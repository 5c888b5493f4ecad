(** C76: which values reading gives. *)
From Coq Require Import String List NArith ZArith Bool.
From Verif Require Import Str Num Dec Parsers General Editor Metadata Difficulty Colours TimingPoints HitObjects Storyboard NormalEvents Events Osb
  OsuFile SpecWf SpecSections SpecCmd SpecEvents SpecImage SpecImageFile ImageKv ImageLine ImageObj ImageCmd ImageLate ImageEv ImageOld
  ImageFile ImageOsb.
Import ListNotations.
Local Open Scope N_scope.

(** C76. The values of [General] that some text is read as are those of [general_range]. *)
Theorem C76_general : forall v g, some_text (fun s => general_from_str s v) g <-> general_range v g = true.
Proof. exact general_gives. Qed.
Print Assumptions C76_general.
Example C76_general_ex :
  let g := general_set_mode (Some MMania) (general_set_audio_filename (Some (lit "a: b.mp3")) general_new) in
  general_range 14%Z g = true /\ general_range 4%Z g = false
  /\ general_from_str (lit "Mode:3
AudioFilename: a: b.mp3") 14%Z = ROk (Some g)
  /\ general_range 14%Z (general_set_audio_filename (Some (lit " a")) general_new) = false.
Proof. vm_compute. repeat split; reflexivity. Qed.

(** C76. [Editor]. *)
Theorem C76_editor : forall v e, some_text (fun s => editor_from_str s v) e <-> editor_ok e = true.
Proof. exact editor_gives. Qed.
Print Assumptions C76_editor.
(** C76. [Metadata]. *)
Theorem C76_metadata : forall v m, some_text (fun s => metadata_from_str s v) m <-> metadata_ok m = true.
Proof. exact metadata_gives. Qed.
Print Assumptions C76_metadata.
(** C76. [Difficulty]. *)
Theorem C76_difficulty : forall v d, some_text (fun s => difficulty_from_str s v) d <-> difficulty_ok d = true.
Proof. exact difficulty_gives. Qed.
Print Assumptions C76_difficulty.
Example C76_kv_ex :
  editor_ok (editor_set_bookmarks (Some []) editor_new) = true
  /\ editor_from_str (lit "Bookmarks:") 14%Z = ROk (Some (editor_set_bookmarks (Some []) editor_new))
  /\ metadata_ok (metadata_set_tags (Some [lit "a b"]) metadata_new) = false
  /\ difficulty_ok (difficulty_set_circle_size (Some (DRaw (lit "big"))) difficulty_new) = true
  /\ difficulty_ok (difficulty_set_circle_size (Some (DRaw (lit "4"))) difficulty_new) = false.
Proof. vm_compute. repeat split; reflexivity. Qed.

(** C76. Colours: none in versions 3 and 4; otherwise the channels are bytes and no combo is
    numbered below 0. *)
Theorem C76_colours : forall v l, some_text (fun s => colours_from_str s v) l <-> ~ (3 <= v <= 4)%Z /\ forallb colour_range l = true.
Proof. exact colours_gives. Qed.
Print Assumptions C76_colours.
Example C76_colours_ex : colour_range (Combo 0 (mk_rgb 1 2 255)) = true /\ colour_range (Combo (-1) (mk_rgb 1 2 3)) = false
  /\ colours_from_str (lit "Combo0 : 1,2,255") 14%Z = ROk (Some [Combo 0 (mk_rgb 1 2 255)]).
Proof. vm_compute. repeat split; reflexivity. Qed.

(** C76. Timing points; in versions 3 and 4 the time is one that adding 24 can give. *)
Theorem C76_timing_points : forall v l, some_text (fun s => timing_points_from_str s v) l <-> forallb (tp_range v) l = true.
Proof. exact points_give. Qed.
Print Assumptions C76_timing_points.
(** C76. Hit objects. *)
Theorem C76_hit_objects : forall v l, some_text (fun s => hit_objects_from_str s v) l <-> forallb (ho_range v) l = true.
Proof. exact objects_give. Qed.
Print Assumptions C76_hit_objects.
Example C76_lists_ex :
  let d z := DNum (mkDec false z 0) in
  let no := mk_hit_sound false false false false in
  let hs := mk_hit_sample SsNormal SsNone (HiIndex 2) (Some 70%Z) (lit "a,b ") in
  let hold := mk_ho (mk_pos (d 1) (d 2)) (d 3) (OsuManiaHold (d 9)) true 5%Z no (Some hs) in
  let bare := mk_ho (mk_pos (d 1) (d 2)) (d 3) (OsuManiaHold (d 9)) true 5%Z no None in
  let far := mk_ho (mk_pos (d 1) (d 2)) (d 3) HitCircle true 8%Z no None in
  map (ho_range 14%Z) [hold; bare; far] = [true; false; false]
  /\ hit_objects_from_str (lit "1,2,3,212,0,9:1:0:2:70:a,b :") 14%Z = ROk (Some [hold])
  /\ map (tp_range 14%Z) [mk_tp (d 1) (d 2) 4 TsNormal SiDefault 50 (Some true) (Some 0%Z); mk_tp (d 1) (d 2) 4 TsNormal SiDefault 50 (Some true) None]
     = [true; false].
Proof. vm_compute. repeat split; reflexivity. Qed.
(** 24 itself comes from 0, which has no decimal places, or with 27 places by rounding; the largest number is out of reach below. *)
Example C76_old_ex :
  let p d := mk_tp (DNum d) (DNum (mkDec false 2 0)) 4 TsNormal SiDefault 50 None None in
  map (fun d => tp_range 4%Z (p d)) [mkDec false 24 0; mkDec false 240 1; mkDec false (24 * 10 ^ 27) 27; mkDec false 241 1; mkDec true (2 ^ 96 - 1) 0]
    = [true; false; true; true; false]
  /\ map (fun v => tp_range v (p (mkDec false 240 1))) [4%Z; 14%Z] = [false; true]
  /\ timing_points_from_str (lit "0.0000000000000000000000000001,2,4,1,0,50") 4%Z = ROk (Some [p (mkDec false (24 * 10 ^ 27) 27)])
  /\ timing_points_from_str (lit "0.0,2,4,1,0,50") 4%Z = ROk (Some [p (mkDec false 24 0)])
  /\ timing_points_from_str (lit "0.1,2,4,1,0,50") 4%Z = ROk (Some [p (mkDec false 241 1)])
  /\ (let q b := mk_tp (DNum (mkDec false 26 0)) b 4 TsNormal (SiIndex 1) 100 None None in
      map (fun v => tp_range v (q (DRaw (lit "2,4")))) [3%Z; 4%Z] = [true; false] /\ timing_points_from_str (lit "2,2,4") 3%Z = ROk (Some [q (DRaw (lit "2,4"))])
      /\ tp_range 3%Z (p (mkDec false 26 0)) = false)
  /\ map (fun v => ho_range v (mk_ho (mk_pos (DNum (mkDec false 1 0)) (DNum (mkDec false 2 0))) (DNum (mkDec false 240 1)) HitCircle true 0%Z
           (mk_hit_sound false false false false) None)) [4%Z; 14%Z] = [false; true].
Proof. vm_compute. repeat split; reflexivity. Qed.

(** C76. A command line on its own. *)
Theorem C76_command : forall c, some_text cmd_from_str c <-> cmd_ok c = true /\ bare c = c.
Proof. exact command_gives. Qed.
Print Assumptions C76_command.
(** C76. The variables of a storyboard file. *)
Theorem C76_variables : forall l, (exists s, variables_from_str s = ROk l) <-> forallb variable_range l = true.
Proof. exact variables_gives. Qed.
Print Assumptions C76_variables.
(** C76. Events with their commands; the build matters only for the times of versions 3 and 4. *)
Theorem C76_events : forall dbg v l, some_text (fun s => events_from_str dbg s v) l <-> forallb (event_in dbg v) l = true.
Proof. exact events_give. Qed.
Print Assumptions C76_events.
Example C76_events_ex :
  let d z := DNum (mkDec false z 0) in
  let fade := mk_cmd (Some 1%Z) (PFade EzLinear None (d 0) [d 1]) in
  let late := mk_cmd None (PFade EzLinear (Some 5%Z) (d 0) []) in
  let loop cs := mk_cmd (Some 0%Z) (PLoop 2 cs) in
  let bg cs := EBackground (mk_bg 0 (lit "a.png") (Some (mk_pos (d 1) (DRaw (lit "2,3")))) cs) in
  map (event_in true 14%Z) [bg [loop [loop [fade]; fade]]; bg [loop [late]]; EComment [10]; EAudioSample (mk_au 0 AlPass (lit "b") 101)]
    = [true; false; false; false]
  /\ events_from_str true (lit "0,0,a.png,1,2,3
 L,0,2
  L,0,2
   F,0,1,,0,1
  F,0,1,,0,1") 14%Z = ROk (Some [bg [loop [loop [fade]; fade]]])
  /\ map cmd_ok [fade; late] = [true; false]
  /\ map (fun p => event_in (fst p) (snd p) (EBreak (mk_brk (-2147483640) 29 true))) [(true, 4%Z); (false, 4%Z); (true, 5%Z)] = [false; true; true]
  /\ events_from_str false (lit "2,2147483632,5") 4%Z = ROk (Some [EBreak (mk_brk (-2147483640) 29 true)])
  /\ map variable_range [mk_var [] (lit "="); mk_var (lit "a=") (lit "b")] = [true; false].
Proof. vm_compute. repeat split; reflexivity. Qed.

(** C76. Whole files.  What is left out of the file is left out of the value, a
    section may have no lines, and only the first line of a section may begin with a bracket. *)
Theorem C76_file : forall dbg f, (exists s, osu_from_str dbg s = ROk f) <-> osu_range dbg f = true.
Proof. exact file_gives. Qed.
Print Assumptions C76_file.
(** C76. Storyboard files. *)
Theorem C76_osb : forall dbg o, (exists s, osb_from_str dbg s 14%Z = ROk (Some o)) <-> osb_range o = true.
Proof. exact osb_gives. Qed.
Print Assumptions C76_osb.
Example C76_file_ex :
  let p t := mk_tp (DRaw t) (DRaw (lit "b")) 4 TsNormal SiDefault 50 (Some true) (Some 0%Z) in
  let f ps := mk_osu 14%Z None None None (Some (metadata_set_tags (Some [lit "x"]) metadata_new)) None (Some []) (Some ps) None None in
  let text l := join [10] (map lit l) in
  map (osu_range true) [f [p (lit "[a"); p (lit "a")]; f [p (lit "a"); p (lit "[a")]; f []] = [true; false; true]
  /\ osu_from_str true (text ["osu file format v14"; "[Metadata]"; "Tags: x"; "[Events]"]%string ++ [10; 12288; 10]
       ++ text ["[TimingPoints]"; "[a,b,4,1,0,50,1,0"; "a,b,4,1,0,50,1,0"]%string) = ROk (f [p (lit "[a"); p (lit "a")])
  /\ osu_range true (mk_osu 15%Z None None None None None None None None None) = false
  /\ osu_range true (mk_osu 14%Z None None (Some (mk_osb None None)) None None None None None None) = false
  /\ map (fun v => osu_range true (mk_osu v None None None None None None None (Some [Combo 1 (mk_rgb 1 2 3)]) None)) [3%Z; 5%Z] = [false; true]
  /\ map osb_range [mk_osb (Some [mk_var (lit "a") (lit "=b")]) (Some []); mk_osb (Some [mk_var (lit "a=") (lit "b")]) (Some [])] = [true; false].
Proof. vm_compute. repeat split; reflexivity. Qed.
