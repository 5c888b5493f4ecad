(** C73: comment lines. *)
From Coq Require Import String List NArith ZArith Bool.
From Verif Require Import Str Num Nom Dec Parsers KeyValue General Editor Metadata Difficulty Colours TimingPoints HitObjects Storyboard NormalEvents Events Osb OsuFile
  Spec SpecText SpecFile SpecTotal SpecKv SpecLine SpecEvents SpecEvSection SpecParts SpecEdit SpecComments FileSamples TotalFacts TotalSamples Comments.
Import ListNotations.
Local Open Scope N_scope.

(** C73. Between the version line and the first section a comment may be put anywhere, unless it ends in a bracket. *)
Theorem C73_before : forall dbg s s' ws num rest rest' v a b ls n cs c,
  version_head s ws num rest -> version_head s' ws num rest' -> version_text num v ->
  lines rest = a ++ b ++ ls -> lines rest' = a ++ out c :: b ++ ls -> head_line (out c) = false ->
  begins (rows ws) (a ++ b) ls n cs -> osu_parts s v n cs /\ osu_parts s' v (n + 1) cs
  /\ forall f, osu_from_str dbg s = ROk f <-> osu_from_str dbg s' = ROk f.
Proof. exact comment_before. Qed.
Print Assumptions C73_before.
Theorem C73_before_osb : forall dbg s s' a b ls n cs c, lines s = a ++ b ++ ls -> lines s' = a ++ out c :: b ++ ls -> head_line (out c) = false ->
  begins 0 (a ++ b) ls n cs -> osb_parts s n cs /\ osb_parts s' (n + 1) cs
  /\ forall f, osb_from_str dbg s 14%Z = ROk f <-> osb_from_str dbg s' 14%Z = ROk f.
Proof. exact comment_before_osb. Qed.
Print Assumptions C73_before_osb.
Definition C73_file (l : list string) : str := join nl (map lit l).
Example C73_before_ex : exists f,
  osu_from_str true (C73_file ["osu file format v14"; ""; "[General]"; "Mode: 0"]%string) = ROk f
  /\ osu_from_str true (C73_file ["osu file format v14"; "// made by hand"; ""; "[General]"; "Mode: 0"]%string) = ROk f
  /\ osu_general f <> None /\ head_line (out (lit " made by hand")) = false.
Proof. eexists. split; [vm_compute; reflexivity|]. split; [vm_compute; reflexivity|]. split; [discriminate|reflexivity]. Qed.
Example C73_before_osb_ex : exists f,
  osb_from_str true (C73_file ["[Variables]"; "$a=1"]%string) 14%Z = ROk (Some f)
  /\ osb_from_str true (C73_file ["// made by hand"; "[Variables]"; "$a=1"]%string) 14%Z = ROk (Some f) /\ osb_variables f <> None.
Proof. eexists. split; [vm_compute; reflexivity|]. split; [vm_compute; reflexivity|discriminate]. Qed.
(** C73. One that ends in a bracket makes the file empty. *)
Theorem C73_before_refuted : exists f g,
  osu_from_str true (C73_file ["osu file format v14"; ""; "[General]"; "Mode: 0"]%string) = ROk f /\ osu_general f <> None
  /\ osu_from_str true (C73_file ["osu file format v14"; "// made by [me]"; ""; "[General]"; "Mode: 0"]%string) = ROk g
  /\ g = osu_new 14%Z /\ osu_general g = None.
Proof.
  eexists. eexists. split; [vm_compute; reflexivity|]. split; [discriminate|]. split; [vm_compute; reflexivity|]. split; reflexivity.
Qed.
Print Assumptions C73_before_refuted.

(** C73. Among the events a comment is kept as one, and is put in front of any line that is no command. *)
Theorem C73_events : forall dbg vs v s s' a b c evs, lines s = lines a ++ lines b -> lines s' = lines a ++ out c :: lines b -> opens b ->
  events_from_str_vars dbg vs s v = ROk (Some evs) ->
  exists p q, evs = p ++ q /\ events_from_str_vars dbg vs a v = ROk (Some p) /\ events_from_str_vars dbg vs b v = ROk (Some q)
  /\ events_from_str_vars dbg vs s' v = ROk (Some (p ++ EComment c :: q)).
Proof. exact comment_between. Qed.
Print Assumptions C73_events.
(** C73. In front of a command it makes the events unreadable, the command being the line that is blamed. *)
Theorem C73_events_command : forall dbg vs v s a c bl l rest p,
  lines s = lines a ++ out c :: bl ++ l :: rest -> forallb is_blank bl = true -> is_blank l = false -> depth l <> 0%nat ->
  events_from_str_vars dbg vs a v = ROk (Some p) ->
  events_from_str_vars dbg vs s v = RErr (mk_line_err (rows a + 1 + Z.of_nat (length bl)) EvStoryboardCmdWithNoSprite).
Proof. exact comment_cuts. Qed.
Print Assumptions C73_events_command.
Example C73_events_ex : let sprite := "Sprite,Pass,Centre,""a.png"",320,240"%string in
  (exists x y, events_from_str true (C73_file [sprite; " F,0,1,2,0"; "2,5,9"]%string) 14%Z = ROk (Some [x; y])
   /\ events_from_str true (C73_file [sprite; " F,0,1,2,0"; "// fade"; "2,5,9"]%string) 14%Z = ROk (Some [x; EComment (lit " fade"); y]))
  /\ events_from_str true (C73_file [sprite; "//fade"; ""; " F,0,1,2,0"; "2,5,9"]%string) 14%Z = RErr (mk_line_err 3%Z EvStoryboardCmdWithNoSprite).
Proof. cbv zeta. split; [eexists; eexists; split; vm_compute; reflexivity|vm_compute; reflexivity]. Qed.

(** C73. A timing point that is commented out is still there, with a time that is not a number. *)
Theorem C73_timing_points : forall s s' v a l b xs, lines s = a ++ l :: b -> lines s' = a ++ out l :: b -> is_blank l = false ->
  timing_points_from_str s v = ROk (Some xs) ->
  exists p x q, xs = p ++ x :: q /\ length p = length (filter (fun l => negb (is_blank l)) a)
  /\ timing_points_from_str s' v = ROk (Some (p ++ with_time (DRaw (out (first_field l))) x :: q)).
Proof. exact points_out. Qed.
Print Assumptions C73_timing_points.
(** C73. So is a hit object, in a place that is not a number. *)
Theorem C73_hit_objects : forall s s' v a l b xs, lines s = a ++ l :: b -> lines s' = a ++ out l :: b -> is_blank l = false ->
  hit_objects_from_str s v = ROk (Some xs) ->
  exists p x q, xs = p ++ x :: q /\ length p = length (filter (fun l => negb (is_blank l)) a)
  /\ hit_objects_from_str s' v = ROk (Some (p ++ with_x (DRaw (out (first_field l))) x :: q)).
Proof. exact objects_out. Qed.
Print Assumptions C73_hit_objects.
Example C73_lists_ex :
  (exists x y, timing_points_from_str (C73_file ["1,2,4,1,0,9,1,0"; "5,2,4,1,0,9,1,0"]%string) 14%Z = ROk (Some [x; y])
   /\ timing_points_from_str (C73_file ["1,2,4,1,0,9,1,0"; "//5,2,4,1,0,9,1,0"]%string) 14%Z = ROk (Some [x; with_time (DRaw (lit "//5")) y]))
  /\ (exists o, hit_objects_from_str (lit "1,2,3,1,0") 14%Z = ROk (Some [o]) /\ hit_objects_from_str (lit "//1,2,3,1,0") 14%Z = ROk (Some [with_x (DRaw (lit "//1")) o])).
Proof. split; [eexists; eexists; split; vm_compute; reflexivity|eexists; split; vm_compute; reflexivity]. Qed.

(** C73. Colours, storyboard variables and the sections of keys and values with a comment are not read. *)
Theorem C73_colours : forall s v l c, old_version v = false -> In l (lines s) -> trim l = out c -> forall x, colours_from_str s v <> ROk x.
Proof. exact colours_out. Qed.
Print Assumptions C73_colours.
Theorem C73_variables : forall s c, In (out c) (lines s) -> forall x, variables_from_str s <> ROk x.
Proof. exact variables_out. Qed.
Print Assumptions C73_variables.
Theorem C73_keys : forall s v, has_comment s -> (forall x, general_from_str s v <> ROk x) /\ (forall x, editor_from_str s v <> ROk x)
  /\ (forall x, metadata_from_str s v <> ROk x) /\ (forall x, difficulty_from_str s v <> ROk x).
Proof. exact keys_out. Qed.
Print Assumptions C73_keys.
Example C73_refused_ex :
  colours_from_str (C73_file ["Combo1: 1,2,3"; " // Combo2: 1,2,3"]%string) 14%Z = RErr (mk_line_err 1%Z ColUnknownType)
  /\ trim (lit " // Combo2: 1,2,3") = out (lit " Combo2: 1,2,3")
  /\ variables_from_str (C73_file ["$a=1"; "//$b=2"]%string) = RErr (mk_line_err 1%Z VarMissingHeader)
  /\ has_comment (C73_file ["Mode: 0"; " // Countdown: 1"]%string)
  /\ general_from_str (C73_file ["Mode: 0"; " // Countdown: 1"]%string) 14%Z = RErr (mk_line_err 2%Z GenKey)
  /\ general_from_str (C73_file ["Mode: 0"; "// nothing"]%string) 14%Z = RErr (mk_line_err 1%Z GenColonSet)
  /\ general_from_str (lit "AudioFilename: //a") 14%Z <> RErr (mk_line_err 0%Z GenKey).
Proof.
  split; [vm_compute; reflexivity|]. split; [vm_compute; reflexivity|]. split; [vm_compute; reflexivity|]. split.
  { exists (lit "Mode: 0" ++ nl), (lit " "), (lit " Countdown: 1"). split; [reflexivity|]. split; [right; now exists (lit "Mode: 0")|reflexivity]. }
  split; [vm_compute; reflexivity|]. split; [vm_compute; reflexivity|vm_compute; discriminate].
Qed.
