(** Property theorems C74: what it means when [osu_str_eq] finds two texts equal. *)
From Coq Require Import String List NArith ZArith Bool Permutation.
From Verif Require Import Str Num Dec Nom Parsers KeyValue General Editor Metadata Difficulty Colours TimingPoints HitObjects
  Storyboard NormalEvents Events Osb OsuFile Trimmer Spec SpecText SpecKv SpecFile SpecEvents SpecTrim SpecCheck SpecWalk SpecPass Pass.
Import ListNotations.
Local Open Scope N_scope.

(** C74. Two texts without blanks in places where the comparison drops them: when both are read and
    [osu_str_eq] finds them equal, they are the same file but for the order in the lists. *)
Theorem C74_passes : forall dbg s t v w secs secs' f g, (3 <= v <= 14)%Z -> (3 <= w <= 14)%Z ->
  laid_out s v secs -> laid_out t w secs' -> no_bom s = true -> no_bom t = true -> forallb bare secs = true -> forallb bare secs' = true ->
  osu_from_str dbg s = ROk f -> osu_from_str dbg t = ROk g -> osu_str_eq s t = true -> same_but_order f g.
Proof. exact (fun dbg s t v w secs secs' f g H1 H2 H3 H4 H5 H6 H7 H8 H9 H10 H11 => proj1 (passes dbg s t v w secs secs' f g H1 H2 H3 H4 H5 H6 H7 H8 H9 H10 H11)). Qed.
Print Assumptions C74_passes.
(** C74. A list with a line that has no colon is even the same in order. *)
Theorem C74_order : forall dbg s t v w secs secs' f g, (3 <= v <= 14)%Z -> (3 <= w <= 14)%Z ->
  laid_out s v secs -> laid_out t w secs' -> no_bom s = true -> no_bom t = true -> forallb bare secs = true -> forallb bare secs' = true ->
  osu_from_str dbg s = ROk f -> osu_from_str dbg t = ROk g -> osu_str_eq s t = true ->
  (has_plain_line secs "Events" -> osu_events f = osu_events g)
  /\ (has_plain_line secs "TimingPoints" -> osu_timing_points f = osu_timing_points g)
  /\ (has_plain_line secs "HitObjects" -> osu_hitobjects f = osu_hitobjects g).
Proof. exact (fun dbg s t v w secs secs' f g H1 H2 H3 H4 H5 H6 H7 H8 H9 H10 H11 => proj2 (passes dbg s t v w secs secs' f g H1 H2 H3 H4 H5 H6 H7 H8 H9 H10 H11)). Qed.
Print Assumptions C74_order.

Definition C74_a : str := text_of_lines (map lit ["osu file format v14"; ""; "[General]"; "AudioFilename: a.mp3"; "Mode: 1"; ""; "[TimingPoints]"; "10,344.8,4,2,1,70,1,0"; "20,-50,4,2,1,70,0,0"; "";
  "[Colours]"; "Combo1 : 1,2,3"; "Combo2 : 4,5,6"; ""; "[HitObjects]"; "1,2,30,1,0,0:0:0:0:"; "1,2,5,1,0,0:0:0:0:"]%string).
Definition C74_secs_a : list sec :=
  [mk_sec (lit "General") 0 (map lit ["AudioFilename: a.mp3"; "Mode: 1"; ""]%string); mk_sec (lit "TimingPoints") 0 (map lit ["10,344.8,4,2,1,70,1,0"; "20,-50,4,2,1,70,0,0"; ""]%string);
   mk_sec (lit "Colours") 0 (map lit ["Combo1 : 1,2,3"; "Combo2 : 4,5,6"; ""]%string); mk_sec (lit "HitObjects") 0 (map lit ["1,2,30,1,0,0:0:0:0:"; "1,2,5,1,0,0:0:0:0:"]%string)].
Definition C74_b : str := text_of_lines (map lit ["osu file format v14"; "//b"; "[General]"; "Mode:1"; "AudioFilename:a.mp3"; "[TimingPoints]"; "10,344.8,4,2,1,70,1,0"; ""; "20,-50,4,2,1,70,0,0";
  "[Colours]"; "Combo2:4 ,5,6"; " Combo1: 1,2,3"; "[HitObjects]"; "1,2,5,1,0,0:0:0:0:"; "1,2,30,1,0,0:0:0:0:"]%string).
Definition C74_secs_b : list sec :=
  [mk_sec (lit "General") 0 (map lit ["Mode:1"; "AudioFilename:a.mp3"]%string); mk_sec (lit "TimingPoints") 0 (map lit ["10,344.8,4,2,1,70,1,0"; ""; "20,-50,4,2,1,70,0,0"]%string);
   mk_sec (lit "Colours") 0 (map lit ["Combo2:4 ,5,6"; " Combo1: 1,2,3"]%string); mk_sec (lit "HitObjects") 0 (map lit ["1,2,5,1,0,0:0:0:0:"; "1,2,30,1,0,0:0:0:0:"]%string)].
(** The keys, the colours and the hit objects in another order, found equal; the timing points have
    no colons, so that their order counts. *)
Example C74_ex : laid_out C74_a 14%Z C74_secs_a /\ laid_out C74_b 14%Z C74_secs_b /\ no_bom C74_a = true /\ no_bom C74_b = true
  /\ forallb bare C74_secs_a = true /\ forallb bare C74_secs_b = true /\ osu_str_eq C74_a C74_b = true
  /\ has_plain_line C74_secs_a "TimingPoints"
  /\ exists f g, osu_from_str true C74_a = ROk f /\ osu_from_str true C74_b = ROk g /\ osu_hitobjects f <> osu_hitobjects g /\ osu_colours f <> osu_colours g.
Proof.
  split; [exists [], [[]]; split; [now left|]; vm_compute; repeat split|].
  split; [exists [], [lit "//b"]; split; [now left|]; vm_compute; repeat split|].
  repeat (split; [vm_compute; reflexivity|]).
  split; [exists (mk_sec (lit "TimingPoints") 0 (map lit ["10,344.8,4,2,1,70,1,0"; "20,-50,4,2,1,70,0,0"; ""]%string)), (lit "20,-50,4,2,1,70,0,0"); split; [right; left; reflexivity|]; split; [reflexivity|]; split; [vm_compute; tauto|reflexivity]|].
  eexists _, _. split; [vm_compute; reflexivity|]. split; [vm_compute; reflexivity|]. split; vm_compute; discriminate.
Qed.
(** C74. Blanks cannot be allowed: a decimal with a blank in it is not that number, ... *)
Theorem C74_number_refuted : exists s t f g, osu_str_eq s t = true /\ osu_from_str true s = ROk f /\ osu_from_str true t = ROk g
  /\ option_map difficulty_hp_drain_rate (osu_difficulty f) = Some (Some (DNum (mkDec false 10 0)))
  /\ option_map difficulty_hp_drain_rate (osu_difficulty g) = Some (Some (DRaw (lit "1 0"))).
Proof.
  eexists (text_of_lines (map lit ["osu file format v14"; "[Difficulty]"; "HPDrainRate:10"]%string)), (text_of_lines (map lit ["osu file format v14"; "[Difficulty]"; "HPDrainRate:1 0"]%string)), _, _.
  split; [vm_compute; reflexivity|]. split; [vm_compute; reflexivity|]. split; [vm_compute; reflexivity|]. split; reflexivity.
Qed.
Print Assumptions C74_number_refuted.
(** ... and the indentation of storyboard commands is not compared: here one fade belongs to the loop, there it
    does not. *)
Theorem C74_nesting_refuted : exists s t f g, osu_str_eq s t = true /\ osu_from_str true s = ROk f /\ osu_from_str true t = ROk g
  /\ osu_to_string true f = ROk s /\ osu_to_string true g = ROk t
  /\ option_map (map (fun e => length (commands_of e))) (osu_events f) = Some [1%nat]
  /\ option_map (map (fun e => length (commands_of e))) (osu_events g) = Some [2%nat].
Proof.
  eexists (text_of_lines (map lit ["osu file format v14"; ""; "[Events]"; "Sprite,Pass,Centre,""a.png"",320,240"; " L,0,3"; "  F,0,0,100,1"]%string)),
    (text_of_lines (map lit ["osu file format v14"; ""; "[Events]"; "Sprite,Pass,Centre,""a.png"",320,240"; " L,0,3"; " F,0,0,100,1"]%string)), _, _.
  split; [vm_compute; reflexivity|]. split; [vm_compute; reflexivity|]. split; [vm_compute; reflexivity|]. split; [vm_compute; reflexivity|]. split; [vm_compute; reflexivity|]. split; vm_compute; reflexivity.
Qed.
Print Assumptions C74_nesting_refuted.
