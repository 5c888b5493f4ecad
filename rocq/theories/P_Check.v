(** C60: the check that the documentation of the crate shows, comparing a text with what is
    saved of it. *)
From Coq Require Import String List NArith ZArith Bool Permutation.
From Verif Require Import Str Num Dec Parsers General Editor Metadata Difficulty Colours TimingPoints HitObjects
  Storyboard NormalEvents Events Osb OsuFile Trimmer Spec SpecWf SpecText SpecKv SpecSections SpecFile SpecEvents SpecOsb SpecWhole SpecBack SpecEnds SpecBlank SpecCheck
  CheckFacts.
Import ListNotations.
Local Open Scope N_scope.

(** Two texts of one version with the same sections in the same order, where the sections of
    keys hold the same keys and values and the others the same lines: when one is read, the
    other is read as the same file, and [osu_str_eq] finds them equal. *)
Theorem C60_relaid : forall dbg v s t secs secs' g, (3 <= v <= 14)%Z ->
  laid_out s v secs -> laid_out t v secs' -> Forall2 relaid secs secs' ->
  osu_from_str dbg t = ROk g -> osu_from_str dbg s = ROk g /\ osu_str_eq s t = true.
Proof. exact check. Qed.
Print Assumptions C60_relaid.
(** The check passes on a text laid out like a saved file but for the order of the keys, blanks
    after the colons, blank lines, and the lines before the first section. *)
Theorem C60_saved : forall dbg f, file_can f = true -> mode_known f = true -> exists t secs,
  osu_to_string dbg (file_back f) = ROk t /\ laid_out t (osu_version f) secs /\ map sec_name secs = names_of (file_back f)
  /\ forall s secs', laid_out s (osu_version f) secs' -> Forall2 relaid secs' secs ->
     osu_from_str dbg s = ROk (file_back f) /\ osu_str_eq t s = true.
Proof. exact saved_check. Qed.
Print Assumptions C60_saved.

Definition C60_text : str := [65279] ++ crlf_text [lit "osu file format v14"; lit "// by hand"; []; lit "[General]"; []; lit "Mode:0"; lit "AudioFilename:   a b.mp3"; lit "  "; lit "[Difficulty]"; lit "HPDrainRate:5"; [];
  lit "[TimingPoints]"; lit "10,344.8,4,2,1,70,1,0"; []; []; lit "20,-50,4,2,1,70,0,0"].
Definition C60_secs : list sec :=
  [mk_sec (lit "General") 1 [lit "Mode:0"; lit "AudioFilename:   a b.mp3"; lit "  "]; mk_sec (lit "Difficulty") 0 [lit "HPDrainRate:5"; []];
   mk_sec (lit "TimingPoints") 0 [lit "10,344.8,4,2,1,70,1,0"; []; []; lit "20,-50,4,2,1,70,0,0"]].
Definition C60_saved_text : str := text_of_lines [lit "osu file format v14"; []; lit "[General]"; lit "AudioFilename: a b.mp3"; lit "Mode: 0"; []; lit "[Difficulty]"; lit "HPDrainRate:5"; [];
  lit "[TimingPoints]"; lit "10,344.8,4,2,1,70,1,0"; lit "20,-50,4,2,1,70,0,0"].
Definition C60_saved_secs : list sec :=
  [mk_sec (lit "General") 0 [lit "AudioFilename: a b.mp3"; lit "Mode: 0"; []]; mk_sec (lit "Difficulty") 0 [lit "HPDrainRate:5"; []];
   mk_sec (lit "TimingPoints") 0 [lit "10,344.8,4,2,1,70,1,0"; lit "20,-50,4,2,1,70,0,0"]].
Example C60_ex :
  laid_out C60_text 14%Z C60_secs /\ laid_out C60_saved_text 14%Z C60_saved_secs /\ Forall2 relaid C60_secs C60_saved_secs
  /\ match osu_from_str true C60_text with
     | ROk f => file_can f = true /\ mode_known f = true /\ file_back f = f /\ osu_to_string true f = ROk C60_saved_text
     | _ => False
     end.
Proof.
  split; [exists [65279], [lit "// by hand"; []]; split; [now right|]; vm_compute; repeat split|].
  split; [exists [], [[]]; split; [now left|]; vm_compute; repeat split|]. split; [|vm_compute; repeat split].
  unfold C60_secs, C60_saved_secs. constructor; [|constructor; [|constructor; [|constructor]]]; split; try reflexivity.
  - left. split; [now left|]. split; [vm_compute; reflexivity|]. split; [vm_compute; reflexivity|]. vm_compute. apply perm_swap.
  - left. split; [cbn; tauto|]. split; [vm_compute; reflexivity|]. split; [vm_compute; reflexivity|]. vm_compute. apply Permutation_refl.
  - right. vm_compute. reflexivity.
Qed.
(** Storyboard files: the same lines with blank lines and comments elsewhere are read alike and
    found equal. *)
Theorem C60_osb : forall dbg s t pre pre' secs secs' o, osb_layout s pre secs [] -> osb_layout t pre' secs' [] -> Forall2 same_sec secs secs' ->
  osb_from_str dbg t 14%Z = ROk (Some o) -> osb_from_str dbg s 14%Z = ROk (Some o) /\ osu_str_eq s t = true.
Proof. exact osb_check. Qed.
Print Assumptions C60_osb.
Definition C60_board : str := crlf_text [lit "// by hand"; lit "[Variables]"; lit "$half=0.5"; lit "  "; lit "$end=7500"; lit "[Events]"; []; lit "Sprite,Pass,Centre,sb/x.png,320,240"; []; lit " F,0,0,$end,$half"].
Definition C60_board_secs : list sec :=
  [mk_sec (lit "Variables") 0 [lit "$half=0.5"; lit "  "; lit "$end=7500"]; mk_sec (lit "Events") 1 [lit "Sprite,Pass,Centre,sb/x.png,320,240"; []; lit " F,0,0,$end,$half"]].
Definition C60_board_text : str := text_of_lines [lit "[Variables]"; lit "$half=0.5"; lit "$end=7500"; []; lit "[Events]"; lit "Sprite,Pass,Centre,sb/x.png,320,240"; lit " F,0,0,$end,$half"].
Definition C60_board_saved : list sec :=
  [mk_sec (lit "Variables") 0 [lit "$half=0.5"; lit "$end=7500"; []]; mk_sec (lit "Events") 0 [lit "Sprite,Pass,Centre,sb/x.png,320,240"; lit " F,0,0,$end,$half"]].
Example C60_osb_ex :
  osb_layout C60_board [lit "// by hand"] C60_board_secs [] /\ osb_layout C60_board_text [] C60_board_saved [] /\ Forall2 same_sec C60_board_secs C60_board_saved
  /\ match osb_from_str true C60_board 14%Z with ROk (Some o) => osb_to_string true o 14%Z = ROk (Some C60_board_text) | _ => False end.
Proof. split; [vm_compute; repeat split|]. split; [vm_compute; repeat split|]. split; [repeat constructor|]. vm_compute. reflexivity. Qed.

Definition C60_read (s : str) : osu_file := match osu_from_str true s with ROk f => f | _ => osu_new 14%Z end.
Definition C60_save (s : str) : str := match osu_to_string true (C60_read s) with ROk t => t | _ => [] end.
(** The check does not pass on every text that can be read and saved: a value may be saved in
    another spelling, and sections are saved in the order of the format. *)
Theorem C60_every_refuted : exists s s' f f' t t',
  osu_from_str true s = ROk f /\ osu_to_string true f = ROk t /\ osu_from_str true t = ROk f /\ osu_str_eq t s = false
  /\ osu_from_str true s' = ROk f' /\ osu_to_string true f' = ROk t' /\ osu_from_str true t' = ROk f' /\ osu_str_eq t' s' = false.
Proof.
  exists (text_of_lines [lit "osu file format v14"; []; lit "[General]"; lit "Countdown: 01"]),
    (text_of_lines [lit "osu file format v14"; []; lit "[Difficulty]"; lit "HPDrainRate:5"; []; lit "[General]"; lit "Mode: 0"]).
  set (s := text_of_lines _). set (s' := text_of_lines _).
  exists (C60_read s), (C60_read s'), (C60_save s), (C60_save s'). vm_compute. repeat split.
Qed.
Print Assumptions C60_every_refuted.
(** Nor are texts that [osu_str_eq] finds equal read alike: one may be refused. *)
Theorem C60_converse_refuted : exists s t f, osu_str_eq s t = true /\ osu_from_str true t = ROk f /\ forall g, osu_from_str true s <> ROk g.
Proof.
  exists (text_of_lines [lit "osu file format v14"; []; lit "[General]"; lit "Mode : 0"; lit "AudioFilename: a"]),
    (text_of_lines [lit "osu file format v14"; []; lit "[General]"; lit "Mode: 0"; lit "AudioFilename: a"]).
  set (t := text_of_lines [lit "osu file format v14"; []; lit "[General]"; lit "Mode: 0"; lit "AudioFilename: a"]). exists (C60_read t).
  split; [vm_compute; reflexivity|]. split; [vm_compute; reflexivity|]. intros g H. vm_compute in H. discriminate H.
Qed.
Print Assumptions C60_converse_refuted.
