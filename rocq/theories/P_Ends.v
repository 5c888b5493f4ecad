(** C56: only the lines of a text matter, not how they end. *)
From Coq Require Import String List NArith ZArith Bool.
From Verif Require Import Str Num Nom Dec Parsers General Editor Metadata Difficulty Colours TimingPoints HitObjects Storyboard
  NormalEvents Events Osb OsuFile Trimmer Spec SpecWf SpecText SpecFile SpecEnds Ends.
Import ListNotations.
Local Open Scope N_scope.

(** What the lines of a text are. *)
Theorem C56_lines : forall s ls, lines s = ls <-> made_of s ls.
Proof. exact lines_iff. Qed.
Print Assumptions C56_lines.
(** Two texts with the same lines are the same file, or are refused for the same reason at the
    same line, or stop the reader in the same way. *)
Theorem C56_osu : forall dbg s t, lines s = lines t -> osu_from_str dbg s = osu_from_str dbg t.
Proof. exact ends_osu. Qed.
Print Assumptions C56_osu.
(** So it is for storyboard files, [append_osb] and the text comparison, *)
Theorem C56_osb : forall dbg s t v f, lines s = lines t ->
  osb_from_str dbg s v = osb_from_str dbg t v /\ append_osb dbg f s = append_osb dbg f t /\ osu_str_trimmer s = osu_str_trimmer t.
Proof. exact ends_osb. Qed.
Print Assumptions C56_osb.
(** and for each of the sections read on its own. *)
Theorem C56_sections : forall dbg s t v, lines s = lines t ->
  general_from_str s v = general_from_str t v /\ editor_from_str s v = editor_from_str t v
  /\ metadata_from_str s v = metadata_from_str t v /\ difficulty_from_str s v = difficulty_from_str t v
  /\ events_from_str dbg s v = events_from_str dbg t v /\ timing_points_from_str s v = timing_points_from_str t v
  /\ colours_from_str s v = colours_from_str t v /\ hit_objects_from_str s v = hit_objects_from_str t v.
Proof. exact ends_sections. Qed.
Print Assumptions C56_sections.
(** Texts with the endings of Windows are read like those with the endings of Unix. *)
Theorem C56_crlf : forall dbg s, no_crlf s = true -> osu_from_str dbg (with_ends [13; 10] s) = osu_from_str dbg s.
Proof. exact ends_crlf. Qed.
Print Assumptions C56_crlf.
(** The last line need not be ended. *)
Theorem C56_newline : forall dbg s, s <> [] -> ends_with_char 10 s = false -> ends_with_char 13 s = false ->
  osu_from_str dbg (s ++ [10]) = osu_from_str dbg s.
Proof. exact ends_newline. Qed.
Print Assumptions C56_newline.

Definition C56_text : str :=
  join [10] (map lit ["osu file format v14"; ""; "[General]"; "AudioFilename: a b.mp3"; "Mode: 3"; ""; "[Events]"; "0,0,""a.jpg"",0,0"; ""; "[Metadata]"; "Tags: a b"]%string).
Example C56_ex :
  no_crlf C56_text = true /\ ends_with_char 10 C56_text = false
  /\ (exists f, osu_from_str true C56_text = ROk f /\ osu_from_str true (with_ends [13; 10] C56_text) = ROk f
       /\ osu_from_str true (with_ends [13; 10] C56_text ++ [13; 10]) = ROk f)
  /\ lines (lit "a" ++ [13; 10] ++ lit "b") = lines (lit "a" ++ [10] ++ lit "b" ++ [13; 10]).
Proof.
  split; [vm_compute; reflexivity|]. split; [vm_compute; reflexivity|]. split; [|vm_compute; reflexivity].
  eexists. split; [vm_compute; reflexivity|]. split; vm_compute; reflexivity.
Qed.
(** Carriage returns alone do not end lines: the second section is lost. *)
Theorem C56_cr_refuted : exists s f g, osu_from_str true s = ROk f /\ osu_from_str true (with_ends [13] s) = ROk g /\ f <> g
  /\ osu_general f <> None /\ osu_general g = None.
Proof.
  eexists (join [10] (map lit ["osu file format v14"; ""; "[Events]"; "//none"; ""; "[General]"; "Mode: 3"]%string)), _, _.
  split; [vm_compute; reflexivity|]. split; [vm_compute; reflexivity|]. split; [discriminate|]. split; [discriminate|reflexivity].
Qed.
Print Assumptions C56_cr_refuted.
