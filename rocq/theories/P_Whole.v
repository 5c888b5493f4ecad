(** C33: a whole file is written and read back; C34: unless a section has no lines; C17: in
    which order it is written. *)
From Coq Require Import String List NArith ZArith Bool.
From Verif Require Import Str Num Dec Parsers General Editor Metadata Difficulty Colours TimingPoints HitObjects
  Storyboard NormalEvents Events Osb OsuFile Spec SpecWf SpecText SpecSections SpecFile SpecEvents SpecWhole SpecTotal
  Samples KvSamples WholeFacts WholeRead EmptyPrint.
Import ListNotations.
Local Open Scope N_scope.

(** From version 5 on, a file whose sections can each be written is printed: the version
    line, an empty line, and the sections in the order of the format; reading the text
    gives the same file, without the storyboard file and without the fields of [General]
    and [Editor] that the version does not have. *)
Theorem C33_round_trip : forall dbg f, file_ok f = true ->
  exists t secs, osu_to_string dbg f = ROk t
  /\ file_layout t [] (osu_version f) [[]; []] secs [] /\ map sec_name secs = names_of f
  /\ osu_from_str dbg t = ROk (file_at f).
Proof. exact whole_file. Qed.
Print Assumptions C33_round_trip.
(** Whatever is read from a text without stray carriage returns can be saved and loaded
    again, and saving it a second time changes nothing; the sections must have a line
    left, and the values whose loss C04 and C05 describe must be absent. *)
Theorem C33_reread : forall dbg s f,
  osu_from_str dbg s = ROk f -> forallb no_cr (lines s) = true -> file_kept f = true ->
  exists t, osu_to_string dbg f = ROk t /\ osu_from_str dbg t = ROk (file_at (file_written f))
  /\ osu_to_string dbg (file_at (file_written f)) = ROk t.
Proof. exact file_reread. Qed.
Print Assumptions C33_reread.
(** What the text does not keep does not show in the text either. *)
Theorem C33_stable : forall dbg f, mode_known f = true -> osu_to_string dbg (file_at f) = osu_to_string dbg f.
Proof. exact print_at. Qed.
Print Assumptions C33_stable.

Definition C33_file : osu_file :=
  mk_osu 14%Z None None None (Some metadata1) (Some difficulty1)
    (Some [EComment (lit "Break Periods"); EBreak (mk_brk 100%Z 2500%Z true)]) (Some [tp1])
    (Some [Combo 1 (mk_rgb 255 128 0)]) (Some [ho1; ho2; ho3; ho4; ho5]).
Example C33_ex :
  file_ok C33_file = true /\ file_at C33_file = C33_file /\ mode_known C33_file = true
  /\ names_of C33_file
     = [lit "Metadata"; lit "Difficulty"; lit "Events"; lit "TimingPoints"; lit "Colours"; lit "HitObjects"]
  /\ match osu_to_string true C33_file with
     | ROk t => osu_from_str true t = ROk C33_file
     | _ => False
     end.
Proof. vm_compute. repeat split. Qed.
(** A file as an editor writes it, with an event that is written with quotes. *)
Definition C33_text : str :=
  crlf_text [lit "osu file format v14"; []; lit "[General]"; lit "AudioFilename: a.mp3"; lit "AudioHash: x"; lit "Mode: 3"; [];
    lit "[Events]"; lit "0,0,a b.jpg,0,0"; []; lit "[HitObjects]"; lit "1,2,300,1,0,0:0:0:0:"].
Example C33_ex_reread :
  forallb no_cr (lines C33_text) = true
  /\ match osu_from_str true C33_text with
     | ROk f => file_kept f = true /\ file_ok f = false /\ file_at f <> f
                /\ osu_to_string true f
                   = ROk (text_of_lines [lit "osu file format v14"; []; lit "[General]"; lit "AudioFilename: a.mp3"; lit "Mode: 3"; [];
                            lit "[Events]"; lit "0,0,""a b.jpg"",0,0"; []; lit "[HitObjects]"; lit "1,2,300,1,0,0:0:0:0:"])
     | _ => False
     end.
Proof. vm_compute. repeat split. intros H. discriminate H. Qed.

(** C34 for printed files: the files that C33 does not cover only because some section has
    no line. *)
Theorem C34_fine : forall f, file_fine f = true -> (hollow f = [] <-> file_ok f = true).
Proof. exact fine_ok. Qed.
Print Assumptions C34_fine.
(** Such a file is printed.  If the section without lines is the last one, reading the text
    panics with overflow checks and gives the file back without; otherwise the text is
    never read. *)
Theorem C34_printed : forall dbg f, file_fine f = true -> hollow f <> [] -> exists t, osu_to_string dbg f = ROk t
  /\ (hollow f = [last (names_of f) []] ->
      if dbg then panics (osu_from_str dbg t) else osu_from_str dbg t = ROk (file_at f))
  /\ (hollow f <> [last (names_of f) []] -> forall g, osu_from_str dbg t <> ROk g).
Proof. exact print_hollow. Qed.
Print Assumptions C34_printed.
Definition C34_last : osu_file :=
  mk_osu 14%Z None None None (Some metadata1) None None (Some [tp1]) None (Some []).
Definition C34_middle : osu_file :=
  mk_osu 14%Z None None None (Some metadata1) None (Some []) (Some [tp1]) None (Some [ho1]).
Example C34_printed_ex :
  file_fine C34_last = true /\ hollow C34_last = [lit "HitObjects"] /\ last (names_of C34_last) [] = lit "HitObjects"
  /\ file_fine C34_middle = true /\ hollow C34_middle = [lit "Events"] /\ last (names_of C34_middle) [] = lit "HitObjects"
  /\ match osu_to_string true C34_last, osu_to_string true C34_middle with
     | ROk t, ROk t' => osu_from_str true t = RPanic POverflow /\ osu_from_str false t = ROk C34_last
         /\ osu_from_str true t' = RErr (mk_line_err 15 (OsuEvents EvUnknownEventType))
     | _, _ => False
     end.
Proof. vm_compute. repeat split. Qed.

(** C17: whatever is printed consists of the version line and the texts of the sections
    that are there, always in the order of the format. *)
Theorem C17_print_order : forall dbg f t, osu_to_string dbg f = ROk t -> exists parts,
  t = lit "osu file format v" ++ print_Z (osu_version f) ++ [10; 10] ++ sections_text parts
  /\ sublist (map fst parts) section_names /\ forall n b, In (n, b) parts <-> section_text dbg f n b.
Proof. exact print_order. Qed.
Print Assumptions C17_print_order.
Example C17_print_ex :
  osu_to_string true (mk_osu 14%Z None None None None None (Some []) None (Some [Combo 1 (mk_rgb 1 2 3)]) None)
  = ROk (text_of_lines [lit "osu file format v14"; []; lit "[Events]"; []; []; lit "[Colours]"; lit "Combo1 : 1,2,3"]).
Proof. vm_compute. reflexivity. Qed.
