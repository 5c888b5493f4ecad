(** C57: blank lines do not matter. *)
From Coq Require Import String List NArith ZArith Bool.
From Verif Require Import Str Num Nom Dec Parsers General Editor Metadata Difficulty Colours TimingPoints HitObjects Storyboard
  NormalEvents Events Osb OsuFile Spec SpecText SpecFile SpecOsb SpecBlank FileSamples Blank.
Import ListNotations.
Local Open Scope N_scope.

(** The sections that are lists of lines: only the lines that are not blank count, but for the
    number of the line in an error. *)
Theorem C57_lists : forall dbg vs s t v, packed (lines s) = packed (lines t) ->
  no_line (timing_points_from_str s v) = no_line (timing_points_from_str t v)
  /\ no_line (hit_objects_from_str s v) = no_line (hit_objects_from_str t v)
  /\ no_line (colours_from_str s v) = no_line (colours_from_str t v)
  /\ no_line (events_from_str_vars dbg vs s v) = no_line (events_from_str_vars dbg vs t v)
  /\ no_line (variables_from_str s) = no_line (variables_from_str t).
Proof. exact lists_packed. Qed.
Print Assumptions C57_lists.
(** The sections of keys and values: so it is after the first line. *)
Theorem C57_keys : forall s t v, visible (lines s) = true -> visible (lines t) = true -> packed (lines s) = packed (lines t) ->
  no_line (general_from_str s v) = no_line (general_from_str t v)
  /\ no_line (editor_from_str s v) = no_line (editor_from_str t v)
  /\ no_line (metadata_from_str s v) = no_line (metadata_from_str t v)
  /\ no_line (difficulty_from_str s v) = no_line (difficulty_from_str t v).
Proof. exact keys_same. Qed.
Print Assumptions C57_keys.
(** Whole files whose sections differ in blank lines only are the same file, or are refused for
    the same reason; where the lines before the sections, the empty lines after a header and the
    blanks before the version line do not matter either. *)
Theorem C57_file : forall dbg s s' ws ws' v pre pre' secs secs' tail tail',
  file_layout s ws v pre secs tail -> ended tail = true -> file_layout s' ws' v pre' secs' tail' -> ended tail' = true ->
  Forall2 same_sec secs secs' -> no_line (osu_from_str dbg s) = no_line (osu_from_str dbg s').
Proof. exact file_packed. Qed.
Print Assumptions C57_file.
Theorem C57_osb : forall dbg s s' pre pre' secs secs' tail tail',
  osb_layout s pre secs tail -> ended tail = true -> osb_layout s' pre' secs' tail' -> ended tail' = true ->
  Forall2 same_sec secs secs' -> no_line (osb_from_str dbg s 14%Z) = no_line (osb_from_str dbg s' 14%Z).
Proof. exact osb_packed. Qed.
Print Assumptions C57_osb.

Definition C57_a : str := text_of_lines (map lit ["osu file format v14"; ""; "[General]"; "Mode: 3"; "StackLeniency: 0.7"; ""; "[HitObjects]"; "1,2,3,1,0"; "1,2,4,1,0"]%string).
Definition C57_b : str := text_of_lines (map lit ["osu file format v14"; "//a"; "[General]"; ""; "Mode: 3"; "  "; ""; "StackLeniency: 0.7"; "[HitObjects]"; "1,2,3,1,0"; " "; ""; "1,2,4,1,0"; ""]%string).
Definition C57_secs_a : list sec := [mk_sec (lit "General") 0 (map lit ["Mode: 3"; "StackLeniency: 0.7"; ""]%string); mk_sec (lit "HitObjects") 0 (map lit ["1,2,3,1,0"; "1,2,4,1,0"]%string)].
Definition C57_secs_b : list sec := [mk_sec (lit "General") 1 (map lit ["Mode: 3"; "  "; ""; "StackLeniency: 0.7"]%string); mk_sec (lit "HitObjects") 0 (map lit ["1,2,3,1,0"; " "; ""; "1,2,4,1,0"]%string)].
Example C57_ex :
  file_layout C57_a [] 14%Z [[]; []] C57_secs_a [] /\ file_layout C57_b [] 14%Z [[]; lit "//a"] C57_secs_b []
  /\ Forall2 same_sec C57_secs_a C57_secs_b
  /\ (exists f, osu_from_str true C57_a = ROk f /\ osu_from_str true C57_b = ROk f /\ osu_general f <> None).
Proof.
  assert (V : version_text (lit "14") 14%Z).
  { exact version_14. }
  split; [|split; [|split]].
  - exists (lit "14"), (skipn 19 C57_a). repeat split; try reflexivity; try apply V; try discriminate.
    apply (vh [] [] (lit "14") (skipn 19 C57_a)); try reflexivity; [now left|]. right. vm_compute. eauto.
  - exists (lit "14"), (skipn 19 C57_b). repeat split; try reflexivity; try apply V; try discriminate.
    apply (vh [] [] (lit "14") (skipn 19 C57_b)); try reflexivity; [now left|]. right. vm_compute. eauto.
  - repeat constructor.
  - eexists. split; [vm_compute; reflexivity|]. split; [vm_compute; reflexivity|]. discriminate.
Qed.
Example C57_ex_lists :
  packed (lines (lit "a" ++ [10; 10; 32; 10] ++ lit "b")) = packed (lines ([10] ++ lit "a" ++ [10] ++ lit "b"))
  /\ (let s := text_of_lines (map lit ["1,2,3,1,0"; ""; "x"]%string) in let t := text_of_lines (map lit [""; "1,2,3,1,0"; "x"; " "]%string) in
      packed (lines s) = packed (lines t) /\ hit_objects_from_str s 14%Z = hit_objects_from_str (10 :: text_of_lines (map lit ["1,2,3,1,0"; "x"]%string)) 14%Z
      /\ no_line (hit_objects_from_str s 14%Z) = no_line (hit_objects_from_str t 14%Z)
      /\ exists e, hit_objects_from_str s 14%Z = RErr e).
Proof. vm_compute. repeat split. eexists. reflexivity. Qed.
(** In these sections the lines of any white space, not only spaces and tabs, are the blank ones, ... *)
Theorem C57_white : forall dbg vs s t v, inked (lines s) = inked (lines t) ->
  no_line (timing_points_from_str s v) = no_line (timing_points_from_str t v)
  /\ no_line (hit_objects_from_str s v) = no_line (hit_objects_from_str t v)
  /\ no_line (colours_from_str s v) = no_line (colours_from_str t v)
  /\ no_line (events_from_str_vars dbg vs s v) = no_line (events_from_str_vars dbg vs t v)
  /\ no_line (variables_from_str s) = no_line (variables_from_str t).
Proof. exact lists_inked. Qed.
Print Assumptions C57_white.
(** ... and no others: a section is read as an empty list only if it has nothing but white space. *)
Theorem C57_skipped : forall s v, (variables_from_str s = ROk [] <-> forallb white_line (lines s) = true)
  /\ (hit_objects_from_str s v = ROk (Some []) <-> forallb white_line (lines s) = true).
Proof. exact skipped_both. Qed.
Print Assumptions C57_skipped.
Example C57_white_ex : let s := lit "1,2,3,1,0" ++ [10; 160; 12288; 10] ++ lit "x" in let t := lit "1,2,3,1,0" ++ [10] ++ lit "x" ++ [10; 133; 10] in
  inked (lines s) = inked (lines t) /\ packed (lines s) <> packed (lines t)
  /\ hit_objects_from_str s 14%Z = RErr (mk_line_err 2 HoMissingY) /\ hit_objects_from_str t 14%Z = RErr (mk_line_err 1 HoMissingY)
  /\ hit_objects_from_str [160; 10; 5760] 14%Z = ROk (Some []) /\ hit_objects_from_str [8203] 14%Z = RErr (mk_line_err 0 HoMissingY).
Proof. vm_compute. repeat split; try reflexivity; discriminate. Qed.
(** A section of keys and values that is read on its own must not begin with a blank line. *)
Theorem C57_keys_refuted : exists s t e, packed (lines s) = packed (lines t)
  /\ general_from_str s 14%Z = RErr e /\ exists g, general_from_str t 14%Z = ROk (Some g).
Proof.
  eexists (10 :: lit "Mode: 1"), (lit "Mode: 1"), _. split; [vm_compute; reflexivity|]. split; [vm_compute; reflexivity|]. eexists. vm_compute. reflexivity.
Qed.
Print Assumptions C57_keys_refuted.
