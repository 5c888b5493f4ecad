(** C40: what the reader of .osu files makes of any text at all. *)
From Coq Require Import String List NArith ZArith Bool.
From Verif Require Import Str Num Nom Dec Parsers KeyValue General Editor Metadata Difficulty Colours
  TimingPoints HitObjects Storyboard NormalEvents Events Osb OsuFile Spec SpecText SpecKv SpecSections SpecEvents SpecFile SpecTotal
  FileSamples TotalFacts TotalSamples.
Import ListNotations.
Local Open Scope N_scope.

(** Every text is of one of four kinds. *)
Theorem C40_cases : forall s,
  no_version s \/ bad_version s \/ (exists k, file_stray s k) \/ exists v cs, file_chunks s v cs.
Proof. exact total_cases. Qed.
Print Assumptions C40_cases.
(** Of one kind only, and with one list of sections only. *)
Theorem C40_unique : forall s,
  (no_version s -> ~ bad_version s /\ (forall k, ~ file_stray s k) /\ forall v cs, ~ file_chunks s v cs)
  /\ (bad_version s -> (forall k, ~ file_stray s k) /\ forall v cs, ~ file_chunks s v cs)
  /\ (forall k, file_stray s k -> (forall k', file_stray s k' -> k' = k) /\ forall v cs, ~ file_chunks s v cs)
  /\ forall v cs, file_chunks s v cs -> forall v' cs', file_chunks s v' cs' -> v' = v /\ cs' = cs.
Proof. exact total_unique. Qed.
Print Assumptions C40_unique.
(** A stray line before the first section is the error (texts without a version or with a
    version that is not supported: C21). *)
Theorem C40_stray : forall dbg s k, file_stray s k ->
  osu_from_str dbg s = RErr (mk_line_err (Z.of_nat k) OsuUnexpectedLine).
Proof. exact total_stray. Qed.
Print Assumptions C40_stray.
(** Otherwise the text is read exactly when all its sections are known, different and
    readable; with overflow checks none of them may be empty. *)
Theorem C40_read : forall dbg s v cs f, file_chunks s v cs ->
  (osu_from_str dbg s = ROk f <-> all_read dbg v (map ch_sec cs) (osu_new v) f /\ no_empty dbg cs).
Proof. exact total_read. Qed.
Print Assumptions C40_read.
(** It is refused exactly because of the first section that is twice there, unknown or
    refused by its reader. *)
Theorem C40_error : forall dbg s v cs e, file_chunks s v cs ->
  ((exists j, osu_from_str dbg s = RErr (mk_line_err j e)) <->
   exists before x g d, reaches dbg v cs before x g /\ complaint dbg v (map ch_sec before) (ch_sec x) d e).
Proof. exact total_error. Qed.
Print Assumptions C40_error.
(** The reader panics exactly at the first section whose reader panics, or, with overflow
    checks, at an empty one. *)
Theorem C40_panic : forall dbg s v cs, file_chunks s v cs -> (panics (osu_from_str dbg s) <->
  exists before x g, reaches dbg v cs before x g /\ ~ In (ch_name x) (map ch_name before)
    /\ (breaks dbg v (ch_sec x) \/ dbg = true /\ In (ch_name x) section_names /\ ch_body x = [])).
Proof. exact total_panic. Qed.
Print Assumptions C40_panic.
(** From version 5 on only bad lines in [Events], ids in [Metadata] that are no numbers and,
    with overflow checks, an empty section can make it panic. *)
Theorem C40_safe : forall dbg s v cs p, file_chunks s v cs -> old_version v = false -> no_empty dbg cs ->
  (forall x l, In x cs -> ch_name x = lit "Events" -> In l (lines (ch_body x)) -> ~ bad_line l) ->
  (forall x es t e, In x cs -> ch_name x = lit "Metadata" -> ch_body x = kv_text es ++ t -> In e es ->
     id_key (entry_key e) -> i32_text (entry_value e)) ->
  osu_from_str dbg s <> RPanic p.
Proof. exact total_safe. Qed.
Print Assumptions C40_safe.
(** What does not begin like a section is dropped without a word, with all that follows. *)
Theorem C40_ignored : forall dbg s v, file_chunks s v [] -> osu_from_str dbg s = ROk (osu_new v).
Proof. exact total_ignored. Qed.
Print Assumptions C40_ignored.

Example C40_read_ex : file_chunks sample_two 14%Z [chunk_general; chunk_colours]
  /\ exists f, osu_from_str true sample_two = ROk f /\ osu_general f <> None /\ osu_colours f <> None.
Proof. split; [exact sample_two_chunks|]. eexists. split; [vm_compute; reflexivity|]. split; discriminate. Qed.
Example C40_error_ex : file_chunks sample_twice 14%Z [chunk_colours; chunk_colours]
  /\ osu_from_str true sample_twice = RErr (mk_line_err 4 OsuDuplicateSections).
Proof. split; [exact sample_twice_chunks|]. vm_compute. reflexivity. Qed.
Example C40_panic_ex : file_chunks sample_empty 14%Z [chunk_colours; chunk_empty]
  /\ osu_from_str true sample_empty = RPanic POverflow /\ exists f, osu_from_str false sample_empty = ROk f.
Proof. split; [exact sample_empty_chunks|]. split; [vm_compute; reflexivity|]. eexists. vm_compute. reflexivity. Qed.
Example C40_stray_ex : file_stray sample_stray 2 /\ osu_from_str true sample_stray = RErr (mk_line_err 2 OsuUnexpectedLine).
Proof. split; [exact sample_stray_line|]. vm_compute. reflexivity. Qed.
(** One line that ends in a bracket hides the whole file. *)
Example C40_ignored_ex : file_chunks sample_hidden 14%Z []
  /\ contains (lit "[General]") sample_hidden = true /\ osu_from_str true sample_hidden = ROk (osu_new 14%Z).
Proof. split; [exact sample_hidden_chunks|]. split; vm_compute; reflexivity. Qed.
