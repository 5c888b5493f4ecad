(** C51: whole .osu and .osb files are read section by section. *)
From Coq Require Import String List NArith ZArith Bool.
From Verif Require Import Str Num Nom Dec Parsers KeyValue General Editor Metadata Difficulty Colours
  TimingPoints HitObjects Storyboard NormalEvents Events Osb OsuFile Spec SpecText SpecFile SpecTotal SpecParts
  FileSamples TotalFacts TotalSamples Parts.
Import ListNotations.
Local Open Scope N_scope.

(** A text with a supported version and no stray line is read section by section; its value,
    its error with the line number, or its panic is that of the first bad section. *)
Theorem C51_osu : forall dbg s v n cs, osu_parts s v n cs -> osu_from_str dbg s = osu_reads dbg v n cs.
Proof. exact osu_parts_read. Qed.
Print Assumptions C51_osu.
(** Every other text has no version, a version that is not supported, or a stray line (C21, C40). *)
Theorem C51_osu_cases : forall s,
  no_version s \/ bad_version s \/ (exists k, file_stray s k) \/ exists v n cs, osu_parts s v n cs.
Proof. exact osu_cases. Qed.
Print Assumptions C51_osu_cases.
Theorem C51_osu_unique : forall s v n cs v' n' cs', osu_parts s v n cs -> osu_parts s v' n' cs' ->
  v' = v /\ cs' = cs /\ (n' = n \/ cs = []).
Proof. exact osu_parts_unique. Qed.
Print Assumptions C51_osu_unique.

(** The same for storyboard files. *)
Theorem C51_osb : forall dbg s n cs, osb_parts s n cs -> osb_from_str dbg s 14%Z = rmap Some (osb_reads dbg n cs).
Proof. exact osb_parts_read. Qed.
Print Assumptions C51_osb.
Theorem C51_osb_stray : forall dbg s k, osb_stray s k ->
  osb_from_str dbg s 14%Z = RErr (mk_line_err (Z.of_nat k) OsbUnexpectedLine).
Proof. exact osb_stray_read. Qed.
Print Assumptions C51_osb_stray.
Theorem C51_osb_cases : forall s, (exists k, osb_stray s k) \/ exists n cs, osb_parts s n cs.
Proof. exact osb_cases. Qed.
Print Assumptions C51_osb_cases.
Theorem C51_osb_unique : forall s n cs, osb_parts s n cs ->
  (forall k, ~ osb_stray s k) /\ forall n' cs', osb_parts s n' cs' -> cs' = cs /\ (n' = n \/ cs = []).
Proof.
  exact (fun s n cs H => conj (fun k K => osb_stray_parts s k n cs K H) (fun n' cs' H' => osb_parts_unique s n cs n' cs' H H')).
Qed.
Print Assumptions C51_osb_unique.

(** A bad colour in the second section.  The text of the first one ends with a blank line,
    which is not counted: the colour is in line 6, counted from 0. *)
Definition C51_bad : chunk := mk_chunk (lit "Colours") nl (lit "Combo1 : 1,2,300").
Definition C51_text : str := v14 ++ nl ++ nl ++ chunk_text chunk_general ++ nl ++ chunk_text C51_bad.
Example C51_parts_ex : osu_parts C51_text 14%Z 2 [chunk_general; C51_bad].
Proof.
  eexists [], (lit "14"), _, [[]; []], _. split; [eapply head14; reflexivity|]. split; [exact version_14|].
  split; [vm_compute; reflexivity|]. split; [reflexivity|]. split; [reflexivity|]. split.
  - apply (fa_section [] chunk_general (nl ++ chunk_text C51_bad ++ [])); [reflexivity|reflexivity| |].
    + right. split; [discriminate|]. eexists. reflexivity.
    + apply (fa_section nl C51_bad []); [reflexivity|reflexivity|now left|exact fa_nil].
  - right. eexists [], _. split; [vm_compute; reflexivity|]. split; reflexivity.
Qed.
Example C51_osu_ex : osu_reads true 14%Z 2 [chunk_general; C51_bad]
    = RErr (mk_line_err 5 (OsuColours (ColRgb RgbInvalidBlue)))
  /\ nth 6 (lines C51_text) [] = lit "Combo1 : 1,2,300"
  /\ (exists f, osu_reads true 14%Z 2 [chunk_general; chunk_colours] = ROk f /\ osu_general f <> None /\ osu_colours f <> None)
  /\ osu_reads true 14%Z 2 [chunk_general; chunk_colours; chunk_general; C51_bad] = RErr (mk_line_err 6 OsuDuplicateSections)
  /\ osu_reads true 14%Z 2 [chunk_empty] = RPanic POverflow.
Proof.
  split; [vm_compute; reflexivity|]. split; [vm_compute; reflexivity|].
  split; [eexists; split; [vm_compute; reflexivity|split; discriminate]|]. split; vm_compute; reflexivity.
Qed.
Definition C51_vars : chunk := mk_chunk (lit "Variables") nl (lit "$half=0.5").
Definition C51_events : chunk := mk_chunk (lit "Events") nl (lit "Sprite,Pass,Centre,x,320,240" ++ nl ++ lit " F,0,0,,$half").
Definition C51_storyboard : str := lit "// note" ++ nl ++ chunk_text C51_vars ++ nl ++ chunk_text C51_events.
Example C51_osb_parts_ex : osb_parts C51_storyboard 1 [C51_vars; C51_events].
Proof.
  eexists [lit "// note"], _. split; [vm_compute; reflexivity|]. split; [reflexivity|]. split; [reflexivity|]. split.
  - apply (fa_section [] C51_vars (nl ++ chunk_text C51_events ++ [])); [reflexivity|reflexivity| |].
    + right. split; [discriminate|]. eexists. reflexivity.
    + apply (fa_section nl C51_events []); [reflexivity|reflexivity|now left|exact fa_nil].
  - right. eexists [], _. split; [vm_compute; reflexivity|]. split; reflexivity.
Qed.
Example C51_osb_ex :
  (exists o, osb_reads true 1 [C51_vars; C51_events] = ROk o /\ osb_variables o = Some [mk_var (lit "half") (lit "0.5")]
     /\ exists e, osb_events o = Some [e])
  /\ osb_from_str true C51_storyboard 14%Z = rmap Some (osb_reads true 1 [C51_vars; C51_events])
  /\ osb_reads true 1 [C51_vars; C51_vars] = RErr (mk_line_err 3 OsbDuplicateSections)
  /\ osb_reads true 1 [C51_vars; chunk_general] = RErr (mk_line_err 3 OsbUnknownSection)
  /\ osb_reads true 1 [mk_chunk (lit "Variables") nl (lit "$a=b" ++ nl ++ lit "c=d")] = RErr (mk_line_err 3 (OsbVariable VarMissingHeader)).
Proof.
  split; [eexists; split; [vm_compute; reflexivity|split; [reflexivity|eexists; reflexivity]]|]. repeat split; vm_compute; reflexivity.
Qed.
Example C51_stray_ex : osb_stray (lit "// note" ++ nl ++ lit "stray" ++ nl ++ lit "[Events]") 1.
Proof. eexists [lit "// note"], (lit "stray"), _. split; [vm_compute; reflexivity|]. repeat split; reflexivity. Qed.
