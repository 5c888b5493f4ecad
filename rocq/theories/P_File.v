(** Property theorems C16, C17, C19, C20, C21, C23, C31, C34: whole files. *)
From Coq Require Import String List NArith ZArith Bool Permutation.
From Verif Require Import Str Num Nom Dec Parsers General Editor Metadata Difficulty Colours
  TimingPoints HitObjects Storyboard NormalEvents Events Osb OsuFile Spec SpecText SpecFile
  FileLoop FileTheorems FileEmpty FileSamples.
Import ListNotations.
Local Open Scope N_scope.

(** ** C21: the version line *)
Theorem C21_version_accepted : forall dbg s f,
  osu_from_str dbg s = ROk f ->
  exists ws num rest, version_head s ws num rest /\ version_text num (osu_version f).
Proof. exact version_accepted. Qed.
Print Assumptions C21_version_accepted.
Theorem C21_version_missing : forall dbg s,
  (forall ws num rest, ~ version_head s ws num rest)
  <-> exists j, osu_from_str dbg s = RErr (mk_line_err j OsuFileVersionDefinedWrong).
Proof. exact version_missing. Qed.
Print Assumptions C21_version_missing.
Theorem C21_version_invalid : forall dbg s,
  (exists ws num rest, version_head s ws num rest /\ forall v, ~ version_text num v)
  <-> exists j, osu_from_str dbg s = RErr (mk_line_err j OsuInvalidFileVersion).
Proof. exact version_invalid. Qed.
Print Assumptions C21_version_invalid.
Theorem C21_version_error_line : forall dbg s j e,
  osu_from_str dbg s = RErr (mk_line_err j e) ->
  match e with OsuInvalidFileVersion | OsuFileVersionDefinedWrong => true | _ => false end = true ->
  j = 0%Z.
Proof. exact version_error_line. Qed.
Print Assumptions C21_version_error_line.
Example C21_ex :
  osu_from_str true (10 :: 65279 :: lit "osu file format v+9") = ROk (osu_new 9%Z)
  /\ osu_from_str true (lit "osu file format v2") = RErr (mk_line_err 0 OsuInvalidFileVersion)
  /\ osu_from_str true (lit "osu file format v14 ") = RErr (mk_line_err 0 OsuInvalidFileVersion)
  /\ osu_from_str true (lit "Osu file format v14") = RErr (mk_line_err 0 OsuFileVersionDefinedWrong).
Proof. vm_compute. auto. Qed.

(** ** C17: the order of the sections *)
(** A file reads as [f] exactly when its section names are known and different, and every
    field of [f] is what its own section says. *)
Theorem C17_sections_independent : forall dbg s ws v pre secs tail f,
  file_layout s ws v pre secs tail -> ended tail = true ->
  (osu_from_str dbg s = ROk f <-> all_read dbg v secs (osu_new v) f).
Proof. exact read_ok_iff. Qed.
Print Assumptions C17_sections_independent.
Theorem C17_section_order : forall dbg s s' ws ws' v pre pre' secs secs' tail tail' f,
  file_layout s ws v pre secs tail -> ended tail = true ->
  file_layout s' ws' v pre' secs' tail' -> ended tail' = true ->
  Permutation secs secs' -> osu_from_str dbg s = ROk f -> osu_from_str dbg s' = ROk f.
Proof. exact section_order. Qed.
Print Assumptions C17_section_order.
Example C17_ex :
  let s := file_text pre1 [s_general; s_metadata; s_hitobjects] [] in
  let s' := file_text [] [s_hitobjects; s_general; s_metadata] [] in
  file_layout s [] 14%Z ([] :: pre1) [s_general; s_metadata; s_hitobjects] []
  /\ file_layout s' [] 14%Z [[]] [s_hitobjects; s_general; s_metadata] []
  /\ osu_from_str true s = osu_from_str true s'
  /\ match osu_from_str true s with
     | ROk f => osu_general f <> None /\ osu_metadata f <> None /\ osu_hitobjects f <> None
                /\ osu_editor f = None
     | _ => False
     end.
Proof.
  cbv zeta. split; [layout|]. split; [layout|]. split; [vm_compute; reflexivity|].
  vm_compute. repeat split; discriminate.
Qed.

(** ** C19, C20: repeated and unknown sections *)
Theorem C19_duplicate_section : forall dbg s ws v pre secs tail f,
  file_layout s ws v pre secs tail -> ended tail = true ->
  ~ NoDup (map sec_name secs) -> osu_from_str dbg s <> ROk f.
Proof. exact duplicate_section. Qed.
Print Assumptions C19_duplicate_section.
Theorem C20_unknown_section : forall dbg s ws v pre secs tail f x,
  file_layout s ws v pre secs tail -> ended tail = true ->
  In x secs -> ~ In (sec_name x) section_names -> osu_from_str dbg s <> ROk f.
Proof. exact unknown_section. Qed.
Print Assumptions C20_unknown_section.
Example C19_C20_ex :
  let s := file_text pre1 [s_metadata; s_hitobjects; s_metadata] [] in
  let s' := file_text [] [s_metadata; s_unknown] [] in
  file_layout s [] 14%Z ([] :: pre1) [s_metadata; s_hitobjects; s_metadata] []
  /\ file_layout s' [] 14%Z [[]] [s_metadata; s_unknown] []
  /\ osu_from_str true s = RErr (mk_line_err 9 OsuDuplicateSections)
  /\ osu_from_str true s' = RErr (mk_line_err 5 OsuUnknownSection).
Proof.
  cbv zeta. split; [layout|]. split; [layout|]. split; vm_compute; reflexivity.
Qed.

(** ** C16: error lines *)
(** In a file with [n] empty lines before the version line, an error in the section after
    the good sections [before] is reported at its true line less one for every section
    before it that ends in an empty line; for the first section at its true line. *)
Theorem C16_error_line : forall dbg s n v pre before x rest tail f0 d e,
  file_layout s (repeat 10 n) v pre (before ++ x :: rest) tail -> ended tail = true ->
  all_read dbg v before (osu_new v) f0 -> complaint dbg v before x d e ->
  osu_from_str dbg s
  = RErr (mk_line_err (Z.of_nat (n + true_line pre before) + d - blank_ends before) e).
Proof. exact error_line. Qed.
Print Assumptions C16_error_line.
Theorem C16_error_cause : forall dbg s n v pre secs tail j e,
  file_layout s (repeat 10 n) v pre secs tail -> ended tail = true ->
  osu_from_str dbg s = RErr (mk_line_err j e) ->
  exists before x rest f0 d, secs = before ++ x :: rest
    /\ all_read dbg v before (osu_new v) f0 /\ complaint dbg v before x d e
    /\ j = (Z.of_nat (n + true_line pre before) + d - blank_ends before)%Z.
Proof. exact error_cause. Qed.
Print Assumptions C16_error_cause.
(** The true line is where the line stands in the file. *)
Theorem C16_true_line : forall s n v pre before x rest tail k,
  file_layout s (repeat 10 n) v pre (before ++ x :: rest) tail ->
  (k < length (sec_all x))%nat ->
  nth_error (lines s) (n + true_line pre before + k) = nth_error (sec_all x) k.
Proof. exact line_there. Qed.
Print Assumptions C16_true_line.
(** An unexpected line before the first section is reported at its place. *)
Theorem C16_unexpected_line : forall dbg s num rest v good bad more,
  version_head s [] num rest -> version_text num v -> lines rest = good ++ bad :: more ->
  forallb pre_ok good = true ->
  is_blank bad = false -> starts_with (lit "//") (trim bad) = false ->
  starts_with_char 91 (trim bad) = false -> ends_with_char 93 (trim bad) = false ->
  osu_from_str dbg s = RErr (mk_line_err (Z.of_nat (length good)) OsuUnexpectedLine).
Proof. exact unexpected. Qed.
Print Assumptions C16_unexpected_line.
(** Full statement refuted: a section followed by a blank line shifts the number. *)
Theorem C16_error_line_refuted : exists s j e l,
  osu_from_str true s = RErr (mk_line_err j e)
  /\ e = OsuTimingPoints TpMissingMeter
  /\ nth_error (lines s) (Z.to_nat j) = Some l /\ l <> lit "200,x"
  /\ nth_error (lines s) (S (Z.to_nat j)) = Some (lit "200,x").
Proof.
  exists (file_text pre1 [s_general; s_bad_timing] []), 8%Z, (OsuTimingPoints TpMissingMeter),
    (lit "100,300,4,1,0,50,1,0").
  vm_compute. repeat split; discriminate.
Qed.
Print Assumptions C16_error_line_refuted.
Example C16_ex :
  let s := file_text pre1 [s_bad_timing; s_metadata] [] in
  file_layout s [] 14%Z ([] :: pre1) ([] ++ s_bad_timing :: [s_metadata]) []
  /\ all_read true 14%Z [] (osu_new 14%Z) (osu_new 14%Z)
  /\ (exists d e, complaint true 14%Z [] s_bad_timing d e
      /\ osu_from_str true s = RErr (mk_line_err (3 + d) e))
  /\ osu_from_str true (file_text pre1 [s_metadata; s_bad_timing] [])
     = RErr (mk_line_err 9 (OsuTimingPoints TpMissingMeter))
  /\ nth_error (lines (file_text pre1 [s_metadata; s_bad_timing] [])) 9 = Some (lit "200,x").
Proof.
  cbv zeta. split; [layout|]. split.
  { split; [constructor|]. split; [constructor|]. now apply describes_nil. }
  split; [|split; vm_compute; reflexivity].
  exists 2%Z, (OsuTimingPoints TpMissingMeter). split; [|vm_compute; reflexivity].
  apply (bad_text true 14%Z [] s_bad_timing 1%Z); [easy|]. apply ref_timing; reflexivity.
Qed.

(** ** C23: appending a storyboard *)
Theorem C23_append_fails : forall dbg f s g r,
  append_osb dbg f s = (g, r) -> r <> ROk tt -> g = f.
Proof. exact append_osb_fails. Qed.
Print Assumptions C23_append_fails.
Theorem C23_append_ok : forall dbg f s g,
  append_osb dbg f s = (g, ROk tt) ->
  osb_from_str dbg s (osu_version f) = ROk (osu_osb g)
  /\ osu_version g = osu_version f /\ osu_general g = osu_general f /\ osu_editor g = osu_editor f
  /\ osu_metadata g = osu_metadata f /\ osu_difficulty g = osu_difficulty f
  /\ osu_events g = osu_events f /\ osu_timing_points g = osu_timing_points f
  /\ osu_colours g = osu_colours f /\ osu_hitobjects g = osu_hitobjects f.
Proof. exact append_osb_ok. Qed.
Print Assumptions C23_append_ok.
Theorem C23_old_version : forall dbg f s,
  (osu_version f < 14)%Z ->
  exists g, append_osb dbg f s = (g, ROk tt) /\ osu_osb g = None /\ osu_osb_to_string dbg f = ROk None.
Proof. exact append_osb_old. Qed.
Print Assumptions C23_old_version.
Example C23_ex :
  append_osb true (osu_new 14%Z) (lit "[Events") = (set_osb (Some (mk_osb None None)) (osu_new 14%Z), ROk tt)
  /\ append_osb true (osu_new 14%Z) (lit "[Variable]")
     = (osu_new 14%Z, RErr (mk_line_err 0 OsbUnknownSection))
  /\ fst (append_osb true (osu_new 14%Z) (lit "[Variables]" ++ 10 :: lit "$a=1"))
     = set_osb (Some (mk_osb (Some [mk_var (lit "a") (lit "1")]) None)) (osu_new 14%Z).
Proof. vm_compute. auto. Qed.

(** ** C31: a header without its closing bracket *)
Theorem C31_open_header : forall dbg s s' ws v pre secs l tail,
  file_layout s ws v pre secs (l :: tail) -> open_header l = true ->
  file_layout s' ws v pre secs [] -> osu_from_str dbg s = osu_from_str dbg s'.
Proof. exact open_header_ignored. Qed.
Print Assumptions C31_open_header.
Example C31_ex :
  let s := file_text pre1 [s_metadata] [lit "[HitObjects"; lit "not a hit object"; lit "[Metadata]"] in
  let s' := file_text pre1 [s_metadata] [] in
  file_layout s [] 14%Z ([] :: pre1) [s_metadata]
    [lit "[HitObjects"; lit "not a hit object"; lit "[Metadata]"]
  /\ file_layout s' [] 14%Z ([] :: pre1) [s_metadata] []
  /\ osu_from_str true s = osu_from_str true s'
  /\ match osu_from_str true s with ROk f => osu_hitobjects f = None | _ => False end.
Proof.
  cbv zeta. split; [layout|]. split; [layout|]. vm_compute. repeat split; reflexivity.
Qed.

(** ** C34: sections without lines *)
(** The last one: the line counter underflows. *)
Theorem C34_empty_last : forall (dbg : bool) s ws v pre secs f0 name n,
  file_layout s ws v pre secs ((91 :: name ++ [93]) :: repeat [] n) ->
  all_read dbg v secs (osu_new v) f0 -> In name section_names -> ~ In name (map sec_name secs) ->
  if dbg then osu_from_str dbg s = RPanic POverflow else exists f, osu_from_str dbg s = ROk f.
Proof. exact empty_last. Qed.
Print Assumptions C34_empty_last.
(** Followed by another: the next header becomes its first line, and is refused. *)
Theorem C34_empty_swallows : forall dbg s ws v pre secs name n y tail f,
  file_layout s ws v pre secs ((91 :: name ++ [93]) :: repeat [] n ++ sec_all y ++ tail) ->
  In name section_names -> sec_ok y = true -> In (sec_name y) section_names ->
  (name = lit "Colours" -> (5 <= v)%Z) -> (tail = [] \/ exists l ls, tail = (91 :: l) :: ls) ->
  osu_from_str dbg s <> ROk f.
Proof. exact empty_swallows. Qed.
Print Assumptions C34_empty_swallows.
Example C34_ex :
  let s := file_text pre1 [s_metadata] [lit "[HitObjects]"] in
  let s' := file_text pre1 [s_metadata] (lit "[Events]" :: repeat [] 1 ++ sec_all s_hitobjects ++ []) in
  file_layout s [] 14%Z ([] :: pre1) [s_metadata] ((91 :: lit "HitObjects" ++ [93]) :: repeat [] 0)
  /\ file_layout s' [] 14%Z ([] :: pre1) [s_metadata]
       ((91 :: lit "Events" ++ [93]) :: repeat [] 1 ++ sec_all s_hitobjects ++ [])
  /\ osu_from_str true s = RPanic POverflow
  /\ match osu_from_str false s with ROk f => osu_hitobjects f = Some [] | _ => False end
  /\ osu_from_str true s' = RErr (mk_line_err 9 (OsuEvents EvUnknownEventType))
  /\ osu_to_string true (mk_osu 14%Z None None None None None None None None (Some []))
     = ROk (file_text [[]] [] [lit "[HitObjects]"; []]).
Proof.
  cbv zeta. split; [layout|]. split; [layout|]. vm_compute. repeat split; reflexivity.
Qed.
