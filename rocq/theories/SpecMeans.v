(** What a whole file means, from its characters to the value or the error: the rules for lines,
    sections and files of the other vocabularies put together. *)
From Coq Require Import String List NArith ZArith Bool.
From Verif Require Import Str Num Dec Parsers General Editor Metadata Difficulty Colours TimingPoints HitObjects Storyboard
  NormalEvents Events Osb OsuFile Spec SpecKv SpecText SpecSections SpecFile SpecTotal SpecOsb SpecLine SpecEvLine SpecColLine
  SpecEvSection SpecKvRead SpecParts.
Import ListNotations.
Local Open Scope N_scope.

(** The values of the sections of a .osu file. *)
Inductive part :=
| PaGeneral (g : general) | PaEditor (e : editor) | PaMetadata (m : metadata) | PaDifficulty (d : difficulty)
| PaEvents (l : list event) | PaTimingPoints (l : list timing_point) | PaColours (l : list colour)
| PaHitObjects (l : list hit_object)
| PaNothing. (* the colours of versions 3 and 4 *)
Definition put (p : part) (f : osu_file) : osu_file :=
  let '(mk_osu v g e o m d ev tp c h) := f in
  match p with
  | PaGeneral x => mk_osu v (Some x) e o m d ev tp c h
  | PaEditor x => mk_osu v g (Some x) o m d ev tp c h
  | PaMetadata x => mk_osu v g e o (Some x) d ev tp c h
  | PaDifficulty x => mk_osu v g e o m (Some x) ev tp c h
  | PaEvents x => mk_osu v g e o m d (Some x) tp c h
  | PaTimingPoints x => mk_osu v g e o m d ev (Some x) c h
  | PaColours x => mk_osu v g e o m d ev tp (Some x) h
  | PaHitObjects x => mk_osu v g e o m d ev tp c (Some x)
  | PaNothing => mk_osu v g e o m d ev tp None h
  end.
Definition as_part {A E} (mk : A -> part) (f : E -> osu_err) (r : res A (line_err E)) : res part (line_err osu_err) :=
  match r with
  | ROk a => ROk (mk a)
  | RErr e => RErr (mk_line_err (le_line e) (f (le_err e)))
  | RPanic p => RPanic p
  end.

Section Means.
  Variable dbg : bool.
  Variable v : version.
  (** [section_means name body r]: the text [body] below the header [name] gives [r]. *)
  Inductive section_means : str -> str -> res part (line_err osu_err) -> Prop :=
  | sm_general es t : entries_ok es = true -> rest_after es t = true ->
      section_means (lit "General") (kv_text es ++ t) (as_part PaGeneral OsuGeneral (general_reads v es t))
  | sm_editor es t : entries_ok es = true -> rest_after es t = true ->
      section_means (lit "Editor") (kv_text es ++ t) (as_part PaEditor OsuEditor (editor_reads es t))
  | sm_metadata es t : entries_ok es = true -> rest_after es t = true ->
      section_means (lit "Metadata") (kv_text es ++ t) (as_part PaMetadata OsuMetadata (metadata_reads es t))
  | sm_difficulty es t : entries_ok es = true -> rest_after es t = true ->
      section_means (lit "Difficulty") (kv_text es ++ t) (as_part PaDifficulty OsuDifficulty (difficulty_reads es t))
  | sm_events s r : ev_section dbg v [] 0 [] (lines s) r ->
      section_means (lit "Events") s (as_part PaEvents OsuEvents r)
  | sm_timing_points s r : list_section (fun l => tp_line v (pieces 44 l)) 0 (lines s) r ->
      section_means (lit "TimingPoints") s (as_part PaTimingPoints OsuTimingPoints r)
  | sm_colours s r : ~ (3 <= v <= 4)%Z -> list_section col_line 0 (lines s) r ->
      section_means (lit "Colours") s (as_part PaColours OsuColours r)
  | sm_no_colours s : (3 <= v <= 4)%Z -> section_means (lit "Colours") s (ROk PaNothing)
  | sm_hit_objects s r : list_section (fun l => ho_line v (pieces 44 l)) 0 (lines s) r ->
      section_means (lit "HitObjects") s (as_part PaHitObjects OsuHitObjects r).
  (** [sections_mean n before f cs r]: the sections [cs], the first of them at line [n], below the
      sections called [before], which make up [f], give [r]. *)
  Inductive sections_mean : Z -> list str -> osu_file -> list chunk -> res osu_file (line_err osu_err) -> Prop :=
  | ss_end n before f : sections_mean n before f [] (ROk f)
  | ss_again n before f x cs : In (ch_name x) before ->
      sections_mean n before f (x :: cs) (RErr (mk_line_err n OsuDuplicateSections))
  | ss_unknown n before f x cs : ~ In (ch_name x) before -> ~ In (ch_name x) section_names ->
      sections_mean n before f (x :: cs) (RErr (mk_line_err n OsuUnknownSection))
  | ss_error n before f x cs i e : ~ In (ch_name x) before -> section_means (ch_name x) (ch_body x) (RErr (mk_line_err i e)) ->
      sections_mean n before f (x :: cs) (RErr (mk_line_err (n + rows (ch_space x) + i) e))
  | ss_panic n before f x cs p : ~ In (ch_name x) before -> section_means (ch_name x) (ch_body x) (RPanic p) ->
      sections_mean n before f (x :: cs) (RPanic p)
  | ss_empty n before f x cs p : ~ In (ch_name x) before -> section_means (ch_name x) (ch_body x) (ROk p) ->
      dbg = true -> ch_body x = [] -> sections_mean n before f (x :: cs) (RPanic POverflow)
  | ss_next n before f x cs p r : ~ In (ch_name x) before -> section_means (ch_name x) (ch_body x) (ROk p) ->
      (dbg = false \/ ch_body x <> []) -> sections_mean (n + chunk_rows x) (ch_name x :: before) (put p f) cs r ->
      sections_mean n before f (x :: cs) r.
End Means.
(** [file_means dbg s r]: the text [s] of a .osu file gives [r]. *)
Inductive file_means (dbg : bool) (s : str) : res osu_file (line_err osu_err) -> Prop :=
| fm_no_version : no_version s -> file_means dbg s (RErr (mk_line_err 0 OsuFileVersionDefinedWrong))
| fm_bad_version : bad_version s -> file_means dbg s (RErr (mk_line_err 0 OsuInvalidFileVersion))
| fm_stray k : file_stray s k -> file_means dbg s (RErr (mk_line_err (Z.of_nat k) OsuUnexpectedLine))
| fm_sections v n cs r : osu_parts s v n cs -> sections_mean dbg v n [] (osu_new v) cs r -> file_means dbg s r.

(** ** .osb files *)
Inductive osb_sections_mean (dbg : bool) : Z -> list str -> osb -> list chunk -> res osb (line_err osb_err) -> Prop :=
| os_end n before o : osb_sections_mean dbg n before o [] (ROk o)
| os_again n before o x cs : In (ch_name x) before ->
    osb_sections_mean dbg n before o (x :: cs) (RErr (mk_line_err n OsbDuplicateSections))
| os_unknown n before o x cs : ~ In (ch_name x) before -> ~ In (ch_name x) osb_names ->
    osb_sections_mean dbg n before o (x :: cs) (RErr (mk_line_err n OsbUnknownSection))
| os_bad_variable n before o x cs i e : ~ In (ch_name x) before -> ch_name x = lit "Variables" ->
    variables_of 0 (lines (ch_body x)) = RErr (mk_line_err i e) ->
    osb_sections_mean dbg n before o (x :: cs) (RErr (mk_line_err (n + rows (ch_space x) + i) (OsbVariable e)))
| os_variables n before o x cs vs r : ~ In (ch_name x) before -> ch_name x = lit "Variables" ->
    variables_of 0 (lines (ch_body x)) = ROk vs ->
    osb_sections_mean dbg (n + chunk_rows x) (ch_name x :: before) (mk_osb (Some vs) (osb_events o)) cs r ->
    osb_sections_mean dbg n before o (x :: cs) r
| os_bad_event n before o x cs i e : ~ In (ch_name x) before -> ch_name x = lit "Events" ->
    ev_section dbg 14%Z (vars_or_none (osb_variables o)) 0 [] (lines (ch_body x)) (RErr (mk_line_err i e)) ->
    osb_sections_mean dbg n before o (x :: cs) (RErr (mk_line_err (n + rows (ch_space x) + i) (OsbEvents e)))
| os_panic n before o x cs p : ~ In (ch_name x) before -> ch_name x = lit "Events" ->
    ev_section dbg 14%Z (vars_or_none (osb_variables o)) 0 [] (lines (ch_body x)) (RPanic p) ->
    osb_sections_mean dbg n before o (x :: cs) (RPanic p)
| os_events n before o x cs es r : ~ In (ch_name x) before -> ch_name x = lit "Events" ->
    ev_section dbg 14%Z (vars_or_none (osb_variables o)) 0 [] (lines (ch_body x)) (ROk es) ->
    osb_sections_mean dbg (n + chunk_rows x) (ch_name x :: before) (mk_osb (osb_variables o) (Some es)) cs r ->
    osb_sections_mean dbg n before o (x :: cs) r.
Inductive osb_means (dbg : bool) (s : str) : res osb (line_err osb_err) -> Prop :=
| om_stray k : osb_stray s k -> osb_means dbg s (RErr (mk_line_err (Z.of_nat k) OsbUnexpectedLine))
| om_sections n cs r : osb_parts s n cs -> osb_sections_mean dbg n [] (mk_osb None None) cs r -> osb_means dbg s r.
