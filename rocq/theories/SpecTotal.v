(** Every text as the reader of .osu files sees it: the vocabulary of C40. *)
From Coq Require Import String List NArith ZArith Bool.
From Verif Require Import Str Num Nom Dec Parsers General Editor Metadata Difficulty Colours
  TimingPoints HitObjects Storyboard NormalEvents Events Osb OsuFile Spec SpecText SpecFile.
Import ListNotations.
Local Open Scope N_scope.

(** A section as it stands in the text: [[name]], blanks and line ends, and the rest. *)
Record chunk := mk_chunk { ch_name : str; ch_space : str; ch_body : str }.
Definition chunk_text (x : chunk) : str := lit "[" ++ ch_name x ++ lit "]" ++ ch_space x ++ ch_body x.
Definition name_char (c : char) : bool := negb (c =? 93) && negb (c =? 10).
Definition chunk_ok (x : chunk) : bool :=
  forallb name_char (ch_name x) && forallb layout_char (ch_space x)
  && match ch_body x with c :: _ => negb (layout_char c) | [] => true end
  && negb (contains [10; 91] (ch_body x)).
(** the section, for the words of [SpecFile] *)
Definition ch_sec (x : chunk) : sec := mk_sec (ch_name x) 0 [ch_body x].
(** [falls_apart t cs]: the sections of [t] are [cs]; a section goes on to the next line
    that begins with a bracket.  What cannot be a section is not looked at. *)
Inductive falls_apart : str -> list chunk -> Prop :=
| fa_end t : (forall w n r, forallb layout_char w = true -> forallb name_char n = true -> t <> w ++ lit "[" ++ n ++ lit "]" ++ r) ->
    falls_apart t []
| fa_section w x more cs : forallb layout_char w = true -> chunk_ok x = true ->
    (more = [] \/ ch_body x <> [] /\ exists t, more = [10; 91] ++ t) ->
    falls_apart more cs -> falls_apart (w ++ chunk_text x ++ more) (x :: cs).

(** The lines before the first section. *)
Definition head_line (l : str) : bool := starts_with_char 91 (trim l) || ends_with_char 93 (trim l).
Definition skip_line (l : str) : bool := is_empty (trim l) || starts_with (lit "//") (trim l).
(** the sections of the file [s] of version [v] *)
Definition file_chunks (s : str) (v : version) (cs : list chunk) : Prop :=
  exists ws num rest pre ls, version_head s ws num rest /\ version_text num v
  /\ lines rest = pre ++ ls /\ forallb (fun l => skip_line l && negb (head_line l)) pre = true
  /\ match ls with [] => True | l :: _ => head_line l = true end
  /\ falls_apart (join [10] ls) cs.
(** line [k] after the version is neither blank nor a comment nor like a header *)
Definition file_stray (s : str) (k : nat) : Prop :=
  exists ws num rest v pre l ls, version_head s ws num rest /\ version_text num v
  /\ lines rest = pre ++ l :: ls /\ forallb (fun l => skip_line l && negb (head_line l)) pre = true
  /\ skip_line l = false /\ head_line l = false /\ k = length pre.
Definition no_version (s : str) : Prop := forall ws num rest, ~ version_head s ws num rest.
Definition bad_version (s : str) : Prop := exists ws num rest, version_head s ws num rest /\ forall v, ~ version_text num v.

(** The reader of the section [x] panics. *)
Definition panics {A E} (r : res A E) : Prop := exists p, r = RPanic p.
Definition breaks (dbg : bool) (v : version) (x : sec) : Prop :=
  (sec_name x = lit "General" /\ panics (general_from_str (sec_body x) v))
  \/ (sec_name x = lit "Editor" /\ panics (editor_from_str (sec_body x) v))
  \/ (sec_name x = lit "Metadata" /\ panics (metadata_from_str (sec_body x) v))
  \/ (sec_name x = lit "Difficulty" /\ panics (difficulty_from_str (sec_body x) v))
  \/ (sec_name x = lit "Events" /\ panics (events_from_str dbg (sec_body x) v))
  \/ (sec_name x = lit "TimingPoints" /\ panics (timing_points_from_str (sec_body x) v))
  \/ (sec_name x = lit "Colours" /\ panics (colours_from_str (sec_body x) v))
  \/ (sec_name x = lit "HitObjects" /\ panics (hit_objects_from_str (sec_body x) v)).
(** With overflow checks an empty section breaks the line counter. *)
Definition no_empty (dbg : bool) (cs : list chunk) : Prop := dbg = true -> Forall (fun x => ch_body x <> []) cs.
(** the sections up to [x] are read and [x] is a section that the file does not have yet *)
Definition reaches (dbg : bool) (v : version) (cs before : list chunk) (x : chunk) (g : osu_file) : Prop :=
  (exists rest, cs = before ++ x :: rest) /\ no_empty dbg before
  /\ all_read dbg v (map ch_sec before) (osu_new v) g.
