(** Whole files that can be written and read back (C33). *)
From Coq Require Import String List NArith ZArith Bool.
From Verif Require Import Str Num Nom Dec Parsers General Editor Metadata Difficulty Colours
  TimingPoints HitObjects Storyboard NormalEvents Events Osb OsuFile Spec SpecWf SpecText SpecKv SpecSections
  SpecFile SpecTypes SpecCmd SpecEvents.
Import ListNotations.
Local Open Scope N_scope.

(** The first field of the lines of a section: none starts with a bracket, and the first
    one does not start with a blank. *)
Definition no_bracket (d : decimal) : bool :=
  match d with DRaw (c :: _) => negb (c =? 91) | _ => true end.
Definition visible_start (d : decimal) : bool :=
  match d with DRaw (c :: _) => negb (layout_char c) | _ => true end.
Definition starts_ok (ds : list decimal) : bool :=
  match ds with d :: _ => visible_start d && forallb no_bracket ds | [] => false end.

(** Every section that is there has a line to write, and what is in it can be written. *)
Definition file_ok (f : osu_file) : bool :=
  let v := osu_version f in
  ((5 <=? v) && (v <=? 14))%Z
  && opt_all (fun g => general_ok g && negb (is_empty (general_lines v g))) (osu_general f)
  && opt_all (fun e => editor_ok e && negb (is_empty (editor_lines v e))) (osu_editor f)
  && opt_all (fun m => metadata_ok m && negb (is_empty (metadata_lines m))) (osu_metadata f)
  && opt_all (fun d => difficulty_ok d && negb (is_empty (difficulty_lines v d))) (osu_difficulty f)
  && opt_all (fun l => negb (is_empty l) && forallb (event_ok v) l) (osu_events f)
  && opt_all (fun l => forallb (tp_ok v) l && forallb (fun t => index_small (tp_sample_index t)) l
                       && starts_ok (map tp_time l)) (osu_timing_points f)
  && opt_all (fun l => negb (is_empty l) && forallb colour_ok l && forallb combo_nonneg l) (osu_colours f)
  && opt_all (fun l => forallb (ho_ok v) l && starts_ok (map (fun o => pos_x (ho_position o)) l)) (osu_hitobjects f).
(** What the text keeps: not the storyboard file, and of two sections only the fields the
    version has. *)
Definition file_at (f : osu_file) : osu_file :=
  let v := osu_version f in
  mk_osu v (option_map (general_at v) (osu_general f)) (option_map (editor_at v) (osu_editor f)) None
    (osu_metadata f) (osu_difficulty f) (osu_events f) (osu_timing_points f) (osu_colours f) (osu_hitobjects f).
(** the sections in the order of the file format *)
Definition present {A} (name : string) (o : option A) : list str := match o with Some _ => [lit name] | None => [] end.
Definition names_of (f : osu_file) : list str :=
  present "General" (osu_general f) ++ present "Editor" (osu_editor f) ++ present "Metadata" (osu_metadata f)
  ++ present "Difficulty" (osu_difficulty f) ++ present "Events" (osu_events f)
  ++ present "TimingPoints" (osu_timing_points f) ++ present "Colours" (osu_colours f)
  ++ present "HitObjects" (osu_hitobjects f).

(** Of a file that was read, what is still needed: every section keeps a line, and the
    values that other properties show to be lost are absent. *)
Definition file_kept (f : osu_file) : bool :=
  let v := osu_version f in
  (5 <=? v)%Z
  && opt_all (fun g => negb (is_empty (general_lines v g))) (osu_general f)
  && opt_all (fun e => negb (is_empty (editor_lines v e))) (osu_editor f)
  && opt_all (fun m => negb (is_empty (metadata_lines m))) (osu_metadata f)
  && opt_all (fun d => negb (is_empty (difficulty_lines v d))) (osu_difficulty f)
  && opt_all (fun l => negb (is_empty (written v l))) (osu_events f)
  && opt_all (fun l => forallb (fun t => index_small (tp_sample_index t)) l && starts_ok (map tp_time l)) (osu_timing_points f)
  && opt_all (fun l => negb (is_empty l)) (osu_colours f)
  && opt_all (fun l => forallb ho_keeps l && forallb (fun o => sample_in_version v (ho_hitsample o)) l
                       && starts_ok (map (fun o => pos_x (ho_position o)) l)) (osu_hitobjects f).
(** the events as [SpecEvents.written] says *)
Definition file_written (f : osu_file) : osu_file :=
  mk_osu (osu_version f) (osu_general f) (osu_editor f) (osu_osb f) (osu_metadata f) (osu_difficulty f)
    (option_map (written (osu_version f)) (osu_events f)) (osu_timing_points f) (osu_colours f) (osu_hitobjects f).
(** the mode is one the version has *)
Definition mode_known (f : osu_file) : bool :=
  opt_all (fun g => opt_all (has_mode (osu_version f)) (general_mode g)) (osu_general f).

(** As [file_ok], but a section may be there without a line to write (C34). *)
Definition starts_fine (ds : list decimal) : bool := is_empty ds || starts_ok ds.
Definition file_fine (f : osu_file) : bool :=
  let v := osu_version f in
  ((5 <=? v) && (v <=? 14))%Z
  && opt_all general_ok (osu_general f) && opt_all editor_ok (osu_editor f)
  && opt_all metadata_ok (osu_metadata f) && opt_all difficulty_ok (osu_difficulty f)
  && opt_all (forallb (event_ok v)) (osu_events f)
  && opt_all (fun l => forallb (tp_ok v) l && forallb (fun t => index_small (tp_sample_index t)) l
                       && starts_fine (map tp_time l)) (osu_timing_points f)
  && opt_all (fun l => forallb colour_ok l && forallb combo_nonneg l) (osu_colours f)
  && opt_all (fun l => forallb (ho_ok v) l && starts_fine (map (fun o => pos_x (ho_position o)) l)) (osu_hitobjects f).
(** the sections that are there but have no line *)
Definition hollow_name {A B} (name : string) (ls : A -> list B) (o : option A) : list str :=
  match o with Some a => if is_empty (ls a) then [lit name] else [] | None => [] end.
Definition hollow (f : osu_file) : list str :=
  let v := osu_version f in
  hollow_name "General" (general_lines v) (osu_general f) ++ hollow_name "Editor" (editor_lines v) (osu_editor f)
  ++ hollow_name "Metadata" metadata_lines (osu_metadata f) ++ hollow_name "Difficulty" (difficulty_lines v) (osu_difficulty f)
  ++ hollow_name "Events" (fun l => l) (osu_events f) ++ hollow_name "TimingPoints" (fun l => l) (osu_timing_points f)
  ++ hollow_name "Colours" (fun l => l) (osu_colours f) ++ hollow_name "HitObjects" (fun l => l) (osu_hitobjects f).

(** [section_text dbg f n b]: the section called [n] of [f] is written as the text [b]
    (C17). *)
Inductive section_text (dbg : bool) (f : osu_file) : str -> str -> Prop :=
| st_general x b : osu_general f = Some x -> general_to_string x (osu_version f) = Some b -> section_text dbg f (lit "General") b
| st_editor x b : osu_editor f = Some x -> editor_to_string x (osu_version f) = Some b -> section_text dbg f (lit "Editor") b
| st_metadata x b : osu_metadata f = Some x -> metadata_to_string x (osu_version f) = Some b -> section_text dbg f (lit "Metadata") b
| st_difficulty x b : osu_difficulty f = Some x -> difficulty_to_string x (osu_version f) = Some b -> section_text dbg f (lit "Difficulty") b
| st_events x b : osu_events f = Some x -> events_to_string dbg x (osu_version f) = ROk (Some b) -> section_text dbg f (lit "Events") b
| st_timing x b : osu_timing_points f = Some x -> timing_points_to_string x (osu_version f) = ROk (Some b) -> section_text dbg f (lit "TimingPoints") b
| st_colours x b : osu_colours f = Some x -> colours_to_string x (osu_version f) = Some b -> section_text dbg f (lit "Colours") b
| st_hitobjects x b : osu_hitobjects f = Some x -> hit_objects_to_string x (osu_version f) = ROk (Some b) -> section_text dbg f (lit "HitObjects") b.
(** headers and texts, an empty line between two sections *)
Fixpoint sections_text (l : list (str * str)) : str :=
  match l with
  | [] => []
  | [(n, b)] => 91 :: n ++ 93 :: 10 :: b
  | (n, b) :: l' => 91 :: n ++ 93 :: 10 :: b ++ 10 :: 10 :: sections_text l'
  end.
(** The sublists of a list: some elements, in the same order. *)
Inductive sublist {A} : list A -> list A -> Prop :=
| sl_nil : sublist [] []
| sl_skip x a b : sublist a b -> sublist a (x :: b)
| sl_take x a b : sublist a b -> sublist (x :: a) (x :: b).
