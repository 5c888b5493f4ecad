(** How .osu and .osb files are read, section by section: the vocabulary of C51. *)
From Coq Require Import String List NArith ZArith Bool.
From Verif Require Import Str Num Nom Dec Parsers General Editor Metadata Difficulty Colours
  TimingPoints HitObjects Storyboard NormalEvents Events Osb OsuFile Spec SpecText SpecFile SpecTotal SpecOsb.
Import ListNotations.
Local Open Scope N_scope.

Definition rows (s : str) : Z := Z.of_nat (length (lines s)).
Definition chunk_rows (x : chunk) : Z := (rows (ch_space x) + rows (ch_body x))%Z.
(** The lines [ls] after the lines [pre] are the sections [cs], the first of which is at line
    [n]; the count of lines begins at [k]. *)
Definition begins (k : Z) (pre ls : list str) (n : Z) (cs : list chunk) : Prop :=
  forallb (fun l => skip_line l && negb (head_line l)) pre = true
  /\ match ls with [] => True | l :: _ => head_line l = true end
  /\ falls_apart (join [10] ls) cs
  /\ (cs = [] \/ exists w t, join [10] ls = w ++ 91 :: t /\ forallb layout_char w = true
        /\ n = (k + Z.of_nat (length pre) + rows w)%Z).
Definition osu_parts (s : str) (v : version) (n : Z) (cs : list chunk) : Prop :=
  exists ws num rest pre ls, version_head s ws num rest /\ version_text num v
  /\ lines rest = pre ++ ls /\ begins (rows ws) pre ls n cs.
Definition osb_parts (s : str) (n : Z) (cs : list chunk) : Prop :=
  exists pre ls, lines s = pre ++ ls /\ begins 0 pre ls n cs.
(** line [k] is neither blank nor a comment nor like a header *)
Definition osb_stray (s : str) (k : nat) : Prop :=
  exists pre l ls, lines s = pre ++ l :: ls /\ forallb (fun l => skip_line l && negb (head_line l)) pre = true
  /\ skip_line l = false /\ head_line l = false /\ k = length pre.

(** ** .osu files *)
Definition seen (x : chunk) (before : list str) : bool := existsb (str_eqb (ch_name x)) before.
Definition named {A} (l : list (string * A)) (x : chunk) : option A :=
  option_map snd (find (fun r => str_eqb (ch_name x) (lit (fst r))) l).
Section Sections.
  Context {E : Type}.
  Variable table : list (string * (str -> res unit (line_err E))).
  Variables dup unknown : E.
  (** with overflow checks, an empty section is a panic *)
  Variable checks : bool.
  (** The first bad section of [cs], which begin at line [n].  A section that is read is
      followed by the next one, on the next line. *)
  Fixpoint first_bad_section (n : Z) (before : list str) (cs : list chunk) : res unit (line_err E) :=
    match cs with
    | [] => ROk tt
    | x :: cs' =>
        if seen x before then RErr (mk_line_err n dup)
        else match named table x with
             | None => RErr (mk_line_err n unknown)
             | Some rd =>
                 match rd (ch_body x) with
                 | ROk _ => if checks && is_empty (ch_body x) then RPanic POverflow
                            else first_bad_section (n + chunk_rows x) (ch_name x :: before) cs'
                 | RErr e => RErr (mk_line_err (n + rows (ch_space x) + le_line e) (le_err e))
                 | RPanic p => RPanic p
                 end
             end
    end.
End Sections.
Definition can_be {A E F} (f : E -> F) (rd : str -> res A (line_err E)) (s : str) : res unit (line_err F) :=
  match rd s with ROk _ => ROk tt | RErr e => RErr (mk_line_err (le_line e) (f (le_err e))) | RPanic p => RPanic p end.
Definition osu_table (dbg : bool) (v : version) : list (string * (str -> res unit (line_err osu_err))) :=
  [("General", can_be OsuGeneral (fun t => general_from_str t v));
   ("Editor", can_be OsuEditor (fun t => editor_from_str t v));
   ("Metadata", can_be OsuMetadata (fun t => metadata_from_str t v));
   ("Difficulty", can_be OsuDifficulty (fun t => difficulty_from_str t v));
   ("Events", can_be OsuEvents (fun t => events_from_str dbg t v));
   ("TimingPoints", can_be OsuTimingPoints (fun t => timing_points_from_str t v));
   ("Colours", can_be OsuColours (fun t => colours_from_str t v));
   ("HitObjects", can_be OsuHitObjects (fun t => hit_objects_from_str t v))]%string.
(** the section called [k] *)
Definition section_of {A E} (cs : list chunk) (k : string) (rd : str -> res (option A) E) : option A :=
  match find (fun x => str_eqb (ch_name x) (lit k)) cs with
  | Some x => match rd (ch_body x) with ROk a => a | _ => None end
  | None => None
  end.
Definition osu_of (dbg : bool) (v : version) (cs : list chunk) : osu_file :=
  mk_osu v (section_of cs "General" (fun t => general_from_str t v)) (section_of cs "Editor" (fun t => editor_from_str t v)) None
    (section_of cs "Metadata" (fun t => metadata_from_str t v)) (section_of cs "Difficulty" (fun t => difficulty_from_str t v))
    (section_of cs "Events" (fun t => events_from_str dbg t v)) (section_of cs "TimingPoints" (fun t => timing_points_from_str t v))
    (section_of cs "Colours" (fun t => colours_from_str t v)) (section_of cs "HitObjects" (fun t => hit_objects_from_str t v)).
Definition osu_reads (dbg : bool) (v : version) (n : Z) (cs : list chunk) : res osu_file (line_err osu_err) :=
  rmap (fun _ => osu_of dbg v cs) (first_bad_section (osu_table dbg v) OsuDuplicateSections OsuUnknownSection dbg n [] cs).

(** ** .osb files *)
(** the [Variables] section: every line that is not blank is [$name=value] *)
Definition variable_of (l : str) : res variable var_err :=
  match l with
  | 36 :: t => let (name, t') := span (fun c => negb ((c =? 61) || (c =? 10))) t in
               match t' with
               | 61 :: value => ROk (mk_var name value)
               | _ => RErr VarMissingEquals
               end
  | _ => RErr VarMissingHeader
  end.
Fixpoint variables_of (i : Z) (ls : list str) : res (list variable) (line_err var_err) :=
  match ls with
  | [] => ROk []
  | l :: ls' => if is_blank l then variables_of (i + 1) ls'
                else match variable_of l with
                     | ROk x => rmap (cons x) (variables_of (i + 1) ls')
                     | RErr e => RErr (mk_line_err i e)
                     | RPanic p => RPanic p
                     end
  end.
Definition variables_read (s : str) : res (option (list variable)) (line_err var_err) := rmap Some (variables_of 0 (lines s)).
(** The variables above the section [Events]; there are none if the events come first. *)
Fixpoint variables_above (cs : list chunk) : list variable :=
  match cs with
  | [] => []
  | x :: cs' => if str_eqb (ch_name x) (lit "Events") then []
                else if str_eqb (ch_name x) (lit "Variables")
                     then match variables_read (ch_body x) with ROk (Some vs) => vs | _ => [] end
                     else variables_above cs'
  end.
Definition osb_table (dbg : bool) (vs : list variable) : list (string * (str -> res unit (line_err osb_err))) :=
  [("Variables", can_be OsbVariable variables_read); ("Events", can_be OsbEvents (fun t => events_from_str_vars dbg vs t 14%Z))]%string.
Definition osb_of (dbg : bool) (cs : list chunk) : osb :=
  mk_osb (section_of cs "Variables" variables_read)
    (section_of cs "Events" (fun t => events_from_str_vars dbg (variables_above cs) t 14%Z)).
Definition osb_reads (dbg : bool) (n : Z) (cs : list chunk) : res osb (line_err osb_err) :=
  rmap (fun _ => osb_of dbg cs)
    (first_bad_section (osb_table dbg (variables_above cs)) OsbDuplicateSections OsbUnknownSection false n [] cs).
