(** src/osu_file/mod.rs: the whole .osu file. *)
From Coq Require Import String List NArith ZArith Bool.
From Verif Require Import Str Num Nom Dec Parsers General Editor Metadata Difficulty Colours
  TimingPoints HitObjects Storyboard NormalEvents Events Osb.
Import ListNotations.
Local Open Scope N_scope.

(** [ParseError] (osu_file/mod.rs:322-397); the variants never produced are left
    out. *)
Inductive osu_err :=
| OsuInvalidFileVersion | OsuFileVersionDefinedWrong | OsuUnexpectedLine
| OsuDuplicateSections | OsuUnknownSection
| OsuGeneral (e : general_err) | OsuEditor (e : editor_err) | OsuMetadata (e : metadata_err)
| OsuDifficulty (e : difficulty_err) | OsuEvents (e : ev_err) | OsuTimingPoints (e : tp_err)
| OsuColours (e : colour_err) | OsuHitObjects (e : ho_err).

(** [OsuFile] (osu_file/mod.rs:37-68). *)
Record osu_file := mk_osu {
  osu_version : version;
  osu_general : option general;
  osu_editor : option editor;
  osu_osb : option osb;
  osu_metadata : option metadata;
  osu_difficulty : option difficulty;
  osu_events : option (list event);
  osu_timing_points : option (list timing_point);
  osu_colours : option (list colour);
  osu_hitobjects : option (list hit_object) }.

(** [OsuFile::new], [default] (osu_file/mod.rs:72-87, 104-106). *)
Definition osu_new (v : version) : osu_file :=
  mk_osu v None None None None None None None None None.
Definition osu_default := osu_new.

(** [append_osb] (osu_file/mod.rs:90-94): the file after the call and the result. *)
Definition set_osb (o : option osb) (f : osu_file) : osu_file :=
  mk_osu (osu_version f) (osu_general f) (osu_editor f) o (osu_metadata f)
         (osu_difficulty f) (osu_events f) (osu_timing_points f) (osu_colours f)
         (osu_hitobjects f).
Definition append_osb (dbg : bool) (f : osu_file) (s : str)
  : osu_file * res unit (line_err osb_err) :=
  match osb_from_str dbg s (osu_version f) with
  | ROk o => (set_osb o f, ROk tt)
  | RErr e => (f, RErr e)
  | RPanic p => (f, RPanic p)
  end.
(** [osb_to_string] (osu_file/mod.rs:97-102). *)
Definition osu_osb_to_string (dbg : bool) (f : osu_file) : run (option str) :=
  match osu_osb f with
  | Some o => osb_to_string dbg o (osu_version f)
  | None => ROk None
  end.

(** One section of the output. *)
Definition out_section (name : string) (content : option str) : list str :=
  match content with
  | Some t => [lit "[" ++ lit name ++ lit "]" ++ [c_nl] ++ t]
  | None => []
  end.
Definition obind {A B} (o : option A) (f : A -> option B) : option B :=
  match o with Some a => f a | None => None end.
(** [if let Some(x) = &self.x { if let Some(x) = x.to_string(version) {..} }] for a
    printer that may panic. *)
Definition run_opt {A} (o : option A) (f : A -> run (option str)) : run (option str) :=
  match o with Some a => f a | None => ROk None end.
(** [Display for OsuFile] (osu_file/mod.rs:109-165). *)
Definition osu_to_string (dbg : bool) (f : osu_file) : run str :=
  let v := osu_version f in
  rbind (run_opt (osu_events f) (fun l => events_to_string dbg l v)) (fun ev =>
  rbind (run_opt (osu_timing_points f) (fun l => timing_points_to_string l v)) (fun tp =>
  rbind (run_opt (osu_hitobjects f) (fun l => hit_objects_to_string l v)) (fun ho =>
  ROk (lit "osu file format v" ++ print_Z v ++ [c_nl; c_nl]
       ++ join [c_nl; c_nl]
            (out_section "General" (obind (osu_general f) (fun x => general_to_string x v))
             ++ out_section "Editor" (obind (osu_editor f) (fun x => editor_to_string x v))
             ++ out_section "Metadata" (obind (osu_metadata f) (fun x => metadata_to_string x v))
             ++ out_section "Difficulty"
                  (obind (osu_difficulty f) (fun x => difficulty_to_string x v))
             ++ out_section "Events" ev
             ++ out_section "TimingPoints" tp
             ++ out_section "Colours" (obind (osu_colours f) (fun x => colours_to_string x v))
             ++ out_section "HitObjects" ho))))).

(** The version line (osu_file/mod.rs:171-181): leading whitespace, an optional
    byte order mark, the text and the number up to the end of the line. *)
Definition version_parser : parser unit (str * Z) :=
  pair multispace0
    (preceded (preceded (alt (tag [c_bom]) (pret []))
                        (tag (lit "osu file format v")))
       (map_res (take_till (fun c => (c =? 13) || (c =? 10))) parse_u8)).

(** One section, by name (osu_file/mod.rs:256-300); [None] is the unknown name. *)
Definition osu_section (dbg : bool) (f : osu_file) (name body : str) (line : Z)
  : option (res osu_file (line_err osu_err)) :=
  let '(mk_osu v g e o m d ev tp c h) := f in
  if str_eqb name (lit "General") then
    Some (rmap (fun x => mk_osu v x e o m d ev tp c h)
               (processing_line OsuGeneral (general_from_str body v) line))
  else if str_eqb name (lit "Editor") then
    Some (rmap (fun x => mk_osu v g x o m d ev tp c h)
               (processing_line OsuEditor (editor_from_str body v) line))
  else if str_eqb name (lit "Metadata") then
    Some (rmap (fun x => mk_osu v g e o x d ev tp c h)
               (processing_line OsuMetadata (metadata_from_str body v) line))
  else if str_eqb name (lit "Difficulty") then
    Some (rmap (fun x => mk_osu v g e o m x ev tp c h)
               (processing_line OsuDifficulty (difficulty_from_str body v) line))
  else if str_eqb name (lit "Events") then
    Some (rmap (fun x => mk_osu v g e o m d x tp c h)
               (processing_line OsuEvents (events_from_str dbg body v) line))
  else if str_eqb name (lit "TimingPoints") then
    Some (rmap (fun x => mk_osu v g e o m d ev x c h)
               (processing_line OsuTimingPoints (timing_points_from_str body v) line))
  else if str_eqb name (lit "Colours") then
    Some (rmap (fun x => mk_osu v g e o m d ev tp x h)
               (processing_line OsuColours (colours_from_str body v) line))
  else if str_eqb name (lit "HitObjects") then
    Some (rmap (fun x => mk_osu v g e o m d ev tp c x)
               (processing_line OsuHitObjects (hit_objects_from_str body v) line))
  else None.

(** [n - 1] on a [usize] (osu_file/mod.rs:304): zero underflows, a panic when [dbg], a
    wrapped value otherwise.  A section is empty only at the end of the text, because the
    white space after the name is taken before the section ([Parsers.square_section]), so
    the line number computed from the wrapped value is never used. *)
Definition usize_pred {E} (dbg : bool) (n : Z) : res Z E :=
  if (n =? 0)%Z then if dbg then RPanic POverflow else ROk usize_max else ROk (n - 1)%Z.
(** The loop over the sections (osu_file/mod.rs:251-305).  The line counting underflows
    on an empty section; all other additions are plain (see
    [Osb.variables_from_str]). *)
Fixpoint osu_loop (dbg : bool) (line : Z) (parsed : list str) (acc : osu_file)
  (l : list (str * str * str * str)) : res osu_file (line_err osu_err) :=
  match l with
  | [] => ROk acc
  | (ws, name, ws2, body) :: l' =>
      let line := (line + lines_count ws)%Z in
      if mem_str name parsed then RErr (mk_line_err line OsuDuplicateSections)
      else
        match osu_section dbg acc name body (line + lines_count ws2)%Z with
        | None => RErr (mk_line_err line OsuUnknownSection)
        | Some r =>
            rbind r (fun acc' =>
            rbind (usize_pred dbg (lines_count body)) (fun n =>
            osu_loop dbg (line + lines_count ws2 + n)%Z (parsed ++ [name]) acc' l'))
        end
  end.

(** [OsuFile::from_str] (osu_file/mod.rs:167-320). *)
Definition osu_from_str (dbg : bool) (s : str) : res osu_file (line_err osu_err) :=
  match version_parser s with
  | PErr e =>
      match e_kind e with
      | KTag => RErr (mk_line_err 0 OsuFileVersionDefinedWrong)
      | KMapRes => RErr (mk_line_err 0 OsuInvalidFileVersion)
      | _ => RPanic PUnreachable
      end
  | PFail _ => RPanic PUnreachable
  | PPanic p => RPanic p
  | POk s' (ws, v) =>
      if negb ((min_version <=? v)%Z && (v <=? latest_version)%Z)
      then RErr (mk_line_err 0 OsuInvalidFileVersion)
      else
        let (pre, rest) := split_pre (lines s') in
        match unexpected_line 0 pre with
        | Some i => RErr (mk_line_err i OsuUnexpectedLine)
        | None =>
            match many0 (@square_section unit) (join [c_nl] rest) with
            | POk _ sections =>
                osu_loop dbg (lines_count ws + Z.of_nat (length pre))%Z [] (osu_new v) sections
            | PErr _ | PFail _ => RPanic PUnwrap
            | PPanic p => RPanic p
            end
        end
  end.
