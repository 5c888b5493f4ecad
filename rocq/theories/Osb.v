(** src/osu_file/osb: the .osb storyboard file. *)
From Coq Require Import String List NArith ZArith Bool.
From Verif Require Import Str Num Nom Dec Parsers Colours Storyboard NormalEvents Events.
Import ListNotations.
Local Open Scope N_scope.

(** osb/error.rs:31-36. *)
Inductive var_err := VarMissingHeader | VarMissingEquals.
(** [Variable::from_str] (osb/types.rs:17-42). *)
Definition var_parser : parser var_err variable :=
  pbind (preceded (context VarMissingHeader (tag (lit "$")))
           (take_till (fun c => (c =? 61) || (c =? 10)))) (fun name =>
  pmap (fun value => mk_var name value)
    (preceded (context VarMissingEquals (tag (lit "="))) prest)).
Definition var_from_str (s : str) : res (option variable) var_err :=
  rmap Some (verbose_error_to_error (var_parser s)).
(** [Variable::to_string] (osb/types.rs:44-48). *)
Definition var_to_string (x : variable) : str :=
  lit "$" ++ var_name x ++ lit "=" ++ var_value x.

(** [osb::ParseError] (osb/error.rs:6-25). *)
Inductive osb_err := OsbUnexpectedLine | OsbDuplicateSections | OsbUnknownSection
  | OsbVariable (e : var_err) | OsbEvents (e : ev_err).

(** [Osb] (osb/mod.rs:13-17). *)
Record osb := mk_osb { osb_variables : option (list variable); osb_events : option (list event) }.

(** The lines before the first section (osb/mod.rs:27-33, osu_file/mod.rs:207-213):
    the first line that starts with ['['] or ends with [']'] stops it. *)
Definition pre_section (line : str) : bool :=
  let t := trim (trim line) in
  negb (starts_with_char 91 t) && negb (ends_with_char 93 t).
Fixpoint split_pre (ls : list str) : list str * list str :=
  match ls with
  | [] => ([], [])
  | l :: ls' => if pre_section l then let (a, b) := split_pre ls' in (l :: a, b)
                else ([], ls)
  end.
(** The first of these lines that is neither blank nor a comment
    (osb/mod.rs:35-47, osu_file/mod.rs:215-227). *)
Fixpoint unexpected_line (i : Z) (ls : list str) : option Z :=
  match ls with
  | [] => None
  | l :: ls' =>
      let t := trim l in
      if is_empty t then unexpected_line (i + 1) ls'
      else if starts_with (lit "//") t then unexpected_line (i + 1) ls'
      else Some i
  end.

(** The [Variables] section (osb/mod.rs:76-91).  Line numbers are plain integers
    throughout: a [usize] line number would need 2^64 lines to overflow. *)
Definition variables_from_str (s : str) : res (list variable) (line_err var_err) :=
  parse_lines (fun l => v_unwrap (var_from_str l)) 0 (lines s).

(** The loop over the sections (osb/mod.rs:61-108). *)
Fixpoint osb_loop (dbg : bool) (v : version) (line : Z) (parsed : list str) (acc : osb)
  (l : list (str * str * str * str)) : res osb (line_err osb_err) :=
  match l with
  | [] => ROk acc
  | (ws, name, ws2, body) :: l' =>
      let line := (line + lines_count ws)%Z in
      if mem_str name parsed then RErr (mk_line_err line OsbDuplicateSections)
      else
        let name_line := line in
        let line := (line + lines_count ws2)%Z in
        rbind
          (if str_eqb name (lit "Variables") then
             rmap (fun vs => mk_osb (Some vs) (osb_events acc))
                  (processing_line OsbVariable (variables_from_str body) line)
           else if str_eqb name (lit "Events") then
             rmap (fun es => mk_osb (osb_variables acc) es)
                  (processing_line OsbEvents
                     (events_from_str_vars dbg
                        (match osb_variables acc with Some vs => vs | None => [] end) body v)
                     line)
           else RErr (mk_line_err name_line OsbUnknownSection))
          (fun acc' => osb_loop dbg v (line + Z.max 0 (lines_count body - 1))%Z
                                (parsed ++ [name]) acc' l')
  end.

(** [Osb::from_str] (osb/mod.rs:22-110). *)
Definition osb_from_str (dbg : bool) (s : str) (v : version) : res (option osb) (line_err osb_err) :=
  if (v <? 14)%Z then ROk None
  else
    let (pre, rest) := split_pre (lines s) in
    match unexpected_line 0 pre with
    | Some i => RErr (mk_line_err i OsbUnexpectedLine)
    | None =>
        match many0 (@square_section unit) (join [c_nl] rest) with
        | POk _ sections =>
            rmap Some (osb_loop dbg v (Z.of_nat (length pre)) [] (mk_osb None None) sections)
        | PErr _ | PFail _ => RPanic PUnwrap
        | PPanic p => RPanic p
        end
    end.

(** [Osb::to_string] (osb/mod.rs:112-145). *)
Definition osb_to_string (dbg : bool) (o : osb) (v : version) : run (option str) :=
  if (v <? 14)%Z then ROk None
  else
    let vars := match osb_variables o with Some vs => vs | None => [] end in
    rmap (fun evs =>
      Some (join [c_nl; c_nl]
        ((match osb_variables o with
          | Some vs => [lit "[Variables]" ++ [c_nl] ++ join [c_nl] (map var_to_string vs)]
          | None => []
          end)
         ++ (match evs with Some t => [lit "[Events]" ++ [c_nl] ++ t] | None => [] end))))
      (match osb_events o with
       | Some es => rbind (events_to_string_vars dbg vars es v) (fun t => rmap Some (unwrap t))
       | None => ROk None
       end).
