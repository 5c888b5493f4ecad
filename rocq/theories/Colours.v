(** src/osu_file/colours: the [Colours] section. *)
From Coq Require Import String List NArith ZArith Bool.
From Verif Require Import Str Num Nom Dec Parsers.
Import ListNotations.
Local Open Scope N_scope.

(** The loop [for (line_index, s) in s.lines().enumerate()] with the blank-line
    [continue] and the [?] on the line parser, shared by the line based sections
    (colours/mod.rs:33-43, timingpoints/mod.rs:33-42, hitobjects/mod.rs). *)
Fixpoint parse_lines {A E} (f : str -> res A E) (i : Z) (ls : list str)
  : res (list A) (line_err E) :=
  match ls with
  | [] => ROk []
  | l :: ls' =>
      if is_blank l then parse_lines f (i + 1) ls'
      else match f l with
           | ROk a => rmap (cons a) (parse_lines f (i + 1) ls')
           | RErr e => RErr (mk_line_err i e)
           | RPanic p => RPanic p
           end
  end.

(** colours/error.rs:30-48. *)
Inductive rgb_err := RgbInvalidRed | RgbInvalidGreen | RgbInvalidBlue
                   | RgbMissingGreen | RgbMissingBlue.
(** colours/error.rs:10-26. *)
Inductive colour_err := ColInvalidComboCount | ColInvalidColonSeparator
                      | ColRgb (e : rgb_err) | ColUnknownType.

(** [Rgb] (colours/types.rs:10-19). *)
Record rgb := mk_rgb { rgb_r : Z; rgb_g : Z; rgb_b : Z }.

(** [Rgb::from_str] (colours/types.rs:21-49). *)
Definition rgb_byte : parser rgb_err Z := map_res digit1 parse_u8.
Definition rgb_parser : parser rgb_err rgb :=
  pbind (preceded space0 (context RgbInvalidRed rgb_byte)) (fun r =>
  pbind (preceded (pbind space0 (fun _ => pbind (context RgbMissingGreen comma) (fun _ => space0)))
                  (context RgbInvalidGreen rgb_byte)) (fun g =>
  pbind (preceded (pbind space0 (fun _ => pbind (context RgbMissingBlue comma) (fun _ => space0)))
                  (context RgbInvalidBlue (consume_rest_type parse_u8))) (fun b =>
  pret (mk_rgb r g b)))).
Definition rgb_from_str (s : str) (_ : version) : res (option rgb) rgb_err :=
  rmap Some (verbose_error_to_error (rgb_parser s)).
(** [Rgb::to_string] (colours/types.rs:51-55). *)
Definition rgb_to_string (c : rgb) : str :=
  print_Z (rgb_r c) ++ lit "," ++ print_Z (rgb_g c) ++ lit "," ++ print_Z (rgb_b c).

(** [Colour] (colours/mod.rs:75-85). *)
Inductive colour :=
| Combo (n : Z) (c : rgb)
| SliderTrackOverride (c : rgb)
| SliderBorder (c : rgb).

(** The contexts of the [Colour] parser: variant names, or ["rgb_parse_error"]
    together with the input at that point (colours/mod.rs:98-106, 155-164). *)
Inductive colour_ctx := CcErr (e : colour_err) | CcRgb (input : str).

Section ColourParser.
  Variable v : version.

  (** colours/mod.rs:93. *)
  Definition col_separator : parser colour_ctx str :=
    pbind space0 (fun _ => pbind (tag (lit ":")) (fun _ => space0)).
  (** colours/mod.rs:99-106.  No other context surrounds it, so it is always the
      innermost one. *)
  Definition col_rgb : parser colour_ctx rgb :=
    fun s => context (CcRgb s) (map_res prest (fun t => v_unwrap (rgb_from_str t v))) s.
  (** colours/mod.rs:108-118. *)
  Definition col_combo : parser colour_ctx colour :=
    pbind (preceded (tag (lit "Combo"))
             (context (CcErr ColInvalidComboCount) (cut (map_res digit1 parse_i32)))) (fun n =>
    pmap (Combo n)
      (cut (preceded (context (CcErr ColInvalidColonSeparator) col_separator) col_rgb))).
  (** colours/mod.rs:120-130. *)
  Definition col_track : parser colour_ctx colour :=
    pmap SliderTrackOverride
      (preceded (pbind (tag (lit "SliderTrackOverride")) (fun _ =>
                 context (CcErr ColInvalidColonSeparator) (cut col_separator)))
                (cut col_rgb)).
  (** colours/mod.rs:97, 132-142. *)
  Definition col_border : parser colour_ctx colour :=
    pmap SliderBorder
      (preceded (pbind (pbind (tag (lit "Slider")) (fun _ =>
                        pbind (alt (pchar 66) (pchar 98)) (fun _ => tag (lit "order")))) (fun _ =>
                 context (CcErr ColInvalidColonSeparator) (cut col_separator)))
                (cut col_rgb)).
  (** colours/mod.rs:144-150. *)
  Definition colour_parser : parser colour_ctx colour :=
    alt col_combo (alt col_track (alt col_border (context (CcErr ColUnknownType) pfail))).

  (** [Colour::from_str] (colours/mod.rs:87-171). *)
  Definition colour_from_str (s : str) : res (option colour) colour_err :=
    match verbose_error_to_error (colour_parser (trim s)) with
    | ROk c => ROk (Some c)
    | RErr (CcErr e) => RErr e
    | RErr (CcRgb i) =>
        match rgb_from_str i min_version with
        | RErr e => RErr (ColRgb e)
        | ROk _ => RPanic PUnwrap                 (* [unwrap_err] *)
        | RPanic p => RPanic p
        end
    | RPanic p => RPanic p
    end.
End ColourParser.

(** [Colour::to_string] (colours/mod.rs:173-187). *)
Definition colour_to_string (c : colour) : str :=
  match c with
  | Combo n x => lit "Combo" ++ print_Z n ++ lit " : " ++ rgb_to_string x
  | SliderTrackOverride x => lit "SliderTrackOverride : " ++ rgb_to_string x
  | SliderBorder x => lit "SliderBorder : " ++ rgb_to_string x
  end.

(** [Colours::from_str] (colours/mod.rs:24-49). *)
Definition colours_from_str (s : str) (v : version)
  : res (option (list colour)) (line_err colour_err) :=
  if old_version v then ROk None
  else rmap (fun l => Some (flatten_opt l)) (parse_lines (colour_from_str v) 0 (lines s)).

(** [Colours::to_string] (colours/mod.rs:51-64). *)
Definition colours_to_string (l : list colour) (v : version) : option str :=
  if old_version v then None
  else Some (join [c_nl] (map colour_to_string l)).

(** [Colours::default] (colours/mod.rs:66-73). *)
Definition colours_default (v : version) : option (list colour) :=
  if old_version v then None else Some [].
