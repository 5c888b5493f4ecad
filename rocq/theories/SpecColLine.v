(** How a colour and the line of one are read, and which texts are colours; written down
    separately from the parsers. *)
From Coq Require Import String List NArith ZArith Bool.
From Verif Require Import Str Num Parsers Colours Spec SpecText SpecLine.
Import ListNotations.
Local Open Scope N_scope.

(** the text without its leading spaces and tabs *)
Fixpoint skip (s : str) : str :=
  match s with
  | c :: s' => if (c =? 32) || (c =? 9) then skip s' else s
  | [] => []
  end.
(** the digits in front and what follows them *)
Fixpoint digits_of (s : str) : str * str :=
  match s with
  | c :: s' => if (48 <=? c) && (c <=? 57) then let (a, b) := digits_of s' in (c :: a, b) else ([], s)
  | [] => ([], [])
  end.
(** A number of the digits in front of [s]. *)
Definition number (rd : str -> res Z int_err) (s : str) : option (Z * str) :=
  let (ds, rest) := digits_of s in
  match rd ds with ROk z => Some (z, rest) | _ => None end.
(** A component with its comma: digits between spaces. *)
Definition component {B} (invalid missing : rgb_err) (fs : list str) (k : Z -> list str -> res B rgb_err) : res B rgb_err :=
  match fs with
  | [] => RErr invalid
  | f :: fs' => match number parse_u8 (skip f), fs' with
                | None, _ => RErr invalid
                | Some (z, rest), _ :: _ => if spaces rest then k z fs' else RErr missing
                | _, _ => RErr missing
                end
  end.
(** The blue is whatever follows the second comma. *)
Definition rgb_line (fs : list str) : res rgb rgb_err :=
  component RgbInvalidRed RgbMissingGreen fs (fun r fs =>
  component RgbInvalidGreen RgbMissingBlue fs (fun g fs =>
  match parse_u8 (skip (commas fs)) with
  | ROk b => ROk (mk_rgb r g b)
  | _ => RErr RgbInvalidBlue
  end)).
(** colon and colour behind the name *)
Definition col_rest (s : str) (k : rgb -> colour) : res colour colour_err :=
  match skip s with
  | c :: s' => if c =? 58
               then match rgb_line (pieces 44 (skip s')) with
                    | ROk x => ROk (k x)
                    | RErr e => RErr (ColRgb e)
                    | RPanic p => RPanic p
                    end
               else RErr ColInvalidColonSeparator
  | [] => RErr ColInvalidColonSeparator
  end.
Definition col_line (s : str) : res colour colour_err :=
  let t := trim s in
  match strip_prefix (lit "Combo") t with
  | Some r => match number parse_i32 r with
              | Some (n, r) => col_rest r (Combo n)
              | None => RErr ColInvalidComboCount
              end
  | None =>
      match strip_prefix (lit "SliderTrackOverride") t with
      | Some r => col_rest r SliderTrackOverride
      | None => match strip_prefix (lit "SliderBorder") t, strip_prefix (lit "Sliderborder") t with
                | Some r, _ | None, Some r => col_rest r SliderBorder
                | None, None => RErr ColUnknownType
                end
      end
  end.

(** ** the texts of colours *)
Inductive byte_text : str -> Z -> Prop :=
| byte_digits ds : ds <> [] -> Forall digit ds -> value ds <= 255 -> byte_text ds (Z.of_N (value ds)).
Inductive rgb_text : str -> rgb -> Prop :=
| rgb_parts s0 r s1 s2 g s3 s4 b vr vg vb :
    forallb spaces [s0; s1; s2; s3; s4] = true -> byte_text r vr -> byte_text g vg ->
    int_text false b vb -> (vb <= 255)%Z ->
    rgb_text (s0 ++ r ++ s1 ++ [44] ++ s2 ++ g ++ s3 ++ [44] ++ s4 ++ b) (mk_rgb vr vg vb).
Inductive colour_text : str -> colour -> Prop :=
| text_combo ds s1 s2 t x : ds <> [] -> Forall digit ds -> value ds <= 2147483647 -> spaces s1 = true ->
    spaces s2 = true -> rgb_text t x ->
    colour_text (lit "Combo" ++ ds ++ s1 ++ lit ":" ++ s2 ++ t) (Combo (Z.of_N (value ds)) x)
| text_track s1 s2 t x : spaces s1 = true -> spaces s2 = true -> rgb_text t x ->
    colour_text (lit "SliderTrackOverride" ++ s1 ++ lit ":" ++ s2 ++ t) (SliderTrackOverride x)
| text_border b s1 s2 t x : b = lit "SliderBorder" \/ b = lit "Sliderborder" -> spaces s1 = true -> spaces s2 = true ->
    rgb_text t x -> colour_text (b ++ s1 ++ lit ":" ++ s2 ++ t) (SliderBorder x).
