(** The [Events] section as the file format describes it: the line of each event, its
    indented commands below it, and the events that can be written. *)
From Coq Require Import String List NArith ZArith Bool.
From Verif Require Import Str Num Nom Dec Parsers Unicode Storyboard NormalEvents Events
  SpecWf SpecText SpecTypes SpecCmd.
Import ListNotations.
Local Open Scope N_scope.

(** ** the fields of an event line *)
(** Versions 3 and 4 count times from 24 ms earlier. *)
Definition shown_time (v : version) (t : Z) : Z := if (v =? 3)%Z || (v =? 4)%Z then (t - 24)%Z else t.
Definition opt_position (p : option position_t) : list str :=
  match p with Some p => [print_decimal (pos_x p); print_decimal (pos_y p)] | None => [] end.
Definition legacy_layers : list layer_legacy :=
  [LlBackground; LlFail; LlPass; LlForeground; LlOverlay; LlVideo].
Definition origin_types : list origin_type :=
  [OtTopLeft; OtCentre; OtCentreLeft; OtTopRight; OtBottomCentre; OtTopCentre; OtCustom;
   OtCentreRight; OtBottomLeft; OtBottomRight].
Definition sample_layers : list au_layer := [AlBackground; AlFail; AlPass; AlForeground].
(** [z] is the number of [x] in the table [l]. *)
Definition numbered {A} (l : list A) (x : A) (z : Z) : Prop :=
  (0 <= z)%Z /\ nth_error l (Z.to_nat z) = Some x.
Inductive origin_text : origin -> str -> Prop :=
| ot_number t z : numbered origin_types t z -> origin_text (mk_origin (OLeft t) true) (print_Z z)
| ot_name t : origin_text (mk_origin (OLeft t) false) (origin_name t)
| ot_other z : origin_text (mk_origin (ORight z) true) (print_Z z).
Definition opt_field (o : option Z) : list str := match o with Some z => [print_Z z] | None => [] end.
Definition object_fields (o : object) (org : str) (f : file_path) : list str :=
  [sb_layer_to_string (ob_layer o); org; f; print_decimal (pos_x (ob_pos o)); print_decimal (pos_y (ob_pos o))].
(** the fields of the line of an event *)
Inductive event_fields (v : version) : event -> list str -> Prop :=
| ef_background x :
    event_fields v (EBackground x)
      ([lit "0"; print_Z (bg_start x); bg_file x] ++ opt_position (bg_pos x))
| ef_video x :
    event_fields v (EVideo x)
      ([if vi_short x then lit "1" else lit "Video"; print_Z (shown_time v (vi_start x)); vi_file x]
       ++ opt_position (vi_pos x))
| ef_break x :
    event_fields v (EBreak x)
      [if br_short x then lit "2" else lit "Break"; print_Z (shown_time v (br_start x));
       print_Z (shown_time v (br_end x))]
| ef_colour x :
    event_fields v (EColourTransformation x)
      [lit "3"; print_Z (shown_time v (ctr_start x)); print_Z (ctr_r x); print_Z (ctr_g x); print_Z (ctr_b x)]
| ef_sprite_legacy x l o :
    numbered legacy_layers (lg_layer x) l -> numbered origin_types (lg_origin x) o ->
    event_fields v (ESpriteLegacy x)
      ([lit "4"; print_Z l; print_Z o; lg_file x] ++ opt_position (lg_pos x))
| ef_animation_legacy x l o :
    numbered legacy_layers (lg_layer x) l -> numbered origin_types (lg_origin x) o ->
    event_fields v (EAnimationLegacy x)
      ([lit "5"; print_Z l; print_Z o; lg_file x] ++ opt_position (lg_pos x))
| ef_sample_legacy x l :
    numbered legacy_layers (sl_layer x) l ->
    event_fields v (ESampleLegacy x)
      ([lit "6"; print_decimal (sl_time x); print_Z l; sl_file x] ++ opt_field (sl_volume x))
| ef_sprite x f org :
    ob_type x = ObSprite f -> origin_text (ob_origin x) org ->
    event_fields v (EObject x) (lit "Sprite" :: object_fields x org f)
| ef_animation x f n d l org :
    ob_type x = ObAnimation n d l f -> origin_text (ob_origin x) org ->
    event_fields v (EObject x)
      (lit "Animation" :: object_fields x org f ++ [print_Z n; print_rdec d; loop_type_to_string l])
| ef_sample x l :
    numbered sample_layers (au_layer_f x) l ->
    event_fields v (EAudioSample x)
      [lit "Sample"; print_Z (au_time x); print_Z l; au_file x; print_Z (au_volume x)].
(** [s] is the line of [e] *)
Inductive event_line (v : version) : event -> str -> Prop :=
| el_comment c : event_line v (EComment c) (lit "//" ++ c)
| el_fields e fs : event_fields v e fs -> event_line v e (commas fs).

(** ** an event with its commands *)
Definition commands_of (e : event) : list command :=
  match e with
  | EBackground x => bg_cmds x
  | EVideo x => vi_cmds x
  | ESpriteLegacy x | EAnimationLegacy x => lg_cmds x
  | ESampleLegacy x => sl_cmds x
  | EObject x => ob_cmds x
  | _ => []
  end.
(** a command line: one space for every level, then the command *)
Inductive command_line : nat * command -> str -> Prop :=
| cl d c s : cmd_text c s -> command_line (d, c) (repeat 32 d ++ s).
(** the lines of an event: its own, then its commands in pre-order *)
Inductive event_lines (v : version) : event -> list str -> Prop :=
| els e own ls :
    event_line v e own -> Forall2 command_line (preorders 1 (commands_of e)) ls ->
    event_lines v e (own :: ls).
Inductive events_lines (v : version) : list event -> list str -> Prop :=
| evs_nil : events_lines v [] []
| evs_cons e l a b : event_lines v e a -> events_lines v l b -> events_lines v (e :: l) (a ++ b).

(** ** events that can be written *)
Definition one_line (s : str) : bool := no_nl s && no_cr_end s.
(** No comma, one line, and no space unless in quotes. *)
Definition path_ok (p : file_path) : bool :=
  no_comma p && no_nl p && (negb (contains_char 32 p) || (starts_with_char 34 p && ends_with_char 34 p)).
(** the time fits an [i32] both ways *)
Definition time_ok (v : version) (t : Z) : bool := in_i32 t && in_i32 (shown_time v t).
Definition dec_line (d : decimal) : bool := wf_decimal d && dec_no_nl d.
(** the second coordinate is the rest of the line *)
Definition opt_position_ok (p : option position_t) : bool :=
  match p with
  | Some p => cmd_dec (pos_x p) && dec_line (pos_x p) && dec_line (pos_y p) && no_cr_end (print_decimal (pos_y p))
  | None => true
  end.
(** [last]: nothing follows the path *)
Definition path_end_ok (p : file_path) (last : bool) : bool := path_ok p && (negb last || no_cr_end p).
Definition is_absent {A} (o : option A) : bool := match o with None => true | Some _ => false end.
Definition origin_ok (o : origin) : bool :=
  match or_type o with
  | OLeft _ => true
  | ORight z => or_short o && in_i32 z && ((z <? 0) || (9 <? z))%Z
  end.
Definition obj_dec (d : decimal) : bool := cmd_dec d && dec_no_nl d.
Definition object_ok (o : object) : bool :=
  origin_ok (ob_origin o) && obj_dec (pos_x (ob_pos o)) && obj_dec (pos_y (ob_pos o))
  && match ob_type o with
     | ObSprite f => path_ok f && no_cr_end (print_decimal (pos_y (ob_pos o)))
     | ObAnimation n d _ f => path_ok f && in_u32 n && wf_rdec d
     end.
Definition volume_ok (z : Z) : bool := ((0 <=? z) && (z <=? 100))%Z.
(** the event on its own *)
Definition own_ok (v : version) (e : event) : bool :=
  match e with
  | EComment c => one_line c
  | EBackground x => in_i32 (bg_start x) && path_end_ok (bg_file x) (is_absent (bg_pos x)) && opt_position_ok (bg_pos x)
  | EVideo x => time_ok v (vi_start x) && path_end_ok (vi_file x) (is_absent (vi_pos x)) && opt_position_ok (vi_pos x)
  | EBreak x => time_ok v (br_start x) && time_ok v (br_end x)
  | EColourTransformation x =>
      (v <? 14)%Z && time_ok v (ctr_start x) && in_u8 (ctr_r x) && in_u8 (ctr_g x) && in_u8 (ctr_b x)
  | ESpriteLegacy x | EAnimationLegacy x =>
      path_end_ok (lg_file x) (is_absent (lg_pos x)) && opt_position_ok (lg_pos x)
  | ESampleLegacy x =>
      obj_dec (sl_time x) && path_end_ok (sl_file x) (is_absent (sl_volume x)) && opt_ok volume_ok (sl_volume x)
  | EObject x => object_ok x
  | EAudioSample x => in_i32 (au_time x) && path_ok (au_file x) && volume_ok (au_volume x)
  end.
(** a command whose line stays one line *)
Definition dec_lines (l : list decimal) : bool :=
  forallb dec_no_nl l && match rev l with d :: _ => no_cr_end (print_decimal d) | [] => true end.
Definition pair_decs (x : decimal * option decimal) : list decimal :=
  fst x :: match snd x with Some y => [y] | None => [] end.
Definition cmd_one_line (c : command) : bool :=
  match cmd_props c with
  | PFade _ _ s l | PMoveX _ _ s l | PMoveY _ _ s l | PScale _ _ s l | PRotate _ _ s l => dec_lines (s :: l)
  | PMove _ _ x | PVectorScale _ _ x =>
      dec_lines (fst (ct_start x) :: snd (ct_start x) :: concat (map pair_decs (ct_rest x)))
  | _ => true
  end.
Fixpoint tree_ok (c : command) : bool :=
  cmd_ok c && cmd_one_line c &&
  match c with
  | mk_cmd _ (PLoop _ cs) | mk_cmd _ (PTrigger _ _ _ cs) => forallb tree_ok cs
  | _ => true
  end.
Definition event_ok (v : version) (e : event) : bool := own_ok v e && forallb tree_ok (commands_of e).

(** ** what a list of events becomes in a file *)
(** A path with a space is written in quotes. *)
Definition quoted (p : file_path) : file_path :=
  if contains_char 32 p && negb (starts_with_char 34 p && ends_with_char 34 p) then [34] ++ p ++ [34] else p.
Definition written_event (e : event) : event :=
  match e with
  | EBackground x => EBackground (mk_bg (bg_start x) (quoted (bg_file x)) (bg_pos x) (bg_cmds x))
  | EVideo x => EVideo (mk_vid (vi_start x) (quoted (vi_file x)) (vi_pos x) (vi_cmds x) (vi_short x))
  | ESpriteLegacy x => ESpriteLegacy (mk_leg (lg_layer x) (lg_origin x) (quoted (lg_file x)) (lg_pos x) (lg_cmds x))
  | EAnimationLegacy x => EAnimationLegacy (mk_leg (lg_layer x) (lg_origin x) (quoted (lg_file x)) (lg_pos x) (lg_cmds x))
  | ESampleLegacy x => ESampleLegacy (mk_sl (sl_time x) (sl_layer x) (quoted (sl_file x)) (sl_volume x) (sl_cmds x))
  | EObject x =>
      EObject (mk_obj (ob_layer x) (ob_origin x) (ob_pos x)
        (match ob_type x with
         | ObSprite f => ObSprite (quoted f)
         | ObAnimation n d l f => ObAnimation n d l (quoted f)
         end) (ob_cmds x))
  | EAudioSample x => EAudioSample (mk_au (au_time x) (au_layer_f x) (quoted (au_file x)) (au_volume x))
  | _ => e
  end.
(** Colour transformations are not in version 14. *)
Definition in_version (v : version) (e : event) : bool :=
  match e with EColourTransformation _ => (v <? 14)%Z | _ => true end.
Definition written (v : version) (l : list event) : list event := map written_event (filter (in_version v) l).
(** no carriage return inside a line *)
Definition no_cr (s : str) : bool := forallb (fun c => negb (c =? 13)) s.

(** ** lines that stop the reader *)
Definition event_numbers : list str :=
  [lit "0"; lit "1"; lit "Video"; lit "2"; lit "Break"; lit "3"; lit "4"; lit "5"; lit "6"].
(** An event number or name with something else than a comma behind it. *)
Definition bad_number (s : str) : Prop :=
  exists h c r, In h event_numbers /\ s = h ++ c :: r /\ c <> 44.
(** An animation with an unknown loop type and nothing else wrong with it. *)
Definition bad_loop_type (s : str) : Prop :=
  exists layer org file x y n d lt,
    s = commas [lit "Animation"; layer; org; file; x; y; n; d; lt]
    /\ forallb no_comma [layer; org; file; x; y; n; d] = true
    /\ (exists l, layer = sb_layer_to_string l) /\ (exists o, origin_from_str org = ROk (Some o))
    /\ (exists z, parse_u32 n = ROk z) /\ (exists z, parse_rdec d = Some z)
    /\ lt <> lit "LoopForever" /\ lt <> lit "LoopOnce".
(** A character that begins a new piece of a trigger. *)
Definition begins_piece (c : char) : bool := is_uppercase c || is_numeric c.
(** A trigger whose custom sample index is followed by another piece, of at most four
    pieces behind ["HitSound"], which has two itself. *)
Definition bad_trigger (s : str) : Prop :=
  exists ss ass ad z c r,
    trigger_ok (TtHitSound ss ass ad (Some z)) = true
    /\ s = trigger_type_to_string (TtHitSound ss ass ad (Some z)) ++ c :: r
    /\ begins_piece c = true /\ (length (filter begins_piece s) <= 6)%nat.
Definition utf8_length (s : str) : nat := fold_right (fun c n => utf8_width c + n)%nat 0%nat s.
(** The number of characters up to the first comma, taken as a number of bytes, does not
    end at a character. *)
Definition bad_offset (s : str) : Prop :=
  exists a b, s = a ++ 44 :: b /\ no_comma a = true
    /\ forall p q, s = p ++ q -> utf8_length p <> S (length a).
Definition bad_command (s : str) : Prop :=
  bad_offset s
  \/ exists ind t r, s = ind ++ lit "T," ++ t ++ r /\ forallb is_indent ind = true
       /\ no_comma t = true /\ (r = [] \/ exists r', r = 44 :: r') /\ bad_trigger (trim t).
Definition indented (s : str) : bool := match s with c :: _ => is_indent c | [] => false end.
(** A line that stops the reader, if it gets there. *)
Definition bad_line (s : str) : Prop :=
  is_blank s = false /\ strip_prefix (lit "//") s = None
  /\ if indented s then bad_command s else bad_number s \/ bad_loop_type s.
(** The last event can have commands. *)
Definition takes_commands (evs : list event) : Prop :=
  exists l e, evs = l ++ [e]
    /\ match e with
       | EComment _ | EBreak _ | EColourTransformation _ | EAudioSample _ => False
       | _ => True
       end.
(** The text with exactly these lines. *)
Definition crlf_text (ls : list str) : str := concat (map (fun l => l ++ [13; 10]) ls).
