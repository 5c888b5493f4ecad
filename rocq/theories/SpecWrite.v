(** What is printed for every value, in every version: the fields of each line and the lines
    of each section.  Only the texts of single numbers are taken from the model ([print_Z],
    [print_decimal], [print_rdec]; C01, C02), the subtraction of decimals ([rdec_sub]; C22) and
    [str::replace], which C52 characterises. *)
From Coq Require Import String List NArith ZArith Bool.
From Verif Require Import Str Num Dec Parsers General Editor Metadata Difficulty Colours TimingPoints HitObjects Unicode Storyboard
  NormalEvents Events Osb OsuFile SpecText SpecSections SpecTypes SpecCmd SpecEvents SpecEvSection.
Import ListNotations.
Local Open Scope N_scope.

(** ** lists of values that may be missing *)
Definition opt_map2 {A B C} (f : A -> B -> C) (a : option A) (b : option B) : option C :=
  match a, b with Some a, Some b => Some (f a b) | _, _ => None end.
Fixpoint all_some {A B} (f : A -> option B) (l : list A) : option (list B) :=
  match l with
  | [] => Some []
  | a :: l' => opt_map2 cons (f a) (all_some f l')
  end.
Definition some_of {A B} (f : A -> option B) (o : option A) : option (option B) :=
  match o with Some a => option_map Some (f a) | None => Some None end.
(** the printer gives [t], or panics where there is nothing to print *)
Definition prints {A} (r : run A) (o : option A) : Prop :=
  match o with Some t => r = ROk t | None => exists p, r = RPanic p end.

(** ** versions 3 and 4: every time is moved back by 24 before it is printed *)
Definition moves (v : version) : bool := (v =? 3)%Z || (v =? 4)%Z.
(** text stays; a number that leaves the 96 bits does not exist *)
Definition back_dec (v : version) (d : decimal) : option decimal :=
  match d with
  | DRaw _ => Some d
  | DNum r =>
      if moves v then match @rdec_sub Empty_set r (mkDec false 24 0) with ROk x => Some (DNum x) | _ => None end
      else Some d
  end.
(** a number cut to 32 bits *)
Definition as_i32 (z : Z) : Z := ((z + 2147483648) mod 4294967296 - 2147483648)%Z.
(** outside 32 bits: nothing with overflow checks, the wrapped number without *)
Definition back_clock (dbg : bool) (v : version) (t : Z) : option Z :=
  if moves v then
    let z := (t - 24)%Z in
    if ((-2147483648 <=? z) && (z <=? 2147483647))%Z then Some z
    else if dbg then None else Some (as_i32 z)
  else Some t.
Definition back_timing (v : version) (t : timing_point) : option timing_point :=
  option_map (fun x => mk_tp x (tp_beat_length t) (tp_meter t) (tp_sample_set_f t) (tp_sample_index t) (tp_volume t)
                         (tp_uninherited t) (tp_effects t)) (back_dec v (tp_time t)).
Definition back_object (v : version) (o : hit_object) : option hit_object :=
  opt_map2 (fun x p => mk_ho (ho_position o) x p (ho_new_combo o) (ho_combo_skip_count o) (ho_hitsound o) (ho_hitsample o))
    (back_dec v (ho_time o))
    (match ho_obj_params o with
     | Spinner t => option_map Spinner (back_dec v t)
     | OsuManiaHold t => option_map OsuManiaHold (back_dec v t)
     | p => Some p
     end).
(** Backgrounds, sprites and samples are not moved.  A colour transformation is not written in
    version 14. *)
Definition back_event (dbg : bool) (v : version) (e : event) : option event :=
  match e with
  | EVideo x => option_map (fun t => EVideo (mk_vid t (vi_file x) (vi_pos x) (vi_cmds x) (vi_short x))) (back_clock dbg v (vi_start x))
  | EBreak x => opt_map2 (fun a b => EBreak (mk_brk a b (br_short x))) (back_clock dbg v (br_start x)) (back_clock dbg v (br_end x))
  | EColourTransformation x =>
      option_map (fun t => EColourTransformation (mk_ct t (ctr_r x) (ctr_g x) (ctr_b x))) (back_clock dbg v (ctr_start x))
  | _ => Some e
  end.

(** ** [TimingPoints] *)
(** The sample index is a [u32] written as an [i32]. *)
Definition tp_index_out (x : sample_index) : Z := match x with SiDefault => 0%Z | SiIndex z => as_i32 z end.
Definition tp_row (v : version) (t : timing_point) : str :=
  commas ([print_decimal (tp_time t); print_decimal (tp_beat_length t)]
          ++ (if (v <=? 3)%Z then []
              else [print_Z (tp_meter t); print_Z (tp_set_number (tp_sample_set_f t)); print_Z (tp_index_out (tp_sample_index t))])
          ++ (if (v <=? 4)%Z then []
              else print_Z (tp_volume t)
                   :: match tp_uninherited t, tp_effects t with
                      | None, None => []
                      | Some b, None => [bool_text b]
                      | None, Some e => [[]; print_Z e]
                      | Some b, Some e => [bool_text b; print_Z e]
                      end)).

(** ** [HitObjects] *)
(** nothing in versions 3 to 9, the first three numbers in 10 and 11 *)
Definition sample_part (v : version) (o : option hit_sample) : list str :=
  match o with
  | Some h =>
      if ((3 <=? v) && (v <=? 9))%Z then []
      else [print_Z (set_number (hs_normal h)) ++ lit ":" ++ print_Z (set_number (hs_addition h)) ++ lit ":"
            ++ print_Z (index_number (hs_index h))
            ++ (if ((10 <=? v) && (v <=? 11))%Z then []
                else lit ":" ++ print_Z (volume_number (hs_volume h)) ++ lit ":" ++ hs_filename h)]
  | None => []
  end.
Definition absent {A} (l : list A) (short : bool) : bool := match l with [] => short | _ => false end.
(** The edge sets are written when there are some, when they were written before, or when a
    sample follows; the edge sounds also when the edge sets follow. *)
Definition edge_parts (p : slide_params) (hs : option hit_sample) : list str :=
  let sets := [bars (map edge_set_text (sl_edge_sets p))] in
  let sounds := [bars (map (fun h => print_Z (sound_number h)) (sl_edge_sounds p))] in
  match absent (sl_edge_sets p) (sl_edge_sets_shorthand p), hs with
  | true, None => if absent (sl_edge_sounds p) (sl_edge_sounds_short_hand p) then [] else sounds
  | _, _ => sounds ++ sets
  end.
(** Version 3 writes the position as the first curve point, and a comma after a circle. *)
Definition ho_row (v : version) (o : hit_object) : str :=
  let sample := sample_part v (ho_hitsample o) in
  commas ([print_decimal (pos_x (ho_position o)); print_decimal (pos_y (ho_position o));
           print_decimal (ho_time o); print_Z (type_number o); print_Z (sound_number (ho_hitsound o))]
          ++ match ho_obj_params o with
             | HitCircle => sample ++ (if (v =? 3)%Z then [[]] else [])
             | Spinner t => print_decimal t :: sample
             | OsuManiaHold t => [print_decimal t ++ lit ":" ++ concat sample]
             | Slider p =>
                 [bars (curve_letter (sl_curve_type p)
                        :: map point_text ((if (v =? 3)%Z then [ho_position o] else []) ++ sl_curve_points p));
                  print_Z (sl_slides p); print_decimal (sl_length p)]
                 ++ edge_parts p (ho_hitsample o) ++ sample
             end).
(** [ComboSkipCount] holds three bits. *)
Definition three_bits (o : hit_object) : Prop := (0 <= ho_combo_skip_count o <= 7)%Z.

(** ** [Events] *)
(** the place of [x] in a table *)
Fixpoint place_in {A} (same : forall a b : A, {a = b} + {a <> b}) (x : A) (l : list A) : Z :=
  match l with
  | [] => 0%Z
  | y :: l' => if same x y then 0%Z else (1 + place_in same x l')%Z
  end.
Definition same_easing (a b : easing) : {a = b} + {a <> b}.
Proof. decide equality. apply Z.eq_dec. Defined.
Definition same_layer (a b : layer_legacy) : {a = b} + {a <> b}. Proof. decide equality. Defined.
Definition same_origin (a b : origin_type) : {a = b} + {a <> b}. Proof. decide equality. Defined.
Definition same_au_layer (a b : au_layer) : {a = b} + {a <> b}. Proof. decide equality. Defined.
Definition easing_no (e : easing) : Z := match e with EzOther z => z | _ => place_in same_easing e easing_table end.
Definition layer_no (x : layer_legacy) : Z := place_in same_layer x legacy_layers.
Definition origin_no (x : origin_type) : Z := place_in same_origin x origin_types.
Definition au_layer_no (x : au_layer) : Z := place_in same_au_layer x sample_layers.
Definition layer_name (x : sb_layer) : str :=
  match x with LyBackground => lit "Background" | LyFail => lit "Fail" | LyPass => lit "Pass"
             | LyForeground => lit "Foreground" | LyOverlay => lit "Overlay" end.
Definition origin_word (x : origin_type) : str :=
  match x with
  | OtTopLeft => lit "TopLeft" | OtCentre => lit "Centre" | OtCentreLeft => lit "CentreLeft"
  | OtTopRight => lit "TopRight" | OtBottomCentre => lit "BottomCentre" | OtTopCentre => lit "TopCentre"
  | OtCustom => lit "Custom" | OtCentreRight => lit "CentreRight" | OtBottomLeft => lit "BottomLeft"
  | OtBottomRight => lit "BottomRight"
  end.
Definition origin_field (x : origin) : str :=
  match or_type x, or_short x with
  | OLeft t, true => print_Z (origin_no t)
  | OLeft t, false => origin_word t
  | ORight z, _ => print_Z z
  end.
Definition loop_word (x : loop_type) : str := match x with LoopForever => lit "LoopForever" | LoopOnce => lit "LoopOnce" end.
(** A path with a space gets quotes, unless it has them. *)
Definition path_field (p : file_path) : str :=
  if existsb (fun c => c =? 32) p then
    match p, rev p with
    | 34 :: _, 34 :: _ => p
    | _, _ => 34 :: p ++ [34]
    end
  else p.
Definition own_fields (v : version) (e : event) : option (list str) :=
  match e with
  | EComment c => Some [lit "//" ++ c]
  | EBackground x => Some ([lit "0"; print_Z (bg_start x); path_field (bg_file x)] ++ opt_position (bg_pos x))
  | EVideo x => Some ([if vi_short x then lit "1" else lit "Video"; print_Z (vi_start x); path_field (vi_file x)] ++ opt_position (vi_pos x))
  | EBreak x => Some [if br_short x then lit "2" else lit "Break"; print_Z (br_start x); print_Z (br_end x)]
  | EColourTransformation x =>
      if (14 <=? v)%Z then None
      else Some [lit "3"; print_Z (ctr_start x); print_Z (ctr_r x); print_Z (ctr_g x); print_Z (ctr_b x)]
  | ESpriteLegacy x =>
      Some ([lit "4"; print_Z (layer_no (lg_layer x)); print_Z (origin_no (lg_origin x)); path_field (lg_file x)] ++ opt_position (lg_pos x))
  | EAnimationLegacy x =>
      Some ([lit "5"; print_Z (layer_no (lg_layer x)); print_Z (origin_no (lg_origin x)); path_field (lg_file x)] ++ opt_position (lg_pos x))
  | ESampleLegacy x => Some ([lit "6"; print_decimal (sl_time x); print_Z (layer_no (sl_layer x)); path_field (sl_file x)] ++ opt_field (sl_volume x))
  | EObject x =>
      let common f := [layer_name (ob_layer x); origin_field (ob_origin x); path_field f; print_decimal (pos_x (ob_pos x)); print_decimal (pos_y (ob_pos x))] in
      Some match ob_type x with
           | ObSprite f => lit "Sprite" :: common f
           | ObAnimation n d l f => lit "Animation" :: common f ++ [print_Z n; print_rdec d; loop_word l]
           end
  | EAudioSample x => Some [lit "Sample"; print_Z (au_time x); print_Z (au_layer_no (au_layer_f x)); path_field (au_file x); print_Z (au_volume x)]
  end.
(** The values of the variables are replaced by their names, one variable after another. *)
Definition put_names (vars : list variable) (s : str) : str :=
  fold_left (fun s x => replace (var_value x) (36 :: var_name x) s) vars s.
(** ... everywhere but in the letter of the command *)
Definition command_text (vars : list variable) (c : command) : str :=
  match cmd_fields (match cmd_easing c with Some e => easing_no e | None => 0%Z end) c with
  | h :: fs => h ++ 44 :: put_names vars (commas fs)
  | [] => []
  end.
(** Backgrounds and videos are written without variables. *)
Definition vars_for (vars : list variable) (e : event) : list variable :=
  match e with EBackground _ | EVideo _ => [] | _ => vars end.
Definition event_out (v : version) (vars : list variable) (e : event) : list str :=
  match own_fields v e with
  | Some fs => commas fs :: map (fun x => repeat 32 (fst x) ++ command_text (vars_for vars e) (snd x)) (preorders 1 (commands_of e))
  | None => []
  end.

(** ** the whole file *)
Definition titled (name : string) (ls : option (list str)) : list (list str) :=
  match ls with Some ls => [(lit "[" ++ lit name ++ lit "]") :: match ls with [] => [[]] | _ => ls end] | None => [] end.
(** sections, each with an empty line before the next *)
Fixpoint spaced_out (l : list (list str)) : list str :=
  match l with
  | [] => []
  | [x] => x
  | x :: l' => x ++ [] :: spaced_out l'
  end.
Definition back_file (dbg : bool) (f : osu_file) : option osu_file :=
  let v := osu_version f in
  match some_of (all_some (back_event dbg v)) (osu_events f), some_of (all_some (back_timing v)) (osu_timing_points f),
        some_of (all_some (back_object v)) (osu_hitobjects f) with
  | Some ev, Some tp, Some ho =>
      Some (mk_osu v (osu_general f) (osu_editor f) (osu_osb f) (osu_metadata f) (osu_difficulty f) ev tp (osu_colours f) ho)
  | _, _, _ => None
  end.
Definition file_lines (f : osu_file) : list str :=
  let v := osu_version f in
  (lit "osu file format v" ++ print_Z v) :: []
  :: match spaced_out
       (titled "General" (option_map (general_lines v) (osu_general f))
        ++ titled "Editor" (option_map (editor_lines v) (osu_editor f))
        ++ titled "Metadata" (option_map metadata_lines (osu_metadata f))
        ++ titled "Difficulty" (option_map (difficulty_lines v) (osu_difficulty f))
        ++ titled "Events" (option_map (fun l => concat (map (event_out v []) l)) (osu_events f))
        ++ titled "TimingPoints" (option_map (map (tp_row v)) (osu_timing_points f))
        ++ titled "Colours" (opt_if (negb (moves v)) (option_map (map colour_text) (osu_colours f)))
        ++ titled "HitObjects" (option_map (map (ho_row v)) (osu_hitobjects f))) with
     | [] => [[]]
     | ls => ls
     end.
(** every object of the file *)
Definition objects_fit (f : osu_file) : Prop := match osu_hitobjects f with Some l => Forall three_bits l | None => True end.
(** a storyboard file, from version 14 on *)
Definition variable_line_out (x : variable) : str := 36 :: var_name x ++ 61 :: var_value x.
Definition osb_lines (v : version) (o : osb) : list str :=
  spaced_out (titled "Variables" (option_map (map variable_line_out) (osb_variables o))
              ++ titled "Events" (option_map (fun l => concat (map (event_out v (match osb_variables o with Some vs => vs | None => [] end)) l)) (osb_events o))).
