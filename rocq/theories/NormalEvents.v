(** src/osu_file/events/normal_event, src/osu_file/events/audio_sample and
    src/osu_file/events/storyboard/sprites.rs: the events that own a line. *)
From Coq Require Import String List NArith ZArith Bool.
From Verif Require Import Str Num Nom Dec Parsers Unicode Storyboard.
Import ListNotations.
Local Open Scope N_scope.

(** [position_str] (normal_event/mod.rs:30-35). *)
Definition position_str (p : option position_t) : str :=
  match p with
  | Some p => lit "," ++ print_decimal (pos_x p) ++ lit "," ++ print_decimal (pos_y p)
  | None => []
  end.

(** [time_to_string] (normal_event/mod.rs:37-45). *)
Definition time_to_string (dbg : bool) (v : version) (t : Z) : run str :=
  rmap print_Z (if old_version v then i32_sub dbg t 24 else ROk t).
(** The shift in [start_time_offset] and [end_time]
    (normal_event/parsers.rs:42-72). *)
Definition time_in (dbg : bool) (v : version) (t : Z) : run Z :=
  if old_version v then i32_add dbg t 24 else ROk t.

(** [FilePath::from] ([From<&str>], osu_file/types.rs) keeps the text as it is. *)
(** [file_name_and_position] (normal_event/parsers.rs:14-40). *)
Definition file_name_and_position {C} (mx ix my iy : C)
  : parser C (file_path * option position_t) :=
  pair comma_field
    (alt (pmap (fun _ => None) eof)
         (pmap (fun '(x, y) => Some (mk_pos x y))
            (pair (preceded (context mx comma)
                     (context ix (comma_field_type (@parse_decimal unit))))
                  (preceded (context my comma)
                     (context iy (consume_rest_type (@parse_decimal unit))))))).
(** [start_time_offset], [end_time] (normal_event/parsers.rs:42-72). *)
Definition start_time_offset {C} (dbg : bool) (v : version) (e : C) : parser C Z :=
  context e (map_run (comma_field_type parse_i32) (time_in dbg v)).
Definition end_time_rest {C} (dbg : bool) (v : version) (e : C) : parser C Z :=
  context e (map_run (consume_rest_type parse_i32) (time_in dbg v)).

(** normal_event/error.rs:10-28. *)
Inductive bg_err := BgWrongEventType | BgMissingStartTime | BgInvalidStartTime
  | BgMissingFileName | BgMissingX | BgInvalidX | BgMissingY | BgInvalidY.
(** [Background] (normal_event/mod.rs:47-118). *)
Record background := mk_bg { bg_start : Z; bg_file : file_path; bg_pos : option position_t;
                             bg_cmds : list command }.
Definition bg_parser : parser bg_err background :=
  preceded (pair (context BgWrongEventType (tag (lit "0"))) (context BgMissingStartTime comma))
    (pmap (fun '(t, (f, p)) => mk_bg t f p [])
      (pair (context BgInvalidStartTime (comma_field_type parse_i32))
            (preceded (context BgMissingFileName comma)
               (file_name_and_position BgMissingX BgInvalidX BgMissingY BgInvalidY)))).
Definition bg_from_str (s : str) : res (option background) bg_err :=
  rmap Some (verbose_error_to_error (bg_parser s)).
Definition bg_to_string_cmd (b : background) : str :=
  lit "0," ++ print_Z (bg_start b) ++ lit "," ++ print_file_path (bg_file b)
  ++ position_str (bg_pos b).

(** normal_event/error.rs:33-51. *)
Inductive vid_err := ViWrongEventType | ViMissingStartTime | ViInvalidStartTime
  | ViMissingFileName | ViMissingX | ViInvalidX | ViMissingY | ViInvalidY.
(** [Video] (normal_event/mod.rs:120-209). *)
Record video := mk_vid { vi_start : Z; vi_file : file_path; vi_pos : option position_t;
                         vi_cmds : list command; vi_short : bool }.
(** [Video::new] (normal_event/mod.rs:129-139). *)
Definition video_new (t : Z) (f : file_path) (p : option position_t) : video :=
  mk_vid t f p [] true.
Definition vid_parser (dbg : bool) (v : version) : parser vid_err video :=
  pbind (alt (pmap (fun _ => true) (tag (lit "1")))
             (context ViWrongEventType (pmap (fun _ => false) (tag (lit "Video"))))) (fun sh =>
  pbind (preceded (context ViMissingStartTime comma)
           (start_time_offset dbg v ViInvalidStartTime)) (fun t =>
  pmap (fun '(f, p) => mk_vid t f p [] sh)
    (preceded (context ViMissingFileName comma)
       (file_name_and_position ViMissingX ViInvalidX ViMissingY ViInvalidY)))).
Definition vid_from_str (dbg : bool) (v : version) (s : str) : res (option video) vid_err :=
  rmap Some (verbose_error_to_error (vid_parser dbg v s)).
Definition vid_to_string_cmd (dbg : bool) (v : version) (x : video) : run str :=
  rmap (fun t => (if vi_short x then lit "1" else lit "Video") ++ lit "," ++ t ++ lit ","
                 ++ print_file_path (vi_file x) ++ position_str (vi_pos x))
       (time_to_string dbg v (vi_start x)).

(** normal_event/error.rs:56-68. *)
Inductive brk_err := BrWrongEventType | BrMissingStartTime | BrInvalidStartTime
  | BrMissingEndTime | BrInvalidEndTime.
(** [Break] (normal_event/mod.rs:211-274). *)
Record break_t := mk_brk { br_start : Z; br_end : Z; br_short : bool }.
Definition break_new (s e : Z) : break_t := mk_brk s e true.
Definition brk_parser (dbg : bool) (v : version) : parser brk_err break_t :=
  pbind (alt (pmap (fun _ => true) (tag (lit "2")))
             (context BrWrongEventType (pmap (fun _ => false) (tag (lit "Break"))))) (fun sh =>
  pbind (preceded (context BrMissingStartTime comma)
           (start_time_offset dbg v BrInvalidStartTime)) (fun t =>
  pmap (fun e => mk_brk t e sh)
    (preceded (context BrMissingEndTime comma) (end_time_rest dbg v BrInvalidEndTime)))).
Definition brk_from_str (dbg : bool) (v : version) (s : str) : res (option break_t) brk_err :=
  rmap Some (verbose_error_to_error (brk_parser dbg v s)).
Definition brk_to_string (dbg : bool) (v : version) (x : break_t) : run str :=
  rbind (time_to_string dbg v (br_start x)) (fun t =>
  rmap (fun e => (if br_short x then lit "2" else lit "Break") ++ lit "," ++ t ++ lit "," ++ e)
       (time_to_string dbg v (br_end x))).

(** normal_event/error.rs:73-97. *)
Inductive ct_err := CtWrongEventType | CtMissingStartTime | CtInvalidStartTime
  | CtMissingRed | CtInvalidRed | CtMissingGreen | CtInvalidGreen | CtMissingBlue | CtInvalidBlue.
(** [ColourTransformation] (normal_event/mod.rs:276-353). *)
Record colour_tr := mk_ct { ctr_start : Z; ctr_r : Z; ctr_g : Z; ctr_b : Z }.
Definition ctr_parser (dbg : bool) (v : version) : parser ct_err colour_tr :=
  pbind (preceded (pair (context CtWrongEventType (tag (lit "3")))
                        (context CtMissingStartTime comma))
           (start_time_offset dbg v CtInvalidStartTime)) (fun t =>
  pbind (preceded (context CtMissingRed comma)
           (context CtInvalidRed (comma_field_type parse_u8))) (fun r =>
  pbind (preceded (context CtMissingGreen comma)
           (context CtInvalidGreen (comma_field_type parse_u8))) (fun g =>
  pmap (fun b => mk_ct t r g b)
    (preceded (context CtMissingBlue comma)
       (context CtInvalidBlue (consume_rest_type parse_u8)))))).
Definition ctr_from_str (dbg : bool) (v : version) (s : str) : res (option colour_tr) ct_err :=
  rmap Some (verbose_error_to_error (ctr_parser dbg v s)).
Definition ctr_to_string (dbg : bool) (v : version) (x : colour_tr) : run (option str) :=
  if (v <? 14)%Z then
    rmap (fun t => Some (lit "3," ++ t ++ lit "," ++ print_Z (ctr_r x) ++ lit ","
                         ++ print_Z (ctr_g x) ++ lit "," ++ print_Z (ctr_b x)))
         (time_to_string dbg v (ctr_start x))
  else ROk None.

(** [OriginTypeLegacy] (normal_event/types.rs:7-74); the same ten names as
    [OriginType] (sprites.rs:296-310), so one type serves both. *)
Inductive origin_type := OtTopLeft | OtCentre | OtCentreLeft | OtTopRight | OtBottomCentre
  | OtTopCentre | OtCustom | OtCentreRight | OtBottomLeft | OtBottomRight.
(** normal_event/types.rs:30-44 and sprites.rs:441-456. *)
Definition origin_type_to_Z (o : origin_type) : Z :=
  match o with
  | OtTopLeft => 0 | OtCentre => 1 | OtCentreLeft => 2 | OtTopRight => 3 | OtBottomCentre => 4
  | OtTopCentre => 5 | OtCustom => 6 | OtCentreRight => 7 | OtBottomLeft => 8
  | OtBottomRight => 9
  end%Z.
(** normal_event/types.rs:47-65 and sprites.rs:421-439. *)
Definition origin_type_of_Z (z : Z) : option origin_type :=
  match z with
  | 0 => Some OtTopLeft | 1 => Some OtCentre | 2 => Some OtCentreLeft | 3 => Some OtTopRight
  | 4 => Some OtBottomCentre | 5 => Some OtTopCentre | 6 => Some OtCustom
  | 7 => Some OtCentreRight | 8 => Some OtBottomLeft | 9 => Some OtBottomRight
  | _ => None
  end%Z.
Definition origin_legacy_from_str (s : str) : res (option origin_type) unit :=
  match parse_usize s with
  | ROk z => match origin_type_of_Z z with Some o => ROk (Some o) | None => RErr tt end
  | RErr _ => RErr tt
  | RPanic p => RPanic p
  end.

(** [LayerLegacy] (normal_event/types.rs:76-132). *)
Inductive layer_legacy := LlBackground | LlFail | LlPass | LlForeground | LlOverlay | LlVideo.
Definition layer_legacy_to_Z (o : layer_legacy) : Z :=
  match o with LlBackground => 0 | LlFail => 1 | LlPass => 2 | LlForeground => 3
             | LlOverlay => 4 | LlVideo => 5 end%Z.
Definition layer_legacy_of_Z (z : Z) : option layer_legacy :=
  match z with
  | 0 => Some LlBackground | 1 => Some LlFail | 2 => Some LlPass | 3 => Some LlForeground
  | 4 => Some LlOverlay | 5 => Some LlVideo | _ => None
  end%Z.
Definition layer_legacy_from_str (s : str) : res (option layer_legacy) unit :=
  match parse_usize s with
  | ROk z => match layer_legacy_of_Z z with Some o => ROk (Some o) | None => RErr tt end
  | RErr _ => RErr tt
  | RPanic p => RPanic p
  end.

(** normal_event/error.rs:102-124 and 129-151: the two enums have the same
    variants. *)
Inductive leg_err := LgWrongEventType | LgMissingLayer | LgInvalidLayer | LgMissingOrigin
  | LgInvalidOrigin | LgMissingFileName | LgMissingX | LgInvalidX | LgMissingY | LgInvalidY.
(** [SpriteLegacy] and [AnimationLegacy] (normal_event/mod.rs:355-437, 439-517):
    identical but for the header. *)
Record legacy := mk_leg { lg_layer : layer_legacy; lg_origin : origin_type;
                          lg_file : file_path; lg_pos : option position_t;
                          lg_cmds : list command }.
Definition leg_parser (header : str) : parser leg_err legacy :=
  preceded (pair (context LgWrongEventType (tag header)) (context LgMissingLayer comma))
    (pbind (context LgInvalidLayer (comma_field_versioned_type layer_legacy_from_str)) (fun l =>
     pbind (preceded (context LgMissingOrigin comma)
              (context LgInvalidOrigin (comma_field_versioned_type origin_legacy_from_str))) (fun o =>
     pmap (fun '(f, p) => mk_leg l o f p [])
       (preceded (context LgMissingFileName comma)
          (file_name_and_position LgMissingX LgInvalidX LgMissingY LgInvalidY))))).
Definition leg_from_str (header : str) (s : str) : res (option legacy) leg_err :=
  rmap Some (verbose_error_to_error (leg_parser header s)).
Definition leg_to_string (header : str) (x : legacy) : str :=
  header ++ lit "," ++ print_Z (layer_legacy_to_Z (lg_layer x)) ++ lit ","
  ++ print_Z (origin_type_to_Z (lg_origin x)) ++ lit "," ++ print_file_path (lg_file x)
  ++ position_str (lg_pos x).

(** [Volume] (audio_sample/mod.rs:107-164): a [u8] of at most 100. *)
Definition au_volume_default : Z := 100%Z.
(** [TryFrom<u8>] (audio_sample/mod.rs:136-146): [None] is [VolumeTooHigh]. *)
Definition au_volume_of_Z (z : Z) : option Z := if (100 <? z)%Z then None else Some z.
Definition au_volume_from_str (s : str) : res (option Z) unit :=
  match parse_u8 s with
  | ROk z => match au_volume_of_Z z with Some x => ROk (Some x) | None => RErr tt end
  | RErr _ => RErr tt
  | RPanic p => RPanic p
  end.

(** normal_event/error.rs:156-174. *)
Inductive sl_err := SlMissingTime | SlInvalidTime | SlWrongEventType | SlMissingFileName
  | SlMissingVolume | SlInvalidVolume | SlMissingLayer | SlInvalidLayer.
(** [SampleLegacy] (normal_event/mod.rs:519-607). *)
Record sample_legacy := mk_sl { sl_time : decimal; sl_layer : layer_legacy;
                                sl_file : file_path; sl_volume : option Z;
                                sl_cmds : list command }.
Definition sl_parser : parser sl_err sample_legacy :=
  preceded (pair (context SlWrongEventType (tag (lit "6"))) (context SlMissingTime comma))
    (pbind (context SlInvalidTime (comma_field_type (@parse_decimal unit))) (fun t =>
     pbind (preceded (context SlMissingLayer comma)
              (context SlInvalidLayer (comma_field_versioned_type layer_legacy_from_str))) (fun l =>
     pbind (preceded (context SlMissingFileName comma) comma_field) (fun f =>
     pmap (fun vol => mk_sl t l f vol [])
       (alt (pmap (fun _ => None) eof)
            (pmap Some (preceded (context SlMissingVolume comma)
               (context SlInvalidVolume (consume_rest_versioned_type au_volume_from_str))))))))).
Definition sl_from_str (s : str) : res (option sample_legacy) sl_err :=
  rmap Some (verbose_error_to_error (sl_parser s)).
Definition sl_to_string (x : sample_legacy) : str :=
  lit "6," ++ print_decimal (sl_time x) ++ lit "," ++ print_Z (layer_legacy_to_Z (sl_layer x))
  ++ lit "," ++ print_file_path (sl_file x)
  ++ match sl_volume x with Some z => lit "," ++ print_Z z | None => [] end.

(** audio_sample/error.rs:10-28. *)
Inductive au_err := AuMissingTime | AuInvalidTime | AuMissingLayer | AuInvalidLayer
  | AuMissingVolume | AuInvalidVolume | AuWrongEvent | AuMissingFilepath.
(** [Layer] (audio_sample/mod.rs:166-185). *)
Inductive au_layer := AlBackground | AlFail | AlPass | AlForeground.
Definition au_layer_to_Z (o : au_layer) : Z :=
  match o with AlBackground => 0 | AlFail => 1 | AlPass => 2 | AlForeground => 3 end%Z.
Definition au_layer_of_Z (z : Z) : option au_layer :=
  match z with
  | 0 => Some AlBackground | 1 => Some AlFail | 2 => Some AlPass | 3 => Some AlForeground
  | _ => None
  end%Z.
(** [AudioSample] (audio_sample/mod.rs:21-105).  The text after the volume field,
    if any, is ignored, as in the code. *)
Record audio_sample := mk_au { au_time : Z; au_layer_f : au_layer; au_file : file_path;
                               au_volume : Z }.
Definition au_parser : parser au_err audio_sample :=
  pbind (preceded (pair (context AuWrongEvent (tag (lit "Sample"))) (context AuMissingTime comma))
           (context AuInvalidTime (comma_field_type parse_i32))) (fun t =>
  pbind (preceded (context AuMissingLayer comma)
           (context AuInvalidLayer
              (map_res (context AuInvalidLayer (comma_field_type parse_usize))
                 (fun z => match au_layer_of_Z z with Some l => ROk l | None => RErr tt end)))) (fun l =>
  pbind (preceded (context AuMissingFilepath comma) comma_field) (fun f =>
  pmap (fun vol => mk_au t l f vol)
    (alt (pmap (fun _ => au_volume_default) eof)
         (preceded (context AuMissingVolume comma)
            (context AuInvalidVolume (comma_field_versioned_type au_volume_from_str))))))).
Definition au_from_str (s : str) : res (option audio_sample) au_err :=
  match s with
  | [] => RErr AuWrongEvent
  | _ => rmap Some (verbose_error_to_error (au_parser s))
  end.
Definition au_to_string (x : audio_sample) : str :=
  lit "Sample," ++ print_Z (au_time x) ++ lit "," ++ print_Z (au_layer_to_Z (au_layer_f x))
  ++ lit "," ++ print_file_path (au_file x) ++ lit "," ++ print_Z (au_volume x).

(** [Layer] (sprites.rs:24-61). *)
Inductive sb_layer := LyBackground | LyFail | LyPass | LyForeground | LyOverlay.
Definition sb_layer_from_str (s : str) : res (option sb_layer) unit :=
  if str_eqb s (lit "Background") then ROk (Some LyBackground)
  else if str_eqb s (lit "Fail") then ROk (Some LyFail)
  else if str_eqb s (lit "Pass") then ROk (Some LyPass)
  else if str_eqb s (lit "Foreground") then ROk (Some LyForeground)
  else if str_eqb s (lit "Overlay") then ROk (Some LyOverlay)
  else RErr tt.
Definition sb_layer_to_string (l : sb_layer) : str :=
  match l with LyBackground => lit "Background" | LyFail => lit "Fail" | LyPass => lit "Pass"
             | LyForeground => lit "Foreground" | LyOverlay => lit "Overlay" end.

(** [Origin] (sprites.rs:284-419). *)
Inductive origin_either := OLeft (o : origin_type) | ORight (z : Z).
Record origin := mk_origin { or_type : origin_either; or_short : bool }.
(** [From<OriginType>] (sprites.rs:312-319). *)
Definition origin_from (o : origin_type) : origin := mk_origin (OLeft o) true.
Definition origin_name (o : origin_type) : str :=
  match o with
  | OtTopLeft => lit "TopLeft" | OtCentre => lit "Centre" | OtCentreLeft => lit "CentreLeft"
  | OtTopRight => lit "TopRight" | OtBottomCentre => lit "BottomCentre"
  | OtTopCentre => lit "TopCentre" | OtCustom => lit "Custom"
  | OtCentreRight => lit "CentreRight" | OtBottomLeft => lit "BottomLeft"
  | OtBottomRight => lit "BottomRight"
  end.
Definition origin_to_string (o : origin) : str :=
  match or_type o with
  | OLeft t => if or_short o then print_Z (origin_type_to_Z t) else origin_name t
  | ORight z => print_Z z
  end.
Definition origin_of_name (s : str) : option origin_type :=
  if str_eqb s (lit "TopLeft") then Some OtTopLeft
  else if str_eqb s (lit "Centre") then Some OtCentre
  else if str_eqb s (lit "CentreLeft") then Some OtCentreLeft
  else if str_eqb s (lit "TopRight") then Some OtTopRight
  else if str_eqb s (lit "BottomCentre") then Some OtBottomCentre
  else if str_eqb s (lit "TopCentre") then Some OtTopCentre
  else if str_eqb s (lit "Custom") then Some OtCustom
  else if str_eqb s (lit "CentreRight") then Some OtCentreRight
  else if str_eqb s (lit "BottomLeft") then Some OtBottomLeft
  else if str_eqb s (lit "BottomRight") then Some OtBottomRight
  else None.
Definition origin_from_str (s : str) : res (option origin) int_err :=
  match origin_of_name s with
  | Some t => ROk (Some (mk_origin (OLeft t) false))
  | None =>
      rmap (fun z => Some (mk_origin (match origin_type_of_Z z with
                                      | Some t => OLeft t
                                      | None => ORight z
                                      end) true))
           (parse_i32 s)
  end.

(** [LoopType] (sprites.rs:458-492). *)
Inductive loop_type := LoopForever | LoopOnce.
Definition loop_type_to_string (l : loop_type) : str :=
  match l with LoopForever => lit "LoopForever" | LoopOnce => lit "LoopOnce" end.
Definition loop_type_from_str (s : str) : res (option loop_type) unit :=
  if str_eqb s (lit "LoopForever") then ROk (Some LoopForever)
  else if str_eqb s (lit "LoopOnce") then ROk (Some LoopOnce)
  else RErr tt.

(** [ObjectType], [Sprite], [Animation] (sprites.rs:236-289). *)
Inductive object_type :=
| ObSprite (f : file_path)
| ObAnimation (frame_count : Z) (frame_delay : rdec) (l : loop_type) (f : file_path).
(** [Object] (sprites.rs:62-69). *)
Record object := mk_obj { ob_layer : sb_layer; ob_origin : origin; ob_pos : position_t;
                          ob_type : object_type; ob_cmds : list command }.
(** [Object::to_string_cmd] (sprites.rs:87-113). *)
Definition ob_to_string_cmd (o : object) : str :=
  let pos := print_decimal (pos_x (ob_pos o)) ++ lit "," ++ print_decimal (pos_y (ob_pos o)) in
  let common f := sb_layer_to_string (ob_layer o) ++ lit "," ++ origin_to_string (ob_origin o)
                  ++ lit "," ++ print_file_path f ++ lit "," ++ pos in
  match ob_type o with
  | ObSprite f => lit "Sprite," ++ common f
  | ObAnimation n d l f =>
      lit "Animation," ++ common f ++ lit "," ++ print_Z n ++ lit "," ++ print_rdec d
      ++ lit "," ++ loop_type_to_string l
  end.
(** storyboard/error.rs:17-51. *)
Inductive ob_err := ObUnknownObjectType | ObMissingLayer | ObInvalidLayer | ObMissingOrigin
  | ObInvalidOrigin | ObMissingFilePath | ObMissingPositionX | ObInvalidPositionX
  | ObMissingPositionY | ObInvalidPositionY | ObMissingFrameCount | ObInvalidFrameCount
  | ObMissingFrameDelay | ObInvalidFrameDelay | ObMissingLoopType | ObInvalidLoopType.
Definition parse_rdec_res (s : str) : res rdec unit :=
  match parse_rdec s with Some d => ROk d | None => RErr tt end.
(** sprites.rs:121-165. *)
Definition ob_common : parser ob_err (sb_layer * (origin * (file_path * position_t))) :=
  pair (preceded (context ObMissingLayer comma)
          (context ObInvalidLayer (comma_field_versioned_type sb_layer_from_str)))
 (pair (preceded (context ObMissingOrigin comma)
          (context ObInvalidOrigin (comma_field_versioned_type origin_from_str)))
 (pair (preceded (context ObMissingFilePath comma) comma_field)
       (pmap (fun '(x, y) => mk_pos x y)
         (pair (preceded (context ObMissingPositionX comma)
                  (context ObInvalidPositionX (comma_field_type (@parse_decimal unit))))
               (preceded (context ObMissingPositionY comma)
                  (context ObInvalidPositionY (comma_field_type (@parse_decimal unit)))))))).
(** sprites.rs:166-189.  When the loop type is wrong, [alt] goes on to [nothing()],
    which fails without any context. *)
Definition ob_loop : parser ob_err loop_type :=
  alt (preceded (context ObMissingLoopType comma)
         (context ObInvalidLoopType (consume_rest_versioned_type loop_type_from_str)))
      (pmap (fun _ => LoopForever) nothing).
(** [Object::from_str] (sprites.rs:117-234). *)
Definition ob_parser : parser ob_err object :=
  alt (preceded (tag (lit "Sprite"))
         (pmap (fun '(l, (o, (f, p))) => mk_obj l o p (ObSprite f) []) (cut ob_common)))
 (alt (pmap (fun '((l, (o, (f, p))), (n, (d, lt))) => mk_obj l o p (ObAnimation n d lt f) [])
         (preceded (tag (lit "Animation"))
            (cut (pair ob_common
                 (pair (preceded (context ObMissingFrameCount comma)
                          (context ObInvalidFrameCount (comma_field_type parse_u32)))
                 (pair (preceded (context ObMissingFrameDelay comma)
                          (context ObInvalidFrameDelay (comma_field_type parse_rdec_res)))
                       ob_loop))))))
      (context ObUnknownObjectType pfail)).
Definition ob_from_str (s : str) : res (option object) ob_err :=
  rmap Some (verbose_error_to_error (ob_parser s)).
