(** src/osu_file/hitobjects: the [HitObjects] section. *)
From Coq Require Import String List NArith ZArith Bool.
From Verif Require Import Str Num Nom Dec Parsers Colours TimingPoints.
Import ListNotations.
Local Open Scope N_scope.

(** hitobjects/error.rs:35-119 (the variants some code path produces are the only
    ones an input can reach; all are listed). *)
Inductive ho_err :=
| HoInvalidHitSound | HoMissingHitSound | HoMissingHitSample | HoInvalidHitSample
| HoInvalidX | HoMissingX | HoInvalidY | HoMissingY | HoMissingObjType | HoInvalidObjType
| HoMissingTime | HoInvalidTime | HoInvalidCurveType | HoMissingCurveType
| HoInvalidCurvePoint | HoMissingCurvePoint | HoInvalidEdgeSound | HoMissingEdgeSound
| HoInvalidEdgeSet | HoMissingEdgeSet | HoInvalidSlidesCount | HoMissingSlidesCount
| HoInvalidLength | HoMissingLength | HoInvalidEndTime | HoMissingEndTime
| HoUnknownObjType.
(** hitobjects/error.rs:19-30. *)
Inductive colon_err := CsInvalidFirstItem | CsMissingSeparator | CsInvalidSecondItem.
(** hitobjects/error.rs:124-135. *)
Inductive hs_err := HsInvalidSampleSet | HsInvalidIndex | HsInvalidVolume | HsMissingSeparator.
(** hitobjects/error.rs:149-169. *)
Inductive vol_set_err := VolumeTooHigh | VolumeTooLow.
Inductive vol_err := VolSet (e : vol_set_err) | VolInt (e : int_err).

(** [ComboSkipCount::try_from] (hitobjects/types.rs:41-52): three bits. *)
Definition combo_skip_count := Z.
Definition combo_skip_count_try_from (z : Z) : res (option combo_skip_count) unit :=
  if (7 <? z)%Z then RErr tt else ROk (Some z).

(** [SampleSet] (hitobjects/types.rs:140-198). *)
Inductive sample_set := SsNone | SsNormal | SsSoft | SsDrum | SsOther (z : Z).
Definition sample_set_of_Z (z : Z) : sample_set :=
  if (z =? 0)%Z then SsNone
  else if (z =? 1)%Z then SsNormal
  else if (z =? 2)%Z then SsSoft
  else if (z =? 3)%Z then SsDrum
  else SsOther z.
Definition sample_set_to_Z (x : sample_set) : Z :=
  match x with SsNone => 0 | SsNormal => 1 | SsSoft => 2 | SsDrum => 3 | SsOther z => z end%Z.
Definition sample_set_from_str (s : str) : res (option sample_set) int_err :=
  rmap (fun z => Some (sample_set_of_Z z)) (parse_usize s).
Definition sample_set_to_string (x : sample_set) : str := print_Z (sample_set_to_Z x).

(** [EdgeSet] (hitobjects/types.rs:60-104).  Both items report
    [InvalidFirstItem]. *)
Record edge_set := mk_edge_set { es_normal : sample_set; es_addition : sample_set }.
Definition edge_set_parser : parser colon_err edge_set :=
  pbind (terminated
           (context CsInvalidFirstItem
              (map_res (take_while (fun c => negb (c =? 58)))
                       (fun s => v_unwrap (sample_set_from_str s))))
           (context CsMissingSeparator (tag (lit ":")))) (fun n =>
  pmap (fun a => mk_edge_set n a)
    (context CsInvalidFirstItem (consume_rest_versioned_type sample_set_from_str))).
Definition edge_set_from_str (s : str) : res (option edge_set) colon_err :=
  rmap Some (verbose_error_to_error (edge_set_parser s)).
Definition edge_set_to_string (x : edge_set) : str :=
  sample_set_to_string (es_normal x) ++ lit ":" ++ sample_set_to_string (es_addition x).

(** [CurvePoint] (hitobjects/types.rs:106-138). *)
Definition curve_point := position_t.
Definition curve_point_parser : parser colon_err curve_point :=
  pbind (terminated
           (context CsInvalidFirstItem
              (map_res (take_while (fun c => negb (c =? 58))) (@parse_decimal unit)))
           (context CsMissingSeparator (tag (lit ":")))) (fun x =>
  pmap (fun y => mk_pos x y)
    (context CsInvalidFirstItem (consume_rest_type (@parse_decimal unit)))).
Definition curve_point_from_str (s : str) : res (option curve_point) colon_err :=
  rmap Some (verbose_error_to_error (curve_point_parser s)).
Definition curve_point_to_string (p : curve_point) : str :=
  print_decimal (pos_x p) ++ lit ":" ++ print_decimal (pos_y p).

(** [Volume] (hitobjects/types.rs:200-278): [None] is the timing point's volume. *)
Definition ho_volume := option Z.
Definition ho_volume_new (x : option Z) : res ho_volume vol_set_err :=
  match x with
  | Some z => if (z =? 0)%Z then RErr VolumeTooLow
              else if (100 <? z)%Z then RErr VolumeTooHigh
              else ROk (Some z)
  | None => ROk None
  end.
Definition ho_volume_from_str (s : str) : res (option ho_volume) vol_err :=
  match parse_u8 s with
  | ROk z => rmap_err VolSet (rmap Some (ho_volume_new (if (z =? 0)%Z then None else Some z)))
  | RErr e => RErr (VolInt e)
  | RPanic p => RPanic p
  end.
Definition ho_volume_to_Z (x : ho_volume) : Z := match x with Some z => z | None => 0%Z end.

(** [HitSound] (hitobjects/types.rs:280-385). *)
Record hit_sound := mk_hit_sound { snd_normal : bool; snd_whistle : bool; snd_finish : bool;
                                   snd_clap : bool }.
Definition hit_sound_to_string (h : hit_sound) : str :=
  let m := 0%Z in
  let m := if snd_normal h then Z.lor m 1 else m in
  let m := if snd_whistle h then Z.lor m 2 else m in
  let m := if snd_finish h then Z.lor m 4 else m in
  let m := if snd_clap h then Z.lor m 8 else m in
  print_Z m.
Definition hit_sound_of_u8 (z : Z) : hit_sound :=
  mk_hit_sound (nth_bit z 0) (nth_bit z 1) (nth_bit z 2) (nth_bit z 3).
Definition hit_sound_from_str (s : str) : res (option hit_sound) int_err :=
  rmap (fun z => Some (hit_sound_of_u8 z)) (parse_u8 s).
(** [CurveType] (hitobjects/types.rs:387-426). *)
Inductive curve_type := Bezier | Centripetal | Linear | PerfectCircle.
Definition curve_type_from_str (s : str) : res (option curve_type) unit :=
  if str_eqb s (lit "B") then ROk (Some Bezier)
  else if str_eqb s (lit "C") then ROk (Some Centripetal)
  else if str_eqb s (lit "L") then ROk (Some Linear)
  else if str_eqb s (lit "P") then ROk (Some PerfectCircle)
  else RErr tt.
Definition curve_type_to_string (c : curve_type) : str :=
  match c with Bezier => lit "B" | Centripetal => lit "C" | Linear => lit "L"
             | PerfectCircle => lit "P" end.

(** [SampleIndex] (hitobjects/types.rs:428-479).  [Index] holds a non-zero
    [usize]. *)
Inductive ho_index := HiTimingPoint | HiIndex (z : Z).
Definition ho_index_of_Z (z : Z) : ho_index := if (z =? 0)%Z then HiTimingPoint else HiIndex z.
Definition ho_index_to_Z (x : ho_index) : Z :=
  match x with HiTimingPoint => 0%Z | HiIndex z => z end.
Definition ho_index_to_string (x : ho_index) : str := print_Z (ho_index_to_Z x).
Definition ho_index_from_str (s : str) : res (option ho_index) int_err :=
  rmap (fun z => Some (ho_index_of_Z z)) (parse_usize s).

(** [HitSample] (hitobjects/types.rs:481-490). *)
Record hit_sample := mk_hit_sample {
  hs_normal : sample_set;
  hs_addition : sample_set;
  hs_index : ho_index;
  hs_volume : ho_volume;
  hs_filename : str }.

(** hitobjects/types.rs:619-629. *)
Definition hit_sample_default : hit_sample := mk_hit_sample SsNone SsNone HiTimingPoint None [].

(** [HitSample::from_str] (hitobjects/types.rs:492-594). *)
Definition hs_field : parser hs_err str := take_while (fun c => negb (c =? 58)).
Definition hs_sep : parser hs_err str := tag (lit ":").
(** [alt((preceded(sep, nothing), nothing, preceded(context(sep), p)))]: an optional
    trailing field (e.g. lines 514-524). *)
Definition hs_optional {A} (p : parser hs_err A) : parser hs_err (option A) :=
  alt (pmap (fun _ => None) (preceded hs_sep nothing))
 (alt (pmap (fun _ => None) nothing)
      (preceded (context HsMissingSeparator hs_sep) (pmap Some p))).
Definition hs_sample_set : parser hs_err sample_set :=
  context HsInvalidSampleSet (map_res hs_field (fun s => v_unwrap (sample_set_from_str s))).
Definition or_default {A} (d : A) (o : option A) : A := match o with Some a => a | None => d end.
Definition hit_sample_parser : parser hs_err hit_sample :=
  alt (pmap (fun _ => hit_sample_default) nothing)
      (pbind (alt (pmap (fun _ => None) nothing) (pmap Some hs_sample_set)) (fun n =>
       pbind (hs_optional hs_sample_set) (fun a =>
       pbind (hs_optional (context HsInvalidIndex
                (map_res hs_field (fun s => v_unwrap (ho_index_from_str s))))) (fun i =>
       pbind (hs_optional (context HsInvalidVolume
                (map_res hs_field (fun s => v_unwrap (ho_volume_from_str s))))) (fun vol =>
       pmap (fun f => mk_hit_sample (or_default SsNone n) (or_default SsNone a)
                        (or_default HiTimingPoint i) (or_default None vol) (or_default [] f))
         (hs_optional hs_field)))))).
Definition hit_sample_from_str (s : str) : res (option hit_sample) hs_err :=
  rmap Some (verbose_error_to_error (hit_sample_parser s)).

(** [HitSample::to_string] (hitobjects/types.rs:596-617).  [MIN_VERSION..=9] is
    3..9, so versions below 3 (unreachable from a parsed file) print the long
    form. *)
Definition hit_sample_to_string (h : hit_sample) (v : version) : option str :=
  let three := sample_set_to_string (hs_normal h) ++ lit ":"
               ++ sample_set_to_string (hs_addition h) ++ lit ":"
               ++ ho_index_to_string (hs_index h) in
  if (3 <=? v)%Z && (v <=? 9)%Z then None
  else if (10 <=? v)%Z && (v <=? 11)%Z then Some three
  else Some (three ++ lit ":" ++ print_Z (ho_volume_to_Z (hs_volume h)) ++ lit ":"
                   ++ hs_filename h).

(** [SlideParams], [HitObjectParams], [HitObject] (hitobjects/mod.rs:78-97,
    574-593). *)
Record slide_params := mk_slide {
  sl_curve_type : curve_type;
  sl_curve_points : list curve_point;
  sl_slides : Z;
  sl_length : decimal;
  sl_edge_sounds : list hit_sound;
  sl_edge_sounds_short_hand : bool;
  sl_edge_sets : list edge_set;
  sl_edge_sets_shorthand : bool }.
Inductive ho_params :=
| HitCircle
| Slider (p : slide_params)
| Spinner (end_time : decimal)
| OsuManiaHold (end_time : decimal).
Record hit_object := mk_ho {
  ho_position : position_t;
  ho_time : decimal;
  ho_obj_params : ho_params;
  ho_new_combo : bool;
  ho_combo_skip_count : combo_skip_count;
  ho_hitsound : hit_sound;
  ho_hitsample : option hit_sample }.

(** [type_to_string] (hitobjects/mod.rs:100-118). *)
Definition ho_type_flags (o : hit_object) : Z :=
  let m := match ho_obj_params o with
           | HitCircle => 1 | Slider _ => 2 | Spinner _ => 8 | OsuManiaHold _ => 128
           end%Z in
  let m := if ho_new_combo o then Z.lor m 4 else m in
  Z.lor m (Z.land (Z.shiftl (ho_combo_skip_count o) 4) 255).
Definition ho_type_to_string (o : hit_object) : str := print_Z (ho_type_flags o).

Section HoParser.
  Variable v : version.

  (** hitobjects/mod.rs:174-186. *)
  Definition ho_hitsample_p : parser ho_err (option hit_sample) :=
    alt (pmap (fun _ => None) nothing)
        (pmap Some (preceded (context HoMissingHitSample comma)
           (context HoInvalidHitSample
              (map_res prest (fun s => v_unwrap (hit_sample_from_str s)))))).
  (** hitobjects/mod.rs:404-416. *)
  Definition ho_hold_hitsample : parser ho_err (option hit_sample) :=
    alt (pmap (fun _ => None) nothing)
        (pmap Some (preceded (context HoMissingHitSample (pchar 58))
           (context HoInvalidHitSample
              (map_res prest (fun s => v_unwrap (hit_sample_from_str s)))))).

  (** hitobjects/mod.rs:188-222. *)
  Definition ho_common : parser ho_err (position_t * decimal * Z * hit_sound) :=
    pbind (context HoInvalidX (comma_field_type (@parse_decimal unit))) (fun x =>
    pbind (preceded (context HoMissingY comma)
             (context HoInvalidY (comma_field_type (@parse_decimal unit)))) (fun y =>
    pbind (map_run (preceded (context HoMissingTime comma)
                      (context HoInvalidTime (comma_field_type (@parse_decimal unit))))
                   (shift_in v)) (fun t =>
    pbind (preceded (context HoMissingObjType comma)
             (context HoInvalidObjType (comma_field_type parse_i32))) (fun ty =>
    pmap (fun h => (mk_pos x y, t, ty, h))
      (preceded (context HoMissingHitSound comma)
         (context HoInvalidHitSound (comma_field_versioned_type hit_sound_from_str))))))).

  (** hitobjects/mod.rs:264-298. *)
  Definition ho_curve : parser ho_err (curve_type * list curve_point) :=
    alt
      (pmap (fun c => (c, []))
         (preceded (context HoMissingCurveType comma)
            (context HoInvalidCurveType (comma_field_versioned_type curve_type_from_str))))
      (pbind (preceded (context HoMissingCurveType comma)
                (context HoInvalidCurveType
                   (map_res (take_till (fun c => c =? 124))
                            (fun s => v_unwrap (curve_type_from_str s))))) (fun c =>
       pmap (fun l => (c, if (v =? 3)%Z then tl l else l))
         (preceded (context HoMissingCurvePoint (pchar 124))
            (context HoInvalidCurvePoint (pipe_vec_versioned_map curve_point_from_str))))).

  (** hitobjects/mod.rs:313-349: edge sounds, edge sets, hit sample and the two
      shorthand flags. *)
  Definition ho_edges
    : parser ho_err (list hit_sound * list edge_set * option hit_sample * bool * bool) :=
    alt
      (pmap (fun _ => ([], [], None, true, true)) nothing)
      (pbind (preceded (context HoMissingEdgeSound comma)
                (context HoInvalidEdgeSound (pipe_vec_versioned_map hit_sound_from_str)))
         (fun es =>
       pmap (fun '(sets, hs, sh) => (es, sets, hs, false, sh))
         (alt
            (pmap (fun _ => ([], None, true)) nothing)
            (pbind (preceded (context HoMissingEdgeSet comma)
                      (context HoInvalidEdgeSet (pipe_vec_versioned_map edge_set_from_str)))
               (fun sets =>
             pmap (fun hs => (sets, hs, false)) ho_hitsample_p))))).

  (** hitobjects/mod.rs:263-350. *)
  Definition ho_slider : parser ho_err (slide_params * option hit_sample) :=
    pbind ho_curve (fun '(ct, cps) =>
    pbind (preceded (context HoMissingSlidesCount comma)
             (context HoInvalidSlidesCount (comma_field_type parse_i32))) (fun slides =>
    pbind (preceded (context HoMissingLength comma)
             (context HoInvalidLength (comma_field_type (@parse_decimal unit)))) (fun len =>
    pmap (fun '(es, sets, hs, sh1, sh2) => (mk_slide ct cps slides len es sh1 sets sh2, hs))
      ho_edges))).

  (** hitobjects/mod.rs:372-390. *)
  Definition ho_spinner : parser ho_err (decimal * option hit_sample) :=
    pbind (map_run (preceded (context HoMissingEndTime comma)
                      (context HoInvalidEndTime (comma_field_type (@parse_decimal unit))))
                   (shift_in v)) (fun t =>
    pmap (fun hs => (t, hs)) ho_hitsample_p).

  (** hitobjects/mod.rs:417-436. *)
  Definition ho_hold : parser ho_err (decimal * option hit_sample) :=
    pbind (preceded (context HoMissingEndTime comma)
             (map_run (context HoInvalidEndTime
                         (map_res (take_until (lit ":")) (@parse_decimal unit)))
                      (shift_in v))) (fun t =>
    pmap (fun hs => (t, hs)) ho_hold_hitsample).

  (** [HitObject::from_str] (hitobjects/mod.rs:166-453). *)
  Definition ho_from_str (s : str) : res (option hit_object) ho_err :=
    match ho_common s with
    | POk rest (pos, time, ty, snd_) =>
        let new_combo := nth_bit ty 2 in
        match combo_skip_count_try_from (Z.land (Z.shiftr ty 4) 7) with
        | ROk (Some skip) =>
            let mk p hs := Some (mk_ho pos time p new_combo skip snd_ hs) in
            if nth_bit ty 0 then
              rmap (mk HitCircle) (verbose_error_to_error (ho_hitsample_p rest))
            else if nth_bit ty 1 then
              rmap (fun '(p, hs) => mk (Slider p) hs) (verbose_error_to_error (ho_slider rest))
            else if nth_bit ty 3 then
              rmap (fun '(t, hs) => mk (Spinner t) hs) (verbose_error_to_error (ho_spinner rest))
            else if nth_bit ty 7 then
              rmap (fun '(t, hs) => mk (OsuManiaHold t) hs)
                   (verbose_error_to_error (ho_hold rest))
            else RErr HoUnknownObjType
        | _ => RPanic PUnwrap
        end
    | PErr e => verbose_error_to_error (PErr e)
    | PFail e => verbose_error_to_error (PFail e)
    | PPanic p => RPanic p
    end.

  (** [HitObject::to_string] (hitobjects/mod.rs:455-572). *)
  Definition ho_to_string (o : hit_object) : run str :=
    rbind (shift_out v (ho_time o)) (fun time =>
    let properties :=
      [print_decimal (pos_x (ho_position o)); print_decimal (pos_y (ho_position o));
       print_decimal time; ho_type_to_string o; hit_sound_to_string (ho_hitsound o)] in
    let sample := match ho_hitsample o with
                  | Some h => match hit_sample_to_string h v with Some t => [t] | None => [] end
                  | None => []
                  end in
    let has_sample := match ho_hitsample o with Some _ => true | None => false end in
    match ho_obj_params o with
    | HitCircle =>
        let s := join (lit ",") (properties ++ sample) in
        ROk (if (v =? 3)%Z then s ++ lit "," else s)
    | Spinner t =>
        rmap (fun t' => join (lit ",") (properties ++ [print_decimal t'] ++ sample))
             (shift_out v t)
    | OsuManiaHold t =>
        rmap (fun t' => join (lit ",") (properties ++ [print_decimal t'])
                        ++ lit ":" ++ match sample with [t] => t | _ => [] end)
             (shift_out v t)
    | Slider p =>
        let properties := properties ++ [curve_type_to_string (sl_curve_type p)] in
        let has_curve_points := (v =? 3)%Z || negb (is_empty (sl_curve_points p)) in
        let has_sets := negb (is_empty (sl_edge_sets p)) || negb (sl_edge_sets_shorthand p)
                        || has_sample in
        let properties_2 :=
          (if (v =? 3)%Z
           then [pipe_vec_to_string curve_point_to_string (ho_position o :: sl_curve_points p)]
           else if has_curve_points
           then [pipe_vec_to_string curve_point_to_string (sl_curve_points p)]
           else [])
          ++ [print_Z (sl_slides p); print_decimal (sl_length p)]
          ++ (if negb (is_empty (sl_edge_sounds p)) || negb (sl_edge_sounds_short_hand p)
                 || has_sets
              then [pipe_vec_to_string hit_sound_to_string (sl_edge_sounds p)] else [])
          ++ (if has_sets
              then [pipe_vec_to_string edge_set_to_string (sl_edge_sets p)] else [])
          ++ sample in
        ROk (join (lit ",") properties ++ (if has_curve_points then lit "|" else lit ",")
             ++ join (lit ",") properties_2)
    end).
End HoParser.

(** [HitObjects::from_str] (hitobjects/mod.rs:33-52). *)
Definition hit_objects_from_str (s : str) (v : version)
  : res (option (list hit_object)) (line_err ho_err) :=
  rmap Some (parse_lines (fun l => v_unwrap (ho_from_str v l)) 0 (lines s)).

(** [HitObjects::to_string] (hitobjects/mod.rs:54-64). *)
Definition hit_objects_to_string (l : list hit_object) (v : version) : run (option str) :=
  rmap (fun ls => Some (join [c_nl] ls)) (run_list (map (ho_to_string v) l)).
