(** How a line is read, field by field, written down separately from the parsers: a line is a
    list of fields, each field has a reader, and each failure has its own error. *)
From Coq Require Import String List NArith ZArith Bool.
From Verif Require Import Str Num Dec Parsers Colours TimingPoints HitObjects SpecWf SpecText.
Import ListNotations.
Local Open Scope N_scope.

(** the line [s] consists of the fields [fs] *)
Definition fields_of (s : str) (fs : list str) : Prop :=
  fs <> [] /\ s = commas fs /\ forallb no_comma fs = true.

(** the pieces of a text between the characters [c] *)
Fixpoint pieces (c : char) (s : str) : list str :=
  match s with
  | [] => [[]]
  | d :: s' => match pieces c s' with
               | p :: ps => if d =? c then [] :: p :: ps else (d :: p) :: ps
               | [] => []
               end
  end.
(** the text before and after the first [c] *)
Fixpoint cut_at (c : char) (s : str) : option (str * str) :=
  match s with
  | [] => None
  | d :: s' => if d =? c then Some ([], s')
               else match cut_at c s' with Some (a, b) => Some (d :: a, b) | None => None end
  end.

(** The next field: [missing] if there is none, [invalid] if it cannot be read. *)
Definition next {A B E X} (missing invalid : E) (rd : str -> res A X) (fs : list str)
  (k : A -> list str -> res B E) : res B E :=
  match fs with
  | [] => RErr missing
  | f :: fs' => match rd f with
                | ROk a => k a fs'
                | RErr _ => RErr invalid
                | RPanic p => RPanic p
                end
  end.
(** The last field: the rest of the line, commas included. *)
Definition last_field {A B E X} (missing invalid : E) (rd : str -> res A X) (fs : list str)
  (k : A -> res B E) : res B E :=
  match fs with
  | [] => RErr missing
  | _ => match rd (commas fs) with
         | ROk a => k a
         | RErr _ => RErr invalid
         | RPanic p => RPanic p
         end
  end.
(** a step that can only panic *)
Definition andthen {A B E} (r : run A) (k : A -> res B E) : res B E :=
  match r with ROk a => k a | RErr e => match e with end | RPanic p => RPanic p end.
(** Readers of single fields; those of numbers have their own theorems (C01, C02). *)
Definition rd_dec (s : str) : res decimal Empty_set := ROk (decimal_of_str s).
Definition rd_text (s : str) : res str Empty_set := ROk s.
Definition rd_flag (s : str) : res bool unit :=
  match parse_i32 s with
  | ROk z => if (z =? 0)%Z then ROk false else if (z =? 1)%Z then ROk true else RErr tt
  | _ => RErr tt
  end.

(** ** timing points *)
Definition rd_tp_set (s : str) : res tp_sample_set int_err :=
  rmap (fun z => if (z =? 0)%Z then TsBeatmapDefault else if (z =? 1)%Z then TsNormal
                 else if (z =? 2)%Z then TsSoft else if (z =? 3)%Z then TsDrum else TsOther z)
       (parse_i32 s).
Definition rd_tp_index (s : str) : res sample_index int_err :=
  rmap (fun z => if (z =? 0)%Z then SiDefault else SiIndex z) (parse_u32 s).
(** Version 3 has two fields, version 4 up to six, version 5 up to seven, later ones eight (or
    six). *)
Definition tp_line (v : version) (fs : list str) : res timing_point tp_err :=
  next TpInvalidTime TpInvalidTime rd_dec fs (fun t fs =>
  andthen (shift_in v t) (fun t =>
  if (v <=? 3)%Z
  then last_field TpMissingBeatLength TpMissingBeatLength rd_dec fs (fun b =>
       ROk (mk_tp t b 4 TsNormal (SiIndex 1) 100 None None))
  else
  next TpMissingBeatLength TpMissingBeatLength rd_dec fs (fun b fs =>
  next TpMissingMeter TpInvalidMeter parse_i32 fs (fun m fs =>
  next TpMissingSampleSet TpInvalidSampleSet rd_tp_set fs (fun ss fs =>
  next TpMissingSampleIndex TpInvalidSampleIndex rd_tp_index fs (fun i fs =>
  match fs with
  | [] => if (v <=? 4)%Z then ROk (mk_tp t b m ss i 100 None None) else RErr TpMissingVolume
  | _ =>
  if (v <=? 4)%Z
  then last_field TpMissingVolume TpInvalidVolume parse_i32 fs (fun vol =>
       ROk (mk_tp t b m ss i vol None None))
  else
  next TpMissingVolume TpInvalidVolume parse_i32 fs (fun vol fs =>
  match fs with
  | [] => ROk (mk_tp t b m ss i vol None None)
  | _ =>
  next TpMissingUninherited TpInvalidUninherited rd_flag fs (fun u fs =>
  match fs with
  | [] => if (v <=? 5)%Z then ROk (mk_tp t b m ss i vol (Some u) None) else RErr TpMissingEffects
  | _ => last_field TpMissingEffects TpInvalidEffects parse_u32 fs (fun e =>
         ROk (mk_tp t b m ss i vol (Some u) (Some e)))
  end)
  end)
  end)))))).

(** ** hit samples: pieces between colons *)
Definition spaces (f : str) : bool := forallb (fun c => (c =? 32) || (c =? 9)) f.
(** A piece that may be left out; the last one may also be blank. *)
Definition next_or {A B E X} (d : A) (invalid : E) (rd : str -> res A X) (fs : list str)
  (k : A -> list str -> res B E) : res B E :=
  match fs with
  | [] => k d []
  | f :: fs' => if is_empty fs' && spaces f then k d []
                else match rd f with
                     | ROk a => k a fs'
                     | RErr _ => RErr invalid
                     | RPanic p => RPanic p
                     end
  end.
Definition rd_set (s : str) : res sample_set int_err :=
  rmap (fun z => if (z =? 0)%Z then SsNone else if (z =? 1)%Z then SsNormal
                 else if (z =? 2)%Z then SsSoft else if (z =? 3)%Z then SsDrum else SsOther z)
       (parse_usize s).
Definition rd_index (s : str) : res ho_index int_err :=
  rmap (fun z => if (z =? 0)%Z then HiTimingPoint else HiIndex z) (parse_usize s).
Definition rd_volume (s : str) : res ho_volume unit :=
  match parse_u8 s with
  | ROk z => if (z =? 0)%Z then ROk None else if (z <=? 100)%Z then ROk (Some z) else RErr tt
  | _ => RErr tt
  end.
(** Normal set, addition set, index, volume, file name; what follows is ignored. *)
Definition hs_line (fs : list str) : res hit_sample hs_err :=
  next_or SsNone HsInvalidSampleSet rd_set fs (fun n fs =>
  next_or SsNone HsInvalidSampleSet rd_set fs (fun a fs =>
  next_or HiTimingPoint HsInvalidIndex rd_index fs (fun i fs =>
  next_or None HsInvalidVolume rd_volume fs (fun vol fs =>
  next_or [] HsInvalidVolume rd_text fs (fun f _ => ROk (mk_hit_sample n a i vol f)))))).
Definition rd_sample (s : str) : res hit_sample hs_err := hs_line (pieces 58 s).

(** ** hit objects *)
Definition rd_sound (s : str) : res hit_sound unit :=
  match parse_u8 s with
  | ROk z => ROk (mk_hit_sound (Z.testbit z 0) (Z.testbit z 1) (Z.testbit z 2) (Z.testbit z 3))
  | _ => RErr tt
  end.
Definition rd_point (s : str) : res curve_point unit :=
  match cut_at 58 s with
  | Some (x, y) => ROk (mk_pos (decimal_of_str x) (decimal_of_str y))
  | None => RErr tt
  end.
Definition rd_edge (s : str) : res edge_set unit :=
  match cut_at 58 s with
  | Some (a, b) => match rd_set a, rd_set b with
                   | ROk x, ROk y => ROk (mk_edge_set x y)
                   | _, _ => RErr tt
                   end
  | None => RErr tt
  end.
Definition rd_curve (s : str) : option curve_type :=
  if str_eqb s (lit "B") then Some Bezier else if str_eqb s (lit "C") then Some Centripetal
  else if str_eqb s (lit "L") then Some Linear else if str_eqb s (lit "P") then Some PerfectCircle
  else None.
(** A list between bars: [None] when one of the items cannot be read; a text without items is the
    empty list. *)
Fixpoint all_items {A X} (rd : str -> res A X) (l : list str) : option (list A) :=
  match l with
  | [] => Some []
  | x :: l' => match rd x, all_items rd l' with
               | ROk a, Some r => Some (a :: r)
               | _, _ => None
               end
  end.
Definition items {A X} (rd : str -> res A X) (t : str) : option (list A) :=
  if is_empty t then Some []
  else if existsb (fun c => (c =? 13) || (c =? 10)) t then None
  else all_items rd (pieces 124 t).
(** a list that ends the line may also be blank *)
Definition last_items {A X} (rd : str -> res A X) (t : str) : option (list A) :=
  if spaces t then Some [] else items rd t.

(** what follows the fields of an object: nothing, or its sample *)
Definition sample_end {B} (fs : list str) (k : option hit_sample -> res B ho_err) : res B ho_err :=
  match fs with
  | [] => k None
  | _ => last_field HoMissingHitSample HoInvalidHitSample rd_sample fs (fun h => k (Some h))
  end.
(** Edge sounds, edge sets, sample: a list that cannot be read is reported as the absence of what
    comes behind it. *)
Definition edges_line {B} (fs : list str)
  (k : list hit_sound -> list edge_set -> option hit_sample -> bool -> bool -> res B ho_err)
  : res B ho_err :=
  match fs with
  | [] => k [] [] None true true
  | [e] => match last_items rd_sound e with
           | Some es => k es [] None false true
           | None => RErr HoMissingEdgeSet
           end
  | [e; s] => match items rd_sound e with
              | None => RErr HoMissingEdgeSet
              | Some es => match last_items rd_edge s with
                           | Some sets => k es sets None false false
                           | None => RErr HoMissingHitSample
                           end
              end
  | e :: s :: fs => match items rd_sound e with
                    | None => RErr HoMissingEdgeSet
                    | Some es => match items rd_edge s with
                                 | Some sets => sample_end fs (fun h => k es sets h false false)
                                 | None => RErr HoMissingHitSample
                                 end
                    end
  end.
Definition slider_line {B} (v : version) (fs : list str)
  (k : slide_params -> option hit_sample -> res B ho_err) : res B ho_err :=
  match fs with
  | [] => RErr HoMissingCurveType
  | f :: fs =>
      let '(letter, points) := match cut_at 124 f with
                               | Some (a, t) => (a, items rd_point t)
                               | None => (f, Some [])
                               end in
      match rd_curve letter with
      | None => RErr HoInvalidCurveType
      | Some c =>
          match points with
          | None => RErr HoMissingSlidesCount
          | Some ps =>
              next HoMissingSlidesCount HoInvalidSlidesCount parse_i32 fs (fun n fs =>
              next HoMissingLength HoInvalidLength rd_dec fs (fun len fs =>
              edges_line fs (fun es sets h b1 b2 =>
              k (mk_slide c (if (v =? 3)%Z then tl ps else ps) n len es b1 sets b2) h)))
          end
      end
  end.
Definition ho_line (v : version) (fs : list str) : res hit_object ho_err :=
  next HoInvalidX HoInvalidX rd_dec fs (fun x fs =>
  next HoMissingY HoInvalidY rd_dec fs (fun y fs =>
  next HoMissingTime HoInvalidTime rd_dec fs (fun t fs =>
  andthen (shift_in v t) (fun t =>
  next HoMissingObjType HoInvalidObjType parse_i32 fs (fun ty fs =>
  next HoMissingHitSound HoInvalidHitSound rd_sound fs (fun h fs =>
  let obj p hs := ROk (mk_ho (mk_pos x y) t p (Z.testbit ty 2) ((ty / 16) mod 8)%Z h hs) in
  if Z.testbit ty 0 then sample_end fs (obj HitCircle)
  else if Z.testbit ty 1 then slider_line v fs (fun p hs => obj (Slider p) hs)
  else if Z.testbit ty 3 then
    next HoMissingEndTime HoInvalidEndTime rd_dec fs (fun e fs =>
    andthen (shift_in v e) (fun e => sample_end fs (obj (Spinner e))))
  else if Z.testbit ty 7 then
    match fs with
    | [] => RErr HoMissingEndTime
    | _ => match cut_at 58 (commas fs) with
           | None => RErr HoInvalidEndTime
           | Some (a, b) =>
               andthen (shift_in v (decimal_of_str a)) (fun e =>
               match rd_sample b with
               | ROk h => obj (OsuManiaHold e) (Some h)
               | RErr _ => RErr HoInvalidHitSample
               | RPanic p => RPanic p
               end)
           end
    end
  else RErr HoUnknownObjType)))))).
