(** The documented text of the line based sections, written down separately from the
    printers of the model: which number stands in which place.  Only the printing of
    single numbers ([print_Z], [print_decimal]) is taken from the model; those have
    their own theorems (C01, C02). *)
From Coq Require Import String List NArith ZArith Bool.
From Verif Require Import Str Num Dec Parsers Colours TimingPoints HitObjects.
Import ListNotations.
Local Open Scope N_scope.

(** texts joined by commas *)
Fixpoint commas (l : list str) : str :=
  match l with
  | [] => []
  | [x] => x
  | x :: l' => x ++ 44 :: commas l'
  end.
(** lines joined by line feeds, no line feed at the end *)
Fixpoint text_of_lines (l : list str) : str :=
  match l with
  | [] => []
  | [x] => x
  | x :: l' => x ++ 10 :: text_of_lines l'
  end.

(** ** [Colours]: [Combo<n> : r,g,b] and the two slider colours *)
Definition rgb_text (x : rgb) : str :=
  commas [print_Z (rgb_r x); print_Z (rgb_g x); print_Z (rgb_b x)].
Definition colour_text (c : colour) : str :=
  match c with
  | Combo n x => lit "Combo" ++ print_Z n ++ lit " : " ++ rgb_text x
  | SliderTrackOverride x => lit "SliderTrackOverride : " ++ rgb_text x
  | SliderBorder x => lit "SliderBorder : " ++ rgb_text x
  end.

(** ** [TimingPoints]:
    [time,beatLength,meter,sampleSet,sampleIndex,volume,uninherited,effects] *)
Definition tp_set_number (x : tp_sample_set) : Z :=
  match x with TsBeatmapDefault => 0 | TsNormal => 1 | TsSoft => 2 | TsDrum => 3 | TsOther z => z end%Z.
Definition tp_index_number (x : sample_index) : Z :=
  match x with SiDefault => 0%Z | SiIndex z => z end.
Definition bool_text (b : bool) : str := if b then lit "1" else lit "0".
Definition tp_text (t : timing_point) : str :=
  commas ([print_decimal (tp_time t); print_decimal (tp_beat_length t); print_Z (tp_meter t);
           print_Z (tp_set_number (tp_sample_set_f t)); print_Z (tp_index_number (tp_sample_index t));
           print_Z (tp_volume t)]
          ++ match tp_uninherited t with Some b => [bool_text b] | None => [] end
          ++ match tp_effects t with Some e => [print_Z e] | None => [] end).

(** ** [HitObjects]: [x,y,time,type,hitSound,objectParams,hitSample] *)
Definition set_number (x : sample_set) : Z :=
  match x with SsNone => 0 | SsNormal => 1 | SsSoft => 2 | SsDrum => 3 | SsOther z => z end%Z.
Definition index_number (x : ho_index) : Z := match x with HiTimingPoint => 0%Z | HiIndex z => z end.
Definition volume_number (x : ho_volume) : Z := match x with Some z => z | None => 0%Z end.
Definition bit (b : bool) (n : Z) : Z := if b then (2 ^ n)%Z else 0%Z.
(** whistle is bit 1, finish bit 2, clap bit 3 *)
Definition sound_number (h : hit_sound) : Z :=
  (bit (snd_normal h) 0 + bit (snd_whistle h) 1 + bit (snd_finish h) 2 + bit (snd_clap h) 3)%Z.
(** kind in bits 0, 1, 3, 7; new combo in bit 2; colours to skip in bits 4-6 *)
Definition type_number (o : hit_object) : Z :=
  (match ho_obj_params o with
   | HitCircle => 2 ^ 0 | Slider _ => 2 ^ 1 | Spinner _ => 2 ^ 3 | OsuManiaHold _ => 2 ^ 7
   end + bit (ho_new_combo o) 2 + ho_combo_skip_count o * 2 ^ 4)%Z.
(** [normalSet:additionSet:index:volume:filename]; only the first three before
    version 12 *)
Definition sample_text (v : version) (h : hit_sample) : str :=
  print_Z (set_number (hs_normal h)) ++ lit ":" ++ print_Z (set_number (hs_addition h)) ++ lit ":"
  ++ print_Z (index_number (hs_index h))
  ++ (if (v <? 12)%Z then []
      else lit ":" ++ print_Z (volume_number (hs_volume h)) ++ lit ":" ++ hs_filename h).
Fixpoint bars (l : list str) : str :=
  match l with
  | [] => []
  | [x] => x
  | x :: l' => x ++ 124 :: bars l'
  end.
Definition curve_letter (c : curve_type) : str :=
  match c with Bezier => lit "B" | Centripetal => lit "C" | Linear => lit "L"
             | PerfectCircle => lit "P" end.
Definition point_text (p : curve_point) : str :=
  print_decimal (pos_x p) ++ lit ":" ++ print_decimal (pos_y p).
Definition edge_set_text (x : edge_set) : str :=
  print_Z (set_number (es_normal x)) ++ lit ":" ++ print_Z (set_number (es_addition x)).
Definition sample_field (v : version) (hs : option hit_sample) : list str :=
  match hs with Some h => [sample_text v h] | None => [] end.
(** the fields after the hit sound *)
Definition params_text (v : version) (o : hit_object) : list str :=
  match ho_obj_params o with
  | HitCircle => sample_field v (ho_hitsample o)
  | Slider p =>
      [bars (curve_letter (sl_curve_type p) :: map point_text (sl_curve_points p));
       print_Z (sl_slides p); print_decimal (sl_length p)]
      ++ (if sl_edge_sounds_short_hand p then []
          else bars (map (fun h => print_Z (sound_number h)) (sl_edge_sounds p))
               :: (if sl_edge_sets_shorthand p then []
                   else bars (map edge_set_text (sl_edge_sets p)) :: sample_field v (ho_hitsample o)))
  | Spinner t => print_decimal t :: sample_field v (ho_hitsample o)
  | OsuManiaHold t =>
      [print_decimal t ++ lit ":" ++ match ho_hitsample o with Some h => sample_text v h | None => [] end]
  end.
Definition ho_text (v : version) (o : hit_object) : str :=
  commas ([print_decimal (pos_x (ho_position o)); print_decimal (pos_y (ho_position o));
           print_decimal (ho_time o); print_Z (type_number o); print_Z (sound_number (ho_hitsound o))]
          ++ params_text v o).
