(** src/osu_file/timingpoints: the [TimingPoints] section.

    The constructors, getters and setters are in [Api.v], the functions that compute with
    the beat length in [Helpers.v]. *)
From Coq Require Import String List NArith ZArith Bool.
From Verif Require Import Str Num Nom Dec Parsers Colours.
Import ListNotations.
Local Open Scope N_scope.

(** timingpoints/error.rs:13-57. *)
Inductive tp_err :=
| TpInvalidTime | TpMissingBeatLength | TpMissingMeter | TpInvalidMeter
| TpMissingSampleSet | TpInvalidSampleSet | TpMissingSampleIndex | TpInvalidSampleIndex
| TpMissingVolume | TpInvalidVolume | TpMissingEffects | TpInvalidEffects
| TpMissingUninherited | TpInvalidUninherited.

(** [SampleSet] (timingpoints/types.rs:6-69). *)
Inductive tp_sample_set := TsBeatmapDefault | TsNormal | TsSoft | TsDrum | TsOther (z : Z).
Definition tp_sample_set_of_Z (z : Z) : tp_sample_set :=
  if (z =? 0)%Z then TsBeatmapDefault
  else if (z =? 1)%Z then TsNormal
  else if (z =? 2)%Z then TsSoft
  else if (z =? 3)%Z then TsDrum
  else TsOther z.
Definition tp_sample_set_to_Z (x : tp_sample_set) : Z :=
  match x with
  | TsBeatmapDefault => 0 | TsNormal => 1 | TsSoft => 2 | TsDrum => 3 | TsOther z => z
  end%Z.
Definition tp_sample_set_from_str (s : str) : res (option tp_sample_set) int_err :=
  rmap (fun z => Some (tp_sample_set_of_Z z)) (parse_i32 s).
Definition tp_sample_set_to_string (x : tp_sample_set) : str := print_Z (tp_sample_set_to_Z x).

(** [Effects] (timingpoints/types.rs:71-145): a [u32]. *)
Definition effects := Z.
Definition effects_from_str (s : str) : res (option effects) int_err := rmap Some (parse_u32 s).
Definition effects_to_string (e : effects) : str := print_Z e.
Definition effects_clear_unused (e : effects) : effects := Z.land e 9.
Definition effects_kiai (e : effects) : bool := (Z.land e 1 =? 1)%Z.
Definition effects_no_barline (e : effects) : bool := (Z.land e 8 =? 8)%Z.
(** [!0b1] on [u32]. *)
Definition u32_not (z : Z) : Z := (u32_max - z)%Z.
Definition effects_set_kiai (e : effects) (b : bool) : effects :=
  if b then Z.lor e 1 else Z.land e (u32_not 1).
Definition effects_set_no_barline (e : effects) (b : bool) : effects :=
  if b then Z.lor e 8 else Z.land e (u32_not 8).
Definition effects_new (kiai no_barline : bool) : effects :=
  let e := if kiai then Z.lor 0 1 else 0%Z in
  if no_barline then Z.lor e 8 else e.

(** [SampleIndex] (timingpoints/types.rs:147-201).  [Index] holds a non-zero
    [u32]. *)
Inductive sample_index := SiDefault | SiIndex (z : Z).
Definition sample_index_of_u32 (z : Z) : sample_index :=
  if (z =? 0)%Z then SiDefault else SiIndex z.
Definition sample_index_from_str (s : str) : res (option sample_index) int_err :=
  rmap (fun z => Some (sample_index_of_u32 z)) (parse_u32 s).
(** [as Integer]: reinterpreted as [i32] (types.rs:184). *)
Definition sample_index_to_Z (x : sample_index) : Z :=
  match x with SiDefault => 0%Z | SiIndex z => wrap_i32 z end.
Definition sample_index_to_string (x : sample_index) : str := print_Z (sample_index_to_Z x).

(** [Volume] (timingpoints/types.rs:203-248): any [i32]. *)
Definition tp_volume_from_str (s : str) : res (option Z) int_err := rmap Some (parse_i32 s).

(** [TimingPoint] (timingpoints/mod.rs:82-93). *)
Record timing_point := mk_tp {
  tp_time : decimal;
  tp_beat_length : decimal;
  tp_meter : Z;
  tp_sample_set_f : tp_sample_set;
  tp_sample_index : sample_index;
  tp_volume : Z;
  tp_uninherited : option bool;
  tp_effects : option effects }.

(** [OLD_VERSION_TIME_OFFSET] (timingpoints/mod.rs:263, hitobjects/mod.rs). *)
Definition dec24 : rdec := rdec_of_Z 24.

(** [if (3..=4).contains(&version) { if let Left(v) = t { v += 24 } }]
    (timingpoints/mod.rs:287-295). *)
Definition shift_in (v : version) (t : decimal) : run decimal :=
  if old_version v then
    match t with
    | DNum d => rmap DNum (rdec_add d dec24)
    | DRaw s => ROk (DRaw s)
    end
  else ROk t.
(** The inverse in the printers (timingpoints/mod.rs:449-456). *)
Definition shift_out (v : version) (t : decimal) : run decimal :=
  if old_version v then
    match t with
    | DNum d => rmap DNum (rdec_sub d dec24)
    | DRaw s => ROk (DRaw s)
    end
  else ROk t.

Section TpParser.
  Variable v : version.

  (** [preceded(verify(success(0), |_| version <= n), p)]: the branch exists only
      up to version [n]. *)
  Definition upto {A} (n : Z) (p : parser tp_err A) : parser tp_err A :=
    preceded (verify (pret tt) (fun _ => (v <=? n)%Z)) p.

  (** timingpoints/mod.rs:365-397. *)
  Definition tp_uninherited_effects : parser tp_err (option bool * option effects) :=
    alt
      (pmap (fun u => (Some u, None))
         (upto 5 (context TpInvalidUninherited (map_res prest parse_zero_one_bool))))
      (pbind (context TpInvalidUninherited (map_res comma_field parse_zero_one_bool)) (fun u =>
       pmap (fun e => (Some u, Some e))
         (preceded (context TpMissingEffects comma)
            (context TpInvalidEffects (consume_rest_versioned_type effects_from_str))))).

  (** timingpoints/mod.rs:346-403. *)
  Definition tp_volume_rest : parser tp_err (Z * option bool * option effects) :=
    alt
      (pmap (fun vol => (vol, None, None))
         (upto 4 (context TpInvalidVolume
                    (cut (consume_rest_versioned_type tp_volume_from_str)))))
   (alt
      (pmap (fun vol => (vol, None, None))
         (context TpInvalidVolume (consume_rest_versioned_type tp_volume_from_str)))
      (pbind (context TpInvalidVolume (comma_field_versioned_type tp_volume_from_str)) (fun vol =>
       pmap (fun ue => (vol, fst ue, snd ue))
         (preceded (context TpMissingUninherited comma) tp_uninherited_effects)))).

  (** timingpoints/mod.rs:325-412. *)
  Definition tp_index_rest : parser tp_err (sample_index * (Z * option bool * option effects)) :=
    preceded (context TpMissingSampleIndex comma)
      (alt
         (pmap (fun i => (i, (100%Z, None, None)))
            (upto 4 (context TpInvalidSampleIndex
                       (consume_rest_versioned_type sample_index_from_str))))
         (pbind (context TpInvalidSampleIndex
                   (comma_field_versioned_type sample_index_from_str)) (fun i =>
          pmap (fun r => (i, r))
            (preceded (context TpMissingVolume comma) tp_volume_rest)))).

  (** timingpoints/mod.rs:283-431. *)
  Definition tp_parser : parser tp_err timing_point :=
    pbind (map_run (context TpInvalidTime (comma_field_type (@parse_decimal unit)))
             (shift_in v)) (fun time =>
    preceded (context TpMissingBeatLength comma)
      (alt
         (pmap (fun bl => mk_tp time bl 4 TsNormal (sample_index_of_u32 1) 100 None None)
            (upto 3 (consume_rest_type (@parse_decimal unit))))
         (pbind (comma_field_type (@parse_decimal unit)) (fun bl =>
          pbind (preceded (context TpMissingMeter comma)
                   (context TpInvalidMeter (comma_field_type parse_i32))) (fun meter =>
          pbind (preceded (context TpMissingSampleSet comma)
                   (context TpInvalidSampleSet
                      (comma_field_versioned_type tp_sample_set_from_str))) (fun ss =>
          pmap (fun '(i, (vol, u, e)) => mk_tp time bl meter ss i vol u e)
            tp_index_rest)))))).

  (** [TimingPoint::from_str] (timingpoints/mod.rs:265-444). *)
  Definition tp_from_str (s : str) : res (option timing_point) tp_err :=
    rmap Some (verbose_error_to_error (tp_parser s)).

  (** [TimingPoint::to_string] (timingpoints/mod.rs:446-482). *)
  Definition tp_to_string (t : timing_point) : run str :=
    rmap (fun time =>
      join (lit ",")
        ([print_decimal time; print_decimal (tp_beat_length t)]
         ++ (if (3 <? v)%Z
             then [print_Z (tp_meter t); tp_sample_set_to_string (tp_sample_set_f t);
                   sample_index_to_string (tp_sample_index t)]
             else [])
         ++ (if (4 <? v)%Z
             then [print_Z (tp_volume t)]
                  ++ (match tp_uninherited t with
                      | Some b => [print_bool b]
                      | None => match tp_effects t with Some _ => [[]] | None => [] end
                      end)
                  ++ (match tp_effects t with
                      | Some e => [effects_to_string e]
                      | None => []
                      end)
             else [])))
      (shift_out v (tp_time t)).
End TpParser.

(** Sequence a list of computations, left to right. *)
Fixpoint run_list {A E} (l : list (res A E)) : res (list A) E :=
  match l with
  | [] => ROk []
  | x :: l' => rbind x (fun a => rmap (cons a) (run_list l'))
  end.

(** [TimingPoints::from_str] (timingpoints/mod.rs:27-59). *)
Definition timing_points_from_str (s : str) (v : version)
  : res (option (list timing_point)) (line_err tp_err) :=
  rbind (parse_lines (tp_from_str v) 0 (lines s)) (fun l =>
    match l with
    | [] => ROk (Some [])
    | None :: _ => ROk None
    | Some _ :: _ => rmap Some (run_list (map unwrap l))
    end).

(** [TimingPoints::to_string] (timingpoints/mod.rs:61-71). *)
Definition timing_points_to_string (l : list timing_point) (v : version) : run (option str) :=
  rmap (fun ls => Some (join [c_nl] ls)) (run_list (map (tp_to_string v) l)).
