(** What becomes of a file of any version that is written and read back (C33). *)
From Coq Require Import String List NArith ZArith Bool.
From Verif Require Import Str Num Nom Dec Parsers General Editor Metadata Difficulty Colours
  TimingPoints HitObjects Storyboard NormalEvents Events Osb OsuFile Spec SpecWf SpecText SpecKv SpecSections
  SpecFile SpecTypes SpecCmd SpecEvents SpecOld SpecWhole.
Import ListNotations.
Local Open Scope N_scope.

(** ** times *)
(** In versions 3 and 4 the numbers 0 and 24 lose their decimals. *)
Definition time_back (v : version) (d : decimal) : decimal :=
  match d with
  | DNum r =>
      if ((v =? 3) || (v =? 4))%Z then
        if (numerator r =? 0)%Z then DNum (mkDec false 0 0)
        else if (numerator r =? 24 * denominator r)%Z then DNum (mkDec false 24 0)
        else d
      else d
  | DRaw _ => d
  end.

(** ** timing points *)
(** Version 3 has the time and the beat length, version 4 no volume and no flags. *)
Definition tp_back (v : version) (t : timing_point) : timing_point :=
  if (v =? 3)%Z then mk_tp (time_back v (tp_time t)) (tp_beat_length t) 4 TsNormal (SiIndex 1) 100 None None
  else if (v =? 4)%Z
  then mk_tp (time_back v (tp_time t)) (tp_beat_length t) (tp_meter t) (tp_sample_set_f t) (tp_sample_index t) 100 None None
  else t.
Definition tp_can (v : version) (t : timing_point) : bool :=
  if (v =? 3)%Z
  then wf_dec_field (tp_time t) && room (tp_time t) && dec_line (tp_beat_length t) && no_cr_end (print_decimal (tp_beat_length t))
  else if (v =? 4)%Z
  then wf_dec_field (tp_time t) && room (tp_time t) && wf_dec_field (tp_beat_length t) && in_i32 (tp_meter t)
       && tp_sample_set_ok (tp_sample_set_f t) && sample_index_ok (tp_sample_index t) && index_small (tp_sample_index t)
  else tp_ok v t && index_small (tp_sample_index t).

(** ** hit objects *)
(** No hit sample before version 10; what is read instead depends on the separator that is
    written all the same.  Versions 10 and 11 have no volume and no file name. *)
Definition sample_back (v : version) (o : hit_object) : option hit_sample :=
  if (v <=? 9)%Z
  then match ho_obj_params o with
       | HitCircle => if (v =? 3)%Z then Some (mk_hit_sample SsNone SsNone HiTimingPoint None []) else None
       | OsuManiaHold _ => Some (mk_hit_sample SsNone SsNone HiTimingPoint None [])
       | _ => None
       end
  else if (v <=? 11)%Z
  then option_map (fun h => mk_hit_sample (hs_normal h) (hs_addition h) (hs_index h) None []) (ho_hitsample o)
  else ho_hitsample o.
Definition params_back (v : version) (p : ho_params) : ho_params :=
  match p with
  | Spinner t => Spinner (time_back v t)
  | OsuManiaHold t => OsuManiaHold (time_back v t)
  | _ => p
  end.
Definition ho_back (v : version) (o : hit_object) : hit_object :=
  mk_ho (ho_position o) (time_back v (ho_time o)) (params_back v (ho_obj_params o)) (ho_new_combo o)
    (ho_combo_skip_count o) (ho_hitsound o) (sample_back v o).
(** A position that can stand in the list of curve points, where version 3 writes it. *)
Definition position_fits (v : version) (o : hit_object) : bool :=
  match ho_obj_params o with Slider _ => negb (v =? 3)%Z || point_ok (ho_position o) | _ => true end.
Definition ho_can (v : version) (o : hit_object) : bool :=
  ho_read o && ho_keeps (ho_back v o) && position_fits v o
  && (negb ((v =? 3) || (v =? 4))%Z || roomy o).

(** ** the file *)
Definition file_can (f : osu_file) : bool :=
  let v := osu_version f in
  ((3 <=? v) && (v <=? 14))%Z
  && opt_all (fun g => general_ok g && negb (is_empty (general_lines v g))) (osu_general f)
  && opt_all (fun e => editor_ok e && negb (is_empty (editor_lines v e))) (osu_editor f)
  && opt_all (fun m => metadata_ok m && negb (is_empty (metadata_lines m))) (osu_metadata f)
  && opt_all (fun d => difficulty_ok d && negb (is_empty (difficulty_lines v d))) (osu_difficulty f)
  && opt_all (fun l => negb (is_empty l) && forallb (event_ok v) l) (osu_events f)
  && opt_all (fun l => forallb (tp_can v) l && starts_ok (map tp_time l)) (osu_timing_points f)
  && opt_all (fun l => (v <=? 4)%Z || (negb (is_empty l) && forallb colour_ok l && forallb combo_nonneg l)) (osu_colours f)
  && opt_all (fun l => forallb (ho_can v) l && starts_ok (map (fun o => pos_x (ho_position o)) l)) (osu_hitobjects f).
Definition file_back (f : osu_file) : osu_file :=
  let v := osu_version f in
  mk_osu v (option_map (general_at v) (osu_general f)) (option_map (editor_at v) (osu_editor f)) None
    (osu_metadata f) (osu_difficulty f) (osu_events f) (option_map (map (tp_back v)) (osu_timing_points f))
    (if (v <=? 4)%Z then None else osu_colours f) (option_map (map (ho_back v)) (osu_hitobjects f)).

(** Of a file that was read, what is still needed: every section keeps a line, no sample file
    name is blank, and the 24 of versions 3 and 4 can be subtracted exactly. *)
Definition file_stays (f : osu_file) : bool :=
  let v := osu_version f in
  opt_all (fun g => negb (is_empty (general_lines v g))) (osu_general f)
  && opt_all (fun e => negb (is_empty (editor_lines v e))) (osu_editor f)
  && opt_all (fun m => negb (is_empty (metadata_lines m))) (osu_metadata f)
  && opt_all (fun d => negb (is_empty (difficulty_lines v d))) (osu_difficulty f)
  && opt_all (fun l => negb (is_empty (written v l))) (osu_events f)
  && opt_all (fun l => forallb (fun t => index_small (tp_sample_index t)) l && starts_ok (map tp_time l)
                       && (negb ((v =? 3) || (v =? 4))%Z || forallb (fun t => room (tp_time t)) l)) (osu_timing_points f)
  && opt_all (fun l => (v <=? 4)%Z || negb (is_empty l)) (osu_colours f)
  && opt_all (fun l => forallb (fun o => ho_keeps (ho_back v o)) l && forallb (position_fits v) l
                       && starts_ok (map (fun o => pos_x (ho_position o)) l)
                       && (negb ((v =? 3) || (v =? 4))%Z || forallb roomy l)) (osu_hitobjects f).
