(** C59: values made by a program with constructors and setters, written and read back. *)
From Coq Require Import String List NArith ZArith Bool.
From Verif Require Import Str Num Dec Parsers General Editor Metadata Difficulty Colours TimingPoints HitObjects
  Storyboard NormalEvents Events Osb OsuFile Api Helpers Defaults Values Equal Spec SpecWf SpecText SpecSections SpecFile SpecEvents SpecOld SpecWhole SpecBack
  SpecGate SpecWrite SpecMade Samples BackFacts MadeFacts MadeMore.
Import ListNotations.
Local Open Scope N_scope.

(** ** hit objects *)
(** Whatever the private flags of its sliders are, and with or without samples of its holds, a
    list of hit objects is written, and what is read is [filled]: the same objects, with flags that
    say what was left out and with a sample in every hold. *)
Theorem C59_objects : forall v l,
  (3 <= v)%Z -> forallb (ho_can v) (map filled l) = true -> starts_ok (map (fun o => pos_x (ho_position o)) l) = true ->
  exists t, hit_objects_to_string l v = ROk (Some t)
    /\ hit_objects_from_str t v = ROk (Some (map (fun o => ho_back v (filled o)) l)).
Proof. exact made_section. Qed.
Print Assumptions C59_objects.
(** Every object in the ranges of its types can be read back in this way. *)
Theorem C59_typed : forall o, ho_typed o = true -> ho_read (filled o) = true.
Proof. exact filled_read. Qed.
Print Assumptions C59_typed.
(** The same in a file. *)
Theorem C59_file : forall dbg f, file_can (file_filled f) = true ->
  exists t secs, osu_to_string dbg f = ROk t
  /\ file_layout t [] (osu_version f) [[]; []] secs [] /\ map sec_name secs = names_of (file_back (file_filled f))
  /\ osu_from_str dbg t = ROk (file_back (file_filled f)).
Proof. exact made_file. Qed.
Print Assumptions C59_file.
Definition C59_slider : hit_object :=
  mk_ho (mk_pos (num 1) (num 2)) (num 3) (Slider (slide_params_new Bezier [mk_pos (num 4) (num 5)] 1 (num 100) [mk_hit_sound false true false false] [])) false 0%Z
    (mk_hit_sound false false false false) None.
Definition C59_new (v : version) : osu_file := mk_osu v None None None None None None None None (Some [C59_slider; osu_mania_hold_default; hitcircle_default; spinner_default]).
Example C59_file_ex :
  forallb (fun v => file_can (file_filled (C59_new v))) [3; 4; 5; 6; 7; 8; 9; 10; 11; 12; 13; 14]%Z = true
  /\ file_can (C59_new 14%Z) = false
  /\ osu_to_string true (C59_new 14%Z)
     = ROk (text_of_lines [lit "osu file format v14"; []; lit "[HitObjects]"; lit "1,2,3,2,0,B|4:5,1,100,2"; lit "0,192,0,128,0,0:"; lit "256,192,0,1,0"; lit "256,192,0,8,0,0"]).
Proof. repeat split; vm_compute; reflexivity. Qed.
Example C59_typed_ex : forallb ho_typed [C59_slider; osu_mania_hold_default; hitcircle_default; spinner_default] = true
  /\ map ho_read [C59_slider; osu_mania_hold_default] = [false; false].
Proof. split; vm_compute; reflexivity. Qed.
(** A slider from [SlideParams::new] is read back the same exactly if it has no edge sounds, no edge
    sets and no sample: the constructor says that nothing is written. *)
Theorem C59_new_slider : forall pos time ct pts n len sounds sets nc sk snd hs,
  let o := mk_ho pos time (Slider (slide_params_new ct pts n len sounds sets)) nc sk snd hs in
  filled o = o <-> sounds = [] /\ sets = [] /\ hs = None.
Proof. exact new_slider_kept. Qed.
Print Assumptions C59_new_slider.
(** So with edge sounds what is read is not equal to what was written, though every public field is. *)
Theorem C59_slider_refuted : exists o t o', hit_objects_to_string [o] 14%Z = ROk (Some t)
  /\ hit_objects_from_str t 14%Z = ROk (Some [o']) /\ ho_eq o' o = false.
Proof.
  exists C59_slider, (lit "1,2,3,2,0,B|4:5,1,100,2"), (filled C59_slider). repeat split; vm_compute; reflexivity.
Qed.
Print Assumptions C59_slider_refuted.
Example C59_new_slider_ex :
  filled (mk_ho (mk_pos (num 1) (num 2)) (num 3) (Slider (slide_params_new Bezier [] 1 (num 9) [] [])) false 0%Z (mk_hit_sound false false false false) None)
  = mk_ho (mk_pos (num 1) (num 2)) (num 3) (Slider (slide_params_new Bezier [] 1 (num 9) [] [])) false 0%Z (mk_hit_sound false false false false) None.
Proof. reflexivity. Qed.
(** The three default objects: their texts, and what is read from these. *)
Theorem C59_circle : forall v, (4 < v)%Z ->
  hit_objects_to_string [hitcircle_default] v = ROk (Some (lit "256,192,0,1,0"))
  /\ hit_objects_from_str (lit "256,192,0,1,0") v = ROk (Some [hitcircle_default]).
Proof. exact circle_back. Qed.
Print Assumptions C59_circle.
Theorem C59_spinner : forall v, (4 < v)%Z ->
  hit_objects_to_string [spinner_default] v = ROk (Some (lit "256,192,0,8,0,0"))
  /\ hit_objects_from_str (lit "256,192,0,8,0,0") v = ROk (Some [spinner_default]).
Proof. exact spinner_back. Qed.
Print Assumptions C59_spinner.
(** A hold comes back with a sample, so it is not equal. *)
Theorem C59_hold : forall v, (4 < v)%Z ->
  hit_objects_to_string [osu_mania_hold_default] v = ROk (Some (lit "0,192,0,128,0,0:"))
  /\ hit_objects_from_str (lit "0,192,0,128,0,0:") v
     = ROk (Some [with_sample osu_mania_hold_default (Some (mk_hit_sample SsNone SsNone HiTimingPoint None []))]).
Proof. exact hold_back. Qed.
Print Assumptions C59_hold.
Example C59_hold_ex : (4 < 14)%Z
  /\ ho_eq (with_sample osu_mania_hold_default (Some (mk_hit_sample SsNone SsNone HiTimingPoint None []))) osu_mania_hold_default = false.
Proof. split; reflexivity. Qed.

(** ** timing points *)
Theorem C59_uninherited : forall v time b meter set index vol e,
  (4 < v)%Z -> in_i32 time = true -> wf_dec_field b = true -> in_i32 meter = true -> tp_sample_set_ok set = true ->
  sample_index_ok index = true -> index_small index = true -> in_i32 vol = true -> in_u32 e = true ->
  let t := tp_new_uninherited time b meter set index vol e in
  let s := row_of (print_Z time) (print_decimal b) meter set index vol (lit "1") e in
  tp_is_uninherited t = true
  /\ timing_points_to_string [t] v = ROk (Some s) /\ timing_points_from_str s v = ROk (Some [t]).
Proof. exact made_uninherited. Qed.
Print Assumptions C59_uninherited.
(** The division and the multiplication of the constructor may be any. *)
Theorem C59_inherited : forall div mul v time vel meter set index vol e t,
  tp_new_inherited div mul time vel meter set index vol e = ROk t ->
  (4 < v)%Z -> in_i32 time = true -> wf_decimal (tp_beat_length t) = true -> in_i32 meter = true -> tp_sample_set_ok set = true ->
  sample_index_ok index = true -> index_small index = true -> in_i32 vol = true -> in_u32 e = true ->
  let s := row_of (print_Z time) (print_decimal (tp_beat_length t)) meter set index vol (lit "0") e in
  tp_is_uninherited t = false
  /\ timing_points_to_string [t] v = ROk (Some s) /\ timing_points_from_str s v = ROk (Some [t]).
Proof. exact made_inherited. Qed.
Print Assumptions C59_inherited.
Example C59_points_ex :
  row_of (print_Z (-5)) (print_decimal (DNum (mkDec false 5005 1))) 3 TsSoft (SiIndex 2) 60 (lit "1") 9 = lit "-5,500.5,3,2,2,60,1,9"
  /\ in_i32 (-5) = true /\ wf_dec_field (DNum (mkDec false 5005 1)) = true /\ index_small (SiIndex 2) = true /\ in_u32 9 = true
  /\ exists t, tp_new_inherited (fun _ _ => ROk (mkDec false 8 1)) (fun _ _ => ROk (mkDec true 80 0)) 7 (mkDec false 125 2) 4 TsDrum SiDefault 70 1%Z = ROk t
     /\ wf_decimal (tp_beat_length t) = true /\ timing_points_to_string [t] 14%Z = ROk (Some (lit "7,-80,4,3,0,70,0,1")).
Proof.
  split; [vm_compute; reflexivity|]. do 4 (split; [vm_compute; reflexivity|]).
  exists (mk_tp (num 7) (DNum (mkDec true 80 0)) 4 TsDrum SiDefault 70 (Some false) (Some 1%Z)).
  split; [vm_compute; reflexivity|]. split; vm_compute; reflexivity.
Qed.
(** A setter changes its field and no other. *)
Theorem C59_setters : forall t,
  (forall z, let x := tp_set_time t z in tp_time x = decimal_of_Z z /\ tp_beat_length x = tp_beat_length t /\ tp_meter x = tp_meter t
     /\ tp_sample_set_f x = tp_sample_set_f t /\ tp_sample_index x = tp_sample_index t /\ tp_volume x = tp_volume t
     /\ tp_uninherited x = tp_uninherited t /\ tp_effects x = tp_effects t)
  /\ (forall z, let x := tp_set_meter t z in tp_time x = tp_time t /\ tp_beat_length x = tp_beat_length t /\ tp_meter x = z
     /\ tp_sample_set_f x = tp_sample_set_f t /\ tp_sample_index x = tp_sample_index t /\ tp_volume x = tp_volume t
     /\ tp_uninherited x = tp_uninherited t /\ tp_effects x = tp_effects t)
  /\ (forall z, let x := tp_set_sample_set t z in tp_time x = tp_time t /\ tp_beat_length x = tp_beat_length t /\ tp_meter x = tp_meter t
     /\ tp_sample_set_f x = z /\ tp_sample_index x = tp_sample_index t /\ tp_volume x = tp_volume t
     /\ tp_uninherited x = tp_uninherited t /\ tp_effects x = tp_effects t)
  /\ (forall z, let x := tp_set_volume t z in tp_time x = tp_time t /\ tp_beat_length x = tp_beat_length t /\ tp_meter x = tp_meter t
     /\ tp_sample_set_f x = tp_sample_set_f t /\ tp_sample_index x = tp_sample_index t /\ tp_volume x = z
     /\ tp_uninherited x = tp_uninherited t /\ tp_effects x = tp_effects t)
  /\ (forall b, let x := tp_set_uninherited t b in tp_time x = tp_time t /\ tp_beat_length x = tp_beat_length t /\ tp_meter x = tp_meter t
     /\ tp_sample_set_f x = tp_sample_set_f t /\ tp_sample_index x = tp_sample_index t /\ tp_volume x = tp_volume t
     /\ tp_is_uninherited x = b /\ tp_effects x = tp_effects t)
  /\ (forall z, let x := tp_put_sample_index t z in tp_time x = tp_time t /\ tp_beat_length x = tp_beat_length t /\ tp_meter x = tp_meter t
     /\ tp_sample_set_f x = tp_sample_set_f t /\ tp_sample_index x = z /\ tp_volume x = tp_volume t
     /\ tp_uninherited x = tp_uninherited t /\ tp_effects x = tp_effects t)
  /\ (forall z, let x := tp_put_effects t z in tp_time x = tp_time t /\ tp_beat_length x = tp_beat_length t /\ tp_meter x = tp_meter t
     /\ tp_sample_set_f x = tp_sample_set_f t /\ tp_sample_index x = tp_sample_index t /\ tp_volume x = tp_volume t
     /\ tp_uninherited x = tp_uninherited t /\ tp_effects x = z).
Proof. exact setters. Qed.
Print Assumptions C59_setters.
(** A point that can be written can still be written after a setter, except that the flag and the
    effects have to be there both or neither. *)
Theorem C59_set_ok : forall v t, (5 < v)%Z -> tp_ok v t = true ->
  (forall z, in_i32 z = true -> tp_ok v (tp_set_time t z) = true) /\ (forall z, in_i32 z = true -> tp_ok v (tp_set_meter t z) = true)
  /\ (forall x, tp_sample_set_ok x = true -> tp_ok v (tp_set_sample_set t x) = true) /\ (forall z, in_i32 z = true -> tp_ok v (tp_set_volume t z) = true)
  /\ (forall x, sample_index_ok x = true -> tp_ok v (tp_put_sample_index t x) = true)
  /\ (forall b, tp_ok v (tp_set_uninherited t b) = true <-> tp_effects t <> None)
  /\ (forall e, in_u32 e = true -> (tp_ok v (tp_put_effects t (Some e)) = true <-> tp_uninherited t <> None))
  /\ (tp_ok v (tp_put_effects t None) = true <-> tp_uninherited t = None).
Proof. exact put_ok. Qed.
Print Assumptions C59_set_ok.
(** A point read from a line without flags becomes unreadable by [set_uninherited]. *)
Theorem C59_set_refuted : exists s t s', timing_points_from_str s 14%Z = ROk (Some [t])
  /\ timing_points_to_string [tp_set_uninherited t false] 14%Z = ROk (Some s')
  /\ timing_points_from_str s' 14%Z = RErr (mk_line_err 0 TpMissingEffects).
Proof.
  exists (lit "0,500,4,1,0,100"), (mk_tp (num 0) (num 500) 4 TsNormal SiDefault 100 None None), (lit "0,500,4,1,0,100,0").
  repeat split; vm_compute; reflexivity.
Qed.
Print Assumptions C59_set_refuted.
Example C59_set_ex : tp_ok 14%Z tp1 = true /\ tp_ok 14%Z (tp_set_uninherited tp1 false) = true
  /\ tp_text (tp_set_time tp1 (-7)) = lit "-7,-100,4,2,2,70,1,9".
Proof. repeat split; vm_compute; reflexivity. Qed.

(** ** events *)
(** [Break::new] and [Video::new] make the short forms. *)
Theorem C59_break : forall dbg v a b, (4 < v)%Z -> in_i32 a = true -> in_i32 b = true ->
  let s := commas [lit "2"; print_Z a; print_Z b] in
  events_to_string dbg [EBreak (break_new a b)] v = ROk (Some s) /\ events_from_str dbg s v = ROk (Some [EBreak (break_new a b)]).
Proof. exact made_break. Qed.
Print Assumptions C59_break.
Theorem C59_video : forall dbg v a f p, (4 < v)%Z -> in_i32 a = true -> path_end_ok f (is_absent p) = true -> opt_position_ok p = true ->
  let s := commas ([lit "1"; print_Z a; f] ++ match p with Some q => [print_decimal (pos_x q); print_decimal (pos_y q)] | None => [] end) in
  events_to_string dbg [EVideo (video_new a f p)] v = ROk (Some s) /\ events_from_str dbg s v = ROk (Some [EVideo (video_new a f p)]).
Proof. exact made_video. Qed.
Print Assumptions C59_video.
(** [Origin::from] makes the number. *)
Theorem C59_origin : forall o, origin_to_string (origin_from o) = print_Z (origin_no o)
  /\ origin_from_str (print_Z (origin_no o)) = ROk (Some (origin_from o)).
Proof. exact made_origin. Qed.
Print Assumptions C59_origin.
Example C59_events_ex :
  path_end_ok (lit "a.avi") (is_absent (Some (mk_pos (num 1) (num 2)))) = true /\ opt_position_ok (Some (mk_pos (num 1) (num 2))) = true
  /\ commas [lit "2"; print_Z 5; print_Z (-6)] = lit "2,5,-6" /\ origin_to_string (origin_from OtCentre) = lit "1".
Proof. repeat split; vm_compute; reflexivity. Qed.

(** ** empty files and sections, defaults *)
Theorem C59_new_file : forall dbg v, (3 <= v <= 14)%Z -> osu_to_string dbg (osu_new v) = ROk (lit "osu file format v" ++ print_Z v ++ [10; 10])
  /\ osu_from_str dbg (lit "osu file format v" ++ print_Z v ++ [10; 10]) = ROk (osu_new v) /\ osu_default v = osu_new v.
Proof. exact new_file. Qed.
Print Assumptions C59_new_file.
Theorem C59_empty : forall dbg v,
  (exists l, events_default v = Some l /\ events_to_string dbg l v = ROk (Some []) /\ events_from_str dbg [] v = ROk (Some l))
  /\ (exists l, timing_points_default v = Some l /\ timing_points_to_string l v = ROk (Some []) /\ timing_points_from_str [] v = ROk (Some l))
  /\ (exists l, hit_objects_default v = Some l /\ hit_objects_to_string l v = ROk (Some []) /\ hit_objects_from_str [] v = ROk (Some l)).
Proof. exact empty_lists. Qed.
Print Assumptions C59_empty.
Theorem C59_defaults :
  default_text all_versions (fun x _ => Some (loop_type_to_string x)) loop_type_default "LoopForever"
  /\ default_text all_versions (fun x _ => Some (sample_index_to_string x)) tp_index_default "0"
  /\ default_text all_versions (fun x _ => Some (sample_set_to_string x)) sample_set_default "0"
  /\ default_text all_versions (fun x _ => Some (ho_index_to_string x)) ho_index_default "0"
  /\ print_decimal decimal_default = lit "0" /\ hit_sound_to_string hit_sound_default = lit "0"
  /\ print_decimal (pos_x position_default) = lit "256" /\ print_decimal (pos_y position_default) = lit "192".
Proof. exact small_defaults. Qed.
Print Assumptions C59_defaults.
Example C59_defaults_ex :
  loop_type_from_str (lit "LoopForever") = ROk (loop_type_default 14%Z) /\ sample_index_from_str (lit "0") = ROk (tp_index_default 14%Z)
  /\ ho_index_from_str (lit "0") = ROk (ho_index_default 14%Z) /\ hit_sound_from_str (lit "0") = ROk (Some hit_sound_default)
  /\ decimal_from (lit "0") = decimal_default.
Proof. exact small_defaults_read. Qed.
(** A path is what was set. *)
Theorem C59_path : forall p q, file_path_get (file_path_set p q) = q.
Proof. exact path_put. Qed.
Print Assumptions C59_path.
Example C59_path_ex : file_path_get (file_path_set (lit "a") (lit "b c")) = lit "b c".
Proof. reflexivity. Qed.
