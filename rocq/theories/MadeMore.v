(** Constructors and setters, and the texts of what they make (C59). *)
From Coq Require Import String List NArith ZArith Bool Lia.
From Verif Require Import Str Num Nom Dec Parsers KeyValue KvFields General Editor Metadata Difficulty Colours TimingPoints HitObjects Storyboard NormalEvents Events Osb OsuFile
  Api Helpers Defaults Values Equal Spec SpecWf SpecText SpecKv SpecSections SpecFile SpecTypes SpecCmd SpecEvents SpecOld SpecWhole SpecBack SpecGate SpecMade SpecWrite
  StrFacts NumFacts NomFacts DecFacts LineFacts ColoursFacts FieldFacts TpFacts HoFacts HoImage HoObj LayoutFacts WholeFacts OldFacts BackFacts
  EvImage EvLoop Write TypeFacts ValueFacts MadeFacts.
Import ListNotations.
Local Open Scope N_scope.

(** ** hit objects *)
Lemma circle_back v : (4 < v)%Z ->
  hit_objects_to_string [hitcircle_default] v = ROk (Some (lit "256,192,0,1,0"))
  /\ hit_objects_from_str (lit "256,192,0,1,0") v = ROk (Some [hitcircle_default]).
Proof. intros H. exact (hit_objects_text_round_trip v [hitcircle_default] H eq_refl). Qed.
Lemma spinner_back v : (4 < v)%Z ->
  hit_objects_to_string [spinner_default] v = ROk (Some (lit "256,192,0,8,0,0"))
  /\ hit_objects_from_str (lit "256,192,0,8,0,0") v = ROk (Some [spinner_default]).
Proof. intros H. exact (hit_objects_text_round_trip v [spinner_default] H eq_refl). Qed.
Lemma hold_back v : (4 < v)%Z ->
  hit_objects_to_string [osu_mania_hold_default] v = ROk (Some (lit "0,192,0,128,0,0:"))
  /\ hit_objects_from_str (lit "0,192,0,128,0,0:") v
     = ROk (Some [with_sample osu_mania_hold_default (Some (mk_hit_sample SsNone SsNone HiTimingPoint None []))]).
Proof.
  intros H. assert (P : hit_objects_to_string [osu_mania_hold_default] v = ROk (Some (lit "0,192,0,128,0,0:"))).
  { unfold hit_objects_to_string. cbn [map run_list]. now rewrite (bare_hold_print v osu_mania_hold_default decimal_default H eq_refl eq_refl). }
  split; [exact P|]. revert P. generalize (lit "0,192,0,128,0,0:"). intros w P.
  destruct (made_section v [osu_mania_hold_default] ltac:(lia)) as (t & H1 & H2).
  - cbn [map forallb]. rewrite andb_true_r. unfold ho_can. replace ((v =? 3) || (v =? 4))%Z with false by lia. rewrite ho_back_new by now apply new_not_old.
    unfold sample_back. cbn [filled osu_mania_hold_default ho_obj_params ho_hitsample option_map]. now destruct (v <=? 9)%Z, (v <=? 11)%Z.
  - reflexivity.
  - rewrite P in H1. injection H1 as <-. rewrite H2. cbn [map]. rewrite ho_back_new by now apply new_not_old. unfold sample_back. cbn [filled osu_mania_hold_default ho_obj_params ho_hitsample option_map].
    now destruct (v <=? 9)%Z, (v <=? 11)%Z.
Qed.
Lemma new_slider_kept pos time ct pts n len sounds sets nc sk snd hs :
  let o := mk_ho pos time (Slider (slide_params_new ct pts n len sounds sets)) nc sk snd hs in
  filled o = o <-> sounds = [] /\ sets = [] /\ hs = None.
Proof.
  cbv zeta. unfold filled, slide_params_new, sounds_out, sets_out. cbn [ho_obj_params ho_hitsample ho_position ho_time ho_new_combo ho_combo_skip_count ho_hitsound
    sl_curve_type sl_curve_points sl_slides sl_length sl_edge_sounds sl_edge_sounds_short_hand sl_edge_sets sl_edge_sets_shorthand].
  destruct sounds, sets, hs; cbn; (split; [intros H; repeat split; congruence|intros (H1 & H2 & H3); try easy; reflexivity]).
Qed.

(** ** timing points *)
Lemma i32_wf z : in_i32 z = true -> wf_dec_field (decimal_of_Z z) = true.
Proof.
  unfold in_i32, i32_min, i32_max. intros H. apply andb_true_iff in H as [H1 H2]. apply Z.leb_le in H1, H2.
  unfold wf_dec_field, decimal_of_Z, wf_decimal, dec_field, wf_rdec, rdec_of_Z, from_parts. cbn [d_mant d_scale d_neg].
  rewrite !andb_true_iff. repeat split; try easy.
  - apply N.ltb_lt. assert (two96 = 79228162514264337593543950336) by reflexivity. lia.
  - destruct (N.eqb_spec (Z.to_N (Z.abs z)) 0); [easy|]. now destruct (z <? 0)%Z.
Qed.
Lemma made_point v time b meter set index vol u e :
  (4 < v)%Z -> in_i32 time = true -> wf_dec_field b = true -> in_i32 meter = true -> tp_sample_set_ok set = true ->
  sample_index_ok index = true -> index_small index = true -> in_i32 vol = true -> in_u32 e = true ->
  let t := mk_tp (decimal_of_Z time) b meter set index vol (Some u) (Some e) in
  let s := row_of (print_Z time) (print_decimal b) meter set index vol (bool_text u) e in
  timing_points_to_string [t] v = ROk (Some s) /\ timing_points_from_str s v = ROk (Some [t]).
Proof.
  intros Hv H1 H2 H3 H4 H5 H6 H7 H8 t s. pose proof (timing_points_text_round_trip v [t] Hv) as R.
  assert (E : text_of_lines (map tp_text [t]) = s).
  { subst s t. cbn [map text_of_lines]. unfold row_of, tp_text. cbn [tp_time tp_beat_length tp_meter tp_sample_set_f tp_sample_index tp_volume tp_uninherited tp_effects app].
    destruct (from_i32_print time H1) as [P _]. unfold decimal_from_i32 in P. now rewrite P. }
  rewrite E in R. apply R.
  - cbn [forallb]. unfold tp_ok, tp_tail_ok. subst t. cbn [tp_time tp_beat_length tp_meter tp_sample_set_f tp_sample_index tp_volume tp_uninherited tp_effects].
    now rewrite (i32_wf _ H1), H2, H3, H4, H5, H7, H8.
  - cbn [forallb]. subst t. cbn [tp_sample_index]. now rewrite H6.
Qed.
Lemma made_uninherited v time b meter set index vol e :
  (4 < v)%Z -> in_i32 time = true -> wf_dec_field b = true -> in_i32 meter = true -> tp_sample_set_ok set = true ->
  sample_index_ok index = true -> index_small index = true -> in_i32 vol = true -> in_u32 e = true ->
  let t := tp_new_uninherited time b meter set index vol e in
  let s := row_of (print_Z time) (print_decimal b) meter set index vol (lit "1") e in
  tp_is_uninherited t = true
  /\ timing_points_to_string [t] v = ROk (Some s) /\ timing_points_from_str s v = ROk (Some [t]).
Proof. intros. split; [reflexivity|]. now apply (made_point v time b meter set index vol true e). Qed.
Lemma made_inherited div mul v time vel meter set index vol e t :
  tp_new_inherited div mul time vel meter set index vol e = ROk t ->
  (4 < v)%Z -> in_i32 time = true -> wf_decimal (tp_beat_length t) = true -> in_i32 meter = true -> tp_sample_set_ok set = true ->
  sample_index_ok index = true -> index_small index = true -> in_i32 vol = true -> in_u32 e = true ->
  let s := row_of (print_Z time) (print_decimal (tp_beat_length t)) meter set index vol (lit "0") e in
  tp_is_uninherited t = false
  /\ timing_points_to_string [t] v = ROk (Some s) /\ timing_points_from_str s v = ROk (Some [t]).
Proof.
  unfold tp_new_inherited. destruct (div d_one vel) as [x| |]; cbn [rbind]; try easy. destruct (mul x _) as [b| |]; cbn [rbind]; try easy.
  intros [= <-]. cbn [tp_beat_length]. intros. split; [reflexivity|]. apply (made_point v time (DNum b) meter set index vol false e); try easy. unfold wf_dec_field. cbn [dec_field]. now rewrite andb_true_r.
Qed.
Lemma setters t :
  (forall z, let x := tp_set_time t z in tp_time x = decimal_of_Z z /\ tp_beat_length x = tp_beat_length t /\ tp_meter x = tp_meter t
     /\ tp_sample_set_f x = tp_sample_set_f t /\ tp_sample_index x = tp_sample_index t /\ tp_volume x = tp_volume t
     /\ tp_uninherited x = tp_uninherited t /\ tp_effects x = tp_effects t)
  /\ (forall z, let x := tp_set_meter t z in tp_time x = tp_time t /\ tp_beat_length x = tp_beat_length t /\ tp_meter x = z
     /\ tp_sample_set_f x = tp_sample_set_f t /\ tp_sample_index x = tp_sample_index t /\ tp_volume x = tp_volume t
     /\ tp_uninherited x = tp_uninherited t /\ tp_effects x = tp_effects t)
  /\ (forall z, let x := tp_set_sample_set t z in tp_time x = tp_time t /\ tp_beat_length x = tp_beat_length t /\ tp_meter x = tp_meter t
     /\ tp_sample_set_f x = z /\ tp_sample_index x = tp_sample_index t /\ tp_volume x = tp_volume t
     /\ tp_uninherited x = tp_uninherited t /\ tp_effects x = tp_effects t)
  /\ (forall z, let x := tp_set_volume t z in tp_time x = tp_time t /\ tp_beat_length x = tp_beat_length t /\ tp_meter x = tp_meter t
     /\ tp_sample_set_f x = tp_sample_set_f t /\ tp_sample_index x = tp_sample_index t /\ tp_volume x = z
     /\ tp_uninherited x = tp_uninherited t /\ tp_effects x = tp_effects t)
  /\ (forall b, let x := tp_set_uninherited t b in tp_time x = tp_time t /\ tp_beat_length x = tp_beat_length t /\ tp_meter x = tp_meter t
     /\ tp_sample_set_f x = tp_sample_set_f t /\ tp_sample_index x = tp_sample_index t /\ tp_volume x = tp_volume t
     /\ tp_is_uninherited x = b /\ tp_effects x = tp_effects t)
  /\ (forall z, let x := tp_put_sample_index t z in tp_time x = tp_time t /\ tp_beat_length x = tp_beat_length t /\ tp_meter x = tp_meter t
     /\ tp_sample_set_f x = tp_sample_set_f t /\ tp_sample_index x = z /\ tp_volume x = tp_volume t
     /\ tp_uninherited x = tp_uninherited t /\ tp_effects x = tp_effects t)
  /\ (forall z, let x := tp_put_effects t z in tp_time x = tp_time t /\ tp_beat_length x = tp_beat_length t /\ tp_meter x = tp_meter t
     /\ tp_sample_set_f x = tp_sample_set_f t /\ tp_sample_index x = tp_sample_index t /\ tp_volume x = tp_volume t
     /\ tp_uninherited x = tp_uninherited t /\ tp_effects x = z).
Proof. destruct t. repeat split. Qed.
(** Which setters keep a timing point writable. *)
Lemma put_ok v t : (5 < v)%Z -> tp_ok v t = true ->
  (forall z, in_i32 z = true -> tp_ok v (tp_set_time t z) = true) /\ (forall z, in_i32 z = true -> tp_ok v (tp_set_meter t z) = true)
  /\ (forall x, tp_sample_set_ok x = true -> tp_ok v (tp_set_sample_set t x) = true) /\ (forall z, in_i32 z = true -> tp_ok v (tp_set_volume t z) = true)
  /\ (forall x, sample_index_ok x = true -> tp_ok v (tp_put_sample_index t x) = true)
  /\ (forall b, tp_ok v (tp_set_uninherited t b) = true <-> tp_effects t <> None)
  /\ (forall e, in_u32 e = true -> (tp_ok v (tp_put_effects t (Some e)) = true <-> tp_uninherited t <> None))
  /\ (tp_ok v (tp_put_effects t None) = true <-> tp_uninherited t = None).
Proof.
  intros Hv. destruct t as [ti be me se ix vo un ef]. unfold tp_ok, tp_tail_ok, tp_set_time, tp_set_meter, tp_set_sample_set, tp_set_volume, tp_put_sample_index, tp_set_uninherited, tp_put_effects.
  cbn [tp_time tp_beat_length tp_meter tp_sample_set_f tp_sample_index tp_volume tp_uninherited tp_effects]. replace (v <=? 5)%Z with false by lia.
  rewrite !andb_true_iff. intros [[[[[[H1 H2] H3] H4] H5] H6] H7]. rewrite H1, H2, H3, H4, H5, H6. cbn [andb].
  split; [intros z Hz; now rewrite (i32_wf _ Hz), H7|]. split; [intros z Hz; now rewrite Hz, H7|]. split; [intros z Hz; now rewrite Hz, H7|].
  split; [intros z Hz; now rewrite Hz, H7|]. split; [intros z Hz; now rewrite Hz, H7|]. split; [|split].
  - intros b. destruct un, ef; (split; intros H; try easy; try congruence).
  - intros e He. rewrite He. destruct un; (split; intros H; try easy; congruence).
  - destruct un; (split; intros H; try easy; congruence).
Qed.

(** ** events *)
Lemma made_events dbg v e fs : (4 < v)%Z -> event_ok v e = true -> own_fields v e = Some fs -> commands_of e = [] ->
  events_to_string dbg [e] v = ROk (Some (commas fs)) /\ events_from_str dbg (commas fs) v = ROk (Some [e]).
Proof.
  intros Hv Hok Hf Hc. destruct (events_round_trip dbg v [e]) as (t & T1 & T2); [cbn; now rewrite Hok|].
  pose proof (events_layout dbg [] [e] v) as L. unfold events_to_string in T1. rewrite T1 in L. cbn [all_some] in L.
  assert (B : back_event dbg v e = Some e).
  { assert (M : moves v = false) by (unfold moves; lia). unfold back_event, back_clock. rewrite M. destruct e as [| |x|x|x| | | | |]; try reflexivity; destruct x; reflexivity. }
  rewrite B in L. cbn [opt_map2 option_map map concat prints] in L. unfold event_out in L. rewrite Hf, Hc in L. cbn [preorders map app concat text_of_lines] in L.
  injection L as ->. split; [exact T1|exact T2].
Qed.
Lemma time_new v z : (4 < v)%Z -> in_i32 z = true -> time_ok v z = true.
Proof. intros Hv H. unfold time_ok, shown_time. rewrite H. replace ((v =? 3)%Z || (v =? 4)%Z) with false by lia. easy. Qed.
Lemma made_break dbg v a b : (4 < v)%Z -> in_i32 a = true -> in_i32 b = true ->
  let s := commas [lit "2"; print_Z a; print_Z b] in
  events_to_string dbg [EBreak (break_new a b)] v = ROk (Some s) /\ events_from_str dbg s v = ROk (Some [EBreak (break_new a b)]).
Proof. intros Hv Ha Hb. apply made_events; try easy. unfold event_ok, own_ok. cbn [br_start br_end break_new]. now rewrite !time_new. Qed.
Lemma made_video dbg v a f p : (4 < v)%Z -> in_i32 a = true -> path_end_ok f (is_absent p) = true -> opt_position_ok p = true ->
  let s := commas ([lit "1"; print_Z a; f] ++ match p with Some q => [print_decimal (pos_x q); print_decimal (pos_y q)] | None => [] end) in
  events_to_string dbg [EVideo (video_new a f p)] v = ROk (Some s) /\ events_from_str dbg s v = ROk (Some [EVideo (video_new a f p)]).
Proof.
  intros Hv Ha Hf Hp. apply made_events; try easy.
  - unfold event_ok, own_ok. cbn [vi_start vi_file vi_pos video_new]. now rewrite time_new, Hf, Hp.
  - cbn [own_fields vi_start vi_file vi_pos vi_short video_new]. rewrite <- path_layout, <- quoted_print.
    assert (Q : quoted f = f); [|now rewrite Q].
    unfold path_end_ok, path_ok in Hf. rewrite !andb_true_iff in Hf. destruct Hf as [[_ Hf] _]. unfold quoted. destruct (contains_char 32 f); [|easy]. cbn [negb orb andb] in *. now rewrite Hf.
Qed.
Lemma made_origin o : origin_to_string (origin_from o) = print_Z (origin_no o) /\ origin_from_str (print_Z (origin_no o)) = ROk (Some (origin_from o)).
Proof. destruct o; split; reflexivity. Qed.

(** ** empty files, sections and the smaller defaults *)
Lemma new_file dbg v : (3 <= v <= 14)%Z -> osu_to_string dbg (osu_new v) = ROk (lit "osu file format v" ++ print_Z v ++ [10; 10])
  /\ osu_from_str dbg (lit "osu file format v" ++ print_Z v ++ [10; 10]) = ROk (osu_new v) /\ osu_default v = osu_new v.
Proof.
  intros H. assert (C : file_can (osu_new v) = true) by (unfold file_can; cbn [osu_new osu_version osu_general osu_editor osu_metadata osu_difficulty osu_events osu_timing_points osu_colours osu_hitobjects opt_all]; lia).
  destruct (whole_any dbg _ C) as (t & secs & H1 & _ & _ & H2).
  assert (E : osu_to_string dbg (osu_new v) = ROk (lit "osu file format v" ++ print_Z v ++ [10; 10])) by reflexivity.
  revert E. generalize (lit "osu file format v" ++ print_Z v ++ [10; 10]). intros w E. rewrite E in H1. injection H1 as <-. split; [exact E|]. split; [|easy]. rewrite H2. unfold file_back, osu_new. cbn. now destruct (v <=? 4)%Z.
Qed.
Lemma empty_lists dbg v :
  (exists l, events_default v = Some l /\ events_to_string dbg l v = ROk (Some []) /\ events_from_str dbg [] v = ROk (Some l))
  /\ (exists l, timing_points_default v = Some l /\ timing_points_to_string l v = ROk (Some []) /\ timing_points_from_str [] v = ROk (Some l))
  /\ (exists l, hit_objects_default v = Some l /\ hit_objects_to_string l v = ROk (Some []) /\ hit_objects_from_str [] v = ROk (Some l)).
Proof. repeat split; exists []; repeat split. Qed.
Lemma small_defaults : 
  default_text all_versions (fun x _ => Some (loop_type_to_string x)) loop_type_default "LoopForever"
  /\ default_text all_versions (fun x _ => Some (sample_index_to_string x)) tp_index_default "0"
  /\ default_text all_versions (fun x _ => Some (sample_set_to_string x)) sample_set_default "0"
  /\ default_text all_versions (fun x _ => Some (ho_index_to_string x)) ho_index_default "0"
  /\ print_decimal decimal_default = lit "0" /\ hit_sound_to_string hit_sound_default = lit "0"
  /\ print_decimal (pos_x position_default) = lit "256" /\ print_decimal (pos_y position_default) = lit "192".
Proof. repeat split; intros v; cbn; eexists; split; reflexivity. Qed.
Lemma small_defaults_read :
  loop_type_from_str (lit "LoopForever") = ROk (loop_type_default 14%Z) /\ sample_index_from_str (lit "0") = ROk (tp_index_default 14%Z)
  /\ ho_index_from_str (lit "0") = ROk (ho_index_default 14%Z) /\ hit_sound_from_str (lit "0") = ROk (Some hit_sound_default)
  /\ decimal_from (lit "0") = decimal_default.
Proof. repeat split. Qed.

(** ** conversions *)
Lemma hit_sound_number z v : (0 <= z <= 255)%Z -> exists h, hit_sound_from z v = Some h
  /\ hit_sound_whistle h = Z.odd (z / 2) /\ hit_sound_finish h = Z.odd (z / 4) /\ hit_sound_clap h = Z.odd (z / 8)
  /\ hit_sound_normal h = (Z.odd z || (z mod 16 =? 0)%Z) /\ hit_sound_to_string h = print_Z (z mod 16).
Proof.
  intros H. exists (hit_sound_of_u8 z). split; [reflexivity|]. assert (K : sound_check z = true) by (apply all_u8; [vm_compute; reflexivity|lia]).
  unfold sound_check in K. rewrite !andb_true_iff, !eqb_true_iff, str_eqb_eq in K. tauto.
Qed.
Lemma volume_number_back v : (forall x, sample_volume x -> exists z, integer_from_ho_volume x v = Some z /\ (0 <= z <= 100)%Z /\ (z = 0%Z <-> x = None))
  /\ (forall x z, sample_volume x -> integer_from_ho_volume x v = Some z -> z <> 0%Z -> forall y, ho_volume_set y z = (x, ROk tt)).
Proof.
  split.
  - intros x Hx. exists (ho_volume_to_Z x). split; [reflexivity|]. destruct (sample_volume_bounds x Hx) as [->|(z & -> & Hz)]; cbn; [easy|]. split; [lia|]. split; [lia|easy].
  - intros x z Hx [= <-] Hn y. destruct (sample_volume_bounds x Hx) as [->|(z & -> & Hz)]; [now cbn in Hn|]. cbn [ho_volume_to_Z]. unfold ho_volume_set.
    replace (z =? 0)%Z with false by lia. now replace (100 <? z)%Z with false by lia.
Qed.
Lemma decimal_made r s : print_decimal (decimal_new r) = print_rdec r /\ (wf_rdec r = true -> decimal_from (print_rdec r) = decimal_new r)
  /\ decimal_from_str s = ROk (decimal_from s).
Proof. split; [reflexivity|]. split; [|reflexivity]. intros H. exact (decimal_print_parse (DNum r) H). Qed.
Lemma path_put p q : file_path_get (file_path_set p q) = q.
Proof. reflexivity. Qed.
