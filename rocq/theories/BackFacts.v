(** Proofs about writing and reading files of any version (C33). *)
From Coq Require Import String List NArith ZArith Bool Lia.
From Verif Require Import Str Num Nom Dec Parsers KeyValue KvFields General Editor Metadata Difficulty Colours
  TimingPoints HitObjects Storyboard NormalEvents Events Osb OsuFile Spec SpecWf SpecText SpecKv SpecSections
  SpecFile SpecTypes SpecCmd SpecEvents SpecOld SpecWhole SpecBack StrFacts NumFacts NomFacts DecFacts LineFacts ColoursFacts
  FieldFacts TpFacts HoFacts HoRound HoObj HoImage LayoutFacts KvTheorems KvImage KvLines FileFacts FileLoop FileTheorems EvImage OldFacts
  WholeFacts WholeRead.
Import ListNotations.
Local Open Scope N_scope.

(** ** times *)
Lemma is_old v : ((v =? 3) || (v =? 4))%Z = old_version v.
Proof. unfold old_version. destruct (Z.eqb_spec v 3), (Z.eqb_spec v 4), (Z.leb_spec 3 v), (Z.leb_spec v 4); try reflexivity; lia. Qed.
Lemma time_back_new v d : old_version v = false -> time_back v d = d.
Proof. intros H. unfold time_back. rewrite is_old, H. now destruct d. Qed.
Lemma time_back_old v d d' : old_version v = true -> wf_decimal d = true -> room d = true -> shift_out v d = ROk d' ->
  shift_in v d' = ROk (time_back v d).
Proof.
  intros Ho Hw Hr H. destruct (shift_cancel_out v d d' Ho Hw Hr H) as (d2 & H2 & Hs & Hp). rewrite H2. f_equal.
  unfold time_back. rewrite is_old, Ho. destruct d as [r|s]; [|now apply Hp]. destruct d2 as [r2|]; [|easy].
  unfold shift_in, shift_out in *. rewrite Ho in *. unfold room in Hr. apply N.ltb_lt in Hr.
  unfold rdec_sub in H. rewrite neg24 in H. rewrite (@add_int Empty_set r (-24) ltac:(lia) ltac:(lia) Hr) in H. remember (numerator r + -24 * denominator r)%Z as z eqn:Ez. cbn [rmap] in H. injection H as <-.
  destruct (Z.eqb_spec (numerator r) 0) as [E|E].
  - assert (M : d_mant r = 0) by (pose proof (numerator_abs r); lia). rewrite M in H2. cbn [N.eqb] in H2. vm_compute in H2. now injection H2 as <-.
  - assert (M : (d_mant r =? 0) = false) by (apply N.eqb_neq; intros M; apply E; unfold numerator; rewrite M; now destruct (d_neg r)).
    rewrite M in H2. destruct (Z.eqb_spec (numerator r) (24 * denominator r)) as [F|F].
    + assert (Z0 : z = 0%Z) by lia. rewrite Z0 in H2. unfold rdec_add, is_zero, from_parts in H2. cbn [d_mant Z.abs Z.to_N N.eqb rmap] in H2. vm_compute in H2. now injection H2 as <-.
    + apply Hp. unfold plain_for. destruct (Z.eqb_spec (numerator r) 0); [easy|]. rewrite <- Ez. now destruct (Z.eqb_spec z 0); [lia|].
Qed.

(** ** sections of lines *)
Definition row {A B E} (key : A -> decimal) (print : A -> run str) (read : str -> res B E) (back : A -> B) (x : A) : Prop :=
  exists a d r, print x = ROk a /\ good_line a = true /\ a = print_decimal d ++ 44 :: r
    /\ (visible_start (key x) = true -> visible_start d = true) /\ (no_bracket (key x) = true -> no_bracket d = true)
    /\ read a = ROk (back x).
Lemma rows {A B E} (key : A -> decimal) (print : A -> run str) (read : str -> res B E) (back : A -> B) l :
  (forall x, In x l -> row key print read back x) -> starts_ok (map key l) = true ->
  exists ls, run_list (map print l) = ROk ls /\ forallb good_line ls = true
    /\ match ls with (c :: _) :: _ => negb (layout_char c) | _ => false end = true
    /\ forallb (fun s => negb (starts_with_char 91 s)) ls = true
    /\ parse_lines read 0 ls = ROk (map back l).
Proof.
  intros H Hs.
  assert (Q : forallb no_bracket (map key l) = true -> exists ls, run_list (map print l) = ROk ls /\ forallb good_line ls = true
    /\ forallb (fun s => negb (starts_with_char 91 s)) ls = true /\ Forall2 (fun a b => read a = ROk b) ls (map back l)).
  { clear Hs. induction l as [|x l IH]; [exists []; repeat split; constructor|]. cbn [map forallb]. rewrite andb_true_iff. intros [Hb Hl].
    destruct (H x (or_introl eq_refl)) as (a & d & r & H1 & H2 & -> & _ & H4 & H5).
    destruct IH as (ls & I1 & I2 & I3 & I4); [intros; apply H; now right|easy|]. exists ((print_decimal d ++ 44 :: r) :: ls). cbn [run_list forallb].
    rewrite H1, I1, H2, I2, I3, dec_bracket by auto. repeat split; auto. }
  destruct l as [|x l]; [easy|]. cbn [map starts_ok] in Hs. apply andb_true_iff in Hs as [Hs1 Hs2]. destruct (Q Hs2) as (ls & Q1 & Q2 & Q3 & Q4).
  exists ls. split; [easy|]. split; [easy|]. split; [|split; [easy|]].
  - destruct (H x (or_introl eq_refl)) as (a & d & r & H1 & H2 & -> & H3 & _). cbn [map run_list] in Q1. rewrite H1 in Q1. cbn [rbind] in Q1.
    apply rmap_ok in Q1 as (ls' & _ & ->). pose proof (dec_start d r (H3 Hs1)) as D. now destruct (print_decimal d ++ 44 :: r).
  - apply parse_lines_ok. replace (filter (fun s => negb (is_blank s)) ls) with ls; [easy|]. clear -Q2. induction ls as [|a ls IH]; [easy|].
    cbn [forallb filter] in *. apply andb_true_iff in Q2 as [Ha Q2]. unfold good_line in Ha. apply andb_true_iff in Ha as [_ Ha]. rewrite Ha. now rewrite <- IH.
Qed.

(** ** timing points *)
Lemma shift_out_start v d d' : shift_out v d = ROk d' -> (visible_start d = true -> visible_start d' = true) /\ (no_bracket d = true -> no_bracket d' = true).
Proof.
  unfold shift_out. destruct (old_version v); [|intros [= <-]; auto]. destruct d as [r|s]; [|intros [= <-]; auto].
  destruct (rdec_sub _ _); cbn [rmap]; try easy. intros [= <-]. auto.
Qed.
Lemma dec_line_no_nl d : dec_line d = true -> no_nl (print_decimal d) = true.
Proof. unfold dec_line. rewrite andb_true_iff. intros [_ H]. now apply dec_no_nl_print. Qed.
Lemma tp_row v t : (3 <= v)%Z -> tp_can v t = true ->
  row tp_time (tp_to_string v) (tp_from_str v) (fun t => Some (tp_back v t)) t.
Proof.
  intros Hv H. unfold tp_can, tp_back in *. destruct (Z.eqb_spec v 3) as [->|N3].
  - rewrite !andb_true_iff in H. destruct H as [[[Hw Hr] Hb] Hc]. assert (Ho : old_version 3%Z = true) by easy.
    assert (Hw' : wf_decimal (tp_time t) = true) by (unfold wf_dec_field in Hw; now apply andb_true_iff in Hw).
    destruct (shift_out_room 3%Z _ Ho Hr) as (d & Hd & _). pose proof (time_back_old _ _ _ Ho Hw' Hr Hd) as Hin.
    pose proof (shift_out_wf 3%Z _ d Ho Hw Hr Hd) as Hdw. destruct (shift_out_start _ _ _ Hd) as [S1 S2].
    exists (print_decimal d ++ 44 :: print_decimal (tp_beat_length t)), d. eexists. split.
    { rewrite (tp_print_old 3%Z t d Ho Hd). f_equal. unfold old_tail. cbn [Z.eqb Pos.eqb app lit]. now rewrite app_nil_r. }
    split; [|split; [reflexivity|split; [easy|split; [easy|]]]].
    + unfold good_line. change (print_decimal d ++ 44 :: print_decimal (tp_beat_length t)) with (print_decimal d ++ lit "," ++ print_decimal (tp_beat_length t)).
      rewrite not_blank_comma, andb_true_r, app_assoc. apply plain_app; [now rewrite no_nl_app, wf_dec_field_no_nl|now apply dec_line_no_nl|exact Hc|intros _; apply no_cr_comma].
    + unfold tp_from_str. change (print_decimal d ++ 44 :: print_decimal (tp_beat_length t)) with (print_decimal d ++ lit "," ++ print_decimal (tp_beat_length t)).
      enough (K : tp_parser 3%Z (print_decimal d ++ lit "," ++ print_decimal (tp_beat_length t))
        = POk [] (mk_tp (time_back 3%Z (tp_time t)) (tp_beat_length t) 4 TsNormal (SiIndex 1) 100 None None)) by now rewrite K.
      unfold tp_parser. eapply pbind_step.
      { eapply map_run_ok; [apply context_ok; now apply dfield_mid|exact Hin]. }
      eapply preceded_step; [apply context_ok, comma_ok|]. apply alt_l.
      apply (pmap_step (fun bl => mk_tp (time_back 3%Z (tp_time t)) bl 4 TsNormal (sample_index_of_u32 1) 100 None None)). rewrite upto_yes by lia.
      unfold consume_rest_type. eapply map_res_ok; [reflexivity|]. unfold dec_line in Hb. apply andb_true_iff in Hb as [Hb _]. unfold parse_decimal. now rewrite decimal_print_parse.
  - destruct (Z.eqb_spec v 4) as [->|N4].
    + assert (Hok : old_tp_ok 4%Z t = true) by (unfold old_tp_ok; now rewrite H).
      rewrite !andb_true_iff in H. destruct H as [[[[[[Hw Hr] Hb] Hm] Hss] Hi] Hi']. assert (Ho : old_version 4%Z = true) by easy.
      assert (Hw' : wf_decimal (tp_time t) = true) by (unfold wf_dec_field in Hw; now apply andb_true_iff in Hw).
      destruct (shift_out_room 4%Z _ Ho Hr) as (d & Hd & _). pose proof (time_back_old _ _ _ Ho Hw' Hr Hd) as Hin.
      pose proof (shift_out_wf 4%Z _ d Ho Hw Hr Hd) as Hdw. destruct (shift_out_start _ _ _ Hd) as [S1 S2].
      exists (print_decimal d ++ lit "," ++ old_tail 4%Z t), d. eexists. split; [now apply tp_print_old|].
      split; [|split; [reflexivity|split; [easy|split; [easy|]]]].
      * unfold good_line. rewrite not_blank_comma, andb_true_r. unfold old_tail. cbn [Z.eqb Pos.eqb]. rewrite !app_assoc. unfold sample_index_to_string. apply plain_print_Z.
        rewrite !no_nl_app, !wf_dec_field_no_nl by easy. unfold tp_sample_set_to_string. now rewrite !print_Z_no_nl.
      * unfold tp_from_str. now rewrite (tp_parse_old 4%Z t d _ Ho Hok Hdw Hin).
    + apply andb_true_iff in H as [H Hi]. assert (Hv4 : (4 < v)%Z) by lia.
      exists (print_decimal (tp_time t) ++ lit "," ++ tp_head_text t), (tp_time t). eexists. split; [now apply tp_print_new|].
      split; [now apply (tp_good v t)|]. split; [reflexivity|]. split; [easy|]. split; [easy|]. unfold tp_from_str. now rewrite tp_parse_print.
Qed.
Lemma timing_any v l : (3 <= v)%Z -> forallb (tp_can v) l = true -> starts_ok (map tp_time l) = true ->
  exists ls, timing_points_to_string l v = ROk (Some (text_of_lines ls)) /\ part (fun t => timing_points_from_str t v) ls (map (tp_back v) l).
Proof.
  intros Hv H Hs. rewrite forallb_forall in H. destruct (rows tp_time _ _ _ l (fun t Ht => tp_row v t Hv (H t Ht)) Hs) as (ls & H1 & H2 & H3 & H4 & H5).
  exists ls. unfold timing_points_to_string. rewrite H1, text_of_lines_join. split; [easy|]. apply good_part; auto.
  - intros s s' E. unfold timing_points_from_str. now rewrite E.
  - rewrite text_of_lines_join, timing_points_from_str_eq, good_lines_join, H5 by easy. now rewrite <- (map_map (tp_back v) Some), flatten_some.
Qed.

(** ** hit objects *)
Definition with_sample (o : hit_object) (hs : option hit_sample) : hit_object :=
  mk_ho (ho_position o) (ho_time o) (ho_obj_params o) (ho_new_combo o) (ho_combo_skip_count o) (ho_hitsound o) hs.
Definition ho_head (o : hit_object) : str :=
  print_decimal (pos_x (ho_position o)) ++ lit "," ++ print_decimal (pos_y (ho_position o)) ++ lit ","
  ++ print_decimal (ho_time o) ++ lit "," ++ ho_type_to_string o ++ lit "," ++ hit_sound_to_string (ho_hitsound o).
Lemma common_head v o t : (4 < v)%Z -> ho_read o = true -> stop_comma t = true ->
  ho_common v (ho_head o ++ t) = POk t (ho_position o, ho_time o, ho_type_flags o, ho_hitsound o).
Proof.
  intros Hv Hr Hst. unfold ho_read in Hr. rewrite !andb_true_iff in Hr. destruct Hr as [[[[[[Hx Hy] Ht] Hs1] Hs2] Hp] Hh].
  destruct (type_flags_ok o ltac:(lia)) as (Hty & _). unfold ho_common, ho_head. repeat rewrite <- app_assoc. eapply pbind_step; [apply context_ok; now apply dfield_mid|].
  eapply pbind_step; [eapply preceded_step; [apply context_ok, comma_ok|]; apply context_ok; now apply dfield_mid|].
  eapply pbind_step.
  { eapply map_run_ok; [eapply preceded_step; [apply context_ok, comma_ok|]; apply context_ok; now apply dfield_mid|].
    unfold shift_in. now rewrite (new_not_old v Hv). }
  eapply pbind_step.
  { eapply preceded_step; [apply context_ok, comma_ok|]. apply context_ok. unfold ho_type_to_string.
    apply field_mid; [apply print_Z_no_comma|]. apply parse_print_i32. unfold in_i32, i32_min, i32_max. lia. }
  unfold pmap. erewrite preceded_ok by apply context_ok, comma_ok. erewrite context_ok.
  2:{ apply vfield_stop; [|apply hit_sound_print|easy]. destruct (hit_sound_num (ho_hitsound o)) as [z ->]. apply print_Z_no_comma. }
  now destruct (ho_position o).
Qed.
Definition no_sample : hit_sample := mk_hit_sample SsNone SsNone HiTimingPoint None [].
(** a circle with a comma behind it, and a hold with nothing behind the colon *)
Lemma circle_comma_read v o : (4 < v)%Z -> ho_read o = true -> ho_obj_params o = HitCircle ->
  ho_from_str v (ho_head o ++ lit ",") = ROk (Some (with_sample o (Some no_sample))).
Proof.
  intros Hv Hr Hp. unfold ho_from_str. rewrite common_head by easy. unfold ho_read in Hr. rewrite !andb_true_iff in Hr. destruct Hr as [[[[_ Hs1] Hs2] _] _].
  destruct (type_flags_ok o ltac:(lia)) as (Hty & B2 & Bs & B0 & B1 & B3 & B7). rewrite skip_ok, B0, B2, Bs, Hp. unfold with_sample. now rewrite Hp.
Qed.
Lemma hold_bare_read v o t : (4 < v)%Z -> ho_read o = true -> ho_obj_params o = OsuManiaHold t ->
  ho_from_str v (ho_head o ++ lit "," ++ print_decimal t ++ lit ":") = ROk (Some (with_sample o (Some no_sample))).
Proof.
  intros Hv Hr Hp. unfold ho_from_str. rewrite common_head by easy. unfold ho_read in Hr. rewrite !andb_true_iff in Hr. destruct Hr as [[[[_ Hs1] Hs2] Hpa] _].
  destruct (type_flags_ok o ltac:(lia)) as (Hty & B2 & Bs & B0 & B1 & B3 & B7). rewrite skip_ok, B0, B1, B3, B7, B2, Bs, Hp. unfold with_sample. rewrite Hp.
  rewrite Hp in Hpa. cbn [params_ok] in Hpa. rewrite !andb_true_iff in Hpa. destruct Hpa as [[[Hw Hc] _] _].
  enough (K : ho_hold v (lit "," ++ print_decimal t ++ lit ":") = POk [] (t, Some no_sample)) by now rewrite K.
  unfold ho_hold. eapply pbind_step.
  - eapply preceded_step; [apply context_ok, comma_ok|]. eapply map_run_ok.
    + apply context_ok. eapply map_res_ok.
      * unfold take_until. pose proof (find_sub_colon (print_decimal t) [] (dec_no_colon_print _ Hc)) as F. rewrite app_nil_r in F. rewrite F. reflexivity.
      * unfold parse_decimal. now rewrite decimal_print_parse.
    + unfold shift_in. now rewrite (new_not_old v Hv).
  - reflexivity.
Qed.
Lemma head_good o : ho_read o = true -> no_nl (ho_head o) = true /\ no_cr_end (ho_head o) = true
  /\ exists r, forall t, ho_head o ++ t = print_decimal (pos_x (ho_position o)) ++ 44 :: r ++ t.
Proof.
  intros Hr. unfold ho_read in Hr. rewrite !andb_true_iff in Hr. destruct Hr as [[[[[[Hx Hy] Ht] Hs1] Hs2] Hp] Hh]. split; [|split].
  - unfold ho_head, ho_type_to_string. now rewrite !no_nl_app, !wf_dec_field_no_nl, print_Z_no_nl, hit_sound_no_nl by easy.
  - unfold ho_head. rewrite !app_assoc. destruct (hit_sound_num (ho_hitsound o)) as [z ->]. apply no_cr_print_Z.
  - unfold ho_head. eexists. intros t. rewrite <- app_assoc. change (lit "," ++ ?x) with (44 :: x). reflexivity.
Qed.
Lemma ho_line_head v o : ho_line v o = ho_head o ++ params_tail v o.
Proof. unfold ho_line, ho_head. now rewrite <- !app_assoc. Qed.
Definition ho_row_at (v : version) : hit_object -> Prop :=
  row (fun o => pos_x (ho_position o)) (ho_to_string v) (fun s => v_unwrap (ho_from_str v s)) (ho_back v).
Lemma ho_ok_row v o o' : (4 < v)%Z -> ho_ok v o' = true -> ho_to_string v o = ho_to_string v o' ->
  pos_x (ho_position o) = pos_x (ho_position o') -> ho_back v o = o' -> ho_row_at v o.
Proof.
  intros Hv H Hp Hx Hb. unfold ho_ok in H. rewrite !andb_true_iff in H. destruct H as [[H1 H2] H3].
  destruct (head_good o' H1) as (_ & _ & r & Hr). exists (ho_line v o'), (pos_x (ho_position o')), (r ++ params_tail v o').
  split; [rewrite Hp; apply ho_print; try easy; unfold ho_read in H1; rewrite !andb_true_iff in H1; easy|].
  split; [now apply ho_line_good|]. split; [rewrite ho_line_head; apply Hr|]. rewrite Hx. split; [easy|]. split; [easy|]. now rewrite ho_parse_line, Hb.
Qed.
Lemma ho_back_new v o : old_version v = false -> ho_back v o = with_sample o (sample_back v o).
Proof. intros H. unfold ho_back, with_sample. rewrite time_back_new by easy. f_equal. destruct (ho_obj_params o); cbn [params_back]; now rewrite ?time_back_new. Qed.
(** versions that write no sample *)
Lemma low_print v o : (5 <= v <= 9)%Z -> ho_read o = true ->
  match ho_obj_params o with
  | OsuManiaHold t => ho_to_string v o = ROk (ho_head o ++ lit "," ++ print_decimal t ++ lit ":")
  | _ => ho_to_string v o = ho_to_string v (with_sample o None)
  end.
Proof.
  intros Hv Hr. unfold ho_read in Hr. rewrite !andb_true_iff in Hr. destruct Hr as [[_ Hp] _].
  assert (S : match ho_hitsample o with Some h => match hit_sample_to_string h v with Some t => [t] | None => [] end | None => [] end = [])
    by (destruct (ho_hitsample o) as [h|]; [|easy]; now rewrite sample_old by lia).
  unfold ho_to_string, with_sample. cbn [ho_position ho_time ho_obj_params ho_new_combo ho_combo_skip_count ho_hitsound ho_hitsample]. rewrite S.
  unfold ho_type_to_string, ho_type_flags. cbn [ho_obj_params ho_new_combo ho_combo_skip_count].
  destruct (ho_obj_params o) as [|p|t|t] eqn:Ep.
  - easy.
  - cbn [params_ok] in Hp. unfold slide_ok, shorthand_ok in Hp. rewrite !andb_true_iff in Hp. destruct Hp as [_ Hsh].
    destruct (ho_hitsample o); [|easy]. destruct (sl_edge_sounds_short_hand p); [rewrite !andb_true_iff in Hsh; easy|].
    destruct (sl_edge_sets_shorthand p); [rewrite !andb_true_iff in Hsh; easy|]. cbn [negb]. now rewrite !orb_true_r.
  - easy.
  - unfold shift_out. replace (old_version v) with false by (symmetry; apply new_not_old; lia). cbn [rbind rmap app]. f_equal.
    rewrite !join_cons2. cbn [join]. unfold ho_head, ho_type_to_string, ho_type_flags. rewrite Ep. now rewrite <- ?app_assoc.
Qed.
Lemma ho_row_new v o : (4 < v)%Z -> ho_can v o = true -> ho_row_at v o.
Proof.
  intros Hv H. unfold ho_can in H. rewrite !andb_true_iff in H. destruct H as [[[Hr Hk] _] _]. pose proof (new_not_old v Hv) as Ho.
  pose proof (ho_back_new v o Ho) as Hb. rewrite Hb in Hk. unfold sample_back in *.
  destruct (Z.leb_spec v 9) as [L9|L9].
  - pose proof (low_print v o ltac:(lia) Hr) as P. destruct (ho_obj_params o) as [|p|t|t] eqn:Ep.
    + replace (v =? 3)%Z with false in * by lia. apply (ho_ok_row v o _ Hv) with (4 := Hb); try easy. unfold ho_ok. rewrite Hk. cbn [sample_in_version with_sample ho_hitsample]. rewrite !andb_true_r.
      unfold ho_read, with_sample in *. cbn. rewrite Ep in *. rewrite !andb_true_iff in *. cbn. tauto.
    + apply (ho_ok_row v o _ Hv) with (4 := Hb); try easy. unfold ho_ok. rewrite Hk. cbn [sample_in_version with_sample ho_hitsample]. rewrite !andb_true_r.
      unfold ho_read, with_sample in *. cbn [ho_position ho_time ho_obj_params ho_new_combo ho_combo_skip_count ho_hitsound ho_hitsample]. rewrite Ep in *. rewrite !andb_true_iff in *.
      cbn [params_ok] in *. unfold slide_ok in *. rewrite !andb_true_iff in *. destruct Hr as [[Hr [Hr2 Hsh]] _]. split; [|easy]. split; [easy|]. split; [easy|].
      unfold shorthand_ok in *. destruct (ho_hitsample o); [|easy]. destruct (sl_edge_sounds_short_hand p); [rewrite !andb_true_iff in Hsh; easy|]. now destruct (sl_edge_sets_shorthand p); [rewrite !andb_true_iff in Hsh|].
    + apply (ho_ok_row v o _ Hv) with (4 := Hb); try easy. unfold ho_ok. rewrite Hk. cbn [sample_in_version with_sample ho_hitsample]. rewrite !andb_true_r.
      unfold ho_read, with_sample in *. cbn [ho_position ho_time ho_obj_params ho_new_combo ho_combo_skip_count ho_hitsound ho_hitsample]. rewrite Ep in *. rewrite !andb_true_iff in *. cbn. tauto.
    + destruct (head_good o Hr) as (Hn & _ & r & Hh). exists (ho_head o ++ lit "," ++ print_decimal t ++ lit ":"). do 2 eexists. split; [easy|]. split; [|split; [apply Hh|]].
      * unfold good_line. rewrite Hh at 2. change (44 :: ?x) with (lit "," ++ x). rewrite not_blank_comma, andb_true_r. unfold ho_read in Hr. rewrite !andb_true_iff in Hr. destruct Hr as [[_ Hp] _].
        rewrite Ep in Hp. cbn [params_ok] in Hp. rewrite !andb_true_iff in Hp. rewrite !app_assoc. unfold plain_line. rewrite !no_nl_app, Hn, dec_no_nl_print by easy. apply no_cr_colon.
      * split; [easy|]. split; [easy|]. rewrite (hold_bare_read v o t) by easy. now rewrite Hb.
  - destruct (Z.leb_spec v 11) as [L11|L11].
    + apply (ho_ok_row v o _ Hv) with (4 := Hb); try easy.
      * unfold ho_ok. rewrite Hk. unfold with_sample. cbn [ho_hitsample]. unfold ho_read in *.
        cbn [ho_position ho_time ho_obj_params ho_new_combo ho_combo_skip_count ho_hitsound ho_hitsample]. rewrite !andb_true_iff in *. destruct Hr as [[Hr Hp] Hh].
        replace (params_ok (ho_obj_params o) (option_map _ (ho_hitsample o))) with (params_ok (ho_obj_params o) (ho_hitsample o))
          by (destruct (ho_obj_params o); cbn [params_ok]; try easy; unfold slide_ok, shorthand_ok; now destruct (ho_hitsample o)).
        split; [split; [split; [split|]|]|]; try easy.
        -- destruct (ho_hitsample o) as [h|]; [|easy]. cbn [option_map]. unfold hit_sample_read in *. cbn. rewrite !andb_true_iff in *. easy.
        -- destruct (ho_hitsample o); [|easy]. cbn. replace (10 <=? v)%Z with true by lia. cbn. apply orb_true_r.
      * unfold ho_to_string, with_sample. cbn [ho_position ho_time ho_obj_params ho_new_combo ho_combo_skip_count ho_hitsound ho_hitsample].
        assert (S : forall h, hit_sample_to_string (mk_hit_sample (hs_normal h) (hs_addition h) (hs_index h) None []) v = hit_sample_to_string h v).
        { intros h. unfold hit_sample_to_string. replace ((3 <=? v)%Z && (v <=? 9)%Z) with false by lia. now replace ((10 <=? v)%Z && (v <=? 11)%Z) with true by lia. }
        unfold ho_type_to_string, ho_type_flags. cbn [ho_obj_params ho_new_combo ho_combo_skip_count]. destruct (ho_hitsample o) as [h|]; cbn [option_map]; [|easy]. now rewrite S.
    + apply (ho_ok_row v o _ Hv) with (4 := Hb); try easy.
      unfold ho_ok. rewrite Hk. cbn [with_sample ho_hitsample]. replace (sample_in_version v (ho_hitsample o)) with true by (destruct (ho_hitsample o); [|easy]; cbn; now replace (12 <=? v)%Z with true by lia).
      rewrite !andb_true_r. now destruct o.
Qed.
(** versions 3 and 4 *)
Definition early_params (v : version) (p : position_t) (q q5 : ho_params) : Prop :=
  match q with
  | HitCircle => q5 = HitCircle
  | Slider sl => q5 = Slider (mk_slide (sl_curve_type sl) (if (v =? 3)%Z then p :: sl_curve_points sl else sl_curve_points sl) (sl_slides sl) (sl_length sl)
        (sl_edge_sounds sl) (sl_edge_sounds_short_hand sl) (sl_edge_sets sl) (sl_edge_sets_shorthand sl))
  | Spinner t => exists t5, shift_out v t = ROk t5 /\ q5 = Spinner t5
  | OsuManiaHold t => exists t5, shift_out v t = ROk t5 /\ q5 = OsuManiaHold t5
  end.
Lemma print_early v p t t5 q q5 nc sk h hs : old_version v = true -> shift_out v t = ROk t5 -> early_params v p q q5 ->
  exists a, ho_to_string 5%Z (mk_ho p t5 q5 nc sk h hs) = ROk a
    /\ ho_to_string v (mk_ho p t q nc sk h hs) = ROk (a ++ circle_comma v (mk_ho p t q nc sk h hs)).
Proof.
  intros Ho Ht Hq. assert (V : (3 <= v < 10)%Z) by (destruct (old_cases v Ho); lia).
  assert (S5 : forall x, shift_out 5%Z x = ROk x) by (intros; now apply shift_new).
  assert (HS : forall v', (3 <= v' < 10)%Z -> match hs with Some h0 => match hit_sample_to_string h0 v' with Some t0 => [t0] | None => [] end | None => [] end = []).
  { intros v' Hv. destruct hs; [now rewrite sample_old|easy]. }
  unfold ho_to_string, circle_comma. cbn [ho_position ho_time ho_obj_params ho_new_combo ho_combo_skip_count ho_hitsound ho_hitsample].
  rewrite S5, Ht. cbn [rbind]. rewrite (HS v V), (HS 5%Z ltac:(lia)). destruct q as [|sl|u|u]; cbn [early_params] in Hq.
  - subst q5. eexists. split; [reflexivity|]. destruct (v =? 3)%Z; [easy|]. f_equal; symmetry; apply app_nil_r.
  - subst q5. eexists. split; [reflexivity|]. f_equal. etransitivity; [|symmetry; apply app_nil_r].
    change (5 =? 3)%Z with false. cbn [sl_curve_type sl_curve_points sl_slides sl_length sl_edge_sounds sl_edge_sounds_short_hand sl_edge_sets sl_edge_sets_shorthand].
    unfold ho_type_to_string. cbn [ho_obj_params ho_new_combo ho_combo_skip_count]. now destruct (v =? 3)%Z.
  - destruct Hq as (u5 & Hu & ->). rewrite S5, Hu. cbn [rmap]. eexists. split; [reflexivity|]. f_equal; symmetry; apply app_nil_r.
  - destruct Hq as (u5 & Hu & ->). rewrite S5, Hu. cbn [rmap]. eexists. split; [reflexivity|]. f_equal; symmetry; apply app_nil_r.
Qed.
Lemma shift_out_raw v d d' : shift_out v d = ROk d' -> d' = d \/ exists r r', d = DNum r /\ d' = DNum r'.
Proof.
  unfold shift_out. destruct (old_version v); [|intros [= <-]; auto]. destruct d as [r|s]; [|intros [= <-]; auto].
  destruct (rdec_sub _ _); cbn [rmap]; try easy. intros [= <-]. right. eauto.
Qed.
Lemma num_no_cr r : no_cr_end (print_rdec r) = true.
Proof.
  unfold no_cr_end. apply negb_true_iff. pose proof (print_rdec_chars r) as P.
  assert (D : print_rdec r = [] \/ exists l c, print_rdec r = l ++ [c]) by (destruct (print_rdec r) as [|c l]; [now left|right; destruct (exists_last (l := c :: l) ltac:(easy)) as (a & b & ->); eauto]).
  destruct D as [->|(l & c & E)]; [easy|]. rewrite E in *. rewrite ends_with_char_snoc. rewrite forallb_app in P. apply andb_true_iff in P as [_ P].
  cbn [forallb] in P. rewrite andb_true_r in P. destruct (N.eqb_spec c 13); [subst; easy|easy].
Qed.
Lemma shift_out_keeps v d d' : old_version v = true -> wf_decimal d = true -> room d = true -> shift_out v d = ROk d' ->
  wf_decimal d' = true /\ (dec_no_colon d = true -> dec_no_colon d' = true) /\ (dec_no_nl d = true -> dec_no_nl d' = true)
  /\ (no_cr_end (print_decimal (time_back v d)) = true -> no_cr_end (print_decimal d') = true).
Proof.
  intros Ho Hw Hr H. destruct d as [r|s].
  - destruct (shift_out_raw v _ d' H) as [E|(r0 & r' & _ & E)]; (assert (Hd : exists r', d' = DNum r') by eauto); destruct Hd as (r1 & ->); clear E.
    all: assert (K : wf_dec_field (DNum r1) = true) by (apply (shift_out_wf v (DNum r)); auto; unfold wf_dec_field; now rewrite Hw).
    all: unfold wf_dec_field in K; apply andb_true_iff in K as [K _]; repeat split; try easy; intros _; apply num_no_cr.
  - destruct (shift_out_raw v _ d' H) as [->|(r0 & r' & E & _)]; [auto|easy].
Qed.
Lemma v_unwrap_ok {A E} (r : res (option A) E) x : v_unwrap r = ROk x -> r = ROk (Some x).
Proof. unfold v_unwrap. destruct r as [[y|]| |]; cbn [rbind unwrap]; try easy. now intros [= ->]. Qed.
Lemma ho_row_old v o : old_version v = true -> ho_can v o = true -> ho_row_at v o.
Proof.
  intros Ho H. unfold ho_can in H. rewrite is_old, Ho in H. cbn [negb orb] in H. rewrite !andb_true_iff in H. destruct H as [[[Hr Hk] Hf] Hro].
  assert (V9 : (v <=? 9)%Z = true) by (destruct (old_cases v Ho) as [-> | ->]; easy).
  destruct o as [p t q nc sk h hs]. pose proof Hr as Hr0. unfold ho_read in Hr. unfold roomy in Hro. cbn [ho_position ho_time ho_obj_params ho_new_combo ho_combo_skip_count ho_hitsound ho_hitsample] in *.
  rewrite !andb_true_iff in Hr. rewrite !andb_true_iff in Hro. destruct Hr as [[[[[[Hx Hy] Ht] Hs1] Hs2] Hp] Hh]. destruct Hro as [R1 R2].
  assert (Hw : wf_decimal t = true) by (unfold wf_dec_field in Ht; now apply andb_true_iff in Ht).
  destruct (shift_out_room v t Ho R1) as (t5 & Ht5 & _). pose proof (time_back_old v t t5 Ho Hw R1 Ht5) as Hb. pose proof (shift_out_wf v t t5 Ho Ht R1 Ht5) as Hw5.
  assert (Q : exists q5, early_params v p q q5 /\ shifted_params v q5 (params_back v q) /\ params_ok q5 hs = true
    /\ ho_keeps (mk_ho p t5 q5 nc sk h (sample_back 5%Z (mk_ho p t5 q5 nc sk h hs))) = true).
  { unfold ho_back, sample_back in Hk. cbn [ho_position ho_time ho_obj_params ho_new_combo ho_combo_skip_count ho_hitsound ho_hitsample] in Hk. rewrite V9 in Hk.
    destruct q as [|sl|u|u].
    - exists HitCircle. repeat split.
    - eexists. split; [reflexivity|]. split; [|split].
      + cbn [shifted_params params_back moved_params sl_curve_type sl_curve_points sl_slides sl_length sl_edge_sounds sl_edge_sounds_short_hand sl_edge_sets sl_edge_sets_shorthand].
        destruct sl; cbn. now destruct (v =? 3)%Z.
      + cbn [params_ok] in *. unfold slide_ok, shorthand_ok in *. cbn [sl_curve_type sl_curve_points sl_slides sl_length sl_edge_sounds sl_edge_sounds_short_hand sl_edge_sets sl_edge_sets_shorthand].
        unfold position_fits in Hf. cbn [ho_obj_params ho_position] in Hf. destruct (v =? 3)%Z; [|exact Hp]. cbn [negb orb] in Hf. cbn [forallb]. now rewrite Hf.
      + exact Hk.
    - cbn [params_ok] in Hp. assert (Hwu : wf_decimal u = true) by (unfold wf_dec_field in Hp; now apply andb_true_iff in Hp).
      destruct (shift_out_room v u Ho R2) as (u5 & Hu5 & _). exists (Spinner u5). split; [cbn; eauto|]. split; [cbn; now apply time_back_old|].
      split; [cbn; now apply (shift_out_wf v u)|]. destruct (shift_out_keeps v u u5 Ho Hwu R2 Hu5) as (_ & _ & _ & K). exact (K Hk).
    - cbn [params_ok] in Hp. rewrite !andb_true_iff in Hp. destruct Hp as [[[Hwu H1] H2] H3].
      destruct (shift_out_room v u Ho R2) as (u5 & Hu5 & _). exists (OsuManiaHold u5). split; [cbn; eauto|]. split; [cbn; now apply time_back_old|].
      destruct (shift_out_keeps v u u5 Ho Hwu R2 Hu5) as (K1 & K2 & K3 & _). split; [cbn; now rewrite K1, K2, K3, H3|]. reflexivity. }
  destruct Q as (q5 & Q1 & Q2 & Q3 & Q4). set (o5 := mk_ho p t5 q5 nc sk h hs) in *.
  assert (Hr5 : ho_read o5 = true) by (unfold ho_read; cbn [ho_position ho_time ho_obj_params ho_combo_skip_count ho_hitsample o5]; now rewrite Hx, Hy, Hw5, Hs1, Hs2, Q3).
  assert (C5 : ho_can 5%Z o5 = true).
  { unfold ho_can. rewrite Hr5. cbn [andb]. rewrite ho_back_new by easy. unfold with_sample. cbn [ho_position ho_time ho_obj_params ho_new_combo ho_combo_skip_count ho_hitsound o5]. rewrite Q4.
    unfold position_fits. now destruct (ho_obj_params o5). }
  destruct (ho_row_new 5%Z o5 ltac:(lia) C5) as (a & d & r & A1 & A2 & A3 & A4 & A5 & A6). apply v_unwrap_ok in A6.
  destruct (print_early v p t t5 q q5 nc sk h hs Ho Ht5 Q1) as (a' & P1 & P2). fold o5 in P1. rewrite A1 in P1. injection P1 as <-.
  assert (Fin : forall o5', ho_position o5' = p -> ho_time o5' = t5 -> ho_obj_params o5' = q5 -> ho_new_combo o5' = nc -> ho_combo_skip_count o5' = sk -> ho_hitsound o5' = h ->
     ho_hitsample o5' = sample_back v (mk_ho p t q nc sk h hs) -> shifted v o5' (ho_back v (mk_ho p t q nc sk h hs))).
  { intros [p' t' q' nc' sk' h' hs']. cbn [ho_position ho_time ho_obj_params ho_new_combo ho_combo_skip_count ho_hitsound ho_hitsample]. intros -> -> -> -> -> -> ->.
    unfold shifted. do 9 eexists. split; [reflexivity|]. split; [reflexivity|]. split; [exact Hb|exact Q2]. }
  destruct (ho_obj_params (mk_ho p t q nc sk h hs)) eqn:Eq; cbn [ho_obj_params] in Eq; subst q; unfold circle_comma in P2; cbn [ho_obj_params] in P2.
  - cbn [early_params] in Q1. subst q5. destruct (Z.eqb_spec v 3) as [->|N3].
    + assert (Ea : a = ho_head o5).
      { pose proof (low_print 5%Z o5 ltac:(lia) Hr5) as L. cbn [ho_obj_params o5] in L. rewrite A1 in L. rewrite ho_print in L; [|lia|easy|easy]. injection L as ->.
        rewrite ho_line_head. cbn [params_tail with_sample ho_obj_params o5 ho_hitsample sample_tail]. now rewrite app_nil_r. }
      exists (a ++ lit ","), d, (r ++ lit ","). split; [exact P2|]. split; [|split; [rewrite A3; now rewrite <- app_assoc|]].
      * destruct (head_good o5 Hr5) as (G1 & _ & r' & G3). rewrite Ea. unfold good_line. rewrite (G3 (lit ",")) at 2. change (44 :: ?x) with (lit "," ++ x). rewrite not_blank_comma, andb_true_r.
        unfold plain_line. rewrite no_nl_app, G1. apply no_cr_comma.
      * split; [exact A4|]. split; [exact A5|]. rewrite Ea. enough (K : ho_from_str 3%Z (ho_head o5 ++ lit ",") = ROk (Some (ho_back 3%Z (mk_ho p t HitCircle nc sk h hs)))) by now rewrite K.
        apply obj_iff. eexists. split; [apply circle_comma_read; [lia|exact Hr5|reflexivity]|]. now apply Fin.
    + rewrite app_nil_r in P2. exists a, d, r. repeat (split; [assumption|]). enough (K : ho_from_str v a = ROk (Some (ho_back v (mk_ho p t HitCircle nc sk h hs)))) by now rewrite K.
      apply obj_iff. eexists. split; [exact A6|]. apply Fin; try reflexivity; try (cbn; now rewrite ?time_back_new by easy).
      unfold ho_back, sample_back. cbn [ho_obj_params ho_hitsample o5]. rewrite V9. now destruct (Z.eqb_spec v 3).
  - rewrite app_nil_r in P2. exists a, d, r. repeat (split; [assumption|]). match goal with |- v_unwrap _ = ROk (ho_back v ?o) => enough (K : ho_from_str v a = ROk (Some (ho_back v o))) by now rewrite K end.
    apply obj_iff. eexists. split; [exact A6|]. rewrite ho_back_new by easy. apply Fin; try reflexivity. unfold sample_back, with_sample. cbn [ho_obj_params ho_hitsample o5]. rewrite V9.
    cbn [early_params] in Q1. now subst q5.
  - rewrite app_nil_r in P2. exists a, d, r. repeat (split; [assumption|]). match goal with |- v_unwrap _ = ROk (ho_back v ?o) => enough (K : ho_from_str v a = ROk (Some (ho_back v o))) by now rewrite K end.
    apply obj_iff. eexists. split; [exact A6|]. rewrite ho_back_new by easy. apply Fin; try reflexivity. unfold sample_back, with_sample. cbn [ho_obj_params ho_hitsample o5]. rewrite V9.
    cbn [early_params] in Q1. now destruct Q1 as (u5 & _ & ->).
  - rewrite app_nil_r in P2. exists a, d, r. repeat (split; [assumption|]). match goal with |- v_unwrap _ = ROk (ho_back v ?o) => enough (K : ho_from_str v a = ROk (Some (ho_back v o))) by now rewrite K end.
    apply obj_iff. eexists. split; [exact A6|]. rewrite ho_back_new by easy. apply Fin; try reflexivity. unfold sample_back, with_sample. cbn [ho_obj_params ho_hitsample o5]. rewrite V9.
    cbn [early_params] in Q1. now destruct Q1 as (u5 & _ & ->).
Qed.
Lemma objects_any v l : (3 <= v)%Z -> forallb (ho_can v) l = true -> starts_ok (map (fun o => pos_x (ho_position o)) l) = true ->
  exists ls, hit_objects_to_string l v = ROk (Some (text_of_lines ls)) /\ part (fun t => hit_objects_from_str t v) ls (map (ho_back v) l).
Proof.
  intros Hv H Hs. rewrite forallb_forall in H.
  assert (R : forall o, In o l -> ho_row_at v o).
  { intros o Hi. specialize (H o Hi). destruct (old_version v) eqn:E; [now apply ho_row_old|]. apply ho_row_new; [|easy]. rewrite <- is_old in E. destruct (Z.eqb_spec v 3), (Z.eqb_spec v 4); try easy. lia. }
  destruct (rows (fun o => pos_x (ho_position o)) _ _ _ l R Hs) as (ls & H1 & H2 & H3 & H4 & H5).
  exists ls. unfold hit_objects_to_string. rewrite H1, text_of_lines_join. split; [easy|]. apply good_part; auto.
  - intros s s' E. unfold hit_objects_from_str. now rewrite E.
  - rewrite text_of_lines_join. unfold hit_objects_from_str. now rewrite good_lines_join, H5.
Qed.

(** ** the whole file *)
Lemma whole_from dbg f h' : file_can (mk_osu (osu_version f) (osu_general f) (osu_editor f) (osu_osb f) (osu_metadata f) (osu_difficulty f) (osu_events f) (osu_timing_points f) (osu_colours f) None) = true ->
  match osu_hitobjects f, h' with
  | Some l, Some l' => exists ls, hit_objects_to_string l (osu_version f) = ROk (Some (text_of_lines ls)) /\ part (fun t => hit_objects_from_str t (osu_version f)) ls l'
  | None, None => True
  | _, _ => False
  end ->
  let f' := mk_osu (osu_version f) (option_map (general_at (osu_version f)) (osu_general f)) (option_map (editor_at (osu_version f)) (osu_editor f)) None (osu_metadata f) (osu_difficulty f) (osu_events f)
              (option_map (map (tp_back (osu_version f))) (osu_timing_points f)) (if (osu_version f <=? 4)%Z then None else osu_colours f) h' in
  exists t secs, osu_to_string dbg f = ROk t
  /\ file_layout t [] (osu_version f) [[]; []] secs [] /\ map sec_name secs = names_of f'
  /\ osu_from_str dbg t = ROk f'.
Proof.
  destruct f as [v g e o m d ev tp c h]. unfold file_can, osu_to_string. cbn [osu_version osu_general osu_editor osu_metadata osu_difficulty osu_events osu_timing_points osu_colours osu_hitobjects].
  rewrite !andb_true_iff. intros [[[[[[[[[Hv1 Hv2] Hg] He] Hm] Hd] Hev] Htp] Hc] _] Hh. apply Z.leb_le in Hv1, Hv2. 
  apply (option_part "General" (fun t => general_from_str t v) _ (fun x => general_to_string x v) (general_at v)) in Hg as (p1 & S1);
    [|intros a Ha; apply andb_true_iff in Ha as []; now apply general_part].
  apply (option_part "Editor" (fun t => editor_from_str t v) _ (fun x => editor_to_string x v) (editor_at v)) in He as (p2 & S2);
    [|intros a Ha; apply andb_true_iff in Ha as []; now apply editor_part].
  apply (option_part "Metadata" (fun t => metadata_from_str t v) _ (fun x => metadata_to_string x v) (fun x => x)) in Hm as (p3 & S3);
    [|intros a Ha; apply andb_true_iff in Ha as []; now apply metadata_part].
  apply (option_part "Difficulty" (fun t => difficulty_from_str t v) _ (fun x => difficulty_to_string x v) (fun x => x)) in Hd as (p4 & S4);
    [|intros a Ha; apply andb_true_iff in Ha as []; now apply difficulty_part].
  apply (option_run "Events" (fun t => events_from_str dbg t v) _ (fun x => events_to_string dbg x v) (fun x => x)) in Hev as (p5 & c5 & -> & S5);
    [|intros a Ha; apply andb_true_iff in Ha as []; apply events_part; [easy|now apply is_empty_neq]].
  apply (option_run "TimingPoints" (fun t => timing_points_from_str t v) _ (fun x => timing_points_to_string x v) (map (tp_back v))) in Htp as (p6 & c6 & -> & S6);
    [|intros a Ha; apply andb_true_iff in Ha as [Ha ?]; now apply timing_any].
  assert (S7 : exists p7, shown "Colours" (fun t => colours_from_str t v) p7 (if (v <=? 4)%Z then None else c) (obind c (fun x => colours_to_string x v))).
  { destruct (Z.leb_spec v 4) as [L4|L4].
    - exists []. left. repeat split. destruct c as [l|]; [|easy]. cbn [obind]. unfold colours_to_string. replace (old_version v) with true; [easy|]. unfold old_version. lia.
    - apply (option_part "Colours" (fun t => colours_from_str t v) _ (fun x => colours_to_string x v) (fun x => x)) in Hc as (p7 & S7); [rewrite option_map_id in S7; eauto|].
      intros a Ha. cbn [orb] in Ha. apply andb_true_iff in Ha as [Ha ?]; apply andb_true_iff in Ha as []; apply colours_part; try easy; now apply is_empty_neq. }
  destruct S7 as (p7 & S7).
  assert (S8 : exists p8 c8, run_opt h (fun x => hit_objects_to_string x v) = ROk c8 /\ shown "HitObjects" (fun t => hit_objects_from_str t v) p8 h' c8).
  { destruct h as [l|], h' as [l'|]; try easy.
    - destruct Hh as (ls & Q1 & Q2). exists [(lit "HitObjects", ls)], (Some (text_of_lines ls)). split; [exact Q1|]. right. exists ls, l'. auto.
    - exists [], None. split; [easy|]. left. easy. }
  destruct S8 as (p8 & c8 & -> & S8).
  cbn [rbind]. rewrite option_map_id in S3. rewrite option_map_id in S4. rewrite option_map_id in S5.
  rewrite (shown_out _ _ _ _ _ S1), (shown_out _ _ _ _ _ S2), (shown_out _ _ _ _ _ S3), (shown_out _ _ _ _ _ S4), (shown_out _ _ _ _ _ S5),
    (shown_out _ _ _ _ _ S6), (shown_out _ _ _ _ _ S7), (shown_out _ _ _ _ _ S8), <- !map_app.
  set (l := p1 ++ p2 ++ p3 ++ p4 ++ p5 ++ p6 ++ p7 ++ p8). set (f' := mk_osu v (option_map (general_at v) g) (option_map (editor_at v) e) None m d ev (option_map (map (tp_back v)) tp) (if (v <=? 4)%Z then None else c) h').
  assert (Hb : Forall (fun q => body_ok (snd q) = true) l) by (unfold l; repeat (apply Forall_app; split); eauto using shown_body).
  assert (Hnm : map fst l = names_of f').
  { unfold l, names_of, f'. cbn [osu_general osu_editor osu_metadata osu_difficulty osu_events osu_timing_points osu_colours osu_hitobjects]. rewrite !map_app.
    now rewrite (shown_names _ _ _ _ _ S1), (shown_names _ _ _ _ _ S2), (shown_names _ _ _ _ _ S3), (shown_names _ _ _ _ _ S4), (shown_names _ _ _ _ _ S5),
      (shown_names _ _ _ _ _ S6), (shown_names _ _ _ _ _ S7), (shown_names _ _ _ _ _ S8). }
  destruct (names_known f') as [N1 N2]. rewrite <- Hnm in N1, N2. pose proof (known_names_ok _ N2) as N3.
  assert (L : file_layout (lit "osu file format v" ++ print_Z v ++ [c_nl; c_nl] ++ join [c_nl; c_nl] (map part_text l)) [] v [[]; []] (secs_of l) []).
  { destruct l as [|q l0] eqn:El.
    - exists (print_Z v), [10; 10]. split; [|split; [apply print_version; lia|split; [easy|split; easy]]]. cbn [map join secs_of app].
      apply (vh [] [] (print_Z v) [10; 10]); auto; [|right; exists 10, [10]; auto].
      assert (K : In v [3;4;5;6;7;8;9;10;11;12;13;14]%Z) by (cbn; lia). cbn [In] in K. repeat destruct K as [K|K]; subst; easy.
    - rewrite <- El in *. assert (Hn : l <> []) by now rewrite El. clear El q l0.
      change [c_nl; c_nl] with [10; 10]. rewrite secs_text by easy.
      pose proof (canonical_layout (print_Z v) v [[]] (secs_of l) []) as K. rewrite app_nil_r in K.
      assert (Hfl : flat_map sec_all (secs_of l) <> []) by (destruct l as [|[? ?] [|[? ?] ?]]; easy).
      change ([[]] ++ flat_map sec_all (secs_of l)) with ([] :: flat_map sec_all (secs_of l)) in K. rewrite text_cons in K by easy. apply K.
      + apply print_version. lia.
      + easy.
      + now apply secs_ok.
      + cbn [forallb]. now apply secs_plain.
      + change ([] :: flat_map sec_all (secs_of l)) with ([[]] ++ flat_map sec_all (secs_of l)). rewrite last_flat by easy. now apply secs_last. }
  eexists. exists (secs_of l). split; [reflexivity|]. split; [exact L|]. split.
  { rewrite secs_names, Hnm. unfold names_of, f'. cbn [osu_general osu_editor osu_metadata osu_difficulty osu_events osu_timing_points osu_colours osu_hitobjects]. easy. }
  apply (read_ok_iff dbg _ _ _ _ _ _ _ L eq_refl). split; [now rewrite secs_names|]. split.
  { apply Forall_forall. intros x Hx. apply N2. rewrite <- secs_names. now apply in_map. }
  pose proof (shown_names _ _ _ _ _ S1) as M1. pose proof (shown_names _ _ _ _ _ S2) as M2. pose proof (shown_names _ _ _ _ _ S3) as M3. pose proof (shown_names _ _ _ _ _ S4) as M4.
  pose proof (shown_names _ _ _ _ _ S5) as M5. pose proof (shown_names _ _ _ _ _ S6) as M6. pose proof (shown_names _ _ _ _ _ S7) as M7. pose proof (shown_names _ _ _ _ _ S8) as M8.
  unfold describes, f', osu_new. cbn [osu_version osu_osb osu_general osu_editor osu_metadata osu_difficulty osu_events osu_timing_points osu_colours osu_hitobjects].
  split; [easy|]. split; [easy|].
  split; [|split; [|split; [|split; [|split; [|split; [|split]]]]]];
  (eapply shown_holds; [eassumption| |intros q Hq; unfold l; rewrite !in_app_iff; tauto]);
  intros ls Hi; unfold l in Hi; rewrite !in_app_iff in Hi; decompose [or] Hi; try assumption; elsewhere.
Qed.
Lemma whole_any dbg f : file_can f = true -> exists t secs, osu_to_string dbg f = ROk t
  /\ file_layout t [] (osu_version f) [[]; []] secs [] /\ map sec_name secs = names_of (file_back f)
  /\ osu_from_str dbg t = ROk (file_back f).
Proof.
  intros H. apply (whole_from dbg f (option_map (map (ho_back (osu_version f))) (osu_hitobjects f))).
  - unfold file_can in *. rewrite !andb_true_iff in *. tauto.
  - unfold file_can in H. rewrite !andb_true_iff in H. destruct (osu_hitobjects f) as [l|]; [|easy]. cbn [option_map]. destruct H as [H Hh]. cbn [opt_all] in Hh. apply andb_true_iff in Hh as [].
    apply objects_any; try easy. destruct H as [[[[[[[[HV _] _] _] _] _] _] _] _]. now apply Z.leb_le in HV.
Qed.
