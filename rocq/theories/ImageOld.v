(** Which timing points and hit objects reading gives in every version (C76). *)
From Coq Require Import String List NArith ZArith Bool Lia.
From Verif Require Import Str Num Nom Dec Parsers TimingPoints HitObjects NormalEvents
  SpecWf SpecText SpecLine SpecWalk SpecImage StrFacts NumFacts DecFacts FieldFacts LayoutFacts TpFacts HoRead LineRead
  WalkFacts HoObj BackRead ImageLine ImageObj ImageCmd ImageEv ImageLate.
Import ListNotations.
Local Open Scope N_scope.

(** ** what every value of a reader has *)
Definition oks {A E} (Q : A -> Prop) (r : res A E) : Prop := forall x, r = ROk x -> Q x.
Lemma oks_ok {A E} (Q : A -> Prop) a : Q a -> oks (E := E) Q (ROk a).
Proof. intros H x K. injection K as <-. easy. Qed.
Lemma oks_err {A E} (Q : A -> Prop) (e : E) : oks Q (RErr e).
Proof. easy. Qed.
Lemma oks_next {A B E X} (Q : B -> Prop) (m i : E) (rd : str -> res A X) fs k : (forall a gs, oks Q (k a gs)) -> oks Q (next m i rd fs k).
Proof. intros H. unfold next. destruct fs as [|f fs]; [easy|]. destruct (rd f); [apply H|easy|easy]. Qed.
Lemma oks_last {A B E X} (Q : B -> Prop) (m i : E) (rd : str -> res A X) fs k : (forall a, oks Q (k a)) -> oks Q (last_field m i rd fs k).
Proof. intros H. unfold last_field. destruct fs as [|f fs]; [easy|]. destruct (rd _); [apply H|easy|easy]. Qed.
Lemma oks_andthen {A B E} (Q : B -> Prop) (r : run A) (k : A -> res B E) : (forall a, oks Q (k a)) -> oks Q (andthen r k).
Proof. intros H. unfold andthen. destruct r; [apply H|easy|easy]. Qed.
Lemma oks_sample {B} (Q : B -> Prop) fs k : (forall h, oks Q (k h)) -> oks Q (sample_end fs k).
Proof. intros H. unfold sample_end. destruct fs; [apply H|]. apply oks_last. auto. Qed.
Lemma oks_edges {B} (Q : B -> Prop) fs k : (forall es ss h b1 b2, oks Q (k es ss h b1 b2)) -> oks Q (edges_line fs k).
Proof.
  intros H. unfold edges_line. destruct fs as [|e [|s fs]]; [apply H| |].
  - repeat match goal with |- oks _ (match ?x with _ => _ end) => destruct x | |- oks _ (let '(_, _) := ?x in _) => destruct x end; try apply H; easy.
  - repeat match goal with |- oks _ (match ?x with _ => _ end) => destruct x end; try easy. apply oks_sample. auto.
Qed.
Lemma oks_slider {B} (Q : B -> Prop) v fs k : (forall p h, oks Q (k p h)) -> oks Q (slider_line v fs k).
Proof.
  intros H. unfold slider_line. destruct fs as [|f fs]; [easy|].
  destruct (match cut_at 124 f with Some (a, t) => _ | None => _ end) as [a p]. destruct (rd_curve a); [|easy]. destruct p; [|easy].
  apply oks_next. intros. apply oks_next. intros. apply oks_edges. auto.
Qed.

(** ** timing points *)
Lemma time_field_back v d : wf_dec_field d = true -> time_range v d = true -> exists d0, wf_dec_field d0 = true /\ shift_in v d0 = ROk d.
Proof.
  intros W H. pose proof W as W0. unfold wf_dec_field in W0. apply andb_true_iff in W0 as [W0 _].
  destruct (time_back v d W0 H) as (d0 & S0 & [->|(r & -> & R)]); [now exists d|]. exists (DNum r). split; [|easy]. unfold wf_dec_field. cbn [wf_decimal dec_field]. now rewrite R.
Qed.
Lemma point_found v fs t : clear_fields fs -> tp_line v fs = ROk t -> (v <= 4)%Z -> tp_range v t = true.
Proof.
  intros C H Hv. unfold tp_line in H. apply next_given in H as (f & d & fs1 & D & H & F & C1); [|easy].
  destruct (shift_in v d) as [t0|[]|] eqn:E; try discriminate H. cbn [andthen] in H.
  pose proof (rd_dec_field _ _ D F) as W. pose proof W as W0. unfold wf_dec_field in W0. apply andb_true_iff in W0 as [W0 _].
  pose proof (shift_in_field v d t0 W E) as T1. pose proof (time_in_range v d t0 W0 E) as T2. unfold tp_range. replace (4 <? v)%Z with false by lia.
  replace (v <=? 4)%Z with true in H by lia. destruct (v <=? 3)%Z eqn:E3.
  - apply last_given in H as (g & b & B & H & G); [|easy]. injection H as <-. cbn [tp_time tp_beat_length tp_meter tp_sample_set_f tp_sample_index tp_volume tp_uninherited tp_effects].
    rewrite T1, T2. replace (3 <? v)%Z with false by lia. injection B as <-. now rewrite decimal_of_str_wf, dec_flat.
  - replace (3 <? v)%Z with true by lia. apply next_given in H as (f1 & b & fs2 & B & H & F1 & C2); [|easy]. apply (rd_dec_field _ _ B) in F1.
    apply next_given in H as (f2 & m & fs3 & M & H & F2 & C3); [|easy]. apply parse_i32_range in M.
    apply next_given in H as (f3 & ss & fs4 & Ss & H & F3 & C4); [|easy]. apply next_given in H as (f4 & ix & fs5 & Ix & H & F4 & C5); [|easy].
    assert (K1 : tp_sample_set_ok ss = true).
    { unfold rd_tp_set in Ss. destruct (parse_i32 f3) as [z| |] eqn:Ez; try discriminate Ss. apply parse_i32_range in Ez. cbn in Ss. injection Ss as <-.
      destruct (z =? 0)%Z eqn:E0; [easy|]. destruct (z =? 1)%Z eqn:E1; [easy|]. destruct (z =? 2)%Z eqn:E2; [easy|]. destruct (z =? 3)%Z eqn:E4; [easy|].
      cbn [tp_sample_set_ok]. rewrite Ez. lia. }
    assert (K2 : sample_index_ok ix = true).
    { unfold rd_tp_index in Ix. destruct (parse_u32 f4) as [z| |] eqn:Ez; try discriminate Ix. apply parse_u32_range in Ez. cbn in Ix. injection Ix as <-.
      destruct (z =? 0)%Z eqn:E0; [easy|]. cbn [sample_index_ok]. unfold in_u32 in Ez. lia. }
    destruct fs5 as [|f5 fs5].
    + injection H as <-. cbn [tp_time tp_beat_length tp_meter tp_sample_set_f tp_sample_index tp_volume tp_uninherited tp_effects].
      now rewrite T1, T2, F1, M, K1, K2.
    + apply last_given in H as (g & vo & V & H & G); [|easy]. apply parse_i32_range in V. injection H as <-.
      cbn [tp_time tp_beat_length tp_meter tp_sample_set_f tp_sample_index tp_volume tp_uninherited tp_effects]. now rewrite T1, T2, F1, M, K1, K2, V.
Qed.
Lemma last_piece {A B E X} (m i : E) (rd : str -> res A X) s (k : A -> res B E) : last_field m i rd (pieces 44 s) k
  = match rd s with ROk a => k a | RErr _ => RErr i | RPanic p => RPanic p end.
Proof. pose proof (commas_pieces s) as K. unfold last_field. destruct (pieces_some s) as (f & fs & Ef); rewrite Ef in *. now rewrite K. Qed.
Lemma clear_line fs : clear_fields fs -> (2 <= length fs)%nat -> pieces 44 (commas fs) = fs /\ no_nl (commas fs) = true /\ is_blank (commas fs) = false.
Proof.
  intros [C1 C2] L. destruct fs as [|a [|b fs]]; cbn [length] in L; try lia. split; [now apply pieces_commas|]. split; [now apply commas_nl|apply commas_full].
Qed.
Lemma point_given_in v t : tp_range v t = true -> exists line, tp_line v (pieces 44 line) = ROk t /\ no_nl line = true /\ is_blank line = false.
Proof.
  unfold tp_range. rewrite !andb_true_iff. intros [[T1 T2] H]. destruct (4 <? v)%Z eqn:E4; [apply tp_given; [lia|easy]|].
  destruct (time_field_back v (tp_time t) T1 T2) as (d0 & D1 & D2). destruct t as [ti b m ss ix vo u e].
  cbn [tp_time tp_beat_length tp_meter tp_sample_set_f tp_sample_index tp_volume tp_uninherited tp_effects] in *.
  apply andb_true_iff in H as [Hu H]. destruct u; [discriminate Hu|]. destruct e; [discriminate Hu|]. clear Hu.
  pose proof D1 as D3. unfold wf_dec_field in D3. apply andb_true_iff in D3 as [D3 _]. destruct (3 <? v)%Z eqn:E3; rewrite !andb_true_iff in H.
  - destruct H as [[[[H1 H2] H3] H4] H5]. pose proof H1 as H6. unfold wf_dec_field in H6. apply andb_true_iff in H6 as [H6 _].
    set (fs := [print_decimal d0; print_decimal b; print_Z m; print_Z (set_Z ss); print_Z (index_Z ix); print_Z vo]).
    assert (C : clear_fields fs).
    { unfold fs. apply clear_cons; [now apply wf_dec_field_no_comma|now apply wf_dec_field_no_nl|]. apply clear_cons; [now apply wf_dec_field_no_comma|now apply wf_dec_field_no_nl|].
      do 4 (apply clear_cons; [apply print_Z_no_comma|apply print_Z_no_nl|]). apply clear_nil. }
    destruct (clear_line fs C) as (L1 & L2 & L3); [cbn; lia|]. exists (commas fs). split; [|easy]. rewrite L1. unfold tp_line, fs, next at 1. unfold rd_dec at 1. rewrite dec_back by easy.
    rewrite D2. cbn [andthen]. replace (v <=? 3)%Z with false by lia. replace (v <=? 4)%Z with true by lia. cbn [next]. unfold rd_dec at 1. rewrite dec_back by easy.
    rewrite parse_print_i32 by easy. rewrite set_back by easy. rewrite index_back by easy. cbn [last_field commas join]. now rewrite parse_print_i32.
  - destruct H as [[[[H1 H2] H3] H4] H5]. apply Z.eqb_eq in H3, H4. subst m vo. destruct ss; try discriminate H5. destruct ix as [|z]; [discriminate H5|]. apply Z.eqb_eq in H5. subst z.
    set (fs := print_decimal d0 :: pieces 44 (print_decimal b)).
    assert (C : clear_fields fs).
    { unfold fs. apply clear_cons; [now apply wf_dec_field_no_comma|now apply wf_dec_field_no_nl|]. apply clear_pieces. now apply dec_no_nl_print. }
    destruct (clear_line fs C) as (L1 & L2 & L3); [unfold fs; cbn [length]; destruct (pieces_some (print_decimal b)) as (? & ? & ->); cbn; lia|].
    exists (commas fs). split; [|easy]. rewrite L1. unfold tp_line, fs, next at 1. unfold rd_dec at 1. rewrite dec_back by easy.
    rewrite D2. cbn [andthen]. replace (v <=? 3)%Z with true by lia. rewrite last_piece. unfold rd_dec. now rewrite dec_back.
Qed.
Lemma full_flat s x : In x (full_lines s) -> no_nl x = true.
Proof. intros Hx. apply filter_In in Hx as [Hx _]. pose proof (lines_no_nl s) as K. rewrite forallb_forall in K. auto. Qed.
Lemma items_all {A} (P : str -> A -> Prop) (q : A -> bool) s l : (forall line x, no_nl line = true -> P line x -> q x = true) ->
  Forall2 P (full_lines s) l -> forallb q l = true.
Proof.
  intros H. pose proof (full_flat s) as K. generalize dependent (full_lines s). intros ls K F. induction F as [|a x ls l F0 _ IH]; [easy|]. cbn [forallb].
  rewrite (H a x), IH; [easy| |apply K; now left|easy]. intros y Hy. apply K. now right.
Qed.
Lemma new_range v t : (4 < v)%Z -> tp_ok v t = true -> tp_range v t = true.
Proof.
  intros Hv H. unfold tp_range, time_range. replace (4 <? v)%Z with true by lia. rewrite H. unfold tp_ok in H. rewrite !andb_true_iff in H.
  replace ((3 <=? v) && (v <=? 4))%Z with false by lia. cbn [negb orb]. rewrite !andb_true_r. tauto.
Qed.
Lemma points_give v l : some_text (fun s => timing_points_from_str s v) l <-> forallb (tp_range v) l = true.
Proof.
  split.
  - intros [s H]. destruct (Z.ltb_spec 4 v) as [Hv|Hv].
    + apply timing_points_from_str_ok in H; [|easy]. rewrite forallb_forall in *. intros x Hx. apply new_range; auto.
    + apply timing_points_items in H. eapply items_all; [|exact H]. intros line x Hn Hx. apply point_found with (pieces 44 line); [now apply clear_pieces|easy|easy].
  - intros H. destruct (text_for (fun line x => tp_line v (pieces 44 line) = ROk x) l) as [s Hs].
    + apply Forall_forall. intros x Hx. rewrite forallb_forall in H. apply point_given_in; auto.
    + exists s. now apply timing_points_items.
Qed.

(** ** hit objects *)
Inductive params_in (v : version) : ho_params -> ho_params -> Prop :=
| pi_circle : params_in v HitCircle HitCircle
| pi_slider p p' : p' = mk_slide (sl_curve_type p) (if (v =? 3)%Z then tl (sl_curve_points p) else sl_curve_points p) (sl_slides p) (sl_length p)
    (sl_edge_sounds p) (sl_edge_sounds_short_hand p) (sl_edge_sets p) (sl_edge_sets_shorthand p) -> params_in v (Slider p) (Slider p')
| pi_spinner t t' : shift_in v t = ROk t' -> params_in v (Spinner t) (Spinner t')
| pi_hold t t' : shift_in v t = ROk t' -> params_in v (OsuManiaHold t) (OsuManiaHold t').
Lemma line_given_in v x y t p nc k hd hs t' p' : let o := mk_ho (mk_pos x y) t p nc k hd hs in
  ho_read o = true -> shift_in v t = ROk t' -> params_in v p p' -> SpecLine.ho_line v (line_fields o) = ROk (mk_ho (mk_pos x y) t' p' nc k hd hs).
Proof.
  intros o. subst o. unfold ho_read. rewrite !andb_true_iff. intros [[[[[[Hx Hy] Ht] Hs1] Hs2] Hp] Hh] St Sp.
  cbn [ho_position pos_x pos_y ho_time ho_combo_skip_count ho_obj_params ho_hitsample] in *.
  change (sample_fit hs = true) in Hh.
  destruct (type_bits p nc k) as (T1 & T2 & T3 & T4); [lia|]. unfold line_fields, type_Z.
  cbn [ho_position pos_x pos_y ho_time ho_combo_skip_count ho_obj_params ho_hitsample ho_new_combo ho_hitsound].
  set (ty := (kind_Z p + 4 * Z.b2z nc + 16 * k)%Z) in *.
  unfold SpecLine.ho_line, next. rewrite !field_dec by easy. rewrite St. cbn [andthen].
  rewrite parse_print_i32 by easy. rewrite sound_back. cbv zeta. rewrite T2, T3.
  destruct Sp as [|p p' ->|e e' Se|e e' Se]; cbn [object_fields params_ok] in *.
  - rewrite T4. now rewrite sample_ends.
  - destruct T4 as [-> ->]. unfold slide_ok in Hp. rewrite !andb_true_iff in Hp. destruct Hp as [[[[P1 P2] P3] P4] P5].
    unfold slider_line. rewrite curve_given, curve_named by easy. unfold next. rewrite parse_print_i32 by easy. rewrite field_dec by easy.
    now rewrite edges_given.
  - destruct T4 as (-> & -> & ->). rewrite field_dec by easy. rewrite Se. cbn [andthen]. now rewrite sample_ends.
  - destruct T4 as (-> & -> & -> & ->). rewrite !andb_true_iff in Hp. destruct Hp as [[[P1 P2] P3] P4]. destruct hs as [h|]; [|easy].
    cbn in Hh. apply andb_true_iff in Hh as [Hh _].
    pose proof (commas_pieces (print_decimal e ++ 58 :: sample_text h)) as E.
    destruct (pieces_some (print_decimal e ++ 58 :: sample_text h)) as (f & fs & Ef). rewrite Ef in *. rewrite E.
    rewrite cut_step by now apply dec_no_colon_print. rewrite dec_back by easy. rewrite Se. cbn [andthen]. now rewrite sample_back.
Qed.
Lemma params_back v p hs : params_ok p hs = true -> match p with Spinner t | OsuManiaHold t => time_range v t | _ => true end = true ->
  exists p0, params_ok p0 hs = true /\ params_in v p0 p.
Proof.
  intros H R. destruct p as [|p|t|t].
  - exists HitCircle. split; [easy|constructor].
  - exists (Slider (mk_slide (sl_curve_type p) (if (v =? 3)%Z then mk_pos (DNum (mkDec false 0 0)) (DNum (mkDec false 0 0)) :: sl_curve_points p else sl_curve_points p)
      (sl_slides p) (sl_length p) (sl_edge_sounds p) (sl_edge_sounds_short_hand p) (sl_edge_sets p) (sl_edge_sets_shorthand p))). split.
    + cbn [params_ok] in *. unfold slide_ok, shorthand_ok in *. cbn [sl_curve_points sl_slides sl_length sl_edge_sounds sl_edge_sets sl_edge_sounds_short_hand sl_edge_sets_shorthand].
      rewrite !andb_true_iff in *. repeat split; try tauto. destruct (v =? 3)%Z; cbn [forallb]; tauto.
    + constructor. destruct p. now destruct (v =? 3)%Z.
  - destruct (time_field_back v t H R) as (d & D1 & D2). exists (Spinner d). split; [easy|now constructor].
  - cbn [params_ok] in H. rewrite !andb_true_iff in H. destruct H as [[[H1 H2] H3] H4]. destruct (time_back v t H1 R) as (d & D1 & [->|(r & -> & D2)]).
    + exists (OsuManiaHold t). split; [|now constructor]. cbn [params_ok]. now rewrite H1, H2, H3.
    + exists (OsuManiaHold (DNum r)). split; [|now constructor]. cbn [params_ok wf_decimal]. rewrite D2. now rewrite H4.
Qed.
Lemma object_given_in v o : ho_range v o = true ->
  exists line, SpecLine.ho_line v (pieces 44 line) = ROk o /\ no_nl line = true /\ is_blank line = false.
Proof.
  unfold ho_range. rewrite !andb_true_iff. intros [[H1 H2] H3]. pose proof H1 as H0. unfold ho_read in H0. rewrite !andb_true_iff in H0.
  destruct H0 as [[[[[[Hx Hy] Ht] Hs1] Hs2] Hp] Hh]. destruct (time_field_back v _ Ht H2) as (t0 & T1 & T2). destruct (params_back v _ _ Hp H3) as (p0 & P1 & P2).
  destruct o as [[x y] t p nc k hd hs]. cbn [ho_position pos_x pos_y ho_time ho_combo_skip_count ho_obj_params ho_hitsample] in *.
  assert (R : ho_read (mk_ho (mk_pos x y) t0 p0 nc k hd hs) = true).
  { unfold ho_read. cbn [ho_position pos_x pos_y ho_time ho_combo_skip_count ho_obj_params ho_hitsample]. now rewrite Hx, Hy, T1, Hs1, Hs2, P1, Hh. }
  destruct (clear_line _ (fields_clear _ R)) as (L1 & L2 & L3); [cbn; lia|]. exists (commas (line_fields (mk_ho (mk_pos x y) t0 p0 nc k hd hs))). split; [|easy].
  rewrite L1. now apply line_given_in.
Qed.
Definition times_read (v : version) (o : hit_object) : Prop :=
  time_range v (ho_time o) = true /\ match ho_obj_params o with Spinner t | OsuManiaHold t => time_range v t | _ => true end = true.
Lemma oks_shift {B E} (Q : B -> Prop) v f (k : decimal -> res B E) : (forall a, time_range v a = true -> forall x, k a = ROk x -> Q x) ->
  forall x, andthen (shift_in v (decimal_of_str f)) k = ROk x -> Q x.
Proof.
  intros H x. unfold andthen. destruct (shift_in v (decimal_of_str f)) as [a|[]|] eqn:E0; try easy. apply H. apply time_in_range in E0; [easy|]. apply decimal_of_str_wf.
Qed.
Lemma object_times v line o : SpecLine.ho_line v (pieces 44 line) = ROk o -> times_read v o.
Proof.
  unfold SpecLine.ho_line, next at 1 2 3. destruct (pieces 44 line) as [|fx [|fy [|ft fs]]]; try discriminate. unfold rd_dec at 1 2 3.
  revert o. apply oks_shift. intros t Ht.
  change (oks (times_read v)
    (next HoMissingObjType HoInvalidObjType parse_i32 fs (fun ty fs =>
     next HoMissingHitSound HoInvalidHitSound rd_sound fs (fun h fs =>
     let obj p hs := ROk (mk_ho (mk_pos (decimal_of_str fx) (decimal_of_str fy)) t p (Z.testbit ty 2) ((ty / 16) mod 8)%Z h hs) in
     if Z.testbit ty 0 then sample_end fs (obj HitCircle)
     else if Z.testbit ty 1 then slider_line v fs (fun p hs => obj (Slider p) hs)
     else if Z.testbit ty 3 then
       next HoMissingEndTime HoInvalidEndTime rd_dec fs (fun e fs =>
       andthen (shift_in v e) (fun e => sample_end fs (obj (Spinner e))))
     else if Z.testbit ty 7 then
       match fs with
       | [] => RErr HoMissingEndTime
       | _ => match cut_at 58 (commas fs) with
              | None => RErr HoInvalidEndTime
              | Some (a, b) =>
                  andthen (shift_in v (decimal_of_str a)) (fun e =>
                  match rd_sample b with
                  | ROk h => obj (OsuManiaHold e) (Some h)
                  | RErr _ => RErr HoInvalidHitSample
                  | RPanic p => RPanic p
                  end)
              end
       end
     else RErr HoUnknownObjType)))).
  apply oks_next. intros ty fs1. apply oks_next. intros h fs2. cbv zeta.
  destruct (Z.testbit ty 0); [apply oks_sample; intros; apply oks_ok; now split|]. destruct (Z.testbit ty 1); [apply oks_slider; intros; apply oks_ok; now split|].
  destruct (Z.testbit ty 3).
  - unfold next, rd_dec. destruct fs2 as [|fe fs2]; [easy|]. intros x. apply oks_shift. intros e He. apply oks_sample. intros hs. apply oks_ok. now split.
  - destruct (Z.testbit ty 7); [|easy]. destruct fs2 as [|fe fs2]; [easy|]. destruct (cut_at 58 _) as [[a b]|]; [|easy]. intros x. apply oks_shift. intros e He.
    destruct (rd_sample b); [apply oks_ok; now split|easy|easy].
Qed.
Lemma objects_give v l : some_text (fun s => hit_objects_from_str s v) l <-> forallb (ho_range v) l = true.
Proof.
  split.
  - intros [s H]. pose proof (objects_image _ _ _ H) as R. apply hit_objects_items in H.
    assert (K : Forall (times_read v) l) by (clear R; induction H as [|a x ls l H _ IH]; constructor; [now apply object_times in H|easy]).
    apply forallb_forall. intros x Hx. rewrite forallb_forall in R. rewrite Forall_forall in K. destruct (K x Hx) as [K1 K2]. unfold ho_range. now rewrite (R x Hx), K1, K2.
  - intros H. destruct (text_for (fun line x => SpecLine.ho_line v (pieces 44 line) = ROk x) l) as [s Hs].
    + apply Forall_forall. intros x Hx. rewrite forallb_forall in H. apply object_given_in; auto.
    + exists s. now apply hit_objects_items.
Qed.
