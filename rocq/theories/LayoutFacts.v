(** The printers of the line based sections produce the documented text. *)
From Coq Require Import String List NArith ZArith Bool Lia.
From Verif Require Import Str Num Nom Dec Parsers Colours TimingPoints HitObjects Spec SpecText StrFacts NumFacts
  NomFacts DecFacts LineFacts ColoursFacts FieldFacts TpFacts HoFacts HoRound HoObj HoImage.
Import ListNotations.
Local Open Scope N_scope.

Lemma commas_join l : commas l = join (lit ",") l.
Proof.
  induction l as [|x l IH]; [easy|]. destruct l as [|y l]; [easy|].
  change (commas (x :: y :: l)) with (x ++ 44 :: commas (y :: l)). now rewrite IH, join_cons2.
Qed.
Lemma text_of_lines_join l : text_of_lines l = join [c_nl] l.
Proof.
  induction l as [|x l IH]; [easy|]. destruct l as [|y l]; [easy|].
  change (text_of_lines (x :: y :: l)) with (x ++ 10 :: text_of_lines (y :: l)). now rewrite IH, join_cons2.
Qed.
Lemma bars_join l : bars l = join (lit "|") l.
Proof.
  induction l as [|x l IH]; [easy|]. destruct l as [|y l]; [easy|].
  change (bars (x :: y :: l)) with (x ++ 124 :: bars (y :: l)). now rewrite IH, join_cons2.
Qed.

Lemma colour_layout c : colour_to_string c = colour_text c.
Proof. now destruct c. Qed.
Lemma colours_layout v l : (4 < v)%Z -> colours_to_string l v = Some (text_of_lines (map colour_text l)).
Proof.
  intros Hv. unfold colours_to_string. rewrite (new_not_old v Hv), text_of_lines_join.
  do 2 f_equal; now apply map_ext.
Qed.

Lemma tp_layout v t :
  (4 < v)%Z -> tp_ok v t = true -> index_small (tp_sample_index t) = true ->
  tp_to_string v t = ROk (tp_text t).
Proof.
  intros Hv Ht Hs. rewrite tp_print_new by easy. f_equal. unfold tp_text. rewrite commas_join.
  unfold tp_ok in Ht. rewrite !andb_true_iff in Ht. destruct Ht as [[[_ Hi] _] Htl].
  cbn [app]. rewrite !join_cons2. unfold tp_head_text.
  replace (sample_index_to_string (tp_sample_index t)) with (print_Z (tp_index_number (tp_sample_index t))).
  2:{ clear Htl. destruct (tp_sample_index t) as [|z]; [easy|]. rewrite sample_index_text.
      cbn [index_small sample_index_ok tp_index_number] in *.
      apply Z.leb_le in Hs. apply andb_true_iff in Hi. destruct Hi as [Hi _]. apply Z.leb_le in Hi.
      rewrite wrap_i32_small; [easy|]. split; [|easy]. now apply Z.le_trans with 1%Z. }
  unfold tp_tail_ok in Htl. unfold tp_tail_text, effects_to_string, print_bool, bool_text.
  destruct (tp_uninherited t) as [u|], (tp_effects t) as [e|]; try easy; cbn [app];
    rewrite ?join_cons2; cbn [join]; rewrite <- ?app_assoc; easy.
Qed.
Lemma timing_points_layout v l :
  (4 < v)%Z -> forallb (tp_ok v) l = true -> forallb (fun t => index_small (tp_sample_index t)) l = true ->
  timing_points_to_string l v = ROk (Some (text_of_lines (map tp_text l))).
Proof.
  intros Hv H Hs. rewrite forallb_forall in H, Hs. unfold timing_points_to_string.
  rewrite (run_list_map_ok _ tp_text); [now rewrite text_of_lines_join|].
  intros t Ht. apply tp_layout; auto.
Qed.

Lemma sound_layout h : hit_sound_to_string h = print_Z (sound_number h).
Proof. destruct h as [[] [] [] []]; reflexivity. Qed.
Lemma type_layout o : (0 <= ho_combo_skip_count o <= 7)%Z -> ho_type_flags o = type_number o.
Proof.
  destruct o as [pos time p nc sk snd_ hs]. unfold ho_type_flags, type_number.
  cbn [ho_combo_skip_count ho_obj_params ho_new_combo]. intros H.
  assert (Hs : (sk = 0 \/ sk = 1 \/ sk = 2 \/ sk = 3 \/ sk = 4 \/ sk = 5 \/ sk = 6 \/ sk = 7)%Z) by lia.
  clear H. destruct nc; repeat (destruct Hs as [->|Hs]); try subst sk; now destruct p.
Qed.
Lemma sample_layout v h : sample_in_version v (Some h) = true -> hs_text v h = sample_text v h.
Proof.
  intros H. cbn in H. unfold hs_text, hit_sample_to_string, sample_text.
  replace ((3 <=? v)%Z && (v <=? 9)%Z) with false by lia.
  destruct (Z.ltb_spec v 12).
  - replace ((10 <=? v)%Z && (v <=? 11)%Z) with true by lia. now rewrite app_nil_r.
  - replace ((10 <=? v)%Z && (v <=? 11)%Z) with false by lia. now rewrite <- !app_assoc.
Qed.
Lemma hit_sample_layout v h : (10 <= v)%Z -> hit_sample_to_string h v = Some (sample_text v h).
Proof.
  intros Hv. unfold hit_sample_to_string, sample_text.
  replace ((3 <=? v)%Z && (v <=? 9)%Z) with false by lia.
  destruct (Z.ltb_spec v 12).
  - replace ((10 <=? v)%Z && (v <=? 11)%Z) with true by lia. now rewrite app_nil_r.
  - replace ((10 <=? v)%Z && (v <=? 11)%Z) with false by lia. now rewrite <- !app_assoc.
Qed.
Lemma pipe_ext {A} (f g : A -> str) l : (forall x, f x = g x) -> pipe_vec_to_string f l = bars (map g l).
Proof. intros H. rewrite bars_join. unfold pipe_vec_to_string. f_equal. now apply map_ext. Qed.
Lemma join_fields (l : list str) x : join (lit ",") (l ++ [x]) = join (lit ",") l ++ match l with [] => [] | _ => lit "," end ++ x.
Proof. destruct l as [|a l]; [easy|]. now rewrite join_snoc. Qed.
Lemma curve_layout p :
  curve_text p = bars (curve_letter (sl_curve_type p) :: map point_text (sl_curve_points p)).
Proof.
  unfold curve_text. destruct (sl_curve_points p) as [|x l]; [cbn; now rewrite app_nil_r|].
  rewrite (pipe_ext curve_point_to_string point_text) by easy.
  rewrite !bars_join. change (map point_text (x :: l)) with (point_text x :: map point_text l).
  rewrite join_cons2. easy.
Qed.
Lemma ho_layout v o :
  (4 < v)%Z -> ho_ok v o = true -> ho_to_string v o = ROk (ho_text v o).
Proof.
  intros Hv H. unfold ho_ok in H. rewrite !andb_true_iff in H. destruct H as [[Hr Hk] Hs].
  unfold ho_read in Hr. rewrite !andb_true_iff in Hr. destruct Hr as [[[[_ Hs1] Hs2] Hp] _].
  rewrite ho_print by easy. f_equal. unfold ho_line, ho_text.
  rewrite commas_join. unfold ho_type_to_string. rewrite type_layout by lia. rewrite sound_layout.
  assert (Hst : sample_tail v (ho_hitsample o)
                = match sample_field v (ho_hitsample o) with [] => [] | l => lit "," ++ join (lit ",") l end).
  { destruct (ho_hitsample o) as [h|]; [|easy]. cbn. now rewrite sample_layout. }
  assert (Ht : params_tail v o = match params_text v o with [] => [] | l => lit "," ++ join (lit ",") l end).
  { unfold params_tail, params_text. destruct (ho_obj_params o) as [|p|t|t].
    - exact Hst.
    - rewrite curve_layout. cbn [app]. rewrite !join_cons2. do 5 f_equal. unfold edges_tail.
      destruct (sl_edge_sounds_short_hand p); [cbn [join]; now rewrite app_nil_r|].
      rewrite join_cons2. do 2 f_equal.
      rewrite (pipe_ext hit_sound_to_string (fun h => print_Z (sound_number h))) by apply sound_layout.
      destruct (sl_edge_sets_shorthand p); [cbn [join]; now rewrite app_nil_r|].
      rewrite join_cons2. do 2 f_equal.
      rewrite (pipe_ext edge_set_to_string edge_set_text) by easy. rewrite Hst.
      destruct (ho_hitsample o); [|cbn [sample_field join]; now rewrite app_nil_r].
      cbn [sample_field]. now rewrite join_cons2.
    - rewrite Hst. destruct (ho_hitsample o); cbn [sample_field]; rewrite ?join_cons2; cbn [join];
        now rewrite ?app_nil_r.
    - cbn [join]. destruct (ho_hitsample o) as [h|]; [|easy]. now rewrite sample_layout. }
  rewrite Ht. destruct (params_text v o) as [|x l].
  - cbn [app]. rewrite !join_cons2. cbn [join]. now rewrite app_nil_r.
  - cbn [app]. now rewrite !join_cons2.
Qed.
Lemma hit_objects_layout v l :
  (4 < v)%Z -> forallb (ho_ok v) l = true ->
  hit_objects_to_string l v = ROk (Some (text_of_lines (map (ho_text v) l))).
Proof.
  intros Hv H. rewrite forallb_forall in H. unfold hit_objects_to_string.
  rewrite (run_list_map_ok _ (ho_text v)); [now rewrite text_of_lines_join|].
  intros o Ho. apply ho_layout; auto.
Qed.

(** Printing and reading at the documented text. *)
Lemma colours_text_round_trip v l :
  (4 < v)%Z -> forallb colour_ok l = true -> forallb combo_nonneg l = true ->
  colours_to_string l v = Some (text_of_lines (map colour_text l))
  /\ colours_from_str (text_of_lines (map colour_text l)) v = ROk (Some l).
Proof.
  intros Hv Hl Hc. destruct (colours_round_trip v l (new_not_old v Hv) Hl Hc) as (s & Hs & Hr).
  rewrite colours_layout in * by easy. now injection Hs as ->.
Qed.
Lemma colours_text_negative v l n x :
  (4 < v)%Z -> forallb colour_ok l = true -> In (Combo n x) l -> (n < 0)%Z ->
  colours_to_string l v = Some (text_of_lines (map colour_text l))
  /\ exists e, colours_from_str (text_of_lines (map colour_text l)) v = RErr e.
Proof.
  intros Hv Hl Hi Hn. destruct (colours_negative v l n x (new_not_old v Hv) Hl Hi Hn) as (s & e & Hs & Hr).
  rewrite colours_layout in * by easy. injection Hs as ->. eauto.
Qed.
Lemma timing_points_text_round_trip v l :
  (4 < v)%Z -> forallb (tp_ok v) l = true -> forallb (fun t => index_small (tp_sample_index t)) l = true ->
  timing_points_to_string l v = ROk (Some (text_of_lines (map tp_text l)))
  /\ timing_points_from_str (text_of_lines (map tp_text l)) v = ROk (Some l).
Proof.
  intros Hv Hl Hc. destruct (timing_points_round_trip v l Hv Hl Hc) as (s & Hs & Hr).
  rewrite timing_points_layout in * by easy. now injection Hs as ->.
Qed.
Lemma hit_objects_text_round_trip v l :
  (4 < v)%Z -> forallb (ho_ok v) l = true ->
  hit_objects_to_string l v = ROk (Some (text_of_lines (map (ho_text v) l)))
  /\ hit_objects_from_str (text_of_lines (map (ho_text v) l)) v = ROk (Some l).
Proof.
  intros Hv Hl. destruct (hit_objects_round_trip v l Hv Hl) as (s & Hs & Hr).
  rewrite hit_objects_layout in * by easy. now injection Hs as ->.
Qed.
Lemma hit_sample_text_round_trip v h :
  (12 <= v)%Z -> hit_sample_ok h = true ->
  hit_sample_to_string h v = Some (sample_text v h)
  /\ hit_sample_from_str (sample_text v h) = ROk (Some h).
Proof.
  intros Hv Hl. destruct (hit_sample_round_trip h v Hv Hl) as (s & Hs & Hr).
  rewrite hit_sample_layout in * by lia. now injection Hs as ->.
Qed.
Lemma hit_sample_text_mid v h :
  (10 <= v <= 11)%Z -> hit_sample_ok h = true ->
  hit_sample_to_string h v = Some (sample_text v h)
  /\ hit_sample_from_str (sample_text v h)
     = ROk (Some (mk_hit_sample (hs_normal h) (hs_addition h) (hs_index h) None [])).
Proof.
  intros Hv Hl. destruct (hit_sample_round_trip_mid h v Hv Hl) as (s & Hs & Hr).
  rewrite hit_sample_layout in * by lia. now injection Hs as ->.
Qed.

(** A section is read line by line. *)
Lemma parse_lines_concat {A E} (f : str -> res A E) s xs :
  parse_lines f 0 (lines s) = ROk xs <->
  exists ls, Forall2 (fun l x => parse_lines f 0 (lines l) = ROk x) (lines s) ls /\ xs = concat ls.
Proof.
  rewrite parse_lines_ok.
  assert (Hl : forall l, In l (lines s) -> lines l = [] /\ is_blank l = true \/ lines l = [l]).
  { intros l Hi. apply In_nth_error in Hi as [n Hn].
    destruct l as [|c l]; [now left|]. right. apply lines_single; [|easy]. now apply line_no_nl in Hn. }
  revert xs. induction (lines s) as [|l ls IH]; intros xs; cbn [filter].
  - split; [|intros (ls & H & ->); inversion H; constructor].
    intros H. inversion H. exists []. now split.
  - assert (IH' : forall l, In l ls -> lines l = [] /\ is_blank l = true \/ lines l = [l]).
    { intros l' Hl'. apply Hl. now right. }
    specialize (IH IH'). destruct (Hl l (or_introl eq_refl)) as [[El Eb]|El].
    + rewrite Eb. cbn [negb]. rewrite IH. split.
      * intros (ys & H & ->). exists ([] :: ys). split; [|easy]. constructor; [now rewrite El|easy].
      * intros (ys & H & ->). inversion H as [|? y ? ys' H1 H2]; subst. rewrite El in H1. injection H1 as <-.
        now exists ys'.
    + destruct (is_blank l) eqn:Eb; cbn [negb].
      * rewrite IH. split.
        -- intros (ys & H & ->). exists ([] :: ys). split; [|easy]. constructor; [|easy].
           rewrite El. cbn [parse_lines]. now rewrite Eb.
        -- intros (ys & H & ->). inversion H as [|? y ? ys' H1 H2]; subst. rewrite El in H1.
           cbn [parse_lines] in H1. rewrite Eb in H1. injection H1 as <-. now exists ys'.
      * split.
        -- intros H. inversion H as [|? x ? xs' H1 H2]; subst. apply IH in H2 as (ys & H2 & ->).
           exists ([x] :: ys). split; [|easy]. constructor; [|easy].
           rewrite El. cbn [parse_lines]. rewrite Eb, H1. easy.
        -- intros (ys & H & ->). inversion H as [|? y ? ys' H1 H2]; subst. rewrite El in H1.
           cbn [parse_lines] in H1. rewrite Eb in H1. destruct (f l) as [a|?|?] eqn:Ef; try easy.
           cbn in H1. injection H1 as <-. cbn [concat app]. constructor; [easy|]. apply IH. now exists ys'.
Qed.
Lemma flatten_concat {A} (ls : list (list (option A))) :
  flatten_opt (concat ls) = concat (map flatten_opt ls).
Proof.
  unfold flatten_opt. induction ls as [|l ls IH]; [easy|]. cbn [concat map].
  rewrite <- IH. apply flat_map_app.
Qed.
Lemma Forall2_flatten {A} (P : str -> list (option A) -> Prop) (Q : str -> list A -> Prop) ls xs :
  (forall l y, Q l y <-> exists x, P l x /\ y = flatten_opt x) ->
  (exists ys, Forall2 P ls ys /\ xs = flatten_opt (concat ys)) <->
  (exists ys, Forall2 Q ls ys /\ xs = concat ys).
Proof.
  intros HQ. split.
  - intros (ys & H & ->). exists (map flatten_opt ys). split; [|apply flatten_concat].
    induction H; cbn; constructor; [|easy]. apply HQ. eauto.
  - intros (ys & H & ->).
    assert (Hz : exists zs, Forall2 P ls zs /\ ys = map flatten_opt zs).
    { induction H as [|l y ls ys H1 H2 IH]; [now exists []|].
      apply HQ in H1 as (z & Hz & ->). destruct IH as (zs & Hzs & ->). exists (z :: zs). split; [|easy].
      now constructor. }
    destruct Hz as (zs & Hzs & ->). exists zs. split; [easy|]. now rewrite flatten_concat.
Qed.
Lemma colours_linewise v s l : (4 < v)%Z ->
  colours_from_str s v = ROk (Some l) <->
  exists ls, Forall2 (fun line x => colours_from_str line v = ROk (Some x)) (lines s) ls /\ l = concat ls.
Proof.
  intros Hv. unfold colours_from_str. rewrite (new_not_old v Hv).
  assert (Hr : forall t x, rmap (fun l => Some (flatten_opt l)) (parse_lines (colour_from_str v) 0 (lines t))
                           = ROk (Some x)
               <-> exists y, parse_lines (colour_from_str v) 0 (lines t) = ROk y /\ x = flatten_opt y).
  { intros t x. destruct (parse_lines (colour_from_str v) 0 (lines t)) as [y|?|?]; cbn; split; try easy.
    - intros [= <-]. eauto.
    - now intros (z & [= ->] & ->).
    - now intros (z & ? & _).
    - now intros (z & ? & _). }
  rewrite Hr. rewrite <- (Forall2_flatten
    (fun t y => parse_lines (colour_from_str v) 0 (lines t) = ROk y)) by apply Hr.
  split.
  - intros (y & Hy & ->). apply parse_lines_concat in Hy as (ls & Hls & ->). eauto.
  - intros (ys & Hys & ->). exists (concat ys). split; [|easy]. apply parse_lines_concat. eauto.
Qed.
Lemma hit_objects_linewise v s l :
  hit_objects_from_str s v = ROk (Some l) <->
  exists ls, Forall2 (fun line x => hit_objects_from_str line v = ROk (Some x)) (lines s) ls /\ l = concat ls.
Proof.
  unfold hit_objects_from_str.
  assert (Hr : forall A E (r : res A E) x, rmap Some r = ROk (Some x) <-> r = ROk x).
  { intros A E [y|?|?] x; cbn; split; congruence. }
  rewrite Hr, parse_lines_concat. split; intros (ys & H & ->); exists ys; (split; [|easy]);
    (induction H; constructor; [now apply Hr|easy]).
Qed.
Lemma timing_points_linewise v s l :
  timing_points_from_str s v = ROk (Some l) <->
  exists ls, Forall2 (fun line x => timing_points_from_str line v = ROk (Some x)) (lines s) ls
             /\ l = concat ls.
Proof.
  assert (Hr : forall t x, timing_points_from_str t v = ROk (Some x)
               <-> exists y, parse_lines (tp_from_str v) 0 (lines t) = ROk y /\ x = flatten_opt y).
  { intros t x. rewrite timing_points_from_str_eq.
    destruct (parse_lines (tp_from_str v) 0 (lines t)) as [y|?|?]; cbn; split; try easy.
    - intros [= <-]. eauto.
    - now intros (z & [= ->] & ->).
    - now intros (z & ? & _).
    - now intros (z & ? & _). }
  rewrite Hr. rewrite <- (Forall2_flatten
    (fun t y => parse_lines (tp_from_str v) 0 (lines t) = ROk y)) by apply Hr.
  split.
  - intros (y & Hy & ->). apply parse_lines_concat in Hy as (ls & Hls & ->). eauto.
  - intros (ys & Hys & ->). exists (concat ys). split; [|easy]. apply parse_lines_concat. eauto.
Qed.
