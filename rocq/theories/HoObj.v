(** Printing and reading back of hit objects. *)
From Coq Require Import String List NArith ZArith Bool Lia.
From Verif Require Import Str Num Nom Dec Parsers Colours TimingPoints HitObjects Spec StrFacts NumFacts
  NomFacts DecFacts LineFacts ColoursFacts FieldFacts TpFacts HoFacts HoRound.
Import ListNotations.
Local Open Scope N_scope.

(** ** well-formed hit objects *)

(** ** pieces *)
Lemma forallb_dec (f : char -> bool) d :
  (forall c, dec_char c = true -> f c = true) ->
  match d with DNum _ => true | DRaw s => forallb f s end = true -> forallb f (print_decimal d) = true.
Proof.
  intros Hf. destruct d as [r|s]; cbn; [|easy]. intros _. eapply forallb_impl; [exact Hf|apply print_rdec_chars].
Qed.
Lemma dec_char_range c : dec_char c = true -> (48 <= c <= 57) \/ c = 45 \/ c = 46.
Proof.
  unfold dec_char. rewrite !orb_true_iff. intros [[H|H]|H].
  - left. now apply is_digit_range in H.
  - apply N.eqb_eq in H. auto.
  - apply N.eqb_eq in H. auto.
Qed.
Ltac chartest := intros c Hc; apply dec_char_range in Hc;
  repeat match goal with |- context [?a =? ?b] => destruct (N.eqb_spec a b); [subst; lia|] end; easy.
Lemma dec_item_print d : dec_item d = true -> item_text (print_decimal d) = true.
Proof.
  apply (forallb_dec item_char). unfold item_char. chartest.
Qed.
Lemma dec_no_colon_print d : dec_no_colon d = true -> no_colon (print_decimal d) = true.
Proof. apply (forallb_dec (fun c => negb (c =? 58))). chartest. Qed.
Lemma dec_no_nl_print d : dec_no_nl d = true -> no_nl (print_decimal d) = true.
Proof. apply (forallb_dec (fun c => negb (c =? 10))). chartest. Qed.
Lemma item_app a b : item_text (a ++ b) = item_text a && item_text b.
Proof. apply forallb_app. Qed.
Lemma print_Z_item z : item_text (print_Z z) = true.
Proof.
  eapply forallb_impl; [|apply print_Z_chars]. intros c H. unfold item_char.
  repeat match goal with |- context [?a =? ?b] => destruct (N.eqb_spec a b); [subst; discriminate|] end; easy.
Qed.
Lemma point_print p : point_ok p = true ->
  item_text (curve_point_to_string p) = true /\ curve_point_from_str (curve_point_to_string p) = ROk (Some p).
Proof.
  unfold point_ok. rewrite !andb_true_iff. intros [[[[Hx Hy] Ix] Iy] Cx]. unfold curve_point_to_string. split.
  - rewrite !item_app, !dec_item_print by easy. easy.
  - unfold curve_point_from_str.
    assert (E : curve_point_parser (print_decimal (pos_x p) ++ lit ":" ++ print_decimal (pos_y p)) = POk [] p).
    { unfold curve_point_parser. eapply pbind_step.
      - eapply terminated_step.
        + apply context_ok. eapply map_res_ok.
          * apply take_while_app; [now apply dec_no_colon_print|easy].
          * unfold parse_decimal. now rewrite decimal_print_parse.
        + apply context_ok, tag_app.
      - destruct p as [x y]. apply (pmap_step (fun y => mk_pos x y)). apply context_ok.
        eapply map_res_ok; [easy|]. cbn [pos_y] in *. unfold parse_decimal. now rewrite decimal_print_parse. }
    now rewrite E.
Qed.
Lemma edge_set_print x : edge_set_ok x = true ->
  item_text (edge_set_to_string x) = true /\ edge_set_from_str (edge_set_to_string x) = ROk (Some x).
Proof.
  unfold edge_set_ok. rewrite andb_true_iff. intros [Hn Ha]. unfold edge_set_to_string. split.
  - rewrite !item_app. unfold sample_set_to_string. now rewrite !print_Z_item.
  - unfold edge_set_from_str.
    assert (E : edge_set_parser (sample_set_to_string (es_normal x) ++ lit ":" ++ sample_set_to_string (es_addition x)) = POk [] x).
    { unfold edge_set_parser. eapply pbind_step.
      - eapply terminated_step.
        + apply context_ok. eapply map_res_ok.
          * apply take_while_app; [apply print_Z_no_colon|easy].
          * now rewrite sample_set_print.
        + apply context_ok, tag_app.
      - destruct x as [n a]. apply (pmap_step (fun a => mk_edge_set n a)). apply context_ok.
        apply vrest. cbn [es_addition] in *. now rewrite sample_set_print. }
    now rewrite E.
Qed.
Lemma hit_sound_item h :
  item_text (hit_sound_to_string h) = true /\ hit_sound_from_str (hit_sound_to_string h) = ROk (Some h).
Proof.
  split; [|apply hit_sound_print]. destruct (hit_sound_num h) as [z ->]. apply print_Z_item.
Qed.

Lemma forallb_pipe {A} (f : char -> bool) (pr : A -> str) l :
  f 124 = true -> (forall x, In x l -> forallb f (pr x) = true) -> forallb f (pipe_vec_to_string pr l) = true.
Proof.
  intros Hf H. unfold pipe_vec_to_string. destruct l as [|x l]; [easy|]. rewrite pipe_join, forallb_app.
  rewrite (H x) by now left. cbn [andb]. assert (H2 : forall y, In y l -> forallb f (pr y) = true).
  { intros. apply H. now right. }
  clear H. induction l as [|y l IH]; [easy|]. cbn [flat_map]. rewrite !forallb_app, (H2 y), IH.
  - cbn. now rewrite Hf.
  - intros. apply H2. now right.
  - now left.
Qed.
Lemma pipe_any {C A E} (f : str -> res (option A) E) (pr : A -> str) l rest e :
  (forall x, In x l -> item_text (pr x) = true /\ f (pr x) = ROk (Some x)) -> f [] = RErr e ->
  stop_comma rest = true ->
  @pipe_vec_versioned_map C A E f (pipe_vec_to_string pr l ++ rest) = POk rest l.
Proof.
  intros H He Hr. destruct l as [|x l].
  - cbn [pipe_vec_to_string map join app]. unfold pipe_vec_to_string. cbn. eapply pipe_vec_empty; eauto.
  - now apply pipe_vec_print.
Qed.
Lemma stop_comma_stops s : stop_comma s = true -> stops (fun c => negb (c =? 44)) s = true.
Proof. destruct s as [|c s]; [easy|]. cbn. now rewrite negb_involutive. Qed.
Section StopField.
  Context {C : Type}.
  Lemma field_stop {A E} (f : str -> res A E) a b x :
    no_comma a = true -> f a = ROk x -> stop_comma b = true ->
    @comma_field_type C A E f (a ++ b) = POk b x.
  Proof.
    intros H Hf Hb. eapply map_res_ok; [|exact Hf]. apply take_while_app; [easy|now apply stop_comma_stops].
  Qed.
  Lemma vfield_stop {A E} (f : str -> res (option A) E) a b x :
    no_comma a = true -> f a = ROk (Some x) -> stop_comma b = true ->
    @comma_field_versioned_type C A E f (a ++ b) = POk b x.
  Proof.
    intros H Hf Hb. eapply map_res_ok.
    - apply take_while_app; [easy|now apply stop_comma_stops].
    - unfold v_unwrap. now rewrite Hf.
  Qed.
  Lemma dfield_stop d b :
    wf_dec_field d = true -> stop_comma b = true ->
    @comma_field_type C decimal unit (@parse_decimal unit) (print_decimal d ++ b) = POk b d.
  Proof.
    intros H Hb. apply field_stop; [now apply wf_dec_field_no_comma|now apply parse_print_decimal|easy].
  Qed.
End StopField.

(** ** the object type *)
Lemma type_flags_ok o :
  (0 <= ho_combo_skip_count o <= 7)%Z ->
  let ty := ho_type_flags o in
  (0 <= ty <= 255)%Z /\ nth_bit ty 2 = ho_new_combo o /\ Z.land (Z.shiftr ty 4) 7 = ho_combo_skip_count o
  /\ nth_bit ty 0 = match ho_obj_params o with HitCircle => true | _ => false end
  /\ nth_bit ty 1 = match ho_obj_params o with Slider _ => true | _ => false end
  /\ nth_bit ty 3 = match ho_obj_params o with Spinner _ => true | _ => false end
  /\ nth_bit ty 7 = match ho_obj_params o with OsuManiaHold _ => true | _ => false end.
Proof.
  destruct o as [pos time p nc sk snd_ hs]. unfold ho_type_flags.
  cbn [ho_combo_skip_count ho_obj_params ho_new_combo]. intros H.
  assert (Hs : (sk = 0 \/ sk = 1 \/ sk = 2 \/ sk = 3 \/ sk = 4 \/ sk = 5 \/ sk = 6 \/ sk = 7)%Z) by lia.
  clear H. destruct nc; repeat (destruct Hs as [->|Hs]); try subst sk;
    destruct p; vm_compute; repeat split; congruence.
Qed.

(** ** the printed line *)
Definition hs_text (v : version) (h : hit_sample) : str :=
  match hit_sample_to_string h v with Some t => t | None => [] end.
Definition sample_tail (v : version) (hs : option hit_sample) : str :=
  match hs with Some h => lit "," ++ hs_text v h | None => [] end.
Definition edges_tail (v : version) (p : slide_params) (hs : option hit_sample) : str :=
  if sl_edge_sounds_short_hand p then []
  else lit "," ++ pipe_vec_to_string hit_sound_to_string (sl_edge_sounds p)
       ++ (if sl_edge_sets_shorthand p then []
           else lit "," ++ pipe_vec_to_string edge_set_to_string (sl_edge_sets p) ++ sample_tail v hs).
Definition curve_text (p : slide_params) : str :=
  curve_type_to_string (sl_curve_type p)
  ++ match sl_curve_points p with [] => [] | l => lit "|" ++ pipe_vec_to_string curve_point_to_string l end.
Definition params_tail (v : version) (o : hit_object) : str :=
  match ho_obj_params o with
  | HitCircle => sample_tail v (ho_hitsample o)
  | Spinner t => lit "," ++ print_decimal t ++ sample_tail v (ho_hitsample o)
  | OsuManiaHold t =>
      lit "," ++ print_decimal t ++ lit ":"
      ++ match ho_hitsample o with Some h => hs_text v h | None => [] end
  | Slider p =>
      lit "," ++ curve_text p ++ lit "," ++ print_Z (sl_slides p) ++ lit "," ++ print_decimal (sl_length p)
      ++ edges_tail v p (ho_hitsample o)
  end.
Definition ho_line (v : version) (o : hit_object) : str :=
  print_decimal (pos_x (ho_position o)) ++ lit "," ++ print_decimal (pos_y (ho_position o)) ++ lit ","
  ++ print_decimal (ho_time o) ++ lit "," ++ ho_type_to_string o ++ lit ","
  ++ hit_sound_to_string (ho_hitsound o) ++ params_tail v o.

Lemma hs_text_some v h : sample_in_version v (Some h) = true -> hit_sample_to_string h v = Some (hs_text v h).
Proof.
  cbn. intros H. unfold hs_text. unfold hit_sample_to_string.
  replace ((3 <=? v)%Z && (v <=? 9)%Z) with false by lia. now destruct ((10 <=? v)%Z && (v <=? 11)%Z).
Qed.
Lemma hs_text_parse v h :
  sample_in_version v (Some h) = true -> hit_sample_ok h = true -> hit_sample_from_str (hs_text v h) = ROk (Some h).
Proof.
  intros Hv Hok. cbn in Hv. unfold hs_text.
  destruct (Z.leb_spec 12 v) as [Hge|Hlt].
  - destruct (hit_sample_round_trip h v Hge Hok) as (s & -> & H). exact H.
  - cbn in Hv. rewrite !andb_true_iff in Hv. destruct Hv as [[Hv Hvol] Hf].
    destruct (hit_sample_round_trip_mid h v ltac:(lia) Hok) as (s & -> & H). rewrite H. do 2 f_equal.
    destruct h as [n a i [vol|] [|c f]]; easy.
Qed.
Lemma plain_app a b :
  no_nl a = true -> no_nl b = true -> no_cr_end b = true -> (b = [] -> no_cr_end a = true) ->
  plain_line (a ++ b) = true.
Proof.
  intros Ha Hb Hc He. unfold plain_line. rewrite no_nl_app, Ha, Hb. cbn.
  destruct b as [|x b]; [rewrite app_nil_r; now apply He|].
  rewrite ends_with_char_app by easy. exact Hc.
Qed.
Lemma no_cr_print_Z a z : no_cr_end (a ++ print_Z z) = true.
Proof.
  destruct (print_Z_last z) as (s & d & E & Hd). unfold no_cr_end. rewrite E, app_assoc, ends_with_char_snoc.
  destruct (N.eqb_spec d 13); [subst; discriminate|easy].
Qed.
Lemma no_cr_colon a : no_cr_end (a ++ lit ":") = true.
Proof. unfold no_cr_end. change (lit ":") with [58]. now rewrite ends_with_char_snoc. Qed.
Lemma no_cr_comma a : no_cr_end (a ++ lit ",") = true.
Proof. unfold no_cr_end. change (lit ",") with [44]. now rewrite ends_with_char_snoc. Qed.
(** the text of a sample within a line *)
Lemma hs_text_end v h a :
  sample_in_version v (Some h) = true -> no_nl (hs_filename h) = true -> no_cr_end (hs_filename h) = true ->
  no_nl a = true -> plain_line (a ++ hs_text v h) = true.
Proof.
  intros Hv Hn Hc Ha. cbn in Hv. unfold hs_text, hit_sample_to_string.
  replace ((3 <=? v)%Z && (v <=? 9)%Z) with false by lia.
  destruct ((10 <=? v)%Z && (v <=? 11)%Z).
  - unfold ho_index_to_string, sample_set_to_string. rewrite !app_assoc. apply plain_print_Z.
    now rewrite !no_nl_app, !print_Z_no_nl, Ha.
  - rewrite !app_assoc. apply plain_app; [| easy | easy |].
    + unfold ho_index_to_string, sample_set_to_string. now rewrite !no_nl_app, !print_Z_no_nl, Ha.
    + intros _. apply no_cr_colon.
Qed.
Lemma hs_text_no_nl v h : no_nl (hs_filename h) = true -> no_nl (hs_text v h) = true.
Proof.
  intros Hn. unfold hs_text, hit_sample_to_string. destruct (_ && _); [easy|].
  unfold ho_index_to_string, sample_set_to_string.
  destruct (_ && _); now rewrite !no_nl_app, !print_Z_no_nl, ?Hn.
Qed.
Lemma hs_text_number v h : sample_in_version v (Some h) = true ->
  exists z t, hs_text v h = print_Z z ++ t.
Proof.
  intros Hv. cbn in Hv. unfold hs_text, hit_sample_to_string.
  replace ((3 <=? v)%Z && (v <=? 9)%Z) with false by lia.
  unfold sample_set_to_string. clear Hv; destruct ((10 <=? v)%Z && (v <=? 11)%Z); rewrite <- ?app_assoc; do 2 eexists; reflexivity.
Qed.

Lemma join_snoc sep l x : l <> [] -> join sep (l ++ [x]) = join sep l ++ sep ++ x.
Proof.
  intros H. destruct l as [|a l]; [easy|]. clear H. revert a.
  induction l as [|b l IH]; intros a; [easy|]. cbn [app]. rewrite !join_cons2, <- !app_assoc.
  now rewrite <- IH.
Qed.

Lemma ho_print v o :
  (4 < v)%Z -> params_ok (ho_obj_params o) (ho_hitsample o) = true ->
  sample_in_version v (ho_hitsample o) = true ->
  ho_to_string v o = ROk (ho_line v o).
Proof.
  intros Hv Hp Hs. unfold ho_to_string, shift_out. rewrite (new_not_old v Hv). cbn [rbind].
  replace (v =? 3)%Z with false by lia.
  assert (Hsm : match ho_hitsample o with
                | Some h => match hit_sample_to_string h v with Some t => [t] | None => [] end
                | None => [] end
                = match ho_hitsample o with Some h => [hs_text v h] | None => [] end).
  { destruct (ho_hitsample o) as [h|]; [|easy]. now rewrite (hs_text_some v h Hs). }
  rewrite Hsm. clear Hsm. unfold ho_line, params_tail.
  destruct (ho_obj_params o) as [|p|t|t].
  - f_equal. destruct (ho_hitsample o) as [h|]; cbn [app sample_tail]; rewrite !join_cons2; cbn [join];
      rewrite <- ?app_assoc, ?app_nil_r; easy.
  - cbn in Hp. unfold slide_ok, shorthand_ok in Hp. rewrite !andb_true_iff in Hp.
    destruct Hp as [[[[_ _] _] _] Hsh].
    cbn [orb]. f_equal. cbn [app]. rewrite !join_cons2. cbn [join]. rewrite <- !app_assoc.
    do 9 f_equal. unfold curve_text, edges_tail.
    destruct (sl_edge_sounds_short_hand p).
    + rewrite !andb_true_iff in Hsh. destruct Hsh as [[[H1 H2] H3] H4].
      rewrite H1, H2, H3. destruct (ho_hitsample o); [easy|]. cbn [negb orb app].
      destruct (sl_curve_points p) as [|cp cps]; cbn [is_empty negb app]; rewrite ?join_cons2; cbn [join];
        rewrite <- ?app_assoc, ?app_nil_r; easy.
    + cbn [negb]. rewrite orb_true_r. cbn [orb].
      destruct (sl_edge_sets_shorthand p).
      * rewrite !andb_true_iff in Hsh. destruct Hsh as [H2 H4].
        rewrite H2. destruct (ho_hitsample o); [easy|]. cbn [negb orb app].
        destruct (sl_curve_points p) as [|cp cps]; cbn [is_empty negb app]; rewrite ?join_cons2; cbn [join];
          rewrite <- ?app_assoc, ?app_nil_r; easy.
      * cbn [negb]. rewrite orb_true_r. cbn [orb].
        destruct (ho_hitsample o); cbn [sample_tail];
        destruct (sl_curve_points p) as [|cp cps]; cbn [is_empty negb app]; rewrite ?join_cons2; cbn [join];
          rewrite <- ?app_assoc, ?app_nil_r; easy.
  - cbn [rmap]. f_equal. destruct (ho_hitsample o) as [h|]; cbn [app sample_tail]; rewrite !join_cons2; cbn [join];
      rewrite <- ?app_assoc, ?app_nil_r; easy.
  - cbn [rmap]. f_equal. destruct (ho_hitsample o) as [h|]; cbn [app sample_tail]; rewrite !join_cons2; cbn [join];
      rewrite <- ?app_assoc, ?app_nil_r; easy.
Qed.

(** ** reading the line *)
Lemma sample_tail_stop v hs : stop_comma (sample_tail v hs) = true.
Proof. now destruct hs. Qed.
Lemma sample_tail_parse v hs :
  sample_in_version v hs = true -> match hs with Some h => hit_sample_ok h = true | None => True end ->
  ho_hitsample_p (sample_tail v hs) = POk [] hs.
Proof.
  intros Hv Hok. unfold ho_hitsample_p. destruct hs as [h|]; [|reflexivity]. cbn [sample_tail].
  destruct (@nothing_comma ho_err (hs_text v h)) as [e E].
  rewrite (alt_r _ _ _ e) by now apply pmap_err. apply pmap_step.
  eapply preceded_step; [apply context_ok, comma_ok|]. apply context_ok. eapply map_res_ok; [easy|].
  now rewrite hs_text_parse.
Qed.
Lemma edges_tail_stop v p hs : stop_comma (edges_tail v p hs) = true.
Proof. unfold edges_tail. now destruct (sl_edge_sounds_short_hand p). Qed.
Lemma edge_set_empty : exists e, edge_set_from_str [] = RErr e.
Proof. eexists. reflexivity. Qed.
Lemma hit_sound_empty : exists e, hit_sound_from_str [] = RErr e.
Proof. eexists. reflexivity. Qed.
Lemma edges_tail_parse v p hs :
  slide_ok p hs = true -> sample_in_version v hs = true ->
  match hs with Some h => hit_sample_ok h = true | None => True end ->
  ho_edges (edges_tail v p hs) =
  POk [] (sl_edge_sounds p, sl_edge_sets p, hs, sl_edge_sounds_short_hand p, sl_edge_sets_shorthand p).
Proof.
  unfold slide_ok. rewrite !andb_true_iff. intros [[[[_ _] _] Hes] Hsh] Hv Hok.
  rewrite forallb_forall in Hes.
  unfold edges_tail, shorthand_ok in *. unfold ho_edges.
  destruct (sl_edge_sounds_short_hand p).
  - rewrite !andb_true_iff in Hsh. destruct Hsh as [[[H1 H2] H3] H4].
    destruct (sl_edge_sounds p), (sl_edge_sets p), hs; try easy. rewrite H3. reflexivity.
  - match goal with |- alt _ _ (lit "," ++ ?x) = _ => destruct (@nothing_comma ho_err x) as [e E] end.
    rewrite (alt_r _ _ _ e) by now apply pmap_err. clear e E.
    destruct hit_sound_empty as [e1 E1].
    eapply pbind_step.
    { eapply preceded_step; [apply context_ok, comma_ok|]. apply context_ok.
      eapply pipe_any; [intros; apply hit_sound_item|exact E1|]. now destruct (sl_edge_sets_shorthand p). }
    apply (pmap_step (fun '(sets, hs, sh) => (sl_edge_sounds p, sets, hs, false, sh)) _ _ _
             (sl_edge_sets p, hs, sl_edge_sets_shorthand p)).
    destruct (sl_edge_sets_shorthand p).
    + rewrite !andb_true_iff in Hsh. destruct Hsh as [H2 H4]. destruct (sl_edge_sets p), hs; try easy.
    + match goal with |- alt _ _ (lit "," ++ ?x) = _ => destruct (@nothing_comma ho_err x) as [e E] end.
      rewrite (alt_r _ _ _ e) by now apply pmap_err. clear e E.
      destruct edge_set_empty as [e2 E2].
      eapply pbind_step.
      { eapply preceded_step; [apply context_ok, comma_ok|]. apply context_ok.
        eapply pipe_any; [|exact E2|apply sample_tail_stop]. intros x Hx. now apply edge_set_print, Hes. }
      apply (pmap_step (fun hs => (sl_edge_sets p, hs, false))). now apply sample_tail_parse.
Qed.
Lemma curve_type_no c : exists a, curve_type_to_string c = [a] /\ a <> 44 /\ a <> 124.
Proof. destruct c; eexists; repeat split; try reflexivity; easy. Qed.
Lemma curve_parse v p rest :
  (4 < v)%Z -> forallb point_ok (sl_curve_points p) = true -> stop_comma rest = true ->
  ho_curve v (lit "," ++ curve_text p ++ rest) = POk rest (sl_curve_type p, sl_curve_points p).
Proof.
  intros Hv Hp Hr. rewrite forallb_forall in Hp. unfold ho_curve, curve_text.
  destruct (sl_curve_points p) as [|cp cps] eqn:Ecp.
  - apply alt_l. rewrite app_nil_r.
    apply (pmap_step (fun c => (c, @nil curve_point))).
    eapply preceded_step; [apply context_ok, comma_ok|]. apply context_ok.
    apply vfield_stop; [now destruct (sl_curve_type p)|apply curve_type_print|easy].
  - rewrite <- !app_assoc.
    assert (E : exists e, pmap (fun c => (c, @nil curve_point))
         (preceded (context HoMissingCurveType comma)
            (context HoInvalidCurveType (comma_field_versioned_type curve_type_from_str)))
         (lit "," ++ curve_type_to_string (sl_curve_type p) ++ lit "|" ++
           pipe_vec_to_string curve_point_to_string (cp :: cps) ++ rest) = PErr e).
    { eexists. apply pmap_err. rewrite (preceded_ok _ _ _ _ _ (context_ok _ _ _ _ _ (comma_ok _))).
      apply context_err. unfold comma_field_versioned_type, map_res, comma_field.
      assert (Hno : no_comma (curve_type_to_string (sl_curve_type p) ++ lit "|" ++
                 pipe_vec_to_string curve_point_to_string (cp :: cps)) = true).
      { rewrite !no_comma_app. replace (no_comma (curve_type_to_string (sl_curve_type p))) with true
          by now destruct (sl_curve_type p). cbn [andb]. apply (forallb_pipe _ _ (cp :: cps)); [easy|].
        intros x Hx. apply Hp, point_print in Hx as [Hx _]. apply (forallb_no_comma item_char); [easy|exact Hx]. }
      replace (curve_type_to_string (sl_curve_type p) ++ lit "|" ++
           pipe_vec_to_string curve_point_to_string (cp :: cps) ++ rest)
        with ((curve_type_to_string (sl_curve_type p) ++ lit "|" ++
           pipe_vec_to_string curve_point_to_string (cp :: cps)) ++ rest) by now rewrite <- !app_assoc.
      rewrite take_while_app; [|exact Hno|now apply stop_comma_stops].
      unfold v_unwrap. destruct (sl_curve_type p); reflexivity. }
    destruct E as [e E]. rewrite (alt_r _ _ _ e E). clear e E.
    eapply pbind_step.
    { eapply preceded_step; [apply context_ok, comma_ok|]. apply context_ok. eapply map_res_ok.
      - unfold take_till. apply take_while_app; [now destruct (sl_curve_type p)|easy].
      - now rewrite curve_type_print. }
    replace (v =? 3)%Z with false by lia. apply (pmap_step (fun l => (sl_curve_type p, l))).
    eapply preceded_step; [apply context_ok; apply (pchar_app 124)|]. apply context_ok.
    apply pipe_vec_print; [easy| |easy]. intros x Hx. now apply point_print, Hp.
Qed.
Lemma slider_parse v p hs :
  (4 < v)%Z -> slide_ok p hs = true -> sample_in_version v hs = true ->
  match hs with Some h => hit_sample_ok h = true | None => True end ->
  ho_slider v (lit "," ++ curve_text p ++ lit "," ++ print_Z (sl_slides p) ++ lit ","
               ++ print_decimal (sl_length p) ++ edges_tail v p hs) = POk [] (p, hs).
Proof.
  intros Hv Hp Hs Hok. pose proof Hp as Hp0. unfold slide_ok in Hp. rewrite !andb_true_iff in Hp.
  destruct Hp as [[[[Hcp Hsl] Hlen] _] _].
  unfold ho_slider. eapply pbind_step; [now apply curve_parse|].
  eapply pbind_step.
  { eapply preceded_step; [apply context_ok, comma_ok|]. apply context_ok.
    apply field_mid; [apply print_Z_no_comma|now apply parse_print_i32]. }
  eapply pbind_step.
  { eapply preceded_step; [apply context_ok, comma_ok|]. apply context_ok.
    apply dfield_stop; [easy|apply edges_tail_stop]. }
  unfold pmap. rewrite edges_tail_parse by easy. now destruct p.
Qed.
Lemma find_sub_colon a b : no_colon a = true -> find_sub (lit ":") (a ++ lit ":" ++ b) = Some (a, lit ":" ++ b).
Proof.
  change (lit ":") with [58]. induction a as [|c a IH]; intros H; [reflexivity|].
  cbn [no_colon forallb] in H. apply andb_true_iff in H as [Hc H]. apply negb_true_iff in Hc.
  cbn [app find_sub]. unfold starts_with. cbn [strip_prefix]. rewrite N.eqb_sym, Hc.
  cbn [app] in IH. rewrite IH by easy. reflexivity.
Qed.
Lemma sample_ok_of hs :
  match hs with Some h => hit_sample_read h && no_nl (hs_filename h) | None => true end = true ->
  match hs with Some h => name_kept (hs_filename h) = true | None => True end ->
  match hs with Some h => hit_sample_ok h = true | None => True end.
Proof.
  destruct hs as [h|]; [|easy]. rewrite andb_true_iff. intros [H1 _] H2.
  rewrite hit_sample_ok_split. now rewrite H1, H2.
Qed.
Lemma keeps_name o : ho_keeps o = true ->
  match ho_hitsample o with Some h => name_kept (hs_filename h) = true | None => True end.
Proof. unfold ho_keeps. destruct (ho_hitsample o); [|easy]. now rewrite andb_true_iff. Qed.
Lemma hold_parse v t h :
  (4 < v)%Z -> wf_decimal t = true -> dec_no_colon t = true ->
  sample_in_version v (Some h) = true -> hit_sample_ok h = true ->
  ho_hold v (lit "," ++ print_decimal t ++ lit ":" ++ hs_text v h) = POk [] (t, Some h).
Proof.
  intros Hv Ht Hc Hs Hok. unfold ho_hold. eapply pbind_step.
  - eapply preceded_step; [apply context_ok, comma_ok|]. eapply map_run_ok.
    + apply context_ok. eapply map_res_ok.
      * unfold take_until. rewrite find_sub_colon by now apply dec_no_colon_print. reflexivity.
      * unfold parse_decimal. now rewrite decimal_print_parse.
    + unfold shift_in. now rewrite (new_not_old v Hv).
  - apply (pmap_step (fun hs => (t, hs))). unfold ho_hold_hitsample.
    destruct (@nothing_colon ho_err (hs_text v h)) as [e E].
    rewrite (alt_r _ _ _ e) by now apply pmap_err. apply pmap_step.
    eapply preceded_step; [apply context_ok; apply (pchar_app 58)|]. apply context_ok.
    eapply map_res_ok; [easy|]. now rewrite hs_text_parse.
Qed.
Lemma params_tail_stop v o : stop_comma (params_tail v o) = true.
Proof. unfold params_tail. destruct (ho_obj_params o); try easy. apply sample_tail_stop. Qed.

Lemma ho_parse_line v o :
  (4 < v)%Z -> ho_read o = true -> ho_keeps o = true -> sample_in_version v (ho_hitsample o) = true ->
  ho_from_str v (ho_line v o) = ROk (Some o).
Proof.
  intros Hv Hr Hk Hs. unfold ho_read in Hr. rewrite !andb_true_iff in Hr.
  destruct Hr as [[[[[[Hx Hy] Ht] Hs1] Hs2] Hp] Hh].
  pose proof (sample_ok_of _ Hh (keeps_name o Hk)) as Hok. clear Hh Hk.
  destruct (type_flags_ok o ltac:(lia)) as (Hty & B2 & Bs & B0 & B1 & B3 & B7).
  set (ty := ho_type_flags o) in *.
  assert (Hc : ho_common v (ho_line v o) = POk (params_tail v o) (ho_position o, ho_time o, ty, ho_hitsound o)).
  { unfold ho_common, ho_line. eapply pbind_step; [apply context_ok; now apply dfield_mid|].
    eapply pbind_step; [eapply preceded_step; [apply context_ok, comma_ok|]; apply context_ok; now apply dfield_mid|].
    eapply pbind_step.
    { eapply map_run_ok; [eapply preceded_step; [apply context_ok, comma_ok|]; apply context_ok; now apply dfield_mid|].
      unfold shift_in. now rewrite (new_not_old v Hv). }
    eapply pbind_step.
    { eapply preceded_step; [apply context_ok, comma_ok|]. apply context_ok. unfold ho_type_to_string. fold ty.
      apply field_mid; [apply print_Z_no_comma|]. apply parse_print_i32. unfold in_i32, i32_min, i32_max. lia. }
    unfold pmap. erewrite preceded_ok by apply context_ok, comma_ok.
    erewrite context_ok.
    2:{ apply vfield_stop; [|apply hit_sound_print|apply params_tail_stop].
        destruct (hit_sound_num (ho_hitsound o)) as [z ->]. apply print_Z_no_comma. }
    now destruct (ho_position o). }
  unfold ho_from_str. rewrite Hc. rewrite skip_ok, B0, B1, B2, B3, B7, Bs. clear Hc B0 B1 B2 B3 B7 Bs.
  destruct o as [pos time p nc sk snd_ hs]. unfold params_tail. clear ty Hty.
  cbn [ho_position ho_time ho_obj_params ho_new_combo ho_combo_skip_count ho_hitsound ho_hitsample] in *.
  destruct p as [|p|t|t]; cbn [params_ok] in Hp.
  - now rewrite sample_tail_parse.
  - now rewrite slider_parse.
  - assert (E : ho_spinner v (lit "," ++ print_decimal t ++ sample_tail v hs) = POk [] (t, hs)).
    { unfold ho_spinner. eapply pbind_step.
      - eapply map_run_ok.
        + eapply preceded_step; [apply context_ok, comma_ok|]. apply context_ok.
          apply dfield_stop; [easy|apply sample_tail_stop].
        + unfold shift_in. now rewrite (new_not_old v Hv).
      - apply (pmap_step (fun hs => (t, hs))). now apply sample_tail_parse. }
    now rewrite E.
  - rewrite !andb_true_iff in Hp. destruct Hp as [[[H1 H2] H3] H4]. destruct hs as [h|]; [|easy].
    now rewrite hold_parse.
Qed.

(** ** the line within the section *)
Lemma no_nl_pipe {A} (pr : A -> str) l :
  (forall x, In x l -> item_text (pr x) = true) -> no_nl (pipe_vec_to_string pr l) = true.
Proof.
  intros H. apply forallb_pipe; [easy|]. intros x Hx. apply (forallb_no_nl item_char); [easy|]. now apply H.
Qed.
Lemma sample_tail_plain v hs a :
  sample_in_version v hs = true ->
  match hs with Some h => no_nl (hs_filename h) = true /\ no_cr_end (hs_filename h) = true | None => True end ->
  no_nl a = true -> (hs = None -> no_cr_end a = true) -> plain_line (a ++ sample_tail v hs) = true.
Proof.
  intros Hv Hh Ha Hn. destruct hs as [h|]; cbn [sample_tail].
  - rewrite app_assoc. destruct Hh. apply hs_text_end; try easy. now rewrite no_nl_app, Ha.
  - rewrite app_nil_r. unfold plain_line. rewrite Ha. now apply Hn.
Qed.
Lemma hit_sound_no_nl h : no_nl (hit_sound_to_string h) = true.
Proof. destruct (hit_sound_num h) as [z ->]. apply print_Z_no_nl. Qed.
Lemma curve_text_no_nl p : forallb point_ok (sl_curve_points p) = true -> no_nl (curve_text p) = true.
Proof.
  intros H. rewrite forallb_forall in H. unfold curve_text. rewrite no_nl_app.
  replace (no_nl (curve_type_to_string (sl_curve_type p))) with true by now destruct (sl_curve_type p).
  destruct (sl_curve_points p) as [|x l]; [easy|]. rewrite no_nl_app, no_nl_pipe; [easy|].
  intros y Hy. now apply point_print, H.
Qed.
Lemma no_cr_pipe_sound a l : no_cr_end (a ++ lit "," ++ pipe_vec_to_string hit_sound_to_string l) = true.
Proof.
  unfold pipe_vec_to_string. destruct l as [|x l]; [rewrite app_nil_r; apply no_cr_comma|].
  rewrite pipe_join. destruct (@exists_last _ (x :: l)) as (l' & y & E); [easy|].
  rewrite app_assoc. revert x E. clear. intros x E.
  assert (G : forall l b, no_cr_end (b ++ hit_sound_to_string x ++ flat_map (fun x => lit "|" ++ hit_sound_to_string x) l) = true).
  { clear. intros l b. destruct l as [|z l].
    - cbn. rewrite app_nil_r. destruct (hit_sound_num x) as [z ->]. apply no_cr_print_Z.
    - assert (G2 : forall l b z, no_cr_end (b ++ flat_map (fun x => lit "|" ++ hit_sound_to_string x) (z :: l)) = true).
      { clear. induction l as [|w l IH]; intros b z.
        - cbn [flat_map]. rewrite app_nil_r, app_assoc. destruct (hit_sound_num z) as [q ->]. apply no_cr_print_Z.
        - cbn [flat_map] in *. rewrite app_assoc. apply IH. }
      rewrite app_assoc. apply G2. }
  apply G.
Qed.
Lemma no_cr_pipe_sets a l : no_cr_end (a ++ lit "," ++ pipe_vec_to_string edge_set_to_string l) = true.
Proof.
  unfold pipe_vec_to_string. destruct l as [|x l]; [rewrite app_nil_r; apply no_cr_comma|].
  rewrite pipe_join. rewrite app_assoc.
  assert (P : forall b z, no_cr_end (b ++ edge_set_to_string z) = true).
  { intros b z. unfold edge_set_to_string, sample_set_to_string. rewrite !app_assoc. apply no_cr_print_Z. }
  destruct l as [|z l]; [cbn; rewrite app_nil_r; apply P|].
  assert (G2 : forall l b z, no_cr_end (b ++ flat_map (fun x => lit "|" ++ edge_set_to_string x) (z :: l)) = true).
  { clear z l. induction l as [|w l IH]; intros b z.
    - cbn [flat_map]. rewrite app_nil_r, app_assoc. apply P.
    - cbn [flat_map] in *. rewrite app_assoc. apply IH. }
  rewrite app_assoc. apply G2.
Qed.
Lemma ho_line_good v o :
  ho_read o = true -> ho_keeps o = true -> sample_in_version v (ho_hitsample o) = true ->
  good_line (ho_line v o) = true.
Proof.
  intros Hr Hk Hs. unfold ho_read in Hr. rewrite !andb_true_iff in Hr.
  destruct Hr as [[[[[[Hx Hy] Ht] Hs1] Hs2] Hp] Hh].
  unfold good_line, ho_line at 2. rewrite not_blank_comma, andb_true_r.
  assert (Hsm : match ho_hitsample o with
     Some h => no_nl (hs_filename h) = true /\ no_cr_end (hs_filename h) = true | None => True end).
  { unfold ho_keeps in Hk. destruct (ho_hitsample o); [|easy]. rewrite andb_true_iff in Hh, Hk. easy. }
  set (hd := print_decimal (pos_x (ho_position o)) ++ lit "," ++ print_decimal (pos_y (ho_position o)) ++ lit ","
      ++ print_decimal (ho_time o) ++ lit "," ++ ho_type_to_string o ++ lit ","
      ++ hit_sound_to_string (ho_hitsound o)).
  assert (Hl : ho_line v o = hd ++ params_tail v o).
  { unfold ho_line, hd. now rewrite <- !app_assoc. }
  assert (Hhd : no_nl hd = true).
  { unfold hd, ho_type_to_string. rewrite !no_nl_app, !wf_dec_field_no_nl, print_Z_no_nl, hit_sound_no_nl by easy. easy. }
  assert (Hhe : no_cr_end hd = true).
  { unfold hd. rewrite !app_assoc. destruct (hit_sound_num (ho_hitsound o)) as [z ->]. apply no_cr_print_Z. }
  rewrite Hl. clear Hl. clearbody hd. unfold params_tail, ho_keeps in *.
  destruct (ho_obj_params o) as [|p|t|t]; cbn [params_ok] in Hp.
  - apply sample_tail_plain; easy.
  - unfold slide_ok in Hp. rewrite !andb_true_iff in Hp. destruct Hp as [[[[Hcp Hsl] Hlen] Hes] Hsh].
    rewrite forallb_forall in Hes.
    set (hd2 := hd ++ lit "," ++ curve_text p ++ lit "," ++ print_Z (sl_slides p) ++ lit "," ++ print_decimal (sl_length p)).
    assert (Hn2 : no_nl hd2 = true).
    { unfold hd2. now rewrite !no_nl_app, Hhd, curve_text_no_nl, print_Z_no_nl, wf_dec_field_no_nl by easy. }
    assert (Hl : hd ++ lit "," ++ curve_text p ++ lit "," ++ print_Z (sl_slides p) ++ lit ","
       ++ print_decimal (sl_length p) ++ edges_tail v p (ho_hitsample o) = hd2 ++ edges_tail v p (ho_hitsample o)).
    { unfold hd2. now rewrite <- !app_assoc. }
    rewrite Hl. clear Hl. unfold edges_tail. unfold shorthand_ok in Hsh.
    destruct (sl_edge_sounds_short_hand p).
    + rewrite app_nil_r. rewrite !andb_true_iff in Hsh. destruct Hsh as [[[H1 H2] H3] H4].
      destruct (ho_hitsample o); [easy|]. cbn [negb orb] in Hk.
      unfold plain_line. rewrite Hn2. cbn. unfold hd2. rewrite !app_assoc.
      unfold no_cr_end in Hk. destruct (print_decimal (sl_length p)) as [|c l] eqn:El.
      * rewrite app_nil_r. apply no_cr_comma.
      * rewrite ends_with_char_app by easy. exact Hk.
    + assert (Hn3 : no_nl (hd2 ++ lit "," ++ pipe_vec_to_string hit_sound_to_string (sl_edge_sounds p)) = true).
      { rewrite !no_nl_app, Hn2, no_nl_pipe; [easy|]. intros; apply hit_sound_item. }
      destruct (sl_edge_sets_shorthand p).
      * rewrite app_nil_r. unfold plain_line. rewrite Hn3. cbn. apply no_cr_pipe_sound.
      * rewrite app_assoc, !app_assoc. apply sample_tail_plain; try easy.
        -- rewrite <- !app_assoc, !no_nl_app in *. rewrite Hn2 in *. cbn [andb] in *.
           rewrite no_nl_pipe by (intros; apply hit_sound_item). cbn. apply no_nl_pipe.
           intros x Hx'. now apply edge_set_print, Hes.
        -- intros _. rewrite <- (app_assoc _ (lit ",") (pipe_vec_to_string edge_set_to_string _)).
           apply no_cr_pipe_sets.
  - rewrite app_assoc, !app_assoc. apply sample_tail_plain; try easy.
    + now rewrite !no_nl_app, Hhd, wf_dec_field_no_nl.
    + intros E. rewrite E in Hk. unfold no_cr_end in *. rewrite <- !app_assoc.
      destruct (print_decimal t) as [|c l] eqn:El.
      * rewrite app_nil_r. apply no_cr_comma.
      * rewrite app_assoc. rewrite ends_with_char_app by easy. exact Hk.
  - rewrite !andb_true_iff in Hp. destruct Hp as [[[H1 H2] H3] H4]. destruct (ho_hitsample o) as [h|]; [|easy].
    rewrite !app_assoc. destruct Hsm. apply hs_text_end; try easy.
    now rewrite !no_nl_app, Hhd, dec_no_nl_print.
Qed.

Lemma hit_objects_round_trip v l :
  (4 < v)%Z -> forallb (ho_ok v) l = true ->
  exists s, hit_objects_to_string l v = ROk (Some s) /\ hit_objects_from_str s v = ROk (Some l).
Proof.
  intros Hv H. rewrite forallb_forall in H.
  exists (join [c_nl] (map (ho_line v) l)). split.
  - unfold hit_objects_to_string. rewrite (run_list_map_ok _ (ho_line v)); [easy|].
    intros o Ho. apply H in Ho. unfold ho_ok in Ho. rewrite !andb_true_iff in Ho. destruct Ho as [[Hr Hk] Hs].
    apply ho_print; try easy. unfold ho_read in Hr. rewrite !andb_true_iff in Hr. easy.
  - unfold hit_objects_from_str. rewrite lines_print_ok; [easy|].
    intros o Ho. apply H in Ho. unfold ho_ok in Ho. rewrite !andb_true_iff in Ho. destruct Ho as [[Hr Hk] Hs].
    split; [now apply ho_line_good|]. now rewrite ho_parse_line.
Qed.
