(** Which hit objects reading gives (C76). *)
From Coq Require Import String List NArith ZArith Bool Lia.
From Verif Require Import Str Num Nom Dec Parsers Colours TimingPoints HitObjects Storyboard NormalEvents Events Osb Spec
  SpecWf SpecText SpecTypes SpecLine SpecWalk SpecSections SpecImage
  StrFacts NumFacts NomFacts DecFacts FieldFacts ColoursFacts HoFacts HoObj HoRound HoRead LineRead LayoutFacts Ends
  WalkFacts BackRead ImageLine.
Import ListNotations.
Local Open Scope N_scope.

(** ** samples *)
Definition ss_Z (x : sample_set) : Z :=
  match x with SsNone => 0 | SsNormal => 1 | SsSoft => 2 | SsDrum => 3 | SsOther z => z end.
Definition hi_Z (x : ho_index) : Z := match x with HiTimingPoint => 0 | HiIndex z => z end.
Definition hv_Z (x : ho_volume) : Z := match x with None => 0 | Some z => z end.
Lemma ss_back x : sample_set_ok x = true -> rd_set (print_Z (ss_Z x)) = ROk x.
Proof.
  intros H. unfold rd_set. destruct x as [| | | |z]; try reflexivity. cbn [ss_Z sample_set_ok] in *.
  rewrite parse_print_usize by (unfold in_usize; lia). cbn.
  replace (z =? 0)%Z with false by lia. replace (z =? 1)%Z with false by lia. replace (z =? 2)%Z with false by lia.
  now replace (z =? 3)%Z with false by lia.
Qed.
Lemma hi_back x : ho_index_ok x = true -> rd_index (print_Z (hi_Z x)) = ROk x.
Proof.
  intros H. unfold rd_index. destruct x as [|z]; [reflexivity|]. cbn [hi_Z ho_index_ok] in *.
  rewrite parse_print_usize by (unfold in_usize; lia). cbn. now replace (z =? 0)%Z with false by lia.
Qed.
Lemma hv_back x : ho_volume_ok x = true -> rd_volume (print_Z (hv_Z x)) = ROk x.
Proof.
  intros H. unfold rd_volume. destruct x as [z|]; [|reflexivity]. cbn [hv_Z ho_volume_ok] in *.
  rewrite parse_print_u8 by (unfold in_u8, u8_max; lia). replace (z =? 0)%Z with false by lia. now replace (z <=? 100)%Z with true by lia.
Qed.
(** with a colon behind the file name, so that also a blank name is kept *)
Definition sample_text (h : hit_sample) : str :=
  print_Z (ss_Z (hs_normal h)) ++ 58 :: print_Z (ss_Z (hs_addition h)) ++ 58 :: print_Z (hi_Z (hs_index h)) ++ 58 ::
  print_Z (hv_Z (hs_volume h)) ++ 58 :: hs_filename h ++ 58 :: [].
Lemma sample_back h : hit_sample_read h = true -> rd_sample (sample_text h) = ROk h.
Proof.
  unfold hit_sample_read. rewrite !andb_true_iff. intros [[[[H1 H2] H3] H4] H5]. unfold rd_sample, sample_text.
  rewrite !pieces_step by first [apply print_Z_no_colon|exact H5]. cbn [pieces]. unfold hs_line, next_or. cbn [is_empty andb].
  rewrite !ss_back, hi_back, hv_back by easy. now destruct h.
Qed.
Lemma nl_sep a c b : no_nl a = true -> c <> 10 -> no_nl b = true -> no_nl (a ++ c :: b) = true.
Proof.
  intros H1 H2 H3. rewrite no_nl_app, H1. unfold no_nl in *. cbn [forallb andb]. rewrite H3, andb_true_r.
  apply negb_true_iff. now apply N.eqb_neq.
Qed.
Ltac no_line := repeat first [apply print_Z_no_nl | apply nl_sep; [|discriminate|] | assumption | reflexivity].
Lemma sample_nl h : no_nl (hs_filename h) = true -> no_nl (sample_text h) = true.
Proof. intros H. unfold sample_text. no_line. Qed.

(** ** lists between bars *)
Fixpoint bars (l : list str) : str :=
  match l with
  | [] => []
  | [x] => x
  | x :: l' => x ++ 124 :: bars l'
  end.
Definition item_fit (s : str) : Prop := s <> [] /\ item_text s = true.
Lemma item_parts s : item_text s = true -> none_of 124 s = true /\ no_comma s = true /\ no_nl s = true
  /\ existsb (fun c => (c =? 13) || (c =? 10)) s = false.
Proof.
  induction s as [|c s IH]; [easy|]. cbn [item_text forallb]. intros H. apply andb_true_iff in H as [H1 H2].
  destruct (IH H2) as (K1 & K2 & K3 & K4). unfold item_char in H1. apply negb_true_iff in H1. rewrite !orb_false_iff in H1.
  destruct H1 as [[[A B] C] D]. unfold none_of, no_comma, no_nl in *. cbn [forallb existsb]. rewrite A, B, C, D, K1, K2, K3, K4. easy.
Qed.
Lemma bars_parts l : Forall item_fit l -> no_comma (bars l) = true /\ no_nl (bars l) = true
  /\ existsb (fun c => (c =? 13) || (c =? 10)) (bars l) = false /\ (l <> [] -> bars l <> [] /\ pieces 124 (bars l) = l).
Proof.
  induction 1 as [|x l [H0 H1] H2 (K1 & K2 & K3 & K4)]; [easy|]. apply item_parts in H1 as (A & B & C & D).
  destruct l as [|y l].
  - cbn [bars]. repeat split; try easy. now rewrite pieces_none.
  - destruct K4 as [K4 K5]; [easy|]. change (bars (x :: y :: l)) with (x ++ 124 :: bars (y :: l)).
    unfold no_comma in *. rewrite !forallb_app, existsb_app, B, D. cbn [forallb existsb]. rewrite K1, K3. repeat split; try easy.
    + now apply nl_sep.
    + now destruct x.
    + rewrite pieces_step by easy. now rewrite K5.
Qed.
Lemma items_given {A X} (rd : str -> res A X) (pr : A -> str) l : Forall (fun x => item_fit (pr x) /\ rd (pr x) = ROk x) l ->
  SpecLine.items rd (bars (map pr l)) = Some l.
Proof.
  intros H. assert (F : Forall item_fit (map pr l)) by (apply Forall_map; eapply Forall_impl; [|exact H]; now intros a []).
  apply bars_parts in F as (F1 & F2 & F3 & F4). unfold SpecLine.items. destruct l as [|x l]; [easy|]. destruct F4 as [F4 F5]; [easy|].
  destruct (bars (map pr (x :: l))) as [|c t] eqn:E; [easy|]. rewrite <- E in *. rewrite F3, F5. rewrite E. cbn [is_empty]. clear - H.
  induction H as [|y l' [_ Hy] _ IH]; [easy|]. cbn [map all_items]. now rewrite Hy, IH.
Qed.
Lemma last_items_given {A X} (rd : str -> res A X) (pr : A -> str) l :
  Forall (fun x => item_fit (pr x) /\ rd (pr x) = ROk x) l -> (forall x, In x l -> exists c t, pr x = c :: t /\ (c =? 32) = false /\ (c =? 9) = false) ->
  last_items rd (bars (map pr l)) = Some l.
Proof.
  intros H Hc. unfold last_items. rewrite (items_given _ _ _ H). destruct l as [|x l]; [easy|].
  replace (spaces (bars (map pr (x :: l)))) with false; [easy|]. destruct (Hc x (or_introl eq_refl)) as (c & t & E & E1 & E2).
  cbn [map]. destruct (map pr l); cbn [bars]; rewrite E; unfold spaces; cbn [app forallb]; now rewrite E1, E2.
Qed.

(** ** sounds, sets, points *)
Definition sound_Z (h : hit_sound) : Z :=
  (Z.b2z (snd_normal h) + 2 * Z.b2z (snd_whistle h) + 4 * Z.b2z (snd_finish h) + 8 * Z.b2z (snd_clap h))%Z.
Definition sound_text (h : hit_sound) : str := print_Z (sound_Z h).
Lemma sound_back h : rd_sound (sound_text h) = ROk h.
Proof. destruct h as [[] [] [] []]; reflexivity. Qed.
Lemma sound_fit h : item_fit (sound_text h) /\ exists c t, sound_text h = c :: t /\ (c =? 32) = false /\ (c =? 9) = false.
Proof. destruct h as [[] [] [] []]; (split; [split; [discriminate|reflexivity]|eexists; eexists; repeat split]). Qed.
Lemma ss_nonneg x : sample_set_ok x = true -> (0 <= ss_Z x)%Z.
Proof. destruct x; cbn; lia. Qed.
Lemma digits_item z : (0 <= z)%Z -> exists c t, print_Z z = c :: t /\ (c =? 32) = false /\ (c =? 9) = false.
Proof.
  intros H. pose proof (print_Z_digits z H) as D. destruct (print_Z z) as [|c t] eqn:E; [now apply print_Z_nonempty in E|].
  exists c, t. split; [easy|]. cbn [all_digits forallb] in D. apply andb_true_iff in D as [D _]. unfold is_digit in D.
  apply andb_true_iff in D as [D _]. apply N.leb_le in D. split; apply N.eqb_neq; lia.
Qed.
Lemma cut_step c a b : none_of c a = true -> cut_at c (a ++ c :: b) = Some (a, b).
Proof.
  induction a as [|d a IH]; cbn [none_of forallb app cut_at]; [now rewrite N.eqb_refl|]. intros H. apply andb_true_iff in H as [H1 H2].
  apply negb_true_iff in H1. now rewrite H1, (IH H2).
Qed.
Lemma cut_none c a : none_of c a = true -> cut_at c a = None.
Proof.
  induction a as [|d a IH]; [easy|]. cbn [none_of forallb cut_at]. intros H. apply andb_true_iff in H as [H1 H2].
  apply negb_true_iff in H1. now rewrite H1, (IH H2).
Qed.
Definition edge_text (x : edge_set) : str := print_Z (ss_Z (es_normal x)) ++ 58 :: print_Z (ss_Z (es_addition x)).
Lemma edge_back x : edge_set_ok x = true -> rd_edge (edge_text x) = ROk x.
Proof.
  unfold edge_set_ok. rewrite andb_true_iff. intros [H1 H2]. unfold rd_edge, edge_text. rewrite cut_step by apply print_Z_no_colon.
  rewrite !ss_back by easy. now destruct x.
Qed.
Lemma item_sep a b : item_text a = true -> item_text b = true -> item_fit (a ++ 58 :: b).
Proof. intros H1 H2. split; [now destruct a|]. unfold item_text in *. rewrite forallb_app, H1. cbn [forallb]. now rewrite H2. Qed.
Lemma edge_fit x : edge_set_ok x = true -> item_fit (edge_text x) /\ exists c t, edge_text x = c :: t /\ (c =? 32) = false /\ (c =? 9) = false.
Proof.
  unfold edge_set_ok. rewrite andb_true_iff. intros [H1 H2]. unfold edge_text. split; [apply item_sep; apply print_Z_item|].
  destruct (digits_item (ss_Z (es_normal x)) (ss_nonneg _ H1)) as (c & t & -> & E). eexists. eexists. split; [reflexivity|exact E].
Qed.
Definition point_text (p : curve_point) : str := print_decimal (pos_x p) ++ 58 :: print_decimal (pos_y p).
Lemma point_given p : point_ok p = true -> item_fit (point_text p) /\ rd_point (point_text p) = ROk p.
Proof.
  unfold point_ok. rewrite !andb_true_iff. intros [[[[H1 H2] H3] H4] H5]. unfold point_text. split.
  - apply item_sep; now apply dec_item_print.
  - unfold rd_point. rewrite cut_step by now apply dec_no_colon_print. rewrite !dec_back by easy. now destruct p.
Qed.

(** ** the line *)
Lemma pieces_nl c s : no_nl s = true -> forallb no_nl (pieces c s) = true.
Proof.
  induction s as [|d s IH]; [easy|]. unfold no_nl. cbn [forallb pieces]. intros H. apply andb_true_iff in H as [H1 H2]. specialize (IH H2).
  destruct (pieces c s) as [|p ps]; [easy|]. cbn [forallb] in IH. apply andb_true_iff in IH as [I1 I2].
  unfold no_nl in *. destruct (d =? c); cbn [forallb]; rewrite I1; [now rewrite I2|]. now rewrite H1, I2.
Qed.
Lemma pieces_some s : exists f fs, pieces 44 s = f :: fs.
Proof. destruct (pieces_spec 44 s) as (f & fs & H & _). eauto. Qed.
Definition clear_fields (fs : list str) : Prop := forallb no_comma fs = true /\ forallb no_nl fs = true.
Lemma clear_pieces s : no_nl s = true -> clear_fields (pieces 44 s).
Proof. intros H. split; [apply pieces_fields|now apply pieces_nl]. Qed.
Lemma clear_cons f fs : no_comma f = true -> no_nl f = true -> clear_fields fs -> clear_fields (f :: fs).
Proof. intros H1 H2 [H3 H4]. split; cbn [forallb]; [now rewrite H1|now rewrite H2]. Qed.
Lemma clear_nil : clear_fields [].
Proof. easy. Qed.
Definition sample_fields (hs : option hit_sample) : list str := match hs with Some h => pieces 44 (sample_text h) | None => [] end.
Definition sample_fit (hs : option hit_sample) : bool := match hs with Some h => hit_sample_read h && no_nl (hs_filename h) | None => true end.
Lemma sample_clear hs : sample_fit hs = true -> clear_fields (sample_fields hs).
Proof.
  destruct hs as [h|]; [|easy]. cbn. rewrite andb_true_iff. intros [H1 H2]. apply clear_pieces. now apply sample_nl.
Qed.
Lemma sample_ends {B} hs (k : option hit_sample -> res B ho_err) : sample_fit hs = true -> sample_end (sample_fields hs) k = k hs.
Proof.
  destruct hs as [h|]; [|easy]. cbn [sample_fit sample_fields]. rewrite andb_true_iff. intros [H1 H2]. unfold sample_end.
  destruct (pieces_some (sample_text h)) as (f & fs & E). rewrite E. unfold last_field. rewrite <- E, commas_pieces, sample_back by easy. easy.
Qed.
Definition curve_letter (c : curve_type) : str :=
  match c with Bezier => lit "B" | Centripetal => lit "C" | Linear => lit "L" | PerfectCircle => lit "P" end.
Definition curve_field (p : slide_params) : str :=
  curve_letter (sl_curve_type p) ++ match sl_curve_points p with [] => [] | l => 124 :: bars (map point_text l) end.
Definition edge_fields (p : slide_params) (hs : option hit_sample) : list str :=
  if sl_edge_sounds_short_hand p then []
  else bars (map sound_text (sl_edge_sounds p)) ::
       if sl_edge_sets_shorthand p then [] else bars (map edge_text (sl_edge_sets p)) :: sample_fields hs.
Definition object_fields (p : ho_params) (hs : option hit_sample) : list str :=
  match p with
  | HitCircle => sample_fields hs
  | Slider p => curve_field p :: print_Z (sl_slides p) :: print_decimal (sl_length p) :: edge_fields p hs
  | Spinner t => print_decimal t :: sample_fields hs
  | OsuManiaHold t => match hs with Some h => pieces 44 (print_decimal t ++ 58 :: sample_text h) | None => [] end
  end.
Definition kind_Z (p : ho_params) : Z := match p with HitCircle => 1 | Slider _ => 2 | Spinner _ => 8 | OsuManiaHold _ => 128 end.
Definition type_Z (o : hit_object) : Z := (kind_Z (ho_obj_params o) + 4 * Z.b2z (ho_new_combo o) + 16 * ho_combo_skip_count o)%Z.
Definition line_fields (o : hit_object) : list str :=
  print_decimal (pos_x (ho_position o)) :: print_decimal (pos_y (ho_position o)) :: print_decimal (ho_time o) ::
  print_Z (type_Z o) :: sound_text (ho_hitsound o) :: object_fields (ho_obj_params o) (ho_hitsample o).

Lemma bars_clear {A} (pr : A -> str) l : Forall (fun x => item_fit (pr x)) l -> no_comma (bars (map pr l)) = true /\ no_nl (bars (map pr l)) = true.
Proof. intros H. assert (F : Forall item_fit (map pr l)) by now apply Forall_map. now apply bars_parts in F as (F1 & F2 & _). Qed.
Lemma all_given {A} (f : A -> bool) (P : A -> Prop) l : forallb f l = true -> (forall x, f x = true -> P x) -> Forall P l.
Proof. intros H HP. apply Forall_forall. intros x Hx. rewrite forallb_forall in H. auto. Qed.
Lemma curve_clear p : forallb point_ok (sl_curve_points p) = true -> no_comma (curve_field p) = true /\ no_nl (curve_field p) = true.
Proof.
  intros H. assert (F : Forall (fun x => item_fit (point_text x)) (sl_curve_points p)) by (apply (all_given _ _ _ H); intros x Hx; now apply point_given).
  apply bars_clear in F as [F1 F2]. unfold curve_field, no_comma in *. rewrite no_nl_app, forallb_app.
  destruct (sl_curve_points p) as [|x l]; [now destruct (sl_curve_type p)|]. unfold no_nl in *. cbn [forallb]. rewrite F1, F2. now destruct (sl_curve_type p).
Qed.
Lemma edges_clear p hs : forallb edge_set_ok (sl_edge_sets p) = true -> sample_fit hs = true -> clear_fields (edge_fields p hs).
Proof.
  intros H1 H2. unfold edge_fields. destruct (sl_edge_sounds_short_hand p); [easy|].
  destruct (bars_clear sound_text (sl_edge_sounds p)) as [A1 A2]; [apply Forall_forall; intros; apply sound_fit|].
  apply clear_cons; [easy|easy|]. destruct (sl_edge_sets_shorthand p); [easy|].
  destruct (bars_clear edge_text (sl_edge_sets p)) as [B1 B2]; [apply (all_given _ _ _ H1); intros; now apply edge_fit|].
  apply clear_cons; [easy|easy|]. now apply sample_clear.
Qed.
Lemma sound_clear h : no_comma (sound_text h) = true /\ no_nl (sound_text h) = true.
Proof. split; [apply print_Z_no_comma|apply print_Z_no_nl]. Qed.
Lemma fields_clear o : ho_read o = true -> clear_fields (line_fields o).
Proof.
  unfold ho_read. rewrite !andb_true_iff. intros [[[[[[Hx Hy] Ht] Hs1] Hs2] Hp] Hh]. unfold line_fields.
  do 3 (apply clear_cons; [now apply wf_dec_field_no_comma|now apply wf_dec_field_no_nl|]).
  apply clear_cons; [apply print_Z_no_comma|apply print_Z_no_nl|]. apply clear_cons; [apply sound_clear|apply sound_clear|].
  change (sample_fit (ho_hitsample o) = true) in Hh.
  destruct (ho_obj_params o) as [|p|t|t]; cbn [params_ok object_fields] in *.
  - now apply sample_clear.
  - unfold slide_ok in Hp. rewrite !andb_true_iff in Hp. destruct Hp as [[[[P1 P2] P3] P4] P5]. apply curve_clear in P1 as [C1 C2].
    apply clear_cons; [easy|easy|]. apply clear_cons; [apply print_Z_no_comma|apply print_Z_no_nl|].
    apply clear_cons; [now apply wf_dec_field_no_comma|now apply wf_dec_field_no_nl|]. now apply edges_clear.
  - apply clear_cons; [now apply wf_dec_field_no_comma|now apply wf_dec_field_no_nl|]. now apply sample_clear.
  - rewrite !andb_true_iff in Hp. destruct Hp as [[[P1 P2] P3] P4]. destruct (ho_hitsample o) as [h|]; [|easy]. apply clear_pieces.
    cbn in Hh. apply andb_true_iff in Hh as [_ Hh]. apply nl_sep; [now apply dec_no_nl_print|discriminate|now apply sample_nl].
Qed.
Lemma edges_given {B} p hs (k : list hit_sound -> list edge_set -> option hit_sample -> bool -> bool -> res B ho_err) :
  forallb edge_set_ok (sl_edge_sets p) = true -> sample_fit hs = true -> shorthand_ok p hs = true ->
  edges_line (edge_fields p hs) k = k (sl_edge_sounds p) (sl_edge_sets p) hs (sl_edge_sounds_short_hand p) (sl_edge_sets_shorthand p).
Proof.
  intros H1 H2 H3. unfold edge_fields, shorthand_ok in *.
  assert (A : Forall (fun x => item_fit (sound_text x) /\ rd_sound (sound_text x) = ROk x) (sl_edge_sounds p))
    by (apply Forall_forall; intros x _; split; [apply sound_fit|apply sound_back]).
  assert (B0 : Forall (fun x => item_fit (edge_text x) /\ rd_edge (edge_text x) = ROk x) (sl_edge_sets p))
    by (apply (all_given _ _ _ H1); intros x Hx; split; [now apply edge_fit|now apply edge_back]).
  destruct (sl_edge_sounds_short_hand p).
  - rewrite !andb_true_iff in H3. destruct H3 as [[[K1 K2] ->] K4]. destruct (sl_edge_sounds p); [|easy]. destruct (sl_edge_sets p); [|easy]. now destruct hs.
  - destruct (sl_edge_sets_shorthand p).
    + apply andb_true_iff in H3 as [K1 K2]. destruct (sl_edge_sets p); [|easy]. destruct hs; [easy|]. cbn [edges_line].
      rewrite last_items_given; [easy|easy|]. intros x _. apply sound_fit.
    + assert (E1 := items_given rd_sound sound_text _ A). assert (E2 := items_given rd_edge edge_text _ B0).
      destruct hs as [h|].
      * pose proof (sample_ends (Some h) (fun h => k (sl_edge_sounds p) (sl_edge_sets p) h false false) H2) as E3. cbn [sample_fields] in *.
        destruct (pieces_some (sample_text h)) as (f & fs & E). rewrite E in *. cbn [edges_line]. now rewrite E1, E2.
      * cbn [sample_fields edges_line]. rewrite E1. rewrite last_items_given; [easy|easy|]. intros x Hx. apply edge_fit.
        rewrite forallb_forall in H1. now apply H1.
Qed.
Lemma type_bits p (nc : bool) k : (0 <= k <= 7)%Z ->
  let ty := (kind_Z p + 4 * Z.b2z nc + 16 * k)%Z in
  in_i32 ty = true /\ Z.testbit ty 2 = nc /\ ((ty / 16) mod 8)%Z = k /\
  match p with
  | HitCircle => Z.testbit ty 0 = true
  | Slider _ => Z.testbit ty 0 = false /\ Z.testbit ty 1 = true
  | Spinner _ => Z.testbit ty 0 = false /\ Z.testbit ty 1 = false /\ Z.testbit ty 3 = true
  | OsuManiaHold _ => Z.testbit ty 0 = false /\ Z.testbit ty 1 = false /\ Z.testbit ty 3 = false /\ Z.testbit ty 7 = true
  end.
Proof.
  intros H. assert (K : (k = 0 \/ k = 1 \/ k = 2 \/ k = 3 \/ k = 4 \/ k = 5 \/ k = 6 \/ k = 7)%Z) by lia.
  destruct K as [K|[K|[K|[K|[K|[K|[K|K]]]]]]]; subst k; destruct nc; destruct p; cbn [kind_Z]; repeat split; reflexivity.
Qed.
Lemma curve_given p : forallb point_ok (sl_curve_points p) = true ->
  match cut_at 124 (curve_field p) with
  | Some (a, t) => (a, SpecLine.items rd_point t)
  | None => (curve_field p, Some [])
  end = (curve_letter (sl_curve_type p), Some (sl_curve_points p)).
Proof.
  intros H. assert (F : Forall (fun x => item_fit (point_text x) /\ rd_point (point_text x) = ROk x) (sl_curve_points p))
    by (apply (all_given _ _ _ H); intros x Hx; now apply point_given).
  apply items_given in F. unfold curve_field. destruct (sl_curve_points p) as [|x l].
  - rewrite app_nil_r, cut_none; [easy|]. now destruct (sl_curve_type p).
  - rewrite cut_step; [now rewrite F|]. now destruct (sl_curve_type p).
Qed.
Lemma curve_named c : rd_curve (curve_letter c) = Some c.
Proof. now destruct c. Qed.
Lemma field_dec d : wf_dec_field d = true -> rd_dec (print_decimal d) = ROk d.
Proof. intros H. unfold rd_dec. rewrite dec_back; [easy|]. unfold wf_dec_field in H. now rewrite !andb_true_iff in H. Qed.
Lemma line_given v o : (4 < v)%Z -> ho_read o = true -> SpecLine.ho_line v (line_fields o) = ROk o.
Proof.
  unfold ho_read. rewrite !andb_true_iff. intros Hv [[[[[[Hx Hy] Ht] Hs1] Hs2] Hp] Hh].
  change (sample_fit (ho_hitsample o) = true) in Hh. destruct o as [[x y] t p nc k hd hs].
  cbn [ho_position pos_x pos_y ho_time ho_combo_skip_count ho_obj_params ho_hitsample] in *.
  destruct (type_bits p nc k) as (T1 & T2 & T3 & T4); [lia|]. unfold line_fields, type_Z.
  cbn [ho_position pos_x pos_y ho_time ho_combo_skip_count ho_obj_params ho_hitsample ho_new_combo ho_hitsound].
  set (ty := (kind_Z p + 4 * Z.b2z nc + 16 * k)%Z) in *.
  unfold SpecLine.ho_line, next. rewrite !field_dec by easy. rewrite shift_none by easy. cbn [andthen].
  rewrite parse_print_i32 by easy. rewrite sound_back. cbv zeta. rewrite T2, T3.
  destruct p as [|p|e|e]; cbn [object_fields params_ok] in *.
  - rewrite T4. now rewrite sample_ends.
  - destruct T4 as [-> ->]. unfold slide_ok in Hp. rewrite !andb_true_iff in Hp. destruct Hp as [[[[P1 P2] P3] P4] P5].
    unfold slider_line. rewrite curve_given, curve_named by easy. unfold next. rewrite parse_print_i32 by easy. rewrite field_dec by easy.
    rewrite edges_given by easy. replace (v =? 3)%Z with false by lia. now destruct p.
  - destruct T4 as (-> & -> & ->). rewrite field_dec by easy. rewrite shift_none by easy. cbn [andthen]. now rewrite sample_ends.
  - destruct T4 as (-> & -> & -> & ->). rewrite !andb_true_iff in Hp. destruct Hp as [[[P1 P2] P3] P4]. destruct hs as [h|]; [|easy].
    cbn in Hh. apply andb_true_iff in Hh as [Hh _].
    pose proof (commas_pieces (print_decimal e ++ 58 :: sample_text h)) as E.
    destruct (pieces_some (print_decimal e ++ 58 :: sample_text h)) as (f & fs & Ef). rewrite Ef in *. rewrite E.
    rewrite cut_step by now apply dec_no_colon_print. rewrite dec_back, shift_none by easy. cbn [andthen]. now rewrite sample_back.
Qed.
Lemma object_given v o : (4 < v)%Z -> ho_read o = true ->
  exists line, SpecLine.ho_line v (pieces 44 line) = ROk o /\ no_nl line = true /\ is_blank line = false.
Proof.
  intros Hv H. destruct (fields_clear o H) as [C1 C2]. exists (commas (line_fields o)). split; [|split].
  - rewrite pieces_commas by easy. now apply line_given.
  - now apply commas_nl.
  - apply commas_full.
Qed.
Lemma objects_gives v l : (4 < v)%Z -> (some_text (fun s => hit_objects_from_str s v) l <-> forallb ho_read l = true).
Proof.
  intros Hv. split; [intros [s H]; now apply objects_image in H|]. intros H.
  destruct (text_for (fun line x => SpecLine.ho_line v (pieces 44 line) = ROk x) l) as [s Hs].
  - apply Forall_forall. intros x Hx. rewrite forallb_forall in H. apply object_given; auto.
  - exists s. now apply hit_objects_items.
Qed.
