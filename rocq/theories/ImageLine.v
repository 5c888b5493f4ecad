(** Which values the sections of lines give (C76). *)
From Coq Require Import String List NArith ZArith Bool Lia.
From Verif Require Import Str Num Nom Dec Parsers Colours TimingPoints HitObjects Storyboard NormalEvents Events Osb Spec
  SpecWf SpecText SpecLine SpecTypes SpecCmd SpecEvents SpecColLine SpecEvLine SpecEvSection SpecWalk SpecParts SpecSections SpecImage
  StrFacts NumFacts NomFacts DecFacts FieldFacts LineFacts ColoursFacts TpFacts HoFacts HoObj HoImage HoRead LineRead LayoutFacts Parts Means Ends
  EvSection WalkFacts BackRead.
Import ListNotations.
Local Open Scope N_scope.

(** ** a text for a list of lines *)
Lemma crlf_lines_of ls : forallb no_nl ls = true -> lines (crlf_text ls) = ls.
Proof.
  induction ls as [|l ls IH]; [easy|]. cbn [forallb]. intros H. apply andb_true_iff in H as [H1 H2].
  unfold crlf_text. cbn [map concat]. rewrite <- app_assoc. cbn [app]. rewrite lines_app_crlf by easy. f_equal. now apply IH.
Qed.
Lemma text_for {A} (P : str -> A -> Prop) l :
  Forall (fun x => exists line, P line x /\ no_nl line = true /\ is_blank line = false) l -> exists s, Forall2 P (full_lines s) l.
Proof.
  intros H. enough (exists ls, forallb no_nl ls = true /\ forallb (fun l => negb (is_blank l)) ls = true /\ Forall2 P ls l) as (ls & H1 & H2 & H3).
  - exists (crlf_text ls). unfold full_lines. rewrite crlf_lines_of by easy.
    replace (filter (fun l => negb (is_blank l)) ls) with ls; [easy|]. clear - H2.
    induction ls as [|x ls IH]; [easy|]. cbn [forallb filter] in *. apply andb_true_iff in H2 as [-> H2]. f_equal. now apply IH.
  - induction H as [|x l (line & H1 & H2 & H3) _ (ls & K1 & K2 & K3)].
    + exists []. repeat split. constructor.
    + exists (line :: ls). cbn [forallb]. rewrite H2, H3, K1, K2. repeat split. now constructor.
Qed.
Lemma comma_not_blank a b : is_blank (a ++ 44 :: b) = false.
Proof. rewrite is_blank_forallb, forallb_app. cbn [forallb]. replace (is_ws 44) with false by reflexivity. apply andb_false_r. Qed.

(** ** fields *)
Lemma pieces_none c s : none_of c s = true -> pieces c s = [s].
Proof.
  induction s as [|d s IH]; [easy|]. cbn [none_of forallb pieces]. intros H. apply andb_true_iff in H as [H1 H2].
  rewrite (IH H2). apply negb_true_iff in H1. now rewrite H1.
Qed.
Lemma pieces_step c f s : none_of c f = true -> pieces c (f ++ c :: s) = f :: pieces c s.
Proof.
  induction f as [|d f IH]; cbn [none_of forallb app pieces].
  - intros _. rewrite N.eqb_refl. destruct (pieces c s) eqn:E; [|easy]. destruct (pieces_spec c s) as (? & ? & K & _). congruence.
  - intros H. apply andb_true_iff in H as [H1 H2]. rewrite (IH H2). apply negb_true_iff in H1. now rewrite H1.
Qed.
Lemma pieces_commas fs : fs <> [] -> forallb no_comma fs = true -> pieces 44 (commas fs) = fs.
Proof. intros H1 H2. apply fields_pieces. now repeat split. Qed.
Lemma commas_pieces s : commas (pieces 44 s) = s.
Proof. destruct (pieces_fields s) as (_ & H & _). now rewrite <- H. Qed.
Lemma dec_back d : wf_decimal d = true -> decimal_of_str (print_decimal d) = d.
Proof. apply decimal_print_parse. Qed.

(** ** colours *)
Lemma colours_gives v l : some_text (fun s => colours_from_str s v) l <-> ~ (3 <= v <= 4)%Z /\ forallb colour_range l = true.
Proof.
  assert (E : forallb colour_range l = forallb colour_ok l && forallb combo_nonneg l).
  { induction l as [|c l IH]; [easy|]. cbn [forallb]. rewrite IH. unfold colour_range.
    destruct (colour_ok c), (combo_nonneg c), (forallb colour_ok l), (forallb combo_nonneg l); reflexivity. }
  split.
  - intros [s H]. apply colours_from_str_ok in H as (H1 & H2 & H3). rewrite E, H1, H2. split; [|easy].
    unfold old_version in H3. lia.
  - intros [H1 H2]. rewrite E in H2. apply andb_true_iff in H2 as [H2 H3].
    destruct (colours_round_trip v l) as (s & _ & H); [unfold old_version; lia|easy|easy|]. now exists s.
Qed.

(** ** timing points *)
Lemma pick_flag (b : bool) : rd_flag (if b then lit "1" else lit "0") = ROk b.
Proof. now destruct b. Qed.
Definition index_Z (x : sample_index) : Z := match x with SiDefault => 0 | SiIndex z => z end.
Lemma index_back x : sample_index_ok x = true -> rd_tp_index (print_Z (index_Z x)) = ROk x.
Proof.
  intros H. unfold rd_tp_index. destruct x as [|z]; [reflexivity|]. cbn [index_Z sample_index_ok] in *.
  rewrite parse_print_u32 by (unfold in_u32, u32_max in *; lia). cbn. now replace (z =? 0)%Z with false by lia.
Qed.
Definition set_Z (x : tp_sample_set) : Z :=
  match x with TsBeatmapDefault => 0 | TsNormal => 1 | TsSoft => 2 | TsDrum => 3 | TsOther z => z end.
Lemma set_back x : tp_sample_set_ok x = true -> rd_tp_set (print_Z (set_Z x)) = ROk x.
Proof.
  intros H. unfold rd_tp_set. destruct x as [| | | |z]; try reflexivity. cbn [set_Z tp_sample_set_ok] in *.
  apply andb_true_iff in H as [H1 H2]. rewrite parse_print_i32 by easy. cbn.
  replace (z =? 0)%Z with false by lia. replace (z =? 1)%Z with false by lia. replace (z =? 2)%Z with false by lia.
  now replace (z =? 3)%Z with false by lia.
Qed.
Definition tp_texts (t : timing_point) : list str :=
  [print_decimal (tp_time t); print_decimal (tp_beat_length t); print_Z (tp_meter t); print_Z (set_Z (tp_sample_set_f t));
   print_Z (index_Z (tp_sample_index t)); print_Z (tp_volume t)]
  ++ match tp_uninherited t with Some b => [if b then lit "1" else lit "0"] | None => [] end
  ++ match tp_effects t with Some e => [print_Z e] | None => [] end.
Lemma commas_nl fs : forallb no_nl fs = true -> no_nl (commas fs) = true.
Proof.
  induction fs as [|f fs IH]; [easy|]. cbn [forallb]. intros H. apply andb_true_iff in H as [H1 H2].
  destruct fs as [|g fs]; [easy|]. change (commas (f :: g :: fs)) with (f ++ lit "," ++ commas (g :: fs)).
  rewrite !no_nl_app, H1, IH by easy. easy.
Qed.
Lemma commas_full f g fs : is_blank (commas (f :: g :: fs)) = false.
Proof. change (commas (f :: g :: fs)) with (f ++ 44 :: commas (g :: fs)). apply comma_not_blank. Qed.
Lemma shift_none v d : (4 < v)%Z -> shift_in v d = ROk d.
Proof. intros H. unfold shift_in. now rewrite (new_not_old v H). Qed.
Lemma tp_given v t : (4 < v)%Z -> tp_ok v t = true ->
  exists line, tp_line v (pieces 44 line) = ROk t /\ no_nl line = true /\ is_blank line = false.
Proof.
  intros Hv H. unfold tp_ok in H. rewrite !andb_true_iff in H. destruct H as [[[[[[H1 H2] H3] H4] H5] H6] H7].
  exists (commas (tp_texts t)).
  assert (F : forallb no_comma (tp_texts t) = true /\ forallb no_nl (tp_texts t) = true).
  { unfold tp_texts. rewrite !forallb_app. cbn [forallb].
    rewrite !wf_dec_field_no_comma, !wf_dec_field_no_nl, !print_Z_no_comma, !print_Z_no_nl by easy.
    destruct (tp_uninherited t) as [[]|], (tp_effects t); cbn [forallb]; rewrite ?print_Z_no_comma, ?print_Z_no_nl; easy. }
  destruct F as [F1 F2]. split; [|split; [now apply commas_nl|apply commas_full]].
  rewrite pieces_commas by easy. unfold wf_dec_field in H1, H2. apply andb_true_iff in H1 as [H1 _], H2 as [H2 _].
  unfold tp_line, tp_texts. cbn [app next]. unfold rd_dec at 1. rewrite dec_back by easy. rewrite shift_none by easy. cbn [andthen].
  replace (v <=? 3)%Z with false by lia. replace (v <=? 4)%Z with false by lia. cbn [next]. unfold rd_dec at 1. rewrite dec_back by easy.
  cbn [next]. rewrite parse_print_i32 by easy. cbn [next]. rewrite set_back by easy. cbn [next]. rewrite index_back by easy. cbn [next].
  rewrite parse_print_i32 by easy. unfold tp_tail_ok in H7.
  destruct t as [ti b m ss ix vo [u|] [e|]]; cbn [tp_time tp_beat_length tp_meter tp_sample_set_f tp_sample_index tp_volume tp_uninherited tp_effects] in *; try easy.
  - cbn [app next]. rewrite pick_flag. cbn [last_field]. unfold commas, join. rewrite parse_print_u32 by easy. easy.
  - cbn [app next]. rewrite pick_flag. now rewrite H7.
Qed.
Lemma points_gives v l : (4 < v)%Z -> (some_text (fun s => timing_points_from_str s v) l <-> forallb (tp_ok v) l = true).
Proof.
  intros Hv. split; [intros [s H]; now apply timing_points_from_str_ok in H|]. intros H.
  destruct (text_for (fun line x => tp_line v (pieces 44 line) = ROk x) l) as [s Hs].
  - apply Forall_forall. intros x Hx. rewrite forallb_forall in H. apply tp_given; auto.
  - exists s. now apply timing_points_items.
Qed.
