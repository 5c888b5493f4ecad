(** Equal files of every version are still equal after saving and loading (C58). *)
From Coq Require Import String List NArith ZArith QArith Bool Lia.
From Verif Require Import Str Num Dec Parsers General Editor Metadata Difficulty Colours TimingPoints HitObjects
  Storyboard NormalEvents Events Osb OsuFile Equal StrFacts Spec SpecOld SpecDec SpecEqual SpecSections SpecFile SpecWhole SpecBack EqualFacts EqualFile
  BackFacts BackRead SpecText SpecEvents EqualRead.
Import ListNotations.
Local Open Scope N_scope.

Lemma time_back_canon v d : canon_decimal (time_back v d) = canon_decimal d.
Proof.
  apply decimal_R. destruct d as [r|s]; cbn [time_back decimal_eq]; [|apply str_eqb_eq; reflexivity].
  assert (R : rdec_eq r r = true) by (apply Z.eqb_eq; reflexivity).
  destruct ((v =? 3) || (v =? 4))%Z; [|exact R].
  destruct (Z.eqb_spec (numerator r) 0) as [E|_].
  { apply Z.eqb_eq. change (signed_mant r) with (numerator r). rewrite E. reflexivity. }
  destruct (Z.eqb_spec (numerator r) (24 * denominator r)) as [E|_]; [|exact R].
  apply Z.eqb_eq. change (signed_mant r) with (numerator r). rewrite E. cbn [signed_mant d_neg d_mant d_scale]. unfold denominator. cbn. lia.
Qed.
Lemma general_at_canon v g : canon_general (general_at v g) = general_at v (canon_general g).
Proof.
  destruct g. unfold canon_general, general_at. cbn. f_equal; unfold opt_if; now destruct (has_editor_fields v).
Qed.
Lemma editor_at_canon v e : canon_editor (editor_at v e) = editor_at v (canon_editor e).
Proof. destruct e. reflexivity. Qed.
Lemma tp_back_canon v t u : canon_tp t = canon_tp u -> canon_tp (tp_back v t) = canon_tp (tp_back v u).
Proof.
  destruct t as [a1 a2 a3 a4 a5 a6 a7 a8], u as [b1 b2 b3 b4 b5 b6 b7 b8]. cbn [canon_tp]. intros [= E1 E2 -> -> -> -> -> ->].
  unfold tp_back. cbn [tp_time tp_beat_length tp_meter tp_sample_set_f tp_sample_index].
  destruct (v =? 3)%Z; [|destruct (v =? 4)%Z]; cbn [canon_tp]; rewrite ?time_back_canon, ?E1, ?E2; reflexivity.
Qed.
Lemma params_back_canon v p : canon_params (params_back v p) = canon_params p.
Proof. destruct p; cbn [params_back]; try reflexivity; cbn [canon_params]; rewrite time_back_canon; reflexivity. Qed.
Lemma sample_back_canon v o p : canon_params (ho_obj_params o) = canon_params (ho_obj_params p) -> ho_hitsample o = ho_hitsample p ->
  sample_back v o = sample_back v p.
Proof.
  intros E H. unfold sample_back. rewrite H. destruct (v <=? 9)%Z; [|reflexivity].
  destruct (ho_obj_params o) as [|[]| |], (ho_obj_params p) as [|[]| |]; try discriminate E; reflexivity.
Qed.
Lemma ho_back_canon v o p : canon_ho o = canon_ho p -> canon_ho (ho_back v o) = canon_ho (ho_back v p).
Proof.
  intros E.
  assert (F : canon_pos (ho_position o) = canon_pos (ho_position p) /\ canon_decimal (ho_time o) = canon_decimal (ho_time p)
    /\ canon_params (ho_obj_params o) = canon_params (ho_obj_params p) /\ ho_new_combo o = ho_new_combo p
    /\ ho_combo_skip_count o = ho_combo_skip_count p /\ ho_hitsound o = ho_hitsound p /\ ho_hitsample o = ho_hitsample p).
  { destruct o as [a1 a2 a3 a4 a5 a6 a7], p as [b1 b2 b3 b4 b5 b6 b7]. cbn [canon_ho] in E.
    cbn [ho_position ho_time ho_obj_params ho_new_combo ho_combo_skip_count ho_hitsound ho_hitsample].
    assert (E1 := f_equal ho_position E). assert (E2 := f_equal ho_time E). assert (E3 := f_equal ho_obj_params E). assert (E4 := f_equal ho_new_combo E).
    assert (E5 := f_equal ho_combo_skip_count E). assert (E6 := f_equal ho_hitsound E). assert (E7 := f_equal ho_hitsample E).
    cbn [ho_position ho_time ho_obj_params ho_new_combo ho_combo_skip_count ho_hitsound ho_hitsample] in *. auto 10. }
  destruct F as (F1 & F2 & F3 & F4 & F5 & F6 & F7). unfold ho_back. cbn [canon_ho].
  rewrite F1, !time_back_canon, F2, !params_back_canon, F3, F4, F5, F6, (sample_back_canon v o p F3 F7). reflexivity.
Qed.
Lemma lists_canon {A} (c k : A -> A) : (forall x y, c x = c y -> c (k x) = c (k y)) ->
  forall o p, option_map (map c) o = option_map (map c) p -> option_map (map c) (option_map (map k) o) = option_map (map c) (option_map (map k) p).
Proof.
  intros H [l|] [m|] E; try discriminate E; [|reflexivity]. cbn [option_map] in *. f_equal. assert (E' : map c l = map c m) by congruence. clear E.
  revert m E'. induction l as [|x l IH]; intros [|y m] E; try discriminate E; [reflexivity|].
  cbn [map] in *. assert (c x = c y) by congruence. rewrite (H x y), (IH m) by congruence. reflexivity.
Qed.
Lemma opts_canon {A} (c k : A -> A) : (forall x, c (k x) = k (c x)) ->
  forall o p, option_map c o = option_map c p -> option_map c (option_map k o) = option_map c (option_map k p).
Proof. intros H [x|] [y|] E; try discriminate E; [|reflexivity]. cbn [option_map] in *. rewrite !H. congruence. Qed.
Lemma file_back_canon f g : canon_file f = canon_file g -> canon_file (file_back f) = canon_file (file_back g).
Proof.
  destruct f as [v ge ed sb me di ev ti co ho], g as [v' ge' ed' sb' me' di' ev' ti' co' ho']. intros E.
  assert (E0 := f_equal osu_version E). assert (E1 := f_equal osu_general E). assert (E2 := f_equal osu_editor E). assert (E3 := f_equal osu_metadata E).
  assert (E4 := f_equal osu_difficulty E). assert (E5 := f_equal osu_events E). assert (E6 := f_equal osu_timing_points E).
  assert (E7 := f_equal osu_colours E). assert (E8 := f_equal osu_hitobjects E). clear E.
  cbn [canon_file osu_version osu_general osu_editor osu_metadata osu_difficulty osu_events osu_timing_points osu_colours osu_hitobjects] in *.
  subst v' me' co'. unfold file_back.
  cbn [osu_version osu_general osu_editor osu_metadata osu_difficulty osu_events osu_timing_points osu_colours osu_hitobjects canon_file].
  rewrite E4, E5, (opts_canon _ _ (general_at_canon v) _ _ E1), (opts_canon _ _ (editor_at_canon v) _ _ E2),
    (lists_canon _ _ (tp_back_canon v) _ _ E6), (lists_canon _ _ (ho_back_canon v) _ _ E8). reflexivity.
Qed.
Lemma equal_read_every dbg f g : file_can f = true -> file_can g = true -> osu_eq f g = true ->
  exists t u f' g', osu_to_string dbg f = ROk t /\ osu_to_string dbg g = ROk u
  /\ osu_from_str dbg t = ROk f' /\ osu_from_str dbg u = ROk g' /\ osu_eq f' g' = true.
Proof.
  intros Hf Hg E. destruct (whole_any dbg f Hf) as (t & _ & Pt & _ & _ & Rt).
  destruct (whole_any dbg g Hg) as (u & _ & Pu & _ & _ & Ru).
  exists t, u, (file_back f), (file_back g). do 4 (split; [assumption|]).
  apply file_R. apply file_back_canon. apply file_R. exact E.
Qed.
Lemma equal_reread dbg s s' f g : osu_from_str dbg s = ROk f -> osu_from_str dbg s' = ROk g ->
  forallb no_cr (lines s) = true -> forallb no_cr (lines s') = true -> dbg = true \/ (5 <= osu_version f)%Z ->
  file_stays f = true -> file_stays g = true -> file_written f = f -> file_written g = g -> osu_eq f g = true ->
  exists t u f' g', osu_to_string dbg f = ROk t /\ osu_to_string dbg g = ROk u
  /\ osu_from_str dbg t = ROk f' /\ osu_from_str dbg u = ROk g' /\ osu_eq f' g' = true.
Proof.
  intros Rf Rg Cf Cg D Sf Sg Wf Wg E.
  assert (V : osu_version f = osu_version g).
  { apply file_R in E. apply (f_equal osu_version) in E. destruct f, g. exact E. }
  destruct (read_file_can dbg s f Rf Cf D Sf) as [Hf _]. rewrite V in D. destruct (read_file_can dbg s' g Rg Cg D Sg) as [Hg _].
  rewrite Wf in Hf. rewrite Wg in Hg. exact (equal_read_every dbg f g Hf Hg E).
Qed.
