(** Proofs for C58: files. *)
From Coq Require Import String List NArith ZArith QArith Bool Relations Lia.
From Verif Require Import Str Num Dec Parsers General Editor Metadata Difficulty Colours TimingPoints HitObjects
  Storyboard NormalEvents Events Osb OsuFile Equal StrFacts SpecEqual SpecSections SpecWhole EqualFacts.
Import ListNotations.
Local Open Scope N_scope.

Definition exact {A} (eq : A -> A -> bool) : Prop := forall a b, eq a b = true <-> a = b.
Definition upto {A} (eq : A -> A -> bool) (c : A -> A) : Prop := forall a b, eq a b = true <-> c a = c b.
Lemma opt_E {A} (eq : A -> A -> bool) : exact eq -> exact (opt_eq eq).
Proof.
  intros E [x|] [y|]; cbn; try easy. rewrite (E x y). split; [intros ->; reflexivity|now intros [= ->]].
Qed.
Lemma opt_R {A} (eq : A -> A -> bool) c : upto eq c -> upto (opt_eq eq) (option_map c).
Proof.
  intros E [x|] [y|]; cbn; try easy. rewrite (E x y). split; [intros ->; reflexivity|now intros [= ->]].
Qed.
Lemma list_E {A} (eq : A -> A -> bool) : exact eq -> exact (list_eq eq).
Proof. exact (list_eq_E eq). Qed.
Lemma list_R {A} (eq : A -> A -> bool) c : upto eq c -> upto (list_eq eq) (map c).
Proof.
  intros E a. induction a as [|x a IH]; intros [|y b]; cbn; try easy. rewrite andb_true_iff, (E x y), (IH b).
  split; [intros [-> ->]; reflexivity|intros [= -> ->]; now split].
Qed.
Lemma pair_E {A B} (ea : A -> A -> bool) (eb : B -> B -> bool) : exact ea -> exact eb -> exact (pair_eq ea eb).
Proof.
  intros Ea Eb [a b] [a' b']. unfold pair_eq. cbn. rewrite andb_true_iff, (Ea a a'), (Eb b b').
  split; [intros [-> ->]; reflexivity|intros [= -> ->]; now split].
Qed.
Lemma bool_E : exact Bool.eqb.
Proof. exact eqb_true_iff. Qed.
Lemma Z_E : exact Z.eqb.
Proof. exact Z.eqb_eq. Qed.
Lemma str_E : exact str_eqb.
Proof. exact str_eqb_eq. Qed.
Ltac enum := intros a b; split; [destruct a, b; (reflexivity || discriminate)|intros ->; destruct b; reflexivity].
Lemma countdown_E : exact countdown_beq. Proof. enum. Qed.
Lemma gsample_set_E : exact gsample_set_beq. Proof. enum. Qed.
Lemma mode_E : exact mode_beq. Proof. enum. Qed.
Lemma overlay_position_E : exact overlay_position_beq. Proof. enum. Qed.
Lemma curve_type_E : exact curve_type_beq. Proof. enum. Qed.
Lemma sb_sample_set_E : exact sb_sample_set_beq. Proof. enum. Qed.
Lemma addition_E : exact addition_beq. Proof. enum. Qed.
Lemma parameter_E : exact parameter_beq. Proof. enum. Qed.
Lemma origin_type_E : exact origin_type_beq. Proof. enum. Qed.
Lemma layer_legacy_E : exact layer_legacy_beq. Proof. enum. Qed.
Lemma au_layer_E : exact au_layer_beq. Proof. enum. Qed.
Lemma sb_layer_E : exact sb_layer_beq. Proof. enum. Qed.
Lemma loop_type_E : exact loop_type_beq. Proof. enum. Qed.
Lemma positive_E : exact positive_beq.
Proof.
  intros a. induction a as [a IH|a IH|]; intros [b|b|]; cbn; try easy; rewrite (IH b); split; congruence.
Qed.
Lemma Zb_E : exact Z_beq.
Proof. intros [|a|a] [|b|b]; cbn; try easy; rewrite (positive_E a b); split; congruence. Qed.
Lemma easing_E : exact easing_beq.
Proof.
  intros a b. split.
  - destruct a, b; try reflexivity; try discriminate. cbn. rewrite (Zb_E z z0). congruence.
  - intros ->. destruct b; try reflexivity. cbn. now apply Zb_E.
Qed.
Lemma decimal_R : upto decimal_eq canon_decimal.
Proof.
  intros [x|s] [y|t]; cbn; try easy.
  - rewrite rdec_R. split; congruence.
  - rewrite str_eqb_eq. split; congruence.
Qed.
Lemma pos_R : upto pos_eq canon_pos.
Proof.
  intros [x y] [x' y']. unfold pos_eq, canon_pos. cbn [pos_x pos_y]. rewrite andb_true_iff, !(decimal_R _ _).
  split; [intros [-> ->]; reflexivity|intros H; injection H; auto].
Qed.

Local Opaque option_map canon_path canon_decimal canon_dec.
(** equations of a record from the equations of its fields *)
Ltac hide := repeat match goal with
  | |- context [option_map ?f ?x] => generalize (option_map f x); intro
  | |- context [map ?f ?x] => generalize (map f x); intro
  | |- context [canon_decimal ?x] => generalize (canon_decimal x); intro
  | |- context [canon_dec ?x] => generalize (canon_dec x); intro
  | |- context [canon_path ?x] => generalize (canon_path x); intro
  | |- context [canon_pos ?x] => generalize (canon_pos x); intro
  | |- context [canon_params ?x] => generalize (canon_params x); intro
  | |- context [canon_continuing ?x] => generalize (canon_continuing x); intro
  | |- context [canon_properties ?x] => generalize (canon_properties x); intro
  | |- context [canon_command ?x] => generalize (canon_command x); intro
  | |- context [canon_object_type ?x] => generalize (canon_object_type x); intro
  | |- context [canon_legacy ?x] => generalize (canon_legacy x); intro
  end.
Ltac fields := hide; split; [intros; repeat match goal with H : _ /\ _ |- _ => destruct H end; subst; f_equal; assumption || congruence
                      |let H := fresh in intros H; injection H; intros; repeat match goal with |- _ /\ _ => split end; assumption].
Lemma general_R : upto general_eq canon_general.
Proof.
  intros a b. unfold general_eq.
  rewrite !andb_true_iff, (opt_R _ _ path_R _ _), !(opt_R _ _ decimal_R _ _), !(opt_E _ Z_E _ _), !(opt_E _ str_E _ _),
    !(opt_E _ bool_E _ _), (opt_E _ countdown_E _ _), (opt_E _ gsample_set_E _ _), (opt_E _ mode_E _ _),
    (opt_E _ overlay_position_E _ _), (opt_E _ (list_E _ Z_E) _ _). destruct a, b; cbn; fields.
Qed.
Lemma editor_R : upto editor_eq canon_editor.
Proof.
  intros a b. unfold editor_eq.
  rewrite !andb_true_iff, !(opt_R _ _ decimal_R _ _), !(opt_E _ Z_E _ _), (opt_E _ (list_E _ Z_E) _ _). destruct a, b; cbn; fields.
Qed.
Lemma metadata_E : exact metadata_eq.
Proof.
  intros a b. unfold metadata_eq.
  rewrite !andb_true_iff, !(opt_E _ Z_E _ _), !(opt_E _ str_E _ _), (opt_E _ (list_E _ str_E) _ _). destruct a, b; cbn; fields.
Qed.
Lemma difficulty_R : upto difficulty_eq canon_difficulty.
Proof.
  intros a b. unfold difficulty_eq.
  rewrite !andb_true_iff, !(opt_R _ _ decimal_R _ _). destruct a, b; cbn; fields.
Qed.
Lemma rgb_E : exact rgb_eq.
Proof. intros a b. unfold rgb_eq. rewrite !andb_true_iff, !(Z_E _ _). destruct a, b; cbn; fields. Qed.
Lemma colour_E : exact colour_eq.
Proof. intros [] []; cbn [colour_eq]; rewrite ?andb_true_iff, ?(Z_E _ _), ?(rgb_E _ _); try easy; fields. Qed.
Lemma tp_sample_set_E : exact tp_sample_set_eq.
Proof. intros [] []; cbn; try easy. rewrite (Z_E _ _). fields. Qed.
Lemma sample_index_E : exact sample_index_eq.
Proof. intros [] []; cbn; try easy. rewrite (Z_E _ _). fields. Qed.
Lemma tp_R : upto tp_eq canon_tp.
Proof.
  intros a b. unfold tp_eq.
  rewrite !andb_true_iff, !(decimal_R _ _), !(Z_E _ _), (tp_sample_set_E _ _), (sample_index_E _ _), (opt_E _ bool_E _ _),
    (opt_E _ Z_E _ _). destruct a, b; cbn; fields.
Qed.
Lemma sample_set_E : exact sample_set_eq.
Proof. intros [] []; cbn; try easy. rewrite (Z_E _ _). fields. Qed.
Lemma edge_set_E : exact edge_set_eq.
Proof. intros a b. unfold edge_set_eq. rewrite !andb_true_iff, !(sample_set_E _ _). destruct a, b; cbn; fields. Qed.
Lemma hit_sound_E : exact hit_sound_eq.
Proof.
  intros a b. unfold hit_sound_eq.
  rewrite !andb_true_iff, !(bool_E _ _). destruct a, b; cbn; fields.
Qed.
Lemma ho_index_E : exact ho_index_eq.
Proof. intros [] []; cbn; try easy. rewrite (Z_E _ _). fields. Qed.
Lemma hit_sample_E : exact hit_sample_eq.
Proof.
  intros a b. unfold hit_sample_eq.
  rewrite !andb_true_iff, !(sample_set_E _ _), (ho_index_E _ _), (opt_E _ Z_E _ _), (str_E _ _). destruct a, b; cbn; fields.
Qed.
Lemma slide_R a b : slide_eq a b = true <-> canon_params (Slider a) = canon_params (Slider b).
Proof.
  unfold slide_eq.
  rewrite !andb_true_iff, (curve_type_E _ _), (list_R _ _ pos_R _ _), (Z_E _ _), (decimal_R _ _),
    (list_E _ hit_sound_E _ _), !(bool_E _ _), (list_E _ edge_set_E _ _). destruct a, b; cbn; fields.
Qed.
Lemma params_R : upto ho_params_eq canon_params.
Proof.
  intros a b. destruct a as [|[]| |], b as [|[]| |]; try (cbn; easy); cbn [ho_params_eq];
    try (rewrite (decimal_R _ _); cbn [canon_params]; fields). apply slide_R.
Qed.
Local Opaque canon_pos canon_params.
Lemma ho_R : upto ho_eq canon_ho.
Proof.
  intros a b. unfold ho_eq.
  rewrite !andb_true_iff, (pos_R _ _), (decimal_R _ _), (params_R _ _), (bool_E _ _), (Z_E _ _), (hit_sound_E _ _),
    (opt_E _ hit_sample_E _ _). destruct a, b; cbn; fields.
Qed.
Lemma trigger_type_E : exact trigger_type_eq.
Proof.
  intros [] []; cbn; try easy.
  rewrite !andb_true_iff, !(opt_E _ sb_sample_set_E _ _), (opt_E _ addition_E _ _), (opt_E _ Z_E _ _). fields.
Qed.
Lemma continuing_R : upto (continuing_eq decimal_eq) canon_continuing.
Proof.
  intros [[a b] l] [[c d] m]. unfold continuing_eq, canon_continuing. cbn [ct_start ct_rest fst snd].
  assert (P : upto (pair_eq decimal_eq (opt_eq decimal_eq)) (fun p => (canon_decimal (fst p), option_map canon_decimal (snd p)))).
  { intros [x y] [z w]. unfold pair_eq. cbn [fst snd]. rewrite andb_true_iff, (decimal_R _ _), (opt_R _ _ decimal_R _ _). fields. }
  unfold pair_eq at 1. cbn [fst snd]. rewrite !andb_true_iff, !(decimal_R _ _), (list_R _ _ P _ _). fields.
Qed.
Lemma sb_colours_E : exact sb_colours_eq.
Proof.
  intros a b. unfold sb_colours_eq. rewrite andb_true_iff.
  rewrite (pair_E _ _ (pair_E _ _ Z_E Z_E) Z_E _ _).
  rewrite (list_E _ (pair_E _ _ (pair_E _ _ Z_E (opt_E _ Z_E)) (opt_E _ Z_E)) _ _). destruct a, b; cbn; fields.
Qed.
Fixpoint command_R (a b : command) {struct a} : command_eq a b = true <-> canon_command a = canon_command b
with properties_R (p q : cmd_properties) {struct p} : properties_eq p q = true <-> canon_properties p = canon_properties q.
Proof.
  - destruct a as [s p], b as [t q]. cbn [command_eq canon_command].
    rewrite andb_true_iff, (opt_E _ Z_E _ _), (properties_R p q). fields.
  - assert (L : forall l l', match p with PLoop _ k | PTrigger _ _ _ k => k = l | _ => False end ->
      list_eq command_eq l l' = true <-> map canon_command l = map canon_command l').
    { destruct p as [| | | | | | | | |n k|x t g k]; intros l l' E; try contradiction; subst l; revert l';
        induction k as [|c k IH]; intros [|c' k']; cbn [list_eq map]; try easy;
        rewrite andb_true_iff, (command_R c c'), (IH k'); fields. }
    destruct p, q; cbn [properties_eq canon_properties]; try easy;
      rewrite ?andb_true_iff, ?(easing_E _ _), ?(opt_E _ Z_E _ _), ?(decimal_R _ _), ?(list_R _ _ decimal_R _ _),
        ?(continuing_R _ _), ?(sb_colours_E _ _), ?(parameter_E _ _), ?(list_E _ parameter_E _ _), ?(Z_E _ _),
        ?(trigger_type_E _ _), ?(L _ _ eq_refl); fields.
Qed.

Local Opaque canon_command canon_continuing.
Lemma commands_R : upto (list_eq command_eq) (map canon_command).
Proof. apply list_R. exact command_R. Qed.
Lemma legacy_R : upto legacy_eq canon_legacy.
Proof.
  intros a b. unfold legacy_eq.
  rewrite !andb_true_iff, (layer_legacy_E _ _), (origin_type_E _ _), (path_R _ _), (opt_R _ _ pos_R _ _), (commands_R _ _).
  destruct a, b; cbn; fields.
Qed.
Lemma origin_E : exact origin_eq.
Proof.
  intros [x s] [y t]. unfold origin_eq. cbn [or_type or_short]. rewrite andb_true_iff, (bool_E _ _).
  destruct x as [x|x], y as [y|y]; rewrite ?(origin_type_E _ _), ?(Z_E _ _);
    (split; [intros [? ?]; congruence || discriminate|intros [= ? ?]; subst; easy || split; reflexivity]).
Qed.
Lemma object_type_R : upto object_type_eq canon_object_type.
Proof.
  intros [] []; cbn [object_type_eq canon_object_type]; try easy;
    rewrite ?andb_true_iff, ?(Z_E _ _), ?rdec_R, ?(loop_type_E _ _), ?(path_R _ _); fields.
Qed.
Lemma break_E : exact break_eq.
Proof. intros a b. unfold break_eq. rewrite !andb_true_iff, !(Z_E _ _), (bool_E _ _). destruct a, b; cbn; fields. Qed.
Lemma colour_tr_E : exact colour_tr_eq.
Proof. intros a b. unfold colour_tr_eq. rewrite !andb_true_iff, !(Z_E _ _). destruct a, b; cbn; fields. Qed.
Local Opaque canon_object_type canon_legacy.
Lemma event_R : upto event_eq canon_event.
Proof.
  intros [s|[]|[]|x|x|x|x|[]|[]|[]] [s'|[]|[]|x'|x'|x'|x'|[]|[]|[]]; cbn [event_eq canon_event]; try easy;
    unfold background_eq, video_eq, sample_legacy_eq, object_eq, audio_sample_eq;
    cbn [NormalEvents.bg_start NormalEvents.bg_file NormalEvents.bg_pos NormalEvents.bg_cmds
         NormalEvents.vi_start NormalEvents.vi_file NormalEvents.vi_pos NormalEvents.vi_cmds NormalEvents.vi_short
         NormalEvents.sl_time NormalEvents.sl_layer NormalEvents.sl_file NormalEvents.sl_volume NormalEvents.sl_cmds
         NormalEvents.ob_layer NormalEvents.ob_origin NormalEvents.ob_pos NormalEvents.ob_type NormalEvents.ob_cmds
         NormalEvents.au_time NormalEvents.au_layer_f NormalEvents.au_file NormalEvents.au_volume];
    rewrite ?andb_true_iff, ?(str_E _ _), ?(break_E _ _), ?(colour_tr_E _ _), ?(legacy_R _ _), ?(Z_E _ _), ?(path_R _ _),
      ?(opt_R _ _ pos_R _ _), ?(pos_R _ _), ?(commands_R _ _), ?(bool_E _ _), ?(decimal_R _ _), ?(layer_legacy_E _ _),
      ?(opt_E _ Z_E _ _), ?(sb_layer_E _ _), ?(origin_E _ _), ?(object_type_R _ _), ?(au_layer_E _ _); fields.
Qed.
Lemma variable_E : exact variable_eq.
Proof. intros [] []. unfold variable_eq. cbn. rewrite andb_true_iff, !(str_E _ _). fields. Qed.
Local Opaque canon_event.
Lemma osb_R : upto osb_eq canon_osb.
Proof.
  intros a b. unfold osb_eq, canon_osb. rewrite andb_true_iff, (opt_E _ (list_E _ variable_E) _ _), (opt_R _ _ (list_R _ _ event_R) _ _).
  destruct a, b; cbn; fields.
Qed.
Local Opaque canon_general canon_editor canon_osb canon_difficulty canon_tp canon_ho.
Lemma file_R : upto osu_eq canon_file.
Proof.
  intros a b. unfold osu_eq. rewrite !andb_true_iff, (Z_E _ _), (opt_R _ _ general_R _ _), (opt_R _ _ editor_R _ _),
    (opt_R _ _ osb_R _ _), (opt_E _ metadata_E _ _), (opt_R _ _ difficulty_R _ _), (opt_R _ _ (list_R _ _ event_R) _ _),
    (opt_R _ _ (list_R _ _ tp_R) _ _), (opt_E _ (list_E _ colour_E) _ _), (opt_R _ _ (list_R _ _ ho_R) _ _).
  destruct a, b; cbn; fields.
Qed.

Local Transparent canon_general canon_editor option_map.
Lemma canon_at f : canon_file (SpecWhole.file_at f) = SpecWhole.file_at (canon_file f).
Proof.
  destruct f as [v ge ed sb me di ev ti co ho]. unfold SpecWhole.file_at. cbn [canon_file osu_version osu_general osu_editor
    osu_metadata osu_difficulty osu_events osu_timing_points osu_colours osu_hitobjects].
  f_equal.
  - destruct ge as [g|]; [|reflexivity]. cbn. f_equal. unfold SpecSections.general_at.
    destruct g. unfold canon_general. cbn. f_equal; unfold SpecSections.opt_if; now destruct (SpecSections.has_editor_fields v).
  - destruct ed as [e|]; [|reflexivity]. cbn. f_equal. unfold SpecSections.editor_at. now destruct e.
Qed.
