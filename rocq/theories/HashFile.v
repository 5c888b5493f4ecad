(** What a whole file hands to a hasher (C77). *)
From Coq Require Import String List NArith ZArith Bool Lia.
From Verif Require Import Str Num Dec Parsers General Editor Metadata Difficulty Colours TimingPoints HitObjects
  Storyboard NormalEvents Events Osb OsuFile Equal HashFeed SpecEqual SpecHash StrFacts EqualFacts EqualFile HashFacts.
Import ListNotations.
Local Open Scope N_scope.

Create HintDb coded.
Local Hint Resolve c_u8 c_u32 c_i32 c_usize c_bool c_text c_ints c_rdec c_opt c_vec c_pair : coded.
Ltac enums := intros [] []; easy.
Ltac split_and := repeat match goal with H : _ && _ = true |- _ => apply andb_true_iff in H as [? ?] end.
Lemma tail_same {A} (x y : A) l m : x :: l = y :: m -> l = m.
Proof. congruence. Qed.
Ltac tail_of H := apply tail_same in H.
(** equal fields write the same *)
Ltac fields_agree := split_and; repeat first [eapply agree; [solve [eauto 8 with coded]|eassumption]|apply both].
(** field after field, what is written tells it *)
Ltac read_field H :=
  first [eapply tell in H; [|solve [eauto 8 with coded]]; destruct H as [? H]
        |eapply tell_ok in H; [|solve [eauto 8 with coded]|eassumption|eassumption]; destruct H as [? H]].
Ltac fields_tell H := rewrite <- ?app_assoc in H; repeat read_field H;
  split; [|exact H]; repeat first [assumption|reflexivity|apply andb_true_iff; split].

Lemma c_decimal : coded all f_decimal decimal_eq.
Proof.
  split.
  - intros [a|a] [b|b] H; cbn [decimal_eq f_decimal] in *; try easy; f_equal; fields_agree.
  - intros [a|a] [b|b] r s _ _ H; cbn [decimal_eq f_decimal app] in *; try discriminate H; tail_of H; fields_tell H.
Qed.
Local Hint Resolve c_decimal : coded.
Lemma c_pos : coded all f_pos pos_eq.
Proof. split; [intros a b H|intros a b r s _ _ H]; unfold f_pos, pos_eq in *; [fields_agree|fields_tell H]. Qed.
Local Hint Resolve c_pos : coded.
Lemma c_countdown : coded all (f_tag tag_countdown) countdown_beq. Proof. apply c_tag; [exact countdown_E|enums]. Qed.
Lemma c_gsample_set : coded all (f_tag tag_gsample_set) gsample_set_beq. Proof. apply c_tag; [exact gsample_set_E|enums]. Qed.
Lemma c_mode : coded all (f_tag tag_mode) mode_beq. Proof. apply c_tag; [exact mode_E|enums]. Qed.
Lemma c_overlay : coded all (f_tag tag_overlay_position) overlay_position_beq. Proof. apply c_tag; [exact overlay_position_E|enums]. Qed.
Lemma c_curve : coded all (f_tag tag_curve_type) curve_type_beq. Proof. apply c_tag; [exact curve_type_E|enums]. Qed.
Lemma c_sb_set : coded all (f_tag tag_sb_sample_set) sb_sample_set_beq. Proof. apply c_tag; [exact sb_sample_set_E|enums]. Qed.
Lemma c_addition : coded all (f_tag tag_addition) addition_beq. Proof. apply c_tag; [exact addition_E|enums]. Qed.
Lemma c_parameter : coded all (f_tag tag_parameter) parameter_beq. Proof. apply c_tag; [exact parameter_E|enums]. Qed.
Lemma c_origin_type : coded all (f_tag tag_origin) origin_type_beq. Proof. apply c_tag; [exact origin_type_E|enums]. Qed.
Lemma c_layer_legacy : coded all (f_tag layer_legacy_to_Z) layer_legacy_beq. Proof. apply c_tag; [exact layer_legacy_E|enums]. Qed.
Lemma c_au_layer : coded all (f_tag au_layer_to_Z) au_layer_beq. Proof. apply c_tag; [exact au_layer_E|enums]. Qed.
Lemma c_sb_layer : coded all (f_tag tag_sb_layer) sb_layer_beq. Proof. apply c_tag; [exact sb_layer_E|enums]. Qed.
Lemma c_loop : coded all (f_tag tag_loop_type) loop_type_beq. Proof. apply c_tag; [exact loop_type_E|enums]. Qed.
Local Hint Resolve c_countdown c_gsample_set c_mode c_overlay c_curve c_sb_set c_addition c_parameter c_origin_type c_layer_legacy
  c_au_layer c_sb_layer c_loop : coded.

(** ** sections *)
Lemma c_opath : coded (ok_opt relative) (f_opt f_path) (opt_eq path_eq).
Proof. apply c_opt_ok. exact c_path. Qed.
Local Hint Resolve c_path c_opath : coded.
Definition ok_general (g : general) : bool := ok_opt relative (general_audio_filename g).
Lemma c_general : coded ok_general f_general general_eq.
Proof. split; [intros a b H|intros a b r s Ha Hb H; unfold ok_general in Ha, Hb]; unfold f_general, general_eq in *; [fields_agree|fields_tell H]. Qed.
Lemma c_editor : coded all f_editor editor_eq.
Proof. split; [intros a b H|intros a b r s _ _ H]; unfold f_editor, editor_eq in *; [fields_agree|fields_tell H]. Qed.
Lemma c_metadata : coded all f_metadata metadata_eq.
Proof. split; [intros a b H|intros a b r s _ _ H]; unfold f_metadata, metadata_eq in *; [fields_agree|fields_tell H]. Qed.
Lemma c_difficulty : coded all f_difficulty difficulty_eq.
Proof. split; [intros a b H|intros a b r s _ _ H]; unfold f_difficulty, difficulty_eq in *; [fields_agree|fields_tell H]. Qed.
Lemma c_rgb : coded all f_rgb rgb_eq.
Proof. split; [intros a b H|intros a b r s _ _ H]; unfold f_rgb, rgb_eq in *; [fields_agree|fields_tell H]. Qed.
Local Hint Resolve c_general c_editor c_metadata c_difficulty c_rgb : coded.
Ltac cases eqd fd := split;
  [intros a b H; destruct a, b; cbn [eqd fd] in *; try discriminate H; try reflexivity; f_equal; fields_agree
  |intros a b r s _ _ H; destruct a, b; cbn [eqd fd app] in *; try discriminate H; tail_of H; fields_tell H].
Lemma c_colour : coded all f_colour colour_eq.
Proof. cases colour_eq f_colour. Qed.
Lemma c_tp_set : coded all f_tp_sample_set tp_sample_set_eq.
Proof. cases tp_sample_set_eq f_tp_sample_set. Qed.
Lemma c_index : coded all f_sample_index sample_index_eq.
Proof. cases sample_index_eq f_sample_index. Qed.
Lemma c_set : coded all f_sample_set sample_set_eq.
Proof. cases sample_set_eq f_sample_set. Qed.
Lemma c_ho_index : coded all f_ho_index ho_index_eq.
Proof. cases ho_index_eq f_ho_index. Qed.
Local Hint Resolve c_colour c_tp_set c_index c_set c_ho_index : coded.
Lemma c_tp : coded all f_tp tp_eq.
Proof. split; [intros a b H|intros a b r s _ _ H]; unfold f_tp, tp_eq in *; [fields_agree|fields_tell H]. Qed.
Lemma c_edge_set : coded all f_edge_set edge_set_eq.
Proof. split; [intros a b H|intros a b r s _ _ H]; unfold f_edge_set, edge_set_eq in *; [fields_agree|fields_tell H]. Qed.
Lemma c_hit_sound : coded all f_hit_sound hit_sound_eq.
Proof. split; [intros a b H|intros a b r s _ _ H]; unfold f_hit_sound, hit_sound_eq in *; [fields_agree|fields_tell H]. Qed.
Lemma c_hit_sample : coded all f_hit_sample hit_sample_eq.
Proof. split; [intros a b H|intros a b r s _ _ H]; unfold f_hit_sample, hit_sample_eq in *; [fields_agree|fields_tell H]. Qed.
Local Hint Resolve c_tp c_edge_set c_hit_sound c_hit_sample : coded.
Lemma c_slide : coded all f_slide slide_eq.
Proof. split; [intros a b H|intros a b r s _ _ H]; unfold f_slide, slide_eq in *; [fields_agree|fields_tell H]. Qed.
Local Hint Resolve c_slide : coded.
Lemma c_params : coded all f_ho_params ho_params_eq.
Proof. cases ho_params_eq f_ho_params. Qed.
Local Hint Resolve c_params : coded.
Lemma c_ho : coded all f_ho ho_eq.
Proof. split; [intros a b H|intros a b r s _ _ H]; unfold f_ho, ho_eq in *; [fields_agree|fields_tell H]. Qed.

(** ** commands *)
Lemma c_trigger : coded all f_trigger_type trigger_type_eq.
Proof. cases trigger_type_eq f_trigger_type. Qed.
Lemma easing_one : forall a b r s, f_easing a ++ r = f_easing b ++ s -> a = b /\ r = s.
Proof. intros a b r s H. destruct a, b; cbn in H; try discriminate H; injection H as H; subst; now split. Qed.
Lemma c_easing : coded all f_easing easing_beq.
Proof.
  split; [intros a b H; apply easing_E in H; now subst|]. intros a b r s _ _ H. apply easing_one in H as [-> ->]. split; [|easy]. now apply easing_E.
Qed.
Lemma c_continuing : coded all f_continuing (continuing_eq decimal_eq).
Proof. split; [intros a b H|intros a b r s _ _ H]; unfold f_continuing, continuing_eq in *; [fields_agree|fields_tell H]. Qed.
Lemma c_sb_colours : coded all f_sb_colours sb_colours_eq.
Proof. split; [intros a b H|intros a b r s _ _ H]; unfold f_sb_colours, sb_colours_eq in *; [fields_agree|fields_tell H]. Qed.
Local Hint Resolve c_trigger c_easing c_continuing c_sb_colours : coded.
Fixpoint command_same (a b : command) {struct a} : command_eq a b = true -> f_command a = f_command b
with properties_same (p q : cmd_properties) {struct p} : properties_eq p q = true -> f_properties p = f_properties q.
Proof.
  - destruct a as [s p], b as [t q]. cbn [command_eq f_command]. intros H. apply andb_true_iff in H as [H1 H2].
    rewrite (properties_same p q H2). apply both; [|easy]. fields_agree.
  - assert (L : forall l l', match p with PLoop _ k | PTrigger _ _ _ k => k = l | _ => False end ->
      list_eq command_eq l l' = true -> f_vec f_command l = f_vec f_command l').
    { intros l l' E H. unfold f_vec, f_len. enough (K : length l = length l' /\ flat_map f_command l = flat_map f_command l') by (destruct K; congruence).
      revert l' H. destruct p as [| | | | | | | | |n k|x t g k]; try contradiction; subst l;
        (induction k as [|c k IH]; intros [|c' k'] H; cbn [list_eq flat_map length] in *; try easy;
         apply andb_true_iff in H as [H1 H2]; destruct (IH _ H2) as [K1 K2]; rewrite (command_same c c' H1); split; congruence). }
    destruct p, q; cbn [properties_eq f_properties]; intros H; try discriminate H; f_equal; split_and;
      repeat first [now apply L|eapply agree; [solve [eauto 8 with coded]|eassumption]|apply both].
Qed.
Fixpoint command_told (a b : command) r s {struct a} : f_command a ++ r = f_command b ++ s -> command_eq a b = true /\ r = s
with properties_told (p q : cmd_properties) r s {struct p} : f_properties p ++ r = f_properties q ++ s -> properties_eq p q = true /\ r = s.
Proof.
  - destruct a as [x p], b as [t q]. cbn [command_eq f_command]. intros H. rewrite <- !app_assoc in H. read_field H.
    apply properties_told in H as [H1 H]. split; [|easy]. apply andb_true_iff. now split.
  - assert (L : forall l l' r s, match p with PLoop _ k | PTrigger _ _ _ k => k = l | _ => False end ->
      f_vec f_command l ++ r = f_vec f_command l' ++ s -> list_eq command_eq l l' = true /\ r = s).
    { clear r s. intros l l' r s E H. unfold f_vec, f_len in H. cbn [app] in H. injection H as H0 H. apply Nat2Z.inj in H0. revert l' H0 H.
      destruct p as [| | | | | | | | |n k|x t g k]; try contradiction; subst l;
        (induction k as [|c k IH]; intros [|c' k'] H0 H; try discriminate H0; cbn [list_eq flat_map length app] in *; [easy|];
         rewrite <- !app_assoc in H; apply command_told in H as [H1 H]; injection H0 as H0; destruct (IH _ H0 H) as [H2 H3];
         now rewrite H1, H2). }
    destruct p, q; cbn [properties_eq f_properties app]; intros H; try discriminate H; tail_of H; rewrite <- ?app_assoc in H;
      repeat first [apply L in H; [|reflexivity]; destruct H as [? H]|read_field H]; (split; [|exact H]);
      repeat first [assumption|apply andb_true_iff; split].
Qed.
Lemma c_command : coded all f_command command_eq.
Proof. split; [exact command_same|]. intros a b r s _ _. apply command_told. Qed.
Local Hint Resolve c_command : coded.

(** ** events *)
Lemma c_break : coded all f_break break_eq.
Proof. split; [intros a b H|intros a b r s _ _ H]; unfold f_break, break_eq in *; [fields_agree|fields_tell H]. Qed.
Lemma c_colour_tr : coded all f_colour_tr colour_tr_eq.
Proof. split; [intros a b H|intros a b r s _ _ H]; unfold f_colour_tr, colour_tr_eq in *; [fields_agree|fields_tell H]. Qed.
Lemma c_background : coded (fun x => relative (bg_file x)) f_background background_eq.
Proof. split; [intros a b H|intros a b r s Ha Hb H]; unfold f_background, background_eq in *; [fields_agree|fields_tell H]. Qed.
Lemma c_video : coded (fun x => relative (vi_file x)) f_video video_eq.
Proof. split; [intros a b H|intros a b r s Ha Hb H]; unfold f_video, video_eq in *; [fields_agree|fields_tell H]. Qed.
Lemma c_legacy : coded (fun x => relative (lg_file x)) f_legacy legacy_eq.
Proof. split; [intros a b H|intros a b r s Ha Hb H]; unfold f_legacy, legacy_eq in *; [fields_agree|fields_tell H]. Qed.
Lemma c_sample_legacy : coded (fun x => relative (sl_file x)) f_sample_legacy sample_legacy_eq.
Proof. split; [intros a b H|intros a b r s Ha Hb H]; unfold f_sample_legacy, sample_legacy_eq in *; [fields_agree|fields_tell H]. Qed.
Lemma c_audio : coded (fun x => relative (au_file x)) f_audio_sample audio_sample_eq.
Proof. split; [intros a b H|intros a b r s Ha Hb H]; unfold f_audio_sample, audio_sample_eq in *; [fields_agree|fields_tell H]. Qed.
Definition either_eq (a b : origin_either) : bool :=
  match a, b with OLeft x, OLeft y => origin_type_beq x y | ORight x, ORight y => Z.eqb x y | _, _ => false end.
Lemma c_either : coded all f_origin_either either_eq.
Proof. cases either_eq f_origin_either. Qed.
Local Hint Resolve c_break c_colour_tr c_background c_video c_legacy c_sample_legacy c_audio c_either : coded.
Lemma c_origin : coded all f_origin origin_eq.
Proof. split; [intros a b H|intros a b r s _ _ H]; unfold f_origin, origin_eq in *; fold (either_eq (or_type a) (or_type b)) in *; [fields_agree|fields_tell H]. Qed.
Definition ok_type (t : object_type) : bool := match t with ObSprite f => relative f | ObAnimation _ _ _ f => relative f end.
Lemma c_object_type : coded ok_type f_object_type object_type_eq.
Proof.
  split.
  - intros a b H; destruct a, b; cbn [object_type_eq f_object_type] in *; try discriminate H; f_equal; fields_agree.
  - intros a b r s Ha Hb H; destruct a, b; cbn [object_type_eq f_object_type app ok_type] in *; try discriminate H; tail_of H; fields_tell H.
Qed.
Local Hint Resolve c_origin c_object_type : coded.
Lemma c_object : coded (fun x => ok_type (ob_type x)) f_object object_eq.
Proof. split; [intros a b H|intros a b r s Ha Hb H]; unfold f_object, object_eq in *; [fields_agree|fields_tell H]. Qed.
Local Hint Resolve c_object : coded.
Definition ok_event (e : event) : bool := forallb relative (paths_of_event e).
Lemma c_event : coded ok_event f_event event_eq.
Proof.
  split.
  - intros a b H; destruct a, b; cbn [event_eq f_event] in *; try discriminate H; f_equal; fields_agree.
  - intros a b r s Ha Hb H; unfold ok_event in Ha, Hb; destruct a, b; cbn [event_eq f_event app paths_of_event forallb] in *; try discriminate H; tail_of H;
      rewrite ?andb_true_r in Ha, Hb; try solve [fields_tell H].
    apply (tell_ok _ _ _ _ c_object) in H as [? H]; [now split| |]; [destruct (ob_type x)|destruct (ob_type x0)]; cbn [forallb ok_type] in *; now rewrite ?andb_true_r in *.
Qed.
Lemma c_events : coded (forallb ok_event) (f_vec f_event) (list_eq event_eq).
Proof. apply c_vec_ok. exact c_event. Qed.
Lemma c_oevents : coded (ok_opt (forallb ok_event)) (f_opt (f_vec f_event)) (opt_eq (list_eq event_eq)).
Proof. apply c_opt_ok. exact c_events. Qed.

(** ** files *)
Lemma c_variable : coded all f_variable variable_eq.
Proof. split; [intros a b H|intros a b r s _ _ H]; unfold f_variable, variable_eq in *; [fields_agree|fields_tell H]. Qed.
Local Hint Resolve c_ho c_oevents c_variable : coded.
Definition ok_osb (o : osb) : bool := ok_opt (forallb ok_event) (osb_events o).
Lemma c_osb : coded ok_osb f_osb osb_eq.
Proof. split; [intros a b H|intros a b r s Ha Hb H; unfold ok_osb in Ha, Hb]; unfold f_osb, osb_eq in *; [fields_agree|fields_tell H]. Qed.
Lemma c_oosb : coded (ok_opt ok_osb) (f_opt f_osb) (opt_eq osb_eq).
Proof. apply c_opt_ok. exact c_osb. Qed.
Lemma c_ogeneral : coded (ok_opt ok_general) (f_opt f_general) (opt_eq general_eq).
Proof. apply c_opt_ok. exact c_general. Qed.
Local Hint Resolve c_oosb c_ogeneral : coded.
Lemma in_opt_ok {A} (f : A -> list str) o : forallb relative (in_opt f o) = ok_opt (fun x => forallb relative (f x)) o.
Proof. now destruct o. Qed.
Lemma events_paths l : forallb relative (flat_map paths_of_event l) = forallb ok_event l.
Proof. induction l as [|e l IH]; [easy|]. cbn [flat_map forallb]. now rewrite forallb_app, IH. Qed.
Lemma file_paths f : relative_file f = true ->
  ok_opt ok_general (osu_general f) = true /\ ok_opt (forallb ok_event) (osu_events f) = true /\ ok_opt ok_osb (osu_osb f) = true.
Proof.
  unfold relative_file, paths_of_file. rewrite !forallb_app, !andb_true_iff, !in_opt_ok. intros (H1 & H2 & H3). repeat split.
  - destruct (osu_general f) as [g|]; [|easy]. cbn [ok_opt] in *. unfold ok_general. destruct (general_audio_filename g); [|easy]. cbn in *. now rewrite andb_true_r in H1.
  - destruct (osu_events f) as [l|]; [|easy]. cbn [ok_opt] in *. now rewrite events_paths in H2.
  - destruct (osu_osb f) as [o|]; [|easy]. cbn [ok_opt] in *. unfold paths_of_osb in H3. rewrite in_opt_ok in H3. unfold ok_osb. destruct (osb_events o); [|easy].
    cbn [ok_opt] in *. now rewrite events_paths in H3.
Qed.
Lemma c_file : coded relative_file f_osu osu_eq.
Proof.
  split; [intros a b H|intros a b r s Ha Hb H; apply file_paths in Ha as (? & ? & ?); apply file_paths in Hb as (? & ? & ?)]; unfold f_osu, osu_eq in *;
    [fields_agree|fields_tell H].
Qed.

Lemma hash_agrees f g : osu_eq f g = true -> forall St (step : St -> hwrite -> St) s, hash_of step s (f_osu f) = hash_of step s (f_osu g).
Proof. intros H St step s. now rewrite (agree f g c_file H). Qed.
Lemma hash_tells f g : relative_file f = true -> relative_file g = true -> (f_osu f = f_osu g <-> osu_eq f g = true).
Proof.
  intros Hf Hg. split; [|apply (agree f g c_file)]. intros H. apply (tell_ok f g [] [] c_file Hf Hg). now rewrite H.
Qed.
Lemma tells_alone {A} (f : feed A) eq a b : coded all f eq -> (f a = f b <-> eq a b = true).
Proof. intros C. split; [|apply (agree a b C)]. intros H. apply (tell a b [] [] C). now rewrite H. Qed.
Lemma decimal_told a b : f_decimal a = f_decimal b <-> decimal_eq a b = true.
Proof. apply tells_alone. exact c_decimal. Qed.
Lemma tp_told a b : f_tp a = f_tp b <-> tp_eq a b = true.
Proof. apply tells_alone. exact c_tp. Qed.
Lemma ho_told a b : f_ho a = f_ho b <-> ho_eq a b = true.
Proof. apply tells_alone. exact c_ho. Qed.
Lemma cmd_told a b : f_command a = f_command b <-> command_eq a b = true.
Proof. apply tells_alone. exact c_command. Qed.
Lemma osb_agrees a b : osb_eq a b = true -> f_osb a = f_osb b.
Proof. apply (agree a b c_osb). Qed.
Lemma event_agrees a b : event_eq a b = true -> f_event a = f_event b.
Proof. apply (agree a b c_event). Qed.
Lemma path_tells p q : relative p = true -> relative q = true -> (f_path p = f_path q <-> same_path p q).
Proof.
  intros Hp Hq. rewrite <- path_same, path_components, path_told. now rewrite !relative_components.
Qed.
Lemma path_agrees p q : same_path p q -> f_path p = f_path q.
Proof. intros H. apply path_same in H. apply (agree p q c_path H). Qed.
