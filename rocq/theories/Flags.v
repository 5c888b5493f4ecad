(** The shorthand flags, once written. *)
From Coq Require Import String List NArith ZArith Bool.
From Verif Require Import Str Num Dec Parsers HitObjects OsuFile SpecWf SpecText SpecFile SpecWhole SpecBack SpecFlags StrFacts LayoutFacts
  WholeFacts BackFacts.
Import ListNotations.
Local Open Scope N_scope.

Lemma settled_prints v o : ho_to_string v o = ho_to_string v (settled o).
Proof.
  destruct o as [pos t p nc sk hs smp]. unfold settled. cbn [ho_obj_params]. destruct p as [|p| |]; try reflexivity.
  destruct p as [ct cp sl ln es b1 et b2].
  unfold ho_to_string, ho_type_to_string.
  cbn [ho_position ho_time ho_obj_params ho_new_combo ho_combo_skip_count ho_hitsound ho_hitsample sl_curve_type sl_curve_points sl_slides
    sl_length sl_edge_sounds sl_edge_sounds_short_hand sl_edge_sets sl_edge_sets_shorthand].
  now destruct smp, b1, b2, es, et.
Qed.
Lemma settled_all v l : hit_objects_to_string l v = hit_objects_to_string (map settled l) v.
Proof.
  unfold hit_objects_to_string. f_equal. f_equal. rewrite map_map. apply map_ext. intros o. apply settled_prints.
Qed.
Lemma settled_idem o : settled (settled o) = settled o.
Proof.
  destruct o as [pos t p nc sk hs smp]. destruct p as [|p| |]; try reflexivity. destruct p as [ct cp sl ln es b1 et b2].
  now destruct smp, b1, b2, es, et.
Qed.
Lemma settled_short o p : ho_obj_params (settled o) = Slider p -> shorthand_ok p (ho_hitsample (settled o)) = true.
Proof.
  destruct o as [pos t q nc sk hs smp]. destruct q as [|q| |]; try discriminate. destruct q as [ct cp sl ln es b1 et b2].
  unfold settled. cbn. intros [= <-]. now destruct smp, b1, b2, es, et.
Qed.
Lemma settled_back v l : (3 <= v)%Z -> forallb (ho_can v) (map settled l) = true ->
  starts_ok (map (fun o => pos_x (ho_position o)) l) = true ->
  exists s, hit_objects_to_string l v = ROk (Some s)
  /\ hit_objects_from_str s v = ROk (Some (map (fun o => ho_back v (settled o)) l)).
Proof.
  intros Hv H Hs. destruct (objects_any v (map settled l)) as (ls & H1 & H2); [easy..| |].
  - rewrite map_map. erewrite map_ext; [exact Hs|]. intros o. unfold settled. now destruct (ho_obj_params o).
  - exists (text_of_lines ls). rewrite settled_all. split; [easy|]. rewrite map_map in H2.
    now destruct H2 as (_ & H2 & _).
Qed.
Lemma file_settled_prints dbg f : osu_to_string dbg f = osu_to_string dbg (file_settled f).
Proof.
  destruct f as [v g e o m d ev tp c h]. unfold osu_to_string, file_settled. cbn [osu_version osu_general osu_editor osu_osb osu_metadata osu_difficulty osu_events osu_timing_points osu_colours osu_hitobjects].
  destruct h as [l|]; [|easy]. cbn [option_map run_opt]. now rewrite settled_all.
Qed.
Lemma file_flags dbg f : file_can (file_settled f) = true ->
  exists t, osu_to_string dbg f = ROk t /\ osu_from_str dbg t = ROk (file_back (file_settled f)).
Proof.
  intros H. destruct (whole_any dbg _ H) as (t & secs & H1 & _ & _ & H2). exists t. rewrite file_settled_prints. auto.
Qed.
