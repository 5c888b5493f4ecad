(** What the shorthand flags of a slider say once it is written: a slider that has edge sets
    or a hit sample shows its lists, whatever the flags say. *)
From Coq Require Import String List NArith ZArith Bool.
From Verif Require Import Str Num Dec Parsers HitObjects OsuFile.
Import ListNotations.
Local Open Scope N_scope.

Definition settled (o : hit_object) : hit_object :=
  match ho_obj_params o with
  | Slider p =>
      let no_sets := sl_edge_sets_shorthand p && match sl_edge_sets p with [] => true | _ => false end
                     && match ho_hitsample o with None => true | Some _ => false end in
      let no_sounds := sl_edge_sounds_short_hand p && match sl_edge_sounds p with [] => true | _ => false end
                       && no_sets in
      mk_ho (ho_position o) (ho_time o)
        (Slider (mk_slide (sl_curve_type p) (sl_curve_points p) (sl_slides p) (sl_length p) (sl_edge_sounds p) no_sounds
                   (sl_edge_sets p) no_sets))
        (ho_new_combo o) (ho_combo_skip_count o) (ho_hitsound o) (ho_hitsample o)
  | _ => o
  end.
Definition file_settled (f : osu_file) : osu_file :=
  mk_osu (osu_version f) (osu_general f) (osu_editor f) (osu_osb f) (osu_metadata f) (osu_difficulty f) (osu_events f)
    (osu_timing_points f) (osu_colours f) (option_map (map settled) (osu_hitobjects f)).
