(** What becomes of hit objects that a program has built (C59). *)
From Coq Require Import String List NArith ZArith Bool.
From Verif Require Import Str Num Nom Dec Parsers General Editor Metadata Difficulty Colours TimingPoints HitObjects Storyboard NormalEvents Events Osb OsuFile
  Spec SpecWf SpecText SpecEvents.
Import ListNotations.
Local Open Scope N_scope.

(** The ranges of the Rust types, and texts that do not break the line.  Unlike [ho_read], nothing
    is asked of the private flags of a slider, and a hold may be without sample. *)
Definition ho_typed (o : hit_object) : bool :=
  wf_dec_field (pos_x (ho_position o)) && wf_dec_field (pos_y (ho_position o)) && wf_dec_field (ho_time o)
  && (0 <=? ho_combo_skip_count o)%Z && (ho_combo_skip_count o <=? 7)%Z
  && match ho_obj_params o with
     | HitCircle => true
     | Slider p => forallb point_ok (sl_curve_points p) && in_i32 (sl_slides p) && wf_dec_field (sl_length p)
                   && forallb edge_set_ok (sl_edge_sets p)
     | Spinner t => wf_dec_field t
     | OsuManiaHold t => wf_decimal t && dec_no_colon t && dec_no_nl t
     end
  && match ho_hitsample o with Some h => hit_sample_read h && no_nl (hs_filename h) | None => true end.

(** The edge sets are left out when there are none, no sample follows and the flag allows it; the
    edge sounds when also the edge sets are left out. *)
Definition sets_out (p : slide_params) (hs : option hit_sample) : bool :=
  match sl_edge_sets p, hs with [], None => sl_edge_sets_shorthand p | _, _ => false end.
Definition sounds_out (p : slide_params) (hs : option hit_sample) : bool :=
  match sl_edge_sounds p with [] => sl_edge_sounds_short_hand p && sets_out p hs | _ => false end.
(** What is read back: the flags say what was left out, and a hold has a sample. *)
Definition filled (o : hit_object) : hit_object :=
  match ho_obj_params o, ho_hitsample o with
  | Slider p, hs =>
      mk_ho (ho_position o) (ho_time o)
        (Slider (mk_slide (sl_curve_type p) (sl_curve_points p) (sl_slides p) (sl_length p)
                   (sl_edge_sounds p) (sounds_out p hs) (sl_edge_sets p) (sets_out p hs)))
        (ho_new_combo o) (ho_combo_skip_count o) (ho_hitsound o) hs
  | OsuManiaHold t, None =>
      mk_ho (ho_position o) (ho_time o) (OsuManiaHold t) (ho_new_combo o) (ho_combo_skip_count o) (ho_hitsound o)
        (Some (mk_hit_sample SsNone SsNone HiTimingPoint None []))
  | _, _ => o
  end.
Definition file_filled (f : osu_file) : osu_file :=
  mk_osu (osu_version f) (osu_general f) (osu_editor f) (osu_osb f) (osu_metadata f) (osu_difficulty f) (osu_events f)
    (osu_timing_points f) (osu_colours f) (option_map (map filled) (osu_hitobjects f)).

(** The line of a timing point that has a flag and effects. *)
Definition row_of (time beat : str) (meter : Z) (set : tp_sample_set) (index : sample_index) (vol : Z) (flag : str) (e : Z) : str :=
  commas [time; beat; print_Z meter; print_Z (tp_set_number set); print_Z (tp_index_number index); print_Z vol; flag; print_Z e].
