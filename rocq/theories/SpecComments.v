(** Comment lines, that is lines that begin with two slashes (C73). *)
From Coq Require Import String List NArith ZArith Bool.
From Verif Require Import Str Num Dec Parsers TimingPoints HitObjects SpecTotal SpecKv.
Import ListNotations.
Local Open Scope N_scope.

(** a line commented out *)
Definition out (l : str) : str := lit "//" ++ l.
(** A line of [s] begins with two slashes; blanks in front do not count. *)
Definition has_comment (s : str) : Prop := exists p w q, s = p ++ w ++ lit "//" ++ q
  /\ (p = [] \/ exists p', p = p' ++ [10]) /\ forallb blank_char w = true.
(** the text before the first comma *)
Definition first_field (l : str) : str := fst (span (fun c => negb (c =? 44)) l).
Definition with_time (t : decimal) (x : timing_point) : timing_point :=
  mk_tp t (tp_beat_length x) (tp_meter x) (tp_sample_set_f x) (tp_sample_index x) (tp_volume x) (tp_uninherited x) (tp_effects x).
Definition with_x (d : decimal) (o : hit_object) : hit_object :=
  mk_ho (mk_pos d (pos_y (ho_position o))) (ho_time o) (ho_obj_params o) (ho_new_combo o) (ho_combo_skip_count o) (ho_hitsound o) (ho_hitsample o).
