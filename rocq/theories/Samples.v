(** Sample values for the examples beside the theorems. *)
From Coq Require Import String List NArith ZArith Bool.
From Verif Require Import Str Num Dec Parsers Colours TimingPoints HitObjects.
Import ListNotations.
Local Open Scope N_scope.

Definition tp1 : timing_point :=
  mk_tp (DNum (mkDec false 1525 1)) (DNum (mkDec true 100 0)) 4 TsSoft (SiIndex 2) 70 (Some true) (Some 9%Z).
Definition tp2 : timing_point :=
  mk_tp (DRaw (lit "x")) (DNum (mkDec true 3333 2)) (-1) (TsOther 7) SiDefault 100 None None.
Definition num (z : N) : decimal := DNum (mkDec false z 0).
Definition ho1 : hit_object :=
  mk_ho (mk_pos (num 256) (num 192)) (num 1000) HitCircle true 3%Z (mk_hit_sound false true false true)
        (Some (mk_hit_sample SsSoft SsNone (HiIndex 2) (Some 50%Z) (lit "a b.wav"))).
Definition ho2 : hit_object :=
  mk_ho (mk_pos (num 1) (num 2)) (num 3)
        (Slider (mk_slide PerfectCircle [mk_pos (num 4) (num 5); mk_pos (num 6) (num 7)] 2
                   (DNum (mkDec false 1005 1)) [mk_hit_sound false false true false] false
                   [mk_edge_set SsDrum SsNormal; mk_edge_set SsNone (SsOther 9)] false))
        false 0%Z (mk_hit_sound true false false false)
        (Some (mk_hit_sample SsNone SsNone HiTimingPoint None [])).
Definition ho3 : hit_object :=
  mk_ho (mk_pos (num 1) (num 2)) (num 3) (Spinner (num 90)) true 0%Z (mk_hit_sound false false false false) None.
Definition ho4 : hit_object :=
  mk_ho (mk_pos (num 1) (num 2)) (num 3) (OsuManiaHold (num 44)) false 0%Z
        (mk_hit_sound false false false false)
        (Some (mk_hit_sample SsNormal SsNone HiTimingPoint None [])).
Definition ho5 : hit_object :=
  mk_ho (mk_pos (num 1) (num 2)) (num 3)
        (Slider (mk_slide Bezier [] 1 (num 7) [] true [] true))
        false 0%Z (mk_hit_sound false false false false) None.
