(** C45 and C46: lines of timing points and of hit objects are read field by field. *)
From Coq Require Import String List NArith ZArith Bool.
From Verif Require Import Str Num Dec Parsers Colours TimingPoints HitObjects SpecWf SpecText SpecLine LineRead HoRead.
Import ListNotations.
Local Open Scope N_scope.

(** A line has exactly one list of fields, and [pieces] finds it. *)
Theorem C45_fields : forall s fs, pieces 44 s = fs <-> fields_of s fs.
Proof. exact fields_pieces. Qed.
Print Assumptions C45_fields.
Example C45_fields_example : pieces 44 (lit "1,,a b") = [lit "1"; []; lit "a b"]
  /\ fields_of (lit "1,,a b") [lit "1"; []; lit "a b"].
Proof. split; [reflexivity|]. now apply C45_fields. Qed.

(** The line [s] of a timing point is read as [tp_line] says, in every version. *)
Theorem C45_timing_point : forall v s fs, fields_of s fs -> tp_from_str v s = rmap Some (tp_line v fs).
Proof. exact tp_line_reads. Qed.
Print Assumptions C45_timing_point.
Example C45_timing_point_example :
  let s := lit "10,333.5,4,2,7,60,1,8" in
  fields_of s (pieces 44 s)
  /\ tp_from_str 14%Z s = ROk (Some (mk_tp (DNum (mkDec false 10 0)) (DNum (mkDec false 3335 1)) 4 TsSoft (SiIndex 7) 60
       (Some true) (Some 8%Z)))
  /\ tp_from_str 4%Z s = RErr TpInvalidVolume
  /\ tp_from_str 14%Z (lit "10,333.5,4,2,7,60,1") = RErr TpMissingEffects
  /\ tp_from_str 5%Z (lit "10,333.5,4,2,7,60,1")
     = ROk (Some (mk_tp (DNum (mkDec false 10 0)) (DNum (mkDec false 3335 1)) 4 TsSoft (SiIndex 7) 60 (Some true) None)).
Proof. cbv zeta. split; [now apply C45_fields|]. repeat split. Qed.

(** The text of a hit sample is read piece by piece. *)
Theorem C46_hit_sample : forall s, hit_sample_from_str s = rmap Some (hs_line (pieces 58 s)).
Proof. exact hs_reads. Qed.
Print Assumptions C46_hit_sample.
Example C46_hit_sample_example :
  hit_sample_from_str (lit "1:3:0:70:a.wav") = ROk (Some (mk_hit_sample SsNormal SsDrum HiTimingPoint (Some 70%Z) (lit "a.wav")))
  /\ hit_sample_from_str (lit "1:3: ") = ROk (Some (mk_hit_sample SsNormal SsDrum HiTimingPoint None []))
  /\ hit_sample_from_str (lit "1: :5") = RErr HsInvalidSampleSet.
Proof. repeat split. Qed.

(** The line [s] of a hit object is read as [ho_line] says, in every version. *)
Theorem C46_hit_object : forall v s fs, fields_of s fs -> ho_from_str v s = rmap Some (ho_line v fs).
Proof. exact ho_line_reads. Qed.
Print Assumptions C46_hit_object.
Example C46_hit_object_example :
  let d n := DNum (mkDec false n 0) in
  let s := lit "100,50,2000,6,8,L|7:8|9:10,2,140,2|0,1:2,0:3:0:0:" in
  fields_of s (pieces 44 s)
  /\ ho_from_str 14%Z s
     = ROk (Some (mk_ho (mk_pos (d 100) (d 50)) (d 2000)
         (Slider (mk_slide Linear [mk_pos (d 7) (d 8); mk_pos (d 9) (d 10)] 2 (d 140)
            [mk_hit_sound false true false false; mk_hit_sound false false false false] false
            [mk_edge_set SsNormal SsSoft] false))
         true 0%Z (mk_hit_sound false false false true)
         (Some (mk_hit_sample SsNone SsDrum HiTimingPoint None []))))
  /\ ho_from_str 14%Z (lit "100,50,2000,6,8,L|7:8|9,2,140") = RErr HoMissingSlidesCount
  /\ ho_from_str 14%Z (lit "100,50,2000,6,8,L|7:8,2,140,x") = RErr HoMissingEdgeSet
  /\ ho_from_str 14%Z (lit "100,50,2000,128,8,3000:0:3:0:0:")
     = ROk (Some (mk_ho (mk_pos (d 100) (d 50)) (d 2000) (OsuManiaHold (d 3000)) false 0%Z
         (mk_hit_sound false false false true) (Some (mk_hit_sample SsNone SsDrum HiTimingPoint None []))))
  /\ ho_from_str 14%Z (lit "100,50,2000,4,8") = RErr HoUnknownObjType.
Proof. cbv zeta. split; [now apply C45_fields|]. repeat split; vm_compute; reflexivity. Qed.

(** Eight of its errors are never reported. *)
Theorem C46_never : forall v s e, ho_from_str v s = RErr e ->
  ~ In e [HoMissingCurvePoint; HoInvalidCurvePoint; HoInvalidEdgeSound; HoInvalidEdgeSet; HoInvalidX; HoInvalidY;
          HoInvalidTime; HoInvalidLength].
Proof. exact ho_never. Qed.
Print Assumptions C46_never.
Example C46_never_example : ho_from_str 14%Z (lit "100,50,2000,2,8,L|x,2,140") = RErr HoMissingSlidesCount
  /\ ho_from_str 14%Z (lit "100,50,2000,2,8,X|1:2,2,140") = RErr HoInvalidCurveType.
Proof. repeat split. Qed.
