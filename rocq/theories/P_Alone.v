(** C71: values that are read on their own. *)
From Coq Require Import String List NArith ZArith Bool.
From Verif Require Import Str Num Dec Parsers Colours TimingPoints HitObjects Storyboard NormalEvents Events Osb Spec SpecOsb SpecAlone OsbFacts Alone.
Import ListNotations.
Local Open Scope N_scope.

(** C71. A type whose values are names reads exactly its names, case and all, and prints them. *)
Theorem C71_names :
  by_name curve_names curve_type_from_str curve_type_to_string /\ by_name sample_set_names sb_sample_set_from_str sb_sample_set_to_string
  /\ by_name addition_names addition_from_str addition_to_string /\ by_name parameter_names parameter_from_str parameter_to_string
  /\ by_name layer_names sb_layer_from_str sb_layer_to_string /\ by_name loop_names loop_type_from_str loop_type_to_string.
Proof. exact names_ok. Qed.
Print Assumptions C71_names.
Example C71_names_ex : curve_type_from_str (lit "P") = ROk (Some PerfectCircle) /\ curve_type_from_str (lit "p") = RErr tt
  /\ sb_layer_from_str (lit "Overlay") = ROk (Some LyOverlay) /\ sb_layer_from_str (lit "Overlay ") = RErr tt
  /\ loop_type_from_str (lit "0") = RErr tt /\ addition_to_string AdClap = lit "Clap".
Proof. repeat split; vm_compute; reflexivity. Qed.

(** C71. A type whose values are numbers reads exactly the numbers of its range that mean something. *)
Theorem C71_numbers :
  by_i32 ts_numbers (fun z => Some (TsOther z)) tp_sample_set_from_str
  /\ by_usize ss_numbers (fun z => Some (SsOther z)) sample_set_from_str
  /\ by_u32 [] Some effects_from_str
  /\ by_i32 [] Some tp_volume_from_str
  /\ by_u32 [(0, SiDefault)]%Z (fun z => Some (SiIndex z)) sample_index_from_str
  /\ by_usize [(0, HiTimingPoint)]%Z (fun z => Some (HiIndex z)) ho_index_from_str
  /\ by_u8 [] (fun z => Some (sounds_of z)) hit_sound_from_str
  /\ by_u8 [(0, None)]%Z (fun z => option_map Some (percent z)) ho_volume_from_str
  /\ by_u8 [] percent au_volume_from_str
  /\ by_usize origin_numbers no_other origin_legacy_from_str
  /\ by_usize layer_numbers no_other layer_legacy_from_str.
Proof. exact numbers_ok. Qed.
Print Assumptions C71_numbers.
Example C71_numbers_ex : tp_sample_set_from_str (lit "-7") = ROk (Some (TsOther (-7))) /\ tp_sample_set_from_str (lit "+03") = ROk (Some TsDrum)
  /\ sample_set_from_str (lit "2") = ROk (Some SsSoft) /\ hit_sound_from_str (lit "246") = ROk (Some (mk_hit_sound false true true false))
  /\ ho_volume_from_str (lit "0") = ROk (Some None) /\ ho_volume_from_str (lit "100") = ROk (Some (Some 100%Z))
  /\ au_volume_from_str (lit "0") = ROk (Some 0%Z) /\ origin_legacy_from_str (lit "9") = ROk (Some OtBottomRight)
  /\ layer_legacy_from_str (lit "5") = ROk (Some LlVideo)
  /\ (forall x, ho_volume_from_str (lit "101") <> ROk (Some x)) /\ (forall x, hit_sound_from_str (lit "256") <> ROk (Some x))
  /\ (forall x, origin_legacy_from_str (lit "10") <> ROk (Some x)) /\ (forall x, effects_from_str (lit "-1") <> ROk (Some x)).
Proof. repeat split; vm_compute; try reflexivity; discriminate. Qed.

(** C71. What was read is read again from what it is printed as. *)
Theorem C71_settles :
  settles_alone tp_sample_set_from_str tp_sample_set_to_string /\ settles_alone sample_set_from_str sample_set_to_string
  /\ settles_alone effects_from_str effects_to_string /\ settles_alone tp_volume_from_str print_Z
  /\ settles_alone ho_index_from_str ho_index_to_string /\ settles_alone hit_sound_from_str hit_sound_to_string
  /\ settles_alone ho_volume_from_str (fun x => print_Z (ho_volume_to_Z x)) /\ settles_alone au_volume_from_str print_Z
  /\ settles_alone origin_legacy_from_str (fun x => print_Z (origin_type_to_Z x))
  /\ settles_alone layer_legacy_from_str (fun x => print_Z (layer_legacy_to_Z x)).
Proof. exact settles_ok. Qed.
Print Assumptions C71_settles.
Example C71_settles_ex : hit_sound_from_str (lit "+246") = ROk (Some (mk_hit_sound false true true false))
  /\ hit_sound_to_string (mk_hit_sound false true true false) = lit "6"
  /\ hit_sound_from_str (lit "6") = ROk (Some (mk_hit_sound false true true false)).
Proof. repeat split; vm_compute; reflexivity. Qed.

(** C71. So is the index of a timing point below 2^31; *)
Theorem C71_index : forall s x, sample_index_from_str s = ROk (Some x) ->
  (exists z, int_text false s z /\ (2 ^ 31 <= z)%Z) \/ sample_index_from_str (sample_index_to_string x) = ROk (Some x).
Proof. exact index_settles. Qed.
Print Assumptions C71_index.
Example C71_index_ex : sample_index_from_str (lit "2147483647") = ROk (Some (SiIndex 2147483647))
  /\ sample_index_to_string (SiIndex 2147483647) = lit "2147483647".
Proof. split; vm_compute; reflexivity. Qed.
(** one that is not is read and printed as a negative number, which is not read. *)
Theorem C71_index_lost : forall s z, int_text false s z -> (2 ^ 31 <= z <= 2 ^ 32 - 1)%Z ->
  sample_index_from_str s = ROk (Some (SiIndex z)) /\ exists e, sample_index_from_str (sample_index_to_string (SiIndex z)) = RErr e.
Proof. exact index_lost. Qed.
Print Assumptions C71_index_lost.
Example C71_index_lost_ex : sample_index_from_str (lit "2147483648") = ROk (Some (SiIndex 2147483648))
  /\ sample_index_to_string (SiIndex 2147483648) = lit "-2147483648".
Proof. split; vm_compute; reflexivity. Qed.

(** C71. An edge set is two sample sets with a colon between, a curve point two decimals. *)
Theorem C71_edge_set : answers edge_set_from_str /\ settles_alone edge_set_from_str edge_set_to_string
  /\ forall s x, edge_set_from_str s = ROk (Some x) <->
     exists a b n d, two_parts s a b /\ sample_set_from_str a = ROk (Some n) /\ sample_set_from_str b = ROk (Some d) /\ x = mk_edge_set n d.
Proof. exact (conj edge_answers (conj edge_settles edge_reads)). Qed.
Print Assumptions C71_edge_set.
Example C71_edge_set_ex : edge_set_from_str (lit "1:7") = ROk (Some (mk_edge_set SsNormal (SsOther 7)))
  /\ (forall x, edge_set_from_str (lit "1:2:3") <> ROk (Some x)) /\ forall x, edge_set_from_str (lit "1") <> ROk (Some x).
Proof. repeat split; vm_compute; try reflexivity; discriminate. Qed.
Theorem C71_curve_point : answers curve_point_from_str /\ settles_alone curve_point_from_str curve_point_to_string
  /\ forall s x, curve_point_from_str s = ROk (Some x) <->
     exists a b, two_parts s a b /\ x = mk_pos (decimal_of_str a) (decimal_of_str b).
Proof. exact (conj point_answers (conj point_settles point_reads)). Qed.
Print Assumptions C71_curve_point.
Example C71_curve_point_ex :
  curve_point_from_str (lit "01.50:x:y") = ROk (Some (mk_pos (decimal_of_str (lit "1.50")) (DRaw (lit "x:y"))))
  /\ forall x, curve_point_from_str (lit "1,2") <> ROk (Some x).
Proof. split; vm_compute; try reflexivity; discriminate. Qed.

(** C71. An origin is a name or a number, and stays the one it was. *)
Theorem C71_origin : answers origin_from_str /\ settles_alone origin_from_str origin_to_string
  /\ forall s o, origin_from_str s = ROk (Some o) <-> origin_means s o.
Proof. exact (conj origin_answers (conj origin_settles origin_reads)). Qed.
Print Assumptions C71_origin.
Example C71_origin_ex : origin_from_str (lit "Centre") = ROk (Some (mk_origin (OLeft OtCentre) false))
  /\ origin_from_str (lit "1") = ROk (Some (mk_origin (OLeft OtCentre) true))
  /\ origin_from_str (lit "10") = ROk (Some (mk_origin (ORight 10) true)) /\ (forall x, origin_from_str (lit "centre") <> ROk (Some x)).
Proof. repeat split; vm_compute; try reflexivity; discriminate. Qed.

(** C71. A variable is a dollar sign, a name, an equals sign and a value; it is printed as the text it was read from. *)
Theorem C71_variable : answers var_from_str /\ (forall s x, var_from_str s = ROk (Some x) <-> variable_line s x)
  /\ forall s x, var_from_str s = ROk (Some x) -> var_to_string x = s.
Proof. exact (conj var_answers (conj var_line_iff var_text)). Qed.
Print Assumptions C71_variable.
Example C71_variable_ex : exists x, var_from_str (lit "$a = b=c") = ROk (Some x) /\ var_name x = lit "a " /\ var_value x = lit " b=c".
Proof. eexists. split; [vm_compute; reflexivity|]. split; reflexivity. Qed.

(** C71. A colour that was read is read again from what it is printed as. *)
Theorem C71_rgb : forall v, settles_alone (fun s => rgb_from_str s v) rgb_to_string.
Proof. exact rgb_settles. Qed.
Print Assumptions C71_rgb.
Example C71_rgb_ex : rgb_from_str (lit "1 , 002,+3") 14%Z = ROk (Some (mk_rgb 1 2 3)) /\ rgb_to_string (mk_rgb 1 2 3) = lit "1,2,3".
Proof. split; vm_compute; reflexivity. Qed.
