(** Property theorems C03, C04, C05, C12, C14, C35: the sections made of independent
    lines (colours, timing points, hit objects). *)
From Coq Require Import String List NArith ZArith Bool.
From Verif Require Import Str Num Nom Dec Parsers Colours TimingPoints HitObjects Spec SpecWf SpecText
  ColoursFacts TpFacts HoFacts HoRound HoObj HoImage LayoutFacts Samples.
Import ListNotations.
Local Open Scope N_scope.

(** C03. A list of colours is printed as the documented lines and read back as the same
    list, in the same order. *)
Theorem C03_colours_round_trip : forall v l,
  (4 < v)%Z -> forallb colour_ok l = true -> forallb combo_nonneg l = true ->
  colours_to_string l v = Some (text_of_lines (map colour_text l))
  /\ colours_from_str (text_of_lines (map colour_text l)) v = ROk (Some l).
Proof. exact colours_text_round_trip. Qed.
Print Assumptions C03_colours_round_trip.

(** A combo with a negative number is printed, but the text is rejected. *)
Theorem C03_negative_combo_rejected : forall v l n x,
  (4 < v)%Z -> forallb colour_ok l = true -> In (Combo n x) l -> (n < 0)%Z ->
  colours_to_string l v = Some (text_of_lines (map colour_text l))
  /\ exists e, colours_from_str (text_of_lines (map colour_text l)) v = RErr e.
Proof. exact colours_text_negative. Qed.
Print Assumptions C03_negative_combo_rejected.

(** Every section that is read meets the hypotheses, so it survives being printed. *)
Theorem C03_colours_reparse : forall s v l,
  colours_from_str s v = ROk (Some l) ->
  exists t, colours_to_string l v = Some t /\ colours_from_str t v = ROk (Some l).
Proof. exact colours_reparse. Qed.
Print Assumptions C03_colours_reparse.
Theorem C03_colours_read_ok : forall s v l,
  colours_from_str s v = ROk (Some l) ->
  forallb colour_ok l = true /\ forallb combo_nonneg l = true /\ old_version v = false.
Proof. exact colours_from_str_ok. Qed.
Print Assumptions C03_colours_read_ok.

Example C03_ex :
  let l := [Combo 1 (mk_rgb 255 128 0); SliderBorder (mk_rgb 0 0 7); Combo 0 (mk_rgb 1 2 3);
            SliderTrackOverride (mk_rgb 9 10 11)] in
  forallb colour_ok l = true /\ forallb combo_nonneg l = true
  /\ colours_to_string l 14%Z
     = Some (lit "Combo1 : 255,128,0" ++ [10] ++ lit "SliderBorder : 0,0,7" ++ [10]
             ++ lit "Combo0 : 1,2,3" ++ [10] ++ lit "SliderTrackOverride : 9,10,11").
Proof. vm_compute. auto. Qed.
Example C03_ex_negative :
  forallb colour_ok [Combo (-1) (mk_rgb 1 2 3)] = true
  /\ colours_from_str (lit "Combo-1 : 1,2,3") 14%Z = RErr (mk_line_err 0 ColInvalidComboCount).
Proof. vm_compute. auto. Qed.
Example C03_ex_read :
  colours_from_str (lit " Combo2: 1 , 2,3" ++ [10; 10]) 5%Z = ROk (Some [Combo 2 (mk_rgb 1 2 3)]).
Proof. vm_compute. reflexivity. Qed.

(** C04. A list of timing points that version [v] can express is printed as the
    documented lines and read back as the same list. *)
Theorem C04_timing_points_round_trip : forall v l,
  (4 < v)%Z -> forallb (tp_ok v) l = true ->
  forallb (fun t => index_small (tp_sample_index t)) l = true ->
  timing_points_to_string l v = ROk (Some (text_of_lines (map tp_text l)))
  /\ timing_points_from_str (text_of_lines (map tp_text l)) v = ROk (Some l).
Proof. exact timing_points_text_round_trip. Qed.
Print Assumptions C04_timing_points_round_trip.

(** A sample index of 2^31 or more is printed as a text the reader rejects. *)
Theorem C04_big_index_rejected : forall v l,
  (4 < v)%Z -> forallb (tp_ok v) l = true ->
  (exists t, In t l /\ index_small (tp_sample_index t) = false) ->
  exists s i, timing_points_to_string l v = ROk (Some s)
    /\ timing_points_from_str s v = RErr (mk_line_err i TpInvalidSampleIndex).
Proof. exact timing_points_big_index. Qed.
Print Assumptions C04_big_index_rejected.

(** What is read always has that shape; so the text printed for it is read back, unless
    it has such an index. *)
Theorem C04_timing_points_read_ok : forall s v l,
  (4 < v)%Z -> timing_points_from_str s v = ROk (Some l) -> forallb (tp_ok v) l = true.
Proof. exact timing_points_from_str_ok. Qed.
Print Assumptions C04_timing_points_read_ok.
Theorem C04_timing_points_reparse : forall s v l,
  (4 < v)%Z -> timing_points_from_str s v = ROk (Some l) ->
  exists t, timing_points_to_string l v = ROk (Some t)
    /\ if forallb (fun t => index_small (tp_sample_index t)) l
       then timing_points_from_str t v = ROk (Some l)
       else exists i, timing_points_from_str t v = RErr (mk_line_err i TpInvalidSampleIndex).
Proof. exact timing_points_reparse. Qed.
Print Assumptions C04_timing_points_reparse.

Example C04_ex :
  forallb (tp_ok 14%Z) [tp1; tp2] = true
  /\ forallb (fun t => index_small (tp_sample_index t)) [tp1; tp2] = true
  /\ timing_points_to_string [tp1; tp2] 14%Z
     = ROk (Some (lit "152.5,-100,4,2,2,70,1,9" ++ [10] ++ lit "x,-33.33,-1,7,0,100"))
  /\ timing_points_from_str (lit "152.5,-100,4,2,2,70,1,9" ++ [10] ++ lit "x,-33.33,-1,7,0,100") 14%Z
     = ROk (Some [tp1; tp2]).
Proof. vm_compute. auto. Qed.
Example C04_ex_big :
  let t := mk_tp (DNum (mkDec false 0 0)) (DNum (mkDec false 1 0)) 4 TsNormal (SiIndex 2147483648) 100
                 None None in
  tp_ok 14%Z t = true /\ index_small (tp_sample_index t) = false
  /\ timing_points_from_str (lit "0,1,4,1,2147483648,100") 14%Z = ROk (Some [t])
  /\ timing_points_to_string [t] 14%Z = ROk (Some (lit "0,1,4,1,-2147483648,100")).
Proof. vm_compute. auto. Qed.

(** C05. A list of hit objects whose hit samples version [v] can express is printed as
    the documented lines and read back as the same list. *)
Theorem C05_hit_objects_round_trip : forall v l,
  (4 < v)%Z -> forallb (ho_ok v) l = true ->
  hit_objects_to_string l v = ROk (Some (text_of_lines (map (ho_text v) l)))
  /\ hit_objects_from_str (text_of_lines (map (ho_text v) l)) v = ROk (Some l).
Proof. exact hit_objects_text_round_trip. Qed.
Print Assumptions C05_hit_objects_round_trip.

(** What is read has that shape; from version 12 on it survives being printed, unless a
    line ends in a second carriage return or a sample file name is made of blanks. *)
Theorem C05_hit_objects_read_ok : forall s v l,
  (4 < v)%Z -> hit_objects_from_str s v = ROk (Some l) -> forallb ho_read l = true.
Proof. exact hit_objects_from_str_ok. Qed.
Print Assumptions C05_hit_objects_read_ok.
Theorem C05_hit_objects_reparse : forall s v l,
  (12 <= v)%Z -> hit_objects_from_str s v = ROk (Some l) -> forallb ho_keeps l = true ->
  exists t, hit_objects_to_string l v = ROk (Some t) /\ hit_objects_from_str t v = ROk (Some l).
Proof. exact hit_objects_reparse. Qed.
Print Assumptions C05_hit_objects_reparse.

Example C05_ex :
  forallb (ho_ok 14%Z) [ho1; ho2; ho3; ho4; ho5] = true
  /\ hit_objects_to_string [ho1; ho2; ho3; ho4; ho5] 14%Z
     = ROk (Some (lit "256,192,1000,53,10,2:0:2:50:a b.wav" ++ [10]
                  ++ lit "1,2,3,2,1,P|4:5|6:7,2,100.5,4,3:1|0:9,0:0:0:0:" ++ [10]
                  ++ lit "1,2,3,12,0,90" ++ [10] ++ lit "1,2,3,128,0,44:1:0:0:0:" ++ [10]
                  ++ lit "1,2,3,2,0,B,1,7")).
Proof. vm_compute. auto. Qed.
Example C05_ex_old :
  forallb (ho_ok 10%Z) [ho2; ho3; ho4] = true /\ forallb (ho_ok 7%Z) [ho3; ho5] = true.
Proof. vm_compute. auto. Qed.
(** The two exceptions occur. *)
Example C05_ex_blank_name :
  exists l t l', hit_objects_from_str (lit "1,2,3,1,0,0:0:0:0: :x") 14%Z = ROk (Some l)
    /\ hit_objects_to_string l 14%Z = ROk (Some t) /\ hit_objects_from_str t 14%Z = ROk (Some l') /\ l <> l'.
Proof. do 3 eexists. vm_compute. repeat split. intros H. inversion H. Qed.
Example C05_ex_cr :
  exists l t l', hit_objects_from_str (lit "1,2,3,8,0,x" ++ [13; 13; 10] ++ lit "1,2,3,1,0") 14%Z = ROk (Some l)
    /\ hit_objects_to_string l 14%Z = ROk (Some t) /\ hit_objects_from_str t 14%Z = ROk (Some l') /\ l <> l'.
Proof. do 3 eexists. vm_compute. repeat split. intros H. inversion H. Qed.

(** C12. Reading one of these sections always returns. *)
Theorem C12_colours_no_panic : forall s v p, colours_from_str s v <> RPanic p.
Proof. exact colours_from_str_np. Qed.
Print Assumptions C12_colours_no_panic.
Theorem C12_timing_points_no_panic : forall s v p,
  old_version v = false -> timing_points_from_str s v <> RPanic p.
Proof. exact timing_points_np. Qed.
Print Assumptions C12_timing_points_no_panic.
Theorem C12_hit_objects_no_panic : forall s v p,
  old_version v = false -> hit_objects_from_str s v <> RPanic p.
Proof. exact hit_objects_np. Qed.
Print Assumptions C12_hit_objects_no_panic.

Example C12_ex_versions : map old_version [0; 2; 3; 4; 5; 14; 255]%Z = [false; false; true; true; false; false; false].
Proof. reflexivity. Qed.
(** In versions 3 and 4 a time at the upper limit of a decimal overflows. *)
Example C12_ex_old :
  timing_points_from_str (lit "79228162514264337593543950335,1,4,1,1") 4%Z = RPanic PDecimal
  /\ hit_objects_from_str (lit "1,2,79228162514264337593543950335,1,0") 3%Z = RPanic PDecimal.
Proof. vm_compute. auto. Qed.

(** C14. The line index of an error is the first line that is not accepted on its own,
    and the error is the one that line gives on its own. *)
Theorem C14_colours_error_line : forall s v i e,
  colours_from_str s v = RErr (mk_line_err i e) ->
  exists n l, i = Z.of_nat n /\ nth_error (lines s) n = Some l
    /\ colours_from_str l v = RErr (mk_line_err 0 e)
    /\ forall m l', (m < n)%nat -> nth_error (lines s) m = Some l' ->
         exists x, colours_from_str l' v = ROk x.
Proof. exact colours_error_line. Qed.
Print Assumptions C14_colours_error_line.
Theorem C14_timing_points_error_line : forall s v i e,
  timing_points_from_str s v = RErr (mk_line_err i e) ->
  exists n l, i = Z.of_nat n /\ nth_error (lines s) n = Some l
    /\ timing_points_from_str l v = RErr (mk_line_err 0 e)
    /\ forall m l', (m < n)%nat -> nth_error (lines s) m = Some l' ->
         exists x, timing_points_from_str l' v = ROk x.
Proof. exact timing_points_error_line. Qed.
Print Assumptions C14_timing_points_error_line.
Theorem C14_hit_objects_error_line : forall s v i e,
  hit_objects_from_str s v = RErr (mk_line_err i e) ->
  exists n l, i = Z.of_nat n /\ nth_error (lines s) n = Some l
    /\ hit_objects_from_str l v = RErr (mk_line_err 0 e)
    /\ forall m l', (m < n)%nat -> nth_error (lines s) m = Some l' ->
         exists x, hit_objects_from_str l' v = ROk x.
Proof. exact hit_objects_error_line. Qed.
Print Assumptions C14_hit_objects_error_line.

(** A section is accepted exactly when each of its lines is, and then holds what the
    lines hold, in order. *)
Theorem C14_colours_linewise : forall v s l, (4 < v)%Z ->
  colours_from_str s v = ROk (Some l) <->
  exists ls, Forall2 (fun line x => colours_from_str line v = ROk (Some x)) (lines s) ls /\ l = concat ls.
Proof. exact colours_linewise. Qed.
Print Assumptions C14_colours_linewise.
Theorem C14_timing_points_linewise : forall v s l,
  timing_points_from_str s v = ROk (Some l) <->
  exists ls, Forall2 (fun line x => timing_points_from_str line v = ROk (Some x)) (lines s) ls
             /\ l = concat ls.
Proof. exact timing_points_linewise. Qed.
Print Assumptions C14_timing_points_linewise.
Theorem C14_hit_objects_linewise : forall v s l,
  hit_objects_from_str s v = ROk (Some l) <->
  exists ls, Forall2 (fun line x => hit_objects_from_str line v = ROk (Some x)) (lines s) ls
             /\ l = concat ls.
Proof. exact hit_objects_linewise. Qed.
Print Assumptions C14_hit_objects_linewise.

Example C14_ex :
  colours_from_str (lit "Combo1 : 1,2,3" ++ [10; 10] ++ lit "Combo2 : 1,2,x" ++ [10] ++ lit "y") 14%Z
  = RErr (mk_line_err 2 (ColRgb RgbInvalidBlue)).
Proof. vm_compute. reflexivity. Qed.
Example C14_ex_tp :
  timing_points_from_str (lit "0,1,4,1,1,100" ++ [13; 10] ++ lit "0,1,z,1,1,100") 14%Z
  = RErr (mk_line_err 1 TpInvalidMeter).
Proof. vm_compute. reflexivity. Qed.
Example C14_ex_ho :
  hit_objects_from_str ([10] ++ lit "1,2,3,1,0" ++ [10] ++ lit "1,2,3,0,0") 14%Z
  = RErr (mk_line_err 2 HoUnknownObjType).
Proof. vm_compute. reflexivity. Qed.

(** C35. From version 12 on a hit sample is printed as the documented text and read back;
    versions 10 and 11 drop the volume and the file name, earlier ones print nothing. *)
Theorem C35_hit_sample_round_trip : forall v h,
  (12 <= v)%Z -> hit_sample_ok h = true ->
  hit_sample_to_string h v = Some (sample_text v h)
  /\ hit_sample_from_str (sample_text v h) = ROk (Some h).
Proof. exact hit_sample_text_round_trip. Qed.
Print Assumptions C35_hit_sample_round_trip.
Theorem C35_hit_sample_versions_10_11 : forall v h,
  (10 <= v <= 11)%Z -> hit_sample_ok h = true ->
  hit_sample_to_string h v = Some (sample_text v h)
  /\ hit_sample_from_str (sample_text v h)
     = ROk (Some (mk_hit_sample (hs_normal h) (hs_addition h) (hs_index h) None [])).
Proof. exact hit_sample_text_mid. Qed.
Print Assumptions C35_hit_sample_versions_10_11.
Theorem C35_hit_sample_versions_3_9 : forall h v,
  (3 <= v <= 9)%Z -> hit_sample_to_string h v = None.
Proof. exact hit_sample_old. Qed.
Print Assumptions C35_hit_sample_versions_3_9.
Theorem C35_hit_sample_read_ok : forall s h,
  hit_sample_from_str s = ROk (Some h) -> hit_sample_read h = true.
Proof. exact hit_sample_from_ok. Qed.
Print Assumptions C35_hit_sample_read_ok.

Example C35_ex :
  let h := mk_hit_sample SsSoft (SsOther 5) (HiIndex 3) (Some 100%Z) (lit "hit normal.wav") in
  hit_sample_ok h = true
  /\ sample_text 14%Z h = lit "2:5:3:100:hit normal.wav" /\ sample_text 10%Z h = lit "2:5:3".
Proof. vm_compute. auto. Qed.
(** A name with a colon is cut. *)
Example C35_ex_colon :
  hit_sample_from_str (sample_text 14%Z (mk_hit_sample SsNone SsNone HiTimingPoint None (lit "a:b")))
  = ROk (Some (mk_hit_sample SsNone SsNone HiTimingPoint None (lit "a"))).
Proof. vm_compute. reflexivity. Qed.
