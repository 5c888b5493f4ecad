(** Facts about the small value types: bit fields, bounded numbers, lists with an
    incomplete last entry. *)
From Coq Require Import String List NArith ZArith Bool Lia.
From Verif Require Import Str Num Nom Dec Parsers Colours TimingPoints HitObjects Storyboard NormalEvents Api
  Spec SpecWf SpecText SpecTypes StrFacts NumFacts NomFacts LineFacts ColoursFacts FieldFacts TpFacts HoFacts
  HoRound HoObj HoImage LayoutFacts.
Import ListNotations.
Local Open Scope N_scope.

(** ** effects *)
Lemma testbit_high e i : (0 <= e <= u32_max)%Z -> (32 <= i)%Z -> Z.testbit e i = false.
Proof.
  intros He Hi. destruct (Z.eq_dec e 0) as [->|Hz]; [apply Z.bits_0|]. apply Z.bits_above_log2; [lia|].
  assert (Z.log2 e < 32)%Z by (apply Z.log2_lt_pow2; unfold u32_max in He; change (2 ^ 32)%Z with 4294967296%Z; lia).
  lia.
Qed.
Lemma u32_not_bits k i : (0 <= k < 32)%Z -> (0 <= i)%Z ->
  Z.testbit (u32_not (2 ^ k)) i = ((i <? 32)%Z && negb (i =? k)%Z).
Proof.
  intros Hk Hi. unfold u32_not. change u32_max with (Z.ones 32).
  replace (Z.ones 32 - 2 ^ k)%Z with (Z.ldiff (Z.ones 32) (2 ^ k)).
  - rewrite Z.ldiff_spec, Z.pow2_bits_eqb by lia.
    rewrite (Z.eqb_sym k i). f_equal. destruct (Z.ltb_spec i 32).
    + apply Z.ones_spec_low. lia.
    + apply Z.ones_spec_high. lia.
  - symmetry. apply Z.sub_nocarry_ldiff. apply Z.bits_inj'. intros n Hn.
    rewrite Z.ldiff_spec, Z.bits_0, Z.pow2_bits_eqb by lia.
    destruct (Z.eqb_spec k n) as [<-|]; [|easy]. rewrite Z.ones_spec_low by lia. easy.
Qed.
Lemma land_bit e k : (0 <= k)%Z -> (Z.land e (2 ^ k) =? 2 ^ k)%Z = Z.testbit e k.
Proof.
  intros Hk. apply eq_true_iff_eq. rewrite Z.eqb_eq. split.
  - intros H. apply (f_equal (fun z => Z.testbit z k)) in H.
    rewrite Z.land_spec, Z.pow2_bits_true, andb_true_r in H by lia. easy.
  - intros H. apply Z.bits_inj'. intros n Hn. rewrite Z.land_spec, Z.pow2_bits_eqb by lia.
    destruct (Z.eqb_spec k n) as [<-|]; [now rewrite H|apply andb_false_r].
Qed.
Lemma effects_getters e : effects_kiai e = Z.testbit e 0 /\ effects_no_barline e = Z.testbit e 3.
Proof. split; [apply (land_bit e 0)|apply (land_bit e 3)]; lia. Qed.
Lemma set_bit_spec e k (b : bool) i : (0 <= e <= u32_max)%Z -> (0 <= k < 32)%Z -> (0 <= i)%Z ->
  Z.testbit (if b then Z.lor e (2 ^ k) else Z.land e (u32_not (2 ^ k))) i
  = if (i =? k)%Z then b else Z.testbit e i.
Proof.
  intros He Hk Hi. destruct b.
  - rewrite Z.lor_spec, Z.pow2_bits_eqb, (Z.eqb_sym k i) by lia.
    destruct (i =? k)%Z; [apply orb_true_r|apply orb_false_r].
  - rewrite Z.land_spec, u32_not_bits by lia. destruct (Z.eqb_spec i k).
    + cbn. now rewrite !andb_false_r.
    + destruct (Z.ltb_spec i 32); cbn; rewrite ?andb_true_r, ?andb_false_r; [easy|]. symmetry. now apply testbit_high.
Qed.
Lemma bits_u32 z : (0 <= z)%Z -> (forall i, (32 <= i)%Z -> Z.testbit z i = false) -> (0 <= z <= u32_max)%Z.
Proof.
  intros Hz H. split; [easy|]. unfold u32_max. change 4294967295%Z with (Z.ones 32).
  assert (z = Z.land z (Z.ones 32)).
  { apply Z.bits_inj'. intros n Hn. rewrite Z.land_spec. destruct (Z.ltb_spec n 32).
    - rewrite Z.ones_spec_low by lia. now rewrite andb_true_r.
    - now rewrite H. }
  rewrite H0, Z.land_ones by lia. pose proof (Z.mod_pos_bound z (2 ^ 32) ltac:(lia)).
  unfold Z.ones. change (Z.shiftl 1 32) with (2 ^ 32)%Z. lia.
Qed.
Lemma effects_set_kiai_spec e b : (0 <= e <= u32_max)%Z ->
  (forall i, (0 <= i)%Z -> Z.testbit (effects_set_kiai e b) i = if (i =? 0)%Z then b else Z.testbit e i)
  /\ effects_kiai (effects_set_kiai e b) = b
  /\ effects_no_barline (effects_set_kiai e b) = effects_no_barline e
  /\ (0 <= effects_set_kiai e b <= u32_max)%Z.
Proof.
  intros He.
  assert (Hb : forall i, (0 <= i)%Z ->
             Z.testbit (effects_set_kiai e b) i = if (i =? 0)%Z then b else Z.testbit e i)
    by (intros i Hi; apply (set_bit_spec e 0 b i); lia).
  split; [exact Hb|]. rewrite !(proj1 (effects_getters _)), !(proj2 (effects_getters _)), !Hb by lia.
  repeat split.
  - unfold effects_set_kiai. destruct b; [apply Z.lor_nonneg|apply Z.land_nonneg]; lia.
  - apply bits_u32.
    + unfold effects_set_kiai. destruct b; [apply Z.lor_nonneg|apply Z.land_nonneg]; lia.
    + intros i Hi. rewrite Hb by lia. replace (i =? 0)%Z with false by lia. now apply testbit_high.
Qed.
Lemma effects_set_no_barline_spec e b : (0 <= e <= u32_max)%Z ->
  (forall i, (0 <= i)%Z -> Z.testbit (effects_set_no_barline e b) i = if (i =? 3)%Z then b else Z.testbit e i)
  /\ effects_no_barline (effects_set_no_barline e b) = b
  /\ effects_kiai (effects_set_no_barline e b) = effects_kiai e
  /\ (0 <= effects_set_no_barline e b <= u32_max)%Z.
Proof.
  intros He.
  assert (Hb : forall i, (0 <= i)%Z ->
             Z.testbit (effects_set_no_barline e b) i = if (i =? 3)%Z then b else Z.testbit e i)
    by (intros i Hi; apply (set_bit_spec e 3 b i); lia).
  split; [exact Hb|]. rewrite !(proj1 (effects_getters _)), !(proj2 (effects_getters _)), !Hb by lia.
  repeat split.
  - unfold effects_set_no_barline. destruct b; [apply Z.lor_nonneg|apply Z.land_nonneg]; lia.
  - apply bits_u32.
    + unfold effects_set_no_barline. destruct b; [apply Z.lor_nonneg|apply Z.land_nonneg]; lia.
    + intros i Hi. rewrite Hb by lia. replace (i =? 3)%Z with false by lia. now apply testbit_high.
Qed.
Lemma effects_clear_spec e i : (0 <= i)%Z ->
  Z.testbit (effects_clear_unused e) i = Z.testbit e i && ((i =? 0)%Z || (i =? 3)%Z).
Proof.
  intros Hi. unfold effects_clear_unused. rewrite Z.land_spec. f_equal.
  change 9%Z with (Z.lor (2 ^ 0) (2 ^ 3)). rewrite Z.lor_spec, !Z.pow2_bits_eqb by lia.
  now rewrite (Z.eqb_sym 0 i), (Z.eqb_sym 3 i).
Qed.
Lemma effects_clear_flags e :
  effects_kiai (effects_clear_unused e) = effects_kiai e
  /\ effects_no_barline (effects_clear_unused e) = effects_no_barline e.
Proof.
  rewrite !(proj1 (effects_getters _)), !(proj2 (effects_getters _)), !effects_clear_spec by lia.
  cbn. now rewrite !andb_true_r.
Qed.
Lemma effects_new_spec a b :
  effects_kiai (effects_new a b) = a /\ effects_no_barline (effects_new a b) = b
  /\ effects_new a b = (Z.b2z a + 8 * Z.b2z b)%Z.
Proof. now destruct a, b. Qed.
(** the flags of a read number are its bits; an untouched value prints the same number *)
Lemma effects_text s e : effects_from_str s = ROk (Some e) ->
  int_text false s e /\ (0 <= e <= u32_max)%Z /\ effects_to_string e = print_Z e
  /\ effects_kiai e = Z.odd e /\ effects_no_barline e = Z.odd (e / 8).
Proof.
  unfold effects_from_str. destruct (parse_u32 s) as [z| |] eqn:E; cbn; try easy. intros [= <-].
  pose proof E as R. apply parse_u32_range in R. apply u32_accepts in E as [E _].
  unfold in_u32 in R. split; [easy|]. split; [lia|]. split; [easy|].
  rewrite (proj1 (effects_getters _)), (proj2 (effects_getters _)), Z.bit0_odd. split; [easy|].
  rewrite Z.testbit_odd, Z.shiftr_div_pow2 by lia. easy.
Qed.

(** ** hit sounds *)
Lemma odd_bit z n : (0 <= n)%Z -> nth_bit z n = Z.odd (z / 2 ^ n).
Proof. intros Hn. unfold nth_bit. now rewrite Z.testbit_odd, Z.shiftr_div_pow2. Qed.
(** every [u8], one by one *)
Lemma all_u8 (P : Z -> bool) :
  forallb P (map Z.of_nat (seq 0 256)) = true -> forall z, (0 <= z <= 255)%Z -> P z = true.
Proof.
  intros H z Hz. rewrite forallb_forall in H. apply H. apply in_map_iff. exists (Z.to_nat z).
  split; [lia|]. apply in_seq. lia.
Qed.
Definition sound_check (z : Z) : bool :=
  let h := hit_sound_of_u8 z in
  Bool.eqb (hit_sound_whistle h) (Z.odd (z / 2)) && Bool.eqb (hit_sound_finish h) (Z.odd (z / 4))
  && Bool.eqb (hit_sound_clap h) (Z.odd (z / 8))
  && Bool.eqb (hit_sound_normal h) (Z.odd z || (z mod 16 =? 0)%Z)
  && str_eqb (hit_sound_to_string h) (print_Z (z mod 16)).
Lemma hit_sound_text s h : hit_sound_from_str s = ROk (Some h) ->
  exists z, int_text false s z /\ (0 <= z <= 255)%Z
  /\ hit_sound_whistle h = Z.odd (z / 2) /\ hit_sound_finish h = Z.odd (z / 4)
  /\ hit_sound_clap h = Z.odd (z / 8)
  /\ hit_sound_normal h = (Z.odd z || (z mod 16 =? 0)%Z)
  /\ hit_sound_to_string h = print_Z (z mod 16).
Proof.
  unfold hit_sound_from_str. destruct (parse_u8 s) as [z| |] eqn:E; cbn [rmap]; try easy. intros [= <-].
  exists z. pose proof E as R. apply parse_u8_range in R. apply u8_accepts in E as [E _].
  unfold in_u8, u8_max in R. split; [easy|]. split; [lia|].
  assert (H : sound_check z = true) by (apply all_u8; [vm_compute; reflexivity|lia]).
  unfold sound_check in H. rewrite !andb_true_iff, !eqb_true_iff, str_eqb_eq in H. tauto.
Qed.
(** ** the type number *)
Lemma type_flags_decode o : (0 <= ho_combo_skip_count o <= 7)%Z ->
  let ty := ho_type_flags o in
  (0 <= ty <= 255)%Z /\ kind_bits ty = Some (kind_of (ho_obj_params o))
  /\ Z.odd (ty / 4) = ho_new_combo o /\ ((ty / 16) mod 8)%Z = ho_combo_skip_count o.
Proof.
  intros Hk. unfold ho_type_flags. destruct o as [pos t p c k h hs].
  cbn [ho_combo_skip_count ho_new_combo ho_obj_params] in *.
  assert (k = 0 \/ k = 1 \/ k = 2 \/ k = 3 \/ k = 4 \/ k = 5 \/ k = 6 \/ k = 7)%Z
    as [-> |[-> |[-> |[-> |[-> |[-> |[-> | ->]]]]]]] by lia;
    destruct p, c; vm_compute; repeat split; discriminate.
Qed.
Lemma kind_bits_nth ty :
  kind_bits ty = if nth_bit ty 0 then Some KCircle else if nth_bit ty 1 then Some KSlider
                 else if nth_bit ty 3 then Some KSpinner else if nth_bit ty 7 then Some KHold else None.
Proof.
  unfold kind_bits. rewrite !odd_bit by lia. change (2 ^ 0)%Z with 1%Z. now rewrite Z.div_1_r.
Qed.
Lemma skip_bits ty : Z.land (Z.shiftr ty 4) 7 = ((ty / 16) mod 8)%Z.
Proof. change 7%Z with (Z.ones 3). now rewrite Z.land_ones, Z.shiftr_div_pow2 by lia. Qed.

(** what is read from a line, for every version *)
Definition sample_vol_ok (hs : option hit_sample) : bool :=
  match hs with Some h => ho_volume_ok (hs_volume h) | None => true end.
Lemma hit_sample_vol s h : hit_sample_from_str s = ROk (Some h) -> ho_volume_ok (hs_volume h) = true.
Proof.
  intros H. apply hit_sample_from_ok in H. unfold hit_sample_read in H. rewrite !andb_true_iff in H. tauto.
Qed.
Lemma ho_hitsample_vol s r hs : ho_hitsample_p s = POk r hs -> sample_vol_ok hs = true.
Proof.
  unfold ho_hitsample_p. intros H. apply alt_inv in H as [H|H]; apply pmap_inv in H as (a & H & ->); [easy|].
  apply pbind_inv in H as (r1 & c & Hc & H).
  apply context_inv, map_res_inv in H as (t & [= <- <-] & H). apply v_unwrap_inv in H.
  now apply hit_sample_vol in H.
Qed.
Lemma ho_hold_hitsample_vol s r hs : ho_hold_hitsample s = POk r hs -> sample_vol_ok hs = true.
Proof.
  unfold ho_hold_hitsample. intros H. apply alt_inv in H as [H|H]; apply pmap_inv in H as (a & H & ->); [easy|].
  apply pbind_inv in H as (r1 & c & Hc & H).
  apply context_inv, map_res_inv in H as (t & [= <- <-] & H). apply v_unwrap_inv in H.
  now apply hit_sample_vol in H.
Qed.
Lemma ho_edges_vol s r es sets hs sh1 sh2 : ho_edges s = POk r (es, sets, hs, sh1, sh2) -> sample_vol_ok hs = true.
Proof.
  intros H. unfold ho_edges in H. apply alt_inv in H as [H|H].
  { apply pmap_inv in H as (a & _ & [= -> -> -> -> ->]). easy. }
  apply pbind_inv in H as (r1 & es' & _ & H). apply pmap_inv in H as ([[sets' hs'] sh'] & H & [= -> -> -> -> ->]).
  apply alt_inv in H as [H|H].
  { apply pmap_inv in H as (a & _ & [= -> -> ->]). easy. }
  apply pbind_inv in H as (r3 & sets'' & _ & H). apply pmap_inv in H as (hs'' & H & [= -> -> ->]).
  now apply ho_hitsample_vol in H.
Qed.
Lemma field_pieces {C A E} (f : str -> res A E) s r (a : A) :
  @comma_field_type C A E f s = POk r a ->
  exists t, s = t ++ r /\ no_comma t = true /\ f t = ROk a /\ starts_comma r.
Proof.
  unfold comma_field_type. intros H. apply map_res_inv in H as (t & H & Hf). apply take_while_inv in H as (-> & Ht & Hr).
  exists t. repeat split; try easy. destruct r as [|c r]; [now left|]. right. exists r. cbn in Hr.
  destruct (N.eqb_spec c 44) as [->|]; [easy|]. easy.
Qed.
Lemma ho_decode v s o : ho_from_str v s = ROk (Some o) ->
  exists x y t tys snd rest ty,
    s = commas [x; y; t; tys; snd] ++ rest /\ forallb no_comma [x; y; t; tys; snd] = true
    /\ starts_comma rest
    /\ int_text true tys ty /\ kind_bits ty = Some (kind_of (ho_obj_params o))
    /\ ho_new_combo o = Z.odd (ty / 4) /\ ho_combo_skip_count o = ((ty / 16) mod 8)%Z
    /\ hit_sound_from_str snd = ROk (Some (ho_hitsound o))
    /\ sample_vol_ok (ho_hitsample o) = true.
Proof.
  unfold ho_from_str.
  destruct (ho_common v s) as [r [[[pos time] ty] snd_]|e|e|q] eqn:Ec; try easy;
    try (cbn; now destruct (e_ctx e)).
  unfold ho_common in Ec.
  apply pbind_inv in Ec as (r1 & x & H1 & Ec). apply context_inv, field_pieces in H1 as (ax & -> & Nx & _ & _).
  apply pbind_inv in Ec as (r2 & y & H2 & Ec). apply pbind_inv in H2 as (r3 & c3 & H3 & H2).
  apply context_inv, tag_inv in H3 as [-> _]. apply context_inv, field_pieces in H2 as (ay & -> & Ny & _ & _).
  apply pbind_inv in Ec as (r4 & t & H4 & Ec).
  assert (H4' : exists t0, preceded (context HoMissingTime comma)
                  (context HoInvalidTime (comma_field_type (@parse_decimal unit))) r2 = POk r4 t0).
  { unfold map_run in H4. destruct (preceded _ _ r2) as [r0 a0| | |]; try easy.
    destruct (shift_in v a0); try easy. injection H4 as <- <-. now exists a0. }
  clear H4. destruct H4' as [t0 H4]. apply pbind_inv in H4 as (r5 & c5 & H5 & H4).
  apply context_inv, tag_inv in H5 as [-> _]. apply context_inv, field_pieces in H4 as (at_ & -> & Nt & _ & _).
  apply pbind_inv in Ec as (r6 & ty' & H6 & Ec). apply pbind_inv in H6 as (r7 & c7 & H7 & H6).
  apply context_inv, tag_inv in H7 as [-> _]. apply context_inv, field_pieces in H6 as (aty & -> & Nty & Hty & _).
  apply pmap_inv in Ec as (h & Ec & [= -> -> -> ->]).
  apply pbind_inv in Ec as (r8 & c8 & H8 & Ec). apply context_inv, tag_inv in H8 as [-> _].
  unfold comma_field_versioned_type in Ec. apply context_inv in Ec.
  apply (field_pieces (fun s => v_unwrap (hit_sound_from_str s))) in Ec as (as_ & -> & Ns & Hs & Hr).
  apply v_unwrap_inv in Hs. apply i32_accepts in Hty as [Hty _].
  rewrite skip_ok. cbv beta iota zeta. intros H.
  exists ax, ay, at_, aty, as_, r, ty'.
  split. { cbn [commas]. rewrite <- !app_assoc. cbn [app]. rewrite <- !app_assoc. cbn [app].
           rewrite <- !app_assoc. cbn [app]. rewrite <- !app_assoc. reflexivity. }
  split. { cbn [forallb]. now rewrite Nx, Ny, Nt, Nty, Ns. }
  split; [easy|]. split; [easy|].
  assert (Hc : forall p hs, o = mk_ho (mk_pos x y) t p (nth_bit ty' 2) (Z.land (Z.shiftr ty' 4) 7) h hs ->
            sample_vol_ok hs = true ->
            ho_new_combo o = Z.odd (ty' / 4) /\ ho_combo_skip_count o = ((ty' / 16) mod 8)%Z
            /\ hit_sound_from_str as_ = ROk (Some (ho_hitsound o)) /\ sample_vol_ok (ho_hitsample o) = true).
  { intros p hs -> Hv. cbn [ho_new_combo ho_combo_skip_count ho_hitsound ho_hitsample].
    rewrite odd_bit, skip_bits by lia. repeat split; easy. }
  rewrite kind_bits_nth.
  destruct (nth_bit ty' 0).
  { destruct (ho_hitsample_p r) as [r' hs|e|e|] eqn:E; cbn in H; try (now destruct (e_ctx e)); try easy.
    injection H as <-. split; [easy|]. eapply Hc; [reflexivity|]. now apply ho_hitsample_vol in E. }
  destruct (nth_bit ty' 1).
  { destruct (ho_slider v r) as [r' [p hs]|e|e|] eqn:E; cbn in H; try (now destruct (e_ctx e)); try easy.
    injection H as <-. split; [easy|]. eapply Hc; [reflexivity|]. unfold ho_slider in E.
    apply pbind_inv in E as (? & [ct cps] & _ & E). apply pbind_inv in E as (? & ? & _ & E).
    apply pbind_inv in E as (? & ? & _ & E). apply pmap_inv in E as ([[[[es sets] hs'] sh1] sh2] & E & [= -> ->]).
    now apply ho_edges_vol in E. }
  destruct (nth_bit ty' 3).
  { destruct (ho_spinner v r) as [r' [p hs]|e|e|] eqn:E; cbn in H; try (now destruct (e_ctx e)); try easy.
    injection H as <-. split; [easy|]. eapply Hc; [reflexivity|]. unfold ho_spinner in E.
    apply pbind_inv in E as (? & ? & _ & E). apply pmap_inv in E as (? & E & [= -> ->]).
    now apply ho_hitsample_vol in E. }
  destruct (nth_bit ty' 7); [|easy].
  destruct (ho_hold v r) as [r' [p hs]|e|e|] eqn:E; cbn in H; try (now destruct (e_ctx e)); try easy.
  injection H as <-. split; [easy|]. eapply Hc; [reflexivity|]. unfold ho_hold in E.
  apply pbind_inv in E as (? & ? & _ & E). apply pmap_inv in E as (? & E & [= -> ->]).
  now apply ho_hold_hitsample_vol in E.
Qed.

(** ** bounded types *)
Lemma combo_bounds c : combo_value c -> (0 <= c <= 7)%Z.
Proof.
  induction 1 as [|n c Hn H|c n Hc IH Hn|v s o H].
  - unfold combo_default. lia.
  - unfold combo_new, combo_skip_count_try_from in H. destruct (Z.ltb_spec 7 n); [easy|]. injection H as <-. lia.
  - unfold combo_set, combo_skip_count_try_from. destruct (Z.ltb_spec 7 n); cbn; lia.
  - apply ho_decode in H as (x & y & t & tys & sn & rest & ty & _ & _ & _ & _ & _ & _ & -> & _).
    pose proof (Z.mod_pos_bound (ty / 16) 8 ltac:(lia)). lia.
Qed.
Lemma combo_new_iff n : (0 <= n <= 255)%Z ->
  (combo_new n = ROk (Some n) <-> (n <= 7)%Z) /\ (combo_new n = RErr tt <-> (7 < n)%Z)
  /\ (forall c, combo_set c n = if (n <=? 7)%Z then (n, ROk tt) else (c, RErr tt)).
Proof.
  intros Hn. unfold combo_set, combo_new, combo_skip_count_try_from.
  destruct (Z.ltb_spec 7 n).
  - replace (n <=? 7)%Z with false by lia. cbn. repeat split; intros; try easy; lia.
  - replace (n <=? 7)%Z with true by lia. cbn. repeat split; intros; try easy; lia.
Qed.
Lemma ho_volume_text_ok s x : ho_volume_from_str s = ROk (Some x) -> ho_volume_ok x = true.
Proof.
  unfold ho_volume_from_str. destruct (parse_u8 s) as [z| |] eqn:E; try easy. apply parse_u8_range in E.
  unfold in_u8, u8_max in E. unfold ho_volume_new. destruct (Z.eqb_spec z 0); cbn.
  - now intros [= <-].
  - destruct (Z.eqb_spec z 0); [easy|]. destruct (Z.ltb_spec 100 z); cbn; [easy|]. intros [= <-]. cbn. lia.
Qed.
Lemma sample_volume_bounds x : sample_volume x -> x = None \/ exists z, x = Some z /\ (1 <= z <= 100)%Z.
Proof.
  intros H. assert (Hx : ho_volume_ok x = true).
  { induction H as [|n x Hn H|x n Hx IH Hn|x Hx IH|s x H|s h H|v s o h H Hh].
    - reflexivity.
    - unfold ho_volume_new in H. destruct n as [z|]; [|now injection H as <-].
      destruct (Z.eqb_spec z 0); [easy|]. destruct (Z.ltb_spec 100 z); [easy|]. injection H as <-. cbn. lia.
    - unfold ho_volume_set. destruct (Z.eqb_spec n 0); [easy|]. destruct (Z.ltb_spec 100 n); [easy|]. cbn. lia.
    - reflexivity.
    - now apply ho_volume_text_ok in H.
    - now apply hit_sample_vol in H.
    - apply ho_decode in H as (x & y & t & tys & sn & rest & ty & _ & _ & _ & _ & _ & _ & _ & _ & Hv).
      rewrite Hh in Hv. exact Hv. }
  destruct x as [z|]; [right|now left]. exists z. cbn in Hx. split; [easy|lia].
Qed.
Lemma sample_volume_set_iff x n : (0 <= n <= 255)%Z ->
  ho_volume_set x n = if (n =? 0)%Z then (x, RErr VolumeTooLow)
                      else if (n <=? 100)%Z then (Some n, ROk tt) else (x, RErr VolumeTooHigh).
Proof.
  intros Hn. unfold ho_volume_set. destruct (n =? 0)%Z; [easy|].
  destruct (Z.ltb_spec 100 n); [now replace (n <=? 100)%Z with false by lia|now replace (n <=? 100)%Z with true by lia].
Qed.
Lemma au_volume_text_ok s x : au_volume_from_str s = ROk (Some x) -> (0 <= x <= 100)%Z.
Proof.
  unfold au_volume_from_str. destruct (parse_u8 s) as [z| |] eqn:E; try easy. apply parse_u8_range in E.
  unfold in_u8, u8_max in E. unfold au_volume_of_Z. destruct (Z.ltb_spec 100 z); [easy|]. intros [= <-]. lia.
Qed.
Lemma audio_volume_bounds x : audio_volume x -> (0 <= x <= 100)%Z.
Proof.
  induction 1 as [|n x Hn H|x n Hx IH Hn|s x H|s a H|s a x H Hx].
  - unfold au_volume_default. lia.
  - unfold au_volume_new, au_volume_try_from, au_volume_of_Z in H. destruct (Z.ltb_spec 100 n); [easy|].
    injection H as <-. lia.
  - unfold au_volume_set, au_volume_try_from, au_volume_of_Z. destruct (Z.ltb_spec 100 n); cbn; lia.
  - now apply au_volume_text_ok in H.
  - unfold au_from_str in H. destruct s as [|c s]; [easy|].
    destruct (au_parser (c :: s)) as [r y|e|e|] eqn:E; cbn in H; try (now destruct (e_ctx e)); try easy.
    injection H as <-. unfold au_parser in E.
    apply pbind_inv in E as (? & ? & _ & E). apply pbind_inv in E as (? & ? & _ & E).
    apply pbind_inv in E as (? & ? & _ & E). apply pmap_inv in E as (vol & E & ->). cbn [au_volume].
    apply alt_inv in E as [E|E].
    + apply pmap_inv in E as (? & _ & ->). unfold au_volume_default. lia.
    + apply pbind_inv in E as (? & ? & _ & E). apply context_inv, map_res_inv in E as (t & _ & E).
      apply v_unwrap_inv in E. now apply au_volume_text_ok in E.
  - unfold sl_from_str in H.
    destruct (sl_parser s) as [r y|e|e|] eqn:E; cbn in H; try (now destruct (e_ctx e)); try easy.
    injection H as <-. unfold sl_parser in E. apply pbind_inv in E as (? & ? & _ & E).
    apply pbind_inv in E as (? & ? & _ & E). apply pbind_inv in E as (? & ? & _ & E).
    apply pbind_inv in E as (? & ? & _ & E). apply pmap_inv in E as (vol & E & ->). cbn [sl_volume] in Hx.
    apply alt_inv in E as [E|E]; apply pmap_inv in E as (u & E & ->); [easy|]. injection Hx as ->.
    apply pbind_inv in E as (? & ? & _ & E). apply context_inv, map_res_inv in E as (t & _ & E).
    apply v_unwrap_inv in E. now apply au_volume_text_ok in E.
Qed.
Lemma audio_volume_set_iff x n : (0 <= n <= 255)%Z ->
  au_volume_set x n = if (n <=? 100)%Z then (n, ROk tt) else (x, RErr tt).
Proof.
  intros Hn. unfold au_volume_set, au_volume_try_from, au_volume_of_Z.
  destruct (Z.ltb_spec 100 n); [now replace (n <=? 100)%Z with false by lia|now replace (n <=? 100)%Z with true by lia].
Qed.

(** the fourth field of a printed line *)
Lemma comma_step x l : commas (x :: l) = x ++ match l with [] => [] | _ => 44 :: commas l end.
Proof. destruct l; [now rewrite app_nil_r|easy]. Qed.
Lemma ho_encode v o s : (0 <= ho_combo_skip_count o <= 7)%Z -> ho_to_string v o = ROk s ->
  exists time rest ty, shift_out v (ho_time o) = ROk time
    /\ s = commas [print_decimal (pos_x (ho_position o)); print_decimal (pos_y (ho_position o));
                   print_decimal time; print_Z ty] ++ 44 :: rest
    /\ (0 <= ty <= 255)%Z /\ kind_bits ty = Some (kind_of (ho_obj_params o))
    /\ Z.odd (ty / 4) = ho_new_combo o /\ ((ty / 16) mod 8)%Z = ho_combo_skip_count o.
Proof.
  intros Hk. unfold ho_to_string, ho_type_to_string.
  destruct (type_flags_decode o Hk) as (H1 & H2 & H3 & H4). set (ty := ho_type_flags o) in *.
  destruct (shift_out v (ho_time o)) as [time| |]; try easy. cbn [rbind]. intros H.
  exists time.
  set (a := print_decimal (pos_x (ho_position o))) in *. set (b := print_decimal (pos_y (ho_position o))) in *.
  set (d := print_decimal time) in *. set (e := hit_sound_to_string (ho_hitsound o)) in *.
  assert (K : forall X, exists rest, forall Y, join (lit ",") ([a; b; d; print_Z ty; e] ++ X) ++ Y = commas [a; b; d; print_Z ty] ++ 44 :: rest ++ Y).
  { intros X. exists (join (lit ",") (e :: X)). intros Y. rewrite <- !commas_join. cbn [app].
    rewrite (comma_step a), (comma_step b), (comma_step d), (comma_step (print_Z ty)). cbn [commas].
    now rewrite <- !app_assoc, <- !app_comm_cons, <- !app_assoc, <- !app_comm_cons, <- !app_assoc, <- !app_comm_cons, <- !app_assoc. }
  assert (G : exists rest, s = commas [a; b; d; print_Z ty] ++ 44 :: rest).
  { destruct (ho_obj_params o) as [|p|t|t].
    - destruct (K (match ho_hitsample o with Some h => match hit_sample_to_string h v with Some t => [t] | None => [] end | None => [] end)) as [rest Hr].
      injection H as <-. destruct (v =? 3)%Z; [exists (rest ++ lit ",")|exists rest]; rewrite <- ?Hr; [easy|].
      specialize (Hr []). now rewrite !app_nil_r in Hr.
    - destruct (K [curve_type_to_string (sl_curve_type p)]) as [rest Hr].
      injection H as <-. eexists. rewrite Hr. reflexivity.
    - destruct (shift_out v t) as [t'| |]; try easy. cbn [rmap] in H.
      apply (f_equal (fun r => match r with ROk a => a | _ => s end)) in H. cbv beta iota in H. subst s.
      match goal with |- exists r, join _ (_ ++ ?X) = _ => destruct (K X) as [rest Hr] end.
      specialize (Hr []). rewrite !app_nil_r in Hr. eauto.
    - destruct (shift_out v t) as [t'| |]; try easy. cbn [rmap] in H.
      apply (f_equal (fun r => match r with ROk a => a | _ => s end)) in H. cbv beta iota in H. subst s.
      match goal with |- exists r, join _ (_ ++ ?X) ++ _ = _ => destruct (K X) as [rest Hr] end.
      rewrite Hr. eauto. }
  destruct G as [rest G]. exists rest, ty. split; [easy|]. split; [exact G|auto].
Qed.

(** ** file paths *)
Lemma file_path_print p :
  (print_file_path p = p \/ (In 32 p /\ print_file_path p = [34] ++ p ++ [34]))
  /\ (~ In 32 p -> print_file_path p = p)
  /\ (forall m, p = [34] ++ m ++ [34] -> print_file_path p = p)
  /\ (In 32 p -> (forall m, p <> [34] ++ m ++ [34]) -> print_file_path p = [34] ++ p ++ [34]).
Proof.
  unfold print_file_path. assert (S : contains_char 32 p = true <-> In 32 p).
  { unfold contains_char. rewrite existsb_exists. split.
    - intros (x & H & E). apply N.eqb_eq in E. now subst.
    - intros H. exists 32. split; [easy|]. apply N.eqb_refl. }
  assert (Q : In 32 p -> starts_with_char 34 p && ends_with_char 34 p = true -> exists m, p = [34] ++ m ++ [34]).
  { intros Hs H. apply andb_true_iff in H as [H1 H2]. unfold ends_with_char in H2.
    apply starts_with_char_spec in H1 as [t ->]. apply starts_with_char_spec in H2 as [u H2].
    destruct t as [|x t _] using rev_ind; [destruct Hs as [Hs|[]]; discriminate|].
    rewrite app_comm_cons, rev_app_distr in H2. cbn [rev app] in H2. injection H2 as -> _. now exists t. }
  split; [|split; [|split]].
  - destruct (contains_char 32 p) eqn:E; cbn [andb]; [|now left]. destruct (_ && _) eqn:E2; cbn [negb]; [now left|].
    right. split; [now apply S|easy].
  - intros H. destruct (contains_char 32 p) eqn:E; [|easy]. exfalso. now apply H, S.
  - intros m ->. unfold ends_with_char. cbn [app starts_with_char]. rewrite app_comm_cons, rev_app_distr.
    cbn [rev app starts_with_char]. rewrite N.eqb_refl. cbn [andb negb]. now rewrite andb_false_r.
  - intros H Hm. rewrite (proj2 S H). cbn [andb]. destruct (_ && _) eqn:E; [|easy].
    exfalso. destruct (Q H eq_refl) as [m E2]. now apply (Hm m).
Qed.
Lemma file_path_stable p : print_file_path (print_file_path p) = print_file_path p.
Proof.
  destruct (file_path_print p) as [[E|[H E]] _]; rewrite E; [now rewrite E|].
  now apply (proj1 (proj2 (proj2 (file_path_print ([34] ++ p ++ [34])))) p).
Qed.
Lemma type_number_read v s o : ho_from_str v s = ROk (Some o) ->
  exists x y t tys snd rest ty,
    s = commas [x; y; t; tys; snd] ++ rest /\ forallb no_comma [x; y; t; tys; snd] = true
    /\ starts_comma rest
    /\ int_text true tys ty /\ kind_bits ty = Some (kind_of (ho_obj_params o))
    /\ ho_new_combo o = Z.odd (ty / 4) /\ ho_combo_skip_count o = ((ty / 16) mod 8)%Z
    /\ hit_sound_from_str snd = ROk (Some (ho_hitsound o)).
Proof.
  intros H. apply ho_decode in H as (x & y & t & tys & sn & rest & ty & H).
  exists x, y, t, tys, sn, rest, ty. tauto.
Qed.
Lemma hit_sound_setters h b :
  (let x := hit_sound_set_whistle h b in
   hit_sound_whistle x = b /\ hit_sound_finish x = hit_sound_finish h
   /\ hit_sound_clap x = hit_sound_clap h)
  /\ (let x := hit_sound_set_finish h b in
      hit_sound_finish x = b /\ hit_sound_whistle x = hit_sound_whistle h
      /\ hit_sound_clap x = hit_sound_clap h)
  /\ (let x := hit_sound_set_clap h b in
      hit_sound_clap x = b /\ hit_sound_whistle x = hit_sound_whistle h
      /\ hit_sound_finish x = hit_sound_finish h)
  /\ (let x := hit_sound_set_normal h b in
      hit_sound_whistle x = hit_sound_whistle h /\ hit_sound_finish x = hit_sound_finish h
      /\ hit_sound_clap x = hit_sound_clap h
      /\ hit_sound_normal x
         = (b || negb (hit_sound_whistle h || hit_sound_finish h || hit_sound_clap h))).
Proof. now destruct h as [[] [] [] []], b. Qed.
Lemma hit_sound_set_new a w f c b :
  hit_sound_set_normal (hit_sound_new a w f c) b = hit_sound_new b w f c
  /\ hit_sound_set_whistle (hit_sound_new a w f c) b = hit_sound_new a b f c
  /\ hit_sound_set_finish (hit_sound_new a w f c) b = hit_sound_new a w b c
  /\ hit_sound_set_clap (hit_sound_new a w f c) b = hit_sound_new a w f b.
Proof. repeat split. Qed.
Lemma hit_sound_new_spec a b c d :
  let h := hit_sound_new a b c d in
  hit_sound_whistle h = b /\ hit_sound_finish h = c /\ hit_sound_clap h = d
  /\ hit_sound_normal h = (a || negb (b || c || d))
  /\ hit_sound_to_string h = print_Z (Z.b2z a + 2 * Z.b2z b + 4 * Z.b2z c + 8 * Z.b2z d)%Z
  /\ hit_sound_from_str (hit_sound_to_string h) = ROk (Some h).
Proof. now destruct a, b, c, d. Qed.
