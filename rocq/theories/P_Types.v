(** Property theorems C27, C28, C29, C30 and C36: the small value types and their
    setters. *)
From Coq Require Import String List NArith ZArith Bool.
From Verif Require Import Str Num Nom Dec Parsers TimingPoints HitObjects Storyboard NormalEvents Api
  Spec SpecWf SpecText SpecTypes TypeFacts ContFacts TriggerFacts.
Import ListNotations.
Local Open Scope N_scope.

(** ** C27: bit fields *)
(** A flag of [Effects] is one bit of the stored number; setting it changes this bit and
    no other, and the result is a [u32] again. *)
Theorem C27_effects_kiai : forall e b, (0 <= e <= u32_max)%Z ->
  (forall i, (0 <= i)%Z -> Z.testbit (effects_set_kiai e b) i = if (i =? 0)%Z then b else Z.testbit e i)
  /\ effects_kiai (effects_set_kiai e b) = b
  /\ effects_no_barline (effects_set_kiai e b) = effects_no_barline e
  /\ (0 <= effects_set_kiai e b <= u32_max)%Z.
Proof. exact effects_set_kiai_spec. Qed.
Print Assumptions C27_effects_kiai.
Theorem C27_effects_no_barline : forall e b, (0 <= e <= u32_max)%Z ->
  (forall i, (0 <= i)%Z -> Z.testbit (effects_set_no_barline e b) i = if (i =? 3)%Z then b else Z.testbit e i)
  /\ effects_no_barline (effects_set_no_barline e b) = b
  /\ effects_kiai (effects_set_no_barline e b) = effects_kiai e
  /\ (0 <= effects_set_no_barline e b <= u32_max)%Z.
Proof. exact effects_set_no_barline_spec. Qed.
Print Assumptions C27_effects_no_barline.
(** The getters are bits 0 and 3. *)
Theorem C27_effects_getters : forall e,
  effects_kiai e = Z.testbit e 0 /\ effects_no_barline e = Z.testbit e 3.
Proof. exact effects_getters. Qed.
Print Assumptions C27_effects_getters.
(** [clear_unused_bits] keeps bits 0 and 3 and clears all others. *)
Theorem C27_effects_clear : forall e i, (0 <= i)%Z ->
  Z.testbit (effects_clear_unused e) i = Z.testbit e i && ((i =? 0)%Z || (i =? 3)%Z).
Proof. exact effects_clear_spec. Qed.
Print Assumptions C27_effects_clear.
Theorem C27_effects_new : forall kiai no_barline,
  effects_kiai (effects_new kiai no_barline) = kiai
  /\ effects_no_barline (effects_new kiai no_barline) = no_barline
  /\ effects_new kiai no_barline = (Z.b2z kiai + 8 * Z.b2z no_barline)%Z.
Proof. exact effects_new_spec. Qed.
Print Assumptions C27_effects_new.
(** Reading keeps every bit of the number, and printing gives it back. *)
Theorem C27_effects_text : forall s e, effects_from_str s = ROk (Some e) ->
  int_text false s e /\ (0 <= e <= u32_max)%Z /\ effects_to_string e = print_Z e
  /\ effects_kiai e = Z.odd e /\ effects_no_barline e = Z.odd (e / 8).
Proof. exact effects_text. Qed.
Print Assumptions C27_effects_text.
Example C27_effects_ex :
  effects_from_str (lit "4294967293") = ROk (Some 4294967293%Z)
  /\ effects_set_no_barline 4294967293%Z false = 4294967285%Z
  /\ effects_set_kiai 4294967293%Z true = 4294967293%Z
  /\ effects_kiai 4294967292%Z = false.
Proof. vm_compute. auto. Qed.

(** Hit sounds: every setter changes its own flag, [normal] being also true when no flag
    is set. *)
Theorem C27_hit_sound_setters : forall h b,
  (let x := hit_sound_set_whistle h b in
   hit_sound_whistle x = b /\ hit_sound_finish x = hit_sound_finish h
   /\ hit_sound_clap x = hit_sound_clap h)
  /\ (let x := hit_sound_set_finish h b in
      hit_sound_finish x = b /\ hit_sound_whistle x = hit_sound_whistle h
      /\ hit_sound_clap x = hit_sound_clap h)
  /\ (let x := hit_sound_set_clap h b in
      hit_sound_clap x = b /\ hit_sound_whistle x = hit_sound_whistle h
      /\ hit_sound_finish x = hit_sound_finish h)
  /\ (let x := hit_sound_set_normal h b in
      hit_sound_whistle x = hit_sound_whistle h /\ hit_sound_finish x = hit_sound_finish h
      /\ hit_sound_clap x = hit_sound_clap h
      /\ hit_sound_normal x
         = (b || negb (hit_sound_whistle h || hit_sound_finish h || hit_sound_clap h))).
Proof. exact hit_sound_setters. Qed.
Print Assumptions C27_hit_sound_setters.
(** A setter keeps the three other flags as they were given, also [normal]. *)
Theorem C27_hit_sound_set_new : forall a w f c b,
  hit_sound_set_normal (hit_sound_new a w f c) b = hit_sound_new b w f c
  /\ hit_sound_set_whistle (hit_sound_new a w f c) b = hit_sound_new a b f c
  /\ hit_sound_set_finish (hit_sound_new a w f c) b = hit_sound_new a w b c
  /\ hit_sound_set_clap (hit_sound_new a w f c) b = hit_sound_new a w f b.
Proof. exact hit_sound_set_new. Qed.
Print Assumptions C27_hit_sound_set_new.
Theorem C27_hit_sound_new : forall a b c d,
  let h := hit_sound_new a b c d in
  hit_sound_whistle h = b /\ hit_sound_finish h = c /\ hit_sound_clap h = d
  /\ hit_sound_normal h = (a || negb (b || c || d))
  /\ hit_sound_to_string h = print_Z (Z.b2z a + 2 * Z.b2z b + 4 * Z.b2z c + 8 * Z.b2z d)%Z
  /\ hit_sound_from_str (hit_sound_to_string h) = ROk (Some h).
Proof. exact hit_sound_new_spec. Qed.
Print Assumptions C27_hit_sound_new.
(** Reading a number keeps its low four bits; printing gives the number modulo 16. *)
Theorem C27_hit_sound_text : forall s h, hit_sound_from_str s = ROk (Some h) ->
  exists z, int_text false s z /\ (0 <= z <= 255)%Z
  /\ hit_sound_whistle h = Z.odd (z / 2) /\ hit_sound_finish h = Z.odd (z / 4)
  /\ hit_sound_clap h = Z.odd (z / 8)
  /\ hit_sound_normal h = (Z.odd z || (z mod 16 =? 0)%Z)
  /\ hit_sound_to_string h = print_Z (z mod 16).
Proof. exact hit_sound_text. Qed.
Print Assumptions C27_hit_sound_text.
Example C27_hit_sound_set_new_ex :
  hit_sound_to_string (hit_sound_set_whistle (hit_sound_new true false true false) true) = lit "7".
Proof. vm_compute. reflexivity. Qed.
Example C27_hit_sound_ex :
  exists h, hit_sound_from_str (lit "170") = ROk (Some h) /\ hit_sound_to_string h = lit "10"
  /\ hit_sound_normal h = false /\ hit_sound_to_string (hit_sound_set_whistle h false) = lit "8".
Proof. eexists. vm_compute. auto. Qed.

(** The fourth field of a hit object line, written and read: bits 0, 1, 3, 7 give the kind,
    bit 2 the new combo flag and bits 4 to 6 the number of combo colours to skip. *)
Theorem C27_type_number_written : forall v o s,
  (0 <= ho_combo_skip_count o <= 7)%Z -> ho_to_string v o = ROk s ->
  exists time rest ty, shift_out v (ho_time o) = ROk time
    /\ s = commas [print_decimal (pos_x (ho_position o)); print_decimal (pos_y (ho_position o));
                   print_decimal time; print_Z ty] ++ 44 :: rest
    /\ (0 <= ty <= 255)%Z /\ kind_bits ty = Some (kind_of (ho_obj_params o))
    /\ Z.odd (ty / 4) = ho_new_combo o /\ ((ty / 16) mod 8)%Z = ho_combo_skip_count o.
Proof. exact ho_encode. Qed.
Print Assumptions C27_type_number_written.
Theorem C27_type_number_read : forall v s o, ho_from_str v s = ROk (Some o) ->
  exists x y t tys snd rest ty,
    s = commas [x; y; t; tys; snd] ++ rest /\ forallb no_comma [x; y; t; tys; snd] = true
    /\ starts_comma rest
    /\ int_text true tys ty /\ kind_bits ty = Some (kind_of (ho_obj_params o))
    /\ ho_new_combo o = Z.odd (ty / 4) /\ ho_combo_skip_count o = ((ty / 16) mod 8)%Z
    /\ hit_sound_from_str snd = ROk (Some (ho_hitsound o)).
Proof. exact type_number_read. Qed.
Print Assumptions C27_type_number_read.
Example C27_type_number_ex :
  exists o, ho_from_str 14%Z (lit "1,2,3,-75,0") = ROk (Some o) /\ ho_obj_params o = HitCircle
  /\ ho_new_combo o = true /\ ho_combo_skip_count o = 3%Z
  /\ ho_to_string 14%Z o = ROk (lit "1,2,3,53,0").
Proof. eexists. vm_compute. auto. Qed.

(** ** C28: bounded numbers *)
Theorem C28_combo_skip_count : forall c, combo_value c -> (0 <= c <= 7)%Z.
Proof. exact combo_bounds. Qed.
Print Assumptions C28_combo_skip_count.
Theorem C28_sample_volume : forall x, sample_volume x ->
  x = None \/ exists z, x = Some z /\ (1 <= z <= 100)%Z.
Proof. exact sample_volume_bounds. Qed.
Print Assumptions C28_sample_volume.
Theorem C28_audio_volume : forall x, audio_volume x -> (0 <= x <= 100)%Z.
Proof. exact audio_volume_bounds. Qed.
Print Assumptions C28_audio_volume.
(** Exactly the values in bounds are accepted, and a rejected one changes nothing. *)
Theorem C28_combo_accepts : forall n, (0 <= n <= 255)%Z ->
  (combo_new n = ROk (Some n) <-> (n <= 7)%Z) /\ (combo_new n = RErr tt <-> (7 < n)%Z)
  /\ (forall c, combo_set c n = if (n <=? 7)%Z then (n, ROk tt) else (c, RErr tt)).
Proof. exact combo_new_iff. Qed.
Print Assumptions C28_combo_accepts.
Theorem C28_sample_volume_set : forall x n, (0 <= n <= 255)%Z ->
  ho_volume_set x n = if (n =? 0)%Z then (x, RErr VolumeTooLow)
                      else if (n <=? 100)%Z then (Some n, ROk tt) else (x, RErr VolumeTooHigh).
Proof. exact sample_volume_set_iff. Qed.
Print Assumptions C28_sample_volume_set.
Theorem C28_audio_volume_set : forall x n, (0 <= n <= 255)%Z ->
  au_volume_set x n = if (n <=? 100)%Z then (n, ROk tt) else (x, RErr tt).
Proof. exact audio_volume_set_iff. Qed.
Print Assumptions C28_audio_volume_set.
Example C28_ex :
  combo_value 7%Z /\ sample_volume (Some 100%Z) /\ audio_volume 0%Z
  /\ combo_set 3%Z 8%Z = (3%Z, RErr tt) /\ au_volume_set 40%Z 101%Z = (40%Z, RErr tt).
Proof.
  repeat split.
  - apply (cv_new 7%Z); vm_compute; auto. split; discriminate.
  - apply (sv_text (lit "100")). reflexivity.
  - apply (av_text (lit "0")). reflexivity.
Qed.

(** ** C29: lists whose last entry may be incomplete *)
Theorem C29_fields_shape : forall T dbg (c : continuing T),
  cont_value dbg c -> only_last_cut full_pair (ct_rest c).
Proof. exact @cont_shape. Qed.
Print Assumptions C29_fields_shape.
Theorem C29_fields_new : forall T (s : T * T) r,
  (only_last_cut full_pair r /\ cont_new s r = ROk (mk_cont s r))
  \/ (~ only_last_cut full_pair r /\ cont_new s r = RErr tt).
Proof. exact @cont_new_iff. Qed.
Print Assumptions C29_fields_new.
(** A push adds its entry at the end and does not change what the earlier entries mean. *)
Theorem C29_fields_push : forall T dbg (c c' : continuing T) f,
  len_ok (ct_rest c) -> cont_push dbg c f = ROk c' ->
  ct_start c' = ct_start c
  /\ meaning (snd (ct_start c)) (ct_rest c') = meaning (snd (ct_start c)) (ct_rest c ++ [f])
  /\ last (ct_rest c') f = f /\ length (ct_rest c') = S (length (ct_rest c)).
Proof. exact @cont_push_facts. Qed.
Print Assumptions C29_fields_push.
(** It panics exactly after a single incomplete entry, when overflow checks are on. *)
Theorem C29_fields_push_panics : forall T dbg (c : continuing T) f p, len_ok (ct_rest c) ->
  (cont_push dbg c f = RPanic p
   <-> p = POverflow /\ dbg = true /\ exists x, ct_rest c = [(x, None)]).
Proof. exact @cont_push_panics. Qed.
Print Assumptions C29_fields_push_panics.
Theorem C29_fields_set : forall T dbg (c : continuing T) i f,
  len_ok (ct_rest c) -> (0 <= i < 2 ^ 64)%Z ->
  match cont_set dbg c i f with
  | ROk c' => ct_start c' = ct_start c /\ (i < Z.of_nat (length (ct_rest c)))%Z
              /\ (last_index (ct_rest c) i \/ full_pair f)
              /\ ct_rest c' = set_nth (Z.to_nat i) f (ct_rest c)
  | RErr CsIndexOutOfBounds => (Z.of_nat (length (ct_rest c)) <= i)%Z
  | RErr CsInvalidSecondFieldOption => ~ last_index (ct_rest c) i /\ snd f = None
  | RPanic p => p = POverflow /\ dbg = true /\ ct_rest c = []
  end.
Proof. exact @cont_set_spec. Qed.
Print Assumptions C29_fields_set.
Example C29_fields_ex :
  exists c : continuing Z,
    cont_value true c /\ ct_rest c = [(3, Some 4); (5, None)]%Z
    /\ cont_push true c (6, None)%Z = ROk (mk_cont (1, 2) [(3, Some 4); (5, Some 4); (6, None)])%Z
    /\ cont_push true (mk_cont (1, 2) [(3, None)])%Z (6, None)%Z = RPanic POverflow.
Proof.
  exists (mk_cont (1, 2) [(3, Some 4); (5, None)])%Z. repeat split.
  apply (ctv_new _ (1, 2)%Z [(3, Some 4); (5, None)]%Z). reflexivity.
Qed.

Theorem C29_rgbs_shape : forall dbg c, rgbs_value dbg c ->
  only_last_cut full_rgb (sbc_rest c) /\ Forall rgb_prefix (sbc_rest c).
Proof. exact rgbs_shape. Qed.
Print Assumptions C29_rgbs_shape.
Theorem C29_rgbs_new : forall s r,
  (only_last_cut full_rgb r /\ Forall rgb_prefix r /\ sbc_new s r = ROk (mk_sbc s r))
  \/ (~ (only_last_cut full_rgb r /\ Forall rgb_prefix r) /\ exists e, sbc_new s r = RErr e).
Proof. exact sbc_new_iff. Qed.
Print Assumptions C29_rgbs_new.
(** A push keeps the rule after an entry that has a green part ... *)
Theorem C29_rgbs_push_keeps : forall dbg c f c', len_ok (sbc_rest c) ->
  only_last_cut full_rgb (sbc_rest c) -> Forall rgb_prefix (sbc_rest c) ->
  (forall l r b, sbc_rest c <> l ++ [(r, None, b)]) -> rgb_prefix f -> sbc_push dbg c f = ROk c' ->
  only_last_cut full_rgb (sbc_rest c') /\ Forall rgb_prefix (sbc_rest c').
Proof. exact rgbs_push_keeps. Qed.
Print Assumptions C29_rgbs_push_keeps.
(** ... but not after one without, nor does it check the new entry. *)
Theorem C29_rgbs_push_refuted : exists c f c',
  rgbs_value true c /\ rgb_prefix f /\ sbc_push true c f = ROk c'
  /\ ~ only_last_cut full_rgb (sbc_rest c').
Proof. exact rgbs_push_breaks. Qed.
Print Assumptions C29_rgbs_push_refuted.
Theorem C29_rgbs_push_entry_refuted : exists c f c',
  rgbs_value true c /\ sbc_push true c f = ROk c' /\ ~ Forall rgb_prefix (sbc_rest c').
Proof. exact rgbs_push_entry. Qed.
Print Assumptions C29_rgbs_push_entry_refuted.
Theorem C29_rgbs_push_panics : forall dbg c f p, len_ok (sbc_rest c) ->
  (sbc_push dbg c f = RPanic p
   <-> p = POverflow /\ dbg = true /\ exists x, sbc_rest c = [x] /\ ~ full_rgb x).
Proof. exact sbc_push_panics. Qed.
Print Assumptions C29_rgbs_push_panics.
Theorem C29_rgbs_set : forall dbg c i f, len_ok (sbc_rest c) -> (0 <= i < 2 ^ 64)%Z ->
  match sbc_set dbg c i f with
  | ROk c' => sbc_start c' = sbc_start c /\ (i < Z.of_nat (length (sbc_rest c)))%Z
              /\ (last_index (sbc_rest c) i \/ full_rgb f) /\ rgb_prefix f
              /\ sbc_rest c' = set_nth (Z.to_nat i) f (sbc_rest c)
  | RErr ScIndexOutOfBounds => (Z.of_nat (length (sbc_rest c)) <= i)%Z
  | RErr (ScInvalidFieldOption _) => ~ rgb_prefix f \/ (~ last_index (sbc_rest c) i /\ ~ full_rgb f)
  | RPanic p => p = POverflow /\ dbg = true /\ sbc_rest c = []
  end.
Proof. exact sbc_set_spec. Qed.
Print Assumptions C29_rgbs_set.
Example C29_rgbs_ex :
  exists c, sbc_new (1, 2, 3)%Z [(4, Some 5, Some 6); (7, Some 8, None)]%Z = ROk c
  /\ rgbs_value true c
  /\ sbc_push true c (9, None, None)%Z
     = ROk (mk_sbc (1, 2, 3) [(4, Some 5, Some 6); (7, Some 8, Some 6); (9, None, None)])%Z.
Proof.
  eexists. repeat split.
  apply (rgv_new _ (1, 2, 3)%Z [(4, Some 5, Some 6); (7, Some 8, None)]%Z). reflexivity.
Qed.

(** ** C30: trigger types *)
(** Exactly the printed triggers are read, up to white space around them. *)
Theorem C30_trigger_round_trip : forall s t, trigger_type_from_str s = ROk (Some t)
  <-> trigger_ok t = true /\ trim s = trigger_type_to_string t.
Proof. exact trigger_iff. Qed.
Print Assumptions C30_trigger_round_trip.
Theorem C30_trigger_print_parse : forall t, trigger_ok t = true ->
  trim (trigger_type_to_string t) = trigger_type_to_string t
  /\ trigger_type_from_str (trigger_type_to_string t) = ROk (Some t).
Proof. exact trigger_print. Qed.
Print Assumptions C30_trigger_print_parse.
(** A custom sample index with more digits is printed, but reading that text panics, or
    fails when there are more than four pieces. *)
Theorem C30_trigger_wide_index : forall ss ass ad z,
  (10 <= z)%Z -> (match ss, ass with None, Some _ => False | _, _ => True end) ->
  let t := TtHitSound ss ass ad (Some z) in
  trigger_type_from_str (trigger_type_to_string t)
  = if Nat.ltb 4 (trigger_names t + length (print_Z z)) then RErr TtTooManyHitSoundFields
    else RPanic PUnreachable.
Proof. exact trigger_wide. Qed.
Print Assumptions C30_trigger_wide_index.
(** An additions sample set without a sample set comes back as a sample set. *)
Theorem C30_trigger_lone_additions : forall x ad n, trigger_ok (TtHitSound (Some x) None ad n) = true ->
  trigger_type_from_str (trigger_type_to_string (TtHitSound None (Some x) ad n))
  = ROk (Some (TtHitSound (Some x) None ad n)).
Proof. exact trigger_lone_additions. Qed.
Print Assumptions C30_trigger_lone_additions.
Example C30_ex :
  trigger_type_from_str (lit "HitSoundDrumSoftWhistle7 ")
  = ROk (Some (TtHitSound (Some SbDrum) (Some SbSoft) (Some AdWhistle) (Some 7%Z)))
  /\ trigger_type_from_str (lit "HitSound56") = RPanic PUnreachable
  /\ trigger_type_from_str (lit "HitSoundDrumSoftClap56") = RErr TtTooManyHitSoundFields
  /\ trigger_type_to_string (TtHitSound None None (Some AdClap) None) = lit "HitSoundClap".
Proof. vm_compute. auto. Qed.

(** ** C36: file paths *)
Theorem C36_path_stable : forall p, print_file_path (print_file_path p) = print_file_path p.
Proof. exact file_path_stable. Qed.
Print Assumptions C36_path_stable.
(** Quotes are added exactly to a path with a space that has no quotes around it. *)
Theorem C36_path_quotes : forall p,
  (print_file_path p = p \/ (In 32 p /\ print_file_path p = [34] ++ p ++ [34]))
  /\ (~ In 32 p -> print_file_path p = p)
  /\ (forall m, p = [34] ++ m ++ [34] -> print_file_path p = p)
  /\ (In 32 p -> (forall m, p <> [34] ++ m ++ [34]) -> print_file_path p = [34] ++ p ++ [34]).
Proof. exact file_path_print. Qed.
Print Assumptions C36_path_quotes.
Example C36_ex :
  print_file_path (lit "a b.png") = [34] ++ lit "a b.png" ++ [34]
  /\ print_file_path ([34] ++ lit "a b.png") = [34; 34] ++ lit "a b.png" ++ [34].
Proof. vm_compute. auto. Qed.
