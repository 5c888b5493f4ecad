(** Facts for C12, C13 and C40: when the readers of versions 3 and 4 panic. *)
From Coq Require Import String List NArith ZArith Bool Lia.
From Verif Require Import Str Num Nom Dec Parsers Colours TimingPoints HitObjects Storyboard NormalEvents Events
  Spec SpecWf SpecText SpecOld SpecSections SpecEvents SpecLate StrFacts NumFacts NomFacts DecFacts LineFacts ColoursFacts FieldFacts TpFacts HoFacts
  EvRound EvPanic OldFacts.
Import ListNotations.
Local Open Scope N_scope.

(** ** one decimal *)
Lemma half_even_le n k : div_half_even n k <= n / 10 ^ N.of_nat k + 1.
Proof. unfold div_half_even. destruct (_ ?= _); [destruct (N.even _)| |]; lia. Qed.
(** A number with decimals is far below the limit. *)
Lemma fit_small m sc : m < two96 + 24 * 10 ^ N.of_nat sc -> (1 <= sc)%nat -> exists x, fit sc 0 m sc = Some x.
Proof.
  intros Hm H1. assert (K : div_half_even m sc < two96).
  { pose proof (half_even_le m sc) as H. assert (m / 10 ^ N.of_nat sc <= two96 / 10 + 24).
    { assert (10 <= 10 ^ N.of_nat sc) by (change 10 with (10 ^ 1) at 1; apply N.pow_le_mono_r; lia).
      assert (P : 10 ^ N.of_nat sc <> 0) by (apply N.pow_nonzero; lia).
      etransitivity; [apply N.div_le_mono; [exact P|apply N.lt_le_incl, Hm]|]. rewrite N.div_add by exact P.
      apply N.add_le_mono_r. apply N.div_le_compat_l. lia. }
    assert (two96 / 10 + 26 < two96) by now vm_compute. lia. }
  assert (G : forall f k, (k + f = sc)%nat -> exists x, fit f k m sc = Some x).
  { induction f as [|f IH]; intros k Hk; cbn [fit].
    - replace k with sc by lia. destruct (Nat.eqb_spec sc 0); [lia|]. apply N.ltb_lt in K. rewrite K. eauto.
    - destruct (_ <? two96); [eauto|]. apply IH. lia. }
  now apply G.
Qed.
Lemma add24_any {E} d : d_mant d < two96 ->
  (exists p, @rdec_add E d dec24 = RPanic p) <-> d_neg d = false /\ d_scale d = 0%nat /\ two96 - 24 <= d_mant d.
Proof.
  destruct d as [n m sc]. cbn [d_neg d_mant d_scale]. intros Hm.
  unfold rdec_add, is_zero. cbn [d_mant]. change (d_mant dec24 =? 0) with false. change (d_scale dec24) with 0%nat. change (signed_mant dec24) with 24%Z.
  destruct (N.eqb_spec m 0) as [->|E0].
  { split; [now intros [p H]|]. intros (_ & _ & H). now vm_compute in H. }
  cbn [d_scale]. rewrite Nat.max_0_r, Nat.sub_diag, Nat.sub_0_r. change (pow10 0) with 1%Z. rewrite Z.mul_1_r. unfold signed_mant. cbn [d_neg d_mant].
  set (z := (_ + _)%Z). assert (Hz : Z.to_N (Z.abs z) < two96 + 24 * 10 ^ N.of_nat sc).
  { pose proof (pow_N sc) as Hp. pose proof (pow_pos sc) as Hq. apply N2Z.inj_lt. rewrite N2Z.inj_add, N2Z.inj_mul, Hp, Z2N.id by lia. apply N2Z.inj_lt in Hm.
    subst z. unfold pow10. destruct n; lia. }
  destruct sc as [|sc].
  - change (pow10 0) with 1%Z in z. cbn [fit Nat.eqb]. assert (T : two96 = 79228162514264337593543950336) by now vm_compute.
    destruct (N.ltb_spec (Z.to_N (Z.abs z)) two96) as [Hl|Hl].
    + split; [now intros [p H]|]. intros (-> & _ & H). exfalso. subst z. lia.
    + split; [|eauto]. intros _. destruct n; subst z; [lia|]. repeat split; lia.
  - destruct (fit_small _ _ Hz ltac:(lia)) as ([m' sc'] & ->). split; [now intros [p H]|now intros (_ & H & _)].
Qed.
Lemma add24 {E} d : wf_rdec d = true ->
  (exists p, @rdec_add E d dec24 = RPanic p) <-> d_neg d = false /\ d_scale d = 0%nat /\ two96 - 24 <= d_mant d.
Proof. unfold wf_rdec. rewrite !andb_true_iff, N.ltb_lt. intros [[Hm _] _]. now apply add24_any. Qed.
Lemma shift_late v x : old_version v = true -> (exists p, shift_in v (decimal_of_str x) = RPanic p) <-> too_late x.
Proof.
  intros Ho. unfold shift_in, too_late. rewrite Ho. pose proof (decimal_of_str_wf x) as Hw. destruct (decimal_of_str x) as [d|s].
  - cbn [wf_decimal] in Hw. pose proof (@add24 Empty_set d Hw) as A. assert (T : two96 - 24 = 79228162514264337593543950312) by now vm_compute.
    split.
    + intros [p H]. destruct (rdec_add d dec24) as [|[]|q] eqn:E; [easy|]. destruct (proj1 A (ex_intro _ q eq_refl)) as (H1 & H2 & H3). destruct d as [n m sc]. cbn [d_neg d_mant d_scale] in *.
      subst. rewrite T in H3. eauto.
    + intros (m & [= ->] & Hm). destruct (proj2 A) as [p ->]; [cbn [d_neg d_mant d_scale]; rewrite T; auto|]. now exists p.
  - split; [now intros [p H]|now intros (m & H & _)].
Qed.

(** ** lists of lines *)
Lemma parse_lines_app {A E} (f : str -> res A E) a b : forall i, parse_lines f i (a ++ b)
  = rbind (parse_lines f i a) (fun xs => rmap (app xs) (parse_lines f (i + Z.of_nat (length a)) b)).
Proof.
  induction a as [|x a IH]; intros i; cbn [app parse_lines length rbind].
  - replace (i + Z.of_nat 0)%Z with i by lia. now destruct (parse_lines f i b).
  - replace (i + Z.of_nat (S (length a)))%Z with (i + 1 + Z.of_nat (length a))%Z by lia. destruct (is_blank x); [apply IH|]. destruct (f x); [|easy|easy].
    rewrite IH. destruct (parse_lines f (i + 1) a); cbn; [|easy|easy]. now destruct (parse_lines f _ b).
Qed.
Lemma parse_lines_panic {A E} (f : str -> res A E) ls i : (exists p, parse_lines f i ls = RPanic p) <->
  exists a l b xs, ls = a ++ l :: b /\ parse_lines f i a = ROk xs /\ is_blank l = false /\ exists p, f l = RPanic p.
Proof.
  split.
  - revert i. induction ls as [|l ls IH]; intros i [p H]; cbn [parse_lines] in H; [easy|].
    destruct (is_blank l) eqn:Eb.
    + destruct (IH _ (ex_intro _ p H)) as (a & x & b & xs & -> & H1 & H2). exists (l :: a), x, b, xs. split; [easy|]. cbn [parse_lines]. now rewrite Eb.
    + destruct (f l) as [y|e|q] eqn:Ef; [|easy|].
      * assert (K : exists p, parse_lines f (i + 1) ls = RPanic p) by (destruct (parse_lines f (i + 1) ls); try easy; eauto).
        apply IH in K as (a & x & b & xs & -> & H1 & H2). exists (l :: a), x, b, (y :: xs). split; [easy|]. cbn [parse_lines]. rewrite Eb, Ef, H1. now split.
      * exists [], l, ls, []. split; [easy|]. split; [easy|]. split; [easy|]. eauto.
  - intros (a & l & b & xs & -> & H1 & H2 & p & H3). exists p. rewrite parse_lines_app, H1. cbn [rbind parse_lines]. now rewrite H2, H3.
Qed.
Lemma lines_start s a l b : lines s = a ++ l :: b -> lines (crlf_text a) = a.
Proof. intros E. apply lines_crlf. pose proof (lines_no_nl s) as H. rewrite E, forallb_app in H. now apply andb_true_iff in H. Qed.

(** ** timing points *)
Lemma tp_tail_safec v time : safec (preceded (context TpMissingBeatLength comma)
      (alt
         (pmap (fun bl => mk_tp time bl 4 TsNormal (sample_index_of_u32 1) 100 None None)
            (upto v 3 (consume_rest_type (@parse_decimal unit))))
         (pbind (comma_field_type (@parse_decimal unit)) (fun bl =>
          pbind (preceded (context TpMissingMeter comma)
                   (context TpInvalidMeter (comma_field_type parse_i32))) (fun meter =>
          pbind (preceded (context TpMissingSampleSet comma)
                   (context TpInvalidSampleSet
                      (comma_field_versioned_type tp_sample_set_from_str))) (fun ss =>
          pmap (fun '(i, (vol, u, e)) => mk_tp time bl meter ss i vol u e)
            (tp_index_rest v))))))).
Proof.
  apply preceded_safec; [apply context_safec, comma_safe|]. apply alt_safec.
  - apply pmap_safe, upto_safe. apply consume_rest_type_safe. auto with safe.
  - apply nofail_pmap, upto_nofail, rest_nofail.
  - apply pbind_safec; [apply total_safec, dec_field_total|]. intros.
    apply pbind_safec.
    { apply preceded_safec; apply context_safec; [apply comma_safe|]. apply comma_field_type_safe. auto with safe. }
    intros. apply pbind_safec.
    { apply preceded_safec; apply context_safec; [apply comma_safe|].
      apply (vfield_safe tp_sample_set_of_Z). auto with safe. }
    intros. apply pmap_safec, tp_index_rest_safec.
Qed.
Lemma field_split s : exists x r, s = x ++ r /\ no_comma x = true /\ field_end r.
Proof. destruct (@comma_field_total unit s) as (r & x & H & _). apply comma_field_inv in H. now exists x, r. Qed.
Lemma field_at {C} x r : no_comma x = true -> field_end r -> @comma_field C (x ++ r) = POk r x.
Proof. intros Hx [->|(t & ->)]; [rewrite app_nil_r; now apply comma_field_all|now apply comma_field_app]. Qed.
Lemma dec_at {C} x r : no_comma x = true -> field_end r -> @comma_field_type C decimal unit (@parse_decimal unit) (x ++ r) = POk r (decimal_of_str x).
Proof. intros Hx Hr. unfold comma_field_type, map_res. now rewrite field_at. Qed.
Lemma tp_late v s : old_version v = true -> (exists p, tp_from_str v s = RPanic p) <-> late_timing s.
Proof.
  intros Ho. split.
  - intros [p H]. destruct (field_split s) as (x & r & -> & Hx & Hr). exists x, r. split; [easy|]. split; [easy|]. split; [easy|]. apply (shift_late v x Ho).
    destruct (shift_in v (decimal_of_str x)) as [d|[]|q] eqn:E; [exfalso|eauto]. unfold tp_from_str in H. revert H.
    assert (F : fine (tp_parser v (x ++ r))).
    { unfold tp_parser. unfold pbind at 1. unfold map_run, context at 1. rewrite dec_at, E by easy. apply safec_fine, tp_tail_safec. }
    apply fine_np with (x := p) in F. destruct (verbose_error_to_error _); cbn; congruence.
  - intros (x & r & -> & Hx & Hr & Hl). apply (shift_late v x Ho) in Hl as [p Hl]. exists p. unfold tp_from_str, tp_parser. unfold pbind at 1. unfold map_run, context at 1.
    now rewrite dec_at, Hl by easy.
Qed.
Lemma late_not_blank x r : too_late x -> is_blank (x ++ r) = false.
Proof.
  intros (m & H & _). unfold decimal_of_str in H. destruct (parse_rdec x) eqn:E; [|easy]. rewrite is_blank_forallb.
  destruct x as [|c x]; [easy|]. cbn [app forallb]. replace (is_ws c) with false; [easy|]. symmetry. unfold parse_rdec in E.
  destruct (N.eqb_spec c 45) as [->|H1]; [easy|]. destruct (N.eqb_spec c 43) as [->|H2]; [easy|]. cbn [dec_loop andb negb] in E.
  destruct (is_digit c) eqn:Ed.
  - unfold is_digit in Ed. apply andb_true_iff in Ed as [A B]. apply N.leb_le in A, B. unfold is_ws.
    repeat match goal with |- context [?a <=? ?b] => destruct (N.leb_spec a b); [|] end; try lia;
    repeat match goal with |- context [?a =? ?b] => destruct (N.eqb_spec a b); [|] end; try lia; easy.
  - destruct (N.eqb_spec c 46) as [->|H3]; [easy|]. rewrite andb_false_r in E. easy.
Qed.
Lemma timing_late v s : old_version v = true -> (exists p, timing_points_from_str s v = RPanic p) <->
  exists a l b ts, lines s = a ++ l :: b /\ timing_points_from_str (crlf_text a) v = ROk (Some ts) /\ late_timing l.
Proof.
  intros Ho. rewrite timing_points_from_str_eq. split.
  - intros [p H]. assert (K : exists p, parse_lines (tp_from_str v) 0 (lines s) = RPanic p) by (destruct (parse_lines _ 0 (lines s)); try easy; eauto).
    apply parse_lines_panic in K as (a & l & b & xs & E & H1 & _ & H2). exists a, l, b, (flatten_opt xs). split; [easy|].
    rewrite timing_points_from_str_eq, (lines_start _ _ _ _ E), H1. split; [easy|]. now apply (tp_late v l Ho).
  - intros (a & l & b & ts & E & H1 & H2). rewrite timing_points_from_str_eq, (lines_start _ _ _ _ E) in H1.
    assert (K : exists p, parse_lines (tp_from_str v) 0 (lines s) = RPanic p).
    { apply parse_lines_panic. destruct (parse_lines (tp_from_str v) 0 a) as [xs| |] eqn:Ea; try easy. exists a, l, b, xs. split; [easy|]. split; [easy|].
      split; [|now apply (tp_late v l Ho)]. destruct H2 as (x & r & -> & _ & _ & H2). now apply late_not_blank. }
    destruct K as [p ->]. eauto.
Qed.

(** ** hit objects *)
Lemma dec_next {C} (m i : C) x r : no_comma x = true -> field_end r ->
  preceded (context m comma) (context i (comma_field_type (@parse_decimal unit))) (44 :: x ++ r) = POk r (decimal_of_str x).
Proof. intros Hx Hr. now apply field_ok. Qed.
Lemma no_comma_stop {C} (m : C) r : field_end r -> r = [] /\ (exists e, context m comma r = PErr e) \/ exists t, r = 44 :: t /\ context m comma r = POk t (lit ",").
Proof. intros [->|(t & ->)]; [left; split; [easy|]; eexists; reflexivity|right]. exists t. split; [easy|]. apply context_ok. exact (tag_one _ _). Qed.
Lemma common_late v s : old_version v = true ->
  (exists x y t r, s = commas [x; y; t] ++ r /\ forallb no_comma [x; y; t] = true /\ field_end r /\ too_late t)
  \/ fine (ho_common v s).
Proof.
  intros Ho. unfold ho_common. apply or_bind.
  { apply safec_fine, context_safec, total_safe, dec_field_total. }
  intros r1 x0 H1. apply context_inv in H1. apply map_res_inv in H1 as (x & H1 & _). apply comma_field_inv in H1 as (-> & Hx & _).
  apply or_bind.
  { apply safec_fine, cdec_safec. }
  intros r2 y0 H2. apply field_inv2 in H2 as (t2 & -> & H2). apply map_res_inv in H2 as (y & H2 & _). apply comma_field_inv in H2 as (-> & Hy & Hr2).
  assert (K : (exists t t3 r3, r2 = 44 :: t3 /\ t3 = t ++ r3 /\ no_comma t = true /\ field_end r3) \/ r2 = []).
  { destruct Hr2 as [->|(t3 & ->)]; [now right|left]. destruct (field_split t3) as (t & r3 & E3 & Ht & Hr3). now exists t, t3, r3. }
  destruct K as [(t & t3 & r3 & -> & -> & Ht & Hr3)| ->].
  2:{ right. cbn. discriminate. }
  unfold pbind, map_run. rewrite dec_next by easy. destruct (shift_in v (decimal_of_str t)) as [d|[]|q] eqn:E.
  - right. match goal with |- fine match ?p r3 with _ => _ end => change (fine (pbind p (fun ty => pmap (fun h => (mk_pos x0 y0, d, ty, h))
      (preceded (context HoMissingHitSound comma) (context HoInvalidHitSound (comma_field_versioned_type hit_sound_from_str)))) r3)) end.
    apply safec_fine. apply pbind_safec.
    { apply preceded_safec; apply context_safec; [apply comma_safe|]. apply comma_field_type_safe. auto with safe. }
    intros. apply pmap_safec, preceded_safec; apply context_safec; [apply comma_safe|].
    apply comma_field_versioned_type_safe; [apply np_hit_sound|apply hit_sound_some].
  - left. exists x, y, t, r3. split; [unfold commas; cbn [join]; repeat (rewrite <- app_assoc; cbn [app lit]); reflexivity|]. split; [cbn; now rewrite Hx, Hy, Ht|]. split; [easy|].
    apply (shift_late v t Ho). eauto.
Qed.
Lemma common_parts v s r pos t0 ty h0 : ho_common v s = POk r (pos, t0, ty, h0) ->
  exists x y t z h, s = commas [x; y; t; z; h] ++ r /\ forallb no_comma [x; y; t; z; h] = true /\ field_end r
    /\ parse_i32 z = ROk ty /\ hit_sound_from_str h = ROk (Some h0).
Proof.
  unfold ho_common. intros H. apply pbind_inv in H as (r1 & x0 & H1 & H). apply context_inv in H1. apply map_res_inv in H1 as (x & H1 & _).
  apply comma_field_inv in H1 as (-> & Hx & _). apply pbind_inv in H as (r2 & y0 & H2 & H). apply field_inv2 in H2 as (t2 & -> & H2).
  apply map_res_inv in H2 as (y & H2 & _). apply comma_field_inv in H2 as (-> & Hy & _). apply pbind_inv in H as (r3 & t' & H3 & H).
  unfold map_run in H3. match type of H3 with match ?p with _ => _ end = _ => destruct p as [r3' d| | |] eqn:E3; try easy end.
  destruct (shift_in v d) as [d'|[]|]; try easy. injection H3 as -> ->.
  apply field_inv2 in E3 as (t3 & -> & E3). apply map_res_inv in E3 as (t & E3 & _). apply comma_field_inv in E3 as (-> & Ht & _).
  apply pbind_inv in H as (r4 & ty' & H4 & H). apply field_inv2 in H4 as (t4 & -> & H4). apply map_res_inv in H4 as (z & H4 & Hz). apply comma_field_inv in H4 as (-> & Hzc & _).
  apply pmap_inv in H as (h' & H5 & E). injection E as _ _ <- <-. apply field_inv2 in H5 as (t5 & -> & H5). apply map_res_inv in H5 as (h & H5 & Hh).
  apply comma_field_inv in H5 as (-> & Hhc & Hr). exists x, y, t, z, h. split; [unfold commas; cbn [join]; repeat (rewrite <- app_assoc; cbn [app lit]); reflexivity|].
  split; [cbn; now rewrite Hx, Hy, Ht, Hzc, Hhc|]. split; [easy|]. split; [easy|]. unfold v_unwrap in Hh. destruct (hit_sound_from_str h) as [[]| |]; try easy. now injection Hh as ->.
Qed.
Lemma common_there v x y t z h ty h0 r d : forallb no_comma [x; y; t; z; h] = true -> field_end r -> shift_in v (decimal_of_str t) = ROk d ->
  parse_i32 z = ROk ty -> hit_sound_from_str h = ROk (Some h0) ->
  ho_common v (commas [x; y; t; z; h] ++ r) = POk r (mk_pos (decimal_of_str x) (decimal_of_str y), d, ty, h0).
Proof.
  cbn [forallb]. rewrite !andb_true_iff. intros (Hx & Hy & Ht & Hz & Hh & _) Hr Hd Hi Hs. unfold ho_common, commas. cbn [join].
  repeat (rewrite <- app_assoc; cbn [app lit]). assert (F : forall l, field_end (44 :: l)) by (right; eauto).
  eapply pbind_step; [apply context_ok; now apply dec_at|]. eapply pbind_step; [now apply dec_next|].
  eapply pbind_step; [unfold map_run; rewrite dec_next by easy; now rewrite Hd|]. eapply pbind_step; [apply field_ok; [easy|exact (F _)|exact Hi]|].
  apply (pmap_step (fun h => (mk_pos (decimal_of_str x) (decimal_of_str y), d, ty, h))). now apply vfield_ok.
Qed.
Lemma spinner_late v r : old_version v = true -> field_end r ->
  (exists e u, r = 44 :: e ++ u /\ no_comma e = true /\ field_end u /\ too_late e) \/ fine (ho_spinner v r).
Proof.
  intros Ho [->|(t & ->)]; [right; cbn; discriminate|]. destruct (field_split t) as (e & u & -> & He & Hu). unfold ho_spinner, pbind, map_run. rewrite dec_next by easy.
  destruct (shift_in v (decimal_of_str e)) as [d|[]|q] eqn:E.
  - right. apply safec_fine, pmap_safec, ho_hitsample_safec.
  - left. exists e, u. split; [easy|]. split; [easy|]. split; [easy|]. apply (shift_late v e Ho). eauto.
Qed.
Lemma find_colon_at e u : contains_char 58 e = false -> find_sub (lit ":") (e ++ 58 :: u) = Some (e, 58 :: u).
Proof.
  induction e as [|c e IH]; [reflexivity|]. unfold contains_char in *. cbn [existsb app find_sub]. intros H. apply orb_false_iff in H as [H1 H2]. rewrite (IH H2).
  unfold starts_with. change (lit ":") with [58]. cbn [strip_prefix]. now rewrite H1.
Qed.
Lemma find_colon t : find_sub (lit ":") t = None \/ exists e u, t = e ++ 58 :: u /\ contains_char 58 e = false /\ find_sub (lit ":") t = Some (e, 58 :: u).
Proof.
  induction t as [|c t IH]; [now left|]. cbn [find_sub]. unfold starts_with. change (lit ":") with [58] in *. cbn [strip_prefix]. destruct (N.eqb_spec 58 c) as [<-|Hc].
  - right. now exists [], t.
  - destruct IH as [->|(e & u & -> & He & ->)]; [now left|right]. exists (c :: e), u. split; [easy|]. split; [|easy].
    apply N.eqb_neq in Hc. unfold contains_char in *. cbn [existsb]. now rewrite Hc.
Qed.
Lemma comma_at {C} (m : C) t : context m comma (44 :: t) = POk t (lit ",").
Proof. apply context_ok. exact (tag_one _ _). Qed.
Lemma hold_late v r : old_version v = true -> field_end r ->
  (exists e u, r = 44 :: e ++ 58 :: u /\ contains_char 58 e = false /\ too_late e) \/ fine (ho_hold v r).
Proof.
  intros Ho [->|(t & ->)]; [right; cbn; discriminate|]. unfold ho_hold, preceded, pbind, map_run. rewrite comma_at.
  unfold context at 1. unfold map_res, take_until. destruct (find_colon t) as [->|(e & u & -> & He & ->)]; [right; cbn; discriminate|].
  unfold parse_decimal. destruct (shift_in v (decimal_of_str e)) as [d|[]|q] eqn:E.
  - right. apply safec_fine, pmap_safec, ho_hold_hitsample_safec.
  - left. exists e, u. split; [easy|]. split; [easy|]. apply (shift_late v e Ho). eauto.
Qed.
Lemma ho_late v s : old_version v = true -> (exists p, ho_from_str v s = RPanic p) <-> late_object s.
Proof.
  intros Ho. split.
  - intros [p H]. destruct (common_late v s Ho) as [K|K]; [now left|right]. unfold ho_from_str in H.
    destruct (ho_common v s) as [r [[[pos t0] ty] h0]|e|e|q] eqn:E; cbn in K.
    2-3: cbn in H; destruct (e_ctx e); easy.
    2: easy.
    apply common_parts in E as (x & y & t & z & h & -> & Hc & Hr & Hz & Hh). apply i32_accepts in Hz as [Hz1 Hz2]. rewrite skip_ok in H. cbv beta iota zeta in H. unfold nth_bit in H.
    destruct (Z.testbit ty 0) eqn:B0; [exfalso; revert H; apply verbose_np_rmap, ho_hitsample_safec|].
    destruct (Z.testbit ty 1) eqn:B1; [exfalso; revert H; apply verbose_np_rmap, ho_slider_safec|].
    assert (G : forall e u, commas [x; y; t; z; h] ++ 44 :: e ++ u = commas [x; y; t; z; h; e] ++ u).
    { intros e u. unfold commas. cbn [join]. repeat (rewrite <- app_assoc; cbn [app lit]). reflexivity. }
    destruct (Z.testbit ty 3) eqn:B3.
    + left. destruct (spinner_late v r Ho Hr) as [(e & u & -> & He & Hu & Hl)|F].
      2:{ exfalso. apply fine_np with (x := p) in F. destruct (verbose_error_to_error _) as [[]| |]; cbn in H; congruence. }
      exists x, y, t, z, ty, h, e, u. rewrite G. split; [easy|]. split; [cbn [forallb] in *; rewrite !andb_true_iff in *; intuition|]. repeat (split; [solve [eauto]|]). easy.
    + right. destruct (Z.testbit ty 7) eqn:B7; [|easy]. destruct (hold_late v r Ho Hr) as [(e & u & -> & He & Hl)|F].
      2:{ exfalso. apply fine_np with (x := p) in F. destruct (verbose_error_to_error _) as [[]| |]; cbn in H; congruence. }
      exists x, y, t, z, ty, h, e, u. rewrite G. split; [easy|]. split; [easy|]. split; [easy|]. repeat (split; [solve [eauto]|]). easy.
  - assert (T : forall x y t r, forallb no_comma [x; y; t] = true -> field_end r -> too_late t -> exists p, ho_from_str v (commas [x; y; t] ++ r) = RPanic p).
    { intros x y t r Hc Hr Hl. apply (shift_late v t Ho) in Hl as [p Hl]. exists p. cbn [forallb] in Hc. rewrite !andb_true_iff in Hc. destruct Hc as (Hx & Hy & Ht & _).
      assert (F : forall l, field_end (44 :: l)) by (right; eauto). unfold ho_from_str.
      replace (ho_common v (commas [x; y; t] ++ r)) with (@PPanic ho_err (position_t * decimal * Z * hit_sound) p); [easy|]. symmetry. unfold ho_common, commas. cbn [join].
      repeat (rewrite <- app_assoc; cbn [app lit]). unfold pbind at 1. unfold context at 1. rewrite dec_at by easy. unfold pbind at 1. rewrite dec_next by easy.
      unfold pbind at 1. unfold map_run. rewrite dec_next by easy. now rewrite Hl. }
    intros [(x & y & t & r & -> & H)|H]; [now apply T|].
    assert (G : forall x y t z h e u, commas [x; y; t; z; h; e] ++ u = commas [x; y; t; z; h] ++ 44 :: e ++ u).
    { intros. unfold commas. cbn [join]. repeat (rewrite <- app_assoc; cbn [app lit]). reflexivity. }
    assert (F : forall l, field_end (44 :: l)) by (right; eauto).
    assert (W : forall x y t z h u, commas [x; y; t; z; h] ++ u = commas [x; y; t] ++ 44 :: z ++ 44 :: h ++ u).
    { intros. unfold commas. cbn [join]. repeat (rewrite <- app_assoc; cbn [app lit]). reflexivity. }
    destruct H as [(x & y & t & z & ty & h & e & r & -> & Hc & H1 & H2 & (h0 & Hh) & B0 & B1 & B3 & Hr & Hl)
                  |(x & y & t & z & ty & h & e & r & -> & Hc & He & H1 & H2 & (h0 & Hh) & B0 & B1 & B3 & B7 & Hl)]; rewrite G;
      assert (Hz : parse_i32 z = ROk ty) by (apply i32_accepts; auto);
      (destruct (shift_in v (decimal_of_str t)) as [d|[]|q] eqn:E;
       [|rewrite W; apply T; [cbn [forallb] in *; rewrite !andb_true_iff in *; intuition|apply F|apply (shift_late v t Ho); eauto]]).
    + unfold ho_from_str. rewrite (common_there v x y t z h ty h0 _ d); [|cbn [forallb] in *; rewrite !andb_true_iff in *; intuition|apply F|easy|easy|easy].
      rewrite skip_ok. cbv beta iota zeta. unfold nth_bit. rewrite B0, B1, B3. apply (shift_late v e Ho) in Hl as [p Hl]. exists p.
      unfold ho_spinner, pbind, map_run. rewrite dec_next; [now rewrite Hl|cbn [forallb] in *; rewrite !andb_true_iff in *; intuition|easy].
    + unfold ho_from_str. rewrite (common_there v x y t z h ty h0 _ d); [|easy|apply F|easy|easy|easy].
      rewrite skip_ok. cbv beta iota zeta. unfold nth_bit. rewrite B0, B1, B3, B7. apply (shift_late v e Ho) in Hl as [p Hl]. exists p.
      unfold ho_hold, preceded, pbind, map_run. rewrite comma_at. unfold context at 1. unfold map_res, take_until. change (lit ":" ++ r) with (58 :: r).
      rewrite find_colon_at by easy. unfold parse_decimal. now rewrite Hl.
Qed.
Lemma join_not_blank s x : is_blank s = true -> In x s -> is_ws x = true.
Proof. rewrite is_blank_forallb, forallb_forall. auto. Qed.
Lemma object_not_blank s : late_object s -> is_blank s = false.
Proof.
  intros H. destruct (is_blank s) eqn:B; [exfalso|easy]. assert (K : In 44 s).
  { destruct H as [(x & y & t & r & -> & _)|[(x & y & t & z & ty & h & e & r & -> & _)|(x & y & t & z & ty & h & e & r & -> & _)]];
    unfold commas; cbn [join]; rewrite <- app_assoc; apply in_or_app; right; now left. }
  apply (join_not_blank s 44 B) in K. discriminate K.
Qed.
Lemma unwrap_panic v l : (exists p, v_unwrap (ho_from_str v l) = RPanic p) <-> exists p, ho_from_str v l = RPanic p.
Proof.
  pose proof (ho_from_str_none v l) as N. unfold v_unwrap. destruct (ho_from_str v l) as [[]| |]; try easy; split; intros [q H]; try easy; injection H as ->; now exists q.
Qed.
Lemma objects_late v s : old_version v = true -> (exists p, hit_objects_from_str s v = RPanic p) <->
  exists a l b os, lines s = a ++ l :: b /\ hit_objects_from_str (crlf_text a) v = ROk (Some os) /\ late_object l.
Proof.
  intros Ho. unfold hit_objects_from_str. set (f := fun l => v_unwrap (ho_from_str v l)). split.
  - intros [p H]. assert (K : exists p, parse_lines f 0 (lines s) = RPanic p) by (destruct (parse_lines _ 0 (lines s)); try easy; eauto).
    apply parse_lines_panic in K as (a & l & b & xs & E & H1 & _ & H2). exists a, l, b, xs. split; [easy|].
    rewrite (lines_start _ _ _ _ E), H1. split; [easy|]. apply (ho_late v l Ho). now apply unwrap_panic.
  - intros (a & l & b & ts & E & H1 & H2). rewrite (lines_start _ _ _ _ E) in H1.
    assert (K : exists p, parse_lines f 0 (lines s) = RPanic p).
    { apply parse_lines_panic. destruct (parse_lines f 0 a) as [xs| |] eqn:Ea; try easy. exists a, l, b, xs. split; [easy|]. split; [easy|].
      split; [now apply object_not_blank|]. apply unwrap_panic. now apply (ho_late v l Ho). }
    destruct K as [p ->]. now exists p.
Qed.

(** ** events *)
Lemma time_late dbg v z : old_version v = true -> in_i32 z = true -> (exists p, time_in dbg v z = RPanic p) <-> dbg = true /\ (2147483624 <= z)%Z.
Proof.
  intros Ho Hz. rewrite (time_in_old dbg v z Ho Hz). unfold i32_plus, in_i32, i32_min, i32_max in *. apply andb_true_iff in Hz as [H1 H2]. apply Z.leb_le in H1, H2.
  rewrite (proj2 (Z.leb_le (-2147483648) (z + 24))) by lia. cbn [andb]. destruct (Z.leb_spec (z + 24) 2147483647).
  - split; [now intros [p H']|]. intros [_ H']. lia.
  - destruct dbg; [|now split; [intros [p H']|intros [H' _]]]. split; [|eauto]. intros _. split; [easy|]. lia.
Qed.
Lemma late_is x z : parse_i32 x = ROk z -> (late_i32 x <-> (2147483624 <= z)%Z).
Proof.
  intros H. pose proof (proj1 (i32_accepts x z) H) as [H1 H2]. split.
  - intros (z' & K1 & K2). assert (K : parse_i32 x = ROk z') by (apply i32_accepts; split; [easy|]; lia). rewrite K in H. injection H as <-. lia.
  - intros K. exists z. split; [easy|]. lia.
Qed.
Lemma late_parse x : late_i32 x -> exists z, parse_i32 x = ROk z /\ (2147483624 <= z)%Z /\ in_i32 z = true.
Proof.
  intros (z & H1 & H2). assert (K : parse_i32 x = ROk z) by (apply i32_accepts; split; [easy|]; lia). exists z. split; [easy|]. split; [lia|]. now apply parse_i32_range in K.
Qed.
Lemma start_late {C} dbg v (e : C) x r : old_version v = true -> no_comma x = true -> field_end r ->
  (dbg = true /\ late_i32 x) \/ fine (start_time_offset dbg v e (x ++ r)).
Proof.
  intros Ho Hx Hr. unfold start_time_offset, context, map_run, comma_field_type, map_res. rewrite field_at by easy. destruct (parse_i32 x) as [z|er|q] eqn:E.
  - pose proof (parse_i32_range _ _ E) as Hz. destruct (time_in dbg v z) as [y|[]|q] eqn:T; [right; exact I|left]. destruct (proj1 (time_late dbg v z Ho Hz) (ex_intro _ q T)) as [H1 H2].
    split; [easy|]. now apply (late_is x z E).
  - right. cbn. discriminate.
  - now apply parse_i32_no_panic in E.
Qed.
Lemma start_stops {C} dbg v (e : C) x r : old_version v = true -> no_comma x = true -> field_end r -> dbg = true -> late_i32 x ->
  exists p, start_time_offset dbg v e (x ++ r) = PPanic p.
Proof.
  intros Ho Hx Hr Hd Hl. apply late_parse in Hl as (z & E & Hl & Hz). destruct (proj2 (time_late dbg v z Ho Hz) (conj Hd Hl)) as [p T]. exists p.
  unfold start_time_offset, context, map_run, comma_field_type, map_res. rewrite field_at by easy. now rewrite E, T.
Qed.
Lemma end_late {C} dbg v (e : C) y : old_version v = true -> (dbg = true /\ late_i32 y) \/ fine (end_time_rest dbg v e y).
Proof.
  intros Ho. unfold end_time_rest, context, map_run, consume_rest_type, map_res, prest. destruct (parse_i32 y) as [z|er|q] eqn:E.
  - pose proof (parse_i32_range _ _ E) as Hz. destruct (time_in dbg v z) as [t|[]|q] eqn:T; [right; exact I|left]. destruct (proj1 (time_late dbg v z Ho Hz) (ex_intro _ q T)) as [H1 H2].
    split; [easy|]. now apply (late_is y z E).
  - right. cbn. discriminate.
  - now apply parse_i32_no_panic in E.
Qed.
Lemma end_stops {C} dbg v (e : C) y : old_version v = true -> dbg = true -> late_i32 y -> exists p, end_time_rest dbg v e y = PPanic p.
Proof.
  intros Ho Hd Hl. apply late_parse in Hl as (z & E & Hl & Hz). destruct (proj2 (time_late dbg v z Ho Hz) (conj Hd Hl)) as [p T]. exists p.
  unfold end_time_rest, context, map_run, consume_rest_type, map_res, prest. now rewrite E, T.
Qed.
(** A comma and a time. *)
Lemma next_late {C} dbg v (m e : C) r : old_version v = true ->
  (exists x u, r = 44 :: x ++ u /\ no_comma x = true /\ field_end u /\ dbg = true /\ late_i32 x)
  \/ fine (preceded (context m comma) (start_time_offset dbg v e) r).
Proof.
  intros Ho. unfold preceded. destruct r as [|c r]; [right; cbn; discriminate|]. destruct (N.eqb_spec 44 c) as [<-|Hc].
  - unfold pbind. rewrite comma_at. destruct (field_split r) as (x & u & -> & Hx & Hu). destruct (start_late dbg v e x u Ho Hx Hu) as [[H1 H2]|H]; [left|now right].
    exists x, u. auto.
  - right. unfold pbind, context, comma, tag. change (lit ",") with [44]. cbn [strip_prefix]. apply N.eqb_neq in Hc. rewrite Hc. cbn. discriminate.
Qed.
Lemma two_heads {C} (e : C) a b s r (sh : bool) : alt (pmap (fun _ => true) (tag a)) (context e (pmap (fun _ => false) (tag b))) s = POk r sh ->
  s = a ++ r \/ s = b ++ r.
Proof.
  intros H. apply alt_inv in H as [H|H]; [left|right]; [|apply context_inv in H]; apply pmap_inv in H as (x & H & _); apply tag_inv in H as [-> _]; easy.
Qed.
Lemma heads_fine {C} (e : C) a b s : fine (alt (pmap (fun _ => true) (tag a)) (context e (pmap (fun _ => false) (tag b))) s).
Proof. apply safec_fine, alt_safec; [apply pmap_safe, tag_safe|apply nofail_pmap, nofail_tag|apply context_safec, pmap_safe, tag_safe]. Qed.
Ltac joined := unfold commas; cbn [join]; repeat (rewrite <- app_assoc; cbn [app lit]); reflexivity.
Lemma vid_late dbg v s : old_version v = true -> (dbg = true /\ late_event s) \/ fine (vid_parser dbg v s).
Proof.
  intros Ho. unfold vid_parser. apply or_bind; [apply heads_fine|]. intros r sh H. apply two_heads in H.
  destruct (next_late dbg v ViMissingStartTime ViInvalidStartTime r Ho) as [(x & u & -> & Hx & Hu & Hd & Hl)|F].
  - left. split; [easy|]. left. destruct H as [->| ->]; [exists (lit "1"), x, u|exists (lit "Video"), x, u]; (split; [cbn; auto 20|]); (split; [joined|]); auto.
  - apply or_bind; [easy|]. intros. right. apply safec_fine. apply pmap_safec, preceded_safec; [apply context_safec, comma_safe|apply fnp_safec].
Qed.
Lemma ctr_late dbg v s : old_version v = true -> (dbg = true /\ late_event s) \/ fine (ctr_parser dbg v s).
Proof.
  intros Ho. unfold ctr_parser.
  assert (K : (dbg = true /\ late_event s) \/ fine (preceded (pair (context CtWrongEventType (tag (lit "3"))) (context CtMissingStartTime comma)) (start_time_offset dbg v CtInvalidStartTime) s)).
  { apply or_bind; [apply safec_fine, head_safec|]. intros r [a b] H. apply pbind_inv in H as (r1 & a' & H1 & H). apply pmap_inv in H as (b' & H2 & _).
    apply context_inv in H1, H2. apply tag_inv in H1 as [-> _]. apply comma_inv in H2 as ->. destruct (field_split r) as (x & u & -> & Hx & Hu).
    destruct (start_late dbg v CtInvalidStartTime x u Ho Hx Hu) as [[Hd Hl]|F]; [left|now right]. split; [easy|]. left. exists (lit "3"), x, u. split; [cbn; auto 20|]. split; [joined|]. auto. }
  destruct K as [K|K]; [now left|]. apply or_bind; [easy|]. intros. right. apply safec_fine.
  apply pbind_safec; [apply field_c, cf_safe, np_u8|]. intros. apply pbind_safec; [apply field_c, cf_safe, np_u8|]. intros.
  apply pmap_safec, field_c. apply consume_rest_type_safe, np_u8.
Qed.
Lemma brk_late dbg v s : old_version v = true -> (dbg = true /\ late_event s) \/ fine (brk_parser dbg v s).
Proof.
  intros Ho. unfold brk_parser. apply or_bind; [apply heads_fine|]. intros r sh H. apply two_heads in H.
  destruct (next_late dbg v BrMissingStartTime BrInvalidStartTime r Ho) as [(x & u & -> & Hx & Hu & Hd & Hl)|F].
  - left. split; [easy|]. left. destruct H as [->| ->]; [exists (lit "2"), x, u|exists (lit "Break"), x, u]; (split; [cbn; auto 20|]); (split; [joined|]); auto.
  - apply or_bind; [easy|]. intros r2 t H2. apply or_map. apply pbind_inv in H2 as (r1 & c & H1 & H2). apply context_inv in H1. apply comma_inv in H1 as ->.
    apply context_inv in H2. unfold map_run in H2. destruct (comma_field_type parse_i32 r1) as [r2' z| | |] eqn:E; try easy. destruct (time_in dbg v z) as [z'|[]|]; try easy. injection H2 as -> _.
    apply map_res_inv in E as (x & E & Hz). apply comma_field_inv in E as (-> & Hx & [->|(y & ->)]); [right; cbn; discriminate|].
    unfold preceded, pbind. rewrite comma_at. destruct (end_late dbg v BrInvalidEndTime y Ho) as [[Hd Hl]|F2]; [left|now right]. split; [easy|]. right.
    assert (Hi : i32_text x) by (exists z; now apply i32_accepts).
    destruct H as [->| ->]; [exists (lit "2"), x, y|exists (lit "Break"), x, y]; (split; [cbn; auto 20|]); (split; [joined|]); auto.
Qed.
Lemma late_kind l : late_event l -> exists h x u, l = h ++ 44 :: x ++ u /\ no_comma x = true /\ field_end u
  /\ (In h [lit "1"; lit "Video"; lit "2"; lit "Break"; lit "3"] /\ late_i32 x
      \/ In h [lit "2"; lit "Break"] /\ exists y, u = 44 :: y /\ i32_text x /\ late_i32 y).
Proof.
  intros [(h & x & r & Hh & -> & Hx & Hr & Hl)|(h & x & y & Hh & -> & Hx & Hi & Hl)].
  - exists h, x, r. split; [joined|]. auto.
  - exists h, x, (44 :: y). split; [joined|]. split; [easy|]. split; [right; eauto|]. right. split; [easy|]. eauto.
Qed.
Lemma event_stops dbg v l : old_version v = true -> dbg = true -> late_event l -> exists p, ev_from_line dbg v l = RPanic p.
Proof.
  intros Ho Hd H. apply late_kind in H as (h & x & u & -> & Hx & Hu & H). unfold ev_from_line.
  assert (V : forall a, (a = lit "1" \/ a = lit "Video") -> late_i32 x -> exists p, vid_from_str dbg v (a ++ 44 :: x ++ u) = RPanic p).
  { intros a Ha Hl. destruct (start_stops dbg v ViInvalidStartTime x u Ho Hx Hu Hd Hl) as [p Hp]. exists p. unfold vid_from_str, vid_parser. unfold pbind at 1.
    replace (alt _ _ (a ++ 44 :: x ++ u)) with (@POk vid_err bool (44 :: x ++ u) (match a with c :: _ => c =? 49 | [] => false end)) by (destruct Ha; subst a; reflexivity).
    unfold preceded at 1. unfold pbind. now rewrite comma_at, Hp. }
  assert (B : forall a, (a = lit "2" \/ a = lit "Break") -> (late_i32 x \/ exists y, u = 44 :: y /\ i32_text x /\ late_i32 y) ->
    exists p, brk_from_str dbg v (a ++ 44 :: x ++ u) = RPanic p).
  { intros a Ha Hl. unfold brk_from_str, brk_parser.
    assert (Q : alt (pmap (fun _ => true) (tag (lit "2"))) (context BrWrongEventType (pmap (fun _ => false) (tag (lit "Break")))) (a ++ 44 :: x ++ u)
      = POk (44 :: x ++ u) (match a with c :: _ => c =? 50 | [] => false end)) by (destruct Ha; subst a; reflexivity).
    unfold pbind at 1. rewrite Q. unfold preceded at 1. unfold pbind at 1. unfold pbind at 1. rewrite comma_at.
    destruct Hl as [Hl|(y & -> & (z & Hi) & Hl)].
    { destruct (start_stops dbg v BrInvalidStartTime x u Ho Hx Hu Hd Hl) as [p Hp]. exists p. now rewrite Hp. }
    apply i32_accepts in Hi. destruct (end_stops dbg v BrInvalidEndTime y Ho Hd Hl) as [p Hp].
    destruct (start_time_offset dbg v BrInvalidStartTime (x ++ 44 :: y)) as [r t|e|e|q] eqn:E.
    - exists p. assert (r = 44 :: y).
      { apply context_inv in E. unfold map_run in E. destruct (comma_field_type parse_i32 _) as [r' z'| | |] eqn:E'; try easy. destruct (time_in dbg v z') as [|[]|]; try easy. injection E as -> _.
        apply map_res_inv in E' as (x' & E' & _). rewrite field_at in E' by easy. now injection E' as <- _. }
      subst r. unfold pmap, preceded, pbind. now rewrite comma_at, Hp.
    - exfalso. unfold start_time_offset, context, map_run, comma_field_type, map_res in E. rewrite field_at, Hi in E by easy. destruct (time_in dbg v z) as [|[]|]; easy.
    - exfalso. unfold start_time_offset, context, map_run, comma_field_type, map_res in E. rewrite field_at, Hi in E by easy. destruct (time_in dbg v z) as [|[]|]; easy.
    - now exists q. }
  assert (T : late_i32 x -> exists p, ctr_from_str dbg v (lit "3" ++ 44 :: x ++ u) = RPanic p).
  { intros Hl. destruct (start_stops dbg v CtInvalidStartTime x u Ho Hx Hu Hd Hl) as [p Hp]. exists p. unfold ctr_from_str, ctr_parser. unfold pbind at 1. unfold preceded at 1. unfold pbind at 1.
    replace (pair _ _ (lit "3" ++ 44 :: x ++ u)) with (@POk ct_err (str * str) (x ++ u) (lit "3", lit ",")) by reflexivity. now rewrite Hp. }
  assert (KV : forall a, (a = lit "1" \/ a = lit "Video") -> forall w, ev_kind_parser (a ++ 44 :: w) = POk (a ++ 44 :: w) NkVideo) by (intros a [->| ->] w; reflexivity).
  assert (KB : forall a, (a = lit "2" \/ a = lit "Break") -> forall w, ev_kind_parser (a ++ 44 :: w) = POk (a ++ 44 :: w) NkBreak) by (intros a [->| ->] w; reflexivity).
  assert (KT : forall w, ev_kind_parser (lit "3" ++ 44 :: w) = POk (lit "3" ++ 44 :: w) NkColourTransformation) by reflexivity.
  destruct H as [[Hh Hl]|[Hh Hl]].
  - assert (Hh' : (h = lit "1" \/ h = lit "Video") \/ (h = lit "2" \/ h = lit "Break") \/ h = lit "3") by (cbn [In] in Hh; intuition).
    destruct Hh' as [Hh'|[Hh'| ->]].
    + rewrite (KV h Hh'). destruct (V h Hh' Hl) as [p ->]. now exists p.
    + rewrite (KB h Hh'). destruct (B h Hh' (or_introl Hl)) as [p ->]. now exists p.
    + rewrite KT. destruct (T Hl) as [p ->]. now exists p.
  - assert (Hh' : h = lit "2" \/ h = lit "Break") by (cbn [In] in Hh; intuition). rewrite (KB h Hh'). destruct (B h Hh' (or_intror Hl)) as [p ->]. now exists p.
Qed.
Lemma event_late dbg v s : old_version v = true ->
  (exists p, ev_from_line dbg v s = RPanic p) <-> (bad_number s \/ bad_loop_type s) \/ dbg = true /\ late_event s.
Proof.
  intros Ho. split.
  - intros [p H]. assert (N : ((exists q, ev_from_line dbg 5%Z s = RPanic q) <-> bad_number s \/ bad_loop_type s)) by now apply own_panic.
    assert (K : forall A B E F (f : A -> B) (g : E -> F) r, rmap2 f g r = RPanic p -> r = RPanic p) by (intros A B E F f g [[]| |]; cbn; congruence).
    assert (L : forall C A (q : parser C A), rmap Some (verbose_error_to_error (q s)) = RPanic p -> ~ fine (q s)).
    { intros C A q Hq Hf. apply fine_np with (x := p) in Hf. destruct (verbose_error_to_error (q s)); cbn in Hq; congruence. }
    unfold ev_from_line in H, N. destruct (ev_kind_parser s) as [r k|e|e|q]; [|left; apply N; eauto|left; apply N; eauto|left; apply N; eauto].
    destruct k; try (left; apply N; exists p; exact H).
    + right. apply K, L in H. now destruct (vid_late dbg v s Ho).
    + right. apply K, L in H. now destruct (brk_late dbg v s Ho).
    + right. apply K, L in H. now destruct (ctr_late dbg v s Ho).
  - intros [H|[Hd H]]; [|now apply event_stops].
    apply (own_panic dbg 5%Z s eq_refl) in H as [q H]. unfold ev_from_line in *. destruct (ev_kind_parser s) as [r k|e|e|]; try (eexists; exact H).
    assert (K : forall A B E F (f : A -> B) (g : E -> F) r, rmap2 f g r = RPanic q -> r = RPanic q) by (intros A B E F f g [[]| |]; cbn; congruence).
    destruct k; try (eexists; exact H); exfalso; apply K in H; revert H; apply vee_np; [now apply vid_safec|now apply brk_safec|now apply ctr_safec].
Qed.
Lemma late_plain l : late_event l -> is_blank l = false /\ strip_prefix (lit "//") l = None /\ indented l = false.
Proof.
  intros H. apply late_kind in H as (h & x & u & -> & _ & _ & H). rewrite is_blank_forallb.
  assert (Hh : In h [lit "1"; lit "Video"; lit "2"; lit "Break"; lit "3"]) by (destruct H as [[H _]|[H _]]; [exact H|cbn [In] in *; intuition]).
  cbn [In] in Hh. destruct Hh as [<-|[<-|[<-|[<-|[<-|[]]]]]]; repeat split.
Qed.
Lemma step_late dbg v evs s : old_version v = true -> is_blank s = false ->
  ((exists p, ev_step dbg v [] evs s = RPanic p) <-> stopped_at dbg evs s).
Proof.
  intros Ho Hb. assert (N := step_panic dbg 5%Z evs s eq_refl Hb). unfold stopped_at. unfold ev_step in *.
  destruct (strip_prefix (lit "//") s) as [c|] eqn:Es.
  { rewrite <- N. split; [now intros [p H]|]. intros [[p H]|[_ H]]; [easy|]. apply late_plain in H. destruct H as (_ & H & _). congruence. }
  rewrite indent_pos in *. destruct (indented s) eqn:Ei.
  { rewrite N. split; [now left|]. intros [H|[_ H]]; [easy|]. apply late_plain in H. destruct H as (_ & _ & H). congruence. }
  split.
  - intros [p H]. assert (Q : exists p, ev_from_line dbg v s = RPanic p) by (destruct (ev_from_line dbg v s) as [[]| |]; cbn in H; try easy; eauto).
    apply (event_late dbg v s Ho) in Q as [Q|Q]; [left|now right]. split; [|easy]. unfold bad_line. rewrite Ei. auto.
  - intros H. assert (Q : exists p, ev_from_line dbg v s = RPanic p).
    { apply (event_late dbg v s Ho). destruct H as [[(_ & _ & H) _]|H]; [left; now rewrite Ei in H|now right]. }
    destruct Q as [p ->]. now exists p.
Qed.
Lemma loop_late dbg v ls : old_version v = true -> forall i evs, (exists p, ev_loop dbg v [] i evs ls = RPanic p) <->
  exists a l b evs', ls = a ++ l :: b /\ ev_loop dbg v [] i evs a = ROk evs' /\ stopped_at dbg evs' l.
Proof.
  intros Ho i evs. split.
  - revert i evs. induction ls as [|l ls IH]; intros i evs [p H]; cbn [ev_loop] in H; [easy|]. destruct (is_blank l) eqn:Eb.
    + destruct (IH _ _ (ex_intro _ p H)) as (a & x & b & evs' & -> & H1 & H2). exists (l :: a), x, b, evs'. split; [easy|]. cbn [ev_loop]. now rewrite Eb.
    + destruct (ev_step dbg v [] evs l) as [evs1|e|q] eqn:E; [|easy|].
      * destruct (IH _ _ (ex_intro _ p H)) as (a & x & b & evs' & -> & H1 & H2). exists (l :: a), x, b, evs'. split; [easy|]. cbn [ev_loop]. now rewrite Eb, E.
      * exists [], l, ls, evs. split; [easy|]. split; [easy|]. apply (step_late dbg v evs l Ho Eb). eauto.
  - intros (a & l & b & evs' & -> & H1 & H2). rewrite loop_app, H1. cbn [ev_loop].
    assert (Hb : is_blank l = false) by (destruct H2 as [[(H & _) _]|[_ H]]; [easy|now apply late_plain in H]). rewrite Hb.
    apply (step_late dbg v evs' l Ho Hb) in H2 as [p ->]. now exists p.
Qed.
Lemma events_late dbg s v : old_version v = true -> (exists p, events_from_str dbg s v = RPanic p) <->
  exists a l b evs, lines s = a ++ l :: b /\ events_from_str dbg (crlf_text a) v = ROk (Some evs) /\ stopped_at dbg evs l.
Proof.
  intros Ho. unfold events_from_str, events_from_str_vars.
  assert (K : (exists p, rmap Some (ev_loop dbg v [] 0 [] (lines s)) = RPanic p) <-> exists p, ev_loop dbg v [] 0 [] (lines s) = RPanic p).
  { destruct (ev_loop dbg v [] 0 [] (lines s)) as [| |q]; cbn; split; intros [x H]; try easy; injection H as ->; now exists x. }
  rewrite K, (loop_late dbg v (lines s) Ho).
  split; intros (a & l & b & evs & E & H1 & H2); exists a, l, b, evs; (split; [easy|]); (split; [|easy]); rewrite (lines_start _ _ _ _ E) in *;
    destruct (ev_loop dbg v [] 0 [] a); cbn in *; congruence.
Qed.
