(** With and without overflow checks (C70): proofs. *)
From Coq Require Import String List NArith ZArith Bool Lia.
From Verif Require Import Str Num Nom Dec Parsers General Editor Metadata Difficulty Colours TimingPoints HitObjects Storyboard
  NormalEvents Events Osb OsuFile SpecText SpecFile SpecTotal SpecEvents SpecParts SpecLate SpecPrint StrFacts NumFacts NomFacts LineFacts FieldFacts TpFacts
  EvPanic OldPanic Parts Edit SpecCut SpecMeans Means SpecTypes ContFacts PrintPanic.
Import ListNotations.
Local Open Scope N_scope.

(** The result with checks is the one without, or a panic for the reason [why]. *)
Definition same_or {A E} (why : Prop) (d r : res A E) : Prop := d = r \/ d = RPanic POverflow /\ why.
Definition psame {C A} (why : Prop) (p q : parser C A) : Prop := forall s, p s = q s \/ p s = PPanic POverflow /\ why.

Section Same.
  Context {C : Type} (why : Prop).
  Lemma psame_refl {A} (p : parser C A) : psame why p p.
  Proof. intros s. now left. Qed.
  Lemma psame_bind {A B} (p q : parser C A) (f g : A -> parser C B) : psame why p q -> (forall a, psame why (f a) (g a)) -> psame why (pbind p f) (pbind q g).
  Proof. intros H K s. unfold pbind. destruct (H s) as [->|[-> W]]; [|now right]. destruct (q s); try now left. apply K. Qed.
  Lemma psame_map {A B} (f : A -> B) (p q : parser C A) : psame why p q -> psame why (pmap f p) (pmap f q).
  Proof. intros H s. unfold pmap. destruct (H s) as [->|[-> W]]; [now left|now right]. Qed.
  Lemma psame_preceded {A B} (p : parser C A) (q q' : parser C B) : psame why q q' -> psame why (preceded p q) (preceded p q').
  Proof. intros H. apply psame_bind; [apply psame_refl|now intros]. Qed.
  Lemma psame_context {A} (c : C) (p q : parser C A) : psame why p q -> psame why (context c p) (context c q).
  Proof. intros H s. unfold context. destruct (H s) as [->|[-> W]]; [now left|now right]. Qed.
  Lemma psame_run {A B} (p : parser C A) (f g : A -> run B) : (forall a, same_or why (f a) (g a)) -> psame why (map_run p f) (map_run p g).
  Proof. intros H s. unfold map_run. destruct (p s) as [r a| | |]; try now left. destruct (H a) as [->|[-> W]]; [now left|now right]. Qed.
  Lemma psame_read {A B} (f : A -> B) (p q : parser C A) s : psame why p q -> same_or why (rmap f (verbose_error_to_error (p s))) (rmap f (verbose_error_to_error (q s))).
  Proof. intros H. destruct (H s) as [->|[-> W]]; [now left|]. right. now split. Qed.
End Same.
Lemma same_map {A B E} why (f : A -> B) (d r : res A E) : same_or why d r -> same_or why (rmap f d) (rmap f r).
Proof. intros [->|[-> W]]; [now left|now right]. Qed.
Lemma same_map_err {A E F} why (f : E -> F) (d r : res A E) : same_or why d r -> same_or why (rmap_err f d) (rmap_err f r).
Proof. intros [->|[-> W]]; [now left|now right]. Qed.
Lemma same_bind {A B E} why (d r : res A E) (f g : A -> res B E) : same_or why d r -> (forall a, same_or why (f a) (g a)) -> same_or why (rbind d f) (rbind r g).
Proof. intros [->|[-> W]] K; [|now right]. destruct r; [apply K|now left|now left]. Qed.
Lemma same_weak {A E} (P Q : Prop) (d r : res A E) : (P -> Q) -> same_or P d r -> same_or Q d r.
Proof. intros H [->|[-> W]]; [now left|right; auto]. Qed.

(** ** events *)
Lemma arith_same {E} z : same_or (in_i32 z = false) (@i32_arith E true z) (i32_arith false z).
Proof. unfold i32_arith. destruct (in_i32 z) eqn:K; [now left|now right]. Qed.
Lemma usize_same {E} z : same_or (in_usize z = false) (@usize_arith E true z) (usize_arith false z).
Proof. unfold usize_arith. destruct (in_usize z) eqn:K; [now left|now right]. Qed.
Lemma usize_any {E} z : same_or True (@usize_arith E true z) (usize_arith false z).
Proof. eapply same_weak; [|apply usize_same]. easy. Qed.
Lemma time_same v t : same_or (old_version v = true) (time_in true v t) (time_in false v t).
Proof. unfold time_in. destruct (old_version v) eqn:K; [|now left]. apply same_weak with (in_i32 (t + 24) = false); [easy|]. apply arith_same. Qed.
Lemma start_same {C} v (e : C) : psame (old_version v = true) (start_time_offset true v e) (start_time_offset false v e).
Proof. apply psame_context, psame_run. intros a. apply time_same. Qed.
Lemma end_same {C} v (e : C) : psame (old_version v = true) (end_time_rest true v e) (end_time_rest false v e).
Proof. apply psame_context, psame_run. intros a. apply time_same. Qed.
Lemma vid_same v s : same_or (old_version v = true) (vid_from_str true v s) (vid_from_str false v s).
Proof.
  apply psame_read. unfold vid_parser. apply psame_bind; [apply psame_refl|]. intros a. apply psame_bind; [apply psame_preceded, start_same|]. intros t. apply psame_refl.
Qed.
Lemma brk_same v s : same_or (old_version v = true) (brk_from_str true v s) (brk_from_str false v s).
Proof.
  apply psame_read. unfold brk_parser. apply psame_bind; [apply psame_refl|]. intros a. apply psame_bind; [apply psame_preceded, start_same|]. intros t.
  apply psame_map, psame_preceded, end_same.
Qed.
Lemma ctr_same v s : same_or (old_version v = true) (ctr_from_str true v s) (ctr_from_str false v s).
Proof. apply psame_read. unfold ctr_parser. apply psame_bind; [apply psame_preceded, start_same|]. intros t. apply psame_refl. Qed.
(** without checks these three never panic *)
Lemma time_free v a x : time_in false v a <> RPanic x.
Proof. unfold time_in, i32_add, i32_arith. destruct (old_version v); [|easy]. now destruct (in_i32 (a + 24)). Qed.
Lemma start_free {C} v (i : C) : safec (start_time_offset false v i).
Proof. apply context_safec, map_run_safe; [apply cf_safe, np_i32|]. intros a x. apply time_free. Qed.
Lemma end_free {C} v (i : C) : safec (end_time_rest false v i).
Proof. apply context_safec, map_run_safe; [apply consume_rest_type_safe, np_i32|]. intros a x. apply time_free. Qed.
Lemma vid_free v s x : vid_from_str false v s <> RPanic x.
Proof.
  apply vee_np. unfold vid_parser. apply pbind_safec.
  { apply alt_safec; [apply pmap_safe, tag_safe|apply nofail_pmap, nofail_tag|apply context_safec, pmap_safe, tag_safe]. }
  intros sh. apply pbind_safec; [apply preceded_safec; [apply context_safec, comma_safe|now apply start_free]|]. intros t.
  apply pmap_safec, preceded_safec; [apply context_safec, comma_safe|apply fnp_safec].
Qed.
Lemma brk_free v s x : brk_from_str false v s <> RPanic x.
Proof.
  apply vee_np. unfold brk_parser. apply pbind_safec.
  { apply alt_safec; [apply pmap_safe, tag_safe|apply nofail_pmap, nofail_tag|apply context_safec, pmap_safe, tag_safe]. }
  intros sh. apply pbind_safec; [apply preceded_safec; [apply context_safec, comma_safe|now apply start_free]|]. intros t.
  apply pmap_safec, preceded_safec; [apply context_safec, comma_safe|now apply end_free].
Qed.
Lemma ctr_free v s x : ctr_from_str false v s <> RPanic x.
Proof.
  apply vee_np. unfold ctr_parser.
  apply pbind_safec; [apply preceded_safec; [apply head_safec|now apply start_free]|]. intros t.
  apply pbind_safec; [apply field_c, cf_safe, np_u8|]. intros r.
  apply pbind_safec; [apply field_c, cf_safe, np_u8|]. intros g.
  apply pmap_safec, field_c. apply consume_rest_type_safe, np_u8.
Qed.
Definition too_late_line (v : version) (l : str) : Prop := old_version v = true /\ late_event l.
Lemma rmap2_free {A B E F} (f : A -> B) (g : E -> F) (r : res (option A) E) : (forall x, r <> RPanic x) -> forall x, rmap2 f g r <> RPanic x.
Proof. intros H x. unfold rmap2. destruct r; cbn; try easy. now elim (H p). Qed.
Lemma ev_line_same v l : same_or (too_late_line v l) (ev_from_line true v l) (ev_from_line false v l).
Proof.
  assert (G : same_or (old_version v = true) (ev_from_line true v l) (ev_from_line false v l)
    /\ ((exists x, ev_from_line false v l = RPanic x) -> ev_from_line true v l = ev_from_line false v l)).
  { unfold ev_from_line. destruct (ev_kind_parser l) as [r k| | |]; try (split; [now left|reflexivity]).
    destruct k; try (split; [now left|reflexivity]).
    - split; [apply same_map_err, same_map, vid_same|]. intros [x Hx]. elim (rmap2_free EVideo EvVideo (vid_from_str false v l) (vid_free v l) x). exact Hx.
    - split; [apply same_map_err, same_map, brk_same|]. intros [x Hx]. elim (rmap2_free EBreak EvBreak (brk_from_str false v l) (brk_free v l) x). exact Hx.
    - split; [apply same_map_err, same_map, ctr_same|]. intros [x Hx]. elim (rmap2_free EColourTransformation EvColourTransformation (ctr_from_str false v l) (ctr_free v l) x). exact Hx. }
  destruct G as [[G|[G Ho]] F]; [now left|]. assert (K : exists p, ev_from_line true v l = RPanic p) by now exists POverflow.
  apply (event_late true v l Ho) in K as [K|[_ K]]; [|right; now split]. left. apply F. apply (event_late false v l Ho). now left.
Qed.
Lemma ev_step_same v vs evs l : same_or (too_late_line v l) (ev_step true v vs evs l) (ev_step false v vs evs l).
Proof.
  unfold ev_step. destruct (strip_prefix (lit "//") l); [now left|]. destruct (Nat.ltb 0 (indent_of l)); [now left|]. apply same_map, ev_line_same.
Qed.
Lemma ev_loop_same v vs ls : forall i evs, same_or (old_version v = true /\ exists l, In l ls /\ late_event l) (ev_loop true v vs i evs ls) (ev_loop false v vs i evs ls).
Proof.
  induction ls as [|l ls IH]; intros i evs; cbn [ev_loop]; [now left|].
  assert (W : old_version v = true /\ (exists l, In l ls /\ late_event l) -> old_version v = true /\ exists l0, In l0 (l :: ls) /\ late_event l0).
  { intros (Ho & y & H & K). split; [easy|]. exists y. split; [now right|easy]. }
  destruct (is_blank l); [eapply same_weak; [exact W|apply IH]|].
  destruct (ev_step_same v vs evs l) as [->|[-> [Ho Hl]]].
  - destruct (ev_step false v vs evs l); [eapply same_weak; [exact W|apply IH]|now left|now left].
  - right. split; [easy|]. split; [easy|]. exists l. split; [now left|easy].
Qed.
Lemma events_same vs s v : same_or (old_version v = true /\ exists l, In l (lines s) /\ late_event l) (events_from_str_vars true vs s v) (events_from_str_vars false vs s v).
Proof. apply same_map, ev_loop_same. Qed.

(** ** files *)
Definition why_not (v : version) (cs : list chunk) : Prop :=
  (exists x, In x cs /\ ch_body x = [])
  \/ old_version v = true /\ exists x l, In x cs /\ ch_name x = lit "Events" /\ In l (lines (ch_body x)) /\ late_event l.
Lemma table_same v x :
  match named (osu_table true v) x, named (osu_table false v) x with
  | Some r, Some q => same_or (old_version v = true /\ ch_name x = lit "Events" /\ exists l, In l (lines (ch_body x)) /\ late_event l) (r (ch_body x)) (q (ch_body x))
  | None, None => True
  | _, _ => False
  end.
Proof.
  unfold named, osu_table. cbn [find fst]. repeat match goal with |- context [if str_eqb ?a ?b then _ else _] => destruct (str_eqb a b) eqn:?; cbn [option_map snd]; [first [now left|idtac]|] end; [|easy].
  apply str_eqb_eq in Heqb3. unfold can_be. destruct (events_same [] (ch_body x) v) as [K|[K [Ho K']]]; unfold events_from_str; rewrite K; [now left|]. right. now repeat split.
Qed.
Lemma sections_same v cs : forall n before,
  same_or (why_not v cs) (first_bad_section (osu_table true v) OsuDuplicateSections OsuUnknownSection true n before cs)
    (first_bad_section (osu_table false v) OsuDuplicateSections OsuUnknownSection false n before cs).
Proof.
  induction cs as [|x cs IH]; intros n before; cbn [first_bad_section]; [now left|].
  assert (W : why_not v cs -> why_not v (x :: cs)).
  { intros [(y & H & K)|(Ho & y & l & H & K)]; [left; exists y; split; [now right|easy]|right; split; [easy|]]. exists y, l. split; [now right|easy]. }
  destruct (seen x before); [now left|]. pose proof (table_same v x) as T.
  destruct (named (osu_table true v) x) as [r|], (named (osu_table false v) x) as [q|]; try easy; [|now left].
  destruct T as [->|[-> (Ho & En & l & Hl & K)]].
  - destruct (q (ch_body x)) as [a| |]; [|now left|now left]. cbn [andb]. destruct (is_empty (ch_body x)) eqn:Em.
    + right. split; [easy|]. left. exists x. split; [now left|]. now destruct (ch_body x).
    + eapply same_weak; [exact W|apply IH].
  - right. split; [easy|]. right. split; [easy|]. exists x, l. split; [now left|easy].
Qed.
Lemma osu_builds s v n cs : osu_parts s v n cs -> osu_from_str true s = osu_from_str false s \/ osu_from_str true s = RPanic POverflow /\ why_not v cs.
Proof.
  intros Hp. rewrite !(fun dbg => osu_parts_read dbg s v n cs Hp). unfold osu_reads.
  destruct (sections_same v cs n []) as [K|[K W]]; [|right; rewrite K; now split]. left.
  destruct (first_bad_section (osu_table true v) _ _ _ n [] cs) as [[]| |] eqn:Ed; rewrite <- K; [|reflexivity|reflexivity]. cbn [rmap]. f_equal.
  unfold osu_of. f_equal. unfold section_of. destruct (find _ cs) as [x|] eqn:Ef; [|reflexivity]. apply find_some in Ef as [Hin En]. apply str_eqb_eq in En.
  apply sections_none in Ed as (Hg & _ & _). rewrite Forall_forall in Hg. destruct (Hg x Hin) as (r & Hn & Hr & _).
  unfold events_from_str. destruct (events_same [] (ch_body x) v) as [->|[E1 _]]; [reflexivity|]. exfalso.
  unfold named, osu_table in Hn. rewrite En in Hn. cbn in Hn. injection Hn as <-. unfold can_be, events_from_str in Hr. rewrite E1 in Hr. discriminate Hr.
Qed.
Definition reason (v : version) (cs : list chunk) : Prop :=
  ends_empty cs
  \/ old_version v = true /\ exists x l, In x cs /\ ch_name x = lit "Events" /\ In l (lines (ch_body x)) /\ late_event l.
Lemma empty_last cs : inner_full cs -> (exists x, In x cs /\ ch_body x = []) -> ends_empty cs.
Proof.
  induction cs as [|y cs IH]; intros Hf (x & Hin & Hb); [easy|]. destruct cs as [|z cs].
  - destruct Hin as [<-|[]]. now exists [], y.
  - destruct Hf as [Hy Hf]. destruct Hin as [<-|Hin]; [easy|]. destruct IH as (a & w & E & K); [easy|now exists x|]. exists (y :: a), w. rewrite E. now split.
Qed.
Lemma osu_same s : osu_from_str true s = osu_from_str false s
  \/ osu_from_str true s = RPanic POverflow /\ exists v n cs, osu_parts s v n cs /\ reason v cs.
Proof.
  destruct (osu_cases s) as [H|[H|[(k & H)|(v & n & cs & Hp)]]].
  - left. now rewrite !(fun dbg => file_sound dbg s _ (fm_no_version dbg s H)).
  - left. now rewrite !(fun dbg => file_sound dbg s _ (fm_bad_version dbg s H)).
  - left. now rewrite !(fun dbg => file_sound dbg s _ (fm_stray dbg s k H)).
  - destruct (osu_builds s v n cs Hp) as [K|[K W]]; [now left|]. right. split; [easy|]. exists v, n, cs. split; [easy|]. destruct W as [W|W]; [left|now right].
    apply empty_last; [|easy]. destruct Hp as (ws & num & rest & pre & ls & _ & _ & _ & _ & _ & Hf & _). exact (falls_full _ _ Hf).
Qed.

(** ** storyboards *)
Lemma fourteen_old v : (v <? 14)%Z = false -> old_version v = false.
Proof. intros H. apply Z.ltb_ge in H. unfold old_version. apply andb_false_iff. right. apply Z.leb_gt. lia. Qed.
Lemma osb_loop_same v l : old_version v = false -> forall n p acc, osb_loop true v n p acc l = osb_loop false v n p acc l.
Proof.
  intros Ho. induction l as [|[[[w m] w2] b] l IH]; intros n p acc; cbn [osb_loop]; [easy|]. destruct (mem_str m p); [easy|].
  assert (E : forall vs, events_from_str_vars true vs b v = events_from_str_vars false vs b v).
  { intros vs. destruct (events_same vs b v) as [K|[_ [K _]]]; [easy|congruence]. }
  rewrite E. destruct (if str_eqb m (lit "Variables") then _ else _); cbn [rbind]; [apply IH|easy|easy].
Qed.
Lemma osb_same s v : osb_from_str true s v = osb_from_str false s v.
Proof.
  unfold osb_from_str. destruct (v <? 14)%Z eqn:K; [easy|]. apply fourteen_old in K. destruct (split_pre (lines s)) as [pre rest].
  destruct (unexpected_line 0 pre); [easy|]. destruct (many0 _ _); [|easy|easy|easy]. now rewrite osb_loop_same.
Qed.
Lemma append_same f s : append_osb true f s = append_osb false f s.
Proof. unfold append_osb. now rewrite osb_same. Qed.

(** ** printing *)
Definition early (v : version) (l : list Z) : Prop := old_version v = true /\ Exists (fun t => in_i32 (t - 24) = false) l.
Lemma time_out_same v t : same_or (early v [t]) (time_to_string true v t) (time_to_string false v t).
Proof.
  apply same_map. destruct (old_version v) eqn:K; [|now left]. apply same_weak with (in_i32 (t - 24) = false); [|apply arith_same]. intros H. split; [easy|now left].
Qed.
Lemma early_app1 v a b : early v a -> early v (a ++ b).
Proof. intros [H K]. split; [easy|]. apply Exists_app. now left. Qed.
Lemma early_app2 v a b : early v b -> early v (a ++ b).
Proof. intros [H K]. split; [easy|]. apply Exists_app. now right. Qed.
Lemma event_out_same v vs e : same_or (early v (event_times e)) (ev_to_string true v vs e) (ev_to_string false v vs e).
Proof.
  destruct e as [c|x|x|x|x|x|x|x|x|x]; try now left; cbn [ev_to_string event_times].
  - apply same_bind; [apply same_map, time_out_same|]. intros t. now left.
  - apply same_map. unfold brk_to_string. apply same_bind.
    + eapply same_weak; [apply (early_app1 v [br_start x] [br_end x])|apply time_out_same].
    + intros t. apply same_map. eapply same_weak; [apply (early_app2 v [br_start x] [br_end x])|apply time_out_same].
  - change (same_or (early v [ctr_start x]) (ctr_to_string true v x) (ctr_to_string false v x)). unfold ctr_to_string. destruct (v <? 14)%Z; [|now left]. apply same_map, time_out_same.
Qed.
Lemma list_out_same v vs l : same_or (early v (flat_map event_times l)) (run_list (map (ev_to_string true v vs) l)) (run_list (map (ev_to_string false v vs) l)).
Proof.
  induction l as [|e l IH]; cbn [map run_list flat_map]; [now left|]. apply same_bind.
  - eapply same_weak; [apply early_app1|apply event_out_same].
  - intros a. apply same_map. eapply same_weak; [apply early_app2|exact IH].
Qed.
Lemma print_same f : same_or (early (osu_version f) (clock_times f)) (osu_to_string true f) (osu_to_string false f).
Proof.
  unfold osu_to_string. apply same_bind; [|intros a; now left]. unfold clock_times, all_of. destruct (osu_events f) as [l|]; [|now left].
  cbn [run_opt]. apply same_map, list_out_same.
Qed.
Lemma osb_print_same o v : osb_to_string true o v = osb_to_string false o v.
Proof.
  unfold osb_to_string. destruct (v <? 14)%Z eqn:K; [easy|]. apply fourteen_old in K. destruct (osb_events o) as [es|]; [|easy].
  assert (E : events_to_string_vars true (match osb_variables o with Some vs => vs | None => [] end) es v
            = events_to_string_vars false (match osb_variables o with Some vs => vs | None => [] end) es v).
  { unfold events_to_string_vars. destruct (list_out_same v (match osb_variables o with Some vs => vs | None => [] end) es) as [-> |[_ [H _]]]; [easy|congruence]. }
  now rewrite E.
Qed.
Lemma checked_same s f : osu_from_str true s = ROk f -> osu_from_str false s = ROk f /\ osu_to_string true f = osu_to_string false f.
Proof.
  intros H. split; [destruct (osu_same s) as [K|[K _]]; congruence|]. destruct (print_same f) as [K|[K _]]; [easy|].
  destruct (read_print true s f H) as [t Ht]. congruence.
Qed.

(** ** lists of values *)
Lemma cont_push_same {T} (c : continuing T) f : same_or True (cont_push true c f) (cont_push false c f).
Proof. unfold cont_push. destruct (last_opt (ct_rest c)) as [[x [y|]]|]; try now left. apply same_bind; [|intros; now left]. eapply same_weak; [|apply usize_same]. easy. Qed.
Lemma cont_set_same {T} (c : continuing T) i f : same_or True (cont_set true c i f) (cont_set false c i f).
Proof. unfold cont_set. apply same_bind; [|intros; now left]. eapply same_weak; [|apply usize_same]. easy. Qed.
Lemma sbc_push_same c f : same_or True (sbc_push true c f) (sbc_push false c f).
Proof.
  unfold sbc_push. destruct (sbc_start c) as [[r g] b]. destruct (last_opt (sbc_rest c)) as [[[x [y|]] [z|]]|]; first [now left|(apply (same_bind True); [apply usize_any|intros; now left])].
Qed.
Lemma sbc_set_same c i f : same_or True (sbc_set true c i f) (sbc_set false c i f).
Proof. unfold sbc_set. destruct f as [[r g] b]. apply same_bind; [|intros; now left]. eapply same_weak; [|apply usize_same]. easy. Qed.
Lemma lists_same {T} :
  (forall (c : continuing T) f, len_ok (ct_rest c) -> cont_push true c f = cont_push false c f \/ exists x, ct_rest c = [(x, None)])
  /\ (forall (c : continuing T) i f, len_ok (ct_rest c) -> (0 <= i < 2 ^ 64)%Z -> cont_set true c i f = cont_set false c i f \/ ct_rest c = [])
  /\ (forall c f, len_ok (sbc_rest c) -> sbc_push true c f = sbc_push false c f \/ exists x, sbc_rest c = [x] /\ ~ full_rgb x)
  /\ (forall c i f, len_ok (sbc_rest c) -> (0 <= i < 2 ^ 64)%Z -> sbc_set true c i f = sbc_set false c i f \/ sbc_rest c = []).
Proof.
  repeat split.
  - intros c f L. destruct (cont_push_same c f) as [K|[K _]]; [now left|]. right. apply (cont_push_panics true c f POverflow L) in K. apply K.
  - intros c i f L Hi. destruct (cont_set_same c i f) as [K|[K _]]; [now left|]. right. pose proof (cont_set_spec true c i f L Hi) as S. rewrite K in S. apply S.
  - intros c f L. destruct (sbc_push_same c f) as [K|[K _]]; [now left|]. right. apply (sbc_push_panics true c f POverflow L) in K. apply K.
  - intros c i f L Hi. destruct (sbc_set_same c i f) as [K|[K _]]; [now left|]. right. pose proof (sbc_set_spec true c i f L Hi) as S. rewrite K in S. apply S.
Qed.
