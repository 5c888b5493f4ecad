(** Proofs for C58. *)
From Coq Require Import String List NArith ZArith QArith Bool Relations Lia Field.
From Verif Require Import Str Num Dec Parsers General Editor Metadata Difficulty Colours TimingPoints HitObjects
  Storyboard NormalEvents Events Osb OsuFile Equal StrFacts SplitFacts SpecEqual.
Import ListNotations.
Local Open Scope N_scope.

(** * numbers *)
Lemma strip_value m sc : let (m', k) := strip_zeros m sc in
  (k <= sc)%nat /\ m = m' * 10 ^ N.of_nat (sc - k) /\ (k = O \/ m' mod 10 <> 0).
Proof.
  revert m. induction sc as [|n IH]; intros m; cbn [strip_zeros].
  - split; [lia|]. split; [cbn; lia|now left].
  - destruct (N.eqb_spec (m mod 10) 0) as [E|E].
    + specialize (IH (m / 10)). destruct (strip_zeros (m / 10) n) as [m' k]. destruct IH as (L & V & C).
      split; [lia|]. split; [|exact C].
      replace (N.of_nat (S n - k)) with (N.succ (N.of_nat (n - k))) by lia. rewrite N.pow_succ_r'.
      rewrite N.mul_comm, <- N.mul_assoc, (N.mul_comm _ m'), <- V.
      rewrite (N.div_mod m 10) at 1 by lia. rewrite E. lia.
    + split; [lia|]. split; [|now right]. rewrite Nat.sub_diag. cbn. lia.
Qed.
Lemma strip_zero sc : strip_zeros 0 sc = (0, O).
Proof. induction sc; [reflexivity|]. cbn [strip_zeros]. cbn. exact IHsc. Qed.

(** two numbers without zeros at the end *)
Lemma reduced_one m k n j : m * 10 ^ N.of_nat j = n * 10 ^ N.of_nat k ->
  (k = O \/ m mod 10 <> 0) -> (j = O \/ n mod 10 <> 0) -> m <> 0 -> m = n /\ k = j.
Proof.
  assert (P : forall m k n j, m * 10 ^ N.of_nat j = n * 10 ^ N.of_nat k -> (k < j)%nat -> (j = O \/ n mod 10 <> 0) -> False).
  { clear. intros m k n j E L C. destruct C as [C|C]; [lia|]. apply C.
    replace (N.of_nat j) with (N.of_nat k + N.succ (N.of_nat (j - k - 1))) in E by lia.
    rewrite N.pow_add_r, N.pow_succ_r' in E.
    assert (n = m * 10 ^ N.of_nat (j - k - 1) * 10).
    { apply (N.mul_cancel_r _ _ (10 ^ N.of_nat k)); [apply N.pow_nonzero; lia|]. rewrite <- E. ring. }
    subst n. apply N.mod_mul. lia. }
  intros E Cm Cn Z. assert (k = j) as ->.
  { destruct (Nat.lt_trichotomy k j) as [L|[L|L]]; [|exact L|].
    - exfalso. now apply (P m k n j).
    - exfalso. now apply (P n j m k). }
  split; [|reflexivity]. apply N.mul_cancel_r in E; [exact E|]. apply N.pow_nonzero. lia.
Qed.

Lemma signed_canon d : let c := canon_dec d in
  (signed_mant d * 10 ^ Z.of_nat (d_scale c) = signed_mant c * 10 ^ Z.of_nat (d_scale d))%Z.
Proof.
  destruct d as [neg m sc]. unfold canon_dec, signed_mant. cbn [d_neg d_mant d_scale].
  pose proof (strip_value m sc) as V. destruct (strip_zeros m sc) as [m' k] eqn:ES. cbn [d_neg d_mant d_scale].
  destruct V as (L & V & C).
  assert (Em : (Z.of_N m = Z.of_N m' * 10 ^ Z.of_nat (sc - k))%Z).
  { rewrite V, N2Z.inj_mul, N2Z.inj_pow. now rewrite nat_N_Z. }
  assert (Ep : (10 ^ Z.of_nat sc = 10 ^ Z.of_nat (sc - k) * 10 ^ Z.of_nat k)%Z).
  { rewrite <- Z.pow_add_r by lia. f_equal. lia. }
  rewrite Ep. destruct neg; cbn [andb].
  - destruct (N.eqb_spec m 0) as [->|N0]; cbn [negb].
    + rewrite strip_zero in ES. injection ES as <- <-. cbn. lia.
    + rewrite Em. ring.
  - rewrite Em. ring.
Qed.
Lemma pow_pos k : (0 < 10 ^ Z.of_nat k)%Z.
Proof. apply Z.pow_pos_nonneg; lia. Qed.
Lemma canon_dec_inv d : let c := canon_dec d in
  (d_scale c = O \/ d_mant c mod 10 <> 0) /\ (d_mant c = 0 -> d_neg c = false /\ d_scale c = O).
Proof.
  destruct d as [neg m sc]. unfold canon_dec. cbn [d_neg d_mant d_scale].
  pose proof (strip_value m sc) as V. destruct (strip_zeros m sc) as [m' k] eqn:ES. cbn [d_neg d_mant d_scale].
  destruct V as (L & V & C). split; [exact C|]. intros ->. rewrite N.mul_0_l in V. subst m. rewrite strip_zero in ES.
  injection ES as <-. now rewrite andb_false_r.
Qed.
Lemma rdec_eq_trans_like a b c d :
  (signed_mant a * 10 ^ Z.of_nat (d_scale c) = signed_mant c * 10 ^ Z.of_nat (d_scale a))%Z ->
  (signed_mant b * 10 ^ Z.of_nat (d_scale d) = signed_mant d * 10 ^ Z.of_nat (d_scale b))%Z ->
  (signed_mant a * 10 ^ Z.of_nat (d_scale b) = signed_mant b * 10 ^ Z.of_nat (d_scale a))%Z <->
  (signed_mant c * 10 ^ Z.of_nat (d_scale d) = signed_mant d * 10 ^ Z.of_nat (d_scale c))%Z.
Proof.
  pose proof (pow_pos (d_scale a)) as Pa. pose proof (pow_pos (d_scale b)) as Pb.
  pose proof (pow_pos (d_scale c)) as Pc. pose proof (pow_pos (d_scale d)) as Pd.
  generalize dependent (10 ^ Z.of_nat (d_scale a))%Z. generalize dependent (10 ^ Z.of_nat (d_scale b))%Z.
  generalize dependent (10 ^ Z.of_nat (d_scale c))%Z. generalize dependent (10 ^ Z.of_nat (d_scale d))%Z.
  generalize (signed_mant a) (signed_mant b) (signed_mant c) (signed_mant d). clear.
  intros a b c d pd Pd pc Pc pb Pb pa Pa Ha Hb. split; intros H.
  - apply (Z.mul_cancel_r _ _ (pa * pb)); [nia|].
    transitivity ((c * pa) * (pd * pb))%Z; [ring|]. rewrite <- Ha.
    transitivity ((a * pb) * (pc * pd))%Z; [ring|]. rewrite H.
    transitivity ((b * pd) * (pa * pc))%Z; [ring|]. rewrite Hb. ring.
  - apply (Z.mul_cancel_r _ _ (pc * pd)); [nia|].
    transitivity ((a * pc) * (pb * pd))%Z; [ring|]. rewrite Ha.
    transitivity ((c * pd) * (pa * pb))%Z; [ring|]. rewrite H.
    transitivity ((d * pb) * (pa * pc))%Z; [ring|]. rewrite <- Hb. ring.
Qed.
Lemma rdec_R a b : rdec_eq a b = true <-> canon_dec a = canon_dec b.
Proof.
  unfold rdec_eq. rewrite Z.eqb_eq.
  rewrite (rdec_eq_trans_like a b (canon_dec a) (canon_dec b) (signed_canon a) (signed_canon b)).
  pose proof (canon_dec_inv a) as [Ca Za]. pose proof (canon_dec_inv b) as [Cb Zb].
  destruct (canon_dec a) as [na ma sa], (canon_dec b) as [nb mb sb]. cbn [d_neg d_mant d_scale] in *.
  split; [|now intros [= -> -> ->]].
  unfold signed_mant. cbn [d_neg d_mant d_scale]. intros E.
  pose proof (pow_pos sa) as Pa. pose proof (pow_pos sb) as Pb.
  destruct (N.eq_dec ma 0) as [->|Na].
  - destruct (Za eq_refl) as [-> ->]. assert (mb = 0) as ->.
    { destruct nb; cbn in E; nia. }
    destruct (Zb eq_refl) as [-> ->]. reflexivity.
  - assert (Nb : mb <> 0) by (intros ->; destruct na, nb; cbn in E; nia).
    assert (na = nb) as ->.
    { destruct na, nb; try reflexivity; exfalso; nia. }
    assert (E' : ma * 10 ^ N.of_nat sb = mb * 10 ^ N.of_nat sa).
    { apply N2Z.inj. rewrite !N2Z.inj_mul, !N2Z.inj_pow, !nat_N_Z. destruct nb; cbn [Z.of_N] in *; lia. }
    destruct (reduced_one ma sa mb sb E' Ca Cb Na) as [-> ->]. reflexivity.
Qed.
Lemma rdec_value_eq a b : rdec_eq a b = true <-> (rdec_value a == rdec_value b)%Q.
Proof.
  unfold rdec_eq. rewrite Z.eqb_eq.
  assert (V : forall d, (rdec_value d == inject_Z (signed_mant d) / inject_Z (10 ^ Z.of_nat (d_scale d)))%Q).
  { intros d. unfold rdec_value, signed_mant. destruct (d_neg d); [rewrite inject_Z_opp|]; unfold Qdiv; apply Qmult_comp; try reflexivity.
    change (-1 # 1)%Q with (-(1))%Q. ring. }
  rewrite (V a), (V b).
  pose proof (pow_pos (d_scale a)) as Pa. pose proof (pow_pos (d_scale b)) as Pb.
  generalize dependent (10 ^ Z.of_nat (d_scale a))%Z. generalize dependent (10 ^ Z.of_nat (d_scale b))%Z.
  generalize (signed_mant a) (signed_mant b). clear. intros x y pb Pb pa Pa.
  assert (Qa : ~ (inject_Z pa == 0)%Q) by (unfold Qeq; cbn; lia).
  assert (Qb : ~ (inject_Z pb == 0)%Q) by (unfold Qeq; cbn; lia).
  split; intros H.
  - assert (K : (inject_Z x * inject_Z pb == inject_Z y * inject_Z pa)%Q).
    { rewrite <- !inject_Z_mult. now rewrite H. }
    transitivity (inject_Z x * inject_Z pb / (inject_Z pa * inject_Z pb))%Q; [field; split; assumption|].
    rewrite K. field. split; assumption.
  - assert (K : (inject_Z x * inject_Z pb == inject_Z y * inject_Z pa)%Q).
    { transitivity (inject_Z x / inject_Z pa * (inject_Z pa * inject_Z pb))%Q; [field; assumption|].
      rewrite H. field; assumption. }
    rewrite <- !inject_Z_mult in K. unfold Qeq in K. cbn in K. lia.
Qed.

(** * paths *)
Definition tail_text (l : list str) : str := concat (map (cons 47) l).
Lemma split_head x l : forallb (lacks 47) (x :: l) = true -> split_on 47 (x ++ tail_text l) = x :: l.
Proof.
  revert x. induction l as [|y l IH]; intros x H; cbn in H; apply andb_true_iff in H as [Hx H].
  - cbn. rewrite app_nil_r. now apply split_lacks.
  - change (tail_text (y :: l)) with (47 :: y ++ tail_text l). rewrite split_cons by exact Hx. f_equal. apply IH. exact H.
Qed.
Lemma split_form p : exists x l, forallb (lacks 47) (x :: l) = true /\ p = x ++ tail_text l.
Proof.
  pose proof (split_on_lacks 47 p) as H. pose proof (split_on_join 47 p) as J. pose proof (split_on_nonempty 47 p) as E.
  destruct (split_on 47 p) as [|x l]; [easy|]. exists x, l. split; [exact H|]. rewrite <- J. clear.
  revert x. induction l as [|y l IH]; intros x; cbn.
  - now rewrite app_nil_r.
  - change (x ++ [47] ++ join [47] (y :: l) = x ++ 47 :: y ++ tail_text l). rewrite IH. reflexivity.
Qed.
Lemma match47 {A} (c : N) (x y : A) : match c with 47 => x | _ => y end = if c =? 47 then x else y.
Proof. destruct c as [|p]; [reflexivity|]. do 6 (destruct p as [p|p|]; try reflexivity). Qed.
Lemma components_if p : components p =
  match p with
  | [] => []
  | c :: _ => if c =? 47 then [47] :: filter plain_component (split_on 47 p)
              else match split_on 47 p with
                   | x :: l => if str_eqb x [46] then [46] :: filter plain_component l else filter plain_component (x :: l)
                   | [] => []
                   end
  end.
Proof.
  destruct p as [|c r]; [reflexivity|]. unfold components.
  rewrite (match47 c ([47] :: filter plain_component (split_on 47 (c :: r)))). destruct (c =? 47); [reflexivity|].
  destruct (split_on 47 (c :: r)) as [|x l]; [reflexivity|]. destruct x as [|d x]; [reflexivity|].
  cbn [str_eqb]. destruct x as [|d' x].
  - destruct (N.eqb_spec d 46) as [->|N1]; [reflexivity|]. cbn [andb].
    destruct d as [|p]; [reflexivity|]. do 6 (destruct p as [p|p|]; try reflexivity). now destruct N1.
  - rewrite andb_false_r. destruct d as [|p]; [reflexivity|]. do 6 (destruct p as [p|p|]; try reflexivity).
Qed.
Definition kept (l : list str) : list str := filter plain_component l.
Lemma lacks_head c x : lacks 47 (c :: x) = true -> (c =? 47) = false /\ lacks 47 x = true.
Proof. cbn. intros H. apply andb_true_iff in H as [H K]. apply negb_true_iff in H. now split. Qed.
Lemma components_form x l : forallb (lacks 47) (x :: l) = true ->
  components (x ++ tail_text l)
  = match x with [] => match l with [] => [] | _ => [47] :: kept l end | _ => x :: kept l end.
Proof.
  intros H. rewrite components_if. rewrite split_head by exact H. destruct x as [|c x].
  - destruct l as [|y l]; reflexivity.
  - cbn [forallb] in H. apply andb_true_iff in H as [Hx _]. apply lacks_head in Hx as [Hc _].
    cbn [app]. rewrite Hc. destruct (str_eqb (c :: x) [46]) eqn:E.
    + apply str_eqb_eq in E. now rewrite E.
    + cbn [filter]. unfold plain_component at 1. rewrite E. reflexivity.
Qed.

Lemma sq_other c r : (c =? 47) = false -> squash (c :: r) = c :: squash r.
Proof. intros H. cbn [squash]. now rewrite H. Qed.
Lemma sq_slash r : squash (47 :: r) =
  match r with
  | [] => [47]
  | c :: r' => if c =? 47 then squash r
               else if c =? 46 then match r' with [] => [47] | d :: _ => if d =? 47 then squash r' else 47 :: squash r end
               else 47 :: squash r
  end.
Proof.
  destruct r as [|c r']; [reflexivity|].
  destruct (N.eqb_spec c 47) as [->|N1]; [reflexivity|].
  destruct (N.eqb_spec c 46) as [->|N2].
  - destruct r' as [|d r]; [reflexivity|]. destruct (N.eqb_spec d 47) as [->|N3]; [reflexivity|].
    cbn [squash]. change (47 =? 47) with true. cbv iota.
    destruct d as [|p]; [reflexivity|]. do 6 (destruct p as [p|p|]; try reflexivity). now destruct N3.
  - cbn [squash]. change (47 =? 47) with true. cbv iota.
    destruct c as [|p]; [reflexivity|]. do 6 (destruct p as [p|p|]; try reflexivity); [now destruct N1|now destruct N2].
Qed.
Lemma sq_app x s : lacks 47 x = true -> squash (x ++ s) = x ++ squash s.
Proof.
  induction x as [|c x IH]; intros H; [reflexivity|]. apply lacks_head in H as [Hc Hx]. cbn [app].
  rewrite sq_other by exact Hc. now rewrite IH.
Qed.
Definition ends_bare (l : list str) : bool := match rev l with [] => false | y :: _ => negb (plain_component y) end.
Lemma ends_bare_cons y z l : ends_bare (y :: z :: l) = ends_bare (z :: l).
Proof. unfold ends_bare. cbn [rev]. destruct (rev l ++ [z]) as [|a b] eqn:E; [now destruct (rev l)|]. reflexivity. Qed.
Lemma sq_tail l : forallb (lacks 47) l = true ->
  squash (tail_text l) = tail_text (kept l) ++ (if ends_bare l then [47] else []).
Proof.
  induction l as [|y l IH]; intros H; [reflexivity|]. cbn [forallb] in H. apply andb_true_iff in H as [Hy Hl].
  specialize (IH Hl). change (tail_text (y :: l)) with (47 :: y ++ tail_text l). cbn [kept filter].
  destruct (plain_component y) eqn:P.
  - change (tail_text (y :: filter plain_component l)) with (47 :: y ++ tail_text (kept l)).
    replace (ends_bare (y :: l)) with (ends_bare l)
      by (destruct l; [unfold ends_bare; cbn; now rewrite P|now rewrite ends_bare_cons]).
    cbn [app]. rewrite <- app_assoc, <- IH, <- (sq_app y _ Hy). rewrite sq_slash.
    destruct y as [|c y]; [discriminate P|]. cbn [app]. pose proof Hy as Hy'. apply lacks_head in Hy' as [Hc Hy'].
    rewrite Hc. destruct (N.eqb_spec c 46) as [->|]; [|reflexivity].
    destruct y as [|d y]; [discriminate P|]. cbn [app]. apply lacks_head in Hy' as [Hd _]. now rewrite Hd.
  - unfold plain_component in P. apply negb_false_iff, orb_true_iff in P.
    destruct l as [|z l].
    + destruct P as [P|P]; apply str_eqb_eq in P; subst y; reflexivity.
    + rewrite ends_bare_cons. fold (kept (z :: l)). rewrite <- IH.
      change (tail_text (z :: l)) with (47 :: z ++ tail_text l).
      destruct P as [P|P]; apply str_eqb_eq in P; subst y; reflexivity.
Qed.
Lemma cut_end_slash s : s <> [] -> cut_end (s ++ [47]) = s.
Proof.
  intros H. unfold cut_end. rewrite rev_app_distr. cbn [rev app]. destruct (rev s) as [|c r] eqn:E.
  - apply (f_equal (@rev _)) in E. rewrite rev_involutive in E. now rewrite E in H.
  - rewrite <- (rev_involutive s), E. reflexivity.
Qed.
Lemma cut_end_other s c : (c =? 47) = false -> cut_end (s ++ [c]) = s ++ [c].
Proof.
  intros H. unfold cut_end. rewrite rev_app_distr. cbn [rev app].
  destruct c as [|p]; [reflexivity|]. do 6 (destruct p as [p|p|]; try reflexivity). discriminate H.
Qed.
Lemma cut_end_lacks s x : lacks 47 x = true -> x <> [] -> cut_end (s ++ x) = s ++ x.
Proof.
  intros H N. destruct (exists_last N) as [x' [c ->]]. rewrite app_assoc. apply cut_end_other.
  unfold lacks in H. rewrite forallb_app in H. apply andb_true_iff in H as [_ H]. cbn in H.
  rewrite andb_true_r in H. now apply negb_true_iff in H.
Qed.
Lemma kept_plain l : forallb plain_component (kept l) = true.
Proof. unfold kept. apply forallb_forall. intros y H. now apply filter_In in H. Qed.
Lemma kept_lacks l : forallb (lacks 47) l = true -> forallb (lacks 47) (kept l) = true.
Proof. intros H. rewrite forallb_forall in *. intros y Hy. apply filter_In in Hy as [Hy _]. now apply H. Qed.
Lemma cut_tail x l (e : bool) : forallb (lacks 47) (x :: l) = true -> forallb plain_component l = true ->
  (x <> [] \/ l <> []) -> cut_end (x ++ tail_text l ++ (if e then [47] else [])) = x ++ tail_text l.
Proof.
  intros H P N. destruct e.
  - rewrite app_assoc. apply cut_end_slash. destruct x; [|discriminate]. destruct l; [now destruct N|discriminate].
  - rewrite app_nil_r. cbn [forallb] in H. apply andb_true_iff in H as [Hx Hl]. destruct l as [|y l'].
    + cbn. rewrite app_nil_r. apply (cut_end_lacks []); [exact Hx|]. now destruct N.
    + assert (L : y :: l' <> []) by discriminate. destruct (exists_last L) as [l0 [z E]]. rewrite E in *.
      rewrite forallb_app in Hl, P. apply andb_true_iff in Hl as [_ Hz]. apply andb_true_iff in P as [_ Pz].
      cbn in Hz, Pz. rewrite andb_true_r in Hz, Pz.
      unfold tail_text. rewrite map_app, concat_app. cbn [map concat]. rewrite app_nil_r.
      change (47 :: z) with ([47] ++ z). rewrite !app_assoc. apply cut_end_lacks; [exact Hz|].
      intros ->. discriminate Pz.
Qed.
Lemma canon_form x l : forallb (lacks 47) (x :: l) = true ->
  canon_path (x ++ tail_text l)
  = match x, l, kept l with
    | [], [], _ => []
    | [], _, [] => [47]
    | _, _, k => x ++ tail_text k
    end.
Proof.
  intros H. unfold canon_path. pose proof H as H'. cbn [forallb] in H'. apply andb_true_iff in H' as [Hx Hl].
  rewrite sq_app by exact Hx. rewrite sq_tail by exact Hl.
  assert (C : (x <> [] \/ kept l <> []) -> cut_end (x ++ tail_text (kept l) ++ (if ends_bare l then [47] else [])) = x ++ tail_text (kept l)).
  { apply cut_tail; [|apply kept_plain]. cbn [forallb]. now rewrite Hx, kept_lacks. }
  destruct x as [|c x].
  - destruct l as [|y l]; [reflexivity|]. destruct (kept (y :: l)) as [|z k] eqn:K.
    + cbn [app]. replace (ends_bare (y :: l)) with true; [reflexivity|]. unfold ends_bare.
      assert (L : y :: l <> []) by discriminate. destruct (exists_last L) as [l0 [z E]]. rewrite E in *.
      rewrite rev_app_distr. cbn [rev app]. unfold kept in K. rewrite filter_app in K. apply app_eq_nil in K as [_ K].
      cbn in K. now destruct (plain_component z).
    + apply C. right. discriminate.
  - rewrite C by (left; discriminate). now destruct (kept l).
Qed.
(** a canonical path from the components *)
Definition render (cs : list str) : str :=
  match cs with
  | [] => []
  | x :: k => if str_eqb x [47] then match k with [] => [47] | _ => tail_text k end else x ++ tail_text k
  end.
Lemma canon_render p : canon_path p = render (components p).
Proof.
  destruct (split_form p) as (x & l & H & ->). rewrite canon_form, components_form by exact H. destruct x as [|c x].
  - destruct l as [|y l]; [reflexivity|]. unfold render. now destruct (kept (y :: l)).
  - cbn [forallb] in H. apply andb_true_iff in H as [Hx _]. apply lacks_head in Hx as [Hc _].
    unfold render. cbn [str_eqb]. rewrite Hc. cbn [andb]. now destruct (kept l).
Qed.
Lemma tail_app l m : tail_text (l ++ m) = tail_text l ++ tail_text m.
Proof. unfold tail_text. now rewrite map_app, concat_app. Qed.
Lemma kept_app l m : kept (l ++ m) = kept l ++ kept m.
Proof. apply filter_app. Qed.
Lemma parts_eq x l m : forallb (lacks 47) (x :: l) = true -> forallb (lacks 47) (x :: m) = true ->
  kept l = kept m -> (x = [] -> (l = [] <-> m = [])) -> components (x ++ tail_text l) = components (x ++ tail_text m).
Proof.
  intros Hl Hm K N. rewrite !components_form by assumption. rewrite K. destruct x; [|reflexivity].
  specialize (N eq_refl). destruct l, m; try reflexivity; [now destruct N as [N _]; specialize (N eq_refl)|now destruct N as [_ N]; specialize (N eq_refl)].
Qed.
Lemma lacks_parts x l m : forallb (lacks 47) (x :: l) = true -> forallb (lacks 47) m = true ->
  forallb (lacks 47) (x :: l ++ m) = true.
Proof. cbn [forallb]. intros H K. apply andb_true_iff in H as [-> H]. now rewrite forallb_app, H, K. Qed.
Lemma respell_components p q : respell p q -> components p = components q.
Proof.
  intros H. destruct H as [a b|a b|a|a N].
  - destruct (split_form a) as (x & l & Ha & ->). destruct (split_form b) as (y & m & Hb & ->).
    replace ((x ++ tail_text l) ++ 47 :: 47 :: y ++ tail_text m) with (x ++ tail_text (l ++ [] :: y :: m))
      by now rewrite tail_app, <- app_assoc.
    replace ((x ++ tail_text l) ++ 47 :: y ++ tail_text m) with (x ++ tail_text (l ++ y :: m))
      by now rewrite tail_app, <- app_assoc.
    apply parts_eq; [apply lacks_parts; assumption|apply lacks_parts; assumption|now rewrite !kept_app|].
    intros _. split; intros E; apply app_eq_nil in E as [_ E]; discriminate E.
  - destruct (split_form a) as (x & l & Ha & ->). destruct (split_form b) as (y & m & Hb & ->).
    replace ((x ++ tail_text l) ++ 47 :: 46 :: 47 :: y ++ tail_text m) with (x ++ tail_text (l ++ [46] :: y :: m))
      by now rewrite tail_app, <- app_assoc.
    replace ((x ++ tail_text l) ++ 47 :: y ++ tail_text m) with (x ++ tail_text (l ++ y :: m))
      by now rewrite tail_app, <- app_assoc.
    apply parts_eq; [apply lacks_parts; assumption|apply lacks_parts; assumption|now rewrite !kept_app|].
    intros _. split; intros E; apply app_eq_nil in E as [_ E]; discriminate E.
  - destruct (split_form a) as (x & l & Ha & ->).
    replace ((x ++ tail_text l) ++ [47; 46]) with (x ++ tail_text (l ++ [[46]])) by now rewrite tail_app, <- app_assoc.
    replace ((x ++ tail_text l) ++ [47]) with (x ++ tail_text (l ++ [[]])) by now rewrite tail_app, <- app_assoc.
    apply parts_eq; [apply lacks_parts; [assumption|reflexivity]|apply lacks_parts; [assumption|reflexivity]|now rewrite !kept_app|].
    intros _. split; intros E; apply app_eq_nil in E as [_ E]; discriminate E.
  - destruct (split_form a) as (x & l & Ha & ->).
    replace ((x ++ tail_text l) ++ [47]) with (x ++ tail_text (l ++ [[]])) by now rewrite tail_app, <- app_assoc.
    apply parts_eq; [apply lacks_parts; [assumption|reflexivity]|assumption|rewrite kept_app; apply app_nil_r|].
    intros ->. split; intros E; [apply app_eq_nil in E as [_ E]; discriminate E|]. subst l. now destruct N.
Qed.
Lemma path_steps p q : respell p q -> same_path p q.
Proof. intros H. now apply rst_step. Qed.
Lemma same_tail l a : same_path (a ++ tail_text l) (a ++ tail_text (kept l) ++ (if ends_bare l then [47] else [])).
Proof.
  revert a. induction l as [|y l IH]; intros a.
  - cbn. apply rst_refl.
  - change (tail_text (y :: l)) with ((47 :: y) ++ tail_text l). cbn [kept filter].
    destruct (plain_component y) eqn:P.
    + replace (ends_bare (y :: l)) with (ends_bare l)
        by (destruct l; [unfold ends_bare; cbn; now rewrite P|now rewrite ends_bare_cons]).
      change (tail_text (y :: filter plain_component l)) with ((47 :: y) ++ tail_text (kept l)).
      rewrite <- app_assoc, !(app_assoc a). apply IH.
    + unfold plain_component in P. apply negb_false_iff, orb_true_iff in P. fold (kept l).
      destruct l as [|z l].
      * destruct P as [P|P]; apply str_eqb_eq in P; subst y; cbn; [apply rst_refl|apply path_steps; constructor].
      * rewrite ends_bare_cons. eapply rst_trans; [|apply IH].
        change (tail_text (z :: l)) with (47 :: z ++ tail_text l).
        destruct P as [P|P]; apply str_eqb_eq in P; subst y; cbn [app]; apply path_steps; constructor.
Qed.
Lemma canon_same p : same_path p (canon_path p).
Proof.
  destruct (split_form p) as (x & l & H & ->). rewrite canon_form by exact H.
  pose proof (same_tail l x) as S.
  assert (C : (x <> [] \/ kept l <> []) -> same_path (x ++ tail_text l) (x ++ tail_text (kept l))).
  { intros N. eapply rst_trans; [exact S|]. destruct (ends_bare l); [|rewrite app_nil_r; apply rst_refl].
    rewrite app_assoc. apply path_steps, rs_end. destruct x; [|discriminate]. destruct (kept l); [now destruct N|discriminate]. }
  destruct x as [|c x].
  - destruct l as [|y l]; [apply rst_refl|]. destruct (kept (y :: l)) as [|z k] eqn:K; [|apply C; right; discriminate].
    cbn [app] in S. revert S. replace (ends_bare (y :: l)) with true; [intros S; exact S|]. unfold ends_bare.
    assert (L : y :: l <> []) by discriminate. destruct (exists_last L) as [l0 [z E]]. rewrite E in *.
    rewrite rev_app_distr. cbn [rev app]. rewrite kept_app in K. apply app_eq_nil in K as [_ K].
    cbn in K. now destruct (plain_component z).
  - replace (match kept l with [] => _ | _ => _ end) with ((c :: x) ++ tail_text (kept l)) by now destruct (kept l).
    apply C. left. discriminate.
Qed.
Lemma list_eq_E {A} (eq : A -> A -> bool) : (forall a b, eq a b = true <-> a = b) -> forall a b, list_eq eq a b = true <-> a = b.
Proof.
  intros E. induction a as [|x a IH]; intros [|y b]; cbn; try easy. rewrite andb_true_iff, E, IH.
  split; [intros [-> ->]; reflexivity|intros [= -> ->]; now split].
Qed.
Lemma path_R p q : path_eq p q = true <-> canon_path p = canon_path q.
Proof.
  unfold path_eq. rewrite (list_eq_E _ str_eqb_eq). split; [intros E; now rewrite !canon_render, E|].
  intros E. assert (S : same_path p q).
  { eapply rst_trans; [apply canon_same|]. rewrite E. apply rst_sym, canon_same. }
  clear E. induction S as [? ? S| |? ? _ IH|? ? ? _ IH1 _ IH2]; [now apply respell_components|reflexivity|now symmetry|congruence].
Qed.
Lemma path_same p q : path_eq p q = true <-> same_path p q.
Proof.
  split.
  - intros E. apply path_R in E. eapply rst_trans; [apply canon_same|]. rewrite E. apply rst_sym, canon_same.
  - intros S. unfold path_eq. apply (list_eq_E _ str_eqb_eq).
    induction S as [? ? S| |? ? _ IH|? ? ? _ IH1 _ IH2]; [now apply respell_components|reflexivity|now symmetry|congruence].
Qed.
