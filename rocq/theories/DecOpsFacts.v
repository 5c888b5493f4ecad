(** Multiplication and division of decimals (C65): proofs about the mantissas. *)
From Coq Require Import String List NArith ZArith Bool Lia.
From Verif Require Import Str Num Nom Dec DecOps.
Import ListNotations.
Local Open Scope N_scope.

Notation p10 k := (10 ^ N.of_nat k).
Lemma p10_pos k : 0 < p10 k.
Proof. apply N.neq_0_lt_0. apply N.pow_nonzero. discriminate. Qed.
Lemma p10_add a b : p10 (a + b) = p10 a * p10 b.
Proof. rewrite Nnat.Nat2N.inj_add. apply N.pow_add_r. Qed.
Lemma p10_S a : p10 (S a) = 10 * p10 a.
Proof. rewrite Nnat.Nat2N.inj_succ. apply N.pow_succ_r'. Qed.

(** [m] at a scale is [v / d], rounded half to even. *)
Definition half_even_of (v d m : N) : Prop :=
  2 * (m * d) <= 2 * v + d /\ 2 * v <= 2 * (m * d) + d
  /\ (2 * (m * d) = 2 * v + d \/ 2 * v = 2 * (m * d) + d -> N.even m = true).
Lemma half_even_exact v d m : m * d = v -> d <> 0 -> half_even_of v d m.
Proof. intros <- H. split; [lia|]. split; [lia|]. intros [K|K]; lia. Qed.
Lemma half_even_scale v d m k : half_even_of v d m -> k <> 0 -> half_even_of (v * k) (d * k) m.
Proof.
  intros (H1 & H2 & H3) Hk. assert (K : 0 < k) by lia. split; [nia|]. split; [nia|]. intros [E|E]; apply H3.
  - left. apply (N.mul_cancel_r _ _ k Hk). lia.
  - right. apply (N.mul_cancel_r _ _ k Hk). lia.
Qed.
Lemma div_half_even_of n k : half_even_of n (p10 k) (div_half_even n k).
Proof.
  unfold div_half_even. pose proof (p10_pos k) as P. generalize dependent (p10 k). intros p P.
  pose proof (N.div_mod n p ltac:(lia)) as D. pose proof (N.mod_lt n p ltac:(lia)) as L. generalize dependent (n / p). generalize dependent (n mod p). intros r L q ->.
  destruct (N.compare_spec (2 * r) p) as [E|E|E].
  - destruct (N.even q) eqn:K; (split; [nia|]); (split; [nia|]); intros [F|F]; try assumption.
    + replace (q + 1) with (N.succ q) by lia. rewrite N.even_succ, <- N.negb_even, K. reflexivity.
    + nia.
  - split; [nia|]. split; [nia|]. intros [F|F]; nia.
  - split; [nia|]. split; [nia|]. intros [F|F]; nia.
Qed.
(** what does not fit is near or above [2 ^ 96] *)
Lemma half_even_big v d m : half_even_of v d m -> two96 <= m -> (2 * two96 - 1) * d <= 2 * v.
Proof. intros (H1 & _) H. assert (two96 * d <= m * d) by nia. nia. Qed.
Lemma half_even_small v d m : half_even_of v d m -> d <> 0 -> m < two96 -> 2 * v < (2 * two96 - 1) * d.
Proof.
  intros (_ & H & K) Hd Hm. assert (L : m * d <= (two96 - 1) * d) by nia.
  destruct (N.eq_dec (2 * v) (2 * (m * d) + d)) as [E|E]; [|nia]. specialize (K (or_intror E)).
  assert (m <> two96 - 1) by (intros ->; discriminate K). nia.
Qed.

(** ** multiplication *)
Lemma fit_spec2 f : forall k m sc r sc', fit f k m sc = Some (r, sc') ->
  exists j, (k <= j <= k + f)%nat /\ sc' = (sc - j)%nat /\ half_even_of m (p10 j) r /\ r < two96
  /\ (j = k \/ (2 * two96 - 1) * p10 (j - 1) <= 2 * m).
Proof.
  induction f as [|f IH]; intros k m sc r sc' H; cbn [fit] in H.
  all: set (m' := if Nat.eqb k 0 then m else div_half_even m k) in *.
  all: assert (Hm : half_even_of m (p10 k) m')
    by (unfold m'; destruct (Nat.eqb_spec k 0) as [->|]; [apply half_even_exact; [cbn; lia|discriminate]|apply div_half_even_of]).
  all: destruct (m' <? two96) eqn:E.
  - injection H as <- <-. apply N.ltb_lt in E. exists k. repeat (split; [lia || easy|]). now left.
  - discriminate.
  - injection H as <- <-. apply N.ltb_lt in E. exists k. repeat (split; [lia || easy|]). now left.
  - apply N.ltb_ge in E. destruct (IH _ _ _ _ _ H) as (j & H1 & H2 & H3 & H4 & H5). exists j. split; [lia|]. split; [easy|]. split; [easy|]. split; [easy|]. right.
    destruct H5 as [->|H5]; [|easy]. replace (S k - 1)%nat with k by lia. exact (half_even_big _ _ _ Hm E).
Qed.
Lemma fit_none f : forall k m sc, fit f k m sc = None -> (2 * two96 - 1) * p10 (k + f) <= 2 * m.
Proof.
  induction f as [|f IH]; intros k m sc H; cbn [fit] in H.
  all: set (m' := if Nat.eqb k 0 then m else div_half_even m k) in *.
  all: assert (Hm : half_even_of m (p10 k) m')
    by (unfold m'; destruct (Nat.eqb_spec k 0) as [->|]; [apply half_even_exact; [cbn; lia|discriminate]|apply div_half_even_of]).
  all: destruct (m' <? two96) eqn:E; [discriminate|]; apply N.ltb_ge in E.
  - replace (k + 0)%nat with k by lia. exact (half_even_big _ _ _ Hm E).
  - replace (k + S f)%nat with (S k + f)%nat by lia. exact (IH _ _ _ H).
Qed.

(** ** division *)
Section Div.
  Context {E : Type}.
  Variables A d : N.
  Variable sc0 : Z.
  Hypothesis A_ok : A < two96.
  Hypothesis d_ok : 0 < d.
  (** the quotient and the remainder at a scale *)
  Definition div_state (q r : N) (scale : Z) : Prop :=
    (sc0 <= scale <= 28)%Z /\ r < d /\ q < two96 /\ q * d + r = A * p10 (Z.to_nat (scale - sc0)).
  (** what comes out *)
  Definition div_done (m : N) (s : Z) : Prop :=
    (sc0 <= s <= 28)%Z /\ (0 <= s)%Z /\ m < two96
    /\ let v := A * p10 (Z.to_nat (s - sc0)) in
       half_even_of v d m /\ (m * d = v \/ s = 28%Z \/ (2 * two96 - 1) * d <= 20 * v).
  Definition div_over : Prop := (sc0 <= 0)%Z /\ (2 * two96 - 1) * d <= 2 * (A * p10 (Z.to_nat (- sc0))).
  Lemma over_at q scale v k : (sc0 <= scale)%Z -> (scale + Z.of_nat k <= 0)%Z -> v = A * p10 (Z.to_nat (scale - sc0)) -> q * d <= v -> two96 <= q * p10 k -> div_over.
  Proof.
    intros H1 H2 -> H3 H4. split; [lia|].
    replace (Z.to_nat (- sc0)) with (Z.to_nat (scale - sc0) + (k + Z.to_nat (- scale - Z.of_nat k)))%nat by lia. rewrite !p10_add.
    set (v := A * p10 (Z.to_nat (scale - sc0))) in *. pose proof (p10_pos (Z.to_nat (- scale - Z.of_nat k))) as P. set (x := p10 (Z.to_nat (- scale - Z.of_nat k))) in *.
    replace (A * (p10 (Z.to_nat (scale - sc0)) * (p10 k * x))) with (v * p10 k * x) by (unfold v; lia).
    assert (two96 * d <= v * p10 k) by nia. assert (v * p10 k * 1 <= v * p10 k * x) by (apply N.mul_le_mono_l; lia). lia.
  Qed.
  Lemma odd_even_succ m : N.odd m = true -> N.even (m + 1) = true.
  Proof. intros H. replace (m + 1) with (N.succ m) by lia. now rewrite N.even_succ. Qed.
  Lemma unscale_good q r s : (sc0 < s <= 28)%Z -> r < d -> two96 <= q -> q < 2 * two96 -> q * d + r = A * p10 (Z.to_nat (s - sc0)) ->
    match unscale_from_overflow q s (negb (r =? 0)) with
    | Some (m, s') => div_done m s'
    | None => div_over
    end.
  Proof.
    intros Hs Hr Hq Hq2 Hv. unfold unscale_from_overflow. destruct (Z.ltb_spec s 1).
    - eapply (over_at q s _ 0); [lia|lia|exact Hv|lia|cbn; lia].
    - pose proof (N.div_mod q 10 ltac:(lia)) as D. pose proof (N.mod_lt q 10 ltac:(lia)) as L. set (m := q / 10) in *. set (t := q mod 10) in *. clearbody m t.
      replace (Z.to_nat (s - sc0)) with (S (Z.to_nat (s - 1 - sc0))) in Hv by lia. rewrite p10_S in Hv. set (v := A * p10 (Z.to_nat (s - 1 - sc0))).
      assert (Hv' : q * d + r = 10 * v) by (unfold v; lia). clear Hv.
      split; [lia|]. split; [lia|]. fold v.
      assert (Big : (2 * two96 - 1) * d <= 20 * v) by nia.
      destruct (N.ltb_spec 5 t) as [K|K]; cbn [orb].
      + split; [lia|]. split; [|now right; right]. split; [nia|]. split; [nia|]. intros [F|F]; nia.
      + destruct (N.eqb_spec t 5) as [->|K2]; cbn [andb].
        * destruct (N.eqb_spec r 0) as [->|K3]; cbn [negb orb].
          -- destruct (N.odd m) eqn:Eo.
             ++ split; [lia|]. split; [|now right; right]. split; [nia|]. split; [nia|]. intros _. now apply odd_even_succ.
             ++ split; [lia|]. split; [|now right; right]. split; [nia|]. split; [nia|]. intros _. now rewrite <- N.negb_odd, Eo.
          -- split; [lia|]. split; [|now right; right]. split; [nia|]. split; [nia|]. intros [F|F]; nia.
        * split; [lia|]. split; [|now right; right]. split; [nia|]. split; [nia|]. intros [F|F]; nia.
  Qed.
  (** the outcome of the loop *)
  Definition div_good (x : res (N * Z * bool) E) : Prop :=
    match x with
    | ROk (m, s, _) => div_done m s
    | RErr _ => False
    | RPanic p => p = PDecimal /\ div_over
    end.
  Lemma lift_good un x : match x with Some (m, s) => div_done m s | None => div_over end -> div_good (lift_div un x).
  Proof. destruct x as [[m s]|]; cbn; easy. Qed.
  Lemma find_scale_spec q scale : q < two96 -> (scale <= 28)%Z ->
    match find_scale q scale with
    | Some x => (x <= 9)%nat /\ (Z.of_nat x <= 28 - scale)%Z /\ q * p10 x < two96 /\ (x = 9%nat \/ (0 <= Z.of_nat x + scale)%Z /\ (Z.of_nat x = (28 - scale)%Z \/ two96 <= q * p10 (S x)))
    | None => exists x, (Z.of_nat x + scale < 0)%Z /\ two96 <= q * p10 (S x)
    end.
  Proof.
    intros Hq Hs. unfold find_scale. cbn [find].
    destruct ((Z.of_nat 9 <=? 28 - scale)%Z && (q * p10 9 <? two96)) eqn:E9.
    { apply andb_true_iff in E9 as [Ea Eb]. apply Z.leb_le in Ea. apply N.ltb_lt in Eb. cbn [Nat.eqb negb andb]. split; [lia|]. split; [exact Ea|]. split; [exact Eb|]. now left. }
    assert (G : forall x, ((Z.of_nat (S x) <=? 28 - scale)%Z && (q * p10 (S x) <? two96)) = false -> ((Z.of_nat x <=? 28 - scale)%Z && (q * p10 x <? two96)) = true -> (x < 9)%nat ->
      match (if negb (Nat.eqb x 9) && (Z.of_nat x + scale <? 0)%Z then None else Some x) with
      | Some x => (x <= 9)%nat /\ (Z.of_nat x <= 28 - scale)%Z /\ q * p10 x < two96 /\ (x = 9%nat \/ (0 <= Z.of_nat x + scale)%Z /\ (Z.of_nat x = (28 - scale)%Z \/ two96 <= q * p10 (S x)))
      | None => exists x, (Z.of_nat x + scale < 0)%Z /\ two96 <= q * p10 (S x)
      end).
    { intros x H1 H2 H3. apply andb_true_iff in H2 as [H2 H4]. apply Z.leb_le in H2. apply N.ltb_lt in H4. apply andb_false_iff in H1. rewrite Z.leb_gt, N.ltb_ge in H1.
      assert (H5 : Nat.eqb x 9 = false) by (apply Nat.eqb_neq; lia). rewrite H5. cbn [negb andb]. destruct (Z.ltb_spec (Z.of_nat x + scale) 0) as [L|L].
      - exists x. split; [exact L|]. destruct H1; [lia|easy].
      - split; [lia|]. split; [exact H2|]. split; [exact H4|]. right. split; [exact L|]. destruct H1; [left; lia|now right]. }
    destruct ((Z.of_nat 8 <=? 28 - scale)%Z && (q * p10 8 <? two96)) eqn:E8; [apply (G 8%nat); [assumption|assumption|lia]|].
    destruct ((Z.of_nat 7 <=? 28 - scale)%Z && (q * p10 7 <? two96)) eqn:E7; [apply (G 7%nat); [assumption|assumption|lia]|].
    destruct ((Z.of_nat 6 <=? 28 - scale)%Z && (q * p10 6 <? two96)) eqn:E6; [apply (G 6%nat); [assumption|assumption|lia]|].
    destruct ((Z.of_nat 5 <=? 28 - scale)%Z && (q * p10 5 <? two96)) eqn:E5; [apply (G 5%nat); [assumption|assumption|lia]|].
    destruct ((Z.of_nat 4 <=? 28 - scale)%Z && (q * p10 4 <? two96)) eqn:E4; [apply (G 4%nat); [assumption|assumption|lia]|].
    destruct ((Z.of_nat 3 <=? 28 - scale)%Z && (q * p10 3 <? two96)) eqn:E3; [apply (G 3%nat); [assumption|assumption|lia]|].
    destruct ((Z.of_nat 2 <=? 28 - scale)%Z && (q * p10 2 <? two96)) eqn:E2; [apply (G 2%nat); [assumption|assumption|lia]|].
    destruct ((Z.of_nat 1 <=? 28 - scale)%Z && (q * p10 1 <? two96)) eqn:E1; [apply (G 1%nat); [assumption|assumption|lia]|].
    destruct ((Z.of_nat 0 <=? 28 - scale)%Z && (q * p10 0 <? two96)) eqn:E0; [apply (G 0%nat); [assumption|assumption|lia]|].
    apply andb_false_iff in E0. rewrite Z.leb_gt, N.ltb_ge in E0. change (p10 0) with 1 in E0. destruct E0; lia.
  Qed.
  Lemma round_up_good q r scale : div_state q r scale -> d <= 2 * r -> (2 * r = d -> N.odd q = true) -> (0 <= scale)%Z -> (scale = 28%Z \/ two96 <= 10 * q) ->
    match round_up q scale with Some (m, s) => div_done m s | None => div_over end.
  Proof.
    intros (Hs & Hr & Hq & Hv) H2 Ho H0 Hb. unfold round_up. destruct (N.ltb_spec (q + 1) two96) as [L|L].
    - split; [lia|]. split; [lia|]. split; [exact L|]. cbv zeta. rewrite <- Hv. split.
      + split; [nia|]. split; [nia|]. intros [F|F]; [|nia]. apply odd_even_succ, Ho. nia.
      + right. destruct Hb; [now left|right]. nia.
    - assert (Q : q = two96 - 1) by lia. assert (Q1 : q + 1 = two96) by (rewrite Q; reflexivity). rewrite Q1. unfold unscale_from_overflow.
      destruct (Z.ltb_spec scale 1) as [Z1|Z1].
      + split; [lia|]. replace (- sc0)%Z with (scale - sc0)%Z by lia. rewrite <- Hv. nia.
      + change (two96 mod 10) with 6. change (5 <? 6) with true. cbn [orb].
        assert (D : scale <> sc0). { intros ->. rewrite Z.sub_diag in Hv. change (p10 (Z.to_nat 0)) with 1 in Hv. nia. }
        replace (Z.to_nat (scale - sc0)) with (S (Z.to_nat (scale - 1 - sc0))) in Hv by lia. rewrite p10_S in Hv. set (v := A * p10 (Z.to_nat (scale - 1 - sc0))).
        assert (Hv' : q * d + r = 10 * v) by (unfold v; lia). clear Hv.
        split; [lia|]. split; [lia|]. split; [reflexivity|]. cbv zeta. fold v.
        assert (M : 10 * (two96 / 10 + 1) = two96 + 4) by reflexivity. set (m := two96 / 10 + 1) in *. clearbody m.
        assert (T : 10 * (m * d) = (two96 + 4) * d) by nia. rewrite <- Q1 in T. assert (V : 20 * v = 2 * (q * d) + 2 * r) by lia. rewrite <- Q1.
        replace ((q + 1 + 4) * d) with (q * d + 5 * d) in T by lia. replace ((2 * (q + 1) - 1) * d) with (2 * (q * d) + d) by lia.
        unfold half_even_of. generalize dependent (m * d). generalize dependent (q * d). intros qd ? ? md ?.
        split; [|right; right; lia]. split; [lia|]. split; [lia|]. intros [F|F]; lia.
  Qed.
  Lemma div_loop_good fuel : forall q r scale un, div_state q r scale -> (28 - scale < Z.of_nat fuel)%Z -> div_good (div_loop fuel d q r scale un).
  Proof.
    induction fuel as [|fuel IH]; intros q r scale un I F; [destruct I; lia|].
    cbn [div_loop]. pose proof I as (Hs & Hr & Hq & Hv).
    destruct (N.eqb_spec r 0) as [R0|R0].
    - destruct (Z.leb_spec 0 scale) as [Z0|Z0].
      + cbn [div_good]. split; [lia|]. split; [lia|]. split; [exact Hq|]. cbv zeta. assert (X : q * d = A * p10 (Z.to_nat (scale - sc0))) by lia. split; [|now left].
        apply half_even_exact; [exact X|lia].
      + set (p := Nat.min 9 (Z.to_nat (- scale))). assert (P : (1 <= p)%nat /\ (scale + Z.of_nat p <= 0)%Z) by lia.
        destruct (N.leb_spec two96 (q * p10 p)) as [L|L].
        * split; [reflexivity|]. eapply (over_at q scale _ p); [lia|lia|exact Hv|lia|exact L].
        * rewrite R0, N.mul_0_l. rewrite N.div_0_l, N.mod_0_l by lia. rewrite N.add_0_r.
          destruct (N.leb_spec two96 (q * p10 p)) as [L'|_]; [lia|]. apply IH; [|lia]. split; [lia|]. split; [lia|]. split; [lia|].
          replace (Z.to_nat (scale + Z.of_nat p - sc0)) with (Z.to_nat (scale - sc0) + p)%nat by lia. rewrite p10_add. rewrite N.mul_assoc, <- Hv, R0. lia.
    - assert (Fs := find_scale_spec q scale Hq (proj2 Hs)).
      assert (Round : (0 <= scale)%Z -> (scale = 28%Z \/ two96 <= 10 * q) ->
         div_good match 2 * r ?= d with Eq => if N.odd q then lift_div true (round_up q scale) else ROk (q, scale, true) | Lt => ROk (q, scale, true) | Gt => lift_div true (round_up q scale) end).
      { intros Z0 Hb. assert (Low : 2 * r <= d -> (2 * r = d -> N.odd q = false) -> div_done q scale).
        { intros L Ho. split; [lia|]. split; [lia|]. split; [exact Hq|]. cbv zeta. rewrite <- Hv. split.
          - split; [nia|]. split; [nia|]. intros [G|G]; [nia|]. rewrite <- N.negb_odd, Ho; [reflexivity|nia].
          - right. destruct Hb; [now left|right]. nia. }
        destruct (N.compare_spec (2 * r) d) as [C|C|C].
        - destruct (N.odd q) eqn:Eo.
          + apply lift_good, (round_up_good q r); [exact I|lia|easy|easy|easy].
          + apply Low; [lia|easy].
        - apply Low; lia.
        - apply lift_good, (round_up_good q r); [exact I|lia|lia|easy|easy]. }
      destruct (Z.eqb_spec scale 28) as [S28|S28]; [apply Round; [lia|now left]|].
      destruct (find_scale q scale) as [[|p']|] eqn:Ef.
      + destruct Fs as (_ & F1 & F2 & F3). destruct F3 as [F3|[F3 F4]]; [discriminate|]. apply Round; [lia|]. right. destruct F4 as [F4|F4]; [lia|]. change (p10 1) with 10 in F4. lia.
      + destruct Fs as (F0 & F1 & F2 & _). set (p := S p') in *. cbv zeta.
        destruct (N.leb_spec two96 (q * p10 p)) as [L|_]; [lia|].
        pose proof (p10_pos p) as P. pose proof (N.div_mod (r * p10 p) d ltac:(lia)) as D. pose proof (N.mod_lt (r * p10 p) d ltac:(lia)) as L.
        assert (B : r * p10 p / d < p10 p) by (apply N.div_lt_upper_bound; [lia|nia]).
        assert (Hp : p10 p <= two96). { apply N.le_trans with (10 ^ 28); [|now vm_compute]. apply N.pow_le_mono_r; [discriminate|]. lia. }
        set (q2 := q * p10 p + r * p10 p / d). assert (V : q2 * d + (r * p10 p) mod d = A * p10 (Z.to_nat (scale + Z.of_nat p - sc0))).
        { replace (Z.to_nat (scale + Z.of_nat p - sc0)) with (Z.to_nat (scale - sc0) + p)%nat by lia. rewrite p10_add, N.mul_assoc, <- Hv. unfold q2. lia. }
        destruct (N.leb_spec two96 q2) as [L2|L2].
        * apply lift_good. apply unscale_good; [lia|exact L|exact L2|unfold q2; lia|exact V].
        * apply IH; [|lia]. split; [lia|]. split; [exact L|]. split; [exact L2|exact V].
      + destruct Fs as (x & F1 & F2). split; [reflexivity|]. eapply (over_at q scale _ (S x)); [lia|lia|exact Hv|lia|exact F2].
  Qed.
End Div.
