(** Which texts are decimals (C01): proofs. *)
From Coq Require Import String List NArith ZArith Bool Lia.
From Verif Require Import Str Num Dec Spec SpecDec StrFacts NumFacts DecFacts DecRound.
Import ListNotations.
Local Open Scope N_scope.

Definition st : Type := bool * bool * N * nat.
Definition stuck (x : st) : bool := let '(pt, _, _, sc) := x in pt && Nat.leb 28 sc.
Inductive go1 : st -> char -> st -> Prop :=
| go_digit pt has m sc c : stuck (pt, has, m, sc) = false -> is_digit c = true -> m * 10 + (c - 48) < two96 ->
    go1 (pt, has, m, sc) c (pt, true, m * 10 + (c - 48), if pt then S sc else sc)
| go_point has m sc : go1 (false, has, m, sc) 46 (true, has, m, sc)
| go_mark pt m sc : stuck (pt, true, m, sc) = false -> go1 (pt, true, m, sc) 95 (pt, true, m, sc).
Inductive go : st -> str -> st -> Prop :=
| go_nil x : go x [] x
| go_cons x c y s z : go1 x c y -> go y s z -> go x (c :: s) z.
Lemma go_snoc x s : forall c z, go x (s ++ [c]) z <-> exists y, go x s y /\ go1 y c z.
Proof.
  revert x. induction s as [|b s IH]; intros x c z; cbn [app].
  - split.
    + intros H. inversion H; subst. match goal with H : go _ [] _ |- _ => inversion H; subst end. exists x. split; [apply go_nil|easy].
    + intros (y & H1 & H2). inversion H1; subst. eapply go_cons; [eassumption|apply go_nil].
  - split.
    + intros H. inversion H; subst. match goal with H : go _ (s ++ [c]) _ |- _ => apply IH in H as (w & ? & ?) end. exists w. split; [eapply go_cons; eassumption|easy].
    + intros (y & H1 & H2). inversion H1; subst. eapply go_cons; [eassumption|]. apply IH. eauto.
Qed.
Definition halt (x : st) (c : char) (d : rdec) (neg : bool) : Prop :=
  let '(pt, _, m, sc) := x in
  (stuck x = true \/ (pt = true /\ is_digit c = true /\ two96 <= m * 10 + (c - 48))) /\ maybe_round neg pt m c sc = Some d.
Lemma loop_go neg d s : forall pt has m sc,
  dec_loop pt neg has m sc s = Some d
  <-> (exists pt' m' sc', go (pt, has, m, sc) s (pt', true, m', sc') /\ d = from_parts neg m' sc')
      \/ (exists p c r y, s = p ++ c :: r /\ go (pt, has, m, sc) p y /\ halt y c d neg).
Proof.
  induction s as [|b s IH]; intros pt has m sc; cbn [dec_loop].
  - unfold handle_data. split.
    + destruct has; [|easy]. intros [= <-]. left. exists pt, m, sc. split; [apply go_nil|easy].
    + intros [(pt' & m' & sc' & H & ->)|(p & c & r & y & H & _)]; [|now destruct p]. now inversion H.
  - change (pt && Nat.leb 28 sc) with (stuck (pt, has, m, sc)).
    assert (Cons : forall y, go1 (pt, has, m, sc) b y -> let '(pt1, has1, m1, sc1) := y in
      ((exists pt' m' sc', go (pt1, has1, m1, sc1) s (pt', true, m', sc') /\ d = from_parts neg m' sc')
       \/ (exists p c r z, s = p ++ c :: r /\ go (pt1, has1, m1, sc1) p z /\ halt z c d neg))
      -> ((exists pt' m' sc', go (pt, has, m, sc) (b :: s) (pt', true, m', sc') /\ d = from_parts neg m' sc')
       \/ (exists p c r z, b :: s = p ++ c :: r /\ go (pt, has, m, sc) p z /\ halt z c d neg))).
    { intros [[[pt1 has1] m1] sc1] G [(pt' & m' & sc' & H & E)|(p & c & r & z & -> & H & E)].
      - left. exists pt', m', sc'. split; [eapply go_cons; eassumption|easy].
      - right. exists (b :: p), c, r, z. split; [easy|]. split; [eapply go_cons; eassumption|easy]. }
    assert (Back : (forall y, go1 (pt, has, m, sc) b y -> False) -> forall P : Prop, (halt (pt, has, m, sc) b d neg -> P) ->
      ((exists pt' m' sc', go (pt, has, m, sc) (b :: s) (pt', true, m', sc') /\ d = from_parts neg m' sc')
       \/ (exists p c r z, b :: s = p ++ c :: r /\ go (pt, has, m, sc) p z /\ halt z c d neg)) -> P).
    { intros N P K [(pt' & m' & sc' & H & E)|(p & c & r & z & E & H & K')].
      - inversion H; subst. exfalso. eapply N; eassumption.
      - destruct p as [|q p]; cbn in E; injection E as <- ->.
        + inversion H; subst. now apply K.
        + inversion H; subst. exfalso. eapply N; eassumption. }
    assert (Step : forall y, go1 (pt, has, m, sc) b y -> (forall y', go1 (pt, has, m, sc) b y' -> y' = y) -> (halt (pt, has, m, sc) b d neg -> False) -> let '(pt1, has1, m1, sc1) := y in
      ((exists pt' m' sc', go (pt, has, m, sc) (b :: s) (pt', true, m', sc') /\ d = from_parts neg m' sc')
       \/ (exists p c r z, b :: s = p ++ c :: r /\ go (pt, has, m, sc) p z /\ halt z c d neg))
      -> ((exists pt' m' sc', go (pt1, has1, m1, sc1) s (pt', true, m', sc') /\ d = from_parts neg m' sc')
       \/ (exists p c r z, s = p ++ c :: r /\ go (pt1, has1, m1, sc1) p z /\ halt z c d neg))).
    { intros [[[pt1 has1] m1] sc1] G U NH [(pt' & m' & sc' & H & E)|(p & c & r & z & E & H & K')].
      - inversion H as [|? ? y ? ? G1 G2]; subst. rewrite (U _ G1) in G2. left. eauto.
      - destruct p as [|q p]; cbn in E; injection E as <- ->.
        + inversion H; subst. now destruct (NH K').
        + inversion H as [|? ? y ? ? G1 G2]; subst. rewrite (U _ G1) in G2. right. exists p, c, r, z. easy. }
    destruct (stuck (pt, has, m, sc)) eqn:St.
    + split.
      * intros H. right. exists [], b, s, (pt, has, m, sc). split; [easy|]. split; [apply go_nil|]. split; [now left|exact H].
      * apply Back; [|intros [_ H]; exact H]. intros y G. inversion G; subst; try congruence. cbn in St. discriminate.
    + destruct (is_digit b) eqn:Db.
      * destruct (two96 <=? m * 10 + (b - 48)) eqn:B.
        -- apply N.leb_le in B. assert (NG : forall y, go1 (pt, has, m, sc) b y -> False).
           { intros y G. inversion G; subst; try (cbn in Db; discriminate). lia. }
           destruct pt.
           ++ split.
              ** intros H. right. exists [], b, s, (true, has, m, sc). split; [easy|]. split; [apply go_nil|]. split; [right; easy|exact H].
              ** apply Back; [exact NG|]. intros [_ H]; exact H.
           ++ split; [easy|]. apply Back; [exact NG|]. intros [[H|[H _]] _]; [congruence|discriminate].
        -- apply N.leb_gt in B. rewrite IH. split.
           ++ apply (Cons (pt, true, m * 10 + (b - 48), if pt then S sc else sc)). now apply go_digit.
           ++ apply (Step (pt, true, m * 10 + (b - 48), if pt then S sc else sc)); [now apply go_digit| |].
              ** intros y G. inversion G; subst; try (cbn in Db; discriminate). reflexivity.
              ** intros [[H|[_ [_ H]]] _]; [congruence|lia].
      * destruct ((b =? 46) && negb pt) eqn:P.
        -- apply andb_true_iff in P as [P1 P2]. apply N.eqb_eq in P1. destruct pt; [discriminate|]. subst b. rewrite IH. split.
           ++ apply (Cons (true, has, m, sc)). apply go_point.
           ++ apply (Step (true, has, m, sc)); [apply go_point| |].
              ** intros y G. inversion G; subst; [congruence|reflexivity].
              ** intros [[H|[H _]] _]; [congruence|discriminate].
        -- destruct ((b =? 95) && has) eqn:M.
           ++ apply andb_true_iff in M as [M1 M2]. apply N.eqb_eq in M1. subst b has. rewrite IH. split.
              ** apply (Cons (pt, true, m, sc)). now apply go_mark.
              ** apply (Step (pt, true, m, sc)); [now apply go_mark| |].
                 --- intros y G. inversion G; subst; [congruence|reflexivity].
                 --- intros [[H|[_ [H _]]] _]; congruence.
           ++ split; [easy|]. apply Back.
              ** intros y G. inversion G; subst; [congruence|rewrite N.eqb_refl in P; discriminate|rewrite N.eqb_refl in M; discriminate].
              ** intros [[H|[_ [H _]]] _]; congruence.
Qed.

Lemma same_digit c : digit_char c = is_digit c.
Proof. reflexivity. Qed.
Lemma digits_snoc_digit x c : is_digit c = true -> digits_in (x ++ [c]) = digits_in x ++ [c].
Proof. intros H. unfold digits_in. rewrite filter_app. cbn [filter]. now rewrite same_digit, H. Qed.
Lemma digits_snoc_mark x : digits_in (x ++ [95]) = digits_in x.
Proof. unfold digits_in. rewrite filter_app. cbn. apply app_nil_r. Qed.
Lemma value_snoc x c : value (x ++ [c]) = value x * 10 + (c - 48).
Proof. rewrite value_app. cbn. lia. Qed.
Definition good (x : str) : Prop := forallb mark_char x = true /\ starts_with_char 95 x = false.
Lemma good_cut x c : good (x ++ [c]) -> good x /\ (is_digit c = true \/ c = 95 /\ digits_in x <> []).
Proof.
  intros [H S]. rewrite forallb_app in H. apply andb_true_iff in H as [H M]. cbn in M. rewrite andb_true_r in M.
  assert (G : good x). { split; [easy|]. destruct x; [easy|]. exact S. }
  split; [easy|]. unfold mark_char in M. rewrite same_digit in M. destruct (is_digit c) eqn:D; [now left|]. right. cbn in M. apply N.eqb_eq in M. subst c. split; [easy|].
  destruct x as [|b x]; [cbn in S; discriminate|]. cbn in S, H. apply andb_true_iff in H as [H _]. unfold mark_char in H. unfold digits_in. cbn [filter].
  destruct (digit_char b); [easy|]. cbn in H. apply N.eqb_eq in H. subst b. discriminate.
Qed.
Lemma good_snoc x c : good x -> (is_digit c = true \/ c = 95 /\ digits_in x <> []) -> good (x ++ [c]).
Proof.
  intros [H S] D. split.
  - rewrite forallb_app, H. cbn. unfold mark_char. rewrite same_digit. destruct D as [->|[-> _]]; reflexivity.
  - destruct x; [|exact S]. cbn. destruct D as [D|[_ D]]; [|now destruct D]. apply is_digit_range in D. apply N.eqb_neq. lia.
Qed.
Definition body (pt : bool) (p ip fp : str) : Prop :=
  (if pt then p = ip ++ 46 :: fp else p = ip /\ fp = []) /\ good (ip ++ fp).
Definition last_digit (x : str) : Prop := exists y d, x = y ++ [d] /\ is_digit d = true.
Definition is_some_digit (x : str) : bool := match digits_in x with [] => false | _ => true end.
Lemma some_digit x : is_some_digit x = true <-> digits_in x <> [].
Proof. unfold is_some_digit. destruct (digits_in x); easy. Qed.
Lemma some_digit_snoc x c : is_digit c = true -> is_some_digit (x ++ [c]) = true.
Proof. intros H. apply some_digit. rewrite digits_snoc_digit by easy. now destruct (digits_in x). Qed.
Lemma exists_last_or_nil {A} (l : list A) : l = [] \/ exists a x, l = a ++ [x].
Proof. destruct l as [|b l]; [now left|]. right. destruct (@exists_last A (b :: l)) as (a & x & E); [easy|]. eauto. Qed.
Lemma go_body p : forall pt has m sc,
  go (false, false, 0, 0%nat) p (pt, has, m, sc)
  <-> exists ip fp, body pt p ip fp /\ has = is_some_digit (ip ++ fp) /\ m = mantissa ip fp /\ sc = decimals fp /\ m < two96 /\ (sc <= 28)%nat
      /\ (sc = 28%nat -> last_digit fp).
Proof.
  induction p as [|c p IH] using rev_ind; intros pt has m sc.
  - split.
    + intros H. inversion H; subst. exists [], []. repeat split; try reflexivity; try lia; try discriminate.
    + intros (ip & fp & [B _] & -> & -> & -> & _). destruct pt; [now destruct ip|]. destruct B as [<- ->]. apply go_nil.
  - rewrite go_snoc. split.
    + intros ([[[pt0 has0] m0] sc0] & G & G1). apply IH in G as (ip & fp & [B Gd] & E1 & E2 & E3 & L1 & L2 & L3).
      inversion G1; subst.
      * destruct pt.
        -- rewrite B. exists ip, (fp ++ [c]). split; [split; [now rewrite <- app_assoc|]|].
           { rewrite app_assoc. apply good_snoc; [easy|now left]. }
           unfold mantissa, decimals. rewrite app_assoc, some_digit_snoc, !digits_snoc_digit, value_snoc, app_length by easy. cbn [length].
           repeat split; try easy; try lia.
           { match goal with H : stuck _ = false |- _ => unfold stuck in H; apply Nat.leb_gt in H; unfold decimals in H; lia end. }
           { intros _. now exists fp, c. }
        -- destruct B as [-> ->]. rewrite app_nil_r in Gd. exists (ip ++ [c]), []. split; [split; [easy|]|].
           { rewrite app_nil_r. apply good_snoc; [easy|now left]. }
           unfold mantissa, decimals in *. rewrite !app_nil_r in *. rewrite some_digit_snoc, !digits_snoc_digit, value_snoc by easy.
           repeat split; try easy; try lia.
      * destruct B as [-> ->]. exists ip, []. repeat split; try easy; apply Gd.
      * match goal with H : true = _ |- _ => symmetry in H; pose proof (proj1 (some_digit _) H) as Sd end.
        destruct pt.
        -- rewrite B. exists ip, (fp ++ [95]). split; [split; [now rewrite <- app_assoc|]|].
           { rewrite app_assoc. apply good_snoc; [easy|now right]. }
           unfold mantissa, decimals in *. rewrite app_assoc. unfold is_some_digit. rewrite !digits_snoc_mark. fold (is_some_digit (ip ++ fp)).
           repeat split; try easy.
           intros E. match goal with H : stuck _ = false |- _ => unfold stuck in H; apply Nat.leb_gt in H; lia end.
        -- destruct B as [-> ->]. rewrite app_nil_r in *. exists (ip ++ [95]), []. split; [split; [easy|]|].
           { rewrite app_nil_r. apply good_snoc; [easy|now right]. }
           unfold mantissa, decimals, is_some_digit in *. rewrite !app_nil_r in *. rewrite !digits_snoc_mark. easy.
    + intros (ip & fp & [B Gd] & -> & Em & Es & L1 & L2 & L3).
      assert (Digit : forall pt0 i0 f0, body pt0 p i0 f0 -> ip ++ fp = (i0 ++ f0) ++ [c] -> is_digit c = true ->
        pt = pt0 -> fp = (if pt0 then f0 ++ [c] else f0) -> exists y, go (false, false, 0, 0%nat) p y /\ go1 y c (pt, is_some_digit (ip ++ fp), m, sc)).
      { intros pt0 i0 f0 B0 E D -> Ef. unfold mantissa in Em. rewrite E, digits_snoc_digit, value_snoc in Em by easy. rewrite E, some_digit_snoc by easy.
        assert (Sc : sc = if pt0 then S (decimals f0) else decimals f0).
        { rewrite Es, Ef. destruct pt0; [|easy]. unfold decimals. rewrite digits_snoc_digit, app_length by easy. cbn. lia. }
        assert (St : stuck (pt0, is_some_digit (i0 ++ f0), mantissa i0 f0, decimals f0) = false).
        { unfold stuck. destruct pt0; [|easy]. apply Nat.leb_gt. lia. }
        exists (pt0, is_some_digit (i0 ++ f0), mantissa i0 f0, decimals f0). split.
        - apply IH. exists i0, f0. repeat split; try easy; try apply B0.
          + unfold mantissa. lia.
          + destruct pt0; lia.
          + intros E28. destruct pt0; [lia|]. destruct B0 as [[_ ->] _]. discriminate.
        - rewrite Em, Sc. apply go_digit; [exact St|exact D|]. unfold mantissa. lia. }
      assert (Mark : forall pt0 i0 f0, body pt0 p i0 f0 -> ip ++ fp = (i0 ++ f0) ++ [c] -> c = 95 -> digits_in (i0 ++ f0) <> [] ->
        pt = pt0 -> fp = (if pt0 then f0 ++ [c] else f0) -> exists y, go (false, false, 0, 0%nat) p y /\ go1 y c (pt, is_some_digit (ip ++ fp), m, sc)).
      { intros pt0 i0 f0 B0 E -> D -> Ef. unfold mantissa in Em. rewrite E, digits_snoc_mark in Em. unfold is_some_digit. rewrite E, digits_snoc_mark. fold (is_some_digit (i0 ++ f0)).
        assert (Sc : sc = decimals f0).
        { rewrite Es, Ef. destruct pt0; [|easy]. unfold decimals. now rewrite digits_snoc_mark. }
        assert (N28 : pt0 = true -> sc <> 28%nat).
        { intros -> E28. destruct (L3 E28) as (y & d & Ey & Dd). rewrite Ef in Ey. apply app_inj_tail in Ey as [_ <-]. discriminate. }
        assert (St : stuck (pt0, true, mantissa i0 f0, decimals f0) = false).
        { unfold stuck. destruct pt0; [|easy]. apply Nat.leb_gt. specialize (N28 eq_refl). lia. }
        apply some_digit in D. rewrite D.
        exists (pt0, true, mantissa i0 f0, decimals f0). split.
        - apply IH. exists i0, f0. repeat split; try easy; try apply B0.
          + unfold mantissa. lia.
          + lia.
          + intros E28. destruct pt0; [now destruct (N28 eq_refl); rewrite Sc|]. destruct B0 as [[_ ->] _]. discriminate.
        - rewrite Em, Sc. now apply go_mark. }
      destruct pt.
      * destruct (exists_last_or_nil fp) as [->|(f0 & d & ->)].
        -- apply app_inj_tail in B as [-> ->]. exists (false, is_some_digit (ip ++ []), m, sc). split; [|apply go_point].
           apply IH. exists ip, []. repeat split; try easy; try apply Gd.
        -- assert (E : p ++ [c] = (ip ++ 46 :: f0) ++ [d]) by (rewrite B, <- app_assoc; reflexivity).
           apply app_inj_tail in E as [-> ->]. rewrite app_assoc in Gd. apply good_cut in Gd as [G0 [D|[-> D]]].
           ++ apply (Digit true ip f0); try easy. now rewrite app_assoc.
           ++ apply (Mark true ip f0); try easy. now rewrite app_assoc.
      * destruct B as [<- ->]. rewrite app_nil_r in Gd. apply good_cut in Gd as [G0 [D|[-> D]]].
        -- apply (Digit false p []); try easy; [|now rewrite !app_nil_r]. split; [easy|now rewrite app_nil_r].
        -- apply (Mark false p []); try easy; [|now rewrite !app_nil_r|now rewrite app_nil_r]. split; [easy|now rewrite app_nil_r].
Qed.

Lemma round_iff neg m c sc d : maybe_round neg true m c sc = Some d
  <-> exists r m' sc', cut_value c r /\ cut_rounded m sc r m' sc' /\ d = from_parts neg m' sc'.
Proof.
  assert (R : forall r, (if 5 <=? r then let m1 := m + 1 in if two96 <=? m1 then match sc with O => None | S sc' => handle_data neg true ((m1 + 4) / 10) sc' end
    else handle_data neg true m1 sc else handle_data neg true m sc) = Some d <-> exists m' sc', cut_rounded m sc r m' sc' /\ d = from_parts neg m' sc').
  { intros r. cbv zeta. unfold handle_data. replace (m + 1 + 4) with (m + 5) by lia. destruct (N.leb_spec 5 r).
    - destruct (N.leb_spec two96 (m + 1)).
      + destruct sc as [|k].
        * split; [easy|]. intros (m' & sc' & R & _). inversion R; subst; try lia. change (2 ^ 96) with two96 in *. lia.
        * split.
          -- intros [= <-]. exists ((m + 5) / 10), k. split; [|easy]. now apply r_carry.
          -- intros (m' & sc' & R & ->). inversion R; subst; try lia; [change (2 ^ 96) with two96 in *; lia|].
             match goal with H : S _ = S _ |- _ => injection H as -> end. easy.
      + split.
        * intros [= <-]. exists (m + 1), sc. split; [now apply r_up|easy].
        * intros (m' & sc' & R & ->). inversion R; subst; try lia; [easy|change (2 ^ 96) with two96 in *; lia].
    - split.
      + intros [= <-]. exists m, sc. split; [now apply r_down|easy].
      + intros (m' & sc' & R & ->). inversion R; subst; try lia. easy. }
  unfold maybe_round. rewrite andb_true_r. destruct (is_digit c) eqn:D.
  - rewrite R. split.
    + intros (m' & sc' & H & E). exists (c - 48), m', sc'. split; [|easy]. apply cut_digit. now apply is_digit_range.
    + intros (r & m' & sc' & C & H & E). exists m', sc'. split; [|easy]. inversion C; subst; try easy; discriminate.
  - assert (ND : ~ digit c). { intros H. apply is_digit_range in H. congruence. }
    destruct (c =? 95) eqn:E95.
    + apply N.eqb_eq in E95. subst c. rewrite R. split.
      * intros (m' & sc' & H & E). exists 0, m', sc'. split; [apply cut_mark|easy].
      * intros (r & m' & sc' & C & H & E). exists m', sc'. split; [|easy]. inversion C; subst; easy.
    + destruct (c =? 46) eqn:E46.
      * apply N.eqb_eq in E46. subst c. rewrite R. split.
        -- intros (m' & sc' & H & E). exists 0, m', sc'. split; [apply cut_point|easy].
        -- intros (r & m' & sc' & C & H & E). exists m', sc'. split; [|easy]. inversion C; subst; easy.
      * split; [easy|]. intros (r & m' & sc' & C & _). inversion C; subst; [easy|discriminate|discriminate].
Qed.
Lemma parse_sign s d : parse_rdec s = Some d <-> exists sg neg p, sign_text sg neg /\ s = sg ++ p /\ dec_loop false neg false 0 0 p = Some d.
Proof.
  split.
  - unfold parse_rdec. destruct s as [|b s]; [easy|]. destruct (b =? 45) eqn:E45.
    + apply N.eqb_eq in E45. subst b. intros H. exists [45], true, s. split; [constructor|easy].
    + destruct (b =? 43) eqn:E43.
      * apply N.eqb_eq in E43. subst b. intros H. exists [43], false, s. split; [constructor|easy].
      * intros H. exists [], false, (b :: s). split; [constructor|easy].
  - intros (sg & neg & p & S & -> & H). inversion S; subst; cbn [app]; [|exact H|exact H].
    destruct p as [|b p]; [easy|]. unfold parse_rdec. destruct (b =? 45) eqn:E45; [apply N.eqb_eq in E45; subst b; easy|].
    destruct (b =? 43) eqn:E43; [apply N.eqb_eq in E43; subst b; easy|]. exact H.
Qed.
Lemma numeral_body s neg pt ip fp : numeral s neg pt ip fp <-> exists sg p, sign_text sg neg /\ s = sg ++ p /\ body pt p ip fp.
Proof.
  split.
  - intros H. inversion H as [sg neg' ip' S F W|sg neg' ip' fp' S F W]; subst.
    + exists sg, ip. split; [easy|]. split; [easy|]. split; [easy|]. rewrite app_nil_r. now split.
    + exists sg, (ip ++ 46 :: fp). split; [easy|]. split; [easy|]. split; [easy|]. now split.
  - intros (sg & p & S & -> & [B [F W]]). destruct pt.
    + rewrite B. now apply num_point.
    + destruct B as [-> ->]. rewrite app_nil_r in F, W. now apply num_whole.
Qed.
Lemma last_split x : digits_in x <> [] -> exists y d u, x = y ++ d :: u /\ is_digit d = true /\ digits_in u = [].
Proof.
  induction x as [|c x IH] using rev_ind; [easy|]. intros H. destruct (is_digit c) eqn:D.
  - exists x, c, []. easy.
  - assert (E : digits_in (x ++ [c]) = digits_in x). { unfold digits_in. rewrite filter_app. cbn [filter]. rewrite same_digit, D. apply app_nil_r. }
    rewrite E in H. destruct (IH H) as (y & d & u & -> & Dd & U). exists y, d, (u ++ [c]). split; [now rewrite <- app_assoc|]. split; [easy|].
    unfold digits_in in *. rewrite filter_app, U. cbn [filter]. now rewrite same_digit, D.
Qed.
Lemma parse_exact s d : parse_rdec s = Some d <-> exists neg m sc, number_text s neg m sc /\ d = mkDec (neg && negb (m =? 0)) m sc.
Proof.
  rewrite parse_sign. split.
  - intros (sg & neg & p & S & -> & H). apply loop_go in H as [(pt & m & sc & G & ->)|(q & c & r & [[[pt has] m] sc] & -> & G & St & R)].
    + apply go_body in G as (ip & fp & B & E & -> & -> & L1 & L2 & _). exists neg, (mantissa ip fp), (decimals fp). split; [|apply from_parts_sign].
      eapply nt_fits; [|apply some_digit; symmetry; exact E|exact L1|exact L2]. apply numeral_body. exists sg, p; split; [exact S|split; [reflexivity|exact B]].
    + apply go_body in G as (ip & fp & B & E & -> & -> & L1 & L2 & L3).
      assert (Pt : pt = true). { destruct St as [St|[-> _]]; [|easy]. now destruct pt. }
      subst pt. apply round_iff in R as (k & m' & sc' & C & R & ->). exists neg, m', sc'. split; [|apply from_parts_sign]. rewrite app_assoc.
      assert (N : numeral (sg ++ q) neg true ip fp). { apply numeral_body. exists sg, q; split; [exact S|split; [reflexivity|exact B]]. }
      destruct (Nat.eq_dec (decimals fp) 28) as [E28|N28].
      * destruct (L3 E28) as (f & x & -> & Dx). rewrite E28 in R. eapply nt_long; try eassumption. now apply is_digit_range.
      * destruct St as [St|(_ & Dc & Big)].
        -- unfold stuck in St. apply Nat.leb_le in St. lia.
        -- assert (k = c - 48). { inversion C; subst; try easy; discriminate. } subst k. eapply nt_wide; try eassumption; [lia|now apply is_digit_range|change (2 ^ 96) with two96; lia].
  - assert (Fin : forall sg neg q c rest ip fp r m' sc', sign_text sg neg -> body true q ip fp -> mantissa ip fp < 2 ^ 96 -> (decimals fp <= 28)%nat ->
        (decimals fp = 28%nat -> last_digit fp) -> (decimals fp = 28%nat \/ is_digit c = true /\ two96 <= mantissa ip fp * 10 + (c - 48)) ->
        cut_value c r -> cut_rounded (mantissa ip fp) (decimals fp) r m' sc' ->
        exists sg0 neg0 p0, sign_text sg0 neg0 /\ sg ++ q ++ c :: rest = sg0 ++ p0 /\ dec_loop false neg0 false 0 0 p0 = Some (from_parts neg m' sc')).
    { intros sg neg q c rest ip fp r m' sc' S B L1 L2 L3 St C R. exists sg, neg, (q ++ c :: rest). split; [easy|]. split; [easy|]. apply loop_go. right.
      exists q, c, rest, (true, is_some_digit (ip ++ fp), mantissa ip fp, decimals fp). split; [easy|]. split; [apply go_body; exists ip, fp; easy|]. split.
      - destruct St as [E|[D Big]]; [left; unfold stuck; rewrite E; reflexivity|now right].
      - apply round_iff. exists r, m', sc'. easy. }
    intros (neg & m & sc & H & ->). rewrite <- from_parts_sign.
    inversion H as [? ? pt ip fp N D L1 L2|t ? ip fp x c rest r ? ? N Dx L1 E28 C R|t ? ip fp c rest ? ? N L1 L2 Dc Big R]; subst.
    + apply numeral_body in N as (sg & p & S & -> & B).
      assert (Plain : (decimals fp = 28%nat -> last_digit fp) -> exists sg0 neg0 p0, sign_text sg0 neg0 /\ sg ++ p = sg0 ++ p0 /\ dec_loop false neg0 false 0 0 p0 = Some (from_parts neg (mantissa ip fp) (decimals fp))).
      { intros L3. exists sg, neg, p. split; [easy|]. split; [easy|]. apply loop_go. left. exists pt, (mantissa ip fp), (decimals fp). split; [|easy].
        apply go_body. exists ip, fp. repeat split; try easy; try apply B. symmetry. now apply some_digit. }
      destruct (Nat.eq_dec (decimals fp) 28) as [E28|N28]; [|apply Plain; lia].
      assert (Nz : digits_in fp <> []). { unfold decimals in E28. now destruct (digits_in fp). }
      destruct (last_split _ Nz) as (y & x & u & -> & Dx & U). destruct u as [|b u]; [apply Plain; intros _; now exists y, x|].
      destruct pt; [|destruct B as [[_ B] _]; now destruct y].
      destruct B as [-> [F W]].
      assert (Dg : forall z, digits_in (z ++ (y ++ [x]) ++ b :: u) = digits_in (z ++ y ++ [x])).
      { intros z. unfold digits_in in *. rewrite !filter_app, U, app_nil_r. reflexivity. }
      assert (Eb : b = 95).
      { rewrite !forallb_app in F. cbn [forallb] in F. apply andb_true_iff in F as [_ F]. apply andb_true_iff in F as [_ F]. apply andb_true_iff in F as [_ F]. apply andb_true_iff in F as [F _].
        unfold mark_char in F. unfold digits_in in U. cbn [filter] in U. destruct (digit_char b); [discriminate|]. now apply N.eqb_eq. }
      replace (y ++ x :: b :: u) with ((y ++ [x]) ++ b :: u) in * by now rewrite <- app_assoc.
      replace (ip ++ 46 :: (y ++ [x]) ++ b :: u) with ((ip ++ 46 :: y ++ [x]) ++ b :: u) by (rewrite <- !app_assoc; cbn; now rewrite <- !app_assoc).
      unfold mantissa, decimals in *. rewrite (Dg ip) in *. pose proof (Dg []) as D0. cbn [app] in D0. rewrite D0 in *. subst b.
      apply (Fin sg neg _ 95 u ip (y ++ [x]) 0); try easy.
      * split; [reflexivity|]. split.
        -- rewrite !forallb_app in *. apply andb_true_iff in F as [F1 F]. apply andb_true_iff in F as [F2 _]. rewrite F1. exact F2.
        -- destruct ip; [|exact W]. destruct y; exact W.
      * intros _. now exists y, x.
      * now left.
      * apply cut_mark.
      * now apply r_down.
    + apply numeral_body in N as (sg & q & S & -> & B). rewrite <- app_assoc. rewrite <- E28 in R. eapply Fin; try eassumption; [lia| |now left].
      intros _. exists fp, x. split; [easy|]. now apply is_digit_range.
    + apply numeral_body in N as (sg & q & S & -> & B). rewrite <- app_assoc. eapply Fin; try eassumption; [lia|lia| |now apply cut_digit].
      right. split; [now apply is_digit_range|]. change (2 ^ 96) with two96 in Big. lia.
Qed.
Lemma decimal_exact s d : decimal_of_str s = DNum d <-> exists neg m sc, number_text s neg m sc /\ d = mkDec (neg && negb (m =? 0)) m sc.
Proof. rewrite <- parse_exact. unfold decimal_of_str. destruct (parse_rdec s); split; intros H; try discriminate; injection H as ->; reflexivity. Qed.
Lemma decimal_raw s t : decimal_of_str s = DRaw t <-> t = s /\ forall neg m sc, ~ number_text s neg m sc.
Proof.
  split.
  - intros H. unfold decimal_of_str in H. destruct (parse_rdec s) eqn:E; [discriminate|]. injection H as <-. split; [easy|].
    intros neg m sc N. assert (P : parse_rdec s = Some (mkDec (neg && negb (m =? 0)) m sc)) by (apply parse_exact; eauto). congruence.
  - intros [-> H]. unfold decimal_of_str. destruct (parse_rdec s) eqn:E; [|easy]. apply parse_exact in E as (neg & m & sc & N & _). now destruct (H neg m sc).
Qed.
