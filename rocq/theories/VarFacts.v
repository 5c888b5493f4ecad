(** Putting variables into a text and taking them out again. *)
From Coq Require Import String List NArith ZArith Bool Lia.
From Verif Require Import Str Num Nom Dec Parsers Storyboard NormalEvents Events Osb SpecWf SpecText SpecTypes
  SpecCmd SpecEvents SpecFile SpecOsb StrFacts.
Import ListNotations.
Local Open Scope N_scope.

(** ** replace *)
Lemma starts_with_iff p s : starts_with p s = true <-> exists t, s = p ++ t.
Proof.
  split; [apply starts_with_spec|]. intros [t ->]. unfold starts_with. now rewrite strip_prefix_app.
Qed.
Lemma replace_skip p r a s : replace_ne p r (length a) (a ++ s) = replace_ne p r 0 s.
Proof. induction a as [|c a IH]; [easy|]. cbn [length app replace_ne]. exact IH. Qed.
Lemma replace_hit c p r s : replace_ne (c :: p) r 0 ((c :: p) ++ s) = r ++ replace_ne (c :: p) r 0 s.
Proof.
  cbn [app replace_ne]. replace (starts_with (c :: p) (c :: p ++ s)) with true.
  - cbn [length]. rewrite Nat.sub_succ, Nat.sub_0_r. now rewrite replace_skip.
  - symmetry. apply starts_with_iff. now exists s.
Qed.
Lemma replace_pass c p r a s : contains_char c a = false ->
  replace_ne (c :: p) r 0 (a ++ s) = a ++ replace_ne (c :: p) r 0 s.
Proof.
  induction a as [|x a IH]; intros H; [easy|]. unfold contains_char in H. cbn [existsb] in H.
  apply orb_false_iff in H as [H1 H2]. cbn [app replace_ne].
  replace (starts_with (c :: p) (x :: a ++ s)) with false.
  - f_equal. now apply IH.
  - symmetry. apply not_true_iff_false. rewrite starts_with_iff. intros [t E]. injection E as -> _.
    now rewrite N.eqb_refl in H1.
Qed.
Lemma replace_miss p r c s : starts_with p (c :: s) = false ->
  replace_ne p r 0 (c :: s) = c :: replace_ne p r 0 s.
Proof. intros H. cbn [replace_ne]. now rewrite H. Qed.
Lemma contains_mid p a b : contains p (a ++ p ++ b) = true.
Proof.
  unfold contains. destruct (find_sub p (a ++ p ++ b)) as [[x y]|] eqn:E; [easy|]. exfalso.
  revert E. induction a as [|c a IH]; cbn [app].
  - destruct (p ++ b) eqn:Ep.
    + destruct p; [|easy]. cbn. easy.
    + cbn [find_sub]. rewrite <- Ep. replace (starts_with p (p ++ b)) with true; [easy|].
      symmetry. apply starts_with_iff. now exists b.
  - cbn [find_sub]. destruct (starts_with p _); [easy|]. destruct (find_sub p (a ++ p ++ b)) as [[u w]|]; [easy|].
    intros _. now apply IH.
Qed.

(** ** texts with references *)
Definition tok_ok (P : variable -> Prop) (t : tok) : Prop :=
  match t with TChar c => c <> 36 | TRef x => P x end.
Definition chars (s : str) : list tok := map TChar s.
Lemma shows_chars s : shows (chars s) = s.
Proof. unfold shows, chars. induction s as [|c s IH]; [easy|]. cbn. now rewrite IH. Qed.
Lemma fulls_chars s : fulls (chars s) = s.
Proof. unfold fulls, chars. induction s as [|c s IH]; [easy|]. cbn. now rewrite IH. Qed.
Lemma shows_app a b : shows (a ++ b) = shows a ++ shows b.
Proof. apply flat_map_app. Qed.
Lemma fulls_app a b : fulls (a ++ b) = fulls a ++ fulls b.
Proof. apply flat_map_app. Qed.
Lemma no_dollar_In s : no_dollar s = true <-> forall c, In c s -> c <> 36.
Proof.
  unfold no_dollar, contains_char. rewrite negb_true_iff. split.
  - intros H c Hc ->. apply not_true_iff_false in H. apply H. apply existsb_exists. exists 36. now rewrite N.eqb_refl.
  - intros H. apply not_true_iff_false. rewrite existsb_exists. intros (c & Hc & E). apply N.eqb_eq in E.
    now apply (H c Hc).
Qed.
Lemma chars_ok P s : no_dollar s = true -> Forall (tok_ok P) (chars s).
Proof.
  rewrite no_dollar_In. intros H. apply Forall_forall. intros t Ht. apply in_map_iff in Ht as (c & <- & Hc).
  cbn. now apply H.
Qed.
(** A text without [$] at the beginning of a shown text is made of plain characters. *)
Lemma shows_prefix P p l s : Forall (tok_ok P) l -> no_dollar p = true -> shows l = p ++ s ->
  exists l', l = chars p ++ l' /\ shows l' = s.
Proof.
  rewrite no_dollar_In. revert l. induction p as [|c p IH]; intros l Hl Hp E.
  - exists l. now split.
  - destruct l as [|t l]; [easy|]. inversion Hl as [|? ? H1 H2]; subst. destruct t as [d|x].
    + cbn [shows flat_map show app] in E. injection E as -> E.
      destruct (IH l H2) as (l' & -> & El'); [intros y Hy; apply Hp; now right|exact E|]. now exists l'.
    + cbn [shows flat_map show var_ref app] in E. injection E as <- E. exfalso. apply (Hp 36); [now left|easy].
Qed.

Definition apart_head (x y : variable) : Prop :=
  match var_value y with c :: _ => contains_char c (var_name x) = false | [] => True end.
(** ** printing one variable *)
Lemma subst_one (P : variable -> Prop) y l : var_ok y = true -> (forall x, P x -> apart_head x y) -> Forall (tok_ok P) l ->
  exists l', replace_ne (var_value y) (var_ref y) 0 (shows l) = shows l' /\ fulls l' = fulls l
  /\ Forall (tok_ok (fun x => P x \/ x = y)) l'.
Proof.
  intros Hy HP. unfold var_ok in Hy. rewrite !andb_true_iff in Hy. destruct Hy as [[[_ Hne] Hd] _].
  unfold apart_head in HP. destruct (var_value y) as [|c p] eqn:Ev; [easy|]. clear Hne.
  assert (Hc : c <> 36) by (rewrite no_dollar_In in Hd; apply Hd; now left).
  remember (length l) as n eqn:Hn. revert l Hn. induction n as [n IH] using lt_wf_ind. intros l -> Hl.
  destruct l as [|t l]; [exists []; repeat split; constructor|].
  inversion Hl as [|? ? H1 H2]; subst. destruct t as [d|x].
  - cbn [shows flat_map show app]. change (flat_map show l) with (shows l).
    destruct (starts_with (c :: p) (d :: shows l)) eqn:E.
    + apply starts_with_iff in E as [s E].
      destruct (shows_prefix P (c :: p) (TChar d :: l) s Hl Hd E) as (l' & El & Es).
      rewrite E. rewrite replace_hit. rewrite <- Es.
      assert (Hlen : (length l' < length (TChar d :: l))%nat).
      { rewrite El, app_length. cbn [chars map length]. lia. }
      assert (Hl' : Forall (tok_ok P) l').
      { rewrite El in Hl. now apply Forall_app in Hl. }
      destruct (IH _ Hlen l' eq_refl Hl') as (m & E1 & E2 & E3). exists (TRef y :: m). split; [|split].
      * rewrite E1. reflexivity.
      * rewrite El, fulls_app, fulls_chars. cbn [fulls flat_map full]. rewrite Ev. f_equal. exact E2.
      * constructor; [cbn; now right|exact E3].
    + rewrite replace_miss by easy.
      destruct (IH (length l)) with (l := l) as (m & E1 & E2 & E3); [cbn; lia|easy|easy|].
      exists (TChar d :: m). split; [|split].
      * now rewrite E1.
      * cbn [fulls flat_map full app]. f_equal. exact E2.
      * constructor; easy.
  - cbn [shows flat_map show]. change (flat_map show l) with (shows l). cbn in H1.
    rewrite replace_pass.
    + destruct (IH (length l)) with (l := l) as (m & E1 & E2 & E3); [cbn; lia|easy|easy|].
      exists (TRef x :: m). split; [|split].
      * rewrite E1. reflexivity.
      * cbn [fulls flat_map full]. f_equal. exact E2.
      * constructor; [cbn; now left|easy].
    + unfold var_ref. cbn [lit app]. unfold contains_char. cbn. fold (contains_char c (var_name x)).
      rewrite (HP x H1). rewrite orb_false_r. now apply N.eqb_neq.
Qed.
Lemma subst_step (P : variable -> Prop) y l : var_ok y = true -> (forall x, P x -> apart_head x y) -> Forall (tok_ok P) l ->
  exists l', (if contains (var_value y) (shows l) then replace (var_value y) (var_ref y) (shows l) else shows l) = shows l'
  /\ fulls l' = fulls l /\ Forall (tok_ok (fun x => P x \/ x = y)) l'.
Proof.
  intros Hy HP Hl. destruct (contains (var_value y) (shows l)).
  - replace (replace (var_value y) (var_ref y) (shows l)) with (replace_ne (var_value y) (var_ref y) 0 (shows l)).
    + now apply subst_one.
    + unfold var_ok in Hy. rewrite !andb_true_iff in Hy. destruct Hy as [[[_ Hne] _] _].
      unfold replace. now destruct (var_value y).
  - exists l. repeat split. eapply Forall_impl; [|exact Hl]. intros [c|x]; cbn; auto.
Qed.
Lemma subst_all vs : forall (P : variable -> Prop) l, vars_ok vs = true -> (forall x y, P x -> In y vs -> apart_head x y) ->
  Forall (tok_ok P) l ->
  exists l', subst_vars vs (shows l) = shows l' /\ fulls l' = fulls l
  /\ Forall (tok_ok (fun x => P x \/ In x vs)) l'.
Proof.
  induction vs as [|y vs IH]; intros P l Hv HP Hl.
  - exists l. repeat split. eapply Forall_impl; [|exact Hl]. intros [c|x]; cbn; auto.
  - cbn [vars_ok] in Hv. rewrite !andb_true_iff in Hv. destruct Hv as [[Hy Ha] Hv].
    destruct (subst_step P y l Hy) as (m & E1 & E2 & E3); [intros x Hx; apply HP; [easy|now left]|easy|].
    cbn [subst_vars]. rewrite E1.
    destruct (IH (fun x => P x \/ x = y) m Hv) as (l' & F1 & F2 & F3).
    + intros x z [Hx| ->] Hz; [apply HP; [easy|now right]|].
      rewrite forallb_forall in Ha. specialize (Ha z Hz). unfold told_apart in Ha. rewrite !andb_true_iff in Ha.
      destruct Ha as [_ Ha]. unfold apart_head. destruct (var_value z); [easy|]. now apply negb_true_iff.
    + exact E3.
    + exists l'. rewrite F2. repeat split; [easy|easy|]. eapply Forall_impl; [|exact F3].
      intros [c|x]; cbn; [easy|]. intros [[H| ->]|H]; auto.
Qed.

(** ** reading one variable *)
Lemma prefix_cases {A} (a b r t : list A) : b ++ r = a ++ t -> (exists u, b = a ++ u) \/ (exists u, a = b ++ u).
Proof.
  revert b. induction a as [|x a IH]; intros b E; [left; now exists b|].
  destruct b as [|y b]; [right; now exists (x :: a)|]. cbn in E. injection E as -> E.
  destruct (IH b E) as [[u ->]|[u ->]]; [left|right]; now exists u.
Qed.
Definition name_eqb (x y : variable) : bool := str_eqb (var_name x) (var_name y).
Definition resolve (x : variable) (t : tok) : list tok :=
  match t with
  | TRef y => if name_eqb x y then chars (var_value y) else [t]
  | _ => [t]
  end.
(** [x] is told apart by name from everything else in the list *)
Definition names_apart (x y : variable) : Prop :=
  y = x \/ (starts_with (var_name x) (var_name y) = false /\ starts_with (var_name y) (var_name x) = false).
Lemma starts_refl s : starts_with s s = true.
Proof. apply starts_with_iff. exists []. now rewrite app_nil_r. Qed.
Lemma names_apart_eq x y : names_apart x y -> name_eqb x y = true -> y = x.
Proof.
  intros [H|[H _]] E; [easy|]. unfold name_eqb in E. apply str_eqb_eq in E. rewrite E, starts_refl in H. easy.
Qed.
Lemma expand_one x l : no_dollar (var_name x) = true ->
  Forall (tok_ok (fun y => names_apart x y /\ no_dollar (var_name y) = true)) l ->
  replace (var_ref x) (var_value x) (shows l) = shows (flat_map (resolve x) l).
Proof.
  intros Hx Hl. change (replace (var_ref x) (var_value x) (shows l))
    with (replace_ne (36 :: var_name x) (var_value x) 0 (shows l)).
  induction Hl as [|t l Ht Hl IH]; [easy|]. destruct t as [c|y]; cbn [tok_ok] in Ht.
  - cbn [shows flat_map show resolve app]. change (flat_map show l) with (shows l).
    rewrite replace_miss; [f_equal; exact IH|]. apply not_true_iff_false. rewrite starts_with_iff.
    intros [u E]. injection E as E _. easy.
  - destruct Ht as [Ht Hy]. cbn [flat_map resolve]. rewrite shows_app.
    destruct (name_eqb x y) eqn:En.
    + apply (names_apart_eq _ _ Ht) in En. subst y. cbn [shows flat_map show]. change (flat_map show l) with (shows l).
      change (lit "$" ++ var_name x) with (36 :: var_name x). rewrite replace_hit, shows_chars. now rewrite IH.
    + cbn [shows flat_map show]. change (flat_map show l) with (shows l). rewrite app_nil_r.
      change (lit "$" ++ var_name y) with (36 :: var_name y). cbn [app]. rewrite replace_miss.
      * f_equal. rewrite replace_pass; [now rewrite IH|]. unfold no_dollar in Hy. now apply negb_true_iff in Hy.
      * apply not_true_iff_false. rewrite starts_with_iff. intros [u E]. cbn in E. injection E as E.
        destruct Ht as [-> |[H1 H2]].
        -- unfold name_eqb in En. assert (str_eqb (var_name x) (var_name x) = true) by now apply str_eqb_eq. congruence.
        -- apply prefix_cases in E as [[w E]|[w E]].
           ++ apply not_true_iff_false in H1. apply H1. apply starts_with_iff. now exists w.
           ++ apply not_true_iff_false in H2. apply H2. apply starts_with_iff. now exists w.
Qed.
Lemma resolve_fulls x l : (forall y, In (TRef y) l -> name_eqb x y = true -> y = x) ->
  fulls (flat_map (resolve x) l) = fulls l.
Proof.
  intros H. induction l as [|t l IH]; [easy|]. cbn [flat_map]. rewrite fulls_app, IH by (intros; apply H; [now right|easy]).
  destruct t as [c|y]; cbn [resolve]; [easy|]. destruct (name_eqb x y) eqn:E.
  - cbn [fulls flat_map full]. f_equal. apply fulls_chars.
  - unfold fulls. cbn [flat_map full]. now rewrite app_nil_r.
Qed.
Lemma resolve_none x l : (forall y, In (TRef y) l -> name_eqb x y = false) -> flat_map (resolve x) l = l.
Proof.
  intros H. induction l as [|t l IH]; [easy|]. cbn [flat_map]. rewrite IH by (intros; apply H; now right).
  destruct t as [c|y]; cbn [resolve]; [easy|]. now rewrite H by now left.
Qed.
Lemma resolve_In x l y : In (TRef y) (flat_map (resolve x) l) -> In (TRef y) l /\ name_eqb x y = false.
Proof.
  rewrite in_flat_map. intros (t & Ht & Hr). destruct t as [c|z]; cbn [resolve] in Hr.
  - destruct Hr as [Hr|[]]. easy.
  - destruct (name_eqb x z) eqn:E.
    + unfold chars in Hr. apply in_map_iff in Hr as (c & Hc & _). easy.
    + destruct Hr as [Hr|[]]. injection Hr as <-. easy.
Qed.
Lemma resolve_ok (P : variable -> Prop) x l : (forall y, P y -> no_dollar (var_value y) = true) ->
  Forall (tok_ok P) l -> Forall (tok_ok P) (flat_map (resolve x) l).
Proof.
  intros HP Hl. apply Forall_flat_map. eapply Forall_impl; [|exact Hl]. intros [c|y] H; cbn [resolve].
  - now repeat constructor.
  - cbn [tok_ok] in H. destruct (name_eqb x y); [now apply chars_ok, HP|now repeat constructor].
Qed.
Lemma shows_mid l x : In (TRef x) l -> exists a b, shows l = a ++ var_ref x ++ b.
Proof.
  intros H. apply in_split in H as (l1 & l2 & ->). rewrite shows_app. now exists (shows l1), (shows l2).
Qed.
Lemma expand_all vs : forall l0 l, vars_readable vs = true ->
  (forall y, In (TRef y) l -> In y vs /\ In (TRef y) l0) ->
  Forall (tok_ok (fun _ => True)) l ->
  expand_vars vs (shows l0) (shows l) = fulls l.
Proof.
  induction vs as [|x vs IH]; intros l0 l Hv Hr Hl; cbn [expand_vars].
  - assert (E : shows l = fulls l); [|now rewrite E].
    clear -Hr. induction l as [|t l IHl]; [easy|].
    destruct t as [c|y]; [|destruct (Hr y); [now left|easy]]. cbn [shows fulls flat_map show full app]. f_equal.
    apply IHl. intros y Hy. apply Hr. now right.
  - cbn [vars_readable] in Hv. rewrite !andb_true_iff in Hv. destruct Hv as [[[Hxd Hxv] Ha] Hv].
    assert (Hok : forall y, In y vs -> names_apart x y /\ no_dollar (var_name y) = true /\ no_dollar (var_value y) = true).
    { intros y Hy. rewrite forallb_forall in Ha. specialize (Ha y Hy). rewrite !andb_true_iff in Ha.
      destruct Ha as [H1 H2]. apply negb_true_iff in H1, H2. split; [right; now split|].
      clear -Hv Hy. induction vs as [|z vs IH]; [easy|]. cbn [vars_readable] in Hv. rewrite !andb_true_iff in Hv.
      destruct Hv as [[Hz _] Hv]. destruct Hy as [<- |Hy]; [easy|now apply IH]. }
    assert (Hall : forall y, In (TRef y) l -> names_apart x y /\ no_dollar (var_name y) = true /\ no_dollar (var_value y) = true).
    { intros y Hy. destruct (Hr y Hy) as [[<- |H] _]; [|now apply Hok]. split; [now left|easy]. }
    assert (Htok : Forall (tok_ok (fun y => names_apart x y /\ no_dollar (var_name y) = true)) l).
    { rewrite Forall_forall in Hl |- *. intros [c|y] Ht; [apply (Hl _ Ht)|]. cbn. now destruct (Hall y Ht). }
    assert (Hres : (if contains (var_ref x) (shows l0) then replace (var_ref x) (var_value x) (shows l) else shows l)
                   = shows (flat_map (resolve x) l)).
    { destruct (contains (var_ref x) (shows l0)) eqn:Ec; [now apply expand_one|].
      rewrite resolve_none; [easy|]. intros y Hy. destruct (name_eqb x y) eqn:En; [|easy]. exfalso.
      destruct (Hall y Hy) as [Hn _]. apply (names_apart_eq _ _ Hn) in En. subst y.
      destruct (Hr x Hy) as [_ H0]. apply shows_mid in H0 as (a & b & E). rewrite E, contains_mid in Ec. easy. }
    rewrite Hres. rewrite IH; [|easy| |].
    + apply resolve_fulls. intros y Hy. apply names_apart_eq. now apply Hall.
    + intros y Hy. apply resolve_In in Hy as [Hy Hn]. destruct (Hr y Hy) as [[<- |H] H0]; [|easy].
      unfold name_eqb in Hn. assert (str_eqb (var_name x) (var_name x) = true) by now apply str_eqb_eq. congruence.
    + rewrite Forall_forall in Hl |- *. intros [c|y] Ht; [|exact I]. apply in_flat_map in Ht as (t & Ht & Hc).
      destruct t as [d|y]; cbn [resolve] in Hc.
      * destruct Hc as [Hc|[]]. injection Hc as ->. apply (Hl _ Ht).
      * destruct (name_eqb x y); [|destruct Hc as [Hc|[]]; easy].
        unfold chars in Hc. apply in_map_iff in Hc as (e & [= ->] & He). cbn.
        destruct (Hall y Ht) as (_ & _ & Hd). rewrite no_dollar_In in Hd. now apply Hd.
Qed.
Lemma vars_ok_readable vs : vars_ok vs = true -> vars_readable vs = true.
Proof.
  induction vs as [|x vs IH]; [easy|]. cbn [vars_ok vars_readable]. unfold var_ok. rewrite !andb_true_iff.
  intros [[[[[[H1 _] _] H2] _] H3] H4]. repeat split; try easy.
  - eapply forallb_impl; [|exact H3]. unfold told_apart. intros y Hy. now apply andb_true_iff in Hy.
  - now apply IH.
Qed.
(** Both ways. *)
Lemma expand_subst vs pre t : vars_ok vs = true -> no_dollar pre = true -> no_dollar t = true ->
  expand_vars vs (subst_vars vs t) (pre ++ subst_vars vs t) = pre ++ t.
Proof.
  intros Hv Hp Ht.
  destruct (subst_all vs (fun _ => False) (chars t) Hv) as (l & E1 & E2 & E3).
  - easy.
  - now apply chars_ok.
  - rewrite shows_chars in E1. rewrite E1. rewrite <- (shows_chars pre) at 1. rewrite <- shows_app.
    rewrite expand_all; [|now apply vars_ok_readable| |].
    + now rewrite fulls_app, fulls_chars, E2, fulls_chars.
    + intros y Hy. apply in_app_iff in Hy as [Hy|Hy].
      * unfold chars in Hy. apply in_map_iff in Hy as (c & Hc & _). easy.
      * split; [|easy]. rewrite Forall_forall in E3. destruct (E3 _ Hy) as [[]|H]. exact H.
    + apply Forall_app. split; [now apply chars_ok|]. eapply Forall_impl; [|exact E3]. now intros [c|x].
Qed.
(** The text with the references put in stays on one line. *)
Lemma subst_line vs t : vars_ok vs = true -> no_dollar t = true -> one_line t = true -> one_line (subst_vars vs t) = true.
Proof.
  intros Hv Hd Ht.
  destruct (subst_all vs (fun _ => False) (chars t) Hv) as (l & E1 & E2 & E3).
  - easy.
  - now apply chars_ok.
  - rewrite shows_chars in E1. rewrite E1. rewrite fulls_chars in E2. rewrite <- E2 in Ht. clear E1 E2.
    assert (Hname : forall x, In (TRef x) l -> forallb (fun c => negb (c =? 10) && negb (c =? 13)) (var_ref x) = true).
    { intros x Hx. rewrite Forall_forall in E3. destruct (E3 _ Hx) as [[]|H]. clear -Hv H.
      induction vs as [|y vs IH]; [easy|]. cbn [vars_ok] in Hv. rewrite !andb_true_iff in Hv. destruct Hv as [[Hy _] Hv].
      destruct H as [-> |H]; [|now apply IH]. unfold var_ok in Hy. rewrite !andb_true_iff in Hy.
      destruct Hy as [[[[_ Hn] _] _] _]. unfold var_ref. cbn [lit app forallb]. cbn.
      eapply forallb_impl; [|exact Hn]. intros c Hc. cbv beta in Hc |- *. destruct (c =? 61), (c =? 10), (c =? 13); easy. }
    unfold one_line in *. apply andb_true_iff in Ht as [H1 H2]. apply andb_true_iff. split.
    + clear -H1 Hname. induction l as [|t l IH]; [easy|]. change (t :: l) with ([t] ++ l) in H1 |- *.
      rewrite fulls_app in H1. rewrite shows_app.
      assert (Happ : forall a b, no_nl (a ++ b) = no_nl a && no_nl b) by (intros; apply forallb_app).
      rewrite Happ in H1 |- *. apply andb_true_iff in H1 as [K1 K2]. rewrite IH; [|easy|intros; apply Hname; now right].
      rewrite andb_true_r. destruct t as [c|x]; [exact K1|]. unfold shows. cbn [flat_map show]. rewrite app_nil_r.
      unfold no_nl. eapply forallb_impl; [|apply (Hname x); now left]. intros c Hc. now apply andb_true_iff in Hc.
    + clear -H2 Hname. destruct l as [|t l _] using rev_ind; [easy|]. rewrite fulls_app in H2. rewrite shows_app.
      destruct t as [c|x].
      * cbn [fulls shows flat_map full show app] in *. unfold no_cr_end, ends_with_char in *.
        now rewrite rev_unit in *.
      * cbn [shows flat_map show]. rewrite app_nil_r. change (lit "$" ++ var_name x) with (var_ref x).
        assert (Hx : forallb (fun c => negb (c =? 10) && negb (c =? 13)) (var_ref x) = true)
          by (apply Hname; apply in_app_iff; right; now left).
        assert (Hr : var_ref x <> []) by easy. destruct (var_ref x) as [|c s _] using rev_ind; [easy|].
        rewrite forallb_app in Hx. cbn in Hx. rewrite !andb_true_iff in Hx. destruct Hx as [_ [[_ Hx] _]].
        rewrite app_assoc. unfold no_cr_end, ends_with_char. now rewrite rev_unit.
Qed.
