(** Facts about reading and printing trigger types. *)
From Coq Require Import String List NArith ZArith Bool Lia.
From Verif Require Import Str Num Nom Dec Parsers Unicode Storyboard NormalEvents Api SpecTypes Spec
  StrFacts NumFacts ColoursFacts FieldFacts.
Import ListNotations.
Local Open Scope N_scope.

Definition splits (c : char) : bool := is_uppercase c || is_numeric c.
Definition solid (f : str) : bool := forallb (fun c => negb (splits c)) (tl f).
Lemma digit_splits c : is_digit c = true -> splits c = true.
Proof.
  intros H. apply is_digit_range in H. unfold splits, is_numeric. replace (c <? 128) with true by (symmetry; apply N.ltb_lt; lia).
  replace ((48 <=? c) && (c <=? 57)) with true; [apply orb_true_r|]. symmetry. rewrite andb_true_iff, !N.leb_le. lia.
Qed.
Lemma tt_fields_concat fs b s : concat (tt_fields fs b s) = b ++ s.
Proof.
  revert fs b. induction s as [|c s IH]; intros fs b; cbn [tt_fields concat]; [easy|].
  destruct (negb fs && _); cbn [concat]; rewrite IH; [easy|]. now rewrite <- app_assoc.
Qed.
Lemma tt_fields_solid b s : b <> [] -> solid b = true -> Forall (fun f => solid f = true) (tt_fields false b s).
Proof.
  revert b. induction s as [|c s IH]; intros b Hb H; cbn [tt_fields]; [now constructor|].
  cbn [negb andb]. fold (splits c). destruct (splits c) eqn:E.
  - constructor; [easy|]. apply IH; easy.
  - apply IH; [now destruct b|]. destruct b as [|d b]; [easy|]. unfold solid in *. cbn [app tl] in *.
    rewrite forallb_app, H. cbn [forallb]. now rewrite E.
Qed.
Lemma tt_fields_solid0 s : Forall (fun f => solid f = true) (tt_fields true [] s).
Proof. destruct s as [|c s]; cbn [tt_fields negb andb app]; [now constructor|]. now apply tt_fields_solid. Qed.

Lemma digit_Z d : is_digit d = true -> print_Z (Z.of_N (d - 48)) = [d] /\ (0 <= Z.of_N (d - 48) <= 9)%Z.
Proof.
  intros H. apply is_digit_range in H. split; [|lia].
  assert (d = 48 \/ d = 49 \/ d = 50 \/ d = 51 \/ d = 52 \/ d = 53 \/ d = 54 \/ d = 55 \/ d = 56 \/ d = 57) as K by lia.
  repeat (destruct K as [->|K]; [reflexivity|]). now subst.
Qed.
Lemma solid_usize f z : solid f = true -> parse_usize f = ROk z -> f = print_Z z /\ (0 <= z <= 9)%Z.
Proof.
  intros Hs H. apply usize_accepts in H as [H _].
  assert (Hd : forall c, digit c -> splits c = true).
  { intros c Hc. apply digit_splits. now apply is_digit_range. }
  inversion H as [ds Hn Hf E1 E2|ds Hn Hf E1 E2|]; [| |easy].
  - subst ds. destruct f as [|c [|d f]]; [easy| |].
    + inversion Hf; subst. destruct (digit_Z c) as [E R]; [now apply is_digit_range|].
      cbn [value length] in *. change (10 ^ N.of_nat 0) with 1 in *. rewrite N.mul_1_r, N.add_0_r in *. now rewrite E.
    + inversion Hf as [|? ? ? Hf']; subst. inversion Hf'; subst. unfold solid in Hs. cbn [tl forallb] in Hs.
      now rewrite Hd in Hs.
  - subst f. destruct ds as [|d ds]; [easy|]. inversion Hf; subst. unfold solid in Hs. cbn [tl forallb] in Hs.
    now rewrite Hd in Hs.
Qed.
Lemma sb_set_text f x : sb_sample_set_from_str f = ROk (Some x) -> f = sb_sample_set_to_string x.
Proof.
  unfold sb_sample_set_from_str.
  repeat match goal with |- context [str_eqb f ?t] => destruct (str_eqb f t) eqn:?E end; intros [= <-];
    match goal with H : str_eqb f _ = true |- _ => apply str_eqb_eq in H; exact H end.
Qed.
Lemma addition_text f x : addition_from_str f = ROk (Some x) -> f = addition_to_string x.
Proof.
  unfold addition_from_str.
  repeat match goal with |- context [str_eqb f ?t] => destruct (str_eqb f t) eqn:?E end; intros [= <-];
    match goal with H : str_eqb f _ = true |- _ => apply str_eqb_eq in H; exact H end.
Qed.

Definition st_text (st : tt_state) : str :=
  opt_str sb_sample_set_to_string (tt_ss st) ++ opt_str sb_sample_set_to_string (tt_as st)
  ++ opt_str addition_to_string (tt_add st) ++ opt_str print_Z (tt_custom st).
Inductive st_at : nat -> tt_state -> Prop :=
| at0 : st_at 0 (mk_tt None None None None)
| at1 a : st_at 1 (mk_tt (Some a) None None None)
| at2 a b : st_at 2 (mk_tt (Some a) (Some b) None None)
| at3 a b d : (a = None -> b = None) -> st_at 3 (mk_tt a b (Some d) None)
| at4 a b d z : (a = None -> b = None) -> (0 <= z <= 9)%Z -> st_at 4 (mk_tt a b d (Some z)).
Lemma attempt_spec i f st : st_at i st -> (i < 4)%nat -> solid f = true ->
  match tt_attempt 5 i f st with
  | ROk (i', st') => st_at i' st' /\ st_text st' = st_text st ++ f
  | RErr e => e = TtUnknownHitSoundType
  | RPanic _ => False
  end.
Proof.
  intros H Hi Hs.
  assert (Hc : forall a b d, (a = None -> b = None) ->
     match match parse_usize f with
           | ROk x => ROk (4%nat, mk_tt a b d (Some x))
           | _ => RErr TtUnknownHitSoundType end with
     | ROk (i', st') => st_at i' st' /\ st_text st' = st_text (mk_tt a b d None) ++ f
     | RErr e => e = TtUnknownHitSoundType | RPanic _ => False end).
  { intros a b d Hab. destruct (parse_usize f) as [z| |] eqn:E; try easy.
    destruct (solid_usize f z Hs E) as [-> Hz]. split; [now constructor|]. unfold st_text. cbn.
    now rewrite !app_nil_r, <- !app_assoc. }
  assert (Ha : forall a b, (a = None -> b = None) ->
     match match v_unwrap (addition_from_str f) with
           | ROk x => ROk (3%nat, mk_tt a b (Some x) None)
           | _ => match parse_usize f with
                  | ROk x => ROk (4%nat, mk_tt a b None (Some x))
                  | _ => RErr TtUnknownHitSoundType end end with
     | ROk (i', st') => st_at i' st' /\ st_text st' = st_text (mk_tt a b None None) ++ f
     | RErr e => e = TtUnknownHitSoundType | RPanic _ => False end).
  { intros a b Hab. destruct (addition_from_str f) as [[x|]| |] eqn:E; cbn [v_unwrap]; try now apply Hc.
    apply addition_text in E as ->. split; [now constructor|]. unfold st_text. cbn.
    now rewrite !app_nil_r, <- !app_assoc. }
  destruct H as [|a|a b|a b d Hab|]; cbn [tt_attempt tt_ss tt_as tt_add tt_custom].
  - destruct (sb_sample_set_from_str f) as [[x|]| |] eqn:E; cbn [v_unwrap]; try now apply Ha.
    apply sb_set_text in E as ->. split; [constructor|]. unfold st_text. cbn. now rewrite !app_nil_r.
  - destruct (sb_sample_set_from_str f) as [[x|]| |] eqn:E; cbn [v_unwrap]; try now apply Ha.
    apply sb_set_text in E as ->. split; [constructor|]. unfold st_text. cbn. now rewrite !app_nil_r.
  - now apply Ha.
  - now apply Hc.
  - lia.
Qed.
Lemma tt_loop_spec fs i st st' : Forall (fun f => solid f = true) fs -> st_at i st ->
  tt_loop i fs st = ROk st' -> (exists i', st_at i' st') /\ st_text st' = st_text st ++ concat fs.
Proof.
  intros Hf. revert i st. induction Hf as [|f fs Hf1 Hf IH]; intros i st Ha; cbn [tt_loop concat].
  - intros [= <-]. split; [now exists i|now rewrite app_nil_r].
  - destruct (Nat.ltb_spec i 4).
    + pose proof (attempt_spec i f st Ha H Hf1) as K. destruct (tt_attempt 5 i f st) as [[i1 st1]| |]; cbn [rbind]; try easy.
      destruct K as [K1 K2]. intros L. apply IH in L as [L1 L2]; [|easy]. split; [easy|]. rewrite L2, K2. now rewrite <- app_assoc.
    + inversion Ha; subst; try lia. easy.
Qed.
Lemma trigger_read s t : trigger_type_from_str s = ROk (Some t) ->
  trigger_ok t = true /\ trigger_type_to_string t = trim s.
Proof.
  unfold trigger_type_from_str. generalize (trim s). clear s. intros s.
  destruct (str_eqb s (lit "Passing")) eqn:E1; [apply str_eqb_eq in E1; intros [= <-]; now subst|].
  destruct (str_eqb s (lit "Failing")) eqn:E2; [apply str_eqb_eq in E2; intros [= <-]; now subst|].
  destruct (strip_prefix (lit "HitSound") s) as [u|] eqn:E3; [|easy]. apply strip_prefix_spec in E3 as ->.
  destruct u as [|c u]; [now intros [= <-]|].
  destruct (Nat.ltb _ _); [easy|].
  destruct (tt_loop 0 _ _) as [st| |] eqn:E; try easy. intros [= <-].
  apply tt_loop_spec in E as [[i Hi] E]; [|apply tt_fields_solid0|constructor].
  rewrite tt_fields_concat in E. unfold st_text in E at 2. cbn [opt_str tt_ss tt_as tt_add tt_custom app] in E.
  split; [|unfold trigger_type_to_string; rewrite <- E; reflexivity].
  destruct Hi as [|a|a b|a b d Hab|a b d z Hab Hz]; try reflexivity; cbn [trigger_ok tt_ss tt_as tt_add tt_custom].
  - destruct a, b; try easy. now specialize (Hab eq_refl).
  - replace ((0 <=? z) && (z <=? 9))%Z with true by lia. rewrite andb_true_r.
    destruct a, b; try easy. now specialize (Hab eq_refl).
Qed.
Lemma trigger_print t : trigger_ok t = true ->
  trim (trigger_type_to_string t) = trigger_type_to_string t
  /\ trigger_type_from_str (trigger_type_to_string t) = ROk (Some t).
Proof.
  destruct t as [ss ass ad n| |]; [|now split..]. cbn [trigger_ok]. intros H. apply andb_true_iff in H as [H Hn].
  destruct n as [z|].
  - assert (z = 0 \/ z = 1 \/ z = 2 \/ z = 3 \/ z = 4 \/ z = 5 \/ z = 6 \/ z = 7 \/ z = 8 \/ z = 9)%Z as K by lia.
    destruct ss as [[]|], ass as [[]|]; try discriminate H; destruct ad as [[]|];
      repeat (destruct K as [->|K]; [now vm_compute|]); subst; now vm_compute.
  - destruct ss as [[]|], ass as [[]|]; try discriminate H; destruct ad as [[]|]; now vm_compute.
Qed.
Lemma trim_trim s : trim (trim s) = trim s.
Proof.
  assert (H : forall s, trim_start (trim_end (trim_start s)) = trim_end (trim_start s)).
  { clear s. intros s. induction s as [|c s IH]; [easy|]. cbn [trim_start].
    destruct (is_ws c) eqn:E; [easy|]. cbn [trim_end]. destruct (trim_end s); rewrite ?E; cbn [trim_start]; now rewrite E. }
  assert (H2 : forall s, trim_end (trim_end s) = trim_end s).
  { clear s H. intros s. induction s as [|c s IH]; [easy|]. cbn [trim_end].
    destruct (trim_end s) as [|d t] eqn:E.
    - destruct (is_ws c) eqn:Ec; [easy|]. cbn. now rewrite Ec.
    - change (trim_end (c :: d :: t)) with (match trim_end (d :: t) with [] => if is_ws c then [] else [c] | u => c :: u end).
      rewrite IH. easy. }
  unfold trim. now rewrite H, H2.
Qed.
Lemma trigger_from_trim s : trigger_type_from_str (trim s) = trigger_type_from_str s.
Proof. unfold trigger_type_from_str. now rewrite trim_trim. Qed.
Lemma trigger_iff s t : trigger_type_from_str s = ROk (Some t)
  <-> trigger_ok t = true /\ trim s = trigger_type_to_string t.
Proof.
  split.
  - intros H. apply trigger_read in H as [H1 H2]. auto.
  - intros [H1 H2]. rewrite <- trigger_from_trim, H2. now apply trigger_print.
Qed.
Lemma trigger_never_none s : trigger_type_from_str s <> ROk None.
Proof.
  unfold trigger_type_from_str. destruct (str_eqb _ _); [easy|]. destruct (str_eqb _ _); [easy|].
  destruct (strip_prefix _ _) as [[|c u]|]; try easy. destruct (Nat.ltb _ _); [easy|]. now destruct (tt_loop _ _ _).
Qed.

(** the split of a printed trigger *)
Definition lower_tail (w : str) : bool :=
  match w with c :: _ => splits c && solid w | [] => false end.
Lemma tt_tail b w s : solid (0 :: w) = true -> tt_fields false b (w ++ s) = tt_fields false (b ++ w) s.
Proof.
  unfold solid. cbn [tl]. revert b. induction w as [|c w IH]; intros b H; [now rewrite app_nil_r|].
  cbn [app tt_fields forallb] in *. apply andb_true_iff in H as [Hc H]. fold (splits c).
  destruct (splits c); [easy|]. cbn [negb andb]. rewrite IH by easy. now rewrite <- app_assoc.
Qed.
Lemma tt_word b w s : lower_tail w = true -> tt_fields false b (w ++ s) = b :: tt_fields false w s.
Proof.
  destruct w as [|c w]; [easy|]. cbn [lower_tail app tt_fields]. intros H. apply andb_true_iff in H as [H1 H2].
  fold (splits c). rewrite H1. cbn [negb andb]. now rewrite tt_tail.
Qed.
Lemma tt_word0 w s : lower_tail w = true -> tt_fields true [] (w ++ s) = tt_fields false w s.
Proof.
  destruct w as [|c w]; [easy|]. cbn [lower_tail app tt_fields]. intros H. apply andb_true_iff in H as [H1 H2].
  cbn [negb andb]. now rewrite tt_tail.
Qed.
Lemma tt_words w ws : Forall (fun w => lower_tail w = true) (w :: ws) ->
  tt_fields true [] (concat (w :: ws)) = w :: ws.
Proof.
  intros H. inversion H; subst. cbn [concat]. rewrite tt_word0 by easy. clear H H2. revert w.
  induction H3 as [|v ws Hv H IH]; intros w; [easy|]. cbn [concat]. rewrite tt_word by easy. now rewrite IH.
Qed.
Lemma singles ds : concat (map (fun d : N => [d]) ds) = ds.
Proof. induction ds; cbn; congruence. Qed.
Definition names_of (t : trigger_type) : list str :=
  match t with
  | TtHitSound ss ass ad _ =>
      match ss with Some x => [sb_sample_set_to_string x] | None => [] end
      ++ match ass with Some x => [sb_sample_set_to_string x] | None => [] end
      ++ match ad with Some x => [addition_to_string x] | None => [] end
  | _ => []
  end.
Lemma trigger_wide ss ass ad z : (10 <= z)%Z -> (match ss, ass with None, Some _ => False | _, _ => True end) ->
  let t := TtHitSound ss ass ad (Some z) in
  trigger_type_from_str (trigger_type_to_string t)
  = if Nat.ltb 4 (trigger_names t + length (print_Z z)) then RErr TtTooManyHitSoundFields
    else RPanic PUnreachable.
Proof.
  intros Hz Hw t. assert (Hd : exists d e ds, print_Z z = d :: e :: ds /\ all_digits (d :: e :: ds) = true).
  { pose proof (print_Z_digits z ltac:(lia)) as D.
    destruct z as [|p|p]; try lia. change (print_Z (Z.pos p)) with (print_N (Npos p)) in *.
    pose proof (print_N_value (Npos p)) as V. pose proof (print_N_nonempty (Npos p)).
    destruct (print_N (Npos p)) as [|d [|e ds]]; [easy| |now exists d, e, ds].
    unfold all_digits in D. cbn [forallb] in D. rewrite andb_true_r in D. apply is_digit_range in D.
    cbn [value length] in V. change (10 ^ N.of_nat 0) with 1 in V. lia. }
  destruct Hd as (d & e & ds & E & Hd).
  assert (T : trigger_type_to_string t = lit "HitSound" ++ concat (names_of t ++ map (fun d => [d]) (d :: e :: ds))).
  { unfold t, trigger_type_to_string. cbn [opt_str]. rewrite E, concat_app, singles. cbn [names_of].
    destruct ss, ass, ad; cbn [opt_str app concat]; now rewrite ?app_nil_r, <- ?app_assoc. }
  assert (W : Forall (fun w => lower_tail w = true) (names_of t ++ map (fun d => [d]) (d :: e :: ds))).
  { apply Forall_app. split.
    - unfold t. cbn [names_of]. destruct ss as [[]|], ass as [[]|], ad as [[]|]; repeat constructor.
    - apply Forall_forall. intros w Hin. apply in_map_iff in Hin as (x & <- & Hin). cbn.
      unfold all_digits in Hd. rewrite forallb_forall in Hd. now rewrite digit_splits by auto. }
  assert (Hl : length (names_of t) = trigger_names t) by (unfold t; cbn; now destruct ss, ass, ad).
  assert (Ht : trim (trigger_type_to_string t) = trigger_type_to_string t).
  { unfold t, trigger_type_to_string. cbn [opt_str].
    destruct (print_Z_last z) as (s & x & -> & Hx). rewrite !app_assoc. change (lit "HitSound") with (72 :: lit "itSound").
    cbn [app]. apply trim_digit_end; [reflexivity|easy]. }
  unfold trigger_type_from_str. rewrite Ht, T.
  replace (str_eqb _ (lit "Passing")) with false by reflexivity.
  replace (str_eqb _ (lit "Failing")) with false by reflexivity.
  rewrite strip_prefix_app, E.
  destruct (names_of t ++ map (fun d => [d]) (d :: e :: ds)) as [|w ws] eqn:Ef; [now destruct (names_of t)|].
  assert (Hc : exists c u, concat (w :: ws) = c :: u).
  { inversion W; subst. destruct w as [|c w]; [easy|]. cbn. eauto. }
  destruct Hc as (c & u & Hc). rewrite Hc. rewrite <- Hc, tt_words by easy. rewrite <- Ef.
  rewrite app_length, map_length, Hl. destruct (Nat.ltb _ _); [easy|].
  assert (Hp : forall fs st d e, is_digit d = true ->
     st_at 0 st \/ st_at 1 st \/ st_at 2 st \/ st_at 3 st -> forall i, st_at i st -> (i < 4)%nat ->
     tt_loop i ([d] :: [e] :: fs) st = RPanic PUnreachable).
  { clear. intros fs st d e Hd _ i Hi Hlt.
    assert (P : parse_usize [d] = ROk (Z.of_N (d - 48))).
    { destruct (digit_Z d Hd) as [P1 P2]. rewrite <- P1. apply parse_print_usize. unfold in_usize, usize_max.
      rewrite andb_true_iff, !Z.leb_le. lia. }
    assert (S1 : sb_sample_set_from_str [d] = RErr tt).
    { unfold sb_sample_set_from_str. cbn [lit str_eqb]. now rewrite !andb_false_r. }
    assert (S2 : addition_from_str [d] = RErr tt).
    { unfold addition_from_str. cbn [lit str_eqb]. now rewrite !andb_false_r. }
    destruct Hi; try lia; cbn [tt_loop tt_attempt]; rewrite ?S1, ?S2, P; reflexivity. }
  unfold t. cbn [names_of map].
  unfold all_digits in Hd. cbn [forallb] in Hd. apply andb_true_iff in Hd as [Hd _].
  destruct ss as [a|], ass as [b|]; try (now destruct Hw); destruct ad as [x|]; cbn [app].
  all: repeat match goal with
    | |- context [tt_loop 0 (sb_sample_set_to_string ?a :: ?r) ?st] =>
        replace (tt_loop 0 (sb_sample_set_to_string a :: r) st) with (tt_loop 1 r (mk_tt (Some a) None None None)) by (now destruct a)
    | |- context [tt_loop 1 (sb_sample_set_to_string ?b :: ?r) (mk_tt ?a _ _ _)] =>
        replace (tt_loop 1 (sb_sample_set_to_string b :: r) (mk_tt a None None None)) with (tt_loop 2 r (mk_tt a (Some b) None None)) by (now destruct b)
    | |- context [tt_loop ?i (addition_to_string ?x :: ?r) (mk_tt ?a ?b _ _)] =>
        replace (tt_loop i (addition_to_string x :: r) (mk_tt a b None None)) with (tt_loop 3 r (mk_tt a b (Some x) None)) by (now destruct x)
    end.
  all: rewrite (Hp (map (fun d => [d]) ds) _ d e Hd); [reflexivity| |constructor; try easy|lia].
  all: try (left; constructor; easy); try (right; left; constructor; easy); try (right; right; left; constructor; easy);
       right; right; right; constructor; easy.
Qed.
Lemma trigger_lone_additions x ad n : trigger_ok (TtHitSound (Some x) None ad n) = true ->
  trigger_type_from_str (trigger_type_to_string (TtHitSound None (Some x) ad n))
  = ROk (Some (TtHitSound (Some x) None ad n)).
Proof.
  intros H. replace (trigger_type_to_string (TtHitSound None (Some x) ad n))
    with (trigger_type_to_string (TtHitSound (Some x) None ad n)) by reflexivity.
  now apply trigger_print.
Qed.
