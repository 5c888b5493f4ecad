(** Facts for C43: when printing a file panics. *)
From Coq Require Import String List NArith ZArith Bool Lia.
From Verif Require Import Str Num Nom Dec Parsers General Editor Metadata Difficulty Colours TimingPoints HitObjects Storyboard NormalEvents Events Osb OsuFile
  Spec SpecWf SpecText SpecOld SpecSections SpecFile SpecTotal SpecPrint NumFacts DecFacts StrFacts NomFacts LineFacts ColoursFacts FieldFacts TpFacts HoImage FileTheorems TotalFacts CmdTree OldFacts OldPanic.
Import ListNotations.
Local Open Scope N_scope.

(** ** computations without errors *)
Lemma rbind_panic {A B} (r : run A) (k : A -> run B) : panics (rbind r k) <-> panics r \/ exists a, r = ROk a /\ panics (k a).
Proof.
  unfold panics. destruct r as [a|[]|q]; cbn [rbind].
  - split; [intros H; right; now exists a|]. intros [[p H]|(x & [= ->] & H)]; easy.
  - split; [eauto|intros _; eauto].
Qed.
Lemma rmap_panic {A B} (f : A -> B) (r : run A) : panics (rmap f r) <-> panics r.
Proof. unfold panics. destruct r as [a|[]|q]; cbn [rmap]; split; intros [p H]; try easy; eauto. Qed.
Lemma ok_panic {A E} (a : A) : ~ @panics A E (ROk a).
Proof. now intros [p H]. Qed.
Lemma ok_or {A} (r : run A) : ~ panics r <-> exists a, r = ROk a.
Proof.
  unfold panics. destruct r as [a|[]|q].
  - split; [eauto|]. now intros _ [p H].
  - split; [intros H; destruct H; eauto|now intros [a H]].
Qed.
Lemma run_list_panic {A} (l : list (run A)) : panics (run_list l) <-> Exists panics l.
Proof.
  induction l as [|r l IH]; cbn [run_list].
  - split; [intros H; now apply ok_panic in H|intros H; inversion H].
  - rewrite rbind_panic, Exists_cons, <- IH. split.
    + intros [H|(a & _ & H)]; [now left|right]. now rewrite rmap_panic in H.
    + intros [H|H]; [now left|]. destruct r as [a|[]|q]; [right|left; eexists; reflexivity]. exists a. split; [easy|]. now rewrite rmap_panic.
Qed.
Lemma run_map_panic {A B} (f : A -> run B) l : panics (run_list (map f l)) <-> Exists (fun x => panics (f x)) l.
Proof. rewrite run_list_panic, !Exists_exists. split.
  - intros (r & Hr & H). apply in_map_iff in Hr as (x & <- & Hx). eauto.
  - intros (x & Hx & H). exists (f x). split; [now apply in_map|easy].
Qed.

(** ** one time *)
Lemma two96_eq : two96 = 79228162514264337593543950336.
Proof. now vm_compute. Qed.
Lemma sub_flips {E} n m sc : m <> 0 -> (exists p, @rdec_sub E (mkDec n m sc) dec24 = RPanic p) <-> (exists p, @rdec_add E (mkDec (negb n) m sc) dec24 = RPanic p).
Proof.
  intros Hm. apply N.eqb_neq in Hm. unfold rdec_sub. rewrite neg24. unfold rdec_add, is_zero. cbn [d_mant]. rewrite Hm.
  change (d_mant (rdec_of_Z (-24)) =? 0) with false. change (d_mant dec24 =? 0) with false. change (d_scale (rdec_of_Z (-24))) with 0%nat. change (d_scale dec24) with 0%nat.
  change (signed_mant (rdec_of_Z (-24))) with (-24)%Z. change (signed_mant dec24) with 24%Z. cbn [d_scale].
  set (z := (_ + _)%Z). set (y := (_ + _)%Z). assert (E' : (y = - z)%Z) by (subst y z; unfold signed_mant; cbn [d_neg d_mant]; destruct n; cbn [negb]; lia).
  rewrite E', Z.abs_opp. destruct (fit _ _ _ _) as [[a b]|]; split; intros [p H]; try easy; eauto.
Qed.
Lemma sub24 {E} d : d_mant d < two96 ->
  (exists p, @rdec_sub E d dec24 = RPanic p) <-> d_neg d = true /\ d_scale d = 0%nat /\ two96 - 24 <= d_mant d.
Proof.
  destruct d as [n m sc]. cbn [d_mant d_neg d_scale]. intros Hm. destruct (N.eq_dec m 0) as [->|Hz].
  - split; [intros [p H]; now vm_compute in H|]. intros (_ & _ & H). now vm_compute in H.
  - rewrite (sub_flips n m sc Hz), (add24_any (mkDec (negb n) m sc)) by exact Hm. cbn [d_mant d_neg d_scale]. now destruct n.
Qed.
Lemma shift_out_panic v d : storable d -> panics (shift_out v d) <-> old_version v = true /\ too_early d.
Proof.
  intros Hs. unfold shift_out, too_early, panics. destruct (old_version v); [|split; [now intros [p H]|now intros [H _]]]. destruct d as [d|x].
  - cbn [storable] in Hs. rewrite <- two96_eq in Hs. pose proof (@sub24 Empty_set d Hs) as A. assert (T : two96 - 24 = 79228162514264337593543950312) by now vm_compute. rewrite T in A.
    pose proof (rmap_panic DNum (rdec_sub d dec24)) as R. unfold panics in R. rewrite R, A. destruct d as [n m sc]. cbn [d_neg d_mant d_scale]. split.
    + intros (-> & -> & H). eauto.
    + now intros (_ & m' & [= -> -> ->] & H).
  - split; [now intros [p H]|now intros (_ & m & H & _)].
Qed.
Lemma clock_panic dbg v z : in_i32 z = true -> panics (time_to_string dbg v z) <-> old_version v = true /\ dbg = true /\ early_i32 z.
Proof.
  intros Hz. unfold time_to_string. rewrite rmap_panic. unfold panics. destruct (old_version v); [|split; [now intros [p H]|now intros [H _]]].
  unfold i32_sub, i32_arith, early_i32. destruct (in_i32 (z - 24)) eqn:E; unfold in_i32, i32_min, i32_max in Hz, E.
  - split; [now intros [p H]|]. intros (_ & _ & H). lia.
  - destruct dbg; split; try (now intros [p H]); try (now intros (_ & H & _)); [|eauto]. intros _. repeat split. lia.
Qed.

(** ** timing points and hit objects *)
Lemma tp_out v t : storable (tp_time t) -> panics (tp_to_string v t) <-> old_version v = true /\ too_early (tp_time t).
Proof. intros H. unfold tp_to_string. rewrite rmap_panic. now apply shift_out_panic. Qed.
Lemma ho_out v o : Forall storable (object_times o) -> panics (ho_to_string v o) <-> old_version v = true /\ Exists too_early (object_times o).
Proof.
  unfold object_times, ho_to_string. intros H. inversion H as [|x l Ht Hr]; subst. rewrite rbind_panic, (shift_out_panic v _ Ht), Exists_cons.
  assert (K : forall t, storable t -> (old_version v = true /\ too_early (ho_time o) \/ (exists a, shift_out v (ho_time o) = ROk a /\ panics (shift_out v t)))
    <-> old_version v = true /\ (too_early (ho_time o) \/ Exists too_early [t])).
  { intros t Hs. pose proof (shift_out_panic v t Hs) as A. pose proof (shift_out_panic v _ Ht) as B. split.
    - intros [[H1 H2]|(a & _ & H1)]; [now split; [|left]|]. apply A in H1 as [H1 H2]. split; [easy|right; now constructor].
    - intros [H1 [H2|H2]]; [now left|]. inversion H2 as [? ? H3|? ? H3]; subst; [|inversion H3].
      destruct (shift_out v (ho_time o)) as [a|[]|q] eqn:E; [right; exists a; split; [easy|now apply A]|left]. apply B. now exists q. }
  destruct (ho_obj_params o) as [|p|t|t].
  - split; [intros [[H1 H2]|(a & _ & H1)]|]; [now split; [|left]|now apply ok_panic in H1|].
    intros [H1 [H2|H2]]; [now left|inversion H2].
  - split; [intros [[H1 H2]|(a & _ & H1)]|]; [now split; [|left]|now apply ok_panic in H1|].
    intros [H1 [H2|H2]]; [now left|inversion H2].
  - inversion Hr; subst. rewrite <- K by easy. apply or_iff_compat_l. split; intros (a & E & H1); exists a; (split; [exact E|]); rewrite rmap_panic in *; easy.
  - inversion Hr; subst. rewrite <- K by easy. apply or_iff_compat_l. split; intros (a & E & H1); exists a; (split; [exact E|]); rewrite rmap_panic in *; easy.
Qed.

(** ** events *)
Lemma cmds_out vars s cs : exists t, with_cmds vars s cs = ROk t.
Proof. unfold with_cmds. rewrite commands_walk. cbn [rmap]. eauto. Qed.
Lemma cmds_np vars s cs : ~ panics (with_cmds vars s cs).
Proof. destruct (cmds_out vars s cs) as [t ->]. apply ok_panic. Qed.
Lemma old_lt v : old_version v = true -> (v <? 14)%Z = true.
Proof. intros H. destruct (old_cases v H) as [-> | ->]; reflexivity. Qed.
Lemma ev_out dbg v vars e : Forall (fun z => in_i32 z = true) (event_times e) ->
  panics (ev_to_string dbg v vars e) <-> old_version v = true /\ dbg = true /\ Exists early_i32 (event_times e).
Proof.
  intros H. assert (N : forall P, ~ (old_version v = true /\ dbg = true /\ @Exists Z P [])) by (intros P (_ & _ & K); inversion K).
  destruct e; cbn [ev_to_string event_times] in *;
    try (split; [intros K; first [now apply cmds_np in K|now apply ok_panic in K]|intros K; now apply N in K]).
  - inversion H; subst. rewrite rbind_panic. unfold vid_to_string_cmd. rewrite rmap_panic, clock_panic by easy. split.
    + intros [(H1 & H4 & H5)|(a & _ & K)]; [repeat split; [easy|easy|now constructor]|now apply cmds_np in K].
    + intros (H1 & H4 & H5). left. repeat split; [easy|easy|]. inversion H5 as [? ? K|? ? K]; subst; [easy|inversion K].
  - inversion H as [|? ? Ha Hr]; subst. inversion Hr as [|? ? Hb _]; subst. rewrite rmap_panic. unfold brk_to_string. rewrite rbind_panic, clock_panic by easy. split.
    + intros [(H1 & H4 & H5)|(a & _ & K)]; [repeat split; [easy|easy|now constructor]|]. rewrite rmap_panic in K. apply clock_panic in K as (H1 & H2 & H3); [|easy].
      repeat split; [easy|easy|]. right. now constructor.
    + intros (H1 & H4 & H5). inversion H5 as [? ? K|? ? K]; subst; [now left|]. inversion K as [? ? K'|? ? K']; subst; [|inversion K'].
      pose proof (clock_panic true v _ Ha) as P. destruct (time_to_string true v (br_start _)) as [a|[]|q]; [right|left; apply P; now exists q].
      exists a. split; [easy|]. rewrite rmap_panic. now apply clock_panic.
  - inversion H; subst. unfold ctr_to_string. destruct (old_version v) eqn:Eo.
    + rewrite (old_lt v Eo), rmap_panic, clock_panic, Eo by easy. split.
      * intros (H1 & H4 & H5); repeat split; [easy|now constructor].
      * intros (H1 & H4 & H5). repeat split; [easy|]. inversion H5 as [? ? K|? ? K]; subst; [easy|inversion K].
    + split; [|now intros [K _]]. destruct (v <? 14)%Z; [|intros K; now apply ok_panic in K]. rewrite rmap_panic, clock_panic, Eo by easy. now intros [K _].
Qed.
Lemma events_out dbg v vars l : Forall (fun z => in_i32 z = true) (flat_map event_times l) ->
  panics (events_to_string_vars dbg vars l v) <-> old_version v = true /\ dbg = true /\ Exists early_i32 (flat_map event_times l).
Proof.
  intros H. unfold events_to_string_vars. rewrite rmap_panic, run_map_panic, !Exists_exists. rewrite Forall_forall in H.
  assert (K : forall e, In e l -> panics (ev_to_string dbg v vars e) <-> old_version v = true /\ dbg = true /\ Exists early_i32 (event_times e)).
  { intros e He. apply ev_out. apply Forall_forall. intros z Hz. apply H, in_flat_map. eauto. }
  split.
  - intros (e & He & Hp). apply (K e He) in Hp as (H1 & H2 & H3). apply Exists_exists in H3 as (z & Hz & H3). repeat split; [easy|easy|]. exists z. split; [|easy]. apply in_flat_map. eauto.
  - intros (H1 & H2 & z & Hz & H3). apply in_flat_map in Hz as (e & He & Hz). exists e. split; [easy|]. apply (K e He). repeat split; [easy|easy|]. apply Exists_exists. eauto.
Qed.

(** ** files *)
Lemma bind3_panic {A B C D} (r1 : run A) (r2 : run B) (r3 : run C) (f : A -> B -> C -> D) :
  panics (rbind r1 (fun a => rbind r2 (fun b => rbind r3 (fun c => ROk (f a b c))))) <-> panics r1 \/ panics r2 \/ panics r3.
Proof.
  unfold panics. destruct r1 as [a|[]|p1], r2 as [b|[]|p2], r3 as [c|[]|p3]; cbn [rbind]; split; intros H; eauto;
    repeat match goal with H : _ \/ _ |- _ => destruct H | H : exists _, _ |- _ => destruct H end; try easy; eauto.
Qed.
Lemma ex_flat {A B} (P : B -> Prop) (f : A -> list B) l : Exists P (flat_map f l) <-> Exists (fun a => Exists P (f a)) l.
Proof. rewrite flat_map_concat_map, Exists_concat, Exists_map. reflexivity. Qed.
Lemma all_flat {A B} (P : B -> Prop) (f : A -> list B) l : Forall P (flat_map f l) <-> Forall (fun a => Forall P (f a)) l.
Proof. rewrite flat_map_concat_map, Forall_concat, Forall_map. reflexivity. Qed.
Lemma ex_under {A} (P Q : A -> Prop) (C : Prop) l : (forall x, In x l -> P x <-> C /\ Q x) -> (Exists P l <-> C /\ Exists Q l).
Proof.
  intros H. rewrite !Exists_exists. split.
  - intros (x & Hx & Hp). apply (H x Hx) in Hp as [Hc Hq]. split; [easy|eauto].
  - intros (Hc & x & Hx & Hq). exists x. split; [easy|]. now apply (H x Hx).
Qed.
Lemma timing_out v o : Forall storable (all_of o (fun t => [tp_time t])) ->
  panics (run_opt o (fun l => timing_points_to_string l v)) <-> old_version v = true /\ Exists too_early (all_of o (fun t => [tp_time t])).
Proof.
  destruct o as [l|]; cbn [run_opt all_of].
  - rewrite all_flat, ex_flat. intros H. unfold timing_points_to_string. rewrite rmap_panic, run_map_panic. apply ex_under. intros t Ht.
    rewrite Forall_forall in H. specialize (H t Ht). inversion H; subst. rewrite tp_out by easy. rewrite Exists_cons, Exists_nil. tauto.
  - intros _. rewrite Exists_nil. split; [intros H; now apply ok_panic in H|easy].
Qed.
Lemma objects_out v o : Forall storable (all_of o object_times) ->
  panics (run_opt o (fun l => hit_objects_to_string l v)) <-> old_version v = true /\ Exists too_early (all_of o object_times).
Proof.
  destruct o as [l|]; cbn [run_opt all_of].
  - rewrite all_flat, ex_flat. intros H. unfold hit_objects_to_string. rewrite rmap_panic, run_map_panic. apply ex_under. intros t Ht.
    rewrite Forall_forall in H. specialize (H t Ht). now apply ho_out.
  - intros _. rewrite Exists_nil. split; [intros H; now apply ok_panic in H|easy].
Qed.
Lemma opt_events_out dbg v o : Forall (fun z => in_i32 z = true) (all_of o event_times) ->
  panics (run_opt o (fun l => events_to_string dbg l v)) <-> old_version v = true /\ dbg = true /\ Exists early_i32 (all_of o event_times).
Proof.
  destruct o as [l|]; cbn [run_opt all_of].
  - apply events_out.
  - intros _. rewrite Exists_nil. split; [intros H; now apply ok_panic in H|easy].
Qed.
Lemma file_out dbg f : Forall storable (decimal_times f) -> Forall (fun z => in_i32 z = true) (clock_times f) ->
  ((exists p, osu_to_string dbg f = RPanic p) <->
   old_version (osu_version f) = true /\ (Exists too_early (decimal_times f) \/ dbg = true /\ Exists early_i32 (clock_times f))).
Proof.
  unfold decimal_times, clock_times. rewrite Forall_app, Exists_app. intros [Ht Hh] He. change (exists p, osu_to_string dbg f = RPanic p) with (panics (osu_to_string dbg f)).
  unfold osu_to_string. rewrite bind3_panic, opt_events_out, timing_out, objects_out by easy. tauto.
Qed.
Lemma osb_out dbg o v : exists t, osb_to_string dbg o v = ROk t.
Proof.
  apply ok_or. unfold osb_to_string. destruct (Z.ltb_spec v 14); [apply ok_panic|]. rewrite rmap_panic.
  destruct (osb_events o) as [es|]; [|apply ok_panic]. rewrite rbind_panic. unfold events_to_string_vars. rewrite rmap_panic, run_map_panic.
  assert (K : ~ Exists (fun x => panics (ev_to_string dbg v match osb_variables o with Some vs => vs | None => [] end x)) es).
  { rewrite Exists_exists. intros (e & _ & He).
    assert (N : old_version v = false) by (unfold old_version; lia).
    assert (T : forall z, time_to_string dbg v z = ROk (print_Z z)) by (intros z; unfold time_to_string; now rewrite N).
    destruct e; cbn [ev_to_string] in He; try (first [now apply cmds_np in He|now apply ok_panic in He]).
    - unfold vid_to_string_cmd in He. rewrite T in He. cbn [rmap rbind] in He. now apply cmds_np in He.
    - unfold brk_to_string in He. rewrite !T in He. cbn [rmap rbind] in He. now apply ok_panic in He.
    - unfold ctr_to_string in He. rewrite !T in He. destruct (v <? 14)%Z; cbn [rmap] in He; now apply ok_panic in He. }
  intros [H1|(t & E & H1)]; [easy|]. rewrite rmap_panic in H1. apply rmap_ok in E as (ls & _ & ->). now apply ok_panic in H1.
Qed.

(** ** what was read can be written *)
Definition good_time (v : version) (d : decimal) : Prop := storable d /\ (old_version v = true -> ~ too_early d).
Definition good_clock (dbg : bool) (v : version) (z : Z) : Prop := in_i32 z = true /\ (old_version v = true -> dbg = true -> ~ early_i32 z).
Lemma wf_storable d : wf_decimal d = true -> storable d.
Proof. destruct d as [r|s]; [|easy]. cbn [wf_decimal storable]. unfold wf_rdec. rewrite !andb_true_iff, N.ltb_lt, <- two96_eq. easy. Qed.
Lemma fit_spec f : forall k m sc m' sc', fit f k m sc = Some (m', sc') ->
  m' < two96 /\ exists j, (k <= j <= k + f)%nat /\ sc' = (sc - j)%nat /\ m' = if Nat.eqb j 0 then m else div_half_even m j.
Proof.
  induction f as [|f IH]; intros k m sc m' sc'; cbn [fit]; destruct (N.ltb_spec (if Nat.eqb k 0 then m else div_half_even m k) two96) as [Hl|Hl].
  - intros [= <- <-]. split; [easy|]. exists k. split; [lia|easy].
  - easy.
  - intros [= <- <-]. split; [easy|]. exists k. split; [lia|easy].
  - intros H. apply IH in H as (H1 & j & H2 & H3). split; [easy|]. exists j. split; [lia|easy].
Qed.
Lemma add_good d d' : d_mant d < two96 -> @rdec_add Empty_set d dec24 = ROk d' ->
  d_mant d' < two96 /\ ~ (d_neg d' = true /\ d_scale d' = 0%nat /\ two96 - 24 <= d_mant d').
Proof.
  destruct d as [n m sc]. cbn [d_mant]. intros Hm. unfold rdec_add, is_zero. cbn [d_mant]. change (d_mant dec24 =? 0) with false. change (d_scale dec24) with 0%nat. change (signed_mant dec24) with 24%Z.
  destruct (N.eqb_spec m 0) as [->|E0]; [intros [= <-]; split; [now vm_compute|]; now intros [H _]|].
  cbn [d_scale]. rewrite Nat.max_0_r, Nat.sub_diag, Nat.sub_0_r. change (pow10 0) with 1%Z. rewrite Z.mul_1_r. unfold signed_mant. cbn [d_neg d_mant].
  set (z := (_ + _)%Z). destruct (fit _ _ _ _) as [[m' sc']|] eqn:E; [|easy]. intros [= <-]. apply fit_spec in E as (H1 & j & Hj & -> & Em).
  unfold from_parts. cbn [d_mant d_neg d_scale]. split; [easy|]. intros (Hn & Hs & Hb).
  assert (Hz : (z < 0)%Z) by (destruct (m' =? 0); [easy|]; now apply Z.ltb_lt). assert (j = sc) by lia. subst j. clear Hj Hs.
  pose proof (pow_pos sc) as Hp. assert (Ha : Z.to_N (Z.abs z) <= m - 24 * 10 ^ N.of_nat sc).
  { apply N2Z.inj_le. rewrite Z2N.id by lia. rewrite N2Z.inj_sub_max, N2Z.inj_mul, pow_N. subst z. unfold pow10 in *. destruct n; lia. }
  destruct sc as [|sc]; cbn [Nat.eqb] in Em.
  - change (24 * 10 ^ N.of_nat 0) with 24 in Ha. lia.
  - pose proof (half_even_le (Z.to_N (Z.abs z)) (S sc)) as Hh. rewrite <- Em in Hh.
    assert (10 <= 10 ^ N.of_nat (S sc)) by (change 10 with (10 ^ 1) at 1; apply N.pow_le_mono_r; lia).
    assert (Z.to_N (Z.abs z) / 10 ^ N.of_nat (S sc) <= two96 / 10).
    { etransitivity; [apply N.div_le_compat_l; split; [|eassumption]; lia|]. apply N.div_le_mono; lia. }
    assert (two96 / 10 + 26 < two96) by now vm_compute. lia.
Qed.
Lemma shift_good v d d' : wf_decimal d = true -> shift_in v d = ROk d' -> good_time v d'.
Proof.
  intros Hw. unfold shift_in, good_time. destruct (old_version v); [|intros [= <-]; split; [now apply wf_storable|easy]].
  destruct d as [r|s]; [|intros [= <-]; split; [easy|]; intros _ (m & H & _); easy].
  intros H. apply rmap_ok in H as (y & H & ->). apply wf_storable in Hw. cbn [storable] in *. rewrite <- two96_eq in *. apply add_good in H as [H1 H2]; [|easy].
  split; [easy|]. intros _ (m & [= ->] & Hm). apply H2. cbn [d_neg d_scale d_mant]. repeat split. assert (T : two96 - 24 = 79228162514264337593543950312) by now vm_compute. lia.
Qed.
Lemma tp_good v s t : tp_from_str v s = ROk (Some t) -> good_time v (tp_time t).
Proof.
  intros H. unfold tp_from_str in H. apply rmap_ok in H as (t' & H & [= <-]). apply verbose_ok in H as (r & H). unfold tp_parser in H.
  apply pbind_iff in H as (r1 & d & H1 & H). apply map_run_v in H1 as (d5 & H1 & Hs). apply context_inv, dfield_inv in H1 as (x & -> & Hx & ->).
  apply preceded_iff in H as (r2 & u & H2 & H). assert (E : tp_time t = d); [|rewrite E; now apply shift_good with (decimal_of_str x); [apply decimal_of_str_wf|]].
  apply alt_inv in H as [H|H].
  - apply pmap_iff in H as (b & _ & ->). easy.
  - do 3 (apply pbind_iff in H as (? & ? & _ & H)). apply pmap_iff in H as ([i [[vol un] e]] & _ & ->). easy.
Qed.
Lemma ho_good v s o : no_nl s = true -> ho_from_str v s = ROk (Some o) -> Forall (good_time v) (object_times o).
Proof.
  intros Hn H. apply obj_iff in H as (o5 & H & Hs). apply ho_from_str_image in H; [|lia|easy].
  destruct Hs as (p & t5 & t & p5 & q & nc & sk & h & hs & -> & -> & Ht & Hp). unfold ho_read in H. cbn [ho_position ho_time ho_obj_params ho_new_combo ho_combo_skip_count ho_hitsound ho_hitsample] in H.
  rewrite !andb_true_iff in H. destruct H as [[[[[_ H1] _] _] H2] _]. unfold object_times. cbn [ho_time ho_obj_params].
  unfold wf_dec_field in H1. apply andb_true_iff in H1 as [H1 _]. constructor; [now apply shift_good with t5|].
  destruct p5, q; cbn [shifted_params moved_params params_ok] in *; try easy.
  - unfold wf_dec_field in H2. apply andb_true_iff in H2 as [H2 _]. constructor; [exact (shift_good v _ _ H2 Hp)|constructor].
  - rewrite !andb_true_iff in H2. destruct H2 as [[[H2 _] _] _]. constructor; [exact (shift_good v _ _ H2 Hp)|constructor].
Qed.
Lemma in_good dbg v z z' : in_i32 z = true -> time_in dbg v z = ROk z' -> good_clock dbg v z'.
Proof.
  intros Hz. unfold time_in, good_clock. destruct (old_version v); [|now intros [= <-]]. unfold i32_add, i32_arith. destruct (in_i32 (z + 24)) eqn:E.
  - intros [= <-]. split; [easy|]. intros _ _. unfold early_i32. unfold in_i32, i32_min, i32_max in *. lia.
  - destruct dbg; [easy|]. intros [= <-]. split; [|easy]. unfold wrap_i32, in_i32, i32_min, i32_max. pose proof (Z.mod_pos_bound (z + 24 - -2147483648) 4294967296). lia.
Qed.
Lemma start_good {C} dbg v (e : C) s r z : start_time_offset dbg v e s = POk r z -> good_clock dbg v z.
Proof.
  unfold start_time_offset. intros H. apply context_inv in H. unfold map_run in H. destruct (comma_field_type _ s) as [r' a| | |] eqn:E; try easy.
  apply field_i32' in E. destruct (time_in dbg v a) as [b|[]|] eqn:Et; try easy. injection H as <- <-. now apply in_good with a.
Qed.
Lemma end_good {C} dbg v (e : C) s r z : end_time_rest dbg v e s = POk r z -> good_clock dbg v z.
Proof.
  unfold end_time_rest. intros H. apply context_inv in H. unfold map_run in H. destruct (consume_rest_type _ s) as [r' a| | |] eqn:E; try easy.
  apply rest_i32 in E. destruct (time_in dbg v a) as [b|[]|] eqn:Et; try easy. injection H as <- <-. now apply in_good with a.
Qed.
Lemma rmap2_ok {A B E F} (f : A -> B) (g : E -> F) (r : res (option A) E) b : rmap2 f g r = ROk (Some b) -> exists a, r = ROk (Some a) /\ b = f a.
Proof. unfold rmap2. destruct r as [[a|]| |]; cbn [rmap rmap_err option_map]; try easy. intros [= <-]. eauto. Qed.
Lemma ev_good dbg v l e : ev_from_line dbg v l = ROk (Some e) -> Forall (good_clock dbg v) (event_times e).
Proof.
  unfold ev_from_line. destruct (ev_kind_parser l) as [r [| | | | | | |]| | |]; try easy; intros H.
  1-7: apply rmap2_ok in H as (x & H & ->); cbn [event_times]; try constructor.
  - unfold vid_from_str in H. apply rmap_ok in H as (y & H & [= <-]). apply verbose_ok in H as (r' & H). unfold vid_parser in H.
    apply pbind_iff in H as (r1 & sh & _ & H). apply pbind_iff in H as (r2 & z & H1 & H). apply preceded_iff in H1 as (r0 & u & _ & H1). apply start_good in H1.
    apply pmap_iff in H as ([f p] & _ & ->). easy.
  - constructor.
  - unfold brk_from_str in H. apply rmap_ok in H as (y & H & [= <-]). apply verbose_ok in H as (r' & H). unfold brk_parser in H.
    apply pbind_iff in H as (r1 & sh & _ & H). apply pbind_iff in H as (r2 & z & H1 & H). apply preceded_iff in H1 as (r0 & u & _ & H1). apply start_good in H1.
    apply pmap_iff in H as (z' & _ & ->). easy.
  - constructor; [|constructor]. unfold brk_from_str in H. apply rmap_ok in H as (y & H & [= <-]). apply verbose_ok in H as (r' & H). unfold brk_parser in H.
    apply pbind_iff in H as (r1 & sh & _ & H). apply pbind_iff in H as (r2 & z & _ & H).
    apply pmap_iff in H as (z' & H1 & ->). apply preceded_iff in H1 as (r0 & u & _ & H1). apply end_good in H1. easy.
  - unfold ctr_from_str in H. apply rmap_ok in H as (y & H & [= <-]). apply verbose_ok in H as (r' & H). unfold ctr_parser in H.
    apply pbind_iff in H as (r1 & z & H1 & H). apply preceded_iff in H1 as (r0 & u & _ & H1). apply start_good in H1.
    do 2 (apply pbind_iff in H as (? & ? & _ & H)). apply pmap_iff in H as (b & _ & ->). easy.
  - constructor.
  - destruct (ob_from_str l) as [[o|]|err|q]; cbn [option_map] in H; try easy; [injection H as <-; constructor|].
    destruct err; try easy. destruct (rmap2 _ _ _) as [[x|]|e'|q] eqn:E in H; try easy.
    + apply rmap2_ok in E as (a & _ & ->). injection H as <-. constructor.
    + destruct e'; try easy. now destruct e0.
Qed.
Lemma set_cmds_times cs e : event_times (ev_set_cmds cs e) = event_times e.
Proof. now destruct e. Qed.
Lemma set_last_all {A} (P : A -> Prop) f l : (forall x, P x -> P (f x)) -> Forall P l -> Forall P (set_last f l).
Proof.
  intros Hf. destruct l as [|x l] using rev_ind; [easy|]. rewrite set_last_snoc, !Forall_app. intros [H1 H2]. split; [easy|]. inversion H2; subst. constructor; [auto|constructor].
Qed.
Lemma step_good dbg v vars evs l evs' : Forall (fun e => Forall (good_clock dbg v) (event_times e)) evs -> ev_step dbg v vars evs l = ROk evs' ->
  Forall (fun e => Forall (good_clock dbg v) (event_times e)) evs'.
Proof.
  intros H. unfold ev_step. destruct (strip_prefix _ l) as [c|].
  { intros [= <-]. apply Forall_app. split; [easy|]. constructor; constructor. }
  destruct (Nat.ltb 0 (indent_of l)).
  - destruct (last_opt evs) as [e|]; [|easy]. destruct (ev_cmds e) as [cs|]; [|easy]. destruct (rmap_err EvCommand _) as [[c|]| |]; cbn [rbind]; try easy.
    + intros K. apply rmap_ok in K as (cs' & _ & ->). apply set_last_all; [|easy]. intros x. now rewrite set_cmds_times.
    + now intros [= <-].
  - intros K. apply rmap_ok in K as ([e|] & K & ->); [|easy]. apply ev_good in K. apply Forall_app. split; [easy|]. now constructor.
Qed.
Lemma loop_good dbg v vars ls : forall i evs evs', Forall (fun e => Forall (good_clock dbg v) (event_times e)) evs -> ev_loop dbg v vars i evs ls = ROk evs' ->
  Forall (fun e => Forall (good_clock dbg v) (event_times e)) evs'.
Proof.
  induction ls as [|l ls IH]; intros i evs evs' H; cbn [ev_loop]; [now intros [= <-]|]. destruct (is_blank l); [now apply IH|].
  destruct (ev_step dbg v vars evs l) as [x| |] eqn:E; try easy. apply IH. now apply step_good in E.
Qed.
Lemma events_good dbg v s o : events_from_str dbg s v = ROk o -> Forall (good_clock dbg v) (all_of o event_times).
Proof.
  intros H. apply rmap_ok in H as (l & H & ->). cbn [all_of]. rewrite all_flat. apply loop_good in H; [easy|constructor].
Qed.
Lemma timing_good v s o : timing_points_from_str s v = ROk o -> Forall (good_time v) (all_of o (fun t => [tp_time t])).
Proof.
  rewrite timing_points_from_str_eq. destruct (parse_lines _ 0 (lines s)) as [xs| |] eqn:E; try easy. intros [= <-]. cbn [all_of]. rewrite all_flat.
  apply parse_lines_ok in E. induction E as [|l x ls xs H E IH]; cbn [flatten_opt]; [constructor|]. destruct x as [t|]; cbn [flatten_opt]; [|easy].
  constructor; [|easy]. constructor; [now apply tp_good in H|constructor].
Qed.
Lemma objects_good v s o : hit_objects_from_str s v = ROk o -> Forall (good_time v) (all_of o object_times).
Proof.
  intros H. apply rmap_ok in H as (l & H & ->). cbn [all_of]. rewrite all_flat. apply parse_lines_ok in H.
  assert (N : forall x, In x (filter (fun l => negb (is_blank l)) (lines s)) -> no_nl x = true).
  { intros x Hx. apply filter_In in Hx as [Hx _]. pose proof (lines_no_nl s) as K. rewrite forallb_forall in K. now apply K. }
  revert H N. generalize (filter (fun l => negb (is_blank l)) (lines s)). intros ls H. induction H as [|x o ls os Hx H IH]; intros N; [constructor|]. constructor.
  - unfold v_unwrap in Hx. destruct (ho_from_str v x) as [[o'|]| |] eqn:E; try easy. injection Hx as ->. apply ho_good with x; [apply N; now left|easy].
  - apply IH. intros y Hy. apply N. now right.
Qed.
Lemma holds_from {T E} secs name (from : str -> res T E) old new : holds secs name from old new -> new = old \/ exists s, from s = ROk new.
Proof.
  intros [H1 H2]. destruct (in_dec (list_eq_dec N.eq_dec) (lit name) (map sec_name secs)) as [H|H].
  - apply in_map_iff in H as (x & Hx & Hi). right. exists (sec_body x). now apply H1.
  - left. apply H2. intros x Hx He. apply H. rewrite <- He. now apply in_map.
Qed.
Lemma read_print dbg s f : osu_from_str dbg s = ROk f -> exists t, osu_to_string dbg f = ROk t.
Proof.
  intros H. assert (K : exists v cs, file_chunks s v cs).
  { destruct (total_cases s) as [Hn|[Hb|[[k Hk]|K]]]; [| | |exact K].
    - apply (version_missing dbg) in Hn as [j Hn]. congruence.
    - destruct Hb as (ws & num & rest & Hh & Hb). rewrite (version_bad dbg s ws num rest Hh Hb) in H. easy.
    - rewrite (total_stray dbg s k Hk) in H. easy. }
  destruct K as (v & cs & K). destruct (proj1 (total_read dbg s v cs f K) H) as [(_ & _ & D0) _]. clear H. unfold describes in D0.
  destruct D0 as (Hv & _ & _ & _ & _ & _ & He & Ht & _ & Hh).
  apply ok_or. assert (E : Forall (good_clock dbg v) (all_of (osu_events f) event_times)).
  { apply holds_from in He as [->|(b & He)]; [constructor|]. now apply events_good in He. }
  assert (T : Forall (good_time v) (all_of (osu_timing_points f) (fun t => [tp_time t]))).
  { apply holds_from in Ht as [->|(b & Ht)]; [constructor|]. now apply timing_good in Ht. }
  assert (O : Forall (good_time v) (all_of (osu_hitobjects f) object_times)).
  { apply holds_from in Hh as [->|(b & Hh)]; [constructor|]. now apply objects_good in Hh. }
  assert (D : Forall (good_time v) (decimal_times f)) by now apply Forall_app.
  unfold panics. rewrite file_out.
  - rewrite Hv. intros [Ho [H|[-> H]]]; apply Exists_exists in H as (x & Hx & H).
    + rewrite Forall_forall in D. now apply (D x Hx).
    + unfold clock_times in Hx. rewrite Forall_forall in E. now apply (E x Hx).
  - eapply Forall_impl; [|exact D]. now intros d [Hd _].
  - eapply Forall_impl; [|exact E]. now intros d [Hd _].
Qed.
