(** The key/value sections: what is read, and when reading panics. *)
From Coq Require Import String List NArith ZArith Bool Lia Permutation.
From Verif Require Import Str Num Nom Dec Parsers KeyValue KvFields General Editor Metadata Difficulty Spec
  SpecWf SpecKv SpecText SpecSections StrFacts NumFacts NomFacts DecFacts LineFacts SplitFacts LayoutFacts
  KvFacts KvSem KvSections KvTheorems KvLines.
Import ListNotations.
Local Open Scope N_scope.

(** ** kinds of fields *)
Definition line_text (t : str) : Prop := rest_ok t = true /\ head_is blank_char t = false.
Lemma img_text {E} t v x : line_text t -> @from_text E t v = ROk (Some x) -> text_value x = true.
Proof. intros [H1 H2]. cbn. intros [= <-]. now apply text_value_iff. Qed.
Lemma img_dec {E} t v x : line_text t -> @from_dec E t v = ROk (Some x) -> dec_value x = true.
Proof.
  intros [H1 H2]. unfold from_dec, nv, parse_decimal. cbn [rmap]. intros [= <-]. unfold dec_value.
  rewrite decimal_of_str_wf. cbn [andb]. unfold decimal_of_str. destruct (parse_rdec t); [easy|].
  now apply text_value_iff.
Qed.
Lemma img_int {E} (f : int_err -> E) t v x : line_text t -> from_int f t v = ROk (Some x) -> in_i32 x = true.
Proof.
  intros _. unfold from_int, nv. destruct (parse_i32 t) as [z|?|?] eqn:Ez; try easy. cbn. intros [= <-].
  now apply parse_i32_range in Ez.
Qed.
Lemma img_id t v x : line_text t -> from_id t v = ROk (Some x) -> in_i32 x = true.
Proof.
  intros _. unfold from_id, nv. destruct (parse_i32 t) as [z|?|?] eqn:Ez; try easy. cbn. intros [= <-].
  now apply parse_i32_range in Ez.
Qed.
Lemma img_ints {E} (f : int_err -> E) e t v x :
  line_text t -> nv (parse_int_list f e) t v = ROk (Some x) -> forallb in_i32 x = true.
Proof.
  intros _. unfold nv. destruct (parse_int_list f e t) as [z|?|?] eqn:Ez; try easy. cbn. intros [= <-].
  now apply int_list_range in Ez.
Qed.
Lemma img_tags t v x : line_text t -> from_tags t v = ROk (Some x) -> tags_value x = true.
Proof. intros [H1 H2]. rewrite from_tags_eq. intros [= <-]. now apply split_tags_value. Qed.

Ltac in_list := repeat (first [left; reflexivity | right]).
Ltac find_field get l :=
  match l with
  | cons (mk_field ?n ?from ?to get ?set) _ => constr:(mk_field n from to get set)
  | cons _ ?l' => find_field get l'
  end.
Lemma opt_all_intro {A} (P : A -> bool) o : (forall x, o = Some x -> P x = true) -> opt_all P o = true.
Proof. destruct o; cbn; auto. Qed.
Ltac image_of laws H fields :=
  rewrite !andb_true_iff; repeat split;
  match goal with |- opt_all _ (?get _) = true =>
    let l := eval unfold fields in fields in
    let f := find_field get l in
    apply opt_all_intro; intros y Ey;
    destruct (kv_read_value _ _ _ _ laws _ _ _ f y H ltac:(in_list) Ey) as (t & H1 & H2 & H3);
    pose proof (conj H1 H2 : line_text t) as Ht; cbn [f_from mk_field] in H3
  end.
Ltac img_kind := first
  [ eapply (img_text _ _ _); eassumption | eapply (img_dec _ _ _); eassumption
  | eapply (img_int _ _ _ _); eassumption | eapply (img_id _ _ _); eassumption
  | eapply (img_ints _ _ _ _ _); eassumption | eapply (img_tags _ _ _); eassumption ].

Lemma difficulty_image s v d : difficulty_from_str s v = ROk (Some d) -> difficulty_ok d = true.
Proof.
  intros H. unfold difficulty_from_str in H. unfold difficulty_ok.
  image_of difficulty_laws H difficulty_fields; img_kind.
Qed.
Lemma metadata_image s v m : metadata_from_str s v = ROk (Some m) -> metadata_ok m = true.
Proof.
  intros H. unfold metadata_from_str in H. unfold metadata_ok.
  image_of metadata_laws H metadata_fields; img_kind.
Qed.
Lemma editor_image s v e : editor_from_str s v = ROk (Some e) -> editor_ok e = true.
Proof.
  intros H. unfold editor_from_str in H. unfold editor_ok.
  image_of editor_laws H editor_fields; img_kind.
Qed.
Lemma general_image s v g : general_from_str s v = ROk (Some g) -> general_ok g = true.
Proof.
  intros H. unfold general_from_str in H. unfold general_ok.
  image_of general_laws H general_fields; img_kind.
Qed.

(** Reading respects the versions. *)
Ltac read_of laws H fields get :=
  let l := eval unfold fields in fields in
  let f := find_field get l in
  match goal with Ey : get _ = Some ?y |- _ =>
    destruct (kv_read_value _ _ _ _ laws _ _ _ f y H ltac:(in_list) Ey) as (t & H1 & H2 & H3);
    cbn [f_from mk_field] in H3
  end.
Lemma general_read_gates s v g : general_from_str s v = ROk (Some g) ->
  opt_if (has_countdown v) (general_countdown g) = general_countdown g
  /\ opt_if (has_sample_set v) (general_sample_set g) = general_sample_set g
  /\ opt_if (has_overlay v) (general_overlay_position g) = general_overlay_position g
  /\ match general_mode g with Some m => opt_if (has_mode v m) (Some m) | None => None end = general_mode g.
Proof.
  intros H. unfold general_from_str in H. repeat split.
  - destruct (general_countdown g) as [x|] eqn:Ey; [|unfold opt_if; now destruct (has_countdown v)].
    read_of general_laws H general_fields general_countdown.
    unfold opt_if, has_countdown. fold (old_version v). unfold countdown_from_str in H3.
    now destruct (old_version v).
  - destruct (general_sample_set g) as [x|] eqn:Ey; [|unfold opt_if; now destruct (has_sample_set v)].
    read_of general_laws H general_fields general_sample_set.
    unfold opt_if, has_sample_set. unfold gsample_set_from_str in H3. now destruct (v =? 3)%Z.
  - destruct (general_overlay_position g) as [x|] eqn:Ey; [|unfold opt_if; now destruct (has_overlay v)].
    read_of general_laws H general_fields general_overlay_position.
    unfold opt_if, has_overlay. fold (no_overlay v). unfold overlay_position_from_str in H3. now destruct (no_overlay v).
  - destruct (general_mode g) as [x|] eqn:Ey; [|easy].
    read_of general_laws H general_fields general_mode. unfold mode_from_str in H3.
    assert (Hg : forall m, mode_gate m v = opt_if (has_mode v m) (Some m)).
    { intros m. destruct (reads_mode m v) as (_ & _ & Hr). unfold mode_from_str in Hr.
      rewrite parse_print_usize in Hr by now destruct m. destruct m; cbn in Hr; now injection Hr. }
    destruct (parse_usize t) as [r|?|?]; try easy.
    assert (Hm : forall m, mode_gate m v = Some x -> opt_if (has_mode v x) (Some x) = Some x).
    { intros m Hm. rewrite Hg in Hm. unfold opt_if in *. destruct (has_mode v m) eqn:E; [|easy].
      injection Hm as ->. now rewrite E. }
    destruct (r =? 0)%Z; [injection H3 as H3; eauto|]. destruct (r =? 1)%Z; [injection H3 as H3; eauto|].
    destruct (r =? 2)%Z; [injection H3 as H3; eauto|]. destruct (r =? 3)%Z; [injection H3 as H3; eauto|easy].
Qed.
Lemma opt_if_same {A} b (o : option A) : b = true \/ o = None -> opt_if b o = o.
Proof. intros [->| ->]; [easy|]. now destruct b. Qed.
Lemma general_read_at s v g : general_from_str s v = ROk (Some g) ->
  has_audio_hash v = true \/ general_audio_hash g = None ->
  has_editor_fields v = true
  \/ general_editor_bookmarks g = None /\ general_editor_distance_spacing g = None ->
  general_at v g = g.
Proof.
  intros H Ha Hb. apply general_read_gates in H as (H1 & H2 & H3 & H4).
  unfold general_at. rewrite H1, H2, H3, H4.
  rewrite (opt_if_same _ _ Ha). rewrite !opt_if_same by tauto. now destruct g.
Qed.
Lemma editor_read_at v e : v = 10%Z \/ editor_current_time e = None -> editor_at v e = e.
Proof.
  intros H. unfold editor_at. rewrite opt_if_same; [now destruct e|]. destruct H as [->|H]; auto.
Qed.

(** ** panics *)
Lemma np_text {E} x v q : @from_text E x v <> RPanic q.
Proof. easy. Qed.
Lemma np_dec {E} x v q : @from_dec E x v <> RPanic q.
Proof. easy. Qed.
Lemma np_int {E} (f : int_err -> E) x v q : from_int f x v <> RPanic q.
Proof.
  unfold from_int, nv. destruct (parse_i32 x) eqn:Ex; cbn; try easy. now apply parse_i32_no_panic in Ex.
Qed.
Lemma np_ints {E} (f : int_err -> E) e x v q : nv (parse_int_list f e) x v <> RPanic q.
Proof.
  unfold nv. destruct (parse_int_list f e x) eqn:Ex; cbn; try easy. now apply parse_int_list_np in Ex.
Qed.
Lemma np_flag x v q : from_zero_one x v <> RPanic q.
Proof.
  unfold from_zero_one, nv. destruct (parse_zero_one_bool x) eqn:Ex; cbn; try easy. now apply np_bool in Ex.
Qed.
Lemma np_tags x v q : from_tags x v <> RPanic q.
Proof. now rewrite from_tags_eq. Qed.
Lemma np_countdown x v q : countdown_from_str x v <> RPanic q.
Proof.
  unfold countdown_from_str. destruct (old_version v); [easy|]. destruct (parse_usize x) eqn:Ex; cbn; try easy.
  - destruct (countdown_from_repr a v) as [[c|]|]; easy.
  - now apply parse_usize_no_panic in Ex.
Qed.
Lemma np_mode x v q : mode_from_str x v <> RPanic q.
Proof.
  unfold mode_from_str. destruct (parse_usize x) eqn:Ex; cbn; try easy.
  - repeat match goal with |- context [if ?b then _ else _] => destruct b end; easy.
  - now apply parse_usize_no_panic in Ex.
Qed.
Lemma np_sample_set x v q : gsample_set_from_str x v <> RPanic q.
Proof.
  unfold gsample_set_from_str. repeat match goal with |- context [if ?b then _ else _] => destruct b end; easy.
Qed.
Lemma np_overlay x v q : overlay_position_from_str x v <> RPanic q.
Proof.
  unfold overlay_position_from_str. repeat match goal with |- context [if ?b then _ else _] => destruct b end; easy.
Qed.
Ltac np_kind := first [apply np_text | apply np_dec | apply np_int | apply np_ints | apply np_flag | apply np_tags
  | apply np_countdown | apply np_mode | apply np_sample_set | apply np_overlay].
Lemma general_np s v p : general_from_str s v <> RPanic p.
Proof.
  apply (kv_from_str_np _ _ _ _ general_laws). intros f Hf x q.
  each_field Hf; cbn [f_from mk_field]; np_kind.
Qed.
Lemma editor_np s v p : editor_from_str s v <> RPanic p.
Proof.
  apply (kv_from_str_np _ _ _ _ editor_laws). intros f Hf x q.
  each_field Hf; cbn [f_from mk_field]; np_kind.
Qed.
Lemma difficulty_np s v p : difficulty_from_str s v <> RPanic p.
Proof.
  apply (kv_from_str_np _ _ _ _ difficulty_laws). intros f Hf x q.
  each_field Hf; cbn [f_from mk_field]; np_kind.
Qed.

(** *** the two ids of [Metadata] *)
Lemma from_id_text s v : i32_text s -> exists z, from_id s v = ROk (Some z).
Proof. intros (z & H). apply i32_accepts in H. unfold from_id, nv. rewrite H. cbn. eauto. Qed.
Lemma from_id_panic s v : ~ i32_text s -> from_id s v = RPanic PUnwrap.
Proof.
  intros H. unfold from_id, nv. destruct (parse_i32 s) as [z|e|p] eqn:E.
  - exfalso. apply H. exists z. now apply i32_accepts.
  - easy.
  - now apply parse_i32_no_panic in E.
Qed.
Lemma from_id_cases s v : (exists z, from_id s v = ROk (Some z)) /\ i32_text s \/ from_id s v = RPanic PUnwrap /\ ~ i32_text s.
Proof.
  unfold from_id, nv. destruct (parse_i32 s) as [z|e|p] eqn:E.
  - left. split; [now exists z|]. exists z. now apply i32_accepts.
  - right. split; [easy|]. intros (z & H). apply i32_accepts in H. congruence.
  - now apply parse_i32_no_panic in E.
Qed.
Lemma metadata_field_cases f v x : In f metadata_fields ->
  id_key (f_name f) /\ ((exists y, f_from f x v = ROk y) /\ i32_text x \/ f_from f x v = RPanic PUnwrap /\ ~ i32_text x)
  \/ ~ id_key (f_name f) /\ exists y, f_from f x v = ROk y.
Proof.
  intros Hf. each_field Hf; cbn [f_name f_from mk_field];
    try (right; split; [intros [H|H]; discriminate H|]; try rewrite from_tags_eq; eexists; reflexivity).
  - left. split; [now left|]. destruct (from_id_cases x v) as [[[z ->] Hz]|H]; [left; eauto|now right].
  - left. split; [now right|]. destruct (from_id_cases x v) as [[[z ->] Hz]|H]; [left; eauto|now right].
Qed.
Lemma metadata_good v e :
  good_entry metadata_fields v e <->
  In (entry_key e) metadata_keys /\ (id_key (entry_key e) -> i32_text (entry_value e)).
Proof.
  rewrite <- metadata_keys_eq. split.
  - intros (f & y & Hf & Hn & Hy). split; [rewrite <- Hn; now apply in_map|]. rewrite <- Hn.
    intros Hid. destruct (metadata_field_cases f v (entry_value e) Hf) as [[_ [[_ H]|[H _]]]|[H _]]; [easy|congruence|easy].
  - intros [Hk Hid]. apply in_map_iff in Hk as (f & Hn & Hf). rewrite <- Hn in Hid.
    destruct (metadata_field_cases f v (entry_value e) Hf) as [[H1 [[[y H] _]|[_ H]]]|[_ [y H]]].
    + now exists f, y.
    + exfalso. auto.
    + now exists f, y.
Qed.
Lemma metadata_panics s v p :
  metadata_from_str s v = RPanic p <->
  p = PUnwrap /\ exists es1 e es2 t,
    s = kv_text (es1 ++ e :: es2) ++ t /\ entries_ok (es1 ++ e :: es2) = true
    /\ rest_after (es1 ++ e :: es2) t = true /\ is_blank t = true
    /\ NoDup (map entry_key (es1 ++ [e]))
    /\ (forall x, In x es1 -> In (entry_key x) metadata_keys
                              /\ (id_key (entry_key x) -> i32_text (entry_value x)))
    /\ id_key (entry_key e) /\ ~ i32_text (entry_value e).
Proof.
  unfold metadata_from_str. pose proof (law_names _ _ _ metadata_laws) as names. split.
  - destruct (kv_lines_decompose (C:=unit) s) as (es & t & Hs & He & Ht & _).
    rewrite (kv_from_str_eq _ _ _ s v es t Hs He Ht). destruct (is_blank t) eqn:Eb; [|easy].
    destruct (kv_loop_stop metadata_errs metadata_fields names v 0 [] metadata_new es)
      as [[sec' ->]|(es1 & e & es2 & r & -> & Hn & _ & Hg & Hst & -> & _)]; [easy|].
    intros Hp. cbn [app] in Hst.
    destruct Hst as [[_ ->]|[Hnd [[_ ->]|(f & Hf & Hfn & [(er & _ & ->)|(q & Hq & ->)])]]]; try easy.
    injection Hp as ->.
    destruct (metadata_field_cases f v (entry_value e) Hf) as [[Hid [[[y Hy] _]|[Hy Hni]]]|[_ [y Hy]]]; try congruence.
    split; [congruence|]. exists es1, e, es2, t. rewrite <- Hfn.
    repeat (split; [easy|]). split; [|split; [|easy]].
    + rewrite map_app. cbn [map]. apply (Permutation_NoDup (Permutation_cons_append _ _)). now constructor.
    + intros x Hx. apply (metadata_good v). auto.
  - intros (-> & es1 & e & es2 & t & Hs & He & Ht & Hb & Hn & Hg & Hid & Hni).
    rewrite (kv_from_str_eq _ _ _ s v _ t Hs He Ht), Hb.
    rewrite map_app in Hn. cbn [map] in Hn.
    apply (Permutation_NoDup (Permutation_sym (Permutation_cons_append _ _))) in Hn.
    apply NoDup_cons_iff in Hn as [Hn1 Hn2].
    destruct (kv_loop_stop metadata_errs metadata_fields names v 0 [] metadata_new (es1 ++ e :: es2))
      as [[sec' H]|(es1' & e' & es2' & r & Heq & Hn' & _ & Hg' & Hst & -> & _)].
    + apply kv_loop_ok in H; [|easy]. destruct H as (_ & _ & Hg2 & _). exfalso. apply Hni.
      assert (H : good_entry metadata_fields v e) by (apply Hg2, in_or_app; right; now left).
      apply metadata_good in H as [_ H]. auto.
    + cbn [app] in Hst.
      assert (Hcase : (exists l, es1 = es1' ++ e' :: l) \/ (es1 = es1' /\ e = e') \/ In e es1').
      { clear - Heq. revert es1' Heq. induction es1 as [|x es1 IH]; intros [|x' es1'] Heq; cbn [app] in Heq.
        - injection Heq as <- <-. right; left; auto.
        - injection Heq as <- _. right; right. now left.
        - injection Heq as <- _. left. now exists es1.
        - injection Heq as <- Heq. destruct (IH _ Heq) as [[l ->]|[[-> ->]|H]].
          + left. now exists l.
          + right; left; auto.
          + right; right. now right. }
      destruct Hcase as [[l ->]|[[<- <-]|Hin]].
      * exfalso. assert (Hge : good_entry metadata_fields v e').
        { apply metadata_good, Hg, in_or_app. right. now left. }
        destruct Hge as (g & y & Hgin & Hgn & Hgy).
        rewrite map_app in Hn2. cbn [map] in Hn2. apply NoDup_remove_2 in Hn2.
        destruct Hst as [[H _]|[_ [[H _]|(f & Hf & Hfn & H)]]].
        -- apply Hn2, in_or_app. now left.
        -- apply H. rewrite <- Hgn. now apply in_map.
        -- assert (f = g) as -> by (apply (same_name _ _ _ metadata_laws); congruence).
           destruct H as [(? & H & _)|(? & H & _)]; congruence.
      * destruct Hst as [[H _]|[_ [[H _]|(f & Hf & Hfn & H)]]]; [easy| |].
        -- exfalso. apply H. change (map f_name metadata_fields) with metadata_keys.
           destruct Hid as [->| ->]; cbn; tauto.
        -- rewrite <- Hfn in Hid.
           destruct (metadata_field_cases f v (entry_value e) Hf) as [[_ [[_ Hy]|[Hy _]]]|[Hy _]]; try easy.
           destruct H as [(? & H & _)|(q & H & ->)]; [congruence|]. rewrite Hy in H. now injection H as <-.
      * exfalso. apply Hg' in Hin. apply metadata_good in Hin as [_ H]. auto.
Qed.

(** ** permuting lines *)
Definition line_kr (l : str) : str * str :=
  let (k, r) := span (fun c => negb (c =? 58)) l in (k, tl r).
Lemma line_kr_ok l : kv_line_ok l = true ->
  kr_line (line_kr l) = l /\ key_ok (fst (line_kr l)) = true /\ head_is ms_char (fst (line_kr l)) = false
  /\ rest_ok (snd (line_kr l)) = true.
Proof.
  unfold kv_line_ok. rewrite !andb_true_iff. intros [[Hc Hr] Hh]. unfold line_kr.
  destruct (span (fun c => negb (c =? 58)) l) as [k r] eqn:Es. apply span_spec in Es as (-> & Hk & Hs).
  unfold rest_ok in *. rewrite forallb_app in Hr. apply andb_true_iff in Hr as [Hr1 Hr2].
  destruct r as [|c r].
  { exfalso. rewrite app_nil_r in Hc. apply contains_char_spec in Hc. rewrite forallb_forall in Hk.
    now specialize (Hk _ Hc). }
  apply negb_false_iff, N.eqb_eq in Hs. subst c. cbn [tl fst snd]. unfold kr_line. cbn [fst snd].
  split; [easy|]. split; [|split].
  - unfold key_ok. apply forallb_forall. intros c Hin. rewrite forallb_forall in Hk, Hr1.
    specialize (Hk _ Hin). specialize (Hr1 _ Hin). cbn beta in *. unfold break_char in Hr1.
    now destruct (c =? 58), (c =? 10), (c =? 13).
  - destruct k as [|c k]; [easy|]. cbn in Hh, Hr1 |- *. apply negb_true_iff in Hh. unfold ms_char. rewrite Hh.
    apply andb_true_iff in Hr1 as [Hr1 _]. now apply negb_true_iff in Hr1.
  - exact Hr2.
Qed.
Lemma kr_lines_text ls : forallb kv_line_ok ls = true ->
  text_of_lines ls = kv_text (with_gaps (map line_kr ls)) /\ entries_ok (with_gaps (map line_kr ls)) = true.
Proof.
  intros H. rewrite forallb_forall in H. split.
  - rewrite with_gaps_text, map_map. f_equal. symmetry. rewrite <- (map_id ls) at 2. apply map_ext_in.
    intros l Hl. now apply line_kr_ok, H.
  - apply with_gaps_ok. intros x Hx. apply in_map_iff in Hx as (l & <- & Hl). now apply line_kr_ok, H.
Qed.
Lemma with_gaps_key_value l :
  map key_value (with_gaps l) = map (fun kr => (fst kr, skip_blanks (snd kr))) l.
Proof. rewrite <- (with_gaps_map l) at 2. rewrite map_map. easy. Qed.
Section Permute.
  Context {S E : Type}.
  Variable errs : kv_errs E.
  Variable fields : list (field S E).
  Variable new : S.
  Variable spacing : str -> version -> str.
  Hypothesis laws : field_laws fields new spacing.
  Lemma kv_permute_lines ls ls' v x :
    forallb kv_line_ok ls = true -> Permutation ls ls' ->
    kv_from_str errs fields new (text_of_lines ls) v = ROk x ->
    kv_from_str errs fields new (text_of_lines ls') v = ROk x.
  Proof.
    intros H Hp. assert (H' : forallb kv_line_ok ls' = true).
    { apply forallb_forall. intros l Hl. rewrite forallb_forall in H. apply H.
      now apply (Permutation_in _ (Permutation_sym Hp)). }
    destruct (kr_lines_text ls H) as [-> He]. destruct (kr_lines_text ls' H') as [-> He'].
    intros Hx. destruct x as [sec|]; [|now apply (kv_from_str_some errs fields new) in Hx].
    revert Hx. apply (kv_permutation errs fields new spacing laws); try easy.
    rewrite !with_gaps_key_value. now apply Permutation_map, Permutation_map.
  Qed.
End Permute.
