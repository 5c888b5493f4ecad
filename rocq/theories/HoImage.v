(** What the hit object reader produces is well formed, so reading, printing and
    reading again gives the same objects. *)
From Coq Require Import String List NArith ZArith Bool Lia.
From Verif Require Import Str Num Nom Dec Parsers Colours TimingPoints HitObjects Spec StrFacts NumFacts
  NomFacts DecFacts LineFacts ColoursFacts FieldFacts TpFacts HoFacts HoRound HoObj.
Import ListNotations.
Local Open Scope N_scope.

Lemma no_nl_suffix (a r : str) : no_nl (a ++ r) = true -> no_nl r = true.
Proof. rewrite no_nl_app. intros H. now apply andb_true_iff in H. Qed.
Lemma no_nl_prefix (a r : str) : no_nl (a ++ r) = true -> no_nl a = true.
Proof. rewrite no_nl_app. intros H. now apply andb_true_iff in H. Qed.

(** ** hit samples *)
Definition keeps_nl {C A} (p : parser C A) : Prop :=
  forall s r a, p s = POk r a -> no_nl s = true -> no_nl r = true.
Lemma keeps_pbind {C A B} (p : parser C A) (f : A -> parser C B) :
  keeps_nl p -> (forall a, keeps_nl (f a)) -> keeps_nl (pbind p f).
Proof. intros Hp Hf s r b H Hn. apply pbind_inv in H as (r1 & a & H1 & H2). eapply Hf, Hp; eauto. Qed.
Lemma keeps_pmap {C A B} (f : A -> B) (p : parser C A) : keeps_nl p -> keeps_nl (pmap f p).
Proof. intros Hp s r b H Hn. apply pmap_inv in H as (a & H & _). eauto. Qed.
Lemma keeps_alt {C A} (p q : parser C A) : keeps_nl p -> keeps_nl q -> keeps_nl (alt p q).
Proof. intros Hp Hq s r b H Hn. apply alt_inv in H as [H|H]; eauto. Qed.
Lemma keeps_context {C A} c (p : parser C A) : keeps_nl p -> keeps_nl (context c p).
Proof. intros Hp s r b H Hn. apply context_inv in H. eauto. Qed.
Lemma keeps_map_res {C A B E} (p : parser C A) (f : A -> res B E) : keeps_nl p -> keeps_nl (map_res p f).
Proof. intros Hp s r b H Hn. apply map_res_inv in H as (a & H & _). eauto. Qed.
Lemma keeps_take_while {C} f : keeps_nl (@take_while C f).
Proof. intros s r a H Hn. apply take_while_inv in H as (-> & _). now apply no_nl_suffix in Hn. Qed.
Lemma keeps_tag {C} t : keeps_nl (@tag C t).
Proof. intros s r a H Hn. apply tag_inv in H as [-> _]. now apply no_nl_suffix in Hn. Qed.
Lemma keeps_pchar {C} c : keeps_nl (@pchar C c).
Proof. intros s r a H Hn. apply pchar_inv in H as [-> _]. now apply (no_nl_suffix [c]) in Hn. Qed.
Lemma keeps_eof {C} : keeps_nl (@eof C).
Proof. intros s r a H Hn. now apply eof_inv in H as (_ & -> & _). Qed.
Lemma keeps_prest {C} : keeps_nl (@prest C).
Proof. intros s r a H Hn. now injection H as <- <-. Qed.
Lemma keeps_pipe {C A E} (f : str -> res (option A) E) : keeps_nl (@pipe_vec_versioned_map C A E f).
Proof. intros s r a H Hn. apply pipe_vec_inv in H as [[x ->] _]. now apply no_nl_suffix in Hn. Qed.
Create HintDb keeps.
#[export] Hint Resolve keeps_pbind keeps_pmap keeps_alt keeps_context keeps_map_res keeps_take_while keeps_tag
  keeps_pchar keeps_eof keeps_prest keeps_pipe : keeps.
Lemma keeps_preceded {C A B} (p : parser C A) (q : parser C B) :
  keeps_nl p -> keeps_nl q -> keeps_nl (preceded p q).
Proof. intros. now apply keeps_pbind. Qed.
Lemma keeps_nothing {C} : keeps_nl (@nothing C).
Proof. apply keeps_preceded; [apply keeps_take_while|apply keeps_eof]. Qed.
#[export] Hint Resolve keeps_preceded keeps_nothing : keeps.
Lemma keeps_hs_optional {A} (p : parser hs_err A) : keeps_nl p -> keeps_nl (hs_optional p).
Proof. intros H. unfold hs_optional, hs_sep. auto 10 with keeps. Qed.
Lemma keeps_hs_sample_set : keeps_nl hs_sample_set.
Proof. unfold hs_sample_set, hs_field. auto with keeps. Qed.
#[export] Hint Resolve keeps_hs_optional keeps_hs_sample_set : keeps.

Lemma hit_sample_name_no_nl s r h : hit_sample_parser s = POk r h -> no_nl s = true -> no_nl (hs_filename h) = true.
Proof.
  unfold hit_sample_parser. intros H Hn. apply alt_inv in H as [H|H].
  { apply pmap_inv in H as (? & _ & ->). easy. }
  apply pbind_inv in H as (r1 & n & H1 & H). apply pbind_inv in H as (r2 & a & H2 & H).
  apply pbind_inv in H as (r3 & i & H3 & H). apply pbind_inv in H as (r4 & vol & H4 & H).
  apply pmap_inv in H as (f & Hf & ->). cbn [hs_filename].
  assert (N1 : no_nl r1 = true).
  { revert H1 Hn. apply (keeps_alt _ _ (keeps_pmap _ _ keeps_nothing) (keeps_pmap _ _ keeps_hs_sample_set)). }
  assert (N2 : no_nl r2 = true) by exact (keeps_hs_optional _ keeps_hs_sample_set _ _ _ H2 N1).
  assert (N3 : no_nl r3 = true).
  { revert H3 N2. apply keeps_hs_optional. unfold hs_field. auto with keeps. }
  assert (N4 : no_nl r4 = true).
  { revert H4 N3. apply keeps_hs_optional. unfold hs_field. auto with keeps. }
  apply hs_optional_inv in Hf as [->|(t & x & -> & -> & Hf & _)]; [easy|]. cbn [or_default].
  apply take_while_inv in Hf as (-> & _). now apply no_nl_suffix, no_nl_prefix in N4.
Qed.
Lemma hit_sample_image s h : hit_sample_from_str s = ROk (Some h) -> no_nl s = true ->
  hit_sample_read h && no_nl (hs_filename h) = true.
Proof.
  intros H Hn. rewrite (hit_sample_from_ok s h H). cbn.
  unfold hit_sample_from_str, verbose_error_to_error in H.
  destruct (hit_sample_parser s) as [r x|e|e|p] eqn:E; cbn in H; try easy; try (now destruct (e_ctx e)).
  injection H as <-. now apply hit_sample_name_no_nl in E.
Qed.
Definition sample_image (hs : option hit_sample) : bool :=
  match hs with Some h => hit_sample_read h && no_nl (hs_filename h) | None => true end.
Lemma ho_hitsample_image s r hs :
  ho_hitsample_p s = POk r hs -> no_nl s = true -> sample_image hs = true.
Proof.
  unfold ho_hitsample_p. intros H Hn. apply alt_inv in H as [H|H]; apply pmap_inv in H as (a & H & ->); [easy|].
  apply pbind_inv in H as (r1 & c & Hc & H). apply context_inv, comma_no_nl in Hc; [|easy].
  apply context_inv, map_res_inv in H as (t & [= <- <-] & H). apply v_unwrap_inv in H.
  now apply hit_sample_image in H.
Qed.

(** ** objects *)
Lemma point_image t p : item_text t = true -> curve_point_from_str t = ROk (Some p) -> point_ok p = true.
Proof.
  intros Ht H. unfold curve_point_from_str, verbose_error_to_error in H.
  destruct (curve_point_parser t) as [r x|e|e|] eqn:E; cbn in H; try easy; try (now destruct (e_ctx e)).
  injection H as <-. unfold curve_point_parser in E.
  apply pbind_inv in E as (r1 & px & E1 & E2). apply terminated_inv in E1 as (r2 & b & E1 & E3).
  apply context_inv, map_res_inv in E1 as (a & E1 & [= <-]). apply take_while_inv in E1 as (-> & Ha & _).
  apply context_inv, tag_inv in E3 as [-> _].
  apply pmap_inv in E2 as (py & E2 & ->). apply context_inv, map_res_inv in E2 as (y & [= <- <-] & [= <-]).
  rewrite !item_app in Ht. rewrite !andb_true_iff in Ht. destruct Ht as [Ta [_ Tr]].
  unfold point_ok. cbn [pos_x pos_y]. rewrite !decimal_of_str_wf. cbn [andb].
  unfold decimal_of_str. destruct (parse_rdec a), (parse_rdec r1); cbn [dec_item dec_no_colon andb];
    rewrite ?Ta, ?Tr; cbn; unfold no_colon; rewrite ?Ha; easy.
Qed.
Lemma edge_set_image t x : edge_set_from_str t = ROk (Some x) -> edge_set_ok x = true.
Proof.
  intros H. unfold edge_set_from_str, verbose_error_to_error in H.
  destruct (edge_set_parser t) as [r y|e|e|] eqn:E; cbn in H; try easy; try (now destruct (e_ctx e)).
  injection H as <-. unfold edge_set_parser in E.
  apply pbind_inv in E as (r1 & n & E1 & E2). apply terminated_inv in E1 as (r2 & b & E1 & E3).
  apply context_inv, map_res_inv in E1 as (a & _ & E1). apply v_unwrap_inv, sample_set_from_ok in E1.
  apply pmap_inv in E2 as (ad & E2 & ->). apply context_inv, vrest_inv in E2 as [_ E2].
  apply sample_set_from_ok in E2. unfold edge_set_ok. cbn. now rewrite E1, E2.
Qed.
Lemma ho_curve_image v s r ct cps :
  (4 < v)%Z -> ho_curve v s = POk r (ct, cps) -> no_nl s = true ->
  no_nl r = true /\ forallb point_ok cps = true.
Proof.
  intros Hv H Hn. unfold ho_curve in H. replace (v =? 3)%Z with false in H by lia.
  apply alt_inv in H as [H|H].
  - apply pmap_inv in H as (a & H & [= -> ->]). apply pbind_inv in H as (r1 & c & Hc & H).
    apply context_inv, comma_no_nl in Hc; [|easy]. apply context_inv, vfield_inv in H as (b & -> & _).
    now apply no_nl_suffix in Hc.
  - apply pbind_inv in H as (r1 & c & Hc & H). apply pmap_inv in H as (l & H & [= -> ->]).
    apply pbind_inv in Hc as (r2 & c2 & Hc & Hc2). apply context_inv, comma_no_nl in Hc; [|easy].
    apply context_inv, map_res_inv in Hc2 as (t & Hc2 & _). apply (fun H => keeps_take_while _ _ _ _ H Hc) in Hc2.
    apply pbind_inv in H as (r3 & c3 & H3 & H). apply context_inv, (fun H => keeps_pchar _ _ _ _ H Hc2) in H3.
    apply context_inv in H. pose proof (keeps_pipe _ _ _ _ H H3) as Hr. split; [easy|].
    apply pipe_vec_inv in H as [_ H]. apply forallb_forall. rewrite Forall_forall in H.
    intros p Hp. destruct (H p Hp) as (u & Hu & Hf). now apply (point_image u).
Qed.
Lemma ho_edges_image s r es sets hs sh1 sh2 :
  ho_edges s = POk r (es, sets, hs, sh1, sh2) -> no_nl s = true ->
  sample_image hs = true /\ forallb edge_set_ok sets = true
  /\ (if sh1 then is_empty es && is_empty sets && sh2 && match hs with None => true | _ => false end
      else if sh2 then is_empty sets && match hs with None => true | _ => false end else true) = true.
Proof.
  intros H Hn. unfold ho_edges in H. apply alt_inv in H as [H|H].
  { apply pmap_inv in H as (a & _ & [= -> -> -> -> ->]). easy. }
  apply pbind_inv in H as (r1 & es' & H1 & H). apply pbind_inv in H1 as (r2 & c & H1 & H2).
  apply context_inv, comma_no_nl in H1; [|easy]. apply context_inv, (fun H => keeps_pipe _ _ _ _ H H1) in H2.
  apply pmap_inv in H as ([[sets' hs'] sh'] & H & [= -> -> -> -> ->]).
  apply alt_inv in H as [H|H].
  { apply pmap_inv in H as (a & _ & [= -> -> ->]). easy. }
  apply pbind_inv in H as (r3 & sets'' & H3 & H). apply pmap_inv in H as (hs'' & H & [= -> -> ->]).
  apply pbind_inv in H3 as (r4 & c4 & H4 & H3). apply context_inv, comma_no_nl in H4; [|easy].
  apply context_inv in H3. pose proof (keeps_pipe _ _ _ _ H3 H4) as Hr.
  apply ho_hitsample_image in H; [|easy]. repeat split; [easy|].
  apply pipe_vec_inv in H3 as [_ H3]. apply forallb_forall. rewrite Forall_forall in H3.
  intros x Hx. destruct (H3 x Hx) as (u & _ & Hu). now apply edge_set_image in Hu.
Qed.
Lemma shift_in_inv {C} v (p : parser C decimal) s r d :
  (4 < v)%Z -> map_run p (shift_in v) s = POk r d -> p s = POk r d.
Proof.
  intros Hv. unfold map_run. destruct (p s) as [r0 a| | |]; try easy. unfold shift_in.
  now rewrite (new_not_old v Hv).
Qed.
Lemma ho_slider_image v s r p hs :
  (4 < v)%Z -> ho_slider v s = POk r (p, hs) -> no_nl s = true ->
  slide_ok p hs = true /\ sample_image hs = true.
Proof.
  intros Hv H Hn. unfold ho_slider in H. apply pbind_inv in H as (r1 & [ct cps] & H1 & H).
  apply ho_curve_image in H1 as [N1 Hcp]; [|easy|easy].
  apply pbind_inv in H as (r2 & sl & H2 & H). apply pbind_inv in H2 as (r3 & c3 & H3 & H2).
  apply context_inv, comma_no_nl in H3; [|easy]. apply context_inv, field_inv in H2 as (a2 & -> & _ & H2).
  apply no_nl_suffix in H3. apply parse_i32_range in H2.
  apply pbind_inv in H as (r4 & len & H4 & H). apply pbind_inv in H4 as (r5 & c5 & H5 & H4).
  apply context_inv, comma_no_nl in H5; [|easy]. apply context_inv, dfield_wf in H4 as [H4 N4]; [|easy].
  apply pmap_inv in H as ([[[[es sets] hs'] sh1] sh2] & H & [= -> ->]).
  apply ho_edges_image in H as (Hs & Hset & Hsh); [|easy]. split; [|easy].
  unfold slide_ok, shorthand_ok. cbn [sl_curve_points sl_slides sl_length sl_edge_sets sl_edge_sounds
    sl_edge_sounds_short_hand sl_edge_sets_shorthand]. now rewrite Hcp, H2, H4, Hset, Hsh.
Qed.
Lemma ho_spinner_image v s r t hs :
  (4 < v)%Z -> ho_spinner v s = POk r (t, hs) -> no_nl s = true ->
  wf_dec_field t = true /\ sample_image hs = true.
Proof.
  intros Hv H Hn. unfold ho_spinner in H. apply pbind_inv in H as (r1 & t' & H1 & H).
  apply shift_in_inv in H1; [|easy]. apply pbind_inv in H1 as (r2 & c2 & H2 & H1).
  apply context_inv, comma_no_nl in H2; [|easy]. apply context_inv, dfield_wf in H1 as [H1 N1]; [|easy].
  apply pmap_inv in H as (hs' & H & [= -> ->]). apply ho_hitsample_image in H; easy.
Qed.
Lemma ho_hold_image v s r t hs :
  (4 < v)%Z -> ho_hold v s = POk r (t, hs) -> no_nl s = true ->
  params_ok (OsuManiaHold t) hs = true /\ sample_image hs = true.
Proof.
  intros Hv H Hn. unfold ho_hold in H. apply pbind_inv in H as (r1 & t' & H1 & H).
  apply pbind_inv in H1 as (r2 & c2 & H2 & H1). apply context_inv, comma_no_nl in H2; [|easy].
  apply shift_in_inv in H1; [|easy]. apply context_inv, map_res_inv in H1 as (a & H1 & [= <-]).
  unfold take_until in H1. destruct (find_sub (lit ":") r2) as [[x y]|] eqn:Ef; [|easy].
  injection H1 as <- <-. 
  assert (Hx : r2 = x ++ y /\ no_colon x = true /\ exists z, y = lit ":" ++ z).
  { clear -Ef. revert x y Ef. induction r2 as [|c r2 IH]; intros x y; [easy|].
    cbn [find_sub]. unfold starts_with. change (lit ":") with [58] in *. cbn [strip_prefix].
    destruct (N.eqb_spec 58 c) as [<-|Hc].
    - intros [= <- <-]. repeat split. eexists; reflexivity.
    - destruct (find_sub [58] r2) as [[x' y']|]; [|easy]. intros [= <- <-].
      destruct (IH x' y' eq_refl) as (-> & Hno & Hz). repeat split; [|easy]. cbn [no_colon forallb].
      unfold no_colon in Hno. rewrite Hno. destruct (N.eqb_spec c 58); [congruence|easy]. }
  destruct Hx as (-> & Hcol & z & ->).
  pose proof (no_nl_prefix _ _ H2) as Nx. apply no_nl_suffix in H2.
  apply pmap_inv in H as (hs' & H & [= -> ->]). unfold ho_hold_hitsample in H.
  apply alt_inv in H as [H|H]; apply pmap_inv in H as (h & H & ->).
  { destruct (@nothing_colon ho_err z) as [e E]. congruence. }
  apply pbind_inv in H as (r3 & c3 & H3 & H). apply context_inv, (fun H => keeps_pchar _ _ _ _ H H2) in H3.
  apply context_inv, map_res_inv in H as (u & [= <- <-] & H). apply v_unwrap_inv, hit_sample_image in H; [|easy].
  split; [|easy]. cbn [params_ok]. rewrite decimal_of_str_wf. cbn [andb].
  unfold decimal_of_str. destruct (parse_rdec x); cbn [dec_no_colon dec_no_nl]; [easy|]. now rewrite Hcol, Nx.
Qed.
Lemma land7 z : (0 <= Z.land z 7 <= 7)%Z.
Proof.
  change 7%Z with (Z.ones 3) at 1 2. rewrite Z.land_ones by lia.
  pose proof (Z.mod_pos_bound z (2 ^ 3) ltac:(lia)). change (2 ^ 3)%Z with 8%Z in *. lia.
Qed.
Lemma ho_from_str_image v s o :
  (4 < v)%Z -> no_nl s = true -> ho_from_str v s = ROk (Some o) -> ho_read o = true.
Proof.
  intros Hv Hn. unfold ho_from_str.
  destruct (ho_common v s) as [r [[[pos time] ty] snd_]|e|e|q] eqn:Ec; try easy;
    try (cbn; now destruct (e_ctx e)).
  unfold ho_common in Ec.
  apply pbind_inv in Ec as (r1 & x & H1 & Ec). apply context_inv, dfield_wf in H1 as [Hx N1]; [|easy].
  apply pbind_inv in Ec as (r2 & y & H2 & Ec). apply pbind_inv in H2 as (r3 & c3 & H3 & H2).
  apply context_inv, comma_no_nl in H3; [|easy]. apply context_inv, dfield_wf in H2 as [Hy N2]; [|easy].
  apply pbind_inv in Ec as (r4 & t & H4 & Ec). apply shift_in_inv in H4; [|easy].
  apply pbind_inv in H4 as (r5 & c5 & H5 & H4). apply context_inv, comma_no_nl in H5; [|easy].
  apply context_inv, dfield_wf in H4 as [Ht N4]; [|easy].
  apply pbind_inv in Ec as (r6 & ty' & H6 & Ec). apply pbind_inv in H6 as (r7 & c7 & H7 & H6).
  apply context_inv, comma_no_nl in H7; [|easy]. apply context_inv, field_inv in H6 as (a6 & -> & _ & _).
  apply no_nl_suffix in H7. apply pmap_inv in Ec as (h & Ec & [= -> -> -> ->]).
  apply pbind_inv in Ec as (r8 & c8 & H8 & Ec). apply context_inv, comma_no_nl in H8; [|easy].
  apply context_inv, vfield_inv in Ec as (a8 & -> & _ & _). apply no_nl_suffix in H8.
  rewrite skip_ok. cbv beta iota zeta. pose proof (land7 (Z.shiftr ty' 4)) as Hk.
  assert (Hr : forall p hs, params_ok p hs = true -> sample_image hs = true ->
     ho_read (mk_ho (mk_pos x y) t p (nth_bit ty' 2) (Z.land (Z.shiftr ty' 4) 7) h hs) = true).
  { intros p hs Hp Hs. unfold ho_read. cbn [ho_position ho_time ho_obj_params ho_combo_skip_count ho_hitsample pos_x pos_y].
    rewrite Hx, Hy, Ht, Hp. cbn [andb]. unfold sample_image in Hs. rewrite Hs, andb_true_r.
    apply andb_true_iff. split; [|easy]. apply andb_true_iff. lia. }
  destruct (nth_bit ty' 0).
  { destruct (ho_hitsample_p r) as [r' hs|e|e|] eqn:E; cbn; try (now destruct (e_ctx e)); try easy.
    intros [= <-]. apply Hr; [easy|]. now apply ho_hitsample_image in E. }
  destruct (nth_bit ty' 1).
  { destruct (ho_slider v r) as [r' [p hs]|e|e|] eqn:E; cbn; try (now destruct (e_ctx e)); try easy.
    intros [= <-]. apply ho_slider_image in E as [Hp Hs]; [|easy|easy]. now apply Hr. }
  destruct (nth_bit ty' 3).
  { destruct (ho_spinner v r) as [r' [p hs]|e|e|] eqn:E; cbn; try (now destruct (e_ctx e)); try easy.
    intros [= <-]. apply ho_spinner_image in E as [Hp Hs]; [|easy|easy]. now apply Hr. }
  destruct (nth_bit ty' 7); [|easy].
  destruct (ho_hold v r) as [r' [p hs]|e|e|] eqn:E; cbn; try (now destruct (e_ctx e)); try easy.
  intros [= <-]. apply ho_hold_image in E as [Hp Hs]; [|easy|easy]. now apply Hr.
Qed.
Lemma hit_objects_from_str_ok s v l :
  (4 < v)%Z -> hit_objects_from_str s v = ROk (Some l) -> forallb ho_read l = true.
Proof.
  intros Hv. unfold hit_objects_from_str.
  destruct (parse_lines _ 0 (lines s)) as [xs| |] eqn:E; cbn; try easy. intros [= <-].
  apply parse_lines_ok in E.
  assert (Hn : forall l, In l (filter (fun l => negb (is_blank l)) (lines s)) -> no_nl l = true).
  { intros x Hx. apply filter_In in Hx as [Hx _]. pose proof (lines_no_nl s) as H.
    rewrite forallb_forall in H. auto. }
  remember (filter _ _) as ls eqn:El. clear El.
  induction E as [|l0 x la lx H1 H2 IH]; [easy|]. apply v_unwrap_inv, ho_from_str_image in H1; [|easy|apply Hn; now left].
  cbn. rewrite H1. apply IH. intros. apply Hn. now right.
Qed.
(** From version 12 on: reading, printing, reading again. *)
Lemma hit_objects_reparse s v l :
  (12 <= v)%Z -> hit_objects_from_str s v = ROk (Some l) -> forallb ho_keeps l = true ->
  exists t, hit_objects_to_string l v = ROk (Some t) /\ hit_objects_from_str t v = ROk (Some l).
Proof.
  intros Hv H Hk. apply hit_objects_from_str_ok in H; [|lia]. apply hit_objects_round_trip; [lia|].
  apply forallb_forall. intros o Ho. rewrite forallb_forall in H, Hk. unfold ho_ok.
  rewrite H, Hk by easy. cbn. unfold sample_in_version. destruct (ho_hitsample o); [|easy].
  now replace (12 <=? v)%Z with true by lia.
Qed.
