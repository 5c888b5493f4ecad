(** Functions of the API give equal results for equal arguments (C79). *)
From Coq Require Import String List NArith ZArith QArith Qabs Bool Lia.
From Verif Require Import Str Num Nom Dec DecOps Parsers TimingPoints Storyboard NormalEvents Events Osb OsuFile Api Helpers Equal SpecWf SpecOld SpecHelpers
  SpecDecOps SpecEqual SpecAlike StrFacts SplitFacts RoundOps DecSpeed EqualFacts EqualFile.
Import ListNotations.
Local Open Scope Q_scope.

Lemma frac_value d : frac d == rdec_value d.
Proof.
  unfold frac, rdec_value, numerator, denominator. destruct (d_neg d).
  - rewrite inject_Z_opp. unfold Qdiv. ring.
  - unfold Qdiv. ring.
Qed.
Lemma eq_frac a b : rdec_eq a b = true <-> frac a == frac b.
Proof. rewrite !frac_value. apply rdec_value_eq. Qed.
Lemma computes_alike x y r s : x == y -> computes x r -> computes y s -> alike rdec_eq r s.
Proof.
  unfold computes. intros E Hr Hs.
  destruct (Qlt_le_dec (Qabs x) too_big) as [Lx|Lx], (Qlt_le_dec (Qabs y) too_big) as [Ly|Ly].
  - destruct Hr as (c & -> & Hc), Hs as (d & -> & Hd). cbn [alike]. apply eq_frac.
    apply (rounds_unique y); [exact (rounds_wd _ _ _ E Hc)|exact Hd].
  - rewrite E in Lx. destruct (Qlt_irrefl _ (Qlt_le_trans _ _ _ Lx Ly)).
  - rewrite E in Lx. destruct (Qlt_irrefl _ (Qlt_le_trans _ _ _ Ly Lx)).
  - subst. reflexivity.
Qed.
Lemma mul_alike a b a' b' : wf_rdec a = true -> wf_rdec b = true -> wf_rdec a' = true -> wf_rdec b' = true ->
  rdec_eq a a' = true -> rdec_eq b b' = true -> alike rdec_eq (rdec_mul a b) (rdec_mul a' b').
Proof.
  intros Wa Wb Wa' Wb' Ea Eb. apply eq_frac in Ea. apply eq_frac in Eb.
  apply (computes_alike (frac a * frac b) (frac a' * frac b')); [rewrite Ea, Eb; reflexivity| |]; apply mul_computes; assumption.
Qed.
Lemma div_alike a b a' b' : wf_rdec a = true -> wf_rdec b = true -> wf_rdec a' = true -> wf_rdec b' = true ->
  rdec_eq a a' = true -> rdec_eq b b' = true -> alike rdec_eq (rdec_div a b) (rdec_div a' b').
Proof.
  intros Wa Wb Wa' Wb' Ea Eb. apply eq_frac in Ea. apply eq_frac in Eb.
  destruct (Qeq_dec (frac b) 0) as [Z|N].
  - rewrite (div_zero a b Z), (div_zero a' b'); [reflexivity|]. rewrite <- Eb. exact Z.
  - apply (computes_alike (frac a / frac b) (frac a' / frac b')); [rewrite Ea, Eb; reflexivity| |]; apply div_computes; try assumption.
    rewrite <- Eb. exact N.
Qed.
Lemma computes_wf x r c : computes x r -> r = ROk c -> wf_rdec c = true.
Proof.
  unfold computes. intros H ->. destruct (Qlt_le_dec _ _); [|discriminate H]. destruct H as (d & E & R). injection E as ->. exact (rounds_wf _ _ R).
Qed.
Lemma div_wf a b c : wf_rdec a = true -> wf_rdec b = true -> rdec_div a b = (ROk c : run rdec) -> wf_rdec c = true.
Proof.
  intros Wa Wb H. destruct (Qeq_dec (frac b) 0) as [Z|N]; [rewrite (div_zero a b Z) in H; discriminate H|].
  exact (computes_wf _ _ _ (div_computes a b Wa Wb N) H).
Qed.
Lemma eq_same a : rdec_eq a a = true.
Proof. apply eq_frac. reflexivity. Qed.
Lemma bind_alike {A B} (ok : A -> bool) eqa (eqb : B -> B -> bool) (r s : run A) f g : alike eqa r s ->
  (forall a, r = ROk a -> ok a = true) -> (forall a, s = ROk a -> ok a = true) ->
  (forall a b, ok a = true -> ok b = true -> eqa a b = true -> alike eqb (f a) (g b)) -> alike eqb (rbind r f) (rbind s g).
Proof.
  destruct r as [a|e|p], s as [b|e'|q]; cbn [alike rbind]; intros H Hr Hs Hf; try contradiction; try (destruct e); [|exact H].
  apply Hf; [apply Hr|apply Hs|]; auto.
Qed.
Lemma some_alike {A} (eq : A -> A -> bool) r s : alike eq r s -> alike (opt_eq eq) (rmap Some r) (rmap Some s).
Proof. destruct r, s; cbn [alike rmap opt_eq]; auto. Qed.
Lemma to_bpm_alike b b' : wf_rdec b = true -> wf_rdec b' = true -> rdec_eq b b' = true ->
  alike rdec_eq (beat_duration_ms_to_bpm rdec_div rdec_mul b) (beat_duration_ms_to_bpm rdec_div rdec_mul b').
Proof.
  intros W W' E. apply (bind_alike wf_rdec rdec_eq).
  - apply div_alike; try assumption; try reflexivity.
  - intros a. apply div_wf; [reflexivity|exact W].
  - intros a. apply div_wf; [reflexivity|exact W'].
  - intros a c Wa Wc Eac. apply mul_alike; try assumption; reflexivity.
Qed.
Lemma twice_alike k b b' : wf_rdec k = true -> wf_rdec b = true -> wf_rdec b' = true -> rdec_eq b b' = true ->
  alike rdec_eq (rbind (rdec_div b k) (fun x => rdec_div d_one x)) (rbind (rdec_div b' k) (fun x => rdec_div d_one x)).
Proof.
  intros Wk W W' E. apply (bind_alike wf_rdec rdec_eq).
  - apply div_alike; try assumption. apply eq_same.
  - intros a. apply div_wf; assumption.
  - intros a. apply div_wf; assumption.
  - intros a c Wa Wc Eac. apply div_alike; try assumption; reflexivity.
Qed.
Lemma to_beat_alike b b' : wf_rdec b = true -> wf_rdec b' = true -> rdec_eq b b' = true ->
  alike rdec_eq (bpm_to_beat_duration_ms rdec_div b) (bpm_to_beat_duration_ms rdec_div b').
Proof. intros W W' E. apply twice_alike; try assumption. reflexivity. Qed.
Lemma tp_eq_parts t u : tp_eq t u = true -> decimal_eq (tp_beat_length t) (tp_beat_length u) = true /\ tp_uninherited t = tp_uninherited u.
Proof.
  unfold tp_eq. intros H. repeat (apply andb_true_iff in H; destruct H as [H ?]). split; [assumption|].
  destruct (tp_uninherited t) as [x|], (tp_uninherited u) as [y|]; try discriminate; [|reflexivity]. f_equal. now apply Bool.eqb_prop.
Qed.
Lemma bpm_alike t u : wf_decimal (tp_beat_length t) = true -> wf_decimal (tp_beat_length u) = true -> tp_eq t u = true ->
  alike (opt_eq rdec_eq) (calc_bpm rdec_div rdec_mul t) (calc_bpm rdec_div rdec_mul u).
Proof.
  intros W W' H. apply tp_eq_parts in H. destruct H as [E U]. unfold calc_bpm. rewrite <- U.
  destruct (tp_uninherited t) as [[]|]; try reflexivity.
  destruct (tp_beat_length t), (tp_beat_length u); try discriminate E; [|reflexivity].
  apply some_alike, to_bpm_alike; assumption.
Qed.
Lemma velocity_alike t u : wf_decimal (tp_beat_length t) = true -> wf_decimal (tp_beat_length u) = true -> tp_eq t u = true ->
  alike (opt_eq rdec_eq) (calc_slider_velocity_multiplier rdec_div t) (calc_slider_velocity_multiplier rdec_div u).
Proof.
  intros W W' H. apply tp_eq_parts in H. destruct H as [E U]. unfold calc_slider_velocity_multiplier. rewrite <- U.
  destruct (tp_uninherited t) as [[]|]; try reflexivity.
  destruct (tp_beat_length t), (tp_beat_length u); try discriminate E; [|reflexivity].
  apply some_alike, twice_alike; try assumption. reflexivity.
Qed.
Lemma inherited_alike time vel vel' meter set index vol e : wf_rdec vel = true -> wf_rdec vel' = true -> rdec_eq vel vel' = true ->
  alike tp_eq (tp_new_inherited rdec_div rdec_mul time vel meter set index vol e) (tp_new_inherited rdec_div rdec_mul time vel' meter set index vol e).
Proof.
  intros W W' E. apply (bind_alike wf_rdec rdec_eq).
  - apply div_alike; try assumption; try reflexivity.
  - intros a. apply div_wf; [reflexivity|exact W].
  - intros a. apply div_wf; [reflexivity|exact W'].
  - intros a c Wa Wc Eac. apply (bind_alike (fun _ => true) rdec_eq); try reflexivity.
    + apply mul_alike; try assumption; reflexivity.
    + intros x y _ _ Exy. cbn [alike]. apply tp_R. unfold canon_tp. cbn [canon_decimal]. apply rdec_R in Exy. rewrite Exy. reflexivity.
Qed.
Local Open Scope N_scope.
Definition named (c : str) : bool := plain_component c && negb (str_eqb c [47]).
Lemma named_plain l : forallb (lacks 47) l = true -> filter named l = filter plain_component l.
Proof.
  induction l as [|x l IH]; [reflexivity|]. cbn [forallb]. intros H. apply andb_true_iff in H as [Hx Hl]. cbn [filter].
  rewrite (IH Hl). unfold named. destruct (str_eqb x [47]) eqn:E; [|cbn [negb]; rewrite andb_true_r; reflexivity].
  apply str_eqb_eq in E. subst x. discriminate Hx.
Qed.
Lemma comps_of p : path_comps p = filter named (components p).
Proof.
  destruct (split_form p) as (x & l & L & ->). rewrite components_form by exact L. unfold path_comps. rewrite split_head by exact L.
  assert (P : forall k, filter (fun c => negb (is_empty c) && negb (str_eqb c (lit "."))) k = filter plain_component k).
  { intros k. apply filter_ext. intros c. unfold plain_component. rewrite negb_orb. destruct c; reflexivity. }
  rewrite P. assert (K : forallb (lacks 47) l = true) by (cbn [forallb] in L; apply andb_true_iff in L; apply L).
  assert (Hk : filter named (kept l) = filter plain_component l).
  { rewrite named_plain by (apply kept_lacks; exact K). unfold kept. clear. induction l as [|y l IH]; [reflexivity|].
    cbn [filter]. destruct (plain_component y) eqn:E; [cbn [filter]; rewrite E, IH; reflexivity|exact IH]. }
  destruct x as [|c x].
  - destruct l as [|y l]; [reflexivity|]. exact (eq_sym Hk).
  - cbn [filter]. rewrite Hk. unfold named at 1. destruct (str_eqb (c :: x) [47]) eqn:E; [|cbn [negb]; rewrite andb_true_r; reflexivity].
    apply str_eqb_eq in E. rewrite E in L. discriminate L.
Qed.
Lemma same_components p q : same_path p q -> components p = components q.
Proof.
  intros H. apply path_same in H. unfold path_eq in H. apply (list_eq_E str_eqb str_eqb_eq) in H. exact H.
Qed.
Lemma frames_alike n p q : same_path p q -> frame_file_names n p = frame_file_names n q.
Proof.
  intros H. apply same_components in H. unfold frame_file_names, path_extension, path_file_name. rewrite !comps_of, H. reflexivity.
Qed.
Lemma absolute_of p : path_is_absolute p = match components p with c :: _ => str_eqb c [47] | [] => false end.
Proof.
  destruct (split_form p) as (x & l & L & ->). rewrite components_form by exact L. destruct x as [|c x].
  - destruct l; reflexivity.
  - cbn [forallb] in L. apply andb_true_iff in L as [Hx _]. apply lacks_head in Hx as [Hc _].
    unfold path_is_absolute. cbn [app starts_with_char str_eqb]. rewrite Hc. reflexivity.
Qed.
Lemma sprite_alike p q : same_path p q -> (sprite_new p = ROk p /\ sprite_new q = ROk q) \/ (sprite_new p = RErr tt /\ sprite_new q = RErr tt).
Proof.
  intros H. apply same_components in H. unfold sprite_new. rewrite !absolute_of, H.
  destruct (match components q with c :: _ => str_eqb c [47] | [] => false end); [right|left]; split; reflexivity.
Qed.
Lemma canon_version f : osu_version (canon_file f) = osu_version f.
Proof. destruct f; reflexivity. Qed.
Lemma canon_set o f : canon_file (set_osb o f) = set_osb (option_map canon_osb o) (canon_file f).
Proof. destruct f; reflexivity. Qed.
Lemma append_alike dbg s f g f' g' r q : osu_eq f g = true -> append_osb dbg f s = (f', r) -> append_osb dbg g s = (g', q) ->
  r = q /\ osu_eq f' g' = true.
Proof.
  intros E. apply file_R in E. unfold append_osb. assert (V : osu_version f = osu_version g) by (rewrite <- canon_version, E; apply canon_version).
  rewrite <- V. destruct (osb_from_str dbg s (osu_version f)) as [o|e|p]; intros Hf Hg; injection Hf as <- <-; injection Hg as <- <-;
    (split; [reflexivity|]); apply file_R; try exact E.
  rewrite !canon_set, E. reflexivity.
Qed.

(** Pushing commands. *)
Lemma last_map {A B} (f : A -> B) l : last_opt (map f l) = option_map f (last_opt l).
Proof. unfold last_opt. rewrite <- map_rev. destruct (rev l); reflexivity. Qed.
Lemma set_last_map {A B} (f : A -> B) (h : A -> A) (k : B -> B) l : (forall x, f (h x) = k (f x)) -> map f (set_last h l) = set_last k (map f l).
Proof.
  intros H. induction l as [|x [|y l] IH]; [reflexivity|cbn; rewrite H; reflexivity|].
  change (set_last h (x :: y :: l)) with (x :: set_last h (y :: l)).
  change (map f (x :: set_last h (y :: l))) with (f x :: map f (set_last h (y :: l))). rewrite IH. reflexivity.
Qed.
Lemma subs_canon c : cmd_subs (canon_command c) = option_map (map canon_command) (cmd_subs c).
Proof. destruct c as [s []]; reflexivity. Qed.
Lemma set_subs_canon l c : canon_command (cmd_set_subs l c) = cmd_set_subs (map canon_command l) (canon_command c).
Proof. destruct c as [s []]; reflexivity. Qed.
Lemma push_at_canon n : forall i k c cs,
  push_at n i k (canon_command c) (map canon_command cs) = rmap (map canon_command) (push_at n i k c cs).
Proof.
  induction n as [|n IH]; intros; [reflexivity|]. cbn [push_at]. rewrite last_map.
  destruct (last_opt cs) as [x|]; cbn [option_map]; [|reflexivity]. rewrite subs_canon.
  destruct (cmd_subs x) as [l|]; cbn [option_map]; [|reflexivity].
  destruct (Nat.eqb (i + 1) k).
  - cbn [rmap]. f_equal. symmetry. apply set_last_map. intros y. rewrite set_subs_canon, map_app. reflexivity.
  - rewrite IH. destruct (push_at n (i + 1) k c l) as [m|e|p]; cbn [rmap]; [|reflexivity|reflexivity].
    f_equal. symmetry. apply set_last_map. intros y. apply set_subs_canon.
Qed.
Lemma push_canon c cs k : try_push_cmd (map canon_command cs) (canon_command c) k = rmap (map canon_command) (try_push_cmd cs c k).
Proof.
  unfold try_push_cmd. destruct (Nat.eqb k 1); [cbn [rmap]; rewrite map_app; reflexivity|].
  rewrite last_map. destruct (last_opt cs); cbn [option_map]; [apply push_at_canon|reflexivity].
Qed.
Lemma push_alike cs ds c d k : list_eq command_eq cs ds = true -> command_eq c d = true ->
  alike_or (list_eq command_eq) (try_push_cmd cs c k) (try_push_cmd ds d k).
Proof.
  intros E F. apply commands_R in E. apply command_R in F. assert (G := push_canon c cs k). rewrite E, F, push_canon in G.
  destruct (try_push_cmd cs c k) as [x|e|p], (try_push_cmd ds d k) as [y|e'|q]; cbn [rmap] in G; try discriminate G; cbn [alike_or].
  - apply commands_R. injection G as G. exact (eq_sym G).
  - injection G as G. exact (eq_sym G).
  - injection G as G. exact (eq_sym G).
Qed.
