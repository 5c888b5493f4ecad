(** Lemmas on paths and frames (C41) and speeds (C42). *)
From Coq Require Import String List NArith ZArith QArith Bool Lia.
From Verif Require Import Str Num Nom Dec Parsers TimingPoints NormalEvents Helpers SpecHelpers Spec SpecWf SpecText SpecOld StrFacts SplitFacts NumFacts NomFacts LineFacts FieldFacts TpFacts.
From Verif Require Import Colours Api.
Import ListNotations.
Local Open Scope N_scope.

Lemma split_on_sep c a b : split_on c (a ++ c :: b) = split_on c a ++ split_on c b.
Proof.
  induction a as [|x a IH]; cbn [app split_on]; [now rewrite N.eqb_refl|]. rewrite IH. destruct (x =? c); [easy|].
  destruct (split_on c a) as [|l ls] eqn:E; [now apply split_on_nonempty in E|reflexivity].
Qed.
Lemma split_on_one c n : forallb (fun x => negb (x =? c)) n = true -> split_on c n = [n].
Proof.
  induction n as [|x n IH]; intros H; [easy|]. cbn [forallb] in H. apply andb_true_iff in H as [H1 H2]. apply negb_true_iff in H1.
  cbn [split_on]. now rewrite H1, (IH H2).
Qed.
Lemma comps_sep a b : path_comps (a ++ 47 :: b) = path_comps a ++ path_comps b.
Proof. unfold path_comps. now rewrite split_on_sep, filter_app. Qed.
Lemma comps_back t : back_part t -> forall x, path_comps (x ++ t) = path_comps x.
Proof.
  induction 1 as [|t H IH|t H IH]; intros x.
  - now rewrite app_nil_r.
  - pose proof (IH []) as K. cbn [app] in K. rewrite comps_sep, K. apply app_nil_r.
  - pose proof (IH [46]) as K. cbn [app] in K. rewrite comps_sep, K. apply app_nil_r.
Qed.
Lemma str_eqb_false a b : a <> b -> str_eqb a b = false.
Proof. apply str_eqb_neq. Qed.
Lemma file_name_ok p n : names_file p n -> path_file_name p = Some n.
Proof.
  intros (dir & back & -> & Hd & Hb & Hs & H1 & H2 & H3).
  assert (K : path_comps n = [n]).
  { unfold path_comps. rewrite split_on_one by easy. cbn [filter]. rewrite (str_eqb_false _ _ H2). now destruct n. }
  assert (E : exists l, path_comps (dir ++ n ++ back) = l ++ [n]).
  { rewrite app_assoc, comps_back by easy. destruct Hd as [-> |[d ->]]; [exists []; now rewrite app_nil_l|].
    exists (path_comps d). rewrite <- app_assoc. cbn [app]. rewrite comps_sep. now rewrite K. }
  destruct E as [l E]. unfold path_file_name. rewrite E, rev_app_distr. cbn [rev app]. now rewrite str_eqb_false.
Qed.
Lemma filter_last {A} (f : A -> bool) l n m : rev (filter f l) = n :: m -> exists a b, l = a ++ n :: b /\ forallb (fun x => negb (f x)) b = true /\ f n = true.
Proof.
  induction l as [|x l IH] using rev_ind; [easy|]. rewrite filter_app, rev_app_distr. cbn [filter].
  destruct (f x) eqn:E; cbn [rev app].
  - intros [= <- _]. now exists l, [].
  - intros H. destruct (IH H) as (a & b & -> & Hb & Hn). exists a, (b ++ [x]). rewrite <- app_assoc. split; [easy|].
    split; [|easy]. rewrite forallb_app. cbn [forallb]. now rewrite Hb, E.
Qed.
Lemma join_app47 a n b : join [47] (a ++ n :: b) = match a with [] => [] | _ => join [47] a ++ [47] end ++ n ++ flat_map (cons 47) b.
Proof.
  assert (K : forall n, join [47] (n :: b) = n ++ flat_map (cons 47) b).
  { induction b as [|y b IH]; intros m; [cbn; now rewrite app_nil_r|]. cbn [join flat_map] in *. now rewrite IH. }
  induction a as [|x a IH]; [apply K|]. destruct a as [|y a].
  - cbn [app join]. rewrite <- app_assoc. change (n ++ flat_map (cons 47) b) with (n ++ flat_map (cons 47) b). now rewrite <- K.
  - cbn [app] in *. cbn [join] in *. rewrite IH. now rewrite <- !app_assoc.
Qed.
Lemma back_of b : forallb (fun x => negb (negb (is_empty x) && negb (str_eqb x (lit ".")))) b = true -> back_part (flat_map (cons 47) b).
Proof.
  induction b as [|x b IH]; [constructor|]. cbn [forallb flat_map]. intros H. apply andb_true_iff in H as [H1 H2].
  rewrite negb_andb, !negb_involutive in H1. apply orb_true_iff in H1 as [H1|H1].
  - destruct x; [|easy]. cbn [app]. constructor. now apply IH.
  - apply str_eqb_eq in H1. subst x. change (lit ".") with [46]. cbn [app]. apply bp_dot. now apply IH.
Qed.
Lemma file_name_inv p n : path_file_name p = Some n -> names_file p n.
Proof.
  unfold path_file_name. destruct (rev (path_comps p)) as [|c m] eqn:E; [easy|]. destruct (str_eqb c (lit "..")) eqn:E2; [easy|].
  intros [= ->]. pose proof (split_on_join 47 p) as J. pose proof (split_on_lacks 47 p) as L. apply filter_last in E as (a & b & Es & Hb & Hn).
  rewrite Es in J, L. rewrite join_app47 in J. rewrite forallb_app in L. cbn [forallb] in L. apply andb_true_iff in L as [_ L]. apply andb_true_iff in L as [L _].
  apply andb_true_iff in Hn as [H1 H2].
  exists (match a with [] => [] | _ => join [47] a ++ [47] end), (flat_map (cons 47) b).
  split; [now rewrite J|]. split; [destruct a; [now left|right; eexists; reflexivity]|].
  split; [now apply back_of|]. split; [exact L|]. split; [now destruct n|].
  split; intros ->; [now rewrite str_eqb_refl in H2|now rewrite str_eqb_refl in E2].
Qed.
Lemma rsplit_spec s : match rsplit_dot s with
  | (Some b, a) => s = b ++ 46 :: a /\ forallb (fun c => negb (c =? 46)) a = true
  | (None, a) => a = s /\ forallb (fun c => negb (c =? 46)) s = true end.
Proof.
  induction s as [|c s IH]; [easy|]. cbn [rsplit_dot]. destruct (rsplit_dot s) as [[b|] a].
  - destruct IH as [-> IH]. easy.
  - destruct IH as [-> IH]. destruct (N.eqb_spec c 46) as [->|E]; [easy|]. split; [easy|]. cbn [forallb]. apply N.eqb_neq in E. now rewrite E.
Qed.
Lemma stem_total n : exists stem ext, stem_ext n stem ext.
Proof.
  pose proof (rsplit_spec n) as H. destruct (rsplit_dot n) as [[[|c b]|] a].
  - destruct H as [-> H]. exists (46 :: a), []. split; [now rewrite app_nil_r|]. left. easy.
  - destruct H as [-> H]. exists (c :: b), (46 :: a). split; [easy|]. right. split; [easy|]. eauto.
  - destruct H as [_ H]. exists n, []. split; [now rewrite app_nil_r|]. left. split; [easy|]. destruct n; [easy|]. cbn in *. now apply andb_true_iff in H.
Qed.
Lemma no_dot_cut a e b f : a ++ 46 :: e = b ++ 46 :: f -> forallb (fun c => negb (c =? 46)) e = true ->
  forallb (fun c => negb (c =? 46)) f = true -> a = b /\ e = f.
Proof.
  revert b. induction a as [|x a IH]; intros [|y b] E He Hf; cbn [app] in E.
  - now injection E.
  - injection E as <- ->. rewrite forallb_app, andb_true_iff in He. now destruct He.
  - injection E as -> <-. rewrite forallb_app, andb_true_iff in Hf. now destruct Hf.
  - injection E as -> E. destruct (IH b E He Hf) as [-> ->]. easy.
Qed.
Lemma stem_unique n stem ext : stem_ext n stem ext ->
  stem = match rsplit_dot n with (Some (c :: b), _) => c :: b | _ => n end
  /\ ext = match rsplit_dot n with (Some (_ :: _), a) => 46 :: a | _ => [] end.
Proof.
  intros [E H]. pose proof (rsplit_spec n) as R. destruct H as [[-> H]|(Hs & e & -> & He)].
  - rewrite app_nil_r in E. subst stem. destruct (rsplit_dot n) as [[[|c b]|] a]; try easy.
    destruct R as [-> R]. cbn [tl app] in H. rewrite forallb_app, andb_true_iff in H. now destruct H.
  - destruct (rsplit_dot n) as [[b|] a]; destruct R as [R1 R2].
    + rewrite R1 in E. destruct (no_dot_cut _ _ _ _ E R2 He) as [-> ->]. now destruct stem.
    + subst a. rewrite E, forallb_app, andb_true_iff in R2. now destruct R2.
Qed.
Lemma strip_suffix_app a b : strip_suffix b (a ++ b) = Some a.
Proof. unfold strip_suffix. rewrite rev_app_distr, strip_prefix_app. now rewrite rev_involutive. Qed.
Lemma frames_value count p n stem ext : names_file p n -> stem_ext n stem ext ->
  frame_file_names count p = ROk (map (fun i => stem ++ print_Z (Z.of_nat i) ++ ext) (seq 0 (Z.to_nat count))).
Proof.
  intros Hn Hs. unfold frame_file_names, path_extension. rewrite (file_name_ok _ _ Hn). cbn [unwrap rbind].
  pose proof (stem_unique _ _ _ Hs) as [E1 E2]. destruct Hs as [E _]. destruct (rsplit_dot n) as [[[|c b]|] a].
  - clear E. subst ext stem. reflexivity.
  - subst ext. change (lit "." ++ a) with (46 :: a). rewrite E at 1. rewrite strip_suffix_app. cbn [unwrap rbind]. reflexivity.
  - clear E. subst ext stem. reflexivity.
Qed.
Lemma frames_nth count p n stem ext : names_file p n -> stem_ext n stem ext ->
  exists l, frame_file_names count p = ROk l /\ length l = Z.to_nat count
  /\ forall i, (i < Z.to_nat count)%nat -> nth_error l i = Some (stem ++ print_Z (Z.of_nat i) ++ ext).
Proof.
  intros Hn Hs. eexists. split; [exact (frames_value count p n stem ext Hn Hs)|]. split; [now rewrite map_length, seq_length|].
  intros i Hi. apply map_nth_error with (d := i). rewrite (nth_error_nth' _ 0%nat) by now rewrite seq_length. now rewrite seq_nth.
Qed.
Lemma frames_panic count p : (exists x, frame_file_names count p = RPanic x) <-> forall n, ~ names_file p n.
Proof.
  split.
  - intros [x H] n Hn. destruct (stem_total n) as (stem & ext & Hs). rewrite (frames_value count p n stem ext Hn Hs) in H. easy.
  - intros H. unfold frame_file_names. destruct (path_file_name p) as [n|] eqn:E; [now apply file_name_inv in E; apply H in E|].
    exists PUnwrap. reflexivity.
Qed.
Lemma print_Z_inj a b : print_Z a = print_Z b -> a = b.
Proof.
  intros H. set (m := (Z.abs a + Z.abs b)%Z). assert (Ha : parse_int true (- m) m (print_Z a) = ROk a) by (apply print_Z_parse; (lia || easy)).
  assert (Hb : parse_int true (- m) m (print_Z b) = ROk b) by (apply print_Z_parse; (lia || easy)). rewrite H in Ha. congruence.
Qed.
Lemma frames_distinct count p l : frame_file_names count p = ROk l -> NoDup l.
Proof.
  intros H. destruct (path_file_name p) as [n|] eqn:E.
  - apply file_name_inv in E. destruct (stem_total n) as (stem & ext & Hs). rewrite (frames_value count p n stem ext E Hs) in H. injection H as <-.
    assert (K : forall k m, NoDup (map (fun i => stem ++ print_Z (Z.of_nat i) ++ ext) (seq k m))).
    { intros k m. revert k. induction m as [|m IH]; intros k; [constructor|]. cbn [seq map]. constructor; [|apply IH].
      intros Hin. apply in_map_iff in Hin as (j & Hj & Hin). apply in_seq in Hin. apply app_inv_head in Hj. apply app_inv_tail in Hj.
      apply print_Z_inj in Hj. lia. }
    apply K.
  - unfold frame_file_names in H. rewrite E in H. easy.
Qed.
Lemma frames_same count p q n : names_file p n -> names_file q n -> frame_file_names count p = frame_file_names count q.
Proof. intros Hp Hq. destruct (stem_total n) as (stem & ext & Hs). now rewrite (frames_value count p n stem ext Hp Hs), (frames_value count q n stem ext Hq Hs). Qed.
Lemma sprite_new_spec p : (sprite_new p = ROk p /\ forall r, p <> 47 :: r) \/ (sprite_new p = RErr tt /\ exists r, p = 47 :: r).
Proof.
  unfold sprite_new, path_is_absolute. destruct p as [|c p]; [left; split; [easy|discriminate]|]. cbn [starts_with_char].
  destruct (N.eqb_spec c 47) as [->|E]; [right; split; [reflexivity|now exists p]|]. left. split; [reflexivity|]. intros r [= H _]. congruence.
Qed.

(** ** speeds *)
Lemma bpm_value div mul t :
  (forall b, tp_uninherited t = Some true -> tp_beat_length t = DNum b ->
     calc_bpm div mul t = rmap Some (rbind (div (mkDec false 1 0) b) (fun x => mul x (mkDec false 60000 0)))
     /\ calc_slider_velocity_multiplier div t = ROk None)
  /\ (forall b, tp_uninherited t = Some false -> tp_beat_length t = DNum b ->
     calc_slider_velocity_multiplier div t = rmap Some (rbind (div b (mkDec true 100 0)) (fun x => div (mkDec false 1 0) x))
     /\ calc_bpm div mul t = ROk None)
  /\ ((tp_uninherited t = None \/ exists r, tp_beat_length t = DRaw r) ->
     calc_bpm div mul t = ROk None /\ calc_slider_velocity_multiplier div t = ROk None).
Proof.
  unfold calc_bpm, calc_slider_velocity_multiplier. split; [|split].
  - intros b -> ->. easy.
  - intros b -> ->. easy.
  - intros [->|[r ->]]; [easy|]. now destruct (tp_uninherited t) as [[]|].
Qed.
Lemma new_inherited_value div mul time vel meter set index vol e t : tp_new_inherited div mul time vel meter set index vol e = ROk t ->
  tp_uninherited t = Some false /\ tp_is_uninherited t = false /\ tp_time t = decimal_of_Z time /\ tp_meter t = meter
  /\ exists x b, div (mkDec false 1 0) vel = ROk x /\ mul x (mkDec true 100 0) = ROk b /\ tp_beat_length t = DNum b
  /\ calc_bpm div mul t = ROk None /\ calc_slider_velocity_multiplier div t = rmap Some (rbind (div b (mkDec true 100 0)) (fun y => div (mkDec false 1 0) y)).
Proof.
  unfold tp_new_inherited. change d_one with (mkDec false 1 0). change (rdec_of_Z (-100)) with (mkDec true 100 0).
  destruct (div (mkDec false 1 0) vel) as [x|[]|] eqn:E1; try easy. cbn [rbind]. destruct (mul x (mkDec true 100 0)) as [b|[]|] eqn:E2; try easy.
  cbn [rbind]. intros [= <-]. repeat (split; [reflexivity|]). exists x, b. repeat (split; [easy|]). easy.
Qed.
Lemma tp_old_none v s r t : (v <= 4)%Z -> tp_parser v s = POk r t -> tp_uninherited t = None.
Proof.
  intros Hv H. unfold tp_parser in H. apply pbind_inv in H as (r1 & time & _ & H). apply pbind_inv in H as (r2 & c & _ & H).
  apply alt_inv in H as [H|H].
  { apply pmap_inv in H as (a & _ & ->). reflexivity. }
  apply pbind_inv in H as (r3 & bl & _ & H). apply pbind_inv in H as (r4 & m & _ & H). apply pbind_inv in H as (r5 & ss & _ & H).
  apply pmap_inv in H as ([i [[vol u] e]] & H & ->). cbn [tp_uninherited].
  unfold tp_index_rest in H. apply pbind_inv in H as (r6 & c6 & _ & H). apply alt_inv in H as [H|H].
  { apply pmap_inv in H as (a & _ & [= _ _ -> _]). reflexivity. }
  apply pbind_inv in H as (r7 & i7 & _ & H). apply pmap_inv in H as ([[vol' u'] e'] & H & [= _ _ -> _]).
  apply pbind_inv in H as (r8 & c8 & _ & H). unfold tp_volume_rest in H.
  match type of H with alt ?p ?q _ = _ => destruct (p r8) as [r9 x|e9|e9|p9] eqn:E end.
  - rewrite (alt_l _ _ _ _ _ E) in H. injection H as _ H. apply pmap_inv in E as (a & _ & ->). injection H as _ -> _. reflexivity.
  - exfalso. clear H. unfold pmap in E. rewrite upto_yes in E by easy. unfold context, cut in E.
    now destruct (consume_rest_versioned_type tp_volume_from_str r8).
  - exfalso. unfold alt in H. rewrite E in H. easy.
  - exfalso. unfold alt in H. rewrite E in H. easy.
Qed.
Lemma timing_old_none s v l t : (v <= 4)%Z -> timing_points_from_str s v = ROk (Some l) -> In t l -> tp_uninherited t = None.
Proof.
  intros Hv H Hin. unfold timing_points_from_str in H.
  destruct (parse_lines (tp_from_str v) 0 (lines s)) as [x| |] eqn:E; try easy. cbn [rbind] in H.
  apply parse_lines_ok in E. assert (K : forall y, In (Some y) x -> tp_uninherited y = None).
  { clear -E Hv. induction E as [|l y ls ys Hl E IH]; [easy|]. intros z [->|Hz]; [|now apply IH].
    unfold tp_from_str in Hl. apply rmap_inv in Hl as (z' & Hl & [= ->]). unfold verbose_error_to_error in Hl.
    destruct (tp_parser v l) as [r a|e|e|p] eqn:Ep; try easy.
    - injection Hl as <-. exact (tp_old_none _ _ _ _ Hv Ep).
    - now destruct (e_ctx e).
    - now destruct (e_ctx e). }
  destruct x as [|[y|] x]; [|idtac|easy].
  - injection H as <-. easy.
  - assert (R : forall x l, @run_list timing_point (line_err tp_err) (map unwrap x) = ROk l -> forall t, In t l -> In (Some t) x).
    { clear. induction x as [|o x IH]; intros l H t Hin; cbn in H; [injection H as <-; easy|].
      destruct o as [y|]; cbn [unwrap rbind] in H; [|easy]. destruct (run_list (map unwrap x)) as [l'| |] eqn:E; try easy.
      cbn in H. injection H as <-. destruct Hin as [->|Hin]; [now left|right]. now apply (IH l' eq_refl). }
    destruct (run_list (map unwrap (Some y :: x))) as [l'| |] eqn:E2; try easy. cbn [rmap] in H. injection H as <-.
    apply K. now apply (R _ l' E2).
Qed.
Lemma frac_one : (frac (mkDec false 1 0) == 1)%Q.
Proof. reflexivity. Qed.
Lemma frac_60000 : (frac (mkDec false 60000 0) == 60000)%Q.
Proof. reflexivity. Qed.
Lemma frac_m100 : (frac (mkDec true 100 0) == -100)%Q.
Proof. reflexivity. Qed.
Lemma bpm_exact div mul b m : exact_div div -> exact_mul mul -> beat_duration_ms_to_bpm div mul b = ROk m -> (frac m * frac b == 60000)%Q.
Proof.
  intros Hd Hm. unfold beat_duration_ms_to_bpm. change d_one with (mkDec false 1 0). change (rdec_of_Z 60000) with (mkDec false 60000 0).
  destruct (div _ b) as [x| |] eqn:E; try easy. cbn [rbind]. intros H. apply Hd in E as [Hb E]. apply Hm in H. rewrite H, E, frac_one, frac_60000.
  field. exact Hb.
Qed.
Lemma beat_exact div b m : exact_div div -> bpm_to_beat_duration_ms div m = ROk b -> (frac m * frac b == 60000)%Q.
Proof.
  intros Hd. unfold bpm_to_beat_duration_ms. change d_one with (mkDec false 1 0). change (rdec_of_Z 60000) with (mkDec false 60000 0).
  destruct (div m _) as [x| |] eqn:E; try easy. cbn [rbind]. intros H. apply Hd in E as [_ E]. apply Hd in H as [Hx H]. rewrite H, E, frac_one, frac_60000 in *.
  assert (~ frac m == 0)%Q. { intros K. apply Hx. rewrite K. reflexivity. }
  field. exact H0.
Qed.
Lemma velocity_exact div mul time vel meter set index vol e t x : exact_div div -> exact_mul mul ->
  tp_new_inherited div mul time vel meter set index vol e = ROk t -> calc_slider_velocity_multiplier div t = ROk (Some x) -> (frac x == frac vel)%Q.
Proof.
  intros Hd Hm H Hx. apply new_inherited_value in H as (_ & _ & _ & _ & y & b & H1 & H2 & _ & _ & H3). rewrite H3 in Hx. clear H3.
  destruct (div b (mkDec true 100 0)) as [z| |] eqn:E; try easy. cbn [rbind] in Hx.
  destruct (div (mkDec false 1 0) z) as [w| |] eqn:E2; try easy. cbn in Hx. injection Hx as ->.
  apply Hd in H1 as [Hv H1]. apply Hm in H2. apply Hd in E as [_ E]. apply Hd in E2 as [_ E2].
  rewrite E2, E, H2, H1, frac_one, frac_m100. field. exact Hv.
Qed.
Lemma bpm_zero div mul t b : (forall x y, is_zero y = true -> exists p, div x y = RPanic p) ->
  tp_uninherited t = Some true -> tp_beat_length t = DNum b -> is_zero b = true -> exists p, calc_bpm div mul t = RPanic p.
Proof.
  intros Hd Hu Hb Hz. destruct (bpm_value div mul t) as [K _]. destruct (K b Hu Hb) as [-> _].
  destruct (Hd (mkDec false 1 0) b Hz) as [p ->]. now exists p.
Qed.
