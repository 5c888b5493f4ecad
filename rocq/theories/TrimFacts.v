(** Proofs about the text comparison of src/lib.rs (C24, C25, C26). *)
From Coq Require Import String List NArith ZArith Bool Lia Permutation Sorted.
From Verif Require Import Str StrFacts TriggerFacts Trimmer SpecTrim.
From Verif Require EvPanic.
Import ListNotations.
Local Open Scope N_scope.

(** ** the order of texts *)
Lemma leb_refl a : str_leb a a = true.
Proof. induction a as [|c a IH]; [easy|]. cbn [str_leb]. rewrite N.ltb_irrefl, N.eqb_refl. exact IH. Qed.
Lemma leb_trans a b c : str_leb a b = true -> str_leb b c = true -> str_leb a c = true.
Proof.
  revert b c. induction a as [|x a IH]; intros [|y b] [|z c]; cbn [str_leb]; try easy.
  destruct (N.ltb_spec x y), (N.ltb_spec y z), (N.ltb_spec x z); try easy; destruct (N.eqb_spec x y), (N.eqb_spec y z), (N.eqb_spec x z); subst; try easy; try lia.
  apply IH.
Qed.
Lemma leb_antisym a b : str_leb a b = true -> str_leb b a = true -> a = b.
Proof.
  revert b. induction a as [|x a IH]; intros [|y b]; cbn [str_leb]; try easy.
  destruct (N.ltb_spec x y), (N.ltb_spec y x); try easy; destruct (N.eqb_spec x y), (N.eqb_spec y x); subst; try easy; try lia.
  intros H1 H2. f_equal. now apply IH.
Qed.
Lemma leb_total a b : str_leb a b = false -> str_leb b a = true.
Proof.
  revert b. induction a as [|x a IH]; intros [|y b]; cbn [str_leb]; try easy.
  destruct (N.ltb_spec x y), (N.ltb_spec y x); try easy; destruct (N.eqb_spec x y), (N.eqb_spec y x); subst; try easy; try lia. apply IH.
Qed.
Notation sorted := (StronglySorted (fun x y => str_leb x y = true)).
Lemma insert_perm x l : Permutation (x :: l) (insert_str x l).
Proof.
  induction l as [|y l IH]; cbn [insert_str]; [easy|]. destruct (str_leb x y); [easy|].
  rewrite perm_swap. now constructor.
Qed.
Lemma sort_perm l : Permutation l (sort_str l).
Proof. induction l as [|x l IH]; cbn [sort_str]; [easy|]. rewrite <- insert_perm. now constructor. Qed.
Lemma insert_sorted x l : sorted l -> sorted (insert_str x l).
Proof.
  induction l as [|y l IH]; cbn [insert_str]; intros H; [repeat constructor|].
  apply StronglySorted_inv in H as [H1 H2]. destruct (str_leb x y) eqn:E.
  - constructor; [now constructor|]. constructor; [easy|]. eapply Forall_impl; [|exact H2]. intros z Hz. eapply leb_trans; eauto.
  - constructor; [now apply IH|]. apply leb_total in E. rewrite <- insert_perm. now constructor.
Qed.
Lemma sort_sorted l : sorted (sort_str l).
Proof. induction l as [|x l IH]; cbn [sort_str]; [constructor|]. now apply insert_sorted. Qed.
Lemma sorted_unique a : forall b, Permutation a b -> sorted a -> sorted b -> a = b.
Proof.
  induction a as [|x a IH]; intros b P Ha Hb; [now apply Permutation_nil in P|].
  destruct b as [|y b]; [now apply Permutation_sym, Permutation_nil in P|].
  apply StronglySorted_inv in Ha as [Ha1 Ha2], Hb as [Hb1 Hb2].
  assert (x = y).
  { assert (Hx : In x (y :: b)) by (rewrite <- P; now left). assert (Hy : In y (x :: a)) by (rewrite P; now left).
    destruct Hx as [->|Hx]; [easy|]. destruct Hy as [->|Hy]; [easy|]. rewrite Forall_forall in Ha2, Hb2. apply leb_antisym; auto. }
  subst y. f_equal. apply IH; [|easy|easy]. now apply Permutation_cons_inv in P.
Qed.
Lemma sort_perm_eq a b : Permutation a b -> sort_str a = sort_str b.
Proof. intros P. apply sorted_unique; [|apply sort_sorted|apply sort_sorted]. now rewrite <- sort_perm, P, <- sort_perm. Qed.
Lemma sort_fix a : sorted a -> sort_str a = a.
Proof. intros H. apply sorted_unique; [|apply sort_sorted|easy]. now rewrite <- sort_perm. Qed.

(** ** one line *)
Lemma bom_filter s : replace [c_bom] [] s = filter (fun c => negb (c =? 65279)) s.
Proof.
  cbn [replace]. induction s as [|c s IH]; [easy|]. cbn [replace_ne starts_with strip_prefix]. cbn [filter].
  unfold starts_with. cbn [strip_prefix]. unfold c_bom at 1. rewrite N.eqb_sym.
  destruct (c =? 65279); cbn [negb length Nat.sub app]; now rewrite IH.
Qed.
Lemma strip_squeeze s : strip_line true false s = squeeze s.
Proof. induction s as [|c s IH]; [easy|]. cbn [strip_line negb andb squeeze filter]. destruct (is_ws c); cbn [negb]; now rewrite IH. Qed.
Lemma header_eq l : is_header l = header_line l.
Proof.
  unfold is_header, header_line, starts_with_char, ends_with_char. destruct l as [|c l]; [easy|]. cbn [hd]. f_equal.
  destruct (exists_last (l := c :: l) ltac:(easy)) as (a & d & ->). rewrite rev_app_distr, last_last. easy.
Qed.
Lemma colon_eq l : contains_char 58 l = has_colon l.
Proof. unfold contains_char, has_colon. induction l as [|c l IH]; [easy|]. cbn [existsb]. rewrite IH. f_equal. apply N.eqb_sym. Qed.

(** ** the loop *)
Definition step2 (st : tstate) (line : str) : tstate :=
  if negb (ts_in_sections st) then
    if header_line line
    then mk_ts (ts_builder st ++ [line]) (ts_inner st) true (ts_first st) (ts_coloned st)
    else mk_ts (if ts_first st && starts_with (lit "osu file format v") line
                then ts_builder st ++ [line] else ts_builder st)
               (ts_inner st) false false (ts_coloned st)
  else if header_line line
  then mk_ts (sort_push st ++ [line]) [] true (ts_first st) true
  else if has_colon line then
    if ts_coloned st
    then mk_ts (ts_builder st) (ts_inner st ++ [squeeze line]) true (ts_first st) true
    else mk_ts (ts_builder st ++ [squeeze line]) (ts_inner st) true (ts_first st) false
  else mk_ts (ts_builder st ++ ts_inner st ++ [line]) [] true (ts_first st) false.
Lemma step_eq st l : trim_step st l = if is_empty (norm_line l) then st else step2 st (norm_line l).
Proof. unfold trim_step, step2, norm_line. rewrite bom_filter. cbv zeta. rewrite header_eq, colon_eq, strip_squeeze. reflexivity. Qed.
Lemma loop_lines ls : forall st, fold_left trim_step ls st = fold_left step2 (filter (fun l => negb (is_empty l)) (map norm_line ls)) st.
Proof.
  induction ls as [|l ls IH]; intros st; [easy|]. cbn [fold_left map filter]. rewrite IH, step_eq. now destruct (is_empty (norm_line l)).
Qed.
Definition canon (b : list str) : list str := if forallb has_colon b then sort_str (map squeeze b) else plain_body b.
Lemma canon_body_iff b b' : canon_body b b' <-> b' = canon b.
Proof.
  unfold canon_body, canon. destruct (forallb has_colon b); [|easy]. split.
  - intros [P S]. apply sorted_unique; [|easy|apply sort_sorted]. now rewrite <- P, <- sort_perm.
  - intros ->. split; [apply sort_perm|apply sort_sorted].
Qed.
Lemma body_loop b : forallb (fun l => negb (header_line l)) b = true -> forall bd inn f,
  (forallb has_colon b = true -> fold_left step2 b (mk_ts bd inn true f true) = mk_ts bd (inn ++ map squeeze b) true f true)
  /\ (forallb has_colon b = false -> fold_left step2 b (mk_ts bd inn true f true) = mk_ts (bd ++ inn ++ plain_body b) [] true f false)
  /\ fold_left step2 b (mk_ts bd [] true f false) = mk_ts (bd ++ plain_body b) [] true f false.
Proof.
  induction b as [|l b IH]; intros H bd inn f.
  - split; [intros _; cbn; now rewrite app_nil_r|]. split; [easy|]. cbn. now rewrite app_nil_r.
  - cbn [forallb] in H. apply andb_true_iff in H as [Hl H]. specialize (IH H). apply negb_true_iff in Hl.
    cbn [forallb fold_left map plain_body]. unfold step2 at 2 4 6. cbn [ts_in_sections negb ts_builder ts_inner ts_first ts_coloned]. rewrite Hl.
    destruct (has_colon l) eqn:E; cbn [andb].
    + split; [intros Hc; rewrite (proj1 (IH bd (inn ++ [squeeze l]) f) Hc), <- app_assoc; reflexivity|].
      split; [intros Hc; rewrite (proj1 (proj2 (IH bd (inn ++ [squeeze l]) f)) Hc), <- !app_assoc; reflexivity|].
      rewrite (proj2 (proj2 (IH (bd ++ [squeeze l]) inn f))), <- app_assoc. reflexivity.
    + split; [easy|]. split; [intros _; rewrite (proj2 (proj2 (IH (bd ++ inn ++ [l]) inn f))), <- !app_assoc; reflexivity|].
      rewrite (proj2 (proj2 (IH (bd ++ [] ++ [l]) inn f))), <- app_assoc. reflexivity.
Qed.
Lemma secs_loop secs : forallb (fun x => header_line (fst x) && forallb (fun l => negb (header_line l)) (snd x)) secs = true ->
  forall st, ts_in_sections st = true ->
  sort_push (fold_left step2 (concat (map section_lines secs)) st) = sort_push st ++ concat (map (fun x => fst x :: canon (snd x)) secs).
Proof.
  induction secs as [|[h b] secs IH]; intros H st Hs; cbn [concat map]; [cbn; now rewrite app_nil_r|].
  cbn [forallb fst snd] in H. apply andb_true_iff in H as [H1 H]. apply andb_true_iff in H1 as [Hh Hb]. unfold section_lines at 1. cbn [fst snd].
  rewrite fold_left_app. cbn [fold_left]. unfold step2 at 3. rewrite Hs. cbn [negb]. rewrite Hh.
  destruct (body_loop b Hb (sort_push st ++ [h]) [] (ts_first st)) as (K1 & K2 & _). unfold canon at 1. destruct (forallb has_colon b).
  - rewrite K1 by easy. rewrite (IH H) by easy. unfold sort_push at 1. cbn [ts_builder ts_inner app]. now rewrite <- !app_assoc.
  - rewrite K2 by easy. rewrite (IH H) by easy. unfold sort_push at 1. cbn [ts_builder ts_inner app sort_str]. now rewrite app_nil_r, <- !app_assoc.
Qed.
Lemma pre_loop pre : forallb (fun l => negb (header_line l)) pre = true -> forall bd,
  fold_left step2 pre (mk_ts bd [] false false true) = mk_ts bd [] false false true.
Proof.
  induction pre as [|l pre IH]; intros H bd; [easy|]. cbn [forallb] in H. apply andb_true_iff in H as [Hl H]. apply negb_true_iff in Hl.
  cbn [fold_left]. unfold step2 at 2. cbn [ts_in_sections negb ts_first andb ts_builder ts_inner ts_coloned]. rewrite Hl. now apply IH.
Qed.
Definition canon_lines (pre : list str) (secs : list (str * list str)) : list str :=
  version_part pre ++ concat (map (fun x => fst x :: canon (snd x)) secs).
Lemma trimmer_canon s pre secs : cut_lines (text_lines s) pre secs -> osu_str_trimmer s = join [10] (canon_lines pre secs).
Proof.
  intros (Hc & Hp & Hs). unfold osu_str_trimmer, canon_lines. rewrite loop_lines. fold (text_lines s). rewrite Hc, fold_left_app. change c_nl with 10. f_equal.
  assert (K : exists f, fold_left step2 pre (mk_ts [] [] false true true) = mk_ts (version_part pre) [] false f true).
  { destruct pre as [|l pre]; [now exists true|]. cbn [forallb] in Hp. apply andb_true_iff in Hp as [Hl Hp]. apply negb_true_iff in Hl.
    exists false. cbn [fold_left version_part]. unfold step2 at 2. cbn [ts_in_sections negb ts_first andb ts_builder ts_inner ts_coloned app]. rewrite Hl. now apply pre_loop. }
  destruct K as (f & ->). destruct secs as [|[h b] secs]; [cbn; now rewrite app_nil_r|].
  cbn [forallb fst snd] in Hs. apply andb_true_iff in Hs as [H1 Hs]. apply andb_true_iff in H1 as [Hh Hb]. cbn [map concat]. unfold section_lines at 1. cbn [fst snd].
  rewrite fold_left_app. cbn [fold_left]. unfold step2 at 3. cbn [ts_in_sections negb ts_first ts_builder ts_inner ts_coloned]. rewrite Hh.
  destruct (body_loop b Hb (version_part pre ++ [h]) [] f) as (K1 & K2 & _). unfold canon at 1. destruct (forallb has_colon b).
  - rewrite K1 by easy. rewrite (secs_loop secs Hs) by easy. unfold sort_push at 1. cbn [ts_builder ts_inner app]. now rewrite <- !app_assoc.
  - rewrite K2 by easy. rewrite (secs_loop secs Hs) by easy. unfold sort_push at 1. cbn [ts_builder ts_inner app sort_str]. now rewrite app_nil_r, <- !app_assoc.
Qed.
Lemma cut_exists ls : exists pre secs, cut_lines ls pre secs.
Proof.
  induction ls as [|l ls (pre & secs & -> & Hp & Hs)]; [now exists [], []|]. destruct (header_line l) eqn:E.
  - exists [], ((l, pre) :: secs). split; [easy|]. split; [easy|]. cbn [forallb fst snd]. now rewrite E, Hp, Hs.
  - exists (l :: pre), secs. split; [easy|]. split; [|easy]. cbn [forallb]. now rewrite E, Hp.
Qed.

(** ** the canonical form is stable *)
Lemma squeeze_squeeze l : squeeze (squeeze l) = squeeze l.
Proof. unfold squeeze. induction l as [|c l IH]; [easy|]. cbn [filter]. destruct (is_ws c) eqn:E; cbn [negb filter]; [easy|]. rewrite E. cbn [negb]. now rewrite IH. Qed.
Lemma squeeze_colon l : has_colon (squeeze l) = has_colon l.
Proof.
  unfold squeeze. induction l as [|c l IH]; [easy|]. cbn [filter has_colon existsb]. destruct (is_ws c) eqn:E; cbn [negb].
  - unfold has_colon in IH. rewrite IH. destruct (N.eqb_spec c 58); [now subst c|easy].
  - cbn [has_colon existsb]. f_equal. exact IH.
Qed.
Lemma forallb_perm {A} (f : A -> bool) a b : Permutation a b -> forallb f a = forallb f b.
Proof. induction 1; cbn [forallb]; try congruence. now destruct (f x), (f y). Qed.
Lemma plain_colon b : forallb has_colon (plain_body b) = forallb has_colon b.
Proof. unfold plain_body. induction b as [|l b IH]; [easy|]. cbn [map forallb]. rewrite IH. f_equal. destruct (has_colon l) eqn:E; [now rewrite squeeze_colon|easy]. Qed.
Lemma squeezed_colon b : forallb has_colon (map squeeze b) = forallb has_colon b.
Proof. induction b as [|l b IH]; [easy|]. cbn [map forallb]. now rewrite squeeze_colon, IH. Qed.
Lemma canon_canon b : canon (canon b) = canon b.
Proof.
  unfold canon at 2 3. destruct (forallb has_colon b) eqn:E.
  - assert (K : forallb has_colon (sort_str (map squeeze b)) = true).
    { rewrite <- (forallb_perm has_colon _ _ (sort_perm (map squeeze b))). now rewrite squeezed_colon. }
    unfold canon. rewrite K. apply sort_perm_eq. rewrite <- sort_perm, map_map. erewrite map_ext; [reflexivity|]. intros l. apply squeeze_squeeze.
  - unfold canon. rewrite plain_colon, E. unfold plain_body. rewrite map_map. apply map_ext. intros l.
    destruct (has_colon l) eqn:El; [now rewrite squeeze_colon, El, squeeze_squeeze|now rewrite El].
Qed.
Lemma version_version pre : version_part (version_part pre) = version_part pre.
Proof. destruct pre as [|l pre]; [easy|]. cbn [version_part]. destruct (starts_with _ l) eqn:E; [|easy]. cbn [version_part]. now rewrite E. Qed.

(** Lines that are their own normal form. *)
Definition tidy (l : str) : Prop := l <> [] /\ is_ws (hd 0 l) = false /\ is_ws (last l 0) = false /\ forallb (fun c => negb (c =? 65279)) l = true /\ no_nl l = true.
Lemma filter_id {A} (f : A -> bool) l : forallb f l = true -> filter f l = l.
Proof. induction l as [|x l IH]; [easy|]. cbn [forallb filter]. destruct (f x); [|easy]. intros H. now rewrite IH. Qed.
Lemma tidy_trim l : l <> [] -> is_ws (hd 0 l) = false -> is_ws (last l 0) = false -> trim l = l.
Proof.
  intros H1 H2 H3. destruct (exists_last H1) as (a & d & ->). rewrite last_last in H3. destruct a as [|c a]; [now apply trim_one|]. now apply trim_ends.
Qed.
Lemma tidy_norm l : tidy l -> norm_line l = l.
Proof. intros (H1 & H2 & H3 & H4 & _). unfold norm_line. now rewrite tidy_trim, filter_id. Qed.
Lemma tidy_plain l : tidy l -> plain_line l = true.
Proof.
  intros (H1 & _ & H3 & _ & H5). unfold plain_line. rewrite H5. destruct (exists_last H1) as (a & d & ->). rewrite last_last in H3. rewrite ends_with_char_snoc.
  destruct (N.eqb_spec d 13); [now subst d|easy].
Qed.
Lemma tidy_text ls : Forall tidy ls -> text_lines (join [10] ls) = ls.
Proof.
  intros H. unfold text_lines. replace (lines (join [10] ls)) with ls.
  - induction H as [|l ls Hl H IH]; [easy|]. cbn [map filter]. rewrite (tidy_norm l Hl), IH. destruct l; [now destruct Hl|easy].
  - symmetry. apply lines_join.
    + rewrite forallb_forall. rewrite Forall_forall in H. intros l Hl. now apply tidy_plain, H.
    + intros l E. destruct ls as [|x ls]; [cbn in E; now subst l|]. destruct (exists_last (l := x :: ls) ltac:(easy)) as (a & y & Ey). rewrite Ey, last_last in E. subst y.
      rewrite Forall_forall in H. apply H. rewrite Ey. apply in_elt.
Qed.
Lemma ws_not_58 : is_ws 58 = false. Proof. reflexivity. Qed.
Lemma squeeze_ends l : l <> [] -> is_ws (hd 0 l) = false -> is_ws (last l 0) = false ->
  squeeze l <> [] /\ hd 0 (squeeze l) = hd 0 l /\ last (squeeze l) 0 = last l 0.
Proof.
  intros H1 H2 H3. split; [|split].
  - destruct l as [|c l]; [easy|]. cbn [hd] in H2. cbn [squeeze filter]. now rewrite H2.
  - destruct l as [|c l]; [easy|]. cbn [hd] in H2. cbn [squeeze filter]. now rewrite H2.
  - destruct (exists_last H1) as (a & d & ->). rewrite last_last in *. unfold squeeze. rewrite filter_app. cbn [filter]. rewrite H3. cbn [negb]. apply last_last.
Qed.
Lemma forallb_filter {A} (f g : A -> bool) l : forallb f l = true -> forallb f (filter g l) = true.
Proof. induction l as [|x l IH]; [easy|]. cbn [forallb filter]. intros H. apply andb_true_iff in H as [H1 H2]. destruct (g x); cbn [forallb]; [now rewrite H1, IH|now apply IH]. Qed.
Lemma tidy_squeeze l : tidy l -> tidy (squeeze l) /\ header_line (squeeze l) = header_line l.
Proof.
  intros (H1 & H2 & H3 & H4 & H5). destruct (squeeze_ends l H1 H2 H3) as (K1 & K2 & K3). split.
  - split; [easy|]. rewrite K2, K3. split; [easy|]. split; [easy|]. unfold squeeze, no_nl in *. split; now apply forallb_filter.
  - unfold header_line. now rewrite K2, K3.
Qed.
Lemma no_bom_trim l : forallb (fun c => negb (c =? 65279)) l = true -> no_nl l = true -> norm_line l <> [] -> tidy (norm_line l).
Proof.
  intros H Hn Hne. unfold norm_line in *.
  assert (K : forall f : char -> bool, forallb f l = true -> forallb f (trim l) = true).
  { intros f Hf. unfold trim. destruct (trim_start_incl l) as (a & Ha & _). rewrite Ha, forallb_app in Hf. apply andb_true_iff in Hf as [_ Hf].
    destruct (trim_end_incl (trim_start l)) as (b & Hb & _). rewrite Hb, forallb_app in Hf. now apply andb_true_iff in Hf. }
  rewrite filter_id in * by (now apply K). split; [easy|]. split; [|split; [|split; now apply K]].
  - pose proof (trim_trim l) as T. destruct (trim l) as [|c t] eqn:E; [easy|]. cbn [hd]. destruct (is_ws c) eqn:Ec; [|easy]. exfalso.
    unfold trim in T. cbn [trim_start] in T. rewrite Ec in T.
    assert (L : forall s, (length (trim_end (trim_start s)) <= length s)%nat).
    { intros s. destruct (trim_start_incl s) as (a & Ha & _), (trim_end_incl (trim_start s)) as (b & Hb & _). apply (f_equal (@length _)) in Ha, Hb. rewrite app_length in *. lia. }
    specialize (L t). rewrite T in L. cbn in L. lia.
  - unfold trim in *. assert (L : forall s, trim_end s <> [] -> is_ws (last (trim_end s) 0) = false); [|now apply L].
    clear. induction s as [|c s IH]; [easy|]. cbn [trim_end]. destruct (trim_end s) as [|d t] eqn:E.
    + destruct (is_ws c) eqn:Ec; [easy|]. intros _. exact Ec.
    + intros _. apply IH. easy.
Qed.
Lemma lines_no_bom s : no_bom s = true -> forallb no_bom (lines s) = true.
Proof.
  unfold no_bom. induction s as [|c s IH]; [easy|]. cbn [forallb lines]. intros H. apply andb_true_iff in H as [Hc H]. specialize (IH H).
  destruct (c =? c_nl); [now cbn [forallb]|]. destruct (_ && _); [easy|]. destruct (lines s) as [|l ls]; cbn [forallb] in *; [now rewrite Hc|].
  apply andb_true_iff in IH as [I1 I2]. now rewrite Hc, I1, I2.
Qed.
Lemma text_tidy s : no_bom s = true -> Forall tidy (text_lines s).
Proof.
  intros H. apply lines_no_bom in H. pose proof (lines_no_nl s) as Hn. unfold text_lines. apply Forall_forall. intros l Hl. apply filter_In in Hl as [Hl He].
  apply in_map_iff in Hl as (x & <- & Hx). rewrite forallb_forall in H, Hn. apply no_bom_trim; [now apply H|now apply Hn|]. now destruct (norm_line x).
Qed.
Lemma canon_tidy b : Forall tidy b -> forallb (fun l => negb (header_line l)) b = true ->
  Forall tidy (canon b) /\ forallb (fun l => negb (header_line l)) (canon b) = true.
Proof.
  intros H Hh. unfold canon. destruct (forallb has_colon b).
  - split.
    + rewrite <- sort_perm. apply Forall_map. eapply Forall_impl; [|exact H]. intros l Hl. now apply tidy_squeeze.
    + rewrite <- (forallb_perm _ _ _ (sort_perm (map squeeze b))). induction H as [|l b Hl H IH]; [easy|]. cbn [map forallb] in *.
      apply andb_true_iff in Hh as [H1 H2]. rewrite (proj2 (tidy_squeeze l Hl)), H1, IH; easy.
  - unfold plain_body. split.
    + apply Forall_map. eapply Forall_impl; [|exact H]. intros l Hl. destruct (has_colon l); [now apply tidy_squeeze|easy].
    + induction H as [|l b Hl H IH]; [easy|]. cbn [map forallb] in *. apply andb_true_iff in Hh as [H1 H2]. rewrite IH by easy.
      destruct (has_colon l); [now rewrite (proj2 (tidy_squeeze l Hl)), H1|now rewrite H1].
Qed.
(** ** the canonical form decides *)
Lemma canonical s pre secs secs' : cut_lines (text_lines s) pre secs -> Forall2 canon_section secs secs' ->
  osu_str_trimmer s = join [10] (version_part pre ++ concat (map section_lines secs')).
Proof.
  intros C F. rewrite (trimmer_canon s pre secs C). unfold canon_lines. f_equal. f_equal. f_equal.
  clear C. induction F as [|[h b] [h' b'] secs secs' [H1 H2] F IH]; [easy|]. cbn [map fst snd section_lines] in *. subst h'.
  apply canon_body_iff in H2. subst b'. unfold section_lines at 1. cbn [fst snd]. now rewrite IH.
Qed.
Lemma canon_same b c : canon b = canon c <-> same_body b c.
Proof.
  assert (K : forall b, forallb has_colon (canon b) = forallb has_colon b).
  { intros x. unfold canon. destruct (forallb has_colon x) eqn:E; [|now rewrite plain_colon].
    rewrite <- (forallb_perm has_colon _ _ (sort_perm (map squeeze x))). now rewrite squeezed_colon. }
  unfold same_body. split.
  - intros H. pose proof (K b) as Kb. rewrite H, K in Kb. unfold canon in H. rewrite <- Kb in *. destruct (forallb has_colon c); [left|now right].
    split; [easy|]. split; [easy|]. rewrite (sort_perm (map squeeze b)), H. now rewrite <- sort_perm.
  - intros [(H1 & H2 & P)|[H1 H2]]; unfold canon.
    + rewrite H1, H2. now apply sort_perm_eq.
    + rewrite <- (plain_colon c), <- H2, plain_colon, H1. easy.
Qed.
Lemma cut_unique ls pre secs pre' secs' : cut_lines ls pre secs -> cut_lines ls pre' secs' -> pre = pre' /\ secs = secs'.
Proof.
  revert pre secs pre' secs'. induction ls as [|l ls IH]; intros pre secs pre' secs' (H1 & H2 & H3) (K1 & K2 & K3).
  - symmetry in H1, K1. apply app_eq_nil in H1 as [-> H1], K1 as [-> K1]. split; [easy|]. destruct secs as [|[]], secs' as [|[]]; easy.
  - assert (P : forall pre secs, l :: ls = pre ++ concat (map section_lines secs) -> forallb (fun l => negb (header_line l)) pre = true ->
      forallb (fun x : str * list str => header_line (fst x) && forallb (fun l => negb (header_line l)) (snd x)) secs = true ->
      if header_line l then exists b secs1, pre = [] /\ secs = (l, b) :: secs1 /\ cut_lines ls b secs1
      else exists pre1, pre = l :: pre1 /\ cut_lines ls pre1 secs).
    { clear. intros pre secs H1 H2 H3. destruct pre as [|p pre].
      - destruct secs as [|[h b] secs]; [easy|]. cbn in H1. injection H1 as -> H1. cbn [forallb fst snd] in H3. apply andb_true_iff in H3 as [H3 H4]. apply andb_true_iff in H3 as [H3 H5]. rewrite H3.
        exists b, secs. now repeat split.
      - cbn in H1. injection H1 as -> H1. cbn [forallb] in H2. apply andb_true_iff in H2 as [H4 H2]. apply negb_true_iff in H4. rewrite H4. exists pre. now repeat split. }
    pose proof (P _ _ H1 H2 H3) as P1. pose proof (P _ _ K1 K2 K3) as P2. destruct (header_line l).
    + destruct P1 as (b & s1 & -> & -> & C1), P2 as (b' & s1' & -> & -> & C2). destruct (IH _ _ _ _ C1 C2) as [-> ->]. easy.
    + destruct P1 as (p1 & -> & C1), P2 as (p2 & -> & C2). destruct (IH _ _ _ _ C1 C2) as [-> ->]. easy.
Qed.
Lemma canon_cut s pre secs : no_bom s = true -> cut_lines (text_lines s) pre secs ->
  cut_lines (canon_lines pre secs) (version_part pre) (map (fun x => (fst x, canon (snd x))) secs) /\ Forall tidy (canon_lines pre secs).
Proof.
  intros Hb (Hc & Hp & Hs). pose proof (text_tidy s Hb) as T. rewrite Hc in T. apply Forall_app in T as [Tp Ts].
  set (secs' := map (fun x : str * list str => (fst x, canon (snd x))) secs).
  assert (Tv : Forall tidy (version_part pre) /\ forallb (fun l => negb (header_line l)) (version_part pre) = true).
  { destruct pre as [|l pre]; [now split|]. cbn [version_part]. inversion Tp; subst. cbn [forallb] in Hp. destruct (starts_with _ l); [|now split].
    apply andb_true_iff in Hp as [Hp _]. split; [now constructor|]. cbn [forallb]. now rewrite Hp. }
  assert (Tc : Forall tidy (concat (map (fun x => fst x :: canon (snd x)) secs))
    /\ forallb (fun x : str * list str => header_line (fst x) && forallb (fun l => negb (header_line l)) (snd x)) secs' = true).
  { clear - Ts Hs. subst secs'. induction secs as [|[h b] secs IH]; [now split|]. cbn [map concat section_lines forallb fst snd] in *.
    apply andb_true_iff in Hs as [H1 Hs]. apply andb_true_iff in H1 as [Hh Hb]. apply Forall_app in Ts as [T1 T2]. inversion T1; subst.
    assert (I12 := ltac:(first [exact (IH T2 Hs)|exact (IH Hs T2)])); destruct I12 as [I1 I2]. destruct (canon_tidy b ltac:(easy) Hb) as [K1 K2]. rewrite Hh, K2, I2. split; [|easy]. constructor; [easy|]. apply Forall_app. now split. }
  split; [|apply Forall_app; now split]. split; [|now split]. unfold canon_lines, secs'. f_equal. f_equal. rewrite map_map. apply map_ext. easy.
Qed.
Lemma trimmer_idem s : no_bom s = true -> osu_str_trimmer (osu_str_trimmer s) = osu_str_trimmer s.
Proof.
  intros Hb. destruct (cut_exists (text_lines s)) as (pre & secs & C). rewrite (trimmer_canon s pre secs C). destruct (canon_cut s pre secs Hb C) as [C2 Tt].
  rewrite (trimmer_canon _ (version_part pre) (map (fun x => (fst x, canon (snd x))) secs)); [|now rewrite tidy_text].
  f_equal. unfold canon_lines. rewrite version_version. f_equal. f_equal. rewrite map_map. apply map_ext. intros x. cbn [fst snd]. now rewrite canon_canon.
Qed.
Lemma eq_iff s t : osu_str_eq s t = true <-> osu_str_trimmer s = osu_str_trimmer t.
Proof. unfold osu_str_eq. apply str_eqb_eq. Qed.
Lemma eq_exact s t pre secs pre' secs' : no_bom s = true -> no_bom t = true ->
  cut_lines (text_lines s) pre secs -> cut_lines (text_lines t) pre' secs' ->
  (osu_str_eq s t = true <-> version_part pre = version_part pre' /\ Forall2 same_section secs secs').
Proof.
  intros Bs Bt Cs Ct. rewrite eq_iff, (trimmer_canon _ _ _ Cs), (trimmer_canon _ _ _ Ct).
  destruct (canon_cut _ _ _ Bs Cs) as [K1 T1], (canon_cut _ _ _ Bt Ct) as [K2 T2]. split.
  - intros H. apply (f_equal text_lines) in H. rewrite !tidy_text in H by easy. rewrite H in K1. destruct (cut_unique _ _ _ _ _ K1 K2) as [E1 E2].
    split; [easy|]. clear - E2. revert secs' E2. induction secs as [|[h b] secs IH]; intros [|[h' b'] secs'] E; try easy.
    cbn [map fst snd] in E. injection E as <- Eb E. constructor; [|now apply IH]. split; [easy|]. now apply canon_same.
  - intros [E F]. unfold canon_lines. rewrite E. f_equal. f_equal. f_equal. clear - F. induction F as [|[h b] [h' b'] l l' [H1 H2] F IH]; [easy|]. cbn [map fst snd] in *. subst h'.
    apply canon_same in H2. now rewrite H2, IH.
Qed.
Lemma eq_same_lines s t : text_lines s = text_lines t -> osu_str_eq s t = true.
Proof. intros H. apply eq_iff. destruct (cut_exists (text_lines s)) as (pre & secs & C). rewrite (trimmer_canon _ _ _ C). rewrite H in C. now rewrite (trimmer_canon _ _ _ C). Qed.
Lemma reorder s t pre A h b b' B : cut_lines (text_lines s) pre (A ++ (h, b) :: B) -> cut_lines (text_lines t) pre (A ++ (h, b') :: B) ->
  forallb has_colon b = true -> Permutation b b' -> osu_str_eq s t = true.
Proof.
  intros Cs Ct Hb P. apply eq_iff. rewrite (trimmer_canon _ _ _ Cs), (trimmer_canon _ _ _ Ct). unfold canon_lines. rewrite !map_app. cbn [map fst snd].
  replace (canon b') with (canon b); [easy|]. apply canon_same. left. rewrite <- (forallb_perm _ _ _ P). split; [easy|]. split; [easy|]. now apply Permutation_map.
Qed.

(** ** layout *)
Lemma text_app a b : text_lines (a ++ 10 :: b) = text_lines (a ++ [10]) ++ text_lines b.
Proof. unfold text_lines. rewrite EvPanic.lines_cut, map_app. apply filter_app. Qed.
Lemma norm_ws c l : is_ws c = true -> norm_line (c :: l) = norm_line l.
Proof. intros H. unfold norm_line, trim. cbn [trim_start]. now rewrite H. Qed.
Lemma text_ws c s : is_ws c = true -> text_lines (c :: s) = text_lines s.
Proof.
  intros H. unfold text_lines. cbn [lines]. destruct (c =? c_nl); [easy|]. destruct (_ && _); [easy|].
  destruct (lines s) as [|l ls]; cbn [map filter]; now rewrite norm_ws.
Qed.
Lemma text_blank w s : forallb is_ws w = true -> text_lines (w ++ s) = text_lines s.
Proof. induction w as [|c w IH]; [easy|]. cbn [forallb app]. intros H. apply andb_true_iff in H as [Hc H]. rewrite (text_ws c _ Hc). now apply IH. Qed.
Lemma leading a w b : forallb is_ws w = true -> osu_str_eq (a ++ [10] ++ w ++ b) (a ++ [10] ++ b) = true /\ osu_str_eq (w ++ b) b = true.
Proof.
  intros H. split; apply eq_same_lines; [|now apply text_blank]. cbn [app]. rewrite (text_app a (w ++ b)), (text_app a b). now rewrite (text_blank w b H).
Qed.
Lemma trim_comm x : trim_end (trim_start x) = trim_start (trim_end x).
Proof.
  induction x as [|c x IH]; [easy|]. cbn [trim_start trim_end]. destruct (is_ws c) eqn:E.
  - rewrite IH. destruct (trim_end x) as [|d t] eqn:Et; [easy|]. cbn [trim_start]. now rewrite E.
  - cbn [trim_end]. destruct (trim_end x); cbn [trim_start]; now rewrite E.
Qed.
Lemma lines_trail a c : is_ws c = true -> Forall2 (fun x y => trim_end x = trim_end y) (lines (a ++ [c; 10])) (lines (a ++ [10])) \/ c = 10.
Proof.
  intros Hc. destruct (N.eqb_spec c 10) as [|Hn]; [now right|left]. induction a as [|d a IH].
  - cbn [app lines]. change c_nl with 10. apply N.eqb_neq in Hn. rewrite Hn, !N.eqb_refl. cbn [andb]. rewrite andb_true_r. destruct (c =? c_cr); repeat constructor. cbn. now rewrite Hc.
  - cbn [app lines]. change c_nl with 10. destruct (d =? 10); [now constructor|]. destruct a as [|e a].
    + cbn [app] in *. apply N.eqb_neq in Hn. rewrite Hn, andb_false_r, N.eqb_refl, andb_true_r.
      cbn [lines] in *. change c_nl with 10 in *. rewrite Hn, !N.eqb_refl in *. cbn [andb] in *. rewrite andb_true_r in *.
      destruct (N.eqb_spec d c_cr) as [Ed|Ed].
      * assert (Hd : is_ws d = true) by now subst d. destruct (c =? c_cr); constructor; try constructor; cbn; now rewrite ?Hd, ?Hc.
      * destruct (c =? c_cr); constructor; try constructor; cbn; now rewrite ?Hc.
    + cbn [app]. destruct (_ && _); [exact IH|]. cbn [app] in IH. revert IH. cbn [lines].
      match goal with |- Forall2 _ ?u ?w -> _ => generalize u w end. intros u w IH. destruct IH as [|x y l l' H1 H2]; [repeat constructor|].
      constructor; [|easy]. cbn [trim_end]. now rewrite H1.
Qed.
Lemma trailing_one a c b : is_ws c = true -> text_lines (a ++ c :: 10 :: b) = text_lines (a ++ 10 :: b).
Proof.
  intros Hc. change (a ++ c :: 10 :: b) with (a ++ [c] ++ 10 :: b). rewrite app_assoc, (text_app (a ++ [c]) b), (text_app a b). f_equal. rewrite <- app_assoc. cbn [app].
  destruct (lines_trail a c Hc) as [F| ->].
  - unfold text_lines. assert (E : map norm_line (lines (a ++ [c; 10])) = map norm_line (lines (a ++ [10]))); [|now rewrite E].
    induction F as [|x y l l' H F IH]; [easy|]. cbn [map]. rewrite IH. f_equal. unfold norm_line, trim. now rewrite !trim_comm, H.
  - rewrite (text_app a [10]). change (text_lines [10]) with (@nil str). now rewrite app_nil_r.
Qed.
Lemma trailing a w b : forallb is_ws w = true -> osu_str_eq (a ++ w ++ [10] ++ b) (a ++ [10] ++ b) = true.
Proof.
  intros H. apply eq_same_lines. cbn [app]. revert a. induction w as [|c w IH]; intros a; [easy|]. cbn [forallb] in H. apply andb_true_iff in H as [Hc H].
  change ((c :: w) ++ 10 :: b) with ([c] ++ w ++ 10 :: b). rewrite app_assoc, (IH H), <- app_assoc. now apply trailing_one.
Qed.

(** ** blanks inside a value *)
Lemma in_sections ls : forall st, ts_in_sections st = true \/ existsb header_line ls = true -> ts_in_sections (fold_left step2 ls st) = true.
Proof.
  induction ls as [|l ls IH]; intros st [H|H]; try easy; cbn [fold_left]; apply IH.
  - left. unfold step2. rewrite H. cbn [negb]. destruct (header_line l); [easy|]. destruct (has_colon l); [|easy]. now destruct (ts_coloned st).
  - cbn [existsb] in H. destruct (header_line l) eqn:E; [left|now right]. unfold step2. rewrite E. now destruct (ts_in_sections st).
Qed.
Lemma squeeze_norm l : squeeze (norm_line l) = filter (fun c => negb (c =? 65279)) (squeeze l).
Proof.
  unfold norm_line. assert (C : forall s, squeeze (filter (fun c => negb (c =? 65279)) s) = filter (fun c => negb (c =? 65279)) (squeeze s)).
  { unfold squeeze. induction s as [|c s IH]; [easy|]. cbn [filter]. destruct (c =? 65279) eqn:E1, (is_ws c) eqn:E2; cbn [negb filter]; rewrite ?E1, ?E2; cbn [negb]; now rewrite ?IH. }
  rewrite C. f_equal. unfold trim. destruct (trim_start_incl l) as (a & Ha & Wa), (trim_end_incl (trim_start l)) as (b & Hb & Wb).
  rewrite Ha at 2. rewrite Hb at 2. unfold squeeze. rewrite !filter_app.
  assert (W : forall a, forallb is_ws a = true -> filter (fun c => negb (is_ws c)) a = []).
  { induction a0 as [|c a0 IH]; [easy|]. cbn [forallb filter]. intros H. apply andb_true_iff in H as [H1 H2]. rewrite H1. now apply IH. }
  now rewrite (W a Wa), (W b Wb), app_nil_r.
Qed.
Lemma key_line k x : k <> [] -> forallb key_char k = true -> header_line (norm_line (k ++ 58 :: x)) = false /\ has_colon (norm_line (k ++ 58 :: x)) = true /\ norm_line (k ++ 58 :: x) <> [].
Proof.
  intros H Hk.
  assert (E : exists t, norm_line (k ++ 58 :: x) = k ++ 58 :: t).
  { unfold norm_line. assert (T : exists t, trim (k ++ 58 :: x) = k ++ 58 :: t).
    { unfold trim. assert (trim_start (k ++ 58 :: x) = k ++ 58 :: x) as ->.
      { destruct k as [|c k]; [easy|]. cbn [forallb] in Hk. apply andb_true_iff in Hk as [Hc _]. unfold key_char in Hc. cbn [app trim_start]. destruct (is_ws c); [easy|]. easy. }
      clear H Hk. induction k as [|c k [t IH]]; cbn [app trim_end].
      - destruct (trim_end x); [now exists []|eexists; reflexivity].
      - rewrite IH. exists t. now destruct k. }
    destruct T as [t ->]. exists (filter (fun c => negb (c =? 65279)) t). rewrite filter_app. cbn [filter]. change (58 =? 65279) with false. cbn [negb].
    rewrite filter_id; [easy|]. rewrite forallb_forall in *. intros c Hc. specialize (Hk c Hc). unfold key_char in Hk. destruct (c =? 65279); [|easy]. now rewrite andb_false_r in Hk. }
  destruct E as [t ->]. split; [|split].
  - destruct k as [|c k]; [easy|]. cbn [forallb] in Hk. apply andb_true_iff in Hk as [Hc _]. unfold header_line. cbn [app hd]. unfold key_char in Hc. destruct (c =? 91); [now rewrite andb_false_r in Hc|easy].
  - unfold has_colon. rewrite existsb_app. cbn [existsb]. now rewrite orb_true_r.
  - now destruct k.
Qed.
Lemma value_blanks a k x y b : existsb header_line (text_lines (a ++ [10])) = true -> k <> [] -> forallb key_char k = true ->
  plain_line (k ++ 58 :: x) = true -> plain_line (k ++ 58 :: y) = true -> squeeze x = squeeze y ->
  osu_str_eq (a ++ [10] ++ k ++ [58] ++ x ++ [10] ++ b) (a ++ [10] ++ k ++ [58] ++ y ++ [10] ++ b) = true.
Proof.
  intros Ha Hk Kk Px Py E. apply eq_iff. unfold osu_str_trimmer. rewrite !loop_lines. fold (text_lines (a ++ [10] ++ k ++ [58] ++ x ++ [10] ++ b)) (text_lines (a ++ [10] ++ k ++ [58] ++ y ++ [10] ++ b)).
  assert (K : forall x, plain_line (k ++ 58 :: x) = true -> text_lines (a ++ [10] ++ k ++ [58] ++ x ++ [10] ++ b) = text_lines (a ++ [10]) ++ norm_line (k ++ 58 :: x) :: text_lines b).
  { intros z Pz. cbn [app]. rewrite text_app. f_equal. unfold plain_line in Pz. apply andb_true_iff in Pz as [P1 P2]. apply negb_true_iff in P2. unfold text_lines.
    replace (k ++ 58 :: z ++ 10 :: b) with ((k ++ 58 :: z) ++ 10 :: b) by now rewrite <- app_assoc. rewrite lines_app_nl by easy. cbn [map filter].
    destruct (key_line k z Hk Kk) as (_ & _ & Hn). now destruct (norm_line (k ++ 58 :: z)). }
  rewrite (K x Px), (K y Py), !fold_left_app. cbn [fold_left]. f_equal. f_equal. f_equal. unfold step2. rewrite in_sections by now right. cbn [negb].
  destruct (key_line k x Hk Kk) as (-> & -> & _), (key_line k y Hk Kk) as (-> & -> & _). rewrite !squeeze_norm.
  replace (squeeze (k ++ 58 :: x)) with (squeeze (k ++ 58 :: y)); [easy|]. unfold squeeze in *. rewrite !filter_app. cbn [filter]. now rewrite E.
Qed.
Lemma equivalence :
  (forall s, osu_str_eq s s = true)
  /\ (forall s t, osu_str_eq s t = true -> osu_str_eq t s = true)
  /\ (forall s t u, osu_str_eq s t = true -> osu_str_eq t u = true -> osu_str_eq s u = true).
Proof. split; [intros s; now apply eq_iff|]. split; [intros s t|intros s t u]; rewrite !eq_iff; congruence. Qed.
Lemma cut_one ls : exists pre secs, cut_lines ls pre secs
  /\ forall pre' secs', cut_lines ls pre' secs' -> pre' = pre /\ secs' = secs.
Proof. destruct (cut_exists ls) as (pre & secs & C). exists pre, secs. split; [easy|]. intros pre' secs' C'. eapply cut_unique; eauto. Qed.

(** ** texts without sections *)
Lemma no_sections s : forallb (fun l => negb (header_line l)) (text_lines s) = true -> osu_str_trimmer s = join [10] (version_part (text_lines s)).
Proof.
  intros H. rewrite (canonical s (text_lines s) [] []); [now rewrite app_nil_r| |constructor].
  split; [cbn; now rewrite app_nil_r|]. split; [exact H|easy].
Qed.
Lemma blind s t : forallb (fun l => negb (header_line l)) (text_lines s) = true -> forallb (fun l => negb (header_line l)) (text_lines t) = true ->
  version_part (text_lines s) = version_part (text_lines t) -> osu_str_eq s t = true.
Proof. intros H1 H2 E. unfold osu_str_eq. rewrite (no_sections s H1), (no_sections t H2), E. apply str_eqb_eq. reflexivity. Qed.
