(** The loop over the sections of a file. *)
From Coq Require Import String List NArith ZArith Bool Lia Permutation.
From Verif Require Import Str Num Nom Dec Parsers General Editor Metadata Difficulty Colours
  TimingPoints HitObjects Storyboard NormalEvents Events Osb OsuFile Spec SpecText SpecFile
  StrFacts NumFacts NomFacts LayoutFacts TriggerFacts FileFacts.
Import ListNotations.
Local Open Scope N_scope.

(** ** counting lines *)
Lemma lines_len_app_nl l s : line_text l = true -> length (lines (l ++ 10 :: s)) = S (length (lines s)).
Proof.
  induction l as [|c l IH]; intros H; [easy|]. unfold line_text in H. cbn [forallb] in H.
  apply andb_true_iff in H as [Hc H]. apply negb_true_iff in Hc.
  specialize (IH H). cbn [app lines]. unfold c_nl, c_cr. rewrite Hc.
  destruct ((c =? 13) && _); [easy|]. destruct (lines (l ++ 10 :: s)); [cbn in *; lia|easy].
Qed.
Lemma lines_len_join ls : ls <> [] -> forallb line_text ls = true ->
  (length (lines (join [c_nl] ls)) + (if is_empty (last ls [0%N]) then 1 else 0) = length ls)%nat.
Proof.
  induction ls as [|l ls IH]; intros Hne H; [easy|]. cbn [forallb] in H.
  apply andb_true_iff in H as [Hl H]. destruct ls as [|l2 ls].
  - cbn [join last]. destruct l as [|c l]; [easy|]. rewrite lines_single by easy. easy.
  - rewrite join_cons by easy. change (l ++ [c_nl] ++ ?x) with (l ++ 10 :: x).
    rewrite lines_len_app_nl by easy. specialize (IH ltac:(easy) H).
    change (last (l :: l2 :: ls) [0]) with (last (l2 :: ls) [0]). cbn [length] in *. lia.
Qed.
Lemma lines_count_nl n : lines_count (repeat 10 n) = Z.of_nat n.
Proof.
  unfold lines_count. f_equal. induction n as [|n IH]; [easy|]. cbn [repeat lines].
  unfold c_nl. rewrite N.eqb_refl. cbn [length]. now rewrite IH.
Qed.
Lemma sec_body_count x : sec_ok x = true ->
  lines_count (sec_body x) = (Z.of_nat (length (sec_lines x)) - (if blank_end x then 1 else 0))%Z
  /\ (lines_count (sec_body x) =? 0)%Z = false.
Proof.
  intros Hx. destruct (sec_ok_inv x Hx) as (Hn & (c & l & ls & Hl & Hc) & Hls).
  unfold lines_count, sec_body. rewrite text_of_lines_join. unfold blank_end.
  pose proof (lines_len_join (sec_lines x)) as H. rewrite Hl in *.
  specialize (H ltac:(easy) (lines_ok_text _ Hls)). split.
  - destruct (is_empty _); lia.
  - apply Z.eqb_neq. destruct ls as [|l2 ls].
    + cbn [last is_empty length] in H. lia.
    + cbn [length] in H. destruct (is_empty _); lia.
Qed.

(** ** one section *)
Definition known (x : sec) : Prop := In (sec_name x) section_names.
Lemma known_cases x : known x ->
  sec_name x = lit "General" \/ sec_name x = lit "Editor" \/ sec_name x = lit "Metadata"
  \/ sec_name x = lit "Difficulty" \/ sec_name x = lit "Events" \/ sec_name x = lit "TimingPoints"
  \/ sec_name x = lit "Colours" \/ sec_name x = lit "HitObjects".
Proof. unfold known, section_names. cbn [map In]. intuition. Qed.

Lemma holds_one_eq {T E} x name (from : str -> res T E) old new :
  sec_name x = lit name -> (holds [x] name from old new <-> from (sec_body x) = ROk new).
Proof.
  intros H. unfold holds. cbn [In]. split.
  - intros [H1 _]. apply H1; auto.
  - intros H1. split; [intros y [<-|[]] _; exact H1|]. intros H2. exfalso. eapply H2; eauto.
Qed.
Lemma holds_one_neq {T E} x name (from : str -> res T E) old new :
  sec_name x <> lit name -> (holds [x] name from old new <-> new = old).
Proof.
  intros H. unfold holds. cbn [In]. split.
  - intros [_ H2]. apply H2. intros y [<-|[]]. exact H.
  - intros ->. split; [|easy]. intros y [<-|[]] Hy. easy.
Qed.
Lemma rmap_pl_ok {A B E F} (g : A -> B) (f : E -> F) (r : res A (line_err E)) i b :
  rmap g (processing_line f r i) = ROk b <-> exists a, r = ROk a /\ b = g a.
Proof. destruct r; cbn; split; intros H; try easy; [injection H as <-; eauto|destruct H as (x & [= ->] & ->); easy| |];
  destruct H as (x & H & _); easy. Qed.

Lemma section_ok dbg acc x i acc' : known x ->
  (osu_section dbg acc (sec_name x) (sec_body x) i = Some (ROk acc')
   <-> describes dbg (osu_version acc) [x] acc acc').
Proof.
  intros Hk. apply known_cases in Hk. destruct acc as [v g e o m d ev tp c h].
  unfold describes. cbn [osu_version osu_general osu_editor osu_osb osu_metadata osu_difficulty
    osu_events osu_timing_points osu_colours osu_hitobjects].
  destruct Hk as [Hk|[Hk|[Hk|[Hk|[Hk|[Hk|[Hk|Hk]]]]]]];
  unfold osu_section;
  rewrite Hk;
  repeat match goal with
  | |- context [str_eqb (lit ?a) (lit ?b)] =>
      let t := eval vm_compute in (str_eqb (lit a) (lit b)) in
      change (str_eqb (lit a) (lit b)) with t
  end; cbn beta iota;
  repeat match goal with
  | |- context [holds [x] ?n ?f ?a ?b] =>
      first [rewrite (holds_one_eq x n f a b Hk)
            |rewrite (holds_one_neq x n f a b) by (rewrite Hk; intros HH; vm_compute in HH; discriminate HH)]
  end;
  (split;
   [ intros H; injection H as H; apply rmap_pl_ok in H; destruct H as (a & Ha & ->); cbn; repeat split; assumption
   | intros H; f_equal; apply rmap_pl_ok; destruct acc' as [v' g' e' o' m' d' ev' tp' c' h'];
     cbn in H; eexists; split;
     [ decompose [and] H; clear H; eassumption
     | decompose [and] H; clear H; subst; reflexivity ] ]).
Qed.
Lemma section_unknown dbg acc x i : ~ known x <-> osu_section dbg acc (sec_name x) (sec_body x) i = None.
Proof.
  destruct acc as [v g e o m d ev tp c h]. unfold known, section_names. cbn [map In]. unfold osu_section.
  repeat match goal with
  | |- context [str_eqb (sec_name x) ?t] =>
      let E := fresh "E" in destruct (str_eqb (sec_name x) t) eqn:E;
      [apply str_eqb_eq in E; split; [intros H; exfalso; apply H; rewrite E; clear; tauto|easy]
      |apply str_eqb_neq in E]
  end.
  split; [easy|]. intros _ H. repeat (destruct H as [H|H]; [congruence|]). exact H.
Qed.
Lemma section_refused dbg acc x k e i : refused dbg (osu_version acc) x k e ->
  osu_section dbg acc (sec_name x) (sec_body x) i = Some (RErr (mk_line_err (k + i) e)).
Proof.
  intros H. destruct acc as [v g ed o m d ev tp c h]. cbn [osu_version] in H.
  destruct H as [k e Hk H|k e Hk H|k e Hk H|k e Hk H|k e Hk H|k e Hk H|k e Hk H|k e Hk H];
  unfold osu_section; rewrite Hk;
  repeat match goal with
  | |- context [str_eqb (lit ?a) (lit ?b)] =>
      let t := eval vm_compute in (str_eqb (lit a) (lit b)) in
      change (str_eqb (lit a) (lit b)) with t
  end; cbn beta iota; rewrite H; reflexivity.
Qed.
Lemma rmap_pl_err {A B E F} (g : A -> B) (f : E -> F) (r : res A (line_err E)) i j e' :
  rmap g (processing_line f r i) = RErr (mk_line_err j e') ->
  exists k e, r = RErr (mk_line_err k e) /\ j = (k + i)%Z /\ e' = f e.
Proof. destruct r as [|[k e]|]; cbn; intros H; try easy. injection H as <- <-. eauto. Qed.
Lemma section_err_inv dbg acc x i j e : 
  osu_section dbg acc (sec_name x) (sec_body x) i = Some (RErr (mk_line_err j e)) ->
  refused dbg (osu_version acc) x (j - i) e.
Proof.
  intros H. destruct acc as [v g ed o m d ev tp c h]. cbn [osu_version]. unfold osu_section in H.
  repeat match type of H with
  | context [str_eqb (sec_name x) ?t] =>
      let E := fresh "E" in destruct (str_eqb (sec_name x) t) eqn:E;
      [apply str_eqb_eq in E; injection H as H; apply rmap_pl_err in H; destruct H as (k & e0 & Hr & -> & ->);
       replace (k + i - i)%Z with k by lia; constructor; assumption|]
  end. discriminate H.
Qed.

(** ** several sections *)
Lemma holds_cons {T E} x secs name (from : str -> res T E) old new :
  (forall y, In y secs -> sec_name y <> sec_name x) ->
  (holds (x :: secs) name from old new
   <-> exists mid, holds [x] name from old mid /\ holds secs name from mid new).
Proof.
  intros Hd. destruct (list_eq_dec N.eq_dec (sec_name x) (lit name)) as [Hx|Hx].
  - split.
    + intros [H1 _]. exists new. split.
      * apply holds_one_eq; [easy|]. apply H1; [now left|easy].
      * split; [|easy]. intros y Hy Hn. exfalso. apply (Hd y Hy). congruence.
    + intros (mid & H1 & [_ H2]). apply (holds_one_eq _ _ _ _ _ Hx) in H1.
      assert (new = mid) as -> by (apply H2; intros y Hy Hn; apply (Hd y Hy); congruence).
      split.
      * intros y [<-|Hy] Hn; [exact H1|]. exfalso. apply (Hd y Hy). congruence.
      * intros H. exfalso. apply (H x); [now left|easy].
  - split.
    + intros [H1 H2]. exists old. split; [now apply holds_one_neq|]. split.
      * intros y Hy. apply H1. now right.
      * intros H. apply H2. intros y [<-|Hy]; [easy|now apply H].
    + intros (mid & H1 & [H2 H3]). apply (holds_one_neq _ _ _ _ _ Hx) in H1. subst mid. split.
      * intros y [<-|Hy] Hn; [easy|now apply H2].
      * intros H. apply H3. intros y Hy. apply H. now right.
Qed.
Lemma holds_nil {T E} name (from : str -> res T E) old new : holds [] name from old new <-> new = old.
Proof. split; [intros [_ H]; now apply H|]. intros ->. split; easy. Qed.
Lemma describes_nil dbg v g f : osu_version g = v -> (describes dbg v [] g f <-> f = g).
Proof.
  intros Hv. unfold describes. rewrite !holds_nil. destruct g, f. cbn in *. split.
  - intros H. decompose [and] H. clear H. now subst.
  - intros [= -> -> -> -> -> -> -> -> -> ->]. repeat split; auto.
Qed.
Lemma describes_version dbg v secs g f : describes dbg v secs g f -> osu_version f = v.
Proof. now intros []. Qed.
Lemma describes_cons dbg v x secs g f :
  (forall y, In y secs -> sec_name y <> sec_name x) ->
  (describes dbg v (x :: secs) g f
   <-> exists m, describes dbg v [x] g m /\ describes dbg v secs m f).
Proof.
  intros Hd. unfold describes. split.
  - rewrite !(holds_cons x secs) by assumption. intros (Hv & Ho & (m1 & A1 & B1) & (m2 & A2 & B2) & (m3 & A3 & B3)
      & (m4 & A4 & B4) & (m5 & A5 & B5) & (m6 & A6 & B6) & (m7 & A7 & B7) & (m8 & A8 & B8)).
    exists (mk_osu v m1 m2 (osu_osb g) m3 m4 m5 m6 m7 m8). cbn; tauto.
  - intros (m & (Hv1 & Ho1 & A) & (Hv2 & Ho2 & B)). split; [exact Hv2|]. split; [congruence|].
    decompose [and] A. clear A. decompose [and] B. clear B.
    rewrite !(holds_cons x secs) by assumption.
    repeat split; eexists; split; eassumption.
Qed.

Lemma NoDup_cons_names x secs : NoDup (map sec_name (x :: secs)) <->
  (forall y, In y secs -> sec_name y <> sec_name x) /\ NoDup (map sec_name secs).
Proof.
  cbn [map]. rewrite NoDup_cons_iff. split; intros [H1 H2]; split; auto.
  - intros y Hy He. apply H1. rewrite <- He. now apply in_map.
  - intros H. apply in_map_iff in H as (y & He & Hy). now apply (H1 y).
Qed.

Definition size (x : sec) : Z := (Z.of_nat (length (sec_all x)) - if blank_end x then 1 else 0)%Z.
Fixpoint sizes (l : list sec) : Z := match l with [] => 0 | x :: l' => size x + sizes l' end%Z.

Lemma loop_step dbg line parsed acc w x l acc' :
  sec_ok x = true -> ~ In (sec_name x) parsed -> known x ->
  describes dbg (osu_version acc) [x] acc acc' ->
  osu_loop dbg line parsed acc ((w, sec_name x, repeat 10 (S (sec_gap x)), sec_body x) :: l)
  = osu_loop dbg (line + lines_count w + size x - 1) (parsed ++ [sec_name x]) acc' l.
Proof.
  intros Hx Hp Hk Hd. cbn [osu_loop]. apply mem_str_not_In in Hp. rewrite Hp.
  apply (section_ok dbg acc x (line + lines_count w + lines_count (repeat 10 (S (sec_gap x)))) acc' Hk) in Hd.
  rewrite Hd. cbn [rbind]. destruct (sec_body_count x Hx) as [Hc Hz]. unfold usize_pred. rewrite Hz.
  cbn [rbind]. f_equal. rewrite Hc, lines_count_nl. unfold size, sec_all. cbn [length].
  rewrite app_length, repeat_length. lia.
Qed.
(** Reading the sections [before] moves the line counter by their sizes. *)
Lemma loop_before dbg before : forall line parsed acc w rest more acc',
  forallb sec_ok before = true ->
  Forall known before -> (forall x, In x before -> ~ In (sec_name x) parsed) ->
  NoDup (map sec_name before) -> describes dbg (osu_version acc) before acc acc' ->
  exists line' w',
    osu_loop dbg line parsed acc (quads w (before ++ rest) ++ more)
    = osu_loop dbg line' (parsed ++ map sec_name before) acc' (quads w' rest ++ more)
    /\ (line' + lines_count w' = line + lines_count w + sizes before)%Z.
Proof.
  induction before as [|x before IH]; intros line parsed acc w rest more acc' Hs Hk Hp Hn Hd.
  - apply describes_nil in Hd; [|easy]. subst acc'. exists line, w. cbn [map app sizes].
    rewrite app_nil_r. split; [easy|lia].
  - cbn [forallb] in Hs. apply andb_true_iff in Hs as [Hx Hs].
    inversion Hk as [|? ? Hk1 Hk2]; subst. apply NoDup_cons_names in Hn as [Hn1 Hn2].
    apply describes_cons in Hd; [|exact Hn1]. destruct Hd as (m & Hd1 & Hd2).
    cbn [app quads]. rewrite (loop_step dbg line parsed acc w x _ m Hx (Hp x (or_introl eq_refl)) Hk1 Hd1).
    pose proof (describes_version _ _ _ _ _ Hd1) as Hv. rewrite <- Hv in Hd2.
    destruct (IH (line + lines_count w + size x - 1)%Z (parsed ++ [sec_name x]) m [10] rest more acc')
      as (line' & w' & He & Hl); try assumption.
    + intros y Hy. rewrite in_app_iff. intros [H|[H|[]]]; [now apply (Hp y (or_intror Hy))|].
      now apply (Hn1 y Hy).
    + exists line', w'. rewrite He. rewrite <- app_assoc. cbn [map app]. split; [easy|].
      rewrite Hl. change (lines_count [10]) with 1%Z. cbn [sizes]. lia.
Qed.
(** The loop succeeds exactly when every section is known, new and readable. *)
Lemma loop_ok dbg secs : forall line parsed acc w f,
  forallb sec_ok secs = true ->
  (osu_loop dbg line parsed acc (quads w secs) = ROk f
   <-> Forall known secs /\ (forall x, In x secs -> ~ In (sec_name x) parsed)
       /\ NoDup (map sec_name secs) /\ describes dbg (osu_version acc) secs acc f).
Proof.
  induction secs as [|x secs IH]; intros line parsed acc w f Hs.
  - cbn [quads osu_loop]. rewrite describes_nil by easy. split.
    + intros [= <-]. repeat split; easy || constructor.
    + intros (_ & _ & _ & ->). easy.
  - cbn [forallb] in Hs. apply andb_true_iff in Hs as [Hx Hs]. cbn [quads].
    rewrite NoDup_cons_names, Forall_cons_iff. split.
    + intros H. cbn [osu_loop] in H. destruct (mem_str (sec_name x) parsed) eqn:Em; [easy|].
      apply mem_str_not_In in Em.
      destruct (osu_section _ _ _ _ _) as [r|] eqn:Er; [|easy].
      destruct r as [m| |]; try easy. cbn [rbind] in H.
      assert (Hk : known x).
      { destruct (in_dec (list_eq_dec N.eq_dec) (sec_name x) section_names) as [Hk|Hk]; [exact Hk|].
        apply (section_unknown dbg acc x (line + lines_count w + lines_count (repeat 10 (S (sec_gap x))))) in Hk.
        congruence. }
      apply section_ok in Er; [|exact Hk]. destruct (sec_body_count x Hx) as [Hc Hz].
      unfold usize_pred in H. rewrite Hz in H. cbn [rbind] in H.
      apply (IH _ _ _ _ _ Hs) in H. destruct H as (K1 & K2 & K3 & K4).
      assert (Hdis : forall y, In y secs -> sec_name y <> sec_name x).
      { intros y Hy He. apply (K2 y Hy). rewrite in_app_iff, He. right. now left. }
      split; [now split|]. split; [|split; [now split|]].
      * intros y [<-|Hy]; [exact Em|]. intros Hin. apply (K2 y Hy). rewrite in_app_iff. now left.
      * apply describes_cons; [exact Hdis|]. exists m. split; [exact Er|].
        now rewrite (describes_version _ _ _ _ _ Er) in K4.
    + intros ([Hk1 Hk2] & Hp & [Hn1 Hn2] & Hd). apply describes_cons in Hd; [|exact Hn1].
      destruct Hd as (m & Hd1 & Hd2).
      rewrite (loop_step dbg line parsed acc w x _ m Hx (Hp x (or_introl eq_refl)) Hk1 Hd1).
      apply IH; [exact Hs|]. rewrite (describes_version _ _ _ _ _ Hd1). split; [exact Hk2|]. split; [|now split].
      intros y Hy. rewrite in_app_iff. intros [H|[H|[]]]; [now apply (Hp y (or_intror Hy))|].
      now apply (Hn1 y Hy).
Qed.
