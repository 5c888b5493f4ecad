(** The version line, and how the text of a file falls apart into sections. *)
From Coq Require Import String List NArith ZArith Bool Lia.
From Verif Require Import Str Num Nom Dec Parsers General Editor Metadata Difficulty Colours
  TimingPoints HitObjects Storyboard NormalEvents Events Osb OsuFile Spec SpecText SpecFile
  StrFacts NumFacts NomFacts LayoutFacts TriggerFacts.
Import ListNotations.
Local Open Scope N_scope.

Lemma forallb_same {A} (f g : A -> bool) l : (forall x, f x = g x) -> forallb f l = forallb g l.
Proof. intros H. induction l as [|x l IH]; [easy|]. simpl. now rewrite H, IH. Qed.

(** ** the version line *)
Definition num_stop (c : char) : bool := (c =? 13) || (c =? 10).
Lemma num_go c : negb (num_stop c) = negb (c =? 13) && negb (c =? 10).
Proof. apply negb_orb. Qed.

Lemma vp_head s ws num rest : version_head s ws num rest ->
  version_parser s = match parse_u8 num with
                     | ROk z => POk rest (ws, z)
                     | RErr _ => kerr KMapRes
                     | RPanic x => PPanic x
                     end.
Proof.
  intros H. destruct H as [ws bom num rest Hw Hb Hn Hr]. unfold version_parser, pair, multispace0.
  assert (Hs : stops is_multispace (bom ++ version_prefix ++ num ++ rest) = true)
    by (destruct Hb as [-> | ->]; reflexivity).
  erewrite pbind_step; [|now apply take_while_app|reflexivity].
  unfold pmap, preceded. set (k := map_res _ _).
  assert (Hk : k (num ++ rest) = match parse_u8 num with
                                 | ROk z => POk rest z
                                 | RErr _ => kerr KMapRes
                                 | RPanic x => PPanic x
                                 end).
  { unfold k, map_res, take_till. rewrite take_while_app; [easy| |].
    - rewrite <- Hn. apply forallb_same. intros c. apply num_go.
    - destruct Hr as [-> | (c & t & -> & [-> | ->])]; reflexivity. }
  assert (Ht : pbind (pbind (alt (tag [c_bom]) (pret [])) (fun _ => tag (lit "osu file format v")))
                 (fun _ => k) (bom ++ version_prefix ++ num ++ rest) = k (num ++ rest)).
  { destruct Hb as [-> | ->].
    - unfold pbind. replace (alt (tag [c_bom]) (pret []) ([] ++ version_prefix ++ num ++ rest))
        with (@POk unit str (version_prefix ++ num ++ rest) []) by reflexivity.
      change (lit "osu file format v") with version_prefix. now rewrite tag_app.
    - unfold pbind. replace (alt (tag [c_bom]) (pret []) ([65279] ++ version_prefix ++ num ++ rest))
        with (@POk unit str (version_prefix ++ num ++ rest) [c_bom]) by reflexivity.
      change (lit "osu file format v") with version_prefix. now rewrite tag_app. }
  rewrite Ht, Hk. now destruct (parse_u8 num).
Qed.
Lemma vp_inv s : (exists ws num rest, version_head s ws num rest)
  \/ (version_parser s = kerr KTag /\ forall ws num rest, ~ version_head s ws num rest).
Proof.
  destruct (span is_multispace s) as [ws s1] eqn:Es.
  destruct (span_spec _ _ _ _ Es) as (Hs & Hw & Hst).
  assert (Hv : version_parser s = pmap (fun b => (ws, b)) (preceded (preceded (alt (tag [c_bom]) (pret []))
                        (tag (lit "osu file format v")))
       (map_res (take_till (fun c => (c =? 13) || (c =? 10))) parse_u8)) s1).
  { unfold version_parser, pair, multispace0, pbind, take_while. now rewrite Es. }
  assert (Hbom : exists bom s2, (bom = [] \/ bom = [65279]) /\ s1 = bom ++ s2
     /\ @alt unit str (tag [c_bom]) (pret []) s1 = POk s2 bom).
  { unfold alt, tag. destruct (strip_prefix [c_bom] s1) as [t|] eqn:E.
    - apply strip_prefix_spec in E. exists [65279], t. repeat split; auto.
    - exists [], s1. repeat split; auto. }
  destruct Hbom as (bom & s2 & Hb & Hs1 & Hb2).
  destruct (strip_prefix version_prefix s2) as [s3|] eqn:E.
  - left. apply strip_prefix_spec in E.
    destruct (span (fun c => negb (num_stop c)) s3) as [num rest] eqn:E3.
    destruct (span_spec _ _ _ _ E3) as (H3 & Hn & Hr). exists ws, num, rest.
    subst s s1 s2 s3. apply vh; auto.
    + rewrite <- Hn. apply forallb_same. intros c. symmetry. apply num_go.
    + destruct rest as [|c t]; [now left|right]. exists c, t. split; [easy|].
      apply negb_false_iff, orb_true_iff in Hr.
      rewrite !N.eqb_eq in Hr. tauto.
  - right. assert (Hk : version_parser s = kerr KTag).
    { rewrite Hv. unfold pmap, preceded, pbind. rewrite Hb2. unfold tag.
      change (lit "osu file format v") with version_prefix. now rewrite E. }
    split; [easy|]. intros ws' num rest H. apply vp_head in H. rewrite Hk in H.
    destruct (parse_u8 num) as [|[]|] eqn:Eu; try easy.
Qed.

(** ** the sections *)
Lemma layout_multispace c : layout_char c = is_multispace c.
Proof. reflexivity. Qed.
Fixpoint quads (w : str) (secs : list sec) : list (str * str * str * str) :=
  match secs with
  | [] => []
  | x :: secs' => (w, sec_name x, repeat 10 (S (sec_gap x)), sec_body x) :: quads [10] secs'
  end.

Lemma find_header_none ls :
  forallb (fun l => line_text l && negb (starts_with_char 91 l)) (tl ls) = true ->
  forallb line_text ls = true -> find_sub [c_nl; 91] (join [c_nl] ls) = None.
Proof.
  induction ls as [|l ls IH]; intros H Hl; [easy|].
  cbn [tl] in H. cbn [forallb] in Hl. apply andb_true_iff in Hl as [Hl1 Hl].
  assert (Hgo : forall t, find_sub [c_nl; 91] t = None -> find_sub [c_nl; 91] (l ++ t) = None).
  { intros t Ht. clear -Hl1 Ht. induction l as [|c l IHl]; [easy|].
    cbn [app find_sub]. unfold line_text in Hl1. cbn [forallb] in Hl1.
    apply andb_true_iff in Hl1 as [Hc Hl1]. unfold starts_with. cbn [strip_prefix].
    rewrite N.eqb_sym. apply negb_true_iff in Hc. unfold c_nl. rewrite Hc.
    unfold c_nl in *. now rewrite IHl. }
  destruct ls as [|l2 ls]; [cbn [join]; specialize (Hgo [] eq_refl); now rewrite app_nil_r in Hgo|].
  rewrite join_cons by easy. apply Hgo. cbn [app].
  change (forallb _ (l2 :: ls)) with
    ((line_text l2 && negb (starts_with_char 91 l2))
     && forallb (fun l => line_text l && negb (starts_with_char 91 l)) ls) in H.
  apply andb_true_iff in H as [Ha Hb]. apply andb_true_iff in Ha as [Ha1 Ha2].
  apply negb_true_iff in Ha2. cbn [find_sub].
  assert (Hs : starts_with [c_nl; 91] (c_nl :: join [c_nl] (l2 :: ls)) = false).
  { unfold starts_with. cbn [strip_prefix]. rewrite N.eqb_refl.
    destruct l2 as [|d l2].
    - destruct ls; [easy|]. rewrite join_cons by easy. reflexivity.
    - assert (exists t, join [c_nl] ((d :: l2) :: ls) = d :: t) as [t ->].
      { destruct ls; [now exists l2|]. rewrite join_cons by easy. eexists; reflexivity. }
      cbn in Ha2. rewrite N.eqb_sym, Ha2. easy. }
  rewrite Hs. rewrite (IH Hb Hl). easy.
Qed.
Lemma find_header_some ls X :
  forallb (fun l => line_text l && negb (starts_with_char 91 l)) (tl ls) = true ->
  forallb line_text ls = true ->
  find_sub [c_nl; 91] (join [c_nl] ls ++ [c_nl; 91] ++ X) = Some (join [c_nl] ls, [c_nl; 91] ++ X).
Proof.
  induction ls as [|l ls IH]; intros H Hl; [easy|].
  cbn [tl] in H. cbn [forallb] in Hl. apply andb_true_iff in Hl as [Hl1 Hl].
  assert (Hgo : forall t a b, find_sub [c_nl; 91] t = Some (a, b) ->
                              find_sub [c_nl; 91] (l ++ t) = Some (l ++ a, b)).
  { intros t a b Ht. clear -Hl1 Ht. induction l as [|c l IHl]; [easy|].
    cbn [app find_sub]. unfold line_text in Hl1. cbn [forallb] in Hl1.
    apply andb_true_iff in Hl1 as [Hc Hl1]. unfold starts_with. cbn [strip_prefix].
    rewrite N.eqb_sym. apply negb_true_iff in Hc. unfold c_nl. rewrite Hc.
    unfold c_nl in *. now rewrite IHl. }
  destruct ls as [|l2 ls].
  { cbn [join]. specialize (Hgo ([c_nl; 91] ++ X) [] ([c_nl; 91] ++ X) eq_refl). now rewrite app_nil_r in Hgo. }
  rewrite join_cons by easy. rewrite <- !app_assoc. apply Hgo. cbn [app].
  change (forallb _ (l2 :: ls)) with
    ((line_text l2 && negb (starts_with_char 91 l2))
     && forallb (fun l => line_text l && negb (starts_with_char 91 l)) ls) in H.
  apply andb_true_iff in H as [Ha Hb]. apply andb_true_iff in Ha as [Ha1 Ha2].
  apply negb_true_iff in Ha2. cbn [find_sub].
  assert (Hs : starts_with [c_nl; 91] (c_nl :: join [c_nl] (l2 :: ls) ++ c_nl :: 91 :: X) = false).
  { unfold starts_with. cbn [strip_prefix]. rewrite N.eqb_refl.
    destruct l2 as [|d l2].
    - destruct ls; [easy|]. rewrite join_cons by easy. reflexivity.
    - assert (exists t, join [c_nl] ((d :: l2) :: ls) = d :: t) as [t ->].
      { destruct ls; [now exists l2|]. rewrite join_cons by easy. eexists; reflexivity. }
      cbn in Ha2. cbn [app]. rewrite N.eqb_sym, Ha2. easy. }
  rewrite Hs. cbn [app] in IH. rewrite (IH Hb Hl). easy.
Qed.

(** one section *)
Lemma repeat_nl_lines n ls : ls <> [] ->
  join [c_nl] (repeat [] n ++ ls) = repeat 10 n ++ join [c_nl] ls.
Proof.
  intros H. induction n as [|n IH]; [easy|]. cbn [repeat app].
  rewrite join_cons by (destruct n; easy). cbn [app]. now rewrite IH.
Qed.
Lemma sec_all_text x : sec_lines x <> [] ->
  join [c_nl] (sec_all x) = 91 :: sec_name x ++ [93] ++ repeat 10 (S (sec_gap x)) ++ sec_body x.
Proof.
  intros H. unfold sec_all. rewrite join_cons by (destruct (sec_gap x); easy).
  rewrite repeat_nl_lines by easy. unfold sec_body. rewrite text_of_lines_join.
  cbn [app repeat]. now rewrite <- !app_assoc.
Qed.
Lemma sec_ok_inv x : sec_ok x = true ->
  forallb (fun c => negb ((c =? 93) || (c =? 10))) (sec_name x) = true
  /\ (exists c l ls, sec_lines x = (c :: l) :: ls /\ layout_char c = false)
  /\ forallb (fun l => line_text l && negb (starts_with_char 91 l)) (sec_lines x) = true.
Proof.
  unfold sec_ok. intros H. apply andb_true_iff in H as [H H3]. apply andb_true_iff in H as [H1 H2].
  repeat split; [| |easy].
  - rewrite <- H1. apply forallb_same. intros c. apply negb_orb.
  - destruct (sec_lines x) as [|[|c l] ls]; try easy. exists c, l, ls. split; [easy|]. now apply negb_true_iff.
Qed.
Lemma lines_ok_text ls :
  forallb (fun l => line_text l && negb (starts_with_char 91 l)) ls = true -> forallb line_text ls = true.
Proof. rewrite !forallb_forall. intros H l Hl. specialize (H l Hl). now apply andb_true_iff in H. Qed.

Lemma square_one x w X : sec_ok x = true -> forallb layout_char w = true ->
  (X = [] \/ exists Y, X = [c_nl; 91] ++ Y) ->
  @square_section unit (w ++ join [c_nl] (sec_all x) ++ X)
  = POk X (w, sec_name x, repeat 10 (S (sec_gap x)), sec_body x).
Proof.
  intros Hx Hw HX. destruct (sec_ok_inv x Hx) as (Hn & (c & l & ls & Hl & Hc) & Hls).
  rewrite sec_all_text by now rewrite Hl.
  unfold square_section, multispace0, delimited.
  erewrite pbind_step; [|apply take_while_app; [exact Hw|reflexivity]|reflexivity].
  cbn [app].
  assert (Hb : exists t, sec_body x = c :: t).
  { unfold sec_body. rewrite Hl, text_of_lines_join. destruct ls; [now exists l|].
    rewrite join_cons by easy. eexists. reflexivity. }
  destruct Hb as [t Hb].
  set (g := repeat 10 (sec_gap x)).
  replace (91 :: (sec_name x ++ 93 :: repeat 10 (S (sec_gap x)) ++ sec_body x) ++ X)
    with (91 :: sec_name x ++ 93 :: (10 :: g) ++ sec_body x ++ X)
    by (cbn [app repeat]; fold g; f_equal; rewrite <- app_assoc; cbn [app]; now rewrite <- app_assoc).
  eapply pbind_step.
  { eapply preceded_step; [apply (tag_one 91)|]. eapply terminated_step.
    - unfold take_till. apply take_while_app; [exact Hn|]. reflexivity.
    - apply (tag_one 93). }
  cbv beta. eapply pbind_step.
  { apply (take_while_app is_multispace (10 :: g) (sec_body x ++ X)).
    - cbn [forallb is_multispace andb orb]. apply forallb_forall. intros y Hy.
      apply repeat_spec in Hy. now subst y.
    - rewrite Hb. cbn [app stops]. change (is_multispace c) with (layout_char c). now rewrite Hc. }
  apply pmap_step. cbn [app repeat].
  unfold sec_body. rewrite text_of_lines_join.
  assert (Htl : forallb (fun l => line_text l && negb (starts_with_char 91 l)) (tl (sec_lines x)) = true).
  { rewrite Hl in *. cbn [tl forallb] in *. now apply andb_true_iff in Hls. }
  destruct HX as [-> | [Y ->]].
  - rewrite app_nil_r. erewrite alt_r; [reflexivity|].
    unfold take_until. rewrite find_header_none; [reflexivity|easy|now apply lines_ok_text].
  - apply alt_l. unfold take_until. rewrite find_header_some; [reflexivity|easy|now apply lines_ok_text].
Qed.

Definition prepend {A} (l : list A) (r : pres unit (list A)) : pres unit (list A) :=
  match r with POk t x => POk t (l ++ x) | e => e end.
Definition after (w : str) (secs : list sec) (tail : list str) : str :=
  match tail with [] => [] | _ => match secs with [] => w | _ => [10] end end.
Lemma sec_all_head x : exists t, join [c_nl] (sec_all x) = 91 :: t.
Proof.
  unfold sec_all. destruct (repeat [] (sec_gap x) ++ sec_lines x) eqn:E.
  - eexists. reflexivity.
  - rewrite join_cons by easy. eexists. reflexivity.
Qed.
Lemma sec_all_nonempty x : sec_all x <> [].
Proof. easy. Qed.
Lemma many0_sections secs : forall w tail,
  forallb sec_ok secs = true -> forallb layout_char w = true ->
  (tail = [] \/ exists l ls, tail = (91 :: l) :: ls) ->
  (secs = [] -> tail = [] -> w = []) ->
  many0 (@square_section unit) (w ++ join [c_nl] (flat_map sec_all secs ++ tail))
  = prepend (quads w secs) (many0 (@square_section unit) (after w secs tail ++ join [c_nl] tail)).
Proof.
  induction secs as [|x secs IH]; intros w tail Hs Hw Ht Hz.
  - cbn [flat_map app quads]. unfold prepend. destruct tail as [|l tail].
    + rewrite Hz by easy. reflexivity.
    + cbn [after]. now destruct (many0 _ _).
  - cbn [forallb] in Hs. apply andb_true_iff in Hs as [Hx Hs].
    cbn [flat_map]. rewrite <- app_assoc.
    set (R := flat_map sec_all secs ++ tail).
    assert (HR : R = [] \/ (R <> [] /\ exists Y, join [c_nl] R = 91 :: Y)).
    { unfold R. destruct secs as [|y secs].
      - cbn [flat_map app]. destruct Ht as [->|(l & ls & ->)]; [now left|right; split; [easy|]].
        destruct ls; [eexists; reflexivity|]. rewrite join_cons by easy. eexists; reflexivity.
      - right. split; [easy|]. cbn [flat_map]. rewrite <- app_assoc.
        destruct (flat_map sec_all secs ++ tail) eqn:E.
        + rewrite app_nil_r. apply sec_all_head.
        + rewrite join_app by easy. destruct (sec_all_head y) as [t ->]. eexists; reflexivity. }
    set (X := match R with [] => [] | _ => [c_nl] ++ join [c_nl] R end).
    assert (HX : join [c_nl] (sec_all x ++ R) = join [c_nl] (sec_all x) ++ X).
    { unfold X. destruct R eqn:E; [now rewrite !app_nil_r|]. now rewrite join_app. }
    rewrite HX. erewrite many0_cons;
      [|apply square_section_safe
       |apply square_one; [exact Hx|exact Hw|]
       |rewrite !app_length; destruct (sec_all_head x) as [t ->]; cbn [length]; lia].
    2:{ unfold X. destruct HR as [->|(H1 & Y & H2)]; [now left|right]. destruct R; [easy|].
        rewrite H2. now exists Y. }
    assert (HIH : many0 (@square_section unit) X
      = prepend (quads [10] secs) (many0 (@square_section unit) (after w (x :: secs) tail ++ join [c_nl] tail))).
    { unfold X. destruct R as [|r R'] eqn:E.
      - unfold R in E. apply app_eq_nil in E as [E1 E2]. subst tail. destruct secs; [reflexivity|easy].
      - rewrite <- E. unfold R. change [c_nl] with [10] at 1. rewrite (IH [10] tail Hs eq_refl Ht).
        + replace (after [10] secs tail) with (after w (x :: secs) tail); [easy|].
          unfold after. destruct tail; [easy|]. now destruct secs.
        + intros -> ->. easy. }
    rewrite HIH. cbn [quads]. unfold prepend.
    match goal with |- context [many0 ?p ?t] => now destruct (many0 p t) end.
Qed.

Lemma split_pre_app pre l rest : forallb pre_ok pre = true -> starts_with_char 91 l = true ->
  split_pre (pre ++ l :: rest) = (pre, l :: rest) /\ split_pre pre = (pre, [])
  /\ forall i, unexpected_line i pre = None.
Proof.
  intros Hp Hl.
  assert (H1 : forall x, pre_ok x = true -> pre_section x = true /\
     (is_empty (trim x) = true \/ (is_empty (trim x) = false /\ starts_with (lit "//") (trim x) = true))).
  { intros x Hx. unfold pre_ok in Hx. apply andb_true_iff in Hx as [Hx Hx3].
    apply andb_true_iff in Hx as [_ Hx2]. apply negb_true_iff in Hx3. unfold pre_section.
    rewrite trim_trim, Hx3. cbn [negb andb]. rewrite andb_true_r.
    destruct (trim x) as [|c t] eqn:E; [split; [easy|now left]|].
    cbn [is_empty orb] in Hx2. split; [|now right].
    apply starts_with_spec in Hx2 as [u Hu]. cbn in Hu. injection Hu as -> _. easy. }
  assert (H2 : pre_section l = false).
  { destruct l as [|c l]; [easy|]. apply N.eqb_eq in Hl. subst c. unfold pre_section.
    rewrite trim_trim. unfold trim. replace (trim_start (91 :: l)) with (91 :: l) by reflexivity.
    cbn [trim_end]. destruct (trim_end l); reflexivity. }
  induction pre as [|x pre IH].
  - cbn [app split_pre]. rewrite H2. easy.
  - cbn [forallb] in Hp. apply andb_true_iff in Hp as [Hx Hp]. destruct (IH Hp) as (I1 & I2 & I3).
    destruct (H1 x Hx) as [Hs Hu]. cbn [app split_pre unexpected_line]. rewrite Hs, I1, I2.
    repeat split. intros i. destruct Hu as [->|[-> ->]]; apply I3.
Qed.

(** The file as seen by [osu_from_str], when laid out as in [file_layout]. *)
Definition tail_ok (tail : list str) : Prop := tail = [] \/ exists l ls, tail = (91 :: l) :: ls.
Lemma read_layout dbg s ws v pre secs tail :
  file_layout s ws v pre secs tail -> tail_ok tail ->
  osu_from_str dbg s
  = match many0 (@square_section unit) (after [] secs tail ++ join [c_nl] tail) with
    | POk _ more => osu_loop dbg (lines_count ws + Z.of_nat (length pre)) [] (osu_new v)
                      (quads [] secs ++ more)
    | PErr _ | PFail _ => RPanic PUnwrap
    | PPanic p => RPanic p
    end.
Proof.
  intros (num & rest & Hh & [Hv Hr] & Hl & Hp & Hs) Ht. unfold osu_from_str.
  rewrite (vp_head _ _ _ _ Hh).
  assert (Hu : parse_u8 num = ROk v) by (apply u8_accepts; split; [easy|lia]).
  rewrite Hu. unfold min_version, latest_version. replace ((3 <=? v) && (v <=? 14))%Z with true by lia.
  cbn [negb]. rewrite Hl.
  assert (Hsp : split_pre (pre ++ flat_map sec_all secs ++ tail) = (pre, flat_map sec_all secs ++ tail)
                /\ forall i, unexpected_line i pre = None).
  { destruct (flat_map sec_all secs ++ tail) as [|l r] eqn:E.
    - rewrite app_nil_r. destruct (split_pre_app pre (lit "[") [] Hp eq_refl) as (_ & H2 & H3). easy.
    - assert (Hl91 : starts_with_char 91 l = true).
      { destruct secs as [|x secs].
        - cbn [flat_map app] in E. subst tail. destruct Ht as [Ht|(a & b & Ht)]; [easy|].
          injection Ht as -> _. reflexivity.
        - cbn [flat_map] in E. unfold sec_all at 1 in E. cbn [app] in E. injection E as <- _. reflexivity. }
      destruct (split_pre_app pre l r Hp Hl91) as (H1 & _ & H3). easy. }
  destruct Hsp as [-> ->].
  change (join [c_nl] (flat_map sec_all secs ++ tail)) with ([] ++ join [c_nl] (flat_map sec_all secs ++ tail)).
  rewrite (many0_sections secs [] tail Hs eq_refl Ht) by easy.
  now destruct (many0 _ _).
Qed.
Lemma read_layout_closed dbg s ws v pre secs :
  file_layout s ws v pre secs [] ->
  osu_from_str dbg s
  = osu_loop dbg (lines_count ws + Z.of_nat (length pre)) [] (osu_new v) (quads [] secs).
Proof.
  intros H. rewrite (read_layout dbg s ws v pre secs [] H) by now left.
  cbn [after app join]. replace (many0 _ []) with (@POk unit (list (str * str * str * str)) [] []) by reflexivity.
  now rewrite app_nil_r.
Qed.
Lemma read_layout_open dbg s ws v pre secs l tail :
  file_layout s ws v pre secs (l :: tail) -> open_header l = true ->
  osu_from_str dbg s
  = osu_loop dbg (lines_count ws + Z.of_nat (length pre)) [] (osu_new v) (quads [] secs).
Proof.
  intros H Ho. unfold open_header in Ho. apply andb_true_iff in Ho as [H1 H2].
  destruct l as [|c l]; [easy|]. cbn in H1. apply N.eqb_eq in H1. subst c.
  rewrite (read_layout dbg s ws v pre secs ((91 :: l) :: tail) H) by (right; eauto).
  assert (Hst : exists e, @square_section unit (after [] secs ((91 :: l) :: tail) ++ join [c_nl] ((91 :: l) :: tail)) = PErr e).
  { cbn [after].
    assert (exists Y, join [c_nl] ((91 :: l) :: tail) = (91 :: l) ++ Y /\ (Y = [] \/ exists Z, Y = 10 :: Z)) as (Y & -> & HY).
    { destruct tail; [exists []; rewrite app_nil_r; split; [easy|now left]|].
      rewrite join_cons by easy. eexists. split; [reflexivity|right]. now eexists. }
    set (w := match secs with [] => [] | _ => [10] end).
    unfold square_section, multispace0.
    erewrite pbind_step; [| |reflexivity].
    2:{ apply take_while_app; [|reflexivity]. unfold w. now destruct secs. }
    exists (mkErr KTag None). apply pbind_err. unfold delimited.
    eapply preceded_step; [apply (tag_one 91)|]. unfold terminated. eapply pbind_step.
    - unfold take_till. apply take_while_app.
      + cbn [forallb] in H2. rewrite <- H2. apply forallb_same. intros x. apply negb_orb.
      + destruct HY as [-> |[Z ->]]; reflexivity.
    - apply pmap_err. destruct HY as [-> |[Z ->]]; reflexivity. }
  destruct Hst as [e He]. rewrite (many0_stop _ _ _ He). now rewrite app_nil_r.
Qed.
