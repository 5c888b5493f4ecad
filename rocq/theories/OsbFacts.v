(** Reading and writing .osb files. *)
From Coq Require Import String List NArith ZArith Bool Lia.
From Verif Require Import Str Num Nom Dec Parsers Unicode Colours Storyboard NormalEvents Events Osb OsuFile Spec SpecWf SpecText SpecTypes
  SpecCmd SpecEvents SpecFile SpecOsb StrFacts NumFacts NomFacts DecFacts FieldFacts LineFacts LayoutFacts TpFacts
  CmdFacts CmdRound CmdTree EvFacts EvRound EvLoop VarFacts VarEvents FileFacts FileLoop FileTheorems WholeFacts.
Import ListNotations.
Local Open Scope N_scope.

(** ** one variable *)
Lemma span_stop (f : char -> bool) a c t : forallb f a = true -> f c = false -> span f (a ++ c :: t) = (a, c :: t).
Proof. intros H Hc. apply span_app; [easy|]. cbn. now rewrite Hc. Qed.
Definition name_char (c : char) : bool := negb ((c =? 61) || (c =? 10)).
Lemma name_chars s : forallb (fun c => negb (c =? 61) && negb (c =? 10)) s = forallb name_char s.
Proof. apply forallb_same. intros c. unfold name_char. now rewrite negb_orb. Qed.
Lemma var_dollar t : var_from_str (36 :: t)
  = let (n, r) := span name_char t in
    match strip_prefix [61] r with Some v => ROk (Some (mk_var n v)) | None => RErr VarMissingEquals end.
Proof.
  unfold var_from_str, var_parser, preceded, pbind, context, take_till, take_while, tag, pmap, prest.
  change (lit "$") with [36]. change (lit "=") with [61]. cbn [strip_prefix]. change (36 =? 36) with true. cbn iota.
  change (fun c => negb ((c =? 61) || (c =? 10))) with name_char. destruct (span name_char t) as [n r].
  destruct r as [|d r]; [reflexivity|]. destruct (61 =? d); reflexivity.
Qed.
Lemma var_reads s x : variable_line s x -> var_from_str s = ROk (Some x).
Proof.
  intros [-> H]. rewrite name_chars in H.
  change (lit "$" ++ var_name x ++ lit "=" ++ var_value x) with (36 :: (var_name x ++ 61 :: var_value x)).
  rewrite var_dollar, span_stop by easy. cbn [strip_prefix]. rewrite N.eqb_refl. now destruct x.
Qed.
Lemma var_unique s x y : variable_line s x -> variable_line s y -> x = y.
Proof. intros H1 H2. apply var_reads in H1, H2. congruence. Qed.
Lemma var_cases s : (exists x, variable_line s x /\ var_from_str s = ROk (Some x))
  \/ ((forall x, ~ variable_line s x)
      /\ var_from_str s = RErr (if starts_with_char 36 s then VarMissingEquals else VarMissingHeader)).
Proof.
  destruct s as [|c s]; [right; split; [intros x [H _]; easy|reflexivity]|].
  destruct (N.eqb_spec c 36) as [-> |Hc].
  - destruct (span name_char s) as [n r] eqn:E. destruct (span_spec _ _ _ _ E) as (-> & Hn & Hr).
    destruct r as [|d r].
    + right. split.
      * intros x [H1 H2]. cbn in H1. injection H1 as H1. rewrite app_nil_r in H1. rewrite H1, forallb_app in Hn.
        cbn in Hn. now rewrite andb_false_r in Hn.
      * rewrite var_dollar, E. reflexivity.
    + destruct (N.eqb_spec d 61) as [-> |Hd].
      * left. exists (mk_var n r). assert (V : variable_line (36 :: n ++ 61 :: r) (mk_var n r)) by (split; [easy|now rewrite name_chars]).
        split; [easy|]. now apply var_reads.
      * right. split.
        -- intros x [H1 H2]. cbn in H1. injection H1 as H1. rewrite name_chars in H2.
           assert (K : span name_char (n ++ d :: r) = (var_name x, 61 :: var_value x)) by (rewrite H1; now apply span_stop).
           rewrite E in K. injection K as _ K. easy.
        -- rewrite var_dollar, E. cbn [strip_prefix]. destruct (61 =? d) eqn:K; [apply N.eqb_eq in K; congruence|]. reflexivity.
  - right. split.
    + intros x [H1 _]. cbn in H1. injection H1 as H1 _. easy.
    + unfold var_from_str, var_parser, pbind, preceded, pbind, context, tag. change (lit "$") with [36].
      cbn [strip_prefix starts_with_char]. apply N.eqb_neq in Hc. rewrite (N.eqb_sym 36 c), Hc. reflexivity.
Qed.
Lemma var_line_iff s x : var_from_str s = ROk (Some x) <-> variable_line s x.
Proof.
  split; [|apply var_reads]. intros H. destruct (var_cases s) as [(y & Hy & E)|[_ E]]; [|congruence]. congruence.
Qed.
Lemma v_unwrap_ok {A E} (r : res (option A) E) x : v_unwrap r = ROk x <-> r = ROk (Some x).
Proof. destruct r as [[a|]| |]; cbn; split; congruence. Qed.
Lemma Forall2_imp {A B} (R S : A -> B -> Prop) l m : (forall a b, R a b -> S a b) -> Forall2 R l m -> Forall2 S l m.
Proof. intros H. induction 1; constructor; auto. Qed.
Lemma variables_iff body vs : variables_from_str body = ROk vs <-> variables_are body vs.
Proof.
  unfold variables_from_str, variables_are. rewrite parse_lines_ok. split; intros H.
  - eapply Forall2_imp; [|exact H]. cbv beta. intros l x Hx. rewrite v_unwrap_ok in Hx. now apply var_line_iff.
  - eapply Forall2_imp; [|exact H]. cbv beta. intros l x Hx. rewrite v_unwrap_ok. now apply var_line_iff.
Qed.
Lemma variables_unique body a b : variables_are body a -> variables_are body b -> a = b.
Proof. rewrite <- !variables_iff. congruence. Qed.
Lemma variables_no_panic body p : variables_from_str body <> RPanic p.
Proof.
  apply parse_lines_np. intros l _ q. destruct (var_cases l) as [(x & _ & ->)|[_ ->]]; cbn; easy.
Qed.
Lemma variables_err body k e : variables_from_str body = RErr (mk_line_err k e) <->
  exists good l more, lines body = good ++ l :: more /\ k = Z.of_nat (length good)
  /\ (exists vs, Forall2 variable_line (filter (fun l => negb (is_blank l)) good) vs)
  /\ is_blank l = false /\ (forall y, ~ variable_line l y)
  /\ e = (if starts_with_char 36 l then VarMissingEquals else VarMissingHeader).
Proof.
  unfold variables_from_str. rewrite parse_lines_err. split.
  - intros (n & l & -> & Hn & Hb & Hf & Hm). apply nth_error_split in Hn as (good & more & E & Hlen).
    exists good, l, more. split; [easy|]. split; [lia|]. split; [|split; [easy|]].
    + assert (K : forall x, In x good -> is_blank x = true \/ exists a, var_from_str x = ROk (Some a)).
      { intros x Hx. apply In_nth_error in Hx as (m & Hx). destruct (Hm m x) as [H|[a H]].
        - rewrite <- Hlen. apply nth_error_Some. congruence.
        - rewrite E, nth_error_app1; [easy|]. apply nth_error_Some. congruence.
        - now left.
        - right. exists a. now apply v_unwrap_ok. }
      clear -K. induction good as [|x good IH]; [exists []; constructor|]. destruct IH as [vs IH]; [intros; apply K; now right|].
      cbn [filter]. destruct (is_blank x) eqn:Ex; cbn [negb]; [now exists vs|].
      destruct (K x (or_introl eq_refl)) as [H|[a H]]; [congruence|]. exists (a :: vs). constructor; [now apply var_line_iff|easy].
    + destruct (var_cases l) as [(x & _ & E2)|[H E2]]; rewrite E2 in Hf; cbn in Hf; [easy|]. split; [easy|]. congruence.
  - intros (good & l & more & E & -> & (vs & Hvs) & Hb & Hno & ->). exists (length good), l. split; [easy|]. rewrite E.
    split; [now rewrite nth_error_app2, Nat.sub_diag by lia|]. split; [easy|]. split.
    + destruct (var_cases l) as [(x & Hx & _)|[_ ->]]; [now destruct (Hno x)|easy].
    + intros m l' Hlt Hl'. rewrite nth_error_app1 in Hl' by lia. apply nth_error_In in Hl'.
      destruct (is_blank l') eqn:Ebl; [now left|right].
      assert (K : In l' (filter (fun l => negb (is_blank l)) good)) by (apply filter_In; rewrite Ebl; auto).
      clear -K Hvs. induction Hvs as [|y x ys xs Hy H IH]; [easy|]. destruct K as [-> |K]; [|now apply IH].
      exists x. apply v_unwrap_ok. now apply var_line_iff.
Qed.

(** ** the sections *)
Lemma many0_ended secs tail : forallb sec_ok secs = true -> ended tail = true ->
  exists r, many0 (@square_section unit) (join [c_nl] (flat_map sec_all secs ++ tail)) = POk r (quads [] secs).
Proof.
  intros Hs He.
  change (join [c_nl] (flat_map sec_all secs ++ tail)) with ([] ++ join [c_nl] (flat_map sec_all secs ++ tail)).
  assert (Ht : tail_ok tail).
  { destruct tail as [|l tail]; [now left|right]. cbn in He. unfold open_header in He. apply andb_true_iff in He as [He _].
    destruct l as [|c l]; [easy|]. apply N.eqb_eq in He. subst c. eauto. }
  rewrite (many0_sections secs [] tail Hs eq_refl Ht) by easy.
  destruct tail as [|l tail].
  - cbn [after app join]. replace (many0 _ []) with (@POk unit (list (str * str * str * str)) [] []) by reflexivity.
    cbn [prepend]. rewrite app_nil_r. now eexists.
  - cbn [ended] in He. unfold open_header in He. apply andb_true_iff in He as [H1 H2].
    destruct l as [|c l]; [easy|]. cbn in H1. apply N.eqb_eq in H1. subst c.
    assert (Hst : exists e, @square_section unit (after [] secs ((91 :: l) :: tail) ++ join [c_nl] ((91 :: l) :: tail)) = PErr e).
    { cbn [after].
      assert (exists Y, join [c_nl] ((91 :: l) :: tail) = (91 :: l) ++ Y /\ (Y = [] \/ exists Z, Y = 10 :: Z)) as (Y & -> & HY).
      { destruct tail; [exists []; rewrite app_nil_r; split; [easy|now left]|].
        rewrite join_cons by easy. eexists. split; [reflexivity|right]. now eexists. }
      set (w := match secs with [] => [] | _ => [10] end).
      unfold square_section, multispace0.
      erewrite pbind_step; [| |reflexivity].
      2:{ apply take_while_app; [|reflexivity]. unfold w. now destruct secs. }
      exists (mkErr KTag None). apply pbind_err. unfold delimited.
      eapply preceded_step; [apply (tag_one 91)|]. unfold terminated. eapply pbind_step.
      - unfold take_till. apply take_while_app.
        + cbn [forallb] in H2. rewrite <- H2. apply forallb_same. intros x. apply negb_orb.
        + destruct HY as [-> |[Z ->]]; reflexivity.
      - apply pmap_err. destruct HY as [-> |[Z ->]]; reflexivity. }
    destruct Hst as [e He]. rewrite (many0_stop _ _ _ He). cbn [prepend]. rewrite app_nil_r. now eexists.
Qed.
Lemma split_layout pre secs tail : forallb pre_ok pre = true -> tail_ok tail ->
  split_pre (pre ++ flat_map sec_all secs ++ tail) = (pre, flat_map sec_all secs ++ tail)
  /\ forall i, unexpected_line i pre = None.
Proof.
  intros Hp Ht. destruct (flat_map sec_all secs ++ tail) as [|l r] eqn:E.
  - rewrite app_nil_r. destruct (split_pre_app pre (lit "[") [] Hp eq_refl) as (_ & H2 & H3). easy.
  - assert (Hl91 : starts_with_char 91 l = true).
    { destruct secs as [|x secs].
      - cbn [flat_map app] in E. subst tail. destruct Ht as [Ht|(a & b & Ht)]; [easy|].
        injection Ht as -> _. reflexivity.
      - cbn [flat_map] in E. unfold sec_all at 1 in E. cbn [app] in E. injection E as <- _. reflexivity. }
    destruct (split_pre_app pre l r Hp Hl91) as (H1 & _ & H3). easy.
Qed.
Lemma ended_tail_ok tail : ended tail = true -> tail_ok tail.
Proof.
  intros He. destruct tail as [|l tail]; [now left|right]. cbn in He. unfold open_header in He. apply andb_true_iff in He as [He _].
  destruct l as [|c l]; [easy|]. apply N.eqb_eq in He. subst c. eauto.
Qed.
Lemma osb_read_loop dbg s pre secs tail : osb_layout s pre secs tail -> ended tail = true ->
  osb_from_str dbg s 14%Z
  = rmap Some (osb_loop dbg 14%Z (Z.of_nat (length pre)) [] (mk_osb None None) (quads [] secs)).
Proof.
  intros (Hl & Hp & Hs) He. unfold osb_from_str. change (14 <? 14)%Z with false. cbn iota. rewrite Hl.
  destruct (split_layout pre secs tail Hp (ended_tail_ok _ He)) as [-> ->].
  destruct (many0_ended secs tail Hs He) as [r ->]. easy.
Qed.
Lemma size_counts x line w : sec_ok x = true ->
  (line + lines_count w + lines_count (repeat 10%N (S (sec_gap x))) + Z.max 0 (lines_count (sec_body x) - 1)
   = line + lines_count w + size x - 1)%Z.
Proof.
  intros Hx. destruct (sec_body_count x Hx) as [Hc Hz]. rewrite lines_count_nl. apply Z.eqb_neq in Hz.
  assert (0 <= lines_count (sec_body x))%Z by (unfold lines_count; lia). unfold size, sec_all. cbn [length].
  rewrite app_length, repeat_length. lia.
Qed.
Lemma step_variables dbg line parsed acc w x l : sec_ok x = true -> ~ In (sec_name x) parsed -> sec_name x = lit "Variables" ->
  osb_loop dbg 14%Z line parsed acc ((w, sec_name x, repeat 10 (S (sec_gap x)), sec_body x) :: l)
  = rbind (rmap (fun vs => mk_osb (Some vs) (osb_events acc))
             (processing_line OsbVariable (variables_from_str (sec_body x)) (line + lines_count w + 1 + Z.of_nat (sec_gap x))))
      (fun acc' => osb_loop dbg 14%Z (line + lines_count w + size x - 1) (parsed ++ [sec_name x]) acc' l).
Proof.
  intros Hx Hp Hn. cbn [osb_loop]. apply mem_str_not_In in Hp. rewrite Hp, (size_counts x line w Hx), Hn.
  change (str_eqb (lit "Variables") (lit "Variables")) with true. cbn iota. rewrite lines_count_nl.
  replace (line + lines_count w + Z.of_nat (S (sec_gap x)))%Z with (line + lines_count w + 1 + Z.of_nat (sec_gap x))%Z by lia.
  reflexivity.
Qed.
Lemma step_events dbg line parsed acc w x l : sec_ok x = true -> ~ In (sec_name x) parsed -> sec_name x = lit "Events" ->
  osb_loop dbg 14%Z line parsed acc ((w, sec_name x, repeat 10 (S (sec_gap x)), sec_body x) :: l)
  = rbind (rmap (fun es => mk_osb (osb_variables acc) es)
             (processing_line OsbEvents (events_from_str_vars dbg (vars_or_none (osb_variables acc)) (sec_body x) 14%Z)
                (line + lines_count w + 1 + Z.of_nat (sec_gap x))))
      (fun acc' => osb_loop dbg 14%Z (line + lines_count w + size x - 1) (parsed ++ [sec_name x]) acc' l).
Proof.
  intros Hx Hp Hn. cbn [osb_loop]. apply mem_str_not_In in Hp. rewrite Hp, (size_counts x line w Hx), Hn.
  change (str_eqb (lit "Events") (lit "Variables")) with false. change (str_eqb (lit "Events") (lit "Events")) with true.
  cbn iota. rewrite lines_count_nl.
  replace (line + lines_count w + Z.of_nat (S (sec_gap x)))%Z with (line + lines_count w + 1 + Z.of_nat (sec_gap x))%Z by lia.
  reflexivity.
Qed.
Lemma step_unknown dbg line parsed acc w x l : ~ In (sec_name x) parsed -> ~ In (sec_name x) osb_names ->
  osb_loop dbg 14%Z line parsed acc ((w, sec_name x, repeat 10 (S (sec_gap x)), sec_body x) :: l)
  = RErr (mk_line_err (line + lines_count w) OsbUnknownSection).
Proof.
  intros Hp Hn. cbn [osb_loop]. apply mem_str_not_In in Hp. rewrite Hp.
  destruct (str_eqb (sec_name x) (lit "Variables")) eqn:E1; [apply str_eqb_eq in E1; exfalso; apply Hn; rewrite E1; now left|].
  destruct (str_eqb (sec_name x) (lit "Events")) eqn:E2; [apply str_eqb_eq in E2; exfalso; apply Hn; rewrite E2; right; now left|].
  reflexivity.
Qed.
Lemma step_duplicate dbg line parsed acc w x l : In (sec_name x) parsed ->
  osb_loop dbg 14%Z line parsed acc ((w, sec_name x, repeat 10 (S (sec_gap x)), sec_body x) :: l)
  = RErr (mk_line_err (line + lines_count w) OsbDuplicateSections).
Proof. intros Hp. cbn [osb_loop]. apply mem_str_In in Hp. now rewrite Hp. Qed.
Lemma names_differ : lit "Variables" <> lit "Events".
Proof. discriminate. Qed.

(** The loop can only get through known sections with different names. *)
Lemma osb_loop_names dbg secs : forall line parsed acc w o, forallb sec_ok secs = true ->
  osb_loop dbg 14%Z line parsed acc (quads w secs) = ROk o ->
  Forall (fun x => In (sec_name x) osb_names) secs /\ (forall x, In x secs -> ~ In (sec_name x) parsed)
  /\ NoDup (map sec_name secs).
Proof.
  induction secs as [|x secs IH]; intros line parsed acc w o Hs H; [repeat split; easy || constructor|].
  cbn [forallb] in Hs. apply andb_true_iff in Hs as [Hx Hs]. cbn [quads] in H.
  assert (Hp : ~ In (sec_name x) parsed). { intros K. rewrite step_duplicate in H by easy. easy. }
  assert (Hk : In (sec_name x) osb_names).
  { destruct (in_dec (list_eq_dec N.eq_dec) (sec_name x) osb_names) as [K|K]; [exact K|]. rewrite step_unknown in H by easy. easy. }
  assert (K : exists line' acc', osb_loop dbg 14%Z line' (parsed ++ [sec_name x]) acc' (quads [10] secs) = ROk o).
  { destruct Hk as [Hk|[Hk|[]]]; symmetry in Hk.
    - rewrite step_variables in H by easy. destruct (variables_from_str (sec_body x)) as [|[]|]; try easy. cbv beta iota delta [processing_line rmap_err rmap] in H; cbn [rmap rbind] in H. eexists; eexists; exact H.
    - rewrite step_events in H by easy. destruct (events_from_str_vars dbg _ (sec_body x) 14%Z) as [|[]|]; try easy. cbv beta iota delta [processing_line rmap_err rmap] in H; cbn [rmap rbind] in H. eexists; eexists; exact H. }
  destruct K as (line' & acc' & K). apply IH in K as (K1 & K2 & K3); [|easy].
  assert (Hd : forall y, In y secs -> sec_name y <> sec_name x).
  { intros y Hy E. apply (K2 y Hy). rewrite in_app_iff, E. right. now left. }
  split; [now constructor|]. split; [|apply NoDup_cons_names; now split].
  intros y [<- |Hy]; [easy|]. intros E. apply (K2 y Hy). rewrite in_app_iff. now left.
Qed.
Inductive shape : list sec -> Prop :=
| sh_nil : shape []
| sh_v x : sec_name x = lit "Variables" -> shape [x]
| sh_e x : sec_name x = lit "Events" -> shape [x]
| sh_ve x y : sec_name x = lit "Variables" -> sec_name y = lit "Events" -> shape [x; y]
| sh_ev x y : sec_name x = lit "Events" -> sec_name y = lit "Variables" -> shape [x; y].
Lemma shapes secs : NoDup (map sec_name secs) -> Forall (fun x => In (sec_name x) osb_names) secs -> shape secs.
Proof.
  intros Hn Hf. destruct secs as [|x secs]; [constructor|]. inversion Hf as [|? ? Hx Hf1]; subst.
  apply NoDup_cons_names in Hn as [Hd Hn]. destruct secs as [|y secs].
  - destruct Hx as [Hx|[Hx|[]]]; [now apply sh_v|now apply sh_e].
  - inversion Hf1 as [|? ? Hy Hf2]; subst. apply NoDup_cons_names in Hn as [Hd2 Hn].
    pose proof (Hd y (or_introl eq_refl)) as Hxy.
    destruct secs as [|z secs].
    + destruct Hx as [Hx|[Hx|[]]], Hy as [Hy|[Hy|[]]]; try congruence; [now apply sh_ve|now apply sh_ev].
    + exfalso. inversion Hf2 as [|? ? Hz _]; subst. pose proof (Hd z (or_intror (or_introl eq_refl))).
      pose proof (Hd2 z (or_introl eq_refl)).
      destruct Hx as [Hx|[Hx|[]]], Hy as [Hy|[Hy|[]]], Hz as [Hz|[Hz|[]]]; congruence.
Qed.
Lemma shape_names secs : shape secs -> NoDup (map sec_name secs) /\ Forall (fun x => In (sec_name x) osb_names) secs.
Proof.
  pose proof names_differ as N.
  intros [|x H|x H|x y H1 H2|x y H1 H2]; cbn [map]; rewrite ?H, ?H1, ?H2; split;
    repeat constructor; rewrite ?H, ?H1, ?H2; cbn; intuition congruence.
Qed.

(** What the sections mean, shape by shape. *)
Definition means (dbg : bool) (secs : list sec) (o : osb) : Prop :=
  match secs with
  | [] => o = mk_osb None None
  | [x] =>
      (sec_name x = lit "Variables" /\ exists vs, variables_are (sec_body x) vs /\ o = mk_osb (Some vs) None)
      \/ (sec_name x = lit "Events" /\ exists l, events_from_str_vars dbg [] (sec_body x) 14%Z = ROk (Some l) /\ o = mk_osb None (Some l))
  | [x; y] =>
      (sec_name x = lit "Variables" /\ exists vs l, variables_are (sec_body x) vs
         /\ events_from_str_vars dbg vs (sec_body y) 14%Z = ROk (Some l) /\ o = mk_osb (Some vs) (Some l))
      \/ (sec_name x = lit "Events" /\ exists vs l, variables_are (sec_body y) vs
         /\ events_from_str_vars dbg [] (sec_body x) 14%Z = ROk (Some l) /\ o = mk_osb (Some vs) (Some l))
  | _ => False
  end.
Lemma means_is dbg secs o : shape secs -> (osb_is dbg secs o <-> means dbg secs o).
Proof.
  pose proof names_differ as N. destruct o as [ov oe]. unfold osb_is. cbn [osb_variables osb_events].
  intros [|x H|x H|x y H1 H2|x y H1 H2]; split.
  - intros [D E]. destruct ov as [vs|]; [destruct D as (x & [] & _)|].
    destruct oe as [l|]; [|reflexivity]. destruct E as (b & x & r & vs & Eq & _). now destruct b.
  - cbn [means]. intros [= -> ->]. split; cbn; easy.
  - intros [D E]. left. split; [easy|].
    destruct oe as [l|].
    { destruct E as (b & z & r & vs & Eq & Hz & _). destruct b as [|b1 [|]]; try easy. injection Eq as <- _. congruence. }
    destruct ov as [vs|]; [|exfalso; apply (D x); [now left|easy]].
    destruct D as (z & [<- |[]] & _ & D). eauto.
  - intros [[_ (vs & Hv & [= -> ->])]|[K _]]; [|congruence]. split.
    + exists x. repeat split; [now left|easy|easy].
    + intros z [<- |[]]. congruence.
  - intros [D E]. right. split; [easy|].
    destruct ov as [vs|]; [destruct D as (z & [<- |[]] & K & _); congruence|].
    destruct oe as [l|]; [|exfalso; apply (E x); [now left|easy]].
    destruct E as (b & z & r & vs & Eq & Hz & Hd & Er). destruct b as [|b1 [|]]; try easy. injection Eq as <- _.
    destruct vs as [vs|]; [destruct Hd as (z & [] & _)|]. cbn [vars_or_none] in Er. eauto.
  - intros [[K _]|[_ (l & Hl & [= -> ->])]]; [congruence|]. split.
    + intros z [<- |[]]. congruence.
    + exists [], x, [], None. repeat split; [easy| |easy]. intros z [].
  - intros [D E]. left. split; [easy|].
    destruct ov as [vs|]; [|exfalso; apply (D x); [now left|easy]].
    destruct D as (z & Hz & Kz & Hv). destruct Hz as [<- |[<- |[]]]; [|congruence].
    destruct oe as [l|]; [|exfalso; apply (E y); [right; now left|easy]].
    destruct E as (b & z & r & vs' & Eq & Hz & Hd & Er). destruct b as [|b1 [|b2 b]].
    + injection Eq as <- _. congruence.
    + injection Eq as <- <- _. destruct vs' as [vs'|].
      * destruct Hd as (z & [<- |[]] & _ & Hv'). rewrite (variables_unique _ _ _ Hv Hv') in *. eauto.
      * exfalso. apply (Hd x); [now left|easy].
    + destruct b; easy.
  - intros [[_ (vs & l & Hv & Hl & [= -> ->])]|[K _]]; [|congruence]. split.
    + exists x. repeat split; [now left|easy|easy].
    + exists [x], y, [], (Some vs). repeat split; [easy| |easy]. exists x. repeat split; [now left|easy|easy].
  - intros [D E]. right. split; [easy|].
    destruct ov as [vs|]; [|exfalso; apply (D y); [right; now left|easy]].
    destruct D as (z & Hz & Kz & Hv). destruct Hz as [<- |[<- |[]]]; [congruence|].
    destruct oe as [l|]; [|exfalso; apply (E x); [now left|easy]].
    destruct E as (b & z & r & vs' & Eq & Hz & Hd & Er). destruct b as [|b1 [|b2 b]].
    + injection Eq as <- _. destruct vs' as [vs'|]; [destruct Hd as (z & [] & _)|]. eauto.
    + injection Eq as <- <- _. congruence.
    + destruct b; easy.
  - intros [[K _]|[_ (vs & l & Hv & Hl & [= -> ->])]]; [congruence|]. split.
    + exists y. repeat split; [right; now left|easy|easy].
    + exists [], x, [y], None. repeat split; [easy| |easy]. intros z [].
Qed.
Lemma pl_ok {A E F} (f : E -> F) (r : res A (line_err E)) i a : r = ROk a -> processing_line f r i = ROk a.
Proof. now intros ->. Qed.
(** Going through the good sections [before]. *)
Lemma osb_before dbg before rest line o : forallb sec_ok before = true -> shape before -> means dbg before o ->
  exists line' w', osb_loop dbg 14%Z line [] (mk_osb None None) (quads [] (before ++ rest))
    = osb_loop dbg 14%Z line' (map sec_name before) o (quads w' rest)
  /\ (line' + lines_count w' = line + sizes before)%Z.
Proof.
  pose proof names_differ as N. intros Hs Hsh Hm.
  destruct Hsh as [|x H|x H|x y H1 H2|x y H1 H2]; cbn [means] in Hm; cbn [app quads map forallb] in *; rewrite ?andb_true_r in Hs.
  - subst o. exists line, []. split; [easy|]. cbn. lia.
  - destruct Hm as [[_ (vs & Hv & ->)]|[K _]]; [|congruence].
    rewrite step_variables by easy. apply variables_iff in Hv. rewrite Hv. cbv beta iota delta [processing_line rmap_err rmap]; cbn [rmap rbind osb_events].
    eexists; eexists. split; [reflexivity|]. cbn [sizes]. change (lines_count [10]) with 1%Z. change (lines_count []) with 0%Z. lia.
  - destruct Hm as [[K _]|[_ (l & Hl & ->)]]; [congruence|].
    rewrite step_events by easy. cbn [osb_variables vars_or_none]. rewrite Hl. cbv beta iota delta [processing_line rmap_err rmap]; cbn [rmap rbind osb_variables].
    eexists; eexists. split; [reflexivity|]. cbn [sizes]. change (lines_count [10]) with 1%Z. change (lines_count []) with 0%Z. lia.
  - apply andb_true_iff in Hs as [Hx Hy]. destruct Hm as [[_ (vs & l & Hv & Hl & ->)]|[K _]]; [|congruence].
    rewrite step_variables by easy. apply variables_iff in Hv. rewrite Hv. cbv beta iota delta [processing_line rmap_err rmap]; cbn [rmap rbind osb_events app].
    rewrite step_events; [|easy| |easy].
    2:{ cbn. rewrite H1, H2. intuition. }
    cbn [osb_variables vars_or_none]. rewrite Hl. cbv beta iota delta [processing_line rmap_err rmap]; cbn [rmap rbind osb_variables app].
    eexists; eexists. split; [reflexivity|]. cbn [sizes]. change (lines_count [10]) with 1%Z. change (lines_count []) with 0%Z. lia.
  - apply andb_true_iff in Hs as [Hx Hy]. destruct Hm as [[K _]|[_ (vs & l & Hv & Hl & ->)]]; [congruence|].
    rewrite step_events by easy. cbn [osb_variables vars_or_none]. rewrite Hl. cbv beta iota delta [processing_line rmap_err rmap]; cbn [rmap rbind osb_variables app].
    rewrite step_variables; [|easy| |easy].
    2:{ cbn. rewrite H1, H2. intuition. }
    apply variables_iff in Hv. rewrite Hv. cbv beta iota delta [processing_line rmap_err rmap]; cbn [rmap rbind osb_events app].
    eexists; eexists. split; [reflexivity|]. cbn [sizes]. change (lines_count [10]) with 1%Z. change (lines_count []) with 0%Z. lia.
Qed.
Lemma osb_means_total dbg secs line o : forallb sec_ok secs = true -> shape secs ->
  osb_loop dbg 14%Z line [] (mk_osb None None) (quads [] secs) = ROk o -> means dbg secs o.
Proof.
  pose proof names_differ as N. intros Hs Hsh H.
  destruct Hsh as [|x Hn|x Hn|x y H1 H2|x y H1 H2]; cbn [means]; cbn [quads forallb] in *; rewrite ?andb_true_r in Hs.
  - cbn in H. congruence.
  - rewrite step_variables in H by easy. destruct (variables_from_str (sec_body x)) as [vs|[]|] eqn:E; try easy.
    apply variables_iff in E. cbn in H. injection H as <-. left. split; [easy|]. eauto.
  - rewrite step_events in H by easy. cbn [osb_variables vars_or_none] in H.
    destruct (events_from_str_vars dbg [] (sec_body x) 14%Z) as [[l|]|[]|] eqn:E; try easy.
    + cbn in H. injection H as <-. right. split; [easy|]. eauto.
    + exfalso. unfold events_from_str_vars in E. now destruct (ev_loop _ _ _ _ _ _).
  - apply andb_true_iff in Hs as [Hx Hy].
    rewrite step_variables in H by easy. destruct (variables_from_str (sec_body x)) as [vs|[]|] eqn:E; try easy.
    apply variables_iff in E. cbv beta iota delta [processing_line rmap_err rmap] in H; cbn [rmap rbind osb_events app] in H.
    rewrite step_events in H; [|easy| |easy].
    2:{ cbn. rewrite H1, H2. intuition. }
    cbn [osb_variables vars_or_none] in H. destruct (events_from_str_vars dbg vs (sec_body y) 14%Z) as [[l|]|[]|] eqn:E2; try easy.
    + cbn in H. injection H as <-. left. split; [easy|]. eauto.
    + exfalso. unfold events_from_str_vars in E2. now destruct (ev_loop _ _ _ _ _ _).
  - apply andb_true_iff in Hs as [Hx Hy].
    rewrite step_events in H by easy. cbn [osb_variables vars_or_none] in H.
    destruct (events_from_str_vars dbg [] (sec_body x) 14%Z) as [[l|]|[]|] eqn:E2; try easy.
    + cbv beta iota delta [processing_line rmap_err rmap] in H; cbn [rmap rbind osb_variables app] in H. rewrite step_variables in H; [|easy| |easy].
      2:{ cbn. rewrite H1, H2. intuition. }
      destruct (variables_from_str (sec_body y)) as [vs|[]|] eqn:E; try easy. apply variables_iff in E.
      cbn in H. injection H as <-. right. split; [easy|]. exists vs, l. auto.
    + exfalso. unfold events_from_str_vars in E2. now destruct (ev_loop _ _ _ _ _ _).
Qed.
Lemma osb_read dbg s pre secs tail o : osb_layout s pre secs tail -> ended tail = true ->
  (osb_from_str dbg s 14%Z = ROk (Some o) <-> osb_all_read dbg secs o).
Proof.
  intros H He. rewrite (osb_read_loop dbg s pre secs tail H He). destruct H as (_ & _ & Hs). unfold osb_all_read. split.
  - intros K. destruct (osb_loop dbg 14%Z _ [] (mk_osb None None) (quads [] secs)) as [o'| |] eqn:E; try easy.
    cbn in K. injection K as ->. destruct (osb_loop_names dbg secs _ _ _ _ _ Hs E) as (K1 & _ & K3).
    pose proof (shapes secs K3 K1) as Hsh. repeat split; [easy|easy| |]; apply (means_is dbg secs o Hsh); eapply osb_means_total; eauto.
  - intros (K1 & K2 & K3). pose proof (shapes secs K1 K2) as Hsh. apply (means_is dbg secs o Hsh) in K3.
    destruct (osb_before dbg secs [] (Z.of_nat (length pre)) o Hs Hsh K3) as (line' & w' & E & _). rewrite app_nil_r in E.
    rewrite E. reflexivity.
Qed.
Lemma osb_error_line dbg s pre before x rest tail o d e :
  osb_layout s pre (before ++ x :: rest) tail -> ended tail = true ->
  osb_all_read dbg before o -> osb_complaint dbg before (vars_or_none (osb_variables o)) x d e ->
  osb_from_str dbg s 14%Z
  = RErr (mk_line_err (Z.of_nat (true_line pre before) + d - blank_ends before) e).
Proof.
  intros H He (K1 & K2 & K3) Hc. rewrite (osb_read_loop dbg s pre _ tail H He). destruct H as (_ & _ & Hs).
  rewrite forallb_app in Hs. cbn [forallb] in Hs. rewrite !andb_true_iff in Hs. destruct Hs as [Hs [Hx _]].
  pose proof (shapes before K1 K2) as Hsh. apply (means_is dbg before o Hsh) in K3.
  destruct (osb_before dbg before (x :: rest) (Z.of_nat (length pre)) o Hs Hsh K3) as (line' & w' & -> & Hl).
  pose proof (sizes_true pre before) as Hst. cbn [quads].
  destruct Hc as [Hc|Hc1 Hc2|k l more good Hc1 Hn Hb Hk Hg Hbl Hno|k e Hc1 Hn Hr].
  - rewrite step_duplicate by easy. cbn [rmap]. do 2 f_equal. lia.
  - rewrite step_unknown by easy. cbn [rmap]. do 2 f_equal. lia.
  - rewrite step_variables by easy.
    assert (E : variables_from_str (sec_body x) = RErr (mk_line_err k (if starts_with_char 36 l then VarMissingEquals else VarMissingHeader))).
    { apply variables_err. exists good, l, more. auto 10. }
    rewrite E. cbv beta iota delta [processing_line rmap_err rmap]; cbn [rmap rbind le_line le_err]. do 2 f_equal. lia.
  - rewrite step_events by easy. rewrite Hr. cbv beta iota delta [processing_line rmap_err rmap]; cbn [rmap rbind le_line le_err]. do 2 f_equal. lia.
Qed.
