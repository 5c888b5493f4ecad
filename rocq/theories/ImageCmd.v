(** Which commands and variables reading gives (C76). *)
From Coq Require Import String List NArith ZArith Bool Lia.
From Verif Require Import Str Num Nom Dec Parsers Unicode Storyboard NormalEvents Events Osb Spec
  SpecWf SpecText SpecTypes SpecLine SpecEvLine SpecCmd SpecEvents SpecEvSection SpecWalk SpecSections SpecOsb SpecParts SpecImage
  StrFacts NumFacts NomFacts DecFacts FieldFacts LayoutFacts CmdFacts CmdRound CmdTree EvLoop CmdRead EvSection HoRead WalkFacts
  Parts Means ImageLine ImageObj.
Import ListNotations.
Local Open Scope N_scope.

(** ** one command *)
Lemma command_gives c : some_text cmd_from_str c <-> cmd_ok c = true /\ bare c = c.
Proof.
  split; [intros [s H]; now apply cmd_image in H|]. intros [H1 H2]. exists (cmd_to_string [] c).
  rewrite <- H2 at 2. now apply (cmd_round []).
Qed.

(** ** a line of a section *)
Lemma no_nl_Z z : no_nl (print_Z z) = true.
Proof. apply print_Z_no_nl. Qed.
Lemma no_nl_time o : no_nl (time_field o) = true.
Proof. apply clean_no_nl, clean_time. Qed.
Lemma no_nl_decs l : forallb dec_no_nl l = true -> forallb no_nl (map print_decimal l) = true.
Proof. intros H. rewrite forallb_map. eapply forallb_impl; [|exact H]. apply dec_no_nl_text. Qed.
Lemma clean_list l : forallb clean l = true -> forallb no_nl l = true.
Proof. intros H. eapply forallb_impl; [|exact H]. apply clean_no_nl. Qed.
Lemma flat_fields ez c : cmd_flat c = true -> forallb no_nl (SpecCmd.cmd_fields ez c) = true.
Proof.
  intros H. unfold SpecCmd.cmd_fields.
  destruct c as [st [e et s l|e et x|e et s l|e et s l|e et s l|e et x|e et s l|e et x|e et p l|n cs|t et g cs]];
    cbn [cmd_flat cmd_props cmd_start] in *.
  1,3,4,5,7: apply no_nl_decs in H; cbn [forallb app]; rewrite no_nl_Z, !no_nl_time; exact H.
  1,2: apply no_nl_decs in H; cbn [map forallb] in H; cbn [forallb app]; rewrite no_nl_Z, !no_nl_time, pair_fields_decs; exact H.
  - destruct (sbc_start x) as [[r g] b]. cbn [forallb app]. rewrite !no_nl_Z, !no_nl_time. apply clean_list, rgbs_clean.
  - cbn [forallb app map]. rewrite no_nl_Z, !no_nl_time. replace (no_nl (parameter_letter p)) with true by now destruct p. cbn.
    induction l as [|q l IH]; [easy|]. cbn [map forallb]. rewrite IH. now destruct q.
  - cbn [forallb app]. now rewrite no_nl_Z, !no_nl_time.
  - cbn [forallb]. rewrite (clean_no_nl _ (trigger_clean t)). change (no_nl (lit "T")) with true. cbn [andb]. apply clean_list, optional_end_clean.
Qed.
Lemma command_line_given dbg v d c : d <> 0%nat -> cmd_ok c = true -> cmd_flat c = true -> bare c = c ->
  exists line, line_item dbg v [] line (ItCommand d c) /\ no_nl line = true /\ is_blank line = false.
Proof.
  intros Hd Hc Hf Hb. destruct (cmd_header c) as (h & t & E & Hh & Hn & Hi). exists (repeat 32 d ++ cmd_to_string [] c).
  assert (D : depth (repeat 32 d ++ cmd_to_string [] c) = d).
  { rewrite <- depth_indent. rewrite E. destruct h as [|x h]; [easy|]. cbn [forallb] in Hi. apply andb_true_iff in Hi as [Hi _].
    apply andb_true_iff in Hi as [Hi _]. apply negb_true_iff in Hi. cbn [app]. now apply indent_spaces. }
  split; [|split].
  - rewrite <- D at 2. apply li_command with (q := t) (l' := repeat 32 d ++ cmd_to_string [] c).
    + now rewrite D.
    + apply searched_iff. rewrite E, app_assoc. apply header_slice. rewrite forallb_app, Hh, andb_true_r. clear. now induction d.
    + constructor.
    + assert (R : cmd_from_str (repeat 32 d ++ cmd_to_string [] c) = ROk (Some (bare c))) by (apply cmd_round; [easy|]; clear; now induction d).
      rewrite cmd_reads, Hb in R. destruct (rd_command (repeat 32 d ++ cmd_to_string [] c)); cbn in R; congruence.
  - rewrite no_nl_app, cmd_print, commas_nl by now apply flat_fields. rewrite andb_true_r. clear. now induction d.
  - rewrite E, app_assoc. apply comma_not_blank.
Qed.

(** ** the decimals of a line *)
Lemma dec_flat f : no_nl f = true -> dec_no_nl (decimal_of_str f) = true.
Proof. intros H. unfold decimal_of_str. now destruct (parse_rdec f). Qed.
Lemma times_given {B} fs (k : easing -> option Z -> option Z -> list str -> res B cmd_err) c :
  times fs k = ROk c -> forallb no_nl fs = true -> exists e st et fs', k e st et fs' = ROk c /\ forallb no_nl fs' = true.
Proof.
  unfold times, next. intros H Hn. destruct fs as [|f0 fs]; [easy|]. cbn [forallb] in Hn. apply andb_true_iff in Hn as [_ Hn].
  destruct (rd_easing f0) as [e| |]; try easy.
  assert (K : forall fs, forallb no_nl fs = true ->
     match fs with
     | [] => RErr CmdMissingStartTime
     | f :: fs' => match parse_i32 f with
                   | ROk st => match fs' with
                               | [] => RErr CmdMissingEndTime
                               | f :: fs => if is_blank f then k e (Some st) None fs
                                            else match parse_i32 f with
                                                 | ROk et => k e (Some st) (Some et) fs
                                                 | RErr _ => RErr CmdInvalidEndTime
                                                 | RPanic p => RPanic p
                                                 end
                               end
                   | RErr _ => RErr CmdInvalidStartTime
                   | RPanic p => RPanic p
                   end
     end = ROk c -> exists e st et fs', k e st et fs' = ROk c /\ forallb no_nl fs' = true).
  { clear. intros fs Hn H. destruct fs as [|f fs]; [easy|]. destruct (parse_i32 f) as [st| |]; try easy. destruct fs as [|g fs]; [easy|].
    cbn [forallb] in Hn. rewrite !andb_true_iff in Hn. destruct Hn as (_ & _ & Hn).
    destruct (is_blank g); [now exists e, (Some st), None, fs|]. destruct (parse_i32 g) as [et| |]; try easy. now exists e, (Some st), (Some et), fs. }
  destruct fs as [|[|a f] [|[|b g] [|x fs]]]; try (now apply (K _ Hn H)).
  exists e, None, None, (x :: fs). split; [exact H|]. cbn [forallb] in *. now rewrite !andb_true_iff in *.
Qed.
Lemma decs_flat fs : forallb no_nl fs = true -> forallb dec_no_nl (map decimal_of_str fs) = true.
Proof. intros H. rewrite forallb_map. eapply forallb_impl; [|exact H]. apply dec_flat. Qed.
Lemma twos_decs fs : concat (map pair_decs (in_twos fs)) = map decimal_of_str fs.
Proof.
  enough (K : forall n fs, (length fs <= n)%nat -> concat (map pair_decs (in_twos fs)) = map decimal_of_str fs) by now apply (K (length fs)).
  clear. induction n as [|n IH]; intros [|x [|y fs]] H; cbn [length] in H; try easy; try lia. cbn [in_twos map concat pair_decs fst snd app].
  now rewrite IH by lia.
Qed.
Lemma one_flat m fs mk c : SpecEvLine.one_line m fs mk = ROk c -> forallb no_nl fs = true ->
  exists st e et x l, c = mk_cmd st (mk e et x l) /\ forallb dec_no_nl (x :: l) = true.
Proof.
  unfold SpecEvLine.one_line. intros H Hn. apply times_given in H as (e & st & et & fs' & H & Hn'); [|easy]. unfold next in H.
  destruct fs' as [|x fs']; [easy|]. cbn [rd_dec] in H. injection H as <-. exists st, e, et, (decimal_of_str x), (map decimal_of_str fs').
  split; [easy|]. apply (decs_flat (x :: fs')). exact Hn'.
Qed.
Lemma two_flat m1 m2 fs mk c : two_line m1 m2 fs mk = ROk c -> forallb no_nl fs = true ->
  exists st e et x, c = mk_cmd st (mk e et x) /\
    forallb dec_no_nl (fst (ct_start x) :: snd (ct_start x) :: concat (map pair_decs (ct_rest x))) = true.
Proof.
  unfold two_line. intros H Hn. apply times_given in H as (e & st & et & fs' & H & Hn'); [|easy]. unfold next in H.
  destruct fs' as [|x [|y fs']]; try easy. cbn [rd_dec] in H. injection H as <-. eexists. eexists. eexists. eexists. split; [reflexivity|].
  cbn [ct_start ct_rest fst snd]. rewrite twos_decs. apply (decs_flat (x :: y :: fs')). exact Hn'.
Qed.
Ltac plain_end H := repeat match type of H with
    | match ?x with _ => _ end = _ => destruct x; try discriminate H end; try (injection H as <-; reflexivity).
Lemma times_shape {B} fs (k : easing -> option Z -> option Z -> list str -> res B cmd_err) c :
  times fs k = ROk c -> exists e st et fs', k e st et fs' = ROk c.
Proof. unfold times, next. intros H. plain_end H; eauto. Qed.
Lemma parameter_plain fs c : parameter_line fs = ROk c -> cmd_flat c = true.
Proof. unfold parameter_line. intros H. apply times_shape in H as (e & st & et & fs' & H). unfold next in H. plain_end H. Qed.
Lemma colour_plain fs c : colour_line fs = ROk c -> cmd_flat c = true.
Proof. unfold colour_line. intros H. apply times_shape in H as (e & st & et & fs' & H). unfold next in H. plain_end H. Qed.
Lemma loop_plain fs c : loop_line fs = ROk c -> cmd_flat c = true.
Proof. unfold loop_line, next, last_field. intros H. plain_end H. Qed.
Lemma trigger_plain fs c : trigger_line fs = ROk c -> cmd_flat c = true.
Proof.
  unfold trigger_line. unfold next at 1. destruct fs as [|f fs]; [easy|]. destruct (rd_trigger f) as [t| |]; try easy. cbv zeta.
  assert (K : forall st fs c, trigger_end fs (fun e g => ROk (mk_cmd st (PTrigger t e g []))) = ROk c -> cmd_flat c = true).
  { clear. intros st fs c H. unfold trigger_end, next, last_field in H. plain_end H. }
  intros H. unfold next in H. plain_end H; try (now apply K in H).
Qed.
Lemma fields_flat h fs c : SpecEvLine.cmd_fields h fs = ROk c -> forallb no_nl fs = true -> cmd_flat c = true.
Proof.
  intros H Hn. unfold SpecEvLine.cmd_fields in H.
  assert (N : forall r, forallb no_nl (if @is_empty char r then fs else []) = true) by (intros []; easy).
  repeat match type of H with
    | match strip_prefix ?a h with _ => _ end = _ => destruct (strip_prefix a h) as [r|]; [|clear r || idtac] end;
  first [ apply one_flat in H as (st & e & et & x & l & -> & F); [exact F|apply N]
        | apply two_flat in H as (st & e & et & x & -> & F); [exact F|apply N]
        | now apply parameter_plain in H | now apply colour_plain in H | now apply trigger_plain in H | now apply loop_plain in H
        | idtac ].
  destruct fs as [|f fs]; [easy|]. destruct (str_eqb h (lit "M")); [|easy].
  apply two_flat in H as (st & e & et & x & -> & F); [exact F|easy].
Qed.
Lemma command_flat s c : no_nl s = true -> rd_command s = ROk c -> cmd_flat c = true.
Proof.
  intros Hn. unfold rd_command. destruct (span _ s) as [a b] eqn:E. cbn [snd]. apply span_spec in E as (-> & _).
  rewrite no_nl_app in Hn. apply andb_true_iff in Hn as [_ Hn]. apply (pieces_nl 44) in Hn.
  destruct (pieces 44 b) as [|h fs]; [easy|]. cbn [forallb] in Hn. apply andb_true_iff in Hn as [_ Hn]. intros H. now apply fields_flat in H.
Qed.
Lemma command_item_read dbg v line d c : line_item dbg v [] line (ItCommand d c) -> no_nl line = true ->
  d <> 0%nat /\ cmd_ok c = true /\ cmd_flat c = true /\ bare c = c.
Proof.
  intros H Hn. remember (ItCommand d c) as it. destruct H as [|l h fs e|l q l' c' Hd Hq Hv Hc]; try discriminate Heqit. injection Heqit as <- <-.
  split; [easy|]. apply with_values_iff in Hv. cbn in Hv. subst l'.
  assert (R : cmd_from_str l = ROk (Some c')) by now rewrite cmd_reads, Hc. apply cmd_image in R as [R1 R2]. repeat split; try easy.
  now apply command_flat in Hc.
Qed.

(** ** trees *)
Lemma tree_range_eq c : tree_range c = cmd_ok c && cmd_flat c && forallb tree_range (body c).
Proof. destruct c as [s p]. destruct p; reflexivity. Qed.
Lemma bare_same c : cmd_ok (bare c) = cmd_ok c /\ cmd_flat (bare c) = cmd_flat c /\ bare (bare c) = bare c.
Proof. destruct c as [s p]. destruct p; repeat split; reflexivity. Qed.
Definition place_fit (x : nat * command) : Prop := cmd_ok (snd x) = true /\ cmd_flat (snd x) = true.
Lemma tree_places c : forall d, tree_range c = true <-> Forall place_fit (preorder d c).
Proof.
  induction c as [c IH] using command_tree_ind. intros d. rewrite tree_range_eq, preorder_eq, !andb_true_iff, Forall_cons_iff.
  unfold place_fit at 1. cbn [snd]. destruct (bare_same c) as (-> & -> & _).
  enough (K : forallb tree_range (body c) = true <-> Forall place_fit (preorders (S d) (body c))) by tauto.
  revert IH. generalize (body c). clear. induction 1 as [|c l Hc _ IHl]; [now split; constructor|]. rewrite preorders_cons, Forall_app. cbn [forallb].
  now rewrite andb_true_iff, IHl, (Hc (S d)).
Qed.
Lemma trees_places cs d : forallb tree_range cs = true <-> Forall place_fit (preorders d cs).
Proof.
  induction cs as [|c cs IH]; [now split; constructor|]. rewrite preorders_cons, Forall_app. cbn [forallb].
  now rewrite andb_true_iff, IH, (tree_places c d).
Qed.
Lemma places_bare c : forall d, Forall (fun x => bare (snd x) = snd x /\ (d <= fst x)%nat) (preorder d c).
Proof.
  induction c as [c IH] using command_tree_ind. intros d. rewrite preorder_eq. constructor; [cbn; now destruct (bare_same c) as (_ & _ & ->)|].
  revert IH. generalize (body c). clear. induction 1 as [|c l Hc _ IHl]; [constructor|]. rewrite preorders_cons. apply Forall_app. split; [|easy].
  eapply Forall_impl; [|apply (Hc (S d))]. intros x [H1 H2]. split; [easy|lia].
Qed.
Lemma places_bares cs d : Forall (fun x => bare (snd x) = snd x /\ (d <= fst x)%nat) (preorders d cs).
Proof. induction cs as [|c cs IH]; [constructor|]. rewrite preorders_cons. apply Forall_app. split; [apply places_bare|easy]. Qed.

(** ** variables *)
Lemma variable_lines ls : forall i l, variables_of i ls = ROk l <-> Forall2 (fun line x => variable_of line = ROk x) (filter (fun l => negb (is_blank l)) ls) l.
Proof.
  induction ls as [|s ls IH]; intros i l; cbn [variables_of filter].
  - split; [intros [= <-]; constructor|intros H; now inversion H].
  - destruct (is_blank s) eqn:B; cbn [negb]; [apply IH|]. split.
    + destruct (variable_of s) as [x| |] eqn:E; try easy. destruct (variables_of (i + 1) ls) as [l'| |] eqn:E'; cbn; try easy.
      intros [= <-]. constructor; [easy|]. now apply (IH (i + 1)%Z).
    + intros H. inversion H as [|? x ? l' H1 H2]; subst. rewrite H1. apply (IH (i + 1)%Z) in H2. now rewrite H2.
Qed.
Lemma variable_line_given x : variable_range x = true ->
  exists line, variable_of line = ROk x /\ no_nl line = true /\ is_blank line = false.
Proof.
  unfold variable_range. rewrite andb_true_iff. intros [H1 H2]. exists (36 :: var_name x ++ 61 :: var_value x). repeat split.
  - unfold variable_of. rewrite span_app; [now destruct x|easy|easy].
  - change (no_nl (36 :: ?s)) with (no_nl s). apply nl_sep; [|discriminate|easy]. eapply forallb_impl; [|exact H1].
    intros c. cbn. now destruct (c =? 61), (c =? 10).
  - now rewrite is_blank_forallb.
Qed.
Lemma variable_line_read line x : no_nl line = true -> variable_of line = ROk x -> variable_range x = true.
Proof.
  unfold variable_of. destruct line as [|c t]; [easy|]. intros Hn H. destruct (N.eq_dec c 36) as [->|Hc].
  - destruct (span _ t) as [a b] eqn:E. apply span_spec in E as (-> & E1 & _). destruct b as [|d b]; [easy|].
    destruct (N.eq_dec d 61) as [->|Hd].
    + injection H as <-. unfold variable_range. cbn [var_name var_value]. rewrite E1. change (no_nl (a ++ 61 :: b) = true) in Hn.
      rewrite no_nl_app in Hn. apply andb_true_iff in Hn as [_ Hn]. exact Hn.
    + exfalso. destruct d as [|p]; [easy|]. do 6 (destruct p; try easy).
  - exfalso. destruct c as [|p]; [easy|]. do 6 (destruct p; try easy).
Qed.
Lemma variables_gives l : (exists s, variables_from_str s = ROk l) <-> forallb variable_range l = true.
Proof.
  split.
  - intros [s H]. rewrite variables_model in H. apply variable_lines in H.
    assert (Hn : forallb no_nl (filter (fun l => negb (is_blank l)) (lines s)) = true).
    { apply forallb_forall. intros x Hx. apply filter_In in Hx as [Hx _]. pose proof (lines_no_nl s) as K. rewrite forallb_forall in K. auto. }
    revert Hn. induction H as [|a x ls l H _ IH]; [easy|]. cbn [forallb]. rewrite !andb_true_iff. intros [H1 H2]. split; [|auto].
    now apply variable_line_read in H.
  - intros H. destruct (text_for (fun line x => variable_of line = ROk x) l) as [s Hs].
    + apply Forall_forall. intros x Hx. rewrite forallb_forall in H. apply variable_line_given; auto.
    + exists s. rewrite variables_model. now apply variable_lines.
Qed.
