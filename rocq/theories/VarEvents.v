(** Events written and read with variables. *)
From Coq Require Import String List NArith ZArith Bool Lia.
From Verif Require Import Str Num Nom Dec Parsers Unicode Storyboard NormalEvents Events Osb Spec SpecWf SpecText SpecTypes
  SpecCmd SpecEvents SpecFile SpecOsb StrFacts NumFacts NomFacts DecFacts FieldFacts LineFacts LayoutFacts TpFacts
  CmdFacts CmdRound CmdTree EvFacts EvRound EvLoop VarFacts.
Import ListNotations.
Local Open Scope N_scope.

(** ** commands without a dollar sign *)
Lemma no_dollar_app a b : no_dollar (a ++ b) = no_dollar a && no_dollar b.
Proof. unfold no_dollar, contains_char. rewrite existsb_app. apply negb_orb. Qed.
Lemma no_dollar_forall s : no_dollar s = forallb (fun c => negb (36 =? c)) s.
Proof. unfold no_dollar, contains_char. induction s as [|c s IH]; [easy|]. cbn. now rewrite negb_orb, IH. Qed.
Lemma dollar_Z z : no_dollar (print_Z z) = true.
Proof.
  rewrite no_dollar_forall. eapply forallb_impl; [|apply print_Z_chars]. intros c H.
  apply negb_true_iff, N.eqb_neq. intros <-. easy.
Qed.
Lemma dollar_time o : no_dollar (time_field o) = true.
Proof. destruct o; [apply dollar_Z|easy]. Qed.
Lemma dollar_trigger t : no_dollar (trigger_type_to_string t) = true.
Proof.
  destruct t as [ss ass ad n| |]; try easy. cbn [trigger_type_to_string]. rewrite !no_dollar_app.
  destruct ss as [[]|], ass as [[]|], ad as [[]|], n; cbn [opt_str]; rewrite ?dollar_Z; reflexivity.
Qed.
Lemma dollar_optional_end l : forallb no_dollar (optional_end l) = true.
Proof.
  induction l as [|o l IH]; [easy|]. cbn [optional_end]. destruct o; [cbn [forallb]; now rewrite dollar_time|].
  destruct (optional_end l); [easy|]. exact IH.
Qed.
Lemma dollar_rgbs l : forallb no_dollar (concat (map rgb_fields l)) = true.
Proof.
  induction l as [|[[r g] b] l IH]; [easy|]. cbn [map concat]. rewrite forallb_app, IH, andb_true_r.
  unfold rgb_fields. destruct g, b; cbn [forallb app]; now rewrite !dollar_Z.
Qed.
Lemma dollar_commas fs : forallb no_dollar fs = true -> no_dollar (commas fs) = true.
Proof.
  rewrite commas_join. induction fs as [|f fs IH]; [easy|]. cbn [forallb]. rewrite andb_true_iff. intros [H1 H2].
  destruct fs as [|g fs]; [exact H1|]. rewrite join_cons2, !no_dollar_app, H1, IH by easy. easy.
Qed.
Lemma dollar_fields ez c : cmd_no_dollar c = true -> forallb no_dollar (cmd_fields ez c) = true.
Proof.
  unfold cmd_no_dollar, cmd_decs, cmd_fields.
  destruct c as [st [e et s l|e et x|e et s l|e et s l|e et s l|e et x|e et s l|e et x|e et p l|n cs|t et g cs]];
    cbn [cmd_props cmd_start]; intros H.
  all: try (cbn [app forallb]; rewrite dollar_Z, !dollar_time, forallb_map; exact H).
  all: try (cbn [app forallb]; rewrite dollar_Z, !dollar_time, pair_fields_decs, forallb_map; exact H).
  - destruct (sbc_start x) as [[r g] b]. cbn [app forallb]. now rewrite !dollar_Z, !dollar_time, dollar_rgbs.
  - cbn [app forallb]. rewrite dollar_Z, !dollar_time, forallb_map. apply forallb_forall. intros [] _; easy.
  - cbn [app forallb]. now rewrite dollar_Z, dollar_time.
  - cbn [app forallb]. now rewrite dollar_trigger, dollar_optional_end.
Qed.
Lemma dollar_cmd c : cmd_no_dollar c = true -> no_dollar (cmd_to_string [] c) = true.
Proof. intros H. rewrite cmd_print. now apply dollar_commas, dollar_fields. Qed.

(** ** one command line *)
Lemma cmd_header_vars vars c : exists h t, cmd_to_string [] c = h ++ 44 :: t
  /\ cmd_to_string vars c = h ++ 44 :: subst_vars vars t
  /\ forallb (fun x => (x <? 128) && negb (x =? 44)) h = true /\ h <> []
  /\ forallb (fun x => negb (is_indent x) && negb (is_ws x)) h = true /\ no_dollar h = true.
Proof.
  exists (fst (cmd_parts c)), (snd (cmd_parts c)).
  assert (H : In (fst (cmd_parts c)) (map lit ["F"; "M"; "MX"; "MY"; "S"; "V"; "R"; "C"; "P"; "L"; "T"]%string)).
  { unfold cmd_parts. destruct (cmd_props c); cbn [fst]; vm_compute; auto 20. }
  unfold cmd_to_string, variable_replace. destruct (cmd_parts c) as [h t]. cbn [fst snd] in *.
  split; [reflexivity|]. split; [reflexivity|]. clear t.
  cbn [map In] in H. repeat destruct H as [H|H]; subst; easy.
Qed.
Lemma cmd_line_reads_vars vars d c : vars_ok vars = true -> cmd_no_dollar c = true -> (1 <= d)%nat ->
  cmd_ok c = true -> cmd_one_line c = true ->
  line_reads vars d (bare c) (repeat 32 d ++ cmd_to_string vars c).
Proof.
  intros Hv Hdc Hd Hc Hl. destruct (cmd_header_vars vars c) as (h & t & E0 & E & Hh & Hn & Hi & Hhd).
  assert (P : plain_line (cmd_to_string [] c) = true). { rewrite cmd_print. now apply plain_commas, cmd_fields_plain. }
  assert (D : no_dollar t = true).
  { apply dollar_cmd in Hdc. rewrite E0, no_dollar_app in Hdc. apply andb_true_iff in Hdc as [_ Hdc].
    change (44 :: t) with ([44] ++ t) in Hdc. rewrite no_dollar_app in Hdc. now apply andb_true_iff in Hdc. }
  assert (Ht : plain_line (44 :: subst_vars vars t) = true).
  { assert (Q : one_line t = true).
    { unfold plain_line in P. rewrite E0 in P. apply andb_true_iff in P as [P1 P2]. unfold one_line. apply andb_true_iff. split.
      - rewrite no_nl_app in P1. apply andb_true_iff in P1 as [_ P1]. exact P1.
      - change (negb (ends_with_char 13 ?s)) with (no_cr_end s) in P2.
        destruct t as [|x t]; [easy|]. change (h ++ 44 :: x :: t) with (h ++ [44] ++ (x :: t)) in P2.
        rewrite app_assoc, no_cr_end_app in P2 by easy. exact P2. }
    pose proof (subst_line vars t Hv D Q) as S. unfold one_line in S. apply andb_true_iff in S as [S1 S2].
    unfold plain_line. apply andb_true_iff. split; [exact S1|]. change (negb (ends_with_char 13 ?s)) with (no_cr_end s).
    destruct (subst_vars vars t) as [|x u]; [easy|]. change (44 :: x :: u) with ([44] ++ (x :: u)).
    rewrite no_cr_end_app by easy. exact S2. }
  repeat split.
  - unfold good_line. apply andb_true_iff. split.
    + unfold plain_line in *. apply andb_true_iff in Ht as [P1 P2]. rewrite E, !no_nl_app, P1.
      change (negb (ends_with_char 13 ?s)) with (no_cr_end s) in *. rewrite app_assoc, no_cr_end_app, P2.
      * rewrite !andb_true_r. apply andb_true_iff. split; [clear; now induction d|].
        eapply forallb_impl; [|exact Hi]. intros x Hx. cbv beta in *. apply andb_true_iff in Hx as [_ Hx].
        apply negb_true_iff in Hx. apply negb_true_iff, N.eqb_neq. intros ->. easy.
      * easy.
    + rewrite E. rewrite is_blank_forallb, !forallb_app. cbn. now rewrite !andb_false_r.
  - destruct d; [lia|]. reflexivity.
  - rewrite E. destruct h as [|x h]; [easy|]. cbn [forallb] in Hi. apply andb_true_iff in Hi as [Hi _].
    apply andb_true_iff in Hi as [Hi _]. apply negb_true_iff in Hi. cbn [app]. now apply indent_spaces.
  - unfold cmd_parse. rewrite E, app_assoc, header_slice.
    + cbn [rbind]. change ((repeat 32 d ++ h) ++ 44 :: subst_vars vars t) with ((repeat 32 d ++ h) ++ [44] ++ subst_vars vars t).
      rewrite app_assoc, expand_subst; [|easy| |easy].
      * rewrite <- !app_assoc. change (h ++ [44] ++ t) with (h ++ 44 :: t). rewrite <- E0.
        apply cmd_round; [easy|]. clear. induction d; easy.
      * rewrite !no_dollar_app, Hhd. rewrite andb_true_r. replace (no_dollar (repeat 32 d)) with true; [easy|]. clear. now induction d.
    + rewrite forallb_app, Hh, andb_true_r. clear. now induction d.
Qed.
Lemma contains_dollar p t : contains (36 :: p) t = true -> no_dollar t = false.
Proof.
  unfold contains. destruct (find_sub (36 :: p) t) as [[a b]|] eqn:E; [|easy]. intros _.
  apply find_sub_spec in E as [-> E]. apply starts_with_iff in E as [u ->]. rewrite no_dollar_app.
  cbn. now rewrite andb_false_r.
Qed.
Lemma expand_plain vars tail : no_dollar tail = true -> forall line, expand_vars vars tail line = line.
Proof.
  intros H. induction vars as [|x vars IH]; intros line; [easy|]. cbn [expand_vars].
  destruct (contains (var_ref x) tail) eqn:E; [|apply IH].
  apply contains_dollar in E. congruence.
Qed.
(** A line written without variables reads the same whatever they are. *)
Lemma cmd_line_reads_plain vars d c : cmd_no_dollar c = true -> (1 <= d)%nat -> cmd_ok c = true -> cmd_one_line c = true ->
  line_reads vars d (bare c) (repeat 32 d ++ cmd_to_string [] c).
Proof.
  intros Hdc Hd Hc Hl. destruct (cmd_line_reads d c Hd Hc Hl) as (H1 & H2 & H3 & H4). repeat split; try easy.
  rewrite <- H4. unfold cmd_parse. destruct (cmd_header_vars [] c) as (h & t & E & _ & Hh & _ & _ & Hhd).
  rewrite E, app_assoc, header_slice.
  - cbn [rbind]. rewrite (expand_plain vars); [reflexivity|].
    apply dollar_cmd in Hdc. rewrite E, no_dollar_app in Hdc. apply andb_true_iff in Hdc as [_ Hdc].
    change (44 :: t) with ([44] ++ t) in Hdc. rewrite no_dollar_app in Hdc. now apply andb_true_iff in Hdc.
  - rewrite forallb_app, Hh, andb_true_r. clear. now induction d.
Qed.

(** ** trees *)
Lemma walk_forall_d (P : nat * command -> Prop) c : forall d, (1 <= d)%nat -> tree_ok c = true -> tree_no_dollar c = true ->
  (forall d k, (1 <= d)%nat -> cmd_ok k = true -> cmd_one_line k = true -> cmd_no_dollar k = true -> P (d, bare k)) ->
  Forall P (preorder d c).
Proof.
  induction c as [c IH] using command_tree_ind. intros d Hd Ht Htd HP. rewrite preorder_eq.
  assert (T : cmd_ok c = true /\ cmd_one_line c = true /\ forallb tree_ok (body c) = true).
  { destruct c as [s p]. destruct p; cbn [tree_ok] in Ht; rewrite !andb_true_iff in Ht; destruct Ht as [[H1 H2] H3]; easy. }
  assert (U : cmd_no_dollar c = true /\ forallb tree_no_dollar (body c) = true).
  { destruct c as [s p]. destruct p; cbn [tree_no_dollar] in Htd; rewrite !andb_true_iff in Htd; destruct Htd as [H1 H2]; easy. }
  destruct T as (T1 & T2 & T3). destruct U as [U1 U2]. constructor; [now apply HP|]. unfold preorders.
  induction (body c) as [|k l IHl]; [constructor|]. cbn [map concat]. inversion IH as [|? ? K1 K2]; subst.
  cbn [forallb] in T3, U2. apply andb_true_iff in T3 as [T3 T4]. apply andb_true_iff in U2 as [U2 U3].
  apply Forall_app. split.
  - apply K1; [lia|easy|easy|easy].
  - now apply IHl.
Qed.
Lemma walks_forall_d (P : nat * command -> Prop) cs : forallb tree_ok cs = true -> forallb tree_no_dollar cs = true ->
  (forall d k, (1 <= d)%nat -> cmd_ok k = true -> cmd_one_line k = true -> cmd_no_dollar k = true -> P (d, bare k)) ->
  Forall P (preorders 1 cs).
Proof.
  intros H Hd HP. unfold preorders. induction cs as [|c cs IH]; [constructor|]. cbn [forallb] in H, Hd.
  apply andb_true_iff in H as [H1 H2]. apply andb_true_iff in Hd as [H3 H4]. cbn [map concat].
  apply Forall_app. split; [now apply walk_forall_d|now apply IH].
Qed.
(** the variables an event is written with *)
Definition own_vars (vars : list variable) (e : event) : list variable :=
  match e with EBackground _ | EVideo _ => [] | _ => vars end.
Lemma walk_reads_vars vars e cs : vars_ok vars = true -> forallb tree_ok cs = true -> forallb tree_no_dollar cs = true ->
  Forall2 (fun x l => line_reads vars (fst x) (snd x) l) (preorders 1 cs) (map (walk_line (own_vars vars e)) (preorders 1 cs)).
Proof.
  intros Hv H Hd. apply Forall2_map_r. apply walks_forall_d; [easy|easy|]. intros d k Hd1 H1 H2 H3. unfold walk_line. cbn [fst snd].
  rewrite bare_text. destruct e; cbn [own_vars]; try (now apply cmd_line_reads_vars); now apply cmd_line_reads_plain.
Qed.
Definition texts_vars (v : version) (vars : list variable) (e : event) : list str :=
  own_text v e :: map (walk_line (own_vars vars e)) (preorders 1 (commands_of e)).
Definition all_texts_vars (v : version) (vars : list variable) (l : list event) : list str := concat (map (texts_vars v vars) l).
Definition event_ok_d (v : version) (e : event) : bool := event_ok v e && forallb tree_no_dollar (commands_of e).
Lemma event_loop_vars dbg v vars i evs e rest : vars_ok vars = true -> event_ok_d v e = true ->
  ev_loop dbg v vars i evs (texts_vars v vars e ++ rest)
  = ev_loop dbg v vars (i + Z.of_nat (length (texts_vars v vars e))) (evs ++ [e]) rest.
Proof.
  intros Hv. unfold event_ok_d, event_ok. rewrite !andb_true_iff. intros [[Ho Hc] Hd]. unfold texts_vars. cbn [app ev_loop].
  rewrite good_not_blank by now apply own_good. rewrite own_step by easy.
  destruct (ev_cmds e) as [cs|] eqn:E.
  - erewrite loop_commands with (cs := []) (cs' := commands_of e).
    + rewrite set_cmds_twice, set_cmds_same. f_equal. cbn [length]. lia.
    + now apply walk_reads_vars.
    + apply walks_forall; [easy|]. intros; easy.
    + now apply cmds_set_cmds with (cs := cs).
    + apply rebuild_forest.
  - replace (ev_set_cmds [] e) with e by now destruct e. replace (commands_of e) with (@nil command) by now destruct e.
    cbn [preorders map concat app length]. f_equal.
Qed.
Lemma all_texts_vars_good v vars l : vars_ok vars = true -> forallb (event_ok_d v) l = true ->
  forallb good_line (all_texts_vars v vars l) = true.
Proof.
  intros Hv. unfold all_texts_vars. induction l as [|e l IH]; [easy|]. cbn [forallb map concat]. rewrite andb_true_iff. intros [H1 H2].
  rewrite forallb_app, IH, andb_true_r by easy. unfold event_ok_d, event_ok in H1. rewrite !andb_true_iff in H1.
  destruct H1 as [[Ho Hc] Hd]. unfold texts_vars. cbn [forallb]. rewrite own_good by easy. cbn [andb].
  pose proof (walk_reads_vars vars e _ Hv Hc Hd) as H. induction H as [|x s xs ls (Hl & _) H IHw]; [easy|]. cbn. now rewrite Hl.
Qed.
Lemma events_loop_vars dbg v vars l : vars_ok vars = true -> forallb (event_ok_d v) l = true -> forall i evs,
  ev_loop dbg v vars i evs (all_texts_vars v vars l) = ROk (evs ++ l).
Proof.
  intros Hv. unfold all_texts_vars. induction l as [|e l IH]; intros H i evs; cbn [map concat].
  - cbn. now rewrite app_nil_r.
  - cbn [forallb] in H. apply andb_true_iff in H as [H1 H2]. rewrite event_loop_vars, IH by easy. now rewrite <- app_assoc.
Qed.
Lemma events_print_vars dbg v vars l : forallb (own_ok v) l = true ->
  events_to_string_vars dbg vars l v = ROk (Some (join [10] (all_texts_vars v vars l))).
Proof.
  intros H. unfold events_to_string_vars.
  rewrite (run_list_map_ok _ (fun e => Some (join [10] (texts_vars v vars e)))).
  - cbn [rmap]. unfold map_string_new_line. rewrite <- (map_map (fun e => join [10] (texts_vars v vars e)) Some), flatten_some.
    rewrite <- map_map, join_concat; [easy|]. intros t Ht. apply in_map_iff in Ht as (e & <- & _). easy.
  - intros e He. rewrite forallb_forall in H. apply H in He.
    rewrite (ev_print dbg v vars e (own_text v e)) by now apply own_print. unfold texts_vars, own_vars. now destruct e.
Qed.
Lemma events_round_trip_vars dbg v vars l : vars_ok vars = true -> forallb (event_ok_d v) l = true ->
  exists t, events_to_string_vars dbg vars l v = ROk (Some t) /\ events_from_str_vars dbg vars t v = ROk (Some l).
Proof.
  intros Hv H. exists (join [10] (all_texts_vars v vars l)). split.
  - apply events_print_vars. eapply forallb_impl; [|exact H]. intros e He. unfold event_ok_d, event_ok in He.
    rewrite !andb_true_iff in He. easy.
  - unfold events_from_str_vars. rewrite good_lines_join by now apply all_texts_vars_good.
    now rewrite events_loop_vars.
Qed.
(** ** reading *)
Lemma cmd_expand vars h l : vars_readable vars = true ->
  forallb (fun x => (x <? 128) && negb (x =? 44)) h = true -> no_dollar h = true -> Forall (tok_of vars) l ->
  cmd_parse vars (h ++ lit "," ++ shows l) = cmd_from_str (h ++ lit "," ++ fulls l).
Proof.
  intros Hv Hh Hd Hl. unfold cmd_parse. change (h ++ lit "," ++ shows l) with (h ++ 44 :: shows l).
  rewrite header_slice by easy. cbn [rbind]. f_equal.
  change (h ++ 44 :: shows l) with (h ++ [44] ++ shows l). rewrite app_assoc.
  rewrite <- (shows_chars (h ++ [44])), <- shows_app. rewrite expand_all.
  - rewrite fulls_app, fulls_chars. now rewrite <- app_assoc.
  - easy.
  - intros y Hy. apply in_app_iff in Hy as [Hy|Hy].
    + unfold chars in Hy. apply in_map_iff in Hy as (c & Hc & _). easy.
    + split; [|easy]. rewrite Forall_forall in Hl. now apply (Hl _ Hy).
  - apply Forall_app. split.
    + apply chars_ok. rewrite no_dollar_app, Hd. easy.
    + eapply Forall_impl; [|exact Hl]. now intros [c|x].
Qed.
