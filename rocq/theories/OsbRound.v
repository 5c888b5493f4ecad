(** Writing an .osb file and reading it back. *)
From Coq Require Import String List NArith ZArith Bool Lia.
From Verif Require Import Str Num Nom Dec Parsers Unicode Colours Storyboard NormalEvents Events Osb OsuFile Spec SpecWf SpecText SpecTypes
  SpecCmd SpecEvents SpecFile SpecOsb StrFacts NumFacts NomFacts DecFacts FieldFacts LineFacts LayoutFacts TpFacts
  CmdFacts CmdRound CmdTree EvFacts EvRound EvLoop EvPanic VarFacts VarEvents FileFacts FileLoop FileTheorems WholeFacts OsbFacts.
Import ListNotations.
Local Open Scope N_scope.

(** ** reading the events with the variables put in *)
Lemma parse_no_dollar vars l : no_dollar l = true -> cmd_parse vars l = cmd_parse [] l.
Proof.
  intros H. unfold cmd_parse, line_without_header. destruct (position _ l) as [i|] eqn:E.
  - destruct (slice_from_byte (S i) l) as [t|] eqn:F; [|easy]. cbn [rbind expand_vars]. f_equal. apply expand_plain.
    apply slice_some in F as (p & -> & _). rewrite no_dollar_app in H. now apply andb_true_iff in H.
  - cbn [rbind expand_vars]. f_equal. now apply expand_plain.
Qed.
Lemma indent_cmd h t : forallb (fun x => (x <? 128) && negb (x =? 44)) h = true -> indent_of (h ++ lit "," ++ t) = indent_of h.
Proof.
  intros _. unfold indent_of. induction h as [|c h IH]; [reflexivity|]. cbn [app span]. destruct (is_indent c); [|easy].
  destruct (span is_indent h) as [a b], (span is_indent (h ++ lit "," ++ t)) as [a' b']. cbn [fst length] in *. now f_equal.
Qed.
Lemma cmd_parse_nil h t : forallb (fun x => (x <? 128) && negb (x =? 44)) h = true -> cmd_parse [] (h ++ lit "," ++ t) = cmd_from_str (h ++ lit "," ++ t).
Proof. intros H. unfold cmd_parse. change (h ++ lit "," ++ t) with (h ++ 44 :: t). now rewrite header_slice. Qed.
Lemma step_stands dbg v vars evs a b : vars_readable vars = true -> stands_for vars a b ->
  is_blank a = is_blank b /\ ev_step dbg v vars evs a = ev_step dbg v [] evs b.
Proof.
  intros Hv [l Hi|l Hl|h l Hi Hh Hd Hl].
  - split; [easy|]. unfold ev_step. destruct (strip_prefix (lit "//") l); [easy|]. destruct (Nat.ltb_spec 0 (indent_of l)) as [K|K]; [|easy].
    exfalso. destruct l as [|c l]; [easy|]. unfold indent_of in K. cbn [span] in K. cbn [indented] in Hi. rewrite Hi in K. cbn in K. lia.
  - split; [easy|]. unfold ev_step. now rewrite parse_no_dollar.
  - split; [now rewrite !not_blank_comma|]. unfold ev_step.
    assert (S : forall t, strip_prefix (lit "//") (h ++ t) = None).
    { intros t. destruct h as [|c h]; [easy|]. cbn [indented] in Hi. unfold is_indent in Hi.
      apply orb_true_iff in Hi as [Hi|Hi]; apply N.eqb_eq in Hi; subst c; reflexivity. }
    rewrite !S, !indent_cmd by easy. rewrite cmd_expand by easy. rewrite cmd_parse_nil by easy.
    assert (P : Nat.ltb 0 (indent_of h) = true).
    { destruct h as [|c h]; [easy|]. cbn [indented] in Hi. unfold indent_of. cbn [span]. rewrite Hi. now destruct (span is_indent h). }
    now rewrite P.
Qed.
Lemma events_expand dbg v vars s s' : vars_readable vars = true -> Forall2 (stands_for vars) (lines s) (lines s') ->
  events_from_str_vars dbg vars s v = events_from_str dbg s' v.
Proof.
  intros Hv H. unfold events_from_str, events_from_str_vars. f_equal.
  generalize (@nil event) as evs. generalize 0%Z as i. induction H as [|a b la lb Hab H IH]; intros i evs; [reflexivity|].
  cbn [ev_loop]. destruct (step_stands dbg v vars evs a b Hv Hab) as [-> ->]. destruct (is_blank b); [apply IH|].
  destruct (ev_step dbg v [] evs b); [apply IH|easy|easy].
Qed.

(** ** writing and reading *)
Lemma var_text_line x : var_ok x = true -> variable_line (var_to_string x) x /\ good_line (var_to_string x) = true.
Proof.
  unfold var_ok. rewrite !andb_true_iff. intros [[[[H1 H2] H3] H4] H5]. split.
  - split; [reflexivity|]. eapply forallb_impl; [|exact H2]. intros c Hc. cbv beta in *. now rewrite !andb_true_iff in *.
  - unfold one_line in H5. apply andb_true_iff in H5 as [H5 H6]. unfold good_line, var_to_string, plain_line.
    apply andb_true_iff. split; [|rewrite is_blank_forallb; reflexivity]. apply andb_true_iff. split.
    + rewrite !no_nl_app, H5. change (no_nl (lit "$")) with true. change (no_nl (lit "=")) with true. cbn [andb]. rewrite andb_true_r.
      eapply forallb_impl; [|exact H2]. intros c Hc. cbv beta in *. now rewrite !andb_true_iff in Hc.
    + change (negb (ends_with_char 13 ?s)) with (no_cr_end s). rewrite !app_assoc, no_cr_end_app; [exact H6|]. now destruct (var_value x).
Qed.
Lemma vars_ok_in vs x : vars_ok vs = true -> In x vs -> var_ok x = true.
Proof.
  induction vs as [|y vs IH]; [easy|]. cbn [vars_ok]. rewrite !andb_true_iff. intros [[H1 _] H2] [<- |H]; [easy|now apply IH].
Qed.
Lemma variables_part vs : vars_ok vs = true -> vs <> [] ->
  body_ok (map var_to_string vs) = true
  /\ variables_are (text_of_lines (map var_to_string vs)) vs /\ variables_are (text_of_lines (map var_to_string vs) ++ [10]) vs.
Proof.
  intros H Hn.
  assert (G : forallb good_line (map var_to_string vs) = true).
  { apply forallb_forall. intros l Hl. apply in_map_iff in Hl as (x & <- & Hx). apply var_text_line. now apply vars_ok_in with vs. }
  assert (R : variables_from_str (text_of_lines (map var_to_string vs)) = ROk vs).
  { unfold variables_from_str. rewrite text_of_lines_join. change [c_nl] with [10]. rewrite good_lines_join by easy.
    apply parse_lines_print. intros x Hx. destruct (var_text_line x) as [K1 K2]; [now apply vars_ok_in with vs|].
    split; [easy|]. apply v_unwrap_ok. now apply var_line_iff. }
  destruct (good_part (fun s => rmap Some (variables_from_str s)) (map var_to_string vs) vs) as (P1 & P2 & P3); auto.
  - intros s s' E. unfold variables_from_str. now rewrite E.
  - destruct vs; easy.
  - apply forallb_forall. intros l Hl. apply in_map_iff in Hl as (x & <- & Hx). reflexivity.
  - now rewrite R.
  - split; [easy|]. split; apply variables_iff; [easy|]. destruct (variables_from_str (_ ++ [10])); cbn in P3; congruence.
Qed.
Lemma osb_events_part dbg vars l : vars_ok vars = true -> forallb osb_event_ok l = true -> l <> [] ->
  exists ls, events_to_string_vars dbg vars l 14%Z = ROk (Some (text_of_lines ls))
  /\ part (fun t => events_from_str_vars dbg vars t 14%Z) ls l.
Proof.
  intros Hv H Hn. exists (all_texts_vars 14%Z vars l). split.
  { rewrite text_of_lines_join. apply events_print_vars. eapply forallb_impl; [|exact H]. intros e He.
    unfold osb_event_ok, event_ok in He. now rewrite !andb_true_iff in He. }
  pose proof (all_texts_vars_good 14%Z vars l Hv H) as Hg. apply good_part; auto.
  - intros s s' E. unfold events_from_str_vars. now rewrite E.
  - destruct l as [|e l]; [easy|]. unfold all_texts_vars, texts_vars. cbn [map concat app].
    destruct (own_start 14%Z e) as (c & t & -> & -> & _). easy.
  - apply forallb_forall. intros x Hx. unfold all_texts_vars in Hx. apply in_concat in Hx as (ys & Hy & Hx).
    apply in_map_iff in Hy as (e & <- & _). destruct Hx as [<- |Hx].
    + destruct (own_start 14%Z e) as (c & t & -> & _ & Hc). cbn [starts_with_char]. rewrite N.eqb_sym, Hc. easy.
    + apply in_map_iff in Hx as ([n c] & <- & Hx). apply preorders_pos in Hx. cbn [fst] in Hx. unfold walk_line. cbn [fst snd].
      destruct n; [lia|]. easy.
  - unfold events_from_str_vars. rewrite text_of_lines_join. change [c_nl] with [10]. rewrite good_lines_join by easy.
    now rewrite events_loop_vars.
Qed.

(** The printed text as lines: the sections [l] and at most an empty last section. *)
Lemma parts_lines l : Forall (fun p => body_ok (snd p) = true) l -> forallb name_ok (map fst l) = true -> l <> [] ->
  lines (join [10; 10] (map part_text l)) = flat_map sec_all (secs_of l).
Proof.
  intros Hb Hn Hl. rewrite secs_text by easy. rewrite text_of_lines_join. apply lines_join.
  - now apply secs_plain.
  - pose proof (secs_last l Hb Hl) as K. intros e <-. intros E. apply K. destruct (flat_map sec_all (secs_of l)) as [|a m] eqn:Q using rev_ind; [easy|]. now rewrite last_last in *.
Qed.
Lemma osb_parts dbg l o : Forall (fun p => body_ok (snd p) = true) l -> forallb name_ok (map fst l) = true -> l <> [] ->
  shape (secs_of l) -> means dbg (secs_of l) o ->
  osb_from_str dbg (join [10; 10] (map part_text l)) 14%Z = ROk (Some o).
Proof.
  intros Hb Hn Hl Hsh Hm. apply (osb_read dbg _ [] (secs_of l) []).
  - split; [cbn [app]; rewrite app_nil_r; now apply parts_lines|]. split; [easy|]. now apply secs_ok.
  - easy.
  - destruct (shape_names _ Hsh) as [N1 N2]. split; [easy|]. split; [easy|]. now apply means_is.
Qed.

Lemma part_variables vs : part_text (lit "Variables", map var_to_string vs) = lit "[Variables]" ++ [10] ++ join [10] (map var_to_string vs).
Proof. unfold part_text. cbn [fst snd]. rewrite text_of_lines_join. reflexivity. Qed.
Lemma part_events ls : part_text (lit "Events", ls) = lit "[Events]" ++ [10] ++ text_of_lines ls.
Proof. reflexivity. Qed.
Lemma vars_events_vars_ok o : osb_ok o = true -> vars_ok (vars_or_none (osb_variables o)) = true.
Proof. unfold osb_ok. destruct (osb_variables o); [|easy]. rewrite !andb_true_iff. now intros [[H _] _]. Qed.
Lemma osb_round_trip dbg o : osb_ok o = true ->
  exists t, osb_to_string dbg o 14%Z = ROk (Some t) /\ osb_from_str dbg t 14%Z = ROk (Some o).
Proof.
  intros H. pose proof (vars_events_vars_ok o H) as Hv. unfold osb_ok in H. destruct o as [ov oe]. cbn [osb_variables osb_events] in *.
  apply andb_true_iff in H as [Ho He].
  unfold osb_to_string. change (14 <? 14)%Z with false. cbn [osb_variables osb_events]. change [c_nl; c_nl] with [10; 10]. change [c_nl] with [10].
  destruct ov as [vs|]; destruct oe as [l|].
  - apply andb_true_iff in Ho as [_ Ho]. cbn [is_absent] in Ho. rewrite orb_false_r in Ho. apply is_empty_neq in Ho.
    apply andb_true_iff in He as [Hn He]. apply is_empty_neq in Hn. cbn [vars_or_none] in Hv.
    destruct (osb_events_part dbg vs l Hv He Hn) as (ls & Hp & P1 & P2 & P3). rewrite Hp. cbn [rbind rmap unwrap].
    destruct (variables_part vs Hv Ho) as (V1 & V2 & V3).
    eexists. split; [reflexivity|].
    rewrite <- part_variables, <- part_events.
    change ([part_text (lit "Variables", map var_to_string vs)] ++ [part_text (lit "Events", ls)])
      with (map part_text [(lit "Variables", map var_to_string vs); (lit "Events", ls)]).
    apply osb_parts; [repeat constructor; easy|reflexivity|easy|now apply sh_ve|].
    left. split; [reflexivity|]. exists vs, l. cbn [secs_of]. unfold sec_body. cbn [sec_lines]. rewrite text_snoc by now destruct vs.
    repeat split; easy.
  - cbn [rmap]. eexists. split; [reflexivity|]. rewrite app_nil_r. destruct vs as [|x vs]; [now destruct dbg; vm_compute|].
    destruct (variables_part (x :: vs) Hv) as (V1 & V2 & V3); [easy|].
    rewrite <- part_variables.
    change ([part_text ?p]) with (map part_text [p]).
    apply osb_parts; [repeat constructor; easy|reflexivity|easy|now apply sh_v|].
    left. split; [reflexivity|]. exists (x :: vs). now split.
  - apply andb_true_iff in He as [Hn He]. apply is_empty_neq in Hn. cbn [vars_or_none] in Hv.
    destruct (osb_events_part dbg [] l Hv He Hn) as (ls & Hp & P1 & P2 & P3). rewrite Hp. cbn [rbind rmap unwrap].
    eexists. split; [reflexivity|]. rewrite <- part_events. cbn [app].
    change ([part_text ?p]) with (map part_text [p]).
    apply osb_parts; [repeat constructor; easy|reflexivity|easy|now apply sh_e|].
    right. split; [reflexivity|]. exists l. now split.
  - eexists. split; [reflexivity|]. now destruct dbg.
Qed.
Lemma osb_old dbg s o v : (v < 14)%Z -> osb_from_str dbg s v = ROk None /\ osb_to_string dbg o v = ROk None.
Proof. intros H. unfold osb_from_str, osb_to_string. apply Z.ltb_lt in H. now rewrite H. Qed.
