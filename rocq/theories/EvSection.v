(** The [Events] section is read line by line. *)
From Coq Require Import String List NArith ZArith Bool Lia.
From Verif Require Import Str Num Nom Dec Parsers Unicode Colours TimingPoints HitObjects Storyboard NormalEvents Events Spec SpecWf SpecText SpecLine
  StrFacts NumFacts NomFacts DecFacts FieldFacts CmdFacts CmdTree HoFacts HoRound LineRead HoRead SpecEvents EvPanic
  SpecEvLine SpecEvSection EvRead CmdRead SpecColLine ColRead.
Import ListNotations.
Local Open Scope N_scope.

Lemma depth_indent s : indent_of s = depth s.
Proof.
  unfold indent_of. induction s as [|c s IH]; [easy|]. cbn [span depth]. unfold is_indent at 1.
  destruct ((c =? 32) || (c =? 95)) eqn:E.
  - replace (is_indent c) with true by (unfold is_indent; now rewrite E). rewrite <- IH. now destruct (span is_indent s).
  - replace (is_indent c) with false by (unfold is_indent; now rewrite E). easy.
Qed.
Lemma last_rev {A} (cs : list A) : match rev cs with [] => cs = [] | x :: b => cs = rev b ++ [x] end.
Proof. destruct cs as [|x cs] using rev_ind; [easy|]. rewrite rev_app_distr. cbn [rev app]. now rewrite rev_involutive. Qed.
Lemma push_place c : forall n d ind cs, (n + d = ind)%nat -> (1 <= d)%nat -> (1 <= n)%nat -> push_at n d ind c cs = place n d ind c cs.
Proof.
  induction n as [|n IH]; intros d ind cs Hn Hd H1; [lia|]. cbn [push_at place]. pose proof (last_rev cs) as R.
  destruct (rev cs) as [|x b].
  - rewrite R. change (@last_opt command []) with (@None command). cbv iota. f_equal. f_equal. destruct d as [|[|d]]; [lia|easy|]. change (Nat.eqb (S (S d)) 1) with false. cbv iota. lia.
  - subst cs. rewrite last_opt_snoc.
    assert (K : forall subs (mk : list command -> cmd_properties), cmd_subs x = Some subs ->
      (forall s, cmd_set_subs s x = mk_cmd (cmd_start x) (mk s)) ->
      (if Nat.eqb (d + 1) ind then ROk (set_last (cmd_set_subs (subs ++ [c])) (rev b ++ [x]))
       else rmap (fun subs' => set_last (cmd_set_subs subs') (rev b ++ [x])) (push_at n (d + 1) ind c subs))
      = rmap (fun subs' => rev b ++ [mk_cmd (cmd_start x) (mk subs')]) (place n (S d) ind c subs)).
    { intros subs mk _ Hm. destruct (Nat.eqb_spec (d + 1) ind) as [E|E].
      - assert (n = 0%nat) as -> by lia. cbn [place rmap]. rewrite set_last_snoc, Hm. now destruct (rev subs).
      - rewrite (IH (d + 1)%nat ind subs) by lia. replace (d + 1)%nat with (S d) by lia.
        destruct (place n (S d) ind c subs); [|easy|easy]. cbn [rmap]. now rewrite set_last_snoc, Hm. }
    destruct x as [st p]. destruct p; try reflexivity; cbn [cmd_subs cmd_props cmd_start]; cbn [cmd_start] in K; now apply K.
Qed.
Lemma try_place cs c ind : (1 <= ind)%nat -> try_push_cmd cs c ind = place (pred ind) 1 ind c cs.
Proof.
  intros H. unfold try_push_cmd. destruct (Nat.eqb_spec ind 1) as [->|Hn]; [cbn; now destruct (rev cs)|].
  rewrite <- (push_place c (pred ind) 1 ind cs) by lia. replace (ind - 1)%nat with (pred ind) by lia.
  destruct (pred ind) as [|n] eqn:E; [lia|]. cbn [push_at]. now destruct (last_opt cs).
Qed.
Lemma with_set cs e : ev_set_cmds cs e = with_commands cs e.
Proof. destruct e as [|[]|[]| | |[]|[]|[]|[]|]; easy. Qed.
Lemma cmds_of e cs : ev_cmds e = Some cs -> commands_of e = cs.
Proof. destruct e; cbn; congruence. Qed.
Lemma no_comment s : strip_prefix (lit "//") s = None <-> forall c, s <> lit "//" ++ c.
Proof.
  split.
  - intros H c ->. cbn in H. discriminate.
  - intros H. destruct (strip_prefix (lit "//") s) as [c|] eqn:E; [|easy]. apply strip_prefix_spec in E. now destruct (H c).
Qed.
(** ** [str::replace] *)
Lemma starts_split a s : starts_with a s = true <-> exists t, s = a ++ t.
Proof. apply starts_with_spec. Qed.
Lemma replace_skip p r k s : (k <= length s)%nat -> replace_ne p r k s = replace_ne p r 0 (skipn k s).
Proof. revert s. induction k as [|k IH]; intros [|c s] H; cbn in *; try lia; try easy. apply IH. lia. Qed.
Lemma replace_hit a b s : a <> [] -> replace_ne a b 0 (a ++ s) = b ++ replace_ne a b 0 s.
Proof.
  intros Ha. destruct a as [|x a]; [easy|]. cbn [app replace_ne].
  replace (starts_with (x :: a) (x :: a ++ s)) with true by (symmetry; apply starts_split; now exists s).
  f_equal. cbn [length]. replace (S (length a) - 1)%nat with (length a) by lia.
  rewrite replace_skip by (rewrite app_length; lia). now rewrite skipn_app, skipn_all, Nat.sub_diag.
Qed.
Lemma replace_no a b c s : (forall s', c :: s <> a ++ s') -> replace_ne a b 0 (c :: s) = c :: replace_ne a b 0 s.
Proof.
  intros H. cbn [replace_ne]. destruct (starts_with a (c :: s)) eqn:E; [|easy]. apply starts_split in E. destruct E as (t & E). now destruct (H t).
Qed.
Lemma replace_ne_swapped a b s : a <> [] -> swapped a b s (replace_ne a b 0 s).
Proof.
  intros Ha. remember (length s) as n eqn:En. assert (Hn : (length s <= n)%nat) by lia. clear En. revert s Hn. induction n as [|n IH]; intros s Hn.
  - destruct s; [|cbn in Hn; lia]. now constructor.
  - destruct s as [|c s]; [now constructor|].
    destruct (starts_with a (c :: s)) eqn:E.
    + apply starts_split in E. destruct E as (t & E). rewrite E, replace_hit by easy. constructor; [easy|]. apply IH.
      apply (f_equal (@length _)) in E. rewrite app_length in E. destruct a; [easy|]. cbn in *. lia.
    + assert (K : forall s', c :: s <> a ++ s') by (intros s' K; assert (starts_with a (c :: s) = true) by (apply starts_split; eauto); congruence).
      rewrite replace_no by easy. apply sw_miss; [easy|]. apply IH. cbn in Hn. lia.
Qed.
Lemma replace_swapped a b s t : swapped a b s t <-> t = replace a b s.
Proof.
  split.
  - induction 1 as [Ha|s t Ha _ IH|c s t H _ IH|s Ha].
    + unfold replace. now destruct a.
    + subst t. unfold replace. destruct a as [|x a]; [easy|]. now rewrite replace_hit.
    + subst t. unfold replace. destruct a as [|x a]; [now destruct (H (c :: s))|]. now rewrite replace_no.
    + subst a. cbn. now rewrite flat_map_concat_map.
  - intros ->. destruct a as [|x a]; [cbn; rewrite flat_map_concat_map; now constructor|]. now apply replace_ne_swapped.
Qed.

(** ** variables *)
Lemma contains_iff p s : contains p s = true <-> exists a b, s = a ++ p ++ b.
Proof.
  unfold contains. split.
  - destruct (find_sub p s) as [[a b]|] eqn:E; [|easy]. intros _. apply find_sub_spec in E as [-> E].
    apply starts_with_spec in E as (t & ->). now exists a, t.
  - intros (a & b & ->). induction a as [|c a IH].
    + cbn [app]. assert (H : starts_with p (p ++ b) = true) by (apply starts_with_spec; now exists b).
      destruct (p ++ b) as [|c t]; cbn [find_sub]; now rewrite H.
    + cbn [app find_sub]. destruct (starts_with p (c :: a ++ p ++ b)); [easy|]. now destruct (find_sub p (a ++ p ++ b)) as [[? ?]|].
Qed.
Lemma searched_iff l q : line_without_header l = ROk q <-> searched l q.
Proof.
  unfold line_without_header, searched. destruct (position (fun c => c =? 44) l) as [i|] eqn:E.
  - pose proof E as E'. apply position_some in E as (a & b & -> & Hn & <-). split.
    + destruct (slice_from_byte (S (length a)) (a ++ 44 :: b)) as [t|] eqn:F; [|easy]. injection 1 as ->.
      apply slice_some in F as (p & F & G). right. now exists a, b, p.
    + intros [[H _]|(a' & b' & p & H & Hn' & Hp & Hl)].
      * exfalso. unfold no_comma in H. rewrite forallb_app in H. cbn in H. now rewrite andb_false_r in H.
      * assert (K : position (fun c => c =? 44) (a ++ 44 :: b) = Some (length a')) by (apply position_some; now exists a', b').
        rewrite E' in K. injection K as K. rewrite K, <- Hl, Hp, slice_prefix. easy.
  - split.
    + injection 1 as ->. left. split; [|easy]. unfold no_comma. apply forallb_forall. intros c Hc.
      destruct (c =? 44) eqn:K; [|easy]. exfalso. apply N.eqb_eq in K. subst c. apply in_split in Hc as (a & b & ->).
      clear -E. revert E. induction a as [|c a IH]; cbn; [easy|]. destruct (c =? 44); [easy|].
      destruct (position _ (a ++ 44 :: b)); [easy|]. now apply IH.
    + intros [[_ ->]|(a & b & p & -> & Hn & _)]; [easy|].
      assert (K : position (fun c => c =? 44) (a ++ 44 :: b) = Some (length a)) by (apply position_some; now exists a, b). congruence.
Qed.
Lemma with_values_iff q vs : forall l l', with_values q vs l l' <-> expand_vars vs q l = l'.
Proof.
  induction vs as [|x vs IH]; intros l l'; cbn [expand_vars].
  - split; [intros H; now inversion H|intros <-; constructor].
  - change (var_ref x) with (36 :: var_name x). destruct (contains (36 :: var_name x) q) eqn:E.
    + split.
      * intros H. inversion H; subst.
        -- match goal with K : swapped _ _ _ _ |- _ => apply replace_swapped in K; subst end. now apply IH.
        -- apply contains_iff in E as (a & b & E). match goal with K : forall a b, _ <> _ |- _ => now destruct (K a b) end.
      * intros H. pose proof E as E'. apply contains_iff in E' as (a & b & E'). eapply wv_used; [exact E'|apply replace_swapped; reflexivity|now apply IH].
    + split.
      * intros H. inversion H; subst.
        -- exfalso. apply eq_true_false_abs with (2 := E). apply contains_iff. eauto.
        -- now apply IH.
      * intros H. apply wv_unused; [|now apply IH]. intros a b K. apply eq_true_false_abs with (2 := E). apply contains_iff. eauto.
Qed.
Lemma line_takes dbg v vs evs s : is_blank s = false -> ev_next dbg v vs evs s (ev_step dbg v vs evs s).
Proof.
  intros Hb. unfold ev_step. destruct (strip_prefix (lit "//") s) as [c|] eqn:E.
  - apply strip_prefix_spec in E. subst s. constructor.
  - rewrite depth_indent. destruct (Nat.ltb_spec 0 (depth s)) as [Hd|Hd].
    + assert (Hd' : depth s <> 0%nat) by lia.
      destruct (last_opt_cases evs) as [[-> ->]|(l & e & -> & ->)].
      { apply next_nowhere; [easy|]. intros (l & e & H & _). now destruct l. }
      destruct (ev_cmds e) as [cs|] eqn:Ec.
      2:{ apply next_nowhere; [easy|]. rewrite takes_alt. intros (l' & e' & H & He'). apply app_inj_tail in H as [_ <-]. congruence. }
      assert (Ht : takes_commands (l ++ [e])) by (apply takes_alt; exists l, e; split; [easy|congruence]).
      unfold cmd_parse. destruct (line_without_header s) as [t|er|p] eqn:El.
      * pose proof El as Hq. apply searched_iff in Hq.
        cbn [rbind]. rewrite cmd_reads. set (s' := expand_vars vs t s).
        assert (K : rbind (rmap_err EvCommand (rmap Some (rd_command s'))) (fun oc => match oc with
            | Some c => rmap (fun cs' => set_last (ev_set_cmds cs') (l ++ [e])) (rmap_err EvPush (try_push_cmd cs c (depth s)))
            | None => ROk (l ++ [e]) end)
          = rbind (rmap_err EvCommand (rd_command s')) (fun c => rmap (fun cs => l ++ [with_commands cs e])
              (rmap_err EvPush (place (pred (depth s)) 1 (depth s) c (commands_of e))))).
        { destruct (rd_command s') as [c|er|p]; cbn [rmap rmap_err rbind]; [|easy|easy].
          rewrite try_place by lia. rewrite (cmds_of e cs Ec). destruct (place _ _ _ c cs); cbn [rmap rmap_err]; [|easy|easy].
          now rewrite set_last_snoc, with_set. }
        rewrite K. apply next_command with (q := t); [easy|easy|easy|now apply with_values_iff|easy].
      * exfalso. unfold line_without_header in El. destruct (position _ s); [|easy]. now destruct (slice_from_byte _ s).
      * assert (p = PSlice) as ->.
        { unfold line_without_header in El. destruct (position _ s); [|easy]. destruct (slice_from_byte _ s); [easy|]. now injection El. }
        apply next_offset; [easy|easy|]. apply header_panic. eauto.
    + destruct (pieces 44 s) as [|h fs] eqn:Ep; [destruct (pieces_spec 44 s) as (f & fs & K & _); congruence|].
      apply fields_pieces in Ep. rewrite (ev_line_reads dbg v s h fs Ep).
      replace (rmap _ (rmap Some (ev_line dbg v h fs))) with (rmap (fun e => evs ++ [e]) (ev_line dbg v h fs)) by now destruct (ev_line dbg v h fs).
      apply next_event; [now apply no_comment|lia|easy].
Qed.
Lemma next_one dbg v vs evs s r1 : ev_next dbg v vs evs s r1 -> forall r2, ev_next dbg v vs evs s r2 -> r1 = r2.
Proof.
  intros H1 r2 H2. inversion H1; subst; inversion H2; subst; try easy; try congruence;
    try match goal with H : forall c, ?s <> _ |- _ => exfalso; eapply H; reflexivity end;
    try match goal with H : depth (lit "//" ++ _) <> _ |- _ => now destruct H end.
  - match goal with A : fields_of s ?a, B : fields_of s ?b |- _ => assert (a = b) as K by (eapply fields_unique; eassumption); injection K as -> -> end. easy.
  - exfalso. match goal with A : bad_offset s, B : searched s _ |- _ => apply header_panic in A as (p & A); apply searched_iff in B; congruence end.
  - exfalso. match goal with A : bad_offset s, B : searched s _ |- _ => apply header_panic in A as (p & A); apply searched_iff in B; congruence end.
  - match goal with A : _ ++ [_] = _ ++ [_] |- _ => apply app_inj_tail in A as [-> ->] end.
    match goal with A : searched s ?a, B : searched s ?b |- _ => assert (a = b) as -> by (apply searched_iff in A, B; congruence) end.
    match goal with A : with_values ?q vs s ?a, B : with_values ?q vs s ?b |- _ => assert (a = b) as -> by (apply with_values_iff in A, B; congruence) end.
    easy.
Qed.
Lemma next_is dbg v vs evs s r : is_blank s = false -> (ev_next dbg v vs evs s r <-> ev_step dbg v vs evs s = r).
Proof.
  intros Hb. split; [|intros <-; now apply line_takes]. intros H. eapply next_one; [apply line_takes|]; easy.
Qed.
Lemma section_is dbg v vs ls : forall i evs r, ev_section dbg v vs i evs ls r <-> ev_loop dbg v vs i evs ls = r.
Proof.
  induction ls as [|l ls IH]; intros i evs r; cbn [ev_loop].
  - split; [intros H; now inversion H|intros <-; constructor].
  - split.
    + intros H. inversion H; subst.
      * match goal with E : is_blank l = true |- _ => rewrite E end. now apply IH.
      * match goal with E : is_blank l = false |- _ => rewrite E; rewrite next_is in * by easy end.
        match goal with E : ev_step _ _ _ _ _ = _ |- _ => rewrite E end. now apply IH.
      * match goal with E : is_blank l = false |- _ => rewrite E; rewrite next_is in * by easy end.
        match goal with E : ev_step _ _ _ _ _ = _ |- _ => now rewrite E end.
      * match goal with E : is_blank l = false |- _ => rewrite E; rewrite next_is in * by easy end.
        match goal with E : ev_step _ _ _ _ _ = _ |- _ => now rewrite E end.
    + destruct (is_blank l) eqn:Eb; [intros H; apply sec_blank; [easy|now apply IH]|].
      destruct (ev_step dbg v vs evs l) as [evs'|e|p] eqn:E; apply next_is in E; try easy; intros H.
      * eapply sec_line; [easy|eassumption|now apply IH].
      * subst r. now apply sec_error.
      * subst r. now apply sec_panic.
Qed.
Lemma events_section_vars dbg vs s v r : events_from_str_vars dbg vs s v = rmap Some r <-> ev_section dbg v vs 0 [] (lines s) r.
Proof.
  rewrite section_is. unfold events_from_str_vars. split; [|now intros ->].
  destruct (ev_loop _ _ _ _ _ _), r; cbn; congruence.
Qed.
Lemma events_section dbg s v r : events_from_str dbg s v = rmap Some r <-> ev_section dbg v [] 0 [] (lines s) r.
Proof. exact (events_section_vars dbg [] s v r). Qed.

(** ** sections made of lines *)
Lemma list_is {A E} (rd : str -> res A E) ls : forall i r, list_section rd i ls r <-> parse_lines rd i ls = r.
Proof.
  induction ls as [|l ls IH]; intros i r; cbn [parse_lines].
  - split; [intros H; now inversion H|intros <-; constructor].
  - split.
    + intros H. inversion H; subst; match goal with E : is_blank l = _ |- _ => rewrite E end.
      * now apply IH.
      * match goal with E : rd l = _ |- _ => rewrite E end. f_equal. now apply IH.
      * match goal with E : rd l = _ |- _ => now rewrite E end.
      * match goal with E : rd l = _ |- _ => now rewrite E end.
    + destruct (is_blank l) eqn:Eb; [intros H; apply ls_blank; [easy|now apply IH]|].
      destruct (rd l) as [a|e|p] eqn:El; intros <-; [apply ls_line; [easy|easy|now apply IH]|now apply ls_error|now apply ls_panic].
Qed.
Lemma parse_some {A E} (f : str -> res (option A) E) (g : str -> res A E) : (forall l, f l = rmap Some (g l)) ->
  forall ls i, parse_lines f i ls = rmap (map Some) (parse_lines g i ls).
Proof.
  intros H. induction ls as [|l ls IH]; intros i; cbn [parse_lines]; [easy|]. destruct (is_blank l); [apply IH|].
  rewrite H. destruct (g l); cbn [rmap]; [|easy|easy]. rewrite IH. now destruct (parse_lines g (i + 1) ls).
Qed.
Lemma parse_ext {A E} (f g : str -> res A E) : (forall l, f l = g l) -> forall ls i, parse_lines f i ls = parse_lines g i ls.
Proof.
  intros H. induction ls as [|l ls IH]; intros i; cbn [parse_lines]; [easy|]. now rewrite H, !IH.
Qed.
Lemma flatten_some {A} (l : list A) : flatten_opt (map Some l) = l.
Proof. induction l as [|x l IH]; [easy|]. unfold flatten_opt in *. cbn. now f_equal. Qed.
Lemma unwrap_some {A E} (l : list A) : run_list (map unwrap (map Some l)) = ROk l :> res (list A) E.
Proof. induction l as [|x l IH]; [easy|]. cbn. now rewrite IH. Qed.
Lemma rmap_some {A E} (r1 r2 : res A E) : rmap Some r1 = rmap Some r2 <-> r1 = r2.
Proof. split; [|now intros ->]. destruct r1, r2; cbn; congruence. Qed.
Lemma colours_section s v r : old_version v = false ->
  (colours_from_str s v = rmap Some r <-> list_section col_line 0 (lines s) r).
Proof.
  intros Hv. rewrite list_is. unfold colours_from_str. rewrite Hv, (parse_some _ col_line) by (intros l; apply col_reads).
  rewrite <- (rmap_some (parse_lines col_line 0 (lines s)) r). destruct (parse_lines col_line 0 (lines s)); cbn [rmap]; now rewrite ?flatten_some.
Qed.
Lemma timing_points_section s v r :
  timing_points_from_str s v = rmap Some r <-> list_section (fun l => tp_line v (pieces 44 l)) 0 (lines s) r.
Proof.
  rewrite list_is. unfold timing_points_from_str.
  rewrite (parse_some _ (fun l => tp_line v (pieces 44 l))) by (intros l; now apply tp_line_reads, fields_pieces).
  rewrite <- (rmap_some (parse_lines _ 0 (lines s)) r). destruct (parse_lines _ 0 (lines s)) as [l|e|p]; cbn [rmap rbind]; [|easy|easy].
  destruct l as [|x l]; [easy|]. cbn [map]. change (unwrap (Some x) :: map unwrap (map Some l)) with (map (@unwrap _ (line_err tp_err)) (map Some (x :: l))).
  now rewrite unwrap_some.
Qed.
Lemma hit_objects_section s v r :
  hit_objects_from_str s v = rmap Some r <-> list_section (fun l => ho_line v (pieces 44 l)) 0 (lines s) r.
Proof.
  rewrite list_is. unfold hit_objects_from_str. rewrite rmap_some, (parse_ext _ (fun l => ho_line v (pieces 44 l))); [easy|].
  intros l. rewrite (ho_line_reads v l _ (pieces_fields l)). unfold v_unwrap. now destruct (ho_line v (pieces 44 l)).
Qed.
