(** The items of the [Events] section are its lines. *)
From Coq Require Import String List NArith ZArith Bool Lia.
From Verif Require Import Str Num Nom Dec Parsers Unicode Colours TimingPoints HitObjects Storyboard NormalEvents Events
  Spec SpecWf SpecText SpecLine SpecColLine SpecCmd
  SpecEvents SpecEvLine SpecEvSection CmdRound CmdTree CmdRead EvRead EvSection SpecWalk.
Import ListNotations.
Local Open Scope N_scope.

Lemma preorders_app d a b : preorders d (a ++ b) = preorders d a ++ preorders d b.
Proof. unfold preorders. now rewrite map_app, concat_app. Qed.
Lemma preorders_one d c : preorders d [c] = preorder d c.
Proof. unfold preorders. cbn [map concat]. apply app_nil_r. Qed.
Lemma bare_body c : bare c = c -> body c = [].
Proof. destruct c as [st p]. unfold bare, body. destruct p; cbn; try easy; intros H; injection H; auto. Qed.
Lemma body_bare c : body c = [] -> bare c = c.
Proof. intros H. unfold bare. rewrite <- H. apply set_subs_body. Qed.
Lemma bare_set b k : bare (cmd_set_subs b k) = bare k.
Proof. apply set_subs_twice. Qed.
Lemma body_set b b' k : cmd_subs k = Some b -> body (cmd_set_subs b' k) = b'.
Proof. intros H. unfold body. now rewrite (set_subs_subs k b b' H). Qed.
Lemma pushed_items cs c n cs' : pushed cs c (S n) cs' -> bare c = c ->
  forall d, preorders d cs' = preorders d cs ++ [((d + n)%nat, c)].
Proof.
  intros H Hc. remember (S n) as m eqn:Em. revert n Em. induction H as [cs c|l k b c m b' Hb H IH]; intros n Em d.
  - injection Em as <-. rewrite preorders_app, preorders_one, preorder_eq, (bare_body c Hc), Hc, Nat.add_0_r. easy.
  - injection Em as ->. destruct n as [|n]; [now apply pushed_zero in H|].
    rewrite !preorders_app, !preorders_one, !preorder_eq, bare_set, (body_set b b' k Hb).
    rewrite (IH Hc n eq_refl (S d)). replace (body k) with b by (unfold body; now rewrite Hb).
    rewrite <- app_assoc. cbn [app]. do 4 f_equal. f_equal. lia.
Qed.
(** the last command of a walk taken away *)
Lemma items_last : forall sz cs d, (length (preorders d cs) <= sz)%nat -> cs <> [] ->
  exists cs0 n c, pushed cs0 c (S n) cs /\ bare c = c.
Proof.
  induction sz as [|sz IH]; intros cs d Hl Hn; destruct (last_opt_cases cs) as [[-> _]|(l & k & -> & _)]; try easy.
  - rewrite preorders_app, preorders_one, preorder_eq, app_length in Hl. cbn [length] in Hl. lia.
  - destruct (body k) as [|x b] eqn:Eb.
    + exists l, 0%nat, k. split; [constructor|now apply body_bare].
    + rewrite preorders_app, preorders_one, preorder_eq, app_length in Hl. cbn [length] in Hl.
      destruct (IH (body k) (S d)) as (b0 & n & c & H & Hc); [lia|congruence|].
      exists (l ++ [cmd_set_subs b0 k]), (S n), c. split; [|easy].
      destruct (subs_body k) as [Hs|[_ Hs]]; [|congruence].
      replace (l ++ [k]) with (l ++ [cmd_set_subs (body k) (cmd_set_subs b0 k)]) by now rewrite set_subs_twice, set_subs_body.
      apply pushed_inside with (b := b0); [|easy]. now apply set_subs_subs with (b := body k).
Qed.

(** ** events *)
Definition carries (e : event) : Prop :=
  match e with EComment _ | EBreak _ | EColourTransformation _ | EAudioSample _ => False | _ => True end.
Lemma commands_with cs e : carries e -> commands_of (with_commands cs e) = cs.
Proof. now destruct e as [|[]|[]| | |[]|[]|[]|[]|]. Qed.
Lemma with_twice a b e : with_commands a (with_commands b e) = with_commands a e.
Proof. now destruct e as [|[]|[]| | |[]|[]|[]|[]|]. Qed.
Lemma with_own e : with_commands (commands_of e) e = e.
Proof. now destruct e as [|[]|[]| | |[]|[]|[]|[]|]. Qed.
Lemma carries_with cs e : carries (with_commands cs e) <-> carries e.
Proof. now destruct e as [|[]|[]| | |[]|[]|[]|[]|]. Qed.
Lemma commands_carry e : commands_of e <> [] -> carries e.
Proof. now destruct e. Qed.
Lemma items_app a b : items (a ++ b) = items a ++ items b.
Proof. unfold items. now rewrite map_app, concat_app. Qed.
Lemma items_one e : items [e] = event_items e.
Proof. unfold items. cbn [map concat]. apply app_nil_r. Qed.
Definition gives {A E} (P : A -> Prop) (r : res A E) : Prop := forall a, r = ROk a -> P a.
Lemma gives_ok {A E} (P : A -> Prop) a : P a -> gives (E := E) P (ROk a).
Proof. intros H b K. now injection K as <-. Qed.
Lemma gives_err {A E} (P : A -> Prop) (e : E) : gives P (RErr e).
Proof. now intros a K. Qed.
Lemma gives_panic {A E} (P : A -> Prop) p : gives (E := E) P (RPanic p).
Proof. now intros a K. Qed.
Lemma gives_map {A B E} (P : B -> Prop) (f : A -> B) (r : res A E) : gives (fun a => P (f a)) r -> gives P (rmap f r).
Proof. intros H b K. destruct r; try easy. injection K as <-. now apply H. Qed.
Lemma gives_map_err {A E F} (P : A -> Prop) (f : E -> F) (r : res A E) : gives P r -> gives P (rmap_err f r).
Proof. intros H b K. destruct r; try easy. injection K as <-. now apply H. Qed.
Lemma gives_next {A B E X} (P : B -> Prop) (m i : E) (rd : str -> res A X) fs k :
  (forall a fs', gives P (k a fs')) -> gives P (next m i rd fs k).
Proof. intros H. unfold next. destruct fs as [|f fs]; [apply gives_err|]. destruct (rd f); [apply H|apply gives_err|apply gives_panic]. Qed.
Lemma gives_last {A B E X} (P : B -> Prop) (m i : E) (rd : str -> res A X) fs k :
  (forall a, gives P (k a)) -> gives P (last_field m i rd fs k).
Proof. intros H. unfold last_field. destruct fs as [|f fs]; [apply gives_err|]. destruct (rd (commas (f :: fs))); [apply H|apply gives_err|apply gives_panic]. Qed.
Lemma gives_then {A B E} (P : B -> Prop) (r : run A) (k : A -> res B E) : (forall a, gives P (k a)) -> gives P (andthen r k).
Proof. intros H. destruct r as [a|[]|p]; [apply H|apply gives_panic]. Qed.
Lemma gives_file {B E} (P : B -> Prop) (mf mx my : E) fs k :
  (forall f p, gives P (k f p)) -> gives P (file_pos mf mx my fs k).
Proof.
  intros H. unfold file_pos. apply gives_next. intros f fs'. destruct fs'; [apply H|].
  apply gives_next. intros x fs''. apply gives_last. intros y. apply H.
Qed.
Ltac gv := repeat first [apply gives_file; intros ? ?|apply gives_next; intros ? ?|apply gives_last; intros ?|apply gives_then; intros ?
  |apply gives_ok; reflexivity].
Lemma line_clean dbg v h fs e : ev_line dbg v h fs = ROk e -> with_commands [] e = e.
Proof.
  revert e. change (gives (fun e => with_commands [] e = e) (ev_line dbg v h fs)). unfold ev_line.
  assert (On : forall n (a b : res event ev_err), gives (fun e => with_commands [] e = e) a -> gives (fun e => with_commands [] e = e) b ->
    gives (fun e => with_commands [] e = e) (match strip_prefix (lit n) h with Some [] => a | Some _ => RPanic PUnwrap | None => b end)).
  { intros n a b Ha Hb. destruct (strip_prefix (lit n) h) as [[|c r]|]; [easy|apply gives_panic|easy]. }
  assert (Fr : forall A E n (rd : list str -> res A E) (mk : A -> event) (err : E -> ev_err) (b : res event ev_err),
    (forall fs, gives (fun a => with_commands [] (mk a) = mk a) (rd fs)) -> gives (fun e => with_commands [] e = e) b ->
    gives (fun e => with_commands [] e = e)
      (match strip_prefix (lit n) h with Some r => rmap_err err (rmap mk (rd (if is_empty r then fs else []))) | None => b end)).
  { intros A E n rd mk err b Ha Hb. destruct (strip_prefix (lit n) h) as [r|]; [|easy]. apply gives_map_err, gives_map, Ha. }
  repeat apply On; try (apply gives_map_err, gives_map).
  - unfold bg_line. gv.
  - unfold vid_line. gv.
  - unfold vid_line. gv.
  - unfold brk_line. gv.
  - unfold brk_line. gv.
  - unfold ctr_line. gv.
  - unfold leg_line. gv.
  - unfold leg_line. gv.
  - unfold sl_line. gv. match goal with |- gives _ (match ?l with _ => _ end) => destruct l end; gv.
  - apply Fr; [intros fs'; unfold sprite_line, ob_fields; gv|].
    apply Fr; [intros fs'; unfold animation_line, ob_fields; gv|].
    + match goal with |- gives _ (match ?l with _ => _ end) => destruct l end; [gv|].
      match goal with |- gives _ (match ?l with _ => _ end) => destruct l end; [gv|apply gives_panic|apply gives_panic].
    + apply Fr; [intros fs'; unfold au_line; gv|apply gives_err].
      match goal with |- gives _ (match ?l with _ => _ end) => destruct l end; gv.
Qed.
Lemma command_clean l c : rd_command l = ROk c -> bare c = c.
Proof. intros H. apply (cmd_image l). now rewrite cmd_reads, H. Qed.

(** ** one item more *)
Inductive step : list event -> item -> list event -> Prop :=
| st_event evs e : with_commands [] e = e -> step evs (ItEvent e) (evs ++ [e])
| st_command es e n c cs : carries e -> bare c = c -> pushed (commands_of e) c (S n) cs ->
    step (es ++ [e]) (ItCommand (S n) c) (es ++ [with_commands cs e]).
Lemma step_fun evs x a b : step evs x a -> step evs x b -> a = b.
Proof.
  intros H K. inversion H as [? ? ?|es e n c cs Hc Hb Hp]; subst; inversion K as [? ? ?|es' e' n' c' cs' Hc' Hb' Hp' Es]; subst; [easy|].
  apply app_inj_tail in Es as [-> ->]. now rewrite (pushed_fun _ _ _ _ _ Hp Hp').
Qed.
Lemma clean_commands e : with_commands [] e = e -> commands_of e = [].
Proof. destruct e as [|[]|[]| | |[]|[]|[]|[]|]; cbn; try easy; intros H; injection H; auto. Qed.
Lemma step_items evs x evs' : step evs x evs' -> items evs' = items evs ++ [x].
Proof.
  intros H. inversion H as [? e He|es e n c cs Hc Hb Hp]; subst.
  - rewrite items_app, items_one. unfold event_items. now rewrite (clean_commands e He), He.
  - rewrite !items_app, !items_one, <- app_assoc. f_equal. unfold event_items.
    rewrite with_twice, commands_with, (pushed_items _ _ _ _ Hp Hb 1), map_app by easy. easy.
Qed.
Lemma step_back evs' : evs' <> [] -> exists evs x, step evs x evs'.
Proof.
  intros H. destruct (last_opt_cases evs') as [[-> _]|(es & e & -> & _)]; [easy|].
  destruct (commands_of e) as [|k cs] eqn:E.
  - exists es, (ItEvent e). constructor. rewrite <- E. apply with_own.
  - destruct (items_last _ (commands_of e) 1 (le_n _)) as (cs0 & n & c & Hp & Hc); [congruence|].
    assert (Ce : carries e) by (apply commands_carry; congruence).
    exists (es ++ [with_commands cs0 e]), (ItCommand (S n) c).
    replace (es ++ [e]) with (es ++ [with_commands (commands_of e) (with_commands cs0 e)]) by now rewrite with_twice, with_own.
    constructor; [now apply carries_with|easy|]. now rewrite commands_with.
Qed.
Lemma items_nil evs : items evs = [] -> evs = [].
Proof. now destruct evs. Qed.
Lemma items_snoc evs' w x : items evs' = w ++ [x] -> exists evs, items evs = w /\ step evs x evs'.
Proof.
  intros H. destruct (step_back evs') as (evs & y & K); [intros ->; now destruct w|].
  pose proof (step_items _ _ _ K) as E. rewrite E in H. apply app_inj_tail in H as [<- <-]. eauto.
Qed.
Lemma items_inj a b : items a = items b -> a = b.
Proof.
  remember (items a) as w eqn:E. revert a b E. induction w as [|x w IH] using rev_ind; intros a b E K.
  - symmetry in E, K. apply items_nil in E, K. congruence.
  - symmetry in E, K. apply items_snoc in E as (a0 & Ea & Sa). apply items_snoc in K as (b0 & Eb & Sb).
    assert (a0 = b0) as -> by (apply IH; congruence). eapply step_fun; eassumption.
Qed.
Lemma items_prefix w2 : forall evs w1, items evs = w1 ++ w2 -> exists evs1, items evs1 = w1.
Proof.
  induction w2 as [|x w2 IH] using rev_ind; intros evs w1 H; [rewrite app_nil_r in H; eauto|].
  rewrite app_assoc in H. apply items_snoc in H as (evs0 & H & _). eauto.
Qed.
Lemma items_step evs x w evs' : items evs' = items evs ++ x :: w -> exists evs1, step evs x evs1 /\ items evs1 = items evs ++ [x].
Proof.
  change (x :: w) with ([x] ++ w). rewrite app_assoc. intros H. apply items_prefix in H as (evs1 & H).
  destruct (items_snoc _ _ _ H) as (evs0 & E & S). apply items_inj in E. subst evs0. eauto.
Qed.

(** ** lines *)
Section Lines.
  Variable dbg : bool.
  Variable v : version.
  Variable vs : list variable.
  Lemma takes_carries es e : takes_commands (es ++ [e]) <-> carries e.
  Proof.
    split.
    - intros (l & e' & H & K). apply app_inj_tail in H as [_ ->]. exact K.
    - intros H. now exists es, e.
  Qed.
  Lemma next_step evs l evs' : ev_next dbg v vs evs l (ROk evs') -> exists x, line_item dbg v vs l x /\ step evs x evs'.
  Proof.
    intros H. inversion H as [c Hc Hr|l0 h fs Hn Hd Hf Hl Hr| | |l0 q l' es e Hd Ht Hq Hv He Hl Hr]; subst.
    - exists (ItEvent (EComment c)). split; [constructor|now constructor].
    - destruct (ev_line dbg v h fs) as [e| |] eqn:E; try easy. injection Hr as <-.
      exists (ItEvent e). split; [now apply li_event with (h := h) (fs := fs)|]. constructor. eapply line_clean, E.
    - destruct (rd_command l') as [c| |] eqn:E; try easy. cbn [rmap_err rbind] in Hr.
      destruct (place (pred (depth l)) 1 (depth l) c (commands_of e)) as [cs| |] eqn:P; try easy.
      cbn [rmap_err rmap] in Hr. injection Hr as <-.
      exists (ItCommand (depth l) c). split; [now apply li_command with (q := q) (l' := l')|].
      destruct (depth l) as [|n] eqn:En; [easy|]. apply takes_carries in Ht.
      rewrite <- try_place in P by lia. apply try_push_iff in P.
      constructor; [easy|eapply command_clean, E|easy].
  Qed.
  Lemma step_next evs l x evs' : line_item dbg v vs l x -> step evs x evs' -> ev_next dbg v vs evs l (ROk evs').
  Proof.
    intros H K. inversion H as [c|l0 h fs e Hn Hd Hf Hl|l0 q l' c Hd Hq Hv Hc]; subst.
    - inversion K; subst. constructor.
    - inversion K; subst. change (ROk (evs ++ [e])) with (rmap (E := ev_err) (fun e => evs ++ [e]) (ROk e)). rewrite <- Hl.
      now apply next_event.
    - inversion K as [|es e n c' cs Hca Hb Hp]; subst.
      match goal with A : S n = depth l |- _ => rename A into En end.
      assert (P : place (pred (depth l)) 1 (depth l) c (commands_of e) = ROk cs).
      { rewrite <- try_place by lia. apply try_push_iff. now rewrite <- En. }
      replace (ROk (es ++ [with_commands cs e])) with
        (rbind (rmap_err EvCommand (rd_command l')) (fun c => rmap (fun cs => es ++ [with_commands cs e])
           (rmap_err EvPush (place (pred (depth l)) 1 (depth l) c (commands_of e))))) by (rewrite Hc; cbn [rmap_err rbind]; now rewrite P).
      apply next_command with (q := q); [easy|now apply takes_carries|easy|easy|easy].
  Qed.
  Lemma section_items ls : forall i evs evs', ev_section dbg v vs i evs ls (ROk evs') ->
    exists w, Forall2 (line_item dbg v vs) (filter (fun l => negb (is_blank l)) ls) w /\ items evs' = items evs ++ w.
  Proof.
    induction ls as [|l ls IH]; intros i evs evs' H.
    - inversion H; subst. exists []. split; [constructor|now rewrite app_nil_r].
    - inversion H as [|i0 e0 l0 ls0 r0 Hb H1 E1 E2 E3|i0 e0 l0 evs1 ls0 r0 Hb Hn H1 E1 E2 E3| |]; subst; cbn [filter]; rewrite Hb; cbn [negb].
      + now apply IH with (i := (i + 1)%Z).
      + apply next_step in Hn as (x & Hx & Hs). apply step_items in Hs.
        apply IH in H1 as (w & Hw & Ew). exists (x :: w). split; [now constructor|]. now rewrite Ew, Hs, <- app_assoc.
  Qed.
  Lemma items_section ls : forall i evs evs' w, Forall2 (line_item dbg v vs) (filter (fun l => negb (is_blank l)) ls) w ->
    items evs' = items evs ++ w -> ev_section dbg v vs i evs ls (ROk evs').
  Proof.
    induction ls as [|l ls IH]; intros i evs evs' w Hw E; cbn [filter] in Hw.
    - inversion Hw; subst. rewrite app_nil_r in E. apply items_inj in E as ->. constructor.
    - destruct (is_blank l) eqn:Hb; cbn [negb] in Hw; [apply sec_blank; [easy|now apply IH with (w := w)]|].
      inversion Hw as [|l0 x ls0 w' Hx Hw' E1 E2]; subst. destruct (items_step _ _ _ _ E) as (evs1 & Hs & E1).
      apply sec_line with (evs' := evs1); [easy|now apply step_next with (x := x)|].
      apply IH with (w := w'); [easy|]. now rewrite E1, <- app_assoc.
  Qed.
  Lemma lines_items s evs : events_from_str_vars dbg vs s v = ROk (Some evs) <->
    Forall2 (line_item dbg v vs) (full_lines s) (items evs).
  Proof.
    change (ROk (Some evs)) with (rmap (E := line_err ev_err) Some (ROk evs)). rewrite events_section_vars. split.
    - intros H. apply section_items in H as (w & Hw & E). cbn [app items map concat] in E. now rewrite E.
    - intros H. now apply items_section with (w := items evs).
  Qed.
End Lines.
Lemma lines_items0 dbg v s evs : events_from_str dbg s v = ROk (Some evs) <->
  Forall2 (line_item dbg v []) (full_lines s) (items evs).
Proof. apply lines_items. Qed.

(** ** counting *)
Lemma sum_app a b : list_sum (a ++ b) = (list_sum a + list_sum b)%nat.
Proof. induction a as [|x a IH]; [easy|]. cbn [app list_sum fold_right]. unfold list_sum in *. cbn. lia. Qed.
Lemma commands_in_eq c : commands_in c = S (list_sum (map commands_in (body c))).
Proof. now destruct c as [st []]. Qed.
Lemma preorder_length c : forall d, length (preorder d c) = commands_in c.
Proof.
  induction c as [c IH] using command_tree_ind. intros d. rewrite preorder_eq, commands_in_eq. cbn [length]. f_equal.
  induction (body c) as [|x b IHb]; [easy|]. rewrite preorders_cons, app_length. inversion IH; subst.
  cbn [map list_sum fold_right]. fold (list_sum (map commands_in b)). now rewrite IHb, H1.
Qed.
Lemma items_length evs : length (items evs) = list_sum (map event_weight evs).
Proof.
  induction evs as [|e evs IH]; [easy|]. change (items (e :: evs)) with (event_items e ++ items evs). rewrite app_length, IH.
  cbn [map list_sum fold_right]. fold (list_sum (map event_weight evs)). f_equal. unfold event_items, event_weight. cbn [length].
  f_equal. rewrite map_length. induction (commands_of e) as [|c cs IHc]; [easy|].
  rewrite preorders_cons, app_length, preorder_length, IHc. easy.
Qed.
Lemma forall2_length {A B} (P : A -> B -> Prop) a b : Forall2 P a b -> length a = length b.
Proof. induction 1; cbn; congruence. Qed.
Lemma lines_counted dbg vs s v evs : events_from_str_vars dbg vs s v = ROk (Some evs) ->
  list_sum (map event_weight evs) = length (full_lines s).
Proof. intros H. apply lines_items in H. apply forall2_length in H. now rewrite H, items_length. Qed.

(** ** the other lists *)
Lemma list_items {A E} (rd : str -> res A E) ls : forall i w, list_section rd i ls (ROk w) <->
  Forall2 (fun l x => rd l = ROk x) (filter (fun l => negb (is_blank l)) ls) w.
Proof.
  induction ls as [|l ls IH]; intros i w; cbn [filter].
  - split; intros H; inversion H; constructor.
  - destruct (is_blank l) eqn:Hb; cbn [negb].
    + rewrite <- (IH (i + 1)%Z). split; [intros H; inversion H; subst; congruence|intros H; now apply ls_blank].
    + split.
      * intros H. inversion H as [|? ? ? ? Hb' H1|i0 l0 a ls0 r Hb' Ha Hr E1 E2 E3| |]; subst; [congruence|].
        destruct r as [w'| |]; try easy. injection E3 as <-. constructor; [easy|]. now apply (IH (i + 1)%Z).
      * intros H. inversion H as [|l0 x ls0 w' Hx Hw E1 E2]; subst.
        change (ROk (x :: w')) with (rmap (E := line_err E) (cons x) (ROk w')). apply ls_line; [easy|easy|]. now apply IH.
Qed.
Lemma ok_some {A E} (a : A) : ROk (Some a) = rmap (E := E) Some (ROk a).
Proof. reflexivity. Qed.
Lemma colours_items s v l : old_version v = false -> (colours_from_str s v = ROk (Some l) <->
  Forall2 (fun line x => col_line line = ROk x) (full_lines s) l).
Proof. intros H. rewrite ok_some, (colours_section s v _ H). apply list_items. Qed.
Lemma timing_points_items s v l : timing_points_from_str s v = ROk (Some l) <->
  Forall2 (fun line x => tp_line v (pieces 44 line) = ROk x) (full_lines s) l.
Proof. rewrite ok_some, timing_points_section. apply list_items. Qed.
Lemma hit_objects_items s v l : hit_objects_from_str s v = ROk (Some l) <->
  Forall2 (fun line x => ho_line v (pieces 44 line) = ROk x) (full_lines s) l.
Proof. rewrite ok_some, hit_objects_section. apply list_items. Qed.
