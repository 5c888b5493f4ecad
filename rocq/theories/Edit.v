(** Edits are local (C62). *)
From Coq Require Import String List NArith ZArith Bool Lia.
From Verif Require Import Str Num Nom Dec Parsers KeyValue General Editor Metadata Difficulty Colours TimingPoints HitObjects Storyboard
  NormalEvents Events Osb OsuFile Spec SpecWf SpecText SpecKv SpecSections SpecKvRead SpecFile SpecTotal SpecEvents SpecEvLine SpecEvSection SpecParts SpecWrite SpecEdit
  StrFacts TpFacts EvPanic OldPanic EvRead EvSection KvRead Parts Write.
Import ListNotations.
Local Open Scope N_scope.

(** ** lists of lines *)
Definition moved_by {A E} (n : Z) (r : res A (line_err E)) : res A (line_err E) :=
  match r with RErr e => RErr (mk_line_err (n + le_line e) (le_err e)) | r => r end.
Lemma parse_moved {A E} (f : str -> res A E) n ls : forall i, parse_lines f (n + i) ls = moved_by n (parse_lines f i ls).
Proof.
  induction ls as [|l ls IH]; intros i; [easy|]. cbn [parse_lines].
  replace (n + i + 1)%Z with (n + (i + 1))%Z by lia. rewrite IH.
  destruct (is_blank l); [easy|]. destruct (f l); [|easy|easy]. now destruct (parse_lines f (i + 1) ls).
Qed.
Lemma parse_pieces {A B E} (f : str -> res A E) (g : list A -> list B) rd : (forall a b, g (a ++ b) = g a ++ g b) ->
  (forall s, rd s = rmap (fun l => Some (g l)) (parse_lines f 0 (lines s))) -> in_pieces rd.
Proof.
  intros Hg H s a b E0. rewrite !H, E0, parse_lines_app.
  replace (0 + Z.of_nat (length (lines a)))%Z with (rows a + 0)%Z by (unfold rows; lia). rewrite parse_moved.
  destruct (parse_lines f 0 (lines a)) as [x|e|p]; cbn [rbind rmap one_after]; [|easy|easy].
  destruct (parse_lines f 0 (lines b)) as [y|e|p]; cbn [moved_by rmap]; [|easy|easy]. now rewrite Hg.
Qed.
Lemma flatten_app {A} (a b : list (option A)) : flatten_opt (a ++ b) = flatten_opt a ++ flatten_opt b.
Proof. unfold flatten_opt. induction a as [|[x|] a IH]; cbn; [easy|now f_equal|easy]. Qed.
Lemma points_pieces v : in_pieces (fun s => timing_points_from_str s v).
Proof.
  apply (parse_pieces (tp_from_str v) flatten_opt); [apply flatten_app|]. intros s. rewrite timing_points_from_str_eq.
  now destruct (parse_lines _ _ _).
Qed.
Lemma objects_pieces v : in_pieces (fun s => hit_objects_from_str s v).
Proof. now apply (parse_pieces (fun l => v_unwrap (ho_from_str v l)) (fun l => l)). Qed.
Lemma colours_pieces v : in_pieces (fun s => colours_from_str s v).
Proof.
  unfold colours_from_str. destruct (old_version v); [now intros s a b _|].
  apply (parse_pieces (colour_from_str v) flatten_opt); [apply flatten_app|easy].
Qed.
Lemma variables_pieces : in_pieces (fun s => rmap Some (variables_from_str s)).
Proof. now apply (parse_pieces (fun l => v_unwrap (var_from_str l)) (fun l => l)). Qed.

Lemma rows_app s a b : lines s = lines a ++ lines b -> rows s = (rows a + rows b)%Z.
Proof. unfold rows. intros ->. rewrite app_length. lia. Qed.
(** a text of given lines *)
Lemma lines_rest s a b : lines s = a ++ b -> lines (crlf_text b) = b.
Proof. intros E. apply lines_crlf. pose proof (lines_no_nl s) as H. rewrite E, forallb_app in H. now apply andb_true_iff in H. Qed.
Lemma pieces_edit {A E} (rd : str -> res (option (list A)) (line_err E)) (opn : str -> Prop) :
  (forall s a b, lines s = lines a ++ lines b -> opn b -> rd s = one_after (rd a) (rows a) (rd b)) ->
  forall s s' a m m' b xs, (opn m -> opn b -> forall t, lines t = lines m ++ lines b -> opn t) ->
  (opn m' -> opn b -> forall t, lines t = lines m' ++ lines b -> opn t) -> opn m -> opn m' -> opn b ->
  rd s = ROk (Some xs) ->
  lines s = lines a ++ lines m ++ lines b -> lines s' = lines a ++ lines m' ++ lines b ->
  exists p y q, xs = p ++ y ++ q /\ rd a = ROk (Some p) /\ rd m = ROk (Some y) /\ rd b = ROk (Some q)
  /\ rd s' = match rd m' with
             | ROk (Some y') => ROk (Some (p ++ y' ++ q))
             | ROk None => ROk None
             | RErr e => RErr (mk_line_err (rows a + le_line e) (le_err e))
             | RPanic i => RPanic i
             end.
Proof.
  intros H s s' a m m' b xs Hm Hm' Om Om' Ob Hs Es Es'.
  assert (L : lines (crlf_text (lines m ++ lines b)) = lines m ++ lines b) by (eapply lines_rest; exact Es).
  assert (L' : lines (crlf_text (lines m' ++ lines b)) = lines m' ++ lines b) by (eapply lines_rest; exact Es').
  rewrite (H s a (crlf_text (lines m ++ lines b))), (H (crlf_text (lines m ++ lines b)) m b) in Hs; [|exact L|exact Ob|now rewrite L|now apply Hm].
  rewrite (H s' a (crlf_text (lines m' ++ lines b))), (H (crlf_text (lines m' ++ lines b)) m' b); [|exact L'|exact Ob|now rewrite L'|now apply Hm'].
  destruct (rd a) as [[p|]|e|i]; cbn [one_after] in Hs; [|now destruct (rd m) as [[]| |], (rd b) as [[]| |]| |]; [|easy|easy].
  destruct (rd m) as [[y|]|e|i]; cbn [one_after] in Hs; [|now destruct (rd b) as [[]| |]|easy|easy].
  destruct (rd b) as [[q|]|e|i]; cbn [one_after] in Hs; try easy. injection Hs as <-.
  exists p, y, q. do 4 (split; [easy|]). now destruct (rd m') as [[y'|]|e|i].
Qed.
Lemma in_pieces_edit {A E} (rd : str -> res (option (list A)) (line_err E)) : in_pieces rd -> edits_lines rd.
Proof.
  intros H s s' a m m' b xs Hs. apply (pieces_edit rd (fun _ => True)); try easy. intros s0 a0 b0 E0 _. now apply H.
Qed.

(** ** events *)
Lemma last_opt_app {A} (a b : list A) : b <> [] -> last_opt (a ++ b) = last_opt b.
Proof.
  destruct (rev b) as [|x r] eqn:E; [intros H; elim H; now rewrite <- (rev_involutive b), E|].
  intros _. unfold last_opt. rewrite rev_app_distr, E. easy.
Qed.
Lemma set_last_app {A} (f : A -> A) (a b : list A) : b <> [] -> set_last f (a ++ b) = a ++ set_last f b.
Proof.
  intros H. induction a as [|x a IH]; [easy|]. cbn [app set_last]. rewrite IH. destruct (a ++ b) eqn:E; [|easy].
  destruct a; [now elim H|discriminate].
Qed.
Lemma step_app dbg v vs xs evs l : evs <> [] \/ depth l = 0%nat ->
  ev_step dbg v vs (xs ++ evs) l = rmap (app xs) (ev_step dbg v vs evs l).
Proof.
  intros H. unfold ev_step. destruct (strip_prefix (lit "//") l); [cbn [rmap]; now rewrite app_assoc|].
  rewrite depth_indent. destruct (Nat.ltb_spec 0 (depth l)) as [Hd|Hd].
  - assert (Hn : evs <> []) by (destruct H; [easy|lia]). rewrite last_opt_app by easy.
    destruct (last_opt evs) as [e|]; [|easy]. destruct (ev_cmds e) as [cs|]; [|easy].
    destruct (rmap_err EvCommand (cmd_parse vs l)) as [[c|]| |]; cbn [rbind]; [|easy|easy|easy].
    destruct (rmap_err EvPush (try_push_cmd cs c (depth l))); cbn [rmap]; [|easy|easy]. now rewrite set_last_app.
  - destruct (ev_from_line dbg v l) as [[e|]| |]; cbn [rmap]; [now rewrite app_assoc|easy|easy|easy].
Qed.
Lemma step_grows dbg v vs evs l evs' : is_blank l = false -> evs <> [] \/ depth l = 0%nat -> ev_step dbg v vs evs l = ROk evs' -> evs' <> [].
Proof.
  intros Hb H Hs ->. apply next_is in Hs; [|easy]. inversion Hs; subst.
  - now destruct evs.
  - match goal with K : rmap _ (ev_line _ _ _ _) = _ |- _ => destruct (ev_line dbg v h fs); cbn in K; try easy; injection K as K end. now destruct evs.
  - match goal with K : rbind _ _ = _ |- _ => destruct (rmap_err EvCommand (rd_command l')); cbn in K; try easy;
      destruct (rmap_err EvPush _); cbn in K; try easy; injection K as K end. now destruct es.
Qed.
Definition open_lines (ls : list str) : Prop := forall a l b, ls = a ++ l :: b -> forallb is_blank a = true -> is_blank l = false -> depth l = 0%nat.
Lemma loop_prefix dbg v vs ls : forall i xs evs, evs <> [] \/ open_lines ls ->
  ev_loop dbg v vs i (xs ++ evs) ls = rmap (app xs) (ev_loop dbg v vs i evs ls).
Proof.
  induction ls as [|l ls IH]; intros i xs evs H; [easy|]. cbn [ev_loop]. destruct (is_blank l) eqn:Eb.
  - apply IH. destruct H as [H|H]; [now left|right]. intros a x b E Ha Hx. apply (H (l :: a) x b); [now rewrite E|cbn; now rewrite Eb|easy].
  - assert (K : evs <> [] \/ depth l = 0%nat) by (destruct H as [H|H]; [now left|right; now apply (H [] l ls)]).
    rewrite step_app by easy. destruct (ev_step dbg v vs evs l) as [evs'| |] eqn:Es; cbn [rmap]; [|easy|easy].
    apply IH. left. eapply step_grows; eassumption.
Qed.
Lemma ev_moved dbg v vs n ls : forall i evs, ev_loop dbg v vs (n + i) evs ls = moved_by n (ev_loop dbg v vs i evs ls).
Proof.
  induction ls as [|l ls IH]; intros i evs; [easy|]. cbn [ev_loop].
  replace (n + i + 1)%Z with (n + (i + 1))%Z by lia. rewrite IH.
  destruct (is_blank l); [easy|]. destruct (ev_step dbg v vs evs l); [apply IH|easy|easy].
Qed.
Lemma events_pieces dbg vs v s a b : lines s = lines a ++ lines b -> opens b ->
  events_from_str_vars dbg vs s v = one_after (events_from_str_vars dbg vs a v) (rows a) (events_from_str_vars dbg vs b v).
Proof.
  intros E Ho. unfold events_from_str_vars. rewrite E, loop_app.
  destruct (ev_loop dbg v vs 0 [] (lines a)) as [x|e|p]; cbn [rmap one_after]; [|easy|easy].
  replace (0 + Z.of_nat (length (lines a)))%Z with (rows a + 0)%Z by (unfold rows; lia). rewrite ev_moved.
  rewrite <- (app_nil_r x) at 1. rewrite (loop_prefix dbg v vs (lines b) 0 x []) by now right.
  now destruct (ev_loop dbg v vs 0 [] (lines b)) as [y|e|p].
Qed.
Lemma opens_after m b t : opens m -> opens b -> lines t = lines m ++ lines b -> opens t.
Proof.
  intros Hm Hb E a l c H Ha Hl. rewrite E in H. destruct (app_eq_app _ _ _ _ H) as (d & [[E1 E2]|[E1 E2]]).
  - destruct d as [|x d].
    + cbn in E2. eapply (Hb [] l c); [now symmetry|easy|easy].
    + injection E2 as -> E2. eapply (Hm a x d); easy.
  - rewrite E1, forallb_app in Ha. apply andb_true_iff in Ha as [_ Ha]. eapply (Hb d l c); easy.
Qed.
Lemma events_edit dbg vs v : forall s s' a m m' b xs, opens m -> opens m' -> opens b ->
  events_from_str_vars dbg vs s v = ROk (Some xs) ->
  lines s = lines a ++ lines m ++ lines b -> lines s' = lines a ++ lines m' ++ lines b ->
  exists p y q, xs = p ++ y ++ q /\ events_from_str_vars dbg vs a v = ROk (Some p) /\ events_from_str_vars dbg vs m v = ROk (Some y)
  /\ events_from_str_vars dbg vs b v = ROk (Some q)
  /\ events_from_str_vars dbg vs s' v
     = match events_from_str_vars dbg vs m' v with
       | ROk (Some y') => ROk (Some (p ++ y' ++ q))
       | ROk None => ROk None
       | RErr e => RErr (mk_line_err (rows a + le_line e) (le_err e))
       | RPanic i => RPanic i
       end.
Proof.
  intros s s' a m m' b xs Hm Hm' Hb. apply (pieces_edit (fun s => events_from_str_vars dbg vs s v) opens); try easy.
  - intros. now apply events_pieces.
  - intros. now apply (opens_after m b).
  - intros. now apply (opens_after m' b).
Qed.

(** ** keys *)
Lemma nodup_split {A} (a b : list A) : NoDup (a ++ b) -> NoDup a /\ NoDup b /\ forall k, In k a -> ~ In k b.
Proof.
  induction a as [|x a IH]; cbn [app]; intros H; [split; [constructor|easy]|]. inversion_clear H as [|? ? H1 H2].
  apply IH in H2 as (H2 & H3 & H4). split; [constructor; [|easy]; intros K; apply H1; apply in_or_app; now left|]. split; [easy|].
  intros k [<- |K]; [intros L; apply H1; apply in_or_app; now right|now apply H4].
Qed.
Section Put.
  Context {A E : Type}.
  Variable table : list (string * (str -> res unit E)).
  Variables unknown dup colon : E.
  Variable build : (str -> option str) -> A.
  Variable rd : str -> res (option A) (line_err E).
  Variable put : str -> option str -> A -> A.
  Hypothesis rd_ok : forall es t, entries_ok es = true -> rest_after es t = true ->
    rd (kv_text es ++ t) = rmap Some (kv_reads table unknown dup colon build es t).
  Hypothesis put_ok : forall get get' k val, get' k = val -> (forall j, j <> k -> get' j = get j) -> build get' = put k val (build get).
  Notation good := (reader_of unknown table).
  Notation bad := (first_bad table unknown dup).
  Lemma existsb_in k l : existsb (str_eqb k) l = true <-> In k l.
  Proof.
    rewrite existsb_exists. split; [intros (x & H & K); apply str_eqb_eq in K; now subst|].
    intros H. exists k. split; [easy|now apply str_eqb_eq].
  Qed.
  Lemma bad_none es : forall i before, bad i before es = ROk tt <->
    Forall (fun e => good (entry_key e) (entry_value e) = ROk tt) es /\ NoDup (map entry_key es) /\ forall k, In k (map entry_key es) -> ~ In k before.
  Proof.
    induction es as [|e es IH]; intros i before; cbn [first_bad map].
    - split; [|easy]. intros _. split; [constructor|split; [constructor|easy]].
    - destruct (existsb (str_eqb (entry_key e)) before) eqn:Eb.
      + apply existsb_in in Eb. split; [easy|]. intros (_ & _ & H). elim (H (entry_key e)); [now left|easy].
      + assert (Nb : ~ In (entry_key e) before) by (rewrite <- existsb_in; congruence).
        destruct (good (entry_key e) (entry_value e)) as [[]| |] eqn:Er; [|split; [easy|intros (H & _); inversion H; congruence]|split; [easy|intros (H & _); inversion H; congruence]].
        rewrite IH. split.
        * intros (H1 & H2 & H3). split; [now constructor|]. split; [constructor; [|easy]; intros K; apply (H3 _ K); now left|].
          intros k [<- |Hk]; [easy|]. intros K. apply (H3 _ Hk). now right.
        * intros (H1 & H2 & H3). inversion_clear H1. inversion_clear H2. split; [easy|]. split; [easy|].
          intros k Hk [<- |K]; [easy|]. apply (H3 k); [now right|easy].
  Qed.
  Lemma bad_app a b : forall i before, bad i before a = ROk tt ->
    bad i before (a ++ b) = bad (i + entry_rows a)%Z (rev (map entry_key a) ++ before) b.
  Proof.
    induction a as [|e a IH]; intros i before H; cbn [app first_bad map rev] in *; [f_equal; unfold entry_rows; cbn; lia|].
    destruct (existsb _ before); [easy|]. destruct (good _ _) as [[]| |]; [|easy|easy]. rewrite IH by easy.
    rewrite <- app_assoc. cbn [app]. f_equal. unfold entry_rows. cbn [map fold_right]. lia.
  Qed.
  Lemma value_skip a b e k : entry_key e <> k -> value_of (a ++ e :: b) k = value_of (a ++ b) k.
  Proof.
    intros H. unfold value_of. f_equal. induction a as [|x a IH]; cbn [app find].
    - destruct (str_eqb k (entry_key e)) eqn:K; [apply str_eqb_eq in K; congruence|easy].
    - destruct (str_eqb k (entry_key x)); [easy|apply IH].
  Qed.
  Lemma value_none es k : ~ In k (map entry_key es) -> value_of es k = None.
  Proof.
    intros H. unfold value_of. destruct (find _ es) as [x|] eqn:F; [|easy]. apply find_some in F as [F1 F2]. apply str_eqb_eq in F2.
    elim H. rewrite F2. now apply in_map.
  Qed.
  Lemma value_here a b e : ~ In (entry_key e) (map entry_key a) -> value_of (a ++ e :: b) (entry_key e) = Some (entry_value e).
  Proof.
    unfold value_of. induction a as [|x a IH]; cbn [app find map In]; intros H.
    - assert (K : str_eqb (entry_key e) (entry_key e) = true) by now apply str_eqb_eq. now rewrite K.
    - destruct (str_eqb (entry_key e) (entry_key x)) eqn:K; [apply str_eqb_eq in K; elim H; left; congruence|]. apply IH. tauto.
  Qed.
  Lemma reads_ok es t g : fits_after es t -> rd (kv_text es ++ t) = ROk (Some g) -> bad 0 [] es = ROk tt /\ g = build (value_of es).
  Proof.
    intros (H1 & H2 & H3) H. rewrite rd_ok in H by easy. unfold kv_reads in H. rewrite H3 in H.
    destruct (bad 0 [] es) as [[]| |]; cbn in H; try easy. now injection H as <-.
  Qed.
  Lemma reads_are es t : fits_after es t -> rd (kv_text es ++ t) = rmap (fun _ => Some (build (value_of es))) (bad 0 [] es).
  Proof. intros (H1 & H2 & H3). rewrite rd_ok by easy. unfold kv_reads. rewrite H3. now destruct (bad 0 [] es). Qed.
  Lemma keys_edit : edits_keys rd put good.
  Proof.
    intros a b e old t t' g Hr Hf Hf' Ho. apply reads_ok in Hr as [Hb ->]; [|easy]. rewrite reads_are by easy.
    assert (Hn : ~ In (entry_key e) (map entry_key (a ++ b)) /\ bad 0 [] (a ++ b) = ROk tt /\ forall k, k <> entry_key e -> value_of (a ++ old ++ b) k = value_of (a ++ b) k).
    { destruct Ho as [[-> Hn]|(o & -> & Eo)]; [easy|]. cbn [app] in *. apply bad_none in Hb as (H1 & H2 & H3).
      rewrite map_app in H2. cbn [map] in H2. pose proof (NoDup_remove_2 _ _ _ H2) as H4. pose proof (NoDup_remove_1 _ _ _ H2) as H5. rewrite <- map_app in H4, H5. split; [congruence|]. split.
      - apply bad_none. apply Forall_app in H1 as [H1 H6]. inversion_clear H6. split; [now apply Forall_app|]. split; [easy|easy].
      - intros k Hk. apply value_skip. congruence. }
    destruct Hn as (Hn & Hab & Hv). clear Ho Hb Hf.
    pose proof Hab as H. apply bad_none in H as (H1 & H2 & H3). apply Forall_app in H1 as [Ha Hb].
    assert (Da : bad 0 [] a = ROk tt) by (apply bad_none; split; [easy|]; split; [rewrite map_app in H2; now apply nodup_split in H2|easy]).
    rewrite (bad_app a (e :: b) 0 []) by easy. cbn [first_bad].
    assert (Na : existsb (str_eqb (entry_key e)) (rev (map entry_key a) ++ []) = false).
    { destruct (existsb _ _) eqn:K; [|easy]. apply existsb_in in K. rewrite app_nil_r, <- in_rev in K. elim Hn. rewrite map_app. apply in_or_app. now left. }
    rewrite Na. destruct (good (entry_key e) (entry_value e)) as [[]| |] eqn:G; [|cbn [rmap]; do 3 f_equal; lia|easy].
    match goal with |- rmap _ (bad ?i ?l b) = _ => assert (K : bad i l b = ROk tt) end.
    { apply bad_none. split; [easy|]. rewrite map_app in H2, Hn. split; [now apply nodup_split in H2|]. intros k Hk K.
      destruct K as [<- |K]; [elim Hn; apply in_or_app; now right|]. apply in_app_or in K as [K|[]]. apply in_rev in K.
      apply nodup_split in H2 as (_ & _ & H2). now apply (H2 k). }
    rewrite K. cbn [rmap]. do 2 f_equal. apply put_ok.
    - apply value_here. intros Hx. apply Hn. rewrite map_app. apply in_or_app. now left.
    - intros k Hk. rewrite value_skip by congruence. now rewrite Hv.
  Qed.
  Lemma keys_drop : drops_keys rd put.
  Proof.
    intros a b e t t' g Hr Hf Hf'. apply reads_ok in Hr as [Hb ->]; [|easy]. rewrite reads_are by easy.
    apply bad_none in Hb as (H1 & H2 & H3). rewrite map_app in H2. cbn [map] in H2.
    pose proof (NoDup_remove_2 _ _ _ H2) as H4. pose proof (NoDup_remove_1 _ _ _ H2) as H5. rewrite <- map_app in H4, H5.
    assert (K : bad 0 [] (a ++ b) = ROk tt).
    { apply bad_none. apply Forall_app in H1 as [H1 H6]. inversion_clear H6. split; [now apply Forall_app|]. now split. }
    rewrite K. cbn [rmap]. do 2 f_equal. apply put_ok; [now apply value_none|]. intros k Hk. symmetry. apply value_skip. congruence.
  Qed.
End Put.
Lemma of_key_put {A E} get get' k val name (rd : str -> res (option A) E) : get' k = val -> (forall j, j <> k -> get' j = get j) ->
  of_key get' name rd = read_into k val name rd (of_key get name rd).
Proof.
  intros H1 H2. unfold of_key, read_into. destruct (str_eqb k (lit name)) eqn:K; [apply str_eqb_eq in K; rewrite <- K, H1; now destruct val|].
  rewrite H2; [easy|]. apply str_eqb_neq in K. congruence.
Qed.
Lemma general_put_ok v get get' k val : get' k = val -> (forall j, j <> k -> get' j = get j) -> general_of v get' = general_put v k val (general_of v get).
Proof. intros H1 H2. unfold general_of, general_put. cbv zeta. rewrite !(fun A E name (rd : str -> res (option A) E) => of_key_put get get' k val name rd H1 H2). reflexivity. Qed.
Lemma editor_put_ok get get' k val : get' k = val -> (forall j, j <> k -> get' j = get j) -> editor_of get' = editor_put k val (editor_of get).
Proof. intros H1 H2. unfold editor_of, editor_put. cbv zeta. rewrite !(fun A E name (rd : str -> res (option A) E) => of_key_put get get' k val name rd H1 H2). reflexivity. Qed.
Lemma metadata_put_ok get get' k val : get' k = val -> (forall j, j <> k -> get' j = get j) -> metadata_of get' = metadata_put k val (metadata_of get).
Proof. intros H1 H2. unfold metadata_of, metadata_put. cbv zeta. rewrite !(fun A E name (rd : str -> res (option A) E) => of_key_put get get' k val name rd H1 H2). reflexivity. Qed.
Lemma difficulty_put_ok get get' k val : get' k = val -> (forall j, j <> k -> get' j = get j) -> difficulty_of get' = difficulty_put k val (difficulty_of get).
Proof. intros H1 H2. unfold difficulty_of, difficulty_put. cbv zeta. rewrite !(fun A E name (rd : str -> res (option A) E) => of_key_put get get' k val name rd H1 H2). reflexivity. Qed.

Lemma general_edit v : edits_keys (fun s => general_from_str s v) (general_put v) (reader_of GenKey (general_table v))
  /\ drops_keys (fun s => general_from_str s v) (general_put v).
Proof.
  split; [eapply keys_edit with (dup := GenDup)|eapply keys_drop with (dup := GenDup)]; try exact (general_put_ok v); intros es t H1 H2; exact (general_reads_eq es t v H1 H2).
Qed.
Lemma editor_edit v : edits_keys (fun s => editor_from_str s v) editor_put (reader_of EdKey editor_table)
  /\ drops_keys (fun s => editor_from_str s v) editor_put.
Proof.
  split; [eapply keys_edit with (dup := EdDup)|eapply keys_drop with (dup := EdDup)]; try exact editor_put_ok; intros es t H1 H2; exact (editor_reads_eq es t v H1 H2).
Qed.
Lemma metadata_edit v : edits_keys (fun s => metadata_from_str s v) metadata_put (reader_of MdKey metadata_table)
  /\ drops_keys (fun s => metadata_from_str s v) metadata_put.
Proof.
  split; [eapply keys_edit with (dup := MdDup)|eapply keys_drop with (dup := MdDup)]; try exact metadata_put_ok; intros es t H1 H2; exact (metadata_reads_eq es t v H1 H2).
Qed.
Lemma difficulty_edit v : edits_keys (fun s => difficulty_from_str s v) difficulty_put (reader_of DfKey difficulty_table)
  /\ drops_keys (fun s => difficulty_from_str s v) difficulty_put.
Proof.
  split; [eapply keys_edit with (dup := DfDup)|eapply keys_drop with (dup := DfDup)]; try exact difficulty_put_ok; intros es t H1 H2; exact (difficulty_reads_eq es t v H1 H2).
Qed.

(** ** sections *)
Section Chunks.
  Context {E : Type}.
  Variable table : list (string * (str -> res unit (line_err E))).
  Variables dup unknown : E.
  Variable checks : bool.
  Notation bad := (first_bad_section table dup unknown checks).
  Definition good_chunk (x : chunk) : Prop := exists rd, named table x = Some rd /\ rd (ch_body x) = ROk tt /\ checks && is_empty (ch_body x) = false.
  Lemma seen_in x l : seen x l = true <-> In (ch_name x) l.
  Proof. apply existsb_in. Qed.
  Lemma sections_none cs : forall n before, bad n before cs = ROk tt <->
    Forall good_chunk cs /\ NoDup (map ch_name cs) /\ forall k, In k (map ch_name cs) -> ~ In k before.
  Proof.
    induction cs as [|x cs IH]; intros n before; cbn [first_bad_section map].
    - split; [|easy]. intros _. split; [constructor|split; [constructor|easy]].
    - destruct (seen x before) eqn:Eb.
      + apply seen_in in Eb. split; [easy|]. intros (_ & _ & H). elim (H (ch_name x)); [now left|easy].
      + assert (Nb : ~ In (ch_name x) before) by (rewrite <- seen_in; congruence).
        assert (Nx : ~ good_chunk x -> ~ (Forall good_chunk (x :: cs) /\ NoDup (ch_name x :: map ch_name cs) /\ forall k, In k (ch_name x :: map ch_name cs) -> ~ In k before))
          by (intros K (L & _); inversion L; easy).
        destruct (named table x) as [rd|] eqn:Er; [|split; [easy|intros H; elim Nx; [intros (rd & K & _); congruence|easy]]].
        destruct (rd (ch_body x)) as [[]| |] eqn:Ed; [|split; [easy|intros H; elim Nx; [intros (r & K & L & _); congruence|easy]]|split; [easy|intros H; elim Nx; [intros (r & K & L & _); congruence|easy]]].
        destruct (checks && is_empty (ch_body x)) eqn:Ec; [split; [easy|intros H; elim Nx; [intros (r & K & L & M); congruence|easy]]|].
        rewrite IH. split.
        * intros (H1 & H2 & H3). split; [constructor; [now exists rd|easy]|]. split; [constructor; [|easy]; intros K; apply (H3 _ K); now left|].
          intros k [<- |Hk]; [easy|]. intros K. apply (H3 _ Hk). now right.
        * intros (H1 & H2 & H3). inversion_clear H1. inversion_clear H2. split; [easy|]. split; [easy|].
          intros k Hk [<- |K]; [easy|]. apply (H3 k); [now right|easy].
  Qed.
  Lemma sections_app a b : forall n before, bad n before a = ROk tt ->
    bad n before (a ++ b) = bad (n + chunks_rows a)%Z (rev (map ch_name a) ++ before) b.
  Proof.
    induction a as [|x a IH]; intros n before H; cbn [app first_bad_section map rev] in *; [f_equal; unfold chunks_rows; cbn; lia|].
    destruct (seen x before); [easy|]. destruct (named table x) as [rd|]; [|easy]. destruct (rd (ch_body x)) as [[]| |]; [|easy|easy].
    destruct (checks && _); [easy|]. rewrite IH by easy.
    rewrite <- app_assoc. cbn [app]. f_equal. unfold chunks_rows. cbn [map fold_right]. lia.
  Qed.
  Lemma sections_put a b x n : bad 0 [] (a ++ b) = ROk tt -> ~ In (ch_name x) (map ch_name (a ++ b)) ->
    bad n [] (a ++ x :: b)
    = match named table x with
      | None => RErr (mk_line_err (n + chunks_rows a) unknown)
      | Some rd => match rd (ch_body x) with
                   | ROk _ => if checks && is_empty (ch_body x) then RPanic POverflow else ROk tt
                   | RErr e => RErr (mk_line_err (n + chunks_rows a + rows (ch_space x) + le_line e) (le_err e))
                   | RPanic p => RPanic p
                   end
      end.
  Proof.
    intros H Hn. apply sections_none in H as (H1 & H2 & _). apply Forall_app in H1 as [Ha Hb]. rewrite map_app in H2, Hn. apply nodup_split in H2 as (Na & Nb & Nd).
    rewrite (sections_app a (x :: b) n []) by now apply sections_none. cbn [first_bad_section].
    assert (Sx : seen x (rev (map ch_name a) ++ []) = false).
    { destruct (seen _ _) eqn:K; [|easy]. apply seen_in in K. rewrite app_nil_r, <- in_rev in K. elim Hn. apply in_or_app. now left. }
    rewrite Sx. destruct (named table x) as [rd|]; [|easy]. destruct (rd (ch_body x)); [|easy|easy]. destruct (checks && _); [easy|].
    apply sections_none. split; [easy|]. split; [easy|]. intros k Hk [<- |K]; [elim Hn; apply in_or_app; now right|].
    rewrite app_nil_r, <- in_rev in K. now apply (Nd k).
  Qed.
End Chunks.
Lemma section_skip {A E} a b x k (rd : str -> res (option A) E) : ch_name x <> lit k -> section_of (a ++ x :: b) k rd = section_of (a ++ b) k rd.
Proof.
  intros H. unfold section_of. induction a as [|y a IH]; cbn [app find].
  - destruct (str_eqb (ch_name x) (lit k)) eqn:K; [apply str_eqb_eq in K; congruence|easy].
  - destruct (str_eqb (ch_name y) (lit k)); [easy|apply IH].
Qed.
Lemma section_here {A E} a b x k (rd : str -> res (option A) E) : ~ In (ch_name x) (map ch_name a) -> ch_name x = lit k ->
  section_of (a ++ x :: b) k rd = match rd (ch_body x) with ROk z => z | _ => None end.
Proof.
  intros Hn Hk. unfold section_of. induction a as [|y a IH]; cbn [app find].
  - apply str_eqb_eq in Hk. now rewrite Hk.
  - cbn [map In] in Hn. destruct (str_eqb (ch_name y) (lit k)) eqn:K; [apply str_eqb_eq in K; elim Hn; left; congruence|apply IH; tauto].
Qed.
Definition replaces (a old : list chunk) (x : chunk) (b : list chunk) : Prop :=
  old = [] /\ ~ In (ch_name x) (map ch_name (a ++ b)) \/ exists o, old = [o] /\ ch_name o = ch_name x.
Lemma section_put {A E} a old x b k (rd : str -> res (option A) E) : ~ In (ch_name x) (map ch_name a) -> replaces a old x b ->
  section_of (a ++ x :: b) k rd = read_into (ch_name x) (Some (ch_body x)) k rd (section_of (a ++ old ++ b) k rd).
Proof.
  intros Hn Ho. unfold read_into. destruct (str_eqb (ch_name x) (lit k)) eqn:K.
  - apply str_eqb_eq in K. now apply section_here.
  - apply str_eqb_neq in K. rewrite section_skip by easy. destruct Ho as [[-> _]|(o & -> & Eo)]; [easy|]. cbn [app]. rewrite section_skip by congruence. easy.
Qed.
Lemma section_drop {A E} a x b k (rd : str -> res (option A) E) : ~ In (ch_name x) (map ch_name (a ++ b)) ->
  section_of (a ++ b) k rd = read_into (ch_name x) None k rd (section_of (a ++ x :: b) k rd).
Proof.
  intros Hn. unfold read_into. destruct (str_eqb (ch_name x) (lit k)) eqn:K.
  - apply str_eqb_eq in K. apply section_of_none. intros y Hy Ey. apply Hn. rewrite K, <- Ey. now apply in_map.
  - apply str_eqb_neq in K. now rewrite section_skip.
Qed.
Lemma osu_of_put dbg v a old x b : ~ In (ch_name x) (map ch_name a) -> replaces a old x b ->
  osu_of dbg v (a ++ x :: b) = put_section dbg v (ch_name x) (Some (ch_body x)) (osu_of dbg v (a ++ old ++ b)).
Proof.
  intros Hn Ho. unfold osu_of, put_section. rewrite !(fun A E k (rd : str -> res (option A) E) => section_put a old x b k rd Hn Ho). reflexivity.
Qed.
Lemma osu_of_drop dbg v a x b : ~ In (ch_name x) (map ch_name (a ++ b)) ->
  osu_of dbg v (a ++ b) = put_section dbg v (ch_name x) None (osu_of dbg v (a ++ x :: b)).
Proof.
  intros Hn. unfold osu_of, put_section. rewrite !(fun A E k (rd : str -> res (option A) E) => section_drop a x b k rd Hn). reflexivity.
Qed.
Lemma without {E} table (dup unknown : E) checks a old x b n : first_bad_section table dup unknown checks n [] (a ++ old ++ b) = ROk tt -> replaces a old x b ->
  first_bad_section table dup unknown checks 0 [] (a ++ b) = ROk tt /\ ~ In (ch_name x) (map ch_name (a ++ b)).
Proof.
  intros H Ho. apply sections_none in H as (H1 & H2 & _). destruct Ho as [[-> Hn]|(o & -> & Eo)]; [split; [now apply sections_none|easy]|].
  cbn [app] in *. rewrite map_app in H2. cbn [map] in H2. pose proof (NoDup_remove_2 _ _ _ H2) as H4. pose proof (NoDup_remove_1 _ _ _ H2) as H5. rewrite <- map_app in H4, H5.
  split; [|congruence]. apply sections_none. apply Forall_app in H1 as [H1 H6]. inversion_clear H6. split; [now apply Forall_app|]. now split.
Qed.
Lemma osu_read_inv dbg s v n cs f : osu_parts s v n cs -> osu_from_str dbg s = ROk f ->
  first_bad_section (osu_table dbg v) OsuDuplicateSections OsuUnknownSection dbg n [] cs = ROk tt /\ f = osu_of dbg v cs.
Proof.
  intros Hp H. rewrite (osu_parts_read dbg s v n cs Hp) in H. unfold osu_reads in H.
  destruct (first_bad_section _ _ _ _ _ _ _) as [[]| |]; cbn in H; try easy. now injection H as <-.
Qed.
Lemma file_put dbg s s' v n n' a old x b f : osu_parts s v n (a ++ old ++ b) -> osu_from_str dbg s = ROk f -> osu_parts s' v n' (a ++ x :: b) ->
  old = [] /\ ~ In (ch_name x) (map ch_name (a ++ b)) \/ (exists o, old = [o] /\ ch_name o = ch_name x) ->
  osu_from_str dbg s'
  = match named (osu_table dbg v) x with
    | None => RErr (mk_line_err (n' + chunks_rows a) OsuUnknownSection)
    | Some rd => match rd (ch_body x) with
                 | ROk _ => if dbg && is_empty (ch_body x) then RPanic POverflow
                            else ROk (put_section dbg v (ch_name x) (Some (ch_body x)) f)
                 | RErr e => RErr (mk_line_err (n' + chunks_rows a + rows (ch_space x) + le_line e) (le_err e))
                 | RPanic p => RPanic p
                 end
    end.
Proof.
  intros Hp Hr Hp' Ho. destruct (osu_read_inv dbg s v n _ f Hp Hr) as [Hb ->].
  destruct (without _ _ _ _ a old x b n Hb Ho) as [H1 H2].
  rewrite (osu_parts_read dbg s' v n' _ Hp'). unfold osu_reads. rewrite sections_put by easy.
  destruct (named (osu_table dbg v) x) as [rd|]; [|easy]. destruct (rd (ch_body x)) as [[]| |]; [|easy|easy]. destruct (dbg && _); [easy|]. cbn [rmap]. f_equal.
  apply osu_of_put; [|easy]. intros K. apply H2. rewrite map_app. apply in_or_app. now left.
Qed.
Lemma file_drop dbg s s' v n n' a x b f : osu_parts s v n (a ++ x :: b) -> osu_from_str dbg s = ROk f -> osu_parts s' v n' (a ++ b) ->
  osu_from_str dbg s' = ROk (put_section dbg v (ch_name x) None f).
Proof.
  intros Hp Hr Hp'. destruct (osu_read_inv dbg s v n _ f Hp Hr) as [Hb ->].
  destruct (without _ _ _ _ a [x] x b n Hb (or_intror (ex_intro _ x (conj eq_refl eq_refl)))) as [H1 H2].
  rewrite (osu_parts_read dbg s' v n' _ Hp'). unfold osu_reads.
  assert (K : first_bad_section (osu_table dbg v) OsuDuplicateSections OsuUnknownSection dbg n' [] (a ++ b) = ROk tt) by (apply sections_none; now apply sections_none in H1).
  rewrite K. cbn [rmap]. f_equal. now apply osu_of_drop.
Qed.

(** ** storyboards *)
Lemma above_events a x b : ch_name x = lit "Events" -> ~ In (lit "Events") (map ch_name a) -> variables_above (a ++ x :: b) = variables_above a.
Proof.
  intros Hx. induction a as [|y a IH]; cbn [app variables_above map In]; intros H.
  - apply str_eqb_eq in Hx. now rewrite Hx.
  - rewrite IH by tauto. easy.
Qed.
Lemma above_below a b b' : In (lit "Events") (map ch_name a) -> variables_above (a ++ b) = variables_above (a ++ b').
Proof.
  induction a as [|y a IH]; cbn [app variables_above map In]; [easy|]. intros [H|H].
  - apply str_eqb_eq in H. now rewrite H.
  - now rewrite IH.
Qed.
Lemma osb_read_inv dbg s n cs f : osb_parts s n cs -> osb_from_str dbg s 14%Z = ROk (Some f) ->
  first_bad_section (osb_table dbg (variables_above cs)) OsbDuplicateSections OsbUnknownSection false n [] cs = ROk tt /\ f = osb_of dbg cs.
Proof.
  intros Hp H. rewrite (osb_parts_read dbg s n cs Hp) in H. unfold osb_reads in H.
  destruct (first_bad_section _ _ _ _ _ _ _) as [[]| |]; cbn in H; try easy. now injection H as <-.
Qed.
Lemma osb_events_put dbg s s' n n' a o x b f : osb_parts s n (a ++ o :: b) -> osb_from_str dbg s 14%Z = ROk (Some f) -> osb_parts s' n' (a ++ x :: b) ->
  ch_name o = lit "Events" -> ch_name x = lit "Events" ->
  osb_from_str dbg s' 14%Z
  = match events_from_str_vars dbg (variables_above a) (ch_body x) 14%Z with
    | ROk e => ROk (Some (mk_osb (osb_variables f) e))
    | RErr e => RErr (mk_line_err (n' + chunks_rows a + rows (ch_space x) + le_line e) (OsbEvents (le_err e)))
    | RPanic p => RPanic p
    end.
Proof.
  intros Hp Hr Hp' Eo Ex. destruct (osb_read_inv dbg s n _ f Hp Hr) as [Hb ->].
  assert (Ho : replaces a [o] x b) by (right; exists o; split; congruence).
  destruct (without _ _ _ _ a [o] x b n Hb Ho) as [H1 H2]. rewrite map_app in H2.
  assert (Ha : ~ In (lit "Events") (map ch_name a)) by (intros K; apply H2; apply in_or_app; left; congruence).
  rewrite (above_events a o b Eo Ha) in H1.
  rewrite (osb_parts_read dbg s' n' _ Hp'). unfold osb_reads. rewrite (above_events a x b Ex Ha).
  rewrite sections_put by (easy || now rewrite map_app).
  assert (Nx : named (osb_table dbg (variables_above a)) x = Some (can_be OsbEvents (fun t => events_from_str_vars dbg (variables_above a) t 14%Z))).
  { unfold named, osb_table. rewrite Ex. reflexivity. }
  rewrite Nx. unfold can_be at 1. destruct (events_from_str_vars dbg (variables_above a) (ch_body x) 14%Z) as [e| |] eqn:Ev; [|easy|easy]. cbn [andb rmap]. do 2 f_equal.
  unfold osb_of. rewrite (above_events a x b Ex Ha), (above_events a o b Eo Ha). cbn [osb_variables]. f_equal.
  - rewrite !section_skip; [easy| |]; [rewrite Eo|rewrite Ex]; discriminate.
  - rewrite section_here by (easy || now rewrite Ex). now rewrite Ev.
Qed.
Lemma osb_variables_put dbg s s' n n' a o x b f : osb_parts s n (a ++ o :: b) -> osb_from_str dbg s 14%Z = ROk (Some f) -> osb_parts s' n' (a ++ x :: b) ->
  ch_name o = lit "Variables" -> ch_name x = lit "Variables" -> ~ In (lit "Events") (map ch_name b) ->
  osb_from_str dbg s' 14%Z
  = match variables_from_str (ch_body x) with
    | ROk vs => ROk (Some (mk_osb (Some vs) (osb_events f)))
    | RErr e => RErr (mk_line_err (n' + chunks_rows a + rows (ch_space x) + le_line e) (OsbVariable (le_err e)))
    | RPanic p => RPanic p
    end.
Proof.
  intros Hp Hr Hp' Eo Ex Hn. destruct (osb_read_inv dbg s n _ f Hp Hr) as [Hb ->].
  assert (Ho : replaces a [o] x b) by (right; exists o; split; congruence).
  destruct (without _ _ _ _ a [o] x b n Hb Ho) as [H1 H2].
  rewrite (osb_parts_read dbg s' n' _ Hp'). unfold osb_reads.
  assert (Nc : Forall (fun y => ch_name y = lit "Variables" \/ ch_name y = lit "Events") (a ++ b)).
  { apply sections_none in H1 as (H1 & _). eapply Forall_impl; [|exact H1]. intros y (rd & K & _). unfold named, osb_table in K. cbn [find fst] in K.
    destruct (str_eqb (ch_name y) (lit "Variables")) eqn:E1; [left; now apply str_eqb_eq|]. destruct (str_eqb (ch_name y) (lit "Events")) eqn:E2; [right; now apply str_eqb_eq|easy]. }
  assert (Hbn : b = []).
  { destruct b as [|y b]; [easy|]. exfalso. apply Forall_app in Nc as [_ Nc]. inversion_clear Nc as [|? ? K _]. destruct K as [K|K].
    - apply H2. rewrite map_app. apply in_or_app. right. left. congruence.
    - apply Hn. now left. }
  subst b. rewrite app_nil_r in *.
  assert (Hx : ~ In (lit "Variables") (map ch_name a)) by congruence.
  assert (Ha : a = [] \/ In (lit "Events") (map ch_name a)).
  { destruct a as [|y a]; [now left|right]. inversion_clear Nc as [|? ? K _]. destruct K as [K|K]; [elim Hx; now left|now left]. }
  set (vs := variables_above (a ++ [x])).
  assert (H3 : first_bad_section (osb_table dbg vs) OsbDuplicateSections OsbUnknownSection false 0 [] a = ROk tt).
  { destruct Ha as [-> |Ha]; [easy|]. unfold vs. now rewrite (above_below a [x] [o]). }
  rewrite (sections_put _ _ _ _ a [] x) by (rewrite app_nil_r; easy).
  assert (Nx : named (osb_table dbg vs) x = Some (can_be OsbVariable variables_read)) by (unfold named, osb_table; rewrite Ex; reflexivity).
  rewrite Nx. unfold can_be at 1. rewrite <- variables_read_eq. destruct (variables_from_str (ch_body x)) as [e| |] eqn:Ev; cbn [rmap]; [|easy|easy]. cbn [andb rmap]. do 2 f_equal.
  unfold osb_of. cbn [osb_events]. f_equal.
  - rewrite section_here by (easy || now rewrite Ex). rewrite <- variables_read_eq, Ev. reflexivity.
  - rewrite !section_skip by (rewrite ?Eo, ?Ex; discriminate). destruct Ha as [-> |Ha]; [easy|]. now rewrite (above_below a [x] [o]).
Qed.
