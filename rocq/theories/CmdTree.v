(** Command trees: the stack printer is the pre-order walk, and pushing the lines of a
    walk rebuilds the tree. *)
From Coq Require Import String List NArith ZArith Bool Lia Arith.
From Verif Require Import Str Num Nom Dec Parsers Unicode Storyboard NormalEvents Events
  SpecWf SpecText SpecTypes SpecCmd StrFacts.
Import ListNotations.
Local Open Scope N_scope.

(** ** induction over command trees *)
Lemma command_tree_ind (P : command -> Prop) :
  (forall c, Forall P (body c) -> P c) -> forall c, P c.
Proof.
  intros H. fix IH 1. intros c. apply H.
  assert (L : forall cs, Forall P cs).
  { fix IHl 1. intros [|x cs]; constructor; [apply IH|apply IHl]. }
  destruct c as [s p]; destruct p; try constructor; apply L.
Qed.
Lemma preorder_eq d c : preorder d c = (d, bare c) :: preorders (S d) (body c).
Proof. destruct c as [s p]; destruct p; reflexivity. Qed.
Lemma preorders_cons d c cs : preorders d (c :: cs) = preorder d c ++ preorders d cs.
Proof. easy. Qed.
Lemma cmd_size_eq c : cmd_size c = S (cmds_size (body c)).
Proof. destruct c as [s p]; destruct p; reflexivity. Qed.
Lemma cmds_size_cons c cs : cmds_size (c :: cs) = (cmd_size c + cmds_size cs)%nat.
Proof. easy. Qed.
Lemma subs_body c : cmd_subs c = Some (body c) \/ (cmd_subs c = None /\ body c = []).
Proof. unfold body. destruct (cmd_subs c); [now left|now right]. Qed.
Lemma bare_text vars c : cmd_to_string vars (bare c) = cmd_to_string vars c.
Proof. destruct c as [s p]; destruct p; reflexivity. Qed.

(** ** the printer *)
Definition walk_line (vars : list variable) (x : nat * command) : str :=
  repeat 32 (fst x) ++ cmd_to_string vars (snd x).
Definition stack_size (st : list (list command * nat * nat)) : nat :=
  fold_right (fun '(cur, idx, _) n => (cmds_size (skipn idx cur) + n)%nat) 0%nat st.
Definition stack_walk (st : list (list command * nat * nat)) : list (nat * command) :=
  concat (map (fun '(cur, idx, ind) => preorders ind (skipn idx cur)) st).
Definition stack_ok (st : list (list command * nat * nat)) : Prop :=
  Forall (fun '(cur, idx, _) => (idx < length cur)%nat) st.
Lemma skipn_nth {A} (l : list A) n x : nth_error l n = Some x -> skipn n l = x :: skipn (S n) l.
Proof.
  revert l. induction n as [|n IH]; intros [|y l]; try easy.
  - now intros [= ->].
  - cbn [nth_error]. intros H. apply IH in H. cbn [skipn] in *. exact H.
Qed.
Lemma cts_loop_walk vars f cur idx ind st :
  (idx < length cur)%nat -> stack_ok st ->
  (cmds_size (skipn idx cur) + stack_size st <= f)%nat ->
  cts_loop f vars cur idx ind st
  = ROk (map (walk_line vars) (preorders ind (skipn idx cur) ++ stack_walk st)).
Proof.
  revert cur idx ind st. induction f as [|f IH]; intros cur idx ind st Hi Hs Hf.
  { destruct (nth_error cur idx) as [c|] eqn:E; [|apply nth_error_None in E; lia].
    rewrite (skipn_nth _ _ _ E), cmds_size_cons, cmd_size_eq in Hf. lia. }
  cbn [cts_loop]. destruct (nth_error cur idx) as [c|] eqn:E; [|apply nth_error_None in E; lia].
  rewrite (skipn_nth _ _ _ E) in *. rewrite cmds_size_cons, cmd_size_eq in Hf.
  rewrite preorders_cons, preorder_eq. cbn [app map].
  replace (walk_line vars (ind, bare c)) with (cmd_line vars ind c)
    by (unfold walk_line, cmd_line; cbn [fst snd]; now rewrite bare_text).
  assert (K : (S idx < length cur)%nat \/ skipn (S idx) cur = []).
  { destruct (le_lt_dec (length cur) (S idx)); [right; now apply skipn_all2|now left]. }
  assert (Hpop : body c = [] ->
    (if Nat.leb (length cur) (S idx)
     then match st with
          | (cur', idx', ind') :: st0 => rmap (cons (cmd_line vars ind c)) (cts_loop f vars cur' idx' ind' st0)
          | [] => ROk [cmd_line vars ind c]
          end
     else rmap (cons (cmd_line vars ind c)) (cts_loop f vars cur (S idx) ind st))
    = ROk (cmd_line vars ind c :: map (walk_line vars)
         ((preorders (S ind) (body c) ++ preorders ind (skipn (S idx) cur)) ++ stack_walk st))).
  { intros Hb. rewrite Hb in *. cbn [preorders map concat app]. destruct (Nat.leb_spec (length cur) (S idx)).
    - replace (skipn (S idx) cur) with (@nil command) in * by (symmetry; now apply skipn_all2).
      destruct st as [|[[cur' idx'] ind'] st']; [easy|].
      inversion Hs; subst. change (cmds_size []) with 0%nat in Hf.
      change (stack_size ((cur', idx', ind') :: st')) with (cmds_size (skipn idx' cur') + stack_size st')%nat in Hf.
      rewrite IH by (easy || lia). easy.
    - change (cmds_size []) with 0%nat in Hf. rewrite IH by (easy || lia). easy. }
  destruct (cmd_subs c) as [[|x xs]|] eqn:Es.
  - apply Hpop. unfold body. now rewrite Es.
  - clear Hpop. assert (Hb : body c = x :: xs) by (unfold body; now rewrite Es). rewrite Hb in *.
    rewrite IH.
    + change (skipn 0 (x :: xs)) with (x :: xs). cbn [rmap]. do 2 f_equal. destruct K as [K|K].
      * rewrite (proj2 (Nat.ltb_lt _ _) K). unfold stack_walk. cbn [map concat]. now rewrite <- app_assoc.
      * rewrite K. cbn [preorders map concat]. rewrite app_nil_r. f_equal. f_equal.
        destruct (Nat.ltb (S idx) (length cur)); [|easy]. unfold stack_walk. cbn [map concat]. now rewrite K.
    + cbn. lia.
    + destruct (Nat.ltb_spec (S idx) (length cur)); [now constructor|easy].
    + change (skipn 0 (x :: xs)) with (x :: xs). destruct (Nat.ltb (S idx) (length cur)).
      * change (stack_size ((cur, S idx, ind) :: st)) with (cmds_size (skipn (S idx) cur) + stack_size st)%nat. lia.
      * lia.
  - apply Hpop. unfold body. now rewrite Es.
Qed.
Lemma cts_outer_walk vars cs : cts_outer vars cs = ROk (map (walk_line vars) (preorders 1 cs)).
Proof.
  induction cs as [|c cs IH]; [easy|]. cbn [cts_outer]. rewrite IH, preorders_cons, preorder_eq.
  assert (E : (match cmd_subs c with
              | Some (x :: xs) => cts_loop (S (cmds_size (x :: xs))) vars (x :: xs) 0 2 []
              | _ => ROk []
              end : run (list str)) = ROk (map (walk_line vars) (preorders 2 (body c)))).
  { unfold body. destruct (cmd_subs c) as [[|x xs]|]; [easy| |easy].
    rewrite cts_loop_walk; [cbn [skipn]; unfold stack_walk; cbn [map concat]; now rewrite app_nil_r| | |].
    - cbn. lia.
    - constructor.
    - cbn [skipn stack_size fold_right]. lia. }
  rewrite E. cbn [rbind rmap app map]. do 2 f_equal.
  - unfold walk_line, cmd_line. cbn [fst snd]. now rewrite bare_text.
  - now rewrite map_app.
Qed.
Lemma commands_walk vars cs :
  commands_to_string vars cs = ROk (join [10] (map (walk_line vars) (preorders 1 cs))).
Proof. unfold commands_to_string. now rewrite cts_outer_walk. Qed.

(** ** pushing *)
Lemma last_opt_snoc {A} (l : list A) x : last_opt (l ++ [x]) = Some x.
Proof. unfold last_opt. now rewrite rev_app_distr. Qed.
Lemma last_opt_cases {A} (l : list A) :
  (l = [] /\ last_opt l = None) \/ (exists l' x, l = l' ++ [x] /\ last_opt l = Some x).
Proof.
  destruct l as [|y l] using rev_ind; [now left|right]. exists l, y. split; [easy|]. apply last_opt_snoc.
Qed.
Lemma set_last_snoc {A} (f : A -> A) l x : set_last f (l ++ [x]) = l ++ [f x].
Proof.
  induction l as [|y l IH]; [easy|]. cbn [app]. destruct (l ++ [x]) as [|z m] eqn:E; [now destruct l|].
  change (set_last f (y :: z :: m)) with (y :: set_last f (z :: m)). rewrite IH. easy.
Qed.
Lemma pushed_zero cs c cs' : ~ pushed cs c 0 cs'.
Proof. intros H. inversion H. Qed.
Lemma pushed_one cs c cs' : pushed cs c 1 cs' <-> cs' = cs ++ [c].
Proof.
  split; [|intros ->; constructor]. intros H. inversion H; subst; [easy|].
  now destruct (pushed_zero _ _ _ H4).
Qed.
Lemma pushed_snoc l k c n cs' : pushed (l ++ [k]) c (S (S n)) cs' <->
  exists b b', cmd_subs k = Some b /\ pushed b c (S n) b' /\ cs' = l ++ [cmd_set_subs b' k].
Proof.
  split.
  - intros H. inversion H; subst. apply app_inj_tail in H0 as [-> ->]. eauto.
  - intros (b & b' & H1 & H2 & ->). now apply pushed_inside with b.
Qed.
Lemma pushed_nil c n cs' : ~ pushed [] c (S (S n)) cs'.
Proof. intros H. inversion H; subst. now destruct l. Qed.
Lemma push_at_spec n i ind c cs : ind = (i + n)%nat -> (1 <= n)%nat ->
  match push_at n i ind c cs with
  | ROk cs' => pushed cs c (S n) cs'
  | RErr (InvalidIndentation _ a) => a = ind /\ forall cs', ~ pushed cs c (S n) cs'
  | RPanic _ => False
  end.
Proof.
  revert i cs. induction n as [|n IH]; intros i cs Hi Hn; [lia|]. cbn [push_at].
  destruct (last_opt_cases cs) as [[-> E]|(l & k & -> & E)]; rewrite E.
  { split; [easy|]. intros. apply pushed_nil. }
  destruct (cmd_subs k) as [b|] eqn:Ek.
  2:{ split; [easy|]. intros cs' H. apply pushed_snoc in H as (b & b' & H & _). congruence. }
  destruct (Nat.eqb_spec (i + 1) ind) as [Ei|Ei].
  - assert (n = 0%nat) by lia. subst n. rewrite set_last_snoc. apply pushed_snoc. exists b, (b ++ [c]).
    repeat split; [easy|constructor].
  - destruct n as [|n]; [lia|]. specialize (IH (i + 1)%nat b ltac:(lia) ltac:(lia)).
    destruct (push_at (S n) (i + 1) ind c b) as [b'|[e a]|]; cbn [rmap]; [| |easy].
    + rewrite set_last_snoc. apply pushed_snoc. eauto.
    + destruct IH as [-> IH]. split; [easy|]. intros cs' H. apply pushed_snoc in H as (b1 & b' & H1 & H2 & _).
      rewrite Ek in H1. injection H1 as <-. now apply (IH b').
Qed.
Lemma try_push_spec cs c n : (1 <= n)%nat ->
  match try_push_cmd cs c n with
  | ROk cs' => pushed cs c n cs'
  | RErr (InvalidIndentation _ a) => a = n /\ forall cs', ~ pushed cs c n cs'
  | RPanic _ => False
  end.
Proof.
  intros Hn. unfold try_push_cmd. destruct (Nat.eqb_spec n 1) as [->|H1]; [constructor|].
  destruct n as [|[|n]]; try lia.
  destruct (last_opt_cases cs) as [[-> E]|(l & k & E' & E)]; rewrite E.
  { split; [easy|]. intros. apply pushed_nil. }
  pose proof (push_at_spec (S (S n) - 1) 1 (S (S n)) c cs ltac:(lia) ltac:(lia)) as H.
  replace (S (S (S n) - 1)) with (S (S n)) in H by lia. exact H.
Qed.
Lemma pushed_fun cs c n cs1 cs2 : pushed cs c n cs1 -> pushed cs c n cs2 -> cs1 = cs2.
Proof.
  intros H. revert cs2. induction H as [cs c|l k b c n b' Hk H IH]; intros cs2 H2.
  - now apply pushed_one in H2.
  - destruct n as [|n]; [now destruct (pushed_zero _ _ _ H)|].
    apply pushed_snoc in H2 as (b1 & b1' & H3 & H4 & ->). rewrite Hk in H3. injection H3 as <-.
    now rewrite (IH _ H4).
Qed.
Lemma try_push_iff cs c n cs' : try_push_cmd cs c n = ROk cs' <-> pushed cs c n cs'.
Proof.
  destruct n as [|n].
  - split; [|intros H; now destruct (pushed_zero _ _ _ H)]. unfold try_push_cmd. cbn [Nat.eqb].
    destruct (last_opt cs); discriminate.
  - pose proof (try_push_spec cs c (S n) ltac:(lia)) as H.
    destruct (try_push_cmd cs c (S n)) as [x|[e a]|p].
    + split; [now intros [= ->]|]. intros H'. f_equal. now apply (pushed_fun cs c (S n)).
    + split; [easy|]. intros H'. now destruct H as [_ H]; destruct (H cs').
    + easy.
Qed.
Lemma try_push_rejects cs c n : (1 <= n)%nat -> (forall cs', ~ pushed cs c n cs') ->
  exists e, try_push_cmd cs c n = RErr (InvalidIndentation e n).
Proof.
  intros Hn H. pose proof (try_push_spec cs c n Hn) as K.
  destruct (try_push_cmd cs c n) as [x|[e a]|p]; [now destruct (H x)| |easy]. destruct K as [-> _]. eauto.
Qed.

(** ** rebuilding *)
Definition push_all (cs : list command) (xs : list (nat * command)) : res (list command) push_err :=
  fold_left (fun r x => rbind r (fun cs => try_push_cmd cs (snd x) (fst x))) xs (ROk cs).
Lemma push_all_cons cs x xs : push_all cs (x :: xs) = rbind (try_push_cmd cs (snd x) (fst x)) (fun cs' => push_all cs' xs).
Proof.
  unfold push_all. cbn [fold_left rbind]. destruct (try_push_cmd cs (snd x) (fst x)) as [y|e|p]; cbn [rbind]; [easy| |].
  - induction xs; [easy|]. exact IHxs.
  - induction xs; [easy|]. exact IHxs.
Qed.
Lemma push_all_app cs xs ys : push_all cs (xs ++ ys) = rbind (push_all cs xs) (fun cs' => push_all cs' ys).
Proof.
  revert cs. induction xs as [|x xs IH]; intros cs; [easy|]. cbn [app]. rewrite !push_all_cons.
  destruct (try_push_cmd cs (snd x) (fst x)); cbn [rbind]; [apply IH|easy|easy].
Qed.
Lemma set_subs_subs c b l : cmd_subs c = Some b -> cmd_subs (cmd_set_subs l c) = Some l.
Proof. destruct c as [s p]; destruct p; try easy. Qed.
Lemma set_subs_twice l m c : cmd_set_subs l (cmd_set_subs m c) = cmd_set_subs l c.
Proof. destruct c as [s p]; destruct p; easy. Qed.
Lemma set_subs_body c : cmd_set_subs (body c) c = c.
Proof. destruct c as [s p]; destruct p; easy. Qed.
Lemma bare_eq c : cmd_subs c = None -> bare c = c.
Proof. destruct c as [s p]; destruct p; easy. Qed.
(** pushing one level below a command just pushed *)
Lemma pushed_below cs k d csk b x : pushed cs k d csk -> cmd_subs k = Some b ->
  exists csx, pushed csk x (S d) csx /\ pushed cs (cmd_set_subs (b ++ [x]) k) d csx.
Proof.
  intros H Hk. induction H as [cs k|l j bj k n bj' Hj H IH].
  - exists (cs ++ [cmd_set_subs (b ++ [x]) k]). split; [|constructor].
    apply pushed_snoc. exists b, (b ++ [x]). repeat split; [easy|constructor].
  - destruct (IH Hk) as (bx & H1 & H2). destruct n as [|n]; [now destruct (pushed_zero _ _ _ H)|].
    exists (l ++ [cmd_set_subs bx j]). split.
    + apply pushed_snoc. exists bj', bx. split; [now apply set_subs_subs with bj|]. split; [easy|].
      now rewrite set_subs_twice.
    + apply pushed_snoc. eauto.
Qed.
Lemma rebuild c : forall cs d cs', pushed cs c d cs' -> push_all cs (preorder d c) = ROk cs'.
Proof.
  induction c as [c IH] using command_tree_ind. intros cs d cs' H. rewrite preorder_eq, push_all_cons. cbn [fst snd].
  destruct (subs_body c) as [Hs|[Hs Hb]].
  2:{ rewrite Hb, bare_eq by easy. cbn. apply try_push_iff in H. now rewrite H. }
  assert (E : exists cs0, pushed cs (bare c) d cs0).
  { clear IH. induction H as [cs c|l k b c n b' Hk H IHp]; [eexists; constructor|].
    destruct (IHp Hs) as (b0 & H0). exists (l ++ [cmd_set_subs b0 k]). now apply pushed_inside with b. }
  destruct E as (cs0 & H0). rewrite (proj2 (try_push_iff _ _ _ _) H0). cbn [rbind].
  (* the children one by one *)
  assert (L : forall done todo cs1, Forall (fun c => forall cs d cs', pushed cs c d cs' -> push_all cs (preorder d c) = ROk cs') todo ->
    pushed cs (cmd_set_subs done c) d cs1 ->
    exists cs2, push_all cs1 (preorders (S d) todo) = ROk cs2 /\ pushed cs (cmd_set_subs (done ++ todo) c) d cs2).
  { intros done todo. revert done. induction todo as [|x todo IHt]; intros done cs1 HF H1.
    - exists cs1. rewrite app_nil_r. easy.
    - inversion HF as [|? ? Hx HF']; subst.
      destruct (pushed_below _ _ _ _ done x H1) as (csx & Hx1 & Hx2).
      { now apply set_subs_subs with (body c). }
      rewrite set_subs_twice in Hx2. destruct (IHt (done ++ [x]) csx HF' Hx2) as (cs2 & H2 & H3).
      exists cs2. rewrite preorders_cons, push_all_app, (Hx _ _ _ Hx1). cbn [rbind]. split; [easy|].
      now rewrite <- app_assoc in H3. }
  destruct (L [] (body c) cs0 IH H0) as (cs2 & H2 & H3). cbn [app] in H3. rewrite set_subs_body in H3.
  rewrite H2. f_equal. now apply (pushed_fun cs c d).
Qed.
Lemma rebuild_forest cs done : push_all done (preorders 1 cs) = ROk (done ++ cs).
Proof.
  revert done. induction cs as [|c cs IH]; intros done; [now rewrite app_nil_r|].
  rewrite preorders_cons, push_all_app, (rebuild c done 1 (done ++ [c])) by constructor. cbn [rbind].
  now rewrite IH, <- app_assoc.
Qed.

(** Without indentation the walk down has no last step. *)
Lemma try_push_zero cs c :
  try_push_cmd cs c 0 = match cs with [] => RErr (InvalidIndentation 1 0) | _ => RPanic PUnreachable end.
Proof.
  unfold try_push_cmd. cbn [Nat.eqb]. destruct (last_opt_cases cs) as [[-> ->]|(l & x & -> & ->)]; [easy|].
  now destruct l.
Qed.
(** every tree is determined by its walk *)
Lemma preorders_inj cs1 cs2 : preorders 1 cs1 = preorders 1 cs2 -> cs1 = cs2.
Proof.
  intros H. pose proof (rebuild_forest cs1 []) as A. rewrite H, rebuild_forest in A. now injection A as ->.
Qed.
(** reading the commands of printed lines *)
Lemma commands_lines vars cs : exists ls,
  commands_to_string vars cs = ROk (join [10] ls)
  /\ Forall2 (fun x l => l = repeat 32 (fst x) ++ cmd_to_string vars (snd x)) (preorders 1 cs) ls.
Proof.
  exists (map (walk_line vars) (preorders 1 cs)). split; [apply commands_walk|].
  induction (preorders 1 cs); constructor; easy.
Qed.
