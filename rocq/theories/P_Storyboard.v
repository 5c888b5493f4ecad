(** Property theorems C07, C08 and C09: storyboard commands, their lines and their
    trees. *)
From Coq Require Import String List NArith ZArith Bool.
From Verif Require Import Str Num Nom Dec Parsers Storyboard Events
  SpecWf SpecText SpecTypes SpecCmd CmdRound CmdTree.
Import ListNotations.
Local Open Scope N_scope.

(** ** C07: a command and its line *)
(** The printed line is the comma separated line of the format, for every command. *)
Theorem C07_command_text : forall c s, cmd_text c s <-> s = cmd_to_string [] c.
Proof. exact cmd_text_iff. Qed.
Print Assumptions C07_command_text.
(** Any command that can be written is read back from its printed line, behind any
    indentation; the body of a loop or trigger is on other lines. *)
Theorem C07_command_round_trip : forall n c, cmd_ok c = true -> forallb is_indent n = true ->
  cmd_from_str (n ++ cmd_to_string [] c) = ROk (Some (bare c)).
Proof. exact cmd_round. Qed.
Print Assumptions C07_command_round_trip.
(** The reader only makes commands that can be written, with an empty body. *)
Theorem C07_command_image : forall s c, cmd_from_str s = ROk (Some c) -> cmd_ok c = true /\ bare c = c.
Proof. exact cmd_image. Qed.
Print Assumptions C07_command_image.
Definition C07_move : command :=
  mk_cmd (Some 100%Z) (PMove EzBounceOut (Some (-5)%Z)
    (mk_cont (DNum (mkDec false 15 1), DNum (mkDec true 3 0))
       [(DNum (mkDec false 7 0), Some (DRaw (lit "x"))); (DNum (mkDec false 0 2), None)])).
Example C07_move_ex :
  cmd_ok C07_move = true
  /\ cmd_to_string [] C07_move = lit "M,33,100,-5,1.5,-3,7,x,0.00"
  /\ cmd_from_str (lit " _M,33,100,-5,1.5,-3,7,x,0.00") = ROk (Some C07_move).
Proof. vm_compute. auto. Qed.
Example C07_loop_ex :
  let c := mk_cmd (Some 7%Z) (PTrigger (TtHitSound (Some SbDrum) None (Some AdClap) (Some 6%Z)) None (Some 2%Z) [C07_move]) in
  cmd_ok c = true /\ cmd_to_string [] c = lit "T,HitSoundDrumClap6,7,,2"
  /\ cmd_from_str (cmd_to_string [] c) = ROk (Some (bare c)).
Proof. vm_compute. auto. Qed.
(** Without this side condition it fails: an end time without a start time is printed as
    an empty field that cannot be read. *)
Theorem C07_end_without_start_refuted : exists c,
  cmd_ok (mk_cmd (Some 0%Z) (cmd_props c)) = true
  /\ exists e, cmd_from_str (cmd_to_string [] c) = RErr e.
Proof.
  exists (mk_cmd None (PFade EzLinear (Some 5%Z) (DNum (mkDec false 1 0)) [])).
  split; [vm_compute; reflexivity|]. eexists. vm_compute. reflexivity.
Qed.
Print Assumptions C07_end_without_start_refuted.

(** ** C08: the printed commands *)
(** One line for every command, a command before its body, with one space for every
    level. *)
Theorem C08_commands_text : forall vars cs, exists ls,
  commands_to_string vars cs = ROk (join [10] ls)
  /\ Forall2 (fun x l => l = repeat 32 (fst x) ++ cmd_to_string vars (snd x)) (preorders 1 cs) ls.
Proof. exact commands_lines. Qed.
Print Assumptions C08_commands_text.
Definition C08_tree : list command :=
  let f := mk_cmd (Some 1%Z) (PFade EzLinear None (DNum (mkDec false 1 0)) []) in
  let p := mk_cmd (Some 2%Z) (PParameter EzLinear None PaFlipH []) in
  let loop := mk_cmd (Some 3%Z) (PLoop 4 [f; p]) in
  let trigger := mk_cmd None (PTrigger TtPassing None None [loop; p; mk_cmd None (PLoop 0 [])]) in
  [f; trigger; loop].
Definition C08_tree_text : str := join [10]
  [lit " F,0,1,,1"; lit " T,Passing"; lit "  L,3,4"; lit "   F,0,1,,1"; lit "   P,0,2,,H"; lit "  P,0,2,,H";
   lit "  L,,0"; lit " L,3,4"; lit "  F,0,1,,1"; lit "  P,0,2,,H"].
Example C08_ex : commands_to_string [] C08_tree = ROk C08_tree_text.
Proof. vm_compute. reflexivity. Qed.

(** ** C09: the tree of indented lines *)
(** [try_push_cmd] adds a command at the end of the body that its indentation reaches
    through the last commands, and only then succeeds. *)
Theorem C09_push : forall cs c n cs', try_push_cmd cs c n = ROk cs' <-> pushed cs c n cs'.
Proof. exact try_push_iff. Qed.
Print Assumptions C09_push.
(** Otherwise it is an indentation error. *)
Theorem C09_push_rejects : forall cs c n, (1 <= n)%nat -> (forall cs', ~ pushed cs c n cs') ->
  exists e, try_push_cmd cs c n = RErr (InvalidIndentation e n).
Proof. exact try_push_rejects. Qed.
Print Assumptions C09_push_rejects.
(** An indentation of zero, which the public method accepts, is no indentation error but
    a panic, unless there is no command at all. *)
Theorem C09_push_zero : forall cs c,
  try_push_cmd cs c 0 = match cs with [] => RErr (InvalidIndentation 1 0) | _ => RPanic PUnreachable end.
Proof. exact try_push_zero. Qed.
Print Assumptions C09_push_zero.
(** Pushing a walk with its levels as indentation rebuilds the trees behind those that
    are there. *)
Theorem C09_rebuild : forall cs done, push_all done (preorders 1 cs) = ROk (done ++ cs).
Proof. exact rebuild_forest. Qed.
Print Assumptions C09_rebuild.
(** So the walk determines the trees. *)
Theorem C09_walk_injective : forall cs1 cs2, preorders 1 cs1 = preorders 1 cs2 -> cs1 = cs2.
Proof. exact preorders_inj. Qed.
Print Assumptions C09_walk_injective.
Example C09_ex :
  length (preorders 1 C08_tree) = 10%nat
  /\ push_all [] (preorders 1 C08_tree) = ROk C08_tree
  /\ try_push_cmd C08_tree C07_move 2 = ROk (firstn 2 C08_tree ++ [mk_cmd (Some 3%Z) (PLoop 4 (body (nth 2 C08_tree C07_move) ++ [C07_move]))])
  /\ try_push_cmd C08_tree C07_move 3 = RErr (InvalidIndentation 1 3)
  /\ try_push_cmd [mk_cmd None (PLoop 1 [])] C07_move 3 = RErr (InvalidIndentation 0 3).
Proof. vm_compute. auto 10. Qed.
