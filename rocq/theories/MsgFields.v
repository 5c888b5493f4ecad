(** Proofs for C44: the fields that messages name, and the errors of storyboard files. *)
From Coq Require Import String List NArith ZArith Bool Lia.
From Verif Require Import Str Num Nom Dec Parsers General Editor Metadata Difficulty Colours
  TimingPoints HitObjects Storyboard NormalEvents Events Osb OsuFile Api Messages Spec SpecText
  SpecFile SpecMsg SpecOsb SpecCmd CmdTree FileLoop FileTheorems MessageFacts OsbFacts.
Import ListNotations.
Local Open Scope N_scope.

Ltac each := intros e; destruct e; cbn [says]; (reflexivity || (left; reflexivity) || (right; left; reflexivity) || (right; right; reflexivity)).
Lemma tp_says : forall e, says "`" "field" (tp_message e) (tp_fault e). Proof. each. Qed.
Lemma ho_says : forall e, says "`" "field" (ho_message e) (ho_fault e). Proof. each. Qed.
Lemma bg_says : forall e, says "`" "field" (bg_message e) (bg_fault e). Proof. each. Qed.
Lemma vid_says : forall e, says "`" "field" (vid_message e) (vid_fault e). Proof. each. Qed.
Lemma brk_says : forall e, says "`" "field" (brk_message e) (brk_fault e). Proof. each. Qed.
Lemma ct_says : forall e, says "`" "field" (ct_message e) (ct_fault e). Proof. each. Qed.
Lemma leg_says : forall e, says "`" "field" (leg_message e) (leg_fault e). Proof. each. Qed.
Lemma sl_says : forall e, says "`" "field" (sl_message e) (sl_fault e). Proof. each. Qed.
Lemma au_says : forall e, says "`" "field" (au_message e) (au_fault e). Proof. each. Qed.
Lemma ob_says : forall e, says "" "field" (ob_message e) (ob_fault e). Proof. each. Qed.
Lemma cmd_says : forall e, says "`" "field" (cmd_message e) (cmd_fault e). Proof. each. Qed.
Lemma rgb_says : forall e, says "" "value" (rgb_message e) (rgb_fault e). Proof. each. Qed.
Lemma var_tell : forall a b, var_message a = var_message b -> a = b.
Proof. intros [] []; intros H; first [reflexivity|vm_compute in H; discriminate H]. Qed.
Lemma osb_shows_line dbg s pre before x rest tail o d e l :
  osb_layout s pre (before ++ x :: rest) tail -> ended tail = true ->
  osb_all_read dbg before o -> osb_complaint dbg before (vars_or_none (osb_variables o)) x d e ->
  forallb (fun y => negb (blank_end y)) before = true ->
  nth_error (sec_all x) (Z.to_nat d) = Some l -> (0 <= d)%Z ->
  exists err, osb_from_str dbg s 14%Z = RErr err
    /\ nth_error (lines s) (true_line pre before + Z.to_nat d) = Some l
    /\ osb_error_text err
       = lit "Line " ++ print_Z (Z.of_nat (true_line pre before) + d + 1) ++ lit ", " ++ osb_message e
    /\ osb_error_with_line err s
       = lit "Line " ++ print_Z (Z.of_nat (true_line pre before) + d + 1) ++ lit ": " ++ l
         ++ lit ", " ++ osb_message e.
Proof.
  intros H He Hr Hc Hb Hl Hd.
  assert (B : blank_ends before = 0%Z).
  { clear -Hb. unfold blank_ends. induction before as [|y before IH]; [reflexivity|].
    cbn [forallb filter] in *. apply andb_true_iff in Hb as [Hy Hb].
    apply negb_true_iff in Hy. rewrite Hy. now apply IH. }
  assert (T : nth_error (lines s) (true_line pre before + Z.to_nat d) = Some l).
  { destruct H as (L & _ & _). rewrite L. unfold true_line. rewrite flat_map_app. cbn [flat_map].
    rewrite nth_error_app2 by lia.
    replace (length pre + length (flat_map sec_all before) + Z.to_nat d - length pre)%nat
      with (length (flat_map sec_all before) + Z.to_nat d)%nat by lia.
    rewrite <- !app_assoc. rewrite nth_error_app2 by lia.
    replace (length (flat_map sec_all before) + Z.to_nat d - length (flat_map sec_all before))%nat with (Z.to_nat d) by lia.
    rewrite nth_error_app1; [exact Hl|]. apply nth_error_Some. congruence. }
  exists (mk_line_err (Z.of_nat (true_line pre before) + d) e). split; [|split; [assumption|split]].
  - rewrite (osb_error_line dbg s pre before x rest tail o d e H He Hr Hc), B. do 2 f_equal. lia.
  - reflexivity.
  - unfold osb_error_with_line, display_error_with_line. cbn [le_line le_err].
    replace (Z.to_nat (Z.of_nat (true_line pre before) + d))
      with (true_line pre before + Z.to_nat d)%nat by lia.
    now rewrite T.
Qed.

(** ** indentation *)
Lemma push_at_expected n : forall i ind c cs e b, ind = (i + n)%nat -> push_at n i ind c cs = RErr (InvalidIndentation e b) ->
  (e <= 1)%nat \/ forall a, (i <= a <= e)%nat -> exists cs', pushed cs c (a - i + 1) cs'.
Proof.
  induction n as [|n IH]; intros i ind c cs e b Hi H; cbn [push_at] in H; [discriminate|].
  destruct (last_opt_cases cs) as [[-> E]|(l & k & -> & E)]; rewrite E in H.
  { right. intros a Ha. injection H as He _. assert (a - i + 1 = 1)%nat as -> by (destruct (Nat.eqb_spec i 1); lia). eexists. constructor. }
  destruct (cmd_subs k) as [s|] eqn:Ek; [|left; assert (e = 1%nat) by congruence; lia].
  destruct (Nat.eqb_spec (i + 1) ind) as [Ei|Ei]; [discriminate|].
  destruct (push_at n (i + 1) ind c s) as [x|[e' b']|p] eqn:P; cbn [rmap] in H; try discriminate. injection H as <- <-.
  destruct (IH (i + 1)%nat ind c s e' b' ltac:(lia) P) as [K|K]; [now left|]. right. intros a Ha.
  destruct (Nat.eq_dec a i) as [->|Na]; [replace (i - i + 1)%nat with 1%nat by lia; eexists; constructor|].
  destruct (K a ltac:(lia)) as [s' Hs]. replace (a - i + 1)%nat with (S (a - (i + 1) + 1)) by lia. eexists. apply pushed_inside with s; [exact Ek|exact Hs].
Qed.
Lemma push_expected cs c n e b : (1 <= n)%nat -> try_push_cmd cs c n = RErr (InvalidIndentation e b) ->
  b = n /\ (e = 0%nat \/ exists cs', pushed cs c e cs').
Proof.
  intros Hn H. pose proof (try_push_spec cs c n Hn) as W. rewrite H in W. destruct W as [-> _]. split; [easy|].
  unfold try_push_cmd in H. destruct (Nat.eqb_spec n 1) as [->|N1]; [discriminate|].
  destruct (last_opt cs); [|injection H as <-; right; eexists; constructor].
  destruct (push_at_expected (n - 1) 1 n c cs e n ltac:(lia) H) as [K|K].
  - destruct e as [|[|e]]; [now left|right; eexists; constructor|lia].
  - destruct e as [|e]; [now left|]. right. destruct (K (S e) ltac:(lia)) as [x Hx]. exists x. now replace (S e - 1 + 1)%nat with (S e) in Hx by lia.
Qed.
Lemma indentation_says cs c n err : (1 <= n)%nat -> try_push_cmd cs c n = RErr err ->
  exists e, push_message err = lit "Invalid indentation, expected " ++ print_Z (Z.of_nat e) ++ lit ", got " ++ print_Z (Z.of_nat n)
  /\ (e = 0%nat \/ exists cs', try_push_cmd cs c e = ROk cs').
Proof.
  intros Hn H. destruct err as [e b]. destruct (push_expected cs c n e b Hn H) as [-> K]. exists e. split; [easy|].
  destruct K as [K|[x K]]; [now left|]. right. exists x. now apply try_push_iff.
Qed.
