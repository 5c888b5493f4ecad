(** Lemmas about the texts of the errors. *)
From Coq Require Import String List NArith ZArith Bool Lia.
From Verif Require Import Str Num Nom Dec Parsers General Editor Metadata Difficulty Colours
  TimingPoints HitObjects Storyboard NormalEvents Events Osb OsuFile Api Messages Spec SpecText
  SpecFile FileLoop FileTheorems NumFacts FieldFacts HelperFacts SpecMsg.
Import ListNotations.
Local Open Scope N_scope.

Ltac tell := intros [] []; first [reflexivity | intros H; vm_compute in H; discriminate H | idtac].

Lemma int_tell : forall a b, int_message a = int_message b -> a = b.
Proof. tell. Qed.
Lemma tp_tell : forall a b, tp_message a = tp_message b -> a = b.
Proof. tell. Qed.
Lemma ho_tell : forall a b, ho_message a = ho_message b -> a = b.
Proof. tell. Qed.
Lemma bg_tell : forall a b, bg_message a = bg_message b -> a = b.
Proof. tell. Qed.
Lemma vid_tell : forall a b, vid_message a = vid_message b -> a = b.
Proof. tell. Qed.
Lemma brk_tell : forall a b, brk_message a = brk_message b -> a = b.
Proof. tell. Qed.
Lemma ct_tell : forall a b, ct_message a = ct_message b -> a = b.
Proof. tell. Qed.
Lemma leg_tell : forall a b, leg_message a = leg_message b -> a = b.
Proof. tell. Qed.
Lemma sl_tell : forall a b, sl_message a = sl_message b -> a = b.
Proof. tell. Qed.
Lemma au_tell : forall a b, au_message a = au_message b -> a = b.
Proof. tell. Qed.
Lemma ob_tell : forall a b, ob_message a = ob_message b -> a = b.
Proof. tell. Qed.
Lemma md_tell : forall a b, metadata_message a = metadata_message b -> a = b.
Proof. tell. Qed.
Lemma df_tell : forall a b, difficulty_message a = difficulty_message b -> a = b.
Proof. tell. Qed.
Lemma col_tell : forall a b, colour_message a = colour_message b -> a = b.
Proof.
  intros [| |[]|] [| |[]|]; first [reflexivity | intros H; vm_compute in H; discriminate H].
Qed.
Lemma ed_tell : forall a b, editor_message a = editor_message b -> a = b.
Proof.
  intros [[]| | | |] [[]| | | |]; first [reflexivity | intros H; vm_compute in H; discriminate H].
Qed.
Lemma cmd_tell : forall a b, cmd_message a = cmd_message b ->
  a = b \/ (a = CmdInvalidContinuingScale /\ b = CmdInvalidContinuingScales)
  \/ (a = CmdInvalidContinuingScales /\ b = CmdInvalidContinuingScale).
Proof.
  intros [] []; first [left; reflexivity | right; left; now split | right; right; now split
                      | intros H; vm_compute in H; discriminate H].
Qed.

Lemma comma_split a b x y : forallb num_char a = true -> forallb num_char b = true ->
  (a ++ 44 :: x)%list = (b ++ 44 :: y)%list -> a = b /\ x = y.
Proof.
  revert b. induction a as [|c a IH]; intros [|d b] Ha Hb H; cbn [app] in H.
  - injection H as ->. now split.
  - injection H as <- _. now apply andb_true_iff in Hb as [Hb _].
  - injection H as -> _. now apply andb_true_iff in Ha as [Ha _].
  - injection H as <- H. cbn [forallb] in Ha, Hb. apply andb_true_iff in Ha as [_ Ha].
    apply andb_true_iff in Hb as [_ Hb]. destruct (IH b Ha Hb H) as [-> ->]. now split.
Qed.
Lemma push_tell : forall a b, push_message a = push_message b -> a = b.
Proof.
  intros [a b] [c d] H. cbn [push_message] in H. apply app_inv_head in H.
  change (lit ", got ") with (44 :: lit " got ") in H. cbn [app] in H.
  apply comma_split in H as [H1 H2]; try apply print_Z_chars.
  apply app_inv_head in H2. apply print_Z_inj in H1, H2. f_equal; lia.
Qed.
Lemma text_tell : forall a b, osu_error_text a = osu_error_text b ->
  le_line a = le_line b /\ osu_message (le_err a) = osu_message (le_err b).
Proof.
  intros [j e] [j' e'] H. unfold osu_error_text, error_to_string in H. cbn [le_line le_err] in *.
  apply app_inv_head in H.
  change (lit ", ") with (44 :: lit " ") in H. cbn [app] in H.
  apply comma_split in H as [H1 H2]; try apply print_Z_chars.
  apply (app_inv_head (lit " ")) in H2. apply print_Z_inj in H1. split; [lia|assumption].
Qed.

Lemma shows_line dbg s n v pre before x rest tail f0 d e l :
  file_layout s (repeat 10 n) v pre (before ++ x :: rest) tail -> ended tail = true ->
  all_read dbg v before (osu_new v) f0 -> complaint dbg v before x d e ->
  forallb (fun y => negb (blank_end y)) before = true ->
  nth_error (sec_all x) (Z.to_nat d) = Some l -> (0 <= d)%Z ->
  exists err, osu_from_str dbg s = RErr err
    /\ nth_error (lines s) (n + true_line pre before + Z.to_nat d) = Some l
    /\ osu_error_text err
       = lit "Line " ++ print_Z (Z.of_nat (n + true_line pre before) + d + 1) ++ lit ", " ++ osu_message e
    /\ osu_error_with_line err s
       = lit "Line " ++ print_Z (Z.of_nat (n + true_line pre before) + d + 1) ++ lit ": " ++ l
         ++ lit ", " ++ osu_message e.
Proof.
  intros H He Hr Hc Hb Hl Hd.
  assert (B : blank_ends before = 0%Z).
  { clear -Hb. unfold blank_ends. induction before as [|y before IH]; [reflexivity|].
    cbn [forallb filter] in *. apply andb_true_iff in Hb as [Hy Hb].
    apply negb_true_iff in Hy. rewrite Hy. now apply IH. }
  assert (T : nth_error (lines s) (n + true_line pre before + Z.to_nat d) = Some l).
  { rewrite <- Hl. apply (line_there s n v pre before x rest tail); [assumption|].
    apply nth_error_Some. congruence. }
  exists (mk_line_err (Z.of_nat (n + true_line pre before) + d) e). split; [|split; [assumption|split]].
  - rewrite (error_line dbg s n v pre before x rest tail f0 d e H He Hr Hc), B. do 2 f_equal. lia.
  - reflexivity.
  - unfold osu_error_with_line, display_error_with_line. cbn [le_line le_err].
    replace (Z.to_nat (Z.of_nat (n + true_line pre before) + d))
      with (n + true_line pre before + Z.to_nat d)%nat by lia.
    now rewrite T.
Qed.

Lemma general_tell : forall a b, general_message a = general_message b ->
  a = b \/ (exists i, passed_on a = Some i /\ passed_on b = Some i)
  \/ (countdown_number a = true /\ countdown_number b = true).
Proof.
  intros [[]|[[]|]|[|[]]|[|[]]| | | | | |] [[]|[[]|]|[|[]]|[|[]]| | | | | |];
    first [left; reflexivity | right; left; eexists; split; reflexivity | right; right; split; reflexivity
          | intros H; vm_compute in H; discriminate H].
Qed.
