(** Messages are one line (C44). *)
From Coq Require Import String List NArith ZArith Bool.
From Verif Require Import Str Num Nom Dec Parsers General Editor Metadata Difficulty Colours TimingPoints HitObjects Storyboard
  NormalEvents Events Osb OsuFile Api Messages SpecWf StrFacts FieldFacts.
Import ListNotations.
Local Open Scope N_scope.

Ltac flat := intros e; destruct e; reflexivity.
Lemma int_flat : forall e, no_nl (int_message e) = true. Proof. flat. Qed.
Lemma bool_flat : forall e, no_nl (bool_message e) = true. Proof. destruct e; [apply int_flat|reflexivity]. Qed.
Lemma general_flat : forall e, no_nl (general_message e) = true.
Proof.
  destruct e; try reflexivity; cbn [general_message].
  - apply int_flat.
  - apply bool_flat.
  - destruct e; reflexivity.
  - destruct e; [reflexivity|apply int_flat].
Qed.
Lemma editor_flat : forall e, no_nl (editor_message e) = true. Proof. destruct e; try reflexivity. apply int_flat. Qed.
Lemma metadata_flat : forall e, no_nl (metadata_message e) = true. Proof. flat. Qed.
Lemma difficulty_flat : forall e, no_nl (difficulty_message e) = true. Proof. flat. Qed.
Lemma colour_flat : forall e, no_nl (colour_message e) = true. Proof. destruct e; try reflexivity. destruct e; reflexivity. Qed.
Lemma tp_flat : forall e, no_nl (tp_message e) = true. Proof. flat. Qed.
Lemma ho_flat : forall e, no_nl (ho_message e) = true. Proof. flat. Qed.
Lemma cmd_flat : forall e, no_nl (cmd_message e) = true. Proof. flat. Qed.
Lemma ob_flat : forall e, no_nl (ob_message e) = true. Proof. flat. Qed.
Lemma push_flat : forall e, no_nl (push_message e) = true.
Proof. destruct e; try reflexivity. unfold push_message. rewrite !no_nl_app, !print_Z_no_nl. reflexivity. Qed.
Lemma ev_flat : forall e, no_nl (ev_message e) = true.
Proof.
  destruct e; try reflexivity; cbn [ev_message]; try (destruct e; reflexivity); first [apply push_flat|apply cmd_flat|apply ob_flat].
Qed.
Lemma osu_flat : forall e, no_nl (osu_message e) = true.
Proof.
  destruct e; try reflexivity; cbn [osu_message];
    first [apply general_flat|apply editor_flat|apply metadata_flat|apply difficulty_flat|apply ev_flat|apply tp_flat|apply colour_flat|apply ho_flat].
Qed.
Lemma osb_flat : forall e, no_nl (osb_message e) = true.
Proof. destruct e; try reflexivity; cbn [osb_message]; [destruct e; reflexivity|apply ev_flat]. Qed.
Lemma no_nl_in s : no_nl s = true -> ~ In 10 s.
Proof. unfold no_nl. rewrite forallb_forall. intros H Hi. specialize (H _ Hi). discriminate H. Qed.
Lemma text_flat {E} (show : E -> str) e : no_nl (show (le_err e)) = true -> no_nl (error_to_string show e) = true.
Proof. intros H. unfold error_to_string. rewrite !no_nl_app, print_Z_no_nl, H. reflexivity. Qed.
Lemma with_line_flat {E} (show : E -> str) e s : no_nl (show (le_err e)) = true -> no_nl (display_error_with_line show e s) = true.
Proof.
  intros H. unfold display_error_with_line. rewrite !no_nl_app, print_Z_no_nl, H.
  destruct (nth_error _ _) as [l|] eqn:El; [|reflexivity].
  pose proof (lines_no_nl s) as Hl. rewrite forallb_forall in Hl. rewrite (Hl l (nth_error_In _ _ El)). reflexivity.
Qed.
Lemma one_line : (forall e s, ~ In 10 (osu_error_text e) /\ ~ In 10 (osu_error_with_line e s))
  /\ (forall e s, ~ In 10 (osb_error_text e) /\ ~ In 10 (osb_error_with_line e s)).
Proof.
  split; intros e s; (split; apply no_nl_in).
  - exact (text_flat osu_message e (osu_flat _)).
  - exact (with_line_flat osu_message e s (osu_flat _)).
  - exact (text_flat osb_message e (osb_flat _)).
  - exact (with_line_flat osb_message e s (osb_flat _)).
Qed.
