(** Sample files for the examples of C40. *)
From Coq Require Import String List NArith ZArith Bool Lia.
From Verif Require Import Str Num Nom Dec Parsers OsuFile Spec SpecText SpecFile SpecTotal FileSamples TotalFacts.
Import ListNotations.
Local Open Scope N_scope.

Definition v14 : str := lit "osu file format v14".
Definition nl : str := [10].
Definition chunk_general : chunk := mk_chunk (lit "General") nl (lit "Mode: 0" ++ nl).
Definition chunk_colours : chunk := mk_chunk (lit "Colours") nl (lit "Combo1 : 1,2,3").
Definition chunk_empty : chunk := mk_chunk (lit "General") [] [].
Definition sample_two : str := v14 ++ nl ++ nl ++ lit "[General]" ++ nl ++ lit "Mode: 0" ++ nl ++ nl ++ lit "[Colours]" ++ nl ++ lit "Combo1 : 1,2,3".
Definition sample_twice : str := v14 ++ nl ++ nl ++ lit "[Colours]" ++ nl ++ lit "Combo1 : 1,2,3" ++ nl ++ lit "[Colours]" ++ nl ++ lit "Combo1 : 1,2,3".
Definition sample_empty : str := v14 ++ nl ++ nl ++ lit "[Colours]" ++ nl ++ lit "Combo1 : 1,2,3" ++ nl ++ lit "[General]" ++ nl.
Definition sample_stray : str := v14 ++ nl ++ lit "// note" ++ nl ++ lit "stray" ++ nl ++ lit "[General]".
Definition sample_hidden : str := v14 ++ nl ++ lit "// see [1]" ++ nl ++ lit "[General]" ++ nl ++ lit "Mode: 7".

Lemma head14 r c t : r = c :: t -> c = 10 -> version_head (v14 ++ r) [] (lit "14") r.
Proof.
  intros Hr Hc. assert (E : v14 ++ r = [] ++ [] ++ version_prefix ++ lit "14" ++ r) by reflexivity. rewrite E.
  apply vh; [reflexivity|now left|reflexivity|]. right. exists c, t. split; [exact Hr|now left].
Qed.
Lemma fa_tail more cs : falls_apart more cs -> forall x, chunk_ok x = true -> (more = [] \/ ch_body x <> [] /\ exists t, more = [10; 91] ++ t) ->
  forall w, forallb layout_char w = true -> falls_apart (w ++ chunk_text x ++ more) (x :: cs).
Proof. intros H x Hx Hm w Hw. now apply fa_section. Qed.
Lemma fa_nil : falls_apart [] [].
Proof. apply fa_end. intros w n r _ _ E. destruct w; discriminate E. Qed.
Lemma sample_two_chunks : file_chunks sample_two 14%Z [chunk_general; chunk_colours].
Proof.
  eexists [], (lit "14"), _, [[]; []], _. split; [eapply head14; reflexivity|]. split; [exact version_14|].
  split; [vm_compute; reflexivity|]. split; [reflexivity|]. split; [reflexivity|].
  apply (fa_section [] chunk_general (nl ++ chunk_text chunk_colours ++ [])); [reflexivity|reflexivity| |].
  - right. split; [discriminate|]. eexists. reflexivity.
  - apply (fa_section nl chunk_colours []); [reflexivity|reflexivity|now left|exact fa_nil].
Qed.
Lemma sample_twice_chunks : file_chunks sample_twice 14%Z [chunk_colours; chunk_colours].
Proof.
  eexists [], (lit "14"), _, [[]; []], _. split; [eapply head14; reflexivity|]. split; [exact version_14|].
  split; [vm_compute; reflexivity|]. split; [reflexivity|]. split; [reflexivity|].
  apply (fa_section [] chunk_colours (nl ++ chunk_text chunk_colours ++ [])); [reflexivity|reflexivity| |].
  - right. split; [discriminate|]. eexists. reflexivity.
  - apply (fa_section nl chunk_colours []); [reflexivity|reflexivity|now left|exact fa_nil].
Qed.
Lemma sample_empty_chunks : file_chunks sample_empty 14%Z [chunk_colours; chunk_empty].
Proof.
  eexists [], (lit "14"), _, [[]; []], _. split; [eapply head14; reflexivity|]. split; [exact version_14|].
  split; [vm_compute; reflexivity|]. split; [reflexivity|]. split; [reflexivity|].
  apply (fa_section [] chunk_colours (nl ++ chunk_text chunk_empty ++ [])); [reflexivity|reflexivity| |].
  - right. split; [discriminate|]. eexists. reflexivity.
  - apply (fa_section nl chunk_empty []); [reflexivity|reflexivity|now left|exact fa_nil].
Qed.
Lemma sample_stray_line : file_stray sample_stray 2.
Proof.
  eexists [], (lit "14"), _, 14%Z, [[]; lit "// note"], (lit "stray"), _. split; [eapply head14; reflexivity|]. split; [exact version_14|].
  split; [vm_compute; reflexivity|]. repeat split; reflexivity.
Qed.
Lemma sample_hidden_chunks : file_chunks sample_hidden 14%Z [].
Proof.
  eexists [], (lit "14"), _, [[]], _. split; [eapply head14; reflexivity|]. split; [exact version_14|].
  split; [vm_compute; reflexivity|]. split; [reflexivity|]. split; [reflexivity|].
  apply fa_end. intros w n r Hw _ E. destruct w as [|c w]; [discriminate E|]. injection E as E _. subst c. discriminate Hw.
Qed.
