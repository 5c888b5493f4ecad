(** Samples for the examples in [P_Late]. *)
From Coq Require Import String List NArith ZArith Bool Lia.
From Verif Require Import Str Num Nom Dec Parsers TimingPoints OsuFile Spec SpecWf SpecText SpecSections SpecFile SpecTotal SpecLate NumFacts
  OldPanic TotalSamples.
Import ListNotations.
Local Open Scope N_scope.

Lemma int_128 : int_text true (lit "128") 128%Z.
Proof. apply (i32_accepts (lit "128") 128%Z). reflexivity. Qed.
Lemma late_break : i32_text (lit "-5") /\ late_i32 (lit "2147483640").
Proof.
  split.
  - exists (-5)%Z. apply (i32_accepts (lit "-5") (-5)%Z). reflexivity.
  - exists 2147483640%Z. split; [apply (i32_accepts (lit "2147483640") 2147483640%Z); reflexivity|lia].
Qed.
Definition chunk_timing : chunk := mk_chunk (lit "TimingPoints") nl (lit "100,300,4,1,1").
Definition sample_old : str := lit "osu file format v4" ++ nl ++ nl ++ lit "[TimingPoints]" ++ nl ++ lit "100,300,4,1,1".
(** the earliest and the latest time that version 4 can read *)
Definition sample_edge : str := lit "osu file format v4" ++ nl ++ nl ++ lit "[TimingPoints]" ++ nl
  ++ lit "-79228162514264337593543950335,300,4,1,1" ++ nl ++ lit "79228162514264337593543950311,300,4,1,1".
Lemma sample_old_chunks : file_chunks sample_old 4%Z [chunk_timing].
Proof.
  eexists [], (lit "4"), _, [[]; []], _. split.
  - assert (E : sample_old = [] ++ [] ++ version_prefix ++ lit "4" ++ (nl ++ nl ++ lit "[TimingPoints]" ++ nl ++ lit "100,300,4,1,1")) by reflexivity.
    rewrite E. apply vh; [reflexivity|now left|reflexivity|]. right. eexists _, _. split; [reflexivity|now left].
  - split; [split; [apply (u8_accepts (lit "4") 4%Z); reflexivity|lia]|]. split; [vm_compute; reflexivity|]. split; [reflexivity|]. split; [reflexivity|].
    apply (fa_section [] chunk_timing []); [reflexivity|reflexivity|now left|exact fa_nil].
Qed.
Lemma timing_not_late l : In l (lines (ch_body chunk_timing)) -> ~ late_timing l.
Proof.
  intros [<-|[]] H. apply (tp_late 4%Z _ eq_refl) in H as [p H]. vm_compute in H. discriminate H.
Qed.
