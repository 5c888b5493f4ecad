(** Facts for C40: what can make the reader of a file of version 3 or 4 panic. *)
From Coq Require Import String List NArith ZArith Bool Lia.
From Verif Require Import Str Num Nom Dec Parsers KeyValue General Editor Metadata Difficulty Colours
  TimingPoints HitObjects Storyboard NormalEvents Events Osb OsuFile Spec SpecText SpecKv SpecSections SpecEvents SpecFile SpecTotal SpecLate
  KvImage KvStatements TpFacts HoFacts FileFacts TotalFacts ColoursFacts EvPanic OldPanic.
Import ListNotations.
Local Open Scope N_scope.

Lemma total_safe_old dbg s v cs p : file_chunks s v cs -> old_version v = true -> no_empty dbg cs ->
  (forall x l, In x cs -> ch_name x = lit "Events" -> In l (lines (ch_body x)) -> ~ bad_line l /\ (dbg = true -> ~ late_event l)) ->
  (forall x l, In x cs -> ch_name x = lit "TimingPoints" -> In l (lines (ch_body x)) -> ~ late_timing l) ->
  (forall x l, In x cs -> ch_name x = lit "HitObjects" -> In l (lines (ch_body x)) -> ~ late_object l) ->
  (forall x es t e, In x cs -> ch_name x = lit "Metadata" -> ch_body x = kv_text es ++ t -> In e es -> id_key (entry_key e) -> i32_text (entry_value e)) ->
  osu_from_str dbg s <> RPanic p.
Proof.
  intros H Ho Hn He Ht Hh Hm Hp. assert (K : panics (osu_from_str dbg s)) by now exists p.
  apply (total_panic dbg s v cs H) in K as (before & x & g & ((rest & E) & _) & _ & Hb).
  assert (Hx : In x cs) by (rewrite E, in_app_iff; right; now left).
  assert (Hi : forall (s : str) a l b, lines s = a ++ l :: b -> In l (lines s)) by (intros s0 a l b ->; rewrite in_app_iff; right; now left).
  destruct Hb as [Hb|(-> & _ & Hb)]; [|specialize (Hn eq_refl); rewrite Forall_forall in Hn; exact (Hn x Hx Hb)].
  unfold breaks, panics in Hb. change (sec_name (ch_sec x)) with (ch_name x) in Hb. change (sec_body (ch_sec x)) with (ch_body x) in Hb.
  destruct Hb as [[_ [q Hb]]|[[_ [q Hb]]|[[N [q Hb]]|[[_ [q Hb]]|[[N Hb]|[[N Hb]|[[_ [q Hb]]|[N Hb]]]]]]]].
  - now apply general_np in Hb.
  - now apply editor_np in Hb.
  - apply metadata_panics in Hb as (_ & es1 & e & es2 & t & Eb & _ & _ & _ & _ & _ & Hid & Hv).
    apply Hv. apply (Hm x _ _ e Hx N Eb); [rewrite in_app_iff; right; now left|exact Hid].
  - now apply difficulty_np in Hb.
  - apply (events_late dbg _ v Ho) in Hb as (a & l & b & evs & El & _ & Hs). destruct (He x l Hx N (Hi _ _ _ _ El)) as [H1 H2].
    destruct Hs as [[Hs _]|[-> Hs]]; [easy|now apply H2].
  - apply (timing_late v _ Ho) in Hb as (a & l & b & ts & El & _ & Hs). exact (Ht x l Hx N (Hi _ _ _ _ El) Hs).
  - now apply colours_from_str_np in Hb.
  - apply (objects_late v _ Ho) in Hb as (a & l & b & ts & El & _ & Hs). exact (Hh x l Hx N (Hi _ _ _ _ El) Hs).
Qed.
