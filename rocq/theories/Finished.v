(** What follows a section that is finished has no effect on it (C69). *)
From Coq Require Import String List NArith ZArith Bool Lia.
From Verif Require Import Str Num Nom Dec Parsers General Editor Metadata Difficulty Colours TimingPoints HitObjects Storyboard
  NormalEvents Events Osb OsuFile Spec SpecWf SpecKv SpecText SpecSections SpecFile SpecTotal SpecOsb SpecLine SpecEvLine SpecEvents
  SpecEvSection SpecKvRead SpecParts SpecMeans SpecEnds SpecEdit SpecCut StrFacts KvFacts KvRead KvStatements Means EvPanic EvSection FileTheorems
  Parts Ends Edit TpFacts FileFacts TotalFacts Cut SpecFinished.
Import ListNotations.
Local Open Scope N_scope.

Lemma found_first (a b : list chunk) name : In (lit name) (map ch_name a) ->
  find (fun x => str_eqb (ch_name x) (lit name)) (a ++ b) = find (fun x => str_eqb (ch_name x) (lit name)) a.
Proof.
  induction a as [|y a IH]; cbn [app map In find]; [easy|]. intros [H|H].
  - apply str_eqb_eq in H. now rewrite H.
  - now destruct (str_eqb (ch_name y) (lit name)); [|apply IH].
Qed.
Lemma section_above {A E} (rd : str -> res (option A) E) a b name : In (lit name) (map ch_name a) -> section_of (a ++ b) name rd = section_of a name rd.
Proof. intros H. unfold section_of. now rewrite found_first. Qed.
(** A finished section is among the sections of a longer text, with the same ones above it. *)
Lemma finished_kept cs' cs name : cut_chunks cs' cs -> finished cs' name -> exists p q, In (lit name) (map ch_name p) /\ cs = p ++ q /\ exists q', q' <> [] /\ cs' = p ++ q' /\ p = removelast cs'.
Proof.
  intros H (a & x & b & E & En & Nb).
  assert (Hin : In (lit name) (map ch_name (removelast cs'))).
  { rewrite E, removelast_app by easy. rewrite map_app. apply in_or_app. right. destruct b; [easy|]. now left. }
  assert (Hl : cs' <> []) by (rewrite E; now destruct a).
  destruct (exists_last Hl) as (p & y & Ep). exists p. rewrite Ep in Hin |- *. rewrite removelast_last in Hin |- *.
  destruct H as [c [(H1 & d & H2)|(x' & z & d & H1 & H2 & _)]].
  - exists ([y] ++ d). split; [easy|]. split; [rewrite H2, <- H1, Ep; now rewrite <- app_assoc|]. now exists [y].
  - rewrite Ep in H1. apply app_inj_tail in H1 as [-> ->]. exists (z :: d). split; [easy|]. split; [easy|]. now exists [x'].
Qed.
Lemma finished_section {A E} (rd : str -> res (option A) E) cs' c1 c2 name : cut_chunks cs' c1 -> cut_chunks cs' c2 -> finished cs' name ->
  section_of c1 name rd = section_of c2 name rd.
Proof.
  intros H1 H2 F. destruct (finished_kept _ _ _ H1 F) as (p1 & q1 & I1 & -> & _ & _ & _ & P1). destruct (finished_kept _ _ _ H2 F) as (p2 & q2 & I2 & -> & _ & _ & _ & P2).
  rewrite !section_above by easy. congruence.
Qed.
Lemma finished_variables cs' c1 c2 : cut_chunks cs' c1 -> cut_chunks cs' c2 -> finished cs' "Events" -> variables_above c1 = variables_above c2.
Proof.
  intros H1 H2 F. destruct (finished_kept _ _ _ H1 F) as (p1 & q1 & I1 & -> & _ & _ & _ & P1). destruct (finished_kept _ _ _ H2 F) as (p2 & q2 & I2 & -> & _ & _ & _ & P2).
  rewrite P1, P2. apply above_below. now rewrite <- P1.
Qed.
Lemma read_parts dbg s f : osu_from_str dbg s = ROk f -> exists n cs, osu_parts s (osu_version f) n cs /\ f = osu_of dbg (osu_version f) cs.
Proof.
  intros Hr. destruct (osu_cases s) as [H|[H|[(k & H)|(v & n & cs & Hp)]]].
  - apply (version_missing dbg) in H as [j H]. congruence.
  - apply (version_invalid dbg) in H as [j H]. congruence.
  - now rewrite (total_stray dbg s k H) in Hr.
  - destruct (osu_read_inv dbg s v n cs f Hp Hr) as [_ K].
    assert (Ev : osu_version f = v) by (rewrite K; now unfold osu_of). exists n, cs. rewrite Ev. now split.
Qed.
Lemma osu_finished dbg s1 s2 p m1 m2 f1 f2 : osu_from_str dbg s1 = ROk f1 -> osu_from_str dbg s2 = ROk f2 ->
  lines s1 = lines p ++ m1 -> lines s2 = lines p ++ m2 -> forallb layout_char p = false ->
  osu_version f1 = osu_version f2 /\ exists n cs, osu_parts p (osu_version f1) n cs
  /\ (finished cs "General" -> osu_general f1 = osu_general f2)
  /\ (finished cs "Editor" -> osu_editor f1 = osu_editor f2)
  /\ (finished cs "Metadata" -> osu_metadata f1 = osu_metadata f2)
  /\ (finished cs "Difficulty" -> osu_difficulty f1 = osu_difficulty f2)
  /\ (finished cs "Events" -> osu_events f1 = osu_events f2)
  /\ (finished cs "TimingPoints" -> osu_timing_points f1 = osu_timing_points f2)
  /\ (finished cs "Colours" -> osu_colours f1 = osu_colours f2)
  /\ (finished cs "HitObjects" -> osu_hitobjects f1 = osu_hitobjects f2).
Proof.
  intros R1 R2 L1 L2 Hl. destruct (read_parts dbg s1 f1 R1) as (n1 & c1 & P1 & E1). destruct (read_parts dbg s2 f2 R2) as (n2 & c2 & P2 & E2).
  destruct (parts_cut_plain s1 p m1 _ n1 c1 L1 P1) as [H|(n & cs & Q1 & C1)]; [congruence|].
  destruct (parts_cut_plain s2 p m2 _ n2 c2 L2 P2) as [H|(n' & cs' & Q2 & C2)]; [congruence|].
  destruct (osu_parts_unique p _ n cs _ n' cs' Q1 Q2) as (Ev & -> & _). split; [easy|]. exists n, cs. split; [easy|].
  rewrite Ev in E2. remember (osu_version f1) as v. clear Heqv. subst f1 f2. unfold osu_of. cbn [osu_general osu_editor osu_metadata osu_difficulty osu_events osu_timing_points osu_colours osu_hitobjects].
  repeat split; intros F; now apply finished_section with cs.
Qed.
Lemma osb_finished dbg s1 s2 p m1 m2 f1 f2 : osb_from_str dbg s1 14%Z = ROk (Some f1) -> osb_from_str dbg s2 14%Z = ROk (Some f2) ->
  lines s1 = lines p ++ m1 -> lines s2 = lines p ++ m2 ->
  exists n cs, osb_parts p n cs
  /\ (finished cs "Variables" -> osb_variables f1 = osb_variables f2)
  /\ (finished cs "Events" -> osb_events f1 = osb_events f2).
Proof.
  intros R1 R2 L1 L2. destruct (osb_cases s1) as [(k & H)|(n1 & c1 & P1)]; [now rewrite (osb_stray_read dbg s1 k H) in R1|].
  destruct (osb_cases s2) as [(k & H)|(n2 & c2 & P2)]; [now rewrite (osb_stray_read dbg s2 k H) in R2|].
  destruct (osb_read_inv dbg s1 n1 c1 f1 P1 R1) as [_ ->]. destruct (osb_read_inv dbg s2 n2 c2 f2 P2 R2) as [_ ->].
  destruct (osb_parts_plain s1 p m1 n1 c1 L1 P1) as (n & cs & Q1 & C1). destruct (osb_parts_plain s2 p m2 n2 c2 L2 P2) as (n' & cs' & Q2 & C2).
  destruct (osb_parts_unique p n cs n' cs' Q1 Q2) as (-> & _). exists n, cs. split; [easy|]. unfold osb_of. cbn [osb_variables osb_events].
  split; intros F; [now apply finished_section with cs|]. rewrite (finished_variables cs c1 c2 C1 C2 F). now apply finished_section with cs.
Qed.
(** A text that is cut off anywhere, perhaps inside a line. *)
Lemma osu_inside dbg a l' r f f' : osu_from_str dbg (a ++ [10] ++ l' ++ r) = ROk f -> osu_from_str dbg (a ++ [10] ++ l') = ROk f' ->
  forallb layout_char a = false ->
  osu_version f' = osu_version f /\ exists n cs, osu_parts (a ++ [10]) (osu_version f') n cs
  /\ (finished cs "General" -> osu_general f' = osu_general f)
  /\ (finished cs "Editor" -> osu_editor f' = osu_editor f)
  /\ (finished cs "Metadata" -> osu_metadata f' = osu_metadata f)
  /\ (finished cs "Difficulty" -> osu_difficulty f' = osu_difficulty f)
  /\ (finished cs "Events" -> osu_events f' = osu_events f)
  /\ (finished cs "TimingPoints" -> osu_timing_points f' = osu_timing_points f)
  /\ (finished cs "Colours" -> osu_colours f' = osu_colours f)
  /\ (finished cs "HitObjects" -> osu_hitobjects f' = osu_hitobjects f).
Proof.
  intros R1 R2 Hl. eapply (osu_finished dbg _ _ (a ++ [10])); [exact R2|exact R1|apply lines_cut|apply lines_cut|]. rewrite forallb_app, Hl. reflexivity.
Qed.
