(** C66: the same text below another version line. *)
From Coq Require Import String List NArith ZArith Bool Lia.
From Verif Require Import Str Num Nom Dec Parsers KvFields General Editor Metadata Difficulty Colours
  TimingPoints HitObjects Storyboard NormalEvents Events Osb OsuFile NumFacts SpecSections SpecFile SpecNewer NewerFacts.
Import ListNotations.
Local Open Scope N_scope.

(** Two texts that differ in the number of the version line alone, [a] and [b] with [5 <= a <= b].
    What [b] reads, [a] reads too, except for game modes and the overlay position, which are gone
    where [a] does not have them; [a] refuses what [b] refuses, at the same line for the same
    reason, but for the two things of [newer_refuses]; and it panics where [b] does. *)
Theorem C66_same_text : forall dbg a b s t ws n m rest,
  version_head s ws n rest -> version_head t ws m rest ->
  version_text n a -> version_text m b -> (5 <= a)%Z -> (a <= b)%Z ->
  match osu_from_str dbg t with
  | ROk g => osu_from_str dbg s = ROk (seen_by a g)
  | RErr e => osu_from_str dbg s = RErr e \/ newer_refuses a b (le_err e)
  | RPanic p => osu_from_str dbg s = RPanic p
  end.
Proof. exact file_newer. Qed.
Print Assumptions C66_same_text.

(** Between 6 and 13 there are no exceptions. *)
Theorem C66_between : forall dbg a b s t ws n m rest,
  version_head s ws n rest -> version_head t ws m rest ->
  version_text n a -> version_text m b -> (6 <= a)%Z -> (a <= b)%Z -> (b <= 13)%Z ->
  osu_from_str dbg s = rmap (seen_by a) (osu_from_str dbg t).
Proof. exact file_between. Qed.
Print Assumptions C66_between.

(** A text that a version reads is read by every older version down to 5. *)
Theorem C66_older : forall dbg a b s t ws n m rest g,
  version_head s ws n rest -> version_head t ws m rest ->
  version_text n a -> version_text m b -> (5 <= a)%Z -> (a <= b)%Z ->
  osu_from_str dbg t = ROk g -> osu_from_str dbg s = ROk (seen_by a g).
Proof. exact file_older. Qed.
Print Assumptions C66_older.

(** The other way round it is read, or refused for one of the two reasons. *)
Theorem C66_later : forall dbg a b s t ws n m rest f,
  version_head s ws n rest -> version_head t ws m rest ->
  version_text n a -> version_text m b -> (5 <= a)%Z -> (a <= b)%Z ->
  osu_from_str dbg s = ROk f ->
  (exists g, osu_from_str dbg t = ROk g /\ f = seen_by a g)
  \/ exists j e, osu_from_str dbg t = RErr (mk_line_err j e) /\ newer_refuses a b e.
Proof. exact file_later. Qed.
Print Assumptions C66_later.

(** Version 9 reads [mania_text] as version 14 does, but without mode and overlay position. *)
Example C66_older_ex : exists g h,
  osu_from_str true (under "14" mania_text) = ROk g /\ osu_from_str true (under "9" mania_text) = ROk (seen_by 9%Z g)
  /\ osu_general g = Some h /\ general_mode h = Some MMania /\ general_overlay_position h = Some OpAbove
  /\ option_map general_mode (osu_general (seen_by 9%Z g)) = Some None
  /\ option_map general_overlay_position (osu_general (seen_by 9%Z g)) = Some None
  /\ option_map general_audio_hash (osu_general (seen_by 9%Z g)) = Some (Some (lit "x")).
Proof.
  eexists _, _. split; [vm_compute; reflexivity|]. split; [|vm_compute; auto 10].
  refine (C66_older true 9%Z 14%Z _ (under "14" mania_text) [] (lit "9") (lit "14") mania_text _ (under_head "9" _ eq_refl) (under_head "14" _ eq_refl) _ _ _ _ _);
    [split; [|lia]|split; [|lia]|lia|lia|vm_compute; reflexivity].
  - apply (proj2 (print_Z_text 9%Z)). lia.
  - apply (proj2 (print_Z_text 14%Z)). lia.
Qed.

(** Both reasons of [newer_refuses] occur. *)
Theorem C66_later_refuted : exists r1 r2 f1 f2,
  osu_from_str true (under "13" r1) = ROk f1
  /\ osu_from_str true (under "14" r1) = RErr (mk_line_err 2 (OsuGeneral GenOverlay))
  /\ osu_from_str true (under "5" r2) = ROk f2
  /\ osu_from_str true (under "6" r2) = RErr (mk_line_err 2 (OsuTimingPoints TpMissingEffects)).
Proof.
  exists ([c_nl] ++ lit "[General]" ++ [c_nl] ++ lit "OverlayPosition: Top"),
         ([c_nl] ++ lit "[TimingPoints]" ++ [c_nl] ++ lit "1,2,4,1,0,50,1").
  eexists _, _. split; [vm_compute; reflexivity|]. split; [vm_compute; reflexivity|]. split; vm_compute; reflexivity.
Qed.
Print Assumptions C66_later_refuted.

(** Versions 3 and 4 are different: version 5 reads timing points that version 4 refuses, and
    version 4 skips a countdown that version 5 refuses. *)
Theorem C66_old_refuted : exists r1 r2 f1 f2 e1 e2,
  osu_from_str true (under "5" r1) = ROk f1 /\ osu_from_str true (under "4" r1) = RErr e1
  /\ osu_from_str true (under "4" r2) = ROk f2 /\ osu_from_str true (under "5" r2) = RErr e2.
Proof.
  exists ([c_nl] ++ lit "[TimingPoints]" ++ [c_nl] ++ lit "1,2,4,1,0,50,1,0"),
         ([c_nl] ++ lit "[General]" ++ [c_nl] ++ lit "Countdown: 9").
  eexists _, _, _, _. split; [vm_compute; reflexivity|]. split; [vm_compute; reflexivity|]. split; vm_compute; reflexivity.
Qed.
Print Assumptions C66_old_refuted.
