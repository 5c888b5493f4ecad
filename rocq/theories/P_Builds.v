(** C70: a build with overflow checks and one without agree, except where the former panics. *)
From Coq Require Import String List NArith ZArith Bool.
From Verif Require Import Str Num Dec Parsers Storyboard NormalEvents Events Osb OsuFile SpecText SpecTotal SpecParts SpecLate SpecCut SpecPrint SpecTypes
  Builds.
Import ListNotations.
Local Open Scope N_scope.

(** A file is read the same, or the build with the checks panics: because the file ends with a
    section without a line, or because of a late time in a file of version 3 or 4. *)
Theorem C70_osu : forall s, osu_from_str true s = osu_from_str false s
  \/ osu_from_str true s = RPanic POverflow
     /\ exists v n cs, osu_parts s v n cs
        /\ (ends_empty cs
            \/ old_version v = true
               /\ exists x l, In x cs /\ ch_name x = lit "Events" /\ In l (lines (ch_body x)) /\ late_event l).
Proof. exact osu_same. Qed.
Print Assumptions C70_osu.
(** A storyboard is read and printed the same, always. *)
Theorem C70_osb : forall s v, osb_from_str true s v = osb_from_str false s v.
Proof. exact osb_same. Qed.
Print Assumptions C70_osb.
Theorem C70_append : forall f s, append_osb true f s = append_osb false f s.
Proof. exact append_same. Qed.
Print Assumptions C70_append.
Theorem C70_osb_print : forall o v, osb_to_string true o v = osb_to_string false o v.
Proof. exact osb_print_same. Qed.
Print Assumptions C70_osb_print.
(** A file is printed the same, or it is of version 3 or 4 and has an event so early that its
    time less 24 is no [i32]. *)
Theorem C70_print : forall f, osu_to_string true f = osu_to_string false f
  \/ osu_to_string true f = RPanic POverflow
     /\ old_version (osu_version f) = true /\ Exists (fun t => in_i32 (t - 24) = false) (clock_times f).
Proof. exact print_same. Qed.
Print Assumptions C70_print.
(** What a build with the checks reads is read by the other one too, as the same value, and both
    print it the same. *)
Theorem C70_checked : forall s f, osu_from_str true s = ROk f ->
  osu_from_str false s = ROk f /\ osu_to_string true f = osu_to_string false f.
Proof. exact checked_same. Qed.
Print Assumptions C70_checked.
(** The converse is false: one build may read a file that the other one can neither read nor,
    given the value, print. *)
Theorem C70_unchecked_refuted : exists s f, osu_from_str false s = ROk f
  /\ osu_from_str true s = RPanic POverflow /\ osu_to_string true f = RPanic POverflow /\ osu_to_string false f = ROk s.
Proof.
  exists (lit "osu file format v3" ++ [10; 10] ++ lit "[Events]" ++ [10] ++ lit "2,5,2147483640").
  exists (mk_osu 3%Z None None None None None (Some [EBreak (mk_brk 29 (-2147483632) true)]) None None None). repeat split; vm_compute; reflexivity.
Qed.
Print Assumptions C70_unchecked_refuted.
(** The lists of the storyboard commands: both builds do the same but for a push after a single
    incomplete entry and a change in an empty list. *)
Theorem C70_lists : forall T,
  (forall (c : continuing T) f, len_ok (ct_rest c) -> cont_push true c f = cont_push false c f \/ exists x, ct_rest c = [(x, None)])
  /\ (forall (c : continuing T) i f, len_ok (ct_rest c) -> (0 <= i < 2 ^ 64)%Z -> cont_set true c i f = cont_set false c i f \/ ct_rest c = [])
  /\ (forall c f, len_ok (sbc_rest c) -> sbc_push true c f = sbc_push false c f \/ exists x, sbc_rest c = [x] /\ ~ full_rgb x)
  /\ (forall c i f, len_ok (sbc_rest c) -> (0 <= i < 2 ^ 64)%Z -> sbc_set true c i f = sbc_set false c i f \/ sbc_rest c = []).
Proof. exact @lists_same. Qed.
Print Assumptions C70_lists.

Definition C70_text (l : list string) : str := text_of_lines (map lit l).
Definition C70_same (s : str) : Prop := osu_from_str true s = osu_from_str false s.
(** An old file with a break that is not late is the same in both; files with errors too. *)
Example C70_osu_ex :
  (exists f, osu_from_str true (C70_text ["osu file format v3"; "[Events]"; "2,5,100"]%string) = ROk f /\ C70_same (C70_text ["osu file format v3"; "[Events]"; "2,5,100"]%string))
  /\ (exists e, osu_from_str true (C70_text ["osu file format v3"; "[Events]"; "2,5,x"; "2,5,2147483640"]%string) = RErr e
      /\ osu_from_str false (C70_text ["osu file format v3"; "[Events]"; "2,5,x"; "2,5,2147483640"]%string) = RErr e)
  /\ osu_from_str true (C70_text ["osu file format v3"; "[Events]"; "2,5,2147483640"]%string) = RPanic POverflow
  /\ (exists f, osu_from_str false (C70_text ["osu file format v3"; "[Events]"; "2,5,2147483640"]%string) = ROk f)
  /\ osu_from_str true (C70_text ["osu file format v14"; "[Events]"]%string) = RPanic POverflow
  /\ exists f, osu_from_str false (C70_text ["osu file format v14"; "[Events]"]%string) = ROk f.
Proof.
  repeat split; try (vm_compute; reflexivity).
  - eexists. split; vm_compute; reflexivity.
  - eexists. split; vm_compute; reflexivity.
  - eexists. vm_compute. reflexivity.
  - eexists. vm_compute. reflexivity.
Qed.
Example C70_print_ex :
  let f v t := mk_osu v None None None None None (Some [EBreak (mk_brk 0 t true)]) None None None in
  (exists t, osu_to_string true (f 3%Z 100%Z) = ROk t /\ osu_to_string false (f 3%Z 100%Z) = ROk t)
  /\ osu_to_string true (f 3%Z (-2147483640)%Z) = RPanic POverflow
  /\ (exists t, osu_to_string false (f 3%Z (-2147483640)%Z) = ROk t)
  /\ exists t, osu_to_string true (f 5%Z (-2147483640)%Z) = ROk t /\ osu_to_string false (f 5%Z (-2147483640)%Z) = ROk t.
Proof.
  repeat split; try (vm_compute; reflexivity); eexists; try split; vm_compute; reflexivity.
Qed.
Example C70_lists_ex :
  cont_push true (mk_cont (1, 2) [(3, None)])%Z (6, None)%Z = RPanic POverflow
  /\ cont_push false (mk_cont (1, 2) [(3, None)])%Z (6, None)%Z = ROk (mk_cont (1, 2) [(3, Some 2); (6, None)])%Z
  /\ cont_push true (mk_cont (1, 2) [(3, Some 4); (5, None)])%Z (6, None)%Z = cont_push false (mk_cont (1, 2) [(3, Some 4); (5, None)])%Z (6, None)%Z
  /\ cont_set true (mk_cont (1, 2) [])%Z 0 (6, None)%Z = RPanic POverflow
  /\ cont_set false (mk_cont (1, 2) [])%Z 0 (6, None)%Z = RErr CsInvalidSecondFieldOption.
Proof. vm_compute. repeat split. Qed.
