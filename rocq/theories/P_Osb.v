(** Property theorems C38 (variables) and C39 (storyboard files). *)
From Coq Require Import String List NArith ZArith Bool.
From Verif Require Import Str Num Nom Dec Parsers Storyboard NormalEvents Events Osb Spec SpecWf SpecText SpecTypes
  SpecCmd SpecEvents SpecFile SpecOsb OsbFacts VarEvents OsbRound.
Import ListNotations.
Local Open Scope N_scope.

(** ** C38: variables *)
(** A command line that refers to variables is read as the line with the values in their place. *)
Theorem C38_command_line : forall vars h l, vars_readable vars = true ->
  forallb (fun x => (x <? 128) && negb (x =? 44)) h = true -> no_dollar h = true -> Forall (tok_of vars) l ->
  cmd_parse vars (h ++ lit "," ++ shows l) = cmd_from_str (h ++ lit "," ++ fulls l).
Proof. exact cmd_expand. Qed.
Print Assumptions C38_command_line.
(** The events are read as the events without references that they stand for: the same
    events, the same error at the same line, or the same panic. *)
Theorem C38_events_read : forall dbg v vars s s', vars_readable vars = true -> Forall2 (stands_for vars) (lines s) (lines s') ->
  events_from_str_vars dbg vars s v = events_from_str dbg s' v.
Proof. exact events_expand. Qed.
Print Assumptions C38_events_read.
(** Events are printed with the names in place of the values, and that is read back. *)
Theorem C38_events_round_trip : forall dbg vars l, vars_ok vars = true -> forallb osb_event_ok l = true ->
  exists t, events_to_string_vars dbg vars l 14%Z = ROk (Some t) /\ events_from_str_vars dbg vars t 14%Z = ROk (Some l).
Proof. intros dbg vars l. exact (events_round_trip_vars dbg 14%Z vars l). Qed.
Print Assumptions C38_events_round_trip.

Definition C38_vars : list variable := [mk_var (lit "half") (lit "0.5"); mk_var (lit "end") (lit "7500")].
Definition C38_sprite (cs : list command) : event :=
  EObject (mk_obj LyPass (mk_origin (OLeft OtCentre) false) (mk_pos (DNum (mkDec false 320 0)) (DNum (mkDec false 240 0)))
    (ObSprite (lit "sb/x.png")) cs).
Definition C38_fade : command := mk_cmd (Some 0%Z) (PFade EzLinear (Some 7500%Z) (DNum (mkDec false 5 1)) []).
Example C38_ex :
  vars_ok C38_vars = true /\ vars_readable C38_vars = true /\ forallb osb_event_ok [C38_sprite [C38_fade]] = true
  /\ events_to_string_vars true C38_vars [C38_sprite [C38_fade]] 14%Z
     = ROk (Some (join [10] [lit "Sprite,Pass,Centre,sb/x.png,320,240"; lit " F,0,0,$end,$half"]))
  /\ cmd_parse C38_vars (lit " F,0,0,$end,$half") = ROk (Some C38_fade).
Proof. vm_compute. repeat split. Qed.
Example C38_stands_ex :
  let x := mk_var (lit "half") (lit "0.5") in
  Forall2 (stands_for [x]) (lines (lit "Sprite,Pass,Centre,$half,320,240" ++ [10] ++ lit " F,0,0,,$half"))
    (lines (lit "Sprite,Pass,Centre,$half,320,240" ++ [10] ++ lit " F,0,0,,0.5")).
Proof.
  change (lines (lit "Sprite,Pass,Centre,$half,320,240" ++ [10] ++ lit " F,0,0,,$half"))
    with [lit "Sprite,Pass,Centre,$half,320,240"; lit " F" ++ lit "," ++ shows (map TChar (lit "0,0,,") ++ [TRef (mk_var (lit "half") (lit "0.5"))])].
  change (lines (lit "Sprite,Pass,Centre,$half,320,240" ++ [10] ++ lit " F,0,0,,0.5"))
    with [lit "Sprite,Pass,Centre,$half,320,240"; lit " F" ++ lit "," ++ fulls (map TChar (lit "0,0,,") ++ [TRef (mk_var (lit "half") (lit "0.5"))])].
  constructor; [apply sf_event; reflexivity|]. constructor; [|constructor].
  apply sf_command; [reflexivity|reflexivity|reflexivity|]. repeat constructor; discriminate.
Qed.
(** Every condition is needed.  A name that begins with another name: *)
Theorem C38_prefix_names_refuted : exists vars l t, vars_readable vars = false
  /\ cmd_parse vars (lit " F,0,0,," ++ show (TRef (mk_var (lit "ab") (lit "2")))) = ROk (Some l)
  /\ cmd_from_str (lit " F,0,0,,2") = ROk (Some t) /\ l <> t.
Proof.
  exists [mk_var (lit "a") (lit "1"); mk_var (lit "ab") (lit "2")],
    (mk_cmd (Some 0%Z) (PFade EzLinear None (DRaw (lit "1b")) [])), (mk_cmd (Some 0%Z) (PFade EzLinear None (DNum (mkDec false 2 0)) [])).
  repeat split; try (vm_compute; reflexivity). discriminate.
Qed.
Print Assumptions C38_prefix_names_refuted.
(** An empty value: its name is printed between all characters, also those of other names. *)
Theorem C38_empty_value_refuted : exists vars e t, forallb osb_event_ok [e] = true
  /\ events_to_string_vars true vars [e] 14%Z = ROk (Some t)
  /\ events_from_str_vars true vars t 14%Z <> ROk (Some [e]).
Proof.
  exists [mk_var (lit "half") (lit "0.5"); mk_var (lit "n") []], (C38_sprite [C38_fade]).
  eexists. split; [vm_compute; reflexivity|]. split; [vm_compute; reflexivity|]. vm_compute. discriminate.
Qed.
Print Assumptions C38_empty_value_refuted.
(** A value that occurs in an earlier name: the printed name is itself replaced. *)
Theorem C38_value_in_name_refuted : exists vars e t, forallb osb_event_ok [e] = true
  /\ events_to_string_vars true vars [e] 14%Z = ROk (Some t)
  /\ events_from_str_vars true vars t 14%Z <> ROk (Some [e]).
Proof.
  exists [mk_var (lit "x5") (lit "7500"); mk_var (lit "y") (lit "5")], (C38_sprite [C38_fade]).
  eexists. split; [vm_compute; reflexivity|]. split; [vm_compute; reflexivity|]. vm_compute. discriminate.
Qed.
Print Assumptions C38_value_in_name_refuted.

(** ** C39: storyboard files *)
(** The variables of a section are exactly those on its lines. *)
Theorem C39_variables : forall body vs, variables_from_str body = ROk vs <-> variables_are body vs.
Proof. exact variables_iff. Qed.
Print Assumptions C39_variables.
Theorem C39_variables_no_panic : forall body p, variables_from_str body <> RPanic p.
Proof. exact variables_no_panic. Qed.
Print Assumptions C39_variables_no_panic.
(** A file is read exactly when its sections are [Variables] and [Events], each at most once,
    and can be read; the events see the variables of the sections above them. *)
Theorem C39_read : forall dbg s pre secs tail o, osb_layout s pre secs tail -> ended tail = true ->
  (osb_from_str dbg s 14%Z = ROk (Some o) <-> osb_all_read dbg secs o).
Proof. exact osb_read. Qed.
Print Assumptions C39_read.
(** An error is at its line, counted from the first line of the file, except that a section
    above that ends with a blank line counts one line less. *)
Theorem C39_error_line : forall dbg s pre before x rest tail o d e,
  osb_layout s pre (before ++ x :: rest) tail -> ended tail = true ->
  osb_all_read dbg before o -> osb_complaint dbg before (vars_or_none (osb_variables o)) x d e ->
  osb_from_str dbg s 14%Z = RErr (mk_line_err (Z.of_nat (true_line pre before) + d - blank_ends before) e).
Proof. exact osb_error_line. Qed.
Print Assumptions C39_error_line.
(** What can be written is read back. *)
Theorem C39_round_trip : forall dbg o, osb_ok o = true ->
  exists t, osb_to_string dbg o 14%Z = ROk (Some t) /\ osb_from_str dbg t 14%Z = ROk (Some o).
Proof. exact osb_round_trip. Qed.
Print Assumptions C39_round_trip.
(** Before version 14 there are no storyboard files. *)
Theorem C39_versions : forall dbg s o v, (v < 14)%Z -> osb_from_str dbg s v = ROk None /\ osb_to_string dbg o v = ROk None.
Proof. exact osb_old. Qed.
Print Assumptions C39_versions.

Definition C39_text : str := join [10]
  [lit "[Variables]"; lit "$half=0.5"; lit "$end=7500"; []; lit "[Events]"; lit "Sprite,Pass,Centre,sb/x.png,320,240"; lit " F,0,0,$end,$half"].
Definition C39_file : osb := mk_osb (Some C38_vars) (Some [C38_sprite [C38_fade]]).
Example C39_ex : osb_ok C39_file = true /\ osb_to_string true C39_file 14%Z = ROk (Some C39_text)
  /\ osb_from_str true C39_text 14%Z = ROk (Some C39_file).
Proof. vm_compute. repeat split. Qed.
Definition C39_secs : list sec :=
  [mk_sec (lit "Variables") 0 [lit "$half=0.5"; lit "$end=7500"; []];
   mk_sec (lit "Events") 0 [lit "Sprite,Pass,Centre,sb/x.png,320,240"; lit " F,0,0,$end,$half"]].
Example C39_layout_ex : osb_layout C39_text [] C39_secs [] /\ ended [] = true.
Proof. repeat split; vm_compute; reflexivity. Qed.
Example C39_variables_ex : variables_are (lit "$a=b=c" ++ [10; 32; 10] ++ lit "$=") [mk_var (lit "a") (lit "b=c"); mk_var [] []].
Proof. apply variables_iff. vm_compute. reflexivity. Qed.
(** The error is in line 7 (counted from 0) and is reported in line 6. *)
Example C39_error_ex : exists s pre before x o d,
  osb_layout s pre (before ++ x :: []) [] /\ osb_all_read true before o
  /\ osb_complaint true before (vars_or_none (osb_variables o)) x d (OsbEvents EvStoryboardCmdWithNoSprite)
  /\ Z.of_nat (true_line pre before) = 5%Z /\ d = 2%Z /\ blank_ends before = 1%Z
  /\ osb_from_str true s 14%Z = RErr (mk_line_err 6 (OsbEvents EvStoryboardCmdWithNoSprite)).
Proof.
  set (b := [mk_sec (lit "Variables") 0 [lit "$half=0.5"; lit "$end=7500"; []]]).
  set (x := mk_sec (lit "Events") 0 [lit "//x"; lit " F,0,0,$end,$half"]).
  set (s := join [10] (lit "// storyboard" :: flat_map sec_all (b ++ [x]))).
  exists s, [lit "// storyboard"], b, x, (mk_osb (Some C38_vars) None), 2%Z.
  split; [repeat split; vm_compute; reflexivity|]. split.
  - apply (proj1 (osb_read true (join [10] (flat_map sec_all b) ++ [10]) [] b [] _ ltac:(repeat split; vm_compute; reflexivity) eq_refl)). vm_compute. reflexivity.
  - split; [|repeat split; vm_compute; reflexivity].
    apply (osb_bad_event true b _ x 1%Z); [cbn; intros [H|[]]; discriminate|reflexivity|vm_compute; reflexivity].
Qed.
(** With the events above the variables the references are not replaced. *)
Theorem C39_order_refuted : exists s t o, osb_layout s [] C39_secs [] /\ osb_layout t [] (rev C39_secs) []
  /\ osb_from_str true s 14%Z = ROk (Some o)
  /\ osb_from_str true t 14%Z = RErr (mk_line_err 2 (OsbEvents (EvCommand CmdInvalidEndTime))).
Proof.
  exists (join [10] (flat_map sec_all C39_secs)), (join [10] (flat_map sec_all (rev C39_secs)) ++ [10]). eexists.
  split; [repeat split; vm_compute; reflexivity|]. split; [repeat split; vm_compute; reflexivity|].
  split; vm_compute; reflexivity.
Qed.
Print Assumptions C39_order_refuted.
(** An empty list of variables above the events swallows the events. *)
Theorem C39_empty_variables_refuted : exists l t, l <> [] /\ forallb osb_event_ok l = true
  /\ osb_to_string true (mk_osb (Some []) (Some l)) 14%Z = ROk (Some t)
  /\ osb_from_str true t 14%Z = RErr (mk_line_err 3 (OsbVariable VarMissingHeader)).
Proof. exists [C38_sprite []]. eexists. split; [discriminate|]. repeat split; vm_compute; reflexivity. Qed.
Print Assumptions C39_empty_variables_refuted.
