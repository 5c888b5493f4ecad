(** C61: which storyboard texts are read, refused or make the reader panic. *)
From Coq Require Import String List NArith ZArith Bool.
From Verif Require Import Str Num Nom Dec Parsers Storyboard NormalEvents Events Osb OsuFile Spec SpecWf SpecText SpecTypes SpecEvents SpecFile
  SpecEvSection SpecOsb SpecTotal SpecParts SpecTotalOsb TotalSamples EvSection OsbFacts TotalOsb.
Import ListNotations.
Local Open Scope N_scope.

(** The events panic exactly at the first line that stops the reader, after the values of the
    variables have been put in. *)
Theorem C61_events : forall dbg v vs s, old_version v = false ->
  (panics (events_from_str_vars dbg vs s v) <->
   exists a l b evs, lines s = a ++ l :: b /\ events_from_str_vars dbg vs (crlf_text a) v = ROk (Some evs)
     /\ bad_line_with vs l /\ (indented l = true -> takes_commands evs)).
Proof. exact events_with_panic. Qed.
Print Assumptions C61_events.
(** A text without a stray line (C51) is read exactly when its sections are [Variables] and
    [Events], each at most once, and can be read. *)
Theorem C61_read : forall dbg s n cs o, osb_parts s n cs ->
  (osb_from_str dbg s 14%Z = ROk (Some o) <-> osb_all_read dbg (map ch_sec cs) o).
Proof. exact (fun dbg s n cs o H => osb_total_read dbg s cs o (ex_intro _ n H)). Qed.
Print Assumptions C61_read.
(** It is refused exactly because of the first section that is twice there, unknown or refused. *)
Theorem C61_error : forall dbg s n cs e, osb_parts s n cs ->
  ((exists j, osb_from_str dbg s 14%Z = RErr (mk_line_err j e)) <->
   exists before x g d, osb_reaches dbg cs before x g
     /\ osb_complaint dbg (map ch_sec before) (vars_or_none (osb_variables g)) (ch_sec x) d e).
Proof. exact (fun dbg s n cs e H => osb_total_error dbg s cs e (ex_intro _ n H)). Qed.
Print Assumptions C61_error.
(** The reader panics exactly in the events. *)
Theorem C61_panic : forall dbg s n cs, osb_parts s n cs -> (panics (osb_from_str dbg s 14%Z) <->
  exists before x g, osb_reaches dbg cs before x g /\ ~ In (ch_name x) (map ch_name before) /\ ch_name x = lit "Events"
    /\ panics (events_from_str_vars dbg (vars_or_none (osb_variables g)) (ch_body x) 14%Z)).
Proof. exact (fun dbg s n cs H => osb_total_panic dbg s cs (ex_intro _ n H)). Qed.
Print Assumptions C61_panic.
(** Without lines that stop the reader there is no panic, in either build mode. *)
Theorem C61_safe : forall dbg s n cs p, osb_parts s n cs ->
  (forall before x g l, osb_reaches dbg cs before x g -> ch_name x = lit "Events" -> In l (lines (ch_body x)) ->
     ~ bad_line_with (vars_or_none (osb_variables g)) l) ->
  osb_from_str dbg s 14%Z <> RPanic p.
Proof. exact (fun dbg s n cs p H => osb_total_safe dbg s cs p (ex_intro _ n H)). Qed.
Print Assumptions C61_safe.
(** What does not begin like a section is dropped without a word, with all that follows. *)
Theorem C61_ignored : forall dbg s n, osb_parts s n [] -> osb_from_str dbg s 14%Z = ROk (Some (mk_osb None None)).
Proof. exact (fun dbg s n H => osb_total_ignored dbg s (ex_intro _ n H)). Qed.
Print Assumptions C61_ignored.

(** A command that is fine as it stands and stops the reader with the value of its variable. *)
Definition C61_var : variable := mk_var (lit "v") (lit "HitSound56").
Definition C61_line : str := lit " T,$v,0,5".
Definition C61_vars : chunk := mk_chunk (lit "Variables") nl (lit "$v=HitSound56").
Definition C61_evs : chunk := mk_chunk (lit "Events") nl (lit "Sprite,Pass,Centre,x,320,240" ++ nl ++ C61_line).
Definition C61_text : str := chunk_text C61_vars ++ nl ++ chunk_text C61_evs.
Example C61_line_ex : bad_line_with [C61_var] C61_line /\ ~ bad_line_with [] C61_line.
Proof.
  split.
  - split; [reflexivity|]. split; [reflexivity|]. change (indented C61_line) with true. right.
    exists (lit "$v,0,5"), (lit " T,HitSound56,0,5"). split; [|split].
    + right. exists (lit " T"), (lit "$v,0,5"), (lit " T,"). repeat split.
    + apply with_values_iff. vm_compute. reflexivity.
    + exists [32], (lit "HitSound56"), (lit ",0,5"). repeat split; [right; eexists; reflexivity|].
      change (trim (lit "HitSound56")) with (lit "HitSound56"). exists None, None, None, 5%Z, 54, []. repeat split; vm_compute; repeat constructor.
  - intros H. destruct (proj2 (step_with_panic false 14%Z [] [EObject (mk_obj LyPass (mk_origin (OLeft OtCentre) false) (mk_pos (DRaw []) (DRaw [])) (ObSprite []) [])] C61_line eq_refl eq_refl)) as [p K].
    + split; [exact H|]. intros _. eexists [], _. split; [reflexivity|easy].
    + revert K. vm_compute. discriminate.
Qed.
Example C61_panic_ex : osb_parts C61_text 0 [C61_vars; C61_evs]
  /\ osb_from_str true C61_text 14%Z = RPanic PUnreachable
  /\ osb_reaches true [C61_vars; C61_evs] [C61_vars] C61_evs (mk_osb (Some [C61_var]) None).
Proof.
  split; [|split; [vm_compute; reflexivity|]].
  - eexists [], _. split; [vm_compute; reflexivity|]. split; [reflexivity|]. split; [reflexivity|]. split.
    + apply (fa_section [] C61_vars (nl ++ chunk_text C61_evs ++ [])); [reflexivity|reflexivity| |].
      * right. split; [discriminate|]. eexists. reflexivity.
      * apply (fa_section nl C61_evs []); [reflexivity|reflexivity|now left|exact fa_nil].
    + right. eexists [], _. split; [vm_compute; reflexivity|]. split; reflexivity.
  - split; [now exists []|]. apply osb_goes_iff. eapply og_cons; [easy| |constructor].
    left. split; [reflexivity|]. exists [C61_var]. split; [|reflexivity]. apply variables_iff. vm_compute. reflexivity.
Qed.
(** Above the variables the name stays as it is, and is refused as a trigger. *)
Definition C61_above : str := chunk_text C61_evs ++ nl ++ chunk_text C61_vars.
Example C61_error_ex : osb_parts C61_above 0 [C61_evs; C61_vars]
  /\ exists e, osb_from_str true C61_above 14%Z = RErr (mk_line_err 2 (OsbEvents e)).
Proof.
  split; [|eexists; vm_compute; reflexivity].
  eexists [], _. split; [vm_compute; reflexivity|]. split; [reflexivity|]. split; [reflexivity|]. split.
  - apply (fa_section [] C61_evs (nl ++ chunk_text C61_vars ++ [])); [reflexivity|reflexivity| |].
    + right. split; [discriminate|]. eexists. reflexivity.
    + apply (fa_section nl C61_vars []); [reflexivity|reflexivity|now left|exact fa_nil].
  - right. eexists [], _. split; [vm_compute; reflexivity|]. split; reflexivity.
Qed.
(** An empty section is no panic here, unlike in .osu files (C40). *)
Definition C61_empty : str := chunk_text C61_vars ++ nl ++ lit "[Events]".
Example C61_safe_ex : osb_parts C61_empty 0 [C61_vars; mk_chunk (lit "Events") [] []]
  /\ osb_from_str true C61_empty 14%Z = ROk (Some (mk_osb (Some [C61_var]) (Some []))).
Proof.
  split; [|vm_compute; reflexivity].
  eexists [], _. split; [vm_compute; reflexivity|]. split; [reflexivity|]. split; [reflexivity|]. split.
  - apply (fa_section [] C61_vars (nl ++ chunk_text (mk_chunk (lit "Events") [] []) ++ [])); [reflexivity|reflexivity| |].
    + right. split; [discriminate|]. eexists. reflexivity.
    + apply (fa_section nl (mk_chunk (lit "Events") [] []) []); [reflexivity|reflexivity|now left|exact fa_nil].
  - right. eexists [], _. split; [vm_compute; reflexivity|]. split; reflexivity.
Qed.
Example C61_ignored_ex : osb_parts (lit "[Events" ++ nl ++ lit "Sprite,Pass,Centre,x,320,240") 0 []
  /\ osb_from_str true (lit "[Events" ++ nl ++ lit "Sprite,Pass,Centre,x,320,240") 14%Z = ROk (Some (mk_osb None None)).
Proof.
  split; [|vm_compute; reflexivity].
  eexists [], _. split; [vm_compute; reflexivity|]. split; [reflexivity|]. split; [reflexivity|]. split; [|now left].
  apply fa_end. intros w n r Hw Hn E. destruct w as [|c w].
  - do 9 (destruct n as [|? n]; [discriminate E|]; injection E as <- E || discriminate E; try discriminate Hn).
  - injection E as <- _. discriminate Hw.
Qed.
