(** Property theorems C13 and C37: the [Events] section as a whole. *)
From Coq Require Import String List NArith ZArith Bool.
From Verif Require Import Str Num Nom Dec Parsers Storyboard NormalEvents Events
  SpecWf SpecText SpecTypes SpecCmd SpecEvents EvLoop EvImage EvPanic.
Import ListNotations.
Local Open Scope N_scope.

(** ** C37: text and round trip *)
(** The printed section has the line of every event, each followed by its commands in
    pre-order, one space deeper for every level. *)
Theorem C37_events_text : forall dbg v l t, forallb (own_ok v) l = true ->
  (events_to_string dbg l v = ROk (Some t) <-> exists ls, events_lines v l ls /\ t = text_of_lines ls).
Proof. exact events_text. Qed.
Print Assumptions C37_events_text.
(** Events that can be written are read back: the same events in the same order with the
    same command trees. *)
Theorem C37_events_round_trip : forall dbg v l, forallb (event_ok v) l = true ->
  exists t, events_to_string dbg l v = ROk (Some t) /\ events_from_str dbg t v = ROk (Some l).
Proof. exact events_round_trip. Qed.
Print Assumptions C37_events_round_trip.
(** Whatever is read can be written and read again: the same events, with quotes around
    the paths that need them, and without the colour transformations in version 14. *)
Theorem C37_events_reread : forall dbg s v l, dbg = true \/ old_version v = false ->
  forallb no_cr (lines s) = true -> events_from_str dbg s v = ROk (Some l) ->
  forallb (event_ok v) (written v l) = true
  /\ exists t, events_to_string dbg l v = ROk (Some t) /\ events_from_str dbg t v = ROk (Some (written v l)).
Proof. intros dbg s v l H1 H2 H3. exact (conj (written_events_ok _ _ _ _ H1 H2 H3) (events_reread _ _ _ _ H1 H2 H3)). Qed.
Print Assumptions C37_events_reread.

Definition C37_text : str := join [10]
  [lit "//Background and video"; lit "0,0,""a b.jpg"",0,0"; lit "Video,-5,v.avi"; lit "2,100,200";
   lit "Sprite,Pass,Centre,sb/x.png,320,240"; lit " L,10,3"; lit "  F,0,0,,0.5"; lit " T,HitSoundClap,0,5";
   lit "  MX,33,0,5,1,2.50"; lit "Animation,Fail,12,f.png,1,-2,7,1.25,LoopOnce"; lit "Sample,3,2,s.wav,60"].
Definition C37_move : command := mk_cmd (Some 0%Z) (PMoveX EzBounceOut (Some 5%Z) (DNum (mkDec false 1 0)) [DNum (mkDec false 250 2)]).
Definition C37_list : list event :=
  [EComment (lit "Background and video");
   EBackground (mk_bg 0 (lit """a b.jpg""") (Some (mk_pos (DNum (mkDec false 0 0)) (DNum (mkDec false 0 0)))) []);
   EVideo (mk_vid (-5) (lit "v.avi") None [] false);
   EBreak (mk_brk 100 200 true);
   EObject (mk_obj LyPass (mk_origin (OLeft OtCentre) false) (mk_pos (DNum (mkDec false 320 0)) (DNum (mkDec false 240 0)))
     (ObSprite (lit "sb/x.png"))
     [mk_cmd (Some 10%Z) (PLoop 3 [mk_cmd (Some 0%Z) (PFade EzLinear None (DNum (mkDec false 5 1)) [])]);
      mk_cmd (Some 0%Z) (PTrigger (TtHitSound None None (Some AdClap) None) (Some 5%Z) None [C37_move])]);
   EObject (mk_obj LyFail (mk_origin (ORight 12) true) (mk_pos (DNum (mkDec false 1 0)) (DNum (mkDec true 2 0)))
     (ObAnimation 7 (mkDec false 125 2) LoopOnce (lit "f.png")) []);
   EAudioSample (mk_au 3 AlPass (lit "s.wav") 60)].
Example C37_ex :
  forallb (event_ok 14%Z) C37_list = true
  /\ events_to_string true C37_list 14%Z = ROk (Some C37_text)
  /\ events_from_str true C37_text 14%Z = ROk (Some C37_list).
Proof. vm_compute. auto. Qed.
(** The path gets quotes and the colour transformation is dropped. *)
Example C37_reread_ex :
  let s := join [10] [lit "0,0,a b.jpg"; lit "_F,0,5,,1"; []; lit "3,5,1,2,3"] in
  let f := mk_cmd (Some 5%Z) (PFade EzLinear None (DNum (mkDec false 1 0)) []) in
  let l := [EBackground (mk_bg 0 (lit "a b.jpg") None [f]); EColourTransformation (mk_ct 5 1 2 3)] in
  forallb no_cr (lines s) = true
  /\ events_from_str true s 14%Z = ROk (Some l)
  /\ written 14%Z l = [EBackground (mk_bg 0 (lit """a b.jpg""") None [f])]
  /\ events_to_string true l 14%Z = ROk (Some (join [10] [lit "0,0,""a b.jpg"""; lit " F,0,5,,1"]))
  /\ written 13%Z l = [EBackground (mk_bg 0 (lit """a b.jpg""") None [f]); EColourTransformation (mk_ct 5 1 2 3)].
Proof. vm_compute. repeat split. Qed.

(** ** C13: which lines make the reader panic *)
(** The line of an event, from version 5 on. *)
Theorem C13_event_line : forall dbg v s, old_version v = false ->
  ((exists p, ev_from_line dbg v s = RPanic p) <-> bad_number s \/ bad_loop_type s).
Proof. exact own_panic. Qed.
Print Assumptions C13_event_line.
(** The line of a command. *)
Theorem C13_command_line : forall s, (exists p, cmd_parse [] s = RPanic p) <-> bad_command s.
Proof. exact command_panic. Qed.
Print Assumptions C13_command_line.
(** The section panics at the first bad line and only there: the lines above it are read,
    and a bad command line is below an event that takes commands. *)
Theorem C13_section : forall dbg s v, old_version v = false ->
  ((exists p, events_from_str dbg s v = RPanic p) <->
   exists a l b evs, lines s = a ++ l :: b /\ events_from_str dbg (crlf_text a) v = ROk (Some evs)
     /\ bad_line l /\ (indented l = true -> takes_commands evs)).
Proof. exact section_panics. Qed.
Print Assumptions C13_section.
(** Without a bad line there is always a value or an error. *)
Theorem C13_safe : forall dbg v s p, old_version v = false ->
  (forall l, In l (lines s) -> ~ bad_line l) -> events_from_str dbg s v <> RPanic p.
Proof. exact calm_events. Qed.
Print Assumptions C13_safe.

Example C13_number_ex : bad_line (lit "0 ,0,a.jpg") /\ events_from_str false (lit "0 ,0,a.jpg") 14%Z = RPanic PUnwrap.
Proof.
  split; [|vm_compute; reflexivity]. split; [reflexivity|]. split; [reflexivity|]. cbn [indented is_indent]. left.
  exists (lit "0"), 32, (lit ",0,a.jpg"). split; [now left|]. split; [reflexivity|discriminate].
Qed.
Example C13_loop_ex :
  let l := lit "Animation,Fail,Centre,f.png,1,2,3,4,Loop" in
  bad_line l /\ events_from_str false l 14%Z = RPanic PUnreachable.
Proof.
  split; [|vm_compute; reflexivity]. split; [reflexivity|]. split; [reflexivity|]. right.
  exists (lit "Fail"), (lit "Centre"), (lit "f.png"), (lit "1"), (lit "2"), (lit "3"), (lit "4"), (lit "Loop").
  split; [reflexivity|]. split; [reflexivity|]. split; [now exists LyFail|]. split; [eexists; vm_compute; reflexivity|].
  split; [eexists; vm_compute; reflexivity|]. split; [eexists; vm_compute; reflexivity|]. split; discriminate.
Qed.
Example C13_trigger_ex :
  let s := join [10] [lit "Sprite,Pass,Centre,x.png,320,240"; lit " T,HitSound56,0,5"] in
  bad_line (lit " T,HitSound56,0,5") /\ events_from_str false s 14%Z = RPanic PUnreachable.
Proof.
  split; [|vm_compute; reflexivity]. split; [reflexivity|]. split; [reflexivity|]. cbn [indented is_indent]. right.
  exists [32], (lit "HitSound56"), (lit ",0,5"). split; [reflexivity|]. split; [reflexivity|]. split; [reflexivity|].
  split; [right; eexists; reflexivity|]. change (trim (lit "HitSound56")) with (lit "HitSound56").
  exists None, None, None, 5%Z, 54, []. repeat split; vm_compute; repeat constructor.
Qed.
Example C13_offset_ex :
  let s := lit "Sprite,Pass,Centre,x.png,320,240" ++ [10; 32; 12354] ++ lit ",0" in
  bad_line ([32; 12354] ++ lit ",0") /\ events_from_str false s 14%Z = RPanic PSlice.
Proof.
  split; [|vm_compute; reflexivity]. split; [reflexivity|]. split; [reflexivity|]. left.
  exists [32; 12354], (lit "0"). split; [reflexivity|]. split; [reflexivity|].
  intros p q H. destruct p as [|a [|b [|c [|d [|]]]]]; inversion H; subst; vm_compute; discriminate.
Qed.
Example C13_safe_ex :
  let s := join [10] [lit "//0x"; lit "2,100,x"; []; lit "7"] in
  (forall l, In l (lines s) -> ~ bad_line l)
  /\ events_from_str false s 14%Z = RErr (mk_line_err 1 (EvBreak BrInvalidEndTime)).
Proof.
  split; [|vm_compute; reflexivity]. intros l Hl (H1 & H2 & H3).
  destruct Hl as [<-|[<-|[<-|[<-|[]]]]]; [discriminate H2| |discriminate H1|];
    (destruct H3 as [(h & c & r & Hi & E & Hc)|(a & b & c & d & e & f & g & h & E & _)]; [|discriminate E]);
    repeat (destruct Hi as [<-|Hi]; [first [discriminate E|inversion E; congruence]|]); destruct Hi.
Qed.
