(** C75: which errors a text can give. *)
From Coq Require Import String List NArith ZArith Bool.
From Verif Require Import Str Num Parsers General HitObjects TimingPoints Storyboard NormalEvents Events Osb OsuFile SpecErrors Errors.
Import ListNotations.
Local Open Scope N_scope.

(** C75. The errors of [osu_gives] are those that some text gives; the others are never reported. *)
Theorem C75_osu : forall e, osu_gives e = true <-> exists dbg s l, osu_from_str dbg s = RErr (mk_line_err l e).
Proof. exact osu_errors. Qed.
Print Assumptions C75_osu.
(** C75. So for storyboard files. *)
Theorem C75_osb : forall e, osb_gives e = true <-> exists dbg s l, osb_from_str dbg s 14%Z = RErr (mk_line_err l e).
Proof. exact osb_errors. Qed.
Print Assumptions C75_osb.
Example C75_given : osu_gives (OsuEvents (EvPush (InvalidIndentation 2 5))) = true
  /\ osu_from_str true (lit "osu file format v14
[Events]
Sprite,Pass,Centre,a,1,2
 L,0,1
  L,0,1
   L,0,1
     L,0,1") = RErr (mk_line_err 6 (OsuEvents (EvPush (InvalidIndentation 2 5)))).
Proof. vm_compute. split; reflexivity. Qed.
Example C75_never : forallb (fun e => negb (osu_gives e))
  [OsuTimingPoints TpInvalidTime; OsuHitObjects HoInvalidX; OsuHitObjects HoInvalidEdgeSet; OsuGeneral (GenMode (GmInt INegOverflow));
   OsuEvents (EvCommand CmdInvalidStartScale); OsuEvents (EvObject ObInvalidLoopType); OsuEvents (EvPush (InvalidIndentation 2 4))] = true.
Proof. reflexivity. Qed.
Example C75_given_osb : osb_gives (OsbVariable VarMissingEquals) = true
  /\ osb_from_str true (lit "[Variables]
$a") 14%Z = RErr (mk_line_err 1 (OsbVariable VarMissingEquals)).
Proof. vm_compute. split; reflexivity. Qed.
