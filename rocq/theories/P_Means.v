(** C53: the reader of whole files and the rules agree. *)
From Coq Require Import String List NArith ZArith Bool.
From Verif Require Import Str Num Dec Parsers General Editor Metadata Difficulty Colours TimingPoints HitObjects Storyboard
  NormalEvents Events Osb OsuFile Spec SpecKv SpecText SpecFile SpecTotal SpecOsb SpecLine SpecEvLine SpecEvSection SpecKvRead SpecParts SpecMeans
  EvSection Means.
Import ListNotations.
Local Open Scope N_scope.

(** C53. The reader gives for a text exactly what the rules give: the value, the error with its
    line, or the panic.  There is one result for every text. *)
Theorem C53_osu : forall dbg s r, osu_from_str dbg s = r <-> file_means dbg s r.
Proof. exact file_means_iff. Qed.
Print Assumptions C53_osu.
Theorem C53_osb : forall dbg s r, osb_from_str dbg s 14%Z = rmap Some r <-> osb_means dbg s r.
Proof. exact osb_means_iff. Qed.
Print Assumptions C53_osb.
Theorem C53_osb_total : forall dbg s, exists r, osb_means dbg s r.
Proof. exact osb_total. Qed.
Print Assumptions C53_osb_total.
Definition C53_text (l : list string) : str := join [10] (map lit l).
Definition C53_file : list string :=
  ["osu file format v14"; ""; "[General]"; "Mode: 1"; ""; "[Events]"; "0,0,""a b.jpg"",0,0"; ""; "[TimingPoints]"; "0,500,4,2,0,60,1,0"; ""; "[Colours]"; "Combo1 : 1,2,3"]%string.
Example C53_ex :
  match osu_from_str true (C53_text C53_file) with
  | ROk f => file_means true (C53_text C53_file) (ROk f)
     /\ option_map general_mode (osu_general f) = Some (Some MTaiko)
     /\ osu_colours f = Some [Combo 1 (mk_rgb 1 2 3)] /\ osu_hitobjects f = None
  | _ => False
  end
  /\ file_means true (C53_text (C53_file ++ ["Combo2 : 1,2"]%string))
       (RErr (mk_line_err 10 (OsuColours (ColRgb RgbMissingBlue))))
  /\ file_means true (C53_text (C53_file ++ ["[Events]"; "x"]%string)) (RErr (mk_line_err 10 OsuDuplicateSections))
  /\ file_means true (C53_text ["osu file format v14"; "[Colours]"]%string) (RPanic POverflow)
  /\ file_means true (C53_text ["osu file format v4"; "[Colours]"; "x"]%string) (ROk (osu_new 4%Z))
  /\ osb_means true (C53_text ["[Variables]"; "$a=0.5"; "[Events]"; "4,0,0,x.png"; " F,0,0,,$a"]%string)
       (ROk (mk_osb (Some [mk_var (lit "a") (lit "0.5")])
          (Some [ESpriteLegacy (mk_leg LlBackground OtTopLeft (lit "x.png") None
             [mk_cmd (Some 0%Z) (PFade EzLinear None (DNum (mkDec false 5 1)) [])])]))).
Proof.
  split; [|split; [|split; [|split; [|split]]]]; [|apply C53_osu; vm_compute; reflexivity ..|apply C53_osb; vm_compute; reflexivity].
  destruct (osu_from_str true (C53_text C53_file)) as [f| |] eqn:E.
  - split; [now apply C53_osu|]. vm_compute in E. injection E as <-. now repeat split.
  - vm_compute in E. discriminate.
  - vm_compute in E. discriminate.
Qed.

(** C38. The section [Events] with the variables [vs]: the values are put in for the names in the
    lines of commands and nowhere else. *)
Theorem C38_section : forall dbg vs s v r,
  events_from_str_vars dbg vs s v = rmap Some r <-> ev_section dbg v vs 0 [] (lines s) r.
Proof. exact events_section_vars. Qed.
Print Assumptions C38_section.
Example C38_section_ex :
  ev_section true 14%Z [mk_var (lit "a") (lit "0,9"); mk_var (lit "F") (lit "M")] 0 []
    (map lit ["4,0,0,$a.png"; " $F,0,$a,$F,3"; " $F,0,$a,2,3"]%string)
    (RErr (mk_line_err 2 (EvCommand CmdUnknownCommandType)))
  /\ ev_section true 14%Z [mk_var (lit "a") (lit "0,9")] 0 [] (map lit ["4,0,0,$a.png"; " F,0,$a,0.5"]%string)
    (ROk [ESpriteLegacy (mk_leg LlBackground OtTopLeft (lit "$a.png") None
             [mk_cmd (Some 0%Z) (PFade EzLinear (Some 9%Z) (DNum (mkDec false 5 1)) [])])]).
Proof.
  split.
  - apply (C38_section true _ (join [10] (map lit ["4,0,0,$a.png"; " $F,0,$a,$F,3"; " $F,0,$a,2,3"]%string)) 14%Z). vm_compute. reflexivity.
  - apply (C38_section true _ (join [10] (map lit ["4,0,0,$a.png"; " F,0,$a,0.5"]%string)) 14%Z). vm_compute. reflexivity.
Qed.
