(** C33, for all versions: what becomes of a file that is written and read back. *)
From Coq Require Import String List NArith ZArith Bool.
From Verif Require Import Str Num Dec Parsers General Editor Metadata Difficulty Colours TimingPoints HitObjects
  Storyboard NormalEvents Events Osb OsuFile Spec SpecWf SpecText SpecSections SpecFile SpecEvents SpecOld SpecWhole SpecBack
  Samples KvSamples BackFacts BackSettle BackRead.
Import ListNotations.
Local Open Scope N_scope.

(** A file of any version from 3 to 14 whose sections can each be written is printed, and
    reading the text gives [file_back f]: what that version of the format does not hold is
    gone or replaced by its default, everything else is the same. *)
Theorem C33_every : forall dbg f, file_can f = true ->
  exists t secs, osu_to_string dbg f = ROk t
  /\ file_layout t [] (osu_version f) [[]; []] secs [] /\ map sec_name secs = names_of (file_back f)
  /\ osu_from_str dbg t = ROk (file_back f).
Proof. exact whole_any. Qed.
Print Assumptions C33_every.
(** The files of [C33_round_trip] are among them, and nothing else happens to these. *)
Theorem C33_every_new : forall f, file_ok f = true -> file_can f = true /\ file_back f = file_at f.
Proof. exact ok_can. Qed.
Print Assumptions C33_every_new.
(** What came back stays as it is, however often it is written and read. *)
Theorem C33_settles : forall dbg f, file_can f = true -> mode_known f = true ->
  exists t, osu_to_string dbg (file_back f) = ROk t /\ osu_from_str dbg t = ROk (file_back f).
Proof. exact file_settles. Qed.
Print Assumptions C33_settles.
Definition C33_any (v : version) : osu_file :=
  mk_osu v None (Some (mk_editor (Some [1; 2]%Z) None None None None (Some 7%Z))) None None None
    (Some [EBreak (mk_brk 100%Z 2500%Z true)]) (Some [tp1])
    (Some [Combo 1 (mk_rgb 255 128 0)]) (Some [ho1; ho2; ho3; ho4; ho5]).
Example C33_every_ex :
  forallb (fun v => file_can (C33_any v) && mode_known (C33_any v)) [3; 4; 5; 6; 7; 8; 9; 10; 11; 12; 13; 14]%Z = true
  /\ osu_to_string true (C33_any 3%Z)
     = ROk (text_of_lines [lit "osu file format v3"; []; lit "[Editor]"; lit "Bookmarks: 1,2"; []; lit "[Events]"; lit "2,76,2476"; [];
              lit "[TimingPoints]"; lit "128.5,-100"; []; lit "[HitObjects]"; lit "256,192,976,53,10,"; lit "1,2,-21,2,1,P|1:2|4:5|6:7,2,100.5,4,3:1|0:9";
              lit "1,2,-21,12,0,66"; lit "1,2,-21,128,0,20:"; lit "1,2,-21,2,0,B|1:2,1,7"])
  /\ osu_to_string true (C33_any 10%Z)
     = ROk (text_of_lines [lit "osu file format v10"; []; lit "[Editor]"; lit "Bookmarks: 1,2"; lit "CurrentTime: 7"; []; lit "[Events]"; lit "2,100,2500"; [];
              lit "[TimingPoints]"; lit "152.5,-100,4,2,2,70,1,9"; []; lit "[Colours]"; lit "Combo1 : 255,128,0"; [];
              lit "[HitObjects]"; lit "256,192,1000,53,10,2:0:2"; lit "1,2,3,2,1,P|4:5|6:7,2,100.5,4,3:1|0:9,0:0:0";
              lit "1,2,3,12,0,90"; lit "1,2,3,128,0,44:1:0:0"; lit "1,2,3,2,0,B,1,7"]).
Proof. vm_compute. repeat split. Qed.
(** What is lost: in version 3 all of a timing point but two fields, and the sample of a circle
    becomes the default one; zero loses its decimals. *)
Example C33_every_losses :
  tp_back 3%Z tp1 = mk_tp (DNum (mkDec false 1525 1)) (DNum (mkDec true 100 0)) 4%Z TsNormal (SiIndex 1%Z) 100%Z None None
  /\ ho_hitsample (ho_back 3%Z ho1) = Some (mk_hit_sample SsNone SsNone HiTimingPoint None [])
  /\ ho_hitsample (ho_back 4%Z ho1) = None
  /\ ho_hitsample (ho_back 11%Z ho1) = Some (mk_hit_sample SsSoft SsNone (HiIndex 2%Z) None [])
  /\ ho_back 12%Z ho1 = ho1
  /\ time_back 4%Z (DNum (mkDec false 0 2)) = DNum (mkDec false 0 0) /\ time_back 5%Z (DNum (mkDec false 0 2)) = DNum (mkDec false 0 2).
Proof. vm_compute. repeat split. Qed.
(** Without [mode_known] the second reading can fail: a mode the version does not have is
    written, and not read. *)
Theorem C33_settles_refuted : exists f t, file_can f = true
  /\ osu_to_string true (file_back f) = ROk t /\ forall g, osu_from_str true t <> ROk g.
Proof.
  exists (mk_osu 4%Z (Some (mk_general None None None None None None None (Some MMania) None None None None None None None None None None None None None))
            None None None None None None None None), (lit "osu file format v4" ++ [10; 10] ++ lit "[General]" ++ [10]).
  split; [vm_compute; reflexivity|]. split; [vm_compute; reflexivity|]. intros g H. vm_compute in H. discriminate H.
Qed.
Print Assumptions C33_settles_refuted.

(** Whatever is read, from a text of any version without stray carriage returns, can be saved
    and loaded again, and from then on saving and loading changes nothing. *)
Theorem C33_reread_every : forall dbg s f,
  osu_from_str dbg s = ROk f -> forallb no_cr (lines s) = true -> dbg = true \/ (5 <= osu_version f)%Z -> file_stays f = true ->
  let g := file_back (file_written f) in
  (exists t, osu_to_string dbg f = ROk t /\ osu_from_str dbg t = ROk g)
  /\ (exists t, osu_to_string dbg g = ROk t /\ osu_from_str dbg t = ROk g).
Proof. exact reread_any. Qed.
Print Assumptions C33_reread_every.
Definition C33_text3 : str :=
  crlf_text [lit "osu file format v3"; []; lit "[General]"; lit "AudioFilename: a.mp3"; lit "PreviewTime: 5"; [];
    lit "[Events]"; lit "0,0,a b.jpg,0,0"; lit "2,10,20"; []; lit "[TimingPoints]"; lit "0.50,344.8,x"; []; lit "[HitObjects]"; lit "1,2,300,1,0,"; lit "64,64,-24.0,2,0,B|64:64|128:64,1,75"].
Example C33_reread_every_ex :
  forallb no_cr (lines C33_text3) = true
  /\ match osu_from_str true C33_text3 with
     | ROk f => file_stays f = true
                /\ osu_to_string true f
                   = ROk (text_of_lines [lit "osu file format v3"; []; lit "[General]"; lit "AudioFilename: a.mp3"; lit "PreviewTime: 5"; [];
                            lit "[Events]"; lit "0,0,""a b.jpg"",0,0"; lit "2,10,20"; []; lit "[TimingPoints]"; lit "0.50,344.8,x"; [];
                            lit "[HitObjects]"; lit "1,2,300,1,0,"; lit "64,64,-24,2,0,B|64:64|128:64,1,75"])
     | _ => False
     end.
Proof. vm_compute. repeat split. Qed.
