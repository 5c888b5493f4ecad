(** C50: the key/value sections are read entry by entry.  C05, C33: the shorthand flags. *)
From Coq Require Import String List NArith ZArith Bool.
From Verif Require Import Str Num Dec Parsers General Editor Metadata Difficulty HitObjects OsuFile Spec SpecWf SpecKv SpecText SpecSections
  SpecFile SpecWhole SpecBack SpecKvRead SpecFlags Samples KvRead Flags.
Import ListNotations.
Local Open Scope N_scope.

(** C50. Every text is a list of entries and a rest ([C19_every_text_has_entries]); what comes
    of it is what [general_reads] and so on say: the first entry with a key seen before, an
    unknown key or a bad value is the error, at its line, and otherwise every field holds the
    value of the entry of its key and nothing else. *)
Theorem C50_general : forall es t v,
  entries_ok es = true -> rest_after es t = true ->
  general_from_str (kv_text es ++ t) v = rmap Some (general_reads v es t).
Proof. exact general_reads_eq. Qed.
Print Assumptions C50_general.
Theorem C50_editor : forall es t v,
  entries_ok es = true -> rest_after es t = true ->
  editor_from_str (kv_text es ++ t) v = rmap Some (editor_reads es t).
Proof. exact editor_reads_eq. Qed.
Print Assumptions C50_editor.
Theorem C50_metadata : forall es t v,
  entries_ok es = true -> rest_after es t = true ->
  metadata_from_str (kv_text es ++ t) v = rmap Some (metadata_reads es t).
Proof. exact metadata_reads_eq. Qed.
Print Assumptions C50_metadata.
Theorem C50_difficulty : forall es t v,
  entries_ok es = true -> rest_after es t = true ->
  difficulty_from_str (kv_text es ++ t) v = rmap Some (difficulty_reads es t).
Proof. exact difficulty_reads_eq. Qed.
Print Assumptions C50_difficulty.
Definition C50_entry (k r : string) : kv_entry := (lit k, lit r, [13; 10]).
Example C50_ex :
  let es := [C50_entry "Mode" "3"; C50_entry "AudioFilename" " a: b.mp3"; C50_entry "EpilepsyWarning" "1"; C50_entry "EditorBookmarks" "1,-2"] in
  entries_ok es = true /\ rest_after es [] = true
  /\ general_reads 9%Z es []
     = ROk (mk_general (Some (lit "a: b.mp3")) None None None None None None None None None None None None None (Some true) None None None None
              (Some [1; -2]%Z) None)
  /\ general_mode (match general_reads 10%Z es [] with ROk g => g | _ => general_new end) = Some MMania
  /\ general_reads 9%Z (es ++ [C50_entry "LetterboxInBreaks" "2"; C50_entry "What" "1"]) []
     = RErr (mk_line_err 4%Z (GenBool BoolInvalidValue))
  /\ general_reads 9%Z (es ++ [C50_entry "Mode" "3"; C50_entry "What" "1"]) [] = RErr (mk_line_err 4%Z GenDup)
  /\ general_reads 9%Z [C50_entry "EditorBookmarks" "1,,2"] [] = RErr (mk_line_err 0%Z GenCommaList)
  /\ general_reads 9%Z es (lit "Mode") = RErr (mk_line_err 4%Z GenColonSet)
  /\ metadata_reads [C50_entry "Tags" "a  b"; C50_entry "BeatmapID" "7"] []
     = ROk (mk_metadata None None None None None None None (Some [lit "a"; []; lit "b"]) (Some 7%Z) None)
  /\ metadata_reads [C50_entry "BeatmapID" "7a"] [] = RPanic PUnwrap
  /\ editor_reads [C50_entry "GridSize" "-8"] [] = ROk (mk_editor None None None (Some (-8)%Z) None None)
  /\ difficulty_reads [C50_entry "CircleSize" "4.20"; C50_entry "HPDrainRate" "x"] []
     = ROk (mk_difficulty (Some (DRaw (lit "x"))) (Some (DNum (mkDec false 420 2))) None None None None).
Proof. vm_compute. repeat split. Qed.

(** C05. A slider with edge sets or a hit sample shows its lists, whatever the two shorthand
    flags say: it is written as [settled o], and this comes back. *)
Theorem C05_flags : forall v l, (3 <= v)%Z -> forallb (ho_can v) (map settled l) = true ->
  starts_ok (map (fun o => pos_x (ho_position o)) l) = true ->
  exists s, hit_objects_to_string l v = ROk (Some s)
  /\ hit_objects_from_str s v = ROk (Some (map (fun o => ho_back v (settled o)) l)).
Proof. exact settled_back. Qed.
Print Assumptions C05_flags.
(** Every slider is settled into one whose flags say what is there. *)
Theorem C05_flags_agree : forall o p,
  ho_obj_params (settled o) = Slider p -> shorthand_ok p (ho_hitsample (settled o)) = true.
Proof. exact settled_short. Qed.
Print Assumptions C05_flags_agree.
(** C33. The same of whole files. *)
Theorem C33_flags : forall dbg f, file_can (file_settled f) = true ->
  exists t, osu_to_string dbg f = ROk t /\ osu_from_str dbg t = ROk (file_back (file_settled f)).
Proof. exact file_flags. Qed.
Print Assumptions C33_flags.
Definition C05_flagged (sample : option hit_sample) (sets : list edge_set) : hit_object :=
  mk_ho (mk_pos (num 1) (num 2)) (num 300) (Slider (mk_slide Linear [] 1 (num 50) [] true sets true)) false 0%Z
    (mk_hit_sound false false false false) sample.
Example C05_flags_ex :
  let l := [C05_flagged (Some (mk_hit_sample SsSoft SsNone HiTimingPoint None [])) []; C05_flagged None [mk_edge_set SsDrum SsNormal]; C05_flagged None []] in
  forallb (ho_can 14%Z) (map settled l) = true /\ starts_ok (map (fun o => pos_x (ho_position o)) l) = true
  /\ forallb (ho_can 14%Z) l = false
  /\ hit_objects_to_string l 14%Z
     = ROk (Some (text_of_lines [lit "1,2,300,2,0,L,1,50,,,2:0:0:0:"; lit "1,2,300,2,0,L,1,50,,3:1"; lit "1,2,300,2,0,L,1,50"]))
  /\ map settled l <> l
  /\ file_can (file_settled (mk_osu 14%Z None None None None None None None None (Some l))) = true.
Proof. vm_compute. repeat split. discriminate. Qed.
