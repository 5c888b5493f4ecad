(** C72: blanks in a line. *)
From Coq Require Import String List NArith ZArith Bool.
From Verif Require Import Str Num Nom Dec Parsers KeyValue General Editor Metadata Difficulty Colours TimingPoints HitObjects Storyboard NormalEvents Events Osb OsuFile
  Spec SpecText SpecFile SpecTotal SpecKv SpecLine SpecParts SpecBlanks FileSamples TotalFacts TotalSamples Blanks.
Import ListNotations.
Local Open Scope N_scope.

(** C72. A file that is read is read to the same value when blanks before keys and after colons, line
    breaks between entries, blanks anywhere in the lines of colours, and the space after a section name
    are changed. *)
Theorem C72_file : forall dbg s s' v n n' cs cs' f, osu_parts s v n cs -> osu_parts s' v n' cs' -> Forall2 respaced cs cs' ->
  osu_from_str dbg s = ROk f -> osu_from_str dbg s' = ROk f.
Proof. exact file_respaced. Qed.
Print Assumptions C72_file.
(** C72. So in a section of keys and values. *)
Theorem C72_keys : forall s s' v, keys_respaced s s' ->
  (forall x, general_from_str s v = ROk x -> general_from_str s' v = ROk x)
  /\ (forall x, editor_from_str s v = ROk x -> editor_from_str s' v = ROk x)
  /\ (forall x, metadata_from_str s v = ROk x -> metadata_from_str s' v = ROk x)
  /\ (forall x, difficulty_from_str s v = ROk x -> difficulty_from_str s' v = ROk x).
Proof. exact keys_read. Qed.
Print Assumptions C72_keys.
(** C72. With as many line breaks between entries, and an indented entry staying indented (the line number of
    an error counts the indentation as a line), errors, their lines and panics are the same too. *)
Theorem C72_keys_in_line : forall s s' v, keys_respaced_in_line s s' ->
  general_from_str s v = general_from_str s' v /\ editor_from_str s v = editor_from_str s' v
  /\ metadata_from_str s v = metadata_from_str s' v /\ difficulty_from_str s v = difficulty_from_str s' v.
Proof. exact keys_equal. Qed.
Print Assumptions C72_keys_in_line.
(** C72. A colour, and a section of them, is read to the same value without its blanks. *)
Theorem C72_colour : forall v l c, colour_from_str v l = ROk (Some c) -> colour_from_str v (without_blanks l) = ROk (Some c).
Proof. exact colour_without. Qed.
Print Assumptions C72_colour.
Theorem C72_colours : forall s s' v x, lines s' = map without_blanks (lines s) -> colours_from_str s v = ROk x -> colours_from_str s' v = ROk x.
Proof. exact colours_without. Qed.
Print Assumptions C72_colours.
(** C72. A key with a blank in it, such as one before the colon, is not a key: nothing is read. *)
Theorem C72_key_blank : forall es t s v, of_entries es t s -> (exists e, In e es /\ with_blank (entry_key e)) ->
  (forall x, general_from_str s v <> ROk x) /\ (forall x, editor_from_str s v <> ROk x)
  /\ (forall x, metadata_from_str s v <> ROk x) /\ (forall x, difficulty_from_str s v <> ROk x).
Proof. exact key_blank. Qed.
Print Assumptions C72_key_blank.
(** C72. An integer with a blank anywhere is not read. *)
Theorem C72_number_blank : forall s, with_blank s ->
  (forall z, parse_i32 s <> ROk z) /\ (forall z, parse_u8 s <> ROk z) /\ (forall z, parse_u32 s <> ROk z) /\ (forall z, parse_usize s <> ROk z).
Proof. exact number_blank. Qed.
Print Assumptions C72_number_blank.

Definition C72_plain : list chunk :=
  [mk_chunk (lit "Difficulty") nl (lit "CircleSize:  4" ++ nl ++ nl ++ lit "  OverallDifficulty: 5" ++ nl); mk_chunk (lit "Colours") nl (lit "Combo1  :  1 , 2,3")].
Definition C72_tight : list chunk :=
  [mk_chunk (lit "Difficulty") nl (lit "CircleSize:4" ++ nl ++ lit "OverallDifficulty:5" ++ nl); mk_chunk (lit "Colours") nl (lit "Combo1:1,2,3")].
Definition C72_text (cs : list chunk) : str := v14 ++ nl ++ join nl (map chunk_text cs).
Definition C72_es : list kv_entry := [(lit "CircleSize", lit "  4", nl ++ nl ++ lit "  "); (lit "OverallDifficulty", lit " 5", nl)].
Definition C72_es' : list kv_entry := [(lit "CircleSize", lit "4", nl); (lit "OverallDifficulty", lit "5", nl)].
Example C72_respaced_ex : Forall2 respaced C72_plain C72_tight.
Proof.
  repeat apply Forall2_cons; [| |apply Forall2_nil].
  - split; [reflexivity|]. right; left. split; [exists "Difficulty"%string; split; [right; right; right; now left|reflexivity]|].
    exists C72_es, C72_es', []. split; [|split]; [repeat split; vm_compute; reflexivity|repeat split; vm_compute; reflexivity|reflexivity].
  - split; [reflexivity|]. right; right. split; [reflexivity|vm_compute; reflexivity].
Qed.
Ltac C72_parts := 
  eexists [], (lit "14"), _, [[]], _; split; [eapply head14; reflexivity|]; split; [exact version_14|];
  split; [vm_compute; reflexivity|]; split; [reflexivity|]; split; [reflexivity|]; split;
    [|right; eexists [], _; split; [vm_compute; reflexivity|split; reflexivity]].
Example C72_parts_ex : osu_parts (C72_text C72_plain) 14%Z 1 C72_plain /\ osu_parts (C72_text C72_tight) 14%Z 1 C72_tight.
Proof.
  split; C72_parts.
  - apply (fa_section [] (nth 0 C72_plain chunk_empty) (nl ++ chunk_text (nth 1 C72_plain chunk_empty) ++ [])); [reflexivity|reflexivity|right; split; [discriminate|eexists; reflexivity]|].
    apply (fa_section nl (nth 1 C72_plain chunk_empty) []); [reflexivity|reflexivity|now left|exact fa_nil].
  - apply (fa_section [] (nth 0 C72_tight chunk_empty) (nl ++ chunk_text (nth 1 C72_tight chunk_empty) ++ [])); [reflexivity|reflexivity|right; split; [discriminate|eexists; reflexivity]|].
    apply (fa_section nl (nth 1 C72_tight chunk_empty) []); [reflexivity|reflexivity|now left|exact fa_nil].
Qed.
Example C72_file_ex : exists f, osu_from_str true (C72_text C72_plain) = ROk f /\ osu_from_str true (C72_text C72_tight) = ROk f
  /\ osu_difficulty f <> None /\ osu_colours f <> None.
Proof. eexists. split; [vm_compute; reflexivity|]. split; [vm_compute; reflexivity|]. split; discriminate. Qed.
(** the same lines, a bad value in the second; its indentation adds one to the line of the error *)
Example C72_in_line_ex : keys_respaced_in_line (lit "BeatDivisor: 4" ++ nl ++ lit " GridSize:   x") (lit "BeatDivisor:4" ++ nl ++ lit "  GridSize:x")
  /\ editor_from_str (lit "BeatDivisor:4" ++ nl ++ lit "  GridSize:x") 14%Z <> ROk None
  /\ (exists e, editor_from_str (lit "BeatDivisor: 4" ++ nl ++ lit " GridSize:   x") 14%Z = RErr e /\ le_line e = 2%Z)
  /\ (exists e, editor_from_str (lit "BeatDivisor: 4" ++ nl ++ lit "GridSize:   x") 14%Z = RErr e /\ le_line e = 1%Z).
Proof.
  split; [|split; [vm_compute; discriminate|split; eexists; (split; [vm_compute; reflexivity|reflexivity])]].
  exists [(lit "BeatDivisor", lit " 4", nl ++ lit " "); (lit "GridSize", lit "   x", [])], [(lit "BeatDivisor", lit "4", nl ++ lit "  "); (lit "GridSize", lit "x", [])], [].
  split; [|split]; [repeat split; vm_compute; reflexivity|repeat split; vm_compute; reflexivity|vm_compute; reflexivity].
Qed.
Example C72_colour_ex : (exists c, colour_from_str 14%Z (lit " SliderBorder :	1, 2 ,3 ") = ROk (Some c))
  /\ without_blanks (lit " SliderBorder :	1, 2 ,3 ") = lit "SliderBorder:1,2,3".
Proof. split; [eexists|]; vm_compute; reflexivity. Qed.
(** Blanks count elsewhere: before a colon, in a number, and in a decimal, which is then only text. *)
Example C72_blank_ex : general_from_str (lit "Mode : 0") 14%Z = RErr (mk_line_err 0 GenKey)
  /\ of_entries [(lit "Mode ", lit " 0", [])] [] (lit "Mode : 0") /\ with_blank (lit "Mode ")
  /\ parse_i32 (lit " 1") = RErr IInvalidDigit
  /\ (exists o, hit_objects_from_str (lit "1, 2,3,1,0") 14%Z = ROk (Some [o]) /\ pos_x (ho_position o) = DNum (mkDec false 1 0) /\ pos_y (ho_position o) = DRaw (lit " 2")).
Proof.
  split; [vm_compute; reflexivity|]. split; [repeat split; vm_compute; reflexivity|].
  split; [exists 32; split; [right; right; right; right; now left|reflexivity]|]. split; [vm_compute; reflexivity|].
  eexists. split; [vm_compute; reflexivity|]. split; reflexivity.
Qed.
