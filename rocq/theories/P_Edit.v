(** C62: edits are local. *)
From Coq Require Import String List NArith ZArith Bool.
From Verif Require Import Str Num Dec Parsers General Editor Metadata Difficulty Colours TimingPoints HitObjects Storyboard NormalEvents
  Events Osb OsuFile Spec SpecText SpecFile SpecKv SpecSections SpecKvRead SpecTotal SpecEvents SpecEvSection SpecParts SpecWrite SpecEdit
  FileSamples TotalFacts TotalSamples Edit EditOut.
Import ListNotations.
Local Open Scope N_scope.

(** C62. A text whose lines are those of two texts reads as one and then the other. *)
Theorem C62_pieces : forall v, in_pieces (fun s => timing_points_from_str s v) /\ in_pieces (fun s => hit_objects_from_str s v)
  /\ in_pieces (fun s => colours_from_str s v).
Proof. exact (fun v => conj (points_pieces v) (conj (objects_pieces v) (colours_pieces v))). Qed.
Print Assumptions C62_pieces.
Theorem C62_pieces_variables : in_pieces (fun s => rmap Some (variables_from_str s)).
Proof. exact variables_pieces. Qed.
Print Assumptions C62_pieces_variables.
Theorem C62_pieces_events : forall dbg vs v s a b, lines s = lines a ++ lines b -> opens b ->
  events_from_str_vars dbg vs s v = one_after (events_from_str_vars dbg vs a v) (rows a) (events_from_str_vars dbg vs b v).
Proof. exact events_pieces. Qed.
Print Assumptions C62_pieces_events.
(** Lines in the middle are replaced. *)
Theorem C62_lines : forall v, edits_lines (fun s => timing_points_from_str s v) /\ edits_lines (fun s => hit_objects_from_str s v)
  /\ edits_lines (fun s => colours_from_str s v).
Proof. exact (fun v => conj (in_pieces_edit _ (points_pieces v)) (conj (in_pieces_edit _ (objects_pieces v)) (in_pieces_edit _ (colours_pieces v)))). Qed.
Print Assumptions C62_lines.
Theorem C62_lines_variables : edits_lines (fun s => rmap Some (variables_from_str s)).
Proof. exact (in_pieces_edit _ variables_pieces). Qed.
Print Assumptions C62_lines_variables.
Theorem C62_lines_events : forall dbg vs v s s' a m m' b xs, opens m -> opens m' -> opens b ->
  events_from_str_vars dbg vs s v = ROk (Some xs) ->
  lines s = lines a ++ lines m ++ lines b -> lines s' = lines a ++ lines m' ++ lines b ->
  exists p y q, xs = p ++ y ++ q /\ events_from_str_vars dbg vs a v = ROk (Some p) /\ events_from_str_vars dbg vs m v = ROk (Some y)
  /\ events_from_str_vars dbg vs b v = ROk (Some q)
  /\ events_from_str_vars dbg vs s' v
     = match events_from_str_vars dbg vs m' v with
       | ROk (Some y') => ROk (Some (p ++ y' ++ q))
       | ROk None => ROk None
       | RErr e => RErr (mk_line_err (rows a + le_line e) (le_err e))
       | RPanic i => RPanic i
       end.
Proof. exact events_edit. Qed.
Print Assumptions C62_lines_events.
Definition C62_a : str := lit "Sprite,Pass,Centre,a.png,0,0" ++ [10] ++ lit " F,0,0,9,1" ++ [13; 10; 10].
Definition C62_m : str := lit "2,5,6" ++ [10] ++ lit "//c" ++ [10].
Definition C62_m' : str := [10] ++ lit "Sprite,Pass,Centre,b.png,0,0" ++ [10] ++ lit "  F,0,0,9,1" ++ [10].
Definition C62_b : str := lit "0,0,bg.png".
Example C62_lines_ex :
  lines (C62_a ++ C62_m ++ C62_b) = lines C62_a ++ lines C62_m ++ lines C62_b
  /\ lines (C62_a ++ C62_m' ++ C62_b) = lines C62_a ++ lines C62_m' ++ lines C62_b
  /\ (exists x y z, events_from_str_vars true [] (C62_a ++ C62_m ++ C62_b) 14%Z = ROk (Some [EObject x; EBreak y; EComment (lit "c"); EBackground z]))
  /\ events_from_str_vars true [] C62_m' 14%Z = RErr (mk_line_err 2%Z (EvPush (InvalidIndentation 1 2)))
  /\ events_from_str_vars true [] (C62_a ++ C62_m' ++ C62_b) 14%Z = RErr (mk_line_err 5%Z (EvPush (InvalidIndentation 1 2)))
  /\ (exists x y, timing_points_from_str (lit "1,2,4,1,0,9,1,0" ++ [10; 13; 10] ++ lit "2,x,4,1,0,9,1,0") 14%Z = ROk (Some [x; y]))
  /\ timing_points_from_str (lit "1,2,4,1,0,9,1,0" ++ [10; 13; 10] ++ lit "2,x,4,1") 14%Z = RErr (mk_line_err 2%Z TpMissingSampleIndex)
  /\ timing_points_from_str (lit "2,x,4,1") 14%Z = RErr (mk_line_err 0%Z TpMissingSampleIndex).
Proof.
  split; [vm_compute; reflexivity|]. split; [vm_compute; reflexivity|]. split; [do 3 eexists; vm_compute; reflexivity|]. split; [vm_compute; reflexivity|].
  split; [vm_compute; reflexivity|]. split; [do 2 eexists; vm_compute; reflexivity|]. split; vm_compute; reflexivity.
Qed.
Example C62_opens_ex : opens C62_m /\ opens C62_m' /\ opens C62_b /\ ~ opens (lit " F,0,0,9,1").
Proof.
  split; [|split; [|split]].
  - intros [|x [|y [|z a]]] l b H H1 H2; vm_compute in H; try discriminate; injection H; intros; subst; try discriminate; reflexivity.
  - intros [|x [|y [|z a]]] l b H H1 H2; vm_compute in H; try discriminate; injection H; intros; subst; try discriminate; reflexivity.
  - intros [|x [|y a]] l b H H1 H2; vm_compute in H; try discriminate; injection H; intros; subst; try discriminate; reflexivity.
  - intros H. specialize (H [] (lit " F,0,0,9,1") [] eq_refl eq_refl eq_refl). discriminate.
Qed.

(** An entry of a key/value section is added or changed, or taken out. *)
Theorem C62_general : forall v, edits_keys (fun s => general_from_str s v) (general_put v) (reader_of GenKey (general_table v))
  /\ drops_keys (fun s => general_from_str s v) (general_put v).
Proof. exact general_edit. Qed.
Print Assumptions C62_general.
Theorem C62_editor : forall v, edits_keys (fun s => editor_from_str s v) editor_put (reader_of EdKey editor_table)
  /\ drops_keys (fun s => editor_from_str s v) editor_put.
Proof. exact editor_edit. Qed.
Print Assumptions C62_editor.
Theorem C62_metadata : forall v, edits_keys (fun s => metadata_from_str s v) metadata_put (reader_of MdKey metadata_table)
  /\ drops_keys (fun s => metadata_from_str s v) metadata_put.
Proof. exact metadata_edit. Qed.
Print Assumptions C62_metadata.
Theorem C62_difficulty : forall v, edits_keys (fun s => difficulty_from_str s v) difficulty_put (reader_of DfKey difficulty_table)
  /\ drops_keys (fun s => difficulty_from_str s v) difficulty_put.
Proof. exact difficulty_edit. Qed.
Print Assumptions C62_difficulty.
Definition C62_entry (k r : string) : kv_entry := (lit k, lit r, [10]).
Example C62_keys_ex :
  let a := [C62_entry "Mode" "3"; C62_entry "AudioFilename" "a.mp3"] in
  let b := [C62_entry "EpilepsyWarning" "1"] in
  let g := mk_general (Some (lit "a.mp3")) None None None None None None (Some MMania) None None None None None None (Some true) None None None None None None in
  general_from_str (kv_text (a ++ b)) 14%Z = ROk (Some g) /\ fits_after (a ++ b) [] /\ fits_after (a ++ C62_entry "PreviewTime" "-7" :: b) []
  /\ general_from_str (kv_text (a ++ C62_entry "PreviewTime" "-7" :: b)) 14%Z = ROk (Some (general_put 14%Z (lit "PreviewTime") (Some (lit "-7")) g))
  /\ general_preview_time (general_put 14%Z (lit "PreviewTime") (Some (lit "-7")) g) = Some (-7)%Z
  /\ general_mode (general_put 14%Z (lit "Mode") None g) = None /\ general_mode (general_put 14%Z (lit "Mode") (Some (lit "1")) g) = Some MTaiko
  /\ general_from_str (kv_text (a ++ C62_entry "PreviewTime" "7a" :: b)) 14%Z = RErr (mk_line_err 2%Z (GenInt IInvalidDigit))
  /\ general_from_str (kv_text (a ++ C62_entry "What" "7" :: b)) 14%Z = RErr (mk_line_err 2%Z GenKey).
Proof. vm_compute. repeat split. Qed.

(** A section of a file is added or changed, or taken out. *)
Theorem C62_section : forall dbg s s' v n n' a old x b f,
  osu_parts s v n (a ++ old ++ b) -> osu_from_str dbg s = ROk f -> osu_parts s' v n' (a ++ x :: b) ->
  old = [] /\ ~ In (ch_name x) (map ch_name (a ++ b)) \/ (exists o, old = [o] /\ ch_name o = ch_name x) ->
  osu_from_str dbg s'
  = match named (osu_table dbg v) x with
    | None => RErr (mk_line_err (n' + chunks_rows a) OsuUnknownSection)
    | Some rd => match rd (ch_body x) with
                 | ROk _ => if dbg && is_empty (ch_body x) then RPanic POverflow
                            else ROk (put_section dbg v (ch_name x) (Some (ch_body x)) f)
                 | RErr e => RErr (mk_line_err (n' + chunks_rows a + rows (ch_space x) + le_line e) (le_err e))
                 | RPanic p => RPanic p
                 end
    end.
Proof. exact file_put. Qed.
Print Assumptions C62_section.
Theorem C62_section_gone : forall dbg s s' v n n' a x b f,
  osu_parts s v n (a ++ x :: b) -> osu_from_str dbg s = ROk f -> osu_parts s' v n' (a ++ b) ->
  osu_from_str dbg s' = ROk (put_section dbg v (ch_name x) None f).
Proof. exact file_drop. Qed.
Print Assumptions C62_section_gone.

Definition C62_text (x : chunk) : str := v14 ++ nl ++ nl ++ chunk_text chunk_general ++ nl ++ chunk_text x.
Definition C62_points (t : string) : chunk := mk_chunk (lit "TimingPoints") (nl ++ nl) (lit "1,2,4,1,0,9,1,0" ++ nl ++ lit t).
Example C62_parts_ex : osu_parts (C62_text (C62_points "5,6,4,1,0,9,1,0")) 14%Z 2 [chunk_general; C62_points "5,6,4,1,0,9,1,0"]
  /\ osu_parts (C62_text (C62_points "5")) 14%Z 2 [chunk_general; C62_points "5"].
Proof.
  split.
  - eexists [], (lit "14"), _, [[]; []], _. split; [eapply head14; reflexivity|]. split; [exact version_14|].
    split; [vm_compute; reflexivity|]. split; [reflexivity|]. split; [reflexivity|]. split.
    + apply (fa_section [] chunk_general (nl ++ chunk_text (C62_points "5,6,4,1,0,9,1,0") ++ [])); [reflexivity|reflexivity|right; split; [discriminate|eexists; reflexivity]|].
      apply (fa_section nl (C62_points "5,6,4,1,0,9,1,0") []); [reflexivity|reflexivity|now left|exact fa_nil].
    + right. eexists [], _. split; [vm_compute; reflexivity|]. split; reflexivity.
  - eexists [], (lit "14"), _, [[]; []], _. split; [eapply head14; reflexivity|]. split; [exact version_14|].
    split; [vm_compute; reflexivity|]. split; [reflexivity|]. split; [reflexivity|]. split.
    + apply (fa_section [] chunk_general (nl ++ chunk_text (C62_points "5") ++ [])); [reflexivity|reflexivity|right; split; [discriminate|eexists; reflexivity]|].
      apply (fa_section nl (C62_points "5") []); [reflexivity|reflexivity|now left|exact fa_nil].
    + right. eexists [], _. split; [vm_compute; reflexivity|]. split; reflexivity.
Qed.
Example C62_section_ex :
  (exists f p q, osu_from_str true (C62_text (C62_points "5,6,4,1,0,9,1,0")) = ROk f /\ osu_general f <> None /\ osu_timing_points f = Some [p; q]
     /\ osu_general (put_section true 14%Z (lit "TimingPoints") (Some (lit "5,6,4,1,0,9,1,0")) f) = osu_general f
     /\ osu_timing_points (put_section true 14%Z (lit "TimingPoints") (Some (lit "5,6,4,1,0,9,1,0")) f) = Some [q]
     /\ osu_timing_points (put_section true 14%Z (lit "TimingPoints") None f) = None)
  /\ osu_from_str true (C62_text (C62_points "5")) = RErr (mk_line_err (2 + chunk_rows chunk_general + 2 + 1) (OsuTimingPoints TpMissingBeatLength))
  /\ osu_from_str true (C62_text (mk_chunk (lit "What") nl (lit "x"))) = RErr (mk_line_err (2 + chunk_rows chunk_general) OsuUnknownSection).
Proof.
  split; [|split; vm_compute; reflexivity]. do 3 eexists. split; [vm_compute; reflexivity|]. split; [discriminate|]. split; [reflexivity|].
  split; [reflexivity|]. split; vm_compute; reflexivity.
Qed.

(** The events of a storyboard are changed; its variables are, below the events. *)
Theorem C62_osb_events : forall dbg s s' n n' a o x b f,
  osb_parts s n (a ++ o :: b) -> osb_from_str dbg s 14%Z = ROk (Some f) -> osb_parts s' n' (a ++ x :: b) ->
  ch_name o = lit "Events" -> ch_name x = lit "Events" ->
  osb_from_str dbg s' 14%Z
  = match events_from_str_vars dbg (variables_above a) (ch_body x) 14%Z with
    | ROk e => ROk (Some (mk_osb (osb_variables f) e))
    | RErr e => RErr (mk_line_err (n' + chunks_rows a + rows (ch_space x) + le_line e) (OsbEvents (le_err e)))
    | RPanic p => RPanic p
    end.
Proof. exact osb_events_put. Qed.
Print Assumptions C62_osb_events.
Theorem C62_osb_variables : forall dbg s s' n n' a o x b f,
  osb_parts s n (a ++ o :: b) -> osb_from_str dbg s 14%Z = ROk (Some f) -> osb_parts s' n' (a ++ x :: b) ->
  ch_name o = lit "Variables" -> ch_name x = lit "Variables" -> ~ In (lit "Events") (map ch_name b) ->
  osb_from_str dbg s' 14%Z
  = match variables_from_str (ch_body x) with
    | ROk vs => ROk (Some (mk_osb (Some vs) (osb_events f)))
    | RErr e => RErr (mk_line_err (n' + chunks_rows a + rows (ch_space x) + le_line e) (OsbVariable (le_err e)))
    | RPanic p => RPanic p
    end.
Proof. exact osb_variables_put. Qed.
Print Assumptions C62_osb_variables.

(** Both orders of the sections; [C51_osb_parts_ex] has the parts of such a text. *)
Example C62_osb_ex :
  let ev (t : string) := lit "[Events]" ++ nl ++ lit "Sprite,Pass,Centre,x,320,240" ++ nl ++ lit t ++ nl in
  let vars (t : string) := lit "[Variables]" ++ nl ++ lit t ++ nl in
  let number r := match r with ROk (Some o) => (osb_variables o, option_map (map ev_cmds) (osb_events o)) | _ => (None, None) end in
  let fade o := Some [Some [mk_cmd (Some 0%Z) (PFade EzLinear None o [])]] in
  number (osb_from_str true (vars "$a=7"%string ++ ev " F,0,0,,$a"%string) 14%Z) = (Some [mk_var (lit "a") (lit "7")], fade (DNum (mkDec false 7 0)))
  /\ number (osb_from_str true (vars "$a=7"%string ++ ev " F,0,0,,$a1"%string) 14%Z) = (Some [mk_var (lit "a") (lit "7")], fade (DNum (mkDec false 71 0)))
  /\ number (osb_from_str true (ev " F,0,0,,$a"%string ++ vars "$a=7"%string) 14%Z) = (Some [mk_var (lit "a") (lit "7")], fade (DRaw (lit "$a")))
  /\ number (osb_from_str true (ev " F,0,0,,$a"%string ++ vars "$a=8"%string) 14%Z) = (Some [mk_var (lit "a") (lit "8")], fade (DRaw (lit "$a")))
  /\ osb_from_str true (ev " F,0,0,,$a"%string ++ vars "$a"%string) 14%Z = RErr (mk_line_err 4%Z (OsbVariable VarMissingEquals)).
Proof. vm_compute. repeat split. Qed.

(** A field of a section is changed: the text changes in one line at most. *)
Theorem C62_print_general : forall dbg f x y t,
  objects_fit f -> osu_to_string dbg (with_general (Some x) f) = ROk t -> all_but_one (general_agree x y) ->
  exists h, t = text_of_lines (file_lines (with_general (Some x) h))
  /\ osu_to_string dbg (with_general (Some y) f) = ROk (text_of_lines (file_lines (with_general (Some y) h)))
  /\ one_line_apart (file_lines (with_general (Some x) h)) (file_lines (with_general (Some y) h)).
Proof. exact print_general. Qed.
Print Assumptions C62_print_general.
Theorem C62_print_editor : forall dbg f x y t,
  objects_fit f -> osu_to_string dbg (with_editor (Some x) f) = ROk t -> all_but_one (editor_agree x y) ->
  exists h, t = text_of_lines (file_lines (with_editor (Some x) h))
  /\ osu_to_string dbg (with_editor (Some y) f) = ROk (text_of_lines (file_lines (with_editor (Some y) h)))
  /\ one_line_apart (file_lines (with_editor (Some x) h)) (file_lines (with_editor (Some y) h)).
Proof. exact print_editor. Qed.
Print Assumptions C62_print_editor.
Theorem C62_print_metadata : forall dbg f x y t,
  objects_fit f -> osu_to_string dbg (with_metadata (Some x) f) = ROk t -> all_but_one (metadata_agree x y) ->
  exists h, t = text_of_lines (file_lines (with_metadata (Some x) h))
  /\ osu_to_string dbg (with_metadata (Some y) f) = ROk (text_of_lines (file_lines (with_metadata (Some y) h)))
  /\ one_line_apart (file_lines (with_metadata (Some x) h)) (file_lines (with_metadata (Some y) h)).
Proof. exact print_metadata. Qed.
Print Assumptions C62_print_metadata.
Theorem C62_print_difficulty : forall dbg f x y t,
  objects_fit f -> osu_to_string dbg (with_difficulty (Some x) f) = ROk t -> all_but_one (difficulty_agree x y) ->
  exists h, t = text_of_lines (file_lines (with_difficulty (Some x) h))
  /\ osu_to_string dbg (with_difficulty (Some y) f) = ROk (text_of_lines (file_lines (with_difficulty (Some y) h)))
  /\ one_line_apart (file_lines (with_difficulty (Some x) h)) (file_lines (with_difficulty (Some y) h)).
Proof. exact print_difficulty. Qed.
Print Assumptions C62_print_difficulty.

(** Entries of a list are changed: the text changes in their lines only. *)
Theorem C62_print_timing_points : forall dbg f, objects_fit f ->
  prints_in_place (fun l => osu_to_string dbg (with_points (Some l) f)) (back_timing (osu_version f)) (fun x => [tp_row (osu_version f) x]) (fun _ => True) (fun _ => True).
Proof. exact print_points. Qed.
Print Assumptions C62_print_timing_points.
Theorem C62_print_hit_objects : forall dbg f,
  prints_in_place (fun l => osu_to_string dbg (with_objects (Some l) f)) (back_object (osu_version f)) (fun x => [ho_row (osu_version f) x]) three_bits (fun _ => True).
Proof. exact print_objects. Qed.
Print Assumptions C62_print_hit_objects.
Theorem C62_print_colours : forall dbg f, objects_fit f -> moves (osu_version f) = false ->
  prints_in_place (fun l => osu_to_string dbg (with_colours (Some l) f)) Some (fun x => [colour_text x]) (fun _ => True) (fun _ => True).
Proof. exact print_colours. Qed.
Print Assumptions C62_print_colours.
Theorem C62_print_events : forall dbg f, objects_fit f ->
  prints_in_place (fun l => osu_to_string dbg (with_events (Some l) f)) (back_event dbg (osu_version f)) (event_out (osu_version f) []) (fun _ => True) no_transformation.
Proof. exact print_events. Qed.
Print Assumptions C62_print_events.
Example C62_print_ex :
  let d x := mk_difficulty (Some (DNum (mkDec false 5 0))) x None None None None in
  let f := mk_osu 4%Z None None None None (Some (d None)) None None None None in
  let t n := mk_tp (DNum (mkDec false n 0)) (DRaw (lit "x")) 4 TsSoft (SiIndex 1) 60 None None in
  all_but_one (difficulty_agree (d None) (d (Some (DRaw (lit "y"))))) /\ objects_fit f
  /\ osu_to_string true (with_difficulty (Some (d None)) f) = ROk (text_of_lines [lit "osu file format v4"; []; lit "[Difficulty]"; lit "HPDrainRate:5"])
  /\ osu_to_string true (with_difficulty (Some (d (Some (DRaw (lit "y"))))) f)
     = ROk (text_of_lines [lit "osu file format v4"; []; lit "[Difficulty]"; lit "HPDrainRate:5"; lit "CircleSize:y"])
  /\ osu_to_string true (with_points (Some [t 24%N; t 25%N; t 26%N]) f)
     = ROk (text_of_lines ([lit "osu file format v4"; []; lit "[Difficulty]"; lit "HPDrainRate:5"; []; lit "[TimingPoints]"; lit "0,x,4,2,1"] ++ [lit "1,x,4,2,1"] ++ [lit "2,x,4,2,1"]))
  /\ osu_to_string true (with_points (Some [t 24%N; t 26%N]) f)
     = ROk (text_of_lines ([lit "osu file format v4"; []; lit "[Difficulty]"; lit "HPDrainRate:5"; []; lit "[TimingPoints]"; lit "0,x,4,2,1"] ++ [] ++ [lit "2,x,4,2,1"]))
  /\ option_map (map (tp_row 4%Z)) (all_some (back_timing 4%Z) [t 25%N]) = Some [lit "1,x,4,2,1"].
Proof.
  split; [|split; [exact I|vm_compute; repeat split]]. unfold all_but_one, difficulty_agree. cbn.
  exists [Some (DNum (mkDec false 5 0)) = Some (DNum (mkDec false 5 0))], (None = Some (DRaw (lit "y"))). eexists. split; [reflexivity|]. repeat constructor.
Qed.
