(** How an .osu file is laid out: the vocabulary of C16, C17, C19-C21, C31, C33 and C34. *)
From Coq Require Import String List NArith ZArith Bool.
From Verif Require Import Str Num Nom Dec Parsers General Editor Metadata Difficulty Colours
  TimingPoints HitObjects Storyboard NormalEvents Events Osb OsuFile Spec SpecText.
Import ListNotations.
Local Open Scope N_scope.

(** space, tab, carriage return, line feed *)
Definition layout_char (c : char) : bool := (c =? 32) || (c =? 9) || (c =? 13) || (c =? 10).
Definition version_prefix : str := lit "osu file format v".
(** [version_head s ws num rest]: after blanks [ws] and at most one byte order mark, [s]
    has the version line with the text [num] as number; [rest] is what follows on the
    line feed (or carriage return) that ends it. *)
Inductive version_head : str -> str -> str -> str -> Prop :=
| vh ws bom num rest :
    forallb layout_char ws = true -> (bom = [] \/ bom = [65279]) ->
    forallb (fun c => negb (c =? 13) && negb (c =? 10)) num = true ->
    (rest = [] \/ exists c t, rest = c :: t /\ (c = 10 \/ c = 13)) ->
    version_head (ws ++ bom ++ version_prefix ++ num ++ rest) ws num rest.
(** the number of a supported version *)
Definition version_text (num : str) (v : version) : Prop := int_text false num v /\ (3 <= v <= 14)%Z.

(** A section of the file: its name, the number of empty lines after the header line and
    the lines from the first non-empty one to the next header. *)
Record sec := mk_sec { sec_name : str; sec_gap : nat; sec_lines : list str }.
Definition sec_all (x : sec) : list str :=
  (91 :: sec_name x ++ [93]) :: repeat [] (sec_gap x) ++ sec_lines x.
(** the text handed to the reader of the section *)
Definition sec_body (x : sec) : str := text_of_lines (sec_lines x).
Definition line_text (l : str) : bool := forallb (fun c => negb (c =? 10)) l.
(** No ["]"] in the name; at least one line; the first one starts with a visible character;
    no line looks like a header. *)
Definition sec_ok (x : sec) : bool :=
  forallb (fun c => negb (c =? 93) && negb (c =? 10)) (sec_name x)
  && match sec_lines x with
     | (c :: _) :: _ => negb (layout_char c)
     | _ => false
     end
  && forallb (fun l => line_text l && negb (starts_with_char 91 l)) (sec_lines x).
(** a line that may stand before the first section: blank, or a comment *)
Definition pre_ok (l : str) : bool :=
  line_text l
  && (is_empty (trim l) || starts_with (lit "//") (trim l)) && negb (ends_with_char 93 (trim l)).

(** [file_layout s v pre secs tail]: [s] is a file of version [v], with the lines [pre]
    (the first being what is left of the version line) before the sections [secs], and
    further lines [tail]. *)
Definition file_layout (s : str) (ws : str) (v : version) (pre : list str) (secs : list sec)
  (tail : list str) : Prop :=
  exists num rest, version_head s ws num rest /\ version_text num v
  /\ lines rest = pre ++ flat_map sec_all secs ++ tail
  /\ forallb pre_ok pre = true /\ forallb sec_ok secs = true.
(** a line that begins like a header but has no ["]"] *)
Definition open_header (l : str) : bool :=
  starts_with_char 91 l && forallb (fun c => negb (c =? 93) && negb (c =? 10)) l.

Definition section_names : list str :=
  map lit ["General"; "Editor"; "Metadata"; "Difficulty"; "Events"; "TimingPoints"; "Colours";
           "HitObjects"]%string.

(** [holds secs name from old new]: [new] is what [from] makes of the section called
    [name], or [old] when there is none. *)
Definition holds {T E} (secs : list sec) (name : string) (from : str -> res T E) (old new : T) : Prop :=
  (forall x, In x secs -> sec_name x = lit name -> from (sec_body x) = ROk new)
  /\ ((forall x, In x secs -> sec_name x <> lit name) -> new = old).
(** The file value that the sections describe, each read on its own. *)
Definition describes (dbg : bool) (v : version) (secs : list sec) (g f : osu_file) : Prop :=
  osu_version f = v /\ osu_osb f = osu_osb g
  /\ holds secs "General" (fun t => general_from_str t v) (osu_general g) (osu_general f)
  /\ holds secs "Editor" (fun t => editor_from_str t v) (osu_editor g) (osu_editor f)
  /\ holds secs "Metadata" (fun t => metadata_from_str t v) (osu_metadata g) (osu_metadata f)
  /\ holds secs "Difficulty" (fun t => difficulty_from_str t v) (osu_difficulty g) (osu_difficulty f)
  /\ holds secs "Events" (fun t => events_from_str dbg t v) (osu_events g) (osu_events f)
  /\ holds secs "TimingPoints" (fun t => timing_points_from_str t v)
       (osu_timing_points g) (osu_timing_points f)
  /\ holds secs "Colours" (fun t => colours_from_str t v) (osu_colours g) (osu_colours f)
  /\ holds secs "HitObjects" (fun t => hit_objects_from_str t v)
       (osu_hitobjects g) (osu_hitobjects f).

(** The section [x] is refused by its reader, at line [k] of its text, with error [e]. *)
Inductive refused (dbg : bool) (v : version) (x : sec) : Z -> osu_err -> Prop :=
| ref_general k e : sec_name x = lit "General" ->
    general_from_str (sec_body x) v = RErr (mk_line_err k e) -> refused dbg v x k (OsuGeneral e)
| ref_editor k e : sec_name x = lit "Editor" ->
    editor_from_str (sec_body x) v = RErr (mk_line_err k e) -> refused dbg v x k (OsuEditor e)
| ref_metadata k e : sec_name x = lit "Metadata" ->
    metadata_from_str (sec_body x) v = RErr (mk_line_err k e) -> refused dbg v x k (OsuMetadata e)
| ref_difficulty k e : sec_name x = lit "Difficulty" ->
    difficulty_from_str (sec_body x) v = RErr (mk_line_err k e) -> refused dbg v x k (OsuDifficulty e)
| ref_events k e : sec_name x = lit "Events" ->
    events_from_str dbg (sec_body x) v = RErr (mk_line_err k e) -> refused dbg v x k (OsuEvents e)
| ref_timing k e : sec_name x = lit "TimingPoints" ->
    timing_points_from_str (sec_body x) v = RErr (mk_line_err k e) ->
    refused dbg v x k (OsuTimingPoints e)
| ref_colours k e : sec_name x = lit "Colours" ->
    colours_from_str (sec_body x) v = RErr (mk_line_err k e) -> refused dbg v x k (OsuColours e)
| ref_hitobjects k e : sec_name x = lit "HitObjects" ->
    hit_objects_from_str (sec_body x) v = RErr (mk_line_err k e) ->
    refused dbg v x k (OsuHitObjects e).

(** [true_line pre before]: where the header of the section after [before] stands in the
    file; [blank_ends before]: how many of those sections end in an empty line. *)
Definition true_line (pre : list str) (before : list sec) : nat :=
  (length pre + length (flat_map sec_all before))%nat.
Definition blank_end (x : sec) : bool := is_empty (last (sec_lines x) [0]).
Definition blank_ends (before : list sec) : Z := Z.of_nat (length (filter blank_end before)).
(** what comes after the sections: nothing, or a header that is not closed *)
Definition ended (tail : list str) : bool :=
  match tail with [] => true | l :: _ => open_header l end.
(** all of these are read without complaint, in this order *)
Definition all_read (dbg : bool) (v : version) (secs : list sec) (g f : osu_file) : Prop :=
  NoDup (map sec_name secs) /\ Forall (fun x => In (sec_name x) section_names) secs
  /\ describes dbg v secs g f.
(** What is wrong with the section [x] that follows the good sections [before]: the error
    and its line, counted from the header of [x]. *)
Inductive complaint (dbg : bool) (v : version) (before : list sec) (x : sec) : Z -> osu_err -> Prop :=
| bad_duplicate : In (sec_name x) (map sec_name before) ->
    complaint dbg v before x 0 OsuDuplicateSections
| bad_unknown : ~ In (sec_name x) (map sec_name before) -> ~ In (sec_name x) section_names ->
    complaint dbg v before x 0 OsuUnknownSection
| bad_text k e : ~ In (sec_name x) (map sec_name before) -> refused dbg v x k e ->
    complaint dbg v before x (1 + Z.of_nat (sec_gap x) + k) e.
