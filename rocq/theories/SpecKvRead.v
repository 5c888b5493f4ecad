(** How the key/value sections are read, entry by entry. *)
From Coq Require Import String List NArith ZArith Bool.
From Verif Require Import Str Num Dec Parsers General Editor Metadata Difficulty SpecWf SpecKv SpecText SpecSections
  SpecLine SpecEvLine.
Import ListNotations.
Local Open Scope N_scope.

Section Entries.
  Context {A E : Type}.
  (** the keys, and whether a value can be read *)
  Variable table : list (string * (str -> res unit E)).
  Variables unknown dup colon : E.
  Fixpoint reader_of (t : list (string * (str -> res unit E))) (k : str) : str -> res unit E :=
    match t with
    | [] => fun _ => RErr unknown
    | (n, rd) :: t' => if str_eqb k (lit n) then rd else reader_of t' k
    end.
  (** The first bad entry of [es], the keys [before] having been seen.  An entry is at line [i]; line
      breaks and the indentation of the next entry belong to it. *)
  Fixpoint first_bad (i : Z) (before : list str) (es : list kv_entry) : res unit (line_err E) :=
    match es with
    | [] => ROk tt
    | e :: es' =>
        match (if existsb (str_eqb (entry_key e)) before then RErr dup
               else reader_of table (entry_key e) (entry_value e)) with
        | ROk _ => first_bad (i + Z.of_nat (length (lines (entry_gap e)))) (entry_key e :: before) es'
        | RErr x => RErr (mk_line_err i x)
        | RPanic p => RPanic p
        end
    end.
  Definition value_of (es : list kv_entry) (k : str) : option str :=
    option_map entry_value (find (fun e => str_eqb k (entry_key e)) es).
  (** The section of the entries [es] followed by [t]; [build] makes it of the values. *)
  Definition kv_reads (build : (str -> option str) -> A) (es : list kv_entry) (t : str) : res A (line_err E) :=
    if is_blank t then rmap (fun _ => build (value_of es)) (first_bad 0 [] es)
    else RErr (mk_line_err (fold_right Z.add 0%Z (map (fun e => Z.of_nat (length (lines (entry_gap e)))) es)) colon).
End Entries.
Definition can {A E} (rd : str -> res A E) (s : str) : res unit E := rmap (fun _ => tt) (rd s).
Definition of_key {A E} (get : str -> option str) (k : string) (rd : str -> res (option A) E) : option A :=
  match get (lit k) with
  | Some s => match rd s with ROk x => x | _ => None end
  | None => None
  end.

(** ** the values *)
Definition any_text {E} (s : str) : res (option str) E := ROk (Some s).
Definition any_dec {E} (s : str) : res (option decimal) E := ROk (Some (decimal_of_str s)).
Definition int_value {E} (bad : int_err -> E) (s : str) : res (option Z) E :=
  match parse_i32 s with ROk z => ROk (Some z) | RErr e => RErr (bad e) | RPanic p => RPanic p end.
(** integers between commas; an empty item is an error of its own, no text at all is no item *)
Fixpoint int_items {E} (bad : int_err -> E) (empty : E) (l : list str) : res (list Z) E :=
  match l with
  | [] => ROk []
  | x :: l' => match parse_i32 x with
               | ROk z => rmap (cons z) (int_items bad empty l')
               | RErr IEmpty => RErr empty
               | RErr e => RErr (bad e)
               | RPanic p => RPanic p
               end
  end.
Definition ints_value {E} (bad : int_err -> E) (empty : E) (s : str) : res (option (list Z)) E :=
  match s with
  | [] => ROk (Some [])
  | _ => rmap Some (int_items bad empty (pieces 44 s))
  end.
Definition pick {A} (l : list A) (z : Z) : option A :=
  if ((0 <=? z) && (z <? Z.of_nat (length l)))%Z then nth_error l (Z.to_nat z) else None.

(** ** [General] *)
Definition flag_value (s : str) : res (option bool) general_err :=
  match parse_i32 s with
  | ROk z => match pick [false; true] z with
             | Some b => ROk (Some b)
             | None => RErr (GenBool BoolInvalidValue)
             end
  | RErr e => RErr (GenBool (BoolInt e))
  | RPanic p => RPanic p
  end.
Definition countdown_value (v : version) (s : str) : res (option countdown) general_err :=
  if has_countdown v
  then match parse_usize s with
       | ROk z => match pick [NoCountdown; CdNormal; CdHalf; CdDouble] z with
                  | Some c => ROk (Some c)
                  | None => RErr (GenCountdown CdUnknown)
                  end
       | RErr e => RErr (GenCountdown (CdInt e))
       | RPanic p => RPanic p
       end
  else ROk None.
(** a mode that the version does not have is left out *)
Definition mode_value (v : version) (s : str) : res (option mode) general_err :=
  match parse_usize s with
  | ROk z => match pick [MOsu; MTaiko; MCatch; MMania] z with
             | Some m => ROk (if has_mode v m then Some m else None)
             | None => RErr (GenMode GmUnknown)
             end
  | RErr e => RErr (GenMode (GmInt e))
  | RPanic p => RPanic p
  end.
Definition name_value {A} (have : bool) (l : list (string * A)) (bad : general_err) (s : str)
  : res (option A) general_err :=
  if have then match rd_name l s with ROk a => ROk (Some a) | _ => RErr bad end else ROk None.
Definition sample_set_value (v : version) : str -> res (option gsample_set) general_err :=
  name_value (has_sample_set v) [("Normal", GsNormal); ("Soft", GsSoft); ("Drum", GsDrum); ("None", GsNone)]%string
    GenSampleSet.
Definition overlay_value (v : version) : str -> res (option overlay_position) general_err :=
  name_value (has_overlay v) [("NoChange", OpNoChange); ("Below", OpBelow); ("Above", OpAbove)]%string GenOverlay.
Definition general_table (v : version) : list (string * (str -> res unit general_err)) :=
  [("AudioFilename", can any_text); ("AudioLeadIn", can (int_value GenInt)); ("AudioHash", can any_text);
   ("PreviewTime", can (int_value GenInt)); ("Countdown", can (countdown_value v));
   ("SampleSet", can (sample_set_value v)); ("StackLeniency", can any_dec); ("Mode", can (mode_value v));
   ("LetterboxInBreaks", can flag_value); ("StoryFireInFront", can flag_value); ("UseSkinSprites", can flag_value);
   ("AlwaysShowPlayfield", can flag_value); ("OverlayPosition", can (overlay_value v));
   ("SkinPreference", can any_text); ("EpilepsyWarning", can flag_value); ("CountdownOffset", can (int_value GenInt));
   ("SpecialStyle", can flag_value); ("WidescreenStoryboard", can flag_value);
   ("SamplesMatchPlaybackRate", can flag_value); ("EditorBookmarks", can (ints_value GenInt GenCommaList));
   ("EditorDistanceSpacing", can any_dec)]%string.
Definition general_of (v : version) (get : str -> option str) : general :=
  let text k := of_key get k (@any_text general_err) in
  let int k := of_key get k (int_value GenInt) in
  let flag k := of_key get k flag_value in
  let dec k := of_key get k (@any_dec general_err) in
  mk_general (text "AudioFilename"%string) (int "AudioLeadIn"%string) (text "AudioHash"%string)
    (int "PreviewTime"%string) (of_key get "Countdown" (countdown_value v))
    (of_key get "SampleSet" (sample_set_value v)) (dec "StackLeniency"%string) (of_key get "Mode" (mode_value v))
    (flag "LetterboxInBreaks"%string) (flag "StoryFireInFront"%string) (flag "UseSkinSprites"%string)
    (flag "AlwaysShowPlayfield"%string) (of_key get "OverlayPosition" (overlay_value v))
    (text "SkinPreference"%string) (flag "EpilepsyWarning"%string) (int "CountdownOffset"%string)
    (flag "SpecialStyle"%string) (flag "WidescreenStoryboard"%string) (flag "SamplesMatchPlaybackRate"%string)
    (of_key get "EditorBookmarks" (ints_value GenInt GenCommaList)) (dec "EditorDistanceSpacing"%string).
Definition general_reads (v : version) : list kv_entry -> str -> res general (line_err general_err) :=
  kv_reads (general_table v) GenKey GenDup GenColonSet (general_of v).

(** ** [Editor] *)
Definition editor_table : list (string * (str -> res unit editor_err)) :=
  [("Bookmarks", can (ints_value EdInt EdCommaList)); ("DistanceSpacing", can any_dec); ("BeatDivisor", can any_dec);
   ("GridSize", can (int_value EdInt)); ("TimelineZoom", can any_dec); ("CurrentTime", can (int_value EdInt))]%string.
Definition editor_of (get : str -> option str) : editor :=
  let dec k := of_key get k (@any_dec editor_err) in
  mk_editor (of_key get "Bookmarks" (ints_value EdInt EdCommaList)) (dec "DistanceSpacing"%string)
    (dec "BeatDivisor"%string) (of_key get "GridSize" (int_value EdInt)) (dec "TimelineZoom"%string)
    (of_key get "CurrentTime" (int_value EdInt)).
Definition editor_reads : list kv_entry -> str -> res editor (line_err editor_err) :=
  kv_reads editor_table EdKey EdDup EdColonSet editor_of.

(** ** [Metadata] *)
(** an id that is no [i32] panics *)
Definition id_value (s : str) : res (option Z) metadata_err :=
  match parse_i32 s with ROk z => ROk (Some z) | _ => RPanic PUnwrap end.
Definition tags_value_of (s : str) : res (option (list str)) metadata_err := ROk (Some (pieces 32 s)).
Definition metadata_table : list (string * (str -> res unit metadata_err)) :=
  [("Title", can any_text); ("TitleUnicode", can any_text); ("Artist", can any_text); ("ArtistUnicode", can any_text);
   ("Creator", can any_text); ("Version", can any_text); ("Source", can any_text); ("Tags", can tags_value_of);
   ("BeatmapID", can id_value); ("BeatmapSetID", can id_value)]%string.
Definition metadata_of (get : str -> option str) : metadata :=
  let text k := of_key get k (@any_text metadata_err) in
  mk_metadata (text "Title"%string) (text "TitleUnicode"%string) (text "Artist"%string) (text "ArtistUnicode"%string)
    (text "Creator"%string) (text "Version"%string) (text "Source"%string) (of_key get "Tags" tags_value_of)
    (of_key get "BeatmapID" id_value) (of_key get "BeatmapSetID" id_value).
Definition metadata_reads : list kv_entry -> str -> res metadata (line_err metadata_err) :=
  kv_reads metadata_table MdKey MdDup MdColonSet metadata_of.

(** ** [Difficulty] *)
Definition difficulty_table : list (string * (str -> res unit difficulty_err)) :=
  [("HPDrainRate", can any_dec); ("CircleSize", can any_dec); ("OverallDifficulty", can any_dec);
   ("ApproachRate", can any_dec); ("SliderMultiplier", can any_dec); ("SliderTickRate", can any_dec)]%string.
Definition difficulty_of (get : str -> option str) : difficulty :=
  let dec k := of_key get k (@any_dec difficulty_err) in
  mk_difficulty (dec "HPDrainRate"%string) (dec "CircleSize"%string) (dec "OverallDifficulty"%string)
    (dec "ApproachRate"%string) (dec "SliderMultiplier"%string) (dec "SliderTickRate"%string).
Definition difficulty_reads : list kv_entry -> str -> res difficulty (line_err difficulty_err) :=
  kv_reads difficulty_table DfKey DfDup DfColonSet difficulty_of.
