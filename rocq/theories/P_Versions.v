(** C32: which versions have what; readers, printers and defaults. *)
From Coq Require Import String List NArith ZArith Bool.
From Verif Require Import Str Num Dec Parsers KeyValue KvFields General Editor Metadata Difficulty Colours
  TimingPoints HitObjects Storyboard NormalEvents Events Osb OsuFile Defaults Spec SpecWf SpecSections SpecGate GateFacts.
Import ListNotations.
Local Open Scope N_scope.

(** Reader, printer and default of the types that come with a version agree. *)
Theorem C32_countdown : agrees has_countdown any countdown_from_str countdown_to_string countdown_default.
Proof. exact countdown_agrees. Qed.
Print Assumptions C32_countdown.
Theorem C32_sample_set : agrees has_sample_set any gsample_set_from_str gsample_set_to_string gsample_set_default.
Proof. exact sample_set_agrees. Qed.
Print Assumptions C32_sample_set.
Theorem C32_overlay_position :
  agrees has_overlay any overlay_position_from_str overlay_position_to_string overlay_position_default.
Proof. exact overlay_agrees. Qed.
Print Assumptions C32_overlay_position.
Theorem C32_colours :
  agrees has_colours (fun l => forallb colour_ok l && forallb combo_nonneg l)
    colours_from_str colours_to_string colours_default.
Proof. exact colours_agree. Qed.
Print Assumptions C32_colours.
Theorem C32_osb : forall dbg v,
  if has_osb v
  then (forall s, osb_from_str dbg s v <> ROk None) /\ (forall o, osb_to_string dbg o v <> ROk None)
  else (forall s, osb_from_str dbg s v = ROk None) /\ (forall o, osb_to_string dbg o v = ROk None).
Proof. exact osb_agrees. Qed.
Print Assumptions C32_osb.
Example C32_ex :
  has_countdown 4%Z = false /\ has_countdown 5%Z = true /\ has_sample_set 3%Z = false /\ has_sample_set 4%Z = true
  /\ has_overlay 13%Z = false /\ has_overlay 14%Z = true /\ has_colours 4%Z = false /\ has_colours 5%Z = true
  /\ has_osb 13%Z = false /\ has_osb 14%Z = true
  /\ countdown_from_str (lit "2") 5%Z = ROk (Some CdHalf) /\ countdown_from_str (lit "2") 4%Z = ROk None
  /\ countdown_to_string CdHalf 5%Z = Some (lit "2")
  /\ overlay_position_from_str (lit "Above") 14%Z = ROk (Some OpAbove)
  /\ osb_to_string true (mk_osb (Some []) None) 13%Z = ROk None.
Proof. vm_compute. repeat split. Qed.

(** The other fields of the key/value sections are read and printed in every version, ... *)
Theorem C32_general_fields : forall f, In f general_fields -> is_versioned (f_name f) = false ->
  forall v, (forall s, f_from f s v <> ROk None) /\ (forall x, f_to f x v <> None).
Proof. exact plain_general. Qed.
Print Assumptions C32_general_fields.
Theorem C32_editor_fields : forall f, In f editor_fields -> is_versioned (f_name f) = false ->
  forall v, (forall s, f_from f s v <> ROk None) /\ (forall x, f_to f x v <> None).
Proof. exact plain_editor. Qed.
Print Assumptions C32_editor_fields.
Theorem C32_metadata_fields : forall f, In f metadata_fields ->
  forall v, (forall s, f_from f s v <> ROk None) /\ (forall x, f_to f x v <> None).
Proof. exact plain_metadata. Qed.
Print Assumptions C32_metadata_fields.
Theorem C32_difficulty_fields : forall f, In f difficulty_fields ->
  forall v, (forall s, f_from f s v <> ROk None) /\ (forall x, f_to f x v <> None).
Proof. exact plain_difficulty. Qed.
Print Assumptions C32_difficulty_fields.
(** ... and those of [General] have a default in every version that is read back from its text. *)
Theorem C32_plain_defaults :
  agrees (E:=general_err) all_versions any from_text to_text audio_filename_default
  /\ agrees all_versions in_i32 gen_int to_int audio_lead_in_default
  /\ agrees all_versions in_i32 gen_int to_int preview_time_default
  /\ agrees (E:=general_err) all_versions dec_value from_dec to_dec stack_leniency_default
  /\ agrees all_versions any from_zero_one to_zero_one letterbox_in_breaks_default
  /\ agrees all_versions any from_zero_one to_zero_one story_fire_in_front_default
  /\ agrees all_versions any from_zero_one to_zero_one use_skin_sprites_default
  /\ agrees all_versions any from_zero_one to_zero_one always_show_playfield_default
  /\ agrees (E:=general_err) all_versions any from_text to_text skin_preference_default
  /\ agrees all_versions any from_zero_one to_zero_one epilepsy_warning_default
  /\ agrees all_versions in_i32 gen_int to_int countdown_offset_default
  /\ agrees all_versions any from_zero_one to_zero_one special_style_default
  /\ agrees all_versions any from_zero_one to_zero_one widescreen_storyboard_default
  /\ agrees all_versions any from_zero_one to_zero_one samples_match_playback_rate_default.
Proof. exact plain_defaults. Qed.
Print Assumptions C32_plain_defaults.
(** The defaults, as they are written. *)
Theorem C32_default_texts :
  default_text all_versions to_text audio_filename_default ""
  /\ default_text all_versions to_int audio_lead_in_default "0"
  /\ default_text all_versions to_int preview_time_default "-1"
  /\ default_text has_countdown countdown_to_string countdown_default "1"
  /\ default_text has_sample_set gsample_set_to_string gsample_set_default "Normal"
  /\ default_text all_versions to_dec stack_leniency_default "0.7"
  /\ default_text all_versions mode_to_string mode_default "0"
  /\ default_text all_versions to_zero_one letterbox_in_breaks_default "0"
  /\ default_text all_versions to_zero_one story_fire_in_front_default "1"
  /\ default_text all_versions to_zero_one use_skin_sprites_default "0"
  /\ default_text all_versions to_zero_one always_show_playfield_default "0"
  /\ default_text has_overlay overlay_position_to_string overlay_position_default "NoChange"
  /\ default_text all_versions to_text skin_preference_default ""
  /\ default_text all_versions to_zero_one epilepsy_warning_default "0"
  /\ default_text all_versions to_int countdown_offset_default "0"
  /\ default_text all_versions to_zero_one special_style_default "0"
  /\ default_text all_versions to_zero_one widescreen_storyboard_default "0"
  /\ default_text all_versions to_zero_one samples_match_playback_rate_default "0".
Proof. exact default_texts. Qed.
Print Assumptions C32_default_texts.
Example C32_fields_ex :
  map f_name (filter (fun f => is_versioned (f_name f)) general_fields)
    = [lit "AudioHash"; lit "Countdown"; lit "SampleSet"; lit "Mode"; lit "OverlayPosition"; lit "EditorBookmarks"; lit "EditorDistanceSpacing"]
  /\ map f_name (filter (fun f => is_versioned (f_name f)) editor_fields) = [lit "CurrentTime"]
  /\ to_dec (DNum (mkDec false 7 1)) 3%Z = Some (lit "0.7") /\ stack_leniency_default 3%Z = Some (DNum (mkDec false 7 1)).
Proof. vm_compute. repeat split. Qed.

(** Deprecated fields are read in every version but printed only in the versions that had them,
    so there reader and printer do not agree. *)
Theorem C32_audio_hash :
  read_always (E:=general_err) has_audio_hash any from_text to_audio_hash
  /\ forall v, audio_hash_default v = if has_audio_hash v then Some [] else None.
Proof. exact audio_hash_gate. Qed.
Print Assumptions C32_audio_hash.
Theorem C32_editor_bookmarks :
  read_always has_editor_fields (forallb in_i32) from_editor_bookmarks to_editor_bookmarks.
Proof. exact editor_bookmarks_gate. Qed.
Print Assumptions C32_editor_bookmarks.
Theorem C32_editor_distance_spacing :
  read_always (E:=general_err) has_editor_fields dec_value from_dec to_editor_distance_spacing.
Proof. exact editor_spacing_gate. Qed.
Print Assumptions C32_editor_distance_spacing.
Theorem C32_current_time : read_always (fun v => (v =? 10)%Z) in_i32 (from_int EdInt) to_current_time.
Proof. exact current_time_gate. Qed.
Print Assumptions C32_current_time.
Theorem C32_colour_transformation : forall dbg v,
  (forall s, ctr_from_str dbg v s <> ROk None)
  /\ (has_transformation v = false -> forall x, ctr_to_string dbg v x = ROk None)
  /\ (has_transformation v = true -> forall x, ctr_to_string dbg v x <> ROk None).
Proof. exact transformation_gate. Qed.
Print Assumptions C32_colour_transformation.
Theorem C32_hit_sample : forall v,
  (forall s, hit_sample_from_str s <> ROk None)
  /\ (forall h, hit_sample_to_string h v = None <-> (3 <= v <= 9)%Z).
Proof. exact hit_sample_gate. Qed.
Print Assumptions C32_hit_sample.
Theorem C32_deprecated_refuted : exists v s h e,
  general_from_str s v = ROk (Some h) /\ general_audio_hash h = Some (lit "abc")
  /\ general_to_string h v = Some [] /\ editor_from_str (lit "CurrentTime: 5") v = ROk (Some e)
  /\ editor_current_time e = Some 5%Z /\ editor_to_string e v = Some [].
Proof.
  exists 14%Z, (lit "AudioHash: abc"), (general_set_audio_hash (Some (lit "abc")) general_new),
    (editor_set_current_time (Some 5%Z) editor_new). vm_compute. repeat split.
Qed.
Print Assumptions C32_deprecated_refuted.

(** Game modes: a version reads only the modes it has, prints all of them, and a mode it does
    not have is lost when the text is read again. *)
Theorem C32_mode : forall v,
  (forall s m, mode_from_str s v = ROk (Some m) -> has_mode v m = true)
  /\ (forall m, exists s, mode_to_string m v = Some s
        /\ mode_from_str s v = ROk (if has_mode v m then Some m else None))
  /\ (forall d, mode_default v = Some d -> has_mode v d = true).
Proof. exact mode_gates. Qed.
Print Assumptions C32_mode.
Theorem C32_mode_refuted : exists v m s,
  mode_to_string m v = Some s /\ mode_from_str s v = ROk None.
Proof. exists 9%Z, MMania, (lit "3"). vm_compute. repeat split. Qed.
Print Assumptions C32_mode_refuted.
Example C32_mode_ex :
  map (fun m => map (has_mode m) [MOsu; MTaiko; MCatch; MMania]) [3%Z; 4%Z; 5%Z; 6%Z; 7%Z; 9%Z; 10%Z; 14%Z]
  = [[true; false; false; false]; [true; false; false; false]; [true; true; false; false]; [true; true; false; false];
     [true; true; true; false]; [true; true; true; false]; [true; true; true; true]; [true; true; true; true]]
  /\ mode_from_str (lit "2") 7%Z = ROk (Some MCatch).
Proof. vm_compute. repeat split. Qed.

(** A file that was read holds only what its version has, also after reading an .osb file. *)
Theorem C32_file_read : forall dbg s f, osu_from_str dbg s = ROk f -> gated_file f.
Proof. exact file_gated. Qed.
Print Assumptions C32_file_read.
Theorem C32_file_osb : forall dbg f s, gated_file f -> gated_file (fst (append_osb dbg f s)).
Proof. exact append_gated. Qed.
Print Assumptions C32_file_osb.
(** Printing any file value leaves out what the version does not have. *)
Theorem C32_file_print : forall dbg f,
  osu_to_string dbg (without_absent f) = osu_to_string dbg f
  /\ osu_osb_to_string dbg (without_absent f) = osu_osb_to_string dbg f.
Proof. exact print_without_absent. Qed.
Print Assumptions C32_file_print.
Definition C32_text (v : string) : str :=
  join [10] (map lit ["osu file format v" ++ v; "[General]"; "AudioLeadIn: 7"; "Countdown: 2"; "SampleSet: Soft"; "Mode: 2"; "[Colours]"; "Combo1 : 1,2,3"])%string.
Example C32_file_ex :
  osu_from_str true (C32_text "4"%string)
    = ROk (mk_osu 4%Z (Some (general_set_sample_set (Some GsSoft) (general_set_audio_lead_in (Some 7%Z) general_new)))
        None None None None None None None None)
  /\ osu_from_str true (C32_text "7"%string)
    = ROk (mk_osu 7%Z (Some (general_set_mode (Some MCatch) (general_set_countdown (Some CdHalf)
             (general_set_sample_set (Some GsSoft) (general_set_audio_lead_in (Some 7%Z) general_new)))))
        None None None None None None (Some [Combo 1 (mk_rgb 1 2 3)]) None).
Proof. vm_compute. split; reflexivity. Qed.
