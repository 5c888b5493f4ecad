{
 "claims": [
  {
   "property": "C01",
   "status": "proved",
   "theorems": [
    "C01_decimal_round_trip",
    "C01_decimal_print_parse",
    "C01_decimal_read_wf",
    "C01_decimal_read_exact",
    "C01_decimal_read_rounded",
    "C01_decimal_read_big",
    "C01_decimal_print_exact",
    "C01_decimal_exact",
    "C01_decimal_raw"
   ],
   "note": "Every text and every decimal; the rust_decimal parser and printer are transcribed in Dec.v and part of the trusted base."
  },
  {
   "property": "C02",
   "status": "proved",
   "theorems": [
    "C02_i32_accepts",
    "C02_u8_accepts",
    "C02_u32_accepts",
    "C02_usize_accepts",
    "C02_int_total",
    "C02_int_round_trip"
   ],
   "note": "Integers survive printing and parsing"
  },
  {
   "property": "C03",
   "status": "proved",
   "theorems": [
    "C03_colours_round_trip",
    "C03_negative_combo_rejected",
    "C03_colours_reparse",
    "C03_colours_read_ok"
   ],
   "note": "Values that can be written are given by boolean predicates; what a text is read to always satisfies them."
  },
  {
   "property": "C04",
   "status": "proved",
   "theorems": [
    "C04_timing_points_round_trip",
    "C04_big_index_rejected",
    "C04_timing_points_read_ok",
    "C04_timing_points_reparse"
   ],
   "note": "Versions 5 to 14; versions 3 and 4 are in C22. Values that can be written are given by boolean predicates; what a text is read to always satisfies them."
  },
  {
   "property": "C05",
   "status": "proved",
   "theorems": [
    "C05_flags",
    "C05_flags_agree",
    "C05_hit_objects_round_trip",
    "C05_hit_objects_read_ok",
    "C05_hit_objects_reparse"
   ],
   "note": "Versions 5 to 14; versions 3 and 4 are in C22. Values that can be written are given by boolean predicates; what a text is read to always satisfies them."
  },
  {
   "property": "C06",
   "status": "proved",
   "theorems": [
    "C06_general_round_trip",
    "C06_editor_round_trip",
    "C06_metadata_round_trip",
    "C06_difficulty_round_trip",
    "C06_general_reparse",
    "C06_general_reparse_same",
    "C06_editor_reparse",
    "C06_metadata_reparse",
    "C06_difficulty_reparse"
   ],
   "note": "Key/value sections round trip"
  },
  {
   "property": "C07",
   "status": "proved",
   "theorems": [
    "C07_command_text",
    "C07_command_round_trip",
    "C07_command_image",
    "C07_end_without_start_refuted"
   ],
   "note": "The refuted theorem shows why an end time without a start time is excluded."
  },
  {
   "property": "C08",
   "status": "proved",
   "theorems": [
    "C08_commands_text"
   ],
   "note": "Printed storyboard = pre-order walk of the command tree"
  },
  {
   "property": "C09",
   "status": "proved",
   "theorems": [
    "C09_push",
    "C09_push_rejects",
    "C09_push_zero",
    "C09_rebuild",
    "C09_walk_injective"
   ],
   "note": "Indentation rebuilds the command tree"
  },
  {
   "property": "C10",
   "status": "proved",
   "theorems": [
    "C10_general_no_panic",
    "C10_editor_no_panic",
    "C10_difficulty_no_panic"
   ],
   "note": "General, Editor and Difficulty parsing never panics"
  },
  {
   "property": "C11",
   "status": "proved",
   "theorems": [
    "C11_metadata_panics"
   ],
   "note": "Metadata parsing panics exactly on unreadable beatmap ids"
  },
  {
   "property": "C12",
   "status": "proved",
   "theorems": [
    "C12_timing_late_line",
    "C12_timing_late",
    "C12_object_late_line",
    "C12_objects_late",
    "C12_colours_no_panic",
    "C12_timing_points_no_panic",
    "C12_hit_objects_no_panic"
   ],
   "note": "Versions 3 and 4 panic exactly on times that cannot be moved by 24."
  },
  {
   "property": "C13",
   "status": "proved",
   "theorems": [
    "C13_event_line",
    "C13_command_line",
    "C13_section",
    "C13_safe",
    "C13_event_line_old",
    "C13_section_old"
   ],
   "note": "Says exactly which lines panic."
  },
  {
   "property": "C14",
   "status": "proved",
   "theorems": [
    "C14_colours_error_line",
    "C14_timing_points_error_line",
    "C14_hit_objects_error_line",
    "C14_colours_linewise",
    "C14_timing_points_linewise",
    "C14_hit_objects_linewise"
   ],
   "note": "An error in a line-based section names the first bad line"
  },
  {
   "property": "C15",
   "status": "proved",
   "theorems": [
    "C15_general_error_line",
    "C15_editor_error_line",
    "C15_metadata_error_line",
    "C15_difficulty_error_line",
    "C15_indented_refuted"
   ],
   "note": "Refuted for indented lines, where the number points past the line; proved for the others."
  },
  {
   "property": "C16",
   "status": "proved",
   "theorems": [
    "C16_error_line",
    "C16_error_cause",
    "C16_true_line",
    "C16_unexpected_line",
    "C16_error_line_refuted"
   ],
   "note": "The claim that the true line is always named is refuted; proved instead: the reported line is the true one minus the number of sections above that end in a blank line."
  },
  {
   "property": "C17",
   "status": "proved",
   "theorems": [
    "C17_sections_independent",
    "C17_section_order",
    "C17_print_order"
   ],
   "note": "Section order in the file does not matter"
  },
  {
   "property": "C18",
   "status": "proved",
   "theorems": [
    "C18_general_permutation",
    "C18_editor_permutation",
    "C18_metadata_permutation",
    "C18_difficulty_permutation",
    "C18_general_permutation_entries",
    "C18_editor_permutation_entries",
    "C18_metadata_permutation_entries",
    "C18_difficulty_permutation_entries"
   ],
   "note": "Key order in a key/value section does not matter"
  },
  {
   "property": "C19",
   "status": "proved",
   "theorems": [
    "C19_duplicate_section",
    "C19_every_text_has_entries",
    "C19_duplicate_keys"
   ],
   "note": "Duplicates are always rejected"
  },
  {
   "property": "C20",
   "status": "proved",
   "theorems": [
    "C20_unknown_section",
    "C20_unknown_keys",
    "C20_general_accepted_lines",
    "C20_editor_accepted_lines",
    "C20_metadata_accepted_lines",
    "C20_difficulty_accepted_lines"
   ],
   "note": "Unknown keys and sections are always rejected"
  },
  {
   "property": "C21",
   "status": "proved",
   "theorems": [
    "C21_version_accepted",
    "C21_version_missing",
    "C21_version_invalid",
    "C21_version_error_line"
   ],
   "note": "Version line acceptance"
  },
  {
   "property": "C22",
   "status": "proved",
   "theorems": [
    "C22_time_cancels",
    "C22_digits_refuted",
    "C22_integer_cancels",
    "C22_objects_read",
    "C22_objects_read_ok",
    "C22_objects_print",
    "C22_objects_cancel",
    "C22_objects_new",
    "C22_timing_read",
    "C22_timing_cancel",
    "C22_break_read",
    "C22_video_read",
    "C22_transformation_read",
    "C22_break_print",
    "C22_video_print",
    "C22_transformation_print",
    "C22_events_new",
    "C22_events_new_print",
    "C22_events_five"
   ],
   "note": "The refuted theorem: the digits of 0 and -24 with decimals are not kept, only the number."
  },
  {
   "property": "C23",
   "status": "proved",
   "theorems": [
    "C23_append_fails",
    "C23_append_ok",
    "C23_old_version"
   ],
   "note": "append_osb is all-or-nothing"
  },
  {
   "property": "C24",
   "status": "proved",
   "theorems": [
    "C24_equivalence",
    "C24_cut",
    "C24_canonical",
    "C24_exact",
    "C24_leading",
    "C24_trailing",
    "C24_reorder"
   ],
   "note": "osu_str_eq is an equivalence insensitive to layout, and exactly what it compares"
  },
  {
   "property": "C25",
   "status": "proved",
   "theorems": [
    "C25_idempotent",
    "C25_bom_refuted"
   ],
   "note": "Refuted for texts with a byte order mark before white space, proved for the others."
  },
  {
   "property": "C26",
   "status": "proved",
   "theorems": [
    "C26_value_blanks",
    "C26_faithful_refuted",
    "C26_order_refuted",
    "C26_no_sections"
   ],
   "note": "Both theorems are witnesses that the comparison is not faithful, which is the claim."
  },
  {
   "property": "C27",
   "status": "proved",
   "theorems": [
    "C27_effects_kiai",
    "C27_effects_no_barline",
    "C27_effects_getters",
    "C27_effects_clear",
    "C27_effects_new",
    "C27_effects_text",
    "C27_hit_sound_setters",
    "C27_hit_sound_set_new",
    "C27_hit_sound_new",
    "C27_hit_sound_text",
    "C27_type_number_written",
    "C27_type_number_read"
   ],
   "note": "Effect, hit sound and object-type bit fields are faithful"
  },
  {
   "property": "C28",
   "status": "proved",
   "theorems": [
    "C28_combo_skip_count",
    "C28_sample_volume",
    "C28_audio_volume",
    "C28_combo_accepts",
    "C28_sample_volume_set",
    "C28_audio_volume_set"
   ],
   "note": "Bounded types stay in bounds"
  },
  {
   "property": "C29",
   "status": "proved",
   "theorems": [
    "C29_fields_shape",
    "C29_fields_new",
    "C29_fields_push",
    "C29_fields_push_panics",
    "C29_fields_set",
    "C29_rgbs_shape",
    "C29_rgbs_new",
    "C29_rgbs_push_keeps",
    "C29_rgbs_push_refuted",
    "C29_rgbs_push_entry_refuted",
    "C29_rgbs_push_panics",
    "C29_rgbs_set"
   ],
   "note": "For colour lists the invariant holds except when something is pushed behind an incomplete entry (refuted theorems; when that panics is stated exactly)."
  },
  {
   "property": "C30",
   "status": "proved",
   "theorems": [
    "C30_trigger_round_trip",
    "C30_trigger_print_parse",
    "C30_trigger_wide_index",
    "C30_trigger_lone_additions"
   ],
   "note": "Trigger types round trip"
  },
  {
   "property": "C31",
   "status": "proved",
   "theorems": [
    "C31_open_header"
   ],
   "note": "Malformed section header silently drops the rest of the file"
  },
  {
   "property": "C32",
   "status": "proved",
   "theorems": [
    "C32_countdown",
    "C32_sample_set",
    "C32_overlay_position",
    "C32_colours",
    "C32_osb",
    "C32_general_fields",
    "C32_editor_fields",
    "C32_metadata_fields",
    "C32_difficulty_fields",
    "C32_plain_defaults",
    "C32_default_texts",
    "C32_audio_hash",
    "C32_editor_bookmarks",
    "C32_editor_distance_spacing",
    "C32_current_time",
    "C32_colour_transformation",
    "C32_hit_sample",
    "C32_deprecated_refuted",
    "C32_mode",
    "C32_mode_refuted",
    "C32_file_read",
    "C32_file_osb",
    "C32_file_print"
   ],
   "note": "Deprecated fields and game modes do not follow the rule; the refuted theorems name them, the others say what they do instead."
  },
  {
   "property": "C33",
   "status": "proved",
   "theorems": [
    "C33_every",
    "C33_every_new",
    "C33_settles",
    "C33_settles_refuted",
    "C33_reread_every",
    "C33_flags",
    "C33_round_trip",
    "C33_reread",
    "C33_stable"
   ],
   "note": "All versions; the file that comes back is given field by field. The refuted theorem shows why the game mode must be one that the version has."
  },
  {
   "property": "C34",
   "status": "proved",
   "theorems": [
    "C34_empty_last",
    "C34_empty_swallows",
    "C34_fine",
    "C34_printed"
   ],
   "note": "Empty sections do not survive"
  },
  {
   "property": "C35",
   "status": "proved",
   "theorems": [
    "C35_hit_sample_round_trip",
    "C35_hit_sample_versions_10_11",
    "C35_hit_sample_versions_3_9",
    "C35_hit_sample_read_ok"
   ],
   "note": "Hit samples round trip"
  },
  {
   "property": "C36",
   "status": "proved",
   "theorems": [
    "C36_path_stable",
    "C36_path_quotes"
   ],
   "note": "File paths are stable after one print"
  },
  {
   "property": "C37",
   "status": "proved",
   "theorems": [
    "C37_events_text",
    "C37_events_round_trip",
    "C37_events_reread"
   ],
   "note": "Events section: printed text and round trip"
  },
  {
   "property": "C38",
   "status": "proved",
   "theorems": [
    "C38_section",
    "C38_command_line",
    "C38_events_read",
    "C38_events_round_trip",
    "C38_prefix_names_refuted",
    "C38_empty_value_refuted",
    "C38_value_in_name_refuted"
   ],
   "note": "Each condition on the variables is shown necessary by a refuted theorem."
  },
  {
   "property": "C39",
   "status": "proved",
   "theorems": [
    "C39_variables",
    "C39_variables_no_panic",
    "C39_read",
    "C39_error_line",
    "C39_round_trip",
    "C39_versions",
    "C39_order_refuted",
    "C39_empty_variables_refuted"
   ],
   "note": "The refuted theorems are witnesses for the conditions on order and on empty variables."
  },
  {
   "property": "C40",
   "status": "proved",
   "theorems": [
    "C40_safe_old",
    "C40_cases",
    "C40_unique",
    "C40_stray",
    "C40_read",
    "C40_error",
    "C40_panic",
    "C40_safe",
    "C40_ignored"
   ],
   "note": "Every text is classified: read, refused or panicking, and why"
  },
  {
   "property": "C41",
   "status": "proved",
   "theorems": [
    "C41_frames",
    "C41_stem",
    "C41_panic",
    "C41_distinct",
    "C41_directory_lost",
    "C41_sprite"
   ],
   "note": "Names of the frames of an animation"
  },
  {
   "property": "C42",
   "status": "proved",
   "theorems": [
    "C42_value",
    "C42_bpm",
    "C42_beat",
    "C42_velocity",
    "C42_bpm_near",
    "C42_beat_near",
    "C42_velocity_near",
    "C42_zero",
    "C42_old",
    "C42_bpm_missing_refuted"
   ],
   "note": "For any division and multiplication: exact ones, and ones with a bounded error. C65 is about those of rust_decimal. The refuted theorem: points without the mark have no bpm."
  },
  {
   "property": "C43",
   "status": "proved",
   "theorems": [
    "C43_print",
    "C43_read_print",
    "C43_osb"
   ],
   "note": "Whatever was read can be printed"
  },
  {
   "property": "C44",
   "status": "proved",
   "theorems": [
    "C44_shows_line",
    "C44_shows_line_refuted",
    "C44_text",
    "C44_distinct",
    "C44_general",
    "C44_commands",
    "C44_commands_refuted",
    "C44_indentation",
    "C44_indentation_refuted",
    "C44_unknown_key",
    "C44_unknown_key_refuted",
    "C44_fields",
    "C44_words",
    "C44_inner",
    "C44_osb_shows_line",
    "C44_one_line"
   ],
   "note": "Refuted in general: the line shown after a section with a blank end (see C16), the key message of Metadata, and two messages that read the same."
  },
  {
   "property": "C45",
   "status": "proved",
   "theorems": [
    "C45_section",
    "C45_fields",
    "C45_timing_point"
   ],
   "note": "Timing point lines are read field by field"
  },
  {
   "property": "C46",
   "status": "proved",
   "theorems": [
    "C46_section",
    "C46_hit_sample",
    "C46_hit_object",
    "C46_never"
   ],
   "note": "Hit object lines are read field by field"
  },
  {
   "property": "C47",
   "status": "proved",
   "theorems": [
    "C47_event_line",
    "C47_section"
   ],
   "note": "Event lines are read field by field, and the section line by line"
  },
  {
   "property": "C48",
   "status": "proved",
   "theorems": [
    "C48_command_line",
    "C48_trigger"
   ],
   "note": "Command lines and triggers are read field by field"
  },
  {
   "property": "C49",
   "status": "proved",
   "theorems": [
    "C49_rgb",
    "C49_rgb_accepts",
    "C49_line",
    "C49_accepts",
    "C49_section"
   ],
   "note": "Colour lines are read part by part, and which lines are colours"
  },
  {
   "property": "C50",
   "status": "proved",
   "theorems": [
    "C50_general",
    "C50_editor",
    "C50_metadata",
    "C50_difficulty"
   ],
   "note": "The key/value sections are read entry by entry"
  },
  {
   "property": "C51",
   "status": "proved",
   "theorems": [
    "C51_osu",
    "C51_osu_cases",
    "C51_osu_unique",
    "C51_osb",
    "C51_osb_stray",
    "C51_osb_cases",
    "C51_osb_unique"
   ],
   "note": "Whole files are read section by section"
  },
  {
   "property": "C52",
   "status": "proved",
   "theorems": [
    "C52_general",
    "C52_editor",
    "C52_metadata",
    "C52_difficulty",
    "C52_colours",
    "C52_timing_points",
    "C52_hit_objects",
    "C52_replace",
    "C52_command",
    "C52_events",
    "C52_file",
    "C52_osb"
   ],
   "note": "What is printed for every value, in every version"
  },
  {
   "property": "C53",
   "status": "proved",
   "theorems": [
    "C53_osu",
    "C53_osb",
    "C53_osb_total"
   ],
   "note": "The reader is the format"
  },
  {
   "property": "C54",
   "status": "proved",
   "theorems": [
    "C54_save_as",
    "C54_again",
    "C54_late",
    "C54_flags_refuted",
    "C54_comma_refuted",
    "C54_times_refuted",
    "C54_hollow_refuted"
   ],
   "note": "Each condition is shown necessary by a refuted theorem."
  },
  {
   "property": "C55",
   "status": "proved",
   "theorems": [
    "C55_decimal_make",
    "C55_decimal_again",
    "C55_decimal_reads",
    "C55_decimal_refuted",
    "C55_decimal_int",
    "C55_origin",
    "C55_layer",
    "C55_sample_layer",
    "C55_countdown",
    "C55_refused",
    "C55_easing",
    "C55_easing_number",
    "C55_easing_back",
    "C55_easing_refuted",
    "C55_sample_sets",
    "C55_index",
    "C55_errors",
    "C55_errors_kept",
    "C55_hit_sound",
    "C55_volume",
    "C55_decimal_new"
   ],
   "note": "The refuted theorems name the values that are not what they print."
  },
  {
   "property": "C56",
   "status": "proved",
   "theorems": [
    "C56_lines",
    "C56_osu",
    "C56_osb",
    "C56_sections",
    "C56_crlf",
    "C56_newline",
    "C56_cr_refuted"
   ],
   "note": "Line feeds, with or without carriage returns before them. Carriage returns alone do not end lines (refuted theorem)."
  },
  {
   "property": "C57",
   "status": "proved",
   "theorems": [
    "C57_lists",
    "C57_keys",
    "C57_file",
    "C57_osb",
    "C57_white",
    "C57_skipped",
    "C57_keys_refuted"
   ],
   "note": "For whole files. Refuted for a key/value section that is read on its own and begins with a blank line."
  },
  {
   "property": "C58",
   "status": "proved",
   "theorems": [
    "C58_numbers",
    "C58_spelling",
    "C58_paths",
    "C58_files",
    "C58_canonical_numbers",
    "C58_canonical_paths",
    "C58_equivalence",
    "C58_read_back",
    "C58_text_refuted",
    "C58_read_back_every",
    "C58_reread",
    "C58_reread_refuted"
   ],
   "note": "The refuted theorem: equal values can print different texts."
  },
  {
   "property": "C59",
   "status": "proved",
   "theorems": [
    "C59_objects",
    "C59_typed",
    "C59_file",
    "C59_new_slider",
    "C59_slider_refuted",
    "C59_circle",
    "C59_spinner",
    "C59_hold",
    "C59_uninherited",
    "C59_inherited",
    "C59_setters",
    "C59_set_ok",
    "C59_set_refuted",
    "C59_break",
    "C59_video",
    "C59_origin",
    "C59_new_file",
    "C59_empty",
    "C59_defaults",
    "C59_path"
   ],
   "note": "The refuted theorems name the values that a program can build and that are not saved as they are."
  },
  {
   "property": "C60",
   "status": "proved",
   "theorems": [
    "C60_relaid",
    "C60_saved",
    "C60_osb",
    "C60_every_refuted",
    "C60_converse_refuted"
   ],
   "note": "The refuted theorems show that the conditions are needed and that the converse fails."
  },
  {
   "property": "C61",
   "status": "proved",
   "theorems": [
    "C61_events",
    "C61_read",
    "C61_error",
    "C61_panic",
    "C61_safe",
    "C61_ignored"
   ],
   "note": "Which storyboard texts panic, and which are certain not to"
  },
  {
   "property": "C62",
   "status": "proved",
   "theorems": [
    "C62_pieces",
    "C62_pieces_variables",
    "C62_pieces_events",
    "C62_lines",
    "C62_lines_variables",
    "C62_lines_events",
    "C62_general",
    "C62_editor",
    "C62_metadata",
    "C62_difficulty",
    "C62_section",
    "C62_section_gone",
    "C62_osb_events",
    "C62_osb_variables",
    "C62_print_general",
    "C62_print_editor",
    "C62_print_metadata",
    "C62_print_difficulty",
    "C62_print_timing_points",
    "C62_print_hit_objects",
    "C62_print_colours",
    "C62_print_events"
   ],
   "note": "Editing one part of a file changes that part of the value and nothing else, and the other way round"
  },
  {
   "property": "C63",
   "status": "proved",
   "theorems": [
    "C63_osu",
    "C63_release",
    "C63_cr_refuted",
    "C63_parts",
    "C63_osb_parts",
    "C63_osb",
    "C63_lists",
    "C63_events",
    "C63_keys"
   ],
   "note": "Every file that is read, cut off after any line, reads to the beginning of what it read to; the exceptions (no version line left, an empty last section with overflow checks, a stray carriage return) are stated exactly, the last with a witness. Also for storyboards and the readers of the sections. Cuts inside a line are not covered."
  },
  {
   "property": "C64",
   "status": "proved",
   "theorems": [
    "C64_osu",
    "C64_same_error_refuted",
    "C64_empty_refuted",
    "C64_cr_refuted",
    "C64_osb",
    "C64_lists",
    "C64_keys"
   ],
   "note": "For every text and all appended lines: the same error on the same line, or one of the exceptions, which are stated exactly and shown to occur. Also for storyboards and the readers of the sections. Text appended to the last line is not covered."
  },
  {
   "property": "C65",
   "status": "proved",
   "theorems": [
    "C65_mul",
    "C65_div",
    "C65_div_zero",
    "C65_div_digits",
    "C65_div_exact_digits",
    "C65_mul_digits",
    "C65_rounded_unique",
    "C65_rounded_exact",
    "C65_nearest_refuted",
    "C65_calc_bpm",
    "C65_calc_velocity",
    "C65_to_bpm",
    "C65_to_beat",
    "C65_new_inherited",
    "C65_multiplier",
    "C65_read_bpm",
    "C65_read_velocity",
    "C65_bpm_exact",
    "C65_beat_exact",
    "C65_multiplier_exact",
    "C65_bpm_refuted",
    "C65_beat_refuted",
    "C65_add",
    "C65_sub"
   ],
   "note": "Complete for the transcription of rust_decimal's algorithms in DecOps.v, which is not part of /repo and belongs to the trusted base. The refuted theorems are witnesses of the negative claims of the statement."
  },
  {
   "property": "C66",
   "status": "proved",
   "theorems": [
    "C66_same_text",
    "C66_between",
    "C66_older",
    "C66_later",
    "C66_later_refuted",
    "C66_old_refuted"
   ],
   "note": "Versions 5 to 14; the exceptions are named and shown to occur. For versions 3 and 4 see C22 and C54."
  },
  {
   "property": "C67",
   "status": "proved",
   "theorems": [
    "C67_files",
    "C67_any_version",
    "C67_version",
    "C67_colours",
    "C67_timing_points",
    "C67_hit_objects",
    "C67_events",
    "C67_decimals",
    "C67_decimals_refuted",
    "C67_hit_objects_refuted"
   ],
   "note": "Corollaries of the round trips (C01, C03-C05, C33, C37) and of what is printed; the refuted theorems show that the conditions are needed."
  },
  {
   "property": "C68",
   "status": "proved",
   "theorems": [
    "C68_events",
    "C68_events_with_variables",
    "C68_items",
    "C68_count",
    "C68_colours",
    "C68_timing_points",
    "C68_hit_objects"
   ],
   "note": "One line, one item, in order"
  },
  {
   "property": "C69",
   "status": "proved",
   "theorems": [
    "C69_osu",
    "C69_osb",
    "C69_inside",
    "C69_inside_refuted"
   ],
   "note": "Sections that are finished; that the section of the cut and those below may differ is shown by the example, and that a cut inside a line may panic by C69_inside_refuted."
  },
  {
   "property": "C70",
   "status": "proved",
   "theorems": [
    "C70_osu",
    "C70_osb",
    "C70_append",
    "C70_osb_print",
    "C70_print",
    "C70_checked",
    "C70_unchecked_refuted",
    "C70_lists"
   ],
   "note": "C70_unchecked_refuted: a time that wraps in a build without checks gives a value the other build can neither read nor print."
  },
  {
   "property": "C71",
   "status": "proved",
   "theorems": [
    "C71_names",
    "C71_numbers",
    "C71_settles",
    "C71_index",
    "C71_index_lost",
    "C71_edge_set",
    "C71_curve_point",
    "C71_origin",
    "C71_variable",
    "C71_rgb"
   ],
   "note": "C71_index_lost: a sample index of 2^31 and more is read but its printed text is not. What a decimal text is, is said by C01."
  },
  {
   "property": "C72",
   "status": "proved",
   "theorems": [
    "C72_file",
    "C72_keys",
    "C72_keys_in_line",
    "C72_colour",
    "C72_colours",
    "C72_key_blank",
    "C72_number_blank"
   ],
   "note": "Trailing blanks of a text value are part of it (C50); blanks in lists of timing points, hit objects and events are said by C45 to C48."
  },
  {
   "property": "C73",
   "status": "proved",
   "theorems": [
    "C73_before",
    "C73_before_osb",
    "C73_before_refuted",
    "C73_events",
    "C73_events_command",
    "C73_timing_points",
    "C73_hit_objects",
    "C73_colours",
    "C73_variables",
    "C73_keys"
   ],
   "note": "C73_before_refuted: a comment before the first section that ends in a bracket empties the file."
  },
  {
   "property": "C74",
   "status": "proved",
   "theorems": [
    "C74_passes",
    "C74_order",
    "C74_number_refuted",
    "C74_nesting_refuted"
   ],
   "note": "C74_number_refuted and C74_nesting_refuted: blanks in decimals and the nesting of storyboard commands are not compared (titles and the order of hit objects are in C26)."
  },
  {
   "property": "C75",
   "status": "proved",
   "theorems": [
    "C75_osu",
    "C75_osb"
   ],
   "note": "Variants of the Rust enums that no code constructs are not in the model; they are listed with the error types."
  },
  {
   "property": "C76",
   "status": "proved",
   "theorems": [
    "C76_general",
    "C76_editor",
    "C76_metadata",
    "C76_difficulty",
    "C76_colours",
    "C76_timing_points",
    "C76_hit_objects",
    "C76_command",
    "C76_variables",
    "C76_events",
    "C76_file",
    "C76_osb"
   ],
   "note": "All versions; the values of versions 3 and 4 are those that adding 24 to the times can give."
  },
  {
   "property": "C77",
   "status": "proved",
   "theorems": [
    "C77_agrees",
    "C77_tells",
    "C77_osb",
    "C77_events",
    "C77_decimals",
    "C77_timing_points",
    "C77_hit_objects",
    "C77_commands",
    "C77_paths",
    "C77_relative_paths",
    "C77_paths_refuted",
    "C77_tells_refuted"
   ],
   "note": "The data of files with a path that begins with a slash do not tell the slash (C77_tells_refuted); equality still implies equal hashes for all files."
  },
  {
   "property": "C78",
   "status": "proved",
   "theorems": [
    "C78_total",
    "C78_sample_volume",
    "C78_timing_point",
    "C78_combo",
    "C78_tp_volume"
   ],
   "note": "Order.v models the three derived orders; OrderFacts.v uses the bounds of C28."
  },
  {
   "property": "C79",
   "status": "proved",
   "theorems": [
    "C79_numbers",
    "C79_timing_points",
    "C79_speeds",
    "C79_paths",
    "C79_append",
    "C79_push",
    "C79_digits_refuted",
    "C79_sums",
    "C79_print"
   ],
   "note": "Equality of results is ==; that the digits of the results are the same is refuted (C79_digits_refuted). Printed texts of equal files may differ (C58_text_refuted)."
  }
 ]
}