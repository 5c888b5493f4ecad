{"id": "C01", "title": "Reading a number and printing it back is loss-free", "statement": "Parsing any text as `Decimal` always succeeds; printing the result and parsing again gives exactly the same `Decimal` (same digits and same scale, or the same raw text when the text was not a number), so printing is stable after one pass. A number that does not fit is rounded half up to the digits that fit, or kept as raw text when it is too big. Which texts are numbers, and which number each is, is given exactly: an optional sign, digits with at most one point, underscores anywhere behind the first digit; past 28 decimals or 96 bits the next character decides the rounding and the rest of the text is not looked at; every other text is kept raw.", "quantifier": "every string", "why_tests_cant": "The set of strings is unbounded (signs, underscores, 28+ digit fractions, raw junk); a test only sees the literals it lists.", "anchors": ["src/osu_file/types.rs: Decimal, From<&str>, Display"]}
{"id": "C02", "title": "Integers survive printing and parsing", "statement": "For every value of an integer type used by the file format, parsing its printed form yields the same value; every accepted text denotes a value in the type's range; and out-of-range or non-digit text is always an error, never a wrapped value.", "quantifier": "every integer value / every string, for u8, u32, i32 and usize fields", "why_tests_cant": "Ranges contain 2^32 and more values and the input strings are unbounded.", "anchors": ["src/osu_file/types.rs: Integer, Version", "src/helper/mod.rs: parse_zero_one_bool"]}
{"id": "C03", "title": "Colours section round trip", "statement": "For every `Colours` value whose combo numbers are not negative and every version from 5 on, `Colours::from_str(colours.to_string(v), v)` returns that same value in the same order; a `Colour::Combo` with a negative number prints text that is rejected.", "quantifier": "every list of colours, every version >= 5", "why_tests_cant": "Unbounded lists of colours times 2^24 RGB values; tests try two or three.", "anchors": ["src/osu_file/colours/mod.rs: Colours, Colour", "src/osu_file/colours/types.rs: Rgb"]}
{"id": "C04", "title": "Timing points round trip", "statement": "For every version from 5 to 14 and every list of timing points of the shape the parser produces (volume/uninherited/effects present as that version requires, sample index below 2^31), printing and re-parsing returns the same list. A sample index of 2^31 or more prints as a negative number and the printed file is rejected.", "quantifier": "every list of timing points, every version 5..14", "why_tests_cant": "Unbounded data; version times optional-field combinations.", "anchors": ["src/osu_file/timingpoints/mod.rs: TimingPoint, TimingPoints", "src/osu_file/timingpoints/types.rs"]}
{"id": "C05", "title": "Hit objects round trip", "statement": "For every version from 5 to 14 and every list of hit objects (circles, sliders, spinners, mania holds) that the version can express, printing and re-parsing returns the same list: position, time, new-combo flag, combo skip, hit sound, curve, edges, end time and hit sample are all preserved.", "quantifier": "every list of hit objects, versions 5..14", "why_tests_cant": "Four object kinds with unbounded curve point and edge lists; tests use a handful of literals.", "anchors": ["src/osu_file/hitobjects/mod.rs: HitObject, HitObjects", "src/osu_file/hitobjects/types.rs"]}
{"id": "C06", "title": "Key/value sections round trip", "statement": "For each of General, Editor, Metadata and Difficulty: printing any well-formed section value and re-parsing it at the same version gives the same value, with every field that the version can express preserved.", "quantifier": "every section value with printable field values, every version 3..14", "why_tests_cant": "Up to 20 optional fields per section: 2^20 presence patterns times unbounded strings.", "anchors": ["src/helper/macros.rs: general_section", "src/osu_file/general/mod.rs", "src/osu_file/editor/mod.rs", "src/osu_file/metadata/mod.rs", "src/osu_file/difficulty/mod.rs"]}
{"id": "C07", "title": "A storyboard command survives printing and parsing", "statement": "For every storyboard command in the parser's image, `Command::from_str(cmd.to_string(v), v)` returns the same command (type, easing, times, values and all continuing values); loops and triggers return with an empty body.", "quantifier": "every command of all eleven kinds, with unboundedly many continuing values", "why_tests_cant": "Continuing value lists are unbounded and each command kind has several optional fields.", "anchors": ["src/osu_file/events/storyboard/cmds/mod.rs: Command::from_str, Command::to_string_variables"]}
{"id": "C08", "title": "Printed storyboard = pre-order walk of the command tree", "statement": "The iterative printer of an object's commands emits exactly one line per command, in pre-order, each indented by one space per nesting level, for command trees of any depth and width.", "quantifier": "every forest of commands", "why_tests_cant": "The printer is a hand-written stack machine; tests only exercise one or two shapes.", "anchors": ["src/osu_file/events/storyboard/mod.rs / sprites.rs: commands_to_string_variables"]}
{"id": "C09", "title": "Indentation rebuilds the command tree", "statement": "Feeding the lines of a pre-order walk of a command tree, with the nesting level as indentation, to `try_push_cmd` one by one rebuilds exactly that tree; a command indented deeper than the last open loop or trigger allows is rejected with an indentation error, and an indentation of zero, which no command line has, panics unless the object has no commands yet.", "quantifier": "every forest of commands; every pushed command and indentation", "why_tests_cant": "Unbounded nesting and interleavings of push operations.", "anchors": ["src/osu_file/events/mod.rs: EventWithCommands::try_push_cmd"]}
{"id": "C10", "title": "General, Editor and Difficulty parsing never panics", "statement": "`General::from_str`, `Editor::from_str` and `Difficulty::from_str` return a value or an error for every input string and every version.", "quantifier": "every string, every u8 version", "why_tests_cant": "A panic can hide behind any of infinitely many inputs.", "anchors": ["src/helper/macros.rs: general_section_inner", "src/osu_file/editor/mod.rs: Bookmarks", "src/osu_file/general/mod.rs"]}
{"id": "C11", "title": "Metadata parsing panics exactly on unreadable beatmap ids", "statement": "`Metadata::from_str` returns a value or an error unless, before any other problem is met, a BeatmapID or BeatmapSetID line has a value that is not an i32; in that case, and only in that case, it panics.", "quantifier": "every string, every version", "why_tests_cant": "Needs the exact set of panicking inputs, which is infinite.", "anchors": ["src/osu_file/metadata/mod.rs: BeatmapID, BeatmapSetID"]}
{"id": "C12", "title": "Colours, timing points and hit objects never panic, except for extreme times in versions 3 and 4", "statement": "`Colours::from_str`, `TimingPoints::from_str` and `HitObjects::from_str` return a value or an error for every input string and every version that does not shift times (any version other than 3 and 4). In versions 3 and 4 timing points and hit objects panic exactly at the first line, all lines above being read, in which a time to be shifted (the time of a timing point or hit object, the end of a spinner or hold note) is a whole number of at least 2^96-24.", "quantifier": "every string, every u8 version; both directions", "why_tests_cant": "A panic can hide behind any input; the internal unwraps and 'unreachable' branches have to be shown dead.", "anchors": ["src/osu_file/colours/mod.rs", "src/osu_file/timingpoints/mod.rs", "src/osu_file/hitobjects/mod.rs", "src/helper/macros.rs: verbose_error_to_error"]}
{"id": "C13", "title": "Events parsing can panic, and on which lines", "statement": "From version 5 on, `Events::from_str` does not return exactly when it reaches one of these lines, all lines above being read without error: a line starting with `0`..`6`, `Video` or `Break` that continues with something else than a comma; an animation with correct layer, origin, frame count and frame delay and an unknown loop type; below an event that takes commands, an indented `T` command whose hit sound trigger has another piece behind the sample number (`HitSound56`), or an indented line in which the number of characters up to and including the first comma, taken as a number of bytes, falls inside a character. Texts without such a line always give a value or an error. Versions 3 and 4 in addition panic, with overflow checks, on a video, break or colour transformation whose time is within 24 of the largest `i32`.", "quantifier": "every string, every version; both directions", "why_tests_cant": "Both halves need all inputs: that listed patterns are the only ones cannot be tested.", "anchors": ["src/osu_file/events/mod.rs: Events::from_str_variables", "src/osu_file/events/storyboard/sprites.rs: Object::from_str", "src/osu_file/events/storyboard/cmds/types.rs: TriggerType", "src/osu_file/events/storyboard/cmds/mod.rs: Command::from_str"]}
{"id": "C14", "title": "An error in a line-based section names the first bad line", "statement": "When `Colours`, `TimingPoints` or `HitObjects` parsing fails with line index i, then i is a line of the input, line i alone fails with that same error, and every earlier line is blank or parses on its own.", "quantifier": "every string and version", "why_tests_cant": "Holds for all inputs and all error positions; tests check a few positions.", "anchors": ["src/osu_file/colours/mod.rs", "src/osu_file/timingpoints/mod.rs", "src/osu_file/hitobjects/mod.rs", "src/osu_file/types.rs: Error"]}
{"id": "C15", "title": "An error in a key/value section names the right line", "statement": "When a key/value section whose lines have no leading blanks fails with line index i, line i of the text is the offending `key: value` line. With leading blanks on a line the reported index can overshoot (a witness is given).", "quantifier": "every section text without leading blanks on a line", "why_tests_cant": "Index arithmetic over unbounded runs of blank lines.", "anchors": ["src/helper/macros.rs: general_section_inner", "src/parsers.rs: get_colon_field_value_lines"]}
{"id": "C16", "title": "File-level error line index", "statement": "For a file whose version line is first and where the failing section is the first section, the reported line index is the index in the file of the offending line. For later sections the index drifts by one for each earlier section that is followed by a blank line (witness).", "quantifier": "every file of that shape", "why_tests_cant": "Off-by-one drift over arbitrarily many sections and blank lines.", "anchors": ["src/osu_file/mod.rs: OsuFile::from_str", "src/osu_file/types.rs: Error::processing_line"]}
{"id": "C17", "title": "Section order in the file does not matter", "statement": "If two files have the same version and the same sections in a different order and both parse, the resulting `OsuFile` values are equal; printing always emits the sections in one fixed order.", "quantifier": "every permutation of the sections of every file", "why_tests_cant": "8! orders times unbounded contents.", "anchors": ["src/osu_file/mod.rs: OsuFile::from_str, Display"]}
{"id": "C18", "title": "Key order in a key/value section does not matter", "statement": "Permuting the lines of a key/value section that parses yields the same section value.", "quantifier": "every permutation of the lines of every parseable section", "why_tests_cant": "n! orders times unbounded contents.", "anchors": ["src/helper/macros.rs: general_section"]}
{"id": "C19", "title": "Duplicates are always rejected", "statement": "A file in which a section name occurs twice, or a key/value section in which a key occurs twice, never parses successfully: no value is silently overwritten. For files this is said of the sections up to a malformed header (C31), each of them with a line of its own (C34).", "quantifier": "every file / section text", "why_tests_cant": "Any position, any distance between the duplicates.", "anchors": ["src/osu_file/mod.rs", "src/helper/macros.rs"]}
{"id": "C20", "title": "Unknown keys and sections are always rejected", "statement": "A key/value section containing a key not in the documented list, and a file containing an unknown section, never parse successfully. For files this is said of the sections up to a malformed header (C31), each of them with a line of its own (C34).", "quantifier": "every file / section text", "why_tests_cant": "Any unknown name, any position.", "anchors": ["src/osu_file/mod.rs", "src/helper/macros.rs"]}
{"id": "C21", "title": "Version line acceptance", "statement": "Every successfully parsed file has a version from 3 to 14, equal to the number on its version line; a text whose first non-blank characters (after an optional byte order mark) are not `osu file format v` is rejected with FileVersionDefinedWrong, and any other version text is rejected with InvalidFileVersion.", "quantifier": "every string", "why_tests_cant": "All strings; includes numbers that overflow u8.", "anchors": ["src/osu_file/mod.rs: OsuFile::from_str"]}
{"id": "C22", "title": "Old-format time offset cancels", "statement": "In versions 3 and 4 reading adds 24 ms to hit object, timing point, video, break and colour-transformation times and printing subtracts it, so that a time with room for the addition is printed as the number that was read, with the same digits unless it is 0 or -24 written with decimals; in other versions times are untouched. When an integer time plus 24 is no i32, reading panics (overflow checks on) or wraps, and printing undoes the wrap. Apart from the time, and the first curve point in version 3, an old hit object is what version 5 reads from the same line.", "quantifier": "every representable time", "why_tests_cant": "2^32 integers / 2^96 decimals with scales.", "anchors": ["src/osu_file/hitobjects/mod.rs", "src/osu_file/timingpoints/mod.rs", "src/osu_file/events/normal_event/mod.rs"]}
{"id": "C23", "title": "append_osb is all-or-nothing", "statement": "A failing `append_osb` leaves the `OsuFile` unchanged; a successful one changes only the `osb` field; `osb_to_string` gives nothing before version 14.", "quantifier": "every file value and every .osb text", "why_tests_cant": "Every state and every input.", "anchors": ["src/osu_file/mod.rs: append_osb, osb_to_string", "src/osu_file/osb/mod.rs"]}
{"id": "C24", "title": "osu_str_eq is an equivalence insensitive to layout, and exactly what it compares", "statement": "`osu_str_eq` is reflexive, symmetric and transitive. Inserting blank lines, indenting lines, adding blanks at line ends, or reordering the lines of a section in which every line has a colon does not change its verdict. For texts without U+FEFF it holds exactly when both have the same version line and the same section headers in the same order, with bodies that agree up to order (sections of colon lines only) and up to blanks in lines with a colon.", "quantifier": "every pair / triple of strings", "why_tests_cant": "Relational property over all strings.", "anchors": ["src/lib.rs: osu_str_trimmer, osu_str_eq"]}
{"id": "C25", "title": "osu_str_trimmer is idempotent on text without byte order marks", "statement": "Trimming an already trimmed text changes nothing, provided the text has no U+FEFF; with U+FEFF it can change (witness).", "quantifier": "every string", "why_tests_cant": "All strings, arbitrary mixture of sections and colon lines.", "anchors": ["src/lib.rs: osu_str_trimmer"]}
{"id": "C26", "title": "osu_str_eq cannot tell values apart by their spaces, nor hit objects by their order", "statement": "The documentation promises that only the space around the separator of a key/value pair is ignored; in fact, below a section header, two texts that differ only by blanks inside the value of a `key:value` line always compare equal, and there are files that parse to different titles, or to hit objects in a different order, and compare equal. Texts without a section header are compared by their version line alone, so any two error messages compare equal (four tests of the crate compare messages this way).", "quantifier": "every text, key and pair of values equal up to blanks; witnesses that the parsed values differ", "why_tests_cant": "Disproof of a universally quantified expectation, kept as a defect record.", "anchors": ["src/lib.rs: osu_str_trimmer"]}
{"id": "C27", "title": "Effect, hit sound and object-type bit fields are faithful", "statement": "Setting one flag of `Effects` or `HitSound` changes that flag only; reading back a set flag returns it; the object type byte decodes to the kind, new-combo flag and skip count it was encoded from.", "quantifier": "every stored bit pattern and every flag value", "why_tests_cant": "2^32 bit patterns and sequences of operations of any length.", "anchors": ["src/osu_file/timingpoints/types.rs: Effects", "src/osu_file/hitobjects/types.rs: HitSound, ComboSkipCount", "src/osu_file/hitobjects/mod.rs: type_to_string"]}
{"id": "C28", "title": "Bounded types stay in bounds", "statement": "Every `ComboSkipCount` obtained from any sequence of API calls or parse is at most 7, every hit object `Volume` is none or 1..100, every audio sample volume at most 100.", "quantifier": "every call sequence / parse", "why_tests_cant": "Invariant over histories.", "anchors": ["src/osu_file/hitobjects/types.rs", "src/osu_file/events/audio_sample/mod.rs"]}
{"id": "C29", "title": "Continuing-value lists keep their shape", "statement": "Every `ContinuingFields` value built by any sequence of constructor, set and push calls keeps the rule that only the last entry may be incomplete, and a push does not change what the earlier entries mean; the same holds for storyboard `Colours` under the constructor and set, but `push_continuing_rgbs` breaks it (witness). Pushing after a single incomplete entry panics exactly when overflow checks are on.", "quantifier": "every sequence of API calls", "why_tests_cant": "Invariant over histories of calls.", "anchors": ["src/osu_file/events/storyboard/cmds/types.rs: ContinuingFields, Colours"]}
{"id": "C30", "title": "Trigger types round trip", "statement": "`TriggerType` printing and parsing are inverse for every trigger that names no additions sample set without a sample set and whose custom sample number has one digit, and nothing else is accepted; with a longer number parsing the printed text panics, or fails with TooManyHitSoundFields when it falls into more than four pieces.", "quantifier": "every trigger type", "why_tests_cant": "10^19 custom sample numbers; branchy splitter.", "anchors": ["src/osu_file/events/storyboard/cmds/types.rs: TriggerType"]}
{"id": "C31", "title": "Malformed section header silently drops the rest of the file", "statement": "If a section header line lacks its closing bracket, parsing succeeds or fails exactly as if the file ended before that line: the text after it is never looked at and no error is reported.", "quantifier": "every file with such a line", "why_tests_cant": "Statement about all continuations of a file.", "anchors": ["src/osu_file/mod.rs: OsuFile::from_str", "src/parsers.rs: square_section"]}
{"id": "C32", "title": "Version gating is consistent", "statement": "For `Countdown` (not in 3-4), `SampleSet` (not in 3), `OverlayPosition` (not in 3-13), `Colours` (not in 3-4) and the .osb file (from 14) the reader, the printer and the default agree on which versions have it; every other key/value field is read and printed in every version, except the deprecated `AudioHash` (printed up to 13), `EditorBookmarks`/`EditorDistanceSpacing` (up to 5), `CurrentTime` (only 10), colour transformations (up to 13) and hit samples (not 3-9), which are read always. A game mode is read only by versions that have it (taiko 5, catch 7, mania 10) but printed by all, so it can be lost. A file that was read holds only what its version has, and printing any file leaves out what its version does not have.", "quantifier": "every version 0..255 and every value", "why_tests_cant": "Cross product of versions, values and functions.", "anchors": ["src/osu_file/general/types.rs", "src/osu_file/colours/mod.rs", "src/osu_file/osb/mod.rs"]}
{"id": "C33", "title": "Whole file round trip", "statement": "For every `OsuFile` value of versions 5 to 14 whose sections each have a line and can be written (as C03-C06 and C37 say), `to_string` gives the version line, an empty line and the sections in the order of the format, and `parse` of that text returns the same value, without the storyboard file and without the `General`/`Editor` fields the version does not print. A file that was read from a text without stray carriage returns is of that kind (up to quotes around paths and the values C04/C05 name), and saving it a second time gives the same text. For every version from 3 to 14, what comes back is described field by field: samples are lost below version 10 (and their volume and file name in 10 and 11), circles of version 3 and holds below 10 come back with the default sample, timing points keep two fields in version 3 and five in version 4, colours are not written in 3 and 4, and 0 and 24 lose their decimals there; after one save and load the value stays the same.", "quantifier": "every well-formed file value of versions 3..14; every text that parses", "why_tests_cant": "Unbounded structured data.", "anchors": ["src/osu_file/mod.rs: Display, FromStr"]}
{"id": "C34", "title": "Empty sections do not survive", "statement": "Printing a file with a section that has no lines produces text that is not read back: such a section followed by another one swallows the next header, so that the text is refused, and as the last section it makes the line counter of the parser underflow, which panics with overflow checks on (without them this file is read back).", "quantifier": "witnesses; and for every file value with an empty last section", "why_tests_cant": "Disproof of the unrestricted round trip.", "anchors": ["src/osu_file/mod.rs", "src/parsers.rs: square_section"]}
{"id": "C35", "title": "Hit samples round trip", "statement": "`HitSample` printing and parsing at versions 12 and later are inverse for every sample whose file name contains no colon; earlier versions drop exactly the documented parts.", "quantifier": "every hit sample, every version", "why_tests_cant": "Unbounded strings and u32 indexes.", "anchors": ["src/osu_file/hitobjects/types.rs: HitSample"]}
{"id": "C36", "title": "File paths are stable after one print", "statement": "Printing a file path, reading it as a path and printing again gives the same text; the quotes are added only when the path has a space and is not already quoted.", "quantifier": "every path string", "why_tests_cant": "All strings.", "anchors": ["src/osu_file/types.rs: FilePath"]}
{"id": "C37", "title": "Events section: printed text and round trip", "statement": "`Events::to_string` prints the line of every event, each followed by the lines of its commands in pre-order indented by their depth; parsing the printed text of any list of events that can be written gives the same list with the same command trees; and any text without stray carriage returns that parses can be printed and parsed again, giving the same events with quoted paths and, in version 14, without colour transformations.", "quantifier": "every event list, every command tree, every version, and every section text", "why_tests_cant": "Unbounded lists of events with unbounded trees.", "anchors": ["src/osu_file/events/mod.rs: Events::from_str, Events::to_string", "src/osu_file/events/normal_event/mod.rs", "src/osu_file/events/storyboard/sprites.rs", "src/osu_file/events/audio_sample/mod.rs"]}
{"id": "C38", "title": "Storyboard variables are put in for their names", "statement": "Reading `[Events]` with variables gives the result of reading the same text with every `$name` in the command lines (after the name of the command) replaced by its value, the same error at the same line included, when no variable name begins another and values contain no `$`; the lines of the events themselves are not changed. Printing with variables and reading with the same variables gives back the events when moreover values are not empty and do not begin with a character of an earlier name; prefix names, empty values and values inside earlier names break it (witnesses).", "quantifier": "every list of variables, every events text, every event list", "why_tests_cant": "Unbounded lists of variables and commands; replacement order matters.", "anchors": ["src/osu_file/events/mod.rs: Events::from_str_variables, to_string_variables", "src/osu_file/osb/types.rs: Variable"]}
{"id": "C39", "title": "Storyboard files", "statement": "`Osb::from_str` accepts a text exactly when its sections are `Variables` and `Events`, each at most once, and each can be read; the variables are exactly the `$name=value` lines; events see the variables of the sections above them only. Every error is reported with its line, one less for each section above that ends with a blank line. `to_string` followed by `from_str` returns the same `Osb`, except that an empty list of variables above events makes the text unreadable (witness).", "quantifier": "every .osb text and every Osb value", "why_tests_cant": "Unbounded files; order of sections.", "anchors": ["src/osu_file/osb/mod.rs: Osb::from_str, Osb::to_string", "src/osu_file/osb/types.rs: Variable"]}
{"id": "C40", "title": "Every text is classified: read, refused or panicking, and why", "statement": "Every text whatsoever is of exactly one of four kinds: no version line, unsupported version, a stray line before the first section, or a supported version with a unique list of sections. In the last case `OsuFile::from_str` returns a value exactly when all sections are known, different and accepted by their readers (and, with overflow checks, none is empty), an error exactly for the first section that is a duplicate, unknown or refused, and panics exactly at the first section whose own reader panics or, with overflow checks, at an empty one. From version 5 on only bad event lines, non-numeric ids in `[Metadata]` or an empty section can cause a panic; in versions 3 and 4 also the extreme times of C12 and C13. Text after the first thing that is no section is ignored.", "quantifier": "every string, both build modes", "why_tests_cant": "The set of all strings is infinite; no sampling shows that no other outcome exists.", "anchors": ["src/osu_file/mod.rs: OsuFile::from_str", "src/parsers.rs: square_section"]}
{"id": "C41", "title": "Names of the frames of an animation", "statement": "`Animation::frame_file_names` returns exactly `frame_count` different names; name `i` is the file name of the path with `i` put before its extension (the part from the last dot on, unless that is the first character). It panics exactly when the path has no file name (empty, `/`, `.` or ending in `..`). The directory is not part of the names. `Sprite::new` refuses exactly absolute paths.", "quantifier": "every path text and every frame count", "why_tests_cant": "Paths are arbitrary text; dots, slashes and trailing components interact.", "anchors": ["src/osu_file/events/storyboard/sprites.rs: Animation::frame_file_names, Sprite::new"]}
{"id": "C42", "title": "Beats per minute and slider velocity", "statement": "`calc_bpm` is 1/beat_length*60000 for points marked uninherited with a numeric beat length, `calc_slider_velocity_multiplier` is 1/(beat_length/-100) for points marked inherited, and both are None otherwise. Over exact arithmetic `beat_duration_ms_to_bpm` and `bpm_to_beat_duration_ms` are inverse, and the multiplier of `new_inherited` is the one it was made with; with arithmetic that rounds by at most u per operation the product of the two is off by at most 60000(2u+u^2)max(1,beat), and a multiplier between 0.01 and 100 by at most 3000000u. A zero beat length panics. Points of versions 3 and 4 never have a speed although `uninherited()` is true (the documentation says otherwise; witness).", "quantifier": "every timing point, every division and multiplication", "why_tests_cant": "Values range over all decimals; the missing speed only shows for short lines.", "anchors": ["src/osu_file/timingpoints/mod.rs: TimingPoint::calc_bpm, calc_slider_velocity_multiplier, beat_duration_ms_to_bpm, bpm_to_beat_duration_ms, new_inherited"]}
{"id": "C43", "title": "Whatever was read can be printed", "statement": "For every text that `OsuFile::from_str` accepts, in every version, `to_string` on the result returns a text. For a file put together by hand printing panics exactly in versions 3 and 4 when a time of a timing point or hit object (or the end of a spinner or hold note) is a whole number of at most -(2^96-24) or, with overflow checks, a time of a video, break or colour transformation is below -2^31+24. Printing a storyboard file always succeeds.", "quantifier": "every string; every file value; every storyboard value; both build modes", "why_tests_cant": "Printing goes through arithmetic and a hand-written stack machine for commands; that no reader ever produces a value on which these fail is a statement about all texts.", "anchors": ["src/osu_file/mod.rs: Display for OsuFile, osb_to_string", "src/osu_file/timingpoints/mod.rs: TimingPoint::to_string", "src/osu_file/hitobjects/mod.rs: HitObject::to_string", "src/osu_file/events/mod.rs: commands_to_string_variables", "src/osu_file/events/normal_event/mod.rs: time_to_string"]}
{"id": "C44", "title": "An error names the line and what was wrong with it", "statement": "When no section before the bad one ends in a blank line, `format!(\"{err}\")` of the error from `OsuFile::from_str` is `Line n, message` and `display_error_with_line` is `Line n: text, message` where text is exactly the bad line and n its number counted from one. The same holds of errors from `Osb::from_str`. A missing or unreadable field of a timing point, hit object, event, command or colour is named in the message as missing or as invalid; the other messages have the words that tell what is wrong, and errors from inside a section are shown as they are. Different errors of one kind of line have different messages, except that `General` shows a bad number without its field and two command errors share a text. The message for an unknown key names its section, except in `[Metadata]`, where it names `General`; after a section that ends in a blank line a different line is shown. A command that is indented too far is told its indentation and another one that would be accepted, except where the last command is a loop or trigger without commands: there the message says that 0 was expected, which is never accepted. What is shown of an error has no line break in it, whatever the error and the text.", "quantifier": "every text laid out as version line, comments and sections; every pair of errors", "why_tests_cant": "The line number is kept in a counter that several readers advance; the text shown depends on that counter for every possible layout.", "anchors": ["src/osu_file/types.rs: Error::display_error_with_line, Display for Error", "src/osu_file/general/error.rs", "src/osu_file/metadata/error.rs", "src/osu_file/events/storyboard/error.rs: ParseCommandError", "src/osu_file/hitobjects/error.rs", "src/osu_file/timingpoints/error.rs", "src/osu_file/osb/error.rs"]}
{"id": "C45", "title": "Timing point lines are read field by field", "statement": "A line is cut at its commas into a unique list of fields. `TimingPoint::from_str` reads time, beat length, meter, sample set, sample index, volume, inherited flag and effects in this order, each from its own field, in every version: version 3 takes the rest of the line as beat length and fills in 4/Normal/1/100; version 4 may end after the sample index (volume 100) and takes the rest of the line as volume; version 5 may end after the flag; later versions need both flag and effects or neither. A field that is not there gives its `Missing` error, one that cannot be read its `Invalid` error, and the first bad field from the left decides.", "quantifier": "every string, every version", "why_tests_cant": "The space of lines is infinite, and the reader is a nest of alternatives whose wrong branch would only show for particular combinations of missing and bad fields.", "anchors": ["src/osu_file/timingpoints/mod.rs: TimingPoint::from_str", "src/parsers.rs: comma, comma_field_type, consume_rest_type"]}
{"id": "C46", "title": "Hit object lines are read field by field", "statement": "`HitObject::from_str` reads position, time, type and hit sound from the first five fields; the first of type bits 0, 1, 3, 7 that is set decides what the rest is: nothing or a sample; curve with points between bars, slides, length and optional edge sounds, edge sets and sample; end time and optional sample; end time up to the first colon and sample. Every outcome is given for every line in every version, each error included: a list that cannot be read is reported as the absence of the field behind it, a blank last list counts as empty, and version 3 drops the first curve point; eight of the documented errors, such as `InvalidCurvePoint`, are never reported. `HitSample::from_str` reads its pieces between colons, absent and blank last pieces being defaults, and ignores what follows the fifth.", "quantifier": "every string, every version", "why_tests_cant": "Lines have unboundedly many fields and list items, and which error is reported depends on how far a list parser got before it gave up.", "anchors": ["src/osu_file/hitobjects/mod.rs: HitObject::from_str", "src/osu_file/hitobjects/types.rs: HitSample, CurvePoint, EdgeSet", "src/parsers.rs: pipe_vec"]}
{"id": "C47", "title": "Event lines are read field by field, and the section line by line", "statement": "`Events::from_str` without variables gives, for every text and version, exactly this outcome: blank lines are skipped; a line beginning with `//` is a comment; an indented line is a command that joins the last event, at the depth of its indentation, through the last loop or trigger of every level, and is refused when there is none or the last event takes no commands; any other line is an event named by its first field, with the fields of that event in order, each with its own `Missing` and `Invalid` error, the first bad field deciding. Names that only begin like a numbered one and unknown loop types panic, names that only begin like a storyboard event's count as having no fields, and fields behind those of a sprite or audio sample are ignored. The first line that fails is the one reported, with its number.", "quantifier": "every string, every version, overflow checks on or off", "why_tests_cant": "Lines have unboundedly many fields, trees of commands have any depth, and which of some sixty errors is reported depends on the combination of missing, bad and surplus fields.", "anchors": ["src/osu_file/events/mod.rs: Events::from_str_variables, try_push_cmd", "src/osu_file/events/normal_event/mod.rs", "src/osu_file/events/storyboard/sprites.rs", "src/osu_file/events/audio_sample/mod.rs"]}
{"id": "C48", "title": "Command lines and triggers are read field by field", "statement": "`Command::from_str` reads, for every text, exactly this: the name behind any spaces and underscores; for the eight kinds with values easing, start and end time (both may be left out, or the end time alone) and the values in order, continuing values in ones, twos or threes of which only the last may be incomplete; loops and triggers with their own fields. Every error is given for every line; numbers outside the 35 easings are kept; decimals never fail. `TriggerType::from_str` cuts the text behind `HitSound` before every upper case letter and digit and takes set, additions set, addition and number, each optional; more than four pieces are an error, and otherwise anything behind a number panics.", "quantifier": "every string", "why_tests_cant": "The reader tries alternatives whose failures are swallowed, so that a wrong one shows only for particular combinations of fields; the lists of values have any length.", "anchors": ["src/osu_file/events/storyboard/cmds/mod.rs: Command::from_str", "src/osu_file/events/storyboard/types.rs: TriggerType::from_str, Easing"]}
{"id": "C49", "title": "Colour lines are read part by part, and which lines are colours", "statement": "`Colour::from_str` accepts exactly `ComboN`, `SliderTrackOverride`, `SliderBorder` or `Sliderborder`, a colon and a colour, with spaces and tabs around the parts; a colour is two components of digits with commas and a third that may have a plus sign, all at most 255. Every other line gives the error of its first bad part; what follows the third component makes it invalid, what stands between a component and its comma makes the next one missing. `Colours` (from version 5 on; before that it is not there), `TimingPoints` and `HitObjects` read every line that is not blank in turn and report the first that fails with its number.", "quantifier": "every string, every version", "why_tests_cant": "The accepted texts are infinitely many, as are the ways to be wrong; a colour is parsed twice when it fails and the second outcome is the one reported.", "anchors": ["src/osu_file/colours/mod.rs: Colour::from_str, Colours::from_str", "src/osu_file/colours/types.rs: Rgb::from_str"]}
{"id": "C50", "title": "The key/value sections are read entry by entry", "statement": "Every text given to `General`, `Editor`, `Metadata` or `Difficulty` is a list of `key:value` entries and a rest. If the rest is not blank the outcome is the missing colon error; otherwise entries are looked at in order and the first whose key was seen before, is unknown, or whose value cannot be read is the error, with the number of the line it is on; otherwise every field holds the value of the entry with its key, or nothing. Flags are 0 or 1 and no other number, countdowns and modes are numbers from 0 to 3, sample sets and overlay positions are names, ids that are not 32 bit integers panic, and values a version does not have are dropped.", "quantifier": "every string, every version", "why_tests_cant": "A table-driven macro is instantiated four times with 43 fields of ten kinds; tests look at one key at a time and cannot show that no other value is accepted.", "anchors": ["src/helper/macros.rs: general_section! from_str", "src/osu_file/general/mod.rs", "src/osu_file/editor/mod.rs", "src/osu_file/metadata/mod.rs", "src/osu_file/difficulty/mod.rs", "src/osu_file/general/types.rs"]}
{"id": "C51", "title": "Whole files are read section by section", "statement": "Every text given to `OsuFile::from_str` either has no version line, an unsupported version, a stray line before the first header, or is a unique list of sections `[name]`, white space, text, of which the first is at a definite line. In the last case the result is exactly that of going through the sections in order: the first whose name was seen before, is unknown, or whose text its reader refuses is the error, at the line the sections above it add up to; a panic of a section's reader, or (with overflow checks) an empty section, is a panic; otherwise every field of the file is what the section of that name reads to, and `None` where there is no such section. The same holds for `Osb::from_str`, where `Events` is read with the variables of a `Variables` section above it and with none if there is none above.", "quantifier": "every string, both build modes", "why_tests_cant": "Which of the sections decides the result and at which line depends on all sections above it; tests see a few files.", "anchors": ["src/osu_file/mod.rs: OsuFile::from_str", "src/osu_file/osb/mod.rs: Osb::from_str", "src/parsers.rs: square_section"]}
{"id": "C52", "title": "What is printed for every value, in every version", "statement": "For every value of every section and every version the printed text is fixed: which fields stand on which line and in which order, which are left out in which version, how edge sounds, edge sets and samples of hit objects are kept apart, where quotes, spaces and commas are put, how commands are indented and where variables replace values. In versions 3 and 4 the text is that of the same value with every time of timing points, hit objects, videos, breaks and colour transformations moved back by 24; where such a time does not exist printing panics, and nowhere else. A file is its version line and the sections that are there, with one empty line between them.", "quantifier": "every value of every type, every version, both build modes", "why_tests_cant": "Round trips only show that the reader understands what the printer wrote; they cannot see a field printed in a form that both happen to accept, and values that cannot be read back are never compared at all.", "anchors": ["src/osu_file/mod.rs: Display for OsuFile", "src/osu_file/hitobjects/mod.rs: HitObject::to_string", "src/osu_file/timingpoints/mod.rs: TimingPoint::to_string", "src/osu_file/events/mod.rs: to_string_variables", "src/osu_file/osb/mod.rs: Osb::to_string"]}
{"id": "C53", "title": "The reader is the format", "statement": "There is one set of rules, from the characters of a text up to the whole file, that says for every text what it means: the value of the file, the error and the line it is reported at, or the panic. OsuFile::from_str gives exactly this for every text, and Osb::from_str for every storyboard text: every field of every line of every section, variables included. No text is outside the rules and none has two meanings.", "quantifier": "every text, both build modes", "why_tests_cant": "A test compares a handful of texts with hand-written values; agreement on all texts, broken ones included, of all sections at once is out of reach of any number of them.", "anchors": ["src/osu_file/mod.rs: OsuFile::from_str", "src/osu_file/osb/mod.rs: Osb::from_str", "src/osu_file/events/mod.rs: Events::from_str_variables"]}
{"id": "C54", "title": "A file can be saved under another version", "statement": "A beatmap read from a text of any version can be given any other version from 3 to 14 by setting the version field. If every section still has something to write in that version, event times can be shifted, timing points have whole lines of the new version, then to_string succeeds and reading the text gives the same beatmap under the new version, with exactly those values gone or defaulted that the new version does not hold: for versions 12 to 14 nothing outside General and Editor (and the colour transformations, which version 14 has not). Saving again changes nothing if the new version has the game mode of the file. Each condition is needed: without it the new text is refused, means something else, or stops the program.", "quantifier": "every text of every version, every target version, both build modes", "why_tests_cant": "There are 132 pairs of versions, each with its own gates in eight sections; a test fixes one pair and one file. The failing cases (a version 3 line with extra fields, version 5 flags without effects, a section left empty) are only visible across versions.", "anchors": ["src/osu_file/mod.rs: OsuFile::version, Display, from_str", "src/osu_file/timingpoints/mod.rs: TimingPoint", "src/osu_file/events/normal_event/mod.rs: time_to_string"]}
{"id": "C55", "title": "Values made by a program mean what they print", "statement": "`try_make_decimal` leaves the number the text is read as, or the text and an error, and a second call changes nothing; a decimal made from an i32 prints as the i32 does and is equal to what that text is read as. A number is taken for an origin, layer or countdown exactly if it has a place in the table and every value has the number of its place; the rest is refused. Easings and sample sets keep numbers they do not know, and every number comes back; sample indices of timing points come back only below 2^31. Errors passed up through readers carry the sum of the lines.", "quantifier": "every number, text, value and version", "why_tests_cant": "The tables have up to 35 rows in two directions and are written twice by hand; a swapped pair of rows is consistent with every round trip test.", "anchors": ["src/osu_file/types.rs: Decimal, Error, VersionedFromRepr", "src/osu_file/events/storyboard/types.rs: Easing", "src/osu_file/timingpoints/types.rs", "src/osu_file/hitobjects/types.rs", "src/osu_file/events/normal_event/types.rs"]}
{"id": "C56", "title": "Only the lines of a text matter, not how they end", "statement": "Two texts with the same lines (as `str::lines` divides them) give the same result everywhere: the same file, the same error at the same line, or the same panic, for `OsuFile::from_str`, `Osb::from_str`, `append_osb`, `osu_str_trimmer` and every section on its own. In particular replacing every line feed by carriage return and line feed changes nothing, and the last line need not be ended. Lone carriage returns are not line ends.", "quantifier": "every pair of texts with the same lines, every version, both build modes", "why_tests_cant": "The readers divide texts in three different ways (by `lines`, by `nom` up to a carriage return or a line feed, by searching for a line feed and a bracket); tests use one kind of ending per file.", "anchors": ["src/osu_file/mod.rs: OsuFile::from_str", "src/parsers.rs: get_colon_field_value_lines, square_section", "src/osu_file/osb/mod.rs", "src/lib.rs: osu_str_trimmer"]}
{"id": "C57", "title": "Blank lines do not matter", "statement": "Two texts that have the same lines apart from blank ones (spaces, tabs and carriage returns) are read alike by `TimingPoints`, `HitObjects`, `Colours`, `Events` and the variables of a storyboard: the same value, the same kind of error (its line number is counted with the blank lines) or the same panic. In these sections a blank line may be made of any white space of Unicode, and nothing else is skipped: variables and hit objects are read as empty lists only from texts of white space. For `General`, `Editor`, `Metadata` and `Difficulty` it is so when the first line of both texts begins with a visible character; a blank line before it is an error. So whole .osu and .osb files whose sections differ in blank lines only are the same file or are refused for the same reason, whatever blank lines or comments stand before the first section.", "quantifier": "every pair of texts and of laid-out files that differ in blank lines, every version, both build modes", "why_tests_cant": "Where a blank line may stand is a question about every position of every file; the list readers skip such lines one by one, the key/value reader only sees them as part of the gap between two entries.", "anchors": ["src/osu_file/general/mod.rs: General::from_str", "src/osu_file/events/mod.rs: Events::from_str", "src/osu_file/mod.rs: OsuFile::from_str", "src/osu_file/osb/mod.rs", "src/parsers.rs: get_colon_field_value_lines"]}
{"id": "C58", "title": "Equality of files", "statement": "`==` on `OsuFile` and on every type below it is an equivalence. Two files are equal exactly when they are the same value apart from the spelling of numbers and paths: decimals are compared as numbers (1.0 is 1.00, and two texts that are numbers give equal decimals exactly when they are the same number; raw text is compared as text), paths up to repeated slashes, dots between slashes and slashes at the end. Equal files of every version that can be saved, and whose file names need no quotes put around them, are equal again after saving and loading; with names that get quotes this can fail (the paths `a b/` and `a b` are equal, `\"a b/\"` and `\"a b\"` are not). The saved texts need not be the same, not even for `osu_str_eq`.", "quantifier": "every pair of decimals, paths and files, every nesting of storyboard commands, both build modes", "why_tests_cant": "That a comparison is an equivalence, and which values it identifies, is a statement about all pairs and triples of values; tests compare a value with itself.", "anchors": ["src/osu_file/mod.rs: OsuFile", "src/osu_file/types.rs: Decimal, FilePath", "src/osu_file/events/storyboard/cmds/mod.rs: Command", "src/helper/macros.rs"]}
{"id": "C59", "title": "What a program builds is what is saved", "statement": "A hit object built through the public API with values in the ranges of the Rust types, and a file that meets the conditions of C33 once the private flags of its sliders are those of the printed line, is written by to_string and read again, from version 3 on. Every public field of a hit object comes back as C33 says; the private flags of a slider that say what was left out are set as the printed line shows, and every hold comes back with a sample, so a slider from `SlideParams::new` is read as an equal value exactly if it has no edge sounds, no edge sets and no sample, and a default hold never is. `TimingPoint::new_inherited` and `new_uninherited` (with any decimal division) print a line that is read as the same point; each setter changes one field; a point that could be written still can after any setter, except that `set_uninherited` and `effects_mut` need flag and effects to be both there or both missing (a point read from a short line is saved as a line that cannot be read after `set_uninherited`). `Break::new`, `Video::new`, `Origin::from`, `OsuFile::new` and the default sections and objects have the stated texts and are read back the same.", "quantifier": "every hit object, timing point, event and file in the ranges of the types, every version from 3 to 14, both build modes", "why_tests_cant": "Round-trip tests start from texts, so they never see values that no text is read as: private flags set by a constructor, missing samples, a flag without effects.", "anchors": ["src/osu_file/hitobjects/mod.rs: SlideParams::new, HitObject::to_string, hitcircle_default, spinner_default, osu_mania_hold_default", "src/osu_file/timingpoints/mod.rs: new_inherited, new_uninherited, setters", "src/osu_file/events/normal_event/mod.rs: Break::new, Video::new", "src/osu_file/mod.rs: OsuFile::new"]}
{"id": "C60", "title": "The documented check passes on every layout of a saved file", "statement": "The documentation of the crate checks a file by `assert_eq_osu_str(&osu_file.to_string(), osu_file_str)`, which compares what osu_str_trimmer makes of both, as osu_str_eq does. Take a file that can be saved (C33) and the text t that saving gives once it has settled. Every text s with the same version line (with or without byte order mark), any blank lines and comments before the first section, and the same sections in the same order is read as the same file, is saved as t, and passes the check, where General, Editor, Metadata and Difficulty may hold their keys in any order and with any blanks after the colon, the other sections hold the same lines, and blank lines may stand anywhere in a section after its first line as well as after the header; line ends may be LF or CRLF. In general, of two texts related in this way, if one is read then so is the other, as the same file, and osu_str_eq finds them equal; the same holds of storyboard files that differ in blank lines and in comments before the first section. The check does not pass on every text that can be read: `Countdown: 01` is saved in another spelling, and sections that stand in another order are saved in the order of the format. Texts that osu_str_eq finds equal need not both be read (`Mode : 0` is refused).", "quantifier": "every file value that can be saved, every version from 3 to 14, every such pair of texts, both build modes", "why_tests_cant": "The crate's tests run the check on a handful of files from the game; which changes of a file keep it passing is a statement about all texts, and needs the parser and the trimmer to agree on what layout is.", "anchors": ["src/lib.rs: osu_str_trimmer, osu_str_eq, assert_eq_osu_str, crate documentation", "src/osu_file/mod.rs: FromStr for OsuFile, Display for OsuFile", "src/parsers.rs: get_colon_field_value_lines"]}
{"id": "C61", "title": "Which storyboard texts panic, and which are certain not to", "statement": "`Osb::from_str` on a text without a stray line before its first header panics exactly when the sections above its first `Events` section are read and `Events` itself makes `Events::from_str_variables` panic with the variables of a `Variables` section above it. That happens exactly when, below lines that are read, there is a line that does it: one of the lines of C13, where a command is looked at after the values of the variables have been put in for their names (the place of its first comma is looked at before that). A command can be such a line because of a variable alone. If there is no such line the result is a value or an error, in both build modes: unlike in .osu files an empty section does no harm. The text is read exactly when its sections are `Variables` and `Events`, each at most once, that can be read; it is refused exactly because of the first section that is there twice, unknown, or refused. A text that does not begin like a section is read as an empty storyboard.", "quantifier": "every text, every list of variables, both build modes", "why_tests_cant": "Freedom from panics is a statement about all texts, and with variables the line that panics is not in the text; tests try a few.", "anchors": ["src/osu_file/osb/mod.rs: Osb::from_str", "src/osu_file/events/mod.rs: Events::from_str_variables", "src/osu_file/events/storyboard/cmds/mod.rs: Command::from_str", "src/osu_file/events/storyboard/cmds/types.rs: TriggerType"]}
{"id": "C62", "title": "Editing one part of a file changes that part of the value and nothing else, and the other way round", "statement": "A text whose lines are those of one text followed by those of another reads, as a `TimingPoints`, `HitObjects`, `Colours` or `Variables` section, as the one and then the other: the lists are appended, an error of the first is the error, one of the second is reported with its line moved by the number of lines of the first. Hence replacing some lines in the middle of a section that is read replaces exactly the entries of these lines, or reports the first of the new lines that is bad, at its place. The same is true of `Events`, with or without variables, if what is put in and what follows do not begin with a command. Adding an entry with a new key to a `General`, `Editor`, `Metadata` or `Difficulty` section, or changing the entry of a key, sets the field of this key to what its value reads as, and nothing else, or reports it at its line; taking an entry out leaves its field empty, and nothing else. Adding or changing a section of an .osu file sets this section of the value, and nothing else, or reports what is bad about it, at its line; taking it out leaves it `None`. Changing the `Events` of a storyboard leaves its variables as they are, changing `Variables` below `Events` leaves the events. Conversely, two files that differ in one field of a key/value section are written as texts that differ in one line at most; and if entries of a list are replaced by others (of the colours from version 5 on, as earlier versions do not write them), and an entry that is written stays, then their lines are replaced by the lines of the others, or writing panics because one of the others cannot be written.", "quantifier": "every text and every way to cut it, every entry, every section, every file and every replacement, every version, both build modes", "why_tests_cant": "Locality is a statement about pairs of texts or values and every place in them; tests look at single texts.", "anchors": ["src/osu_file/mod.rs: OsuFile::from_str", "src/osu_file/mod.rs: Display for OsuFile", "src/osu_file/osb/mod.rs: Osb::from_str", "src/osu_file/events/mod.rs: Events::from_str_variables", "src/osu_file/timingpoints/mod.rs: TimingPoints::from_str", "src/osu_file/hitobjects/mod.rs: HitObjects::from_str", "src/osu_file/colours/mod.rs: Colours::from_str", "src/osu_file/general/mod.rs: General", "src/helper/macros.rs: general_section"]}
{"id": "C63", "title": "A file that is cut off at the end of a line reads as the beginning of the file", "statement": "Let a `.osu` text be read, and take a text that consists of its first lines, of which none ends in a carriage return once its line end is taken off. If that text is nothing but spaces, tabs and line ends, it is refused with `FileVersionDefinedWrong` at line 0. Otherwise its sections are the first sections of the whole text, in the same order, the last of them having lost lines at its end, and it reads to a file of the same version in which: a section that is not in the text is absent; a section before the last one is as in the whole file; and the last one is as in the whole file, or has some of the fields of a key/value section (every field is absent or the same), a first part of the `TimingPoints`, `Colours` or `HitObjects`, or a first part of the events, the last of which has only a first part of its commands, down through the loops and triggers. The one exception is a build with overflow checks and a text whose last section has nothing after its header: this panics. A storyboard text that is cut off like this is read in every case. The same holds for the `from_str` of the sections. With a line that ends in a carriage return before its line end it is wrong: there is a file that is read and whose first lines are refused.", "quantifier": "every text that is read, every number of its lines that is kept, every version, both build modes", "why_tests_cant": "Truncation is a statement about every prefix of every text; tests have complete files.", "anchors": ["src/osu_file/mod.rs: OsuFile::from_str", "src/osu_file/osb/mod.rs: Osb::from_str", "src/osu_file/events/mod.rs: Events::from_str_variables", "src/osu_file/events/mod.rs: EventWithCommands::try_push_cmd", "src/osu_file/timingpoints/mod.rs: TimingPoints::from_str", "src/osu_file/hitobjects/mod.rs: HitObjects::from_str", "src/osu_file/colours/mod.rs: Colours::from_str", "src/helper/macros.rs: general_section"]}
{"id": "C64", "title": "An error in a text stays whatever lines are appended", "statement": "Append any lines to a `.osu` text that has a character other than spaces, tabs and line ends and none of whose lines ends in a carriage return once its line end is taken off. If the text is refused by `OsuFile::from_str`, then so is the longer one, with the same error at the same line; the one exception is an error in a section of keys and values (`General`, `Editor`, `Metadata`, `Difficulty`), instead of which the longer text may be refused with the missing-colon error of that section, at the same or a later line. If reading the text panics, so does reading the longer one, unless it is refused with the missing-colon error of `Metadata`, or overflow is checked and the text ends in an empty section. A `.osb` text that is refused stays refused with the same error at the same line, without exception, and so do the texts of `TimingPoints`, `HitObjects`, `Colours`, `Events` and of the variables of a storyboard when they are read on their own. The exceptions occur: there are texts whose error changes, that panic and can be read once lines are appended, or that end in a stray carriage return and can be read once lines are appended.", "quantifier": "every text, all lines that are appended, every version, both build modes", "why_tests_cant": "That nothing that follows can repair or hide an error is a statement about all continuations of a text; tests have single bad files.", "anchors": ["src/osu_file/mod.rs: OsuFile::from_str", "src/osu_file/osb/mod.rs: Osb::from_str", "src/osu_file/events/mod.rs: Events::from_str_variables", "src/osu_file/timingpoints/mod.rs: TimingPoints::from_str", "src/osu_file/hitobjects/mod.rs: HitObjects::from_str", "src/osu_file/colours/mod.rs: Colours::from_str", "src/helper/macros.rs: general_section"]}
{"id": "C65", "title": "What the speed functions compute with 28 decimals, and when they panic", "statement": "A sum, difference, product or quotient of two decimals (96-bit digits, up to 28 decimals) is the exact one rounded half to even to as many decimals as fit; it panics exactly when the rounded result does not fit or the divisor is zero. A quotient has no zeros behind its last decimal unless the digits of the divisor divide those of the dividend; a product that fits has the decimals of both factors. Hence, of a timing point: `calc_bpm` of an uninherited point with numeric beat length b panics exactly when |b| <= 7573e-28, and otherwise gives m with |m*b - 60000| <= 120001e-28*max(1,|b|); `calc_slider_velocity_multiplier` of an inherited point panics exactly when |b| <= 50e-28, `bpm_to_beat_duration_ms` exactly up to 30000e-28, `new_inherited` exactly up to 12e-28, each with a bound on the error otherwise; a multiplier between 0.01 and 100 comes back from `new_inherited` and `calc_slider_velocity_multiplier` up to 3000000e-28. For points read from any text in any version these are the only panics. The results are exact when every intermediate number can be stored; it is not enough that the result can: `calc_bpm` of a beat of 300 ms is not 200 and `bpm_to_beat_duration_ms` of 200 is not 300. A result is not always the nearest decimal that can be stored.", "quantifier": "all pairs of decimals, every timing point, every text and version", "why_tests_cant": "Where a function of all 2^96 digits and 29 scales panics or loses digits is not visible at the few values a test uses; the borders lie at the 28th decimal.", "anchors": ["src/osu_file/timingpoints/mod.rs: TimingPoint::calc_bpm, calc_slider_velocity_multiplier, beat_duration_ms_to_bpm, bpm_to_beat_duration_ms, new_inherited"]}
{"id": "C66", "title": "The same text below another version line", "statement": "For versions from 5 on the number in the version line decides little: of two texts that differ in that number alone (a <= b), `OsuFile::from_str` with the older number gives the file that the newer number gives, minus a game mode or an overlay position that the older version does not have, and refuses or panics at the same place for the same reason. There are exactly two exceptions: version 14 refuses an unknown `OverlayPosition`, which the others skip, and versions from 6 on refuse a timing point with `uninherited` but without `effects`, which version 5 reads. So a text that is read under a version is read under every older one down to 5. Versions 3 and 4 are not included (counterexamples in both directions).", "quantifier": "all texts, all pairs of versions 5 <= a <= b <= 14, both overflow modes", "why_tests_cant": "Tests read each sample under the version it was written for; a version check in the wrong reader shows only when the same text is read under two versions.", "anchors": ["src/osu_file/mod.rs:167-320", "src/osu_file/general/types.rs:130-237", "src/osu_file/timingpoints/mod.rs:265-444", "src/osu_file/hitobjects/mod.rs:180-420", "src/osu_file/events/normal_event/parsers.rs:42-72"]}
{"id": "C67", "title": "Different values have different texts", "statement": "`OsuFile::to_string` loses nothing by accident: two files that can be written (each section readable, version 5 on) have the same text exactly if they agree in everything but the storyboard file and the fields that their version does not write; in versions 3 and 4 files with the same text are at least loaded as the same file. Any two file values with the same text have the same version. Lists of colours, timing points, hit objects and events that can be written, and decimals that satisfy their invariant, are equal if their texts are. Values outside these classes can share a text (witnesses).", "quantifier": "all pairs of file values, lists and decimals, all versions, both overflow modes", "why_tests_cant": "Tests print single values; that no two of infinitely many values collide is a statement about pairs.", "anchors": ["src/osu_file/mod.rs:109-165", "src/osu_file/colours/mod.rs:51-64", "src/osu_file/timingpoints/mod.rs:61-71", "src/osu_file/hitobjects/mod.rs:54-64", "src/osu_file/events/mod.rs:307-321", "src/osu_file/types.rs:317-321"]}
{"id": "C68", "title": "One line, one item, in order", "statement": "`Events::from_str` (with or without variables) accepts a text as a list of events exactly if its non-blank lines, each read on its own as a comment, an event or a command with its indentation, are one after another the items of that list: every event followed by its commands, each command at its nesting level before those inside it. So nothing is dropped, merged, reordered or invented: there are as many events and commands, however deep, as non-blank lines, and the items determine the events. `Colours` (version 5 on), `TimingPoints` and `HitObjects` likewise hold one value for every non-blank line, in order.", "quantifier": "all texts, versions, lists of variables and lists of events, trees of any depth and width, both overflow modes", "why_tests_cant": "A test compares single small trees; that no line is lost or moved for any length and nesting needs an argument about the loop.", "anchors": ["src/osu_file/events/mod.rs:41-304", "src/osu_file/events/mod.rs:446-486", "src/osu_file/colours/mod.rs:25-49", "src/osu_file/timingpoints/mod.rs:33-59", "src/osu_file/hitobjects/mod.rs:28-52"]}
{"id": "C69", "title": "What is below a finished section has no effect on it", "statement": "Two texts that begin with the same lines and are both read by `OsuFile::from_str` agree on the version and on every section of those lines below which another section already begins; the same holds for `Osb::from_str`. So a text that is cut off anywhere, even inside a line, and still read, differs from the whole one only in the section of the cut and those below. It need not be read: cut inside a line, e.g. after `BeatmapID:`, the reader may panic.", "quantifier": "all pairs of texts with the same first lines, every place of a cut, both overflow modes", "why_tests_cant": "Independence of the sections concerns all continuations of a text; tests have complete single files.", "anchors": ["src/osu_file/mod.rs:167-320", "src/osu_file/osb/mod.rs:22-110"]}
{"id": "C70", "title": "A build with overflow checks and one without agree", "statement": "`OsuFile::from_str` gives the same result, value or error with its line, in a build with overflow checks and in one without, unless the former panics, and that only because the file ends with a section without a single line or because a file of version 3 or 4 has an event less than 24 ms before the end of the `i32` range. `to_string` likewise differs only for events of version 3 or 4 whose time less 24 is no `i32`. Storyboards are read, appended and printed the same always. The lists of the storyboard commands differ only for a push after a single incomplete entry and for a change in an empty list. What the build with checks reads, the other one reads as the same value and both print the same; the converse is false.", "quantifier": "all texts, all file values, all lists, both build modes", "why_tests_cant": "Tests are run in one build mode; that the other one gives the same for every text outside two corners needs a proof over all texts.", "anchors": ["src/osu_file/mod.rs:167-320", "src/osu_file/events/normal_event/parsers.rs:42-72", "src/osu_file/events/normal_event/mod.rs:37-46", "src/osu_file/osb/mod.rs:22-145", "src/osu_file/events/storyboard/cmds/types.rs:38-195"]}
{"id": "C71", "title": "What a value read on its own is", "statement": "The types whose values are names (curve type, storyboard sample set, addition, parameter, layer, loop type) read exactly their names, in that spelling, and print them. The types whose values are numbers (both sample sets, effects, the three volumes, both sample indices, hit sound, legacy origin and layer) read exactly the numbers in the range of their integer type that mean something: a volume is at most 100 except in a timing point, a hit sound is the low four bits, a legacy origin is 0 to 9, a legacy layer 0 to 5, and 0 is the timing point's own index or volume. An edge set is two sample sets with a colon between, a curve point two decimals split at the first colon, an origin a name or any `i32`, a variable `$name=value` split at the first equals sign. Everything else is an error and nothing panics. What was read and is printed is read again as the same value, except a timing point's sample index of 2^31 and more, which is printed as a negative number that is not read; a variable is printed as the very text it was read from.", "quantifier": "all texts, all numbers", "why_tests_cant": "Whether a name in another spelling, a number just out of range, a second colon or a leading plus is read is a question about every text; a test names a few.", "anchors": ["src/osu_file/timingpoints/types.rs:50-59", "src/osu_file/timingpoints/types.rs:78-103", "src/osu_file/timingpoints/types.rs:157-196", "src/osu_file/timingpoints/types.rs:207-232", "src/osu_file/hitobjects/types.rs:69-138", "src/osu_file/hitobjects/types.rs:174-198", "src/osu_file/hitobjects/types.rs:268-278", "src/osu_file/hitobjects/types.rs:293-310", "src/osu_file/hitobjects/types.rs:363-385", "src/osu_file/hitobjects/types.rs:401-425", "src/osu_file/hitobjects/types.rs:441-480", "src/osu_file/events/storyboard/sprites.rs:34-60", "src/osu_file/events/storyboard/sprites.rs:324-400", "src/osu_file/events/storyboard/sprites.rs:465-492", "src/osu_file/events/storyboard/types.rs:144-203", "src/osu_file/events/storyboard/types.rs:343-370", "src/osu_file/events/normal_event/types.rs:22-135", "src/osu_file/events/audio_sample/mod.rs:151-164", "src/osu_file/colours/types.rs:21-55", "src/osu_file/osb/types.rs:17-48"]}
{"id": "C72", "title": "Blanks in a line", "statement": "Spaces and tabs before a key, after its colon, and anywhere in a line of a colour do not matter, nor do the line breaks between two entries: a file that is read is read to the same value when they change, section by section and as a whole. When as many lines lie between the entries, errors, line numbers and panics of the key/value sections stay the same as well (indentation counts as one line there). A colour that is read is read to the same value with every blank taken out. Elsewhere blanks count: a key with a blank in it, such as one before the colon, is not a key of any section and the section is not read, and no integer text contains a blank.", "quantifier": "all texts of all sections, all versions, both kinds of build", "why_tests_cant": "The texts that differ only in blanks are infinitely many, and a reader that trims one side too many or too few shows it only where a text has a blank in just that place.", "anchors": ["src/parsers.rs:45-58", "src/helper/macros.rs:122-157", "src/osu_file/colours/mod.rs:87-171", "src/osu_file/colours/types.rs:21-49"]}
{"id": "C73", "title": "Comment lines", "statement": "A line that begins with two slashes is skipped between the version line and the first section, anywhere there, so that the file read is the same; but a comment there that ends in `]` makes `OsuFile::from_str` return an empty file without an error. In `[Events]` it is kept as `Event::Comment` in its place and changes no other event; in front of a storyboard command it makes the section unreadable, the error naming the line of the command. It is not a comment elsewhere: a timing point that is commented out is still read, all fields the same but the time, which is the text with the slashes, and so is a hit object, with such a text for x; a section of colours, storyboard variables or keys and values with such a line is not read.", "quantifier": "all texts and places, all versions, both kinds of build", "why_tests_cant": "Where a comment may stand is a question about every line of every section; a test puts one in a few places, and the ones shipped put them only where they work.", "anchors": ["src/osu_file/mod.rs:206-227", "src/osu_file/events/mod.rs:115-125", "src/osu_file/events/mod.rs:446-486", "src/osu_file/timingpoints/mod.rs: TimingPoint::from_str", "src/osu_file/hitobjects/mod.rs: HitObject::from_str", "src/osu_file/types.rs:309-315", "src/osu_file/colours/mod.rs:87-171", "src/parsers.rs:45-58"]}
{"id": "C74", "title": "What a passing comparison of two texts shows", "statement": "Take two texts that are read, laid out as in C60, without byte order marks, and without blanks where osu_str_eq drops them: the values of `General`, `Editor`, `Metadata` and `Difficulty` have none, the lines of `Events`, `TimingPoints` and `HitObjects` have none at their ends and, if they have a colon, none at all; the lines of `Colours` may have any. If osu_str_eq finds the two texts equal, they are the same file in everything but order: the version and the four sections of keys are equal, and colours, timing points, hit objects, and the events and commands are the same ones, rearranged. A list with a line that has no colon is equal in order too, so timing points usually are, and hit objects with samples are not. Without the condition on blanks this is false: `HPDrainRate:10` and `HPDrainRate:1 0` are found equal though the second is no number, and so are a fade inside a loop and the same fade after it, as the indentation of commands is not compared.", "quantifier": "every pair of texts, every version from 3 to 14, both build modes", "why_tests_cant": "The tests of the crate check round trips with osu_str_eq; which differences such a passing test can hide is a statement about all pairs of texts.", "anchors": ["src/lib.rs: osu_str_trimmer, osu_str_eq, assert_eq_osu_str", "src/osu_file/mod.rs: FromStr for OsuFile"]}
{"id": "C75", "title": "Which errors a text can give", "statement": "For every error of the .osu and .osb readers it is known whether some text gives it. Every error of the file level, of `Editor`, `Metadata`, `Difficulty`, `Colours` and of storyboard variables is given by some text. Never given are: an integer below the smallest for countdown and mode (a minus sign is an invalid digit there); an invalid time and a missing uninherited flag of a timing point; a missing or invalid x, an invalid y, time or length, and every error of curve points and edge sounds and an invalid edge set of a hit object (a list that cannot be read is reported as the absence of what follows it); an event of the wrong type, a missing or invalid x or an invalid y of an event, an invalid time and a missing volume of a legacy sample, a missing volume of a sample, a missing or invalid loop type (it panics); an invalid decimal in a storyboard command and the errors of its continuing decimals. An indentation error with the numbers a and b is given exactly when a is 1 and b at least 2, or b is at least a + 3.", "quantifier": "every error value of both readers, with every pair of numbers in an indentation error; all texts, versions and build modes", "why_tests_cant": "That an error is never given is a statement about all texts; a test that expects it would just never be written. A caller that matches on errors needs to know which arms are dead.", "anchors": ["src/osu_file/mod.rs: OsuFile::from_str", "src/osu_file/osb/mod.rs", "src/osu_file/events/error.rs", "src/osu_file/events/storyboard/error.rs", "src/osu_file/hitobjects/error.rs", "src/osu_file/timingpoints/error.rs", "src/osu_file/general/error.rs"]}
{"id": "C76", "title": "Which values reading can give", "statement": "For every section the values its reader can give are known exactly. `General`: texts without line breaks and without a space or tab in front, numbers of an i32, decimals that are numbers or such texts that are not numbers, and for countdown, sample set, overlay position and mode only what the version has. `Editor`, `Metadata`, `Difficulty`: the same conditions in every version; there is at least one tag, no tag has a space, and the first is empty only if it is the only one. Colours: none in versions 3 and 4, otherwise byte channels and no negative combo number. Timing points whose sample set is not the number of a named one, whose index is at least 1 and whose flags come together (version 5: effects may be missing; version 4: none; up to version 3 only a time and a beat length, the rest fixed); hit objects with a combo skip of 0 to 7, a volume of 1 to 100, a file name without colon, edge lists that agree with the shorthand flags, a sample on every hold; events with one-line texts and i32 times, volumes up to 100, origins that are names or numbers other than those of the names, and command trees in which no end time stands without a start time and only the last of continuing values is incomplete. In versions 3 and 4, where 24 is added to times, the time of a timing point or object and the ends of spinners and holds are numbers whose difference to 24 at the same number of decimal places fits 96 bits, where 24 itself has no decimal places or 27, and the times of videos, breaks and colour transformations are any i32 without overflow checks and at least -2147483624 with them. A command line on its own gives the commands without sub-commands that meet this; storyboard variables are those whose name has no equals sign. A whole .osu file of version 3 to 14 is given by some text exactly when its sections, each present or not, are such values, it has no storyboard file attached, and no timing point or hit object but the first of its section begins with a bracket; a section may be present without lines. A storyboard file is given exactly when its variables and events are such values.", "quantifier": "every version, both builds, every value of the types, all texts", "why_tests_cant": "Both directions are about infinitely many values: that a value outside the range is given by no text, and that every value inside it, however odd (raw decimals with commas, blank file names, any nesting), has a text that gives it.", "anchors": ["src/osu_file/general/mod.rs", "src/osu_file/editor/mod.rs", "src/osu_file/metadata/mod.rs", "src/osu_file/difficulty/mod.rs", "src/osu_file/colours/mod.rs", "src/osu_file/timingpoints/mod.rs", "src/osu_file/hitobjects/mod.rs", "src/osu_file/events/mod.rs", "src/osu_file/events/storyboard/cmds/mod.rs", "src/osu_file/osb/types.rs", "src/osu_file/mod.rs", "src/osu_file/osb/mod.rs"]}
{"id": "C77", "title": "Hashes agree with equality", "statement": "Two `OsuFile`s that are `==` have the same hash, whatever the `Hasher`; so have two storyboard files, events and paths that are equal. In particular 1.0 and 1.00, -0 and 0, a//b and a/./b/ hash alike inside a file. Conversely two decimals, timing points, hit objects or commands hand the same data to the hasher only if they are `==`, and so do files whose paths do not begin with a slash; for a path that does, the slash is not handed over, so /a and a collide in every hasher.", "quantifier": "all pairs of files and of the types in them, every hasher", "why_tests_cant": "`HashMap` and `HashSet` lose entries when equal values hash differently, which happens only for particular spellings; and that no two different values are confused is a statement about all pairs.", "anchors": ["src/osu_file/mod.rs: derive(Hash) for OsuFile", "src/osu_file/types.rs: Decimal, FilePath, Position", "src/helper/macros.rs: derive(Hash)", "src/osu_file/events/storyboard/cmds/mod.rs: Command", "src/osu_file/hitobjects/mod.rs", "src/osu_file/timingpoints/mod.rs", "src/osu_file/events/mod.rs"]}
{"id": "C78", "title": "The orders of volumes and combo skip counts agree with their numbers", "statement": "`ComboSkipCount`, the `Volume` of a timing point and the `Volume` of a hit sample are totally ordered, and compare as equal only if they are `==`. Volumes of hit samples, however they were made, compare as the integers they convert to; the one that stands for the timing point's volume comes before all others. Combo skip counts compare as the numbers they were made from, volumes of timing points as the numbers they were read from.", "quantifier": "all values of the three types, every sequence of calls that makes a volume", "why_tests_cant": "An order is a statement about all pairs and triples, and that the conversion keeps it rests on no volume of 0 ever being made, by any constructor, setter or reader.", "anchors": ["src/osu_file/hitobjects/types.rs: ComboSkipCount, Volume", "src/osu_file/timingpoints/types.rs: Volume"]}
{"id": "C79", "title": "Equal values are treated alike", "statement": "The functions of the crate that compute with a value do not look at how its numbers and paths are spelled: for `==` timing points `calc_bpm` and `calc_slider_velocity_multiplier` both give equal numbers, both give `None` or both panic; so do the conversions between beats per minute and milliseconds per beat and `TimingPoint::new_inherited` for equal numbers (1.5 and 1.50), sums, differences, products and quotients in general. For equal paths `frame_file_names` gives the same names and `Sprite::new` accepts both or refuses both. `append_osb` with the same text leaves `==` files `==`, with the same result. `try_push_cmd` of equal commands onto equal lists of commands gives equal lists or the same error. Of `==` files either both can be printed or both panic. The digits of equal results may differ (1.5 * 2 is 3.0, 1.50 * 2 is 3.00).", "quantifier": "all pairs of equal numbers, timing points, paths, commands and files; all indentations; all storyboard texts", "why_tests_cant": "Whether rounding to 28 decimals can make a difference between two spellings is a question about all pairs of numbers.", "anchors": ["src/osu_file/timingpoints/mod.rs: calc_bpm, calc_slider_velocity_multiplier, new_inherited, bpm_to_beat_duration_ms, beat_duration_ms_to_bpm", "src/osu_file/events/storyboard/sprites.rs: frame_file_names, Sprite::new", "src/osu_file/mod.rs: append_osb", "src/osu_file/events/mod.rs: try_push_cmd"]}
