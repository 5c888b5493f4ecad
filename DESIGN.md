# Formal model of osu-file-parser

## Layout

* `rocq/theories/` holds the model and the proofs (Coq 8.16.1, standard library only).
  * Model files contain definitions only.  Each definition cites the file and lines of `/repo` it
    transcribes: `Str Num Nom Dec Unicode` (std and crates), `Parsers KeyValue KvFields General
    Editor Metadata Difficulty Colours TimingPoints HitObjects Storyboard NormalEvents Events Osb
    OsuFile Trimmer Api Helpers Defaults Messages Values Equal` (the crate), `DecOps` (decimal arithmetic).
  * `Spec*.v` files contain the vocabulary of the theorem statements: what a text looks like, which
    values can be written, what a file describes.  They use the data types of the model but not its
    readers and printers, except where a statement is about a reader or printer.
  * `P_*.v` files contain only the theorems that settle the properties of `properties.jsonl`, each
    closed by a lemma and followed by `Print Assumptions`, and concrete `Example`s that meet the
    hypotheses.
  * All other files contain lemmas.
* `MANIFEST.json`: property -> theorems.
* `seeded/LOG.jsonl`: experiments with seeded bugs (see the end of this file).

## Trusted base

* Coq's kernel (including `vm_compute`).
* `Print Assumptions` reports "Closed under the global context" for every theorem of the `P_*.v`
  files: no axioms, neither our own nor of the standard library.
* The reading of the Rust source.  The code was not run.  Everything the theorems say is about the
  model; the correspondence is by reading, definition by definition.  The whole source was compared
  with the model a second time after the model was finished; nothing had to be changed.  A check of
  that reading: the
  model was extracted to OCaml in a scratch directory and run on the 49 `.osu`/`.osb` files of
  `/repo/src/tests/osu_files`: every file that the crate's tests parse is parsed, printing gives
  text equal under `osu_str_trimmer`, and the files with a seeded error give an error (lines 20, 42,
  3 and 7 for `error_line_index.osb`, `error_line_index_sb.osu`, `error_line_index_variable.osb` and
  `leading_ws_w_err.osu`; the tests name lines 21, 46, 3 and 7, but compare the messages with
  `assert_eq_osu_str`, which trims both to nothing; the two differences are the miscount of C16).
  The other unit tests of the crate are transcribed in `RepoTests.v` and hold of the model.
* Things outside `/repo` that were transcribed from knowledge of their published sources:
  * `rust_decimal` 1.35: `FromStr`, `Display`, addition, subtraction, comparison of the parsed
    value (`Dec.v`); multiplication and division (`DecOps.v`); `normalize` and `Hash` (`HashFeed.v`).
  * `nom` 7.1: the combinators the crate uses (`Nom.v`).  Error values are reduced to the kind and
    the list of contexts, which is all the crate looks at.
  * std: `str` methods (`lines`, `trim`, `split`, `find`, `replace`, `strip_prefix`, slicing by
    byte), integer `FromStr`/`Display`, `char::is_whitespace`, and the tables of
    `char::is_uppercase`/`is_numeric` (`Unicode.v`, Unicode 15); `Hash` of `Option`, `Vec`, `String`, integers
    and `Path` (`HashFeed.v`).

## What is modelled

* Rust `str` = list of Unicode scalar values (`N`).  Byte offsets occur once
  (`events/mod.rs:147`) and go through an explicit UTF-8 length.
* Integers are `Z` with explicit ranges; overflow is explicit.  Every function that can panic
  returns a three-way result: value, error, or panic with a reason.  Arithmetic overflow panics only
  when the build has overflow checks; the functions where it can happen take a flag `dbg` (true:
  panic, false: wrap) and theorems quantify over it.
* Reading and printing of every section and every type, in every version 3..14, the whole file, the
  `.osb` file with variables, `append_osb`, the text comparison of `lib.rs`, defaults of every type,
  constructors and setters with behaviour (`Api.v`).
* Loops over an unbounded input use fuel equal to the length of the input; running out of fuel is a
  separate panic reason (`PFuel`) and the no-panic theorems exclude it.

## What is not modelled

* Paths other than Unix paths made of valid text (`Helpers.v` transcribes `file_name`, `extension`
  and `is_absolute` of `std::path` for those, `Equal.v` its `components`).  Where a theorem says that
  two values are the same, the texts of their paths and the digits of their decimals are the same too,
  which is more than the `==` of the crate asks for (C58).
* `Debug` derives, getters that return a field, the `From` conversions between a
  field type and its one field (`versioned_field!`), iterators.
* Memory and time: `Vec::with_capacity`, stack depth, running time.
* The `.osu` reader never fills in `osb`; a file value with `osb` comes from `append_osb`.

## The properties

For every property: what is modelled, how it is proved, and what the theorems restrict.

**C01 decimals** (`Dec.v`, `P_Numbers.v`).  Induction on digits.  Reading is total.
`C01_decimal_exact` and `C01_decimal_raw` say for every text whether it is a number and which one
(`SpecDec.v`: a relation on texts without the byte loop); the proof shows that the states the loop
can be in after a text are the ones its digits, point and underscores give (`DecExact.v`).  The value read
is characterised exactly: digits that fit give the same digits and scale; digits that do not fit
are rounded half up at the last digit that fits; a number too big is kept as raw text; everything
else is raw text.  Text after the first digit that does not fit is ignored, also when it is not a
digit (`C01_ex_junk`).

**C02 integers** (`Num.v`, `P_Numbers.v`).  The accepted texts of each type are exactly sign and
digits with a value in range; wrapping never happens.

**C03-C05 line sections** (`Colours.v`, `TimingPoints.v`, `HitObjects.v`, `P_Lines.v`).  For every
field a lemma that reading what was printed gives the value back and leaves the rest; composed by
rewriting through the combinators, then by induction on lines.  Values that can be written are
boolean predicates (`SpecWf.v`); `*_read_ok` shows that whatever is read satisfies them, so saving a
read file loses nothing.  Findings: a negative combo number, a sample index from 2^31 on, and a few
others are printed as text that is rejected.

**C06 key/value sections** (`KeyValue.v` transcribes the macro once; `P_KeyValue.v`).  Induction on
the list of fields, with per-field round trips.

**C07-C09 storyboard commands** (`Storyboard.v`, `Events.v`, `P_Storyboard.v`).  C07: the text of a
command and its inverse, by case analysis on the command.  C08: the iterative printing with a stack
equals the recursive pre-order walk (simulation).  C09: pushing the walk of a tree rebuilds it
(induction on forests), and exactly which pushes are rejected.

**C10-C13 panics** (`P_KeyValue.v`, `P_Lines.v`, `P_Events.v`, `P_Late.v`).  "Does not panic" and
"every error has a context" are closed under the combinators.  Where the code does panic the theorem
says exactly when (C11: ids of `Metadata`; C13: events; versions 3 and 4, `SpecLate.v` and
`OldPanic.v`: times that cannot be moved by 24).

**C14-C16 line numbers** (`P_Lines.v`, `P_KeyValue.v`, `P_File.v`).  Induction on lines and
sections.  C16 gives the reported line as the true line minus the number of sections above that end
with a blank line, so the error is exact only for files without such blank lines
(`C16_error_line_refuted`).

**C17-C20 order, duplicates, unknown names** (`P_File.v`, `P_KeyValue.v`).  A file is described by
its sections whatever their order; permuting lines of a key/value section does not change the
result; duplicates and unknown names are rejected with the reason.  `C17_print_order` (`P_Whole.v`)
is about every file value that is printed at all, well-formed or not.

**C21 version line** (`P_File.v`).  Case analysis; which first lines give which version.

**C22 versions 3 and 4** (`P_Old.v`).  Exact decimal arithmetic: reading adds 24, printing takes it
away; the result differs from version 5 in nothing else.

**C23 append_osb** (`P_File.v`).  Case analysis.

**C24-C26 text comparison** (`Trimmer.v`, `P_Trim.v`).  Line-level characterisation of the normal
form; idempotence except for a byte order mark followed by white space; what the comparison cannot
see.

**C27-C29 setters and bounds** (`Api.v`, `P_Types.v`).  Bit lemmas; invariants over every sequence
of calls.

**C30, C35, C36 small types** (`P_Types.v`, `P_Lines.v`).  Print/parse lemmas.

**C31, C34 malformed and empty sections** (`P_File.v`, `P_Whole.v`).  Lemmas on the section
splitter.  `C34_printed` is about file values: `hollow` lists the sections without a line, and
`C34_fine` says that these files are exactly the ones C33 leaves out for that reason.

**C32 versions** (`P_Versions.v`).  Case analysis on versions and fields; reader, printer and
default agree.

**C33 whole file** (`P_Whole.v`, `P_Back.v`).  Composition of the section round trips with the
splitter.  `P_Whole.v` is about files of versions 5..14 that come back as they are.  `P_Back.v` is
about all versions: `file_back` says field by field what comes back (`SpecBack.v`), and the file
that came back does not change any more.  In versions 3 and 4 the times must leave room for 24
within 96 bits, and the theorem on files that were read assumes overflow checks there.

**C37 events section** (`P_Events.v`).  Induction on events and command trees.

**C38 variables, C39 storyboard files** (`Osb.v`, `P_Osb.v`).  A text with references is a list of
tokens; replacing the variables one after the other replaces every reference by its value when no
name begins another.  Printing is the other direction and needs more (`vars_ok`); each condition has
a witness that shows it is needed.

**C40 every text** (`SpecTotal.v`, `TotalFacts.v`, `P_Total.v`).  `falls_apart` says what the
sections of any text are, without the parser: a header, white space, and the text up to the next
line that begins with a bracket.  It is shown total and unique, and equal to what the parser
collects.  The loop over the sections then has three outcomes (`loop_cases`), by induction on the
sections.  The line number of an error in an arbitrary text is not stated there; C16 states it for
files laid out in lines.

**C41 frames** (`Helpers.v`, `SpecHelpers.v`, `P_Helpers.v`).  `names_file` says which paths end in a
file name and `stem_ext` where the extension begins, as relations on texts; the functions are shown
equal to them.  Findings: a path without a file name panics; the directory is dropped; of the quotes
around a path with a directory only the closing one stays.

**C42 speeds** (`Helpers.v`, `P_Helpers.v`).  The five functions of `TimingPoint` that divide and
multiply have both operations as arguments in `Helpers.v`; the theorems of C42 are about all of them,
those of C65 about the ones of `rust_decimal`.  The formulas are
shown to be inverse to each other over the rationals for operations that do not round
(`HelperSamples.v` has such operations).  Findings: a beat length
of zero panics; points without the mark (always in versions 3 and 4) have no speed although
`uninherited()` is true.
The exact statements assume arithmetic that never rounds, which that of the crate does for values
such as 1/3; `C42_bpm_near`, `C42_beat_near` and `C42_velocity_near` assume only that an operation
is off by at most `u` (times the size of the result, if that is more than one).  A type with 28
decimals and 96 bits can meet this with u = 10^-28 (`NearFacts.v` has such operations); that those
of `rust_decimal` do follows from C65.

**C43 printing** (`SpecPrint.v`, `PrintPanic.v`, `P_Late.v`).  The printers fail only in the
subtraction of 24 (the stack machine for commands never does, C08).  Readers have added 24 before,
so by an invariant over the lines nothing they return is too early; rounding is dealt with by the
bound on the rounded mantissa.

**C44 messages** (`Messages.v`, `SpecMsg.v`, `P_Messages.v`, `P_MsgLine.v`).  The texts of all errors are
transcribed from the `#[error(..)]` attributes; the four texts of `ParseIntError` are those of the
standard library.  The line shown follows from C16 (C39 for storyboard files).  `SpecMsg.v` has a table
of what each error is about (a field that is missing or cannot be read, and which one), and the
message must say that; so two messages that were swapped would be noticed.  Refuted in general: after a section that ends
in a blank line the error shows another line; an unknown key of `[Metadata]` is reported as a key of
`General`; `InvalidContinuingScale` and `InvalidContinuingScales` read the same.

**C45, C46 lines field by field** (`SpecLine.v`, `P_Read.v`).  The specification takes the list of
fields and passes it from reader to reader, with one `Missing` and one `Invalid` error per field; it
has no backtracking.  The parsers are nests of alternatives over the remaining text.  The proofs
(`LineRead.v`, `HoRead.v`) walk along the fields; a branch that reads the rest of the line as a
number is excluded when a comma follows, since no number has one.  The readers of numbers and
decimals and the shift by 24 ms are the model's own; C01, C02 and C22 say what these do.
Finding: eight errors of hit objects are never reported, `InvalidCurvePoint` among them.

**C47 to C49 events, commands, colours and whole sections** (`SpecEvLine.v`, `SpecColLine.v`,
`SpecEvSection.v`, `P_EvRead.v`).  As C45, the specification passes the list of fields from reader
to reader, with tables of the names and numbers; the proofs are in `EvRead.v`, `CmdRead.v` and
`ColRead.v`.  The accepted colours are also given as a grammar (`colour_text`), proved equivalent.
The sections are described by relations over the lines (`ev_section`, `list_section`): a line is put
behind the events above it, a command at its depth by a recursive `place` that mirrors no loop, and
the relation determines the outcome, errors and panics included (`EvSection.v`).  Variables are left
to C38, which reduces them to this case.
Findings: names such as `Breaks` panic, `Spritex` counts as a sprite without fields, and a line that
is indented too deep can be told a wrong expected indentation (0 below an empty loop where 2 is right).

**C50 key/value sections** (`SpecKvRead.v`, `KvRead.v`, `P_KvRead.v`): for each of the four sections the
specification has a table of keys with a reader of the value, written out on its own (`flag_value`,
`mode_value`, `ints_value`, ...), a rule for the first bad entry, and the record made of the values.
The theorems say that `from_str` of the text of any list of entries is just that, errors, line numbers
and panics included; `C19_every_text_has_entries` says that every text is of this form.  Proved by
induction over the entries, generically from the laws of the fields, and by cases for each reader.
`C05_flags`, `C33_flags` (`SpecFlags.v`, `Flags.v`) say what becomes of sliders whose shorthand flags do not agree
with their lists.

**C51 whole files** (`SpecParts.v`, `Parts.v`, `P_Parts.v`): `osu_parts s v n cs` says that the text has the
version `v` and falls apart into the sections `cs`, the first header being at line `n`; `osu_reads` goes through
the sections with a table of readers, checks names, adds up lines and gives the result. `C51_osu` states that
`osu_from_str` is exactly that function, for both build modes, with the line numbers as the code counts them
(a blank line at the end of a section is not counted). The cases theorem says that all texts are covered and
the uniqueness theorem that the sections are determined. The proof shows that the white space before every
section but the first is one line feed, and goes through the loop by induction. `C51_osb*` is the same for
storyboard files, with an invariant for the variables seen so far. The readers of single sections appear in the
table as they are modelled; C45-C50 say what they do.

**C52 printing** (`SpecWrite.v`, `Write.v`, `P_Write.v`): the text of every value of every section, with no
well-formedness hypothesis except that `ComboSkipCount` holds three bits.  `back_file` moves the times back in
versions 3 and 4 and is `None` where a time does not exist; `file_lines` lists the lines of a file.  `C52_file`
states that printing gives these lines, or panics exactly where there is no file moved back.  The names, numbers
and layouts are written down again in `SpecWrite.v`; the texts of single numbers and of triggers and the subtraction of
decimals are the model's (C01, C02, C30, C22), and `str::replace` is characterised by `C52_replace`.

**C53 meaning of files** (`SpecMeans.v`, `Means.v`, `P_Means.v`): the rules of C45-C51 composed.  `section_means`
says what the text below a header gives, by the rules for entries (`general_reads` ...) and for lines
(`tp_line`, `ho_line`, `col_line`, `ev_section`); `sections_mean` goes from section to section and `file_means` starts
at the version line.  `C53_osu` is an equivalence between the reader and these rules, so they are total and
deterministic; `C53_osb` is the same for storyboard files (`C53_osb_total`).  `C38_section` extends C47 to variables:
`with_values` says which names are replaced, and `searched` where they must occur for that.  No reader of the model
is left in the rules but the readers of numbers (C01, C02) and the splitting into lines.

**C54 saving under another version** (`SpecConvert.v`, `Convert.v`, `P_Convert.v`): `OsuFile.version` is a public
field, so a file read in one version can be printed in any other.  `C54_save_as`: a file read from a text without
stray carriage returns, given any version `b`, prints a text with the layout of C14, and reading it gives
`saved_as b f`, which is `SpecBack.file_back` for version `b`; no hypothesis on the version it was read from nor on
the build mode.  `file_moves` says what is needed: every section keeps a line (`file_stays`), the event times
can be written 24 lower in versions 3 and 4, no beat length of version 3 contains a comma, and past version 5 no
timing point has `uninherited` without `effects`.  Each condition is shown to be needed by a
`_refuted` theorem (`flags`, `comma`, `times`, `hollow`).  `C54_again`: the second save changes nothing.
`C54_late`: versions 12 to 14 keep everything outside `[General]` and `[Editor]` (and colour transformations in 14).

**C55 values made by a program** (`Values.v`, `ValueFacts.v`, `P_Values.v`): `Decimal::new_from_str`,
`try_make_decimal` and the `From` implementations, `VersionedFromRepr`/`VersionedFrom`/`VersionedTryFrom` of
origins, layers, countdowns, easings, sample sets and sample indices, and the helpers of `Error<E>`.  Stated with the
tables of `SpecEvents.v` and `SpecCmd.v` (place in a list), not with the `match` of the code.  Refuted: a decimal made
by `new_from_str "1"` is not equal to what it is read back as; `Easing::Other(3)` has the number of `QuadIn`.
The error of `rust_decimal` in `try_make_decimal` is modelled as one error without contents.

**C56 line endings** (`SpecEnds.v`, `Ends.v`, `P_Ends.v`): `made_of` says what the lines of a text are, and `C56_lines`
that `lines` gives them.  Every reader of a whole text (files, storyboard files, each section) gives equal results for
texts with equal lines.  For files this is shown with the rules of C53: the version line is cut off before the text is
divided into lines, so the proof follows it through the lines of the text.  For key/value sections, which are not read
by lines, every text is related to the one with `\r\n` after every line.  `C56_cr_refuted`: lone carriage returns are
not line ends.

**C57 blank lines** (`SpecBlank.v`, `Blank.v`, `P_Blank.v`): `packed` leaves the blank lines out and `no_line` forgets the line
number of an error.  For the list sections both loops are shown to depend on the packed lines only.  For the key/value
sections the text is divided into entries (`kv_lines_decompose`); taking one blank line out moves it out of the gap of one
entry or out of the unread rest (`kv_drop`, `kv_end`), which changes neither the keys nor the values.  Texts are first brought
to `\r\n` endings with C56.  The file theorems go through the section loops.  `C57_keys_refuted`: a blank line before the first
key is an error when such a section is read on its own (in a file the blanks after a header are skipped).  `C57_white` is the first theorem for all
white space, with the characters of Unicode written out in `white`, and `C57_skipped` says that only those are skipped.

**C58 equality** (`Equal.v`, `SpecEqual.v`, `EqualFacts.v`, `EqualFile.v`, `P_Equal.v`): the derived `PartialEq` of every type,
field by field, with the comparison of numbers of `rust_decimal` and the one of components of `std::path` (Unix) at the leaves;
both are taken from their documentation.  The specification has no comparison: numbers are rationals, paths are related by four
rules for leaving out a slash or a dot, and a file is compared with its numbers and paths in canonical form
(`canon_file`, a map over the value; `C58_canonical_numbers` and `C58_canonical_paths` say what the canonical forms identify).
For paths the proof shows that the canonical text is made from the components and can be reached by the rules; commands are
compared by nested induction.  `EqualBack.v` and `P_EqualBack.v` do the files of every version: what becomes of a file (`file_back`, C33) respects
equality, as the times 0 and 24 lose their decimals but not their value.  Finding (`C58_reread_refuted`): two equal files that were read can
be different after saving and loading, because the quotes put around a name with a blank become part of the path.

**C59 values built by a program** (`SpecMade.v`, `MadeFacts.v`, `MadeMore.v`, `P_Made.v`): `filled` sets the private flags of a
slider from its public fields and adds the sample of a hold; an object is written exactly as its `filled` form is, and that form
meets the condition of the round-trip theorems (`C59_typed`), so C33 gives the rest for sections and files.  `ho_typed` asks only
for the ranges of the Rust types and for texts that do not break the line.  The setters of timing points are functions returning
the new point; `effects_mut` and `sample_index_mut` are modelled as putting a new value.  `C59_slider_refuted` and `C59_hold_ex`
are values that are not equal to what is read from their text, `C59_set_refuted` is a point that `set_uninherited` makes
unreadable.  The decimal division and multiplication of `new_inherited` are parameters.

**C60 the documented check** (`SpecCheck.v`, `CheckFacts.v`, `P_Check.v`): `laid_out` gives the lines of a text as version line,
blank lines and comments, and sections; `relaid` says when two sections hold the same (keys and values up to order and blanks after
the colon, or the same lines that are not blank).  For the reader, the text is first brought to CRLF line ends (C56), and a section of
keys is compared with the one that has its lines packed (C57) and permuted (C18).  For the trimmer, the lines of both texts are
followed section by section: between two headers the state differs only in lines that sorting brings together, which needs every key
to be made of key characters; that follows because a text with another key is not read.  `C60_saved` adds that the text saved of a
settled file is `laid_out`.  `C60_every_refuted` and `C60_converse_refuted` show what the check does not say.

**C61 panics of storyboard texts** (`SpecTotalOsb.v`, `TotalOsb.v`, `P_OsbTotal.v`): the analogue of C40 for `Osb::from_str`.
`bad_line_with` is C13's `bad_line` with the values put in by `with_values` (C47); `C61_events` is proved from the step function by
induction over the lines.  `osb_goes` walks the sections; a list of known, different sections has one of five shapes (`OsbFacts`),
on which it agrees with `osb_all_read` (C39).  Kinds and uniqueness of texts are in C51.

**C62 edits** (`SpecEdit.v`, `Edit.v`, `EditOut.v`, `P_Edit.v`): `one_after` is what two texts give one after the other; it is proved
for the line loops by induction, for events because a line touches the last event only.  `edits_lines` replaces lines in the
middle.  Texts of keys and values are the entries of C19/C50, and `general_put` and so on say field by field what an entry does;
sections are those of C51 (`osu_parts`, unique and total), and `put_section` says the same of a file.  What is written is compared
in the lines of C52 (`file_lines`): `all_but_one (general_agree x y)` says that two values agree in all fields but one.

**C63 files that are cut off** (`SpecCut.v`, `Cut.v`, `P_Cut.v`): `lines s = lines s' ++ more` says that the lines of `s'` are the
first ones of `s`.  Both texts are brought to one form of line ends by C56, so that one is a prefix of the other; the version line
has no line end, so the cut is in front of it or behind it, and `falls_cut` follows the sections of C51 to the cut.  The readers of
lists are those of C62; for events one line makes `cut_events` of what was there (`place_cut`, by induction over the levels), and
the relation is transitive.  For keys and values a line end lies in the gap after an entry, so the entries before it stay
(`entries_cut`).  `section_cut` compares the section values, `no_loose_cr` is needed (`C63_cr_refuted`).  Cuts inside a line are not
covered.

**C64 errors stay** (`SpecStay.v`, `Stay.v`, `P_Stay.v`): the converse view of C63.  `stays r' r` says what the result `r` for the
longer text can be.  The version line and the lines before the first section are followed through the line ends by C56
(`head_appended`); the sections of the longer text are those of the shorter one up to the last (`begins_longer`, with `falls_cut`), on
the same lines.  The loop over the sections stops at the first bad one, which is whole or is the last of the shorter text
(`sections_stay`, for both kinds of files).  Readers of lists and of events stop at the first bad line; for keys and values the
entries of the shorter text are the first ones of the longer (`entries_first`), but a rest without a colon is reported before any
entry is looked at (`C64_same_error_refuted`).

**C65 decimal arithmetic** (`DecOps.v`, `SpecDecOps.v`, `DecOpsFacts.v`, `RoundOps.v`, `DecSpeed.v`, `SpeedRead.v`, `P_DecOps.v`).
`rounds x c` says over the rationals what the right result for the exact number `x` is: half to even, to as many decimals (at most 28)
as leave digits of 96 bits.  `C65_rounded_unique` shows that this determines the number.  `DecOps.v` transcribes the algorithms:
for products the reduction of the 192-bit product, for quotients the loop that appends up to nine digits at a time with its ways out
(remainder zero, no more digits fit, overflow of the last step, rounding that carries).  The proofs keep the invariant
`q * d + r = a * 10 ^ k` (`div_loop_good`) and show that the fuel of the loop is never used up.  `C65_calc_bpm` and the three theorems
after it give the borders of the panics exactly; the bounds on the error are those of C42 with u = 10^-28.  Findings: a beat length
that is not zero can panic (7573 units of the 28th decimal); `calc_bpm` of a beat of 300 ms gives 199.999999999999999999999998;
a result need not be the nearest decimal (`C65_nearest_refuted`).  The source works on words of 32 and 64 bits with separate paths
for small operands; these are not modelled one by one.  Sums and differences of `Dec.v`, with which times are moved by 24 in versions
3 and 4, satisfy the same specification (`C65_add`, `C65_sub`, in `P_SumAlike.v`).

**C66 the version line** (`SpecNewer.v`, `NewerFacts.v`, `P_Newer.v`).  A simulation between two runs of the
reader: results are related by "the older run gives what the older version sees of the newer result, or the
newer run refuses for one of two named reasons"; the relation is closed under the loops of the key/value
sections, of the lines and of the sections, and only game mode, overlay position and the end of a timing
point line need an argument of their own.

**C67 texts tell values apart** (`SameText.v`, `P_SameText.v`).  From the round trips; the version is read off the
first line of the text of any file, without a hypothesis.

**C68 one line, one item** (`SpecWalk.v`, `WalkFacts.v`, `P_Walk.v`).  Every step of the loop adds one item at the end
of the walk through the events; conversely every list of events is reached by adding its last item to a list
with one item less, so that the walk determines the list and the lines determine the walk.

**C69 finished sections** (`SpecFinished.v`, `Finished.v`, `P_Finished.v`).  The sections of a text are determined by its
lines (C51), so two texts with the same first lines have the same sections up to the last one that begins
there; each section is read from its own body alone.

**C70 two builds** (`Builds.v`, `P_Builds.v`).  A simulation between the runs with `dbg = true` and `dbg = false`:
"the same, or the checked run panics and the reason holds" is closed under sequencing of results and of parsers.
The reasons come from the three places where the model consults `dbg` and from the exact panic conditions of C13 and C43.

**C71 values on their own** (`SpecAlone.v`, `Alone.v`, `P_Alone.v`).  Tables of names and of numbers beside the code's chains of
comparisons; `int_text` (C02) says what the text of a number is.  The two-part values rest on the split at the first
colon.  Settling follows from the exact description of what is read, as every printed text is again such a text.

**C72 blanks** (`SpecBlanks.v`, `Blanks.v`, `P_Blanks.v`).  What a key/value section is read to depends only on the keys and
values of its entries (C50), and the lines of errors on how many lines lie between them.  For colours the grammar of C49
is closed under taking blanks out.  The file follows chunk by chunk from C51.

**C73 comments** (`SpecComments.v`, `Comments.v`, `P_Comments.v`).  For lists: the fields of the line with two slashes in
front are those of the line, but for the first (C45, C46), and lines are read one by one (C68).  For events: the
section is read in pieces (C62), the comment being one.  For keys: a line break is in the gap between two
entries, so a line that begins with a slash begins with a key (C19, C50), and no key has a slash.

**C74 passing comparisons** (`SpecPass.v`, `Pass.v`, `P_Pass.v`).  C24 says what equal texts have in common: the sections, line
by line or up to order, after blanks are dropped.  Where there are none to drop, these are the lines that are read, so each
list follows from C68 and each section of keys from C18/C60; colours are read alike without their blanks (C72).

**C75 possible errors** (`SpecErrors.v`, `Errors.v`, `P_Errors.v`).  The `..._gives` functions say for every error whether it
can occur.  That no other occurs follows from C53: the rules for lines (C45 to C50) are gone through, with the predicate
`only g r` (an error of `r` satisfies `g`), then the sections and the file.  That each of them does occur is shown by a text:
one for every error, computed, and for the indentation errors, of which there are infinitely many, a family of nested loops
whose reading is proved by induction on the depth.  A mutant that exchanged two errors of storyboard scales was not noticed by
any theorem; C75 says why: neither is ever given.

**C76 possible values** (`SpecImage.v`, `ImageKv.v`, `ImageLine.v`, `ImageObj.v`, `ImageCmd.v`, `ImageEv.v`, `P_Image.v`).  The dual
of C75: a value is read from some text exactly when a boolean predicate on its fields holds.  One direction collects what the field
readers give; for the other a text is built field by field — not with the crate's printer, which loses some of these values — and read
through the line functions of C45, C46 and C68.  A sample is written with a colon behind its file name, so that blank names stay; a last decimal
may contain commas.  Trees of commands are taken apart into their pre-order (C68).
Versions 3 and 4 add 24 to times (`ImageLate.v`, `ImageOld.v`): a number is a sum with 24 when its difference to 24, at its own scale,
fits 96 bits, and 24 itself when it has no places or 27 (0 has no places; 10^-28 is rounded away), an i32 always in a build without
overflow checks and from -2147483624 on in one with them.  So `osu_range` depends on the build through the times of events.
Whole files (`SpecImageFile.v`, `ImageBody.v`, `ImageFile.v`, `ImageOsb.v`): the text of a section has no line break followed by a
bracket, so the predicate excludes a first field that begins with one except in the first line.  The converse builds a text: a section without lines
gets a line with an ideographic space, which the readers take as blank but which is not skipped below the header (a section
with no text at all is a panic with overflow checks), lines end in a carriage return and a line feed so that a carriage return at the end of
a field stays, and the file is put together with the rules of C53.  In storyboard files the events come before the variables, which
then change nothing; conversely values put in for names bring no line breaks.

**C77 hashes** (`HashFeed.v`, `SpecHash.v`, `HashFacts.v`, `HashFile.v`, `P_Hash.v`).  The model of a derived `Hash` is the list of
calls of the `Hasher`, in order; a hasher is any function that folds over it.  For every type a lemma `coded f eq`: equal values give
the same list, and the list, with anything behind it, tells the value up to equality and where it ends (the code is prefix free: lengths
before vectors, discriminants before variants).  Records and variants compose; commands by induction.  The leaves are a
number, normalised as C58's canonical form is, and a path, where the loop of the standard library over bytes is shown to give the
components without the slash in front.  That slash is not handed over, so the second half needs relative paths (`C77_tells_refuted`).

**C78 orders** (`Order.v`, `SpecOrder.v`, `OrderFacts.v`, `P_Order.v`).  The derived comparisons of the three types that have
them.  The converted numbers keep the order because no value with the volume 0 can be made (C28); the example shows that one would break it.

**C79 equal values** (`SpecAlike.v`, `Alike.v`, `P_Alike.v`).  C65 describes products and quotients by the exact fraction and rounding that leaves no
choice of the number, so fractions that are equal give numbers that are; the speed functions follow step by step.  The functions on paths
depend on the components only (C58).  Pushing a command commutes with putting every number and path of a command into its one spelling (C58).  Sums and differences (`SumAlike.v`, `P_SumAlike.v`) are described like products (C65_add, C65_sub); that a file
cannot be printed depends on its times only (C43_print), and a time that is too early has one spelling.

## Seeded bugs

`seeded/LOG.jsonl` records one experiment per line: a definition of the model was edited in a scratch
copy as a realistic bug, everything that depends on it was rebuilt, every lemma that failed was
admitted, and `theorems_failed` lists the property theorems that rest on one of these lemmas
(`P_Lines.v`, which takes minutes, was not rebuilt, but its theorems are counted when a lemma they
use failed).  A failing proof does not show that a theorem became false, so `note` says which ones
did.  Where none did, a theorem was added or tightened (`theorems_tightened`).

From the 136th line on a run stops as soon as property theorems rest on a failed lemma, and only lemmas that are
named in the proofs (not those in tactics) are followed, so `theorems_failed` may name fewer theorems than fail.
Edits whose name begins with `a1_` were made by a script that changes one number, comparison, connective, text,
option or reader at a time, one in each definition of the model before a second in any; `claim` then names the properties
whose theorems failed.
