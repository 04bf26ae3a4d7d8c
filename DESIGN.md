# Formal model of pyuff 2.5.6 — design

Source: `/repo/pyuff` (pinned). Model and proofs: `rocq/theories/`, Coq 8.16.1, logical name `Verif`.

## 1. Approach

The model is a shallow, total, computable Gallina transcription of the Python code, one definition per
function, each with a comment citing file and lines. Exceptions are values (`Err e`), files are byte
lists, Python strings are lists of code points, dictionaries are insertion-ordered association lists of
dynamically typed Python values, floats are IEEE-754 binary64 values (`SpecFloat.spec_float`), with
exact (correctly rounded) models of `%w.pe`, `float()`, `+ - *` and `struct` packing. Format strings are
the *literal* strings of the source (`"%10i%20s%10i\n"`), interpreted by a model of Python's `%`.

A writer is modelled as the list of its successive `fh.write` calls, each either a text or an exception;
running it yields the bytes that reach the file *before* the exception, so partially written blocks
are part of the model (C09, C12, C13). Loops of the source that may not end have explicit fuel in the
model, and running out of it is the distinct outcome `OutOfFuel`; C53 shows when this can happen.

### Layers

| layer | files | content |
|---|---|---|
| Python base | PyBase, PyNum, Utf8, PyVal | bytes/str primitives (find, slices, splitlines, split, strip, replace), int(), float(), `%`-formatting, UTF-8, binary64, struct, dynamically typed values, the numpy conversions used |
| package | Tools, DsNodes (15, 18, 82, 2411, 2420), DsHeaders (151, 164, 1858, 2400), DsGroups (2412, 2429, 2467), Ds55, Ds58 (58, 58b, fix_58b), Ds2414, Prepare (all `prepare_*`, conversion 2412 to 82) | one definition per function |
| class UFF | Uff | object state and file: constructor, refresh, getters, read_sets, write_sets |
| file system | World, Access | several files and objects, names, `fix_58b` on files, programs as lists of calls; rights to open files |
| documentation | Layout, Reading, PropCodes | the record formats and codes of the `get_structure_*` texts, stated independently of the code |
| facts | Facts, Scan, Container, Append, ContainerThms, IntFacts, QFacts, FloatFacts, DecFacts, FloatText, FloatExact, CplxFacts, SubFacts, Utf8Facts, DictFacts, Lines, Stored, Cells, Rows, Rt*, Stable*, Fix58, Term, Read*, Ieee | lemmas |
| properties | Prop* | theorems named after the properties, examples that meet their hypotheses, `Print Assumptions` |
| samples | Samples | the model run on sample files of the repository |

Model files contain no proofs beyond what a definition needs; the theorems are in `Prop*.v`.

## 2. Properties: what is modelled and how each is proved

`R`: the code violates the property (or its marked part); a `…_refuted` theorem proves that, and the
other theorems say what does hold. The notes in MANIFEST.json give the limits of each theorem.

| id | property | file | theorems | method |
|---|---|---|---|---|
| C01 | Opening a file made of n framed blocks reports exactly n sets, in order, with their types | PropContainer | C01_framed_blocks | the scan of refresh equals the list of tag positions; positions in concatenations of framed blocks |
| C02 | Opening never fails and the number of sets is half the number of delimiters | PropContainer | C02_refresh_total | induction over the file |
| C03 | Adding sets to an existing file preserves all earlier sets | PropContainer | C03_add_preserves | locality: tags inside newline-terminated bytes do not depend on what follows |
| C04 R | Adding to a file whose last delimiter has no line break keeps that delimiter | PropContainer, PropUnclosed | C04_refuted, C04_all_refuted | witness |
| C05 | A history of write_sets calls reads back as the list of written sets | PropHistory | C05_history | refinement to a list of typed sets, induction over the calls; one block lemma per type |
| C06 | read_sets selects by index, rejects bad indices and shapes its result | PropContainer | C06_read_sets, C06_bad_index | induction over the index list |
| C07 R | The reported number of sets and types match the file after every call | PropContainer, PropExact, PropMemory | C07_refuted, C07_stale, C07_exact and 2 more | witness; invariant |
| C08 R | read_sets() without arguments sees a file that appeared after the object was created | PropContainer, PropExact, PropMemory | C08_refuted, C08_all_refuted, C08_program_refuted and 1 more | case analysis |
| C09 R | A rejected write leaves the file as it was | PropContainer, PropExact | C09_refuted, C09_refuted_later, C09_overwrite_forgets and 2 more | witnesses; prefix lemma for writers |
| C10 | Unsupported sets are passed over | PropContainer, PropExact | C10_unsupported_read, C10_unsupported_write, C10_mode_names and 1 more | case analysis |
| C11 R | get_set_formats distinguishes binary from ASCII sets | PropContainer | C11_refuted, C11_always_zero | invariant of refresh |
| C12 | A crash while adding never damages earlier sets | PropContainer | C12_crash_while_adding, C12_steps | locality for every prefix of the appended bytes |
| C13 R | No field value can imitate a delimiter | PropImitate | C13_refuted, C13_unreadable_refuted, C13_exact and 3 more | witnesses per type; scan of an arbitrary text |
| C14 | Integers survive the text form when they fit their column | PropText | C14_printed, C14_fixed_width, C14_blank_separated | induction on digits |
| C15 | Coordinates printed with 17 significant digits are read back exactly | PropText | C15_seventeen_digits, C15_row | spacing of binary and decimal grids in Q (Matula) |
| C16 R | Values printed with 6 or 12 digits are read back within half a unit of the last digit and are stable | PropText, PropReread | C16_rounded, C16_special, C16_subnormal_unstable and 1 more | same, with 6, 8 and 12 digits |
| C17 | Text survives the UTF-8 file encoding | PropText | C17_utf8, C17_surrogates, C17_decoded | induction, ranges of code points |
| C18 | Fixed-width header parsing | PropText | C18_header_line, C18_padding | induction over fields |
| C19 | Default filling never changes what the caller supplied | PropText | C19_opt_fields | induction over the dictionary |
| C20 | check_dict_for_none removes exactly the None values | PropText | C20_check_dict_for_none | induction over the dictionary |
| C21 | Converting quadrilateral elements to trace lines draws every element edge | PropConvert | C21_convert, C21_none | induction over elements |
| C22 R | Converting several element sets converts each of them | PropConvert | C22_refuted | general |
| C23 | Round trip of nodes (15) | PropNodes | C23_round_trip_15, C23_defaults_15 | writer emits exactly the specified lines; lines contain no delimiter; reader inverts; induction over rows |
| C24 | Round trip of coordinate systems (18) | PropNodes | C24_round_trip_18 | as C23 |
| C25 | Round trip of data at nodes (55) | PropNodal | C25_round_trip_55, C25_complex_parts | as C23 |
| C26 R | Complex six-component data at nodes (55) can be read back | PropNodal, PropGeneral | C26_refuted, C26_all_refuted | computation over all dictionaries of the kind |
| C27 | Round trip of functions at nodal dof, ASCII (58) | PropFun | C27_round_trip_58, C27_points | as C23 |
| C28 | Round trip of functions at nodal dof, binary (58b) | PropFun | C28_round_trip_58b, C28_exact | as C23 |
| C29 R | Binary functions can be written in overwrite mode | PropFun | C29_refuted, C29_overwrite_lost | as C23 |
| C30 R | Single precision binary functions can be written | PropFun, PropSingle | C30_refuted, C30_all_refuted | witnesses by computation, general where the failure is total |
| C31 | header_only agrees with a full read | PropFun | C31_header_only, C31_first_lines, C31_read_sets | both paths share the header computation |
| C32 R | The declared binary length is the payload length | PropFun | C32_refuted, C32_payload_length, C32_only_real_even | as C23 |
| C33 | Non-finite ordinates are replaced before writing | PropFun | C33_cleaned_first, C33_finite_58, C33_read_finite | case analysis over floats |
| C34 | Round trip of trace lines (82) | PropNodes | C34_round_trip_82, C34_steps_int | as C23 |
| C35 R | Trace lines with repeated neighbours keep all their nodes (82) | PropNodes, PropGeneral | C35_all_nodes_refuted, C35_exact, C35_iff | as C23 |
| C36 | Round trip of the header set (151) | PropHeads | C36_round_trip_151 | as C23 |
| C37 R | prepare_151 dates are written | PropConvert | C37_refuted, C37_prepared | as C23 |
| C38 | Round trip of units (164) | PropHeads | C38_round_trip_164 | as C23 |
| C39 | Round trip of qualifiers (1858) | PropHeads | C39_round_trip_1858 | as C23 |
| C40 R | 1858 integers that fit the written column are read back (1858) | PropHeads, PropGeneral | C40_refuted, C40_refuted_unreadable, C40_all_refuted and 1 more | as C23 |
| C41 | Round trip of model headers (2400) | PropHeads | C41_round_trip_2400 | as C23 |
| C42 | Round trip of double precision nodes (2411) | PropNodes | C42_round_trip_2411 | as C23 |
| C43 | Round trip of elements (2412) | PropGroups | C43_round_trip_2412, C43_grouping | as C23 |
| C44 R | Round trip of rod elements (2412) | PropGroups, PropGeneral | C44_refuted, C44_all_refuted | witnesses by computation, general where the failure is total |
| C45 R | Round trip of analysis data (2414) | PropAnalysis, PropTouch | C45_round_trip_2414, C45_data_type_refuted, C45_wide_refuted and 3 more | as C23 |
| C46 R | Negative header reals survive (2414) | PropAnalysis, PropNegative, PropSixth | C46_refuted, C46_silent_refuted, C46_unreadable_refuted and 2 more | witnesses by computation, general where the failure is total |
| C47 R | Every accepted 2414 set is closed | PropAnalysis, PropOpen | C47_refuted, C47_closed, C47_open_refuted | as C23 |
| C48 R | Round trip of coordinate systems (2420) | PropNodes, PropSixth | C48_round_trip_2420, C48_defaults_refuted, C48_defaults_general_refuted | as C23 |
| C49 R | Prepared groups can be written (2429) | PropGroups, PropPrepare | C49_refuted, C49_prepared_refuted | witnesses by computation, general where the failure is total |
| C50 R | Group members survive (2429) | PropGroups, PropExact | C50_refuted, C50_exact, C50_iff and 5 more | as C23 |
| C51 | Round trip of groups (2467) | PropGroups | C51_round_trip_2467 | as C23 |
| C52 R | prepare_group stores each argument under its own name | PropPrepare | C52_refuted, C52_accepted | as C23 |
| C53 R | Reading terminates | PropTerm | C53_others, C53_read, C53_default and 10 more | fuel monotonicity; state repeats |
| C54 R | fix_58b terminates and keeps the data sets of a file | PropFix, PropPayload | C54_terminates, C54_unchanged, C54_sets_kept and 3 more | measure; line analysis |
| C55 R | fix_58b keeps a final delimiter without line break | PropFix | C55_refuted, C55_general_refuted | general |
| C56 R | Writing is stable: writing what was read gives the same bytes | PropStable, PropRegroup | C56_set, C56_copy, C56_step_refuted and 4 more | stability of printed values plus the round trips |
| C57 R | prepare functions return what they were given | PropPrepare, PropGroupCheck, PropRagged | C57_accepted, C57_keywords, C57_values and 13 more | check tables |
| C58 R | Prepared sets can be written | PropConvert, PropFull | C58_prepared, C58_groups, C58_full_refuted and 4 more | tables plus round trips |
| C59 R | Prepared elements are written | PropConvert | C59_refuted, C59_documented_refuted | general |
| C60 | Converted trace lines can be written | PropConvert | C60_written, C60_chain | chain of C21 and C34 |
| C61 R | Written blocks have the documented record formats | PropLayout | C61_layout, C61_binary, C61_bytes_refuted and 4 more | characterisation of line lengths and fields |
| C62 R | Blocks of other programs are read | PropReading, PropLong, PropJoined, PropEmpty | C62_block, C62_file, C62_groups and 13 more | columns with blanks and line ends of any program |
| C63 R | Binary function sets of other programs | PropBinary | C63_block, C63_documented, C63_file and 3 more | IEEE bit patterns |
| C64 R | prepare functions take the values of the documented fields | PropCodes | C64_fields, C64_other_codes, C64_codes_refuted and 2 more | tables compared with documented codes |
| C65 | a call changes only the file it names | PropWorld | C65_only_target, C65_fix, C65_default_target and 1 more | case analysis over calls; simulation |
| C66 | history of a file written by several objects | PropWorld | C66_history | invariant of the file over interleavings |
| C67 | reals are read as the nearest double and written as the nearest decimal | PropNearest | C67_read, C67_written, C67_int | grid of multiples nearest to a rational; all competitors |
| C68 | what a write does to the caller's dictionary | PropCaller | C68_frame, C68_no_type, C68_data and 2 more | frame relation composed over the writers |
| C69 | a written dictionary can be written again | PropCaller | C69_again, C69_shared | each plan is a fixed point of its own dictionary |
| C70 R | an earlier write does not influence a later one | PropCaller, PropLater | C70_stays, C70_refuted, C70_precision_refuted and 1 more | corollary of C69; witnesses |
| C71 | which texts are numbers | PropNumeral, PropKinds | C71_int, C71_int_error, C71_real and 4 more | grammar of numerals, both directions |
| C72 | which sets are written | PropAccept, PropAccept4, PropAccept2, PropAccept3, PropAccept5, PropLists | C72_15, C72_18, C72_55 and 15 more | exact characterisation per type; formats and fields checked by a verified decision procedure |
| C73 R | optional fields may be left out | PropOptional | C73_15, C73_55, C73_58 and 6 more | corollary of C72: the omitted fields are not among the required ones |
| C74 | values stand for the numbers and texts Python gives them | PropKinds | C74_int, C74_real, C74_text and 7 more | relations written independently of the model, both directions; uniqueness of rounding by a gap argument |
| C75 R | prepared analysis data at nodes and elements can be written | PropFull | C75_refuted | C57 and C72 |
| C76 | an object knows its own file only | PropMemory | C76_memory, C76_questions, C76_first_look and 1 more | invariant over all programs; case analysis over calls |
| C77 | an object reports the name and the existence of its file | PropNames | C77_name, C77_nameless, C77_exists | induction over programs from the end; exact in both directions |
| C78 R | A file that cannot be opened | PropAccess | C78_allowed, C78_protected, C78_no_write and 6 more | case analysis over calls under rights; induction over programs |
| C79 | The message about a missing key is right | PropMissing | C79_names_missing, C79_names_it, C79_asked_once | compositional: first failing step; simulation of two runs that differ by one key |
| C80 | failures carry the library's own messages about the right set | PropMessages | C80_write_set, C80_write, C80_read | case analysis over the writers; induction over the list |
| C81 R | get_supported_sets and get_status tell the truth | PropStatus | C81_supported, C81_open, C81_refresh and 5 more | decision over the listed types; case analysis over calls; induction over programs |
| C82 | One copy settles a file | PropSettle | C82_set, C82_file | clipping texts and regrouping elements change nothing that is read; then C56 |

## 3. Trusted base

* The Coq 8.16.1 kernel, including its virtual machine (`vm_compute` is used for witnesses).
* No axioms of our own. `Print Assumptions` stands under every property theorem, see section 5.
* The definitions of the model: that they say what the Python code says. Every definition cites its lines.
* The statements: properties.jsonl in English against the theorems.

The correspondence of model and code was checked in three ways besides reading. The primitives (formatting,
parsing, splitting, rounding, UTF-8, struct, splitext) were compared with CPython on many random arguments.
The extracted model was run on the sample files in /repo/data, and its results agree with the values the tests
in /repo/tests assert. Some of these runs are repeated inside Coq in Samples.v.

Wrong versions of the model were tried against the theorems; seeded/LOG.jsonl lists each edit, the claim it breaks
and the theorems that fail.

## 4. Modelled and not modelled

Modelled: every function of the package that has an effect or a result: the class UFF, tools.py, all fifteen
data set types (writer, extractor, prepare function), and `fix_58b`. The `get_structure_*` functions print the
documentation; their texts are the source of Layout.v, Reading.v and PropCodes.v. The re-exports in
`__init__.py` are not modelled.

Simplifications (stated also at the definitions). An outcome outside the model is the explicit error
`Unmodelled`; no theorem treats it as success.

* Operating system: `open` succeeds for every name, one process, POSIX line ends (no translation), little-endian
  machine. File names are `str`, and two different names are two files. Rights to open files are in
  Access.v; a directory that hides its files is not modelled.
* Values: `VInt`/`VFloat` stand for Python and numpy scalars, `VArr` for one-dimensional and `VArr2` for
  two-dimensional arrays. In the prepare functions scalars are Python scalars, the truth value of an empty array,
  integers outside int64 and membership of lists or arrays in `np.arange` are `Unmodelled`.
* `int()`, `float()` and `lower()` know ASCII only. `%s` of a float (shortest form) is `Unmodelled`.
* numpy integer arithmetic does not wrap; results outside int64 are `Unmodelled` where arrays are built. The
  difference of abscissa integers in 58 is taken without wrapping, that of booleans as integers (numpy refuses
  boolean arrays).
* A dictionary in the place of a sequence (say `dset['x'] = {0: 1.0}`) has no length and no elements in the model.
* `np.ceil` of a quotient of small counts is exact integer division.
* Dictionaries are values: a writer returns the updated dictionary. One dictionary object occurring twice in a
  list of sets is treated as two equal dictionaries; C69_shared proves that this makes no difference.
* Arrays of three dimensions (e.g. the matrices of 2420 as one array) are not representable; a list of matrices is.
* numpy arrays of strings drop trailing NUL characters of their elements; the model keeps them (2414 columns).
* The binary writer of 58 opens the file again for the end line and does not close it. In the model its buffer is
  written when the function returns, as CPython's reference counting does.
* Complex arithmetic is that of Python before 3.14 (`1.j * b` has a signed zero real part).
* `setn` of read_sets is None, an int or a list of ints.
* Text printed to standard output is not modelled.

## 5. Print Assumptions

Every property theorem and every lemma is "Closed under the global context": no axiom of the standard library is
used either. vcheck lists seven names from the standard library, `Coq.ssr.ssrunder.Under_rel.Under_rel`,
`.Over_rel`, `.Under_rel_from_rel`, `.under_rel_done`, `.over_rel`, `.over_rel_done`, `.Under_relE`. They are the
parameters of a sealed module that comes with the `Lqa`/`Lia`/`setoid_ring` tactics; no theorem depends on them.

## 6. What the proofs found

Refuted properties, and further behaviour met on the way (each with a theorem or a witness in the file named in
section 2):

* Container: a file without a final line break swallows the next set (C04); stale counts after overwriting with an
  unsupported type (C07); `read_sets()` misses a file that appeared later (C08); a rejected write leaves a partial
  block, which swallows the next set, and overwriting with an unsupported type empties the file (C09); formats are
  always 0 (C11); a value -1 in a last column or a text line imitates a delimiter (C13).
* 55: complex six-component data are unreadable (C26). 58: binary sets are lost in overwrite mode (C29), single
  precision binary sets are misread (C30), the declared length is wrong but for real even double data (C32, C61); one-point
  sets cannot be written; the missing default of `orddenom_spec_data_type` leaves a partial header; uneven abscissas
  are not cleaned of NaN; an evenly spaced abscissa may change its step (C56). 58b of other programs: documented
  double uneven sets, IBM numbers and data containing a delimiter line are misread (C63).
* 82 loses nodes that equal their neighbours (C35). 151 does not use the date of writing given to
  prepare_151 (C37). 1858 misreads wide integers
  (C40) and never has the documented lines (C61). 2412: rods 21 to 24 are written without their beam line (C44), more
  than eight nodes are written on one line (C61) and not read (C62), prepared elements are not written (C59).
* 2414: negative header reals (C46), no end line for location 5 (C47), frequency data with other data types dropped,
  wide values run together, empty lists unreadable (C45), continuation lines not read (C62).
* 2420: the defaults serve one system only (C48). 2429: prepared and read sets are rejected (C49); 2, 3 or 7 entities
  always fail, none loses the group, otherwise an incomplete last line repeats entities (C50). Groups: the
  degree-of-freedom set number is stored under temperature and contact (C52). Negative counts loop for ever (C53).
* A write with `force_double=True` changes the dictionary for good: later writes with `force_double=False` still store
  doubles; a header 151 keeps the date of its first writing (C70).
* fix_58b damages binary data ending in a line feed (C54) and a final delimiter without line break (C55), and writes
  over an existing default target (C65).
* A set whose type is a text, as get_supported_sets spells it, is silently not written (C81).
* A set written to a file that may not be read is stored although the call raises (C78).
* prepare functions: unchecked parameters (C57, C64), codes other than documented (C64), `return_full_dict` stores
  None, which writers cannot format (C58), conversion of two element sets fails (C22).
