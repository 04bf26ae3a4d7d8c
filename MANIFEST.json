{
 "claims": [
  {
   "property": "C01",
   "status": "proved",
   "theorems": [
    "C01_framed_blocks"
   ],
   "note": "For every non-empty list of framed blocks: set count, types and byte extents."
  },
  {
   "property": "C02",
   "status": "proved",
   "theorems": [
    "C02_refresh_total"
   ],
   "note": "For every byte string."
  },
  {
   "property": "C03",
   "status": "proved",
   "theorems": [
    "C03_add_preserves"
   ],
   "note": "For every old content ending in a line break with an even number of delimiters, and every list of dictionaries accepted by the writers."
  },
  {
   "property": "C04",
   "status": "proved",
   "theorems": [
    "C04_refuted",
    "C04_all_refuted"
   ],
   "note": "Refuted: for every file whose last line is a delimiter without a line break and every list of sets added, the last set gets the delimiter as text and the number of sets found is one too low; C04_refuted exhibits a file whose set is read differently."
  },
  {
   "property": "C06",
   "status": "proved",
   "theorems": [
    "C06_read_sets",
    "C06_bad_index"
   ],
   "note": "For every file and every selection."
  },
  {
   "property": "C07",
   "status": "proved",
   "theorems": [
    "C07_refuted",
    "C07_stale",
    "C07_exact",
    "C07_reported",
    "C07_program_refuted"
   ],
   "note": "Refuted: after overwriting with a set of unsupported type the old count is reported. C07_exact says for every successful call what is reported: the sets of the file if it has any, otherwise what was reported before."
  },
  {
   "property": "C08",
   "status": "proved",
   "theorems": [
    "C08_refuted",
    "C08_all_refuted",
    "C08_program_refuted",
    "C08_after_creation"
   ],
   "note": "Refuted: read_sets() of such an object returns nothing for every file. The getters and explicit numbers are right."
  },
  {
   "property": "C09",
   "status": "proved",
   "theorems": [
    "C09_refuted",
    "C09_refuted_later",
    "C09_overwrite_forgets",
    "C09_add_exact",
    "C09_earlier_sets"
   ],
   "note": "Refuted: a rejected write leaves the lines written so far. Overwriting, rejected or not, leaves nothing of the old file; adding leaves the old bytes followed by bytes that depend on the set only, and the earlier sets survive."
  },
  {
   "property": "C10",
   "status": "proved",
   "theorems": [
    "C10_unsupported_read",
    "C10_unsupported_write",
    "C10_mode_names",
    "C10_nothing"
   ],
   "note": "For every type outside the supported list."
  },
  {
   "property": "C11",
   "status": "proved",
   "theorems": [
    "C11_refuted",
    "C11_always_zero"
   ],
   "note": "Refuted: the reported format is 0 for every set of every file."
  },
  {
   "property": "C12",
   "status": "proved",
   "theorems": [
    "C12_crash_while_adding",
    "C12_steps"
   ],
   "note": "For every interruption point inside the sequence of write calls."
  },
  {
   "property": "C13",
   "status": "proved",
   "theorems": [
    "C13_refuted",
    "C13_unreadable_refuted",
    "C13_exact",
    "C13_imitation",
    "C13_15",
    "C13_safe"
   ],
   "note": "Refuted: every type but 15 has an accepted set (one entry -1 in a last column, or a text) whose block is cut and behind which the next set is lost; for eight types reading it raises. Proved exactly which sets are found again: those whose text contains no delimiter (C13_exact, C13_imitation), which is every accepted set of type 15 and every set covered by the round-trip theorems."
  },
  {
   "property": "C14",
   "status": "proved",
   "theorems": [
    "C14_printed",
    "C14_fixed_width",
    "C14_blank_separated"
   ],
   "note": "For every integer and width; the three reading/printing modes the code uses."
  },
  {
   "property": "C15",
   "status": "proved",
   "theorems": [
    "C15_seventeen_digits",
    "C15_row"
   ],
   "note": "For every double, finite or not."
  },
  {
   "property": "C16",
   "status": "proved",
   "theorems": [
    "C16_rounded",
    "C16_special",
    "C16_subnormal_unstable",
    "C16_settles"
   ],
   "note": "Finite result for all doubles; error bound and stability of the text for all normal doubles and zero. The text of a subnormal double may change once (C16_subnormal_unstable); the number read back is settled after one reading for every double (C16_settles)."
  },
  {
   "property": "C17",
   "status": "proved",
   "theorems": [
    "C17_utf8",
    "C17_surrogates",
    "C17_decoded"
   ],
   "note": "For every string and all bytes."
  },
  {
   "property": "C18",
   "status": "proved",
   "theorems": [
    "C18_header_line",
    "C18_padding"
   ],
   "note": "For every line and column layout."
  },
  {
   "property": "C19",
   "status": "proved",
   "theorems": [
    "C19_opt_fields"
   ],
   "note": "For every dictionary."
  },
  {
   "property": "C20",
   "status": "proved",
   "theorems": [
    "C20_check_dict_for_none"
   ],
   "note": "For every dictionary."
  },
  {
   "property": "C23",
   "status": "proved",
   "theorems": [
    "C23_round_trip_15",
    "C23_defaults_15"
   ],
   "note": "For every number of nodes and all values fitting the columns; old file content kept, set found at the next index."
  },
  {
   "property": "C24",
   "status": "proved",
   "theorems": [
    "C24_round_trip_18"
   ],
   "note": "For every number of systems and all values fitting the columns."
  },
  {
   "property": "C34",
   "status": "proved",
   "theorems": [
    "C34_round_trip_82",
    "C34_steps_int"
   ],
   "note": "For every node array without equal neighbours."
  },
  {
   "property": "C35",
   "status": "proved",
   "theorems": [
    "C35_all_nodes_refuted",
    "C35_exact",
    "C35_iff"
   ],
   "note": "Refuted: C35_exact gives what every trace line is read as, C35_iff exactly which trace lines keep all nodes; the first theorem exhibits one whose last node is lost."
  },
  {
   "property": "C42",
   "status": "proved",
   "theorems": [
    "C42_round_trip_2411"
   ],
   "note": "For every number of nodes, all doubles."
  },
  {
   "property": "C48",
   "status": "proved",
   "theorems": [
    "C48_round_trip_2420",
    "C48_defaults_refuted",
    "C48_defaults_general_refuted"
   ],
   "note": "For every number of systems, all doubles; without types or colours every set with a number of systems other than one is refused (the other theorems)."
  },
  {
   "property": "C36",
   "status": "proved",
   "theorems": [
    "C36_round_trip_151"
   ],
   "note": "For all values fitting the columns, given or missing dates."
  },
  {
   "property": "C38",
   "status": "proved",
   "theorems": [
    "C38_round_trip_164"
   ],
   "note": "For all values fitting the columns, all doubles (D exponents)."
  },
  {
   "property": "C39",
   "status": "proved",
   "theorems": [
    "C39_round_trip_1858"
   ],
   "note": "For all values fitting the columns, with the limits of 8 and 6 characters for the second and third integer."
  },
  {
   "property": "C40",
   "status": "proved",
   "theorems": [
    "C40_refuted",
    "C40_refuted_unreadable",
    "C40_all_refuted",
    "C40_exact"
   ],
   "note": "Refuted: the theorems exhibit sets that are misread or unreadable, C40_all_refuted and C40_exact treat every set of the kind."
  },
  {
   "property": "C41",
   "status": "proved",
   "theorems": [
    "C41_round_trip_2400"
   ],
   "note": "For all values fitting the columns, present or defaulted."
  },
  {
   "property": "C43",
   "status": "proved",
   "theorems": [
    "C43_round_trip_2412",
    "C43_grouping"
   ],
   "note": "Any number of elements; rods other than 11 are excluded by wf2412 (see C44); numbers must leave a blank between columns and the last number of a line must not be -1."
  },
  {
   "property": "C44",
   "status": "proved",
   "theorems": [
    "C44_refuted",
    "C44_all_refuted"
   ],
   "note": "Refuted: every set with a rod whose rods have at most two nodes is written and cannot be read; a rod of type 21 read from a file is written without its beam line and cannot be read again."
  },
  {
   "property": "C49",
   "status": "proved",
   "theorems": [
    "C49_refuted",
    "C49_prepared_refuted"
   ],
   "note": "Refuted for every set read from a 2429 block and every set made by prepare_2429: the writer rejects it."
  },
  {
   "property": "C50",
   "status": "proved",
   "theorems": [
    "C50_refuted",
    "C50_exact",
    "C50_iff",
    "C50_fails_refuted",
    "C50_empty_refuted",
    "C50_two_refuted",
    "C50_none_refuted",
    "C50_round_trip_2429"
   ],
   "note": "Refuted: C50_exact says which entities are read for every number of them, C50_iff when they are those written. With 2, 3 or 7 entities the writer always fails, with none the group is lost."
  },
  {
   "property": "C51",
   "status": "proved",
   "theorems": [
    "C51_round_trip_2467"
   ],
   "note": "Any number of groups and entities; names come back cut to 40 characters and stripped."
  },
  {
   "property": "C25",
   "status": "proved",
   "theorems": [
    "C25_round_trip_55",
    "C25_complex_parts"
   ],
   "note": "Analysis types 2, 3, 5, 7 with 3 or 6 real or 3 complex values per node, any number of nodes. Complex numbers must be finite; they come back as re + 1j*im, so the sign of a zero part may change."
  },
  {
   "property": "C26",
   "status": "proved",
   "theorems": [
    "C26_refuted",
    "C26_all_refuted"
   ],
   "note": "Refuted, for every complex set with r4, r5 and r6: complex r1..r6 are written (r1..r3 only) as a block the reader rejects."
  },
  {
   "property": "C27",
   "status": "proved",
   "theorems": [
    "C27_round_trip_58",
    "C27_points"
   ],
   "note": "Text form: real or complex, even or uneven, single or double, any number of points from two on; the dictionary must hold orddenom_spec_data_type (no default exists). NaN and infinities come back as 0 and the largest double."
  },
  {
   "property": "C28",
   "status": "proved",
   "theorems": [
    "C28_round_trip_58b",
    "C28_exact"
   ],
   "note": "Binary double precision sets in add mode, payload without a delimiter (a hypothesis: the format has no escape)."
  },
  {
   "property": "C29",
   "status": "proved",
   "theorems": [
    "C29_refuted",
    "C29_overwrite_lost"
   ],
   "note": "Refuted: for every well-formed binary set, overwriting leaves a file with the closing delimiter only."
  },
  {
   "property": "C30",
   "status": "proved",
   "theorems": [
    "C30_refuted",
    "C30_all_refuted"
   ],
   "note": "Refuted: for every single precision binary set, real or complex, twice as many points are read."
  },
  {
   "property": "C31",
   "status": "proved",
   "theorems": [
    "C31_header_only",
    "C31_first_lines",
    "C31_read_sets"
   ],
   "note": "For every block and every file that can be read."
  },
  {
   "property": "C32",
   "status": "proved",
   "theorems": [
    "C32_refuted",
    "C32_payload_length",
    "C32_only_real_even"
   ],
   "note": "Refuted: the declared length is right exactly for real, evenly spaced, double precision data."
  },
  {
   "property": "C33",
   "status": "proved",
   "theorems": [
    "C33_cleaned_first",
    "C33_finite_58",
    "C33_read_finite"
   ],
   "note": "The replacement for all sequences of numbers; finiteness of what is stored and read back for all well-formed sets."
  },
  {
   "property": "C45",
   "status": "proved",
   "theorems": [
    "C45_round_trip_2414",
    "C45_data_type_refuted",
    "C45_wide_refuted",
    "C45_empty_refuted",
    "C45_touch_refuted",
    "C45_none_refuted"
   ],
   "note": "Any number of rows and values. The reals of records 12 and 13 must print in 11 characters and data values in at most 12, data at nodes and elements must not be empty; the other theorems show what happens otherwise."
  },
  {
   "property": "C46",
   "status": "proved",
   "theorems": [
    "C46_refuted",
    "C46_silent_refuted",
    "C46_unreadable_refuted",
    "C46_lost_refuted",
    "C46_cut_refuted"
   ],
   "note": "Refuted, for every negative real among the first five of a record: a frequency response becomes unreadable; any other set reads the next real of the record as zero. C46_cut_refuted: the real itself, in any of the six places, is read as the number its first eleven characters spell (-250 as -2.5)."
  },
  {
   "property": "C47",
   "status": "proved",
   "theorems": [
    "C47_refuted",
    "C47_closed",
    "C47_open_refuted"
   ],
   "note": "Refuted, for every set at location 5: it leaves the block open, and none of the sets added behind it is found; closed for the other locations."
  },
  {
   "property": "C05",
   "status": "proved",
   "theorems": [
    "C05_history"
   ],
   "note": "Any number of calls, any number of sets per call, all fifteen types, any starting object state; set count, types, read_sets() and read_sets(i), with and without header_only."
  },
  {
   "property": "C56",
   "status": "proved",
   "theorems": [
    "C56_set",
    "C56_copy",
    "C56_step_refuted",
    "C56_order_refuted",
    "C56_order_iff",
    "C56_second_copy",
    "C56_zero_refuted"
   ],
   "note": "C56_order_iff and C56_second_copy settle sets of elements in any order. One set and whole files after any history, ASCII and binary. The _refuted theorems show that the guards are needed: a step that is lost beside a large start value, elements with alternating descriptors, a negative zero in a complex value."
  },
  {
   "property": "C54",
   "status": "proved",
   "theorems": [
    "C54_terminates",
    "C54_unchanged",
    "C54_sets_kept",
    "C54_payload_refuted",
    "C54_last_break",
    "C54_payload_general_refuted"
   ],
   "note": "Termination, the identity cases and the preservation of text sets are proved for all files. The last sentence is refuted: every binary type 58 set (real or complex, even or uneven) whose payload ends in LF, CR or CRLF loses its last value (C54_payload_general_refuted)."
  },
  {
   "property": "C55",
   "status": "proved",
   "theorems": [
    "C55_refuted",
    "C55_general_refuted"
   ],
   "note": "Refuted: for every file whose last line is the delimiter without a line break the output ends in '    -11'."
  },
  {
   "property": "C53",
   "status": "proved",
   "theorems": [
    "C53_others",
    "C53_read",
    "C53_default",
    "C53_decided_2429",
    "C53_decided_2467",
    "C53_decided_2414",
    "C53_counts_2429",
    "C53_counts_2467",
    "C53_counts_2414",
    "C53_refuted_2429",
    "C53_refuted_2467",
    "C53_refuted_2414",
    "C53_read_refuted"
   ],
   "note": "The last sentence is refuted: blocks with a negative count for which no amount of fuel is enough. C53_decided_N shows that the model's fuel decides termination."
  },
  {
   "property": "C21",
   "status": "proved",
   "theorems": [
    "C21_convert",
    "C21_none"
   ],
   "note": "For every list with one set with at least one quad; node numbers are 64-bit integers."
  },
  {
   "property": "C22",
   "status": "proved",
   "theorems": [
    "C22_refuted"
   ],
   "note": "Refuted: with two sets with quads the conversion always fails with AttributeError."
  },
  {
   "property": "C37",
   "status": "proved",
   "theorems": [
    "C37_refuted",
    "C37_prepared"
   ],
   "note": "Refuted for the date and time of writing: they are always those of the clock. Proved for creation and save."
  },
  {
   "property": "C52",
   "status": "proved",
   "theorems": [
    "C52_refuted",
    "C52_accepted"
   ],
   "note": "Refuted: for every accepted call both prepare_group functions store the degree-of-freedom set number under temperature and contact. The other arguments are stored under their names."
  },
  {
   "property": "C57",
   "status": "proved",
   "theorems": [
    "C57_accepted",
    "C57_keywords",
    "C57_values",
    "C57_checks",
    "C57_leaves",
    "C57_int_list",
    "C57_float_list",
    "C57_groups",
    "C57_2429_checked",
    "C57_unchecked",
    "C57_18_refuted",
    "C57_mask_refuted",
    "C57_2467_refuted",
    "C57_groups_raise",
    "C57_rectangular",
    "C57_ragged"
   ],
   "note": "The last sentence is refuted (C57_18_refuted, C57_unchecked, C57_2467_refuted), and prepare_2400 rejects every array as status mask (C57_mask_refuted)."
  },
  {
   "property": "C58",
   "status": "proved",
   "theorems": [
    "C58_prepared",
    "C58_groups",
    "C58_full_refuted",
    "C58_all_given",
    "C58_none_refuted",
    "C58_column_refuted",
    "C58_text_refuted"
   ],
   "note": "The second sentence is refuted: C58_none_refuted and C58_column_refuted for each argument left out that is written as a number, C58_text_refuted for texts. It holds if all arguments are given (C58_all_given)."
  },
  {
   "property": "C59",
   "status": "proved",
   "theorems": [
    "C59_refuted",
    "C59_documented_refuted"
   ],
   "note": "Refuted: what is written and read back has no elements, for all arguments."
  },
  {
   "property": "C60",
   "status": "proved",
   "theorems": [
    "C60_written",
    "C60_chain"
   ],
   "note": ""
  },
  {
   "property": "C61",
   "status": "proved",
   "theorems": [
    "C61_layout",
    "C61_binary",
    "C61_bytes_refuted",
    "C61_1858_refuted",
    "C61_2412_refuted",
    "C61_2414_refuted",
    "C61_text_refuted"
   ],
   "note": "An exact characterisation; the sets outside it are refuted by the named theorems."
  },
  {
   "property": "C62",
   "status": "proved",
   "theorems": [
    "C62_block",
    "C62_file",
    "C62_groups",
    "C62_nodes_refuted",
    "C62_nodes_general_refuted",
    "C62_values_refuted",
    "C62_values_general_refuted",
    "C62_adjacent_refuted",
    "C62_adjacent_15_refuted",
    "C62_adjacent_82_refuted",
    "C62_padded_refuted",
    "C62_empty_refuted",
    "C62_empty_general_refuted",
    "C62_padded_18_refuted",
    "C62_padded_55_refuted",
    "C62_padded_58_refuted"
   ],
   "note": "Proved for the layouts the readers can take in (presents, readable); the layouts outside are refuted by the named theorems."
  },
  {
   "property": "C63",
   "status": "proved",
   "theorems": [
    "C63_block",
    "C63_documented",
    "C63_file",
    "C63_abscissa_refuted",
    "C63_format_refuted",
    "C63_delimiter_refuted"
   ],
   "note": "Proved for IEEE numbers in the precision of the ordinates; refuted for documented double precision sets with uneven abscissas, for IBM numbers, and for numbers that contain a delimiter line."
  },
  {
   "property": "C64",
   "status": "proved",
   "theorems": [
    "C64_fields",
    "C64_other_codes",
    "C64_codes_refuted",
    "C64_rest",
    "C64_unchecked"
   ],
   "note": "The fields with other codes than documented are refuted one by one; what they take is stated exactly."
  },
  {
   "property": "C65",
   "status": "proved",
   "theorems": [
    "C65_only_target",
    "C65_fix",
    "C65_default_target",
    "C65_independent"
   ],
   "note": "File names are canonical str names: links and different names of one file are not modelled."
  },
  {
   "property": "C66",
   "status": "proved",
   "theorems": [
    "C66_history"
   ],
   "note": "File names are canonical str names."
  },
  {
   "property": "C67",
   "status": "proved",
   "theorems": [
    "C67_read",
    "C67_written",
    "C67_int"
   ],
   "note": "ASCII digits; nearest is stated over all doubles with exact rational arithmetic."
  },
  {
   "property": "C68",
   "status": "proved",
   "theorems": [
    "C68_frame",
    "C68_no_type",
    "C68_data",
    "C68_modal",
    "C68_function"
   ],
   "note": "Dictionary values are compared as values; the arrays of the caller are not changed in place by any writer."
  },
  {
   "property": "C69",
   "status": "proved",
   "theorems": [
    "C69_again",
    "C69_shared"
   ],
   "note": "One clock reading per write_sets call."
  },
  {
   "property": "C70",
   "status": "proved",
   "theorems": [
    "C70_stays",
    "C70_refuted",
    "C70_precision_refuted",
    "C70_date_refuted"
   ],
   "note": "Refuted: after a write with force_double=True the dictionary says double precision, and every later write with force_double=False stores what the first stored (C70_stays, for all dictionaries); every single precision text set (C70_precision_refuted) and every header 151 without date written at another date (C70_date_refuted) is then stored otherwise than by a first write."
  },
  {
   "property": "C71",
   "status": "proved",
   "theorems": [
    "C71_int",
    "C71_int_error",
    "C71_real",
    "C71_real_read",
    "C71_real_exact",
    "C71_real_error",
    "C71_white"
   ],
   "note": "Decimal digits of other scripts, which Python also takes, are not in the model (digits are ASCII)."
  },
  {
   "property": "C72",
   "status": "proved",
   "theorems": [
    "C72_15",
    "C72_18",
    "C72_55",
    "C72_82",
    "C72_151",
    "C72_164",
    "C72_1858",
    "C72_2400",
    "C72_2411",
    "C72_2412",
    "C72_2414",
    "C72_2420",
    "C72_2429",
    "C72_2429_never",
    "C72_2467",
    "C72_58",
    "C72_58_list",
    "C72_58_missing"
   ],
   "note": "Values whose formatting is not modelled (a float for %s, an array for a scalar field) count as refused. For 55 the first component r1 is an array; for 82 the nodes, if an array, hold integers; for 58 the data is a one-dimensional array."
  },
  {
   "property": "C73",
   "status": "proved",
   "theorems": [
    "C73_15",
    "C73_55",
    "C73_58",
    "C73_82",
    "C73_151",
    "C73_164",
    "C73_58_refuted",
    "C73_prepared_refuted",
    "C73_2412_refuted"
   ],
   "note": "Proved for the optional fields of 15, 55, 58, 82, 151 and 164 but one. Refuted for orddenom_spec_data_type of 58 and for the color of an element of 2412."
  },
  {
   "property": "C74",
   "status": "proved",
   "theorems": [
    "C74_int",
    "C74_real",
    "C74_text",
    "C74_truth",
    "C74_equal",
    "C74_array",
    "C74_complex",
    "C74_entry",
    "C74_section",
    "C74_nearest"
   ],
   "note": "Texts of floats (repr) and mixed lists of texts and numbers are not in the model; comparison is with integers below 2^53."
  },
  {
   "property": "C75",
   "status": "proved",
   "theorems": [
    "C75_refuted"
   ],
   "note": "Refuted for every accepted call with at least one node (location 1) and every one at locations 2 and 3."
  },
  {
   "property": "C76",
   "status": "proved",
   "theorems": [
    "C76_memory",
    "C76_questions",
    "C76_first_look",
    "C76_refresh"
   ],
   "note": "For programs in the model of World.v. A file without a complete set leaves the old index in place (see C07)."
  },
  {
   "property": "C77",
   "status": "proved",
   "theorems": [
    "C77_name",
    "C77_nameless",
    "C77_exists"
   ],
   "note": "For programs in the model of World.v (no directories, no permissions)."
  },
  {
   "property": "C78",
   "status": "proved",
   "theorems": [
    "C78_allowed",
    "C78_protected",
    "C78_no_write",
    "C78_no_fix",
    "C78_no_open",
    "C78_no_refresh",
    "C78_questions",
    "C78_no_reading",
    "C78_stored_refuted"
   ],
   "note": "The first sentence is refuted for a file that may be written but not read: the first set is stored, then refresh raises and the other sets are not written (C78_stored_refuted). The rest is proved."
  },
  {
   "property": "C79",
   "status": "proved",
   "theorems": [
    "C79_names_missing",
    "C79_names_it",
    "C79_asked_once"
   ],
   "note": "A dictionary in the place of a sequence is refused in the model before its own keys are looked up (DESIGN section 4)."
  },
  {
   "property": "C80",
   "status": "proved",
   "theorems": [
    "C80_write_set",
    "C80_write",
    "C80_read"
   ],
   "note": "The file name and mode appended to some messages are left out, as everywhere in the model. Behaviour outside the model (Unmodelled) is excepted; files that cannot be opened are in C78."
  },
  {
   "property": "C81",
   "status": "proved",
   "theorems": [
    "C81_supported",
    "C81_open",
    "C81_refresh",
    "C81_question",
    "C81_write",
    "C81_others",
    "C81_keeps",
    "C81_text_refuted"
   ],
   "note": "For programs in the model of World.v. The last sentence is refuted by C81_text_refuted; the entry 58b of the list is no type number."
  },
  {
   "property": "C82",
   "status": "proved",
   "theorems": [
    "C82_set",
    "C82_file"
   ],
   "note": "Without the conditions on texts, on the order of elements and on subnormal numbers that C56 needs. Sets of type 2429 cannot be written again (C49)."
  }
 ]
}