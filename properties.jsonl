{"id": "C01", "title": "Opening a file made of n framed blocks reports exactly n sets, in order, with their types", "statement": "If a file is the concatenation of n>0 blocks, each a delimiter line '    -1', a body containing no delimiter, and a closing delimiter line, then UFF(file).get_n_sets() is n, get_set_types() lists for the i-th set the integer in the first six columns of the i-th body (0 if these are not an integer), and the recorded extent of set i is exactly the i-th block up to its closing delimiter.", "quantifier": "all n, all block bodies of any length and any bytes that contain no delimiter", "why_tests_cant": "the delimiter test is context sensitive (end of file, CR/LF, or 74 blanks) so only an argument over all positions of all byte strings excludes a spurious or missed boundary", "anchors": ["pyuff/pyuff.py:164-243"]}
{"id": "C02", "title": "Opening never fails and the number of sets is half the number of delimiters", "statement": "refresh() terminates without exception on every existing file, whatever its bytes, sets the status flag, and when the file holds t>=2 delimiters reports floor(t/2) sets with lists of types and formats of that same length and with strictly increasing, non overlapping extents inside the file.", "quantifier": "all byte strings as file content", "why_tests_cant": "arbitrary (malformed, truncated, binary) files cannot be enumerated", "anchors": ["pyuff/pyuff.py:164-243"]}
{"id": "C03", "title": "Adding sets to an existing file preserves all earlier sets", "statement": "For every existing file that is empty or ends in a line break and has an even number of delimiters, a successful write_sets(ds,'add') leaves the old bytes as a prefix of the file; the earlier sets keep their index, type, extent and bytes; and the new sets are numbered after them.", "quantifier": "all prior file contents of that shape (also produced by other programs), all well-formed data sets", "why_tests_cant": "prior contents are arbitrary; the tag scan looks ahead up to 80 bytes across the junction", "anchors": ["pyuff/pyuff.py:284-322", "pyuff/pyuff.py:403-485"]}
{"id": "C04", "title": "Adding to a file whose last delimiter has no line break keeps that delimiter", "statement": "write_sets(ds,'add') on a valid file that ends in '    -1' without a final line break keeps the earlier sets readable.", "quantifier": "all valid files ending without a line break", "why_tests_cant": "needs a file produced by another program and cut exactly after the delimiter; the test data all end in a line break", "anchors": ["pyuff/pyuff.py:187-216", "pyuff/pyuff.py:403-485"]}
{"id": "C05", "title": "A history of write_sets calls reads back as the list of written sets", "statement": "Starting from no file, after any sequence of write_sets calls in modes 'overwrite' and 'add' with well-formed data sets of the supported types, get_n_sets() is the length of the list obtained by replaying the calls (overwrite replaces, add appends) and read_sets() returns, in order, exactly the documented read-back dictionary of each data set in that list.", "quantifier": "all sequences of calls, all lists of data sets per call, all well-formed field values; a binary 58 set must be double precision, must not be the first set of an overwriting call (see C29) and its payload must not contain a delimiter line", "why_tests_cant": "unbounded histories over fifteen data-set types cannot be enumerated", "anchors": ["pyuff/pyuff.py:284-322", "pyuff/pyuff.py:244-282", "pyuff/pyuff.py:324-485"]}
{"id": "C06", "title": "read_sets selects by index, rejects bad indices and shapes its result", "statement": "read_sets(k) for 0<=k<n returns the k-th set; any index outside the range (negative included) raises; a list of indices returns the sets in the order asked for; the result is a single dictionary exactly when one set was requested and a list otherwise; the file and the object are not modified.", "quantifier": "all files, all index lists", "why_tests_cant": "index lists and file contents are unbounded", "anchors": ["pyuff/pyuff.py:244-282", "pyuff/pyuff.py:324-401"]}
{"id": "C07", "title": "The reported number of sets and types match the file after every call", "statement": "After any successful constructor, refresh or write call get_n_sets(), get_set_types() agree with the delimiters present in the file.", "quantifier": "all histories of calls including overwriting with an unsupported or empty set", "why_tests_cant": "a stale count only shows for histories that shrink the file to no complete block", "anchors": ["pyuff/pyuff.py:164-243", "pyuff/pyuff.py:122-143"]}
{"id": "C08", "title": "read_sets() without arguments sees a file that appeared after the object was created", "statement": "If UFF was constructed when the file did not exist and the file is then created, read_sets() returns all its sets (as get_n_sets() does).", "quantifier": "all later contents of the file", "why_tests_cant": "requires an external creation between construction and the first read", "anchors": ["pyuff/pyuff.py:244-282"]}
{"id": "C09", "title": "A rejected write leaves the file as it was", "statement": "If write_sets raises, the file is byte for byte what it was before the call and the sets already in it can still be read.", "quantifier": "all data sets and modes for which the call raises", "why_tests_cant": "which key is missing, and at which line of which writer it is noticed, ranges over all dictionaries", "anchors": ["pyuff/pyuff.py:284-322", "pyuff/pyuff.py:403-485"]}
{"id": "C10", "title": "Unsupported sets are passed over", "statement": "Reading a set of unsupported type returns {'type': t}; writing a data set of unsupported type in 'add' mode succeeds and leaves the file unchanged. The mode name may be in upper or lower case; with any other name, or nothing to write, the call raises and changes nothing.", "quantifier": "all types outside the supported list, all other keys of the dictionary, all existing files", "why_tests_cant": "all integers outside a finite list", "anchors": ["pyuff/pyuff.py:366-401", "pyuff/pyuff.py:431-485"]}
{"id": "C11", "title": "get_set_formats distinguishes binary from ASCII sets", "statement": "get_set_formats() is 1 exactly for the binary (58b) sets of the file and 0 for the others.", "quantifier": "all files", "why_tests_cant": "the existing tests never look at the formats of a binary file", "anchors": ["pyuff/pyuff.py:218-234"]}
{"id": "C12", "title": "A crash while adding never damages earlier sets", "statement": "If the process stops at any moment during write_sets(...,'add') on a file that is empty or ends in a line break with an even number t of delimiters, then on reopening the first t/2 sets have unchanged extents, types and bytes, and at least t/2 sets are reported.", "quantifier": "all crash points (every prefix of the bytes to be appended), all prior files, all data sets (well-formed or not)", "why_tests_cant": "a test would have to kill the process at every byte", "anchors": ["pyuff/pyuff.py:403-485", "pyuff/pyuff.py:164-243"]}
{"id": "C13", "title": "No field value can imitate a delimiter", "statement": "For every data set that a writer accepts, the written block is read back as one set of its type.", "quantifier": "all integer and string field values", "why_tests_cant": "only the single value -1 in a last column (or a text with four blanks and -1) triggers it, and the fields differ per data set", "anchors": ["pyuff/pyuff.py:187-216", "pyuff/datasets/dataset_164.py:47-65", "pyuff/datasets/dataset_58.py:827-1016"]}
{"id": "C14", "title": "Integers survive the text form when they fit their column", "statement": "An integer printed with width w and at most w characters is read back as the same integer by fixed-width parsing with any neighbouring fields, and by blank-separated parsing when it has at most w-1 characters.", "quantifier": "all integers, widths and neighbouring fields", "why_tests_cant": "all integers and all neighbours", "anchors": ["pyuff/tools.py:19-84"]}
{"id": "C15", "title": "Coordinates printed with 17 significant digits are read back exactly", "statement": "Every double (finite, infinite or NaN, zeros with sign) printed with %25.16e and read back is the same double; this is the format used for nodal coordinates of 2411, for unit factors of 164 and for the matrices of 2420.", "quantifier": "all IEEE-754 doubles", "why_tests_cant": "2^64 values", "anchors": ["pyuff/datasets/dataset_2411.py:32-70", "pyuff/datasets/dataset_164.py:47-83", "pyuff/datasets/dataset_2420.py:52-110"]}
{"id": "C16", "title": "Values printed with 6 or 12 digits are read back within half a unit of the last digit and are stable", "statement": "A finite double printed with %13.5e (%20.11e) is read back within relative error 5.1e-6 (5.1e-12) in the normal range, never turns infinite, and writing what was read gives the same text again.", "quantifier": "all finite doubles (error and stability: zero or magnitude at least 2^-1022)", "why_tests_cant": "2^64 values, and the stability needs a number theoretic argument about binary/decimal spacing", "anchors": ["pyuff/datasets/dataset_15.py:36-77", "pyuff/datasets/dataset_58.py:960-1008"]}
{"id": "C17", "title": "Text survives the UTF-8 file encoding", "statement": "Every Python string without surrogates written to the text file and decoded again on reading (invalid bytes replaced) is unchanged, and strings with surrogates are rejected before anything of that line is written. Conversely any bytes are decoded to a text that can be written again and has the same ASCII characters in the same order; if it has no replacement character, encoding it gives back the bytes.", "quantifier": "all strings of code points, all byte strings", "why_tests_cant": "1.1 million code points and all their combinations", "anchors": ["pyuff/pyuff.py:353-365", "pyuff/pyuff.py:419-430"]}
{"id": "C18", "title": "Fixed-width header parsing", "statement": "_parse_header_line returns for every column the stripped text or the number it holds; a field that is not a number raises if mandatory and becomes 0 or 0.0 if optional; type -1 columns are skipped; lines shorter than 80 columns read as if padded with blanks.", "quantifier": "all lines, widths, types and names", "why_tests_cant": "all lines", "anchors": ["pyuff/tools.py:19-84"]}
{"id": "C19", "title": "Default filling never changes what the caller supplied", "statement": "_opt_fields adds exactly the missing keys with the given defaults, keeps every existing value (None included) and the order of existing keys, and applying it twice equals applying it once.", "quantifier": "all dictionaries and defaults", "why_tests_cant": "all dictionaries", "anchors": ["pyuff/tools.py:4-17"]}
{"id": "C20", "title": "check_dict_for_none removes exactly the None values", "statement": "The returned dictionary has exactly the entries of the argument whose value is not None, in the same order.", "quantifier": "all dictionaries", "why_tests_cant": "all dictionaries", "anchors": ["pyuff/tools.py:121-128"]}
{"id": "C21", "title": "Converting quadrilateral elements to trace lines draws every element edge", "statement": "convert_dataset_2412_to_82 applied to one 2412 set with quads yields one trace-line set with 12 entries per element: for nodes a,b,c,d the four segments ab, bc, cd, da each followed by 0, and the declared node count equals the number of entries; non-2412 sets are passed over.", "quantifier": "all element lists", "why_tests_cant": "all meshes", "anchors": ["pyuff/tools.py:130-161"]}
{"id": "C22", "title": "Converting several element sets converts each of them", "statement": "convert_dataset_2412_to_82 applied to a list with several 2412 sets with quads returns a trace-line set for each.", "quantifier": "all lists with two or more such sets", "why_tests_cant": "the tests convert one set", "anchors": ["pyuff/tools.py:130-161"]}
{"id": "C23", "title": "Round trip of nodes (15)", "statement": "Writing a well-formed type 15 set and reading it returns the node numbers, coordinate-system numbers and colours exactly and the coordinates rounded to 6 digits, for any number of nodes; missing def_cs, disp_cs, color read as zeros.", "quantifier": "all numbers of nodes and values fitting the columns", "why_tests_cant": "all values", "anchors": ["pyuff/datasets/dataset_15.py:36-77"]}
{"id": "C24", "title": "Round trip of coordinate systems (18)", "statement": "Writing a well-formed type 18 set and reading it returns numbers and names exactly and the points rounded to 6 digits, for any number of systems.", "quantifier": "all numbers of systems and values fitting the columns", "why_tests_cant": "all values", "anchors": ["pyuff/datasets/dataset_18.py:45-115"]}
{"id": "C25", "title": "Round trip of data at nodes (55)", "statement": "Writing a well-formed type 55 set with analysis type 2, 3, 5 or 7 (real 3 or 6 values or complex 3 values per node) and reading it returns the header, node numbers exactly and the data rounded to 6 digits, for any number of nodes.", "quantifier": "all analysis types, node counts, values", "why_tests_cant": "all values", "anchors": ["pyuff/datasets/dataset_55.py:351-538"]}
{"id": "C26", "title": "Complex six-component data at nodes (55) can be read back", "statement": "A type 55 set with complex r1..r6 that the writer accepts can be read back.", "quantifier": "all such sets", "why_tests_cant": "never written by the tests", "anchors": ["pyuff/datasets/dataset_55.py:351-538"]}
{"id": "C27", "title": "Round trip of functions at nodal dof, ASCII (58)", "statement": "Writing a well-formed real or complex, evenly or unevenly spaced function in ASCII, single or double precision, and reading it returns the header exactly, the ordinates rounded to 6 (single) or 12 (double) digits, uneven abscissas rounded to 6 digits, and even abscissas as first+i*increment with both rounded to 6 digits.", "quantifier": "all numbers of points >=2, all finite values, all header fields fitting their columns", "why_tests_cant": "all values and lengths; remainder-line handling differs with the length modulo 6, 4, 2", "anchors": ["pyuff/datasets/dataset_58.py:827-1151"]}
{"id": "C28", "title": "Round trip of functions at nodal dof, binary (58b)", "statement": "Adding a well-formed double precision binary function to a file and reading it returns the ordinates exactly (bit for bit for reals), provided the payload bytes contain no delimiter.", "quantifier": "all numbers of points >=2 and all doubles", "why_tests_cant": "all payloads", "anchors": ["pyuff/datasets/dataset_58.py:827-1151"]}
{"id": "C29", "title": "Binary functions can be written in overwrite mode", "statement": "write_sets(d,'overwrite') with a binary type 58 set produces a file from which d is read back.", "quantifier": "all binary sets", "why_tests_cant": "the tests only add binary sets", "anchors": ["pyuff/datasets/dataset_58.py:985-1012"]}
{"id": "C30", "title": "Single precision binary functions can be written", "statement": "write_sets(d,'add',force_double=False) with a binary real single-precision set (ord_data_type 2) is read back with as many points as were written.", "quantifier": "all such sets", "why_tests_cant": "not covered by tests", "anchors": ["pyuff/datasets/dataset_58.py:860-880", "pyuff/datasets/dataset_58.py:985-1012"]}
{"id": "C31", "title": "header_only agrees with a full read", "statement": "read_sets(header_only=True) of a readable type 58 set returns the same header entries as a full read, with x and data None, and does not depend on the data lines.", "quantifier": "all blocks", "why_tests_cant": "all blocks", "anchors": ["pyuff/datasets/dataset_58.py:1019-1151"]}
{"id": "C32", "title": "The declared binary length is the payload length", "statement": "The byte count in the header of a written binary set equals the number of payload bytes that follow.", "quantifier": "all binary sets", "why_tests_cant": "real even data hide it", "anchors": ["pyuff/datasets/dataset_58.py:860-900"]}
{"id": "C33", "title": "Non-finite ordinates are replaced before writing", "statement": "Data of a written type 58 set contain no NaN or infinity in the file: NaN is stored as 0 and infinities as the largest double, also for the parts of complex numbers.", "quantifier": "all data arrays", "why_tests_cant": "all arrays", "anchors": ["pyuff/pyuff.py:446-449"]}
{"id": "C34", "title": "Round trip of trace lines (82)", "statement": "Writing a well-formed type 82 set in which no two neighbouring nodes are equal and reading it returns trace number, colour, id, node count and all nodes.", "quantifier": "all node lists", "why_tests_cant": "all lists", "anchors": ["pyuff/datasets/dataset_82.py:46-92"]}
{"id": "C35", "title": "Trace lines with repeated neighbours keep all their nodes (82)", "statement": "Every node of a written trace line is in the file.", "quantifier": "all node lists", "why_tests_cant": "needs a repeat and a length hitting a multiple of eight", "anchors": ["pyuff/datasets/dataset_82.py:46-92"]}
{"id": "C36", "title": "Round trip of the header set (151)", "statement": "Writing a well-formed type 151 set and reading it returns names, description, application, versions, dates and times; the dates not given are the current ones.", "quantifier": "all values fitting the columns", "why_tests_cant": "all values", "anchors": ["pyuff/datasets/dataset_151.py:47-97"]}
{"id": "C37", "title": "prepare_151 dates are written", "statement": "Every date and time given to prepare_151 (creation, last save, writing) is the one written to the file.", "quantifier": "all dates and arguments", "why_tests_cant": "the parameter and the key the writer looks for have different names for the date of writing", "anchors": ["pyuff/datasets/dataset_151.py:47-77", "pyuff/datasets/dataset_151.py:100-211"]}
{"id": "C38", "title": "Round trip of units (164)", "statement": "Writing a well-formed type 164 set and reading it returns code, description, temperature mode and the four factors exactly.", "quantifier": "all values fitting the columns, all doubles", "why_tests_cant": "all values", "anchors": ["pyuff/datasets/dataset_164.py:47-83"]}
{"id": "C39", "title": "Round trip of qualifiers (1858)", "statement": "Writing a well-formed type 1858 set and reading it returns every integer that fits, the nine reals rounded to 8 digits and the two direction strings.", "quantifier": "all values fitting the columns", "why_tests_cant": "all values", "anchors": ["pyuff/datasets/dataset_1858.py:108-251"]}
{"id": "C40", "title": "1858 integers that fit the written column are read back (1858)", "statement": "An octave_format or measurement_run of up to ten digits is read back.", "quantifier": "all integers of at most ten digits", "why_tests_cant": "write width 10 and read width 12 only disagree for large values", "anchors": ["pyuff/datasets/dataset_1858.py:108-251"]}
{"id": "C41", "title": "Round trip of model headers (2400)", "statement": "Writing a well-formed type 2400 set and reading it returns all its fields.", "quantifier": "all values fitting the columns", "why_tests_cant": "all values", "anchors": ["pyuff/datasets/dataset_2400.py:46-98"]}
{"id": "C42", "title": "Round trip of double precision nodes (2411)", "statement": "Writing a well-formed type 2411 set and reading it returns numbers exactly and coordinates bit for bit, for any number of nodes.", "quantifier": "all numbers of nodes, all doubles", "why_tests_cant": "all values", "anchors": ["pyuff/datasets/dataset_2411.py:32-70"]}
{"id": "C43", "title": "Round trip of elements (2412)", "statement": "Writing elements grouped under integer descriptors and reading returns every element with its attributes and nodes, grouped by descriptor in order of first appearance, when no descriptor is a rod other than 11.", "quantifier": "all element lists of any size", "why_tests_cant": "all meshes", "anchors": ["pyuff/datasets/dataset_2412.py:47-133"]}
{"id": "C44", "title": "Round trip of rod elements (2412)", "statement": "Elements with rod descriptors 21 to 24 that were read from a file can be written and read back.", "quantifier": "all rod elements", "why_tests_cant": "the tests read rods but do not write them", "anchors": ["pyuff/datasets/dataset_2412.py:47-133"]}
{"id": "C45", "title": "Round trip of analysis data (2414)", "statement": "Writing a well-formed type 2414 set (data at nodes, elements, or nodes on elements, and the complex frequency response variant) and reading it returns all header records and data.", "quantifier": "all sets of any size whose reals of records 12 and 13 are non-negative with two-digit exponents (11 characters), whose data values take at most 12 characters, and (frequency variant) whose data_type is 5", "why_tests_cant": "all values", "anchors": ["pyuff/datasets/dataset_2414.py:544-851"]}
{"id": "C46", "title": "Negative header reals survive (2414)", "statement": "A negative eigenvalue or other real of records 12 and 13 is read back as written.", "quantifier": "all doubles in records 12, 13", "why_tests_cant": "the test file has only non-negative values", "anchors": ["pyuff/datasets/dataset_2414.py:582-654", "pyuff/datasets/dataset_2414.py:710-800"]}
{"id": "C47", "title": "Every accepted 2414 set is closed", "statement": "A type 2414 set accepted by the writer leaves a complete block in the file.", "quantifier": "all dataset_location values", "why_tests_cant": "location 5 is never written by the tests", "anchors": ["pyuff/datasets/dataset_2414.py:640-707"]}
{"id": "C48", "title": "Round trip of coordinate systems (2420)", "statement": "Writing a well-formed type 2420 set and reading it returns part id and name, labels, types, colours, names, and the 4x3 matrices bit for bit.", "quantifier": "all numbers of systems, all doubles", "why_tests_cant": "all values", "anchors": ["pyuff/datasets/dataset_2420.py:52-110"]}
{"id": "C49", "title": "Prepared groups can be written (2429)", "statement": "A set built by prepare_2429 (or read from a file) can be written with write_sets.", "quantifier": "all groups", "why_tests_cant": "the tests never write 2429", "anchors": ["pyuff/datasets/dataset_2429.py:105-148", "pyuff/datasets/dataset_2429.py:272-320"]}
{"id": "C50", "title": "Group members survive (2429)", "statement": "The entities of a written group are read back, for any number of entities.", "quantifier": "all numbers of entities", "why_tests_cant": "the fault needs a count that is not a multiple of four", "anchors": ["pyuff/datasets/dataset_2429.py:105-180"]}
{"id": "C51", "title": "Round trip of groups (2467)", "statement": "Writing a well-formed type 2467 set with any number of groups, each with any number of entities, and reading it returns all groups with names, set numbers and entities.", "quantifier": "all numbers of groups and entities", "why_tests_cant": "all values", "anchors": ["pyuff/datasets/dataset_2467.py:55-151"]}
{"id": "C52", "title": "prepare_group stores each argument under its own name", "statement": "prepare_group returns every set number it was given under the corresponding key.", "quantifier": "all arguments", "why_tests_cant": "defaults are all zero in the tests", "anchors": ["pyuff/datasets/dataset_2429.py:183-269", "pyuff/datasets/dataset_2467.py:154-250"]}
{"id": "C53", "title": "Reading terminates", "statement": "Reading any block of any type other than 2414, 2429 and 2467 ends, with a result or an exception. For these three the reader ends if no line holds a negative count where the reader takes one. Reading ends for every block whatever the counts are.", "quantifier": "all blocks, all files, all selections of sets", "why_tests_cant": "the last sentence fails for a damaged file with a negative count: the reader visits the same line for ever", "anchors": ["pyuff/datasets/dataset_2429.py:151-180", "pyuff/datasets/dataset_2467.py:104-151", "pyuff/datasets/dataset_2414.py:710-851", "pyuff/datasets/dataset_2412.py:78-136", "pyuff/pyuff.py:324-401"]}
{"id": "C54", "title": "fix_58b terminates and keeps the data sets of a file", "statement": "fix_58b ends on every file. A file whose last line is not '-1' and in which no two '-1' lines follow each other before another line is written out unchanged. In a file made of text data sets, whose bodies hold no '-1' line and end in a line that is neither blank nor a delimiter, the sets keep their number, order, types and bytes up to the line break before the closing delimiter. The payload of a binary set is kept as well.", "quantifier": "all files; for the second part all sequences of text blocks", "why_tests_cant": "the tests use one damaged file; the last sentence fails for a payload whose last byte is a line feed", "anchors": ["pyuff/datasets/dataset_58.py:1504-1563"]}
{"id": "C55", "title": "fix_58b keeps a final delimiter without line break", "statement": "fix_58b applied to a file whose last line is '    -1' without a line break produces a file that ends in that delimiter.", "quantifier": "all such files", "why_tests_cant": "the tests' files end in a line break", "anchors": ["pyuff/datasets/dataset_58.py:1504-1563"]}
{"id": "C56", "title": "Writing is stable: writing what was read gives the same bytes", "statement": "For a data set whose texts have no surrounding blanks and fit their fields, and that has no subnormal number, no negative zero in a complex value, no alternating element descriptors and an abscissa step that is found again, writing the dictionary obtained by reading it back produces the same block byte for byte. Copying a whole file set by set (read_sets, then write_sets to a new file) reproduces the file.", "quantifier": "all such sets of all types but 2429, all files produced by any history of write calls with such sets, any clock, mode and object state at the time of the copy", "why_tests_cant": "all values, all histories", "anchors": ["pyuff/pyuff.py:324-485"]}
{"id": "C57", "title": "prepare functions return what they were given", "statement": "For each prepare_N the result holds type N and exactly the given non-None arguments unchanged (all arguments when return_full_dict). A call is accepted exactly if its arguments have the type the function asks for, and raises otherwise. Every argument is checked.", "quantifier": "all argument tuples", "why_tests_cant": "the last sentence fails: prepare_18 checks nothing, prepare_2467 checks set numbers in place of leaf and component numbers, prepare_2400 rejects arrays", "anchors": ["pyuff/datasets/dataset_15.py:80-155", "pyuff/datasets/dataset_18.py:118-182", "pyuff/datasets/dataset_55.py:541-747", "pyuff/datasets/dataset_58.py:1154-1501", "pyuff/datasets/dataset_82.py:95-160", "pyuff/datasets/dataset_151.py:100-211", "pyuff/datasets/dataset_164.py:86-168", "pyuff/datasets/dataset_1858.py:254-388", "pyuff/datasets/dataset_2400.py:101-208", "pyuff/datasets/dataset_2411.py:73-143", "pyuff/datasets/dataset_2412.py:136-222", "pyuff/datasets/dataset_2414.py:854-1141", "pyuff/datasets/dataset_2420.py:113-203", "pyuff/datasets/dataset_2429.py:183-320", "pyuff/datasets/dataset_2467.py:154-300"]}
{"id": "C58", "title": "Prepared sets can be written", "statement": "A set made by prepare_N (without return_full_dict) from arguments that describe a well-formed content is written and read back with that content. The same holds with return_full_dict.", "quantifier": "all types but 2412 and 2429, all well-formed contents, all files that can be appended to", "why_tests_cant": "the second sentence fails when an argument is left out: None is stored and the writer cannot format it", "anchors": ["pyuff/datasets/dataset_15.py:80-155", "pyuff/datasets/dataset_164.py:47-166", "pyuff/pyuff.py:284-322", "pyuff/tools.py:121-128"]}
{"id": "C59", "title": "Prepared elements are written", "statement": "The elements given to prepare_2412, alone or in the documented form {'type': 2412, 'quad': data}, are written to the file.", "quantifier": "all arguments", "why_tests_cant": "the writer only looks at integer keys", "anchors": ["pyuff/datasets/dataset_2412.py:47-75", "pyuff/datasets/dataset_2412.py:136-221"]}
{"id": "C60", "title": "Converted trace lines can be written", "statement": "The trace lines that convert_dataset_2412_to_82 makes of the quadrilaterals read from a file are written and read back unchanged, if nodes are positive and below 10^9 and neighbouring nodes of an element differ.", "quantifier": "all numbers of elements, all such nodes", "why_tests_cant": "the writer counts the nodes by their differences", "anchors": ["pyuff/tools.py:130-161", "pyuff/datasets/dataset_82.py:44-92"]}
{"id": "C61", "title": "Written blocks have the documented record formats", "statement": "Every set that is written stands in the file as a block of the record formats given by the get_structure texts: the same records, each field in its columns, integers and reals with the value of the set, texts within their record. This holds exactly if elements have one to eight nodes, nodes and elements of 2414 one to six values, and texts are not longer than their record, and never for 1858. In a binary function set the identification line and the header records have the documented columns the values follow as eight-byte numbers in the order of the text format, and the number of bytes on the identification line is eight times the number of points, which is the documented number for real data with even abscissa only.", "quantifier": "all well-formed sets of all types, all files that can be appended to, both modes", "why_tests_cant": "other programs read by columns; the tests read with pyuff only; the claim fails for 1858, long element lines, long texts and the byte counts of complex or uneven binary data", "anchors": ["pyuff/datasets/dataset_1858.py:13-98", "pyuff/datasets/dataset_2412.py:14-75", "pyuff/datasets/dataset_2414.py:14-707", "pyuff/datasets/dataset_58.py:16-195", "pyuff/datasets/dataset_58.py:725-822", "pyuff/tools.py:86-118"]}
{"id": "C62", "title": "Blocks of other programs are read", "statement": "A block that any program has laid out in the documented record formats is read with the values that stand in it: integers and reals anywhere in their columns, exponent letter e or E (for 164, 2411 and 2420 also d or D), any text in its columns, blanks at the ends of lines, Unix or DOS line breaks, delimiter lines with or without 80 columns, line by line mixed. Files of such blocks are listed with their types and every set is read.", "quantifier": "all sets of all types with any number of nodes, elements, groups, points; all such layouts", "why_tests_cant": "the tests read a few sample files; the claim fails, and is refuted, for elements of more than 8 nodes and values on continuation lines, for numbers that fill their columns in the types read by splitting, for lines padded to 80 columns in 18, 55 and double precision 58, and for an empty last group of 2429", "anchors": ["pyuff/datasets/dataset_15.py:59-77", "pyuff/datasets/dataset_2412.py:78-133", "pyuff/datasets/dataset_2414.py:710-851", "pyuff/datasets/dataset_55.py:458-538", "pyuff/datasets/dataset_58.py:1019-1151", "pyuff/tools.py:19-84"]}
{"id": "C63", "title": "Binary function sets of other programs", "statement": "A binary function data set (58b) laid out by any program in the documented form is read with exactly the numbers stored in it, whatever the bit pattern, in either byte order and in single or double precision, alone or among text sets; bytes behind the last number that do not make up a number are ignored.", "quantifier": "all headers, all byte orders, precisions, real or complex, even or uneven, any number of points, every bit pattern of finite and, for real data, also non-finite numbers; Unix and DOS header lines", "why_tests_cant": "measuring systems write such files, the tests have a few samples; refuted for documented double precision sets with uneven abscissas (abscissas are single there), for the announced IBM number format, which is ignored, and for numbers whose bytes look like a delimiter line although the header tells their length", "anchors": ["pyuff/datasets/dataset_58.py:1019-1151", "pyuff/datasets/dataset_58.py:321", "pyuff/datasets/dataset_58.py:780-815", "pyuff/pyuff.py:164-242"]}
{"id": "C64", "title": "prepare functions take the values of the documented fields", "statement": "For every parameter of a prepare function, a value of the kind documented for its field (integer, real, text, one of the listed codes, or a list or array of these) is taken whatever the other arguments are, and a call with a value of another kind or an unlisted code is rejected. This holds for all fields except those listed: analysis_type of 55, the specific data types of 58, units_code of 164, the codes of 1858 and 2400 and the result type of 2414 take other codes than documented; the parameters of 18, modal_m of 55 and six of 58 take any value.", "quantifier": "all types but the groups (2429, 2467), all parameters, all values, all combinations with other arguments", "why_tests_cant": "the tests try a few wrong values; each code list has to be compared with the documentation at both ends", "anchors": ["pyuff/datasets/dataset_55.py:31-75", "pyuff/datasets/dataset_55.py:541-747", "pyuff/datasets/dataset_58.py:46-135", "pyuff/datasets/dataset_58.py:1154-1501", "pyuff/datasets/dataset_164.py:13-29", "pyuff/datasets/dataset_1858.py:11-95", "pyuff/datasets/dataset_2414.py:18-125", "pyuff/datasets/dataset_2414.py:854-1130"]}
{"id": "C65", "title": "a call changes only the file it names", "statement": "In a program with several files and several UFF objects: constructing an object, refreshing, asking and reading change no file; write_sets changes at most the file of its object; fix_58b changes at most its target. The target of fix_58b is the given name, or by default the source name with _fixed inserted before the extension (the last dot of the last path component, unless only dots precede it there), which is never the source itself; a missing source raises and changes nothing. Calls on disjoint sets of files and objects do not influence each other: the outcomes and the files of one part are those of the program with the other part left out.", "quantifier": "all file systems, all sets of objects, all sequences of calls with all arguments, all file names (str)", "why_tests_cant": "two objects on different files are assumed to be independent, and a repair that writes over its source loses the measurement", "anchors": ["pyuff/pyuff.py:89-165", "pyuff/pyuff.py:284-322", "pyuff/datasets/dataset_58.py:1504-1563"]}
{"id": "C66", "title": "history of a file written by several objects", "statement": "In a program that uses any number of files and objects and starts without the file g: if every write_sets call made on g, by whichever object, is well formed, and g is not touched by fix_58b or from outside, then all these calls succeed, and every object newly made for g, and every object of g after refresh, reports and reads exactly the sets obtained by replaying these calls (overwrite starts anew, add appends), whatever the state the objects were in and whatever other calls are interleaved.", "quantifier": "all programs: any interleaving of constructions, refreshes, questions, reads, writes, repairs and outside changes on any number of files and objects", "why_tests_cant": "the file on disk must be a function of the calls and not of the cached state of the objects", "anchors": ["pyuff/pyuff.py:89-165", "pyuff/pyuff.py:284-322", "pyuff/pyuff.py:403-462"]}
{"id": "C67", "title": "reals are read as the nearest double and written as the nearest decimal", "statement": "A real given as text (sign, digits with or without a point, exponent with e or E, blanks around) is read with its sign as the double nearest to its exact value, ties to the even mantissa, beyond the largest double by half a unit as infinity. A finite non-zero double written with %w.pe (p at least 1) has p+1 digits, the first of them not zero, and no number with p+1 digits is nearer to it; ties go to the even last digit. An int used as a real becomes the nearest double.", "quantifier": "all such texts of any length and exponent, all finite doubles, all widths and precisions, all ints", "why_tests_cant": "a reading off by one unit in the last place changes no test but every derived quantity", "anchors": ["pyuff/tools.py:19-83", "pyuff/datasets/dataset_15.py:36-77", "pyuff/datasets/dataset_58.py:960-1008"]}
{"id": "C68", "title": "what a write does to the caller's dictionary", "statement": "After a write of one set, successful or not, the caller's dictionary still has its own keys in their order, with unchanged values except: 'data' (NaN and infinities replaced); for 55 'modal_a' and 'modal_b' (made complex); for 58 'ord_data_type' (only with force_double), 'n_bytes' (only if it was there) and 'abscissa_min' (the first abscissa). Keys are added at the end only, and only documented optional fields with their documented default (for 58 also ord_data_type and abscissa_min). A dictionary without a type is left alone.", "quantifier": "all dictionaries, data set types, modes, files and both values of force_double; also after an exception", "why_tests_cant": "the docstring promises that the dictionary is updated at the caller; a lost or overwritten entry is seen only when the dictionary is used again", "anchors": ["pyuff/pyuff.py:403-482", "pyuff/tools.py:4-17", "pyuff/datasets/dataset_55.py:351-455", "pyuff/datasets/dataset_58.py:827-1016"]}
{"id": "C69", "title": "a written dictionary can be written again", "statement": "A dictionary that was written once (or whose writing failed) is written again, to the same or another file, in the same or another mode and at any later time, with the same bytes, the same exception if any, and without further change of the dictionary. Therefore a list in which one dictionary occurs several times gives the same file as a list of equal but separate dictionaries.", "quantifier": "all dictionaries, types, modes, files, clocks, lists with any repetitions", "why_tests_cant": "the writers change their argument; whether a second use sees another value depends on every key they touch", "anchors": ["pyuff/pyuff.py:284-322", "pyuff/pyuff.py:403-482", "pyuff/tools.py:4-17"]}
{"id": "C70", "title": "an earlier write does not influence a later one", "statement": "Writing a dictionary gives the same file whether or not the dictionary was written before with other options or at another time: force_double=True concerns only its own call, and a header written later bears the later date.", "quantifier": "all dictionaries, both values of force_double, all clocks", "why_tests_cant": "needs two calls with different options on the same dictionary", "anchors": ["pyuff/pyuff.py:403-482", "pyuff/datasets/dataset_58.py:874-890", "pyuff/datasets/dataset_151.py:47-77"]}
{"id": "C71", "title": "which texts are numbers", "statement": "A text is taken as an integer exactly if, after removing white space at both ends, it is an optional sign and digits, in which single underscores may stand between digits; its value is the decimal value. It is taken as a real exactly if it is a decimal (sign, digits with or without a point, exponent) or inf, infinity or nan in any capitals with an optional sign; its value is the nearest double. Every other text raises ValueError. White space is the Unicode list, without U+001C to U+001F for numbers and with them for strip().", "quantifier": "all texts of ASCII digits, letters and any other characters, of any length", "why_tests_cant": "readers decide by these errors whether an optional field is missing; a numeral that is refused or a word that is taken changes the record", "anchors": ["pyuff/tools.py:45-83", "pyuff/pyuff.py:222-233", "pyuff/datasets/dataset_82.py:57-86"]}
{"id": "C72", "title": "which sets are written", "statement": "A set without 'data' (58: with a one-dimensional array or a list of numbers as 'data') is written without an exception exactly if its dictionary has every required field, and every field that is written, given or not required, is of the kind of its format: integers (bool, int, finite float) for %i, reals (float, bool, int below the range of doubles) for %e, texts without surrogates, None, bool or int for %s, complex or real numbers where both parts are written, texts that int takes where the writer converts; columns have at least as many entries as the column that counts the rows. The required fields of each type are listed in the theorems. A group of 2429 with 2, 3 or 7 entities is never written; the set numbers of a group of 2467 are required although the writer has defaults for them; analysis types other than 2, 3, 5 and 7 are never written to 55. For 58 'orddenom_spec_data_type' is required although it is documented as optional, at least two abscissas are needed, and for uneven spacing as many abscissas as data; with force_double any 'ord_data_type' will do.", "quantifier": "all dictionaries with any further entries, any values of any kinds, any lengths of columns; all modes and files", "why_tests_cant": "the documentation lists fields as optional or required; the tests write complete sets only", "anchors": ["pyuff/datasets/dataset_15.py:36-56", "pyuff/datasets/dataset_18.py:45-73", "pyuff/datasets/dataset_55.py:351-455", "pyuff/datasets/dataset_58.py:827-1016", "pyuff/datasets/dataset_82.py:46-76", "pyuff/datasets/dataset_151.py:47-77", "pyuff/datasets/dataset_164.py:47-65", "pyuff/datasets/dataset_1858.py:108-167", "pyuff/datasets/dataset_2400.py:46-78", "pyuff/datasets/dataset_2411.py:32-48", "pyuff/datasets/dataset_2412.py:47-75", "pyuff/datasets/dataset_2414.py:544-707", "pyuff/datasets/dataset_2420.py:52-75", "pyuff/datasets/dataset_2429.py:105-148", "pyuff/datasets/dataset_2467.py:55-102"]}
{"id": "C73", "title": "optional fields may be left out", "statement": "A set that is written is still written when any of the fields documented as optional are left out.", "quantifier": "all sets of the types whose documentation marks fields as optional (15, 55, 58, 82, 151, 164, 2412), all choices of fields left out, all modes and files", "why_tests_cant": "the tests give every field; fails for 'orddenom_spec_data_type' of 58, for which the writer has no default, and for 'color' of 2412", "anchors": ["pyuff/datasets/dataset_15.py:95-97", "pyuff/datasets/dataset_55.py:576-605", "pyuff/datasets/dataset_58.py:1220-1289", "pyuff/datasets/dataset_58.py:930-942", "pyuff/datasets/dataset_82.py:109-110", "pyuff/datasets/dataset_151.py:123-132", "pyuff/datasets/dataset_164.py:109-110", "pyuff/datasets/dataset_2412.py:54-63", "pyuff/datasets/dataset_2412.py:156"]}
{"id": "C74", "title": "values stand for the numbers and texts Python gives them", "statement": "What the writers put into a field is the value's number or text: an integer field takes the whole part of a float and 1 or 0 of a truth value, a real field the nearest double of an integer, a text field the plain decimal notation of an integer and the word None; tests and comparisons treat equal numbers alike, a list becomes an array of the one kind that holds all its entries with their numbers kept, and negative positions count from the end.", "quantifier": "all values of the model, all numbers, lists and positions", "why_tests_cant": "every other theorem is stated with these values, so their meaning must not rest on the model; the nearest double is shown to be unique", "anchors": ["pyuff/datasets/dataset_2411.py:40-42", "pyuff/datasets/dataset_55.py:381-398", "pyuff/datasets/dataset_58.py:879", "pyuff/datasets/dataset_2414.py:832", "pyuff/datasets/dataset_151.py:64-72"]}
{"id": "C75", "title": "prepared analysis data at nodes and elements can be written", "statement": "A set made by prepare_2414 for data at nodes, at elements or at nodes on elements (locations 1, 2, 3, any analysis type but 5) can be written.", "quantifier": "all arguments that prepare_2414 accepts", "why_tests_cant": "the data of a node is stored under d, which the writer never reads, and element numbers are no argument", "anchors": ["pyuff/datasets/dataset_2414.py:660-705", "pyuff/datasets/dataset_2414.py:854-1140"]}
{"id": "C76", "title": "an object knows its own file only", "statement": "In a program with any number of files and objects, the index an object answers from is empty or that of a content which its own file had (or began with) at some moment of the program. Once an object has an index, questions and readings change neither it nor any file, whether they succeed or fail, and the answers are those of the index whatever happened to the file since. An object without index looks at the file at the first question or reading. refresh makes the index that of the file if the file has a set.", "quantifier": "all programs: any sequence of constructions, refreshes, questions, reads, writes, repairs and outside changes, failing ones included", "why_tests_cant": "the state that a failing read or a half-finished write leaves in the object shows only in later calls", "anchors": ["pyuff/pyuff.py:89-165", "pyuff/pyuff.py:164-282", "pyuff/pyuff.py:403-482"]}
{"id": "C77", "title": "an object reports the name and the existence of its file", "statement": "In a program with any number of files and objects, the name an object reports is the one given at its last construction: 'filename', or 'fileName' if the first was not given; without either no object is made (AttributeError). Its question whether the file exists is answered 'yes' exactly when the file was there at the start or was made by a call since - by a writing call with something to write and a known mode, even one that failed in its first set, by a successful repair with this target, or from outside - and was not deleted from outside after that.", "quantifier": "all programs over any number of files and objects, starting without objects", "why_tests_cant": "file_exists() is what callers check before they read", "anchors": ["pyuff/pyuff.py:89-116", "pyuff/pyuff.py:145-155", "pyuff/pyuff.py:284-322", "pyuff/pyuff.py:403-482"]}
{"id": "C78", "title": "A file that cannot be opened", "statement": "A call that raises because a file cannot be opened leaves every file and the index of every object as it was (refresh only marks the object as not refreshed). A file that may not be written keeps its content in every program. Questions of an up-to-date object are answered without access; every other question, reading, construction and repair that needs the file raises. With the rights a call needs, it behaves as if there were none.", "quantifier": "all programs, all rights (which may change between calls), all files and objects", "why_tests_cant": "the code catches every failing open and raises its own Exception", "anchors": ["pyuff/pyuff.py:164-243", "pyuff/pyuff.py:266-282", "pyuff/pyuff.py:348-351", "pyuff/pyuff.py:418-482", "pyuff/datasets/dataset_58.py:1513-1563"]}
{"id": "C79", "title": "The message about a missing key is right", "statement": "When writing a set of type 15, 18, 55, 58, 82, 151, 164 or 2400 raises \"The required key 'k' not present when writing data-set #N\", then k is one of the keys documented as required for type N (none for 2400) and the dictionary the caller passed has no key k. Conversely, if a refused dictionary would be written once a required key k it lacks is added, the message names exactly k. A caller who keeps adding the key that is named is asked for no key twice, and for at most as many as the type requires.", "quantifier": "all dictionaries of these types, all keys and added values, all files, modes, objects and clocks", "why_tests_cant": "the message is the only hint a caller gets about what to add; every writer catches KeyError for it", "anchors": ["pyuff/datasets/dataset_15.py:36-56", "pyuff/datasets/dataset_18.py:45-73", "pyuff/datasets/dataset_55.py:351-455", "pyuff/datasets/dataset_58.py:827-1016", "pyuff/datasets/dataset_82.py:46-76", "pyuff/datasets/dataset_151.py:47-77", "pyuff/datasets/dataset_164.py:47-65", "pyuff/datasets/dataset_2400.py:46-78"]}
{"id": "C80", "title": "failures carry the library's own messages about the right set", "statement": "write_sets raises nothing but: 'Nothing to write' for an empty list, 'Unknown mode' for a mode that is neither 'overwrite' nor 'add' in any case, or a message about the first dictionary that was refused, those before it having been written. That message says that the dictionary has no type, or carries the number of the dictionary's own type, and if it names a key, that type requires the key and the dictionary lacks it. read_sets raises only 'Cannot read from a non-existing file', when the file does not exist, and 'Error when reading data-set(s).'.", "quantifier": "all lists of dictionaries, modes, files, objects and selections; what the model leaves open (Unmodelled, and reading that never ends, C53) excepted", "why_tests_cant": "callers rely on one kind of exception and on the number in it; each of the fifteen writers spells its own number", "anchors": ["pyuff/pyuff.py:245-322", "pyuff/pyuff.py:403-482", "pyuff/datasets/dataset_15.py:52-56", "pyuff/datasets/dataset_2411.py:47-48", "pyuff/datasets/dataset_2420.py:75-76"]}
{"id": "C81", "title": "get_supported_sets and get_status tell the truth", "statement": "The decimal text of a type number is in the list of get_supported_sets exactly if sets of that type are read, and exactly if they are written (other types are passed over). get_status is True after a construction or refresh exactly if the file exists, and that is what refresh returns; a question about the sets or a reading makes it True if the file exists and leaves it otherwise; a writing call leaves it True exactly if it was or at least one set was written; nothing else changes it. Once True it stays so until a construction or refresh finds no file, also when the file is deleted or changed from outside. A set may be given its type as the list spells it - refuted: such sets are silently not written.", "quantifier": "all type numbers; all worlds of files and objects, all calls, all programs", "why_tests_cant": "the list is kept by hand beside two dispatch chains; the status decides whether the index is rebuilt", "anchors": ["pyuff/pyuff.py:65", "pyuff/pyuff.py:89-162", "pyuff/pyuff.py:164-243", "pyuff/pyuff.py:366-401", "pyuff/pyuff.py:444-482"]}
{"id": "C82", "title": "One copy settles a file", "statement": "What has been read is kept by further copying, whatever blanks surrounded the texts of the original sets, however far the texts exceeded their fields, in whatever order the elements stood and however small the numbers were: the dictionary that was read is written, at any time and in any mode, as one and the same block, and that block is read as the dictionary. All the sets of a file, written to a new file, give one file that is read as the same sets, so every further copy of it is that file.", "quantifier": "all sets of all types but 2429, subnormal numbers included, without negative zeros in complex values and, in type 58, with an abscissa step that is found again; all files produced by any history of write calls with such sets; any clock, mode and object state at the time of the copies", "why_tests_cant": "files are read, changed and written again and again; losses must not add up", "anchors": ["pyuff/pyuff.py:324-485", "pyuff/tools.py:19-84"]}
