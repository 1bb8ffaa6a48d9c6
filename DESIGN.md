# Formal model of dynareadout in Rocq/Coq 8.16.1

(The table "Status per property" is generated from properties.jsonl and MANIFEST.json.)

## Conventions

* Model files (`theories/*Model.v`) contain only computable Gallina definitions. Every definition
  cites the file and lines of /repo it models, and states simplifications.
* Spec files (`*Spec.v`) contain the small independent vocabulary used in theorem statements.
* Proof files (`*Proofs.v`, `KeyParseLow`, `KeyParseAbs`, `CardType`, `CardFloat`, `CardIeee`) contain lemmas.
  `Prop*.v` files contain the property theorems, examples that meet their hypotheses with concrete
  files, plots or programs, and `Print Assumptions`. `D3Sample`, `D3Rich` are complete sample plots.
* Bytes are `Z` in 0..255, C strings are lists of non-zero bytes with an implicit NUL, arrays are
  lists. 64-bit words are `Z`; `mod 2^64` is written out where wrap-around matters.
* Undefined behaviour (access outside of an object, use of freed or uninitialised memory, `memcpy` with
  an underflowed length or overlap, failed `assert`) is a distinct outcome `UB` of the `res` monad of
  `CBase.v`; running out of fuel is distinct too, and theorems quantify over the fuel or bound it by
  the size of the input.
* If a property is false of the code the theorem is named `..._refuted`, with a witness; beside it a
  theorem `..._partial` states the property under the weakest condition we could prove, and
  `..._all_operations`/`..._exact` theorems show that nothing else is excluded.

## Plan per group of properties

| properties | what is modelled | how it is proved |
|---|---|---|
| C01 C02 | `SearchModel`: one three-way binary search, instantiated for words, names and path views; `d3plot_index_for_id` | induction on the interval length; spec `SearchSpec` (sorted, first/last position) |
| C03 C04 | `PathModel`: `path_view_*` over index records | induction on the rest of the string against a splitting function; C04 refuted for bytes >= 128 |
| C05 C06 | `PathModel`: `path_join`, `path_move_up` with index arithmetic and bounds | list lemmas; refutations for relative and empty paths |
| C07 | `StringModel`: string builder with capacity and cells | invariant over the list of operations |
| C08 | `StringModel`: `extra_string` as 82 cells and a heap tail | case analysis at the boundary |
| C09 C10 | `LineModel`: `read_line` as a machine over chunks and junk memory | loop invariant; the spec is the list of lines of the file, so independence of the chunk size follows |
| C11 | `KeyTableModel`: parse callback with search, shift and growth | invariant over the event list: stable insertion sort (`KeyTableSpec`) |
| C12 C13 | `KeyTableModel`: `key_file_get(_slice)` with bounds | characterisation by runs of equal names |
| C14-C16 | `CardModel`, `CardType`, `CardFloat`: field cursor with uint8 arithmetic, integer/float/type automata | induction on the field text against grammars (`CardSpec`); floats in Q, rounding with an abstract rounding function |
| C17 C18 | `CardModel`: `card_parse_begin/next/done`, string fields | induction over fields |
| C19-C21 | `KeyParseModel`: `key_file_parse_with_callback` with a file system oracle, recursion fuel and the 1024-byte message buffer | refinement in two steps (`KeyParseLow`: lines; `KeyParseAbs`: keyword structure), then an inductive meaning `plays` of includes |
| C22 | `TransformModel`: `include_transform.c` | field-wise, for every number of cards |
| C23 C24 | `BinDirModel`: sorted children arrays, insertion, lookup | refinement to the list of recorded paths (`BinDirSpec.records`) |
| C25-C29 | `BinModel`: record codec, header checks, CD resolution, file cleanup, typed reads | round trip from `BinSpec` records; induction over records and files |
| C30-C32 | `TimedModel`: number of time steps, timed reads, simple paths | induction over children; relational specification `simple_path_meets` |
| C33 C34 C49 C50 | `MultiModel`: `multi_file` as a labelled transition system of threads and a mutex | invariant over all traces |
| C35-C37 C52 | `D3BufModel`: `d3_buffer`, file family probing | induction on the list of files; concatenated bytes as specification |
| C38 C53 C39 C40 C51 C54 C71 | `D3Model`: `d3plot_open` from the control words to the state table, with UB and error outcomes | arithmetic on section tables, induction over states; C71 inverts a successful open without assuming a well-formed file |
| C41-C43 C56 C57 C61 | `D3ReadModel`, `D3PartModel`: id, connectivity, part and title readers | induction over elements; word lists of the file as specification |
| C44 | `D3PartModel`: `_insert_sorted` merging with realloc moving or not | exact condition for two tables, counterexamples |
| C45 C46 C58 C59 C60 | `D3ElemModel`: element state readers and means | member by member at the documented offset; sums for the means |
| C47 C48 C55 | `D3ReadModel`: nodal vectors and times | word lists of the states |
| C62-C66 | `CppArrayModel`: Array, String, SizedString on a heap of blocks | simulation between heap programs and value programs; leak freedom by exact ownership |
| C67-C70 | `CppKeyModel`: Card, Keyword, KeywordSlice, Keywords | the same, on top of C13-C18 |
| C72-C74 | `CppPartModel`, `CppPartNodesModel`: D3plotPart | generic ownership machine `OwnModel`/`OwnProofs`, values in `CppPartSpec` |
| C75 | `CppTitleModel`: title trimming | list lemmas |
| C76-C79 | `CppTransformModel`: IncludeTransform, DefineTransformation | `OwnProofs` simulation, values in `CppTransformSpec`, programs over values in `OwnSpec` |
| C80-C83 | `HandleModel`: D3plot, Binout, their exceptions and strings, blocks of memory | simulation `hstep_ok` against the values of `HandleSpec`; texts lent by a handle carry their lender |
| C84-C85 | `PyBinoutModel`: the Python class Binout on top of the C++ wrapper and the C functions | composition of C23-C32; sorting by insertion |
| C86-C89 | `PyCardModel`, `PyArrayModel`, `PyLifeModel`: the Python classes of key files, arrays and strings, and which object frees which memory | field grammar of C15-C18; induction over indices; simulation invariant between objects and the values they stand for |
| C90 | `ElemMemModel`: the readers of element states with their malloc and free calls and the functions that free the results | both versions of a reader run in lockstep; the heap is the old one with four new blocks |
| C91 | `CppStateModel`: programs with arrays of shells and thick shells, mean surfaces and arrays of numbers on a heap, built on `ElemMemModel`; specification: values without memory | simulation: every object represents its value, the blocks of the objects are disjoint and cover the live blocks; the refutations run the model symbolically for every plot |
| C92 | `ProfModel`: contexts with a heap of blocks of sections, begin and end of a section, programs as trees of calls with clock readings, END_PROFILING with the quick sort, printing and freeing; specification: `ProfSpec`, a recursion over the calls | the heap represents a forest with sorted distinct names; induction over the calls with a frame condition for the blocks and the current section; the sort, print and free recursions by induction on fuel |
| C96 | KeyParseModel, KeyTableModel, CardModel composed; a writer of key files (KeyWriteSpec) | the lines of the written text and their sections are computed by induction over the blocks, then C19, C11, C12, C14, C17 apply |
| C95 | BinModel, TimedModel, PyBinoutModel composed: from the bytes of the files to the answers | the history of directory insertions is computed from the records (BinProofs), it determines the directory (FilesProofs), so C23, C24, C30, C31, C84 apply |
| C94 | D3FloatModel: the _32 readers, the conversion from double to float on bit patterns | integer arithmetic in units of 2^-1074: rounding to a multiple of the unit is nearest among all floats; the readers by those of D3ReadProofs |
| C97 | `KeyMemModel`: the same callback as KeyTableModel with memory as a list of blocks: strings, arrays of cards, arrays of keywords; realloc always moves | simulation: every keyword of the table has a description with its blocks, the blocks are distinct and are all the new live ones; step lemmas for a new keyword and a new card |
| C98 | `D3SeqModel`: d3_buffer.c and multi_file.c compiled with NO_THREAD_SAFETY: which files are open, a limit on their number, fopen failing at the limit | simulation with `D3BufModel` (C35, C36) under the invariant that exactly a window of files is open; the moves of the window are computed |
| C100 | the models of C53 to C59 composed; a writer of d3plots (D3WriteSpec) | the positions of all written words are computed from lengths, the control words give back the counts, the states are found by induction over files and states; then C53, C54, C41, C48, C55 to C59, C45, C46 apply |
| C101 | the Windows branch of binout_glob.c on blocks of bytes | byte-wise: the copies build folder ++ name ++ NUL |
| C102 | the readers of d3plot.c and pgni.h again with malloc, realloc and free on a heap of blocks | simulation: with memory like without; a separation-like predicate for what is left, composed over the calls |
| C103 | the readers of binout.c and binout_read.c again with malloc, realloc and free; a client with any calls and frees | simulation: with memory like without; the frame of C102; induction over the calls |
| C104 | the readers of D3plot (d3plot.cpp) over the C readers with their memory: error check, exception, Array/String/part objects and destructors | simulation over C102: the objects hold what the calls leave; permutation of the destructors |
| C105 | the readers of Binout (binout.cpp) over the C readers with their memory: error check, exceptions with a view or a message of their own, Array and time step objects | simulation over C103; permutation of the destructors |
| C107 | `CppTimeModel`: both C functions for the run time (localtime as a parameter), the conversion of seconds to a time point of 64 bit nanoseconds | from C57 and C100; range of the product |
| C106 | the texts of the error strings of buffer and plot beside D3BufModel/D3ReadModel, every sprintf with its array (1024, 50 bytes); file type names | simulation of the readers without texts; induction over the calls behind an error |
| C99 | `CardModel` with the arithmetic of `CardIeee`: every operation rounded to p bits, to nearest, ties to even, without bounds on the exponent | the rounding on Q is proved to be nearest; sums of digits are exact below 2^p, two roundings remain |
| C93 | as C92 | the quick sort by its partition invariant; the refutations are runs of the model |

## Status per property

Theorem names and status as in MANIFEST.json. "partial" always means that the unrestricted English
claim is false of the code (a `_refuted` theorem gives the input) or that the note says what is missing.

| id | property | status | theorems | what is missing |
|---|---|---|---|---|
| C01 | Sorted lookup finds exactly the present element | partial | word_lookup_exact, name_lookup_exact, name_lookup_duplicates, index_for_id, index_for_id_empty_refuted | Proved for every non-empty and, for names, every empty table. Missing because false of the code: d3plot_index_for_id on an empty id table reads ids[0] (C01_index_for_id_empty_refuted). |
| C02 | Sorted insertion point is the right one | proved | word_insertion_point, name_insertion_point, name_insertion_point_duplicates |  |
| C03 | Path iteration yields exactly the elements between separators | proved | path_iteration, text_copied, is_absolute |  |
| C04 | Path element comparison agrees with string comparison | partial | element_equality, element_order_partial, entry_lookup_partial, entry_lookup_refuted | Equality proved for all names; order and entry lookup for 7-bit names. False of the code for bytes >= 128 (signed against unsigned comparison): C04_entry_lookup_refuted. |
| C05 | Joining two paths puts exactly one separator between them | partial | join_elements, join_one_separator, join_empty_refuted, join_root_refuted | Proved for every left operand that is neither empty nor the root; both exceptions are refuted: out-of-bounds read, two separators. |
| C06 | Moving up a path yields the parent directory | partial | move_up_parent, move_up_root, move_up_relative_refuted | Proved for absolute paths; false for relative ones (C06_move_up_relative_refuted). |
| C07 | The string builder holds the concatenation of everything appended | proved | builder_concatenates, builder_c_string, clone, clone_len |  |
| C08 | Long-line strings behave like ordinary strings | partial | get, set, set_defined, compare_partial, compare_long_refuted, starts_with_partial, starts_with_long_refuted, copy_partial, copy_underflow_refuted, copy_to_string | Every operation proved for texts that stay on one side of the 82-character inline buffer or are compared below it; refuted: comparing two texts of 82+ characters, a long proper prefix, copies whose length underflows. |
| C09 | Line reading does not depend on the buffer size | partial | lines_partial, lines_any_size, chunk_independent_partial, multiple_refuted, garbage_refuted | Proved for every file size that is not a multiple of the chunk size and memory without line feeds in it; both exceptions are refuted (an extra empty line; a line split by garbage). C09_lines_any_size says what happens for the remaining sizes. |
| C10 | The comment position is the first '$' of the line | proved | comment_position |  |
| C11 | Parsed keywords are sorted by name and stable | partial | keywords_stable_sorted, keywords_permutation, keywords_defined_partial, third_duplicate_refuted | Order, stability and permutation proved for every event sequence that ends; missing because false of the code: three equal names that are the greatest so far read behind the table (C11_third_duplicate_refuted). |
| C12 | key_file_get returns the index-th keyword of a name | partial | get_present, get_absent_partial, get_absent_refuted | Present keywords: proved for all. Absent ones: except for asking behind the last run of the table, which reads behind it (C12_get_absent_refuted). |
| C13 | key_file_get_slice returns the whole run of a name | partial | slice_partial, slice_absent, slice_first_refuted | Proved for every run that does not start at index 0 without being hit by the search; that case loses a keyword (C13_slice_first_refuted). |
| C14 | Integer fields parse to their decimal value | partial | int_fields_partial, int_sound, int_blank, int_foreign, odd_fields_refuted, overflow_refuted | Proved as an exact characterisation for fields of at most 18 characters; wider ones can overflow (C14_overflow_refuted); a lone '-' and trailing words are accepted (C14_odd_fields_refuted). |
| C15 | The reported type of a field predicts which parser accepts it | partial | type_meaning, int_accepted_partial, float_accepted_partial, blank_is_string, plus_refuted, exponent_refuted | The meaning of every type is exact (C15_type_meaning). The implication 'reported INT/FLOAT => parser accepts' fails for '+5' and for wide exponents (refuted) and is proved for all other fields. |
| C16 | Float fields parse to their decimal value | proved | float_exact, float_rounded, float_accepted_only, float_defined, whole, float_double |  |
| C17 | Iterating over a card visits every field exactly once | partial | iteration_partial, short_card_refuted, at_end, last_field | Proved for cards whose length is a multiple of the width; otherwise the iteration passes the end (C17_short_card_refuted). The end and the last fields of longer cards: C17_at_end, C17_last_field. |
| C18 | String fields are trimmed on both sides only | partial | string_trimmed, trimmed_unique, whole_trimmed, is_empty, no_trim_partial, no_trim_short_refuted | Trimmed variants proved for all fields; the untrimmed variant reads behind a card that is shorter than the field (C18_no_trim_short_refuted). |
| C19 | The callback sequence is the keyword/card structure of the file | partial | events_partial, table_partial, empty_file_refuted, comment_file_refuted, nameless_refuted, long_line_refuted | Proved for every file of keywords and cards in the sense of KeyParseSpec; refuted: empty and comment-only files, nameless keywords, lines of 82 characters with an indented keyword. |
| C20 | Continued file names are joined | partial | names_partial, one_character_refuted, stale_name_refuted, comment_refuted | Proved for names of two or more characters that are completed and not followed by a comment; the three exceptions are refuted. |
| C21 | An INCLUDE is replaced by the callbacks of the first matching file | partial | includes_partial, root_folder, meaning_unique, self_include_refuted, absolute_name_refuted, long_message_refuted, missing_file, error_no_keywords, message_limit | Proved for every include structure that has a meaning (finite derivation [plays], unique by C21_meaning_unique); refuted: self inclusion, absolute names, messages longer than the 1024-byte buffer. |
| C22 | INCLUDE_TRANSFORM and DEFINE_TRANSFORMATION fields end up in the right members | partial | include_transform_partial, define_transformation_partial, short_card_refuted, plus_refuted, big_float_refuted, blank_is_default | Proved for every number and content of padded cards with exact arithmetic for floats (rounding: C16_float_rounded); refuted: unpadded cards, '+' signs, floats that do not fit. |
| C23 | The binout directory behaves like a map from paths to variables | partial | lookup_partial, frame_partial, variable_over_folder_refuted, folder_below_variable_refuted, double_separator_refuted, non_ascii_refuted | Proved for every history without a variable that is also a folder, with 7-bit names and single separators; each exception is refuted. |
| C24 | Directory listings are sorted and duplicate free | partial | listing_partial, unknown_below_empty_refuted | Exact for every path: the root and recorded folders are listed with their entries, for other paths the result is computed (nothing, or the refuted case: paths below an empty folder are listed as existing and empty). |
| C25 | Reading a binout variable returns the recorded bytes | partial | read_back_partial | Proved for up to 256 files of well-formed records, the unusable files (if any) being the last ones; the general case is false of the code, see C28. |
| C26 | Typed reads reject every mismatch | partial | typed_read_partial, messages, size_not_reset_refuted, long_path_refuted | Proved for every directory and path shorter than the message buffer; refuted: *data_size is not reset on failure; long paths overrun the message buffer. |
| C27 | CD records navigate like directories | partial | navigation_partial, above_root_refuted, back_to_root_refuted, cd_root_refuted, absolute_up_refuted | Proved for every sequence of CD records that never leaves the root and does not return to it; the exceptions are refuted. |
| C28 | Variables stay bound to the file they were read from | partial | rejected_last_partial, cleanup_index_partial, broken_first_refuted, wrong_file_refuted, many_files_refuted | Proved when the rejected files are the last ones; false otherwise (swap with the last file keeps stale indices; 8-bit file index): C28_broken_first_refuted, C28_wrong_file_refuted, C28_many_files_refuted. |
| C29 | Broken headers and truncated records are reported | partial | broken_header_partial, no_files, truncated_partial, endless_refuted | Proved for every broken header and every truncation, with the exact messages; refuted: a record of length 0 makes the record loop spin for ever. |
| C30 | The number of timesteps is the number of d-folders | partial | count_partial, between_refuted, variable_first_refuted | Proved for folders without variables of their own whose entries beginning with 'd' are all time steps; both exceptions are refuted. |
| C31 | Timed reads return one row per timestep in order | partial | regular_partial, direct_partial, overflow_refuted, shorter_refuted, position_refuted, type_refuted, garbage_refuted, not_timed, messages, missing_partial | Proved for regular time steps (any type, any nesting) and for variables directly inside of the steps; refuted: more or fewer values than in the first step, nested variables at another position, types, unknown path elements. |
| C32 | Simple paths resolve to an existing variable | partial | resolution_partial, sound_partial, existing_partial, d_variable_refuted, metadata_variable_refuted, folder_refuted | Resolution is characterised exactly for every directory whose entries named like a time step or 'metadata' are folders; refuted otherwise; success can also denote a folder (C32_folder_refuted). |
| C33 | No two threads ever share a file handle | proved | exclusive, isolated_read, isolated_tell |  |
| C34 | The number of open handles is bounded by the concurrency | proved | bound, reuse | Counterexamples outside of the stated domain: C34_failures_refuted, C34_reuse_refuted. |
| C35 | Reading words does not depend on how the data is split into files | proved | reads, split_independent, skip | Counterexamples outside of the stated domain: C35_position_refuted. |
| C36 | Reads and seeks outside of the data are errors | proved | seek, read, read_at, skip | Counterexamples outside of the stated domain: C36_wrap_refuted, C36_close_after_error_refuted. |
| C37 | Word size detection is unambiguous | proved | word_size, little_endian, little_endian_range |  |
| C38 | Decimal digit extraction is exact | proved | digit |  |
| C39 | Geometry sections are consecutive and disjoint | proved | tables |  |
| C40 | State data pointers partition the state | partial | state_tables, disagreement_rejected, globals_refuted | Tables are proved consecutive for all supported plots, disagreeing node data are rejected; refuted: too few global variables drop all states without an error. |
| C41 | Element connectivity is returned zero based | proved | solids, thick_shells, shells, beams |  |
| C42 | A part contains exactly the elements that refer to it | proved | part, no_elements, members |  |
| C43 | Part node ids are the sorted set of nodes of its elements | proved | node_indices, node_ids, num_elements | Counterexamples outside of the stated domain: C43_foreign_part_refuted. |
| C44 | All element ids are the sorted union of the id tables | partial | all_ids_partial, ascending, permutation, part_ids_partial, two_types_exact, interleaved_refuted, overlap_refuted, moved_refuted, plot_refuted | False in general: proved for tables that can be merged one after the other (exactly characterised for two tables by C44_two_types_exact), every returned array is a permutation; refuted for interleaved ids (unsorted), overlapping memcpy and moved arrays (undefined behaviour). |
| C45 | Solid state values are assigned to the right element and member | proved | numbers, solids, mismatch, none, outside | Counterexamples outside of the stated domain: C45_overrun_refuted, C45_unset_refuted. |
| C46 | Shell state values are assigned to the right element and member | proved | shells, mismatch, none, outside | Counterexamples outside of the stated domain: C46_overrun_refuted, C46_other_strains_refuted, C46_few_points_refuted. |
| C47 | Node coordinates of displacement plots are initial coordinates plus displacement | partial | displacements_refuted, coordinates_partial | False of the code: plots announcing displacements are rejected at open (C47_displacements_refuted). In every plot that opens nothing is added (C47_coordinates_partial). |
| C48 | State times are the first word of the states in order | proved | time, outside, all_times |  |
| C49 | Concurrent access to a file never deadlocks | proved | no_deadlock |  |
| C50 | Closing a file closes every handle exactly once | proved | close |  |
| C51 | Opening a d3plot has no undefined behaviour | partial | open_partial, short_file_refuted, unreadable_refuted, long_name_refuted, single_file_refuted, short_control_refuted, extra_refuted | False in general: the refuted theorems show which inputs lead to undefined behaviour; C51_open_partial and C53 (supported plots) show where there is none. |
| C52 | A d3plot family is the root file and its numbered successors | proved | family, missing, missing_reported, unclear_reported |  |
| C53 | Control data are the words at the documented positions | proved | finds_family, control_data, signed, end_marker, flags |  |
| C54 | The states found are exactly the complete states of the files | proved | states, states_apart | Counterexamples outside of the stated domain: C54_last_state_refuted. |
| C55 | Nodal vectors are the stored vectors of the state | partial | vector, absent, outside, all_states, all_states_absent_refuted | Proved for all single-state readers and, for vectors that exist, the all-states readers; an all-states read of an absent vector returns other words (C55_all_states_absent_refuted). |
| C56 | Ids are the words of the id tables | partial | ids, no_ids_refuted | Proved for every plot with an id section; without one the ids are the words of the title (C56_no_ids_refuted). |
| C57 | Part ids, part titles, title and run time are those of the header | partial | part_ids, part_ids_of_titles, no_part_ids, part_titles, title_run_time, no_parts_refuted | Proved for every supported plot with part ids or titles; without parts an uninitialised pointer is closed (C57_no_parts_refuted). |
| C58 | Thick shell state values are assigned to the right element and member | proved | thick_shells, strains_known, mismatch, none, outside | Counterexamples outside of the stated domain: C58_overflow_refuted. |
| C59 | Beam state values are assigned to the right element and member | proved | beams, mismatch, none, outside |  |
| C60 | Mean values are the means over all integration points | proved | shell, thick_shell, shells_of_state | Counterexamples outside of the stated domain: C60_few_points_refuted. |
| C61 | A part is found by its id | proved | by_id, unknown, no_parts | Counterexamples outside of the stated domain: C61_unsorted_refuted. |
| C62 | Arrays of the C++ API are values | partial | values_partial, all_operations, self_assignment_refuted, view | Proved for every program without self-assignment; a = a loses the values (refuted). C62_all_operations: nothing else is excluded. |
| C63 | Destroyed arrays leave no memory behind | partial | no_leak_partial, assignment_leaks_refuted | Proved for every program without assignments onto arrays that hold values; these leak (refuted). |
| C64 | The per-time-step arrays are the time steps and are freed exactly once | partial | time_steps, freed_once, first_owns_refuted | Contents and single release proved; refuted: the arrays are not values on their own, the first one owns the memory of all. |
| C65 | String comparisons compare the characters | partial | string, sized, sized_sized, std_partial, std_nul_refuted, mixed_exact, mixed_partial, mixed_sound, mixed_refuted | Proved for all same-kind comparisons; std::string without NUL; String against SizedString characterised exactly (C65_mixed_exact), which is not equality for strings longer than 32 characters (refuted). |
| C66 | Characters of a string are accessed safely | partial | string_at, range_for_refuted | Indexing proved; a range-for over a String never stops at its end (refuted). |
| C67 | Parsing an integer field as a C++ type gives its value or throws | partial | int_partial, in_range, no_integer_refuted | Proved for every field with an integer below 2^63 and every target type; a field without an integer gives 0 instead of throwing (refuted). |
| C68 | Parsing a whole card reads every field from its columns | partial | whole_partial, default_partial, throws, short_card_refuted | Proved for cards that contain the columns asked for; a card that ends inside a field is read past its end (refuted). |
| C69 | A copied card is independent, a card of a keyword is a view | partial | cards_partial, no_leak_partial, self_assignment_refuted, moved_refuted, assignment_leaks_refuted | Proved for every program without self-assignment, use after move, and (for leaks) assignment onto an owned copy; all three refuted. |
| C70 | Looking up keywords gives exactly the keywords of that name | partial | slice_partial, absent_partial, long_name_refuted, name_ends_at_nul, first_refuted, cards, empty_slice_refuted | Proved for names up to 990 characters and runs that do not start the table; refuted: longer names, the first run, public constructor with an empty range. |
| C71 | A d3plot that opens without an error is consistent | proved | opened_is_consistent, header_is_complete |  |
| C72 | Parts are values | partial | values_partial, all_operations, copy_shares_refuted, self_assignment_refuted | Proved for every program that copies no part with thick shells and assigns no part to itself; both refuted. |
| C73 | Destroying parts gives back all their memory | partial | no_leak_partial, copy_leaks_refuted, assignment_leaks_refuted | Proved for every program without copies and without assignments onto parts with elements; both leak (refuted). |
| C74 | The nodes of a part do not depend on the tables a caller passes | partial | nodes_partial, throws, thick_for_solid_refuted, wrong_nodes_refuted | Proved if no thick shell connectivities are passed or the part has no solids; otherwise the wrong table is used (refuted). |
| C75 | Titles are returned without their trailing blanks | partial | title_partial, part_titles_partial, throws, cut_refuted, no_blank_refuted, part_no_blank_refuted | Proved for titles of one word followed by blanks; longer titles are cut at the first blank, titles without blanks are scanned past their end (refuted). |
| C76 | IncludeTransform objects are values | partial | values_partial, all_operations, copy_without_name_refuted, missing_string_refuted, self_move_refuted | Proved for every program that copies only objects with a file name; copying without one and reading strings the keyword does not give are undefined (refuted), self-move empties. |
| C77 | Destroying IncludeTransform objects gives back all their memory | partial | no_leak_partial, temperature_refuted, assignment_refuted | Proved for objects without a temperature flag and without assignments onto objects holding strings; both leak (refuted). |
| C78 | DefineTransformation objects are values | partial | values_partial, all_operations, copy_refuted, assignment_refuted, self_assignment_refuted | Proved for every program whose copies and assignments are of full objects; others keep uninitialised or old members (refuted). |
| C79 | Destroying DefineTransformation objects gives back all their memory | partial | no_leak_partial, assignment_refuted | Proved for every program without assignments onto objects that hold memory; these leak (refuted). |
| C80 | Handles, exceptions and strings can be used together in any order | partial | handles_partial, all_operations, moved_from_refuted, moved_string_refuted, self_move_refuted, self_move_names_refuted | Proved for every program that neither reads a moved-from D3plot, nor uses a text its handle has ended, nor moves an object onto itself; all refuted for every such program (C80_moved_string_refuted: the same holds for a moved-from String). C80_all_operations: nothing else is excluded. |
| C81 | The message of an exception and the name of an entry stay readable | partial | message_partial, message_moves_partial, copy, open_message, name_partial, stale_message_refuted, destroyed_refuted | Proved until the same handle is read again or destroyed (names: destroyed), also across moves of the handle; copies and messages of failed opens for ever. Refuted for every program that looks later. |
| C82 | Destroying handles gives back all their memory | partial | memory_partial, plots, binout_refuted, assignment_refuted | Proved for every program without assignments onto open objects: exactly one block per opened Binout with files is left, so programs with D3plot only leak nothing; both exceptions refuted. |
| C83 | Closing releases everything and may be repeated | partial | plot_close, plot_close_twice_refuted, failed_plot_close, binout_close_partial, binout_close_refuted | Everything but the array of files of a binout is released; refuted: that array leaks, a second d3plot_close frees the data pointers twice (for every plot and history of reads). |
| C84 | The Python class Binout reads what the file holds | partial | lookup, variable, no_bytes, metadata, timed, num_timesteps, timed_folder, cut_refuted | Proved for every file and path; refuted outside of whole numbers of elements: a time step whose byte count is no multiple of the element size shifts the arrays of all later steps. |
| C85 | Reading a folder in Python lists it | partial | no_folder, folder_partial, steps_partial, empty_refuted | Proved for every folder with an entry; refuted: reading a folder without entries accesses an empty vector (undefined behaviour). |
| C86 | The Python class Card returns the values of the fields | partial | determined, meaning, parse_partial, untrimmed_partial, whole_partial, default_partial, plus_refuted, short_refuted, default_short_refuted, untrimmed_short_refuted | Proved for cards that have room for their fields and fields with a meaning (all of up to 11 columns); refuted: integers with a plus sign are returned as 0; cards that end inside of a field are read behind their end. |
| C87 | Arrays and strings compare and index in Python as lists and str do | partial | str_exact, str_partial, last_refuted, empty_refuted, list_refuted, self_refuted, values, order_partial, prefix_refuted, getitem, setitem_partial, setitem_length, setitem_range, setitem_refuted, new_partial, new_refuted | Exact rule for strings, values, order and elements; refuted: the last byte of a string is ignored by ==, '' == '' raises IndexError, an array never equals another array, a text that begins with another one is not greater, characters of several bytes are stored by their first byte, sizes wrap around. |
| C88 | Iterating in Python yields the elements and ends | partial | arrays, index_partial, iteration_refuted | Proved for arrays and for indices below len(); refuted for keywords and slices: the iteration ends with RuntimeError instead of stopping. |
| C89 | An object taken from another one in Python stays usable | partial | alive_partial, dropped_refuted, element_refuted | Proved for all runs in which the owner still exists at each use; refuted otherwise: the owner's memory is freed with its last reference (no keep_alive). |
| C90 | Freeing element states gives back all their memory | partial | same_results, shells_partial, thick_shells_partial, all_given_back, empty_blocks_refuted, no_points_refuted, failed_partial, failed_shells_refuted, failed_beams_refuted, beams_partial, beams_without_points_refuted, null | Proved for shells and thick shells with integration points and for beams with integration points; at most empty blocks are left. Refuted: without integration points an uninitialised pointer (shells) or the content of an empty block (beams) is freed; empty blocks are never freed; a failed read of shells with word size 4 loses the history variables and the additional integration points, a failed read of beams loses both of its arrays. |
| C91 | Element states in C++ are values that own their memory | partial | shells_partial, thick_shells_partial, memory_partial, copy_refuted, empty_copy_refuted, self_copy_refuted, mean_copy_refuted, overwrite_refuted, thick_index_refuted, beams_refuted, shell_point | Proved: programs that copy only arrays without history variables and additional points (shells: all indices; thick shells: indices below 256) see exactly the values of the file; if they overwrite only empty arrays and destroy all objects, at most empty blocks stay, and none if all elements have history variables and other than three points. Refuted: a copy of an array shares the memory of the elements (double free), a copy of an empty array cannot be destroyed, assignment of an array to itself loses it, a copy of a mean surface dangles (this is what Python's get_mean gives), assignment loses what an array held, the index of an integration point of thick shells wraps at 256, arrays of beams free only the structs. Thick shells with more than three points and history variables overflow on reading (C58) and are not covered. |
| C92 | The profiler's report adds up | proved | report, no_section, no_file, still_running, own_time, times |  |
| C93 | The profiler's report is sorted and lined up | partial | order_partial, column, inner_order_refuted, long_name_refuted | Proved: the outermost sections are in descending order of their times; the name column has 40 characters and begins with the dashes and the name. Refuted: the sections inside of a section are in the order of their names, except below the first one (only stack[0] is sorted further); a name of 1024 or more characters (with its dashes) overruns the buffer. Missing: the text of the time (double, printf). |
| C94 | Single precision readers return the nearest floats | partial | time, time_outside, all_times, vector, absent, outside, all_states, all_states_absent_refuted, exact | Proved for all times and announced vectors, absent vectors and states of the single state readers; refuted: the readers of all states do not check that the vector exists (as C55). Plots with displacements (IU = 2) cannot be opened (C47). |
| C95 | All queries of an opened binout answer from its files | partial | opens, variable, missing, children, no_folder, count_partial, timed_partial, python_partial | Proved for existence, types and listings for all files; for counts, timed reads and Python's reads under the conditions of C30, C31 and C84 (regular time steps), outside of which those are refuted. Rejected files have to be the last ones (C28). |
| C96 | A key file that was written is read back | partial | callbacks_partial, layout_partial, read_back_partial, row_partial, numbers_partial, twice_tame, three_times_refuted | Proved for all layouts and contents with ordinary keywords (no INCLUDE keywords: C21) in which a name that occurs a third time is not the greatest so far (else refuted, as C11) and for integers of at most 18 columns. |
| C97 | A keyword table owns its memory | proved | free, parse, no_leak, undefined, independent |  |
| C98 | d3plot families with more files than may be open (build without thread safety) | partial | open, short_family, missing, reads_partial, plenty, outside, read_outside, skip, too_much, near_refuted, single_refuted, wrap_refuted, leak_refuted | Proved: opening; all reads from a position in an open file, or further away from the open files than their number, with any reads behind it; all reads if every file is open; the errors outside of the data. Refuted: at the limit every seek to a file that is not open and nearer than that fails with 'Failed to open next file' (the last open file is opened again before others are closed); with one open file it is fseek(NULL); below the limit going back to the first file runs out of the array, and going ahead leaks a FILE. |
| C99 | The float or double read from a field is the nearest one | partial | two_roundings, nearest_partial, nearest_refuted | Proved: exactly two roundings (the fraction, the sum) for every number of digits up to the precision; hence the nearest number below one, with a fraction the type can hold, and for whole numbers (C16_whole). Refuted otherwise: the field 1.14 read as double and 1.18 read as float are not the nearest. Numbers with exponents: only the bound C16_float_rounded (pow is not specified). |
| C100 | A d3plot that was written is read back | partial | open, states, ids, elements, titles, time, all_times, vector, numbers, solids, shells, thick_shells, beams | Proved for all models with at least one part, at least three integration points and all groups of values stored (IOSHL = 1000); thick shells either without history variables or with three integration points (else refuted: C58_overflow_refuted). Not written: deletion tables, thermal data, higher order elements, history variables of beams (C53 and C58 to C60 say how those are read). With 8 bytes per word the title must not look like a control word. |
| C101 | The files of a pattern on Windows | partial | paths_partial, overlap_refuted, empty_refuted, folder | Proved for names at most as long as the folder of the pattern; refuted: a longer name is copied with memcpy between overlapping regions, the empty pattern reads in front of its first character. What _findfirst reports is an input; the POSIX branch passes on what glob(3) reports. |
| C102 | Readers of d3plot keep no memory | partial | freed, counts, ids, all_ids, elements, titles, times, vectors, velocity_acceleration, room, part_room, nodes_room, part, part_by_id, part_freed, nodes_partial, nodes_leak_refuted | Proved for all readers of ids, connectivity, titles, times, vectors and parts; for the nodes of a part when the connectivity of its elements is passed. Refuted: connectivity that d3plot_part_get_node_ids2, _node_indices2 and _num_nodes2 read themselves is never freed (pgni.h never sets loaded_cons). The element states are C90; coordinates of displacement plots, the state readers of C48 and d3plot_part_get_all_element_ids are not part of this memory model. |
| C103 | Readers of binout keep no memory | proved | type_id, children, open_error, read, read_timed, real_path, read_room, timed_room, children_room, error_room, path_room, client |  |
| C104 | D3plot's readers return objects that own everything, or throw | partial | ids, elements, titles, times, vectors, rows_partial, no_states_refuted, all_ids_partial, all_ids_leak_refuted, part, part_by_id | Proved for all readers of ids, connectivity, titles, times, vectors of a state and parts, without further conditions; vectors of all states if three times the number of nodes fits 64 bits and for their destruction if there are states. Refuted: without states the block is left to nobody; D3plot::read_all_element_ids throws an error of the last table (the thick shells) that the C function says it ignores, and the array of the ids of the other elements is lost. What blocks contain is carried beside the objects; coordinates of displacement plots and the state readers are not in this model. |
| C105 | Binout's readers return objects that own everything, or throw | proved | read, read_timed, type_id, children, real_path |  |
| C106 | Errors of d3plots have a message and leave the plot usable | partial | first_partial, same_errors, no_recovery_refuted, overflow_refuted, open_partial, long_name_refuted, file_type | Proved: the first error of a plot, for system messages of at most 900 characters, and errors of opening, for names shorter than 992 characters, have exactly the message of their cause (a file it names by number is there and cannot be opened); the errors of later calls are those of the model without texts. Refuted: a plot whose read has failed once never reads again (the error string of the buffer is not cleared and taken for a failed seek); every further call makes the message 27 characters longer, and the 38th at the latest writes behind the array of 1024 bytes; so does opening a missing file with a name of 992 or more characters. Calls that read one block of words (title, run time, ids, time). |
| C107 | The run time as a date | partial | same_errors, local_time, time_partial, single, late_refuted, throws, written | Proved for all words of 4 bytes and all times from 1677 to 2262; later times, which only words of 8 bytes can hold, overflow the nanoseconds of a time point (refuted). localtime is a parameter. |

## Which parts of the code are modelled

Modelled: binary_search.c, binout.c, binout_directory.c, binout_read.c, d3_buffer.c and multi_file.c (both in the
thread safe build and in the build with NO_THREAD_SAFETY), d3plot.c, d3plot_data.c, d3plot_part_nodes.c,
d3plot_state.c, extra_string.c, include_transform.c, key.c, line.c, profiling.c, sync.c (as an ideal mutex), path.c
(string functions), path_view.c, string_builder.c, pgni.h; of src/cpp: array.hpp, key.cpp/hpp, d3plot_part.cpp,
d3plot_state.cpp/hpp (element states as objects), include_transform.cpp, the titles, time-step vectors, handles and
exceptions of d3plot.cpp/binout.cpp; of src/python: Binout.read and its paths, Card, the arrays and strings, and
the lifetimes of key file objects. Memory (blocks with identities) is modelled for keyword tables, the
readers of d3plots (ids, connectivity, titles, vectors, parts, element states), the C++ classes and handles, and the profiler.

Not modelled: the POSIX branch of binout_glob.c, which passes on what glob(3) reports, and the directory listing part of
path.c (the set of files matching a pattern is an input); the conversions of values by pybind11 and the Python class D3plot, which forwards to the C++ wrapper;
the other Windows variants; the C++ wrappers that only convert a pointer and a size to an Array beyond what C62-C64 say.

Abstractions: `malloc` never fails and returns a fresh block (where memory is modelled, see above, blocks have
identities, so double free, leak and use after free are visible; elsewhere only bounds and initialisation are); floating point values are words of the file, or rationals with an abstract rounding
(C16, C60); the file system is a function from names to contents that does not change during a call; files can
fail to open; `read` is never short except at the end of a file; threads interleave at the mutex and FILE
operations (sequentially consistent). Terminating the process by `assert` counts as UB. Outside of C106 the readers of d3plots carry which
error occurred, not its text (so no overrun of the message buffer, which C106 shows for calls repeated after an error).

## Trusted base

* Coq 8.16.1's kernel, including its `vm_compute` (used in examples and a few refutations).
* `Print Assumptions` stands behind every property theorem and prints "Closed under the global context" for
  each of them: no axioms, of ours or of the standard library, are used. (A check of all loaded modules also
  lists the `Under_rel` interface of ssreflect, which is part of Coq's distribution; no theorem rests on it.)
* That the Gallina definitions transcribe the cited C and C++ code. The seeded wrong programs
  (seeded/LOG.jsonl) test that the theorems notice when a definition changes.
* No kernel check is switched off, there is no Admitted, no functor or module type, no plugin.

## Behaviour of the code that contradicts its documentation

Each is a `_refuted` theorem or a comment beside the theorem with the hypothesis that excludes it.

* Undefined behaviour from file contents: a d3plot of less than 184 bytes, of a single file, or with short
  control data; EXTRA < 18; MAXINT < 3; thick shells with MAXINT > 3 and NEIPS > 0 (heap overflow); NV3D/NV2D
  smaller than the announced values; three equal keywords at the end of the table; short cards; 82-character
  keyword lines; file names of one character; ".." above the root in a binout; a variable over a folder.
* Wrong results without an error: ISTRN uninitialised for plots of solids only; ISTRN >= 2; all-states readers of
  absent vectors; ids without an id section; merged ids unsorted; part lookup with unsorted ids; variables
  of the wrong binout file after a rejected one; irregular timed reads; time step count with foreign
  entries; titles cut at the first blank.
* Never ending: a binout record of length 0; a key file that includes itself.
* Message buffers of 1024 bytes overrun by long names (binout reads, d3plot_open, key files, Keywords[]).
* A d3plot whose read failed once never reads again: the error string of the buffer is not cleared, later calls take it for a
  failed seek and repeat it with 27 more characters, until the 38th writes behind the array of 1024 bytes (C106).
* D3plot::read_all_element_ids throws when only the last table (thick shells) cannot be read, although d3plot_read_all_element_ids
  says those elements are ignored, and loses the array of the other ids; the vectors of all states of a plot without states leak an (empty) block.
* Object lifetimes: Array and Card self-assignment; assignments that leak their target (Array, Card,
  D3plotPart, IncludeTransform, DefineTransformation); D3plotPart copies share the thick shell
  indices; DefineTransformation copies leave members uninitialised; IncludeTransform copies without a file
  name are undefined; time-step arrays die with the first one.
* Handles: what() of an exception of a read, and the strings of get_children, dangle once the handle is read again
  or destroyed; binout_close leaks the array of files; a second d3plot_close is a double free; reads through a
  moved-from D3plot dereference NULL; assigning to an open handle leaks it.
* d3plot_open rejects IU = 2 plots although the readers handle displacements.
* Python Binout.read of a folder without entries accesses an empty vector; of a folder below the time steps it
  writes the message into 1024 bytes; time steps of a fractional number of elements are cut in the wrong places.
* Python Card: "+5" is parsed as 0; parse_whole reads behind cards that end inside of a field. Python arrays: == ignores
  the last byte of a string, '' == '' raises IndexError, an array never equals an array, "ab" is not less than "abc",
  characters of several bytes are cut, Array(size) wraps around. Iterating over a Keyword or KeywordSlice ends with
  RuntimeError. Keywords, cards and elements dangle once their owner is dropped.
* d3plot_part_get_node_ids2, _node_indices2 and _num_nodes2 never free connectivity they have read (pgni.h never sets
  loaded_cons).
* Element states: freeing shells of a plot without integration points frees an uninitialised pointer, freeing beams
  without integration points frees what an empty block contains; failed reads of shells (word size 4) and of beams
  lose memory.
* Element states in C++: copies of Array<D3plotShell> and Array<D3plotThickShell> share the history variables and the
  additional points with the original (double free), a copy of an empty array frees what an empty block contains, self
  assignment loses the elements; a copied D3plotSurface is freed twice (D3plotSurface has a destructor but no copy
  constructor; get_mean() in Python copies its result); D3plot::read_beams_state returns Array<d3plot_beam>, whose
  destructor frees only the structs; get_add_ip_history_variables(256) of a thick shell is taken for index 0;
  get_mean() casts a d3plot_surface down to a D3plotSurface.
* Profiler: only the sections inside of the first one of a level are sorted by their times; names of 1024 characters overrun
  the buffer of a line.
* Profiler: sections whose function returns early are never closed (binout.c:387, binout_directory.c:285,
  d3_buffer.c:369, 546, 567, 621, 652, 683, 700, d3plot.c:2925, 2946, key.c:1010, 1216 return without
  END_PROFILE_FUNC), so that C92's hypothesis of nested sections does not hold for programs that hit these paths.
* Build without thread safety: with more files than may be open, seeks to a file next to the open ones fail; with one
  open file they call fseek(NULL) (C98).
* Windows: binout_glob copies between overlapping regions if a name is longer than the folder of the pattern, and reads in
  front of an empty pattern (C101).
* Cards: card_parse_float64 of the field 1.14 and card_parse_float32 of 1.18 are not the nearest numbers (C99).
