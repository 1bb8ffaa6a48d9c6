{"id": "C01", "title": "Sorted lookup finds exactly the present element", "statement": "Looking an id or a name up in a sorted, duplicate-free table (element/node/part ids, keyword names, binout entries) terminates, never touches an index outside the table, returns the index of the element if it is present and 'not found' (~0) if it is absent.", "quantifier": "every non-empty sorted table of any length and every searched value", "why_tests_cant": "the recursion has a special case at half==end-1; only an induction over the interval covers every length/position combination", "anchors": ["src/binary_search.c:d3_word_binary_search", "src/binary_search.c:key_file_binary_search", "src/binary_search.c:binout_directory_binary_search_entry", "src/d3plot.c:d3plot_index_for_id"]}
{"id": "C02", "title": "Sorted insertion point is the right one", "statement": "The insertion search on a sorted table returns found=1 with an index holding an equal element iff one exists, otherwise found=0 and the unique index at which inserting keeps the table sorted; the index is at most the table length.", "quantifier": "every non-empty sorted table (duplicates allowed) and every value", "why_tests_cant": "an off-by-one at one length/position combination silently unsorts the table and makes later lookups miss", "anchors": ["src/binary_search.c:d3_word_binary_search_insert", "src/binary_search.c:key_file_binary_search_insert", "src/binary_search.c:binout_directory_binary_search_entry_insert"]}
{"id": "C03", "title": "Path iteration yields exactly the elements between separators", "statement": "Iterating over an absolute path visits '/' and then, in order, exactly the non-empty substrings between '/' characters, and stops after the last one, whatever the number of repeated or trailing separators.", "quantifier": "every path string", "why_tests_cant": "unbounded families of separator patterns", "anchors": ["src/path_view.c:path_view_new", "src/path_view.c:path_view_advance"]}
{"id": "C04", "title": "Path element comparison agrees with string comparison", "statement": "Comparing a path element with a name yields 0 exactly when the element's text equals the name, and its sign agrees with the order (strcmp) in which entries are stored.", "quantifier": "every path, every element of it and every name", "why_tests_cant": "the order must agree on all byte values; tests only use ASCII names", "anchors": ["src/path_view.c:path_view_strcmp", "src/binary_search.c:binout_directory_binary_search_entry"]}
{"id": "C05", "title": "Joining two paths puts exactly one separator between them", "statement": "Joining two non-empty paths yields the left path without its trailing separators, one separator and the right path without its leading separators, and never reads or writes outside its buffers.", "quantifier": "every pair of paths", "why_tests_cant": "boundary cases (only separators, empty operand) form an unbounded family", "anchors": ["src/path.c:path_join"]}
{"id": "C06", "title": "Moving up a path yields the parent directory", "statement": "Moving an absolute, normalised path one element up yields the index at which the string must be cut to get the parent path; the root has no parent.", "quantifier": "every absolute path", "why_tests_cant": "unbounded depth and element lengths", "anchors": ["src/path.c:path_move_up"]}
{"id": "C07", "title": "The string builder holds the concatenation of everything appended", "statement": "After any sequence of appends the builder's buffer is a NUL terminated string equal to the concatenation of the appended strings and characters, and no append writes outside the allocated capacity.", "quantifier": "every sequence of append operations", "why_tests_cant": "capacity bookkeeping must hold for every history", "anchors": ["src/string_builder.c:string_builder_append", "src/string_builder.c:string_builder_append_char", "src/string_builder.c:string_builder_append_len"]}
{"id": "C08", "title": "Long-line strings behave like ordinary strings", "statement": "A string that is split into a fixed buffer and an overflow part reads, writes, copies (with offset), compares and prefix-tests like the single contiguous string it represents.", "quantifier": "every string length, offset and index", "why_tests_cant": "behaviour changes at the 82 character boundary in combination with offset and length", "anchors": ["src/extra_string.c"]}
{"id": "C09", "title": "Line reading does not depend on the buffer size", "statement": "Reading a key file line by line yields exactly the lines of the file (text between '\\n', '\\r' removed), in order, for every placement of the read-chunk boundaries.", "quantifier": "every file content and every chunk size", "why_tests_cant": "the chunk is 1 MiB; boundaries hit every position of every line only in an unbounded family of files", "anchors": ["src/line.c:read_line"]}
{"id": "C10", "title": "The comment position is the first '$' of the line", "statement": "For every line that is read the reported comment position is the index of its first '$', or none if there is none.", "quantifier": "every line of every file", "why_tests_cant": "depends on chunk boundaries and ignored characters", "anchors": ["src/line.c:read_line"]}
{"id": "C11", "title": "Parsed keywords are sorted by name and stable", "statement": "key_file_parse returns the keywords sorted by name; keywords with the same name stay in the order in which they occur in the file; every keyword keeps exactly its own cards in file order; nothing is lost or duplicated.", "quantifier": "every sequence of keywords and cards delivered by the parser", "why_tests_cant": "histories of arbitrary length with arbitrary name multiplicities", "anchors": ["src/key.c:key_file_parse_callback"]}
{"id": "C12", "title": "key_file_get returns the index-th keyword of a name", "statement": "For a keyword array sorted by name key_file_get(name, index) returns the index-th keyword with that name, or NULL if there are not that many.", "quantifier": "every sorted keyword array, name and index", "why_tests_cant": "positions of the run relative to both array ends and every index", "anchors": ["src/key.c:key_file_get"]}
{"id": "C13", "title": "key_file_get_slice returns the whole run of a name", "statement": "For a keyword array sorted by name key_file_get_slice returns the first keyword with that name and the number of keywords with that name (NULL and 0 if absent).", "quantifier": "every sorted keyword array and name", "why_tests_cant": "positions of the run relative to the array ends", "anchors": ["src/key.c:key_file_get_slice"]}
{"id": "C14", "title": "Integer fields parse to their decimal value", "statement": "Parsing a card field of at most 18 characters as an integer returns the decimal value of an optional '-' followed by digits padded with blanks, and reports EINVAL for blank fields and for fields with foreign characters; it never reads past the field or the card.", "quantifier": "every card text, position and width", "why_tests_cant": "all digit strings and paddings", "anchors": ["src/key.c:card_parse_int_width"]}
{"id": "C15", "title": "The reported type of a field predicts which parser accepts it", "statement": "If the type of a field is INT then the integer and the float parser accept it; if it is FLOAT the float parser accepts it; a blank field is never INT or FLOAT.", "quantifier": "every card text, position and width", "why_tests_cant": "all texts of all widths", "anchors": ["src/key.c:card_parse_get_type_width", "src/key.c:card_parse_int_width", "src/key.c:card_parse_float64_width"]}
{"id": "C16", "title": "Float fields parse to their decimal value", "statement": "Up to floating point rounding, parsing a card field as float/double returns sign * (integer part + fraction) * 10^exponent for every field of the form [+-]digits[.digits][e[+-]digits].", "quantifier": "every card text of this form", "why_tests_cant": "all digit strings", "anchors": ["src/key.c:card_parse_float64_width", "src/key.c:card_parse_float32_width"]}
{"id": "C17", "title": "Iterating over a card visits every field exactly once", "statement": "card_parse_begin followed by card_parse_next until card_parse_done visits the fields at offsets 0, w, 2w, ... and ends after the last one, without reading outside the card.", "quantifier": "every card text and field width", "why_tests_cant": "every card length modulo the width", "anchors": ["src/key.c:card_parse_begin", "src/key.c:card_parse_next_width", "src/key.c:card_parse_done"]}
{"id": "C18", "title": "String fields are trimmed on both sides only", "statement": "card_parse_string(_width) returns the field without its leading and trailing blanks and keeps everything between; card_parse_whole does the same for the entire card; card_parse_is_empty is true iff nothing but blanks is left in the field.", "quantifier": "every card text, position and width", "why_tests_cant": "all texts", "anchors": ["src/key.c:card_parse_string_width", "src/key.c:card_parse_whole", "src/key.c:card_parse_is_empty_width"]}
{"id": "C19", "title": "The callback sequence is the keyword/card structure of the file", "statement": "For a file without INCLUDE keywords the callback is invoked once per card line, in order, with the name of the keyword the card belongs to and its index within that keyword, and once (without card) per keyword that has no cards; comment lines are skipped, text after '$' is dropped and parsing stops at *END.", "quantifier": "every file content", "why_tests_cant": "arbitrary interleavings of keywords, cards, comments and END", "anchors": ["src/key.c:key_file_parse_with_callback"]}
{"id": "C20", "title": "Continued file names are joined", "statement": "A file name continued over several lines by a trailing ' +' is delivered as the concatenation of the parts, without leading and trailing blanks.", "quantifier": "every sequence of continuation lines", "why_tests_cant": "unbounded number and shape of parts", "anchors": ["src/key.c:_parse_multi_line_string"]}
{"id": "C21", "title": "An INCLUDE is replaced by the callbacks of the first matching file", "statement": "With parse_includes each INCLUDE card is replaced by the complete callback sequence of the first file <include path>/<name> that exists, in include path order, where INCLUDE_PATH(_RELATIVE) keywords extend the list for everything parsed afterwards; a missing file is an error (or a warning if configured) and parsing goes on.", "quantifier": "every file system and include structure", "why_tests_cant": "recursive structures of any depth; error/warning accumulation over the whole history", "anchors": ["src/key.c:key_file_parse_with_callback"]}
{"id": "C22", "title": "INCLUDE_TRANSFORM and DEFINE_TRANSFORMATION fields end up in the right members", "statement": "Parsing an INCLUDE_TRANSFORM keyword stores the fields of its cards in the members named by the LS-Dyna manual and leaves members of absent or blank fields at their defaults; DEFINE_TRANSFORMATION delivers one option per card in order.", "quantifier": "every number and content of cards", "why_tests_cant": "every combination of present/absent/blank fields", "anchors": ["src/include_transform.c"]}
{"id": "C23", "title": "The binout directory behaves like a map from paths to variables", "statement": "After any sequence of folder and variable records, looking a path up returns exactly the type, size, file and position of the last variable recorded under that path, and reports not found for paths that were never recorded; inserting one variable does not change any other.", "quantifier": "every insertion history and every looked up path", "why_tests_cant": "any history length, any nesting and any insertion order", "anchors": ["src/binout_directory.c:binout_directory_insert_folder", "src/binout_directory.c:binout_folder_insert_file", "src/binout_directory.c:binout_directory_get_file"]}
{"id": "C24", "title": "Directory listings are sorted and duplicate free", "statement": "binout_get_children on a recorded folder returns the names of exactly its direct children, in strictly increasing byte order.", "quantifier": "every insertion history and folder", "why_tests_cant": "any history", "anchors": ["src/binout_directory.c:binout_directory_get_children", "src/binout.c:binout_get_children"]}
{"id": "C25", "title": "Reading a binout variable returns the recorded bytes", "statement": "Opening a file that contains any sequence of CD and DATA records written in any supported header configuration and reading a variable returns exactly the payload of the last DATA record for this path.", "quantifier": "every header configuration, every sequence of records and every payload", "why_tests_cant": "encode/decode round trip over all record sequences", "anchors": ["src/binout.c:binout_open", "src/binout_read.c:_binout_read"]}
{"id": "C26", "title": "Typed reads reject every mismatch", "statement": "A typed read succeeds only if the path denotes a variable whose recorded type equals the requested one and whose data is not empty; it then returns size/type_size elements; otherwise it returns NULL, sets size 0 and an error.", "quantifier": "every directory and every (path, type) pair", "why_tests_cant": "all combinations", "anchors": ["src/binout_read.c:_binout_read", "src/binout.c:binout_get_type_id"]}
{"id": "C27", "title": "CD records navigate like directories", "statement": "The folder DATA records are stored in is the result of resolving all CD records so far: absolute paths replace, relative paths extend and '..' elements remove the last element.", "quantifier": "every sequence of CD records", "why_tests_cant": "any sequence and depth", "anchors": ["src/binout.c:binout_open", "src/path.c:path_move_up"]}
{"id": "C28", "title": "Variables stay bound to the file they were read from", "statement": "Every variable is read from the very file its DATA record is in, also if several files are opened at once and if some of them are broken.", "quantifier": "every number of files and every subset of broken files", "why_tests_cant": "any number of files/failure pattern", "anchors": ["src/binout.c:binout_open"]}
{"id": "C29", "title": "Broken headers and truncated records are reported", "statement": "A file whose header is not 8 bytes, is big endian, has field sizes above 8 or a foreign float format yields an error and no entries; a record stream that ends inside a record header yields an error.", "quantifier": "every file content", "why_tests_cant": "every byte string", "anchors": ["src/binout.c:binout_open"]}
{"id": "C30", "title": "The number of timesteps is the number of d-folders", "statement": "binout_get_num_timesteps returns the number of children whose name is 'd' followed by digits.", "quantifier": "every folder content", "why_tests_cant": "any children set", "anchors": ["src/binout.c:binout_get_num_timesteps", "src/binout.c:_binout_is_d_string"]}
{"id": "C31", "title": "Timed reads return one row per timestep in order", "statement": "A timed read returns for every d-folder in listing order the values of the variable, all rows having the same number of values, or an error; it never writes outside the result array.", "quantifier": "every directory content", "why_tests_cant": "any number of timesteps and row sizes", "anchors": ["src/binout_read.c:_binout_read_timed"]}
{"id": "C32", "title": "Simple paths resolve to an existing variable", "statement": "If binout_simple_path_to_real succeeds the returned real path denotes an existing variable (in metadata or in the d-folders) whose type is the reported one.", "quantifier": "every directory and simple path", "why_tests_cant": "any directory", "anchors": ["src/binout.c:binout_simple_path_to_real"]}
{"id": "C33", "title": "No two threads ever share a file handle", "statement": "Between an access and the matching return a handle belongs to exactly one thread, so no interleaving of threads can make one thread's seek affect another thread's read.", "quantifier": "every number of threads and every interleaving", "why_tests_cant": "schedules", "anchors": ["src/multi_file.c:multi_file_access", "src/multi_file.c:multi_file_return"]}
{"id": "C34", "title": "The number of open handles is bounded by the concurrency", "statement": "The number of handles of a file never exceeds the maximal number of accesses that were held at the same time plus the number of times the operating system failed to open the file; as long as no open has failed, a new handle is opened only when all existing ones are in use.", "quantifier": "every schedule of accesses and returns", "why_tests_cant": "schedules", "anchors": ["src/multi_file.c:multi_file_access"]}
{"id": "C35", "title": "Reading words does not depend on how the data is split into files", "statement": "Reading n words at word position p from a d3plot family returns exactly the bytes [p*ws, (p+n)*ws) of the concatenation of all files, for every way the bytes are distributed over files (also inside of a word), for every sequence of consecutive reads; if every file is a whole number of words, the reported position advances by n.", "quantifier": "every file split, position and count", "why_tests_cant": "all splits/positions", "anchors": ["src/d3_buffer.c:d3_buffer_read_words", "src/d3_buffer.c:d3_buffer_seek", "src/d3_buffer.c:d3_buffer_next_file"]}
{"id": "C36", "title": "Reads and seeks outside of the data are errors", "statement": "A read that needs more bytes than remain and a seek (skip) to or beyond the end of the data set an error and never deliver bytes from elsewhere, for all positions and counts whose byte offset is below 2^64.", "quantifier": "every family of files, position and count with byte offset below 2^64", "why_tests_cant": "all 64-bit positions", "anchors": ["src/d3_buffer.c:d3_buffer_read_words", "src/d3_buffer.c:d3_buffer_seek", "src/d3_buffer.c:d3_buffer_skip_words"]}
{"id": "C37", "title": "Word size detection is unambiguous", "statement": "A d3plot is opened with word size 4 (8) only if the control block is plausible under 4 (8) byte words and implausible under the other one.", "quantifier": "every control block content", "why_tests_cant": "all word values", "anchors": ["src/d3_buffer.c:d3_buffer_open"]}
{"id": "C38", "title": "Decimal digit extraction is exact", "statement": "Option digits (IDTDT and similar) are the n-th decimal digit of the control word.", "quantifier": "every word and digit position", "why_tests_cant": "all 64-bit values", "anchors": ["src/d3plot.c:_get_nth_digit"]}
{"id": "C39", "title": "Geometry sections are consecutive and disjoint", "statement": "After opening a supported d3plot (three-dimensional, with the options dynareadout implements, a non-negative number of solids, sections that agree with the control words and fit into the data), the node coordinates, each connectivity table and each id table start exactly where the previous one ends and end before the end marker, so no reader can return words of a neighbouring table; tables that do not exist have no position.", "quantifier": "every supported d3plot: every combination of element counts, flags, ids, word size and split into files", "why_tests_cant": "all counts", "anchors": ["src/d3plot_data.c:_d3plot_read_geometry_data", "src/d3plot_data.c:_d3plot_read_user_identification_numbers"]}
{"id": "C40", "title": "State data pointers partition the state", "statement": "Within every state the time, global, nodal, element and deletion tables are consecutive and their sizes add up to the size announced by the control block; a state whose announced sizes disagree is rejected.", "quantifier": "every control block", "why_tests_cant": "all flag/count combinations", "anchors": ["src/d3plot_state.c:_d3plot_read_state_data"]}
{"id": "C41", "title": "Element connectivity is returned zero based", "statement": "Connectivity readers return for every element the stored node and part numbers minus one, in file order, for both word sizes.", "quantifier": "every connectivity table and word size", "why_tests_cant": "all tables", "anchors": ["src/d3plot.c:d3plot_read_solid_elements", "src/d3plot.c:d3plot_read_shell_elements", "src/d3plot.c:d3plot_read_beam_elements", "src/d3plot.c:d3plot_read_thick_shell_elements"]}
{"id": "C42", "title": "A part contains exactly the elements that refer to it", "statement": "After opening a supported d3plot with an id section, reading the part with index k returns, for every element type, exactly the ids and indices of the elements whose stored part number is k + 1, in file order; if there are none, an error is reported.", "quantifier": "every such mesh, part index and history of reads", "why_tests_cant": "all meshes", "anchors": ["src/d3plot.c:d3plot_read_part"]}
{"id": "C43", "title": "Part node ids are the sorted set of nodes of its elements", "statement": "The node ids (indices) of a part of a supported d3plot, whose id tables are strictly ascending and whose node numbers exist, are strictly increasing and contain exactly the nodes of the part's elements, whether tables are passed by the caller or read from the plot; their number is reported; the result fits the allocated array.", "quantifier": "every such mesh, part, choice of passed tables and history of reads", "why_tests_cant": "all meshes", "anchors": ["src/d3plot_part_nodes.c:d3plot_part_get_node_ids2", "src/pgni.h"]}
{"id": "C44", "title": "All element ids are the sorted union of the id tables", "statement": "d3plot_read_all_element_ids and d3plot_part_get_all_element_ids return a sorted permutation of the element ids of all types.", "quantifier": "every combination of sorted id tables", "why_tests_cant": "all interleavings of id ranges", "anchors": ["src/d3plot.c:_insert_sorted", "src/d3plot.c:d3plot_read_all_element_ids", "src/d3plot_part_nodes.c:d3plot_part_get_all_element_ids"]}
{"id": "C45", "title": "Solid state values are assigned to the right element and member", "statement": "In a supported d3plot whose NV3D is the number of values its flags announce and whose ISTRN is known, reading the solids of a state assigns to element i the i-th group of NV3D words: stress and effective plastic strain (zero if not stored) and, if ISTRN is 1, the strain, which is the last six of the NEIPH history variables; a larger NV3D or a missing state is an error. Floats are converted exactly.", "quantifier": "every such d3plot, flag combination, element count, state, data and history of reads", "why_tests_cant": "all layouts", "anchors": ["src/d3plot.c:d3plot_read_solids_state"]}
{"id": "C46", "title": "Shell state values are assigned to the right element and member", "statement": "In a supported d3plot with at least three integration points, ISTRN 0 or 1 and NV2D the number of values its flags announce, reading the shells of a state assigns to element i the i-th group of NV2D words: for mid, inner, outer and every additional integration point stress, effective plastic strain and history variables, then bending, shear and normal resultants, thickness, two element variables, internal energy, inner and outer strain (zero if not stored); a larger NV2D or a missing state is an error; no memory outside of the arrays is touched.", "quantifier": "every such d3plot, flag combination, numbers of elements, points and history variables, state, data and history of reads", "why_tests_cant": "all layouts", "anchors": ["src/d3plot.c:d3plot_read_shells_state"]}
{"id": "C47", "title": "Node coordinates of displacement plots are initial coordinates plus displacement", "statement": "For plots that store displacements, d3plot_read_node_coordinates returns initial coordinates + displacement for every node, state and call.", "quantifier": "every node, state and call history", "why_tests_cant": "call histories", "anchors": ["src/d3plot.c:d3plot_read_node_coordinates"]}
{"id": "C48", "title": "State times are the first word of the states in order", "statement": "d3plot_read_time returns the time word of the requested state; a state index outside the range is an error.", "quantifier": "every file and state index", "why_tests_cant": "all files", "anchors": ["src/d3plot.c:d3plot_read_time"]}
{"id": "C49", "title": "Concurrent access to a file never deadlocks", "statement": "In every schedule, a thread inside of multi_file_access or multi_file_return completes its call when it runs, unless another thread is inside the critical section, and that thread completes its call after finitely many steps, whatever fopen returns.", "quantifier": "every number of threads, every interleaving, every fopen outcome", "why_tests_cant": "schedules", "anchors": ["src/multi_file.c:multi_file_access", "src/multi_file.c:multi_file_return"]}
{"id": "C50", "title": "Closing a file closes every handle exactly once", "statement": "After any history of accesses and returns, multi_file_close closes every FILE that was ever opened, each exactly once: no leak and no double close.", "quantifier": "every history of accesses, returns and fopen failures", "why_tests_cant": "histories", "anchors": ["src/multi_file.c:multi_file_close"]}
{"id": "C51", "title": "Opening a d3plot has no undefined behaviour", "statement": "Opening any root file name, whatever files exist and whatever they contain, either succeeds or reports an error.", "quantifier": "every file system content and root file name", "why_tests_cant": "all file contents", "anchors": ["src/d3_buffer.c:d3_buffer_open", "src/d3_buffer.c:d3_pointer_close"]}
{"id": "C52", "title": "A d3plot family is the root file and its numbered successors", "statement": "Opening root uses exactly the files root, root01, root02, ..., root99, root100, ... up to the first that does not exist (at most 1000), in this order; if root does not exist an error is reported.", "quantifier": "every file system content and root file name", "why_tests_cant": "all directories", "anchors": ["src/d3_buffer.c:d3_buffer_open"]}
{"id": "C53", "title": "Control data are the words at the documented positions", "statement": "Opening a supported d3plot succeeds, uses the files and the word size of the family, and every control value (NUMNP, NEL8, ..., EXTRA words, number of parts, IOSHL, MDLOPT, MAXINT, BEAMIP, ISTRN) is the word at the position of the d3plot manual, or the documented function of it.", "quantifier": "every supported d3plot, every file system content", "why_tests_cant": "all control blocks", "anchors": ["src/d3plot.c:d3plot_open"]}
{"id": "C54", "title": "The states found are exactly the complete states of the files", "statement": "Opening a supported d3plot whose states are terminated by end markers finds exactly the complete states of all files, in order, at the positions where they begin; they do not overlap, and a truncated last state is not reported.", "quantifier": "every supported d3plot: every number of states and files, every truncation", "why_tests_cant": "all numbers of states and splits", "anchors": ["src/d3plot.c:d3plot_open", "src/d3plot_state.c:_d3plot_read_state_data", "src/d3_buffer.c:d3_buffer_next_file"]}
{"id": "C55", "title": "Nodal vectors are the stored vectors of the state", "statement": "After opening a supported d3plot, the node coordinates, velocities and accelerations of a state are the 3*NUMNP numbers stored for it (floats are converted exactly to double), for one state and for all states in order; a vector that is not stored, or a state that does not exist, is an error; reading does not change what later reads return.", "quantifier": "every supported d3plot, state, vector and history of reads", "why_tests_cant": "all files, states and histories", "anchors": ["src/d3plot.c:d3plot_read_node_coordinates", "src/d3plot.c:d3plot_read_node_velocity", "src/d3plot.c:d3plot_read_node_acceleration", "src/d3plot.c:d3plot_read_all_node_coordinates"]}
{"id": "C56", "title": "Ids are the words of the id tables", "statement": "After opening a supported d3plot, the ids of nodes, solids, beams, shells and thick shells are the words of the respective id table, one per node or element, in file order; without an id section no ids are invented.", "quantifier": "every supported d3plot and history of reads", "why_tests_cant": "all files", "anchors": ["src/d3plot.c:d3plot_read_node_ids", "src/d3plot.c:d3plot_read_solid_element_ids", "src/d3plot.c:_d3plot_read_ids"]}
{"id": "C57", "title": "Part ids, part titles, title and run time are those of the header", "statement": "After opening a supported d3plot, part ids are taken from the id section or, if it has none, from the part titles; part titles are the 72 characters stored for each part; title and run time are the first eleven words; if nothing is stored an error is reported.", "quantifier": "every supported d3plot and history of reads", "why_tests_cant": "all files", "anchors": ["src/d3plot.c:d3plot_read_part_ids", "src/d3plot.c:d3plot_read_part_titles", "src/d3plot.c:d3plot_read_title", "src/d3plot.c:d3plot_read_epoch_run_time"]}
{"id": "C58", "title": "Thick shell state values are assigned to the right element and member", "statement": "In a supported d3plot with three integration points (or more, if there are no history variables) and NV3DT the number of values its flags announce, reading the thick shells of a state assigns to element i the i-th group of NV3DT words: mid, inner and outer surface, inner and outer strain (if ISTRN is 1, zero otherwise), additional integration points; a larger NV3DT or a missing state is an error; no memory outside of the arrays is touched.", "quantifier": "every such d3plot, flag combination, element count, state, data and history of reads", "why_tests_cant": "all layouts", "anchors": ["src/d3plot.c:d3plot_read_thick_shells_state"]}
{"id": "C59", "title": "Beam state values are assigned to the right element and member", "statement": "In a supported d3plot reading the beams of a state assigns to element i the i-th group of NV1D words: six resultants, five values per integration point, average, minimum and maximum of the history variables, the history variables of every point; if NV1D fits no number of integration points up to 255, or the state does not exist, an error is reported; no memory outside of the arrays is touched.", "quantifier": "every supported d3plot, number of beams, points and history variables, state, data and history of reads", "why_tests_cant": "all layouts", "anchors": ["src/d3plot.c:d3plot_read_beams_state"]}
{"id": "C60", "title": "Mean values are the means over all integration points", "statement": "The mean of a shell or thick shell that was read has for every stress component, the effective plastic strain and every history variable the sum over mid, inner, outer and all additional integration points divided by their number.", "quantifier": "every shell and thick shell with at least three integration points, every floating point arithmetic", "why_tests_cant": "all numbers of points and history variables", "anchors": ["src/d3plot_state.c:d3plot_get_shell_mean", "src/d3plot_state.c:d3plot_get_thick_shell_mean"]}
{"id": "C61", "title": "A part is found by its id", "statement": "Reading a part by id, with ascending part ids (passed by the caller or read from the plot), returns the elements of the part whose id is at that place; an unknown id, or a plot without parts, is an error.", "quantifier": "every supported d3plot with an id section, ascending part ids, id and history of reads", "why_tests_cant": "all tables and ids", "anchors": ["src/d3plot.c:d3plot_read_part_by_id", "src/binary_search.c:d3_word_binary_search"]}
{"id": "C62", "title": "Arrays of the C++ API are values", "statement": "Any program that creates, copies, moves, assigns, reads, writes, compares and destroys dro::Array objects sees what independent values would show: a copy is unaffected by changes of the original, a moved-from array is empty, an index outside the array throws; no memory is used after it was freed or freed twice.", "quantifier": "every program of array operations, every content", "why_tests_cant": "all histories", "anchors": ["src/cpp/array.hpp:Array"]}
{"id": "C63", "title": "Destroyed arrays leave no memory behind", "statement": "When every dro::Array of a program has been destroyed, all memory it allocated or was given has been freed.", "quantifier": "every program of array operations", "why_tests_cant": "all histories", "anchors": ["src/cpp/array.hpp:Array"]}
{"id": "C64", "title": "The per-time-step arrays are the time steps and are freed exactly once", "statement": "The vector returned by the reading functions for all time steps has for every time step an array with the values of that step; writing to one does not change the others; destroying the vector in any order frees the memory exactly once.", "quantifier": "every number of steps and values per step, every program of element accesses and every order of destruction", "why_tests_cant": "all histories", "anchors": ["src/cpp/binout.hpp:Binout::read_timed", "src/cpp/d3plot.cpp:D3plot::read_all_node_coordinates"]}
{"id": "C65", "title": "String comparisons compare the characters", "statement": "Comparing dro::String and dro::SizedString objects with each other, with C strings and with std::string is true exactly if they contain the same characters, and reads no memory outside of them.", "quantifier": "every pair of strings", "why_tests_cant": "all contents and lengths", "anchors": ["src/cpp/array.hpp:String", "src/cpp/array.hpp:SizedString"]}
{"id": "C66", "title": "Characters of a string are accessed safely", "statement": "Indexing a dro::String returns the character or throws; iterating over it visits its characters.", "quantifier": "every string and index", "why_tests_cant": "all strings", "anchors": ["src/cpp/array.hpp:String"]}
{"id": "C67", "title": "Parsing an integer field as a C++ type gives its value or throws", "statement": "Card::parse<T>() for an integral type T returns the number written in the field if T can represent it, and throws an exception if it cannot or if the field is no number.", "quantifier": "every card, column, width and integral type", "why_tests_cant": "all fields", "anchors": ["src/cpp/key.hpp:Card::parse"]}
{"id": "C68", "title": "Parsing a whole card reads every field from its columns", "statement": "Card::parse_whole with given widths (ten columns by default) gives for every field the value written in its columns, 0 or the empty string for blank or missing fields, and throws for a number that its type cannot represent; no memory outside of the card is read.", "quantifier": "every card, number of fields, types and widths", "why_tests_cant": "all cards", "anchors": ["src/cpp/key.hpp:Card::parse_whole", "src/cpp/key.hpp:Card::parse_whole_width"]}
{"id": "C69", "title": "A copied card is independent, a card of a keyword is a view", "statement": "In every program that takes cards from keywords, copies, moves, assigns, parses and destroys them, views of one card share its parse position, copies have their own, the cards of the file stay intact, no memory is used after it was freed and copies are freed when they are destroyed.", "quantifier": "every program of card operations", "why_tests_cant": "all histories", "anchors": ["src/cpp/key.cpp:Card::operator=", "src/cpp/key.cpp:Card::~Card"]}
{"id": "C70", "title": "Looking up keywords gives exactly the keywords of that name", "statement": "keywords[name] gives a slice that, when iterated or indexed, has exactly the keywords of that name in file order and throws for indices outside of it; an unknown name throws; iterating over a keyword visits all its cards in order.", "quantifier": "every sorted keyword table and name", "why_tests_cant": "all tables and names", "anchors": ["src/cpp/key.cpp:Keywords::operator[]", "src/cpp/key.hpp:KeywordSlice::Iterator", "src/cpp/key.hpp:Keyword::CardsIterator"]}
{"id": "C71", "title": "A d3plot that opens without an error is consistent", "statement": "If d3plot_open succeeds without an error, the file is a d3plot of the supported kind (file type, dimensions, element ordering, no SPH, ALE, EFG or CFD data, at most 255 history variables and integration points), its id section repeats the numbers of nodes and elements of the control data and has the announced size, an end marker follows the model data, the header consists of known title blocks up to another end marker, and at least one file with states exists.", "quantifier": "every sound d3plot family with a non-negative number of solids", "why_tests_cant": "all files", "anchors": ["src/d3plot.c:d3plot_open", "src/d3plot_data.c:_d3plot_read_user_identification_numbers", "src/d3plot_data.c:_d3plot_read_header"]}
{"id": "C72", "title": "Parts are values", "statement": "Programs that read, copy, move, assign, look at, modify and destroy D3plotPart objects see eight independent lists per object: changing one part never changes another, a moved-from part is empty, and nothing undefined happens.", "quantifier": "every sequence of operations on parts", "why_tests_cant": "depends on aliasing between arbitrary sequences of copies and moves", "anchors": ["src/cpp/d3plot_part.cpp: D3plotPart::operator=, ~D3plotPart, get_solid_elements", "src/d3plot.c: d3plot_free_part"]}
{"id": "C73", "title": "Destroying parts gives back all their memory", "statement": "After every D3plotPart of a program has been destroyed no memory obtained for parts is left allocated.", "quantifier": "every sequence of operations on parts", "why_tests_cant": "leaks depend on the whole history of copies and assignments", "anchors": ["src/cpp/d3plot_part.cpp: D3plotPart::operator=", "src/d3plot.c: d3plot_free_part"]}
{"id": "C74", "title": "The nodes of a part do not depend on the tables a caller passes", "statement": "D3plotPart::get_node_ids, get_node_indices and get_num_nodes give exactly the nodes of the elements of the part, whichever of the (correct) id and connectivity tables of the plot are passed to speed them up.", "quantifier": "every opened plot with ids, part and choice of passed tables", "why_tests_cant": "quantifies over all plots and all subsets of tables", "anchors": ["src/cpp/d3plot_part.cpp: D3plotPart::get_node_ids, get_node_indices, get_num_nodes"]}
{"id": "C75", "title": "Titles are returned without their trailing blanks", "statement": "D3plot::read_title and D3plot::read_part_titles return the titles written in the file without the blanks that pad them, and read no memory behind them.", "quantifier": "every opened plot and every title", "why_tests_cant": "all titles", "anchors": ["src/cpp/d3plot.cpp: D3plot::read_title, D3plot::read_part_titles"]}
{"id": "C76", "title": "IncludeTransform objects are values", "statement": "In every program that parses, copies, moves, assigns, reads and destroys IncludeTransform objects, each object has its own file name, prefix, suffix, temperature flag and numbers; a moved-from object is empty; nothing undefined happens.", "quantifier": "every sequence of operations on IncludeTransform objects", "why_tests_cant": "all histories", "anchors": ["src/cpp/include_transform.cpp: IncludeTransform::operator=, ~IncludeTransform", "src/include_transform.c: key_free_include_transform"]}
{"id": "C77", "title": "Destroying IncludeTransform objects gives back all their memory", "statement": "After every IncludeTransform of a program has been destroyed no string of them is left allocated.", "quantifier": "every sequence of operations on IncludeTransform objects", "why_tests_cant": "leaks depend on the whole history", "anchors": ["src/cpp/include_transform.cpp: IncludeTransform::operator=", "src/include_transform.c: key_free_include_transform"]}
{"id": "C78", "title": "DefineTransformation objects are values", "statement": "In every program that parses, copies, moves, assigns, extends card by card, reads and destroys DefineTransformation objects, each object has its own number, title and options; reading a missing title or option throws; nothing undefined happens.", "quantifier": "every sequence of operations on DefineTransformation objects", "why_tests_cant": "all histories", "anchors": ["src/cpp/include_transform.cpp: DefineTransformation::operator=, ~DefineTransformation", "src/include_transform.c: key_free_define_transformation, key_parse_define_transformation_card"]}
{"id": "C79", "title": "Destroying DefineTransformation objects gives back all their memory", "statement": "After every DefineTransformation of a program has been destroyed no title, option or name of them is left allocated.", "quantifier": "every sequence of operations on DefineTransformation objects", "why_tests_cant": "leaks depend on the whole history", "anchors": ["src/cpp/include_transform.cpp: DefineTransformation::operator=", "src/include_transform.c: key_free_define_transformation"]}
{"id": "C80", "title": "Handles, exceptions and strings can be used together in any order", "statement": "In every program that opens, reads, moves, assigns and destroys D3plot and Binout objects, catches their exceptions and keeps strings they hand out, each operation on a living object is defined and shows the message or name it should.", "quantifier": "every sequence of operations on handles, exceptions and strings", "why_tests_cant": "all histories", "anchors": ["src/cpp/d3plot.cpp: D3plot::D3plot, operator=, ~D3plot, Exception", "src/cpp/binout.cpp: Binout::Binout, operator=, ~Binout, Exception"]}
{"id": "C81", "title": "The message of an exception and the name of an entry stay readable", "statement": "what() of an exception thrown by D3plot or Binout, and every string from get_children, shows its text for as long as the exception or string object exists.", "quantifier": "every failing operation and everything that happens afterwards", "why_tests_cant": "depends on what happens between throwing and looking", "anchors": ["src/cpp/d3plot.cpp: D3plot::Exception", "src/cpp/binout.cpp: Binout::Exception, Binout::get_children"]}
{"id": "C82", "title": "Destroying handles gives back all their memory", "statement": "After all D3plot and Binout objects, exceptions and strings of a program have been destroyed no memory obtained for them is left allocated.", "quantifier": "every sequence of operations on handles, exceptions and strings", "why_tests_cant": "leaks depend on the whole history", "anchors": ["src/binout.c: binout_close", "src/d3plot.c: d3plot_close", "src/d3_buffer.c: d3_buffer_close", "src/binout_directory.c: binout_directory_free"]}
{"id": "C83", "title": "Closing releases everything and may be repeated", "statement": "d3plot_close and binout_close release everything opening and any number of (failed or successful) reads allocated and nothing else; closing a closed handle again does nothing.", "quantifier": "every handle, every sequence of reads", "why_tests_cant": "all histories", "anchors": ["src/d3plot.c: d3plot_close", "src/binout.c: binout_close", "src/multi_file.c: multi_file_close"]}
{"id": "C84", "title": "The Python class Binout reads what the file holds", "statement": "In Python, Binout.read(path) of a variable returns an array of the variable's type with exactly the recorded bytes, also if the folder metadata is left out of the path; of a variable of the time steps it returns one array for each time step in ascending order; a path that names nothing raises an exception which names the path; variable_exists, get_type_id and get_num_timesteps agree with read.", "quantifier": "every binout file, every path, every number of time steps", "why_tests_cant": "all files and paths", "anchors": ["src/python/pybind11_binout.cpp: add_binout_library_to_module", "src/cpp/binout.cpp: Binout::simple_path_to_real, Binout::read, Binout::read_timed"]}
{"id": "C85", "title": "Reading a folder in Python lists it", "statement": "In Python, Binout.read(path) of a folder returns the names of its entries in order; a folder of time steps is returned as the sorted names of its metadata and of the variables of its first step.", "quantifier": "every binout file, every folder", "why_tests_cant": "all files and folders", "anchors": ["src/python/pybind11_binout.cpp: add_binout_library_to_module", "src/cpp/binout.cpp: Binout::get_children"]}
{"id": "C86", "title": "The Python class Card returns the values of the fields", "statement": "In Python, Card.parse returns the value of the current field as int, float or str, or None if it is blank; Card.parse_whole returns one such value for every field of the card, with the given widths or with fields of ten columns.", "quantifier": "every card, every list of widths", "why_tests_cant": "all texts and widths", "anchors": ["src/python/pybind11_key.cpp: key_library_add_card", "src/key.c: card_parse_get_type_width, card_parse_string_width"]}
{"id": "C87", "title": "Arrays and strings compare and index in Python as lists and str do", "statement": "In Python, an array compared with a list, a tuple, a str or another array is equal exactly if all elements agree; strings are ordered as str is; a[i] and a[i] = x access the element i or raise IndexError; a new array has room for all its elements.", "quantifier": "every array, every other operand, every index", "why_tests_cant": "all contents and sizes", "anchors": ["src/python/conversions.hpp: array_equals, array_getitem, array_setitem, add_array_type_to_module", "src/cpp/array.hpp: Array<T>::New"]}
{"id": "C88", "title": "Iterating in Python yields the elements and ends", "statement": "In Python, for x in seq over an array, over the keywords with a name and over the cards of a keyword yields all elements in order and then stops.", "quantifier": "every array, keyword and slice", "why_tests_cant": "all lengths", "anchors": ["src/python/pybind11_key.cpp: KeywordSlice, Keyword __getitem__", "src/python/conversions.hpp: array_getitem"]}
{"id": "C89", "title": "An object taken from another one in Python stays usable", "statement": "In Python, a keyword, a card or an element of an array taken from another object shows the same content for as long as it is referenced, whatever happens to the object it was taken from.", "quantifier": "every sequence of creating, indexing, using and dropping objects", "why_tests_cant": "depends on the order in which references go away", "anchors": ["src/python/pybind11_key.cpp: Keywords/KeywordSlice/Keyword __getitem__", "src/python/conversions.hpp: add_array_type_to_module", "src/cpp/key.cpp: Keyword, KeywordSlice, Card"]}
{"id": "C90", "title": "Freeing element states gives back all their memory", "statement": "d3plot_free_shells_state, d3plot_free_thick_shells_state and d3plot_free_beams_state accept what the readers return (or NULL) and give back everything the read allocated and nothing else; a read that fails leaves nothing allocated.", "quantifier": "every opened plot, every state, every heap the read starts with", "why_tests_cant": "leaks and invalid frees depend on the file's counts and on where a read fails", "anchors": ["src/d3plot.c: d3plot_read_shells_state, d3plot_read_thick_shells_state, d3plot_read_beams_state, d3plot_free_shells_state, d3plot_free_thick_shells_state, d3plot_free_beams_state"]}
{"id": "C91", "title": "Element states in C++ are values that own their memory", "statement": "In C++, an array of shells or thick shells (and of beams) read from a plot behaves like a value: moving, copying and assigning it keep the elements of the file visible in every copy; every element, its history variables at every integration point and the means show the file's numbers; indices out of range throw; when all objects are gone, all memory is given back exactly once.", "quantifier": "every program of reads, moves, copies, assignments, accesses, means and destructions, every plot", "why_tests_cant": "double frees and leaks depend on the history of the objects", "anchors": ["src/cpp/d3plot.cpp: D3plot::read_shells_state, read_thick_shells_state, read_beams_state", "src/cpp/d3plot_state.hpp, src/cpp/d3plot_state.cpp: D3plotSurface, D3plotShell, D3plotThickShell, Array<D3plotShell>, Array<D3plotThickShell>", "src/cpp/array.hpp: Array<T>"]}
{"id": "C92", "title": "The profiler's report adds up", "statement": "With profiling compiled in, a program whose sections begin and end properly nested gets a report with one line for every distinct chain of section names that was entered, below the line of the section around it; its time is the sum over all entries of that chain of the time between begin and end without what the profiler itself took for the sections inside (a section directly inside of one with the same name counts as part of it). With a monotone clock no time is negative or longer than the section. END_PROFILING frees everything and leaves the profiler as at the start; if the file cannot be created nothing is lost; while a section runs nothing is written or freed.", "quantifier": "every program of nested sections, every name that fits, every sequence of clock readings", "why_tests_cant": "entries are kept in sorted growing arrays addressed by pointers that a realloc invalidates: right for every nesting and order, not just some", "anchors": ["src/profiling.c: _BEGIN_PROFILE_SECTION, _END_PROFILE_SECTION, END_PROFILING, free_profiling_stack", "src/binary_search.c: profiling_stack_binary_search_insert", "src/profiling.h: profiling_stack_t, profiling_context_t"]}
{"id": "C93", "title": "The profiler's report is sorted and lined up", "statement": "In the report the sections of every level are in descending order of their times, every line has a name column of 40 characters with one dash per level, and names of every length can be printed.", "quantifier": "every program of nested sections", "why_tests_cant": "the order depends on all the times, the buffer on the length and depth of the names", "anchors": ["src/profiling.c: partition_execution_times, quick_sort_execution_times, fprint_profiling_stack"]}
{"id": "C94", "title": "Single precision readers return the nearest floats", "statement": "The _32 readers of times and nodal vectors return, for every state, the numbers of the file: the stored words for single precision files; for double precision files each number rounded to the nearest float (ties to even, too large numbers become infinity, signs, infinities and NaNs are kept). The result is always the double precision reader's result rounded, a number that is a float is unchanged, and a missing state or vector is reported as an error.", "quantifier": "every opened plot of both word sizes, every state and nodal vector, every bit pattern", "why_tests_cant": "all 2^64 bit patterns, including ties, subnormal and overflowing ones", "anchors": ["src/d3plot.c: d3plot_read_time_32, d3plot_read_all_time_32, d3plot_read_node_coordinates_32, d3plot_read_node_velocity_32, d3plot_read_node_acceleration_32, d3plot_read_all_node_coordinates_32, d3plot_read_all_node_velocity_32, d3plot_read_all_node_acceleration_32, _d3plot_read_node_data_32"]}
{"id": "C95", "title": "All queries of an opened binout answer from its files", "statement": "After binout_open of any number of files (up to 256), every query says what the records of the files say: a variable exists if and only if a DATA record was written for its path and has the type of the last one; the children of a folder are its entries in ascending order; the number of time steps is the number of its entries named 'd' and digits; a timed read returns the bytes of all time steps in order; Python's read returns them as one array per step, metadata without naming the folder, and single variables as one array.", "quantifier": "every list of files of every supported record format, every sequence of CD, DATA and other records, every path", "why_tests_cant": "the answers depend on the records of all files together", "anchors": ["src/binout.c: binout_open, binout_variable_exists, binout_get_type_id, binout_get_children, binout_get_num_timesteps, binout_simple_path_to_real", "src/binout_read.c: _binout_read, _binout_read_timed", "src/binout_directory.c", "src/python/pybind11_binout.cpp: Binout_read"]}
{"id": "C96", "title": "A key file that was written is read back", "statement": "A key file written as lines '*NAME' and card lines, ended by line feeds or carriage return and line feed, with any remark lines in between and *END at the end, is read back: the callbacks are the written keywords and cards in order; the parsed table contains exactly them; asking for the i-th keyword of a name finds the i-th one written with its cards, asking for a name that was not written finds nothing. A table of integers written right aligned in columns is read back number by number. Line ends, remarks, chunk size and file name do not change the result.", "quantifier": "every list of keywords and cards, every layout, every chunk size, every integer that fits its column", "why_tests_cant": "composes the line reader, keyword table, search and card parser for all contents at once", "anchors": ["src/key.c: key_file_parse, key_file_parse_with_callback, key_file_get, card_parse_int_width, card_parse_next_width, card_parse_done", "src/line.c"]}
{"id": "C97", "title": "A keyword table owns its memory", "statement": "For every file that key_file_parse can collect into a table (C11 says which ones it cannot), what it returns is in memory of its own: following the pointers gives the keywords and their cards, no two pointers lead to the same block, everything that was allocated and not freed while parsing is part of the table, and all other memory is unchanged. After a parse error NULL and 0 are returned and everything allocated is freed. key_file_free frees every block of the table, each once, and changes nothing else. Tables of several parses are independent: either can be freed while the other is used.", "quantifier": "every key file and every order of keywords and cards, every state of the memory before", "why_tests_cant": "every keyword and card reallocates an array, copies a string and shifts a table of pointers: no leak, double free or use after free for any sequence", "anchors": ["src/key.c: key_file_parse, key_file_parse_callback, key_file_free", "src/key.h: keyword_t, card_t"]}
{"id": "C98", "title": "d3plot families with more files than may be open (build without thread safety)", "statement": "In the build without thread safety a family of files may have more files than the process may open. Opening such a family opens as many as possible and detects the word size as with all files open. Every sequence of reads delivers the bytes of the family, with the errors of the thread safe build, wherever the position lies; the number of open files never exceeds the limit and none is left open without being known.", "quantifier": "every family, every limit, every set of open files, every position and sequence of reads", "why_tests_cant": "which files are open depends on all reads before", "anchors": ["src/d3_buffer.c: d3_buffer_open, d3_buffer_read_words, d3_buffer_next_file, d3_buffer_seek, d3_buffer_skip_words", "src/multi_file.c: multi_file_open, multi_file_close, multi_file_seek, multi_file_read"]}
{"id": "C99", "title": "The float or double read from a field is the nearest one", "statement": "Parsing a field digits.digits as float (double) returns the number of the type nearest to the decimal number written there, as strtod does and as the compiler reads the same literal; whole numbers are exact.", "quantifier": "every card text of this form", "why_tests_cant": "all digit strings; the error depends on every digit", "anchors": ["src/key.c:card_parse_float64_width", "src/key.c:card_parse_float32_width"]}
{"id": "C100", "title": "A d3plot that was written is read back", "statement": "A d3plot written as the LS-DYNA database manual says, with nodes, solids, beams, shells and thick shells, user ids, part ids and titles, and states with times, global values, nodal vectors, element values, strains and history variables, with words of 4 or 8 bytes and the states distributed over any number of files, is read back: opening it by name finds all files, the word size and all states without an error; ids, connectivities (zero based), titles, times, vectors and the values of every element of every state are the written ones, as doubles with the same values.", "quantifier": "every model of this kind, every number of elements, parts, integration points, history variables, states and files", "why_tests_cant": "composes the file family, control data, geometry, ids, header and all state readers for every combination of counts", "anchors": ["src/d3plot.c: d3plot_open, d3plot_read_node_ids, d3plot_read_solid_elements, d3plot_read_part_titles, d3plot_read_time, d3plot_read_solids_state, d3plot_read_shells_state, d3plot_read_thick_shells_state, d3plot_read_beams_state", "src/d3_buffer.c: d3_buffer_open", "src/d3plot_data.c", "src/d3plot_state.c"]}
{"id": "C101", "title": "The files of a pattern on Windows", "statement": "Opening a binout with a pattern finds the files whose names match: every name the system reports becomes the path made of the folder part of the pattern and the name, in the same order, and none is lost; a pattern without a folder gives the names themselves.", "quantifier": "every pattern, every list of names", "why_tests_cant": "memory is moved inside of each name; whether that is defined depends on all lengths", "anchors": ["src/binout_glob.c: binout_glob"]}
{"id": "C102", "title": "Readers of d3plot keep no memory", "statement": "Every function of d3plot.h that returns an array, strings or a part allocates what it returns and nothing else: after the call all memory from before is as it was, the returned pointers are the starts of different blocks, NULL is returned exactly for no values, and no other block is left, also after errors of reading; a returned array has room for exactly the values in it. So freeing what was returned (d3plot_free_part for a part) leaves memory as it was before the call; nothing is freed twice or used after it was freed.", "quantifier": "every opened or damaged plot, every file contents, every part and every combination of tables passed to the functions for nodes, every state of the memory before", "why_tests_cant": "every path through a reader, including every error, has its own frees; a leak has no visible effect", "anchors": ["src/d3plot.c: d3plot_read_node_ids, d3plot_read_all_element_ids, d3plot_read_part_ids, d3plot_read_part_titles, d3plot_read_title, d3plot_read_all_time, d3plot_read_solid_elements, d3plot_read_part, d3plot_read_part_by_id, d3plot_free_part, _d3plot_read_node_data, _insert_sorted", "src/d3plot_part_nodes.c: d3plot_part_get_node_ids2, d3plot_part_get_node_indices2, d3plot_part_get_num_nodes2", "src/pgni.h"]}
{"id": "C103", "title": "Readers of binout keep no memory", "statement": "Every function of binout.h that asks something of an open handle (binout_get_type_id, binout_get_children, binout_open_error, binout_read_*, binout_read_*_timed, binout_simple_path_to_real) leaves, besides what was there before, exactly its result and the handle's error string: the result is NULL exactly if the call failed (or there is no error to report), the error string exactly if there is no error; the error string of the call before is freed; an array read has room for exactly its values, an array of children for exactly its names, an error string and a path for exactly their text and its terminator. A search for a variable that fails in the middle of its path, a time step that cannot be read and a path without a variable give back what they had allocated. So after any sequence of calls, freeing the results that are left and the error string gives back all memory; nothing is freed twice or used after it was freed.", "quantifier": "every directory tree and files, every path, every type, every sequence of calls with frees in between, every state of the memory before", "why_tests_cant": "every path through a reader, including every error, has its own frees; a leak has no visible effect", "anchors": ["src/binout_read.c: _binout_read, _binout_search_timed, timed_path_free, _binout_read_timed", "src/binout.c: binout_get_type_id, binout_get_children, binout_free_children, binout_open_error, binout_simple_path_to_real", "src/binout_defines.h: NEW_ERROR_STRING, BINOUT_CLEAR_ERROR_STRING", "src/string_builder.c: string_clone, string_builder_append, string_builder_move, string_builder_free"]}
{"id": "C104", "title": "D3plot's readers return objects that own everything, or throw", "statement": "Every reader of dro::D3plot (ids, connectivity, titles, times, nodal vectors of a state or of all states, parts) throws exactly if the C function reports an error, with that error; then all memory from before is as it was and nothing else is left. Otherwise it returns the C function's values in objects that own all memory that was allocated: the memory of an array, of every title, of a part; the arrays of all states share one block, which the first one owns, array t showing the values of state t. Destroying the objects, in any order, leaves memory as it was before the call.", "quantifier": "every opened or damaged plot, every part, state and vector, every state of the memory before, every order of destruction", "why_tests_cant": "ownership passes from C to C++ on every path, and an exception discards what the C function returned; a leak has no visible effect", "anchors": ["src/cpp/d3plot.cpp: D3plot::read_node_ids, D3plot::read_all_element_ids, D3plot::read_part_titles, D3plot::read_title, D3plot::read_all_time, D3plot::read_node_coordinates, D3plot::read_all_node_velocity, D3plot::read_part, D3plot::read_part_by_id", "src/cpp/array.hpp: Array, String"]}
{"id": "C105", "title": "Binout's readers return objects that own everything, or throw", "statement": "Binout::read, read_timed, get_type_id, get_children and simple_path_to_real throw exactly if the C function reports an error or returns NULL, and then leave, besides what was there before, at most the handle's error string, which what() shows, or a message that the exception owns and that fits its buffer. Otherwise the handle has no error string after a read, and the returned objects own all memory the call has left: the block of an array has room for its values; the arrays of the time steps (at least one) lie one after the other in one block, which the first one owns; names and paths leave nothing. Destroying the objects, the arrays of the steps in any order, gives everything back.", "quantifier": "every directory tree and files, every path, every type, everything the client holds and every error string of the call before, every order of destruction", "why_tests_cant": "ownership passes from C to C++ on every path, and an exception discards what the C function returned; a leak has no visible effect", "anchors": ["src/cpp/binout.cpp: Binout_read, Binout_read_timed, Binout::get_type_id, Binout::get_children, Binout::simple_path_to_real", "src/cpp/array.hpp: Array, String"]}
{"id": "C106", "title": "Errors of d3plots have a message and leave the plot usable", "statement": "When a d3plot cannot be opened, or a call reads no data, the error string tells why: no such files, broken files, another file type (with its name), a read or seek that failed, a state that does not exist. Whatever the cause, the names and the number of errors before, building the message stays inside of its memory, and a call after a failed one works again if its own data can be read.", "quantifier": "every plot and file contents, every file name, every system message, every sequence of calls behind an error", "why_tests_cant": "the length of a message depends on names and on the calls before it", "anchors": ["src/d3_buffer.c: ERROR_AND_NO_RETURN_BUFFER_F_PTR, d3_buffer_open, d3_buffer_seek, d3_buffer_read_words, d3_buffer_read_words_at, d3_buffer_next_file", "src/d3plot_error_macros.h", "src/d3plot.c: d3plot_open, d3plot_read_title, d3plot_read_epoch_run_time, d3plot_read_node_ids, d3plot_read_time, _d3plot_get_file_type_name"]}
{"id": "C107", "title": "The run time as a date", "statement": "d3plot_read_run_time returns what localtime makes of the stored time (NULL exactly if the read fails or localtime does), d3plot_read_epoch_run_time the stored time itself; both fail for the same plots. dro::D3plot::read_run_time returns the time point that is exactly the stored number of seconds after 1970, for every stored time, and throws exactly if the C function reports an error.", "quantifier": "every opened plot, both sizes of a word, every stored time, every localtime", "why_tests_cant": "the conversion to nanoseconds is only defined for some times", "anchors": ["src/d3plot.c: d3plot_read_run_time, d3plot_read_epoch_run_time", "src/cpp/d3plot.cpp: D3plot::read_run_time"]}
