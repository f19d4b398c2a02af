{
 "claims": [
  {
   "property": "C01",
   "status": "proved",
   "theorems": [
    "C01_map_invariant"
   ],
   "note": ""
  },
  {
   "property": "C02",
   "status": "proved",
   "theorems": [
    "C02_replace_exact",
    "C02_begin_out_of_range"
   ],
   "note": ""
  },
  {
   "property": "C03",
   "status": "partial",
   "theorems": [
    "C03_deletion_refuted",
    "C03_append_refuted",
    "C03_deletion_partial"
   ],
   "note": "The code violates the property: deleting at the end (or replacing at begin == len) breaks the map (C03_deletion_refuted, C03_append_refuted). C03_deletion_partial proves the guarantee for deletions followed by at least one more character."
  },
  {
   "property": "C04",
   "status": "proved",
   "theorems": [
    "C04_original_index"
   ],
   "note": ""
  },
  {
   "property": "C05",
   "status": "proved",
   "theorems": [
    "C05_substring"
   ],
   "note": ""
  },
  {
   "property": "C06",
   "status": "proved",
   "theorems": [
    "C06_byte_length",
    "C06_utf8_decodable"
   ],
   "note": ""
  },
  {
   "property": "C07",
   "status": "proved",
   "theorems": [
    "C07_runs"
   ],
   "note": ""
  },
  {
   "property": "C08",
   "status": "partial",
   "theorems": [
    "C08_common_categories_partial",
    "C08_completeness_refuted"
   ],
   "note": "The code violates completeness when the span starts inside a run (C08_completeness_refuted, text 'abc' with overlapping categories). C08_common_categories_partial proves soundness for every span and completeness from run starts and for single characters."
  },
  {
   "property": "C09",
   "status": "proved",
   "theorems": [
    "C09_code_points"
   ],
   "note": ""
  },
  {
   "property": "C10",
   "status": "proved",
   "theorems": [
    "C10_word_candidates"
   ],
   "note": ""
  },
  {
   "property": "C11",
   "status": "proved",
   "theorems": [
    "C11_default_rewrite"
   ],
   "note": ""
  },
  {
   "property": "C12",
   "status": "partial",
   "theorems": [
    "C12_prolonged_sound_mark_partial",
    "C12_long_symbol_refuted",
    "C12_empty_symbol_refuted"
   ],
   "note": "The code keeps the promise only for a one-character replacement symbol (C12_prolonged_sound_mark_partial): with a longer symbol later runs are misplaced (C12_long_symbol_refuted) and an empty symbol behaves differently (C12_empty_symbol_refuted)."
  },
  {
   "property": "C13",
   "status": "proved",
   "theorems": [
    "C13_category_union",
    "C13_never_empty",
    "C13_no_range_fails"
   ],
   "note": "Holds for every non-empty definition; an empty one makes loading fail with IndexError (C13_no_range_fails), which is outside the property's quantifier."
  },
  {
   "property": "C14",
   "status": "proved",
   "theorems": [
    "C14_table_and_order"
   ],
   "note": ""
  },
  {
   "property": "C15",
   "status": "proved",
   "theorems": [
    "C15_minimal_cost",
    "C15_considered_words"
   ],
   "note": ""
  },
  {
   "property": "C16",
   "status": "proved",
   "theorems": [
    "C16_fails_iff_no_analysis",
    "C16_gap_is_reported"
   ],
   "note": ""
  },
  {
   "property": "C17",
   "status": "partial",
   "theorems": [
    "C17_longer_texts_partial",
    "C17_overflow_refuted"
   ],
   "note": "C17_longer_texts_partial proves optimality for every text with (bytes + 1) * (largest connection + word cost) < 2^31 - 1. Beyond that the 32-bit total wraps around: C17_overflow_refuted (a configured OOV cost of 2^31 - 1)."
  },
  {
   "property": "C18",
   "status": "proved",
   "theorems": [
    "C18_path_tiles"
   ],
   "note": ""
  },
  {
   "property": "C19",
   "status": "proved",
   "theorems": [
    "C19_first_inserted_wins"
   ],
   "note": ""
  },
  {
   "property": "C20",
   "status": "partial",
   "theorems": [
    "C20_shipped_partial",
    "C20_history_independent_partial",
    "C20_after_failure_refuted"
   ],
   "note": "Proved for every history without a failure while the lattice is in use (C20_history_independent_partial for any plugins that keep tilings, C20_shipped_partial for the shipped ones). After such a failure the lattice is not cleared and the next analysis can differ: C20_after_failure_refuted."
  },
  {
   "property": "C21",
   "status": "partial",
   "theorems": [
    "C21_shipped_partial",
    "C21_total_partial",
    "C21_dead_end_refuted"
   ],
   "note": "Proved when alphabetic characters have no second category and the MeCab providers group alphabetic categories (C21_total_partial; C21_shipped_partial with the shipped input and rewriting plugins, for texts of at most 32766 UTF-8 bytes). Otherwise a text can have no analysis: C21_dead_end_refuted."
  },
  {
   "property": "C22",
   "status": "partial",
   "theorems": [
    "C22_same_cost_partial",
    "C22_tie_refuted"
   ],
   "note": "The cost of the analysis and whether there is one do not depend on the iteration order (C22_same_cost_partial); which of two equally cheap analyses is chosen does (C22_tie_refuted)."
  },
  {
   "property": "C23",
   "status": "proved",
   "theorems": [
    "C23_shipped",
    "C23_surfaces_concatenate"
   ],
   "note": ""
  },
  {
   "property": "C24",
   "status": "partial",
   "theorems": [
    "C24_shipped_partial",
    "C24_split_coverage_partial",
    "C24_split_refuted"
   ],
   "note": "Proved when the units of each word are together as long as the word (C24_split_coverage_partial). The dictionary builder does not check that: C24_split_refuted. C88 has the word lists for which it holds."
  },
  {
   "property": "C25",
   "status": "proved",
   "theorems": [
    "C25_shipped",
    "C25_split_of_C"
   ],
   "note": ""
  },
  {
   "property": "C26",
   "status": "proved",
   "theorems": [
    "C26_mecab_sound"
   ],
   "note": ""
  },
  {
   "property": "C27",
   "status": "partial",
   "theorems": [
    "C27_lengths_offered_partial",
    "C27_lengths_refuted"
   ],
   "note": "The code shortens the length limit once per OOV entry of a grouped category; proved where that makes no difference (C27_lengths_offered_partial), refuted otherwise (C27_lengths_refuted)."
  },
  {
   "property": "C28",
   "status": "partial",
   "theorems": [
    "C28_first_eight_partial",
    "C28_ninth_refuted"
   ],
   "note": "Proved for the dictionaries 0..7 (C28_first_eight_partial). Word ids of later dictionaries do not fit the C int of a lattice node: C28_ninth_refuted."
  },
  {
   "property": "C29",
   "status": "proved",
   "theorems": [
    "C29_katakana"
   ],
   "note": ""
  },
  {
   "property": "C30",
   "status": "proved",
   "theorems": [
    "C30_numbers"
   ],
   "note": ""
  },
  {
   "property": "C31",
   "status": "partial",
   "theorems": [
    "C31_no_end_partial",
    "C31_ends_partial",
    "C31_user_word_refuted"
   ],
   "note": "Proved when no word of digits has a comma or point in its normalised form (C31_ends_partial), and the model's fuel is shown to be enough for every loop that ends (C31_no_end_partial). A user-dictionary word with the normalised form ',5' for the text '5' makes the plugin loop forever (C31_user_word_refuted)."
  },
  {
   "property": "C32",
   "status": "proved",
   "theorems": [
    "C32_value"
   ],
   "note": ""
  },
  {
   "property": "C33",
   "status": "proved",
   "theorems": [
    "C33_canonical"
   ],
   "note": ""
  },
  {
   "property": "C34",
   "status": "partial",
   "theorems": [
    "C34_thousands_partial",
    "C34_thousands_refuted"
   ],
   "note": "Proved for numerals of digits and commas, optionally followed by a point and anything (C34_thousands_partial). The comma state is not reset correctly at units and after a point: 1,2万, 1,万 and 1.2,345 are accepted (C34_thousands_refuted)."
  },
  {
   "property": "C35",
   "status": "partial",
   "theorems": [
    "C35_value_partial",
    "C35_value_refuted"
   ],
   "note": "Proved when the joined words are a complete numeral by themselves, which is always so unless a following comma or point completed the parse (C35_value_partial). In '百123.' the words 百123 get the normalised form '0' (C35_value_refuted)."
  },
  {
   "property": "C36",
   "status": "partial",
   "theorems": [
    "C36_again_partial",
    "C36_again_refuted"
   ],
   "note": "Proved for digits and commas (C36_again_partial); converting a number with a point or a unit changes it: the second call answers 1..5 for 1.5 (C36_again_refuted)."
  },
  {
   "property": "C37",
   "status": "proved",
   "theorems": [
    "C37_ids",
    "C37_too_large"
   ],
   "note": "For every set and every dictionary it has."
  },
  {
   "property": "C38",
   "status": "proved",
   "theorems": [
    "C38_finds",
    "C38_order"
   ],
   "note": "For every set of dictionaries made from sources by the build commands and loaded (C38_finds: exactly the words; C38_order: none twice, user dictionaries first)."
  },
  {
   "property": "C39",
   "status": "proved",
   "theorems": [
    "C39_part_of_speech"
   ],
   "note": "For every number of user dictionaries built with the system dictionary they are loaded with, in the terms of the rows of their sources."
  },
  {
   "property": "C40",
   "status": "proved",
   "theorems": [
    "C40_splits",
    "C40_other_columns"
   ],
   "note": "Every split and structure id of every loaded word denotes a word of the system dictionary or of its own dictionary."
  },
  {
   "property": "C41",
   "status": "proved",
   "theorems": [
    "C41_transparent"
   ],
   "note": "For every history of added dictionaries and calls; ids are not negative."
  },
  {
   "property": "C42",
   "status": "partial",
   "theorems": [
    "C42_lexicon",
    "C42_built",
    "C42_one_lexicon_partial",
    "C42_several_refuted",
    "C42_set",
    "C42_size",
    "C42_rows"
   ],
   "note": "Right for a lexicon and for a set of one (C42_lexicon, C42_built, C42_one_lexicon_partial); C42_set says exactly what a set of any number of lexicons answers; with user dictionaries words that are there are not found (C42_several_refuted). C42_size, C42_rows: the size of the set is the number of rows of all its sources."
  },
  {
   "property": "C43",
   "status": "proved",
   "theorems": [
    "C43_loaded",
    "C43_costs"
   ],
   "note": "For every lexicon and analysis (C43_costs) and as seen after loading (C43_loaded)."
  },
  {
   "property": "C44",
   "status": "partial",
   "theorems": [
    "C44_forms_partial",
    "C44_endless",
    "C44_cycle_refuted"
   ],
   "note": "For every word whose chain of dictionary forms ends within the recursion limit (C44_forms_partial). The builder accepts cyclic references, for which every read is a RecursionError (C44_endless, C44_cycle_refuted)."
  },
  {
   "property": "C45",
   "status": "proved",
   "theorems": [
    "C45_position",
    "C45_repeatable"
   ],
   "note": ""
  },
  {
   "property": "C46",
   "status": "partial",
   "theorems": [
    "C46_interleaving_refuted",
    "C46_whole_calls_partial"
   ],
   "note": "Refuted: two threads that are switched inside a call get each other's words (C46_interleaving_refuted). What holds is that whole calls of other threads between the operations of a call do no harm (C46_whole_calls_partial)."
  },
  {
   "property": "C47",
   "status": "partial",
   "theorems": [
    "C47_header_partial",
    "C47_accepted",
    "C47_negative_time_refuted"
   ],
   "note": "Round trip, size and rejection for creation times that are not negative (C47_header_partial, C47_accepted); a negative time is written signed and read unsigned (C47_negative_time_refuted)."
  },
  {
   "property": "C48",
   "status": "partial",
   "theorems": [
    "C48_strings_partial",
    "C48_basic_plane_partial",
    "C48_refuted"
   ],
   "note": "Strings of fewer than 32768 UTF-16 units, hence all accepted strings of the basic plane; 16384 characters beyond it pass the builder's check and are read back as the empty string (C48_refuted)."
  },
  {
   "property": "C49",
   "status": "proved",
   "theorems": [
    "C49_int_arrays",
    "C49_parameters"
   ],
   "note": "For every list and every entry: read back as written, or OverflowError."
  },
  {
   "property": "C50",
   "status": "proved",
   "theorems": [
    "C50_word_id_table"
   ],
   "note": "For every source the builder accepts and whose table can be written."
  },
  {
   "property": "C51",
   "status": "partial",
   "theorems": [
    "C51_word_infos_partial",
    "C51_empty_form_refuted"
   ],
   "note": "For whole built dictionaries with readable tables and strings of fewer than 32768 units, whose chains of dictionary forms end; an empty normalised form or reading is read back as the surface (C51_empty_form_refuted)."
  },
  {
   "property": "C52",
   "status": "proved",
   "theorems": [
    "C52_no_overlap"
   ],
   "note": "For every lexicon that is written."
  },
  {
   "property": "C53",
   "status": "partial",
   "theorems": [
    "C53_part_of_speech_table_partial",
    "C53_comma_refuted",
    "C53_length_refuted"
   ],
   "note": "For components without commas, of at most 127 units and not starting with a byte order mark; commas and longer components refute the full statement."
  },
  {
   "property": "C54",
   "status": "partial",
   "theorems": [
    "C54_matrix_partial",
    "C54_not_square_refuted"
   ],
   "note": "For square matrices whose last cell is given; refuted for a matrix that is not square."
  },
  {
   "property": "C55",
   "status": "partial",
   "theorems": [
    "C55_opens_partial",
    "C55_short_matrix_refuted"
   ],
   "note": "For the whole file of the build command, system and user, under the conditions of C51, C53 and C54 on its parts; the trie is any index that meets trie_contract (P_DicLexicon), which P_DicToy shows can be met. A matrix without its last cell shifts the sections (C55_short_matrix_refuted)."
  },
  {
   "property": "C56",
   "status": "proved",
   "theorems": [
    "C56_never_dangles",
    "C56_word_reference",
    "C56_read_back"
   ],
   "note": "For both builders; of the system lexicon of a user dictionary it is assumed that get_word_id answers with ids that it has (system_ids)."
  },
  {
   "property": "C57",
   "status": "partial",
   "theorems": [
    "C57_four_or_five_partial",
    "C57_kept_partial",
    "C57_two_digits_refuted",
    "C57_six_digits_refuted"
   ],
   "note": "Right for \\uXXXX and for \\u{...} with four or five digits; fewer digits are an error, with six the number is cut (C57_two_digits_refuted, C57_six_digits_refuted)."
  },
  {
   "property": "C58",
   "status": "proved",
   "theorems": [
    "C58_accepted",
    "C58_errors",
    "C58_rejected",
    "C58_part_of_speech"
   ],
   "note": "ValueError or its subclass UnicodeError; int() is a parameter that raises nothing but ValueError."
  },
  {
   "property": "C59",
   "status": "proved",
   "theorems": [
    "C59_versions",
    "C59_files",
    "C59_old_versions"
   ],
   "note": ""
  },
  {
   "property": "C60",
   "status": "proved",
   "theorems": [
    "C60_set_up",
    "C60_dictionary_opened",
    "C60_user_dictionaries",
    "C60_unknown_type",
    "C60_history_free"
   ],
   "note": "For every configuration, file system and set of packages, after any earlier set-up. The ValueError of an unknown dict_type comes after the configuration was read."
  },
  {
   "property": "C61",
   "status": "partial",
   "theorems": [
    "C61_framing_partial",
    "C61_broken_off_partial",
    "C61_line_end_refuted"
   ],
   "note": "For every list of input files without -d, when surfaces tile the line and no form in the dictionaries has a line end (C61_framing_partial; with an exception C61_broken_off_partial). The builder accepts such forms by escapes, and then the frame is wrong (C61_line_end_refuted). Encoding errors of the output stream, which logging drops, are not modelled."
  },
  {
   "property": "C62",
   "status": "proved",
   "theorems": [
    "C62_sequence"
   ],
   "note": ""
  },
  {
   "property": "C63",
   "status": "partial",
   "theorems": [
    "C63_oov_partial",
    "C63_without_numbers_partial",
    "C63_number_refuted"
   ],
   "note": "An out-of-vocabulary morpheme always has the id -1 (C63_oov_partial); the converse holds without the numeric plugin (C63_without_numbers_partial). A joined number has the id -1 but is not out-of-vocabulary (C63_number_refuted)."
  },
  {
   "property": "C64",
   "status": "partial",
   "theorems": [
    "C64_definition_file",
    "C64_nothing_else",
    "C64_indented_refuted"
   ],
   "note": "For every file that is read (C64_nothing_else: what an accepted file looks like). As documented by the code a range line starts in the first column: an indented one is passed over in silence (C64_indented_refuted)."
  },
  {
   "property": "C65",
   "status": "partial",
   "theorems": [
    "C65_set_up",
    "C65_nothing_else",
    "C65_candidates_partial",
    "C65_unknown_pos_refuted"
   ],
   "note": "For every pair of files and grammar, when the parts of speech are in the grammar (C65_candidates_partial); one that is not gets id -1 and shows as the last part of speech of the grammar (C65_unknown_pos_refuted)."
  },
  {
   "property": "C66",
   "status": "proved",
   "theorems": [
    "C66_rewrite_file",
    "C66_nothing_else"
   ],
   "note": "For every file, text and earlier editing."
  },
  {
   "property": "C67",
   "status": "proved",
   "theorems": [
    "C67_rows"
   ],
   "note": "For every table and every way of writing it; csv.reader's field size limit is not modelled."
  },
  {
   "property": "C68",
   "status": "partial",
   "theorems": [
    "C68_matrix_partial",
    "C68_nothing_else"
   ],
   "note": "For square matrices that give the last cell (C68_matrix_partial): the reader of the binary dictionary and the writer disagree on others (see C54)."
  },
  {
   "property": "C69",
   "status": "proved",
   "theorems": [
    "C69_dictionary_words",
    "C69_headwords"
   ],
   "note": "For every configuration whose dictionaries were built from sources (with the trie contract of dartsclone and dictionary forms that end within the recursion limit), all texts and modes. The character definitions give each range a category."
  },
  {
   "property": "C70",
   "status": "partial",
   "theorems": [
    "C70_part_of_speech_partial",
    "C70_unknown_refuted"
   ],
   "note": "When the system dictionary has the configured parts of speech (C70_part_of_speech_partial). Otherwise words show the last part of speech of the last user dictionary, without an error (C70_unknown_refuted)."
  },
  {
   "property": "C71",
   "status": "partial",
   "theorems": [
    "C71_inhibited_partial",
    "C71_analyses_partial"
   ],
   "note": "From the files: what is asked of them is the record complete of P_Live.v (simple OOV provider last, costs are shorts, alphabetic categories grouped and alone, no digit is a comma or point, numeral plugin first, no inhibited connection, a matrix with cells for all ids of words and OOV words, at most seven user dictionaries). C71_inhibited_partial does without the condition on inhibited connections: the text is analysed exactly when words make it up with no inhibited connection between them, and an AttributeError is raised otherwise. Missing: texts over 32766 bytes; surfaces in modes A and B need the split lengths of C24."
  },
  {
   "property": "C72",
   "status": "partial",
   "theorems": [
    "C72_cut_partial",
    "C72_same_words_partial",
    "C72_cut_refuted"
   ],
   "note": "True, for every file and cut, before the list of word parameters (C72_cut_partial); a file cut later that opens has the same grammar and finds the same words (C72_same_words_partial). False beyond: a cut file opens and the surface of a word is silently empty (C72_cut_refuted)."
  },
  {
   "property": "C73",
   "status": "partial",
   "theorems": [
    "C73_too_many",
    "C73_reported",
    "C73_enough",
    "C73_dictionary",
    "C73_used_refuted"
   ],
   "note": "The limit holds for every list of files and is exact (C73_too_many, C73_reported, C73_enough, C73_dictionary). False that fifteen can be used: from the eighth on a word of a user dictionary makes tokenize raise OverflowError, its id does not fit a C int (C73_used_refuted; C28)."
  },
  {
   "property": "C74",
   "status": "partial",
   "theorems": [
    "C74_files",
    "C74_history",
    "C74_resource_dir_refuted"
   ],
   "note": "No dependence on history (C74_history) or on files that the settings do not name (C74_files). False of one file: rewrite.def is always the one in the package, one in the resource directory is never read (C74_resource_dir_refuted)."
  },
  {
   "property": "C75",
   "status": "partial",
   "theorems": [
    "C75_inhibited_partial",
    "C75_cheapest_partial"
   ],
   "note": "C75_cheapest_partial composes C15 with the file formats (C38, C43, C54, C58, C65): all numbers in the statement are read off the CSV rows, the lines of matrix.def, unk.def and the configuration. C75_inhibited_partial allows cells that are 0x7fff: the words found have no such connection and are cheapest among the sequences that have none. Partial: both inherit the other conditions of C71 (costs that are shorts, ids inside the matrix, at most 32766 bytes, a square matrix whose last cell is given), rows of user dictionaries with the automatic cost -32768 and OOV words compete with the numbers they have in the tokenizer, not with a cost in the source."
  },
  {
   "property": "C76",
   "status": "partial",
   "theorems": [
    "C76_incomplete_partial",
    "C76_incomplete_user_partial",
    "C76_bad_source",
    "C76_bad_matrix",
    "C76_bad_source_user",
    "C76_refuted"
   ],
   "note": "The build is modelled as the list of writes and seeks on the output file (M_Command.emit_command, proved to make the bytes of build_command: emit_builds); killed = any beginning of that list, the last write perhaps in part. C76_incomplete_partial: what opens has the complete grammar and word index; partial because parameters and infos can be missing, and C76_refuted shows it: a dangling split reference makes the command fail and leaves a dictionary that opens and whose word infos are bytes of the header. C76_bad_source, C76_bad_source_user and C76_bad_matrix are the cases where nothing that opens can be left. Assumes a square matrix with a last cell (C54) and readable parts of speech."
  },
  {
   "property": "C77",
   "status": "partial",
   "theorems": [
    "C77_only_output",
    "C77_only_output_user",
    "C77_missing",
    "C77_missing_user",
    "C77_done",
    "C77_done_user",
    "C77_lost_refuted",
    "C77_alias_refuted"
   ],
   "note": "C77_only_output(_user), C77_missing(_user), C77_done(_user). C77_lost_refuted: the output file is opened for writing before anything is checked, so a failed build destroys the old dictionary. C77_alias_refuted: with the output file among the inputs the command ends well with an empty dictionary and the source is lost."
  },
  {
   "property": "C78",
   "status": "partial",
   "theorems": [
    "C78_bytes",
    "C78_output_partial",
    "C78_broken_off",
    "C78_only_output",
    "C78_killed",
    "C78_missing",
    "C78_surfaces",
    "C78_columns",
    "C78_made_up_partial",
    "C78_total_partial",
    "C78_lost_refuted",
    "C78_alias_refuted",
    "C78_dash_refuted"
   ],
   "note": "C78_output_partial (iff: the command ends well exactly when all lines are analysed, with the contents of the output file), C78_surfaces, C78_bytes (the file is the UTF-8 encoding of the records that have one), C78_columns, C78_made_up_partial, C78_total_partial (mode C, resources as in C71; the other modes: C88), C78_broken_off, C78_only_output, C78_killed, C78_missing. The specification of a line of output is Prop_Tokenize.record. Partial because the output file must not be one of the input files: C78_alias_refuted (it is emptied before it is read, and the command ends well). C78_lost_refuted: the output file is emptied before the settings are read. C78_dash_refuted: an input file with the name - must exist, but standard input is analysed in its place; the theorems exclude that name. -d is C83; a file is decoded as a whole when it is opened."
  },
  {
   "property": "C79",
   "status": "partial",
   "theorems": [
    "C79_known_connections",
    "C79_outside_refuted"
   ],
   "note": "C79_known_connections for all settings. That such words take no part is false: C79_outside_refuted (one homograph with an unknown right id, and the word after it is not connected at all, although another homograph could precede it; the text is reported to have no analysis). C15-C17, C22, C71, C75 therefore assume that the matrix has cells for all ids."
  },
  {
   "property": "C80",
   "status": "partial",
   "theorems": [
    "C80_makes_partial",
    "C80_needs",
    "C80_silent_word_refuted"
   ],
   "note": "C80_makes_partial: existence of the Dictionary and the analysis of every text; partial because it keeps the conditions of C71 (complete resources, matrix with cells for all ids, normalised text of at most 32766 bytes) and needs at most 7 user dictionaries (C73). C80_needs is the converse direction for plugins and user words. C80_silent_word_refuted: a user dictionary written by the builder whose word has an empty text column and cost -32768 makes the constructor raise IndexError."
  },
  {
   "property": "C81",
   "status": "partial",
   "theorems": [
    "C81_as_shipped_partial"
   ],
   "note": "C81_as_shipped_partial: an instance of C80 for the shipped settings and files (M_Resources, generated from /repo by tools/resources.py); partial because of the conditions that C80 keeps (normalised text of at most 32766 bytes; matrix that inhibits nothing). C81_nonvacuous builds a dictionary with a matrix of 5969 x 5969 through C82, without computing it."
  },
  {
   "property": "C82",
   "status": "proved",
   "theorems": [
    "C82_accepts",
    "C82_needs"
   ],
   "note": "C82_accepts (sufficient limits, S_Accept.good_source; the size of the trie made by dartsclone is a parameter) and C82_needs (the limits that every built source meets). The sizes in total_size are upper bounds, so the 2 GiB limit is sufficient but not exact; the word references of split columns are required to resolve by C82_accepts and covered by C56-C59 in the other direction."
  },
  {
   "property": "C83",
   "status": "partial",
   "theorems": [
    "C83_same",
    "C83_records",
    "C83_command",
    "C83_ends_partial",
    "C83_command_partial",
    "C83_outside_refuted"
   ],
   "note": "C83_same, C83_records and C83_command hold for all settings; C83_ends_partial and C83_command_partial are for Dictionaries from files as in C71 (record furnished: connections may be inhibited). C83_outside_refuted: with an id of unk.def outside the matrix the logger makes the analysis fail with IndexError and the tokenizer then finds words of the old text in the next one. The logger itself is assumed to be enabled and not to raise."
  },
  {
   "property": "C84",
   "status": "partial",
   "theorems": [
    "C84_no_dangling",
    "C84_answers",
    "C84_files",
    "C84_close_partial",
    "C84_after",
    "C84_forgotten_refuted"
   ],
   "note": "C84_close_partial: the natural claim, that close() succeeds once the program has forgotten all tokenizers and morphemes, is false (C84_forgotten_refuted: the lru_cache of get_word_info, one for the whole process, keeps the LexiconSet and its memoryviews), so the theorem says when it succeeds. Objects are taken to go when nothing refers to them (CPython), and no exception with a traceback is being kept."
  },
  {
   "property": "C85",
   "status": "partial",
   "theorems": [
    "C85_tokenize",
    "C85_build",
    "C85_ubuild",
    "C85_default",
    "C85_otherwise",
    "C85_help",
    "C85_version",
    "C85_runs",
    "C85_debug",
    "C85_name_refuted"
   ],
   "note": "C85_tokenize, C85_build, C85_ubuild (each an equivalence between the arguments and the command that runs with its values; S_Main has the forms), C85_runs (with M_Command, M_Tokenize), C85_debug (-d through C83), C85_default, C85_otherwise, C85_help, C85_version. That leaving out `tokenize` never matters is false: C85_name_refuted (a file or the value of an option that is called build or ubuild is taken for the command: `sudachipy ubuild words.csv` builds a dictionary; files on both sides of an option are an error). argparse is modelled for the parsers of main; joined options (-mA), abbreviations, '--' and arguments such as -1 are outside the model."
  },
  {
   "property": "C86",
   "status": "partial",
   "theorems": [
    "C86_builds",
    "C86_ubuilds",
    "C86_analyses_partial"
   ],
   "note": "C86_builds, C86_ubuilds and C86_analyses_partial: theorems about whole runs of main (M_Main), from arguments and a disk to the disk afterwards; the dictionaries in C86_analyses_partial are whatever runs of build and ubuild left in their output files (built_by_tool, user_built_by_tool). S_Tool says which word lists and matrices fit, in terms of the columns. Partial: mode C only (C88_tool_partial: the other modes, for lists whose units spell their words), no -d (C83 relates it), square matrices (C68), lines that are at most 32766 bytes after normalisation, and no input file that is also the output file or called - (C78). dartsclone is the contract of C55. The example runs build and tokenize on ten words with the shipped char.def, unk.def and rewrite.def and a matrix of 5969 x 5969 cells."
  },
  {
   "property": "C87",
   "status": "partial",
   "theorems": [
    "C87_silent",
    "C87_silent_user",
    "C87_row",
    "C87_row_user",
    "C87_reported",
    "C87_reported_user",
    "C87_text",
    "C87_sizes",
    "C87_done",
    "C87_screen",
    "C87_done_user",
    "C87_cells",
    "C87_no_words_refuted",
    "C87_line_refuted"
   ],
   "note": "C87_silent(_user), C87_row(_user), C87_reported(_user), C87_text and C87_screen (the characters on the screen), C87_sizes, C87_done(_user), C87_cells; readable_row (S_Progress) says of a row by itself whether it can be read, and sizes_right is about the sequence of writes and messages. C87_no_words_refuted: for no words the parameters are said to have 4 bytes, and none is written. C87_line_refuted: the number is not that of a line; it counts rows from 0, and a quoted field may have line breaks. Simplified: a word list is decoded when it is opened (the code notices a byte that is not UTF-8 when it comes to it, and then reports the row before it), and csv's limits on fields are left out; csv_total proves that csv.reader raises nothing else on a text file. The text of the exception in the message is a parameter."
  },
  {
   "property": "C88",
   "status": "partial",
   "theorems": [
    "C88_units",
    "C88_surfaces",
    "C88_headwords",
    "C88_refines",
    "C88_total_partial",
    "C88_command_partial",
    "C88_tool_partial"
   ],
   "note": "C88_units needs nothing of the units but that the build accepted them. C88_surfaces, C88_headwords, C88_refines, C88_command_partial and C88_tool_partial ask that the units spell their words (all_well_split in S_Units, about the lists only; C24_split_refuted shows what happens without it). may_name leaves the part of speech of a unit written as a word out, so that all_well_split asks for a little more than necessary. Partial: as C71 and C86 (texts whose normalised form has more than 32766 bytes, settings as shipped for the tool)."
  },
  {
   "property": "C89",
   "status": "proved",
   "theorems": [
    "C89_katakana_runs",
    "C89_none"
   ],
   "note": "What the joined word is, is said by C29 (katakana_group). The run begins anew after a joined word; that no run is met twice is part of the proof."
  },
  {
   "property": "C90",
   "status": "proved",
   "theorems": [
    "C90_number",
    "C90_separator"
   ],
   "note": "As in C30, about the runs of the loop that end (C31). C90_separator asks that the numeral is complete without the separator (C35_value_refuted shows what happens otherwise)."
  },
  {
   "property": "C91",
   "status": "partial",
   "theorems": [
    "C91_accepted",
    "C91_joined",
    "C91_every_reading_refuted"
   ],
   "note": "usual in S_Usual. C91_every_reading_refuted: a text may have a reading in the sense of C32 (百123 as 223) and not be accepted, so that room is necessary. Commas before a unit and fractions before a unit are left out (C34_thousands_refuted)."
  },
  {
   "property": "C92",
   "status": "proved",
   "theorems": [
    "C92_calculated",
    "C92_others",
    "C92_one_word",
    "C92_cheapest"
   ],
   "note": "C92_calculated needs nothing but that the Dictionary was made from files the builder wrote; C92_one_word; C92_others; C92_cheapest adds C75 for the analysis (texts up to 32766 bytes, complete resources). The example C92_not_cost_of_analysis: the calculated cost is not the cost of the analysis that the word replaces; get_path_cost answers the word's own cost. The name get_internal_cost and the original in Java suggest the sums along the path."
  },
  {
   "property": "C93",
   "status": "proved",
   "theorems": [
    "C93_unused"
   ],
   "note": "C93_unused: for Dictionaries made from files the builder wrote; the settings may differ in userDict only. Parts of speech: for word infos whose part of speech number is not negative (C70). C93_used: with the word in the text the analysis does change."
  },
  {
   "property": "C94",
   "status": "proved",
   "theorems": [
    "C94_set",
    "C94_can_set",
    "C94_from_end",
    "C94_outside",
    "C94_inhibit",
    "C94_avoided",
    "C94_morphemes"
   ],
   "note": "C94_set, C94_can_set (one pair), C94_inhibit (the plugin), C94_avoided (the words that are chosen, before path rewriting), C94_morphemes (mode C without path rewriting plugins: joined and split words have ids of their own). dictionary.py has the call of the plugin commented out (C94_inhibit is about edit as a function of its list). A negative id names the cell counted from the end, as memoryview does; same_index says so."
  },
  {
   "property": "C95",
   "status": "proved",
   "theorems": [
    "C95_words",
    "C95_on_path",
    "C95_minimum",
    "C95_cheapest"
   ],
   "note": "C95_words (all spans), C95_on_path (spans that begin on the chosen path; it also says what lattice_word of S_Rewrite, used in C29 and C89, is), C95_minimum, C95_cheapest. run_candidates is the list of words found at a position (C38, C26, C10 say what is in it); cost is the cost of the word itself, as get_path_cost answers."
  },
  {
   "property": "C96",
   "status": "proved",
   "theorems": [
    "C96_same",
    "C96_plugins",
    "C96_morphemes"
   ],
   "note": "C96_same, C96_plugins, C96_morphemes (what same_words means for the accessors of morphemes). The surfaces are those of the two original texts (C23)."
  },
  {
   "property": "C97",
   "status": "proved",
   "theorems": [
    "C97_cheaper",
    "C97_unused",
    "C97_set",
    "C97_inhibit"
   ],
   "note": "C97_cheaper, C97_unused (mode C, no plugins that join words), C97_set, C97_inhibit. The words themselves may differ from before where two analyses cost the same, so the theorems speak of costs."
  },
  {
   "property": "C98",
   "status": "proved",
   "theorems": [
    "C98_dearer",
    "C98_before",
    "C98_set_cost"
   ],
   "note": "C98_dearer, C98_before (mode C, no plugins that join words), C98_set_cost. The words themselves may differ from before where two analyses cost the same, so the theorems speak of costs."
  },
  {
   "property": "C99",
   "status": "proved",
   "theorems": [
    "C99_get",
    "C99_first",
    "C99_set",
    "C99_read_again",
    "C99_unreadable"
   ],
   "note": "C99_get, C99_first, C99_set, C99_read_again (systemDict is that of C60), C99_unreadable."
  }
 ]
}