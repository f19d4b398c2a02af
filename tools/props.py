#!/usr/bin/env python3
"""Regenerates /verif/properties.jsonl from the table below (one JSON object per line)."""
import json
P = []
def p(title, statement, quantifier, why, anchors):
    P.append(dict(id="C%02d" % (len(P) + 1), title=title, statement=statement,
                  quantifier=quantifier, why_tests_cant=why, anchors=anchors))

U8B = "sudachipy/utf8inputtextbuilder.py"
U8 = "sudachipy/utf8inputtext.py"
LAT = "sudachipy/lattice.pyx"
TOK = "sudachipy/tokenizer.pyx"
ML = "sudachipy/morphemelist.py"
CC = "sudachipy/dictionarylib/charactercategory.py"
NP = "sudachipy/plugin/path_rewrite/numericparser.py"
JN = "sudachipy/plugin/path_rewrite/join_numeric_plugin.py"
JK = "sudachipy/plugin/path_rewrite/join_katakana_oov_plugin.py"
PR = "sudachipy/plugin/path_rewrite/path_rewrite_plugin.py"
MO = "sudachipy/plugin/oov/mecab_oov_plugin.py"
SO = "sudachipy/plugin/oov/simple_oov_plugin.py"
DI = "sudachipy/plugin/input_text/default_input_text_plugin.py"
PS = "sudachipy/plugin/input_text/prolongedsoundmark.py"
LS = "sudachipy/dictionarylib/lexiconset.py"
DA = "sudachipy/dictionarylib/doublearraylexicon.py"
WI = "sudachipy/dictionarylib/wordinfolist.py"
WT = "sudachipy/dictionarylib/wordidtable.py"
WP = "sudachipy/dictionarylib/wordparameterlist.py"
GR = "sudachipy/dictionarylib/grammar.py"
DB = "sudachipy/dictionarylib/dictionarybuilder.py"
UB = "sudachipy/dictionarylib/userdictionarybuilder.py"
DH = "sudachipy/dictionarylib/dictionaryheader.py"
DV = "sudachipy/dictionarylib/dictionaryversion.py"
BD = "sudachipy/dictionarylib/binarydictionary.py"
JB = "sudachipy/dictionarylib/jtypedbytebuffer.py"
CF = "sudachipy/config.py"
CL = "sudachipy/command_line.py"
DI_ = "sudachipy/dictionary.py"

# ---- input text -------------------------------------------------------------
p("Input rewriting keeps an order-preserving map back to the original text",
  "After any sequence of UTF8InputTextBuilder.replace calls with non-empty replacements, the index map built for the rewritten text has one entry per rewritten character plus one for the end, starts at 0, ends at len(original text) and never decreases; so a span of the rewritten text always denotes a well-formed span of the original.",
  "every original text, every finite sequence of successful replace(begin,end,str) calls with non-empty str that begin inside the text (begin < len), of any length",
  "the number and interleaving of replacements is unbounded; a test fixes a handful of them",
  [U8B + ":UTF8InputTextBuilder.replace", U8B + ":UTF8InputTextBuilder.__init__"])
p("replace() edits exactly the requested characters",
  "replace(b,e,s) with 0<=b<e and b<=len raises nothing iff the indices are legal, and then the text becomes text[:b]+s+text[e:] (e clamped to the length); the map is unchanged before b and after e, the first character of s maps to the original position of b and the remaining characters of s to the original position of e.",
  "every builder state, every begin/end (negative, reversed, out of range included), every non-empty replacement",
  "the branch structure (shrink, equal, grow; delete/insert loops) has to be right for every relative length",
  [U8B + ":UTF8InputTextBuilder.replace"])
p("Deleting text through replace() keeps the end of the original reachable",
  "C01 also holds when the replacement is the empty string (deletion), and when text is appended with begin == len.",
  "every builder state and every deletion, including one at the end of the text",
  "only shows up for empty replacements touching particular positions",
  [U8B + ":UTF8InputTextBuilder.replace"])
p("Byte offsets map to the original text consistently",
  "For the object returned by build(): get_original_index(i) is defined for every byte position 0..len(bytes), is 0 at 0, len(original) at the end, non-decreasing, and equal for all the bytes of one character; get_offset_text_length(i) is the number of the character that byte i belongs to.",
  "every original text free of lone surrogates and every sequence of non-empty replacements",
  "mixes 1-4 byte characters with arbitrary rewriting histories",
  [U8B + ":UTF8InputTextBuilder.build", U8 + ":UTF8InputText.get_original_index"])
p("Substring extraction agrees with the byte text",
  "get_substring(b,e) for character-boundary byte positions b<=e is exactly the text whose UTF-8 encoding is bytes[b:e]; out-of-range or reversed arguments raise IndexError.",
  "every text and every pair of byte positions",
  "boundaries of 1-4 byte characters in all combinations",
  [U8 + ":UTF8InputText.get_substring", U8B + ":UTF8InputTextBuilder.build"])
p("UTF-8 length table matches the encoder",
  "utf8_byte_length(cp) equals the number of bytes the UTF-8 encoder produces for cp, and UTF-8 encoding is injective and decodable, so the byte text and the character text never get out of step.",
  "every code point 0..0x10FFFF that is not a surrogate, every text",
  "1.1 million code points and all their concatenations",
  [U8B + ":UTF8InputTextBuilder.utf8_byte_length", U8B + ":UTF8InputTextBuilder.build"])
p("Category runs are sound",
  "get_char_category_continuous_length(i) is positive, i plus it is a character boundary not past the end, and all characters from i to there share at least one category (or it is one character).",
  "every text, every assignment of category sets to characters, every byte position",
  "depends on arbitrary overlap patterns between category sets",
  [U8B + ":UTF8InputTextBuilder.get_char_category_continuities", U8B + ":UTF8InputTextBuilder.get_char_category_continuous_length"])
p("get_char_category_types(b,e) returns the common categories of the span",
  "For character-boundary positions b<e, get_char_category_types(b,e) contains a category iff every character in the span has it.",
  "every text, category assignment and span",
  "the early exit uses run lengths computed from a different starting point",
  [U8 + ":UTF8InputText.get_char_category_types"])
p("Code point arithmetic on byte positions",
  "From a character boundary, get_code_points_offset_length(i,k) is the number of bytes of the next min(k, remaining) characters, and code_point_count(b,e) is the number of characters between two boundaries.",
  "every text, boundary and k",
  "variable-width characters in all combinations",
  [U8 + ":UTF8InputText.get_code_points_offset_length", U8 + ":UTF8InputText.code_point_count"])
p("Word candidates end where a word may start",
  "get_word_candidate_length(i) is positive for i<len and i plus it is the first later position where can_bow holds, or the end of the text; can_bow only holds at character boundaries and always at 0 for a non-empty text.",
  "every text, category assignment and byte position",
  "arbitrary alternation of alphabetic categories",
  [U8 + ":UTF8InputText.get_word_candidate_length", U8 + ":UTF8InputText.can_bow", U8B + ":UTF8InputTextBuilder._build_can_bow_list"])
# ---- input plugins ----------------------------------------------------------
p("Default normalisation computes the documented rewriting",
  "DefaultInputTextPlugin.rewrite never raises and leaves in the builder exactly the text obtained by scanning left to right: the longest entry of the replace list that matches at the current position, otherwise the lower-cased character, NFKC-normalised unless it is on the ignore list.",
  "every text, replace list, ignore list, and every lower()/NFKC function that never returns the empty string",
  "running offsets must be right for every mix of growing and shrinking replacements",
  [DI + ":DefaultInputTextPlugin.rewrite"])
p("Prolonged sound marks are collapsed",
  "ProlongedSoundMarkInputTextPlugin.rewrite never raises and replaces each maximal run of two or more configured marks by the replacement symbol, leaving all else unchanged.",
  "every text, mark set and replacement symbol",
  "running offsets depend on the number and lengths of the earlier runs",
  [PS + ":ProlongedSoundMarkInputTextPlugin.rewrite"])
# ---- character categories ---------------------------------------------------
p("A character's categories are the union over the definition file",
  "After a character definition is loaded, get_category_types(cp) is exactly the union of the categories of all the ranges that contain cp, and {DEFAULT} when none does.",
  "every non-empty list of (possibly overlapping, nested, duplicated, touching) ranges, every code point, every tie-breaking of the priority queue",
  "range overlap patterns are unbounded; the sweep plus binary search is the kind of code that fails at one boundary",
  [CC + ":CharacterCategory._compile", CC + ":CharacterCategory.get_category_types"])
p("The compiled category table is well-formed",
  "The compiled ranges are sorted and pairwise disjoint, and the order in which the lines of the definition file are given does not matter.",
  "every definition file and every permutation of its ranges",
  "as for C13",
  [CC + ":CharacterCategory._compile"])
# ---- lattice / tokenizer ----------------------------------------------------
p("The returned path has minimal cost",
  "The path chosen by tokenize (before path rewriting) has the least total cost (word costs plus connection costs, with begin and end of sentence) among all the sequences of candidate words that tile the text and use no inhibited connection.",
  "every lexicon, cost matrix, OOV configuration with connection ids in the matrix (others: C79) and text whose total cost cannot exceed 32-bit integers",
  "the number of tilings is exponential; optimality is a universally quantified statement",
  [LAT + ":Lattice.insert", LAT + ":Lattice.connect_node", LAT + ":Lattice.get_best_path", TOK + ":build_lattice_c"])
p("tokenize fails exactly when no analysis exists",
  "get_best_path raises 'EOS is not connected to BOS' iff no sequence of candidate words tiles the text without an inhibited connection.",
  "every lexicon, cost matrix, OOV configuration with connection ids in the matrix (others: C79) and text whose accumulated cost cannot pass 2^31 (longer texts: C17)",
  "reachability in an arbitrary graph",
  [LAT + ":Lattice.get_best_path", LAT + ":Lattice.connect_node"])
p("Total costs survive 32-bit arithmetic",
  "C15 holds for texts of any length.",
  "every text length, in particular texts whose accumulated cost passes 2^31",
  "needs inputs of tens of thousands of words with large costs",
  [LAT + ":Lattice.connect_node", "sudachipy/latticenode.pxd:LatticeNode.total_cost"])
p("The path tiles the text",
  "The morphemes of a C-mode analysis are contiguous: the first begins at byte 0, each begins where the previous ends, the last ends at the end of the text, and none is empty.",
  "every lexicon with non-empty headwords, configuration and text",
  "every path through every lattice",
  [LAT + ":Lattice.get_best_path", TOK + ":build_lattice_c"])
p("Ties are broken towards the candidate inserted first",
  "Among predecessors of equal cost the one inserted first is kept, so the analysis is a function of the candidate sequence.",
  "every lattice",
  "ties are rare in hand-written dictionaries",
  [LAT + ":Lattice.connect_node"])
p("Analyses do not depend on what was analysed before",
  "tokenize(text) on a tokenizer that has already processed any sequence of other texts gives the same result as on a fresh tokenizer, whether or not some of the earlier calls raised an exception.",
  "every history of calls on one tokenizer object",
  "the reused lattice has unboundedly many histories",
  [LAT + ":Lattice.resize", LAT + ":Lattice.clear", LAT + ":Lattice.expand", TOK + ":Tokenizer.tokenize"])
p("Every text is analysable with the default OOV set-up",
  "With a SimpleOovPlugin as the last OOV provider and no inhibited connections, tokenize never raises for any text without lone surrogates.",
  "every text, lexicon, character definition and combination of MeCab-style providers before it",
  "a dead end in the lattice needs one particular category pattern",
  [TOK + ":build_lattice_c", SO + ":SimpleOovPlugin.provide_oov", MO + ":MeCabOovPlugin.provide_oov"])
p("The analysis is deterministic across processes",
  "Two runs of the same program on the same text give the same analysis.",
  "every iteration order Python may choose for a set of categories (hash randomisation)",
  "a test runs under one hash seed",
  [MO + ":MeCabOovPlugin.provide_oov", U8 + ":UTF8InputText.get_char_category_types"])
p("Surfaces concatenate to the input",
  "For every text, the concatenation of m.surface() over the C-mode morphemes is the original text, and m.surface() is original[m.begin():m.end()], whatever the input-text plugins rewrote.",
  "every text, plugin configuration, lexicon and path rewriting",
  "composition of rewriting, lattice and path rewriting over all inputs",
  [ML + ":MorphemeList.get_surface", TOK + ":Tokenizer.tokenize"])
p("A/B-mode splitting preserves coverage",
  "The same holds in modes A and B.",
  "every text and every dictionary accepted by the builder",
  "depends on head word lengths stored for other entries",
  [TOK + ":Tokenizer._split_path", ML + ":MorphemeList.split"])
p("Mode A/B equals splitting the C-mode morphemes",
  "tokenize(text, A) (resp. B) yields the same morphemes as tokenize(text, C) followed by split(A) (resp. B) of each morpheme, concatenated.",
  "every text, dictionary and mode",
  "two independent implementations of the same algorithm",
  [TOK + ":Tokenizer._split_path", ML + ":MorphemeList.split"])
p("MeCab OOV candidates are sound",
  "Every node from MeCabOovPlugin.get_oov starts at the offset, is non-empty, ends on a character boundary inside the category run and its surface is the corresponding substring; nothing is offered for a category that is not invoked when other words exist.",
  "every text, category table, OOV table and offset",
  "arbitrary category/OOV tables",
  [MO + ":MeCabOovPlugin.provide_oov", "sudachipy/plugin/oov/oov_provider_plugin.py:OovProviderPlugin.get_oov"])
p("MeCab OOV candidates of length 1..n are all offered",
  "As char.def documents ('LENGTH: 1 to n length new words are added'), for each invoked category with LENGTH n and each k in 1..n with k characters inside the run, a candidate of k characters is offered for each OOV entry of the category.",
  "every text, category table, OOV table and offset",
  "needs a category with GROUP and several OOV entries",
  [MO + ":MeCabOovPlugin.provide_oov"])
p("Words of every loaded dictionary can be used",
  "A text containing a word of any of the up to 15 user dictionaries that Dictionary accepts can be analysed.",
  "every dictionary index 0..15",
  "tests load one user dictionary",
  [LS + ":LexiconSet.build_word_id", "sudachipy/latticenode.pxd:LatticeNode.word_id", TOK + ":build_lattice_c"])
# ---- path rewriting ---------------------------------------------------------
p("Katakana joining only removes boundaries",
  "JoinKatakanaOovPlugin.rewrite terminates, never raises, and the resulting path covers the same span with a subset of the original boundaries; untouched morphemes are kept unchanged and in order.",
  "every path, category assignment, minimum length and lattice content",
  "the inner begin/end scans with in-place list surgery must be safe for every pattern",
  [JK + ":JoinKatakanaOovPlugin.rewrite", PR + ":PathRewritePlugin.concatenate_oov"])
p("Numeric joining only removes boundaries",
  "Whenever JoinNumericPlugin.rewrite terminates it has not raised, and the resulting path covers the same span with a subset of the original boundaries.",
  "every path, category assignment and normalised forms",
  "back-tracking index arithmetic",
  [JN + ":JoinNumericPlugin.rewrite", PR + ":PathRewritePlugin.concatenate"])
p("Numeric joining terminates",
  "JoinNumericPlugin.rewrite terminates on every path.",
  "every path, category assignment and normalised forms, including user-dictionary normalised forms",
  "the loop moves its index backwards",
  [JN + ":JoinNumericPlugin.rewrite"])
p("The numeric parser computes the right value",
  "If NumericParser accepts a string (every append and done() return True), get_normalized() is a decimal numeral whose value is the value of the numeral under the usual reading of Japanese numerals (digits, point, 十百千, 万億兆).",
  "every string over the accepted alphabet, of any length",
  "string arithmetic with scales and points over unboundedly many shapes",
  [NP + ":NumericParser", NP + ":NumericParser.StringNumber"])
p("Normalised numerals are canonical",
  "get_normalized() of an accepted numeral is a non-empty digit string, optionally followed by a point and a fraction that does not end in 0.",
  "every accepted string",
  "as for C32",
  [NP + ":NumericParser.StringNumber.__str__"])
p("Commas are accepted only as thousands separators",
  "In an accepted numeral every comma separates groups of three digits in an integer part (1-3 digits before the first comma).",
  "every accepted string",
  "reset points of the comma state are many",
  [NP + ":NumericParser.append", NP + ":NumericParser.check_comma"])
p("A joined number has the value of its text",
  "When JoinNumericPlugin joins morphemes into one (normalisation enabled), the normalised form denotes the value of the joined numeral, also when a trailing comma or point is left out.",
  "every path",
  "the failing path of done() is reused as a success",
  [JN + ":JoinNumericPlugin._concat", NP + ":NumericParser.done"])
p("get_normalized() can be called again",
  "Calling get_normalized() twice gives the same string.",
  "every accepted string",
  "the conversion mutates the parser",
  [NP + ":NumericParser.get_normalized", NP + ":NumericParser.StringNumber.__str__"])
# ---- lexicon ----------------------------------------------------------------
p("Word ids identify dictionary and entry",
  "build_word_id followed by get_dictionary_id / get_word_id1 gives back the dictionary index and the entry number, and an entry number above 0x0FFFFFFF is rejected.",
  "every dictionary index 0..15 and every entry number",
  "2^28 entries by 16 dictionaries",
  [LS + ":LexiconSet.build_word_id", LS + ":LexiconSet.get_dictionary_id", LS + ":LexiconSet.get_word_id1"])
p("Lookup returns exactly the words that start here",
  "LexiconSet.lookup(text, i) yields (id, e) iff text[i:e] is the headword of entry id of one of the loaded dictionaries (user dictionaries first), without duplicates for duplicate-free dictionaries.",
  "every set of dictionaries, text and offset",
  "any number of dictionaries and homographs",
  [LS + ":LexiconSet.lookup", DA + ":DoubleArrayLexicon.lookup", WT + ":WordIdTable.get"])
p("Parts of speech of user words resolve to the user's own definition",
  "For a word of the k-th user dictionary, grammar.get_part_of_speech_string(get_word_info(id).pos_id) is the part of speech the word had in its source file, for system-defined and user-defined parts of speech alike.",
  "every sequence of user dictionaries loaded in any order",
  "offsets accumulate over the dictionaries loaded before",
  [LS + ":LexiconSet.get_word_info", LS + ":LexiconSet.add", DI_ + ":Dictionary._read_user_dictionary", GR + ":Grammar.add_pos_list", UB + ":UserDictionaryBuilder.get_posid"])
p("Split references resolve within the right dictionary",
  "The split and structure ids of a word of dictionary k refer, after loading, to the system dictionary if they were system ids and to dictionary k if they were user ids.",
  "every dictionary index and id list",
  "ids are rewritten relative to load order",
  [LS + ":LexiconSet.convert_split", LS + ":LexiconSet.get_word_info"])
p("The word-info cache is transparent",
  "get_word_info(id) returns the same as without the cache for every interleaving of lookups and dictionary loading.",
  "every history of add and get_word_info calls",
  "cache state depends on the whole history (1024 entries, LRU)",
  [LS + ":LexiconSet.get_word_info", LS + ":LexiconSet.add"])
p("get_word_id finds a word iff it is there",
  "get_word_id(headword,pos,reading) returns the id of an entry with that surface, part of speech and reading if there is one and -1 otherwise - for a single lexicon and for a lexicon set.",
  "every lexicon (set) and query",
  "depends on which dictionary and which position the entry has",
  [LS + ":LexiconSet.get_word_id", DA + ":DoubleArrayLexicon.get_word_id"])
p("Automatic user costs are well-formed",
  "calculate_cost changes only entries whose cost is -32768, and stores a value in the signed 16-bit range.",
  "every user lexicon and every tokenizer result",
  "arbitrary analyses of arbitrary surfaces",
  [DA + ":DoubleArrayLexicon.calculate_cost", ML + ":MorphemeList.get_internal_cost"])
p("Dictionary forms resolve",
  "get_word_info returns for every word, its dictionary form being the surface of the referenced word.",
  "every word-info list the builder can produce, including cyclic dictionary-form references",
  "recursion over arbitrary reference graphs",
  [WI + ":WordInfoList.get_word_info", DB + ":DictionaryBuilder.parse_line"])
p("Reading word info leaves the reader position unchanged and is repeatable",
  "get_word_info restores the position of the underlying buffer and returns the same value each time, for sequential use.",
  "every buffer position and word id",
  "any call history",
  [WI + ":WordInfoList.get_word_info"])
p("Concurrent readers of one dictionary do not disturb each other",
  "Two threads calling get_word_info on the same dictionary each get what they would get alone.",
  "every interleaving of the two threads' buffer operations",
  "schedules cannot be enumerated by tests",
  [WI + ":WordInfoList.get_word_info"])
# ---- binary format ----------------------------------------------------------
p("Dictionary headers round-trip",
  "from_bytes(to_bytes(h)) == h and the encoding is exactly 272 bytes; a description longer than 256 bytes is rejected.",
  "every version, creation time and description without NUL",
  "all descriptions up to the boundary length in any script",
  [DH + ":DictionaryHeader.to_bytes", DH + ":DictionaryHeader.from_bytes"])
p("Strings in word infos round-trip",
  "Every string that the builder accepts is read back unchanged.",
  "every string that passes the builder's length validation, including supplementary characters",
  "the length prefix changes form at 128 and overflows at 32768 UTF-16 units",
  [DB + ":DictionaryBuilder.write_string", DB + ":DictionaryBuilder.write_stringlength", WI + ":WordInfoList.buffer_to_string", WI + ":WordInfoList.buffer_to_string_length", DB + ":DictionaryBuilder.__is_length_valid"])
p("Integer arrays and parameters round-trip",
  "Split lists, synonym lists and word parameters are read back as written, and values that do not fit are rejected at build time rather than truncated.",
  "every list and value",
  "whole integer ranges",
  [DB + ":DictionaryBuilder.write_intarray", WI + ":WordInfoList.buffer_to_int_array", WP + ":WordParameterList", JB + ":JTypedByteBuffer.write_int"])
p("The word-id table round-trips",
  "For every headword, the list of entry numbers stored by the builder is what WordIdTable.get returns at the offset stored in the trie.",
  "every multiset of headwords",
  "variable-length records at computed offsets",
  [DB + ":DictionaryBuilder.write_lexicon", WT + ":WordIdTable.get", DB + ":DictionaryBuilder.add_to_trie"])
p("Word infos round-trip",
  "get_word_info(i) on a built dictionary returns the surface, length, part of speech, normalised form, reading, splits, structure and synonym ids of the i-th source entry.",
  "every list of entries",
  "record layout over all entries",
  [DB + ":DictionaryBuilder.write_wordinfo", WI + ":WordInfoList.get_word_info"])
p("The word-info offset table never overlaps the word infos",
  "The position chosen for the word infos leaves room for the offset table whatever the number of entries.",
  "every number of entries and size of the preceding sections",
  "the gap is computed by an unusual formula",
  [DB + ":DictionaryBuilder.write_wordinfo"])
p("The part-of-speech table round-trips",
  "Grammar read from a built dictionary has the part-of-speech list of the builder, in order.",
  "every list of six-component parts of speech the builder accepts",
  "component lengths and contents are unbounded",
  [DB + ":DictionaryBuilder.convert_postable", GR + ":Grammar.__init__", GR + ":Grammar.bytes_get_string"])
p("The connection matrix round-trips",
  "get_connect_cost(l, r) on a built dictionary is the cost given for the pair 'l r' in the matrix file.",
  "every matrix size and every set of cells",
  "square and non-square sizes, any order of lines, missing cells",
  [DB + ":DictionaryBuilder.convert_matrix", GR + ":Grammar.get_connect_cost"])
p("A built dictionary opens to what was built",
  "Opening the file produced by build gives the part-of-speech table, matrix, headword table, parameters and word infos of the sources: the section offsets computed by the reader are those used by the writer.",
  "every list of entries, part-of-speech table, matrix and trie image",
  "all section sizes vary",
  [BD + ":BinaryDictionary._read_dictionary", DB + ":DictionaryBuilder.build", DA + ":DoubleArrayLexicon.__init__"])
p("Split information never dangles",
  "Every id in the split information written by a successful build denotes an existing entry (of the dictionary itself or of the system dictionary).",
  "every list of entries, by id or by word reference",
  "any reference graph",
  [DB + ":DictionaryBuilder.parse_splitinfo", DB + ":DictionaryBuilder.parse_id", DB + ":DictionaryBuilder.check_wordid", UB + ":UserDictionaryBuilder.check_wordid", UB + ":UserDictionaryBuilder.get_wordid"])
p("Unicode escapes in the source are decoded",
  "In a source column, \\\\uXXXX and \\\\u{X...} denote the character with that code point and all other text is kept.",
  "every code point and every number of digits the notation admits",
  "0x110000 code points, several notations each",
  [DB + ":DictionaryBuilder.decode"])
p("Bad source lines are rejected",
  "parse_line raises ValueError for too few columns, an empty or over-long headword, too many split units or splits on an A-unit, and otherwise returns an entry carrying the columns.",
  "every row",
  "boundary values of every check",
  [DB + ":DictionaryBuilder.parse_line"])
p("Dictionary kinds are told apart",
  "A version number is accepted iff it is one of the five known ones; no version is both a system and a user dictionary; loading a user dictionary as system dictionary (or the reverse) raises.",
  "every 64-bit version number",
  "2^64 values",
  [DV + ":is_dictionary", BD + ":BinaryDictionary.from_system_dictionary", BD + ":BinaryDictionary.from_user_dictionary"])
# ---- front end --------------------------------------------------------------
p("dict_type wins over the configuration file",
  "After a successful settings.set_up, the system dictionary is the one of dict_type if given, else the one named in the configuration, else the installed core dictionary; a dict_type other than small/core/full raises ValueError.",
  "every configuration, dict_type and set of installed dictionaries, after any earlier set-up",
  "the settings object is global and carries over",
  [CF + ":_Settings.set_up", CF + ":_Settings.system_dict_path"])
p("Command-line output is framed by EOS",
  "sudachipy prints for each input line one line per morpheme followed by exactly one EOS line, so the output can be cut back into the analyses of the input lines.",
  "every input and analysis",
  "arbitrary texts",
  [CL + ":run"])
p("MorphemeList behaves like a sequence",
  "len, iteration, positive and negative indexing of a MorphemeList agree with each other and out-of-range indices raise IndexError.",
  "every list and index",
  "all indices",
  [ML + ":MorphemeList.__getitem__", ML + ":MorphemeList.__iter__", ML + ":MorphemeList.__len__"])
p("Dictionary id -1 marks out-of-vocabulary morphemes",
  "m.dictionary_id() is -1 iff m.is_oov() (README: '-1 (OOV) if a word is Out-of-Vocabulary').",
  "every morpheme of every analysis",
  "joined morphemes are created by plugins",
  ["sudachipy/latticenode.pyx:LatticeNode.get_dictionary_id", PR + ":PathRewritePlugin.concatenate"])

# ---- resource files ---------------------------------------------------------
p("The character definition file means what it says",
  "After read_character_definition, a character has exactly the categories of all the lines whose range contains it, and DEFAULT if there is none; every accepted file consists of range lines, comments, blank lines and lines of another kind.",
  "every character definition file and every character",
  "arbitrary files",
  [CC + ":CharacterCategory.read_character_definition"])
p("Unknown words are as unk.def and char.def say",
  "MeCabOovProviderPlugin.set_up accepts a file iff every entry names a category that has properties; the candidates it then offers carry the connection ids, the cost and the part of speech of an unk.def line whose category the character has.",
  "every pair of files, grammar, text and position",
  "arbitrary files and texts",
  ["sudachipy/plugin/oov/mecab_oov_plugin.py:MeCabOovPlugin.set_up", "sudachipy/plugin/oov/mecab_oov_plugin.py:MeCabOovPlugin.provide_oov", "sudachipy/dictionarylib/grammar.py:Grammar.get_part_of_speech_id"])
p("rewrite.def means what it says",
  "DefaultInputTextPlugin replaces exactly the keys that rewrite.def lists (longest match), keeps exactly the characters it lists as exempt from NFKC, and rejects a file with a line of another form or a key twice.",
  "every rewrite.def file and every text",
  "arbitrary files and texts",
  ["sudachipy/plugin/input_text/default_input_text_plugin.py:DefaultInputTextPlugin.read_rewrite_lists"])
p("Lexicon source files are read as CSV",
  "However the cells of a lexicon source are quoted and its lines ended, the builder sees the rows of values that were written.",
  "every table of values (no carriage return within a value) and every way of quoting it",
  "arbitrary files",
  [DB + ":DictionaryBuilder.build_lexicon"])
p("matrix.def gives the connection costs",
  "The cost of a connection in the built dictionary is the one the last line of matrix.def for this pair gives, 0 if there is none.",
  "every square matrix file and every pair",
  "arbitrary files",
  [DB + ":DictionaryBuilder.write_grammar", DB + ":DictionaryBuilder.convert_matrix"])

# ---- a Dictionary from files ------------------------------------------------
p("A morpheme of a dictionary is a row of its source",
  "If m.dictionary_id() of a morpheme is k (not -1), m.word_id() names a row of the source of the k-th dictionary, and its part of speech, reading, normalised and dictionary form are those of the row; in mode C the headword of the row is the (normalised) text the morpheme covers, and its surface when there are no input text plugins.",
  "every configuration, every system and user dictionary built from sources, every text, mode and earlier use of the tokenizer",
  "arbitrary sources, configurations and texts",
  [DI_ + ":Dictionary", TOK + ":Tokenizer.tokenize", "sudachipy/morpheme.py:Morpheme", DB + ":DictionaryBuilder.build"])
p("Words in no dictionary have a configured part of speech",
  "m.part_of_speech() of an OOV morpheme is one that the configuration gives OOV words (oovPOS of SimpleOovProviderPlugin or JoinKatakanaOovPlugin, a line of unk.def), of a joined number it is the one of numerals.",
  "every configuration, dictionaries, text and mode",
  "arbitrary configurations and texts",
  [DI_ + ":Dictionary", SO + ":SimpleOovPlugin.set_up", MO + ":MeCabOovPlugin.read_oov", JK + ":JoinKatakanaOovPlugin.set_up", JN + ":JoinNumericPlugin.set_up"])

p("A Dictionary that was made analyses every text",
  "Once Dictionary(...) has been made from dictionary files and complete resources, tokenize(text, mode) returns a MorphemeList for every text (up to 32766 bytes once normalised) and mode, whatever was analysed before, and every morpheme of it answers with its word info, part of speech and (in mode C) surface.",
  "every configuration with complete resources, every system dictionary and up to seven user dictionaries built from sources, every text, mode and earlier use of the tokenizer",
  "an analysis that raises for some text is only met when that text comes along",
  [DI_ + ":Dictionary", TOK + ":Tokenizer.tokenize", "sudachipy/morphemelist.py:MorphemeList", "sudachipy/morpheme.py:Morpheme"])

p("A dictionary file that was cut short is rejected",
  "A dictionary file of which only a first part is left (an interrupted build, copy or download) raises when it is opened; it never opens and gives other words or other contents.",
  "every file that opens and every length it is cut to",
  "tests open complete files; the damage depends on the byte at which the file ends",
  ["sudachipy/dictionarylib/binarydictionary.py:BinaryDictionary._read_dictionary", GR + ":Grammar.__init__", "sudachipy/dictionarylib/doublearraylexicon.py:DoubleArrayLexicon.__init__", "sudachipy/dictionarylib/wordparameterlist.py:WordParameterList.__init__", "sudachipy/dictionarylib/wordinfolist.py:WordInfoList.get_word_info"])

p("Up to fifteen user dictionaries can be used, and more are reported",
  "A Dictionary with up to fifteen user dictionaries whose words have costs is made and analyses texts with the words of all of them; with more than fifteen, Dictionary(...) raises ValueError and nothing is silently left out.",
  "every system dictionary file, every list of user dictionary files and every configuration",
  "tests load one user dictionary; the limit and what happens past it are never reached",
  [DI_ + ":Dictionary._read_user_dictionary", LS + ":LexiconSet.is_full", LS + ":LexiconSet.add", "sudachipy/latticenode.pyx:LatticeNode"])

p("A new Dictionary depends only on its arguments and the files it names",
  "What Dictionary(config_path, resource_dir, dict_type) gives is determined by its arguments, the settings file and the contents of the files named there, found in the resource directory unless absolute; dictionaries made or settings changed earlier in the process, failed attempts and other files have no effect, and each resource file placed in the resource directory is the one that is used.",
  "every earlier state of the settings, all arguments, every pair of file systems that agree on the named files",
  "the settings object is global to the process: interference shows only for particular sequences of constructions and file layouts",
  [CF + ":_Settings.set_up", DI_ + ":Dictionary.__init__", "sudachipy/plugin/input_text/default_input_text_plugin.py:DefaultInputTextPlugin.set_up", "sudachipy/plugin/oov/mecab_oov_plugin.py:MeCabOovPlugin.set_up"])

p("The analysis is the cheapest by the numbers in the source files",
  "For every text, a tokenizer made from a configuration, matrix.def, dictionary CSV files, char.def and unk.def finds a segmentation whose cost - the sum of the cost columns of its words and of the matrix.def lines for the right id and left id of neighbours, beginning and end of the text having the ids 0 - is at most that of every other segmentation into words of the dictionaries and OOV words offered there; every word of it is a row of a CSV file or has the numbers of unk.def or the configuration; path rewriting plugins only join words of it.",
  "all source files, configurations and texts that meet the stated conditions; every competing segmentation",
  "the cheapest of exponentially many segmentations, and a wrong number anywhere between builder, file format, reader and lattice, show only for particular texts and matrices",
  [LAT + ":Lattice.get_best_path", LAT + ":Lattice.connect_node", TOK + ":build_lattice_c", DB + ":DictionaryBuilder.convert_matrix", GR + ":Grammar.get_connect_cost", DI_ + ":Dictionary.create"])

p("A build that fails or is killed leaves nothing that passes for a dictionary",
  "At whatever moment `sudachipy build` or `ubuild` fails or is killed, the output file is the old one, or it cannot be opened as a dictionary, or its connection costs, its parts of speech and the index of its words are complete. If a row or a file of the source, or the matrix, is rejected, what is left cannot be opened. (The full claim, that only complete dictionaries can be opened, is false: the parameters and infos of the words may be missing.)",
  "all source files, all moments, all lengths of the part of the last write that got into the file",
  "the moments at which a process can die are as many as the bytes of the file, for every source",
  [CL + ":_command_build", CL + ":_command_user_build", DB + ":DictionaryBuilder.build", DB + ":DictionaryBuilder.write_lexicon", DB + ":DictionaryBuilder.write_wordinfo"])
p("The build commands touch only the output file",
  "`sudachipy build` and `ubuild` change no file but the output file, whenever they end. If a source file, the matrix or the system dictionary is missing or unusable nothing is changed at all. A command that ends well has written exactly the dictionary of its source files, whatever the output file held before, and it ends well whenever the builder accepts them. (An old dictionary survives a failed build: false. An output file may be one of the source files: false.)",
  "all contents of the disk, all paths, all moments at which the command may end",
  "what happens to the other files depends on which paths coincide and when the command dies",
  [CL + ":_command_build", CL + ":_command_user_build", CL + ":_system_dic_checker", CL + ":_input_files_checker", CL + ":_matrix_file_checker"])

p("The tokenize command analyses every line of its files",
  "`sudachipy tokenize -o out files...` writes into the output file, for every line of the files, one line for each morpheme that a new tokenizer gives for that line alone (surface, part of speech, normalized form; with -a dictionary form, reading form, dictionary id, synonym groups and the mark of unknown words), then EOS. In mode C the surfaces of a line make up the line; the columns of dictionary words are those of their rows in the source. With complete resources every input of lines up to 32766 bytes is analysed to the end. A line that cannot be analysed ends the command after the lines before it. Only the output file changes; a killed command leaves a beginning of the output; a missing input file is noticed before anything is written. (An old output file survives a failed start: false. The output file may be an input file: false.)",
  "all contents of the disk, all settings, all input files, all moments at which the command may end",
  "the files are arbitrary, the tokenizer keeps its lattice from line to line, and the command may die anywhere",
  [CL + ":_command_tokenize", CL + ":run", CL + ":_input_files_checker", DI_ + ":Dictionary", "sudachipy/tokenizer.py:Tokenizer.tokenize"])

p("Words whose connection ids are not in the matrix",
  "A word may have connection ids outside the connection matrix (neither the builder nor the set-up of OOV plugins compares ids with the matrix; matrix lookups raise IndexError inside the lattice, where it is swallowed). Whatever the ids, each connection of an analysis that is found has a cell in the matrix. Such words take no part: a text that has an analysis without them is still analysed (false).",
  "every lexicon, matrix, OOV configuration and text, whatever connection ids the words have",
  "the failure depends on the order in which homographs were inserted, and nothing is raised",
  [LAT + ":Lattice.connect_node", GR + ":Grammar.get_connect_cost", TOK + ":build_lattice_c"])

p("A Dictionary is made from usable settings and files",
  "If the dictionary files were written by the builder, the resource files are complete and well formed, and every configured plugin is one of the provided ones with the settings it needs, then constructing a Dictionary succeeds, and its tokenizers analyse every non-empty text in every mode. Conversely, a Dictionary that was constructed had at least one OOV provider, of a provided class; the part of speech for joined katakana words is one of the system dictionary. Any user dictionary that the builder wrote can be used (false: not one with a word that has no text of its own and asks for a calculated cost).",
  "every configuration, resource files, system dictionary and list of user dictionaries written by the builder, and every text and mode",
  "construction runs every plugin's set up and, for user words with calculated costs, an analysis with the half-built dictionary",
  [DI_ + ":Dictionary.__init__", DI_ + ":Dictionary._read_user_dictionary", "sudachipy/dictionarylib/lexiconset.py", "sudachipy/dictionarylib/doublearraylexicon.py:DoubleArrayLexicon.calculate_cost", "sudachipy/plugin"])

p("The settings and resource files of the package work",
  "With the settings of sudachi.json and the files char.def, unk.def and rewrite.def that come with the package, and any dictionaries written by the builder that fit them (the part of speech of joined katakana words exists; the matrix has the ids 0 to 5968 and those of the words, and inhibits no pair; no word of digits is normalised to something with a comma or a point; at most seven user dictionaries), constructing a Dictionary succeeds and its tokenizers analyse every non-empty text in every mode.",
  "every system dictionary and list of user dictionaries written by the builder that fit the settings, and every text and mode",
  "the files have 400 lines of categories, parts of speech and rewriting rules, and whether they work together depends on the dictionary and on the text",
  ["sudachipy/resources/sudachi.json", "sudachipy/resources/char.def", "sudachipy/resources/unk.def", "sudachipy/resources/rewrite.def", DI_ + ":Dictionary.__init__"])
p("The builder accepts every source within its limits",
  "A source whose rows have 18 columns or more, non-empty headwords, numbers and texts within the sizes of the format, resolvable split units, at most 127 units or synonyms per column, at most 255 rows per headword and at most 32767 parts of speech, with a matrix in range and a description of at most 256 bytes, is built without an error as long as the file stays below 2 GiB. Conversely, a source that was built is within these limits as far as the description, the number of columns, the headwords and how often one occurs, the numbers, the three texts of a row and the number of units and synonyms are concerned.",
  "every source, matrix, description and kind of dictionary",
  "the limits are spread over the parser, the table of word ids, the string and array encodings and the offsets of the file; tests reach none of them",
  [DB + ":DictionaryBuilder.build", DB + ":DictionaryBuilder.parse_line", DB + ":DictionaryBuilder.write_string", DB + ":DictionaryBuilder.write_wordinfo", UB + ":UserDictionaryBuilder"])

p("Debug output does not change the analysis",
  "Tokenizing with a logger (the option -d of the command) shows the rewritten text, the lattice (the end, every candidate word that can be reached and the beginning, each with its word info, ids and cost and with the costs of the connections to all words that end where it begins), the words of the best path and the words of the result. When the analysis with a logger succeeds, the one without gives the same result and leaves the same state. For a Dictionary made from complete files the logger changes nothing about how an analysis ends, and what the command prints without -d is among what it prints with -d, in the same order.",
  "every Dictionary, text, mode, earlier history of the tokenizer and list of input lines",
  "the lattice of a text has words and connections that the best path never touches, and the debug output looks all of them up; a failure there leaves the lattice filled for the next text",
  [TOK + ":Tokenizer.tokenize", TOK + ":Tokenizer._dump_path", LAT + ":Lattice.dump", "sudachipy/latticenode.pyx:LatticeNode.__str__", CL + ":run"])

p("Closing a Dictionary takes nothing away from what is in use",
  "Whatever Dictionaries a process opens, uses and closes, and in whatever order, a tokenizer or list of morphemes that the program still has answers exactly as the words of its own Dictionary are, and no file is unmapped while something still has a view of it. The first close() of a Dictionary either succeeds, and then all its files are closed for good, or raises a BufferError and leaves all of them open; it succeeds exactly when the program has no tokenizer and no morphemes of it and none of its words is among the last 1024 different words that the process looked up. After it the Dictionary makes no tokenizer and cannot be closed again.",
  "every sequence of opening, creating, tokenizing, asking, splitting, dropping and closing, over any number of Dictionaries",
  "the cache of word infos is shared by all Dictionaries of the process and keeps them alive; whether close() succeeds depends on the whole history",
  [DI_ + ":Dictionary.close", DI_ + ":Dictionary.create", "sudachipy/dictionarylib/binarydictionary.py:BinaryDictionary.close", LS + ":LexiconSet.get_word_info"])

p("The arguments of the tool mean what its usage texts say",
  "`sudachipy` analyses text exactly when its arguments are options of `tokenize` (-r, -m with A, B or C, -o, -s with small, core or full, -a, -d, -v or --version), in any order and any number of times, with the files together anywhere between them; `build` and `ubuild` run exactly when their own options and at least one file follow the name, for `build` with -m among them. The last value of an option counts, and what is not given has its documented default. The name `tokenize` may be left out if no argument is the name of a command. -v prints the version and nothing else, whatever else is given. With any other arguments, or with -h or --help among them, no command runs: the exit status is 2 or 0 and no file is touched.",
  "all lists of arguments in which whatever begins with '-' is one of the option strings, and all disks",
  "the number of orders and repetitions of options and files is unbounded, and one file name changes which command runs",
  [CL + ":main", CL + ":_set_default_subparser"])

p("The tool takes word lists to analyses",
  "`sudachipy build` and `ubuild`, given word lists (and a matrix) within the limits of the format, end well, put the dictionary into the output file and change no other file. `sudachipy tokenize -r settings -o out files`, with the package's settings and dictionaries that were made in this way from word lists that can be read back and fit the matrix, ends well for every input, changes only the output file, and what it writes are words that make up each line: each has the part of speech, reading and forms of a row of the word list of its dictionary, or is a word of no dictionary with one of the nine parts of speech that the settings and unk.def name",
  "all word lists, matrices, numbers of user dictionaries up to seven, disks, and input files, within the limits that the statement names",
  "the chain runs through the csv reader, the builder, the file format, the loader, every plugin, the analysis and the output; tests exercise each with one sample dictionary",
  [CL + ":main", CL + ":_command_build", CL + ":_command_user_build", CL + ":_command_tokenize", DB + ":DictionaryBuilder.build", DI_ + ":Dictionary"])

p("The reports of the build commands are true",
  "Reporting changes nothing: the build commands leave the same files and end in the same way as without the messages. When a row is reported ('... at line i in file'), it is the first row, in the order of the files, that cannot be read, and the command ends there; and whenever there is such a row, it is reported. Every 'n bytes' is what was written since the message before it, also when the command fails later, if there is at least one word. When the command ends well, the messages come in one fixed order, the number of words is the number of the rows, the sizes are those of the parts of the file, and each part begins with its count. 'invalid format at line i' is said of exactly the lines of the matrix with one or two columns",
  "all word lists, matrices, disks, and both commands, including runs that fail at any point",
  "the reports come from positions of buffers and from arithmetic that repeats the layout of the file; a test compares no message, and a failing row can be at any place of any file",
  [DB + ":DictionaryBuilder.build", DB + ":DictionaryBuilder.build_lexicon", DB + ":DictionaryBuilder.parse_line", DB + ":DictionaryBuilder.write_grammar", DB + ":DictionaryBuilder.convert_matrix", DB + ":DictionaryBuilder.write_lexicon", DB + ":DictionaryBuilder.write_wordinfo", UB + ":UserDictionaryBuilder.build"])

p("Dividing words into their units",
  "Each morpheme of mode C is, in mode A or B, either left as it is, if it comes from no word list or its row has less than two units in the column of the mode, or it is divided into one morpheme for each unit, and each of them comes from a row that its unit names. If the units of every row of the word lists spell the headword of the row, then in every mode the surfaces of the morphemes make up the text, each morpheme of a dictionary stands on its headword in the normalised text, and the morphemes of modes A and B divide those of mode C; every text whose normalised form has at most 32766 bytes is analysed, and the tokenize command prints for each line morphemes whose surfaces make up the line, also with dictionaries that the tool built",
  "all word lists of the system dictionary and of up to seven user dictionaries, all texts, modes, disks and command lines",
  "a unit is a number, a number of the user dictionary or a word, is turned into an id by the builder, stored, changed when the dictionary is loaded behind others, looked up when a word is divided, and placed by a length that the builder stored in bytes; tests divide three words of one dictionary",
  [TOK + ":Tokenizer._split_path", LS + ":LexiconSet.get_word_info", LS + ":LexiconSet.convert_split", DB + ":DictionaryBuilder.parse_splitinfo", DB + ":DictionaryBuilder.parse_id", DB + ":DictionaryBuilder.word_to_id", UB + ":UserDictionaryBuilder.parse_id", CL + ":run"])

p("Which katakana words are joined",
  "In every run of katakana words of a path, taken as long as it can be, all words from the first one with which an unknown word may begin are made one word if one of the words of the run is unknown or has less than minLength characters and if these are at least two; in all other cases, and outside the runs, the words stay as they are",
  "all texts, paths, lattices and settings of the plugin",
  "which words are joined depends on the words before and after, on how many characters stand between two bytes and on the order in which the loop meets the words it has itself made; tests join one word of three pieces",
  [JK + ":JoinKatakanaOovPlugin.rewrite", JK + ":JoinKatakanaOovPlugin.is_shorter"])
p("Numbers are joined",
  "Words of digits, commas and points that stand between words that are no part of a number and together spell a numeral that the parser accepts become one word, provided that the first has the part of speech of numbers; if a comma or point that the parser reads follows, it stays behind the number; the word made has the surfaces, readings and dictionary forms put together, the span of the words, and, if enableNormalize is set, a plain decimal numeral of the same value as normalised form",
  "all texts, paths in which such words stand anywhere, and settings of the plugin for which the joining ends",
  "the loop goes back and reads words again when the parser fails, forgets commas or points until the next word and skips words it has made, so that a number may be missed because of what stands far before it; tests have one number in a text",
  [JN + ":JoinNumericPlugin.rewrite", JN + ":JoinNumericPlugin._concat", NP + ":NumericParser.append", NP + ":NumericParser.done"])
p("Numerals written the usual way are accepted",
  "The parser of numbers accepts every text of digits, every numeral with the units 十百千 and 万億兆 in which each part has room before the unit in front of it, every integer of digits with commas at every third place that does not begin with zeros only, and each of these followed by a point and digits, and words that spell one of them become one word with the number as normalised form",
  "all numerals of any length built in this way",
  "numerals are unboundedly many combinations of digits and units, each of which the parser adds with shifts, fills of zeros and a moving point; tests try about eighty",
  [NP + ":NumericParser.append", NP + ":NumericParser.done", NP + ":StringNumber.add", NP + ":NumericParser.check_comma"])

p("The calculated cost of a user word",
  "A row of a user dictionary with the cost -32768 gets its cost from the analysis of its surface by the same Dictionary with the user dictionaries before it only and without path rewriting: the cost of the last word of that analysis less the cost of the first, less 20 for each word, forced into 16 bits. A surface that is analysed as one word therefore gets -20. All other rows keep their cost",
  "all settings, dictionaries and rows with which a Dictionary can be made",
  "depends on the whole analysis of the surface with everything loaded so far; tests load one user dictionary with one such word",
  [DI_ + ":Dictionary._read_user_dictionary", DA + ":DoubleArrayLexicon.calculate_cost", ML + ":MorphemeList.get_internal_cost"])

p("User dictionaries whose words do not occur",
  "Adding user dictionaries after those that are there changes nothing for a text in whose normalised form none of their headwords occurs: every mode gives the same morphemes, with the same word ids, word infos and parts of speech, whatever was analysed before",
  "all settings, system and user dictionaries, further user dictionaries, texts, modes and histories",
  "compares two whole systems on every text; tests compare neither and load one set of dictionaries",
  [DI_ + ":Dictionary.__init__", LS + ":LexiconSet.lookup", LS + ":LexiconSet.get_word_info", TOK + ":Tokenizer.tokenize"])

p("Setting and inhibiting connection costs",
  "Setting the cost of a connection changes the cost of that pair of ids and of no other, and every pair the matrix has and every 16 bit cost can be set; after the inhibiting plugin edited a grammar exactly the listed pairs are inhibited, and no analysis with that grammar has a listed pair: not between two words, nor at the beginning or the end",
  "all grammars, pairs of ids, costs, lists of pairs, lexicons, plugins, texts and histories",
  "the row and column of a cell are easily exchanged, which a test of a pair of equal ids cannot see; that no analysis has the pair is about all texts",
  [GR + ":Grammar.set_connect_cost", GR + ":Grammar.get_connect_cost", "sudachipy/plugin/connect_cost/inhibitconnectioncost.py:InhibitConnectionPlugin.edit", "sudachipy/plugin/connect_cost/editconnectioncost.py:EditConnectionCostPlugin.inhibit_connection", LAT + ":Lattice.connect_node"])

p("What the lattice holds for plugins",
  "When the path rewriting plugins run, the lattice has for every span of the text exactly the words that were found for it, in the order in which they were found, provided that a word may begin there and that words lead there; otherwise none.  get_minimum_node answers the first of the cheapest of them, or None if there is none; so for every span that begins with a word of the path it is the cheapest word found",
  "all dictionaries, OOV providers, texts, earlier analyses and spans",
  "the contents of the lattice depend on every word before a position; the tests of the lattice insert a few nodes by hand",
  [LAT + ":Lattice.get_nodes", LAT + ":Lattice.get_minimum_node", LAT + ":Lattice.insert", TOK + ":Tokenizer._build_lattice", PR + ":PathRewritePlugin.concatenate_oov"])

p("Texts with the same normalised form",
  "Two texts that the input text plugins turn into the same text are analysed into the same words, in every mode: as many morphemes, with the same word ids, dictionary ids, word infos and OOV marks, or the same error; only where a morpheme lies in its original text may differ.  And the input text plugins have no other effect: a tokenizer without them finds the same words in the text that they make",
  "all settings with the shipped plugins, pairs of texts with the same normalised text, modes and histories",
  "compares the analyses of any two texts; tests look at one text at a time",
  [TOK + ":Tokenizer.tokenize", "sudachipy/utf8inputtextbuilder.py:UTF8InputTextBuilder.build", "sudachipy/utf8inputtext.py:UTF8InputText", ML + ":MorphemeList"])

p("Dearer and inhibited connections",
  "If some connection costs are raised and some connections inhibited, then no text is analysed at a lower cost than before, every text that is analysed has been analysed before, and a text whose words have only connections that were left alone is still analysed, at the same cost.  Setting one cost to a larger value, or inhibiting a list of pairs, is such a change",
  "all dictionaries, pairs of connection matrices one of which is dearer cell by cell, texts up to 32766 bytes once normalised, and histories of both tokenizers; in mode C and without plugins that join words",
  "compares the best analyses under any two matrices; a test checks one matrix",
  [LAT + ":Lattice.connect_node", TOK + ":build_lattice_c", GR + ":Grammar.set_connect_cost", "sudachipy/plugin/connect_cost/inhibitconnectioncost.py:InhibitConnectionPlugin.edit"])

p("Dearer words",
  "If the costs of some words of the dictionaries are raised, then the same texts are analysed as before, none at a lower cost, and a text at the same cost if the words that were found for it have kept theirs.  Setting the cost of one word of one dictionary to a larger value is such a change",
  "all pairs of sets of dictionaries with the same words, each in the second as dear as in the first or dearer, texts up to 32766 bytes once normalised, and histories of both tokenizers; in mode C and without plugins that join words",
  "compares the best analyses with any two sets of dictionaries; a test checks one",
  [LAT + ":Lattice.connect_node", TOK + ":build_lattice_c", "sudachipy/dictionarylib/wordparameterlist.py:WordParameterList.set_cost", "sudachipy/dictionarylib/lexiconset.py:LexiconSet.lookup"])

p("Settings by key",
  "After any calls, a setting that was assigned is answered with its value and all other settings as before; a missing one raises KeyError; reading a configuration file replaces all of them, reading one that cannot be read none; and where none was read yet the default one is read first",
  "all histories of set-ups, assignments and readings, whether they succeed or fail, and all contents of files",
  "ranges over histories of calls on one global object; tests make a few on a fresh one",
  [CF + ":_Settings.__setitem__", CF + ":_Settings.__getitem__", CF + ":_Settings.set_up"])

if __name__ == "__main__":
    with open("/verif/properties.jsonl", "w", encoding="utf-8") as f:
        for x in P:
            f.write(json.dumps(x, ensure_ascii=False) + "\n")
    print(len(P))
