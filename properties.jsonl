{"id": "C01", "title": "Input rewriting keeps an order-preserving map back to the original text", "statement": "After any sequence of UTF8InputTextBuilder.replace calls with non-empty replacements, the index map built for the rewritten text has one entry per rewritten character plus one for the end, starts at 0, ends at len(original text) and never decreases; so a span of the rewritten text always denotes a well-formed span of the original.", "quantifier": "every original text, every finite sequence of successful replace(begin,end,str) calls with non-empty str that begin inside the text (begin < len), of any length", "why_tests_cant": "the number and interleaving of replacements is unbounded; a test fixes a handful of them", "anchors": ["sudachipy/utf8inputtextbuilder.py:UTF8InputTextBuilder.replace", "sudachipy/utf8inputtextbuilder.py:UTF8InputTextBuilder.__init__"]}
{"id": "C02", "title": "replace() edits exactly the requested characters", "statement": "replace(b,e,s) with 0<=b<e and b<=len raises nothing iff the indices are legal, and then the text becomes text[:b]+s+text[e:] (e clamped to the length); the map is unchanged before b and after e, the first character of s maps to the original position of b and the remaining characters of s to the original position of e.", "quantifier": "every builder state, every begin/end (negative, reversed, out of range included), every non-empty replacement", "why_tests_cant": "the branch structure (shrink, equal, grow; delete/insert loops) has to be right for every relative length", "anchors": ["sudachipy/utf8inputtextbuilder.py:UTF8InputTextBuilder.replace"]}
{"id": "C03", "title": "Deleting text through replace() keeps the end of the original reachable", "statement": "C01 also holds when the replacement is the empty string (deletion), and when text is appended with begin == len.", "quantifier": "every builder state and every deletion, including one at the end of the text", "why_tests_cant": "only shows up for empty replacements touching particular positions", "anchors": ["sudachipy/utf8inputtextbuilder.py:UTF8InputTextBuilder.replace"]}
{"id": "C04", "title": "Byte offsets map to the original text consistently", "statement": "For the object returned by build(): get_original_index(i) is defined for every byte position 0..len(bytes), is 0 at 0, len(original) at the end, non-decreasing, and equal for all the bytes of one character; get_offset_text_length(i) is the number of the character that byte i belongs to.", "quantifier": "every original text free of lone surrogates and every sequence of non-empty replacements", "why_tests_cant": "mixes 1-4 byte characters with arbitrary rewriting histories", "anchors": ["sudachipy/utf8inputtextbuilder.py:UTF8InputTextBuilder.build", "sudachipy/utf8inputtext.py:UTF8InputText.get_original_index"]}
{"id": "C05", "title": "Substring extraction agrees with the byte text", "statement": "get_substring(b,e) for character-boundary byte positions b<=e is exactly the text whose UTF-8 encoding is bytes[b:e]; out-of-range or reversed arguments raise IndexError.", "quantifier": "every text and every pair of byte positions", "why_tests_cant": "boundaries of 1-4 byte characters in all combinations", "anchors": ["sudachipy/utf8inputtext.py:UTF8InputText.get_substring", "sudachipy/utf8inputtextbuilder.py:UTF8InputTextBuilder.build"]}
{"id": "C06", "title": "UTF-8 length table matches the encoder", "statement": "utf8_byte_length(cp) equals the number of bytes the UTF-8 encoder produces for cp, and UTF-8 encoding is injective and decodable, so the byte text and the character text never get out of step.", "quantifier": "every code point 0..0x10FFFF that is not a surrogate, every text", "why_tests_cant": "1.1 million code points and all their concatenations", "anchors": ["sudachipy/utf8inputtextbuilder.py:UTF8InputTextBuilder.utf8_byte_length", "sudachipy/utf8inputtextbuilder.py:UTF8InputTextBuilder.build"]}
{"id": "C07", "title": "Category runs are sound", "statement": "get_char_category_continuous_length(i) is positive, i plus it is a character boundary not past the end, and all characters from i to there share at least one category (or it is one character).", "quantifier": "every text, every assignment of category sets to characters, every byte position", "why_tests_cant": "depends on arbitrary overlap patterns between category sets", "anchors": ["sudachipy/utf8inputtextbuilder.py:UTF8InputTextBuilder.get_char_category_continuities", "sudachipy/utf8inputtextbuilder.py:UTF8InputTextBuilder.get_char_category_continuous_length"]}
{"id": "C08", "title": "get_char_category_types(b,e) returns the common categories of the span", "statement": "For character-boundary positions b<e, get_char_category_types(b,e) contains a category iff every character in the span has it.", "quantifier": "every text, category assignment and span", "why_tests_cant": "the early exit uses run lengths computed from a different starting point", "anchors": ["sudachipy/utf8inputtext.py:UTF8InputText.get_char_category_types"]}
{"id": "C09", "title": "Code point arithmetic on byte positions", "statement": "From a character boundary, get_code_points_offset_length(i,k) is the number of bytes of the next min(k, remaining) characters, and code_point_count(b,e) is the number of characters between two boundaries.", "quantifier": "every text, boundary and k", "why_tests_cant": "variable-width characters in all combinations", "anchors": ["sudachipy/utf8inputtext.py:UTF8InputText.get_code_points_offset_length", "sudachipy/utf8inputtext.py:UTF8InputText.code_point_count"]}
{"id": "C10", "title": "Word candidates end where a word may start", "statement": "get_word_candidate_length(i) is positive for i<len and i plus it is the first later position where can_bow holds, or the end of the text; can_bow only holds at character boundaries and always at 0 for a non-empty text.", "quantifier": "every text, category assignment and byte position", "why_tests_cant": "arbitrary alternation of alphabetic categories", "anchors": ["sudachipy/utf8inputtext.py:UTF8InputText.get_word_candidate_length", "sudachipy/utf8inputtext.py:UTF8InputText.can_bow", "sudachipy/utf8inputtextbuilder.py:UTF8InputTextBuilder._build_can_bow_list"]}
{"id": "C11", "title": "Default normalisation computes the documented rewriting", "statement": "DefaultInputTextPlugin.rewrite never raises and leaves in the builder exactly the text obtained by scanning left to right: the longest entry of the replace list that matches at the current position, otherwise the lower-cased character, NFKC-normalised unless it is on the ignore list.", "quantifier": "every text, replace list, ignore list, and every lower()/NFKC function that never returns the empty string", "why_tests_cant": "running offsets must be right for every mix of growing and shrinking replacements", "anchors": ["sudachipy/plugin/input_text/default_input_text_plugin.py:DefaultInputTextPlugin.rewrite"]}
{"id": "C12", "title": "Prolonged sound marks are collapsed", "statement": "ProlongedSoundMarkInputTextPlugin.rewrite never raises and replaces each maximal run of two or more configured marks by the replacement symbol, leaving all else unchanged.", "quantifier": "every text, mark set and replacement symbol", "why_tests_cant": "running offsets depend on the number and lengths of the earlier runs", "anchors": ["sudachipy/plugin/input_text/prolongedsoundmark.py:ProlongedSoundMarkInputTextPlugin.rewrite"]}
{"id": "C13", "title": "A character's categories are the union over the definition file", "statement": "After a character definition is loaded, get_category_types(cp) is exactly the union of the categories of all the ranges that contain cp, and {DEFAULT} when none does.", "quantifier": "every non-empty list of (possibly overlapping, nested, duplicated, touching) ranges, every code point, every tie-breaking of the priority queue", "why_tests_cant": "range overlap patterns are unbounded; the sweep plus binary search is the kind of code that fails at one boundary", "anchors": ["sudachipy/dictionarylib/charactercategory.py:CharacterCategory._compile", "sudachipy/dictionarylib/charactercategory.py:CharacterCategory.get_category_types"]}
{"id": "C14", "title": "The compiled category table is well-formed", "statement": "The compiled ranges are sorted and pairwise disjoint, and the order in which the lines of the definition file are given does not matter.", "quantifier": "every definition file and every permutation of its ranges", "why_tests_cant": "as for C13", "anchors": ["sudachipy/dictionarylib/charactercategory.py:CharacterCategory._compile"]}
{"id": "C15", "title": "The returned path has minimal cost", "statement": "The path chosen by tokenize (before path rewriting) has the least total cost (word costs plus connection costs, with begin and end of sentence) among all the sequences of candidate words that tile the text and use no inhibited connection.", "quantifier": "every lexicon, cost matrix, OOV configuration with connection ids in the matrix (others: C79) and text whose total cost cannot exceed 32-bit integers", "why_tests_cant": "the number of tilings is exponential; optimality is a universally quantified statement", "anchors": ["sudachipy/lattice.pyx:Lattice.insert", "sudachipy/lattice.pyx:Lattice.connect_node", "sudachipy/lattice.pyx:Lattice.get_best_path", "sudachipy/tokenizer.pyx:build_lattice_c"]}
{"id": "C16", "title": "tokenize fails exactly when no analysis exists", "statement": "get_best_path raises 'EOS is not connected to BOS' iff no sequence of candidate words tiles the text without an inhibited connection.", "quantifier": "every lexicon, cost matrix, OOV configuration with connection ids in the matrix (others: C79) and text whose accumulated cost cannot pass 2^31 (longer texts: C17)", "why_tests_cant": "reachability in an arbitrary graph", "anchors": ["sudachipy/lattice.pyx:Lattice.get_best_path", "sudachipy/lattice.pyx:Lattice.connect_node"]}
{"id": "C17", "title": "Total costs survive 32-bit arithmetic", "statement": "C15 holds for texts of any length.", "quantifier": "every text length, in particular texts whose accumulated cost passes 2^31", "why_tests_cant": "needs inputs of tens of thousands of words with large costs", "anchors": ["sudachipy/lattice.pyx:Lattice.connect_node", "sudachipy/latticenode.pxd:LatticeNode.total_cost"]}
{"id": "C18", "title": "The path tiles the text", "statement": "The morphemes of a C-mode analysis are contiguous: the first begins at byte 0, each begins where the previous ends, the last ends at the end of the text, and none is empty.", "quantifier": "every lexicon with non-empty headwords, configuration and text", "why_tests_cant": "every path through every lattice", "anchors": ["sudachipy/lattice.pyx:Lattice.get_best_path", "sudachipy/tokenizer.pyx:build_lattice_c"]}
{"id": "C19", "title": "Ties are broken towards the candidate inserted first", "statement": "Among predecessors of equal cost the one inserted first is kept, so the analysis is a function of the candidate sequence.", "quantifier": "every lattice", "why_tests_cant": "ties are rare in hand-written dictionaries", "anchors": ["sudachipy/lattice.pyx:Lattice.connect_node"]}
{"id": "C20", "title": "Analyses do not depend on what was analysed before", "statement": "tokenize(text) on a tokenizer that has already processed any sequence of other texts gives the same result as on a fresh tokenizer, whether or not some of the earlier calls raised an exception.", "quantifier": "every history of calls on one tokenizer object", "why_tests_cant": "the reused lattice has unboundedly many histories", "anchors": ["sudachipy/lattice.pyx:Lattice.resize", "sudachipy/lattice.pyx:Lattice.clear", "sudachipy/lattice.pyx:Lattice.expand", "sudachipy/tokenizer.pyx:Tokenizer.tokenize"]}
{"id": "C21", "title": "Every text is analysable with the default OOV set-up", "statement": "With a SimpleOovPlugin as the last OOV provider and no inhibited connections, tokenize never raises for any text without lone surrogates.", "quantifier": "every text, lexicon, character definition and combination of MeCab-style providers before it", "why_tests_cant": "a dead end in the lattice needs one particular category pattern", "anchors": ["sudachipy/tokenizer.pyx:build_lattice_c", "sudachipy/plugin/oov/simple_oov_plugin.py:SimpleOovPlugin.provide_oov", "sudachipy/plugin/oov/mecab_oov_plugin.py:MeCabOovPlugin.provide_oov"]}
{"id": "C22", "title": "The analysis is deterministic across processes", "statement": "Two runs of the same program on the same text give the same analysis.", "quantifier": "every iteration order Python may choose for a set of categories (hash randomisation)", "why_tests_cant": "a test runs under one hash seed", "anchors": ["sudachipy/plugin/oov/mecab_oov_plugin.py:MeCabOovPlugin.provide_oov", "sudachipy/utf8inputtext.py:UTF8InputText.get_char_category_types"]}
{"id": "C23", "title": "Surfaces concatenate to the input", "statement": "For every text, the concatenation of m.surface() over the C-mode morphemes is the original text, and m.surface() is original[m.begin():m.end()], whatever the input-text plugins rewrote.", "quantifier": "every text, plugin configuration, lexicon and path rewriting", "why_tests_cant": "composition of rewriting, lattice and path rewriting over all inputs", "anchors": ["sudachipy/morphemelist.py:MorphemeList.get_surface", "sudachipy/tokenizer.pyx:Tokenizer.tokenize"]}
{"id": "C24", "title": "A/B-mode splitting preserves coverage", "statement": "The same holds in modes A and B.", "quantifier": "every text and every dictionary accepted by the builder", "why_tests_cant": "depends on head word lengths stored for other entries", "anchors": ["sudachipy/tokenizer.pyx:Tokenizer._split_path", "sudachipy/morphemelist.py:MorphemeList.split"]}
{"id": "C25", "title": "Mode A/B equals splitting the C-mode morphemes", "statement": "tokenize(text, A) (resp. B) yields the same morphemes as tokenize(text, C) followed by split(A) (resp. B) of each morpheme, concatenated.", "quantifier": "every text, dictionary and mode", "why_tests_cant": "two independent implementations of the same algorithm", "anchors": ["sudachipy/tokenizer.pyx:Tokenizer._split_path", "sudachipy/morphemelist.py:MorphemeList.split"]}
{"id": "C26", "title": "MeCab OOV candidates are sound", "statement": "Every node from MeCabOovPlugin.get_oov starts at the offset, is non-empty, ends on a character boundary inside the category run and its surface is the corresponding substring; nothing is offered for a category that is not invoked when other words exist.", "quantifier": "every text, category table, OOV table and offset", "why_tests_cant": "arbitrary category/OOV tables", "anchors": ["sudachipy/plugin/oov/mecab_oov_plugin.py:MeCabOovPlugin.provide_oov", "sudachipy/plugin/oov/oov_provider_plugin.py:OovProviderPlugin.get_oov"]}
{"id": "C27", "title": "MeCab OOV candidates of length 1..n are all offered", "statement": "As char.def documents ('LENGTH: 1 to n length new words are added'), for each invoked category with LENGTH n and each k in 1..n with k characters inside the run, a candidate of k characters is offered for each OOV entry of the category.", "quantifier": "every text, category table, OOV table and offset", "why_tests_cant": "needs a category with GROUP and several OOV entries", "anchors": ["sudachipy/plugin/oov/mecab_oov_plugin.py:MeCabOovPlugin.provide_oov"]}
{"id": "C28", "title": "Words of every loaded dictionary can be used", "statement": "A text containing a word of any of the up to 15 user dictionaries that Dictionary accepts can be analysed.", "quantifier": "every dictionary index 0..15", "why_tests_cant": "tests load one user dictionary", "anchors": ["sudachipy/dictionarylib/lexiconset.py:LexiconSet.build_word_id", "sudachipy/latticenode.pxd:LatticeNode.word_id", "sudachipy/tokenizer.pyx:build_lattice_c"]}
{"id": "C29", "title": "Katakana joining only removes boundaries", "statement": "JoinKatakanaOovPlugin.rewrite terminates, never raises, and the resulting path covers the same span with a subset of the original boundaries; untouched morphemes are kept unchanged and in order.", "quantifier": "every path, category assignment, minimum length and lattice content", "why_tests_cant": "the inner begin/end scans with in-place list surgery must be safe for every pattern", "anchors": ["sudachipy/plugin/path_rewrite/join_katakana_oov_plugin.py:JoinKatakanaOovPlugin.rewrite", "sudachipy/plugin/path_rewrite/path_rewrite_plugin.py:PathRewritePlugin.concatenate_oov"]}
{"id": "C30", "title": "Numeric joining only removes boundaries", "statement": "Whenever JoinNumericPlugin.rewrite terminates it has not raised, and the resulting path covers the same span with a subset of the original boundaries.", "quantifier": "every path, category assignment and normalised forms", "why_tests_cant": "back-tracking index arithmetic", "anchors": ["sudachipy/plugin/path_rewrite/join_numeric_plugin.py:JoinNumericPlugin.rewrite", "sudachipy/plugin/path_rewrite/path_rewrite_plugin.py:PathRewritePlugin.concatenate"]}
{"id": "C31", "title": "Numeric joining terminates", "statement": "JoinNumericPlugin.rewrite terminates on every path.", "quantifier": "every path, category assignment and normalised forms, including user-dictionary normalised forms", "why_tests_cant": "the loop moves its index backwards", "anchors": ["sudachipy/plugin/path_rewrite/join_numeric_plugin.py:JoinNumericPlugin.rewrite"]}
{"id": "C32", "title": "The numeric parser computes the right value", "statement": "If NumericParser accepts a string (every append and done() return True), get_normalized() is a decimal numeral whose value is the value of the numeral under the usual reading of Japanese numerals (digits, point, 十百千, 万億兆).", "quantifier": "every string over the accepted alphabet, of any length", "why_tests_cant": "string arithmetic with scales and points over unboundedly many shapes", "anchors": ["sudachipy/plugin/path_rewrite/numericparser.py:NumericParser", "sudachipy/plugin/path_rewrite/numericparser.py:NumericParser.StringNumber"]}
{"id": "C33", "title": "Normalised numerals are canonical", "statement": "get_normalized() of an accepted numeral is a non-empty digit string, optionally followed by a point and a fraction that does not end in 0.", "quantifier": "every accepted string", "why_tests_cant": "as for C32", "anchors": ["sudachipy/plugin/path_rewrite/numericparser.py:NumericParser.StringNumber.__str__"]}
{"id": "C34", "title": "Commas are accepted only as thousands separators", "statement": "In an accepted numeral every comma separates groups of three digits in an integer part (1-3 digits before the first comma).", "quantifier": "every accepted string", "why_tests_cant": "reset points of the comma state are many", "anchors": ["sudachipy/plugin/path_rewrite/numericparser.py:NumericParser.append", "sudachipy/plugin/path_rewrite/numericparser.py:NumericParser.check_comma"]}
{"id": "C35", "title": "A joined number has the value of its text", "statement": "When JoinNumericPlugin joins morphemes into one (normalisation enabled), the normalised form denotes the value of the joined numeral, also when a trailing comma or point is left out.", "quantifier": "every path", "why_tests_cant": "the failing path of done() is reused as a success", "anchors": ["sudachipy/plugin/path_rewrite/join_numeric_plugin.py:JoinNumericPlugin._concat", "sudachipy/plugin/path_rewrite/numericparser.py:NumericParser.done"]}
{"id": "C36", "title": "get_normalized() can be called again", "statement": "Calling get_normalized() twice gives the same string.", "quantifier": "every accepted string", "why_tests_cant": "the conversion mutates the parser", "anchors": ["sudachipy/plugin/path_rewrite/numericparser.py:NumericParser.get_normalized", "sudachipy/plugin/path_rewrite/numericparser.py:NumericParser.StringNumber.__str__"]}
{"id": "C37", "title": "Word ids identify dictionary and entry", "statement": "build_word_id followed by get_dictionary_id / get_word_id1 gives back the dictionary index and the entry number, and an entry number above 0x0FFFFFFF is rejected.", "quantifier": "every dictionary index 0..15 and every entry number", "why_tests_cant": "2^28 entries by 16 dictionaries", "anchors": ["sudachipy/dictionarylib/lexiconset.py:LexiconSet.build_word_id", "sudachipy/dictionarylib/lexiconset.py:LexiconSet.get_dictionary_id", "sudachipy/dictionarylib/lexiconset.py:LexiconSet.get_word_id1"]}
{"id": "C38", "title": "Lookup returns exactly the words that start here", "statement": "LexiconSet.lookup(text, i) yields (id, e) iff text[i:e] is the headword of entry id of one of the loaded dictionaries (user dictionaries first), without duplicates for duplicate-free dictionaries.", "quantifier": "every set of dictionaries, text and offset", "why_tests_cant": "any number of dictionaries and homographs", "anchors": ["sudachipy/dictionarylib/lexiconset.py:LexiconSet.lookup", "sudachipy/dictionarylib/doublearraylexicon.py:DoubleArrayLexicon.lookup", "sudachipy/dictionarylib/wordidtable.py:WordIdTable.get"]}
{"id": "C39", "title": "Parts of speech of user words resolve to the user's own definition", "statement": "For a word of the k-th user dictionary, grammar.get_part_of_speech_string(get_word_info(id).pos_id) is the part of speech the word had in its source file, for system-defined and user-defined parts of speech alike.", "quantifier": "every sequence of user dictionaries loaded in any order", "why_tests_cant": "offsets accumulate over the dictionaries loaded before", "anchors": ["sudachipy/dictionarylib/lexiconset.py:LexiconSet.get_word_info", "sudachipy/dictionarylib/lexiconset.py:LexiconSet.add", "sudachipy/dictionary.py:Dictionary._read_user_dictionary", "sudachipy/dictionarylib/grammar.py:Grammar.add_pos_list", "sudachipy/dictionarylib/userdictionarybuilder.py:UserDictionaryBuilder.get_posid"]}
{"id": "C40", "title": "Split references resolve within the right dictionary", "statement": "The split and structure ids of a word of dictionary k refer, after loading, to the system dictionary if they were system ids and to dictionary k if they were user ids.", "quantifier": "every dictionary index and id list", "why_tests_cant": "ids are rewritten relative to load order", "anchors": ["sudachipy/dictionarylib/lexiconset.py:LexiconSet.convert_split", "sudachipy/dictionarylib/lexiconset.py:LexiconSet.get_word_info"]}
{"id": "C41", "title": "The word-info cache is transparent", "statement": "get_word_info(id) returns the same as without the cache for every interleaving of lookups and dictionary loading.", "quantifier": "every history of add and get_word_info calls", "why_tests_cant": "cache state depends on the whole history (1024 entries, LRU)", "anchors": ["sudachipy/dictionarylib/lexiconset.py:LexiconSet.get_word_info", "sudachipy/dictionarylib/lexiconset.py:LexiconSet.add"]}
{"id": "C42", "title": "get_word_id finds a word iff it is there", "statement": "get_word_id(headword,pos,reading) returns the id of an entry with that surface, part of speech and reading if there is one and -1 otherwise - for a single lexicon and for a lexicon set.", "quantifier": "every lexicon (set) and query", "why_tests_cant": "depends on which dictionary and which position the entry has", "anchors": ["sudachipy/dictionarylib/lexiconset.py:LexiconSet.get_word_id", "sudachipy/dictionarylib/doublearraylexicon.py:DoubleArrayLexicon.get_word_id"]}
{"id": "C43", "title": "Automatic user costs are well-formed", "statement": "calculate_cost changes only entries whose cost is -32768, and stores a value in the signed 16-bit range.", "quantifier": "every user lexicon and every tokenizer result", "why_tests_cant": "arbitrary analyses of arbitrary surfaces", "anchors": ["sudachipy/dictionarylib/doublearraylexicon.py:DoubleArrayLexicon.calculate_cost", "sudachipy/morphemelist.py:MorphemeList.get_internal_cost"]}
{"id": "C44", "title": "Dictionary forms resolve", "statement": "get_word_info returns for every word, its dictionary form being the surface of the referenced word.", "quantifier": "every word-info list the builder can produce, including cyclic dictionary-form references", "why_tests_cant": "recursion over arbitrary reference graphs", "anchors": ["sudachipy/dictionarylib/wordinfolist.py:WordInfoList.get_word_info", "sudachipy/dictionarylib/dictionarybuilder.py:DictionaryBuilder.parse_line"]}
{"id": "C45", "title": "Reading word info leaves the reader position unchanged and is repeatable", "statement": "get_word_info restores the position of the underlying buffer and returns the same value each time, for sequential use.", "quantifier": "every buffer position and word id", "why_tests_cant": "any call history", "anchors": ["sudachipy/dictionarylib/wordinfolist.py:WordInfoList.get_word_info"]}
{"id": "C46", "title": "Concurrent readers of one dictionary do not disturb each other", "statement": "Two threads calling get_word_info on the same dictionary each get what they would get alone.", "quantifier": "every interleaving of the two threads' buffer operations", "why_tests_cant": "schedules cannot be enumerated by tests", "anchors": ["sudachipy/dictionarylib/wordinfolist.py:WordInfoList.get_word_info"]}
{"id": "C47", "title": "Dictionary headers round-trip", "statement": "from_bytes(to_bytes(h)) == h and the encoding is exactly 272 bytes; a description longer than 256 bytes is rejected.", "quantifier": "every version, creation time and description without NUL", "why_tests_cant": "all descriptions up to the boundary length in any script", "anchors": ["sudachipy/dictionarylib/dictionaryheader.py:DictionaryHeader.to_bytes", "sudachipy/dictionarylib/dictionaryheader.py:DictionaryHeader.from_bytes"]}
{"id": "C48", "title": "Strings in word infos round-trip", "statement": "Every string that the builder accepts is read back unchanged.", "quantifier": "every string that passes the builder's length validation, including supplementary characters", "why_tests_cant": "the length prefix changes form at 128 and overflows at 32768 UTF-16 units", "anchors": ["sudachipy/dictionarylib/dictionarybuilder.py:DictionaryBuilder.write_string", "sudachipy/dictionarylib/dictionarybuilder.py:DictionaryBuilder.write_stringlength", "sudachipy/dictionarylib/wordinfolist.py:WordInfoList.buffer_to_string", "sudachipy/dictionarylib/wordinfolist.py:WordInfoList.buffer_to_string_length", "sudachipy/dictionarylib/dictionarybuilder.py:DictionaryBuilder.__is_length_valid"]}
{"id": "C49", "title": "Integer arrays and parameters round-trip", "statement": "Split lists, synonym lists and word parameters are read back as written, and values that do not fit are rejected at build time rather than truncated.", "quantifier": "every list and value", "why_tests_cant": "whole integer ranges", "anchors": ["sudachipy/dictionarylib/dictionarybuilder.py:DictionaryBuilder.write_intarray", "sudachipy/dictionarylib/wordinfolist.py:WordInfoList.buffer_to_int_array", "sudachipy/dictionarylib/wordparameterlist.py:WordParameterList", "sudachipy/dictionarylib/jtypedbytebuffer.py:JTypedByteBuffer.write_int"]}
{"id": "C50", "title": "The word-id table round-trips", "statement": "For every headword, the list of entry numbers stored by the builder is what WordIdTable.get returns at the offset stored in the trie.", "quantifier": "every multiset of headwords", "why_tests_cant": "variable-length records at computed offsets", "anchors": ["sudachipy/dictionarylib/dictionarybuilder.py:DictionaryBuilder.write_lexicon", "sudachipy/dictionarylib/wordidtable.py:WordIdTable.get", "sudachipy/dictionarylib/dictionarybuilder.py:DictionaryBuilder.add_to_trie"]}
{"id": "C51", "title": "Word infos round-trip", "statement": "get_word_info(i) on a built dictionary returns the surface, length, part of speech, normalised form, reading, splits, structure and synonym ids of the i-th source entry.", "quantifier": "every list of entries", "why_tests_cant": "record layout over all entries", "anchors": ["sudachipy/dictionarylib/dictionarybuilder.py:DictionaryBuilder.write_wordinfo", "sudachipy/dictionarylib/wordinfolist.py:WordInfoList.get_word_info"]}
{"id": "C52", "title": "The word-info offset table never overlaps the word infos", "statement": "The position chosen for the word infos leaves room for the offset table whatever the number of entries.", "quantifier": "every number of entries and size of the preceding sections", "why_tests_cant": "the gap is computed by an unusual formula", "anchors": ["sudachipy/dictionarylib/dictionarybuilder.py:DictionaryBuilder.write_wordinfo"]}
{"id": "C53", "title": "The part-of-speech table round-trips", "statement": "Grammar read from a built dictionary has the part-of-speech list of the builder, in order.", "quantifier": "every list of six-component parts of speech the builder accepts", "why_tests_cant": "component lengths and contents are unbounded", "anchors": ["sudachipy/dictionarylib/dictionarybuilder.py:DictionaryBuilder.convert_postable", "sudachipy/dictionarylib/grammar.py:Grammar.__init__", "sudachipy/dictionarylib/grammar.py:Grammar.bytes_get_string"]}
{"id": "C54", "title": "The connection matrix round-trips", "statement": "get_connect_cost(l, r) on a built dictionary is the cost given for the pair 'l r' in the matrix file.", "quantifier": "every matrix size and every set of cells", "why_tests_cant": "square and non-square sizes, any order of lines, missing cells", "anchors": ["sudachipy/dictionarylib/dictionarybuilder.py:DictionaryBuilder.convert_matrix", "sudachipy/dictionarylib/grammar.py:Grammar.get_connect_cost"]}
{"id": "C55", "title": "A built dictionary opens to what was built", "statement": "Opening the file produced by build gives the part-of-speech table, matrix, headword table, parameters and word infos of the sources: the section offsets computed by the reader are those used by the writer.", "quantifier": "every list of entries, part-of-speech table, matrix and trie image", "why_tests_cant": "all section sizes vary", "anchors": ["sudachipy/dictionarylib/binarydictionary.py:BinaryDictionary._read_dictionary", "sudachipy/dictionarylib/dictionarybuilder.py:DictionaryBuilder.build", "sudachipy/dictionarylib/doublearraylexicon.py:DoubleArrayLexicon.__init__"]}
{"id": "C56", "title": "Split information never dangles", "statement": "Every id in the split information written by a successful build denotes an existing entry (of the dictionary itself or of the system dictionary).", "quantifier": "every list of entries, by id or by word reference", "why_tests_cant": "any reference graph", "anchors": ["sudachipy/dictionarylib/dictionarybuilder.py:DictionaryBuilder.parse_splitinfo", "sudachipy/dictionarylib/dictionarybuilder.py:DictionaryBuilder.parse_id", "sudachipy/dictionarylib/dictionarybuilder.py:DictionaryBuilder.check_wordid", "sudachipy/dictionarylib/userdictionarybuilder.py:UserDictionaryBuilder.check_wordid", "sudachipy/dictionarylib/userdictionarybuilder.py:UserDictionaryBuilder.get_wordid"]}
{"id": "C57", "title": "Unicode escapes in the source are decoded", "statement": "In a source column, \\\\uXXXX and \\\\u{X...} denote the character with that code point and all other text is kept.", "quantifier": "every code point and every number of digits the notation admits", "why_tests_cant": "0x110000 code points, several notations each", "anchors": ["sudachipy/dictionarylib/dictionarybuilder.py:DictionaryBuilder.decode"]}
{"id": "C58", "title": "Bad source lines are rejected", "statement": "parse_line raises ValueError for too few columns, an empty or over-long headword, too many split units or splits on an A-unit, and otherwise returns an entry carrying the columns.", "quantifier": "every row", "why_tests_cant": "boundary values of every check", "anchors": ["sudachipy/dictionarylib/dictionarybuilder.py:DictionaryBuilder.parse_line"]}
{"id": "C59", "title": "Dictionary kinds are told apart", "statement": "A version number is accepted iff it is one of the five known ones; no version is both a system and a user dictionary; loading a user dictionary as system dictionary (or the reverse) raises.", "quantifier": "every 64-bit version number", "why_tests_cant": "2^64 values", "anchors": ["sudachipy/dictionarylib/dictionaryversion.py:is_dictionary", "sudachipy/dictionarylib/binarydictionary.py:BinaryDictionary.from_system_dictionary", "sudachipy/dictionarylib/binarydictionary.py:BinaryDictionary.from_user_dictionary"]}
{"id": "C60", "title": "dict_type wins over the configuration file", "statement": "After a successful settings.set_up, the system dictionary is the one of dict_type if given, else the one named in the configuration, else the installed core dictionary; a dict_type other than small/core/full raises ValueError.", "quantifier": "every configuration, dict_type and set of installed dictionaries, after any earlier set-up", "why_tests_cant": "the settings object is global and carries over", "anchors": ["sudachipy/config.py:_Settings.set_up", "sudachipy/config.py:_Settings.system_dict_path"]}
{"id": "C61", "title": "Command-line output is framed by EOS", "statement": "sudachipy prints for each input line one line per morpheme followed by exactly one EOS line, so the output can be cut back into the analyses of the input lines.", "quantifier": "every input and analysis", "why_tests_cant": "arbitrary texts", "anchors": ["sudachipy/command_line.py:run"]}
{"id": "C62", "title": "MorphemeList behaves like a sequence", "statement": "len, iteration, positive and negative indexing of a MorphemeList agree with each other and out-of-range indices raise IndexError.", "quantifier": "every list and index", "why_tests_cant": "all indices", "anchors": ["sudachipy/morphemelist.py:MorphemeList.__getitem__", "sudachipy/morphemelist.py:MorphemeList.__iter__", "sudachipy/morphemelist.py:MorphemeList.__len__"]}
{"id": "C63", "title": "Dictionary id -1 marks out-of-vocabulary morphemes", "statement": "m.dictionary_id() is -1 iff m.is_oov() (README: '-1 (OOV) if a word is Out-of-Vocabulary').", "quantifier": "every morpheme of every analysis", "why_tests_cant": "joined morphemes are created by plugins", "anchors": ["sudachipy/latticenode.pyx:LatticeNode.get_dictionary_id", "sudachipy/plugin/path_rewrite/path_rewrite_plugin.py:PathRewritePlugin.concatenate"]}
{"id": "C64", "title": "The character definition file means what it says", "statement": "After read_character_definition, a character has exactly the categories of all the lines whose range contains it, and DEFAULT if there is none; every accepted file consists of range lines, comments, blank lines and lines of another kind.", "quantifier": "every character definition file and every character", "why_tests_cant": "arbitrary files", "anchors": ["sudachipy/dictionarylib/charactercategory.py:CharacterCategory.read_character_definition"]}
{"id": "C65", "title": "Unknown words are as unk.def and char.def say", "statement": "MeCabOovProviderPlugin.set_up accepts a file iff every entry names a category that has properties; the candidates it then offers carry the connection ids, the cost and the part of speech of an unk.def line whose category the character has.", "quantifier": "every pair of files, grammar, text and position", "why_tests_cant": "arbitrary files and texts", "anchors": ["sudachipy/plugin/oov/mecab_oov_plugin.py:MeCabOovPlugin.set_up", "sudachipy/plugin/oov/mecab_oov_plugin.py:MeCabOovPlugin.provide_oov", "sudachipy/dictionarylib/grammar.py:Grammar.get_part_of_speech_id"]}
{"id": "C66", "title": "rewrite.def means what it says", "statement": "DefaultInputTextPlugin replaces exactly the keys that rewrite.def lists (longest match), keeps exactly the characters it lists as exempt from NFKC, and rejects a file with a line of another form or a key twice.", "quantifier": "every rewrite.def file and every text", "why_tests_cant": "arbitrary files and texts", "anchors": ["sudachipy/plugin/input_text/default_input_text_plugin.py:DefaultInputTextPlugin.read_rewrite_lists"]}
{"id": "C67", "title": "Lexicon source files are read as CSV", "statement": "However the cells of a lexicon source are quoted and its lines ended, the builder sees the rows of values that were written.", "quantifier": "every table of values (no carriage return within a value) and every way of quoting it", "why_tests_cant": "arbitrary files", "anchors": ["sudachipy/dictionarylib/dictionarybuilder.py:DictionaryBuilder.build_lexicon"]}
{"id": "C68", "title": "matrix.def gives the connection costs", "statement": "The cost of a connection in the built dictionary is the one the last line of matrix.def for this pair gives, 0 if there is none.", "quantifier": "every square matrix file and every pair", "why_tests_cant": "arbitrary files", "anchors": ["sudachipy/dictionarylib/dictionarybuilder.py:DictionaryBuilder.write_grammar", "sudachipy/dictionarylib/dictionarybuilder.py:DictionaryBuilder.convert_matrix"]}
{"id": "C69", "title": "A morpheme of a dictionary is a row of its source", "statement": "If m.dictionary_id() of a morpheme is k (not -1), m.word_id() names a row of the source of the k-th dictionary, and its part of speech, reading, normalised and dictionary form are those of the row; in mode C the headword of the row is the (normalised) text the morpheme covers, and its surface when there are no input text plugins.", "quantifier": "every configuration, every system and user dictionary built from sources, every text, mode and earlier use of the tokenizer", "why_tests_cant": "arbitrary sources, configurations and texts", "anchors": ["sudachipy/dictionary.py:Dictionary", "sudachipy/tokenizer.pyx:Tokenizer.tokenize", "sudachipy/morpheme.py:Morpheme", "sudachipy/dictionarylib/dictionarybuilder.py:DictionaryBuilder.build"]}
{"id": "C70", "title": "Words in no dictionary have a configured part of speech", "statement": "m.part_of_speech() of an OOV morpheme is one that the configuration gives OOV words (oovPOS of SimpleOovProviderPlugin or JoinKatakanaOovPlugin, a line of unk.def), of a joined number it is the one of numerals.", "quantifier": "every configuration, dictionaries, text and mode", "why_tests_cant": "arbitrary configurations and texts", "anchors": ["sudachipy/dictionary.py:Dictionary", "sudachipy/plugin/oov/simple_oov_plugin.py:SimpleOovPlugin.set_up", "sudachipy/plugin/oov/mecab_oov_plugin.py:MeCabOovPlugin.read_oov", "sudachipy/plugin/path_rewrite/join_katakana_oov_plugin.py:JoinKatakanaOovPlugin.set_up", "sudachipy/plugin/path_rewrite/join_numeric_plugin.py:JoinNumericPlugin.set_up"]}
{"id": "C71", "title": "A Dictionary that was made analyses every text", "statement": "Once Dictionary(...) has been made from dictionary files and complete resources, tokenize(text, mode) returns a MorphemeList for every text (up to 32766 bytes once normalised) and mode, whatever was analysed before, and every morpheme of it answers with its word info, part of speech and (in mode C) surface.", "quantifier": "every configuration with complete resources, every system dictionary and up to seven user dictionaries built from sources, every text, mode and earlier use of the tokenizer", "why_tests_cant": "an analysis that raises for some text is only met when that text comes along", "anchors": ["sudachipy/dictionary.py:Dictionary", "sudachipy/tokenizer.pyx:Tokenizer.tokenize", "sudachipy/morphemelist.py:MorphemeList", "sudachipy/morpheme.py:Morpheme"]}
{"id": "C72", "title": "A dictionary file that was cut short is rejected", "statement": "A dictionary file of which only a first part is left (an interrupted build, copy or download) raises when it is opened; it never opens and gives other words or other contents.", "quantifier": "every file that opens and every length it is cut to", "why_tests_cant": "tests open complete files; the damage depends on the byte at which the file ends", "anchors": ["sudachipy/dictionarylib/binarydictionary.py:BinaryDictionary._read_dictionary", "sudachipy/dictionarylib/grammar.py:Grammar.__init__", "sudachipy/dictionarylib/doublearraylexicon.py:DoubleArrayLexicon.__init__", "sudachipy/dictionarylib/wordparameterlist.py:WordParameterList.__init__", "sudachipy/dictionarylib/wordinfolist.py:WordInfoList.get_word_info"]}
{"id": "C73", "title": "Up to fifteen user dictionaries can be used, and more are reported", "statement": "A Dictionary with up to fifteen user dictionaries whose words have costs is made and analyses texts with the words of all of them; with more than fifteen, Dictionary(...) raises ValueError and nothing is silently left out.", "quantifier": "every system dictionary file, every list of user dictionary files and every configuration", "why_tests_cant": "tests load one user dictionary; the limit and what happens past it are never reached", "anchors": ["sudachipy/dictionary.py:Dictionary._read_user_dictionary", "sudachipy/dictionarylib/lexiconset.py:LexiconSet.is_full", "sudachipy/dictionarylib/lexiconset.py:LexiconSet.add", "sudachipy/latticenode.pyx:LatticeNode"]}
{"id": "C74", "title": "A new Dictionary depends only on its arguments and the files it names", "statement": "What Dictionary(config_path, resource_dir, dict_type) gives is determined by its arguments, the settings file and the contents of the files named there, found in the resource directory unless absolute; dictionaries made or settings changed earlier in the process, failed attempts and other files have no effect, and each resource file placed in the resource directory is the one that is used.", "quantifier": "every earlier state of the settings, all arguments, every pair of file systems that agree on the named files", "why_tests_cant": "the settings object is global to the process: interference shows only for particular sequences of constructions and file layouts", "anchors": ["sudachipy/config.py:_Settings.set_up", "sudachipy/dictionary.py:Dictionary.__init__", "sudachipy/plugin/input_text/default_input_text_plugin.py:DefaultInputTextPlugin.set_up", "sudachipy/plugin/oov/mecab_oov_plugin.py:MeCabOovPlugin.set_up"]}
{"id": "C75", "title": "The analysis is the cheapest by the numbers in the source files", "statement": "For every text, a tokenizer made from a configuration, matrix.def, dictionary CSV files, char.def and unk.def finds a segmentation whose cost - the sum of the cost columns of its words and of the matrix.def lines for the right id and left id of neighbours, beginning and end of the text having the ids 0 - is at most that of every other segmentation into words of the dictionaries and OOV words offered there; every word of it is a row of a CSV file or has the numbers of unk.def or the configuration; path rewriting plugins only join words of it.", "quantifier": "all source files, configurations and texts that meet the stated conditions; every competing segmentation", "why_tests_cant": "the cheapest of exponentially many segmentations, and a wrong number anywhere between builder, file format, reader and lattice, show only for particular texts and matrices", "anchors": ["sudachipy/lattice.pyx:Lattice.get_best_path", "sudachipy/lattice.pyx:Lattice.connect_node", "sudachipy/tokenizer.pyx:build_lattice_c", "sudachipy/dictionarylib/dictionarybuilder.py:DictionaryBuilder.convert_matrix", "sudachipy/dictionarylib/grammar.py:Grammar.get_connect_cost", "sudachipy/dictionary.py:Dictionary.create"]}
{"id": "C76", "title": "A build that fails or is killed leaves nothing that passes for a dictionary", "statement": "At whatever moment `sudachipy build` or `ubuild` fails or is killed, the output file is the old one, or it cannot be opened as a dictionary, or its connection costs, its parts of speech and the index of its words are complete. If a row or a file of the source, or the matrix, is rejected, what is left cannot be opened. (The full claim, that only complete dictionaries can be opened, is false: the parameters and infos of the words may be missing.)", "quantifier": "all source files, all moments, all lengths of the part of the last write that got into the file", "why_tests_cant": "the moments at which a process can die are as many as the bytes of the file, for every source", "anchors": ["sudachipy/command_line.py:_command_build", "sudachipy/command_line.py:_command_user_build", "sudachipy/dictionarylib/dictionarybuilder.py:DictionaryBuilder.build", "sudachipy/dictionarylib/dictionarybuilder.py:DictionaryBuilder.write_lexicon", "sudachipy/dictionarylib/dictionarybuilder.py:DictionaryBuilder.write_wordinfo"]}
{"id": "C77", "title": "The build commands touch only the output file", "statement": "`sudachipy build` and `ubuild` change no file but the output file, whenever they end. If a source file, the matrix or the system dictionary is missing or unusable nothing is changed at all. A command that ends well has written exactly the dictionary of its source files, whatever the output file held before, and it ends well whenever the builder accepts them. (An old dictionary survives a failed build: false. An output file may be one of the source files: false.)", "quantifier": "all contents of the disk, all paths, all moments at which the command may end", "why_tests_cant": "what happens to the other files depends on which paths coincide and when the command dies", "anchors": ["sudachipy/command_line.py:_command_build", "sudachipy/command_line.py:_command_user_build", "sudachipy/command_line.py:_system_dic_checker", "sudachipy/command_line.py:_input_files_checker", "sudachipy/command_line.py:_matrix_file_checker"]}
{"id": "C78", "title": "The tokenize command analyses every line of its files", "statement": "`sudachipy tokenize -o out files...` writes into the output file, for every line of the files, one line for each morpheme that a new tokenizer gives for that line alone (surface, part of speech, normalized form; with -a dictionary form, reading form, dictionary id, synonym groups and the mark of unknown words), then EOS. In mode C the surfaces of a line make up the line; the columns of dictionary words are those of their rows in the source. With complete resources every input of lines up to 32766 bytes is analysed to the end. A line that cannot be analysed ends the command after the lines before it. Only the output file changes; a killed command leaves a beginning of the output; a missing input file is noticed before anything is written. (An old output file survives a failed start: false. The output file may be an input file: false.)", "quantifier": "all contents of the disk, all settings, all input files, all moments at which the command may end", "why_tests_cant": "the files are arbitrary, the tokenizer keeps its lattice from line to line, and the command may die anywhere", "anchors": ["sudachipy/command_line.py:_command_tokenize", "sudachipy/command_line.py:run", "sudachipy/command_line.py:_input_files_checker", "sudachipy/dictionary.py:Dictionary", "sudachipy/tokenizer.py:Tokenizer.tokenize"]}
{"id": "C79", "title": "Words whose connection ids are not in the matrix", "statement": "A word may have connection ids outside the connection matrix (neither the builder nor the set-up of OOV plugins compares ids with the matrix; matrix lookups raise IndexError inside the lattice, where it is swallowed). Whatever the ids, each connection of an analysis that is found has a cell in the matrix. Such words take no part: a text that has an analysis without them is still analysed (false).", "quantifier": "every lexicon, matrix, OOV configuration and text, whatever connection ids the words have", "why_tests_cant": "the failure depends on the order in which homographs were inserted, and nothing is raised", "anchors": ["sudachipy/lattice.pyx:Lattice.connect_node", "sudachipy/dictionarylib/grammar.py:Grammar.get_connect_cost", "sudachipy/tokenizer.pyx:build_lattice_c"]}
{"id": "C80", "title": "A Dictionary is made from usable settings and files", "statement": "If the dictionary files were written by the builder, the resource files are complete and well formed, and every configured plugin is one of the provided ones with the settings it needs, then constructing a Dictionary succeeds, and its tokenizers analyse every non-empty text in every mode. Conversely, a Dictionary that was constructed had at least one OOV provider, of a provided class; the part of speech for joined katakana words is one of the system dictionary. Any user dictionary that the builder wrote can be used (false: not one with a word that has no text of its own and asks for a calculated cost).", "quantifier": "every configuration, resource files, system dictionary and list of user dictionaries written by the builder, and every text and mode", "why_tests_cant": "construction runs every plugin's set up and, for user words with calculated costs, an analysis with the half-built dictionary", "anchors": ["sudachipy/dictionary.py:Dictionary.__init__", "sudachipy/dictionary.py:Dictionary._read_user_dictionary", "sudachipy/dictionarylib/lexiconset.py", "sudachipy/dictionarylib/doublearraylexicon.py:DoubleArrayLexicon.calculate_cost", "sudachipy/plugin"]}
{"id": "C81", "title": "The settings and resource files of the package work", "statement": "With the settings of sudachi.json and the files char.def, unk.def and rewrite.def that come with the package, and any dictionaries written by the builder that fit them (the part of speech of joined katakana words exists; the matrix has the ids 0 to 5968 and those of the words, and inhibits no pair; no word of digits is normalised to something with a comma or a point; at most seven user dictionaries), constructing a Dictionary succeeds and its tokenizers analyse every non-empty text in every mode.", "quantifier": "every system dictionary and list of user dictionaries written by the builder that fit the settings, and every text and mode", "why_tests_cant": "the files have 400 lines of categories, parts of speech and rewriting rules, and whether they work together depends on the dictionary and on the text", "anchors": ["sudachipy/resources/sudachi.json", "sudachipy/resources/char.def", "sudachipy/resources/unk.def", "sudachipy/resources/rewrite.def", "sudachipy/dictionary.py:Dictionary.__init__"]}
{"id": "C82", "title": "The builder accepts every source within its limits", "statement": "A source whose rows have 18 columns or more, non-empty headwords, numbers and texts within the sizes of the format, resolvable split units, at most 127 units or synonyms per column, at most 255 rows per headword and at most 32767 parts of speech, with a matrix in range and a description of at most 256 bytes, is built without an error as long as the file stays below 2 GiB. Conversely, a source that was built is within these limits as far as the description, the number of columns, the headwords and how often one occurs, the numbers, the three texts of a row and the number of units and synonyms are concerned.", "quantifier": "every source, matrix, description and kind of dictionary", "why_tests_cant": "the limits are spread over the parser, the table of word ids, the string and array encodings and the offsets of the file; tests reach none of them", "anchors": ["sudachipy/dictionarylib/dictionarybuilder.py:DictionaryBuilder.build", "sudachipy/dictionarylib/dictionarybuilder.py:DictionaryBuilder.parse_line", "sudachipy/dictionarylib/dictionarybuilder.py:DictionaryBuilder.write_string", "sudachipy/dictionarylib/dictionarybuilder.py:DictionaryBuilder.write_wordinfo", "sudachipy/dictionarylib/userdictionarybuilder.py:UserDictionaryBuilder"]}
{"id": "C83", "title": "Debug output does not change the analysis", "statement": "Tokenizing with a logger (the option -d of the command) shows the rewritten text, the lattice (the end, every candidate word that can be reached and the beginning, each with its word info, ids and cost and with the costs of the connections to all words that end where it begins), the words of the best path and the words of the result. When the analysis with a logger succeeds, the one without gives the same result and leaves the same state. For a Dictionary made from complete files the logger changes nothing about how an analysis ends, and what the command prints without -d is among what it prints with -d, in the same order.", "quantifier": "every Dictionary, text, mode, earlier history of the tokenizer and list of input lines", "why_tests_cant": "the lattice of a text has words and connections that the best path never touches, and the debug output looks all of them up; a failure there leaves the lattice filled for the next text", "anchors": ["sudachipy/tokenizer.pyx:Tokenizer.tokenize", "sudachipy/tokenizer.pyx:Tokenizer._dump_path", "sudachipy/lattice.pyx:Lattice.dump", "sudachipy/latticenode.pyx:LatticeNode.__str__", "sudachipy/command_line.py:run"]}
{"id": "C84", "title": "Closing a Dictionary takes nothing away from what is in use", "statement": "Whatever Dictionaries a process opens, uses and closes, and in whatever order, a tokenizer or list of morphemes that the program still has answers exactly as the words of its own Dictionary are, and no file is unmapped while something still has a view of it. The first close() of a Dictionary either succeeds, and then all its files are closed for good, or raises a BufferError and leaves all of them open; it succeeds exactly when the program has no tokenizer and no morphemes of it and none of its words is among the last 1024 different words that the process looked up. After it the Dictionary makes no tokenizer and cannot be closed again.", "quantifier": "every sequence of opening, creating, tokenizing, asking, splitting, dropping and closing, over any number of Dictionaries", "why_tests_cant": "the cache of word infos is shared by all Dictionaries of the process and keeps them alive; whether close() succeeds depends on the whole history", "anchors": ["sudachipy/dictionary.py:Dictionary.close", "sudachipy/dictionary.py:Dictionary.create", "sudachipy/dictionarylib/binarydictionary.py:BinaryDictionary.close", "sudachipy/dictionarylib/lexiconset.py:LexiconSet.get_word_info"]}
{"id": "C85", "title": "The arguments of the tool mean what its usage texts say", "statement": "`sudachipy` analyses text exactly when its arguments are options of `tokenize` (-r, -m with A, B or C, -o, -s with small, core or full, -a, -d, -v or --version), in any order and any number of times, with the files together anywhere between them; `build` and `ubuild` run exactly when their own options and at least one file follow the name, for `build` with -m among them. The last value of an option counts, and what is not given has its documented default. The name `tokenize` may be left out if no argument is the name of a command. -v prints the version and nothing else, whatever else is given. With any other arguments, or with -h or --help among them, no command runs: the exit status is 2 or 0 and no file is touched.", "quantifier": "all lists of arguments in which whatever begins with '-' is one of the option strings, and all disks", "why_tests_cant": "the number of orders and repetitions of options and files is unbounded, and one file name changes which command runs", "anchors": ["sudachipy/command_line.py:main", "sudachipy/command_line.py:_set_default_subparser"]}
{"id": "C86", "title": "The tool takes word lists to analyses", "statement": "`sudachipy build` and `ubuild`, given word lists (and a matrix) within the limits of the format, end well, put the dictionary into the output file and change no other file. `sudachipy tokenize -r settings -o out files`, with the package's settings and dictionaries that were made in this way from word lists that can be read back and fit the matrix, ends well for every input, changes only the output file, and what it writes are words that make up each line: each has the part of speech, reading and forms of a row of the word list of its dictionary, or is a word of no dictionary with one of the nine parts of speech that the settings and unk.def name", "quantifier": "all word lists, matrices, numbers of user dictionaries up to seven, disks, and input files, within the limits that the statement names", "why_tests_cant": "the chain runs through the csv reader, the builder, the file format, the loader, every plugin, the analysis and the output; tests exercise each with one sample dictionary", "anchors": ["sudachipy/command_line.py:main", "sudachipy/command_line.py:_command_build", "sudachipy/command_line.py:_command_user_build", "sudachipy/command_line.py:_command_tokenize", "sudachipy/dictionarylib/dictionarybuilder.py:DictionaryBuilder.build", "sudachipy/dictionary.py:Dictionary"]}
{"id": "C87", "title": "The reports of the build commands are true", "statement": "Reporting changes nothing: the build commands leave the same files and end in the same way as without the messages. When a row is reported ('... at line i in file'), it is the first row, in the order of the files, that cannot be read, and the command ends there; and whenever there is such a row, it is reported. Every 'n bytes' is what was written since the message before it, also when the command fails later, if there is at least one word. When the command ends well, the messages come in one fixed order, the number of words is the number of the rows, the sizes are those of the parts of the file, and each part begins with its count. 'invalid format at line i' is said of exactly the lines of the matrix with one or two columns", "quantifier": "all word lists, matrices, disks, and both commands, including runs that fail at any point", "why_tests_cant": "the reports come from positions of buffers and from arithmetic that repeats the layout of the file; a test compares no message, and a failing row can be at any place of any file", "anchors": ["sudachipy/dictionarylib/dictionarybuilder.py:DictionaryBuilder.build", "sudachipy/dictionarylib/dictionarybuilder.py:DictionaryBuilder.build_lexicon", "sudachipy/dictionarylib/dictionarybuilder.py:DictionaryBuilder.parse_line", "sudachipy/dictionarylib/dictionarybuilder.py:DictionaryBuilder.write_grammar", "sudachipy/dictionarylib/dictionarybuilder.py:DictionaryBuilder.convert_matrix", "sudachipy/dictionarylib/dictionarybuilder.py:DictionaryBuilder.write_lexicon", "sudachipy/dictionarylib/dictionarybuilder.py:DictionaryBuilder.write_wordinfo", "sudachipy/dictionarylib/userdictionarybuilder.py:UserDictionaryBuilder.build"]}
{"id": "C88", "title": "Dividing words into their units", "statement": "Each morpheme of mode C is, in mode A or B, either left as it is, if it comes from no word list or its row has less than two units in the column of the mode, or it is divided into one morpheme for each unit, and each of them comes from a row that its unit names. If the units of every row of the word lists spell the headword of the row, then in every mode the surfaces of the morphemes make up the text, each morpheme of a dictionary stands on its headword in the normalised text, and the morphemes of modes A and B divide those of mode C; every text whose normalised form has at most 32766 bytes is analysed, and the tokenize command prints for each line morphemes whose surfaces make up the line, also with dictionaries that the tool built", "quantifier": "all word lists of the system dictionary and of up to seven user dictionaries, all texts, modes, disks and command lines", "why_tests_cant": "a unit is a number, a number of the user dictionary or a word, is turned into an id by the builder, stored, changed when the dictionary is loaded behind others, looked up when a word is divided, and placed by a length that the builder stored in bytes; tests divide three words of one dictionary", "anchors": ["sudachipy/tokenizer.pyx:Tokenizer._split_path", "sudachipy/dictionarylib/lexiconset.py:LexiconSet.get_word_info", "sudachipy/dictionarylib/lexiconset.py:LexiconSet.convert_split", "sudachipy/dictionarylib/dictionarybuilder.py:DictionaryBuilder.parse_splitinfo", "sudachipy/dictionarylib/dictionarybuilder.py:DictionaryBuilder.parse_id", "sudachipy/dictionarylib/dictionarybuilder.py:DictionaryBuilder.word_to_id", "sudachipy/dictionarylib/userdictionarybuilder.py:UserDictionaryBuilder.parse_id", "sudachipy/command_line.py:run"]}
{"id": "C89", "title": "Which katakana words are joined", "statement": "In every run of katakana words of a path, taken as long as it can be, all words from the first one with which an unknown word may begin are made one word if one of the words of the run is unknown or has less than minLength characters and if these are at least two; in all other cases, and outside the runs, the words stay as they are", "quantifier": "all texts, paths, lattices and settings of the plugin", "why_tests_cant": "which words are joined depends on the words before and after, on how many characters stand between two bytes and on the order in which the loop meets the words it has itself made; tests join one word of three pieces", "anchors": ["sudachipy/plugin/path_rewrite/join_katakana_oov_plugin.py:JoinKatakanaOovPlugin.rewrite", "sudachipy/plugin/path_rewrite/join_katakana_oov_plugin.py:JoinKatakanaOovPlugin.is_shorter"]}
{"id": "C90", "title": "Numbers are joined", "statement": "Words of digits, commas and points that stand between words that are no part of a number and together spell a numeral that the parser accepts become one word, provided that the first has the part of speech of numbers; if a comma or point that the parser reads follows, it stays behind the number; the word made has the surfaces, readings and dictionary forms put together, the span of the words, and, if enableNormalize is set, a plain decimal numeral of the same value as normalised form", "quantifier": "all texts, paths in which such words stand anywhere, and settings of the plugin for which the joining ends", "why_tests_cant": "the loop goes back and reads words again when the parser fails, forgets commas or points until the next word and skips words it has made, so that a number may be missed because of what stands far before it; tests have one number in a text", "anchors": ["sudachipy/plugin/path_rewrite/join_numeric_plugin.py:JoinNumericPlugin.rewrite", "sudachipy/plugin/path_rewrite/join_numeric_plugin.py:JoinNumericPlugin._concat", "sudachipy/plugin/path_rewrite/numericparser.py:NumericParser.append", "sudachipy/plugin/path_rewrite/numericparser.py:NumericParser.done"]}
{"id": "C91", "title": "Numerals written the usual way are accepted", "statement": "The parser of numbers accepts every text of digits, every numeral with the units 十百千 and 万億兆 in which each part has room before the unit in front of it, every integer of digits with commas at every third place that does not begin with zeros only, and each of these followed by a point and digits, and words that spell one of them become one word with the number as normalised form", "quantifier": "all numerals of any length built in this way", "why_tests_cant": "numerals are unboundedly many combinations of digits and units, each of which the parser adds with shifts, fills of zeros and a moving point; tests try about eighty", "anchors": ["sudachipy/plugin/path_rewrite/numericparser.py:NumericParser.append", "sudachipy/plugin/path_rewrite/numericparser.py:NumericParser.done", "sudachipy/plugin/path_rewrite/numericparser.py:StringNumber.add", "sudachipy/plugin/path_rewrite/numericparser.py:NumericParser.check_comma"]}
{"id": "C92", "title": "The calculated cost of a user word", "statement": "A row of a user dictionary with the cost -32768 gets its cost from the analysis of its surface by the same Dictionary with the user dictionaries before it only and without path rewriting: the cost of the last word of that analysis less the cost of the first, less 20 for each word, forced into 16 bits. A surface that is analysed as one word therefore gets -20. All other rows keep their cost", "quantifier": "all settings, dictionaries and rows with which a Dictionary can be made", "why_tests_cant": "depends on the whole analysis of the surface with everything loaded so far; tests load one user dictionary with one such word", "anchors": ["sudachipy/dictionary.py:Dictionary._read_user_dictionary", "sudachipy/dictionarylib/doublearraylexicon.py:DoubleArrayLexicon.calculate_cost", "sudachipy/morphemelist.py:MorphemeList.get_internal_cost"]}
{"id": "C93", "title": "User dictionaries whose words do not occur", "statement": "Adding user dictionaries after those that are there changes nothing for a text in whose normalised form none of their headwords occurs: every mode gives the same morphemes, with the same word ids, word infos and parts of speech, whatever was analysed before", "quantifier": "all settings, system and user dictionaries, further user dictionaries, texts, modes and histories", "why_tests_cant": "compares two whole systems on every text; tests compare neither and load one set of dictionaries", "anchors": ["sudachipy/dictionary.py:Dictionary.__init__", "sudachipy/dictionarylib/lexiconset.py:LexiconSet.lookup", "sudachipy/dictionarylib/lexiconset.py:LexiconSet.get_word_info", "sudachipy/tokenizer.pyx:Tokenizer.tokenize"]}
{"id": "C94", "title": "Setting and inhibiting connection costs", "statement": "Setting the cost of a connection changes the cost of that pair of ids and of no other, and every pair the matrix has and every 16 bit cost can be set; after the inhibiting plugin edited a grammar exactly the listed pairs are inhibited, and no analysis with that grammar has a listed pair: not between two words, nor at the beginning or the end", "quantifier": "all grammars, pairs of ids, costs, lists of pairs, lexicons, plugins, texts and histories", "why_tests_cant": "the row and column of a cell are easily exchanged, which a test of a pair of equal ids cannot see; that no analysis has the pair is about all texts", "anchors": ["sudachipy/dictionarylib/grammar.py:Grammar.set_connect_cost", "sudachipy/dictionarylib/grammar.py:Grammar.get_connect_cost", "sudachipy/plugin/connect_cost/inhibitconnectioncost.py:InhibitConnectionPlugin.edit", "sudachipy/plugin/connect_cost/editconnectioncost.py:EditConnectionCostPlugin.inhibit_connection", "sudachipy/lattice.pyx:Lattice.connect_node"]}
{"id": "C95", "title": "What the lattice holds for plugins", "statement": "When the path rewriting plugins run, the lattice has for every span of the text exactly the words that were found for it, in the order in which they were found, provided that a word may begin there and that words lead there; otherwise none.  get_minimum_node answers the first of the cheapest of them, or None if there is none; so for every span that begins with a word of the path it is the cheapest word found", "quantifier": "all dictionaries, OOV providers, texts, earlier analyses and spans", "why_tests_cant": "the contents of the lattice depend on every word before a position; the tests of the lattice insert a few nodes by hand", "anchors": ["sudachipy/lattice.pyx:Lattice.get_nodes", "sudachipy/lattice.pyx:Lattice.get_minimum_node", "sudachipy/lattice.pyx:Lattice.insert", "sudachipy/tokenizer.pyx:Tokenizer._build_lattice", "sudachipy/plugin/path_rewrite/path_rewrite_plugin.py:PathRewritePlugin.concatenate_oov"]}
{"id": "C96", "title": "Texts with the same normalised form", "statement": "Two texts that the input text plugins turn into the same text are analysed into the same words, in every mode: as many morphemes, with the same word ids, dictionary ids, word infos and OOV marks, or the same error; only where a morpheme lies in its original text may differ.  And the input text plugins have no other effect: a tokenizer without them finds the same words in the text that they make", "quantifier": "all settings with the shipped plugins, pairs of texts with the same normalised text, modes and histories", "why_tests_cant": "compares the analyses of any two texts; tests look at one text at a time", "anchors": ["sudachipy/tokenizer.pyx:Tokenizer.tokenize", "sudachipy/utf8inputtextbuilder.py:UTF8InputTextBuilder.build", "sudachipy/utf8inputtext.py:UTF8InputText", "sudachipy/morphemelist.py:MorphemeList"]}
{"id": "C97", "title": "Dearer and inhibited connections", "statement": "If some connection costs are raised and some connections inhibited, then no text is analysed at a lower cost than before, every text that is analysed has been analysed before, and a text whose words have only connections that were left alone is still analysed, at the same cost.  Setting one cost to a larger value, or inhibiting a list of pairs, is such a change", "quantifier": "all dictionaries, pairs of connection matrices one of which is dearer cell by cell, texts up to 32766 bytes once normalised, and histories of both tokenizers; in mode C and without plugins that join words", "why_tests_cant": "compares the best analyses under any two matrices; a test checks one matrix", "anchors": ["sudachipy/lattice.pyx:Lattice.connect_node", "sudachipy/tokenizer.pyx:build_lattice_c", "sudachipy/dictionarylib/grammar.py:Grammar.set_connect_cost", "sudachipy/plugin/connect_cost/inhibitconnectioncost.py:InhibitConnectionPlugin.edit"]}
{"id": "C98", "title": "Dearer words", "statement": "If the costs of some words of the dictionaries are raised, then the same texts are analysed as before, none at a lower cost, and a text at the same cost if the words that were found for it have kept theirs.  Setting the cost of one word of one dictionary to a larger value is such a change", "quantifier": "all pairs of sets of dictionaries with the same words, each in the second as dear as in the first or dearer, texts up to 32766 bytes once normalised, and histories of both tokenizers; in mode C and without plugins that join words", "why_tests_cant": "compares the best analyses with any two sets of dictionaries; a test checks one", "anchors": ["sudachipy/lattice.pyx:Lattice.connect_node", "sudachipy/tokenizer.pyx:build_lattice_c", "sudachipy/dictionarylib/wordparameterlist.py:WordParameterList.set_cost", "sudachipy/dictionarylib/lexiconset.py:LexiconSet.lookup"]}
{"id": "C99", "title": "Settings by key", "statement": "After any calls, a setting that was assigned is answered with its value and all other settings as before; a missing one raises KeyError; reading a configuration file replaces all of them, reading one that cannot be read none; and where none was read yet the default one is read first", "quantifier": "all histories of set-ups, assignments and readings, whether they succeed or fail, and all contents of files", "why_tests_cant": "ranges over histories of calls on one global object; tests make a few on a fresh one", "anchors": ["sudachipy/config.py:_Settings.__setitem__", "sudachipy/config.py:_Settings.__getitem__", "sudachipy/config.py:_Settings.set_up"]}
