# Design of the Rocq model of SudachiPy

The model lives in `rocq/theories` (logical name `Verif`).  It uses the Coq
standard library only (List, ZArith, Lia, Permutation, Sorting).

## 1. Conventions

* A text is a `list Z` of code points, a byte string a `list Z`.
* Python exceptions are values: `res A := Ok a | Err e`.  Every list access that
  can raise in the code goes through a partial accessor that returns `Err`.
* Loops are structural recursions where the code iterates over a sequence and
  fuelled recursions with an explicit `EFuel` error where it is a `while`.
  Theorems either show that enough fuel exists, or that `EFuel` is the only way
  of not getting a result.
* External code is a Section variable or record field that every theorem
  quantifies over: the double-array trie (dartsclone), `str.lower`,
  `unicodedata.normalize`, the iteration order of Python sets, the pop order of
  `queue.PriorityQueue` among equal keys, the lexicon seen by the lattice.
* `M_*.v` files contain the model (each definition cites file and lines),
  `S_*.v` small independent specifications, `P_*.v` proofs, `Prop_*.v` the
  property theorems (one `exact` each) with `Print Assumptions` and
  non-vacuity `Example`s, `T_*.v` the repository's own unit-test expectations
  evaluated on the model (fidelity evidence only, never counted as proof).

## 2. Trusted base

Coq 8.16.1's kernel (and `coqchk`), `vm_compute` for examples and refutation
witnesses.  `Print Assumptions` of every property theorem must say "Closed under
the global context": no axioms, not even the standard library's.  Beyond the kernel, what
is trusted is that the Gallina model says what the Python/Cython code does;
section 4 lists what is not modelled.

Evidence for that: the expectations of all unit tests under /repo/tests are
computed on the model when it is compiled, except `test_large_userdict.py` (a
dictionary of 2050 words), `containing_length` (nothing calls it) and the texts
of error messages.  `T_Numeric.v` has those of the numeric parser;
`T_Units.v` those of the character categories, the input text, the input text
plugins, the MeCab OOV plugin, the dictionary builders, the header, the grammar
and the lexicon; `T_System.v` builds the test dictionaries from the files of
tests/resources (`T_Files.v`, written by tools/testfiles.py) with the modelled
commands of scripts/test.sh, makes a Dictionary from tests/resources/sudachi.json
and has the expectations of `test_dictionary.py`, `test_tokenizer.py` and of both
path rewrite plugins.  There the double array is replaced by a list of keys, and
`str.lower`/NFKC by tables for the characters of the tests.  The checks are
`Succeed` commands: compilation fails when one does not hold, and no proof term
is kept.

## 3. Properties

| id | model | proof |
|----|-------|-------|
| C01 C02 | `M_Builder`: `replace`, list surgery as in the code | closed form of the map after one call; induction over the call history |
| C03 | same | refuted by a deletion at the end; the map's length/monotonicity part proved |
| C04 C05 C06 | `Utf8`, `M_Builder.build`, `M_InputText` | induction over the characters |
| C07 C08 C09 C10 | `M_InputText` | induction over characters; C08: soundness and completeness from run starts proved, general completeness refuted |
| C11 | `M_InputPlugins.default_rewrite` with lower/NFKC oracles | simulation: builder text = rewritten prefix ++ untouched suffix, against a direct greedy specification |
| C12 | `M_InputPlugins.psm_rewrite` | same for one-character symbols; refuted otherwise |
| C13 C14 | `M_CharCategory`: sweep over a priority queue with arbitrary tie-breaking, then binary search | sweep invariant; binary search correctness; independence of order is a corollary |
| C15 C16 C17 C18 C19 | `M_Lattice`: Viterbi insertion with C-int totals; `M_Tokenizer` | induction over insertions: each node's total is the minimum over all paths; overflow refuted by a long text, excluded by an explicit bound |
| C20 | lattice state with capacity/size/end lists carried between calls | invariant "all end lists empty beyond 0" preserved by successful calls; failing call refutes the rest |
| C21 | tokenizer with provider list | every reachable position extends; refuted in general by a category pattern, proved when MeCab candidates end at word starts |
| C22 | set iteration order as a parameter | refuted with two orders; proved for providers whose candidates do not depend on the order |
| C23 C24 C25 | `M_Morphemes`: path -> surfaces, split | telescoping; C24 refuted for inconsistent head lengths, proved under additivity |
| C26 C27 | `M_Oov` | loop invariants; C27 refuted (length budget shared between OOV entries), proved for one entry per category |
| C28 | word id as C int | refuted for index >= 8, proved below |
| C29 C30 C31 | `M_PathRewrite` | loop invariants and a lexicographic measure; C31 refuted for normalised forms containing separators |
| C32 C33 C34 C35 C36 | `M_NumericParser`, `M_PathRewrite`: parser as state machine over digit strings | simulation against a rational-valued evaluation; refutations of C34, C35, C36 by strings |
| C37 - C43 | `M_LexiconSet` (lexiconset.py, loading in dictionary.py) on top of `M_DicReader`; cache as an LRU list | arithmetic on ids; invariant of loading that ties each lexicon, offset and part of speech to the rows of its source; cache invariant preserved by `add`; get_word_id on a set of several lexicons refuted |
| C44 - C46 | `M_DicReader.read_word_info` as a program of file operations, `M_Threads` | recursion on acyclic forms, refuted for cycles; small-step interleaving semantics for C46 (refuted) |
| C47 - C55 | `M_Bytes`, `M_DicBuilder`, `M_DicReader` | parser/printer round trips on byte lists, composed to whole files |
| C56 C57 C58 C59 | `M_DicBuilder`, spec `S_Source` | case analysis, induction on strings; C57 refuted for 6 digits |
| C60 C61 | `M_Front`: settings with file system, packages and path functions as parameters; the output loop and the reading of lines | case analysis; the output is parsed back by an independent `cut` |
| C62 | `M_Morphemes` | list reasoning |
| C63 | `M_Shipped`: tokenizer with the shipped plugins | every word of a path is from a dictionary, made by a provider or made by a plugin (invariant of all rewriting); converse refuted by a joined number |
| C64 C65 C66 | `M_Resource`: readers of char.def, unk.def, rewrite.def; spec `S_Resource`: what lines, words and entries are, without an algorithm | each file that fits the spec is read as said and each file that is read fits; combined with C11, C13, C26; part of speech outside the grammar refuted |
| C67 | `M_Resource.csv_rows`: the state machine of csv.reader; spec: rows written with any quoting | simulation |
| C68 | `M_Resource.read_matrix`, `M_DicBuilder`, `M_DicReader` | composition with the grammar round trip |
| C69, C70 | `M_Setup` (Dictionary, the plugin loaders and set_up methods) on top of all other models | inversion of the construction (`P_Setup`), where the words of a path come from (`P_Words`), settings made from files (`P_System`), composition with C38 to C40, C58, C65; C70 refuted for parts of speech the system dictionary lacks |
| C71 | the whole model: `M_Setup` made from files, `M_Tokenizer.run`, `M_Morphemes` | the conditions of C21 and of the splits from the contents of the files (`P_Live`), then composition with C21, C23, C69, C70; partial (record `complete`, 32766 bytes); with inhibited connections (record `furnished`) exactly the texts with an allowed analysis, by C16 |
| C72 | `read_dictionary` on a prefix of a file | programs that only read on give the same result on a prefix, raise, or end at its end (`onward`, closed under composition); the seeks of the lexicon then fail; refuted for cuts after the word parameters |
| C73 | `load_dictionaries`, `make_dictionary` | the lexicons are numbered by their count, so each file adds one; induction over the files; refuted for use from the eighth on |
| C74 | `new_dictionary`, `make_dictionary` in two file systems | the files that settings name are an inductive specification (`named_text`, `named_binary`); congruence along the construction; refuted for rewrite.def |
| C75 | `make_dictionary` and `run` on files that `build_command` wrote | specification `source_cost`, `matrix_cell`, `is_row` over CSV rows and matrix lines; C15 composed with C38, C43, C54, C58, C65 and the loading invariants; rewriting plugins only join (C29, C30) |
| C76 | `M_Command`: the build as a list of file operations, killed after any of them or inside one | `emit_builds` (same bytes as `build_command`); the shape of the operations, C72's lemmas about beginnings of a file, C38's about the index |
| C77 | `M_Command`: the commands `build`, `ubuild` on a disk of files | case analysis of the commands; `emit_builds` |
| C78 | `M_Tokenize`: the command `tokenize` on a disk of files, the Dictionary made from the same disk | C20 (each line as if alone), C23, C69, C70, C71 and C74 put together; `file_of` for the lines |
| C79 | `M_Lattice.connect_loop` with a partial matrix: an IndexError ends the loop of the `cdef void` function | invariant `linked` over the predecessors with `rcells`; the second half refuted |
| C80 | `M_Setup.make_dictionary` | `P_Made`: converse of the inversion lemma of `P_Setup`; induction over the user dictionaries, where the calculated costs are analyses with the dictionaries loaded so far (C71 for the shortened settings) |
| C81 | `M_Resources` (the shipped files as text), `M_Setup.make_dictionary` | `P_AsShipped`: the shipped files are evaluated once with a plain reader of numbers; finite facts about their lines are checked by computation and lifted to every text; then C80 |
| C82 | `M_DicBuilder.build_command` | `S_Accept` states the limits without the builder; `P_Accept`: totality of each writer with a bound on what it writes, invariant `holds` over the rows; `P_FileBytes`: everything written is a byte |
| C83 | `M_Debug.logged_run`, `logged_lines`: Lattice.dump, _dump_path, the records of tokenize, the option -d | `S_Debug` (the format of the lines, subsequences); `P_Debug`: the words of a lattice that was built are exactly the candidates that can be reached; every lookup of the dump succeeds because ids are inside the matrix and parts of speech inside the table |
| C84 | `M_Close.act`: Dictionary, create, close, BinaryDictionary.close, look-ups through the cache that the process shares | `S_Close`: the references between objects and reachability, the last different words; `P_Close`: an invariant of the process (a closed map has no holder, the cache holds right answers) kept by every action; the keys of the cache are the last 1024 different words |
| C85 | `M_Main`: `_set_default_subparser`, the three parsers as tables, the part of argparse they use, `main` | `S_Main`: options as a type, how they are written, the last value counts; `P_Main`: the parser accepts exactly the written forms (induction over the arguments in both directions) |
| C86 | whole runs of `main`: `build`, `ubuild`, then `tokenize` on the disk they left | `S_Tool`: readable and fitting word lists by columns; `P_Tool`: from the columns to the entries of the builder; composed from C55, C68, C77, C78, C81, C82, C85 |
| C87 | `M_Progress`: the messages of the build commands, in one sequence with the writes | `S_Progress`: readable rows, sizes since the last message, parts of the file; `P_Progress`: erasing the messages gives `M_Command`; a Hoare-style predicate for the sizes; the shape of a run without exceptions |
| C88 | no new model: `split_nodes`, `split_one` (`M_Tokenizer`), the split ids of `M_DicBuilder` and `M_LexiconSet`, the commands | `S_Units`: the rows that a unit may name, lists whose units spell their words; `P_Units`: an id of a unit, after the build and the loading, is that of a named row; induction over the units with character positions |
| C89 | no new model: `join_katakana` (`M_PathRewrite`) | `S_Join`: runs and what becomes of them; `P_Join`: induction over the path, run by run |
| C90 | no new model: `join_numeric` (`M_PathRewrite`) | `S_Join`: parts of numbers; `P_JoinNum`: after a word that is no part of a number the loop is as at its start, it reads the words of a numeral one after the other, and leaves alone what it has passed |
| C91 | no new model: `M_NumericParser` | `S_Usual`: a grammar of numerals with the number of places left; `P_Usual`: induction over it with the room in the sums of the parser |
| C92 | no new model: `M_Setup.internal_cost`, `M_DicReader.calculate_cost`, `M_LexiconSet` | `Prop_AutoCost`: loading up to the dictionary in question is making a Dictionary with the user dictionaries before it (`P_Made`) |
| C93 | no new model: two values of `M_Setup.make_dictionary` | `P_Agree`: settings that agree on the words a text has analyse it alike (candidates, lattice, path rewriting, splits); `Prop_Unused`: a lexicon set that goes on answers alike for the ids it had |
| C94 | `M_DicReader.set_connect_cost`, `M_Setup.inhibit`, tokenizers over the edited grammar | `Prop_Inhibit`: cells of a matrix in rows are distinct; induction over the list of pairs; the chosen path has no inhibited connection and a cell for each |
| C95 | no new model: the lattice after `M_Tokenizer.analyse` | `Prop_Span`: invariant over the positions (what each list of the lattice holds after position i, as filters of the candidates); the minimum by induction over the list |
| C96 | no new model: two runs of `M_Tokenizer.run` | `Prop_Normal`: each function of the analysis and of the path rewriting plugins answers the same for an input text whose original and offsets are forgotten; the rest of an input text is determined by the modified text |
| C97 | no new model: two runs of `M_Tokenizer.run` with two matrices | `Prop_Raise`: what one matrix allows the cheaper one allows, at no higher cost; C15 and C16 for both tokenizers; C94 for the changes of the matrix |
| C98 | no new model: two runs of `M_Tokenizer.run` with two sets of dictionaries | `Prop_Price`: the candidates of the two tokenizers correspond one to one, with the same ids and places; C15 and C16 for both; `lx_set_cost` gives such a set |
| C99 | `M_Front`: set_up, set_item, get_item | `Prop_Items`: an invariant of the states after any calls (a file was read once the settings are active), and the laws of the mapping |

When the code violates the property as stated, the theorem `*_refuted` exhibits
a concrete counterexample on the model, and `*_partial` theorems prove the
property under the weakest hypothesis we could find.  The MANIFEST status is then `partial`.

## 4. What is modelled and what is not

| file of /repo | model |
|---|---|
| utf8inputtextbuilder.py, utf8inputtext.py | `M_Builder`, `M_InputText`: all functions |
| plugin/input_text/*.py | `M_InputPlugins`: rewriting; `M_Resource`: the reading of rewrite.def |
| charactercategory.py, categorytype | `M_CharCategory`: compile and lookup; `M_Resource`: char.def |
| lattice.pyx, latticenode.pyx | `M_Lattice`: insertion, connection, best path, totals as C ints; `M_Debug`: dump and `__str__`; not remove, which nothing calls |
| tokenizer.pyx | `M_Tokenizer`: lattice building, split modes, failure and reuse of the lattice; `M_Debug`: the same with a logger |
| plugin/oov/*.py | `M_Oov`: candidate making; `M_Resource`: unk.def and category properties |
| plugin/path_rewrite/*.py | `M_PathRewrite`, `M_NumericParser`: all of the rewriting |
| morpheme.py, morphemelist.py | `M_Morphemes`, `M_Shipped` |
| dictionarylib/*.py readers | `M_DicReader`, `M_Bytes`: header, grammar, word ids, parameters, word infos, lexicon, whole file |
| dictionarybuilder.py, userdictionarybuilder.py | `M_DicBuilder`: rows to file; `M_Progress`: the messages on the way |
| lexiconset.py, dictionary.py (loading) | `M_LexiconSet` |
| dictionary.py (close, create), binarydictionary.py (close), the shared cache | `M_Close`: one process, objects by reference counting |
| dictionary.py (construction, create), plugin/*/\_\_init\_\_.py and utils.py, set_up of all plugins, connect_cost | `M_Setup` |
| config.py, command_line.py | `M_Front`: settings, `run`; the build commands are `M_DicBuilder.build_command`; `M_Command`: the same builds as operations on the output file, the checks that files exist; `M_Tokenize`: the command tokenize on files, `M_Debug`: its option -d; `M_Main`: main and its arguments; not directories and permissions, nor a system dictionary that is itself the output file of ubuild |

Simplifications that theorems depend on, beyond those named in the comments of the model:

* The double-array trie (dartsclone, external C++) is any search function that meets
  `trie_contract` (P_DicLexicon); `P_DicToy` has one, so the contract can be met.
* `unicodedata.normalize`, `str.lower`, `int()` and `str.isdigit` are arbitrary functions (with
  hypotheses where a theorem needs them).
* Machines are little endian; `memoryview.cast` reads native order.
* In Cython, `cdef void` functions swallow exceptions; additions of C ints wrap.
* The connection matrix seen by the lattice is a partial function. A missing cell is an
  IndexError, which ends the loop of `connect_node` and is swallowed there; small negative ids
  count from the end, as they do for memoryviews. A matrix without cells cannot be cast to two
  dimensions; the model only notices that at the first lookup.
* `CategoryType` is a plain Enum, so sets of it are iterated in an order that depends on
  `PYTHONHASHSEED`: a parameter.
* Path rewriting plugins only read the lattice.
* Word ids given to a lexicon set are not negative (Python would index from the end).
* No caller changes a WordInfo that came from the cache.
* `EFuel` stands for a loop that does not end.
* argparse: the part that the parsers of main use is in `M_Main` (trusted as a description of Python's library); joined and abbreviated options and '--' are not.
* logging, file system, mmap, tempfile: byte strings instead.
* Text files: the decoding from UTF-8 is left out (a file is a list of code points).
* CPython memory behaviour; the recursion limit only as a number (C44).

`Print Assumptions` says "Closed under the global context" for every property theorem.  The
seven constants `Coq.ssr.ssrunder.Under_rel.*` that `coqchk` lists come with the standard
library's loaded files and are used by none of them.

## 5. Where the theorems are

Written by tools/files.py. The theorems of a property and its examples begin with its id.

| file | properties |
|---|---|
| `Prop_Accept` | C82 |
| `Prop_AsShipped` | C81 |
| `Prop_AutoCost` | C92 |
| `Prop_Barred` | C71, C75 |
| `Prop_Best` | C75 |
| `Prop_CharCategory` | C13, C14 |
| `Prop_Close` | C84 |
| `Prop_Command` | C76, C77 |
| `Prop_Csv` | C67, C68 |
| `Prop_Cut` | C72 |
| `Prop_Debug` | C83 |
| `Prop_Format` | C47, C48, C49, C50, C51, C52, C53, C54, C55 |
| `Prop_Front` | C60, C61 |
| `Prop_Inhibit` | C94 |
| `Prop_Items` | C99 |
| `Prop_Join` | C89, C90 |
| `Prop_Lattice` | C15, C16, C17, C18, C19, C79 |
| `Prop_Lexicon` | C37, C38, C39, C40, C41, C42, C43 |
| `Prop_Live` | C71 |
| `Prop_Logged` | C78 |
| `Prop_Made` | C80 |
| `Prop_Main` | C85 |
| `Prop_Many` | C73 |
| `Prop_Morphemes` | C62 |
| `Prop_Normal` | C96 |
| `Prop_Numeric` | C32, C33, C34, C36 |
| `Prop_Oov` | C26, C27 |
| `Prop_Plugins` | C11, C12 |
| `Prop_Price` | C98 |
| `Prop_Progress` | C87 |
| `Prop_Raise` | C97 |
| `Prop_Resource` | C64, C65, C66 |
| `Prop_Rewrite` | C29, C30, C31, C35 |
| `Prop_Shipped` | C20, C21, C23, C24, C25, C63 |
| `Prop_Source` | C56, C57, C58, C59 |
| `Prop_Span` | C95 |
| `Prop_System` | C69, C70 |
| `Prop_Text` | C01, C02, C03, C04, C05, C06, C07, C08, C09, C10 |
| `Prop_Tokenize` | C78 |
| `Prop_Tokenizer` | C20, C23, C24, C25, C28 |
| `Prop_Tool` | C86 |
| `Prop_Total` | C21, C22 |
| `Prop_Units` | C88 |
| `Prop_Unused` | C93 |
| `Prop_Usual` | C91 |
| `Prop_Where` | C74 |
| `Prop_WordId` | C42 |
| `Prop_WordInfo` | C44, C45, C46 |
