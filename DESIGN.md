# Formal model of megari/libcolumbus in Coq 8.16.1

The library is a fuzzy full-text matcher written in C++.  This directory holds a model of
it in Gallina, 137 properties a user relies on (`properties.jsonl`), and theorems that prove
them, or prove exactly how they fail (`MANIFEST.json` says which).

## 1. What is modelled and how

The model follows the C++ function by function.  Every definition in a model file carries a
comment with the file and lines it models.  The configuration is the default CMake build:
UTF-16 letters (`Letter` is a struct around `uint16_t`), LP64, no sparse hash, no
DEBUG_MESSAGES.  Builds
with and without `assert` are both covered: the environment has a flag `e_ndebug` and the
theorems hold for both values unless they name one.

* **Outcomes.** Every operation gives `Ok a | Throw exn | Abort | UB | Fuel`.  `Abort` is a
  failed `assert`, `UB` undefined behaviour (out-of-bounds, uninitialised read, signed overflow,
  null dereference, double free, bad comparator), `Fuel` the artefact of a loop bound.  Theorems
  show the real outcome, so they exclude `Fuel`.  The state survives a `Throw`, so exception
  safety can be stated.
* **Words** are lists of UTF-16 code units (`N`).  WordM also models the object with its two
  members `text` and `len`; OwnM adds who owns the storage.
* **Trie** memory is the mmap()ed file at the level of 32-bit cells.  Each access checks that it
  is mapped, aligned and inside, else `UB`; offsets are computed modulo 2^32.
* **ErrorMatrix** is a matrix of optional ints.  `None` is uninitialised; additions are checked
  for int overflow.
* **Doubles** are binary64 of the standard library's `SpecFloat`, round to nearest even,
  computable and free of axioms.
* **Containers.** `std::map` and `std::set` are lists ordered by the C++ comparator.  Hash
  containers are walked in an order chosen by the environment (`e_order`, any permutation).
  `std::sort` is any function that gives a sorted permutation (`e_sort`).  `std::stable_sort` is
  insertion sort, the stable order being unique.
* **Outside calls** are fields of a record `env` or `world`: ICU's `u_tolower` (`e_lower`, an
  arbitrary function where possible), success of `ftruncate` and `mmap` (`e_os`), evaluation
  order of arguments (`e_rtl`), `getenv`, `stat` and file contents (`world` of DataFileM).  What
  is assumed of them is a hypothesis of the theorem (`env_ok`, `os_grants`, `sound_setup`), met
  by the concrete environments of Demo.v.  iconv is a strict UTF-8/UTF-16 codec written in
  Gallina.

| Source | Model | Theorems |
|---|---|---|
| src/Trie.cc, src/WordStore.cc | TrieM, WordStoreM | Thm_Store |
| src/Trie.cc once more: temporary files and mappings | ResM | Thm_Res |
| src/WordStore.cc, LevenshteinIndex.cc, Matcher.cc once more: files and mappings of several Matchers | HoldM | Thm_Hold |
| src/ErrorValues.cc, include/ErrorValues.hh | ErrorValuesM, DataFileM | Thm_EV, Thm_File |
| src/ErrorMatrix.cc, src/IndexMatches.cc, src/LevenshteinIndex.cc | LevIndexM | Thm_Lev |
| src/Word.cc, src/ColumbusHelpers.cc | WordM (and TrieM for the two checks of Word) | Thm_Word |
| src/WordList.cc, Document.cc, Corpus.cc, IndexWeights.cc, ResultFilter.cc, SearchParameters.cc, MatcherStatistics.cc, MatchResults.cc | ContM, MapM, DoubleM | Thm_Cont |
| src/Matcher.cc | MatcherM | Thm_Match, Thm_Query, Thm_Float, Thm_Room |
| src/ColumbusSlow.cc, share/*.txt | DataFileM | Thm_File |
| src/ColumbusCAPI.cc, include/columbus.h | CApiM | Thm_CApi |
| python/columbus.cc | PyM | Thm_Py |
| tools/queryindex.cc | QIndexM | Thm_Tool |
| tools/queryapp.cc, numberpad.cc, hudtest.cc, sctest.cc, singleword.cc | AppM | Thm_App |
| constructors, assignments, moves and destructors of Word, WordList, Document, Corpus, MatchResults | OwnM | Thm_Own |
| the same (but MatchResults) when allocations fail | OomM | Thm_Oom |
| Matcher, WordStore and LevenshteinIndex when allocations fail | FailM | Thm_Fail |
| ErrorValues when allocations fail | EvOomM | Thm_EvOom |
| MatchResults, ResultFilter and SearchParameters when allocations fail | ParM | Thm_Par |
| The C interface without Matchers when allocations fail | CMemM | Thm_CMem |
| The C interface with Matchers when allocations fail | CMatM | Thm_CMat |
| WordStore alone when allocations fail | StOomM | Thm_StOom |
| LevenshteinIndex alone when allocations fail | LvOomM | Thm_LvOom |
| LevenshteinIndex::findWords, ErrorMatrix and IndexMatches when allocations fail | SrOomM | Thm_SrOom |
| IndexWeights and MatcherStatistics when allocations fail | IwOomM | Thm_IwOom |
| operator= of Document when allocations fail | DaOomM | Thm_DaOom |
| getFieldNames of Document when allocations fail | FnOomM | Thm_FnOom |
| Programs with both when allocations fail | DfOomM | Thm_DfOom |

Not modelled: allocation failure (`bad_alloc`) outside Word, WordList, Document, Corpus, the
text conversions, Matcher, ErrorValues, MatchResults, ResultFilter, SearchParameters, WordStore,
LevenshteinIndex, ErrorMatrix, IndexMatches, IndexWeights, MatcherStatistics and the C
functions; a full disk behind the sparse temporary file
(SIGBUS), threads (the library has none), `hiresTimestamp` and `debugMessage`, the
sparse-hash and UCS-4 build options, Boost.Python and CPython themselves, wrap-around
of 64-bit counters, the mismatched `new[]`/`delete[]` types of utf8ToInternal, and
what GTK does (widgets, signals, the main loop): a search in a graphical program is a
call of its doSearch with the text of the entry.

The programs of the `test` directory are not modelled as code but run on the model: TestX.v has
every test of the authors, function by function, and checks that the model passes it (the two
that measure time are left out).  That validates the model; it proves nothing.

Simplifications that matter, each also in a comment at its definition:

* Memory that runs out (OomM): which allocations fail is given by a list; a growing
  `std::vector` copies its elements, as in libstdc++; a `std::string` is one allocation;
  `iconv_open` and the exception objects never run out; `operator=` and `getFieldNames` of
  Document are no statements of these programs but of those of DfOomM; moves of WordList are
  left out.
* Memory that runs out in a Matcher (FailM): an insertion into a container is one allocation;
  all allocations for local variables between two changes of the Matcher are one; what is lost
  is not counted.
* Memory that runs out in an ErrorValues object (EvOomM): a new element of a container is one
  allocation, also for `push_back`; reading a data file is one allocation for the file and one
  for each line; what the object holds is not counted, so the count shows only what is lost.
* Memory that runs out in MatchResults, ResultFilter and SearchParameters (ParM): as in OomM; a
  Word argument belongs to the client and is not counted; moves and reading are left out
  (`std::stable_sort` needs no memory).
* Memory that runs out in the C interface (CMemM): the objects are those of OomM and ParM;
  `col_matcher_new` is left out, so a program has no matcher; printing the message of a caught
  exception allocates nothing.
* The C interface with matchers that run out of memory (CMatM): matchers allocate as in FailM,
  every other object is one allocation (CMemM has the detail); changing prices does not run out
  (C126 has that); memory lost is not counted.
* Addresses are not reused after `free` (OwnM), and vector elements do not move.
* A `char*` is its bytes up to the NUL and is shorter than 2^32; a null `char*` argument of the
  C functions is not modelled.
* The operating system grants or refuses a mapping by its size alone (`e_os`), for all tries and
  at all times alike; `tmpfile` and `munmap` succeed.
* A hash map from ids is an ordered list; only its walking order is left open.
* In Python programs each result gets a variable of its own, numbered by creation; whether a
  vector moves when it grows is a flag of the statement. What Boost.Python and CPython do
  (converters, life support, reference counts, exception translation) follows their
  documentation, which is not in /repo.
* `read` errors of an opened data file are not modelled; a directory reads as empty.

## 2. Layout

* `Base.v`: outcomes, environment, machine integers.  `*M.v`: the models, without proofs.
* `Spec_*.v`: small specifications that do not mention the model's helpers: histories, edit
  scripts, price rules, UTF-8 text, list and map views, occurrences.
* `*A.v`, `*P.v`, `*Q.v` ... `*Z.v`: proofs.  `*X.v` and `Demo.v`: concrete runs.
* `Thm_*.v`: the theorems, each closed by a lemma, followed by `Print Assumptions` and by an
  `Example` with a concrete case that meets the hypotheses.
* A theorem named `..._refuted` proves that the property as stated is false of the code, by a
  reachable witness.  `..._partial` proves part; the note says what is missing.
* `seeded/LOG.jsonl`: wrong programs tried against the theorems.

## 3. Properties: how each is proved

* **C01** Trie membership is exactly the set of inserted words (proved, Thm_Store). Cell-level
  trie refined to an abstract list of edges in creation order (invariant `trie_rep`,
  TrieP/TrieP2/TrieD); induction over the history (TrieH). Theorems: `C01_trie_membership`.
* **C02** WordStore is a stable bijection between words and dense ids (proved, Thm_Store).
  Invariant relating the trie ids and the table of offsets, induction over getID histories
  (WordStoreP). Theorems: `C02_wordstore_bijection`, `C02_wordstore_ids_stable`.
* **C03** Unknown ids are rejected (proved, Thm_Store). Invariant relating the trie ids and the
  table of offsets, induction over getID histories (WordStoreP). Theorems: `C03_unknown_ids`.
* **C04** Trie counters are exact (proved, Thm_Store). Cell-level trie refined to an abstract
  list of edges in creation order (invariant `trie_rep`, TrieP/TrieP2/TrieD); induction over the
  history (TrieH). Theorems: `C04_numWords`, `C04_numNodes`.
* **C05** A node offset spells back exactly the word it was returned for (partial, Thm_Store).
  Cell-level trie refined to an abstract list of edges in creation order (invariant `trie_rep`,
  TrieP/TrieP2/TrieD); induction over the history (TrieH). Theorems: `C05_offset_spells_word`,
  `C05_joined_word_refuted`. getWord gives the word back for every word a constructor accepts;
  false for words made by join, which is not re-validated (refuted theorem).
* **C06** 32-bit trie offsets never wrap or alias (proved, Thm_Store). Cell-level trie refined
  to an abstract list of edges in creation order (invariant `trie_rep`, TrieP/TrieP2/TrieD);
  induction over the history (TrieH). Theorems: `C06_offsets_never_wrap`, `C06_capacity`,
  `C06_wordstore_outcomes`.
* **C07** Inserting the empty word into a trie or word store is refused (proved, Thm_Lev,
  Thm_Store). Direct from the models, in every state. Theorems: `C07_empty_word_refused`,
  `C07_levindex_ignores_empty`.
* **C08** Any constructible Word is safe to look up (partial, Thm_Store). The positive half from
  the trie invariant; the refutation is a computed run. Theorems: `C08_lookup_safe_partial`,
  `C08_nul_lookup_refuted`. Holds for all words without a NUL letter; false for constructible
  words with one (refuted theorem).
* **C09** Index counts are exact (proved, Thm_Lev). Induction over insertion histories (LevP).
  Theorems: `C09_counts`.
* **C10** Reported errors are true minimum edit costs (soundness) (proved, Thm_Lev). Edit
  scripts with prices (Spec_Edit) are the specification; the dynamic programme equals the
  minimum over scripts (EditP); the depth-first search keeps the rows of the current path
  (SearchP), its output is all words of unpruned subtrees (HitsP), pruning loses nothing when
  swaps are not cheap (LevP). Theorems: `C10_sound`.
* **C11** Every word within the error limit is found (completeness) (proved, Thm_Lev). Edit
  scripts with prices (Spec_Edit) are the specification; the dynamic programme equals the
  minimum over scripts (EditP); the depth-first search keeps the rows of the current path
  (SearchP), its output is all words of unpruned subtrees (HitsP), pruning loses nothing when
  swaps are not cheap (LevP). Theorems: `C11_complete`, `C11_defaults_qualify`.
* **C12** Completeness for arbitrary cost settings (partial, Thm_Lev). Refuted by a computed
  run; the exact positive condition is one of the theorems. Theorems: `C12_exact`,
  `C12_complete_any_prices_refuted`, `C11_complete`. False of the code (refuted theorem).
  C12_exact says for all prices which words are reported: those within the limit all of whose
  beginnings are within it too; C11 gives price settings for which that is every word within the
  limit.
* **C13** Matches are unique and sorted by error (proved, Thm_Lev). Edit scripts with prices
  (Spec_Edit) are the specification; the dynamic programme equals the minimum over scripts
  (EditP); the depth-first search keeps the rows of the current path (SearchP), its output is
  all words of unpruned subtrees (HitsP), pruning loses nothing when swaps are not cheap (LevP).
  Theorems: `C13_unique_sorted`, `C13_access`.
* **C14** An indexed word is always found by its exact spelling with error 0 (proved, Thm_Lev).
  Edit scripts with prices (Spec_Edit) are the specification; the dynamic programme equals the
  minimum over scripts (EditP); the depth-first search keeps the rows of the current path
  (SearchP), its output is all words of unpruned subtrees (HitsP), pruning loses nothing when
  swaps are not cheap (LevP). Theorems: `C14_exact_spelling`.
* **C15** A bigger error limit never loses matches (proved, Thm_Lev). Edit scripts with prices
  (Spec_Edit) are the specification; the dynamic programme equals the minimum over scripts
  (EditP); the depth-first search keeps the rows of the current path (SearchP), its output is
  all words of unpruned subtrees (HitsP), pruning loses nothing when swaps are not cheap (LevP).
  Theorems: `C15_limit_monotone`.
* **C16** Search never touches memory outside its error matrix and never reads an uninitialised
  cell (proved, Thm_Lev). Edit scripts with prices (Spec_Edit) are the specification; the
  dynamic programme equals the minimum over scripts (EditP); the depth-first search keeps the
  rows of the current path (SearchP), its output is all words of unpruned subtrees (HitsP),
  pruning loses nothing when swaps are not cheap (LevP). Theorems: `C16_search_safe`,
  `C16_bounded_arguments_fit`.
* **C17** A query with a NUL letter is searched safely (partial, Thm_Lev). Refuted by a computed
  run; the exact positive condition is one of the theorems. Theorems: `C17_nul_query_refuted`,
  `C16_search_safe`. False of the code (refuted theorem); proved for every query without NUL
  letters.
* **C18** Insertion and deletion prices can be set independently (partial, Thm_Lev). Refuted by
  a computed run; the exact positive condition is one of the theorems. Theorems:
  `C18_independent_prices_refuted`, `C16_search_safe`. False of the code (refuted theorem);
  C16_search_safe shows the assertion fails for every pair of different prices.
* **C19** ErrorMatrix::set is bounds checked and local (proved, Thm_Lev). Direct on the matrix
  model. Theorems: `C19_matrix_set`, `C19_total_min`.
* **C20** Substitution cost is symmetric (proved, Thm_EV). Histories of setter calls against the
  small rule in Spec_EV; invariants over the table, the pair map and the groups (EVP, ScalarP).
  Theorems: `C20_symmetric`.
* **C21** setError takes effect for exactly that pair (proved, Thm_EV). Histories of setter
  calls against the small rule in Spec_EV; invariants over the table, the pair map and the
  groups (EVP, ScalarP). Theorems: `C21_setError_exact`.
* **C22** The most recent call decides, whichever letters are involved (partial, Thm_EV).
  Histories of setter calls against the small rule in Spec_EV; invariants over the table, the
  pair map and the groups (EVP, ScalarP). Theorems: `C22_last_call_decides_refuted`,
  `C22_last_call_decides_small`, `C22_rule_decides_large`. False of the code (refuted theorem);
  what decides is proved for letters below and from 512.
* **C23** The lookup table agrees with the rule-based lookup (proved, Thm_EV). Histories of
  setter calls against the small rule in Spec_EV; invariants over the table, the pair map and
  the groups (EVP, ScalarP). Theorems: `C23_table_unobservable`.
* **C24** A letter costs nothing against itself (proved, Thm_EV). Histories of setter calls
  against the small rule in Spec_EV; invariants over the table, the pair map and the groups
  (EVP, ScalarP). Theorems: `C24_self_costs_nothing`, `C24_self_explicit_small`,
  `C24_self_large`.
* **C25** clearErrors forgets everything about substitutions (proved, Thm_EV). Histories of
  setter calls against the small rule in Spec_EV; invariants over the table, the pair map and
  the groups (EVP, ScalarP). Theorems: `C25_clear_forgets`, `C25_as_new_ever_after`.
* **C26** A letter belongs to at most one error group (proved, Thm_EV, Thm_File). Histories of
  setter calls against the small rule in Spec_EV; invariants over the table, the pair map and
  the groups (EVP, ScalarP). Theorems: `C26_group_refused`, `C26_grouped_stays`,
  `C26_group_prices`, `C26_group_others`.
* **C27** addStandardErrors works on a fresh object and cannot be applied twice (proved,
  Thm_File). File lookup and the reading loop as functions of a `world` (DataFileM); general
  lemmas about lines (DataP), and computation on the bytes of the shipped files. Theorems:
  `C27_first`, `C27_any`, `C27_effect`, `C27_others_kept`, `C27_second`. The bytes of the
  shipped files are part of the model.
* **C28** Neighbouring keys are cheap typos (partial, Thm_EV). The two tables are shown to be
  lists of setError calls, then C21 and a finite computation over the keys (EVK). Theorems:
  `C28_keyboard_partial`, `C28_bottom_row_refuted`, `C28_keyboard_is_setErrors`. False for the
  bottom row (refuted theorem), proved for all other keys.
* **C29** Number pad neighbours are cheap (partial, Thm_EV). The two tables are shown to be
  lists of setError calls, then C21 and a finite computation over the keys (EVK). Theorems:
  `C29_numberpad_partial`, `C29_touching_key_refuted`, `C29_numberpad_is_setErrors`. False for
  some touching keys (refuted theorem), the exact price of every digit/letter pair is proved.
* **C30** No Word contains whitespace (proved, Thm_Word). Induction over letters, for every way
  to make a Word (WordP). Theorems: `C30_no_whitespace`, `C30_whitespace_refused`.
* **C31** No Word contains a broken surrogate pair (partial, Thm_Word). Induction over letters,
  for every way to make a Word (WordP). Theorems: `C31_well_formed_refuted`,
  `C31_well_formed_partial`, `C31_letters`. False of the code for words made from letter buffers
  (refuted theorem); proved for words made from text and joins, and up to one trailing high
  surrogate for buffers; C31_letters says exactly which letters are taken, refused or abort.
* **C32** UTF-8 round trip (proved, Thm_Word). Round trip of the UTF-8/UTF-16 codecs by
  induction over code points, with byte counts for the buffers (WordP, WordQ). Theorems:
  `C32_round_trip`. asUtf8 half for words shorter than 2^30 - 1 letters, see C75.
* **C33** Conversions to the internal encoding never overrun their buffers (proved, Thm_Word).
  Round trip of the UTF-8/UTF-16 codecs by induction over code points, with byte counts for the
  buffers (WordP, WordQ). Theorems: `C33_conversions_fit`. asUtf8 half for words shorter than
  2^30 - 1 letters, see C75.
* **C34** toUtf8 never writes outside the caller's buffer (partial, Thm_Word). Round trip of the
  UTF-8/UTF-16 codecs by induction over code points, with byte counts for the buffers (WordP,
  WordQ). Theorems: `C34_buffer_respected_refuted`, `C34_toUtf8_exact`, `C34_broken_throws`.
  False of the code (refuted theorem); the exact condition of the overrun is proved.
* **C35** Word ordering is a strict total order compatible with equality (proved, Thm_Word).
  Induction over letter sequences. Theorems: `C35_order`, `C35_dictionary`.
* **C36** join is concatenation (proved, Thm_Word). Induction over letters, for every way to
  make a Word (WordP). Theorems: `C36_join`, `C36_letters`, `C36_object`.
* **C37** A failed assignment leaves the Word usable (partial, Thm_Word). Case analysis of the
  assignment on the object with its two members. Theorems: `C37_failed_assignment_refuted`,
  `C37_assignment_exact`. False of the code (refuted theorem); the state after every assignment
  is proved.
* **C38** Words are matched regardless of case (proved, Thm_Word). Round trip of the
  UTF-8/UTF-16 codecs by induction over code points, with byte counts for the buffers (WordP,
  WordQ). Theorems: `C38_case`.
* **C39** splitToWords splits exactly at whitespace (proved, Thm_Word). split against maximal
  runs of non-separators, induction over the text (SplitP). Theorems: `C39_split`.
* **C40** Equal words hash equally; the hash ignores most letters (proved, Thm_Word). The table
  has zeroes from 64 on; induction over the letters. Theorems: `C40_hash_collisions`.
* **C41** Document behaves as a map from field names to texts (proved, Thm_Cont). Histories of
  calls against list and map specifications (Spec_Cont, ContP, MapP). Theorems:
  `C41_document_is_a_map`, `C41_text_is_split`.
* **C42** WordList and Corpus preserve order and check bounds (proved, Thm_Cont). Histories of
  calls against list and map specifications (Spec_Cont, ContP, MapP). Theorems: `C42_wordlist`,
  `C42_corpus`, `C42_wordlist_equality`.
* **C43** IndexWeights returns the last weight set, default 1 (proved, Thm_Cont). Histories of
  calls against list and map specifications (Spec_Cont, ContP, MapP). Theorems:
  `C43_last_weight`.
* **C44** ResultFilter is an ordered list of conjunctions (proved, Thm_Cont). Histories of calls
  against list and map specifications (Spec_Cont, ContP, MapP). Theorems: `C44_filter_terms`.
* **C45** MatchResults presents results by non-increasing relevancy, ties in insertion order
  (proved, Thm_Cont). The stable sort specified by order, permutation and tie order; worlds of
  several result objects (ContP, MatchR; with NaN, ContQ). Theorems: `C45_best_first`.
* **C46** match returns exactly the documents containing a word close to a query word (partial,
  Thm_Match). Invariant relating the matcher to the list of (document, field, word) its history
  indexed (MatchP, MatchQ), then findWords' theorems for each field; result order from the
  ordered maps. Theorems: `C46_finds`, `C46_default`, `C46_sound`, `C46_exact`,
  `C46_cheap_swaps_refuted`. Proved for all prices with swaps that are not cheap, which include
  the defaults and everything built into the library; false of the code for cheap swaps (refuted
  theorem). C46_exact says for all prices that are not negative which documents are found, and
  their relevancies.
* **C47** Every matching document is listed once and best first (proved, Thm_Match). The stable
  sort specified by order, permutation and tie order; worlds of several result objects (ContP,
  MatchR; with NaN, ContQ). Theorems: `C47_ranked`.
* **C48** Result filters act as a disjunction of conjunctions of exact field terms (proved,
  Thm_Match). Invariant relating the matcher to the list of (document, field, word) its history
  indexed (MatchP, MatchQ), then findWords' theorems for each field; result order from the
  ordered maps. Theorems: `C48_filter`.
* **C49** Nonsearching fields never contribute (partial, Thm_Match). The two searches give the
  same documents and contributions; the sum is taken over a permuted list. Theorems:
  `C49_nonsearching_partial`, `C49_same_relevancy_refuted`. Same documents and sums of the same
  numbers; the order of a floating-point sum, hence the last bits, can differ (refuted theorem).
* **C50** Relevancy is the documented sum (proved, Thm_Match). Invariant relating the matcher to
  the list of (document, field, word) its history indexed (MatchP, MatchQ), then findWords'
  theorems for each field; result order from the ordered maps. Theorems: `C50_relevancy`,
  `C46_exact`. With swaps that are not cheap, as in C46; C46_exact is the same without that
  condition.
* **C51** A smaller error never gives a smaller relevancy contribution (proved, Thm_Float).
  SpecFloat connected to Flocq's rounding; monotonicity of rounded +, *, / (FloatQ, FloatR).
  Theorems: `C51_bounds`, `C51_monotone`, `C51_match`. Through the reals (Flocq): uses the
  standard library's axioms for Reals.
* **C52** Incremental indexing equals batch indexing (proved, Thm_Match). Invariant relating the
  matcher to the list of (document, field, word) its history indexed (MatchP, MatchQ), then
  findWords' theorems for each field; result order from the ordered maps. Theorems:
  `C52_incremental`.
* **C53** The set of matches does not depend on indexing order (proved, Thm_Match). Invariant
  relating the matcher to the list of (document, field, word) its history indexed (MatchP,
  MatchQ), then findWords' theorems for each field; result order from the ordered maps.
  Theorems: `C53_order`.
* **C54** Queries do not change later answers (partial, Thm_Match). Invariant relating the
  matcher to the list of (document, field, word) its history indexed (MatchP, MatchQ), then
  findWords' theorems for each field; result order from the ordered maps. Theorems:
  `C54_queries_between`, `C54_queries_anywhere`, `C54_filtered_search_refuted`. Proved for
  searches not followed by indexing, and for searches without filters; false of the code for the
  relevancies after a filtered search followed by indexing (refuted theorem), where the
  documents are still the same.
* **C55** Results do not depend on hash-table iteration order (proved, Thm_Match). Invariant
  relating the matcher to the list of (document, field, word) its history indexed (MatchP,
  MatchQ), then findWords' theorems for each field; result order from the ordered maps.
  Theorems: `C55_iteration_order`.
* **C56** onlineMatch refines match with exact-match bonuses (proved, Thm_Match). countExacts
  and the accumulator as folds over the query (MatchY). Theorems: `C56_online`,
  `C56_any_prices`, `C56_same_documents`, `C56_unknown`.
* **C57** The perfect-match bonus is given only to perfect matches (partial, Thm_Match).
  countExacts and the accumulator as folds over the query (MatchY). Theorems:
  `C57_bonus_partial`, `C57_given`, `C57_repeated_word_refuted`. False of the code for a
  repeated query word (refuted theorem); proved for queries without repetition. C57_given says
  for every query when the bonus is given.
* **C58** Indexing and matching well-formed input is safe (proved, Thm_Match). Invariant
  relating the matcher to the list of (document, field, word) its history indexed (MatchP,
  MatchQ), then findWords' theorems for each field; result order from the ordered maps.
  Theorems: `C58_safe`.
* **C59** Empty queries and empty matchers give empty results (proved, Thm_Match). Invariant
  relating the matcher to the list of (document, field, word) its history indexed (MatchP,
  MatchQ), then findWords' theorems for each field; result order from the ordered maps.
  Theorems: `C59_empty_query`, `C59_nothing_indexed`, `C59_empty_online`.
* **C60** An exception while indexing leaves earlier documents searchable (partial, Thm_Match).
  Invariant relating the matcher to the list of (document, field, word) its history indexed
  (MatchP, MatchQ), then findWords' theorems for each field; result order from the ordered maps.
  Theorems: `C60_failing_index`, `C60_earlier_documents_partial`, `C60_as_if_not_given_refuted`.
  The matcher stays usable and the same other documents are found; the offending document is
  partly indexed, so the relevancies differ (refuted theorem).
* **C61** The C API never lets an exception escape and returns its error values (proved,
  Thm_CApi). A heap of objects; induction over call sequences; each matcher follows a C++
  history (CApiP-CApiS). Theorems: `C61_no_exception`, `C61_words`, `C61_word_null`,
  `C61_documents`, `C61_matchers`, `C61_match`, `C61_results`, `C61_deletes`.
* **C62** col_match_results_get_relevancy returns the relevancy (partial, Thm_CApi). Computed
  run, and the exact value in general. Theorems: `C62_relevancy_refuted`, `C62_relevancy_is_id`.
  False of the code (refuted theorem): the function gives the document id as a double.
* **C63** Data file lookup honours COLUMBUS_DATADIR (partial, Thm_File). Case analysis of the
  variable and its last byte. Theorems: `C63_lookup_default`, `C63_lookup_variable`,
  `C63_empty_variable_refuted`. Proved for an unset and for every nonempty variable; false of
  the code for the empty one (refuted theorem).
* **C64** Copies of value classes are independent and destroyed once (partial, Thm_Own). Heap of
  allocations with freed cells; representation of objects as trees with disjoint addresses;
  simulation of the value semantics statement by statement (OwnP-OwnS). Theorems: `C64_values`,
  `C64_no_sharing`, `C64_independent`, `C64_freed`, `C64_implicit_copy_refuted`. Proved for
  Word, WordList, Document, Corpus and MatchResults and programs of any length; false of the
  code for the classes with an implicit copy constructor (refuted theorem).
* **C65** Tolerance guarantee for typos (partial, Thm_Match). A typo is a script of cost at most
  100; scripts compose unless they overlap in a swap (TypoP). Theorems: `C65_typo_partial`,
  `C65_swap_and_typo_refuted`. One error of any kind, or two that are not swaps; false of the
  code for a swap across another error (refuted theorem).
* **C66** Substring mode prices prefixes, suffixes and infixes as advertised (proved,
  Thm_Match). An explicit script for a part of a word, its price by computation with the limit
  (LevP). Theorems: `C66_part_cost`, `C66_part_found`.
* **C67** copyResult copies the result that getDocumentID shows at that position (partial,
  Thm_Cont). The stable sort specified by order, permutation and tie order; worlds of several
  result objects (ContP, MatchR; with NaN, ContQ). Theorems: `C67_copy_shown_result_refuted`,
  `C67_copy_after_read`. False of the code (refuted theorem); proved when the other object was
  read since its last change.
* **C68** A trie can still be used after an insertion that failed (partial, Thm_Store). The
  positive half from the trie invariant; the refutation is a computed run. Theorems:
  `C68_after_failure`, `C68_usable_after_failure_refuted`. The property is false of the code;
  proved: every later lookup is undefined behaviour.
* **C69** Every 32-bit word id can be stored (partial, Thm_Store). The positive half from the
  trie invariant; the refutation is a computed run. Theorems: `C01_trie_membership`,
  `C69_reserved_id_refuted`. Holds for every id but 2^32-1, for which it is refuted.
* **C70** A match remembers the query word it belongs to (partial, Thm_Lev). Refuted by a
  computed run; the exact positive condition is one of the theorems. Theorems:
  `C70_match_remembers_query_refuted`. False of the code: the empty word is returned for every
  match.
* **C71** A refused group call changes nothing (partial, Thm_EV). Histories of setter calls
  against the small rule in Spec_EV; invariants over the table, the pair map and the groups
  (EVP, ScalarP). Theorems: `C71_refused_keeps_small`, `C71_refused_keeps_large_refuted`. Proved
  for prices between letters below 512; false for larger letters (refuted theorem).
* **C72** A Word equals the text it was made from (partial, Thm_Word). Round trip of the
  UTF-8/UTF-16 codecs by induction over code points, with byte counts for the buffers (WordP,
  WordQ). Theorems: `C72_equals_own_text_refuted`, `C72_equals_own_text_exact`. False of the
  code (refuted theorem); proved when folding leaves the text unchanged, and only then.
* **C73** split separates at any of the given letters (partial, Thm_Word). split against maximal
  runs of non-separators, induction over the text (SplitP). Theorems:
  `C73_split_any_letter_refuted`, `C73_split_ascii`, `C73_split_exact`. False of the code for
  non-ASCII separators (refuted theorem); proved for ASCII ones; C73_split_exact says exactly
  where any separators cut.
* **C74** Case is ignored for characters outside the basic plane too (partial, Thm_Word). Round
  trip of the UTF-8/UTF-16 codecs by induction over code points, with byte counts for the
  buffers (WordP, WordQ). Theorems: `C74_case_all_planes_refuted`. False of the code for every
  folding of 16-bit units.
* **C75** asUtf8 is safe for every word, however long (partial, Thm_Word). Round trip of the
  UTF-8/UTF-16 codecs by induction over code points, with byte counts for the buffers (WordP,
  WordQ). Theorems: `C75_asUtf8_every_word_refuted`, `C33_conversions_fit`. False of the code
  for one very long word; proved below 2^30 letters.
* **C76** An object may be handed to its own addResults (partial, Thm_Cont). The stable sort
  specified by order, permutation and tie order; worlds of several result objects (ContP,
  MatchR; with NaN, ContQ). Theorems: `C76_add_to_itself_refuted`. False of the code (refuted
  theorem).
* **C77** Results may hold any relevancy (partial, Thm_Cont). The stable sort specified by
  order, permutation and tie order; worlds of several result objects (ContP, MatchR; with NaN,
  ContQ). Theorems: `C77_any_relevancy_refuted`, `C77_exact`, `C77_only_reads`,
  `C45_best_first`. False of the code for NaN (refuted theorem); proved without NaN; C77_exact
  says for every history when a read is undefined, C77_only_reads that nothing else is.
* **C78** The non-searching fields are exactly the ones named (proved, Thm_Cont). Histories of
  calls against list and map specifications (Spec_Cont, ContP, MapP). Theorems:
  `C78_nonsearching`.
* **C79** Word statistics count every call (proved, Thm_Cont). Histories of calls against list
  and map specifications (Spec_Cont, ContP, MapP). Theorems: `C79_statistics`.
* **C80** The simple prices are the ones last set (proved, Thm_EV). Histories of setter calls
  against the small rule in Spec_EV; invariants over the table, the pair map and the groups
  (EVP, ScalarP). Theorems: `C80_simple_prices`.
* **C81** A document with more of the words never ranks lower (proved, Thm_Float). SpecFloat
  connected to Flocq's rounding; monotonicity of rounded +, *, / (FloatQ, FloatR). Theorems:
  `C81_more_words`. Through the reals (Flocq): uses the standard library's axioms for Reals.
* **C82** A missing or damaged data file is reported, and how much of it was used is known
  (proved, Thm_File). File lookup and the reading loop as functions of a `world` (DataFileM);
  general lemmas about lines (DataP), and computation on the bytes of the shipped files.
  Theorems: `C82_missing_file`, `C82_good_file`, `C82_bad_line`.
* **C83** With the standard errors an accented letter is a cheap replacement for its plain form
  (partial, Thm_File). File lookup and the reading loop as functions of a `world` (DataFileM);
  general lemmas about lines (DataP), and computation on the bytes of the shipped files.
  Theorems: `C83_accents_cheap_partial`, `C83_accents_cheap_refuted`. True of all letters that
  stand in one line; false for y (refuted theorem).
* **C84** A C function changes only the object it is called on (proved, Thm_CApi). A heap of
  objects; induction over call sequences; each matcher follows a C++ history (CApiP-CApiS).
  Theorems: `C84_others_kept`.
* **C85** A C program gets what a C++ program gets (proved, Thm_CApi). A heap of objects;
  induction over call sequences; each matcher follows a C++ history (CApiP-CApiS). Theorems:
  `C85_as_cpp`, `C85_search`.
* **C86** C calls with valid handles are safe (proved, Thm_CApi). A heap of objects; induction
  over call sequences; each matcher follows a C++ history (CApiP-CApiS). Theorems: `C86_safe`.
* **C87** The null handle of a failed creation can be passed on (partial, Thm_CApi). A heap of
  objects; induction over call sequences; each matcher follows a C++ history (CApiP-CApiS).
  Theorems: `C87_null_delete_partial`, `C87_null_refuted`, `C87_null_undefined`. Only deletion
  accepts null; false for the other functions (refuted theorem).
* **C88** An operation that fails allocates nothing for good (partial, Thm_Own). Heap of
  allocations with freed cells; representation of objects as trees with disjoint addresses;
  simulation of the value semantics statement by statement (OwnP-OwnS). Theorems:
  `C88_leak_count`, `C88_no_leak_refuted`. False of the code (refuted theorem); the exact number
  of allocations lost is proved.
* **C89** Only the set of query words matters to match (proved, Thm_Query). The characterisation
  of match results (MatchT, any non-negative prices) applied to both searches; views with the
  same entries are equal because ranking is strict (QueryP); sums of more and larger terms are
  larger by monotonicity of IEEE addition (QueryF). Theorems: `C89_same_words`,
  `C89_online_order`, `C89_online_repeats_refuted`. Repetitions matter to onlineMatch (refuted
  theorem), as the statement says.
* **C90** More query words never hide or demote a document (proved, Thm_Float, Thm_Query). The
  characterisation of match results (MatchT, any non-negative prices) applied to both searches;
  views with the same entries are equal because ranking is strict (QueryP); sums of more and
  larger terms are larger by monotonicity of IEEE addition (QueryF). Theorems: `C90_more_words`,
  `C90_relevancy`.
* **C91** Indexing more never hides a document (proved, Thm_Query). The characterisation of
  match results (MatchT, any non-negative prices) applied to both searches; views with the same
  entries are equal because ranking is strict (QueryP); sums of more and larger terms are larger
  by monotonicity of IEEE addition (QueryF). Theorems: `C91_more_documents`,
  `C91_relevancy_kept_refuted`. That the relevancy may fall is a refuted theorem.
* **C92** The error is a distance between words (proved, Thm_Query). Induction over edit
  scripts; reversal of a script exchanges query and word (MetricP). Theorems: `C92_zero`,
  `C92_zero_found`, `C92_symmetric`, `C92_symmetric_found`, `C92_lengths`, `C92_bound`,
  `C92_triangle_refuted`. The failure of the triangle inequality is a refuted theorem.
* **C93** A field weight acts on that field only, in the expected direction (proved, Thm_Float,
  Thm_Query). Same documents by C46's characterisation; contributions outside the field are
  unchanged; monotonicity of IEEE products and sums (QueryP, QueryF). Theorems:
  `C93_weight_local`, `C93_heavier`.
* **C94** Python: every method does what the C++ method does (proved, Thm_Py). Each statement is
  computed on a state whose variables are described by relations of Spec_Py (PyP, PyQ, PyY); one
  lemma per class error (PyT). Theorems: `C94_words`, `C94_lists`, `C94_documents`,
  `C94_results`, `C94_matchers`, `C94_settings`, `C94_classes`, `C94_no_text`.
* **C95** Python: an object lives exactly as long as it is used (proved, Thm_Py). Invariant of
  reachable states: every pointer object keeps its object, and freed objects have no users (PyS,
  PyV). Theorems: `C95_alive`, `C95_all_freed`, `C95_del`, `C95_del_unbound`, `C95_others_kept`.
* **C96** Python: the text of a document is shared with its references (proved, Thm_Py). The
  places of lists and words are tracked through every statement (PyT, PyV); iteration by
  induction over the list. Theorems: `C96_append`, `C96_new_text`, `C96_list_stays`.
* **C97** Python: words of a list (partial, Thm_Py). The places of lists and words are tracked
  through every statement (PyT, PyV); iteration by induction over the list. Theorems:
  `C97_iterate`, `C97_word_stays_partial`, `C97_word_stays_refuted`. Iteration is proved. A word
  taken out of a list keeps its value only until its list changes; after that it may point to
  freed memory (refuted theorem).
* **C98** Python: no program is undefined (partial, Thm_Py). Case analysis over statements;
  searches use the theorem of C58 through the C++ history (PyU). Refutations are computed runs
  (PyX). Theorems: `C98_safe_partial`, `C98_none_refuted`, `C98_self_refuted`. False of the code
  (refuted theorems, and C97): None for split_to_words, adding results to themselves, a word of
  a list that grew. Proved for every statement that is none of these, under the stated sizes.
* **C99** Python: prices of pairs of letters (partial, Thm_Py). Invariant over the history: the
  only price calls a program can make are known, and clearing forgets all others (PyW, EVE).
  Theorems: `C99_prices_partial`, `C99_letters_refuted`. False of the code: the two methods with
  Letter arguments always raise TypeError (refuted theorem). The prices a program can have are
  proved.
* **C100** Python: strings survive the round trip through Word (partial, Thm_Py). The codec
  theorems of C32 and C33 for every way a word enters a program (PyU). Theorems:
  `C100_round_trip`, `C100_strings`, `C100_length_partial`, `C100_length_refuted`. The strings
  are proved; len() counts UTF-16 units, so the part about the number of characters is false
  above U+FFFF (refuted theorem) and proved below.
* **C101** Python: searches are those of C++ (proved, Thm_Py). Induction over the program: the
  matcher follows its C++ history (PyR, PyS); then C46 and C47. Theorems: `C101_as_cpp`,
  `C101_search`, `C101_results`.
* **C102** A trie gives back what it takes from the operating system (partial, Thm_Res). The
  methods of Trie are modelled once more with tmpfile, fclose, mmap and munmap (ResM) and shown
  to simulate TrieM step by step (ResP); then an invariant over programs of new, insertWord and
  delete on any number of tries (ResQ). Theorems: `C102_files`, `C102_closed`, `C102_one_each`,
  `C102_apart`, `C102_size`, `C102_never_back`, `C102_lost`, `C102_least`, `C102_same`,
  `C102_given_back_refuted`, `C102_failed_new_refuted`. One file and one mapping per trie, their
  size and the closing of files are proved. That mappings are given back is false of the code:
  ~Trie never unmaps, so every trie made leaves at least 1024 bytes mapped for good
  (C102_never_back, C102_lost, refuted theorem). A constructor that fails leaves its file open
  (refuted theorem).
* **C103** queryindex prints exactly the words close to the query (proved, Thm_Tool). Invariant
  over the lines read: the store numbers the distinct words and the index was filled by
  insertWord with those numbers (QIndexP, QIndexQ); then C10, C11, C13 and C16 for the search
  and C34 for the printing (QIndexR). Theorems: `C103_prints`, `C103_number`.
* **C104** queryindex reports malformed data files (partial, Thm_Tool). The same loop on
  arbitrary bytes: fgets is characterised for every file, and every outcome of a line is either
  a word, an exception or the failed assertion (QIndexQ, QIndexS). Refutations are computed runs
  (QIndexX). Theorems: `C104_bad_line_partial`, `C104_no_line_feed`, `C104_nul_line`,
  `C104_reported_refuted`. False of the code (refuted theorem): only lines with white space are
  reported with status 1. Proved is what happens instead: an empty line or invalid UTF-8 ends
  with status 105, a missing last line feed is a failed assertion or, in release builds, loses
  the last byte, a line starting with NUL is undefined behaviour.
* **C105** queryindex never crashes (partial, Thm_Tool). The same loop on arbitrary bytes: fgets
  is characterised for every file, and every outcome of a line is either a word, an exception or
  the failed assertion (QIndexQ, QIndexS). Refutations are computed runs (QIndexX). Theorems:
  `C105_arguments`, `C105_safe_partial`, `C105_short_lines`, `C105_ascii`, `C105_safe_refuted`.
  The arguments are proved. Any file without NUL and without lines that have 1024 bytes or more
  in lower case is survived, except for the assertion about the line feed at the end of what was
  read; without those limits it is false of the code (refuted theorem: lower case can make a
  word fill the buffer exactly; C104_nul_line).
* **C106** Indexing and searching work as long as storage is granted (proved, Thm_Room). Every
  failing step of indexing and of filters carries the size that was refused, bounded by the
  letters told so far (MatchP, MatchQ); the letters told are bounded by the letters given
  (MatchG). Theorems: `C106_index`, `C106_match`, `C106_runs`, `C106_index_blame`,
  `C106_match_blame`.
* **C107** queryapp shows exactly the lines close to the query (proved, Thm_App). A file is read
  line by line, one document each; an invariant says that the batches indexed so far hold the
  items read so far (AppQ, AppR, AppT, AppV, AppW), so that the matcher has the history of one
  index call and the price and weight calls of the program. Then C46, C47, C50 and C106 (AppP,
  AppS). Theorems: `C107_rows`, `C107_arguments`, `C107_missing`.
* **C108** The graphical programs never crash (partial, Thm_App). The same loops on arbitrary
  bytes: every line gives a document, nothing or an exception (AppU, AppW, AppY); the searches
  are those of C107 (AppP). Theorems: `C108_safe_partial`, `C108_sctest`,
  `C108_short_line_refuted`. False of the code (refuted theorem): a line of one byte reads
  before the start of a string. Proved for files below a million bytes without such a line;
  sctest is proved for every directory below three million bytes.
* **C109** DOS line endings make no difference to queryapp (partial, Thm_App). Refutations are
  computed runs (AppX); the parts that hold are corollaries of C107, and an induction over the
  text for the quotes (AppY, AppZ). Theorems: `C109_dos_partial`, `C109_dos_refuted`,
  `C109_blank_line_refuted`. False of the code (refuted theorems): the carriage return stays in
  the rows, because the byte before it is tested, and an empty line is undefined behaviour.
  Proved is that the same lines are found.
* **C110** hudtest shows the commands close to the query (proved, Thm_App). A file is read line
  by line, one document each; an invariant says that the batches indexed so far hold the items
  read so far (AppQ, AppR, AppT, AppV, AppW), so that the matcher has the history of one index
  call and the price and weight calls of the program. Then C46, C47, C50 and C106 (AppP, AppS).
  Theorems: `C110_rows`.
* **C111** numberpad finds a line by the keys of its letters (proved, Thm_App). A file is read
  line by line, one document each; an invariant says that the batches indexed so far hold the
  items read so far (AppQ, AppR, AppT, AppV, AppW), so that the matcher has the history of one
  index call and the price and weight calls of the program. Then C46, C47, C50 and C106 (AppP,
  AppS). Theorems: `C111_rows`, `C111_keys`, `C111_buttons`, `C111_digits`.
* **C112** What is typed into numberpad is data (partial, Thm_App). Refutations are computed
  runs (AppX); the parts that hold are corollaries of C107, and an induction over the text for
  the quotes (AppY, AppZ). Theorems: `C112_command_partial`, `C112_pattern`,
  `C112_command_refuted`, `C112_any_command`. False of the code (refuted theorem): a quote in
  the text ends the pattern, and nearly any command can be run (C112_any_command). Proved for
  texts and file names without quotes, and for the pattern of digits.
* **C113** sctest shows the desktop files close to the query (proved, Thm_App). A file is read
  line by line, one document each; an invariant says that the batches indexed so far hold the
  items read so far (AppQ, AppR, AppT, AppV, AppW), so that the matcher has the history of one
  index call and the price and weight calls of the program. Then C46, C47, C50 and C106 (AppP,
  AppS). Theorems: `C113_rows`.
* **C114** A bad desktop file does not hide the others (partial, Thm_App). The same loops on
  arbitrary bytes: every line gives a document, nothing or an exception (AppU, AppW, AppY); the
  searches are those of C107 (AppP). Theorems: `C114_first_bad`, `C114_isolated_refuted`. False
  of the code (refuted theorem). Proved is what happens: the first bad file ends the program
  with status 1 or 99.
* **C115** singleword shows exactly the words close to the query (partial, Thm_App). The loop of
  readData and main is the one of queryindex split in two (AppZ), so C103 and C105 carry over.
  Theorems: `C115_rows`, `C115_not_a_word`, `C115_nothing`, `C115_safe_partial`,
  `C115_long_line_refuted`. The rows are proved. That it does not crash is false of the code
  (refuted theorem: a word that fills the buffer exactly); it is proved for files without NUL
  and without lines that have 1024 bytes or more in lower case, except for the assertion about
  the line feed at the end of what was read.
* **C116** A trie can be walked from node to node (proved, Thm_Store). The chains of the
  representation invariant read as lists of siblings (TrieW); the id is that of the abstract
  dictionary of C01. Theorems: `C116_walk`.
* **C117** Relevancies are bounded and positive (proved, Thm_Float). Through the reals (Flocq):
  each contribution is at most the weight, sums of n of these stay below K n because integers up
  to 2^53 are doubles and rounding is monotone; from below, the factor for the error is at least
  2^-25 and that for the frequency at least 2^-53 (FloatS). Theorems: `C117_at_most`,
  `C117_positive`.
* **C118** What is found depends only on the words the documents have (proved, Thm_Query). From
  the exact description of the documents found (C46_exact), which mentions the occurrences only
  as a set (QueryG). Theorems: `C118_same_words`, `C118_again`, `C118_same_relevancy_refuted`.
  C118_same_relevancy_refuted shows that the relevancies do change when a document is indexed
  again, because its words become more frequent.
* **C119** Running out of memory is never undefined behaviour (partial, Thm_Oom). A monad in
  which each allocation succeeds or fails as a list says (OomM). Every function has a
  specification for return, exception and crash (OomP, OomQ, OomR) that keeps the objects whole;
  programs by induction (OomS). Theorems: `C119_safe_partial`, `C119_word_assignment_refuted`,
  `C119_list_assignment_refuted`, `C119_addText_refuted`, `C119_text_assignment_partial`,
  `C119_text_assignment_refuted`. False of the code for assignments that run out of memory
  (refuted theorems): the copy assignment of a Word always frees its text twice then. Proved for
  every program in which nothing that overwrites a value (an assignment, or addText for a field
  already there) threw.
* **C120** A call that runs out of memory has no effect and says so (partial, Thm_Oom). The same
  specifications relate the value of each object to the program on values of Spec_Own. Theorems:
  `C120_effects_partial`, `C120_enough`, `C120_abort_refuted`, `C120_silent_refuted`,
  `C120_addText_refuted`. False of the code (refuted theorems): a failed strdup aborts, or
  without assertions gives an empty Word; a failed addText can leave an empty field. Proved with
  assertions, for every program in which no assignment threw.
* **C121** Running out of memory leaks nothing (partial, Thm_Oom). The same specifications
  count: what is allocated equals what the variables own. Theorems: `C121_freed_partial`,
  `C121_not_too_much`, `C121_list_copy_refuted`, `C121_leaks_refuted`, `C121_addText_refuted`.
  False of the code (refuted theorems): conversions, asUtf8, splitToWords and the copy
  constructors of WordList and Document lose memory. Proved, with exactly how much each call
  that throws may lose, for programs in which nothing that overwrites a value threw.
* **C122** A Matcher gives back what it takes from the operating system (partial, Thm_Hold).
  Every function of WordStore, LevenshteinIndex and Matcher written again over the files and
  mappings of ResM (HoldM); a simulation in both directions with the model of C41-C58 (HoldQ,
  HoldR, HoldU), and an invariant saying which Matcher holds which trie (HoldS, HoldT).
  Theorems: `C122_files`, `C122_closed`, `C122_delete`, `C122_never_back`, `C122_same`,
  `C122_safe`, `C122_given_back_refuted`, `C122_failed_new_refuted`. Files, destruction and
  independence are proved. False of the code: no mapping is ever given back (C122_never_back,
  refuted theorem), and a constructor that is refused leaves its file open (refuted theorem; at
  most one file for each refusal, C122_closed).
* **C123** A Matcher that ran out of memory can still be used (partial, Thm_Fail). MatcherM once
  more with every allocation that may fail between two changes of the Matcher (FailM). A twin
  without failures, with one document more that owns the words counted but not noted, shadows
  the Matcher (FailQ, FailR); the theorems of C41-C58 hold of the twin and carry over (FailS,
  FailT, FailU). Theorems: `C123_safe_partial`, `C123_recovers_partial`, `C123_enough`,
  `C123_told`, `C123_counts_refuted`, `C123_words_refuted`. Proved unless memory runs out at one
  of two places: when wordIndex.push_back of WordStore::getID fails, and when wordCounts[wordID]
  of LevenshteinIndex::insertWord fails, the trie has the word already. The first makes later
  searches throw out_of_range, the second makes them undefined (refuted theorems).
* **C124** After running out of memory searches find what was indexed until then (partial,
  Thm_Fail). The same twin: its occurrences without the extra document are those of
  Spec_Fail.remains. onlineMatch (FailV.v): the exact counts of the real matcher are those of
  the twin without the extra document, and so are the lengths of its texts. Theorems:
  `C124_found_partial`, `C124_retry_partial`, `C124_relevancy_partial`, `C124_online_partial`,
  `C124_online_retry_partial`, `C124_online_relevancy_partial`, `C124_clash_refuted`,
  `C124_counted_refuted`. Proved unless memory runs out at one of the two places of C123: after
  the first of them two words get the same number and documents are found by words they do not
  have (refuted theorem). Relevancies after a repeated call differ from those of a Matcher that
  never ran out, since words are counted again (refuted theorem).
* **C125** What was typed exactly comes first (partial, Thm_Float). C56 and C57 give the parts
  of an onlineMatch relevancy; bounds on rounded sums as for C117 (FloatS) put the bonus above
  everything a light document can have (FloatT). Theorems: `C125_first_partial`,
  `C125_first_refuted`. Proved against documents whose words close to the query, counted with
  the weights of their fields, stay below a hundred, for queries without repeated words. False
  of the code beyond that: the bonus is always a hundred, so a heavy field outweighs it (refuted
  theorem).
* **C126** Error prices when memory runs out (partial, Thm_EvOom). ErrorValuesM once more with
  every allocation (EvOomM). The calls without groups are lists of price changes, each done or
  not (EvOomP); an invariant that every reachable object meets gives the rest (EvOomQ).
  Theorems: `C126_enough`, `C126_prices_exist`, `C126_ends`, `C126_setError`,
  `C126_no_groups_partial`, `C126_group_partial`, `C126_group_refuted`, `C126_repeat_refuted`,
  `C126_repeat_group_refuted`, `C126_message_refuted`, `C126_clear`, `C126_new`. Proved for
  setError, the keyboard, the number pad, the setters, clearErrors and the constructor. False of
  the code for groups (setGroupError, addAccents): letters already put in the group make the
  repeated call throw until clearErrors, prices from letter 512 up may have changed, and the
  text of the debug message may run out of memory after everything is done (refuted theorems).
* **C127** Results, filters and parameters when memory runs out (proved, Thm_Par). The three
  classes with every allocation (ParM), on the memory of OomM. Each method makes a whole object
  of the value ContM says or throws and leaves the old one (ParP, ParQ); induction over the
  program (ParR). Theorems: `C127_effects`, `C127_next`, `C127_thrown`, `C127_range`,
  `C127_safe`. MatchResults, ResultFilter and SearchParameters with every allocation that may
  fail; moves are left out.
* **C128** Results, filters and parameters lose no memory (partial, Thm_Par). The same induction
  counts what each object holds; the three leaks are computed for any state. Theorems:
  `C128_freed_partial`, `C128_not_too_much`, `C128_copy_refuted`, `C128_filter_refuted`,
  `C128_params_refuted`. Proved but for three constructors that free nothing when a later step
  throws, each of which loses one allocation: the copy of MatchResults, ResultFilter and
  SearchParameters (refuted theorems).
* **C129** A C program that runs out of memory goes on without the calls that failed (partial,
  Thm_CMem). The C functions once more on objects whose every allocation may fail (CMemM over
  OomM and ParM). One lemma per call: it ends as CApiM says, or as if it had not been made
  (CMemP); induction over the program (CMemQ). Theorems: `C129_fallback`, `C129_safe_partial`,
  `C129_effects_partial`, `C129_enough`, `C129_copy_refuted`, `C129_add_text_refuted`. Proved
  for the functions on words, documents, corpora and results, in builds with assertions, as long
  as no col_document_add_text to a field that the document has runs out of memory; a new field
  may stay behind without words. False of the code in three ways: a failed strdup ends the
  program or, without assertions, makes an empty Word that passes for a good one; after a failed
  col_document_add_text to a field already there the document cannot be deleted (refuted
  theorems). col_matcher_new and what needs a matcher are left out (C122-C124 have the Matcher).
* **C130** A C program that runs out of memory loses no memory (partial, Thm_CMem). The same
  induction counts what the handles hold; the leaks are computed. Theorems:
  `C130_freed_partial`, `C130_leak_refuted`. Proved that no more than one allocation per failed
  col_word_new and two per failed col_document_add_text or col_corpus_add_document are lost and
  nothing else; that nothing is lost is false of the code (refuted theorem). Same restrictions
  as C129.
* **C131** A C program whose matcher ran out of memory can go on with it (partial, Thm_CMat).
  The C functions over the Matcher of FailM that runs out of memory (CMatM). Every call on a
  matcher is one of FailM's calls and leaves the others alone (CMatP), so by induction each
  matcher of a program has a FailM history (CMatQ), and C123 and C124 apply (CMatR). A call that
  did not run out is CApiM's (CMatS). Theorems: `C131_as_cpp`, `C131_search_partial`,
  `C131_safe_partial`, `C131_fallback`, `C131_effects`, `C131_told`, `C131_enough`,
  `C131_crash_refuted`, `C131_silent_refuted`. Proved unless memory runs out at one of the two
  places of C123; there a later col_matcher_match is undefined (refuted theorem). False of the
  code that a program can tell: col_matcher_index returns nothing and swallows the exception
  (refuted theorem).
* **C132** A WordStore that ran out of memory keeps its numbers (partial, Thm_StOom).
  WordStore::getID with a push_back that may fail (StOomM). The invariant of C02 with two lists,
  the words in the trie and those in the vector (StOomP), by induction over the calls. Theorems:
  `C132_ends`, `C132_again`, `C132_names_partial`, `C132_known`, `C132_enough`, `C132_told`,
  `C132_clash_refuted`, `C132_unknown_refuted`. Proved but for words for which a call ran out of
  memory: the trie has them already, so a repeated getID gives a number that getWord does not
  know or that another word gets too (refuted theorems).
* **C133** A LevenshteinIndex that ran out of memory can be searched (partial, Thm_LvOom).
  LevenshteinIndex::insertWord with a new element of wordCounts that may fail (LvOomM). The trie
  is the one of the index that never ran out and the counts are those of the finished
  insertions, both by induction over the calls (LvOomP); a search reads only the trie and the
  longest length. Theorems: `C133_ends`, `C133_counts`, `C133_words`, `C133_search_partial`,
  `C133_retry`, `C133_enough`, `C133_told`, `C133_nothing_refuted`, `C133_deep_refuted`. Proved
  but for indexes where the longest words are all words whose insertion ran out of memory; there
  a search is undefined (refuted theorem). False of the code that a failed insertion has no
  effect: the trie has the word, the counts do not (refuted theorem).
* **C134** A search that ran out of memory harms nothing (partial, Thm_SrOom). findWords once
  more with every allocation (SrOomM). One relation between the search of LevIndexM and this
  one, kept by sequences, the sibling loop and the recursion, says that a search which runs out
  has added a prefix (SrOomP). Theorems: `C134_ends`, `C134_enough`, `C134_freed_partial`,
  `C134_leak_refuted`. Proved but for the last sentence where memory runs out while the matrix
  of the search is built: the constructor of ErrorMatrix has no destructor to free the rows it
  has, so they are lost, fewer than the longest word has letters plus three (refuted theorem).
* **C135** Weights and statistics survive running out of memory (proved, Thm_IwOom). The two
  classes with every allocation (IwOomM). A call is done or has no effect, so an induction over
  the calls leaves the ones that returned, to which C43 and C79 apply; the same induction counts
  the blocks (IwOomP). Theorems: `C135_weights`, `C135_counts`, `C135_held`, `C135_freed`,
  `C135_enough`. An element of the hash map of MatcherStatistics is one allocation; its table is
  not counted.
* **C136** Assigning a Document is all or nothing (partial, Thm_DaOom, Thm_DfOom). operator=
  with every allocation, over the nodes of the map as libstdc++ reuses them (DaOomM). The
  triples of OomP for copies and destructors are joined by an induction over the texts assigned
  (DaOomP). With getFieldNames it becomes a statement of whole programs (DfOomM), with the
  invariant of OomS. Theorems: `C136_ends_partial`, `C136_usable_partial`,
  `C136_programs_partial`, `C136_enough`, `C136_kept_refuted`, `C136_leak_refuted`. Proved that
  the assignment returns with two equal Documents, or throws and leaves one that can be used and
  destroyed. False of the code that this one is as it was: it has the new identifier and has
  lost its texts; and that no memory is lost: the copy constructor of WordList can lose one
  block (refuted theorems).
* **C137** Field names collected when memory runs out (proved, Thm_FnOom). The loop of
  getFieldNames over the addWord of OomM (FnOomM). An induction over the fields with the triple
  of addWord (FnOomP); the invariant of OomS carries the rest of the program. Theorems:
  `C137_ends`, `C137_usable`. That the Document is as before is how the model is written:
  getFieldNames is const and gives back no Document.

## 4. Trusted base

* Coq 8.16.1's kernel, including its `vm_compute`.  No axiom, admitted proof, functor, module
  type or switched-off check is used.
* The correspondence of model and C++ text, which only the comments document.
* The environment hypotheses named in the statements.

### Print Assumptions

`Closed under the global context` for every theorem of:

* `Thm_App`: C107_arguments, C107_missing, C107_rows, C108_safe_partial, C108_sctest,
  C108_short_line_refuted, C109_blank_line_refuted, C109_dos_partial, C109_dos_refuted,
  C110_rows, C111_buttons, C111_digits, C111_keys, C111_rows, C112_any_command,
  C112_command_partial, C112_command_refuted, C112_pattern, C113_rows, C114_first_bad,
  C114_isolated_refuted, C115_long_line_refuted, C115_not_a_word, C115_nothing, C115_rows,
  C115_safe_partial.
* `Thm_CApi`: C61_deletes, C61_documents, C61_match, C61_matchers, C61_no_exception,
  C61_results, C61_word_null, C61_words, C62_relevancy_is_id, C62_relevancy_refuted,
  C84_others_kept, C85_as_cpp, C85_search, C86_safe, C87_null_delete_partial, C87_null_refuted,
  C87_null_undefined.
* `Thm_CMat`: C131_as_cpp, C131_crash_refuted, C131_effects, C131_enough, C131_fallback,
  C131_safe_partial, C131_search_partial, C131_silent_refuted, C131_told.
* `Thm_CMem`: C129_add_text_refuted, C129_copy_refuted, C129_effects_partial, C129_enough,
  C129_fallback, C129_safe_partial, C130_freed_partial, C130_leak_refuted.
* `Thm_Cont`: C41_document_is_a_map, C41_text_is_split, C42_corpus, C42_wordlist,
  C42_wordlist_equality, C43_last_weight, C44_filter_terms, C45_best_first, C67_copy_after_read,
  C67_copy_shown_result_refuted, C76_add_to_itself_refuted, C77_any_relevancy_refuted,
  C77_exact, C77_only_reads, C78_nonsearching, C79_statistics.
* `Thm_DaOom`: C136_ends_partial, C136_enough, C136_kept_refuted, C136_leak_refuted,
  C136_usable_partial.
* `Thm_DfOom`: C136_programs_partial.
* `Thm_EV`: C20_symmetric, C21_setError_exact, C22_last_call_decides_refuted,
  C22_last_call_decides_small, C22_rule_decides_large, C23_table_unobservable,
  C24_self_costs_nothing, C24_self_explicit_small, C24_self_large, C25_as_new_ever_after,
  C25_clear_forgets, C26_group_prices, C26_group_refused, C26_grouped_stays,
  C28_bottom_row_refuted, C28_keyboard_is_setErrors, C28_keyboard_partial,
  C29_numberpad_is_setErrors, C29_numberpad_partial, C29_touching_key_refuted,
  C71_refused_keeps_large_refuted, C71_refused_keeps_small, C80_simple_prices.
* `Thm_EvOom`: C126_clear, C126_ends, C126_enough, C126_group_partial, C126_group_refuted,
  C126_message_refuted, C126_new, C126_no_groups_partial, C126_prices_exist,
  C126_repeat_group_refuted, C126_repeat_refuted, C126_setError.
* `Thm_Fail`: C123_counts_refuted, C123_enough, C123_recovers_partial, C123_safe_partial,
  C123_told, C123_words_refuted, C124_clash_refuted, C124_counted_refuted, C124_found_partial,
  C124_online_partial, C124_online_relevancy_partial, C124_online_retry_partial,
  C124_relevancy_partial, C124_retry_partial.
* `Thm_File`: C26_group_others, C27_any, C27_effect, C27_first, C27_others_kept, C27_second,
  C63_empty_variable_refuted, C63_lookup_default, C63_lookup_variable, C82_bad_line,
  C82_good_file, C82_missing_file, C83_accents_cheap_partial, C83_accents_cheap_refuted.
* `Thm_FnOom`: C137_ends, C137_usable.
* `Thm_Hold`: C122_closed, C122_delete, C122_failed_new_refuted, C122_files,
  C122_given_back_refuted, C122_never_back, C122_safe, C122_same.
* `Thm_IwOom`: C135_counts, C135_enough, C135_freed, C135_held, C135_weights.
* `Thm_Lev`: C07_levindex_ignores_empty, C09_counts, C10_sound, C11_complete,
  C11_defaults_qualify, C12_complete_any_prices_refuted, C12_exact, C13_access,
  C13_unique_sorted, C14_exact_spelling, C15_limit_monotone, C16_bounded_arguments_fit,
  C16_search_safe, C17_nul_query_refuted, C18_independent_prices_refuted, C19_matrix_set,
  C19_total_min, C70_match_remembers_query_refuted.
* `Thm_LvOom`: C133_counts, C133_deep_refuted, C133_ends, C133_enough, C133_nothing_refuted,
  C133_retry, C133_search_partial, C133_told, C133_words.
* `Thm_Match`: C46_cheap_swaps_refuted, C46_default, C46_exact, C46_finds, C46_sound,
  C47_ranked, C48_filter, C49_nonsearching_partial, C49_same_relevancy_refuted, C50_relevancy,
  C52_incremental, C53_order, C54_filtered_search_refuted, C54_queries_anywhere,
  C54_queries_between, C55_iteration_order, C56_any_prices, C56_online, C56_same_documents,
  C56_unknown, C57_bonus_partial, C57_given, C57_repeated_word_refuted, C58_safe,
  C59_empty_online, C59_empty_query, C59_nothing_indexed, C60_as_if_not_given_refuted,
  C60_earlier_documents_partial, C60_failing_index, C65_swap_and_typo_refuted, C65_typo_partial,
  C66_part_cost, C66_part_found.
* `Thm_Oom`: C119_addText_refuted, C119_list_assignment_refuted, C119_safe_partial,
  C119_text_assignment_partial, C119_text_assignment_refuted, C119_word_assignment_refuted,
  C120_abort_refuted, C120_addText_refuted, C120_effects_partial, C120_enough,
  C120_silent_refuted, C121_addText_refuted, C121_freed_partial, C121_leaks_refuted,
  C121_list_copy_refuted, C121_not_too_much.
* `Thm_Own`: C64_freed, C64_implicit_copy_refuted, C64_independent, C64_no_sharing, C64_values,
  C88_leak_count, C88_no_leak_refuted.
* `Thm_Par`: C127_effects, C127_next, C127_range, C127_safe, C127_thrown, C128_copy_refuted,
  C128_filter_refuted, C128_freed_partial, C128_not_too_much, C128_params_refuted.
* `Thm_Py`: C100_length_partial, C100_length_refuted, C100_round_trip, C100_strings,
  C101_as_cpp, C101_results, C101_search, C94_classes, C94_documents, C94_lists, C94_matchers,
  C94_no_text, C94_results, C94_settings, C94_words, C95_alive, C95_all_freed, C95_del,
  C95_del_unbound, C95_others_kept, C96_append, C96_list_stays, C96_new_text, C97_iterate,
  C97_word_stays_partial, C97_word_stays_refuted, C98_none_refuted, C98_safe_partial,
  C98_self_refuted, C99_letters_refuted, C99_prices_partial.
* `Thm_Query`: C118_again, C118_same_relevancy_refuted, C118_same_words, C89_online_order,
  C89_online_repeats_refuted, C89_same_words, C90_more_words, C91_more_documents,
  C91_relevancy_kept_refuted, C92_bound, C92_lengths, C92_symmetric, C92_symmetric_found,
  C92_triangle_refuted, C92_zero, C92_zero_found, C93_weight_local.
* `Thm_Res`: C102_apart, C102_closed, C102_failed_new_refuted, C102_files,
  C102_given_back_refuted, C102_least, C102_lost, C102_never_back, C102_one_each, C102_same,
  C102_size.
* `Thm_Room`: C106_index, C106_index_blame, C106_match, C106_match_blame, C106_runs.
* `Thm_SrOom`: C134_ends, C134_enough, C134_freed_partial, C134_leak_refuted.
* `Thm_StOom`: C132_again, C132_clash_refuted, C132_ends, C132_enough, C132_known,
  C132_names_partial, C132_told, C132_unknown_refuted.
* `Thm_Store`: C01_trie_membership, C02_wordstore_bijection, C02_wordstore_ids_stable,
  C03_unknown_ids, C04_numNodes, C04_numWords, C05_joined_word_refuted, C05_offset_spells_word,
  C06_capacity, C06_offsets_never_wrap, C06_wordstore_outcomes, C07_empty_word_refused,
  C08_lookup_safe_partial, C08_nul_lookup_refuted, C116_walk, C68_after_failure,
  C68_usable_after_failure_refuted, C69_reserved_id_refuted.
* `Thm_Tool`: C103_number, C103_prints, C104_bad_line_partial, C104_no_line_feed, C104_nul_line,
  C104_reported_refuted, C105_arguments, C105_ascii, C105_safe_partial, C105_safe_refuted,
  C105_short_lines.
* `Thm_Word`: C30_no_whitespace, C30_whitespace_refused, C31_letters, C31_well_formed_partial,
  C31_well_formed_refuted, C32_round_trip, C33_conversions_fit, C34_broken_throws,
  C34_buffer_respected_refuted, C34_toUtf8_exact, C35_dictionary, C35_order, C36_join,
  C36_letters, C36_object, C37_assignment_exact, C37_failed_assignment_refuted, C38_case,
  C39_split, C40_hash_collisions, C72_equals_own_text_exact, C72_equals_own_text_refuted,
  C73_split_any_letter_refuted, C73_split_ascii, C73_split_exact, C74_case_all_planes_refuted,
  C75_asUtf8_every_word_refuted.

The theorems of Thm_Float (`C117_at_most`, `C117_positive`, `C125_first_partial`,
`C125_first_refuted`, `C51_bounds`, `C51_match`, `C51_monotone`, `C81_more_words`,
`C90_relevancy`, `C93_heavier`) use the real numbers through Flocq, and list four
axioms of the standard library and no other:

* `ClassicalDedekindReals.sig_not_dec`
* `ClassicalDedekindReals.sig_forall_dec`
* `FunctionalExtensionality.functional_extensionality_dep`
* `Classical_Prop.classic`


## 5. Findings in the code

Each is proved by the theorem named.

* Looking up a word with a NUL letter (which `Word(Letter*,size_t)` accepts) walks into the
  header of the trie: `C08_nul_lookup_refuted`.  A query with one reads row -1 of the matrix:
  `C17_nul_query_refuted`.
* A word made by `join` can be refused when read back from the trie: `C05_joined_word_refuted`.
* After a failed growth the trie is unmapped and every call is undefined:
  `C68_usable_after_failure_refuted`.  The id 2^32-1 is never found: `C69_reserved_id_refuted`.
* Cheap swaps make pruning lose matches: `C12_complete_any_prices_refuted`,
  `C46_cheap_swaps_refuted`.
* Different insertion and deletion prices fail an assertion; without assertions the two are
  mixed up: `C18_independent_prices_refuted`.
* `IndexMatches` forgets the query: `C70_match_remembers_query_refuted`.
* Prices depend on whether letters are below 512: `C22_last_call_decides_refuted`,
  `C71_refused_keeps_large_refuted`.
* Bottom row of the keyboard and some number pad neighbours are skipped:
  `C28_bottom_row_refuted`, `C29_touching_key_refuted`.
* The letter y has no accent group: `C83_accents_cheap_refuted`.
* A trailing high surrogate is accepted: `C31_well_formed_refuted`.  `toUtf8` writes behind a
  buffer that the text fills: `C34_buffer_respected_refuted`.  `asUtf8` wraps for a very long
  word: `C75_asUtf8_every_word_refuted`.
* A refused assignment leaves a Word with a length and no text: `C37_failed_assignment_refuted`.
* A Word with upper-case letters differs from its text: `C72_equals_own_text_refuted`.
  Separators outside ASCII do not separate: `C73_split_any_letter_refuted`.  Case is kept
  outside the basic plane: `C74_case_all_planes_refuted`.
* `copyResult` copies from the unsorted list: `C67_copy_shown_result_refuted`.  `addResults` of
  itself and NaN relevancies are undefined: `C76_add_to_itself_refuted`,
  `C77_any_relevancy_refuted`.
* Non-searching fields and filtered searches can change the last bits of relevancies:
  `C49_same_relevancy_refuted`, `C54_filtered_search_refuted`.
* A repeated query word gets the bonus for a perfect match: `C57_repeated_word_refuted`.
* A document whose indexing failed stays half indexed: `C60_as_if_not_given_refuted`.
* A swap next to another typo can cost more than two errors: `C65_swap_and_typo_refuted`.
* `col_match_results_get_relevancy` returns the document id: `C62_relevancy_refuted`.  Null
  handles are undefined except for deletion: `C87_null_refuted`.
* An empty COLUMBUS_DATADIR reads before the string: `C63_empty_variable_refuted`.
* Copying a Matcher, ErrorValues, IndexWeights, SearchParameters or MatcherStatistics frees
  twice: `C64_implicit_copy_refuted`.  Failed conversions leak: `C88_no_leak_refuted`.
* Out of memory: a copy assignment of a Word that fails leaves a dangling pointer, freed again
  by the destructor: `C119_word_assignment_refuted` (so too for WordLists and fields of a
  Document: `C119_list_assignment_refuted`, `C119_addText_refuted`).  A failed `strdup` aborts,
  or silently gives an empty Word: `C120_abort_refuted`, `C120_silent_refuted`.  Memory is lost:
  `C121_list_copy_refuted`, `C121_leaks_refuted`.
* Out of memory in a Matcher: after `wordIndex.push_back` or `wordCounts[wordID]` has failed the
  trie has a word the rest does not know of. Later searches throw, are undefined, or find
  documents by words they do not have: `C123_words_refuted`, `C123_counts_refuted`,
  `C124_clash_refuted`.
* Out of memory in `setGroupError` or `addAccents`: the call can never be repeated (it throws
  `runtime_error`) until `clearErrors`: `C126_repeat_refuted`.  The text for the debug message
  is made even in builds without debug messages, after all is done, and loses its buffer when it
  runs out: `C126_message_refuted`.
* Out of memory in the copy constructor of MatchResults and in the constructors of ResultFilter
  and SearchParameters: one allocation is lost: `C128_copy_refuted`, `C128_filter_refuted`,
  `C128_params_refuted`.
* Out of memory in a C program: `col_word_new` may end the program or, without assertions,
  return an empty word as if all were well, and may lose one allocation; after a failed
  `col_document_add_text` to a field that the document has, deleting the document is undefined:
  `C129_copy_refuted`, `C129_add_text_refuted`, `C130_leak_refuted`.
* `col_matcher_index` swallows `bad_alloc` and returns nothing: a C program cannot know that
  part of its corpus is missing, and at two places the next `col_matcher_match` is undefined:
  `C131_silent_refuted`, `C131_crash_refuted`.
* A `WordStore::getID` that runs out of memory leaves the word in the trie without a place in
  the vector: repeated, it gives a number that is unknown or another word's:
  `C132_clash_refuted`, `C132_unknown_refuted`.
* A `LevenshteinIndex::insertWord` that runs out of memory leaves the word in the trie without
  counting it or its length: if it is the longest, the next search leaves its matrix:
  `C133_nothing_refuted`, `C133_deep_refuted`.
* An `ErrorMatrix` constructor that runs out of memory loses the rows it has allocated:
  `C134_leak_refuted`.
* An assignment of a Document that runs out of memory leaves the new identifier with no texts
  (`C136_kept_refuted`) and can lose a block (`C136_leak_refuted`): Document.cc:90-91 changes in
  place.
* onlineMatch: the bonus for a perfect match is 100 whatever the weights, so a heavy field puts
  other documents before the one whose title was typed: `C125_first_refuted`.
* A destroyed Matcher leaves all its mappings behind, and one whose constructor was refused a
  file: `C122_given_back_refuted`, `C122_failed_new_refuted`.
* queryapp, numberpad and hudtest: a line of one byte reads before the string, and DOS line
  endings stay: `C108_short_line_refuted`, `C109_dos_refuted`, `C109_blank_line_refuted`.
* numberpad: what is typed goes to a shell: `C112_command_refuted`, `C112_any_command`.
* sctest: one bad desktop file ends the program: `C114_isolated_refuted`.
* Python: `set_error` and `get_substitute_error` cannot be called, since no converter exists for
  a letter: `C99_letters_refuted`.  The project's own Python test of them fails for that reason
  (`pythontest_TestErrorValues_values_fails` in TestX.v).
