{"id": "C01", "title": "Trie membership is exactly the set of inserted words", "statement": "After any successful sequence of Trie::insertWord calls on words of non-NUL letters, hasWord(w) is true exactly for the words that were inserted: no inserted word is lost by later insertions (including those that force the backing file to be remapped) and no prefix, extension or never-inserted word (in particular the empty word) is reported present.", "quantifier": "every insertion history, every query word, every trie size (any number of remappings)", "why_tests_cant": "Sharing of prefixes, sibling-list surgery and remapping interact over the whole history; a unit test fixes a handful of words that all fit in the first 1024 bytes.", "anchors": ["src/Trie.cc:insertWord", "src/Trie.cc:hasWord", "src/Trie.cc:findWord", "src/Trie.cc:addNewSibling", "src/Trie.cc:expand"]}
{"id": "C02", "title": "WordStore is a stable bijection between words and dense ids", "statement": "For every history of WordStore::getID calls: equal words always get the same id, different words get different ids, ids are handed out 0,1,2,... without gaps in order of first request, an id never changes meaning later, and getWord(getID(w)) == w at every later time.", "quantifier": "every history of getID/hasWord/getWord calls over non-empty non-NUL words", "why_tests_cant": "Injectivity and stability are statements about all pairs of words and all later states.", "anchors": ["src/WordStore.cc:getID", "src/WordStore.cc:getWord", "src/WordStore.cc:hasWord", "src/Trie.cc:getWord", "src/Trie.cc:getSiblingTo"]}
{"id": "C03", "title": "Unknown ids are rejected", "statement": "WordStore::hasWord(id) is true exactly for the ids handed out so far and getWord(id) throws out_of_range for every other id, leaving the store unchanged.", "quantifier": "every history and every 32-bit id", "why_tests_cant": "All ids and all histories.", "anchors": ["src/WordStore.cc:getWord", "src/WordStore.cc:hasWord(WordID)"]}
{"id": "C04", "title": "Trie counters are exact", "statement": "numWords() is the number of distinct inserted words and numNodes() is the number of distinct prefixes (including the empty one) of inserted words.", "quantifier": "every insertion history", "why_tests_cant": "Depends on the overlap structure of the whole history.", "anchors": ["src/Trie.cc:numWords", "src/Trie.cc:numNodes", "src/Trie.cc:addNewNode", "src/Trie.cc:insertWord"]}
{"id": "C05", "title": "A node offset spells back exactly the word it was returned for", "statement": "The TrieOffset returned by insertWord(w) keeps naming w for ever: after any further insertions findWord(w) returns that same offset and getWord(offset) returns w.", "quantifier": "every insertion history and every later state", "why_tests_cant": "Offsets must survive every later remapping and sibling append.", "anchors": ["src/Trie.cc:getWord", "src/Trie.cc:findWord", "src/Trie.cc:getSiblingTo"]}
{"id": "C06", "title": "32-bit trie offsets never wrap or alias", "statement": "As long as insertWord returns normally all offsets lie inside the mapping and distinct nodes have disjoint storage; when the trie would need 2^32 bytes of backing store, or the OS refuses to grow the mapping, insertWord throws runtime_error instead of wrapping around or overwriting existing nodes, and it never reads or writes outside the mapping before that.", "quantifier": "every insertion history, of any total size, and every OS growth limit", "why_tests_cant": "Reaching the 2 GiB boundary in a unit test is impractical and only checks one history.", "anchors": ["src/Trie.cc:expand", "src/Trie.cc:append"]}
{"id": "C07", "title": "Inserting the empty word into a trie or word store is refused", "statement": "Trie::insertWord and WordStore::getID throw out_of_range for the empty word in every state and change nothing; LevenshteinIndex::insertWord ignores it silently.", "quantifier": "every state", "why_tests_cant": "Must hold in every reachable state.", "anchors": ["src/Trie.cc:insertWord", "src/WordStore.cc:getID", "src/LevenshteinIndex.cc:insertWord"]}
{"id": "C08", "title": "Any constructible Word is safe to look up", "statement": "For every Word the public constructors accept, Trie::hasWord / WordStore::hasWord terminate without reading outside the mapping. (The code violates this for words holding a NUL letter, which Word(Letter*,size_t) accepts.)", "quantifier": "every constructible word, every trie state", "why_tests_cant": "Quantifies over all words, including ones no test author writes.", "anchors": ["src/Trie.cc:findWord", "src/Word.cc:Word(Letter*,size_t)"]}
{"id": "C09", "title": "Index counts are exact", "statement": "LevenshteinIndex::wordCount(id) is the number of times a non-empty word was inserted with that id, maxCount() the largest of those numbers (0 if none), hasWord(w) says whether w was ever inserted and numWords() is the number of distinct words.", "quantifier": "every insertion history that gives each word one id and each id one word", "why_tests_cant": "Counts over arbitrary histories.", "anchors": ["src/LevenshteinIndex.cc:insertWord", "src/LevenshteinIndex.cc:wordCount", "src/LevenshteinIndex.cc:maxCount"]}
{"id": "C10", "title": "Reported errors are true minimum edit costs (soundness)", "statement": "Every match that findWords reports is an inserted word, its error is exactly the minimum total cost over all edit scripts (substitute, drop a query letter, add a word letter - with the start/middle/end prices -, swap two adjacent letters) turning the query into that word, and the error does not exceed maxError.", "quantifier": "every index history, query, non-negative cost table and error limit", "why_tests_cant": "The claim is a minimum over exponentially many edit scripts for all word pairs.", "anchors": ["src/LevenshteinIndex.cc:findWords", "src/LevenshteinIndex.cc:searchRecursive", "src/LevenshteinIndex.cc:findOptimalError", "src/ErrorMatrix.cc"]}
{"id": "C11", "title": "Every word within the error limit is found (completeness)", "statement": "When a transposition costs at least as much as the substitution it replaces (true of the defaults, of substring mode and of the standard error tables), findWords reports every inserted word whose minimum edit cost is <= maxError: pruning a subtree never loses a match.", "quantifier": "every index history, query, cost table with 0 <= sub <= transpose, error limit", "why_tests_cant": "Absence of false negatives over all dictionaries cannot be sampled.", "anchors": ["src/LevenshteinIndex.cc:searchRecursive", "src/ErrorMatrix.cc:minError"]}
{"id": "C12", "title": "Completeness for arbitrary cost settings", "statement": "findWords reports every inserted word whose minimum edit cost is <= maxError for every setting the public setters allow. (The code violates this: with a transposition cheaper than a substitution and than a deletion, pruning loses matches.)", "quantifier": "every cost setting", "why_tests_cant": "The failing combination involves a particular cost table, word and limit.", "anchors": ["src/LevenshteinIndex.cc:searchRecursive", "include/ErrorValues.hh:setTransposeError"]}
{"id": "C13", "title": "Matches are unique and sorted by error", "statement": "findWords into an empty IndexMatches yields each matching word id exactly once, in order of non-decreasing error; calling it with a non-empty IndexMatches keeps the old matches, adds the new ones and re-sorts the union.", "quantifier": "every history, query, limit, whatever order std::sort leaves ties in", "why_tests_cant": "All tries and queries; std::sort's tie order is unspecified.", "anchors": ["src/LevenshteinIndex.cc:findWords", "src/IndexMatches.cc:sort", "src/IndexMatches.cc:addMatch"]}
{"id": "C14", "title": "An indexed word is always found by its exact spelling with error 0", "statement": "If w was inserted, every substitution of a letter by itself costs 0 and no cost is negative, findWords(w, e, maxError) for maxError >= 0 reports w with error 0, ahead of or tied with every other match - whatever the transposition price.", "quantifier": "every history, word, cost table with non-negative costs, limit >= 0", "why_tests_cant": "All dictionaries and cost tables.", "anchors": ["src/LevenshteinIndex.cc:findWords"]}
{"id": "C15", "title": "A bigger error limit never loses matches", "statement": "If m1 <= m2 every match reported for maxError m1 is reported with the same error for maxError m2.", "quantifier": "every history, query, cost table, pair of limits", "why_tests_cant": "Pruning depends on the limit; monotonicity is over all pairs.", "anchors": ["src/LevenshteinIndex.cc:searchRecursive"]}
{"id": "C16", "title": "Search never touches memory outside its error matrix and never reads an uninitialised cell", "statement": "For every index history and every query without NUL letters, findWords reads and writes only initialised cells inside the matrix allocated for it, and performs no signed overflow provided (query length + longest word + 2) * largest cost + 10000 fits an int.", "quantifier": "every history, query, cost table within the bound", "why_tests_cant": "Memory safety over all shapes; ErrorMatrix::get has no bounds check.", "anchors": ["src/LevenshteinIndex.cc:findOptimalError", "include/ErrorMatrix.hh:get", "src/ErrorMatrix.cc"]}
{"id": "C17", "title": "A query with a NUL letter is searched safely", "statement": "findWords is memory safe for every constructible query word. (The code violates this: a NUL query letter matches the initial previousLetter 0 and makes the transposition test read row -1.)", "quantifier": "every constructible query", "why_tests_cant": "Needs a word built from a raw letter buffer and a matching first letter.", "anchors": ["src/LevenshteinIndex.cc:findOptimalError", "src/LevenshteinIndex.cc:findWords"]}
{"id": "C18", "title": "Insertion and deletion prices can be set independently", "statement": "After setInsertionError / setDeletionError with any values a search completes and uses the configured prices. (The code violates this: with a non-empty query it fails an assertion whenever the two differ, and without assertions it prices leading insertions as deletions.)", "quantifier": "every pair of prices", "why_tests_cant": "Exhaustive over settings; the public setters invite it.", "anchors": ["src/LevenshteinIndex.cc:findWords", "src/ErrorMatrix.cc:ErrorMatrix"]}
{"id": "C19", "title": "ErrorMatrix::set is bounds checked and local", "statement": "set(r,c,v) changes exactly cell (r,c) when r<=rows and c<=columns and otherwise throws out_of_range leaving the matrix unchanged; totalError and minError return the last used cell and the minimum over the used cells of the row.", "quantifier": "every matrix, row, column and value", "why_tests_cant": "All dimensions.", "anchors": ["src/ErrorMatrix.cc"]}
{"id": "C20", "title": "Substitution cost is symmetric", "statement": "getSubstituteError(a,b) == getSubstituteError(b,a) in every state reachable through setError, setGroupError, addAccents, addKeyboardErrors, addNumberpadErrors and clearErrors - also after a setGroupError that threw.", "quantifier": "every history of cost-setting calls, every pair of letters", "why_tests_cant": "The lookup table and the maps are updated separately; symmetry is over all histories.", "anchors": ["src/ErrorValues.cc:getSubstituteError", "src/ErrorValues.cc:setError", "src/ErrorValues.cc:setGroupError", "src/ErrorValues.cc:addToLUT"]}
{"id": "C21", "title": "setError takes effect for exactly that pair", "statement": "After setError(a,b,e) with a != b, getSubstituteError(a,b) and (b,a) are e and the cost of every other pair is unchanged.", "quantifier": "every state, pair and value", "why_tests_cant": "Frame condition over all other pairs, across the table/map boundary at letter 512.", "anchors": ["src/ErrorValues.cc:setError"]}
{"id": "C22", "title": "The most recent call decides, whichever letters are involved", "statement": "The cost of a pair is the one given by the latest successful setError or setGroupError mentioning it, independent of the letters' code values. (The code violates this: for letters >= 512 an old setError beats a later setGroupError, for letters < 512 the later call wins.)", "quantifier": "every history, every pair", "why_tests_cant": "The discrepancy needs a particular order of calls and letters on both sides of 512.", "anchors": ["src/ErrorValues.cc:getSubstituteError", "src/ErrorValues.cc:substituteErrorSlow", "src/ErrorValues.cc:setGroupError"]}
{"id": "C23", "title": "The lookup table agrees with the rule-based lookup", "statement": "In every history in which no pair mentioned by a setError is afterwards put in a common group, no letter is paired with itself and no setGroupError threw, the table answer for letters < 512 equals what the rule (explicit pair, else common group, else default) gives, so the 512 boundary is unobservable.", "quantifier": "every such history, every pair", "why_tests_cant": "Equivalence of two implementations over all histories.", "anchors": ["src/ErrorValues.cc:getSubstituteError", "src/ErrorValues.cc:substituteErrorSlow", "src/ErrorValues.cc:addToLUT", "src/ErrorValues.cc:addGroupErrorToLUT"]}
{"id": "C24", "title": "A letter costs nothing against itself", "statement": "getSubstituteError(a,a) == 0 in every state reached without an explicit setError(a,a,..). (With one, the code answers the set value for letters < 512 and still 0 for larger ones.)", "quantifier": "every history, every letter", "why_tests_cant": "All histories.", "anchors": ["src/ErrorValues.cc:clearLUT", "src/ErrorValues.cc:setError", "src/ErrorValues.cc:substituteErrorSlow"]}
{"id": "C25", "title": "clearErrors forgets everything about substitutions", "statement": "After clearErrors every pair costs what it costs in a new ErrorValues and no letter is in a group, whatever happened before.", "quantifier": "every history, every pair", "why_tests_cant": "All histories.", "anchors": ["src/ErrorValues.cc:clearErrors", "src/ErrorValues.cc:clearLUT"]}
{"id": "C26", "title": "A letter belongs to at most one error group", "statement": "setGroupError throws runtime_error exactly when some letter of the group already belongs to an earlier group; a letter once grouped keeps its group until clearErrors; a successful call makes every pair of distinct group letters cost the given value (unless an explicit pair error for letters >= 512 exists).", "quantifier": "every history and group", "why_tests_cant": "All histories.", "anchors": ["src/ErrorValues.cc:setGroupError", "src/ErrorValues.cc:isInGroup"]}
{"id": "C27", "title": "addStandardErrors works on a fresh object and cannot be applied twice", "statement": "On a new ErrorValues with the shipped data files addStandardErrors succeeds; a second call (without clearErrors) throws runtime_error and leaves every substitution cost as it was.", "quantifier": "the shipped data, every case-folding function compatible with ICU on these letters", "why_tests_cant": "Concerns the whole data set and the resulting table over all letter pairs.", "anchors": ["src/ErrorValues.cc:addStandardErrors", "src/ErrorValues.cc:addAccents", "share/latinAccentedLetterGroups.txt", "share/greekAccentedLetterGroups.txt"]}
{"id": "C28", "title": "Neighbouring keys are cheap typos", "statement": "After addKeyboardErrors every two horizontally adjacent keys of the built-in layout cost the typo error. (The code violates this for the bottom row, whose horizontal neighbours are skipped.)", "quantifier": "all pairs of adjacent keys", "why_tests_cant": "A table-driven loop bound; the tests look at two pairs of the top rows.", "anchors": ["src/ErrorValues.cc:addKeyboardErrors"]}
{"id": "C29", "title": "Number pad neighbours are cheap", "statement": "After addNumberpadErrors a digit costs 0 against the letters of its own key and 50 against the letters of the horizontally or vertically adjacent keys. (The code violates this: the left neighbour of the middle column and the upper neighbour of the middle row are skipped.)", "quantifier": "all digit/letter pairs", "why_tests_cant": "Boundary conditions of the loop; the tests look at three pairs.", "anchors": ["src/ErrorValues.cc:addNumberpadErrors", "src/ErrorValues.cc:setPadError"]}
{"id": "C30", "title": "No Word contains whitespace", "statement": "Every constructor, assignment and join that returns normally yields a word without space, tab, newline or carriage return, and construction from text containing one throws invalid_argument.", "quantifier": "every byte string, letter buffer and pair of words", "why_tests_cant": "All inputs.", "anchors": ["src/Word.cc:convertString", "src/Word.cc:Word(Letter*,size_t)", "src/Word.cc:join", "src/ColumbusHelpers.cc:isWhitespace"]}
{"id": "C31", "title": "No Word contains a broken surrogate pair", "statement": "Every Word a constructor accepts is well-formed UTF-16. (The code violates this: a trailing lone high surrogate is accepted by Word(Letter*,size_t); and two high surrogates in a row fail an assertion instead of throwing, or are accepted with assertions off.)", "quantifier": "every letter buffer", "why_tests_cant": "All buffers; the tests never put the lone surrogate last.", "anchors": ["src/Word.cc:hasBrokenSurrogates"]}
{"id": "C32", "title": "UTF-8 round trip", "statement": "For every valid UTF-8 text without whitespace or NUL, Word(text) succeeds and asUtf8() returns the case-folded text exactly; conversely Word(w.asUtf8()) == w for every word built from UTF-8. Invalid UTF-8 throws.", "quantifier": "every byte string", "why_tests_cant": "All Unicode texts including supplementary planes.", "anchors": ["src/ColumbusHelpers.cc:utf8ToInternal", "src/ColumbusHelpers.cc:internalToUtf8", "src/Word.cc:asUtf8"]}
{"id": "C33", "title": "Conversions to the internal encoding never overrun their buffers", "statement": "utf8ToInternal never writes more letters than the buffer of strlen+1 letters holds, terminator included, and the shrinking copy stays inside both buffers; asUtf8's 4*(len+1) byte buffer always suffices for text and terminator.", "quantifier": "every byte string and every word", "why_tests_cant": "Worst-case expansion over all inputs.", "anchors": ["src/ColumbusHelpers.cc:utf8ToInternal", "src/Word.cc:asUtf8"]}
{"id": "C34", "title": "toUtf8 never writes outside the caller's buffer", "statement": "Word::toUtf8(buf,size) (col_word_as_utf8) only writes buf[0..size). (The code violates this: when the encoded text fills the buffer exactly, the terminator is written at buf[size].) It overruns exactly when the encoding is exactly size bytes long; with more room it NUL-terminates, with less it throws.", "quantifier": "every word and buffer size", "why_tests_cant": "Off-by-one at exactly one size per word.", "anchors": ["src/ColumbusHelpers.cc:internalToUtf8", "src/Word.cc:toUtf8", "src/ColumbusCAPI.cc:col_word_as_utf8"]}
{"id": "C35", "title": "Word ordering is a strict total order compatible with equality", "statement": "operator< is irreflexive, transitive and total, a<b excludes b<a, and neither a<b nor b<a exactly when a==b - so std::map<Word,..> and std::set<Word> keyed by words are sound. It is the dictionary order of the UTF-16 code units.", "quantifier": "all words, pairs and triples", "why_tests_cant": "Order axioms over all triples.", "anchors": ["src/Word.cc:operator<", "src/Word.cc:operator=="]}
{"id": "C36", "title": "join is concatenation", "statement": "join is associative with the empty word as unit, lengths add, indexing splits, and joining two well-formed words gives a well-formed word. operator[] gives the letter at that position, and throws out_of_range from the length on.", "quantifier": "all words", "why_tests_cant": "Algebraic law.", "anchors": ["src/Word.cc:join"]}
{"id": "C37", "title": "A failed assignment leaves the Word usable", "statement": "If w = text throws, w is still a valid word (length consistent with its storage). (The code violates this: after a rejected text with whitespace, length() is the rejected text's length while the storage is a null pointer, so indexing or comparing w is undefined.)", "quantifier": "every rejected text", "why_tests_cant": "Exception-safety of every failing input.", "anchors": ["src/Word.cc:operator=(const char*)", "src/Word.cc:convertString"]}
{"id": "C38", "title": "Words are matched regardless of case", "statement": "Two texts that fold to the same lower-case letters give equal Words, the same id in every WordStore and the same answers everywhere.", "quantifier": "every pair of texts", "why_tests_cant": "All texts.", "anchors": ["src/ColumbusHelpers.cc:lowerLetter", "src/ColumbusHelpers.cc:utf8ToInternal"]}
{"id": "C39", "title": "splitToWords splits exactly at whitespace", "statement": "For every text the result is the sequence of its maximal non-whitespace runs in order, each non-empty; it throws only if a run is not valid UTF-8; it never reads past the terminating NUL and always terminates.", "quantifier": "every byte string", "why_tests_cant": "All strings, all positions of separators.", "anchors": ["src/ColumbusHelpers.cc:split", "src/ColumbusHelpers.cc:splitToWords"]}
{"id": "C40", "title": "Equal words hash equally; the hash ignores most letters", "statement": "hash() is a function of the letters only. All words of the same length n <= 67 consisting of ASCII lower-case letters hash to the same value (the table of 256 random numbers has only 64 entries).", "quantifier": "all words", "why_tests_cant": "Collision statement over all words of a length.", "anchors": ["src/Word.cc:hash", "src/Word.cc:randomNumbers"]}
{"id": "C41", "title": "Document behaves as a map from field names to texts", "statement": "For every history of addText: getText(f) returns the text of the last addText for f and throws invalid_argument if there was none; fieldCount is the number of distinct fields; getFieldNames lists them once each in Word order; wordCount/totalWordCount count occurrences; copies are independent.", "quantifier": "every history of addText calls, every field and word", "why_tests_cant": "All histories.", "anchors": ["src/Document.cc"]}
{"id": "C42", "title": "WordList and Corpus preserve order and check bounds", "statement": "Element i is the i-th one added, size counts them, out-of-range access throws out_of_range; adding never changes earlier elements.", "quantifier": "every history and index", "why_tests_cant": "All histories.", "anchors": ["src/WordList.cc", "src/Corpus.cc"]}
{"id": "C43", "title": "IndexWeights returns the last weight set, default 1", "statement": "getWeight(f) is the last value passed to setWeight for a word equal to f and 1.0 if there is none.", "quantifier": "every history and field", "why_tests_cant": "All histories.", "anchors": ["src/IndexWeights.cc"]}
{"id": "C44", "title": "ResultFilter is an ordered list of conjunctions", "statement": "After any history of addNewTerm/addNewSubTerm, the terms and subterms read back are the ones added, in order, each subterm in the term current when it was added; a new filter has exactly one empty term; out-of-range access throws out_of_range.", "quantifier": "every history and index pair", "why_tests_cant": "All histories.", "anchors": ["src/ResultFilter.cc"]}
{"id": "C45", "title": "MatchResults presents results by non-increasing relevancy, ties in insertion order", "statement": "For every interleaving of addResult, addResults, copyResult and reads, what getDocumentID/getRelevancy return for i=0,1,.. is the stable descending sort of everything added so far: nothing is lost, duplicated or altered, and reading does not change later answers.", "quantifier": "every interleaving of additions and reads (without NaN relevancies)", "why_tests_cant": "Lazy sorting makes the internal order history-dependent.", "anchors": ["src/MatchResults.cc:sortIfRequired", "src/MatchResults.cc:addResult", "src/MatchResults.cc:addResults", "src/MatchResults.cc:copyResult", "src/MatchResults.cc:getDocumentID"]}
{"id": "C46", "title": "match returns exactly the documents containing a word close to a query word", "statement": "With the default filter, a document is in match(query,params) iff some indexed searchable field of it contains a word whose minimum edit cost to some query word is within that query word's limit (100 for query words shorter than 2 letters when dynamic, 200 otherwise).", "quantifier": "every indexing history, query, parameter set, hash iteration order, cost table with 0 <= sub <= transpose", "why_tests_cant": "Set equality over all corpora and queries.", "anchors": ["src/Matcher.cc:match", "src/Matcher.cc:matchIndexes", "src/Matcher.cc:gatherMatchedDocuments", "src/Matcher.cc:buildIndexes", "src/SearchParameters.cc:getDynamicError"]}
{"id": "C47", "title": "Every matching document is listed once and best first", "statement": "match lists each document id at most once, relevancies are non-increasing and ties are ordered by ascending document id.", "quantifier": "every indexing history and query", "why_tests_cant": "All corpora and queries.", "anchors": ["src/Matcher.cc:match", "src/Matcher.cc:relevancyMatch"]}
{"id": "C48", "title": "Result filters act as a disjunction of conjunctions of exact field terms", "statement": "With a filter, match returns exactly the unfiltered results (same relevancies, same order) for which some term has all its subterms (field,word) exactly present in the document.", "quantifier": "every history, query and filter of non-empty words", "why_tests_cant": "All filters.", "anchors": ["src/Matcher.cc:match", "src/Matcher.cc:subtermsMatch", "src/Matcher.cc:ReverseIndex::documentHasTerm"]}
{"id": "C49", "title": "Nonsearching fields never contribute", "statement": "A field declared nonsearching contributes neither documents nor relevancy: the results are those of a matcher in which that field was never indexed for searching; it can still be used in filters.", "quantifier": "every history, query, set of nonsearching fields", "why_tests_cant": "All corpora.", "anchors": ["src/Matcher.cc:matchIndexes", "src/SearchParameters.cc:isNonsearchingField"]}
{"id": "C50", "title": "Relevancy is the documented sum", "statement": "The relevancy of a returned document is the floating-point sum, over searchable fields and matched words of that field in that document in a fixed order, of 100/(100+error) * (1 - count/(max+1)) * weight, where error is the smallest error over the query words.", "quantifier": "every history, query and weights", "why_tests_cant": "Functional statement over all corpora, independent of hash order.", "anchors": ["src/Matcher.cc:calculateRelevancy", "src/Matcher.cc:gatherMatchedDocuments", "src/Matcher.cc:addMatches"]}
{"id": "C51", "title": "A smaller error never gives a smaller relevancy contribution", "statement": "With equal field, counts and a non-negative weight, a smaller error yields a relevancy contribution at least as large (in IEEE double arithmetic), and contributions are finite and non-negative.", "quantifier": "all errors >= 0, counts, finite non-negative weights", "why_tests_cant": "Rounding behaviour over all values.", "anchors": ["src/Matcher.cc:calculateRelevancy"]}
{"id": "C52", "title": "Incremental indexing equals batch indexing", "statement": "Indexing corpora one after the other leaves the matcher in the same state as indexing their concatenation at once.", "quantifier": "every list of corpora, every split", "why_tests_cant": "All histories.", "anchors": ["src/Matcher.cc:index", "src/Matcher.cc:buildIndexes"]}
{"id": "C53", "title": "The set of matches does not depend on indexing order", "statement": "Indexing the same documents in any order gives the same set of matching documents for every query.", "quantifier": "every permutation of the documents, every query", "why_tests_cant": "All permutations; word ids and trie shapes differ.", "anchors": ["src/Matcher.cc:buildIndexes", "src/Matcher.cc:match"]}
{"id": "C54", "title": "Queries do not change later answers", "statement": "Running any match (also filtered) leaves every later match result unchanged. onlineMatch's unknown-field error is the only observable that may change, because a filtered match registers the filter's words.", "quantifier": "every history of queries in every state", "why_tests_cant": "Queries mutate the word store; absence of effect is over all later queries.", "anchors": ["src/Matcher.cc:subtermsMatch", "src/WordStore.cc:getID"]}
{"id": "C55", "title": "Results do not depend on hash-table iteration order", "statement": "For every iteration order of the unordered containers and every tie order of std::sort, match and onlineMatch return identical results (same ids, same doubles, same order).", "quantifier": "every iteration order", "why_tests_cant": "Not controllable in a test.", "anchors": ["src/Matcher.cc:matchIndexes", "src/Matcher.cc:gatherMatchedDocuments", "src/LevenshteinIndex.cc:findWords"]}
{"id": "C56", "title": "onlineMatch refines match with exact-match bonuses", "statement": "onlineMatch(q,f) returns the documents of match(q) plus those exactly containing a query word in f, each with relevancy = 2*(number of query words occurring in its field f) + 100 if perfect + its match relevancy; it throws invalid_argument exactly when f is not a known word. With default costs the document set equals that of match.", "quantifier": "every history, query, field", "why_tests_cant": "All corpora.", "anchors": ["src/Matcher.cc:onlineMatch", "src/Matcher.cc:countExacts"]}
{"id": "C57", "title": "The perfect-match bonus is given only to perfect matches", "statement": "The +100 bonus is given only to documents whose field text is the query (as a multiset of words). (The code violates this: a repeated query word is counted twice, so query 'a a' gives the bonus to text 'a b'.)", "quantifier": "every corpus and query", "why_tests_cant": "Needs a repeated query word and a text of matching length.", "anchors": ["src/Matcher.cc:onlineMatch", "src/Matcher.cc:countExacts"]}
{"id": "C58", "title": "Indexing and matching well-formed input is safe", "statement": "Every sequence of index / match / onlineMatch / setter calls with non-empty NUL-free words and non-negative moderate costs completes without undefined behaviour or failed assertion; the only exceptions are an unknown primary field and exhaustion of trie storage.", "quantifier": "every API history", "why_tests_cant": "All histories.", "anchors": ["src/Matcher.cc", "src/LevenshteinIndex.cc", "src/Trie.cc"]}
{"id": "C59", "title": "Empty queries and empty matchers give empty results", "statement": "match on an empty word list or on a matcher with nothing indexed returns no results and changes nothing.", "quantifier": "every state / every query", "why_tests_cant": "All states.", "anchors": ["src/Matcher.cc:match"]}
{"id": "C60", "title": "An exception while indexing leaves earlier documents searchable", "statement": "If index throws because of an empty field name or an empty word, all documents before the offending one remain indexed exactly as if only they had been given, and the matcher stays usable.", "quantifier": "every corpus and position of the offending word", "why_tests_cant": "Every crash point of the indexing loop.", "anchors": ["src/Matcher.cc:buildIndexes", "src/WordStore.cc:getID"]}
{"id": "C61", "title": "The C API never lets an exception escape and returns its error values", "statement": "Every col_* function maps a C++ exception to its documented fallback (null, 0, INVALID_DOCID, -1.0, 1.0) and otherwise returns what the C++ method returns.", "quantifier": "every call on valid handles", "why_tests_cant": "All outcomes.", "anchors": ["src/ColumbusCAPI.cc"]}
{"id": "C62", "title": "col_match_results_get_relevancy returns the relevancy", "statement": "col_match_results_get_relevancy(r,i) equals MatchResults::getRelevancy(i). (The code violates this: it returns the document id converted to double.)", "quantifier": "every result list and index", "why_tests_cant": "Wrong accessor; visible for all inputs but untested.", "anchors": ["src/ColumbusCAPI.cc:col_match_results_get_relevancy"]}
{"id": "C63", "title": "Data file lookup honours COLUMBUS_DATADIR", "statement": "findDataFile returns dir + '/' + name with exactly one separator added when missing, the built-in directory if the variable is unset, and the empty string if the file does not exist; it is memory safe for every value of the variable. (Violated for the empty value: s[s.length()-1] reads index SIZE_MAX.)", "quantifier": "every environment value and file system", "why_tests_cant": "All environments.", "anchors": ["src/ColumbusSlow.cc:findDataFile"]}
{"id": "C64", "title": "Copies of value classes are independent and destroyed once", "statement": "Copying, assigning or moving Word, WordList, Document and MatchResults objects in any order never makes two live objects share storage, and destroying all objects frees every allocation exactly once. (The implicitly generated copy constructors of Matcher, ErrorValues, IndexWeights, SearchParameters and MatcherStatistics violate this: they copy the private pointer.)", "quantifier": "every sequence of construct/copy/move/assign/destroy operations", "why_tests_cant": "Ownership over all histories.", "anchors": ["src/Document.cc", "src/WordList.cc", "src/MatchResults.cc", "src/Word.cc", "include/Matcher.hh", "include/ErrorValues.hh", "include/IndexWeights.hh", "include/SearchParameters.hh"]}
{"id": "C65", "title": "Tolerance guarantee for typos", "statement": "With default costs, an indexed document is found by every query word (of at least two letters) obtained from one of its words by at most two successive single-letter edits (substitution, insertion, deletion, adjacent swap), and by every query word obtained by one edit. (Violated for a swap followed by an edit between the swapped letters: query 'ca' does not find 'abc'. True for two substitutions/insertions/deletions and for one edit of any kind.)", "quantifier": "every corpus, word and pair of edits", "why_tests_cant": "All edits of all words.", "anchors": ["src/Matcher.cc:match", "src/SearchParameters.cc:getDynamicError", "src/LevenshteinIndex.cc:findWords"]}
{"id": "C66", "title": "Substring mode prices prefixes, suffixes and infixes as advertised", "statement": "In substring mode a query of at least 3 letters that is an infix of an indexed word with a letters before and b letters after costs at most 15*a + 15*b.", "quantifier": "every word, infix and index", "why_tests_cant": "All decompositions.", "anchors": ["src/ErrorValues.cc:setSubstringMode", "include/ErrorValues.hh:getStartInsertionError", "src/LevenshteinIndex.cc:findOptimalError"]}
{"id": "C67", "title": "copyResult copies the result that getDocumentID shows at that position", "statement": "copyResult(other,i) appends the result that other.getDocumentID(i)/getRelevancy(i) would return. (The code violates this: it does not sort first, so before the first read of other it copies the i-th added result instead of the i-th best.) It holds whenever other was read since its last modification.", "quantifier": "every history of other, every index", "why_tests_cant": "Depends on whether a read happened between the last addition and the copy.", "anchors": ["src/MatchResults.cc:copyResult"]}
{"id": "C68", "title": "A trie can still be used after an insertion that failed", "statement": "If insertWord throws runtime_error because the backing file cannot grow, the words inserted before can still be looked up. (The code violates this: the mapping is removed before the new one is made, so every later call dereferences an unmapped address.)", "quantifier": "every history ending in a refused growth step", "why_tests_cant": "Needs the operating system to refuse a mapping at the right moment.", "anchors": ["src/Trie.cc:expand"]}
{"id": "C69", "title": "Every 32-bit word id can be stored", "statement": "insertWord(w,id) makes w present whatever the id. (The code violates this for the reserved id 2^32-1: the word stays absent and the word counter grows at every repetition. It holds for all other ids.)", "quantifier": "every id and history", "why_tests_cant": "One reserved value among 2^32.", "anchors": ["src/Trie.cc:insertWord", "src/Trie.cc:hasWord"]}
{"id": "C70", "title": "A match remembers the query word it belongs to", "statement": "IndexMatches::getQuery(i) returns the query word that was given to addMatch for match i. (The code violates this: addMatch drops its first argument and getQuery answers the empty word for every match.)", "quantifier": "every sequence of addMatch/findWords calls and every index", "why_tests_cant": "All histories.", "anchors": ["src/IndexMatches.cc:addMatch", "src/IndexMatches.cc:getQuery"]}
{"id": "C71", "title": "A refused group call changes nothing", "statement": "If setGroupError throws, every substitution price and every letter's group are what they were before the call. (True of prices between letters below 512; the code violates it for larger letters, because letters before the offending one stay registered in the new group.)", "quantifier": "every history, every group, every pair of letters", "why_tests_cant": "Partial effects of a failing call at any position of any group.", "anchors": ["src/ErrorValues.cc:setGroupError"]}
{"id": "C72", "title": "A Word equals the text it was made from", "statement": "Word(text) == text for every accepted text. (The code violates this for a text with an upper-case letter: the word is folded, the text it is compared with is not. It holds exactly for texts that case folding leaves unchanged.)", "quantifier": "every byte string accepted by the constructor", "why_tests_cant": "All texts and folding tables.", "anchors": ["src/Word.cc:operator==(const char*)", "src/Word.cc:operator==(const std::string&)"]}
{"id": "C73", "title": "split separates at any of the given letters", "statement": "split(text, separators) cuts the text at every character that is one of the given separator letters. (The code violates this for separators outside ASCII: the bytes of the text are compared with the letters one by one. It holds for ASCII separators.)", "quantifier": "every text and separator list", "why_tests_cant": "All texts and separators.", "anchors": ["src/ColumbusHelpers.cc:split", "src/ColumbusHelpers.cc:isInList"]}
{"id": "C74", "title": "Case is ignored for characters outside the basic plane too", "statement": "Two texts that differ only in the case of a character beyond U+FFFF give equal Words. (The code violates this: folding is applied to each 16-bit unit, which leaves surrogates alone.)", "quantifier": "every folding table for 16-bit units, the letters U+10400 and U+10428", "why_tests_cant": "Holds for every folding function, not for one run of one ICU version.", "anchors": ["src/ColumbusHelpers.cc:utf8ToInternal", "src/ColumbusHelpers.cc:lowerLetter"]}
{"id": "C75", "title": "asUtf8 is safe for every word, however long", "statement": "Word::asUtf8 never writes outside the buffer it allocates. (The code violates this: the size 4*(len+1) is computed in 32 bits; for an ASCII word of 1431655764 letters it wraps to exactly the encoded length and the terminator is written behind the buffer. It holds below 2^30 letters.)", "quantifier": "every well-formed word", "why_tests_cant": "Needs a word of 1.4 billion letters.", "anchors": ["src/Word.cc:asUtf8", "src/ColumbusHelpers.cc:internalToUtf8"]}
{"id": "C76", "title": "An object may be handed to its own addResults", "statement": "r.addResults(r) appends a copy of everything r holds. (The code violates this: it hands a vector a range of itself as insertion source, which is undefined behaviour.)", "quantifier": "every non-empty result object", "why_tests_cant": "Undefined behaviour may pass any number of tests.", "anchors": ["src/MatchResults.cc:addResults"]}
{"id": "C77", "title": "Results may hold any relevancy", "statement": "Reading results is safe whatever relevancies were added. (The code violates this for NaN: with a NaN among several results the comparator given to stable_sort is not a strict weak order, which is undefined behaviour. It holds without NaN: C45.)", "quantifier": "every history of additions", "why_tests_cant": "Undefined behaviour depends on the sort's internals and the list's length.", "anchors": ["src/MatchResults.cc:sortIfRequired"]}
{"id": "C78", "title": "The non-searching fields are exactly the ones named", "statement": "isNonsearchingField(w) answers true exactly for the words given to addNonsearchingField before.", "quantifier": "every history and word", "why_tests_cant": "All histories.", "anchors": ["src/SearchParameters.cc:addNonsearchingField", "src/SearchParameters.cc:isNonsearchingField"]}
{"id": "C79", "title": "Word statistics count every call", "statement": "getTotalWordCount(w) is the number of wordProcessed(w) calls so far.", "quantifier": "every history and word id", "why_tests_cant": "All histories.", "anchors": ["src/MatcherStatistics.cc"]}
{"id": "C80", "title": "The simple prices are the ones last set", "statement": "After any history the insertion, deletion, end deletion, start insertion and transposition prices and the substring limit are those last set, directly or by setSubstringStart, or the defaults; no other call, however it ends, changes them. The start insertion price of a query word shorter than the limit is the ordinary insertion price.", "quantifier": "every history of ErrorValues calls, exceptions included", "why_tests_cant": "All histories.", "anchors": ["src/ErrorValues.cc", "include/ErrorValues.hh"]}
{"id": "C81", "title": "A document with more of the words never ranks lower", "statement": "If document A has, in every searched field, all the words document B has there, and a match finds both, the relevancy of A is not below that of B, rounding and overflow included.", "quantifier": "every history with weights that are not negative, query and pair of documents", "why_tests_cant": "Floating-point sums of any length, over all corpora.", "anchors": ["src/Matcher.cc:gatherMatchedDocuments", "src/Matcher.cc:calculateRelevancy"]}
{"id": "C82", "title": "A missing or damaged data file is reported, and how much of it was used is known", "statement": "If the data file of an accent group is not found or cannot be opened, addAccents throws and the object is unchanged. If all its lines are words the effect is that of setGroupError on each line that is not empty. If a line is not a word, the groups before it are added and the conversion's exception is thrown.", "quantifier": "every file system, file contents and ErrorValues object", "why_tests_cant": "All file contents.", "anchors": ["src/ErrorValues.cc:addAccents", "src/ColumbusSlow.cc:findDataFile"]}
{"id": "C83", "title": "With the standard errors an accented letter is a cheap replacement for its plain form", "statement": "After addStandardErrors on a new object every letter of the Latin alphabet costs 30 against each of its accented forms in the data file. (The data violates this for y, whose line lacks the plain letter.)", "quantifier": "every letter of the shipped data", "why_tests_cant": "Concerns the whole data set.", "anchors": ["share/latinAccentedLetterGroups.txt", "src/ErrorValues.cc:addStandardErrors"]}
{"id": "C84", "title": "A C function changes only the object it is called on", "statement": "Whatever a col_* call ends with, every existing object except the one it modifies or deletes is exactly as before; documents handed to a corpus and corpora handed to a matcher are copied, so later changes or deletion of the originals have no effect.", "quantifier": "every call, arguments and set of objects", "why_tests_cant": "All programs.", "anchors": ["src/ColumbusCAPI.cc"]}
{"id": "C85", "title": "A C program gets what a C++ program gets", "statement": "After any sequence of col_* calls a matcher is in the state it would have in a C++ program that made the corresponding method calls, and col_matcher_match finds exactly the indexed documents that have a word close enough to a word of the query, best first.", "quantifier": "every C program, shipped data files", "why_tests_cant": "All programs.", "anchors": ["src/ColumbusCAPI.cc", "src/Matcher.cc"]}
{"id": "C86", "title": "C calls with valid handles are safe", "statement": "A col_* call whose handles are live objects of the right kind (or null for deletion) and whose texts are C strings returns; it never runs into undefined behaviour or an abort. (Exceptions: a text buffer exactly one byte too short, C34; and matchers whose storage ran out.)", "quantifier": "every C program and call", "why_tests_cant": "Undefined behaviour may pass any number of tests.", "anchors": ["src/ColumbusCAPI.cc"]}
{"id": "C87", "title": "The null handle of a failed creation can be passed on", "statement": "A program that does not check a returned handle gets fallback values, not undefined behaviour. (The code violates this: only the delete functions accept null.)", "quantifier": "every function", "why_tests_cant": "Needs every function.", "anchors": ["src/ColumbusCAPI.cc"]}
{"id": "C88", "title": "An operation that fails allocates nothing for good", "statement": "A program that catches the exception of a failed operation and goes on has lost no memory. (The code violates this: each conversion that fails with runtime_error leaves one buffer allocated, and two if the text was being split into words. Nothing else is ever lost.)", "quantifier": "every program, every failing input", "why_tests_cant": "Needs every failing path.", "anchors": ["src/ColumbusHelpers.cc:utf8ToInternal", "src/ColumbusHelpers.cc:splitToWords", "src/Word.cc:Word::asUtf8", "src/Document.cc:Document::addText"]}
{"id": "C89", "title": "Only the set of query words matters to match", "statement": "Two queries with the same words, in any order and with any repetitions, show the same documents with bit-identical relevancies. onlineMatch does not depend on the order of the words either (but a repeated word counts again there).", "quantifier": "every matcher, query, permutation and repetition, prices that are not negative", "why_tests_cant": "All queries and their rearrangements.", "anchors": ["src/Matcher.cc:Matcher::match", "src/Matcher.cc:matchIndexes", "src/Matcher.cc:Matcher::onlineMatch"]}
{"id": "C90", "title": "More query words never hide or demote a document", "statement": "Every document found for some words is found when further words are added to the query, with a relevancy that is not smaller.", "quantifier": "every matcher, pair of queries, prices and weights that are not negative", "why_tests_cant": "All pairs of queries, and rounding.", "anchors": ["src/Matcher.cc:matchIndexes", "src/Matcher.cc:gatherMatchedDocuments"]}
{"id": "C91", "title": "Indexing more never hides a document", "statement": "A document that is found for a query is found for it after any further indexing, weighting and searching. (Its relevancy may fall: the words become less rare.)", "quantifier": "every history and continuation without price changes", "why_tests_cant": "All continuations.", "anchors": ["src/Matcher.cc:Matcher::index", "src/Matcher.cc:Matcher::match"]}
{"id": "C92", "title": "The error is a distance between words", "statement": "With prices such as the default ones the error of a word is zero only for the query itself, is the same when word and query change places, is at least the price of one letter times the difference in length and at most that price times the greater length. (There is no triangle inequality: two letters swapped and one put between them cost more than the two errors together.)", "quantifier": "every query, word and price settings meeting the stated conditions", "why_tests_cant": "All pairs of words.", "anchors": ["src/LevenshteinIndex.cc:LevenshteinIndex::findWords", "include/ErrorValues.hh"]}
{"id": "C93", "title": "A field weight acts on that field only, in the expected direction", "statement": "Setting the weight of a field never changes which documents are found, changes no relevancy of a document without words in that field, and lowers none when the new weight is not smaller.", "quantifier": "every matcher, field, weight and query", "why_tests_cant": "All matchers and rounding.", "anchors": ["src/IndexWeights.cc", "src/Matcher.cc:calculateRelevancy", "src/Matcher.cc:Matcher::match"]}
{"id": "C94", "title": "Python: every method does what the C++ method does", "statement": "Each constructor, method and function of the Python module gives the value of the C++ method on the values of its arguments and has the same effect; out_of_range, invalid_argument and runtime_error become IndexError, ValueError and RuntimeError; a str is read up to its first NUL; integers outside the C++ type raise OverflowError; an argument of the wrong class or an unbound variable raises TypeError or NameError and changes nothing; a str that cannot be encoded raises UnicodeError.", "quantifier": "every state of the interpreter, statement and argument", "why_tests_cant": "All states, values and argument classes.", "anchors": ["python/columbus.cc"]}
{"id": "C95", "title": "Python: an object lives exactly as long as it is used", "statement": "An object exists if and only if a variable is bound to it or a reference into it (a word of a list, a text of a document, the settings of a matcher) is itself in use. Deleting a variable leaves every other variable with its value; when no variable is left no object is. A statement changes no object but the one it is called on.", "quantifier": "every program, with deletions anywhere", "why_tests_cant": "All orders of creation, reference and deletion.", "anchors": ["python/columbus.cc", "python/columbus.cc:return_internal_reference"]}
{"id": "C96", "title": "Python: the text of a document is shared with its references", "statement": "What get_text gives is the text of the document itself: appending a word to it, or giving the field new text with add_text, is seen by the document and by all references to that text, leaves other fields alone, and no other statement changes it. It stays usable after the document's variable is deleted.", "quantifier": "every program and number of references", "why_tests_cant": "All interleavings of changes and reads.", "anchors": ["python/columbus.cc:get_text", "src/Document.cc:Document::getText", "src/WordList.cc:WordList::addWord"]}
{"id": "C97", "title": "Python: words of a list", "statement": "Iterating over a list gives its words in order and then ends; a word taken out of a list keeps its value whatever happens later.", "quantifier": "every program, list and later statement", "why_tests_cant": "All later statements.", "anchors": ["python/columbus.cc:__getitem__", "src/WordList.cc:WordList::operator[]"]}
{"id": "C98", "title": "Python: no program is undefined", "statement": "Whatever a Python program does with the module, each statement gives a value or raises an exception; none has undefined behaviour.", "quantifier": "every program", "why_tests_cant": "All programs.", "anchors": ["python/columbus.cc"]}
{"id": "C99", "title": "Python: prices of pairs of letters", "statement": "A Python program can set the price of replacing one letter by another and read it back. Otherwise the price is the standard one if the standard errors were added and not cleared since, and the default price if not.", "quantifier": "every program and pair of letters", "why_tests_cant": "All programs, and all pairs of letters.", "anchors": ["python/columbus.cc:set_error", "python/columbus.cc:get_substitute_error", "src/ErrorValues.cc"]}
{"id": "C100", "title": "Python: strings survive the round trip through Word", "statement": "A Word made of a str without blanks and NULs gives that str back from get_string, in lower case; len of the Word is its number of characters; every Word a program can get hold of gives a valid str.", "quantifier": "every program and str", "why_tests_cant": "All strings and all ways to get a Word.", "anchors": ["python/columbus.cc:get_string", "src/Word.cc:Word::asUtf8", "src/ColumbusHelpers.cc:utf8ToInternal"]}
{"id": "C101", "title": "Python: searches are those of C++", "statement": "The Matcher of a Python program is in the state that the same calls bring it to in C++, also when they come through references to its settings; match gives exactly the indexed documents with a word close enough to a word of the query, and get_document_id and get_relevancy read them best first.", "quantifier": "every program, matcher and query", "why_tests_cant": "All programs and histories.", "anchors": ["python/columbus.cc", "src/Matcher.cc:Matcher::match"]}
{"id": "C102", "title": "A trie gives back what it takes from the operating system", "statement": "Every trie holds one temporary file, closed when it is destroyed, and one mapping, at most twice as large as its nodes need however often it grew, and its own. When a trie is destroyed, or its constructor fails, file and mapping are given back.", "quantifier": "every program that makes, fills and destroys tries, any operating system", "why_tests_cant": "The number and size of mappings left behind depends on the whole history of growth, refusals and destructions.", "anchors": ["src/Trie.cc:Trie::Trie", "src/Trie.cc:Trie::~Trie", "src/Trie.cc:Trie::expand"]}
{"id": "C103", "title": "queryindex prints exactly the words close to the query", "statement": "For a data file with one word per line, a query word and an error limit, the program queryindex prints exactly the words of the file whose error against the query at the default prices is within the limit, in lower case, each once, with that error, by increasing error; or that there are none; and exits with status 0. Any third argument is read as one number, as atoi does.", "quantifier": "every data file of words, query, limit and operating system that grants the storage", "why_tests_cant": "All files and queries; order and uniqueness hold across all of them.", "anchors": ["tools/queryindex.cc:load_data", "tools/queryindex.cc:queryAndPrint", "tools/queryindex.cc:run_test"]}
{"id": "C104", "title": "queryindex reports malformed data files", "statement": "If a line of the data file is not a word, queryindex reports the file as malformed and exits with status 1; a last line without line feed is a line like any other.", "quantifier": "every file with a first malformed line, whatever precedes and follows it", "why_tests_cant": "All files and all positions of the bad line.", "anchors": ["tools/queryindex.cc:load_data", "tools/queryindex.cc:run_test", "src/Word.cc:Word::convertString", "src/WordStore.cc:WordStore::getID"]}
{"id": "C105", "title": "queryindex never crashes", "statement": "Whatever the arguments and the bytes of the data file, queryindex ends with one of its exit statuses: it prints its usage if arguments are missing, and a message for a query with white space, a query that is not UTF-8, a missing file or refused storage.", "quantifier": "every list of arguments, every file contents, every operating system", "why_tests_cant": "All byte strings as files, including ones that are not text, and all points at which storage is refused.", "anchors": ["tools/queryindex.cc:main", "tools/queryindex.cc:run_test", "tools/queryindex.cc:load_data", "tools/queryindex.cc:queryAndPrint", "src/Word.cc:Word::toUtf8"]}
{"id": "C106", "title": "Indexing and searching work as long as storage is granted", "statement": "As long as the operating system grants 64 bytes per letter of the names and words given to the matcher and its filters (and that is below 4 GiB), every index call without empty words and every search succeeds, and no history of calls ends early; and whenever one of them ends with runtime_error, the system did refuse a size within those bounds.", "quantifier": "every history of calls on a matcher, every corpus and query, every operating system that grants or refuses any sizes", "why_tests_cant": "The point at which storage runs out depends on the whole history; a test sees one history on one system.", "anchors": ["src/Matcher.cc:Matcher::index", "src/Matcher.cc:Matcher::match", "src/Trie.cc:Trie::expand", "src/WordStore.cc:WordStore::getID", "src/LevenshteinIndex.cc:LevenshteinIndex::insertWord"]}
{"id": "C107", "title": "queryapp shows exactly the lines close to the query", "statement": "On a data file of lines the program queryapp opens its window, and every search shows one row for each non-empty line with a word close enough to a word of the query, best first, with the relevancies of the search, and leaves the program as it was. Without an argument the programs exit with status 0, without the file with status 1.", "quantifier": "every data file of lines, every sequence of queries, every operating system that grants the storage", "why_tests_cant": "All files, in batches of any number, and all queries.", "anchors": ["tools/queryapp.cc:build_matcher", "tools/queryapp.cc:doSearch", "tools/queryapp.cc:main"]}
{"id": "C108", "title": "The graphical programs never crash", "statement": "Whatever the arguments, the bytes of the data files and the texts typed into the window, queryapp, numberpad, hudtest and sctest end with one of their exit statuses or show a window in which every search ends with rows or with an empty list.", "quantifier": "every list of arguments, every file and directory contents, every sequence of typed texts, every operating system", "why_tests_cant": "All byte strings as files, including ones that are not text, and all points at which storage is refused.", "anchors": ["tools/queryapp.cc", "tools/numberpad.cc", "tools/hudtest.cc", "tools/sctest.cc"]}
{"id": "C109", "title": "DOS line endings make no difference to queryapp", "statement": "A data file with DOS line endings shows the same rows for every query as the file without them.", "quantifier": "every file of lines and query", "why_tests_cant": "All files.", "anchors": ["tools/queryapp.cc:build_matcher", "tools/numberpad.cc:build_matcher", "tools/hudtest.cc:build_matcher"]}
{"id": "C110", "title": "hudtest shows the commands close to the query", "statement": "On a file of lines path>command hudtest shows for every query one row with path and command for each line with a command that has a word of its path, command or alias close enough to a word of the query; path words count 0.3 and alias words 0.8 times. Substring prices and the standard errors are in force.", "quantifier": "every file of lines and query", "why_tests_cant": "All files and queries.", "anchors": ["tools/hudtest.cc:build_matcher", "tools/hudtest.cc:splitShowableParts", "tools/hudtest.cc:doSearch"]}
{"id": "C111", "title": "numberpad finds a line by the keys of its letters", "statement": "In numberpad a line is shown when the keys pressed carry, in order, the letters of one of its words or of a part of it that leaves out few letters. Each button types its digit, its label names the letters on its key, and every digit has a button.", "quantifier": "every file, word and sequence of keys", "why_tests_cant": "All words and key sequences.", "anchors": ["tools/numberpad.cc:build_matcher", "tools/numberpad.cc:padPress", "tools/numberpad.cc:build_numberpad", "src/ErrorValues.cc:ErrorValues::addNumberpadErrors"]}
{"id": "C112", "title": "What is typed into numberpad is data", "statement": "The text typed into numberpad is only a pattern for grep: the command given to the shell does nothing but search the data file, whatever is typed; for digits the pattern finds exactly the lines that start with a character of each key.", "quantifier": "every text, file name and sequence of keys", "why_tests_cant": "All texts, also hostile ones.", "anchors": ["tools/numberpad.cc:doExactMatch", "tools/numberpad.cc:doSearch"]}
{"id": "C113", "title": "sctest shows the desktop files close to the query", "statement": "sctest shows for every query one row for each desktop file that is not hidden, has a name, and has a word of its last name, generic name or comment close enough to a word of the query; generic names count 0.6 and comments 0.3 times.", "quantifier": "every directory of desktop files and query", "why_tests_cant": "All directories, files and queries.", "anchors": ["tools/sctest.cc:processFile", "tools/sctest.cc:buildCorpus", "tools/sctest.cc:build_matcher"]}
{"id": "C114", "title": "A bad desktop file does not hide the others", "statement": "A desktop file that cannot be opened or is not UTF-8 is left out, and sctest shows the others.", "quantifier": "every directory with bad files at any place", "why_tests_cant": "All directories.", "anchors": ["tools/sctest.cc:processFile", "tools/sctest.cc:buildCorpus", "tools/sctest.cc:main"]}
{"id": "C115", "title": "singleword shows exactly the words close to the query", "statement": "singleword shows for each word typed and each limit the words of its file within the limit, in lower case, each once, with their errors, by increasing error; what is not a word empties list and entry. It does not crash, whatever the file and the text.", "quantifier": "every file, text and limit", "why_tests_cant": "All files, texts and limits.", "anchors": ["tools/singleword.cc:readData", "tools/singleword.cc:main", "tools/singleword.cc:doSearch"]}
{"id": "C116", "title": "A trie can be walked from node to node", "statement": "After any insertions, from the node of every prefix of an inserted word the list of siblings leads to exactly the nodes of the prefixes one letter longer, each letter once; parents and getSiblingTo lead back; the id at a node is the first one its word was inserted with, or the reserved one if it was not inserted.", "quantifier": "every history of insertions, every prefix of an inserted word", "why_tests_cant": "All tries; the walk depends on every earlier insertion.", "anchors": ["src/Trie.cc:Trie::getSiblingList", "src/Trie.cc:Trie::getNextSibling", "src/Trie.cc:Trie::hasSibling", "src/Trie.cc:Trie::getParent", "src/Trie.cc:Trie::getSiblingTo", "include/Trie.hh:Trie"]}
{"id": "C117", "title": "Relevancies are bounded and positive", "statement": "If no field weighs more than K, the relevancy of a document found by match is finite and at most K times the number of (field, word) pairs of the document that are close to a query word (as long as that product is at most 2^53): rounding never pushes it above. If every field weighs at least a millionth, every document found has a relevancy above zero.", "quantifier": "every history, query, set of weights and number of matching words", "why_tests_cant": "All sums of rounded products, of any length.", "anchors": ["src/Matcher.cc:Matcher::match", "src/Matcher.cc:calculateRelevancy", "include/IndexWeights.hh:IndexWeights"]}
{"id": "C118", "title": "What is found depends only on the words the documents have", "statement": "Two matchers whose documents have the same words in the same fields, and whose prices are the same, find the same documents for every query and filter, however often, in whatever order and in however many calls the documents were indexed, and whatever the weights. In particular, indexing documents again does not change which documents are found (it does change relevancies).", "quantifier": "every pair of histories, every query and filter", "why_tests_cant": "All pairs of histories and all queries.", "anchors": ["src/Matcher.cc:Matcher::index", "src/Matcher.cc:Matcher::match"]}
{"id": "C119", "title": "Running out of memory is never undefined behaviour", "statement": "Whichever allocations fail with bad_alloc, a program that makes, copies, assigns, moves, extends and destroys Words, WordLists, Documents and Corpora, and catches what they throw, does nothing undefined: every object can be used and destroyed after a failed call.", "quantifier": "every program of these calls, every choice of allocations that fail", "why_tests_cant": "The number of points where memory can run out has no bound, and each leaves another state behind.", "anchors": ["src/Word.cc:Word::duplicateFrom", "src/Word.cc:Word::operator=", "src/ColumbusHelpers.cc:utf8ToInternal", "src/WordList.cc:WordList::operator=", "src/Document.cc:Document::addText", "src/Corpus.cc:Corpus::addDocument"]}
{"id": "C120", "title": "A call that runs out of memory has no effect and says so", "statement": "A call on a Word, WordList, Document or Corpus either returns and has its whole effect, or throws bad_alloc (or the exception it throws with memory enough) and leaves every object as it was.", "quantifier": "every program of these calls, every choice of allocations that fail", "why_tests_cant": "All points of failure in all programs.", "anchors": ["src/Word.cc:Word::convertString", "src/ColumbusHelpers.cc:utf8ToInternal", "src/WordList.cc:WordList::addWord", "src/Document.cc:Document::addText", "src/Corpus.cc:Corpus::addDocument"]}
{"id": "C121", "title": "Running out of memory leaks nothing", "statement": "Once every object of a program of such calls is destroyed, everything allocated is freed, whichever allocations failed on the way; never is more freed than was allocated.", "quantifier": "every program of these calls, every choice of allocations that fail", "why_tests_cant": "All points of failure in all programs.", "anchors": ["src/Word.cc:Word::asUtf8", "src/ColumbusHelpers.cc:utf8ToInternal", "src/ColumbusHelpers.cc:split", "src/WordList.cc:WordList::WordList", "src/Document.cc:Document::Document"]}
{"id": "C122", "title": "A Matcher gives back what it takes from the operating system", "statement": "A program that makes, uses and destroys any number of Matchers has open exactly one temporary file for the words of each Matcher it has not destroyed, and one for each field in which that Matcher indexed a word; the same number of mappings; none once all are destroyed. A Matcher can always be destroyed, whatever was refused before, and Matchers used in turn do not disturb each other.", "quantifier": "every program of such calls on any number of Matchers, every system that refuses some requests", "why_tests_cant": "The number of Matchers, fields and calls has no bound, and the system can refuse any request.", "anchors": ["src/Matcher.cc:Matcher::~Matcher", "src/Matcher.cc:MatcherPrivate", "src/Trie.cc:Trie::~Trie", "src/WordStore.cc:WordStore::~WordStore", "src/LevenshteinIndex.cc:LevenshteinIndex::~LevenshteinIndex"]}
{"id": "C123", "title": "A Matcher that ran out of memory can still be used", "statement": "Whichever allocations fail with bad_alloc, a program that catches it and goes on using the same Matcher sees nothing undefined: every later call to index, match, onlineMatch, and to the prices and weights, runs out of memory again or ends as it would on a Matcher that always had enough; once there is memory enough again, the latter.", "quantifier": "every history of calls, every choice of allocations that fail", "why_tests_cant": "The number of points where memory can run out has no bound, and each leaves another half-made index behind.", "anchors": ["src/Matcher.cc:Matcher::index", "src/Matcher.cc:Matcher::buildIndexes", "src/Matcher.cc:Matcher::addToIndex", "src/Matcher.cc:ReverseIndex::add", "src/WordStore.cc:WordStore::getID", "src/LevenshteinIndex.cc:LevenshteinIndex::insertWord"]}
{"id": "C124", "title": "After running out of memory searches find what was indexed until then", "statement": "After calls some of which ran out of memory, a search finds exactly the documents that match by what was indexed: all of every call that returned, and a beginning of the words of every call that ran out. Once the calls that ran out have been repeated with success, searches find what they would have found had memory never run out.", "quantifier": "every history of calls, every choice of allocations that fail, every query and filter", "why_tests_cant": "All points of failure in all histories, and all queries after them.", "anchors": ["src/Matcher.cc:Matcher::index", "src/Matcher.cc:Matcher::buildIndexes", "src/Matcher.cc:Matcher::match", "src/WordStore.cc:WordStore::getID", "src/LevenshteinIndex.cc:LevenshteinIndex::insertWord"]}
{"id": "C125", "title": "What was typed exactly comes first", "statement": "If the text of the given field of a document is the query, up to the order of the words, then onlineMatch lists that document, and before every document whose text in that field is something else.", "quantifier": "every history of calls, every query, every field, every pair of documents", "why_tests_cant": "All corpora, weights, prices and queries: the bonus for a perfect match competes with a sum of rounded products.", "anchors": ["src/Matcher.cc:Matcher::onlineMatch", "src/Matcher.cc:calculateRelevancy", "include/IndexWeights.hh:IndexWeights::setWeight"]}
{"id": "C126", "title": "Error prices when memory runs out", "statement": "A call on an ErrorValues object that runs out of memory has no effect, or only some of its price changes, and can be repeated: when the repeated call returns, the prices are as if the first had not failed. Nothing is lost.", "quantifier": "every history of calls on an ErrorValues object, every choice of allocations that fail, every pair of letters", "why_tests_cant": "All points of failure in all histories of calls.", "anchors": ["src/ErrorValues.cc:ErrorValues::setError", "src/ErrorValues.cc:ErrorValues::setGroupError", "src/ErrorValues.cc:ErrorValues::addAccents", "src/ErrorValues.cc:ErrorValues::addKeyboardErrors", "src/ErrorValues.cc:ErrorValues::addNumberpadErrors", "src/ErrorValues.cc:ErrorValues::clearErrors", "src/ErrorValues.cc:ErrorValues::ErrorValues"]}
{"id": "C127", "title": "Results, filters and parameters when memory runs out", "statement": "Whichever allocations fail, a statement on MatchResults, ResultFilter or SearchParameters objects either has the effect it has with memory enough, or throws bad_alloc and changes no object. Nothing is undefined but adding results to themselves.", "quantifier": "every program on any number of such objects, every choice of allocations that fail", "why_tests_cant": "All points of failure in all programs.", "anchors": ["src/MatchResults.cc:MatchResults::addResult", "src/MatchResults.cc:MatchResults::addResults", "src/MatchResults.cc:MatchResults::copyResult", "src/MatchResults.cc:MatchResults::operator=", "src/ResultFilter.cc:ResultFilter::addNewTerm", "src/ResultFilter.cc:ResultFilter::addNewSubTerm", "src/SearchParameters.cc:SearchParameters::addNonsearchingField"]}
{"id": "C128", "title": "Results, filters and parameters lose no memory", "statement": "After a program on MatchResults, ResultFilter and SearchParameters objects that destroyed all it made nothing is allocated, and nothing was freed twice, whichever allocations failed.", "quantifier": "every program on any number of such objects, every choice of allocations that fail", "why_tests_cant": "All points of failure in all programs.", "anchors": ["src/MatchResults.cc:MatchResults::MatchResults", "src/ResultFilter.cc:ResultFilter::ResultFilter", "src/SearchParameters.cc:SearchParameters::SearchParameters", "src/SearchParameters.cc:SearchParameters::~SearchParameters"]}
{"id": "C129", "title": "A C program that runs out of memory goes on without the calls that failed", "statement": "Whichever allocations fail, a function of the C interface either does what it does with memory enough, or has no effect and returns the value that means failure if it returns any (NULL, 0, -1, the greatest document number). It never crashes, and what the handles stand for is what the calls that succeeded give alone.", "quantifier": "every sequence of calls on words, documents, corpora and results, every choice of allocations that fail", "why_tests_cant": "All points of failure in all programs.", "anchors": ["src/ColumbusCAPI.cc:col_word_new", "src/ColumbusCAPI.cc:col_document_new", "src/ColumbusCAPI.cc:col_document_add_text", "src/ColumbusCAPI.cc:col_corpus_add_document", "src/ColumbusCAPI.cc:col_match_results_get_id"]}
{"id": "C130", "title": "A C program that runs out of memory loses no memory", "statement": "When a C program has deleted all its handles nothing is allocated and nothing was freed twice, whichever allocations failed on the way.", "quantifier": "every sequence of calls on words, documents, corpora and results, every choice of allocations that fail", "why_tests_cant": "All points of failure in all programs.", "anchors": ["src/ColumbusCAPI.cc:col_word_new", "src/ColumbusCAPI.cc:col_word_delete", "src/ColumbusCAPI.cc:col_document_add_text", "src/ColumbusCAPI.cc:col_document_delete", "src/ColumbusCAPI.cc:col_corpus_add_document", "src/ColumbusCAPI.cc:col_corpus_delete"]}
{"id": "C131", "title": "A C program whose matcher ran out of memory can go on with it", "statement": "Whichever allocations fail, the functions of the C interface on a matcher, its prices and its weights return: the value that means failure if they ran out of memory and return any. Later searches find what was indexed until then, as from C++ (C124), and a program can tell from the values returned whether everything was indexed.", "quantifier": "every sequence of calls of the C interface, every choice of allocations that fail, every text searched for", "why_tests_cant": "All points of failure in all programs, and all searches after them.", "anchors": ["src/ColumbusCAPI.cc:col_matcher_new", "src/ColumbusCAPI.cc:col_matcher_index", "src/ColumbusCAPI.cc:col_matcher_match", "src/ColumbusCAPI.cc:col_index_weights_set_weight", "src/Matcher.cc:Matcher::index"]}
{"id": "C132", "title": "A WordStore that ran out of memory keeps its numbers", "statement": "A getID that runs out of memory can be caught and the WordStore used further: later calls give a number or run out again, a repeated call gives the number it gave before, every number given stands for the word it was given for and for no other, and nothing is undefined.", "quantifier": "every sequence of getID calls, every choice of allocations that fail", "why_tests_cant": "All points of failure in all histories of calls.", "anchors": ["src/WordStore.cc:WordStore::getID", "src/WordStore.cc:WordStore::getWord", "src/WordStore.cc:WordStore::hasWord"]}
{"id": "C133", "title": "A LevenshteinIndex that ran out of memory can be searched", "statement": "An insertWord that runs out of memory can be caught and the index used further. It then has had no effect, or that of the whole insertion; the counts are those of the insertions that returned, the words are those inserted, and every search answers as on an index that did not run out of memory.", "quantifier": "every sequence of insertions, every choice of allocations that fail, every search afterwards", "why_tests_cant": "All points of failure in all histories of calls, and all searches after them.", "anchors": ["src/LevenshteinIndex.cc:LevenshteinIndex::insertWord", "src/LevenshteinIndex.cc:LevenshteinIndex::findWords", "src/LevenshteinIndex.cc:LevenshteinIndex::wordCount", "src/LevenshteinIndex.cc:LevenshteinIndex::maxCount", "src/LevenshteinIndex.cc:LevenshteinIndex::hasWord"]}
{"id": "C134", "title": "A search that ran out of memory harms nothing", "statement": "A findWords that runs out of memory leaves the index as it was and keeps the matches that were collected before; those it added are matches that the whole search finds. It frees what it allocated.", "quantifier": "every index, query, prices and limit, every choice of allocations that fail", "why_tests_cant": "All points of failure in all searches.", "anchors": ["src/LevenshteinIndex.cc:LevenshteinIndex::findWords", "src/LevenshteinIndex.cc:LevenshteinIndex::searchRecursive", "src/ErrorMatrix.cc:ErrorMatrix::ErrorMatrix", "src/ErrorMatrix.cc:ErrorMatrix::~ErrorMatrix", "src/IndexMatches.cc:IndexMatches::addMatch"]}
{"id": "C135", "title": "Weights and statistics survive running out of memory", "statement": "A setWeight of IndexWeights or a wordProcessed of MatcherStatistics that runs out of memory has no effect. The object then has the weights and the counts that the calls which returned give alone, and when it is deleted nothing it allocated is left.", "quantifier": "every sequence of calls, every choice of allocations that fail", "why_tests_cant": "All points of failure in all histories of calls.", "anchors": ["src/IndexWeights.cc:IndexWeights::setWeight", "src/IndexWeights.cc:IndexWeights::getWeight", "src/IndexWeights.cc:IndexWeights::~IndexWeights", "src/MatcherStatistics.cc:MatcherStatistics::wordProcessed", "src/MatcherStatistics.cc:MatcherStatistics::getTotalWordCount"]}
{"id": "C136", "title": "Assigning a Document is all or nothing", "statement": "An assignment of one Document to another that runs out of memory leaves the Document as it was and loses no memory; one that returns makes the two equal. Either way the Document can be used and destroyed.", "quantifier": "every program before the assignment, every two Documents in it, every choice of allocations that fail", "why_tests_cant": "All points of failure in all programs.", "anchors": ["src/Document.cc:Document::operator=", "src/WordList.cc:WordList::WordList", "src/Document.cc:Document::~Document"]}
{"id": "C137", "title": "Field names collected when memory runs out", "statement": "A getFieldNames that runs out of memory leaves the WordList with what it had and the first of the names, in order; the Document is as before, the WordList can be used and destroyed, and no memory is lost. One that returns has added all names.", "quantifier": "every program before and after the call, every Document and WordList in it, every choice of allocations that fail", "why_tests_cant": "All points of failure in all programs.", "anchors": ["src/Document.cc:Document::getFieldNames", "src/WordList.cc:WordList::addWord"]}
