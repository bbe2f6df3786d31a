{"id": "C01", "title": "Accurate mode is lossless and total", "statement": "For every text s, list(cut(s, HMM=h)) (h = True or False) terminates without an exception and ''.join of the result equals s, for every dictionary whose total is positive and whose frequencies are non-negative, and for every HMM probability table. If the dictionary is not of that kind, an exception may end the generator, but what was yielded before is still a prefix of s.", "quantifier": "all texts, all dictionaries, all HMM tables, both HMM settings", "why_tests_cant": "texts and dictionaries are unbounded; a loss may need one particular interaction of dictionary, route and HMM labels", "anchors": ["jieba/__init__.py: Tokenizer.cut, __cut_DAG, __cut_DAG_NO_HMM, get_DAG, calc", "jieba/finalseg/__init__.py: cut, __cut, viterbi"]}
{"id": "C02", "title": "Accurate mode never yields an empty word", "statement": "No element of list(cut(s, HMM=h)) is the empty string; in full mode (cut_all=True) empty strings CAN be yielded (refutation with witness).", "quantifier": "all texts, dictionaries, HMM tables", "why_tests_cant": "universally quantified over texts", "anchors": ["jieba/__init__.py: Tokenizer.cut"]}
{"id": "C03", "title": "Full mode loses no character", "statement": "list(cut(s, cut_all=True)) covers s: every yielded piece is a stretch of s, or (if it starts with an ASCII letter or digit) several stretches of s put together, and every position of s lies in one of these stretches. The pieces starting with a letter or digit need not be subsequences of s: characters can be repeated (refutation).", "quantifier": "all texts and dictionaries", "why_tests_cant": "a lost character depends on an arbitrary combination of overlapping dictionary words (see Changelog 0.42, item 2)", "anchors": ["jieba/__init__.py: Tokenizer.__cut_all, cut"]}
{"id": "C04", "title": "Full mode reports every dictionary word", "statement": "Every dictionary word (frequency non-zero, at least two characters) that occurs in s inside a run of word characters and does not start with an ASCII letter or digit is yielded by cut(s, cut_all=True). For words that start with a letter or digit the claim is false (refutation).", "quantifier": "all texts, all dictionaries reachable by API calls, all occurrences", "why_tests_cant": "completeness over all occurrences in all texts", "anchors": ["jieba/__init__.py: Tokenizer.__cut_all, get_DAG"]}
{"id": "C05", "title": "Full mode yields only dictionary words, characters and alphanumeric runs", "statement": "Every non-empty piece of cut(s, cut_all=True) is a dictionary word of non-zero frequency occurring in s, a single character of s, a maximal chunk of non-word non-space text, a line break, or a concatenation of such words starting with an ASCII letter or digit; the last kind need not be a substring of s (refutation).", "quantifier": "all texts and dictionaries", "why_tests_cant": "soundness over all outputs", "anchors": ["jieba/__init__.py: Tokenizer.__cut_all"]}
{"id": "C06", "title": "Word graph is exact", "statement": "get_DAG(s) maps every k to exactly the increasing list of all end positions i such that s[k:i+1] is a dictionary word of non-zero frequency, or to [k] when there is none, for every dictionary state reachable through the API.", "quantifier": "all texts, all start positions, all API histories", "why_tests_cant": "the scan stops at the first non-prefix, so it is complete only because of an invariant of every history of dictionary updates", "anchors": ["jieba/__init__.py: Tokenizer.get_DAG, gen_pfdict, add_word"]}
{"id": "C07", "title": "HMM=False picks a most probable segmentation", "statement": "On every run of word characters, cut(s, HMM=False) follows a candidate segmentation whose probability (product of frequency/total) is at least that of every other candidate segmentation; in binary64 arithmetic the same holds for the floating-point log score.", "quantifier": "all runs, all dictionaries, all (exponentially many) candidate segmentations", "why_tests_cant": "exponentially many segmentations; rounding", "anchors": ["jieba/__init__.py: Tokenizer.calc, __cut_DAG_NO_HMM"]}
{"id": "C08", "title": "Ties are broken towards the longest word", "statement": "Among equally scored candidate segmentations of the rest of the run, the one whose next word is longest is chosen.", "quantifier": "all runs and dictionaries with tied segmentations", "why_tests_cant": "needs all ties", "anchors": ["jieba/__init__.py: Tokenizer.calc"]}
{"id": "C09", "title": "HMM=False invents no word", "statement": "Every word of cut(s, HMM=False) is a dictionary word of non-zero frequency, a single character (or CR LF), or a run of ASCII letters and digits.", "quantifier": "all texts and dictionaries", "why_tests_cant": "soundness over all outputs", "anchors": ["jieba/__init__.py: Tokenizer.__cut_DAG_NO_HMM"]}
{"id": "C10", "title": "Search mode refines the accurate mode", "statement": "cut_for_search(s) is the sequence of cut(s) with, immediately before each word, exactly the 2-character dictionary words inside it (if the word is longer than 2), then the 3-character dictionary words inside it (if longer than 3), each in left-to-right order.", "quantifier": "all texts, dictionaries, HMM settings", "why_tests_cant": "all positions in all words", "anchors": ["jieba/__init__.py: Tokenizer.cut_for_search"]}
{"id": "C11", "title": "tokenize offsets tile the text", "statement": "tokenize(s) in default mode yields (w, start, end) with s[start:end] == w, first start 0, each start equal to the previous end, last end len(s), and its words are cut(s).", "quantifier": "all texts, dictionaries", "why_tests_cant": "off-by-one anywhere in any text", "anchors": ["jieba/__init__.py: Tokenizer.tokenize"]}
{"id": "C12", "title": "tokenize in search mode points at the right text", "statement": "Every (w, start, end) of tokenize(s, mode='search') satisfies s[start:end] == w, and the words are exactly cut_for_search(s) in the same order. What is reported is the tokens of the default mode and every occurrence of a dictionary word of two or three characters that lies inside one of them without being it, each just before the token it lies in, the two-character ones first, by increasing start.", "quantifier": "all texts, dictionaries", "why_tests_cant": "off-by-one anywhere in any text", "anchors": ["jieba/__init__.py: Tokenizer.tokenize, cut_for_search"]}
{"id": "C13", "title": "HMM stage is lossless and follows the BMES grammar", "statement": "For every run of Han characters the HMM stage yields non-empty words whose concatenation is the run, whatever the probability tables; each word is spelled by a label block B M* E or S (the first word may start with M or E).", "quantifier": "all runs, all probability tables", "why_tests_cant": "unbounded runs, arbitrary float tables", "anchors": ["jieba/finalseg/__init__.py: viterbi, __cut, cut"]}
{"id": "C14", "title": "HMM stage is a correct Viterbi decoder", "statement": "The label sequence used by the HMM stage has a score at least that of every label sequence that respects the allowed transitions and ends in E or S.", "quantifier": "all runs, all tables satisfying the stated arithmetic laws, all label sequences", "why_tests_cant": "exponentially many label sequences", "anchors": ["jieba/finalseg/__init__.py: viterbi"]}
{"id": "C15", "title": "A deleted word is not produced any more", "statement": "After del_word(w) (len(w) >= 2, w contains a Han character), and any later API calls that do not add w again, cut (both HMM settings, and full mode when w starts with a non-alphanumeric) and cut_for_search never yield w. For purely alphanumeric w it is false (refutation), and posseg.cut can still yield w (refutation).", "quantifier": "all texts, dictionaries, HMM tables, histories after the deletion", "why_tests_cant": "all later histories and texts", "anchors": ["jieba/__init__.py: Tokenizer.del_word, add_word", "jieba/finalseg/__init__.py: add_force_split, cut", "jieba/posseg/__init__.py: __cut_detail"]}
{"id": "C16", "title": "add_word changes exactly what it says", "statement": "add_word(w, f) sets w to f, adds f to the total, gives frequency 0 to the prefixes of w that were absent, and changes no other entry; the tag table changes only at w and only if a non-empty tag is given; w is force-split exactly when f = 0.", "quantifier": "all dictionaries, words, frequencies, tags", "why_tests_cant": "frame over the whole dictionary", "anchors": ["jieba/__init__.py: Tokenizer.add_word"]}
{"id": "C17", "title": "Dictionary stays prefix closed", "statement": "In every state reachable by building a dictionary and any sequence of add_word / del_word / suggest_freq / load_userdict calls (also failing ones), every non-empty prefix of an entry is an entry.", "quantifier": "all dictionary files, all histories", "why_tests_cant": "all histories", "anchors": ["jieba/__init__.py: Tokenizer.gen_pfdict, add_word, load_userdict, suggest_freq"]}
{"id": "C18", "title": "Total never undercounts", "statement": "With non-negative frequencies, in every reachable state the total is at least the sum of all entries (hence at least each entry); re-adding or deleting a word never lowers it. Equality can fail (refutation).", "quantifier": "all dictionary files, all histories", "why_tests_cant": "all histories", "anchors": ["jieba/__init__.py: Tokenizer.gen_pfdict, add_word"]}
{"id": "C19", "title": "add_word without a frequency makes the word come out", "statement": "For every Han-only word w, after add_word(w) the call cut(w, HMM=False) returns [w] for every reachable dictionary: in exact arithmetic always, in binary64 floating point whenever len(w)^2 * total <= 2^41 and math.log is accurate to 2^-48. With ASCII letters in the word the claim is false (refutation).", "quantifier": "all words, all reachable dictionaries with positive total", "why_tests_cant": "all dictionaries and all competing segmentations", "anchors": ["jieba/__init__.py: Tokenizer.add_word, suggest_freq, calc"]}
{"id": "C20", "title": "suggest_freq on segments splits the word", "statement": "suggest_freq((a, b, ...), tune=True) is meant to make cut(HMM=False) split the joined word. It never raises the frequency of the joined word; the intended splitting is false in general (refutation) and holds under a stated bound, in exact arithmetic and, with a slightly smaller bound, in binary64 floating point.", "quantifier": "all segment lists, all dictionaries", "why_tests_cant": "all competing segmentations", "anchors": ["jieba/__init__.py: Tokenizer.suggest_freq"]}
{"id": "C21", "title": "Querying does not change the dictionary", "statement": "cut, cut_for_search, tokenize, get_DAG and suggest_freq(tune=False) leave frequencies, total, tags and forced splits as they were.", "quantifier": "all calls in all states", "why_tests_cant": "frame over the whole state", "anchors": ["jieba/__init__.py: Tokenizer"]}
{"id": "C22", "title": "load_userdict is the sequence of its add_word calls", "statement": "Loading a user dictionary equals calling add_word for each non-blank line in order (last duplicate wins); a line that is not UTF-8 raises ValueError, a text line with a line break inside raises AttributeError, and exactly the words of the lines before it are kept.", "quantifier": "all line sequences", "why_tests_cant": "all files", "anchors": ["jieba/__init__.py: Tokenizer.load_userdict"]}
{"id": "C23", "title": "User dictionary line format", "statement": "A line 'word', 'word freq', 'word tag' or 'word freq tag' is parsed into exactly these parts; the parsed word is always the shortest possible one and re-assembling the parts gives the line.", "quantifier": "all lines; words containing blanks included", "why_tests_cant": "all strings; lazy/greedy interplay of the regular expression", "anchors": ["jieba/__init__.py: re_userdict, Tokenizer.load_userdict"]}
{"id": "C24", "title": "Dictionary files are read faithfully", "statement": "For a well-formed dictionary file the frequency of a word is the one on its last line, other entries are exactly the proper prefixes with frequency 0, and the total is the sum over all lines; a malformed line raises ValueError and no dictionary is produced.", "quantifier": "all dictionary files", "why_tests_cant": "all files", "anchors": ["jieba/__init__.py: Tokenizer.gen_pfdict"]}
{"id": "C25", "title": "Cache writing is crash safe", "statement": "If the process dies at any point of initialize(), the next initialize() (of an unchanged dictionary) succeeds and yields the dictionary of the file; the cache file is at all times absent, the old one or a complete new one.", "quantifier": "all crash points, all cache contents before", "why_tests_cant": "all crash points", "anchors": ["jieba/__init__.py: Tokenizer.initialize"]}
{"id": "C26", "title": "Cache is never older than a custom dictionary", "statement": "initialize() with a custom dictionary never uses a cache whose modification time is not later than that of the dictionary; consequently a dictionary saved after the last cache write is always re-read. A write between reading and caching is not detected (refutation).", "quantifier": "all file-system histories with monotone clock", "why_tests_cant": "all histories of writes and clocks", "anchors": ["jieba/__init__.py: Tokenizer.initialize"]}
{"id": "C27", "title": "Default dictionary cache can be stale", "statement": "For the default dictionary the cache is trusted unconditionally: replacing the dictionary file does not change what initialize() loads (refutation of freshness).", "quantifier": "all default-dictionary histories", "why_tests_cant": "needs history of files", "anchors": ["jieba/__init__.py: Tokenizer.initialize"]}
{"id": "C28", "title": "Lazy initialisation is thread safe", "statement": "When any number of threads call segmentation functions of one tokenizer concurrently, under every interleaving each thread that gets past the initialisation check sees the complete dictionary, the build runs at most once, and no thread deadlocks.", "quantifier": "all thread counts, all schedules", "why_tests_cant": "exponentially many schedules", "anchors": ["jieba/__init__.py: Tokenizer.initialize, check_initialized"]}
{"id": "C29", "title": "A failed initialisation leaves the tokenizer unchanged", "statement": "If the dictionary file is malformed, initialize() raises ValueError, the tokenizer stays uninitialised with its previous frequencies, the lock is released, and a later initialize() with a repaired file succeeds.", "quantifier": "all malformed files, all previous states", "why_tests_cant": "all files and states", "anchors": ["jieba/__init__.py: Tokenizer.initialize"]}
{"id": "C30", "title": "Parallel mode gives the same words", "statement": "With enable_parallel, cut(s) and cut_for_search(s) in accurate mode yield exactly the words of the sequential functions, for every text (line breaks of all kinds included).", "quantifier": "all texts, dictionaries, HMM settings", "why_tests_cant": "all texts; interplay of splitlines and the separator regex", "anchors": ["jieba/__init__.py: _pcut, _pcut_for_search, cut"]}
{"id": "C31", "title": "Parallel full mode", "statement": "In full mode the parallel result equals the sequential one up to empty strings; exact equality is false (refutation).", "quantifier": "all texts, dictionaries", "why_tests_cant": "all texts", "anchors": ["jieba/__init__.py: _pcut, cut"]}
{"id": "C32", "title": "Parallel workers use the dictionary of enable_parallel time", "statement": "Words added after enable_parallel() do not influence parallel cut until it is enabled again. After disable_parallel() and until it is enabled again, jieba.cut and jieba.cut_for_search give what the Tokenizer gives at that moment. After any history every call has an outcome.", "quantifier": "all histories", "why_tests_cant": "all histories", "anchors": ["jieba/__init__.py: enable_parallel, _pcut"]}
{"id": "C33", "title": "POS tagging is lossless", "statement": "''.join(p.word for p in posseg.cut(s)) == s and no word is empty, both HMM settings.", "quantifier": "all texts, dictionaries, tag tables, probability tables with BMES-valid transitions", "why_tests_cant": "all texts", "anchors": ["jieba/posseg/__init__.py: POSTokenizer.__cut_internal, __cut_DAG, __cut_detail, __cut", "jieba/posseg/viterbi.py: viterbi"]}
{"id": "C34", "title": "POS tagging and plain cutting agree without HMM", "statement": "For every text without '%' and '-', the words of posseg.cut(s, HMM=False) are cut(s, HMM=False). With these characters it is false (refutation).", "quantifier": "all texts, dictionaries", "why_tests_cant": "all texts", "anchors": ["jieba/posseg/__init__.py: POSTokenizer.__cut_DAG_NO_HMM, re_han_internal", "jieba/__init__.py: re_han_default"]}
{"id": "C35", "title": "POS tags come from the dictionaries", "statement": "In posseg.cut(s, HMM=False) every word is tagged with its most recent user tag, else its tag in the dictionary file, else 'x', or 'eng'/'m' as the code's rules say.", "quantifier": "all texts, histories", "why_tests_cant": "all histories", "anchors": ["jieba/posseg/__init__.py: makesure_userdict_loaded, load_word_tag"]}
{"id": "C36", "title": "User tags are consumed by the first POS tokenizer", "statement": "Two POSTokenizers over one Tokenizer do not both see a user tag, and posseg.initialize() forgets user tags (refutations of 'add_word tag is always honoured').", "quantifier": "histories of two POS tokenizers", "why_tests_cant": "needs histories", "anchors": ["jieba/posseg/__init__.py: makesure_userdict_loaded, initialize"]}
{"id": "C37", "title": "POS HMM never fails with the shipped tables", "statement": "posseg's Viterbi returns a route of the right length for every non-empty observation sequence, all of whose transitions are in the shipped transition table.", "quantifier": "all texts", "why_tests_cant": "all texts, and a finite check of the shipped tables", "anchors": ["jieba/posseg/viterbi.py: viterbi", "jieba/posseg/prob_trans.py", "jieba/posseg/char_state_tab.py"]}
{"id": "C38", "title": "TF-IDF returns the best keywords", "statement": "extract_tags(s, topK=k) returns at most k distinct keywords in non-increasing weight order, ties in order of first occurrence, and no omitted candidate weighs more than a returned one; k None or 0 returns all.", "quantifier": "all texts, dictionaries, IDF tables, k", "why_tests_cant": "all texts", "anchors": ["jieba/analyse/tfidf.py: TFIDF.extract_tags"]}
{"id": "C39", "title": "TF-IDF filters", "statement": "A word is a candidate exactly if it occurs in the segmentation with an allowed POS, has at least two characters after stripping, and its lower-case form is not a stop word.", "quantifier": "all texts, stop word sets, POS sets", "why_tests_cant": "all texts", "anchors": ["jieba/analyse/tfidf.py: TFIDF.extract_tags"]}
{"id": "C40", "title": "TF-IDF weights", "statement": "The weight of a candidate is (its number of occurrences) * idf / (number of candidate occurrences), idf defaulting to the median of the table.", "quantifier": "all texts, IDF tables", "why_tests_cant": "all texts", "anchors": ["jieba/analyse/tfidf.py: TFIDF.extract_tags, IDFLoader"]}
{"id": "C41", "title": "TextRank weights are normalised", "statement": "All TextRank weights lie in (0, 1] and the best keyword has weight exactly 1 (exact arithmetic).", "quantifier": "all texts", "why_tests_cant": "all graphs", "anchors": ["jieba/analyse/textrank.py: UndirectWeightedGraph.rank"]}
{"id": "C42", "title": "TextRank result order and size", "statement": "textrank returns at most topK distinct keywords in non-increasing weight order; no omitted one weighs more.", "quantifier": "all texts", "why_tests_cant": "all texts", "anchors": ["jieba/analyse/textrank.py: TextRank.textrank"]}
{"id": "C43", "title": "TextRank candidates", "statement": "A word is ranked exactly if it passes the filter and some other word occurrence passing the filter is at distance less than the span.", "quantifier": "all texts", "why_tests_cant": "all texts", "anchors": ["jieba/analyse/textrank.py: TextRank.textrank, pairfilter"]}
{"id": "C44", "title": "UTF-8 bytes and text are interchangeable", "statement": "cut(s.encode('utf-8')) equals cut(s) for every text of Unicode scalar values.", "quantifier": "all texts", "why_tests_cant": "all code points and lengths", "anchors": ["jieba/_compat.py: strdecode", "jieba/__init__.py: Tokenizer.cut"]}
{"id": "C45", "title": "Segmentation is local", "statement": "In accurate mode a character that is neither a word character nor CR/LF separates: cut(a + c + b) = cut(a) + [c] + cut(b). More generally a text can be divided at any place next to a non-word character that is not between CR and LF. In full mode this is false (refutation).", "quantifier": "all texts a, b, all separators, dictionaries", "why_tests_cant": "all texts", "anchors": ["jieba/__init__.py: Tokenizer.cut"]}
{"id": "C46", "title": "Tokenizers are independent without HMM", "statement": "No call on one Tokenizer changes the result of cut(HMM=False), full mode or get_DAG on another; with HMM=True deleting a word on one tokenizer changes the other (refutation).", "quantifier": "all histories of several tokenizers", "why_tests_cant": "all histories", "anchors": ["jieba/__init__.py: Tokenizer", "jieba/finalseg/__init__.py: Force_Split_Words"]}
{"id": "C47", "title": "set_dictionary on a missing file changes nothing", "statement": "set_dictionary(path) raises and leaves the tokenizer as it was if the file does not exist; otherwise the next use rebuilds from the new file, discarding words added before.", "quantifier": "all states, paths", "why_tests_cant": "all states", "anchors": ["jieba/__init__.py: Tokenizer.set_dictionary, initialize"]}
{"id": "C48", "title": "Paddle mode pairs words and tags", "statement": "The decoder of the paddle mode returns as many words as tags and the words concatenate to the decoded characters; characters outside its vocabulary come back as a space (so the mode is not lossless: refutation).", "quantifier": "all label/word id sequences", "why_tests_cant": "all sequences", "anchors": ["jieba/lac_small/utils.py: parse_result", "jieba/lac_small/reader_small.py: Dataset"]}
{"id": "C49", "title": "Command line prints the segmentation of each line", "statement": "For every input line the command prints the words joined by the delimiter; with an empty delimiter the output is the line.", "quantifier": "all inputs, delimiters", "why_tests_cant": "all inputs", "anchors": ["jieba/__main__.py"]}
{"id": "C50", "title": "Whoosh tokenizer offsets", "statement": "Every token of ChineseTokenizer has text[startchar:endchar] equal to its text, and tokens dropped are exactly the one-character non-Han ones.", "quantifier": "all texts", "why_tests_cant": "all texts", "anchors": ["jieba/analyse/analyzer.py: ChineseTokenizer.__call__"]}
{"id": "C51", "title": "A half-consumed generator stays lossless under dictionary updates", "statement": "If the dictionary is modified arbitrarily between next() calls on cut(s), the concatenation of all yielded words is still s.", "quantifier": "all texts, all interleavings of next() and dictionary updates", "why_tests_cant": "all interleavings", "anchors": ["jieba/__init__.py: Tokenizer.cut"]}
{"id": "C52", "title": "Words are stable under re-segmentation", "statement": "Every word produced by cut(s, HMM=False) (dictionary word, single character, group of letters and digits, line break) is itself segmented as one word by cut(w, HMM=False) (exact arithmetic). In binary64 floating point this is false: two exactly equal products can round apart, for an accurate math.log (refutation).", "quantifier": "all texts, dictionaries", "why_tests_cant": "all texts", "anchors": ["jieba/__init__.py: Tokenizer.calc"]}
{"id": "C53", "title": "IDF table loading", "statement": "After set_idf_path the table holds the last value of each word and the default is the upper median of all values; an empty file raises IndexError.", "quantifier": "all files", "why_tests_cant": "all files", "anchors": ["jieba/analyse/tfidf.py: IDFLoader.set_new_path"]}
{"id": "C54", "title": "Alphanumeric runs are merged maximally without HMM", "statement": "In cut(s, HMM=False) single-character route words that are ASCII letters or digits are merged with all adjacent ones and everything else is kept as routed.", "quantifier": "all texts", "why_tests_cant": "all texts", "anchors": ["jieba/__init__.py: Tokenizer.__cut_DAG_NO_HMM"]}
{"id": "C55", "title": "posseg.lcut with use_paddle ignores HMM", "statement": "posseg.lcut(s, HMM=False, use_paddle=True) without paddle installed equals posseg.lcut(s, HMM=True), not HMM=False (refutation of 'falls back to the requested mode').", "quantifier": "all texts", "why_tests_cant": "needs a text on which both differ", "anchors": ["jieba/posseg/__init__.py: lcut, cut"]}
{"id": "C56", "title": "Raising a frequency keeps a word whole", "statement": "If cut(w, HMM=False) is [w] for a dictionary word w containing a Han character, then after add_word(w, f) with f at least its current frequency, cut(w) is still [w], with and without HMM: in exact arithmetic, and in binary64 floating point whenever len(w)^2 * (total + f) <= 2^41.", "quantifier": "all healthy dictionaries, words, frequencies", "why_tests_cant": "all dictionaries and competing segmentations; the total grows too", "anchors": ["jieba/__init__.py: Tokenizer.add_word, calc"]}
{"id": "C57", "title": "The HMM is asked only about groups of single characters that are not a word", "statement": "With HMM=True every run of word characters gets the same best segmentation as with HMM=False; words of several characters are kept, and each maximal group of adjacent one-character words is kept as single characters if it has one character or is a dictionary word when joined, and is otherwise replaced by what the HMM stage makes of it.", "quantifier": "all texts, dictionaries, tables, forced splits", "why_tests_cant": "all dictionaries and texts; the two flush places of the loop must agree on every layout of groups", "anchors": ["jieba/__init__.py: Tokenizer.__cut_DAG"]}
{"id": "C58", "title": "The HMM stage on mixed text", "statement": "finalseg.cut divides a text into Han runs and other text; in a Han run it yields the words found by the HMM, taking apart those marked for splitting; elsewhere it yields the tokens 'letters and digits, optional fraction, optional percent sign' and the stretches between them, nothing lost.", "quantifier": "all texts, tables, forced splits", "why_tests_cant": "regular-expression backtracking on arbitrary text", "anchors": ["jieba/finalseg/__init__.py: cut"]}
{"id": "C59", "title": "Tagging does not depend on the hash seed", "statement": "The tagged words of posseg.cut(s) are the same for every order in which Python iterates over the sets of states in the Viterbi search.", "quantifier": "all texts, dictionaries, tables satisfying the stated conditions, all iteration orders (a different one for every set)", "why_tests_cant": "one process has one hash seed; orders cannot be enumerated", "anchors": ["jieba/posseg/viterbi.py: viterbi"]}
{"id": "C60", "title": "The tagger's Viterbi search is optimal", "statement": "The state sequence has the highest score among all sequences the search considers: states possible for each character and reachable, or any reachable state if the character's states are all unreachable.", "quantifier": "all non-empty texts, all tables satisfying the stated conditions, exact arithmetic and binary64", "why_tests_cant": "exponentially many sequences", "anchors": ["jieba/posseg/viterbi.py: viterbi"]}
{"id": "C61", "title": "Parallel tagging", "statement": "posseg.cut in parallel mode yields the tagged words of the sequential mode at the time of enable_parallel, whatever the scheduling and the lines a worker has handled before; tags given after enable_parallel are not honoured (refutation).", "quantifier": "all texts, histories, distributions of lines over workers", "why_tests_cant": "scheduling", "anchors": ["jieba/posseg/__init__.py: cut, _lcut_internal", "jieba/__init__.py: enable_parallel"]}
{"id": "C62", "title": "Tags with HMM", "statement": "In posseg.cut(s, HMM=True) the text is divided by the best segmentation as without HMM; words of several characters, single characters alone, and single characters whose group is a dictionary word have the tag of the table; the other groups are divided into Han runs with the words of a best BMES state sequence, numbers 'm', letters and digits 'eng', and the rest 'x'.", "quantifier": "all texts, dictionaries, tag tables, probability tables satisfying the stated conditions", "why_tests_cant": "all texts", "anchors": ["jieba/posseg/__init__.py: __cut_DAG, __cut_detail, __cut"]}
{"id": "C63", "title": "Dictionary files for the tagger", "statement": "From a file of lines 'word freq tag' the tag table has the tag of each word's last line. A line 'word freq', which the tokenizer accepts, makes the tagger raise ValueError; an empty line is skipped by the tagger and refused by the tokenizer.", "quantifier": "all files", "why_tests_cant": "all files", "anchors": ["jieba/posseg/__init__.py: load_word_tag", "jieba/__init__.py: gen_pfdict"]}
{"id": "C64", "title": "Tagging is local", "statement": "If a character that is no part of words (for the tagger) stands before or after a place that is not inside CR LF, tagging the text is tagging both parts.", "quantifier": "all texts, dictionaries, tables", "why_tests_cant": "all texts", "anchors": ["jieba/posseg/__init__.py: __cut_internal"]}
{"id": "C65", "title": "A failed IDF load is remembered as done", "statement": "If set_idf_path raises, extraction gives the same results as before the call. A later call with the same path reads nothing, whatever the file has become: it succeeds and installs the entries before the malformed line together with the previous default.", "quantifier": "all extractors, files, replacement files", "why_tests_cant": "all files and their repairs", "anchors": ["jieba/analyse/tfidf.py: IDFLoader.set_new_path", "jieba/analyse/tfidf.py: TFIDF.set_idf_path"]}
{"id": "C66", "title": "Stop words from a file", "statement": "After set_stop_words both extractors reject exactly the words they rejected before and those whose lower-case form is a line of the file; a missing or undecodable file changes neither. An entry that is not in lower case has no effect.", "quantifier": "all files, stop word sets, words", "why_tests_cant": "all files and words", "anchors": ["jieba/analyse/__init__.py: set_stop_words", "jieba/analyse/tfidf.py: KeywordExtractor.set_stop_words"]}
{"id": "C67", "title": "An empty allowPOS means different things", "statement": "With an empty allowPOS TextRank returns no keywords for any text, while TF-IDF applies no filter (refutation of the analogy).", "quantifier": "all texts, dictionaries", "why_tests_cant": "all texts", "anchors": ["jieba/analyse/textrank.py: TextRank.textrank", "jieba/analyse/tfidf.py: TFIDF.extract_tags"]}
{"id": "C68", "title": "Bytes where a function does not decode", "statement": "Bytes are not accepted everywhere text is: tokenize raises ValueError for every bytes argument, suggest_freq raises AttributeError for every non-empty one, and get_DAG of bytes knows no word, so every position is alone (the claim that suggest_freq treats UTF-8 bytes like the text is refuted). cut of bytes that are not UTF-8 equals cut of their GBK reading and never raises for the encoding.", "quantifier": "all texts, byte strings, dictionaries", "why_tests_cant": "all byte strings", "anchors": ["jieba/_compat.py: strdecode", "jieba/__init__.py: Tokenizer.tokenize", "jieba/__init__.py: Tokenizer.suggest_freq", "jieba/__init__.py: Tokenizer.get_DAG"]}
{"id": "C69", "title": "Command line with tags", "statement": "With -p the command prints for every line word, delimiter of the tag and tag of what the tagger gives for that line; -a is ignored.", "quantifier": "all inputs, delimiters, dictionaries", "why_tests_cant": "all inputs", "anchors": ["jieba/__main__.py"]}
{"id": "C70", "title": "Command line dictionary does not reach the tags", "statement": "With -D DICT -p the tags come from the default dictionary, not from DICT (the claim that they come from DICT is refuted).", "quantifier": "all inputs, dictionaries", "why_tests_cant": "all dictionaries", "anchors": ["jieba/__main__.py", "jieba/posseg/__init__.py: POSTokenizer.makesure_userdict_loaded"]}
{"id": "C71", "title": "A blank text reaches the paddle network with nothing", "statement": "In paddle mode the empty text returns early, but a non-empty text of white space only (and empty bytes given to the tagger) calls the network with no characters, so its failure is the caller's. A text with any other character never calls the network with nothing.", "quantifier": "all texts", "why_tests_cant": "all texts", "anchors": ["jieba/__init__.py: Tokenizer.cut", "jieba/posseg/__init__.py: cut", "jieba/lac_small/predict.py: get_sent", "jieba/lac_small/predict.py: get_result"]}
{"id": "C72", "title": "The Whoosh tokens are one object", "statement": "All tokens of one call of ChineseTokenizer are the same object: collected in a list they all show the last token's attributes (the claim that the list equals what is read one by one is refuted); objects made before are not touched.", "quantifier": "all texts, dictionaries, heaps", "why_tests_cant": "all texts", "anchors": ["jieba/analyse/analyzer.py: ChineseTokenizer.__call__"]}
{"id": "C73", "title": "TextRank weights are the ten-round damped vote over the co-occurrence links", "statement": "For every list of tagged words, the weights textrank computes are: link two filtered words once for each pair of places fewer than span apart, start every linked word at 1/N, ten times go through the words in word order and set each word's weight to 0.15 + 0.85 times the sum over its neighbours of link/degree times the neighbour's current weight, then map w to (w - min/10)/(max - min/10). Computed in binary64 the weights differ from the exact ones by a relative error of at most (length of the words times span + 1) / 2^42.", "quantifier": "All lists of tagged words, stop words, allowed tags, spans and flag settings; binary64 for length times span below 2^40.", "why_tests_cant": "Tests compare a few keyword lists; they cannot bound the accumulated rounding error of ten in-place sweeps over every possible graph, nor show that the sum over edge lists equals the sum over links for every text.", "anchors": ["jieba/analyse/textrank.py:13-54", "jieba/analyse/textrank.py:69-110"]}
{"id": "C74", "title": "DICT_WRITING makes a newcomer wait for the writer, but does not exclude two builders", "statement": "A thread that finds the lock of a dictionary in DICT_WRITING while another thread holds it does not get past it before there was a moment when nobody held the lock. That at most one Tokenizer of a process builds a given dictionary at a time is false (refutation): two threads that look before one of them has put its lock there both build. A thread that builds holds its own lock, and that lock is in DICT_WRITING under its dictionary's name, unless another thread of the process registered or removed one under that name meanwhile.", "quantifier": "All interleavings of any number of threads, Tokenizers and processes, kills included; one schedule for the refutation.", "why_tests_cant": "The race window is two lines wide and needs a particular schedule; a test cannot enumerate interleavings.", "anchors": ["jieba/__init__.py:104-109", "jieba/__init__.py:141-161"]}
{"id": "C75", "title": "A run is segmented by the dictionary of its beginning", "statement": "If the caller changes the dictionary between next() calls on cut(s, HMM=False) or cut(s, cut_all=True), every maximal run of word characters comes out as cut of that run alone with the dictionary as it was when the run was begun. With HMM=True this is false (refutation): FREQ is read again for every group of single characters.", "quantifier": "All texts, all histories of the dictionary between the calls of next(), accurate mode without HMM and full mode.", "why_tests_cant": "Tests do not interleave dictionary updates with a generator, and cannot do it at every position of every text.", "anchors": ["jieba/__init__.py:180-287", "jieba/__init__.py:320-336"]}
{"id": "C76", "title": "del_word acts at once on a half-consumed generator", "statement": "With HMM=True, a word of two or more Chinese characters that is in Force_Split_Words at the moment it would be yielded is not yielded as one word, unless it was a dictionary word at that moment or before.", "quantifier": "All texts, all histories of the dictionary and of the forced splits between the calls of next(), all positions.", "why_tests_cant": "As for C75: the moment at which a global set is read cannot be covered by examples.", "anchors": ["jieba/finalseg/__init__.py:81-100", "jieba/__init__.py:249-287"]}
{"id": "C77", "title": "Stop words only grow and never become keywords", "statement": "Both keyword extractors start with the same 31 English stop words. After any sequence of set_stop_words (module or method) and set_idf_path calls, failing or not, the stop words of an extractor are exactly those plus the lines of the readable files given to it. No keyword returned by extract_tags or textrank, with or without weights, is a stop word in lower case.", "quantifier": "all call sequences, file contents, texts, dictionaries, number types", "why_tests_cant": "all histories and all texts", "anchors": ["jieba/analyse/tfidf.py: KeywordExtractor.STOP_WORDS, set_stop_words", "jieba/analyse/__init__.py: set_stop_words", "jieba/analyse/textrank.py: pairfilter"]}
{"id": "C78", "title": "Parallel mode switched while generators exist", "statement": "After disable_parallel, jieba.cut and jieba.cut_for_search are sequential again and use the current dictionary; a generator made then stays sequential even across a later enable_parallel. A generator made in parallel mode takes the workers of the moment it is first advanced: it raises AttributeError if parallel mode has been disabled by then, and uses the dictionary of the last enable_parallel otherwise; once advanced its remaining words are fixed, and once it has ended, raised or been consumed it stays empty. posseg.cut follows the last switch and does not fail. jieba.lcut always uses the current dictionary: it equals list(jieba.cut(...)) right after enable_parallel, not after a later add_word (refutation). jieba.cut(..., use_paddle=...) raises TypeError in parallel mode.", "quantifier": "all histories of enabling, disabling, dictionary calls, generator creation and consumption", "why_tests_cant": "all interleavings of generator objects and mode switches", "anchors": ["jieba/__init__.py: enable_parallel, disable_parallel, _pcut, lcut", "jieba/posseg/__init__.py: cut"]}
{"id": "C79", "title": "Only what occurs in the text can matter", "statement": "The results of cut, cut_for_search, tokenize and of the tagger for a text depend on the dictionary only through the frequencies (absent = 0) and tags of the strings that occur in the text, the forced splits that occur in it, and the total; full mode does not depend on the total either. So del_word of a word that does not occur in the text changes no result for it, and add_word of a word that does not occur in it changes no full-mode result; add_word elsewhere can change an accurate cut, because the total grows (refutation).", "quantifier": "all dictionaries, texts, modes, histories before the call", "why_tests_cant": "quantifies over pairs of dictionaries that agree on a text", "anchors": ["jieba/__init__.py: get_DAG, calc, cut, cut_for_search, tokenize, add_word, del_word", "jieba/posseg/__init__.py: __cut_DAG, __cut_DAG_NO_HMM"]}
{"id": "C80", "title": "The order of the lines of a user dictionary", "statement": "Two dictionaries with the same frequencies, tags, forced splits and total, stored in different orders, give the same answer to every call, also after any further calls. A user dictionary in which every line gives a frequency and no word is repeated can have its lines in any order: the resulting dictionaries are the same in this sense. If lines leave the frequency out, the order counts (refutation: the suggested frequency depends on the total at that moment).", "quantifier": "all reachable dictionaries, all permutations of the lines, all subsequent calls", "why_tests_cant": "all permutations and all later call sequences", "anchors": ["jieba/__init__.py: load_userdict, add_word, suggest_freq"]}
{"id": "C81", "title": "Switching the paddle mode on", "statement": "A generator made by jieba.cut, posseg.cut (or posseg.lcut) with use_paddle is cut by paddle exactly if some call of enable_paddle before it is consumed found a usable paddle: importable at once or after pip has run, version string not before '1.6.1', predict importable. Otherwise the basic cut is used (posseg.lcut then ignores HMM). A generator gives its words once: run again later, whatever happened in between, it gives nothing. pip runs exactly if the first import fails; if the second fails too, the call says 'back to jieba basic cut' and then raises UnboundLocalError, leaving the switch as it was. The version test agrees with the order of versions for single-digit components and is wrong beyond (refutation: 1.10.0 is refused).", "quantifier": "all histories of enable_paddle calls in arbitrary environments, generator creation and consumption", "why_tests_cant": "needs every combination of installed modules and order of calls", "anchors": ["jieba/_compat.py: enable_paddle", "jieba/__init__.py: cut", "jieba/posseg/__init__.py: cut, lcut"]}
{"id": "C82", "title": "Adding a deleted word again", "statement": "After del_word(w) and add_word(w, f, tag) with the frequency and tag it had, every stored frequency and tag, the word graph and full mode are as before; the total is larger by f, and w stays a forced split: finalseg.cut never yields it again, whatever is called later. So it is no undo: the accurate cut of the same text can differ afterwards (refutation).", "quantifier": "all reachable dictionaries, all words, all later histories", "why_tests_cant": "all histories; the difference shows only for particular ratios of frequencies", "anchors": ["jieba/__init__.py: add_word, del_word", "jieba/finalseg/__init__.py: add_force_split, cut"]}
{"id": "C83", "title": "Tagging while the dictionary changes", "statement": "Whatever is called between two calls of next() of a tagging generator, the words of its pairs are not empty and join to the text (to a prefix of it if an exception ends the generator; there is none if the numbers are in order at every moment). The tag of a pair is the one the tag table has at the moment the pair is made, except for characters outside words, letter/digit runs and words guessed by the HMM stage; those come from a group of characters that was not in the dictionary at the moment the first pair of the group was made. Tags given by add_word or load_userdict meanwhile are not seen by the generator, although their frequencies are (refutation of 'an added word comes out with its tag').", "quantifier": "all texts, all calls between any two pairs", "why_tests_cant": "all interleavings of consumption and updates", "anchors": ["jieba/posseg/__init__.py: __cut_internal, __cut_DAG, __cut_DAG_NO_HMM, makesure_userdict_loaded"]}
{"id": "C84", "title": "Threads adding words", "statement": "Several threads call add_word with given frequencies on one initialized tokenizer; every dictionary operation and every read or write of an attribute is a step of its own. After every interleaving: a word added has its frequency, except that a new word which begins a longer word added by another thread may end with frequency 0 (refutation of 'the word is kept'); all other frequencies are unchanged apart from new prefixes; the dictionary is prefix-closed; if no word of one thread begins a word of another, frequencies, tags and forced splits are those of the calls one after the other in any order; the total lies between the old one and the right one, and can miss an addition (refutation). Every run ends.", "quantifier": "all threads, all calls, all interleavings", "why_tests_cant": "races show only in rare schedules", "anchors": ["jieba/__init__.py: add_word"]}
{"id": "C85", "title": "Cutting while other threads change the tokenizer", "statement": "cut with every single read of the dictionary, the total and the forced splits at its own moment: whatever the reads find, the words are not empty and join to the text, or to its beginning if there is an exception; there is none if no key is lost and the numbers are in order at every read, in particular while other threads add words; without HMM every dictionary word given out was in the dictionary at some read; with HMM a word of several Chinese characters that is a forced split at every read is only given out if it was in the dictionary at some read; if nothing changes it is cut. A thread that initializes again can make the call raise KeyError, and the result need not be that of any one moment (refutations).", "quantifier": "all texts, all sequences of states seen by the reads", "why_tests_cant": "all interleavings of reads and writes", "anchors": ["jieba/__init__.py: get_DAG, calc, __cut_DAG, __cut_DAG_NO_HMM, __cut_all, cut"]}
{"id": "C86", "title": "The objects that tagging yields", "statement": "pair: == holds exactly between pairs with the same word and flag and equal pairs have equal hashes; < is a strict weak order by word; sorting gives the same pairs in order of the words, equal words in their old order, and this determines the result; unpacking gives word and flag, and these joined by a slash are str(pair), whose UTF-8 is encode(); str(pair) determines the pair when flags have no slash, and not otherwise (refutation); two pairs can be neither equal nor ordered (refutation).", "quantifier": "all pairs, all lists of pairs, all hash functions", "why_tests_cant": "laws of comparison over all values", "anchors": ["jieba/posseg/__init__.py: pair"]}
{"id": "C87", "title": "Attributes of a POSTokenizer", "statement": "A name that a POSTokenizer does not have itself is that of its Tokenizer, except cut_for_search, lcut_for_search and tokenize, which raise NotImplementedError; so add_word, del_word, load_userdict and so on act on the Tokenizer. On an object without its tokenizer attribute (copy, pickle) the lookup of any other name never ends.", "quantifier": "all names", "why_tests_cant": "all names, non-termination", "anchors": ["jieba/posseg/__init__.py: POSTokenizer.__getattr__"]}
{"id": "C88", "title": "The files of ids of the paddle mode", "statement": "load_kv_dict loads a file exactly if every value can be read and no key comes twice; the table then says what the lines with exactly one tab say, other lines being passed over; otherwise the first line in the way decides between KeyError (key seen before) and the exception of reading the value. The two tables made from one file are inverse to each other. The ids given to the network are below vocab_size, one for each character, and the ids of labels below num_labels; these sizes are one more than the largest id, a label that is not in the table gets the id of O, and KeyError comes only without an O. With an entry OOV no text stops the reader; without one exactly the texts with an unknown character raise KeyError.", "quantifier": "all files, all texts", "why_tests_cant": "all files", "anchors": ["jieba/lac_small/reader_small.py: load_kv_dict, vocab_size, num_labels, word_to_ids, label_to_ids, get_vars"]}
{"id": "C89", "title": "Tagging while other threads give tags", "statement": "Threads run makesure_userdict_loaded (test, update, reset) and the tag assignment of add_word on shared dictionaries. After every interleaving: a tag given before the threads started is in the table once a tagging call has recorded the pending tags, and stays there; words that are given no tag keep theirs; every tag in the table was there, was pending or was given for that word; a single thread's calls act as one after the other. A tag given while another thread is between update and reset is lost for ever, in no order of the calls (refutation).", "quantifier": "all threads, all calls, all interleavings", "why_tests_cant": "races show only in rare schedules", "anchors": ["jieba/posseg/__init__.py: makesure_userdict_loaded", "jieba/__init__.py: add_word"]}
{"id": "C90", "title": "The number of dictionary lookups of a cut", "statement": "If no key of the dictionary has more than M characters, cutting a text of length n, in any mode and whatever other threads do to the dictionary meanwhile, reads the shared data (dictionary, total, forced splits, the initialised flag) at most n*(3M+6) times. There is no such bound without M: with a dictionary of long words the number grows with the square of the length (refutation).", "quantifier": "all texts, modes, dictionaries, and sequences of states seen", "why_tests_cant": "complexity bounds cannot be observed on finitely many runs", "anchors": ["jieba/__init__.py: get_DAG, calc, __cut_DAG, __cut_all, cut", "jieba/finalseg/__init__.py: cut"]}
{"id": "C91", "title": "Adding a word again without a frequency", "statement": "In exact arithmetic the suggested frequency of a word that already comes out whole is one more than its present frequency, so every further add_word(w) raises the frequency by one and the total by the new frequency: n further calls make f into f+n. In binary64 (total up to 2^44) the suggestion is the present frequency or one more, never less and never further up; it may stand still (refutation: frequency 1 of 49).", "quantifier": "all dictionary states, words, numbers of repetitions; all libm logarithms", "why_tests_cant": "rounding decides between two values, which depends on every bit", "anchors": ["jieba/__init__.py: add_word, suggest_freq"]}
{"id": "C92", "title": "Loading the same user dictionary twice", "statement": "A second load of a user dictionary all of whose lines give a frequency changes no frequency, tag or forced split, but counts all frequencies again in the total. With equal frequencies and a larger total, exact arithmetic never chooses more words (HMM off, no ASCII letters or digits), so the second load never gives more words; it may give fewer (refutation that the words stay the same).", "quantifier": "all dictionaries, files, texts", "why_tests_cant": "the effect on segmentation depends on all frequencies at once", "anchors": ["jieba/__init__.py: load_userdict, add_word, calc"]}
{"id": "C93", "title": "Only relative frequencies matter", "statement": "Multiplying every frequency and the total by the same positive number changes nothing in cut (all modes), cut_for_search and tokenize in exact arithmetic, if every word character of the text is itself a word of the dictionary. In binary64 cut(HMM=False) gives the same words for such texts if in every run of word characters one segmentation is more probable than all others by more than rounding can do. Full mode depends only on which entries exist and which are zero. Without the condition it is false: an unknown character always counts 1 (refutation).", "quantifier": "all dictionaries, factors, texts, modes", "why_tests_cant": "all dictionaries and factors", "anchors": ["jieba/__init__.py: calc, get_DAG, cut"]}
{"id": "C94", "title": "Deleting a word that is not used", "statement": "If del_word removes a word w that cut(s, HMM=False) did not yield, and a shorter word of the dictionary starts like w, then cut(s, HMM=False) yields the same afterwards, for exact numbers and for floats. With HMM the same holds if moreover the characters of w are not yielded one after the other. Without the shorter word it is false: the first character of w may become a word of its own (refutation, in exact arithmetic with a healthy dictionary). With HMM and the characters standing one after the other it is false too (refutation).", "quantifier": "all dictionaries with non-negative frequencies and prefix entries, all words, all texts, every arithmetic with a monotone order", "why_tests_cant": "all dictionaries, texts and ties between equally good cuts", "anchors": ["jieba/__init__.py: del_word, add_word, get_DAG, calc, cut", "finalseg/__init__.py: add_force_split, cut"]}
{"id": "C95", "title": "Segmenting a segmented text again", "statement": "Joining the words of cut(s, HMM=False) with a separator character that is never part of a word (a space, a slash) and segmenting the joined text yields the same words with the separator between them; leaving the separators out gives the words back if s had none (exact arithmetic). With HMM it is false (refutation).", "quantifier": "all dictionaries with consistent counts, all texts, all separators outside the word class other than CR and LF", "why_tests_cant": "all texts and dictionaries", "anchors": ["jieba/__init__.py: cut, calc, __cut_DAG_NO_HMM", "jieba/__main__.py: delimiter"]}
{"id": "C96", "title": "Keywords of repeated and reordered texts", "statement": "Writing a text n times with a separator between the copies changes nothing in the TF-IDF keywords, their weights and their order (exact arithmetic), for every topK, withWeight, allowPOS and withFlag. Putting the parts of a text (separated by such a character) in another order keeps the keywords and their weights, in floating point too; only keywords of equal weight may change places. In binary64 the weights of a repeated text can differ, whatever math.log is: 49*(1/49) is not 1 (refutation).", "quantifier": "all texts, separators, numbers of copies, IDF tables, stop words, dictionaries, orders of parts", "why_tests_cant": "all texts and numbers of copies", "anchors": ["jieba/analyse/tfidf.py: extract_tags", "jieba/__init__.py: cut", "jieba/posseg/__init__.py: cut"]}
{"id": "C97", "title": "One character unknown to the HMM takes the rest of the group apart", "statement": "In binary64, with tables like the shipped ones (all logarithms of moderate size, all transitions of the BMES grammar present), a Han group in which every character has an emission probability for S or none at all: from the first character without any emission probability on, finalseg.cut yields single characters only, whatever follows; the character before it is a word of its own too, and the words before that do not depend on what follows. Hence cut (accurate mode with HMM) does the same to a text in which no dictionary word of two or more characters occurs. With the same tables in exact arithmetic this is false: it is an effect of adding -3.14e100 in floating point (all later scores are equal, and ties go to S).", "quantifier": "all binary64 tables of the described kind, all texts up to 2^49 characters, all forced splits, all dictionaries", "why_tests_cant": "The tests of the repository contain no character missing from prob_emit.py; a test shows one text, not that everything behind such a character falls apart.", "anchors": ["jieba/finalseg/__init__.py:37-56", "jieba/finalseg/__init__.py:59-75", "jieba/finalseg/__init__.py:85-100", "jieba/finalseg/prob_start.py", "jieba/finalseg/prob_trans.py"]}
{"id": "C98", "title": "Missing entries of the HMM tables decide", "statement": "In binary64 the HMM stage chooses, among all labellings of a text (up to 2^49 characters), one that needs the fewest entries missing from the tables, whatever the numbers in the tables are; in exact arithmetic too, if the entries are small compared to 3.14e100 over the length. From the character before one without any emission probability on, nothing else counts in binary64: of the labellings lacking as few entries the chosen one is the greatest when compared from the end (S > M > E > B), so two tables with the same entries end the word with that character at the same place and give the same words behind it. In exact arithmetic the numbers still matter there (refutation: with the shipped numbers the three characters U+4E04 U+63F6 U+63C4 are 1+2 in exact arithmetic and 2+1 in binary64), and without such a character they matter in binary64 too (refutation).", "quantifier": "all tables with entries of size at most 2^200 (binary64) and all BMES transitions, all texts", "why_tests_cant": "all tables and texts; the effect comes from rounding of sums of -3.14e100", "anchors": ["jieba/finalseg/__init__.py: viterbi, __cut, MIN_FLOAT"]}
{"id": "C99", "title": "Words found by the HMM have no bounded length", "statement": "With the tables that finalseg ships, there are characters for which the HMM stage returns any number n >= 3 of repetitions as one single word: the 12 characters with an emission entry for M only. The accurate mode with HMM does so too, whatever the dictionary, as long as no dictionary word consists of that character alone and the result is not forced to be split. So no limit on word length (such as the four labels B, M, E, S or the longest dictionary word) can be assumed by a caller.", "quantifier": "all 12 characters, all n from 3 to 2^49, all dictionaries and totals, all sets of force-split words that do not contain the result", "why_tests_cant": "the claim ranges over lengths up to 2^49 and all dictionaries; a test shows single lengths only", "anchors": ["jieba/finalseg/__init__.py:37-60", "jieba/finalseg/prob_emit.py", "jieba/finalseg/prob_trans.py", "jieba/__init__.py:249-287"]}
{"id": "C100", "title": "The tagger minimises missing table entries", "statement": "Among all taggings that the search of posseg/viterbi.py compares for a text, the one returned needs the fewest entries (start, emission) that the tables lack, whatever the numbers in the tables are. From the character before one without any emission probability on, only this counts: among the taggings that lack as few entries the returned one is the greatest when its states are compared from the end. So two tables with the same states, transitions and entries but other numbers give the same states from there on.", "quantifier": "all tables with entries up to 2^200 in size, all orders of iterating over sets, all texts up to 2^49 characters, binary64", "why_tests_cant": "a test compares single texts with the one set of tables shipped; the claim is about all taggings of all texts and about all numbers in the tables", "anchors": ["jieba/posseg/viterbi.py:20-53", "jieba/posseg/prob_start.py", "jieba/posseg/prob_trans.py"]}
{"id": "C101", "title": "Tags of characters the tagger does not know depend only on their number", "statement": "With the start and transition tables that jieba ships: a text of two or more Han characters that are neither in char_state_tab.py nor in the emission table, without dictionary words of two or more characters, is returned as single characters tagged x zg x zg ..., with y in front if their number is odd. So one more such character at the end changes the tag of every character before it. A single one has the tag of the word table, or x.", "quantifier": "all such texts up to 2^49 characters, all dictionaries and word tables, all emission tables with entries up to 2^200, all orders of iterating over sets, binary64", "why_tests_cant": "the alternation is produced by rounding and tie-breaking along a text of any length; a test sees a few lengths", "anchors": ["jieba/posseg/viterbi.py:20-53", "jieba/posseg/__init__.py:117-215", "jieba/posseg/prob_start.py", "jieba/posseg/prob_trans.py", "jieba/posseg/char_state_tab.py"]}
{"id": "C102", "title": "Rounding cannot make HMM=False pick a much less probable segmentation", "statement": "In binary64 arithmetic, with a logarithm that is accurate to 2^-48, cut(HMM=False) follows in every run of n <= 2^21 word characters a segmentation that no other one beats in probability by more than a factor 1 + n^2/2^43. A segmentation that beats all others by more than that factor is the one used, and a text all of whose runs have one is cut as in exact arithmetic, and cut_for_search and tokenize give what they give there.", "quantifier": "all healthy dictionaries with a total up to 2^44, all texts, all logarithms accurate to 2^-48", "why_tests_cant": "rounding errors add up over the text and depend on every frequency; a test samples a few sums", "anchors": ["jieba/__init__.py:172-178", "jieba/__init__.py:226-250"]}
{"id": "C103", "title": "Rounding cannot make the HMM stage choose much worse labels", "statement": "In binary64 arithmetic, for a Han text of n <= 2^22 characters that can be labelled without a missing table entry, the labels chosen need none either and no other labels have a sum of table entries that is larger by more than n^2/2^45. Labels that are better than all others by more than that are the ones used, and the words are those of exact arithmetic. The shipped tables of finalseg meet the hypotheses for every text of characters with an emission probability for S.", "quantifier": "all tables with numbers between -32 and 32, all texts", "why_tests_cant": "rounding errors add up over the text; the tables have 35226 entries", "anchors": ["jieba/finalseg/__init__.py:37-57", "jieba/finalseg/prob_emit.py", "jieba/finalseg/prob_trans.py", "jieba/finalseg/prob_start.py"]}
{"id": "C104", "title": "The default mode of cut in binary64 and in exact arithmetic", "statement": "jieba.cut(s) in binary64: in every run of word characters a segmentation that none beats in probability by more than 1 + n^2/2^43; in it the maximal groups of single characters that are not a dictionary word are divided by labels that are best up to n^2/2^45. If the best segmentation and the best labels are clear (by more than these margins), the result is that of exact arithmetic, also for cut_for_search and tokenize.", "quantifier": "all healthy dictionaries with a total up to 2^44, tables with numbers between -32 and 32, all texts, all logarithms accurate to 2^-48", "why_tests_cant": "whether rounding can change a result cannot be seen from single results", "anchors": ["jieba/__init__.py:172-178", "jieba/__init__.py:249-287", "jieba/finalseg/__init__.py:37-100"]}
{"id": "C105", "title": "Keywords in binary64 and in exact arithmetic", "statement": "In binary64 the TF-IDF weight of a keyword differs from occurrences * idf / all occurrences by a relative error of at most 2^-51 (IDF values between 2^-300 and 2^300, up to 2^48 words). If the exact weight of one candidate is larger than that of another by more than a factor 1 + 2^-50, it comes out first, whatever topK is. Keywords with the same IDF value (such as all words missing in the table) come out with the more frequent first, equally frequent ones in the order of their first occurrences. Within the margin the exact order is not kept: three times a word with IDF 2.0833333333333335 is more than four times one with 1.5625 but comes after it (refutation). TextRank keywords whose exact weights differ by more than the relative error of C73 come out in the exact order.", "quantifier": "all texts, dictionaries, IDF tables with values in that range, stop words, topK, allowPOS, withFlag; every logarithm that is finite", "why_tests_cant": "rounding happens for every pair of counts and values; tests look at a few texts", "anchors": ["jieba/analyse/tfidf.py: extract_tags", "jieba/analyse/textrank.py: textrank"]}
{"id": "C106", "title": "Rounding cannot make the tagger choose much worse states", "statement": "In binary64 arithmetic, for a Han text of n <= 2^22 characters that can be tagged without a missing table entry, the tagging that posseg/viterbi.py returns needs none either, and no tagging that it compares has a sum of table entries that is larger by more than n^2/2^45. A tagging that is better than all others by more than that is the one returned, whatever the order in which sets are visited, and words and tags are those of exact arithmetic. The start and transition numbers that are shipped meet the hypotheses.", "quantifier": "all tables with numbers between -32 and 32 (start entries also -3.14e100), all texts, all orders of sets", "why_tests_cant": "rounding errors add up over the text; the search compares up to 256 states per character", "anchors": ["jieba/posseg/viterbi.py:10-53", "jieba/posseg/__init__.py: __cut", "jieba/posseg/prob_start.py", "jieba/posseg/prob_trans.py"]}
{"id": "C107", "title": "The tagger in binary64 and in exact arithmetic", "statement": "posseg.cut(s) in binary64: in every run of word characters a segmentation that none beats in probability by more than a factor 1 + n^2/2^43; words of several characters, single characters between them and groups of single characters that are a dictionary word have the tags of the table; the Han runs of the other groups are divided and tagged by states that are the best up to n^2/2^45. If the best segmentations and the best taggings are clear (by more than these margins), words and tags are those of exact arithmetic, whatever the order in which sets are visited.", "quantifier": "all healthy dictionaries with a total up to 2^44, tables with numbers between -32 and 32, tag tables, texts, set orders, all logarithms accurate to 2^-48", "why_tests_cant": "whether rounding can change a result cannot be seen from single results", "anchors": ["jieba/posseg/__init__.py:117-240", "jieba/posseg/viterbi.py:10-53", "jieba/__init__.py:172-178"]}
{"id": "C108", "title": "Full mode, in order", "statement": "cut(s, cut_all=True) on a prefix-closed dictionary gives exactly the following, in this order. In a run of word characters, position by position: if only one word (or none) starts at the position and the position is clear, that word (or the character); otherwise the dictionary words of two or more characters that start there, shortest first. Clear means: the nearest position before it at which a word of two or more characters starts has its longest such word end before it. What a clear position with one word gives inside a stretch of letters and digits is not given at once: it is put together and given at the end of the stretch, after the other words of the stretch. Text without word characters is taken apart at blanks, empty pieces included. In a run without letters and digits a single character is given exactly if it starts no longer word and is clear. It is false that a character inside a dictionary word is never given on its own.", "quantifier": "for every prefix-closed dictionary, every text, every forced-split set and either value of HMM", "why_tests_cant": "The order of the pieces and the characters given on their own follow from old_j, eng_scan and eng_buf together over the whole run; tests compare a few sentences.", "anchors": ["jieba/__init__.py:181-196", "jieba/__init__.py:198-224", "jieba/__init__.py:289-336"]}
{"id": "C109", "title": "How many words there can be", "statement": "cut in accurate mode gives at most as many words as the text has characters. cut_for_search gives, together with the words of accurate mode, at most twice as many words as the text has characters. Full mode on a prefix-closed dictionary whose words have at most M >= 2 characters gives at most M-1 non-empty pieces per character and at most M+1 pieces in all per character. Without a bound on the words there is no linear bound for full mode: for every n there are a dictionary and a text of n characters for which it gives at least n(n-1)/2 pieces.", "quantifier": "for every text and dictionary (prefix-closed for full mode), every arithmetic, whether or not the run raises (accurate and search mode)", "why_tests_cant": "A bound for all texts and dictionaries; the quadratic growth needs dictionaries of unbounded size.", "anchors": ["jieba/__init__.py:198-287", "jieba/__init__.py:289-354"]}
{"id": "C110", "title": "No number of characters decides about the first word", "statement": "There is one dictionary of five words for which, for every m >= 1, the text d(ab)^m is cut into d, ab, ab, ..., ab, and the same text with one more character at its end into da, ba, ..., ba, bc: every word changes. This holds with and without HMM, in exact arithmetic for every m, and in binary64 (with an accurate log) for texts of up to 2^21 characters. So no bound k exists such that the first word depends on the first k characters only: a text cannot be segmented in chunks of a run, however long they are.", "quantifier": "for every m (texts of unbounded length), every HMM table, every forced-split set, both values of HMM", "why_tests_cant": "No finite set of texts shows that the influence of the last character reaches arbitrarily far.", "anchors": ["jieba/__init__.py:169-196", "jieba/__init__.py:226-287"]}
{"id": "C111", "title": "What the three modes have to do with each other", "statement": "Every dictionary word of two or more word characters, not starting with a letter or digit, that accurate mode or search mode gives for a text (with or without HMM) is given by full mode too. Without HMM this is so for every word of two or more characters without letters and digits that these modes give. Not true: that a word found by the HMM is given by full mode; that full mode gives no more dictionary words than search mode; that a single character given by accurate mode is given by full mode.", "quantifier": "for every prefix-closed dictionary, every text, both values of HMM", "why_tests_cant": "Relates three different loops over the same word graph for all texts.", "anchors": ["jieba/__init__.py:198-224", "jieba/__init__.py:226-287", "jieba/__init__.py:338-354"]}
{"id": "C112", "title": "Full mode with a larger dictionary", "statement": "If every word of one dictionary is a word of another (prefix-closed) one, then every word of two or more characters without letters and digits that full mode gives with the first it gives with the second. Not true for single characters: one can disappear, and adding a word can make a character come out that has nothing to do with the added word (a character inside a longer word that starts earlier).", "quantifier": "for every pair of dictionaries and every text", "why_tests_cant": "Quantifies over pairs of dictionaries; the second refutation depends on old_j being the end of the last word, not the furthest end.", "anchors": ["jieba/__init__.py:198-224"]}
{"id": "C113", "title": "Words with other characters never come out", "statement": "Every word that cut in accurate mode (with or without the HMM) or cut_for_search gives consists of word characters only (the class of re_han_default), or is one character, or is CR LF. So a word of two or more characters with a blank or another character outside the class never comes out of these modes, whatever is in the dictionary. Full mode gives only pieces of word characters or pieces without any. The tagger gives only words of its own class (without '%' and '-'), single characters, or CR LF.", "quantifier": "For every dictionary, total, list of forced splits, HMM table, text and word given; for the tagger, for the shipped tables with ordinary numbers, any set order, also in binary64.", "why_tests_cant": "A test can add one such word and see that it does not come out; it cannot show it for every dictionary, text and HMM table.", "anchors": ["jieba/__init__.py:39-46", "jieba/__init__.py:289-330", "jieba/__init__.py:332-349", "jieba/posseg/__init__.py:14-25", "jieba/posseg/__init__.py:212-236"]}
{"id": "C114", "title": "The rest of the words is the segmentation of the rest of the text", "statement": "If cut(s, HMM=False) gives the words us + vs, then cut of the text of vs gives vs, in floating point too: reading on after the first words is the same as segmenting the rest anew. The same for the tagger with HMM=False, with tags. If moreover every word character of the text is itself in the dictionary, any stretch of consecutive words is segmented into these words again (exact arithmetic). Without that condition the beginning of a segmentation can change when it stands alone (refutation), and with the HMM the rest can change (refutation).", "quantifier": "For every dictionary with sane frequencies, every text and every way to divide its words in two (three); C114_rest and C114_tagger for any arithmetic.", "why_tests_cant": "The claim is about all texts and all division points; a test fixes them.", "anchors": ["jieba/__init__.py:172-196", "jieba/__init__.py:226-247", "jieba/__init__.py:289-330", "jieba/posseg/__init__.py:152-180", "jieba/posseg/__init__.py:212-236"]}
{"id": "C115", "title": "TextRank and the order of the words", "statement": "In exact arithmetic and without tags in the result (withFlag=False), TextRank gives a word list read backwards the same weights: the result is the same set of (word, weight) pairs. The parts of a text may also be put in any order, if each is followed by at least span-1 words that TextRank does not rank. Neither holds in general: with withFlag=True a word under two tags is two terms that sorted leaves in the order of first appearance, so reading backwards changes weights; and swapping two neighbouring words of a text changes weights.", "quantifier": "All word lists, all tag filters, all stop-word sets, all spans, all lists of parts and all permutations of them", "why_tests_cant": "The graph is built from dicts keyed by ordered pairs and iterated in insertion order, and the rounds update in place; a test sees one text at a time.", "anchors": ["jieba/analyse/textrank.py:16-57", "jieba/analyse/textrank.py:69-110", "jieba/posseg/__init__.py:65-66"]}
{"id": "C116", "title": "With HMM no word is taken apart", "statement": "cut with HMM=True and cut with HMM=False come from one list of words; both only join neighbouring words of one character each. For a text without letters and digits the result with HMM=True is the result with HMM=False with some neighbouring one-character words joined, so all boundaries with HMM are boundaries without, and every word of two or more characters given without HMM is given with HMM (in search mode too). The same holds for the tagger. With digits it is false: 1.5a is 1 . 5a without HMM and 1.5 a with it.", "quantifier": "All texts, dictionaries with consistent counts, HMM tables and forced splits; the tagger with any tables of the shipped structure", "why_tests_cant": "Two different loops and a Viterbi search, over all texts and dictionaries.", "anchors": ["jieba/__init__.py:226-287", "jieba/finalseg/__init__.py:75-100", "jieba/posseg/__init__.py:146-232"]}
{"id": "C117", "title": "What a stop word or one more occurrence changes for the keywords", "statement": "TF-IDF in exact arithmetic: more stop words take exactly the stopped words out of the keywords; the others stay in the same order, all weights multiplied by one number that is at least 1. If a keyword with positive IDF occurs more often and all else occurs as often as before, it stays among the topK keywords, for every topK; if the occurrences are appended the other keywords keep their order. With binary64 numbers (up to 2^48 words, IDF values between 2^-300 and 2^300) the more frequent keyword stays among the topK as well and no keyword it preceded gets in front of it, whatever the rounding; with more stop words or with the occurrences of a third word appended, two keywords whose exact weights differ by more than a factor of 2^-50 keep their order. For TextRank a stop word can turn the order of two other words round.", "quantifier": "All texts, tables, stop-word sets, tag filters, topK", "why_tests_cant": "The weights of all words change at once; sorting is stable and cut at topK.", "anchors": ["jieba/analyse/tfidf.py:75-116", "jieba/analyse/textrank.py:69-110"]}
{"id": "C118", "title": "Raising a frequency in a longer text", "statement": "Text without ASCII letters and digits, HMM off, exact arithmetic, dictionary with non-negative frequencies that sum up to at most the total. If a word is in the segmentation and add_word gives it a higher frequency, then afterwards the word is in the segmentation again, or the text is cut into fewer words. Conversely, a word that is not in the segmentation and is added again with a lower frequency is not in it afterwards, or the text is cut into fewer words. The exception is real: there are a dictionary and a text in whose segmentation a word is, such that after adding it again, with whatever positive frequency, it is not (add_word counts every addition in the total, without taking the old frequency off, and a larger total favours fewer words).", "quantifier": "for all dictionaries, texts, words and frequencies; for the exception, one dictionary and text and all new frequencies", "why_tests_cant": "It compares two segmentations of every text under two dictionaries; the exception needs all new frequencies.", "anchors": ["jieba/__init__.py:385-410", "jieba/__init__.py:180-202"]}
{"id": "C119", "title": "The tagger with the tables it ships", "statement": "With the four tables of jieba/posseg, all their numbers included, and binary64 arithmetic: every emission number is between -16 and 0; the tables meet all conditions that the other properties ask of tables; posseg.cut raises no exception, its words make up the text and are not empty, words and tags do not depend on the order in which Python visits sets, also after any calls that change the dictionary; and the tagging found for a group of characters has the greatest score of all that are compared, as computed.", "quantifier": "for all texts, dictionaries, sequences of calls and set orders, with the shipped tables", "why_tests_cant": "256 states and 89290 numbers; the number of taggings grows exponentially with the text.", "anchors": ["jieba/posseg/prob_emit.py:3-89372", "jieba/posseg/viterbi.py:16-53", "jieba/posseg/__init__.py:119-270"]}
{"id": "C120", "title": "char_state_tab and prob_emit of the tagger agree, with exceptions", "statement": "Every state that char_state_tab.py gives for a character has a number for it in prob_emit.py, with exactly one exception, the one-character adjective (S, a) of U+8DDB; for all but thirteen characters of char_state_tab.py the two tables name the same states. prob_emit.py has characters that char_state_tab.py does not have, but not the other way round, so a run of Chinese characters without emission numbers and dictionary words is tagged as C101 says. Because of the missing number U+8DDB at the end of a group of at least two characters is not tagged (S, a), unless after a character tagged (S, nt).", "quantifier": "for all characters, states, texts and set orders, with the shipped tables", "why_tests_cant": "It compares two tables of tens of thousands of entries; what the missing number does is a statement about all texts.", "anchors": ["jieba/posseg/char_state_tab.py:3-61087", "jieba/posseg/prob_emit.py:3-89372", "jieba/posseg/viterbi.py:16-53"]}
{"id": "C121", "title": "Texts of common characters are tagged without gaps in the tables", "statement": "Call a character common if prob_emit.py has seen it as a word of its own with one of 28 given tags (three characters left out for which char_state_tab.py disagrees). With the shipped tables and binary64: every text of common characters has a tagging that needs no missing entry; in every run of at most 2^22 common characters the tagger finds words each of which has been seen as tagged - a number exists for every character in its place (S; B, M, E) with the tag of the word, and the first word does not begin in the middle - and the tagging is the best up to rounding; likewise for the runs that posseg.cut gives to the HMM in any text with any healthy dictionary. It is not enough that the tables know the character: U+539D is never the beginning of a word there.", "quantifier": "for all texts, dictionaries and set orders, with the shipped tables", "why_tests_cant": "7472 characters can be combined to any text; the search prunes states, so that a complete tagging could be lost on the way.", "anchors": ["jieba/posseg/viterbi.py:14-53", "jieba/posseg/prob_trans.py:1-5307", "jieba/posseg/prob_emit.py:3-89372", "jieba/posseg/__init__.py:117-213"]}
{"id": "C122", "title": "TextRank's ten rounds against the weights they approach", "statement": "For the links of every list of tagged words there is exactly one assignment of weights that a further round of TextRank would not change. These stationary weights add up to the number of words, are above 0.15, and lie between links(word)/most and links(word)/least, where most and least are the largest and the smallest number of links of a word. From any start and for any order of the words, every round brings the weights closer to the stationary ones: if the distance is at most C * links(word) for all words, it is at most 0.85^k * C * links(word) after k rounds. The ten rounds of the code from 1/N end within links(word) / (5 * least). Two words whose stationary weights differ by more than their two bounds come out in that order, exactly and in binary64. That the ten rounds always give the order of the stationary weights is false (refutation): for the words a b a b c a c c with span 5, a has the largest stationary weight but c comes out with the larger weight.", "quantifier": "All link lists, all lists of tagged words, stop words, allowed tags, spans and flag settings, all starting weights and any number of rounds for the contraction; binary64 for length times span below 2^33; one text for the refutation.", "why_tests_cant": "Whether ten rounds are enough is a statement about a limit; a test can only look at graphs it knows, and the order is right on almost all of them.", "anchors": ["jieba/analyse/textrank.py:21-54", "jieba/analyse/textrank.py:59-110"]}
{"id": "C123", "title": "get_FREQ, calc and user_word_tag_tab of the module", "statement": "jieba.get_FREQ and jieba.calc do not load the dictionary: until something else makes the default Tokenizer load it, get_FREQ gives its default for every word and calc raises ValueError for every input. Once the dictionary is loaded, get_FREQ tells the frequencies the calls of the default Tokenizer use; after initialize from a file without a newer cache it gives the frequency in the last line of the word, 0 for a text that is only the beginning of a word, and the default otherwise. set_dictionary does not change what get_FREQ tells, so that it tells what the next segmentation uses is false (refutation). jieba.user_word_tag_tab shows all tags that were given as long as nothing was tagged; after the first tagging that follows it never changes again, whatever tags are given later.", "quantifier": "All histories of calls, Tokenizers and changes of files; all dictionary files; all histories of add_word with tags and taggings; one history for the refutation.", "why_tests_cant": "Whether a name of the module still refers to what the Tokenizer uses depends on the whole history of calls.", "anchors": ["jieba/__init__.py:518-538", "jieba/__init__.py:172-178", "jieba/__init__.py:509-515", "jieba/posseg/__init__.py:112-115"]}
{"id": "C124", "title": "Reloading one tagger from several threads", "statement": "Any number of threads call initialize(file) on one POSTokenizer, each with its own files, in any interleaving. When all have ended, every word has the tag that one of the files alone gives it (up to a line that is refused); if all load the same file, the table is that of one load. With one thread the calls happen one after the other. A tag looked up meanwhile is the one of the table before, one that a line of a file gives this very word, or x. The table as a whole can be that of no file, and a word with the same tag before and after can be tagged x in between.", "quantifier": "all tables, files (also malformed ones), numbers of threads, programs and schedules", "why_tests_cant": "the table is replaced by an empty one and filled line by line without a lock; the schedules cannot be enumerated", "anchors": ["jieba/posseg/__init__.py:93-110", "jieba/posseg/__init__.py:168"]}
{"id": "C125", "title": "Ranking with one TextRank object from several threads", "statement": "Any number of threads call textrank, each with its own text and tags, and set_stop_words on one TextRank object, in any interleaving. Whatever the others do, no call is ever stuck and every call ranks without an exception, with weights above 0 and at most 1 and the best exactly 1: a keyword occurs in the call's own text close to another word, is named the way the call asked, has a tag that some thread asks for, at least two characters and was no stop word at the start; two words close together whose tags everybody asks for and that never become stop words are both ranked. If all calls ask for the same tags and add no new stop words, each call gives what it gives alone. With one thread the calls happen one after the other. That a keyword has a tag its own call asked for is false with several threads, and so is that none is missed (refutation).", "quantifier": "all texts as tagged, tags, spans, stop words, numbers of threads, programs and schedules; all arithmetics with the rounding conditions (exact and binary64)", "why_tests_cant": "allowPOS is kept in an attribute of the shared object (textrank.py:81) that another call can overwrite between any two words; the schedules cannot be enumerated", "anchors": ["jieba/analyse/textrank.py:65-95", "jieba/analyse/tfidf.py:23-29"]}
{"id": "C126", "title": "Changing the IDF file of one extractor from several threads", "statement": "One thread calls set_idf_path (any paths, files and malformed files) and looks values up on one TFIDF object while any number of others only look values up, in any interleaving. The one that changes the file gets what it gets alone, and at its end the extractor has the table and the median it has alone. What another thread gets is the value of the word in the complete table of one file of the sequence, or else the median of that file, of the file before or of a later one; never anything half loaded. If several threads change the file, a value is still one that the first table or a line of one of the files gives this very word, or the first median, or a number of one of the files. False (refutations): that a value is the one before or the one after; that after two threads have set the same good file, without an exception, the extractor uses it; that setting a good file raises nothing.", "quantifier": "all tables, files, words, numbers of threads, programs and schedules, any arithmetic; one schedule for each refutation", "why_tests_cant": "the loader is filled line by line without a lock, and table and median are read and written separately; the schedules cannot be enumerated", "anchors": ["jieba/analyse/tfidf.py:44-56", "jieba/analyse/tfidf.py:68-73", "jieba/analyse/tfidf.py:107"]}
{"id": "C127", "title": "cut_for_search and tokenize consumed while the dictionary changes", "statement": "The caller changes the dictionary in any way whenever cut_for_search or tokenize has given something out. The words around which the parts are given out are those of cut when it is asked at the moments at which the outer generator comes to them; they are not empty, join up to a beginning of the text and to the whole text if no exception ends it. Before each word come exactly its pairs and then its triples of characters that are dictionary words at their own turn, not at the beginning of the word or of the call. Every token is the text between its offsets, in both modes; in default mode the tokens are those of cut consumed at the same moments, without gaps; in search mode their words are those of cut_for_search consumed at the same moments. With a sane dictionary at each moment there is no exception. If nothing changes the results are those of the ordinary calls.", "quantifier": "All texts, HMM tables, both modes, with and without HMM, all sequences of dictionary states between two results", "why_tests_cant": "A test changes the dictionary at one or two points; here the changes between any two results are arbitrary.", "anchors": ["jieba/__init__.py:338-354", "jieba/__init__.py:476-507", "jieba/__init__.py:289-336"]}
{"id": "C128", "title": "cut_for_search in one thread while other threads change the tokenizer", "statement": "cut_for_search runs in one thread without a lock and every single read of the shared tokenizer finds whatever the other threads have left there at that moment. The words around which it gives out parts are those of cut when the reads of cut are certain of the reads of the call: cut makes its reads directly one after another until it gives out a word, then the pairs and the triples of the characters of this word are looked up, each with one read, and only then cut goes on. Those parts that are dictionary words at their own read are given out, and then the word; nothing else is given out, and the call ends with the exception of cut if there is one. The words are not empty and join up to the text, or to a beginning of it if an exception ends the call. With a sane dictionary at each read and no key ever lost there is no exception. If nothing changes the result is that of the ordinary call. That the result is that of the dictionary at some one moment is refuted.", "quantifier": "All texts, HMM tables, with and without HMM, all sequences of what the reads find", "why_tests_cant": "A test cannot force another thread's change between two given reads, let alone between any two.", "anchors": ["jieba/__init__.py:338-354", "jieba/__init__.py:172-336", "jieba/finalseg/__init__.py:81-100"]}
