{"id": "C01", "title": "UTF-32 to UTF-8 and back is the identity", "statement": "For every sequence of non-zero Unicode scalar values cs, fromUtf8(toUtf8(cs)) returns exactly cs.", "quantifier": "all finite sequences of code points in 1..0xD7FF and 0xE000..0x10FFFF", "why_tests_cant": "1.1 million code points and unbounded sequences; a wrong mask or boundary affects a handful of code points and the interaction between neighbouring encodings", "anchors": ["libs/utils/src/Utf8.cpp: convertToUtf8, convertOneUtf8, convertFromUtf8, toUtf8, fromUtf8"]}
{"id": "C02", "title": "Decoding then re-encoding is lossless exactly on well-formed UTF-8", "statement": "For every byte string s without a NUL byte, toUtf8(fromUtf8(s)) == s if and only if s is well-formed UTF-8 (RFC 3629).", "quantifier": "all byte strings without NUL", "why_tests_cant": "the set of ill-formed byte strings is infinite; every one must be changed by the round trip", "anchors": ["libs/utils/src/Utf8.cpp: fromUtf8, toUtf8", "libs/utils/include/kt_utils/Utf8.h"]}
{"id": "C03", "title": "Decoder is total and memory safe on arbitrary bytes", "statement": "For every byte string (well-formed or not) fromUtf8 terminates, never reads past the terminating NUL, yields no more code points than bytes, and yields only Unicode scalar values (never a surrogate, never above U+10FFFF).", "quantifier": "all byte strings", "why_tests_cant": "over-reads only occur for particular truncated sequences at the end of the buffer and pass silently in tests", "anchors": ["libs/utils/src/Utf8.cpp: convertOneUtf8, convertFromUtf8, getNextByte"]}
{"id": "C04", "title": "Encoder only ever emits well-formed UTF-8", "statement": "For every sequence of 32-bit values toUtf8 emits well-formed UTF-8, and a value that is not a Unicode scalar value is emitted as the bytes EF BF BD.", "quantifier": "all sequences of 32-bit code values", "why_tests_cant": "2^32 values per position and unbounded length", "anchors": ["libs/utils/src/Utf8.cpp: convertToUtf8, toUtf8"]}
{"id": "C05", "title": "Multi-byte validation accepts exactly the right strings", "statement": "validateMBUtf8(s) is Valid iff s starts with a well-formed multi-byte UTF-8 character, and validateMBUtf8(s, sizeOne=true) is Valid iff s (up to its first NUL) is exactly one well-formed multi-byte character; it is NotMultiByte iff s is empty or starts with an Ascii byte; otherwise the reported error is the one documented for Utf8Result.", "quantifier": "all byte strings and both values of sizeOne", "why_tests_cant": "accept sets of a byte-level recogniser cannot be enumerated", "anchors": ["libs/utils/src/Utf8.cpp: validateMBUtf8, validateMB, isValidMBUtf8", "libs/utils/include/kt_utils/Utf8.h: Utf8Result"]}
{"id": "C06", "title": "isValidUtf8 decides whether its input is valid UTF-8", "statement": "isValidUtf8(s) returns true iff s is well-formed UTF-8, and isValidUtf8(s, true) returns true iff s is exactly one well-formed UTF-8 character (documented: 's must consist of only one UTF-8 value').", "quantifier": "all byte strings and both values of sizeOne", "why_tests_cant": "needs a counterexample search over all strings or a proof; tests only use single characters", "anchors": ["libs/utils/src/Utf8.cpp: isValidUtf8", "libs/utils/include/kt_utils/Utf8.h: validateUtf8"]}
{"id": "C07", "title": "Bounded decoding is a prefix of full decoding", "statement": "fromUtf8(s, n) for n > 0 is the first n elements of fromUtf8(s); getCode(s) is the first element of fromUtf8(s), or 0 when s is empty.", "quantifier": "all byte strings and all n > 0", "why_tests_cant": "relates two runs for every length", "anchors": ["libs/utils/src/Utf8.cpp: fromUtf8, getCode, convertFromUtf8"]}
{"id": "C08", "title": "Hex, binary and Unicode text forms denote the number they were made from", "statement": "toHex(x) and toBinary(x) are digit strings whose positional value is x, at least the requested minimum size and with no superfluous leading zeroes beyond it; toUnicode(c) parses back to c with ColumnFile::getChar32 for every c below 0x100000.", "quantifier": "all unsigned values and minimum sizes", "why_tests_cant": "2^32 or 2^64 values", "anchors": ["libs/utils/include/kt_utils/String.h: toHex, toBinary", "libs/utils/src/String.cpp: addLeadingZeroes, toUnicode", "libs/utils/src/ColumnFile.cpp: getChar32"]}
{"id": "C09", "title": "Symbol interning is a stable bijection", "statement": "After any history of Symbol constructions, two Symbols are equal iff they were created from equal names, name() returns the creating name (empty name <-> id 0), ids never change, at most 65534 distinct names are ever held, and a construction that would exceed this throws and changes nothing while existing names still resolve.", "quantifier": "all finite histories of constructions of one symbol type", "why_tests_cant": "depends on the whole history, including capacity exhaustion", "anchors": ["libs/utils/src/Symbol.cpp: BaseSymbol::getId", "libs/utils/include/kt_utils/Symbol.h: Symbol::name, exists, size"]}
{"id": "C10", "title": "Enum list names convert both ways without loss", "statement": "For an EnumList built from distinct names, fromString(toString(x)) == x for every value x and fromString(s) succeeds iff s is one of the names; construction with a duplicate name throws.", "quantifier": "all lists of names and all enum values", "why_tests_cant": "for every instantiation and every list of names", "anchors": ["libs/utils/include/kt_utils/EnumList.h: BaseEnumList, EnumList, EnumListWithNone"]}
{"id": "C11", "title": "Enum container indexing rejects every out-of-range index", "statement": "operator[](i) of an EnumList/EnumMap returns the i-th element for i < size() and throws RangeError for every other size_t i.", "quantifier": "all size_t indices and all container sizes up to the enum limit", "why_tests_cant": "2^64 indices; the failing ones are far from the boundaries that tests probe", "anchors": ["libs/utils/include/kt_utils/EnumContainer.h: checkIndex, ConstIterator", "libs/utils/include/kt_utils/EnumList.h: operator[]"]}
{"id": "C12", "title": "Column files return the field under the requested header", "statement": "For every permutation of the header columns and every row with the right number of fields, get(column) returns the field under that column's name; a row with too few or too many fields is rejected with an error; rows are returned in file order with the right row number.", "quantifier": "all files, all permutations of columns and all rows", "why_tests_cant": "quantifies over files and column orders", "anchors": ["libs/utils/src/ColumnFile.cpp: ColumnFile::ColumnFile, nextRow, get, verifyHeaderColumns"]}
{"id": "C13", "title": "Numeric columns accept only decimal numbers within the limit", "statement": "getU64/getU32/getU16/getU8 return the decimal value of the field when it consists of decimal digits and the value is within the type's and caller's limit, and throw otherwise.", "quantifier": "all field strings and limits", "why_tests_cant": "the accepted language of a parser built on std::stoul is infinite", "anchors": ["libs/utils/src/ColumnFile.cpp: processU64, getU64, processUInt, getBool, getChar32"]}
{"id": "C14", "title": "Unicode block tests agree with the block tables for every code point", "statement": "Each is...() character test (Hiragana, Katakana, Kana, common/rare Kanji, Kanji, full width, punctuation, symbol, letter) returns true iff the code point lies in one of the blocks of the corresponding table, i.e. the early exit of the search never skips a containing block.", "quantifier": "all 32-bit code values", "why_tests_cant": "the early-exit search relies on the tables being sorted", "anchors": ["libs/utils/include/kt_utils/UnicodeBlock.h: inRange, is* functions and block tables"]}
{"id": "C15", "title": "Character categories do not overlap", "statement": "No code point is both common and rare Kanji, and the categories used for statistics (Hiragana, Katakana, common Kanji, rare Kanji, punctuation, symbol, letter) classify every code point in at most one category except for documented overlaps.", "quantifier": "all code points", "why_tests_cant": "1.1 million code points against nine table-driven tests", "anchors": ["libs/utils/include/kt_utils/UnicodeBlock.h", "libs/stats/src/Stats.cpp: processCount"]}
{"id": "C16", "title": "peek predicts next and iteration always terminates", "statement": "For every byte string and every position reached, peek(s) gives the same result as the following next(s), repeated next() reaches the end after at most size-in-bytes calls, and reset() restarts the iteration with identical results.", "quantifier": "all byte strings and all call histories of next/peek/reset", "why_tests_cant": "stateful iteration over arbitrary (also malformed) bytes", "anchors": ["libs/kana/src/Utf8Char.cpp: Utf8Char::next, peek, reset, doPeek"]}
{"id": "C17", "title": "Character iteration is lossless on valid text", "statement": "For valid UTF-8 without combining kana marks, the concatenation of all values returned by next() equals the text (restricted to multi-byte characters when onlyMB is set), the number of values equals size(), and errors() is zero.", "quantifier": "all well-formed UTF-8 strings", "why_tests_cant": "unbounded strings and interactions of variation selectors with neighbours", "anchors": ["libs/kana/src/Utf8Char.cpp: next, size"]}
{"id": "C18", "title": "Combining marks and variation selectors are folded into the preceding character", "statement": "For well-formed text, a Kana followed by a combining (semi-)voiced mark yields the precomposed Kana, any other character followed by one yields the plain character with the mark dropped, and a Kanji followed by a variation selector yields the two together; combiningMarks() and variants() count the marks and selectors consumed.", "quantifier": "all well-formed strings", "why_tests_cant": "unbounded contexts", "anchors": ["libs/kana/src/Utf8Char.cpp: next, processOne, validateMB", "libs/kana/src/Kana.cpp: dakuten tables"]}
{"id": "C19", "title": "Hiragana to Katakana and back is the identity", "statement": "For every text over the Kana table, prolong marks, iteration marks, delimiters and other non-kana characters, converting Hiragana to Katakana and back returns the original text.", "quantifier": "all strings over that alphabet", "why_tests_cant": "the converter is a look-ahead state machine; failures need particular neighbouring characters", "anchors": ["libs/kana/src/Converter.cpp: convert, fromKana, processKana"]}
{"id": "C20", "title": "Kana to Romaji and back is the identity", "statement": "For every text made of Kana-table characters (digraphs and sokuon included), wide delimiters and non-kana multi-byte characters, converting Hiragana (or Katakana) to Romaji with default flags and back returns the original text.", "quantifier": "all strings over that alphabet", "why_tests_cant": "unbounded strings; ambiguity (n before vowel, double consonants, small kana) is positional", "anchors": ["libs/kana/src/Converter.cpp: convert, fromKana, processKana, processRomaji", "libs/kana/src/Kana.cpp"]}
{"id": "C21", "title": "Converting kana converts all of it", "statement": "Converting Hiragana (or Katakana) input to another type leaves no Kana-table character of the source type unconverted in the result.", "quantifier": "all strings", "why_tests_cant": "the failing inputs need a sokuon, a kana and a small kana that do not form a known digraph", "anchors": ["libs/kana/src/Converter.cpp: processKana, fromKana"]}
{"id": "C22", "title": "Romaji input is case insensitive", "statement": "Converting Romaji to kana gives the same result for an input and its lower-cased form.", "quantifier": "all Ascii strings", "why_tests_cant": "depends on letter position within a syllable", "anchors": ["libs/kana/src/Converter.cpp: processRomaji, processRomajiMacron"]}
{"id": "C23", "title": "Text that is not of the source type passes through unchanged", "statement": "Characters that are neither source kana/romaji nor delimiters appear in the output unchanged and in order, and delimiters are mapped by a bijection between narrow and wide forms.", "quantifier": "all strings", "why_tests_cant": "unbounded interleavings", "anchors": ["libs/kana/src/Converter.cpp: convert"]}
{"id": "C24", "title": "Kana table is unambiguous", "statement": "No two entries of the Kana table share a Hiragana, a Katakana or a (variant) Romaji spelling, every dakuten/han-dakuten link relates the right characters, and Hiragana and Katakana members of an entry are the same distance apart in Unicode.", "quantifier": "all pairs of table entries and all lookups", "why_tests_cant": "a pairwise property over the whole table that the map construction silently tolerates in release builds", "anchors": ["libs/kana/src/Kana.cpp: Kana map, populate", "libs/kana/include/kt_kana/Kana.h"]}
{"id": "C25", "title": "Display width is bounded and additive", "statement": "displaySize(s) never exceeds s.size() for any byte string (so column padding never underflows), is additive over concatenation of well-formed strings, and wideSetw pads every string no wider than the column to exactly the column width.", "quantifier": "all byte strings", "why_tests_cant": "padding underflow produces a huge count only for particular strings", "anchors": ["libs/kana/src/DisplaySize.cpp", "libs/kana/include/kt_kana/DisplaySize.h: wideSetw"]}
{"id": "C26", "title": "Printed tables are aligned and complete", "statement": "For every table, each printed data row contains every cell in order and all rows occupy the same display width.", "quantifier": "all tables: any number of rows and columns, any cell text", "why_tests_cant": "unbounded table shapes and contents", "anchors": ["libs/kana/src/Table.cpp: Table::print, printMarkdown"]}
{"id": "C27", "title": "A choice prompt only returns an allowed answer", "statement": "Choice::get returns only a key of the given choices (or the quit key when enabled, or the default on an empty line), for every sequence of input lines, and it returns as soon as such a line is read.", "quantifier": "all input streams and choice maps", "why_tests_cant": "all input histories", "anchors": ["libs/kana/src/Choice.cpp: Choice::get, add, addRange"]}
{"id": "C28", "title": "A choice prompt terminates at end of input", "statement": "Choice::get returns (or throws) when the input stream is exhausted.", "quantifier": "all input streams", "why_tests_cant": "a hang on EOF cannot be asserted by an ordinary unit test", "anchors": ["libs/kana/src/Choice.cpp: Choice::get"]}
{"id": "C29", "title": "Morohashi ids round-trip through text", "statement": "MorohashiId(s) accepts exactly the documented forms (decimal 0..65535 with optional ', '', P, PP suffix or H prefix), its numeric value is the decimal value of the digits, MorohashiId(x.toString()) == x for every accepted x, and comparison is the lexicographic order on (value, type).", "quantifier": "all strings", "why_tests_cant": "infinite input language, overflow near 65535", "anchors": ["libs/kanji/src/MorohashiId.cpp: validate, getId, getIdType, toString"]}
{"id": "C30", "title": "Stroke counts are within documented limits", "statement": "Strokes can only be constructed with a value in 1..64 and, when a variant is given, value 2..64, variant 3..33 and different from the value; everything else throws.", "quantifier": "all integer arguments", "why_tests_cant": "all 16-bit pairs", "anchors": ["libs/kanji/src/Strokes.cpp"]}
{"id": "C31", "title": "List files give every entry its 1-based position and no duplicates", "statement": "After a list file loads successfully, list() contains no duplicates, getIndex(list()[i]) == i+1 for every i, getIndex of any other name is 0, and tokens shared with previously loaded lists of the same type are reported.", "quantifier": "all file contents and all histories of previously loaded lists", "why_tests_cant": "depends on history of static state and file contents", "anchors": ["libs/kanji/src/ListFile.cpp"]}
{"id": "C32", "title": "A failed list file load has no lasting effect", "statement": "If loading a list file throws, a later load of a corrected file with the same names succeeds.", "quantifier": "all histories of load attempts", "why_tests_cant": "needs a history with a failure in the middle", "anchors": ["libs/kanji/src/ListFile.cpp: load, addEntry"]}
{"id": "C33", "title": "UCD source letters round-trip", "statement": "For every set of sources, Ucd(getSources...) converts the source letters to bits and sources() converts back to the same letters in order; unknown or repeated letters are rejected; Joyo and Jinmei flags are independent of the source letters.", "quantifier": "all strings of letters and flags", "why_tests_cant": "2^n subsets and all rejected strings", "anchors": ["libs/kanji/src/Ucd.cpp: getSources, sources"]}
{"id": "C34", "title": "Looking up by frequency is correct for every frequency number", "statement": "After any sequence of Kanji insertions with frequencies, findByFrequency(f) returns the Kanji inserted with frequency f and null if there is none, for every f.", "quantifier": "all insertion histories and all frequency numbers", "why_tests_cant": "bucket arithmetic fails only for particular frequency ranges", "anchors": ["libs/kanji/src/KanjiData.cpp: addToFrequencies, findByFrequency"]}
{"id": "C35", "title": "Kanji ordering is a strict weak order", "statement": "orderByStrokes and orderByQualifiedName are strict weak orders, so sorting and ordered sets of Kanji are well defined.", "quantifier": "all triples of Kanji", "why_tests_cant": "transitivity over all triples", "anchors": ["libs/kanji/src/Kanji.cpp: orderByStrokes, orderByQualifiedName"]}
{"id": "C36", "title": "Statistics are ordered by count", "statement": "Stats::Count's operator< is a strict weak order and a Count with a higher count always sorts before one with a lower count.", "quantifier": "all pairs and triples of counts", "why_tests_cant": "order laws over all triples; using it in std::set with a non-order is undefined behaviour", "anchors": ["libs/stats/src/Stats.cpp: Stats::Count::operator<"]}
{"id": "C37", "title": "Character counts are exact", "statement": "After any history of add() calls, the count of each character equals the number of times it occurs in the added text, counts per tag sum to the totals, and the total equals the sum of the values returned by add().", "quantifier": "all histories of added strings and tags", "why_tests_cant": "depends on the whole history", "anchors": ["libs/stats/src/Utf8Count.cpp: Count::add, doAdd, map, tags"]}
{"id": "C38", "title": "Joining bracketed lines loses no text", "statement": "When a file is processed with a regex that may span two lines, the concatenation of the strings that are searched equals the concatenation of the file's lines in order, whatever brackets are open or closed.", "quantifier": "all files", "why_tests_cant": "any pattern of open/close brackets across lines, last line without close", "anchors": ["libs/stats/src/Utf8Count.cpp: processFileWithRegex, hasUnclosedBrackets"]}
{"id": "C39", "title": "Quiz scores add up", "statement": "For every sequence of answers, at the end of a quiz correct + mistakes + skipped equals the number of questions reached, none of the counters underflow, and mistakes lists exactly the questions answered wrongly.", "quantifier": "all sequences of user inputs, question counts up to 65535 and start positions", "why_tests_cant": "all interaction histories", "anchors": ["libs/quiz/src/Quiz.cpp", "libs/quiz/src/ListQuiz.cpp", "libs/quiz/src/GroupQuiz.cpp"]}
{"id": "C40", "title": "A multiple choice question offers exactly one right answer", "statement": "When the choices of a list quiz question are populated, all offered readings are distinct, the displayed correct position holds the question's own reading, and no other does.", "quantifier": "all question lists and all random number streams", "why_tests_cant": "randomised", "anchors": ["libs/quiz/src/ListQuiz.cpp: PopulateAnswers / populateAnswers"]}
{"id": "C41", "title": "Populating choices always terminates", "statement": "Populating the answers of a list quiz question terminates for every question list.", "quantifier": "all question lists and random streams", "why_tests_cant": "non-termination cannot be asserted by testing", "anchors": ["libs/quiz/src/ListQuiz.cpp: populateAnswers"]}
{"id": "C42", "title": "Group quiz answers are checked against the right reading", "statement": "For every group of 2..58 members and every complete assignment of answers made by answering, editing and refreshing in any order, each question has a distinct answer letter, and checking compares each question with the reading displayed beside the letter the user chose.", "quantifier": "all group sizes and all interaction histories", "why_tests_cant": "groups larger than 26 and arbitrary edit histories", "anchors": ["libs/quiz/src/GroupQuiz.cpp: getAnswers, editAnswer, checkAnswers, showGroup"]}
{"id": "C43", "title": "Jukugo lookup returns each compound once per kanji", "statement": "find(kanji) returns exactly the loaded Jukugo containing kanji, each once, in load order.", "quantifier": "all load histories", "why_tests_cant": "depends on the words loaded", "anchors": ["libs/quiz/src/JukugoData.cpp: createJukugo, find", "libs/quiz/src/Jukugo.cpp"]}
{"id": "C44", "title": "Command line data arguments are skipped consistently", "statement": "Iterating arguments with KanjiData::nextArg visits exactly the arguments that are not -data <path>, -debug or -info, in order, for every argument list.", "quantifier": "all argument lists", "why_tests_cant": "unbounded argument lists and positions", "anchors": ["libs/kanji/src/KanjiData.cpp: nextArg, getDebugMode", "libs/utils/include/kt_utils/Args.h"]}
{"id": "C45", "title": "Formatting text keeps all of it", "statement": "The format application prints every non-line-break character of its input exactly once and in order.", "quantifier": "all input texts", "why_tests_cant": "unbounded texts; the failing ones have a particular last line", "anchors": ["apps/formatMain.cpp"]}
{"id": "C46", "title": "Program mode arguments are parsed or rejected with a usage error", "statement": "A quiz program mode argument is accepted iff it has a documented form (-r or -t optionally followed by + or - and a question number) and every other argument starting with -r/-t is rejected with a DomainError.", "quantifier": "all argument strings", "why_tests_cant": "all strings", "anchors": ["libs/quiz/src/QuizLauncher.cpp: processProgramModeArg"]}
{"id": "C47", "title": "Malformed bytes never swallow the characters after them", "statement": "fromUtf8(a + b) == fromUtf8(a) + fromUtf8(b) for every NUL-free byte string a and every b that does not start with a continuation byte, however malformed a is.", "quantifier": "all pairs of byte strings, the second not starting with a continuation byte", "why_tests_cant": "the ways a sequence can be cut off or malformed before the next character are unbounded combinations of lead and continuation bytes", "anchors": ["libs/utils/src/Utf8.cpp: convertOneUtf8, convertFromUtf8, fromUtf8"]}
{"id": "C48", "title": "Enum iterators never leave their container", "statement": "Whatever sequence of ++, --, += and -= is applied to an EnumList or EnumMap iterator, including calls that throw, its position stays within [begin, end]; reading it throws RangeError exactly at end; incrementing from begin visits every value once in order; += to a position outside [begin, end] throws RangeError.", "quantifier": "all container sizes below 256, all histories of iterator calls", "why_tests_cant": "histories are unbounded and the casts between ptrdiff_t and uint8_t only misbehave at particular distances", "anchors": ["libs/utils/include/kt_utils/EnumContainer.h: Iterator operators", "libs/utils/include/kt_utils/EnumList.h", "libs/utils/include/kt_utils/EnumMap.h"]}
{"id": "C49", "title": "An enum map is a total map over its enum", "statement": "After any history of assignments m[x] = v to an EnumMap, reading a value x gives the last v assigned to x (or the default); None always reads as the default; assigning to None or beyond throws RangeError and changes nothing.", "quantifier": "all sizes below 256, all assignment histories, all enum values", "why_tests_cant": "assignment histories are unbounded; aliasing between neighbouring slots shows only for particular histories", "anchors": ["libs/utils/include/kt_utils/EnumMap.h: operator[]", "libs/utils/include/kt_utils/EnumContainer.h: checkIndex"]}
{"id": "C50", "title": "Regular expressions built from block ranges match exactly the named categories", "statement": "The bracket expressions built from the block tables (KanjiRange, HiraganaRange, KatakanaRange, KanaRange, CommonKanjiRange, RareKanjiRange and so on) match a wide character iff it lies in one of the blocks of that table. Indexing the range text gives start, '-', end for each block in table order, a NUL at its size and RangeError beyond it.", "quantifier": "all code points, all indexes", "why_tests_cant": "1.1 million code points per range and an index computed by division and remainder", "anchors": ["libs/utils/include/kt_utils/UnicodeBlock.h: BlockRange, KanjiRange, KanaRange"]}
{"id": "C51", "title": "First character and selector stripping follow their documentation", "statement": "Utf8Char::getFirst returns the first multi-byte character of a string with its selector (or nothing), and noVariationSelector returns every value of the iteration without its variation selector and leaves other values unchanged.", "quantifier": "all byte strings", "why_tests_cant": "malformed and mixed prefixes are unbounded", "anchors": ["libs/kana/src/Utf8Char.cpp: getFirst, isCharWithVariationSelector, noVariationSelector", "libs/kana/include/kt_kana/Utf8Char.h: documentation"]}
{"id": "C52", "title": "Converting does not depend on the compiler's order of evaluation", "statement": "The result of a conversion is the same whichever order the compiler evaluates the operands of + in.", "quantifier": "all strings, target types and flags, both orders", "why_tests_cant": "a test binary has one compiler's order built in; the difference shows only after particular combinations", "anchors": ["libs/kana/src/Converter.cpp: processKana, processKanaMacron"]}
{"id": "C53", "title": "Conversion is total", "statement": "Converting any byte string (malformed UTF-8 and embedded NULs included) to any type with any flags returns a string: it does not throw, loop or read outside its input.", "quantifier": "all byte strings, source types, target types and flags", "why_tests_cant": "unbounded malformed inputs", "anchors": ["libs/kana/src/Converter.cpp: convert, toKana, fromKana"]}
{"id": "C54", "title": "Every character is in exactly one row of the statistics", "statement": "Each multi-byte character found in the input, with its variation selector if any, is counted in exactly one of the nine rows (Hiragana, Katakana, Common Kanji, Rare Kanji, Non-UCD Kanji, MB-Punctuation, MB-Symbol, MB-Letter, Unrecognized), the one it belongs to, so the totals of the rows add up to the number of characters.", "quantifier": "all inputs, all contents of the UCD", "why_tests_cant": "depends on all code points, on every selector and on which of them the UCD has", "anchors": ["libs/stats/src/Stats.cpp: Stats::Stats, Pred rows", "libs/utils/src/UnicodeBlock.cpp"]}
{"id": "C55", "title": "Removing Furigana removes only Furigana", "statement": "RemoveFurigana with the default replacement takes out Kana in wide brackets directly after a Kanji or wide letter and keeps everything else in order; no Furigana is left, and brackets without a Kanji or letter before them are kept.", "quantifier": "all texts", "why_tests_cant": "any nesting or sequence of brackets and Kana", "anchors": ["libs/stats/src/Utf8Count.cpp: RemoveFurigana, DefaultReplace"]}
{"id": "C56", "title": "Breakdowns agree with their row", "statement": "The totals and numbers of different Kanji printed per type add up to those of the row, the examples are the first five of the type, and the file printed for a character is the first one with the highest count.", "quantifier": "all rows and tags", "why_tests_cant": "all distributions of counts over types and files", "anchors": ["libs/stats/src/Stats.cpp: printKanjiTypeCounts, printRareExamples, printBreakdown"]}
{"id": "C57", "title": "The debug option is found wherever it stands", "statement": "KanjiData::getDebugMode returns None without -debug and -info, the mode of the only such argument otherwise, and throws DomainError for more than one; the value given to -data is not taken for an option.", "quantifier": "all argument lists", "why_tests_cant": "any position and any number of arguments", "anchors": ["libs/kanji/src/KanjiData.cpp:210-224 getDebugMode"]}
{"id": "C58", "title": "Args holds what it was given and checks every access", "statement": "Args can be made exactly from a non-negative count of at most 65535 with a matching null or non-null pointer (RangeError or DomainError otherwise), and operator[] returns the i-th argument or throws RangeError.", "quantifier": "all counts, lists and positions", "why_tests_cant": "all integers as counts and positions", "anchors": ["libs/utils/include/kt_utils/Args.h", "libs/utils/src/Args.cpp"]}
{"id": "C59", "title": "Kanji info lists exactly the requested fields", "statement": "Kanji::info(fields) is the comma separated list, in a fixed order, of exactly the requested fields that have a value; a link is followed by * if it provides the readings and several old names are separated by a wide slash.", "quantifier": "all Kanji and all sets of fields", "why_tests_cant": "512 sets of fields times all combinations of missing values", "anchors": ["libs/kanji/src/Kanji.cpp:46-82 info", "libs/kanji/include/kt_kanji/Kanji.h:35-46"]}
{"id": "C60", "title": "Qualified names group the Kanji as documented", "statement": "qualifiedName() is the name with the suffix of the first documented group the Kanji belongs to, and orderByQualifiedName sorts the groups in the documented order and by strokes within a group.", "quantifier": "all Kanji", "why_tests_cant": "all combinations of type, level, frequency and Kyu", "anchors": ["libs/kanji/src/Kanji.cpp:84-91,123-138", "libs/kanji/include/kt_kanji/Kanji.h:180-197"]}
{"id": "C61", "title": "A Kanji is found by its names", "statement": "KanjiData accepts a Kanji exactly if no Kanji with its name was accepted before, and findByName(s) returns the first accepted Kanji with a variation selector whose compatibility name is s, else the Kanji accepted under name s, else null; insertions never fail.", "quantifier": "all insertion histories and all names", "why_tests_cant": "all histories; two maps have to stay consistent", "anchors": ["libs/kanji/src/KanjiData.cpp checkInsert, findByName"]}
{"id": "C62", "title": "Dictionary and grade lookups return exactly the matching Kanji in order", "statement": "findByMorohashiId and findByNelsonId return exactly the accepted Kanji with the given id in insertion order (a Kanji that lists a Nelson id n times is returned n times), and a grade's list holds exactly the accepted Kanji of that grade.", "quantifier": "all insertion histories and all ids", "why_tests_cant": "all histories", "anchors": ["libs/kanji/src/KanjiData.cpp checkInsert, findByMorohashiId, findByNelsonId, getNelsonIds"]}
{"id": "C63", "title": "Nelson ids written as comma separated numbers are read back", "statement": "KanjiData::getNelsonIds reads any list of 16 bit numbers joined with commas back as the same list.", "quantifier": "all lists of ids", "why_tests_cant": "all lists; stream state after each extraction", "anchors": ["libs/kanji/src/KanjiData.cpp getNelsonIds"]}
{"id": "C64", "title": "Loading the Unicode data accepts exactly the good files and holds what they say", "statement": "UcdData::load accepts a file exactly when every row is good (a Kanji name of at most 4 bytes whose code is in the code column, radical 1-214, known flags, link names with matching codes, link type, sources, strokes, Morohashi id), no name occurs twice and no two Jinmei rows link to the same Kanji; otherwise it throws DomainError. After loading, find(name) returns for each row exactly the data of that row.", "quantifier": "all lists of rows, all field contents", "why_tests_cant": "The conditions involve all columns and all pairs of rows; tests load one file.", "anchors": ["libs/kanji/src/UcdData.cpp:92", "libs/kanji/src/UcdData.cpp:182", "libs/kanji/src/Ucd.cpp:25"]}
{"id": "C65", "title": "Finding a Kanji with a variation selector gives the linked Jinmei entry", "statement": "find(base + selector) returns the Jinmei entry that has a link to the base character, or null; the selector itself plays no part.", "quantifier": "all loaded files, all base characters, all selectors", "why_tests_cant": "Tests look up a few names.", "anchors": ["libs/kanji/src/UcdData.cpp:60", "libs/kana/src/Utf8Char.cpp:72"]}
{"id": "C66", "title": "Readings as kana are the converted readings separated by wide commas", "statement": "getReadingsAsKana returns the On readings in Katakana followed by the Kun readings in Hiragana as one list separated by '、'.", "quantifier": "all lists of readings that convert to something", "why_tests_cant": "The conversion is of the whole string; that it splits into readings holds for all strings only by an argument about the converter.", "anchors": ["libs/kanji/src/UcdData.cpp:75"]}
{"id": "C67", "title": "A choice prompt lists exactly the choices", "statement": "The prompt written by Choice::get, once per line read, lists exactly the allowed choices in order: described ones as c=description, the others in ranges as large as possible, so that the listing determines the choices.", "quantifier": "all choice maps, quit options, defaults and input streams", "why_tests_cant": "the ranges depend on which of all subsets of characters are choices", "anchors": ["libs/kana/src/Choice.cpp: Choice::add, get"]}
{"id": "C68", "title": "Byte tests and letter case act on ASCII only", "statement": "toChar accepts exactly the values of a char; isSingleByte, isAllSingleByte and isAnySingleByte decide what their names say for every byte string; toLower, toUpper, firstLower and firstUpper change ASCII letters only, so that UTF-8 text stays UTF-8 text with all other characters unchanged.", "quantifier": "all integers, all byte strings, all texts", "why_tests_cant": "unbounded strings; corruption would only show for particular multi-byte characters", "anchors": ["libs/utils/src/String.cpp: toChar, isSingleByte, isAllSingleByte, isAnySingleByte, firstLower, firstUpper, toLower, toUpper"]}
{"id": "C69", "title": "Every quiz prompt shows the question the keys lead to", "statement": "In a list quiz or review that returns, every prompt shows the question reached by the keys before it ('.' and answers go on, ',' back, '-' toggles meanings, '/' ends), the reply to the last key, the offered answers and the right choices; the keys are the first valid answers among the input lines and other lines are skipped.", "quantifier": "all Kanji lists, orders, start questions, styles, inputs and random values", "why_tests_cant": "all interaction histories", "anchors": ["libs/quiz/src/ListQuiz.cpp", "libs/quiz/src/Quiz.cpp"]}
{"id": "C70", "title": "Quizzes that cannot start are refused before anything is asked", "statement": "A list quiz is refused with a DomainError exactly when some Kanji has no reading or the start question is past the end of the list; nothing is asked or read then, and in quiz mode a final score is still printed that counts the start question as passed and skipped.", "quantifier": "all Kanji lists, start questions and settings", "why_tests_cant": "all lists and start questions; output during stack unwinding", "anchors": ["libs/quiz/src/ListQuiz.cpp: ListQuiz::ListQuiz", "libs/quiz/src/Quiz.cpp: ~Quiz, finalScore, beginQuizMessage"]}
{"id": "C71", "title": "Groups have 2 to 58 different members", "statement": "A meaning or pattern group can be made exactly from 2 to 58 members with pairwise different names (and, for pattern groups, a pattern type); everything else is refused with a DomainError.", "quantifier": "all numbers, names, member lists and pattern types", "why_tests_cant": "all member lists, duplicates at any distance", "anchors": ["libs/quiz/src/Group.cpp: Group::Group, PatternGroup::PatternGroup"]}
{"id": "C72", "title": "Every group quiz prompt shows the table the keys lead to", "statement": "In a group quiz or review that returns, every prompt shows the table reached by the keys before it (answers, '*' edits, ''' refreshes, '-' toggles meanings, '.' and ',' move, '/' ends), with the members, letters, readings and answers given so far, and offers exactly the keys that make sense there; the keys are the first valid answers among the input lines.", "quantifier": "all group lists, settings, inputs and random values", "why_tests_cant": "all interaction histories", "anchors": ["libs/quiz/src/GroupQuiz.cpp: start, showGroup, getAnswers, getAnswer, editAnswer"]}
{"id": "C73", "title": "Group quizzes ask the groups and members that were chosen", "statement": "A group quiz asks the groups with at least two members in the chosen set (Jouyou, also JLPT, also with frequency, all), all of them or, for pattern groups, those of the chosen part of the list, in the chosen order; for each group both columns show exactly its members in the chosen set. Each entry is the qualified name, the pinyin and in reviews the other group's number, padded to 22 columns.", "quantifier": "all group lists, member types, orders, keys and random values", "why_tests_cant": "all lists and settings", "anchors": ["libs/quiz/src/GroupQuiz.cpp: prepareList, includeMember, addPinyin, addOtherGroupName, showGroup"]}
{"id": "C74", "title": "The outcome of a group quiz is decided by its input", "statement": "For every list of input lines exactly one of three holds: the lines lead to the end of the quiz and it returns; they lead to a key that completes a group with more than 26 shown members and checking it is undefined behaviour; they end before the quiz does and it asks forever.", "quantifier": "all group lists, settings, inputs and random values", "why_tests_cant": "all interaction histories including endless ones", "anchors": ["libs/quiz/src/GroupQuiz.cpp: start, getAnswers, checkAnswers"]}
{"id": "C75", "title": "Group quizzes that cannot start are refused", "statement": "A group quiz without groups, or with a start question past the last group kept, throws a DomainError before any group is shown; '/' at the pattern name prompt ends the quiz; in quiz mode a final score that counts the start question as passed and skipped is printed in each case.", "quantifier": "all group lists, start questions, settings and inputs", "why_tests_cant": "all lists and start questions; output during stack unwinding", "anchors": ["libs/quiz/src/GroupQuiz.cpp: GroupQuiz::GroupQuiz, start", "libs/quiz/src/Quiz.cpp: beginQuizMessage, finalScore"]}
{"id": "C76", "title": "Romaji spellings follow the chosen system", "statement": "The Rōmaji of a Kana is its usual spelling, its Hepburn spelling under the Hepburn flag and its Kunrei spelling under the Kunrei flag; the spelling after a small tsu repeats its first letter, with t before Hepburn ch; an iteration mark repeats the Kana before it, plain or voiced; the text of a flag set names exactly its flags.", "quantifier": "all Kana, flag sets and Kana before a mark", "why_tests_cant": "every Kana under every flag set, in one statement", "anchors": ["libs/kana/src/Kana.cpp: getRomaji, getSokuonRomaji, IterationMark::get", "libs/kana/src/Converter.cpp: flagString"]}
{"id": "C77", "title": "Radicals are found by number and by name", "statement": "RadicalData::load accepts a file exactly when the Number column of every row is the row's own number (1, 2, ... up to 255). find(Number) then gives the radical of that row with its names, long name and reading, find(String) gives the last radical whose first name is that text, and every other number or text is refused with DomainError.", "quantifier": "for all files of rows, all numbers and all texts", "why_tests_cant": "tests load one file of 214 radicals and look up a few; they cannot show what happens for every possible file, number and name, and they do not have two radicals with one name", "anchors": ["libs/kanji/src/RadicalData.cpp:35-67", "libs/kanji/src/Radical.cpp", "libs/kanji/include/kt_kanji/RadicalData.h"]}
{"id": "C78", "title": "Frequency, kyu, level and grade of a Kanji agree with the data files", "statement": "After TextKanjiData is constructed, the kyu of every Kanji is that of the kyu list with its name, its frequency is its place in the frequency list (0 if not in it), the level of the Kanji found for its own name is that of the level list with the name, and exactly the Jouyou Kanji have a grade.", "quantifier": "for all contents of the list files, all rows of the other files, all static state left by earlier objects and all loaded Kanji", "why_tests_cant": "tests check a handful of Kanji in one shipped data set; which class makes a Kanji (and so which constructor sets the attributes) depends on all files and on the order of loading", "anchors": ["libs/kanji/src/TextKanjiData.cpp:21-173", "libs/kanji/src/OfficialKanji.cpp", "libs/kanji/src/Kanji.cpp:106-253", "libs/kanji/src/KanjiData.cpp:44-89"]}
{"id": "C79", "title": "The list of a type has exactly the loaded Kanji of the type", "statement": "KanjiData::types(t) has exactly the Kanji of type t that findByName and nameMap know, each once, and for Jouyou, Jinmei and Extra one Kanji for each row of the file in order with the name, radical, strokes, grade and old names of the row.", "quantifier": "for all data files that load, all types and all Kanji", "why_tests_cant": "tests compare sizes and a few members of the lists for one data set without duplicate names; agreement of lists and name map is an invariant over the whole loading sequence", "anchors": ["libs/kanji/src/TextKanjiData.cpp:78-132", "libs/kanji/src/KanjiData.cpp:199-213", "libs/kanji/include/kt_kanji/OfficialKanji.h:205-212"]}
{"id": "C80", "title": "The lists of levels and kyus are the files in order", "statement": "levels(v) and kyus(v) are, in the order of the file, the Kanji that findByName gives for each name in the list file of v, as long as no name in these files is the compatibility name of a Kanji with a variation selector.", "quantifier": "for all data files that load, all levels, kyus and positions", "why_tests_cant": "tests look at sizes only; the order and the absence of Kanji of other files cannot be settled by examples", "anchors": ["libs/kanji/src/TextKanjiData.cpp:44-51", "libs/kanji/src/TextKanjiData.cpp:134-173"]}
{"id": "C81", "title": "Every name in a data file is found after loading", "statement": "After loading, findByName finds a Kanji for every name of a row of the Jouyou, Jinmei, Extra and Unicode files, every word of the level, kyu and frequency lists, every name in the linked Jinmei file and every old name of a loaded Jouyou or Jinmei Kanji.", "quantifier": "for all data files that load and all names in them", "why_tests_cant": "tests look up some names; that no later insertion or skipped Kanji makes a name disappear is a statement about all files", "anchors": ["libs/kanji/src/TextKanjiData.cpp:21-173", "libs/kanji/src/KanjiData.cpp:319-327", "libs/kanji/src/KanjiData.cpp:91-97"]}
{"id": "C82", "title": "Linked Kanji lead to the Kanji they belong to", "statement": "A loaded Kanji of type LinkedOld has as new name the name of a loaded Jouyou Kanji that has it among its old names. One of type LinkedJinmei has as new name the name of a loaded Jouyou (or Jinmei) Kanji that is on the same line of the linked Jinmei file, or of a Kanji of the Jinmei list that has it among its old names. Neither has old names.", "quantifier": "for all data files that load and all loaded Kanji", "why_tests_cant": "tests check single linked Kanji; the link is chosen while iterating over a map that is changed at the same time", "anchors": ["libs/kanji/src/TextKanjiData.cpp:89-125", "libs/kanji/src/OfficialKanji.cpp:89-117"]}
{"id": "C83", "title": "Kanji have the values of their Unicode entry", "statement": "Every loaded Kanji whose name is that of a row of the Unicode file has the pinyin, Morohashi id and Nelson ids of that row and no compatibility name; it has its strokes unless it is a Jouyou or Extra Kanji, and its radical unless it is a Jouyou, Jinmei or Extra Kanji.", "quantifier": "for all data files that load, all rows of the Unicode file and all loaded Kanji", "why_tests_cant": "tests check a few Kanji; there are eight classes with different constructors, which read different things from the row", "anchors": ["libs/kanji/src/Kanji.cpp:106-253", "libs/kanji/src/OfficialKanji.cpp", "libs/kanji/src/KanjiData.cpp:44-89"]}
{"id": "C84", "title": "Jukugo are words of at least two Kanji with a Hiragana reading", "statement": "A Jukugo can be made from a name and a reading exactly when the name has at least two Kanji and the reading is all Hiragana, with the prolong mark allowed; every other name or reading is refused with DomainError.", "quantifier": "for all names, readings and grades", "why_tests_cant": "tests make a few good and bad words; which of all texts are taken cannot be settled by examples, and a reading of Ascii letters is not among those tested", "anchors": ["libs/quiz/src/Jukugo.cpp", "libs/quiz/include/kt_quiz/Jukugo.h"]}
{"id": "C85", "title": "The quiz command line is read as its help describes", "statement": "The constructor of QuizLauncher starts with the mode, order, first question, quiz type, list and meanings setting that the options stand for exactly when all arguments are documented options with at most one mode and one quiz type (a final -- is allowed). It shows the help exactly when -h follows such options, and the details of an argument exactly when it is the first one after them that is not an option or that follows --. The order of options does not matter, and every other command line is refused with an exception.", "quantifier": "for all command lines of fewer than 65535 arguments", "why_tests_cant": "tests try some dozens of command lines; that no other combination or spelling is accepted is a statement about all lists of strings", "anchors": ["libs/quiz/src/QuizLauncher.cpp:75-100", "libs/quiz/src/QuizLauncher.cpp:245-313", "libs/kanji/src/KanjiData.cpp:23-38"]}
{"id": "C86", "title": "Groups are loaded as the files describe them", "statement": "GroupData loads exactly when every row has a name of multi-byte characters, members that are all found, a number up to 65535 and two to 58 different members; everything else is refused with DomainError. The groups are those of the rows in order: a name that starts with the wide colon makes a peer group, one with the colon inside a family headed by its first character, any other a reading group. meaningMap gives for every Kanji exactly the groups it is a member of in the order of the file, patternMap the first one.", "quantifier": "for all rows of both files, all lookup functions for Kanji and all names", "why_tests_cant": "tests load one data set and some bad rows; agreement of the maps with the lists is an invariant over all rows", "anchors": ["libs/quiz/src/GroupData.cpp:21-104", "libs/quiz/src/Group.cpp:9-49", "libs/quiz/include/kt_quiz/GroupData.h"]}
{"id": "C87", "title": "A Kanji argument shows exactly the Kanji it names", "statement": "An argument is a Kanji, a frequency, 'm' with a Morohashi id, 'n' with a Nelson id or 'u' with a Unicode code of four or five hex digits. Each such argument has one meaning and shows the details of what it stands for; every other argument is refused with DomainError. All forms that name the same Kanji show the same text. A 'u' code is a Kanji.", "quantifier": "for all arguments without NUL bytes and all loaded data", "why_tests_cant": "tests use a handful of arguments on the shipped data; that every other string is refused and that the five forms agree is a statement about all strings and all data", "anchors": ["libs/quiz/src/QuizLauncher.cpp:291-296", "libs/quiz/src/QuizLauncher.cpp:315-357", "libs/kanji/src/KanjiData.cpp:101-135"]}
{"id": "C88", "title": "The details shown for a Kanji are complete and correct", "statement": "Details show the Kanji with its code, its block, version and sources (or that it is not in the file, or not loaded), type, attributes, meaning and reading, then exactly the other members of its first pattern group unless that is a reading group, in the order of qualified names and each with its suffix, its Morohashi and Nelson ids, exactly the meaning groups it belongs to in order, and its Jukugo. The line of similar Kanji does not depend on how std::sort works when no two members compare equal.", "quantifier": "for all Kanji, all group files that load, all Jukugo data and every sort that orders by the given comparison", "why_tests_cant": "tests compare a few printed blocks; which Kanji appear in the lists for every Kanji and every data set is not covered", "anchors": ["libs/quiz/src/QuizLauncher.cpp:158-217", "libs/quiz/src/QuizLauncher.cpp:359-382"]}
{"id": "C89", "title": "Jukugo of a Kanji are all shown, in aligned columns", "statement": "Every Jukugo of the Kanji is shown exactly once per entry of the list: in one list, or first those of the grade of the Kanji and then the others when there are more than three and some have another grade. Up to three are on the line of the label, otherwise the count is shown and the entries are three to a line, where the entries of a column start at the same place on the screen and are at least two spaces apart.", "quantifier": "for all Jukugo data, all Kanji and all entries of well-formed text", "why_tests_cant": "tests print a few Kanji; alignment for all display widths and that no entry is lost or repeated at the end of a line is a statement about all lists", "anchors": ["libs/quiz/src/QuizLauncher.cpp:395-443", "libs/kana/include/kt_kana/DisplaySize.h"]}
{"id": "C90", "title": "A quiz asks only for what the options left open and runs for the chosen list", "statement": "For every command line that stands for options, every data set with its ten frequency lists and every input, starting a quiz asks, each at most once and in this order, for the mode, the list order, the quiz type, the list and (for a test of a list) the number of choices and the style, but only for what the options did not give; '/' at any of them starts nothing; otherwise the quiz that runs is the one for exactly the list that the key names (every frequency list, grade, kyu, level and member type has a key), in the chosen mode and order, without the field that is the same for the whole list, and it goes on with the rest of the input.", "quantifier": "all command lines that are accepted, all data, groups, inputs, random sources and numbers of steps", "why_tests_cant": "The prompts depend on every combination of options and answers, including wrong lines, empty lines, quitting at any point and the end of the input; tests try a few scripts.", "anchors": ["libs/quiz/src/QuizLauncher.cpp:51-72", "libs/quiz/src/QuizLauncher.cpp:102-152", "libs/quiz/src/QuizLauncher.cpp:219-243", "libs/quiz/src/QuizLauncher.cpp:384-393", "libs/quiz/src/QuizLauncher.cpp:445-477"]}
{"id": "C91", "title": "After a start the launcher asks again for mode and order", "statement": "When start returns, the launcher has neither a mode nor a list order, so a later call of start asks for both again.", "quantifier": "all options, data, inputs and starts that return", "why_tests_cant": "It concerns the state left behind by every way in which start can return.", "anchors": ["libs/quiz/src/QuizLauncher.cpp:102-110", "libs/quiz/src/QuizLauncher.cpp:149-152", "libs/quiz/src/QuizLauncher.cpp:384-393"]}
{"id": "C92", "title": "kanaConvert does the one thing its arguments ask for, or refuses them and writes nothing", "statement": "For all arguments (fewer than 65535): they spell, by the usage message, exactly one task (help, texts, chart, lines of input), with the last target, the last source and all flags that were given, or the program throws DomainError before writing anything. Given texts (also everything behind '--') it writes the conversion of each of them in order and then a newline; '-?' writes only the usage message.", "quantifier": "all argument lists, texts, flags, both kinds of input and both orders of evaluation", "why_tests_cant": "Arguments combine without bound and later ones override or forbid earlier ones; tests try a few lists.", "anchors": ["libs/kana/src/KanaConvert.cpp:107-138", "libs/kana/src/KanaConvert.cpp:140-188", "libs/kana/src/KanaConvert.cpp:190-236"]}
{"id": "C93", "title": "kanaConvert reads lines of input as its help says", "statement": "Every input is split into lines in one way. An interactive session shows the options first and then, line by line: converts a text, ignores an empty line, clears flags for 'c', asks for a flag for 'f' until one of the four letters comes, shows the help for 'h', sets target or source for '-x' with a letter of the six, reports other options, ends at 'q' or the end of the input, and shows the options again after each change. Piped input gives the conversion of each line on a line of its own (without newlines for '-n').", "quantifier": "all inputs, options, numbers of lines and both orders of evaluation", "why_tests_cant": "Sessions are unbounded sequences of lines whose meaning depends on all lines before.", "anchors": ["libs/kana/src/KanaConvert.cpp:238-280", "libs/kana/src/Choice.cpp:32-70"]}
{"id": "C94", "title": "Texts given to kanaConvert are separated by a space, and -n leaves out the newline", "statement": "Converted texts are separated by a space of the width of the output (unless spaces are removed from Kana), followed by a newline unless '-n' is given.", "quantifier": "all argument lists with texts", "why_tests_cant": "It concerns every combination of target, flags and mode; the tests only look at Hiragana and Katakana with a newline.", "anchors": ["libs/kana/src/KanaConvert.cpp:190-200", "libs/kana/src/KanaConvert.cpp:222-236"]}
{"id": "C95", "title": "The Kana chart is true", "statement": "What the notes above the chart say holds for every row: Roma converts to Hira and Kata and back, variants convert to the same Kana, Hepb and Kunr are shown exactly if they give another output, in brackets exactly if typing them gives another Kana, Unicode values are those of single symbols, types follow the marks; Roma (with variants), Hira and Kata are unique, rows are sorted by Hiragana, every Kana of the converter and every Hiragana symbol from U+3041 to U+3096 has a row, and the totals are the numbers of rows.", "quantifier": "all rows of the chart, all argument lists that ask for it, both formats and both orders of evaluation", "why_tests_cant": "Tests compare the output with a stored copy, which says nothing about whether the rows agree with what the converter does.", "anchors": ["libs/kana/src/KanaConvert.cpp:12-103", "libs/kana/src/KanaConvert.cpp:282-326", "libs/kana/src/Kana.cpp:20-170"]}
{"id": "C96", "title": "The counts printed after loading are those of the loaded Kanji", "statement": "The line 'Loaded' has the number of loaded Kanji and the size of the list of each type, and in full mode there is a line for each of the seven properties (level, frequency outside of Jouyou and JLPT, Jinmei without either, no frequency, variant strokes, variation selectors, old forms) that some Kanji have, with the total, the number for each type that has some, separated by commas, and the first five names for selectors. The sizes add up to the number of loaded Kanji.", "quantifier": "all loaded data, both modes", "why_tests_cant": "Commas depend on a running total that is subtracted; tests compare the output for one data set.", "anchors": ["libs/kanji/src/KanjiData.cpp:343-398", "libs/kanji/src/KanjiData.cpp:463-474"]}
{"id": "C97", "title": "The breakdown by grade counts every Jouyou Kanji once", "statement": "There is one line for each grade that Jouyou Kanji have, with their number, how many have no frequency and the number for each level; the total is the number of Jouyou Kanji, and after loading it is the number of rows of the file and no Kanji is without grade.", "quantifier": "all loaded data, all files", "why_tests_cant": "It is a statement about all possible lists of Kanji and all files.", "anchors": ["libs/kanji/src/KanjiData.cpp:399-428"]}
{"id": "C98", "title": "The breakdowns by level and by kyu count every Kanji once", "statement": "There is one line for each level (kyu) that Kanji have, None included, with their number and the number for each type; the total is the number of Kanji in all lists.", "quantifier": "all loaded data", "why_tests_cant": "It is a statement about all possible lists of Kanji.", "anchors": ["libs/kanji/src/KanjiData.cpp:430-461"]}
{"id": "C99", "title": "The report on radicals has every common Kanji once, under its radical", "statement": "After loading any files the report has, in the order of the radicals, a line for each radical of a loaded Kanji in a common block, with the number of these Kanji, the number of each type and at most twelve of them in the order of strokes; the totals are the numbers of all common Kanji, and the radicals without any are listed.", "quantifier": "all files that load, every correct std::sort", "why_tests_cant": "It depends on radicals found by name and by number agreeing, for any files.", "anchors": ["libs/kanji/src/RadicalData.cpp:13-29", "libs/kanji/src/RadicalData.cpp:69-126", "libs/kanji/src/Radical.cpp:20-23"]}
{"id": "C100", "title": "Debug output does not change the outcome of loading", "statement": "If files load without a debug mode they load with '-info' and '-debug'. The former prints the counts and the grades, the latter all reports: strokes that differ from those of the Unicode data, counts, grades, levels, kyus, radicals, and for the Unicode data the counts, the links of the Frequency and Extra Kanji and the Kanji with variation selectors.", "quantifier": "all files that load, every correct std::sort", "why_tests_cant": "The outcome depends on entries being found for all Kanji that could be loaded.", "anchors": ["libs/kanji/src/KanjiData.cpp:142-171", "libs/kanji/src/KanjiData.cpp:329-341", "libs/kanji/src/UcdData.cpp:138-180", "libs/kanji/src/UcdData.cpp:215-236"]}
{"id": "C101", "title": "The reports on groups list every group, its members and the Kanji in several groups", "statement": "With a debug mode, loading groups prints for the meaning groups the number of memberships and of groups and, if some Kanji is in several, how many are in one and in several groups and which are in how many; for the pattern groups the number of different Kanji and of groups; for both, for each type that has Kanji in a group, how many, of how many, and the first twelve in no group. In full mode there is a line for each group with its number, name, number of members and all members with their suffixes. The outcome of loading does not change.", "quantifier": "all data and groups that load, any state of the output stream", "why_tests_cant": "Counts come from runs of equal keys, wrapping subtraction and alignment left over from earlier output; tests see one small set of groups.", "anchors": ["libs/quiz/src/GroupData.cpp:21-31", "libs/quiz/src/GroupData.cpp:106-224"]}
{"id": "C102", "title": "The numbers in the reports on groups agree with each other", "statement": "The number of unique Kanji is the sum of those in one group and of those in several; it is the sum over the types of the Kanji in groups; the number of memberships is the sum over the Kanji of the numbers of their groups; every Kanji in several groups is in the list of exactly that number of groups, and the last list is not empty.", "quantifier": "all data and groups that load", "why_tests_cant": "It relates three independently computed counts for all possible groups.", "anchors": ["libs/quiz/src/GroupData.cpp:176-224"]}
{"id": "C103", "title": "kanjiStats prints one report for each path in order, or help, or stops at what is wrong", "statement": "Of the switches before '--' the first that is neither -b nor -v decides: -h prints the help and nothing else, any other is an error before anything is printed. Without such a switch a report is printed for each other argument in order, all with the breakdown if -b is given anywhere and all with the replacements if -v is given anywhere; the first path that leads to nothing stops the program with an error after the reports about the paths before it. No path is an error unless a debug option was given. Options about the data and their values are not seen.", "quantifier": "all argument lists shorter than 65535, all file systems of regular files, directories and links, all loaded data", "why_tests_cant": "The arguments interact in every order, with '--' and options for the data anywhere; tests try a few lists.", "anchors": ["libs/stats/src/Stats.cpp:26-49", "libs/stats/src/Stats.cpp:51-92", "apps/statsMain.cpp:4-14"]}
{"id": "C104", "title": "Printed percentages are the nearest ones, and those of all parts add up to 100", "statement": "The percentage printed for a part of a total, with 1 or 2 decimals, is a decimal number nearest to the exact percentage, although it is computed with rounded binary numbers; all of a total prints as 100.00; the sum of the percentages of k parts of a total differs from 100 by at most k/2 units of the last decimal.", "quantifier": "all parts and totals below 2^46 / 10^decimals", "why_tests_cant": "Double rounding can change the last digit for particular pairs out of billions.", "anchors": ["libs/stats/src/Stats.cpp:20-22", "libs/stats/src/Stats.cpp:83-90", "libs/stats/src/Stats.cpp:218-232"]}
{"id": "C105", "title": "The report about a file or directory has exactly the counts, examples, breakdown and totals of its characters", "statement": "The report has, in this order: with -v each line that Furigana was removed from as it was and as it is then, numbered, below the name of its file; a header with the last name of the path, the numbers of files and directories if there are several, and the numbers of lines with Furigana removed, of combined marks, of variation selectors and of errors; for each of the nine rows that has characters its number of characters and of different ones; for Common Kanji a line per type with number, different ones, percentage and the five first; for other Kanji the five first; with -b, and always for Unrecognized, a line for every character with its number and its frequency, level and type or its code points and the file that has most of it (the first by name of several); last the total of Kana and Kanji and their percentages.", "quantifier": "all file systems, all texts including malformed ones, all loaded data, any balanced tree behind std::set", "why_tests_cant": "Every part is computed from a separate counter with its own options; tests compare a few texts.", "anchors": ["libs/stats/src/Stats.cpp:51-273", "libs/stats/src/Utf8Count.cpp:28-124"]}
{"id": "C106", "title": "The lines of the types share out all common Kanji, each under the type of its loaded Kanji", "statement": "In the report the numbers (and the numbers of different characters) in the lines of the types add up to those of Common Kanji, and each Common or Rare Kanji is listed with the loaded Kanji of its name, so none is counted for the type None.", "quantifier": "all data files that load, all texts", "why_tests_cant": "It relates the Unicode lookup that chooses the row with the name lookup that chooses the type, for every character.", "anchors": ["libs/stats/src/Stats.cpp:63-75", "libs/stats/src/Stats.cpp:156-166", "libs/stats/src/Stats.cpp:208-233", "libs/kanji/src/KanjiData.cpp:66-68"]}
{"id": "C107", "title": "Every loaded Kanji has the meaning, reading, number, year, reason and linked names that the files give it", "statement": "The Kanji made for a row of the Joyo, Jinmei or Extra file has the reading and number of the row, its year (0 if empty), for Joyo and Extra the meaning, for Jinmei one of the six reasons by its name. The meaning of a Jinmei Kanji and of every Kanji in no official list is that of the Unicode row with its name; the reading of the latter is that row's readings in Kana unless it is a frequency Kanji with an extra reading. Links of that row are old names if their type is Traditional, otherwise the first is the new name; the readings are marked as linked exactly if the type ends with *. Linked Kanji have the meaning and reading of the Kanji they are linked to (C82).", "quantifier": "all data files that load, all Kanji loaded from them", "why_tests_cant": "There are over ten thousand Kanji from six files, with seven constructors that each take different fields from different places; tests look at single Kanji.", "anchors": ["libs/kanji/src/OfficialKanji.cpp:9-117", "libs/kanji/src/Kanji.cpp:172-253", "libs/kanji/src/TextKanjiData.cpp:71-158", "libs/kanji/src/Ucd.cpp:59-84"]}
{"id": "C108", "title": "The errors printed while loading are exactly what is wrong with the data files", "statement": "Loading prints an error for each time a name comes again in the official files (Joyo, second names of linked Jinmei lines, old names that got a Kanji, Jinmei names and old names, Extra); for each loaded Kanji without a Unicode entry, or a Joyo, Jinmei or linked Jinmei Kanji whose entry is not marked as such, or a linked Jinmei Kanji whose entry has no links; and for each loaded Kanji with a variation selector that is not found by its name without it. There are no other errors and none is printed twice. The text has the name, the codes in hex, and the name without a selector; errors are numbered from one with four digits.", "quantifier": "all data files that load, all modes", "why_tests_cant": "The unit tests catch single messages for crafted files; that nothing wrong is passed over in silence, and that good files give no error, is a claim about all files.", "anchors": ["libs/kanji/src/KanjiData.cpp:136-140", "libs/kanji/src/KanjiData.cpp:226-250", "libs/kanji/src/KanjiData.cpp:297-318", "libs/kanji/src/TextKanjiData.cpp:71-132"]}
{"id": "C109", "title": "With -debug loading prints which Kanji of the level and frequency lists have which type", "statement": "With -debug the output of loading is the text 'Begin Loading Data', for each level list with Jinmei Kanji a line with their number and names in the order of the list, then up to five lines for the frequency list: linked old Kanji, those in no official list, Jinmei with a level, Jinmei without, and linked Jinmei (which never have a level), and then the report (C97 to C100). Without -debug there is only the report, and nothing is printed for kyu lists. A Kanji is counted by the type it has after loading.", "quantifier": "all data files that load whose listed names lead to the Kanji of that name, all modes", "why_tests_cant": "What is printed is collected while Kanji are made one after another; that it agrees with the data in the end needs an argument about the whole of loading.", "anchors": ["libs/kanji/src/TextKanjiData.cpp:134-200", "libs/kanji/src/KanjiData.cpp:146-157", "libs/kanji/src/ListFile.cpp:25-35"]}
{"id": "C110", "title": "Debug options have no influence on the loaded data or the errors", "statement": "If loading succeeds in any mode then the data is the same as in any other mode. Without -debug loading succeeds exactly if it does so without any option; with -debug it also needs a Unicode entry for every loaded Kanji with a variation selector. The errors are the same in all modes, in the same order, even if loading fails.", "quantifier": "all data files, all modes", "why_tests_cant": "Tests load their files in one mode each; nothing compares the data of two modes.", "anchors": ["libs/kanji/src/TextKanjiData.cpp:21-53", "libs/kanji/src/KanjiData.cpp:134-157"]}
{"id": "C111", "title": "Reading a table gives its rows whatever the order of the columns", "statement": "The loops over a ColumnFile that load the data see exactly the rows of the table: for each line below the header the fields under the names asked for, in the order of the code, wherever the columns are in the file; one more empty field at the end of a line is ignored. A file whose header does not have exactly the columns is refused, a line with another number of fields ends the loop with an error after the rows above it were processed, and columns that other files have created before make no difference.", "quantifier": "all contents of a file, all lists of different column names, all columns created before", "why_tests_cant": "The tests read small files with the columns in one order; that no row is lost or mixed up for any file, and that the shared registry of columns has no influence, are claims about all files and all histories.", "anchors": ["libs/utils/src/ColumnFile.cpp:24-118", "libs/kanji/src/UcdData.cpp:93-98", "libs/kanji/src/RadicalData.cpp:47-51", "libs/kanji/src/TextKanjiData.cpp:71-76", "libs/kanji/include/kt_kanji/OfficialKanji.h:205-213"]}
{"id": "C112", "title": "The data directory is the one after -data or else the nearest one", "statement": "getDataDir takes the directory after the first -data if it contains ten text files and refuses it otherwise. Without -data it takes the nearest directory called data with ten text files, beside or above the current directory; if there is none, the nearest one found from arg0. The search always ends.", "quantifier": "all file systems, all current directories, all arguments", "why_tests_cant": "The tests use a few temporary directories; that the nearest directory is taken at any depth and that the search ends at the root are claims about all paths.", "anchors": ["libs/kanji/src/KanjiData.cpp:173-208", "libs/kanji/src/KanjiData.cpp:273-294", "libs/kanji/include/kt_kanji/KanjiData.h:165-173"]}
{"id": "C113", "title": "Loading a directory is loading the lists and rows in its files", "statement": "A directory with the files of TextKanjiData (ucd, radicals, frequency-readings, jouyou, linked-jinmei, jinmei, extra, frequency, jlpt/n5 to n1 and kentei/k10 to k1, each with or without .txt) is loaded as the rows and lists in these files, with the same messages, errors and data; if loading succeeds, all these files are there; a directory has only one meaning. It does not matter whether the files can be written.", "quantifier": "all file systems and directories, all modes, all orders of columns", "why_tests_cant": "Tests load the project's own directory; which file goes where for any directory is a claim about all file systems.", "anchors": ["libs/kanji/src/TextKanjiData.cpp:21-53", "libs/kanji/src/TextKanjiData.cpp:204-210", "libs/kanji/src/ListFile.cpp:11-23", "libs/kanji/src/ListFile.cpp:46-56", "libs/utils/src/ColumnFile.cpp:30-45"]}
{"id": "C114", "title": "The groups of a data directory and the errors about them", "statement": "GroupData loads the groups of the rows of meaning-groups and pattern-groups of the data directory, with or without .txt and whatever the order of the columns. On success the errors are, in order, exactly the members of pattern groups that are in an earlier pattern group, each with the titles of both groups, so there are none exactly when every Kanji is in at most one pattern group. Otherwise loading stops at the first row that is no group and the errors end with all of its members that are not Kanji of the data. Reports are written in the debug modes only, and the mode changes neither the groups nor the errors.", "quantifier": "all file systems, directories, loaded Kanji, rows, modes and stream states", "why_tests_cant": "Tests load a few small files; that no duplicate is missed or reported twice and which row stops loading are claims about all files.", "anchors": ["libs/quiz/src/GroupData.cpp:17-78", "libs/quiz/src/Group.cpp:55-63", "libs/kanji/src/ListFile.cpp:11-23"]}
{"id": "C115", "title": "The Jukugo of a data directory and the report about them", "statement": "JukugoData loads the words of the seven files g1 to g6 and other of the directory jukugo, with or without .txt, in every mode and without errors of its own. In the debug modes it writes exactly: for each grade the number of different words of that grade, the number of Kanji in words and of different words, and for each type with such Kanji how many there are and the first twelve in byte order. The numbers of the grades add up to the number of words and those of the types to the number of Kanji.", "quantifier": "all file systems, directories, loaded Kanji, files and modes", "why_tests_cant": "Tests look at one line of the report; that all numbers agree with each other is a claim about all files.", "anchors": ["libs/quiz/src/JukugoData.cpp:18-80", "libs/quiz/include/kt_quiz/JukugoData.h:41-42"]}
{"id": "C116", "title": "The whole of kanjiQuiz", "statement": "With a command line, a file system and an input, kanjiQuiz uses the data directory after the first -data, else the nearest one above the current directory, else the nearest one above that of the program, and the mode of -debug or -info. It loads the Kanji, groups and Jukugo of that directory; what is loaded is determined by the file system and the arguments, and unless all of it can be loaded nothing is shown or asked. It then does what the other arguments stand for: the details of C87 and C88 or a quiz of C90 and C91. Without -debug and -info nothing but that is written to the output; with them the reports of C96 to C101 and C115 are written first. The errors are those of loading (C108) and the Kanji in several pattern groups (C114). Illegal arguments end the program with 1, help and details with 0; for all loaded data the details of everything that an argument stands for can be shown. Help is not shown without data.", "quantifier": "all file systems, current directories, program names, arguments, inputs and random numbers", "why_tests_cant": "Tests construct the classes with small files; none runs the program from its arguments to its exit code.", "anchors": ["apps/quizMain.cpp:3-11", "libs/quiz/src/Quiz.cpp:12-16", "libs/quiz/src/QuizLauncher.cpp:75-100", "libs/kanji/src/KanjiData.cpp:30-66"]}
{"id": "C117", "title": "The whole of kanjiStats", "statement": "With a command line and a file system, kanjiStats loads the Kanji of the directory that C116 says and writes, after what loading writes in the debug modes, exactly the reports of C103 on the files named by the other arguments, in order. If a file does not exist the reports before it are written and the program ends with 1. Without data nothing is written.", "quantifier": "all file systems, current directories, program names and arguments", "why_tests_cant": "Tests construct Stats with two arguments; none runs the program.", "anchors": ["apps/statsMain.cpp:4-14", "libs/stats/src/Stats.cpp:42-60"]}
{"id": "C118", "title": "The whole of kanjiFormat", "statement": "kanjiFormat writes the file named by its first argument formatted as in C45 and ends with 0. Without an argument or for one that is not a file nothing is written and it ends with 1. The formatted text is also written if the file can only be read.", "quantifier": "all file systems, arguments and contents", "why_tests_cant": "There is no test of the program.", "anchors": ["apps/formatMain.cpp:12-53"]}
{"id": "C119", "title": "The whole of kanaConvert", "statement": "With any arguments and any input, kanaConvert either writes nothing and ends with 1 because the arguments ask for nothing, or it writes exactly the usage message, the conversions of the given texts, the chart, or the session of its input lines, and ends with 0, or never ends because its input ended while a flag was asked for. Which of these and what is written are determined by the arguments and the input.", "quantifier": "all arguments, inputs, and input from a terminal or not", "why_tests_cant": "Tests run a few command lines; that nothing else can happen is a claim about all of them.", "anchors": ["apps/convertMain.cpp:3-11", "libs/kana/src/KanaConvert.cpp:60-175"]}
{"id": "C120", "title": "Table errors name what is wrong and where", "statement": "ColumnFile reports a wrong table exactly for what is wrong with it: no columns asked for, a path that does not exist or is not a regular file, an empty file, a column asked for twice, a header that is repeated or not asked for, one or several columns without a header (listed in byte order), the first row with too many or too few fields, a value that is no unsigned number, exceeds the maximum, is no Y/T/N/F or no Unicode code. The text of the exception is the reason followed by the name of the file, for rows the number of the row counted from 1, and for values the column and the value. It reports nothing else, and with the texts taken away the functions are those of C12 and C13.", "quantifier": "for all histories of column creation, columns, delimiters, file names, paths and file contents, numbers of rows read and values", "why_tests_cant": "which of several errors is reported, and for which row, depends on all rows before it and on the order of the checks; tests try one wrong file per message", "anchors": ["libs/utils/src/ColumnFile.cpp:30-47", "libs/utils/src/ColumnFile.cpp:49-61", "libs/utils/src/ColumnFile.cpp:63-74", "libs/utils/src/ColumnFile.cpp:76-96", "libs/utils/src/ColumnFile.cpp:98-105", "libs/utils/src/ColumnFile.cpp:109-156", "libs/utils/src/ColumnFile.cpp:158-172"]}
{"id": "C121", "title": "The threads of kanjiStats do not change its output", "statement": "kanjiStats counts the nine rows of a report in nine threads. Whatever the order in which the threads run, the program prints the same text and ends in the same way as if the rows had been counted one after the other: rows in their order, an exception of a row reported after the rows before it, the total line with the final totals. It cannot get stuck or run for ever. The totals are read only when no thread can change them any more, and no call of countKanji ends, normally or by an exception, while one of its threads runs (they hold a reference to its path).", "quantifier": "for all schedules (any thread, including the main one, may do the next step at any time), files, directories, options and lists of files", "why_tests_cant": "a test run sees one schedule of the machine it runs on; a race shows in rare schedules only", "anchors": ["libs/stats/src/Stats.cpp:48", "libs/stats/src/Stats.cpp:51-92", "libs/stats/src/Stats.cpp:140-179", "libs/stats/include/kt_stats/Stats.h:96-103"]}
{"id": "C122", "title": "The quiz program says what is wrong with its command line", "statement": "When the command line of kanjiQuiz cannot be read, the message is about the first argument that is wrong after the legal options before it: a second mode, a mode with something other than a number, a number above 65535, a second quiz type, a quiz type with an unknown list, or an unknown option, each with its own text that names the option. A command line that means something is read without a message, and no command line has two messages. More than one -debug or -info has one text. The counts and indexes in the messages of Args are written in decimal.", "quantifier": "for all argument lists of fewer than 65534 arguments, all argument counts and all indexes", "why_tests_cant": "tests check single wrong arguments; which message comes first depends on all arguments before it", "anchors": ["libs/quiz/src/QuizLauncher.cpp:75-97", "libs/quiz/src/QuizLauncher.cpp:245-289", "libs/quiz/src/QuizLauncher.cpp:298-313", "libs/utils/src/Args.cpp:7-28", "libs/kanji/src/KanjiData.cpp:23-38", "libs/kanji/src/KanjiData.cpp:210-224"]}
{"id": "C123", "title": "kanaConvert and kanjiFormat write one line about wrong arguments", "statement": "When its arguments are wrong, kanaConvert writes nothing to std::cout, one line with the reason to std::cerr and ends with 1; the reason is that of the first wrong argument, or that texts and modes do not fit together. In all other cases it writes nothing to std::cerr and ends, if it ends, with 0. kanjiFormat does the same when it gets no file or one that does not exist. More than 65535 arguments are answered with their number.", "quantifier": "for all argument lists, inputs and file systems", "why_tests_cant": "tests compare the messages of some wrong arguments; that nothing else is ever written to std::cerr is about all command lines and inputs", "anchors": ["libs/kana/src/KanaConvert.cpp:107-161", "apps/convertMain.cpp:3-11", "apps/formatMain.cpp:12-53", "libs/utils/src/Args.cpp:21-28"]}
{"id": "C124", "title": "kanjiStats and the search for data say what is missing", "statement": "kanjiStats ends with a message exactly when a switch is unknown (the first one decides), when there is nothing to do, or when a file is missing (the first missing one is named, after the reports of the files before it). When no data directory can be used, the message says that -data has no value, that its value is not a directory or does not contain ten text files, or where data was searched: from the current directory and, when the directory of the program exists, from the program.", "quantifier": "for all argument lists, file systems, current directories and paths of the program (of plain names)", "why_tests_cant": "the messages depend on the whole file system and on the order of the arguments; tests try a few", "anchors": ["libs/stats/src/Stats.cpp:26-49", "libs/stats/src/Stats.cpp:51-92", "libs/stats/src/Utf8Count.cpp:61-66", "libs/kanji/src/KanjiData.cpp:173-208"]}
{"id": "C125", "title": "A wrong Morohashi ID, stroke count or Kanji argument is answered with its reason", "statement": "A text is either a Morohashi ID or refused with one message that quotes it and says the first thing that is wrong: non-numeric, invalid, zero or above the maximum. A stroke count out of range is refused with the count in the message. The Kanji argument of kanjiQuiz either shows details or ends with one message that depends only on the argument and on what the data has for it.", "quantifier": "for all texts, stroke counts, arguments and loaded data", "why_tests_cant": "tests compare some wrong values with their messages; that each text has exactly one outcome and which fault comes first is about all texts", "anchors": ["libs/kanji/src/MorohashiId.cpp:26-71", "libs/kanji/src/Strokes.cpp:8-25", "libs/quiz/src/QuizLauncher.cpp:291-296", "libs/quiz/src/QuizLauncher.cpp:315-344"]}
{"id": "C126", "title": "A missing file or a bad list is reported with the place of the first fault", "statement": "getFile returns the path of a regular file, or ends with exactly one message: not a directory, must contain (with the note about .txt only when the name has no extension), or must be a regular file. A list is loaded, or exactly one message is given: the file that cannot be opened, the first word that is refused with its line and file (several words on a line, not one multi-byte character, twice in the list, already in another list, or too many), or, for typed lists, all words that other lists have, with the name of the list and their number.", "quantifier": "for all file systems, directories, names without slashes, contents, kinds of list and words taken by other lists", "why_tests_cant": "which word is reported depends on all words before it and on all lists loaded before; tests try a few files", "anchors": ["libs/kanji/src/ListFile.cpp:11-23", "libs/kanji/src/ListFile.cpp:43-97"]}
{"id": "C127", "title": "The Jukugo files are loaded, or the first fault is reported with its line and file", "statement": "All words of the seven Jukugo files are loaded, or exactly one message is given. It is about the first file that cannot be found, or about the first line that is wrong: a missing or misplaced bracket, a missing '...', a word with fewer than two Kanji, a reading that is not Hiragana, or a word with the same reading in another file. The message ends with the number of the line and the name of the file.", "quantifier": "for all data directories, file systems and contents of the files", "why_tests_cant": "whether a word is refused depends on all files read before it; tests try single lines", "anchors": ["libs/quiz/src/Jukugo.cpp:8-25", "libs/quiz/src/JukugoData.cpp:18-32", "libs/quiz/src/JukugoData.cpp:54-122"]}
{"id": "C128", "title": "The groups of a data directory are loaded, or the first fault is reported with its row and file", "statement": "All groups of meaning-groups and pattern-groups are loaded, or exactly one message is given. It is about the first table that cannot be opened or has a wrong header, or about the first row that is wrong: a wrong number of fields, no name, a name with ASCII characters, a final comma, a member that is not known, a bad number, or members that are too few, too many or repeated. The message about repeated members lists each of them once, in the order of their first places, and says how many there are. Every message about a row ends with the file and the row.", "quantifier": "for all data directories, file systems, contents of the two files and sets of known Kanji", "why_tests_cant": "which fault is reported depends on all rows before it; tests try two faulty tables", "anchors": ["libs/quiz/src/Group.cpp:9-50", "libs/quiz/src/GroupData.cpp:21-78", "libs/utils/src/ColumnFile.cpp:30-96", "libs/utils/src/ColumnFile.cpp:119-172"]}
{"id": "C129", "title": "The Unicode data is loaded, or the first fault is reported", "statement": "All rows of the ucd table are loaded, or exactly one message is given. It is about the file or its header, or about the first row that is wrong, and in that row about the first of some twenty checks that fails: no reading or id, a long name, a bad radical, bad flags, no meaning, links without codes or of other codes, links that another Jinmei row has, strokes, code and name, type of links, sources, Morohashi id, or a name that was there before. A row that passes all checks is one with data of its own and nothing that is taken. The unspecified order of evaluation of two arguments changes no data, and a message only if both are wrong.", "quantifier": "for all data directories, file systems, contents of the file and rows before a row", "why_tests_cant": "which of the faults of a row is reported, and after which rows, cannot be tried for all combinations; tests try one fault each", "anchors": ["libs/kanji/src/UcdData.cpp:92-136", "libs/kanji/src/UcdData.cpp:182-213", "libs/kanji/src/Ucd.cpp:25-31", "libs/kanji/src/Ucd.cpp:88-104", "libs/utils/src/ColumnFile.cpp:119-172"]}
{"id": "C130", "title": "Radicals, extra readings and Kanji tables are loaded, or the first fault is reported", "statement": "Each of the tables radicals, frequency-readings, jouyou, jinmei and extra is loaded with one entry for each row in order, or exactly one message is given: about the file or its header, or about the first row that is wrong. A radical must have the number of its row, a name must have only one extra reading. A Kanji row is reported with the first of its checks that fails: count of strokes, radical, Unicode entry, number, year, grade or reason. Only a count of strokes out of range is a RangeError. Looking up a radical that is not there says which name or number was looked up, or that nothing was loaded.", "quantifier": "for all data directories, file systems, contents of the files, loaded radicals and Unicode data", "why_tests_cant": "which of the faults of a row is reported, and after which rows, cannot be tried for all combinations; tests try one fault each", "anchors": ["libs/kanji/src/RadicalData.cpp:32-65", "libs/kanji/src/TextKanjiData.cpp:71-87", "libs/kanji/src/OfficialKanji.cpp:15-87", "libs/kanji/src/KanjiData.cpp:70-80", "libs/utils/include/kt_utils/EnumContainer.h"]}
{"id": "C131", "title": "The Kanji of a data directory are loaded, or the first thing that is wrong is reported", "statement": "Loading the Kanji of a data directory has exactly one result. It is the result of these steps in order: the rows of jouyou.txt, the lines of linked-jinmei.txt, the old names of what was stored until then in the order of names, the rows of jinmei.txt each followed by its old names, the rows of extra.txt, the lists of levels, the list of frequencies, the lists of Kyu, the Unicode entries. Every step stores Kanji whose names are not stored yet, or ends everything with its message: a line without a tab or with an unknown first Kanji (with the name of the file), a link to a Kanji of a wrong type, a Kanji without a Unicode entry or with an unknown radical, a Kanji in a list of levels or Kyu that has none. If no step gives a message the loaded data finds exactly the stored Kanji, by their names and by the variation forms of those names.", "quantifier": "for all data directories, file systems, contents of the files, loaded Unicode data, radicals and lists", "why_tests_cant": "tests try two bad lines of one file; which of the faults of many files is the one reported, and what is stored before it, depends on all files together", "anchors": ["libs/kanji/src/TextKanjiData.cpp:41-51", "libs/kanji/src/TextKanjiData.cpp:89-203", "libs/kanji/src/KanjiData.cpp:224-275", "libs/kanji/src/OfficialKanji.cpp:89-130", "libs/utils/include/kt_utils/EnumContainer.h"]}
{"id": "C132", "title": "Loading a data directory has one result: all of the data, or the message of the first thing that is wrong", "statement": "The constructor of TextKanjiData reads the five lists of levels, the twelve lists of Kyu, the list of frequencies, the Unicode data, the radicals and the extra readings in this order, then loads the Kanji (C131), then makes the reports of -info or -debug. Either all files are right and the data are those of the files, or it ends with exactly one message, that of the first file, row, line or word in this order that is wrong; nothing else can happen. The data and the message do not depend on -info. With -debug the data are the same, but a directory that is loaded without it is refused exactly if a stored Kanji with a variation selector has no Unicode entry; the message then tells the first such Kanji in the order of names. For every directory that is loaded with -debug the text of the reports is the specified one. What lists the program made before, and whether they could be read, does not matter.", "quantifier": "for all file systems, data directories, contents of files, earlier lists of the program, arguments and orders of equal elements chosen by the sort", "why_tests_cant": "tests load one good directory and single bad files; which of the faults of some twenty files is the one told, and that a report can end the program, depends on all files together", "anchors": ["libs/kanji/src/TextKanjiData.cpp:21-53", "libs/kanji/src/KanjiData.cpp:148-171", "libs/kanji/src/UcdData.cpp:135-180", "libs/kanji/src/UcdData.cpp:215-237", "libs/kanji/src/ListFile.cpp:30-125"]}
{"id": "C133", "title": "kanjiQuiz and kanjiStats end with exactly one message, that of the first thing that is wrong", "statement": "kanjiQuiz ends with a message and 1 before a question is asked exactly if one of these is the case, the first of them that is: there is no data directory; there are two options about debug output; a file of the directory is wrong (C132); a table of groups is wrong (C128); a list of Jukugo is wrong (C127); the arguments are wrong (C122); the Kanji that is asked for is not there (C125). kanjiStats does so for the first three of these and for wrong arguments (C124). The message is the one given there and is determined by the file system and the arguments; it does not depend on the answers typed or on the generator of random numbers. What is written to the standard error stream is the numbered errors of loading, then this message, then a newline; if nothing is wrong only the numbered errors are written and nothing is thrown before a question is asked. With more than 65535 arguments both programs say so with the number and read no file.", "quantifier": "for all file systems, current directories, names and paths of the programs, arguments, inputs, generators and orders of equal elements chosen by the sort", "why_tests_cant": "tests call the classes one at a time with one thing wrong; which of several faults in the arguments and in some thirty files is the one told depends on the order of the whole program", "anchors": ["apps/quizMain.cpp:3-11", "apps/statsMain.cpp:3-11", "libs/quiz/src/Quiz.cpp:12-16", "libs/kanji/src/TextKanjiData.cpp:21-53", "libs/quiz/src/QuizLauncher.cpp:75-100", "libs/kanji/src/GroupData.cpp:21-31", "libs/stats/src/Stats.cpp:25-75"]}
{"id": "C134", "title": "A question that cannot be asked is refused with the message of the first thing wrong with it", "statement": "Choice::get throws a DomainError exactly if the quit option is one of the choices, there is no choice, a choice cannot be printed, or the default is none of the choices; the message is that of the first of these in this order and names the option, the default, or as two hexadecimal digits the first choice in the order of char that cannot be printed. With a range the first and last option are checked before, then their order, then that none of the range is one of the choices; the message names the first one that is. There is exactly one message, none just if the request makes sense (C27), and it does not depend on the input or the text of the question. Whether char is signed only matters for which of several choices that cannot be printed is named. The message for a quit option is given when it is set.", "quantifier": "for all choices, descriptions, quit options, defaults, ranges, texts, inputs and both kinds of char", "why_tests_cant": "tests have one fault per question and only Ascii control characters; which fault is told if there are several, and the order of chars from 0x80, are not tested", "anchors": ["libs/kana/src/Choice.cpp:24-101", "libs/kana/src/Choice.cpp:144-183", "libs/utils/include/kt_utils/String.h:133-184"]}
{"id": "C135", "title": "A quiz that cannot be started is refused with one message, which kanjiQuiz writes last before it returns 1", "statement": "A quiz on a list is refused exactly if a Kanji has no reading, with '... has no reading' for the first such Kanji of the list, or else if the number of the first question is larger than the list, with 'entry num '...' is larger than total questions: ...' giving both numbers in decimal. A quiz on groups is refused exactly if there are none ('empty group list'), or if the number is larger than the number of groups that are left after the part of pattern groups was chosen and groups with less than two members were dropped. There is at most one message, and nothing else is thrown by a quiz that is started. kanjiQuiz then writes the message after the errors from loading and returns 1; a quiz that ends or is quit writes only the errors from loading and returns 0.", "quantifier": "for all lists, groups, launchers, member types, numbers of the first question, random numbers, inputs, file systems and command lines", "why_tests_cant": "tests start quizzes with one list and one wrong number; which Kanji is named, the total after groups were dropped, and that nothing else is thrown is not tested", "anchors": ["libs/quiz/src/Quiz.cpp:49-62", "libs/quiz/src/ListQuiz.cpp:22-46", "libs/quiz/src/GroupQuiz.cpp:28-47", "libs/quiz/src/GroupQuiz.cpp:109-146", "libs/quiz/src/QuizLauncher.cpp:102-156", "libs/quiz/src/QuizLauncher.cpp:219-243", "apps/quizMain.cpp:3-11"]}
{"id": "C136", "title": "Errors of enum lists, maps and iterators tell the value that was refused", "statement": "BaseEnumList::create throws just if a list exists, a name occurs twice, or 'None' is given for a list with None; the message is that of the last name of the arguments that is wrong with respect to the names behind it. A list exists from a creation that returns until its destruction and is the one the global toString uses; before that it throws 'must call ...'. An index or enum value that is refused is told in decimal, an index as it was given. Iterators tell at which end they cannot move, reading at the end tells the position. Iterators of the same EnumMap compare and subtract as their positions do, of different maps every operator throws 'not comparable', and reading one that belongs to no map throws 'not initialized'. hasValue, operator! and isNextNone are about T::None and the value before it.", "quantifier": "for all names, histories of creations and destructions, integers, enum values, positions, maps and distances that fit ptrdiff_t (others are undefined)", "why_tests_cant": "tests check single wrong values; which of several wrong names is told, negative or large indices, histories, and that all comparison operators agree, are not tested for all values", "anchors": ["libs/utils/include/kt_utils/EnumContainer.h:26-60", "libs/utils/include/kt_utils/EnumContainer.h:139-213", "libs/utils/src/EnumContainer.cpp:6-24", "libs/utils/include/kt_utils/EnumList.h:53-93", "libs/utils/include/kt_utils/EnumList.h:233-335", "libs/utils/include/kt_utils/EnumMap.h:59-150"]}
{"id": "C137", "title": "Errors of symbols, block ranges and toChar tell what was refused", "statement": "After any history of symbols of one type a new one is refused just if its name is new and 65534 are used; the message has the type and the name. An index of a BlockRange is refused just if it is larger than three per block and is told with that size. toChar of an int returns the low byte of values a char or byte can hold (from 0 if negative ones are not allowed) and otherwise tells the value in decimal and whether it had to be positive; for unsigned types it returns values up to 255 and tells others with the name of the type, in decimal or, for a Code, in at least four lower case hexadecimal digits.", "quantifier": "for all histories, names, types, blocks, indices and numbers, and both kinds of char", "why_tests_cant": "tests check values next to the limits; all other values and a full table of symbols are not tested", "anchors": ["libs/utils/src/Symbol.cpp:6-20", "libs/utils/src/BlockRange.cpp:6-12", "libs/utils/include/kt_utils/BlockRange.h:53-55", "libs/utils/src/String.cpp:11-24", "libs/utils/src/String.cpp:86-115"]}
{"id": "C138", "title": "Operators of a bitmask enum are those of sets of flags", "statement": "For an enum with an unsigned underlying type of any size the operators &, |, ^ and ~ are intersection, union, symmetric difference and complement of sets of flags and stay in the type, although smaller types are promoted to int; hasValue and operator! say whether a set is empty. After any history of |=, &= ~, ^=, &= and assignments hasValue(x & flag) is what the history says about that flag.", "quantifier": "for all sizes of the underlying type, values, flags and histories of assignments", "why_tests_cant": "tests use one enum with a few flags", "anchors": ["libs/utils/include/kt_utils/Bitmask.h:28-73", "libs/utils/include/kt_utils/TypeTraits.h:37-49"]}
{"id": "C139", "title": "Unicode blocks are made only of valid ranges, and their texts tell them apart", "statement": "makeBlock compiles just for ranges of codes that are not ASCII, not beyond Unicode and in order, for official blocks just for whole rows of 16 codes; range() is the number of codes for which the block holds. A block is written as its name, or else its first and last code in hexadecimal, then its version with month and year. Two blocks without a version are written alike just if they have the same codes, and none is written like an official one. The official blocks of the tables have the codes that the character tests use, share no code and have different texts.", "quantifier": "for all codes, versions and names, and all blocks of the tables", "why_tests_cant": "tests write two versions and two blocks and compare neighbours of each table only", "anchors": ["libs/utils/include/kt_utils/UnicodeBlock.h:21-230", "libs/utils/src/UnicodeBlock.cpp:5-19"]}
{"id": "C140", "title": "Numbers of the frequency file lead to its Kanji after loading a data directory", "statement": "After TextKanjiData is constructed, the Kanji of each name of frequency.txt is in exactly one of the ten frequency lists, the one of its frequency, in the order of the file; findByFrequency(n) gives the n-th Kanji of the file and null for all other n, and kanjiQuiz is defined for every number.", "quantifier": "for all data directories, all static state left by earlier objects, all numbers and all command lines", "why_tests_cant": "tests look up some frequencies of the shipped data; which Kanji is in which place of the lists depends on all files and on the order of loading, and bad lists are read outside of their bounds", "anchors": ["libs/kanji/src/TextKanjiData.cpp:21-173", "libs/kanji/src/KanjiData.cpp:91-116", "libs/kanji/src/KanjiData.cpp:262-269"]}
{"id": "C141", "title": "Choices can be made with single keys of a terminal, which is left as it was", "statement": "A Choice without an input stream returns for the first key that is a choice, or Enter if there is a default, and ignores all other keys; the answer is the one that a stream with these keys as lines would give. While it waits keys are not shown and are given at once, when it returns the terminal has the settings it had before. Requests that make no sense are refused before a key is read.", "quantifier": "for all choices, defaults, settings of the terminal, keys and results of system calls", "why_tests_cant": "the code is excluded from the tests since it needs a terminal", "anchors": ["libs/kana/src/Choice.cpp:32-70", "libs/kana/src/Choice.cpp:119-142"]}
{"id": "C142", "title": "kanaConvert at a terminal does what it does with a given input, with keys for flags", "statement": "At a terminal an interactive session handles each line as in C93, and after the line 'f' it takes single keys, without Enter, until one of the four letters is pressed; the prompt is shown for each key. Keys pressed after that are the start of the next line. It ends with the line 'q' or the end of what is typed. Lines of a given input lead to the same options when they are typed with Enter after each. What does not read input is the same as with a given input.", "quantifier": "for all that can be typed, options, settings of the terminal and both orders of evaluation", "why_tests_cant": "the tests give an input stream, so this is never run by them", "anchors": ["libs/kana/src/KanaConvert.cpp:107-138", "libs/kana/src/KanaConvert.cpp:238-272", "libs/kana/src/Choice.cpp:53-69"]}
{"id": "C143", "title": "A quiz answered with keys goes like one answered with lines", "statement": "kanjiQuiz takes single keys. If it is run on an input stream that has a line for each key (an empty one for Enter), and ends before the input does, normally or with an exception, then the questions it asked get the same answers from the keys: those of the start, of list quizzes and of group quizzes. The same number of keys is left as of lines, and the prompts shown are the same, each with a line feed after it. Every sequence of keys has such an input.", "quantifier": "for all data, options, keys, settings of the terminal, sources of random numbers and kinds of quizzes", "why_tests_cant": "the tests give an input stream, the program never does; there are infinitely many runs of a quiz", "anchors": ["libs/quiz/src/Quiz.cpp:12-16", "libs/quiz/src/Quiz.cpp:38-41", "libs/kana/src/Choice.cpp:53-69", "libs/kana/src/Choice.cpp:85-101"]}
