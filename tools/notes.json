{
 "C01": {
  "note": "For every list of non-zero scalar values; the intermediate bytes are also shown to be the RFC 3629 encodings."
 },
 "C02": {
  "note": "Over all NUL-free byte strings."
 },
 "C03": {
  "note": "Pointer reads are explicit in the model, so safety is part of the outcome type."
 },
 "C04": {
  "note": "Over all lists of 32-bit values (in fact all naturals)."
 },
 "C05": {
  "note": "Validity and NotMultiByte are exact. The documented error order is proved except that CharTooLong is never reported where the documentation says it is (C05_char_too_long_refuted)."
 },
 "C06": {
  "note": "False of the code as documented: only the first character is looked at. C06_is_valid_utf8_refuted gives the witness, C06_is_valid_utf8_partial says exactly what is decided."
 },
 "C07": {
  "note": "For every byte string; getCode included."
 },
 "C08": {
  "note": "The read back bound 0x100000 is sharp: C08_plane_16_refused."
 },
 "C12": {
  "note": "Everything holds except that a row (or header) with one extra, empty, field is accepted: C12_too_many_fields_refuted; C12_row_accepted_iff and C12_header_accepted_iff are exact."
 },
 "C13": {
  "note": "Digit-only fields behave as claimed (C13_decimal_fields_partial). Other text is not always refused: C13_not_a_number_refuted; the exact accepted language is C13_number_accepted_iff."
 },
 "C47": {
  "note": "For every NUL-free prefix, however malformed."
 },
 "C09": {
  "note": "Over every history of constructions; capacity shown to be reachable and exact."
 },
 "C10": {
  "note": "Names are compile time lists in the code; the theorem is for every list shorter than 255."
 },
 "C11": {
  "note": "False for indices of 256 and more (C11_large_index_refuted): the index is cut to 8 bits before it is checked. C11_index_is_taken_modulo_256 is exact."
 },
 "C29": {
  "note": "The accepted language, the text round trip and the order are exact."
 },
 "C30": {
  "note": "One and two count constructors, with errors characterised."
 },
 "C48": {
  "note": "Staying in range is proved for all histories; a jump of 256 or more wraps instead of throwing (C48_large_jump_refuted)."
 },
 "C49": {
  "note": "For every history of assignments."
 },
 "C14": {
  "note": "For all 32-bit values and all texts. Findings: a malformed byte counts as punctuation because it decodes to U+FFFD; the documentation says the tests of an empty string return true, but they return false."
 },
 "C15": {
  "note": "Sweep over all code points lifted by a disjointness lemma on the sorted tables."
 },
 "C50": {
  "note": "Any code point, any index."
 },
 "C16": {
  "note": "All byte strings (embedded NULs and malformed sequences included) and all call histories."
 },
 "C17": {
  "note": "All well-formed texts; size() equals the number of values even where marks are folded."
 },
 "C18": {
  "note": "Proved for every byte string against a declarative reading of the bytes. Refuted in full: Katakana wa, wi, we, wo and the iteration marks have Unicode compositions the table does not know, so their mark is dropped and counted as an error."
 },
 "C24": {
  "note": "The links are exactly the Unicode compositions between entries of the table."
 },
 "C51": {
  "note": "getFirst is documented to return an empty string when the text does not start with a multi-byte character, but it skips leading Ascii. isCharWithVariationSelector accepts two Ascii letters followed by a selector."
 },
 "C19": {
  "note": "The result is characterised exactly for every text. Refuted in full: after small tsu, a kana and a small kana that form no known digraph, the last two stay unconverted and a following prolong mark is lost; without that prolong mark the round trip is the identity."
 },
 "C20": {
  "note": "Default Romaji style; the round trip is characterised exactly (it loses the prolong marks behind broken combinations, C20_full_refuted). Iteration marks and Ascii input are outside the alphabet; Kunrei and Hepburn styles do not round trip by design."
 },
 "C21": {
  "note": "Holds without broken combinations (small tsu, kana, small kana that is no digraph); refuted with one."
 },
 "C22": {
  "note": "Holds up to the case of letters that stay unconverted unless an upper-case consonant is doubled (or T is followed by c): the sokuon test looks at the letter before lower-casing, so MATTE is not MATTE lower-cased (C22_full_refuted)."
 },
 "C23": {
  "note": "The subsequence of characters that mean nothing to a conversion is unchanged and the delimiters form a bijection. Refuted: their position relative to pending Romaji letters (k before a Kanji ends up behind it)."
 },
 "C52": {
  "note": "Kana results never depend on the order; Romaji results do not without iteration marks. Refuted in general: small tsu, a vowel and an iteration mark."
 },
 "C53": {
  "note": "All byte strings, all types and flags."
 },
 "C37": {
  "note": "For every history of add and addFile requests on any directory tree, any allowed-character test and any replacement function on code points. Counts are unbounded (size_t overflow ignored); the debug stream is left out."
 },
 "C38": {
  "note": "The searched strings concatenate to the lines of the file; each is within two consecutive lines. Holds for any regular expression."
 },
 "C36": {
  "note": "False of the code: operator< is not asymmetric for Kanji without frequency of different types, so a listing can be out of order (refuted). Proved for any shape of the std::set: nothing is lost; and sorted by count, frequency, name when characters of equal frequency have equal types, which includes all rows not about Kanji."
 },
 "C54": {
  "note": "The wide space U+3000 is in no row (isMBPunctuation is called without includeSpace); every other character is in exactly one. Holds for every set of characters the UCD may have."
 },
 "C55": {
  "note": "Refuted in part: the result may contain Furigana again, and wide brackets are in the wide letter range, so they count as letters. Regex matching is modelled as a function on code points."
 },
 "C56": {
  "note": "Stated on the listing in the order of the set."
 },
 "C31": {
  "note": "Exact success condition, list, indices, error reported, and disjointness over all histories of loads. Opening the file is not modelled."
 },
 "C32": {
  "note": "False as stated: names read before a failure stay in the static set (C32_failed_load_refuted). The exact effect and recovery through clearUniqueCheckData are proved."
 },
 "C44": {
  "note": "The loop visits exactly the arguments left after taking out -data with its value, -debug and -info, in order, for every list of fewer than 65535 arguments. Refuted for exactly 65535 arguments (the largest count Args accepts): the position wraps around and the loop does not end."
 },
 "C57": {
  "note": "Exact result for every argument list. The clause about the value of -data is refuted: in '-data -debug' getDebugMode sees Full."
 },
 "C58": {
  "note": "Proved for every int count and both kinds of pointer."
 },
 "C35": {
  "note": "Both orders are total functions and strict weak orders for names of any bytes; equivalence is characterised exactly. The documented last criterion (compatibility name in Unicode) is code point order for names of one basic plane character (partial) and refuted otherwise: names are compared as hexadecimal text, so U+20000 comes before U+4E00."
 },
 "C59": {
  "note": "Proved for all Kanji whose old names are not empty strings and all field sets (any number of bits)."
 },
 "C60": {
  "note": "Proved for all Kanji."
 },
 "C34": {
  "note": "Proved for every frequency list of at most 2750 different names whose Kanji carry their place as frequency (partial), with the exact content of the ten buckets for up to 65534 names. Refuted beyond: every number above 2750 reads outside of the bucket array; a second object with a shorter list shares the maximum and reads outside; a listed Kanji loaded earlier without a frequency shifts all later ones."
 },
 "C61": {
  "note": "Proved for all insertion histories. Also shown: an accepted Kanji without selector is hidden once a Kanji with a selector has its name as compatibility name (_refuted: 'every accepted Kanji is found by its name')."
 },
 "C62": {
  "note": "Proved for all insertion histories and ids."
 },
 "C63": {
  "note": "Round trip proved for all lists of 16 bit numbers. The _refuted theorem shows that everything from the first entry that is not a number on is dropped silently."
 },
 "C33": {
  "note": "Source strings accepted exactly when made of different letters out of GHJKTV; flags and letters (sorted) come back; stored bits, text and back is the identity."
 },
 "C64": {
  "note": "Row contents, duplicates and links all covered. UcdData::print and error texts are not modelled; extra link codes are ignored by the code (the specification says so)."
 },
 "C65": {
  "note": "Exact characterisation; that a selector distinguishes forms is refuted (the code ignores which selector it is)."
 },
 "C66": {
  "note": "For readings that convert to a non-empty string; an example shows that a reading of only a dash makes the separator disappear."
 },
 "C25": {
  "note": "displaySize of arbitrary bytes is total and at most the byte count; exact on texts; additive at character boundaries (a split character is the stated exception, shown by an example). wideSetw pads to exactly max(n, size) when n + size < 2^31 (the value is cast to int). The table of wide blocks is the code's; that Kana and common Kanji are in it is proved."
 },
 "C26": {
  "note": "Cells are any bytes without NUL shorter than 2^30 (setw takes an int). Exact text of every line, alignment of lines and of the cells of each column. Markdown for all cells."
 },
 "C27": {
  "note": "For a Choice with an input stream (reading single keys from a terminal is not modelled). Exact: which requests are refused, which line answers, what remains to be read."
 },
 "C28": {
  "note": "Refuted: at the end of the input the loop repeats for ever unless the last line was an answer (std::getline leaves the line unchanged), with or without a default. The partial theorem gives the exact condition for returning."
 },
 "C67": {
  "note": "The text of the prompt as groups; uniqueness comes from groups being maximal and sorted."
 },
 "C68": {
  "note": "The C library's isupper, islower, tolower and toupper are taken in the C locale."
 },
 "C39": {
  "note": "For list quizzes with up to 65535 Kanji and 1 to 9 answers and for group quizzes with up to 65535 groups (the counters have 16 bits). Questions before the start question are counted as skipped, as the code does."
 },
 "C40": {
  "note": "For every source of random values whose values are in range."
 },
 "C41": {
  "note": "False as stated: with fewer different readings than answers the loop never ends (C41_choices_return_refuted, and for whole quizzes C41_quiz_returns_refuted). Proved otherwise, for random values that all come up sooner or later."
 },
 "C69": {
  "note": "For runs that return; C41 says when they do."
 },
 "C70": {
  "note": "The score printed by a refused quiz is a finding: see DESIGN.md."
 },
 "C42": {
  "note": "Distinct letters hold for every history (C42_sheets). Answers are compared with the reading beside the letter for up to 26 shown members; for more, completing the group is undefined behaviour (C42_checked_refuted): upper case letters are taken for an index below 'a'."
 },
 "C72": {
  "note": "For runs that return; C74 says when they do."
 },
 "C73": {
  "note": "Pinyin of more than 8 columns makes showGroup throw std::length_error (C73_entry_refused)."
 },
 "C74": {
  "note": "Together with C72 and C75 this covers every run of a group quiz whose members all have an entry of proper width."
 },
 "C75": {
  "note": "The scores printed are a finding: see DESIGN.md."
 },
 "C71": {
  "note": "Exact in both directions."
 },
 "C77": {
  "note": "Two radicals with the same first name: the later one silently takes the name (finding)."
 },
 "C78": {
  "note": "Refuted for Extra Kanji in the frequency list: their frequency is always 0 (ExtraKanji does not set one). C78_level_of_all is about all loaded Kanji; that a name in a level list belongs to a Jouyou or Jinmei Kanji is proved for names that find the Kanji of that name (C78_level)."
 },
 "C79": {
  "note": "Refuted: for Jouyou, Jinmei and Extra a second row with the same name is refused by checkInsert but stays in the list of the type. Proved exact for the five other types; for these three, one entry per row with its values, and every loaded Kanji of the type is in the list."
 },
 "C80": {
  "note": "The hypothesis that listed names lead to the Kanji of that name excludes the takeover of C61."
 },
 "C81": {
  "note": "Found means findByName gives some Kanji; when a variation selector form has the name as its compatibility name it is that Kanji (C61)."
 },
 "C82": {
  "note": "The code iterates over the map that it inserts into (TextKanjiData.cpp:108-111); inserted Kanji have no old names, so the model iterates over the entries at the start."
 },
 "C83": {
  "note": "For names of at most 4 bytes (all names that Unicode rows can have); Kanji with variation selectors get their entry through the linked Jinmei map (C65)."
 },
 "C76": {
  "note": "Spellings, doubled consonants, iteration marks and flag texts, each against tables stated separately from the model."
 },
 "C43": {
  "note": "Refuted as stated: a word that repeats a Kanji (人人) is listed once per occurrence. Proved: find gives the words in the order of their first lines, each as often as the Kanji occurs in it, so each once if no word repeats a Kanji. Loading succeeds exactly when every line of every file can be read as words, all are good words (C84) and no word comes with two grades. Findings about the lines of other.txt: a ')' before '(' makes the rest of the entry the reading, text after ')' is ignored, and a line that ends in '...' is an error."
 },
 "C45": {
  "note": "Refuted: a last line that ends with a Kanji is read and never printed. Proved: nothing else is lost, and the exact output is a unique cutting of the lines into pieces. The line after joined furigana goes on in the same output line, as in the code."
 },
 "C84": {
  "note": "Refuted for the reading: only multi-byte characters are looked at, so an Ascii (or empty) reading is taken. Proved exact for what the code accepts, on all byte strings."
 },
 "C46": {
  "note": "Refuted as stated: '-r-', '-t+' and the like throw std::invalid_argument, and a number of 2^64 or more throws std::out_of_range, instead of DomainError. Proved: exact acceptance and results, DomainError for all other refused arguments. '-t00' and '-t+0' are taken as 'from the beginning' while '-t0' means random order."
 },
 "C85": {
  "note": "Bytes from 0x80 on are passed to isdigit as negative numbers where char is signed (undefined in C, harmless in common libraries); the model treats them as not being digits."
 },
 "C86": {
  "note": "A Kanji that is in two pattern groups is only reported (printError); the first group stays in the map and both groups stay in the list."
 },
 "C87": {
  "note": "Refuted: the code given with 'u' is not checked to be a Kanji (u0041 shows 'A [0041] --- Not found in ucd.txt'), and a surrogate shows U+FFFD; numbers for which findByFrequency reads outside of its lists (C34) are undefined. The rest is proved."
 },
 "C88": {
  "note": "std::sort is any function that orders and permutes (C88_sort_exists shows that there is one). Member names must be byte strings and Jukugo texts well-formed enough for displaySize to be additive. The unbalanced quote of \" --- Kanji not loaded'\" is in the code."
 },
 "C89": {
  "note": "Refuted as stated: columns are at most 30 wide, so an entry of 29 places is followed by one space only and one of 30 or more runs into the next (C89_apart_refuted); entries of up to 28 places are aligned and apart."
 },
 "C91": {
  "note": "Refuted by quitting at \"List order\": the mode chosen before stays set and the next start does not ask for it (C91_reset_refuted). Every other return resets both (C91_reset_partial)."
 },
 "C92": {
  "note": "With 65535 arguments '--' wraps the 16 bit index and the loop never ends (C92_bound_is_sharp)."
 },
 "C93": {
  "note": "A line 'q' also ends piped input, so later lines are lost (C93_piped_refuted; C93_piped_partial for input without such a line). When the input ends while a flag is asked for the program never ends (C93_waits)."
 },
 "C94": {
  "note": "Refuted: '-n' with texts still writes a newline (C94_newline_refuted) and nothing is written between texts in Romaji (C94_separator_refuted). C94_exact_partial says what is written."
 },
 "C96": {
  "note": "C96_counts is the exact text. That the sizes add up is false when a file has two rows with a name (C96_sizes_refuted); C96_sizes_partial is for names that are listed once."
 },
 "C98": {
  "note": "The last line says 'Total for all Levels' but counts the Kanji without a level too, as the value None."
 },
 "C100": {
  "note": "Refuted: with '-debug' a Kanji with a variation selector that has no Unicode entry ends the program (C100_full_refuted). C100_full_partial says exactly when, and has the text otherwise. A Frequency or Extra Kanji with a selector is reported as not found although find() finds it (link_line in ReportSpec)."
 },
 "C101": {
  "note": "Refuted for the pattern groups when a Kanji is in two of them (loading prints an error but goes on): it is counted twice, so '4 / 2 ()' is printed for two Kanji (C101_twice_refuted). The _partial theorems have the exact text when no Kanji is in two pattern groups and no name is in two rows of a file (C79)."
 },
 "C104": {
  "note": "Doubles are modelled as binary64 with rounding to nearest even, and printing as the nearest decimal; 2^46 leaves enough room that no double rounding error reaches the last decimal."
 },
 "C105": {
  "note": "A breakdown of Unrecognized without -b has the title Rank but no ranks; 'dir/' is shown as dir, but the name counted for it is empty; ', Errors: n' follows the first line when nothing else is reported. The order of a listing is that of C36."
 },
 "C106": {
  "note": "Refuted for Kanji with a variation selector: the Unicode lookup ignores which selector is given (C65), so 海 with U+FE01 is Common Kanji but has no loaded Kanji and is printed for [None] (C106_none_refuted). C106_loaded_partial has it for all names of at most 4 bytes, i.e. without selector."
 },
 "C107": {
  "note": "Values of fields are those that ColumnFile returns (C29); readings are converted as in C66."
 },
 "C108": {
  "note": "The static count of errors is a parameter (a program makes one KanjiData). Names are bytes; for files that fail to load C110 says the errors do not depend on the mode."
 },
 "C109": {
  "note": "The report itself is C97-C100."
 },
 "C110": {
  "note": "The -debug failure is C100."
 },
 "C111": {
  "note": "Opening a file is C113."
 },
 "C112": {
  "note": "Partial: the search from arg0 starts in the directory that contains the directory of the program, so a data directory beside the program is not found although the documentation says the parent directories of args[0] are searched (C112_beside_program_refuted). Paths are absolute or relative lists of names without empty parts; names of directory entries have no slash."
 },
 "C113": {
  "note": "Partial: 'It does not matter whether the files can be written' is false, since ColumnFile opens with std::fstream (reading and writing) and a table that can not be written is refused as having no header (C113_read_only_refuted). The file system is a function from paths to files, directories and links and does not change while loading; which paths can be written is a parameter."
 },
 "C114": {
  "note": "loadGroups is described by C86, printGroupData by C101 and C102. What is written of a report that an exception ends is not modelled. The names in the files are bytes (rows_ok)."
 },
 "C115": {
  "note": "loadJukugo is described by C43. The fill character of the stream is what was set before."
 },
 "C116": {
  "note": "C116_help_refuted: -h without a data directory ends with 1 and shows no help. The fill character left by a report before the details is a space unless radicals are missing, there are no variants and no meaning groups; that case is not modelled for the details. Terminal keys are read as lines."
 },
 "C117": {
  "note": "Needs a greatest frequency below 65535 and names of files made of bytes."
 },
 "C118": {
  "note": "C118_read_only_refuted: the file is opened for reading and writing, so a file that cannot be written gives no output and exit code 0. A file of bytes is always formatted to its end without an exception (C118_formatted)."
 },
 "C119": {
  "note": "Needs fewer than 65535 arguments (see C92_bound_is_sharp)."
 },
 "C120": {
  "note": "C120_same relates the functions with texts to those without; C120_header and C120_row characterize the errors of opening and reading, C120_value those of values, C120_get those of asking too early or for other columns"
 },
 "C121": {
  "note": "small-step semantics of the main thread and the nine threads of each file; the result is that of the sequential model of C103-C105. Counting the files of a row is one step (it shares only constant data); failing to start a thread is not modelled"
 },
 "C122": {
  "note": "what() of std::stoul's exceptions is a parameter"
 },
 "C123": {
  "note": "the texts are added to the models of C92-C95, C118 and C119, and shown to change nothing else"
 },
 "C124": {
  "note": "the texts are added to the models of C103-C105 and C112, and shown to change nothing else"
 },
 "C125": {
  "note": "the texts are added to the models of C29, C30 and C87, and shown to change nothing else; what() of std::stoul's exceptions is a parameter"
 },
 "C126": {
  "note": "the texts are added to getFile, listFile and construct, and shown to change nothing else; the line number of the code is an int, here it has no bound"
 },
 "C127": {
  "note": "the texts are added to the model of the files, and shown to change nothing else; what() of std::out_of_range (a line that ends in '...') is a parameter; the line number of the code is an int, here it has no bound; files have fewer than 2^63 bytes"
 },
 "C128": {
  "note": "the texts are added to the model of the tables and of the groups, and shown to change nothing else; the loop over the rows of a table is one function with the body of the loop as its argument, so that it serves for other tables; row numbers are a size_t in the code and have no bound here"
 },
 "C90": {
  "note": "random draws and shuffles are parameters; the texts of the questions are in the model, the dialog is specified separately from it"
 },
 "C95": {
  "note": "The chart has one fixed table, so its rows are checked by computation inside the kernel; the formats and argument lists are quantified over."
 },
 "C97": {
  "note": "the text is exact for any data, the totals hold after loading any files"
 },
 "C99": {
  "note": "std::sort is any function that gives an ordered permutation, so the order among Kanji with the same strokes is left open"
 },
 "C102": {
  "note": "sums over the printed reports of C101, for all groups that load"
 },
 "C103": {
  "note": "the file system has regular files, directories and links; the order in which a directory is listed is a parameter"
 },
 "C129": {
  "note": "the texts are added to the model of the Unicode data, and shown to change nothing else; both orders of evaluation of the arguments of the constructor of Ucd are modelled, for the two that can throw; row numbers are a size_t in the code and have no bound here"
 },
 "C130": {
  "note": "the texts are added to the models of radicals and of loading, and shown to change nothing else; the theorem about Kanji tables is for radicals that were loaded from rows, as all are; row numbers are a size_t in the code and have no bound here"
 },
 "C131": {
  "note": "what the made Kanji are is taken from the model of Kanji, the theorem is about which are made, in which order, and which message ends the loading; asserts are modelled as in a release build; the numbers of rows have no bound here"
 },
 "C132": {
  "note": "the result of the first part (C132_parts) is given by the contents of the files alone; C132_directory and C132_debug are about all of it; C132_reports drops the hypothesis of C100 that names are bytes"
 },
 "C133": {
  "note": "the text of exceptions thrown while questions are asked is not modelled; C133_stats is for data whose largest frequency is below 65535, as C103"
 },
 "C134": {
  "note": "both signs of char are covered"
 },
 "C135": {
  "note": "exceptions that questions of a quiz could throw are covered by C134 and shown not to happen for quizzes that fit C70 and C73"
 },
 "C136": {
  "note": "jumps and indices are taken modulo 256 (see C11 and C48), the messages are proved for what the code does"
 },
 "C137": {
  "note": "both signs of char are covered"
 },
 "C138": {
  "note": "the concepts that restrict which types the operators are enabled for are not modelled"
 },
 "C139": {
  "note": "makeBlock is consteval: a failed static_assert is modelled as no result. Numbers are written as without a locale that groups digits."
 },
 "C140": {
  "note": "False if frequency.txt has an Extra Kanji (C140_extra_refuted: the number of the name after it is undefined), has more than 2750 names (C34_long_list_refuted) or if an object with a longer list was made before (C34_second_object_refuted); C140_find_partial and C140_program are for all other directories whose listed names are not hidden by a name with a variation selector. The shipped file has 2501 names, none of an Extra Kanji."
 },
 "C141": {
  "note": "The settings are not those from before if the terminal did not show what is typed, did not wait for whole lines, or had other VMIN or VTIME (C141_restored_refuted; C141_restored_partial for all other terminals). When the input has ended the question is repeated for ever, even with a default (C141_never). A failing tcgetattr is reported as tcsetattr (C141_no_terminal). What perror appends is left out, and signals that end the program while it waits, which leave the terminal as C141_settings says it is during a read."
 },
 "C142": {
  "note": "Typed lines lead to the same options as given ones if each flag asked for is given at once (C142_same_partial); otherwise the Enter after a wrong key counts as one more wrong key (C142_same_refuted). If no key for a flag comes it is asked for for ever (C142_waits). Keys that edit a line, and input that is piped to an interactive session (where std::cin has read ahead of the keys), are not modelled."
 },
 "C143": {
  "note": "With C143 the theorems about quizzes on a stream (C69 to C75 and others) say something about the program, whose quizzes depend on their input by answers only. Runs that come to the end of the input are not covered: there a stream takes the default, while keys are asked for for ever (C141_never)."
 }
}