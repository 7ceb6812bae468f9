# Formal model of kanji-tools (C++) in Coq 8.16.1

The source in `/repo` is read as text only; nothing is built or run.  Every
definition of the model cites the file and lines it models.  The tie between
model and code is that reading: it is not checked by a machine.
`tools/unit_tests.py` computes with the model what unit tests of the source
expect for about 1600 literals (conversions, `kanaConvert` sessions and charts,
choices, tables, files, arguments, numbers, widths, splitting into characters); all
agree.  Most (conversions, sessions, charts) are read from the test files, the
others were copied by hand, and not all cases of the tests are covered.  This is a
check of the model and no part of the build.

`properties.jsonl` lists the properties, `MANIFEST.json` the theorems for each
of them, `seeded/LOG.jsonl` the wrong programs the theorems were tried on.

## Trusted base

* Coq's kernel (8.16.1) and its virtual machine (`vm_compute` is used for checks
  over finite tables and in examples; `coqchk`, which does not use the virtual
  machine, also accepts everything).
* `Print Assumptions` after every property theorem says `Closed under the global
  context`: no axiom is used.  `coqchk -o` lists seven axioms for the whole
  library, `Coq.ssr.ssrunder.Under_rel.*`.  They belong to a module of the standard
  library that `lia`'s dependencies load; no theorem depends on them.
* No axiom, `Variable` or `Hypothesis` outside of a section, no functor or
  module type, no plug-in, no switched off check, nothing admitted.
* That the model does what the code does, as far as the theorems are concerned.
  The table below says which code has a model, and what is left out.

## Conventions

* A C++ `std::string` is a `list N` of bytes; theorems that need it assume every
  byte is `< 256` (`bytes_ok`).  A `const char*` is the byte list up to its
  first NUL, and reads through it are explicit: reading past the terminating
  NUL is the distinct outcome `Ub` (undefined behaviour), never a default.
* A `char32_t`/`uint32_t` is an `N` (`< 2^32` where it matters).  Where the code
  wraps (`uint8_t`, `uint16_t`, `size_t`), the wrap is written (`mod 2^k`).
* The result of a function is `Val x`, `Throw e`, `Ub` or `Fuel` (`out` in
  `Base.v`).  `Fuel` is what a loop gives that has not ended after the given number
  of rounds; theorems say for which number it does not occur, or prove that it always
  does (a loop that never ends).
* For each area `X`: `XModel.v` (the code), `XSpec.v` (a small independent
  specification), `XProofs.v` and others (lemmas) and `XProps.v` (the property
  theorems with `Print Assumptions`, and `Example`s showing that their hypotheses
  are met by a case that is not trivial).
* A property the code violates is recorded as a theorem `..._refuted` with a
  concrete witness, next to the strongest true version (`..._partial` when it
  is less than the property says).  Its status in the manifest is "partial".
* What the code takes from outside is a parameter and the theorems hold for all
  values: the content of files, the lines a user types, random numbers (a state
  with a draw function), `std::shuffle` (any permutation), `std::sort` (any function
  that orders and permutes), `std::regex_replace` (any function, except for the
  Furigana expression which is written out), the shape of a `std::set` ordered by
  something that is not an order.

## What is modelled

| code | model | left out |
|------|-------|----------|
| utils: `Utf8` | `Utf8Model` | |
| utils: `String` | `StringModel`, `ErrUtilsModel` (texts of errors of `toChar`) | stream manipulators |
| utils: `Symbol` | `SymbolModel`, `ErrUtilsModel` (texts of errors) | the template's static maps are one value per type |
| utils: `EnumContainer`, `EnumList`, `EnumMap` | `EnumModel`, `ErrUtilsModel` (texts of errors, the static instance, comparing iterators) | iterator traits |
| utils: `ColumnFile` | `ColumnFileModel`, `RowsModel` (loops over rows), `DirModel` (opening), `ErrTableModel` (texts of errors) | |
| utils: `UnicodeBlock`, `BlockRange` | `BlockModel`, `NamedBlockModel` (names, versions, output), `ErrUtilsModel` (texts of errors) | |
| utils: `Args` | `ArgsModel`, `ErrArgsModel` (texts of errors) | |
| utils: `Bitmask`, `TypeTraits` | `BitmaskModel` | type traits, concepts, `Exception` (only its type and text) |
| kana: `Utf8Char` | `Utf8CharModel` | |
| kana: `Kana`, `KanaEnums` | `KanaModel` | |
| kana: `Converter` | `ConverterModel` | |
| kana: `DisplaySize`, `Table` | `DisplayModel`, `TableModel` | |
| kana: `Choice` | `ChoiceModel`, `ErrChoiceModel` (texts of its errors, for signed and unsigned char), `TermModel` (single keys of a terminal) | signals, texts that `perror` appends |
| kana: `KanaConvert` (the program) | `ProgramModel`, `ErrConvertModel` (texts of errors), `ConsoleModel` (at a terminal) | keys that edit a line, `-i` with piped input (`std::cin` reads ahead of the keys) |
| kanji: `MorohashiId`, `Strokes` | `IdsModel`, `ErrDetailsModel` (texts of errors) | |
| kanji: `Radical`, `RadicalData` | `RadicalModel`, `ReportModel` (`print`), `ErrOfficialModel` (texts of errors) | |
| kanji: `Ucd`, `UcdData` | `UcdModel`, `ReportModel` (`print`), `ErrUcdModel` (messages) | |
| kanji: `ListFile` | `ListModel`, `DirModel` (finding the file), `ErrListModel` (texts of errors) | |
| kanji: `Kanji`, `OfficialKanji` | `KanjiModel` (values and orders), `LoadModel` (constructors), `ErrOfficialModel` (texts of errors of tables), `ErrLoadModel` (texts of the other errors) | |
| kanji: `KanjiData`, `TextKanjiData` | `DataModel`, `LoadModel`, `ArgsModel`, `ReportModel` (printed reports), `LoadLogModel` (messages while loading), `DirModel` (finding and reading the directory), `ErrDirModel` (texts of errors about it), `ErrLoadModel` (texts of all errors while loading) | |
| quiz: `Quiz`, `ListQuiz` | `QuizModel`, `ErrQuizModel` (texts of errors when a quiz starts) | |
| quiz: `Group`, `GroupQuiz` | `GroupModel`, `ErrGroupModel` (texts of errors of `Group`), `ErrQuizModel` (texts of errors of `GroupQuiz`) | |
| quiz: `GroupData` | `GroupLoadModel`, `GroupReportModel` (printed reports), `QuizDataModel` (files and messages), `ErrRowsModel`, `ErrGroupModel` (texts of errors) | |
| quiz: `Jukugo`, `JukugoData` | `JukugoModel`, `QuizDataModel` (files and debug output), `ErrJukugoModel` (texts of errors) | |
| quiz: `QuizLauncher` | `LaunchModel` (command line), `ErrArgsModel` (texts of its errors), `DetailsModel` (Kanji argument, details), `ErrDetailsModel` (texts of errors about the Kanji argument), `StartModel` (choice of the list), `QuizModel`, `MainModel` (help) | answers are lines of a stream, as when `in` is given; the program takes single keys: C143 (`KeyQuizModel`) shows that its questions get the same answers, up to the end of the input |
| stats: `Utf8Count`, `Stats` | `CountModel`, `StatsModel`, `StatsReportModel` (command line and text; doubles as binary64, rounded to nearest even), `ThreadModel` (threads, any schedule), `ErrStatsModel` (texts of errors) | failing to start a thread |
| apps: `formatMain`, `quizMain`, `statsMain`, `convertMain` | `FormatModel`, `MainModel` (the programs from their arguments to their exit codes), `ErrMainModel` (the message kanjiQuiz or kanjiStats ends with) | |

Also left out: changes of the file system while a program runs, `std::locale`, memory allocation failure, timing,
the text of error messages other than those of
tables, lists, Jukugo files, groups, the Unicode data, radicals, Kanji tables, arguments, ids, stroke counts, choices and the data directory, what() of exceptions of the standard library.  The contents of the data files under `/repo/data` are
not embedded: theorems quantify over all contents.

## What the proofs found

Each of these is a `_refuted` theorem or an `Example`, with more in the notes of
`MANIFEST.json`.

Text: `isValidUtf8` looks at the first character only (C06); a malformed byte
counts as punctuation, and tests of an empty string are false although documented as true
(C14); ワ, ヰ, ヱ, ヲ and the iteration marks with a voiced mark are not combined
(C18); `getFirst` skips leading Ascii, `isCharWithVariationSelector` accepts two
letters (C51); `CharTooLong` is reported as `MissingBytes` (C05).

Kana: after small tsu, a kana and a small kana that form no digraph stay unconverted and a
following prolong mark is lost (C19-C21); `MATTE` is not read like `matte` (C22);
pending letters are moved behind characters that follow them (C23); っあゝ depends on the
order of evaluation (C52).

Containers: an enum index of 256 or more is taken modulo 256 (C11, C48); a row with one more,
empty, field is accepted (C12); fields that are not numbers can be accepted (C13).

Kanji data: names of a failed load stay reserved (C32); frequencies from 2751 on, a shorter second
list or a listed Kanji without frequency make `findByFrequency` read outside of its lists (C34, C140 for whole data directories); the
order by Unicode compares hexadecimal text, so U+20000 comes before U+4E00 (C35); a
compatibility name can hide a Kanji (C61); Nelson ids after a bad one are dropped without a message (C63);
lookup ignores which variation selector is given (C65); duplicate radical names overwrite each
other (C77); a listed Extra Kanji has frequency 0 (C78); type lists keep Kanji that were refused
as duplicates (C79) and the printed sizes then do not add up (C96); `-debug` ends the program when a Kanji with a variation
selector has no Unicode entry (C100); a data directory beside the program is not found from arg0 (C112); tables that can be read
but not written are refused with "missing header row" (C113).

Statistics: `Count`'s `operator<` is not an order (C36); the wide space is counted nowhere (C54);
removing Furigana can leave Furigana (C55); a Kanji with an unusual variation selector is counted for the
type `None` (C106).

Programs: at the end of input `Choice::get` never returns (C28, C141 for keys, where it does not even
take the default); choices made with keys leave a terminal showing what is typed, whatever it did before, and report a failed `tcgetattr` as `tcsetattr` (C141); at a terminal the Enter after a wrong key for a flag is one more wrong key (C142); `nextArg` with 65535 arguments never ends (C44);
a list quiz of 65536 questions wraps its counter, a quiz with too few different readings never starts, a refused
quiz still prints a score (C39 and following); completing a group with more than 26 shown members is
undefined behaviour, and the shipped data has such groups (C41 and following); `formatMain` loses a last line that ends
in a Kanji (C45); `-r-` ends in `std::invalid_argument` (C46); a Jukugo reading may be Ascii (C84);
a Jukugo that repeats a Kanji is listed twice (C43); the report on pattern groups can print `4 / 2 ()` (C101); `u0041` is accepted as a Kanji (C87); Jukugo of 30
columns run into each other (C89); quitting at "List order" keeps the mode for the next start (C91); `kanaConvert -n text`
still writes a newline, and texts converted to Romaji are not separated (C94); a line "q" ends piped input (C93); `--` among
65535 arguments never ends (C92); `kanjiFormat` of a read-only file writes nothing and ends with 0 (C118); `kanjiQuiz -h`
needs the data directory (C116).

Also visible in the models, most without a theorem of their own: '/' is not accepted at the prompts that edit a group; the
old names of a refused duplicate Jinmei row are still linked; a level list that was not loaded ends in a `RangeError`;
a group without an included member is answered "Correct!" by itself; an empty group list ends in a `DomainError` after the score was printed;
`getDebugMode` takes the value of `-data` for an option (C57); pinyin wider than its column ends in
`std::length_error`; the argument `m` alone prints "Found 0 matches for Morohashi ID "; the help text says `-f[1-5]` while other
digits are accepted; in full debug mode the fill character of radicals is left at '0'; the message "got duplicate token '" lacks its closing quote
(C126); an empty Kanji argument is answered with "invalid frequency ''" (C125); a bad `Number` of a group
is reported with its file and row twice (C128), and so are bad values of `Strokes`, `VStrokes` and `Code` in the
Unicode data, while a link whose code is of another Kanji is reported without file and row (C129), as are unknown radicals, grades and reasons
and strokes out of range in the Kanji tables (C130); a Kanji without a level in a list of a level (an Extra or linked one) ends the loading of all data
with "index 'enum value 5' is out of range", which tells neither the Kanji nor the file, and lists of a Kyu do the same with 12 (C131; with asserts switched on it aborts
there instead: asserts are modelled as in a release build); a directory that is loaded without `-debug` can be refused with it, since its last
report throws for a Kanji with a variation selector that has no Unicode entry (C132).

The other models of loading take the static state of the lists as it is when the lists are made. The constructor clears it first
(KanjiData.cpp:154, `newTextDataT`), so lists made earlier do not matter (`C132_fresh`); the clearing after the lists (TextKanjiData.cpp:36)
has no effect on what is loaded and is left out.

`ErrMainModel` gives kanjiQuiz and kanjiStats with the text they end with (C133); it is shown to be the programs of `MainModel`
with their exceptions. `ErrQuizModel` adds the texts of a quiz that cannot be started (C135) and is shown to be the same programs again.
The texts of exceptions of `std` while questions are asked stay out; a quiz that meets the hypotheses of C70 or C73 throws none.
