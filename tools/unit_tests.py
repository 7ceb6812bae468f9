#!/usr/bin/env python3
"""Compare the model with expectations of the unit tests in /repo/tests.

Those of ConverterTest, KanaConvertTest and TableTest are read from the source.  Those of ChoiceTest, ColumnFileTest,
ListFileTest, JukugoDataTest, GroupDataTest, ArgsTest, QuizLauncherTest (errors of arguments only), MorohashiIdTest,
StrokesTest, DisplaySizeTest and Utf8CharTest are copied by hand.  Not every case
of these files is here, so agreement says nothing of the others.

This is a check of the model, not a proof, and no part of the build.  Needs the compiled theories.  Usage:
tools/unit_tests.py [directory of the theories] [directory of the source]"""
import os, re, subprocess, sys, tempfile
theories = sys.argv[1] if len(sys.argv) > 1 else os.path.join(os.path.dirname(os.path.abspath(__file__)), "..", "rocq", "theories")
source = sys.argv[2] if len(sys.argv) > 2 else "/repo"
work = tempfile.mkdtemp()
failed = 0


def by(s):
    """a byte string as a Coq list"""
    return "[" + ";".join(str(b) for b in (s.encode() if isinstance(s, str) else s)) + "]"


def text(s):
    return bytes(int(z) for z in re.findall(r"\d+", s)).decode()


def compute(name, imports, terms, definitions=""):
    """the values of the terms, as printed"""
    v = "From Verif Require Import %s.\nOpen Scope N_scope.\nSet Printing Depth 1000000.\nSet Printing Width 100000.\n" % imports
    v += definitions + "".join("Compute %s.\n" % t for t in terms)
    with open(os.path.join(work, name + ".v"), "w") as f:
        f.write(v)
    o = subprocess.run(["coqc", "-Q", theories, "Verif", name + ".v"], cwd=work, capture_output=True, text=True)
    if o.returncode:
        raise SystemExit(o.stderr)
    return [re.sub(r"\s+", " ", x) for x in re.findall(r"^     = (.*?)\n     : ", o.stdout, re.S | re.M)]


def compare(name, got, wanted):
    global failed
    if len(got) != len(wanted):
        raise SystemExit("%s: %d results for %d terms" % (name, len(got), len(wanted)))
    bad = [(i, g, w) for i, (g, w) in enumerate(zip(got, wanted)) if g != w]
    for b in bad[:5]:
        print("  ", name, *b)
    failed += len(bad)
    print("%s: %d of %d agree" % (name, len(got) - len(bad), len(got)))


def converter():
    s = re.sub(r"//[^\n]*", "", open(source + "/tests/kana/ConverterTest.cpp").read())
    H, K, R = "Hiragana", "Katakana", "Romaji"
    flags = {"Hepburn": 1, "Kunrei": 2, "NoProlongMark": 4, "RemoveSpaces": 8}
    cases = []  # source, target, flags, input, output

    def check(h, k, r, hepburn=None, kunrei=None, both=None):
        for f, v in ((0, r), (1, hepburn or r), (2, kunrei or r), (3, both or hepburn or kunrei or r)):
            cases.extend([(H, R, f, h, v), (K, R, f, k, v)])

    for m in re.finditer(r'EXPECT_EQ\(\s*(romaji|hiragana|katakana)To(Hiragana|Katakana|Romaji)\(\s*"([^"]*)"\s*(?:,\s*([^)]*))?\)\s*,\s*"([^"]*)"', s):
        cases.append((m.group(1).capitalize(), m.group(2), sum(flags[x] for x in re.findall(r"::(\w+)", m.group(4) or "")), m.group(3), m.group(5)))
    for m in re.finditer(r'kanaConvertCheck\(\s*"([^"]*)",\s*"([^"]*)"(?:,\s*"([^"]*)")?\)', s):
        h, k, r = m.groups()
        cases.extend([(H, K, 0, h, k), (K, H, 0, k, h)])
        if r:
            cases.extend([(H, R, 0, h, r), (K, R, 0, k, r)])
    for m in re.finditer(r'\bcheck\(((?:\s*"[^"]*",?)+)\)', s):
        check(*re.findall(r'"([^"]*)"', m.group(1)))
    for m in re.finditer(r'\bcheckKunrei\(((?:\s*"[^"]*",?)+)\)', s):
        h, k, r, kunrei = re.findall(r'"([^"]*)"', m.group(1))
        check(h, k, r, None, kunrei)
    for m in re.finditer(r"P\{'(\\?.)', \"(.)\"\}", s[s.index("CheckDelims"):]):
        check(m.group(2), m.group(2), m.group(1)[-1])
    for m in re.finditer(r'checkSmallKana\(CharType::(\w+), "([^"]*)"\)', s):
        t, x, r = m.group(1), m.group(2), "lalilulelolkalkelyalyulyoltulwa"
        cases.extend([(t, R, 0, x, r), (R, t, 0, r, x), (R, t, 0, r.replace("l", "x"), x)])
    terms = ["convertFrom %s %d true %s %s" % (t, f, a, by(i)) for a, t, f, i, _ in cases]
    wanted = [o for _, _, _, _, o in cases]
    for m in re.finditer(r'convert\("([^"]*)", CharType::(\w+)\),\s*"([^"]*)"', s):
        terms.append("convert %s 0 true %s" % (m.group(2), by(m.group(1))))
        wanted.append(m.group(3))
    compare("ConverterTest", [text(x) for x in compute("Converter", "KanaModel ConverterModel", terms)], wanted)


def kana_convert():
    options = ">>> current options: source=%s, target=%s, flags=%s\n>>> enter string (c=clear flags, f=set flag, q=quit, h=help, -k|-h|-r|-K|-H|-R):\n"
    start, refused = options % ("any", "Hiragana", "None"), "Throw DomainError"
    s = open(source + "/tests/kana/KanaConvertTest.cpp").read()
    usage, help_ = re.findall(r'R"\((.*?)\)"', s, re.S)
    flag = ">>> enter flag option (h=Hepburn, k=Kunrei, n=NoProlongMark, r=RemoveSpaces): "
    romaji = options % ("any", "Romaji", "None")
    kunrei = options % ("any", "Romaji", "Kunrei")
    cases = [(["-?"], "", usage)] + [(a, "", refused) for a in (
        ["-a"], ["-f"], ["-f", "a"], ["-f", "aa"], ["-i", "-i"], ["-i", "-m"], ["-i", "-n"], ["-i", "-p"], ["-i", "hi"], ["-m", "hi"], ["-p", "hi"], [])]
    cases += [(["-i"], "", start), (["-i", "-h"], "", start)]
    cases += [(["-i", o], "", options % ("any", t, "None")) for o, t in (("-k", "Katakana"), ("-r", "Romaji"))]
    cases += [(["-i", o], "", options % (t, "Hiragana", "None")) for o, t in (("-H", "Hiragana"), ("-K", "Katakana"), ("-R", "Romaji"))]
    cases += [(["-i", "-f", o], "", options % ("any", "Hiragana", t)) for o, t in (("h", "Hepburn"), ("k", "Kunrei"), ("n", "NoProlongMark"), ("r", "RemoveSpaces"))]
    cases += [(["-i", "-f", "n", "-f", "r"], "", options % ("any", "Hiragana", "NoProlongMark|RemoveSpaces")),
              (["hi"], "", "ひ\n"), (["--", "hi"], "", "ひ\n"), (["ze", "hi"], "", "ぜ　ひ\n"), (["-f", "r", "ze", "hi"], "", "ぜひ\n"),
              (["-i"], "kippu\n", start + "きっぷ\n"), (["-i"], "h\n", start + help_),
              (["-i", "-r"], "f\nk\nし\n", romaji + flag + kunrei + "si\n"), (["-i", "-r"], "f\nk\nc\nし\n", romaji + flag + kunrei + romaji + "shi\n"),
              (["-i"], "-k\nrāmen\n", start + options % ("any", "Katakana", "None") + "ラーメン\n"), (["-i"], "-o\n", start + "  illegal option: -o\n" + start)]
    terms = ["program true 100 (argsOf [%s]) true (MkIn %s false)" % (";".join(by(x) for x in [""] + a), by(i + "q\n")) for a, i, _ in cases]
    terms += ["program true 100 (argsOf [[];[45;%d]]) true (MkIn [] false)" % c for c in b"pm"]
    got = []
    for x in compute("KanaConvert", "Base ArgsModel ArgsProofs ChoiceModel ProgramModel", terms):
        m = re.match(r"\(\[(.*)\], (.*)\)$", x)
        got.append(text(m.group(1)) if m.group(2) == "Val tt" else m.group(2))
    compare("KanaConvertTest", got[:-2], [w for _, _, w in cases])
    for g, n, first, last, rows in zip(got[-2:], (245, 236), (">>> Notes:", "**Notes:**"),
                                       ("     Types: 208 (P=131, D=63, H=10, N=4)", "- **Types:** 208 (P=131, D=63, H=10, N=4)"),
                                       (("| 14  | P    | ka   | か   | カ   | 304B | 30AB |", "| 205 | N    | /    |      | ・   |      | 30FB |", "Monographs:  86"),
                                        ("| **14** | **P** | **ka** | **か** | **カ** |", "| **205** | **N** | **/** |  | **・** |", "- **Monographs:** 86"))):
        l = g.splitlines()
        compare("chart", [len(l), l[0], l[-1].startswith(last)] + [sum(x.startswith(r) for x in l) for r in rows], [n, first, True, 1, 1, 1])


def choice():
    def choices(l):
        return "[" + ";".join("(%d,%s)" % (ord(c), by(d)) for c, d in sorted(l)) + "]"

    cases = []

    def get(msg, l, i, c, out="", default=None, quit_=None, use="true", rng=None):
        cases.append(("%s 50 %s %s %s %s %s %s (MkIn %s false)" % (
            "ChoiceModel.getRange" if rng else "ChoiceModel.get", "(Some (%d,%s))" % (ord(quit_[0]), by(quit_[1])) if quit_ else "None",
            "%d %d" % (ord(rng[0]), ord(rng[1])) if rng else "", by(msg), use, choices(l), "(Some %d)" % ord(default) if default else "None", by(i)), c and (c, out)))

    def e(s):
        return [(c, "") for c in s]

    gy = [("g", "good"), ("y", "yes")]
    get("", e("a"), "a\n", "a", "(a): ")
    get("", [], "\n", None)
    get("", e("\x1b"), "\n", None)
    get("", e("ab"), "a\n", "a", "(a-b): ")
    get("", e("ac"), "a\n", "a", "(a, c): ")
    get("", e("abcef"), "e\n", "e", "(a-c, e-f): ")
    get("", e("abce12"), "c\n", "c", "(1-2, a-c, e): ")
    get("hello", [("a", "world"), ("b", "!"), ("e", "")], "b\n", "b", "hello (a=world, b=!, e): ")
    get("hello", e("12cd") + [("a", "world"), ("b", "!")], "a\n", "a", "hello (1-2, a=world, b=!, c-d): ")
    get("", e("12"), "\n", "1", "(1-2) def '1': ", "1")
    get("", e("12"), "2\n", "2", "(1-2) def '1': ", "1")
    get("", [], "\n", "1", "(1-4) def '1': ", "1", rng="14")
    get("", [], "\n", None, rng="21")
    get("", [], "\n", None, rng="\0a")
    get("", [], "\n", None, rng="a\n")
    get("pick", [], "b\n", "b", "pick (a-z): ", rng="az")
    get("pick", gy, "g\n", "g", "pick (a-f, g=good, y=yes): ", rng="af")
    get("pick", gy, "\n", "y", "pick (a-f, g=good, y=yes) def 'y': ", "y", rng="af")
    get("", e("12"), "\n2\n", "2", "(1-2): (1-2): ")
    get("", e("12"), "3\n2\n", "2", "(1-2): (1-2): ")
    get("", e("12"), "3\n2\n", "2", "(1-2) def '1': (1-2) def '1': ", "1")
    get("", e("12"), "q\n", "q", "(1-2, q=quit): ", quit_=("q", "quit"))
    get("", e("12"), "s\n", "s", "(1-2, s=終了): ", quit_=("s", "終了"))
    get("", e("12"), "2\n", "2", "(1-2): ", quit_=("q", "quit"), use="false")
    get("", [("a", "abc"), ("b", "123")], "", None, default="e")
    get("", [("q", "abc")], "", None, quit_=("q", "quit"))
    get("", [("q", "abc")], "", None, quit_=("q", "quit"), use="false")
    get("", [("a", "12"), ("c", "34")], "", None, rng="ac")
    get("", [("a", "12"), ("c", "34")], "", None, rng="bc")
    got = []
    for x in compute("Choices", "Base ChoiceModel", [t for t, _ in cases]):
        m = re.match(r"Val \((\d+), .*?, \[(.*?)\]\)", x)
        got.append((chr(int(m.group(1))), text(m.group(2))) if m else None if x == "Throw DomainError" else x)
    compare("ChoiceTest", got, [w for _, w in cases])


def table():
    s = re.sub(r"//[^\n]*", "", open(source + "/tests/kana/TableTest.cpp").read())
    terms, wanted = [], []
    for t in re.split(r"TEST_F", s)[3:]:
        m = re.search(r"Table t(?:\{\{(.*?)\}(, true)?\})?;", t)
        x = "(newTable [%s] %s)" % (";".join(by(c) for c in re.findall(r'"([^"]*)"', (m.group(1) or "").replace("world}", '"world"').replace(" world", ' "world"'))),
                                    "true" if m.group(2) else "false")
        for r in re.finditer(r"t\.add\((?:\{(.*?)\}(, true)?)?\);", t):
            x = "(addRow %s [%s] %s)" % (x, ";".join(by(c) for c in re.findall(r'"([^"]*)"', r.group(1) or "")), "true" if r.group(2) else "false")
        for name, f in (("expected", "print %s"), ("expectedMD", "Val (printMarkdown %s)")):
            m = re.search(r"const auto %s = \{(.*?)\};" % name, t, re.S)
            if m:
                terms.append(f % x)
                wanted.append("".join(l.replace("\\\\", "\\") + "\n" for l in re.findall(r'"([^"]*)"', m.group(1))))
    got = [text(x) for x in compute("Tables", "Base TableModel", terms)]
    compare("TableTest", got, wanted)


def others():
    ok = []
    for s, v in (("", "0 Plain ''"), ("00000", "0 Plain ''"), ("0001", "1 Plain 1"), ("3P", "3 Prime 3P"), ("3'", "3 Prime 3P"), ("003P", "3 Prime 3P"), ("003'", "3 Prime 3P"),
                 ("7PP", "7 DoublePrime 7PP"), ("7''", "7 DoublePrime 7PP"), ("007PP", "7 DoublePrime 7PP"), ("007''", "7 DoublePrime 7PP"),
                 ("H10", "10 Supplemental H10"), ("H0010", "10 Supplemental H10"), ("65535", "65535 Plain 65535"), ("65535P", "65535 Prime 65535P"),
                 ("65535PP", "65535 DoublePrime 65535PP"), ("H65535", "65535 Supplemental H65535"), ("089PP", "89 DoublePrime 89PP")):
        n, t, r = v.split()
        ok.append(("m <- newMorohashi %s ;; Val (m, morohashiToString m)" % by(s), "Val (%s, %s, %s)" % (n, t, by(r.replace("''", "")).replace(";", "; "))))
    ok += [("newMorohashi " + by(s), "Throw DomainError") for s in (
        "PP", "''", "P", "'", "H", "0PP", "00''", "00P", "0'", "H0", "x", "a7", "22D4", "123f", "H65536", "65536P", "65536PP", "65536'", "65536''", "H131072", "131072P")]
    compare("MorohashiIdTest", compute("Ids", "Base IdsModel", [t for t, _ in ok]), [w for _, w in ok])
    ok = [("newStrokes 1", "Val (1, 0)"), ("newStrokes2 2 3", "Val (2, 3)"), ("s <- newStrokes2 64 33 ;; Val (strokesToString s true)", "Val " + by("64/33").replace(";", "; "))]
    ok += [(t, "Throw RangeError") for t in ("newStrokes 0", "newStrokes 65", "newStrokes2 2 0", "newStrokes2 2 1", "newStrokes2 2 2", "newStrokes2 0 3", "newStrokes2 1 3", "newStrokes2 2 34")]
    ok += [("newStrokes2 3 3", "Throw DomainError")]
    compare("StrokesTest", compute("Strokes", "Base IdsModel", [t for t, _ in ok]), [w for _, w in ok])
    itsu = "\u9038\ufe01"
    ok = [("displaySize " + by(s), "Val %d" % n) for s, n in (("", 0), ("abc .", 5), ("abクcカ", 7), ("。、Ｈ", 6), ("𫠜中1234　", 10), (itsu, 2), ("と\u3099ヒ\u309a", 4), ("𠮟", 2))]
    ok += [("wideSetw %s %d" % (by(s), w), "Val %d%%Z" % n) for s, w, n in (
        ("abc", 5, 5), ("abクcカ", 8, 10), ("。、Ｈ", 8, 11), ("𫠜中1234　", 11, 15), (itsu, 4, 8), ("𠮟", 3, 5), ("𠮟", 2, 4), ("𠮟", 1, 3))]
    compare("DisplaySizeTest", compute("Display", "Base DisplayModel", [t for t, _ in ok]), [w for _, w in ok])
    kou = bytearray("甲乙丙丁".encode())
    kou[1], kou[6] = ord("x"), ord("z")
    ok = [("u8size %s %s" % (by(s), o), "Val %d" % n) for s, o, n in (
        ("abc", "true", 0), ("abc", "false", 3), ("大blue空", "true", 2), ("大blue空", "false", 6), (itsu, "true", 1), ("愛詞（あいことば）", "true", 9), ("愛詞（あいことは\u3099）", "true", 9))]
    ok += [("'(l, u) <- allChars %s %s ;; Val (l, uErrors u)" % (by(s), o), "Val ([%s], %d)" % ("; ".join(by(c).replace(";", "; ") for c in l), n)) for s, o, l, n in (
        ("todayトロントの天気is nice。", "true", "トロントの天気。", 0), ("憎\ufe00憎む朗\ufe00", "true", ["憎\ufe00", "憎", "む", "朗\ufe00"], 0),
        ("ガキ\u3099グホ\u309a", "true", "ガギグポ", 0), ("a天気b", "false", "a天気b", 0), (bytes(kou), "true", "乙丁", 4), (bytes(kou), "false", "x乙z丁", 4),
        ("a\ufe01ご", "true", "ご", 1), ("\u3099\u309aじ", "true", "じ", 2))]
    compare("Utf8CharTest", compute("Chars", "Base Utf8CharModel", [t for t, _ in ok]), [w for _, w in ok])


def column_file():
    reg = ["Col", "Col1", "Col2", "Col3", "Col4", "B", "Not Included", "1", "2", "3", "4", "5"]

    def col(n):
        return "{| cname := %s; cnumber := %d |}" % (by(n), reg.index(n) if n in reg else len(reg))

    def open_(cols, content, place="Contents %s", name="testFile.txt", delim=9):
        return "openFileE [%s] %s (%s) [%s] %d" % (";".join(by(r) for r in reg), by(name), place % by(content) if "%" in place else place, ";".join(col(c) for c in cols), delim)

    def row(cols, content, n, term, delim=9):
        return "f <~ %s ;; g <~ readRowsE %s %d f ;; %s" % (open_(cols, content, delim=delim), by("testFile.txt"), n, term)

    def got(f, c, rest=""):
        return "%s %s g %s%s" % (f, by("testFile.txt"), col(c), rest)

    def says(m):
        return "Says DomainError " + by(m).replace(";", "; ")

    def val(v):
        return "Got " + by(v).replace(";", "; ")

    file = " - file: testFile.txt"
    c3, head = ["Col1", "Col2", "Col3"], "Col1\tCol2\tCol3\n"
    at = file + ", row: %d, column: 'Col', value: '%s'"
    ok = [(open_([], ""), says("must specify at least one column" + file)), (open_(["B"], "A\n"), says("unrecognized header 'A'" + file)),
          (open_(["Col"], "Col\tCol\n"), says("duplicate header 'Col'" + file)), (open_(["Col1", "Col2", "Col1"], "\n"), says("duplicate column 'Col1'" + file)),
          (open_(["Col1", "Col2"], "Col1\n"), says("column 'Col2' not found" + file)),
          (open_(["Col1", "Col2", "Col3", "Col4"], "Col1\tCol3\n"), says("2 columns not found: 'Col2', 'Col4'" + file)),
          (open_(["Col"], "", "Nothing"), says("doesn't exist" + file)), (open_(["Col"], "", "NotFile", "testDir"), says("not regular file - file: testDir")),
          (open_(["Col"], ""), says("missing header row" + file)),
          (row(["Col"], "Col\nVal\n", 1, got("getFieldE", "Col")), val("Val")), (row(["Col"], "Col\n\n", 1, got("getFieldE", "Col")), val("")),
          (row(["Col"], "Col\n", 0, got("getFieldE", "Col")), says("'nextRow' must be called before calling 'get'" + file)),
          (row(["Col"], "Col\nVal\n", 1, got("getFieldE", "Created After")), says("unrecognized column 'Created After'" + file + ", row: 1")),
          (row(["Col"], "Col\nVal\n", 1, got("getFieldE", "Not Included")), says("invalid column 'Not Included'" + file + ", row: 1")),
          (row(c3, head + "Val1\tVal2\n", 1, "Got tt"), says("not enough columns" + file + ", row: 1")),
          (row(c3, head + "Val1\tVal2\tVal3\tVal4\n", 1, "Got tt"), says("too many columns" + file + ", row: 1"))]
    ok += [(row(c3, "Col1|Col2|Col3\nVal1|Val2|\n", 1, got("getFieldE", c), 124), val(v)) for c, v in zip(c3, ("Val1", "Val2", ""))]
    ok += [(row(c3[::-1], head + "Val1\tVal2\tVal3\n", 1, got("getFieldE", c)), val("Val" + c[-1])) for c in c3]
    ok += [(row(c3, head + "R11\tR12\tR13\nR21\tR22\tR23\n", n, got("getFieldE", c)), val("R%d%s" % (n, c[-1]))) for n in (1, 2) for c in c3]
    ok += [(row(c3 + ["Col4"], "Col1\tCol2\tCol3\tCol4\n\tVal2\t\t\n", 1, got("getFieldE", c)), val("Val2" if c == "Col2" else "")) for c in c3 + ["Col4"]]
    for f, some in (("getU64E", "%d"), ("getOptU64E", "Some %d")):
        ok += [(row(["Col"], "Col\n123\n", 1, got(f, "Col", " 0")), "Got " + ("(%s)" % some if " " in some else some) % 123),
               (row(["Col"], "Col\nblah\n", 1, got(f, "Col", " 0")), says("failed to convert to unsigned number" + at % (1, "blah"))),
               (row(["Col"], "Col\n1234\n", 1, got(f, "Col", " 255")), says("exceeded max value of 255" + at % (1, "1234")))]
    ok += [(row(["Col"], "Col\n123\n\n", 2, got("getOptU64E", "Col", " 0")), "Got None"),
           (row(["Col"], "Col\n123\n123\n124\n", 3, got("getU64E", "Col", " 123")), says("exceeded max value of 123" + at % (3, "124"))),
           (row(["Col"], "Col\nx\n", 1, got("getBoolE", "Col")), says("failed to convert to bool" + at % (1, "x"))),
           (row(["1", "2"], "1\t2\n898B\t20B9F\n", 1, got("getChar32E", "1")), "Got 35211"), (row(["1", "2"], "1\t2\n898B\t20B9F\n", 1, got("getChar32E", "2")), "Got 134047")]
    ok += [(row(list("12345"), "1\t2\t3\t4\t5\nY\tT\tN\tF\t\n", 1, got("getBoolE", c)), "Got " + v) for c, v in zip("12345", ("true", "true", "false", "false", "false"))]
    ok += [(row(["Col"], "Col\nAAA\n123456\nABCd\nDEFG\n", n, got("getChar32E", "Col")), says("failed to convert to Code, " + m + at % (n, v)))
           for n, m, v in ((1, "size must be 4 or 5", "AAA"), (2, "size must be 4 or 5", "123456"), (3, "invalid hex", "ABCd"), (4, "invalid hex", "DEFG"))]
    compare("ColumnFileTest", compute("Columns", "ErrTableModel", [t for t, _ in ok]), [w for _, w in ok])


def list_file():
    files = {"goodOnePerLine": "北\n海\n道", "goodOnePerLineLevel": "犬\n猫\n虎", "badOnePerLine": "焼 肉", "multiplePerLine": "東 西 線", "badSymbol": "a", "duplicateSymbol": "車\n車"}
    fs = "if beq p %s then Some (CountModel.Dir []) else %s" % (by("testDir"), "".join(
        "if beq p %s then Some (CountModel.File %s) else " % (by("testDir/" + n), by(c)) for n, c in files.items()) + "None")
    defs = "Definition fs (p : bytes) : option CountModel.node := %s.\n" % fs
    defs += "Definition made k ft p n st := match newListT fs k ft p n st with Val (st, inl l) => (st, listOf l, map (getIndex l) (listOf l), list_toString l) | Val (st, inr e) => (st, [], [], e) | _ => (st, [], [], []) end.\n"
    defs += "Definition shown (x : list_static * list bytes * list N * bytes) := let '(_, a, b, c) := x in (a, b, c).\nDefinition left x : list_static := fst (fst (fst (x : list_static * list bytes * list N * bytes))).\n"

    def made(n, kind="PlainList", per="OnePerLine", given="", st="initStatic"):
        return "made %s %s %s %s %s" % (kind, per, by("testDir/" + n), by(given), st)

    def out(l, t):
        return "([%s], [%s], %s)" % ("; ".join(by(c).replace(";", "; ") for c in l), "; ".join(str(i + 1) for i in range(len(l))), by(t).replace(";", "; "))

    many = made("multiplePerLine", per="MultiplePerLine")
    ok = [("getFileT fs %s %s" % (by("testDir"), by(n)), "Says DomainError " + by(m).replace(";", "; ")) for n, m in (
        ("missing.txt", "testDir must contain 'missing.txt'"), ("missing", "testDir must contain 'missing' (also tried '.txt' extension)"))]
    ok += [("shown (%s)" % t, w) for t, w in (
        (made("goodOnePerLine"), out("北海道", "北海道")), (made("goodOnePerLineLevel", "LevelList", given="N2"), out("犬猫虎", "犬猫虎")), (many, out("東西線", "東西線")),
        (made("badOnePerLine"), out("", "got multiple tokens - line: 1, file: testDir/badOnePerLine")),
        (made("multiplePerLine", per="MultiplePerLine", st="(left (%s))" % many), out("", "found globally non-unique entry '東' - line: 1, file: testDir/multiplePerLine")),
        (made("goodOnePerLineLevel", "LevelList", given="N3", st="(left (%s))" % made("goodOnePerLineLevel", "LevelList", given="N2")),
         out("", "found 3 duplicates in N3: 犬 猫 虎, file: testDir/goodOnePerLineLevel")),
        (made("badSymbol"), out("", "invalid multi-byte token 'a' - line: 1, file: testDir/badSymbol")),
        (made("duplicateSymbol"), out("", "got duplicate token '車 - line: 2, file: testDir/duplicateSymbol")))]
    compare("ListFileTest", compute("Lists", "ErrListModel", [t for t, _ in ok], defs), [w for _, w in ok])


def quiz_data():
    def tree(files):
        return "(fun p => if beq p %s then Some (CountModel.Dir []) else %sNone)" % (by("testDir"), "".join(
            "if beq p %s then Some (CountModel.File %s) else " % (by("testDir/" + n), by(c)) for n, c in files.items()))

    def says(m):
        return "inr " + by(m).replace(";", "; ")

    def lst(l):
        return "[%s]" % "; ".join(l)

    def txt(s):
        return by(s).replace(";", "; ")

    defs = "Definition jukugo fs k := match jukugoFilesT (fun _ => []) fs %s GradeFiles emptyJukugo with Got d => inl (map (fun j => (jName j, jReading j, jGrade j)) (jFind d k)) | Says _ w => inr w | _ => inr [] end.\n" % by("testDir")

    def found(*l):
        return "inl " + lst("(%s, %s, %d)" % (txt(n), txt(r), g) for n, r, g in l)

    grades = {"g%d.txt" % i: "" for i in range(1, 7)}

    def jukugo(k="青", **files):
        return "jukugo %s %s" % (tree({**grades, "other.txt": "", **{n + ".txt": c for n, c in files.items()}}), by(k))

    err, sora, tsuru = " - line: 1, file: ", [("青空", "あおぞら", 1)], "鶴 ... 千羽鶴(せんばづる) 丹頂鶴"
    ok = [(jukugo(g1="青空 (あおぞら)"), found(*sora)), (jukugo("空", g1="青空 (あおぞら)"), found(*sora)), (jukugo("図", g2="合図 (あいず)"), found(("合図", "あいず", 2))),
          (jukugo("鶴", other=tsuru + "(たんちょうづる)"), found(("千羽鶴", "せんばづる", 7), ("丹頂鶴", "たんちょうづる", 7))),
          (jukugo(g1="青空 あおぞら)"), says("failed to find open bracket" + err + "g1.txt")), (jukugo(g1="青空(あおぞら)"), says("open bracket should follow a space" + err + "g1.txt")),
          (jukugo(g1="青空 (あおぞら"), says("failed to find close bracket" + err + "g1.txt")),
          (jukugo(g1="青空 (あおぞら) "), says("close bracket should be the last character" + err + "g1.txt")),
          (jukugo(other=tsuru + " たんちょうづる)"), says("failed to find open bracket" + err + "other.txt")),
          (jukugo(other=tsuru + "(たんちょうづる"), says("failed to find close bracket" + err + "other.txt")),
          (jukugo(other=tsuru.replace("...", "..") + "(たんちょうづる"), says("line is missing '...'" + err + "other.txt")),
          (jukugo(g1="青白 (あおじろ)\n青空 (あおぞら)\n青白 (あおじろ)"), found(("青白", "あおじろ", 1), *sora)),
          (jukugo(g1="青白 (あおじろ)\n青空 (あおぞら)", g2="青白 (あおじろ)"), says("jukugo '青白' found in more than one file" + err + "g2.txt"))]
    compare("JukugoDataTest", compute("Jukugos", "ErrJukugoModel", [t for t, _ in ok], defs), [w for _, w in ok])

    # the Kanji are those of the data but for one
    defs = "Definition member n := if beq n %s then None else Some (MkQ (sample n 1 0) [] []).\n" % by("䌶")
    defs += "Definition view g := (gNumber g, gName g, map qName (gMembers g), gType g, gPattern g).\n"
    defs += ("Definition groups fs := match newGroupDataT member fs (fun _ => true) (fun _ => []) %s with Got d => inl (map view (meaningGroups d), length (concat (map snd (meaningMap d))), "
             "map view (patternGroups d), map (fun e => (fst e, gNumber (snd e))) (patternMap d)) | Says _ w => inr w | _ => inr [] end.\n") % by("testDir")
    head = "Number\tName\tMembers"

    def groups(meaning="", pattern=""):
        return "groups " + tree({"meaning-groups": head + meaning, "pattern-groups": head + pattern})

    def shown(l, kind):
        return lst("(%d, %s, %s, %s, %s)" % (i + 1, txt(n), lst(txt(m) for m in ms), kind, p) for i, (n, ms, p) in enumerate(l))

    def of(meaning=(), size=0, pattern=(), numbers=()):
        return "inl (%s, %d%%nat, %s, %s)" % (shown(meaning, "MeaningType"), size, shown(pattern, "PatternGroupType"), lst("(%s, %d)" % (txt(k), n) for k, n in sorted(numbers, key=lambda e: e[0].encode())))

    err = " - file: meaning-groups, row: 1"
    days, man, brave = ("時間：曜日", "日月火水木金土", "NoPattern"), ("男：ダン、リョ、ドウ", "男虜嬲", "Family"), ("勇：ユウ", "勇湧", "Family")
    ok = [(groups("\n1\t時間：曜日\t日,月,火,水,木,金,土"), of([days], 7)),
          (groups("", "\n1\t男：ダン、リョ、ドウ\t虜,嬲"), of((), 0, [man], [(k, 1) for k in "男虜嬲"])),
          (groups("", "\n1\t：イン、オン\t隠,穏,隱"), of((), 0, [("：イン、オン", "隠穏隱", "Peer")], [(k, 1) for k in "隠穏隱"])),
          (groups("", "\n1\tア、イ\t軋,已"), of((), 0, [("ア、イ", "軋已", "Reading")], [(k, 1) for k in "軋已"])),
          (groups("", "\n1\t男：ダン、リョ、ドウ\t虜,嬲\n2\t勇：ユウ\t湧"), of((), 0, [man, brave], [(k, 1) for k in "男虜嬲"] + [(k, 2) for k in "勇湧"])),
          (groups("\n1\t色\t赤,青,金\n2\t時間：曜日\t日,月,火,水,木,金,土"), of([("色", "赤青金", "NoPattern"), days], 10)),
          (groups("", "\n1\t男：ダン、リョ、ドウ\t勇,虜,嬲\n2\t勇：ユウ\t湧"), of((), 0, [("男：ダン、リョ、ドウ", "男勇虜嬲", "Family"), brave], [(k, 1) for k in "男勇虜嬲"] + [("湧", 2)])),
          (groups("\n1\t方向\t北,艮,䌶"), says("group failed to load all members" + err)), (groups("\n1\t方向\t北,艮,北"), says("group [1 方向] has 1 duplicate member: 北" + err))]
    compare("GroupDataTest", compute("Groups", "ErrGroupModel KanjiSpec", [t for t, _ in ok], defs), [w for _, w in ok])


def arguments():
    def says(m, e="DomainError"):
        return "Says %s %s" % (e, by(m).replace(";", "; "))

    def read(*l):
        return "a <~ newArgsT %d (Some [%s]) ;; readArgsT (fun _ => []) 9 a" % (len(l) + 1, ";".join(by(x) for x in ("",) + l))

    three = "(Some [%s])" % ";".join(by(x) for x in ("a", "bb", "ccc"))
    ok = [("newArgsT 1 None", says("argc is 1, but argv is null")), ("newArgsT 0 (Some [%s])" % by("test"), says("argc is 0, but argv is not null")),
          ("a <~ newArgsIntT 3 %s ;; Got (argc a)" % three, "Got 3"), ("newArgsIntT (-1) %s" % three, says("argc -1 is less than 0", "RangeError")),
          ("newArgsIntT 65536 %s" % three, says("argc 65536 is greater than 65535", "RangeError")),
          ("a <~ newArgsT 3 %s ;; argAtT a 3" % three, says("index 3 must be less than argc 3", "RangeError"))]
    ok += [("a <~ newArgsT 3 %s ;; argAtT a %d" % (three, i), "Got " + by(x).replace(";", "; ")) for i, x in enumerate(("a", "bb", "ccc"))]
    compare("ArgsTest", compute("Arguments", "ErrArgsModel", [t for t, _ in ok]), [w for _, w in ok])
    help_ = ", use -h for help"
    ok = [(read("-s", "-j"), says("illegal option '-j'" + help_)), (read("-r", "-t"), says("only one mode (-r or -t) can be specified" + help_)),
          (read("-g", "-l"), says("only one quiz type can be specified" + help_))]
    ok += [(read(x), says("invalid format for '%s'" % x[:2] + help_)) for x in ("-g7", "-fa", "-kd", "-l6", "-m0", "-p5", "-tx", "-ry")]
    ok += [(read(x), says("value for '%s' exceeds limit" % x[:2])) for x in ("-r66000", "-t67000")]
    compare("QuizLauncherTest", compute("Launching", "ErrArgsModel", [t for t, _ in ok]), [w for _, w in ok])


converter()
kana_convert()
choice()
table()
column_file()
list_file()
quiz_data()
arguments()
others()
sys.exit(1 if failed else 0)
