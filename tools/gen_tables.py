#!/usr/bin/env python3
"""Generates the Gen*.v table files from the text of /repo.

Every table is copied entry by entry in source order; nothing is sorted or
deduplicated, so that theorems about order/duplicates are about the real data.
Usage: python3 tools/gen_tables.py   (run in /verif)
"""
import re, os
SRC = "/repo/crates/wolfram-parser/src/"
OUT = os.path.join(os.path.dirname(os.path.abspath(__file__)), "..", "rocq", "theories")

def read(p): return open(SRC + p, encoding="utf8").read()

def strip_comments(s):
    s = re.sub(r"/\*.*?\*/", "", s)
    return re.sub(r"//[^\n]*", "", s)

def chunk(items, per=4, sep="; "):
    lines = []
    for i in range(0, len(items), per):
        lines.append("  " + sep.join(items[i:i+per]))
    return (";\n").join(lines)

HDR = "(** GENERATED by tools/gen_tables.py from %s.  Do not edit. *)\nFrom Coq Require Import ZArith List String.\nImport ListNotations.\nLocal Open Scope Z_scope.\n\n"

# ------------------------------------------------------------------ token kinds
def gen_token_kind():
    p = "tokenize/token_kind.rs"
    s = strip_comments(read(p))
    m = re.search(r"token_kind!\s*\{(.*?)\n\}", s[s.index("token_kind! {"):] , re.S)
    body = m.group(1)
    kinds = []
    for mm in re.finditer(r"\b([A-Za-z_0-9]+)\s*=\s*(0x[0-9a-fA-F]+|\d+)", body):
        kinds.append((mm.group(1), int(mm.group(2), 0)))
    def lst(name):
        mm = re.search(r"const %s\s*:[^=]*=\s*&\[(.*?)\];" % name, s, re.S)
        return re.findall(r'"([A-Za-z0-9_]+)"', mm.group(1))
    o = HDR % (SRC + p)
    o += "(** token_kind.rs, [token_kind!] invocation: one constant per variant, the value\n    written in the source (the group bits are added by [Verif.TokenKind.variant]). *)\n"
    for n, v in kinds: o += "Definition TK_%s : Z := %d.\n" % (n, v)
    o += "\nDefinition KINDS : list (Z * string) := [\n" + chunk(["(TK_%s, \"%s\"%%string)" % (n, n) for n, v in kinds], 2) + "\n].\n\n"
    known = set(n for n, _ in kinds)
    for L in ["POSSIBLE_BEGINNING", "EMPTY", "UNTERMINATED", "CLOSERS", "ERROR"]:
        names = lst(L)
        bad = [n for n in names if n not in known]
        o += "(** token_kind.rs const %s (names%s) *)\n" % (L, "" if not bad else "; names that are not variants: " + " ".join(bad))
        o += "Definition %s_names : list string := [\n" % L + chunk(["\"%s\"%%string" % n for n in names], 4) + "\n].\n\n"
    open(os.path.join(OUT, "GenTokenKind.v"), "w").write(o)
    print("kinds", len(kinds))
    return kinds

# ------------------------------------------------------------------ long names
SPECIAL = {"CodePoint::StringMeta_DoubleQuote": -6, "CodePoint::StringMeta_Backslash": -7,
           "CodePoint::CRLF": -13}
def gen_long_names():
    p = "generated/long_names_registration.rs"
    s = strip_comments(read(p))
    consts = {}
    order = []
    for mm in re.finditer(r"pub const (CODEPOINT_[A-Z0-9_]+): (char|CodePoint) = ([^;]+);", s):
        n, _, v = mm.groups()
        v = v.strip()
        if v in SPECIAL: val = SPECIAL[v]
        else:
            h = re.match(r"'\\u\{([0-9a-fA-F]+)\}'$", v)
            val = int(h.group(1), 16)
        consts[n] = val; order.append(n)
    def val(e):
        e = e.strip()
        m = re.match(r"CodePoint::from_char\((.*)\)$", e)
        if m: e = m.group(1).strip()
        m = re.match(r"(?:Char|CodePoint::Char)\((.*)\)$", e)
        if m: e = m.group(1).strip()
        if e in consts: return consts[e], e
        if e in SPECIAL: return SPECIAL[e], e
        if e == "CRLF": return -13, e
        m = re.match(r"'\\u\{([0-9a-fA-F]+)\}'$", e)
        if m: return int(m.group(1), 16), e
        raise Exception("cannot resolve " + e)
    def table(name):
        mm = re.search(r"(?:const|static) %s\s*:[^=]*=\s*&?\[(.*?)\n\];" % name, s, re.S)
        return mm.group(1)
    o = HDR % (SRC + p)
    o += "(** Code points as [Z], the encoding of CodePoint::as_i32 (code_point.rs). *)\n"
    for n in order: o += "Definition %s : Z := %s.\n" % (n.replace("CODEPOINT_", "CP_"), "%d" % consts[n] if consts[n] >= 0 else "(%d)" % consts[n])
    t = table("LONGNAME_TO_CODEPOINT_MAP")
    ents = re.findall(r'\("([A-Za-z0-9]+)",\s*(.*?)\),?\s*\n', t + "\n")
    rows = []
    for n, e in ents:
        # e may have lost its closing paren when it is CodePoint::from_char(X)
        if e.startswith("CodePoint::from_char(") and not e.endswith(")"): e += ")"
        v, c = val(e)
        rows.append("(\"%s\"%%string, %s)" % (n, v if v >= 0 else "(%d)" % v))
    print("LONGNAME_TO_CODEPOINT_MAP", len(rows))
    o += "\n(** LONGNAME_TO_CODEPOINT_MAP *)\nDefinition LONGNAME_TO_CODEPOINT : list (string * Z) := [\n" + chunk(rows, 3) + "\n].\n"
    t = table("CODEPOINT_TO_LONGNAME_MAP")
    ents = re.findall(r'\((.*?),\s*"([A-Za-z0-9]+)"\)', t)
    rows = []
    for e, n in ents:
        v, c = val(e)
        rows.append("(%s, \"%s\"%%string)" % (v if v >= 0 else "(%d)" % v, n))
    print("CODEPOINT_TO_LONGNAME_MAP", len(rows))
    o += "\n(** CODEPOINT_TO_LONGNAME_MAP *)\nDefinition CODEPOINT_TO_LONGNAME : list (Z * string) := [\n" + chunk(rows, 3) + "\n].\n"
    t = table("RAW_SET")
    names = re.findall(r'"([A-Za-z0-9]+)"', t)
    print("RAW_SET", len(names))
    o += "\n(** RAW_SET *)\nDefinition RAW_SET : list string := [\n" + chunk(["\"%s\"%%string" % n for n in names], 4) + "\n].\n"
    for L, c in [("MB_NOT_STRAGE_LETTERLIKE_CODE_POINTS", "MB_NOT_STRANGE_LETTERLIKE"), ("MB_PUNCTUATION_CODE_POINTS", "MB_PUNCTUATION"),
              ("MB_WHITESPACE_CODE_POINTS", "MB_WHITESPACE"), ("MB_NEWLINE_CODE_POINTS", "MB_NEWLINE"), ("MB_UNINTERPRETABLE_CODE_POINTS", "MB_UNINTERPRETABLE")]:
        t = table(L)
        es = [x.strip() for x in t.split(",") if x.strip()]
        vs = [val(x)[0] for x in es]
        print(L, len(vs))
        o += "\n(** %s *)\nDefinition %s : list Z := [\n" % (L, c) + chunk(["%d" % v if v >= 0 else "(%d)" % v for v in vs], 12) + "\n].\n"
    gen_ascii(read(p), p, consts)
    # LongNameCodePointToOperator
    i = s.index("fn LongNameCodePointToOperator")
    body = s[i:]
    arms = re.findall(r"(CODEPOINT_[A-Z0-9_]+)\s*=>\s*(?:\{\s*)?(?:return\s+)?(?:TokenKind::|TK::)?([A-Za-z0-9_]+)", body)
    print("LongNameCodePointToOperator", len(arms))
    return o, arms, consts, s

def gen_ascii(raw, p, consts):
    t = raw[raw.index("pub static ASCII_REPLACEMENTS_MAP"):]
    t = t[:t.index("\n];")].split("\n")[1:]
    rows = []
    for l in t:
        if not l.strip(): continue
        mm = re.fullmatch(r'\s*\((CODEPOINT_[A-Z0-9_]+), \[((?:"(?:[^"\\]|\\.)*", )*)\]\.as_slice\(\)\),', l)
        assert mm, l
        reps = re.findall(r'"((?:[^"\\]|\\.)*)"', mm.group(2))
        un = [r.replace("\\n", "\n").replace('\\"', '"').replace("\\\\", "\\") for r in reps]
        rows.append("(%d, [%s])" % (consts[mm.group(1)], "; ".join("[%s]" % "; ".join(str(b) for b in u.encode("utf8")) for u in un)))
    print("ASCII_REPLACEMENTS_MAP", len(rows))
    o = HDR % (SRC + p) + "\n(** ASCII_REPLACEMENTS_MAP; the texts as bytes *)\nDefinition ASCII_REPLACEMENTS : list (Z * list (list Z)) := [\n" + chunk(rows, 3) + "\n].\n"
    open(os.path.join(OUT, "GenAscii.v"), "w").write(o)

def main():
    kinds = gen_token_kind()
    o, arms, consts, s = gen_long_names()
    known = dict(kinds)
    rows = []
    for c, k in arms:
        assert k in known, (c, k)
        rows.append("(%d, TK_%s)" % (consts[c], k))
    o = o.replace("From Coq Require Import ZArith List String.", "From Coq Require Import ZArith List String.\nFrom Verif Require Import GenTokenKind.")
    o += "\n(** fn LongNameCodePointToOperator: match arms in order; default is panic!(\"Need to add operator\") *)\nDefinition LONGNAME_OPERATOR : list (Z * Z) := [\n" + chunk(rows, 3) + "\n].\n"
    open(os.path.join(OUT, "GenLongNames.v"), "w").write(o)

    # ---------------------------------------------------------------- precedence
    p = "generated/precedence_values.rs"
    ps = strip_comments(read(p))
    pr = re.findall(r"pub const ([A-Z0-9_]+): Precedence = Precedence::new\((\d+)\);", ps)
    pr2 = re.findall(r"pub const ([A-Z0-9_]+): Precedence = (?!Precedence::new)([^;]+);", ps)
    print("prec", len(pr), pr2)
    o = HDR % (SRC + p)
    for n, v in pr: o += "Definition PREC_%s : Z := %s.\n" % (n, v)
    o += "\nDefinition PRECEDENCES : list (string * Z) := [\n" + chunk(["(\"%s\"%%string, %s)" % x for x in pr], 2) + "\n].\n"
    open(os.path.join(OUT, "GenPrec.v"), "w").write(o)

    # ---------------------------------------------------------------- operators
    p = "parse/operators.rs"
    os_ = strip_comments(read(p))
    syms = load_symbols()
    o = HDR % (SRC + p)
    fams = {"InfixOperator": "IOP", "PrefixOperator": "PREOP", "PostfixOperator": "POSTOP", "BinaryOperator": "BOP",
            "TernaryOperator": "TOP", "PrefixBinaryOperator": "PBOP", "CompoundOperator": "COP", "GroupOperator": "GOP", "CallOperator": "CALLOP"}
    allops = {}
    for f, a in fams.items():
        body = re.search(r"pub enum %s \{(.*?)\n\}" % f, os_, re.S).group(1)
        vs = [x for x in re.findall(r"\b([A-Za-z][A-Za-z0-9_]*)\s*(?:,|\n|$)", re.sub(r"#\[[^\]]*\]", "", body))]
        allops[f] = vs
        o += "\n(** enum %s, numbered in declaration order *)\n" % f
        for i, v in enumerate(vs): o += "Definition %s_%s : Z := %d.\n" % (a, v, i)
        o += "Definition %s_ALL : list Z := [%s].\n" % (a, "; ".join("%s_%s" % (a, v) for v in vs))
        i = os_.index("impl Operator for %s {" % f)
        j = os_.find("impl Operator for", i + 10)
        blk = os_[i:(j if j > 0 else len(os_))]
        k = blk.index("fn try_from_symbol") if "fn try_from_symbol" in blk else None
        if k is None: print("no try_from_symbol", f); continue
        to, fr = (blk[:k], blk[k:]) if blk.index("fn to_symbol") < k else (blk[blk.index("fn to_symbol"):], blk[k:blk.index("fn to_symbol")])
        rows_to = re.findall(r"(?:Self|%s)::([A-Za-z0-9_]+)\s*=>\s*\{?\s*(?:return\s+)?((?:st|sym|symbols|s|st::Token)?(?:::)?[A-Za-z0-9_:]+)" % f, to)
        rows_fr = re.findall(r"((?:st|sym)::[A-Za-z0-9_:]+)\s*=>\s*\{?\s*(?:return\s+)?(?:Some\()?(?:Self|%s)::([A-Za-z0-9_]+)" % f, fr)
        print(f, len(vs), len(rows_to), len(rows_fr), rows_to[:2], rows_fr[:2])
        allops[f + "_to"] = rows_to; allops[f + "_fr"] = rows_fr
    open(os.path.join(OUT, "GenOps.v"), "w").write(o)
    gen_parselets(known, allops)
    gen_symbols(kinds, syms, allops, fams)

def load_symbols():
    s = strip_comments(read("symbols.rs"))
    d = {}
    k = s.index("pub mod Token {")
    top, tok = s[:k], s[k:]
    b = re.search(r"symbol::symbol! \{(.*?)\n\}", top, re.S).group(1)
    for n in re.findall(r"(\w+);", b): d[n] = "System`" + n
    for ctx, body in re.findall(r"nested_symbol! \{\s*(\w+)::\{(.*?)\}", top, re.S):
        for n in re.findall(r"\w+", body): d[ctx + "::" + n] = ctx + "`" + n
    for n, v in re.findall(r'pub const (\w+): Symbol = unsafe \{ Symbol::unchecked_new\("([^"]*)"\) \};', top): d[n] = v
    for n, v in re.findall(r'pub const (\w+): Symbol = unsafe \{ Symbol::unchecked_new\("([^"]*)"\) \};', tok): d["Token::" + n] = v
    return d

def gen_symbols(kinds, syms, allops, fams):
    o = HDR % (SRC + "tokenize/token_kind.rs, symbols.rs, parse/operators.rs")
    o = o.replace("List String.", "List String.\nFrom Verif Require Import GenTokenKind GenOps.")
    special = {n: n for n in ["EndOfFile", "Symbol", "String", "Integer", "Real", "Rational", "Whitespace"]}
    special["ToplevelNewline"] = special["InternalNewline"] = "Token::Newline"
    o += "(** token_to_symbol! (token_kind.rs 303-331) resolved through symbols.rs, variants in declaration order *)\n"
    o += "Definition KIND_SYMBOL : list (Z * string) := [\n" + chunk(['(TK_%s, "%s"%%string)' % (n, syms[special.get(n, "Token::" + n)]) for n, _ in kinds], 2) + "\n].\n"
    for f, a in fams.items():
        o += "\n(** %s::to_symbol and try_from_symbol, match arms in source order *)\n" % f
        o += "Definition %s_TO : list (Z * string) := [\n" % a + chunk(['(%s_%s, "%s"%%string)' % (a, v, syms[e.replace("sym::", "")]) for v, e in allops[f + "_to"]], 2) + "\n].\n"
        o += "Definition %s_FROM : list (string * Z) := [\n" % a + chunk(['("%s"%%string, %s_%s)' % (syms[e.replace("sym::", "")], a, v) for e, v in allops[f + "_fr"]], 2) + "\n].\n"
    open(os.path.join(OUT, "GenSymbols.v"), "w").write(o)

def gen_parselets(known, allops):
    p = "parse/token_parselets.rs"
    s = strip_comments(read(p))
    i = s.index("macro_rules! token_kind_to_prefix_parselet"); j = s.index("macro_rules! token_kind_to_infix_parselet")
    o = HDR % (SRC + p)
    o = o.replace("List String.", "List String.\nFrom Verif Require Import GenTokenKind GenPrec GenOps Parselets.")
    ab = {"InfixOperator": "IOP", "PrefixOperator": "PREOP", "PostfixOperator": "POSTOP", "BinaryOperator": "BOP",
            "TernaryOperator": "TOP", "PrefixBinaryOperator": "PBOP", "CompoundOperator": "COP", "GroupOperator": "GOP", "CallOperator": "CALLOP"}
    def tr(r):
        r = r.strip().lstrip("&").strip()
        m = re.match(r"(\w+)\s*\{\}$", r)
        if m: return "P_" + m.group(1).replace("Parselet", "")
        m = re.match(r"(\w+)::new\((.*)\)$", r)
        name, args = m.group(1).replace("Parselet", ""), m.group(2).strip()
        if name == "Call":
            m2 = re.match(r"GroupParselet::new\((.*)\)$", args)
            args = m2.group(1)
        out = []
        for x in [y.strip() for y in args.split(",") if y.strip()]:
            fam, v = [z.strip() for z in x.split("::")]
            if fam == "TK": out.append("TK_" + v)
            elif fam == "Precedence": out.append("PREC_" + v)
            else:
                assert v in allops[fam], (fam, v)
                out.append(ab[fam] + "_" + v)
        return ("P_" + name + " " + " ".join(out)).strip()
    for nm, b in (("PREFIX_PARSELETS", s[i:j]), ("INFIX_PARSELETS", s[j:])):
        b = b[b.index("match $kind {") + 13:]
        arms = re.findall(r"((?:\|?\s*TK::\w+\s*)+|_)\s*=>\s*([^\n]*?),?\n(?=\s)", b)
        rows = []; default = None
        for a, r in arms:
            if a == "_":
                default = r if r != "{" else "&InfixImplicitTimesParselet {}"
                continue
            for k in re.findall(r"TK::(\w+)", a):
                assert k in known, k
                rows.append("(TK_%s, %s)" % (k, tr(r)))
        print(nm, len(rows), default)
        ty = "prefix_parselet" if nm.startswith("PREFIX") else "infix_parselet"
        rows = [re.sub(r"\bP_", "PP_" if nm.startswith("PREFIX") else "IP_", r) for r in rows]
        o += "\n(** match arms in source order; default arm: %s *)\nDefinition %s : list (Z * %s) := [\n" % (default, nm, ty) + chunk(rows, 2) + "\n].\n"
    open(os.path.join(OUT, "GenParselets.v"), "w").write(o)

main()
