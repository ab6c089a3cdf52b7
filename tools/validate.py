#!/usr/bin/env python3
"""Run the model on the test vectors of /repo/tests (inside Coq, with the
character data of DataUcd.v) and report every disagreement.

  tools/validate.py [lookup] [idnatest] [register] [tounicode] [punycode] [glibc]
"""
import os, re, subprocess, sys, tempfile

ROCQ = os.environ.get("ROCQ") or os.path.join(os.path.dirname(os.path.abspath(__file__)), "..", "rocq")
T = "/repo/tests/"
CONST = {"NULL": None, "BUFSIZ": 8192}
for m in re.finditer(r"^\s*(IDN2_\w+) = (-?\d+)", open("/repo/lib/idn2.h.in").read(), re.M): CONST[m.group(1)] = int(m.group(2))

def tokens(src):
    src = re.sub(r"/\*.*?\*/", " ", src, flags=re.S)
    src = re.sub(r"^\s*#.*$", "", src, flags=re.M)
    src = re.sub(r"//.*$", "", src, flags=re.M)
    for m in re.finditer(r'"((?:[^"\\]|\\.)*)"|(0[xX][0-9a-fA-F]+|-?\d+)|(\w+)|([{},|])|\'(.)\'', src):
        if m.group(1) is not None: yield ("s", cstring(m.group(1)))
        elif m.group(2): yield ("n", int(m.group(2), 0))
        elif m.group(3): yield ("n", CONST[m.group(3)])
        elif m.group(4): yield (m.group(4), None)
        else: yield ("n", ord(m.group(5)))

def cstring(s):
    out, b, i = bytearray(), s.encode("utf-8"), 0
    while i < len(b):
        if b[i:i+1] != b"\\": out.append(b[i]); i += 1; continue
        m = re.match(rb"\\x([0-9a-fA-F]+)", b[i:])
        if m: out.append(int(m.group(1), 16) & 255); i += m.end(); continue
        m = re.match(rb"\\([0-7]{1,3})", b[i:])
        if m: out.append(int(m.group(1), 8)); i += m.end(); continue
        out += {b"n": b"\n", b"t": b"\t", b"\\": b"\\", b'"': b'"'}[b[i+1:i+2]]; i += 2
    return bytes(out)

def initializer(path, name):
    src = re.sub(r"^#if 0.*?^#endif", "", open(path).read(), flags=re.S | re.M)
    start = src.index("{", src.index(name))
    depth, i, instr = 0, start, False
    while True:
        c = src[i]
        if instr:
            if c == "\\": i += 1
            elif c == '"': instr = False
        elif c == '"': instr = True
        elif src.startswith("/*", i): i = src.index("*/", i) + 1
        elif c == "{": depth += 1
        elif c == "}":
            depth -= 1
            if depth == 0: break
        i += 1
    toks = list(tokens(src[start:i + 1]))
    pos = 0
    def value():
        nonlocal pos
        k, v = toks[pos]
        if k == "{":
            pos += 1; out = []
            while toks[pos][0] != "}":
                out.append(value())
                if toks[pos][0] == ",": pos += 1
            pos += 1
            return out
        pos += 1
        if k == "s":
            while toks[pos][0] == "s": v += toks[pos][1]; pos += 1
            return v
        while toks[pos][0] == "|": v |= toks[pos + 1][1]; pos += 2
        return v
    return value()

def zl(b): return "[" + ";".join(str(x) for x in b) + "]"
def opt(x, f): return "None" if x is None else "(Some %s)" % f(x)
def num(n): return "(%d)" % n

def run(name, expr, vectors, chunk=400):
    """[expr] maps a vector to a pair (agrees, shown)."""
    bad = []
    for i in range(0, len(vectors), chunk):
        part = vectors[i:i + chunk]
        text = PRELUDE + expr + "\nDefinition vs : list (%s) := [\n%s].\n" % (re.search(r"\(v : (.*?)\) :=", expr).group(1), ";\n".join(part)) + """
Fixpoint go {A} (n : Z) (l : list A) (f : A -> bool * out (list Z)) : list (Z * out (list Z)) :=
  match l with [] => [] | v :: r => let '(b, o) := f v in if b then go (n + 1) r f else (n, o) :: go (n + 1) r f end.
Set Printing Width 100000.
Eval vm_compute in (go 0 vs check).
"""
        d = tempfile.mkdtemp(); p = os.path.join(d, "V.v"); open(p, "w").write(text)
        r = subprocess.run(["coqc", "-Q", os.path.join(ROCQ, "theories"), "Verif", p], capture_output=True, text=True)
        if r.returncode: print(r.stderr[:2000]); sys.exit(1)
        out = re.sub(r"\s+", " ", r.stdout)
        assert ("= [] " in out) != bool(re.search(r"= \[\(\d+, (Ok|Fail|Undef|NoFuel)", out)), out[:300]
        for m in re.finditer(r"\((\d+), (Ok \[[^\]]*\]|Fail \(-?\d+\)|Undef|NoFuel)\)", out): bad.append((i + int(m.group(1)), m.group(2)))
    print("%s: %d vectors, %d disagreements" % (name, len(vectors), len(bad)))
    return bad

PRELUDE = """From Verif Require Import Base Uenv DataTypes Utf8 Puny Idna SpecTables Lookup Api Register Ucd.
Transparent status_of mapping_of.
Definition agrees (rc : option Z) (r : option (list Z)) (o : out (list Z)) : bool :=
  match o with
  | Ok x => match rc with Some e => e =? 0 | None => true end && match r with Some y => list_eqb x y | None => true end
  | Fail e => match rc with Some x => x =? e | None => true end
  | _ => false
  end.
"""

def lookup():
    vs, src = [], []
    F = CONST
    for row in initializer(T + "test-lookup.c", "idna[]"):
        i, o = row[0], row[1]; rc = row[2] if len(row) > 2 else 0; fl = row[3] if len(row) > 3 else 0
        fls = [fl]
        if not fl & (F["IDN2_NONTRANSITIONAL"] | F["IDN2_TRANSITIONAL"]): fls.append(fl | F["IDN2_NO_TR46"])
        if not fl & (F["IDN2_NO_TR46"] | F["IDN2_TRANSITIONAL"]): fls.append(fl | F["IDN2_NONTRANSITIONAL"])
        for f in fls:
            src.append((i, o, rc, f))
            vs.append("(%s, %s, %s, %d)" % (zl(i), opt(None if rc == -1 else rc, num), opt(o, zl), f))
    check = "Definition check (v : list Z * option Z * option (list Z) * Z) := let '(i, rc, r, f) := v in let o := lookup_u8 ucd i f in (agrees rc r o, o)."
    for n, o in run("test-lookup.c", check, vs): print("  ", src[n], o)

def idnatest():
    """As test-lookup.c does it: a transitional run only has to end."""
    vs, src = [], []
    for line in open(T + "IdnaTest.txt", encoding="utf-8"):
        line = line.split("#")[0].strip()
        if not line: continue
        f = [x.strip(" \t") for x in line.split(";")] + ["", "", ""]
        typ, source, tou, toa, nv8 = f[0], f[1], f[2], f[3], f[4]
        raw = re.sub(r"\\u([0-9A-F]{4})", lambda m: chr(int(m.group(1), 16)), source)
        try: s = raw.encode("utf-16-le", "surrogatepass").decode("utf-16-le").encode("utf-8")
        except UnicodeDecodeError: continue
        if not tou: tou = None
        exp = toa or tou
        exp = s if exp is None else exp.encode("utf-8")
        for tr in ({"B": [1, 0], "T": [1], "N": [0]}[typ]):
            src.append((line, tr))
            # success with this result required; failure allowed
            must = not tr and not exp.startswith(b"[") and not nv8
            want = exp if not tr and not exp.startswith(b"[") else None
            vs.append("(%s, %s, %s, %d)" % (zl(s), "true" if must else "false", opt(want, zl), 4 if tr else 8))
    check = ("Definition check (v : list Z * bool * option (list Z) * Z) := let '(i, must, r, f) := v in let o := lookup_u8 ucd i f in\n"
             "  (match o with Ok x => match r with Some y => list_eqb x y | None => true end | Fail _ => negb must | _ => false end, o).")
    for n, o in run("IdnaTest.txt", check, vs): print("  ", src[n], o)

def register():
    vs, src = [], []
    for row in initializer(T + "test-register.c", "idna[]"):
        a, u, o, rc = row[:4]; f = row[4] if len(row) > 4 else 0
        src.append(row)
        vs.append("(%s, %s, %d, %s, %d)" % (opt(u, zl), opt(a, zl), f, opt(o, zl), rc))
    check = ("Definition check (v : ptr * ptr * Z * option (list Z) * Z) := let '(u, a, f, r, rc) := v in\n"
             "  let o := match register_u8 ucd u a (Some None) f with Ok (0, Some (Some x)) => Ok x | Ok (e, Some None) => Fail e | _ => Undef end in\n"
             "  (agrees (Some rc) r o && (negb (rc =? 0) || match u with Some u => agrees (Some 0) r (lookup_u8 ucd u f) | None => false end), o).")
    for n, o in run("test-register.c", check, vs): print("  ", src[n], o)

def tounicode():
    vs, src = [], []
    for row in initializer(T + "test-tounicode.c", "test[]"):
        name, p, e, rc = row; e = (e + [0]); e = e[:e.index(0)]
        src.append(row)
        vs.append("(%s, %s, %d)" % (zl(p), zl(e), rc))
    check = ("Definition check (v : list Z * list Z * Z) := let '(i, r, rc) := v in\n"
             "  let p (x : result) := match x with Ok (0, Some (Some x)) => Ok x | Ok (e, _) => Fail e | _ => Undef end in\n"
             "  let o := p (to_unicode_8z4z (Some i) (Some None) 0) in\n"
             "  let q := match u8_to_u32 i with None => true | Some l => agrees (Some rc) (Some r) (p (to_unicode_4z4z None (Some l) (Some None) 0)) &&\n"
             "    match to_unicode_44i None (Some l) (Some (repeat 0 128)) (Some 127) 0 with Ok (e, Some a, Some n) => (e =? rc) && (negb (rc =? 0) || list_eqb (firstn (Z.to_nat n) a) r) | _ => false end end in\n"
             "  let s := match p (to_unicode_8z8z None (Some i) (Some None) 0) with Ok b => match u8_to_u32 b with Some l => agrees (Some rc) (Some r) (Ok l) | None => false end | Fail e => e =? rc | _ => false end in\n"
             "  (agrees (Some rc) (Some r) o && q && s, o).")
    for n, o in run("test-tounicode.c", check, vs): print("  ", src[n], o)

def punycode():
    vs, src = [], []
    for row in initializer(T + "test-punycode.c", "punycode[]"):
        name, n, l, out, rc = row
        src.append(row)
        vs.append("(%s, %s, %d)" % (zl(l[:n]), zl(out), rc))
    check = ("Definition check (v : list Z * list Z * Z) := let '(l, s, rc) := v in let o := puny_encode l 8192 8192 in\n"
             "  (agrees (Some rc) (Some s) o && agrees (Some rc) (Some l) (puny_decode s 8192 8192), o).")
    for n, o in run("test-punycode.c", check, vs): print("  ", src[n], o)

def glibc():
    """The table-like part: check_lookup_ul_*, check_to_unicode_lzlz_* in two locales."""
    b = open(T + "test-glibc.c", encoding="utf-8").read(); vs, src = [], []
    lit = lambda x: b"".join(cstring(y) for y in re.findall(r'"((?:[^"\\]|\\.)*)"', x))
    for fn, loc in (("run_utf8_tests (void)\n{", "utf8_locale"), ("run_latin1_tests (void)\n{", "latin1")):
        i = b.index(fn) + len(fn); body = b[i:b.index("\n}", i)]
        for m in re.finditer(r'check_(\w+)_(success|failure) \(((?:\s*"(?:\\.|[^"\\])*")+),\s*([^;]*)\);', body):
            ok = m.group(2) == "success"; i8 = lit(m.group(3))
            e = lit(m.group(4)) if ok else None; rc = 0 if ok else CONST[m.group(4).strip()]
            src.append((loc, m.group(1), i8, e, rc))
            vs.append("(%s, %s, %s, %s, %s)" % (loc, "true" if m.group(1) == "lookup_ul" else "false", zl(i8), opt(e, zl), num(rc)))
    check = ("Definition utf8_locale : locale := Locale (fun b => Some b) (fun b => Some b).\n"
             "Definition latin1 : locale := Locale (fun b => u32_to_u8 b)\n"
             "  (fun b => match u8_to_u32 b with Some l => if forallb (fun c => c <? 256) l then Some l else None | None => None end).\n"
             "Definition check (v : locale * bool * list Z * option (list Z) * Z) := let '(L, lk, i, r, rc) := v in\n"
             "  let o := match (if lk then idn2_lookup_ul ucd L (Some i) (Some None) 0 else to_unicode_lzlz L None (Some i) (Some None) 0) with\n"
             "    Ok (0, Some (Some x)) => Ok x | Ok (e, _) => Fail e | _ => Undef end in\n"
             "  (match r with None => match o with Fail c => c =? rc | _ => false end | _ => agrees (Some rc) r o end, o).")
    for n, o in run("test-glibc.c", check, vs): print("  ", src[n], o)

ALL = {"lookup": lookup, "idnatest": idnatest, "register": register, "tounicode": tounicode, "punycode": punycode, "glibc": glibc}
for k in (sys.argv[1:] or ALL): ALL[k]()
