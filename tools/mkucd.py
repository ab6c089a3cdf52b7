#!/usr/bin/env python3
"""Write rocq/theories/DataUcd.v: canonical decompositions, combining classes,
Bidi categories, joining types, marks and five scripts, as Python's unicodedata
and Perl's Unicode::UCD know them.  Used for concrete cases, for the model runs
of tools/validate.py and by the theorems about the database `ucd`.  And
rocq/theories/DataCase.v: full case mappings and compatibility decompositions."""
import os, subprocess, sys, unicodedata as u

ALL = [c for c in range(0x110000) if not 0xD800 <= c <= 0xDFFF]

def ranges(f, default):
    out = []
    for c in ALL:
        v = f(c)
        if v == default: continue
        if out and out[-1][1] == c - 1 and out[-1][2] == v: out[-1][1] = c
        else: out.append([c, c, v])
    return out

def perl(prop, values):
    prog = 'use utf8; for my $v (qw(%s)) { for my $c (0..0xD7FF,0xE000..0x10FFFF) { my $s=chr($c); print "$c $v\\n" if $s =~ /\\p{%s=$v}/ } }' % (" ".join(values), prop)
    out = subprocess.run(["perl", "-e", prog], capture_output=True, text=True, check=True).stdout
    return {int(a): b for a, b in (l.split() for l in out.splitlines())}

hangul = lambda c: 0xAC00 <= c <= 0xD7A3
chr1 = lambda c: u.normalize("NFD", chr(c))
decomp = [(c, [ord(x) for x in chr1(c)]) for c in ALL if not hangul(c) and chr1(c) != chr(c)]
comp = []
for c in ALL:
    d = u.decomposition(chr(c))
    if d and not d.startswith("<") and not hangul(c):
        p = [int(x, 16) for x in d.split()]
        if len(p) == 2 and u.normalize("NFC", chr(c)) == chr(c): comp.append((p[0], p[1], c))
ccc = ranges(lambda c: u.combining(chr(c)), 0)
bidi = ranges(lambda c: u.bidirectional(chr(c)) or "L", "L")
mark = ranges(lambda c: u.category(chr(c))[0] == "M", False)
jt = perl("Jt", ["T", "C", "L", "R", "D"])
join = ranges(lambda c: jt.get(c, "U"), "U")
sc = perl("Script", ["Greek", "Hebrew", "Hiragana", "Katakana", "Han"])
script = ranges(lambda c: sc.get(c, ""), "")

def wrap(items, sep="; ", width=110):
    lines, cur = [], ""
    for x in items:
        if len(cur) + len(x) > width: lines.append(cur); cur = ""
        cur += x + sep
    lines.append(cur)
    return "\n   ".join(lines).rstrip("; \n")

with open(os.path.join(os.path.dirname(__file__), "..", "rocq", "theories", "DataUcd.v"), "w") as f:
    f.write("(** Unicode %s character data (generated by tools/mkucd.py). *)\n" % u.unidata_version)
    f.write("From Coq Require Import String.\nFrom Verif Require Import Base Uenv.\n\n")
    f.write("(** Full canonical decompositions, Hangul apart. *)\nDefinition ucd_decomp : list (Z * list Z) :=\n  [%s].\n" %
            wrap("(%d, [%s])" % (c, ";".join(map(str, l))) for c, l in decomp))
    comp.sort()
    f.write("(** Primary composites. *)\nDefinition ucd_comp : list (Z * Z * Z) :=\n  [%s].\n" % wrap("(%d, %d, %d)" % t for t in comp))
    f.write("(** Ranges of code points with values other than the default. *)\nDefinition ucd_ccc : list (Z * Z * Z) :=\n  [%s].\n" % wrap("(%d, %d, %d)" % tuple(t) for t in ccc))
    f.write("Definition ucd_bidi : list (Z * Z * bidi_class) :=\n  [%s].\n" % wrap("(%d, %d, UC_BIDI_%s)" % tuple(t) for t in bidi))
    f.write("Definition ucd_join : list (Z * Z * joining) :=\n  [%s].\n" % wrap("(%d, %d, UC_JOINING_TYPE_%s)" % tuple(t) for t in join))
    f.write("Definition ucd_mark : list (Z * Z * bool) :=\n  [%s].\n" % wrap("(%d, %d, true)" % tuple(t[:2]) for t in mark))
    f.write('Definition ucd_script : list (Z * Z * string) :=\n  [%s].\n' % wrap('(%d, %d, "%s"%%string)' % tuple(t) for t in script))
print(len(decomp), len(comp), len(ccc), len(bidi), len(join), len(mark), len(script))

# Case mappings that do not depend on context, and compatibility decompositions that are not canonical.
tables = [("case_lower", "Full lower-case mapping.", str.lower), ("case_upper", "Full upper-case mapping.", str.upper), ("case_title", "Full title-case mapping.", str.title),
          ("case_fold", "Full case folding.", str.casefold)]
with open(os.path.join(os.path.dirname(__file__), "..", "rocq", "theories", "DataCase.v"), "w") as f:
    f.write("(** Unicode %s case mappings and compatibility decompositions (generated by\n    tools/mkucd.py). *)\n" % u.unidata_version)
    f.write("From Verif Require Import Base.\n")
    for name, text, g in tables:
        f.write("\n(** %s *)\nDefinition %s : list (Z * list Z) :=\n  [%s].\n" % (text, name, wrap("(%d, [%s])" % (c, ";".join(str(ord(x)) for x in g(chr(c)))) for c in ALL if g(chr(c)) != chr(c))))
    f.write("\n(** Full compatibility decompositions, where they are not canonical. *)\nDefinition ucd_compat : list (Z * list Z) :=\n  [%s].\n" %
            wrap("(%d, [%s])" % (c, ";".join(str(ord(x)) for x in u.normalize("NFKD", chr(c)))) for c in ALL if u.normalize("NFKD", chr(c)) != u.normalize("NFD", chr(c))))
