#!/usr/bin/env python3
"""Copy the data files of /repo/lib, byte for byte, into Coq strings.

Twenty lines per string (the newlines included); '"' is doubled as Coq wants
it.  --check reads the strings back and compares them with the files.
"""
import os, re, sys
REPO = '/repo'
OUT = os.path.join(os.path.dirname(os.path.abspath(__file__)), '..', 'rocq', 'theories')
FILES = [('IdnaMappingTable.txt', 'TextIdna.v', 'idna_text'),
         ('DerivedNormalizationProps.txt', 'TextProps.v', 'props_text'),
         ('idna-tables-properties.csv', 'TextCsv.v', 'csv_text')]
for src, out, name in FILES:
    data = open(os.path.join(REPO, 'lib', src), 'rb').read()
    out = os.path.join(OUT, out)
    if '--check' in sys.argv:
        v = open(out, 'rb').read()
        back = b''.join(x.replace(b'""', b'"') for x in re.findall(rb'^Definition \w+_\d+ := "((?:[^"]|"")*)"%string\.$', v, re.M))
        print(src, 'same' if back == data else 'DIFFERENT')
        continue
    lines = data.splitlines(keepends=True)
    lines = re.findall(rb'[^\n]*\n|[^\n]+$', data)
    assert b''.join(lines) == data
    n = name.encode()
    with open(out, 'wb') as f:
        f.write(b'(** The bytes of /repo/lib/%s (written by tools/mktext.py). *)\n' % src.encode())
        f.write(b'From Coq Require Import String.\nFrom Verif Require Import Base Scan.\nLocal Open Scope list_scope.\n')
        k = 0
        for i in range(0, len(lines), 20):
            f.write(b'Definition %s_%d := "%s"%%string.\n' % (n, k, b''.join(lines[i:i+20]).replace(b'"', b'""')))
            k += 1
        f.write(b'Definition %s : list Z := concat [%s].\n' % (n, b'; '.join(b'text %s_%d' % (n, i) for i in range(k))))
