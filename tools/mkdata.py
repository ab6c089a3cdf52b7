#!/usr/bin/env python3
"""Emit the Unicode data files of /repo/lib as Gallina lists.

Reads IdnaMappingTable.txt, idna-tables-properties.csv and
DerivedNormalizationProps.txt and writes rocq/theories/Data*.v.  One row of the
text file becomes one element of the list, in file order; no row is merged,
dropped or reordered here (the C generators do that, and they are modelled in
Gendata.v and Gentr46.v).  For DerivedNormalizationProps.txt only rows whose
second field is NFC_QC are emitted.
"""
import os, sys
REPO = sys.argv[1] if len(sys.argv) > 1 else '/repo'
OUT = os.path.join(os.path.dirname(os.path.abspath(__file__)), '..', 'rocq', 'theories')
CH = 100

def emit(fn, head, ty, name, rows):
    with open(os.path.join(OUT, fn), 'w') as f:
        f.write(head)
        n = 0
        for i in range(0, len(rows), CH):
            f.write('Definition %s_%d : list %s := [\n  %s].\n' % (name, n, ty, ';\n  '.join(rows[i:i+CH])))
            n += 1
        f.write('Definition %s : list %s :=\n  concat [%s].\n' % (name, ty, '; '.join('%s_%d' % (name, i) for i in range(n))))

def rng(s, sep):
    a, _, b = s.partition(sep)
    return '0x%x 0x%x' % (int(a, 16), int(b or a, 16))

ST = {'valid': 'Valid', 'mapped': 'Mapped', 'disallowed': 'Disallowed', 'ignored': 'Ignored',
      'deviation': 'Deviation', 'disallowed_STD3_mapped': 'Std3Mapped', 'disallowed_STD3_valid': 'Std3Valid'}
rows = []
for line in open(REPO + '/lib/IdnaMappingTable.txt', encoding='utf-8'):
    line = line.split('#')[0].strip()
    if not line:
        continue
    f = [x.strip() for x in line.split(';')]
    m = f[2].split() if len(f) > 2 else []
    rows.append('Row %s %s [%s]' % (rng(f[0], '..'), ST[f[1]], '; '.join('0x%x' % int(x, 16) for x in m)))
emit('DataTr46.v', '(** Rows of /repo/lib/IdnaMappingTable.txt (generated by tools/mkdata.py). *)\n'
     'From Verif Require Import Base DataTypes.\n', 'row', 'idna_rows', rows)

rows = []
for line in list(open(REPO + '/lib/idna-tables-properties.csv', encoding='utf-8'))[1:]:
    f = line.split(',')
    rows.append('Prow %s %s' % (rng(f[0], '-'), f[1]))
emit('DataCsv.v', '(** Rows of /repo/lib/idna-tables-properties.csv (generated by tools/mkdata.py). *)\n'
     'From Verif Require Import Base DataTypes.\n', 'prow', 'csv_rows', rows)

rows = []
for line in open(REPO + '/lib/DerivedNormalizationProps.txt', encoding='utf-8'):
    line = line.split('#')[0].strip()
    if not line:
        continue
    f = [x.strip() for x in line.split(';')]
    if len(f) < 3 or f[1] != 'NFC_QC':
        continue
    rows.append('Qrow %s %s' % (rng(f[0], '..'), {'N': 'QcNo', 'M': 'QcMaybe'}[f[2]]))
emit('DataNfc.v', '(** NFC_QC rows of /repo/lib/DerivedNormalizationProps.txt (generated by tools/mkdata.py). *)\n'
     'From Verif Require Import Base DataTypes.\n', 'qrow', 'nfcqc_rows', rows)
