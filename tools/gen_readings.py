#!/usr/bin/env python3
"""Writes rocq/theories/TableReadings.v: the compatibility ideographs whose canonical equivalent has
the reading they are filed under in KS X 1001, and the others with a hanja that shows it."""
import os, re, sys, unicodedata as ud
root = os.path.dirname(os.path.dirname(os.path.abspath(__file__)))
reading = {int(a, 16): int(b, 16) for a, b in re.findall(r'0x(\w+):\s*0x(\w+)', open('/repo/hanja/table.go').read())}
code = {int(u, 16): int(c, 16) for c, u in re.findall(r'cp949: 0x(\w+), ucs2: 0x(\w+)', open('/repo/encoding/cp949/lookup_from.go').read())}
elsewhere = {0x4E32, 0x5ED3, 0x91D1, 0x62CF, 0x8AFE, 0x5BE7, 0x6012, 0x574D, 0x5B85, 0x4E0D, 0x6A02, 0x7570, 0x6CCC}
nfc = lambda u: ord(ud.normalize('NFC', chr(u)))
order = sorted((code[u], u) for u in code if u in reading and u not in elsewhere)
well, wrong = [], []
for u in range(0xF900, 0xFA0C):
    c, h = code[u], reading[nfc(u)]
    bad = [v for d, v in order if d < c and reading[v] > h or d > c and reading[v] < h]
    if bad: wrong.append((u, min(bad, key=lambda v: abs(code[v] - c))))
    else: well.append(u)
both = sorted([(d, reading[v]) for d, v in order] + [(code[u], reading[nfc(u)]) for u in well])
assert all(a[1] <= b[1] for a, b in zip(both, both[1:]))
print(len(well), len(wrong))
with open(os.path.join(root, 'rocq/theories/TableReadings.v'), 'w') as f:
    f.write('(* GENERATED by tools/gen_readings.py; do not edit. *)\nFrom Coq Require Import ZArith List.\nImport ListNotations.\nLocal Open Scope Z_scope.\n\n')
    f.write('(* Compatibility ideographs filed under the reading of their equivalents. *)\nDefinition well_filed : list Z := [\n')
    f.write(';\n'.join('  ' + '; '.join('0x%04X' % v for v in well[i:i+12]) for i in range(0, len(well), 12)) + '].\n\n')
    f.write('(* The others, each with a hanja that it is on the wrong side of. *)\nDefinition wrongly_filed : list (Z * Z) := [\n')
    f.write(';\n'.join('  ' + '; '.join('(0x%04X, 0x%04X)' % v for v in wrong[i:i+6]) for i in range(0, len(wrong), 6)) + '].\n')
