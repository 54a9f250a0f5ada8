#!/usr/bin/env python3
"""Write rocq/theories/TableRef.v: the CP949 code assignment according to CPython's "cp949"
codec (Lib/encodings/cp949.py, Modules/cjkcodecs), which shares no code or data with /repo.

Usage: python3 tools/gen_ref.py

Every two-byte sequence with a lead byte >= 0x80 is decoded; consecutive codes form a row.
"""
import os
ROOT = os.path.dirname(os.path.dirname(os.path.abspath(__file__)))
rows = []
n = 0
for code in range(0x8000, 0x10000):
    try:
        s = bytes([code >> 8, code & 0xff]).decode('cp949')
    except UnicodeDecodeError:
        continue
    if len(s) != 1:
        continue        # two characters, or one ASCII byte after a lone byte
    n += 1
    if rows and rows[-1][0] + len(rows[-1][1]) == code and rows[-1][0] >> 8 == code >> 8:
        rows[-1][1].append(ord(s))
    else:
        rows.append((code, [ord(s)]))
with open(os.path.join(ROOT, 'rocq/theories/TableRef.v'), 'w') as f:
    f.write('''(* GENERATED by tools/gen_ref.py; do not edit. *)
(** The CP949 (Unified Hangul Code) assignment according to CPython's cp949 codec, as a
    reference independent of /repo.  [(start, characters)] gives the characters of the
    consecutive codes start, start+1, ... *)
From Coq Require Import ZArith List.
Import ListNotations.
Local Open Scope Z_scope.

''')
    names = []
    for k in range(0, len(rows), 8):
        nm = 'ref_rows_%02d' % (k // 8)
        names.append(nm)
        f.write('Definition %s : list (Z * list Z) := [\n' % nm)
        out = []
        for start, chars in rows[k:k + 8]:
            body = '; '.join('0x%04x' % c for c in chars)
            lines, line = [], ''
            for w in body.split(' '):
                if len(line) + len(w) > 90:
                    lines.append(line.rstrip()); line = ''
                line += w + ' '
            lines.append(line.rstrip())
            out.append('  (0x%04x, [\n    %s])' % (start, '\n    '.join(lines)))
        f.write(';\n'.join(out) + '\n].\n')
    f.write('\nDefinition ref_rows : list (Z * list Z) :=\n  %s.\n' % ' ++\n  '.join(names))
print(len(rows), 'rows', n, 'codes')
