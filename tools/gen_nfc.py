#!/usr/bin/env python3
"""Writes rocq/theories/TableNfc.v: the canonical equivalents of the compatibility ideographs
U+F900..FA0B, from Python's unicodedata, and checks what SpecNfc.v says about NFC: that on
texts of CP949 characters it replaces single characters, those in the table and two others."""
import os, re, sys, unicodedata as ud
root = os.path.dirname(os.path.dirname(os.path.abspath(__file__)))
nfc = lambda s: ud.normalize('NFC', s)
repertoire = {int(u, 16) for u in re.findall(r'ucs2: 0x(\w+)', open('/repo/encoding/cp949/lookup_from.go').read())} | set(range(0x80))
changed = {u for u in repertoire if nfc(chr(u)) != chr(u)}
assert changed == set(range(0xF900, 0xFA0C)) | {0x212B, 0x2126}, changed
assert all(len(nfc(chr(u))) == 1 for u in changed)
assert nfc(chr(0x212B)) == chr(0xC5) and nfc(chr(0x2126)) == chr(0x3A9)
# no character takes part in a composition as a second character, none is reordered
seconds = set()
for u in range(0x110000):
    d = ud.decomposition(chr(u))
    if d and not d.startswith('<') and ' ' in d:
        seconds.add(int(d.split()[1], 16))
seconds |= set(range(0x1161, 0x1176)) | set(range(0x11A8, 0x11C3))
after = {ord(nfc(chr(u))) for u in repertoire}
assert not after & seconds and all(ud.combining(chr(u)) == 0 for u in after)
vals = [ord(nfc(chr(u))) for u in range(0xF900, 0xFA0C)]
with open(os.path.join(root, 'rocq/theories/TableNfc.v'), 'w') as f:
    f.write('(* GENERATED by tools/gen_nfc.py from the Unicode Character Database %s (as in Python); do not edit. *)\n' % ud.unidata_version)
    f.write('From Coq Require Import ZArith List.\nImport ListNotations.\nLocal Open Scope Z_scope.\n\n')
    f.write('(* The canonical equivalents of U+F900, U+F901, ..., U+FA0B. *)\nDefinition equivalents : list Z := [\n')
    rows = [vals[i:i+12] for i in range(0, len(vals), 12)]
    f.write(';\n'.join('  ' + '; '.join('0x%04X' % v for v in r) for r in rows) + '].\n')
