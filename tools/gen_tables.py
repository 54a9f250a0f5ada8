#!/usr/bin/env python3
"""Transcribe the three data tables of /repo into Gallina, one Go line per Coq line.

Usage: python3 tools/gen_tables.py   (writes rocq/theories/Table{From,To,Hanja}.v)

Every non-data line of the Go files is checked against the fixed header/footer, so
nothing is dropped silently.  The entries keep the order of the Go source.  They are
split into chunks only because one 17000-element list literal is slow to elaborate.
"""
import re, os
ROOT = os.path.dirname(os.path.dirname(os.path.abspath(__file__)))
CH = 250

def emit(path, go, defname, typ, pat, fmt, imports, intro):
    items, other = [], []
    for n, l in enumerate(open(go).read().split('\n'), 1):
        m = re.match(pat, l)
        if m:
            items.append((n, fmt(m)))
        elif l.strip() and not l.startswith('//') and not re.match(
                r'^(package \w+|var \(|\t\w+ = [\w\[\]]+\{|\t\}|\))$', l):
            raise SystemExit('unrecognised line %s:%d: %r' % (go, n, l))
    assert [n for n, _ in items] == list(range(items[0][0], items[-1][0] + 1))
    rel = go.replace('/repo/', '')
    with open(os.path.join(ROOT, 'rocq/theories', path), 'w') as f:
        f.write('(* GENERATED by tools/gen_tables.py from %s; do not edit. *)\n' % rel)
        f.write(imports)
        f.write('\n(* %s *)\n\n' % intro)
        names = []
        for k in range(0, len(items), CH):
            part = items[k:k + CH]
            nm = '%s_%03d' % (defname, k // CH)
            names.append(nm)
            f.write('(* %s:%d-%d *)\n' % (rel, part[0][0], part[-1][0]))
            f.write('Definition %s : list %s := [\n  ' % (nm, typ))
            f.write(';\n  '.join(s for _, s in part))
            f.write('\n].\n\n')
        f.write('(* %s:%d-%d, all %d entries in source order. *)\n' % (rel, items[0][0], items[-1][0], len(items)))
        f.write('Definition %s : list %s :=\n  %s.\n' % (defname, typ, ' ++\n  '.join(names)))

IMP = 'From Coq Require Import ZArith List.\nFrom Verif Require Import Base.\nImport ListNotations.\nLocal Open Scope Z_scope.\n'
P = r'^\t\tlookupItem\{%s: (0x[0-9a-f]{4}), %s: (0x[0-9a-f]{4})\},$'
emit('TableFrom.v', '/repo/encoding/cp949/lookup_from.go', 'fromTable', 'lookupItem',
     P % ('cp949', 'ucs2'), lambda m: 'It %s %s' % (m[1], m[2]), IMP,
     'encoding/cp949/lookup_from.go: [It c u] is lookupItem{cp949: c, ucs2: u}.')
emit('TableTo.v', '/repo/encoding/cp949/lookup_to.go', 'toTable', 'lookupItem',
     P % ('ucs2', 'cp949'), lambda m: 'It %s %s' % (m[2], m[1]), IMP,
     'encoding/cp949/lookup_to.go: [It c u] is lookupItem{ucs2: u, cp949: c}\n   (the Go literal names its fields; the record constructor takes cp949 first).')
emit('TableHanja.v', '/repo/hanja/table.go', 'table', '(Z * Z)',
     r'^\t\t(0x[0-9a-f]+): (0x[0-9a-f]+),$', lambda m: '(%s, %s)' % (m[1], m[2]), IMP,
     'hanja/table.go: [(k, v)] is the map entry k: v.')
