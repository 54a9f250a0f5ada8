#!/usr/bin/env python3
"""Writes rocq/theories/SourceText.v: the Go files of /repo, except the data tables and the
tests, character for character as Coq strings (inside which a double quote is doubled)."""
import sys, os
REPO = sys.argv[1] if len(sys.argv) > 1 else '/repo'
OUT = os.environ.get('OUT') or os.path.join(os.path.dirname(os.path.abspath(__file__)), '..', 'rocq', 'theories')
FILES = [('hangul', '', ['constant.go', 'jamo.go', 'hangul.go', 'stroke.go']),
         ('hanja', 'hanja/', ['hanja.go', 'table.go']),
         ('cp949', 'encoding/cp949/', ['doc.go', 'err.go', 'cp949.go', 'public.go', 'encoding.go',
                                       'lookup_from.go', 'lookup_to.go'])]
HEAD = '''(** GENERATED by tools/gen_text.py from the Go sources; do not edit.
    %s, unchanged except that a double quote is written twice. *)
From Coq Require Import String List.
%sImport ListNotations.
Local Open Scope string_scope.

'''
K = 250
def coq(t): return '"%s"' % t.replace('"', '""')
out = []; big = []
for pkg, d, names in FILES:
    for n in names:
        t = open(os.path.join(REPO, d, n), encoding='utf8', newline='').read()
        name = 'text_%s_%s' % (pkg, n[:-3])
        if len(t) < 20000: out.append('(* %s%s *)\nDefinition %s : string :=\n%s.\n' % (d, n, name, coq(t)))
        else:
            ls = t.splitlines(True); parts = [''.join(ls[i:i+K]) for i in range(0, len(ls), K)]
            assert ''.join(parts) == t
            mod = 'Text' + ''.join(w.capitalize() for w in n[:-3].split('_')); big.append(mod)
            with open(os.path.join(OUT, mod+'.v'), 'w', encoding='utf8', newline='') as f:
                f.write(HEAD % ('The text of %s%s, in pieces of %d lines' % (d, n, K), ''))
                for i, x in enumerate(parts): f.write('Definition %s_%03d : string :=\n%s.\n' % (name, i, coq(x)))
                f.write('Definition %s : string := String.concat "" [\n  %s].\n' % (
                    name, ';\n  '.join('%s_%03d' % (name, i) for i in range(len(parts)))))
    out.append('Definition text_%s : list string :=\n  [%s].\n' % (pkg, '; '.join('text_%s_%s' % (pkg, n[:-3]) for n in names)))
with open(os.path.join(OUT, 'SourceText.v'), 'w', encoding='utf8', newline='') as f:
    f.write(HEAD % ('The text of the Go files', 'From Verif Require Import %s.\n' % ' '.join(big)) + '\n'.join(out))
