#!/usr/bin/env python3
"""Write rocq/theories/Validation.v: the expectations of /repo's own tests, checked against the model."""
import re, os, sys
repo = sys.argv[1] if len(sys.argv) > 1 else '/repo'
here = os.path.dirname(os.path.dirname(os.path.abspath(__file__)))
rd = lambda p: open(os.path.join(repo, p), encoding='utf-8').read()

def goquote(s):
    """bytes of an interpreted Go string literal"""
    out, i = bytearray(), 0
    while i < len(s):
        if s[i] == '\\':
            if s[i+1] == 'x': out.append(int(s[i+2:i+4], 16)); i += 4
            elif s[i+1] == 'n': out.append(10); i += 2
            else: raise ValueError(s[i:i+4])
        else: out += s[i].encode(); i += 1
    return bytes(out)
def lst(bs):
    bs = list(bs)
    if not bs: return '[]'
    rows = ['; '.join(map(str, bs[i:i+24])) for i in range(0, len(bs), 24)]
    return '[' + ';\n   '.join(rows) + ']'
def runes(s): return [ord(c) for c in s]

o = []
w = o.append
w('''(** The expectations of the test files of /repo, evaluated on the model.  Generated by
    tools/gen_validation.py.  These are tests of the model, not properties: no theorem
    depends on this file. *)
From Coq Require Import ZArith List Bool.
From Verif Require Import Base Utf8 TableFrom TableTo HangulModel HanjaModel Cp949Model StreamModel
  TransformModel TransformModel2.
Import ListNotations.
Local Open Scope Z_scope.

Definition v_grow (old need : Z) : Z := Z.max need (2 * old).
(* bytes.Buffer as a reader *)
Definition v_rd (s : list Z) (k : Z) : list Z * option error * list Z :=
  match s with
  | [] => ([], Some EOF, [])
  | _ => (ztake k s, None, zdrop k s)
  end.
(* bytes.Buffer as a writer *)
Definition v_wr (s bs : list Z) : option error * list Z := (None, s ++ bs).
''')
t = rd('hangul_test.go')
def ex(name, body, cite):
    w('(* %s *)\nExample %s :\n  %s.\nProof. vm_compute. repeat split. Qed.\n' % (cite, name, body))
ln = lambda src, pat: src[:src.index(pat)].count('\n') + 1
# hangul_test.go
ex('v_idx', 'leadIdx (Lead J_T) = (16, true)', 'hangul_test.go: TestIdx')
ss = list(map(int, re.search(r'ss = \[\]int\{([\d, ]+)\}', t).group(1).split(',')))
word = re.search(r'for _, c := range "([^"]+)" \{\s*if ss', t).group(1)
ex('v_stroke', 'map Stroke %s = map Ok %s /\\\n  Stroke J_JJ = Ok 6 /\\ Stroke J_YAE = Ok 4 /\\ Stroke J_WAE = Ok 5' % (lst(runes(word)), lst(ss)), 'hangul_test.go: TestStroke')
js = re.findall(r'Join\((\w+), (\w+), (\w+)\); c != (0x[0-9A-F]+)', t)
assert len(js) == 4
ex('v_join', ' /\\\n  '.join('Join %s %s %s = %s' % j for j in js), 'hangul_test.go: TestJoin')
sp = re.findall(r'\{(\w+), (\w+), (\w+)\},\s+// (.)', t)
assert len(sp) == 6
nm = lambda x: '0' if x == '0' else 'J_' + x
ex('v_split', ' /\\\n  '.join('SplitCompat %d = (%s, %s, %s)' % (ord(c), nm(a), nm(b), nm(d)) for a, b, d, c in sp), 'hangul_test.go: TestSplit')
ex('v_multi', 'SplitMultiElement J_GG = ([J_G; J_G], true) /\\ snd (SplitMultiElement J_G) = false', 'hangul_test.go: TestMultiElements')
cj = re.findall(r'CompatJamo\((\w+)\); c != (\w+)', t)
ex('v_compat', ' /\\\n  '.join('CompatJamo %s = J_%s' % c for c in cj), 'hangul_test.go: TestComaptJamo')
jc = re.findall(r'if (\w+) != (0x[0-9A-F]+) \{', t)
assert len(jc) == 5
ex('v_constants', ' /\\\n  '.join('%s = %s' % (('J_' + a if len(a) == 1 else a), b) for a, b in jc), 'hangul_test.go: TestJamoConstants')
i = t.index('func TestEndsWIthConsonant'); j = t.index('func TestLastConsonant'); k = t.index('func TestAppendPostposition')
cs = re.findall(r'\{"([^"]*)", (true|false)\}', t[i:j]); assert len(cs) == 5
ex('v_ends', ' /\\\n  '.join('EndsWithConsonant %s = Ok %s' % (lst(a.encode()), b) for a, b in cs), 'hangul_test.go: TestEndsWIthConsonant')
cs = re.findall(r'\{"([^"]*)", (\w+)\}', t[j:k]); assert len(cs) == 5
ex('v_last', ' /\\\n  '.join('LastConsonant %s = Ok %s' % (lst(a.encode()), b) for a, b in cs), 'hangul_test.go: TestLastConsonant')
cs = re.findall(r'\{"([^"]*)", "([^"]*)", "([^"]*)", "([^"]*)"\}', t[k:]); assert len(cs) == 9
ex('v_append', ' /\\\n  '.join('AppendPostposition %s %s %s = Ok %s' % tuple(lst(x.encode()) for x in c) for c in cs), 'hangul_test.go: TestAppendPostposition')
# example_test.go
e = rd('example_test.go')
calls = re.findall(r'AppendPostposition\("([^"]*)", "([^"]*)", "([^"]*)"\)', e)
outs = re.findall(r'^\t// (\S+)$', e, re.M); outs = [x for x in outs if x != 'Output:']
assert len(calls) == 5 and len(outs) == 7
ex('v_example_append', ' /\\\n  '.join('AppendPostposition %s = Ok %s' % (' '.join(lst(x.encode()) for x in c), lst(r.encode())) for c, r in zip(calls, outs)), 'example_test.go: ExampleAppendPostposition')
ws = re.findall(r'hangul\.LastConsonant\("([^"]*)"\)', e); assert len(ws) == 2
ex('v_example_last', ' /\\\n  '.join('LastConsonant %s = Ok %s' % (lst(a.encode()), r) for a, r in zip(ws, outs[5:])), 'example_test.go: ExampleLastConsonant')
# hanja_test.go
h = rd('hanja/hanja_test.go')
a = re.search(r'hanja := "([^"]+)"', h).group(1); b = re.search(r'hangul := "([^"]+)"', h).group(1)
ex('v_hanja', 'Convert %s =\n  %s' % (lst(a.encode()), lst(b.encode())), 'hanja/hanja_test.go: TestTable')
# cp949_test.go, encoding_test.go
c = rd('encoding/cp949/cp949_test.go')
ts = re.findall(r'cp949Test\{\s*cp949: "([^"]*)",\s*utf8:\s+(?:"([^"]*)"|`([^`]*)`),', c); assert len(ts) == 4
for n, (x, y, z) in enumerate(ts):
    w('(* encoding/cp949/cp949_test.go: tests[%d] *)' % n)
    w('Definition v_cp949_%d : list Z :=\n  %s.' % (n, lst(goquote(x))))
    w('Definition v_utf8_%d : list Z :=\n  %s.\n' % (n, lst((y or z).encode())))
    ex('v_from_%d' % n, 'From v_grow v_cp949_%d = Ok (inl v_utf8_%d)' % (n, n), 'cp949_test.go: TestFrom')
    ex('v_to_%d' % n, 'To v_grow v_utf8_%d = Ok (inl v_cp949_%d)' % (n, n), 'cp949_test.go: TestTo')
    ex('v_decoder_%d' % n, '''match tread_seq (dec_Transform v_grow) (list Z) v_rd 99 (TNewReader v_cp949_%d) (repeat 512 9) with
  | Ok (out, err, _) => out = v_utf8_%d /\\ err = Some EOF
  | _ => False
  end''' % (n, n), 'encoding_test.go: TestCP949ToUTF8')
    ex('v_encoder_%d' % n, '''match TWrite (enc_Transform v_grow) (list Z) v_wr (TNewWriter []) v_utf8_%d with
  | Ok (_, err, w) => err = None /\\ tw_dst _ w = v_cp949_%d
  | _ => False
  end''' % (n, n), 'encoding_test.go: TestUTF8ToCP949')
f = re.search(r'cp949FailTest\{\s*cp949: "([^"]*)"', c).group(1)
ex('v_error', 'From v_grow %s = Ok (inr ErrCP949UnexpectedStream)' % lst(goquote(f)), 'cp949_test.go: TestError')
w('''(* cp949_test.go: TestLookupTableSorted (sort.IsSorted: no element smaller than the one before) *)
Fixpoint v_sorted (l : list Z) : bool :=
  match l with
  | a :: (b :: _) as t => (a <=? b) && v_sorted t
  | _ => true
  end.
Example v_tables_sorted : v_sorted (map cp949 fromTable) = true /\\ v_sorted (map ucs2 toTable) = true.
Proof. vm_compute. split; reflexivity. Qed.
''')
open(os.path.join(here, 'rocq/theories/Validation.v'), 'w').write('\n'.join(o))
