#!/usr/bin/env python3
"""Writes rocq/theories/GoSource.v: the syntax trees of every function of the packages hangul,
hanja and cp949 (all files except the data tables and the tests), in the abstract syntax of
rocq/theories/GoLang.v.

A parser for the subset of Go that the sources use, and just enough type inference to know
the integer type of every arithmetic operation and the type of every nil.  Anything outside
the subset is an error."""
import re, sys, os
REPO = sys.argv[1] if len(sys.argv) > 1 else '/repo'
OUT = os.environ.get('OUT') or os.path.join(os.path.dirname(os.path.abspath(__file__)), '..', 'rocq', 'theories', 'GoSource.v')
FILES = [('', ['constant.go', 'jamo.go', 'hangul.go', 'stroke.go']),
         ('hanja/', ['hanja.go']),
         ('encoding/cp949/', ['err.go', 'cp949.go', 'public.go', 'encoding.go'])]

# ---------------------------------------------------------------- lexer
TOK = re.compile(r'''(?P<ws>[ \t\r]+)|(?P<nl>\n)|(?P<lc>//[^\n]*)|(?P<id>[A-Za-z_]\w*)|(?P<num>0[xX][0-9a-fA-F]+|\d+)
 |(?P<str>"(?:[^"\\]|\\.)*")|(?P<chr>'(?:[^'\\]|\\.)')
 |(?P<op><<=|>>=|\.\.\.|&&|\|\||<<|>>|<=|>=|==|!=|:=|\+=|-=|\+\+|--|[-+*/%&|^<>=!()\[\]{},;.:])''', re.X)
def lex(src):
    out = []; line = 1; i = 0
    def semi():
        if out and (out[-1][0] in ('id', 'num', 'str', 'chr') and out[-1][1] not in KW_NOSEMI
                    or out[-1][1] in (')', ']', '}', '++', '--')):
            out.append(('op', ';', line))
    while i < len(src):
        m = TOK.match(src, i)
        if not m: raise SyntaxError('line %d: %r' % (line, src[i:i+20]))
        k = m.lastgroup; i = m.end()
        if k == 'nl': semi(); line += 1
        elif k in ('ws', 'lc'): pass
        else: out.append((k, m.group(), line))
    semi(); out.append(('eof', '', line))
    return out
KW_NOSEMI = {'func', 'if', 'for', 'switch', 'case', 'range', 'else', 'const', 'var', 'type', 'import',
             'package', 'struct', 'interface', 'map', 'default'}

# ---------------------------------------------------------------- parser
class P:
    def __init__(s, toks): s.t = toks; s.i = 0
    def peek(s, k=0): return s.t[s.i+k][1]
    def kind(s): return s.t[s.i][0]
    def line(s): return s.t[s.i][2]
    def next(s): s.i += 1; return s.t[s.i-1][1]
    def eat(s, v):
        if s.peek() != v: raise SyntaxError('line %d: expected %r, got %r' % (s.line(), v, s.peek()))
        return s.next()
    def opt(s, v):
        if s.peek() == v and s.kind() != 'str': s.next(); return True
        return False
    def skip(s):
        while s.opt(';'): pass
    def ident(s):
        if s.kind() != 'id': raise SyntaxError('line %d: identifier expected, got %r' % (s.line(), s.peek()))
        return s.next()
    # types are strings
    def type(s):
        if s.opt('*'): return '*' + s.type()
        if s.opt('['): s.eat(']'); return '[]' + s.type()
        if s.opt('map'): s.eat('['); k = s.type(); s.eat(']'); return 'map[%s]%s' % (k, s.type())
        if s.opt('struct'):
            s.eat('{'); fs = []; s.skip()
            while not s.opt('}'):
                names = [s.ident()]
                while s.opt(','): names.append(s.ident())
                t = s.type(); fs += [(n, t) for n in names]; s.skip()
            return ('struct', fs)
        if s.opt('interface'):
            s.eat('{'); d = 1
            while d: x = s.next(); d += (x == '{') - (x == '}')
            return 'interface'
        n = s.ident()
        if s.opt('.'): n += '.' + s.ident()
        return {'rune': 'int32', 'byte': 'uint8'}.get(n, n)
    def params(s):
        """( a, b T, c U ) -> [(name, type)]; names '' for unnamed results"""
        s.eat('('); groups = []
        while not s.opt(')'):
            save = s.i
            try:
                n = s.ident(); 
                if s.peek() in (',', ')'): groups.append((n, None))
                else: groups.append((n, s.type()))
            except SyntaxError:
                s.i = save; groups.append(('', s.type()))
            s.opt(',')
        if all(t is None or n == '' for n, t in groups):     # types only
            fix = lambda n: {'rune': 'int32', 'byte': 'uint8'}.get(n, n)
            return [('', t if t else fix(n)) for n, t in groups]
        res = []; cur = None
        for n, t in reversed(groups):
            cur = t or cur; res.append((n, cur))
        return res[::-1]
    PREC = {'||': 1, '&&': 2, '==': 3, '!=': 3, '<': 3, '<=': 3, '>': 3, '>=': 3, '+': 4, '-': 4, '|': 4,
            '^': 4, '*': 5, '/': 5, '%': 5, '<<': 5, '>>': 5, '&': 5}
    def expr(s, p=1):
        a = s.unary()
        while s.kind() == 'op' and s.PREC.get(s.peek(), 0) >= p:
            o = s.next(); b = s.expr(s.PREC[o]+1); a = ('bin', o, a, b)
        return a
    def unary(s):
        if s.opt('!'): return ('not', s.unary())
        if s.opt('&'): return ('addr', s.unary())
        if s.opt('-'): return ('neg', s.unary())
        return s.postfix(s.primary())
    def primary(s):
        k, v = s.kind(), s.peek()
        if k == 'num': s.next(); return ('num', int(v, 0))
        if k == 'str': s.next(); assert '\\' not in v; return ('str', v[1:-1])
        if k == 'chr': s.next(); assert '\\' not in v; return ('num', ord(v[1]))
        if v == '(': s.next(); e = s.expr(); s.eat(')'); return e
        if v == '[' or v == 'map':
            t = s.type()
            if s.peek() == '(': s.next(); e = s.expr(); s.eat(')'); return ('conv', t, e)
            return ('lit', t, s.elements())
        if v == 'func':
            s.next(); ps = s.params(); r = s.type(); return ('func', ps, r, s.block())
        return ('id', s.ident())
    def elements(s):
        s.eat('{'); es = []; s.skip()
        while not s.opt('}'):
            a = s.expr()
            if s.opt(':'): a = ('kv', a, s.expr())
            es.append(a); s.opt(','); s.skip()
        return es
    def postfix(s, a):
        while True:
            if s.opt('.'): a = ('sel', a, s.ident())
            elif s.opt('['):
                lo = None if s.peek() == ':' else s.expr()
                if s.opt(':'):
                    hi = None if s.peek() == ']' else s.expr()
                    s.eat(']'); a = ('slice', a, lo, hi)
                else: s.eat(']'); a = ('index', a, lo)
            elif s.opt('('):
                args = []; spread = False
                while not s.opt(')'):
                    if s.peek() == '[' and s.peek(1) == ']': args.append(('type', s.type()))
                    else: args.append(s.expr())
                    if s.opt('...'): spread = True
                    s.opt(',')
                a = ('call', a, args, spread)
            elif s.peek() == '{' and (a[0] == 'id' and a[1][0].isupper() and s.t[s.i-2][1] == '&'
                                      or a[0] == 'id' and s.t[s.i-2][1] == '&'
                                      or a[0] == 'sel' and s.t[s.i-4][1] == '&'):
                a = ('lit', a[1] if a[0] == 'id' else a[1][1]+'.'+a[2], s.elements())
            else: return a
    def block(s):
        s.eat('{'); ss = []; s.skip()
        while not s.opt('}'): ss.append(s.stmt()); s.skip()
        return ss
    def simple(s):
        es = [s.expr()]
        while s.opt(','): es.append(s.expr())
        o = s.peek()
        if o in (':=', '='):
            s.next(); r = [s.expr()]
            while s.opt(','): r.append(s.expr())
            assert len(r) == 1, 'line %d: parallel assignment' % s.line()
            return ('define' if o == ':=' else 'assign', es, r[0])
        if o in ('+=', '-='): s.next(); return ('assign', es, ('bin', o[0], es[0], s.expr()))
        if o in ('++', '--'): s.next(); return ('assign', es, ('bin', o[0], es[0], ('num', 1)))
        assert len(es) == 1
        return ('expr', es[0])
    def stmt(s):
        v = s.peek()
        if v == 'return':
            s.next(); es = []
            if s.peek() not in (';', '}'):
                es.append(s.expr())
                while s.opt(','): es.append(s.expr())
            return ('return', es)
        if v == 'if':
            s.next(); init = None; c = None
            x = s.simple()
            if s.opt(';'): init = x; c = s.expr()
            else: assert x[0] == 'expr'; c = x[1]
            th = s.block(); el = []
            if s.opt('else'): el = [s.stmt()] if s.peek() == 'if' else s.block()
            return ('if', init, c, th, el)
        if v == 'for':
            s.next()
            if s.peek() == '{': return ('while', None, s.block())
            save = s.i
            if s.kind() == 'id' and s.t[s.i+1][1] in (',', ':='):
                xs = [s.ident()]
                while s.opt(','): xs.append(s.ident())
                s.eat(':='); s.eat('range'); e = s.expr()
                return ('range', xs, e, s.block())
            s.i = save
            c = s.expr(); return ('while', c, s.block())
        if v == 'switch':
            s.next(); s.eat('{'); s.skip(); cs = []
            while not s.opt('}'):
                s.eat('case'); c = s.expr(); s.eat(':'); s.skip(); b = []
                while s.peek() not in ('case', '}'): b.append(s.stmt()); s.skip()
                cs.append((c, b))
            return ('switch', cs)
        if v in ('break', 'continue'): s.next(); return (v,)
        return s.simple()

# ---------------------------------------------------------------- declarations
consts, maps, slicemaps, structs, funcs, errvars = {}, {}, {}, {}, [], {}
order = []
def const_eval(e, iota):
    if e[0] == 'num': return e[1]
    if e[0] == 'id': return iota if e[1] == 'iota' else consts[e[1]][0]
    if e[0] == 'bin':
        a, b = const_eval(e[2], iota), const_eval(e[3], iota)
        return {'+': a+b, '-': a-b}[e[1]]
    raise SyntaxError(e)
def file(pkg, name):
    p = P(lex(open(os.path.join(REPO, pkg, name), encoding='utf8').read()))
    p.eat('package'); p.ident(); p.skip()
    while p.kind() != 'eof':
        v = p.peek(); ln = p.line()
        if v == 'import':
            p.next()
            if p.opt('('):
                while not p.opt(')'): p.next()
            else: p.next()
        elif v == 'const':
            p.next(); grp = p.opt('('); iota = 0; last = None
            while True:
                p.skip()
                if grp and p.opt(')'): break
                ln = p.line(); n = p.ident()
                if p.opt('='): last = p.expr()
                if n != '_': consts[n] = (const_eval(last, iota), pkg+name, ln); order.append(('const', n))
                iota += 1; p.skip()
                if not grp: break
        elif v == 'type':
            p.next(); n = p.ident(); t = p.type()
            structs[n] = structs[t] if isinstance(t, str) and t in structs else t
        elif v == 'var':
            p.next(); n = p.ident(); p.eat('='); e = p.expr()
            if e[0] == 'lit' and e[1] == 'map[int32][]int32':
                slicemaps[n] = ([(k[1], [x[1] for x in es[2]]) for _, k, es in e[2]], pkg+name, ln, p.line())
                order.append(('slicemap', n))
            elif e[0] == 'lit' and e[1] in ('map[int32]int32', 'map[int32]int'):
                maps[n] = ([(k[1], x) for _, k, x in e[2]], e[1][10:], pkg+name, ln, p.line()); order.append(('map', n))
            elif e[0] == 'call' and e[1] == ('sel', ('id', 'errors'), 'New'): errvars[n] = (pkg+name, ln)
            else: raise SyntaxError(n)
        elif v == 'func':
            p.next(); recv = None
            if p.peek() == '(': recv = p.params()[0]
            n = p.ident(); ps = p.params(); rs = []
            if p.peek() == '(': rs = p.params()
            elif p.peek() != '{': rs = [('', p.type())]
            b = p.block(); end = p.t[p.i-1][2]
            full = (recv[1].lstrip('*')+'.' if recv else '') + n
            funcs.append(dict(name=full, recv=recv, params=ps, results=rs, body=b, file=pkg+name, lines=(ln, end), pkg=pkg))
            order.append(('func', full))
        else: raise SyntaxError('%s line %d: %r' % (name, ln, v))
        p.skip()

# ---------------------------------------------------------------- types and output
ITY = {'int': 'Int', 'int32': 'Int32', 'uint16': 'Uint16', 'uint8': 'Uint8'}
GLOBALS = {'fromTable': 'lookupTable', 'toTable': 'lookupTable', 'table': 'map[int32]int32'}
ELEM = {'lookupTable': 'lookupItem'}
METHODS = {'Translate': ['int', '[]uint8', 'error'], 'Read': ['int', 'error'], 'Write': ['int', 'error']}
def is_iface(t): return t in ('io.Reader', 'io.Writer', 'translator')
class F:
    def __init__(s, f): s.f = f; s.scopes = [{}]; s.rtypes = [t for _, t in f['results']]
    def lookup(s, n):
        for sc in reversed(s.scopes):
            if n in sc: return sc[n]
    def declare(s, n, t): s.scopes[-1][n] = t
    # ---- expression: returns (coq term, type)
    def ex(s, e, want=None):
        k = e[0]
        if k == 'num': return '(Lit %s)' % (hex(e[1]) if e[1] > 9 else e[1]), 'untyped'
        if k == 'str': return '(LitS [%s])' % '; '.join('0x%02X' % b for b in e[1].encode()), 'string'
        if k == 'id': return s.ident(e[1], want)
        if k == 'not': a, t = s.ex(e[1]); assert t == 'bool'; return '(Not %s)' % a, t
        if k == 'bin': return s.binary(e)
        if k == 'conv':
            a, t = s.ex(e[2])
            if e[1] == '[]int32' and t == 'string': return '(Runes %s)' % a, '[]int32'
            raise SyntaxError(e)
        if k == 'index':
            if e[1][0] == 'id' and s.lookup(e[1][1]) is None and (e[1][1] in maps or e[1][1] == 'table'):
                i, t = s.ex(e[2]); assert t == 'int32'
                vt = 'int32' if e[1][1] == 'table' else maps[e[1][1]][1]
                return '(MapGet %s %s)' % (mapname(e[1][1]), i), vt
            a, t = s.ex(e[1]); i, ti = s.ex(e[2]); assert ti in ('int', 'untyped'), (e, ti)
            return '(Index %s %s)' % (a, i), ELEM.get(t) or t[2:]
        if k == 'slice':
            a, t = s.ex(e[1]); assert t.startswith('[]')
            lo = s.int(e[2]) if e[2] else '(Lit 0)'
            if e[3] is None: return '(SliceFrom %s %s)' % (a, lo), t
            return '(Slice %s %s %s)' % (a, lo, s.int(e[3])), t
        if k == 'sel': return s.select(e)
        if k == 'call': return s.call(e)
        if k == 'addr' and e[1][0] == 'lit': return s.new(e[1][1], e[1][2])
        raise SyntaxError(repr(e))
    def int(s, e):
        a, t = s.ex(e); assert t in ('int', 'untyped'), (e, t); return a
    def ident(s, n, want):
        t = s.lookup(n)
        if t is not None: return '(Var "%s")' % n, t
        if n == 'nil':
            if want == 'error': return 'NilErr', 'error'
            if want and want.startswith('[]'): return 'NilSlice', want
            if is_iface(want): return 'NilPtr', want
            raise SyntaxError('nil as %r' % want)
        if n in ('true', 'false'): return '(LitB %s)' % n, 'bool'
        if n in consts: return '(Lit c_%s)' % n, 'untyped'
        if n in errvars: return '(ErrLit %s)' % n, 'error'
        if n in GLOBALS: return '(TableLit %s)' % n, GLOBALS[n]
        raise SyntaxError('unknown name '+n)
    def select(s, e):
        if e[1][0] == 'id' and s.lookup(e[1][1]) is None:
            q = e[1][1]+'.'+e[2]
            if q == 'utf8.RuneError': return '(Lit RuneError)', 'untyped'
            if q == 'utf8.UTFMax': return '(Lit UTFMax)', 'untyped'
            if q == 'io.EOF': return '(ErrLit EOF)', 'error'
            raise SyntaxError(q)
        a, t = s.ex(e[1]); st = structs[t.lstrip('*')]
        if isinstance(st, str): st = structs[st]
        return '(Field %s "%s")' % (a, e[2]), dict(st[1])[e[2]]
    def new(s, T, els):
        given = {k[1]: v for _, k, v in els}
        if T in structs:
            st = structs[T]; st = structs[st] if isinstance(st, str) else st; fs = st[1]
        else: fs = {'encoding.Decoder': [('Transformer', 'transform.Transformer')],
                    'encoding.Encoder': [('Transformer', 'transform.Transformer')]}[T]
        out = []
        for n, t in fs:
            out.append('("%s", %s)' % (n, s.ex(given.pop(n), t)[0] if n in given else s.zero(t)))
        assert not given
        return '(New "%s" [%s])' % (T, '; '.join(out)), '*'+T
    def zero(s, t):
        if t in ITY: return '(Lit 0)'
        if t == 'error': return 'NilErr'
        if t.startswith('[]'): return 'NilSlice'
        if is_iface(t) or t.startswith('*'): return 'NilPtr'
        raise SyntaxError('zero '+t)
    ARITH = {'+': 'Add', '-': 'Sub', '*': 'Mul', '/': 'Div', '%': 'Mod', '|': 'BOr', '&': 'BAnd', '<<': 'Shl', '>>': 'Shr'}
    def binary(s, e):
        o = e[1]
        if o in ('&&', '||'):
            (a, ta), (b, tb) = s.ex(e[2]), s.ex(e[3]); assert ta == tb == 'bool'
            return '(%s %s %s)' % ({'&&': 'And', '||': 'Or'}[o], a, b), 'bool'
        if e[3] == ('id', 'nil'): a, ta = s.ex(e[2]); b, tb = s.ex(e[3], ta)
        else: (a, ta), (b, tb) = s.ex(e[2]), s.ex(e[3])
        if o in ('<<', '>>'): t = ta
        else:
            assert ta == tb or 'untyped' in (ta, tb), (e, ta, tb)
            t = tb if ta == 'untyped' else ta
        if o in ('==', '!=', '<', '<=', '>', '>='):
            return '(Cmp %s %s %s)' % ({'==': 'Eq', '!=': 'Ne', '<': 'Lt', '<=': 'Le', '>': 'Gt', '>=': 'Ge'}[o], a, b), 'bool'
        if t == 'string': assert o == '+'; return '(Concat %s %s)' % (a, b), t
        return '(Arith %s %s %s %s)' % (s.ARITH[o], 'Int' if t == 'untyped' else ITY[t], a, b), t
    def call(s, e):
        f, args, spread = e[1], e[2], e[3]
        if f[0] == 'id':
            n = f[1]
            if n in ('rune', 'byte', 'int', 'uint16'):
                t = {'rune': 'int32', 'byte': 'uint8'}.get(n, n); a, ta = s.ex(args[0])
                assert ta in ITY or ta == 'untyped'
                return '(Conv %s %s)' % (ITY[t], a), t
            if n == 'string':
                a, ta = s.ex(args[0]); assert ta == '[]int32'; return '(Str %s)' % a, 'string'
            if n in ('len', 'cap'):
                a, ta = s.ex(args[0]); assert ta.startswith('[]') or ta in ELEM
                return '(%s %s)' % (n.capitalize(), a), 'int'
            if n == 'append':
                a, t = s.ex(args[0]); assert t == '[]uint8'
                if spread:
                    assert len(args) == 2; return '(AppendS %s %s)' % (a, s.ex(args[1])[0]), t
                out = []
                for x in args[1:]:
                    b, tb = s.ex(x); assert tb in ('uint8', 'untyped'); out.append(b)
                return '(Append %s [%s])' % (a, '; '.join(out)), t
            if n == 'copy':
                (a, ta), (b, tb) = s.ex(args[0]), s.ex(args[1]); assert ta == tb == '[]uint8'
                return '(CopyE %s %s)' % (a, b), 'int'
            if n == 'make':
                assert args[0] == ('type', '[]uint8') and len(args) == 3
                return '(Make %s %s)' % (s.int(args[1]), s.int(args[2])), '[]uint8'
            if n == 'new': return s.new(args[0][1], [])
            g = [x for x in funcs if x['name'] == n and x['pkg'] == s.f['pkg']][0]
            assert len(g['params']) == len(args)
            out = []
            for x, (_, t) in zip(args, g['params']):
                a, ta = s.ex(x, t); assert ta == t or ta == 'untyped' and t in ITY, (e, ta, t); out.append(a)
            rt = [t for _, t in g['results']]
            return '(Call "%s" [%s])' % (n, '; '.join(out)), rt[0] if len(rt) == 1 else tuple(rt)
        assert f[0] == 'sel'
        if f[1][0] == 'id' and s.lookup(f[1][1]) is None:
            q = f[1][1]+'.'+f[2]
            if q == 'utf8.DecodeRune': return '(DecodeRuneE %s)' % s.ex(args[0])[0], ('int32', 'int')
            if q == 'utf8.EncodeRune':
                (a, ta), (b, tb) = s.ex(args[0]), s.ex(args[1]); assert (ta, tb) == ('[]uint8', 'int32')
                return '(EncodeRuneE %s %s)' % (a, b), 'int'
            if q == 'sort.Search':
                a = s.int(args[0]); _, ps, r, body = args[1]; assert ps[0][1] == 'int' and r == 'bool'
                old = s.rtypes; s.rtypes = ['bool']; s.scopes.append({ps[0][0]: 'int'})
                b = s.block(body); s.scopes.pop(); s.rtypes = old
                return '(SearchE %s "%s"\n%s)' % (a, ps[0][0], b), 'int'
            raise SyntaxError(q)
        a, t = s.ex(f[1]); assert is_iface(t), (e, t)
        out = [s.ex(x)[0] for x in args]
        return '(Method %s "%s" [%s])' % (a, f[2], '; '.join(out)), tuple(METHODS[f[2]])
    # ---- statements
    def block(s, ss, new=True):
        if new: s.scopes.append({})
        r = 'Block [%s]' % ';\n'.join(s.st(x) for x in ss)
        if new: s.scopes.pop()
        return '(' + r + ')'
    def comma_ok(s, r, n):
        """v, ok := m[k]"""
        if n == 2 and r[0] == 'index' and r[1][0] == 'id' and s.lookup(r[1][1]) is None:
            m = r[1][1]; i, t = s.ex(r[2]); assert t == 'int32'
            if m in slicemaps: return '(MapSlice2 %s %s)' % (mapname(m), i), ('[]int32', 'bool')
            return '(MapGet2 %s %s)' % (mapname(m), i), ('int32' if m == 'table' else maps[m][1], 'bool')
    def st(s, x):
        k = x[0]
        if k in ('define', 'assign'):
            n = len(x[1])
            want = None
            if k == 'assign' and n == 1: want = s.ex(x[1][0])[1]
            r, t = s.comma_ok(x[2], n) or s.ex(x[2], want)
            ts = list(t) if n > 1 else [t]; assert len(ts) == n, x
            if k == 'define':
                ts = ['int' if t == 'untyped' else t for t in ts]
                for l, t in zip(x[1], ts):
                    if l[1] != '_': s.declare(l[1], t)
                return 'Define [%s] %s' % ('; '.join('"%s"' % l[1] for l in x[1]), r)
            out = []
            for l, t in zip(x[1], ts):
                if l == ('id', '_'): out.append('LBlank'); continue
                lt = s.ex(l)[1]; assert lt == t or t == 'untyped' and lt in ITY, (x, lt, t)
                if l[0] == 'id': out.append('LVar "%s"' % l[1])
                elif l[0] == 'sel': out.append('LField %s "%s"' % (s.ex(l[1])[0], l[2]))
                elif l[0] == 'index': out.append('LIndex %s %s' % (s.ex(l[1])[0], s.int(l[2])))
                else: raise SyntaxError(l)
            return 'Assign [%s] %s' % ('; '.join(out), r)
        if k == 'expr': return 'ExprS %s' % s.ex(x[1])[0]
        if k == 'return':
            es = x[1]
            if not es: es = [('id', n) for n, _ in s.f['results']]
            assert len(es) == len(s.rtypes), x
            out = []
            for e, t in zip(es, s.rtypes):
                a, ta = s.ex(e, t)
                assert ta == t or ta == 'untyped' and t in ITY or is_iface(t) or t.startswith('*'), (x, ta, t); out.append(a)
            return 'Return [%s]' % '; '.join(out)
        if k == 'if':
            s.scopes.append({}); pre = s.st(x[1])+';\n' if x[1] else ''
            c, t = s.ex(x[2]); assert t == 'bool'
            r = 'If %s\n%s\n%s' % (c, s.block(x[3]), s.block(x[4]))
            s.scopes.pop()
            return '(Block [%s%s])' % (pre, r) if pre else r
        if k == 'while':
            c = s.ex(x[1])[0] if x[1] else '(LitB true)'
            return 'While %s\n%s' % (c, s.block(x[2]))
        if k == 'range':
            e, t = s.ex(x[2]); assert t == '[]int32'
            xs = x[1]; assert len(xs) == 2
            s.scopes.append({n: tt for n, tt in zip(xs, ('int', 'int32')) if n != '_'}); b = s.block(x[3]); s.scopes.pop()
            return 'Range "%s" "%s" %s\n%s' % (xs[0], xs[1], e, b)
        if k == 'switch':
            r = 'Block []'
            for c, b in reversed(x[1]):
                r = 'If %s\n%s\n(%s)' % (s.ex(c)[0], s.block(b), r)
            return r
        return {'break': 'Break', 'continue': 'Continue'}[k]
    def emit(s):
        f = s.f; ps = ([f['recv']] if f['recv'] else []) + f['params']
        for n, t in ps: s.declare(n, t)
        named = [(n, t) for n, t in f['results'] if n]
        for n, t in named: s.declare(n, t)
        b = s.block(f['body'], new=False)
        pre = '; '.join('("%s", %s)' % (n, s.zero(t)) for n, t in named)
        b = '\n'.join('  '+l for l in b.split('\n'))
        return '(* %s:%d-%d *)\nDefinition f_%s : func := mkFunc [%s] [%s]\n%s.' % (
            f['file'], f['lines'][0], f['lines'][1], f['name'].replace('.', '_'), '; '.join('"%s"' % n for n, _ in ps), pre, b)
def mapname(n): return 'table' if n == 'table' else 'm_'+n

def main():
    out = ['''(** GENERATED by tools/gen_ast.py from the Go sources; do not edit.
    The syntax trees of all functions of constant.go, jamo.go, hangul.go, stroke.go,
    hanja/hanja.go, encoding/cp949/err.go, cp949.go, public.go and encoding.go. *)
From Coq Require Import String ZArith List.
From Verif Require Import Base Utf8 TableHanja TableFrom TableTo Cp949Model GoLang.
Import ListNotations.
Local Open Scope Z_scope.
Local Open Scope string_scope.
''']
    for pkg, names in FILES:
        for n in names: file(pkg, n)
    fd = {f['name']: f for f in funcs}; assert len(fd) == len(funcs)
    names = []
    for k, n in order:
        if k == 'const': v, fn, ln = consts[n]; out.append('Definition c_%s : Z := %s. (* %s:%d *)' % (n, hex(v), fn, ln))
    for k, n in order:
        if k == 'map':
            es, vt, fn, a, b = maps[n]
            val = lambda x: 'c_'+x[1] if x[0] == 'id' else str(x[1])
            out.append('\n(* %s:%d-%d *)\nDefinition m_%s : list (Z * Z) := [\n%s].' % (fn, a, b, n,
                       ';\n'.join('  (c_%s, %s)' % (kk, val(x)) for kk, x in es)))
        elif k == 'slicemap':
            es, fn, a, b = slicemaps[n]
            out.append('\n(* %s:%d-%d *)\nDefinition m_%s : list (Z * list Z) := [\n%s].' % (fn, a, b, n,
                       ';\n'.join('  (c_%s, [%s])' % (kk, '; '.join('c_'+x for x in xs)) for kk, xs in es)))
    for k, n in order:
        if k == 'func': out.append('\n'+F(fd[n]).emit()); names.append(n)
    for pkg, what in (('', 'hangul'), ('hanja/', 'hanja'), ('encoding/cp949/', 'cp949')):
        out.append('\nDefinition prog_%s : list (string * func) := [\n%s].' % (what,
                   ';\n'.join('  ("%s", f_%s)' % (n, n.replace('.', '_')) for n in names if fd[n]['pkg'] == pkg)))
    open(OUT, 'w', encoding='utf8').write('\n'.join(out)+'\n')
    print(len(names), 'functions')
main()
