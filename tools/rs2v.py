#!/usr/bin/env python3
"""Translate the Rust subset used by RustSEUIF97 to Gallina (and to Python, for experiments).

usage: rs2v.py          regenerate the generated files of rocq/theories
Functions containing `while` loops are listed in HAND and written by hand.
"""
import re, sys, os

SRC = '/repo/src'

# ------------------------------------------------------------------ lexer
TOK = re.compile(r'''
  (?P<ws>\s+)
 |(?P<lc>//[^\n]*)
 |(?P<bc>/\*.*?\*/)
 |(?P<attr>\#!?\[[^\]]*\])
 |(?P<float>\d[\d_]*\.(?!\.)\d*(?:[eE][+-]?\d+)?|\d+[eE][+-]?\d+)
 |(?P<int>\d+)
 |(?P<chr>'[^'\\]')
 |(?P<str>"[^"]*")
 |(?P<life>'[a-z_]+)
 |(?P<id>[A-Za-z_]\w*)
 |(?P<op>\.\.=|\.\.|->|=>|::|==|!=|<=|>=|&&|\|\||\+=|-=|\*=|/=|[-+*/<>=!&|.,;:(){}\[\]?])
''', re.X | re.S)


def lex(text):
    pos, line, out = 0, 1, []
    while pos < len(text):
        m = TOK.match(text, pos)
        if not m:
            raise SyntaxError('lex line %d: %r' % (line, text[pos:pos+40]))
        k, s = m.lastgroup, m.group()
        if k not in ('ws', 'lc', 'bc', 'attr'):
            # a tuple field after '.', e.g. IJn[k].0  /  e.2
            out.append((k, s, line))
        line += s.count('\n')
        pos = m.end()
    out.append(('eof', '', line))
    return out


def fix_fields(toks):
    """`.2 * x` lexes fine, but `steps[m].0..` / `e.0 as` need care (ints stay ints)."""
    out = []
    i = 0
    while i < len(toks):
        k, s, l = toks[i]
        if k == 'float' and out and out[-1][1] == '.':
            a, b = s.split('.', 1)
            out.append(('int', a, l)); out.append(('op', '.', l))
            if b: out.append(('int', b, l))
        else:
            out.append(toks[i])
        i += 1
    return out


# ------------------------------------------------------------------ parser
class P:
    def __init__(self, toks): self.t, self.i = toks, 0
    def pk(self, o=0): return self.t[self.i+o][1]
    def kind(self, o=0): return self.t[self.i+o][0]
    def line(self): return self.t[self.i][2]
    def nx(self):
        x = self.t[self.i]; self.i += 1; return x[1]
    def ex(self, s):
        if self.pk() != s: raise SyntaxError('line %d: expected %r got %r' % (self.line(), s, self.pk()))
        return self.nx()
    def acc(self, s):
        if self.pk() == s: self.i += 1; return True
        return False

    # items
    def file(self):
        items = []
        while self.kind() != 'eof':
            it = self.item()
            if it: items.append(it)
        return items

    def skip_balanced(self):
        d = 0
        while True:
            s = self.nx()
            if s in '({[' and s: d += 1
            if s in ')}]' and s:
                d -= 1
                if d == 0: return

    def item(self):
        start = self.line()
        pub = False
        if self.acc('pub'):
            pub = True
        if self.pk() == 'use' or self.pk() == 'mod' or self.pk() == 'type':
            while self.nx() != ';': pass
            return None
        if self.pk() in ('struct', 'enum', 'impl'):
            while self.pk() != '{': self.nx()
            self.skip_balanced()
            return None
        if self.pk() == 'const': return self.const(start)
        if self.acc('unsafe'): pass
        abi = None
        if self.acc('extern'): abi = self.nx().strip('"')
        if self.pk() == 'fn': return self.fn(start, pub, abi)
        raise SyntaxError('line %d: item %r' % (self.line(), self.pk()))

    def const(self, start):
        self.ex('const'); name = self.nx(); self.ex(':'); ty = self.type(); self.ex('=')
        e = self.expr(); self.ex(';')
        return ('const', name, ty, e, start, self.t[self.i-1][2])

    def fn(self, start, pub, abi=None):
        self.ex('fn'); name = self.nx()
        if self.acc('<'):
            while self.nx() != '>': pass
        self.ex('('); ps = []
        while not self.acc(')'):
            self.acc('mut')
            n = self.nx(); self.ex(':'); ps.append((n, self.type())); self.acc(',')
        ret = self.type() if self.acc('->') else 'unit'
        if self.pk() == 'where':
            while self.pk() != '{': self.nx()
        body = self.block()
        return ('fn', name, ps, ret, body, start, self.t[self.i-1][2], abi)

    def type(self):
        if self.acc('&'):
            return self.type()
        if self.acc('['):
            t = self.type()
            n = None
            if self.acc(';'): n = int(self.nx())
            self.ex(']'); return ('arr', t, n)
        if self.acc('('):
            ts = []
            while not self.acc(')'):
                ts.append(self.type()); self.acc(',')
            return ('tup', ts)
        if self.acc('fn'):
            self.ex('('); ts = []
            while not self.acc(')'):
                ts.append(self.type()); self.acc(',')
            self.ex('->'); return ('fn', ts, self.type())
        return self.nx()

    def block(self):
        self.ex('{'); st = []
        while not self.acc('}'):
            if self.acc(';'): continue
            st.append(self.stmt())
        return st

    def stmt(self):
        l = self.line(); p = self.pk()
        if p == 'const': return self.const(l)
        if p == 'let':
            self.nx(); self.acc('mut')
            if self.acc('('):
                names = []
                while not self.acc(')'):
                    self.acc('mut'); names.append(self.nx()); self.acc(',')
                pat = tuple(names)
            else: pat = self.nx()
            ty = self.type() if self.acc(':') else None
            e = self.expr() if self.acc('=') else None
            self.ex(';')
            return ('let', pat, ty, e, l)
        if p == 'return':
            self.nx(); e = self.expr(); self.acc(';'); return ('return', e)
        if p == 'break': self.nx(); self.acc(';'); return ('break',)
        if p == 'if':
            e = self.ifexpr()
            return ('sif', e, self.acc(';'))
        if p == 'match':
            e = self.matchexpr()
            return ('smatch', e, self.acc(';'))
        if p == 'for':
            self.nx(); v = self.nx(); self.ex('in'); e = self.expr(nostruct=True)
            if self.pk() in ('..', '..='):
                op = self.nx(); e2 = self.expr(nostruct=True); e = ('range', e, e2, op)
            return ('for', v, e, self.block())
        if p == 'while':
            self.nx(); c = self.expr(nostruct=True); return ('while', c, self.block())
        e = self.expr()
        for op in ('=', '+=', '-=', '*=', '/='):
            if self.acc(op):
                r = self.expr(); self.acc(';')
                if op != '=': r = ('bin', op[0], e, r)
                assert e[0] == 'var', e
                return ('assign', e[1], r)
        if self.acc(';'): return ('expr', e)
        return ('tail', e)

    def ifexpr(self):
        self.ex('if'); c = self.expr(nostruct=True); a = self.block(); b = None
        if self.acc('else'):
            if self.pk() == 'if': b = [('sif', self.ifexpr(), False)]
            else: b = self.block()
        return ('if', c, a, b)

    def matchexpr(self):
        self.ex('match'); e = self.expr(nostruct=True); self.ex('{'); arms = []
        while not self.acc('}'):
            pats = [self.pat()]
            while self.acc('|'): pats.append(self.pat())
            self.ex('=>')
            if self.pk() == '{': b = self.block()
            elif self.pk() == 'return': self.nx(); b = [('return', self.expr())]
            elif self.pk() == '(' and self.pk(1) == ')': self.nx(); self.nx(); b = []
            elif self.pk() == 'match': b = [('tail', self.matchexpr())]
            else:
                ee = self.expr()
                if self.acc('='): b = [('assign', ee[1], self.expr())]
                else: b = [('tail', ee)]
            self.acc(',')
            arms.append((pats, b))
        return ('match', e, arms)

    def pat(self):
        if self.kind() in ('int', 'chr', 'str'):
            return (self.kind(), self.nx())
        n = self.nx()
        if n == '-': return ('int', '-' + self.nx())
        while self.acc('::'): n = n + '::' + self.nx()
        return ('id', n)

    PREC = [['||'], ['&&'], ['==', '!=', '<', '>', '<=', '>='], ['+', '-'], ['*', '/']]

    def expr(self, lvl=0, nostruct=False):
        self.ns = nostruct
        return self.binary(lvl)

    def binary(self, lvl):
        if lvl == len(self.PREC): return self.cast()
        a = self.binary(lvl+1)
        while self.kind() == 'op' and self.pk() in self.PREC[lvl]:
            op = self.nx(); b = self.binary(lvl+1); a = ('bin', op, a, b)
        return a

    def cast(self):
        a = self.unary()
        while self.acc('as'): a = ('as', a, self.type())
        return a

    def unary(self):
        if self.acc('-'): return ('neg', self.unary())
        if self.acc('!'): return ('not', self.unary())
        if self.acc('&'): return self.unary()
        return self.postfix()

    def args(self):
        self.ex('('); a = []; ns = self.ns; self.ns = False
        while not self.acc(')'):
            a.append(self.binary(0)); self.acc(',')
        self.ns = ns
        return a

    def postfix(self):
        a = self.atom()
        while True:
            if self.pk() == '(': a = ('call', a, self.args())
            elif self.pk() == '[':
                self.nx(); i = self.binary(0); self.ex(']'); a = ('index', a, i)
            elif self.pk() == '.' :
                self.nx(); f = self.nx()
                if self.pk() == '(' : a = ('meth', f, a, self.args())
                else: a = ('field', a, f)
            else: return a

    def atom(self):
        k, s = self.kind(), self.pk()
        if k in ('float', 'int', 'chr', 'str'): self.nx(); return (k, s)
        if s == '(':
            self.nx(); ns = self.ns; self.ns = False
            es = [self.binary(0)]; tup = False
            while self.acc(','):
                tup = True
                if self.pk() == ')': break
                es.append(self.binary(0))
            self.ex(')'); self.ns = ns
            return ('tuple', es) if tup else ('paren', es[0])
        if s == '[':
            self.nx(); es = []
            while not self.acc(']'):
                es.append(self.binary(0)); self.acc(',')
            return ('array', es)
        if s == 'if': return self.ifexpr()
        if s == 'match': return self.matchexpr()
        if k == 'id':
            n = self.nx()
            while self.acc('::'): n += '::' + self.nx()
            if n in ('true', 'false'): return ('bool', n)
            if self.pk() == '{' and not self.ns and self.kind(1) == 'id' and self.pk(2) == ':':
                self.nx(); fs = []
                while not self.acc('}'):
                    f = self.nx(); self.ex(':'); fs.append((f, self.binary(0))); self.acc(',')
                return ('struct', n, fs)
            return ('var', n)
        raise SyntaxError('line %d: atom %r' % (self.line(), s))


def parse_file(path):
    return P(fix_fields(lex(open(path, encoding='utf8').read()))).file()


# ------------------------------------------------------------------ Gallina backend
RESERVED = {'fun', 'at', 'in', 'end', 'with', 'fix', 'exists', 'Set', 'Prop', 'Type', 'using', 'as'}
SIG = {}      # function name -> (param types, ret type)
GCONST = {}   # const name -> (coq name, type)
FLD = ['fst (fst %s)', 'snd (fst %s)', 'snd %s']


def cty(t):
    if t == 'f64': return 'num'
    if t in ('i32',): return 'Z'
    if t == 'usize': return 'nat'
    if t == 'bool': return 'bool'
    if t == 'char': return 'subregion'
    if t == 'str': return 'string'
    if t == 'PAIRS': return 'PAIRS'
    if t == 'para': return 'para'
    if isinstance(t, tuple):
        if t[0] == 'tup': return '(' + ' * '.join(cty(x) for x in t[1]) + ')'
        if t[0] == 'arr': return 'list ' + par(cty(t[1]))
        if t[0] == 'fn': return '(' + ' -> '.join([cty(x) for x in t[1]] + [cty(t[2])]) + ')'
    if t == 'PROP_EQ': return '(num -> num -> Z -> num)'
    if t == 'REGION_EQ': return '(num -> num -> Z)'
    raise KeyError(t)


def par(s): return s if re.fullmatch(r"[\w']+|\(.*\)", s) and balanced(s) else '(' + s + ')'


def balanced(s):
    if not s.startswith('('): return True
    d = 0
    for i, c in enumerate(s):
        if c == '(': d += 1
        if c == ')':
            d -= 1
            if d == 0 and i < len(s)-1: return False
    return True


def nm(n): return n + '_' if n in RESERVED else n


class Gen:
    """expressions are emitted fully parenthesised where needed; types are tracked to
    separate f64 operations from i32 ones."""
    def __init__(self, modconsts, rettype=None):
        self.mc = modconsts
        self.ret = rettype

    def flit(self, s):
        return '#' + s.replace('_', '').replace('.e', '.0e').replace('.E', '.0E') + ('0' if s.endswith('.') else '')

    def ty(self, e, env):
        k = e[0]
        if k == 'float': return 'f64'
        if k == 'int': return 'i32'
        if k == 'chr': return 'char'
        if k == 'str': return 'str'
        if k == 'bool' or k == 'not': return 'bool'
        if k == 'var':
            if e[1] in env: return env[e[1]]
            if e[1] in self.mc: return self.mc[e[1]][1]
            if e[1] in GCONST: return GCONST[e[1]][1]
            if e[1].startswith('PAIRS'): return 'PAIRS'
            if e[1] in SIG: return ('fn',) + SIG[e[1]]
            raise KeyError(e[1])
        if k in ('paren', 'neg'): return self.ty(e[1], env)
        if k == 'as': return e[2]
        if k == 'bin':
            if e[1] in ('&&', '||', '==', '!=', '<', '>', '<=', '>='): return 'bool'
            return self.ty(e[2], env)
        if k == 'meth': return 'f64'
        if k == 'call':
            f = e[1][1]
            if f in env: t = env[f]; return 'f64' if t == 'PROP_EQ' else 'i32' if t == 'REGION_EQ' else t[2]
            return SIG[f][1]
        if k == 'index': return self.ty(e[1], env)[1]
        if k == 'field':
            t = self.ty(e[1], env)
            if t == 'para': return 'f64'
            return t[1][int(e[2])]
        if k == 'tuple': return ('tup', [self.ty(x, env) for x in e[1]])
        if k == 'array': return ('arr', self.ty(e[1][0], env), len(e[1]))
        if k == 'struct': return e[1]
        if k == 'if':
            return self.bty(e[2], env)
        if k == 'match': return self.bty(e[2][0][1], env)
        raise KeyError(k)

    def bty(self, b, env):
        env = dict(env)
        for s in b:
            if s[0] == 'let' and isinstance(s[1], str):
                env[s[1]] = s[2] or self.ty(s[3], env)
        s = b[-1]
        if s[0] == 'tail': return self.ty(s[1], env)
        if s[0] == 'return': return self.ty(s[1], env)
        if s[0] in ('sif', 'smatch'): return self.ty(s[1], env)
        raise KeyError(s[0])

    def ex(self, e, env, want=None):
        k = e[0]
        if k == 'float': return self.flit(e[1])
        if k == 'int': return e[1] + ('%nat' if want == 'usize' else '%Z')
        if k == 'chr': return 'sub_' + e[1][1]
        if k == 'str': return e[1] + '%string'
        if k == 'bool': return e[1]
        if k == 'var':
            v = e[1]
            if v in env: return nm(v)
            if v in self.mc: return self.mc[v][0]
            if v in GCONST: return GCONST[v][0]
            if v.startswith('PAIRS::'): return 'PAIRS_' + v[7:]
            return v
        if k == 'paren': return self.ex(e[1], env, want)
        if k == 'neg':
            if e[1][0] == 'float': return '#(-' + self.flit(e[1][1])[1:] + ')' if not self.zero(e[1][1]) else '(opp %s)' % self.flit(e[1][1])
            t = self.ty(e[1], env)
            x = self.ex(e[1], env, want)
            if t == 'f64': return '(- %s)' % x
            return '(- %s)%%Z' % x if e[1][0] != 'int' else '(-%s)%%Z' % e[1][1]
        if k == 'not': return '(negb %s)' % self.ex(e[1], env)
        if k == 'as':
            x = e[1]
            while x[0] == 'paren': x = x[1]
            t = self.ty(x, env)
            if e[2] == 'f64':
                if t == 'f64': return self.ex(x, env)
                return '(ofZ %s)' % self.ex(x, env)
            if e[2] == 'i32' and t == 'usize': return '(Z.of_nat %s)' % self.ex(x, env)
            raise KeyError(e)
        if k == 'bin':
            op, a, b = e[1:]
            if op in ('&&', '||'):
                return '(%s %s %s)' % (self.ex(a, env), op, self.ex(b, env))
            t = self.ty(a, env)
            A, B = self.ex(a, env), self.ex(b, env)
            if op in '+-*/':
                if t == 'f64': return '(%s %s %s)' % (A, op, B)
                assert t == 'i32', (t, e)
                return '(%s %s %s)%%Z' % (A, op, B)
            if t == 'f64':
                return {'<': '(%s <? %s)', '>': '(%s >? %s)', '<=': '(%s <=? %s)', '>=': '(%s >=? %s)',
                        '==': '(%s =? %s)', '!=': '(%s !=? %s)'}[op] % (A, B)
            assert t == 'i32', (t, e)
            return {'<': '(Z.ltb %s %s)', '>': '(Z.gtb %s %s)', '<=': '(Z.leb %s %s)', '>=': '(Z.geb %s %s)',
                    '==': '(Z.eqb %s %s)', '!=': '(negb (Z.eqb %s %s))'}[op] % (A, B)
        if k == 'meth':
            f, a, args = e[1:]
            A = self.ex(a, env)
            xs = [self.ex(x, env) for x in args]
            return '(%s %s)' % ({'powi': 'powi', 'powf': 'powf', 'abs': 'nabs', 'sqrt': 'nsqrt', 'exp': 'nexp', 'ln': 'nln'}[f],
                                ' '.join([par1(A)] + [par1(x) for x in xs]))
        if k == 'call':
            f = e[1][1]
            if not e[2]: return f
            return '(%s %s)' % (nm(f), ' '.join(par1(self.ex(x, env)) for x in e[2]))
        if k == 'index':
            t = self.ty(e[1], env)[1]
            return '(nth %s %s %s)' % (par1(self.ex(e[2], env, 'usize')), par1(self.ex(e[1], env)), dflt(t))
        if k == 'field':
            t = self.ty(e[1], env)
            A = self.ex(e[1], env)
            if t == 'para': return '(para_%s %s)' % (e[2], A)
            n = len(t[1])
            return '(%s)' % ({3: FLD, 2: ['fst %s', 'snd %s']}[n][int(e[2])] % A)
        if k == 'tuple': return '(' + ', '.join(self.ex(x, env) for x in e[1]) + ')'
        if k == 'array':
            w = None
            if want and want[0] == 'arr': w = want[1]
            def el(x):
                if x[0] == 'tuple' and w and w[0] == 'tup':
                    return '(' + ', '.join(self.lit(y, env, ww) for y, ww in zip(x[1], w[1])) + ')'
                return self.lit(x, env, w) if w else self.ex(x, env)
            xs = [el(x) for x in e[1]]
            if len(xs) > 6: return '[' + ';\n     '.join(xs) + ']'
            return '[' + '; '.join(xs) + ']'
        if k == 'struct':
            return '(mk_para %s)' % ' '.join(par1(self.ex(dict(e[2])[f], env)) for f in ('PS', 'TS', 'VS', 'a', 'b', 'c', 'd', 'e'))
        if k == 'if' or k == 'match':
            r = self.stmts([('sif' if k == 'if' else 'smatch', e, False)], dict(env), None, 2)
            return '(' + r + ')'
        raise KeyError(k)

    def zero(self, s): return float(s) == 0.0

    def lit(self, x, env, w):
        if x[0] == 'neg' and x[1][0] == 'int': return '(-%s)%%Z' % x[1][1]
        return self.ex(x, env, w)

    # ---- statements: returns Gallina text.  k(env, ind) generates the continuation, or None
    def returns(self, b):
        """does every path of block b end in return/tail?  and may any path return?"""
        may = False
        for s in b:
            if s[0] == 'return': return (True, True)
            if s[0] == 'sif' or (s[0] == 'tail' and s[1][0] == 'if'):
                e = s[1]
                a = self.returns(e[2]); c = self.returns(e[3]) if e[3] is not None else (False, False)
                may = may or a[1] or c[1]
                if a[0] and c[0]: return (True, True)
            if s[0] == 'smatch' or (s[0] == 'tail' and s[1][0] == 'match'):
                rs = [self.returns(b2) for _, b2 in s[1][2]]
                may = may or any(r[1] for r in rs)
                if all(r[0] for r in rs): return (True, True)
        return (False, may)

    def assigned(self, b, loc=None):
        out = []
        loc = set(loc or ())
        for s in b:
            if s[0] == 'let':
                for n in ([s[1]] if isinstance(s[1], str) else s[1]): loc.add(n)
            if s[0] == 'assign' and s[1] not in loc: out.append(s[1])
            if s[0] in ('sif',):
                out += self.assigned(s[1][2], loc)
                if s[1][3]: out += self.assigned(s[1][3], loc)
            if s[0] == 'smatch':
                for _, b2 in s[1][2]: out += self.assigned(b2, loc)
            if s[0] == 'for': out += self.assigned(s[3], loc)
        r = []
        for x in out:
            if x not in r and x not in loc: r.append(x)
        return r

    def definitely(self, b):
        """variables surely assigned when b falls through"""
        out = set()
        for s in b:
            if s[0] == 'assign': out.add(s[1])
            if s[0] == 'sif' and s[1][3] is not None:
                e = s[1]
                sets = [self.definitely(x) for x in (e[2], e[3]) if not self.returns(x)[0]]
                if sets: out |= set.intersection(*sets)
            if s[0] == 'smatch':
                sets = [self.definitely(x) for _, x in s[1][2] if not self.returns(x)[0]]
                if sets: out |= set.intersection(*sets)
        return out

    def stmts(self, b, env, k, ind):
        """b: statement list; k: None when b is in value position, else continuation text generator"""
        sp = ' ' * ind
        if not b:
            assert k is not None, 'block without value'
            return k(env, ind)
        s, rest = b[0], b[1:]
        kind = s[0]
        cont = (lambda env2, ind2: self.stmts(rest, env2, k, ind2)) if (rest or k is not None) else None
        if kind == 'const':
            raise AssertionError('local const not lifted')
        if kind == 'let':
            pat, ty, e, _ = s[1:]
            env = dict(env)
            if e is None and ty == 'char':
                # uninitialised char: an explicit marker value, so that dead assignments stay visible
                env[pat] = ty
                return 'let %s := sub_unset in\n%s%s' % (nm(pat), sp, self.stmts(rest, env, k, ind))
            if e is None:
                env[pat] = ty
                env['?' + pat] = True
                return self.stmts(rest, env, k, ind)
            t = ty or self.ty(e, env)
            if e[0] == 'array' and ty: x = self.ex(e, env, ty)
            else: x = self.ex(e, env)
            if isinstance(pat, tuple):
                for n, tt in zip(pat, t[1]):
                    env[n] = tt
                    env.pop('?' + n, None)
                p = "'(" + ', '.join(nm(n) for n in pat) + ')'
            else:
                env[pat] = t; env.pop('?' + pat, None)
                p = nm(pat)
            return letin(p, strip(x), sp, self.stmts(rest, env, k, ind))
        if kind == 'assign':
            env = dict(env)
            x = self.ex(s[2], env)
            env.pop('?' + s[1], None)
            return letin(nm(s[1]), strip(x), sp, self.stmts(rest, env, k, ind))
        if kind == 'return': return self.retexpr(s[1], env)
        if kind == 'tail':
            if s[1][0] in ('if', 'match'): return self.stmts([('sif' if s[1][0] == 'if' else 'smatch', s[1], False)] + rest, env, k, ind)
            assert not rest
            return strip(self.ex(s[1], env))
        if kind in ('sif', 'smatch'):
            if kind == 'sif':
                e = s[1]
                branches = [(self.ex(e[1], env), e[2])]
                els = e[3]
            else:
                branches, els = self.arms(s[1], env)
            allb = [x for _, x in branches] + [els if els is not None else []]
            rets = [self.returns(x) for x in allb]
            valuepos = (not rest and k is None)
            if valuepos:
                txt = ''
                for c, x in branches:
                    txt += 'if %s then\n%s  %s\n%selse ' % (strip(c), sp, self.stmts(x, dict(env), None, ind+2), sp)
                assert els is not None, ('value if without else', s)
                if len(els) == 1 and els[0][0] in ('sif',):
                    txt += self.stmts(els, dict(env), None, ind)
                else:
                    txt += '\n%s  ' % sp + self.stmts(els, dict(env), None, ind+2)
                return txt
            if not any(r[1] for r in rets):
                # pure assignment merge
                vs = []
                for x in allb:
                    for v in self.assigned(x):
                        if v not in vs: vs.append(v)
                # uninitialised variables not surely assigned are dropped
                keep = []
                for v in vs:
                    if env.get('?' + v) and not all(v in self.definitely(x) for x in allb): continue
                    keep.append(v)
                tup = lambda env2, ind2: '(' + ', '.join(nm(v) for v in keep) + ')' if len(keep) > 1 else nm(keep[0])
                env2 = dict(env)
                for v in keep: env2.pop('?' + v, None)
                after = self.stmts(rest, env2, k, ind)
                direct = after == tup(env2, 0)
                j = ind if direct else ind + 2
                jp = ' ' * j
                txt = ''
                for c, x in branches:
                    txt += 'if %s then\n%s  %s\n%selse ' % (strip(c), jp, self.stmts(x, dict(env), tup, j+2), jp)
                x = els if els is not None else []
                if len(x) == 1 and x[0][0] == 'sif': txt += self.stmts(x, dict(env), tup, j)
                else: txt += self.stmts(x, dict(env), tup, j+2)
                if direct: return txt
                return 'let %s :=\n%s%s in\n%s%s' % (("'(" + ', '.join(nm(v) for v in keep) + ')') if len(keep) > 1 else nm(keep[0]), jp, txt, sp, after)
            # some branch may return
            fall = [i for i, r in enumerate(rets) if not r[0]]
            txt = ''
            if len(fall) > 1:
                vs = []
                for x in allb:
                    for v in self.assigned(x):
                        if v not in vs: vs.append(v)
                vs = [v for v in vs if not (env.get('?' + v) and not all(v in self.definitely(allb[i]) for i in fall))]
                self.kn = getattr(self, 'kn', 0) + 1
                kname = 'k%d' % self.kn
                env2 = dict(env)
                for v in vs: env2.pop('?' + v, None)
                params = ' '.join('(%s : %s)' % (nm(v), cty(env[v])) for v in vs) or '(_ : unit)'
                txt += 'let %s := fun %s =>\n%s  %s in\n%s' % (kname, params, sp, cont(env2, ind+2), sp)
                kk = lambda env3, ind3: kname + ' ' + (' '.join(nm(v) for v in vs) or 'tt')
                probe = cont(env2, 0)
                if '\n' not in probe and len(probe) < 40:
                    txt = ''; kk = cont; self.kn -= 1
            else:
                kk = cont
            for c, x in branches:
                txt += 'if %s then\n%s  %s\n%selse ' % (strip(c), sp, self.stmts(x, dict(env), kk, ind+2), sp)
            x = els if els is not None else []
            txt += '\n%s' % sp + self.stmts(x, dict(env), kk, ind)
            return txt
        if kind == 'for':
            v, e, body = s[1:]
            vs = [x for x in self.assigned(body)]
            env2 = dict(env)
            if e[0] == 'range':
                lo, hi = self.ex(e[1], env, 'usize'), self.ex(e[2], env, 'usize')
                lo_n, hi_n = int(e[1][1]), int(e[2][1]) + (1 if e[3] == '..=' else 0)
                lst = '(seq %d %d)' % (lo_n, hi_n - lo_n)
                env2[v] = 'usize'
            else:
                lst = self.ex(e, env)
                env2[v] = self.ty(e, env)[1]
            # variables assigned before use in the body need not be carried, but are: same value
            tup = lambda env3, ind3: '(' + ', '.join(nm(x) for x in vs) + ')' if len(vs) > 1 else nm(vs[0])
            pat = ("'(" + ', '.join(nm(x) for x in vs) + ')') if len(vs) > 1 else nm(vs[0])
            init = tup(env, 0)
            bd = self.stmts([b2 if b2[0] != 'tail' else b2 for b2 in body], env2, tup, ind+4)
            return 'let %s := fold_left (fun %s %s =>\n%s    %s)\n%s  %s %s in\n%s%s' % (
                pat, pat if len(vs) > 1 else nm(vs[0]), nm(v), sp, bd, sp, lst, init, sp, self.stmts(rest, env, k, ind))
        raise KeyError(kind)

    def retexpr(self, e, env):
        return strip(self.ex(e, env))

    def arms(self, m, env):
        """match -> list of (cond, block), else block.  Constant patterns become equality tests in order."""
        e, arms = m[1], m[2]
        t = self.ty(e, env)
        E_ = self.ex(e, env)
        br, els = [], None
        for i, (pats, b) in enumerate(arms):
            last = i == len(arms) - 1
            if pats == [('id', '_')] or (last and t == 'PAIRS'):
                els = b; break
            cs = []
            for pk, pv in pats:
                if t == 'i32':
                    cs.append('(Z.eqb %s %s)' % (E_, pv + '%Z' if pk == 'int' else GCONST[pv][0] if pv in GCONST else self.mc[pv][0]))
                elif t == 'char': cs.append('(subregion_eqb %s sub_%s)' % (E_, pv[1]))
                elif t == 'str': cs.append('(String.eqb %s %s%%string)' % (E_, pv))
                elif t == 'PAIRS': cs.append('(PAIRS_eqb %s PAIRS_%s)' % (E_, pv.split('::')[1]))
                else: raise KeyError(t)
            c = cs[0]
            for d in cs[1:]: c = '(%s || %s)' % (c, d)
            br.append((c, b))
        return br, els


def letin(p, x, sp, rest):
    if p == rest: return x
    return 'let %s := %s in\n%s%s' % (p, x, sp, rest)


def dflt(t):
    if t == 'f64': return '(#0.0)'
    if t in ('i32',): return '0%Z'
    if isinstance(t, tuple) and t[0] == 'arr': return '[]'
    raise KeyError(t)


def par1(s):
    if s.startswith('#') and ' ' not in s: return '(%s)' % s
    return par(s)


def strip(s):
    if s.startswith('(') and s.endswith(')') and balanced(s) and not toplevel_comma(s[1:-1]): return s[1:-1]
    return s


def toplevel_comma(s):
    d = 0
    for c in s:
        if c in '([': d += 1
        if c in ')]': d -= 1
        if c == ',' and d == 0: return True
    return False


def lift_consts(fn):
    """pull const items (and big constant arrays) out of a function body"""
    consts, body = [], []
    for s in fn[4]:
        if s[0] == 'const': consts.append(s)
        else: body.append(s)
    return consts, fn[:4] + (body,) + fn[5:]


def emit_const(cname, c, gen, rel):
    _, name, ty, e, l1, l2 = c
    x = gen.ex(e, {}, ty) if e[0] == 'array' else strip(gen.ex(e, {}))
    return '(* src/%s:%d-%d  %s *)\nDefinition %s : %s :=\n  %s.\n' % (rel, l1, l2, name, cname, cty(ty), x)


def nested_array(e): return e[0] == 'array' and e[1] and e[1][0][0] == 'array'


def gen_chunks(rel, skip=(), only=None):
    """[(name, Gallina text)] for every constant and function of a source file"""
    items = parse_file(os.path.join(SRC, rel))
    stem = os.path.basename(rel)[:-3]
    mc = {}
    out = []
    for m in re.findall(r'^use crate::(r\d)::(\w+_[gh]fe)::\*', open(os.path.join(SRC, rel)).read(), flags=re.M):
        for it in parse_file(os.path.join(SRC, m[0], m[1] + '.rs')):
            if it[0] == 'const' and it[1] not in GCONST: mc[it[1]] = (m[1] + '_' + it[1], it[2])
    for it in items:
        if it[0] == 'const':
            if it[1] in GCONST and GCONST[it[1]][2] == rel:
                cname = GCONST[it[1]][0]
            else:
                cname = stem + '_' + it[1]
            mc[it[1]] = (cname, it[2])
            g = Gen(mc)
            out.append((cname, emit_const(cname, it, g, rel)))
    for it in items:
        if it[0] != 'fn': continue
        name = it[1]
        if name in skip or (only and name not in only): continue
        consts, fn = lift_consts(it)
        lmc = dict(mc)
        for c in consts:
            cname = name + '_' + c[1]
            g = Gen(lmc)
            out.append((cname, emit_const(cname, c, g, rel)))
            lmc[c[1]] = (cname, c[2])
        g = Gen(lmc)
        env = {}
        for n, t in fn[2]: env[n] = t
        body = g.stmts(fn[4], env, None, 2)
        ps = ' '.join('(%s : %s)' % (nm(n), cty(t)) for n, t in fn[2])
        out.append((name, '(* src/%s:%d-%d *)\nDefinition %s%s : %s :=\n  %s.\n' % (rel, fn[5], fn[6], name, ' ' + ps if ps else '', cty(fn[3]), body)))
    return out


def load_sigs():
    for d, _, fs in os.walk(SRC):
        for f in sorted(fs):
            if not f.endswith('.rs'): continue
            rel = os.path.relpath(os.path.join(d, f), SRC)
            if rel in ('lib.rs', 'python_if97.rs', 'rust_if97.rs') or f == 'mod.rs' or rel.endswith('_c_if97.rs'): continue
            for it in parse_file(os.path.join(d, f)):
                if it[0] == 'fn': SIG[it[1]] = ([t for _, t in it[2]], it[3])
                if it[0] == 'const' and (rel in ('common/constant.rs', 'common/propertry_id.rs', 'common/region.rs', 'algo/root.rs')
                                         or it[1] in ('r1pstar', 'r1Tstar', 'r2pstar', 'r2Tstar', 'r2Pstar', 'r5Pstar', 'r5Tstar')):
                    GCONST[it[1]] = (it[1], it[2], rel)



HEADER = '''(* Generated by tools/rs2v.py from %s.
   Every definition cites the source lines it models; see tools/rs2v.py for the
   translation rules (mutable variables become let-rebinding, match on constants
   becomes an if-chain in source order, for loops over ranges become fold_left). *)
From Coq Require Import ZArith List Bool String.
%s
Import ListNotations.
Open Scope num_scope.

Section Model.
Context {N : Arith}.

'''

if __name__ == '__main__':
    import genplan
    load_sigs()
    genplan.run(gen_chunks, HEADER)
