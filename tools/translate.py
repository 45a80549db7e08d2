"""Transcribe the regular Rust modules of the crate into Gallina.

Each Rust module becomes a Coq `Module` holding its free functions and, when it
defines a struct, a second `Module` (prefix O_) holding the record, its `init`
and its methods.  The expression structure is kept as written.  Conventions:
  * references and dereferences are dropped;
  * u8/u128/usize/i32 values are Z, f64 values are the abstract scalar T;
  * a function that can panic returns an option and `let!` propagates the panic;
    functions that reach the u128 arithmetic take the build profile;
  * float literals are exact decimals `sdec m k` = m*10^-k.
Usage: python3 translate.py   (writes ../rocq/theories/M*.v)
"""
import os
import re
import sys
from rustlit import coq as coqlit

ROOT = '/repo/src/physics/single_chain'
OUT = os.path.join(os.path.dirname(os.path.abspath(__file__)), '..', 'rocq', 'theories')

# ---------------------------------------------------------------- tokenizer
TOK = re.compile(r'''
  (?P<ws>\s+|//[^\n]*)
 |(?P<num>\d[\d_]*(?:\.(?!\.)(?![a-z_])[\d_]*)?(?:[eE][+-]?\d+)?(?:_?f64|_u8|_u128)?)
 |(?P<id>[A-Za-z_][A-Za-z0-9_]*!?(?:::[A-Za-z_][A-Za-z0-9_]*)*(?:::<[^()]*?>+(?=\())?)
 |(?P<str>"[^"]*")
 |(?P<op>\.\.=|\.\.|->|=>|<=|>=|==|!=|&&|\|\||[-+*/&|<>=!(){}\[\],;:.\#])
''', re.X)


class Tok:
    __slots__ = ('k', 's', 'line')

    def __init__(self, k, s, line):
        self.k, self.s, self.line = k, s, line

    def __repr__(self):
        return '%s@%d' % (self.s, self.line)


def tokenize(text):
    pos, line, out = 0, 1, []
    while pos < len(text):
        m = TOK.match(text, pos)
        if not m:
            raise SyntaxError('line %d: %r' % (line, text[pos:pos + 40]))
        k = m.lastgroup
        s = m.group()
        if k != 'ws':
            out.append(Tok(k, s, line))
        line += s.count('\n')
        pos = m.end()
    return out


# ------------------------------------------------------------------- parser
class Parser:
    def __init__(self, toks):
        self.t, self.i = toks, 0

    def peek(self, n=0):
        return self.t[self.i + n].s if self.i + n < len(self.t) else None

    def kind(self):
        return self.t[self.i].k

    def next(self):
        tok = self.t[self.i]
        self.i += 1
        return tok

    def eat(self, s):
        tok = self.next()
        if tok.s != s:
            raise SyntaxError('expected %r got %r' % (s, tok))
        return tok

    def accept(self, s):
        if self.peek() == s:
            self.i += 1
            return True
        return False

    # items ------------------------------------------------------------
    def skip_attr(self):
        while self.peek() == '#':
            self.next()
            self.eat('[')
            d = 1
            while d:
                s = self.next().s
                d += (s == '[') - (s == ']')

    def items(self):
        items = []
        while self.i < len(self.t):
            self.skip_attr()
            if self.i >= len(self.t):
                break
            pub = self.accept('pub')
            s = self.peek()
            if s == 'mod':
                self.next()
                name = self.next().s
                self.eat(';')
                items.append(('mod', name))
            elif s == 'use':
                self.next()
                items += self.use_tree([])
                self.eat(';')
            elif s == 'struct':
                items.append(self.struct())
            elif s == 'fn':
                items.append(self.fn())
            elif s == 'impl':
                self.next()
                name = self.next().s
                self.eat('{')
                fns = []
                while not self.accept('}'):
                    self.skip_attr()
                    self.accept('pub')
                    fns.append(self.fn())
                items.append(('impl', name, fns))
            elif s in ('static', 'const'):
                line = self.next().line
                name = self.next().s
                self.eat(':')
                ty = self.type()
                self.eat('=')
                e = self.expr()
                self.eat(';')
                items.append(('const', name, ty, e, line))
            else:
                raise SyntaxError('item %r' % self.t[self.i])
        return items

    def use_tree(self, prefix):
        out = []
        if self.accept('{'):
            while not self.accept('}'):
                out += self.use_tree(prefix)
                self.accept(',')
            return out
        tok = self.next().s
        parts = tok.split('::')
        while self.peek() == ':' and self.peek(1) == ':':
            self.next(); self.next()
            if self.peek() == '{':
                return out + self.use_tree(prefix + parts)
            parts += self.next().s.split('::')
        alias = parts[-1]
        if self.accept('as'):
            alias = self.next().s
        out.append(('use', prefix + parts, alias))
        return out

    def struct(self):
        self.eat('struct')
        line = self.t[self.i].line
        name = self.next().s
        self.eat('{')
        fields = []
        while not self.accept('}'):
            self.accept('pub')
            f = self.next().s
            self.eat(':')
            fields.append((f, self.type()))
            self.accept(',')
        return ('struct', name, fields, line, self.t[self.i - 1].line)

    def type(self):
        self.accept('&')
        if self.accept('['):
            inner = self.type()
            if self.accept(';'):
                while self.peek() != ']':
                    self.next()
            self.eat(']')
            return ('list', inner)
        s = self.next().s
        if s == 'Vec' and self.accept('<'):
            inner = self.type()
            self.eat('>')
            return ('list', inner)
        return s

    def fn(self):
        line = self.eat('fn').line
        name = self.next().s
        self.eat('(')
        params, self_param = [], False
        while not self.accept(')'):
            if self.peek() == '&' and self.peek(1) == 'self':
                self.next(); self.next()
                self_param = True
            else:
                p = self.next().s
                self.eat(':')
                params.append((p, self.type()))
            self.accept(',')
        self.eat('->')
        ret = self.type()
        body = self.block()
        return dict(kind='fn', name=name, params=params, self_param=self_param, ret=ret,
                    body=body, l0=line, l1=self.t[self.i - 1].line)

    # statements ---------------------------------------------------------
    def block(self):
        self.eat('{')
        stmts = []
        tail = None
        while not self.accept('}'):
            if self.peek() == 'let':
                self.next()
                self.accept('mut')
                name = self.next().s
                if self.accept(':'):
                    self.type()
                if self.accept('='):
                    e = self.expr()
                    self.eat(';')
                    stmts.append(('let', name, e))
                else:
                    self.eat(';')
                    stmts.append(('decl', name))
                continue
            if self.kind() == 'id' and self.peek(1) == '=' and self.peek() not in ('if',):
                name = self.next().s
                self.eat('=')
                e = self.expr()
                self.eat(';')
                stmts.append(('assign', name, e))
                continue
            e = self.expr()
            if self.accept(';'):
                stmts.append(('expr', e))
            elif self.peek() == '}':
                tail = e
            elif e[0] == 'if':
                stmts.append(('expr', e))
            else:
                raise SyntaxError('statement %r' % self.t[self.i])
        return ('block', stmts, tail)

    # expressions --------------------------------------------------------
    def expr(self):
        return self.cmp()

    def cmp(self):
        a = self.range_()
        while self.peek() in ('<', '>', '<=', '>=', '=='):
            op = self.next().s
            a = ('bin', op, a, self.range_())
        return a

    def range_(self):
        a = self.add()
        if self.peek() in ('..', '..='):
            op = self.next().s
            return ('range', op, a, self.add())
        return a

    def add(self):
        a = self.mul()
        while self.peek() in ('+', '-'):
            op = self.next().s
            a = ('bin', op, a, self.mul())
        return a

    def mul(self):
        a = self.cast()
        while self.peek() in ('*', '/'):
            op = self.next().s
            a = ('bin', op, a, self.cast())
        return a

    def cast(self):
        a = self.unary()
        while self.accept('as'):
            a = ('as', a, self.type())
        return a

    def unary(self):
        s = self.peek()
        if s == '-':
            self.next()
            return ('neg', self.unary())
        if s == '!':
            self.next()
            return ('not', self.unary())
        if s == '&':
            self.next()
            return self.unary()
        if s == '*':
            self.next()
            return self.unary()
        return self.postfix()

    def postfix(self):
        e = self.primary()
        while True:
            if self.peek() == '.':
                self.next()
                name = self.next().s
                if self.peek() == '(':
                    args = self.args()
                    e = ('method', e, name, args)
                else:
                    e = ('field', e, name)
            elif self.peek() == '[':
                self.next()
                i = self.expr()
                self.eat(']')
                e = ('index', e, i)
            elif self.peek() == '(' and e[0] == 'var':
                e = ('call', e[1], self.args())
            else:
                return e

    def args(self):
        self.eat('(')
        out = []
        while not self.accept(')'):
            out.append(self.expr())
            self.accept(',')
        return out

    def primary(self):
        tok = self.t[self.i]
        if tok.k == 'num':
            self.next()
            return ('num', tok.s)
        if tok.s == '(':
            self.next()
            e = self.expr()
            self.eat(')')
            return ('paren', e)
        if tok.s == '[':
            self.next()
            es = []
            while not self.accept(']'):
                es.append(self.expr())
                self.accept(',')
            return ('array', es)
        if tok.s == '|':
            self.next()
            params = []
            while not self.accept('|'):
                p = self.next().s
                ty = None
                if self.accept(':'):
                    ty = self.type()
                params.append((p, ty))
                self.accept(',')
            body = self.block() if self.peek() == '{' else self.expr()
            return ('closure', params, body)
        if tok.s == 'if':
            self.next()
            c = self.expr()
            a = self.block()
            b = None
            if self.accept('else'):
                b = self.block()
            return ('if', c, a, b)
        if tok.k == 'id':
            self.next()
            if tok.s == 'vec!':
                self.eat('[')
                es = []
                while not self.accept(']'):
                    es.append(self.expr())
                    self.accept(',')
                return ('array', es)
            if tok.s == 'panic!':
                self.args_any()
                return ('panic',)
            base = tok.s.split('::')[-1]
            if self.peek() == '{' and base[0].isupper() and base.upper() != base or \
               (self.peek() == '{' and tok.s in self.struct_names):
                self.next()
                fs = []
                while not self.accept('}'):
                    f = self.next().s
                    if self.accept(':'):
                        fs.append((f, self.expr()))
                    else:
                        fs.append((f, ('var', f)))
                    self.accept(',')
                return ('struct', tok.s, fs)
            return ('var', tok.s)
        raise SyntaxError('primary %r' % tok)

    struct_names = set()

    def args_any(self):
        self.eat('(')
        d = 1
        while d:
            s = self.next().s
            d += (s == '(') - (s == ')')


# ------------------------------------------------------------- crate loading
MATH = {n: dict(mod='math', name=n, monadic=False, prof=False) for n in (
    'inverse_newton_raphson_powered', 'inverse_newton_raphson', 'inverse_langevin',
    'integrate_1d', 'lambert_w', 'bessel_i', 'erf', 'erfc')}
CONSTS = {'PI': 'spi', 'BOLTZMANN_CONSTANT': 'BOLTZMANN_CONSTANT', 'PLANCK_CONSTANT': 'PLANCK_CONSTANT',
          'ZERO': 'ZERO', 'ONE': 'ONE', 'POINTS': 'POINTS'}
INTCONSTS = {'POINTS'}
M1 = {'exp': 'sexp', 'ln': 'sln', 'sinh': 'ssinh', 'cosh': 'scosh', 'tanh': 'stanh', 'sin': 'ssin',
      'cos': 'scos', 'acos': 'sacos', 'sqrt': 'ssqrt', 'abs': 'sabs', 'atanh': 'satanh'}


class Mod:
    def __init__(self, path):
        self.path = path                       # list of components below single_chain
        self.file = os.path.join(ROOT, *path, 'mod.rs')
        parts = [c for i, c in enumerate(path) if c != 'thermodynamics' or i == len(path) - 1]
        parts = [c for c in parts if c != 'ufjc']
        self.coq = '_'.join(parts)
        p = Parser(tokenize(open(self.file).read()))
        names = set(re.findall(r'struct (\w+)', open(self.file).read()))
        p.struct_names = names
        self.items = p.items()
        self.fns = {it['name']: it for it in self.items if isinstance(it, dict)}
        self.uses = {it[2]: it[1] for it in self.items if isinstance(it, tuple) and it[0] == 'use'}
        self.struct = next((it for it in self.items if isinstance(it, tuple) and it[0] == 'struct'), None)
        self.impl = next((it for it in self.items if isinstance(it, tuple) and it[0] == 'impl'), None)


def resolve(mods, m, name):
    """Resolve a called name in module m to (Mod, fnname) or a MATH entry."""
    if name in m.fns:
        return m, name
    if name in m.uses:
        path = m.uses[name]
        if path[:2] == ['crate', 'math']:
            return MATH[path[-1]]
        if path[0] == 'super':
            cur = list(m.path)
            i = 0
            while path[i] == 'super':
                cur.pop()
                i += 1
            tgt = mods['/'.join(cur + path[i:-1])]
            return resolve(mods, tgt, path[-1])
        if path[:3] == ['crate', 'physics', 'single_chain']:
            return resolve(mods, mods['/'.join(path[3:-1])], path[-1])
    raise KeyError('%s in %s' % (name, m.file))


def calls(e, acc):
    if isinstance(e, tuple):
        if e and e[0] == 'call':
            acc.append(e[1])
        if e and e[0] == 'panic':
            acc.append('panic!')
        for x in e:
            calls(x, acc)
    elif isinstance(e, list):
        for x in e:
            calls(x, acc)
    return acc


# --------------------------------------------------------------- translation
HAND = {'treloar_sums': dict(mod='fjc_thermodynamics', name='treloar_sums', monadic=True, prof=True),
        'treloar_sum_0_with_prefactor': dict(mod='fjc_thermodynamics', name='treloar_sum_0_with_prefactor', monadic=True, prof=True)}


class P(str):
    """Gallina text with the precedence level of its outermost construct."""
    level = 0


def mk(text, level):
    p = P(text)
    p.level = level
    return p


def w(p, level):
    lv = p.level if isinstance(p, P) else 0
    return '(%s)' % p if lv > level else str(p)


def app(f, *args):
    return mk(' '.join([f] + [w(a, 8) for a in args]), 10)


OPS = {'+': 50, '-': 50, '*': 40, '/': 40}


class Tr:
    def __init__(self, mods, m, flags, fields=None):
        self.mods, self.m, self.flags = mods, m, flags
        self.env = {}
        self.n = 0
        self.fields = fields

    def fresh(self):
        self.n += 1
        return 'r%d' % self.n

    def callee(self, name):
        if name.split('::')[-1] == 'init' and '::' in name:
            return None
        r = resolve(self.mods, self.m, name)
        if isinstance(r, dict):
            return r
        m, n = r
        if n in HAND:
            return HAND[n]
        f = self.flags[(m.coq, n)]
        return dict(mod=m.coq, name=n, monadic=f['monadic'], prof=f['prof'])

    def isint(self, e):
        k = e[0]
        if k == 'num':
            return not re.search(r'[.eE]|f64', e[1])
        if k == 'var':
            return self.env.get(e[1]) == 'Z' or (e[1] in INTCONSTS)
        if k == 'paren':
            return self.isint(e[1])
        if k == 'as':
            return e[2] != 'f64'
        if k == 'bin' and e[1] in '+-*/':
            return self.isint(e[2]) and self.isint(e[3])
        if k == 'method' and e[2] in ('try_into', 'unwrap', 'into'):
            return self.isint(e[1])
        if k == 'field':
            return self.fields is not None and self.fields.get(e[2]) == 'Z'
        if k == 'neg':
            return self.isint(e[1])
        return False

    # returns (binds, text); text is atomic or parenthesised
    def ex(self, e):
        k = e[0]
        if k == 'num':
            if self.isint(e):
                return [], re.sub(r'_u8|_u128|_', '', e[1])
            return [], mk(coqlit(e[1])[1:-1], 10)
        if k == 'paren':
            return self.ex(e[1])
        if k == 'var':
            n = e[1]
            if n in self.env:
                return [], n
            if n in CONSTS:
                return [], CONSTS[n]
            if n == 'self':
                return [], 'self'
            raise KeyError('var %s in %s' % (n, self.m.file))
        if k == 'neg':
            b, t = self.ex(e[1])
            if self.isint(e[1]):
                return b, mk('(- %s)%%Z' % w(t, 35), 0)
            return b, mk('- %s' % w(t, 35), 35)
        if k == 'as':
            b, t = self.ex(e[1])
            if e[2] == 'f64':
                return b, (app('sofZ', t) if self.isint(e[1]) else t)
            if not self.isint(e[1]):
                raise KeyError('float cast')
            return b, t
        if k == 'bin':
            op = e[1]
            b1, t1 = self.ex(e[2])
            b2, t2 = self.ex(e[3])
            if op in '+-*/' and self.isint(e[2]) and self.isint(e[3]):
                return b1 + b2, mk('(%s %s %s)%%Z' % (w(t1, OPS[op]), op, w(t2, OPS[op] - 1)), 0)
            if self.isint(e[2]) or self.isint(e[3]):
                raise KeyError('mixed %r %s' % (e, self.m.file))
            if op in '+-*/':
                return b1 + b2, mk('%s %s %s' % (w(t1, OPS[op]), op, w(t2, OPS[op] - 1)), OPS[op])
            if op == '<':
                return b1 + b2, mk('%s <? %s' % (w(t1, 69), w(t2, 69)), 70)
            if op == '<=':
                return b1 + b2, mk('%s <=? %s' % (w(t1, 69), w(t2, 69)), 70)
            if op == '>':
                return b1 + b2, mk('%s <? %s' % (w(t2, 69), w(t1, 69)), 70)
            raise KeyError(op)
        if k == 'not':
            b, t = self.ex(e[1])
            return b, app('negb', t)
        if k == 'call':
            name = e[1]
            binds, ts = [], []
            for a in e[2]:
                b, t = self.ex(a)
                binds += b
                ts.append(t)
            if name in self.env and self.env[name] == 'fun':
                return binds, app(name, *ts)
            c = self.callee(name)
            q = c['name'] if c['mod'] == self.m.coq and not self.in_obj else '%s.%s' % (c['mod'], c['name'])
            monadic = c['monadic']
            if name == 'integrate_1d':
                a0 = e[2][0]
                if self.closure_monadic(a0):
                    q += '_m'
                    monadic = True
            if c['prof']:
                ts = ['prof'] + ts
            t = app(q, *ts)
            if monadic:
                v = self.fresh()
                return binds + [('bind', v, t)], v
            return binds, t
        if k == 'method':
            recv, name, args = e[1], e[2], e[3]
            if name == 'contains' and recv[0] == 'paren' and recv[1][0] == 'range':
                _, op, lo, hi = recv[1]
                assert op == '..='
                b0, lo = self.ex(lo)
                b1, hi = self.ex(hi)
                b2, x = self.ex(args[0])
                return b0 + b1 + b2, mk('((%s <=? %s)%%S && (%s <=? %s)%%S)%%bool' % (w(lo, 69), w(x, 69), w(x, 69), w(hi, 69)), 0)
            if name in ('try_into', 'unwrap', 'into'):
                return self.ex(recv)
            if name.startswith('sum'):
                assert recv[0] == 'method' and recv[2] == 'map', recv
                clo = recv[3][0]
                it = recv[1]
                assert it[0] == 'method' and it[2] == 'iter'
                it = it[1]
                assert it[0] == 'method' and it[2].startswith('collect')
                rng = it[1][1]
                assert rng[0] == 'range' and rng[1] == '..'
                p = clo[1][0][0]
                old = self.env.get(p)
                self.env[p] = 'Z'
                b, t = self.ex(clo[2])
                assert not b
                self.env[p] = old
                return [], mk('ssum (map (fun %s => %s) (zrange %s %s))' % (p, t, rng[2][1], rng[3][1]), 10)
            b, t = self.ex(recv)
            if name in M1:
                assert not args
                return b, app(M1[name], t)
            if name == 'powi':
                b2, n = self.ex(args[0])
                assert self.isint(args[0]), e
                return b + b2, app('spowi', t, n)
            if name == 'powf':
                b2, n = self.ex(args[0])
                return b + b2, app('spowf', t, n)
            raise KeyError('method %s' % name)
        if k == 'index':
            base, idx = e[1], e[2]
            if base[0] == 'index':      # two-dimensional constant table
                b, i1 = self.ex(base[2])
                b2, i2 = self.ex(idx)
                _, c = self.ex(base[1])
                return [], mk('nth (Z.to_nat %s) (nth (Z.to_nat %s) %s []) (sdec 0 0)' % (w(i2, 8), w(i1, 8), c), 10)
            b, t = self.ex(base)
            b2, i = self.ex(idx)
            v = self.fresh()
            return b + b2 + [('bind', v, app('nth_error', t, i))], v
        if k == 'array':
            binds, ts = [], []
            for a in e[1]:
                b, t = self.ex(a)
                binds += b
                ts.append(t)
            return binds, '[%s]%s' % ('; '.join(ts), '%Z' if e[1] and all(map(self.isint, e[1])) else '')
        if k == 'closure':
            old = dict(self.env)
            for p, ty in e[1]:
                self.env[p] = 'T'
            body = e[2]
            if body[0] != 'block':
                body = ('block', [], body)
            mon = self.block_monadic(body)
            t = self.block(body, mon)
            self.env = old
            return [], mk('fun %s => %s' % (' '.join(p for p, _ in e[1]), t), 200)
        if k == 'if':
            bc, c = self.ex(e[1])
            mon = self.block_monadic(e[2]) or self.block_monadic(e[3])
            a = self.block(e[2], mon)
            b = self.block(e[3], mon)
            t = mk('if %s then %s else %s' % (c, a, b), 200)
            if mon:
                v = self.fresh()
                return bc + [('bind', v, t)], v
            return bc, t
        if k == 'field':
            assert e[1] == ('var', 'self'), e
            return [], app(e[2], 'self')
        if k == 'block':
            raise KeyError('block expr')
        raise KeyError(k)

    in_obj = False

    def closure_monadic(self, e):
        if e[0] == 'var':
            return self.env.get(e[1]) == 'mfun'
        if e[0] == 'closure':
            body = e[2] if e[2][0] == 'block' else ('block', [], e[2])
            return self.block_monadic(body)
        return False

    def block_monadic(self, b):
        for c in calls(b, []):
            if c == 'panic!':
                return True
            if c in self.env and self.env[c] == 'fun':
                continue
            if c == 'integrate_1d' or '::' in c:
                continue
            if self.callee(c)['monadic']:
                return True
        # integrate_1d over a monadic closure variable
        def go(e):
            if isinstance(e, tuple):
                if e and e[0] == 'call' and e[1] == 'integrate_1d' and self.closure_monadic(e[2][0]):
                    return True
                return any(go(x) for x in e)
            if isinstance(e, list):
                return any(go(x) for x in e)
            return False
        return go(b)

    def wrapb(self, binds, text):
        return ''.join('let! %s := %s in ' % (v, t) for _, v, t in binds) + text

    def block(self, b, monadic):
        """Translate a block to an expression; monadic blocks yield an option."""
        _, stmts, tail = b
        old = dict(self.env)
        out = []
        close = 0
        i = 0
        for st in stmts:
            if st[0] == 'let':
                _, name, e = st
                if e[0] == 'closure':
                    mon = self.closure_monadic(e)
                    _, t = self.ex(e)
                    out.append('let %s := %s in ' % (name, t))
                    self.env[name] = 'mfun' if mon else 'fun'
                    continue
                binds, t = self.ex(e)
                isint = self.isint(e)
                out.append(''.join('let! %s := %s in ' % (v, x) for _, v, x in binds))
                ty = ' : list (list T)' if e[0] == 'array' else ''
                out.append('let %s%s := %s in ' % (name, ty, t))
                self.env[name] = 'Z' if isint else 'T'
            elif st[0] == 'decl':
                pass
            elif st[0] == 'expr' and st[1][0] == 'if':
                _, c, a, bb = st[1]
                bc, ct = self.ex(c)
                out.append(''.join('let! %s := %s in ' % (v, x) for _, v, x in bc))
                if bb is None and len(a[1]) == 1 and a[1][0] == ('expr', ('panic',)):
                    out.append('if %s then None else ' % ct)
                else:
                    A = {s[1]: s[2] for s in a[1]}
                    assert all(s[0] == 'assign' for s in a[1]) and a[2] is None
                    B = {s[1]: s[2] for s in bb[1]} if bb else {}
                    names = [s[1] for s in a[1]]
                    # the branches never read a variable assigned earlier in the same branch
                    for nme in names:
                        ba, ta = self.ex(A[nme])
                        if bb:
                            b2, tb = self.ex(B[nme])
                        else:
                            b2, tb = [], nme
                        assert not ba and not b2
                        out.append('let %s := if %s then %s else %s in ' % (nme, ct, ta, tb))
                    for nme in names:
                        self.env[nme] = 'T'
            else:
                raise KeyError('stmt %r' % (st,))
        if tail[0] == 'struct':
            t = '{| %s |}' % '; '.join('%s := %s' % (f, self.field_init(f, v)) for f, v in tail[2])
            text = t
            binds = []
        else:
            binds, text = self.ex(tail)
        if monadic:
            # avoid a trailing bind-then-Some
            if binds and binds[-1][1] == text:
                text = self.wrapb(binds[:-1], binds[-1][2])
            else:
                text = self.wrapb(binds, 'Some %s' % w(text, 8))
        else:
            assert not binds, (self.m.file, binds)
        self.env = old
        if not out and not binds and not monadic:
            return text
        return mk(''.join(out) + text, 200)

    def field_init(self, f, v):
        if v[0] == 'call' and v[1].endswith('::init'):
            sub = v[1].split('::')
            tgt = None
            comps = [c for c in sub[:-2] if c != 'self']
            if comps and comps[0] == 'super':
                raise KeyError('super init')
            tgt = self.mods['/'.join(self.m.path + comps)]
            ts = []
            for a in v[2]:
                b, t = self.ex(a)
                assert not b
                ts.append(t)
            return app('O_%s.init' % tgt.coq, *ts)
        b, t = self.ex(v)
        assert not b
        return t


def cty(ty, mods=None, m=None):
    if ty in ('u8', 'u128', 'i32', 'usize'):
        return 'Z'
    if ty == 'f64':
        return 'T'
    raise KeyError(ty)


def fill(text, indent, width=100, first=''):
    lines, cur = [], first
    for word in text.split(' '):
        if cur.strip() and len(cur) + 1 + len(word) > width:
            lines.append(cur)
            cur = indent + word
        else:
            cur = cur + ' ' + word if cur.strip() else cur + word
    lines.append(cur)
    return '\n'.join(lines)


def fill_body(body):
    """One line per top-level `let`; long lines are wrapped."""
    parts, depth, cur = [], 0, ''
    for word in body.split(' '):
        depth += word.count('(') + word.count('[') + word.count('{') \
            - word.count(')') - word.count(']') - word.count('}')
        cur = cur + ' ' + word if cur else word
        if depth == 0 and word in ('in',) or depth == 0 and cur.endswith('then None else'):
            parts.append(cur)
            cur = ''
    parts.append(cur + '.')
    return '\n'.join(fill(p, '      ', first='  ') for p in parts)



def gen(chain_files, outname, header, pre='', extra_imports=''):
    mods = ALL
    out = ['(** %s' % header,
           '    Generated by tools/translate.py from the files cited at each definition. *)',
           'From Coq Require Import ZArith List Bool.',
           'From Verif Require Import Scalar MMath MConst%s.' % extra_imports,
           'Import ListNotations.',
           'Local Open Scope scalar_scope.', '']
    ms = [mods[p] for p in chain_files]
    # free function modules, in dependency order
    done = []
    pending = [m for m in ms if any(n not in HAND for n in m.fns)]

    def deps(m):
        d = set()
        for f in m.fns.values():
            if f['name'] in HAND:
                continue
            for c in calls(f['body'], []):
                if c == 'panic!':
                    continue
                try:
                    r = resolve(mods, m, c)
                except KeyError:
                    continue
                if not isinstance(r, dict) and r[0] is not m:
                    d.add(r[0].coq)
        return d
    names = {m.coq for m in pending}
    while pending:
        for m in pending:
            if all(d in done or d not in names for d in deps(m)):
                break
        else:
            raise RuntimeError('cycle')
        pending.remove(m)
        done.append(m.coq)
        out += gen_free(mods, m)
    # object modules, children first
    objs = sorted([m for m in ms if m.struct], key=lambda m: -len(m.path))
    for m in objs:
        out += gen_obj(mods, m)
    open(os.path.join(OUT, outname), 'w').write('\n'.join(out) + '\n')


def rel(m):
    return os.path.join('/repo/src/physics/single_chain', *m.path, 'mod.rs')


def gen_free(mods, m):
    out = ['(** %s *)' % rel(m), 'Module %s.' % m.coq, 'Section Model.', 'Context {T : Type} {Sc : Scalar T}.', '']
    todo = [f for f in m.fns.values() if f['name'] not in HAND]
    done = set()
    while todo:
        for f in todo:
            cs = [c for c in calls(f['body'], []) if c in m.fns and c not in HAND and c != f['name']]
            # a local `let x = x(...)` shadows nothing for ordering purposes
            if all(c in done for c in cs):
                break
        else:
            raise RuntimeError('cycle in %s: %s' % (m.file, [f['name'] for f in todo]))
        todo.remove(f)
        done.add(f['name'])
        out += gen_fn(mods, m, f)
    out += ['End Model.', 'End %s.' % m.coq, '']
    return out


def gen_fn(mods, m, f, fields=None):
    tr = Tr(mods, m, FLAGS, fields)
    for p, ty in f['params']:
        tr.env[p] = cty(ty)
    obj = fields is not None
    tr.in_obj = obj
    if obj:
        tr.env['self'] = 'self'
        mon = tr.block_monadic(f['body'])
        prof = any_prof(tr, f)
    else:
        fl = FLAGS[(m.coq, f['name'])]
        mon, prof = fl['monadic'], fl['prof']
    body = tr.block(f['body'], mon)
    if f['ret'] == 'Self':
        rty = 't'
    else:
        rty = cty(f['ret'])
    if mon:
        rty = 'option %s' % rty
    params = ''
    if prof:
        params += ' (prof : profile)'
    if f['self_param']:
        params += ' (self : t T)'
    for p, ty in f['params']:
        params += ' (%s : %s)' % (p, cty(ty))
    if rty == 't':
        rty = 't T'
    return ['(* %s:%d-%d *)' % (rel(m), f['l0'], f['l1']),
            fill('Definition %s%s : %s :=' % (f['name'], params, rty), '    '), fill_body(body), '']


def any_prof(tr, f):
    for c in calls(f['body'], []):
        if c == 'panic!' or '::' in c or c == 'integrate_1d':
            continue
        if tr.callee(c)['prof']:
            return True
    return False


def gen_obj(mods, m):
    _, sname, fields, l0, l1 = m.struct
    out = ['(** %s: struct %s *)' % (rel(m), sname), 'Module O_%s.' % m.coq]
    fl = []
    ftypes = {}
    for f, ty in fields:
        if ty in ('f64', 'u8'):
            c = cty(ty)
            ftypes[f] = c
        else:
            comps = [x for x in ty.split('::')[:-1] if x != 'self']
            c = 'O_%s.t T' % mods['/'.join(m.path + comps)].coq
            ftypes[f] = 'obj'
        fl.append('%s : %s' % (f, c))
    out.append('(* %s:%d-%d *)' % (rel(m), l0, l1))
    out.append('Record t {T : Type} := { %s }.' % '; '.join(fl))
    out.append('Arguments t : clear implicits.')
    out.append('Section Model.')
    out.append('Context {T : Type} {Sc : Scalar T}.')
    out.append('')
    for f in m.impl[2]:
        out += gen_fn(mods, m, f, ftypes)
    out += ['End Model.', 'End O_%s.' % m.coq, '']
    return out


def load():
    mods = {}
    for d, _, fs in os.walk(ROOT):
        if 'mod.rs' not in fs:
            continue
        p = os.path.relpath(d, ROOT)
        if p == '.' or 'monte_carlo' in p or p.startswith(('frc', 'efrc')) or p == 'ufjc':
            continue
        comps = p.split('/')
        if comps == ['fjc', 'thermodynamics']:
            # treloar_* are transcribed by hand (MTreloar.v): cut them off
            text = open(os.path.join(d, 'mod.rs')).read()
            m = Mod.__new__(Mod)
            m.path = comps
            m.file = os.path.join(d, 'mod.rs')
            m.coq = 'fjc_thermodynamics'
            pr = Parser(tokenize(text[:text.index('fn treloar_sums')]))
            pr.struct_names = {'FJC'}
            m.items = pr.items()
            m.fns = {n: dict(name=n, body=('block', [], ('num', '0')), params=[]) for n in HAND}
            m.uses = {}
            m.struct = next(it for it in m.items if it[0] == 'struct')
            m.impl = next(it for it in m.items if it[0] == 'impl')
            mods[p] = m
            continue
        mods[p] = Mod(comps)
    return mods


def compute_flags(mods):
    flags = {}
    for m in mods.values():
        for n in m.fns:
            flags[(m.coq, n)] = dict(monadic=n in HAND, prof=n in HAND)
    changed = True
    while changed:
        changed = False
        for m in mods.values():
            for n, f in m.fns.items():
                if n in HAND:
                    continue
                locs = set(re.findall(r"\('let', '(\w+)', \('closure'", repr(f['body'])))
                for c in calls(f['body'], []):
                    if c in locs:
                        continue
                    if c == 'panic!':
                        g = dict(monadic=True, prof=False)
                    else:
                        r = resolve(mods, m, c)
                        g = r if isinstance(r, dict) else flags[(r[0].coq, r[1])]
                    for k in ('monadic', 'prof'):
                        if g[k] and not flags[(m.coq, n)][k]:
                            flags[(m.coq, n)][k] = True
                            changed = True
    return flags


if __name__ == '__main__':
    ALL = load()
    FLAGS = compute_flags(ALL)
    groups = [
        ('ideal', 'MIdeal.v', 'Ideal chain model.', ''),
        ('fjc', 'MFjc.v', 'Freely jointed chain model.', ' MTreloar'),
        ('swfjc', 'MSwfjc.v', 'Square-well freely jointed chain model.', ''),
        ('efjc', 'MEfjc.v', 'Extensible freely jointed chain model.', ''),
        ('ufjc/morse', 'MMorse.v', 'Morse-FJC model.', ''),
        ('ufjc/lennard_jones', 'MLennardJones.v', 'Lennard-Jones-FJC model.', ''),
        ('ufjc/log_squared', 'MLogSquared.v', 'Log-squared-FJC model.', ''),
        ('wlc', 'MWlc.v', 'Worm-like chain model.', ''),
    ]
    for prefix, outname, header, imp in groups:
        files = sorted(p for p in ALL if p == prefix or p.startswith(prefix + '/'))
        gen(files, outname, header, extra_imports=imp)
        print(outname, len(files))
