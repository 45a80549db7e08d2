#!/usr/bin/env python3
"""Transcribes the Julia interface of the single-chain models and states what it must return.

  MJulia.v       the exported symbols with their C types (from ex.rs); one module jl_* of
                 functions and one record J_* per mod.jl
  PJulia.v       a lemma for each Julia function
  PropsJulia.v   every Julia function broadcasts the Rust function of the same path; every
                 function stored in a Julia object broadcasts the method of the same name of
                 the Rust object; arguments are matched by PARAMETER NAME
"""
import os
import re
import sys
import io
import contextlib
with contextlib.redirect_stdout(io.StringIO()):
    import gen_bindings as gb
from gen_bindings import ALL, MODEL, CHAINS, IMPORTS, OUT, ROOT, fill, line_of, externs, rel

CT = {'u8': 'UInt8', 'f64': 'Float64'}
CQ = {'UInt8': 'Z', 'Float64': 'T'}


# ------------------------------------------------------------------ Julia expressions
def tok(s):
    out = []
    for g in re.finditer(r'\s+|(->|::|[(),*/+\-^=])|(\d+\.?\d*(?:e-?\d+)?)|([A-Za-z_][\w.]*)|(:[a-z]\w*)|(.)', s):
        if g.group(5):
            raise SyntaxError(s[g.start():g.start() + 40])
        t = g.group(1) or g.group(2) or g.group(3) or g.group(4)
        if t:
            out.append(t)
    return out


class JP:
    def __init__(self, s):
        self.t = tok(s)
        self.i = 0

    def peek(self, k=0):
        return self.t[self.i + k] if self.i + k < len(self.t) else None

    def next(self):
        self.i += 1
        return self.t[self.i - 1]

    def eat(self, x):
        assert self.next() == x, (x, self.t[self.i - 3:self.i + 3])

    def args(self):
        """Comma separated expressions up to the closing parenthesis."""
        self.eat('(')
        out = []
        while self.peek() != ')':
            out.append(self.expr())
            if self.peek() == ',':
                self.next()
        self.eat(')')
        return out

    def expr(self):
        # lambdas
        if self.peek(1) == '->':
            p = self.next()
            self.next()
            return ('lam', [p], self.expr())
        if self.peek() == '(':
            j, d = self.i, 0
            while True:
                d += {'(': 1, ')': -1}.get(self.t[j], 0)
                j += 1
                if d == 0:
                    break
            if j < len(self.t) and self.t[j] == '->':
                ps = [x for x in self.t[self.i + 1:j - 1] if x != ',']
                self.i = j + 1
                return ('lam', ps, self.expr())
        e = self.term()
        while self.peek() in ('+', '-'):
            o = self.next()
            e = ('op', o, e, self.term())
        return e

    def term(self):
        e = self.power()
        while self.peek() in ('*', '/'):
            o = self.next()
            e = ('op', o, e, self.power())
        return e

    def power(self):
        e = self.atom()
        if self.peek() == '^':
            self.next()
            e = ('op', '^', e, self.atom())
        return e

    def atom(self):
        t = self.peek()
        if t == '(':
            es = self.args()
            return es[0] if len(es) == 1 and self.t[self.i - 2] != ',' else ('tuple', es)
        self.next()
        if re.match(r'[\d]', t):
            return ('lit', t)
        if self.peek() == '(':
            return ('call', t, self.args())
        return ('id', t)


# ------------------------------------------------------------------ reading a mod.jl
def snake(s):
    return re.sub(r'(?<!^)([A-Z])', r'_\1', s).lower()


class JMod:
    def __init__(self, m):
        self.m = m
        path = os.path.join(ROOT, *m.path, 'mod.jl')
        # docstrings are blanked out, keeping the lines
        text = re.sub(r'""".*?"""', lambda g: '\n' * g.group().count('\n'), open(path).read(), flags=re.S)
        self.text = text
        self.funs, self.struct, self.ctor = [], None, None
        n = 0
        for g in re.finditer(r'^function (\w+)\((.*?)\)(::Union\{Float64,Vector,Matrix,Array\})?\n(.*?)^end$', text, re.S | re.M):
            n += 1
            name, ps, ret, body = g.groups()
            params = []
            for p in re.split(r',\s*(?![^{]*\})', ps.strip().rstrip(',')):
                if p.strip():
                    a, b = p.strip().split('::')
                    params.append((a, re.sub(r'Union\{(\w+),Vector,Matrix,Array\}', r'\1', b), '{' in b))
            l0, l1 = line_of(text, g.start()), line_of(text, g.end())
            if ret:
                e = JP(body.replace('return', '', 1)).expr()
                assert e[0] == 'call' and e[1] == 'broadcast' and e[2][0][0] == 'lam', (path, name)
                lam, outer = e[2][0], e[2][1:]
                call = lam[2]
                assert call[0] == 'call' and call[1] == 'ccall'
                a = call[2]
                sym = a[0][1][0][1].lstrip(':')
                assert a[0][1][1] == ('id', 'Polymers_jll.libpolymers') and a[1] == ('id', 'Float64')
                tys = [x[1] for x in (a[2][1] if a[2][0] == 'tuple' else [a[2]])]
                inner = [x[1] for x in a[3:]]
                outer = [x[1] for x in outer]
                self.funs.append((name, params, sym, tys, lam[1], inner, outer, l0, l1))
            else:
                assert self.ctor is None and not any(arr for _, _, arr in params), (path, name)
                pre, retn = body.split('    return ', 1)
                lets = []
                pre = pre.replace('BOLTZMANN_CONSTANT::Float64 = 8.314462618\n', '')
                for h in re.finditer(r'^    (\w+) =(.*?)(?=^    \w+ =|\Z)', pre, re.S | re.M):
                    lets.append((h.group(1), JP(h.group(2)).expr()))
                assert bool(pre.strip()) == bool(lets)
                e = JP(retn).expr()
                assert e[0] == 'call' and e[1] == name
                self.ctor = (name, [(x, y) for x, y, _ in params], lets, e[2], l0, l1)
        assert n == len(re.findall(r'(?m)^\s*function ', text)), path
        assert len(self.funs) == text.count('ccall('), path
        g = re.search(r'^struct (\w+)\n(.*?)^end$', text, re.S | re.M)
        if g:
            self.struct = ([tuple(x.strip().split('::')) for x in g.group(2).split('\n') if x.strip()],
                           line_of(text, g.start()), line_of(text, g.end()))
        assert bool(self.struct) == bool(self.ctor), path


def dec(t):
    g = re.fullmatch(r'(\d+)\.(\d+)', t)
    if g:
        d = g.group(2).rstrip('0')
        return '(sdec %s %d)' % (int(g.group(1) + d), len(d))
    assert t.isdigit()
    return t


CONSTS = {'BOLTZMANN_CONSTANT': 'jl_BOLTZMANN_CONSTANT', 'ZERO': 'jl_ZERO', 'ONE': 'jl_ONE'}


def arith(e, env, top=True):
    """A scalar expression; env gives the kind of each variable."""
    if e[0] == 'lit':
        return dec(e[1])
    if e[0] == 'id':
        if e[1] in CONSTS:
            return CONSTS[e[1]]
        assert env[e[1]] in ('T', 'Z'), e
        return e[1] if env[e[1]] == 'T' else 'sofZ %s' % e[1]
    assert e[0] == 'op', e
    if e[1] == '^':
        return 'spowi %s %s' % (arith(e[2], env), e[3][1])
    a, b = arith(e[2], env), arith(e[3], env)
    if e[2][0] == 'op' and e[2][1] in '+-' and e[1] in '*/':
        a = '(%s)' % a
    if e[3][0] == 'op' and e[3][1] != '^':
        b = '(%s)' % b
    return '%s %s %s' % (a, e[1], b)


def args_of(c, es, env):
    assert len(es) == len(c['params'])
    return ' '.join(arg(e, env, arr) for e, (_, _, arr) in zip(es, c['params']))


def arg(e, env, arr=True):
    """An argument of a Julia function: numbers become arrays without dimensions."""
    if not arr:
        return e[1] if e[0] == 'id' and e[1] not in CONSTS else '(%s)' % arith(e, env)
    if e[0] == 'id' and e[1] not in CONSTS:
        return e[1] if env[e[1]] == 'J' else '(num %s)' % e[1]
    return '(num (%s))' % arith(e, env)


def ids_in_arith(e, inop=False):
    if e[0] == 'id':
        return {e[1]} if inop else set()
    if e[0] == 'op':
        return ids_in_arith(e[2], True) | ids_in_arith(e[3], True)
    if e[0] == 'call':
        return set().union(*[ids_in_arith(a) for a in e[2]])
    return set()


# ------------------------------------------------------------------ model
def jmods():
    out = {}
    for key in sorted(ALL, key=lambda k: (-len(ALL[k].path), k)):
        m = ALL[key]
        if os.path.exists(os.path.join(ROOT, *m.path, 'mod.jl')):
            out[m.coq] = JMod(m)
    return out


def gen_model(jm):
    out = ['''(** The Julia interface of the single-chain models: the functions and constructors of the
    mod.jl files.  [jarray], [broadcast] and [ccall] are in MJuliaBase.v.

    In a constructor, an argument that takes part in arithmetic outside of a broadcast (the
    temperature, in [link_stiffness * link_length^2 / BOLTZMANN_CONSTANT / temperature]) is
    a number; the other arguments are numbers or arrays.
    Generated by tools/gen_julia.py from the files cited at each definition. *)
From Coq Require Import ZArith List Bool.
From Verif Require Import Scalar MMath MConst %s MBindConstitutive MExtern MJuliaBase.
Import ListNotations.
Local Open Scope scalar_scope.

(** The exported symbols with the types of their parameters. *)
Module lib.
Section Model.
Context {T : Type} {Sc : Scalar T}.
''' % IMPORTS]
    S = {}
    for m, name, params, body, l0, l1 in externs():
        pre = sorted((x for x in ALL.values() if name.startswith('physics_single_chain_' + '_'.join(x.path) + '_')),
                     key=lambda x: -len(x.path))[0]
        fn = name[len('physics_single_chain_' + '_'.join(pre.path) + '_'):]
        free = MODEL[pre.coq]['defs'][fn]
        prof = free[0][0] == 'prof'
        mon = gb.FLAGS[(pre.coq, fn)]['monadic']
        S[name] = dict(params=params, prof=prof, mon=mon, mod=pre.coq, fn=fn, free=free)
        app = 'extern.%s %s%s' % (name, 'prof ' if prof else '', ' '.join(p for p, _ in params))
        out.append('(* %s:%d-%d *)' % (rel(m, 'ex.rs'), l0, l1))
        out.append('Definition %s%s : symbol T :=\n  {| sig := [%s];\n     body := fun %s =>\n       %s |}.\n' % (
            name, ' (prof : profile)' if prof else '', '; '.join(CT[t] for _, t in params),
            ' '.join(p for p, _ in params), app if mon else 'Some (%s)' % app))
    out += ['End Model.', 'End lib.', '']
    info = {}
    for coq, j in jm.items():
        m = j.m
        f = rel(m, 'mod.jl')
        fi = {}
        if j.funs:
            out += ['(** %s *)' % f, 'Module jl_%s.' % coq, 'Section Model.', 'Context {T : Type} {Sc : Scalar T}.', '']
            for name, params, sym, tys, lam, inner, outer, l0, l1 in j.funs:
                s = S[sym]
                sig = (' (prof : profile)' if s['prof'] else '') + ''.join(' (%s : %s%s)' % (p, 'jarray ' if arr else '', CQ[t]) for p, t, arr in params)
                kinds = {p: t for p, t, _ in params}
                arrs = {p: arr for p, _, arr in params}
                out.append('(* %s:%d-%d *)' % (f, l0, l1))
                out.append(fill('Definition %s%s : result T :=' % (name, sig), '    '))
                out.append(fill('broadcast [%s] (fun %s => ccall %s [%s] %s) %s.' % (
                    '; '.join(kinds[o] for o in outer), ' '.join(lam),
                    '(lib.%s prof)' % sym if s['prof'] else 'lib.' + sym,
                    '; '.join(tys), ' '.join(inner), ' '.join(o if arrs[o] else '(num %s)' % o for o in outer)), '      ', first='  ') + '\n')
                fi[name] = dict(params=params, sym=sym, prof=s['prof'], tys=tys)
            out += ['End Model.', 'End jl_%s.' % coq, '']
        info[coq] = dict(funs=fi, ctor=None)
        if not j.ctor:
            continue
        cname, cparams, lets, cargs, l0, l1 = j.ctor
        fields, s0, s1 = j.struct
        assert len(fields) == len(cargs), (f, len(fields), len(cargs))
        env = {p: CQ[t] for p, t in cparams}
        prof = mon = False
        body = []
        integrand = None
        for v, e in lets:
            if e[0] == 'call' and e[1] == 'integrate':
                lam, lo, hi, pts = e[2]
                assert pts == ('id', 'POINTS') and lam[0] == 'lam' and lam[2][0] == 'call'
                c = fi[lam[2][1]]
                env2 = dict(env)
                env2[lam[1][0]] = 'T'
                if c['prof']:
                    prof = True
                body.append('bind_outcome (integrate (fun %s => jl_%s.%s %s%s)\n    (%s) (%s) jl_POINTS) (fun %s =>' % (
                    lam[1][0], coq, lam[2][1], 'prof ' if c['prof'] else '', args_of(c, lam[2][2], env2),
                    arith(lo, env), arith(hi, env), v))
                mon = True
                integrand = (lam[1][0], lam[2][1], {p: arg(a, env2, False) for (p, _, _), a in zip(c['params'], lam[2][2])})
            else:
                body.append('let %s := %s in' % (v, arith(e, env)))
            env[v] = 'T'
        rec, rtypes, closures, subs, target = [], [], {}, {}, {}
        for (fname, fty), a in zip(fields, cargs):
            if fty in CQ:
                rec.append('%s := %s' % (fname, arith(a, env) if a[0] != 'id' else a[1]))
                rtypes.append('%s : %s' % (fname, CQ[fty]))
                assert a[0] != 'id' or env[a[1]] == CQ[fty]
            elif fty == 'Any':
                assert a[0] == 'call', a
                sub, cn = a[1].split('.')
                tgt = ALL['/'.join(m.path + [snake(sub)])].coq
                assert jm[tgt].ctor[0] == cn
                si = info[tgt]['ctor']
                prof |= si['prof']
                call = 'J_%s.init %s%s' % (tgt, 'prof ' if si['prof'] else '', ' '.join(x[1] for x in a[2]))
                if si['mon']:
                    mon = True
                    body.append('bind_outcome (%s) (fun %s_ =>' % (call, fname))
                    rec.append('%s := %s_' % (fname, fname))
                else:
                    rec.append('%s := %s' % (fname, call))
                rtypes.append('%s : J_%s.t T' % (fname, tgt))
                subs[fname] = (tgt, call, si)
            else:
                assert fty == 'Function' and a[0] == 'lam' and a[2][0] == 'call', (f, fname, a)
                env2 = dict(env)
                scal = ids_in_arith(a[2])
                for p in a[1]:
                    env2[p] = 'T' if p in scal else 'J'
                c = fi[a[2][1]]
                prof |= c['prof']
                rec.append('%s := fun %s => jl_%s.%s %s%s' % (fname, ' '.join(a[1]), coq, a[2][1],
                           'prof ' if c['prof'] else '', args_of(c, a[2][2], env2)))
                rtypes.append('%s : %sresult T' % (fname, ''.join('%s -> ' % ('T' if env2[p] == 'T' else 'jarray T') for p in a[1])))
                target[fname] = a[2][1]
                closures[fname] = [(p, env2[p]) for p in a[1]]
        out += ['(** %s: struct %s *)' % (f, cname), 'Module J_%s.' % coq, '(* %s:%d-%d *)' % (f, s0, s1),
                'Record t {T : Type} := {\n  %s }.' % ';\n  '.join(rtypes), 'Arguments t : clear implicits.',
                'Section Model.', 'Context {T : Type} {Sc : Scalar T}.', '', '(* %s:%d-%d *)' % (f, l0, l1)]
        out.append(fill('Definition init%s%s : %s :=' % (' (prof : profile)' if prof else '',
                   ''.join(' (%s : %s)' % (p, CQ[t]) for p, t in cparams), 'c_outcome (t T)' if mon else 't T'), '    '))
        r = '{| %s |}' % ';\n     '.join(fill(x, '       ') for x in rec)
        if mon:
            r = 'Finished (Some\n  %s)' % r
        depth = sum(b.startswith('bind_outcome') for b in body)
        out.append('  ' + '\n  '.join(body + [r]) + ')' * depth + '.\n')
        out += ['End Model.', 'End J_%s.' % coq, '']
        info[coq]['ctor'] = dict(params=[(p, CQ[t]) for p, t in cparams], prof=prof, mon=mon, closures=closures, target=target, subs=subs,
                                 fields=[(n, CQ[t]) for n, t in fields if t in CQ],
                                 integrand=integrand)
    open(os.path.join(OUT, 'MJulia.v'), 'w').write('\n'.join(out))
    return S, info


def conj(xs):
    return xs[0] if len(xs) == 1 else 'conj (%s)\n    (%s)' % (xs[0], conj(xs[1:]))


def script(tac):
    return '\n'.join('  split; [%s|].' % t for t in tac[:-1]) + '\n  %s.' % tac[-1]


def gen_props(S, info):
    out = ['''(** C61: the Julia interface.  Every Julia function, applied to numbers and arrays that
    Julia can broadcast, gives at each entry what the Rust function with the same path
    returns for the arguments that meet there.  Every function stored in a Julia object
    does the same with the method of the same name of the Rust object built with the same
    parameters, and the numbers and objects stored there are those of the Rust object.

    Written by tools/gen_julia.py, which finds the Rust function from the path of the Julia
    module and matches arguments by parameter name.  The theorems range over every scalar
    type and both build profiles, except those on objects that store a normalization, which
    Julia and Rust sum from different ends: these are over the reals.  [broadcast] is
    described by C61_broadcast at the end.  *)
Require Import Verif.Scalar Verif.MConst Verif.MMath Verif.MBindConstitutive Verif.MExtern Verif.MJuliaBase Verif.PJuliaBase.
Require Import %s Verif.MJulia Verif.PJulia Verif.SpecJulia Verif.PJuliaExamples.
Require Import ZArith Reals List.
Import ListNotations.
Local Open Scope scalar_scope.
''' % ' '.join('Verif.M%s' % f for f, _ in CHAINS)]
    names, nf, bad, oc = [], 0, [], 0
    lem = ['''(** What each Julia function returns.  Written by tools/gen_julia.py. *)
Require Import Verif.Scalar Verif.MConst Verif.MMath Verif.MBindConstitutive Verif.MExtern Verif.MJuliaBase.
Require Import %s Verif.MJulia.
Require Import ZArith List.
Import ListNotations.
''' % ' '.join('Verif.M%s' % f for f, _ in CHAINS)]
    for coq, i in info.items():
        cs, ls = [], []
        for name, d in i['funs'].items():
            free = MODEL[coq]['defs'][name]
            used = [p for p, _ in free if p != 'prof']
            # two functions call a parameter nondimensional_link_stiffness_i
            d['params'] = [(re.sub('_i$', '', p), t, arr) for p, t, arr in d['params']]
            pn = [p for p, _, _ in d['params']]
            # mod.jl of the isotensional WLC calls the force of the Gibbs free energies an extension
            if coq == 'wlc_isotensional' and 'gibbs' in name:
                ren = {'end_to_end_length': 'force', 'nondimensional_end_to_end_length_per_link': 'nondimensional_force'}
                d['params'] = [(ren.get(p, p), t, arr) for p, t, arr in d['params']]
                pn = [p for p, _, _ in d['params']]
            assert len(used) != len(pn) or sorted(used) == sorted(pn)
            if sorted(used) != sorted(pn):
                bad.append((coq, name))
                continue
            s = S[d['sym']]
            mon, prof = gb.FLAGS[(coq, name)]['monadic'], free[0][0] == 'prof'
            assert prof == d['prof']
            b = ('(prof : profile) ' if prof else '') + ' '.join('(%s : %s%s)' % (p, 'jarray ' if arr else '', CQ[t]) for p, t, arr in d['params'])
            r = '%s.%s %s' % (coq, name, ' '.join(p for p, _ in free))
            cs.append('(forall %s,\n     jl_%s.%s %s%s\n     = broadcast [%s] (fun %s =>\n         Finished (%s)) %s)' % (
                b, coq, name, 'prof ' if prof else '', ' '.join(pn), '; '.join(t for _, t, arr in d['params'] if arr), ' '.join(p for p, _, arr in d['params'] if arr),
                r if mon else 'Some (%s)' % r, ' '.join(p for p, _, arr in d['params'] if arr)))
            nf += 1
            ls.append('F_%s_%s' % (coq, name))
            lem.append('Lemma %s : forall (T : Type) (Sc : Scalar T) %s.\nProof. reflexivity. Qed.\n' % (ls[-1], cs[-1][len('(forall '):-1]))
        if cs:
            nm = 'C61_functions_' + coq
            names.append(nm)
            out.append('Theorem %s : forall (T : Type) (Sc : Scalar T),\n  %s.\nProof.\n  exact (fun T Sc => %s).\nQed.\nPrint Assumptions %s.\n' % (
                nm, '\n  /\\ '.join(cs), conj(['@%s T Sc' % x for x in ls]), nm))
        c = i['ctor']
        if not c or coq in ('wlc_isometric', 'wlc_thermodynamics', 'wlc'):
            continue
        ps = c['params']
        O = MODEL['O_' + coq]
        oi = O['defs']['init']
        assert sorted(p for p, _ in oi) == sorted(p for p, _ in ps), (coq, oi, ps)
        cs, tac = [], []
        ty = 'R' if c['mon'] else 'T'
        ofields = dict(O['fields'])
        for n, t in c['fields']:
            assert n in ofields, (coq, n)
            cs.append('J_%s.%s j = O_%s.%s r' % (coq, n, coq, n))
            tac.append('reflexivity')
        for n, (tgt, call, si) in c['subs'].items():
            tac.append('exact H' if si['mon'] else 'reflexivity')
            cs.append('%s = Finished (Some (J_%s.%s j))' % (call, coq, n) if si['mon'] else 'J_%s.%s j = %s' % (coq, n, call))
        for n, cps in c['closures'].items():
            on = O['defs'][n]
            assert sorted(q for q, _ in on if q not in ('self', 'prof')) == sorted(q for q, _ in cps), (coq, n, on, cps)
            if ('O_' + coq, n) == gb.INLINED:
                continue
            mon = any(True for _ in ()) or OMON('O_' + coq, n)
            arrs = [p for p, k in cps if k == 'J']
            r = 'O_%s.%s %s' % (coq, n, ' '.join('r' if q == 'self' else q for q, _ in on))
            cs.append('(forall %s,\n     J_%s.%s j %s\n     = broadcast [%s] (fun %s =>\n         Finished (%s)) %s)' % (
                ' '.join('(%s : %s)' % (p, ty if k == 'T' else 'jarray ' + ty) for p, k in cps), coq, n,
                ' '.join(p for p, _ in cps), '; '.join('Float64' for _ in arrs), ' '.join(arrs),
                r if mon else 'Some (%s)' % r, ' '.join(arrs)))
            tac.append('intros; cbv [%sJ_%s.%s]; rewrite F_%s_%s; unfold O_%s.%s; broadcast_numbers' % (
                '' if c['mon'] else 'j J_%s.init ' % coq, coq, n, coq, c['target'][n], coq, n))
            oc += 1
        nm = 'C61_object_' + coq
        names.append(nm)
        pr = 'prof ' if c['prof'] else ''
        binders = ('(prof : profile) ' if c['prof'] else '') + ' '.join('(%s : %s)' % (p, 'R' if t == 'T' and c['mon'] else t) for p, t in ps)
        app = 'J_%s.init %s%s' % (coq, pr, ' '.join(p for p, _ in ps))
        ro = 'O_%s.init %s' % (coq, ' '.join(p for p, _ in oi))
        intros = pr + ' '.join(p for p, _ in ps)
        if not c['mon']:
            out.append('Theorem %s : forall (T : Type) (Sc : Scalar T) %s,\n  let j := %s in\n  let r := %s in\n  %s.\nProof. intros T Sc %s j r.\n%s\nQed.\nPrint Assumptions %s.\n' % (
                nm, binders, app, ro, '\n  /\\ '.join(cs), intros, script(tac), nm))
            continue
        pre = ''
        steps = ['unfold J_%s.init.' % coq]
        if c['integrand']:
            v, fn, args = c['integrand']
            steps.append('change jl_POINTS with (Z.to_nat POINTS).')
            steps.append('rewrite (integrate_pure _ (fun %s => %s.%s %s)); [|discriminate|reflexivity].' % (
                v, coq, fn, ' '.join(args[p] for p, _ in MODEL[coq]['defs'][fn])))
        for n, (tgt, call, si) in c['subs'].items():
            if si['mon']:
                pre = ('\n  destruct (C61_object_%s %s) as (sub & H & _).' % (tgt, call.split(' ', 1)[1]))
                steps.append('rewrite H.')
        out.append('Theorem %s : forall %s,\n  exists j, %s = Finished (Some j) /\\\n  let r := %s in\n  %s.\nProof.\n  intros %s.%s\n  eexists; split.\n  { %s\n    reflexivity. }\n  intros r.\n%s\nQed.\nPrint Assumptions %s.\n' % (
            nm, binders, app, ro, '\n  /\\ '.join(cs), intros, pre, '\n    '.join(steps),
            script(tac), nm))
    tail = os.path.join(os.path.dirname(os.path.abspath(__file__)), 'props_julia_tail.txt')
    if os.path.exists(tail):
        out.append(open(tail).read())
    open(os.path.join(OUT, 'PJulia.v'), 'w').write('\n'.join(lem))
    open(os.path.join(OUT, 'PropsJulia.v'), 'w').write('\n'.join(out))
    open('/tmp/c61names', 'w').write(' '.join(names))
    print('C61', len(names), 'theorems', nf, 'functions', oc, 'stored functions; bad:', bad,
          'monadic constructors:', [k for k, v in info.items() if v['ctor'] and v['ctor']['mon']])


OTYPES = {}
for f_, _ in CHAINS:
    s_ = open(os.path.join(OUT, 'M%s.v' % f_)).read()
    for g_ in re.finditer(r'^Module (O_\w+)\.\n(.*?)^End \1\.', s_, re.S | re.M):
        for d_ in re.finditer(r'^Definition (\w+)(.*?):=', g_.group(2), re.S | re.M):
            OTYPES[(g_.group(1), d_.group(1))] = 'option T' in ' '.join(d_.group(2).split())


def OMON(o, n):
    return OTYPES[(o, n)]


gen_props(*gen_model(jmods()))
