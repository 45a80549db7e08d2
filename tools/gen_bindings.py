#!/usr/bin/env python3
"""Transcribes the foreign interfaces of the single-chain models and states what they
must return.

  MExtern.v      one definition per `extern fn` of the ex.rs files (C ABI)
  MPython.v      one module per py.rs class: record, `init` and methods
  PropsExtern.v  every exported symbol returns what the Rust function whose path the
                 symbol spells returns; arguments are matched by PARAMETER NAME
  PropsPython.v  every Python method applied to an array applies the method of the
                 same name of the Rust object to each entry; arguments by name
"""
import os
import re
import translate as tr
from translate import Parser, tokenize, Tr, resolve, w, app, mk, fill, fill_body, cty, ROOT, OUT, HAND, MATH
from gen_objects_lib import parse, CHAINS, INLINED

ALL = tr.ALL = tr.load()
FLAGS = tr.FLAGS = tr.compute_flags(ALL)
MODEL = {}
for f, _ in CHAINS:
    MODEL.update(parse(os.path.join(OUT, 'M%s.v' % f)))
IMPORTS = ' '.join('M' + f for f, _ in CHAINS)


def rel(m, name):
    return os.path.join('/repo/src/physics/single_chain', *m.path, name)


def line_of(text, pos):
    return text.count('\n', 0, pos) + 1


class BTr(Tr):
    """Expressions of the bindings: `super::f` is a free function of the module."""
    in_obj = True
    uses = {}

    def callee(self, name):
        if name.endswith('::init'):
            return None
        if name.startswith('super::'):
            r = resolve(self.mods, self.m, name[len('super::'):])
        elif name in self.uses:
            r = MATH[self.uses[name][-1]]
        else:
            raise KeyError(name)
        if isinstance(r, dict):
            return r
        m, n = r
        f = self.flags[(m.coq, n)]
        return dict(mod=m.coq, name=n, monadic=f['monadic'], prof=f['prof'])

    def block_monadic(self, b):
        return any(self.callee(c) and self.callee(c)['monadic'] for c in tr.calls(b, []) if c not in self.env)

    def field_init(self, f, v):
        if v[0] == 'call' and v[1].endswith('::init'):
            comps = v[1].split('::')
            assert comps[0] == 'super' and comps[-3] == 'py', v
            tgt = self.mods['/'.join(self.m.path + comps[1:-3])]
            ts = []
            for a in v[2]:
                b, t = self.ex(a)
                assert not b
                ts.append(t)
            return app('P_%s.init' % tgt.coq, *ts)
        b, t = self.ex(v)
        assert not b
        return t


# ------------------------------------------------------------------- C ABI
def externs():
    out = []
    for key in sorted(ALL):
        m = ALL[key]
        path = os.path.join(ROOT, *m.path, 'ex.rs')
        if not os.path.exists(path):
            continue
        text = open(path).read()
        n = 0
        for g in re.finditer(r'pub extern fn (\w+)\((.*?)\) -> f64\s*\{\s*(.*?)\s*\n\}', text, re.S):
            n += 1
            params = [tuple(x.strip() for x in p.split(':')) for p in g.group(2).split(',')]
            body = Parser(tokenize(g.group(3))).expr()
            out.append((m, g.group(1), params, body, line_of(text, g.start()), line_of(text, g.end())))
        assert n == text.count('extern fn'), path
    return out


def gen_extern():
    out = ['''(** The C interface of the single-chain models: the `extern fn`s of the ex.rs files, each
    under its exported symbol.  The arguments of a call are taken as values of the declared
    types; how they travel in registers is not modelled.
    Generated by tools/gen_bindings.py from the files cited at each definition. *)
From Coq Require Import ZArith List Bool.
From Verif Require Import Scalar MMath MConst %s.
Local Open Scope scalar_scope.

Module extern.
Section Model.
Context {T : Type} {Sc : Scalar T}.
''' % IMPORTS]
    for m, name, params, body, l0, l1 in externs():
        t = BTr(ALL, m, FLAGS, {})
        for p, ty in params:
            t.env[p] = cty(ty)
        assert body[0] == 'call' and body[1].startswith('super::')
        c = t.callee(body[1])
        binds, text = t.ex(body)
        if binds:
            text = binds[0][2]
        sig = (' (prof : profile)' if c['prof'] else '') + ''.join(' (%s : %s)' % (p, cty(ty)) for p, ty in params)
        out.append('(* %s:%d-%d *)' % (rel(m, 'ex.rs'), l0, l1))
        out.append(fill('Definition %s%s : %s :=' % (name, sig, 'option T' if binds else 'T'), '    '))
        out.append(fill(str(text) + '.', '      ', first='  ') + '\n')
    out.append('End Model.\nEnd extern.')
    open(os.path.join(OUT, 'MExtern.v'), 'w').write('\n'.join(out) + '\n')


def gen_props_extern():
    out = ['''(** C59: the C interface.  The name of every exported symbol is the path of a Rust
    function with `::` replaced by `_`; calling the symbol returns what that function
    returns, whatever the arguments, in every build profile.

    Written by tools/gen_bindings.py, which finds the Rust function from the NAME of the
    symbol and matches its arguments by parameter name.  The theorems range over every
    scalar type, so they hold of binary64 arithmetic as well as of the reals.  *)
Require Import Verif.Scalar Verif.MConst Verif.MMath Verif.MExtern.
Require Import %s.
Require Import ZArith Reals.
''' % ' '.join('Verif.M%s' % f for f, _ in CHAINS)]
    # longest module path first, so that a symbol resolves to the deepest module
    prefixes = sorted((('physics_single_chain_' + '_'.join(m.path) + '_', m) for m in ALL.values()),
                      key=lambda x: -len(x[0]))
    groups, count = {}, 0
    for _, name, params, _, _, _ in externs():
        pre, m = next(x for x in prefixes if name.startswith(x[0]))
        fn = name[len(pre):]
        free = MODEL[m.coq]['defs'][fn]
        pn = [p for p, _ in params]
        prof = free[0][0] == 'prof'
        used = [p for p, _ in free if p != 'prof']
        assert sorted(used) == sorted(pn), (name, used, pn)
        binders = ('(prof : profile) ' if prof else '') + ' '.join('(%s : %s)' % (p, cty(t)) for p, t in params)
        lhs = 'extern.%s %s%s' % (name, 'prof ' if prof else '', ' '.join(pn))
        rhs = '%s.%s %s' % (m.coq, fn, ' '.join(p for p, _ in free))
        groups.setdefault(m.coq, []).append('(forall %s,\n     %s\n     = %s)' % (binders, lhs, rhs))
        count += 1
    names = []
    for g, cs in groups.items():
        nm = 'C59_' + g
        names.append(nm)
        out.append('Theorem %s : forall (T : Type) (Sc : Scalar T),\n  %s.\nProof. intros; repeat split. Qed.\nPrint Assumptions %s.\n'
                   % (nm, '\n  /\\ '.join(cs), nm))
    open(os.path.join(OUT, 'PropsExtern.v'), 'w').write('\n'.join(out))
    print('C59', len(names), 'theorems', count, 'symbols')
    open('/tmp/c59names', 'w').write(' '.join(names))


# ------------------------------------------------------------------ Python
def strip_doc(text):
    """Blank out comments, keeping the line structure."""
    return re.sub(r'//[^\n]*', '', text)


class PyMod:
    def __init__(self, m, path):
        self.m = m
        text = strip_doc(open(path).read())
        self.text = text
        cls = re.search(r'pub struct (\w+)\s*\{(.*?)\n\}', text, re.S)
        self.cls = cls.group(1)
        self.l0, self.l1 = line_of(text, cls.start()), line_of(text, cls.end())
        body = re.sub(r'#\[.*?\]', '', cls.group(2))
        self.fields = [tuple(x.strip() for x in re.sub(r'^\s*pub ', '', f.strip()).split(':', 1))
                       for f in body.split(',') if f.strip()]
        self.public = set(re.findall(r'#\[pyo3\(get\)\]\s*pub (\w+)', cls.group(2)))
        g = re.search(r'pub fn init\(.*?\n    \}', text, re.S)
        p = Parser(tokenize(g.group()))
        p.struct_names = {self.cls}
        p.accept('pub')
        self.init = p.fn()
        self.init_lines = (line_of(text, g.start()), line_of(text, g.end()))
        self.uses = {}
        head = text[:text.index('pub fn register_module')]
        for u in re.finditer(r'use (crate::math)::(\w+);', head):
            self.uses[u.group(2)] = ['crate', 'math', u.group(2)]
        self.methods = []
        rest = text[g.end():]
        for g2 in re.finditer(r"pub fn (\w+)<'py>\(&self, py: Python<'py>, (.*?)\) -> &'py PyArrayDyn<f64>\s*\{\s*(.*?)\s*\n    \}", rest, re.S):
            name, ps, b = g2.groups()
            params = [tuple(x.strip() for x in q.split(':')) for q in ps.split(',')]
            h = re.fullmatch(r'(\w+)\.as_array\(\)\.mapv\(\|(\w+): f64\| (.*)\)\.into_pyarray\(py\)', b, re.S)
            assert h, (path, name, b)
            arr = [q for q, t in params if t == 'PyReadonlyArrayDyn<f64>']
            assert arr == [h.group(1)], (path, name)
            pos = g.end() + g2.start()
            self.methods.append((name, params, h.group(1), h.group(2), Parser(tokenize(h.group(3))).expr(),
                                 line_of(text, pos), line_of(text, g.end() + g2.end())))
        assert len(self.methods) == rest.count('pub fn'), path


def pymods():
    out = {}
    for key in sorted(ALL, key=lambda k: (-len(ALL[k].path), k)):
        m = ALL[key]
        path = os.path.join(ROOT, *m.path, 'py.rs')
        if os.path.exists(path) and 'pub struct' in open(path).read():
            out[m.coq] = PyMod(m, path)
        elif m.struct:
            print('no Python class for', m.coq)
    return out


def gen_python(pm):
    out = ['''(** The Python interface of the single-chain models: the classes of the py.rs files.
    [ndarray] and its maps are in MArray.v.
    Generated by tools/gen_bindings.py from the files cited at each definition. *)
From Coq Require Import ZArith List Bool.
From Verif Require Import Scalar MArray MMath MConst %s.
Local Open Scope scalar_scope.
''' % IMPORTS]
    sigs = {}
    for coq, p in pm.items():
        m = p.m
        ftypes, fl = {}, []
        for f, ty in p.fields:
            if ty in ('f64', 'u8'):
                ftypes[f] = cty(ty)
                fl.append('%s : %s' % (f, cty(ty)))
            else:
                comps = ty.split('::')
                assert comps[0] == 'super' and comps[-2] == 'py', ty
                sub = ALL['/'.join(m.path + comps[1:-2])].coq
                ftypes[f] = sub
                fl.append('%s : P_%s.t T' % (f, sub))
        out += ['(** %s: class %s *)' % (rel(m, 'py.rs'), p.cls), 'Module P_%s.' % coq,
                '(* %s:%d-%d *)' % (rel(m, 'py.rs'), p.l0, p.l1),
                'Record t {T : Type} := { %s }.' % '; '.join(fl), 'Arguments t : clear implicits.',
                'Section Model.', 'Context {T : Type} {Sc : Scalar T}.', '']
        t = BTr(ALL, m, FLAGS, ftypes)
        t.uses = p.uses
        for q, ty in p.init['params']:
            t.env[q] = cty(ty)
        body = t.block(p.init['body'], False)
        out.append('(* %s:%d-%d *)' % ((rel(m, 'py.rs'),) + p.init_lines))
        out.append(fill('Definition init%s : t T :=' % ''.join(' (%s : %s)' % (q, cty(ty)) for q, ty in p.init['params']), '    '))
        out.append(fill_body(body) + '\n')
        ms = {}
        for name, params, arr, var, call, l0, l1 in p.methods:
            t = BTr(ALL, m, FLAGS, ftypes)
            t.uses = p.uses
            t.env['self'] = 'self'
            for q, ty in params:
                t.env[q] = 'T'
            t.env[var] = 'T'
            assert call[0] == 'call' and call[1].startswith('super::')
            c = t.callee(call[1])
            binds, text = t.ex(call)
            mon = bool(binds)
            if mon:
                assert len(binds) == 1
                text = binds[0][2]
            ps = (['prof'] if c['prof'] else []) + ['self'] + [q for q, _ in params]
            sig = (' (prof : profile)' if c['prof'] else '') + ' (self : t T)' + ''.join(
                ' (%s : %s)' % (q, 'ndarray T' if ty.startswith('Py') else 'T') for q, ty in params)
            out.append('(* %s:%d-%d *)' % (rel(m, 'py.rs'), l0, l1))
            out.append(fill('Definition %s%s : %s :=' % (name, sig, 'option (ndarray T)' if mon else 'ndarray T'), '    '))
            out.append(fill('%s (fun %s => %s) %s.' % ('mapv_panic' if mon else 'mapv', var, text, arr), '      ', first='  ') + '\n')
            ms[name] = (ps, params, arr, mon, c['prof'])
        out += ['End Model.', 'End P_%s.' % coq, '']
        sigs[coq] = (ftypes, ms, [(q, cty(ty)) for q, ty in p.init['params']], p.public)
    open(os.path.join(OUT, 'MPython.v'), 'w').write('\n'.join(out) + '\n')
    return sigs


def gen_props_python(sigs):
    out = ['''(** C58: the Python interface.  Every method of every object reachable from the
    constructor of a Python class, applied to an array of any shape, returns an array of
    that shape whose entries are the values of the method of the same name of the Rust
    object built with the same parameters; it fails exactly when the Rust method fails on
    some entry.  The attributes Python can read hold the values the Rust object holds.

    Written by tools/gen_bindings.py, which matches arguments by parameter name.  The
    theorems range over every scalar type and both build profiles.  [elementwise] and
    [elementwise_panic] are in SpecArray.v.  *)
Require Import Verif.Scalar Verif.MConst Verif.MMath Verif.MArray Verif.SpecArray Verif.PArray.
Require Import Verif.PObjects Verif.PPython.
Require Import %s Verif.MPython.
Require Import ZArith Reals.
Local Open Scope scalar_scope.
''' % ' '.join('Verif.M%s' % f for f, _ in CHAINS)]
    names, count = [], 0
    missing = []

    def walk(coq, ppath, rpath, binders):
        nonlocal count
        ftypes, ms, _, public = sigs[coq]
        O = MODEL['O_' + coq]
        concl = []
        for f, ty in ftypes.items():
            if f in public and ty in ('T', 'Z'):
                concl.append('P_%s.%s p = O_%s.%s r' % (coq, f, coq, f))
        for name in O['defs']:
            if name != 'init' and name not in ms:
                missing.append((coq, name))
        for name, (ps, params, arr, mon, prof) in ms.items():
            if ('O_' + coq, name) == INLINED:
                continue
            on = O['defs'][name]
            oargs = []
            for q, _ in on:
                if q == 'self':
                    oargs.append('r')
                elif q == arr:
                    oargs.append('x')
                else:
                    assert q == 'prof' or q in dict(params), (coq, name, q)
                    oargs.append(q)
            assert len([q for q, _ in on if q not in ('self', 'prof')]) == len(params), (coq, name)
            b = ('(prof : profile) ' if prof else '') + ' '.join(
                '(%s : %s)' % (q, 'ndarray T' if ty.startswith('Py') else 'T') for q, ty in params)
            lhs = 'P_%s.%s %s' % (coq, name, ' '.join('p' if q == 'self' else q for q in ps))
            concl.append('(forall %s,\n     %s (fun x => O_%s.%s %s) %s\n       (%s))'
                         % (b, 'elementwise_panic' if mon else 'elementwise', coq, name, ' '.join(oargs), arr, lhs))
            count += 1
        if concl:
            eqs = ''.join('  assert (P_%s.%s p = O_%s.%s r) by reflexivity.\n' % (coq, f, coq, f)
                          for f, ty in ftypes.items() if ty in ('T', 'Z'))
            unf = ''
            if ms:
                unf = fill('unfold %s.' % ', '.join(['P_%s.%s' % (coq, x) for x in ms] + ['O_%s.%s' % (coq, x) for x in ms]),
                           '    ', first='  ') + '\n'
            nm = 'C58_' + coq
            names.append(nm)
            out.append('Theorem %s : forall (T : Type) (Sc : Scalar T) %s,\n  let p := %s in\n  let r := %s in\n  %s.\nProof.\n  intros T Sc %s p r.\n%s  clearbody p r.\n%s  elementwise_tac.\nQed.\nPrint Assumptions %s.\n'
                       % (nm, binders, ppath, rpath, '\n  /\\ '.join(concl),
                          ' '.join(re.findall(r'\((\w+) :', binders)), eqs, unf, nm))
        for f, ty in ftypes.items():
            if ty not in ('T', 'Z'):
                walk(ty, 'P_%s.%s (%s)' % (coq, f, ppath), 'O_%s.%s (%s)' % (coq, f, rpath), binders)

    for _, root in CHAINS:
        pi = sigs[root][2]
        ri = MODEL['O_' + root]['defs']['init']
        assert sorted(q for q, _ in pi) == sorted(q for q, _ in ri)
        binders = ' '.join('(%s : %s)' % x for x in pi)
        walk(root, 'P_%s.init %s' % (root, ' '.join(q for q, _ in pi)),
             'O_%s.init %s' % (root, ' '.join(q for q, _ in ri)), binders)
    out.append(open(os.path.join(os.path.dirname(os.path.abspath(__file__)), 'props_python_tail.txt')).read())
    open(os.path.join(OUT, 'PropsPython.v'), 'w').write('\n'.join(out))
    print('C58', len(names), 'theorems', count, 'methods; Rust methods without Python counterpart:', missing)
    open('/tmp/c58names', 'w').write(' '.join(names))


gen_extern()
gen_props_extern()
gen_props_python(gen_python(pymods()))
