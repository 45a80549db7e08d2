#!/usr/bin/env python3
"""Write PIdent*.v (lemmas) and PropsIdentities.v (theorems) about the chain
records of SpecChains.v: C11, C12, C13, C14."""
import re
TH = '/verif/rocq/theories/'
src = open(TH + 'SpecChains.v').read()
defs = re.findall(r'Definition (CG_\w+|C_\w+) ((?:\([^)]*\) )*): (\w+)', src)
names = [d[0] for d in defs]
FAM = [('Ideal', 'ideal'), ('Fjc', 'fjc'), ('Swfjc', 'swfjc'), ('Efjc', 'efjc'), ('Morse', 'morse'),
       ('LennardJones', 'lennard_jones'), ('LogSquared', 'log_squared'), ('Wlc', 'wlc')]
HEAD = '''From Coq Require Import Reals ZArith Lra Lia.
From Coquelicot Require Import Coquelicot.
From Verif Require Import Scalar MMath MConst SpecThermo SpecChains%s.
Open Scope R_scope.

'''
NOREF = ('ideal', 'fjc')

def split(ps):
    return [x for g in re.findall(r'\(([^:]*):', ps) for x in g.split()]

def fam(n):
    return re.sub(r'^CG?_', '', n)

def base(n, t):
    if t == 'isotensional_helmholtz':
        return n[:-len('_legendre')]
    b = n.replace('CG_', 'C_')
    return b if b in names else b[:-len('_legendre')]

def lemma_name(n, pred):
    return re.sub(r'^C_', '', n).replace('CG_', '') + '_' + pred

lemmas = {}   # (family, pred) -> [(lemma, statement body)]
for F, f in FAM:
    out = '(** Algebraic identities of the %s chain functions (generated by tools/gen_identities.py). *)\n' % f
    out += HEAD % ' PBase PLift'
    params = None
    for n, ps, t in defs:
        if not (fam(n) == f or fam(n).startswith(f + '_')):
            continue
        if f == 'fjc' and not fam(n).startswith('fjc'):
            continue
        args = split(ps)
        a = ' '.join(args)
        hyp = '(0 < N)%Z -> 0 < l -> 0 < T -> ' + ''.join('0 < %s -> ' % x for x in 'wkep' if x in args)
        q = 'forall %s,\n  %s' % (a, hyp)
        params = q
        def add(pred, stmt, proof):
            global out
            nm = lemma_name(n, pred)
            out += 'Lemma %s : %s\n  %s.\nProof. %s Qed.\n\n' % (nm, q, stmt, proof)
            lemmas.setdefault((f, pred), []).append((nm, stmt, q))
        isot = t.startswith('isotens')
        std = 'intros N l m T; intros; identities N l T.'
        if t != 'isometric_gibbs':
            dim = std
            if n == 'C_efjc_isotensional_asymptotic_reduced':
                dim = 'intros N l m T; intros; identities_total N l T.'
            add('dimensionless', '%s_dimensionless %s (%s %s)' % (t, 'l T' if isot else '(IZR N) l T', n, a), dim)
            add('extensive', '%s_extensive (IZR N) (%s %s)' % (t, n, a), std)
            add('relative', '%s_relative (%s %s)' % (t, n, a), std)
            if f not in NOREF:
                add('reference', '%s_reference %s (%s %s)' % (t, 'l T' if isot else '(IZR N) l', n, a), std)
        if t == 'isotensional_helmholtz':
            b = base(n, t)
            bl = b[2:]
            add('legendre', 'isotensional_legendre (%s %s) (%s %s)' % (b, a, n, a),
                'intros N l m T; intros. apply (lift_legendre (IZR N) l T); auto using %s; %sidentities N l T.' %
                (', '.join([bl + '_' + p for p in ('dimensionless', 'extensive', 'relative')] +
                          [n[2:] + '_' + p for p in ('dimensionless', 'extensive', 'relative')]),
                 'efjc_' if n == 'C_efjc_isotensional_asymptotic_legendre' else ''))
        if t == 'isometric_gibbs':
            b = base(n, t)
            add('legendre', 'isometric_legendre (IZR N) (%s %s) (%s %s)' % (b, a, n, a), std)
    open(TH + 'PIdent%s.v' % F, 'w').write(out)

PROPS = [('dimensionless', 'C12', 'Dimensional functions are rescaled nondimensional ones.'),
         ('extensive', 'C13', 'Totals are the number of links times the per-link functions.'),
         ('relative', 'C14', 'Relative and absolute free energies have the same increments.'),
         ('reference', 'C14', 'Relative free energies vanish at the nondimensional reference value 1e-6.'),
         ('legendre', 'C11', 'The two free energies are Legendre transforms of one another.')]
out = '(** Theorems for C11, C12, C13 and C14 (generated by tools/gen_identities.py).  Each is a\n    conjunction over the chain records of SpecChains.v of one chain model. *)\n'
out += HEAD % (' ' + ' '.join('PIdent' + F for F, _ in FAM))
thms = {}
for pred, cid, doc in PROPS:
    out += '(** ** %s: %s *)\n\n' % (cid, doc)
    for F, f in FAM:
        ls = lemmas.get((f, pred), [])
        if not ls:
            continue
        nm = '%s_%s_%s' % (cid, f, pred)
        thms.setdefault(cid, []).append(nm)
        out += 'Theorem %s : %s\n  %s.\n' % (nm, ls[0][2], ' /\\\n  '.join(x[1] for x in ls))
        vs = re.match(r'forall ([^,]*),', ls[0][2]).group(1)
        hs = ' '.join('H%d' % i for i in range(ls[0][2].count('->')))
        term = '%s %s %s' % (ls[-1][0], vs, hs)
        for x in reversed(ls[:-1]):
            term = 'conj (%s %s %s)\n  (%s)' % (x[0], vs, hs, term)
        out += 'Proof.\n  intros %s %s. exact (%s).\nQed.\nPrint Assumptions %s.\n\n' % (vs, hs, term, nm)
        val = {'N': '8', 'l': '1', 'm': '1', 'T': '300', 'w': '(1 / 2)', 'k': '500', 'e': '50', 'p': '5'}
        inst = re.sub(r'(?<![\w.])([NlmTwkep])(?![\w.])', lambda q: val[q.group(1)], ' /\\\n  '.join(x[1] for x in ls))
        proofs = ['ltac:(lia)' if 'Z' in h else 'ltac:(lra)' for h in re.sub(r'^forall [^,]*,', '', ls[0][2]).split('->')[:-1]]
        out += 'Example %s_example :\n  %s.\nProof. exact (%s %s %s). Qed.\n\n' % (nm, inst, nm, ' '.join(val[v] for v in vs.split()), ' '.join(proofs))
open(TH + 'PropsIdentities.v', 'w').write(out)
for c, l in sorted(thms.items()):
    print(c, ' '.join(l))
