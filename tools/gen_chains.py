"""Generate SpecChains.v: the ensembles of SpecThermo.v instantiated with the
model's functions over the reals, argument by argument."""
import re, os
OUT = os.path.join(os.path.dirname(os.path.abspath(__file__)), '..', 'rocq', 'theories')
FILES = "Ideal Fjc Swfjc Efjc Morse LennardJones LogSquared Wlc".split()
mods = {}
order = []
for f in FILES:
    t = open(os.path.join(OUT, 'M%s.v' % f)).read()
    mod = None
    for m in re.finditer(r'^Module (\S+)\.|^Definition (\w+)((?:.|\n)*?):=$', t, re.M):
        if m.group(1):
            mod = m.group(1)
            if not mod.startswith('O_'):
                mods[mod] = {}
                order.append(mod)
        elif not mod.startswith('O_'):
            p = re.sub(r'\s+', ' ', m.group(3))
            mods[mod][m.group(2)] = (re.findall(r'\((\w+) : (\w+)\)', p), p.rsplit(':', 1)[1].strip())
ARG = {'number_of_links': 'N', 'link_length': 'l', 'hinge_mass': 'm', 'temperature': 'T', 'well_width': 'w',
       'link_stiffness': 'k', 'link_energy': 'e',
       'nondimensional_link_stiffness': '(kappa k l T)', 'nondimensional_link_energy': '(epsilon e T)',
       'persistance_length': 'p', 'nondimensional_persistance_length': '(zeta p N l)',
       'force': 'x', 'nondimensional_force': 'x', 'end_to_end_length': 'x',
       'nondimensional_end_to_end_length_per_link': 'x'}
N = 'nondimensional_'
ISO = [('I_length', 'end_to_end_length'), ('I_length_per_link', 'end_to_end_length_per_link'),
       ('I_nd_length', N + 'end_to_end_length'), ('I_nd_length_per_link', N + 'end_to_end_length_per_link')]
EN = ['%s', '%s_per_link', 'rel_%s', 'rel_%s_per_link', 'nd_%s', 'nd_%s_per_link', 'nd_rel_%s', 'nd_rel_%s_per_link']


def energies(prefix, kind):
    out = []
    for e in EN:
        field = prefix + e % kind
        fn = (e % kind).replace(kind, kind + '_free_energy').replace('rel_', 'relative_').replace('nd_', N)
        out.append((field, fn))
    return out


ISO += energies('I_', 'gibbs')
IH = energies('IH_', 'helmholtz')
ISM = [('S_force', 'force'), ('S_nd_force', N + 'force')] + energies('S_', 'helmholtz')
SG = energies('SG_', 'gibbs')


def emit(mod, name, ty, table):
    fns = mods[mod]
    params = []
    for _, fn in table:
        for a, _ in fns[fn][0]:
            v = ARG[a]
            for x in re.findall(r'\b(N|l|m|T|w|k|e|p)\b', v):
                if x not in params:
                    params.append(x)
    params = [p for p in ['N', 'l', 'm', 'T', 'w', 'k', 'e', 'p'] if p in params]
    sig = ' '.join('(N : Z)' if p == 'N' else '(%s : R)' % p for p in params)
    rows = ['  %s := fun x => %s.%s %s' % (fld, mod, fn, ' '.join(ARG[a] for a, _ in fns[fn][0])) for fld, fn in table]
    return 'Definition %s %s : %s := {|\n%s |}.\n' % (name, sig, ty, ';\n'.join(rows))


out = ['''(** The ensembles of the chain models: each record lists, field by field, the model
    function (over the reals) a user calls.  Generated by tools/gen_chains.py.

    [N] number of links, [l] link length, [m] hinge mass, [T] temperature,
    [w] well width, [k] link stiffness, [e] link energy, [p] persistence length. *)
From Coq Require Import Reals ZArith.
From Verif Require Import Scalar MConst %s SpecThermo.
Open Scope R_scope.

(** Nondimensional link stiffness k l^2/(kB T) and link energy e/(kB T). *)
Definition kappa (k l T : R) : R := k * l ^ 2 / (kB * T).
Definition epsilon (e T : R) : R := e / (kB * T).

(** Nondimensional persistence length p/(N l). *)
Definition zeta (p : R) (N : Z) (l : R) : R := p / (IZR N * l).
''' % ' '.join('M' + f for f in FILES)]
listing = []
for mod in order:
    fns = mods[mod]
    opt = any(r.startswith('option') for _, r in fns.values())
    def pure(tab):
        return all(fn in fns and not fns[fn][1].startswith('option') for _, fn in tab)
    if 'modified_canonical' in mod:
        continue
    try:
        if pure(ISO):
            out.append(emit(mod, 'C_' + mod, 'isotensional', ISO)); listing.append(mod)
        if 'isotensional' in mod and 'legendre' in mod and pure(IH):
            out.append(emit(mod, 'C_' + mod, 'isotensional_helmholtz', IH)); listing.append(mod)
        if 'isometric' in mod and pure(ISM):
            out.append(emit(mod, 'C_' + mod, 'isometric', ISM)); listing.append(mod)
        if 'isometric' in mod and 'legendre' in mod and pure(SG):
            out.append(emit(mod, 'CG_' + mod, 'isometric_gibbs', SG)); listing.append('G ' + mod)
    except KeyError as ex:
        print('skip', mod, ex)
open(os.path.join(OUT, 'SpecChains.v'), 'w').write('\n'.join(out))
print('\n'.join(listing))
