#!/usr/bin/env python3
"""Writes rocq/theories/PropsObjects.v: for every object reachable from the
`init` of a chain model, its public fields hold the values given to `init`, and
each of its methods returns what the free function of the same name returns.

Arguments of the free function are matched by PARAMETER NAME (not by the order
in which the method body passes them), so a method that swaps or mixes up its
arguments breaks the theorem."""
import os
from gen_objects_lib import ROOT, parse, CHAINS, INLINED

def derived(name, free):
    """Values the objects compute themselves, by the names the free functions use."""
    return {
      'nondimensional_link_stiffness':
        '(link_stiffness * spowi link_length 2 / BOLTZMANN_CONSTANT / temperature)',
      'nondimensional_link_energy':
        '(link_energy / BOLTZMANN_CONSTANT / temperature)',
      'nondimensional_persistance_length':
        '(persistance_length / sofZ number_of_links / link_length)',
    }.get(name)

def normalisation(free, ps):
    """The quadrature of the radial distribution with normalisation 1, from [ZERO] to
    [ONE] (for square wells to [ONE] times the contour length of a link at full stretch)."""
    upper = '(ONE * (sdec 1 0 + well_width / link_length))' if free.startswith('swfjc') else 'ONE'
    vals = []
    for p, _ in ps:
        if p.startswith('normalization'): vals.append('(sdec 1 0)')
        elif p == 'nondimensional_end_to_end_length_per_link': vals.append('gamma')
        else: vals.append(derived(p, free) or p)
    return ('(math.integrate_1d (fun gamma => %s.nondimensional_equilibrium_radial_distribution '
            '%s) ZERO %s POINTS)' % (free, ' '.join(vals), upper))

out, names, count = [], [], 0
out.append('''(** C15: every method of every object obtained from [init] returns what the free
    function of the same name returns at the parameters given to [init].

    Written by tools/gen_objects.py, which matches the arguments of the free
    functions by parameter name.  The theorems range over every scalar type, so
    they hold of binary64 arithmetic as well as of the reals.  *)
Require Import Verif.Scalar Verif.MConst Verif.MMath.
Require Import %s.
Require Import Verif.PObjects.
Require Import ZArith Reals.
Local Open Scope scalar_scope.

(** /repo/src/physics/mod.rs: the constant used by the objects that convert a
    stiffness or an energy into its nondimensional counterpart is the public
    [BOLTZMANN_CONSTANT]; quadratures of the objects run over [ZERO, ONE] with
    [POINTS] points. *)
''' % ' '.join('Verif.M%s' % f for f, _ in CHAINS))

for f, root in CHAINS:
    mods = parse(os.path.join(ROOT, 'M%s.v' % f))
    def walk(obj, path, rootp):
        """path: Coq term for this object; obj: its module name."""
        global count
        m = mods[obj]
        free = obj[2:]
        fm = mods.get(free, dict(defs={}))
        initp = dict(m['defs']['init'])
        concl = []
        for a, ty in m['fields']:
            if ty in ('T', 'Z'):
                if a in rootp: v = a
                elif a.startswith('normalization'): v = normalisation(free, fm['defs']['nondimensional_equilibrium_radial_distribution'])
                else: v = derived(a, free)
                assert v, (obj, a)
                concl.append('%s.%s o = %s' % (obj, a, v))
        for d, ps in m['defs'].items():
            if d == 'init' or (obj, d) == INLINED: continue
            args = [(p, t) for p, t in ps if p != 'self']
            argn = [p for p, _ in args]
            vals = []
            for p, t in fm['defs'][d]:
                if p in argn: vals.append(p)
                elif p in rootp: vals.append(p)
                elif p.startswith('normalization'): vals.append(normalisation(free, fm['defs']['nondimensional_equilibrium_radial_distribution']))
                else:
                    v = derived(p, free); assert v, (obj, d, p)
                    if 'temperature' in v: assert 'temperature' in argn, (obj, d, p, argn)
                    vals.append(v)
            binders = ' '.join('(%s : %s)' % a for a in args)
            order = ['o' if p == 'self' else p for p, _ in ps]
            lhs = '%s.%s %s' % (obj, d, ' '.join(order))
            rhs = '%s.%s %s' % (free, d, ' '.join(vals))
            concl.append(('(forall %s, %s = %s)' % (binders, lhs, rhs)) if binders else '%s = %s' % (lhs, rhs))
            count += 1
        if concl:
            nm = 'C15_' + free
            names.append(nm)
            b = ' '.join('(%s : %s)' % x for x in mods['O_' + root]['defs']['init'])
            out.append('Theorem %s : forall (T : Type) (Sc : Scalar T) %s,\n  let o := %s in\n  %s.\nProof. intros; repeat split. Qed.\nPrint Assumptions %s.\n'
                       % (nm, b, path, '\n  /\\ '.join(concl), nm))
        for a, ty in m['fields']:
            if ty.startswith('O_'):
                sub = ty.split('.')[0]
                walk(sub, '%s.%s (%s)' % (obj, a, path) , rootp)
    ip = [p for p, _ in mods['O_' + root]['defs']['init']]
    walk('O_' + root, 'O_%s.init %s' % (root, ' '.join(ip)), ip)

out.append('''(** The one method that repeats the formula of the free function: they agree over the
    reals for every link length, link stiffness and temperature other than zero. *)
Theorem C15_efjc_isotensional_asymptotic_legendre_per_link :
  forall (number_of_links : Z) (link_length hinge_mass link_stiffness : R)
    (nondimensional_force temperature : R),
  link_length <> 0%R -> link_stiffness <> 0%R -> temperature <> 0%R ->
  O_efjc_isotensional_asymptotic_legendre.nondimensional_helmholtz_free_energy_per_link
    (O_efjc_isotensional_asymptotic.legendre (O_efjc_isotensional.asymptotic
      (O_efjc_thermodynamics.isotensional (O_efjc.thermodynamics
        (O_efjc.init number_of_links link_length hinge_mass link_stiffness)))))
    nondimensional_force temperature
  = efjc_isotensional_asymptotic_legendre.nondimensional_helmholtz_free_energy_per_link
      link_length hinge_mass
      (link_stiffness * spowi link_length 2 / BOLTZMANN_CONSTANT / temperature)
      nondimensional_force temperature.
Proof. exact efjc_inlined_method. Qed.
Print Assumptions C15_efjc_isotensional_asymptotic_legendre_per_link.

(** A method is not the same function for every object: the extension of a freely
    jointed chain depends on the link length given to [init]. *)
Example objects_differ :
  O_fjc_isotensional.end_to_end_length
    (O_fjc_thermodynamics.isotensional (O_fjc.thermodynamics (O_fjc.init 8 1%R 1%R)))
    1%R 300%R
  <> O_fjc_isotensional.end_to_end_length
    (O_fjc_thermodynamics.isotensional (O_fjc.thermodynamics (O_fjc.init 16 1%R 1%R)))
    1%R 300%R.
Proof. exact fjc_objects_differ. Qed.
''')
names.append('C15_efjc_isotensional_asymptotic_legendre_per_link')
open(os.path.join(ROOT, 'PropsObjects.v'), 'w').write('\n'.join(out))
open('/tmp/c15names', 'w').write(' '.join(names))
print(len(names), 'theorems', count, 'methods')
