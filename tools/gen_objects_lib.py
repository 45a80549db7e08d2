"""Shared by gen_objects.py and gen_bindings.py: reading the generated model files."""
import re, os
ROOT = os.path.join(os.path.dirname(os.path.abspath(__file__)), '..', 'rocq', 'theories')

def parse(path):
    s = open(path).read()
    mods = {}
    for m in re.finditer(r'^Module (\w+)\.\n(.*?)^End \1\.', s, re.S | re.M):
        name, body = m.group(1), m.group(2)
        rec = re.search(r'Record t \{T : Type\} := \{(.*?)\}\.', body, re.S)
        fields = []
        if rec:
            for f in rec.group(1).split(';'):
                a, b = f.split(':', 1)
                fields.append((a.strip(), b.strip()))
        defs = {}
        for d in re.finditer(r'^Definition (\w+)(.*?):=\s*\n?(.*?)\.\s*\n(?=\n|\(\*|End|Definition)', body, re.S | re.M):
            sig = ' '.join(d.group(2).split())
            defs[d.group(1)] = re.findall(r'\((\w+) : ([^()]*)\)', sig)
        mods[name] = dict(fields=fields, defs=defs)
    return mods

CHAINS = [('Ideal', 'ideal'), ('Fjc', 'fjc'), ('Swfjc', 'swfjc'), ('Efjc', 'efjc'),
          ('Morse', 'morse'), ('LennardJones', 'lennard_jones'),
          ('LogSquared', 'log_squared'), ('Wlc', 'wlc')]

# The one method that repeats the formula of its free function instead of calling
# it; it is treated over the reals, in PObjects.v.
INLINED = ('O_efjc_isotensional_asymptotic_legendre',
           'nondimensional_helmholtz_free_energy_per_link')
