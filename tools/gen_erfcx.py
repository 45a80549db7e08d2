"""Generate MErfcx.v: the coefficient table of src/math/mod.rs erfcx_helper."""
import re
from rustlit import coq
src = open('/repo/src/math/mod.rs').read().split('\n')
start = next(i for i, l in enumerate(src) if 'fn erfcx_helper' in l)
rows = []
i = start
cur = None
while i < len(src):
    l = src[i]
    m = re.match(r'\s*(\d+)_u8 =>', l)
    if m:
        cur = int(m.group(1))
    m = re.match(r'\s*let t = 2\.0\*z - ([\d_.]+);', l)
    if m:
        off = m.group(1)
        poly = src[i + 1].strip()
        toks = re.findall(r'-?\s*\d[\d_]*\.?[\d_]*(?:e-?\d+)?', poly)
        # structure check: c0 + (c1 + (c2 + ... + c6*t)*t)*t
        shape = re.sub(r'\d[\d_]*\.?[\d_]*(?:e-?\d+)?', 'c', poly)
        assert shape == 'c + (c + (c + (c + (c + (c + c*t)*t)*t)*t)*t)*t', (cur, shape)
        cs = re.findall(r'\d[\d_]*\.?[\d_]*(?:e-?\d+)?', poly)
        assert len(cs) == 7
        rows.append((cur, off, cs, i + 1))
    i += 1
assert [r[0] for r in rows] == list(range(100)), [r[0] for r in rows]
out = []
out.append('(** Generated by tools/gen_erfcx.py from /repo/src/math/mod.rs:290-%d:' % (len(src)))
out.append('    the match arms 0_u8 .. 99_u8 of [erfcx_helper].  A row is the constant [c]')
out.append('    of [let t = 2.0*z - c] and the seven coefficients of the nested polynomial')
out.append('    in order of increasing degree. *)')
out.append('From Coq Require Import ZArith List.')
out.append('From Verif Require Import Scalar.')
out.append('Import ListNotations.')
out.append('Section Model.')
out.append('Context {T : Type} {Sc : Scalar T}.')
out.append('Definition erfcx_table : list (T * list T) := [')
for n, (r, off, cs, line) in enumerate(rows):
    out.append('  (* %d_u8, line %d *) (%s, [%s])%s' % (r, line, coq(off), '; '.join(coq(c) for c in cs), ';' if n < 99 else ''))
out.append('].')
out.append('End Model.')
open('/verif/rocq/theories/MErfcx.v', 'w').write('\n'.join(out) + '\n')
