"""Print the coefficient lists of bessel_i0/bessel_i1 as model literals."""
import re
from rustlit import coq
src = open('/repo/src/math/mod.rs').read().split('\n')
i = 110
while i < 244:
    if 'let coefficients = [' in src[i]:
        j = i + 1
        cs = []
        while '];' not in src[j]:
            cs.append(src[j].strip().rstrip(','))
            j += 1
        print('(* lines %d-%d *)' % (i + 1, j + 1))
        print('[' + ';\n   '.join(coq(c) for c in cs) + '].')
    i += 1
