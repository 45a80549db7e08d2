"""Table of what Print Assumptions reports, from the output of compiling Props*.v.

usage: assumptions.py DIR   where DIR/PropsX.out is the output of coqc PropsX.v
"""
import glob, os, re, sys
here = os.path.dirname(os.path.abspath(__file__))
theories = os.path.join(here, '..', 'rocq', 'theories')
sets = {}
rows = []
for path in sorted(glob.glob(os.path.join(theories, 'Props*.v'))):
    name = os.path.basename(path)[:-2]
    asked = re.findall(r'^Print Assumptions (\w+)\.', open(path).read(), re.M)
    out = open(os.path.join(sys.argv[1], name + '.out')).read()
    blocks = re.split(r'^(?=Axioms:|Closed under the global context)', out, flags=re.M)[1:]
    assert len(blocks) == len(asked), (name, len(blocks), len(asked))
    for thm, block in zip(asked, blocks):
        ax = tuple(sorted(set(re.findall(r'^([A-Za-z][\w.]*)\s*(?::|$)', block, re.M)) - {'Axioms', 'Closed'}))
        sets.setdefault(ax, []).append(thm)
print('# Assumptions of the theorems\n')
print('Generated by tools/assumptions.py from the `Print Assumptions` output of the Props files.\n')
for ax, thms in sorted(sets.items(), key=lambda kv: len(kv[0])):
    print('## ' + ('Closed under the global context' if not ax else '%d assumptions' % len(ax)) + '\n')
    for a in ax:
        print('* `%s`' % a)
    print(('\n' if ax else '') + 'Theorems: ' + ', '.join(thms) + '.\n')
