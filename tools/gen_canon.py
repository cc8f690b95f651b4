#!/usr/bin/env python3
"""Writes rocq/theories/SpecDecomp.v (canonical decomposition mappings, other than those of Hangul syllables, which are computed, and canonical combining classes)
and SpecCase.v (simple case mappings) from the Unicode Character Database that comes with Perl (ucd15.pl).  None of this is in /repo.
Decompositions and classes of encoded characters are fixed by Unicode's stability policy.  Python's unicodedata is used as a cross-check of the decompositions."""
import unicodedata, os, subprocess
here = os.path.dirname(os.path.abspath(__file__))
th = os.path.join(here, '..', 'rocq', 'theories')
lines = [l.split() for l in subprocess.run(['perl', os.path.join(here, 'ucd15.pl')], stdout=subprocess.PIPE, check=True).stdout.decode().split('\n') if l]
version = lines[0][1]
dec = [(int(l[1], 16), [int(x, 16) for x in l[2:]]) for l in lines if l[0] == 'dm']
ccc = [(int(l[1], 16), int(l[2], 16), int(l[3])) for l in lines if l[0] == 'ccc']
for c, d in dec:
    u = unicodedata.decomposition(chr(c))
    assert not u or [int(x, 16) for x in u.split()] == d, hex(c)
for lo, hi, k in ccc:
    for c in range(lo, hi + 1): assert unicodedata.combining(chr(c)) in (k, 0)
with open(os.path.join(th, 'SpecDecomp.v'), 'w') as f:
    f.write(f'(** Generated by tools/gen_canon.py from the Unicode Character Database {version}: canonical decomposition mappings, canonical combining classes. *)\n')
    f.write('From Verif Require Import Base.\nLocal Open Scope N_scope.\n\nDefinition decompositions : list (N * list N) := [\n')
    f.write(';\n'.join('(0x%X, [%s])' % (c, '; '.join('0x%X' % x for x in d)) for c, d in dec) + '].\n')
    f.write('Definition combining_classes : list (N * N * N) := [\n' + ';\n'.join('(0x%X, 0x%X, %d)' % r for r in ccc) + '].\n')
with open(os.path.join(th, 'SpecCaseTables.v'), 'w') as f:
    f.write(f'(** Generated by tools/gen_canon.py from the Unicode Character Database {version}: simple case mappings, of the characters that are not mapped to themselves. *)\n')
    f.write('From Verif Require Import Base.\nLocal Open Scope N_scope.\n')
    for p, n in (('slc', 'lower_cases'), ('suc', 'upper_cases'), ('stc', 'title_cases')):
        es = [(int(l[1], 16), int(l[2], 16)) for l in lines if l[0] == p]; es = [e for e in es if e[0] != e[1]]
        f.write(f'\nDefinition {n} : list (N * N) := [\n' + ';\n'.join('(0x%X, 0x%X)' % e for e in es) + '].\n')
        print(n, len(es))
print(len(dec), 'decompositions', len(ccc), 'ranges', version)
