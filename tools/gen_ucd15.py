#!/usr/bin/env python3
"""Writes rocq/theories/SpecUcd15.v: the break properties according to the Unicode Character Database that comes with Perl (props15.pl).  Nothing here is taken from /repo."""
import os, subprocess
here = os.path.dirname(os.path.abspath(__file__))
lines = [l.split() for l in subprocess.run(['perl', os.path.join(here, 'props15.pl')], stdout=subprocess.PIPE, check=True).stdout.decode().split('\n') if l]
version = lines[0][1]
with open(os.path.join(here, '..', 'rocq', 'theories', 'SpecUcd15.v'), 'w') as f:
    f.write(f'(** Specification: Unicode character properties, of Unicode {version}.\n    Generated by tools/gen_ucd15.py from the Unicode Character Database that comes with Perl; nothing here is taken from /repo. *)\n')
    f.write('From Verif Require Import Base SpecUcd.\nLocal Open Scope N_scope.\n')
    for p, ty in (('GCB', 'gcb'), ('WB', 'wb'), ('SB', 'sb'), ('extpict', 'bool'), ('emoji', 'bool'), ('han', 'bool'), ('hiragana', 'bool'), ('encoded', 'bool')):
        es = sorted((int(l[1], 16), int(l[2], 16), l[3] if ty == 'bool' else f'{p}_{l[3]}') for l in lines[1:] if l[0] == p)
        f.write(f'\nDefinition {p.lower()}15_table : list (N * N * {ty}) := [\n' + ';\n'.join('(0x%X, 0x%X, %s)' % e for e in es) + '].\n')
        d = 'false' if ty == 'bool' else f'{p}_Other'
        n = {'extpict': 'ExtPict', 'emoji': 'Emoji', 'han': 'Han', 'hiragana': 'Hiragana', 'encoded': 'Encoded'}.get(p, p)
        f.write(f'Definition {n}15 (c : N) : {ty} := range_value {d} {p.lower()}15_table c.\n')
