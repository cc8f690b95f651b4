#!/usr/bin/env python3
"""Writes rocq/theories/SpecUcd.v: flat range tables, one per Unicode property, obtained by inverting the tries of
/repo.  GCB, InCB come from graphemes/trie.go; WB and the Bleve ideographic set from words/trie.go; SB from
sentences/trie.go; Extended_Pictographic from graphemes/trie.go.  The phrases trie is not used."""
import sys, os
sys.path.insert(0, os.path.dirname(__file__))
from triedata import parse, flat, lookup_cp
def values(pkg):
    names, v, i = parse(pkg); fv, fi = flat(v), flat(i)
    return names, [None if 0xD800 <= cp < 0xE000 else lookup_cp(fv, fi, cp) for cp in range(0x110000)]
def bitnames(names, v): return {names[k].lstrip('_') for k in range(len(names)) if v >> k & 1}
def ranges(cls):
    out = []; cur = None
    for cp in range(0x110000):
        c = cls(cp)
        if c is None: cur = None; continue
        if cur and cur[2] == c and cur[1] == cp - 1: cur[1] = cp
        else:
            cur = [cp, cp, c]; out.append(cur)
    return out
gn, g = values('graphemes'); wn, w = values('words'); sn, s = values('sentences')
def pick(names, vals, ren, prefix):
    def f(cp):
        if vals[cp] is None: return None
        b = bitnames(names, vals[cp]) & set(ren)
        assert len(b) <= 1, (hex(cp), b)
        return prefix + ren[b.pop()] if b else None
    return f
GCB = dict(CR='CR', LF='LF', Control='Control', Extend='Extend', ZWJ='ZWJ', RegionalIndicator='Regional_Indicator',
           Prepend='Prepend', SpacingMark='SpacingMark', L='L', V='V', T='T', LV='LV', LVT='LVT')
INCB = dict(InCBConsonant='Consonant', InCBLinker='Linker', InCBExtend='Extend')
WB = dict(CR='CR', LF='LF', Newline='Newline', Extend='Extend', ZWJ='ZWJ', Format='Format', RegionalIndicator='Regional_Indicator',
          Katakana='Katakana', HebrewLetter='Hebrew_Letter', ALetter='ALetter', SingleQuote='Single_Quote', DoubleQuote='Double_Quote',
          MidNumLet='MidNumLet', MidLetter='MidLetter', MidNum='MidNum', Numeric='Numeric', ExtendNumLet='ExtendNumLet', WSegSpace='WSegSpace')
SB = dict(CR='CR', LF='LF', Extend='Extend', Sep='Sep', Format='Format', Sp='Sp', Lower='Lower', Upper='Upper', OLetter='OLetter',
          Numeric='Numeric', ATerm='ATerm', SContinue='SContinue', STerm='STerm', Close='Close')
out = []
out.append('''(** Specification: Unicode character properties as flat range tables (inclusive ranges, ascending).
    Generated by tools/gen_ucd.py by inverting the tries of /repo (the Unicode data files are not available offline).
    UAX #29 property names are used; "Other" is the default value of each property. *)
From Verif Require Import Base.
Local Open Scope N_scope.
''')
def enum(ty, prefix, ren):
    out.append('Inductive %s :=' % ty)
    out.append('  ' + ' '.join('| ' + prefix + v for v in list(ren.values()) + ['Other']) + '.')
    out.append('Scheme Equality for %s.\n' % ty)
enum('gcb', 'GCB_', GCB); enum('incb', 'InCB_', INCB); enum('wb', 'WB_', WB); enum('sb', 'SB_', SB)
out.append('''(** The value of the first range that contains the code point, or the default. *)
Fixpoint range_value {A : Type} (default : A) (table : list (N * N * A)) (cp : N) : A :=
  match table with
  | [] => default
  | (lo, hi, v) :: rest => if (lo <=? cp) && (cp <=? hi) then v else range_value default rest cp
  end.
''')
def table(name, ty, rs):
    out.append('Definition %s : list (N * N * %s) := [' % (name, ty))
    for k in range(0, len(rs), 4):
        out.append('  ' + '; '.join('(0x%X, 0x%X, %s)' % tuple(r) for r in rs[k:k+4]) + (';' if k + 4 < len(rs) else ''))
    out.append('].\n')
table('gcb_table', 'gcb', ranges(pick(gn, g, GCB, 'GCB_')))
table('incb_table', 'incb', ranges(pick(gn, g, INCB, 'InCB_')))
table('wb_table', 'wb', ranges(pick(wn, w, WB, 'WB_')))
table('sb_table', 'sb', ranges(pick(sn, s, SB, 'SB_')))
flag = lambda names, vals, n: (lambda cp: 'true' if vals[cp] is not None and n in bitnames(names, vals[cp]) else None)
table('extpict_table', 'bool', ranges(flag(gn, g, 'ExtendedPictographic')))
table('ideographic_table', 'bool', ranges(flag(wn, w, 'BleveIdeographic')))
out.append('''(** Grapheme_Cluster_Break *)
Definition GCB (cp : N) : gcb := range_value GCB_Other gcb_table cp.
(** Indic_Conjunct_Break *)
Definition InCB (cp : N) : incb := range_value InCB_Other incb_table cp.
(** Word_Break *)
Definition WB (cp : N) : wb := range_value WB_Other wb_table cp.
(** Sentence_Break *)
Definition SB (cp : N) : sb := range_value SB_Other sb_table cp.
(** Extended_Pictographic *)
Definition ExtPict (cp : N) : bool := range_value false extpict_table cp.
(** Ideographs, Hiragana and Katakana, as used by the Bleve compatible functions of package words *)
Definition BleveIdeographic (cp : N) : bool := range_value false ideographic_table cp.
''')
open(os.path.join(os.path.dirname(__file__), '../rocq/theories/SpecUcd.v'), 'w').write('\n'.join(out))
