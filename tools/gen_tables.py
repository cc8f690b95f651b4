"""Transcribe the trie tables of /repo/<pkg>/trie.go into Coq (theories/Table<Pkg>.v)."""
import sys; sys.path.insert(0, '/verif/tools')
from triedata import parse
OUT='/verif/rocq/theories/'
for pkg in ['graphemes','words','sentences','phrases']:
    names,(vs,vb),(is_,ib)=parse(pkg)
    P=pkg.capitalize()
    o=[]
    o.append(f'(** GENERATED by tools/gen_tables.py from /repo/{pkg}/trie.go: property constants and tables,\n    entry by entry; one Coq definition per "// Block" of the Go source. *)')
    o.append('From Verif Require Import Base Trie.\nLocal Open Scope N_scope.\n')
    o.append(f'(** {pkg}/trie.go: const block, [1 << iota]. *)')
    for k,n in enumerate(names):
        o.append(f'Definition {n} : N := {1<<k:#x}.')
    for nm,size,blocks in ((pkg+'Values',vs,vb),(pkg+'Index',is_,ib)):
        o.append('')
        ids=[]
        for b,off,es in blocks:
            if not es: continue
            i=f'{nm}_{b:x}'
            ids.append(i)
            lines=[]
            for j in range(0,len(es),8):
                lines.append('; '.join(f'({k:#x},{v:#x})' for k,v in es[j:j+8]))
            o.append(f'Definition {i} : list (N * N) := (* offset {off:#x} *)\n  ['+';\n   '.join(lines)+'].')
        o.append(f'Definition {nm}_blocks : list (list (N * N)) :=\n  ['+'; '.join(ids)+'].')
        o.append(f'(** {pkg}/trie.go: var {nm} = [{size}]property. *)')
        o.append(f'Definition {nm} : arr := arr_of {size} (concat {nm}_blocks).')
    o.append(f'\n(** {pkg}/trie.go: lookup. *)\nDefinition {pkg}_lookup : bytes -> res (N * nat) := lookup {pkg}Values {pkg}Index.')
    open(OUT+f'Table{P}.v','w').write('\n'.join(o)+'\n')
