#!/usr/bin/env python3
"""Generates rocq/theories/FilterTables.v from the prediction and filter tables of /repo/src/constants.rs."""
import re
clean=open('/repo/src/constants.rs').read()+'\n'
clean=re.sub(r'/\*.*?\*/',lambda m:re.sub(r'[^\n]',' ',m.group(0)),clean,flags=re.S)
clean=re.sub(r'//[^\n]*',lambda m:' '*len(m.group(0)),clean)
names='''subpel_filters warped_filters div_lut obmc_mask_2 obmc_mask_4 obmc_mask_8 obmc_mask_16 obmc_mask_32
wedge_master_oblique_odd wedge_master_oblique_even wedge_master_vertical ii_weights_1d quant_dist_lookup cos128_lookup upscale_filter'''.split()
o=open('/verif/rocq/theories/FilterTables.v','w')
o.write('''(** Generated by tools/gen_filters.py from /repo/src/constants.rs: tables of the
    prediction and filter processes. *)
From Coq Require Import ZArith List.
Import ListNotations.
Open Scope Z_scope.
''')
def coq(v): return (str(v) if v>=0 else '(%d)'%v) if isinstance(v,int) else '['+'; '.join(coq(x) for x in v)+']'
def depth(v): return 0 if isinstance(v,int) else 1+depth(v[0])
def wrap(s,w=110):
    out=[];line=' '
    for tok in s.split(' '):
        if len(line)+1+len(tok)>w: out.append(line); line=' '
        line+=' '+tok
    return '\n'.join(out+[line])
for n in names:
    m=re.search(r'const %s\s*:\s*(\[[^=]*)=\s*(\[.*?\])\s*;'%n,clean,re.S)
    v=eval(m.group(2).replace('\n',' ')); ty='Z'
    for _ in range(depth(v)): ty='list '+(ty if ty=='Z' else '(%s)'%ty)
    o.write('\n(** constants.rs %d-%d. *)\nDefinition %s : %s :=\n%s.\n'%(clean.count('\n',0,m.start())+1,clean.count('\n',0,m.end())+1,n,ty,wrap(coq(v))))
