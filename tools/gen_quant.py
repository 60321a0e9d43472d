#!/usr/bin/env python3
"""Generates rocq/theories/QuantTables.v from /repo/src/quantizer.rs."""
import re
s=open('/repo/src/quantizer.rs').read()
s=re.sub(r'/\*.*?\*/',lambda m:re.sub(r'[^\n]',' ',m.group(0)),s,flags=re.S)
s=re.sub(r'//[^\n]*','',s)
def arr(name):
    i=s.index('const '+name); j=s.index('=',i); k=s.index(';',j)
    return eval(s[j+1:k].replace('\n',' '))
def wrap(l,w=120):
    out=[];line=' '
    for i,x in enumerate(l):
        t=str(x)+(';' if i+1<len(l) else '')
        if len(line)+1+len(t)>w: out.append(line); line=' '
        line+=' '+t
    return '\n'.join(out+[line])
def main(dst):
    o=open(dst,'w')
    o.write('''(** Generated by tools/gen_quant.py from /repo/src/quantizer.rs: the step sizes
    (6779-6946), the matrices (11-6777) and their offsets (6-9). *)
From Coq Require Import ZArith List.
Import ListNotations.
Open Scope Z_scope.

''')
    for n in ('dc_q_lookup','ac_q_lookup'):
        t=arr(n); assert [len(r) for r in t]==[256]*3
        o.write('Definition %s : list (list Z) := [\n'%n+';\n'.join('  [\n'+wrap(r)+']' for r in t)+'].\n\n')
    o.write('Definition qm_offset : list Z := [\n'+wrap(arr('qm_offset'))+'].\n\n')
    t=arr('qunatizer_matrix'); assert len(t)==16 and all(len(x)==2 and all(len(y)==3344 for y in x) for x in t)
    for i in range(16):
        for p in range(2): o.write('Definition qm_%d_%d : list Z := [\n'%(i,p)+wrap(t[i][p])+'].\n\n')
    o.write('Definition quantizer_matrix : list (list (list Z)) := [\n'+';\n'.join('  [qm_%d_0; qm_%d_1]'%(i,i) for i in range(16))+'].\n')
if __name__=='__main__': main('/verif/rocq/theories/QuantTables.v')
