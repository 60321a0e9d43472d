#!/usr/bin/env python3
"""Generates rocq/theories/CdfTables.v from /repo/src/cdf.rs (default_cdf)."""
import re,sys
src=open('/repo/src/cdf.rs').read()
i=src.index('pub const default_cdf'); body=src[src.index('{',i)+1:]
body=re.sub(r'//[^\n]*','',body); body=re.sub(r'/\*.*?\*/','',body,flags=re.S)
consts={m.group(1):int(m.group(2)) for m in re.finditer(r'pub const (\w+)\s*:\s*\w+\s*=\s*(\d+)\s*;',open('/repo/src/constants.rs').read())}
toks=[(m.group(0),src.count('\n',0,0)) for m in re.finditer(r'[A-Za-z_][A-Za-z_0-9]*|\d+|[\[\]{}:,;()*+\-]',body)]
toks=[t for t,_ in toks]
pos=0
def parse():
    """array or constant expression"""
    global pos
    if toks[pos]=='[':
        pos+=1; items=[]
        while toks[pos]!=']':
            items.append(parse())
            if toks[pos]==',': pos+=1
            elif toks[pos]==';':
                pos+=1; n=parse(); assert isinstance(n,int) and len(items)==1; items=items*n
        pos+=1; return items
    e=''
    while toks[pos] not in (',',']',';','}'):
        e+=toks[pos]; pos+=1
    return int(eval(e,dict(consts)))
fields=[]
while toks[pos]!='}':
    name=toks[pos]; assert toks[pos+1]==':',toks[pos:pos+5]; pos+=2
    fields.append((name,parse()))
    if toks[pos]==',': pos+=1
def coq(v,ind):
    if isinstance(v[0],int): return 'Row ['+'; '.join(map(str,v))+']'
    return 'Tab [\n'+';\n'.join(ind+' '+coq(x,ind+' ') for x in v)+']'
o=open('/verif/rocq/theories/CdfTables.v','w')
o.write('''(** Generated by tools/gen_cdf.py from /repo/src/cdf.rs 113-4371 ([default_cdf]):
    every field with its nested arrays, in the order of the source. *)
From Coq Require Import ZArith List String.
Import ListNotations.
Open Scope Z_scope.

Inductive tab : Type := Row (r : list Z) | Tab (l : list tab).

''')
for n,v in fields:
    ln=src.count('\n',0,src.index('\n    %s: '%n,i)+1)+1
    o.write('(** cdf.rs %d-. *)\nDefinition cdf_%s : tab :=\n %s.\n\n'%(ln,n,coq(v,' ')))
o.write('Open Scope string_scope.\nDefinition default_cdf : list (string * tab) := [\n'+';\n'.join('  ("%s", cdf_%s)'%(n,n) for n,_ in fields)+'].\n')
def dims(v):
    if isinstance(v,int): return []
    return [len(v)]+dims(v[0])
for n,v in fields: print(n,dims(v))
