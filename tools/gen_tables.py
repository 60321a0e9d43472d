#!/usr/bin/env python3
"""Generates rocq/theories/BlockTables.v from the tables of /repo/src/constants.rs that the encoder reads."""
import re
src=open('/repo/src/constants.rs').read()+'\n'
clean=re.sub(r'/\*.*?\*/',lambda m:re.sub(r'[^\n]',' ',m.group(0)),src,flags=re.S)
clean=re.sub(r'//[^\n]*',lambda m:' '*len(m.group(0)),clean)
env={'true':1,'false':0}
for m in re.finditer(r'enum (\w+)\s*\{([^}]*)\}',clean):
    v=-1
    for it in m.group(2).split(','):
        it=it.strip()
        if not it: continue
        if '=' in it:
            n,x=it.split('='); v=int(x); n=n.strip()
        else: n=it; v+=1
        env[n]=v
for m in re.finditer(r'const (\w+)\s*:\s*usize\s*=\s*([^;]*);',clean):
    env[m.group(1)]=eval(m.group(2),{},env)
names='''coeff_base_ctx_offset coeff_base_pos_ctx_offset sgr_params sgrproj_xqd_min sgrproj_xqd_max
segmentation_feature_bits segmentation_feature_signed segmentation_feature_max remap_lr_type wiener_taps_mid
sgrproj_xqd_mid max_tx_depth subsampled_size tx_type_in_set_intra tx_type_in_set_inter tx_type_intra_inv_set1
tx_type_intra_inv_set2 tx_type_inter_inv_set1 tx_type_inter_inv_set12 tx_type_inter_inv_set3 wiener_taps_min
wiener_taps_max wiener_taps_k intra_mode_context size_group block_width block_height mi_width_log2 mi_height_log2
num_4x4_blocks_wide num_4x4_blocks_high tx_width tx_width_log2 tx_height tx_height_log2 tx_size_sqr tx_size_sqr_up
mode_to_txfm adjusted_tx_size sig_ref_diff_offset mag_ref_offset_with_tx_class palette_color_context
filter_intra_mode_to_intra_dir partition_subsize'''.split()
o=open('/verif/rocq/theories/BlockTables.v','w')
o.write('''(** Generated by tools/gen_tables.py from /repo/src/constants.rs: the tables the
    encoder reads. Enumeration values are their numbers, booleans 0 and 1. *)
From Coq Require Import ZArith List.
Import ListNotations.
Open Scope Z_scope.
''')
def depth(v): return 0 if isinstance(v,int) else 1+depth(v[0])
def coq(v):
    if isinstance(v,int): return str(v) if v>=0 else '(%d)'%v
    return '['+'; '.join(coq(x) for x in v)+']'
def wrap(s,w=110):
    out=[];line=''
    for tok in re.findall(r'\S+\s*',s):
        if len(line)+len(tok)>w: out.append(line.rstrip()); line='  '
        line+=tok
    out.append(line.rstrip()); return '\n'.join(out)
for n in names:
    m=re.search(r'const %s\s*:[^=]*=\s*'%n,clean)
    assert m,n
    e=clean.index(';\n',m.end())
    txt=re.sub(r'\b\w+::(?=\w)','',clean[m.end():e])
    v=eval(txt.replace('\n',' '),{},env)
    a=src.count('\n',0,m.start())+1; b=src.count('\n',0,e)+1
    ty='Z'
    for _ in range(depth(v)): ty='list Z' if ty=='Z' else 'list (%s)'%ty
    o.write('\n(** constants.rs %d-%d. *)\n'%(a,b)+wrap('Definition %s : %s := %s.'%(n,ty,coq(v)))+'\n')
