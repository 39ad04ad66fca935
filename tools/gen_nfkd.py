#!/usr/bin/env python3
"""Generates NfkdData.v from Python's unicodedata (Unicode 14.0.0, the version of unicode-normalization 0.1.21)."""
import unicodedata as U
assert U.unidata_version=='14.0.0'
dec=[];ccc=[]
for c in range(0x110000):
    if 0xD800<=c<0xE000: continue
    ch=chr(c)
    k=U.combining(ch)
    if k: ccc.append((c,k))
    if 0xAC00<=c<0xAC00+11172: continue
    d=U.normalize('NFKD',ch)
    if d!=ch: dec.append((c,[ord(x) for x in d]))
# ccc as ranges
rng=[]
for c,k in ccc:
    if rng and rng[-1][1]==c-1 and rng[-1][2]==k: rng[-1][1]=c
    else: rng.append([c,c,k])
print(len(dec),len(ccc),len(rng),sum(len(d) for _,d in dec))
with open('/verif/rocq/theories/NfkdData.v','w') as f:
    f.write('''(** Unicode 14.0.0 data used by crate unicode-normalization 0.1.21 (not part of /repo):
    full compatibility decompositions (Hangul syllables excepted, they are algorithmic) and
    canonical combining classes.  Generated by tools/gen_nfkd.py from Python's unicodedata 14.0.0. *)
From Coq Require Import List NArith.
Import ListNotations.
Open Scope N_scope.
''')
    f.write('(** code point, full compatibility decomposition; sorted by code point *)\n')
    n=0
    CH=500
    for i in range(0,len(dec),CH):
        f.write('Definition decomp_%d : list (N * list N) := [\n'%(i//CH))
        f.write(';\n'.join('(%d,[%s])'%(c,';'.join(map(str,d))) for c,d in dec[i:i+CH]))
        f.write('].\n')
        n+=1
    f.write('Definition decomp_table : list (N * list N) := '+' ++ '.join('decomp_%d'%i for i in range(n))+'.\n')
    f.write('(** first code point, last code point, non-zero canonical combining class *)\n')
    f.write('Definition ccc_table : list (N * N * N) := [\n'+';\n'.join('(%d,%d,%d)'%tuple(r) for r in rng)+'].\n')
