#!/usr/bin/env python3
"""GB18030 codes of the characters of the Simplified Chinese word list (Python's gb18030 codec)."""
w=open('/repo/src/bip39/langs/chinese_simplified.txt',encoding='utf8').read().split()
assert all(len(x)==1 and len(x.encode('gb18030'))==2 for x in w)
with open('/verif/rocq/theories/Gb18030Data.v','w') as f:
    f.write('''(** GB18030 two-byte codes of the 2048 characters of the Simplified Chinese word list: the part of
    crate encoding 0.2.33 ([GB18030_ENCODING], not part of /repo) that src/bip39/mnemonic.rs:262-273 can reach.
    Generated by tools/gen_gb.py from Python's gb18030 codec. *)
From Coq Require Import List NArith.
Import ListNotations.
Open Scope N_scope.
''')
    f.write('(** character, lead byte, trail byte *)\n')
    for i in range(4):
        f.write('Definition gb_%d : list (N * (N * N)) := [\n'%i+';\n'.join('(%d,(%d,%d))'%((ord(x),)+tuple(x.encode('gb18030'))) for x in w[512*i:512*i+512])+'].\n')
    f.write('Definition gb_table : list (N * (N * N)) := gb_0 ++ gb_1 ++ gb_2 ++ gb_3.\n')
