"""Generate OrderData.v: slopes for checking 2^256 G = c G (so that n G = O with n = 2^256 - c)."""
import sys
P=2**256-2**32-977
N=0xFFFFFFFFFFFFFFFFFFFFFFFFFFFFFFFEBAAEDCE6AF48A03BBFD25E8CD0364141
G=(0x79BE667EF9DCBBAC55A06295CE870B07029BFCDB2DCE28D959F2815B16F81798,0x483ADA7726A3C4655DA4FBFC0E1108A8FD17B448A68554199C47D08FFB10D4B8)
C=2**256-N
def use(l,a,b):
    x=(l*l-a[0]-b[0])%P
    return (x,(l*(a[0]-x)-a[1])%P)
s=G; acc=None; rows=[]
for i in range(256):
    bit=C>>i&1; m='None'
    if bit:
        if acc is None: acc=s; m='Some 0'
        else:
            mu=(s[1]-acc[1])*pow(s[0]-acc[0],-1,P)%P
            acc=use(mu,acc,s); m='Some %s'%hex(mu)
    l=3*s[0]*s[0]*pow(2*s[1],-1,P)%P
    s=use(l,s,s)
    rows.append('(%s, %s)'%(hex(l),m))
assert s==acc
o=['(** Tangent slopes for the doublings G, 2G, 4G, ... and chord slopes for the additions that sum the bits of','    2^256 - n.  Data for SecpOrder.v.  Generated by tools/gen_order.py. *)','From Coq Require Import ZArith List.','Import ListNotations.','Open Scope Z_scope.','',
'Definition order_chain : list (Z * option Z) := [','  '+';\n  '.join(rows)+'].']
open(sys.argv[1],'w').write('\n'.join(o)+'\n')
