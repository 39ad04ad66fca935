import sys
# Certificate found with ecm.py: (n, a, primes whose product exceeds the square root of n)
CERT=[(107590001,2,[53,29,7]),(20113,2,[419]),(1206781,2,[20113]),(7240687,2,[1206781]),(96557,2,[239,101]),
(255515944373312847190720520512484175977,2,[107590001,7240687,96557]),
(205115282021455665897114700593932402728804164701536103180137503955397371,2,[255515944373312847190720520512484175977]),
(2**256-2**32-977,2,[205115282021455665897114700593932402728804164701536103180137503955397371]),
(1627771,2,[1871]),(297159362677,2,[1627771]),(28181,2,[1409]),(545358713,2,[28181]),
(29047611873442575647497758179,2,[297159362677,545358713]),
(341948486974166000522343609283189,2,[29047611873442575647497758179]),
(44706919,2,[9349]),(120233,2,[113,19]),(174723607534414371449,2,[44706919,120233]),
(0xFFFFFFFFFFFFFFFFFFFFFFFFFFFFFFFEBAAEDCE6AF48A03BBFD25E8CD0364141,2,[341948486974166000522343609283189,174723607534414371449])]
big={n for n,_,_ in CERT}
o=['(** The field prime and the group order of secp256k1 are prime: Pocklington certificates.',
'    Generated by tools/gen_primes.py. *)','From Coq Require Import ZArith Znumtheory List.','From Verif Require Import Fermat.','Import ListNotations.','Open Scope Z_scope.','']
small=sorted({q for _,_,l in CERT for q in l if q not in big})
for q in small:
    o.append('Lemma prime_%d : prime %d.\nProof. apply small_prime_ok. vm_compute. reflexivity. Qed.'%(q,q))
for n,a,l in CERT:
    name='prime_p' if n==2**256-2**32-977 else 'prime_n' if n>2**255 else 'prime_%d'%n
    st='(2 ^ 256 - 2 ^ 32 - 977)' if name=='prime_p' else hex(n) if name=='prime_n' else str(n)
    ws=[(q,pow(pow(a,(n-1)//q,n)-1,-1,n)) for q in l]
    k=n.bit_length()
    if n>2**255:
        c=2**256-n; f='fold_red 256 %d'%c; m=2 if name=='prime_p' else 3
        red='fun x => '+'('.join([f]*m)+' x'+')'*(m-1); red=red.replace('%d('%c,'%d ('%c)
        fo='fold_red_ok _ 256 %d ltac:(discriminate) eq_refl N'%c
        redp='intros N; exact (keeps_comp _ _ _ (%s) (%s))'%(fo,fo) if m==2 else 'intros N; exact (keeps_comp _ _ _ (%s) (keeps_comp _ _ _ (%s) (%s)))'%(fo,fo,fo)
    else:
        red='barrett %d %d %d %d'%(n,2**(2*k+8)//n,k-8,k+16); redp='apply barrett_ok'
    lst='['+'; '.join('(%d, %d)'%w for w in ws)+']'
    o.append('Lemma %s : prime %s.\nProof.\n  apply (check_cert_ok (%s) _ %d %s); [%s| |vm_compute; reflexivity].\n  intros q Hq. cbn [map fst In] in Hq.\n  repeat (destruct Hq as [<-|Hq]; [solve [%s]|]). destruct Hq.\nQed.'%(name,st,red,a,lst,redp,'|'.join('exact prime_%d'%q for q in l)))
open(sys.argv[1],'w').write('\n'.join(o)+'\n')
