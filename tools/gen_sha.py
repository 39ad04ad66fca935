#!/usr/bin/env python3
# prints the FIPS 180-4 constants (fractional parts of cube/square roots of primes) as Coq lists
from math import isqrt
def primes(n):
    r=[];k=2
    while len(r)<n:
        if all(k%q for q in r): r.append(k)
        k+=1
    return r
def icbrt(n):
    lo,hi=0,1<<((n.bit_length()+2)//3+1)
    while lo<hi:
        m=(lo+hi+1)//2
        if m**3<=n: lo=m
        else: hi=m-1
    return lo
def K(n,w): return [icbrt(p<<(3*w))%(1<<w) for p in primes(n)]
def H(w): return [isqrt(p<<(2*w))%(1<<w) for p in primes(8)]
def show(name,l,w,per):
    print("Definition %s : list N := ["%name)
    rows=[l[i:i+per] for i in range(0,len(l),per)]
    print(";\n".join("  "+"; ".join("0x%0*x"%(w//4,x) for x in r) for r in rows)+"].")
show("k256",K(64,32),32,8); show("h256",H(32),32,8); show("k512",K(80,64),64,4); show("h512",H(64),64,4)
