import random, sys, math
def is_prime(n):
    if n<2: return False
    for p in (2,3,5,7,11,13,17,19,23,29,31,37):
        if n%p==0: return n==p
    d=n-1;s=0
    while d%2==0: d//=2;s+=1
    for a in list(range(2,30)):
        x=pow(a,d,n)
        if x in(1,n-1): continue
        for _ in range(s-1):
            x=x*x%n
            if x==n-1: break
        else: return False
    return True
def sieve(n):
    s=bytearray([1])*(n+1); s[0]=s[1]=0
    for i in range(2,int(n**.5)+1):
        if s[i]: s[i*i::i]=bytearray(len(s[i*i::i]))
    return [i for i in range(n+1) if s[i]]
PR=sieve(2000000)
def ecm1(n,B1,B2,rnd):
    sg=rnd.randrange(6,1<<40)
    u=(sg*sg-5)%n; v=4*sg%n
    x=pow(u,3,n); z=pow(v,3,n)
    try: inv=pow(4*x*v%n,-1,n)
    except ValueError: return math.gcd(4*x*v,n)
    A=(pow(v-u,3,n)*(3*u+v)*inv-2)%n
    a24=(A+2)*pow(4,-1,n)%n
    def dbl(x,z):
        s=(x+z)*(x+z)%n; d=(x-z)*(x-z)%n; t=s-d
        return s*d%n, t*(d+a24*t)%n
    def add(x1,z1,x2,z2,x0,z0):
        a=(x1-z1)*(x2+z2); b=(x1+z1)*(x2-z2)
        s=a+b; d=a-b
        return s*s%n*z0%n, d*d%n*x0%n
    def mul(k,x,z):
        x1,z1=x,z; x2,z2=dbl(x,z)
        for b in bin(k)[3:]:
            if b=='1':
                x1,z1=add(x2,z2,x1,z1,x,z); x2,z2=dbl(x2,z2)
            else:
                x2,z2=add(x1,z1,x2,z2,x,z); x1,z1=dbl(x1,z1)
        return x1,z1
    for p in PR:
        if p>B1: break
        q=p
        while q*p<=B1: q*=p
        x,z=mul(q,x,z)
    g=math.gcd(z,n)
    if g>1: return g
    # stage 2: baby-step giant-step with D=2310
    D=2310
    base={}
    P=(x,z)
    S=[None]*(D//2+1)
    # multiples
    odd=[j for j in range(1,D//2) if math.gcd(j,D)==1]
    for j in odd: S[j]=mul(j,x,z) if j>1 else P
    Q=mul(D,x,z)
    m=B1//D
    R=mul(m,*Q) if m>1 else (Q if m==1 else None)
    Rp=mul(m+1,*Q)
    if m<1: R,Rp,m=Q,dbl(*Q),1
    acc=1
    idx=[p for p in PR if B1<p<=B2]
    marks={}
    for p in idx:
        k=(p+D//2)//D; j=abs(p-k*D); marks.setdefault(k,set()).add(j)
    kmax=B2//D+1
    while m<=kmax:
        for j in marks.get(m,()):
            X,Z=S[j]
            acc=acc*(R[0]*Z-X*R[1])%n
        R,Rp=Rp,add(Rp[0],Rp[1],Q[0],Q[1],R[0],R[1]); m+=1
    return math.gcd(acc,n)
def factor(n,seed=0,verbose=True):
    rnd=random.Random(seed)
    fs=[]
    for p in PR[:50000]:
        while n%p==0: fs.append(p); n//=p
    st=[n]
    while st:
        n=st.pop()
        if n==1: continue
        if is_prime(n): fs.append(n); continue
        i=0
        while True:
            i+=1
            B1=2000 if i<30 else 11000 if i<150 else 50000
            g=ecm1(n,B1,min(B1*60,1990000),rnd)
            if 1<g<n:
                if verbose: print('found',g,'of',n,flush=True)
                st+= [g,n//g]; break
    return sorted(fs)
if __name__=='__main__':
    print(factor(int(sys.argv[1]),int(sys.argv[2]) if len(sys.argv)>2 else 0))
