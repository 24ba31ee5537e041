import json,math,random,subprocess,sys,time,os
sys.path.insert(0,'/tmp/w/ecpp')
H={int(k):v for k,v in json.load(open('/tmp/w/ecpp/hilbert.json')).items()}
SM=[]
def sieve(n):
    s=bytearray([1])*(n+1); s[0]=s[1]=0
    for i in range(2,int(n**.5)+1):
        if s[i]: s[i*i::i]=bytearray(len(s[i*i::i]))
    return [i for i in range(n+1) if s[i]]
SM=sieve(200000)
PROD=1
import functools
def prodtree(l):
    while len(l)>1: l=[l[i]*l[i+1] if i+1<len(l) else l[i] for i in range(0,len(l),2)]
    return l[0]
PROD=prodtree(SM)
def prp(n):
    if n<2: return False
    for p in (2,3,5,7,11,13,17,19,23,29,31,37):
        if n%p==0: return n==p
    d=n-1; s=0
    while d%2==0: d//=2; s+=1
    for a in (2,3,5,7,11,13,17,19,23,29,31,37):
        x=pow(a,d,n)
        if x in (1,n-1): continue
        for _ in range(s-1):
            x=x*x%n
            if x==n-1: break
        else: return False
    return True
def trial(n):
    f={}
    while True:
        g=math.gcd(n,PROD%n if PROD>n else PROD)
        if g==1: break
        # factor g
        for p in SM:
            if g==1: break
            if g%p==0:
                g//=p
                while n%p==0: n//=p; f[p]=f.get(p,0)+1
    return f,n
def ecm(n,B1,B2,curves,seed):
    return int(subprocess.run(['/tmp/w/ecpp/ecm',str(n),str(B1),str(B2),str(curves),str(seed)],capture_output=True,text=True).stdout.strip() or 0)
LEV=[(2000,150000,25),(11000,1100000,60),(50000,6000000,150),(250000,40000000,300)]
def isqrt_root(n):
    r=math.isqrt(n); return r if r*r==n else 0
def factor_full(n):
    """complete factorisation of a small composite"""
    if n==1: return {}
    if prp(n): return {n:1}
    f,n=trial(n)
    st=[n] if n>1 else []
    lev=0
    while st:
        m=st.pop()
        if prp(m): f[m]=f.get(m,0)+1; continue
        r=isqrt_root(m)
        if r: st+= [r,r]; continue
        g=0
        for lv in LEV:
            g=ecm(m,*lv[:2],lv[2],random.randrange(1<<30))
            if 1<g<m: break
        if not 1<g<m: raise Exception('cannot factor %d'%m)
        st+=[g,m//g]
    return f
class Part:
    """partial factorisation: known primes f, composite cofactor c (or 1)"""
    def __init__(s,n,tag): s.n=n; s.tag=tag; s.f,s.c=trial(n); s.norm()
    def norm(s):
        if s.c>1 and prp(s.c): s.f[s.c]=s.f.get(s.c,0)+1; s.c=1
    def step(s,lv):
        B1,B2,cur=LEV[lv]
        while s.c>1:
            r=isqrt_root(s.c)
            g=r or ecm(s.c,B1,B2,cur,random.randrange(1<<30))
            if not 1<g<s.c: return
            for h in (g,):
                for p,e in (factor_full(h)).items():
                    while s.c%p==0: s.c//=p; s.f[p]=s.f.get(p,0)+1
            s.norm()
def sqrtmod(a,p):
    a%=p
    if a==0: return 0
    if pow(a,(p-1)//2,p)!=1: return None
    if p%4==3: return pow(a,(p+1)//4,p)
    q=p-1; s=0
    while q%2==0: q//=2; s+=1
    z=2
    while pow(z,(p-1)//2,p)!=p-1: z+=1
    m,c,t,r=s,pow(z,q,p),pow(a,q,p),pow(a,(q+1)//2,p)
    while t!=1:
        i=0; t2=t
        while t2!=1: t2=t2*t2%p; i+=1
        b=pow(c,1<<(m-i-1),p); m=i; c=b*b%p; t=t*c%p; r=r*b%p
    return r
def cornacchia4(D,p):
    x=sqrtmod(D,p)
    if x is None: return None
    if (x-D)%2: x=p-x
    a,b=2*p,x; l=math.isqrt(4*p)
    while b>l: a,b=b,a%b
    r=4*p-b*b
    if r%(-D): return None
    v=isqrt_root(r//(-D))
    if v==0 and r!=0: return None
    return b,v
def orders(N):
    out=[]
    for D in sorted(list(H)+[-3,-4],key=lambda d:-d):
        tv=cornacchia4(D,N)
        if not tv: continue
        t,v=tv
        ts=[t,-t]
        if D==-4: ts+=[2*v,-2*v]
        if D==-3: ts+=[(t+3*v)//2,-(t+3*v)//2,(t-3*v)//2,-(t-3*v)//2]
        for u in ts: out.append((D,N+1-u))
    return out
# polynomials mod p, low to high
def pmod(f,g,p):
    f=f[:]; inv=pow(g[-1],-1,p)
    while len(f)>=len(g):
        c=f[-1]*inv%p
        if c:
            o=len(f)-len(g)
            for i in range(len(g)): f[o+i]=(f[o+i]-c*g[i])%p
        f.pop()
    while f and f[-1]==0: f.pop()
    return f
def pmul(f,g,m,p):
    r=[0]*(len(f)+len(g)-1) if f and g else []
    for i,x in enumerate(f):
        for j,y in enumerate(g): r[i+j]=(r[i+j]+x*y)%p
    return pmod(r,m,p)
def pgcd(f,g,p):
    while g: f,g=g,pmod(f,g,p)
    inv=pow(f[-1],-1,p)
    return [x*inv%p for x in f]
def root(f,p):
    f=[x%p for x in f]
    while f[-1]==0: f.pop()
    while len(f)>2:
        a=random.randrange(p); b=[a,1]; r=[1]; e=(p-1)//2
        while e:
            if e&1: r=pmul(r,b,f,p)
            b=pmul(b,b,f,p); e>>=1
        r=r+[0]*(1-len(r)); r[0]=(r[0]-1)%p
        while r and r[-1]==0: r.pop()
        if not r: continue
        g=pgcd(f,r,p)
        if 1<len(g)<len(f): f=g
    return -f[0]*pow(f[1],-1,p)%p
def add(P,Q,a,p):
    if P is None: return Q
    if Q is None: return P
    if P[0]==Q[0]:
        if (P[1]+Q[1])%p==0: return None
        l=(3*P[0]*P[0]+a)*pow(2*P[1],-1,p)%p
    else: l=(Q[1]-P[1])*pow(Q[0]-P[0],-1,p)%p
    x=(l*l-P[0]-Q[0])%p
    return x,(l*(P[0]-x)-P[1])%p
def mul(k,P,a,p):
    R=None
    while k:
        if k&1: R=add(R,P,a,p)
        P=add(P,P,a,p); k>>=1
    return R
def curve_for(N,D,m,q):
    g=2
    while pow(g,(N-1)//2,N)!=N-1 or (D==-3 and pow(g,(N-1)//3,N)==1): g+=1
    if D==-3: cand=[(0,pow(g,i,N)) for i in range(6)]
    elif D==-4: cand=[(pow(g,i,N),0) for i in range(4)]
    else:
        j=root(H[D],N); k=j*pow(1728-j,-1,N)%N
        a,b=3*k%N,2*k%N
        cand=[(a,b),(a*g*g%N,b*g**3%N)]
    for a,b in cand:
        for _ in range(20):
            x=random.randrange(N); y=sqrtmod(x**3+a*x+b,N)
            if y is None: continue
            P=(x,y)
            if mul(m,P,a,N) is not None: break
            Q=mul(m//q,P,a,N)
            if Q is None: continue
            assert mul(q,Q,a,N) is None
            # use a=-3 when -3/a is a fourth power
            if a:
                w=sqrtmod(-3*pow(a,-1,N),N)
                for w2 in ([w,N-w] if w is not None else []):
                    u=sqrtmod(w2,N)
                    if u is not None:
                        u2=u*u%N
                        a2=a*u2*u2%N; assert a2==N-3
                        b2=b*pow(u,6,N)%N; Q2=(Q[0]*u2%N,Q[1]*u2*u%N)
                        return a2,b2,Q2
            return a,b,Q
    raise Exception('no curve')
def pock(N,f):
    """f: known prime factors of N-1 (dict); minimal selection; returns cert or None"""
    # choose small set of factors with 2 log2 F > log2 N
    best=None
    items=sorted(f.items(),reverse=True)
    sel=[];F=1
    for p,e in sorted(items,key=lambda t:-(t[0]**t[1])):
        if 2*(F.bit_length()-1)>N.bit_length()-1: break
        sel.append((p,e)); F*=p**e
    if not 2*(F.bit_length()-1)>N.bit_length()-1: return None
    # lower exponents / drop unneeded
    changed=True
    while changed:
        changed=False
        for i,(p,e) in sorted(enumerate(sel),key=lambda t:-t[1][0]):
            F2=F//p
            if 2*(F2.bit_length()-1)>N.bit_length()-1:
                F=F2; changed=True
                sel[i]=(p,e-1)
                if e==1: sel.pop(i)
                break
    base=2
    while True:
        if pow(base,N-1,N)!=1: raise Exception('composite')
        if all(math.gcd(pow(base,(N-1)//p,N)-1,N)==1 for p,_ in sel): break
        base+=1
    return ('pock',N,base,sel)
KNOWN={}
def prove(N,log,target=60):
    """list of certificates proving N, dependencies first"""
    if N==2: return []
    if N in KNOWN: return KNOWN[N]
    bits=N.bit_length()
    if bits<=110:
        f=factor_full(N-1)
        c=pock(N,f); out=[]
        for p,_ in c[3]: out+=prove(p,log)
        KNOWN[N]=out+[c]
        return KNOWN[N]
    nm1=Part(N-1,'n-1'); cand=[]
    lst=None
    for lv in range(-1,len(LEV)):
        if lv>=0: nm1.step(lv)
        c=pock(N,nm1.f)
        if c:
            try:
                out=[]
                for p,_ in c[3]: out+=prove(p,log)
                KNOWN[N]=out+[c]; log('pock %d bits'%bits)
                return KNOWN[N]
            except Exception as e: log(str(e)[:100])
        if bits<200 and lv<1: continue
        if lst is None:
            lst=[Part(m,D) for D,m in orders(N)]
            log('%d bits: %d orders'%(bits,len(lst)))
        good=[]
        for P in lst:
            if lv>=0 and P.c>1: P.step(lv)
            q=max(P.f) if P.f else 1
            if P.c==1 and 2*(q.bit_length()-1)>=bits-1+5: good.append((q,P))
            elif P.c==1: pass
        good.sort(key=lambda t:t[0])
        if good: log('%d bits: level %d best %d bits of %d'%(bits,lv,good[0][0].bit_length(),len(good)))
        if good and (bits-good[0][0].bit_length()>=target or lv>=2):
            q,P=good[0]
            a,b,Q=curve_for(N,P.tag,P.n,q)
            out=prove(q,log,target)+[('ec',N,a,b,Q[0],Q[1],q)]
            KNOWN[N]=out
            return out
    raise Exception('stuck at %d bits'%bits)
if __name__=='__main__':
    name=sys.argv[1]; N=int(sys.argv[2]); target=int(sys.argv[3])
    def log(s): print(name,time.strftime('%H:%M:%S'),s,flush=True)
    out=prove(N,log,target)
    json.dump(out,open('/tmp/w/ecpp/%s.cert'%name,'w'))
    log('DONE '+' '.join('%s%d'%(c[0],c[1].bit_length()) for c in out if c[1].bit_length()>100))
