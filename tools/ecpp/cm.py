# class polynomials and CM curves
import math
PREC=3000
ONE=1<<PREC
def fpi():
    def atan_inv(x):
        t=ONE//x; s=t; n=3; x2=x*x
        while t:
            t//=x2; s += -(t//n) if (n//2)%2 else t//n; n+=2
        return s
    return 4*(4*atan_inv(5)-atan_inv(239))
PI=fpi()
def fsqrt(n): return math.isqrt(n<<(2*PREC))
def fexp(x): # fixed
    k=0
    neg=x<0
    x=abs(x); 
    sh=0
    while x>>(PREC-8): x>>=1; sh+=1
    t=ONE; s=ONE; n=1
    while t:
        t=t*x>>PREC; t//=n; s+=t; n+=1
    for _ in range(sh): s=s*s>>PREC
    if neg: s=(ONE<<PREC)//s
    return s
def cossin(x): # x fixed, |x|<=2pi
    sh=8; x>>=0
    y=x>>sh
    # complex exp via taylor
    cr,ci=ONE,0; sr,si=ONE,0; n=1
    while cr or ci:
        cr,ci=(-ci*y>>PREC),(cr*y>>PREC)
        cr=cr//n if cr>=0 else -((-cr)//n); ci=ci//n if ci>=0 else -((-ci)//n)
        sr+=cr; si+=ci; n+=1
    for _ in range(sh): sr,si=(sr*sr-si*si)>>PREC,(2*sr*si)>>PREC
    return sr,si
def cmul(a,b): return ((a[0]*b[0]-a[1]*b[1])>>PREC,(a[0]*b[1]+a[1]*b[0])>>PREC)
def cdiv(a,b):
    d=(b[0]*b[0]+b[1]*b[1])>>PREC
    n=cmul(a,(b[0],-b[1]))
    return ((n[0]<<PREC)//d,(n[1]<<PREC)//d)
def jinv(a,b,D): # tau=(-b+sqrt D)/(2a)
    s=fsqrt(-D)
    mod=fexp(-(PI*s>>PREC)//a)     # |q|=exp(-2 pi Im tau)
    c,sn=cossin(-PI*b//a)
    q=(mod*c>>PREC,mod*sn>>PREC)
    # eta quotient: f = (eta(2tau)/eta(tau))^24 ; j=(256 f+1)^3/f ; Delta(2t)/Delta(t)=q*prod((1-q^2n)/(1-q^n))^24 = q*prod(1+q^n)^24
    # use pentagonal: prod(1-q^n)=sum (-1)^k q^{k(3k-1)/2}
    def euler(q):
        s=[ONE,0]; k=1
        # powers
        pw={}
        qk=(ONE,0); e=0
        sign=-1
        cur=(ONE,0); e=0
        def power(n):
            r=(ONE,0); b=q
            while n:
                if n&1: r=cmul(r,b)
                b=cmul(b,b); n>>=1
            return r
        while True:
            p1=power(k*(3*k-1)//2); p2=power(k*(3*k+1)//2)
            s[0]+=sign*(p1[0]+p2[0]); s[1]+=sign*(p1[1]+p2[1])
            if abs(p1[0])<4 and abs(p1[1])<4: break
            sign=-sign; k+=1
        return tuple(s)
    e1=euler(q); e2=euler(cmul(q,q))
    r=cdiv(e2,e1)
    p=(ONE,0)
    for _ in range(24): p=cmul(p,r)
    f=cmul(q,p)
    g=(256*f[0]+ONE,256*f[1])
    g3=cmul(g,cmul(g,g))
    return cdiv(g3,f)
def forms(D):
    r=[]; a=1
    while 3*a*a<=-D:
        for b in range(-a+1,a+1):
            if (b*b-D)%(4*a)==0:
                c=(b*b-D)//(4*a)
                if c<a or (c==a and b<0): continue
                if math.gcd(math.gcd(a,b),c)==1: r.append((a,b,c))
        a+=1
    return r
def hilbert(D):
    poly=[(ONE,0)]
    for a,b,c in forms(D):
        j=jinv(a,b,D)
        new=[(0,0)]*(len(poly)+1)
        for i,(x,y) in enumerate(poly):
            new[i+1]=(new[i+1][0]+x,new[i+1][1]+y)
            m=cmul((x,y),j); new[i]=(new[i][0]-m[0],new[i][1]-m[1])
        poly=new
    out=[]
    for x,y in poly:
        r=(x+(ONE>>1))>>PREC
        assert abs(x-(r<<PREC))<ONE>>20 and abs(y)<ONE>>20,(D,)
        out.append(r)
    return out # low to high
if __name__=='__main__':
    print(hilbert(-163), hilbert(-15), hilbert(-23))
    import json
    res={}
    def squarefree(n):
        i=2
        while i*i<=n:
            if n%(i*i)==0: return False
            i+=1
        return True
    for d in range(3,4000):
        D=-d
        if D%4==1 and squarefree(d): pass
        elif D%4==0 and squarefree(d//4) and (D//4)%4 in (2,3): pass
        else: continue
        h=len(forms(D))
        if h<=6 and d>4:
            res[D]=hilbert(D)
    json.dump(res,open('hilbert.json','w')); print(len(res))
