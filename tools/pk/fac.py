import random,math,sys
def isp(n):
    if n<2: return False
    for q in (2,3,5,7,11,13,17,19,23,29,31,37):
        if n%q==0: return n==q
    d=n-1;s=0
    while d%2==0: d//=2;s+=1
    for a in [2,3,5,7,11,13,17,19,23,29,31,37]+[random.randrange(2,n-1) for _ in range(8)]:
        x=pow(a,d,n)
        if x in(1,n-1): continue
        for _ in range(s-1):
            x=x*x%n
            if x==n-1: break
        else: return False
    return True
def rho(n,lim=200000):
    if n%2==0: return 2
    for c in (1,3):
        y=2;g=1;r=1;q=1;it=0
        while g==1 and it<lim:
            x=y
            for _ in range(r): y=(y*y+c)%n
            k=0
            while k<r and g==1:
                ys=y
                for _ in range(min(128,r-k)):
                    y=(y*y+c)%n;q=q*abs(x-y)%n
                g=math.gcd(q,n);k+=128;it+=128
            r*=2
        if g==n:
            g=1
            while g==1:
                ys=(ys*ys+c)%n;g=math.gcd(abs(x-ys),n)
        if 1<g<n: return g
    return None
def primes(n):
    s=bytearray([1])*(n+1);s[0:2]=b'\0\0'
    for i in range(2,int(n**.5)+1):
        if s[i]: s[i*i::i]=bytearray(len(s[i*i::i]))
    return [i for i in range(n+1) if s[i]]
PR=primes(2000000)
def ecm(n,B1,B2,curves):
    for _ in range(curves):
        sg=random.randrange(6,2**31)
        u=(sg*sg-5)%n;v=4*sg%n
        x=pow(u,3,n);z=pow(v,3,n)
        try: a24=(pow(v-u,3,n)*(3*u+v)*pow(16*x*v,-1,n))%n   # (A+2)/4
        except ValueError:
            g=math.gcd(16*x*v,n)
            if 1<g<n:return g
            continue
        def dbl(P):
            X,Z=P;s=(X+Z)*(X+Z)%n;d=(X-Z)*(X-Z)%n;t=s-d
            return s*d%n,t*(d+a24*t)%n
        def add(P,Q,D):
            a=(P[0]-P[1])*(Q[0]+Q[1]);b=(P[0]+P[1])*(Q[0]-Q[1])
            s=a+b;d=a-b
            return D[1]*(s*s%n)%n,D[0]*(d*d%n)%n
        def mul(k,P):
            R0,R1=P,dbl(P)
            for b in bin(k)[3:]:
                if b=='1': R0,R1=add(R0,R1,P),dbl(R1)
                else: R0,R1=dbl(R0),add(R0,R1,P)
            return R0
        Q=(x,z);k=1
        for p in PR:
            if p>B1: break
            e=p
            while e*p<=B1: e*=p
            k*=e
            if k.bit_length()>2000: Q=mul(k,Q);k=1
        Q=mul(k,Q)
        g=math.gcd(Q[1],n)
        if 1<g<n: return g
        if g==n: continue
        # stage2 simple baby-giant
        D=210
        S=[None]*(D+1)
        S[1]=Q;Q2=dbl(Q);S[2]=Q2;
        S[3]=add(Q2,Q,Q)
        j=5
        odd={1:Q,3:S[3]}
        while j<D//2+2:
            odd[j]=add(odd[j-2],Q2,odd[j-4]) if j>=5 else None;j+=2
        QD=mul(D,Q);m=B1//D
        T=mul(m,QD) if m>1 else QD;Tm=mul(m+1,QD)
        acc=1
        js=[j for j in odd if math.gcd(j,D)==1]
        while m*D<B2:
            for j in js:
                acc=acc*(T[0]*odd[j][1]-odd[j][0]*T[1])%n
            T,Tm=Tm,add(Tm,QD,T);m+=1
        g=math.gcd(acc,n)
        if 1<g<n: return g
    return None
def factor(n,target=None,verbose=True,budget=((2000,100000,30),(11000,800000,60),(50000,3000000,150))):
    out=[];st=[]
    for p in PR[:100000]:
        while n%p==0: out.append(p);n//=p
    if n>1: st=[n]
    comp=[]
    while st:
        n=st.pop()
        if isp(n): out.append(n); continue
        g=rho(n)
        if not g:
            for B1,B2,c in budget:
                g=ecm(n,B1,B2,c)
                if g: break
        if g: st+=[g,n//g]
        else: comp.append(n)
    return sorted(out),comp
if __name__=='__main__':
    names={'25519':2**255-19,'448':2**448-2**224-1,'p256':2**256-2**224+2**192+2**96-1,'p384':2**384-2**128-2**96+2**32-1,'sm2':2**256-2**224-2**96+2**64-1}
    k=sys.argv[1]
    N=names[k] if k in names else eval(k)
    parts=[N-1]
    if k=='448': parts=[2**224+1,2**223-1]
    for x in parts: print(k,factor(x),flush=True)
