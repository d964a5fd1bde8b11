import re
L=open('/repo/ccpy/lib/fortran/clusteranalysis.f90').read().split('\n')
def stmts():
    out=[];cur='';start=None
    for n,l in enumerate(L[:956],1):
        t=l.split('!')[0].strip()
        if not t: continue
        if start is None: start=n
        if t.endswith('&'): cur+=t[:-1].strip()
        else:
            cur+=t; out.append((start,n,cur.replace(' ',''))); cur='';start=None
    return out
def tok(s): return re.findall(r"\d+\.\d*d\d+|\d+\.\d+|[A-Za-z_0-9]+\([a-zA-Z,]+\)|[-+*()]",s)
class P:
    def __init__(s,t): s.t=t;s.i=0
    def pk(s): return s.t[s.i] if s.i<len(s.t) else None
    def ex(s):
        sg=1
        if s.pk() in '+-': sg=-1 if s.pk()=='-' else 1; s.i+=1
        r=[(sg*c,f) for c,f in s.tm()]
        while s.pk() in ('+','-'):
            sg=-1 if s.pk()=='-' else 1; s.i+=1
            r+=[(sg*c,f) for c,f in s.tm()]
        return r
    def tm(s):
        r=s.fa()
        while s.pk()=='*':
            s.i+=1; q=s.fa(); r=[(c*d,f+g) for c,f in r for d,g in q]
        return r
    def fa(s):
        t=s.pk(); s.i+=1
        if t=='(':
            r=s.ex(); assert s.pk()==')'; s.i+=1; return r
        if re.match(r'\d',t): return [(float(t.replace('d','e')),())]
        m=re.match(r'(\w+)\((.*)\)$',t); return [(1.0,((m.group(1),tuple(x.lower() for x in m.group(2).split(','))),))]
if 0 and __name__=='__main__':
    for a,b,s in stmts():
        m=re.match(r'(t[234]\w*)\(([^)]*)\)=(.*)',s)
        if m and 'c1' in m.group(3):
            r=P(tok(m.group(3))).ex(); print(a,b,m.group(1),m.group(2),len(r))
def formulas():
    F={};sub={}
    for a,b,s in stmts():
        m=re.match(r'(c1c3|c12c2|c22|c13)=(.*)',s)
        if m and 'c1_' in s+'c1_' and 'c' in m.group(2):
            sub[m.group(1)]=m.group(2); sub.setdefault('start',a); continue
        m=re.match(r'(t[234]\w*)\(([^)]*)\)=(.*)',s)
        if m and ('c1' in m.group(3)):
            r=m.group(3)
            st=a
            for k in ('c1c3','c12c2','c22','c13'):
                if re.search(r'\+'+k+r'(?![_(\w])',r): r=re.sub(r'\+'+k+r'(?![_(\w])',lambda _:'+('+sub[k]+')',r); st=sub['start']
            F[m.group(1)]=(st,b,P(tok(r)).ex())
    return F
def spins(name):
    return {'a':'a','b':'b'}.get(name,name)
BL={'c1a':'a','c1b':'b','c2a':'aa','c2b':'ab','c2c':'bb','c3a':'aaa','c3b':'aab','c3c':'abb','c3d':'bbb'}
def blk(n):
    if n in BL: return BL[n]
    return n.split('_')[1]
def sgn(p):
    s=1
    for i in range(len(p)):
        for j in range(i): 
            if p[j]>p[i]: s=-s
    return s
def canon(block,idx):
    n=len(block); P=idx[:n];H=idx[n:]
    def srt(X):
        k=[(block[i],X[i]) for i in range(n)]
        o=sorted(range(n),key=lambda i:k[i])
        return [k[i] for i in o],sgn(o)
    p,s1=srt(P);h,s2=srt(H)
    return (tuple(p),tuple(h)),s1*s2
if __name__=='__main__':
    import itertools,collections
    F=formulas()
    def subsets(l,k):
        for S in itertools.combinations(range(len(l)),k):
            R=[i for i in range(len(l)) if i not in S]
            yield tuple(l[i] for i in S),tuple(l[i] for i in R),sgn(list(S)+R)
    def logf(P,H):
        # T = log C : sum over partitions with (-1)^(m-1)(m-1)!
        import math
        out=collections.Counter()
        def parts(P,H):
            if not P: yield (),1; return
            for k in range(1,len(P)+1):
                for S,R,s in subsets(P[1:],k-1):
                    S2=(P[0],)+S
                    for U,V,u in subsets(H,k):
                        for rest,t in parts(R,V): yield ((S2,U),)+rest, s*u*t
        for pr,s in parts(P,H):
            if any(sorted(x[0] for x in A)!=sorted(x[0] for x in B) for A,B in pr): continue
            m=len(pr); out[tuple(sorted(pr))]+=s*(-1)**(m-1)*math.factorial(m-1)
        return {k:v for k,v in out.items() if v}
    for nm,(a,b,f) in F.items():
        blk0={'t2a':'aa','t2b':'ab','t2c':'bb','t3a':'aaa','t3b':'aab','t3c':'abb','t3d':'bbb'}.get(nm) or nm.split('_')[1]
        n=len(blk0)
        Pn='abcd'[:n];Hn='ijkl'[:n]
        S=logf(tuple(zip(blk0,Pn)),tuple(zip(blk0,Hn)))
        M=collections.Counter()
        for c,fs in f:
            key=[];s=1
            for fn,ix in fs:
                if fn.endswith('_amps'): k,t=(tuple(zip(blk0,Pn)),tuple(zip(blk0,Hn))),1
                else: k,t=canon(blk(fn),ix)
                key.append(k); s*=t
            M[tuple(sorted(key))]+=s*c
        M={k:v for k,v in M.items() if v}
        diff=[(k,M.get(k,0),S.get(k,0)) for k in set(M)|set(S) if M.get(k,0)!=S.get(k,0)]
        print(nm,a,b,len(f),len(S),'DIFF' if diff else 'ok',diff[:6])
