import re,sys
sys.path.insert(0,'/tmp/w/ca')
L=open('/repo/ccpy/lib/fortran/clusteranalysis.f90').read().split('\n')
AR={'c1a':'a','c1b':'b','c2a':'aa','c2b':'ab','c2c':'bb','c3a':'aaa','c3b':'aab','c3c':'abb','c3d':'bbb',
'c1_a':'a','c1_b':'b','c2_aa':'aa','c2_ab':'ab','c2_bb':'bb','c3_aaa':'aaa','c3_aab':'aab','c3_abb':'abb','c3_bbb':'bbb'}
def conv(s):
    s=s.replace('2.0d0','2').replace('6.0d0','6').replace('1.0d0','1')
    s=re.sub(r'c4_(\w+)_amps\(idet\)','c4',s)
    def f(m):
        n=m.group(1)
        idx=[x.strip().lower() for x in m.group(2).split(',')]
        return 'c_%s C [%s]'%(AR[n],'; '.join(idx))
    s=re.sub(r'\b(c\d\w*)\(([a-zA-Z, ]+)\)',lambda m:'('+f(m)+')' if 0 else f(m),s)
    return s
def stmt(start,end):
    out=[]
    for l in L[start-1:end]:
        t=l.split('!')[0].rstrip()
        t=t.rstrip('&').strip()
        if t: out.append(t)
    return out
def body(start,end):
    ls=stmt(start,end)
    txt='\n'.join(ls)
    lhs,rhs=txt.split('=',1)
    return conv(rhs.strip())
idx={2:['a','b','i','j'],3:['a','b','c','i','j','k'],4:['a','b','c','d','i','j','k','l']}
def ind(s,n): return '\n'.join((' '*n+l.strip()) for l in s.split('\n'))
out=[]
def defn(name,rank,start,end,rhs):
    args=' '.join(idx[rank])
    out.append('(** clusteranalysis.f90 %d-%d *)'%(start,end))
    out.append('Definition %s (C : ci3)%s (%s : nat) : R :=\n%s.'%(name,' (c4 : R)' if rank==4 else '',args,ind(rhs,2)))
for nm,r,s,e in [('f_aa',2,25,27),('f_ab',2,45,46),('f_bb',2,61,63),('f_aaa',3,103,118),('f_aab',3,178,185),('f_abb',3,208,215),('f_bbb',3,238,253)]:
    defn(nm,r,s,e,body(s,e))
import parse
def find(name):
    a,b,_=parse.formulas()[name]; return a,b
for sp in ['aaaa','aaab','aabb','abbb','bbbb']:
    s,e=find('t4_%s_amps'%sp)
    if sp=='aabb':
        # sub statements
        lines=[];st=s
        parts=[];cur=[];n=s
        for k in range(s,e+1):
            t=L[k-1].split('!')[0].rstrip()
            if not t.strip(): continue
            if re.match(r'\s*(c1c3|c12c2|c22|c13|t4_aabb_amps)\b.*=',t) and cur: parts.append('\n'.join(cur)); cur=[]
            cur.append(t.rstrip('&').strip())
        parts.append('\n'.join(cur))
        rhs=''
        for p in parts[:-1]:
            l,r=p.split('=',1); rhs+='let %s := %s in\n'%(l.strip(),conv(r.strip()))
        rhs+=conv(parts[-1].split('=',1)[1].strip())
        defn('f_'+sp,4,s,e,rhs)
    else: defn('f_'+sp,4,s,e,body(s,e))
# write tables
def table(arr,s,e):
    W=[]
    for l in L[s-1:e]:
        m=re.match(r'\s*%s\(([^)]*)\)\s*=\s*(-?)(1\.0 \* )?\s*%s\(([^)]*)\)\s*$'%(arr,arr),l)
        if m:
            assert [x.strip().lower() for x in m.group(4).split(',')]==(idx[2] if arr.startswith('t2') else idx[3]),l
            W.append(([x.strip().lower() for x in m.group(1).split(',')],m.group(2)=='-'))
    return W
def wdef(name,arr,s,e,rank):
    W=[(idx[rank],False)]+table(arr,s,e)
    out.append('(** clusteranalysis.f90 %d-%d: the element itself, then its signed copies *)'%(s,e))
    rows=['([%s], %s)'%('; '.join(t),'true' if b else 'false') for t,b in W]
    txt='';line='    ['
    ls=[]
    for k in range(0,len(rows),3): ls.append('; '.join(rows[k:k+3]))
    out.append('Definition %s : writes := fun row => match row with\n  | [%s] =>\n    [%s]\n  | _ => [] end.'%(name,'; '.join(idx[rank]),';\n     '.join(ls)))
    print(name,len(W),file=sys.stderr)
wdef('wc_aa','t2a',24,34,2);wdef('wc_bb','t2c',60,70,2)
wdef('wc_aaa','t3a',102,162,3);wdef('wc_aab','t3b',177,193,3);wdef('wc_abb','t3c',207,223,3);wdef('wc_bbb','t3d',237,297,3)
open('/tmp/w/ca/gen.v','w').write('\n'.join(out)+'\n')
