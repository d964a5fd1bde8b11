# explicit expansions of exp(T) by set partitions, for generic spin-orbital lists
import itertools
from parse import sgn
def parts(P,H):
    # yield (sign, [(S,U),...])
    if not P:
        yield 1,[]; return
    p=P[0];rest=P[1:]
    for k in range(len(rest)+1):
        for S in itertools.combinations(range(len(rest)),k):
            R=[x for x in range(len(rest)) if x not in S]
            s1=sgn(list(S)+R)
            for U in itertools.combinations(range(len(H)),k+1):
                V=[x for x in range(len(H)) if x not in U]
                s2=sgn(list(U)+V)
                for s3,l in parts([rest[x] for x in R],[H[x] for x in V]):
                    yield s1*s2*s3,[([p]+[rest[x] for x in S],[H[x] for x in U])]+l
def expr(P,H,T='T'):
    out=''
    for s,l in parts(P,H):
        out+=(' + ' if s>0 else ' - ')+' * '.join('%s [%s] [%s]'%(T,'; '.join(a),'; '.join(b)) for a,b in l)
    return out.lstrip(' +')
if __name__=='__main__':
    names='abcd';h='ijkl'
    for n in (1,2,3,4):
        P=list(names[:n]);H=list(h[:n])
        print('Lemma exp%d : forall %s, cexp T [%s] [%s] =\n  %s.'%(n,' '.join(P+H),'; '.join(P),'; '.join(H),expr(P,H)))
        print('Proof. intros. expand. rewrite T0. field. Qed.')
