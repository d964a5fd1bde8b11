"""Products that appear in <bra| exp(T2) (S + R Q) |ref>, with S, R operators of a sector, Q a pure excitation operator: every operator only creates
particles and holes, so each contraction is an assignment of its labels to those of the bra."""
import itertools
from fractions import Fraction as F
from math import factorial
def parse(s, cls): return [(w[0] != "~", cls[int(w.strip("~"))], int(w.strip("~"))) for w in s.split()]
def groups(cls): return [[i for i, c in enumerate(cls) if c == x] for x in "ovOV" if cls.count(x) > 1]
def weight(cls):
    w = 1
    for g in groups(cls): w *= factorial(len(g))
    return w
def parity(p):
    s, p = 1, list(p)
    for i in range(len(p)):
        for j in range(i):
            if p[j] > p[i]: s = -s
    return s
def canon(name, cls, ix):
    """antisymmetric array element with the indices of each group in increasing order"""
    ix, s = list(ix), 1
    for g in groups(cls):
        v = [ix[i] for i in g]; s *= parity(v)
        for i, x in zip(g, sorted(v)): ix[i] = x
    return s, (name, tuple(ix))
def assignments(bra, ops):
    """all perfect matchings of ops (list of (dagger, class, key)) with the adjoint of bra string; yields (sign, key -> bra label)"""
    n = len(ops)
    if len(bra) != n: return
    # <bra adjoint ops> : bra (list of (dagger, class, label)) times ops; contraction pairs bra[i] with ops[j]
    def rec(i, free, m, pairs):
        if i == n:
            # sign of the pairing of positions i < n + j
            ps = [(a, n + b) for a, b in pairs]; s = 1
            for (a, b), (c, d) in itertools.combinations(ps, 2):
                if a < c < b < d or c < a < d < b: s = -s
            yield s, dict(m); return
        d, c, x = bra[i]
        for j in free:
            e, c2, k = ops[j]
            if e != d and c2 == c: yield from rec(i + 1, [f for f in free if f != j], m + [(k, x)], pairs + [(i, j)])
    yield from rec(0, list(range(n)), [], [])
def product(bra, factors):
    """factors: list of (name, cls, string).  Returns dict (tuple of array elements) -> coefficient"""
    ops = []
    for f, (nm, cls, s) in enumerate(factors): ops += [(d, c, (f, i)) for d, c, i in parse(s, cls)]
    out = {}
    w = 1
    for _, cls, _ in factors: w *= weight(cls)
    for sg, m in assignments(bra, ops):
        q, key = F(sg, w), []
        for f, (nm, cls, s) in enumerate(factors):
            t, k = canon(nm, cls, [m[(f, i)] for i in range(len(cls))]); q *= t; key.append(k)
        key = tuple(key)
        out[key] = out.get(key, 0) + q
    return {k: q for k, q in out.items() if q}
def adjoint(s, cls): return [(not d, c, x) for d, c, x in reversed(parse(s, cls))]
T2 = [("t_aa", "vvoo", "0 1 ~3 ~2"), ("t_ab", "vVoO", "0 1 ~3 ~2"), ("t_bb", "VVOO", "0 1 ~3 ~2")]
RES = [("r_a", "vo", "0 ~1"), ("r_b", "VO", "0 ~1"), ("r_aa", "vvoo", "0 1 ~3 ~2"), ("r_ab", "vVoO", "0 1 ~3 ~2"), ("r_bb", "VVOO", "0 1 ~3 ~2")]
def add(a, b):
    for k, q in b.items():
        a[k] = a.get(k, 0) + q
        if not a[k]: del a[k]
def expand(bra, tail, cluster=T2):
    """<bra| exp(T) tail |ref>: sums over powers of the cluster operators"""
    out = {}
    n = len(bra)
    for f in tail:
        rest = n - sum(len(x[1]) for x in f)
        def go(i, left, fs, q):
            if left == 0:
                for k, c in product(bra, fs + f).items(): add(out, {k: c * q})
                return
            if i == len(cluster): return
            k, l = 0, left
            while l >= 0:
                go(i + 1, l, fs + [cluster[i]] * k, q / factorial(k)); k += 1; l -= len(cluster[i][1])
        if rest >= 0: go(0, rest, [], F(1))
    return out
if __name__ == "__main__":
    from gen_sector3 import METHODS
    for m in METHODS:
        bl = METHODS[m]["blocks"]
        for b, (cls, s) in bl.items():
            bra = adjoint(s, cls)
            R = [[("R_" + x, c, t)] for x, (c, t) in bl.items()]
            S = [[("S_" + x, c, t)] for x, (c, t) in bl.items()]
            RQ = [[("R_" + x, c, t), r] for x, (c, t) in bl.items() for r in RES]
            print(m, b, len(expand(bra, R)), len(expand(bra, S)), len(expand(bra, RQ)))
            if m == "ipt": print(expand(bra, R))
