"""Reads the triples loops of /repo/ccpy/lib/fortran/crcc_loops.f90 (crcc23A_opt .. crcc23D_opt) as text: dgemm calls become sums over the contracted index,
reorder_stripe calls become index permutations (proved correct for every permutation in ReorderProps.v, C36)."""
import re
from fractions import Fraction as F
SRC = "/repo/ccpy/lib/fortran/crcc_loops.f90"
def joined(name):
    """logical lines (continuations joined, comments removed) of one subroutine with the numbers of their first and last source lines"""
    lines = open(SRC).read().split("\n")
    s = next(k for k, l in enumerate(lines) if re.match(rf"\s*subroutine {name}\(", l, re.I))
    e = next(k for k, l in enumerate(lines) if re.match(rf"\s*end subroutine {name}\b", l, re.I))
    out, cur, st = [], "", None
    for k in range(s, e + 1):
        l = lines[k]
        c = l.find("!")
        if c >= 0: l = l[:c]
        l = l.strip()
        if not l: continue
        if st is None: st = k + 1
        cur += l.rstrip("&").strip() if l.endswith("&") else l
        if not l.endswith("&"):
            out.append((st, k + 1, cur)); cur, st = "", None
    return out
def args(t):
    """split at top-level commas"""
    out, depth, cur = [], 0, ""
    for c in t:
        if c == "," and depth == 0: out.append(cur.strip()); cur = ""
        else:
            depth += (c == "(") - (c == ")"); cur += c
    return out + [cur.strip()]
def ref(t):
    m = re.match(r"^(\w+)(?:\((.*)\))?$", t.strip())
    return m.group(1), (args(m.group(2)) if m.group(2) else [])
class Loops:
    def __init__(self, name):
        self.name = name
        self.formals, self.decl, self.alias = None, {}, {}
        self.gemm, self.temps, self.D, self.do = [], {}, [], []
        self.ranges = {}
        for a, b, t in joined(name):
            if t.lower().startswith("subroutine"):
                self.formals = args(t[t.index("(") + 1:t.rindex(")")])
            elif "::" in t:
                for x in args(t.split("::")[1]):
                    nm, ix = ref(x)
                    self.decl[nm] = [i.split(":")[-1] for i in ix]
            elif t.startswith("call reorder_stripe"):
                x = args(t[t.index("(") + 1:t.rindex(")")])
                self.alias[x[5]] = (x[4], [int(c) - 1 for c in x[3].strip("'")])
                assert x[1] == f"shape({x[4]})"
            elif t.startswith("do "):
                m = re.match(r"do (\w)\s*=\s*(\S+?)\s*,\s*(\w+)$", t)
                self.do.append((m.group(1), m.group(2), m.group(3)))
            elif t.startswith("call dgemm"):
                x = args(t[t.index("(") + 1:t.rindex(")")])
                ta, tb, m, n, k, al, A, lda, B, ldb, be, C, ldc = x
                assert ta == "'n'" and be == "1.0d0"
                self.gemm.append((a, b, C, F(al.replace("d0", "")), A, tb == "'t'", B, (m, n, k)))
            elif t.startswith("temp"):
                nm, e = [z.strip() for z in t.split("=", 1)]
                if e.startswith(nm):
                    a0, _, e0 = self.temps[nm]
                    self.temps[nm] = (a0, b, e0 + e[len(nm):].strip())
                else: self.temps[nm] = (a, b, e)
            elif re.match(r"D\s*=", t):
                self.D.append((a, b, t.split("=", 1)[1].strip()))
            elif re.match(r"(LM1?|d?delta[A-D])\s*=", t):
                self.temps.setdefault("lines", []).append((a, b, t))
    def canon(self, nm):
        for k in self.formals + list(self.decl):
            if k.lower() == nm.lower(): return k
        return nm
    def dim(self, nm):
        for k, v in self.decl.items():
            if k.lower() == nm.lower(): return v
        raise KeyError(nm)
    def elem(self, nm, ix):
        """element of a formal array, following reordered copies"""
        for k, (src, p) in self.alias.items():
            if k.lower() == nm.lower():
                # axis q of the copy is axis p[q] of the source
                jx = [None] * len(p)
                for q, x in enumerate(ix): jx[p[q]] = x
                return self.canon(src), jx
        return self.canon(nm), ix
    def gemms(self, C, out):
        """list of (coefficient, contracted index and its dimension, factor A, factor B) for C(out)"""
        res = []
        for a, b, c, al, A, tb, B, mnk in self.gemm:
            if c.lower() != C.lower(): continue
            an, ai = ref(A); bn, bi = ref(B)
            ad = [d for d, i in zip(self.dim(an), ai) if i == ":"]; bd = [d for d, i in zip(self.dim(bn), bi) if i == ":"]
            k = ad[-1]
            assert (bd[-1] if tb else bd[0]) == k and mnk[2] == k, (self.name, a)
            na = len(ad) - 1
            pr = lambda l: {("nua", "nua"): "nua2", ("nub", "nub"): "nub2", ("nua", "nub"): "nuanub"}.get(tuple(l), l[0] if len(l) == 1 else None)
            nb = bd[:-1] if tb else bd[1:]
            assert pr(ad[:-1]) == mnk[0] and pr(nb) == mnk[1], (self.name, a, ad, bd, mnk)
            assert self.dim(C) == ad[:-1] + nb, (self.name, a)
            v = "m" if k.startswith("no") else "e"
            fa = list(out[:na]) + [v]
            fb = list(out[na:]) + [v] if tb else [v] + list(out[na:])
            fill = lambda ix, f: [f.pop(0) if i == ":" else i for i in ix]
            res.append((al, v, k, self.elem(an, fill(ai, fa)), self.elem(bn, fill(bi, fb)), (a, b)))
        return res
    def expr(self, t):
        """signed products of array elements"""
        out = []
        t = t.replace(" ", "")
        for s, e in re.findall(r"([+-]?)((?:\w+\([^()]*\)\*?)+)", t):
            out.append((-1 if s == "-" else 1, [self.elem(*ref(x)) for x in re.findall(r"\w+\([^()]*\)", e)]))
        chk = "".join(s + e for s, e in re.findall(r"([+-]?)((?:\w+\([^()]*\)\*?)+)", t))
        assert chk == t, (t, chk)
        return out
if __name__ == "__main__":
    for x in "ABCD":
        L = Loops(f"crcc23{x}_opt")
        print(x, L.do, len(L.gemm), len(L.D), {k: len(L.expr(v[2])) for k, v in L.temps.items() if k != "lines"})
        print(L.gemms("X3" + x, "abc")[0], L.temps["lines"])
        print([d for d in L.D][2:])
