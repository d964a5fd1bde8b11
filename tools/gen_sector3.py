"""Generate Sector3Model.v and Sector<M>Reify.v from /repo (text only): the EOM-CC sigma vectors with three-body operators on top of CCSD
(IP 3h2p, EA 3p2h, DIP 4h2p, DEA 4p2h, spin-flip triples)."""
import sys
from math import factorial
sys.path.insert(0, "/verif/tools")
from tgen import *
from gen_eomccsd import HEAD, right, B2
from gen_ccsd import update, hbar, energy, BLK1, BLK2
CLS = {"o": 0, "v": 1, "O": 2, "V": 3}
DIM = {"o": "noa", "v": "nua", "O": "nob", "V": "nub"}
# block: (axes classes, operator string over axis positions: positive = created, ~ = annihilated)
METHODS = {
 "ipt": dict(files=["ccpy/eomcc/ipeom3_intermediates.py", "ccpy/eomcc/ipeom3.py"], lines="(HR, lines 32-44)", blocks={
   "a": ("o", "~0"), "aa": ("ovo", "1 ~2 ~0"), "ab": ("oVO", "1 ~2 ~0"),
   "aaa": ("ovvoo", "1 2 ~4 ~3 ~0"), "aab": ("ovVoO", "1 2 ~4 ~3 ~0"), "abb": ("oVVOO", "1 2 ~4 ~3 ~0")}),
 "eat": dict(files=["ccpy/eomcc/eaeom3_intermediates.py", "ccpy/eomcc/eaeom3.py"], lines="(HR, lines 28-40)", blocks={
   "a": ("v", "0"), "aa": ("vvo", "0 1 ~2"), "ab": ("vVO", "0 1 ~2"),
   "aaa": ("vvvoo", "0 1 2 ~4 ~3"), "aab": ("vvVoO", "0 1 2 ~4 ~3"), "abb": ("vVVOO", "0 1 2 ~4 ~3")}),
 "dipq": dict(files=["ccpy/eomcc/dipeom4_intermediates.py", "ccpy/eomcc/dipeom4.py"], lines="(HR, lines 30-49, flag_RHF = False)", blocks={
   "ab": ("oO", "~1 ~0"), "aba": ("oOvo", "2 ~3 ~1 ~0"), "abb": ("oOVO", "2 ~3 ~1 ~0"),
   "abaa": ("oOvvoo", "2 3 ~5 ~4 ~1 ~0"), "abab": ("oOvVoO", "2 3 ~5 ~4 ~1 ~0"), "abbb": ("oOVVOO", "2 3 ~5 ~4 ~1 ~0")}),
 "deaq": dict(files=["ccpy/eomcc/deaeom4_intermediates.py", "ccpy/eomcc/deaeom4.py"], lines="(HR, lines 30-49, flag_RHF = False)", blocks={
   "ab": ("vV", "0 1"), "aba": ("vVvo", "0 1 2 ~3"), "abb": ("vVVO", "0 1 2 ~3"),
   "abaa": ("vVvvoo", "0 1 2 3 ~5 ~4"), "abab": ("vVvVoO", "0 1 2 3 ~5 ~4"), "abbb": ("vVVVOO", "0 1 2 3 ~5 ~4")}),
 "sft": dict(files=["ccpy/eomcc/sfeomcc23_intermediates.py", "ccpy/eomcc/sfeomcc23.py"], lines="(HR, lines 28-56)", blocks={
   "b": ("Vo", "0 ~1"), "ab": ("vVoo", "0 1 ~3 ~2"), "bb": ("VVOo", "0 1 ~3 ~2"),
   "aab": ("vvVooo", "0 1 2 ~5 ~4 ~3"), "abb": ("vVVoOo", "0 1 2 ~5 ~4 ~3"), "bbb": ("VVVOOo", "0 1 2 ~5 ~4 ~3")}),
}
def groups(cls):
    """positions of equal class, in order"""
    return [[i for i, c in enumerate(cls) if c == x] for x in "ovOV" if cls.count(x) > 1]
def weight3(cls):
    w = 1
    for g in groups(cls): w *= factorial(len(g))
    return w
def swaps(cls):
    out = []
    for g in groups(cls):
        for p, q in zip(g, g[1:]):
            l = list(range(len(cls))); l[p], l[q] = l[q], l[p]; out.append(l)
    return out
def vec(m, var):
    bl = METHODS[m]["blocks"]
    return Obj(var, lambda k: base(f"{m}_{k} {var}", [DIM[c] for c in bl[k][0]]))
def sigma(m):
    P = Prog(m + "r_", f"(d : dims) (H : ints) (T : amps) (R : {m}v)", "d H T R")
    for f in METHODS[m]["files"]: P.load(f)
    P.builtin["Integral.from_empty"] = lambda p, n, env, src, want: Obj("X", lambda s: Obj(s))
    P.builtin["np.array"] = lambda *a: None
    def zl(p, n, env, src, want):
        a = p.expr(n.args[0], env, src)
        return Cell(Arr(a.axes, lambda ix, used: ("c", F(0)), a.letters), None)
    P.builtin["np.zeros_like"] = zl
    dR = Obj("dR", lambda k: None)
    P.call("HR", [dR, vec(m, "R"), amps("T"), ints("H"), False, None])
    return P, dR
def record(m):
    bl = METHODS[m]["blocks"]
    return f"Record {m}v := mk{m.capitalize()} {{ " + "; ".join(f"{m}_{b} : mat{len(x[0])}" for b, x in bl.items()) + " }."
def result(m, name, P, obj):
    return f"Definition {name} {P.ctx} : {m}v := mk{m.capitalize()} " + " ".join(f"({obj._d[b].name})" for b in METHODS[m]["blocks"]) + "."
RHEAD = """From Coq Require Import Reals Arith List ZArith.
From Verif Require Import RSum IntegralsModel TensorObjs TensorAlg %s.
Import ListNotations.
Local Open Scope nat_scope.
"""
def numbering():
    """the reified programs of CcsdReify.v, in its numbering of the arrays"""
    P, res = update(); Q, hb = hbar(); E, e = energy()
    R = Reify(); R.alias = {"U": "T"}
    R.add(P); R.add(Q)
    for b in ("aa", "bb"):
        h = f"ccsd_res_{b} d H T U"
        t4 = lambda *ix: ("t", h, ix)
        R.node(f"r_resid_{b}", list("abij"), ("add", ("sub", ("sub", t4(*"abij"), t4(*"baij")), t4(*"abji")), t4(*"baji")))
    W, _ = right()
    sub = {}
    for b in BLK1 + BLK2:
        s, xy = b.split("_")
        nm = hb.get(s).get(xy).name
        if nm.startswith("hb_"): sub[f"i_{b} H"] = "r_" + nm.split(" ")[0]
    R.add(W, subst=sub); R.add(E)
    def contr(h, y, b):
        o, v = "mn"[:len(b)], "ef"[:len(b)]
        return ("mul", ("t", h, tuple(o + v)), ("t", y, tuple(v + o)))
    for b in B2: R.r(contr(hb.get(b).get("ov" if len(b) == 1 else "oovv").name, f"x_{b} R", b), {c: c for c in "mnef"}, 0, [0], None, {}, "")
    for b in B2: R.tid(f"x_{b} T", 2 * len(b)); R.tid(f"x_{b} R", 2 * len(b))
    tables(R, params="", name="")
    assert len(R.tens) == 66, len(R.tens)
    return R, sub
def main(out="/verif/rocq/theories/", names=None):
    names = names or list(METHODS)
    t = HEAD % ("sector3", "Models the EOM-CC sigma vectors on top of CCSD with three-body operators:\n    "
        + ",\n    ".join(f"{', '.join(x['files'])} {x['lines']}" for x in METHODS.values()) + ".\n    The records hold the arrays of ccpy/models/operators.py, FockOperator (lines 182-274) and SpinFlipOperator (lines 296-338).")
    prog = {}
    for m in names:
        P, dR = sigma(m)
        prog[m] = (P, dR)
        t += f"(** {METHODS[m]['files'][-1]}: blocks of the operator, axes " + ", ".join(f"{b}: {x[0]}" for b, x in METHODS[m]["blocks"].items()) + " (o, v occupied and unoccupied; capitals beta) *)\n"
        t += record(m) + "\n" + P.text() + f"\n(** {METHODS[m]['files'][-1]} {METHODS[m]['lines']}: the vector returned *)\n" + result(m, m + "_HR", P, dR) + "\n"
    open(out + "Sector3Model.v", "w").write(t)
    R, sub = numbering()
    for m in names:
        S = Reify(); S.alias = R.alias; S.ids = dict(R.ids); S.tens = list(R.tens); S.width = dict(R.width); S.known = dict(R.known)
        for k, (b, x) in enumerate(METHODS[m]["blocks"].items()): assert S.tid(f"{m}_{b} R", len(x[0])) == 66 + k
        S.add(prog[m][0], subst=sub)
        assert len(S.tens) == 66 + len(METHODS[m]["blocks"]), S.tens[66:]
        t = f"(** Generated by tools/gen_sector3.py: the {m.upper()} sigma vector with the similarity-transformed Hamiltonian put in, reified; arrays 0-65 as in CcsdReify.v (proof support). *)\n" + RHEAD % "CcsdReify Sector3Model" + "\n".join(S.out) + "\n"
        for b in METHODS[m]["blocks"]:
            t += f"Definition s_{m}_{b} := r_{prog[m][1]._d[b].name.split(' ')[0]}.\n"
        open(out + f"Sector{m.capitalize()}Reify.v", "w").write(t)
if __name__ == "__main__":
    main(*(sys.argv[1:2] or []), *([sys.argv[2:]] if len(sys.argv) > 2 else []))
