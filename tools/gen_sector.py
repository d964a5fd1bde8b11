"""Generate SectorModel.v and SectorReify.v from /repo (text only): the EOM-CC sigma vectors that change the number of electrons or flip a spin
(IP, EA, DIP, DEA, TEA, spin-flip) on top of CCSD, and the left IP and EA vectors."""
import sys
sys.path.insert(0, "/verif/tools")
from tgen import *
from gen_eomccsd import HEAD, right, B2
from gen_ccsd import update, hbar, energy, BLK1, BLK2
CLS = {"o": 0, "v": 1, "O": 2, "V": 3}
DIM = {"o": "noa", "v": "nua", "O": "nob", "V": "nub"}
# block: (axes classes, operator string over axis positions: positive = created, ~ = annihilated, weight denominator, antisymmetric pair)
METHODS = {
 "ip": dict(file="ccpy/eomcc/ipeom2.py", lines="(HR, lines 27-33)", blocks={
   "a": ("o", "~0", 1, None), "aa": ("ovo", "1 ~2 ~0", 2, (0, 2)), "ab": ("oVO", "1 ~2 ~0", 1, None)}),
 "ea": dict(file="ccpy/eomcc/eaeom2.py", lines="(HR, lines 23-29)", blocks={
   "a": ("v", "0", 1, None), "aa": ("vvo", "0 1 ~2", 2, (0, 1)), "ab": ("vVO", "0 1 ~2", 1, None)}),
 "sf": dict(file="ccpy/eomcc/sfeomccsd.py", lines="(HR, lines 24-46)", blocks={
   "b": ("Vo", "0 ~1", 1, None), "ab": ("vVoo", "0 1 ~3 ~2", 2, (2, 3)), "bb": ("VVOo", "0 1 ~3 ~2", 2, (0, 1))}),
 "dip": dict(file="ccpy/eomcc/dipeom3.py", lines="(HR, lines 25-36, flag_RHF = False)", blocks={
   "ab": ("oO", "~1 ~0", 1, None), "aba": ("oOvo", "2 ~3 ~1 ~0", 2, (0, 3)), "abb": ("oOVO", "2 ~3 ~1 ~0", 2, (1, 3))}),
 "dea2": dict(file="ccpy/eomcc/deaeom2.py", lines="(HR, lines 19-23)", blocks={"ab": ("vV", "0 1", 1, None)}),
 "dea": dict(file="ccpy/eomcc/deaeom3.py", lines="(HR, lines 25-36, flag_RHF = False)", blocks={
   "ab": ("vV", "0 1", 1, None), "aba": ("vVvo", "0 1 2 ~3", 2, (0, 2)), "abb": ("vVVO", "0 1 2 ~3", 2, (1, 2))}),
 "tea": dict(file="ccpy/eomcc/teaeom2.py", lines="(HR, lines 20-24)", blocks={"aab": ("vvV", "0 1 2", 2, (0, 1))}),
}
LEFT = {"ip": "ccpy/left/left_ipeom2.py", "ea": "ccpy/left/left_eaeom2.py"}
def vec(m, var):
    bl = METHODS[m]["blocks"]
    return Obj(var, lambda k: base(f"{m}_{k} {var}", [DIM[c] for c in bl[k][0]]))
def sigma(m):
    P = Prog(m + "r_", f"(d : dims) (H : ints) (T : amps) (R : {m}v)", "d H T R")
    P.load(METHODS[m]["file"])
    dR = Obj("dR", lambda k: None)
    P.call("HR", [dR, vec(m, "R"), amps("T"), ints("H"), False, None])
    return P, dR
def lsigma(m):
    P = Prog(m + "l_", f"(d : dims) (H : ints) (T : amps) (L : {m}v)", "d H T L")
    P.load(LEFT[m])
    LH = Obj("LH", lambda k: None)
    P.call("LH_fun", [LH, vec(m, "L"), amps("T"), ints("H"), False, None])
    return P, LH
def record(m):
    bl = METHODS[m]["blocks"]
    return f"Record {m}v := mk{m.capitalize()} {{ " + "; ".join(f"{m}_{b} : mat{len(x[0])}" for b, x in bl.items()) + " }."
def result(m, name, P, obj):
    return f"Definition {name} {P.ctx} : {m}v := mk{m.capitalize()} " + " ".join(f"({obj._d[b].name})" for b in METHODS[m]["blocks"]) + "."
def vdot(m, L, Rh):
    tot = None
    for b, (cls, ops, w, anti) in METHODS[m]["blocks"].items():
        ix = tuple("abcd"[:len(cls)])
        t = ("mul", ("t", L[b], ix), ("t", Rh[b], ix))
        for x, c in reversed(list(zip(ix, cls))): t = ("sum", x, DIM[c], t)
        if w != 1: t = ("scale", F(1, w), t)
        tot = t if tot is None else ("add", tot, t)
    return tot
def vgens(m):
    def g(head, closed=False):
        f, var = head.split(" ")
        pre, b = f.split("_", 1)
        if pre == m:
            cls, ops, w, anti = METHODS[m]["blocks"][b]
            if anti:
                p = list(range(len(cls))); p[anti[0]], p[anti[1]] = p[anti[1]], p[anti[0]]
                return [(head, p, False)]
            return []
        return gens(head)
    return g
RHEAD = """From Coq Require Import Reals Arith List ZArith.
From Verif Require Import RSum IntegralsModel TensorObjs TensorAlg %s.
Import ListNotations.
Local Open Scope nat_scope.
"""
def main(out="/verif/rocq/theories/"):
    t = HEAD % ("sector", "Models the EOM-CC sigma vectors on top of CCSD that remove, attach or spin-flip electrons:\n    "
        + ",\n    ".join(f"{x['file']} {x['lines']}" for x in METHODS.values()) + ",\n    and the left vectors ccpy/left/left_ipeom2.py (LH_fun, lines 35-41), ccpy/left/left_eaeom2.py (LH_fun, lines 18-24).\n    The records hold the arrays of ccpy/models/operators.py, FockOperator (lines 182-274) and SpinFlipOperator (lines 296-338).")
    prog = {}
    for m in METHODS:
        P, dR = sigma(m)
        prog[m] = (P, dR)
        t += f"(** {METHODS[m]['file']}: blocks of the operator, axes " + ", ".join(f"{b}: {x[0]}" for b, x in METHODS[m]["blocks"].items()) + " (o, v occupied and unoccupied; capitals beta) *)\n"
        t += record(m) + "\n" + P.text() + f"\n(** {METHODS[m]['file']} {METHODS[m]['lines']}: the vector returned *)\n" + result(m, m + "_HR", P, dR) + "\n"
    lprog = {}
    for m in LEFT:
        Q, LH = lsigma(m)
        lprog[m] = (Q, LH)
        t += Q.text() + f"\n(** {LEFT[m]}, LH_fun: the vector returned *)\n" + result(m, m + "_LH", Q, LH) + "\n"
    open(out + "SectorModel.v", "w").write(t)
    # ---- left against right
    for m in LEFT:
        R = Reify()
        R.add(prog[m][0]); R.add(lprog[m][0])
        bl = METHODS[m]["blocks"]
        R.node(f"r_{m}_lhs", [], vdot(m, {b: f"{m}_{b} L" for b in bl}, {b: prog[m][1]._d[b].name for b in bl}))
        R.node(f"r_{m}_rhs", [], vdot(m, {b: lprog[m][1]._d[b].name for b in bl}, {b: f"{m}_{b} R" for b in bl}))
        t = f"(** Generated by tools/gen_sector.py: reified right and left {m.upper()} programs (proof support). *)\n" + RHEAD % "SectorModel" + "\n".join(R.out) + "\n"
        t += tables(R, gen=vgens(m), params=f"(d : dims) (H : ints) (T : amps) (L R : {m}v)", name=f"{m}lr_")
        open(out + f"Sector{m.capitalize()}Left.v", "w").write(t)
    # ---- sigma vectors with Hbar put in, in the numbering of CcsdReify.v
    P, res = update(); Q, hb = hbar(); E, e = energy()
    R = Reify(); R.alias = {"U": "T"}
    R.add(P); R.add(Q)
    for b in ("aa", "bb"):
        h = f"ccsd_res_{b} d H T U"
        t4 = lambda *ix: ("t", h, ix)
        R.node(f"r_resid_{b}", list("abij"), ("add", ("sub", ("sub", t4(*"abij"), t4(*"baij")), t4(*"abji")), t4(*"baji")))
    W, _ = right()
    sub = {}
    for b in BLK1 + BLK2:
        s, xy = b.split("_")
        nm = hb.get(s).get(xy).name
        if nm.startswith("hb_"): sub[f"i_{b} H"] = "r_" + nm.split(" ")[0]
    R.add(W, subst=sub); R.add(E)
    tot = [hb.get(b).get("ov" if len(b) == 1 else "oovv").name for b in B2]   # order of first use as in gen_ccsd.py
    def contr(h, y, b):
        o, v = "mn"[:len(b)], "ef"[:len(b)]
        return ("mul", ("t", h, tuple(o + v)), ("t", y, tuple(v + o)))
    for b in B2: R.r(contr(hb.get(b).get("ov" if len(b) == 1 else "oovv").name, f"x_{b} R", b), {c: c for c in "mnef"}, 0, [0], None, {}, "")
    for b in B2: R.tid(f"x_{b} T", 2 * len(b)); R.tid(f"x_{b} R", 2 * len(b))
    tables(R, params="", name="")
    assert len(R.tens) == 66, len(R.tens)
    for m in METHODS:
        S = Reify(); S.alias = R.alias; S.ids = dict(R.ids); S.tens = list(R.tens); S.width = dict(R.width); S.known = dict(R.known)
        for k, (b, x) in enumerate(METHODS[m]["blocks"].items()): assert S.tid(f"{m}_{b} R", len(x[0])) == 66 + k
        S.add(prog[m][0], subst=sub)
        assert len(S.tens) == 66 + len(METHODS[m]["blocks"]), S.tens[66:]
        t = f"(** Generated by tools/gen_sector.py: the {m.upper()} sigma vector with the similarity-transformed Hamiltonian put in, reified; arrays 0-65 as in CcsdReify.v (proof support). *)\n" + RHEAD % "CcsdReify SectorModel" + "\n".join(S.out) + "\n"
        for b in METHODS[m]["blocks"]:
            t += f"Definition s_{m}_{b} := r_{prog[m][1]._d[b].name.split(' ')[0]}.\n"
        open(out + f"Sector{m.capitalize()}Reify.v", "w").write(t)
if __name__ == "__main__":
    main(*sys.argv[1:])
