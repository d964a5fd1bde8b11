"""Generate LeftSdtModel.v and LeftSdtReify.v from /repo (text only): the left EOMCCSDT vector, against the right one of gen_eomsdt.py."""
import sys
sys.path.insert(0, "/verif/tools")
from tgen import *
from gen_eomccsd import HEAD, final
from gen_ccsdt import BL
from gen_eomsdt import right
from gen_left3 import pre, expand, coq
DIM = {"a": ("nua", "noa"), "b": ("nub", "nob")}
def lsigma():
    P = Prog("leftt_", "(d : dims) (H : ints) (T L : amps)", "d H T L")
    P.load("ccpy/left/left_cc_intermediates.py"); P.load("ccpy/left/left_ccsdt.py")
    P.builtin["Integral.from_empty"] = lambda p, n, env, src, want: empty("X")
    LH = Obj("LH", lambda k: None)
    P.call("LH_fun", [LH, amps("L"), amps("T"), ints("H"), False, None])
    return P, LH
def weight(b):
    w = 1
    for s in "ab":
        k = b.count(s); w *= {0: 1, 1: 1, 2: 4, 3: 36}[k] if k > 1 else 1
    return w
def vdot(L, Rh, weighted=True, blocks=BL):
    tot = None
    for b in blocks:
        ix = tuple("abc"[:len(b)] + "ijk"[:len(b)]); cls = [DIM[s][0] for s in b] + [DIM[s][1] for s in b]
        t = ("mul", ("t", L[b], ix), Rh[b](ix) if callable(Rh[b]) else ("t", Rh[b], ix))
        for x, c in reversed(list(zip(ix, cls))): t = ("sum", x, c, t)
        if weighted and weight(b) != 1: t = ("scale", F(1, weight(b)), t)
        tot = t if tot is None else ("add", tot, t)
    return tot
def rec(f):
    return "mkAmps " + " ".join(f(b) for b in BL)
def main(out="/verif/rocq/theories/"):
    Q, LH = lsigma()
    t = HEAD % ("left_sdt", "Models the left EOMCCSDT vector: ccpy/left/left_cc_intermediates.py (build_left_ccsdt_intermediates), ccpy/left/left_ccsdt.py (LH_fun, flag_RHF = False).")
    t += Q.text() + "\n(** left_ccsdt.py, LH_fun: the vector returned *)\n" + final("leftt_LH", Q.ctx, LH, BL) + "\n"
    open(out + "LeftSdtModel.v", "w").write(t)
    P, dR = right()
    R = Reify()
    R.add(P); R.add(Q)
    full = {"r": (P, {b: dR._d[b].name for b in BL}), "l": (Q, {b: LH._d[b].name for b in BL})}
    base = {k: {b: pre(full[k][0], full[k][1][b]) for b in BL} for k in full}
    print(base)
    R.node("r_lt_lhs", [], vdot({b: f"x_{b} L" for b in BL}, {b: base["r"][b] + " _" for b in BL}, False))
    R.node("r_lt_rhs", [], vdot({b: f"x_{b} R" for b in BL}, {b: base["l"][b] + " _" for b in BL}, False))
    s = """(** Generated by tools/gen_left_sdt.py: reified right and left EOMCCSDT programs (proof support). *)
From Coq Require Import Reals Arith List ZArith.
From Verif Require Import RSum IntegralsModel TensorObjs TensorAlg EomsdtModel LeftSdtModel.
Import ListNotations.
Local Open Scope nat_scope.
""" + "\n".join(R.out) + "\n"
    s += tables(R, params="(d : dims) (H : ints) (T L R : amps)", name="lt_")
    A = Reify()
    for k in full:
        ex = {b: expand(full[k][0], full[k][1][b], base[k][b], f"x_{b} Q") for b in BL}
        A.node(f"r_lt_asym_{k}", [], vdot({b: f"x_{b} L" for b in BL}, ex))
        ix = lambda b: "abc"[:len(b)] + "ijk"[:len(b)]
        s += f"Definition lt_asym_{k} (Q : amps) : amps := " + rec(lambda b: "(fun " + " ".join(ix(b)) + " => " + coq(ex[b](ix(b))) + ")%R") + ".\n"
        s += f"Definition lt_pre_{k} (d : dims) (H : ints) (T Y : amps) : amps := " + rec(lambda b: f"({base[k][b]} d H T Y)") + ".\n"
    A.node("r_lt_plain", [], vdot({b: f"x_{b} L" for b in BL}, {b: f"x_{b} Q" for b in BL}, False))
    s += "\n".join(A.out) + "\n"
    s += tables(A, gen=lambda h, closed=False: gens(h) if h.endswith(" L") else [], params="(L Q : amps)", name="ltas_")
    open(out + "LeftSdtReify.v", "w").write(s)
if __name__ == "__main__":
    main(*sys.argv[1:])
