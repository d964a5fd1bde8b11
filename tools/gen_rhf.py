"""Generate RhfModel.v (CCSD and CCD updates, CCSD Hbar, right and left EOMCCSD vectors with flag_RHF = True; CCD with flag_RHF = False) and
RhfReify.v from /repo (text only)."""
import sys
sys.path.insert(0, "/verif/tools")
import tgen
from tgen import *
import gen_ccsd, gen_eomccsd
from gen_eomccsd import HEAD, final, B2
from gen_ccsd import SP, BLK1, BLK2, blocks
def upd(prefix, path, extra, flag):
    P = Prog(prefix, "(d : dims) (H : ints) (T U : amps)", "d H T U")
    for e in extra: P.load(e)
    P.load(path)
    res = {}
    def loop(key):
        b = SP[key]
        def f(p, n, env, src, want):
            res[b] = p.define("res_" + b, p.expr(n.args[1], env, src), src)
            return (base(f"x_{b} U", amp_axes(b)), res[b])
        return f
    for k in SP: P.builtin["cc_loops2.update_" + k] = loop(k)
    P.call("update", [amps("T"), Obj("dT", lambda k: None), ints("H"), empty("X"), None, flag])
    return P, res
def hbar(prefix, flag):
    P = Prog(prefix, "(d : dims) (H : ints) (T : amps)", "d H T")
    P.load("ccpy/hbar/hbar_ccsd.py")
    return P, P.call("build_hbar_ccsd", [amps("T"), ints("H"), flag])
def right(prefix, flag):
    P = Prog(prefix, "(d : dims) (H : ints) (T R : amps)", "d H T R")
    P.load("ccpy/eomcc/eomccsd_intermediates.py"); P.load("ccpy/eomcc/eomccsd.py")
    P.builtin["Integral.from_empty"] = lambda p, n, env, src, want: empty("X")
    dR = Obj("dR", lambda k: None)
    P.call("HR", [dR, amps("R"), amps("T"), ints("H"), flag, None])
    return P, dR
def left(prefix, flag):
    P = Prog(prefix, "(d : dims) (H : ints) (T L : amps)", "d H T L")
    P.load("ccpy/left/left_cc_intermediates.py"); P.load("ccpy/left/left_ccsd.py")
    P.builtin["Integral.from_empty"] = lambda p, n, env, src, want: empty("X")
    LH = Obj("LH", lambda k: None)
    P.call("LH_fun", [LH, amps("L"), amps("T"), ints("H"), flag, None])
    return P, LH
if __name__ == "__main__":
    CC = ("ccpy/cc/ccsd.py", ("ccpy/hbar/hbar_ccs.py",))
    # unrestricted programs, as in CcsdModel.v and EomModel.v (CCD is new)
    uC, rC = upd("ccsd_", *CC, False); uD, rD = upd("ccd_", "ccpy/cc/ccd.py", (), False)
    uH, hH = hbar("hb_", False); uR, oR = right("eom_", False); uL, oL = left("left_", False)
    # restricted programs: the spins share the axis lengths
    tgen.VIRT["b"], tgen.OCC["b"] = "nua", "noa"
    pC, sC = upd("rccsd_", *CC, True); pD, sD = upd("rccd_", "ccpy/cc/ccd.py", (), True)
    pH, kH = hbar("rhb_", True); pR, qR = right("reom_", True); pL, qL = left("rleft_", True)
    tgen.VIRT["b"], tgen.OCC["b"] = "nub", "nob"
    t = HEAD % ("rhf", "Models ccpy/cc/ccd.py (update, update_t2a .. update_t2c) with flag_RHF = False (ccd_) and True (rccd_), and with flag_RHF = True:\n    ccpy/cc/ccsd.py and ccpy/hbar/hbar_ccs.py (rccsd_), ccpy/hbar/hbar_ccsd.py (rhb_), ccpy/eomcc/eomccsd.py with its intermediates (reom_),\n    ccpy/left/left_ccsd.py with its intermediates (rleft_).  With the flag set the alpha and beta spaces have the same size: all axis lengths are written\n    with the alpha sizes.  T holds the amplitudes on entry of update and U the blocks that have been overwritten by the time they are read; res_x is the array\n    handed to the Fortran routine cc_loops2.update_x.")
    t += uD.text() + "\n" + pD.text() + "\n" + pC.text() + "\n" + pH.text() + "\n"
    t += "(** hbar_ccsd.py, build_hbar_ccsd, line 299, flag_RHF = True *)\n" + f"Definition rhbar_ccsd {pH.ctx} : ints := {blocks(kH)}.\n"
    t += pR.text() + "\n(** eomccsd.py, HR, lines 31-48, flag_RHF = True *)\n" + final("reom_HR", pR.ctx, qR, B2) + "\n"
    t += pL.text() + "\n(** left_ccsd.py, LH_fun, lines 71-89, flag_RHF = True *)\n" + final("rleft_LH", pL.ctx, qL, B2) + "\n"
    open("/verif/rocq/theories/RhfModel.v", "w").write(t)

    R = Reify()
    R.alias = {"U": "T", "L": "R"}
    for p in (uC, uD, uH, uR, uL, pC, pD, pH, pR, pL): R.add(p)
    def pair(name, ar, h1, h2):
        ix = " ".join(map(str, range(ar)))
        def one(h):
            nm = h.split(" ")[0]
            return f"r_{nm} {ar} {ix}" if nm in R.known else f"ET {R.tid(h, ar)} [{'; '.join(map(str, range(ar)))}]"
        R.out.append(f"Definition p_{name} : ex * ex := ({one(h1)}, {one(h2)}).")
    def four(name, h):
        t4 = lambda *ix: ("t", h, ix)
        R.node(name, list("abij"), ("add", ("sub", ("sub", t4(*"abij"), t4(*"baij")), t4(*"abji")), t4(*"baji")))
    for tag, u, r in (("ccsd", rC, sC), ("ccd", rD, sD)):
        for b in ("a", "ab"):
            if b in u: pair(f"{tag}_{b}", 2 * len(b), u[b].name, r[b].name)
        if "a" in u: pair(f"{tag}_b", 2, u["b"].name, r["a"].name)
        for x, nm in (("u", u["aa"].name), ("v", u["bb"].name), ("r", r["aa"].name)): four(f"r_{x}{tag}_four", nm)
        R.out.append(f"Definition p_{tag}_aa : ex * ex := (r_u{tag}_four 4 0 1 2 3, r_r{tag}_four 4 0 1 2 3).\nDefinition p_{tag}_bb : ex * ex := (r_v{tag}_four 4 0 1 2 3, r_r{tag}_four 4 0 1 2 3).")
    names = []
    for b in BLK1 + BLK2:
        s, xy = b.split("_")
        pair(f"hb_{b}", 2 * len(s), hH.get(s).get(xy).name, kH.get(s).get(xy).name)
        names.append(f"p_hb_{b}")
    for tag, x, y in (("HR", oR, qR), ("LH", oL, qL)):
        for b in B2:
            pair(f"{tag}_{b}", 2 * len(b), x._d[b].name, y._d[b].name)
    t = """(** Generated by tools/gen_rhf.py: reified programs with and without flag_RHF, in pairs (proof support). *)
From Coq Require Import Reals Arith List ZArith.
From Verif Require Import RSum IntegralsModel TensorObjs TensorAlg CcsdModel EomModel RhfModel.
Import ListNotations.
Local Open Scope nat_scope.
""" + "\n".join(R.out) + "\n"
    t += tables(R, params="(d : dims) (H : ints) (T R : amps)", name="rhf_", closed=True)
    open("/verif/rocq/theories/RhfReify.v", "w").write(t)
