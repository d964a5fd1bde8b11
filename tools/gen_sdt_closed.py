"""Generate SdtClosedModel.v and SdtClosedReify.v from /repo (text only): CCSDT, its Hbar and the right EOMCCSDT vector with flag_RHF set, against the unrestricted ones."""
import sys
sys.path.insert(0, "/verif/tools")
import tgen
from tgen import *
from gen_eomccsd import HEAD, final
from gen_ccsd import blocks, BLK1, BLK2
from gen_ccsdt import BL, LOOP, program
from gen_eomsdt import right, hbar
from gen_left3 import pre
def rprogram(prefix="rccsdt_"):
    P = Prog(prefix, "(d : dims) (H : ints) (T U : amps)", "d H T U")
    for e in ("ccpy/hbar/hbar_ccs.py", "ccpy/hbar/hbar_ccsd.py", "ccpy/cc/ccsdt.py"): P.load(e)
    res = {}
    def loop(b):
        def f(p, n, env, src, want):
            res[b] = p.define("res_" + b, p.expr(n.args[1], env, src), src)
            return (base(f"x_{b} U", amp_axes(b)), res[b])
        return f
    for k, b in LOOP.items(): P.builtin["cc_loops2.update_" + k] = loop(b)
    T = amps("T")
    P.call("update", [T, Obj("dT", lambda k: None), ints("H"), empty("X"), None, True])
    return P, res, T
def rhbar(prefix="rhb3_"):
    P = Prog(prefix, "(d : dims) (H : ints) (T : amps)", "d H T")
    P.load("ccpy/hbar/hbar_ccsdt.py")
    return P, P.call("build_hbar_ccsdt", [amps("T"), ints("H"), True])
if __name__ == "__main__":
    out = sys.argv[1] if len(sys.argv) > 1 else "/verif/rocq/theories/"
    uP, uR = program(); uQ, uh = hbar("hb3_", "ccpy/hbar/hbar_ccsdt.py", "build_hbar_ccsdt"); uW, udR = right()
    tgen.VIRT["b"], tgen.OCC["b"] = "nua", "noa"
    P, res, T = rprogram(); W, dR = right("reomt_", True); Q, hb = rhbar()
    tgen.VIRT["b"], tgen.OCC["b"] = "nub", "nob"
    t = HEAD % ("sdt_closed", "Models with flag_RHF = True: ccpy/cc/ccsdt.py (update), ccpy/hbar/hbar_ccsdt.py build_hbar_ccsdt (rhb3_), ccpy/hbar/hbar_ccs.py, ccpy/hbar/hbar_ccsd.py (rccsdt_), ccpy/eomcc/eomccsdt_intermediates.py and\n    ccpy/eomcc/eomccsdt.py HR (reomt_).")
    t += P.text() + "\n(** ccsdt.py, update, flag_RHF = True: the amplitudes on return, U the amplitudes the loops have written *)\n" + final("rccsdt_T", P.ctx, T, BL) + "\n"
    t += Q.text() + f"\n(** hbar_ccsdt.py, build_hbar_ccsdt, RHF_symmetry = True: all blocks when the function returns *)\nDefinition rhbar_ccsdt {Q.ctx} : ints := {blocks(hb)}.\n"
    t += W.text() + "\n(** eomccsdt.py, HR, flag_RHF = True: the vector returned *)\n" + final("reomt_HR", W.ctx, dR, BL) + "\n"
    open(out + "SdtClosedModel.v", "w").write(t)
    R = Reify(); R.alias = {"U": "T"}
    for X in (uP, uQ, uW, P, Q, W): R.add(X)
    for b in BL: R.tid(f"x_{b} T", 2 * len(b)); R.tid(f"x_{b} R", 2 * len(b))
    s = """(** Generated by tools/gen_sdt_closed.py: reified restricted and unrestricted CCSDT and EOMCCSDT programs (proof support). *)
From Coq Require Import Reals Arith List ZArith.
From Verif Require Import RSum IntegralsModel TensorObjs TensorAlg CcsdtModel EomsdtModel SdtClosedModel.
Import ListNotations.
Local Open Scope nat_scope.
""" + "\n".join(R.out) + "\n"
    s += tables(R, params="(d : dims) (H : ints) (T R : amps)", name="sc_", closed=True)
    open(out + "SdtClosedReify.v", "w").write(s)
    for b in BL: print(b, pre(uW, udR._d[b].name), udR._d[b].name, dR._d[b].name)
    for b in BLK1 + BLK2:
        x, y = b.split("_"); print("HB", b, uh.get(x).get(y).name, hb.get(x).get(y).name)
