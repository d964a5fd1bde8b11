"""Generate Cc2Model.v (CC2 update with and without flag_RHF, CC2 Hbar, EOMCC2 right vector) and Cc2Reify.v (proof support) from /repo (text only)."""
import sys
sys.path.insert(0, "/verif/tools")
import tgen
from tgen import *
from gen_eomccsd import HEAD, final, B2
from gen_ccsd import BLK1, BLK2, blocks
from gen_rhf import upd
from gen_ccsdt import program
CC2 = ("ccpy/cc/cc2.py", ("ccpy/hbar/hbar_ccs.py",))
def hbar(prefix="hb2_", flag=False):
    P = Prog(prefix, "(d : dims) (H : ints) (T : amps)", "d H T")
    P.load("ccpy/hbar/hbar_cc2.py")
    P.builtin["deepcopy"] = lambda p, n, env, src, want: ints("H")      # a second object with the same arrays
    return P, P.call("build_hbar_cc2", [amps("T"), ints("H"), flag, None])
def right(prefix="eom2_", flag=False):
    P = Prog(prefix, "(d : dims) (H : ints) (T R : amps)", "d H T R")
    P.load("ccpy/eomcc/eomcc2.py")
    dR = Obj("dR", lambda k: None)
    P.call("HR", [dR, amps("R"), amps("T"), ints("H"), flag, None])
    return P, dR
if __name__ == "__main__":
    out = sys.argv[1] if len(sys.argv) > 1 else "/verif/rocq/theories/"
    uC, rC = upd("cc2_", *CC2, False); cC, cR = upd("ccsd_", "ccpy/cc/ccsd.py", ("ccpy/hbar/hbar_ccs.py",), False)
    Q, hb = hbar(); W, dR = right()
    tgen.VIRT["b"], tgen.OCC["b"] = "nua", "noa"
    pC, sC = upd("rcc2_", *CC2, True)
    tgen.VIRT["b"], tgen.OCC["b"] = "nub", "nob"
    t = HEAD % ("cc2", "Models ccpy/cc/cc2.py (update, update_t1a .. update_t2c) and ccpy/hbar/hbar_ccs.py with flag_RHF = False (cc2_) and True (rcc2_),\n    ccpy/hbar/hbar_cc2.py (build_hbar_cc2, RHF_symmetry = False), ccpy/eomcc/eomcc2.py (HR, build_HR_1A .. build_HR_2C, flag_RHF = False).\n    T holds the amplitudes on entry of update and U the blocks that have been overwritten by the time they are read; res_x is the array handed to the Fortran\n    routine cc_loops2.update_x.  In the rcc2_ definitions the spins share the axis lengths, and assignments without a copy share the array, as in Python.")
    t += uC.text() + "\n" + pC.text() + "\n" + Q.text()
    t += "\n(** hbar_cc2.py, build_hbar_cc2, line 228: all blocks when the function returns (those never assigned keep the bare integrals) *)\n"
    t += f"Definition hbar_cc2 {Q.ctx} : ints := {blocks(hb)}.\n"
    t += W.text() + "\n(** eomcc2.py, HR, lines 24-40: the vector returned *)\n" + final("eom2_HR", W.ctx, dR, B2) + "\n"
    open(out + "Cc2Model.v", "w").write(t)
    R = Reify(); R.alias = {"U": "T"}
    R.add(uC); R.add(cC); R.add(pC); R.add(Q)
    P3, r3 = program(); R.add(P3)
    def four(name, h):
        t4 = lambda *ix: ("t", h, ix)
        R.node(name, list("abij"), ("add", ("sub", ("sub", t4(*"abij"), t4(*"baij")), t4(*"abji")), t4(*"baji")))
    for b in ("aa", "bb"):
        four(f"r_cc2f_{b}", rC[b].name); four(f"r_ccsdf_{b}", cR[b].name)
        four(f"r_ccsdtf_{b}", r3[b].name)
    four("r_rcc2f_aa", sC["aa"].name)
    # the term that the shared array adds a second time
    vt = ("sum", "e", "nua", ("sum", "f", "nua", ("mul", ("t", "i_aa_vvvv H", tuple("abef")), ("mul", ("t", "x_a T", tuple("ei")), ("t", "x_a T", tuple("fj"))))))
    R.node("r_extra", list("abij"), ("scale", F(1, 1), vt))
    sub = {}
    for b in BLK1 + BLK2:
        s, xy = b.split("_")
        nm = hb.get(s).get(xy).name
        if nm.startswith("hb2_"): sub[f"i_{b} H"] = "r_" + nm.split(" ")[0]
        else: assert nm == f"i_{b} H", nm
    R.add(W, subst=sub)
    # the doubles vector with the bare Fock matrix acting on the doubles
    W2 = Prog("eomf_", "(d : dims) (H : ints) (T R : amps)", "d H T R")
    W2.load("ccpy/eomcc/eomcc2.py")
    dR2 = Obj("dR", lambda k: None)
    W2.call("HR", [dR2, amps("R"), amps("T"), ints("H"), False, None])
    sub2 = {k: v for k, v in sub.items() if k not in ("i_a_oo H", "i_a_vv H", "i_b_oo H", "i_b_vv H")}
    R.add(W2, subst=sub2)
    for b in B2: R.tid(f"x_{b} T", 2 * len(b)); R.tid(f"x_{b} R", 2 * len(b))
    t = """(** Generated by tools/gen_cc2.py: reified CC2 residuals, Hbar and EOMCC2 vector (proof support). *)
From Coq Require Import Reals Arith List ZArith.
From Verif Require Import RSum IntegralsModel TensorObjs TensorAlg CcsdModel CcsdtModel Cc2Model.
Import ListNotations.
Local Open Scope nat_scope.
""" + "\n".join(R.out) + "\n"
    t += tables(R, params="(d : dims) (H : ints) (T R : amps)", name="j2_")
    t += tables(R, params="(d : dims) (H : ints) (T R : amps)", name="c2_", closed=True)
    t += "Definition j2_dm (k : nat) : option nat := match k with " + " ".join(f"| {R.ids[f'x_{b} T']} => Some {R.ids[f'x_{b} R']}" for b in B2) + " | _ => None end.\n"
    open(out + "Cc2Reify.v", "w").write(t)
    for b in B2: print(b, rC[b].name, cR[b].name, sC[b].name if b in sC else None, dR._d[b].name)
    print(R.ids)
