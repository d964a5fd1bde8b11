"""Generate EomModel.v (right and left EOMCCSD sigma vectors) and EomReify.v from /repo (text only)."""
import sys
sys.path.insert(0, "/verif/tools")
from tgen import *
HEAD = '''(** Generated by tools/gen_%s.py from the source text (symbolic execution of the numpy statements; exact reals).
    %s *)
From Coq Require Import Reals Arith.
From Verif Require Import RSum IntegralsModel TensorObjs.
Open Scope R_scope.
'''
def final(name, ctx, obj, blocks):
    z = {1: "(fun _ _ => 0)", 2: "(fun _ _ _ _ => 0)", 3: "(fun _ _ _ _ _ _ => 0)"}
    f = []
    for b in ["a", "b", "aa", "ab", "bb", "aaa", "aab", "abb", "bbb"]:
        f.append(f"({obj._d[b].name})" if b in blocks else z[len(b)])
    return f"Definition {name} {ctx} : amps := mkAmps {' '.join(f)}."
B2 = ["a", "b", "aa", "ab", "bb"]
def right():
    P = Prog("eom_", "(d : dims) (H : ints) (T R : amps)", "d H T R")
    P.load("ccpy/eomcc/eomccsd_intermediates.py"); P.load("ccpy/eomcc/eomccsd.py")
    P.builtin["Integral.from_empty"] = lambda p, n, env, src, want: empty("X")
    dR = Obj("dR", lambda k: None)
    P.call("HR", [dR, amps("R"), amps("T"), ints("H"), False, None])
    return P, dR
def left():
    P = Prog("left_", "(d : dims) (H : ints) (T L : amps)", "d H T L")
    P.load("ccpy/left/left_cc_intermediates.py"); P.load("ccpy/left/left_ccsd.py")
    P.builtin["Integral.from_empty"] = lambda p, n, env, src, want: empty("X")
    LH = Obj("LH", lambda k: None)
    P.call("LH_fun", [LH, amps("L"), amps("T"), ints("H"), False, None])
    return P, LH
if __name__ == "__main__":
    P, dR = right(); Q, LH = left()
    t = HEAD % ("eomccsd", "Models ccpy/eomcc/eomccsd.py (HR, build_HR_1A .. build_HR_2C), ccpy/eomcc/eomccsd_intermediates.py (get_eomccsd_intermediates),\n    ccpy/left/left_ccsd.py (LH_fun, build_LH_1A .. build_LH_2C), ccpy/left/left_cc_intermediates.py (build_left_ccsd_intermediates); flag_RHF = False.")
    t += P.text() + "\n(** eomccsd.py, HR, lines 31-48: the vector returned *)\n" + final("eom_HR", P.ctx, dR, B2) + "\n"
    t += Q.text() + "\n(** left_ccsd.py, LH_fun, lines 71-89: the vector returned *)\n" + final("left_LH", Q.ctx, LH, B2) + "\n"
    open("/verif/rocq/theories/EomModel.v", "w").write(t)

    R = Reify()
    R.add(P); R.add(Q)
    L = {b: f"x_{b} L" for b in B2}; Rr = {b: f"x_{b} R" for b in B2}
    hr = {b: dR._d[b].name for b in B2}; lh = {b: LH._d[b].name for b in B2}
    R.node("r_lhs", [], dot(L, hr, B2)); R.node("r_rhs", [], dot(lh, Rr, B2))
    t = """(** Generated by tools/gen_eomccsd.py: reified right and left EOMCCSD programs (proof support). *)
From Coq Require Import Reals Arith List ZArith.
From Verif Require Import RSum IntegralsModel TensorObjs TensorAlg EomModel.
Import ListNotations.
Local Open Scope nat_scope.
""" + "\n".join(R.out) + "\n"
    t += tables(R, params="(d : dims) (H : ints) (T L R : amps)", name="eom_")
    open("/verif/rocq/theories/EomReify.v", "w").write(t)
