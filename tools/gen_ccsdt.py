"""Generate CcsdtModel.v (CCSDT update) and CcsdtReify.v (its residual reified, arrays numbered as in FockArrays.v) from /repo (text only)."""
import sys
sys.path.insert(0, "/verif/tools")
from tgen import *
from gen_eomccsd import HEAD
from gen_ccsd import BLK1, BLK2
BL = ["a", "b", "aa", "ab", "bb", "aaa", "aab", "abb", "bbb"]
LOOP = {"t1a": "a", "t1b": "b", "t2a": "aa", "t2b": "ab", "t2c": "bb", "t3a_v2": "aaa", "t3b_v2": "aab", "t3c_v2": "abb", "t3d_v2": "bbb"}
def program(prefix="ccsdt_"):
    """T: amplitudes when update is entered; U: amplitudes at the time of use, once they have been updated"""
    P = Prog(prefix, "(d : dims) (H : ints) (T U : amps)", "d H T U")
    for e in ("ccpy/hbar/hbar_ccs.py", "ccpy/hbar/hbar_ccsd.py", "ccpy/cc/ccsdt.py"): P.load(e)
    res = {}
    def loop(b):
        def f(p, n, env, src, want):
            res[b] = p.define("res_" + b, p.expr(n.args[1], env, src), src)
            return (base(f"x_{b} U", amp_axes(b)), res[b])
        return f
    for k, b in LOOP.items(): P.builtin["cc_loops2.update_" + k] = loop(b)
    P.call("update", [amps("T"), Obj("dT", lambda k: None), ints("H"), empty("X"), None, False])
    return P, res
def fock_ids(R):
    for b in BL: R.tid(f"x_{b} T", 2 * len(b))
    for b in BLK1: R.tid(f"i_{b} H", 2)
    for b in BLK2: R.tid(f"i_{b} H", 4)
    assert R.ids["i_bb_vvvv H"] == 64
    R.tid("delta", 2)
if __name__ == "__main__":
    out = sys.argv[1] if len(sys.argv) > 1 else "/verif/rocq/theories/"
    P, res = program()
    t = HEAD % ("ccsdt", "Models ccpy/cc/ccsdt.py (update, update_t1a .. update_t3d), ccpy/hbar/hbar_ccs.py (get_pre_ccs_intermediates, get_ccs_intermediates_opt) and\n    ccpy/hbar/hbar_ccsd.py (get_ccsd_intermediates), flag_RHF = False.")
    t += P.text()
    open(out + "CcsdtModel.v", "w").write(t)
    R = Reify(); R.alias = {"U": "T"}
    fock_ids(R)
    R.add(P)
    assert len(R.tens) == 66, R.tens[66:]
    t = """(** Generated by tools/gen_ccsdt.py: the arrays CCSDT hands to its update loops, reified; arrays numbered as in FockArrays.v (proof support). *)
From Coq Require Import Reals Arith List ZArith.
From Verif Require Import RSum IntegralsModel TensorObjs TensorAlg CcsdtModel.
Import ListNotations.
Local Open Scope nat_scope.
""" + "\n".join(R.out) + "\n"
    open(out + "CcsdtReify.v", "w").write(t)
