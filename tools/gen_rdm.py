"""Generate RdmModel.v (one-body reduced density matrices) and RdmReify.v from /repo (text only)."""
import sys
sys.path.insert(0, "/verif/tools")
from tgen import *
from gen_eomccsd import HEAD, B2
from gen_ccsd import update, energy
B1 = [(s, xy) for s in "ab" for xy in ("oo", "ov", "vo", "vv")]
def rdm(prefix, order):
    P = Prog(prefix, "(d : dims) (T L : amps)", "d T L")
    P.load("ccpy/density/rdm1.py")
    P.builtin["Integral.from_empty"] = lambda p, n, env, src, want: empty("rdm1")
    P.builtin["test:T.order == 3 and L.order == 3"] = order == 3
    P.builtin["dim:system.noccupied_alpha"] = "noa"; P.builtin["dim:system.noccupied_beta"] = "nob"
    return P, P.call("calc_rdm1", [amps("T"), amps("L"), Obj("system")])
def fields(out):
    return " ".join(f"({out.get(s).get(xy).name})" for s, xy in B1)
if __name__ == "__main__":
    P, a = rdm("rdm_", 2); Q, b = rdm("rdmt_", 3)
    t = HEAD % ("rdm", "Models ccpy/density/rdm1.py (calc_rdm1): rdm_ for operators of order 2, rdmt_ for order 3 (lines 68-123 included).")
    t += "(** the one-body Integral object returned, line 125 *)\nRecord rdms := mkRdms { g_a_oo : mat2; g_a_ov : mat2; g_a_vo : mat2; g_a_vv : mat2; g_b_oo : mat2; g_b_ov : mat2; g_b_vo : mat2; g_b_vv : mat2 }.\n"
    t += P.text() + "\n" + Q.text() + "\n(** rdm1.py, calc_rdm1, line 125: T.order = L.order = 2 (ccsd), 3 (ccsdt) *)\n"
    t += f"Definition calc_rdm1_ccsd {P.ctx} : rdms := mkRdms {fields(a)}.\nDefinition calc_rdm1_ccsdt {Q.ctx} : rdms := mkRdms {fields(b)}.\n"
    open("/verif/rocq/theories/RdmModel.v", "w").write(t)

    R = Reify()
    R.alias = {"U": "T"}
    U, res = update(); E, e = energy()
    R.add(P); R.add(Q); R.add(U); R.add(E)
    def s2(x, dx, y, dy, body): return ("sum", x, dx, ("sum", y, dy, body))
    for tag, o in (("c", a), ("t", b)):
        for s in "ab":
            oo, vv = o.get(s).get("oo").name, o.get(s).get("vv").name
            R.node(f"r_tr_{tag}{s}", [], ("add", ("sum", "i", OCC[s], ("t", oo, ("i", "i"))), ("sum", "a", VIRT[s], ("t", vv, ("a", "a")))))
    for s in "ab": R.node(f"r_one_{s}", [], ("sum", "i", OCC[s], ("t", "delta", ("i", "i"))))
    # Lagrangian: E + <L, residual>, and sum over K_pq gamma_qp minus the reference part
    for x in ("aa", "bb"):
        h = f"ccsd_res_{x} d H T U"
        t4 = lambda *ix: ("t", h, ix)
        R.node(f"r_resid_{x}", list("abij"), ("add", ("sub", ("sub", t4(*"abij"), t4(*"baij")), t4(*"abji")), t4(*"baji")))
        R.known[f"resid_{x}"] = f"r_resid_{x}"
    rh = {x: (f"resid_{x} d H T" if x in ("aa", "bb") else res[x].name) for x in B2}
    ref = None
    for s in "ab":
        c = s2("p", OCC[s], "q", OCC[s], ("mul", ("t", f"i_{s}_oo K", ("p", "q")), ("t", "delta", ("q", "p"))))
        ref = c if ref is None else ("add", ref, c)
    R.node("r_lag", [], ("add", ("t", e.name, ()), dot({x: f"x_{x} L" for x in B2}, rh, B2)))
    tot = None
    for s, xy in B1:
        dp, dq = [(OCC if c == "o" else VIRT)[s] for c in xy]
        c = s2("p", dp, "q", dq, ("mul", ("t", f"i_{s}_{xy} K", ("p", "q")), ("t", a.get(s).get(xy[::-1]).name, ("q", "p"))))
        tot = c if tot is None else ("add", tot, c)
    R.node("r_tr_K", [], tot); R.node("r_ref", [], ref)
    for s, xy in B1:
        R.tid(f"i_{s}_{xy} H", 2); R.tid(f"i_{s}_{xy} K", 2)
        ix = "0 1"
        R.out.append(f"Definition rr_{s}_{xy} : ex := r_{a.get(s).get(xy).name.split(' ')[0]} 2 0 1.")
        R.out.append(f"Definition rt_{s}_{xy} : ex := r_{b.get(s).get(xy).name.split(' ')[0]} 2 0 1.")
    t = """(** Generated by tools/gen_rdm.py: reified density matrices, CCSD residual and energy (proof support). *)
From Coq Require Import Reals Arith List ZArith.
From Verif Require Import RSum IntegralsModel TensorObjs TensorAlg CcsdModel RdmModel.
Import ListNotations.
Local Open Scope nat_scope.
""" + "\n".join(R.out) + "\n"
    t += tables(R, params="(d : dims) (H K : ints) (T L : amps)", name="rdm_")
    t += tables(R, params="(d : dims) (H K : ints) (T L : amps)", name="rdmc_", closed=True)
    t += "Definition rdm_dm (k : nat) : option nat := match k with " + " ".join(f"| {R.ids[f'i_{s}_{xy} H']} => Some {R.ids[f'i_{s}_{xy} K']}" for s, xy in B1) + " | _ => None end.\n"
    open("/verif/rocq/theories/RdmReify.v", "w").write(t)
