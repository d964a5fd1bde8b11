"""Generate CcsdModel.v (CCSD update, CCSD residual, CCSD similarity-transformed Hamiltonian, correlation energy) from /repo (text only)."""
import sys
sys.path.insert(0, "/verif/tools")
from tgen import *
from gen_eomccsd import HEAD, final, B2
SP = {"t1a": "a", "t1b": "b", "t2a": "aa", "t2b": "ab", "t2c": "bb"}
def update(prefix="ccsd_", path="ccpy/cc/ccsd.py", extra=("ccpy/hbar/hbar_ccs.py",), X=None):
    """T: amplitudes when update is entered; U: amplitudes at the time of use, once they have been updated"""
    P = Prog(prefix, "(d : dims) (H : ints) (T U : amps)", "d H T U")
    for e in extra: P.load(e)
    P.load(path)
    res = {}
    def loop(key):
        b = SP[key]
        def f(p, n, env, src, want):
            res[b] = p.define("res_" + b, p.expr(n.args[1], env, src), src)
            return (base(f"x_{b} U", amp_axes(b)), res[b])
        return f
    for k in SP: P.builtin["cc_loops2.update_" + k] = loop(k)
    P.call("update", [amps("T"), Obj("dT", lambda k: None), ints("H"), X or empty("X"), None, False])
    return P, res
BLK1 = [s + "_" + xy for s in ("a", "b") for xy in ("oo", "ov", "vo", "vv")]
BLK2 = [s + "_" + "".join(w) for s in ("aa", "ab", "bb") for w in __import__("itertools").product("ov", repeat=4)]
def hbar(prefix="hb_", path="ccpy/hbar/hbar_ccsd.py", fn="build_hbar_ccsd"):
    P = Prog(prefix, "(d : dims) (H : ints) (T : amps)", "d H T")
    P.load(path)
    H = ints("H")
    out = P.call(fn, [amps("T"), H, False])
    return P, out
def blocks(out, fill=None):
    f = []
    for b in BLK1 + BLK2:
        s, xy = b.split("_")
        f.append(f"({out.get(s).get(xy).name})")
    return "mkInts " + " ".join(f)
def energy():
    P = Prog("en_", "(d : dims) (H : ints) (T : amps)", "d H T")
    P.load("ccpy/energy/cc_energy.py")
    E = P.call("get_cc_energy", [amps("T"), ints("H")])
    return P, E
if __name__ == "__main__":
    P, res = update(); Q, hb = hbar(); E, e = energy()
    t = HEAD % ("ccsd", "Models ccpy/cc/ccsd.py (update, update_t1a .. update_t2c), ccpy/hbar/hbar_ccs.py (get_pre_ccs_intermediates, get_ccs_intermediates_opt),\n    ccpy/hbar/hbar_ccsd.py (build_hbar_ccsd), ccpy/energy/cc_energy.py (get_cc_energy); flag_RHF = False.\n    In the ccsd_ definitions T holds the amplitudes on entry of update and U the blocks that have been overwritten by the time they are read;\n    ccsd_res_x is the array handed to the Fortran routine cc_loops2.update_x.")
    t += P.text() + "\n" + Q.text()
    t += "\n(** hbar_ccsd.py, build_hbar_ccsd, line 299: all blocks when the function returns (those never assigned keep the bare integrals) *)\n"
    t += f"Definition hbar_ccsd {Q.ctx} : ints := {blocks(hb)}.\n"
    t += E.text() + "\n(** cc_energy.py, get_cc_energy, line 43 *)\n" + f"Definition cc_energy {E.ctx} : R := {e.name}.\n"
    open("/verif/rocq/theories/CcsdModel.v", "w").write(t)

    # ---- reification for the Jacobian theorem
    from gen_eomccsd import right
    R = Reify()
    R.alias = {"U": "T"}
    R.add(P); R.add(Q)
    for b in ("aa", "bb"):
        h = f"ccsd_res_{b} d H T U"
        t4 = lambda *ix: ("t", h, ix)
        R.node(f"r_resid_{b}", list("abij"), ("add", ("sub", ("sub", t4(*"abij"), t4(*"baij")), t4(*"abji")), t4(*"baji")))
    W, dR = right()
    sub = {}
    for b in BLK1 + BLK2:
        s, xy = b.split("_")
        nm = hb.get(s).get(xy).name
        if nm.startswith("hb_"):
            sub[f"i_{b} H"] = "r_" + nm.split(" ")[0]
    R.add(W, subst=sub, tag="r_")
    # correlation energy and sum over hbar ov / oovv (get_r0)
    R.add(E)
    def contr(h, y, b):
        o, v = "mn"[:len(b)], "ef"[:len(b)]
        t = ("mul", ("t", h, tuple(o + v)), ("t", y, tuple(v + o)))
        for x, dd in reversed(list(zip(o + v, [OCC[c] for c in b] + [VIRT[c] for c in b]))): t = ("sum", x, dd, t)
        return ("scale", F(1, 4), t) if b in ("aa", "bb") else t
    tot = None
    for b in B2:
        c = contr(hb.get(b).get("ov" if len(b) == 1 else "oovv").name, f"x_{b} R", b)
        tot = c if tot is None else ("add", tot, c)
    R.node("r_r0", [], tot)
    for b in B2: R.tid(f"x_{b} T", 2 * len(b)); R.tid(f"x_{b} R", 2 * len(b))
    t = """(** Generated by tools/gen_ccsd.py: reified CCSD residual, Hbar and EOMCCSD sigma vector (proof support). *)
From Coq Require Import Reals Arith List ZArith.
From Verif Require Import RSum IntegralsModel TensorObjs TensorAlg CcsdModel EomModel.
Import ListNotations.
Local Open Scope nat_scope.
""" + "\n".join(R.out) + "\n"
    t += tables(R, params="(d : dims) (H : ints) (T R : amps)", name="jac_")
    t += "Definition jac_dm (k : nat) : option nat := match k with " + " ".join(f"| {R.ids[f'x_{b} T']} => Some {R.ids[f'x_{b} R']}" for b in B2) + " | _ => None end.\n"
    for b in B2:
        ix = " ".join(map(str, range(2 * len(b))))
        src = f"r_resid_{b}" if b in ("aa", "bb") else f"r_ccsd_res_{b}"
        t += f"Definition jr_{b} : ex := {src} {2*len(b)} {ix}.\nDefinition js_{b} : ex := r_{dR._d[b].name.split(' ')[0]} {2*len(b)} {ix}.\n"
    open("/verif/rocq/theories/CcsdReify.v", "w").write(t)
