"""Generate CholModel.v (CCSD update with Cholesky vectors, ccpy/cc/ccsd_chol.py) and CholReify.v (proof support) from /repo (text only)."""
import sys
sys.path.insert(0, "/verif/tools")
import tgen
from tgen import *
from gen_ccsd import update as dense_update, SP, BLK2
OUT = sys.argv[1] if len(sys.argv) > 1 else "/verif/rocq/theories/"
tgen.DIMS.append("nx")
tgen.dimtxt = lambda d: "nx" if d == "nx" else f"({d} d)"
SAME = ("oooo", "ooov", "vooo", "voov", "oovv", "vvoo")
OPP = ("oooo", "ooov", "oovo", "vooo", "ovoo", "voov", "ovvo", "vovo", "ovov", "oovv", "vvoo")
CH = [f"{s}_{x}{y}" for s in "ab" for x in "ov" for y in "ov"]
def chol(var):
    ax = lambda s, c: (VIRT if c == "v" else OCC)[s]
    return Obj(var, lambda s: Obj(f"{var}.{s}", lambda xy: base(f"c_{s}_{xy} {var}", ["nx", ax(s, xy[0]), ax(s, xy[1])])))
def hints(H="H", C="C"):
    """Hamiltonian of getCholeskyHamiltonian: the blocks it leaves at None must not be read"""
    def two(s):
        def f(xy):
            assert len(s) == 1 or xy in (OPP if s == "ab" else SAME), (s, xy)
            return base(f"i_{s}_{xy} {H}", ints_axes(s, xy))
        return Obj(f"{H}.{s}", f)
    return Obj(H, lambda s: chol(C) if s == "chol" else two(s))
def xobj(): return Obj("X", lambda s: Obj("X.chol", lambda t: Obj("X.chol." + t)) if s == "chol" else Obj("X." + s))
def contraction(P, full):
    """vvvv_contraction.f90; full: the unrestricted sums used for reification"""
    def arg(p, n, env, src, nm):
        a = p.expr(n, env, src)
        a.letters = None
        return p.define(nm, a, src)
    def sym(p, n, env, src, want):
        R = arg(p, n.args[0], env, src, "vR"); t = arg(p, n.args[1], env, src, "vT")
        nx, nu, nu2 = R.arr.axes; no, no2, f, e = t.arr.axes
        assert nx == "nx" and nu == nu2 == f == e and no == no2, src
        if not full:
            return base(f"vvvv_t2_sym ({no} d) ({nu} d) nx ({R.name}) ({t.name})", [no, no, nu, nu])
        def fn(ix, used):
            j, i, b, a = ix
            d = ("sub", ("mul", R.arr.fn(["x", "f'", b], used), R.arr.fn(["x", "e'", a], used)), ("mul", R.arr.fn(["x", "e'", b], used), R.arr.fn(["x", "f'", a], used)))
            return ("scale", F(1, 4), ("sum", "e'", nu, ("sum", "f'", nu, ("mul", ("sum", "x", "nx", d), t.arr.fn([j, i, "f'", "e'"], used)))))
        return Cell(Arr([no, no, nu, nu], fn))
    def opp(p, n, env, src, want):
        Ra = arg(p, n.args[0], env, src, "vRa"); Rb = arg(p, n.args[1], env, src, "vRb"); t = arg(p, n.args[2], env, src, "vT")
        nob, noa, nub, nua = t.arr.axes
        assert Ra.arr.axes == ["nx", nua, nua] and Rb.arr.axes == ["nx", nub, nub], src
        if not full:
            return base(f"vvvv_t2 ({nua} d) ({nub} d) nx ({Ra.name}) ({Rb.name}) ({t.name})", [nob, noa, nub, nua])
        def fn(ix, used):
            j, i, b, a = ix
            d = ("mul", Rb.arr.fn(["x", "f'", b], used), Ra.arr.fn(["x", "e'", a], used))
            return ("sum", "e'", nua, ("sum", "f'", nub, ("mul", ("sum", "x", "nx", d), t.arr.fn([j, i, "f'", "e'"], used))))
        return Cell(Arr([nob, noa, nub, nua], fn))
    P.builtin["vvvv_contraction.vvvv_t2_sym"] = sym
    P.builtin["vvvv_contraction.vvvv_t2"] = opp
def update(prefix, full, rhf=False, path="ccpy/cc/ccsd_chol.py"):
    P = Prog(prefix, "(d : dims) (nx : nat) (C : chol) (H : ints) (T U : amps)", "d nx C H T U")
    P.load(path)
    res = {}
    def loop(key):
        b = SP[key]
        def f(p, n, env, src, want):
            res[b] = p.define("res_" + b, p.expr(n.args[1], env, src), src)
            return (base(f"x_{b} U", amp_axes(b)), res[b])
        return f
    for k in SP: P.builtin["cc_loops2.update_" + k] = loop(k)
    contraction(P, full)
    T = amps("T")
    P.call("update", [T, Obj("dT", lambda k: None), hints(), xobj(), None, rhf])
    return P, res
def cgens(head, closed=False):
    f, v = head.split(" ")
    if f.startswith("c_b"): return [(f"c_a{f[3:]} {v}", [0, 1, 2], True)]
    return gens(head, closed=True)
def block_nodes(R, H="H", C="C"):
    """builders of the two-body blocks in terms of the vectors; returns the substitution"""
    sub = {}
    for b in BLK2:
        s, xy = b.split("_")
        w, x, y, z = xy
        sa, sb = (s[0], s[1])
        m = lambda sp, u, v, i, j: ("t", f"c_{sp}_{u}{v} {C}", ("X", i, j))
        t = ("sum", "X", "nx", ("mul", m(sa, w, y, "p", "r"), m(sb, x, z, "q", "s")))
        if sa == sb: t = ("sub", t, ("sum", "X", "nx", ("mul", m(sa, w, z, "p", "s"), m(sb, x, y, "q", "r"))))
        R.node("b_" + b, list("pqrs"), t)
        sub[f"i_{b} {H}"] = "b_" + b
    return sub
if __name__ == "__main__":
    P, res = update("ch_", False)
    t = """(** Generated by tools/gen_chol.py from the text of /repo.  Models ccpy/cc/ccsd_chol.py (update, update_t1a .. update_t2c; flag_RHF = False: ch_, True: cr_).
    Exact reals; an array is a function read below its dimensions; memory order is left out.  H holds the blocks of getCholeskyHamiltonian (the generator
    refuses a read of a block that routine leaves at None), C the Cholesky vectors H.chol, nx their number; T the amplitudes when update is entered, U the
    amplitudes at the time of use, once they have been updated.  ch_res_* are the arrays handed to the Fortran update loops. *)
From Coq Require Import Reals Arith List.
From Verif Require Import RSum IntegralsModel TensorObjs CholLoops.
Open Scope R_scope.
"""
    t += P.text() + "\n(** flag_RHF = True: the spins share the axis lengths *)\n"
    tgen.VIRT["b"], tgen.OCC["b"] = "nua", "noa"
    PR, _ = update("cr_", False, True); G, _ = update("cg_", True, True)
    tgen.VIRT["b"], tgen.OCC["b"] = "nub", "nob"
    t += PR.text() + "\n"
    open(OUT + "CholModel.v", "w").write(t)
    Q, rq = update("cf_", True)
    t = """(** Generated by tools/gen_chol.py: the arrays of CholModel.v with unrestricted sums in place of the Fortran contraction, and their reification together with
    the dense CCSD residual (proof support). *)
From Coq Require Import Reals Arith List ZArith.
From Verif Require Import RSum IntegralsModel TensorObjs TensorAlg CholLoops CholModel CcsdModel.
Import ListNotations.
Open Scope R_scope.
"""
    t += Q.text() + "\n" + G.text() + "\nLocal Open Scope nat_scope.\n"
    R = Reify(); R.alias = {"U": "T"}
    sub = block_nodes(R)
    D, rd = dense_update()
    R.add(D, subst=sub); R.add(Q, subst=sub); R.add(G, subst=sub)
    for pre in ("ccsd", "cf", "cg"):
        for b in ("aa", "bb") if pre != "cg" else ("aa",):
            h = f"{pre}_res_{b} d"
            t4 = lambda *ix: ("t", h, ix)
            R.node(f"r_{pre}_four_{b}", list("abij"), ("add", ("sub", ("sub", t4(*"abij"), t4(*"baij")), t4(*"abji")), t4(*"baji")))
    t += "\n".join(R.out) + "\n" + tables(R, params="(d : dims) (nx : nat) (C : chol) (H : ints) (T : amps)", name="chl_")
    t += tables(R, gen=cgens, params="(d : dims) (nx : nat) (C : chol) (H : ints) (T : amps)", name="chc_")
    for pre in ("ccsd", "cf", "cg"):
        for b in ("a", "b", "aa", "ab", "bb") if pre != "cg" else ("a", "aa", "ab"):
            ix = " ".join(map(str, range(2 * len(b))))
            src = f"r_{pre}_four_{b}" if b in ("aa", "bb") else f"r_{pre}_res_{b}"
            t += f"Definition e_{pre}_{b} : ex := {src} {2*len(b)} {ix}.\n"
    open(OUT + "CholReify.v", "w").write(t)
