"""Generate CholEomModel.v (CCSD Hbar, right and left EOMCCSD vectors with Cholesky vectors) and CholEomReify.v (proof support) from /repo (text only)."""
import sys
sys.path.insert(0, "/verif/tools")
OUT = sys.argv[1] if len(sys.argv) > 1 else "/verif/rocq/theories/"
import gen_chol
from gen_chol import *
from gen_ccsd import BLK1
from gen_rhf import hbar as dense_hbar, right as dense_right, left as dense_left
from gen_eomccsd import final, B2
VV = ("aa_vvvv", "ab_vvvv", "bb_vvvv")
def hbints(H="H", C="C"):
    """Hbar handed to the EOM routines: everything but the vvvv blocks, and the dressed vectors"""
    def two(s):
        def f(xy):
            assert f"{s}_{xy}" not in VV, (s, xy)
            return base(f"i_{s}_{xy} {H}", ints_axes(s, xy))
        return Obj(f"{H}.{s}", f)
    return Obj(H, lambda s: chol(C) if s == "chol" else two(s))
def chbar(prefix, flag):
    P = Prog(prefix, "(d : dims) (nx : nat) (C : chol) (H : ints) (T : amps)", "d nx C H T")
    P.load("ccpy/hbar/hbar_ccsd_chol.py")
    return P, P.call("build_hbar_ccsd_chol", [amps("T"), hints(), flag])
def cright(prefix, flag, full):
    P = Prog(prefix, "(d : dims) (nx : nat) (C : chol) (H : ints) (T R : amps)", "d nx C H T R")
    P.load("ccpy/eomcc/eomccsd_intermediates.py"); P.load("ccpy/eomcc/eomccsd_chol.py"); contraction(P, full)
    P.builtin["Integral.from_empty"] = lambda p, n, env, src, want: empty("X")
    dR = Obj("dR", lambda k: None)
    P.call("HR", [dR, amps("R"), amps("T"), hbints(), flag, None])
    return P, dR
def cleft(prefix, flag, full):
    P = Prog(prefix, "(d : dims) (nx : nat) (C : chol) (H : ints) (T L : amps)", "d nx C H T L")
    P.load("ccpy/left/left_cc_intermediates.py"); P.load("ccpy/left/left_ccsd_chol.py"); contraction(P, full)
    P.builtin["Integral.from_empty"] = lambda p, n, env, src, want: empty("X")
    LH = Obj("LH", lambda k: None)
    P.call("LH_fun", [LH, amps("L"), amps("T"), hbints(), flag, None])
    return P, LH

SET = {"a": ("oo", "ov", "vv"), "aa": ("oooo", "ooov", "oovv", "vooo", "voov", "vovv", "vvov"),
       "ab": ("oooo", "ooov", "oovo", "oovv", "ovoo", "ovov", "ovvo", "ovvv", "vooo", "voov", "vovo", "vovv", "vvov", "vvvo")}
SET["b"] = SET["a"]; SET["bb"] = SET["aa"]
SETB = [b for b in BLK1 + BLK2 if b.split("_")[1] in SET[b.split("_")[0]]]
def record(h):
    return "mkInts " + " ".join(f"({h.get(b.split('_')[0]).get(b.split('_')[1]).name})" if b in SETB else f"(i_{b} H)" for b in BLK1 + BLK2)
def vectors(h):
    return "mkChol " + " ".join(f"({h.get('chol').get(s).get(xy).name})" for s, xy in (c.split("_") for c in CH))
def vnode(R, cv, sub, H="H", T="T"):
    """the vvvv blocks of Hbar in terms of dressed vectors cv[s] (heads), oovv and T2"""
    o, v = OCC, VIRT
    oovv = lambda s, *ix: ("t", f"i_{s}_oovv {H}", ix)
    for s in ("aa", "ab", "bb"):
        c1, c2 = cv[s[0]], cv[s[1]]
        t = ("sum", "X", "nx", ("mul", ("t", c1, ("X", "p", "r")), ("t", c2, ("X", "q", "s"))))
        if s != "ab": t = ("sub", t, ("sum", "X", "nx", ("mul", ("t", c1, ("X", "p", "s")), ("t", c2, ("X", "q", "r")))))
        u = ("sum", "m", o[s[0]], ("sum", "n", o[s[1]], ("mul", oovv(s, "m", "n", "r", "s"), ("t", f"x_{s} {T}", ("p", "q", "m", "n")))))
        if s != "ab": u = ("scale", F(1, 2), u)
        w = [0]
        body = R.r(("add", t, u), {x: x for x in "pqrs"}, 0, w, None, sub, "r_")
        R.width[f"v_{s}"] = w[0]
        R.out.append(f"Definition v_{s} (z p q r s : nat) : ex := {body}.")
def bshare(): tgen.VIRT["b"], tgen.OCC["b"] = "nua", "noa"
def bown(): tgen.VIRT["b"], tgen.OCC["b"] = "nub", "nob"
if __name__ == "__main__":
    P, h = chbar("chb_", False); pR, oR = cright("ceom_", False, False); pL, oL = cleft("cleft_", False, False)
    bshare()
    P2, h2 = chbar("crhb_", True); pR2, oR2 = cright("creomc_", True, False); pL2, oL2 = cleft("crleft_", True, False)
    gR2, fR2 = cright("cgeom_", True, True); gL2, fL2 = cleft("cgleft_", True, True)
    bown()
    t = """(** Generated by tools/gen_cholhbar.py from the text of /repo.  Models ccpy/hbar/hbar_ccsd_chol.py (build_hbar_ccsd_chol; RHF_symmetry = False: chb_, True: crhb_),
    ccpy/eomcc/eomccsd_chol.py with get_eomccsd_chol_intermediates of eomccsd_intermediates.py (HR; flag_RHF = False: ceom_, True: creomc_) and
    ccpy/left/left_ccsd_chol.py with build_left_ccsd_chol_intermediates of left_cc_intermediates.py (LH_fun; cleft_, crleft_).
    Exact reals; an array is a function read below its dimensions.  H, C: the Hamiltonian and the vectors when the routine is entered (build_hbar_ccsd_chol
    works in place: H = H0; the blocks it does not set are those of H).  The generator refuses a read of a vvvv block of Hbar. *)
From Coq Require Import Reals Arith List.
From Verif Require Import RSum IntegralsModel TensorObjs CholLoops.
Open Scope R_scope.
"""
    for (A, k, nm) in ((P, h, "chol"), (P2, h2, "rchol")):
        t += A.text() + f"\n(** hbar_ccsd_chol.py, build_hbar_ccsd_chol, line 311: the Hamiltonian returned, and its vectors H.chol *)\nDefinition {nm}_hbar {A.ctx} : ints := {record(k)}.\nDefinition {nm}_dressed {A.ctx} : chol := {vectors(k)}.\n"
    for (A, o, nm, c) in ((pR, oR, "chol_HR", "eomccsd_chol.py, HR, lines 32-50"), (pR2, oR2, "rchol_HR", "eomccsd_chol.py, HR, lines 32-50, flag_RHF = True"),
                          (pL, oL, "chol_LH", "left_ccsd_chol.py, LH_fun, lines 72-90"), (pL2, oL2, "rchol_LH", "left_ccsd_chol.py, LH_fun, lines 72-90, flag_RHF = True")):
        t += A.text() + f"\n(** {c} *)\n" + final(nm, A.ctx, o, B2) + "\n"
    open(OUT + "CholEomModel.v", "w").write(t)
    fR, _ = cright("cfeom_", False, True); fL, _ = cleft("cfleft_", False, True)
    head = """(** Generated by tools/gen_cholhbar.py: %s (proof support). *)
From Coq Require Import Reals Arith List ZArith.
From Verif Require Import RSum IntegralsModel TensorObjs TensorAlg CholLoops CcsdModel EomModel CholEomModel.
Import ListNotations.
Open Scope R_scope.
"""
    # Hbar
    R = Reify(); sub = block_nodes(R)
    uH, k = dense_hbar("hb_", False)
    for p in (uH, P, P2): R.add(p, subst=sub)
    for tag, hh in (("c", h), ("r", h2)):
        vnode(R, {s: hh.get("chol").get(s).get("vv").name for s in "ab"}, sub)
        for s in ("aa", "ab", "bb"):
            R.out[:] = [x.replace(f"Definition v_{s} ", f"Definition v{tag}_{s} ") for x in R.out]
    def one(nm, ar):
        ix = " ".join(map(str, range(ar)))
        n0 = nm.split(" ")[0]
        if n0 in R.known: return f"r_{n0} {ar} {ix}"
        if nm in sub: return f"{sub[nm]} {ar} {ix}"
        return f"ET {R.tid(nm, ar)} [{'; '.join(map(str, range(ar)))}]"
    ps = ""
    for b in SETB:
        s, xy = b.split("_"); ar = 2 * len(s)
        x, y, z = (o.get(s).get(xy).name for o in (k, h, h2))
        ps += f"Definition p_{b} : ex * ex := ({one(x, ar)}, {one(y, ar)}).\n"
        ps += f"Definition q_{b} : ex * ex := ({one(x, ar)}, {one(z, ar)}).\n"
    for s in ("aa", "ab", "bb"):
        x = k.get(s).get("vvvv").name
        ps += f"Definition p_{s}_vvvv : ex * ex := ({one(x, 4)}, vc_{s} 4 0 1 2 3).\nDefinition q_{s}_vvvv : ex * ex := ({one(x, 4)}, vr_{s} 4 0 1 2 3).\n"
    t = head % "reified Hbar programs, dense and with Cholesky vectors" + "Local Open Scope nat_scope.\n"
    t += "\n".join(R.out) + "\n" + ps
    t += "Definition all_p := [" + "; ".join(f"p_{b}" for b in SETB + list(VV)) + "].\nDefinition all_q := [" + "; ".join(f"q_{b}" for b in SETB + list(VV)) + "].\n"
    t += tables(R, params="(d : dims) (nx : nat) (C : chol) (H : ints) (T : amps)", name="chb_")
    t += tables(R, gen=cgens, params="(d : dims) (nx : nat) (C : chol) (H : ints) (T : amps)", name="chbc_")
    open(OUT + "CholHbarReify.v", "w").write(t)
    # EOM
    R = Reify(); R.alias = {"L": "R"}
    vnode(R, {s: f"c_{s}_vv C" for s in "ab"}, {})
    sub = {f"i_{b} H": f"v_{b[:2]}" for b in VV}
    uR, dR = dense_right("eom_", False); uL, dL = dense_left("left_", False)
    for p in (uR, uL): R.add(p, subst=sub)
    for p in (fR, fL, gR2, gL2): R.add(p)
    ps = ""
    for tag, u, f, g in (("HR", dR, oR, oR2), ("LH", dL, oL, oL2)):
        for b in B2:
            ar = 2 * len(b); x = one(u._d[b].name, ar)
            y = f._d[b].name.replace("ceom_", "cfeom_").replace("cleft_", "cfleft_")
            z = g._d[b].name.replace("creomc_", "cgeom_").replace("crleft_", "cgleft_")
            ps += f"Definition p_{tag}_{b} : ex * ex := ({x}, {one(y, ar)}).\nDefinition q_{tag}_{b} : ex * ex := ({x}, {one(z, ar)}).\n"
    t = head % "the routines of CholEomModel.v with unrestricted sums in place of the Fortran contraction, and their reification together with the dense ones"
    for p in (fR, fL, gR2, gL2): t += p.text() + "\n"
    t += "(** H with its vvvv blocks replaced *)\nDefinition with_vvvv (H : ints) (x y z : mat4) : ints := mkInts " + " ".join({"aa_vvvv": "x", "ab_vvvv": "y", "bb_vvvv": "z"}.get(b, f"(i_{b} H)") for b in BLK1 + BLK2) + ".\n"
    t += "Local Open Scope nat_scope.\n" + "\n".join(R.out) + "\n" + ps
    t += "Definition all_pe := [" + "; ".join(f"p_{a}_{b}" for a in ("HR", "LH") for b in B2) + "].\nDefinition all_qe := [" + "; ".join(f"q_{a}_{b}" for a in ("HR", "LH") for b in B2) + "].\n"
    t += tables(R, params="(d : dims) (nx : nat) (C : chol) (H : ints) (T R : amps)", name="che_")
    t += tables(R, gen=cgens, params="(d : dims) (nx : nat) (C : chol) (H : ints) (T R : amps)", name="chec_")
    open(OUT + "CholEomReify.v", "w").write(t)
