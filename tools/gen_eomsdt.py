"""Generate EomsdtModel.v (CCSDT Hbar and EOMCCSDT right vector) and EomsdtReify.v (with the CCSDT residual; proof support) from /repo (text only)."""
import sys
sys.path.insert(0, "/verif/tools")
from tgen import *
from gen_eomccsd import HEAD, final
from gen_ccsd import BLK1, BLK2, blocks, hbar, energy
from gen_ccsdt import BL, program
def right(prefix="eomt_", flag=False):
    P = Prog(prefix, "(d : dims) (H : ints) (T R : amps)", "d H T R")
    P.load("ccpy/eomcc/eomccsdt_intermediates.py"); P.load("ccpy/eomcc/eomccsdt.py")
    P.builtin["Integral.from_empty"] = lambda p, n, env, src, want: empty("X")
    def zeros(p, n, env, src, want):
        x = p.expr(n.args[0], env, src)
        return p.define(want, Arr(x.axes, lambda ix, used: ("c", F(0)), "pqrs"[:len(x.axes)]), src)
    P.builtin["np.zeros_like"] = zeros
    dR = Obj("dR", lambda k: None)
    P.call("HR", [dR, amps("R"), amps("T"), ints("H"), flag, None])
    return P, dR
HEAD_N = """(** Generated by tools/gen_eomsdt.py (proof support): every term of the triples vectors of EomsdtModel.v with its fixed indices renamed to those of
    the same term of the CCSDT residual; the antisymmetriser sees only the sign of the renaming. *)
From Coq Require Import Reals Arith List ZArith.
From Verif Require Import RSum IntegralsModel TensorObjs CcsdtModel CcsdtUpdate EomsdtModel.
Local Open Scope R_scope.
Definition eqc (C : mat6 -> mat6) (F G : mat6) := forall a b c i j k, C F a b c i j k = C G a b c i j k.
Definition opc (C : mat6 -> mat6) (F G : mat6) := forall a b c i j k, C F a b c i j k = - C G a b c i j k.
Definition addc (C : mat6 -> mat6) := forall F G a b c i j k, C (fun a b c i j k => F a b c i j k + G a b c i j k) a b c i j k = C F a b c i j k + C G a b c i j k.
Definition subc (C : mat6 -> mat6) := forall F G a b c i j k, C (fun a b c i j k => F a b c i j k - G a b c i j k) a b c i j k = C F a b c i j k - C G a b c i j k.
Definition oppc (C : mat6 -> mat6) := forall F a b c i j k, C (fun a b c i j k => - F a b c i j k) a b c i j k = - C F a b c i j k.
Lemma comb3_add : addc comb3. Proof. intros F G a b c i j k. unfold comb3. ring. Qed.
Lemma comb3_sub : subc comb3. Proof. intros F G a b c i j k. unfold comb3. ring. Qed.
Lemma comb3_opp : oppc comb3. Proof. intros F a b c i j k. unfold comb3. ring. Qed.
Lemma comb3b_add : addc comb3b. Proof. intros F G a b c i j k. unfold comb3b. ring. Qed.
Lemma comb3b_sub : subc comb3b. Proof. intros F G a b c i j k. unfold comb3b. ring. Qed.
Lemma comb3b_opp : oppc comb3b. Proof. intros F a b c i j k. unfold comb3b. ring. Qed.
Lemma comb3c_add : addc comb3c. Proof. intros F G a b c i j k. unfold comb3c. ring. Qed.
Lemma comb3c_sub : subc comb3c. Proof. intros F G a b c i j k. unfold comb3c. ring. Qed.
Lemma comb3c_opp : oppc comb3c. Proof. intros F a b c i j k. unfold comb3c. ring. Qed.
Section Norm.
Variable C : mat6 -> mat6.
Lemma nstart_p t' t : eqc C t' t -> eqc C (fun a b c i j k => t' a b c i j k) t. Proof. auto. Qed.
Variables (Ca : addc C) (Cs : subc C) (Co : oppc C).
Lemma nstart_m t' t : opc C t' t -> eqc C (fun a b c i j k => - t' a b c i j k) t.
Proof. intros E a b c i j k. rewrite Co, E. ring. Qed.
Variables F' F t' t : mat6.
Lemma nadd_p : eqc C F' F -> eqc C t' t -> eqc C (fun a b c i j k => F' a b c i j k + t' a b c i j k) (fun a b c i j k => F a b c i j k + t a b c i j k).
Proof using Ca Cs. intros E1 E2 a b c i j k. rewrite !Ca, E1, E2. reflexivity. Qed.
Lemma nadd_m : eqc C F' F -> opc C t' t -> eqc C (fun a b c i j k => F' a b c i j k - t' a b c i j k) (fun a b c i j k => F a b c i j k + t a b c i j k).
Proof using Ca Cs. intros E1 E2 a b c i j k. rewrite Cs, Ca, E1, E2. ring. Qed.
Lemma nsub_p : eqc C F' F -> eqc C t' t -> eqc C (fun a b c i j k => F' a b c i j k - t' a b c i j k) (fun a b c i j k => F a b c i j k - t a b c i j k).
Proof using Ca Cs. intros E1 E2 a b c i j k. rewrite !Cs, E1, E2. reflexivity. Qed.
Lemma nsub_m : eqc C F' F -> opc C t' t -> eqc C (fun a b c i j k => F' a b c i j k + t' a b c i j k) (fun a b c i j k => F a b c i j k - t a b c i j k).
Proof using Ca Cs. intros E1 E2 a b c i j k. rewrite Cs, Ca, E1, E2. ring. Qed.
End Norm.
Ltac c3p f := let g := fresh in generalize f; intro g; cbv [comb3 comb3b comb3c]; ring.
"""
# -- normal form of the triples: every term with its fixed indices renamed to those of the CCSDT residual (the antisymmetriser only sees the sign)
import re
CORR = {"aaa": ("i_a_ov", ("x_aa", "aeij"), ("x_aa", "bckm"), ("noa", "nua"), F(1, 4), -1, "cabjki"),
        "aab": ("i_b_ov", ("x_ab", "aeik"), ("x_ab", "bcjm"), ("nob", "nub"), 1, 1, "bacjik"),
        "abb": ("i_a_ov", ("x_ab", "ebij"), ("x_ab", "acmk"), ("noa", "nua"), 1, 1, "acbikj"),
        "bbb": ("i_b_ov", ("x_bb", "aeij"), ("x_bb", "bckm"), ("nob", "nub"), F(1, 4), -1, "cabjki")}
NORM = [("aaa", "X3A", 15, "comb3"), ("aab", "X3B", 39, "comb3b"), ("abb", "X3C", 39, "comb3c"), ("bbb", "X3D", 15, "comb3")]
KIND = {"I2A": "aa", "I2B": "ab", "I2C": "bb"}
def tens(n):
    return [n] if n[0] == "t" else [y for x in n[1:] if isinstance(x, tuple) for y in tens(x)]
def kind(head):
    m = re.search(r"(I2A|I2B|I2C|aa|ab|bb|a|b)_([ov]{2,4})(_\d+)?$", head.split(" ")[0])
    return KIND.get(m.group(1), m.group(1)) + "_" + m.group(2)
def ren(n, env):
    if n[0] == "t": return ("t", n[1], tuple(env.get(x, x) for x in n[2]))
    if n[0] == "c": return n
    if n[0] == "scale": return ("scale", n[1], ren(n[2], env))
    if n[0] == "sum": assert n[1] not in env.values(); return ("sum", n[1], n[2], ren(n[3], env))
    return (n[0],) + tuple(ren(x, env) for x in n[1:])
def parity(p):
    return sum(p[i] > p[j] for i in range(len(p)) for j in range(i + 1, len(p))) % 2
def normal(P, W):
    X = "abcijk"
    N = Prog("eomn_", "(d : dims) (H : ints) (T R : amps)", "d H T R")
    lem = []
    for blk, nm, last, comb in NORM:
        std = {}
        for n in P.order:
            if re.fullmatch(rf"ccsdt_dT_{blk}(_\d+)?", n):
                f, s = tens(P.defs[n][1])[-2:]
                std[(kind(f[1]), s[1].split(" ")[0])] = f[2]
        axes = None
        for k in range(last + 1):
            w = f"eomt_{nm}" + (f"_{k}" if k else "")
            ix, node, axes, src = W.defs[w]
            op, t = (None, node) if k == 0 else (node[0], node[2])
            env = dict(zip(ix, X))
            t = ren(t, env)
            f, s = tens(t)[-2:]
            g = std[(kind(f[1]), s[1].split(" ")[0])]
            sub = {x: y for x, y in zip(f[2], g) if x in X}
            for grp in ("abc", "ijk"):
                free = [y for y in grp if y not in sub.values()]
                for x in grp:
                    if x not in sub: sub[x] = free.pop(0)
            perm = [X.index(sub[x]) for x in X]
            sg = parity(perm[:3]) ^ parity([p - 3 for p in perm[3:]])
            src2 = src + ": the term added there"
            c = N.define(f"{nm}t{k}", Arr(axes, lambda jx, used, t=t: ren(t, dict(zip(X, jx))), X), src2)
            args = "".join(sub[x] for x in X)
            tt = ("t", f"eomn_{nm}t{k} d H T R", tuple(args))
            sn = (op == "sub") ^ (sg == 1)
            if k == 0: body = ("neg", tt) if sn else tt
            else: body = ("sub" if sn else "add", ("t", f"eomn_{nm}s{k-1} d H T R", tuple(X)), tt)
            N.define(f"{nm}s{k}", Arr(axes, lambda jx, used, b=body: ren(b, dict(zip(X, jx))), X), src + ": all terms up to this one, renamed")
            tf = f"(eomn_{nm}t{k} d H T R)"
            tp = f"(fun a b c i j k => eomn_{nm}t{k} d H T R {' '.join(args)})"
            pl = f"(fun a b c i j k => ltac:(unfold {comb}; ring))"
            how = "m" if sg else "p"
            if k == 0:
                lem.append(f"Lemma {nm}_norm0 d H T R : eqc {comb} (eomn_{nm}s0 d H T R) (eomt_{nm} d H T R).\nProof. exact (nstart_{how} {comb} {tp} {tf} (ltac:(intros a b c i j k; c3p (eomn_{nm}t{k} d H T R)))). Qed." if not sg else
                           f"Lemma {nm}_norm0 d H T R : eqc {comb} (eomn_{nm}s0 d H T R) (eomt_{nm} d H T R).\nProof. exact (nstart_m {comb} {comb}_opp {tp} {tf} (ltac:(intros a b c i j k; c3p (eomn_{nm}t{k} d H T R)))). Qed.")
            else:
                prev = f"eomt_{nm}" + (f"_{k-1}" if k > 1 else "")
                lem.append(f"Lemma {nm}_norm{k} d H T R : eqc {comb} (eomn_{nm}s{k} d H T R) ({w} d H T R).\nProof. exact (n{op}_{how} {comb} {comb}_add {comb}_sub (eomn_{nm}s{k-1} d H T R) ({prev} d H T R) {tp} {tf} ({nm}_norm{k-1} d H T R) (ltac:(intros a b c i j k; c3p (eomn_{nm}t{k} d H T R)))). Qed.")
        # the one product of two amplitudes and one Hamiltonian block that the two programs place in different terms
        h, t1, r1, dims_, q, sg, args = CORR[blk]
        u = ("sum", "m", dims_[0], ("sum", "e", dims_[1], ("mul", ("t", h + " H", ("m", "e")), ("mul", ("t", t1[0] + " T", tuple(t1[1])), ("t", r1[0] + " R", tuple(r1[1]))))))
        if q != 1: u = ("scale", q, u)
        N.define(f"{nm}u", Arr(axes, lambda jx, used, b=u: ren(b, dict(zip(X, jx))), X), "the product placed differently")
        u0, u1 = ("t", f"eomn_{nm}u d H T R", tuple(X)), ("t", f"eomn_{nm}u d H T R", tuple(args))
        if sg < 0: u0, u1 = u1, u0
        body = ("sub", ("add", ("t", f"eomn_{nm}s{last} d H T R", tuple(X)), u0), u1)
        N.define(f"{nm}f", Arr(axes, lambda jx, used, b=body: ren(b, dict(zip(X, jx))), X), "all terms, that product moved")
        lem.append(f"Lemma {nm}_norm d H T R : eqc {comb} (eomn_{nm}f d H T R) (eomt_{nm}_{last} d H T R).\nProof. intros a b c i j k. rewrite <- {nm}_norm{last}. unfold eomn_{nm}f. generalize (eomn_{nm}s{last} d H T R) (eomn_{nm}u d H T R). intros F G. cbv [{comb}]. ring. Qed.")
    return N, lem
if __name__ == "__main__":
    out = sys.argv[1] if len(sys.argv) > 1 else "/verif/rocq/theories/"
    Q, hb = hbar("hb3_", "ccpy/hbar/hbar_ccsdt.py", "build_hbar_ccsdt")
    W, dR = right()
    t = HEAD % ("eomsdt", "Models ccpy/hbar/hbar_ccsdt.py (build_hbar_ccsdt, RHF_symmetry = False), ccpy/eomcc/eomccsdt_intermediates.py (get_eomccsd_intermediates,\n    get_eomccsdt_intermediates, add_R3_terms) and ccpy/eomcc/eomccsdt.py (HR, build_HR_1A .. build_HR_3D, flag_RHF = False).")
    t += Q.text()
    t += "\n(** hbar_ccsdt.py, build_hbar_ccsdt, line 319: all blocks when the function returns (those never assigned keep the bare integrals) *)\n"
    t += f"Definition hbar_ccsdt {Q.ctx} : ints := {blocks(hb)}.\n"
    t += W.text() + "\n(** eomccsdt.py, HR, lines 34-64: the vector returned *)\n" + final("eomt_HR", W.ctx, dR, BL) + "\n"
    open(out + "EomsdtModel.v", "w").write(t)
    P, res = program()
    R = Reify(); R.alias = {"U": "T"}
    R.add(P); R.add(Q)
    sub = {}
    for b in BLK1 + BLK2:
        s, xy = b.split("_")
        nm = hb.get(s).get(xy).name
        if nm.startswith("hb3_"): sub[f"i_{b} H"] = "r_" + nm.split(" ")[0]
        else: assert nm == f"i_{b} H", nm
    R.add(W, subst=sub)
    N, lem = normal(P, W)
    R.add(N, subst=sub)
    for b in BL: R.tid(f"x_{b} T", 2 * len(b)); R.tid(f"x_{b} R", 2 * len(b))
    t = """(** Generated by tools/gen_eomsdt.py: reified CCSDT residual, Hbar and EOMCCSDT vector (proof support). *)
From Coq Require Import Reals Arith List ZArith.
From Verif Require Import RSum IntegralsModel TensorObjs TensorAlg CcsdtModel EomsdtModel EomsdtNorm.
Import ListNotations.
Local Open Scope nat_scope.
""" + "\n".join(R.out) + "\n"
    t += tables(R, params="(d : dims) (H : ints) (T R : amps)", name="jt_")
    t += "Definition jt_dm (k : nat) : option nat := match k with " + " ".join(f"| {R.ids[f'x_{b} T']} => Some {R.ids[f'x_{b} R']}" for b in BL) + " | _ => None end.\n"
    open(out + "EomsdtReify.v", "w").write(t)
    t = HEAD_N + N.text() + "\n" + "\n".join(lem) + "\n"
    open(out + "EomsdtNorm.v", "w").write(t)
    for b in BL: print(b, res[b].name if hasattr(res[b], "name") else res[b], dR._d[b].name)
    print([n for n in W.order if "X3" in n])
