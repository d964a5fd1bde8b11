"""Generate CrccDiag.v: the diagonal part of the triples equations at a single determinant, against the denominators of CrccModel.v."""
import sys
sys.path.insert(0, "/verif/tools")
from gen_crdiag import *
B3 = ["aaa", "aab", "abb", "bbb"]
DT = {"a": ("noa d", "nua d"), "b": ("nob d", "nub d")}
t = """(** Generated by tools/gen_crdel.py: antisymmetrised Kronecker deltas and the diagonal of the triples equations at one determinant (proof support). *)
From Coq Require Import Reals Arith List Bool Lia Lra.
From Verif Require Import RSum IntegralsModel TensorObjs TensorSpec FockArrays IntsFix CcsdtModel CrccModel CrccPoly.
Local Open Scope R_scope.
Definition dlt (p a : nat) : R := if Nat.eqb p a then 1 else 0.
Definition del2 (a b p q : nat) : R := dlt p a * dlt q b - dlt p b * dlt q a.
Definition del3 (a b c p q r : nat) : R := dlt p a * dlt q b * dlt r c + dlt p b * dlt q c * dlt r a + dlt p c * dlt q a * dlt r b - dlt p b * dlt q a * dlt r c - dlt p a * dlt q c * dlt r b - dlt p c * dlt q b * dlt r a.
Lemma dlt_same a : dlt a a = 1. Proof. unfold dlt. now rewrite Nat.eqb_refl. Qed.
Lemma dlt_lt a b : (a < b)%nat -> dlt a b = 0. Proof. intros H. unfold dlt. destruct (Nat.eqb_spec a b); [lia|reflexivity]. Qed.
Lemma dlt_gt a b : (b < a)%nat -> dlt a b = 0. Proof. intros H. unfold dlt. destruct (Nat.eqb_spec a b); [lia|reflexivity]. Qed.
Lemma s1 n a g : (a < n)%nat -> sumn n (fun e => g e * dlt e a) = g a.
Proof. intros H. rewrite <- (sumn_delta_f n a g H). apply sumn_ext; intros e _. unfold dlt. destruct (Nat.eqb e a); ring. Qed.
Lemma s2 n m a b g : (a < n)%nat -> (b < m)%nat -> sumn n (fun e => sumn m (fun f => g e f * (dlt e a * dlt f b))) = g a b.
Proof. intros Ha Hb. rewrite <- (s1 n a (fun e => g e b) Ha). apply sumn_ext; intros e _. rewrite <- (s1 m b (fun f => g e f) Hb), Rmult_comm, <- sumn_scal. apply sumn_ext; intros f _. ring. Qed.
Lemma s2a n a b g : (a < n)%nat -> (b < n)%nat -> sumn n (fun e => sumn n (fun f => g e f * (dlt e a * dlt f b - dlt e b * dlt f a))) = g a b - g b a.
Proof.
  intros Ha Hb. rewrite <- (s2 n n a b g Ha Hb), <- (s2 n n b a g Hb Ha), <- sumn_minus. apply sumn_ext; intros e _. rewrite <- sumn_minus. apply sumn_ext; intros f _. ring.
Qed.
Lemma s4a M n p i a b g : (i < n)%nat -> (a < p)%nat -> (b < p)%nat ->
  sumn M (fun m => sumn n (fun u => sumn p (fun e => sumn p (fun f => g m u e f * ((dlt e a * dlt f b - dlt e b * dlt f a) * dlt u i))))) = sumn M (fun m => g m i a b - g m i b a).
Proof.
  intros Hi Ha Hb. apply sumn_ext; intros m _. rewrite <- (s1 n i (fun u => g m u a b - g m u b a) Hi). apply sumn_ext; intros u _. rewrite <- (s2a p a b (fun e f => g m u e f) Ha Hb), Rmult_comm, <- sumn_scal.
  apply sumn_ext; intros e _. rewrite <- sumn_scal. apply sumn_ext; intros f _. ring.
Qed.
Lemma s4 M n p q i a b g : (i < n)%nat -> (a < p)%nat -> (b < q)%nat ->
  sumn M (fun m => sumn n (fun u => sumn p (fun e => sumn q (fun f => g m u e f * (dlt e a * dlt f b * dlt u i))))) = sumn M (fun m => g m i a b).
Proof.
  intros Hi Ha Hb. apply sumn_ext; intros m _. rewrite <- (s1 n i (fun u => g m u a b) Hi). apply sumn_ext; intros u _. rewrite <- (s2 p q a b (fun e f => g m u e f) Ha Hb), Rmult_comm, <- sumn_scal.
  apply sumn_ext; intros e _. rewrite <- sumn_scal. apply sumn_ext; intros f _. ring.
Qed.
Lemma s4ob n M p i j w g : (i < n)%nat -> (j < n)%nat -> (w < p)%nat ->
  sumn n (fun m => sumn n (fun u => sumn M (fun e => sumn p (fun f => g m u e f * (dlt f w * (dlt m i * dlt u j - dlt m j * dlt u i)))))) = sumn M (fun e => g i j e w - g j i e w).
Proof.
  intros Hi Hj Hw. rewrite sumn_minus. rewrite <- (s2a n i j (fun m u => sumn M (fun e => g m u e w)) Hi Hj). apply sumn_ext; intros m _. apply sumn_ext; intros u _.
  cbv beta. rewrite (Rmult_comm (sumn _ _)), <- sumn_scal. apply sumn_ext; intros e _. rewrite <- (s1 p w (fun f => g m u e f) Hw), <- sumn_scal. apply sumn_ext; intros f _. ring.
Qed.
Lemma s4o n n' M p i j w g : (i < n)%nat -> (j < n')%nat -> (w < p)%nat ->
  sumn n (fun m => sumn n' (fun u => sumn M (fun e => sumn p (fun f => g m u e f * (dlt f w * (dlt m i * dlt u j)))))) = sumn M (fun e => g i j e w).
Proof.
  intros Hi Hj Hw. rewrite <- (s2 n n' i j (fun m u => sumn M (fun e => g m u e w)) Hi Hj). apply sumn_ext; intros m _. apply sumn_ext; intros u _.
  cbv beta. rewrite (Rmult_comm (sumn _ _)), <- sumn_scal. apply sumn_ext; intros e _. rewrite <- (s1 p w (fun f => g m u e f) Hw), <- sumn_scal. apply sumn_ext; intros f _. ring.
Qed.
"""
def ydef(b, v, o):
    """the delta amplitudes as text at indices v, o"""
    a = {"aaa": f"del3 a b c {v[0]} {v[1]} {v[2]} * del3 i j k {o[0]} {o[1]} {o[2]}",
         "aab": f"del2 a b {v[0]} {v[1]} * dlt {v[2]} c * (del2 i j {o[0]} {o[1]} * dlt {o[2]} k)",
         "abb": f"dlt {v[0]} a * del2 b c {v[1]} {v[2]} * (dlt {o[0]} i * del2 j k {o[1]} {o[2]})"}
    return a["aaa" if b == "bbb" else b]
def rng(b):
    r = []
    for x, l in enumerate("abc"): r.append(f"({l} < {DT[b[x]][1]})%nat")
    for x, l in enumerate("ijk"): r.append(f"({l} < {DT[b[x]][0]})%nat")
    return r
for b in B3:
    lt = [(p, q) for g in ("abc", "ijk") for p, q in [(g[0], g[1]), (g[0], g[2]), (g[1], g[2])] if b["abc".index(p) if p in "abc" else "ijk".index(p)] == b["abc".index(q) if q in "abc" else "ijk".index(q)]]
    t += f"Lemma diag_{b} d H0 H T L a b c i j k : primary_antisym H -> antisym_amps T -> {' -> '.join(rng(b))} -> {' -> '.join(f'({p} < {q})%nat' for p, q in lt)} ->\n"
    t += f"  (forall p q r s t u, x_{b} T p q r s t u = {ydef(b, 'pqr', 'stu')}) -> crdia_{b} d H T a b c i j k = - crcc_DD_{b} d H0 H T L a b c i j k.\nProof.\n"
    t += f"  intros PA AT Ha Hb Hc Hi Hj Hk {' '.join(f'L{p}{q}' for p, q in lt)} Y. destruct AT as [T1 T2 T3 T4].\n"
    fl = []
    for p, q in lt:
        t += f"  assert (Z{p}{q} := dlt_lt {p} {q} L{p}{q}). assert (Z{q}{p} := dlt_gt {q} {p} L{p}{q}).\n"; fl += [f"Z{p}{q}", f"Z{q}{p}"]
    fin = f"rewrite Y; unfold del3, del2; rewrite ?dlt_same, ?{', ?'.join(fl)}; ring"
    names = []
    for n, (q, sm, fs, rep) in enumerate(diag(b)):
        node = ("mul", ("t", fs[0][0], fs[0][1]), None)
        term0 = term((F(1), sm, fs, rep), f"x_{b} T")
        txt = gal(term0, 0)
        inv = {w: v for v, w in rep.items()}
        gh = " * ".join(f"{h} {' '.join(ix)}" for h, ix in fs)
        vs = [v for v, _ in sm]
        val0 = {v: inv[v] for v in vs if v in inv}
        def at(mp): return " * ".join(f"{h} {' '.join(mp.get(x, x) for x in ix)}" for h, ix in fs)
        H1 = lambda v: f"H{v}"
        dims = [dimtxt(dd).strip("()") for _, dd in sm]
        D = [f"({dimtxt(dd).strip('()')})" for _, dd in sm]
        ext = " ".join(f"apply sumn_ext; intros {v} _." for v in vs)
        gfun = f"(fun {' '.join(vs)} => {gh})"
        if len(vs) == 1:
            rhs = at(val0); lem = f"(s1 {D[0]} {inv[vs[0]]} {gfun} {H1(inv[vs[0]])})"
        elif len(vs) == 2:
            sameg = (vs[0] in "ef") == (vs[1] in "ef") and fs[0][0].split("_")[1] in ("aa", "bb")
            sw = {vs[0]: inv[vs[1]], vs[1]: inv[vs[0]]}
            if sameg: rhs = f"{at(val0)} - {at(sw)}"; lem = f"(s2a {D[0]} {inv[vs[0]]} {inv[vs[1]]} {gfun} {H1(inv[vs[0]])} {H1(inv[vs[1]])})"
            else: rhs = at(val0); lem = f"(s2 {D[0]} {D[1]} {inv[vs[0]]} {inv[vs[1]]} {gfun} {H1(inv[vs[0]])} {H1(inv[vs[1]])})"
        else:
            same = fs[0][0].split("_")[1] in ("aa", "bb")
            if "n" in inv and "e" in inv:   # free m
                i0, a0, b0 = inv["n"], inv["e"], inv["f"]
                if same:
                    rhs = f"sumn {D[0]} (fun m => {at({'n': i0, 'e': a0, 'f': b0})} - {at({'n': i0, 'e': b0, 'f': a0})})"
                    lem = f"(s4a {D[0]} {D[1]} {D[2]} {i0} {a0} {b0} {gfun} {H1(i0)} {H1(a0)} {H1(b0)})"
                else:
                    rhs = f"sumn {D[0]} (fun m => {at({'n': i0, 'e': a0, 'f': b0})})"
                    lem = f"(s4 {D[0]} {D[1]} {D[2]} {D[3]} {i0} {a0} {b0} {gfun} {H1(i0)} {H1(a0)} {H1(b0)})"
            else:
                i0, j0, w0 = inv["m"], inv["n"], inv["f"]
                if same:
                    rhs = f"sumn {D[2]} (fun e => {at({'m': i0, 'n': j0, 'f': w0})} - {at({'m': j0, 'n': i0, 'f': w0})})"
                    lem = f"(s4ob {D[0]} {D[2]} {D[3]} {i0} {j0} {w0} {gfun} {H1(i0)} {H1(j0)} {H1(w0)})"
                else:
                    rhs = f"sumn {D[2]} (fun e => {at({'m': i0, 'n': j0, 'f': w0})})"
                    lem = f"(s4o {D[0]} {D[1]} {D[2]} {D[3]} {i0} {j0} {w0} {gfun} {H1(i0)} {H1(j0)} {H1(w0)})"
        t += f"  assert (R{n} : {txt} = {rhs}). {{ rewrite <- {lem}. {ext} {fin}. }}\n"
        names.append(f"R{n}")
        # bring to the program's orientation
        if len(vs) == 2 and "-" in rhs:
            h = fs[0][0]
            if "vvvv" in h: p, q2 = inv["e"], inv["f"]; t += f"  assert (Q{n} : {rhs} = 2 * {h} {p} {q2} {p} {q2}) by (rewrite (pa_{h.split()[0][2:]}_34 H PA {p} {q2} {q2} {p}); ring).\n"
            else: p, q2 = inv["m"], inv["n"]; t += f"  assert (Q{n} : {rhs} = 2 * {h} {q2} {p} {q2} {p}) by (rewrite (pa_{h.split()[0][2:]}_12 H PA {p} {q2} {p} {q2}), (pa_{h.split()[0][2:]}_34 H PA {q2} {p} {p} {q2}); ring).\n"
            t += f"  rewrite Q{n} in R{n}.\n"
        if len(vs) == 4 and "-" in rhs:
            h = fs[0][0]; s = h.split("_")[1]; TA = {"aa": ("T1", "T2"), "bb": ("T3", "T4")}[s]
            if "e" in inv:
                i0, a0, b0 = inv["n"], inv["e"], inv["f"]
                t += f"  assert (Q{n} : {rhs} = 2 * sumn {D[0]} (fun m => {h} {i0} m {a0} {b0} * x_{s} T {a0} {b0} {i0} m)).\n  {{ rewrite <- sumn_scal. apply sumn_ext; intros m _. rewrite (pa_{s}_oovv_34 H PA m {i0} {b0} {a0}), (pa_{s}_oovv_12 H PA m {i0} {a0} {b0}), ({TA[1]} {a0} {b0} m {i0}). ring. }}\n"
            else:
                i0, j0, w0 = inv["m"], inv["n"], inv["f"]
                t += f"  assert (Q{n} : {rhs} = 2 * sumn {D[2]} (fun e => {h} {i0} {j0} {w0} e * x_{s} T {w0} e {i0} {j0})).\n  {{ rewrite <- sumn_scal. apply sumn_ext; intros e _. rewrite (pa_{s}_oovv_12 H PA {j0} {i0} e {w0}), (pa_{s}_oovv_34 H PA {i0} {j0} e {w0}), ({TA[0]} e {w0} {i0} {j0}). ring. }}\n"
            t += f"  rewrite Q{n} in R{n}.\n"
    t += f"  unfold crdia_{b}. rewrite {', '.join(names)}. unfold crcc_DD_{b}, crcc_DC_{b}, crcc_DB_{b}, crcc_h_aa_vvvv, crcc_h_ab_vvvv, crcc_h_bb_vvvv, " + ", ".join(f"crcc_d3{x}_{w}" for x in B3 for w in "vo") + ".\n"
    t += "  " + " ".join(f"rewrite ?(proj2 (Nat.leb_gt {q} {p}) L{p}{q})." for p, q in lt if p in "abc") + " field.\nQed.\n"
open((sys.argv[1] if len(sys.argv) > 1 else "/verif/rocq/theories/") + "CrccDiag.v", "w").write(t)
