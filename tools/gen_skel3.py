#!/usr/bin/env python3
"""Writes Sector3Skel.v: the sigma vectors of Sector3Model.v reified with the blocks of the similarity-transformed Hamiltonian as arrays, and the proof that
they read those blocks inside their dimensions only.  Usage: gen_skel3.py OUTDIR METHODS"""
import sys
sys.path.insert(0, "/verif/tools")
from gen_sector3 import *
def main(out, names):
    R, sub = numbering()
    CL = {"o": (0, "noa d"), "v": (1, "nua d"), "O": (2, "nob d"), "V": (3, "nub d")}
    t = """(** Generated by tools/gen_skel3.py: the sigma vectors of Sector3Model.v as expressions over the blocks of the similarity-transformed Hamiltonian; they read
    each block inside its dimensions only, and no singly excited amplitudes (proof support). *)
From Coq Require Import Reals Arith List Bool Lia ZArith.
From Verif Require Import RSum IntegralsModel TensorObjs TensorAlg CcsdReify CcsdModel FockSpec FockArrays FockTerms FockCheck FockState FockSectorTools HbarDress HbarSpec HbarBlocks Sector3Model Sector3Spec.
Import ListNotations.
Local Open Scope nat_scope.
Lemma skel d X Y T T' Rs G e v : ints_agree d X Y -> (forall a b i j, x_aa T a b i j = x_aa T' a b i j) -> (forall a b i j, x_ab T a b i j = x_ab T' a b i j) -> (forall a b i j, x_bb T a b i j = x_bb T' a b i j) ->
  length Rs <= 33 -> typed blocks 40 G (retag (to_sector (length Rs)) e) = true -> ranged (fdim d) G v -> den (fdim d) (tenv (jac_arrays d X T T ++ Rs)) e v = den (fdim d) (tenv (jac_arrays d Y T' T' ++ Rs)) e v.
Proof.
  intros HX Ta Tb Tc HL K HR. rewrite <- !retag_sector by exact HL. apply (typed_den (fdim d) _ _ blocks 40) with (G := G); [| |exact K|exact HR].
  - intros k cs E u ix Hx. assert (k < 66) by (do 66 (destruct k as [|k]; [lia|]); discriminate E).
    unfold tenv. rewrite !app_nth1 by (cbn [length fock_arrays]; lia). exact (blocks_agree d X Y T T' HX Ta Tb Tc k cs E 40 u ix Hx).
  - intros k l Hk. unfold tenv. rewrite !app_nth2 by (cbn [length fock_arrays]; lia). reflexivity.
Qed.
Ltac rng6 := let x := fresh "x" in let c := fresh "c" in let E := fresh "E" in intros x c E; do 6 (destruct x as [|x]; [try discriminate E; cbv [lookc Nat.eqb] in E; injection E as <-; assumption|]); discriminate E.
"""
    for m in names:
        P, dR = sigma(m)
        bl = METHODS[m]["blocks"]
        S = Reify(); S.alias = R.alias; S.ids = dict(R.ids); S.tens = list(R.tens); S.width = {}; S.known = {}
        for k, (b, x) in enumerate(bl.items()): assert S.tid(f"{m}_{b} R", len(x[0])) == 66 + k
        S.add(P, tag="k_")
        assert len(S.tens) == 66 + len(bl), S.tens[66:]
        t += "\n".join(S.out) + "\n"
        t += f"Section S_{m}.\nVariables (d : dims) (X X' : ints) (T T' : amps) (Y : {m}v).\nHypothesis (HX : ints_agree d X X') (Ta : forall a b i j, x_aa T a b i j = x_aa T' a b i j) (Tb : forall a b i j, x_ab T a b i j = x_ab T' a b i j) (Tc : forall a b i j, x_bb T a b i j = x_bb T' a b i j).\n"
        ap = {1: "ap1"}
        Rs = "[" + "; ".join(f"ap{len(x[0])} ({m}_{b} Y)" for b, x in bl.items()) + "]"
        for b, x in bl.items():
            c = x[0]; n = len(c); v = "pqrstu"[:n]; vs = " ".join(v)
            nm = P and dR._d[b].name.split(" ")[0]
            G = "[" + "; ".join(f"({i}, {CL[y][0]})" for i, y in enumerate(c)) + "]"
            t += f"Lemma {m}_same_{b} {vs} : " + " -> ".join(f"{q} < {CL[y][1]}" for q, y in zip(v, c)) + f" -> {m}_{b} ({m}_HR d X T Y) {vs} = {m}_{b} ({m}_HR d X' T' Y) {vs}.\n"
            t += f"Proof. intros. apply (skel d X X' T T' {Rs} {G} (k_{nm} 10 {' '.join(map(str, range(n)))}) (venv [{'; '.join(v)}]) HX Ta Tb Tc); [cbn [length]; lia|vm_compute; reflexivity|rng6]. Qed.\n"
        t += f"Lemma {m}_root_same w : {m}_root d ({m}_HR d X T Y) Y w <-> {m}_root d ({m}_HR d X' T' Y) Y w.\nProof.\n  unfold {m}_root. split; intros G; decompose [and] G; repeat match goal with |- _ /\\ _ => split end; intros; "
        t += "first [" + " | ".join(f"rewrite {m}_same_{b} by assumption" for b in bl) + " | " + " | ".join(f"rewrite <- {m}_same_{b} by assumption" for b in bl) + "]; auto.\nQed.\n"
        t += f"End S_{m}.\n"
    open(out + "/Sector3Skel.v", "w").write(t)
main(sys.argv[1], sys.argv[2].split(","))
