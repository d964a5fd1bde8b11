"""Generate CrccRhf.v: the closed-shell branch of CR-CC(2,3), reified with the Hbar blocks as atoms, and the spin-flip identities."""
import sys, re
sys.path.insert(0, "/verif/tools")
from tgen import *
from gen_crcc import program
out = sys.argv[1] if len(sys.argv) > 1 else "/verif/rocq/theories/"
P, cases = program()
R = Reify(); R.alias = {"U": "T", "H0": "H0"}
names = [n for n in P.order if not re.match(r"crcc_D[ABCD]_", n)]
R.add(P, names=names, tag="z_")
prs = []
def pair(n1, ix1, n2, ix2, k):
    R.out.append(f"Definition q_{n1} : ex * ex := (z_crcc_{n1} {k} {ix1}, z_crcc_{n2} {k} {ix2}).")
    prs.append((n1, n2, k, ix1, ix2))
for w in ("M", "L"):
    pair(f"{w}_abb", "0 1 2 3 4 5", f"{w}_aab", "1 2 0 4 5 3", 6)
    pair(f"{w}_bbb", "0 1 2 3 4 5", f"{w}_aaa", "0 1 2 3 4 5", 6)
for w in ("v", "o"): pair(f"d3bbb_{w}", "0 1 2", f"d3aaa_{w}", "0 1 2", 3)
pair("d3abb_v", "0 1 2", "d3aab_v", "2 1 0", 3)
pair("d3abb_o", "0 1 2", "d3aab_o", "0 2 1", 3)
t = """(** Generated by tools/gen_crrhf.py: spin symmetry of the CR-CC(2,3) quantities in closed shells (proof support). *)
From Coq Require Import Reals Arith List ZArith.
From Verif Require Import RSum IntegralsModel TensorObjs TensorAlg TensorSpec TensorClosed TensorDeriv EomProps CrccModel.
Import ListNotations.
Local Open Scope nat_scope.
""" + "\n".join(R.out) + "\n"
t += tables(R, params="(d : dims) (H0 H : ints) (T L : amps)", name="crrhf_", closed=True)
n = len(R.tens)
t += f"""Local Open Scope R_scope.
Section C.
Variables (d : dims) (H0 H : ints) (T L : amps).
Hypothesis En : noa d = nob d.
Hypothesis Em : nua d = nub d.
Hypothesis HH : antisym_ints H.
Hypothesis CH : closed_ints H.
Hypothesis C0 : closed_ints H0.
Hypothesis HT : antisym_amps T.
Hypothesis HL : antisym_amps L.
Hypothesis CT : closed_amps T.
Hypothesis CL : closed_amps L.
Lemma crrhf_syms : Forall (fun g => okalt (tenv (crrhf_arrays d H0 H T L)) (fst g) (snd g)) crrhf_gens.
Proof. clear C0. sym_all. Qed.
Lemma crrhf_same e1 e2 v : same_tab crrhf_tab dfold [0; 1]%nat e1 e2 = true -> den (denv [noa d; nua d; nob d; nub d]) (tenv (crrhf_arrays d H0 H T L)) e1 v = den (denv [noa d; nua d; nob d; nub d]) (tenv (crrhf_arrays d H0 H T L)) e2 v.
Proof.
  intros E. apply (same_tab_sound _ _ crrhf_gens {n} crrhf_tab dfold [0; 1]%nat); [vm_compute; reflexivity|now apply dfold_ok|exact crrhf_syms|exact E].
Qed.
"""
def nm(ix, letters): return " ".join(letters[int(x)] for x in ix.split())
for n1, n2, k, i1, i2 in prs:
    L = "abcijk"[:k] if k == 6 else "pqr"
    g = "d H0 H T L"
    t += f"Lemma fl_{n1} {' '.join(L)} : crcc_{n1} {g} {nm(i1, L)} = crcc_{n2} {g} {nm(i2, L)}.\nProof. apply (crrhf_same (fst q_{n1}) (snd q_{n1}) (venv [{'; '.join(L)}])). vm_compute. reflexivity. Qed.\n"
t += """Lemma fl_hbb a b : crcc_h_bb_vvvv H a b = crcc_h_aa_vvvv H a b. Proof. unfold crcc_h_bb_vvvv, crcc_h_aa_vvvv. now rewrite !(ci_aa_vvvv H CH). Qed.
Lemma fl_hab a b : crcc_h_ab_vvvv H a b = crcc_h_ab_vvvv H b a. Proof. unfold crcc_h_ab_vvvv. apply (ci_ab_vvvv H CH). Qed.
"""
for w in "ABCD":
    t += f"Lemma fl_D{w}_bbb a b c i j k : crcc_D{w}_bbb d H0 H T L a b c i j k = crcc_D{w}_aaa d H0 H T L a b c i j k.\n"
    if w == "A": t += "Proof. unfold crcc_DA_bbb, crcc_DA_aaa. now rewrite !(ci_a_oo H0 C0), !(ci_a_vv H0 C0). Qed.\n"
    elif w == "B": t += "Proof. unfold crcc_DB_bbb, crcc_DB_aaa. now rewrite !(ci_a_oo H CH), !(ci_a_vv H CH). Qed.\n"
    elif w == "C": t += "Proof. unfold crcc_DC_bbb, crcc_DC_aaa. now rewrite fl_DB_bbb, !(ci_aa_voov H CH), !(ci_aa_oooo H CH), !fl_hbb. Qed.\n"
    else: t += "Proof. unfold crcc_DD_bbb, crcc_DD_aaa. now rewrite fl_DC_bbb, !fl_d3bbb_o, !fl_d3bbb_v. Qed.\n"
    t += f"Lemma fl_D{w}_abb a b c i j k : crcc_D{w}_abb d H0 H T L a b c i j k = crcc_D{w}_aab d H0 H T L b c a j k i.\n"
    if w == "A": t += "Proof. unfold crcc_DA_abb, crcc_DA_aab. rewrite !(ci_a_oo H0 C0), !(ci_a_vv H0 C0). ring. Qed.\n"
    elif w == "B": t += "Proof. unfold crcc_DB_abb, crcc_DB_aab. rewrite !(ci_a_oo H CH), !(ci_a_vv H CH). ring. Qed.\n"
    elif w == "C": t += """Proof.
  unfold crcc_DC_abb, crcc_DC_aab. rewrite fl_DB_abb, !(ci_aa_voov H CH), !(ci_aa_oooo H CH), !fl_hbb.
  rewrite !(ci_ab_ovov H CH). rewrite (ci_ab_oooo H CH j i j i), (ci_ab_oooo H CH k i k i), (fl_hab b a), (fl_hab c a). ring.
Qed.
"""
    else: t += "Proof. unfold crcc_DD_abb, crcc_DD_aab. rewrite fl_DC_abb, !fl_d3bbb_o, !fl_d3bbb_v, !fl_d3abb_o, !fl_d3abb_v. ring. Qed.\n"
t += "End C.\n"
open(out + "CrccRhf.v", "w").write(t)
