(** Generated by tools/gen_hbardress.py: blocks of the similarity-transformed Hamiltonian of CCSD, computed from (H, T) and from (dressed H, T without T1) (proof support). *)
From Coq Require Import Reals Arith NArith List Bool Lia Lra QArith Qreals ZArith.
From Verif Require Import RSum IntegralsModel TensorObjs TensorAlg TensorSpec CcsdModel CcsdReify FockSpec FockCar FockWick FockArrays FockCcSpec FockTerms FockCheck FockState FockProj FockDress FockShift FockSector3 HbarDress HbarSpec.
Import ListNotations.
Local Open Scope nat_scope.
Definition axz (k : nat) : option (list nat) := if k <? 66 then axes k else Some [].
Definition hcheck (G : list (nat * nat)) (e : ex) : bool := typed axz 40 G (kill e) && same_tab ftab (fun x => x) [0; 1; 2; 3] e (inst 40 (kill e)).
Section B.
Variables (d : dims) (I : integrals) (T : amps).
Hypothesis (HI : exchangeable I) (HT : antisym_amps T).
Notation H := (fock_ints (noa d) (nob d) I).
Notation H' := (fock_ints (noa d) (nob d) (dressed d T I)).
Lemma hcheck_ok G e v : hcheck G e = true -> ranged (fdim d) G v -> den (fdim d) (ften H T) e v = den (fdim d) (ften H' (bare T)) e v.
Proof.
  intros K HR. apply andb_prop in K as (K1 & K2).
  rewrite (same_tab_sound (fdim d) (ften H T) fock_gens 66 ftab (fun x => x) [0; 1; 2; 3] _ _ ftab_eq (fun _ => eq_refl) (fock_syms _ _ (fock_ints_antisym _ _ _ HI) HT) K2 v).
  rewrite (inst_den (fdim d) (ften H T) (ften H' (bare T)) axz 40 (kill e)) with (G := G); [|intros k cs E u ix Hx| |exact K1|exact HR].
  - apply kill_ok. intros k ix Hk. destruct k as [|[|k]]; [| |lia]; unfold tenv; cbn [nth fock_arrays ap2 bare x_a x_b]; (destruct ix as [|? [|? [|]]]; reflexivity).
  - unfold axz in E. destruct (Nat.ltb_spec k 66) as [L|L]; [now apply (sub_ok d I T k cs)|]. injection E as <-. inversion Hx; subst. unfold sub.
    replace (k <? 2) with false by (symmetry; apply Nat.ltb_ge; lia). replace (k <? 9) with false by (symmetry; apply Nat.ltb_ge; lia). rewrite den_zero.
    unfold tenv. rewrite nth_overflow by (cbn [length fock_arrays]; lia). reflexivity.
  - intros k L. unfold axz. replace (k <? 66) with false by (symmetry; apply Nat.ltb_ge; lia). discriminate.
Qed.
Lemma rtt X Y e v : den (fdim d) (ften X Y) (rt e) v = den (fdim d) (tenv (jac_arrays d X Y Y)) e v.
Proof. apply retag_ok. intros k l. apply to_fock_ok. Qed.
Lemma hcheck_rt G e v : hcheck G (rt e) = true -> ranged (fdim d) G v -> den (fdim d) (tenv (jac_arrays d H T T)) e v = den (fdim d) (tenv (jac_arrays d H' (bare T) (bare T))) e v.
Proof. intros K HR. rewrite <- !rtt. now apply (hcheck_ok G). Qed.
Ltac rng := let x := fresh "x" in let c := fresh "c" in let E := fresh "E" in intros x c E; do 4 (destruct x as [|x]; [try discriminate E; cbv [lookc Nat.eqb] in E; injection E as <-; assumption|]); discriminate E.

Lemma hb_a_oo p q : (p < noa d) -> (q < noa d) -> i_a_oo (hbar_ccsd d H T) p q = i_a_oo (hbar_ccsd d H' (bare T)) p q.
Proof. intros. apply (hcheck_rt [(0, 0); (1, 0)] (r_hb_H_a_oo 10 0 1) (venv [p; q])); [vm_compute; reflexivity|rng]. Qed.
Lemma hb_a_ov p q : (p < noa d) -> (q < nua d) -> i_a_ov (hbar_ccsd d H T) p q = i_a_ov (hbar_ccsd d H' (bare T)) p q.
Proof. intros. apply (hcheck_rt [(0, 0); (1, 1)] (r_hb_H_a_ov 10 0 1) (venv [p; q])); [vm_compute; reflexivity|rng]. Qed.
Lemma hb_a_vv p q : (p < nua d) -> (q < nua d) -> i_a_vv (hbar_ccsd d H T) p q = i_a_vv (hbar_ccsd d H' (bare T)) p q.
Proof. intros. apply (hcheck_rt [(0, 1); (1, 1)] (r_hb_H_a_vv 10 0 1) (venv [p; q])); [vm_compute; reflexivity|rng]. Qed.
Lemma hb_b_oo p q : (p < nob d) -> (q < nob d) -> i_b_oo (hbar_ccsd d H T) p q = i_b_oo (hbar_ccsd d H' (bare T)) p q.
Proof. intros. apply (hcheck_rt [(0, 2); (1, 2)] (r_hb_H_b_oo 10 0 1) (venv [p; q])); [vm_compute; reflexivity|rng]. Qed.
Lemma hb_b_ov p q : (p < nob d) -> (q < nub d) -> i_b_ov (hbar_ccsd d H T) p q = i_b_ov (hbar_ccsd d H' (bare T)) p q.
Proof. intros. apply (hcheck_rt [(0, 2); (1, 3)] (r_hb_H_b_ov 10 0 1) (venv [p; q])); [vm_compute; reflexivity|rng]. Qed.
Lemma hb_b_vv p q : (p < nub d) -> (q < nub d) -> i_b_vv (hbar_ccsd d H T) p q = i_b_vv (hbar_ccsd d H' (bare T)) p q.
Proof. intros. apply (hcheck_rt [(0, 3); (1, 3)] (r_hb_H_b_vv 10 0 1) (venv [p; q])); [vm_compute; reflexivity|rng]. Qed.
Lemma hb_aa_oooo p q r s : (p < noa d) -> (q < noa d) -> (r < noa d) -> (s < noa d) -> i_aa_oooo (hbar_ccsd d H T) p q r s = i_aa_oooo (hbar_ccsd d H' (bare T)) p q r s.
Proof. intros. apply (hcheck_rt [(0, 0); (1, 0); (2, 0); (3, 0)] (r_hb_H_aa_oooo_1 10 0 1 2 3) (venv [p; q; r; s])); [vm_compute; reflexivity|rng]. Qed.
Lemma hb_aa_ooov p q r s : (p < noa d) -> (q < noa d) -> (r < noa d) -> (s < nua d) -> i_aa_ooov (hbar_ccsd d H T) p q r s = i_aa_ooov (hbar_ccsd d H' (bare T)) p q r s.
Proof. intros. apply (hcheck_rt [(0, 0); (1, 0); (2, 0); (3, 1)] (r_hb_H_aa_ooov 10 0 1 2 3) (venv [p; q; r; s])); [vm_compute; reflexivity|rng]. Qed.
Lemma hb_aa_oovv p q r s : (p < noa d) -> (q < noa d) -> (r < nua d) -> (s < nua d) -> i_aa_oovv (hbar_ccsd d H T) p q r s = i_aa_oovv (hbar_ccsd d H' (bare T)) p q r s.
Proof. intros. apply (hcheck_ok [(0, 0); (1, 0); (2, 1); (3, 1)] (ET 20 [0; 1; 2; 3]) (venv [p; q; r; s])); [vm_compute; reflexivity|rng]. Qed.
Lemma hb_aa_vooo p q r s : (p < nua d) -> (q < noa d) -> (r < noa d) -> (s < noa d) -> i_aa_vooo (hbar_ccsd d H T) p q r s = i_aa_vooo (hbar_ccsd d H' (bare T)) p q r s.
Proof. intros. apply (hcheck_rt [(0, 1); (1, 0); (2, 0); (3, 0)] (r_hb_H_aa_vooo 10 0 1 2 3) (venv [p; q; r; s])); [vm_compute; reflexivity|rng]. Qed.
Lemma hb_aa_voov p q r s : (p < nua d) -> (q < noa d) -> (r < noa d) -> (s < nua d) -> i_aa_voov (hbar_ccsd d H T) p q r s = i_aa_voov (hbar_ccsd d H' (bare T)) p q r s.
Proof. intros. apply (hcheck_rt [(0, 1); (1, 0); (2, 0); (3, 1)] (r_hb_H_aa_voov 10 0 1 2 3) (venv [p; q; r; s])); [vm_compute; reflexivity|rng]. Qed.
Lemma hb_aa_vovv p q r s : (p < nua d) -> (q < noa d) -> (r < nua d) -> (s < nua d) -> i_aa_vovv (hbar_ccsd d H T) p q r s = i_aa_vovv (hbar_ccsd d H' (bare T)) p q r s.
Proof. intros. apply (hcheck_rt [(0, 1); (1, 0); (2, 1); (3, 1)] (r_hb_H_aa_vovv 10 0 1 2 3) (venv [p; q; r; s])); [vm_compute; reflexivity|rng]. Qed.
Lemma hb_aa_vvov p q r s : (p < nua d) -> (q < nua d) -> (r < noa d) -> (s < nua d) -> i_aa_vvov (hbar_ccsd d H T) p q r s = i_aa_vvov (hbar_ccsd d H' (bare T)) p q r s.
Proof. intros. apply (hcheck_rt [(0, 1); (1, 1); (2, 0); (3, 1)] (r_hb_H_aa_vvov_1 10 0 1 2 3) (venv [p; q; r; s])); [vm_compute; reflexivity|rng]. Qed.
Lemma hb_aa_vvvv p q r s : (p < nua d) -> (q < nua d) -> (r < nua d) -> (s < nua d) -> i_aa_vvvv (hbar_ccsd d H T) p q r s = i_aa_vvvv (hbar_ccsd d H' (bare T)) p q r s.
Proof. intros. apply (hcheck_rt [(0, 1); (1, 1); (2, 1); (3, 1)] (r_hb_H_aa_vvvv_1 10 0 1 2 3) (venv [p; q; r; s])); [vm_compute; reflexivity|rng]. Qed.
Lemma hb_ab_oooo p q r s : (p < noa d) -> (q < nob d) -> (r < noa d) -> (s < nob d) -> i_ab_oooo (hbar_ccsd d H T) p q r s = i_ab_oooo (hbar_ccsd d H' (bare T)) p q r s.
Proof. intros. apply (hcheck_rt [(0, 0); (1, 2); (2, 0); (3, 2)] (r_hb_H_ab_oooo 10 0 1 2 3) (venv [p; q; r; s])); [vm_compute; reflexivity|rng]. Qed.
Lemma hb_ab_ooov p q r s : (p < noa d) -> (q < nob d) -> (r < noa d) -> (s < nub d) -> i_ab_ooov (hbar_ccsd d H T) p q r s = i_ab_ooov (hbar_ccsd d H' (bare T)) p q r s.
Proof. intros. apply (hcheck_rt [(0, 0); (1, 2); (2, 0); (3, 3)] (r_hb_H_ab_ooov 10 0 1 2 3) (venv [p; q; r; s])); [vm_compute; reflexivity|rng]. Qed.
Lemma hb_ab_oovo p q r s : (p < noa d) -> (q < nob d) -> (r < nua d) -> (s < nob d) -> i_ab_oovo (hbar_ccsd d H T) p q r s = i_ab_oovo (hbar_ccsd d H' (bare T)) p q r s.
Proof. intros. apply (hcheck_rt [(0, 0); (1, 2); (2, 1); (3, 2)] (r_hb_H_ab_oovo 10 0 1 2 3) (venv [p; q; r; s])); [vm_compute; reflexivity|rng]. Qed.
Lemma hb_ab_oovv p q r s : (p < noa d) -> (q < nob d) -> (r < nua d) -> (s < nub d) -> i_ab_oovv (hbar_ccsd d H T) p q r s = i_ab_oovv (hbar_ccsd d H' (bare T)) p q r s.
Proof. intros. apply (hcheck_ok [(0, 0); (1, 2); (2, 1); (3, 3)] (ET 36 [0; 1; 2; 3]) (venv [p; q; r; s])); [vm_compute; reflexivity|rng]. Qed.
Lemma hb_ab_ovoo p q r s : (p < noa d) -> (q < nub d) -> (r < noa d) -> (s < nob d) -> i_ab_ovoo (hbar_ccsd d H T) p q r s = i_ab_ovoo (hbar_ccsd d H' (bare T)) p q r s.
Proof. intros. apply (hcheck_rt [(0, 0); (1, 3); (2, 0); (3, 2)] (r_hb_H_ab_ovoo 10 0 1 2 3) (venv [p; q; r; s])); [vm_compute; reflexivity|rng]. Qed.
Lemma hb_ab_ovov p q r s : (p < noa d) -> (q < nub d) -> (r < noa d) -> (s < nub d) -> i_ab_ovov (hbar_ccsd d H T) p q r s = i_ab_ovov (hbar_ccsd d H' (bare T)) p q r s.
Proof. intros. apply (hcheck_rt [(0, 0); (1, 3); (2, 0); (3, 3)] (r_hb_H_ab_ovov 10 0 1 2 3) (venv [p; q; r; s])); [vm_compute; reflexivity|rng]. Qed.
Lemma hb_ab_ovvo p q r s : (p < noa d) -> (q < nub d) -> (r < nua d) -> (s < nob d) -> i_ab_ovvo (hbar_ccsd d H T) p q r s = i_ab_ovvo (hbar_ccsd d H' (bare T)) p q r s.
Proof. intros. apply (hcheck_rt [(0, 0); (1, 3); (2, 1); (3, 2)] (r_hb_H_ab_ovvo 10 0 1 2 3) (venv [p; q; r; s])); [vm_compute; reflexivity|rng]. Qed.
Lemma hb_ab_ovvv p q r s : (p < noa d) -> (q < nub d) -> (r < nua d) -> (s < nub d) -> i_ab_ovvv (hbar_ccsd d H T) p q r s = i_ab_ovvv (hbar_ccsd d H' (bare T)) p q r s.
Proof. intros. apply (hcheck_rt [(0, 0); (1, 3); (2, 1); (3, 3)] (r_hb_H_ab_ovvv 10 0 1 2 3) (venv [p; q; r; s])); [vm_compute; reflexivity|rng]. Qed.
Lemma hb_ab_vooo p q r s : (p < nua d) -> (q < nob d) -> (r < noa d) -> (s < nob d) -> i_ab_vooo (hbar_ccsd d H T) p q r s = i_ab_vooo (hbar_ccsd d H' (bare T)) p q r s.
Proof. intros. apply (hcheck_rt [(0, 1); (1, 2); (2, 0); (3, 2)] (r_hb_H_ab_vooo 10 0 1 2 3) (venv [p; q; r; s])); [vm_compute; reflexivity|rng]. Qed.
Lemma hb_ab_voov p q r s : (p < nua d) -> (q < nob d) -> (r < noa d) -> (s < nub d) -> i_ab_voov (hbar_ccsd d H T) p q r s = i_ab_voov (hbar_ccsd d H' (bare T)) p q r s.
Proof. intros. apply (hcheck_rt [(0, 1); (1, 2); (2, 0); (3, 3)] (r_hb_H_ab_voov 10 0 1 2 3) (venv [p; q; r; s])); [vm_compute; reflexivity|rng]. Qed.
Lemma hb_ab_vovo p q r s : (p < nua d) -> (q < nob d) -> (r < nua d) -> (s < nob d) -> i_ab_vovo (hbar_ccsd d H T) p q r s = i_ab_vovo (hbar_ccsd d H' (bare T)) p q r s.
Proof. intros. apply (hcheck_rt [(0, 1); (1, 2); (2, 1); (3, 2)] (r_hb_H_ab_vovo 10 0 1 2 3) (venv [p; q; r; s])); [vm_compute; reflexivity|rng]. Qed.
Lemma hb_ab_vovv p q r s : (p < nua d) -> (q < nob d) -> (r < nua d) -> (s < nub d) -> i_ab_vovv (hbar_ccsd d H T) p q r s = i_ab_vovv (hbar_ccsd d H' (bare T)) p q r s.
Proof. intros. apply (hcheck_rt [(0, 1); (1, 2); (2, 1); (3, 3)] (r_hb_H_ab_vovv 10 0 1 2 3) (venv [p; q; r; s])); [vm_compute; reflexivity|rng]. Qed.
Lemma hb_ab_vvov p q r s : (p < nua d) -> (q < nub d) -> (r < noa d) -> (s < nub d) -> i_ab_vvov (hbar_ccsd d H T) p q r s = i_ab_vvov (hbar_ccsd d H' (bare T)) p q r s.
Proof. intros. apply (hcheck_rt [(0, 1); (1, 3); (2, 0); (3, 3)] (r_hb_H_ab_vvov 10 0 1 2 3) (venv [p; q; r; s])); [vm_compute; reflexivity|rng]. Qed.
Lemma hb_ab_vvvo p q r s : (p < nua d) -> (q < nub d) -> (r < nua d) -> (s < nob d) -> i_ab_vvvo (hbar_ccsd d H T) p q r s = i_ab_vvvo (hbar_ccsd d H' (bare T)) p q r s.
Proof. intros. apply (hcheck_rt [(0, 1); (1, 3); (2, 1); (3, 2)] (r_hb_H_ab_vvvo 10 0 1 2 3) (venv [p; q; r; s])); [vm_compute; reflexivity|rng]. Qed.
Lemma hb_ab_vvvv p q r s : (p < nua d) -> (q < nub d) -> (r < nua d) -> (s < nub d) -> i_ab_vvvv (hbar_ccsd d H T) p q r s = i_ab_vvvv (hbar_ccsd d H' (bare T)) p q r s.
Proof. intros. apply (hcheck_rt [(0, 1); (1, 3); (2, 1); (3, 3)] (r_hb_H_ab_vvvv 10 0 1 2 3) (venv [p; q; r; s])); [vm_compute; reflexivity|rng]. Qed.
Lemma hb_bb_oooo p q r s : (p < nob d) -> (q < nob d) -> (r < nob d) -> (s < nob d) -> i_bb_oooo (hbar_ccsd d H T) p q r s = i_bb_oooo (hbar_ccsd d H' (bare T)) p q r s.
Proof. intros. apply (hcheck_rt [(0, 2); (1, 2); (2, 2); (3, 2)] (r_hb_H_bb_oooo_1 10 0 1 2 3) (venv [p; q; r; s])); [vm_compute; reflexivity|rng]. Qed.
Lemma hb_bb_ooov p q r s : (p < nob d) -> (q < nob d) -> (r < nob d) -> (s < nub d) -> i_bb_ooov (hbar_ccsd d H T) p q r s = i_bb_ooov (hbar_ccsd d H' (bare T)) p q r s.
Proof. intros. apply (hcheck_rt [(0, 2); (1, 2); (2, 2); (3, 3)] (r_hb_H_bb_ooov 10 0 1 2 3) (venv [p; q; r; s])); [vm_compute; reflexivity|rng]. Qed.
Lemma hb_bb_oovv p q r s : (p < nob d) -> (q < nob d) -> (r < nub d) -> (s < nub d) -> i_bb_oovv (hbar_ccsd d H T) p q r s = i_bb_oovv (hbar_ccsd d H' (bare T)) p q r s.
Proof. intros. apply (hcheck_ok [(0, 2); (1, 2); (2, 3); (3, 3)] (ET 52 [0; 1; 2; 3]) (venv [p; q; r; s])); [vm_compute; reflexivity|rng]. Qed.
Lemma hb_bb_vooo p q r s : (p < nub d) -> (q < nob d) -> (r < nob d) -> (s < nob d) -> i_bb_vooo (hbar_ccsd d H T) p q r s = i_bb_vooo (hbar_ccsd d H' (bare T)) p q r s.
Proof. intros. apply (hcheck_rt [(0, 3); (1, 2); (2, 2); (3, 2)] (r_hb_H_bb_vooo 10 0 1 2 3) (venv [p; q; r; s])); [vm_compute; reflexivity|rng]. Qed.
Lemma hb_bb_voov p q r s : (p < nub d) -> (q < nob d) -> (r < nob d) -> (s < nub d) -> i_bb_voov (hbar_ccsd d H T) p q r s = i_bb_voov (hbar_ccsd d H' (bare T)) p q r s.
Proof. intros. apply (hcheck_rt [(0, 3); (1, 2); (2, 2); (3, 3)] (r_hb_H_bb_voov 10 0 1 2 3) (venv [p; q; r; s])); [vm_compute; reflexivity|rng]. Qed.
Lemma hb_bb_vovv p q r s : (p < nub d) -> (q < nob d) -> (r < nub d) -> (s < nub d) -> i_bb_vovv (hbar_ccsd d H T) p q r s = i_bb_vovv (hbar_ccsd d H' (bare T)) p q r s.
Proof. intros. apply (hcheck_rt [(0, 3); (1, 2); (2, 3); (3, 3)] (r_hb_H_bb_vovv 10 0 1 2 3) (venv [p; q; r; s])); [vm_compute; reflexivity|rng]. Qed.
Lemma hb_bb_vvov p q r s : (p < nub d) -> (q < nub d) -> (r < nob d) -> (s < nub d) -> i_bb_vvov (hbar_ccsd d H T) p q r s = i_bb_vvov (hbar_ccsd d H' (bare T)) p q r s.
Proof. intros. apply (hcheck_rt [(0, 3); (1, 3); (2, 2); (3, 3)] (r_hb_H_bb_vvov_1 10 0 1 2 3) (venv [p; q; r; s])); [vm_compute; reflexivity|rng]. Qed.
Lemma hb_bb_vvvv p q r s : (p < nub d) -> (q < nub d) -> (r < nub d) -> (s < nub d) -> i_bb_vvvv (hbar_ccsd d H T) p q r s = i_bb_vvvv (hbar_ccsd d H' (bare T)) p q r s.
Proof. intros. apply (hcheck_rt [(0, 3); (1, 3); (2, 3); (3, 3)] (r_hb_H_bb_vvvv_1 10 0 1 2 3) (venv [p; q; r; s])); [vm_compute; reflexivity|rng]. Qed.
Lemma hbar_agree : ints_agree d (hbar_ccsd d H T) (hbar_ccsd d H' (bare T)).
Proof. unfold ints_agree. repeat match goal with |- _ /\ _ => split end; intros; [now apply hb_a_oo|now apply hb_a_ov|now apply hb_a_vv|now apply hb_b_oo|now apply hb_b_ov|now apply hb_b_vv|now apply hb_aa_oooo|now apply hb_aa_ooov|now apply hb_aa_oovv|now apply hb_aa_vooo|now apply hb_aa_voov|now apply hb_aa_vovv|now apply hb_aa_vvov|now apply hb_aa_vvvv|now apply hb_ab_oooo|now apply hb_ab_ooov|now apply hb_ab_oovo|now apply hb_ab_oovv|now apply hb_ab_ovoo|now apply hb_ab_ovov|now apply hb_ab_ovvo|now apply hb_ab_ovvv|now apply hb_ab_vooo|now apply hb_ab_voov|now apply hb_ab_vovo|now apply hb_ab_vovv|now apply hb_ab_vvov|now apply hb_ab_vvvo|now apply hb_ab_vvvv|now apply hb_bb_oooo|now apply hb_bb_ooov|now apply hb_bb_oovv|now apply hb_bb_vooo|now apply hb_bb_voov|now apply hb_bb_vovv|now apply hb_bb_vvov|now apply hb_bb_vvvv]. Qed.
End B.
(** Arrays that enter the matrix-vector products, with their axes *)
Definition blocks (k : nat) : option (list nat) :=
  match k with 2 => Some [1; 1; 0; 0] | 3 => Some [1; 3; 0; 2] | 4 => Some [3; 3; 2; 2]
  | 9 => Some [0; 0]
  | 10 => Some [0; 1]
  | 12 => Some [1; 1]
  | 13 => Some [2; 2]
  | 14 => Some [2; 3]
  | 16 => Some [3; 3]
  | 17 => Some [0; 0; 0; 0]
  | 18 => Some [0; 0; 0; 1]
  | 20 => Some [0; 0; 1; 1]
  | 25 => Some [1; 0; 0; 0]
  | 26 => Some [1; 0; 0; 1]
  | 28 => Some [1; 0; 1; 1]
  | 30 => Some [1; 1; 0; 1]
  | 32 => Some [1; 1; 1; 1]
  | 33 => Some [0; 2; 0; 2]
  | 34 => Some [0; 2; 0; 3]
  | 35 => Some [0; 2; 1; 2]
  | 36 => Some [0; 2; 1; 3]
  | 37 => Some [0; 3; 0; 2]
  | 38 => Some [0; 3; 0; 3]
  | 39 => Some [0; 3; 1; 2]
  | 40 => Some [0; 3; 1; 3]
  | 41 => Some [1; 2; 0; 2]
  | 42 => Some [1; 2; 0; 3]
  | 43 => Some [1; 2; 1; 2]
  | 44 => Some [1; 2; 1; 3]
  | 46 => Some [1; 3; 0; 3]
  | 47 => Some [1; 3; 1; 2]
  | 48 => Some [1; 3; 1; 3]
  | 49 => Some [2; 2; 2; 2]
  | 50 => Some [2; 2; 2; 3]
  | 52 => Some [2; 2; 3; 3]
  | 57 => Some [3; 2; 2; 2]
  | 58 => Some [3; 2; 2; 3]
  | 60 => Some [3; 2; 3; 3]
  | 62 => Some [3; 3; 2; 3]
  | 64 => Some [3; 3; 3; 3]
  | _ => None end.
Lemma blocks_agree d X Y T T' : ints_agree d X Y -> (forall a b i j, x_aa T a b i j = x_aa T' a b i j) -> (forall a b i j, x_ab T a b i j = x_ab T' a b i j) -> (forall a b i j, x_bb T a b i j = x_bb T' a b i j) ->
  forall k cs, blocks k = Some cs -> forall z v ix, inrange (fdim d) v z ix cs -> ften X T k (map v ix) = ften Y T' k (map v ix).
Proof.
  intros (A_a_oo & A_a_ov & A_a_vv & A_b_oo & A_b_ov & A_b_vv & A_aa_oooo & A_aa_ooov & A_aa_oovv & A_aa_vooo & A_aa_voov & A_aa_vovv & A_aa_vvov & A_aa_vvvv & A_ab_oooo & A_ab_ooov & A_ab_oovo & A_ab_oovv & A_ab_ovoo & A_ab_ovov & A_ab_ovvo & A_ab_ovvv & A_ab_vooo & A_ab_voov & A_ab_vovo & A_ab_vovv & A_ab_vvov & A_ab_vvvo & A_ab_vvvv & A_bb_oooo & A_bb_ooov & A_bb_oovv & A_bb_vooo & A_bb_voov & A_bb_vovv & A_bb_vvov & A_bb_vvvv) Taa Tab Tbb k cs E z v ix.
  do 2 (destruct k as [|k]; [discriminate|]).
  destruct k as [|k]; [injection E as <-; intros K; apply inr4 in K as (? & ? & ? & ? & -> & ? & ? & ? & ?); exact (Taa _ _ _ _)|].
  destruct k as [|k]; [injection E as <-; intros K; apply inr4 in K as (? & ? & ? & ? & -> & ? & ? & ? & ?); exact (Tab _ _ _ _)|].
  destruct k as [|k]; [injection E as <-; intros K; apply inr4 in K as (? & ? & ? & ? & -> & ? & ? & ? & ?); exact (Tbb _ _ _ _)|].
  destruct k as [|k]; [discriminate|].
  destruct k as [|k]; [discriminate|].
  destruct k as [|k]; [discriminate|].
  destruct k as [|k]; [discriminate|].
  destruct k as [|k]; [injection E as <-; intros K; apply inr2 in K as (? & ? & -> & [_ K1] & [_ K2]); exact (A_a_oo _ _ K1 K2)|].
  destruct k as [|k]; [injection E as <-; intros K; apply inr2 in K as (? & ? & -> & [_ K1] & [_ K2]); exact (A_a_ov _ _ K1 K2)|].
  destruct k as [|k]; [discriminate|].
  destruct k as [|k]; [injection E as <-; intros K; apply inr2 in K as (? & ? & -> & [_ K1] & [_ K2]); exact (A_a_vv _ _ K1 K2)|].
  destruct k as [|k]; [injection E as <-; intros K; apply inr2 in K as (? & ? & -> & [_ K1] & [_ K2]); exact (A_b_oo _ _ K1 K2)|].
  destruct k as [|k]; [injection E as <-; intros K; apply inr2 in K as (? & ? & -> & [_ K1] & [_ K2]); exact (A_b_ov _ _ K1 K2)|].
  destruct k as [|k]; [discriminate|].
  destruct k as [|k]; [injection E as <-; intros K; apply inr2 in K as (? & ? & -> & [_ K1] & [_ K2]); exact (A_b_vv _ _ K1 K2)|].
  destruct k as [|k]; [injection E as <-; intros K; apply inr4 in K as (? & ? & ? & ? & -> & [_ K1] & [_ K2] & [_ K3] & [_ K4]); exact (A_aa_oooo _ _ _ _ K1 K2 K3 K4)|].
  destruct k as [|k]; [injection E as <-; intros K; apply inr4 in K as (? & ? & ? & ? & -> & [_ K1] & [_ K2] & [_ K3] & [_ K4]); exact (A_aa_ooov _ _ _ _ K1 K2 K3 K4)|].
  destruct k as [|k]; [discriminate|].
  destruct k as [|k]; [injection E as <-; intros K; apply inr4 in K as (? & ? & ? & ? & -> & [_ K1] & [_ K2] & [_ K3] & [_ K4]); exact (A_aa_oovv _ _ _ _ K1 K2 K3 K4)|].
  destruct k as [|k]; [discriminate|].
  destruct k as [|k]; [discriminate|].
  destruct k as [|k]; [discriminate|].
  destruct k as [|k]; [discriminate|].
  destruct k as [|k]; [injection E as <-; intros K; apply inr4 in K as (? & ? & ? & ? & -> & [_ K1] & [_ K2] & [_ K3] & [_ K4]); exact (A_aa_vooo _ _ _ _ K1 K2 K3 K4)|].
  destruct k as [|k]; [injection E as <-; intros K; apply inr4 in K as (? & ? & ? & ? & -> & [_ K1] & [_ K2] & [_ K3] & [_ K4]); exact (A_aa_voov _ _ _ _ K1 K2 K3 K4)|].
  destruct k as [|k]; [discriminate|].
  destruct k as [|k]; [injection E as <-; intros K; apply inr4 in K as (? & ? & ? & ? & -> & [_ K1] & [_ K2] & [_ K3] & [_ K4]); exact (A_aa_vovv _ _ _ _ K1 K2 K3 K4)|].
  destruct k as [|k]; [discriminate|].
  destruct k as [|k]; [injection E as <-; intros K; apply inr4 in K as (? & ? & ? & ? & -> & [_ K1] & [_ K2] & [_ K3] & [_ K4]); exact (A_aa_vvov _ _ _ _ K1 K2 K3 K4)|].
  destruct k as [|k]; [discriminate|].
  destruct k as [|k]; [injection E as <-; intros K; apply inr4 in K as (? & ? & ? & ? & -> & [_ K1] & [_ K2] & [_ K3] & [_ K4]); exact (A_aa_vvvv _ _ _ _ K1 K2 K3 K4)|].
  destruct k as [|k]; [injection E as <-; intros K; apply inr4 in K as (? & ? & ? & ? & -> & [_ K1] & [_ K2] & [_ K3] & [_ K4]); exact (A_ab_oooo _ _ _ _ K1 K2 K3 K4)|].
  destruct k as [|k]; [injection E as <-; intros K; apply inr4 in K as (? & ? & ? & ? & -> & [_ K1] & [_ K2] & [_ K3] & [_ K4]); exact (A_ab_ooov _ _ _ _ K1 K2 K3 K4)|].
  destruct k as [|k]; [injection E as <-; intros K; apply inr4 in K as (? & ? & ? & ? & -> & [_ K1] & [_ K2] & [_ K3] & [_ K4]); exact (A_ab_oovo _ _ _ _ K1 K2 K3 K4)|].
  destruct k as [|k]; [injection E as <-; intros K; apply inr4 in K as (? & ? & ? & ? & -> & [_ K1] & [_ K2] & [_ K3] & [_ K4]); exact (A_ab_oovv _ _ _ _ K1 K2 K3 K4)|].
  destruct k as [|k]; [injection E as <-; intros K; apply inr4 in K as (? & ? & ? & ? & -> & [_ K1] & [_ K2] & [_ K3] & [_ K4]); exact (A_ab_ovoo _ _ _ _ K1 K2 K3 K4)|].
  destruct k as [|k]; [injection E as <-; intros K; apply inr4 in K as (? & ? & ? & ? & -> & [_ K1] & [_ K2] & [_ K3] & [_ K4]); exact (A_ab_ovov _ _ _ _ K1 K2 K3 K4)|].
  destruct k as [|k]; [injection E as <-; intros K; apply inr4 in K as (? & ? & ? & ? & -> & [_ K1] & [_ K2] & [_ K3] & [_ K4]); exact (A_ab_ovvo _ _ _ _ K1 K2 K3 K4)|].
  destruct k as [|k]; [injection E as <-; intros K; apply inr4 in K as (? & ? & ? & ? & -> & [_ K1] & [_ K2] & [_ K3] & [_ K4]); exact (A_ab_ovvv _ _ _ _ K1 K2 K3 K4)|].
  destruct k as [|k]; [injection E as <-; intros K; apply inr4 in K as (? & ? & ? & ? & -> & [_ K1] & [_ K2] & [_ K3] & [_ K4]); exact (A_ab_vooo _ _ _ _ K1 K2 K3 K4)|].
  destruct k as [|k]; [injection E as <-; intros K; apply inr4 in K as (? & ? & ? & ? & -> & [_ K1] & [_ K2] & [_ K3] & [_ K4]); exact (A_ab_voov _ _ _ _ K1 K2 K3 K4)|].
  destruct k as [|k]; [injection E as <-; intros K; apply inr4 in K as (? & ? & ? & ? & -> & [_ K1] & [_ K2] & [_ K3] & [_ K4]); exact (A_ab_vovo _ _ _ _ K1 K2 K3 K4)|].
  destruct k as [|k]; [injection E as <-; intros K; apply inr4 in K as (? & ? & ? & ? & -> & [_ K1] & [_ K2] & [_ K3] & [_ K4]); exact (A_ab_vovv _ _ _ _ K1 K2 K3 K4)|].
  destruct k as [|k]; [discriminate|].
  destruct k as [|k]; [injection E as <-; intros K; apply inr4 in K as (? & ? & ? & ? & -> & [_ K1] & [_ K2] & [_ K3] & [_ K4]); exact (A_ab_vvov _ _ _ _ K1 K2 K3 K4)|].
  destruct k as [|k]; [injection E as <-; intros K; apply inr4 in K as (? & ? & ? & ? & -> & [_ K1] & [_ K2] & [_ K3] & [_ K4]); exact (A_ab_vvvo _ _ _ _ K1 K2 K3 K4)|].
  destruct k as [|k]; [injection E as <-; intros K; apply inr4 in K as (? & ? & ? & ? & -> & [_ K1] & [_ K2] & [_ K3] & [_ K4]); exact (A_ab_vvvv _ _ _ _ K1 K2 K3 K4)|].
  destruct k as [|k]; [injection E as <-; intros K; apply inr4 in K as (? & ? & ? & ? & -> & [_ K1] & [_ K2] & [_ K3] & [_ K4]); exact (A_bb_oooo _ _ _ _ K1 K2 K3 K4)|].
  destruct k as [|k]; [injection E as <-; intros K; apply inr4 in K as (? & ? & ? & ? & -> & [_ K1] & [_ K2] & [_ K3] & [_ K4]); exact (A_bb_ooov _ _ _ _ K1 K2 K3 K4)|].
  destruct k as [|k]; [discriminate|].
  destruct k as [|k]; [injection E as <-; intros K; apply inr4 in K as (? & ? & ? & ? & -> & [_ K1] & [_ K2] & [_ K3] & [_ K4]); exact (A_bb_oovv _ _ _ _ K1 K2 K3 K4)|].
  destruct k as [|k]; [discriminate|].
  destruct k as [|k]; [discriminate|].
  destruct k as [|k]; [discriminate|].
  destruct k as [|k]; [discriminate|].
  destruct k as [|k]; [injection E as <-; intros K; apply inr4 in K as (? & ? & ? & ? & -> & [_ K1] & [_ K2] & [_ K3] & [_ K4]); exact (A_bb_vooo _ _ _ _ K1 K2 K3 K4)|].
  destruct k as [|k]; [injection E as <-; intros K; apply inr4 in K as (? & ? & ? & ? & -> & [_ K1] & [_ K2] & [_ K3] & [_ K4]); exact (A_bb_voov _ _ _ _ K1 K2 K3 K4)|].
  destruct k as [|k]; [discriminate|].
  destruct k as [|k]; [injection E as <-; intros K; apply inr4 in K as (? & ? & ? & ? & -> & [_ K1] & [_ K2] & [_ K3] & [_ K4]); exact (A_bb_vovv _ _ _ _ K1 K2 K3 K4)|].
  destruct k as [|k]; [discriminate|].
  destruct k as [|k]; [injection E as <-; intros K; apply inr4 in K as (? & ? & ? & ? & -> & [_ K1] & [_ K2] & [_ K3] & [_ K4]); exact (A_bb_vvov _ _ _ _ K1 K2 K3 K4)|].
  destruct k as [|k]; [discriminate|].
  destruct k as [|k]; [injection E as <-; intros K; apply inr4 in K as (? & ? & ? & ? & -> & [_ K1] & [_ K2] & [_ K3] & [_ K4]); exact (A_bb_vvvv _ _ _ _ K1 K2 K3 K4)|].
  discriminate.
Qed.
