(** Derivative of the blocks of the CCSD similarity-transformed Hamiltonian along a direction (proof support). *)
From Coq Require Import Reals Arith List Lra Lia.
From Verif Require Import RSum IntegralsModel TensorObjs TensorAlg TensorDeriv TensorSpec CcsdModel EomProps CrccModel CreomModel CreomDir.
Import ListNotations.
Local Open Scope R_scope.
Notation cdden d H T Y := (den (denv [noa d; nua d; nob d; nub d]) (tenv (cd_arrays d H T Y))).
Lemma cd_syms d H T Y : antisym_ints H -> antisym_amps T -> antisym_amps Y -> Forall (fun g => okalt (tenv (cd_arrays d H T Y)) (fst g) (snd g)) cd_gens.
Proof. intros HH HT HY. sym_all. Qed.
Lemma cd_line d H T Y t k l : tenv (cd_arrays d H (amps_line T Y t) Y) k l =
  tenv (cd_arrays d H T Y) k l + t * match cd_dm k with Some k' => tenv (cd_arrays d H T Y) k' l | None => 0 end.
Proof.
  do 66 (destruct k as [|k]; [cbn; repeat (destruct l as [|? l]; cbn; try ring)|]).
  all: cbn; rewrite ?nth_overflow by (simpl; lia); ring.
Qed.
Lemma cd_deriv d H T Y e1 e2 v : antisym_ints H -> antisym_amps T -> antisym_amps Y ->
  same_tab cd_tab (fun x => x) [0; 1; 2; 3]%nat (oex (dex cd_dm e1)) e2 = true ->
  derivable_pt_lim (fun t => cdden d H (amps_line T Y t) Y e1 v) 0 (cdden d H T Y e2 v).
Proof.
  intros HH HT HY E. eapply dlim_eq;
  [exact (dex_ok (denv [noa d; nua d; nob d; nub d]) cd_dm (fun t => tenv (cd_arrays d H (amps_line T Y t) Y)) (tenv (cd_arrays d H T Y)) (cd_line d H T Y) e1 v)|].
  apply (same_tab_sound _ _ cd_gens (length (cd_arrays d H T Y)) cd_tab (fun x => x) [0; 1; 2; 3]%nat); [vm_compute; reflexivity|reflexivity|now apply cd_syms|exact E].
Qed.
Section G.
Variables (d : dims) (H0 H : ints) (T Y L : amps).
Hypothesis HH : antisym_ints H.
Hypothesis HT : antisym_amps T.
Hypothesis HY : antisym_amps Y.
Notation hb t := (hbar_ccsd d H (amps_line T Y t)).
Lemma dg_a_ov p q : derivable_pt_lim (fun t => i_a_ov (hb t) p q) 0 (creom_G_a_ov d H0 (hbar_ccsd d H T) T Y L p q).
Proof. apply (cd_deriv d H T Y cdh_a_ov cdg_a_ov (venv [p; q]) HH HT HY). vm_compute. reflexivity. Qed.
Lemma dg_b_ov p q : derivable_pt_lim (fun t => i_b_ov (hb t) p q) 0 (creom_G_b_ov d H0 (hbar_ccsd d H T) T Y L p q).
Proof. apply (cd_deriv d H T Y cdh_b_ov cdg_b_ov (venv [p; q]) HH HT HY). vm_compute. reflexivity. Qed.
Lemma dg_aa_vooo p q r s : derivable_pt_lim (fun t => i_aa_vooo (hb t) p q r s) 0 (creom_G_aa_vooo d H0 (hbar_ccsd d H T) T Y L p q r s).
Proof. apply (cd_deriv d H T Y cdh_aa_vooo cdg_aa_vooo (venv [p; q; r; s]) HH HT HY). vm_compute. reflexivity. Qed.
Lemma dg_aa_vvov p q r s : derivable_pt_lim (fun t => i_aa_vvov (hb t) p q r s) 0 (creom_G_aa_vvov d H0 (hbar_ccsd d H T) T Y L p q r s).
Proof. apply (cd_deriv d H T Y cdh_aa_vvov cdg_aa_vvov (venv [p; q; r; s]) HH HT HY). vm_compute. reflexivity. Qed.
Lemma dg_bb_vooo p q r s : derivable_pt_lim (fun t => i_bb_vooo (hb t) p q r s) 0 (creom_G_bb_vooo d H0 (hbar_ccsd d H T) T Y L p q r s).
Proof. apply (cd_deriv d H T Y cdh_bb_vooo cdg_bb_vooo (venv [p; q; r; s]) HH HT HY). vm_compute. reflexivity. Qed.
Lemma dg_bb_vvov p q r s : derivable_pt_lim (fun t => i_bb_vvov (hb t) p q r s) 0 (creom_G_bb_vvov d H0 (hbar_ccsd d H T) T Y L p q r s).
Proof. apply (cd_deriv d H T Y cdh_bb_vvov cdg_bb_vvov (venv [p; q; r; s]) HH HT HY). vm_compute. reflexivity. Qed.
Lemma dg_ab_ovoo p q r s : derivable_pt_lim (fun t => i_ab_ovoo (hb t) p q r s) 0 (creom_G_ab_ovoo d H0 (hbar_ccsd d H T) T Y L p q r s).
Proof. apply (cd_deriv d H T Y cdh_ab_ovoo cdg_ab_ovoo (venv [p; q; r; s]) HH HT HY). vm_compute. reflexivity. Qed.
Lemma dg_ab_vooo p q r s : derivable_pt_lim (fun t => i_ab_vooo (hb t) p q r s) 0 (creom_G_ab_vooo d H0 (hbar_ccsd d H T) T Y L p q r s).
Proof. apply (cd_deriv d H T Y cdh_ab_vooo cdg_ab_vooo (venv [p; q; r; s]) HH HT HY). vm_compute. reflexivity. Qed.
Lemma dg_ab_vvvo p q r s : derivable_pt_lim (fun t => i_ab_vvvo (hb t) p q r s) 0 (creom_G_ab_vvvo d H0 (hbar_ccsd d H T) T Y L p q r s).
Proof. apply (cd_deriv d H T Y cdh_ab_vvvo cdg_ab_vvvo (venv [p; q; r; s]) HH HT HY). vm_compute. reflexivity. Qed.
Lemma dg_ab_vvov p q r s : derivable_pt_lim (fun t => i_ab_vvov (hb t) p q r s) 0 (creom_G_ab_vvov d H0 (hbar_ccsd d H T) T Y L p q r s).
Proof. apply (cd_deriv d H T Y cdh_ab_vvov cdg_ab_vvov (venv [p; q; r; s]) HH HT HY). vm_compute. reflexivity. Qed.
End G.
