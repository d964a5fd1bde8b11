(** The CCSD residuals with Cholesky vectors and unrestricted sums are those of the dense routine (proof support). *)
From Coq Require Import Reals Arith List Bool Lra Lia.
From Verif Require Import RSum IntegralsModel TensorObjs TensorAlg TensorSpec TensorClosed CcsdModel CholLoops CholModel CholReify.
Import ListNotations.
Open Scope R_scope.
Lemma chk_a : same_tab chl_tab (fun x => x) [0; 1; 2; 3; 4]%nat e_cf_a e_ccsd_a = true. Proof. vm_compute. reflexivity. Qed.
Lemma chk_b : same_tab chl_tab (fun x => x) [0; 1; 2; 3; 4]%nat e_cf_b e_ccsd_b = true. Proof. vm_compute. reflexivity. Qed.
Lemma chk_ab : same_tab chl_tab (fun x => x) [0; 1; 2; 3; 4]%nat e_cf_ab e_ccsd_ab = true. Proof. vm_compute. reflexivity. Qed.
Lemma chk_aa : same_tab chl_tab (fun x => x) [0; 1; 2; 3; 4]%nat e_cf_aa e_ccsd_aa = true. Proof. vm_compute. reflexivity. Qed.
Lemma chk_bb : same_tab chl_tab (fun x => x) [0; 1; 2; 3; 4]%nat e_cf_bb e_ccsd_bb = true. Proof. vm_compute. reflexivity. Qed.
Lemma chr_a : same_tab chc_tab dfold [0; 1; 4]%nat e_cg_a e_ccsd_a = true. Proof. vm_compute. reflexivity. Qed.
Lemma chr_ab : same_tab chc_tab dfold [0; 1; 4]%nat e_cg_ab e_ccsd_ab = true. Proof. vm_compute. reflexivity. Qed.
Lemma chr_aa : same_tab chc_tab dfold [0; 1; 4]%nat e_cg_aa e_ccsd_aa = true. Proof. vm_compute. reflexivity. Qed.
Lemma chr_b : same_tab chc_tab dfold [0; 1; 4]%nat e_cg_a e_ccsd_b = true. Proof. vm_compute. reflexivity. Qed.
Lemma chr_bb : same_tab chc_tab dfold [0; 1; 4]%nat e_cg_aa e_ccsd_bb = true. Proof. vm_compute. reflexivity. Qed.
