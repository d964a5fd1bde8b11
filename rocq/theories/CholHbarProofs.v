(** C84: the blocks of the Cholesky Hbar are those of the dense Hbar. *)
From Coq Require Import Reals Arith List Bool Lra Lia.
From Verif Require Import RSum IntegralsModel IntegralsSpec TensorObjs TensorAlg TensorSpec TensorClosed LoopModel CcsdModel CcsdUpdate CcsdProps RhfProps FockSpec FockCcSpec FockProps CholLoops CholModel CholUpdate CholProofs CholEomModel CholHbarReify CholEomSpec.
Import ListNotations.
Open Scope R_scope.
Lemma kp_a_oo : same_tab chb_tab (fun x => x) [0; 1; 2; 3; 4]%nat (fst p_a_oo) (snd p_a_oo) = true. Proof. vm_compute. reflexivity. Qed.
Lemma kq_a_oo : same_tab chbc_tab dfold [0; 1; 4]%nat (fst q_a_oo) (snd q_a_oo) = true. Proof. vm_compute. reflexivity. Qed.
Lemma kp_a_ov : same_tab chb_tab (fun x => x) [0; 1; 2; 3; 4]%nat (fst p_a_ov) (snd p_a_ov) = true. Proof. vm_compute. reflexivity. Qed.
Lemma kq_a_ov : same_tab chbc_tab dfold [0; 1; 4]%nat (fst q_a_ov) (snd q_a_ov) = true. Proof. vm_compute. reflexivity. Qed.
Lemma kp_a_vv : same_tab chb_tab (fun x => x) [0; 1; 2; 3; 4]%nat (fst p_a_vv) (snd p_a_vv) = true. Proof. vm_compute. reflexivity. Qed.
Lemma kq_a_vv : same_tab chbc_tab dfold [0; 1; 4]%nat (fst q_a_vv) (snd q_a_vv) = true. Proof. vm_compute. reflexivity. Qed.
Lemma kp_b_oo : same_tab chb_tab (fun x => x) [0; 1; 2; 3; 4]%nat (fst p_b_oo) (snd p_b_oo) = true. Proof. vm_compute. reflexivity. Qed.
Lemma kq_b_oo : same_tab chbc_tab dfold [0; 1; 4]%nat (fst q_b_oo) (snd q_b_oo) = true. Proof. vm_compute. reflexivity. Qed.
Lemma kp_b_ov : same_tab chb_tab (fun x => x) [0; 1; 2; 3; 4]%nat (fst p_b_ov) (snd p_b_ov) = true. Proof. vm_compute. reflexivity. Qed.
Lemma kq_b_ov : same_tab chbc_tab dfold [0; 1; 4]%nat (fst q_b_ov) (snd q_b_ov) = true. Proof. vm_compute. reflexivity. Qed.
Lemma kp_b_vv : same_tab chb_tab (fun x => x) [0; 1; 2; 3; 4]%nat (fst p_b_vv) (snd p_b_vv) = true. Proof. vm_compute. reflexivity. Qed.
Lemma kq_b_vv : same_tab chbc_tab dfold [0; 1; 4]%nat (fst q_b_vv) (snd q_b_vv) = true. Proof. vm_compute. reflexivity. Qed.
Lemma kp_aa_oooo : same_tab chb_tab (fun x => x) [0; 1; 2; 3; 4]%nat (fst p_aa_oooo) (snd p_aa_oooo) = true. Proof. vm_compute. reflexivity. Qed.
Lemma kq_aa_oooo : same_tab chbc_tab dfold [0; 1; 4]%nat (fst q_aa_oooo) (snd q_aa_oooo) = true. Proof. vm_compute. reflexivity. Qed.
Lemma kp_aa_ooov : same_tab chb_tab (fun x => x) [0; 1; 2; 3; 4]%nat (fst p_aa_ooov) (snd p_aa_ooov) = true. Proof. vm_compute. reflexivity. Qed.
Lemma kq_aa_ooov : same_tab chbc_tab dfold [0; 1; 4]%nat (fst q_aa_ooov) (snd q_aa_ooov) = true. Proof. vm_compute. reflexivity. Qed.
Lemma kp_aa_oovv : same_tab chb_tab (fun x => x) [0; 1; 2; 3; 4]%nat (fst p_aa_oovv) (snd p_aa_oovv) = true. Proof. vm_compute. reflexivity. Qed.
Lemma kq_aa_oovv : same_tab chbc_tab dfold [0; 1; 4]%nat (fst q_aa_oovv) (snd q_aa_oovv) = true. Proof. vm_compute. reflexivity. Qed.
Lemma kp_aa_vooo : same_tab chb_tab (fun x => x) [0; 1; 2; 3; 4]%nat (fst p_aa_vooo) (snd p_aa_vooo) = true. Proof. vm_compute. reflexivity. Qed.
Lemma kq_aa_vooo : same_tab chbc_tab dfold [0; 1; 4]%nat (fst q_aa_vooo) (snd q_aa_vooo) = true. Proof. vm_compute. reflexivity. Qed.
Lemma kp_aa_voov : same_tab chb_tab (fun x => x) [0; 1; 2; 3; 4]%nat (fst p_aa_voov) (snd p_aa_voov) = true. Proof. vm_compute. reflexivity. Qed.
Lemma kq_aa_voov : same_tab chbc_tab dfold [0; 1; 4]%nat (fst q_aa_voov) (snd q_aa_voov) = true. Proof. vm_compute. reflexivity. Qed.
Lemma kp_aa_vovv : same_tab chb_tab (fun x => x) [0; 1; 2; 3; 4]%nat (fst p_aa_vovv) (snd p_aa_vovv) = true. Proof. vm_compute. reflexivity. Qed.
Lemma kq_aa_vovv : same_tab chbc_tab dfold [0; 1; 4]%nat (fst q_aa_vovv) (snd q_aa_vovv) = true. Proof. vm_compute. reflexivity. Qed.
Lemma kp_aa_vvov : same_tab chb_tab (fun x => x) [0; 1; 2; 3; 4]%nat (fst p_aa_vvov) (snd p_aa_vvov) = true. Proof. vm_compute. reflexivity. Qed.
Lemma kq_aa_vvov : same_tab chbc_tab dfold [0; 1; 4]%nat (fst q_aa_vvov) (snd q_aa_vvov) = true. Proof. vm_compute. reflexivity. Qed.
Lemma kp_ab_oooo : same_tab chb_tab (fun x => x) [0; 1; 2; 3; 4]%nat (fst p_ab_oooo) (snd p_ab_oooo) = true. Proof. vm_compute. reflexivity. Qed.
Lemma kq_ab_oooo : same_tab chbc_tab dfold [0; 1; 4]%nat (fst q_ab_oooo) (snd q_ab_oooo) = true. Proof. vm_compute. reflexivity. Qed.
Lemma kp_ab_ooov : same_tab chb_tab (fun x => x) [0; 1; 2; 3; 4]%nat (fst p_ab_ooov) (snd p_ab_ooov) = true. Proof. vm_compute. reflexivity. Qed.
Lemma kq_ab_ooov : same_tab chbc_tab dfold [0; 1; 4]%nat (fst q_ab_ooov) (snd q_ab_ooov) = true. Proof. vm_compute. reflexivity. Qed.
Lemma kp_ab_oovo : same_tab chb_tab (fun x => x) [0; 1; 2; 3; 4]%nat (fst p_ab_oovo) (snd p_ab_oovo) = true. Proof. vm_compute. reflexivity. Qed.
Lemma kq_ab_oovo : same_tab chbc_tab dfold [0; 1; 4]%nat (fst q_ab_oovo) (snd q_ab_oovo) = true. Proof. vm_compute. reflexivity. Qed.
Lemma kp_ab_oovv : same_tab chb_tab (fun x => x) [0; 1; 2; 3; 4]%nat (fst p_ab_oovv) (snd p_ab_oovv) = true. Proof. vm_compute. reflexivity. Qed.
Lemma kq_ab_oovv : same_tab chbc_tab dfold [0; 1; 4]%nat (fst q_ab_oovv) (snd q_ab_oovv) = true. Proof. vm_compute. reflexivity. Qed.
Lemma kp_ab_ovoo : same_tab chb_tab (fun x => x) [0; 1; 2; 3; 4]%nat (fst p_ab_ovoo) (snd p_ab_ovoo) = true. Proof. vm_compute. reflexivity. Qed.
Lemma kq_ab_ovoo : same_tab chbc_tab dfold [0; 1; 4]%nat (fst q_ab_ovoo) (snd q_ab_ovoo) = true. Proof. vm_compute. reflexivity. Qed.
Lemma kp_ab_ovov : same_tab chb_tab (fun x => x) [0; 1; 2; 3; 4]%nat (fst p_ab_ovov) (snd p_ab_ovov) = true. Proof. vm_compute. reflexivity. Qed.
Lemma kq_ab_ovov : same_tab chbc_tab dfold [0; 1; 4]%nat (fst q_ab_ovov) (snd q_ab_ovov) = true. Proof. vm_compute. reflexivity. Qed.
Lemma kp_ab_ovvo : same_tab chb_tab (fun x => x) [0; 1; 2; 3; 4]%nat (fst p_ab_ovvo) (snd p_ab_ovvo) = true. Proof. vm_compute. reflexivity. Qed.
Lemma kq_ab_ovvo : same_tab chbc_tab dfold [0; 1; 4]%nat (fst q_ab_ovvo) (snd q_ab_ovvo) = true. Proof. vm_compute. reflexivity. Qed.
Lemma kp_ab_ovvv : same_tab chb_tab (fun x => x) [0; 1; 2; 3; 4]%nat (fst p_ab_ovvv) (snd p_ab_ovvv) = true. Proof. vm_compute. reflexivity. Qed.
Lemma kq_ab_ovvv : same_tab chbc_tab dfold [0; 1; 4]%nat (fst q_ab_ovvv) (snd q_ab_ovvv) = true. Proof. vm_compute. reflexivity. Qed.
Lemma kp_ab_vooo : same_tab chb_tab (fun x => x) [0; 1; 2; 3; 4]%nat (fst p_ab_vooo) (snd p_ab_vooo) = true. Proof. vm_compute. reflexivity. Qed.
Lemma kq_ab_vooo : same_tab chbc_tab dfold [0; 1; 4]%nat (fst q_ab_vooo) (snd q_ab_vooo) = true. Proof. vm_compute. reflexivity. Qed.
Lemma kp_ab_voov : same_tab chb_tab (fun x => x) [0; 1; 2; 3; 4]%nat (fst p_ab_voov) (snd p_ab_voov) = true. Proof. vm_compute. reflexivity. Qed.
Lemma kq_ab_voov : same_tab chbc_tab dfold [0; 1; 4]%nat (fst q_ab_voov) (snd q_ab_voov) = true. Proof. vm_compute. reflexivity. Qed.
Lemma kp_ab_vovo : same_tab chb_tab (fun x => x) [0; 1; 2; 3; 4]%nat (fst p_ab_vovo) (snd p_ab_vovo) = true. Proof. vm_compute. reflexivity. Qed.
Lemma kq_ab_vovo : same_tab chbc_tab dfold [0; 1; 4]%nat (fst q_ab_vovo) (snd q_ab_vovo) = true. Proof. vm_compute. reflexivity. Qed.
Lemma kp_ab_vovv : same_tab chb_tab (fun x => x) [0; 1; 2; 3; 4]%nat (fst p_ab_vovv) (snd p_ab_vovv) = true. Proof. vm_compute. reflexivity. Qed.
Lemma kq_ab_vovv : same_tab chbc_tab dfold [0; 1; 4]%nat (fst q_ab_vovv) (snd q_ab_vovv) = true. Proof. vm_compute. reflexivity. Qed.
Lemma kp_ab_vvov : same_tab chb_tab (fun x => x) [0; 1; 2; 3; 4]%nat (fst p_ab_vvov) (snd p_ab_vvov) = true. Proof. vm_compute. reflexivity. Qed.
Lemma kq_ab_vvov : same_tab chbc_tab dfold [0; 1; 4]%nat (fst q_ab_vvov) (snd q_ab_vvov) = true. Proof. vm_compute. reflexivity. Qed.
Lemma kp_ab_vvvo : same_tab chb_tab (fun x => x) [0; 1; 2; 3; 4]%nat (fst p_ab_vvvo) (snd p_ab_vvvo) = true. Proof. vm_compute. reflexivity. Qed.
Lemma kq_ab_vvvo : same_tab chbc_tab dfold [0; 1; 4]%nat (fst q_ab_vvvo) (snd q_ab_vvvo) = true. Proof. vm_compute. reflexivity. Qed.
Lemma kp_bb_oooo : same_tab chb_tab (fun x => x) [0; 1; 2; 3; 4]%nat (fst p_bb_oooo) (snd p_bb_oooo) = true. Proof. vm_compute. reflexivity. Qed.
Lemma kq_bb_oooo : same_tab chbc_tab dfold [0; 1; 4]%nat (fst q_bb_oooo) (snd q_bb_oooo) = true. Proof. vm_compute. reflexivity. Qed.
Lemma kp_bb_ooov : same_tab chb_tab (fun x => x) [0; 1; 2; 3; 4]%nat (fst p_bb_ooov) (snd p_bb_ooov) = true. Proof. vm_compute. reflexivity. Qed.
Lemma kq_bb_ooov : same_tab chbc_tab dfold [0; 1; 4]%nat (fst q_bb_ooov) (snd q_bb_ooov) = true. Proof. vm_compute. reflexivity. Qed.
Lemma kp_bb_oovv : same_tab chb_tab (fun x => x) [0; 1; 2; 3; 4]%nat (fst p_bb_oovv) (snd p_bb_oovv) = true. Proof. vm_compute. reflexivity. Qed.
Lemma kq_bb_oovv : same_tab chbc_tab dfold [0; 1; 4]%nat (fst q_bb_oovv) (snd q_bb_oovv) = true. Proof. vm_compute. reflexivity. Qed.
Lemma kp_bb_vooo : same_tab chb_tab (fun x => x) [0; 1; 2; 3; 4]%nat (fst p_bb_vooo) (snd p_bb_vooo) = true. Proof. vm_compute. reflexivity. Qed.
Lemma kq_bb_vooo : same_tab chbc_tab dfold [0; 1; 4]%nat (fst q_bb_vooo) (snd q_bb_vooo) = true. Proof. vm_compute. reflexivity. Qed.
Lemma kp_bb_voov : same_tab chb_tab (fun x => x) [0; 1; 2; 3; 4]%nat (fst p_bb_voov) (snd p_bb_voov) = true. Proof. vm_compute. reflexivity. Qed.
Lemma kq_bb_voov : same_tab chbc_tab dfold [0; 1; 4]%nat (fst q_bb_voov) (snd q_bb_voov) = true. Proof. vm_compute. reflexivity. Qed.
Lemma kp_bb_vovv : same_tab chb_tab (fun x => x) [0; 1; 2; 3; 4]%nat (fst p_bb_vovv) (snd p_bb_vovv) = true. Proof. vm_compute. reflexivity. Qed.
Lemma kq_bb_vovv : same_tab chbc_tab dfold [0; 1; 4]%nat (fst q_bb_vovv) (snd q_bb_vovv) = true. Proof. vm_compute. reflexivity. Qed.
Lemma kp_bb_vvov : same_tab chb_tab (fun x => x) [0; 1; 2; 3; 4]%nat (fst p_bb_vvov) (snd p_bb_vvov) = true. Proof. vm_compute. reflexivity. Qed.
Lemma kq_bb_vvov : same_tab chbc_tab dfold [0; 1; 4]%nat (fst q_bb_vvov) (snd q_bb_vvov) = true. Proof. vm_compute. reflexivity. Qed.
Lemma kp_aa_vvvv : same_tab chb_tab (fun x => x) [0; 1; 2; 3; 4]%nat (fst p_aa_vvvv) (snd p_aa_vvvv) = true. Proof. vm_compute. reflexivity. Qed.
Lemma kq_aa_vvvv : same_tab chbc_tab dfold [0; 1; 4]%nat (fst q_aa_vvvv) (snd q_aa_vvvv) = true. Proof. vm_compute. reflexivity. Qed.
Lemma kp_ab_vvvv : same_tab chb_tab (fun x => x) [0; 1; 2; 3; 4]%nat (fst p_ab_vvvv) (snd p_ab_vvvv) = true. Proof. vm_compute. reflexivity. Qed.
Lemma kq_ab_vvvv : same_tab chbc_tab dfold [0; 1; 4]%nat (fst q_ab_vvvv) (snd q_ab_vvvv) = true. Proof. vm_compute. reflexivity. Qed.
Lemma kp_bb_vvvv : same_tab chb_tab (fun x => x) [0; 1; 2; 3; 4]%nat (fst p_bb_vvvv) (snd p_bb_vvvv) = true. Proof. vm_compute. reflexivity. Qed.
Lemma kq_bb_vvvv : same_tab chbc_tab dfold [0; 1; 4]%nat (fst q_bb_vvvv) (snd q_bb_vvvv) = true. Proof. vm_compute. reflexivity. Qed.

Section Open.
Variables (nx : nat) (e1 : mat2) (L : mat3) (s : sysd) (T : amps).
Hypothesis HT : antisym_amps T.
Let d := sys_dims s.
Let C := chol_of s L.
Let H := fock_ints (s_noa s) (s_nob s) (valence e1 (dense_of nx L) (s_nf s)).
Lemma chb_syms : Forall (fun g => okalt (tenv (chb_arrays d nx C H T)) (fst g) (snd g)) chb_gens.
Proof. sym_all. Qed.
Lemma hs e e' v : same_tab chb_tab (fun x => x) [0; 1; 2; 3; 4]%nat e e' = true ->
  den (denv [noa d; nua d; nob d; nub d; nx]) (tenv (chb_arrays d nx C H T)) e v = den (denv [noa d; nua d; nob d; nub d; nx]) (tenv (chb_arrays d nx C H T)) e' v.
Proof.
  intros E. apply (same_tab_sound _ _ chb_gens (length (chb_arrays d nx C H T)) chb_tab (fun x => x) [0; 1; 2; 3; 4]%nat);
    [vm_compute; reflexivity|reflexivity|exact chb_syms|exact E].
Qed.
Lemma op_a_oo p q : i_a_oo (hbar_ccsd d H T) p q = i_a_oo (chol_hbar d nx C H T) p q.
Proof. exact (hs (fst p_a_oo) (snd p_a_oo) (venv [p; q]) kp_a_oo). Qed.
Lemma op_a_ov p q : i_a_ov (hbar_ccsd d H T) p q = i_a_ov (chol_hbar d nx C H T) p q.
Proof. exact (hs (fst p_a_ov) (snd p_a_ov) (venv [p; q]) kp_a_ov). Qed.
Lemma op_a_vv p q : i_a_vv (hbar_ccsd d H T) p q = i_a_vv (chol_hbar d nx C H T) p q.
Proof. exact (hs (fst p_a_vv) (snd p_a_vv) (venv [p; q]) kp_a_vv). Qed.
Lemma op_b_oo p q : i_b_oo (hbar_ccsd d H T) p q = i_b_oo (chol_hbar d nx C H T) p q.
Proof. exact (hs (fst p_b_oo) (snd p_b_oo) (venv [p; q]) kp_b_oo). Qed.
Lemma op_b_ov p q : i_b_ov (hbar_ccsd d H T) p q = i_b_ov (chol_hbar d nx C H T) p q.
Proof. exact (hs (fst p_b_ov) (snd p_b_ov) (venv [p; q]) kp_b_ov). Qed.
Lemma op_b_vv p q : i_b_vv (hbar_ccsd d H T) p q = i_b_vv (chol_hbar d nx C H T) p q.
Proof. exact (hs (fst p_b_vv) (snd p_b_vv) (venv [p; q]) kp_b_vv). Qed.
Lemma op_aa_oooo p q r t : i_aa_oooo (hbar_ccsd d H T) p q r t = i_aa_oooo (chol_hbar d nx C H T) p q r t.
Proof. exact (hs (fst p_aa_oooo) (snd p_aa_oooo) (venv [p; q; r; t]) kp_aa_oooo). Qed.
Lemma op_aa_ooov p q r t : i_aa_ooov (hbar_ccsd d H T) p q r t = i_aa_ooov (chol_hbar d nx C H T) p q r t.
Proof. exact (hs (fst p_aa_ooov) (snd p_aa_ooov) (venv [p; q; r; t]) kp_aa_ooov). Qed.
Lemma op_aa_oovv p q r t : i_aa_oovv (hbar_ccsd d H T) p q r t = i_aa_oovv (chol_hbar d nx C H T) p q r t.
Proof. exact (hs (fst p_aa_oovv) (snd p_aa_oovv) (venv [p; q; r; t]) kp_aa_oovv). Qed.
Lemma op_aa_vooo p q r t : i_aa_vooo (hbar_ccsd d H T) p q r t = i_aa_vooo (chol_hbar d nx C H T) p q r t.
Proof. exact (hs (fst p_aa_vooo) (snd p_aa_vooo) (venv [p; q; r; t]) kp_aa_vooo). Qed.
Lemma op_aa_voov p q r t : i_aa_voov (hbar_ccsd d H T) p q r t = i_aa_voov (chol_hbar d nx C H T) p q r t.
Proof. exact (hs (fst p_aa_voov) (snd p_aa_voov) (venv [p; q; r; t]) kp_aa_voov). Qed.
Lemma op_aa_vovv p q r t : i_aa_vovv (hbar_ccsd d H T) p q r t = i_aa_vovv (chol_hbar d nx C H T) p q r t.
Proof. exact (hs (fst p_aa_vovv) (snd p_aa_vovv) (venv [p; q; r; t]) kp_aa_vovv). Qed.
Lemma op_aa_vvov p q r t : i_aa_vvov (hbar_ccsd d H T) p q r t = i_aa_vvov (chol_hbar d nx C H T) p q r t.
Proof. exact (hs (fst p_aa_vvov) (snd p_aa_vvov) (venv [p; q; r; t]) kp_aa_vvov). Qed.
Lemma op_ab_oooo p q r t : i_ab_oooo (hbar_ccsd d H T) p q r t = i_ab_oooo (chol_hbar d nx C H T) p q r t.
Proof. exact (hs (fst p_ab_oooo) (snd p_ab_oooo) (venv [p; q; r; t]) kp_ab_oooo). Qed.
Lemma op_ab_ooov p q r t : i_ab_ooov (hbar_ccsd d H T) p q r t = i_ab_ooov (chol_hbar d nx C H T) p q r t.
Proof. exact (hs (fst p_ab_ooov) (snd p_ab_ooov) (venv [p; q; r; t]) kp_ab_ooov). Qed.
Lemma op_ab_oovo p q r t : i_ab_oovo (hbar_ccsd d H T) p q r t = i_ab_oovo (chol_hbar d nx C H T) p q r t.
Proof. exact (hs (fst p_ab_oovo) (snd p_ab_oovo) (venv [p; q; r; t]) kp_ab_oovo). Qed.
Lemma op_ab_oovv p q r t : i_ab_oovv (hbar_ccsd d H T) p q r t = i_ab_oovv (chol_hbar d nx C H T) p q r t.
Proof. exact (hs (fst p_ab_oovv) (snd p_ab_oovv) (venv [p; q; r; t]) kp_ab_oovv). Qed.
Lemma op_ab_ovoo p q r t : i_ab_ovoo (hbar_ccsd d H T) p q r t = i_ab_ovoo (chol_hbar d nx C H T) p q r t.
Proof. exact (hs (fst p_ab_ovoo) (snd p_ab_ovoo) (venv [p; q; r; t]) kp_ab_ovoo). Qed.
Lemma op_ab_ovov p q r t : i_ab_ovov (hbar_ccsd d H T) p q r t = i_ab_ovov (chol_hbar d nx C H T) p q r t.
Proof. exact (hs (fst p_ab_ovov) (snd p_ab_ovov) (venv [p; q; r; t]) kp_ab_ovov). Qed.
Lemma op_ab_ovvo p q r t : i_ab_ovvo (hbar_ccsd d H T) p q r t = i_ab_ovvo (chol_hbar d nx C H T) p q r t.
Proof. exact (hs (fst p_ab_ovvo) (snd p_ab_ovvo) (venv [p; q; r; t]) kp_ab_ovvo). Qed.
Lemma op_ab_ovvv p q r t : i_ab_ovvv (hbar_ccsd d H T) p q r t = i_ab_ovvv (chol_hbar d nx C H T) p q r t.
Proof. exact (hs (fst p_ab_ovvv) (snd p_ab_ovvv) (venv [p; q; r; t]) kp_ab_ovvv). Qed.
Lemma op_ab_vooo p q r t : i_ab_vooo (hbar_ccsd d H T) p q r t = i_ab_vooo (chol_hbar d nx C H T) p q r t.
Proof. exact (hs (fst p_ab_vooo) (snd p_ab_vooo) (venv [p; q; r; t]) kp_ab_vooo). Qed.
Lemma op_ab_voov p q r t : i_ab_voov (hbar_ccsd d H T) p q r t = i_ab_voov (chol_hbar d nx C H T) p q r t.
Proof. exact (hs (fst p_ab_voov) (snd p_ab_voov) (venv [p; q; r; t]) kp_ab_voov). Qed.
Lemma op_ab_vovo p q r t : i_ab_vovo (hbar_ccsd d H T) p q r t = i_ab_vovo (chol_hbar d nx C H T) p q r t.
Proof. exact (hs (fst p_ab_vovo) (snd p_ab_vovo) (venv [p; q; r; t]) kp_ab_vovo). Qed.
Lemma op_ab_vovv p q r t : i_ab_vovv (hbar_ccsd d H T) p q r t = i_ab_vovv (chol_hbar d nx C H T) p q r t.
Proof. exact (hs (fst p_ab_vovv) (snd p_ab_vovv) (venv [p; q; r; t]) kp_ab_vovv). Qed.
Lemma op_ab_vvov p q r t : i_ab_vvov (hbar_ccsd d H T) p q r t = i_ab_vvov (chol_hbar d nx C H T) p q r t.
Proof. exact (hs (fst p_ab_vvov) (snd p_ab_vvov) (venv [p; q; r; t]) kp_ab_vvov). Qed.
Lemma op_ab_vvvo p q r t : i_ab_vvvo (hbar_ccsd d H T) p q r t = i_ab_vvvo (chol_hbar d nx C H T) p q r t.
Proof. exact (hs (fst p_ab_vvvo) (snd p_ab_vvvo) (venv [p; q; r; t]) kp_ab_vvvo). Qed.
Lemma op_bb_oooo p q r t : i_bb_oooo (hbar_ccsd d H T) p q r t = i_bb_oooo (chol_hbar d nx C H T) p q r t.
Proof. exact (hs (fst p_bb_oooo) (snd p_bb_oooo) (venv [p; q; r; t]) kp_bb_oooo). Qed.
Lemma op_bb_ooov p q r t : i_bb_ooov (hbar_ccsd d H T) p q r t = i_bb_ooov (chol_hbar d nx C H T) p q r t.
Proof. exact (hs (fst p_bb_ooov) (snd p_bb_ooov) (venv [p; q; r; t]) kp_bb_ooov). Qed.
Lemma op_bb_oovv p q r t : i_bb_oovv (hbar_ccsd d H T) p q r t = i_bb_oovv (chol_hbar d nx C H T) p q r t.
Proof. exact (hs (fst p_bb_oovv) (snd p_bb_oovv) (venv [p; q; r; t]) kp_bb_oovv). Qed.
Lemma op_bb_vooo p q r t : i_bb_vooo (hbar_ccsd d H T) p q r t = i_bb_vooo (chol_hbar d nx C H T) p q r t.
Proof. exact (hs (fst p_bb_vooo) (snd p_bb_vooo) (venv [p; q; r; t]) kp_bb_vooo). Qed.
Lemma op_bb_voov p q r t : i_bb_voov (hbar_ccsd d H T) p q r t = i_bb_voov (chol_hbar d nx C H T) p q r t.
Proof. exact (hs (fst p_bb_voov) (snd p_bb_voov) (venv [p; q; r; t]) kp_bb_voov). Qed.
Lemma op_bb_vovv p q r t : i_bb_vovv (hbar_ccsd d H T) p q r t = i_bb_vovv (chol_hbar d nx C H T) p q r t.
Proof. exact (hs (fst p_bb_vovv) (snd p_bb_vovv) (venv [p; q; r; t]) kp_bb_vovv). Qed.
Lemma op_bb_vvov p q r t : i_bb_vvov (hbar_ccsd d H T) p q r t = i_bb_vvov (chol_hbar d nx C H T) p q r t.
Proof. exact (hs (fst p_bb_vvov) (snd p_bb_vvov) (venv [p; q; r; t]) kp_bb_vvov). Qed.
Lemma op_aa_vvvv p q r t : i_aa_vvvv (hbar_ccsd d H T) p q r t = vvvv_same (noa d) nx (c_a_vv (chol_dressed d nx C H T)) (i_aa_oovv H) (x_aa T) p q r t.
Proof. exact (hs (fst p_aa_vvvv) (snd p_aa_vvvv) (venv [p; q; r; t]) kp_aa_vvvv). Qed.
Lemma op_ab_vvvv p q r t : i_ab_vvvv (hbar_ccsd d H T) p q r t = vvvv_opp (noa d) (nob d) nx (c_a_vv (chol_dressed d nx C H T)) (c_b_vv (chol_dressed d nx C H T)) (i_ab_oovv H) (x_ab T) p q r t.
Proof. exact (hs (fst p_ab_vvvv) (snd p_ab_vvvv) (venv [p; q; r; t]) kp_ab_vvvv). Qed.
Lemma op_bb_vvvv p q r t : i_bb_vvvv (hbar_ccsd d H T) p q r t = vvvv_same (nob d) nx (c_b_vv (chol_dressed d nx C H T)) (i_bb_oovv H) (x_bb T) p q r t.
Proof. exact (hs (fst p_bb_vvvv) (snd p_bb_vvvv) (venv [p; q; r; t]) kp_bb_vvvv). Qed.
End Open.

Section Shut.
Variables (nx : nat) (e1 : mat2) (L : mat3) (s : sysd) (T : amps).
Hypothesis Hn : s_noa s = s_nob s.
Hypothesis HT : singlet T.
Let d := sys_dims s.
Let C := chol_of s L.
Let H := fock_ints (s_noa s) (s_nob s) (valence e1 (dense_of nx L) (s_nf s)).
Let Hu : nua d = nub d. Proof. cbn. lia. Qed.
Let Ho : noa d = nob d. Proof. exact Hn. Qed.
Lemma chbc_syms : Forall (fun g => okalt (tenv (chbc_arrays d nx C H T)) (fst g) (snd g)) chbc_gens.
Proof.
  destruct HT as [HA [Ca Caa Cab]].
  assert (Fo : forall p q, i_b_oo H p q = i_a_oo H p q) by (intros; unfold H; cbn [fock_ints i_a_oo i_b_oo]; exact (fock_same nx e1 L s Hn p q)).
  assert (Fv : forall p q, i_b_ov H p q = i_a_ov H p q) by (intros; unfold H; cbn [fock_ints i_a_ov i_b_ov]; rewrite (fock_same nx e1 L s Hn), Hn; reflexivity).
  assert (Gv : forall p q, i_b_vo H p q = i_a_vo H p q) by (intros; unfold H; cbn [fock_ints i_a_vo i_b_vo]; rewrite (fock_same nx e1 L s Hn), Hn; reflexivity).
  assert (Gg : forall p q, i_b_vv H p q = i_a_vv H p q) by (intros; unfold H; cbn [fock_ints i_a_vv i_b_vv]; rewrite (fock_same nx e1 L s Hn), Hn; reflexivity).
  assert (K1 : forall x p q, c_b_oo C x p q = c_a_oo C x p q) by (intros; unfold C, chol_of, chol_blk; cbn; rewrite ?Hn; reflexivity).
  assert (K2 : forall x p q, c_b_ov C x p q = c_a_ov C x p q) by (intros; unfold C, chol_of, chol_blk; cbn; rewrite ?Hn; reflexivity).
  assert (K3 : forall x p q, c_b_vo C x p q = c_a_vo C x p q) by (intros; unfold C, chol_of, chol_blk; cbn; rewrite ?Hn; reflexivity).
  assert (K4 : forall x p q, c_b_vv C x p q = c_a_vv C x p q) by (intros; unfold C, chol_of, chol_blk; cbn; rewrite ?Hn; reflexivity).
  clearbody C H. do 4 (apply Forall_cons; [eapply ok3_id; [reflexivity|reflexivity|assumption]|]).
  repeat (apply Forall_cons; [first [sym1 | eapply ok2_id; [reflexivity|reflexivity|assumption] | eapply ok4_id; [reflexivity|reflexivity|assumption] | eapply ok4_sw; [reflexivity|reflexivity|assumption]]|]). apply Forall_nil.
Qed.
Lemma hq e e' v : same_tab chbc_tab dfold [0; 1; 4]%nat e e' = true ->
  den (denv [noa d; nua d; nob d; nub d; nx]) (tenv (chbc_arrays d nx C H T)) e v = den (denv [noa d; nua d; nob d; nub d; nx]) (tenv (chbc_arrays d nx C H T)) e' v.
Proof.
  intros E. apply (same_tab_sound _ _ chbc_gens (length (chbc_arrays d nx C H T)) chbc_tab dfold [0; 1; 4]%nat);
    [vm_compute; reflexivity|exact (dfold5 nx s Hn)|exact chbc_syms|exact E].
Qed.
Lemma cl_a_oo p q : i_a_oo (hbar_ccsd d H T) p q = i_a_oo (rchol_hbar d nx C H T) p q.
Proof. exact (hq (fst q_a_oo) (snd q_a_oo) (venv [p; q]) kq_a_oo). Qed.
Lemma cl_a_ov p q : i_a_ov (hbar_ccsd d H T) p q = i_a_ov (rchol_hbar d nx C H T) p q.
Proof. exact (hq (fst q_a_ov) (snd q_a_ov) (venv [p; q]) kq_a_ov). Qed.
Lemma cl_a_vv p q : i_a_vv (hbar_ccsd d H T) p q = i_a_vv (rchol_hbar d nx C H T) p q.
Proof. exact (hq (fst q_a_vv) (snd q_a_vv) (venv [p; q]) kq_a_vv). Qed.
Lemma cl_b_oo p q : i_b_oo (hbar_ccsd d H T) p q = i_b_oo (rchol_hbar d nx C H T) p q.
Proof. exact (hq (fst q_b_oo) (snd q_b_oo) (venv [p; q]) kq_b_oo). Qed.
Lemma cl_b_ov p q : i_b_ov (hbar_ccsd d H T) p q = i_b_ov (rchol_hbar d nx C H T) p q.
Proof. exact (hq (fst q_b_ov) (snd q_b_ov) (venv [p; q]) kq_b_ov). Qed.
Lemma cl_b_vv p q : i_b_vv (hbar_ccsd d H T) p q = i_b_vv (rchol_hbar d nx C H T) p q.
Proof. exact (hq (fst q_b_vv) (snd q_b_vv) (venv [p; q]) kq_b_vv). Qed.
Lemma cl_aa_oooo p q r t : i_aa_oooo (hbar_ccsd d H T) p q r t = i_aa_oooo (rchol_hbar d nx C H T) p q r t.
Proof. exact (hq (fst q_aa_oooo) (snd q_aa_oooo) (venv [p; q; r; t]) kq_aa_oooo). Qed.
Lemma cl_aa_ooov p q r t : i_aa_ooov (hbar_ccsd d H T) p q r t = i_aa_ooov (rchol_hbar d nx C H T) p q r t.
Proof. exact (hq (fst q_aa_ooov) (snd q_aa_ooov) (venv [p; q; r; t]) kq_aa_ooov). Qed.
Lemma cl_aa_oovv p q r t : i_aa_oovv (hbar_ccsd d H T) p q r t = i_aa_oovv (rchol_hbar d nx C H T) p q r t.
Proof. exact (hq (fst q_aa_oovv) (snd q_aa_oovv) (venv [p; q; r; t]) kq_aa_oovv). Qed.
Lemma cl_aa_vooo p q r t : i_aa_vooo (hbar_ccsd d H T) p q r t = i_aa_vooo (rchol_hbar d nx C H T) p q r t.
Proof. exact (hq (fst q_aa_vooo) (snd q_aa_vooo) (venv [p; q; r; t]) kq_aa_vooo). Qed.
Lemma cl_aa_voov p q r t : i_aa_voov (hbar_ccsd d H T) p q r t = i_aa_voov (rchol_hbar d nx C H T) p q r t.
Proof. exact (hq (fst q_aa_voov) (snd q_aa_voov) (venv [p; q; r; t]) kq_aa_voov). Qed.
Lemma cl_aa_vovv p q r t : i_aa_vovv (hbar_ccsd d H T) p q r t = i_aa_vovv (rchol_hbar d nx C H T) p q r t.
Proof. exact (hq (fst q_aa_vovv) (snd q_aa_vovv) (venv [p; q; r; t]) kq_aa_vovv). Qed.
Lemma cl_aa_vvov p q r t : i_aa_vvov (hbar_ccsd d H T) p q r t = i_aa_vvov (rchol_hbar d nx C H T) p q r t.
Proof. exact (hq (fst q_aa_vvov) (snd q_aa_vvov) (venv [p; q; r; t]) kq_aa_vvov). Qed.
Lemma cl_ab_oooo p q r t : i_ab_oooo (hbar_ccsd d H T) p q r t = i_ab_oooo (rchol_hbar d nx C H T) p q r t.
Proof. exact (hq (fst q_ab_oooo) (snd q_ab_oooo) (venv [p; q; r; t]) kq_ab_oooo). Qed.
Lemma cl_ab_ooov p q r t : i_ab_ooov (hbar_ccsd d H T) p q r t = i_ab_ooov (rchol_hbar d nx C H T) p q r t.
Proof. exact (hq (fst q_ab_ooov) (snd q_ab_ooov) (venv [p; q; r; t]) kq_ab_ooov). Qed.
Lemma cl_ab_oovo p q r t : i_ab_oovo (hbar_ccsd d H T) p q r t = i_ab_oovo (rchol_hbar d nx C H T) p q r t.
Proof. exact (hq (fst q_ab_oovo) (snd q_ab_oovo) (venv [p; q; r; t]) kq_ab_oovo). Qed.
Lemma cl_ab_oovv p q r t : i_ab_oovv (hbar_ccsd d H T) p q r t = i_ab_oovv (rchol_hbar d nx C H T) p q r t.
Proof. exact (hq (fst q_ab_oovv) (snd q_ab_oovv) (venv [p; q; r; t]) kq_ab_oovv). Qed.
Lemma cl_ab_ovoo p q r t : i_ab_ovoo (hbar_ccsd d H T) p q r t = i_ab_ovoo (rchol_hbar d nx C H T) p q r t.
Proof. exact (hq (fst q_ab_ovoo) (snd q_ab_ovoo) (venv [p; q; r; t]) kq_ab_ovoo). Qed.
Lemma cl_ab_ovov p q r t : i_ab_ovov (hbar_ccsd d H T) p q r t = i_ab_ovov (rchol_hbar d nx C H T) p q r t.
Proof. exact (hq (fst q_ab_ovov) (snd q_ab_ovov) (venv [p; q; r; t]) kq_ab_ovov). Qed.
Lemma cl_ab_ovvo p q r t : i_ab_ovvo (hbar_ccsd d H T) p q r t = i_ab_ovvo (rchol_hbar d nx C H T) p q r t.
Proof. exact (hq (fst q_ab_ovvo) (snd q_ab_ovvo) (venv [p; q; r; t]) kq_ab_ovvo). Qed.
Lemma cl_ab_ovvv p q r t : i_ab_ovvv (hbar_ccsd d H T) p q r t = i_ab_ovvv (rchol_hbar d nx C H T) p q r t.
Proof. exact (hq (fst q_ab_ovvv) (snd q_ab_ovvv) (venv [p; q; r; t]) kq_ab_ovvv). Qed.
Lemma cl_ab_vooo p q r t : i_ab_vooo (hbar_ccsd d H T) p q r t = i_ab_vooo (rchol_hbar d nx C H T) p q r t.
Proof. exact (hq (fst q_ab_vooo) (snd q_ab_vooo) (venv [p; q; r; t]) kq_ab_vooo). Qed.
Lemma cl_ab_voov p q r t : i_ab_voov (hbar_ccsd d H T) p q r t = i_ab_voov (rchol_hbar d nx C H T) p q r t.
Proof. exact (hq (fst q_ab_voov) (snd q_ab_voov) (venv [p; q; r; t]) kq_ab_voov). Qed.
Lemma cl_ab_vovo p q r t : i_ab_vovo (hbar_ccsd d H T) p q r t = i_ab_vovo (rchol_hbar d nx C H T) p q r t.
Proof. exact (hq (fst q_ab_vovo) (snd q_ab_vovo) (venv [p; q; r; t]) kq_ab_vovo). Qed.
Lemma cl_ab_vovv p q r t : i_ab_vovv (hbar_ccsd d H T) p q r t = i_ab_vovv (rchol_hbar d nx C H T) p q r t.
Proof. exact (hq (fst q_ab_vovv) (snd q_ab_vovv) (venv [p; q; r; t]) kq_ab_vovv). Qed.
Lemma cl_ab_vvov p q r t : i_ab_vvov (hbar_ccsd d H T) p q r t = i_ab_vvov (rchol_hbar d nx C H T) p q r t.
Proof. exact (hq (fst q_ab_vvov) (snd q_ab_vvov) (venv [p; q; r; t]) kq_ab_vvov). Qed.
Lemma cl_ab_vvvo p q r t : i_ab_vvvo (hbar_ccsd d H T) p q r t = i_ab_vvvo (rchol_hbar d nx C H T) p q r t.
Proof. exact (hq (fst q_ab_vvvo) (snd q_ab_vvvo) (venv [p; q; r; t]) kq_ab_vvvo). Qed.
Lemma cl_bb_oooo p q r t : i_bb_oooo (hbar_ccsd d H T) p q r t = i_bb_oooo (rchol_hbar d nx C H T) p q r t.
Proof. exact (hq (fst q_bb_oooo) (snd q_bb_oooo) (venv [p; q; r; t]) kq_bb_oooo). Qed.
Lemma cl_bb_ooov p q r t : i_bb_ooov (hbar_ccsd d H T) p q r t = i_bb_ooov (rchol_hbar d nx C H T) p q r t.
Proof. exact (hq (fst q_bb_ooov) (snd q_bb_ooov) (venv [p; q; r; t]) kq_bb_ooov). Qed.
Lemma cl_bb_oovv p q r t : i_bb_oovv (hbar_ccsd d H T) p q r t = i_bb_oovv (rchol_hbar d nx C H T) p q r t.
Proof. exact (hq (fst q_bb_oovv) (snd q_bb_oovv) (venv [p; q; r; t]) kq_bb_oovv). Qed.
Lemma cl_bb_vooo p q r t : i_bb_vooo (hbar_ccsd d H T) p q r t = i_bb_vooo (rchol_hbar d nx C H T) p q r t.
Proof. exact (hq (fst q_bb_vooo) (snd q_bb_vooo) (venv [p; q; r; t]) kq_bb_vooo). Qed.
Lemma cl_bb_voov p q r t : i_bb_voov (hbar_ccsd d H T) p q r t = i_bb_voov (rchol_hbar d nx C H T) p q r t.
Proof. exact (hq (fst q_bb_voov) (snd q_bb_voov) (venv [p; q; r; t]) kq_bb_voov). Qed.
Lemma cl_bb_vovv p q r t : i_bb_vovv (hbar_ccsd d H T) p q r t = i_bb_vovv (rchol_hbar d nx C H T) p q r t.
Proof. exact (hq (fst q_bb_vovv) (snd q_bb_vovv) (venv [p; q; r; t]) kq_bb_vovv). Qed.
Lemma cl_bb_vvov p q r t : i_bb_vvov (hbar_ccsd d H T) p q r t = i_bb_vvov (rchol_hbar d nx C H T) p q r t.
Proof. exact (hq (fst q_bb_vvov) (snd q_bb_vvov) (venv [p; q; r; t]) kq_bb_vvov). Qed.
Lemma cl_aa_vvvv p q r t : i_aa_vvvv (hbar_ccsd d H T) p q r t = vvvv_same (noa d) nx (c_a_vv (rchol_dressed d nx C H T)) (i_aa_oovv H) (x_aa T) p q r t.
Proof. exact (hq (fst q_aa_vvvv) (snd q_aa_vvvv) (venv [p; q; r; t]) kq_aa_vvvv). Qed.
Lemma cl_ab_vvvv p q r t : i_ab_vvvv (hbar_ccsd d H T) p q r t = vvvv_opp (noa d) (nob d) nx (c_a_vv (rchol_dressed d nx C H T)) (c_b_vv (rchol_dressed d nx C H T)) (i_ab_oovv H) (x_ab T) p q r t.
Proof. exact (hq (fst q_ab_vvvv) (snd q_ab_vvvv) (venv [p; q; r; t]) kq_ab_vvvv). Qed.
Lemma cl_bb_vvvv p q r t : i_bb_vvvv (hbar_ccsd d H T) p q r t = vvvv_same (nob d) nx (c_b_vv (rchol_dressed d nx C H T)) (i_bb_oovv H) (x_bb T) p q r t.
Proof. exact (hq (fst q_bb_vvvv) (snd q_bb_vvvv) (venv [p; q; r; t]) kq_bb_vvvv). Qed.
End Shut.
