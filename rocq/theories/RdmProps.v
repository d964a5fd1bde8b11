(** One-body density matrices: traces, response to a one-body perturbation, spin symmetry. *)
From Coq Require Import Reals Arith List Lra Lia FunctionalExtensionality.
From Verif Require Import RSum IntegralsModel TensorObjs TensorAlg TensorDeriv TensorSpec TensorClosed CcsdModel CcsdUpdate RdmModel RdmReify.
Import ListNotations.
Open Scope R_scope.

Notation rden d H K T L := (den (denv [noa d; nua d; nob d; nub d]) (tenv (rdm_arrays d H K T L))).
(** No symmetry of the amplitudes is needed for the traces *)
Lemma rdm_same0 d H K T L e1 e2 : same_tab (symtab [] 70) (fun x => x) [0; 1; 2; 3]%nat e1 e2 = true -> rden d H K T L e1 (venv []) = rden d H K T L e2 (venv []).
Proof. intros E. apply (same_tab_sound _ _ [] 70 (symtab [] 70) (fun x => x) [0; 1; 2; 3]%nat); [vm_compute; reflexivity|reflexivity|constructor|exact E]. Qed.
Lemma sum_delta n : sumn n (fun i => delta i i) = INR n.
Proof.
  induction n as [|n IH]; [reflexivity|]. rewrite S_INR, <- IH. unfold delta at 2. simpl. unfold delta at 2. rewrite Nat.eqb_refl. reflexivity.
Qed.
Definition trace_a (d : dims) (g : rdms) : R := sumn (noa d) (fun i => g_a_oo g i i) + sumn (nua d) (fun a => g_a_vv g a a).
Definition trace_b (d : dims) (g : rdms) : R := sumn (nob d) (fun i => g_b_oo g i i) + sumn (nub d) (fun a => g_b_vv g a a).
Theorem C40_trace_ccsd d T L : trace_a d (calc_rdm1_ccsd d T L) = INR (noa d) /\ trace_b d (calc_rdm1_ccsd d T L) = INR (nob d).
Proof.
  split; [rewrite <- (sum_delta (noa d))|rewrite <- (sum_delta (nob d))].
  - change (rden d zints zints T L (r_tr_ca 0) (venv []) = rden d zints zints T L (r_one_a 0) (venv [])). apply rdm_same0. vm_compute. reflexivity.
  - change (rden d zints zints T L (r_tr_cb 0) (venv []) = rden d zints zints T L (r_one_b 0) (venv [])). apply rdm_same0. vm_compute. reflexivity.
Qed.
Theorem C40_trace_ccsdt d T L : trace_a d (calc_rdm1_ccsdt d T L) = INR (noa d) /\ trace_b d (calc_rdm1_ccsdt d T L) = INR (nob d).
Proof.
  split; [rewrite <- (sum_delta (noa d))|rewrite <- (sum_delta (nob d))].
  - change (rden d zints zints T L (r_tr_ta 0) (venv []) = rden d zints zints T L (r_one_a 0) (venv [])). apply rdm_same0. vm_compute. reflexivity.
  - change (rden d zints zints T L (r_tr_tb 0) (venv []) = rden d zints zints T L (r_one_b 0) (venv [])). apply rdm_same0. vm_compute. reflexivity.
Qed.

(** Response: adding a one-body operator K to the Hamiltonian changes the reference energy by the trace of its occupied block and the Fock blocks by K. *)
Lemma rdm_syms d H K T L : antisym_ints H -> antisym_amps T -> antisym_amps L -> antisym_triples T -> antisym_triples L ->
  Forall (fun g => okalt (tenv (rdm_arrays d H K T L)) (fst g) (snd g)) rdm_gens.
Proof. intros HH HT HL TT TL. sym_all. Qed.
Definition add_one_body (H K : ints) (t : R) : ints := mkInts
  (fun p q => i_a_oo H p q + t * i_a_oo K p q) (fun p q => i_a_ov H p q + t * i_a_ov K p q) (fun p q => i_a_vo H p q + t * i_a_vo K p q) (fun p q => i_a_vv H p q + t * i_a_vv K p q)
  (fun p q => i_b_oo H p q + t * i_b_oo K p q) (fun p q => i_b_ov H p q + t * i_b_ov K p q) (fun p q => i_b_vo H p q + t * i_b_vo K p q) (fun p q => i_b_vv H p q + t * i_b_vv K p q)
  (i_aa_oooo H) (i_aa_ooov H) (i_aa_oovo H) (i_aa_oovv H) (i_aa_ovoo H) (i_aa_ovov H) (i_aa_ovvo H) (i_aa_ovvv H) (i_aa_vooo H) (i_aa_voov H) (i_aa_vovo H) (i_aa_vovv H) (i_aa_vvoo H) (i_aa_vvov H) (i_aa_vvvo H) (i_aa_vvvv H) (i_ab_oooo H) (i_ab_ooov H) (i_ab_oovo H) (i_ab_oovv H) (i_ab_ovoo H) (i_ab_ovov H) (i_ab_ovvo H) (i_ab_ovvv H) (i_ab_vooo H) (i_ab_voov H) (i_ab_vovo H) (i_ab_vovv H) (i_ab_vvoo H) (i_ab_vvov H) (i_ab_vvvo H) (i_ab_vvvv H) (i_bb_oooo H) (i_bb_ooov H) (i_bb_oovo H) (i_bb_oovv H) (i_bb_ovoo H) (i_bb_ovov H) (i_bb_ovvo H) (i_bb_ovvv H) (i_bb_vooo H) (i_bb_voov H) (i_bb_vovo H) (i_bb_vovv H) (i_bb_vvoo H) (i_bb_vvov H) (i_bb_vvvo H) (i_bb_vvvv H).
Definition trace_with (d : dims) (K : ints) (g : rdms) : R :=
  sum2 (noa d) (noa d) (fun p q => i_a_oo K p q * g_a_oo g q p) + sum2 (noa d) (nua d) (fun p q => i_a_ov K p q * g_a_vo g q p)
  + sum2 (nua d) (noa d) (fun p q => i_a_vo K p q * g_a_ov g q p) + sum2 (nua d) (nua d) (fun p q => i_a_vv K p q * g_a_vv g q p)
  + sum2 (nob d) (nob d) (fun p q => i_b_oo K p q * g_b_oo g q p) + sum2 (nob d) (nub d) (fun p q => i_b_ov K p q * g_b_vo g q p)
  + sum2 (nub d) (nob d) (fun p q => i_b_vo K p q * g_b_ov g q p) + sum2 (nub d) (nub d) (fun p q => i_b_vv K p q * g_b_vv g q p).
Definition ref_energy (d : dims) (K : ints) : R := sumn (noa d) (fun i => i_a_oo K i i) + sumn (nob d) (fun i => i_b_oo K i i).
Lemma ref_delta d K : ref_energy d K = sumn (noa d) (fun p => sumn (noa d) (fun q => i_a_oo K p q * delta q p)) + sumn (nob d) (fun p => sumn (nob d) (fun q => i_b_oo K p q * delta q p)).
Proof.
  assert (G : forall n f, sumn n (fun i => f i i) = sumn n (fun p => sumn n (fun q => f p q * delta q p))).
  { intros n f. apply sumn_ext. intros p Hp. rewrite (sumn_ext n _ (fun q => if Nat.eqb q p then f p q else 0)).
    - symmetry. now apply (sumn_delta_f n p (fun q => f p q)).
    - intros q _. unfold delta. destruct (Nat.eqb q p); ring. }
  unfold ref_energy. now rewrite !G.
Qed.
Lemma rdm_line d H K T L t k l : tenv (rdm_arrays d (add_one_body H K t) K T L) k l =
  tenv (rdm_arrays d H K T L) k l + t * match rdm_dm k with Some k' => tenv (rdm_arrays d H K T L) k' l | None => 0 end.
Proof.
  do 80 (destruct k as [|k]; [cbn; repeat (destruct l as [|? l]; cbn; try ring)|]).
  all: cbn; rewrite ?nth_overflow by (simpl; lia); ring.
Qed.
(** The derivative of reference energy + correlation energy + <L, residual> with respect to a one-body perturbation is the trace of the perturbation with
    the density matrix: for converged T and Lambda this is the derivative of the energy, so the density gives all one-electron properties *)
Theorem C40_response d H K T L : antisym_ints H -> antisym_amps T -> antisym_amps L ->
  derivable_pt_lim (fun t => t * ref_energy d K + (cc_energy d (add_one_body H K t) T + dot2 d L (ccsd_resid d (add_one_body H K t) T))) 0
                   (trace_with d K (calc_rdm1_ccsd d T L)).
Proof.
  intros HH HT HL. eapply dlim_eq.
  - apply derivable_pt_lim_plus.
    + apply (derivable_pt_lim_mult (fun t => t) (fun _ => ref_energy d K)); [apply derivable_pt_lim_id|apply derivable_pt_lim_const].
    + exact (dex_ok (denv [noa d; nua d; nob d; nub d]) rdm_dm (fun t => tenv (rdm_arrays d (add_one_body H K t) K (no_triples T) (no_triples L)))
               (tenv (rdm_arrays d H K (no_triples T) (no_triples L))) (rdm_line d H K (no_triples T) (no_triples L)) (r_lag 0) (venv [])).
  - rewrite Rmult_1_l, Rmult_0_r, Rplus_0_r, ref_delta.
    change (rden d H K (no_triples T) (no_triples L) (EAdd (r_ref 0) (oex (dex rdm_dm (r_lag 0)))) (venv [])
          = rden d H K (no_triples T) (no_triples L) (r_tr_K 0) (venv [])).
    apply (same_tab_sound _ _ rdm_gens (length (rdm_arrays d H K (no_triples T) (no_triples L))) rdm_tab (fun x => x) [0; 1; 2; 3]%nat);
      [vm_compute; reflexivity|reflexivity|apply rdm_syms; auto using no_triples_antisym, no_triples_doubles|vm_compute; reflexivity].
Qed.

(** Closed shells: the alpha and beta densities are the same matrix *)
Lemma rdmc_syms d H K T L : antisym_ints H -> closed_ints H -> closed_ints K -> antisym_amps T -> antisym_amps L -> antisym_triples T -> antisym_triples L ->
  closed_amps T -> closed_amps L -> closed_triples T -> closed_triples L ->
  Forall (fun g => okalt (tenv (rdmc_arrays d H K T L)) (fst g) (snd g)) rdmc_gens.
Proof. intros HH CH CK HT HL TT TL CT CL DT DL. sym_all. Qed.
Record same_spin_density (g : rdms) : Prop := {
  ss_oo : forall p q, g_b_oo g p q = g_a_oo g p q; ss_ov : forall p q, g_b_ov g p q = g_a_ov g p q;
  ss_vo : forall p q, g_b_vo g p q = g_a_vo g p q; ss_vv : forall p q, g_b_vv g p q = g_a_vv g p q }.
Theorem C40_closed_shell d T L : noa d = nob d -> nua d = nub d -> antisym_amps T -> antisym_amps L -> antisym_triples T -> antisym_triples L ->
  closed_amps T -> closed_amps L -> closed_triples T -> closed_triples L ->
  same_spin_density (calc_rdm1_ccsd d T L) /\ same_spin_density (calc_rdm1_ccsdt d T L).
Proof.
  intros En Em HT HL TT TL CT CL DT DL.
  assert (S : forall e1 e2 p q, same_tab rdmc_tab dfold [0; 1]%nat e1 e2 = true ->
     den (denv [noa d; nua d; nob d; nub d]) (tenv (rdmc_arrays d zints zints T L)) e1 (venv [p; q])
   = den (denv [noa d; nua d; nob d; nub d]) (tenv (rdmc_arrays d zints zints T L)) e2 (venv [p; q])).
  { intros e1 e2 p q E. apply (same_tab_sound _ _ rdmc_gens (length (rdmc_arrays d zints zints T L)) rdmc_tab dfold [0; 1]%nat);
      [vm_compute; reflexivity|now apply dfold_ok| |exact E]. apply rdmc_syms; auto; constructor; intros; cbn; ring. }
  split; constructor; intros p q.
  - apply (S rr_b_oo rr_a_oo). vm_compute. reflexivity.
  - apply (S rr_b_ov rr_a_ov). vm_compute. reflexivity.
  - apply (S rr_b_vo rr_a_vo). vm_compute. reflexivity.
  - apply (S rr_b_vv rr_a_vv). vm_compute. reflexivity.
  - apply (S rt_b_oo rt_a_oo). vm_compute. reflexivity.
  - apply (S rt_b_ov rt_a_ov). vm_compute. reflexivity.
  - apply (S rt_b_vo rt_a_vo). vm_compute. reflexivity.
  - apply (S rt_b_vv rt_a_vv). vm_compute. reflexivity.
Qed.

(** Instances: amplitudes meeting every hypothesis, with a non-zero correction to the occupied block *)
Example C40_instance f g : let T := no_triples (prod_amps f g) in
  antisym_amps T /\ antisym_triples T /\ closed_amps T /\ closed_triples T.
Proof.
  intros T. destruct (prod_amps_closed f g). split; [apply no_triples_doubles, prod_amps_antisym|split; [apply no_triples_antisym|split; constructor; auto]]; reflexivity.
Qed.
Example C40_instance_value : let d := mkDims 1 1 1 1 in let T := no_triples (prod_amps (fun _ _ => 1) (fun _ _ => 1)) in
  g_a_oo (calc_rdm1_ccsd d T T) 0%nat 0%nat = -4 /\ g_a_vv (calc_rdm1_ccsd d T T) 0%nat 0%nat = 5 /\ g_a_vo (calc_rdm1_ccsd d T T) 0%nat 0%nat = -6.
Proof. cbv -[IZR Rplus Rmult Rminus Ropp Rdiv Rinv]. repeat split; lra. Qed.

Print Assumptions C40_trace_ccsd.
Print Assumptions C40_trace_ccsdt.
Print Assumptions C40_response.
Print Assumptions C40_closed_shell.
