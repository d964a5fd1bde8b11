(** C80, closed shells: the branch of CR-CC(2,3) that computes only two of the four spin cases. *)
From Coq Require Import Reals Arith List Lia Lra.
From Verif Require Import RSum IntegralsModel TensorObjs TensorAlg TensorSpec TensorClosed IntsFix CcsdModel CcsdUpdate CcsdProps RhfProps CrccModel CrccSpec CrccLoop CrccRhf.
Import ListNotations.
Local Open Scope R_scope.
Section C.
Variables (d : dims) (H0 H : ints) (T L : amps).
Hypothesis En : noa d = nob d.
Hypothesis Em : nua d = nub d.
Lemma re_aab F : slist (f6 (fun a b c i j k => F b c a j k i)) (crcc_loop_abb d) = slist (f6 F) (crcc_loop_aab d).
Proof.
  rewrite loop_abb, loop_aab, <- En, <- Em. rewrite lt2_out. apply lt2_ext; intros a b _ _ _. apply sumn_ext; intros c _. apply lt2_out.
Qed.
Lemma re_bbb F : slist (f6 F) (crcc_loop_bbb d) = slist (f6 F) (crcc_loop_aaa d).
Proof. now rewrite loop_bbb, loop_aaa, <- En, <- Em. Qed.
Hypothesis HH : antisym_ints H.
Hypothesis CH : closed_ints H.
Hypothesis C0 : closed_ints H0.
Hypothesis HT : antisym_amps T.
Hypothesis HL : antisym_amps L.
Hypothesis CT : closed_amps T.
Hypothesis CL : closed_amps L.
Lemma mld_ext M L0 D M' L' D' l : (forall a b c i j k, M a b c i j k = M' a b c i j k) -> (forall a b c i j k, L0 a b c i j k = L' a b c i j k) -> (forall a b c i j k, D a b c i j k = D' a b c i j k) ->
  slist (f6 (mld M L0 D)) l = slist (f6 (mld M' L' D')) l.
Proof. intros E1 E2 E3. apply slist_ext. intros [[[[[a b] c] i] j] k]. unfold f6, mld. now rewrite E1, E2, E3. Qed.
Lemma same_abb : crcc23C_opt d H0 H T L = crcc23B_opt d H0 H T L.
Proof.
  unfold crcc23B_opt, crcc23C_opt. rewrite !opt_fold, <- !re_aab.
  assert (K : forall D D' : mat6, (forall a b c i j k, D a b c i j k = D' b c a j k i) -> slist (f6 (mld (crcc_M_abb d H0 H T L) (crcc_L_abb d H0 H T L) D)) (crcc_loop_abb d) = slist (f6 (fun a b c i j k => mld (crcc_M_aab d H0 H T L) (crcc_L_aab d H0 H T L) D' b c a j k i)) (crcc_loop_abb d)).
  { intros D D' E. apply (mld_ext _ _ _ (fun a b c i j k => crcc_M_aab d H0 H T L b c a j k i) (fun a b c i j k => crcc_L_aab d H0 H T L b c a j k i) (fun a b c i j k => D' b c a j k i)); intros; [now apply fl_M_abb|now apply fl_L_abb|apply E]. }
  rewrite (K _ (crcc_DA_aab d H0 H T L)), (K _ (crcc_DB_aab d H0 H T L)), (K _ (crcc_DC_aab d H0 H T L)), (K _ (crcc_DD_aab d H0 H T L)); [reflexivity|intros; now apply fl_DD_abb|intros; now apply fl_DC_abb|intros; now apply fl_DB_abb|intros; now apply fl_DA_abb].
Qed.
Lemma same_bbb : crcc23D_opt d H0 H T L = crcc23A_opt d H0 H T L.
Proof.
  unfold crcc23D_opt, crcc23A_opt. rewrite !opt_fold, !re_bbb.
  assert (K : forall D D' : mat6, (forall a b c i j k, D a b c i j k = D' a b c i j k) -> slist (f6 (mld (crcc_M_bbb d H0 H T L) (crcc_L_bbb d H0 H T L) D)) (crcc_loop_aaa d) = slist (f6 (mld (crcc_M_aaa d H0 H T L) (crcc_L_aaa d H0 H T L) D')) (crcc_loop_aaa d)).
  { intros D D' E. apply mld_ext; intros; [now apply fl_M_bbb|now apply fl_L_bbb|apply E]. }
  rewrite (K _ (crcc_DA_aaa d H0 H T L)), (K _ (crcc_DB_aaa d H0 H T L)), (K _ (crcc_DC_aaa d H0 H T L)), (K _ (crcc_DD_aaa d H0 H T L)); [reflexivity|intros; now apply fl_DD_bbb|intros; now apply fl_DC_bbb|intros; now apply fl_DB_bbb|intros; now apply fl_DA_bbb].
Qed.
Lemma quad_eq (a b c e a' b' c' e' : R) : a = a' -> b = b' -> c = c' -> e = e' -> (a, b, c, e) = (a', b', c', e').
Proof. intros. now subst. Qed.
Lemma twice : calc_crcc23_delta d H0 H T L true = calc_crcc23_delta d H0 H T L false.
Proof.
  unfold calc_crcc23_delta. rewrite same_abb, same_bbb. destruct (crcc23A_opt d H0 H T L) as [[[? ?] ?] ?], (crcc23B_opt d H0 H T L) as [[[? ?] ?] ?]. unfold quad_add, quad_scale. apply quad_eq; ring.
Qed.
End C.
(** For a closed-shell Hamiltonian and singlet amplitudes, setting use_RHF changes none of the four energies: with C80_correction, the closed-shell branch returns the exact formula too. *)
Theorem C80_closed_shell d H T L e c : closed_shell d H -> singlet T -> singlet L ->
  calc_crcc23 d H (hbar_ccsd d H T) T L e c true = calc_crcc23 d H (hbar_ccsd d H T) T L e c false.
Proof.
  intros HH HT HL. unfold calc_crcc23. destruct (C52_hbar_closed d H T HH HT) as [En Em HA HC].
  change (calc_crcc23_delta d H (hbar_ccsd d H T) T L true) with (calc_crcc23_delta d H (fix_ints (hbar_ccsd d H T)) T L true). rewrite twice; try assumption; [reflexivity|apply HH|apply HT|apply HL|apply HT|apply HL].
Qed.
Example C80_closed_instance v : (forall p q r s, v p q r s = v q p s r) ->
  let d := mkDims 2 3 2 3 in let T := prod_amps (fun p q => INR (p + 2 * q)) (fun p q => INR (p * q)) in
  closed_shell d (two_level d v) /\ singlet T /\ x_ab T 1%nat 2%nat 1%nat 1%nat <> 0.
Proof. intros Hv d T. destruct (C52_instance v Hv) as (A & B & _ & D). now split. Qed.
