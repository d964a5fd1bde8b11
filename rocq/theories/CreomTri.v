(** CR-EOMCC(2,3): the moments and the left amplitudes of the four spin cases (proof support). *)
From Coq Require Import Reals Arith NArith QArith List Bool Lia Lra FunctionalExtensionality.
From Verif Require Import RSum IntegralsModel TensorObjs TensorAlg TensorSpec TensorClosed IntsFix CcsdModel CcsdUpdate CcsdProps RhfProps FockSpec FockCcSpec FockExp FockLevel FockState FockSectorSpec FockProj FockShift SdtSpec SdtFlat SdtState
  FockEom FockEomProj FockProps CrccModel CrccSpec CrccLoop CrccPoly CrccKet CrccBra CrccProps CrccRhf CrccClosed PtSpec CreomModel CreomDeriv CreomFock CreomSpec.
Import ListNotations.
Local Open Scope R_scope.
Lemma smooth_bra3 d a b c i j k (psi : R -> state) psi' : (forall D, dl (fun t => psi t D) (psi' D)) -> dl (fun t => bra3 d a b c i j k (psi t)) (bra3 d a b c i j k psi').
Proof.
  intros H. unfold bra3. apply (smooth_cre i (fun t => cre j (cre k (ann c (ann b (ann a (psi t))))))). apply (smooth_cre j (fun t => cre k (ann c (ann b (ann a (psi t)))))).
  apply (smooth_cre k (fun t => ann c (ann b (ann a (psi t))))). apply (smooth_ann c (fun t => ann b (ann a (psi t)))). apply (smooth_ann b (fun t => ann a (psi t))). now apply smooth_ann.
Qed.
Lemma bra3_lin d a b c i j k x f y g : bra3 d a b c i j k (fun D => x * f D + y * g D) = x * bra3 d a b c i j k f + y * bra3 d a b c i j k g.
Proof. unfold bra3. now rewrite !(ann_linear _ x f y g), !(ann_linear _ x _ y _), !(cre_linear _ x _ y _). Qed.
Section M.
Variables (d : dims) (n m : nat) (I : integrals) (T Y L : amps) (H0 : ints).
Hypothesis En : (noa d + nua d = n)%nat.
Hypothesis En' : (nob d + nub d = n)%nat.
Hypothesis HI : exchangeable I.
Hypothesis HT : antisym_amps T.
Hypothesis HY : antisym_amps Y.
Hypothesis HL : antisym_amps L.
Hypothesis Hm : (noa d + nob d + 4 <= m)%nat.
Notation H := (fock_ints (noa d) (nob d) I).
Notation HB := (hbar_ccsd d H T).
Notation ref := (pure (reference (noa d) (nob d))).
Notation HR := (similar d n m I T (cluster_sd d Y ref)).
Notation RH := (cluster_sd d Y (similar d n m I T ref)).
Notation E := (scf_energy (noa d) (nob d) I + cc_energy d H T).
Let HH : antisym_ints H := fock_ints_antisym _ _ _ HI.
Lemma n_aaa a b c i j k : (a < nua d)%nat -> (b < nua d)%nat -> (c < nua d)%nat -> (i < noa d)%nat -> (j < noa d)%nat -> (k < noa d)%nat -> creom_N_aaa d H0 HB T Y L a b c i j k = bra3 d (va d a) (va d b) (va d c) (oa i) (oa j) (oa k) HR - bra3 d (va d a) (va d b) (va d c) (oa i) (oa j) (oa k) RH.
Proof.
  intros Ha Hb Hc Hi Hj Hk. apply (uniqueness_limite (fun t => creom_M_aaa d H0 (hbar_ccsd d H (amps_line T Y t)) (amps_line T Y t) Y L a b c i j k) 0); [now apply dn_aaa|].
  eapply dl_ext; [intros t; change (creom_M_aaa d H0 (hbar_ccsd d H (amps_line T Y t)) (amps_line T Y t) Y L a b c i j k) with (crcc_M_aaa d H0 (hbar_ccsd d H (amps_line T Y t)) (amps_line T Y t) L a b c i j k);
    apply (f_M_aaa d I (amps_line T Y t) L H0 n (S m) En En' HI (antisym_line T Y t HT HY) HL ltac:(lia) a b c i j k); assumption|].
  replace (bra3 d (va d a) (va d b) (va d c) (oa i) (oa j) (oa k) HR - bra3 d (va d a) (va d b) (va d c) (oa i) (oa j) (oa k) RH) with (bra3 d (va d a) (va d b) (va d c) (oa i) (oa j) (oa k) (fun D => HR D - RH D)).
  - apply (smooth_bra3 d (va d a) (va d b) (va d c) (oa i) (oa j) (oa k) (fun t => similar d n (S m) I (amps_line T Y t) ref)). intros D. apply d_similar. lia.
  - replace (fun D => HR D - RH D) with (fun D => 1 * HR D + -1 * RH D) by (apply ext_state; intros; ring). rewrite bra3_lin. ring.
Qed.
Lemma n_aab a b c i j k : (a < nua d)%nat -> (b < nua d)%nat -> (c < nub d)%nat -> (i < noa d)%nat -> (j < noa d)%nat -> (k < nob d)%nat -> creom_N_aab d H0 HB T Y L a b c i j k = bra3 d (va d a) (va d b) (vb d c) (oa i) (oa j) (ob k) HR - bra3 d (va d a) (va d b) (vb d c) (oa i) (oa j) (ob k) RH.
Proof.
  intros Ha Hb Hc Hi Hj Hk. apply (uniqueness_limite (fun t => creom_M_aab d H0 (hbar_ccsd d H (amps_line T Y t)) (amps_line T Y t) Y L a b c i j k) 0); [now apply dn_aab|].
  eapply dl_ext; [intros t; change (creom_M_aab d H0 (hbar_ccsd d H (amps_line T Y t)) (amps_line T Y t) Y L a b c i j k) with (crcc_M_aab d H0 (hbar_ccsd d H (amps_line T Y t)) (amps_line T Y t) L a b c i j k);
    apply (f_M_aab d I (amps_line T Y t) L H0 n (S m) En En' HI (antisym_line T Y t HT HY) HL ltac:(lia) a b c i j k); assumption|].
  replace (bra3 d (va d a) (va d b) (vb d c) (oa i) (oa j) (ob k) HR - bra3 d (va d a) (va d b) (vb d c) (oa i) (oa j) (ob k) RH) with (bra3 d (va d a) (va d b) (vb d c) (oa i) (oa j) (ob k) (fun D => HR D - RH D)).
  - apply (smooth_bra3 d (va d a) (va d b) (vb d c) (oa i) (oa j) (ob k) (fun t => similar d n (S m) I (amps_line T Y t) ref)). intros D. apply d_similar. lia.
  - replace (fun D => HR D - RH D) with (fun D => 1 * HR D + -1 * RH D) by (apply ext_state; intros; ring). rewrite bra3_lin. ring.
Qed.
Lemma n_abb a b c i j k : (a < nua d)%nat -> (b < nub d)%nat -> (c < nub d)%nat -> (i < noa d)%nat -> (j < nob d)%nat -> (k < nob d)%nat -> creom_N_abb d H0 HB T Y L a b c i j k = bra3 d (va d a) (vb d b) (vb d c) (oa i) (ob j) (ob k) HR - bra3 d (va d a) (vb d b) (vb d c) (oa i) (ob j) (ob k) RH.
Proof.
  intros Ha Hb Hc Hi Hj Hk. apply (uniqueness_limite (fun t => creom_M_abb d H0 (hbar_ccsd d H (amps_line T Y t)) (amps_line T Y t) Y L a b c i j k) 0); [now apply dn_abb|].
  eapply dl_ext; [intros t; change (creom_M_abb d H0 (hbar_ccsd d H (amps_line T Y t)) (amps_line T Y t) Y L a b c i j k) with (crcc_M_abb d H0 (hbar_ccsd d H (amps_line T Y t)) (amps_line T Y t) L a b c i j k);
    apply (f_M_abb d I (amps_line T Y t) L H0 n (S m) En En' HI (antisym_line T Y t HT HY) HL ltac:(lia) a b c i j k); assumption|].
  replace (bra3 d (va d a) (vb d b) (vb d c) (oa i) (ob j) (ob k) HR - bra3 d (va d a) (vb d b) (vb d c) (oa i) (ob j) (ob k) RH) with (bra3 d (va d a) (vb d b) (vb d c) (oa i) (ob j) (ob k) (fun D => HR D - RH D)).
  - apply (smooth_bra3 d (va d a) (vb d b) (vb d c) (oa i) (ob j) (ob k) (fun t => similar d n (S m) I (amps_line T Y t) ref)). intros D. apply d_similar. lia.
  - replace (fun D => HR D - RH D) with (fun D => 1 * HR D + -1 * RH D) by (apply ext_state; intros; ring). rewrite bra3_lin. ring.
Qed.
Lemma n_bbb a b c i j k : (a < nub d)%nat -> (b < nub d)%nat -> (c < nub d)%nat -> (i < nob d)%nat -> (j < nob d)%nat -> (k < nob d)%nat -> creom_N_bbb d H0 HB T Y L a b c i j k = bra3 d (vb d a) (vb d b) (vb d c) (ob i) (ob j) (ob k) HR - bra3 d (vb d a) (vb d b) (vb d c) (ob i) (ob j) (ob k) RH.
Proof.
  intros Ha Hb Hc Hi Hj Hk. apply (uniqueness_limite (fun t => creom_M_bbb d H0 (hbar_ccsd d H (amps_line T Y t)) (amps_line T Y t) Y L a b c i j k) 0); [now apply dn_bbb|].
  eapply dl_ext; [intros t; change (creom_M_bbb d H0 (hbar_ccsd d H (amps_line T Y t)) (amps_line T Y t) Y L a b c i j k) with (crcc_M_bbb d H0 (hbar_ccsd d H (amps_line T Y t)) (amps_line T Y t) L a b c i j k);
    apply (f_M_bbb d I (amps_line T Y t) L H0 n (S m) En En' HI (antisym_line T Y t HT HY) HL ltac:(lia) a b c i j k); assumption|].
  replace (bra3 d (vb d a) (vb d b) (vb d c) (ob i) (ob j) (ob k) HR - bra3 d (vb d a) (vb d b) (vb d c) (ob i) (ob j) (ob k) RH) with (bra3 d (vb d a) (vb d b) (vb d c) (ob i) (ob j) (ob k) (fun D => HR D - RH D)).
  - apply (smooth_bra3 d (vb d a) (vb d b) (vb d c) (ob i) (ob j) (ob k) (fun t => similar d n (S m) I (amps_line T Y t) ref)). intros D. apply d_similar. lia.
  - replace (fun D => HR D - RH D) with (fun D => 1 * HR D + -1 * RH D) by (apply ext_state; intros; ring). rewrite bra3_lin. ring.
Qed.
Hypothesis HC : same_amps d (ccsd_resid d H T) zero_amps.
Lemma only_sd : cluster_sd d Y ref = cluster_sdt d (plain Y) ref.
Proof. apply ext_state; intros D. unfold cluster_sdt. rewrite plain_none. change (cluster_sd d (plain Y)) with (cluster_sd d Y). ring. Qed.
Lemma rh_aaa a b c i j k : (a < nua d)%nat -> (b < nua d)%nat -> (c < nua d)%nat -> (i < noa d)%nat -> (j < noa d)%nat -> (k < noa d)%nat -> bra3 d (va d a) (va d b) (va d c) (oa i) (oa j) (oa k) RH = 0.
Proof.
  intros Ha Hb Hc Hi Hj Hk. destruct (proj1 (sdt_flat d n _ En En') (no_back_raw d n En En' I T Y m HI HT Hm HC)) as (Q_ref & Q_a & Q_b & Q_aa & Q_ab & Q_bb & Q_aaa & Q_aab & Q_abb & Q_bbb).
  specialize (Q_aaa a b c i j k Ha Hb Hc Hi Hj Hk). change (bra3 d (va d a) (va d b) (va d c) (oa i) (oa j) (oa k) (fun D => RH D - E * cluster_sd d Y ref D) = 0) in Q_aaa.
  replace (fun D => RH D - E * cluster_sd d Y ref D) with (fun D => 1 * RH D + - E * cluster_sd d Y ref D) in Q_aaa by (apply ext_state; intros; ring). rewrite bra3_lin in Q_aaa.
  assert (Z : bra3 d (va d a) (va d b) (va d c) (oa i) (oa j) (oa k) (cluster_sd d Y ref) = 0) by (rewrite only_sd; exact (c0_aaa d (plain Y) n En En' (plain_anti Y HY) (plain_tri Y) a b c i j k Ha Hb Hc Hi Hj Hk)).
  rewrite Z in Q_aaa. lra.
Qed.
Lemma mom_aaa r0 a b c i j k : (a < nua d)%nat -> (b < nua d)%nat -> (c < nua d)%nat -> (i < noa d)%nat -> (j < noa d)%nat -> (k < noa d)%nat -> r0 * creom_M_aaa d H0 HB T Y L a b c i j k + creom_N_aaa d H0 HB T Y L a b c i j k = eom_moment d n m I T Y r0 (va d a) (va d b) (va d c) (oa i) (oa j) (oa k).
Proof.
  intros Ha Hb Hc Hi Hj Hk. rewrite n_aaa, rh_aaa by assumption. change (creom_M_aaa d H0 HB T Y L a b c i j k) with (crcc_M_aaa d H0 HB T L a b c i j k).
  rewrite <- (f_M_aaa d I T L H0 n m En En' HI HT HL Hm a b c i j k) by assumption. unfold eom_moment.
  rewrite (lin_add _ (fun D => r0 * ref D) (cluster_sd d Y ref) (S_linear d I T n m)), (lin_scal _ r0 ref (S_linear d I T n m)).
  rewrite <- (Rmult_1_l (bra3 d (va d a) (va d b) (va d c) (oa i) (oa j) (oa k) HR)), Rminus_0_r, <- bra3_lin. f_equal. apply ext_state; intros; ring.
Qed.
Lemma left_aaa a b c i j k : (a < nua d)%nat -> (b < nua d)%nat -> (c < nua d)%nat -> (i < noa d)%nat -> (j < noa d)%nat -> (k < noa d)%nat -> creom_L_aaa d H0 HB T Y L a b c i j k = adjoint_sd d L (similar d n m I T (ket3 d (va d a) (va d b) (va d c) (oa i) (oa j) (oa k))).
Proof.
  intros Ha Hb Hc Hi Hj Hk. change (creom_L_aaa d H0 HB T Y L a b c i j k) with (crcc_L_aaa d H0 HB T L a b c i j k).
  unfold adjoint_sd. rewrite (f_L_aaa d I T L H0 n m En En' HI HT HL Hm a b c i j k) by assumption.
  rewrite (f_ket_aaa d a b c i j k) by assumption. rewrite t_ref by (try assumption; apply one_aaa_anti). ring.
Qed.
Lemma rh_aab a b c i j k : (a < nua d)%nat -> (b < nua d)%nat -> (c < nub d)%nat -> (i < noa d)%nat -> (j < noa d)%nat -> (k < nob d)%nat -> bra3 d (va d a) (va d b) (vb d c) (oa i) (oa j) (ob k) RH = 0.
Proof.
  intros Ha Hb Hc Hi Hj Hk. destruct (proj1 (sdt_flat d n _ En En') (no_back_raw d n En En' I T Y m HI HT Hm HC)) as (Q_ref & Q_a & Q_b & Q_aa & Q_ab & Q_bb & Q_aaa & Q_aab & Q_abb & Q_bbb).
  specialize (Q_aab a b c i j k Ha Hb Hc Hi Hj Hk). change (bra3 d (va d a) (va d b) (vb d c) (oa i) (oa j) (ob k) (fun D => RH D - E * cluster_sd d Y ref D) = 0) in Q_aab.
  replace (fun D => RH D - E * cluster_sd d Y ref D) with (fun D => 1 * RH D + - E * cluster_sd d Y ref D) in Q_aab by (apply ext_state; intros; ring). rewrite bra3_lin in Q_aab.
  assert (Z : bra3 d (va d a) (va d b) (vb d c) (oa i) (oa j) (ob k) (cluster_sd d Y ref) = 0) by (rewrite only_sd; exact (c0_aab d (plain Y) n En En' (plain_anti Y HY) (plain_tri Y) a b c i j k Ha Hb Hc Hi Hj Hk)).
  rewrite Z in Q_aab. lra.
Qed.
Lemma mom_aab r0 a b c i j k : (a < nua d)%nat -> (b < nua d)%nat -> (c < nub d)%nat -> (i < noa d)%nat -> (j < noa d)%nat -> (k < nob d)%nat -> r0 * creom_M_aab d H0 HB T Y L a b c i j k + creom_N_aab d H0 HB T Y L a b c i j k = eom_moment d n m I T Y r0 (va d a) (va d b) (vb d c) (oa i) (oa j) (ob k).
Proof.
  intros Ha Hb Hc Hi Hj Hk. rewrite n_aab, rh_aab by assumption. change (creom_M_aab d H0 HB T Y L a b c i j k) with (crcc_M_aab d H0 HB T L a b c i j k).
  rewrite <- (f_M_aab d I T L H0 n m En En' HI HT HL Hm a b c i j k) by assumption. unfold eom_moment.
  rewrite (lin_add _ (fun D => r0 * ref D) (cluster_sd d Y ref) (S_linear d I T n m)), (lin_scal _ r0 ref (S_linear d I T n m)).
  rewrite <- (Rmult_1_l (bra3 d (va d a) (va d b) (vb d c) (oa i) (oa j) (ob k) HR)), Rminus_0_r, <- bra3_lin. f_equal. apply ext_state; intros; ring.
Qed.
Lemma left_aab a b c i j k : (a < nua d)%nat -> (b < nua d)%nat -> (c < nub d)%nat -> (i < noa d)%nat -> (j < noa d)%nat -> (k < nob d)%nat -> creom_L_aab d H0 HB T Y L a b c i j k = adjoint_sd d L (similar d n m I T (ket3 d (va d a) (va d b) (vb d c) (oa i) (oa j) (ob k))).
Proof.
  intros Ha Hb Hc Hi Hj Hk. change (creom_L_aab d H0 HB T Y L a b c i j k) with (crcc_L_aab d H0 HB T L a b c i j k).
  unfold adjoint_sd. rewrite (f_L_aab d I T L H0 n m En En' HI HT HL Hm a b c i j k) by assumption.
  rewrite (f_ket_aab d a b c i j k) by assumption. rewrite t_ref by (try assumption; apply one_aab_anti). ring.
Qed.
Lemma rh_abb a b c i j k : (a < nua d)%nat -> (b < nub d)%nat -> (c < nub d)%nat -> (i < noa d)%nat -> (j < nob d)%nat -> (k < nob d)%nat -> bra3 d (va d a) (vb d b) (vb d c) (oa i) (ob j) (ob k) RH = 0.
Proof.
  intros Ha Hb Hc Hi Hj Hk. destruct (proj1 (sdt_flat d n _ En En') (no_back_raw d n En En' I T Y m HI HT Hm HC)) as (Q_ref & Q_a & Q_b & Q_aa & Q_ab & Q_bb & Q_aaa & Q_aab & Q_abb & Q_bbb).
  specialize (Q_abb a b c i j k Ha Hb Hc Hi Hj Hk). change (bra3 d (va d a) (vb d b) (vb d c) (oa i) (ob j) (ob k) (fun D => RH D - E * cluster_sd d Y ref D) = 0) in Q_abb.
  replace (fun D => RH D - E * cluster_sd d Y ref D) with (fun D => 1 * RH D + - E * cluster_sd d Y ref D) in Q_abb by (apply ext_state; intros; ring). rewrite bra3_lin in Q_abb.
  assert (Z : bra3 d (va d a) (vb d b) (vb d c) (oa i) (ob j) (ob k) (cluster_sd d Y ref) = 0) by (rewrite only_sd; exact (c0_abb d (plain Y) n En En' (plain_anti Y HY) (plain_tri Y) a b c i j k Ha Hb Hc Hi Hj Hk)).
  rewrite Z in Q_abb. lra.
Qed.
Lemma mom_abb r0 a b c i j k : (a < nua d)%nat -> (b < nub d)%nat -> (c < nub d)%nat -> (i < noa d)%nat -> (j < nob d)%nat -> (k < nob d)%nat -> r0 * creom_M_abb d H0 HB T Y L a b c i j k + creom_N_abb d H0 HB T Y L a b c i j k = eom_moment d n m I T Y r0 (va d a) (vb d b) (vb d c) (oa i) (ob j) (ob k).
Proof.
  intros Ha Hb Hc Hi Hj Hk. rewrite n_abb, rh_abb by assumption. change (creom_M_abb d H0 HB T Y L a b c i j k) with (crcc_M_abb d H0 HB T L a b c i j k).
  rewrite <- (f_M_abb d I T L H0 n m En En' HI HT HL Hm a b c i j k) by assumption. unfold eom_moment.
  rewrite (lin_add _ (fun D => r0 * ref D) (cluster_sd d Y ref) (S_linear d I T n m)), (lin_scal _ r0 ref (S_linear d I T n m)).
  rewrite <- (Rmult_1_l (bra3 d (va d a) (vb d b) (vb d c) (oa i) (ob j) (ob k) HR)), Rminus_0_r, <- bra3_lin. f_equal. apply ext_state; intros; ring.
Qed.
Lemma left_abb a b c i j k : (a < nua d)%nat -> (b < nub d)%nat -> (c < nub d)%nat -> (i < noa d)%nat -> (j < nob d)%nat -> (k < nob d)%nat -> creom_L_abb d H0 HB T Y L a b c i j k = adjoint_sd d L (similar d n m I T (ket3 d (va d a) (vb d b) (vb d c) (oa i) (ob j) (ob k))).
Proof.
  intros Ha Hb Hc Hi Hj Hk. change (creom_L_abb d H0 HB T Y L a b c i j k) with (crcc_L_abb d H0 HB T L a b c i j k).
  unfold adjoint_sd. rewrite (f_L_abb d I T L H0 n m En En' HI HT HL Hm a b c i j k) by assumption.
  rewrite (f_ket_abb d a b c i j k) by assumption. rewrite t_ref by (try assumption; apply one_abb_anti). ring.
Qed.
Lemma rh_bbb a b c i j k : (a < nub d)%nat -> (b < nub d)%nat -> (c < nub d)%nat -> (i < nob d)%nat -> (j < nob d)%nat -> (k < nob d)%nat -> bra3 d (vb d a) (vb d b) (vb d c) (ob i) (ob j) (ob k) RH = 0.
Proof.
  intros Ha Hb Hc Hi Hj Hk. destruct (proj1 (sdt_flat d n _ En En') (no_back_raw d n En En' I T Y m HI HT Hm HC)) as (Q_ref & Q_a & Q_b & Q_aa & Q_ab & Q_bb & Q_aaa & Q_aab & Q_abb & Q_bbb).
  specialize (Q_bbb a b c i j k Ha Hb Hc Hi Hj Hk). change (bra3 d (vb d a) (vb d b) (vb d c) (ob i) (ob j) (ob k) (fun D => RH D - E * cluster_sd d Y ref D) = 0) in Q_bbb.
  replace (fun D => RH D - E * cluster_sd d Y ref D) with (fun D => 1 * RH D + - E * cluster_sd d Y ref D) in Q_bbb by (apply ext_state; intros; ring). rewrite bra3_lin in Q_bbb.
  assert (Z : bra3 d (vb d a) (vb d b) (vb d c) (ob i) (ob j) (ob k) (cluster_sd d Y ref) = 0) by (rewrite only_sd; exact (c0_bbb d (plain Y) n En En' (plain_anti Y HY) (plain_tri Y) a b c i j k Ha Hb Hc Hi Hj Hk)).
  rewrite Z in Q_bbb. lra.
Qed.
Lemma mom_bbb r0 a b c i j k : (a < nub d)%nat -> (b < nub d)%nat -> (c < nub d)%nat -> (i < nob d)%nat -> (j < nob d)%nat -> (k < nob d)%nat -> r0 * creom_M_bbb d H0 HB T Y L a b c i j k + creom_N_bbb d H0 HB T Y L a b c i j k = eom_moment d n m I T Y r0 (vb d a) (vb d b) (vb d c) (ob i) (ob j) (ob k).
Proof.
  intros Ha Hb Hc Hi Hj Hk. rewrite n_bbb, rh_bbb by assumption. change (creom_M_bbb d H0 HB T Y L a b c i j k) with (crcc_M_bbb d H0 HB T L a b c i j k).
  rewrite <- (f_M_bbb d I T L H0 n m En En' HI HT HL Hm a b c i j k) by assumption. unfold eom_moment.
  rewrite (lin_add _ (fun D => r0 * ref D) (cluster_sd d Y ref) (S_linear d I T n m)), (lin_scal _ r0 ref (S_linear d I T n m)).
  rewrite <- (Rmult_1_l (bra3 d (vb d a) (vb d b) (vb d c) (ob i) (ob j) (ob k) HR)), Rminus_0_r, <- bra3_lin. f_equal. apply ext_state; intros; ring.
Qed.
Lemma left_bbb a b c i j k : (a < nub d)%nat -> (b < nub d)%nat -> (c < nub d)%nat -> (i < nob d)%nat -> (j < nob d)%nat -> (k < nob d)%nat -> creom_L_bbb d H0 HB T Y L a b c i j k = adjoint_sd d L (similar d n m I T (ket3 d (vb d a) (vb d b) (vb d c) (ob i) (ob j) (ob k))).
Proof.
  intros Ha Hb Hc Hi Hj Hk. change (creom_L_bbb d H0 HB T Y L a b c i j k) with (crcc_L_bbb d H0 HB T L a b c i j k).
  unfold adjoint_sd. rewrite (f_L_bbb d I T L H0 n m En En' HI HT HL Hm a b c i j k) by assumption.
  rewrite (f_ket_bbb d a b c i j k) by assumption. rewrite t_ref by (try assumption; apply one_bbb_anti). ring.
Qed.
End M.
