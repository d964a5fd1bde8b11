(** C52: the closed-shell shortcut (flag_RHF). *)
From Coq Require Import Reals Arith List Lra Lia FunctionalExtensionality.
From Verif Require Import RSum IntegralsModel TensorObjs TensorAlg TensorDeriv TensorSpec TensorClosed EomModel LoopModel LoopProofs CcsdModel CcsdUpdate LeftModel IntsFix EomProps CcsdProps RhfModel RhfReify RhfUpdate.
Import ListNotations.
Open Scope R_scope.

Notation rfden d H T Y := (den (denv [noa d; nua d; nob d; nub d]) (tenv (rhf_arrays d H T Y))).
Lemma rhf_syms d H T Y : antisym_ints H -> closed_ints H -> antisym_amps T -> antisym_amps Y -> closed_amps T -> closed_amps Y ->
  Forall (fun g => okalt (tenv (rhf_arrays d H T Y)) (fst g) (snd g)) rhf_gens.
Proof. intros HH CH HT HY CT CY. sym_all. Qed.
Lemma rhf_same d H T Y e1 e2 v : noa d = nob d -> nua d = nub d ->
  antisym_ints H -> closed_ints H -> antisym_amps T -> antisym_amps Y -> closed_amps T -> closed_amps Y ->
  same_tab rhf_tab dfold [0; 1]%nat e1 e2 = true -> rfden d H T Y e1 v = rfden d H T Y e2 v.
Proof.
  intros En Em HH CH HT HY CT CY E. apply (same_tab_sound _ _ rhf_gens (length (rhf_arrays d H T Y)) rhf_tab dfold [0; 1]%nat);
    [vm_compute; reflexivity|now apply dfold_ok|now apply rhf_syms|exact E].
Qed.

(** A closed-shell problem: same numbers of alpha and beta orbitals, spin-symmetric antisymmetric integrals *)
Record closed_shell (d : dims) (H : ints) : Prop := {
  cs_occ : noa d = nob d; cs_unocc : nua d = nub d; cs_anti : antisym_ints H; cs_spin : closed_ints H }.
(** Spin-symmetric antisymmetric amplitudes *)
Record singlet (T : amps) : Prop := { sg_anti : antisym_amps T; sg_spin : closed_amps T }.
(** All singles and doubles are the same *)
Record same_sd (X Y : amps) : Prop := {
  sd_a : forall a i, x_a X a i = x_a Y a i; sd_b : forall a i, x_b X a i = x_b Y a i;
  sd_aa : forall a b i j, x_aa X a b i j = x_aa Y a b i j; sd_ab : forall a b i j, x_ab X a b i j = x_ab Y a b i j;
  sd_bb : forall a b i j, x_bb X a b i j = x_bb Y a b i j }.

Section Closed.
Variables (d : dims) (H : ints) (T Y : amps).
Hypothesis HH : closed_shell d H.
Hypothesis HT : singlet T.
Hypothesis HY : singlet Y.
Lemma rs e1 e2 v : same_tab rhf_tab dfold [0; 1]%nat e1 e2 = true -> rfden d H T Y e1 v = rfden d H T Y e2 v.
Proof. destruct HH, HT, HY. now apply rhf_same. Qed.
Ltac by_tab p v := apply (rs (fst p) (snd p) v); vm_compute; reflexivity.
Lemma eq_ccsd_a a i : ccsd_res_a d H T T a i = rccsd_res_a d H T T a i. Proof. by_tab p_ccsd_a (venv [a; i]). Qed.
Lemma eq_ccsd_b a i : ccsd_res_b d H T T a i = rccsd_res_a d H T T a i. Proof. by_tab p_ccsd_b (venv [a; i]). Qed.
Lemma eq_ccsd_aa a b i j : four_term (ccsd_res_aa d H T T) a b i j = four_term (rccsd_res_aa d H T T) a b i j. Proof. by_tab p_ccsd_aa (venv [a; b; i; j]). Qed.
Lemma eq_ccsd_bb a b i j : four_term (ccsd_res_bb d H T T) a b i j = four_term (rccsd_res_aa d H T T) a b i j. Proof. by_tab p_ccsd_bb (venv [a; b; i; j]). Qed.
Lemma eq_ccsd_ab a b i j : ccsd_res_ab d H T T a b i j = rccsd_res_ab d H T T a b i j. Proof. by_tab p_ccsd_ab (venv [a; b; i; j]). Qed.
Lemma eq_ccd_aa a b i j : four_term (ccd_res_aa d H T T) a b i j = four_term (rccd_res_aa d H T T) a b i j. Proof. by_tab p_ccd_aa (venv [a; b; i; j]). Qed.
Lemma eq_ccd_bb a b i j : four_term (ccd_res_bb d H T T) a b i j = four_term (rccd_res_aa d H T T) a b i j. Proof. by_tab p_ccd_bb (venv [a; b; i; j]). Qed.
Lemma eq_ccd_ab a b i j : ccd_res_ab d H T T a b i j = rccd_res_ab d H T T a b i j. Proof. by_tab p_ccd_ab (venv [a; b; i; j]). Qed.
Lemma eq_HR : same_sd (reom_HR d H T Y) (eom_HR d H T Y).
Proof.
  constructor; intros; symmetry.
  - by_tab p_HR_a (venv [a; i]). - by_tab p_HR_b (venv [a; i]).
  - by_tab p_HR_aa (venv [a; b; i; j]). - by_tab p_HR_ab (venv [a; b; i; j]). - by_tab p_HR_bb (venv [a; b; i; j]).
Qed.
Lemma eq_LH : same_sd (rleft_LH d H T Y) (left_LH d H T Y).
Proof.
  constructor; intros; symmetry.
  - by_tab p_LH_a (venv [a; i]). - by_tab p_LH_b (venv [a; i]).
  - by_tab p_LH_aa (venv [a; b; i; j]). - by_tab p_LH_ab (venv [a; b; i; j]). - by_tab p_LH_bb (venv [a; b; i; j]).
Qed.
End Closed.

Lemma fun2 (f g : mat2) : (forall a i, f a i = g a i) -> f = g.
Proof. intros E. do 2 (apply functional_extensionality; intros ?). apply E. Qed.
Lemma fun4 (f g : mat4) : (forall a b i j, f a b i j = g a b i j) -> f = g.
Proof. intros E. do 4 (apply functional_extensionality; intros ?). apply E. Qed.

(** * Ground state: converged amplitudes.  The restricted iteration leaves spin-symmetric amplitudes unchanged exactly when the unrestricted one does *)
Lemma rccsd_fixed d s H T : closed_shell d H -> singlet T -> regular d s H ->
  (same_amps d (rccsd_iter d s H T) T <-> same_amps d (ccsd_resid d H T) zero_amps).
Proof.
  intros HH HT [Da Db Daa Dab Dbb].
  assert (Ra := eq_ccsd_a d H T T HH HT HT). assert (Rb := eq_ccsd_b d H T T HH HT HT). assert (Raa := eq_ccsd_aa d H T T HH HT HT).
  assert (Rbb := eq_ccsd_bb d H T T HH HT HT). assert (Rab := eq_ccsd_ab d H T T HH HT HT).
  destruct HH as [En Em _ _], HT as [HA [Ca Caa _]]. destruct (antisym_anti4 T HA) as [Aaa Abb].
  assert (Sb : set_b T (x_a T) = T). { destruct T as [a b aa ab bb aaa aab abb bbb]. cbn in *. unfold set_b. cbn. now rewrite (fun2 b a Ca). }
  assert (Sbb : set_bb T (x_aa T) = T). { destruct T as [a b aa ab bb aaa aab abb bbb]. cbn in *. unfold set_bb. cbn. now rewrite (fun4 bb aa Caa). }
  split.
  - intros [Ea Eb Eaa Eab Ebb]. cbn [rccsd_iter set_a set_b set_aa set_ab set_bb x_a x_b x_aa x_ab x_bb] in Ea. apply upd_t1_id in Ea as Ia.
    unfold rccsd_iter in Eaa, Eab. rewrite Ia, set_a_id, Sb in Eaa, Eab.
    cbn [set_a set_b set_aa set_ab set_bb x_a x_b x_aa x_ab x_bb] in Eaa. apply upd_t2_id in Eaa as Iaa. rewrite Iaa, set_aa_id in Eab.
    cbn [set_a set_b set_aa set_ab set_bb x_a x_b x_aa x_ab x_bb] in Eab.
    assert (Za := proj1 (upd_t1_fix (noa d) (nua d) (x_a T) _ (i_a_oo H) (i_a_vv H) s Da) Ea).
    assert (Zaa := proj1 (upd_t2_fix (noa d) (nua d) (x_aa T) _ (i_a_oo H) (i_a_vv H) s Aaa Daa) Eaa).
    assert (Zab := proj1 (upd_t2b_fix (noa d) (nob d) (nua d) (nub d) (x_ab T) _ (i_a_oo H) (i_a_vv H) (i_b_oo H) (i_b_vv H) s Dab) Eab).
    constructor; cbn [ccsd_resid zero_amps x_a x_b x_aa x_ab x_bb]; intros.
    + rewrite Ra. now apply Za. + rewrite Rb. apply Za; congruence.
    + rewrite Raa. now apply Zaa. + rewrite Rab. now apply Zab. + rewrite Rbb. apply Zaa; congruence.
  - intros [Ea Eb Eaa Eab Ebb]. cbn [ccsd_resid zero_amps x_a x_b x_aa x_ab x_bb] in Ea, Eaa, Eab.
    assert (Ga := proj2 (upd_t1_fix (noa d) (nua d) (x_a T) (rccsd_res_a d H T T) (i_a_oo H) (i_a_vv H) s Da) (fun a i Ha Hi => eq_trans (eq_sym (Ra a i)) (Ea a i Ha Hi))).
    assert (Gaa := proj2 (upd_t2_fix (noa d) (nua d) (x_aa T) (rccsd_res_aa d H T T) (i_a_oo H) (i_a_vv H) s Aaa Daa)
       (fun a b i j Ha Hb Hi Hj => eq_trans (eq_sym (Raa a b i j)) (Eaa a b i j Ha Hb Hi Hj))).
    assert (Gab := proj2 (upd_t2b_fix (noa d) (nob d) (nua d) (nub d) (x_ab T) (rccsd_res_ab d H T T) (i_a_oo H) (i_a_vv H) (i_b_oo H) (i_b_vv H) s Dab)
       (fun a b i j Ha Hb Hi Hj => eq_trans (eq_sym (Rab a b i j)) (Eab a b i j Ha Hb Hi Hj))).
    assert (E : rccsd_iter d s H T = T).
    { unfold rccsd_iter. rewrite (upd_t1_id _ _ _ _ _ _ _ Ga), set_a_id, Sb, (upd_t2_id _ _ _ _ _ _ _ Gaa), set_aa_id, (upd_t2b_id _ _ _ _ _ _ _ _ _ _ _ Gab), set_ab_id. exact Sbb. }
    rewrite E. constructor; reflexivity.
Qed.
Theorem C52_ccsd_converged d s H T : closed_shell d H -> singlet T -> regular d s H ->
  (same_amps d (rccsd_iter d s H T) T <-> same_amps d (ccsd_iter d s H T) T).
Proof.
  intros HH HT HR. rewrite (rccsd_fixed d s H T HH HT HR). symmetry. apply C51_ccsd_fixed_point; [apply HT|exact HR].
Qed.

(** Doubles only *)
Definition same_doubles (d : dims) (X Y : amps) : Prop :=
  (forall a b i j, (a < nua d)%nat -> (b < nua d)%nat -> (i < noa d)%nat -> (j < noa d)%nat -> x_aa X a b i j = x_aa Y a b i j) /\
  (forall a b i j, (a < nua d)%nat -> (b < nub d)%nat -> (i < noa d)%nat -> (j < nob d)%nat -> x_ab X a b i j = x_ab Y a b i j) /\
  (forall a b i j, (a < nub d)%nat -> (b < nub d)%nat -> (i < nob d)%nat -> (j < nob d)%nat -> x_bb X a b i j = x_bb Y a b i j).
Theorem C52_ccd_converged d s H T : closed_shell d H -> singlet T -> regular d s H ->
  (same_doubles d (rccd_iter d s H T) T <-> same_doubles d (ccd_iter d s H T) T).
Proof.
  intros HH HT [_ _ Daa Dab Dbb].
  assert (Raa := eq_ccd_aa d H T T HH HT HT). assert (Rbb := eq_ccd_bb d H T T HH HT HT). assert (Rab := eq_ccd_ab d H T T HH HT HT).
  destruct HH as [En Em _ _], HT as [HA [Ca Caa _]]. destruct (antisym_anti4 T HA) as [Aaa Abb].
  assert (Sbb : set_bb T (x_aa T) = T). { destruct T as [a b aa ab bb aaa aab abb bbb]. cbn in *. unfold set_bb. cbn. now rewrite (fun4 bb aa Caa). }
  assert (F1 : forall X, (forall a b i j, (a < nua d)%nat -> (b < nua d)%nat -> (i < noa d)%nat -> (j < noa d)%nat -> four_term X a b i j = 0) ->
     fst (upd_t2 (noa d) (nua d) (x_aa T) X (i_a_oo H) (i_a_vv H) s) = x_aa T).
  { intros X E. apply upd_t2_id. now apply (upd_t2_fix (noa d) (nua d) (x_aa T) X (i_a_oo H) (i_a_vv H) s Aaa Daa). }
  assert (F2 : forall X, (forall a b i j, (a < nua d)%nat -> (b < nub d)%nat -> (i < noa d)%nat -> (j < nob d)%nat -> X a b i j = 0) ->
     fst (upd_t2b (noa d) (nob d) (nua d) (nub d) (x_ab T) X (i_a_oo H) (i_a_vv H) (i_b_oo H) (i_b_vv H) s) = x_ab T).
  { intros X E. apply upd_t2b_id. now apply (upd_t2b_fix (noa d) (nob d) (nua d) (nub d) (x_ab T) X (i_a_oo H) (i_a_vv H) (i_b_oo H) (i_b_vv H) s Dab). }
  assert (F3 : forall X, (forall a b i j, (a < nub d)%nat -> (b < nub d)%nat -> (i < nob d)%nat -> (j < nob d)%nat -> four_term X a b i j = 0) ->
     fst (upd_t2 (nob d) (nub d) (x_bb T) X (i_b_oo H) (i_b_vv H) s) = x_bb T).
  { intros X E. apply upd_t2_id. now apply (upd_t2_fix (nob d) (nub d) (x_bb T) X (i_b_oo H) (i_b_vv H) s Abb Dbb). }
  split; intros (Eaa & Eab & Ebb).
  - cbn [rccd_iter set_aa set_ab set_bb x_a x_b x_aa x_ab x_bb] in Eaa. apply upd_t2_id in Eaa as Iaa.
    unfold rccd_iter in Eab. rewrite Iaa, set_aa_id in Eab. cbn [set_aa set_ab set_bb x_a x_b x_aa x_ab x_bb] in Eab.
    assert (Zaa := proj1 (upd_t2_fix (noa d) (nua d) (x_aa T) _ (i_a_oo H) (i_a_vv H) s Aaa Daa) Eaa).
    assert (Zab := proj1 (upd_t2b_fix (noa d) (nob d) (nua d) (nub d) (x_ab T) _ (i_a_oo H) (i_a_vv H) (i_b_oo H) (i_b_vv H) s Dab) Eab).
    assert (E : ccd_iter d s H T = T).
    { unfold ccd_iter. rewrite F1 by (intros; rewrite Raa; now apply Zaa). rewrite set_aa_id, F2 by (intros; rewrite Rab; now apply Zab).
      rewrite set_ab_id, F3 by (intros; rewrite Rbb; apply Zaa; congruence). apply set_bb_id. }
    rewrite E. repeat split; reflexivity.
  - cbn [ccd_iter set_aa set_ab set_bb x_a x_b x_aa x_ab x_bb] in Eaa. apply upd_t2_id in Eaa as Iaa.
    unfold ccd_iter in Eab. rewrite Iaa, set_aa_id in Eab. cbn [set_aa set_ab set_bb x_a x_b x_aa x_ab x_bb] in Eab.
    assert (Zaa := proj1 (upd_t2_fix (noa d) (nua d) (x_aa T) _ (i_a_oo H) (i_a_vv H) s Aaa Daa) Eaa).
    assert (Zab := proj1 (upd_t2b_fix (noa d) (nob d) (nua d) (nub d) (x_ab T) _ (i_a_oo H) (i_a_vv H) (i_b_oo H) (i_b_vv H) s Dab) Eab).
    assert (E : rccd_iter d s H T = T).
    { unfold rccd_iter. rewrite F1 by (intros; rewrite <- Raa; now apply Zaa). rewrite set_aa_id, F2 by (intros; rewrite <- Rab; now apply Zab).
      rewrite set_ab_id. exact Sbb. }
    rewrite E. repeat split; reflexivity.
Qed.

(** * Similarity-transformed Hamiltonian: the same in every block *)
Section Hbar.
Variables (d : dims) (H : ints) (T : amps).
Hypothesis HH : closed_shell d H.
Hypothesis HT : singlet T.
Ltac by_tab2 p := let a := fresh in let i := fresh in apply fun2; intros a i; symmetry; apply (rs d H T T HH HT HT (fst p) (snd p) (venv [a; i])); vm_compute; reflexivity.
Ltac by_tab4 p := let a := fresh in let b := fresh in let i := fresh in let j := fresh in apply fun4; intros a b i j; symmetry; apply (rs d H T T HH HT HT (fst p) (snd p) (venv [a; b; i; j])); vm_compute; reflexivity.
Lemma hbe_a_oo : rhb_H_a_oo d H T = hb_H_a_oo d H T. Proof. by_tab2 p_hb_a_oo. Qed.
Lemma hbe_a_ov : rhb_H_a_ov d H T = hb_H_a_ov d H T. Proof. by_tab2 p_hb_a_ov. Qed.
Lemma hbe_a_vv : rhb_H_a_vv d H T = hb_H_a_vv d H T. Proof. by_tab2 p_hb_a_vv. Qed.
Lemma hbe_b_oo : rhb_H_b_oo d H T = hb_H_b_oo d H T. Proof. by_tab2 p_hb_b_oo. Qed.
Lemma hbe_b_ov : rhb_H_b_ov d H T = hb_H_b_ov d H T. Proof. by_tab2 p_hb_b_ov. Qed.
Lemma hbe_b_vv : rhb_H_b_vv d H T = hb_H_b_vv d H T. Proof. by_tab2 p_hb_b_vv. Qed.
Lemma hbe_aa_oooo : rhb_H_aa_oooo_1 d H T = hb_H_aa_oooo_1 d H T. Proof. by_tab4 p_hb_aa_oooo. Qed.
Lemma hbe_aa_ooov : rhb_H_aa_ooov d H T = hb_H_aa_ooov d H T. Proof. by_tab4 p_hb_aa_ooov. Qed.
Lemma hbe_aa_vooo : rhb_H_aa_vooo d H T = hb_H_aa_vooo d H T. Proof. by_tab4 p_hb_aa_vooo. Qed.
Lemma hbe_aa_voov : rhb_H_aa_voov d H T = hb_H_aa_voov d H T. Proof. by_tab4 p_hb_aa_voov. Qed.
Lemma hbe_aa_vovv : rhb_H_aa_vovv d H T = hb_H_aa_vovv d H T. Proof. by_tab4 p_hb_aa_vovv. Qed.
Lemma hbe_aa_vvov : rhb_H_aa_vvov_1 d H T = hb_H_aa_vvov_1 d H T. Proof. by_tab4 p_hb_aa_vvov. Qed.
Lemma hbe_aa_vvvv : rhb_H_aa_vvvv_1 d H T = hb_H_aa_vvvv_1 d H T. Proof. by_tab4 p_hb_aa_vvvv. Qed.
Lemma hbe_ab_oooo : rhb_H_ab_oooo d H T = hb_H_ab_oooo d H T. Proof. by_tab4 p_hb_ab_oooo. Qed.
Lemma hbe_ab_ooov : rhb_H_ab_ooov d H T = hb_H_ab_ooov d H T. Proof. by_tab4 p_hb_ab_ooov. Qed.
Lemma hbe_ab_oovo : rhb_H_ab_oovo d H T = hb_H_ab_oovo d H T. Proof. by_tab4 p_hb_ab_oovo. Qed.
Lemma hbe_ab_ovoo : rhb_H_ab_ovoo d H T = hb_H_ab_ovoo d H T. Proof. by_tab4 p_hb_ab_ovoo. Qed.
Lemma hbe_ab_ovov : rhb_H_ab_ovov d H T = hb_H_ab_ovov d H T. Proof. by_tab4 p_hb_ab_ovov. Qed.
Lemma hbe_ab_ovvo : rhb_H_ab_ovvo d H T = hb_H_ab_ovvo d H T. Proof. by_tab4 p_hb_ab_ovvo. Qed.
Lemma hbe_ab_ovvv : rhb_H_ab_ovvv d H T = hb_H_ab_ovvv d H T. Proof. by_tab4 p_hb_ab_ovvv. Qed.
Lemma hbe_ab_vooo : rhb_H_ab_vooo d H T = hb_H_ab_vooo d H T. Proof. by_tab4 p_hb_ab_vooo. Qed.
Lemma hbe_ab_voov : rhb_H_ab_voov d H T = hb_H_ab_voov d H T. Proof. by_tab4 p_hb_ab_voov. Qed.
Lemma hbe_ab_vovo : rhb_H_ab_vovo d H T = hb_H_ab_vovo d H T. Proof. by_tab4 p_hb_ab_vovo. Qed.
Lemma hbe_ab_vovv : rhb_H_ab_vovv d H T = hb_H_ab_vovv d H T. Proof. by_tab4 p_hb_ab_vovv. Qed.
Lemma hbe_ab_vvov : rhb_H_ab_vvov d H T = hb_H_ab_vvov d H T. Proof. by_tab4 p_hb_ab_vvov. Qed.
Lemma hbe_ab_vvvo : rhb_H_ab_vvvo d H T = hb_H_ab_vvvo d H T. Proof. by_tab4 p_hb_ab_vvvo. Qed.
Lemma hbe_ab_vvvv : rhb_H_ab_vvvv d H T = hb_H_ab_vvvv d H T. Proof. by_tab4 p_hb_ab_vvvv. Qed.
Lemma hbe_bb_oooo : rhb_H_aa_oooo_1 d H T = hb_H_bb_oooo_1 d H T. Proof. by_tab4 p_hb_bb_oooo. Qed.
Lemma hbe_bb_ooov : rhb_H_aa_ooov d H T = hb_H_bb_ooov d H T. Proof. by_tab4 p_hb_bb_ooov. Qed.
Lemma hbe_bb_vooo : rhb_H_aa_vooo d H T = hb_H_bb_vooo d H T. Proof. by_tab4 p_hb_bb_vooo. Qed.
Lemma hbe_bb_voov : rhb_H_aa_voov d H T = hb_H_bb_voov d H T. Proof. by_tab4 p_hb_bb_voov. Qed.
Lemma hbe_bb_vovv : rhb_H_aa_vovv d H T = hb_H_bb_vovv d H T. Proof. by_tab4 p_hb_bb_vovv. Qed.
Lemma hbe_bb_vvov : rhb_H_aa_vvov_1 d H T = hb_H_bb_vvov_1 d H T. Proof. by_tab4 p_hb_bb_vvov. Qed.
Lemma hbe_bb_vvvv : rhb_H_aa_vvvv_1 d H T = hb_H_bb_vvvv_1 d H T. Proof. by_tab4 p_hb_bb_vvvv. Qed.
Lemma hbar_eq : rhbar_ccsd d H T = hbar_ccsd d H T.
Proof. unfold rhbar_ccsd, hbar_ccsd. rewrite <- hbe_bb_oooo, <- hbe_bb_ooov, <- hbe_bb_vooo, <- hbe_bb_voov, <- hbe_bb_vovv, <- hbe_bb_vvov, <- hbe_bb_vvvv, hbe_a_oo, hbe_a_ov, hbe_a_vv, hbe_b_oo, hbe_b_ov, hbe_b_vv, hbe_aa_oooo, hbe_aa_ooov, hbe_aa_vooo, hbe_aa_voov, hbe_aa_vovv, hbe_aa_vvov, hbe_aa_vvvv, hbe_ab_oooo, hbe_ab_ooov, hbe_ab_oovo, hbe_ab_ovoo, hbe_ab_ovov, hbe_ab_ovvo, hbe_ab_ovvv, hbe_ab_vooo, hbe_ab_voov, hbe_ab_vovo, hbe_ab_vovv, hbe_ab_vvov, hbe_ab_vvvo, hbe_ab_vvvv. reflexivity. Qed.
Lemma hbc_a_oo a i : hb_H_b_oo d H T a i = hb_H_a_oo d H T a i. Proof. apply (rs d H T T HH HT HT (r_hb_H_b_oo 2 0 1)%nat (r_hb_H_a_oo 2 0 1)%nat (venv [a; i])); vm_compute; reflexivity. Qed.
Lemma hbc_a_ov a i : hb_H_b_ov d H T a i = hb_H_a_ov d H T a i. Proof. apply (rs d H T T HH HT HT (r_hb_H_b_ov 2 0 1)%nat (r_hb_H_a_ov 2 0 1)%nat (venv [a; i])); vm_compute; reflexivity. Qed.
Lemma hbc_a_vv a i : hb_H_b_vv d H T a i = hb_H_a_vv d H T a i. Proof. apply (rs d H T T HH HT HT (r_hb_H_b_vv 2 0 1)%nat (r_hb_H_a_vv 2 0 1)%nat (venv [a; i])); vm_compute; reflexivity. Qed.
Lemma hbc_aa_oooo a b i j : hb_H_bb_oooo_1 d H T a b i j = hb_H_aa_oooo_1 d H T a b i j. Proof. apply (rs d H T T HH HT HT (r_hb_H_bb_oooo_1 4 0 1 2 3)%nat (r_hb_H_aa_oooo_1 4 0 1 2 3)%nat (venv [a; b; i; j])); vm_compute; reflexivity. Qed.
Lemma hbc_ab_oooo a b i j : hb_H_ab_oooo d H T a b i j = hb_H_ab_oooo d H T b a j i. Proof. apply (rs d H T T HH HT HT (r_hb_H_ab_oooo 4 0 1 2 3)%nat (r_hb_H_ab_oooo 4 1 0 3 2)%nat (venv [a; b; i; j])); vm_compute; reflexivity. Qed.
Lemma hbc_aa_ooov a b i j : hb_H_bb_ooov d H T a b i j = hb_H_aa_ooov d H T a b i j. Proof. apply (rs d H T T HH HT HT (r_hb_H_bb_ooov 4 0 1 2 3)%nat (r_hb_H_aa_ooov 4 0 1 2 3)%nat (venv [a; b; i; j])); vm_compute; reflexivity. Qed.
Lemma hbc_ab_ooov a b i j : hb_H_ab_ooov d H T a b i j = hb_H_ab_oovo d H T b a j i. Proof. apply (rs d H T T HH HT HT (r_hb_H_ab_ooov 4 0 1 2 3)%nat (r_hb_H_ab_oovo 4 1 0 3 2)%nat (venv [a; b; i; j])); vm_compute; reflexivity. Qed.
Lemma hbc_ab_oovo a b i j : hb_H_ab_oovo d H T a b i j = hb_H_ab_ooov d H T b a j i. Proof. apply (rs d H T T HH HT HT (r_hb_H_ab_oovo 4 0 1 2 3)%nat (r_hb_H_ab_ooov 4 1 0 3 2)%nat (venv [a; b; i; j])); vm_compute; reflexivity. Qed.
Lemma hbc_ab_ovoo a b i j : hb_H_ab_ovoo d H T a b i j = hb_H_ab_vooo d H T b a j i. Proof. apply (rs d H T T HH HT HT (r_hb_H_ab_ovoo 4 0 1 2 3)%nat (r_hb_H_ab_vooo 4 1 0 3 2)%nat (venv [a; b; i; j])); vm_compute; reflexivity. Qed.
Lemma hbc_ab_ovov a b i j : hb_H_ab_ovov d H T a b i j = hb_H_ab_vovo d H T b a j i. Proof. apply (rs d H T T HH HT HT (r_hb_H_ab_ovov 4 0 1 2 3)%nat (r_hb_H_ab_vovo 4 1 0 3 2)%nat (venv [a; b; i; j])); vm_compute; reflexivity. Qed.
Lemma hbc_ab_ovvo a b i j : hb_H_ab_ovvo d H T a b i j = hb_H_ab_voov d H T b a j i. Proof. apply (rs d H T T HH HT HT (r_hb_H_ab_ovvo 4 0 1 2 3)%nat (r_hb_H_ab_voov 4 1 0 3 2)%nat (venv [a; b; i; j])); vm_compute; reflexivity. Qed.
Lemma hbc_ab_ovvv a b i j : hb_H_ab_ovvv d H T a b i j = hb_H_ab_vovv d H T b a j i. Proof. apply (rs d H T T HH HT HT (r_hb_H_ab_ovvv 4 0 1 2 3)%nat (r_hb_H_ab_vovv 4 1 0 3 2)%nat (venv [a; b; i; j])); vm_compute; reflexivity. Qed.
Lemma hbc_aa_vooo a b i j : hb_H_bb_vooo d H T a b i j = hb_H_aa_vooo d H T a b i j. Proof. apply (rs d H T T HH HT HT (r_hb_H_bb_vooo 4 0 1 2 3)%nat (r_hb_H_aa_vooo 4 0 1 2 3)%nat (venv [a; b; i; j])); vm_compute; reflexivity. Qed.
Lemma hbc_ab_vooo a b i j : hb_H_ab_vooo d H T a b i j = hb_H_ab_ovoo d H T b a j i. Proof. apply (rs d H T T HH HT HT (r_hb_H_ab_vooo 4 0 1 2 3)%nat (r_hb_H_ab_ovoo 4 1 0 3 2)%nat (venv [a; b; i; j])); vm_compute; reflexivity. Qed.
Lemma hbc_aa_voov a b i j : hb_H_bb_voov d H T a b i j = hb_H_aa_voov d H T a b i j. Proof. apply (rs d H T T HH HT HT (r_hb_H_bb_voov 4 0 1 2 3)%nat (r_hb_H_aa_voov 4 0 1 2 3)%nat (venv [a; b; i; j])); vm_compute; reflexivity. Qed.
Lemma hbc_ab_voov a b i j : hb_H_ab_voov d H T a b i j = hb_H_ab_ovvo d H T b a j i. Proof. apply (rs d H T T HH HT HT (r_hb_H_ab_voov 4 0 1 2 3)%nat (r_hb_H_ab_ovvo 4 1 0 3 2)%nat (venv [a; b; i; j])); vm_compute; reflexivity. Qed.
Lemma hbc_ab_vovo a b i j : hb_H_ab_vovo d H T a b i j = hb_H_ab_ovov d H T b a j i. Proof. apply (rs d H T T HH HT HT (r_hb_H_ab_vovo 4 0 1 2 3)%nat (r_hb_H_ab_ovov 4 1 0 3 2)%nat (venv [a; b; i; j])); vm_compute; reflexivity. Qed.
Lemma hbc_aa_vovv a b i j : hb_H_bb_vovv d H T a b i j = hb_H_aa_vovv d H T a b i j. Proof. apply (rs d H T T HH HT HT (r_hb_H_bb_vovv 4 0 1 2 3)%nat (r_hb_H_aa_vovv 4 0 1 2 3)%nat (venv [a; b; i; j])); vm_compute; reflexivity. Qed.
Lemma hbc_ab_vovv a b i j : hb_H_ab_vovv d H T a b i j = hb_H_ab_ovvv d H T b a j i. Proof. apply (rs d H T T HH HT HT (r_hb_H_ab_vovv 4 0 1 2 3)%nat (r_hb_H_ab_ovvv 4 1 0 3 2)%nat (venv [a; b; i; j])); vm_compute; reflexivity. Qed.
Lemma hbc_aa_vvov a b i j : hb_H_bb_vvov_1 d H T a b i j = hb_H_aa_vvov_1 d H T a b i j. Proof. apply (rs d H T T HH HT HT (r_hb_H_bb_vvov_1 4 0 1 2 3)%nat (r_hb_H_aa_vvov_1 4 0 1 2 3)%nat (venv [a; b; i; j])); vm_compute; reflexivity. Qed.
Lemma hbc_ab_vvov a b i j : hb_H_ab_vvov d H T a b i j = hb_H_ab_vvvo d H T b a j i. Proof. apply (rs d H T T HH HT HT (r_hb_H_ab_vvov 4 0 1 2 3)%nat (r_hb_H_ab_vvvo 4 1 0 3 2)%nat (venv [a; b; i; j])); vm_compute; reflexivity. Qed.
Lemma hbc_ab_vvvo a b i j : hb_H_ab_vvvo d H T a b i j = hb_H_ab_vvov d H T b a j i. Proof. apply (rs d H T T HH HT HT (r_hb_H_ab_vvvo 4 0 1 2 3)%nat (r_hb_H_ab_vvov 4 1 0 3 2)%nat (venv [a; b; i; j])); vm_compute; reflexivity. Qed.
Lemma hbc_aa_vvvv a b i j : hb_H_bb_vvvv_1 d H T a b i j = hb_H_aa_vvvv_1 d H T a b i j. Proof. apply (rs d H T T HH HT HT (r_hb_H_bb_vvvv_1 4 0 1 2 3)%nat (r_hb_H_aa_vvvv_1 4 0 1 2 3)%nat (venv [a; b; i; j])); vm_compute; reflexivity. Qed.
Lemma hbc_ab_vvvv a b i j : hb_H_ab_vvvv d H T a b i j = hb_H_ab_vvvv d H T b a j i. Proof. apply (rs d H T T HH HT HT (r_hb_H_ab_vvvv 4 0 1 2 3)%nat (r_hb_H_ab_vvvv 4 1 0 3 2)%nat (venv [a; b; i; j])); vm_compute; reflexivity. Qed.
Lemma hbar_closed : closed_ints (fix_ints (hbar_ccsd d H T)).
Proof.
  constructor; intros; cbn [fix_ints hbar_ccsd i_a_oo i_a_ov i_a_vo i_a_vv i_b_oo i_b_ov i_b_vo i_b_vv i_aa_oooo i_aa_ooov i_aa_oovo i_aa_oovv i_aa_ovoo i_aa_ovov i_aa_ovvo i_aa_ovvv i_aa_vooo i_aa_voov i_aa_vovo i_aa_vovv i_aa_vvoo i_aa_vvov i_aa_vvvo i_aa_vvvv i_ab_oooo i_ab_ooov i_ab_oovo i_ab_oovv i_ab_ovoo i_ab_ovov i_ab_ovvo i_ab_ovvv i_ab_vooo i_ab_voov i_ab_vovo i_ab_vovv i_ab_vvoo i_ab_vvov i_ab_vvvo i_ab_vvvv i_bb_oooo i_bb_ooov i_bb_oovo i_bb_oovv i_bb_ovoo i_bb_ovov i_bb_ovvo i_bb_ovvv i_bb_vooo i_bb_voov i_bb_vovo i_bb_vovv i_bb_vvoo i_bb_vvov i_bb_vvvo i_bb_vvvv].
  - apply hbc_a_oo.
  - apply hbc_a_ov.
  - apply (ci_a_vo H (cs_spin d H HH)).
  - apply hbc_a_vv.
  - apply hbc_aa_oooo.
  - apply hbc_ab_oooo.
  - apply hbc_aa_ooov.
  - apply hbc_ab_ooov.
  - now rewrite hbc_aa_ooov.
  - apply hbc_ab_oovo.
  - apply (ci_aa_oovv H (cs_spin d H HH)).
  - apply (ci_ab_oovv H (cs_spin d H HH)).
  - now rewrite hbc_aa_vooo.
  - apply hbc_ab_ovoo.
  - now rewrite hbc_aa_voov.
  - apply hbc_ab_ovov.
  - now rewrite hbc_aa_voov.
  - apply hbc_ab_ovvo.
  - now rewrite hbc_aa_vovv.
  - apply hbc_ab_ovvv.
  - apply hbc_aa_vooo.
  - apply hbc_ab_vooo.
  - apply hbc_aa_voov.
  - apply hbc_ab_voov.
  - now rewrite hbc_aa_voov.
  - apply hbc_ab_vovo.
  - apply hbc_aa_vovv.
  - apply hbc_ab_vovv.
  - apply (ci_aa_vvoo H (cs_spin d H HH)).
  - apply (ci_ab_vvoo H (cs_spin d H HH)).
  - apply hbc_aa_vvov.
  - apply hbc_ab_vvov.
  - now rewrite hbc_aa_vvov.
  - apply hbc_ab_vvvo.
  - apply hbc_aa_vvvv.
  - apply hbc_ab_vvvv.
Qed.
End Hbar.
Theorem C52_hbar d H T : closed_shell d H -> singlet T -> rhbar_ccsd d H T = hbar_ccsd d H T.
Proof. exact (hbar_eq d H T). Qed.
Theorem C52_hbar_closed d H T : closed_shell d H -> singlet T -> closed_shell d (fix_ints (hbar_ccsd d H T)).
Proof.
  intros HH HT. constructor; [apply HH|apply HH| |now apply hbar_closed]. apply fix_ints_antisym, hbar_primary; [apply HH|apply HT].
Qed.
(** * Excited states: the right and left products with the transformed Hamiltonian *)
Theorem C52_right_product d H T Y : closed_shell d H -> singlet T -> singlet Y ->
  same_sd (reom_HR d (rhbar_ccsd d H T) T Y) (eom_HR d (hbar_ccsd d H T) T Y).
Proof.
  intros HH HT HY. rewrite C52_hbar by assumption. change (same_sd (reom_HR d (fix_ints (hbar_ccsd d H T)) T Y) (eom_HR d (fix_ints (hbar_ccsd d H T)) T Y)).
  apply eq_HR; [now apply C52_hbar_closed|assumption|assumption].
Qed.
Theorem C52_left_product d H T L : closed_shell d H -> singlet T -> singlet L ->
  same_sd (rleft_LH d (rhbar_ccsd d H T) T L) (left_LH d (hbar_ccsd d H T) T L).
Proof.
  intros HH HT HY. rewrite C52_hbar by assumption. change (same_sd (rleft_LH d (fix_ints (hbar_ccsd d H T)) T L) (left_LH d (fix_ints (hbar_ccsd d H T)) T L)).
  apply eq_LH; [now apply C52_hbar_closed|assumption|assumption].
Qed.

(** * Left iterations: every iterate is the same, and again spin-symmetric *)
Lemma LH_singlet d H T L : closed_shell d H -> singlet T -> singlet L -> closed_amps (left_LH d H T L).
Proof.
  intros HH HT HL. constructor; intros.
  - change (left_LH_b_9 d H T L a i = left_LH_a_11 d H T L a i).
    apply (rs d H T L HH HT HL (r_left_LH_b_9 2 0 1)%nat (r_left_LH_a_11 2 0 1)%nat (venv [a; i])). vm_compute. reflexivity.
  - change (left_LH_bb_11 d H T L a b i j = left_LH_aa_11 d H T L a b i j).
    apply (rs d H T L HH HT HL (r_left_LH_bb_11 4 0 1 2 3)%nat (r_left_LH_aa_11 4 0 1 2 3)%nat (venv [a; b; i; j])). vm_compute. reflexivity.
  - change (left_LH_ab_21 d H T L a b i j = left_LH_ab_21 d H T L b a j i).
    apply (rs d H T L HH HT HL (r_left_LH_ab_21 4 0 1 2 3)%nat (r_left_LH_ab_21 4 1 0 3 2)%nat (venv [a; b; i; j])). vm_compute. reflexivity.
Qed.
Lemma total_singlet d g H T L : closed_shell d H -> singlet T -> singlet L -> closed_amps (left_total d g H T L).
Proof.
  intros HH HT HL. destruct (LH_singlet d H T L HH HT HL) as [Ca Caa Cab]. unfold left_total. destruct g; [|now constructor].
  destruct HH as [_ _ _ CI]. constructor; intros; cbn [x_a x_b x_aa x_ab x_bb].
  - now rewrite Ca, (ci_a_ov H CI). - now rewrite Caa, (ci_aa_oovv H CI). - now rewrite Cab, (ci_ab_oovv H CI).
Qed.
Lemma upd_l2_anti no nu l X ho hv w s : anti4 l -> anti4 X -> anti4 (fst (upd_l2 no nu l X ho hv w s)).
Proof.
  intros Al AX.
  assert (V : forall p q r u, fst (upd_l2 no nu l X ho hv w s) p q r u =
    if (Nat.ltb p nu && Nat.ltb q nu && Nat.ltb r no && Nat.ltb u no)%bool
    then l p q r u + (w * l p q r u - X p q r u) / (hv p p + hv q q - ho r r - ho u u - w + s) else l p q r u).
  { intros p q r u. destruct (Nat.ltb_spec p nu), (Nat.ltb_spec q nu), (Nat.ltb_spec r no), (Nat.ltb_spec u no); cbn [andb];
      [now apply upd_l2_ok|apply upd_l2_out; lia ..]. }
  intros a b i j. rewrite !V. destruct (Al a b i j) as [L1 L2], (AX a b i j) as [X1 X2]. split.
  - replace (Nat.ltb b nu && Nat.ltb a nu)%bool with (Nat.ltb a nu && Nat.ltb b nu)%bool by apply Bool.andb_comm.
    destruct (Nat.ltb a nu && Nat.ltb b nu && Nat.ltb i no && Nat.ltb j no)%bool; [|exact L1].
    replace (hv b b + hv a a) with (hv a a + hv b b) by ring. rewrite L1, X1. unfold Rdiv. ring.
  - replace (Nat.ltb a nu && Nat.ltb b nu && Nat.ltb j no && Nat.ltb i no)%bool with (Nat.ltb a nu && Nat.ltb b nu && Nat.ltb i no && Nat.ltb j no)%bool
      by (rewrite <- !Bool.andb_assoc, (Bool.andb_comm (Nat.ltb i no)); reflexivity).
    destruct (Nat.ltb a nu && Nat.ltb b nu && Nat.ltb i no && Nat.ltb j no)%bool; [|exact L2].
    replace (hv a a + hv b b - ho j j - ho i i) with (hv a a + hv b b - ho i i - ho j j) by ring. rewrite L2, X2. unfold Rdiv. ring.
Qed.
Lemma upd_l2b_sym n m l X ho hv w s : (forall a b i j, l a b i j = l b a j i) -> (forall a b i j, X a b i j = X b a j i) ->
  forall a b i j, fst (upd_l2b n n m m l X ho hv ho hv w s) a b i j = fst (upd_l2b n n m m l X ho hv ho hv w s) b a j i.
Proof.
  intros Sl SX a b i j. destruct (Nat.ltb_spec a m), (Nat.ltb_spec b m), (Nat.ltb_spec i n), (Nat.ltb_spec j n);
    try (rewrite !upd_l2b_out by lia; apply Sl).
  rewrite !upd_l2b_val by assumption. rewrite (Sl a b i j), (SX a b i j).
  now replace (hv b b + hv a a - ho j j - ho i i - w + s) with (hv a a + hv b b - ho i i - ho j j - w + s) by ring.
Qed.
Lemma left_step d w s g H T L : closed_shell d H -> singlet T -> singlet L ->
  rleft_iter d w s g H T L = left_iter d w s g H T L /\ singlet (left_iter d w s g H T L).
Proof.
  intros HH HT HL. assert (E := eq_LH d H T L HH HT HL). assert (C := total_singlet d g H T L HH HT HL).
  destruct (left_total_anti d g H T L (cs_anti d H HH)) as [Xaa Xbb].
  assert (F : x_a (rleft_total d g H T L) = x_a (left_total d g H T L) /\ x_aa (rleft_total d g H T L) = x_aa (left_total d g H T L)
    /\ x_ab (rleft_total d g H T L) = x_ab (left_total d g H T L)).
  { destruct E as [Ea _ Eaa Eab _]. unfold rleft_total, left_total. destruct g; cbn [x_a x_aa x_ab].
    - split; [|split]; [apply fun2|apply fun4|apply fun4]; intros; [now rewrite Ea|now rewrite Eaa|now rewrite Eab].
    - split; [|split]; [apply fun2|apply fun4|apply fun4]; assumption. }
  destruct F as (Fa & Faa & Fab). unfold rleft_iter, left_iter. rewrite Fa, Faa, Fab.
  set (X := left_total d g H T L) in *. clearbody X. clear Fa Faa Fab E.
  destruct HH as [En Em HA CI], HL as [AL CL]. destruct (antisym_anti4 L AL) as [Aaa Abb]. destruct C as [Ca Caa Cab], CL as [La Laa Lab].
  rewrite <- En, <- Em.
  assert (Eb : i_b_oo H = i_a_oo H) by (apply fun2; apply (ci_a_oo H CI)). assert (Ev : i_b_vv H = i_a_vv H) by (apply fun2; apply (ci_a_vv H CI)).
  rewrite Eb, Ev, (fun2 _ _ La), (fun4 _ _ Laa), (fun2 _ _ Ca), (fun4 _ _ Caa). split; [reflexivity|].
  assert (A := upd_l2_anti (noa d) (nua d) (x_aa L) (x_aa X) (i_a_oo H) (i_a_vv H) w s Aaa Xaa).
  split; constructor; cbn [x_a x_b x_aa x_ab x_bb]; intros; try reflexivity; try apply A.
  now apply upd_l2b_sym.
Qed.
Theorem C52_left_iterations d w s g H T L n : closed_shell d H -> singlet T -> singlet L ->
  Nat.iter n (rleft_iter d w s g (rhbar_ccsd d H T) T) L = Nat.iter n (left_iter d w s g (hbar_ccsd d H T) T) L
  /\ singlet (Nat.iter n (left_iter d w s g (hbar_ccsd d H T) T) L).
Proof.
  intros HH HT HL. rewrite C52_hbar by assumption. assert (HB := C52_hbar_closed d H T HH HT).
  induction n as [|n [E SM]]; [now split|]. change (Nat.iter (S n) ?f L) with (f (Nat.iter n f L)). rewrite E.
  set (M := Nat.iter n (left_iter d w s g (hbar_ccsd d H T) T) L) in *. clearbody M.
  change (rleft_iter d w s g (fix_ints (hbar_ccsd d H T)) T M = left_iter d w s g (fix_ints (hbar_ccsd d H T)) T M /\ singlet (left_iter d w s g (fix_ints (hbar_ccsd d H T)) T M)).
  now apply left_step.
Qed.


(** * The ground-state iterates themselves need not agree.  update_t1b reads the T1a amplitudes that update_t1a has just written, so from spin-symmetric amplitudes
    one unrestricted iteration gives different alpha and beta singles; and update_t2b of the restricted run reads the new T2aa but the old T2bb, so its T2ab
    loses the exchange symmetry *)
Definition zero_T : amps := prod_amps (fun _ _ => 0) (fun _ _ => 0).
Lemma zero_T_singlet : singlet zero_T. Proof. split; [apply prod_amps_antisym|apply prod_amps_closed]. Qed.
Definition h1 (p q : nat) : R := match p, q with 1%nat, 0%nat => 1 | 1%nat, 1%nat => 1 | _, _ => 0 end.
Definition v1 (p q r s : nat) : R := match p, q, r, s with 0%nat, 1%nat, 1%nat, 0%nat => 1 | 1%nat, 0%nat, 0%nat, 1%nat => 1 | _, _, _, _ => 0 end.
Lemma v1_sym p q r s : v1 p q r s = v1 q p s r.
Proof. destruct p as [|[|p]], q as [|[|q]], r as [|[|r]], s as [|[|s]]; reflexivity. Qed.
Theorem C52_ccsd_iterates_refuted : exists d s H T, closed_shell d H /\ singlet T /\ regular d s H /\ (0 < nua d)%nat /\ (0 < noa d)%nat /\
  x_b (ccsd_iter d s H T) 0%nat 0%nat <> x_a (ccsd_iter d s H T) 0%nat 0%nat /\ x_b (ccsd_iter d s H T) 0%nat 0%nat <> x_b (rccsd_iter d s H T) 0%nat 0%nat.
Proof.
  exists (mkDims 1 1 1 1), 0, (rhf_ints (mkDims 1 1 1 1) h1 v1), zero_T.
  assert (V : x_a (ccsd_iter (mkDims 1 1 1 1) 0 (rhf_ints (mkDims 1 1 1 1) h1 v1) zero_T) 0%nat 0%nat = -1
    /\ x_b (ccsd_iter (mkDims 1 1 1 1) 0 (rhf_ints (mkDims 1 1 1 1) h1 v1) zero_T) 0%nat 0%nat = 0
    /\ x_b (rccsd_iter (mkDims 1 1 1 1) 0 (rhf_ints (mkDims 1 1 1 1) h1 v1) zero_T) 0%nat 0%nat = -1).
  { cbv -[IZR Rplus Rmult Rminus Ropp Rdiv Rinv]. repeat split; field_simplify; lra. }
  destruct V as (-> & -> & ->).
  split; [constructor; [reflexivity|reflexivity|apply rhf_ints_antisym, v1_sym|apply rhf_ints_closed, v1_sym]|]. split; [apply zero_T_singlet|].
  split; [|cbn; repeat split; try lia; lra].
  constructor; cbn [nua noa nub nob]; intros;
    repeat match goal with L : (?x < 1)%nat |- _ => destruct x as [|?]; [|lia]; clear L end; cbn; lra.
Qed.
Definition h2 (p q : nat) : R := if (Nat.eqb p q && Nat.leb 2 p)%bool then 1 else 0.
Definition v2 (p q r s : nat) : R := match p, q, r, s with
  | 2%nat, 3%nat, 0%nat, 1%nat => 1 | 3%nat, 2%nat, 1%nat, 0%nat => 1 | 1%nat, 3%nat, 3%nat, 1%nat => 1 | 3%nat, 1%nat, 1%nat, 3%nat => 1 | _, _, _, _ => 0 end.
Lemma v2_sym p q r s : v2 p q r s = v2 q p s r.
Proof. destruct p as [|[|[|[|p]]]], q as [|[|[|[|q]]]], r as [|[|[|[|r]]]], s as [|[|[|[|s]]]]; reflexivity. Qed.
Theorem C52_ccd_exchange_refuted : exists d s H T a b i j, closed_shell d H /\ singlet T /\ regular d s H /\ (a < nua d)%nat /\ (b < nua d)%nat /\ (i < noa d)%nat /\ (j < noa d)%nat /\
  x_ab (rccd_iter d s H T) a b i j <> x_ab (rccd_iter d s H T) b a j i.
Proof.
  set (d := mkDims 2 2 2 2). set (H := rhf_ints d h2 v2).
  exists d, 0, H, zero_T, 0%nat, 1%nat, 0%nat, 1%nat.
  split; [constructor; [reflexivity|reflexivity|apply rhf_ints_antisym, v2_sym|apply rhf_ints_closed, v2_sym]|]. split; [apply zero_T_singlet|].
  split; [constructor; cbn [nua noa nub nob]; intros;
    repeat match goal with L : (?x < nua d)%nat |- _ => destruct x as [|[|?]]; [| |cbn in L; lia]; clear L | L : (?x < noa d)%nat |- _ => destruct x as [|[|?]]; [| |cbn in L; lia]; clear L
      | L : (?x < nub d)%nat |- _ => destruct x as [|[|?]]; [| |cbn in L; lia]; clear L | L : (?x < nob d)%nat |- _ => destruct x as [|[|?]]; [| |cbn in L; lia]; clear L end; cbn; lra|].
  do 4 (split; [cbn; lia|]).
  unfold rccd_iter. cbn [set_aa set_ab set_bb x_ab].
  set (F := fst (upd_t2 (noa d) (nua d) (x_aa zero_T) (rccd_res_aa d H zero_T zero_T) (i_a_oo H) (i_a_vv H) 0)).
  assert (A0 : anti4 (x_aa zero_T)) by (intros ? ? ? ?; cbn; split; ring).
  assert (V : forall a b i j, (a < 2)%nat -> (b < 2)%nat -> (i < 2)%nat -> (j < 2)%nat ->
    F a b i j = x_aa zero_T a b i j + four_term (rccd_res_aa d H zero_T zero_T) a b i j / den2 (i_a_oo H) (i_a_vv H) 0 a b i j).
  { intros. now apply (upd_t2_ok (noa d) (nua d) (x_aa zero_T) (rccd_res_aa d H zero_T zero_T) (i_a_oo H) (i_a_vv H) 0 a b i j A0). }
  clearbody F.
  pose proof (f_equal fst (upd_t2b_in (noa d) (nob d) (nua d) (nub d) (x_ab zero_T) (rccd_res_ab d H zero_T (set_aa zero_T F)) (i_a_oo H) (i_a_vv H) (i_b_oo H) (i_b_vv H) 0 0 1 0 1
    ltac:(cbn; lia) ltac:(cbn; lia) ltac:(cbn; lia) ltac:(cbn; lia))) as E1.
  pose proof (f_equal fst (upd_t2b_in (noa d) (nob d) (nua d) (nub d) (x_ab zero_T) (rccd_res_ab d H zero_T (set_aa zero_T F)) (i_a_oo H) (i_a_vv H) (i_b_oo H) (i_b_vv H) 0 1 0 1 0
    ltac:(cbn; lia) ltac:(cbn; lia) ltac:(cbn; lia) ltac:(cbn; lia))) as E2.
  cbn [fst snd x_ab set_aa] in E1, E2 |- *. 
  match goal with |- ?l <> ?r => set (L1 := l) in *; set (L2 := r) in * end. clearbody L1 L2.
  assert (V1 : F 0%nat 1%nat 0%nat 1%nat = - (1 / 2)). { rewrite V by lia. cbv -[IZR Rplus Rmult Rminus Ropp Rdiv Rinv]. field_simplify; lra. }
  clear V. cbv -[IZR Rplus Rmult Rminus Ropp Rdiv Rinv] in E1, E2. field_simplify in E1. field_simplify in E2. rewrite E1, E2, V1. lra.
Qed.

(** Instance: the two-level closed shell of C51 with any spin-free two-body integrals, and amplitudes that are not zero *)
Example C52_instance v : (forall p q r s, v p q r s = v q p s r) ->
  let d := mkDims 2 3 2 3 in let T := prod_amps (fun p q => INR (p + 2 * q)) (fun p q => INR (p * q)) in
  closed_shell d (two_level d v) /\ singlet T /\ regular d 0 (two_level d v) /\ x_ab T 1%nat 2%nat 1%nat 1%nat <> 0.
Proof.
  intros Hv d T. split; [constructor; [reflexivity|reflexivity|now apply rhf_ints_antisym|now apply rhf_ints_closed]|].
  split; [split; [apply prod_amps_antisym|apply prod_amps_closed]|]. split; [apply (C51_instance v Hv)|]. cbn. lra.
Qed.

Print Assumptions C52_ccsd_converged.
Print Assumptions C52_ccd_converged.
Print Assumptions C52_hbar.
Print Assumptions C52_hbar_closed.
Print Assumptions C52_right_product.
Print Assumptions C52_left_product.
Print Assumptions C52_left_iterations.
Print Assumptions C52_ccsd_iterates_refuted.
Print Assumptions C52_ccd_exchange_refuted.
