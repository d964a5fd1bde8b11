(** Generated by tools/gen_crbra.py: moments, left amplitudes and denominators of CR-CC(2,3) as matrix elements of exp(-T) H exp(T) (proof support). *)
From Coq Require Import Reals Arith NArith List Bool Lia Lra FunctionalExtensionality.
From Verif Require Import RSum IntegralsModel TensorObjs TensorSpec IntsFix CcsdModel CcsdUpdate CcsdProps FockSpec FockCar FockArrays FockCcSpec FockHam FockExp FockLevel FockState FockSectorSpec FockFlip FockCount FockDress FockShift
  CcsdtModel CcsdtUpdate SdtSpec SdtFlat SdtFock SdtState HbarSpec HbarBlocks FockProj CrccModel CrccSpec CrccFock CrccHbar CrccPoly CrccDiag CrccKet.
Import ListNotations.
Local Open Scope R_scope.
(** * The quantities of the program depend on the arrays within their index ranges only *)
Section S.
Variables (d : dims) (H0 X Y : ints) (T U L : amps).
Hypothesis AG : ints_agree d X Y.
Hypothesis A1 : forall a b i j, x_aa T a b i j = x_aa U a b i j.
Hypothesis A2 : forall a b i j, x_ab T a b i j = x_ab U a b i j.
Hypothesis A3 : forall a b i j, x_bb T a b i j = x_bb U a b i j.
Ltac leaf := first [reflexivity | apply A1 | apply A2 | apply A3 | match goal with K : _ |- _ => apply K; assumption end].
Ltac cong := repeat match goal with
  | |- ?x = ?x => reflexivity
  | |- _ + _ = _ + _ => apply f_equal2 | |- _ - _ = _ - _ => apply f_equal2 | |- _ * _ = _ * _ => apply f_equal2 | |- - _ = - _ => apply f_equal
  | |- sumn _ _ = sumn _ _ => apply sumn_ext; intros ? ?
  | |- (if ?c then _ else _) = (if ?c then _ else _) => destruct c
  end; try leaf.
Ltac openag := let Q := fresh in pose proof AG as Q; unfold ints_agree in Q; repeat match goal with K : _ /\ _ |- _ => destruct K as [? K] end.
Lemma tr_h_aa_vvvv a b : (a < nua d)%nat -> (b < nua d)%nat -> crcc_h_aa_vvvv X a b = crcc_h_aa_vvvv Y a b.
Proof. intros. openag. unfold crcc_h_aa_vvvv. cong. Qed.
Lemma tr_h_ab_vvvv a b : (a < nua d)%nat -> (b < nub d)%nat -> crcc_h_ab_vvvv X a b = crcc_h_ab_vvvv Y a b.
Proof. intros. openag. unfold crcc_h_ab_vvvv. cong. Qed.
Lemma tr_h_bb_vvvv a b : (a < nub d)%nat -> (b < nub d)%nat -> crcc_h_bb_vvvv X a b = crcc_h_bb_vvvv Y a b.
Proof. intros. openag. unfold crcc_h_bb_vvvv. cong. Qed.
Lemma tr_d3aaa_v a i b : (a < nua d)%nat -> (i < noa d)%nat -> (b < nua d)%nat -> crcc_d3aaa_v d H0 X T L a i b = crcc_d3aaa_v d H0 Y U L a i b.
Proof. intros. openag. unfold crcc_d3aaa_v. cong. Qed.
Lemma tr_d3aaa_o a i j : (a < nua d)%nat -> (i < noa d)%nat -> (j < noa d)%nat -> crcc_d3aaa_o d H0 X T L a i j = crcc_d3aaa_o d H0 Y U L a i j.
Proof. intros. openag. unfold crcc_d3aaa_o. cong. Qed.
Lemma tr_d3aab_v a i c : (a < nua d)%nat -> (i < noa d)%nat -> (c < nub d)%nat -> crcc_d3aab_v d H0 X T L a i c = crcc_d3aab_v d H0 Y U L a i c.
Proof. intros. openag. unfold crcc_d3aab_v. cong. Qed.
Lemma tr_d3aab_o a i k : (a < nua d)%nat -> (i < noa d)%nat -> (k < nob d)%nat -> crcc_d3aab_o d H0 X T L a i k = crcc_d3aab_o d H0 Y U L a i k.
Proof. intros. openag. unfold crcc_d3aab_o. cong. Qed.
Lemma tr_d3abb_v a k c : (a < nua d)%nat -> (k < nob d)%nat -> (c < nub d)%nat -> crcc_d3abb_v d H0 X T L a k c = crcc_d3abb_v d H0 Y U L a k c.
Proof. intros. openag. unfold crcc_d3abb_v. cong. Qed.
Lemma tr_d3abb_o c i k : (c < nub d)%nat -> (i < noa d)%nat -> (k < nob d)%nat -> crcc_d3abb_o d H0 X T L c i k = crcc_d3abb_o d H0 Y U L c i k.
Proof. intros. openag. unfold crcc_d3abb_o. cong. Qed.
Lemma tr_d3bbb_v a i b : (a < nub d)%nat -> (i < nob d)%nat -> (b < nub d)%nat -> crcc_d3bbb_v d H0 X T L a i b = crcc_d3bbb_v d H0 Y U L a i b.
Proof. intros. openag. unfold crcc_d3bbb_v. cong. Qed.
Lemma tr_d3bbb_o a i j : (a < nub d)%nat -> (i < nob d)%nat -> (j < nob d)%nat -> crcc_d3bbb_o d H0 X T L a i j = crcc_d3bbb_o d H0 Y U L a i j.
Proof. intros. openag. unfold crcc_d3bbb_o. cong. Qed.
Lemma tr_I2A_vvov a b i e : (a < nua d)%nat -> (b < nua d)%nat -> (i < noa d)%nat -> (e < nua d)%nat -> crcc_I2A_vvov d H0 X T L a b i e = crcc_I2A_vvov d H0 Y U L a b i e.
Proof. intros. openag. unfold crcc_I2A_vvov. cong. Qed.
Lemma tr_X3aaa a b c i j k : (a < nua d)%nat -> (b < nua d)%nat -> (c < nua d)%nat -> (i < noa d)%nat -> (j < noa d)%nat -> (k < noa d)%nat -> crcc_X3aaa d H0 X T L a b c i j k = crcc_X3aaa d H0 Y U L a b c i j k.
Proof. intros. openag. unfold crcc_X3aaa. cong; try (apply tr_I2A_vvov; assumption). Qed.
Lemma tr_L3aaa a b c i j k : (a < nua d)%nat -> (b < nua d)%nat -> (c < nua d)%nat -> (i < noa d)%nat -> (j < noa d)%nat -> (k < noa d)%nat -> crcc_L3aaa d H0 X T L a b c i j k = crcc_L3aaa d H0 Y U L a b c i j k.
Proof. intros. openag. unfold crcc_L3aaa. cong. Qed.
Lemma tr_M_aaa a b c i j k : (a < nua d)%nat -> (b < nua d)%nat -> (c < nua d)%nat -> (i < noa d)%nat -> (j < noa d)%nat -> (k < noa d)%nat -> crcc_M_aaa d H0 X T L a b c i j k = crcc_M_aaa d H0 Y U L a b c i j k.
Proof. intros. openag. unfold crcc_M_aaa. cong; try (apply tr_X3aaa; assumption). Qed.
Lemma tr_L2_aaa a b c i j k : (a < nua d)%nat -> (b < nua d)%nat -> (c < nua d)%nat -> (i < noa d)%nat -> (j < noa d)%nat -> (k < noa d)%nat -> crcc_L2_aaa d H0 X T L a b c i j k = crcc_L2_aaa d H0 Y U L a b c i j k.
Proof. intros. openag. unfold crcc_L2_aaa. cong; try (apply tr_L3aaa; assumption). Qed.
Lemma tr_L1_aaa a b c i j k : (a < nua d)%nat -> (b < nua d)%nat -> (c < nua d)%nat -> (i < noa d)%nat -> (j < noa d)%nat -> (k < noa d)%nat -> crcc_L1_aaa d H0 X T L a b c i j k = crcc_L1_aaa d H0 Y U L a b c i j k.
Proof. intros. openag. unfold crcc_L1_aaa. cong. Qed.
Lemma tr_L_aaa a b c i j k : (a < nua d)%nat -> (b < nua d)%nat -> (c < nua d)%nat -> (i < noa d)%nat -> (j < noa d)%nat -> (k < noa d)%nat -> crcc_L_aaa d H0 X T L a b c i j k = crcc_L_aaa d H0 Y U L a b c i j k.
Proof. intros. openag. unfold crcc_L_aaa. cong; try (apply tr_L1_aaa; assumption); try (apply tr_L2_aaa; assumption). Qed.
Lemma tr_DA_aaa a b c i j k : (a < nua d)%nat -> (b < nua d)%nat -> (c < nua d)%nat -> (i < noa d)%nat -> (j < noa d)%nat -> (k < noa d)%nat -> crcc_DA_aaa d H0 X T L a b c i j k = crcc_DA_aaa d H0 Y U L a b c i j k.
Proof. intros. openag. unfold crcc_DA_aaa. cong. Qed.
Lemma tr_DB_aaa a b c i j k : (a < nua d)%nat -> (b < nua d)%nat -> (c < nua d)%nat -> (i < noa d)%nat -> (j < noa d)%nat -> (k < noa d)%nat -> crcc_DB_aaa d H0 X T L a b c i j k = crcc_DB_aaa d H0 Y U L a b c i j k.
Proof. intros. openag. unfold crcc_DB_aaa. cong. Qed.
Lemma tr_DC_aaa a b c i j k : (a < nua d)%nat -> (b < nua d)%nat -> (c < nua d)%nat -> (i < noa d)%nat -> (j < noa d)%nat -> (k < noa d)%nat -> crcc_DC_aaa d H0 X T L a b c i j k = crcc_DC_aaa d H0 Y U L a b c i j k.
Proof. intros. openag. unfold crcc_DC_aaa. cong; try (apply tr_DB_aaa; assumption); try (apply tr_h_aa_vvvv; assumption). Qed.
Lemma tr_DD_aaa a b c i j k : (a < nua d)%nat -> (b < nua d)%nat -> (c < nua d)%nat -> (i < noa d)%nat -> (j < noa d)%nat -> (k < noa d)%nat -> crcc_DD_aaa d H0 X T L a b c i j k = crcc_DD_aaa d H0 Y U L a b c i j k.
Proof. intros. openag. unfold crcc_DD_aaa. cong; try (apply tr_DC_aaa; assumption); try (apply tr_d3aaa_o; assumption); try (apply tr_d3aaa_v; assumption). Qed.
Lemma tr_I2B_ovoo m c j k : (m < noa d)%nat -> (c < nub d)%nat -> (j < noa d)%nat -> (k < nob d)%nat -> crcc_I2B_ovoo d H0 X T L m c j k = crcc_I2B_ovoo d H0 Y U L m c j k.
Proof. intros. openag. unfold crcc_I2B_ovoo. cong. Qed.
Lemma tr_I2B_vooo a m i k : (a < nua d)%nat -> (m < nob d)%nat -> (i < noa d)%nat -> (k < nob d)%nat -> crcc_I2B_vooo d H0 X T L a m i k = crcc_I2B_vooo d H0 Y U L a m i k.
Proof. intros. openag. unfold crcc_I2B_vooo. cong. Qed.
Lemma tr_I2A_vooo a m i j : (a < nua d)%nat -> (m < noa d)%nat -> (i < noa d)%nat -> (j < noa d)%nat -> crcc_I2A_vooo d H0 X T L a m i j = crcc_I2A_vooo d H0 Y U L a m i j.
Proof. intros. openag. unfold crcc_I2A_vooo. cong. Qed.
Lemma tr_X3aab a b c i j k : (a < nua d)%nat -> (b < nua d)%nat -> (c < nub d)%nat -> (i < noa d)%nat -> (j < noa d)%nat -> (k < nob d)%nat -> crcc_X3aab d H0 X T L a b c i j k = crcc_X3aab d H0 Y U L a b c i j k.
Proof. intros. openag. unfold crcc_X3aab. cong; try (apply tr_I2A_vooo; assumption); try (apply tr_I2B_ovoo; assumption); try (apply tr_I2B_vooo; assumption). Qed.
Lemma tr_L3aab a b c i j k : (a < nua d)%nat -> (b < nua d)%nat -> (c < nub d)%nat -> (i < noa d)%nat -> (j < noa d)%nat -> (k < nob d)%nat -> crcc_L3aab d H0 X T L a b c i j k = crcc_L3aab d H0 Y U L a b c i j k.
Proof. intros. openag. unfold crcc_L3aab. cong. Qed.
Lemma tr_M_aab a b c i j k : (a < nua d)%nat -> (b < nua d)%nat -> (c < nub d)%nat -> (i < noa d)%nat -> (j < noa d)%nat -> (k < nob d)%nat -> crcc_M_aab d H0 X T L a b c i j k = crcc_M_aab d H0 Y U L a b c i j k.
Proof. intros. openag. unfold crcc_M_aab. cong; try (apply tr_X3aab; assumption). Qed.
Lemma tr_L2_aab a b c i j k : (a < nua d)%nat -> (b < nua d)%nat -> (c < nub d)%nat -> (i < noa d)%nat -> (j < noa d)%nat -> (k < nob d)%nat -> crcc_L2_aab d H0 X T L a b c i j k = crcc_L2_aab d H0 Y U L a b c i j k.
Proof. intros. openag. unfold crcc_L2_aab. cong; try (apply tr_L3aab; assumption). Qed.
Lemma tr_L1_aab a b c i j k : (a < nua d)%nat -> (b < nua d)%nat -> (c < nub d)%nat -> (i < noa d)%nat -> (j < noa d)%nat -> (k < nob d)%nat -> crcc_L1_aab d H0 X T L a b c i j k = crcc_L1_aab d H0 Y U L a b c i j k.
Proof. intros. openag. unfold crcc_L1_aab. cong. Qed.
Lemma tr_L_aab a b c i j k : (a < nua d)%nat -> (b < nua d)%nat -> (c < nub d)%nat -> (i < noa d)%nat -> (j < noa d)%nat -> (k < nob d)%nat -> crcc_L_aab d H0 X T L a b c i j k = crcc_L_aab d H0 Y U L a b c i j k.
Proof. intros. openag. unfold crcc_L_aab. cong; try (apply tr_L1_aab; assumption); try (apply tr_L2_aab; assumption). Qed.
Lemma tr_DA_aab a b c i j k : (a < nua d)%nat -> (b < nua d)%nat -> (c < nub d)%nat -> (i < noa d)%nat -> (j < noa d)%nat -> (k < nob d)%nat -> crcc_DA_aab d H0 X T L a b c i j k = crcc_DA_aab d H0 Y U L a b c i j k.
Proof. intros. openag. unfold crcc_DA_aab. cong. Qed.
Lemma tr_DB_aab a b c i j k : (a < nua d)%nat -> (b < nua d)%nat -> (c < nub d)%nat -> (i < noa d)%nat -> (j < noa d)%nat -> (k < nob d)%nat -> crcc_DB_aab d H0 X T L a b c i j k = crcc_DB_aab d H0 Y U L a b c i j k.
Proof. intros. openag. unfold crcc_DB_aab. cong. Qed.
Lemma tr_DC_aab a b c i j k : (a < nua d)%nat -> (b < nua d)%nat -> (c < nub d)%nat -> (i < noa d)%nat -> (j < noa d)%nat -> (k < nob d)%nat -> crcc_DC_aab d H0 X T L a b c i j k = crcc_DC_aab d H0 Y U L a b c i j k.
Proof. intros. openag. unfold crcc_DC_aab. cong; try (apply tr_DB_aab; assumption); try (apply tr_h_aa_vvvv; assumption); try (apply tr_h_ab_vvvv; assumption). Qed.
Lemma tr_DD_aab a b c i j k : (a < nua d)%nat -> (b < nua d)%nat -> (c < nub d)%nat -> (i < noa d)%nat -> (j < noa d)%nat -> (k < nob d)%nat -> crcc_DD_aab d H0 X T L a b c i j k = crcc_DD_aab d H0 Y U L a b c i j k.
Proof. intros. openag. unfold crcc_DD_aab. cong; try (apply tr_DC_aab; assumption); try (apply tr_d3aaa_o; assumption); try (apply tr_d3aaa_v; assumption); try (apply tr_d3aab_o; assumption); try (apply tr_d3aab_v; assumption); try (apply tr_d3abb_o; assumption); try (apply tr_d3abb_v; assumption). Qed.
Lemma tr_I2B_vooo_1 a m i j : (a < nua d)%nat -> (m < nob d)%nat -> (i < noa d)%nat -> (j < nob d)%nat -> crcc_I2B_vooo_1 d H0 X T L a m i j = crcc_I2B_vooo_1 d H0 Y U L a m i j.
Proof. intros. openag. unfold crcc_I2B_vooo_1. cong. Qed.
Lemma tr_I2C_vooo c m k j : (c < nub d)%nat -> (m < nob d)%nat -> (k < nob d)%nat -> (j < nob d)%nat -> crcc_I2C_vooo d H0 X T L c m k j = crcc_I2C_vooo d H0 Y U L c m k j.
Proof. intros. openag. unfold crcc_I2C_vooo. cong. Qed.
Lemma tr_I2B_ovoo_1 m b i j : (m < noa d)%nat -> (b < nub d)%nat -> (i < noa d)%nat -> (j < nob d)%nat -> crcc_I2B_ovoo_1 d H0 X T L m b i j = crcc_I2B_ovoo_1 d H0 Y U L m b i j.
Proof. intros. openag. unfold crcc_I2B_ovoo_1. cong. Qed.
Lemma tr_X3abb a b c i j k : (a < nua d)%nat -> (b < nub d)%nat -> (c < nub d)%nat -> (i < noa d)%nat -> (j < nob d)%nat -> (k < nob d)%nat -> crcc_X3abb d H0 X T L a b c i j k = crcc_X3abb d H0 Y U L a b c i j k.
Proof. intros. openag. unfold crcc_X3abb. cong; try (apply tr_I2B_ovoo_1; assumption); try (apply tr_I2B_vooo_1; assumption); try (apply tr_I2C_vooo; assumption). Qed.
Lemma tr_L3abb a b c i j k : (a < nua d)%nat -> (b < nub d)%nat -> (c < nub d)%nat -> (i < noa d)%nat -> (j < nob d)%nat -> (k < nob d)%nat -> crcc_L3abb d H0 X T L a b c i j k = crcc_L3abb d H0 Y U L a b c i j k.
Proof. intros. openag. unfold crcc_L3abb. cong. Qed.
Lemma tr_M_abb a b c i j k : (a < nua d)%nat -> (b < nub d)%nat -> (c < nub d)%nat -> (i < noa d)%nat -> (j < nob d)%nat -> (k < nob d)%nat -> crcc_M_abb d H0 X T L a b c i j k = crcc_M_abb d H0 Y U L a b c i j k.
Proof. intros. openag. unfold crcc_M_abb. cong; try (apply tr_X3abb; assumption). Qed.
Lemma tr_L2_abb a b c i j k : (a < nua d)%nat -> (b < nub d)%nat -> (c < nub d)%nat -> (i < noa d)%nat -> (j < nob d)%nat -> (k < nob d)%nat -> crcc_L2_abb d H0 X T L a b c i j k = crcc_L2_abb d H0 Y U L a b c i j k.
Proof. intros. openag. unfold crcc_L2_abb. cong; try (apply tr_L3abb; assumption). Qed.
Lemma tr_L1_abb a b c i j k : (a < nua d)%nat -> (b < nub d)%nat -> (c < nub d)%nat -> (i < noa d)%nat -> (j < nob d)%nat -> (k < nob d)%nat -> crcc_L1_abb d H0 X T L a b c i j k = crcc_L1_abb d H0 Y U L a b c i j k.
Proof. intros. openag. unfold crcc_L1_abb. cong. Qed.
Lemma tr_L_abb a b c i j k : (a < nua d)%nat -> (b < nub d)%nat -> (c < nub d)%nat -> (i < noa d)%nat -> (j < nob d)%nat -> (k < nob d)%nat -> crcc_L_abb d H0 X T L a b c i j k = crcc_L_abb d H0 Y U L a b c i j k.
Proof. intros. openag. unfold crcc_L_abb. cong; try (apply tr_L1_abb; assumption); try (apply tr_L2_abb; assumption). Qed.
Lemma tr_DA_abb a b c i j k : (a < nua d)%nat -> (b < nub d)%nat -> (c < nub d)%nat -> (i < noa d)%nat -> (j < nob d)%nat -> (k < nob d)%nat -> crcc_DA_abb d H0 X T L a b c i j k = crcc_DA_abb d H0 Y U L a b c i j k.
Proof. intros. openag. unfold crcc_DA_abb. cong. Qed.
Lemma tr_DB_abb a b c i j k : (a < nua d)%nat -> (b < nub d)%nat -> (c < nub d)%nat -> (i < noa d)%nat -> (j < nob d)%nat -> (k < nob d)%nat -> crcc_DB_abb d H0 X T L a b c i j k = crcc_DB_abb d H0 Y U L a b c i j k.
Proof. intros. openag. unfold crcc_DB_abb. cong. Qed.
Lemma tr_DC_abb a b c i j k : (a < nua d)%nat -> (b < nub d)%nat -> (c < nub d)%nat -> (i < noa d)%nat -> (j < nob d)%nat -> (k < nob d)%nat -> crcc_DC_abb d H0 X T L a b c i j k = crcc_DC_abb d H0 Y U L a b c i j k.
Proof. intros. openag. unfold crcc_DC_abb. cong; try (apply tr_DB_abb; assumption); try (apply tr_h_ab_vvvv; assumption); try (apply tr_h_bb_vvvv; assumption). Qed.
Lemma tr_DD_abb a b c i j k : (a < nua d)%nat -> (b < nub d)%nat -> (c < nub d)%nat -> (i < noa d)%nat -> (j < nob d)%nat -> (k < nob d)%nat -> crcc_DD_abb d H0 X T L a b c i j k = crcc_DD_abb d H0 Y U L a b c i j k.
Proof. intros. openag. unfold crcc_DD_abb. cong; try (apply tr_DC_abb; assumption); try (apply tr_d3aab_o; assumption); try (apply tr_d3aab_v; assumption); try (apply tr_d3abb_o; assumption); try (apply tr_d3abb_v; assumption); try (apply tr_d3bbb_o; assumption); try (apply tr_d3bbb_v; assumption). Qed.
Lemma tr_I2C_vvov a b i e : (a < nub d)%nat -> (b < nub d)%nat -> (i < nob d)%nat -> (e < nub d)%nat -> crcc_I2C_vvov d H0 X T L a b i e = crcc_I2C_vvov d H0 Y U L a b i e.
Proof. intros. openag. unfold crcc_I2C_vvov. cong. Qed.
Lemma tr_X3bbb a b c i j k : (a < nub d)%nat -> (b < nub d)%nat -> (c < nub d)%nat -> (i < nob d)%nat -> (j < nob d)%nat -> (k < nob d)%nat -> crcc_X3bbb d H0 X T L a b c i j k = crcc_X3bbb d H0 Y U L a b c i j k.
Proof. intros. openag. unfold crcc_X3bbb. cong; try (apply tr_I2C_vvov; assumption). Qed.
Lemma tr_L3bbb a b c i j k : (a < nub d)%nat -> (b < nub d)%nat -> (c < nub d)%nat -> (i < nob d)%nat -> (j < nob d)%nat -> (k < nob d)%nat -> crcc_L3bbb d H0 X T L a b c i j k = crcc_L3bbb d H0 Y U L a b c i j k.
Proof. intros. openag. unfold crcc_L3bbb. cong. Qed.
Lemma tr_M_bbb a b c i j k : (a < nub d)%nat -> (b < nub d)%nat -> (c < nub d)%nat -> (i < nob d)%nat -> (j < nob d)%nat -> (k < nob d)%nat -> crcc_M_bbb d H0 X T L a b c i j k = crcc_M_bbb d H0 Y U L a b c i j k.
Proof. intros. openag. unfold crcc_M_bbb. cong; try (apply tr_X3bbb; assumption). Qed.
Lemma tr_L2_bbb a b c i j k : (a < nub d)%nat -> (b < nub d)%nat -> (c < nub d)%nat -> (i < nob d)%nat -> (j < nob d)%nat -> (k < nob d)%nat -> crcc_L2_bbb d H0 X T L a b c i j k = crcc_L2_bbb d H0 Y U L a b c i j k.
Proof. intros. openag. unfold crcc_L2_bbb. cong; try (apply tr_L3bbb; assumption). Qed.
Lemma tr_L1_bbb a b c i j k : (a < nub d)%nat -> (b < nub d)%nat -> (c < nub d)%nat -> (i < nob d)%nat -> (j < nob d)%nat -> (k < nob d)%nat -> crcc_L1_bbb d H0 X T L a b c i j k = crcc_L1_bbb d H0 Y U L a b c i j k.
Proof. intros. openag. unfold crcc_L1_bbb. cong. Qed.
Lemma tr_L_bbb a b c i j k : (a < nub d)%nat -> (b < nub d)%nat -> (c < nub d)%nat -> (i < nob d)%nat -> (j < nob d)%nat -> (k < nob d)%nat -> crcc_L_bbb d H0 X T L a b c i j k = crcc_L_bbb d H0 Y U L a b c i j k.
Proof. intros. openag. unfold crcc_L_bbb. cong; try (apply tr_L1_bbb; assumption); try (apply tr_L2_bbb; assumption). Qed.
Lemma tr_DA_bbb a b c i j k : (a < nub d)%nat -> (b < nub d)%nat -> (c < nub d)%nat -> (i < nob d)%nat -> (j < nob d)%nat -> (k < nob d)%nat -> crcc_DA_bbb d H0 X T L a b c i j k = crcc_DA_bbb d H0 Y U L a b c i j k.
Proof. intros. openag. unfold crcc_DA_bbb. cong. Qed.
Lemma tr_DB_bbb a b c i j k : (a < nub d)%nat -> (b < nub d)%nat -> (c < nub d)%nat -> (i < nob d)%nat -> (j < nob d)%nat -> (k < nob d)%nat -> crcc_DB_bbb d H0 X T L a b c i j k = crcc_DB_bbb d H0 Y U L a b c i j k.
Proof. intros. openag. unfold crcc_DB_bbb. cong. Qed.
Lemma tr_DC_bbb a b c i j k : (a < nub d)%nat -> (b < nub d)%nat -> (c < nub d)%nat -> (i < nob d)%nat -> (j < nob d)%nat -> (k < nob d)%nat -> crcc_DC_bbb d H0 X T L a b c i j k = crcc_DC_bbb d H0 Y U L a b c i j k.
Proof. intros. openag. unfold crcc_DC_bbb. cong; try (apply tr_DB_bbb; assumption); try (apply tr_h_bb_vvvv; assumption). Qed.
Lemma tr_DD_bbb a b c i j k : (a < nub d)%nat -> (b < nub d)%nat -> (c < nub d)%nat -> (i < nob d)%nat -> (j < nob d)%nat -> (k < nob d)%nat -> crcc_DD_bbb d H0 X T L a b c i j k = crcc_DD_bbb d H0 Y U L a b c i j k.
Proof. intros. openag. unfold crcc_DD_bbb. cong; try (apply tr_DC_bbb; assumption); try (apply tr_d3bbb_o; assumption); try (apply tr_d3bbb_v; assumption). Qed.
End S.
