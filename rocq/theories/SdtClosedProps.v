(** C90: the closed-shell shortcut (flag_RHF) of CCSDT, of its similarity-transformed Hamiltonian and of the right EOMCCSDT vector gives the numbers of the
    unrestricted program. *)
From Coq Require Import Reals Arith List Bool Lra Lia FunctionalExtensionality.
From Verif Require Import RSum IntegralsModel TensorObjs TensorAlg TensorClosed TensorSpec LoopModel CcsdModel CcsdUpdate CcsdProps IntsFix SdtSpec SdtLoops CcsdtModel CcsdtUpdate CcsdtProps EomProps RhfProps
  EomsdtModel EomsdtReify EomsdtProofs LeftSdtModel LeftSdtReify LeftSdtProps FockCcSpec FockSpec FockArrays FockExp FockSectorSpec FockProj FockProps RankSpec SdtClosedModel SdtClosedReify SdtClosedUpdate SdtClosedProofs.
Import ListNotations.
Local Open Scope R_scope.

(** * The transformed Hamiltonian *)
Theorem C90_hbar d H T : closed_shell d H -> singlet3 T -> rhbar_ccsdt d H T = hbar_ccsdt d H T.
Proof. exact (hbar3_eq d H T). Qed.
Theorem C90_hbar_closed d H T : closed_shell d H -> singlet3 T -> closed_shell d (fix_ints (hbar_ccsdt d H T)).
Proof.
  intros HH HT. constructor; [apply HH|apply HH| |now apply hbar3_closed]. apply fix_ints_antisym, hbar3_primary; [apply HH|apply HT|apply HT].
Qed.

(** * Right vector *)
Lemma right_eq d H T Y : closed_shell d H -> singlet3 T -> singlet3 Y -> reomt_HR d H T Y = eomt_HR d H T Y.
Proof.
  intros HH HT HY. unfold reomt_HR, eomt_HR.
  assert (Ea : reomt_X1A_12 d H T Y = eomt_X1A_12 d H T Y) by (apply fun2; now apply hr_a).
  assert (Eaa : reomt_X2A_17 d H T Y = eomt_X2A_17 d H T Y) by (apply fun4; now apply hr_aa).
  assert (Eab : reomt_X2B_31 d H T Y = eomt_X2B_31 d H T Y) by (apply fun4; now apply hr_ab).
  assert (Eaaa : reomt_X3A_15 d H T Y = eomt_X3A_15 d H T Y) by (apply fun6; now apply hr_aaa).
  assert (Eaab : reomt_X3B_41 d H T Y = eomt_X3B_41 d H T Y) by (apply fun6; now apply hr_aab).
  assert (Fb : eomt_X1B_12 d H T Y = eomt_X1A_12 d H T Y) by (apply fun2; now apply hs_b).
  assert (Fbb : eomt_X2C_17 d H T Y = eomt_X2A_17 d H T Y) by (apply fun4; now apply hs_bb).
  assert (Fbbb : eomt_X3D_15 d H T Y = eomt_X3A_15 d H T Y) by (apply fun6; now apply hs_bbb).
  assert (Fabb : eomt_X3C_41 d H T Y = fun a b c i j k => eomt_X3B_41 d H T Y c b a k j i) by (apply fun6; intros; now apply hs_abb).
  unfold reomt_dR_b, reomt_dR_bb, reomt_dR_abb, reomt_dR_bbb.
  unfold reomt_X2A_19, reomt_X2A_18, eomt_X2A_19, eomt_X2A_18, eomt_X2C_19, eomt_X2C_18,
    reomt_X3A_19, reomt_X3A_18, reomt_X3A_17, reomt_X3A_16, eomt_X3A_19, eomt_X3A_18, eomt_X3A_17, eomt_X3A_16, eomt_X3D_19, eomt_X3D_18, eomt_X3D_17, eomt_X3D_16.
  rewrite Ea, Eaa, Eab, Eaaa, Eaab, Fb, Fbb, Fbbb, Fabb. reflexivity.
Qed.
(** The vectors stay in the space of singlets *)
Lemma right_singlet d H T Y : closed_shell d H -> singlet3 T -> singlet3 Y -> singlet3 (eomt_HR d H T Y).
Proof.
  intros HH HT HY. constructor; [constructor| |].
  - change (eomt_HR d H T Y) with (lt_asym_r (lt_pre_r d H T Y)). generalize (lt_pre_r d H T Y). intros Q. constructor; intros; cbn [lt_asym_r x_aa x_bb]; ring.
  - assert (Fbb : eomt_X2C_17 d H T Y = eomt_X2A_17 d H T Y) by (apply fun4; now apply hs_bb).
    constructor; cbn [eomt_HR x_a x_b x_aa x_bb x_ab]; intros.
    + now apply hs_b.
    + unfold eomt_X2A_19, eomt_X2A_18, eomt_X2C_19, eomt_X2C_18. now rewrite Fbb.
    + now apply hs_ab.
  - change (eomt_HR d H T Y) with (lt_asym_r (lt_pre_r d H T Y)). generalize (lt_pre_r d H T Y). intros Q. unfold triples_anti. repeat split; intros; cbn [lt_asym_r x_aaa x_aab x_abb x_bbb]; ring.
  - assert (Fbbb : eomt_X3D_15 d H T Y = eomt_X3A_15 d H T Y) by (apply fun6; now apply hs_bbb).
    constructor; cbn [eomt_HR x_aaa x_aab x_abb x_bbb]; intros.
    + rewrite X3D_fin, X3A_fin. now rewrite Fbbb.
    + rewrite hs_abb by assumption. rewrite !X3B_fin. unfold comb3b. ring.
Qed.
(** EOMCCSDT run with flag_RHF: every block of the right vector is that of the unrestricted program, and singlets are mapped to singlets *)
Theorem C90_right_vector d H T Y : closed_shell d H -> singlet3 T -> singlet3 Y ->
  reomt_HR d (rhbar_ccsdt d H T) T Y = eomt_HR d (hbar_ccsdt d H T) T Y /\ singlet3 (eomt_HR d (hbar_ccsdt d H T) T Y).
Proof.
  intros HH HT HY. rewrite C90_hbar by assumption.
  change (reomt_HR d (fix_ints (hbar_ccsdt d H T)) T Y = eomt_HR d (fix_ints (hbar_ccsdt d H T)) T Y /\ singlet3 (eomt_HR d (fix_ints (hbar_ccsdt d H T)) T Y)).
  assert (C := C90_hbar_closed d H T HH HT). split; [now apply right_eq|now apply right_singlet].
Qed.
(** * The ground state *)
Theorem C90_residual_singlet d H T : closed_shell d H -> singlet3 T -> singlet3 (ccsdt_resid d H T).
Proof.
  intros HH HT. constructor; [constructor| |]; cbn [ccsdt_resid].
  - constructor; intros; cbn [ccsdt_resid x_aa x_bb]; unfold four_term; ring.
  - constructor; intros; cbn [ccsdt_resid x_a x_b x_aa x_bb x_ab]; [now apply (cs_b d H T T)|now apply (cs_bb d H T T)|now apply (cs_ab d H T T)].
  - unfold triples_anti; repeat split; intros; cbn [ccsdt_resid x_aaa x_aab x_abb x_bbb]; unfold comb3, comb3b, comb3c; ring.
  - constructor; intros; cbn [ccsdt_resid x_aaa x_aab x_abb x_bbb]; [now apply (cs_bbb d H T T)|now apply (cs_abb d H T T)].
Qed.
(** The order of loops and copies, for any loops that change nothing outside the arrays (proof support) *)
Lemma closed_iter_fix d fa faa fab faaa faab cp T : (x_b (cp T) = x_a T /\ x_bb (cp T) = x_aa T /\ x_bbb (cp T) = x_aaa T /\ x_abb (cp T) = fun a b c i j k => x_aab T c b a k j i) -> closed_amps T -> triples_anti T -> closed_triples T ->
  ((forall a i, (a < nua d)%nat -> (i < noa d)%nat -> fa T a i = x_a T a i) -> fa T = x_a T) ->
  ((forall a b i j, (a < nua d)%nat -> (b < nua d)%nat -> (i < noa d)%nat -> (j < noa d)%nat -> faa T a b i j = x_aa T a b i j) -> faa T = x_aa T) ->
  ((forall a b i j, (a < nua d)%nat -> (b < nub d)%nat -> (i < noa d)%nat -> (j < nob d)%nat -> fab T a b i j = x_ab T a b i j) -> fab T = x_ab T) ->
  ((forall a b c i j k, (a < nua d)%nat -> (b < nua d)%nat -> (c < nua d)%nat -> (i < noa d)%nat -> (j < noa d)%nat -> (k < noa d)%nat -> faaa T a b c i j k = x_aaa T a b c i j k) -> faaa T = x_aaa T) ->
  ((forall a b c i j k, (a < nua d)%nat -> (b < nua d)%nat -> (c < nub d)%nat -> (i < noa d)%nat -> (j < noa d)%nat -> (k < nob d)%nat -> faab T a b c i j k = x_aab T a b c i j k) -> faab T = x_aab T) ->
  (same_amps3 d (closed_iter fa faa fab faaa faab cp T) T <-> (fa T = x_a T /\ faa T = x_aa T /\ fab T = x_ab T /\ faaa T = x_aaa T /\ faab T = x_aab T)).
Proof.
  intros (Kb & Kbb & Kbbb & Kabb) [Cb Cbb _] (_&_&_&_&Ai&Ab&_) [Cbbb Cabb] Pa Paa Pab Paaa Paab.
  assert (Sb : set_b T (x_b (cp T)) = T). { rewrite Kb, <- (fun2 _ _ Cb). apply set_b_id. }
  assert (Sbb : set_bb T (x_bb (cp T)) = T). { rewrite Kbb, <- (fun4 _ _ Cbb). apply set_bb_id. }
  assert (Sbbb : set_bbb T (x_bbb (cp T)) = T). { rewrite Kbbb, <- (fun6 _ _ Cbbb). apply set_bbb_id. }
  assert (Sabb : set_abb T (x_abb (cp T)) = T).
  { replace (x_abb (cp T)) with (x_abb T); [apply set_abb_id|]. rewrite Kabb. apply fun6. intros. rewrite Cabb, Ai, Ab. ring. }
  split.
  - intros (Ea & Eb & Eaa & Eab & Ebb & Eaaa & Eaab & Eabb & Ebbb). unfold closed_iter in *.
    cbn [set_a set_b set_aa set_ab set_bb set_aaa set_aab set_abb set_bbb x_a x_b x_aa x_ab x_bb x_aaa x_aab x_abb x_bbb] in Ea. apply Pa in Ea.
    rewrite Ea, set_a_id, Sb in Eaa, Eab, Eaaa, Eaab. cbn [set_a set_b set_aa set_ab set_bb set_aaa set_aab set_abb set_bbb x_aa] in Eaa. apply Paa in Eaa.
    rewrite Eaa, set_aa_id in Eab, Eaaa, Eaab. cbn [set_a set_b set_aa set_ab set_bb set_aaa set_aab set_abb set_bbb x_ab] in Eab. apply Pab in Eab.
    rewrite Eab, set_ab_id, Sbb in Eaaa, Eaab. cbn [set_a set_b set_aa set_ab set_bb set_aaa set_aab set_abb set_bbb x_aaa] in Eaaa. apply Paaa in Eaaa.
    rewrite Eaaa, set_aaa_id in Eaab. cbn [set_a set_b set_aa set_ab set_bb set_aaa set_aab set_abb set_bbb x_aab] in Eaab. apply Paab in Eaab. auto.
  - intros (Ea & Eaa & Eab & Eaaa & Eaab).
    assert (E : closed_iter fa faa fab faaa faab cp T = T).
    { unfold closed_iter. rewrite Ea, set_a_id, Sb, Eaa, set_aa_id, Eab, set_ab_id, Sbb, Eaaa, set_aaa_id, Eaab, set_aab_id, Sabb. exact Sbbb. }
    rewrite E. unfold same_amps3. repeat split; reflexivity.
Qed.
(** Whatever the loops do, the amplitudes after an iteration with flag_RHF have spin-exchanged copies in the blocks b, bb, abb, bbb *)
Theorem C90_iterate_copies d s H T : let V := rccsdt_iter d s H T in
  (forall a i, x_b V a i = x_a V a i) /\ (forall a b i j, x_bb V a b i j = x_aa V a b i j) /\
  (forall a b c i j k, x_bbb V a b c i j k = x_aaa V a b c i j k) /\ (forall a b c i j k, x_abb V a b c i j k = x_aab V c b a k j i).
Proof. repeat split; reflexivity. Qed.
(** Converged amplitudes are the same with and without flag_RHF: a closed-shell singlet set of amplitudes that one iteration leaves unchanged *)
Theorem C90_converged d s H T : closed_shell d H -> singlet3 T -> regular3 d s H ->
  (same_amps3 d (rccsdt_iter d s H T) T <-> same_amps3 d (ccsdt_iter d s H T) T).
Proof.
  intros HH HT Rg. assert (Rz := C90_residual_singlet d H T HH HT). destruct HT as [[AT CT] A3 C3] eqn:Q. rewrite C79_iteration by assumption.
  assert (Ra : rccsdt_res_a d H T T = ccsdt_res_a d H T T) by (apply fun2; now apply (cr_a d H T T)).
  assert (Raa : rccsdt_res_aa d H T T = ccsdt_res_aa d H T T) by (apply fun4; now apply (cr_aa d H T T)).
  assert (Rab : rccsdt_res_ab d H T T = ccsdt_res_ab d H T T) by (apply fun4; now apply (cr_ab d H T T)).
  assert (Raaa : rccsdt_res_aaa d H T T = ccsdt_res_aaa d H T T) by (apply fun6; now apply (cr_aaa d H T T)).
  assert (Raab : rccsdt_res_aab d H T T = ccsdt_res_aab d H T T) by (apply fun6; now apply (cr_aab d H T T)).
  clear Q. unfold rccsdt_iter. rewrite (closed_iter_fix d);
    [|repeat split; reflexivity|assumption|assumption|assumption|apply upd_t1_id|apply upd_t2_id|apply upd_t2b_id|apply upd_t3_id|apply upd_t3b_id].
  rewrite Ra, Raa, Rab, Raaa, Raab. clear Ra Raa Rab Raaa Raab.
  destruct HH as [En Em _ _]. destruct Rg as [[Da Db Daa Dab Dbb] Daaa Daab Dabb Dbbb]. destruct (antisym_anti4 T AT) as [Baa Bbb].
  assert (Fa := fun X => upd_t1_fix (noa d) (nua d) (x_a T) X (i_a_oo H) (i_a_vv H) s Da).
  assert (Faa := fun X => upd_t2_fix (noa d) (nua d) (x_aa T) X (i_a_oo H) (i_a_vv H) s Baa Daa).
  assert (Fab := fun X => upd_t2b_fix (noa d) (nob d) (nua d) (nub d) (x_ab T) X (i_a_oo H) (i_a_vv H) (i_b_oo H) (i_b_vv H) s Dab).
  assert (Faaa := fun X => upd_t3_fix (noa d) (nua d) (x_aaa T) X (i_a_oo H) (i_a_vv H) s (anti_aaa T A3) Daaa).
  assert (Faab := fun X => upd_t3b_fix (noa d) (nob d) (nua d) (nub d) (x_aab T) X (i_a_oo H) (i_a_vv H) (i_b_oo H) (i_b_vv H) s (anti_aab T A3) Daab).
  assert (Zb : forall a i, ccsdt_res_b d H T T a i = ccsdt_res_a d H T T a i) by exact (cx_a _ (sg_spin _ (s3_sd _ Rz))).
  assert (Zbb : forall a b i j, four_term (ccsdt_res_bb d H T T) a b i j = four_term (ccsdt_res_aa d H T T) a b i j) by exact (cx_aa _ (sg_spin _ (s3_sd _ Rz))).
  assert (Zbbb : forall a b c i j k, comb3 (ccsdt_res_bbb d H T T) a b c i j k = comb3 (ccsdt_res_aaa d H T T) a b c i j k) by exact (cx_aaa _ (s3_spin _ Rz)).
  assert (Zabb : forall a b c i j k, comb3c (ccsdt_res_abb d H T T) a b c i j k = comb3b (ccsdt_res_aab d H T T) b c a j k i) by exact (cx_aab _ (s3_spin _ Rz)).
  unfold same_amps3; cbn [ccsdt_resid zero_amps x_a x_b x_aa x_ab x_bb x_aaa x_aab x_abb x_bbb].
  clear Rz Da Db Daa Dab Dbb Daaa Daab Dabb Dbbb.
  revert Fa Faa Fab Faaa Faab Zb Zbb Zbbb Zabb.
  generalize (ccsdt_res_a d H T T) (ccsdt_res_b d H T T) (ccsdt_res_aa d H T T) (ccsdt_res_ab d H T T) (ccsdt_res_bb d H T T) (ccsdt_res_aaa d H T T) (ccsdt_res_aab d H T T) (ccsdt_res_abb d H T T) (ccsdt_res_bbb d H T T).
  intros ra rb raa rab rbb raaa raab rabb rbbb Fa Faa Fab Faaa Faab Zb Zbb Zbbb Zabb. split.
  - intros (Ea & Eaa & Eab & Eaaa & Eaab).
    assert (Ga := proj1 (Fa ra) ltac:(intros; now rewrite Ea)). assert (Gaa := proj1 (Faa raa) ltac:(intros; now rewrite Eaa)).
    assert (Gab := proj1 (Fab rab) ltac:(intros; now rewrite Eab)). assert (Gaaa := proj1 (Faaa raaa) ltac:(intros ? ? ? ? ? ?; intros; now rewrite Eaaa)).
    assert (Gaab := proj1 (Faab raab) ltac:(intros ? ? ? ? ? ?; intros; now rewrite Eaab)). clear Fa Faa Fab Faaa Faab Ea Eaa Eab Eaaa Eaab.
    refine (conj Ga (conj _ (conj Gaa (conj Gab (conj _ (conj Gaaa (conj Gaab (conj _ _)))))))); intros.
    + rewrite Zb. apply Ga; congruence.
    + rewrite Zbb. apply Gaa; congruence.
    + rewrite Zabb. apply Gaab; congruence.
    + rewrite Zbbb. apply Gaaa; congruence.
  - intros (Ga & _ & Gaa & Gab & _ & Gaaa & Gaab & _ & _). repeat split.
    + apply upd_t1_id. now apply Fa.
    + apply upd_t2_id. now apply Faa.
    + apply upd_t2b_id. now apply Fab.
    + apply upd_t3_id. apply Faaa. intros ? ? ? ? ? ?; intros; now apply Gaaa.
    + apply upd_t3b_id. apply Faab. intros ? ? ? ? ? ?; intros; now apply Gaab.
Qed.
(** With flag_RHF, CCSDT stops at the exponential wave function that solves the Schroedinger equation projected on up to triple excitations *)
Theorem C90_schroedinger d I T n m s : shape d n -> exchangeable I -> closed_shell d (fock_ints (noa d) (nob d) I) -> singlet3 T -> (noa d + nob d + 4 <= m)%nat ->
  regular3 d s (fock_ints (noa d) (nob d) I) ->
  (same_amps3 d (rccsdt_iter d s (fock_ints (noa d) (nob d) I) T) T <-> exists E, solves_on (sdt_space d n) n I E (sdt_state d T m)).
Proof. intros Hd HI HH HT Hm Rg. rewrite C90_converged by assumption. apply C79_fixed_point; try assumption; apply HT. Qed.

(** Instance: the two-level closed shell of C51 with any spin-free two-body integrals, and amplitudes with triples that are not zero *)
Definition trip_amps (f g : nat -> nat -> R) (e : nat -> nat -> R) (e3 : nat -> nat -> nat -> R) : amps :=
  let P := prod_amps f g in
  mkAmps (x_a P) (x_b P) (x_aa P) (x_ab P) (x_bb P) (fun a b c i j k => e3 a b c * e3 i j k) (fun a b c i j k => e a b * e i j * f c k)
    (fun a b c i j k => e b c * e j k * f a i) (fun a b c i j k => e3 a b c * e3 i j k).
Example C90_instance v : (forall p q r s, v p q r s = v q p s r) ->
  let d := mkDims 2 3 2 3 in let T := trip_amps (fun p q => INR (p + 2 * q)) (fun p q => INR (p * q)) (fun p q => INR p - INR q) (fun p q r => (INR p - INR q) * (INR q - INR r) * (INR p - INR r)) in
  closed_shell d (two_level d v) /\ singlet3 T /\ regular3 d 0 (two_level d v) /\ x_aab T 0%nat 1%nat 2%nat 0%nat 1%nat 1%nat <> 0.
Proof.
  intros Hv d T. split; [constructor; [reflexivity|reflexivity|now apply rhf_ints_antisym|now apply rhf_ints_closed]|]. split; [|split].
  - constructor; [constructor; [destruct (prod_amps_antisym (fun p q => INR (p + 2 * q)) (fun p q => INR (p * q))); constructor; assumption
      |destruct (prod_amps_closed (fun p q => INR (p + 2 * q)) (fun p q => INR (p * q))); constructor; assumption]| |].
    + unfold triples_anti. repeat split; intros; cbn [T trip_amps x_aaa x_aab x_abb x_bbb]; ring.
    + constructor; intros; cbn [T trip_amps x_aaa x_aab x_abb x_bbb]; reflexivity.
  - constructor; [apply (C51_instance v Hv)| | | |]; unfold d, two_level, rhf_ints; unfold off; cbn [nua noa nub nob i_a_oo i_a_vv i_b_oo i_b_vv]; intros;
    repeat match goal with L : (?x < 3)%nat |- _ => apply Nat.ltb_lt in L; revert L | L : (?x < 2)%nat |- _ => apply Nat.ltb_lt in L; revert L end; intros;
    repeat rewrite Nat.eqb_refl;
    repeat match goal with |- context [Nat.ltb (?a + ?b) 2] => replace (Nat.ltb (a + b) 2) with false by (symmetry; apply Nat.ltb_ge; lia) end;
    repeat match goal with L : Nat.ltb _ 2 = true |- _ => rewrite L; clear L end; lra.
  - cbn. lra.
Qed.

Print Assumptions C90_converged.
Print Assumptions C90_right_vector.
