(** C79: CCSDT.  The coupled-cluster wave function with singles, doubles and triples, the program's amplitude equations (ccpy/cc/ccsdt.py) and its update
    loops against second quantisation. *)
From Coq Require Import Reals Arith NArith List Bool Lia Lra QArith Qreals FunctionalExtensionality.
From Verif Require Import RSum IntegralsModel TensorObjs TensorAlg TensorSpec LoopModel CcsdModel CcsdUpdate CcsdProps FockSpec FockCar FockArrays FockCcSpec FockTerms FockExp FockLevel FockState FockProps FockSectorSpec RankSpec QEval
  CcsdtModel CcsdtReify CcsdtUpdate SdtSpec SdtFock SdtState SdtLoops.
Import ListNotations.
Local Open Scope R_scope.
Notation sdt_state d T m := (expo (cluster_sdt d T) m (pure (cc_ref d))).

(** Orbital-energy denominators (with level shift) are not zero, triples included *)
Record regular3 (d : dims) (s : R) (H : ints) : Prop := {
  r3_sd : regular d s H;
  r3_aaa : forall a b c i j k, (a < nua d)%nat -> (b < nua d)%nat -> (c < nua d)%nat -> (i < noa d)%nat -> (j < noa d)%nat -> (k < noa d)%nat ->
    i_a_oo H i i + i_a_oo H j j + i_a_oo H k k - i_a_vv H a a - i_a_vv H b b - i_a_vv H c c - s <> 0;
  r3_aab : forall a b c i j k, (a < nua d)%nat -> (b < nua d)%nat -> (c < nub d)%nat -> (i < noa d)%nat -> (j < noa d)%nat -> (k < nob d)%nat ->
    i_a_oo H i i + i_a_oo H j j + i_b_oo H k k - i_a_vv H a a - i_a_vv H b b - i_b_vv H c c - s <> 0;
  r3_abb : forall a b c i j k, (a < nua d)%nat -> (b < nub d)%nat -> (c < nub d)%nat -> (i < noa d)%nat -> (j < nob d)%nat -> (k < nob d)%nat ->
    i_a_oo H i i + i_b_oo H j j + i_b_oo H k k - i_a_vv H a a - i_b_vv H b b - i_b_vv H c c - s <> 0;
  r3_bbb : forall a b c i j k, (a < nub d)%nat -> (b < nub d)%nat -> (c < nub d)%nat -> (i < nob d)%nat -> (j < nob d)%nat -> (k < nob d)%nat ->
    i_b_oo H i i + i_b_oo H j j + i_b_oo H k k - i_b_vv H a a - i_b_vv H b b - i_b_vv H c c - s <> 0 }.
Lemma set_aaa_id T : set_aaa T (x_aaa T) = T. Proof. now destruct T. Qed.
Lemma set_aab_id T : set_aab T (x_aab T) = T. Proof. now destruct T. Qed.
Lemma set_abb_id T : set_abb T (x_abb T) = T. Proof. now destruct T. Qed.
Lemma set_bbb_id T : set_bbb T (x_bbb T) = T. Proof. now destruct T. Qed.
Lemma anti_aaa T : triples_anti T -> anti6 (x_aaa T). Proof. intros (?&?&?&?&_). repeat split; auto. Qed.
Lemma anti_aab T : triples_anti T -> anti6b (x_aab T). Proof. intros (_&_&_&_&?&?&_). split; auto. Qed.
Lemma anti_abb T : triples_anti T -> anti6c (x_abb T). Proof. intros (_&_&_&_&_&_&?&?&_). split; auto. Qed.
Lemma anti_bbb T : triples_anti T -> anti6 (x_bbb T). Proof. intros (_&_&_&_&_&_&_&_&?&?&?&?). repeat split; auto. Qed.
Ltac blocks := cbn [ccsdt_resid zero_amps set_a set_b set_aa set_ab set_bb set_aaa set_aab set_abb set_bbb x_a x_b x_aa x_ab x_bb x_aaa x_aab x_abb x_bbb].
Ltac blocks_in H := cbn [ccsdt_resid zero_amps set_a set_b set_aa set_ab set_bb set_aaa set_aab set_abb set_bbb x_a x_b x_aa x_ab x_bb x_aaa x_aab x_abb x_bbb] in H.

(** The nine block updates of one iteration (proof support) *)
Section Steps.
Variables (d : dims) (s : R) (H : ints) (T : amps).
Lemma iter_steps : ccsdt_iter d s H T = ccsdt_step_bbb d s H T (ccsdt_step_abb d s H T (ccsdt_step_aab d s H T (ccsdt_step_aaa d s H T (ccsdt_step_bb d s H T (ccsdt_step_ab d s H T (ccsdt_step_aa d s H T (ccsdt_step_b d s H T (ccsdt_step_a d s H T T)))))))).
Proof. reflexivity. Qed.
Lemma st_b_a U : x_a (ccsdt_step_b d s H T U) = x_a U. Proof. reflexivity. Qed.
Lemma st_aa_a U : x_a (ccsdt_step_aa d s H T U) = x_a U. Proof. reflexivity. Qed.
Lemma st_aa_b U : x_b (ccsdt_step_aa d s H T U) = x_b U. Proof. reflexivity. Qed.
Lemma st_ab_a U : x_a (ccsdt_step_ab d s H T U) = x_a U. Proof. reflexivity. Qed.
Lemma st_ab_b U : x_b (ccsdt_step_ab d s H T U) = x_b U. Proof. reflexivity. Qed.
Lemma st_ab_aa U : x_aa (ccsdt_step_ab d s H T U) = x_aa U. Proof. reflexivity. Qed.
Lemma st_bb_a U : x_a (ccsdt_step_bb d s H T U) = x_a U. Proof. reflexivity. Qed.
Lemma st_bb_b U : x_b (ccsdt_step_bb d s H T U) = x_b U. Proof. reflexivity. Qed.
Lemma st_bb_aa U : x_aa (ccsdt_step_bb d s H T U) = x_aa U. Proof. reflexivity. Qed.
Lemma st_bb_ab U : x_ab (ccsdt_step_bb d s H T U) = x_ab U. Proof. reflexivity. Qed.
Lemma st_aaa_a U : x_a (ccsdt_step_aaa d s H T U) = x_a U. Proof. reflexivity. Qed.
Lemma st_aaa_b U : x_b (ccsdt_step_aaa d s H T U) = x_b U. Proof. reflexivity. Qed.
Lemma st_aaa_aa U : x_aa (ccsdt_step_aaa d s H T U) = x_aa U. Proof. reflexivity. Qed.
Lemma st_aaa_ab U : x_ab (ccsdt_step_aaa d s H T U) = x_ab U. Proof. reflexivity. Qed.
Lemma st_aaa_bb U : x_bb (ccsdt_step_aaa d s H T U) = x_bb U. Proof. reflexivity. Qed.
Lemma st_aab_a U : x_a (ccsdt_step_aab d s H T U) = x_a U. Proof. reflexivity. Qed.
Lemma st_aab_b U : x_b (ccsdt_step_aab d s H T U) = x_b U. Proof. reflexivity. Qed.
Lemma st_aab_aa U : x_aa (ccsdt_step_aab d s H T U) = x_aa U. Proof. reflexivity. Qed.
Lemma st_aab_ab U : x_ab (ccsdt_step_aab d s H T U) = x_ab U. Proof. reflexivity. Qed.
Lemma st_aab_bb U : x_bb (ccsdt_step_aab d s H T U) = x_bb U. Proof. reflexivity. Qed.
Lemma st_aab_aaa U : x_aaa (ccsdt_step_aab d s H T U) = x_aaa U. Proof. reflexivity. Qed.
Lemma st_abb_a U : x_a (ccsdt_step_abb d s H T U) = x_a U. Proof. reflexivity. Qed.
Lemma st_abb_b U : x_b (ccsdt_step_abb d s H T U) = x_b U. Proof. reflexivity. Qed.
Lemma st_abb_aa U : x_aa (ccsdt_step_abb d s H T U) = x_aa U. Proof. reflexivity. Qed.
Lemma st_abb_ab U : x_ab (ccsdt_step_abb d s H T U) = x_ab U. Proof. reflexivity. Qed.
Lemma st_abb_bb U : x_bb (ccsdt_step_abb d s H T U) = x_bb U. Proof. reflexivity. Qed.
Lemma st_abb_aaa U : x_aaa (ccsdt_step_abb d s H T U) = x_aaa U. Proof. reflexivity. Qed.
Lemma st_abb_aab U : x_aab (ccsdt_step_abb d s H T U) = x_aab U. Proof. reflexivity. Qed.
Lemma st_bbb_a U : x_a (ccsdt_step_bbb d s H T U) = x_a U. Proof. reflexivity. Qed.
Lemma st_bbb_b U : x_b (ccsdt_step_bbb d s H T U) = x_b U. Proof. reflexivity. Qed.
Lemma st_bbb_aa U : x_aa (ccsdt_step_bbb d s H T U) = x_aa U. Proof. reflexivity. Qed.
Lemma st_bbb_ab U : x_ab (ccsdt_step_bbb d s H T U) = x_ab U. Proof. reflexivity. Qed.
Lemma st_bbb_bb U : x_bb (ccsdt_step_bbb d s H T U) = x_bb U. Proof. reflexivity. Qed.
Lemma st_bbb_aaa U : x_aaa (ccsdt_step_bbb d s H T U) = x_aaa U. Proof. reflexivity. Qed.
Lemma st_bbb_aab U : x_aab (ccsdt_step_bbb d s H T U) = x_aab U. Proof. reflexivity. Qed.
Lemma st_bbb_abb U : x_abb (ccsdt_step_bbb d s H T U) = x_abb U. Proof. reflexivity. Qed.
End Steps.
(** One iteration leaves the amplitudes unchanged exactly when they solve the CCSDT equations *)
Theorem C79_iteration d s H T : antisym_amps T -> triples_anti T -> regular3 d s H ->
  (same_amps3 d (ccsdt_iter d s H T) T <-> same_amps3 d (ccsdt_resid d H T) zero_amps).
Proof.
  intros HT HY [[Da Db Daa Dab Dbb] Daaa Daab Dabb Dbbb]. destruct (antisym_anti4 T HT) as [Aaa Abb].
  assert (Baaa := anti_aaa T HY). assert (Baab := anti_aab T HY). assert (Babb := anti_abb T HY). assert (Bbbb := anti_bbb T HY).
  assert (Fa := fun X => upd_t1_fix (noa d) (nua d) (x_a T) X (i_a_oo H) (i_a_vv H) s Da).
  assert (Fb := fun X => upd_t1_fix (nob d) (nub d) (x_b T) X (i_b_oo H) (i_b_vv H) s Db).
  assert (Faa := fun X => upd_t2_fix (noa d) (nua d) (x_aa T) X (i_a_oo H) (i_a_vv H) s Aaa Daa).
  assert (Fab := fun X => upd_t2b_fix (noa d) (nob d) (nua d) (nub d) (x_ab T) X (i_a_oo H) (i_a_vv H) (i_b_oo H) (i_b_vv H) s Dab).
  assert (Fbb := fun X => upd_t2_fix (nob d) (nub d) (x_bb T) X (i_b_oo H) (i_b_vv H) s Abb Dbb).
  assert (Faaa := fun X => upd_t3_fix (noa d) (nua d) (x_aaa T) X (i_a_oo H) (i_a_vv H) s Baaa Daaa).
  assert (Faab := fun X => upd_t3b_fix (noa d) (nob d) (nua d) (nub d) (x_aab T) X (i_a_oo H) (i_a_vv H) (i_b_oo H) (i_b_vv H) s Baab Daab).
  assert (Fabb := fun X => upd_t3c_fix (noa d) (nob d) (nua d) (nub d) (x_abb T) X (i_a_oo H) (i_a_vv H) (i_b_oo H) (i_b_vv H) s Babb Dabb).
  assert (Fbbb := fun X => upd_t3_fix (nob d) (nub d) (x_bbb T) X (i_b_oo H) (i_b_vv H) s Bbbb Dbbb).
  clear Da Db Daa Dab Dbb Daaa Daab Dabb Dbbb Aaa Abb Baaa Baab Babb Bbbb HT HY. rewrite iter_steps. unfold same_amps3. split.
  - intros (Ea & Eb & Eaa & Eab & Ebb & Eaaa & Eaab & Eabb & Ebbb).
    assert (Ga : x_a (ccsdt_step_a d s H T T) = fst (upd_t1 (noa d) (nua d) (x_a T) (ccsdt_res_a d H T T) (i_a_oo H) (i_a_vv H) s)) by reflexivity.
    assert (Ka : x_a (ccsdt_step_bbb d s H T (ccsdt_step_abb d s H T (ccsdt_step_aab d s H T (ccsdt_step_aaa d s H T (ccsdt_step_bb d s H T (ccsdt_step_ab d s H T (ccsdt_step_aa d s H T (ccsdt_step_b d s H T (ccsdt_step_a d s H T T))))))))) = x_a (ccsdt_step_a d s H T T)) by (rewrite st_bbb_a, st_abb_a, st_aab_a, st_aaa_a, st_bb_a, st_ab_a, st_aa_a, st_b_a; reflexivity). rewrite Ka, Ga in Ea.
    assert (Sa : ccsdt_step_a d s H T T = T) by (unfold ccsdt_step_a; rewrite (upd_t1_id _ _ _ _ _ _ _ Ea); apply set_a_id). rewrite Sa in Eb, Eaa, Eab, Ebb, Eaaa, Eaab, Eabb, Ebbb. clear Ga Ka Sa.
    assert (Gb : x_b (ccsdt_step_b d s H T T) = fst (upd_t1 (nob d) (nub d) (x_b T) (ccsdt_res_b d H T T) (i_b_oo H) (i_b_vv H) s)) by reflexivity.
    assert (Kb : x_b (ccsdt_step_bbb d s H T (ccsdt_step_abb d s H T (ccsdt_step_aab d s H T (ccsdt_step_aaa d s H T (ccsdt_step_bb d s H T (ccsdt_step_ab d s H T (ccsdt_step_aa d s H T (ccsdt_step_b d s H T T)))))))) = x_b (ccsdt_step_b d s H T T)) by (rewrite st_bbb_b, st_abb_b, st_aab_b, st_aaa_b, st_bb_b, st_ab_b, st_aa_b; reflexivity). rewrite Kb, Gb in Eb.
    assert (Sb : ccsdt_step_b d s H T T = T) by (unfold ccsdt_step_b; rewrite (upd_t1_id _ _ _ _ _ _ _ Eb); apply set_b_id). rewrite Sb in Eaa, Eab, Ebb, Eaaa, Eaab, Eabb, Ebbb. clear Gb Kb Sb.
    assert (Gaa : x_aa (ccsdt_step_aa d s H T T) = fst (upd_t2 (noa d) (nua d) (x_aa T) (ccsdt_res_aa d H T T) (i_a_oo H) (i_a_vv H) s)) by reflexivity.
    assert (Kaa : x_aa (ccsdt_step_bbb d s H T (ccsdt_step_abb d s H T (ccsdt_step_aab d s H T (ccsdt_step_aaa d s H T (ccsdt_step_bb d s H T (ccsdt_step_ab d s H T (ccsdt_step_aa d s H T T))))))) = x_aa (ccsdt_step_aa d s H T T)) by (rewrite st_bbb_aa, st_abb_aa, st_aab_aa, st_aaa_aa, st_bb_aa, st_ab_aa; reflexivity). rewrite Kaa, Gaa in Eaa.
    assert (Saa : ccsdt_step_aa d s H T T = T) by (unfold ccsdt_step_aa; rewrite (upd_t2_id _ _ _ _ _ _ _ Eaa); apply set_aa_id). rewrite Saa in Eab, Ebb, Eaaa, Eaab, Eabb, Ebbb. clear Gaa Kaa Saa.
    assert (Gab : x_ab (ccsdt_step_ab d s H T T) = fst (upd_t2b (noa d) (nob d) (nua d) (nub d) (x_ab T) (ccsdt_res_ab d H T T) (i_a_oo H) (i_a_vv H) (i_b_oo H) (i_b_vv H) s)) by reflexivity.
    assert (Kab : x_ab (ccsdt_step_bbb d s H T (ccsdt_step_abb d s H T (ccsdt_step_aab d s H T (ccsdt_step_aaa d s H T (ccsdt_step_bb d s H T (ccsdt_step_ab d s H T T)))))) = x_ab (ccsdt_step_ab d s H T T)) by (rewrite st_bbb_ab, st_abb_ab, st_aab_ab, st_aaa_ab, st_bb_ab; reflexivity). rewrite Kab, Gab in Eab.
    assert (Sab : ccsdt_step_ab d s H T T = T) by (unfold ccsdt_step_ab; rewrite (upd_t2b_id _ _ _ _ _ _ _ _ _ _ _ Eab); apply set_ab_id). rewrite Sab in Ebb, Eaaa, Eaab, Eabb, Ebbb. clear Gab Kab Sab.
    assert (Gbb : x_bb (ccsdt_step_bb d s H T T) = fst (upd_t2 (nob d) (nub d) (x_bb T) (ccsdt_res_bb d H T T) (i_b_oo H) (i_b_vv H) s)) by reflexivity.
    assert (Kbb : x_bb (ccsdt_step_bbb d s H T (ccsdt_step_abb d s H T (ccsdt_step_aab d s H T (ccsdt_step_aaa d s H T (ccsdt_step_bb d s H T T))))) = x_bb (ccsdt_step_bb d s H T T)) by (rewrite st_bbb_bb, st_abb_bb, st_aab_bb, st_aaa_bb; reflexivity). rewrite Kbb, Gbb in Ebb.
    assert (Sbb : ccsdt_step_bb d s H T T = T) by (unfold ccsdt_step_bb; rewrite (upd_t2_id _ _ _ _ _ _ _ Ebb); apply set_bb_id). rewrite Sbb in Eaaa, Eaab, Eabb, Ebbb. clear Gbb Kbb Sbb.
    assert (Gaaa : x_aaa (ccsdt_step_aaa d s H T T) = fst (upd_t3 (noa d) (nua d) (x_aaa T) (ccsdt_res_aaa d H T T) (i_a_oo H) (i_a_vv H) s)) by reflexivity.
    assert (Kaaa : x_aaa (ccsdt_step_bbb d s H T (ccsdt_step_abb d s H T (ccsdt_step_aab d s H T (ccsdt_step_aaa d s H T T)))) = x_aaa (ccsdt_step_aaa d s H T T)) by (rewrite st_bbb_aaa, st_abb_aaa, st_aab_aaa; reflexivity). rewrite Kaaa, Gaaa in Eaaa.
    assert (Saaa : ccsdt_step_aaa d s H T T = T) by (unfold ccsdt_step_aaa; rewrite (upd_t3_id _ _ _ _ _ _ _ Eaaa); apply set_aaa_id). rewrite Saaa in Eaab, Eabb, Ebbb. clear Gaaa Kaaa Saaa.
    assert (Gaab : x_aab (ccsdt_step_aab d s H T T) = fst (upd_t3b (noa d) (nob d) (nua d) (nub d) (x_aab T) (ccsdt_res_aab d H T T) (i_a_oo H) (i_a_vv H) (i_b_oo H) (i_b_vv H) s)) by reflexivity.
    assert (Kaab : x_aab (ccsdt_step_bbb d s H T (ccsdt_step_abb d s H T (ccsdt_step_aab d s H T T))) = x_aab (ccsdt_step_aab d s H T T)) by (rewrite st_bbb_aab, st_abb_aab; reflexivity). rewrite Kaab, Gaab in Eaab.
    assert (Saab : ccsdt_step_aab d s H T T = T) by (unfold ccsdt_step_aab; rewrite (upd_t3b_id _ _ _ _ _ _ _ _ _ _ _ Eaab); apply set_aab_id). rewrite Saab in Eabb, Ebbb. clear Gaab Kaab Saab.
    assert (Gabb : x_abb (ccsdt_step_abb d s H T T) = fst (upd_t3c (noa d) (nob d) (nua d) (nub d) (x_abb T) (ccsdt_res_abb d H T T) (i_a_oo H) (i_a_vv H) (i_b_oo H) (i_b_vv H) s)) by reflexivity.
    assert (Kabb : x_abb (ccsdt_step_bbb d s H T (ccsdt_step_abb d s H T T)) = x_abb (ccsdt_step_abb d s H T T)) by (rewrite st_bbb_abb; reflexivity). rewrite Kabb, Gabb in Eabb.
    assert (Sabb : ccsdt_step_abb d s H T T = T) by (unfold ccsdt_step_abb; rewrite (upd_t3c_id _ _ _ _ _ _ _ _ _ _ _ Eabb); apply set_abb_id). rewrite Sabb in Ebbb. clear Gabb Kabb Sabb.
    assert (Gbbb : x_bbb (ccsdt_step_bbb d s H T T) = fst (upd_t3 (nob d) (nub d) (x_bbb T) (ccsdt_res_bbb d H T T) (i_b_oo H) (i_b_vv H) s)) by reflexivity.
    rewrite Gbbb in Ebbb.
    blocks. repeat split.
    + now apply Fa. + now apply Fb. + now apply Faa. + now apply Fab. + now apply Fbb. + exact (proj1 (Faaa _) Eaaa). + exact (proj1 (Faab _) Eaab). + exact (proj1 (Fabb _) Eabb). + exact (proj1 (Fbbb _) Ebbb).
  - intros (Ea & Eb & Eaa & Eab & Ebb & Eaaa & Eaab & Eabb & Ebbb).
    blocks_in Ea. blocks_in Eb. blocks_in Eaa. blocks_in Eab. blocks_in Ebb. blocks_in Eaaa. blocks_in Eaab. blocks_in Eabb. blocks_in Ebbb.
    assert (Ia := upd_t1_id _ _ _ _ _ _ _ (proj2 (Fa _) Ea)). assert (Ib := upd_t1_id _ _ _ _ _ _ _ (proj2 (Fb _) Eb)).
    assert (Iaa := upd_t2_id _ _ _ _ _ _ _ (proj2 (Faa _) Eaa)). assert (Iab := upd_t2b_id _ _ _ _ _ _ _ _ _ _ _ (proj2 (Fab _) Eab)). assert (Ibb := upd_t2_id _ _ _ _ _ _ _ (proj2 (Fbb _) Ebb)).
    assert (Iaaa := upd_t3_id _ _ _ _ _ _ _ (proj2 (Faaa _) Eaaa)). assert (Iaab := upd_t3b_id _ _ _ _ _ _ _ _ _ _ _ (proj2 (Faab _) Eaab)).
    assert (Iabb := upd_t3c_id _ _ _ _ _ _ _ _ _ _ _ (proj2 (Fabb _) Eabb)). assert (Ibbb := upd_t3_id _ _ _ _ _ _ _ (proj2 (Fbbb _) Ebbb)).
    assert (Sa : ccsdt_step_a d s H T T = T) by (unfold ccsdt_step_a; rewrite Ia; apply set_a_id).
    assert (Sb : ccsdt_step_b d s H T T = T) by (unfold ccsdt_step_b; rewrite Ib; apply set_b_id).
    assert (Saa : ccsdt_step_aa d s H T T = T) by (unfold ccsdt_step_aa; rewrite Iaa; apply set_aa_id).
    assert (Sab : ccsdt_step_ab d s H T T = T) by (unfold ccsdt_step_ab; rewrite Iab; apply set_ab_id).
    assert (Sbb : ccsdt_step_bb d s H T T = T) by (unfold ccsdt_step_bb; rewrite Ibb; apply set_bb_id).
    assert (Saaa : ccsdt_step_aaa d s H T T = T) by (unfold ccsdt_step_aaa; rewrite Iaaa; apply set_aaa_id).
    assert (Saab : ccsdt_step_aab d s H T T = T) by (unfold ccsdt_step_aab; rewrite Iaab; apply set_aab_id).
    assert (Sabb : ccsdt_step_abb d s H T T = T) by (unfold ccsdt_step_abb; rewrite Iabb; apply set_abb_id).
    assert (Sbbb : ccsdt_step_bbb d s H T T = T) by (unfold ccsdt_step_bbb; rewrite Ibbb; apply set_bbb_id).
    rewrite Sa, Sb, Saa, Sab, Sbb, Saaa, Saab, Sabb, Sbbb. repeat split; reflexivity.
Qed.

(** What the loops write: the antisymmetrised right-hand side over the energy denominator is added to every cell in range, nothing outside *)
Theorem C79_update_same_spin no nu t X fo fv s : anti6 t ->
  forall a b c i j k, (a < nu)%nat -> (b < nu)%nat -> (c < nu)%nat -> (i < no)%nat -> (j < no)%nat -> (k < no)%nat ->
  fst (upd_t3 no nu t X fo fv s) a b c i j k = t a b c i j k + comb3 X a b c i j k / (fo i i + fo j j + fo k k - fv a a - fv b b - fv c c - s) /\
  snd (upd_t3 no nu t X fo fv s) a b c i j k = comb3 X a b c i j k / (fo i i + fo j j + fo k k - fv a a - fv b b - fv c c - s).
Proof. intros Ht a b c i j k Ha Hb Hc Hi Hj Hk. exact (upd_t3_ok no nu t X fo fv s a b c i j k Ht Ha Hb Hc Hi Hj Hk). Qed.
Theorem C79_update_mixed_spin na nb ma mb t X foa fva fob fvb s :
  (anti6b t -> forall a b c i j k, (a < ma)%nat -> (b < ma)%nat -> (c < mb)%nat -> (i < na)%nat -> (j < na)%nat -> (k < nb)%nat ->
    fst (upd_t3b na nb ma mb t X foa fva fob fvb s) a b c i j k = t a b c i j k + comb3b X a b c i j k / (foa i i + foa j j + fob k k - fva a a - fva b b - fvb c c - s)) /\
  (anti6c t -> forall a b c i j k, (a < ma)%nat -> (b < mb)%nat -> (c < mb)%nat -> (i < na)%nat -> (j < nb)%nat -> (k < nb)%nat ->
    fst (upd_t3c na nb ma mb t X foa fva fob fvb s) a b c i j k = t a b c i j k + comb3c X a b c i j k / (foa i i + fob j j + fob k k - fva a a - fvb b b - fvb c c - s)).
Proof.
  split; intros Ht a b c i j k Ha Hb Hc Hi Hj Hk.
  - exact (proj1 (upd_t3b_ok na nb ma mb t X foa fva fob fvb s a b c i j k Ht Ha Hb Hc Hi Hj Hk)).
  - exact (proj1 (upd_t3c_ok na nb ma mb t X foa fva fob fvb s a b c i j k Ht Ha Hb Hc Hi Hj Hk)).
Qed.

(** The series of exp(T1 + T2 + T3) |ref> stops *)
Theorem C79_terminates d T m D : (noa d + nob d <= m)%nat -> sdt_state d T m D = sdt_state d T (noa d + nob d) D.
Proof.
  intros Hm. set (occs := map al (seq 0 (noa d)) ++ map be (seq 0 (nob d))).
  assert (V : forall k psi, vanish occs k (power (cluster_sdt d T) k psi)).
  { intros k psi. induction k as [|k IH]; [intros F HF; lia|]. rewrite power_S. intros F HF. unfold cluster_sdt at 1.
    rewrite (vanish_exc occs (ref_nodup (noa d) (nob d)) (cluster_sd d T) (cluster_exc d T) k _ IH F HF), (tri_vanish d T k _ IH F (Nat.lt_le_trans _ (S k) (3 + k) HF ltac:(lia))). ring. }
  unfold expo. replace (S m) with (S (noa d + nob d) + (m - (noa d + nob d)))%nat by lia. rewrite sumn_split.
  rewrite (sumn_0 (m - (noa d + nob d))); [ring|]. intros k _. rewrite V; [ring|].
  assert (L := level_max occs D). unfold occs in L at 2. rewrite app_length, !map_length, !seq_length in L. lia.
Qed.

(** The reference component of H exp(T1 + T2 + T3) |ref> is the reference energy plus the correlation energy the program reports *)
Theorem C79_energy d I T n m : shape d n -> exchangeable I -> antisym_amps T -> (noa d + nob d + 4 <= m)%nat ->
  sdt_state d T m (cc_ref d) = 1 /\
  hamiltonian n I (sdt_state d T m) (cc_ref d) = scf_energy (noa d) (nob d) I + cc_energy d (fock_ints (noa d) (nob d) I) T.
Proof.
  intros Hd HI HT Hm. destruct (sdt_ref d T I n m ltac:(lia)) as (E1 & E2). destruct (C63_energy d I T n m Hd HI HT ltac:(lia)) as (F1 & F2). split.
  - rewrite E1. exact F1.
  - rewrite E2. exact F2.
Qed.
Lemma below_count m k : length (filter (fun p => (p <? m)%nat) (seq 0 (m + k))) = m.
Proof.
  rewrite seq_app, filter_app, app_length. cbn [Nat.add].
  assert (A : forall l, (forall x, In x l -> (x < m)%nat) -> filter (fun p => (p <? m)%nat) l = l).
  { induction l as [|x l IH]; intros H; [reflexivity|]. cbn [filter]. rewrite (proj2 (Nat.ltb_lt x m) (H x (or_introl eq_refl))). f_equal. apply IH. intros y Hy. apply H. now right. }
  assert (B : forall l, (forall x, In x l -> (m <= x)%nat) -> filter (fun p => (p <? m)%nat) l = []).
  { induction l as [|x l IH]; intros H; [reflexivity|]. cbn [filter]. rewrite (proj2 (Nat.ltb_ge x m) (H x (or_introl eq_refl))). apply IH. intros y Hy. apply H. now right. }
  rewrite A, B, seq_length; [apply Nat.add_0_r|intros x Hx; apply in_seq in Hx; lia|intros x Hx; apply in_seq in Hx; lia].
Qed.
Lemma none_below m : length (filter (fun p => negb (p <? m)%nat) (seq 0 m)) = 0%nat.
Proof.
  assert (A : forall l, (forall x, In x l -> (x < m)%nat) -> filter (fun p => negb (p <? m)%nat) l = []).
  { induction l as [|x l IH]; intros H; [reflexivity|]. cbn [filter]. rewrite (proj2 (Nat.ltb_lt x m) (H x (or_introl eq_refl))). apply IH. intros y Hy. apply H. now right. }
  rewrite A; [reflexivity|]. intros x Hx. apply in_seq in Hx. lia.
Qed.
Lemma ref_in_space d n : shape d n -> sdt_space d n (cc_ref d).
Proof.
  intros (E1 & E2). unfold sdt_space, sector. rewrite !Nat.add_0_r. split; [|split; [|split]].
  - intros q Hq. destruct (Nat.Even_or_Odd q) as [(p & ->)|(p & ->)].
    + assert (Q := ref_al (noa d) (nob d) p). assert (Q2 : (p <? noa d)%nat = true) by exact (eq_trans (eq_sym Q) Hq). clear Hq Q. rename Q2 into Hq. apply Nat.ltb_lt in Hq. lia.
    + assert (Q := ref_be (noa d) (nob d) p). assert (Q2 : (p <? nob d)%nat = true) by exact (eq_trans (eq_sym Q) Hq). clear Hq Q. rename Q2 into Hq. apply Nat.ltb_lt in Hq. lia.
  - unfold electrons. rewrite (filter_ext _ (fun p => (p <? noa d)%nat) (ref_al (noa d) (nob d))), <- E1. apply below_count.
  - unfold electrons. rewrite (filter_ext _ (fun p => (p <? nob d)%nat) (ref_be (noa d) (nob d))), <- E2. apply below_count.
  - unfold empties. rewrite (filter_ext _ (fun p => negb (p <? noa d)%nat) (fun p => f_equal negb (ref_al (noa d) (nob d) p))), none_below.
    rewrite (filter_ext _ (fun p => negb (p <? nob d)%nat) (fun p => f_equal negb (ref_be (noa d) (nob d) p))), none_below. apply Nat.le_0_l.
Qed.

(** The residual vanishes exactly when exp(T1 + T2 + T3) |ref> solves the Schroedinger equation on the reference and on all determinants with up to three
    excited electrons, for some energy, which then is the energy of C79_energy *)
Theorem C79_schroedinger d I T n m : shape d n -> exchangeable I -> antisym_amps T -> triples_anti T -> (noa d + nob d + 4 <= m)%nat ->
  (same_amps3 d (ccsdt_resid d (fock_ints (noa d) (nob d) I) T) zero_amps <-> exists E, solves_on (sdt_space d n) n I E (sdt_state d T m)).
Proof.
  intros Hd HI HT HY Hm. assert (M := sdt_main d I T n m (proj1 Hd) (proj2 Hd) HI HT HY Hm). split.
  - intros Z. eexists. exact (proj2 M Z).
  - intros (E & S). apply M. destruct (C79_energy d I T n m Hd HI HT Hm) as (E1 & E2).
    assert (Q := S (cc_ref d) (ref_in_space d n Hd)). rewrite E1, E2, Rmult_1_r in Q. rewrite Q. exact S.
Qed.

(** One iteration of the program leaves the amplitudes unchanged exactly when they solve that equation *)
Theorem C79_fixed_point d I T n m s : shape d n -> exchangeable I -> antisym_amps T -> triples_anti T -> (noa d + nob d + 4 <= m)%nat -> regular3 d s (fock_ints (noa d) (nob d) I) ->
  (same_amps3 d (ccsdt_iter d s (fock_ints (noa d) (nob d) I) T) T <-> exists E, solves_on (sdt_space d n) n I E (sdt_state d T m)).
Proof. intros Hd HI HT HY Hm HR. rewrite C79_iteration by assumption. now apply C79_schroedinger. Qed.

(** The whole chain: molecular integrals, frozen core, the program's arrays, one CCSDT iteration, total energy *)
Theorem C79_ccsdt e1 e2 s T shift m : (forall p q r t, e2 p q r t = e2 q p t r) -> (s_noa s <= s_norb s)%nat -> (s_nob s <= s_norb s)%nat ->
  antisym_amps T -> triples_anti T -> (s_noa s + s_nob s + 4 <= m)%nat ->
  let d := sys_dims s in
  let H := fock_ints (s_noa s) (s_nob s) (valence e1 e2 (s_nf s)) in
  let h p q := h_a (valence e1 e2 (s_nf s)) p q in
  let e p q r t := e2 (s_nf s + p)%nat (s_nf s + q)%nat (s_nf s + r)%nat (s_nf s + t)%nat in
  let psi := sdt_state d T m in
  let ref := reference (s_noa s) (s_nob s) in
  holds H (sort_hamiltonian s (get_hamiltonian e1 e2 s true)) /\
  hf_energy e1 e2 s + cc_energy d H T = frozen_core_energy e1 e2 s + hamiltonian_r (s_norb s) h e psi ref /\
  (regular3 d shift H -> same_amps3 d (ccsdt_iter d shift H T) T <->
     forall D, sdt_space d (s_norb s) D ->
       hamiltonian_r (s_norb s) h e psi D = (hf_energy e1 e2 s + cc_energy d H T - frozen_core_energy e1 e2 s) * psi D).
Proof.
  intros He Ha Hb HT HY Hm d H h e psi ref.
  assert (Hd : shape d (s_norb s)) by (split; cbn [d sys_dims noa nua nob nub]; lia).
  assert (HX : exchangeable (valence e1 e2 (s_nf s))) by (split; intros; apply He).
  assert (HR : hamiltonian_r (s_norb s) h e = hamiltonian (s_norb s) (valence e1 e2 (s_nf s))).
  { rewrite C63_textbook by (intros; apply He). reflexivity. }
  destruct (C79_energy d (valence e1 e2 (s_nf s)) T (s_norb s) m Hd HX HT Hm) as (N1 & EN).
  change (hamiltonian (s_norb s) (valence e1 e2 (s_nf s)) psi ref = scf_energy (s_noa s) (s_nob s) (valence e1 e2 (s_nf s)) + cc_energy d H T) in EN.
  split; [now apply C63_arrays|]. assert (ER := C63_reference_energy e1 e2 s He). rewrite HR. split; [rewrite EN, ER; ring|].
  intros Rg. rewrite ER. replace (frozen_core_energy e1 e2 s + scf_energy (s_noa s) (s_nob s) (valence e1 e2 (s_nf s)) + cc_energy d H T - frozen_core_energy e1 e2 s)
    with (scf_energy (s_noa s) (s_nob s) (valence e1 e2 (s_nf s)) + cc_energy d H T) by ring.
  assert (FP : same_amps3 d (ccsdt_iter d shift H T) T <-> exists E, solves_on (sdt_space d (s_norb s)) (s_norb s) (valence e1 e2 (s_nf s)) E psi)
    by exact (C79_fixed_point d _ T (s_norb s) m shift Hd HX HT HY Hm Rg).
  rewrite FP. split.
  - intros (E & Sv) D HD. assert (Q := Sv ref (ref_in_space d _ Hd)). change (psi ref = 1) in N1. rewrite N1, EN in Q. rewrite Rmult_1_r in Q. rewrite Q. now apply Sv.
  - intros Sv. eexists. exact Sv.
Qed.

(** A case: levels 0, 5, 1, -1 of which two alpha and one beta electrons fill the first; the triple excitation out of all three has no cost, so its amplitude
    stays where it is put.  The level shift keeps the denominators away from zero. *)
Definition q_level (p q : nat) : Q := if Nat.eqb p q then match p with 0%nat => 0 | 1%nat => 5 | 2%nat => 1 | 3%nat => -(1) | _ => 0 end else 0.
Definition q_levels : qints := mkQ q_level q_level (fun _ _ _ _ => 0%Q) (fun _ _ _ _ => 0%Q) (fun _ _ _ _ => 0%Q).
Definition q_none : qamps := mkQa (fun _ _ => 0%Q) (fun _ _ => 0%Q) (fun _ _ _ _ => 0%Q) (fun _ _ _ _ => 0%Q) (fun _ _ _ _ => 0%Q).
Definition q_sgn (a b : nat) : Q := match a, b with 0%nat, 1%nat => 1 | 1%nat, 0%nat => -(1) | _, _ => 0 end.
Definition q_aab (a b c i j k : nat) : Q := match c, k with 0%nat, 0%nat => q_sgn a b * q_sgn i j * (1 # 2) | _, _ => 0 end.
Definition q_arr : list (list nat -> Q) := let l := qarrays 2 1 q_levels q_none in firstn 6 l ++ [qp6 q_aab] ++ skipn 7 l.
Definition d_lev := mkDims 2 2 1 3.
Definition T_lev : amps := set_aab (reala q_none) (fun a b c i j k => Q2R (q_aab a b c i j k)).
Definition I_lev := real q_levels.
Lemma q_arr_ok k l : tenv (fock_arrays (fock_ints 2 1 I_lev) T_lev) k l = Q2R (qenv q_arr k l).
Proof.
  destruct (Nat.eq_dec k 6) as [->|N].
  - unfold tenv, qenv. cbn [nth fock_arrays q_arr firstn skipn app qarrays]. exact (qp6_ok q_aab l).
  - transitivity (tenv (fock_arrays (fock_ints 2 1 I_lev) (reala q_none)) k l).
    + do 6 (destruct k as [|k]; [reflexivity|]). destruct k as [|k]; [congruence|]. reflexivity.
    + unfold I_lev. rewrite qarrays_ok. do 6 (destruct k as [|k]; [reflexivity|]). destruct k as [|k]; [congruence|]. reflexivity.
Qed.
Definition lev_zero (e : ex) (l : list nat) : bool := Qeq_bool (denq (fdim d_lev) (qenv q_arr) e (venv l)) 0.
Lemma lev_zero_ok e l : lev_zero e l = true -> den (fdim d_lev) (tenv (fock_arrays (fock_ints 2 1 I_lev) T_lev)) e (venv l) = 0.
Proof. intros H. apply Qeq_bool_eq in H. rewrite (denq_ok _ _ _ q_arr_ok). rewrite (Qeq_eqR _ _ H). exact q0. Qed.
Definition lev (p : nat) : Z := match p with 1%nat => 5 | 2%nat => 1 | 3%nat => -1 | _ => 0 end.
Lemma lev_ok p : Q2R (q_level p p) = IZR (lev p).
Proof. unfold q_level, lev. rewrite Nat.eqb_refl. destruct p as [|[|[|[|p]]]]; unfold Q2R; cbn; lra. Qed.
Lemma lev_a p : fock_a 2 1 I_lev p p = IZR (lev p).
Proof. unfold fock_a, I_lev. cbn [sumn real h_a w_aa w_ab q_levels q_a q_aa q_ab]. rewrite lev_ok, !q0. ring. Qed.
Lemma lev_b p : fock_b 2 1 I_lev p p = IZR (lev p).
Proof. unfold fock_b, I_lev. cbn [sumn real h_b w_bb w_ab q_levels q_b q_bb q_ab]. rewrite lev_ok, !q0. ring. Qed.
Lemma half_off z : IZR z - / 2 <> 0.
Proof. intros H. assert (E : IZR (2 * z) = IZR 1) by (rewrite mult_IZR; lra). apply eq_IZR in E. lia. Qed.
Definition lev_all : bool :=
  let all := fun n f => forallb f (seq 0 n) in
  (all 2 (fun a => all 2 (fun i => lev_zero (e_sdt_a 0 1) [a; i])) && all 3 (fun a => all 1 (fun i => lev_zero (e_sdt_b 0 1) [a; i])) &&
   all 2 (fun a => all 2 (fun b => all 2 (fun i => all 2 (fun j => lev_zero (e_sdt_aa 0 1 2 3) [a; b; i; j])))) &&
   all 2 (fun a => all 3 (fun b => all 2 (fun i => all 1 (fun j => lev_zero (e_sdt_ab 0 1 2 3) [a; b; i; j])))) &&
   all 3 (fun a => all 3 (fun b => all 1 (fun i => all 1 (fun j => lev_zero (e_sdt_bb 0 1 2 3) [a; b; i; j])))) &&
   all 2 (fun a => all 2 (fun b => all 3 (fun c => all 2 (fun i => all 2 (fun j => all 1 (fun k => lev_zero (e_sdt_aab 0 1 2 3 4 5) [a; b; c; i; j; k])))))) &&
   all 2 (fun a => all 3 (fun b => all 3 (fun c => all 2 (fun i => all 1 (fun j => all 1 (fun k => lev_zero (e_sdt_abb 0 1 2 3 4 5) [a; b; c; i; j; k])))))))%nat%bool.
Lemma lev_all_ok : lev_all = true. Proof. vm_compute. reflexivity. Qed.
Ltac step_all H := repeat match goal with Hl : (?k < _)%nat |- _ => apply all_ok with (k := k) in H; [clear Hl|exact Hl] end.
Lemma comb3_same X i j k a b c : (i = j \/ i = k \/ j = k)%nat -> comb3 X a b c i j k = 0.
Proof. intros [->|[->| ->]]; unfold comb3; ring. Qed.
Lemma lev_solves : same_amps3 d_lev (ccsdt_resid d_lev (fock_ints 2 1 I_lev) T_lev) zero_amps.
Proof.
  assert (A := lev_all_ok). unfold lev_all in A. cbv zeta in A. apply andb_prop in A as (A & A7). apply andb_prop in A as (A & A6). apply andb_prop in A as (A & A5). apply andb_prop in A as (A & A4). apply andb_prop in A as (A & A3). apply andb_prop in A as (A1 & A2).
  unfold same_amps3. cbn [d_lev noa nua nob nub]. blocks. split; [|split; [|split; [|split; [|split; [|split; [|split; [|split]]]]]]].
  - intros a i Ha Hi. apply all_ok with (k := a) in A1; [|exact Ha]. apply all_ok with (k := i) in A1; [|exact Hi]. exact (lev_zero_ok _ _ A1).
  - intros a i Ha Hi. apply all_ok with (k := a) in A2; [|exact Ha]. apply all_ok with (k := i) in A2; [|exact Hi]. exact (lev_zero_ok _ _ A2).
  - intros a b i j Ha Hb Hi Hj. apply all_ok with (k := a) in A3; [|exact Ha]. apply all_ok with (k := b) in A3; [|exact Hb]. apply all_ok with (k := i) in A3; [|exact Hi]. apply all_ok with (k := j) in A3; [|exact Hj]. exact (lev_zero_ok _ _ A3).
  - intros a b i j Ha Hb Hi Hj. apply all_ok with (k := a) in A4; [|exact Ha]. apply all_ok with (k := b) in A4; [|exact Hb]. apply all_ok with (k := i) in A4; [|exact Hi]. apply all_ok with (k := j) in A4; [|exact Hj]. exact (lev_zero_ok _ _ A4).
  - intros a b i j Ha Hb Hi Hj. apply all_ok with (k := a) in A5; [|exact Ha]. apply all_ok with (k := b) in A5; [|exact Hb]. apply all_ok with (k := i) in A5; [|exact Hi]. apply all_ok with (k := j) in A5; [|exact Hj]. exact (lev_zero_ok _ _ A5).
  - intros a b c i j k _ _ _ Hi Hj Hk. apply comb3_same. lia.
  - intros a b c i j k Ha Hb Hc Hi Hj Hk. apply all_ok with (k := a) in A6; [|exact Ha]. apply all_ok with (k := b) in A6; [|exact Hb]. apply all_ok with (k := c) in A6; [|exact Hc].
    apply all_ok with (k := i) in A6; [|exact Hi]. apply all_ok with (k := j) in A6; [|exact Hj]. apply all_ok with (k := k) in A6; [|exact Hk]. exact (lev_zero_ok _ _ A6).
  - intros a b c i j k Ha Hb Hc Hi Hj Hk. apply all_ok with (k := a) in A7; [|exact Ha]. apply all_ok with (k := b) in A7; [|exact Hb]. apply all_ok with (k := c) in A7; [|exact Hc].
    apply all_ok with (k := i) in A7; [|exact Hi]. apply all_ok with (k := j) in A7; [|exact Hj]. apply all_ok with (k := k) in A7; [|exact Hk]. exact (lev_zero_ok _ _ A7).
  - intros a b c i j k _ _ _ Hi Hj Hk. apply comb3_same. lia.
Qed.
Lemma sgn_anti a b : (q_sgn a b == - q_sgn b a)%Q.
Proof. destruct a as [|[|a]], b as [|[|b]]; reflexivity. Qed.
Example C79_instance : shape d_lev 4 /\ exchangeable I_lev /\ antisym_amps T_lev /\ triples_anti T_lev /\ regular3 d_lev (/ 2) (fock_ints 2 1 I_lev) /\
  same_amps3 d_lev (ccsdt_resid d_lev (fock_ints 2 1 I_lev) T_lev) zero_amps /\ x_aab T_lev 0%nat 1%nat 0%nat 0%nat 1%nat 0%nat = / 2.
Proof.
  split; [split; reflexivity|]. split; [split; intros; reflexivity|].
  split; [constructor; intros; cbn [T_lev set_aab reala x_aa x_bb q_none qt_aa qt_bb]; rewrite ?q0; ring|].
  split; [|split; [|split; [exact lev_solves|cbn [T_lev set_aab x_aab q_aab q_sgn]; unfold Q2R; cbn; lra]]].
  - unfold triples_anti. cbn [T_lev set_aab reala x_aaa x_aab x_abb x_bbb].
    assert (A1 : forall a b c i j k, Q2R (q_aab a b c i j k) = - Q2R (q_aab a b c j i k)).
    { intros. rewrite <- Q2R_opp. apply Qeq_eqR. unfold q_aab. destruct c; [|reflexivity]. destruct k; [|reflexivity]. rewrite (sgn_anti i j). ring. }
    assert (A2 : forall a b c i j k, Q2R (q_aab a b c i j k) = - Q2R (q_aab b a c i j k)).
    { intros. rewrite <- Q2R_opp. apply Qeq_eqR. unfold q_aab. destruct c; [|reflexivity]. destruct k; [|reflexivity]. rewrite (sgn_anti a b). ring. }
    repeat split; first [exact A1|exact A2|intros; ring].
  - constructor; [constructor|..]; intros; cbn [fock_ints i_a_oo i_a_vv i_b_oo i_b_vv]; rewrite ?lev_a, ?lev_b, <- ?plus_IZR, <- ?minus_IZR; repeat rewrite <- minus_IZR; apply half_off.
Qed.

Print Assumptions C79_iteration.
Print Assumptions C79_update_same_spin.
Print Assumptions C79_update_mixed_spin.
Print Assumptions C79_terminates.
Print Assumptions C79_energy.
Print Assumptions C79_schroedinger.
Print Assumptions C79_fixed_point.
Print Assumptions C79_ccsdt.
