(** C81: CCSD(T) against second quantisation. *)
From Coq Require Import Reals Arith NArith List Bool Lia Lra QArith Qreals FunctionalExtensionality.
From Verif Require Import RSum IntegralsModel TensorObjs TensorAlg TensorSpec TensorClosed IntsFix CcsdModel CcsdUpdate CcsdProps FockSpec FockCar FockArrays FockCcSpec FockTerms FockHam FockExp FockLevel FockCheck FockState FockProps FockSectorSpec FockFlip FockDress FockShift QEval
  RhfProps CrccModel CrccSpec CrccBra CrccLoop CrccProps CrccClosed PtModel PtSpec PtFock PtLeft PtRhf.
Import ListNotations.
Local Open Scope R_scope.
Section V.
Variables (d : dims) (n : nat) (I : integrals) (T : amps).
Hypothesis En : (noa d + nua d = n)%nat.
Hypothesis En' : (nob d + nub d = n)%nat.
Hypothesis HI : exchangeable I.
Hypothesis HS : symmetric_repulsion I.
Hypothesis HT : antisym_amps T.
Notation H := (fock_ints (noa d) (nob d) I).
Notation ref := (reference (noa d) (nob d)).
Lemma pt_twos : doubly_excited d T = cluster_sd d (bare T).
Proof. rewrite bare_twos. apply functional_extensionality; intros psi. apply ext_state; intros D. unfold doubly_excited, twos, X_aa, X_ab, X_bb. ring. Qed.
Lemma zero_sd : cluster_sd d zero_amps = fun (_ : state) (_ : N) => 0.
Proof.
  apply functional_extensionality; intros f. apply ext_state; intros D. unfold cluster_sd, single_op, double_op. cbn [zero_amps x_a x_b x_aa x_ab x_bb].
  assert (Z2 : forall n1 n2 F, sumn n1 (fun a => sumn n2 (fun b => 0 * F a b)) = 0) by (intros; repeat (apply sumn_0; intros ? _); ring).
  assert (Z4 : forall n1 n2 n3 n4 F, sumn n1 (fun a => sumn n2 (fun b => sumn n3 (fun c => sumn n4 (fun e => 0 * F a b c e)))) = 0) by (intros; repeat (apply sumn_0; intros ? _); ring).
  rewrite !Z2, !Z4. ring.
Qed.
Lemma similar_zero m psi : similar d n m I zero_amps psi = hamiltonian n I psi.
Proof.
  unfold similar. rewrite zero_sd, expo_zero. replace (negated (fun (_ : state) (_ : N) => 0)) with (fun (_ : state) (_ : N) => 0); [apply expo_zero|].
  apply functional_extensionality; intros f. apply ext_state; intros D. unfold negated. ring.
Qed.
Lemma left_zero psi : left_sd d zero_amps psi = psi ref.
Proof.
  unfold left_sd. cbn [zero_amps x_a x_b x_aa x_ab x_bb].
  assert (Z2 : forall n1 n2 F, sumn n1 (fun a => sumn n2 (fun b => 0 * F a b)) = 0) by (intros; repeat (apply sumn_0; intros ? _); ring).
  assert (Z4 : forall n1 n2 n3 n4 F, sumn n1 (fun a => sumn n2 (fun b => sumn n3 (fun c => sumn n4 (fun e => 0 * F a b c e)))) = 0) by (intros; repeat (apply sumn_0; intros ? _); ring).
  rewrite !Z2, !Z4. ring.
Qed.
Lemma z_anti : antisym_amps zero_amps. Proof. constructor; intros; cbn; ring. Qed.
Notation m := (noa d + nob d + 4)%nat.
Lemma s_M_aaa a b c i j k : (a < nua d)%nat -> (b < nua d)%nat -> (c < nua d)%nat -> (i < noa d)%nat -> (j < noa d)%nat -> (k < noa d)%nat -> pt_M_aaa d H T a b c i j k = pt_moment d n I T (va d a) (va d b) (va d c) (oa i) (oa j) (oa k).
Proof. intros. unfold pt_moment. rewrite pt_twos. symmetry. now apply (pt_comm_aaa d I T n En En' HI HT a b c i j k). Qed.
Lemma s_L_aaa a b c i j k : (a < nua d)%nat -> (b < nua d)%nat -> (c < nua d)%nat -> (i < noa d)%nat -> (j < noa d)%nat -> (k < noa d)%nat -> pt_L_aaa d H T a b c i j k = adjoint_sd d T (hamiltonian n I (ket3 d (va d a) (va d b) (va d c) (oa i) (oa j) (oa k))).
Proof.
  intros Ha Hb Hc Hi Hj Hk. rewrite <- (ptl_aaa d I T H HI HS HT). unfold adjoint_sd.
  rewrite <- (left_zero (hamiltonian n I _)), <- (similar_zero m).
  rewrite (f_L_aaa d I zero_amps T H n m En En' HI z_anti HT (le_n _) a b c i j k Ha Hb Hc Hi Hj Hk), (f_L_aaa d I zero_amps zero_amps H n m En En' HI z_anti z_anti (le_n _) a b c i j k Ha Hb Hc Hi Hj Hk), ptz_aaa. ring.
Qed.
Lemma s_M_aab a b c i j k : (a < nua d)%nat -> (b < nua d)%nat -> (c < nub d)%nat -> (i < noa d)%nat -> (j < noa d)%nat -> (k < nob d)%nat -> pt_M_aab d H T a b c i j k = pt_moment d n I T (va d a) (va d b) (vb d c) (oa i) (oa j) (ob k).
Proof. intros. unfold pt_moment. rewrite pt_twos. symmetry. now apply (pt_comm_aab d I T n En En' HI HT a b c i j k). Qed.
Lemma s_L_aab a b c i j k : (a < nua d)%nat -> (b < nua d)%nat -> (c < nub d)%nat -> (i < noa d)%nat -> (j < noa d)%nat -> (k < nob d)%nat -> pt_L_aab d H T a b c i j k = adjoint_sd d T (hamiltonian n I (ket3 d (va d a) (va d b) (vb d c) (oa i) (oa j) (ob k))).
Proof.
  intros Ha Hb Hc Hi Hj Hk. rewrite <- (ptl_aab d I T H HI HS HT). unfold adjoint_sd.
  rewrite <- (left_zero (hamiltonian n I _)), <- (similar_zero m).
  rewrite (f_L_aab d I zero_amps T H n m En En' HI z_anti HT (le_n _) a b c i j k Ha Hb Hc Hi Hj Hk), (f_L_aab d I zero_amps zero_amps H n m En En' HI z_anti z_anti (le_n _) a b c i j k Ha Hb Hc Hi Hj Hk), ptz_aab. ring.
Qed.
Lemma s_M_abb a b c i j k : (a < nua d)%nat -> (b < nub d)%nat -> (c < nub d)%nat -> (i < noa d)%nat -> (j < nob d)%nat -> (k < nob d)%nat -> pt_M_abb d H T a b c i j k = pt_moment d n I T (va d a) (vb d b) (vb d c) (oa i) (ob j) (ob k).
Proof. intros. unfold pt_moment. rewrite pt_twos. symmetry. now apply (pt_comm_abb d I T n En En' HI HT a b c i j k). Qed.
Lemma s_L_abb a b c i j k : (a < nua d)%nat -> (b < nub d)%nat -> (c < nub d)%nat -> (i < noa d)%nat -> (j < nob d)%nat -> (k < nob d)%nat -> pt_L_abb d H T a b c i j k = adjoint_sd d T (hamiltonian n I (ket3 d (va d a) (vb d b) (vb d c) (oa i) (ob j) (ob k))).
Proof.
  intros Ha Hb Hc Hi Hj Hk. rewrite <- (ptl_abb d I T H HI HS HT). unfold adjoint_sd.
  rewrite <- (left_zero (hamiltonian n I _)), <- (similar_zero m).
  rewrite (f_L_abb d I zero_amps T H n m En En' HI z_anti HT (le_n _) a b c i j k Ha Hb Hc Hi Hj Hk), (f_L_abb d I zero_amps zero_amps H n m En En' HI z_anti z_anti (le_n _) a b c i j k Ha Hb Hc Hi Hj Hk), ptz_abb. ring.
Qed.
Lemma s_M_bbb a b c i j k : (a < nub d)%nat -> (b < nub d)%nat -> (c < nub d)%nat -> (i < nob d)%nat -> (j < nob d)%nat -> (k < nob d)%nat -> pt_M_bbb d H T a b c i j k = pt_moment d n I T (vb d a) (vb d b) (vb d c) (ob i) (ob j) (ob k).
Proof. intros. unfold pt_moment. rewrite pt_twos. symmetry. now apply (pt_comm_bbb d I T n En En' HI HT a b c i j k). Qed.
Lemma s_L_bbb a b c i j k : (a < nub d)%nat -> (b < nub d)%nat -> (c < nub d)%nat -> (i < nob d)%nat -> (j < nob d)%nat -> (k < nob d)%nat -> pt_L_bbb d H T a b c i j k = adjoint_sd d T (hamiltonian n I (ket3 d (vb d a) (vb d b) (vb d c) (ob i) (ob j) (ob k))).
Proof.
  intros Ha Hb Hc Hi Hj Hk. rewrite <- (ptl_bbb d I T H HI HS HT). unfold adjoint_sd.
  rewrite <- (left_zero (hamiltonian n I _)), <- (similar_zero m).
  rewrite (f_L_bbb d I zero_amps T H n m En En' HI z_anti HT (le_n _) a b c i j k Ha Hb Hc Hi Hj Hk), (f_L_bbb d I zero_amps zero_amps H n m En En' HI z_anti z_anti (le_n _) a b c i j k Ha Hb Hc Hi Hj Hk), ptz_bbb. ring.
Qed.
End V.
(** The program's moments are <K|[H, T2]|ref>. *)
Theorem C81_moments d n I T : shape d n -> exchangeable I -> antisym_amps T -> let H := fock_ints (noa d) (nob d) I in
  (forall a b c i j k, (a < nua d)%nat -> (b < nua d)%nat -> (c < nua d)%nat -> (i < noa d)%nat -> (j < noa d)%nat -> (k < noa d)%nat -> pt_M_aaa d H T a b c i j k = pt_moment d n I T (va d a) (va d b) (va d c) (oa i) (oa j) (oa k)) /\
  (forall a b c i j k, (a < nua d)%nat -> (b < nua d)%nat -> (c < nub d)%nat -> (i < noa d)%nat -> (j < noa d)%nat -> (k < nob d)%nat -> pt_M_aab d H T a b c i j k = pt_moment d n I T (va d a) (va d b) (vb d c) (oa i) (oa j) (ob k)) /\
  (forall a b c i j k, (a < nua d)%nat -> (b < nub d)%nat -> (c < nub d)%nat -> (i < noa d)%nat -> (j < nob d)%nat -> (k < nob d)%nat -> pt_M_abb d H T a b c i j k = pt_moment d n I T (va d a) (vb d b) (vb d c) (oa i) (ob j) (ob k)) /\
  (forall a b c i j k, (a < nub d)%nat -> (b < nub d)%nat -> (c < nub d)%nat -> (i < nob d)%nat -> (j < nob d)%nat -> (k < nob d)%nat -> pt_M_bbb d H T a b c i j k = pt_moment d n I T (vb d a) (vb d b) (vb d c) (ob i) (ob j) (ob k)).
Proof. intros (En & En') HI HT H. repeat split; intros; [now apply s_M_aaa|now apply s_M_aab|now apply s_M_abb|now apply s_M_bbb]. Qed.
(** The second factors are <ref|(T1 + T2)^+ H|K>. *)
Theorem C81_left d n I T : shape d n -> exchangeable I -> symmetric_repulsion I -> antisym_amps T -> let H := fock_ints (noa d) (nob d) I in
  (forall a b c i j k, (a < nua d)%nat -> (b < nua d)%nat -> (c < nua d)%nat -> (i < noa d)%nat -> (j < noa d)%nat -> (k < noa d)%nat -> pt_L_aaa d H T a b c i j k = adjoint_sd d T (hamiltonian n I (ket3 d (va d a) (va d b) (va d c) (oa i) (oa j) (oa k)))) /\
  (forall a b c i j k, (a < nua d)%nat -> (b < nua d)%nat -> (c < nub d)%nat -> (i < noa d)%nat -> (j < noa d)%nat -> (k < nob d)%nat -> pt_L_aab d H T a b c i j k = adjoint_sd d T (hamiltonian n I (ket3 d (va d a) (va d b) (vb d c) (oa i) (oa j) (ob k)))) /\
  (forall a b c i j k, (a < nua d)%nat -> (b < nub d)%nat -> (c < nub d)%nat -> (i < noa d)%nat -> (j < nob d)%nat -> (k < nob d)%nat -> pt_L_abb d H T a b c i j k = adjoint_sd d T (hamiltonian n I (ket3 d (va d a) (vb d b) (vb d c) (oa i) (ob j) (ob k)))) /\
  (forall a b c i j k, (a < nub d)%nat -> (b < nub d)%nat -> (c < nub d)%nat -> (i < nob d)%nat -> (j < nob d)%nat -> (k < nob d)%nat -> pt_L_bbb d H T a b c i j k = adjoint_sd d T (hamiltonian n I (ket3 d (vb d a) (vb d b) (vb d c) (ob i) (ob j) (ob k)))).
Proof. intros (En & En') HI HS HT H. repeat split; intros; [now apply s_L_aaa|now apply s_L_aab|now apply s_L_abb|now apply s_L_bbb]. Qed.
Lemma one_fold (M L D : mat6) l : fold_left (fun s q => let '(a, b, c, i, j, k) := q in let LM := M a b c i j k * L a b c i j k in s + LM / D a b c i j k) l 0 = slist (f6 (mld M L D)) l.
Proof.
  assert (G : forall s, fold_left (fun s q => let '(a, b, c, i, j, k) := q in let LM := M a b c i j k * L a b c i j k in s + LM / D a b c i j k) l s = s + slist (f6 (mld M L D)) l).
  { induction l as [|[[[[[a b] c] i] j] k] l IH]; intros s; cbn [fold_left slist]; [ring|]. rewrite IH. unfold f6 at 2, mld at 2. ring. }
  rewrite G. ring.
Qed.
Lemma pt_sums d H T : calc_ccsdpt_delta d H T false = tri4 d (mld (pt_M_aaa d H T) (pt_L_aaa d H T) (pt_D_aaa d H T)) (mld (pt_M_aab d H T) (pt_L_aab d H T) (pt_D_aab d H T)) (mld (pt_M_abb d H T) (pt_L_abb d H T) (pt_D_abb d H T)) (mld (pt_M_bbb d H T) (pt_L_bbb d H T) (pt_D_bbb d H T)).
Proof.
  unfold calc_ccsdpt_delta, ccsdptA_opt, ccsdptB_opt, ccsdptC_opt, ccsdptD_opt. rewrite !one_fold.
  change (pt_loop_aaa d) with (crcc_loop_aaa d). change (pt_loop_aab d) with (crcc_loop_aab d). change (pt_loop_abb d) with (crcc_loop_abb d). change (pt_loop_bbb d) with (crcc_loop_bbb d).
  unfold tri4. now rewrite loop_aaa, loop_aab, loop_abb, loop_bbb.
Qed.
(** The CCSD(T) energy returned by the program is E plus the sum over all triply excited determinants K of
    <ref|(T1 + T2)^+ H|K> <K|[H, T2]|ref> over the difference of diagonal Fock elements. *)
Theorem C81_correction d n I T Eref Ecorr : shape d n -> exchangeable I -> symmetric_repulsion I -> antisym_amps T ->
  calc_ccsdpt d (fock_ints (noa d) (nob d) I) T Eref Ecorr false = Eref + Ecorr + ccsdpt_correction d n I T.
Proof.
  intros (En & En') HI HS HT. unfold calc_ccsdpt. rewrite pt_sums, <- Rplus_assoc. f_equal. unfold tri4, ccsdpt_correction, sum_triples, mld.
  apply f_equal2; [apply f_equal2; [apply f_equal2|]|].
  - apply lt3_ext; intros a b c Ha Hb Hc ? ? ?. apply lt3_ext; intros i j k Hi Hj Hk ? ? ?. rewrite (s_M_aaa d n I T En En' HI HT), (s_L_aaa d n I T En En' HI HS HT) by assumption. apply f_equal2; [apply Rmult_comm|]. levels. reflexivity.
  - apply lt2_ext; intros a b Ha Hb ?. apply sumn_ext; intros c Hc. apply lt2_ext; intros i j Hi Hj ?. apply sumn_ext; intros k Hk. rewrite (s_M_aab d n I T En En' HI HT), (s_L_aab d n I T En En' HI HS HT) by assumption. apply f_equal2; [apply Rmult_comm|]. levels. reflexivity.
  - apply sumn_ext; intros a Ha. apply lt2_ext; intros b c Hb Hc ?. apply sumn_ext; intros i Hi. apply lt2_ext; intros j k Hj Hk ?. rewrite (s_M_abb d n I T En En' HI HT), (s_L_abb d n I T En En' HI HS HT) by assumption. apply f_equal2; [apply Rmult_comm|]. levels. reflexivity.
  - apply lt3_ext; intros a b c Ha Hb Hc ? ? ?. apply lt3_ext; intros i j k Hi Hj Hk ? ? ?. rewrite (s_M_bbb d n I T En En' HI HT), (s_L_bbb d n I T En En' HI HS HT) by assumption. apply f_equal2; [apply Rmult_comm|]. levels. reflexivity.
Qed.
(** For a closed-shell Hamiltonian and singlet amplitudes use_RHF does not change the energy. *)
Theorem C81_closed_shell d H T e c : closed_shell d H -> singlet T -> calc_ccsdpt d H T e c true = calc_ccsdpt d H T e c false.
Proof.
  intros [En Em HA HC] [TA TC]. unfold calc_ccsdpt. do 2 apply f_equal. unfold calc_ccsdpt_delta.
  assert (EC : ccsdptC_opt d H T = ccsdptB_opt d H T).
  { unfold ccsdptC_opt, ccsdptB_opt. rewrite !one_fold. change (pt_loop_aab d) with (crcc_loop_aab d). change (pt_loop_abb d) with (crcc_loop_abb d). rewrite <- (re_aab d En Em). apply slist_ext. intros [[[[[a b] x] i] j] k]. unfold f6, mld. now rewrite fp_M_abb, fp_L_abb, fp_D_abb. }
  assert (ED : ccsdptD_opt d H T = ccsdptA_opt d H T).
  { unfold ccsdptD_opt, ccsdptA_opt. rewrite !one_fold. change (pt_loop_aaa d) with (crcc_loop_aaa d). change (pt_loop_bbb d) with (crcc_loop_bbb d). rewrite (re_bbb d En Em). apply slist_ext. intros [[[[[a b] x] i] j] k]. unfold f6, mld. now rewrite fp_M_bbb, fp_L_bbb, fp_D_bbb. }
  rewrite EC, ED. ring.
Qed.
Definition p_push (p q r s : nat) : Q := match p, q, r, s with 3%nat, 1%nat, 3%nat, 0%nat => 1%Q | 3%nat, 0%nat, 3%nat, 1%nat => 1%Q | _, _, _, _ => 0%Q end.
Definition p_ints : qints := mkQ c_levels c_levels (fun _ _ _ _ => 0%Q) p_push (fun _ _ _ _ => 0%Q).
Example C81_instance : shape c_dims 4 /\ exchangeable (real p_ints) /\ symmetric_repulsion (real p_ints) /\ antisym_amps (reala c_amps) /\
  pt_moment c_dims 4 (real p_ints) (reala c_amps) (va c_dims 0) (va c_dims 1) (vb c_dims 0) (oa 0) (oa 1) (ob 0) = / 2.
Proof.
  assert (HI : exchangeable (real p_ints)) by (split; intros; reflexivity).
  assert (SG : forall a b, (c_sgn a b == - c_sgn b a)%Q) by (intros [|[|a]] [|[|b]]; reflexivity).
  assert (HT : antisym_amps (reala c_amps)).
  { constructor; intros; cbn [reala x_aa x_bb c_amps qt_aa qt_bb]; rewrite ?q0; try ring; rewrite <- Q2R_opp; apply Qeq_eqR; [rewrite (SG a b)|rewrite (SG i j)]; ring. }
  split; [split; reflexivity|]. split; [exact HI|]. split; [repeat split; try reflexivity; intros p q r s; cbn [real w_ab]; apply f_equal; destruct p as [|[|[|[|p]]]], q as [|[|[|[|q]]]], r as [|[|[|[|r]]]], s as [|[|[|[|s]]]]; reflexivity|]. split; [exact HT|].
  rewrite <- (s_M_aab c_dims 4 (real p_ints) (reala c_amps) eq_refl eq_refl HI HT 0%nat 1%nat 0%nat 0%nat 1%nat 0%nat) by (cbn; lia).
  change (den (fdim c_dims) (tenv (fock_arrays (fock_ints 2 1 (real p_ints)) (reala c_amps))) (k_pt_M_aab 6 0 1 2 3 4 5) (venv [0; 1; 0; 0; 1; 0]%nat) = / 2). rewrite (denq_ok (fdim c_dims) _ _ (qarrays_ok 2 1 p_ints c_amps)).
  rewrite (Qeq_eqR _ (1 # 2)); [unfold Q2R; cbn; lra|]. apply Qeq_bool_eq. vm_compute. reflexivity.
Qed.
Print Assumptions C81_correction. Print Assumptions C81_closed_shell.
