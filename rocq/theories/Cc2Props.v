(** C86: CC2 and EOMCC2 (cc2.py, hbar_cc2.py, eomcc2.py). *)
From Coq Require Import Reals Arith NArith List Bool Lra Lia QArith Qreals FunctionalExtensionality.
From Verif Require Import RSum IntegralsModel TensorObjs TensorAlg TensorDeriv TensorSpec TensorClosed LoopModel LoopProofs CcsdModel CcsdUpdate CcsdProps RhfProps SdtSpec FockSpec FockCcSpec FockTerms FockExp FockState FockFlip FockArrays FockProj FockSector3 FockProps CrccSpec CrccHbar QEval
  EomsdtProps Cc2Model Cc2Reify Cc2Update Cc2Spec Cc2Proofs Cc2Fock.
Import ListNotations.
Open Scope R_scope.

(** One iteration leaves the amplitudes unchanged exactly when the residual vanishes *)
Theorem C86_fixed_point d s H T : antisym_amps T -> regular d s H ->
  (same_amps d (cc2_iter d s H T) T <-> same_amps d (cc2_resid d H T) zero_amps).
Proof.
  intros HT [Da Db Daa Dab Dbb]. destruct (antisym_anti4 T HT) as [Aaa Abb]. split.
  - intros [Ea Eb Eaa Eab Ebb]. cbn [cc2_iter cc2_resid zero_amps set_a set_b set_aa set_ab set_bb x_a x_b x_aa x_ab x_bb] in Ea. apply upd_t1_id in Ea as Ia. unfold cc2_iter in Eb, Eaa, Eab, Ebb. rewrite Ia, set_a_id in Eb, Eaa, Eab, Ebb.
    cbn [cc2_iter cc2_resid zero_amps set_a set_b set_aa set_ab set_bb x_a x_b x_aa x_ab x_bb] in Eb. apply upd_t1_id in Eb as Ib. rewrite Ib, set_b_id in Eaa, Eab, Ebb.
    cbn [cc2_iter cc2_resid zero_amps set_a set_b set_aa set_ab set_bb x_a x_b x_aa x_ab x_bb] in Eaa. apply upd_t2_id in Eaa as Iaa. rewrite Iaa, set_aa_id in Eab, Ebb.
    cbn [cc2_iter cc2_resid zero_amps set_a set_b set_aa set_ab set_bb x_a x_b x_aa x_ab x_bb] in Eab. apply upd_t2b_id in Eab as Iab. rewrite Iab, set_ab_id in Ebb. cbn [cc2_iter cc2_resid zero_amps set_a set_b set_aa set_ab set_bb x_a x_b x_aa x_ab x_bb] in Ebb.
    constructor; cbn [cc2_resid zero_amps x_a x_b x_aa x_ab x_bb].
    + now apply (upd_t1_fix (noa d) (nua d) (x_a T) _ (i_a_oo H) (i_a_vv H) s Da).
    + now apply (upd_t1_fix (nob d) (nub d) (x_b T) _ (i_b_oo H) (i_b_vv H) s Db).
    + now apply (upd_t2_fix (noa d) (nua d) (x_aa T) _ (i_a_oo H) (i_a_vv H) s Aaa Daa).
    + now apply (upd_t2b_fix (noa d) (nob d) (nua d) (nub d) (x_ab T) _ (i_a_oo H) (i_a_vv H) (i_b_oo H) (i_b_vv H) s Dab).
    + now apply (upd_t2_fix (nob d) (nub d) (x_bb T) _ (i_b_oo H) (i_b_vv H) s Abb Dbb).
  - intros [Ea Eb Eaa Eab Ebb]. cbn [cc2_iter cc2_resid zero_amps set_a set_b set_aa set_ab set_bb x_a x_b x_aa x_ab x_bb] in Ea, Eb, Eaa, Eab, Ebb.
    assert (Ga := proj2 (upd_t1_fix (noa d) (nua d) (x_a T) (cc2_res_a d H T T) (i_a_oo H) (i_a_vv H) s Da) Ea). assert (Ia := upd_t1_id _ _ _ _ _ _ _ Ga).
    assert (Gb := proj2 (upd_t1_fix (nob d) (nub d) (x_b T) (cc2_res_b d H T T) (i_b_oo H) (i_b_vv H) s Db) Eb). assert (Ib := upd_t1_id _ _ _ _ _ _ _ Gb).
    assert (Gaa := proj2 (upd_t2_fix (noa d) (nua d) (x_aa T) (cc2_res_aa d H T T) (i_a_oo H) (i_a_vv H) s Aaa Daa) Eaa). assert (Iaa := upd_t2_id _ _ _ _ _ _ _ Gaa).
    assert (Gab := proj2 (upd_t2b_fix (noa d) (nob d) (nua d) (nub d) (x_ab T) (cc2_res_ab d H T T) (i_a_oo H) (i_a_vv H) (i_b_oo H) (i_b_vv H) s Dab) Eab). assert (Iab := upd_t2b_id _ _ _ _ _ _ _ _ _ _ _ Gab).
    assert (Gbb := proj2 (upd_t2_fix (nob d) (nub d) (x_bb T) (cc2_res_bb d H T T) (i_b_oo H) (i_b_vv H) s Abb Dbb) Ebb). assert (Ibb := upd_t2_id _ _ _ _ _ _ _ Gbb).
    assert (E : cc2_iter d s H T = T).
    { unfold cc2_iter. rewrite Ia, set_a_id, Ib, set_b_id, Iaa, set_aa_id, Iab, set_ab_id, Ibb, set_bb_id. reflexivity. }
    rewrite E. constructor; reflexivity.
Qed.
(** The residual consists of <mu| exp(-T1-T2) H exp(T1+T2) |ref> for the singly excited mu and of <mu| exp(-T1) H exp(T1) + exp(-T2) F exp(T2) |ref> for the
    doubly excited mu, F the Fock operator *)
Theorem C86_projections d I T n m : shape d n -> exchangeable I -> antisym_amps T -> (noa d + nob d + 4 <= m)%nat ->
  let ref := reference (noa d) (nob d) in
  let r := cc2_resid d (fock_ints (noa d) (nob d) I) T in
  let S := similar d n m I T (pure ref) in
  let D := fun K => similar d n m I (singles_of T) (pure ref) K + similar d n m (fock_operator (noa d) (nob d) I) (doubles_of T) (pure ref) K in
  (forall a i, (a < nua d)%nat -> (i < noa d)%nat -> x_a r a i = along1 ref (noa d) al S a i) /\
  (forall a i, (a < nub d)%nat -> (i < nob d)%nat -> x_b r a i = along1 ref (nob d) be S a i) /\
  (forall a b i j, (a < nua d)%nat -> (b < nua d)%nat -> (i < noa d)%nat -> (j < noa d)%nat -> x_aa r a b i j = along2 ref (noa d) (noa d) al al D a b i j) /\
  (forall a b i j, (a < nua d)%nat -> (b < nub d)%nat -> (i < noa d)%nat -> (j < nob d)%nat -> x_ab r a b i j = along2 ref (noa d) (nob d) al be D a b i j) /\
  (forall a b i j, (a < nub d)%nat -> (b < nub d)%nat -> (i < nob d)%nat -> (j < nob d)%nat -> x_bb r a b i j = along2 ref (nob d) (nob d) be be D a b i j).
Proof.
  intros (E1 & E2) HI HT Hm ref r S D.
  assert (AH := fock_ints_antisym (noa d) (nob d) I HI). assert (FX := fock_exch (noa d) (nob d) I).
  assert (P : forall n1 n2 s1 s2 a b i j, along2 ref n1 n2 s1 s2 D a b i j =
    along2 ref n1 n2 s1 s2 (similar d n m I (singles_of T) (pure ref)) a b i j + along2 ref n1 n2 s1 s2 (similar d n m (fock_operator (noa d) (nob d) I) (doubles_of T) (pure ref)) a b i j).
  { intros. unfold D. exact (f_equal (fun g => g ref) (lin_add (str [(true, s1 i); (true, s2 j); (false, s2 (n2 + b)%nat); (false, s1 (n1 + a)%nat)]) _ _ (str_linear _))). }
  split; [|split; [|split; [|split]]]; intros.
  - unfold r, S. rewrite (cc2_a d _ T AH HT), <- (hbar_a d I T n m E1 E2 HI HT Hm) by assumption. reflexivity.
  - unfold r, S. rewrite (cc2_b d _ T AH HT), <- (hbar_b d I T n m E1 E2 HI HT Hm) by assumption. reflexivity.
  - rewrite P. unfold r, ref. rewrite (cc2_aa d _ T AH HT), <- only_fock_ints, (hbar_aa d I (singles_of T) n m E1 E2 HI (singles_anti T) Hm),
      (hbar_aa d (fock_operator (noa d) (nob d) I) (doubles_of T) n m E1 E2 FX (doubles_anti T HT) Hm) by assumption. reflexivity.
  - rewrite P. unfold r, ref. rewrite (cc2_ab d _ T AH HT), <- only_fock_ints, (hbar_ab d I (singles_of T) n m E1 E2 HI (singles_anti T) Hm),
      (hbar_ab d (fock_operator (noa d) (nob d) I) (doubles_of T) n m E1 E2 FX (doubles_anti T HT) Hm) by assumption. reflexivity.
  - rewrite P. unfold r, ref. rewrite (cc2_bb d _ T AH HT), <- only_fock_ints, (hbar_bb d I (singles_of T) n m E1 E2 HI (singles_anti T) Hm),
      (hbar_bb d (fock_operator (noa d) (nob d) I) (doubles_of T) n m E1 E2 FX (doubles_anti T HT) Hm) by assumption. reflexivity.
Qed.

(** Hence the iteration stops exactly at the solutions of the CC2 equations *)
Theorem C86_converged d s I T n m : shape d n -> exchangeable I -> antisym_amps T -> (noa d + nob d + 4 <= m)%nat ->
  let H := fock_ints (noa d) (nob d) I in regular d s H ->
  let ref := reference (noa d) (nob d) in
  let S := similar d n m I T (pure ref) in
  let D := fun K => similar d n m I (singles_of T) (pure ref) K + similar d n m (fock_operator (noa d) (nob d) I) (doubles_of T) (pure ref) K in
  same_amps d (cc2_iter d s H T) T <->
  (forall a i, (a < nua d)%nat -> (i < noa d)%nat -> along1 ref (noa d) al S a i = 0) /\
  (forall a i, (a < nub d)%nat -> (i < nob d)%nat -> along1 ref (nob d) be S a i = 0) /\
  (forall a b i j, (a < nua d)%nat -> (b < nua d)%nat -> (i < noa d)%nat -> (j < noa d)%nat -> along2 ref (noa d) (noa d) al al D a b i j = 0) /\
  (forall a b i j, (a < nua d)%nat -> (b < nub d)%nat -> (i < noa d)%nat -> (j < nob d)%nat -> along2 ref (noa d) (nob d) al be D a b i j = 0) /\
  (forall a b i j, (a < nub d)%nat -> (b < nub d)%nat -> (i < nob d)%nat -> (j < nob d)%nat -> along2 ref (nob d) (nob d) be be D a b i j = 0).
Proof.
  intros Hd HI HT Hm H Rg ref S D. refine (iff_trans (C86_fixed_point d s H T HT Rg) _).
  destruct (C86_projections d I T n m Hd HI HT Hm) as (P1 & P2 & P3 & P4 & P5). fold ref in P1, P2, P3, P4, P5. fold H in P1, P2, P3, P4, P5. fold S in P1, P2. fold D in P3, P4, P5. split.
  - intros [E1 E2 E3 E4 E5]. split; [|split; [|split; [|split]]]; intros.
    + rewrite <- P1 by assumption. now apply E1. + rewrite <- P2 by assumption. now apply E2. + rewrite <- P3 by assumption. now apply E3.
    + rewrite <- P4 by assumption. now apply E4. + rewrite <- P5 by assumption. now apply E5.
  - intros (E1 & E2 & E3 & E4 & E5). constructor; intros.
    + rewrite P1 by assumption. now apply E1. + rewrite P2 by assumption. now apply E2. + rewrite P3 by assumption. now apply E3.
    + rewrite P4 by assumption. now apply E4. + rewrite P5 by assumption. now apply E5.
Qed.

(** EOMCC2: the singles of the vector are those of the derivative of the CC2 residual; the doubles are too if the routine is given the plain Fock matrix in place
    of the dressed one-body blocks of hbar_cc2.py *)
Theorem C86_eomcc2_jacobian d H T R : antisym_ints H -> antisym_amps T -> antisym_amps R ->
  jacobian d (fun t => cc2_resid d H (amps_line T R t))
    (singles_doubles (eom2_HR d (hbar_cc2 d H T) T R) (eom2_HR d (plain_fock H (hbar_cc2 d H T)) T R)).
Proof. exact (cc2_jac d H T R). Qed.

(** * flag_RHF *)
Notation c2den d H T Y := (den (denv [noa d; nua d; nob d; nub d]) (tenv (c2_arrays d H T Y))).
Lemma flat3_ctriples T : closed_triples (flat3 T).
Proof. constructor; intros; reflexivity. Qed.
Lemma c2_syms d H T Y : antisym_ints H -> closed_ints H -> antisym_amps T -> antisym_amps Y -> triples_anti T -> closed_amps T -> closed_amps Y -> closed_triples T ->
  Forall (fun g => okalt (tenv (c2_arrays d H T Y)) (fst g) (snd g)) c2_gens.
Proof. intros HH CH HT HY HT3 CT CY [? ?]. destruct HT3 as (?&?&?&?&?&?&?&?&?&?&?&?). sym_all. Qed.
Lemma c2_same d H T e1 e2 v : closed_shell d H -> singlet T ->
  same_tab c2_tab dfold [0; 1]%nat e1 e2 = true -> c2den d H (flat3 T) (flat3 T) e1 v = c2den d H (flat3 T) (flat3 T) e2 v.
Proof.
  intros [En Em HH CH] [HT CT] E. apply (same_tab_sound _ _ c2_gens (length (c2_arrays d H (flat3 T) (flat3 T))) c2_tab dfold [0; 1]%nat);
    [vm_compute; reflexivity|now apply dfold_ok|apply c2_syms; auto using flat3_anti, flat3_triples, flat3_closed, flat3_ctriples|exact E].
Qed.
Definition vvvv_t1_t1 (d : dims) (H : ints) (T : amps) : mat4 := fun a b i j => sumn (nua d) (fun e => sumn (nua d) (fun f => i_aa_vvvv H a b e f * (x_a T e i * x_a T f j))).
Definition e_vvvv : ex := ESum 4 1 (ESum 5 1 (EMul (ET 41 [0; 1; 4; 5]%nat) (EMul (ET 2 [4; 2]%nat) (ET 2 [5; 3]%nat)))).
Section Closed.
Variables (d : dims) (H : ints) (T : amps).
Hypothesis HH : closed_shell d H.
Hypothesis HT : singlet T.
Let S e1 e2 v := c2_same d H T e1 e2 v HH HT.
Lemma eq_cc2_a a i : cc2_res_a d H T T a i = rcc2_res_a d H T T a i.
Proof. exact (S (r_cc2_res_a 2 0 1) (r_rcc2_res_a 2 0 1) (venv [a; i]) ltac:(vm_compute; reflexivity))%nat. Qed.
Lemma eq_cc2_ab a b i j : cc2_res_ab d H T T a b i j = rcc2_res_ab d H T T a b i j.
Proof. exact (S (r_cc2_res_ab 4 0 1 2 3) (r_rcc2_res_ab 4 0 1 2 3) (venv [a; b; i; j]) ltac:(vm_compute; reflexivity))%nat. Qed.
Lemma eq_cc2_aa a b i j : four_term (rcc2_res_aa d H T T) a b i j = four_term (cc2_res_aa d H T T) a b i j + vvvv_t1_t1 d H T a b i j.
Proof. exact (S (r_rcc2f_aa 4 0 1 2 3) (EAdd (r_cc2f_aa 4 0 1 2 3) e_vvvv) (venv [a; b; i; j]) ltac:(vm_compute; reflexivity))%nat. Qed.
End Closed.

(** With flag_RHF, one iteration leaves amplitudes that solve the CC2 equations unchanged exactly when the contraction of <ab||ef> with T1 twice vanishes
    (the shared array X.bb.vvov = X.aa.vvov receives this term twice) *)
Theorem C86_closed_shell d s H T : closed_shell d H -> singlet T -> regular d s H -> same_amps d (cc2_iter d s H T) T ->
  (same_amps d (rcc2_iter d s H T) T <->
   forall a b i j, (a < nua d)%nat -> (b < nua d)%nat -> (i < noa d)%nat -> (j < noa d)%nat ->
     sumn (nua d) (fun e => sumn (nua d) (fun f => i_aa_vvvv H a b e f * (x_a T e i * x_a T f j))) = 0).
Proof.
  intros HH HT HR F. apply (C86_fixed_point d s H T (sg_anti T HT) HR) in F. destruct HR as [Da Db Daa Dab Dbb].
  assert (Ra := eq_cc2_a d H T HH HT). assert (Raa := eq_cc2_aa d H T HH HT). assert (Rab := eq_cc2_ab d H T HH HT).
  destruct F as [Fa _ Faa Fab _]. cbn [cc2_resid zero_amps x_a x_aa x_ab] in Fa, Faa, Fab.
  destruct HH as [En Em _ _], HT as [HA [Ca Caa _]]. destruct (antisym_anti4 T HA) as [Aaa Abb].
  assert (Sb : set_b T (x_a T) = T). { destruct T as [a b aa ab bb aaa aab abb bbb]. cbn in *. unfold set_b. cbn. now rewrite (fun2 b a Ca). }
  assert (Sbb : set_bb T (x_aa T) = T). { destruct T as [a b aa ab bb aaa aab abb bbb]. cbn in *. unfold set_bb. cbn. now rewrite (fun4 bb aa Caa). }
  split.
  - intros [Ea Eb Eaa Eab Ebb]. cbn [rcc2_iter set_a set_b set_aa set_ab set_bb x_a x_b x_aa x_ab x_bb] in Ea. apply upd_t1_id in Ea as Ia.
    unfold rcc2_iter in Eaa, Eab. rewrite Ia, set_a_id, Sb in Eaa, Eab.
    cbn [set_a set_b set_aa set_ab set_bb x_a x_b x_aa x_ab x_bb] in Eaa.
    assert (Zaa := proj1 (upd_t2_fix (noa d) (nua d) (x_aa T) _ (i_a_oo H) (i_a_vv H) s Aaa Daa) Eaa).
    intros a b i j Ha Hb Hi Hj. assert (Z : four_term (rcc2_res_aa d H T T) a b i j = 0) by now apply Zaa. rewrite Raa, Faa in Z by assumption. rewrite Rplus_0_l in Z. exact Z.
  - intros V.
    assert (Ga := proj2 (upd_t1_fix (noa d) (nua d) (x_a T) (rcc2_res_a d H T T) (i_a_oo H) (i_a_vv H) s Da) (fun a i Ha Hi => eq_trans (eq_sym (Ra a i)) (Fa a i Ha Hi))).
    assert (Zaa : forall a b i j, (a < nua d)%nat -> (b < nua d)%nat -> (i < noa d)%nat -> (j < noa d)%nat -> four_term (rcc2_res_aa d H T T) a b i j = 0).
    { intros a b i j Ha Hb Hi Hj. rewrite Raa, Faa by assumption. rewrite Rplus_0_l. now apply V. }
    assert (Gaa := proj2 (upd_t2_fix (noa d) (nua d) (x_aa T) (rcc2_res_aa d H T T) (i_a_oo H) (i_a_vv H) s Aaa Daa) Zaa).
    assert (Gab := proj2 (upd_t2b_fix (noa d) (nob d) (nua d) (nub d) (x_ab T) (rcc2_res_ab d H T T) (i_a_oo H) (i_a_vv H) (i_b_oo H) (i_b_vv H) s Dab)
       (fun a b i j Ha Hb Hi Hj => eq_trans (eq_sym (Rab a b i j)) (Fab a b i j Ha Hb Hi Hj))).
    assert (E : rcc2_iter d s H T = T).
    { unfold rcc2_iter. rewrite (upd_t1_id _ _ _ _ _ _ _ Ga), set_a_id, Sb, (upd_t2_id _ _ _ _ _ _ _ Gaa), set_aa_id, (upd_t2b_id _ _ _ _ _ _ _ _ _ _ _ Gab), set_ab_id. exact Sbb. }
    rewrite E. constructor; reflexivity.
Qed.

(** * A case: two alpha and two beta electrons in four orbitals.  Fock matrix diag(-1, -1, 1, 1), <01|23> = <23|01> = 1, <23|23> = -2 and their exchanges;
    t_ai = delta_ai and no doubles solve the CC2 equations. *)
Definition q_v (p q r s : nat) : Q :=
  match p, q, r, s with
  | 0, 1, 2, 3 | 1, 0, 3, 2 | 2, 3, 0, 1 | 3, 2, 1, 0 => 1%Q
  | 2, 3, 2, 3 | 3, 2, 3, 2 => (-2)%Q | _, _, _, _ => 0%Q end%nat.
Definition q_f (p q : nat) : Q := match p, q with 0, 0 | 1, 1 => (-1)%Q | 2, 2 | 3, 3 => 1%Q | _, _ => 0%Q end%nat.
Definition q_int : qints := mkQ q_f q_f q_v q_v q_v.
Definition q_t1 (a i : nat) : Q := match a, i with 0, 0 | 1, 1 => 1%Q | _, _ => 0%Q end%nat.
Definition q_r2 (a b i j : nat) : Q := match a, b, i, j with 0, 0, 0, 0 => 1%Q | _, _, _, _ => 0%Q end%nat.
Definition d_cc2 := mkDims 2 2 2 2.
Definition I_cc2 := real q_int.
Definition T_cc2 : amps := mkAmps (fun a i => Q2R (q_t1 a i)) (fun a i => Q2R (q_t1 a i)) no_pairs no_pairs no_pairs no_triples no_triples no_triples no_triples.
Definition R_cc2 : amps := mkAmps (fun _ _ => 0) (fun _ _ => 0) no_pairs (fun a b i j => Q2R (q_r2 a b i j)) no_pairs no_triples no_triples no_triples no_triples.
Open Scope Q_scope.
Definition q_list : list (list nat -> Q) := [
  qp2 (fun p q => fockq_a 2 2 q_int p (2 + q)%nat);
  qp4 (fun p q r s => antiq_aa q_int p q (2 + r)%nat (2 + s)%nat);
  qp2 q_t1;
  qp4 (fun p q r s => q_v p q (2 + r)%nat (2 + s)%nat);
  qp2 q_t1;
  qp2 (fun p q => fockq_b 2 2 q_int p (2 + q)%nat);
  qp4 (fun p q r s => antiq_bb q_int p q (2 + r)%nat (2 + s)%nat);
  qp2 (fun p q => fockq_a 2 2 q_int (2 + p)%nat (2 + q)%nat);
  qp4 (fun p q r s => antiq_aa q_int (2 + p)%nat q (2 + r)%nat (2 + s)%nat);
  qp4 (fun p q r s => q_v (2 + p)%nat q (2 + r)%nat (2 + s)%nat);
  (fun _ => 0);
  (fun _ => 0);
  qp2 (fun p q => fockq_a 2 2 q_int p q);
  qp4 (fun p q r s => antiq_aa q_int p q r (2 + s)%nat);
  qp4 (fun p q r s => q_v p q r (2 + s)%nat);
  qp2 (fun p q => fockq_b 2 2 q_int (2 + p)%nat (2 + q)%nat);
  qp4 (fun p q r s => antiq_bb q_int (2 + p)%nat q (2 + r)%nat (2 + s)%nat);
  qp4 (fun p q r s => q_v p (2 + q)%nat (2 + r)%nat (2 + s)%nat);
  (fun _ => 0);
  qp2 (fun p q => fockq_b 2 2 q_int p q);
  qp4 (fun p q r s => antiq_bb q_int p q r (2 + s)%nat);
  qp4 (fun p q r s => q_v p q (2 + r)%nat s);
  qp4 (fun p q r s => antiq_aa q_int (2 + p)%nat q r (2 + s)%nat);
  qp4 (fun p q r s => q_v (2 + p)%nat q r (2 + s)%nat);
  qp2 (fun p q => fockq_a 2 2 q_int (2 + p)%nat q);
  qp4 (fun p q r s => antiq_bb q_int (2 + p)%nat q r (2 + s)%nat);
  qp4 (fun p q r s => q_v p (2 + q)%nat (2 + r)%nat s);
  qp2 (fun p q => fockq_b 2 2 q_int (2 + p)%nat q);
  qp4 (fun p q r s => antiq_aa q_int p q r s);
  qp4 (fun p q r s => antiq_aa q_int (2 + p)%nat q r s);
  qp4 (fun p q r s => antiq_aa q_int (2 + p)%nat (2 + q)%nat r (2 + s)%nat);
  qp4 (fun p q r s => antiq_bb q_int p q r s);
  qp4 (fun p q r s => antiq_bb q_int (2 + p)%nat q r s);
  qp4 (fun p q r s => antiq_bb q_int (2 + p)%nat (2 + q)%nat r (2 + s)%nat);
  qp4 (fun p q r s => q_v p q r s);
  qp4 (fun p q r s => q_v p (2 + q)%nat r (2 + s)%nat);
  qp4 (fun p q r s => q_v (2 + p)%nat q (2 + r)%nat s);
  qp4 (fun p q r s => q_v p (2 + q)%nat r s);
  qp4 (fun p q r s => q_v (2 + p)%nat q r s);
  qp4 (fun p q r s => q_v (2 + p)%nat (2 + q)%nat (2 + r)%nat s);
  qp4 (fun p q r s => q_v (2 + p)%nat (2 + q)%nat r (2 + s)%nat);
  qp4 (fun p q r s => antiq_aa q_int (2 + p)%nat (2 + q)%nat (2 + r)%nat (2 + s)%nat);
  qp4 (fun p q r s => q_v (2 + p)%nat (2 + q)%nat (2 + r)%nat (2 + s)%nat);
  qp4 (fun p q r s => antiq_bb q_int (2 + p)%nat (2 + q)%nat (2 + r)%nat (2 + s)%nat);
  qp4 (fun p q r s => antiq_aa q_int (2 + p)%nat (2 + q)%nat r s);
  qp4 (fun p q r s => q_v (2 + p)%nat (2 + q)%nat r s);
  qp4 (fun p q r s => antiq_bb q_int (2 + p)%nat (2 + q)%nat r s);
  qp4 (fun p q r s => antiq_aa q_int p (2 + q)%nat r (2 + s)%nat);
  qp4 (fun p q r s => antiq_bb q_int p (2 + q)%nat r (2 + s)%nat);
  (fun _ => 0);
  (fun _ => 0);
  (fun _ => 0);
  (fun _ => 0);
  (fun _ => 0);
  (fun _ => 0);
  (fun _ => 0);
  qp4 q_r2;
  (fun _ => 0);
  qp4 (fun p q r s => antiq_aa q_int p (2 + q)%nat (2 + r)%nat (2 + s)%nat);
  qp4 (fun p q r s => antiq_aa q_int p q (2 + r)%nat s);
  qp4 (fun p q r s => antiq_bb q_int p (2 + q)%nat (2 + r)%nat (2 + s)%nat);
  qp4 (fun p q r s => antiq_bb q_int p q (2 + r)%nat s);
  qp4 (fun p q r s => antiq_aa q_int (2 + p)%nat q (2 + r)%nat s);
  qp4 (fun p q r s => antiq_bb q_int (2 + p)%nat q (2 + r)%nat s);
  qp4 (fun p q r s => antiq_aa q_int p (2 + q)%nat r s);
  qp4 (fun p q r s => antiq_aa q_int (2 + p)%nat (2 + q)%nat (2 + r)%nat s);
  qp4 (fun p q r s => antiq_bb q_int p (2 + q)%nat r s);
  qp4 (fun p q r s => antiq_bb q_int (2 + p)%nat (2 + q)%nat (2 + r)%nat s);
  qp4 (fun p q r s => antiq_aa q_int p (2 + q)%nat (2 + r)%nat s);
  qp4 (fun p q r s => antiq_bb q_int p (2 + q)%nat (2 + r)%nat s)].

Close Scope Q_scope.
Notation H_cc2 := (fock_ints 2 2 I_cc2).
Lemma q_cc2_ok k l : tenv (j2_arrays d_cc2 H_cc2 T_cc2 R_cc2) k l = Q2R (qenv q_list k l).
Proof.
  do 70 (destruct k as [|k]; [unfold tenv, qenv; cbn [nth j2_arrays q_list];
    first [apply qp2_ok; intros; first [apply fockq_a_ok|apply fockq_b_ok|reflexivity]
          |apply qp4_ok; intros; first [apply antiq_aa_ok|apply antiq_bb_ok|reflexivity]
          |rewrite q0; unfold ap2, ap4, ap6; do 7 (try destruct l as [|? l]); reflexivity]|]).
  unfold tenv, qenv. rewrite !nth_overflow by (cbn [length j2_arrays q_list]; lia). now rewrite q0.
Qed.

Definition q_den (e : ex) (l : list nat) : Q := denq (denv [2; 2; 2; 2]%nat) (qenv q_list) e (venv l).
Lemma q_den_ok e l : den (denv [2; 2; 2; 2]%nat) (tenv (j2_arrays d_cc2 H_cc2 T_cc2 R_cc2)) e (venv l) = Q2R (q_den e l).
Proof. apply denq_ok. exact q_cc2_ok. Qed.

Lemma q_v_ex p q r s : q_v p q r s = q_v q p s r.
Proof. destruct p as [|[|[|[|p]]]], q as [|[|[|[|q]]]], r as [|[|[|[|r]]]], s as [|[|[|[|s]]]]; reflexivity. Qed.
Lemma cc2_exch : exchangeable I_cc2.
Proof. split; intros p q r s; cbn [I_cc2 real q_int q_aa q_bb w_aa w_bb]; now rewrite q_v_ex. Qed.
Lemma f_cc2 p q : fock_b 2 2 I_cc2 p q = fock_a 2 2 I_cc2 p q.
Proof.
  unfold fock_a, fock_b. cbn [I_cc2 real q_int q_a q_b q_aa q_ab q_bb h_a h_b w_aa w_ab w_bb].
  rewrite (sumn_ext 2 (fun k => Q2R (q_v k p k q)) (fun k => Q2R (q_v p k q k))) by (intros; now rewrite q_v_ex). ring.
Qed.
Lemma cc2_closed : closed_shell d_cc2 H_cc2.
Proof.
  split; [reflexivity|reflexivity|exact (fock_ints_antisym _ _ _ cc2_exch)|].
  constructor; intros; cbn -[fock_a fock_b I_cc2]; first [apply f_cc2|reflexivity|cbn [I_cc2 real w_ab q_int q_ab]; now rewrite q_v_ex].
Qed.
Lemma cc2_singlet : singlet T_cc2.
Proof. split; constructor; intros; cbn [T_cc2 x_a x_b x_aa x_ab x_bb]; unfold no_pairs; ring. Qed.
Lemma fa_cc2 p q : fock_a 2 2 I_cc2 p q = Q2R (q_f p q).
Proof.
  unfold I_cc2. rewrite fockq_a_ok. apply Qeq_eqR. unfold fockq_a. rewrite Qred_correct. cbn [q_int q_a q_aa q_ab qsum].
  destruct p as [|[|[|[|p]]]], q as [|[|[|[|q]]]]; reflexivity.
Qed.
Lemma cc2_regular : regular d_cc2 0 H_cc2.
Proof.
  constructor; cbn [d_cc2 noa nua nob nub]; intros;
    repeat match goal with L : (?x < 2)%nat |- _ => destruct x as [|[|x]]; [| |exfalso; lia]; clear L end;
    cbn -[fock_a fock_b I_cc2]; rewrite ?f_cc2, ?fa_cc2; cbn [q_f]; unfold Q2R; cbn; lra.
Qed.
Definition cc2_zero : bool :=
  let all := fun f => forallb f (seq 0 2) in
  let all4 := fun e => all (fun a => all (fun b => all (fun i => all (fun j => Qeq_bool (q_den e [a; b; i; j]) 0)))) in
  (all (fun a => all (fun i => Qeq_bool (q_den (r_cc2_res_a 2 0 1) [a; i]) 0)) && all (fun a => all (fun i => Qeq_bool (q_den (r_cc2_res_b 2 0 1) [a; i]) 0)) &&
   all4 (r_cc2f_aa 4 0 1 2 3) && all4 (r_cc2_res_ab 4 0 1 2 3) && all4 (r_cc2f_bb 4 0 1 2 3))%nat%bool.
Lemma q_val e l x : Qeq_bool (q_den e l) x = true -> den (denv [2; 2; 2; 2]%nat) (tenv (j2_arrays d_cc2 H_cc2 T_cc2 R_cc2)) e (venv l) = Q2R x.
Proof. intros E. rewrite q_den_ok. apply Qeq_eqR. now apply Qeq_bool_eq. Qed.
Lemma q_nil e l : Qeq_bool (q_den e l) 0 = true -> den (denv [2; 2; 2; 2]%nat) (tenv (j2_arrays d_cc2 H_cc2 T_cc2 R_cc2)) e (venv l) = 0.
Proof. intros E. rewrite (q_val e l 0 E). exact q0. Qed.
Lemma cc2_solved : same_amps d_cc2 (cc2_resid d_cc2 H_cc2 T_cc2) zero_amps.
Proof.
  assert (A : cc2_zero = true) by (vm_compute; reflexivity). unfold cc2_zero in A. cbv zeta in A.
  apply andb_prop in A as (A & A5). apply andb_prop in A as (A & A4). apply andb_prop in A as (A & A3). apply andb_prop in A as (A1 & A2).
  constructor; cbn [d_cc2 noa nua nob nub].
  - intros a i Ha Hi. apply all_ok with (k := a) in A1; [|exact Ha]. apply all_ok with (k := i) in A1; [|exact Hi]. exact (q_nil _ _ A1).
  - intros a i Ha Hi. apply all_ok with (k := a) in A2; [|exact Ha]. apply all_ok with (k := i) in A2; [|exact Hi]. exact (q_nil _ _ A2).
  - intros a b i j Ha Hb Hi Hj. apply all_ok with (k := a) in A3; [|exact Ha]. apply all_ok with (k := b) in A3; [|exact Hb]. apply all_ok with (k := i) in A3; [|exact Hi]. apply all_ok with (k := j) in A3; [|exact Hj]. exact (q_nil _ _ A3).
  - intros a b i j Ha Hb Hi Hj. apply all_ok with (k := a) in A4; [|exact Ha]. apply all_ok with (k := b) in A4; [|exact Hb]. apply all_ok with (k := i) in A4; [|exact Hi]. apply all_ok with (k := j) in A4; [|exact Hj]. exact (q_nil _ _ A4).
  - intros a b i j Ha Hb Hi Hj. apply all_ok with (k := a) in A5; [|exact Ha]. apply all_ok with (k := b) in A5; [|exact Hb]. apply all_ok with (k := i) in A5; [|exact Hi]. apply all_ok with (k := j) in A5; [|exact Hj]. exact (q_nil _ _ A5).
Qed.
Lemma cc2_unchanged : same_amps d_cc2 (cc2_iter d_cc2 0 H_cc2 T_cc2) T_cc2.
Proof. apply (C86_fixed_point d_cc2 0 H_cc2 T_cc2 (sg_anti _ cc2_singlet) cc2_regular). exact cc2_solved. Qed.
Example C86_instance : shape d_cc2 4 /\ exchangeable I_cc2 /\ closed_shell d_cc2 H_cc2 /\ singlet T_cc2 /\ regular d_cc2 0 H_cc2 /\ same_amps d_cc2 (cc2_iter d_cc2 0 H_cc2 T_cc2) T_cc2 /\
  x_a T_cc2 0%nat 0%nat = 1.
Proof.
  split; [split; reflexivity|]. split; [exact cc2_exch|]. split; [exact cc2_closed|]. split; [exact cc2_singlet|]. split; [exact cc2_regular|]. split; [exact cc2_unchanged|].
  cbn [T_cc2 x_a q_t1]. unfold Q2R; cbn; lra.
Qed.

(** flag_RHF: the iteration moves away from the solution of the closed-shell CC2 equations *)
Theorem C86_closed_shell_refuted : exists d s H T, closed_shell d H /\ singlet T /\ regular d s H /\
  same_amps d (cc2_iter d s H T) T /\ ~ same_amps d (rcc2_iter d s H T) T.
Proof.
  exists d_cc2, 0, H_cc2, T_cc2. split; [exact cc2_closed|]. split; [exact cc2_singlet|]. split; [exact cc2_regular|]. split; [exact cc2_unchanged|].
  intros F. assert (Q := proj1 (C86_closed_shell d_cc2 0 H_cc2 T_cc2 cc2_closed cc2_singlet cc2_regular cc2_unchanged) F 0%nat 1%nat 0%nat 1%nat
    ltac:(cbn; lia) ltac:(cbn; lia) ltac:(cbn; lia) ltac:(cbn; lia)).
  assert (V : den (denv [2; 2; 2; 2]%nat) (tenv (j2_arrays d_cc2 H_cc2 T_cc2 R_cc2)) e_vvvv (venv [0; 1; 0; 1]%nat) = Q2R (-2)) by (apply q_val; vm_compute; reflexivity).
  assert (Z : Q2R (-2) = 0) by (rewrite <- V; exact Q). unfold Q2R in Z. cbn in Z. lra.
Qed.
(** EOMCC2: the vector is not the derivative of the CC2 residual *)
Theorem C86_eomcc2_jacobian_refuted : exists d s H T R, closed_shell d H /\ singlet T /\ singlet R /\ regular d s H /\
  same_amps d (cc2_iter d s H T) T /\ ~ jacobian d (fun t => cc2_resid d H (amps_line T R t)) (eom2_HR d (hbar_cc2 d H T) T R).
Proof.
  assert (SR : singlet R_cc2).
  { split; constructor; intros; cbn [R_cc2 x_a x_b x_aa x_ab x_bb]; unfold no_pairs; try ring.
    f_equal. destruct a as [|a], b as [|b], i as [|i], j as [|j]; reflexivity. }
  exists d_cc2, 0, H_cc2, T_cc2, R_cc2. split; [exact cc2_closed|]. split; [exact cc2_singlet|]. split; [exact SR|].
  split; [exact cc2_regular|]. split; [exact cc2_unchanged|]. intros [_ _ _ J _].
  assert (K := j_ab _ _ _ (C86_eomcc2_jacobian d_cc2 H_cc2 T_cc2 R_cc2 (cs_anti _ _ cc2_closed) (sg_anti _ cc2_singlet) (sg_anti _ SR)) 0%nat 0%nat 0%nat 0%nat).
  specialize (J 0%nat 0%nat 0%nat 0%nat). assert (E := uniqueness_limite _ _ _ _ J K). clear J K.
  assert (V : den (denv [2; 2; 2; 2]%nat) (tenv (j2_arrays d_cc2 H_cc2 T_cc2 R_cc2)) (r_eom2_X2B_7 4 0 1 2 3)%nat (venv [0; 0; 0; 0]%nat) = Q2R (-4)) by (apply q_val; vm_compute; reflexivity).
  assert (W : den (denv [2; 2; 2; 2]%nat) (tenv (j2_arrays d_cc2 H_cc2 T_cc2 R_cc2)) (r_eomf_X2B_7 4 0 1 2 3)%nat (venv [0; 0; 0; 0]%nat) = Q2R 4) by (apply q_val; vm_compute; reflexivity).
  assert (Z : Q2R (-4) = Q2R 4) by (rewrite <- V, <- W; exact E). unfold Q2R in Z. cbn in Z. lra.
Qed.

Print Assumptions C86_projections.
Print Assumptions C86_closed_shell_refuted.
