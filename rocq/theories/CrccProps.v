(** C80: CR-CC(2,3) against second quantisation. *)
From Coq Require Import Reals Arith NArith List Bool Lia Lra QArith Qreals.
From Verif Require Import RSum IntegralsModel TensorObjs TensorAlg TensorSpec IntsFix CcsdModel CcsdUpdate FockSpec FockCar FockArrays FockCcSpec FockProps FockSectorSpec QEval CcsdtModel CcsdtUpdate SdtSpec SdtFlat SdtFock
  CcsdtReify FockTerms CrccModel CrccSpec CrccPoly CrccKet CrccTrans CrccBra CrccLoop.
Import ListNotations.
Local Open Scope R_scope.
(** The moments computed by the program are <K|exp(-T) H exp(T)|ref> for every triply excited determinant K. *)
Theorem C80_moments d n m I T L H0 :
  shape d n -> exchangeable I -> antisym_amps T -> antisym_amps L -> (noa d + nob d + 4 <= m)%nat ->
  (forall a b c i j k, (a < nua d)%nat -> (b < nua d)%nat -> (c < nua d)%nat -> (i < noa d)%nat -> (j < noa d)%nat -> (k < noa d)%nat -> crcc_M_aaa d H0 (hbar_ccsd d (fock_ints (noa d) (nob d) I) T) T L a b c i j k = bra3 d (va d a) (va d b) (va d c) (oa i) (oa j) (oa k) (similar d n m I T (pure (cc_ref d)))) /\
  (forall a b c i j k, (a < nua d)%nat -> (b < nua d)%nat -> (c < nub d)%nat -> (i < noa d)%nat -> (j < noa d)%nat -> (k < nob d)%nat -> crcc_M_aab d H0 (hbar_ccsd d (fock_ints (noa d) (nob d) I) T) T L a b c i j k = bra3 d (va d a) (va d b) (vb d c) (oa i) (oa j) (ob k) (similar d n m I T (pure (cc_ref d)))) /\
  (forall a b c i j k, (a < nua d)%nat -> (b < nub d)%nat -> (c < nub d)%nat -> (i < noa d)%nat -> (j < nob d)%nat -> (k < nob d)%nat -> crcc_M_abb d H0 (hbar_ccsd d (fock_ints (noa d) (nob d) I) T) T L a b c i j k = bra3 d (va d a) (vb d b) (vb d c) (oa i) (ob j) (ob k) (similar d n m I T (pure (cc_ref d)))) /\
  (forall a b c i j k, (a < nub d)%nat -> (b < nub d)%nat -> (c < nub d)%nat -> (i < nob d)%nat -> (j < nob d)%nat -> (k < nob d)%nat -> crcc_M_bbb d H0 (hbar_ccsd d (fock_ints (noa d) (nob d) I) T) T L a b c i j k = bra3 d (vb d a) (vb d b) (vb d c) (ob i) (ob j) (ob k) (similar d n m I T (pure (cc_ref d)))).
Proof.
  intros (En & En') HI HT HL Hm. repeat split; intros a b c i j k Ha Hb Hc Hi Hj Hk; symmetry; [now apply f_M_aaa|now apply f_M_aab|now apply f_M_abb|now apply f_M_bbb].
Qed.
(** The left triples amplitudes computed by the program are <ref|(1 + L1 + L2) exp(-T) H exp(T)|K>. *)
Theorem C80_left d n m I T L H0 :
  shape d n -> exchangeable I -> antisym_amps T -> antisym_amps L -> (noa d + nob d + 4 <= m)%nat ->
  (forall a b c i j k, (a < nua d)%nat -> (b < nua d)%nat -> (c < nua d)%nat -> (i < noa d)%nat -> (j < noa d)%nat -> (k < noa d)%nat -> crcc_L_aaa d H0 (hbar_ccsd d (fock_ints (noa d) (nob d) I) T) T L a b c i j k = left_sd d L (similar d n m I T (ket3 d (va d a) (va d b) (va d c) (oa i) (oa j) (oa k)))) /\
  (forall a b c i j k, (a < nua d)%nat -> (b < nua d)%nat -> (c < nub d)%nat -> (i < noa d)%nat -> (j < noa d)%nat -> (k < nob d)%nat -> crcc_L_aab d H0 (hbar_ccsd d (fock_ints (noa d) (nob d) I) T) T L a b c i j k = left_sd d L (similar d n m I T (ket3 d (va d a) (va d b) (vb d c) (oa i) (oa j) (ob k)))) /\
  (forall a b c i j k, (a < nua d)%nat -> (b < nub d)%nat -> (c < nub d)%nat -> (i < noa d)%nat -> (j < nob d)%nat -> (k < nob d)%nat -> crcc_L_abb d H0 (hbar_ccsd d (fock_ints (noa d) (nob d) I) T) T L a b c i j k = left_sd d L (similar d n m I T (ket3 d (va d a) (vb d b) (vb d c) (oa i) (ob j) (ob k)))) /\
  (forall a b c i j k, (a < nub d)%nat -> (b < nub d)%nat -> (c < nub d)%nat -> (i < nob d)%nat -> (j < nob d)%nat -> (k < nob d)%nat -> crcc_L_bbb d H0 (hbar_ccsd d (fock_ints (noa d) (nob d) I) T) T L a b c i j k = left_sd d L (similar d n m I T (ket3 d (vb d a) (vb d b) (vb d c) (ob i) (ob j) (ob k)))).
Proof.
  intros (En & En') HI HT HL Hm. repeat split; intros a b c i j k Ha Hb Hc Hi Hj Hk; symmetry; [now apply f_L_aaa|now apply f_L_aab|now apply f_L_abb|now apply f_L_bbb].
Qed.
(** The denominators of variant D are E - <K|exp(-T) H exp(T)|K>. *)
Theorem C80_denominators d n m I T L H0 :
  shape d n -> exchangeable I -> antisym_amps T -> antisym_amps L -> (noa d + nob d + 4 <= m)%nat ->
  (forall a b c i j k, (a < nua d)%nat -> (b < nua d)%nat -> (c < nua d)%nat -> (i < noa d)%nat -> (j < noa d)%nat -> (k < noa d)%nat -> (a < b)%nat -> (b < c)%nat -> (i < j)%nat -> (j < k)%nat -> crcc_DD_aaa d H0 (hbar_ccsd d (fock_ints (noa d) (nob d) I) T) T L a b c i j k = scf_energy (noa d) (nob d) I + cc_energy d (fock_ints (noa d) (nob d) I) T - bra3 d (va d a) (va d b) (va d c) (oa i) (oa j) (oa k) (similar d n m I T (ket3 d (va d a) (va d b) (va d c) (oa i) (oa j) (oa k)))) /\
  (forall a b c i j k, (a < nua d)%nat -> (b < nua d)%nat -> (c < nub d)%nat -> (i < noa d)%nat -> (j < noa d)%nat -> (k < nob d)%nat -> (a < b)%nat -> (i < j)%nat -> crcc_DD_aab d H0 (hbar_ccsd d (fock_ints (noa d) (nob d) I) T) T L a b c i j k = scf_energy (noa d) (nob d) I + cc_energy d (fock_ints (noa d) (nob d) I) T - bra3 d (va d a) (va d b) (vb d c) (oa i) (oa j) (ob k) (similar d n m I T (ket3 d (va d a) (va d b) (vb d c) (oa i) (oa j) (ob k)))) /\
  (forall a b c i j k, (a < nua d)%nat -> (b < nub d)%nat -> (c < nub d)%nat -> (i < noa d)%nat -> (j < nob d)%nat -> (k < nob d)%nat -> (b < c)%nat -> (j < k)%nat -> crcc_DD_abb d H0 (hbar_ccsd d (fock_ints (noa d) (nob d) I) T) T L a b c i j k = scf_energy (noa d) (nob d) I + cc_energy d (fock_ints (noa d) (nob d) I) T - bra3 d (va d a) (vb d b) (vb d c) (oa i) (ob j) (ob k) (similar d n m I T (ket3 d (va d a) (vb d b) (vb d c) (oa i) (ob j) (ob k)))) /\
  (forall a b c i j k, (a < nub d)%nat -> (b < nub d)%nat -> (c < nub d)%nat -> (i < nob d)%nat -> (j < nob d)%nat -> (k < nob d)%nat -> (a < b)%nat -> (b < c)%nat -> (i < j)%nat -> (j < k)%nat -> crcc_DD_bbb d H0 (hbar_ccsd d (fock_ints (noa d) (nob d) I) T) T L a b c i j k = scf_energy (noa d) (nob d) I + cc_energy d (fock_ints (noa d) (nob d) I) T - bra3 d (vb d a) (vb d b) (vb d c) (ob i) (ob j) (ob k) (similar d n m I T (ket3 d (vb d a) (vb d b) (vb d c) (ob i) (ob j) (ob k)))).
Proof.
  intros (En & En') HI HT HL Hm. repeat split; intros a b c i j k Ha Hb Hc Hi Hj Hk; intros; symmetry; [apply f_D_aaa|apply f_D_aab|apply f_D_abb|apply f_D_bbb]; try assumption; lia.
Qed.
(** E is <ref|exp(-T) H exp(T)|ref>. *)
Theorem C80_energy d n m I T : shape d n -> exchangeable I -> antisym_amps T -> (noa d + nob d + 4 <= m)%nat ->
  similar d n m I T (pure (cc_ref d)) (cc_ref d) = scf_energy (noa d) (nob d) I + cc_energy d (fock_ints (noa d) (nob d) I) T.
Proof. intros (En & En') HI HT Hm. now apply r_ref. Qed.
Section V.
Variables (d : dims) (n m : nat) (I : integrals) (T L : amps) (H0 : ints).
Hypothesis En : (noa d + nua d = n)%nat.
Hypothesis En' : (nob d + nub d = n)%nat.
Hypothesis HI : exchangeable I.
Hypothesis HT : antisym_amps T.
Hypothesis HL : antisym_amps L.
Hypothesis Hm : (noa d + nob d + 4 <= m)%nat.
Notation HB := (hbar_ccsd d (fock_ints (noa d) (nob d) I) T).
Lemma tri_spec D1 D2 D3 D4 den :
  (forall a b c i j k, (a < nua d)%nat -> (b < nua d)%nat -> (c < nua d)%nat -> (i < noa d)%nat -> (j < noa d)%nat -> (k < noa d)%nat -> (a < b)%nat -> (a < c)%nat -> (b < c)%nat -> (i < j)%nat -> (i < k)%nat -> (j < k)%nat -> D1 a b c i j k = den (va d a) (va d b) (va d c) (oa i) (oa j) (oa k)) ->
  (forall a b c i j k, (a < nua d)%nat -> (b < nua d)%nat -> (c < nub d)%nat -> (i < noa d)%nat -> (j < noa d)%nat -> (k < nob d)%nat -> (a < b)%nat -> (i < j)%nat -> D2 a b c i j k = den (va d a) (va d b) (vb d c) (oa i) (oa j) (ob k)) ->
  (forall a b c i j k, (a < nua d)%nat -> (b < nub d)%nat -> (c < nub d)%nat -> (i < noa d)%nat -> (j < nob d)%nat -> (k < nob d)%nat -> (b < c)%nat -> (j < k)%nat -> D3 a b c i j k = den (va d a) (vb d b) (vb d c) (oa i) (ob j) (ob k)) ->
  (forall a b c i j k, (a < nub d)%nat -> (b < nub d)%nat -> (c < nub d)%nat -> (i < nob d)%nat -> (j < nob d)%nat -> (k < nob d)%nat -> (a < b)%nat -> (a < c)%nat -> (b < c)%nat -> (i < j)%nat -> (i < k)%nat -> (j < k)%nat -> D4 a b c i j k = den (vb d a) (vb d b) (vb d c) (ob i) (ob j) (ob k)) ->
  tri4 d (mld (crcc_M_aaa d H0 HB T L) (crcc_L_aaa d H0 HB T L) D1) (mld (crcc_M_aab d H0 HB T L) (crcc_L_aab d H0 HB T L) D2) (mld (crcc_M_abb d H0 HB T L) (crcc_L_abb d H0 HB T L) D3) (mld (crcc_M_bbb d H0 HB T L) (crcc_L_bbb d H0 HB T L) D4) = crcc23_sum d n m I T L den.
Proof.
  intros K1 K2 K3 K4. unfold tri4, crcc23_sum, sum_triples, mld. apply f_equal2; [apply f_equal2; [apply f_equal2|]|].
  - apply lt3_ext; intros a b c Ha Hb Hc ? ? ?. apply lt3_ext; intros i j k Hi Hj Hk ? ? ?. rewrite <- (f_M_aaa d I T L H0 n m En En' HI HT HL Hm a b c i j k), <- (f_L_aaa d I T L H0 n m En En' HI HT HL Hm a b c i j k), (K1 a b c i j k) by assumption. apply (f_equal (fun x => x / _)), Rmult_comm.
  - apply lt2_ext; intros a b Ha Hb ?. apply sumn_ext; intros c Hc. apply lt2_ext; intros i j Hi Hj ?. apply sumn_ext; intros k Hk. rewrite <- (f_M_aab d I T L H0 n m En En' HI HT HL Hm a b c i j k), <- (f_L_aab d I T L H0 n m En En' HI HT HL Hm a b c i j k), (K2 a b c i j k) by assumption. apply (f_equal (fun x => x / _)), Rmult_comm.
  - apply sumn_ext; intros a Ha. apply lt2_ext; intros b c Hb Hc ?. apply sumn_ext; intros i Hi. apply lt2_ext; intros j k Hj Hk ?. rewrite <- (f_M_abb d I T L H0 n m En En' HI HT HL Hm a b c i j k), <- (f_L_abb d I T L H0 n m En En' HI HT HL Hm a b c i j k), (K3 a b c i j k) by assumption. apply (f_equal (fun x => x / _)), Rmult_comm.
  - apply lt3_ext; intros a b c Ha Hb Hc ? ? ?. apply lt3_ext; intros i j k Hi Hj Hk ? ? ?. rewrite <- (f_M_bbb d I T L H0 n m En En' HI HT HL Hm a b c i j k), <- (f_L_bbb d I T L H0 n m En En' HI HT HL Hm a b c i j k), (K4 a b c i j k) by assumption. apply (f_equal (fun x => x / _)), Rmult_comm.
Qed.
End V.
(** The CR-CC(2,3),D energy returned by the program is E plus the sum over all triply excited determinants K of
    <ref|(1 + L) Hbar|K> <K|Hbar|ref> / (E - <K|Hbar|K>). *)
Theorem C80_correction d n m I T L H0 :
  shape d n -> exchangeable I -> antisym_amps T -> antisym_amps L -> (noa d + nob d + 4 <= m)%nat ->
  let H := fock_ints (noa d) (nob d) I in let E := scf_energy (noa d) (nob d) I + cc_energy d H T in
  let '(_, _, _, e) := calc_crcc23 d H0 (hbar_ccsd d H T) T L (scf_energy (noa d) (nob d) I) (cc_energy d H T) false in
  e = E + crcc23_correction d n m I T L E.
Proof.
  intros (En & En') HI HT HL Hm. cbv zeta. unfold calc_crcc23. rewrite delta_sums. unfold crcc23_correction.
  rewrite (tri_spec d n m I T L H0 En En' HI HT HL Hm _ _ _ _ (fun a b c i j k => scf_energy (noa d) (nob d) I + cc_energy d (fock_ints (noa d) (nob d) I) T - bra3 d a b c i j k (similar d n m I T (ket3 d a b c i j k)))).
  - ring.
  - intros. symmetry. now apply f_D_aaa.
  - intros. symmetry. now apply f_D_aab.
  - intros. symmetry. now apply f_D_abb.
  - intros. symmetry. now apply f_D_bbb.
Qed.
Lemma even_al p : Nat.even (al p) = true. Proof. unfold al. now rewrite Nat.even_mul. Qed.
Lemma even_be p : Nat.even (be p) = false. Proof. unfold be. now rewrite Nat.even_add, Nat.even_mul. Qed.
Lemma half_al p : Nat.div2 (al p) = p. Proof. unfold al. apply Nat.div2_double. Qed.
Lemma half_be p : Nat.div2 (be p) = p. Proof. unfold be. rewrite Nat.add_1_r. apply Nat.div2_succ_double. Qed.
Lemma level_al fa fb p : by_spin fa fb (al p) = fa p. Proof. unfold by_spin. now rewrite even_al, half_al. Qed.
Lemma level_be fa fb p : by_spin fa fb (be p) = fb p. Proof. unfold by_spin. now rewrite even_be, half_be. Qed.
Ltac levels := unfold gap, fock_level, block_level, va, vb, oa, ob; rewrite ?level_al, ?level_be;
  repeat match goal with |- context [Nat.ltb (?n + ?a) ?n] => replace (Nat.ltb (n + a) n) with false by (symmetry; apply Nat.ltb_ge; lia); replace (n + a - n)%nat with a by lia end;
  repeat match goal with H : (?a < ?n)%nat |- context [Nat.ltb ?a ?n] => replace (Nat.ltb a n) with true by (symmetry; now apply Nat.ltb_lt) end.
(** Variants A and B: the same numerators over differences of diagonal Fock elements, and of diagonal one-body elements of Hbar. *)
Theorem C80_orbital_denominators d n m I T L :
  shape d n -> exchangeable I -> antisym_amps T -> antisym_amps L -> (noa d + nob d + 4 <= m)%nat ->
  let H := fock_ints (noa d) (nob d) I in let E := scf_energy (noa d) (nob d) I + cc_energy d H T in
  let '(ea, eb, _, _) := calc_crcc23 d H (hbar_ccsd d H T) T L (scf_energy (noa d) (nob d) I) (cc_energy d H T) false in
  ea = E + crcc23_sum d n m I T L (gap (fock_level d I)) /\ eb = E + crcc23_sum d n m I T L (gap (block_level d (hbar_ccsd d H T))).
Proof.
  intros (En & En') HI HT HL Hm. cbv zeta. unfold calc_crcc23. rewrite delta_sums. set (H := fock_ints (noa d) (nob d) I). split.
  - unfold H. rewrite (tri_spec d n m I T L _ En En' HI HT HL Hm _ _ _ _ (gap (fock_level d I))); [ring|..]; intros; levels; reflexivity.
  - unfold H. rewrite (tri_spec d n m I T L _ En En' HI HT HL Hm _ _ _ _ (gap (block_level d (hbar_ccsd d (fock_ints (noa d) (nob d) I) T)))); [ring|..]; intros; levels; reflexivity.
Qed.
(** Two alpha and one beta electron: doubles and one repulsion element that excites a third electron. *)
Definition c_levels (p q : nat) : Q := if Nat.eqb p q then inject_Z (Z.of_nat p) else 0.
Definition c_push (p q r s : nat) : Q := match p, q, r, s with 3%nat, 1%nat, 3%nat, 0%nat => 1%Q | _, _, _, _ => 0%Q end.
Definition c_sgn (a b : nat) : Q := match a, b with 0%nat, 1%nat => 1 | 1%nat, 0%nat => -(1) | _, _ => 0 end.
Definition c_ints : qints := mkQ c_levels c_levels (fun _ _ _ _ => 0%Q) c_push (fun _ _ _ _ => 0%Q).
Definition c_amps : qamps := mkQa (fun _ _ => 0%Q) (fun _ _ => 0%Q) (fun a b i j => c_sgn a b * c_sgn i j * (1 # 2))%Q (fun _ _ _ _ => 0%Q) (fun _ _ _ _ => 0%Q).
Definition c_dims := mkDims 2 2 1 3.
Example C80_instance : shape c_dims 4 /\ exchangeable (real c_ints) /\ antisym_amps (reala c_amps) /\
  bra3 c_dims (va c_dims 0) (va c_dims 1) (vb c_dims 0) (oa 0) (oa 1) (ob 0) (similar c_dims 4 7 (real c_ints) (reala c_amps) (pure (cc_ref c_dims))) = / 2.
Proof.
  assert (HI : exchangeable (real c_ints)) by (split; intros; reflexivity).
  assert (SG : forall a b, (c_sgn a b == - c_sgn b a)%Q) by (intros [|[|a]] [|[|b]]; reflexivity).
  assert (HT : antisym_amps (reala c_amps)).
  { constructor; intros; cbn [reala x_aa x_bb c_amps qt_aa qt_bb]; rewrite ?q0; try ring; rewrite <- Q2R_opp; apply Qeq_eqR; [rewrite (SG a b)|rewrite (SG i j)]; ring. }
  split; [split; reflexivity|]. split; [exact HI|]. split; [exact HT|].
  transitivity (x_aab (ccsdt_resid c_dims (fock_ints 2 1 (real c_ints)) (plain (reala c_amps))) 0%nat 1%nat 0%nat 0%nat 1%nat 0%nat).
  - exact (r_aab c_dims (real c_ints) (reala c_amps) 4 7 eq_refl eq_refl HI HT ltac:(cbn; lia) 0%nat 1%nat 0%nat 0%nat 1%nat 0%nat ltac:(cbn; lia) ltac:(cbn; lia) ltac:(cbn; lia) ltac:(cbn; lia) ltac:(cbn; lia) ltac:(cbn; lia)).
  - change (den (fdim c_dims) (tenv (fock_arrays (fock_ints 2 1 (real c_ints)) (reala c_amps))) (e_sdt_aab 0 1 2 3 4 5) (venv [0; 1; 0; 0; 1; 0]%nat) = / 2). rewrite (denq_ok (fdim c_dims) _ _ (qarrays_ok 2 1 c_ints c_amps)).
    rewrite (Qeq_eqR _ (1 # 2)); [unfold Q2R; cbn; lra|]. apply Qeq_bool_eq. vm_compute. reflexivity.
Qed.
Print Assumptions C80_correction. Print Assumptions C80_orbital_denominators. Print Assumptions C80_energy.
