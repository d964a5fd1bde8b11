(** The derivative of exp(-T) H exp(T) |ref> along T (proof support for CR-EOMCC(2,3)). *)
From Coq Require Import Reals Arith NArith List Bool Lia Lra FunctionalExtensionality.
From Verif Require Import RSum IntegralsModel TensorObjs TensorSpec CcsdModel CcsdUpdate CcsdProps FockSpec FockCar FockCcSpec FockExp FockLevel FockState FockSectorSpec RankSpec FockCount FockDress FockShift
  SdtSpec SdtFlat SdtState FockEom FockEomProj CrccSpec CrccHbar FockProj FockProps CrccModel CrccProps CreomModel CreomDeriv.
Import ListNotations.
Local Open Scope R_scope.

Lemma exc_smooth occ X : exc occ X -> smooth X.
Proof.
  induction 1 as [p q Hp Hq|X Y _ IX _ IY|c X _ IX|n F _ IF|X Y _ IX _ IY]; intros psi psi' H D.
  - apply (smooth_cre p (fun t => ann q (psi t))). now apply smooth_ann.
  - apply (IX (fun t => Y (psi t))). now apply IY.
  - apply dl_scal. now apply IX.
  - apply (dl_sum n (fun i t => F i (psi t) D)). intros i Hi. now apply IF.
  - apply dl_add; [now apply IX|now apply IY].
Qed.
Lemma smooth_power X k : smooth X -> smooth (power X k).
Proof. intros SX. induction k as [|k IH]; intros psi psi' H D; [apply H|]. rewrite power_S. apply (SX (fun t => power X k (psi t))). intros E. now apply IH. Qed.
Lemma smooth_dpow X k : smooth X -> smooth (dpow X k).
Proof. intros SX psi psi' H D. unfold dpow. first [apply dl_scal | idtac]. now apply smooth_power. Qed.
Lemma dl_dpow2 A B k (psi : R -> state) psi' D : linear A -> linear B -> smooth A -> smooth B -> commute A B -> (forall D, dl (fun t => psi t D) (psi' D)) ->
  dl (fun t => dpow (fun f E => A f E + t * B f E) (S k) (psi t) D) (B (dpow A k (psi 0)) D + dpow A (S k) psi' D).
Proof.
  intros LA LB SA SB C Hp.
  apply dl_ext with (f := fun t => sumn (S (S k)) (fun i => t ^ (S k - i) * dpow A i (dpow B (S k - i) (psi t)) D)).
  { intros t. rewrite (binomial A (fun f E => t * B f E)); [|exact LA|now apply scal_linear|].
    - apply sumn_ext; intros i _. rewrite dpow_scal by exact LB. now rewrite (lin_scal _ _ _ (dpow_linear A i LA)).
    - intros f. rewrite (lin_scal A _ _ LA). now rewrite C. }
  assert (CB : commute B A) by (intros f; now rewrite C).
  eapply dl_at.
  - apply (dl_sum (S (S k)) (fun i t => t ^ (S k - i) * dpow A i (dpow B (S k - i) (psi t)) D)
      (fun i => (if Nat.eqb (S k - i) 1 then 1 else 0) * dpow A i (dpow B (S k - i) (psi 0)) D + 0 ^ (S k - i) * dpow A i (dpow B (S k - i) psi') D)). intros i _.
    apply dl_mul; [apply dl_pow|]. apply (smooth_dpow A i SA (fun t => dpow B (S k - i) (psi t))). intros E. now apply smooth_dpow.
  - rewrite sumn_plus. apply f_equal2.
    + rewrite (commute_dpow B A k LB CB). cbn [sumn]. replace (S k - k)%nat with 1%nat by lia. replace (S k - S k)%nat with 0%nat by lia. cbn [Nat.eqb].
      rewrite sumn_0; [|intros i Hi; rewrite (proj2 (Nat.eqb_neq _ _)) by lia; ring].
      replace (dpow B 1 (psi 0)) with (B (psi 0)); [ring|]. apply ext_state; intros E. unfold dpow, power. cbn. field.
    + change (sumn (S (S k))) with (fun f => sumn (S k) f + f (S k)). cbv beta. rewrite sumn_0.
      * replace (S k - S k)%nat with 0%nat by lia. replace (dpow B 0 psi') with psi'; [cbn [pow]; ring|]. apply ext_state; intros E. unfold dpow, power. cbn. field.
      * intros i Hi. replace (S k - i)%nat with (S (k - i)) by lia. cbn [pow]. ring.
Qed.
Lemma dl_expo2 A B m (psi : R -> state) psi' D : linear A -> linear B -> smooth A -> smooth B -> commute A B -> (forall D, dl (fun t => psi t D) (psi' D)) ->
  dl (fun t => expo (fun f E => A f E + t * B f E) (S m) (psi t) D) (B (expo A m (psi 0)) D + expo A (S m) psi' D).
Proof.
  intros LA LB SA SB C Hp.
  apply dl_ext with (f := fun t => psi t D + sumn (S m) (fun k => dpow (fun f E => A f E + t * B f E) (S k) (psi t) D)).
  { intros t. unfold expo. rewrite (sumn_S_l (S m)). f_equal. cbn. field. }
  eapply dl_at; [apply dl_add; [apply Hp|apply (dl_sum (S m) (fun k t => dpow (fun f E => A f E + t * B f E) (S k) (psi t) D)); intros k _; now apply dl_dpow2]|].
  rewrite sumn_plus. change (expo A m (psi 0)) with (fun D => sumn (S m) (fun k => dpow A k (psi 0) D)). rewrite (lin_sum B (S m) (fun k => dpow A k (psi 0)) LB).
  rewrite (expo_dpow A (S m)), (sumn_S_l (S m)). replace (dpow A 0 psi' D) with (psi' D) by (unfold dpow, power; cbn; field). ring.
Qed.
Section E.
Variables (d : dims) (n : nat).
Notation occs := (map al (seq 0 (noa d)) ++ map be (seq 0 (nob d))).
Notation ex := (exc (fun q => In q occs)).
Lemma exc_negated X : ex X -> ex (negated X).
Proof. intros H. replace (negated X) with (fun psi D => -1 * X psi D); [now apply exc_scal|]. apply functional_extensionality; intros psi. apply ext_state; intros D. unfold negated. ring. Qed.
Lemma dead_state psi : vanish occs (S (noa d + nob d)) psi -> psi = fun _ => 0.
Proof.
  intros H. apply ext_state; intros D. apply H. assert (Q := level_max occs D). rewrite app_length, !map_length, !seq_length in Q. lia.
Qed.
(** Terms beyond the number of electrons vanish *)
Lemma expo_stop X m psi : ex X -> (noa d + nob d <= m)%nat -> expo X (S m) psi = expo X m psi.
Proof.
  intros HX Hm. apply ext_state; intros D. rewrite !expo_dpow. change (sumn (S (S m)) (fun k => dpow X k psi D)) with (sumn (S m) (fun k => dpow X k psi D) + dpow X (S m) psi D).
  unfold dpow at 2. rewrite (dead_state (power X (S m) psi)); [ring|]. eapply vanish_le; [|apply vanish_power; [apply ref_nodup|exact HX]]. lia.
Qed.
Variables (I : integrals) (T Y : amps) (m : nat).
Hypothesis Hm : (noa d + nob d <= m)%nat.
Notation ref := (reference (noa d) (nob d)).
Notation TT := (cluster_sd d T).
Notation YY := (cluster_sd d Y).
Lemma neg_line t : negated (cluster_sd d (amps_line T Y t)) = fun f E => negated TT f E + t * negated YY f E.
Proof. rewrite cluster_line. apply functional_extensionality; intros psi. apply ext_state; intros D. unfold negated. ring. Qed.
Lemma d_similar D : dl (fun t => similar d n (S m) I (amps_line T Y t) (pure ref) D)
  (similar d n m I T (YY (pure ref)) D - YY (similar d n m I T (pure ref)) D).
Proof.
  apply dl_ext with (f := fun t => expo (fun f E => negated TT f E + t * negated YY f E) (S m) (hamiltonian n I (expo (cluster_sd d (amps_line T Y t)) (S m) (pure ref))) D).
  { intros t. unfold similar. now rewrite neg_line. }
  assert (ET : ex (negated TT)) by apply exc_negated, cluster_exc. assert (EY : ex (negated YY)) by apply exc_negated, cluster_exc.
  eapply dl_at.
  - apply (dl_expo2 (negated TT) (negated YY) m (fun t => hamiltonian n I (expo (cluster_sd d (amps_line T Y t)) (S m) (pure ref))) (hamiltonian n I (YY (expo TT m (pure ref))))).
    + eapply exc_linear, ET.
    + eapply exc_linear, EY.
    + eapply exc_smooth, ET.
    + eapply exc_smooth, EY.
    + eapply exc_commute; eassumption.
    + intros E. apply (smooth_hamiltonian n I (fun t => expo (cluster_sd d (amps_line T Y t)) (S m) (pure ref))). intros E'. apply dl_state.
  - cbv beta. rewrite amps_line0. rewrite (expo_stop (negated TT) m) by assumption. rewrite (expo_stop TT m) by (assumption || apply cluster_exc).
    rewrite (commute_expo YY TT m) by (first [eapply exc_linear, cluster_exc | eapply exc_commute; apply cluster_exc]).
    unfold similar. unfold negated at 1. ring.
Qed.
End E.
(** When the CCSD equations hold, R exp(-T) H exp(T) |ref> has no triply excited component *)
Section S.
Variables (d : dims) (n : nat).
Hypothesis En : (noa d + nua d = n)%nat.
Hypothesis En' : (nob d + nub d = n)%nat.
Notation occs := (map al (seq 0 (noa d)) ++ map be (seq 0 (nob d))).
Lemma pair_off P s f a i : downward d n P -> (a < nu d s)%nat -> (i < no d s)%nat -> off_on P f -> off_on P (cre (sp s (no d s + a)%nat) (ann (sp s i) f)).
Proof.
  intros HP Ha Hi Hf D HD. unfold cre, ann. change (N.testbit D (N.of_nat (sp s (no d s + a)))) with (bit D (sp s (no d s + a))).
  destruct (bit D (sp s (no d s + a))) eqn:B1; [|ring]. change (N.clearbit D (N.of_nat (sp s (no d s + a)))) with (off D (sp s (no d s + a))). fold (bit (off D (sp s (no d s + a))) (sp s i)). rewrite bit_off.
  assert (Q := no_nu d n En En' s).
  assert (NE : sp s (no d s + a) <> sp s i) by (destruct s; unfold sp, al, be; lia). rewrite (eqb_neq _ _ NE). cbn [negb]. rewrite andb_true_r.
  destruct (bit D (sp s i)) eqn:B2; [ring|]. change (N.setbit (off D (sp s (no d s + a))) (N.of_nat (sp s i))) with (on (off D (sp s (no d s + a))) (sp s i)).
  rewrite (Hf _ (HP (sp s) (no d s) a i D ltac:(destruct s; auto) ltac:(lia) Hi HD B1 B2)). ring.
Qed.
Lemma sp_ne s u (a j : nat) : (j < no d u)%nat -> sp s (no d s + a)%nat <> sp u j.
Proof. intros Hj. destruct s, u; unfold sp, no, al, be in *; lia. Qed.
Lemma one_off P s f t : downward d n P -> off_on P f -> off_on P (single_op (nu d s) (no d s) t (sp s) f).
Proof. intros HP Hf D HD. unfold single_op. apply sumn_0; intros a Ha. apply sumn_0; intros i Hi. rewrite (pair_off P s f a i HP Ha Hi Hf D HD). ring. Qed.
Lemma two_off P s u f t : downward d n P -> off_on P f -> off_on P (double_op (nu d s) (nu d u) (no d s) (no d u) t (sp s) (sp u) f).
Proof.
  intros HP Hf D HD. unfold double_op. apply sumn_0; intros a Ha. apply sumn_0; intros b Hb. apply sumn_0; intros i Hi. apply sumn_0; intros j Hj.
  assert (Q := pair_off P s _ a i HP Ha Hi (pair_off P u f b j HP Hb Hj Hf) D HD).
  rewrite (ann_cre_ne (sp s i) (sp u (no d u + b)%nat)) in Q by (intros C; symmetry in C; revert C; now apply sp_ne).
  replace (ann (sp s i) (ann (sp u j) f)) with (fun E => - ann (sp u j) (ann (sp s i) f) E) in Q by (apply ext_state; intros; rewrite (ann_ann (sp s i) (sp u j)); ring).
  rewrite !cre_neg in Q. match goal with |- _ * ?x = 0 => replace x with 0; [ring|] end. lra.
Qed.
Lemma sd_off P X f : downward d n P -> off_on P f -> off_on P (cluster_sd d X f).
Proof.
  intros HP Hf D HD. unfold cluster_sd.
  assert (Q1 := one_off P true f (x_a X) HP Hf D HD). assert (Q2 := one_off P false f (x_b X) HP Hf D HD).
  assert (Q3 := two_off P true true f (x_aa X) HP Hf D HD). assert (Q4 := two_off P true false f (x_ab X) HP Hf D HD). assert (Q5 := two_off P false false f (x_bb X) HP Hf D HD).
  cbn [sp no nu] in Q1, Q2, Q3, Q4, Q5. rewrite Q1, Q2, Q3, Q4, Q5. ring.
Qed.
Lemma level_empties D : level occs D = (empties al (noa d) D + empties be (nob d) D)%nat.
Proof.
  unfold level, empties. rewrite filter_app, app_length. f_equal.
  - generalize (seq 0 (noa d)). induction l as [|x l IH]; [reflexivity|]. cbn [map filter]. fold (bit D (al x)). destruct (negb (bit D (al x))); cbn [length]; now rewrite IH.
  - generalize (seq 0 (nob d)). induction l as [|x l IH]; [reflexivity|]. cbn [map filter]. fold (bit D (be x)). destruct (negb (bit D (be x))); cbn [length]; now rewrite IH.
Qed.
Lemma raise_off X f : off_on (sector d n 0 0 0 0 2) f -> off_on (sdt_space d n) (cluster_sd d X f).
Proof.
  intros Hf. set (hi := fun D => if Nat.ltb (level occs D) 3 then 0 else f D). set (lo := fun D => if Nat.ltb (level occs D) 3 then f D else 0).
  assert (Z : off_on (sdt_space d n) lo).
  { intros D (C0 & C1 & C2 & C3). unfold lo. destruct (Nat.ltb_spec (level occs D) 3) as [Q|Q]; [|reflexivity]. apply Hf. rewrite level_empties in Q. repeat split; try assumption. lia. }
  assert (V : vanish occs 3 hi) by (intros D HD; unfold hi; now rewrite (proj2 (Nat.ltb_lt _ _) HD)).
  replace f with (fun D => hi D + lo D) by (apply ext_state; intros D; unfold hi, lo; destruct (Nat.ltb _ _); ring).
  intros D HD. rewrite (lin_add (cluster_sd d X) hi lo (exc_linear _ _ (cluster_exc d X))).
  rewrite (sd_off (sdt_space d n) X lo (sector_downward d n En En' 0 0 0 0 3) Z D HD).
  rewrite (vanish_exc occs (ref_nodup (noa d) (nob d)) (cluster_sd d X) (cluster_exc d X) 3 hi V D); [ring|].
  destruct HD as (_ & _ & _ & C3). rewrite level_empties. lia.
Qed.
Variables (I : integrals) (T Y : amps) (m : nat).
Hypothesis HI : exchangeable I.
Hypothesis HT : antisym_amps T.
Hypothesis Hm : (noa d + nob d + 4 <= m)%nat.
Notation H := (fock_ints (noa d) (nob d) I).
Notation ref := (reference (noa d) (nob d)).
Notation E := (scf_energy (noa d) (nob d) I + cc_energy d H T).
Hypothesis HR : same_amps d (ccsd_resid d H T) zero_amps.
Lemma bar_off : off_on (sector d n 0 0 0 0 2) (fun D => similar d n m I T (pure ref) D - E * pure ref D).
Proof.
  assert (S2 : solves n I ref E (expo (cluster_sd d T) m (pure ref))) by (apply solves_zero; try assumption; lia).
  assert (W : off_on (sector d n 0 0 0 0 2) (fun D => hamiltonian n I (expo (cluster_sd d T) m (pure ref)) D - E * expo (cluster_sd d T) m (pure ref) D)).
  { intros D HD. apply (proj1 (near_count d n En En' (fun D => hamiltonian n I (expo (cluster_sd d T) m (pure ref)) D - E * expo (cluster_sd d T) m (pure ref) D))); [|exact HD].
    intros D' HD'. rewrite (S2 D' HD'). ring. }
  set (U := expo (negated (cluster_sd d T)) m).
  assert (LU : linear U) by (apply (unc_linear d T m)).
  assert (Q : off_on (sector d n 0 0 0 0 2) (U (fun D => hamiltonian n I (expo (cluster_sd d T) m (pure ref)) D - E * expo (cluster_sd d T) m (pure ref) D))).
  { apply expo_off; [|exact W]. intros g Hg D HD. unfold negated. rewrite (sd_off _ T g (sector_downward d n En En' 0 0 0 0 2) Hg D HD). ring. }
  rewrite (lin_sub U _ _ LU), (lin_scal U _ _ LU) in Q. unfold U in Q. rewrite (sd_back d T m) in Q by lia. exact Q.
Qed.
Lemma no_back_raw : off_on (sdt_space d n) (fun D => cluster_sd d Y (similar d n m I T (pure ref)) D - E * cluster_sd d Y (pure ref) D).
Proof.
  assert (Q := raise_off Y _ bar_off). assert (LY : linear (cluster_sd d Y)) by (eapply exc_linear, cluster_exc).
  rewrite (lin_sub _ _ _ LY), (lin_scal _ _ _ LY) in Q. exact Q.
Qed.
End S.
