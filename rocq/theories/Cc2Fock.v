(** CC2: the components of the similarity-transformed Hamiltonian between the reference and the excited determinants. *)
From Coq Require Import Reals Arith NArith List Bool Lra Lia FunctionalExtensionality.
From Verif Require Import RSum IntegralsModel TensorObjs TensorAlg TensorSpec CcsdModel CcsdUpdate CcsdProps RhfProps SdtSpec CcsdtModel CcsdtUpdate
  FockSpec FockCar FockWick FockCcSpec FockExp FockProj FockSectorSpec FockSector3 FockDress FockShift FockProps RankSpec FockFlip FockArrays FockTerms FockHam FockLevel FockCheck FockState FockNear FockFast FockTools3 SdtFlat SdtFock CrccSpec CrccFock CrccHbar Cc2Model Cc2Update Cc2Spec Cc2Proofs.
Import ListNotations.
Open Scope R_scope.

Lemma zero_cluster d : cluster_sd d zero_amps = (fun _ _ => 0).
Proof.
  apply functional_extensionality; intros f. apply ext_state; intros D. unfold cluster_sd, single_op, double_op. cbn [zero_amps x_a x_b x_aa x_ab x_bb].
  rewrite !(sumn_0 _ (fun a => sumn _ (fun _ => _))) by (intros; repeat (apply sumn_0; intros); ring). ring.
Qed.
Lemma zero_anti : antisym_amps zero_amps.
Proof. constructor; intros; cbn [zero_amps x_aa x_bb]; ring. Qed.
Lemma no_triples_op d T f : triples d (flat3 T) f = (fun _ => 0).
Proof.
  apply ext_state; intros D. unfold triples, flat3, no_triples. cbn [x_aaa x_aab x_abb x_bbb].
  rewrite !(sumn_0 _ (fun a => sumn _ (fun _ => _))) by (intros; repeat (apply sumn_0; intros); ring). ring.
Qed.
Section C.
Variables (d : dims) (I : integrals) (T : amps) (n m : nat).
Hypothesis En : (noa d + nua d = n)%nat.
Hypothesis En' : (nob d + nub d = n)%nat.
Hypothesis HI : exchangeable I.
Hypothesis HT : antisym_amps T.
Hypothesis Hm : (noa d + nob d + 4 <= m)%nat.
Notation H := (fock_ints (noa d) (nob d) I).
Notation ref := (reference (noa d) (nob d)).
Notation E := (scf_energy (noa d) (nob d) I + cc_energy d H T).
Notation X := (ccsdt_resid d H (flat3 T)).
Notation HB := (similar d n m I T (pure ref)).
Lemma with3_flat : with3 d (flat3 T) (pure ref) = pure ref.
Proof. apply ext_state; intros D. unfold with3. rewrite no_triples_op. ring. Qed.
Lemma hbar_off : off_on (sdt_space d n) (fun D => HB D - (E * pure ref D + cluster_sdt d X (pure ref) D)).
Proof.
  intros D HD. assert (Q := similar_with3 d I (flat3 T) n m En En' HI (flat3_anti T HT) (flat3_triples T) Hm D HD). rewrite with3_flat in Q.
  apply Rminus_diag_eq. exact Q.
Qed.
Lemma ref_psi : pure ref = expo (cluster_sd d zero_amps) m (pure ref).
Proof. now rewrite zero_cluster, expo_zero. Qed.
Lemma ref_psi' : pure ref = expo (cluster_sd d (bare zero_amps)) m (pure ref).
Proof. exact ref_psi. Qed.
Lemma str_comp l : str l (fun D => HB D - (E * pure ref D + cluster_sdt d X (pure ref) D)) ref = 0 ->
  str l (pure ref) ref = 0 -> str l HB ref = str l (cluster_sdt d X (pure ref)) ref.
Proof.
  intros A B. rewrite (str_sub l HB (fun D => E * pure ref D + cluster_sdt d X (pure ref) D)) in A.
  rewrite (lin_add (str l) (fun D => E * pure ref D) _ (str_linear l)), (lin_scal (str l) E (pure ref) (str_linear l)), B in A. lra.
Qed.
Let AD := anti_resid_d d H (flat3 T).
Let AT := anti_resid_t d H (flat3 T).
Let FL := proj1 (sdt_flat d n _ En En') hbar_off.
Let Hm4 : (4 <= m)%nat. Proof. lia. Qed.
Let Hm2 : (2 <= m)%nat. Proof. lia. Qed.
Lemma hbar_a a i : (a < nua d)%nat -> (i < noa d)%nat -> along1 ref (noa d) al HB a i = x_a (ccsd_resid d H T) a i.
Proof.
  intros Ha Hi. rewrite <- (sdt_a d H T (fock_ints_antisym _ _ _ HI) HT a i). destruct FL as (_ & F & _).
  rewrite <- (cx_comp_a d I zero_amps X n m En En' HI zero_anti AD AT Hm2 a i Ha Hi), <- ref_psi'. refine (str_comp [(true, oa i); (false, va d a)] (F a i Ha Hi) _).
  refine (eq_trans _ (c1a d I zero_amps n m En En' HI zero_anti Hm4 a i Ha Hi)). now rewrite <- ref_psi.
Qed.
Lemma hbar_b a i : (a < nub d)%nat -> (i < nob d)%nat -> along1 ref (nob d) be HB a i = x_b (ccsd_resid d H T) a i.
Proof.
  intros Ha Hi. rewrite <- (sdt_b d H T (fock_ints_antisym _ _ _ HI) HT a i). destruct FL as (_ & _ & F & _).
  rewrite <- (cx_comp_b d I zero_amps X n m En En' HI zero_anti AD AT Hm2 a i Ha Hi), <- ref_psi'. refine (str_comp [(true, ob i); (false, vb d a)] (F a i Ha Hi) _).
  refine (eq_trans _ (c1b d I zero_amps n m En En' HI zero_anti Hm4 a i Ha Hi)). now rewrite <- ref_psi.
Qed.
Lemma hbar_aa a b i j : (a < nua d)%nat -> (b < nua d)%nat -> (i < noa d)%nat -> (j < noa d)%nat -> along2 ref (noa d) (noa d) al al HB a b i j = x_aa (ccsd_resid d H T) a b i j.
Proof.
  intros Ha Hb Hi Hj. rewrite <- (sdt_aa d H T (fock_ints_antisym _ _ _ HI) HT a b i j). destruct FL as (_ & _ & _ & F & _).
  rewrite <- (cx_comp_aa d I zero_amps X n m En En' HI zero_anti AD AT Hm2 a b i j Ha Hb Hi Hj), <- ref_psi'. refine (str_comp [(true, oa i); (true, oa j); (false, va d b); (false, va d a)] (F a b i j Ha Hb Hi Hj) _).
  transitivity (along2 ref (noa d) (noa d) al al (expo (cluster_sd d zero_amps) m (pure ref)) a b i j); [now rewrite <- ref_psi|].
  rewrite (c2aa d I zero_amps n m En En' HI zero_anti Hm4 a b i j Ha Hb Hi Hj). cbn [zero_amps x_a x_aa]. ring.
Qed.
Lemma hbar_ab a b i j : (a < nua d)%nat -> (b < nub d)%nat -> (i < noa d)%nat -> (j < nob d)%nat -> along2 ref (noa d) (nob d) al be HB a b i j = x_ab (ccsd_resid d H T) a b i j.
Proof.
  intros Ha Hb Hi Hj. rewrite <- (sdt_ab d H T (fock_ints_antisym _ _ _ HI) HT a b i j). destruct FL as (_ & _ & _ & _ & F & _).
  rewrite <- (cx_comp_ab d I zero_amps X n m En En' HI zero_anti AD AT Hm2 a b i j Ha Hb Hi Hj), <- ref_psi'. refine (str_comp [(true, oa i); (true, ob j); (false, vb d b); (false, va d a)] (F a b i j Ha Hb Hi Hj) _).
  transitivity (along2 ref (noa d) (nob d) al be (expo (cluster_sd d zero_amps) m (pure ref)) a b i j); [now rewrite <- ref_psi|].
  rewrite (c2ab d I zero_amps n m En En' HI zero_anti Hm4 a b i j Ha Hb Hi Hj). cbn [zero_amps x_a x_b x_ab]. ring.
Qed.
Lemma hbar_bb a b i j : (a < nub d)%nat -> (b < nub d)%nat -> (i < nob d)%nat -> (j < nob d)%nat -> along2 ref (nob d) (nob d) be be HB a b i j = x_bb (ccsd_resid d H T) a b i j.
Proof.
  intros Ha Hb Hi Hj. rewrite <- (sdt_bb d H T (fock_ints_antisym _ _ _ HI) HT a b i j). destruct FL as (_ & _ & _ & _ & _ & F & _).
  rewrite <- (cx_comp_bb d I zero_amps X n m En En' HI zero_anti AD AT Hm2 a b i j Ha Hb Hi Hj), <- ref_psi'. refine (str_comp [(true, ob i); (true, ob j); (false, vb d b); (false, vb d a)] (F a b i j Ha Hb Hi Hj) _).
  transitivity (along2 ref (nob d) (nob d) be be (expo (cluster_sd d zero_amps) m (pure ref)) a b i j); [now rewrite <- ref_psi|].
  rewrite (c2bb d I zero_amps n m En En' HI zero_anti Hm4 a b i j Ha Hb Hi Hj). cbn [zero_amps x_b x_bb]. ring.
Qed.
End C.

Lemma fa_only na nb I p q : fock_a na nb (fock_operator na nb I) p q = fock_a na nb I p q.
Proof. unfold fock_a at 1. cbn [fock_operator h_a w_aa w_ab]. unfold no_pairs. rewrite !(sumn_0 _ (fun _ => _)) by (intros; ring). ring. Qed.
Lemma fb_only na nb I p q : fock_b na nb (fock_operator na nb I) p q = fock_b na nb I p q.
Proof. unfold fock_b at 1. cbn [fock_operator h_b w_bb w_ab]. unfold no_pairs. rewrite !(sumn_0 _ (fun _ => _)) by (intros; ring). ring. Qed.
Lemma only_fock_ints na nb I : fock_ints na nb (fock_operator na nb I) = only_fock (fock_ints na nb I).
Proof.
  assert (A : fock_a na nb (fock_operator na nb I) = fock_a na nb I) by (apply fun2; intros; apply fa_only).
  assert (B : fock_b na nb (fock_operator na nb I) = fock_b na nb I) by (apply fun2; intros; apply fb_only).
  assert (C : anti_aa (fock_operator na nb I) = no_pairs) by (apply fun4; intros; unfold anti_aa; cbn [fock_operator w_aa]; unfold no_pairs; ring).
  assert (D : anti_bb (fock_operator na nb I) = no_pairs) by (apply fun4; intros; unfold anti_bb; cbn [fock_operator w_bb]; unfold no_pairs; ring).
  unfold fock_ints at 1. rewrite A, B, C, D. reflexivity.
Qed.
Lemma fock_exch na nb I : exchangeable (fock_operator na nb I).
Proof. split; intros; reflexivity. Qed.
Lemma singles_anti T : antisym_amps (singles_of T).
Proof. constructor; intros; cbn [singles_of x_aa x_bb]; unfold no_pairs; ring. Qed.
Lemma doubles_anti T : antisym_amps T -> antisym_amps (doubles_of T).
Proof. intros []. constructor; assumption. Qed.
