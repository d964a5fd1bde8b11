(** exp(T1 + T2 + T3) |ref> below four-fold excitations (proof support). *)
From Coq Require Import Reals Arith NArith List Bool Lia Lra QArith Qreals ZArith FunctionalExtensionality.
From Verif Require Import RSum IntegralsModel TensorObjs TensorAlg TensorSpec CcsdModel CcsdUpdate CcsdProps FockSpec FockCar FockWick FockArrays FockCcSpec FockTerms FockExp FockLevel FockState FockNear FockProj FockProps FockSector FockSectorTools FockSectorSpec FockFlip RankSpec FockCount
  FockDress FockShift FockTools3 CcsdtModel CcsdtUpdate SdtSpec SdtFlat SdtFock SdtDress.
Import ListNotations.
Local Open Scope R_scope.
Lemma level_empties na nb D : level (map al (seq 0 na) ++ map be (seq 0 nb)) D = (empties al na D + empties be nb D)%nat.
Proof.
  assert (G : forall so k, length (filter (fun q => negb (bit D q)) (map so (seq 0 k))) = empties so k D).
  { intros so k. exact (cnt_map so (fun q => negb (bit D q)) (seq 0 k)). }
  unfold level. rewrite filter_app, app_length, !G. reflexivity.
Qed.
Section S.
Variables (d : dims) (T : amps).
Notation ref := (reference (noa d) (nob d)).
Notation occs := (map al (seq 0 (noa d)) ++ map be (seq 0 (nob d))).
Notation ten := (tenv (fock_arrays (fock_ints (noa d) (nob d) (mkIntegrals (fun _ _ => 0) (fun _ _ => 0) (fun _ _ _ _ => 0) (fun _ _ _ _ => 0) (fun _ _ _ _ => 0))) T)).
Lemma tri_ok v phi : psem (noa d) (nob d) (fdim d) ten (tl sdt_rts) v phi = triples d T phi.
Proof.
  apply ext_state; intros D. unfold psem, sdt_rts, triples. cbn [tl lsum]. unfold tsem. cbn [t_c t_l t_f t_o].
  rewrite !half36, !fourth, Rplus_0_r. cbn [ssum prodf opsem fold_right]. rewrite !Rplus_assoc.
  repeat match goal with |- _ + _ = _ + _ => apply f_equal2 | |- / _ * _ = / _ * _ => apply f_equal end; repeat (apply sumn_ext; intros ? _); cbn [prodf]; rewrite Rmult_1_r; reflexivity.
Qed.
Lemma tri_eq : triples d T = psem (noa d) (nob d) (fdim d) ten (tl sdt_rts) (venv []).
Proof. apply functional_extensionality; intros phi. symmetry. apply tri_ok. Qed.
Lemma tri_linear : linear (triples d T). Proof. rewrite tri_eq. apply psem_linear. Qed.
Lemma tri_commute X : exc (fun q => In q occs) X -> commute (triples d T) X.
Proof. intros HX. rewrite tri_eq. apply psem_commute; [reflexivity|reflexivity|vm_compute; reflexivity|exact HX]. Qed.
Lemma tri_vanish k psi : vanish occs k psi -> vanish occs (3 + k) (triples d T psi).
Proof. intros V. rewrite tri_eq. apply vanish_psem; [reflexivity|reflexivity|vm_compute; reflexivity|vm_compute; reflexivity|exact V]. Qed.
Lemma tri_power k psi j : vanish occs j psi -> vanish occs (3 * k + j) (power (triples d T) k psi).
Proof. intros V. induction k as [|k IH]; [exact V|]. rewrite power_S. replace (3 * S k + j)%nat with (3 + (3 * k + j))%nat by lia. now apply tri_vanish. Qed.
Lemma any_vanish psi : vanish occs 0 psi. Proof. intros D HD. lia. Qed.
Lemma sdt_expo m psi : (noa d + nob d <= m)%nat -> expo (cluster_sdt d T) m psi = expo (triples d T) m (expo (cluster_sd d T) m psi).
Proof.
  intros Hm. assert (LS := exc_linear _ _ (cluster_exc d T)).
  replace (cluster_sdt d T) with (fun f D => triples d T f D + cluster_sd d T f D) by (apply functional_extensionality; intros f; apply ext_state; intros D; unfold cluster_sdt; ring).
  apply expo_add; [apply tri_linear|exact LS|apply tri_commute, cluster_exc|].
  intros j l D L. unfold dpow at 1. apply Rmult_eq_0_compat_l. apply (tri_power j (dpow (cluster_sd d T) l psi) l).
  - apply vanish_scal, vanish_power; [apply ref_nodup|apply cluster_exc].
  - assert (Q := level_max occs D). rewrite app_length, !map_length, !seq_length in Q. lia.
Qed.
Lemma sdt_low m phi D : (1 <= m)%nat -> (level occs D < 6)%nat -> expo (triples d T) m phi D = with3 d T phi D.
Proof.
  intros Hm HD. rewrite expo_dpow. destruct m as [|m]; [lia|]. rewrite !sumn_S_l, (sumn_0 m).
  - unfold dpow, with3. cbn [power Nat.iter]. cbn. field.
  - intros k _. unfold dpow. apply Rmult_eq_0_compat_l. apply (tri_power (S (S k)) phi 0 (any_vanish phi)). lia.
Qed.
Lemma with3_linear : linear (with3 d T). Proof. apply (add_linear (fun f => f) (triples d T)); [intros a f b g; reflexivity|apply tri_linear]. Qed.
Lemma with3_commute X : exc (fun q => In q occs) X -> commute (with3 d T) X.
Proof. intros HX psi. unfold with3. rewrite (lin_add X psi (triples d T psi) (exc_linear _ _ HX)). apply ext_state; intros D. now rewrite (tri_commute X HX psi). Qed.
Variables (I : integrals) (n m : nat).
Hypothesis Hm : (noa d + nob d + 1 <= m)%nat.
Notation psi := (expo (cluster_sdt d T) m (pure ref)).
Notation phi := (with3 d T (expo (cluster_sd d T) m (pure ref))).
Lemma sdt_same D : (level occs D < 6)%nat -> psi D = phi D.
Proof. intros HD. rewrite sdt_expo by lia. apply sdt_low; [lia|exact HD]. Qed.
Lemma sdt_same_H D : (level occs D < 4)%nat -> hamiltonian n I psi D = hamiltonian n I phi D.
Proof.
  intros HD. assert (L := hamiltonian_linear n I). apply Rminus_diag_uniq. transitivity (hamiltonian n I (fun E => psi E - phi E) D); [now rewrite (lin_sub _ _ _ L)|].
  apply (vanish_hamiltonian occs (ref_nodup (noa d) (nob d)) 4 n I); [|exact HD]. intros E HE. rewrite sdt_same by exact HE. ring.
Qed.
Lemma sdt_solves_low lam : solves_on (sdt_space d n) n I lam psi <-> solves_on (sdt_space d n) n I lam phi.
Proof.
  assert (G : forall D, sdt_space d n D -> (level occs D < 4)%nat) by (intros D (_ & _ & _ & K); rewrite level_empties; lia).
  unfold solves_on. split; intros S D HD; specialize (S D HD); specialize (G D HD).
  - rewrite <- sdt_same_H, <- sdt_same by lia. exact S.
  - rewrite sdt_same_H, sdt_same by lia. exact S.
Qed.
Lemma sdt_ref : psi ref = expo (cluster_sd d T) m (pure ref) ref /\ hamiltonian n I psi ref = hamiltonian n I (expo (cluster_sd d T) m (pure ref)) ref.
Proof.
  assert (L0 : level occs ref = 0%nat) by apply ref_level. assert (V := tri_vanish 0 (expo (cluster_sd d T) m (pure ref)) (any_vanish _)). split.
  - rewrite sdt_same by lia. unfold with3. rewrite V by lia. ring.
  - rewrite sdt_same_H by lia. assert (L := hamiltonian_linear n I). unfold with3. rewrite (lin_add _ _ _ L). rewrite (vanish_hamiltonian occs (ref_nodup (noa d) (nob d)) 1 n I _ V) by lia. ring.
Qed.
End S.
Section T.
Variables (d : dims) (I : integrals) (T : amps) (n m : nat).
Hypothesis En : (noa d + nua d = n)%nat.
Hypothesis En' : (nob d + nub d = n)%nat.
Hypothesis HI : exchangeable I.
Hypothesis HT : antisym_amps T.
Hypothesis HY : triples_anti T.
Hypothesis Hm : (noa d + nob d + 4 <= m)%nat.
Notation H := (fock_ints (noa d) (nob d) I).
Notation ref := (reference (noa d) (nob d)).
Lemma sdt_main : solves_on (sdt_space d n) n I (scf_energy (noa d) (nob d) I + cc_energy d H T) (expo (cluster_sdt d T) m (pure ref)) <-> same_amps3 d (ccsdt_resid d H T) zero_amps.
Proof.
  rewrite sdt_solves_low by lia.
  rewrite (solves_shift d I T n m En En' ltac:(lia) (sdt_space d n) (with3 d T)); [|now apply sector_downward|apply with3_linear|apply with3_commute, ones_exc].
  rewrite <- (energy_shift d I T n m En En') by (assumption || lia).
  rewrite (sdt_resid_shift d I T HI HT HY). apply (sdt_solves d (dressed d T I) T n m En En'); [now apply dressed_exch|exact HT|exact HY|lia].
Qed.
End T.
