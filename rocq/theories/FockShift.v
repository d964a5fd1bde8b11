(** The Schroedinger equation on a sector for exp(T1 + T2) and a Hamiltonian is that for exp(T2) and the dressed Hamiltonian (proof support). *)
From Coq Require Import Reals Arith NArith List Bool Lia Lra FunctionalExtensionality.
From Verif Require Import RSum IntegralsModel TensorObjs TensorSpec CcsdModel CcsdUpdate CcsdProps FockSpec FockCar FockWick FockCcSpec FockExp FockLevel FockState FockNear FockProj FockProps SectorModel FockSectorSpec FockSector
  FockFlip RankSpec FockCount FockDress.
Import ListNotations.
Local Open Scope R_scope.

Definition bare (T : amps) : amps := mkAmps (fun _ _ => 0) (fun _ _ => 0) (x_aa T) (x_ab T) (x_bb T) (x_aaa T) (x_aab T) (x_abb T) (x_bbb T).
Lemma bare_twos d T : cluster_sd d (bare T) = twos d T.
Proof.
  apply functional_extensionality; intros psi. apply ext_state; intros D. unfold cluster_sd, twos, X_aa, X_ab, X_bb, bare. cbn [x_a x_b x_aa x_ab x_bb].
  assert (Z : forall nu no so, single_op nu no (fun _ _ => 0) so psi D = 0) by (intros; unfold single_op; apply sumn_0; intros; apply sumn_0; intros; ring).
  rewrite !Z. ring.
Qed.
Lemma bare_anti T : antisym_amps T -> antisym_amps (bare T). Proof. intros []. constructor; assumption. Qed.

(** * Exchange symmetry survives *)
Lemma da_da d T s s' (g : nat -> nat -> R) q q' : da d T s (fun x => da d T s' (fun y => g x y) q') q = da d T s' (fun y => da d T s (fun x => g x y) q) q'.
Proof.
  unfold da.
  rewrite (sumn_ext (nu d s) (fun a => _ * (_ + _)) (fun a => (if Nat.ltb q (no d s) then t1 T s a q else 0) * g (no d s + a)%nat q'
    + sumn (nu d s') (fun b => (if Nat.ltb q (no d s) then t1 T s a q else 0) * ((if Nat.ltb q' (no d s') then t1 T s' b q' else 0) * g (no d s + a)%nat (no d s' + b)%nat)))) by (intros; rewrite sumn_scal; ring).
  rewrite (sumn_ext (nu d s') (fun b => _ * (_ + _)) (fun b => (if Nat.ltb q' (no d s') then t1 T s' b q' else 0) * g q (no d s' + b)%nat
    + sumn (nu d s) (fun a => (if Nat.ltb q' (no d s') then t1 T s' b q' else 0) * ((if Nat.ltb q (no d s) then t1 T s a q else 0) * g (no d s + a)%nat (no d s' + b)%nat)))) by (intros; rewrite sumn_scal; ring).
  rewrite !sumn_plus. rewrite (sumn_swap (nu d s) (nu d s')).
  rewrite (sumn_ext (nu d s') (fun j => sumn (nu d s) (fun i => _ * (_ * g _ _))) (fun b => sumn (nu d s) (fun a => (if Nat.ltb q' (no d s') then t1 T s' b q' else 0) * ((if Nat.ltb q (no d s) then t1 T s a q else 0) * g (no d s + a)%nat (no d s' + b)%nat))))
    by (intros; apply sumn_ext; intros; ring). ring.
Qed.
Lemma dc_dc d T s s' (g : nat -> nat -> R) q q' : dc d T s (fun x => dc d T s' (fun y => g x y) q') q = dc d T s' (fun y => dc d T s (fun x => g x y) q) q'.
Proof.
  unfold dc.
  rewrite (sumn_ext (no d s) (fun a => _ * (_ - _)) (fun a => (if Nat.ltb q (no d s) then 0 else t1 T s (q - no d s) a) * g a q'
    - sumn (no d s') (fun b => (if Nat.ltb q (no d s) then 0 else t1 T s (q - no d s) a) * ((if Nat.ltb q' (no d s') then 0 else t1 T s' (q' - no d s') b) * g a b)))) by (intros; rewrite sumn_scal; ring).
  rewrite (sumn_ext (no d s') (fun b => _ * (_ - _)) (fun b => (if Nat.ltb q' (no d s') then 0 else t1 T s' (q' - no d s') b) * g q b
    - sumn (no d s) (fun a => (if Nat.ltb q' (no d s') then 0 else t1 T s' (q' - no d s') b) * ((if Nat.ltb q (no d s) then 0 else t1 T s (q - no d s) a) * g a b)))) by (intros; rewrite sumn_scal; ring).
  rewrite !sumn_minus. rewrite (sumn_swap (no d s) (no d s')).
  rewrite (sumn_ext (no d s') (fun j => sumn (no d s) (fun i => _ * (_ * g _ _))) (fun b => sumn (no d s) (fun a => (if Nat.ltb q' (no d s') then 0 else t1 T s' (q' - no d s') b) * ((if Nat.ltb q (no d s) then 0 else t1 T s (q - no d s) a) * g a b))))
    by (intros; apply sumn_ext; intros; ring). ring.
Qed.
Lemma da_ext d T s f g q : (forall x, f x = g x) -> da d T s f q = da d T s g q. Proof. intros E. unfold da. rewrite E. f_equal. apply sumn_ext; intros; now rewrite E. Qed.
Lemma dc_ext d T s f g q : (forall x, f x = g x) -> dc d T s f q = dc d T s g q. Proof. intros E. unfold dc. rewrite E. f_equal. apply sumn_ext; intros; now rewrite E. Qed.
Lemma d4_exch d T s w : (forall p q r t, w p q r t = w q p t r) -> forall p q r t, d4 d T s s w p q r t = d4 d T s s w q p t r.
Proof.
  intros E p q r t. unfold d4. rewrite dc_dc. apply dc_ext; intros x. apply dc_ext; intros y. rewrite da_da. apply da_ext; intros z. apply da_ext; intros u. apply E.
Qed.
Lemma dressed_exch d T I : exchangeable I -> exchangeable (dressed d T I).
Proof. intros (A & B). split; cbn [dressed w_aa w_bb]; now apply d4_exch. Qed.

Section S.
Variables (d : dims) (I : integrals) (T : amps) (n m : nat).
Hypothesis En : (noa d + nua d = n)%nat.
Hypothesis En' : (nob d + nub d = n)%nat.
Hypothesis Hm : (noa d + nob d < m)%nat.
Notation ref := (reference (noa d) (nob d)).
Notation EX := (expo (ones d T) m).
Lemma state_EX psi : expo (cluster_sd d T) m psi = EX (expo (cluster_sd d (bare T)) m psi).
Proof. rewrite bare_twos. now apply sd_expo. Qed.
(** Vanishing on a set closed under de-excitation *)
Definition off_on (P : N -> Prop) (f : state) : Prop := forall D, P D -> f D = 0.
Lemma single_off P s f (t : nat -> nat -> R) : downward d n P -> off_on P f -> off_on P (single_op (nu d s) (no d s) t (sp s) f).
Proof.
  intros HP Hf D HD. unfold single_op. apply sumn_0; intros a Ha. apply sumn_0; intros i Hi. unfold cre, ann. change (N.testbit D (N.of_nat (sp s (no d s + a)))) with (bit D (sp s (no d s + a))).
  destruct (bit D (sp s (no d s + a))) eqn:B1; [|ring]. change (N.clearbit D (N.of_nat (sp s (no d s + a)))) with (off D (sp s (no d s + a))). fold (bit (off D (sp s (no d s + a))) (sp s i)). rewrite bit_off.
  assert (Q := no_nu d n En En' s).
  assert (NE : sp s (no d s + a) <> sp s i) by (destruct s; unfold sp, al, be; lia). rewrite (eqb_neq _ _ NE). cbn [negb]. rewrite andb_true_r.
  destruct (bit D (sp s i)) eqn:B2; [ring|]. change (N.setbit (off D (sp s (no d s + a))) (N.of_nat (sp s i))) with (on (off D (sp s (no d s + a))) (sp s i)).
  rewrite (Hf _ (HP (sp s) (no d s) a i D ltac:(destruct s; auto) ltac:(lia) Hi HD B1 B2)). ring.
Qed.
Lemma ones_off P f : downward d n P -> off_on P f -> off_on P (ones d T f).
Proof. intros HP Hf D HD. unfold ones.
  assert (Q1 := single_off P true f (x_a T) HP Hf D HD). assert (Q2 := single_off P false f (x_b T) HP Hf D HD). change (X_a d T f D = 0) in Q1. change (X_b d T f D = 0) in Q2. rewrite Q1, Q2. ring. Qed.
Lemma power_off (P : N -> Prop) X f k : (forall g, off_on P g -> off_on P (X g)) -> off_on P f -> off_on P (power X k f).
Proof. intros HX Hf. induction k as [|k IH]; [exact Hf|]. rewrite power_S. now apply HX. Qed.
Lemma expo_off (P : N -> Prop) X f : (forall g, off_on P g -> off_on P (X g)) -> off_on P f -> off_on P (expo X m f).
Proof. intros HX Hf D HD. unfold expo. apply sumn_0; intros k _. rewrite (power_off P X f k HX Hf D HD). ring. Qed.
Lemma EX_off P f : downward d n P -> (off_on P (EX f) <-> off_on P f).
Proof.
  intros HP. split; intros Hf.
  - rewrite <- (ones_back d T m Hm f). apply expo_off; [|exact Hf]. intros g Hg D HD. unfold unones. rewrite (ones_off P g HP Hg D HD). ring.
  - apply expo_off; [|exact Hf]. intros g Hg. now apply ones_off.
Qed.
Lemma solves_shift (P : N -> Prop) (Q : oper) lam : downward d n P -> linear Q -> commute Q (ones d T) ->
  (solves_on P n I lam (Q (expo (cluster_sd d T) m (pure ref))) <-> solves_on P n (dressed d T I) lam (Q (expo (cluster_sd d (bare T)) m (pure ref)))).
Proof.
  intros HP LQ CQ. rewrite state_EX. set (phi := expo (cluster_sd d (bare T)) m (pure ref)). rewrite (commute_expo Q (ones d T) m LQ CQ phi).
  transitivity (off_on P (fun D => hamiltonian n I (EX (Q phi)) D - lam * EX (Q phi) D)).
  { unfold solves_on, off_on. split; intros G D HD; specialize (G D HD); lra. }
  rewrite (ham_EX d T n m En En' Hm I (Q phi)). assert (LE := EX_linear d T m).
  replace (fun D => EX (hamiltonian n (dressed d T I) (Q phi)) D - lam * EX (Q phi) D) with (EX (fun D => hamiltonian n (dressed d T I) (Q phi) D - lam * Q phi D)).
  - rewrite (EX_off P _ HP). unfold solves_on, off_on. split; intros G D HD; specialize (G D HD); lra.
  - rewrite (lin_sub EX _ _ LE), (lin_scal EX _ _ LE). reflexivity.
Qed.
Lemma near_solves J lam psi : solves n J ref lam psi <-> solves_on (sector d n 0 0 0 0 2) n J lam psi.
Proof.
  assert (Q := near_count d n En En' (fun D => hamiltonian n J psi D - lam * psi D)). unfold solves, solves_on. split; intros G D HD.
  - assert (A := proj1 Q). specialize (A ltac:(intros E HE; specialize (G E HE); cbv beta; lra) D HD). lra.
  - assert (A := proj2 Q). specialize (A ltac:(intros E HE; specialize (G E HE); cbv beta; lra) D HD). lra.
Qed.
Lemma ccsd_shift lam : solves n I ref lam (expo (cluster_sd d T) m (pure ref)) <-> solves n (dressed d T I) ref lam (expo (cluster_sd d (bare T)) m (pure ref)).
Proof.
  rewrite !near_solves. apply (solves_shift (sector d n 0 0 0 0 2) (fun f => f)); [now apply sector_downward|apply id_linear|intros f; reflexivity].
Qed.
Lemma ref_EX f : EX f ref = f ref.
Proof.
  clear En En'. rewrite expo_dpow, sumn_S_l, sumn_0; [unfold dpow; cbn; rewrite Rinv_1; ring|]. intros k _. unfold dpow.
  rewrite (vanish_power (map al (seq 0 (noa d)) ++ map be (seq 0 (nob d))) (ref_nodup (noa d) (nob d)) (ones d T) (S k) (ones_exc d T) f ref); [ring|]. rewrite (ref_level d). lia.
Qed.
Hypothesis HI : exchangeable I.
Hypothesis HT : antisym_amps T.
Hypothesis H4 : (4 <= m)%nat.
Notation E0 J X := (scf_energy (noa d) (nob d) J + cc_energy d (fock_ints (noa d) (nob d) J) X).
Lemma energy_shift : E0 (dressed d T I) (bare T) = E0 I T.
Proof.
  destruct (C63_energy d I T n m (conj En En') HI HT H4) as (_ & <-). destruct (C63_energy d (dressed d T I) (bare T) n m (conj En En') (dressed_exch d T I HI) (bare_anti T HT) H4) as (_ & <-).
  rewrite state_EX, (ham_EX d T n m En En' Hm I). symmetry. apply ref_EX.
Qed.
Lemma resid_shift : same_amps d (ccsd_resid d (fock_ints (noa d) (nob d) I) T) zero_amps <-> same_amps d (ccsd_resid d (fock_ints (noa d) (nob d) (dressed d T I)) (bare T)) zero_amps.
Proof.
  rewrite (C63_schroedinger d I T n m (conj En En') HI HT H4), (C63_schroedinger d (dressed d T I) (bare T) n m (conj En En') (dressed_exch d T I HI) (bare_anti T HT) H4).
  split; intros (lam & S); exists lam; now apply ccsd_shift.
Qed.
End S.
