(** Three-body and four-body operators of the equation-of-motion methods against second quantisation.  The single excitations are moved into the Hamiltonian:
    H exp(T1) = exp(T1) H~ with H~ built from dressed integrals (C73), and every block of the similarity-transformed Hamiltonian depends on T1 through H~ only.
    The sigma vectors of IP-EOMCC(3h2p), EA-EOMCC(3p2h), DIP-EOMCC(4h2p) and DEA-EOMCC(4p2h) are then those of R exp(T) |ref> in the Schroedinger equation
    of FockSpec.v on the determinants counted in RankSpec.v (C74-C77). *)
From Coq Require Import Reals Arith NArith List Bool Lia Lra QArith Qreals FunctionalExtensionality.
From Verif Require Import RSum IntegralsModel TensorObjs TensorAlg TensorSpec CcsdModel CcsdUpdate IntsFix CcsdProps FockSpec FockCar FockWick FockArrays FockTerms FockCcSpec FockExp FockLevel FockState FockNear FockProj FockProps FockSector FockSectorSpec FockSectorTools SectorProps
  RankSpec FockCount FockDress FockShift Sector3Model Sector3Spec FockSpaces3 SectorIptFock SectorEatFock SectorDipqFock SectorDeaqFock HbarSpec HbarBlocks Sector3Skel QEval Sector3Cases.
Import ListNotations.
Local Open Scope R_scope.

(** * C73: dressed integrals *)
(** Amplitudes without double and triple (single) excitations *)
Definition singles (T : amps) : amps := mkAmps (x_a T) (x_b T) (fun _ _ _ _ => 0) (fun _ _ _ _ => 0) (fun _ _ _ _ => 0) (x_aaa T) (x_aab T) (x_abb T) (x_bbb T).
Lemma singles_ones d T : cluster_sd d (singles T) = ones d T.
Proof.
  apply functional_extensionality; intros psi. apply functional_extensionality; intros D. unfold cluster_sd, singles. cbn [x_a x_b x_aa x_ab x_bb]. unfold double_op.
  rewrite !(sumn_0 (nua d)), !(sumn_0 (nub d)) by (intros; repeat (apply sumn_0; intros); ring). unfold ones, X_a, X_b. ring.
Qed.
(** exp(-T1) H exp(T1) is the Hamiltonian with dressed integrals *)
Theorem C73_dressed d I T n m psi : shape d n -> (noa d + nob d < m)%nat ->
  hamiltonian n I (expo (cluster_sd d (singles T)) m psi) = expo (cluster_sd d (singles T)) m (hamiltonian n (dressed d T I) psi).
Proof. intros (E1 & E2) Hm. rewrite singles_ones. now apply ham_EX. Qed.
(** Every block of the similarity-transformed Hamiltonian of the program depends on T1 through the dressed integrals *)
Theorem C73_hbar d I T : exchangeable I -> antisym_amps T ->
  ints_agree d (hbar_ccsd d (fock_ints (noa d) (nob d) I) T) (hbar_ccsd d (fock_ints (noa d) (nob d) (dressed d T I)) (bare T)).
Proof. intros HI HT. now apply hbar_agree. Qed.
(** So do the total energy and the CCSD equations *)
Theorem C73_energy d I T n : shape d n -> exchangeable I -> antisym_amps T ->
  scf_energy (noa d) (nob d) (dressed d T I) + cc_energy d (fock_ints (noa d) (nob d) (dressed d T I)) (bare T) = scf_energy (noa d) (nob d) I + cc_energy d (fock_ints (noa d) (nob d) I) T.
Proof. intros (E1 & E2) HI HT. apply (energy_shift d I T n (noa d + nob d + 4)); (assumption || lia). Qed.
Theorem C73_residual d I T n : shape d n -> exchangeable I -> antisym_amps T ->
  (same_amps d (ccsd_resid d (fock_ints (noa d) (nob d) I) T) zero_amps <-> same_amps d (ccsd_resid d (fock_ints (noa d) (nob d) (dressed d T I)) (bare T)) zero_amps).
Proof. intros (E1 & E2) HI HT. apply (resid_shift d I T n (noa d + nob d + 4)); (assumption || lia). Qed.

Definition zero_integrals : integrals := mkIntegrals (fun _ _ => 0) (fun _ _ => 0) (fun _ _ _ _ => 0) (fun _ _ _ _ => 0) (fun _ _ _ _ => 0).
(** * The argument common to the four methods *)
Lemma through d I T n m (Q : state -> state) P w E' (root root' : Prop) : shape d n -> exchangeable I -> antisym_amps T -> (noa d + nob d + 4 <= m)%nat ->
  downward d n P -> linear Q -> commute Q (ones d T) ->
  same_amps d (ccsd_resid d (fock_ints (noa d) (nob d) I) T) zero_amps ->
  E' = scf_energy (noa d) (nob d) I + cc_energy d (fock_ints (noa d) (nob d) I) T -> (root <-> root') ->
  (same_amps d (ccsd_resid d (fock_ints (noa d) (nob d) (dressed d T I)) (bare T)) zero_amps ->
   (solves_on P n (dressed d T I) (scf_energy (noa d) (nob d) (dressed d T I) + cc_energy d (fock_ints (noa d) (nob d) (dressed d T I)) (bare T) + w) (Q (cc_state d (bare T) m)) <-> root')) ->
  (root <-> solves_on P n I (E' + w) (Q (cc_state d T m))).
Proof.
  intros (E1 & E2) HI HT Hm HP HL HC HR EE RR K. rewrite RR. rewrite (solves_shift d I T n m E1 E2) by (assumption || lia).
  rewrite (resid_shift d I T n m) in HR by (assumption || lia). rewrite (energy_shift d I T n m) in K by (assumption || lia). rewrite EE. symmetry. now apply K.
Qed.

(** * IP-EOMCC with 3h2p operators: one alpha electron removed, up to three holes and two particles *)
Lemma ipt_op_linear d Y : linear (ipt_op d Y).
Proof. replace (ipt_op d Y) with (psem (noa d) (nob d) (fdim d) (tenv (fock_arrays (fock_ints (noa d) (nob d) zero_integrals) (bare zero_amps) ++ [ap1 (ipt_a Y); ap3 (ipt_aa Y); ap3 (ipt_ab Y); ap5 (ipt_aaa Y); ap5 (ipt_aab Y); ap5 (ipt_abb Y)])) ipt_rts (venv [])) by (apply functional_extensionality; intros phi; apply (ipt_op_ok d zero_integrals zero_amps Y)). apply psem_linear. Qed.
Lemma ipt_op_commute d Y T : commute (ipt_op d Y) (ones d T).
Proof.
  replace (ipt_op d Y) with (psem (noa d) (nob d) (fdim d) (tenv (fock_arrays (fock_ints (noa d) (nob d) zero_integrals) (bare zero_amps) ++ [ap1 (ipt_a Y); ap3 (ipt_aa Y); ap3 (ipt_ab Y); ap5 (ipt_aaa Y); ap5 (ipt_aab Y); ap5 (ipt_abb Y)])) ipt_rts (venv [])) by (apply functional_extensionality; intros phi; apply (ipt_op_ok d zero_integrals zero_amps Y)).
  apply psem_commute; [reflexivity|reflexivity|vm_compute; reflexivity|apply ones_exc].
Qed.
(** Roots of the program are solutions of the Schroedinger equation on the determinants of the method, with total energy E + w *)
Theorem C74_schroedinger d I T Y n m w : shape d n -> exchangeable I -> antisym_amps T -> ipt_anti Y -> (noa d + nob d + 4 <= m)%nat ->
  let H := fock_ints (noa d) (nob d) I in
  let E := scf_energy (noa d) (nob d) I + cc_energy d H T in
  same_amps d (ccsd_resid d H T) zero_amps ->
  (ipt_root d (ipt_HR d (hbar_ccsd d H T) T Y) Y w <-> solves_on (ipt_space d n) n I (E + w) (ipt_op d Y (cc_state d T m))).
Proof.
  intros HS HI HT HY Hm H E HR.
  apply (through d I T n m (ipt_op d Y) (ipt_space d n) w E _ (ipt_root d (ipt_HR d (hbar_ccsd d (fock_ints (noa d) (nob d) (dressed d T I)) (bare T)) (bare T) Y) Y w)); try assumption.
  - destruct HS as (E1 & E2). now apply sector_downward.
  - apply ipt_op_linear.
  - apply ipt_op_commute.
  - reflexivity.
  - apply ipt_root_same; [now apply hbar_agree|reflexivity..].
  - intros K. destruct HS as (E1 & E2). apply (ipt_solves d (dressed d T I) T Y n m E1 E2); [now apply dressed_exch|exact HT|exact HY|lia|exact K].
Qed.
(** The sigma vector is antisymmetric *)
Theorem C74_antisym d H T Y : ipt_anti (ipt_HR d H T Y).
Proof. unfold ipt_anti. repeat match goal with |- _ /\ _ => split end; intros; cbn [ipt_HR ipt_a ipt_aa ipt_ab ipt_aaa ipt_aab ipt_abb]; unfold iptr_X2A_13, iptr_X3A_12, iptr_X3A_11, iptr_X3A_10, iptr_X3B_23, iptr_X3C_16, iptr_X3C_15; ring. Qed.
(** From the integrals of the molecule to the root: frozen core, fixed point of the CCSD iteration, similarity-transformed Hamiltonian, sigma vector *)
Theorem C74_chain e1 e2 s T Y shift w m : (forall p q r t, e2 p q r t = e2 q p t r) -> (s_noa s <= s_norb s)%nat -> (s_nob s <= s_norb s)%nat ->
  antisym_amps T -> ipt_anti Y -> (s_noa s + s_nob s + 4 <= m)%nat ->
  let d := sys_dims s in
  let H := fock_ints (s_noa s) (s_nob s) (valence e1 e2 (s_nf s)) in
  let h p q := h_a (valence e1 e2 (s_nf s)) p q in
  let e p q r t := e2 (s_nf s + p)%nat (s_nf s + q)%nat (s_nf s + r)%nat (s_nf s + t)%nat in
  let phi := ipt_op d Y (cc_state d T m) in
  regular d shift H -> same_amps d (ccsd_iter d shift H T) T ->
  holds H (sort_hamiltonian s (get_hamiltonian e1 e2 s true)) /\
  (ipt_root d (ipt_HR d (hbar_ccsd d H T) T Y) Y w <->
   forall D, ipt_space d (s_norb s) D ->
     hamiltonian_r (s_norb s) h e phi D = (hf_energy e1 e2 s + cc_energy d H T + w - frozen_core_energy e1 e2 s) * phi D).
Proof.
  intros He Ha Hb HT HY Hm d H h e phi Rg Fx. assert (K := chain_facts e1 e2 s T shift He Ha Hb HT Rg Fx). cbn zeta in K. destruct K as (K1 & K2 & K3 & K4 & K5 & K6).
  split; [exact K1|]. fold h e in K5. rewrite K5. assert (S := C74_schroedinger _ _ T Y _ m w K2 K3 HT HY Hm K4). cbn zeta in S. etransitivity; [exact S|].
  fold d H in K6. rewrite K6. reflexivity.
Qed.

(** * EA-EOMCC with 3p2h operators: one alpha electron attached, up to three particles and two holes *)
Lemma eat_op_linear d Y : linear (eat_op d Y).
Proof. replace (eat_op d Y) with (psem (noa d) (nob d) (fdim d) (tenv (fock_arrays (fock_ints (noa d) (nob d) zero_integrals) (bare zero_amps) ++ [ap1 (eat_a Y); ap3 (eat_aa Y); ap3 (eat_ab Y); ap5 (eat_aaa Y); ap5 (eat_aab Y); ap5 (eat_abb Y)])) eat_rts (venv [])) by (apply functional_extensionality; intros phi; apply (eat_op_ok d zero_integrals zero_amps Y)). apply psem_linear. Qed.
Lemma eat_op_commute d Y T : commute (eat_op d Y) (ones d T).
Proof.
  replace (eat_op d Y) with (psem (noa d) (nob d) (fdim d) (tenv (fock_arrays (fock_ints (noa d) (nob d) zero_integrals) (bare zero_amps) ++ [ap1 (eat_a Y); ap3 (eat_aa Y); ap3 (eat_ab Y); ap5 (eat_aaa Y); ap5 (eat_aab Y); ap5 (eat_abb Y)])) eat_rts (venv [])) by (apply functional_extensionality; intros phi; apply (eat_op_ok d zero_integrals zero_amps Y)).
  apply psem_commute; [reflexivity|reflexivity|vm_compute; reflexivity|apply ones_exc].
Qed.
(** Roots of the program are solutions of the Schroedinger equation on the determinants of the method, with total energy E + w *)
Theorem C75_schroedinger d I T Y n m w : shape d n -> exchangeable I -> antisym_amps T -> eat_anti Y -> (noa d + nob d + 4 <= m)%nat ->
  let H := fock_ints (noa d) (nob d) I in
  let E := scf_energy (noa d) (nob d) I + cc_energy d H T in
  same_amps d (ccsd_resid d H T) zero_amps ->
  (eat_root d (eat_HR d (hbar_ccsd d H T) T Y) Y w <-> solves_on (eat_space d n) n I (E + w) (eat_op d Y (cc_state d T m))).
Proof.
  intros HS HI HT HY Hm H E HR.
  apply (through d I T n m (eat_op d Y) (eat_space d n) w E _ (eat_root d (eat_HR d (hbar_ccsd d (fock_ints (noa d) (nob d) (dressed d T I)) (bare T)) (bare T) Y) Y w)); try assumption.
  - destruct HS as (E1 & E2). now apply sector_downward.
  - apply eat_op_linear.
  - apply eat_op_commute.
  - reflexivity.
  - apply eat_root_same; [now apply hbar_agree|reflexivity..].
  - intros K. destruct HS as (E1 & E2). apply (eat_solves d (dressed d T I) T Y n m E1 E2); [now apply dressed_exch|exact HT|exact HY|lia|exact K].
Qed.
(** The sigma vector is antisymmetric *)
Theorem C75_antisym d H T Y : eat_anti (eat_HR d H T Y).
Proof. unfold eat_anti. repeat match goal with |- _ /\ _ => split end; intros; cbn [eat_HR eat_a eat_aa eat_ab eat_aaa eat_aab eat_abb]; unfold eatr_X2A_13, eatr_X3A_12, eatr_X3A_11, eatr_X3A_10, eatr_X3B_23, eatr_X3C_16, eatr_X3C_15; ring. Qed.
(** From the integrals of the molecule to the root: frozen core, fixed point of the CCSD iteration, similarity-transformed Hamiltonian, sigma vector *)
Theorem C75_chain e1 e2 s T Y shift w m : (forall p q r t, e2 p q r t = e2 q p t r) -> (s_noa s <= s_norb s)%nat -> (s_nob s <= s_norb s)%nat ->
  antisym_amps T -> eat_anti Y -> (s_noa s + s_nob s + 4 <= m)%nat ->
  let d := sys_dims s in
  let H := fock_ints (s_noa s) (s_nob s) (valence e1 e2 (s_nf s)) in
  let h p q := h_a (valence e1 e2 (s_nf s)) p q in
  let e p q r t := e2 (s_nf s + p)%nat (s_nf s + q)%nat (s_nf s + r)%nat (s_nf s + t)%nat in
  let phi := eat_op d Y (cc_state d T m) in
  regular d shift H -> same_amps d (ccsd_iter d shift H T) T ->
  holds H (sort_hamiltonian s (get_hamiltonian e1 e2 s true)) /\
  (eat_root d (eat_HR d (hbar_ccsd d H T) T Y) Y w <->
   forall D, eat_space d (s_norb s) D ->
     hamiltonian_r (s_norb s) h e phi D = (hf_energy e1 e2 s + cc_energy d H T + w - frozen_core_energy e1 e2 s) * phi D).
Proof.
  intros He Ha Hb HT HY Hm d H h e phi Rg Fx. assert (K := chain_facts e1 e2 s T shift He Ha Hb HT Rg Fx). cbn zeta in K. destruct K as (K1 & K2 & K3 & K4 & K5 & K6).
  split; [exact K1|]. fold h e in K5. rewrite K5. assert (S := C75_schroedinger _ _ T Y _ m w K2 K3 HT HY Hm K4). cbn zeta in S. etransitivity; [exact S|].
  fold d H in K6. rewrite K6. reflexivity.
Qed.

(** * DIP-EOMCC with 4h2p operators: an alpha and a beta electron removed, up to four holes and two particles *)
Lemma dipq_op_linear d Y : linear (dipq_op d Y).
Proof. replace (dipq_op d Y) with (psem (noa d) (nob d) (fdim d) (tenv (fock_arrays (fock_ints (noa d) (nob d) zero_integrals) (bare zero_amps) ++ [ap2 (dipq_ab Y); ap4 (dipq_aba Y); ap4 (dipq_abb Y); ap6 (dipq_abaa Y); ap6 (dipq_abab Y); ap6 (dipq_abbb Y)])) dipq_rts (venv [])) by (apply functional_extensionality; intros phi; apply (dipq_op_ok d zero_integrals zero_amps Y)). apply psem_linear. Qed.
Lemma dipq_op_commute d Y T : commute (dipq_op d Y) (ones d T).
Proof.
  replace (dipq_op d Y) with (psem (noa d) (nob d) (fdim d) (tenv (fock_arrays (fock_ints (noa d) (nob d) zero_integrals) (bare zero_amps) ++ [ap2 (dipq_ab Y); ap4 (dipq_aba Y); ap4 (dipq_abb Y); ap6 (dipq_abaa Y); ap6 (dipq_abab Y); ap6 (dipq_abbb Y)])) dipq_rts (venv [])) by (apply functional_extensionality; intros phi; apply (dipq_op_ok d zero_integrals zero_amps Y)).
  apply psem_commute; [reflexivity|reflexivity|vm_compute; reflexivity|apply ones_exc].
Qed.
(** Roots of the program are solutions of the Schroedinger equation on the determinants of the method, with total energy E + w *)
Theorem C76_schroedinger d I T Y n m w : shape d n -> exchangeable I -> antisym_amps T -> dipq_anti Y -> (noa d + nob d + 4 <= m)%nat ->
  let H := fock_ints (noa d) (nob d) I in
  let E := scf_energy (noa d) (nob d) I + cc_energy d H T in
  same_amps d (ccsd_resid d H T) zero_amps ->
  (dipq_root d (dipq_HR d (hbar_ccsd d H T) T Y) Y w <-> solves_on (dipq_space d n) n I (E + w) (dipq_op d Y (cc_state d T m))).
Proof.
  intros HS HI HT HY Hm H E HR.
  apply (through d I T n m (dipq_op d Y) (dipq_space d n) w E _ (dipq_root d (dipq_HR d (hbar_ccsd d (fock_ints (noa d) (nob d) (dressed d T I)) (bare T)) (bare T) Y) Y w)); try assumption.
  - destruct HS as (E1 & E2). now apply sector_downward.
  - apply dipq_op_linear.
  - apply dipq_op_commute.
  - reflexivity.
  - apply dipq_root_same; [now apply hbar_agree|reflexivity..].
  - intros K. destruct HS as (E1 & E2). apply (dipq_solves d (dressed d T I) T Y n m E1 E2); [now apply dressed_exch|exact HT|exact HY|lia|exact K].
Qed.
(** The sigma vector is antisymmetric *)
Theorem C76_antisym d H T Y : dipq_anti (dipq_HR d H T Y).
Proof. unfold dipq_anti. repeat match goal with |- _ /\ _ => split end; intros; cbn [dipq_HR dipq_ab dipq_aba dipq_abb dipq_abaa dipq_abab dipq_abbb]; unfold dipqr_x3b_20, dipqr_x3c_20, dipqr_x4b_18, dipqr_x4b_17, dipqr_x4b_16, dipqr_x4c_29, dipqr_x4c_28, dipqr_x4d_18, dipqr_x4d_17, dipqr_x4d_16; ring. Qed.
(** From the integrals of the molecule to the root: frozen core, fixed point of the CCSD iteration, similarity-transformed Hamiltonian, sigma vector *)
Theorem C76_chain e1 e2 s T Y shift w m : (forall p q r t, e2 p q r t = e2 q p t r) -> (s_noa s <= s_norb s)%nat -> (s_nob s <= s_norb s)%nat ->
  antisym_amps T -> dipq_anti Y -> (s_noa s + s_nob s + 4 <= m)%nat ->
  let d := sys_dims s in
  let H := fock_ints (s_noa s) (s_nob s) (valence e1 e2 (s_nf s)) in
  let h p q := h_a (valence e1 e2 (s_nf s)) p q in
  let e p q r t := e2 (s_nf s + p)%nat (s_nf s + q)%nat (s_nf s + r)%nat (s_nf s + t)%nat in
  let phi := dipq_op d Y (cc_state d T m) in
  regular d shift H -> same_amps d (ccsd_iter d shift H T) T ->
  holds H (sort_hamiltonian s (get_hamiltonian e1 e2 s true)) /\
  (dipq_root d (dipq_HR d (hbar_ccsd d H T) T Y) Y w <->
   forall D, dipq_space d (s_norb s) D ->
     hamiltonian_r (s_norb s) h e phi D = (hf_energy e1 e2 s + cc_energy d H T + w - frozen_core_energy e1 e2 s) * phi D).
Proof.
  intros He Ha Hb HT HY Hm d H h e phi Rg Fx. assert (K := chain_facts e1 e2 s T shift He Ha Hb HT Rg Fx). cbn zeta in K. destruct K as (K1 & K2 & K3 & K4 & K5 & K6).
  split; [exact K1|]. fold h e in K5. rewrite K5. assert (S := C76_schroedinger _ _ T Y _ m w K2 K3 HT HY Hm K4). cbn zeta in S. etransitivity; [exact S|].
  fold d H in K6. rewrite K6. reflexivity.
Qed.

(** * DEA-EOMCC with 4p2h operators: an alpha and a beta electron attached, up to four particles and two holes *)
Lemma deaq_op_linear d Y : linear (deaq_op d Y).
Proof. replace (deaq_op d Y) with (psem (noa d) (nob d) (fdim d) (tenv (fock_arrays (fock_ints (noa d) (nob d) zero_integrals) (bare zero_amps) ++ [ap2 (deaq_ab Y); ap4 (deaq_aba Y); ap4 (deaq_abb Y); ap6 (deaq_abaa Y); ap6 (deaq_abab Y); ap6 (deaq_abbb Y)])) deaq_rts (venv [])) by (apply functional_extensionality; intros phi; apply (deaq_op_ok d zero_integrals zero_amps Y)). apply psem_linear. Qed.
Lemma deaq_op_commute d Y T : commute (deaq_op d Y) (ones d T).
Proof.
  replace (deaq_op d Y) with (psem (noa d) (nob d) (fdim d) (tenv (fock_arrays (fock_ints (noa d) (nob d) zero_integrals) (bare zero_amps) ++ [ap2 (deaq_ab Y); ap4 (deaq_aba Y); ap4 (deaq_abb Y); ap6 (deaq_abaa Y); ap6 (deaq_abab Y); ap6 (deaq_abbb Y)])) deaq_rts (venv [])) by (apply functional_extensionality; intros phi; apply (deaq_op_ok d zero_integrals zero_amps Y)).
  apply psem_commute; [reflexivity|reflexivity|vm_compute; reflexivity|apply ones_exc].
Qed.
(** Roots of the program are solutions of the Schroedinger equation on the determinants of the method, with total energy E + w *)
Theorem C77_schroedinger d I T Y n m w : shape d n -> exchangeable I -> antisym_amps T -> deaq_anti Y -> (noa d + nob d + 4 <= m)%nat ->
  let H := fock_ints (noa d) (nob d) I in
  let E := scf_energy (noa d) (nob d) I + cc_energy d H T in
  same_amps d (ccsd_resid d H T) zero_amps ->
  (deaq_root d (deaq_HR d (hbar_ccsd d H T) T Y) Y w <-> solves_on (deaq_space d n) n I (E + w) (deaq_op d Y (cc_state d T m))).
Proof.
  intros HS HI HT HY Hm H E HR.
  apply (through d I T n m (deaq_op d Y) (deaq_space d n) w E _ (deaq_root d (deaq_HR d (hbar_ccsd d (fock_ints (noa d) (nob d) (dressed d T I)) (bare T)) (bare T) Y) Y w)); try assumption.
  - destruct HS as (E1 & E2). now apply sector_downward.
  - apply deaq_op_linear.
  - apply deaq_op_commute.
  - reflexivity.
  - apply deaq_root_same; [now apply hbar_agree|reflexivity..].
  - intros K. destruct HS as (E1 & E2). apply (deaq_solves d (dressed d T I) T Y n m E1 E2); [now apply dressed_exch|exact HT|exact HY|lia|exact K].
Qed.
(** The sigma vector is antisymmetric *)
Theorem C77_antisym d H T Y : deaq_anti (deaq_HR d H T Y).
Proof. unfold deaq_anti. repeat match goal with |- _ /\ _ => split end; intros; cbn [deaq_HR deaq_ab deaq_aba deaq_abb deaq_abaa deaq_abab deaq_abbb]; unfold deaqr_x3b_20, deaqr_x3c_20, deaqr_x4b_18, deaqr_x4b_17, deaqr_x4b_16, deaqr_x4c_29, deaqr_x4c_28, deaqr_x4d_18, deaqr_x4d_17, deaqr_x4d_16; ring. Qed.
(** From the integrals of the molecule to the root: frozen core, fixed point of the CCSD iteration, similarity-transformed Hamiltonian, sigma vector *)
Theorem C77_chain e1 e2 s T Y shift w m : (forall p q r t, e2 p q r t = e2 q p t r) -> (s_noa s <= s_norb s)%nat -> (s_nob s <= s_norb s)%nat ->
  antisym_amps T -> deaq_anti Y -> (s_noa s + s_nob s + 4 <= m)%nat ->
  let d := sys_dims s in
  let H := fock_ints (s_noa s) (s_nob s) (valence e1 e2 (s_nf s)) in
  let h p q := h_a (valence e1 e2 (s_nf s)) p q in
  let e p q r t := e2 (s_nf s + p)%nat (s_nf s + q)%nat (s_nf s + r)%nat (s_nf s + t)%nat in
  let phi := deaq_op d Y (cc_state d T m) in
  regular d shift H -> same_amps d (ccsd_iter d shift H T) T ->
  holds H (sort_hamiltonian s (get_hamiltonian e1 e2 s true)) /\
  (deaq_root d (deaq_HR d (hbar_ccsd d H T) T Y) Y w <->
   forall D, deaq_space d (s_norb s) D ->
     hamiltonian_r (s_norb s) h e phi D = (hf_energy e1 e2 s + cc_energy d H T + w - frozen_core_energy e1 e2 s) * phi D).
Proof.
  intros He Ha Hb HT HY Hm d H h e phi Rg Fx. assert (K := chain_facts e1 e2 s T shift He Ha Hb HT Rg Fx). cbn zeta in K. destruct K as (K1 & K2 & K3 & K4 & K5 & K6).
  split; [exact K1|]. fold h e in K5. rewrite K5. assert (S := C77_schroedinger _ _ T Y _ m w K2 K3 HT HY Hm K4). cbn zeta in S. etransitivity; [exact S|].
  fold d H in K6. rewrite K6. reflexivity.
Qed.

(** * Cases: independent electrons.  One unoccupied (occupied) orbital does not mix; in the other pair h = ((0, 2), (2, 3)), T1 = -1/2, eigenvalues -1 and 4.
    Attaching: two holes in orbitals of energy -1, particles of energies 4, 5, 4 (and 5), so w = 15 (20); removing likewise with an occupied orbital of energy -5. *)
Local Open Scope Q_scope.
Definition h_attach (p q : nat) : Q := match p, q with O, S O | S O, O => 2 | S O, S O => 3 | S (S O), S (S O) => 5 | _, _ => 0 end.
Definition h_remove (p q : nat) : Q := match p, q with S (S O), S O | S O, S (S O) => 2 | S (S O), S (S O) => 3 | O, O => -5 | _, _ => 0 end.
Definition one_body (h : nat -> nat -> Q) : qints := mkQ h h (fun _ _ _ _ => 0) (fun _ _ _ _ => 0) (fun _ _ _ _ => 0).
Definition t_one (k : nat) : qamps := let t a i := if (Nat.eqb a 0 && Nat.eqb i k)%bool then -1 # 2 else 0 in mkQa t t (fun _ _ _ _ => 0) (fun _ _ _ _ => 0) (fun _ _ _ _ => 0).
Definition anti2 (a b : nat) : Q := match a, b with O, S O => 1 | S O, O => -1 | _, _ => 0 end.
Definition isq (k a : nat) : Q := if Nat.eqb k a then 1 else 0.
Definition no5 (_ _ _ _ _ : nat) : Q := 0. Definition no6 (_ _ _ _ _ _ : nat) : Q := 0.
Definition d_attach := mkDims 1 2 1 2. Definition d_remove := mkDims 2 1 2 1.
Definition I_attach := real (one_body h_attach). Definition I_remove := real (one_body h_remove).
Definition T_attach := reala (t_one 0). Definition T_remove := reala (t_one 1).
Definition y_ipt := ipt_real (fun i => (4 # 25) * isq 0 i) (fun i a j => (2 # 5) * anti2 i j) (fun i a j => (2 # 5) * isq 0 i * isq 1 j) no5 (fun i a b j k => anti2 i j * isq 1 k) no5.
Definition y_eat := eat_real (fun a => (-4 # 25) * isq 1 a) (fun a b i => (2 # 5) * anti2 a b) (fun a b i => (-2 # 5) * isq 1 a * isq 0 b) no5 (fun a b c i j => anti2 a b * isq 0 c) no5.
Definition y_dipq := dipq_real (fun i j => (4 # 25) * isq 0 i * isq 0 j) (fun i j a k => (2 # 5) * anti2 i k * isq 0 j) (fun i j a k => (2 # 5) * isq 0 i * anti2 j k) no6 (fun i j a b k l => anti2 i k * anti2 j l) no6.
Definition y_deaq := deaq_real (fun a b => (4 # 25) * isq 1 a * isq 1 b) (fun a b c k => (-2 # 5) * anti2 a c * isq 1 b) (fun a b c k => (-2 # 5) * isq 1 a * anti2 b c) no6 (fun a b c e k l => anti2 a c * anti2 b e) no6.
Local Close Scope Q_scope.
Lemma anti2_ok a b : (anti2 a b == - anti2 b a)%Q. Proof. destruct a as [|[|a]], b as [|[|b]]; reflexivity. Qed.
Lemma attach_ok : shape d_attach 3 /\ exchangeable I_attach /\ antisym_amps T_attach /\ same_amps d_attach (ccsd_resid d_attach (fock_ints 1 1 I_attach) T_attach) zero_amps.
Proof.
  split; [now split|]. split; [split; reflexivity|]. split; [constructor; intros; cbn [T_attach reala x_aa x_ab x_bb x_aaa x_aab x_abb x_bbb t_one qt_aa qt_bb]; rewrite ?q0; ring|].
  apply (qres_ok d_attach (one_body h_attach) (t_one 0)). vm_compute. reflexivity.
Qed.
Lemma remove_ok : shape d_remove 3 /\ exchangeable I_remove /\ antisym_amps T_remove /\ same_amps d_remove (ccsd_resid d_remove (fock_ints 2 2 I_remove) T_remove) zero_amps.
Proof.
  split; [now split|]. split; [split; reflexivity|]. split; [constructor; intros; cbn [T_remove reala x_aa x_ab x_bb x_aaa x_aab x_abb x_bbb t_one qt_aa qt_bb]; rewrite ?q0; ring|].
  apply (qres_ok d_remove (one_body h_remove) (t_one 1)). vm_compute. reflexivity.
Qed.
Ltac qanti := repeat match goal with |- _ /\ _ => split end; intros; cbn; rewrite <- Q2R_opp; apply Qeq_eqR; unfold no5, no6;
  repeat match goal with |- context [anti2 ?a ?b] => lazymatch goal with |- context [anti2 b a] => rewrite (anti2_ok a b); let x := fresh "x" in generalize (anti2 b a); intros x end end; ring.
Example C74_instance : ipt_anti y_ipt /\ ipt_aab y_ipt 0%nat 0%nat 0%nat 1%nat 1%nat = 1 /\
  ipt_root d_remove (ipt_HR d_remove (hbar_ccsd d_remove (fock_ints 2 2 I_remove) T_remove) T_remove y_ipt) y_ipt 15.
Proof.
  split; [unfold ipt_anti; qanti|]. split; [cbn; unfold Q2R; cbn; lra|]. replace 15 with (Q2R 15) by (unfold Q2R; cbn; lra). apply (ipt_case d_remove (one_body h_remove) (t_one 1)). vm_compute. reflexivity.
Qed.
Example C75_instance : eat_anti y_eat /\ eat_aab y_eat 0%nat 1%nat 0%nat 0%nat 0%nat = 1 /\
  eat_root d_attach (eat_HR d_attach (hbar_ccsd d_attach (fock_ints 1 1 I_attach) T_attach) T_attach y_eat) y_eat 15.
Proof.
  split; [unfold eat_anti; qanti|]. split; [cbn; unfold Q2R; cbn; lra|]. replace 15 with (Q2R 15) by (unfold Q2R; cbn; lra). apply (eat_case d_attach (one_body h_attach) (t_one 0)). vm_compute. reflexivity.
Qed.
Example C76_instance : dipq_anti y_dipq /\ dipq_abab y_dipq 0%nat 0%nat 0%nat 0%nat 1%nat 1%nat = 1 /\
  dipq_root d_remove (dipq_HR d_remove (hbar_ccsd d_remove (fock_ints 2 2 I_remove) T_remove) T_remove y_dipq) y_dipq 20.
Proof.
  split; [unfold dipq_anti; qanti|]. split; [cbn; unfold Q2R; cbn; lra|]. replace 20 with (Q2R 20) by (unfold Q2R; cbn; lra). apply (dipq_case d_remove (one_body h_remove) (t_one 1)). vm_compute. reflexivity.
Qed.
Example C77_instance : deaq_anti y_deaq /\ deaq_abab y_deaq 0%nat 0%nat 1%nat 1%nat 0%nat 0%nat = 1 /\
  deaq_root d_attach (deaq_HR d_attach (hbar_ccsd d_attach (fock_ints 1 1 I_attach) T_attach) T_attach y_deaq) y_deaq 20.
Proof.
  split; [unfold deaq_anti; qanti|]. split; [cbn; unfold Q2R; cbn; lra|]. replace 20 with (Q2R 20) by (unfold Q2R; cbn; lra). apply (deaq_case d_attach (one_body h_attach) (t_one 0)). vm_compute. reflexivity.
Qed.
(** C73: the singles are not zero and the dressed integrals differ from the bare ones: h~(0, 0) = h(0, 0) + h(0, 1) t = -1 *)
Example C73_instance : shape d_attach 3 /\ exchangeable I_attach /\ antisym_amps T_attach /\ h_a I_attach 0%nat 0%nat = 0 /\ h_a (dressed d_attach T_attach I_attach) 0%nat 0%nat = -1.
Proof.
  destruct attach_ok as (A & B & C & _). split; [exact A|]. split; [exact B|]. split; [exact C|]. split; [cbn; apply q0|value].
Qed.

Print Assumptions C73_dressed.
Print Assumptions C73_hbar.
Print Assumptions C73_energy.
Print Assumptions C73_residual.
Print Assumptions C74_schroedinger.
Print Assumptions C74_antisym.
Print Assumptions C74_chain.
Print Assumptions C75_schroedinger.
Print Assumptions C75_antisym.
Print Assumptions C75_chain.
Print Assumptions C76_schroedinger.
Print Assumptions C76_antisym.
Print Assumptions C76_chain.
Print Assumptions C77_schroedinger.
Print Assumptions C77_antisym.
Print Assumptions C77_chain.
