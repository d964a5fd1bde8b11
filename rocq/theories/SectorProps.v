(** Electron removal, attachment and spin flip against second quantisation: the sigma vectors of the IP, EA, SF, DIP, DEA and TEA equation-of-motion
    methods on top of CCSD are those of the states R exp(T) |ref> in the Schroedinger equation of FockSpec.v, projected on the determinants of
    FockSectorSpec.v; the left IP and EA vectors are adjoint to the right ones. *)
From Coq Require Import Reals Arith NArith List Bool Lia Lra.
From Verif Require Import RSum IntegralsModel TensorObjs TensorAlg TensorSpec CcsdModel CcsdUpdate LeftModel IntsFix CcsdProps FockSpec FockCar FockCcSpec FockExp FockLevel FockState FockNear FockProj FockProps SectorModel FockSectorSpec FockFlip FockSpaces FockSectorTools SectorIpFock SectorEaFock SectorSfFock SectorDipFock SectorDea2Fock SectorDeaFock SectorTeaFock SectorIpLeft SectorEaLeft.
Import ListNotations.
Local Open Scope R_scope.

(** A converged CCSD calculation on a molecule meets the hypotheses of the theorems below *)
Lemma chain_facts e1 e2 s T shift : (forall p q r t, e2 p q r t = e2 q p t r) -> (s_noa s <= s_norb s)%nat -> (s_nob s <= s_norb s)%nat -> antisym_amps T ->
  let d := sys_dims s in
  let I := valence e1 e2 (s_nf s) in
  let H := fock_ints (s_noa s) (s_nob s) I in
  regular d shift H -> same_amps d (ccsd_iter d shift H T) T ->
  holds H (sort_hamiltonian s (get_hamiltonian e1 e2 s true)) /\ shape d (s_norb s) /\ exchangeable I /\ same_amps d (ccsd_resid d H T) zero_amps /\
  hamiltonian_r (s_norb s) (fun p q => h_a I p q) (fun p q r t => e2 (s_nf s + p)%nat (s_nf s + q)%nat (s_nf s + r)%nat (s_nf s + t)%nat) = hamiltonian (s_norb s) I /\
  forall w, hf_energy e1 e2 s + cc_energy d H T + w - frozen_core_energy e1 e2 s = scf_energy (s_noa s) (s_nob s) I + cc_energy d H T + w.
Proof.
  intros He Ha Hb HT d I H Rg Fx. split; [now apply C63_arrays|]. split; [split; cbn [d sys_dims noa nua nob nub]; lia|]. split; [split; intros; apply He|].
  split; [now apply C51_ccsd_fixed_point in Fx|]. split; [rewrite C63_textbook by (intros; apply He); reflexivity|].
  intros w. rewrite (C63_reference_energy e1 e2 s He). fold I. ring.
Qed.

(** * IP-EOMCCSD(2h-1p): one alpha electron removed *)
(** The sigma vector for any R: components of (H - E) R exp(T) |ref>, less products with lower ones; X is the CCSD residual, zero for converged T *)
Theorem C66_sigma d I T Y n m : shape d n -> exchangeable I -> antisym_amps T -> ip_anti Y -> (3 <= m)%nat ->
  let H := fock_ints (noa d) (nob d) I in
  let E := scf_energy (noa d) (nob d) I + cc_energy d H T in
  let phi := ip_op d Y (cc_state d T m) in
  let G := fun D => hamiltonian n I phi D - E * phi D in
  let X := ccsd_resid d H T in
  let s := ip_HR d (hbar_ccsd d H T) T Y in
  (forall i, (i < noa d)%nat -> cre (oa i) G (cc_ref d) = ip_a s i) /\
  (forall i a j, (i < noa d)%nat -> (a < nua d)%nat -> (j < noa d)%nat -> cre (oa i) (cre (oa j) (ann (va d a) G)) (cc_ref d) = ip_aa s i a j + x_a T a j * ip_a s i - x_a T a i * ip_a s j + x_a X a j * ip_a Y i - x_a X a i * ip_a Y j) /\
  (forall i a j, (i < noa d)%nat -> (a < nub d)%nat -> (j < nob d)%nat -> cre (oa i) (cre (ob j) (ann (vb d a) G)) (cc_ref d) = ip_ab s i a j + x_b T a j * ip_a s i + x_b X a j * ip_a Y i).
Proof.
  intros (E1 & E2) HI HT HY Hm H E phi G X s.
  assert (Q : G = ip_defect d I T Y n m 0) by (apply ext_state; intros D; unfold ip_defect, G, E, H, phi; ring). rewrite Q.
  split; [|split]; intros.
  - etransitivity; [apply (ip_comp_a d I T Y n m E1 E2 HI HT HY Hm 0 i); assumption|]. fold H X s. ring.
  - etransitivity; [apply (ip_comp_aa d I T Y n m E1 E2 HI HT HY Hm 0 i a j); assumption|]. fold H X s. ring.
  - etransitivity; [apply (ip_comp_ab d I T Y n m E1 E2 HI HT HY Hm 0 i a j); assumption|]. fold H X s. ring.
Qed.
(** Roots of the program are solutions of the Schroedinger equation on the determinants of the method, with total energy E + w *)
Theorem C66_schroedinger d I T Y n m w : shape d n -> exchangeable I -> antisym_amps T -> ip_anti Y -> (3 <= m)%nat ->
  let H := fock_ints (noa d) (nob d) I in
  let E := scf_energy (noa d) (nob d) I + cc_energy d H T in
  same_amps d (ccsd_resid d H T) zero_amps ->
  (ip_root d (ip_HR d (hbar_ccsd d H T) T Y) Y w <-> solves_on (ip_space n (cc_ref d)) n I (E + w) (ip_op d Y (cc_state d T m))).
Proof. intros (E1 & E2) HI HT HY Hm H E HR. symmetry. exact (ip_solves d I T Y n m E1 E2 HI HT HY Hm w HR). Qed.
(** The sigma vector is antisymmetric *)
Theorem C66_antisym d H T Y : ip_anti (ip_HR d H T Y).
Proof. unfold ip_anti. intros; cbn [ip_HR ip_a ip_aa ip_ab]; unfold ipr_X2A_7; ring. Qed.
(** From the integrals of the molecule to the root: frozen core, fixed point of the CCSD iteration, similarity-transformed Hamiltonian, sigma vector *)
Theorem C66_chain e1 e2 s T Y shift w m : (forall p q r t, e2 p q r t = e2 q p t r) -> (s_noa s <= s_norb s)%nat -> (s_nob s <= s_norb s)%nat ->
  antisym_amps T -> ip_anti Y -> (3 <= m)%nat ->
  let d := sys_dims s in
  let H := fock_ints (s_noa s) (s_nob s) (valence e1 e2 (s_nf s)) in
  let h p q := h_a (valence e1 e2 (s_nf s)) p q in
  let e p q r t := e2 (s_nf s + p)%nat (s_nf s + q)%nat (s_nf s + r)%nat (s_nf s + t)%nat in
  let phi := ip_op d Y (cc_state d T m) in
  regular d shift H -> same_amps d (ccsd_iter d shift H T) T ->
  holds H (sort_hamiltonian s (get_hamiltonian e1 e2 s true)) /\
  (ip_root d (ip_HR d (hbar_ccsd d H T) T Y) Y w <->
   forall D, ip_space (s_norb s) (reference (s_noa s) (s_nob s)) D ->
     hamiltonian_r (s_norb s) h e phi D = (hf_energy e1 e2 s + cc_energy d H T + w - frozen_core_energy e1 e2 s) * phi D).
Proof.
  intros He Ha Hb HT HY Hm d H h e phi Rg Fx. assert (K := chain_facts e1 e2 s T shift He Ha Hb HT Rg Fx). cbn zeta in K. destruct K as (K1 & K2 & K3 & K4 & K5 & K6).
  split; [exact K1|]. fold h e in K5. rewrite K5. assert (S := C66_schroedinger _ _ T Y _ m w K2 K3 HT HY Hm K4). cbn zeta in S. etransitivity; [exact S|].
  fold d H in K6. rewrite K6. reflexivity.
Qed.

(** * EA-EOMCCSD(2p-1h): one alpha electron attached *)
(** The sigma vector for any R: components of (H - E) R exp(T) |ref>, less products with lower ones; X is the CCSD residual, zero for converged T *)
Theorem C67_sigma d I T Y n m : shape d n -> exchangeable I -> antisym_amps T -> ea_anti Y -> (3 <= m)%nat ->
  let H := fock_ints (noa d) (nob d) I in
  let E := scf_energy (noa d) (nob d) I + cc_energy d H T in
  let phi := ea_op d Y (cc_state d T m) in
  let G := fun D => hamiltonian n I phi D - E * phi D in
  let X := ccsd_resid d H T in
  let s := ea_HR d (hbar_ccsd d H T) T Y in
  (forall a, (a < nua d)%nat -> ann (va d a) G (cc_ref d) = ea_a s a) /\
  (forall a b i, (a < nua d)%nat -> (b < nua d)%nat -> (i < noa d)%nat -> cre (oa i) (ann (va d b) (ann (va d a) G)) (cc_ref d) = ea_aa s a b i + x_a T b i * ea_a s a - x_a T a i * ea_a s b + x_a X b i * ea_a Y a - x_a X a i * ea_a Y b) /\
  (forall a b i, (a < nua d)%nat -> (b < nub d)%nat -> (i < nob d)%nat -> cre (ob i) (ann (vb d b) (ann (va d a) G)) (cc_ref d) = ea_ab s a b i + x_b T b i * ea_a s a + x_b X b i * ea_a Y a).
Proof.
  intros (E1 & E2) HI HT HY Hm H E phi G X s.
  assert (Q : G = ea_defect d I T Y n m 0) by (apply ext_state; intros D; unfold ea_defect, G, E, H, phi; ring). rewrite Q.
  split; [|split]; intros.
  - etransitivity; [apply (ea_comp_a d I T Y n m E1 E2 HI HT HY Hm 0 a); assumption|]. fold H X s. ring.
  - etransitivity; [apply (ea_comp_aa d I T Y n m E1 E2 HI HT HY Hm 0 a b i); assumption|]. fold H X s. ring.
  - etransitivity; [apply (ea_comp_ab d I T Y n m E1 E2 HI HT HY Hm 0 a b i); assumption|]. fold H X s. ring.
Qed.
(** Roots of the program are solutions of the Schroedinger equation on the determinants of the method, with total energy E + w *)
Theorem C67_schroedinger d I T Y n m w : shape d n -> exchangeable I -> antisym_amps T -> ea_anti Y -> (3 <= m)%nat ->
  let H := fock_ints (noa d) (nob d) I in
  let E := scf_energy (noa d) (nob d) I + cc_energy d H T in
  same_amps d (ccsd_resid d H T) zero_amps ->
  (ea_root d (ea_HR d (hbar_ccsd d H T) T Y) Y w <-> solves_on (ea_space n (cc_ref d)) n I (E + w) (ea_op d Y (cc_state d T m))).
Proof. intros (E1 & E2) HI HT HY Hm H E HR. symmetry. exact (ea_solves d I T Y n m E1 E2 HI HT HY Hm w HR). Qed.
(** The sigma vector is antisymmetric *)
Theorem C67_antisym d H T Y : ea_anti (ea_HR d H T Y).
Proof. unfold ea_anti. intros; cbn [ea_HR ea_a ea_aa ea_ab]; unfold ear_X2A_7; ring. Qed.
(** From the integrals of the molecule to the root: frozen core, fixed point of the CCSD iteration, similarity-transformed Hamiltonian, sigma vector *)
Theorem C67_chain e1 e2 s T Y shift w m : (forall p q r t, e2 p q r t = e2 q p t r) -> (s_noa s <= s_norb s)%nat -> (s_nob s <= s_norb s)%nat ->
  antisym_amps T -> ea_anti Y -> (3 <= m)%nat ->
  let d := sys_dims s in
  let H := fock_ints (s_noa s) (s_nob s) (valence e1 e2 (s_nf s)) in
  let h p q := h_a (valence e1 e2 (s_nf s)) p q in
  let e p q r t := e2 (s_nf s + p)%nat (s_nf s + q)%nat (s_nf s + r)%nat (s_nf s + t)%nat in
  let phi := ea_op d Y (cc_state d T m) in
  regular d shift H -> same_amps d (ccsd_iter d shift H T) T ->
  holds H (sort_hamiltonian s (get_hamiltonian e1 e2 s true)) /\
  (ea_root d (ea_HR d (hbar_ccsd d H T) T Y) Y w <->
   forall D, ea_space (s_norb s) (reference (s_noa s) (s_nob s)) D ->
     hamiltonian_r (s_norb s) h e phi D = (hf_energy e1 e2 s + cc_energy d H T + w - frozen_core_energy e1 e2 s) * phi D).
Proof.
  intros He Ha Hb HT HY Hm d H h e phi Rg Fx. assert (K := chain_facts e1 e2 s T shift He Ha Hb HT Rg Fx). cbn zeta in K. destruct K as (K1 & K2 & K3 & K4 & K5 & K6).
  split; [exact K1|]. fold h e in K5. rewrite K5. assert (S := C67_schroedinger _ _ T Y _ m w K2 K3 HT HY Hm K4). cbn zeta in S. etransitivity; [exact S|].
  fold d H in K6. rewrite K6. reflexivity.
Qed.

(** * SF-EOMCCSD: one alpha electron turned into a beta electron *)
(** The sigma vector for any R: components of (H - E) R exp(T) |ref>, less products with lower ones; X is the CCSD residual, zero for converged T *)
Theorem C68_sigma d I T Y n m : shape d n -> exchangeable I -> antisym_amps T -> sf_anti Y -> (3 <= m)%nat ->
  let H := fock_ints (noa d) (nob d) I in
  let E := scf_energy (noa d) (nob d) I + cc_energy d H T in
  let phi := sf_op d Y (cc_state d T m) in
  let G := fun D => hamiltonian n I phi D - E * phi D in
  let X := ccsd_resid d H T in
  let s := sf_HR d (hbar_ccsd d H T) T Y in
  (forall a i, (a < nub d)%nat -> (i < noa d)%nat -> cre (oa i) (ann (vb d a) G) (cc_ref d) = sf_b s a i) /\
  (forall a b i j, (a < nua d)%nat -> (b < nub d)%nat -> (i < noa d)%nat -> (j < noa d)%nat -> cre (oa i) (cre (oa j) (ann (vb d b) (ann (va d a) G))) (cc_ref d) = sf_ab s a b i j + x_a T a i * sf_b s b j - x_a T a j * sf_b s b i + x_a X a i * sf_b Y b j - x_a X a j * sf_b Y b i) /\
  (forall a b i j, (a < nub d)%nat -> (b < nub d)%nat -> (i < nob d)%nat -> (j < noa d)%nat -> cre (ob i) (cre (oa j) (ann (vb d b) (ann (vb d a) G))) (cc_ref d) = sf_bb s a b i j + x_b T a i * sf_b s b j - x_b T b i * sf_b s a j + x_b X a i * sf_b Y b j - x_b X b i * sf_b Y a j).
Proof.
  intros (E1 & E2) HI HT HY Hm H E phi G X s.
  assert (Q : G = sf_defect d I T Y n m 0) by (apply ext_state; intros D; unfold sf_defect, G, E, H, phi; ring). rewrite Q.
  split; [|split]; intros.
  - etransitivity; [apply (sf_comp_b d I T Y n m E1 E2 HI HT HY Hm 0 a i); assumption|]. fold H X s. ring.
  - etransitivity; [apply (sf_comp_ab d I T Y n m E1 E2 HI HT HY Hm 0 a b i j); assumption|]. fold H X s. ring.
  - etransitivity; [apply (sf_comp_bb d I T Y n m E1 E2 HI HT HY Hm 0 a b i j); assumption|]. fold H X s. ring.
Qed.
(** Roots of the program are solutions of the Schroedinger equation on the determinants of the method, with total energy E + w *)
Theorem C68_schroedinger d I T Y n m w : shape d n -> exchangeable I -> antisym_amps T -> sf_anti Y -> (3 <= m)%nat ->
  let H := fock_ints (noa d) (nob d) I in
  let E := scf_energy (noa d) (nob d) I + cc_energy d H T in
  same_amps d (ccsd_resid d H T) zero_amps ->
  (sf_root d (sf_HR d (hbar_ccsd d H T) T Y) Y w <-> solves_on (sf_space n (cc_ref d)) n I (E + w) (sf_op d Y (cc_state d T m))).
Proof. intros (E1 & E2) HI HT HY Hm H E HR. symmetry. exact (sf_solves d I T Y n m E1 E2 HI HT HY Hm w HR). Qed.
(** The sigma vector is antisymmetric *)
Theorem C68_antisym d H T Y : sf_anti (sf_HR d H T Y).
Proof. unfold sf_anti. split; intros; cbn [sf_HR sf_b sf_ab sf_bb]; unfold sfr_x2b_12, sfr_x2c_12; ring. Qed.
(** From the integrals of the molecule to the root: frozen core, fixed point of the CCSD iteration, similarity-transformed Hamiltonian, sigma vector *)
Theorem C68_chain e1 e2 s T Y shift w m : (forall p q r t, e2 p q r t = e2 q p t r) -> (s_noa s <= s_norb s)%nat -> (s_nob s <= s_norb s)%nat ->
  antisym_amps T -> sf_anti Y -> (3 <= m)%nat ->
  let d := sys_dims s in
  let H := fock_ints (s_noa s) (s_nob s) (valence e1 e2 (s_nf s)) in
  let h p q := h_a (valence e1 e2 (s_nf s)) p q in
  let e p q r t := e2 (s_nf s + p)%nat (s_nf s + q)%nat (s_nf s + r)%nat (s_nf s + t)%nat in
  let phi := sf_op d Y (cc_state d T m) in
  regular d shift H -> same_amps d (ccsd_iter d shift H T) T ->
  holds H (sort_hamiltonian s (get_hamiltonian e1 e2 s true)) /\
  (sf_root d (sf_HR d (hbar_ccsd d H T) T Y) Y w <->
   forall D, sf_space (s_norb s) (reference (s_noa s) (s_nob s)) D ->
     hamiltonian_r (s_norb s) h e phi D = (hf_energy e1 e2 s + cc_energy d H T + w - frozen_core_energy e1 e2 s) * phi D).
Proof.
  intros He Ha Hb HT HY Hm d H h e phi Rg Fx. assert (K := chain_facts e1 e2 s T shift He Ha Hb HT Rg Fx). cbn zeta in K. destruct K as (K1 & K2 & K3 & K4 & K5 & K6).
  split; [exact K1|]. fold h e in K5. rewrite K5. assert (S := C68_schroedinger _ _ T Y _ m w K2 K3 HT HY Hm K4). cbn zeta in S. etransitivity; [exact S|].
  fold d H in K6. rewrite K6. reflexivity.
Qed.

(** * DIP-EOMCCSD(3h-1p): one alpha and one beta electron removed *)
(** The sigma vector for any R: components of (H - E) R exp(T) |ref>, less products with lower ones; X is the CCSD residual, zero for converged T *)
Theorem C69_sigma d I T Y n m : shape d n -> exchangeable I -> antisym_amps T -> dip_anti Y -> (3 <= m)%nat ->
  let H := fock_ints (noa d) (nob d) I in
  let E := scf_energy (noa d) (nob d) I + cc_energy d H T in
  let phi := dip_op d Y (cc_state d T m) in
  let G := fun D => hamiltonian n I phi D - E * phi D in
  let X := ccsd_resid d H T in
  let s := dip_HR d (hbar_ccsd d H T) T Y in
  (forall i j, (i < noa d)%nat -> (j < nob d)%nat -> cre (oa i) (cre (ob j) G) (cc_ref d) = dip_ab s i j) /\
  (forall i j a k, (i < noa d)%nat -> (j < nob d)%nat -> (a < nua d)%nat -> (k < noa d)%nat -> cre (oa i) (cre (ob j) (cre (oa k) (ann (va d a) G))) (cc_ref d) = dip_aba s i j a k + x_a T a k * dip_ab s i j - x_a T a i * dip_ab s k j + x_a X a k * dip_ab Y i j - x_a X a i * dip_ab Y k j) /\
  (forall i j a k, (i < noa d)%nat -> (j < nob d)%nat -> (a < nub d)%nat -> (k < nob d)%nat -> cre (oa i) (cre (ob j) (cre (ob k) (ann (vb d a) G))) (cc_ref d) = dip_abb s i j a k + x_b T a k * dip_ab s i j - x_b T a j * dip_ab s i k + x_b X a k * dip_ab Y i j - x_b X a j * dip_ab Y i k).
Proof.
  intros (E1 & E2) HI HT HY Hm H E phi G X s.
  assert (Q : G = dip_defect d I T Y n m 0) by (apply ext_state; intros D; unfold dip_defect, G, E, H, phi; ring). rewrite Q.
  split; [|split]; intros.
  - etransitivity; [apply (dip_comp_ab d I T Y n m E1 E2 HI HT HY Hm 0 i j); assumption|]. fold H X s. ring.
  - etransitivity; [apply (dip_comp_aba d I T Y n m E1 E2 HI HT HY Hm 0 i j a k); assumption|]. fold H X s. ring.
  - etransitivity; [apply (dip_comp_abb d I T Y n m E1 E2 HI HT HY Hm 0 i j a k); assumption|]. fold H X s. ring.
Qed.
(** Roots of the program are solutions of the Schroedinger equation on the determinants of the method, with total energy E + w *)
Theorem C69_schroedinger d I T Y n m w : shape d n -> exchangeable I -> antisym_amps T -> dip_anti Y -> (3 <= m)%nat ->
  let H := fock_ints (noa d) (nob d) I in
  let E := scf_energy (noa d) (nob d) I + cc_energy d H T in
  same_amps d (ccsd_resid d H T) zero_amps ->
  (dip_root d (dip_HR d (hbar_ccsd d H T) T Y) Y w <-> solves_on (dip_space n (cc_ref d)) n I (E + w) (dip_op d Y (cc_state d T m))).
Proof. intros (E1 & E2) HI HT HY Hm H E HR. symmetry. exact (dip_solves d I T Y n m E1 E2 HI HT HY Hm w HR). Qed.
(** The sigma vector is antisymmetric *)
Theorem C69_antisym d H T Y : dip_anti (dip_HR d H T Y).
Proof. unfold dip_anti. split; intros; cbn [dip_HR dip_ab dip_aba dip_abb]; unfold dipr_x3b_12, dipr_x3c_12; ring. Qed.
(** From the integrals of the molecule to the root: frozen core, fixed point of the CCSD iteration, similarity-transformed Hamiltonian, sigma vector *)
Theorem C69_chain e1 e2 s T Y shift w m : (forall p q r t, e2 p q r t = e2 q p t r) -> (s_noa s <= s_norb s)%nat -> (s_nob s <= s_norb s)%nat ->
  antisym_amps T -> dip_anti Y -> (3 <= m)%nat ->
  let d := sys_dims s in
  let H := fock_ints (s_noa s) (s_nob s) (valence e1 e2 (s_nf s)) in
  let h p q := h_a (valence e1 e2 (s_nf s)) p q in
  let e p q r t := e2 (s_nf s + p)%nat (s_nf s + q)%nat (s_nf s + r)%nat (s_nf s + t)%nat in
  let phi := dip_op d Y (cc_state d T m) in
  regular d shift H -> same_amps d (ccsd_iter d shift H T) T ->
  holds H (sort_hamiltonian s (get_hamiltonian e1 e2 s true)) /\
  (dip_root d (dip_HR d (hbar_ccsd d H T) T Y) Y w <->
   forall D, dip_space (s_norb s) (reference (s_noa s) (s_nob s)) D ->
     hamiltonian_r (s_norb s) h e phi D = (hf_energy e1 e2 s + cc_energy d H T + w - frozen_core_energy e1 e2 s) * phi D).
Proof.
  intros He Ha Hb HT HY Hm d H h e phi Rg Fx. assert (K := chain_facts e1 e2 s T shift He Ha Hb HT Rg Fx). cbn zeta in K. destruct K as (K1 & K2 & K3 & K4 & K5 & K6).
  split; [exact K1|]. fold h e in K5. rewrite K5. assert (S := C69_schroedinger _ _ T Y _ m w K2 K3 HT HY Hm K4). cbn zeta in S. etransitivity; [exact S|].
  fold d H in K6. rewrite K6. reflexivity.
Qed.

(** * DEA-EOMCCSD(2p): one alpha and one beta electron attached *)
(** The sigma vector for any R: components of (H - E) R exp(T) |ref>, less products with lower ones; X is the CCSD residual, zero for converged T *)
Theorem C70_sigma_2p d I T Y n m : shape d n -> exchangeable I -> antisym_amps T -> (3 <= m)%nat ->
  let H := fock_ints (noa d) (nob d) I in
  let E := scf_energy (noa d) (nob d) I + cc_energy d H T in
  let phi := dea2_op d Y (cc_state d T m) in
  let G := fun D => hamiltonian n I phi D - E * phi D in
  let X := ccsd_resid d H T in
  let s := dea2_HR d (hbar_ccsd d H T) T Y in
  (forall a b, (a < nua d)%nat -> (b < nub d)%nat -> ann (vb d b) (ann (va d a) G) (cc_ref d) = dea2_ab s a b).
Proof.
  intros (E1 & E2) HI HT Hm H E phi G X s.
  assert (Q : G = dea2_defect d I T Y n m 0) by (apply ext_state; intros D; unfold dea2_defect, G, E, H, phi; ring). rewrite Q.
  intros.
  etransitivity; [apply (dea2_comp_ab d I T Y n m E1 E2 HI HT Hm 0 a b); assumption|]. fold H X s. ring.
Qed.
(** Roots of the program are solutions of the Schroedinger equation on the determinants of the method, with total energy E + w *)
Theorem C70_schroedinger_2p d I T Y n m w : shape d n -> exchangeable I -> antisym_amps T -> (3 <= m)%nat ->
  let H := fock_ints (noa d) (nob d) I in
  let E := scf_energy (noa d) (nob d) I + cc_energy d H T in
  same_amps d (ccsd_resid d H T) zero_amps ->
  (dea2_root d (dea2_HR d (hbar_ccsd d H T) T Y) Y w <-> solves_on (dea2_space n (cc_ref d)) n I (E + w) (dea2_op d Y (cc_state d T m))).
Proof. intros (E1 & E2) HI HT Hm H E HR. symmetry. exact (dea2_solves d I T Y n m E1 E2 HI HT Hm w HR). Qed.
(** From the integrals of the molecule to the root: frozen core, fixed point of the CCSD iteration, similarity-transformed Hamiltonian, sigma vector *)
Theorem C70_chain_2p e1 e2 s T Y shift w m : (forall p q r t, e2 p q r t = e2 q p t r) -> (s_noa s <= s_norb s)%nat -> (s_nob s <= s_norb s)%nat ->
  antisym_amps T -> (3 <= m)%nat ->
  let d := sys_dims s in
  let H := fock_ints (s_noa s) (s_nob s) (valence e1 e2 (s_nf s)) in
  let h p q := h_a (valence e1 e2 (s_nf s)) p q in
  let e p q r t := e2 (s_nf s + p)%nat (s_nf s + q)%nat (s_nf s + r)%nat (s_nf s + t)%nat in
  let phi := dea2_op d Y (cc_state d T m) in
  regular d shift H -> same_amps d (ccsd_iter d shift H T) T ->
  holds H (sort_hamiltonian s (get_hamiltonian e1 e2 s true)) /\
  (dea2_root d (dea2_HR d (hbar_ccsd d H T) T Y) Y w <->
   forall D, dea2_space (s_norb s) (reference (s_noa s) (s_nob s)) D ->
     hamiltonian_r (s_norb s) h e phi D = (hf_energy e1 e2 s + cc_energy d H T + w - frozen_core_energy e1 e2 s) * phi D).
Proof.
  intros He Ha Hb HT Hm d H h e phi Rg Fx. assert (K := chain_facts e1 e2 s T shift He Ha Hb HT Rg Fx). cbn zeta in K. destruct K as (K1 & K2 & K3 & K4 & K5 & K6).
  split; [exact K1|]. fold h e in K5. rewrite K5. assert (S := C70_schroedinger_2p _ _ T Y _ m w K2 K3 HT Hm K4). cbn zeta in S. etransitivity; [exact S|].
  fold d H in K6. rewrite K6. reflexivity.
Qed.

(** * DEA-EOMCCSD(3p-1h): one alpha and one beta electron attached *)
(** The sigma vector for any R: components of (H - E) R exp(T) |ref>, less products with lower ones; X is the CCSD residual, zero for converged T *)
Theorem C70_sigma d I T Y n m : shape d n -> exchangeable I -> antisym_amps T -> dea_anti Y -> (3 <= m)%nat ->
  let H := fock_ints (noa d) (nob d) I in
  let E := scf_energy (noa d) (nob d) I + cc_energy d H T in
  let phi := dea_op d Y (cc_state d T m) in
  let G := fun D => hamiltonian n I phi D - E * phi D in
  let X := ccsd_resid d H T in
  let s := dea_HR d (hbar_ccsd d H T) T Y in
  (forall a b, (a < nua d)%nat -> (b < nub d)%nat -> ann (vb d b) (ann (va d a) G) (cc_ref d) = dea_ab s a b) /\
  (forall a b c i, (a < nua d)%nat -> (b < nub d)%nat -> (c < nua d)%nat -> (i < noa d)%nat -> cre (oa i) (ann (va d c) (ann (vb d b) (ann (va d a) G))) (cc_ref d) = dea_aba s a b c i + x_a T c i * dea_ab s a b - x_a T a i * dea_ab s c b + x_a X c i * dea_ab Y a b - x_a X a i * dea_ab Y c b) /\
  (forall a b c i, (a < nua d)%nat -> (b < nub d)%nat -> (c < nub d)%nat -> (i < nob d)%nat -> cre (ob i) (ann (vb d c) (ann (vb d b) (ann (va d a) G))) (cc_ref d) = dea_abb s a b c i + x_b T c i * dea_ab s a b - x_b T b i * dea_ab s a c + x_b X c i * dea_ab Y a b - x_b X b i * dea_ab Y a c).
Proof.
  intros (E1 & E2) HI HT HY Hm H E phi G X s.
  assert (Q : G = dea_defect d I T Y n m 0) by (apply ext_state; intros D; unfold dea_defect, G, E, H, phi; ring). rewrite Q.
  split; [|split]; intros.
  - etransitivity; [apply (dea_comp_ab d I T Y n m E1 E2 HI HT HY Hm 0 a b); assumption|]. fold H X s. ring.
  - etransitivity; [apply (dea_comp_aba d I T Y n m E1 E2 HI HT HY Hm 0 a b c i); assumption|]. fold H X s. ring.
  - etransitivity; [apply (dea_comp_abb d I T Y n m E1 E2 HI HT HY Hm 0 a b c i); assumption|]. fold H X s. ring.
Qed.
(** Roots of the program are solutions of the Schroedinger equation on the determinants of the method, with total energy E + w *)
Theorem C70_schroedinger d I T Y n m w : shape d n -> exchangeable I -> antisym_amps T -> dea_anti Y -> (3 <= m)%nat ->
  let H := fock_ints (noa d) (nob d) I in
  let E := scf_energy (noa d) (nob d) I + cc_energy d H T in
  same_amps d (ccsd_resid d H T) zero_amps ->
  (dea_root d (dea_HR d (hbar_ccsd d H T) T Y) Y w <-> solves_on (dea_space n (cc_ref d)) n I (E + w) (dea_op d Y (cc_state d T m))).
Proof. intros (E1 & E2) HI HT HY Hm H E HR. symmetry. exact (dea_solves d I T Y n m E1 E2 HI HT HY Hm w HR). Qed.
(** The sigma vector is antisymmetric *)
Theorem C70_antisym d H T Y : dea_anti (dea_HR d H T Y).
Proof. unfold dea_anti. split; intros; cbn [dea_HR dea_ab dea_aba dea_abb]; unfold dear_x3b_12, dear_x3c_12; ring. Qed.
(** From the integrals of the molecule to the root: frozen core, fixed point of the CCSD iteration, similarity-transformed Hamiltonian, sigma vector *)
Theorem C70_chain e1 e2 s T Y shift w m : (forall p q r t, e2 p q r t = e2 q p t r) -> (s_noa s <= s_norb s)%nat -> (s_nob s <= s_norb s)%nat ->
  antisym_amps T -> dea_anti Y -> (3 <= m)%nat ->
  let d := sys_dims s in
  let H := fock_ints (s_noa s) (s_nob s) (valence e1 e2 (s_nf s)) in
  let h p q := h_a (valence e1 e2 (s_nf s)) p q in
  let e p q r t := e2 (s_nf s + p)%nat (s_nf s + q)%nat (s_nf s + r)%nat (s_nf s + t)%nat in
  let phi := dea_op d Y (cc_state d T m) in
  regular d shift H -> same_amps d (ccsd_iter d shift H T) T ->
  holds H (sort_hamiltonian s (get_hamiltonian e1 e2 s true)) /\
  (dea_root d (dea_HR d (hbar_ccsd d H T) T Y) Y w <->
   forall D, dea_space (s_norb s) (reference (s_noa s) (s_nob s)) D ->
     hamiltonian_r (s_norb s) h e phi D = (hf_energy e1 e2 s + cc_energy d H T + w - frozen_core_energy e1 e2 s) * phi D).
Proof.
  intros He Ha Hb HT HY Hm d H h e phi Rg Fx. assert (K := chain_facts e1 e2 s T shift He Ha Hb HT Rg Fx). cbn zeta in K. destruct K as (K1 & K2 & K3 & K4 & K5 & K6).
  split; [exact K1|]. fold h e in K5. rewrite K5. assert (S := C70_schroedinger _ _ T Y _ m w K2 K3 HT HY Hm K4). cbn zeta in S. etransitivity; [exact S|].
  fold d H in K6. rewrite K6. reflexivity.
Qed.

(** * TEA-EOMCCSD(3p): two alpha and one beta electron attached *)
(** The sigma vector for any R: components of (H - E) R exp(T) |ref>, less products with lower ones; X is the CCSD residual, zero for converged T *)
Theorem C71_sigma d I T Y n m : shape d n -> exchangeable I -> antisym_amps T -> tea_anti Y -> (3 <= m)%nat ->
  let H := fock_ints (noa d) (nob d) I in
  let E := scf_energy (noa d) (nob d) I + cc_energy d H T in
  let phi := tea_op d Y (cc_state d T m) in
  let G := fun D => hamiltonian n I phi D - E * phi D in
  let X := ccsd_resid d H T in
  let s := tea_HR d (hbar_ccsd d H T) T Y in
  (forall a b c, (a < nua d)%nat -> (b < nua d)%nat -> (c < nub d)%nat -> ann (vb d c) (ann (va d b) (ann (va d a) G)) (cc_ref d) = tea_aab s a b c).
Proof.
  intros (E1 & E2) HI HT HY Hm H E phi G X s.
  assert (Q : G = tea_defect d I T Y n m 0) by (apply ext_state; intros D; unfold tea_defect, G, E, H, phi; ring). rewrite Q.
  intros.
  etransitivity; [apply (tea_comp_aab d I T Y n m E1 E2 HI HT HY Hm 0 a b c); assumption|]. fold H X s. ring.
Qed.
(** Roots of the program are solutions of the Schroedinger equation on the determinants of the method, with total energy E + w *)
Theorem C71_schroedinger d I T Y n m w : shape d n -> exchangeable I -> antisym_amps T -> tea_anti Y -> (3 <= m)%nat ->
  let H := fock_ints (noa d) (nob d) I in
  let E := scf_energy (noa d) (nob d) I + cc_energy d H T in
  same_amps d (ccsd_resid d H T) zero_amps ->
  (tea_root d (tea_HR d (hbar_ccsd d H T) T Y) Y w <-> solves_on (tea_space n (cc_ref d)) n I (E + w) (tea_op d Y (cc_state d T m))).
Proof. intros (E1 & E2) HI HT HY Hm H E HR. symmetry. exact (tea_solves d I T Y n m E1 E2 HI HT HY Hm w HR). Qed.
(** The sigma vector is antisymmetric *)
Theorem C71_antisym d H T Y : tea_anti (tea_HR d H T Y).
Proof. unfold tea_anti. intros; cbn [tea_HR tea_aab]; unfold tear_x3b_4; ring. Qed.
(** From the integrals of the molecule to the root: frozen core, fixed point of the CCSD iteration, similarity-transformed Hamiltonian, sigma vector *)
Theorem C71_chain e1 e2 s T Y shift w m : (forall p q r t, e2 p q r t = e2 q p t r) -> (s_noa s <= s_norb s)%nat -> (s_nob s <= s_norb s)%nat ->
  antisym_amps T -> tea_anti Y -> (3 <= m)%nat ->
  let d := sys_dims s in
  let H := fock_ints (s_noa s) (s_nob s) (valence e1 e2 (s_nf s)) in
  let h p q := h_a (valence e1 e2 (s_nf s)) p q in
  let e p q r t := e2 (s_nf s + p)%nat (s_nf s + q)%nat (s_nf s + r)%nat (s_nf s + t)%nat in
  let phi := tea_op d Y (cc_state d T m) in
  regular d shift H -> same_amps d (ccsd_iter d shift H T) T ->
  holds H (sort_hamiltonian s (get_hamiltonian e1 e2 s true)) /\
  (tea_root d (tea_HR d (hbar_ccsd d H T) T Y) Y w <->
   forall D, tea_space (s_norb s) (reference (s_noa s) (s_nob s)) D ->
     hamiltonian_r (s_norb s) h e phi D = (hf_energy e1 e2 s + cc_energy d H T + w - frozen_core_energy e1 e2 s) * phi D).
Proof.
  intros He Ha Hb HT HY Hm d H h e phi Rg Fx. assert (K := chain_facts e1 e2 s T shift He Ha Hb HT Rg Fx). cbn zeta in K. destruct K as (K1 & K2 & K3 & K4 & K5 & K6).
  split; [exact K1|]. fold h e in K5. rewrite K5. assert (S := C71_schroedinger _ _ T Y _ m w K2 K3 HT HY Hm K4). cbn zeta in S. etransitivity; [exact S|].
  fold d H in K6. rewrite K6. reflexivity.
Qed.

(** * Left IP vectors *)
Definition ip_dot (d : dims) (L Y : ipv) : R := sumn (noa d) (fun i => ip_a L i * ip_a Y i) + 1 / 2 * sumn (noa d) (fun i => sumn (nua d) (fun a => sumn (noa d) (fun j => ip_aa L i a j * ip_aa Y i a j))) + sumn (noa d) (fun i => sumn (nub d) (fun a => sumn (nob d) (fun j => ip_ab L i a j * ip_ab Y i a j))).
Theorem C72_ip_adjoint d H T L Y : antisym_ints H -> antisym_amps T -> ip_anti L -> ip_anti Y -> ip_dot d L (ip_HR d H T Y) = ip_dot d (ip_LH d H T L) Y.
Proof.
  intros HH HT HL HY.
  change (den (denv [noa d; nua d; nob d; nub d]) (tenv (iplr_arrays d H T L Y)) (r_ip_lhs 0) (venv [])
        = den (denv [noa d; nua d; nob d; nub d]) (tenv (iplr_arrays d H T L Y)) (r_ip_rhs 0) (venv [])).
  apply (same_tab_sound _ _ iplr_gens (length (iplr_arrays d H T L Y)) iplr_tab (fun x => x) [0; 1; 2; 3]%nat).
  - vm_compute. reflexivity.
  - reflexivity.
  - repeat (apply Forall_cons; [first [sym1|okswap HL|okswap HY]|]); apply Forall_nil.
  - vm_compute. reflexivity.
Qed.
(** ... in particular for the similarity-transformed Hamiltonian the program uses *)
Theorem C72_ip_adjoint_hbar d H T L Y : antisym_ints H -> antisym_amps T -> ip_anti L -> ip_anti Y ->
  let HB := hbar_ccsd d H T in ip_dot d L (ip_HR d HB T Y) = ip_dot d (ip_LH d HB T L) Y.
Proof.
  intros HH HT HL HY HB. change (ip_dot d L (ip_HR d (fix_ints HB) T Y) = ip_dot d (ip_LH d (fix_ints HB) T L) Y).
  apply C72_ip_adjoint; [apply fix_ints_antisym, hbar_primary|..]; assumption.
Qed.
(** Left and right eigenvectors of different roots are orthogonal *)
Lemma ip_dot_sym d L Y : ip_dot d L Y = ip_dot d Y L.
Proof. unfold ip_dot. repeat apply (f_equal2 Rplus); try apply (f_equal2 Rmult eq_refl); repeat (apply sumn_ext; intros ? _); ring. Qed.
Lemma ip_dot_root d L S Y w : ip_root d S Y w -> ip_dot d L S = w * ip_dot d L Y.
Proof.
  intros (R1 & R2 & R3). unfold ip_dot. rewrite !Rmult_plus_distr_l, <- !(Rmult_assoc w (1 / 2)), !(Rmult_comm w (1 / 2)), !Rmult_assoc.
  repeat apply (f_equal2 Rplus); try apply (f_equal2 Rmult eq_refl); repeat (rewrite <- sumn_scal; apply sumn_ext; intros ? ?); rewrite ?R1, ?R2, ?R3 by assumption; ring.
Qed.
Theorem C72_ip_biorthogonal d H T L Y w1 w2 : antisym_ints H -> antisym_amps T -> ip_anti L -> ip_anti Y ->
  let HB := hbar_ccsd d H T in ip_root d (ip_LH d HB T L) L w1 -> ip_root d (ip_HR d HB T Y) Y w2 -> w1 <> w2 -> ip_dot d L Y = 0.
Proof.
  intros HH HT HL HY HB R1 R2 Hw. assert (E := C72_ip_adjoint_hbar d H T L Y HH HT HL HY). cbn zeta in E. fold HB in E.
  rewrite (ip_dot_root d L _ Y w2 R2), (ip_dot_sym d (ip_LH d HB T L)), (ip_dot_root d Y _ L w1 R1), (ip_dot_sym d Y L) in E.
  assert (Z : (w2 - w1) * ip_dot d L Y = 0) by lra. apply Rmult_integral in Z as [Z|Z]; [exfalso; lra|exact Z].
Qed.

(** * Left EA vectors *)
Definition ea_dot (d : dims) (L Y : eav) : R := sumn (nua d) (fun a => ea_a L a * ea_a Y a) + 1 / 2 * sumn (nua d) (fun a => sumn (nua d) (fun b => sumn (noa d) (fun i => ea_aa L a b i * ea_aa Y a b i))) + sumn (nua d) (fun a => sumn (nub d) (fun b => sumn (nob d) (fun i => ea_ab L a b i * ea_ab Y a b i))).
Theorem C72_ea_adjoint d H T L Y : antisym_ints H -> antisym_amps T -> ea_anti L -> ea_anti Y -> ea_dot d L (ea_HR d H T Y) = ea_dot d (ea_LH d H T L) Y.
Proof.
  intros HH HT HL HY.
  change (den (denv [noa d; nua d; nob d; nub d]) (tenv (ealr_arrays d H T L Y)) (r_ea_lhs 0) (venv [])
        = den (denv [noa d; nua d; nob d; nub d]) (tenv (ealr_arrays d H T L Y)) (r_ea_rhs 0) (venv [])).
  apply (same_tab_sound _ _ ealr_gens (length (ealr_arrays d H T L Y)) ealr_tab (fun x => x) [0; 1; 2; 3]%nat).
  - vm_compute. reflexivity.
  - reflexivity.
  - repeat (apply Forall_cons; [first [sym1|okswap HL|okswap HY]|]); apply Forall_nil.
  - vm_compute. reflexivity.
Qed.
(** ... in particular for the similarity-transformed Hamiltonian the program uses *)
Theorem C72_ea_adjoint_hbar d H T L Y : antisym_ints H -> antisym_amps T -> ea_anti L -> ea_anti Y ->
  let HB := hbar_ccsd d H T in ea_dot d L (ea_HR d HB T Y) = ea_dot d (ea_LH d HB T L) Y.
Proof.
  intros HH HT HL HY HB. change (ea_dot d L (ea_HR d (fix_ints HB) T Y) = ea_dot d (ea_LH d (fix_ints HB) T L) Y).
  apply C72_ea_adjoint; [apply fix_ints_antisym, hbar_primary|..]; assumption.
Qed.
(** Left and right eigenvectors of different roots are orthogonal *)
Lemma ea_dot_sym d L Y : ea_dot d L Y = ea_dot d Y L.
Proof. unfold ea_dot. repeat apply (f_equal2 Rplus); try apply (f_equal2 Rmult eq_refl); repeat (apply sumn_ext; intros ? _); ring. Qed.
Lemma ea_dot_root d L S Y w : ea_root d S Y w -> ea_dot d L S = w * ea_dot d L Y.
Proof.
  intros (R1 & R2 & R3). unfold ea_dot. rewrite !Rmult_plus_distr_l, <- !(Rmult_assoc w (1 / 2)), !(Rmult_comm w (1 / 2)), !Rmult_assoc.
  repeat apply (f_equal2 Rplus); try apply (f_equal2 Rmult eq_refl); repeat (rewrite <- sumn_scal; apply sumn_ext; intros ? ?); rewrite ?R1, ?R2, ?R3 by assumption; ring.
Qed.
Theorem C72_ea_biorthogonal d H T L Y w1 w2 : antisym_ints H -> antisym_amps T -> ea_anti L -> ea_anti Y ->
  let HB := hbar_ccsd d H T in ea_root d (ea_LH d HB T L) L w1 -> ea_root d (ea_HR d HB T Y) Y w2 -> w1 <> w2 -> ea_dot d L Y = 0.
Proof.
  intros HH HT HL HY HB R1 R2 Hw. assert (E := C72_ea_adjoint_hbar d H T L Y HH HT HL HY). cbn zeta in E. fold HB in E.
  rewrite (ea_dot_root d L _ Y w2 R2), (ea_dot_sym d (ea_LH d HB T L)), (ea_dot_root d Y _ L w1 R1), (ea_dot_sym d Y L) in E.
  assert (Z : (w2 - w1) * ea_dot d L Y = 0) by lra. apply Rmult_integral in Z as [Z|Z]; [exfalso; lra|exact Z].
Qed.

(** * Cases: two electrons in two orbitals that exchange as a pair (C63_instance), H = ((0, 2), (2, 3)), T2 = -1/2, E = -1 *)
Ltac one := repeat match goal with H : (_ < 1)%nat |- _ => apply Nat.lt_1_r in H; subst end.
Ltac value := cbv -[IZR Rplus Rmult Rminus Ropp Rdiv Rinv]; field_simplify; lra.
Definition ex_ok : Prop := shape ex_dims 2 /\ exchangeable ex_ints /\ antisym_amps ex_amps /\ same_amps ex_dims (ccsd_resid ex_dims (fock_ints 1 1 ex_ints) ex_amps) zero_amps.
Lemma ex_okay : ex_ok. Proof. destruct C63_instance as (A & B & C & _ & R & _). now repeat split; try apply A; try apply B; try apply C; try apply R. Qed.
Notation ex_bar := (hbar_ccsd ex_dims (fock_ints 1 1 ex_ints) ex_amps).
(** removing an electron leaves one in the lower orbital (total energy 0, w = 1) or in the upper one (3/2, w = 5/2) *)
Definition ex_ip : ipv := mkIp (fun _ => 1) (fun _ _ _ => 0) (fun _ _ _ => 0).
Definition ex_ip2 : ipv := mkIp (fun _ => 0) (fun _ _ _ => 0) (fun _ _ _ => 1).
Example C66_instance : ex_ok /\ ip_anti ex_ip /\ ip_anti ex_ip2 /\
  ip_root ex_dims (ip_HR ex_dims ex_bar ex_amps ex_ip) ex_ip 1 /\ ip_root ex_dims (ip_HR ex_dims ex_bar ex_amps ex_ip2) ex_ip2 (5 / 2).
Proof.
  split; [exact ex_okay|]. split; [intros ? ? ?; cbn; ring|]. split; [intros ? ? ?; cbn; ring|].
  split; (split; [|split]); intros; cbn [ex_dims noa nua nob nub] in *; one; value.
Qed.
(** attaching one: the lower orbital doubly occupied (3/2, w = 5/2), or the upper one (3, w = 4) *)
Definition ex_ea : eav := mkEa (fun _ => 1) (fun _ _ _ => 0) (fun _ _ _ => 0).
Definition ex_ea2 : eav := mkEa (fun _ => 0) (fun _ _ _ => 0) (fun _ _ _ => 1).
Example C67_instance : ex_ok /\ ea_anti ex_ea /\ ea_anti ex_ea2 /\
  ea_root ex_dims (ea_HR ex_dims ex_bar ex_amps ex_ea) ex_ea (5 / 2) /\ ea_root ex_dims (ea_HR ex_dims ex_bar ex_amps ex_ea2) ex_ea2 4.
Proof.
  split; [exact ex_okay|]. split; [intros ? ? ?; cbn; ring|]. split; [intros ? ? ?; cbn; ring|].
  split; (split; [|split]); intros; cbn [ex_dims noa nua nob nub] in *; one; value.
Qed.
(** removing both: no electrons (0, w = 1) *)
Definition ex_dip : dipv := mkDip (fun _ _ => 1) (fun _ _ _ _ => 0) (fun _ _ _ _ => 0).
Example C69_instance : ex_ok /\ dip_anti ex_dip /\ dip_root ex_dims (dip_HR ex_dims ex_bar ex_amps ex_dip) ex_dip 1.
Proof.
  split; [exact ex_okay|]. split; [split; intros ? ? ? ?; cbn; ring|].
  split; [|split]; intros; cbn [ex_dims noa nua nob nub] in *; one; value.
Qed.
(** Left vectors: the roots 1 and 5/2 of C66_instance are orthogonal to the left eigenvectors of the other root *)
Example C72_instance : ex_ok /\ ip_root ex_dims (ip_LH ex_dims ex_bar ex_amps ex_ip) ex_ip 1 /\ ip_dot ex_dims ex_ip ex_ip = 1 /\ ip_dot ex_dims ex_ip ex_ip2 = 0.
Proof.
  split; [exact ex_okay|]. split; [split; [|split]; intros; cbn [ex_dims noa nua nob nub] in *; one; value|]. split; value.
Qed.

Print Assumptions C66_sigma.
Print Assumptions C66_schroedinger.
Print Assumptions C66_antisym.
Print Assumptions C66_chain.
Print Assumptions C67_sigma.
Print Assumptions C67_schroedinger.
Print Assumptions C67_antisym.
Print Assumptions C67_chain.
Print Assumptions C68_sigma.
Print Assumptions C68_schroedinger.
Print Assumptions C68_antisym.
Print Assumptions C68_chain.
Print Assumptions C69_sigma.
Print Assumptions C69_schroedinger.
Print Assumptions C69_antisym.
Print Assumptions C69_chain.
Print Assumptions C70_sigma_2p.
Print Assumptions C70_schroedinger_2p.
Print Assumptions C70_chain_2p.
Print Assumptions C70_sigma.
Print Assumptions C70_schroedinger.
Print Assumptions C70_antisym.
Print Assumptions C70_chain.
Print Assumptions C71_sigma.
Print Assumptions C71_schroedinger.
Print Assumptions C71_antisym.
Print Assumptions C71_chain.
Print Assumptions C72_ip_adjoint.
Print Assumptions C72_ip_adjoint_hbar.
Print Assumptions C72_ip_biorthogonal.
Print Assumptions C72_ea_adjoint.
Print Assumptions C72_ea_adjoint_hbar.
Print Assumptions C72_ea_biorthogonal.
