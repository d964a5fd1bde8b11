(** EOMCCSD against second quantisation: the sigma vector, the excitation energies and r0 of the program are those of the state
    (r0 + R) exp(T) |ref> in the Schroedinger equation of FockSpec.v, projected on the reference and the singly and doubly excited determinants. *)
From Coq Require Import Reals Arith NArith List Bool Lia Lra.
From Verif Require Import RSum IntegralsModel TensorObjs TensorSpec CcsdModel CcsdUpdate LeftModel EomModel CcsdProps FockSpec FockCar FockCcSpec FockExp FockLevel FockState FockNear FockProj FockProps FockEom FockEomProj.
Import ListNotations.
Local Open Scope R_scope.

(** (r0 + R) exp(T) |ref> *)
Definition eom_state (d : dims) (T Y : amps) (r0 : R) (m : nat) : state := fun D => r0 * cc_state d T m D + cluster_sd d Y (cc_state d T m) D.

(** Converged T: the program's EOMCCSD eigenvalue equation together with its r0 equation is the projected Schroedinger equation of that state, with total
    energy E + w *)
Theorem C64_schroedinger d I T Y n m r0 w : shape d n -> exchangeable I -> antisym_amps T -> antisym_amps Y -> (4 <= m)%nat ->
  let H := fock_ints (noa d) (nob d) I in
  let HB := hbar_ccsd d H T in
  let E := scf_energy (noa d) (nob d) I + cc_energy d H T in
  same_amps d (ccsd_resid d H T) zero_amps ->
  (solves n I (cc_ref d) (E + w) (eom_state d T Y r0 m) <-> same_amps d (eom_HR d HB T Y) (scale_amps w Y) /\ r0_sum d HB Y = w * r0).
Proof. intros (E1 & E2) HI HT HY Hm H HB E HR. exact (eom_solves d I T Y n m E1 E2 HI HT HY Hm r0 w HR). Qed.

(** A root w <> 0 of the program with the r0 that get_r0 returns *)
Theorem C64_root d I T Y n m w : shape d n -> exchangeable I -> antisym_amps T -> antisym_amps Y -> (4 <= m)%nat -> w <> 0 ->
  let H := fock_ints (noa d) (nob d) I in
  let HB := hbar_ccsd d H T in
  let E := scf_energy (noa d) (nob d) I + cc_energy d H T in
  same_amps d (ccsd_resid d H T) zero_amps ->
  (same_amps d (eom_HR d HB T Y) (scale_amps w Y) <-> solves n I (cc_ref d) (E + w) (eom_state d T Y (get_r0 d HB Y w) m)) /\
  (forall r0, solves n I (cc_ref d) (E + w) (eom_state d T Y r0 m) -> r0 = get_r0 d HB Y w).
Proof.
  intros Hd HI HT HY Hm Hw H HB E HR.
  assert (K := fun r0 => C64_schroedinger d I T Y n m r0 w Hd HI HT HY Hm HR). fold H HB E in K. split.
  - rewrite K. split; [intros S; split; [exact S|unfold get_r0; now field]|now intros (S & _)].
  - intros r0 S. apply K in S as (_ & S). unfold get_r0. rewrite S. now field.
Qed.

(** The sigma vector itself: components of (H - E) R exp(T) |ref> for any R, less the products with lower ones *)
Theorem C64_sigma d I T Y n m : shape d n -> exchangeable I -> antisym_amps T -> antisym_amps Y -> (4 <= m)%nat ->
  let H := fock_ints (noa d) (nob d) I in
  let HB := hbar_ccsd d H T in
  let E := scf_energy (noa d) (nob d) I + cc_energy d H T in
  let psi := cc_state d T m in
  let G := fun D => hamiltonian n I (cluster_sd d Y psi) D - E * cluster_sd d Y psi D in
  let g := r0_sum d HB Y in
  let s := eom_HR d HB T Y in
  same_amps d (ccsd_resid d H T) zero_amps ->
  G (cc_ref d) = g /\
  (forall a i, (a < nua d)%nat -> (i < noa d)%nat -> along1 (cc_ref d) (noa d) al G a i = x_a s a i + g * x_a T a i) /\
  (forall a i, (a < nub d)%nat -> (i < nob d)%nat -> along1 (cc_ref d) (nob d) be G a i = x_b s a i + g * x_b T a i) /\
  (forall a b i j, (a < nua d)%nat -> (b < nua d)%nat -> (i < noa d)%nat -> (j < noa d)%nat ->
    along2 (cc_ref d) (noa d) (noa d) al al G a b i j = x_aa s a b i j
      + (x_a T a i * x_a s b j - x_a T a j * x_a s b i - x_a T b i * x_a s a j + x_a T b j * x_a s a i)
      + g * (x_aa T a b i j + x_a T a i * x_a T b j - x_a T b i * x_a T a j)) /\
  (forall a b i j, (a < nua d)%nat -> (b < nub d)%nat -> (i < noa d)%nat -> (j < nob d)%nat ->
    along2 (cc_ref d) (noa d) (nob d) al be G a b i j = x_ab s a b i j + (x_a T a i * x_b s b j + x_b T b j * x_a s a i)
      + g * (x_ab T a b i j + x_a T a i * x_b T b j)) /\
  (forall a b i j, (a < nub d)%nat -> (b < nub d)%nat -> (i < nob d)%nat -> (j < nob d)%nat ->
    along2 (cc_ref d) (nob d) (nob d) be be G a b i j = x_bb s a b i j
      + (x_b T a i * x_b s b j - x_b T a j * x_b s b i - x_b T b i * x_b s a j + x_b T b j * x_b s a i)
      + g * (x_bb T a b i j + x_b T a i * x_b T b j - x_b T b i * x_b T a j)).
Proof.
  intros (E1 & E2) HI HT HY Hm H HB E psi G g s HR.
  assert (Q : G = eom_defect d I T Y n m 0 0).
  { apply ext_state; intros D. rewrite eom_split. unfold G, E, H, psi. ring. }
  rewrite Q. split; [rewrite v0 by assumption; fold H HB g; ring|].
  split; [intros; rewrite v1a by assumption; fold H HB g s; ring|]. split; [intros; rewrite v1b by assumption; fold H HB g s; ring|].
  split; [intros; rewrite v2aa by assumption; fold H HB g s; ring|]. split; [intros; rewrite v2ab by assumption; fold H HB g s; ring|].
  intros; rewrite v2bb by assumption; fold H HB g s; ring.
Qed.

(** The whole chain: molecular integrals, frozen core, CCSD iteration, similarity-transformed Hamiltonian, EOMCCSD root, r0, total energy *)
Theorem C64_eomccsd e1 e2 s T Y shift w m : (forall p q r t, e2 p q r t = e2 q p t r) -> (s_noa s <= s_norb s)%nat -> (s_nob s <= s_norb s)%nat ->
  antisym_amps T -> antisym_amps Y -> (4 <= m)%nat -> w <> 0 ->
  let d := sys_dims s in
  let H := fock_ints (s_noa s) (s_nob s) (valence e1 e2 (s_nf s)) in
  let HB := hbar_ccsd d H T in
  let h p q := h_a (valence e1 e2 (s_nf s)) p q in
  let e p q r t := e2 (s_nf s + p)%nat (s_nf s + q)%nat (s_nf s + r)%nat (s_nf s + t)%nat in
  let phi := eom_state d T Y (get_r0 d HB Y w) m in
  regular d shift H -> same_amps d (ccsd_iter d shift H T) T ->
  holds H (sort_hamiltonian s (get_hamiltonian e1 e2 s true)) /\
  (same_amps d (eom_HR d HB T Y) (scale_amps w Y) <->
   forall D, near (s_norb s) (reference (s_noa s) (s_nob s)) D ->
     hamiltonian_r (s_norb s) h e phi D = (hf_energy e1 e2 s + cc_energy d H T + w - frozen_core_energy e1 e2 s) * phi D).
Proof.
  intros He Ha Hb HT HY Hm Hw d H HB h e phi Rg Fx.
  assert (Hd : shape d (s_norb s)) by (split; cbn [d sys_dims noa nua nob nub]; lia).
  assert (HX : exchangeable (valence e1 e2 (s_nf s))) by (split; intros; apply He).
  assert (HR : hamiltonian_r (s_norb s) h e = hamiltonian (s_norb s) (valence e1 e2 (s_nf s))).
  { rewrite C63_textbook by (intros; apply He). reflexivity. }
  split; [now apply C63_arrays|]. rewrite HR. apply C51_ccsd_fixed_point in Fx; [|exact HT|exact Rg].
  assert (R1 := proj1 (C64_root d _ T Y (s_norb s) m w Hd HX HT HY Hm Hw Fx)). cbn zeta in R1.
  etransitivity; [exact R1|]. rewrite (C63_reference_energy e1 e2 s He).
  replace (frozen_core_energy e1 e2 s + scf_energy (s_noa s) (s_nob s) (valence e1 e2 (s_nf s)) + cc_energy d H T + w - frozen_core_energy e1 e2 s)
    with (scf_energy (s_noa s) (s_nob s) (valence e1 e2 (s_nf s)) + cc_energy d H T + w) by ring.
  reflexivity.
Qed.

(** A case: two electrons in two orbitals that exchange as a pair, H = ((0, 2), (2, 3)); the ground state is at -1, the excited state at 4, so w = 5, r0 = 2/5 *)
Definition ex_root : amps := mkAmps (fun _ _ => 0) (fun _ _ => 0) (fun _ _ _ _ => 0) (fun _ _ _ _ => 1) (fun _ _ _ _ => 0)
  (fun _ _ _ _ _ _ => 0) (fun _ _ _ _ _ _ => 0) (fun _ _ _ _ _ _ => 0) (fun _ _ _ _ _ _ => 0).
Example C64_instance :
  let H := fock_ints 1 1 ex_ints in
  let HB := hbar_ccsd ex_dims H ex_amps in
  shape ex_dims 2 /\ exchangeable ex_ints /\ antisym_amps ex_amps /\ antisym_amps ex_root /\
  same_amps ex_dims (ccsd_resid ex_dims H ex_amps) zero_amps /\
  same_amps ex_dims (eom_HR ex_dims HB ex_amps ex_root) (scale_amps 5 ex_root) /\ get_r0 ex_dims HB ex_root 5 = 2 / 5.
Proof.
  destruct C63_instance as (A & B & C & _ & R & _). intros H HB. split; [exact A|]. split; [exact B|]. split; [exact C|]. split; [constructor; intros; cbn; ring|]. split; [exact R|].
  split.
  - constructor; intros; cbn [ex_dims noa nua nob nub] in *; repeat match goal with H : (_ < 1)%nat |- _ => apply Nat.lt_1_r in H; subst end;
      cbn [eom_HR scale_amps x_a x_b x_aa x_ab x_bb]; cbv -[IZR Rplus Rmult Rminus Ropp Rdiv Rinv]; field_simplify; lra.
  - cbv -[IZR Rplus Rmult Rminus Ropp Rdiv Rinv]; field_simplify; lra.
Qed.

Print Assumptions C64_schroedinger.
Print Assumptions C64_root.
Print Assumptions C64_sigma.
Print Assumptions C64_eomccsd.
