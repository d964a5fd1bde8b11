(** The coupled-cluster side of the specification: cluster operator, determinants near the reference, Fock matrices and antisymmetrised integrals of a
    Hamiltonian in blocks, frozen core. *)
From Coq Require Import Reals Arith NArith List.
From Verif Require Import RSum IntegralsModel TensorObjs FockSpec.
Import ListNotations.
Local Open Scope R_scope.

(** Excitation operators: T = sum t_ai a^+ i + 1/4 sum t_abij a^+ b^+ j i and so on, for the amplitude arrays of the program (ccpy/models/operators.py,
    ClusterOperator: particle axes first). *)
Definition single_op (nu no : nat) (t : nat -> nat -> R) (so : nat -> nat) (psi : state) : state := fun D =>
  sumn nu (fun a => sumn no (fun i => t a i * cre (so (no + a)%nat) (ann (so i) psi) D)).
Definition double_op (nu1 nu2 no1 no2 : nat) (t : nat -> nat -> nat -> nat -> R) (s1 s2 : nat -> nat) (psi : state) : state := fun D =>
  sumn nu1 (fun a => sumn nu2 (fun b => sumn no1 (fun i => sumn no2 (fun j =>
    t a b i j * cre (s1 (no1 + a)%nat) (cre (s2 (no2 + b)%nat) (ann (s2 j) (ann (s1 i) psi))) D)))).
Definition cluster_sd (d : dims) (T : amps) (psi : state) : state := fun D =>
  single_op (nua d) (noa d) (x_a T) al psi D + single_op (nub d) (nob d) (x_b T) be psi D
  + / 4 * double_op (nua d) (nua d) (noa d) (noa d) (x_aa T) al al psi D
  + double_op (nua d) (nub d) (noa d) (nob d) (x_ab T) al be psi D
  + / 4 * double_op (nub d) (nub d) (nob d) (nob d) (x_bb T) be be psi D.

(** Moving one electron, keeping its spin, from an occupied to an empty one of n orbitals *)
Definition moved (n : nat) (D D' : N) : Prop := exists (so : nat -> nat) (p q : nat), (so = al \/ so = be) /\ (p < n)%nat /\ (q < n)%nat /\
  N.testbit D (N.of_nat (so p)) = true /\ N.testbit D (N.of_nat (so q)) = false /\ D' = N.setbit (N.clearbit D (N.of_nat (so p))) (N.of_nat (so q)).
(** The reference and the singly and doubly excited determinants *)
Definition near (n : nat) (D0 D : N) : Prop := D = D0 \/ moved n D0 D \/ exists D1, moved n D0 D1 /\ moved n D1 D.

(** What the program's arrays must hold for the Hamiltonian of FockSpec.v: the Fock matrices and the antisymmetrised two-electron integrals, in blocks of occupied
    and unoccupied orbitals (ccpy/models/integrals.py: build_f, build_v and SortedIntegral; FockProps.v shows that they do). *)
Definition fock_a (na nb : nat) (I : integrals) (p q : nat) : R :=
  h_a I p q + sumn na (fun k => w_aa I p k q k - w_aa I p k k q) + sumn nb (fun k => w_ab I p k q k).
Definition fock_b (na nb : nat) (I : integrals) (p q : nat) : R :=
  h_b I p q + sumn na (fun k => w_ab I k p k q) + sumn nb (fun k => w_bb I p k q k - w_bb I p k k q).
Definition anti_aa (I : integrals) (p q r s : nat) : R := w_aa I p q r s - w_aa I p q s r.
Definition anti_bb (I : integrals) (p q r s : nat) : R := w_bb I p q r s - w_bb I p q s r.
Definition fock_ints (na nb : nat) (I : integrals) : ints :=
  mkInts (fun p q => fock_a na nb I p q)
    (fun p q => fock_a na nb I p (na + q)%nat)
    (fun p q => fock_a na nb I (na + p)%nat q)
    (fun p q => fock_a na nb I (na + p)%nat (na + q)%nat)
    (fun p q => fock_b na nb I p q)
    (fun p q => fock_b na nb I p (nb + q)%nat)
    (fun p q => fock_b na nb I (nb + p)%nat q)
    (fun p q => fock_b na nb I (nb + p)%nat (nb + q)%nat)
    (fun p q r s => anti_aa I p q r s)
    (fun p q r s => anti_aa I p q r (na + s)%nat)
    (fun p q r s => anti_aa I p q (na + r)%nat s)
    (fun p q r s => anti_aa I p q (na + r)%nat (na + s)%nat)
    (fun p q r s => anti_aa I p (na + q)%nat r s)
    (fun p q r s => anti_aa I p (na + q)%nat r (na + s)%nat)
    (fun p q r s => anti_aa I p (na + q)%nat (na + r)%nat s)
    (fun p q r s => anti_aa I p (na + q)%nat (na + r)%nat (na + s)%nat)
    (fun p q r s => anti_aa I (na + p)%nat q r s)
    (fun p q r s => anti_aa I (na + p)%nat q r (na + s)%nat)
    (fun p q r s => anti_aa I (na + p)%nat q (na + r)%nat s)
    (fun p q r s => anti_aa I (na + p)%nat q (na + r)%nat (na + s)%nat)
    (fun p q r s => anti_aa I (na + p)%nat (na + q)%nat r s)
    (fun p q r s => anti_aa I (na + p)%nat (na + q)%nat r (na + s)%nat)
    (fun p q r s => anti_aa I (na + p)%nat (na + q)%nat (na + r)%nat s)
    (fun p q r s => anti_aa I (na + p)%nat (na + q)%nat (na + r)%nat (na + s)%nat)
    (fun p q r s => w_ab I p q r s)
    (fun p q r s => w_ab I p q r (nb + s)%nat)
    (fun p q r s => w_ab I p q (na + r)%nat s)
    (fun p q r s => w_ab I p q (na + r)%nat (nb + s)%nat)
    (fun p q r s => w_ab I p (nb + q)%nat r s)
    (fun p q r s => w_ab I p (nb + q)%nat r (nb + s)%nat)
    (fun p q r s => w_ab I p (nb + q)%nat (na + r)%nat s)
    (fun p q r s => w_ab I p (nb + q)%nat (na + r)%nat (nb + s)%nat)
    (fun p q r s => w_ab I (na + p)%nat q r s)
    (fun p q r s => w_ab I (na + p)%nat q r (nb + s)%nat)
    (fun p q r s => w_ab I (na + p)%nat q (na + r)%nat s)
    (fun p q r s => w_ab I (na + p)%nat q (na + r)%nat (nb + s)%nat)
    (fun p q r s => w_ab I (na + p)%nat (nb + q)%nat r s)
    (fun p q r s => w_ab I (na + p)%nat (nb + q)%nat r (nb + s)%nat)
    (fun p q r s => w_ab I (na + p)%nat (nb + q)%nat (na + r)%nat s)
    (fun p q r s => w_ab I (na + p)%nat (nb + q)%nat (na + r)%nat (nb + s)%nat)
    (fun p q r s => anti_bb I p q r s)
    (fun p q r s => anti_bb I p q r (nb + s)%nat)
    (fun p q r s => anti_bb I p q (nb + r)%nat s)
    (fun p q r s => anti_bb I p q (nb + r)%nat (nb + s)%nat)
    (fun p q r s => anti_bb I p (nb + q)%nat r s)
    (fun p q r s => anti_bb I p (nb + q)%nat r (nb + s)%nat)
    (fun p q r s => anti_bb I p (nb + q)%nat (nb + r)%nat s)
    (fun p q r s => anti_bb I p (nb + q)%nat (nb + r)%nat (nb + s)%nat)
    (fun p q r s => anti_bb I (nb + p)%nat q r s)
    (fun p q r s => anti_bb I (nb + p)%nat q r (nb + s)%nat)
    (fun p q r s => anti_bb I (nb + p)%nat q (nb + r)%nat s)
    (fun p q r s => anti_bb I (nb + p)%nat q (nb + r)%nat (nb + s)%nat)
    (fun p q r s => anti_bb I (nb + p)%nat (nb + q)%nat r s)
    (fun p q r s => anti_bb I (nb + p)%nat (nb + q)%nat r (nb + s)%nat)
    (fun p q r s => anti_bb I (nb + p)%nat (nb + q)%nat (nb + r)%nat s)
    (fun p q r s => anti_bb I (nb + p)%nat (nb + q)%nat (nb + r)%nat (nb + s)%nat).

(** The blocks of an [ints] record by name *)
Definition int_one (H : ints) (sp : spin) (x y : ov) : mat2 :=
  match sp, x, y with
  | Al, Oc, Oc => i_a_oo H
  | Al, Oc, Un => i_a_ov H
  | Al, Un, Oc => i_a_vo H
  | Al, Un, Un => i_a_vv H
  | Be, Oc, Oc => i_b_oo H
  | Be, Oc, Un => i_b_ov H
  | Be, Un, Oc => i_b_vo H
  | Be, Un, Un => i_b_vv H
  end.
Definition int_two (H : ints) (c : scase) (w x y z : ov) : mat4 :=
  match c, w, x, y, z with
  | AA, Oc, Oc, Oc, Oc => i_aa_oooo H
  | AA, Oc, Oc, Oc, Un => i_aa_ooov H
  | AA, Oc, Oc, Un, Oc => i_aa_oovo H
  | AA, Oc, Oc, Un, Un => i_aa_oovv H
  | AA, Oc, Un, Oc, Oc => i_aa_ovoo H
  | AA, Oc, Un, Oc, Un => i_aa_ovov H
  | AA, Oc, Un, Un, Oc => i_aa_ovvo H
  | AA, Oc, Un, Un, Un => i_aa_ovvv H
  | AA, Un, Oc, Oc, Oc => i_aa_vooo H
  | AA, Un, Oc, Oc, Un => i_aa_voov H
  | AA, Un, Oc, Un, Oc => i_aa_vovo H
  | AA, Un, Oc, Un, Un => i_aa_vovv H
  | AA, Un, Un, Oc, Oc => i_aa_vvoo H
  | AA, Un, Un, Oc, Un => i_aa_vvov H
  | AA, Un, Un, Un, Oc => i_aa_vvvo H
  | AA, Un, Un, Un, Un => i_aa_vvvv H
  | AB, Oc, Oc, Oc, Oc => i_ab_oooo H
  | AB, Oc, Oc, Oc, Un => i_ab_ooov H
  | AB, Oc, Oc, Un, Oc => i_ab_oovo H
  | AB, Oc, Oc, Un, Un => i_ab_oovv H
  | AB, Oc, Un, Oc, Oc => i_ab_ovoo H
  | AB, Oc, Un, Oc, Un => i_ab_ovov H
  | AB, Oc, Un, Un, Oc => i_ab_ovvo H
  | AB, Oc, Un, Un, Un => i_ab_ovvv H
  | AB, Un, Oc, Oc, Oc => i_ab_vooo H
  | AB, Un, Oc, Oc, Un => i_ab_voov H
  | AB, Un, Oc, Un, Oc => i_ab_vovo H
  | AB, Un, Oc, Un, Un => i_ab_vovv H
  | AB, Un, Un, Oc, Oc => i_ab_vvoo H
  | AB, Un, Un, Oc, Un => i_ab_vvov H
  | AB, Un, Un, Un, Oc => i_ab_vvvo H
  | AB, Un, Un, Un, Un => i_ab_vvvv H
  | BB, Oc, Oc, Oc, Oc => i_bb_oooo H
  | BB, Oc, Oc, Oc, Un => i_bb_ooov H
  | BB, Oc, Oc, Un, Oc => i_bb_oovo H
  | BB, Oc, Oc, Un, Un => i_bb_oovv H
  | BB, Oc, Un, Oc, Oc => i_bb_ovoo H
  | BB, Oc, Un, Oc, Un => i_bb_ovov H
  | BB, Oc, Un, Un, Oc => i_bb_ovvo H
  | BB, Oc, Un, Un, Un => i_bb_ovvv H
  | BB, Un, Oc, Oc, Oc => i_bb_vooo H
  | BB, Un, Oc, Oc, Un => i_bb_voov H
  | BB, Un, Oc, Un, Oc => i_bb_vovo H
  | BB, Un, Oc, Un, Un => i_bb_vovv H
  | BB, Un, Un, Oc, Oc => i_bb_vvoo H
  | BB, Un, Un, Oc, Un => i_bb_vvov H
  | BB, Un, Un, Un, Oc => i_bb_vvvo H
  | BB, Un, Un, Un, Un => i_bb_vvvv H
  end.
(** [H] holds the arrays of the Hamiltonian object [hm] *)
Definition holds (H : ints) (hm : ham) : Prop :=
  (forall sp x y, exists f, h_one hm sp x y = Some f /\ forall p q, f p q = int_one H sp x y p q) /\
  (forall c w x y z, exists f, h_two hm c w x y z = Some f /\ forall p q r s, f p q r s = int_two H c w x y z p q r s).

(** Hamiltonian of the electrons outside nf frozen (doubly occupied) orbitals: their one-electron part feels the frozen electrons *)
Definition valence (e1 : mat2) (e2 : mat4) (nf : nat) : integrals :=
  let h p q := e1 (nf + p)%nat (nf + q)%nat + sumn nf (fun k => 2 * e2 (nf + p)%nat k (nf + q)%nat k - e2 (nf + p)%nat k k (nf + q)%nat) in
  let w p q r s := e2 (nf + p)%nat (nf + q)%nat (nf + r)%nat (nf + s)%nat in
  mkIntegrals h h w w w.

(** Energy of the reference determinant (Slater-Condon) *)
Definition scf_energy (na nb : nat) (I : integrals) : R :=
  sumn na (fun i => h_a I i i) + sumn nb (fun i => h_b I i i)
  + / 2 * sumn na (fun i => sumn na (fun j => w_aa I i j i j - w_aa I i j j i))
  + sumn na (fun i => sumn nb (fun j => w_ab I i j i j))
  + / 2 * sumn nb (fun i => sumn nb (fun j => w_bb I i j i j - w_bb I i j j i)).
(** Components along the excited determinants: <ref| i^+ a |psi> and <ref| i^+ j^+ b a |psi> *)
Definition along1 (D0 : N) (no : nat) (so : nat -> nat) (psi : state) (a i : nat) : R := cre (so i) (ann (so (no + a)%nat) psi) D0.
Definition along2 (D0 : N) (no1 no2 : nat) (s1 s2 : nat -> nat) (psi : state) (a b i j : nat) : R :=
  cre (s1 i) (cre (s2 j) (ann (s2 (no2 + b)%nat) (ann (s1 (no1 + a)%nat) psi))) D0.
(** Exchanging the two electrons of a same-spin pair *)
Definition exchangeable (I : integrals) : Prop :=
  (forall p q r s, w_aa I p q r s = w_aa I q p s r) /\ (forall p q r s, w_bb I p q r s = w_bb I q p s r).
(** psi solves the Schroedinger equation on the determinants near the reference *)
Definition solves (n : nat) (I : integrals) (D0 : N) (E : R) (psi : state) : Prop := forall D, near n D0 D -> hamiltonian n I psi D = E * psi D.
