(** Specification vocabulary: Rayleigh-Schroedinger perturbation theory with the Fock operator as the unperturbed Hamiltonian (Moller-Plesset). *)
From Coq Require Import Reals Arith NArith.
From Verif Require Import RSum IntegralsModel TensorObjs FockSpec FockCcSpec CrccSpec Cc2Spec.
Local Open Scope R_scope.
(** F, the Fock operator, and W = H - F *)
Definition unperturbed (d : dims) (n : nat) (I : integrals) (psi : state) : state := hamiltonian n (fock_operator (noa d) (nob d) I) psi.
Definition fluctuation (d : dims) (n : nat) (I : integrals) (psi : state) : state := fun D => hamiltonian n I psi D - unperturbed d n I psi D.
(** E0 = <ref|F|ref>: the sum of the occupied orbital energies; E1 = <ref|W|ref> *)
Definition order0 (d : dims) (I : integrals) : R := sumn (noa d) (fun i => fock_a (noa d) (nob d) I i i) + sumn (nob d) (fun i => fock_b (noa d) (nob d) I i i).
Definition order1 (d : dims) (n : nat) (I : integrals) : R := fluctuation d n I (pure (reference (noa d) (nob d))) (reference (noa d) (nob d)).
(** The first-order state: sum over the doubly excited determinants K, each once, of <K|H|ref> / (e_i + e_j - e_a - e_b) |K> *)
Definition first_order_amps (d : dims) (n : nat) (I : integrals) : amps :=
  let ref := reference (noa d) (nob d) in
  let K := hamiltonian n I (pure ref) in
  let ea p := fock_a (noa d) (nob d) I p p in
  let eb p := fock_b (noa d) (nob d) I p p in
  mkAmps (fun _ _ => 0) (fun _ _ => 0)
    (fun a b i j => along2 ref (noa d) (noa d) al al K a b i j / (ea i + ea j - ea (noa d + a)%nat - ea (noa d + b)%nat))
    (fun a b i j => along2 ref (noa d) (nob d) al be K a b i j / (ea i + eb j - ea (noa d + a)%nat - eb (nob d + b)%nat))
    (fun a b i j => along2 ref (nob d) (nob d) be be K a b i j / (eb i + eb j - eb (nob d + a)%nat - eb (nob d + b)%nat))
    no_triples no_triples no_triples no_triples.
Definition first_order (d : dims) (n : nat) (I : integrals) : state := cluster_sd d (first_order_amps d n I) (pure (reference (noa d) (nob d))).
(** <psi1|phi> for the first-order state psi1 *)
Definition first_order_bra (d : dims) (n : nat) (I : integrals) (phi : state) : R :=
  left_sd d (first_order_amps d n I) phi - phi (reference (noa d) (nob d)).
(** Canonical Hartree-Fock orbitals: diagonal Fock matrices *)
Definition canonical (d : dims) (n : nat) (I : integrals) : Prop :=
  forall p q, (p < n)%nat -> (q < n)%nat -> p <> q -> fock_a (noa d) (nob d) I p q = 0 /\ fock_b (noa d) (nob d) I p q = 0.
(** No zero denominator among the doubly excited determinants *)
Definition gapped (d : dims) (I : integrals) : Prop :=
  let ea p := fock_a (noa d) (nob d) I p p in
  let eb p := fock_b (noa d) (nob d) I p p in
  (forall a b i j, (a < nua d)%nat -> (b < nua d)%nat -> (i < noa d)%nat -> (j < noa d)%nat -> ea i + ea j - ea (noa d + a)%nat - ea (noa d + b)%nat <> 0) /\
  (forall a b i j, (a < nua d)%nat -> (b < nub d)%nat -> (i < noa d)%nat -> (j < nob d)%nat -> ea i + eb j - ea (noa d + a)%nat - eb (nob d + b)%nat <> 0) /\
  (forall a b i j, (a < nub d)%nat -> (b < nub d)%nat -> (i < nob d)%nat -> (j < nob d)%nat -> eb i + eb j - eb (nob d + a)%nat - eb (nob d + b)%nat <> 0).
