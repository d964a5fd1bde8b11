(** Specification vocabulary: the commutator of the Hamiltonian with the double excitations, the adjoint of the cluster operator, and the CCSD(T) correction.
    [oa i], [va d a] are the occupied and unoccupied alpha spin-orbitals, [ob i], [vb d a] the beta ones. *)
From Coq Require Import Reals Arith NArith List.
From Verif Require Import RSum IntegralsModel TensorObjs FockSpec FockCcSpec FockSectorSpec CrccSpec.
Local Open Scope R_scope.
(** Real orbitals: <pq|rs> = <rs|pq> *)
Definition symmetric_repulsion (I : integrals) : Prop :=
  (forall p q r s, w_aa I p q r s = w_aa I r s p q) /\ (forall p q r s, w_ab I p q r s = w_ab I r s p q) /\ (forall p q r s, w_bb I p q r s = w_bb I r s p q).
(** T2 |psi> *)
Definition doubly_excited (d : dims) (T : amps) (psi : state) : state := fun D =>
  / 4 * double_op (nua d) (nua d) (noa d) (noa d) (x_aa T) al al psi D + double_op (nua d) (nub d) (noa d) (nob d) (x_ab T) al be psi D
  + / 4 * double_op (nub d) (nub d) (nob d) (nob d) (x_bb T) be be psi D.
(** <K| [H, T2] |ref> *)
Definition pt_moment (d : dims) (n : nat) (I : integrals) (T : amps) (a b c i j k : nat) : R :=
  let ref := pure (reference (noa d) (nob d)) in
  bra3 d a b c i j k (hamiltonian n I (doubly_excited d T ref)) - bra3 d a b c i j k (doubly_excited d T (hamiltonian n I ref)).
(** <ref| (T1 + T2)^+ |psi> *)
Definition adjoint_sd (d : dims) (T : amps) (psi : state) : R := left_sd d T psi - psi (reference (noa d) (nob d)).
(** Sum over the triply excited determinants K of <ref|(T1 + T2)^+ H|K> <K|[H, T2]|ref> / (e_i + e_j + e_k - e_a - e_b - e_c), e the diagonal of the Fock operator *)
Definition ccsdpt_correction (d : dims) (n : nat) (I : integrals) (T : amps) : R :=
  sum_triples d (fun a b c i j k => adjoint_sd d T (hamiltonian n I (ket3 d a b c i j k)) * pt_moment d n I T a b c i j k / gap (fock_level d I) a b c i j k).
