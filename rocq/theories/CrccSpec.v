(** Specification vocabulary: the similarity-transformed Hamiltonian as an operator on states, triply excited determinants, the left CCSD state and
    the CR-CC(2,3) correction.  [oa i], [va d a] are the occupied and unoccupied alpha spin-orbitals, [ob i], [vb d a] the beta ones. *)
From Coq Require Import Reals Arith NArith List.
From Verif Require Import RSum IntegralsModel TensorObjs FockSpec FockCcSpec FockSectorSpec.
Local Open Scope R_scope.
Definition negated (X : state -> state) (psi : state) : state := fun D => - X psi D.
(** exp(-T1-T2) H exp(T1+T2) |psi> *)
Definition similar (d : dims) (n m : nat) (I : integrals) (T : amps) (psi : state) : state :=
  expo (negated (cluster_sd d T)) m (hamiltonian n I (expo (cluster_sd d T) m psi)).
(** a+ b+ c+ k j i |ref> and <ref| i+ j+ k+ c b a |psi>, all spin-orbitals *)
Definition ket3 (d : dims) (a b c i j k : nat) : state := cre a (cre b (cre c (ann k (ann j (ann i (pure (reference (noa d) (nob d)))))))).
Definition bra3 (d : dims) (a b c i j k : nat) (psi : state) : R := cre i (cre j (cre k (ann c (ann b (ann a psi))))) (reference (noa d) (nob d)).
(** <ref| (1 + L1 + L2) |psi> *)
Definition left_sd (d : dims) (L : amps) (psi : state) : R :=
  let ref := reference (noa d) (nob d) in
  psi ref + sumn (nua d) (fun a => sumn (noa d) (fun i => x_a L a i * along1 ref (noa d) al psi a i))
  + sumn (nub d) (fun a => sumn (nob d) (fun i => x_b L a i * along1 ref (nob d) be psi a i))
  + / 4 * sumn (nua d) (fun a => sumn (nua d) (fun b => sumn (noa d) (fun i => sumn (noa d) (fun j => x_aa L a b i j * along2 ref (noa d) (noa d) al al psi a b i j))))
  + sumn (nua d) (fun a => sumn (nub d) (fun b => sumn (noa d) (fun i => sumn (nob d) (fun j => x_ab L a b i j * along2 ref (noa d) (nob d) al be psi a b i j))))
  + / 4 * sumn (nub d) (fun a => sumn (nub d) (fun b => sumn (nob d) (fun i => sumn (nob d) (fun j => x_bb L a b i j * along2 ref (nob d) (nob d) be be psi a b i j)))).
(** Sums over increasing pairs and triples *)
Definition sum_lt2 (n : nat) (f : nat -> nat -> R) : R := sumn n (fun p => sumn n (fun q => if Nat.ltb p q then f p q else 0)).
Definition sum_lt3 (n : nat) (f : nat -> nat -> nat -> R) : R := sumn n (fun p => sumn n (fun q => sumn n (fun r => if Nat.ltb p q then if Nat.ltb q r then f p q r else 0 else 0))).
(** Sum over all triply excited determinants, each once, of F a b c i j k (spin-orbitals) *)
Definition sum_triples (d : dims) (F : nat -> nat -> nat -> nat -> nat -> nat -> R) : R :=
  sum_lt3 (nua d) (fun a b c => sum_lt3 (noa d) (fun i j k => F (va d a) (va d b) (va d c) (oa i) (oa j) (oa k)))
  + sum_lt2 (nua d) (fun a b => sumn (nub d) (fun c => sum_lt2 (noa d) (fun i j => sumn (nob d) (fun k => F (va d a) (va d b) (vb d c) (oa i) (oa j) (ob k)))))
  + sumn (nua d) (fun a => sum_lt2 (nub d) (fun b c => sumn (noa d) (fun i => sum_lt2 (nob d) (fun j k => F (va d a) (vb d b) (vb d c) (oa i) (ob j) (ob k)))))
  + sum_lt3 (nub d) (fun a b c => sum_lt3 (nob d) (fun i j k => F (vb d a) (vb d b) (vb d c) (ob i) (ob j) (ob k))).
(** Sum over K of <ref|(1 + L) Hbar|K> <K|Hbar|ref> / den(K), Hbar = exp(-T) H exp(T) *)
Definition crcc23_sum (d : dims) (n m : nat) (I : integrals) (T L : amps) (den : nat -> nat -> nat -> nat -> nat -> nat -> R) : R :=
  sum_triples d (fun a b c i j k =>
    left_sd d L (similar d n m I T (ket3 d a b c i j k)) * bra3 d a b c i j k (similar d n m I T (pure (reference (noa d) (nob d)))) / den a b c i j k).
(** The CR-CC(2,3) correction, Epstein-Nesbet denominators E - <K|Hbar|K> *)
Definition crcc23_correction (d : dims) (n m : nat) (I : integrals) (T L : amps) (E : R) : R :=
  crcc23_sum d n m I T L (fun a b c i j k => E - bra3 d a b c i j k (similar d n m I T (ket3 d a b c i j k))).
(** Orbital energies: even spin-orbitals are alpha, odd ones beta *)
Definition by_spin (fa fb : nat -> R) (p : nat) : R := if Nat.even p then fa (Nat.div2 p) else fb (Nat.div2 p).
Definition gap (e : nat -> R) (a b c i j k : nat) : R := e i + e j + e k - e a - e b - e c.
(** Diagonal of the Fock operator *)
Definition fock_level (d : dims) (I : integrals) : nat -> R := by_spin (fun p => fock_a (noa d) (nob d) I p p) (fun p => fock_b (noa d) (nob d) I p p).
(** Diagonal of the one-body blocks of an array container *)
Definition block_level (d : dims) (H : ints) : nat -> R :=
  by_spin (fun p => if Nat.ltb p (noa d) then i_a_oo H p p else i_a_vv H (p - noa d)%nat (p - noa d)%nat) (fun p => if Nat.ltb p (nob d) then i_b_oo H p p else i_b_vv H (p - nob d)%nat (p - nob d)%nat).
