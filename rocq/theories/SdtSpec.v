(** Specification vocabulary, generated by tools/gen_sdt.py: triple excitations in second quantisation, the determinants of CCSDT and antisymmetry of the
    triples amplitudes.  [oa i], [va d a] are the occupied and unoccupied alpha orbitals, [ob i], [vb d a] the beta ones. *)
From Coq Require Import Reals Arith NArith List.
From Verif Require Import RSum IntegralsModel TensorObjs FockSpec FockCcSpec FockSectorSpec RankSpec.
Local Open Scope R_scope.
Definition triples (d : dims) (T : amps) (psi : state) : state := fun D =>
  / 36 * sumn (nua d) (fun a => sumn (nua d) (fun b => sumn (nua d) (fun c => sumn (noa d) (fun i => sumn (noa d) (fun j => sumn (noa d) (fun k => x_aaa T a b c i j k * cre (va d a) (cre (va d b) (cre (va d c) (ann (oa k) (ann (oa j) (ann (oa i) psi))))) D))))))
  + / 4 * sumn (nua d) (fun a => sumn (nua d) (fun b => sumn (nub d) (fun c => sumn (noa d) (fun i => sumn (noa d) (fun j => sumn (nob d) (fun k => x_aab T a b c i j k * cre (va d a) (cre (va d b) (cre (vb d c) (ann (ob k) (ann (oa j) (ann (oa i) psi))))) D))))))
  + / 4 * sumn (nua d) (fun a => sumn (nub d) (fun b => sumn (nub d) (fun c => sumn (noa d) (fun i => sumn (nob d) (fun j => sumn (nob d) (fun k => x_abb T a b c i j k * cre (va d a) (cre (vb d b) (cre (vb d c) (ann (ob k) (ann (ob j) (ann (oa i) psi))))) D))))))
  + / 36 * sumn (nub d) (fun a => sumn (nub d) (fun b => sumn (nub d) (fun c => sumn (nob d) (fun i => sumn (nob d) (fun j => sumn (nob d) (fun k => x_bbb T a b c i j k * cre (vb d a) (cre (vb d b) (cre (vb d c) (ann (ob k) (ann (ob j) (ann (ob i) psi))))) D)))))).
(** T1 + T2 + T3 *)
Definition cluster_sdt (d : dims) (T : amps) (psi : state) : state := fun D => cluster_sd d T psi D + triples d T psi D.
Definition triples_anti (T : amps) : Prop :=
  (forall a b c i j k, x_aaa T a b c i j k = - x_aaa T a b c j i k) /\
  (forall a b c i j k, x_aaa T a b c i j k = - x_aaa T a b c i k j) /\
  (forall a b c i j k, x_aaa T a b c i j k = - x_aaa T b a c i j k) /\
  (forall a b c i j k, x_aaa T a b c i j k = - x_aaa T a c b i j k) /\
  (forall a b c i j k, x_aab T a b c i j k = - x_aab T a b c j i k) /\
  (forall a b c i j k, x_aab T a b c i j k = - x_aab T b a c i j k) /\
  (forall a b c i j k, x_abb T a b c i j k = - x_abb T a b c i k j) /\
  (forall a b c i j k, x_abb T a b c i j k = - x_abb T a c b i j k) /\
  (forall a b c i j k, x_bbb T a b c i j k = - x_bbb T a b c j i k) /\
  (forall a b c i j k, x_bbb T a b c i j k = - x_bbb T a b c i k j) /\
  (forall a b c i j k, x_bbb T a b c i j k = - x_bbb T b a c i j k) /\
  (forall a b c i j k, x_bbb T a b c i j k = - x_bbb T a c b i j k).
(** The reference and all determinants with up to three of its electrons excited *)
Definition sdt_space (d : dims) (n : nat) : N -> Prop := sector d n 0 0 0 0 3.
(** Amplitudes equal on the index ranges, all blocks *)
Definition same_amps3 (d : dims) (X Y : amps) : Prop :=
  (forall a i, (a < nua d)%nat -> (i < noa d)%nat -> x_a X a i = x_a Y a i) /\
  (forall a i, (a < nub d)%nat -> (i < nob d)%nat -> x_b X a i = x_b Y a i) /\
  (forall a b i j, (a < nua d)%nat -> (b < nua d)%nat -> (i < noa d)%nat -> (j < noa d)%nat -> x_aa X a b i j = x_aa Y a b i j) /\
  (forall a b i j, (a < nua d)%nat -> (b < nub d)%nat -> (i < noa d)%nat -> (j < nob d)%nat -> x_ab X a b i j = x_ab Y a b i j) /\
  (forall a b i j, (a < nub d)%nat -> (b < nub d)%nat -> (i < nob d)%nat -> (j < nob d)%nat -> x_bb X a b i j = x_bb Y a b i j) /\
  (forall a b c i j k, (a < nua d)%nat -> (b < nua d)%nat -> (c < nua d)%nat -> (i < noa d)%nat -> (j < noa d)%nat -> (k < noa d)%nat -> x_aaa X a b c i j k = x_aaa Y a b c i j k) /\
  (forall a b c i j k, (a < nua d)%nat -> (b < nua d)%nat -> (c < nub d)%nat -> (i < noa d)%nat -> (j < noa d)%nat -> (k < nob d)%nat -> x_aab X a b c i j k = x_aab Y a b c i j k) /\
  (forall a b c i j k, (a < nua d)%nat -> (b < nub d)%nat -> (c < nub d)%nat -> (i < noa d)%nat -> (j < nob d)%nat -> (k < nob d)%nat -> x_abb X a b c i j k = x_abb Y a b c i j k) /\
  (forall a b c i j k, (a < nub d)%nat -> (b < nub d)%nat -> (c < nub d)%nat -> (i < nob d)%nat -> (j < nob d)%nat -> (k < nob d)%nat -> x_bbb X a b c i j k = x_bbb Y a b c i j k).
