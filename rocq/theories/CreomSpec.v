(** Specification vocabulary: the CR-EOMCC(2,3) correction.  R = R1 + R2 is the right EOMCCSD operator, L = L1 + L2 the left one, w the excitation energy. *)
From Coq Require Import Reals Arith NArith List.
From Verif Require Import RSum IntegralsModel TensorObjs FockSpec FockCcSpec FockSectorSpec CrccSpec PtSpec.
Local Open Scope R_scope.
(** <K| exp(-T) H exp(T) (r0 + R) |ref> *)
Definition eom_moment (d : dims) (n m : nat) (I : integrals) (T Y : amps) (r0 : R) (a b c i j k : nat) : R :=
  let ref := pure (reference (noa d) (nob d)) in
  bra3 d a b c i j k (similar d n m I T (fun D => r0 * ref D + cluster_sd d Y ref D)).
(** Sum over the triply excited determinants K of <ref|L Hbar|K> <K|Hbar (r0 + R)|ref> / den K *)
Definition creom23_sum (d : dims) (n m : nat) (I : integrals) (T Y L : amps) (r0 : R) (den : nat -> nat -> nat -> nat -> nat -> nat -> R) : R :=
  sum_triples d (fun a b c i j k => adjoint_sd d L (similar d n m I T (ket3 d a b c i j k)) * eom_moment d n m I T Y r0 a b c i j k / den a b c i j k).
(** den K = (E + w) - <K|Hbar|K> *)
Definition creom23_correction (d : dims) (n m : nat) (I : integrals) (T Y L : amps) (r0 E : R) : R :=
  creom23_sum d n m I T Y L r0 (fun a b c i j k => E - bra3 d a b c i j k (similar d n m I T (ket3 d a b c i j k))).
