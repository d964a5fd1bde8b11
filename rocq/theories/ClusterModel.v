(** Model of the cluster analysis of a CI wave function: ccpy/lib/fortran/clusteranalysis.f90 (cluster_analysis_t2 7-75,
    cluster_analysis_t3 77-305, cluster_analysis_t4 307-803), ccpy/extcorr/external_correction.py (cluster_analyze_ci 60-103) and
    ccpy/energy/cc_energy.py (get_ci_energy 6-16).
    Arrays are functions of index lists, 0-based; Fortran labels are 1-based and the loops produce 1-based rows.
    The f_ definitions and the wc_ tables are transcribed from the Fortran statements.
    Simplified: exact reals; copying through f2py is the identity (for a spin case without quadruples the Python side passes
    a 0 x 8 array together with one amplitude, of which no element is read). *)
From Coq Require Import Reals List Arith Bool.
From Verif Require Import RSum IntegralsModel TensorObjs PspaceModel ScatterModel.
Import ListNotations.
Open Scope R_scope.

(** The CI coefficients through triples, in intermediate normalisation (a ClusterOperator of order 3). *)
Record ci3 := mkCi { c_a : tensor; c_b : tensor; c_aa : tensor; c_ab : tensor; c_bb : tensor;
                     c_aaa : tensor; c_aab : tensor; c_abb : tensor; c_bbb : tensor }.
(** clusteranalysis.f90 25-27 *)
Definition f_aa (C : ci3) (a b i j : nat) : R :=
  c_aa C [a; b; i; j]
  -c_a C [a; i] * c_a C [b; j]
  +c_a C [a; j] * c_a C [b; i].
(** clusteranalysis.f90 45-46 *)
Definition f_ab (C : ci3) (a b i j : nat) : R :=
  c_ab C [a; b; i; j]
  -c_a C [a; i] * c_b C [b; j].
(** clusteranalysis.f90 61-63 *)
Definition f_bb (C : ci3) (a b i j : nat) : R :=
  c_bb C [a; b; i; j]
  -c_b C [a; i] * c_b C [b; j]
  +c_b C [a; j] * c_b C [b; i].
(** clusteranalysis.f90 103-118 *)
Definition f_aaa (C : ci3) (a b c i j k : nat) : R :=
  (c_aaa C [a; b; c; i; j; k]
  -c_a C [a; i]*c_aa C [b; c; j; k]
  +c_a C [a; j]*c_aa C [b; c; i; k]
  +c_a C [a; k]*c_aa C [b; c; j; i]
  +c_a C [b; i]*c_aa C [a; c; j; k]
  +c_a C [c; i]*c_aa C [b; a; j; k]
  -c_a C [b; j]*c_aa C [a; c; i; k]
  -c_a C [c; j]*c_aa C [b; a; i; k]
  -c_a C [b; k]*c_aa C [a; c; j; i]
  -c_a C [c; k]*c_aa C [b; a; j; i]
  +2*(c_a C [a; i]*c_a C [b; j]*c_a C [c; k]
  -c_a C [a; j]*c_a C [b; i]*c_a C [c; k]
  -c_a C [a; k]*c_a C [b; j]*c_a C [c; i]
  -c_a C [a; i]*c_a C [b; k]*c_a C [c; j]
  +c_a C [a; j]*c_a C [b; k]*c_a C [c; i]
  +c_a C [a; k]*c_a C [b; i]*c_a C [c; j])).
(** clusteranalysis.f90 178-185 *)
Definition f_aab (C : ci3) (a b c i j k : nat) : R :=
  (c_aab C [a; b; c; i; j; k]
  -c_a C [a; i]*c_ab C [b; c; j; k]
  +c_a C [a; j]*c_ab C [b; c; i; k]
  +c_a C [b; i]*c_ab C [a; c; j; k]
  -c_a C [b; j]*c_ab C [a; c; i; k]
  -c_b C [c; k]*c_aa C [a; b; i; j]
  +2*(c_a C [a; i]*c_a C [b; j]*c_b C [c; k]
  -c_a C [a; j]*c_a C [b; i]*c_b C [c; k])).
(** clusteranalysis.f90 208-215 *)
Definition f_abb (C : ci3) (a b c i j k : nat) : R :=
  (c_abb C [a; b; c; i; j; k]
  -c_a C [a; i]*c_bb C [b; c; j; k]
  -c_b C [c; k]*c_ab C [a; b; i; j]
  +c_b C [c; j]*c_ab C [a; b; i; k]
  +c_b C [b; k]*c_ab C [a; c; i; j]
  -c_b C [b; j]*c_ab C [a; c; i; k]
  +2*(c_a C [a; i]*c_b C [b; j]*c_b C [c; k]
  -c_a C [a; i]*c_b C [b; k]*c_b C [c; j])).
(** clusteranalysis.f90 238-253 *)
Definition f_bbb (C : ci3) (a b c i j k : nat) : R :=
  (c_bbb C [a; b; c; i; j; k]
  -c_b C [a; i]*c_bb C [b; c; j; k]
  +c_b C [a; j]*c_bb C [b; c; i; k]
  +c_b C [a; k]*c_bb C [b; c; j; i]
  +c_b C [b; i]*c_bb C [a; c; j; k]
  +c_b C [c; i]*c_bb C [b; a; j; k]
  -c_b C [b; j]*c_bb C [a; c; i; k]
  -c_b C [c; j]*c_bb C [b; a; i; k]
  -c_b C [b; k]*c_bb C [a; c; j; i]
  -c_b C [c; k]*c_bb C [b; a; j; i]
  +2*(c_b C [a; i]*c_b C [b; j]*c_b C [c; k]
  -c_b C [a; j]*c_b C [b; i]*c_b C [c; k]
  -c_b C [a; k]*c_b C [b; j]*c_b C [c; i]
  -c_b C [a; i]*c_b C [b; k]*c_b C [c; j]
  +c_b C [a; j]*c_b C [b; k]*c_b C [c; i]
  +c_b C [a; k]*c_b C [b; i]*c_b C [c; j])).
(** clusteranalysis.f90 347-480 *)
Definition f_aaaa (C : ci3) (c4 : R) (a b c d i j k l : nat) : R :=
  (c4
  -c_a C [a; i]*c_aaa C [b; c; d; j; k; l]
  +c_a C [a; j]*c_aaa C [b; c; d; i; k; l]
  +c_a C [a; k]*c_aaa C [b; c; d; j; i; l]
  +c_a C [a; l]*c_aaa C [b; c; d; j; k; i]
  +c_a C [b; i]*c_aaa C [a; c; d; j; k; l]
  +c_a C [c; i]*c_aaa C [b; a; d; j; k; l]
  +c_a C [d; i]*c_aaa C [b; c; a; j; k; l]
  -c_a C [b; j]*c_aaa C [a; c; d; i; k; l]
  -c_a C [c; j]*c_aaa C [b; a; d; i; k; l]
  -c_a C [d; j]*c_aaa C [b; c; a; i; k; l]
  -c_a C [b; k]*c_aaa C [a; c; d; j; i; l]
  -c_a C [c; k]*c_aaa C [b; a; d; j; i; l]
  -c_a C [d; k]*c_aaa C [b; c; a; j; i; l]
  -c_a C [b; l]*c_aaa C [a; c; d; j; k; i]
  -c_a C [c; l]*c_aaa C [b; a; d; j; k; i]
  -c_a C [d; l]*c_aaa C [b; c; a; j; k; i]
  +2*(c_a C [a; i]*c_a C [b; j]*c_aa C [c; d; k; l]
  -c_a C [a; k]*c_a C [b; j]*c_aa C [c; d; i; l]
  -c_a C [a; l]*c_a C [b; j]*c_aa C [c; d; k; i]
  -c_a C [a; j]*c_a C [b; i]*c_aa C [c; d; k; l]
  -c_a C [a; i]*c_a C [b; k]*c_aa C [c; d; j; l]
  -c_a C [a; i]*c_a C [b; l]*c_aa C [c; d; k; j]
  -c_a C [c; i]*c_a C [b; j]*c_aa C [a; d; k; l]
  -c_a C [d; i]*c_a C [b; j]*c_aa C [c; a; k; l]
  -c_a C [a; i]*c_a C [c; j]*c_aa C [b; d; k; l]
  -c_a C [a; i]*c_a C [d; j]*c_aa C [c; b; k; l]
  +c_a C [c; i]*c_a C [d; j]*c_aa C [a; b; k; l]
  +c_a C [c; k]*c_a C [b; j]*c_aa C [a; d; i; l]
  +c_a C [d; k]*c_a C [b; j]*c_aa C [c; a; i; l]
  +c_a C [a; k]*c_a C [c; j]*c_aa C [b; d; i; l]
  +c_a C [a; k]*c_a C [d; j]*c_aa C [c; b; i; l]
  +c_a C [c; l]*c_a C [b; j]*c_aa C [a; d; k; i]
  +c_a C [d; l]*c_a C [b; j]*c_aa C [c; a; k; i]
  +c_a C [a; l]*c_a C [c; j]*c_aa C [b; d; k; i]
  +c_a C [a; l]*c_a C [d; j]*c_aa C [c; b; k; i]
  +c_a C [c; j]*c_a C [b; i]*c_aa C [a; d; k; l]
  +c_a C [d; j]*c_a C [b; i]*c_aa C [c; a; k; l]
  +c_a C [a; j]*c_a C [c; i]*c_aa C [b; d; k; l]
  +c_a C [a; j]*c_a C [d; i]*c_aa C [c; b; k; l]
  +c_a C [c; i]*c_a C [b; k]*c_aa C [a; d; j; l]
  +c_a C [d; i]*c_a C [b; k]*c_aa C [c; a; j; l]
  +c_a C [a; i]*c_a C [c; k]*c_aa C [b; d; j; l]
  +c_a C [a; i]*c_a C [d; k]*c_aa C [c; b; j; l]
  +c_a C [c; i]*c_a C [b; l]*c_aa C [a; d; k; j]
  +c_a C [d; i]*c_a C [b; l]*c_aa C [c; a; k; j]
  +c_a C [a; i]*c_a C [c; l]*c_aa C [b; d; k; j]
  +c_a C [a; i]*c_a C [d; l]*c_aa C [c; b; k; j]
  +c_a C [a; j]*c_a C [b; k]*c_aa C [c; d; i; l]
  +c_a C [a; k]*c_a C [b; i]*c_aa C [c; d; j; l]
  +c_a C [a; j]*c_a C [b; l]*c_aa C [c; d; k; i]
  +c_a C [a; l]*c_a C [b; i]*c_aa C [c; d; k; j]
  -c_a C [a; l]*c_a C [b; k]*c_aa C [c; d; i; j]
  -c_a C [c; k]*c_a C [d; j]*c_aa C [a; b; i; l]
  -c_a C [c; l]*c_a C [d; j]*c_aa C [a; b; k; i]
  -c_a C [c; j]*c_a C [d; i]*c_aa C [a; b; k; l]
  -c_a C [c; i]*c_a C [d; k]*c_aa C [a; b; j; l]
  -c_a C [c; i]*c_a C [d; l]*c_aa C [a; b; k; j]
  -c_a C [c; j]*c_a C [b; k]*c_aa C [a; d; i; l]
  -c_a C [d; j]*c_a C [b; k]*c_aa C [c; a; i; l]
  -c_a C [a; j]*c_a C [c; k]*c_aa C [b; d; i; l]
  -c_a C [a; j]*c_a C [d; k]*c_aa C [c; b; i; l]
  -c_a C [c; k]*c_a C [b; i]*c_aa C [a; d; j; l]
  -c_a C [d; k]*c_a C [b; i]*c_aa C [c; a; j; l]
  -c_a C [a; k]*c_a C [c; i]*c_aa C [b; d; j; l]
  -c_a C [a; k]*c_a C [d; i]*c_aa C [c; b; j; l]
  -c_a C [c; j]*c_a C [b; l]*c_aa C [a; d; k; i]
  -c_a C [d; j]*c_a C [b; l]*c_aa C [c; a; k; i]
  -c_a C [a; j]*c_a C [c; l]*c_aa C [b; d; k; i]
  -c_a C [a; j]*c_a C [d; l]*c_aa C [c; b; k; i]
  -c_a C [c; l]*c_a C [b; i]*c_aa C [a; d; k; j]
  -c_a C [d; l]*c_a C [b; i]*c_aa C [c; a; k; j]
  -c_a C [a; l]*c_a C [c; i]*c_aa C [b; d; k; j]
  -c_a C [a; l]*c_a C [d; i]*c_aa C [c; b; k; j]
  +c_a C [c; j]*c_a C [d; k]*c_aa C [a; b; i; l]
  +c_a C [c; k]*c_a C [d; i]*c_aa C [a; b; j; l]
  +c_a C [c; j]*c_a C [d; l]*c_aa C [a; b; k; i]
  +c_a C [c; l]*c_a C [d; i]*c_aa C [a; b; k; j]
  +c_a C [c; l]*c_a C [b; k]*c_aa C [a; d; i; j]
  +c_a C [d; l]*c_a C [b; k]*c_aa C [c; a; i; j]
  +c_a C [a; l]*c_a C [c; k]*c_aa C [b; d; i; j]
  +c_a C [a; l]*c_a C [d; k]*c_aa C [c; b; i; j]
  -c_a C [c; l]*c_a C [d; k]*c_aa C [a; b; i; j]
  -c_a C [c; k]*c_a C [b; l]*c_aa C [a; d; i; j]
  -c_a C [d; k]*c_a C [b; l]*c_aa C [c; a; i; j]
  -c_a C [a; k]*c_a C [c; l]*c_aa C [b; d; i; j]
  -c_a C [a; k]*c_a C [d; l]*c_aa C [c; b; i; j]
  +c_a C [c; k]*c_a C [d; l]*c_aa C [a; b; i; j]
  +c_a C [a; k]*c_a C [b; l]*c_aa C [c; d; i; j])
  -c_aa C [a; b; i; j]*c_aa C [c; d; k; l]
  +c_aa C [a; b; k; j]*c_aa C [c; d; i; l]
  +c_aa C [a; b; l; j]*c_aa C [c; d; k; i]
  +c_aa C [a; b; i; k]*c_aa C [c; d; j; l]
  +c_aa C [a; b; i; l]*c_aa C [c; d; k; j]
  +c_aa C [c; b; i; j]*c_aa C [a; d; k; l]
  +c_aa C [d; b; i; j]*c_aa C [c; a; k; l]
  -c_aa C [a; b; k; l]*c_aa C [c; d; i; j]
  -c_aa C [c; b; k; j]*c_aa C [a; d; i; l]
  -c_aa C [c; b; l; j]*c_aa C [a; d; k; i]
  -c_aa C [c; b; i; k]*c_aa C [a; d; j; l]
  -c_aa C [c; b; i; l]*c_aa C [a; d; k; j]
  -c_aa C [d; b; k; j]*c_aa C [c; a; i; l]
  -c_aa C [d; b; l; j]*c_aa C [c; a; k; i]
  -c_aa C [d; b; i; k]*c_aa C [c; a; j; l]
  -c_aa C [d; b; i; l]*c_aa C [c; a; k; j]
  +c_aa C [c; b; k; l]*c_aa C [a; d; i; j]
  +c_aa C [d; b; k; l]*c_aa C [c; a; i; j]
  -6*(c_a C [a; i]*c_a C [b; j]*c_a C [c; k]*c_a C [d; l]
  -c_a C [a; j]*c_a C [b; i]*c_a C [c; k]*c_a C [d; l]
  -c_a C [a; k]*c_a C [b; j]*c_a C [c; i]*c_a C [d; l]
  -c_a C [a; l]*c_a C [b; j]*c_a C [c; k]*c_a C [d; i]
  -c_a C [a; i]*c_a C [b; k]*c_a C [c; j]*c_a C [d; l]
  -c_a C [a; i]*c_a C [b; l]*c_a C [c; k]*c_a C [d; j]
  -c_a C [a; i]*c_a C [b; j]*c_a C [c; l]*c_a C [d; k]
  +c_a C [a; j]*c_a C [b; k]*c_a C [c; i]*c_a C [d; l]
  +c_a C [a; k]*c_a C [b; i]*c_a C [c; j]*c_a C [d; l]
  +c_a C [a; j]*c_a C [b; l]*c_a C [c; k]*c_a C [d; i]
  +c_a C [a; l]*c_a C [b; i]*c_a C [c; k]*c_a C [d; j]
  +c_a C [a; k]*c_a C [b; j]*c_a C [c; l]*c_a C [d; i]
  +c_a C [a; l]*c_a C [b; j]*c_a C [c; i]*c_a C [d; k]
  +c_a C [a; i]*c_a C [b; k]*c_a C [c; l]*c_a C [d; j]
  +c_a C [a; i]*c_a C [b; l]*c_a C [c; j]*c_a C [d; k]
  +c_a C [a; j]*c_a C [b; i]*c_a C [c; l]*c_a C [d; k]
  +c_a C [a; k]*c_a C [b; l]*c_a C [c; i]*c_a C [d; j]
  +c_a C [a; l]*c_a C [b; k]*c_a C [c; j]*c_a C [d; i]
  -c_a C [a; j]*c_a C [b; k]*c_a C [c; l]*c_a C [d; i]
  -c_a C [a; j]*c_a C [b; l]*c_a C [c; i]*c_a C [d; k]
  -c_a C [a; k]*c_a C [b; l]*c_a C [c; j]*c_a C [d; i]
  -c_a C [a; k]*c_a C [b; i]*c_a C [c; l]*c_a C [d; j]
  -c_a C [a; l]*c_a C [b; i]*c_a C [c; j]*c_a C [d; k]
  -c_a C [a; l]*c_a C [b; k]*c_a C [c; i]*c_a C [d; j])).
(** clusteranalysis.f90 490-542 *)
Definition f_aaab (C : ci3) (c4 : R) (a b c d i j k l : nat) : R :=
  (c4
  -c_a C [a; i]*c_aab C [b; c; d; j; k; l]
  +c_a C [a; j]*c_aab C [b; c; d; i; k; l]
  +c_a C [a; k]*c_aab C [b; c; d; j; i; l]
  +c_a C [b; i]*c_aab C [a; c; d; j; k; l]
  +c_a C [c; i]*c_aab C [b; a; d; j; k; l]
  -c_a C [b; j]*c_aab C [a; c; d; i; k; l]
  -c_a C [c; j]*c_aab C [b; a; d; i; k; l]
  -c_a C [b; k]*c_aab C [a; c; d; j; i; l]
  -c_a C [c; k]*c_aab C [b; a; d; j; i; l]
  -c_b C [d; l]*c_aaa C [a; b; c; i; j; k]
  +2*(c_a C [a; i]*c_b C [d; l]*c_aa C [b; c; j; k]
  -c_a C [a; j]*c_b C [d; l]*c_aa C [b; c; i; k]
  -c_a C [a; k]*c_b C [d; l]*c_aa C [b; c; j; i]
  -c_a C [b; i]*c_b C [d; l]*c_aa C [a; c; j; k]
  -c_a C [c; i]*c_b C [d; l]*c_aa C [b; a; j; k]
  +c_a C [b; j]*c_b C [d; l]*c_aa C [a; c; i; k]
  +c_a C [c; j]*c_b C [d; l]*c_aa C [b; a; i; k]
  +c_a C [b; k]*c_b C [d; l]*c_aa C [a; c; j; i]
  +c_a C [c; k]*c_b C [d; l]*c_aa C [b; a; j; i]
  +c_a C [a; i]*c_a C [b; j]*c_ab C [c; d; k; l]
  -c_a C [a; j]*c_a C [b; i]*c_ab C [c; d; k; l]
  -c_a C [a; k]*c_a C [b; j]*c_ab C [c; d; i; l]
  -c_a C [a; i]*c_a C [b; k]*c_ab C [c; d; j; l]
  -c_a C [c; i]*c_a C [b; j]*c_ab C [a; d; k; l]
  -c_a C [a; i]*c_a C [c; j]*c_ab C [b; d; k; l]
  +c_a C [a; j]*c_a C [b; k]*c_ab C [c; d; i; l]
  +c_a C [a; k]*c_a C [b; i]*c_ab C [c; d; j; l]
  +c_a C [c; j]*c_a C [b; i]*c_ab C [a; d; k; l]
  +c_a C [a; j]*c_a C [c; i]*c_ab C [b; d; k; l]
  +c_a C [c; k]*c_a C [b; j]*c_ab C [a; d; i; l]
  +c_a C [a; k]*c_a C [c; j]*c_ab C [b; d; i; l]
  +c_a C [c; i]*c_a C [b; k]*c_ab C [a; d; j; l]
  +c_a C [a; i]*c_a C [c; k]*c_ab C [b; d; j; l]
  -c_a C [c; j]*c_a C [b; k]*c_ab C [a; d; i; l]
  -c_a C [a; j]*c_a C [c; k]*c_ab C [b; d; i; l]
  -c_a C [c; k]*c_a C [b; i]*c_ab C [a; d; j; l]
  -c_a C [a; k]*c_a C [c; i]*c_ab C [b; d; j; l])
  -c_aa C [a; b; i; j]*c_ab C [c; d; k; l]
  +c_aa C [a; b; k; j]*c_ab C [c; d; i; l]
  +c_aa C [a; b; i; k]*c_ab C [c; d; j; l]
  +c_aa C [c; b; i; j]*c_ab C [a; d; k; l]
  +c_aa C [a; c; i; j]*c_ab C [b; d; k; l]
  -c_aa C [c; b; k; j]*c_ab C [a; d; i; l]
  -c_aa C [a; c; k; j]*c_ab C [b; d; i; l]
  -c_aa C [c; b; i; k]*c_ab C [a; d; j; l]
  -c_aa C [a; c; i; k]*c_ab C [b; d; j; l]
  -6*(c_a C [a; i]*c_a C [b; j]*c_a C [c; k]*c_b C [d; l]
  -c_a C [a; j]*c_a C [b; i]*c_a C [c; k]*c_b C [d; l]
  -c_a C [a; k]*c_a C [b; j]*c_a C [c; i]*c_b C [d; l]
  -c_a C [a; i]*c_a C [b; k]*c_a C [c; j]*c_b C [d; l]
  +c_a C [a; j]*c_a C [b; k]*c_a C [c; i]*c_b C [d; l]
  +c_a C [a; k]*c_a C [b; i]*c_a C [c; j]*c_b C [d; l])).
(** clusteranalysis.f90 552-597 *)
Definition f_aabb (C : ci3) (c4 : R) (a b c d i j k l : nat) : R :=
  let c1c3 := (-c_a C [a; i]*c_abb C [b; c; d; j; k; l]
  +c_a C [a; j]*c_abb C [b; c; d; i; k; l]
  +c_a C [b; i]*c_abb C [a; c; d; j; k; l]
  -c_a C [b; j]*c_abb C [a; c; d; i; k; l]
  -c_b C [d; l]*c_aab C [a; b; c; i; j; k]
  +c_b C [d; k]*c_aab C [a; b; c; i; j; l]
  +c_b C [c; l]*c_aab C [a; b; d; i; j; k]
  -c_b C [c; k]*c_aab C [a; b; d; i; j; l]) in
  let c12c2 := 2*(c_a C [a; i]*c_a C [b; j]*c_bb C [c; d; k; l]
  -c_a C [a; j]*c_a C [b; i]*c_bb C [c; d; k; l]
  +c_a C [a; i]*c_b C [c; k]*c_ab C [b; d; j; l]
  -c_a C [a; j]*c_b C [c; k]*c_ab C [b; d; i; l]
  -c_a C [a; i]*c_b C [c; l]*c_ab C [b; d; j; k]
  -c_a C [b; i]*c_b C [c; k]*c_ab C [a; d; j; l]
  -c_a C [a; i]*c_b C [d; k]*c_ab C [b; c; j; l]
  +c_a C [a; j]*c_b C [c; l]*c_ab C [b; d; i; k]
  +c_a C [b; j]*c_b C [c; k]*c_ab C [a; d; i; l]
  +c_a C [a; j]*c_b C [d; k]*c_ab C [b; c; i; l]
  +c_a C [b; i]*c_b C [c; l]*c_ab C [a; d; j; k]
  +c_a C [a; i]*c_b C [d; l]*c_ab C [b; c; j; k]
  +c_a C [b; i]*c_b C [d; k]*c_ab C [a; c; j; l]
  -c_a C [b; j]*c_b C [c; l]*c_ab C [a; d; i; k]
  -c_a C [a; j]*c_b C [d; l]*c_ab C [b; c; i; k]
  -c_a C [b; j]*c_b C [d; k]*c_ab C [a; c; i; l]
  -c_a C [b; i]*c_b C [d; l]*c_ab C [a; c; j; k]
  +c_a C [b; j]*c_b C [d; l]*c_ab C [a; c; i; k]
  +c_b C [c; k]*c_b C [d; l]*c_aa C [a; b; i; j]
  -c_b C [c; l]*c_b C [d; k]*c_aa C [a; b; i; j]) in
  let c22 := (-c_ab C [a; c; i; k]*c_ab C [b; d; j; l]
  +c_ab C [a; c; j; k]*c_ab C [b; d; i; l]
  +c_ab C [a; c; i; l]*c_ab C [b; d; j; k]
  +c_ab C [b; c; i; k]*c_ab C [a; d; j; l]
  -c_ab C [a; c; j; l]*c_ab C [b; d; i; k]
  -c_ab C [b; c; j; k]*c_ab C [a; d; i; l]
  -c_ab C [b; c; i; l]*c_ab C [a; d; j; k]
  +c_ab C [b; c; j; l]*c_ab C [a; d; i; k]
  -c_aa C [a; b; i; j]*c_bb C [c; d; k; l]) in
  let c13 := (-6*(c_a C [a; i]*c_a C [b; j]*c_b C [c; k]*c_b C [d; l]
  -c_a C [a; j]*c_a C [b; i]*c_b C [c; k]*c_b C [d; l]
  -c_a C [a; i]*c_a C [b; j]*c_b C [c; l]*c_b C [d; k]
  +c_a C [a; j]*c_a C [b; i]*c_b C [c; l]*c_b C [d; k])) in
  c4 + c1c3 + c12c2 + c22 + c13.
(** clusteranalysis.f90 607-659 *)
Definition f_abbb (C : ci3) (c4 : R) (a b c d i j k l : nat) : R :=
  (c4
  -c_a C [a; i]*c_bbb C [b; c; d; j; k; l]
  -c_b C [d; l]*c_abb C [a; b; c; i; j; k]
  +c_b C [d; j]*c_abb C [a; b; c; i; l; k]
  +c_b C [d; k]*c_abb C [a; b; c; i; j; l]
  +c_b C [b; l]*c_abb C [a; d; c; i; j; k]
  +c_b C [c; l]*c_abb C [a; b; d; i; j; k]
  -c_b C [b; j]*c_abb C [a; d; c; i; l; k]
  -c_b C [c; j]*c_abb C [a; b; d; i; l; k]
  -c_b C [b; k]*c_abb C [a; d; c; i; j; l]
  -c_b C [c; k]*c_abb C [a; b; d; i; j; l]
  +2*(c_b C [c; k]*c_b C [d; l]*c_ab C [a; b; i; j]
  -c_b C [c; j]*c_b C [d; l]*c_ab C [a; b; i; k]
  -c_b C [c; k]*c_b C [d; j]*c_ab C [a; b; i; l]
  -c_b C [c; l]*c_b C [d; k]*c_ab C [a; b; i; j]
  -c_b C [b; k]*c_b C [d; l]*c_ab C [a; c; i; j]
  -c_b C [c; k]*c_b C [b; l]*c_ab C [a; d; i; j]
  +c_b C [c; l]*c_b C [d; j]*c_ab C [a; b; i; k]
  +c_b C [c; j]*c_b C [d; k]*c_ab C [a; b; i; l]
  +c_b C [b; j]*c_b C [d; l]*c_ab C [a; c; i; k]
  +c_b C [c; j]*c_b C [b; l]*c_ab C [a; d; i; k]
  +c_b C [b; k]*c_b C [d; j]*c_ab C [a; c; i; l]
  +c_b C [c; k]*c_b C [b; j]*c_ab C [a; d; i; l]
  +c_b C [b; l]*c_b C [d; k]*c_ab C [a; c; i; j]
  +c_b C [c; l]*c_b C [b; k]*c_ab C [a; d; i; j]
  -c_b C [b; l]*c_b C [d; j]*c_ab C [a; c; i; k]
  -c_b C [c; l]*c_b C [b; j]*c_ab C [a; d; i; k]
  -c_b C [b; j]*c_b C [d; k]*c_ab C [a; c; i; l]
  -c_b C [c; j]*c_b C [b; k]*c_ab C [a; d; i; l]
  +c_a C [a; i]*c_b C [b; j]*c_bb C [c; d; k; l]
  -c_a C [a; i]*c_b C [b; k]*c_bb C [c; d; j; l]
  -c_a C [a; i]*c_b C [b; l]*c_bb C [c; d; k; j]
  -c_a C [a; i]*c_b C [c; j]*c_bb C [b; d; k; l]
  -c_a C [a; i]*c_b C [d; j]*c_bb C [c; b; k; l]
  +c_a C [a; i]*c_b C [c; k]*c_bb C [b; d; j; l]
  +c_a C [a; i]*c_b C [d; k]*c_bb C [c; b; j; l]
  +c_a C [a; i]*c_b C [c; l]*c_bb C [b; d; k; j]
  +c_a C [a; i]*c_b C [d; l]*c_bb C [c; b; k; j])
  -c_ab C [a; b; i; j]*c_bb C [c; d; k; l]
  +c_ab C [a; b; i; k]*c_bb C [c; d; j; l]
  +c_ab C [a; b; i; l]*c_bb C [c; d; k; j]
  +c_ab C [a; c; i; j]*c_bb C [b; d; k; l]
  +c_ab C [a; d; i; j]*c_bb C [c; b; k; l]
  -c_ab C [a; c; i; k]*c_bb C [b; d; j; l]
  -c_ab C [a; d; i; k]*c_bb C [c; b; j; l]
  -c_ab C [a; c; i; l]*c_bb C [b; d; k; j]
  -c_ab C [a; d; i; l]*c_bb C [c; b; k; j]
  -6*(c_a C [a; i]*c_b C [b; j]*c_b C [c; k]*c_b C [d; l]
  -c_a C [a; i]*c_b C [b; k]*c_b C [c; j]*c_b C [d; l]
  -c_a C [a; i]*c_b C [b; l]*c_b C [c; k]*c_b C [d; j]
  -c_a C [a; i]*c_b C [b; j]*c_b C [c; l]*c_b C [d; k]
  +c_a C [a; i]*c_b C [b; k]*c_b C [c; l]*c_b C [d; j]
  +c_a C [a; i]*c_b C [b; l]*c_b C [c; j]*c_b C [d; k])).
(** clusteranalysis.f90 668-799 *)
Definition f_bbbb (C : ci3) (c4 : R) (a b c d i j k l : nat) : R :=
  (c4
  -c_b C [a; i]*c_bbb C [b; c; d; j; k; l]
  +c_b C [a; j]*c_bbb C [b; c; d; i; k; l]
  +c_b C [a; k]*c_bbb C [b; c; d; j; i; l]
  +c_b C [a; l]*c_bbb C [b; c; d; j; k; i]
  +c_b C [b; i]*c_bbb C [a; c; d; j; k; l]
  +c_b C [c; i]*c_bbb C [b; a; d; j; k; l]
  +c_b C [d; i]*c_bbb C [b; c; a; j; k; l]
  -c_b C [b; j]*c_bbb C [a; c; d; i; k; l]
  -c_b C [c; j]*c_bbb C [b; a; d; i; k; l]
  -c_b C [d; j]*c_bbb C [b; c; a; i; k; l]
  -c_b C [b; k]*c_bbb C [a; c; d; j; i; l]
  -c_b C [c; k]*c_bbb C [b; a; d; j; i; l]
  -c_b C [d; k]*c_bbb C [b; c; a; j; i; l]
  -c_b C [b; l]*c_bbb C [a; c; d; j; k; i]
  -c_b C [c; l]*c_bbb C [b; a; d; j; k; i]
  -c_b C [d; l]*c_bbb C [b; c; a; j; k; i]
  +2*(c_b C [a; i]*c_b C [b; j]*c_bb C [c; d; k; l]
  -c_b C [a; k]*c_b C [b; j]*c_bb C [c; d; i; l]
  -c_b C [a; l]*c_b C [b; j]*c_bb C [c; d; k; i]
  -c_b C [a; j]*c_b C [b; i]*c_bb C [c; d; k; l]
  -c_b C [a; i]*c_b C [b; k]*c_bb C [c; d; j; l]
  -c_b C [a; i]*c_b C [b; l]*c_bb C [c; d; k; j]
  -c_b C [c; i]*c_b C [b; j]*c_bb C [a; d; k; l]
  -c_b C [d; i]*c_b C [b; j]*c_bb C [c; a; k; l]
  -c_b C [a; i]*c_b C [c; j]*c_bb C [b; d; k; l]
  -c_b C [a; i]*c_b C [d; j]*c_bb C [c; b; k; l]
  +c_b C [c; i]*c_b C [d; j]*c_bb C [a; b; k; l]
  +c_b C [c; k]*c_b C [b; j]*c_bb C [a; d; i; l]
  +c_b C [d; k]*c_b C [b; j]*c_bb C [c; a; i; l]
  +c_b C [a; k]*c_b C [c; j]*c_bb C [b; d; i; l]
  +c_b C [a; k]*c_b C [d; j]*c_bb C [c; b; i; l]
  +c_b C [c; l]*c_b C [b; j]*c_bb C [a; d; k; i]
  +c_b C [d; l]*c_b C [b; j]*c_bb C [c; a; k; i]
  +c_b C [a; l]*c_b C [c; j]*c_bb C [b; d; k; i]
  +c_b C [a; l]*c_b C [d; j]*c_bb C [c; b; k; i]
  +c_b C [c; j]*c_b C [b; i]*c_bb C [a; d; k; l]
  +c_b C [d; j]*c_b C [b; i]*c_bb C [c; a; k; l]
  +c_b C [a; j]*c_b C [c; i]*c_bb C [b; d; k; l]
  +c_b C [a; j]*c_b C [d; i]*c_bb C [c; b; k; l]
  +c_b C [c; i]*c_b C [b; k]*c_bb C [a; d; j; l]
  +c_b C [d; i]*c_b C [b; k]*c_bb C [c; a; j; l]
  +c_b C [a; i]*c_b C [c; k]*c_bb C [b; d; j; l]
  +c_b C [a; i]*c_b C [d; k]*c_bb C [c; b; j; l]
  +c_b C [c; i]*c_b C [b; l]*c_bb C [a; d; k; j]
  +c_b C [d; i]*c_b C [b; l]*c_bb C [c; a; k; j]
  +c_b C [a; i]*c_b C [c; l]*c_bb C [b; d; k; j]
  +c_b C [a; i]*c_b C [d; l]*c_bb C [c; b; k; j]
  +c_b C [a; j]*c_b C [b; k]*c_bb C [c; d; i; l]
  +c_b C [a; k]*c_b C [b; i]*c_bb C [c; d; j; l]
  +c_b C [a; j]*c_b C [b; l]*c_bb C [c; d; k; i]
  +c_b C [a; l]*c_b C [b; i]*c_bb C [c; d; k; j]
  -c_b C [a; l]*c_b C [b; k]*c_bb C [c; d; i; j]
  -c_b C [c; k]*c_b C [d; j]*c_bb C [a; b; i; l]
  -c_b C [c; l]*c_b C [d; j]*c_bb C [a; b; k; i]
  -c_b C [c; j]*c_b C [d; i]*c_bb C [a; b; k; l]
  -c_b C [c; i]*c_b C [d; k]*c_bb C [a; b; j; l]
  -c_b C [c; i]*c_b C [d; l]*c_bb C [a; b; k; j]
  -c_b C [c; j]*c_b C [b; k]*c_bb C [a; d; i; l]
  -c_b C [d; j]*c_b C [b; k]*c_bb C [c; a; i; l]
  -c_b C [a; j]*c_b C [c; k]*c_bb C [b; d; i; l]
  -c_b C [a; j]*c_b C [d; k]*c_bb C [c; b; i; l]
  -c_b C [c; k]*c_b C [b; i]*c_bb C [a; d; j; l]
  -c_b C [d; k]*c_b C [b; i]*c_bb C [c; a; j; l]
  -c_b C [a; k]*c_b C [c; i]*c_bb C [b; d; j; l]
  -c_b C [a; k]*c_b C [d; i]*c_bb C [c; b; j; l]
  -c_b C [c; j]*c_b C [b; l]*c_bb C [a; d; k; i]
  -c_b C [d; j]*c_b C [b; l]*c_bb C [c; a; k; i]
  -c_b C [a; j]*c_b C [c; l]*c_bb C [b; d; k; i]
  -c_b C [a; j]*c_b C [d; l]*c_bb C [c; b; k; i]
  -c_b C [c; l]*c_b C [b; i]*c_bb C [a; d; k; j]
  -c_b C [d; l]*c_b C [b; i]*c_bb C [c; a; k; j]
  -c_b C [a; l]*c_b C [c; i]*c_bb C [b; d; k; j]
  -c_b C [a; l]*c_b C [d; i]*c_bb C [c; b; k; j]
  +c_b C [c; j]*c_b C [d; k]*c_bb C [a; b; i; l]
  +c_b C [c; k]*c_b C [d; i]*c_bb C [a; b; j; l]
  +c_b C [c; j]*c_b C [d; l]*c_bb C [a; b; k; i]
  +c_b C [c; l]*c_b C [d; i]*c_bb C [a; b; k; j]
  +c_b C [c; l]*c_b C [b; k]*c_bb C [a; d; i; j]
  +c_b C [d; l]*c_b C [b; k]*c_bb C [c; a; i; j]
  +c_b C [a; l]*c_b C [c; k]*c_bb C [b; d; i; j]
  +c_b C [a; l]*c_b C [d; k]*c_bb C [c; b; i; j]
  -c_b C [c; l]*c_b C [d; k]*c_bb C [a; b; i; j]
  -c_b C [c; k]*c_b C [b; l]*c_bb C [a; d; i; j]
  -c_b C [d; k]*c_b C [b; l]*c_bb C [c; a; i; j]
  -c_b C [a; k]*c_b C [c; l]*c_bb C [b; d; i; j]
  -c_b C [a; k]*c_b C [d; l]*c_bb C [c; b; i; j]
  +c_b C [c; k]*c_b C [d; l]*c_bb C [a; b; i; j]
  +c_b C [a; k]*c_b C [b; l]*c_bb C [c; d; i; j])
  -c_bb C [a; b; i; j]*c_bb C [c; d; k; l]
  +c_bb C [a; b; k; j]*c_bb C [c; d; i; l]
  +c_bb C [a; b; l; j]*c_bb C [c; d; k; i]
  +c_bb C [a; b; i; k]*c_bb C [c; d; j; l]
  +c_bb C [a; b; i; l]*c_bb C [c; d; k; j]
  +c_bb C [c; b; i; j]*c_bb C [a; d; k; l]
  +c_bb C [d; b; i; j]*c_bb C [c; a; k; l]
  -c_bb C [a; b; k; l]*c_bb C [c; d; i; j]
  -c_bb C [c; b; k; j]*c_bb C [a; d; i; l]
  -c_bb C [c; b; l; j]*c_bb C [a; d; k; i]
  -c_bb C [c; b; i; k]*c_bb C [a; d; j; l]
  -c_bb C [c; b; i; l]*c_bb C [a; d; k; j]
  -c_bb C [d; b; k; j]*c_bb C [c; a; i; l]
  -c_bb C [d; b; l; j]*c_bb C [c; a; k; i]
  -c_bb C [d; b; i; k]*c_bb C [c; a; j; l]
  -c_bb C [d; b; i; l]*c_bb C [c; a; k; j]
  +c_bb C [c; b; k; l]*c_bb C [a; d; i; j]
  +c_bb C [d; b; k; l]*c_bb C [c; a; i; j]
  -6*(c_b C [a; i]*c_b C [b; j]*c_b C [c; k]*c_b C [d; l]
  -c_b C [a; j]*c_b C [b; i]*c_b C [c; k]*c_b C [d; l]
  -c_b C [a; k]*c_b C [b; j]*c_b C [c; i]*c_b C [d; l]
  -c_b C [a; l]*c_b C [b; j]*c_b C [c; k]*c_b C [d; i]
  -c_b C [a; i]*c_b C [b; k]*c_b C [c; j]*c_b C [d; l]
  -c_b C [a; i]*c_b C [b; l]*c_b C [c; k]*c_b C [d; j]
  -c_b C [a; i]*c_b C [b; j]*c_b C [c; l]*c_b C [d; k]
  +c_b C [a; j]*c_b C [b; k]*c_b C [c; i]*c_b C [d; l]
  +c_b C [a; k]*c_b C [b; i]*c_b C [c; j]*c_b C [d; l]
  +c_b C [a; j]*c_b C [b; l]*c_b C [c; k]*c_b C [d; i]
  +c_b C [a; l]*c_b C [b; i]*c_b C [c; k]*c_b C [d; j]
  +c_b C [a; k]*c_b C [b; j]*c_b C [c; l]*c_b C [d; i]
  +c_b C [a; l]*c_b C [b; j]*c_b C [c; i]*c_b C [d; k]
  +c_b C [a; i]*c_b C [b; k]*c_b C [c; l]*c_b C [d; j]
  +c_b C [a; i]*c_b C [b; l]*c_b C [c; j]*c_b C [d; k]
  +c_b C [a; j]*c_b C [b; i]*c_b C [c; l]*c_b C [d; k]
  +c_b C [a; k]*c_b C [b; l]*c_b C [c; i]*c_b C [d; j]
  +c_b C [a; l]*c_b C [b; k]*c_b C [c; j]*c_b C [d; i]
  -c_b C [a; j]*c_b C [b; k]*c_b C [c; l]*c_b C [d; i]
  -c_b C [a; j]*c_b C [b; l]*c_b C [c; i]*c_b C [d; k]
  -c_b C [a; k]*c_b C [b; l]*c_b C [c; j]*c_b C [d; i]
  -c_b C [a; k]*c_b C [b; i]*c_b C [c; l]*c_b C [d; j]
  -c_b C [a; l]*c_b C [b; i]*c_b C [c; j]*c_b C [d; k]
  -c_b C [a; l]*c_b C [b; k]*c_b C [c; i]*c_b C [d; j])).
(** clusteranalysis.f90 24-34: the element itself, then its signed copies *)
Definition wc_aa : writes := fun row => match row with
  | [a; b; i; j] =>
    [([a; b; i; j], false); ([b; a; i; j], true); ([a; b; j; i], true);
     ([b; a; j; i], false)]
  | _ => [] end.
(** clusteranalysis.f90 60-70: the element itself, then its signed copies *)
Definition wc_bb : writes := fun row => match row with
  | [a; b; i; j] =>
    [([a; b; i; j], false); ([b; a; i; j], true); ([a; b; j; i], true);
     ([b; a; j; i], false)]
  | _ => [] end.
(** clusteranalysis.f90 102-162: the element itself, then its signed copies *)
Definition wc_aaa : writes := fun row => match row with
  | [a; b; c; i; j; k] =>
    [([a; b; c; i; j; k], false); ([a; b; c; k; i; j], false); ([a; b; c; j; k; i], false);
     ([a; b; c; i; k; j], true); ([a; b; c; j; i; k], true); ([a; b; c; k; j; i], true);
     ([b; a; c; i; j; k], true); ([b; a; c; k; i; j], true); ([b; a; c; j; k; i], true);
     ([b; a; c; i; k; j], false); ([b; a; c; j; i; k], false); ([b; a; c; k; j; i], false);
     ([a; c; b; i; j; k], true); ([a; c; b; k; i; j], true); ([a; c; b; j; k; i], true);
     ([a; c; b; i; k; j], false); ([a; c; b; j; i; k], false); ([a; c; b; k; j; i], false);
     ([c; b; a; i; j; k], true); ([c; b; a; k; i; j], true); ([c; b; a; j; k; i], true);
     ([c; b; a; i; k; j], false); ([c; b; a; j; i; k], false); ([c; b; a; k; j; i], false);
     ([b; c; a; i; j; k], false); ([b; c; a; k; i; j], false); ([b; c; a; j; k; i], false);
     ([b; c; a; i; k; j], true); ([b; c; a; j; i; k], true); ([b; c; a; k; j; i], true);
     ([c; a; b; i; j; k], false); ([c; a; b; k; i; j], false); ([c; a; b; j; k; i], false);
     ([c; a; b; i; k; j], true); ([c; a; b; j; i; k], true); ([c; a; b; k; j; i], true)]
  | _ => [] end.
(** clusteranalysis.f90 177-193: the element itself, then its signed copies *)
Definition wc_aab : writes := fun row => match row with
  | [a; b; c; i; j; k] =>
    [([a; b; c; i; j; k], false); ([b; a; c; i; j; k], true); ([a; b; c; j; i; k], true);
     ([b; a; c; j; i; k], false)]
  | _ => [] end.
(** clusteranalysis.f90 207-223: the element itself, then its signed copies *)
Definition wc_abb : writes := fun row => match row with
  | [a; b; c; i; j; k] =>
    [([a; b; c; i; j; k], false); ([a; c; b; i; j; k], true); ([a; b; c; i; k; j], true);
     ([a; c; b; i; k; j], false)]
  | _ => [] end.
(** clusteranalysis.f90 237-297: the element itself, then its signed copies *)
Definition wc_bbb : writes := fun row => match row with
  | [a; b; c; i; j; k] =>
    [([a; b; c; i; j; k], false); ([a; b; c; k; i; j], false); ([a; b; c; j; k; i], false);
     ([a; b; c; i; k; j], true); ([a; b; c; j; i; k], true); ([a; b; c; k; j; i], true);
     ([b; a; c; i; j; k], true); ([b; a; c; k; i; j], true); ([b; a; c; j; k; i], true);
     ([b; a; c; i; k; j], false); ([b; a; c; j; i; k], false); ([b; a; c; k; j; i], false);
     ([a; c; b; i; j; k], true); ([a; c; b; k; i; j], true); ([a; c; b; j; k; i], true);
     ([a; c; b; i; k; j], false); ([a; c; b; j; i; k], false); ([a; c; b; k; j; i], false);
     ([c; b; a; i; j; k], true); ([c; b; a; k; i; j], true); ([c; b; a; j; k; i], true);
     ([c; b; a; i; k; j], false); ([c; b; a; j; i; k], false); ([c; b; a; k; j; i], false);
     ([b; c; a; i; j; k], false); ([b; c; a; k; i; j], false); ([b; c; a; j; k; i], false);
     ([b; c; a; i; k; j], true); ([b; c; a; j; i; k], true); ([b; c; a; k; j; i], true);
     ([c; a; b; i; j; k], false); ([c; a; b; k; i; j], false); ([c; a; b; j; k; i], false);
     ([c; a; b; i; k; j], true); ([c; a; b; j; i; k], true); ([c; a; b; k; j; i], true)]
  | _ => [] end.

(** [if (abs(c) > 0.0d0) then t = ... else t = 0], lines 24-30 and its six siblings. *)
Definition when_nonzero (c t : R) : R := if Rlt_dec 0 (Rabs c) then t else 0.

(** Array shapes (declarations, lines 11-16 and 83-93). *)
Definition sh_aa (d : dims) := [nua d; nua d; noa d; noa d].
Definition sh_ab (d : dims) := [nua d; nub d; noa d; nob d].
Definition sh_bb (d : dims) := [nub d; nub d; nob d; nob d].
Definition sh_aaa (d : dims) := [nua d; nua d; nua d; noa d; noa d; noa d].
Definition sh_aab (d : dims) := [nua d; nua d; nub d; noa d; noa d; nob d].
Definition sh_abb (d : dims) := [nua d; nub d; nub d; noa d; nob d; nob d].
Definition sh_bbb (d : dims) := [nub d; nub d; nub d; nob d; nob d; nob d].

(** One block: the loop nest, the value computed for each row, the assignments. *)
Definition analyse_block (shape : list nat) (W : writes) (loops : list (option nat * nat)) (value : list nat -> R) : option tensor :=
  let rows := nest [] loops in
  scatter shape W (map (map S) rows) (map value rows) (Some zero_tensor).

Definition val2 (c : tensor) (f : nat -> nat -> nat -> nat -> R) (r : list nat) : R :=
  match r with [a; b; i; j] => when_nonzero (c [a; b; i; j]) (f a b i j) | _ => 0 end.
Definition val3 (c : tensor) (f : nat -> nat -> nat -> nat -> nat -> nat -> R) (r : list nat) : R :=
  match r with [a; b; c'; i; j; k] => when_nonzero (c [a; b; c'; i; j; k]) (f a b c' i j k) | _ => 0 end.

(** lines 19-38 *)
Definition t2_aa (d : dims) (C : ci3) : option tensor :=
  analyse_block (sh_aa d) wc_aa [(None, nua d); (Some 0, nua d); (None, noa d); (Some 2, noa d)]%nat (val2 (c_aa C) (f_aa C)).
(** lines 40-54 (no copies) *)
Definition wc_ab : writes := fun row => [(row, false)].
Definition t2_ab (d : dims) (C : ci3) : option tensor :=
  analyse_block (sh_ab d) wc_ab [(None, nua d); (None, nub d); (None, noa d); (None, nob d)] (val2 (c_ab C) (f_ab C)).
(** lines 56-75 *)
Definition t2_bb (d : dims) (C : ci3) : option tensor :=
  analyse_block (sh_bb d) wc_bb [(None, nub d); (Some 0, nub d); (None, nob d); (Some 2, nob d)]%nat (val2 (c_bb C) (f_bb C)).
(** lines 96-167 *)
Definition t3_aaa (d : dims) (C : ci3) : option tensor :=
  analyse_block (sh_aaa d) wc_aaa [(None, nua d); (Some 0, nua d); (Some 1, nua d); (None, noa d); (Some 3, noa d); (Some 4, noa d)]%nat
    (val3 (c_aaa C) (f_aaa C)).
(** lines 169-198 *)
Definition t3_aab (d : dims) (C : ci3) : option tensor :=
  analyse_block (sh_aab d) wc_aab [(None, nua d); (Some 0, nua d); (None, nub d); (None, noa d); (Some 3, noa d); (None, nob d)]%nat
    (val3 (c_aab C) (f_aab C)).
(** lines 200-229 *)
Definition t3_abb (d : dims) (C : ci3) : option tensor :=
  analyse_block (sh_abb d) wc_abb [(None, nua d); (None, nub d); (Some 1, nub d); (None, noa d); (None, nob d); (Some 4, nob d)]%nat
    (val3 (c_abb C) (f_abb C)).
(** lines 231-302 *)
Definition t3_bbb (d : dims) (C : ci3) : option tensor :=
  analyse_block (sh_bbb d) wc_bbb [(None, nub d); (Some 0, nub d); (Some 1, nub d); (None, nob d); (Some 3, nob d); (Some 4, nob d)]%nat
    (val3 (c_bbb C) (f_bbb C)).

(** cluster_analysis_t4: one amplitude per listed quadruple (row of eight 1-based labels); lines 342-481, 483-543, 545-598,
    600-660, 662-801.  Rows and amplitudes come in two parallel arrays. *)
Definition t4_value (f : R -> nat -> nat -> nat -> nat -> nat -> nat -> nat -> nat -> R) (row : list nat) (c4 : R) : R :=
  match map pred row with [a; b; c; d; i; j; k; l] => f c4 a b c d i j k l | _ => 0 end.
Definition t4_list (f : R -> nat -> nat -> nat -> nat -> nat -> nat -> nat -> nat -> R) (rows : list (list nat)) (c4 : list R) : list R :=
  map (fun z => t4_value f (fst z) (snd z)) (combine rows c4).

(** cluster_analyze_ci 60-103: T1 = C1; with order > 3 it calls clusteranalysis.cluster_analysis_t4_full, which the Fortran
    module does not define (AttributeError). *)
Record quads := mkQuads { q_aaaa : list (list nat) * list R; q_aaab : list (list nat) * list R; q_aabb : list (list nat) * list R;
                          q_abbb : list (list nat) * list R; q_bbbb : list (list nat) * list R }.
Record t4s := mkT4 { r_aaaa : list R; r_aaab : list R; r_aabb : list R; r_abbb : list R; r_bbbb : list R }.
Definition cluster_analyze (d : dims) (order : nat) (C : ci3) (Q : quads) : option (ci3 * t4s) :=
  match t2_aa d C, t2_ab d C, t2_bb d C, t3_aaa d C, t3_aab d C, t3_abb d C, t3_bbb d C with
  | Some aa, Some ab, Some bb, Some aaa, Some aab, Some abb, Some bbb =>
      if (3 <? order)%nat then None else
      Some (mkCi (c_a C) (c_b C) aa ab bb aaa aab abb bbb,
            mkT4 (t4_list (f_aaaa C) (fst (q_aaaa Q)) (snd (q_aaaa Q))) (t4_list (f_aaab C) (fst (q_aaab Q)) (snd (q_aaab Q)))
                 (t4_list (f_aabb C) (fst (q_aabb Q)) (snd (q_aabb Q))) (t4_list (f_abbb C) (fst (q_abbb Q)) (snd (q_abbb Q)))
                 (t4_list (f_bbbb C) (fst (q_bbbb Q)) (snd (q_bbbb Q))))
  | _, _, _, _, _, _, _ => None
  end.

(** The arrays as indexed by get_cc_energy (CcsdModel.cc_energy) and get_ci_energy. *)
Definition as_amps (X : ci3) : amps :=
  mkAmps (fun a i => c_a X [a; i]) (fun a i => c_b X [a; i]) (fun a b i j => c_aa X [a; b; i; j]) (fun a b i j => c_ab X [a; b; i; j])
    (fun a b i j => c_bb X [a; b; i; j]) (fun a b c i j k => c_aaa X [a; b; c; i; j; k]) (fun a b c i j k => c_aab X [a; b; c; i; j; k])
    (fun a b c i j k => c_abb X [a; b; c; i; j; k]) (fun a b c i j k => c_bbb X [a; b; c; i; j; k]).
(** cc_energy.py 6-16 *)
Definition ci_energy (d : dims) (H : ints) (X : amps) : R :=
  let e1a := sumn (noa d) (fun m => sumn (nua d) (fun e => i_a_ov H m e * x_a X e m)) in
  let e1b := sumn (nob d) (fun m => sumn (nub d) (fun e => i_b_ov H m e * x_b X e m)) in
  let e2a := 1 / 4 * sumn (noa d) (fun m => sumn (noa d) (fun n => sumn (nua d) (fun e => sumn (nua d) (fun f => i_aa_oovv H m n e f * x_aa X e f m n)))) in
  let e2b := sumn (noa d) (fun m => sumn (nob d) (fun n => sumn (nua d) (fun e => sumn (nub d) (fun f => i_ab_oovv H m n e f * x_ab X e f m n)))) in
  let e2c := 1 / 4 * sumn (nob d) (fun m => sumn (nob d) (fun n => sumn (nub d) (fun e => sumn (nub d) (fun f => i_bb_oovv H m n e f * x_bb X e f m n)))) in
  e1a + e1b + e2a + e2b + e2c.
