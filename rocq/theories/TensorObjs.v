(** Common vocabulary for the array programs of ccpy: sizes of the orbital spaces, blocks of the one- and two-body Hamiltonian
    (ccpy/models/integrals.py, SortedIntegral, lines 6-34: one array per string of o/v; for spin case ab positions 0 and 2 are alpha),
    and amplitude operators (ccpy/models/operators.py, ClusterOperator: particle axes first, then hole axes).  An array is a total function of
    its indices; only indices below the axis lengths are ever summed over. *)
From Coq Require Import Reals Arith.
From Verif Require Import RSum IntegralsModel.
Open Scope R_scope.
Definition mat1 := nat -> R.
Definition mat5 := nat -> nat -> nat -> nat -> nat -> R.
Definition mat6 := nat -> nat -> nat -> nat -> nat -> nat -> R.
Record dims := mkDims { noa : nat; nua : nat; nob : nat; nub : nat }.
Record amps := mkAmps { x_a : mat2; x_b : mat2; x_aa : mat4; x_ab : mat4; x_bb : mat4; x_aaa : mat6; x_aab : mat6; x_abb : mat6; x_bbb : mat6 }.
Record ints := mkInts {
  i_a_oo : mat2;
  i_a_ov : mat2;
  i_a_vo : mat2;
  i_a_vv : mat2;
  i_b_oo : mat2;
  i_b_ov : mat2;
  i_b_vo : mat2;
  i_b_vv : mat2;
  i_aa_oooo : mat4;
  i_aa_ooov : mat4;
  i_aa_oovo : mat4;
  i_aa_oovv : mat4;
  i_aa_ovoo : mat4;
  i_aa_ovov : mat4;
  i_aa_ovvo : mat4;
  i_aa_ovvv : mat4;
  i_aa_vooo : mat4;
  i_aa_voov : mat4;
  i_aa_vovo : mat4;
  i_aa_vovv : mat4;
  i_aa_vvoo : mat4;
  i_aa_vvov : mat4;
  i_aa_vvvo : mat4;
  i_aa_vvvv : mat4;
  i_ab_oooo : mat4;
  i_ab_ooov : mat4;
  i_ab_oovo : mat4;
  i_ab_oovv : mat4;
  i_ab_ovoo : mat4;
  i_ab_ovov : mat4;
  i_ab_ovvo : mat4;
  i_ab_ovvv : mat4;
  i_ab_vooo : mat4;
  i_ab_voov : mat4;
  i_ab_vovo : mat4;
  i_ab_vovv : mat4;
  i_ab_vvoo : mat4;
  i_ab_vvov : mat4;
  i_ab_vvvo : mat4;
  i_ab_vvvv : mat4;
  i_bb_oooo : mat4;
  i_bb_ooov : mat4;
  i_bb_oovo : mat4;
  i_bb_oovv : mat4;
  i_bb_ovoo : mat4;
  i_bb_ovov : mat4;
  i_bb_ovvo : mat4;
  i_bb_ovvv : mat4;
  i_bb_vooo : mat4;
  i_bb_voov : mat4;
  i_bb_vovo : mat4;
  i_bb_vovv : mat4;
  i_bb_vvoo : mat4;
  i_bb_vvov : mat4;
  i_bb_vvvo : mat4;
  i_bb_vvvv : mat4 }.
Definition delta (i j : nat) : R := if Nat.eqb i j then 1 else 0.
