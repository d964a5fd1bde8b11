(** Generated by tools/gen_hbardress.py: agreement, entry by entry and inside the dimensions, of the blocks of two sets of arrays of integrals. *)
From Coq Require Import Reals Arith.
From Verif Require Import TensorObjs.
Local Open Scope nat_scope.
(** All blocks build_hbar_ccsd writes (ccpy/hbar/hbar_ccsd.py) and the three oovv blocks it leaves alone; each vector over the dimensions of its own block. *)
Definition ints_agree (d : dims) (X Y : ints) : Prop :=
  (forall p q : nat, p < noa d -> q < noa d -> i_a_oo X p q = i_a_oo Y p q) /\
  (forall p q : nat, p < noa d -> q < nua d -> i_a_ov X p q = i_a_ov Y p q) /\
  (forall p q : nat, p < nua d -> q < nua d -> i_a_vv X p q = i_a_vv Y p q) /\
  (forall p q : nat, p < nob d -> q < nob d -> i_b_oo X p q = i_b_oo Y p q) /\
  (forall p q : nat, p < nob d -> q < nub d -> i_b_ov X p q = i_b_ov Y p q) /\
  (forall p q : nat, p < nub d -> q < nub d -> i_b_vv X p q = i_b_vv Y p q) /\
  (forall p q r s : nat, p < noa d -> q < noa d -> r < noa d -> s < noa d -> i_aa_oooo X p q r s = i_aa_oooo Y p q r s) /\
  (forall p q r s : nat, p < noa d -> q < noa d -> r < noa d -> s < nua d -> i_aa_ooov X p q r s = i_aa_ooov Y p q r s) /\
  (forall p q r s : nat, p < noa d -> q < noa d -> r < nua d -> s < nua d -> i_aa_oovv X p q r s = i_aa_oovv Y p q r s) /\
  (forall p q r s : nat, p < nua d -> q < noa d -> r < noa d -> s < noa d -> i_aa_vooo X p q r s = i_aa_vooo Y p q r s) /\
  (forall p q r s : nat, p < nua d -> q < noa d -> r < noa d -> s < nua d -> i_aa_voov X p q r s = i_aa_voov Y p q r s) /\
  (forall p q r s : nat, p < nua d -> q < noa d -> r < nua d -> s < nua d -> i_aa_vovv X p q r s = i_aa_vovv Y p q r s) /\
  (forall p q r s : nat, p < nua d -> q < nua d -> r < noa d -> s < nua d -> i_aa_vvov X p q r s = i_aa_vvov Y p q r s) /\
  (forall p q r s : nat, p < nua d -> q < nua d -> r < nua d -> s < nua d -> i_aa_vvvv X p q r s = i_aa_vvvv Y p q r s) /\
  (forall p q r s : nat, p < noa d -> q < nob d -> r < noa d -> s < nob d -> i_ab_oooo X p q r s = i_ab_oooo Y p q r s) /\
  (forall p q r s : nat, p < noa d -> q < nob d -> r < noa d -> s < nub d -> i_ab_ooov X p q r s = i_ab_ooov Y p q r s) /\
  (forall p q r s : nat, p < noa d -> q < nob d -> r < nua d -> s < nob d -> i_ab_oovo X p q r s = i_ab_oovo Y p q r s) /\
  (forall p q r s : nat, p < noa d -> q < nob d -> r < nua d -> s < nub d -> i_ab_oovv X p q r s = i_ab_oovv Y p q r s) /\
  (forall p q r s : nat, p < noa d -> q < nub d -> r < noa d -> s < nob d -> i_ab_ovoo X p q r s = i_ab_ovoo Y p q r s) /\
  (forall p q r s : nat, p < noa d -> q < nub d -> r < noa d -> s < nub d -> i_ab_ovov X p q r s = i_ab_ovov Y p q r s) /\
  (forall p q r s : nat, p < noa d -> q < nub d -> r < nua d -> s < nob d -> i_ab_ovvo X p q r s = i_ab_ovvo Y p q r s) /\
  (forall p q r s : nat, p < noa d -> q < nub d -> r < nua d -> s < nub d -> i_ab_ovvv X p q r s = i_ab_ovvv Y p q r s) /\
  (forall p q r s : nat, p < nua d -> q < nob d -> r < noa d -> s < nob d -> i_ab_vooo X p q r s = i_ab_vooo Y p q r s) /\
  (forall p q r s : nat, p < nua d -> q < nob d -> r < noa d -> s < nub d -> i_ab_voov X p q r s = i_ab_voov Y p q r s) /\
  (forall p q r s : nat, p < nua d -> q < nob d -> r < nua d -> s < nob d -> i_ab_vovo X p q r s = i_ab_vovo Y p q r s) /\
  (forall p q r s : nat, p < nua d -> q < nob d -> r < nua d -> s < nub d -> i_ab_vovv X p q r s = i_ab_vovv Y p q r s) /\
  (forall p q r s : nat, p < nua d -> q < nub d -> r < noa d -> s < nub d -> i_ab_vvov X p q r s = i_ab_vvov Y p q r s) /\
  (forall p q r s : nat, p < nua d -> q < nub d -> r < nua d -> s < nob d -> i_ab_vvvo X p q r s = i_ab_vvvo Y p q r s) /\
  (forall p q r s : nat, p < nua d -> q < nub d -> r < nua d -> s < nub d -> i_ab_vvvv X p q r s = i_ab_vvvv Y p q r s) /\
  (forall p q r s : nat, p < nob d -> q < nob d -> r < nob d -> s < nob d -> i_bb_oooo X p q r s = i_bb_oooo Y p q r s) /\
  (forall p q r s : nat, p < nob d -> q < nob d -> r < nob d -> s < nub d -> i_bb_ooov X p q r s = i_bb_ooov Y p q r s) /\
  (forall p q r s : nat, p < nob d -> q < nob d -> r < nub d -> s < nub d -> i_bb_oovv X p q r s = i_bb_oovv Y p q r s) /\
  (forall p q r s : nat, p < nub d -> q < nob d -> r < nob d -> s < nob d -> i_bb_vooo X p q r s = i_bb_vooo Y p q r s) /\
  (forall p q r s : nat, p < nub d -> q < nob d -> r < nob d -> s < nub d -> i_bb_voov X p q r s = i_bb_voov Y p q r s) /\
  (forall p q r s : nat, p < nub d -> q < nob d -> r < nub d -> s < nub d -> i_bb_vovv X p q r s = i_bb_vovv Y p q r s) /\
  (forall p q r s : nat, p < nub d -> q < nub d -> r < nob d -> s < nub d -> i_bb_vvov X p q r s = i_bb_vvov Y p q r s) /\
  (forall p q r s : nat, p < nub d -> q < nub d -> r < nub d -> s < nub d -> i_bb_vvvv X p q r s = i_bb_vvvv Y p q r s).
