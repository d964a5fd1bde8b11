(** Generated by tools/gen_sector.py: the TEA sigma vector with the similarity-transformed Hamiltonian put in, reified; arrays 0-65 as in CcsdReify.v (proof support). *)
From Coq Require Import Reals Arith List ZArith.
From Verif Require Import RSum IntegralsModel TensorObjs TensorAlg CcsdReify SectorModel.
Import ListNotations.
Local Open Scope nat_scope.
Definition r_tear_x3b (z a b c : nat) : ex := (ESum (0 + z) 1 (EMul (r_hb_H_a_vv (1 + z) a (0 + z)) (ET 66 [(0 + z); b; c]))).
Definition r_tear_x3b_1 (z a b c : nat) : ex := (EAdd (r_tear_x3b (0 + z) a b c) (EScale (1) 2 (ESum (0 + z) 3 (EMul (r_hb_H_b_vv (1 + z) c (0 + z)) (ET 66 [a; b; (0 + z)]))))).
Definition r_tear_x3b_2 (z a b c : nat) : ex := (EAdd (r_tear_x3b_1 (0 + z) a b c) (EScale (1) 4 (ESum (0 + z) 1 (ESum (1 + z) 1 (EMul (r_hb_H_aa_vvvv_1 (2 + z) a b (0 + z) (1 + z)) (ET 66 [(0 + z); (1 + z); c])))))).
Definition r_tear_x3b_3 (z a b c : nat) : ex := (EAdd (r_tear_x3b_2 (0 + z) a b c) (ESum (0 + z) 1 (ESum (1 + z) 3 (EMul (r_hb_H_ab_vvvv (2 + z) b c (0 + z) (1 + z)) (ET 66 [a; (0 + z); (1 + z)]))))).
Definition r_tear_x3b_4 (z a b c : nat) : ex := (ESub (r_tear_x3b_3 (0 + z) a b c) (r_tear_x3b_3 (0 + z) b a c)).
Definition s_tea_aab := r_tear_x3b_4.
