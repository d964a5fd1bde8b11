(** Generated by tools/gen_sector.py: the DEA2 sigma vector with the similarity-transformed Hamiltonian put in, reified; arrays 0-65 as in CcsdReify.v (proof support). *)
From Coq Require Import Reals Arith List ZArith.
From Verif Require Import RSum IntegralsModel TensorObjs TensorAlg CcsdReify SectorModel.
Import ListNotations.
Local Open Scope nat_scope.
Definition r_dea2r_x2b (z a b : nat) : ex := (ESum (0 + z) 1 (EMul (r_hb_H_a_vv (1 + z) a (0 + z)) (ET 66 [(0 + z); b]))).
Definition r_dea2r_x2b_1 (z a b : nat) : ex := (EAdd (r_dea2r_x2b (0 + z) a b) (ESum (0 + z) 3 (EMul (r_hb_H_b_vv (1 + z) b (0 + z)) (ET 66 [a; (0 + z)])))).
Definition r_dea2r_x2b_2 (z a b : nat) : ex := (EAdd (r_dea2r_x2b_1 (0 + z) a b) (ESum (0 + z) 1 (ESum (1 + z) 3 (EMul (r_hb_H_ab_vvvv (2 + z) a b (0 + z) (1 + z)) (ET 66 [(0 + z); (1 + z)]))))).
Definition s_dea2_ab := r_dea2r_x2b_2.
