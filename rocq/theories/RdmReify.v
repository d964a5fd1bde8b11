(** Generated by tools/gen_rdm.py: reified density matrices, CCSD residual and energy (proof support). *)
From Coq Require Import Reals Arith List ZArith.
From Verif Require Import RSum IntegralsModel TensorObjs TensorAlg CcsdModel RdmModel.
Import ListNotations.
Local Open Scope nat_scope.
Definition r_rdm_rdm1_a_oo (z i j : nat) : ex := (ESub (ESub (EOpp (ESum (0 + z) 1 (EMul (ET 0 [(0 + z); i]) (ET 1 [(0 + z); j])))) (EScale (1) 2 (ESum (0 + z) 1 (ESum (1 + z) 1 (ESum (2 + z) 0 (EMul (ET 2 [(0 + z); (1 + z); i; (2 + z)]) (ET 3 [(0 + z); (1 + z); j; (2 + z)]))))))) (ESum (0 + z) 1 (ESum (1 + z) 3 (ESum (2 + z) 2 (EMul (ET 4 [(0 + z); (1 + z); i; (2 + z)]) (ET 5 [(0 + z); (1 + z); j; (2 + z)])))))).
Definition r_rdm_rdm1_b_oo (z i j : nat) : ex := (ESub (ESub (EOpp (ESum (0 + z) 3 (EMul (ET 6 [(0 + z); i]) (ET 7 [(0 + z); j])))) (EScale (1) 2 (ESum (0 + z) 3 (ESum (1 + z) 3 (ESum (2 + z) 2 (EMul (ET 8 [(0 + z); (1 + z); i; (2 + z)]) (ET 9 [(0 + z); (1 + z); j; (2 + z)]))))))) (ESum (0 + z) 1 (ESum (1 + z) 3 (ESum (2 + z) 0 (EMul (ET 4 [(0 + z); (1 + z); (2 + z); i]) (ET 5 [(0 + z); (1 + z); (2 + z); j])))))).
Definition r_rdm_rdm1_a_oo_1 (z i j : nat) : ex := (EAdd (r_rdm_rdm1_a_oo (0 + z) i j) (ET 10 [i; j])).
Definition r_rdm_rdm1_b_oo_1 (z i j : nat) : ex := (EAdd (r_rdm_rdm1_b_oo (0 + z) i j) (ET 10 [i; j])).
Definition r_rdm_rdm1_a_vv (z a b : nat) : ex := (EAdd (EAdd (ESum (0 + z) 0 (EMul (ET 0 [b; (0 + z)]) (ET 1 [a; (0 + z)]))) (EScale (1) 2 (ESum (0 + z) 1 (ESum (1 + z) 0 (ESum (2 + z) 0 (EMul (ET 2 [b; (0 + z); (1 + z); (2 + z)]) (ET 3 [a; (0 + z); (1 + z); (2 + z)]))))))) (ESum (0 + z) 3 (ESum (1 + z) 0 (ESum (2 + z) 2 (EMul (ET 4 [b; (0 + z); (1 + z); (2 + z)]) (ET 5 [a; (0 + z); (1 + z); (2 + z)])))))).
Definition r_rdm_rdm1_b_vv (z a b : nat) : ex := (EAdd (EAdd (ESum (0 + z) 2 (EMul (ET 6 [b; (0 + z)]) (ET 7 [a; (0 + z)]))) (EScale (1) 2 (ESum (0 + z) 3 (ESum (1 + z) 2 (ESum (2 + z) 2 (EMul (ET 8 [b; (0 + z); (1 + z); (2 + z)]) (ET 9 [a; (0 + z); (1 + z); (2 + z)]))))))) (ESum (0 + z) 1 (ESum (1 + z) 0 (ESum (2 + z) 2 (EMul (ET 4 [(0 + z); b; (1 + z); (2 + z)]) (ET 5 [(0 + z); a; (1 + z); (2 + z)])))))).
Definition r_rdm_rdm1_a_ov (z i a : nat) : ex := (ET 0 [a; i]).
Definition r_rdm_rdm1_b_ov (z i a : nat) : ex := (ET 6 [a; i]).
Definition r_rdm_rdm1_a_vo (z a i : nat) : ex := (ESub (ESub (ESub (ESub (ESub (EAdd (ESum (0 + z) 1 (ESum (1 + z) 0 (EMul (ET 0 [(0 + z); (1 + z)]) (ET 3 [a; (0 + z); i; (1 + z)])))) (ESum (0 + z) 3 (ESum (1 + z) 2 (EMul (ET 6 [(0 + z); (1 + z)]) (ET 5 [a; (0 + z); i; (1 + z)]))))) (ESum (0 + z) 1 (ESum (1 + z) 0 (EMul (EMul (ET 0 [(0 + z); (1 + z)]) (ET 1 [(0 + z); i])) (ET 1 [a; (1 + z)]))))) (EScale (1) 2 (ESum (0 + z) 1 (ESum (1 + z) 1 (ESum (2 + z) 0 (ESum (3 + z) 0 (EMul (EMul (ET 2 [(0 + z); (1 + z); (2 + z); (3 + z)]) (ET 3 [a; (1 + z); (2 + z); (3 + z)])) (ET 1 [(0 + z); i])))))))) (ESum (0 + z) 1 (ESum (1 + z) 3 (ESum (2 + z) 0 (ESum (3 + z) 2 (EMul (EMul (ET 4 [(0 + z); (1 + z); (2 + z); (3 + z)]) (ET 5 [a; (1 + z); (2 + z); (3 + z)])) (ET 1 [(0 + z); i]))))))) (EScale (1) 2 (ESum (0 + z) 1 (ESum (1 + z) 1 (ESum (2 + z) 0 (ESum (3 + z) 0 (EMul (EMul (ET 2 [(0 + z); (1 + z); (2 + z); (3 + z)]) (ET 3 [(0 + z); (1 + z); i; (3 + z)])) (ET 1 [a; (2 + z)])))))))) (ESum (0 + z) 1 (ESum (1 + z) 3 (ESum (2 + z) 0 (ESum (3 + z) 2 (EMul (EMul (ET 4 [(0 + z); (1 + z); (2 + z); (3 + z)]) (ET 5 [(0 + z); (1 + z); i; (3 + z)])) (ET 1 [a; (2 + z)]))))))).
Definition r_rdm_rdm1_b_vo (z a i : nat) : ex := (ESub (ESub (ESub (ESub (ESub (EAdd (ESum (0 + z) 3 (ESum (1 + z) 2 (EMul (ET 6 [(0 + z); (1 + z)]) (ET 9 [a; (0 + z); i; (1 + z)])))) (ESum (0 + z) 1 (ESum (1 + z) 0 (EMul (ET 0 [(0 + z); (1 + z)]) (ET 5 [(0 + z); a; (1 + z); i]))))) (ESum (0 + z) 3 (ESum (1 + z) 2 (EMul (EMul (ET 6 [(0 + z); (1 + z)]) (ET 7 [(0 + z); i])) (ET 7 [a; (1 + z)]))))) (EScale (1) 2 (ESum (0 + z) 3 (ESum (1 + z) 3 (ESum (2 + z) 2 (ESum (3 + z) 2 (EMul (EMul (ET 8 [(0 + z); (1 + z); (2 + z); (3 + z)]) (ET 9 [a; (1 + z); (2 + z); (3 + z)])) (ET 7 [(0 + z); i])))))))) (ESum (0 + z) 1 (ESum (1 + z) 3 (ESum (2 + z) 0 (ESum (3 + z) 2 (EMul (EMul (ET 4 [(0 + z); (1 + z); (2 + z); (3 + z)]) (ET 5 [(0 + z); a; (2 + z); (3 + z)])) (ET 7 [(1 + z); i]))))))) (EScale (1) 2 (ESum (0 + z) 3 (ESum (1 + z) 3 (ESum (2 + z) 2 (ESum (3 + z) 2 (EMul (EMul (ET 8 [(0 + z); (1 + z); (2 + z); (3 + z)]) (ET 9 [(0 + z); (1 + z); i; (3 + z)])) (ET 7 [a; (2 + z)])))))))) (ESum (0 + z) 1 (ESum (1 + z) 3 (ESum (2 + z) 0 (ESum (3 + z) 2 (EMul (EMul (ET 4 [(0 + z); (1 + z); (2 + z); (3 + z)]) (ET 5 [(0 + z); (1 + z); (2 + z); i])) (ET 7 [a; (3 + z)]))))))).
Definition r_rdm_rdm1_a_vo_1 (z a i : nat) : ex := (EAdd (r_rdm_rdm1_a_vo (0 + z) a i) (ET 1 [a; i])).
Definition r_rdm_rdm1_b_vo_1 (z a i : nat) : ex := (EAdd (r_rdm_rdm1_b_vo (0 + z) a i) (ET 7 [a; i])).
Definition r_rdmt_rdm1_a_oo (z i j : nat) : ex := (ESub (ESub (EOpp (ESum (0 + z) 1 (EMul (ET 0 [(0 + z); i]) (ET 1 [(0 + z); j])))) (EScale (1) 2 (ESum (0 + z) 1 (ESum (1 + z) 1 (ESum (2 + z) 0 (EMul (ET 2 [(0 + z); (1 + z); i; (2 + z)]) (ET 3 [(0 + z); (1 + z); j; (2 + z)]))))))) (ESum (0 + z) 1 (ESum (1 + z) 3 (ESum (2 + z) 2 (EMul (ET 4 [(0 + z); (1 + z); i; (2 + z)]) (ET 5 [(0 + z); (1 + z); j; (2 + z)])))))).
Definition r_rdmt_rdm1_b_oo (z i j : nat) : ex := (ESub (ESub (EOpp (ESum (0 + z) 3 (EMul (ET 6 [(0 + z); i]) (ET 7 [(0 + z); j])))) (EScale (1) 2 (ESum (0 + z) 3 (ESum (1 + z) 3 (ESum (2 + z) 2 (EMul (ET 8 [(0 + z); (1 + z); i; (2 + z)]) (ET 9 [(0 + z); (1 + z); j; (2 + z)]))))))) (ESum (0 + z) 1 (ESum (1 + z) 3 (ESum (2 + z) 0 (EMul (ET 4 [(0 + z); (1 + z); (2 + z); i]) (ET 5 [(0 + z); (1 + z); (2 + z); j])))))).
Definition r_rdmt_rdm1_a_oo_1 (z i j : nat) : ex := (EAdd (r_rdmt_rdm1_a_oo (0 + z) i j) (ET 10 [i; j])).
Definition r_rdmt_rdm1_b_oo_1 (z i j : nat) : ex := (EAdd (r_rdmt_rdm1_b_oo (0 + z) i j) (ET 10 [i; j])).
Definition r_rdmt_rdm1_a_vv (z a b : nat) : ex := (EAdd (EAdd (ESum (0 + z) 0 (EMul (ET 0 [b; (0 + z)]) (ET 1 [a; (0 + z)]))) (EScale (1) 2 (ESum (0 + z) 1 (ESum (1 + z) 0 (ESum (2 + z) 0 (EMul (ET 2 [b; (0 + z); (1 + z); (2 + z)]) (ET 3 [a; (0 + z); (1 + z); (2 + z)]))))))) (ESum (0 + z) 3 (ESum (1 + z) 0 (ESum (2 + z) 2 (EMul (ET 4 [b; (0 + z); (1 + z); (2 + z)]) (ET 5 [a; (0 + z); (1 + z); (2 + z)])))))).
Definition r_rdmt_rdm1_b_vv (z a b : nat) : ex := (EAdd (EAdd (ESum (0 + z) 2 (EMul (ET 6 [b; (0 + z)]) (ET 7 [a; (0 + z)]))) (EScale (1) 2 (ESum (0 + z) 3 (ESum (1 + z) 2 (ESum (2 + z) 2 (EMul (ET 8 [b; (0 + z); (1 + z); (2 + z)]) (ET 9 [a; (0 + z); (1 + z); (2 + z)]))))))) (ESum (0 + z) 1 (ESum (1 + z) 0 (ESum (2 + z) 2 (EMul (ET 4 [(0 + z); b; (1 + z); (2 + z)]) (ET 5 [(0 + z); a; (1 + z); (2 + z)])))))).
Definition r_rdmt_rdm1_a_ov (z i a : nat) : ex := (ET 0 [a; i]).
Definition r_rdmt_rdm1_b_ov (z i a : nat) : ex := (ET 6 [a; i]).
Definition r_rdmt_rdm1_a_vo (z a i : nat) : ex := (ESub (ESub (ESub (ESub (ESub (EAdd (ESum (0 + z) 1 (ESum (1 + z) 0 (EMul (ET 0 [(0 + z); (1 + z)]) (ET 3 [a; (0 + z); i; (1 + z)])))) (ESum (0 + z) 3 (ESum (1 + z) 2 (EMul (ET 6 [(0 + z); (1 + z)]) (ET 5 [a; (0 + z); i; (1 + z)]))))) (ESum (0 + z) 1 (ESum (1 + z) 0 (EMul (EMul (ET 0 [(0 + z); (1 + z)]) (ET 1 [(0 + z); i])) (ET 1 [a; (1 + z)]))))) (EScale (1) 2 (ESum (0 + z) 1 (ESum (1 + z) 1 (ESum (2 + z) 0 (ESum (3 + z) 0 (EMul (EMul (ET 2 [(0 + z); (1 + z); (2 + z); (3 + z)]) (ET 3 [a; (1 + z); (2 + z); (3 + z)])) (ET 1 [(0 + z); i])))))))) (ESum (0 + z) 1 (ESum (1 + z) 3 (ESum (2 + z) 0 (ESum (3 + z) 2 (EMul (EMul (ET 4 [(0 + z); (1 + z); (2 + z); (3 + z)]) (ET 5 [a; (1 + z); (2 + z); (3 + z)])) (ET 1 [(0 + z); i]))))))) (EScale (1) 2 (ESum (0 + z) 1 (ESum (1 + z) 1 (ESum (2 + z) 0 (ESum (3 + z) 0 (EMul (EMul (ET 2 [(0 + z); (1 + z); (2 + z); (3 + z)]) (ET 3 [(0 + z); (1 + z); i; (3 + z)])) (ET 1 [a; (2 + z)])))))))) (ESum (0 + z) 1 (ESum (1 + z) 3 (ESum (2 + z) 0 (ESum (3 + z) 2 (EMul (EMul (ET 4 [(0 + z); (1 + z); (2 + z); (3 + z)]) (ET 5 [(0 + z); (1 + z); i; (3 + z)])) (ET 1 [a; (2 + z)]))))))).
Definition r_rdmt_rdm1_b_vo (z a i : nat) : ex := (ESub (ESub (ESub (ESub (ESub (EAdd (ESum (0 + z) 3 (ESum (1 + z) 2 (EMul (ET 6 [(0 + z); (1 + z)]) (ET 9 [a; (0 + z); i; (1 + z)])))) (ESum (0 + z) 1 (ESum (1 + z) 0 (EMul (ET 0 [(0 + z); (1 + z)]) (ET 5 [(0 + z); a; (1 + z); i]))))) (ESum (0 + z) 3 (ESum (1 + z) 2 (EMul (EMul (ET 6 [(0 + z); (1 + z)]) (ET 7 [(0 + z); i])) (ET 7 [a; (1 + z)]))))) (EScale (1) 2 (ESum (0 + z) 3 (ESum (1 + z) 3 (ESum (2 + z) 2 (ESum (3 + z) 2 (EMul (EMul (ET 8 [(0 + z); (1 + z); (2 + z); (3 + z)]) (ET 9 [a; (1 + z); (2 + z); (3 + z)])) (ET 7 [(0 + z); i])))))))) (ESum (0 + z) 1 (ESum (1 + z) 3 (ESum (2 + z) 0 (ESum (3 + z) 2 (EMul (EMul (ET 4 [(0 + z); (1 + z); (2 + z); (3 + z)]) (ET 5 [(0 + z); a; (2 + z); (3 + z)])) (ET 7 [(1 + z); i]))))))) (EScale (1) 2 (ESum (0 + z) 3 (ESum (1 + z) 3 (ESum (2 + z) 2 (ESum (3 + z) 2 (EMul (EMul (ET 8 [(0 + z); (1 + z); (2 + z); (3 + z)]) (ET 9 [(0 + z); (1 + z); i; (3 + z)])) (ET 7 [a; (2 + z)])))))))) (ESum (0 + z) 1 (ESum (1 + z) 3 (ESum (2 + z) 0 (ESum (3 + z) 2 (EMul (EMul (ET 4 [(0 + z); (1 + z); (2 + z); (3 + z)]) (ET 5 [(0 + z); (1 + z); (2 + z); i])) (ET 7 [a; (3 + z)]))))))).
Definition r_rdmt_rdm1_a_vo_1 (z a i : nat) : ex := (EAdd (r_rdmt_rdm1_a_vo (0 + z) a i) (ET 1 [a; i])).
Definition r_rdmt_rdm1_b_vo_1 (z a i : nat) : ex := (EAdd (r_rdmt_rdm1_b_vo (0 + z) a i) (ET 7 [a; i])).
Definition r_rdmt_rdm1_a_oo_2 (z i j : nat) : ex := (EAdd (r_rdmt_rdm1_a_oo_1 (0 + z) i j) (ESub (ESub (EScale (-1) 12 (ESum (0 + z) 1 (ESum (1 + z) 1 (ESum (2 + z) 1 (ESum (3 + z) 0 (ESum (4 + z) 0 (EMul (ET 11 [(0 + z); (1 + z); (2 + z); i; (3 + z); (4 + z)]) (ET 12 [(0 + z); (1 + z); (2 + z); j; (3 + z); (4 + z)])))))))) (EScale (1) 2 (ESum (0 + z) 1 (ESum (1 + z) 1 (ESum (2 + z) 3 (ESum (3 + z) 0 (ESum (4 + z) 2 (EMul (ET 13 [(0 + z); (1 + z); (2 + z); i; (3 + z); (4 + z)]) (ET 14 [(0 + z); (1 + z); (2 + z); j; (3 + z); (4 + z)]))))))))) (EScale (1) 4 (ESum (0 + z) 1 (ESum (1 + z) 3 (ESum (2 + z) 3 (ESum (3 + z) 2 (ESum (4 + z) 2 (EMul (ET 15 [(0 + z); (1 + z); (2 + z); i; (3 + z); (4 + z)]) (ET 16 [(0 + z); (1 + z); (2 + z); j; (3 + z); (4 + z)])))))))))).
Definition r_rdmt_rdm1_b_oo_2 (z i j : nat) : ex := (EAdd (r_rdmt_rdm1_b_oo_1 (0 + z) i j) (ESub (ESub (EScale (-1) 12 (ESum (0 + z) 3 (ESum (1 + z) 3 (ESum (2 + z) 3 (ESum (3 + z) 2 (ESum (4 + z) 2 (EMul (ET 17 [(0 + z); (1 + z); (2 + z); (3 + z); (4 + z); i]) (ET 18 [(0 + z); (1 + z); (2 + z); (3 + z); (4 + z); j])))))))) (EScale (1) 2 (ESum (0 + z) 1 (ESum (1 + z) 3 (ESum (2 + z) 3 (ESum (3 + z) 0 (ESum (4 + z) 2 (EMul (ET 15 [(0 + z); (1 + z); (2 + z); (3 + z); (4 + z); i]) (ET 16 [(0 + z); (1 + z); (2 + z); (3 + z); (4 + z); j]))))))))) (EScale (1) 4 (ESum (0 + z) 1 (ESum (1 + z) 1 (ESum (2 + z) 3 (ESum (3 + z) 0 (ESum (4 + z) 0 (EMul (ET 13 [(0 + z); (1 + z); (2 + z); (3 + z); (4 + z); i]) (ET 14 [(0 + z); (1 + z); (2 + z); (3 + z); (4 + z); j])))))))))).
Definition r_rdmt_rdm1_a_vv_1 (z a b : nat) : ex := (EAdd (r_rdmt_rdm1_a_vv (0 + z) a b) (EAdd (EAdd (EScale (1) 12 (ESum (0 + z) 1 (ESum (1 + z) 1 (ESum (2 + z) 0 (ESum (3 + z) 0 (ESum (4 + z) 0 (EMul (ET 11 [b; (0 + z); (1 + z); (2 + z); (3 + z); (4 + z)]) (ET 12 [a; (0 + z); (1 + z); (2 + z); (3 + z); (4 + z)])))))))) (EScale (1) 2 (ESum (0 + z) 1 (ESum (1 + z) 3 (ESum (2 + z) 0 (ESum (3 + z) 0 (ESum (4 + z) 2 (EMul (ET 13 [b; (0 + z); (1 + z); (2 + z); (3 + z); (4 + z)]) (ET 14 [a; (0 + z); (1 + z); (2 + z); (3 + z); (4 + z)]))))))))) (EScale (1) 4 (ESum (0 + z) 3 (ESum (1 + z) 3 (ESum (2 + z) 0 (ESum (3 + z) 2 (ESum (4 + z) 2 (EMul (ET 15 [b; (0 + z); (1 + z); (2 + z); (3 + z); (4 + z)]) (ET 16 [a; (0 + z); (1 + z); (2 + z); (3 + z); (4 + z)])))))))))).
Definition r_rdmt_rdm1_b_vv_1 (z a b : nat) : ex := (EAdd (r_rdmt_rdm1_b_vv (0 + z) a b) (EAdd (EAdd (EScale (1) 12 (ESum (0 + z) 3 (ESum (1 + z) 3 (ESum (2 + z) 2 (ESum (3 + z) 2 (ESum (4 + z) 2 (EMul (ET 17 [(0 + z); (1 + z); b; (2 + z); (3 + z); (4 + z)]) (ET 18 [(0 + z); (1 + z); a; (2 + z); (3 + z); (4 + z)])))))))) (EScale (1) 2 (ESum (0 + z) 1 (ESum (1 + z) 3 (ESum (2 + z) 0 (ESum (3 + z) 2 (ESum (4 + z) 2 (EMul (ET 15 [(0 + z); (1 + z); b; (2 + z); (3 + z); (4 + z)]) (ET 16 [(0 + z); (1 + z); a; (2 + z); (3 + z); (4 + z)]))))))))) (EScale (1) 4 (ESum (0 + z) 1 (ESum (1 + z) 1 (ESum (2 + z) 0 (ESum (3 + z) 0 (ESum (4 + z) 2 (EMul (ET 13 [(0 + z); (1 + z); b; (2 + z); (3 + z); (4 + z)]) (ET 14 [(0 + z); (1 + z); a; (2 + z); (3 + z); (4 + z)])))))))))).
Definition r_rdmt_rdm1_a_vo_2 (z a i : nat) : ex := (EAdd (r_rdmt_rdm1_a_vo_1 (0 + z) a i) (ESub (ESub (ESub (ESub (ESub (ESub (ESub (ESub (ESub (ESub (EAdd (EAdd (EScale (1) 4 (ESum (0 + z) 1 (ESum (1 + z) 1 (ESum (2 + z) 0 (ESum (3 + z) 0 (EMul (ET 2 [(0 + z); (1 + z); (2 + z); (3 + z)]) (ET 12 [a; (0 + z); (1 + z); i; (2 + z); (3 + z)]))))))) (ESum (0 + z) 1 (ESum (1 + z) 3 (ESum (2 + z) 0 (ESum (3 + z) 2 (EMul (ET 4 [(0 + z); (1 + z); (2 + z); (3 + z)]) (ET 14 [a; (0 + z); (1 + z); i; (2 + z); (3 + z)]))))))) (EScale (1) 4 (ESum (0 + z) 3 (ESum (1 + z) 3 (ESum (2 + z) 2 (ESum (3 + z) 2 (EMul (ET 8 [(0 + z); (1 + z); (2 + z); (3 + z)]) (ET 16 [a; (0 + z); (1 + z); i; (2 + z); (3 + z)])))))))) (EScale (1) 4 (ESum (0 + z) 1 (ESum (1 + z) 1 (ESum (2 + z) 1 (ESum (3 + z) 0 (ESum (4 + z) 0 (ESum (5 + z) 0 (EMul (EMul (ET 11 [(0 + z); (1 + z); (2 + z); (3 + z); (4 + z); (5 + z)]) (ET 3 [a; (2 + z); (3 + z); (5 + z)])) (ET 3 [(0 + z); (1 + z); i; (4 + z)])))))))))) (EScale (1) 2 (ESum (0 + z) 1 (ESum (1 + z) 1 (ESum (2 + z) 3 (ESum (3 + z) 0 (ESum (4 + z) 0 (ESum (5 + z) 2 (EMul (EMul (ET 13 [(0 + z); (1 + z); (2 + z); (3 + z); (4 + z); (5 + z)]) (ET 5 [a; (2 + z); (3 + z); (5 + z)])) (ET 3 [(0 + z); (1 + z); i; (4 + z)])))))))))) (EScale (1) 2 (ESum (0 + z) 1 (ESum (1 + z) 1 (ESum (2 + z) 3 (ESum (3 + z) 0 (ESum (4 + z) 0 (ESum (5 + z) 2 (EMul (EMul (ET 13 [(0 + z); (1 + z); (2 + z); (3 + z); (4 + z); (5 + z)]) (ET 3 [a; (1 + z); (3 + z); (4 + z)])) (ET 5 [(0 + z); (2 + z); i; (5 + z)])))))))))) (ESum (0 + z) 1 (ESum (1 + z) 3 (ESum (2 + z) 3 (ESum (3 + z) 0 (ESum (4 + z) 2 (ESum (5 + z) 2 (EMul (EMul (ET 15 [(0 + z); (1 + z); (2 + z); (3 + z); (4 + z); (5 + z)]) (ET 5 [a; (2 + z); (3 + z); (5 + z)])) (ET 5 [(0 + z); (1 + z); i; (4 + z)]))))))))) (EScale (1) 12 (ESum (0 + z) 1 (ESum (1 + z) 1 (ESum (2 + z) 1 (ESum (3 + z) 0 (ESum (4 + z) 0 (ESum (5 + z) 0 (EMul (EMul (ET 11 [(0 + z); (1 + z); (2 + z); (3 + z); (4 + z); (5 + z)]) (ET 12 [a; (1 + z); (2 + z); (3 + z); (4 + z); (5 + z)])) (ET 1 [(0 + z); i])))))))))) (EScale (1) 2 (ESum (0 + z) 1 (ESum (1 + z) 1 (ESum (2 + z) 3 (ESum (3 + z) 0 (ESum (4 + z) 0 (ESum (5 + z) 2 (EMul (EMul (ET 13 [(0 + z); (1 + z); (2 + z); (3 + z); (4 + z); (5 + z)]) (ET 14 [a; (1 + z); (2 + z); (3 + z); (4 + z); (5 + z)])) (ET 1 [(0 + z); i])))))))))) (EScale (1) 4 (ESum (0 + z) 1 (ESum (1 + z) 3 (ESum (2 + z) 3 (ESum (3 + z) 0 (ESum (4 + z) 2 (ESum (5 + z) 2 (EMul (EMul (ET 15 [(0 + z); (1 + z); (2 + z); (3 + z); (4 + z); (5 + z)]) (ET 16 [a; (1 + z); (2 + z); (3 + z); (4 + z); (5 + z)])) (ET 1 [(0 + z); i])))))))))) (EScale (1) 12 (ESum (0 + z) 1 (ESum (1 + z) 1 (ESum (2 + z) 1 (ESum (3 + z) 0 (ESum (4 + z) 0 (ESum (5 + z) 0 (EMul (EMul (ET 11 [(0 + z); (1 + z); (2 + z); (3 + z); (4 + z); (5 + z)]) (ET 12 [(0 + z); (1 + z); (2 + z); i; (4 + z); (5 + z)])) (ET 1 [a; (3 + z)])))))))))) (EScale (1) 2 (ESum (0 + z) 1 (ESum (1 + z) 1 (ESum (2 + z) 3 (ESum (3 + z) 0 (ESum (4 + z) 0 (ESum (5 + z) 2 (EMul (EMul (ET 13 [(0 + z); (1 + z); (2 + z); (3 + z); (4 + z); (5 + z)]) (ET 14 [(0 + z); (1 + z); (2 + z); i; (4 + z); (5 + z)])) (ET 1 [a; (3 + z)])))))))))) (EScale (1) 4 (ESum (0 + z) 1 (ESum (1 + z) 3 (ESum (2 + z) 3 (ESum (3 + z) 0 (ESum (4 + z) 2 (ESum (5 + z) 2 (EMul (EMul (ET 15 [(0 + z); (1 + z); (2 + z); (3 + z); (4 + z); (5 + z)]) (ET 16 [(0 + z); (1 + z); (2 + z); i; (4 + z); (5 + z)])) (ET 1 [a; (3 + z)]))))))))))).
Definition r_rdmt_rdm1_b_vo_2 (z a i : nat) : ex := (EAdd (r_rdmt_rdm1_b_vo_1 (0 + z) a i) (ESub (ESub (ESub (ESub (ESub (ESub (ESub (ESub (ESub (ESub (EAdd (EAdd (EScale (1) 4 (ESum (0 + z) 3 (ESum (1 + z) 3 (ESum (2 + z) 2 (ESum (3 + z) 2 (EMul (ET 8 [(0 + z); (1 + z); (2 + z); (3 + z)]) (ET 18 [a; (0 + z); (1 + z); i; (2 + z); (3 + z)]))))))) (ESum (0 + z) 1 (ESum (1 + z) 3 (ESum (2 + z) 0 (ESum (3 + z) 2 (EMul (ET 4 [(0 + z); (1 + z); (2 + z); (3 + z)]) (ET 16 [(0 + z); (1 + z); a; (2 + z); (3 + z); i]))))))) (EScale (1) 4 (ESum (0 + z) 1 (ESum (1 + z) 1 (ESum (2 + z) 0 (ESum (3 + z) 0 (EMul (ET 2 [(0 + z); (1 + z); (2 + z); (3 + z)]) (ET 14 [(0 + z); (1 + z); a; (2 + z); (3 + z); i])))))))) (EScale (1) 4 (ESum (0 + z) 3 (ESum (1 + z) 3 (ESum (2 + z) 3 (ESum (3 + z) 2 (ESum (4 + z) 2 (ESum (5 + z) 2 (EMul (EMul (ET 17 [(0 + z); (1 + z); (2 + z); (3 + z); (4 + z); (5 + z)]) (ET 9 [a; (2 + z); (3 + z); (5 + z)])) (ET 9 [(0 + z); (1 + z); i; (4 + z)])))))))))) (EScale (1) 2 (ESum (0 + z) 1 (ESum (1 + z) 3 (ESum (2 + z) 3 (ESum (3 + z) 0 (ESum (4 + z) 2 (ESum (5 + z) 2 (EMul (EMul (ET 15 [(0 + z); (1 + z); (2 + z); (3 + z); (4 + z); (5 + z)]) (ET 9 [a; (2 + z); (4 + z); (5 + z)])) (ET 5 [(0 + z); (1 + z); (3 + z); i])))))))))) (EScale (1) 2 (ESum (0 + z) 1 (ESum (1 + z) 3 (ESum (2 + z) 3 (ESum (3 + z) 0 (ESum (4 + z) 2 (ESum (5 + z) 2 (EMul (EMul (ET 15 [(0 + z); (1 + z); (2 + z); (3 + z); (4 + z); (5 + z)]) (ET 5 [(0 + z); a; (3 + z); (4 + z)])) (ET 9 [(1 + z); (2 + z); i; (5 + z)])))))))))) (ESum (0 + z) 1 (ESum (1 + z) 1 (ESum (2 + z) 3 (ESum (3 + z) 0 (ESum (4 + z) 0 (ESum (5 + z) 2 (EMul (EMul (ET 13 [(0 + z); (1 + z); (2 + z); (3 + z); (4 + z); (5 + z)]) (ET 5 [(1 + z); a; (4 + z); (5 + z)])) (ET 5 [(0 + z); (2 + z); (3 + z); i]))))))))) (EScale (1) 12 (ESum (0 + z) 3 (ESum (1 + z) 3 (ESum (2 + z) 3 (ESum (3 + z) 2 (ESum (4 + z) 2 (ESum (5 + z) 2 (EMul (EMul (ET 17 [(0 + z); (1 + z); (2 + z); (3 + z); (4 + z); (5 + z)]) (ET 18 [a; (1 + z); (2 + z); (3 + z); (4 + z); (5 + z)])) (ET 7 [(0 + z); i])))))))))) (EScale (1) 2 (ESum (0 + z) 1 (ESum (1 + z) 3 (ESum (2 + z) 3 (ESum (3 + z) 0 (ESum (4 + z) 2 (ESum (5 + z) 2 (EMul (EMul (ET 15 [(0 + z); (1 + z); (2 + z); (3 + z); (4 + z); (5 + z)]) (ET 16 [(0 + z); (1 + z); a; (3 + z); (4 + z); (5 + z)])) (ET 7 [(2 + z); i])))))))))) (EScale (1) 4 (ESum (0 + z) 1 (ESum (1 + z) 1 (ESum (2 + z) 3 (ESum (3 + z) 0 (ESum (4 + z) 0 (ESum (5 + z) 2 (EMul (EMul (ET 13 [(0 + z); (1 + z); (2 + z); (3 + z); (4 + z); (5 + z)]) (ET 14 [(0 + z); (1 + z); a; (3 + z); (4 + z); (5 + z)])) (ET 7 [(2 + z); i])))))))))) (EScale (1) 12 (ESum (0 + z) 3 (ESum (1 + z) 3 (ESum (2 + z) 3 (ESum (3 + z) 2 (ESum (4 + z) 2 (ESum (5 + z) 2 (EMul (EMul (ET 17 [(0 + z); (1 + z); (2 + z); (3 + z); (4 + z); (5 + z)]) (ET 18 [(0 + z); (1 + z); (2 + z); i; (4 + z); (5 + z)])) (ET 7 [a; (3 + z)])))))))))) (EScale (1) 2 (ESum (0 + z) 1 (ESum (1 + z) 3 (ESum (2 + z) 3 (ESum (3 + z) 0 (ESum (4 + z) 2 (ESum (5 + z) 2 (EMul (EMul (ET 15 [(0 + z); (1 + z); (2 + z); (3 + z); (4 + z); (5 + z)]) (ET 16 [(0 + z); (1 + z); (2 + z); (3 + z); (4 + z); i])) (ET 7 [a; (5 + z)])))))))))) (EScale (1) 4 (ESum (0 + z) 1 (ESum (1 + z) 1 (ESum (2 + z) 3 (ESum (3 + z) 0 (ESum (4 + z) 0 (ESum (5 + z) 2 (EMul (EMul (ET 13 [(0 + z); (1 + z); (2 + z); (3 + z); (4 + z); (5 + z)]) (ET 14 [(0 + z); (1 + z); (2 + z); (3 + z); (4 + z); i])) (ET 7 [a; (5 + z)]))))))))))).
Definition r_ccsd_X_a_ov (z m e : nat) : ex := (EAdd (ET 19 [m; e]) (EAdd (ESum (0 + z) 0 (ESum (1 + z) 1 (EMul (ET 20 [m; (0 + z); e; (1 + z)]) (ET 1 [(1 + z); (0 + z)])))) (ESum (0 + z) 2 (ESum (1 + z) 3 (EMul (ET 21 [m; (0 + z); e; (1 + z)]) (ET 7 [(1 + z); (0 + z)])))))).
Definition r_ccsd_X_b_ov (z m e : nat) : ex := (EAdd (ET 22 [m; e]) (EAdd (ESum (0 + z) 0 (ESum (1 + z) 1 (EMul (ET 21 [(0 + z); m; (1 + z); e]) (ET 1 [(1 + z); (0 + z)])))) (ESum (0 + z) 2 (ESum (1 + z) 3 (EMul (ET 23 [m; (0 + z); e; (1 + z)]) (ET 7 [(1 + z); (0 + z)])))))).
Definition r_ccsd_X_a_vv (z a e : nat) : ex := (EAdd (ET 24 [a; e]) (ESub (ESub (EAdd (ESum (0 + z) 0 (ESum (1 + z) 1 (EMul (ET 25 [a; (0 + z); e; (1 + z)]) (ET 1 [(1 + z); (0 + z)])))) (ESum (0 + z) 2 (ESum (1 + z) 3 (EMul (ET 26 [a; (0 + z); e; (1 + z)]) (ET 7 [(1 + z); (0 + z)]))))) (EScale (1) 2 (ESum (0 + z) 0 (ESum (1 + z) 0 (ESum (2 + z) 1 (EMul (ET 20 [(0 + z); (1 + z); e; (2 + z)]) (ET 3 [a; (2 + z); (0 + z); (1 + z)]))))))) (ESum (0 + z) 0 (ESum (1 + z) 2 (ESum (2 + z) 3 (EMul (ET 21 [(0 + z); (1 + z); e; (2 + z)]) (ET 5 [a; (2 + z); (0 + z); (1 + z)]))))))).
Definition r_ccsd_X_a_oo (z m i : nat) : ex := (EAdd (ET 27 [m; i]) (EAdd (EAdd (EAdd (EAdd (ESum (0 + z) 0 (ESum (1 + z) 1 (EMul (ET 28 [m; (0 + z); i; (1 + z)]) (ET 1 [(1 + z); (0 + z)])))) (ESum (0 + z) 2 (ESum (1 + z) 3 (EMul (ET 29 [m; (0 + z); i; (1 + z)]) (ET 7 [(1 + z); (0 + z)]))))) (ESum (0 + z) 1 (EMul (r_ccsd_X_a_ov (1 + z) m (0 + z)) (ET 1 [(0 + z); i])))) (EScale (1) 2 (ESum (0 + z) 0 (ESum (1 + z) 1 (ESum (2 + z) 1 (EMul (ET 20 [m; (0 + z); (1 + z); (2 + z)]) (ET 3 [(1 + z); (2 + z); i; (0 + z)]))))))) (ESum (0 + z) 2 (ESum (1 + z) 1 (ESum (2 + z) 3 (EMul (ET 21 [m; (0 + z); (1 + z); (2 + z)]) (ET 5 [(1 + z); (2 + z); i; (0 + z)]))))))).
Definition r_ccsd_X_b_vv (z a e : nat) : ex := (EAdd (ET 30 [a; e]) (ESub (ESub (EAdd (ESum (0 + z) 2 (ESum (1 + z) 3 (EMul (ET 31 [a; (0 + z); e; (1 + z)]) (ET 7 [(1 + z); (0 + z)])))) (ESum (0 + z) 0 (ESum (1 + z) 1 (EMul (ET 32 [(0 + z); a; (1 + z); e]) (ET 1 [(1 + z); (0 + z)]))))) (EScale (1) 2 (ESum (0 + z) 2 (ESum (1 + z) 2 (ESum (2 + z) 3 (EMul (ET 23 [(0 + z); (1 + z); e; (2 + z)]) (ET 9 [a; (2 + z); (0 + z); (1 + z)]))))))) (ESum (0 + z) 0 (ESum (1 + z) 2 (ESum (2 + z) 1 (EMul (ET 21 [(0 + z); (1 + z); (2 + z); e]) (ET 5 [(2 + z); a; (0 + z); (1 + z)]))))))).
Definition r_ccsd_X_b_oo (z m i : nat) : ex := (EAdd (ET 33 [m; i]) (EAdd (EAdd (EAdd (EAdd (ESum (0 + z) 2 (ESum (1 + z) 3 (EMul (ET 34 [m; (0 + z); i; (1 + z)]) (ET 7 [(1 + z); (0 + z)])))) (ESum (0 + z) 0 (ESum (1 + z) 1 (EMul (ET 35 [(0 + z); m; (1 + z); i]) (ET 1 [(1 + z); (0 + z)]))))) (ESum (0 + z) 3 (EMul (r_ccsd_X_b_ov (1 + z) m (0 + z)) (ET 7 [(0 + z); i])))) (EScale (1) 2 (ESum (0 + z) 2 (ESum (1 + z) 3 (ESum (2 + z) 3 (EMul (ET 23 [m; (0 + z); (1 + z); (2 + z)]) (ET 9 [(1 + z); (2 + z); i; (0 + z)]))))))) (ESum (0 + z) 0 (ESum (1 + z) 1 (ESum (2 + z) 3 (EMul (ET 21 [(0 + z); m; (1 + z); (2 + z)]) (ET 5 [(1 + z); (2 + z); (0 + z); i]))))))).
Definition r_ccsd_dT_a (z a i : nat) : ex := (EOpp (ESum (0 + z) 0 (EMul (r_ccsd_X_a_oo (1 + z) (0 + z) i) (ET 1 [a; (0 + z)])))).
Definition r_ccsd_dT_a_1 (z a i : nat) : ex := (EAdd (r_ccsd_dT_a (0 + z) a i) (ESum (0 + z) 1 (EMul (r_ccsd_X_a_vv (1 + z) a (0 + z)) (ET 1 [(0 + z); i])))).
Definition r_ccsd_dT_a_2 (z a i : nat) : ex := (EAdd (r_ccsd_dT_a_1 (0 + z) a i) (ESum (0 + z) 0 (ESum (1 + z) 1 (EMul (r_ccsd_X_a_ov (2 + z) (0 + z) (1 + z)) (ET 3 [a; (1 + z); i; (0 + z)]))))).
Definition r_ccsd_dT_a_3 (z a i : nat) : ex := (EAdd (r_ccsd_dT_a_2 (0 + z) a i) (ESum (0 + z) 2 (ESum (1 + z) 3 (EMul (r_ccsd_X_b_ov (2 + z) (0 + z) (1 + z)) (ET 5 [a; (1 + z); i; (0 + z)]))))).
Definition r_ccsd_dT_a_4 (z a i : nat) : ex := (EAdd (r_ccsd_dT_a_3 (0 + z) a i) (ESum (0 + z) 0 (ESum (1 + z) 1 (EMul (ET 36 [a; (0 + z); i; (1 + z)]) (ET 1 [(1 + z); (0 + z)]))))).
Definition r_ccsd_dT_a_5 (z a i : nat) : ex := (EAdd (r_ccsd_dT_a_4 (0 + z) a i) (ESum (0 + z) 2 (ESum (1 + z) 3 (EMul (ET 37 [a; (0 + z); i; (1 + z)]) (ET 7 [(1 + z); (0 + z)]))))).
Definition r_ccsd_dT_a_6 (z a i : nat) : ex := (ESub (r_ccsd_dT_a_5 (0 + z) a i) (EScale (1) 2 (ESum (0 + z) 0 (ESum (1 + z) 0 (ESum (2 + z) 1 (EMul (ET 28 [(0 + z); (1 + z); i; (2 + z)]) (ET 3 [a; (2 + z); (0 + z); (1 + z)]))))))).
Definition r_ccsd_dT_a_7 (z a i : nat) : ex := (ESub (r_ccsd_dT_a_6 (0 + z) a i) (ESum (0 + z) 0 (ESum (1 + z) 2 (ESum (2 + z) 3 (EMul (ET 29 [(0 + z); (1 + z); i; (2 + z)]) (ET 5 [a; (2 + z); (0 + z); (1 + z)])))))).
Definition r_ccsd_dT_a_8 (z a i : nat) : ex := (EAdd (r_ccsd_dT_a_7 (0 + z) a i) (EScale (1) 2 (ESum (0 + z) 0 (ESum (1 + z) 1 (ESum (2 + z) 1 (EMul (ET 25 [a; (0 + z); (1 + z); (2 + z)]) (ET 3 [(1 + z); (2 + z); i; (0 + z)]))))))).
Definition r_ccsd_dT_a_9 (z a i : nat) : ex := (EAdd (r_ccsd_dT_a_8 (0 + z) a i) (ESum (0 + z) 2 (ESum (1 + z) 1 (ESum (2 + z) 3 (EMul (ET 26 [a; (0 + z); (1 + z); (2 + z)]) (ET 5 [(1 + z); (2 + z); i; (0 + z)])))))).
Definition r_ccsd_res_a (z a i : nat) : ex := (EAdd (r_ccsd_dT_a_9 (0 + z) a i) (ET 38 [a; i])).
Definition r_ccsd_dT_b (z a i : nat) : ex := (EOpp (ESum (0 + z) 2 (EMul (r_ccsd_X_b_oo (1 + z) (0 + z) i) (ET 7 [a; (0 + z)])))).
Definition r_ccsd_dT_b_1 (z a i : nat) : ex := (EAdd (r_ccsd_dT_b (0 + z) a i) (ESum (0 + z) 3 (EMul (r_ccsd_X_b_vv (1 + z) a (0 + z)) (ET 7 [(0 + z); i])))).
Definition r_ccsd_dT_b_2 (z a i : nat) : ex := (EAdd (r_ccsd_dT_b_1 (0 + z) a i) (ESum (0 + z) 2 (ESum (1 + z) 3 (EMul (ET 39 [a; (0 + z); i; (1 + z)]) (ET 7 [(1 + z); (0 + z)]))))).
Definition r_ccsd_dT_b_3 (z a i : nat) : ex := (EAdd (r_ccsd_dT_b_2 (0 + z) a i) (ESum (0 + z) 0 (ESum (1 + z) 1 (EMul (ET 40 [(0 + z); a; (1 + z); i]) (ET 1 [(1 + z); (0 + z)]))))).
Definition r_ccsd_dT_b_4 (z a i : nat) : ex := (EAdd (r_ccsd_dT_b_3 (0 + z) a i) (ESum (0 + z) 0 (ESum (1 + z) 1 (EMul (r_ccsd_X_a_ov (2 + z) (0 + z) (1 + z)) (ET 5 [(1 + z); a; (0 + z); i]))))).
Definition r_ccsd_dT_b_5 (z a i : nat) : ex := (EAdd (r_ccsd_dT_b_4 (0 + z) a i) (ESum (0 + z) 2 (ESum (1 + z) 3 (EMul (r_ccsd_X_b_ov (2 + z) (0 + z) (1 + z)) (ET 9 [a; (1 + z); i; (0 + z)]))))).
Definition r_ccsd_dT_b_6 (z a i : nat) : ex := (ESub (r_ccsd_dT_b_5 (0 + z) a i) (EScale (1) 2 (ESum (0 + z) 2 (ESum (1 + z) 2 (ESum (2 + z) 3 (EMul (ET 34 [(0 + z); (1 + z); i; (2 + z)]) (ET 9 [a; (2 + z); (0 + z); (1 + z)]))))))).
Definition r_ccsd_dT_b_7 (z a i : nat) : ex := (ESub (r_ccsd_dT_b_6 (0 + z) a i) (ESum (0 + z) 0 (ESum (1 + z) 2 (ESum (2 + z) 1 (EMul (ET 35 [(0 + z); (1 + z); (2 + z); i]) (ET 5 [(2 + z); a; (0 + z); (1 + z)])))))).
Definition r_ccsd_dT_b_8 (z a i : nat) : ex := (EAdd (r_ccsd_dT_b_7 (0 + z) a i) (EScale (1) 2 (ESum (0 + z) 2 (ESum (1 + z) 3 (ESum (2 + z) 3 (EMul (ET 31 [a; (0 + z); (1 + z); (2 + z)]) (ET 9 [(1 + z); (2 + z); i; (0 + z)]))))))).
Definition r_ccsd_dT_b_9 (z a i : nat) : ex := (EAdd (r_ccsd_dT_b_8 (0 + z) a i) (ESum (0 + z) 0 (ESum (1 + z) 1 (ESum (2 + z) 3 (EMul (ET 32 [(0 + z); a; (1 + z); (2 + z)]) (ET 5 [(1 + z); (2 + z); (0 + z); i])))))).
Definition r_ccsd_res_b (z a i : nat) : ex := (EAdd (r_ccsd_dT_b_9 (0 + z) a i) (ET 41 [a; i])).
Definition r_ccsd_X_a_vv_1 (z a e : nat) : ex := (ESub (r_ccsd_X_a_vv (0 + z) a e) (ESum (0 + z) 0 (EMul (r_ccsd_X_a_ov (1 + z) (0 + z) e) (ET 1 [a; (0 + z)])))).
Definition r_ccsd_X_b_vv_1 (z a e : nat) : ex := (ESub (r_ccsd_X_b_vv (0 + z) a e) (ESum (0 + z) 2 (EMul (r_ccsd_X_b_ov (1 + z) (0 + z) e) (ET 7 [a; (0 + z)])))).
Definition r_ccsd_X_aa_ooov (z m n i e : nat) : ex := (ESum (0 + z) 1 (EMul (ET 20 [m; n; (0 + z); e]) (ET 1 [(0 + z); i]))).
Definition r_ccsd_X_aa_vovv (z a m e f : nat) : ex := (EOpp (ESum (0 + z) 0 (EMul (ET 20 [m; (0 + z); f; e]) (ET 1 [a; (0 + z)])))).
Definition r_ccsd_X_aa_oooo (z m n i j : nat) : ex := (EAdd (EScale (1) 2 (ET 42 [m; n; i; j])) (ESum (0 + z) 1 (EMul (EAdd (ET 28 [n; m; j; (0 + z)]) (EScale (1) 2 (r_ccsd_X_aa_ooov (1 + z) n m j (0 + z)))) (ET 1 [(0 + z); i])))).
Definition r_ccsd_X_aa_oooo_1 (z m n i j : nat) : ex := (ESub (r_ccsd_X_aa_oooo (0 + z) m n i j) (r_ccsd_X_aa_oooo (0 + z) m n j i)).
Definition r_ccsd_X_aa_voov (z a m i e : nat) : ex := (EAdd (ET 36 [a; m; i; e]) (ESub (ESum (0 + z) 1 (EMul (EAdd (ET 25 [a; m; (0 + z); e]) (EScale (1) 2 (r_ccsd_X_aa_vovv (1 + z) a m (0 + z) e))) (ET 1 [(0 + z); i]))) (ESum (0 + z) 0 (EMul (EAdd (ET 28 [(0 + z); m; i; e]) (EScale (1) 2 (r_ccsd_X_aa_ooov (1 + z) (0 + z) m i e))) (ET 1 [a; (0 + z)]))))).
Definition r_ccsd_L_amie (z a m i f : nat) : ex := (EAdd (ET 36 [a; m; i; f]) (EScale (1) 2 (ESum (0 + z) 1 (EMul (ET 25 [a; m; (0 + z); f]) (ET 1 [(0 + z); i]))))).
Definition r_ccsd_X_mnij (z m n i j : nat) : ex := (EAdd (ET 42 [m; n; i; j]) (ESum (0 + z) 1 (EMul (r_ccsd_X_aa_ooov (1 + z) m n i (0 + z)) (ET 1 [(0 + z); j])))).
Definition r_ccsd_X_aa_vooo (z a m i j : nat) : ex := (EAdd (EScale (1) 2 (ET 43 [a; m; i; j])) (ESub (ESum (0 + z) 1 (EMul (r_ccsd_L_amie (1 + z) a m i (0 + z)) (ET 1 [(0 + z); j]))) (EScale (1) 4 (ESum (0 + z) 0 (EMul (r_ccsd_X_mnij (1 + z) (0 + z) m i j) (ET 1 [a; (0 + z)])))))).
Definition r_ccsd_X_aa_vooo_1 (z a m i j : nat) : ex := (ESub (r_ccsd_X_aa_vooo (0 + z) a m i j) (r_ccsd_X_aa_vooo (0 + z) a m j i)).
Definition r_ccsd_L_amie_1 (z a n i e : nat) : ex := (ESum (0 + z) 0 (EMul (ET 28 [(0 + z); n; i; e]) (ET 1 [a; (0 + z)]))).
Definition r_ccsd_X_aa_vvov (z a b i e : nat) : ex := (EAdd (ET 44 [a; b; i; e]) (ESum (0 + z) 0 (EMul (r_ccsd_L_amie_1 (1 + z) a (0 + z) i e) (ET 1 [b; (0 + z)])))).
Definition r_ccsd_X_bb_ooov (z m n i e : nat) : ex := (ESum (0 + z) 3 (EMul (ET 23 [m; n; (0 + z); e]) (ET 7 [(0 + z); i]))).
Definition r_ccsd_X_bb_oooo (z m n i j : nat) : ex := (EAdd (EScale (1) 2 (ET 45 [m; n; i; j])) (ESum (0 + z) 3 (EMul (EAdd (ET 34 [n; m; j; (0 + z)]) (EScale (1) 2 (r_ccsd_X_bb_ooov (1 + z) n m j (0 + z)))) (ET 7 [(0 + z); i])))).
Definition r_ccsd_X_bb_oooo_1 (z m n i j : nat) : ex := (ESub (r_ccsd_X_bb_oooo (0 + z) m n i j) (r_ccsd_X_bb_oooo (0 + z) m n j i)).
Definition r_ccsd_X_bb_vovv (z a m e f : nat) : ex := (EOpp (ESum (0 + z) 2 (EMul (ET 23 [m; (0 + z); f; e]) (ET 7 [a; (0 + z)])))).
Definition r_ccsd_X_bb_voov (z a m i e : nat) : ex := (EAdd (ET 39 [a; m; i; e]) (ESub (ESum (0 + z) 3 (EMul (EAdd (ET 31 [a; m; (0 + z); e]) (EScale (1) 2 (r_ccsd_X_bb_vovv (1 + z) a m (0 + z) e))) (ET 7 [(0 + z); i]))) (ESum (0 + z) 2 (EMul (EAdd (ET 34 [(0 + z); m; i; e]) (EScale (1) 2 (r_ccsd_X_bb_ooov (1 + z) (0 + z) m i e))) (ET 7 [a; (0 + z)]))))).
Definition r_ccsd_L_amie_2 (z a m i f : nat) : ex := (EAdd (ET 39 [a; m; i; f]) (EScale (1) 2 (ESum (0 + z) 3 (EMul (ET 31 [a; m; (0 + z); f]) (ET 7 [(0 + z); i]))))).
Definition r_ccsd_X_mnij_1 (z m n i j : nat) : ex := (EAdd (ET 45 [m; n; i; j]) (ESum (0 + z) 3 (EMul (r_ccsd_X_bb_ooov (1 + z) m n i (0 + z)) (ET 7 [(0 + z); j])))).
Definition r_ccsd_X_bb_vooo (z a m i j : nat) : ex := (EAdd (EScale (1) 2 (ET 46 [a; m; i; j])) (ESub (ESum (0 + z) 3 (EMul (r_ccsd_L_amie_2 (1 + z) a m i (0 + z)) (ET 7 [(0 + z); j]))) (EScale (1) 4 (ESum (0 + z) 2 (EMul (r_ccsd_X_mnij_1 (1 + z) (0 + z) m i j) (ET 7 [a; (0 + z)])))))).
Definition r_ccsd_X_bb_vooo_1 (z a m i j : nat) : ex := (ESub (r_ccsd_X_bb_vooo (0 + z) a m i j) (r_ccsd_X_bb_vooo (0 + z) a m j i)).
Definition r_ccsd_L_amie_3 (z a n i e : nat) : ex := (ESum (0 + z) 2 (EMul (ET 34 [(0 + z); n; i; e]) (ET 7 [a; (0 + z)]))).
Definition r_ccsd_X_bb_vvov (z a b i e : nat) : ex := (EAdd (ET 47 [a; b; i; e]) (ESum (0 + z) 2 (EMul (r_ccsd_L_amie_3 (1 + z) a (0 + z) i e) (ET 7 [b; (0 + z)])))).
Definition r_ccsd_X_ab_ooov (z m n i e : nat) : ex := (ESum (0 + z) 1 (EMul (ET 21 [m; n; (0 + z); e]) (ET 1 [(0 + z); i]))).
Definition r_ccsd_X_ab_oovo (z n m e i : nat) : ex := (ESum (0 + z) 3 (EMul (ET 21 [n; m; e; (0 + z)]) (ET 7 [(0 + z); i]))).
Definition r_ccsd_X_ab_oooo (z m n i j : nat) : ex := (EAdd (ET 48 [m; n; i; j]) (EAdd (ESum (0 + z) 1 (EMul (EAdd (ET 35 [m; n; (0 + z); j]) (EScale (1) 2 (r_ccsd_X_ab_oovo (1 + z) m n (0 + z) j))) (ET 1 [(0 + z); i]))) (ESum (0 + z) 3 (EMul (EAdd (ET 29 [m; n; i; (0 + z)]) (EScale (1) 2 (r_ccsd_X_ab_ooov (1 + z) m n i (0 + z)))) (ET 7 [(0 + z); j]))))).
Definition r_ccsd_X_ab_vovv (z a m e f : nat) : ex := (EOpp (ESum (0 + z) 0 (EMul (ET 21 [(0 + z); m; e; f]) (ET 1 [a; (0 + z)])))).
Definition r_ccsd_X_ab_ovvv (z m a e f : nat) : ex := (EOpp (ESum (0 + z) 2 (EMul (ET 21 [m; (0 + z); e; f]) (ET 7 [a; (0 + z)])))).
Definition r_ccsd_X_ab_voov (z a m i e : nat) : ex := (EAdd (ET 37 [a; m; i; e]) (ESub (ESum (0 + z) 1 (EMul (EAdd (ET 26 [a; m; (0 + z); e]) (EScale (1) 2 (r_ccsd_X_ab_vovv (1 + z) a m (0 + z) e))) (ET 1 [(0 + z); i]))) (ESum (0 + z) 0 (EMul (EAdd (ET 29 [(0 + z); m; i; e]) (EScale (1) 2 (r_ccsd_X_ab_ooov (1 + z) (0 + z) m i e))) (ET 1 [a; (0 + z)]))))).
Definition r_ccsd_X_ab_ovvo (z m a e i : nat) : ex := (EAdd (ET 40 [m; a; e; i]) (ESub (ESum (0 + z) 3 (EMul (EAdd (ET 32 [m; a; e; (0 + z)]) (EScale (1) 2 (r_ccsd_X_ab_ovvv (1 + z) m a e (0 + z)))) (ET 7 [(0 + z); i]))) (ESum (0 + z) 2 (EMul (EAdd (ET 35 [m; (0 + z); e; i]) (EScale (1) 2 (r_ccsd_X_ab_oovo (1 + z) m (0 + z) e i))) (ET 7 [a; (0 + z)]))))).
Definition r_ccsd_X_ab_ovov (z m a i e : nat) : ex := (EAdd (ET 49 [m; a; i; e]) (ESub (ESum (0 + z) 1 (EMul (EAdd (ET 32 [m; a; (0 + z); e]) (EScale (1) 2 (r_ccsd_X_ab_ovvv (1 + z) m a (0 + z) e))) (ET 1 [(0 + z); i]))) (ESum (0 + z) 2 (EMul (EAdd (ET 29 [m; (0 + z); i; e]) (EScale (1) 2 (r_ccsd_X_ab_ooov (1 + z) m (0 + z) i e))) (ET 7 [a; (0 + z)]))))).
Definition r_ccsd_X_ab_vovo (z a m e i : nat) : ex := (ESub (ET 50 [a; m; e; i]) (ESub (ESum (0 + z) 0 (EMul (EAdd (ET 35 [(0 + z); m; e; i]) (EScale (1) 2 (r_ccsd_X_ab_oovo (1 + z) (0 + z) m e i))) (ET 1 [a; (0 + z)]))) (ESum (0 + z) 3 (EMul (EAdd (ET 26 [a; m; e; (0 + z)]) (EScale (1) 2 (r_ccsd_X_ab_vovv (1 + z) a m e (0 + z)))) (ET 7 [(0 + z); i]))))).
Definition r_ccsd_X_mnij_2 (z m n i j : nat) : ex := (EAdd (ET 48 [m; n; i; j]) (EAdd (ESum (0 + z) 3 (EMul (ET 29 [m; n; i; (0 + z)]) (ET 7 [(0 + z); j]))) (ESum (0 + z) 1 (EMul (ET 35 [m; n; (0 + z); j]) (ET 1 [(0 + z); i]))))).
Definition r_ccsd_L_mbej (z m b e j : nat) : ex := (EAdd (ET 40 [m; b; e; j]) (ESum (0 + z) 3 (EMul (ET 32 [m; b; e; (0 + z)]) (ET 7 [(0 + z); j])))).
Definition r_ccsd_X_ab_ovoo (z m b i j : nat) : ex := (EAdd (ET 51 [m; b; i; j]) (ESub (ESum (0 + z) 1 (EMul (r_ccsd_L_mbej (1 + z) m b (0 + z) j) (ET 1 [(0 + z); i]))) (ESum (0 + z) 2 (EMul (r_ccsd_X_mnij_2 (1 + z) m (0 + z) i j) (ET 7 [b; (0 + z)]))))).
Definition r_ccsd_L_amie_4 (z a m i f : nat) : ex := (ESum (0 + z) 1 (EMul (EAdd (ET 26 [a; m; (0 + z); f]) (r_ccsd_X_ab_vovv (1 + z) a m (0 + z) f)) (ET 1 [(0 + z); i]))).
Definition r_ccsd_X_ab_vooo (z a m i j : nat) : ex := (EAdd (ET 52 [a; m; i; j]) (ESum (0 + z) 3 (EMul (EAdd (ET 37 [a; m; i; (0 + z)]) (r_ccsd_L_amie_4 (1 + z) a m i (0 + z))) (ET 7 [(0 + z); j])))).
Definition r_ccsd_X_ab_vvvo (z a b e j : nat) : ex := (ESub (ET 53 [a; b; e; j]) (ESum (0 + z) 2 (EMul (ET 50 [a; (0 + z); e; j]) (ET 7 [b; (0 + z)])))).
Definition r_ccsd_X_ab_vvov (z a b i e : nat) : ex := (ESub (ET 54 [a; b; i; e]) (ESum (0 + z) 0 (EMul (ET 49 [(0 + z); b; i; e]) (ET 1 [a; (0 + z)])))).
Definition r_ccsd_I2A_voov (z a m i e : nat) : ex := (EAdd (r_ccsd_X_aa_voov (0 + z) a m i e) (EAdd (EScale (1) 2 (ESum (0 + z) 0 (ESum (1 + z) 1 (EMul (ET 20 [m; (0 + z); e; (1 + z)]) (ET 3 [a; (1 + z); i; (0 + z)]))))) (ESum (0 + z) 2 (ESum (1 + z) 3 (EMul (ET 21 [m; (0 + z); e; (1 + z)]) (ET 5 [a; (1 + z); i; (0 + z)])))))).
Definition r_ccsd_I2A_oooo (z m n i j : nat) : ex := (EAdd (r_ccsd_X_aa_oooo_1 (0 + z) m n i j) (EScale (1) 2 (ESum (0 + z) 1 (ESum (1 + z) 1 (EMul (ET 20 [m; n; (0 + z); (1 + z)]) (ET 3 [(0 + z); (1 + z); i; j])))))).
Definition r_ccsd_I2B_voov (z a m i e : nat) : ex := (EAdd (r_ccsd_X_ab_voov (0 + z) a m i e) (EScale (1) 2 (ESum (0 + z) 2 (ESum (1 + z) 3 (EMul (ET 23 [m; (0 + z); e; (1 + z)]) (ET 5 [a; (1 + z); i; (0 + z)])))))).
Definition r_ccsd_I2A_vooo (z a m i j : nat) : ex := (EAdd (r_ccsd_X_aa_vooo_1 (0 + z) a m i j) (EScale (1) 2 (ESum (0 + z) 1 (ESum (1 + z) 1 (EMul (EAdd (ET 25 [a; m; (0 + z); (1 + z)]) (EScale (1) 2 (r_ccsd_X_aa_vovv (2 + z) a m (0 + z) (1 + z)))) (ET 3 [(0 + z); (1 + z); i; j])))))).
Definition r_ccsd_tau (z a b i j : nat) : ex := (EAdd (EScale (1) 2 (ET 3 [a; b; i; j])) (EMul (ET 1 [a; i]) (ET 1 [b; j]))).
Definition r_ccsd_dT_aa (z a b i j : nat) : ex := (EScale (-1) 2 (ESum (0 + z) 0 (EMul (r_ccsd_I2A_vooo (1 + z) a (0 + z) i j) (ET 1 [b; (0 + z)])))).
Definition r_ccsd_dT_aa_1 (z a b i j : nat) : ex := (EAdd (r_ccsd_dT_aa (0 + z) a b i j) (EScale (1) 2 (ESum (0 + z) 1 (EMul (r_ccsd_X_aa_vvov (1 + z) a b i (0 + z)) (ET 1 [(0 + z); j]))))).
Definition r_ccsd_dT_aa_2 (z a b i j : nat) : ex := (EAdd (r_ccsd_dT_aa_1 (0 + z) a b i j) (EScale (1) 2 (ESum (0 + z) 1 (EMul (r_ccsd_X_a_vv_1 (1 + z) a (0 + z)) (ET 3 [(0 + z); b; i; j]))))).
Definition r_ccsd_dT_aa_3 (z a b i j : nat) : ex := (ESub (r_ccsd_dT_aa_2 (0 + z) a b i j) (EScale (1) 2 (ESum (0 + z) 0 (EMul (r_ccsd_X_a_oo (1 + z) (0 + z) i) (ET 3 [a; b; (0 + z); j]))))).
Definition r_ccsd_dT_aa_4 (z a b i j : nat) : ex := (EAdd (r_ccsd_dT_aa_3 (0 + z) a b i j) (ESum (0 + z) 0 (ESum (1 + z) 1 (EMul (r_ccsd_I2A_voov (2 + z) a (0 + z) i (1 + z)) (ET 3 [(1 + z); b; (0 + z); j]))))).
Definition r_ccsd_dT_aa_5 (z a b i j : nat) : ex := (EAdd (r_ccsd_dT_aa_4 (0 + z) a b i j) (ESum (0 + z) 2 (ESum (1 + z) 3 (EMul (r_ccsd_I2B_voov (2 + z) a (0 + z) i (1 + z)) (ET 5 [b; (1 + z); j; (0 + z)]))))).
Definition r_ccsd_dT_aa_6 (z a b i j : nat) : ex := (EAdd (r_ccsd_dT_aa_5 (0 + z) a b i j) (EScale (1) 8 (ESum (0 + z) 0 (ESum (1 + z) 0 (EMul (r_ccsd_I2A_oooo (2 + z) (0 + z) (1 + z) i j) (ET 3 [a; b; (0 + z); (1 + z)])))))).
Definition r_ccsd_dT_aa_7 (z a b i j : nat) : ex := (EAdd (r_ccsd_dT_aa_6 (0 + z) a b i j) (EScale (1) 4 (ESum (0 + z) 1 (ESum (1 + z) 1 (EMul (ET 55 [a; b; (0 + z); (1 + z)]) (r_ccsd_tau (2 + z) (0 + z) (1 + z) i j)))))).
Definition r_ccsd_res_aa (z a b i j : nat) : ex := (EAdd (r_ccsd_dT_aa_7 (0 + z) a b i j) (EScale (1) 4 (ET 56 [a; b; i; j]))).
Definition r_ccsd_I2A_voov_1 (z a m i e : nat) : ex := (EAdd (r_ccsd_X_aa_voov (0 + z) a m i e) (EAdd (ESum (0 + z) 0 (ESum (1 + z) 1 (EMul (ET 20 [(0 + z); m; (1 + z); e]) (ET 3 [a; (1 + z); i; (0 + z)])))) (ESum (0 + z) 2 (ESum (1 + z) 3 (EMul (ET 21 [m; (0 + z); e; (1 + z)]) (ET 5 [a; (1 + z); i; (0 + z)])))))).
Definition r_ccsd_I2B_voov_1 (z a m i e : nat) : ex := (EAdd (r_ccsd_X_ab_voov (0 + z) a m i e) (EAdd (ESum (0 + z) 0 (ESum (1 + z) 1 (EMul (ET 21 [(0 + z); m; (1 + z); e]) (ET 3 [a; (1 + z); i; (0 + z)])))) (ESum (0 + z) 2 (ESum (1 + z) 3 (EMul (ET 23 [(0 + z); m; (1 + z); e]) (ET 5 [a; (1 + z); i; (0 + z)])))))).
Definition r_ccsd_I2B_oooo (z m n i j : nat) : ex := (EAdd (r_ccsd_X_ab_oooo (0 + z) m n i j) (ESum (0 + z) 1 (ESum (1 + z) 3 (EMul (ET 21 [m; n; (0 + z); (1 + z)]) (ET 5 [(0 + z); (1 + z); i; j]))))).
Definition r_ccsd_I2B_vovo (z a m e i : nat) : ex := (ESub (r_ccsd_X_ab_vovo (0 + z) a m e i) (ESum (0 + z) 0 (ESum (1 + z) 3 (EMul (ET 21 [(0 + z); m; e; (1 + z)]) (ET 5 [a; (1 + z); (0 + z); i]))))).
Definition r_ccsd_I2B_ovoo (z m b i j : nat) : ex := (EAdd (r_ccsd_X_ab_ovoo (0 + z) m b i j) (ESum (0 + z) 1 (ESum (1 + z) 3 (EMul (EAdd (ET 32 [m; b; (0 + z); (1 + z)]) (EScale (1) 2 (r_ccsd_X_ab_ovvv (2 + z) m b (0 + z) (1 + z)))) (ET 5 [(0 + z); (1 + z); i; j]))))).
Definition r_ccsd_I2B_vooo (z a m i j : nat) : ex := (EAdd (r_ccsd_X_ab_vooo (0 + z) a m i j) (ESum (0 + z) 1 (ESum (1 + z) 3 (EMul (EAdd (ET 26 [a; m; (0 + z); (1 + z)]) (EScale (1) 2 (r_ccsd_X_ab_vovv (2 + z) a m (0 + z) (1 + z)))) (ET 5 [(0 + z); (1 + z); i; j]))))).
Definition r_ccsd_tau_1 (z a b i j : nat) : ex := (EAdd (ET 5 [a; b; i; j]) (EMul (ET 1 [a; i]) (ET 7 [b; j]))).
Definition r_ccsd_dT_ab (z a b i j : nat) : ex := (EOpp (ESum (0 + z) 0 (EMul (r_ccsd_I2B_ovoo (1 + z) (0 + z) b i j) (ET 1 [a; (0 + z)])))).
Definition r_ccsd_dT_ab_1 (z a b i j : nat) : ex := (ESub (r_ccsd_dT_ab (0 + z) a b i j) (ESum (0 + z) 2 (EMul (r_ccsd_I2B_vooo (1 + z) a (0 + z) i j) (ET 7 [b; (0 + z)])))).
Definition r_ccsd_dT_ab_2 (z a b i j : nat) : ex := (EAdd (r_ccsd_dT_ab_1 (0 + z) a b i j) (ESum (0 + z) 1 (EMul (r_ccsd_X_ab_vvvo (1 + z) a b (0 + z) j) (ET 1 [(0 + z); i])))).
Definition r_ccsd_dT_ab_3 (z a b i j : nat) : ex := (EAdd (r_ccsd_dT_ab_2 (0 + z) a b i j) (ESum (0 + z) 3 (EMul (r_ccsd_X_ab_vvov (1 + z) a b i (0 + z)) (ET 7 [(0 + z); j])))).
Definition r_ccsd_dT_ab_4 (z a b i j : nat) : ex := (EAdd (r_ccsd_dT_ab_3 (0 + z) a b i j) (ESum (0 + z) 1 (EMul (r_ccsd_X_a_vv_1 (1 + z) a (0 + z)) (ET 5 [(0 + z); b; i; j])))).
Definition r_ccsd_dT_ab_5 (z a b i j : nat) : ex := (EAdd (r_ccsd_dT_ab_4 (0 + z) a b i j) (ESum (0 + z) 3 (EMul (r_ccsd_X_b_vv_1 (1 + z) b (0 + z)) (ET 5 [a; (0 + z); i; j])))).
Definition r_ccsd_dT_ab_6 (z a b i j : nat) : ex := (ESub (r_ccsd_dT_ab_5 (0 + z) a b i j) (ESum (0 + z) 0 (EMul (r_ccsd_X_a_oo (1 + z) (0 + z) i) (ET 5 [a; b; (0 + z); j])))).
Definition r_ccsd_dT_ab_7 (z a b i j : nat) : ex := (ESub (r_ccsd_dT_ab_6 (0 + z) a b i j) (ESum (0 + z) 2 (EMul (r_ccsd_X_b_oo (1 + z) (0 + z) j) (ET 5 [a; b; i; (0 + z)])))).
Definition r_ccsd_dT_ab_8 (z a b i j : nat) : ex := (EAdd (r_ccsd_dT_ab_7 (0 + z) a b i j) (ESum (0 + z) 0 (ESum (1 + z) 1 (EMul (r_ccsd_I2A_voov_1 (2 + z) a (0 + z) i (1 + z)) (ET 5 [(1 + z); b; (0 + z); j]))))).
Definition r_ccsd_dT_ab_9 (z a b i j : nat) : ex := (EAdd (r_ccsd_dT_ab_8 (0 + z) a b i j) (ESum (0 + z) 2 (ESum (1 + z) 3 (EMul (r_ccsd_I2B_voov_1 (2 + z) a (0 + z) i (1 + z)) (ET 9 [(1 + z); b; (0 + z); j]))))).
Definition r_ccsd_dT_ab_10 (z a b i j : nat) : ex := (EAdd (r_ccsd_dT_ab_9 (0 + z) a b i j) (ESum (0 + z) 0 (ESum (1 + z) 1 (EMul (r_ccsd_X_ab_ovvo (2 + z) (0 + z) b (1 + z) j) (ET 3 [a; (1 + z); i; (0 + z)]))))).
Definition r_ccsd_dT_ab_11 (z a b i j : nat) : ex := (EAdd (r_ccsd_dT_ab_10 (0 + z) a b i j) (ESum (0 + z) 2 (ESum (1 + z) 3 (EMul (r_ccsd_X_bb_voov (2 + z) b (0 + z) j (1 + z)) (ET 5 [a; (1 + z); i; (0 + z)]))))).
Definition r_ccsd_dT_ab_12 (z a b i j : nat) : ex := (ESub (r_ccsd_dT_ab_11 (0 + z) a b i j) (ESum (0 + z) 0 (ESum (1 + z) 3 (EMul (r_ccsd_X_ab_ovov (2 + z) (0 + z) b i (1 + z)) (ET 5 [a; (1 + z); (0 + z); j]))))).
Definition r_ccsd_dT_ab_13 (z a b i j : nat) : ex := (ESub (r_ccsd_dT_ab_12 (0 + z) a b i j) (ESum (0 + z) 2 (ESum (1 + z) 1 (EMul (r_ccsd_I2B_vovo (2 + z) a (0 + z) (1 + z) j) (ET 5 [(1 + z); b; i; (0 + z)]))))).
Definition r_ccsd_dT_ab_14 (z a b i j : nat) : ex := (EAdd (r_ccsd_dT_ab_13 (0 + z) a b i j) (ESum (0 + z) 0 (ESum (1 + z) 2 (EMul (r_ccsd_I2B_oooo (2 + z) (0 + z) (1 + z) i j) (ET 5 [a; b; (0 + z); (1 + z)]))))).
Definition r_ccsd_dT_ab_15 (z a b i j : nat) : ex := (EAdd (r_ccsd_dT_ab_14 (0 + z) a b i j) (ESum (0 + z) 1 (ESum (1 + z) 3 (EMul (ET 57 [a; b; (0 + z); (1 + z)]) (r_ccsd_tau_1 (2 + z) (0 + z) (1 + z) i j))))).
Definition r_ccsd_res_ab (z a b i j : nat) : ex := (EAdd (r_ccsd_dT_ab_15 (0 + z) a b i j) (ET 58 [a; b; i; j])).
Definition r_ccsd_I2C_oooo (z m n i j : nat) : ex := (EAdd (r_ccsd_X_bb_oooo_1 (0 + z) m n i j) (EScale (1) 2 (ESum (0 + z) 3 (ESum (1 + z) 3 (EMul (ET 23 [m; n; (0 + z); (1 + z)]) (ET 9 [(0 + z); (1 + z); i; j])))))).
Definition r_ccsd_I2B_ovvo (z m a e i : nat) : ex := (EAdd (r_ccsd_X_ab_ovvo (0 + z) m a e i) (EAdd (ESum (0 + z) 2 (ESum (1 + z) 3 (EMul (ET 21 [m; (0 + z); e; (1 + z)]) (ET 9 [a; (1 + z); i; (0 + z)])))) (EScale (1) 2 (ESum (0 + z) 0 (ESum (1 + z) 1 (EMul (ET 20 [m; (0 + z); e; (1 + z)]) (ET 5 [(1 + z); a; (0 + z); i]))))))).
Definition r_ccsd_I2C_voov (z a m i e : nat) : ex := (EAdd (r_ccsd_X_bb_voov (0 + z) a m i e) (EScale (1) 2 (ESum (0 + z) 2 (ESum (1 + z) 3 (EMul (ET 23 [m; (0 + z); e; (1 + z)]) (ET 9 [a; (1 + z); i; (0 + z)])))))).
Definition r_ccsd_I2C_vooo (z a m i j : nat) : ex := (EAdd (r_ccsd_X_bb_vooo_1 (0 + z) a m i j) (EScale (1) 2 (ESum (0 + z) 3 (ESum (1 + z) 3 (EMul (EAdd (ET 31 [a; m; (0 + z); (1 + z)]) (EScale (1) 2 (r_ccsd_X_bb_vovv (2 + z) a m (0 + z) (1 + z)))) (ET 9 [(0 + z); (1 + z); i; j])))))).
Definition r_ccsd_tau_2 (z a b i j : nat) : ex := (EAdd (EScale (1) 2 (ET 9 [a; b; i; j])) (EMul (ET 7 [a; i]) (ET 7 [b; j]))).
Definition r_ccsd_dT_bb (z a b i j : nat) : ex := (EScale (-1) 2 (ESum (0 + z) 2 (EMul (r_ccsd_I2C_vooo (1 + z) a (0 + z) i j) (ET 7 [b; (0 + z)])))).
Definition r_ccsd_dT_bb_1 (z a b i j : nat) : ex := (EAdd (r_ccsd_dT_bb (0 + z) a b i j) (EScale (1) 2 (ESum (0 + z) 3 (EMul (r_ccsd_X_bb_vvov (1 + z) a b i (0 + z)) (ET 7 [(0 + z); j]))))).
Definition r_ccsd_dT_bb_2 (z a b i j : nat) : ex := (EAdd (r_ccsd_dT_bb_1 (0 + z) a b i j) (EScale (1) 2 (ESum (0 + z) 3 (EMul (r_ccsd_X_b_vv_1 (1 + z) a (0 + z)) (ET 9 [(0 + z); b; i; j]))))).
Definition r_ccsd_dT_bb_3 (z a b i j : nat) : ex := (ESub (r_ccsd_dT_bb_2 (0 + z) a b i j) (EScale (1) 2 (ESum (0 + z) 2 (EMul (r_ccsd_X_b_oo (1 + z) (0 + z) i) (ET 9 [a; b; (0 + z); j]))))).
Definition r_ccsd_dT_bb_4 (z a b i j : nat) : ex := (EAdd (r_ccsd_dT_bb_3 (0 + z) a b i j) (ESum (0 + z) 2 (ESum (1 + z) 3 (EMul (r_ccsd_I2C_voov (2 + z) a (0 + z) i (1 + z)) (ET 9 [(1 + z); b; (0 + z); j]))))).
Definition r_ccsd_dT_bb_5 (z a b i j : nat) : ex := (EAdd (r_ccsd_dT_bb_4 (0 + z) a b i j) (ESum (0 + z) 0 (ESum (1 + z) 1 (EMul (r_ccsd_I2B_ovvo (2 + z) (0 + z) a (1 + z) i) (ET 5 [(1 + z); b; (0 + z); j]))))).
Definition r_ccsd_dT_bb_6 (z a b i j : nat) : ex := (EAdd (r_ccsd_dT_bb_5 (0 + z) a b i j) (EScale (1) 8 (ESum (0 + z) 2 (ESum (1 + z) 2 (EMul (r_ccsd_I2C_oooo (2 + z) (0 + z) (1 + z) i j) (ET 9 [a; b; (0 + z); (1 + z)])))))).
Definition r_ccsd_dT_bb_7 (z a b i j : nat) : ex := (EAdd (r_ccsd_dT_bb_6 (0 + z) a b i j) (EScale (1) 4 (ESum (0 + z) 3 (ESum (1 + z) 3 (EMul (ET 59 [a; b; (0 + z); (1 + z)]) (r_ccsd_tau_2 (2 + z) (0 + z) (1 + z) i j)))))).
Definition r_ccsd_res_bb (z a b i j : nat) : ex := (EAdd (r_ccsd_dT_bb_7 (0 + z) a b i j) (EScale (1) 4 (ET 60 [a; b; i; j]))).
Definition r_en_e1a (z : nat) : ex := (ESum (0 + z) 0 (ESum (1 + z) 1 (EMul (ET 19 [(0 + z); (1 + z)]) (ET 1 [(1 + z); (0 + z)])))).
Definition r_en_e1b (z : nat) : ex := (ESum (0 + z) 2 (ESum (1 + z) 3 (EMul (ET 22 [(0 + z); (1 + z)]) (ET 7 [(1 + z); (0 + z)])))).
Definition r_en_e2aa (z : nat) : ex := (EScale (1) 4 (ESum (0 + z) 0 (ESum (1 + z) 0 (ESum (2 + z) 1 (ESum (3 + z) 1 (EMul (ET 20 [(0 + z); (1 + z); (2 + z); (3 + z)]) (ET 3 [(2 + z); (3 + z); (0 + z); (1 + z)]))))))).
Definition r_en_e2ab (z : nat) : ex := (ESum (0 + z) 0 (ESum (1 + z) 2 (ESum (2 + z) 1 (ESum (3 + z) 3 (EMul (ET 21 [(0 + z); (1 + z); (2 + z); (3 + z)]) (ET 5 [(2 + z); (3 + z); (0 + z); (1 + z)])))))).
Definition r_en_e2bb (z : nat) : ex := (EScale (1) 4 (ESum (0 + z) 2 (ESum (1 + z) 2 (ESum (2 + z) 3 (ESum (3 + z) 3 (EMul (ET 23 [(0 + z); (1 + z); (2 + z); (3 + z)]) (ET 9 [(2 + z); (3 + z); (0 + z); (1 + z)]))))))).
Definition r_en_e1a1a (z : nat) : ex := (EScale (1) 2 (ESum (0 + z) 0 (ESum (1 + z) 0 (ESum (2 + z) 1 (ESum (3 + z) 1 (EMul (EMul (ET 20 [(0 + z); (1 + z); (2 + z); (3 + z)]) (ET 1 [(3 + z); (1 + z)])) (ET 1 [(2 + z); (0 + z)]))))))).
Definition r_en_e1b1b (z : nat) : ex := (EScale (1) 2 (ESum (0 + z) 2 (ESum (1 + z) 2 (ESum (2 + z) 3 (ESum (3 + z) 3 (EMul (EMul (ET 23 [(0 + z); (1 + z); (2 + z); (3 + z)]) (ET 7 [(3 + z); (1 + z)])) (ET 7 [(2 + z); (0 + z)]))))))).
Definition r_en_e1a1b (z : nat) : ex := (ESum (0 + z) 0 (ESum (1 + z) 2 (ESum (2 + z) 1 (ESum (3 + z) 3 (EMul (EMul (ET 21 [(0 + z); (1 + z); (2 + z); (3 + z)]) (ET 1 [(2 + z); (0 + z)])) (ET 7 [(3 + z); (1 + z)])))))).
Definition r_en_Ecorr (z : nat) : ex := (EAdd (EAdd (EAdd (EAdd (EAdd (EAdd (EAdd (r_en_e1a (0 + z) ) (r_en_e1b (0 + z) )) (r_en_e2aa (0 + z) )) (r_en_e2ab (0 + z) )) (r_en_e2bb (0 + z) )) (r_en_e1a1a (0 + z) )) (r_en_e1a1b (0 + z) )) (r_en_e1b1b (0 + z) )).
Definition r_tr_ca (z : nat) : ex := (EAdd (ESum (0 + z) 0 (r_rdm_rdm1_a_oo_1 (1 + z) (0 + z) (0 + z))) (ESum (0 + z) 1 (r_rdm_rdm1_a_vv (1 + z) (0 + z) (0 + z)))).
Definition r_tr_cb (z : nat) : ex := (EAdd (ESum (0 + z) 2 (r_rdm_rdm1_b_oo_1 (1 + z) (0 + z) (0 + z))) (ESum (0 + z) 3 (r_rdm_rdm1_b_vv (1 + z) (0 + z) (0 + z)))).
Definition r_tr_ta (z : nat) : ex := (EAdd (ESum (0 + z) 0 (r_rdmt_rdm1_a_oo_2 (1 + z) (0 + z) (0 + z))) (ESum (0 + z) 1 (r_rdmt_rdm1_a_vv_1 (1 + z) (0 + z) (0 + z)))).
Definition r_tr_tb (z : nat) : ex := (EAdd (ESum (0 + z) 2 (r_rdmt_rdm1_b_oo_2 (1 + z) (0 + z) (0 + z))) (ESum (0 + z) 3 (r_rdmt_rdm1_b_vv_1 (1 + z) (0 + z) (0 + z)))).
Definition r_one_a (z : nat) : ex := (ESum (0 + z) 0 (ET 10 [(0 + z); (0 + z)])).
Definition r_one_b (z : nat) : ex := (ESum (0 + z) 2 (ET 10 [(0 + z); (0 + z)])).
Definition r_resid_aa (z a b i j : nat) : ex := (EAdd (ESub (ESub (r_ccsd_res_aa (0 + z) a b i j) (r_ccsd_res_aa (0 + z) b a i j)) (r_ccsd_res_aa (0 + z) a b j i)) (r_ccsd_res_aa (0 + z) b a j i)).
Definition r_resid_bb (z a b i j : nat) : ex := (EAdd (ESub (ESub (r_ccsd_res_bb (0 + z) a b i j) (r_ccsd_res_bb (0 + z) b a i j)) (r_ccsd_res_bb (0 + z) a b j i)) (r_ccsd_res_bb (0 + z) b a j i)).
Definition r_lag (z : nat) : ex := (EAdd (r_en_Ecorr (0 + z) ) (EAdd (EAdd (EAdd (EAdd (ESum (0 + z) 1 (ESum (1 + z) 0 (EMul (ET 0 [(0 + z); (1 + z)]) (r_ccsd_res_a (2 + z) (0 + z) (1 + z))))) (ESum (0 + z) 3 (ESum (1 + z) 2 (EMul (ET 6 [(0 + z); (1 + z)]) (r_ccsd_res_b (2 + z) (0 + z) (1 + z)))))) (EScale (1) 4 (ESum (0 + z) 1 (ESum (1 + z) 1 (ESum (2 + z) 0 (ESum (3 + z) 0 (EMul (ET 2 [(0 + z); (1 + z); (2 + z); (3 + z)]) (r_resid_aa (4 + z) (0 + z) (1 + z) (2 + z) (3 + z))))))))) (ESum (0 + z) 1 (ESum (1 + z) 3 (ESum (2 + z) 0 (ESum (3 + z) 2 (EMul (ET 4 [(0 + z); (1 + z); (2 + z); (3 + z)]) (r_ccsd_res_ab (4 + z) (0 + z) (1 + z) (2 + z) (3 + z)))))))) (EScale (1) 4 (ESum (0 + z) 3 (ESum (1 + z) 3 (ESum (2 + z) 2 (ESum (3 + z) 2 (EMul (ET 8 [(0 + z); (1 + z); (2 + z); (3 + z)]) (r_resid_bb (4 + z) (0 + z) (1 + z) (2 + z) (3 + z)))))))))).
Definition r_tr_K (z : nat) : ex := (EAdd (EAdd (EAdd (EAdd (EAdd (EAdd (EAdd (ESum (0 + z) 0 (ESum (1 + z) 0 (EMul (ET 61 [(0 + z); (1 + z)]) (r_rdm_rdm1_a_oo_1 (2 + z) (1 + z) (0 + z))))) (ESum (0 + z) 0 (ESum (1 + z) 1 (EMul (ET 62 [(0 + z); (1 + z)]) (r_rdm_rdm1_a_vo_1 (2 + z) (1 + z) (0 + z)))))) (ESum (0 + z) 1 (ESum (1 + z) 0 (EMul (ET 63 [(0 + z); (1 + z)]) (r_rdm_rdm1_a_ov (2 + z) (1 + z) (0 + z)))))) (ESum (0 + z) 1 (ESum (1 + z) 1 (EMul (ET 64 [(0 + z); (1 + z)]) (r_rdm_rdm1_a_vv (2 + z) (1 + z) (0 + z)))))) (ESum (0 + z) 2 (ESum (1 + z) 2 (EMul (ET 65 [(0 + z); (1 + z)]) (r_rdm_rdm1_b_oo_1 (2 + z) (1 + z) (0 + z)))))) (ESum (0 + z) 2 (ESum (1 + z) 3 (EMul (ET 66 [(0 + z); (1 + z)]) (r_rdm_rdm1_b_vo_1 (2 + z) (1 + z) (0 + z)))))) (ESum (0 + z) 3 (ESum (1 + z) 2 (EMul (ET 67 [(0 + z); (1 + z)]) (r_rdm_rdm1_b_ov (2 + z) (1 + z) (0 + z)))))) (ESum (0 + z) 3 (ESum (1 + z) 3 (EMul (ET 68 [(0 + z); (1 + z)]) (r_rdm_rdm1_b_vv (2 + z) (1 + z) (0 + z)))))).
Definition r_ref (z : nat) : ex := (EAdd (ESum (0 + z) 0 (ESum (1 + z) 0 (EMul (ET 61 [(0 + z); (1 + z)]) (ET 10 [(1 + z); (0 + z)])))) (ESum (0 + z) 2 (ESum (1 + z) 2 (EMul (ET 65 [(0 + z); (1 + z)]) (ET 10 [(1 + z); (0 + z)]))))).
Definition rr_a_oo : ex := r_rdm_rdm1_a_oo_1 2 0 1.
Definition rt_a_oo : ex := r_rdmt_rdm1_a_oo_2 2 0 1.
Definition rr_a_ov : ex := r_rdm_rdm1_a_ov 2 0 1.
Definition rt_a_ov : ex := r_rdmt_rdm1_a_ov 2 0 1.
Definition rr_a_vo : ex := r_rdm_rdm1_a_vo_1 2 0 1.
Definition rt_a_vo : ex := r_rdmt_rdm1_a_vo_2 2 0 1.
Definition rr_a_vv : ex := r_rdm_rdm1_a_vv 2 0 1.
Definition rt_a_vv : ex := r_rdmt_rdm1_a_vv_1 2 0 1.
Definition rr_b_oo : ex := r_rdm_rdm1_b_oo_1 2 0 1.
Definition rt_b_oo : ex := r_rdmt_rdm1_b_oo_2 2 0 1.
Definition rr_b_ov : ex := r_rdm_rdm1_b_ov 2 0 1.
Definition rt_b_ov : ex := r_rdmt_rdm1_b_ov 2 0 1.
Definition rr_b_vo : ex := r_rdm_rdm1_b_vo_1 2 0 1.
Definition rt_b_vo : ex := r_rdmt_rdm1_b_vo_2 2 0 1.
Definition rr_b_vv : ex := r_rdm_rdm1_b_vv 2 0 1.
Definition rt_b_vv : ex := r_rdmt_rdm1_b_vv_1 2 0 1.
Definition rdm_arrays (d : dims) (H K : ints) (T L : amps) := [ap2 (x_a L);
  ap2 (x_a T);
  ap4 (x_aa L);
  ap4 (x_aa T);
  ap4 (x_ab L);
  ap4 (x_ab T);
  ap2 (x_b L);
  ap2 (x_b T);
  ap4 (x_bb L);
  ap4 (x_bb T);
  ap2 (delta);
  ap6 (x_aaa L);
  ap6 (x_aaa T);
  ap6 (x_aab L);
  ap6 (x_aab T);
  ap6 (x_abb L);
  ap6 (x_abb T);
  ap6 (x_bbb L);
  ap6 (x_bbb T);
  ap2 (i_a_ov H);
  ap4 (i_aa_oovv H);
  ap4 (i_ab_oovv H);
  ap2 (i_b_ov H);
  ap4 (i_bb_oovv H);
  ap2 (i_a_vv H);
  ap4 (i_aa_vovv H);
  ap4 (i_ab_vovv H);
  ap2 (i_a_oo H);
  ap4 (i_aa_ooov H);
  ap4 (i_ab_ooov H);
  ap2 (i_b_vv H);
  ap4 (i_bb_vovv H);
  ap4 (i_ab_ovvv H);
  ap2 (i_b_oo H);
  ap4 (i_bb_ooov H);
  ap4 (i_ab_oovo H);
  ap4 (i_aa_voov H);
  ap4 (i_ab_voov H);
  ap2 (i_a_vo H);
  ap4 (i_bb_voov H);
  ap4 (i_ab_ovvo H);
  ap2 (i_b_vo H);
  ap4 (i_aa_oooo H);
  ap4 (i_aa_vooo H);
  ap4 (i_aa_vvov H);
  ap4 (i_bb_oooo H);
  ap4 (i_bb_vooo H);
  ap4 (i_bb_vvov H);
  ap4 (i_ab_oooo H);
  ap4 (i_ab_ovov H);
  ap4 (i_ab_vovo H);
  ap4 (i_ab_ovoo H);
  ap4 (i_ab_vooo H);
  ap4 (i_ab_vvvo H);
  ap4 (i_ab_vvov H);
  ap4 (i_aa_vvvv H);
  ap4 (i_aa_vvoo H);
  ap4 (i_ab_vvvv H);
  ap4 (i_ab_vvoo H);
  ap4 (i_bb_vvvv H);
  ap4 (i_bb_vvoo H);
  ap2 (i_a_oo K);
  ap2 (i_a_ov K);
  ap2 (i_a_vo K);
  ap2 (i_a_vv K);
  ap2 (i_b_oo K);
  ap2 (i_b_ov K);
  ap2 (i_b_vo K);
  ap2 (i_b_vv K);
  ap4 (i_aa_ovvv H);
  ap4 (i_aa_oovo H);
  ap4 (i_bb_ovvv H);
  ap4 (i_bb_oovo H);
  ap4 (i_aa_ovov H);
  ap4 (i_aa_vovo H);
  ap4 (i_bb_ovov H);
  ap4 (i_bb_vovo H);
  ap4 (i_aa_ovoo H);
  ap4 (i_aa_vvvo H);
  ap4 (i_bb_ovoo H);
  ap4 (i_bb_vvvo H);
  ap4 (i_aa_ovvo H);
  ap4 (i_bb_ovvo H)].
Definition rdm_gens : list (nat * (nat * list nat * bool)) := [(2, (2, [1; 0; 2; 3], false));
  (2, (2, [0; 1; 3; 2], false));
  (3, (3, [1; 0; 2; 3], false));
  (3, (3, [0; 1; 3; 2], false));
  (8, (8, [1; 0; 2; 3], false));
  (8, (8, [0; 1; 3; 2], false));
  (9, (9, [1; 0; 2; 3], false));
  (9, (9, [0; 1; 3; 2], false));
  (11, (11, [1; 0; 2; 3; 4; 5], false));
  (11, (11, [0; 2; 1; 3; 4; 5], false));
  (11, (11, [0; 1; 2; 4; 3; 5], false));
  (11, (11, [0; 1; 2; 3; 5; 4], false));
  (12, (12, [1; 0; 2; 3; 4; 5], false));
  (12, (12, [0; 2; 1; 3; 4; 5], false));
  (12, (12, [0; 1; 2; 4; 3; 5], false));
  (12, (12, [0; 1; 2; 3; 5; 4], false));
  (13, (13, [1; 0; 2; 3; 4; 5], false));
  (13, (13, [0; 1; 2; 4; 3; 5], false));
  (14, (14, [1; 0; 2; 3; 4; 5], false));
  (14, (14, [0; 1; 2; 4; 3; 5], false));
  (15, (15, [0; 2; 1; 3; 4; 5], false));
  (15, (15, [0; 1; 2; 3; 5; 4], false));
  (16, (16, [0; 2; 1; 3; 4; 5], false));
  (16, (16, [0; 1; 2; 3; 5; 4], false));
  (17, (17, [1; 0; 2; 3; 4; 5], false));
  (17, (17, [0; 2; 1; 3; 4; 5], false));
  (17, (17, [0; 1; 2; 4; 3; 5], false));
  (17, (17, [0; 1; 2; 3; 5; 4], false));
  (18, (18, [1; 0; 2; 3; 4; 5], false));
  (18, (18, [0; 2; 1; 3; 4; 5], false));
  (18, (18, [0; 1; 2; 4; 3; 5], false));
  (18, (18, [0; 1; 2; 3; 5; 4], false));
  (20, (20, [1; 0; 2; 3], false));
  (20, (20, [0; 1; 3; 2], false));
  (23, (23, [1; 0; 2; 3], false));
  (23, (23, [0; 1; 3; 2], false));
  (25, (69, [1; 0; 2; 3], false));
  (25, (25, [0; 1; 3; 2], false));
  (28, (28, [1; 0; 2; 3], false));
  (28, (70, [0; 1; 3; 2], false));
  (31, (71, [1; 0; 2; 3], false));
  (31, (31, [0; 1; 3; 2], false));
  (34, (34, [1; 0; 2; 3], false));
  (34, (72, [0; 1; 3; 2], false));
  (36, (73, [1; 0; 2; 3], false));
  (36, (74, [0; 1; 3; 2], false));
  (39, (75, [1; 0; 2; 3], false));
  (39, (76, [0; 1; 3; 2], false));
  (42, (42, [1; 0; 2; 3], false));
  (42, (42, [0; 1; 3; 2], false));
  (43, (77, [1; 0; 2; 3], false));
  (43, (43, [0; 1; 3; 2], false));
  (44, (44, [1; 0; 2; 3], false));
  (44, (78, [0; 1; 3; 2], false));
  (45, (45, [1; 0; 2; 3], false));
  (45, (45, [0; 1; 3; 2], false));
  (46, (79, [1; 0; 2; 3], false));
  (46, (46, [0; 1; 3; 2], false));
  (47, (47, [1; 0; 2; 3], false));
  (47, (80, [0; 1; 3; 2], false));
  (55, (55, [1; 0; 2; 3], false));
  (55, (55, [0; 1; 3; 2], false));
  (56, (56, [1; 0; 2; 3], false));
  (56, (56, [0; 1; 3; 2], false));
  (59, (59, [1; 0; 2; 3], false));
  (59, (59, [0; 1; 3; 2], false));
  (60, (60, [1; 0; 2; 3], false));
  (60, (60, [0; 1; 3; 2], false));
  (69, (25, [1; 0; 2; 3], false));
  (69, (69, [0; 1; 3; 2], false));
  (70, (70, [1; 0; 2; 3], false));
  (70, (28, [0; 1; 3; 2], false));
  (71, (31, [1; 0; 2; 3], false));
  (71, (71, [0; 1; 3; 2], false));
  (72, (72, [1; 0; 2; 3], false));
  (72, (34, [0; 1; 3; 2], false));
  (73, (36, [1; 0; 2; 3], false));
  (73, (81, [0; 1; 3; 2], false));
  (74, (81, [1; 0; 2; 3], false));
  (74, (36, [0; 1; 3; 2], false));
  (75, (39, [1; 0; 2; 3], false));
  (75, (82, [0; 1; 3; 2], false));
  (76, (82, [1; 0; 2; 3], false));
  (76, (39, [0; 1; 3; 2], false));
  (77, (43, [1; 0; 2; 3], false));
  (77, (77, [0; 1; 3; 2], false));
  (78, (78, [1; 0; 2; 3], false));
  (78, (44, [0; 1; 3; 2], false));
  (79, (46, [1; 0; 2; 3], false));
  (79, (79, [0; 1; 3; 2], false));
  (80, (80, [1; 0; 2; 3], false));
  (80, (47, [0; 1; 3; 2], false));
  (81, (74, [1; 0; 2; 3], false));
  (81, (73, [0; 1; 3; 2], false));
  (82, (76, [1; 0; 2; 3], false));
  (82, (75, [0; 1; 3; 2], false))].
Definition rdm_tab := Eval vm_compute in symtab rdm_gens 83.
Definition rdmc_arrays (d : dims) (H K : ints) (T L : amps) := [ap2 (x_a L);
  ap2 (x_a T);
  ap4 (x_aa L);
  ap4 (x_aa T);
  ap4 (x_ab L);
  ap4 (x_ab T);
  ap2 (x_b L);
  ap2 (x_b T);
  ap4 (x_bb L);
  ap4 (x_bb T);
  ap2 (delta);
  ap6 (x_aaa L);
  ap6 (x_aaa T);
  ap6 (x_aab L);
  ap6 (x_aab T);
  ap6 (x_abb L);
  ap6 (x_abb T);
  ap6 (x_bbb L);
  ap6 (x_bbb T);
  ap2 (i_a_ov H);
  ap4 (i_aa_oovv H);
  ap4 (i_ab_oovv H);
  ap2 (i_b_ov H);
  ap4 (i_bb_oovv H);
  ap2 (i_a_vv H);
  ap4 (i_aa_vovv H);
  ap4 (i_ab_vovv H);
  ap2 (i_a_oo H);
  ap4 (i_aa_ooov H);
  ap4 (i_ab_ooov H);
  ap2 (i_b_vv H);
  ap4 (i_bb_vovv H);
  ap4 (i_ab_ovvv H);
  ap2 (i_b_oo H);
  ap4 (i_bb_ooov H);
  ap4 (i_ab_oovo H);
  ap4 (i_aa_voov H);
  ap4 (i_ab_voov H);
  ap2 (i_a_vo H);
  ap4 (i_bb_voov H);
  ap4 (i_ab_ovvo H);
  ap2 (i_b_vo H);
  ap4 (i_aa_oooo H);
  ap4 (i_aa_vooo H);
  ap4 (i_aa_vvov H);
  ap4 (i_bb_oooo H);
  ap4 (i_bb_vooo H);
  ap4 (i_bb_vvov H);
  ap4 (i_ab_oooo H);
  ap4 (i_ab_ovov H);
  ap4 (i_ab_vovo H);
  ap4 (i_ab_ovoo H);
  ap4 (i_ab_vooo H);
  ap4 (i_ab_vvvo H);
  ap4 (i_ab_vvov H);
  ap4 (i_aa_vvvv H);
  ap4 (i_aa_vvoo H);
  ap4 (i_ab_vvvv H);
  ap4 (i_ab_vvoo H);
  ap4 (i_bb_vvvv H);
  ap4 (i_bb_vvoo H);
  ap2 (i_a_oo K);
  ap2 (i_a_ov K);
  ap2 (i_a_vo K);
  ap2 (i_a_vv K);
  ap2 (i_b_oo K);
  ap2 (i_b_ov K);
  ap2 (i_b_vo K);
  ap2 (i_b_vv K);
  ap4 (i_aa_ovvv H);
  ap4 (i_aa_oovo H);
  ap4 (i_bb_ovvv H);
  ap4 (i_bb_oovo H);
  ap4 (i_aa_ovov H);
  ap4 (i_aa_vovo H);
  ap4 (i_bb_ovov H);
  ap4 (i_bb_vovo H);
  ap4 (i_aa_ovoo H);
  ap4 (i_aa_vvvo H);
  ap4 (i_bb_ovoo H);
  ap4 (i_bb_vvvo H);
  ap4 (i_aa_ovvo H);
  ap4 (i_bb_ovvo H)].
Definition rdmc_gens : list (nat * (nat * list nat * bool)) := [(2, (2, [1; 0; 2; 3], false));
  (2, (2, [0; 1; 3; 2], false));
  (3, (3, [1; 0; 2; 3], false));
  (3, (3, [0; 1; 3; 2], false));
  (4, (4, [1; 0; 3; 2], true));
  (5, (5, [1; 0; 3; 2], true));
  (6, (0, [0; 1], true));
  (7, (1, [0; 1], true));
  (8, (8, [1; 0; 2; 3], false));
  (8, (8, [0; 1; 3; 2], false));
  (8, (2, [0; 1; 2; 3], true));
  (9, (9, [1; 0; 2; 3], false));
  (9, (9, [0; 1; 3; 2], false));
  (9, (3, [0; 1; 2; 3], true));
  (11, (11, [1; 0; 2; 3; 4; 5], false));
  (11, (11, [0; 2; 1; 3; 4; 5], false));
  (11, (11, [0; 1; 2; 4; 3; 5], false));
  (11, (11, [0; 1; 2; 3; 5; 4], false));
  (12, (12, [1; 0; 2; 3; 4; 5], false));
  (12, (12, [0; 2; 1; 3; 4; 5], false));
  (12, (12, [0; 1; 2; 4; 3; 5], false));
  (12, (12, [0; 1; 2; 3; 5; 4], false));
  (13, (13, [1; 0; 2; 3; 4; 5], false));
  (13, (13, [0; 1; 2; 4; 3; 5], false));
  (14, (14, [1; 0; 2; 3; 4; 5], false));
  (14, (14, [0; 1; 2; 4; 3; 5], false));
  (15, (15, [0; 2; 1; 3; 4; 5], false));
  (15, (15, [0; 1; 2; 3; 5; 4], false));
  (15, (13, [1; 2; 0; 4; 5; 3], true));
  (16, (16, [0; 2; 1; 3; 4; 5], false));
  (16, (16, [0; 1; 2; 3; 5; 4], false));
  (16, (14, [1; 2; 0; 4; 5; 3], true));
  (17, (17, [1; 0; 2; 3; 4; 5], false));
  (17, (17, [0; 2; 1; 3; 4; 5], false));
  (17, (17, [0; 1; 2; 4; 3; 5], false));
  (17, (17, [0; 1; 2; 3; 5; 4], false));
  (17, (11, [0; 1; 2; 3; 4; 5], true));
  (18, (18, [1; 0; 2; 3; 4; 5], false));
  (18, (18, [0; 2; 1; 3; 4; 5], false));
  (18, (18, [0; 1; 2; 4; 3; 5], false));
  (18, (18, [0; 1; 2; 3; 5; 4], false));
  (18, (12, [0; 1; 2; 3; 4; 5], true));
  (20, (20, [1; 0; 2; 3], false));
  (20, (20, [0; 1; 3; 2], false));
  (21, (21, [1; 0; 3; 2], true));
  (22, (19, [0; 1], true));
  (23, (23, [1; 0; 2; 3], false));
  (23, (23, [0; 1; 3; 2], false));
  (23, (20, [0; 1; 2; 3], true));
  (25, (69, [1; 0; 2; 3], false));
  (25, (25, [0; 1; 3; 2], false));
  (26, (32, [1; 0; 3; 2], true));
  (28, (28, [1; 0; 2; 3], false));
  (28, (70, [0; 1; 3; 2], false));
  (29, (35, [1; 0; 3; 2], true));
  (30, (24, [0; 1], true));
  (31, (71, [1; 0; 2; 3], false));
  (31, (31, [0; 1; 3; 2], false));
  (31, (25, [0; 1; 2; 3], true));
  (32, (26, [1; 0; 3; 2], true));
  (33, (27, [0; 1], true));
  (34, (34, [1; 0; 2; 3], false));
  (34, (72, [0; 1; 3; 2], false));
  (34, (28, [0; 1; 2; 3], true));
  (35, (29, [1; 0; 3; 2], true));
  (36, (73, [1; 0; 2; 3], false));
  (36, (74, [0; 1; 3; 2], false));
  (37, (40, [1; 0; 3; 2], true));
  (39, (75, [1; 0; 2; 3], false));
  (39, (76, [0; 1; 3; 2], false));
  (39, (36, [0; 1; 2; 3], true));
  (40, (37, [1; 0; 3; 2], true));
  (41, (38, [0; 1], true));
  (42, (42, [1; 0; 2; 3], false));
  (42, (42, [0; 1; 3; 2], false));
  (43, (77, [1; 0; 2; 3], false));
  (43, (43, [0; 1; 3; 2], false));
  (44, (44, [1; 0; 2; 3], false));
  (44, (78, [0; 1; 3; 2], false));
  (45, (45, [1; 0; 2; 3], false));
  (45, (45, [0; 1; 3; 2], false));
  (45, (42, [0; 1; 2; 3], true));
  (46, (79, [1; 0; 2; 3], false));
  (46, (46, [0; 1; 3; 2], false));
  (46, (43, [0; 1; 2; 3], true));
  (47, (47, [1; 0; 2; 3], false));
  (47, (80, [0; 1; 3; 2], false));
  (47, (44, [0; 1; 2; 3], true));
  (48, (48, [1; 0; 3; 2], true));
  (49, (50, [1; 0; 3; 2], true));
  (50, (49, [1; 0; 3; 2], true));
  (51, (52, [1; 0; 3; 2], true));
  (52, (51, [1; 0; 3; 2], true));
  (53, (54, [1; 0; 3; 2], true));
  (54, (53, [1; 0; 3; 2], true));
  (55, (55, [1; 0; 2; 3], false));
  (55, (55, [0; 1; 3; 2], false));
  (56, (56, [1; 0; 2; 3], false));
  (56, (56, [0; 1; 3; 2], false));
  (57, (57, [1; 0; 3; 2], true));
  (58, (58, [1; 0; 3; 2], true));
  (59, (59, [1; 0; 2; 3], false));
  (59, (59, [0; 1; 3; 2], false));
  (59, (55, [0; 1; 2; 3], true));
  (60, (60, [1; 0; 2; 3], false));
  (60, (60, [0; 1; 3; 2], false));
  (60, (56, [0; 1; 2; 3], true));
  (65, (61, [0; 1], true));
  (66, (62, [0; 1], true));
  (67, (63, [0; 1], true));
  (68, (64, [0; 1], true));
  (69, (25, [1; 0; 2; 3], false));
  (69, (69, [0; 1; 3; 2], false));
  (70, (70, [1; 0; 2; 3], false));
  (70, (28, [0; 1; 3; 2], false));
  (71, (31, [1; 0; 2; 3], false));
  (71, (71, [0; 1; 3; 2], false));
  (71, (69, [0; 1; 2; 3], true));
  (72, (72, [1; 0; 2; 3], false));
  (72, (34, [0; 1; 3; 2], false));
  (72, (70, [0; 1; 2; 3], true));
  (73, (36, [1; 0; 2; 3], false));
  (73, (81, [0; 1; 3; 2], false));
  (74, (81, [1; 0; 2; 3], false));
  (74, (36, [0; 1; 3; 2], false));
  (75, (39, [1; 0; 2; 3], false));
  (75, (82, [0; 1; 3; 2], false));
  (75, (73, [0; 1; 2; 3], true));
  (76, (82, [1; 0; 2; 3], false));
  (76, (39, [0; 1; 3; 2], false));
  (76, (74, [0; 1; 2; 3], true));
  (77, (43, [1; 0; 2; 3], false));
  (77, (77, [0; 1; 3; 2], false));
  (78, (78, [1; 0; 2; 3], false));
  (78, (44, [0; 1; 3; 2], false));
  (79, (46, [1; 0; 2; 3], false));
  (79, (79, [0; 1; 3; 2], false));
  (79, (77, [0; 1; 2; 3], true));
  (80, (80, [1; 0; 2; 3], false));
  (80, (47, [0; 1; 3; 2], false));
  (80, (78, [0; 1; 2; 3], true));
  (81, (74, [1; 0; 2; 3], false));
  (81, (73, [0; 1; 3; 2], false));
  (82, (76, [1; 0; 2; 3], false));
  (82, (75, [0; 1; 3; 2], false));
  (82, (81, [0; 1; 2; 3], true))].
Definition rdmc_tab := Eval vm_compute in symtab rdmc_gens 83.
Definition rdm_dm (k : nat) : option nat := match k with | 27 => Some 61 | 19 => Some 62 | 38 => Some 63 | 24 => Some 64 | 33 => Some 65 | 22 => Some 66 | 41 => Some 67 | 30 => Some 68 | _ => None end.
