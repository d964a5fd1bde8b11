(** Generated by tools/gen_sector.py: the DEA sigma vector with the similarity-transformed Hamiltonian put in, reified; arrays 0-65 as in CcsdReify.v (proof support). *)
From Coq Require Import Reals Arith List ZArith.
From Verif Require Import RSum IntegralsModel TensorObjs TensorAlg CcsdReify SectorModel.
Import ListNotations.
Local Open Scope nat_scope.
Definition r_dear_x2b (z a b : nat) : ex := (ESum (0 + z) 1 (EMul (r_hb_H_a_vv (1 + z) a (0 + z)) (ET 66 [(0 + z); b]))).
Definition r_dear_x2b_1 (z a b : nat) : ex := (EAdd (r_dear_x2b (0 + z) a b) (ESum (0 + z) 3 (EMul (r_hb_H_b_vv (1 + z) b (0 + z)) (ET 66 [a; (0 + z)])))).
Definition r_dear_x2b_2 (z a b : nat) : ex := (EAdd (r_dear_x2b_1 (0 + z) a b) (ESum (0 + z) 1 (ESum (1 + z) 3 (EMul (r_hb_H_ab_vvvv (2 + z) a b (0 + z) (1 + z)) (ET 66 [(0 + z); (1 + z)]))))).
Definition r_dear_x2b_3 (z a b : nat) : ex := (EAdd (r_dear_x2b_2 (0 + z) a b) (ESum (0 + z) 0 (ESum (1 + z) 1 (EMul (r_hb_H_a_ov (2 + z) (0 + z) (1 + z)) (ET 67 [a; b; (1 + z); (0 + z)]))))).
Definition r_dear_x2b_4 (z a b : nat) : ex := (EAdd (r_dear_x2b_3 (0 + z) a b) (ESum (0 + z) 2 (ESum (1 + z) 3 (EMul (r_hb_H_b_ov (2 + z) (0 + z) (1 + z)) (ET 68 [a; b; (1 + z); (0 + z)]))))).
Definition r_dear_x2b_5 (z a b : nat) : ex := (EAdd (r_dear_x2b_4 (0 + z) a b) (ESum (0 + z) 0 (ESum (1 + z) 1 (ESum (2 + z) 3 (EMul (r_hb_H_ab_ovvv (3 + z) (0 + z) b (1 + z) (2 + z)) (ET 67 [a; (2 + z); (1 + z); (0 + z)])))))).
Definition r_dear_x2b_6 (z a b : nat) : ex := (EAdd (r_dear_x2b_5 (0 + z) a b) (EScale (1) 2 (ESum (0 + z) 0 (ESum (1 + z) 1 (ESum (2 + z) 1 (EMul (r_hb_H_aa_vovv (3 + z) a (0 + z) (1 + z) (2 + z)) (ET 67 [(1 + z); b; (2 + z); (0 + z)]))))))).
Definition r_dear_x2b_7 (z a b : nat) : ex := (EAdd (r_dear_x2b_6 (0 + z) a b) (EScale (1) 2 (ESum (0 + z) 2 (ESum (1 + z) 3 (ESum (2 + z) 3 (EMul (r_hb_H_bb_vovv (3 + z) b (0 + z) (1 + z) (2 + z)) (ET 68 [a; (1 + z); (2 + z); (0 + z)]))))))).
Definition r_dear_x2b_8 (z a b : nat) : ex := (EAdd (r_dear_x2b_7 (0 + z) a b) (ESum (0 + z) 2 (ESum (1 + z) 1 (ESum (2 + z) 3 (EMul (r_hb_H_ab_vovv (3 + z) a (0 + z) (1 + z) (2 + z)) (ET 68 [(1 + z); b; (2 + z); (0 + z)])))))).
Definition r_dear_x3b (z a b c k : nat) : ex := (EScale (1) 2 (ESum (0 + z) 1 (EMul (r_hb_H_aa_vvov_1 (1 + z) c a k (0 + z)) (ET 66 [(0 + z); b])))).
Definition r_dear_x3b_1 (z a b c k : nat) : ex := (EAdd (r_dear_x3b (0 + z) a b c k) (ESum (0 + z) 3 (EMul (r_hb_H_ab_vvov (1 + z) c b k (0 + z)) (ET 66 [a; (0 + z)])))).
Definition r_dear_x3b_2 (z a b c k : nat) : ex := (EAdd (r_dear_x3b_1 (0 + z) a b c k) (ESum (0 + z) 1 (EMul (r_hb_H_a_vv (1 + z) a (0 + z)) (ET 67 [(0 + z); b; c; k])))).
Definition r_dear_x3b_3 (z a b c k : nat) : ex := (EAdd (r_dear_x3b_2 (0 + z) a b c k) (EScale (1) 2 (ESum (0 + z) 3 (EMul (r_hb_H_b_vv (1 + z) b (0 + z)) (ET 67 [a; (0 + z); c; k]))))).
Definition r_dear_x3b_4 (z a b c k : nat) : ex := (EAdd (r_dear_x3b_3 (0 + z) a b c k) (ESum (0 + z) 1 (ESum (1 + z) 3 (EMul (r_hb_H_ab_vvvv (2 + z) a b (0 + z) (1 + z)) (ET 67 [(0 + z); (1 + z); c; k]))))).
Definition r_dear_x3b_5 (z a b c k : nat) : ex := (EAdd (r_dear_x3b_4 (0 + z) a b c k) (EScale (1) 4 (ESum (0 + z) 1 (ESum (1 + z) 1 (EMul (r_hb_H_aa_vvvv_1 (2 + z) a c (0 + z) (1 + z)) (ET 67 [(0 + z); b; (1 + z); k])))))).
Definition r_dear_x3b_6 (z a b c k : nat) : ex := (EAdd (r_dear_x3b_5 (0 + z) a b c k) (ESum (0 + z) 0 (ESum (1 + z) 1 (EMul (r_hb_H_aa_voov (2 + z) c (0 + z) k (1 + z)) (ET 67 [a; b; (1 + z); (0 + z)]))))).
Definition r_dear_x3b_7 (z a b c k : nat) : ex := (EAdd (r_dear_x3b_6 (0 + z) a b c k) (ESum (0 + z) 2 (ESum (1 + z) 3 (EMul (r_hb_H_ab_voov (2 + z) c (0 + z) k (1 + z)) (ET 68 [a; b; (1 + z); (0 + z)]))))).
Definition r_dear_x3b_8 (z a b c k : nat) : ex := (ESub (r_dear_x3b_7 (0 + z) a b c k) (EScale (1) 2 (ESum (0 + z) 0 (ESum (1 + z) 3 (EMul (r_hb_H_ab_ovov (2 + z) (0 + z) b k (1 + z)) (ET 67 [a; (1 + z); c; (0 + z)])))))).
Definition r_dear_x_ov (z m b : nat) : ex := (EAdd (EAdd (ESum (0 + z) 1 (ESum (1 + z) 3 (EMul (r_hb_H_ab_ovvv (2 + z) m b (0 + z) (1 + z)) (ET 66 [(0 + z); (1 + z)])))) (EScale (1) 2 (ESum (0 + z) 0 (ESum (1 + z) 1 (ESum (2 + z) 1 (EMul (ET 1 [m; (0 + z); (1 + z); (2 + z)]) (ET 67 [(1 + z); b; (2 + z); (0 + z)]))))))) (ESum (0 + z) 2 (ESum (1 + z) 1 (ESum (2 + z) 3 (EMul (ET 3 [m; (0 + z); (1 + z); (2 + z)]) (ET 68 [(1 + z); b; (2 + z); (0 + z)])))))).
Definition r_dear_x3b_9 (z a b c k : nat) : ex := (ESub (r_dear_x3b_8 (0 + z) a b c k) (EScale (1) 2 (ESum (0 + z) 0 (EMul (r_dear_x_ov (1 + z) (0 + z) b) (ET 10 [a; c; (0 + z); k]))))).
Definition r_dear_x_vo (z a m : nat) : ex := (EAdd (EAdd (ESum (0 + z) 1 (ESum (1 + z) 3 (EMul (r_hb_H_ab_vovv (2 + z) a m (0 + z) (1 + z)) (ET 66 [(0 + z); (1 + z)])))) (EScale (1) 2 (ESum (0 + z) 2 (ESum (1 + z) 3 (ESum (2 + z) 3 (EMul (ET 6 [(0 + z); m; (1 + z); (2 + z)]) (ET 68 [a; (2 + z); (1 + z); (0 + z)]))))))) (ESum (0 + z) 0 (ESum (1 + z) 1 (ESum (2 + z) 3 (EMul (ET 3 [(0 + z); m; (1 + z); (2 + z)]) (ET 67 [a; (2 + z); (1 + z); (0 + z)])))))).
Definition r_dear_x3b_10 (z a b c k : nat) : ex := (ESub (r_dear_x3b_9 (0 + z) a b c k) (ESum (0 + z) 2 (EMul (r_dear_x_vo (1 + z) a (0 + z)) (ET 11 [c; b; k; (0 + z)])))).
Definition r_dear_x3b_11 (z a b c k : nat) : ex := (ESub (r_dear_x3b_10 (0 + z) a b c k) (EScale (1) 2 (ESum (0 + z) 0 (EMul (r_hb_H_a_oo (1 + z) (0 + z) k) (ET 67 [a; b; c; (0 + z)]))))).
Definition r_dear_x3b_12 (z a b c k : nat) : ex := (ESub (r_dear_x3b_11 (0 + z) a b c k) (r_dear_x3b_11 (0 + z) c b a k)).
Definition r_dear_x3c (z a b c k : nat) : ex := (ESum (0 + z) 1 (EMul (r_hb_H_ab_vvvo (1 + z) a c (0 + z) k) (ET 66 [(0 + z); b]))).
Definition r_dear_x3c_1 (z a b c k : nat) : ex := (EAdd (r_dear_x3c (0 + z) a b c k) (EScale (1) 2 (ESum (0 + z) 3 (EMul (r_hb_H_bb_vvov_1 (1 + z) c b k (0 + z)) (ET 66 [a; (0 + z)]))))).
Definition r_dear_x3c_2 (z a b c k : nat) : ex := (EAdd (r_dear_x3c_1 (0 + z) a b c k) (EScale (1) 2 (ESum (0 + z) 1 (EMul (r_hb_H_a_vv (1 + z) a (0 + z)) (ET 68 [(0 + z); b; c; k]))))).
Definition r_dear_x3c_3 (z a b c k : nat) : ex := (EAdd (r_dear_x3c_2 (0 + z) a b c k) (ESum (0 + z) 3 (EMul (r_hb_H_b_vv (1 + z) b (0 + z)) (ET 68 [a; (0 + z); c; k])))).
Definition r_dear_x3c_4 (z a b c k : nat) : ex := (EAdd (r_dear_x3c_3 (0 + z) a b c k) (ESum (0 + z) 1 (ESum (1 + z) 3 (EMul (r_hb_H_ab_vvvv (2 + z) a b (0 + z) (1 + z)) (ET 68 [(0 + z); (1 + z); c; k]))))).
Definition r_dear_x3c_5 (z a b c k : nat) : ex := (EAdd (r_dear_x3c_4 (0 + z) a b c k) (EScale (1) 4 (ESum (0 + z) 3 (ESum (1 + z) 3 (EMul (r_hb_H_bb_vvvv_1 (2 + z) b c (0 + z) (1 + z)) (ET 68 [a; (0 + z); (1 + z); k])))))).
Definition r_dear_x3c_6 (z a b c k : nat) : ex := (EAdd (r_dear_x3c_5 (0 + z) a b c k) (ESum (0 + z) 0 (ESum (1 + z) 1 (EMul (r_hb_H_ab_ovvo (2 + z) (0 + z) c (1 + z) k) (ET 67 [a; b; (1 + z); (0 + z)]))))).
Definition r_dear_x3c_7 (z a b c k : nat) : ex := (EAdd (r_dear_x3c_6 (0 + z) a b c k) (ESum (0 + z) 2 (ESum (1 + z) 3 (EMul (r_hb_H_bb_voov (2 + z) c (0 + z) k (1 + z)) (ET 68 [a; b; (1 + z); (0 + z)]))))).
Definition r_dear_x3c_8 (z a b c k : nat) : ex := (ESub (r_dear_x3c_7 (0 + z) a b c k) (EScale (1) 2 (ESum (0 + z) 2 (ESum (1 + z) 1 (EMul (r_hb_H_ab_vovo (2 + z) a (0 + z) (1 + z) k) (ET 68 [(1 + z); b; c; (0 + z)])))))).
Definition r_dear_x_ov_1 (z m b : nat) : ex := (EAdd (EAdd (ESum (0 + z) 1 (ESum (1 + z) 3 (EMul (r_hb_H_ab_ovvv (2 + z) m b (0 + z) (1 + z)) (ET 66 [(0 + z); (1 + z)])))) (EScale (1) 2 (ESum (0 + z) 0 (ESum (1 + z) 1 (ESum (2 + z) 1 (EMul (ET 1 [m; (0 + z); (1 + z); (2 + z)]) (ET 67 [(1 + z); b; (2 + z); (0 + z)]))))))) (ESum (0 + z) 2 (ESum (1 + z) 1 (ESum (2 + z) 3 (EMul (ET 3 [m; (0 + z); (1 + z); (2 + z)]) (ET 68 [(1 + z); b; (2 + z); (0 + z)])))))).
Definition r_dear_x3c_9 (z a b c k : nat) : ex := (ESub (r_dear_x3c_8 (0 + z) a b c k) (ESum (0 + z) 0 (EMul (r_dear_x_ov_1 (1 + z) (0 + z) b) (ET 11 [a; c; (0 + z); k])))).
Definition r_dear_x_vo_1 (z a m : nat) : ex := (EAdd (EAdd (ESum (0 + z) 1 (ESum (1 + z) 3 (EMul (r_hb_H_ab_vovv (2 + z) a m (0 + z) (1 + z)) (ET 66 [(0 + z); (1 + z)])))) (EScale (1) 2 (ESum (0 + z) 2 (ESum (1 + z) 3 (ESum (2 + z) 3 (EMul (ET 6 [(0 + z); m; (1 + z); (2 + z)]) (ET 68 [a; (2 + z); (1 + z); (0 + z)]))))))) (ESum (0 + z) 0 (ESum (1 + z) 1 (ESum (2 + z) 3 (EMul (ET 3 [(0 + z); m; (1 + z); (2 + z)]) (ET 67 [a; (2 + z); (1 + z); (0 + z)])))))).
Definition r_dear_x3c_10 (z a b c k : nat) : ex := (ESub (r_dear_x3c_9 (0 + z) a b c k) (EScale (1) 2 (ESum (0 + z) 2 (EMul (r_dear_x_vo_1 (1 + z) a (0 + z)) (ET 18 [b; c; (0 + z); k]))))).
Definition r_dear_x3c_11 (z a b c k : nat) : ex := (ESub (r_dear_x3c_10 (0 + z) a b c k) (EScale (1) 2 (ESum (0 + z) 2 (EMul (r_hb_H_b_oo (1 + z) (0 + z) k) (ET 68 [a; b; c; (0 + z)]))))).
Definition r_dear_x3c_12 (z a b c k : nat) : ex := (ESub (r_dear_x3c_11 (0 + z) a b c k) (r_dear_x3c_11 (0 + z) a c b k)).
Definition s_dea_ab := r_dear_x2b_8.
Definition s_dea_aba := r_dear_x3b_12.
Definition s_dea_abb := r_dear_x3c_12.
