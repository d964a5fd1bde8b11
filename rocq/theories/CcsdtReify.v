(** Generated by tools/gen_ccsdt.py: the arrays CCSDT hands to its update loops, reified; arrays numbered as in FockArrays.v (proof support). *)
From Coq Require Import Reals Arith List ZArith.
From Verif Require Import RSum IntegralsModel TensorObjs TensorAlg CcsdtModel.
Import ListNotations.
Local Open Scope nat_scope.
Definition r_ccsdt_X_a_ov (z m e : nat) : ex := (EAdd (ET 10 [m; e]) (EAdd (ESum (0 + z) 0 (ESum (1 + z) 1 (EMul (ET 20 [m; (0 + z); e; (1 + z)]) (ET 0 [(1 + z); (0 + z)])))) (ESum (0 + z) 2 (ESum (1 + z) 3 (EMul (ET 36 [m; (0 + z); e; (1 + z)]) (ET 1 [(1 + z); (0 + z)])))))).
Definition r_ccsdt_X_b_ov (z m e : nat) : ex := (EAdd (ET 14 [m; e]) (EAdd (ESum (0 + z) 0 (ESum (1 + z) 1 (EMul (ET 36 [(0 + z); m; (1 + z); e]) (ET 0 [(1 + z); (0 + z)])))) (ESum (0 + z) 2 (ESum (1 + z) 3 (EMul (ET 52 [m; (0 + z); e; (1 + z)]) (ET 1 [(1 + z); (0 + z)])))))).
Definition r_ccsdt_X_a_vv (z a e : nat) : ex := (EAdd (ET 12 [a; e]) (ESub (ESub (EAdd (ESum (0 + z) 0 (ESum (1 + z) 1 (EMul (ET 28 [a; (0 + z); e; (1 + z)]) (ET 0 [(1 + z); (0 + z)])))) (ESum (0 + z) 2 (ESum (1 + z) 3 (EMul (ET 44 [a; (0 + z); e; (1 + z)]) (ET 1 [(1 + z); (0 + z)]))))) (EScale (1) 2 (ESum (0 + z) 0 (ESum (1 + z) 0 (ESum (2 + z) 1 (EMul (ET 20 [(0 + z); (1 + z); e; (2 + z)]) (ET 2 [a; (2 + z); (0 + z); (1 + z)]))))))) (ESum (0 + z) 0 (ESum (1 + z) 2 (ESum (2 + z) 3 (EMul (ET 36 [(0 + z); (1 + z); e; (2 + z)]) (ET 3 [a; (2 + z); (0 + z); (1 + z)]))))))).
Definition r_ccsdt_X_a_oo (z m i : nat) : ex := (EAdd (ET 9 [m; i]) (EAdd (EAdd (EAdd (EAdd (ESum (0 + z) 0 (ESum (1 + z) 1 (EMul (ET 18 [m; (0 + z); i; (1 + z)]) (ET 0 [(1 + z); (0 + z)])))) (ESum (0 + z) 2 (ESum (1 + z) 3 (EMul (ET 34 [m; (0 + z); i; (1 + z)]) (ET 1 [(1 + z); (0 + z)]))))) (ESum (0 + z) 1 (EMul (r_ccsdt_X_a_ov (1 + z) m (0 + z)) (ET 0 [(0 + z); i])))) (EScale (1) 2 (ESum (0 + z) 0 (ESum (1 + z) 1 (ESum (2 + z) 1 (EMul (ET 20 [m; (0 + z); (1 + z); (2 + z)]) (ET 2 [(1 + z); (2 + z); i; (0 + z)]))))))) (ESum (0 + z) 2 (ESum (1 + z) 1 (ESum (2 + z) 3 (EMul (ET 36 [m; (0 + z); (1 + z); (2 + z)]) (ET 3 [(1 + z); (2 + z); i; (0 + z)]))))))).
Definition r_ccsdt_X_b_vv (z a e : nat) : ex := (EAdd (ET 16 [a; e]) (ESub (ESub (EAdd (ESum (0 + z) 2 (ESum (1 + z) 3 (EMul (ET 60 [a; (0 + z); e; (1 + z)]) (ET 1 [(1 + z); (0 + z)])))) (ESum (0 + z) 0 (ESum (1 + z) 1 (EMul (ET 40 [(0 + z); a; (1 + z); e]) (ET 0 [(1 + z); (0 + z)]))))) (EScale (1) 2 (ESum (0 + z) 2 (ESum (1 + z) 2 (ESum (2 + z) 3 (EMul (ET 52 [(0 + z); (1 + z); e; (2 + z)]) (ET 4 [a; (2 + z); (0 + z); (1 + z)]))))))) (ESum (0 + z) 0 (ESum (1 + z) 2 (ESum (2 + z) 1 (EMul (ET 36 [(0 + z); (1 + z); (2 + z); e]) (ET 3 [(2 + z); a; (0 + z); (1 + z)]))))))).
Definition r_ccsdt_X_b_oo (z m i : nat) : ex := (EAdd (ET 13 [m; i]) (EAdd (EAdd (EAdd (EAdd (ESum (0 + z) 2 (ESum (1 + z) 3 (EMul (ET 50 [m; (0 + z); i; (1 + z)]) (ET 1 [(1 + z); (0 + z)])))) (ESum (0 + z) 0 (ESum (1 + z) 1 (EMul (ET 35 [(0 + z); m; (1 + z); i]) (ET 0 [(1 + z); (0 + z)]))))) (ESum (0 + z) 3 (EMul (r_ccsdt_X_b_ov (1 + z) m (0 + z)) (ET 1 [(0 + z); i])))) (EScale (1) 2 (ESum (0 + z) 2 (ESum (1 + z) 3 (ESum (2 + z) 3 (EMul (ET 52 [m; (0 + z); (1 + z); (2 + z)]) (ET 4 [(1 + z); (2 + z); i; (0 + z)]))))))) (ESum (0 + z) 0 (ESum (1 + z) 1 (ESum (2 + z) 3 (EMul (ET 36 [(0 + z); m; (1 + z); (2 + z)]) (ET 3 [(1 + z); (2 + z); (0 + z); i]))))))).
Definition r_ccsdt_dT_a (z a i : nat) : ex := (EOpp (ESum (0 + z) 0 (EMul (r_ccsdt_X_a_oo (1 + z) (0 + z) i) (ET 0 [a; (0 + z)])))).
Definition r_ccsdt_dT_a_1 (z a i : nat) : ex := (EAdd (r_ccsdt_dT_a (0 + z) a i) (ESum (0 + z) 1 (EMul (r_ccsdt_X_a_vv (1 + z) a (0 + z)) (ET 0 [(0 + z); i])))).
Definition r_ccsdt_dT_a_2 (z a i : nat) : ex := (EAdd (r_ccsdt_dT_a_1 (0 + z) a i) (ESum (0 + z) 0 (ESum (1 + z) 1 (EMul (r_ccsdt_X_a_ov (2 + z) (0 + z) (1 + z)) (ET 2 [a; (1 + z); i; (0 + z)]))))).
Definition r_ccsdt_dT_a_3 (z a i : nat) : ex := (EAdd (r_ccsdt_dT_a_2 (0 + z) a i) (ESum (0 + z) 2 (ESum (1 + z) 3 (EMul (r_ccsdt_X_b_ov (2 + z) (0 + z) (1 + z)) (ET 3 [a; (1 + z); i; (0 + z)]))))).
Definition r_ccsdt_dT_a_4 (z a i : nat) : ex := (EAdd (r_ccsdt_dT_a_3 (0 + z) a i) (ESum (0 + z) 0 (ESum (1 + z) 1 (EMul (ET 26 [a; (0 + z); i; (1 + z)]) (ET 0 [(1 + z); (0 + z)]))))).
Definition r_ccsdt_dT_a_5 (z a i : nat) : ex := (EAdd (r_ccsdt_dT_a_4 (0 + z) a i) (ESum (0 + z) 2 (ESum (1 + z) 3 (EMul (ET 42 [a; (0 + z); i; (1 + z)]) (ET 1 [(1 + z); (0 + z)]))))).
Definition r_ccsdt_dT_a_6 (z a i : nat) : ex := (ESub (r_ccsdt_dT_a_5 (0 + z) a i) (EScale (1) 2 (ESum (0 + z) 0 (ESum (1 + z) 0 (ESum (2 + z) 1 (EMul (ET 18 [(0 + z); (1 + z); i; (2 + z)]) (ET 2 [a; (2 + z); (0 + z); (1 + z)]))))))).
Definition r_ccsdt_dT_a_7 (z a i : nat) : ex := (ESub (r_ccsdt_dT_a_6 (0 + z) a i) (ESum (0 + z) 0 (ESum (1 + z) 2 (ESum (2 + z) 3 (EMul (ET 34 [(0 + z); (1 + z); i; (2 + z)]) (ET 3 [a; (2 + z); (0 + z); (1 + z)])))))).
Definition r_ccsdt_dT_a_8 (z a i : nat) : ex := (EAdd (r_ccsdt_dT_a_7 (0 + z) a i) (EScale (1) 2 (ESum (0 + z) 0 (ESum (1 + z) 1 (ESum (2 + z) 1 (EMul (ET 28 [a; (0 + z); (1 + z); (2 + z)]) (ET 2 [(1 + z); (2 + z); i; (0 + z)]))))))).
Definition r_ccsdt_dT_a_9 (z a i : nat) : ex := (EAdd (r_ccsdt_dT_a_8 (0 + z) a i) (ESum (0 + z) 2 (ESum (1 + z) 1 (ESum (2 + z) 3 (EMul (ET 44 [a; (0 + z); (1 + z); (2 + z)]) (ET 3 [(1 + z); (2 + z); i; (0 + z)])))))).
Definition r_ccsdt_dT_a_10 (z a i : nat) : ex := (EAdd (r_ccsdt_dT_a_9 (0 + z) a i) (EScale (1) 4 (ESum (0 + z) 0 (ESum (1 + z) 0 (ESum (2 + z) 1 (ESum (3 + z) 1 (EMul (ET 20 [(0 + z); (1 + z); (2 + z); (3 + z)]) (ET 5 [a; (2 + z); (3 + z); i; (0 + z); (1 + z)])))))))).
Definition r_ccsdt_dT_a_11 (z a i : nat) : ex := (EAdd (r_ccsdt_dT_a_10 (0 + z) a i) (ESum (0 + z) 0 (ESum (1 + z) 2 (ESum (2 + z) 1 (ESum (3 + z) 3 (EMul (ET 36 [(0 + z); (1 + z); (2 + z); (3 + z)]) (ET 6 [a; (2 + z); (3 + z); i; (0 + z); (1 + z)]))))))).
Definition r_ccsdt_dT_a_12 (z a i : nat) : ex := (EAdd (r_ccsdt_dT_a_11 (0 + z) a i) (EScale (1) 4 (ESum (0 + z) 2 (ESum (1 + z) 2 (ESum (2 + z) 3 (ESum (3 + z) 3 (EMul (ET 52 [(0 + z); (1 + z); (2 + z); (3 + z)]) (ET 7 [a; (2 + z); (3 + z); i; (0 + z); (1 + z)])))))))).
Definition r_ccsdt_res_a (z a i : nat) : ex := (EAdd (r_ccsdt_dT_a_12 (0 + z) a i) (ET 11 [a; i])).
Definition r_ccsdt_dT_b (z a i : nat) : ex := (EOpp (ESum (0 + z) 2 (EMul (r_ccsdt_X_b_oo (1 + z) (0 + z) i) (ET 1 [a; (0 + z)])))).
Definition r_ccsdt_dT_b_1 (z a i : nat) : ex := (EAdd (r_ccsdt_dT_b (0 + z) a i) (ESum (0 + z) 3 (EMul (r_ccsdt_X_b_vv (1 + z) a (0 + z)) (ET 1 [(0 + z); i])))).
Definition r_ccsdt_dT_b_2 (z a i : nat) : ex := (EAdd (r_ccsdt_dT_b_1 (0 + z) a i) (ESum (0 + z) 2 (ESum (1 + z) 3 (EMul (ET 58 [a; (0 + z); i; (1 + z)]) (ET 1 [(1 + z); (0 + z)]))))).
Definition r_ccsdt_dT_b_3 (z a i : nat) : ex := (EAdd (r_ccsdt_dT_b_2 (0 + z) a i) (ESum (0 + z) 0 (ESum (1 + z) 1 (EMul (ET 39 [(0 + z); a; (1 + z); i]) (ET 0 [(1 + z); (0 + z)]))))).
Definition r_ccsdt_dT_b_4 (z a i : nat) : ex := (EAdd (r_ccsdt_dT_b_3 (0 + z) a i) (ESum (0 + z) 0 (ESum (1 + z) 1 (EMul (r_ccsdt_X_a_ov (2 + z) (0 + z) (1 + z)) (ET 3 [(1 + z); a; (0 + z); i]))))).
Definition r_ccsdt_dT_b_5 (z a i : nat) : ex := (EAdd (r_ccsdt_dT_b_4 (0 + z) a i) (ESum (0 + z) 2 (ESum (1 + z) 3 (EMul (r_ccsdt_X_b_ov (2 + z) (0 + z) (1 + z)) (ET 4 [a; (1 + z); i; (0 + z)]))))).
Definition r_ccsdt_dT_b_6 (z a i : nat) : ex := (ESub (r_ccsdt_dT_b_5 (0 + z) a i) (EScale (1) 2 (ESum (0 + z) 2 (ESum (1 + z) 2 (ESum (2 + z) 3 (EMul (ET 50 [(0 + z); (1 + z); i; (2 + z)]) (ET 4 [a; (2 + z); (0 + z); (1 + z)]))))))).
Definition r_ccsdt_dT_b_7 (z a i : nat) : ex := (ESub (r_ccsdt_dT_b_6 (0 + z) a i) (ESum (0 + z) 0 (ESum (1 + z) 2 (ESum (2 + z) 1 (EMul (ET 35 [(0 + z); (1 + z); (2 + z); i]) (ET 3 [(2 + z); a; (0 + z); (1 + z)])))))).
Definition r_ccsdt_dT_b_8 (z a i : nat) : ex := (EAdd (r_ccsdt_dT_b_7 (0 + z) a i) (EScale (1) 2 (ESum (0 + z) 2 (ESum (1 + z) 3 (ESum (2 + z) 3 (EMul (ET 60 [a; (0 + z); (1 + z); (2 + z)]) (ET 4 [(1 + z); (2 + z); i; (0 + z)]))))))).
Definition r_ccsdt_dT_b_9 (z a i : nat) : ex := (EAdd (r_ccsdt_dT_b_8 (0 + z) a i) (ESum (0 + z) 0 (ESum (1 + z) 1 (ESum (2 + z) 3 (EMul (ET 40 [(0 + z); a; (1 + z); (2 + z)]) (ET 3 [(1 + z); (2 + z); (0 + z); i])))))).
Definition r_ccsdt_dT_b_10 (z a i : nat) : ex := (EAdd (r_ccsdt_dT_b_9 (0 + z) a i) (EScale (1) 4 (ESum (0 + z) 2 (ESum (1 + z) 2 (ESum (2 + z) 3 (ESum (3 + z) 3 (EMul (ET 52 [(0 + z); (1 + z); (2 + z); (3 + z)]) (ET 8 [a; (2 + z); (3 + z); i; (0 + z); (1 + z)])))))))).
Definition r_ccsdt_dT_b_11 (z a i : nat) : ex := (EAdd (r_ccsdt_dT_b_10 (0 + z) a i) (EScale (1) 4 (ESum (0 + z) 0 (ESum (1 + z) 0 (ESum (2 + z) 1 (ESum (3 + z) 1 (EMul (ET 20 [(0 + z); (1 + z); (2 + z); (3 + z)]) (ET 6 [(2 + z); (3 + z); a; (0 + z); (1 + z); i])))))))).
Definition r_ccsdt_dT_b_12 (z a i : nat) : ex := (EAdd (r_ccsdt_dT_b_11 (0 + z) a i) (ESum (0 + z) 0 (ESum (1 + z) 2 (ESum (2 + z) 1 (ESum (3 + z) 3 (EMul (ET 36 [(0 + z); (1 + z); (2 + z); (3 + z)]) (ET 7 [(2 + z); (3 + z); a; (0 + z); (1 + z); i]))))))).
Definition r_ccsdt_res_b (z a i : nat) : ex := (EAdd (r_ccsdt_dT_b_12 (0 + z) a i) (ET 15 [a; i])).
Definition r_ccsdt_X_a_vv_1 (z a e : nat) : ex := (ESub (r_ccsdt_X_a_vv (0 + z) a e) (ESum (0 + z) 0 (EMul (r_ccsdt_X_a_ov (1 + z) (0 + z) e) (ET 0 [a; (0 + z)])))).
Definition r_ccsdt_X_b_vv_1 (z a e : nat) : ex := (ESub (r_ccsdt_X_b_vv (0 + z) a e) (ESum (0 + z) 2 (EMul (r_ccsdt_X_b_ov (1 + z) (0 + z) e) (ET 1 [a; (0 + z)])))).
Definition r_ccsdt_X_aa_ooov (z m n i e : nat) : ex := (ESum (0 + z) 1 (EMul (ET 20 [m; n; (0 + z); e]) (ET 0 [(0 + z); i]))).
Definition r_ccsdt_X_aa_vovv (z a m e f : nat) : ex := (EOpp (ESum (0 + z) 0 (EMul (ET 20 [m; (0 + z); f; e]) (ET 0 [a; (0 + z)])))).
Definition r_ccsdt_X_aa_oooo (z m n i j : nat) : ex := (EAdd (EScale (1) 2 (ET 17 [m; n; i; j])) (ESum (0 + z) 1 (EMul (EAdd (ET 18 [n; m; j; (0 + z)]) (EScale (1) 2 (r_ccsdt_X_aa_ooov (1 + z) n m j (0 + z)))) (ET 0 [(0 + z); i])))).
Definition r_ccsdt_X_aa_oooo_1 (z m n i j : nat) : ex := (ESub (r_ccsdt_X_aa_oooo (0 + z) m n i j) (r_ccsdt_X_aa_oooo (0 + z) m n j i)).
Definition r_ccsdt_X_aa_voov (z a m i e : nat) : ex := (EAdd (ET 26 [a; m; i; e]) (ESub (ESum (0 + z) 1 (EMul (EAdd (ET 28 [a; m; (0 + z); e]) (EScale (1) 2 (r_ccsdt_X_aa_vovv (1 + z) a m (0 + z) e))) (ET 0 [(0 + z); i]))) (ESum (0 + z) 0 (EMul (EAdd (ET 18 [(0 + z); m; i; e]) (EScale (1) 2 (r_ccsdt_X_aa_ooov (1 + z) (0 + z) m i e))) (ET 0 [a; (0 + z)]))))).
Definition r_ccsdt_L_amie (z a m i f : nat) : ex := (EAdd (ET 26 [a; m; i; f]) (EScale (1) 2 (ESum (0 + z) 1 (EMul (ET 28 [a; m; (0 + z); f]) (ET 0 [(0 + z); i]))))).
Definition r_ccsdt_X_mnij (z m n i j : nat) : ex := (EAdd (ET 17 [m; n; i; j]) (ESum (0 + z) 1 (EMul (r_ccsdt_X_aa_ooov (1 + z) m n i (0 + z)) (ET 0 [(0 + z); j])))).
Definition r_ccsdt_X_aa_vooo (z a m i j : nat) : ex := (EAdd (EScale (1) 2 (ET 25 [a; m; i; j])) (ESub (ESum (0 + z) 1 (EMul (r_ccsdt_L_amie (1 + z) a m i (0 + z)) (ET 0 [(0 + z); j]))) (EScale (1) 4 (ESum (0 + z) 0 (EMul (r_ccsdt_X_mnij (1 + z) (0 + z) m i j) (ET 0 [a; (0 + z)])))))).
Definition r_ccsdt_X_aa_vooo_1 (z a m i j : nat) : ex := (ESub (r_ccsdt_X_aa_vooo (0 + z) a m i j) (r_ccsdt_X_aa_vooo (0 + z) a m j i)).
Definition r_ccsdt_L_amie_1 (z a n i e : nat) : ex := (ESum (0 + z) 0 (EMul (ET 18 [(0 + z); n; i; e]) (ET 0 [a; (0 + z)]))).
Definition r_ccsdt_X_aa_vvov (z a b i e : nat) : ex := (EAdd (ET 30 [a; b; i; e]) (ESum (0 + z) 0 (EMul (r_ccsdt_L_amie_1 (1 + z) a (0 + z) i e) (ET 0 [b; (0 + z)])))).
Definition r_ccsdt_X_bb_ooov (z m n i e : nat) : ex := (ESum (0 + z) 3 (EMul (ET 52 [m; n; (0 + z); e]) (ET 1 [(0 + z); i]))).
Definition r_ccsdt_X_bb_oooo (z m n i j : nat) : ex := (EAdd (EScale (1) 2 (ET 49 [m; n; i; j])) (ESum (0 + z) 3 (EMul (EAdd (ET 50 [n; m; j; (0 + z)]) (EScale (1) 2 (r_ccsdt_X_bb_ooov (1 + z) n m j (0 + z)))) (ET 1 [(0 + z); i])))).
Definition r_ccsdt_X_bb_oooo_1 (z m n i j : nat) : ex := (ESub (r_ccsdt_X_bb_oooo (0 + z) m n i j) (r_ccsdt_X_bb_oooo (0 + z) m n j i)).
Definition r_ccsdt_X_bb_vovv (z a m e f : nat) : ex := (EOpp (ESum (0 + z) 2 (EMul (ET 52 [m; (0 + z); f; e]) (ET 1 [a; (0 + z)])))).
Definition r_ccsdt_X_bb_voov (z a m i e : nat) : ex := (EAdd (ET 58 [a; m; i; e]) (ESub (ESum (0 + z) 3 (EMul (EAdd (ET 60 [a; m; (0 + z); e]) (EScale (1) 2 (r_ccsdt_X_bb_vovv (1 + z) a m (0 + z) e))) (ET 1 [(0 + z); i]))) (ESum (0 + z) 2 (EMul (EAdd (ET 50 [(0 + z); m; i; e]) (EScale (1) 2 (r_ccsdt_X_bb_ooov (1 + z) (0 + z) m i e))) (ET 1 [a; (0 + z)]))))).
Definition r_ccsdt_L_amie_2 (z a m i f : nat) : ex := (EAdd (ET 58 [a; m; i; f]) (EScale (1) 2 (ESum (0 + z) 3 (EMul (ET 60 [a; m; (0 + z); f]) (ET 1 [(0 + z); i]))))).
Definition r_ccsdt_X_mnij_1 (z m n i j : nat) : ex := (EAdd (ET 49 [m; n; i; j]) (ESum (0 + z) 3 (EMul (r_ccsdt_X_bb_ooov (1 + z) m n i (0 + z)) (ET 1 [(0 + z); j])))).
Definition r_ccsdt_X_bb_vooo (z a m i j : nat) : ex := (EAdd (EScale (1) 2 (ET 57 [a; m; i; j])) (ESub (ESum (0 + z) 3 (EMul (r_ccsdt_L_amie_2 (1 + z) a m i (0 + z)) (ET 1 [(0 + z); j]))) (EScale (1) 4 (ESum (0 + z) 2 (EMul (r_ccsdt_X_mnij_1 (1 + z) (0 + z) m i j) (ET 1 [a; (0 + z)])))))).
Definition r_ccsdt_X_bb_vooo_1 (z a m i j : nat) : ex := (ESub (r_ccsdt_X_bb_vooo (0 + z) a m i j) (r_ccsdt_X_bb_vooo (0 + z) a m j i)).
Definition r_ccsdt_L_amie_3 (z a n i e : nat) : ex := (ESum (0 + z) 2 (EMul (ET 50 [(0 + z); n; i; e]) (ET 1 [a; (0 + z)]))).
Definition r_ccsdt_X_bb_vvov (z a b i e : nat) : ex := (EAdd (ET 62 [a; b; i; e]) (ESum (0 + z) 2 (EMul (r_ccsdt_L_amie_3 (1 + z) a (0 + z) i e) (ET 1 [b; (0 + z)])))).
Definition r_ccsdt_X_ab_ooov (z m n i e : nat) : ex := (ESum (0 + z) 1 (EMul (ET 36 [m; n; (0 + z); e]) (ET 0 [(0 + z); i]))).
Definition r_ccsdt_X_ab_oovo (z n m e i : nat) : ex := (ESum (0 + z) 3 (EMul (ET 36 [n; m; e; (0 + z)]) (ET 1 [(0 + z); i]))).
Definition r_ccsdt_X_ab_oooo (z m n i j : nat) : ex := (EAdd (ET 33 [m; n; i; j]) (EAdd (ESum (0 + z) 1 (EMul (EAdd (ET 35 [m; n; (0 + z); j]) (EScale (1) 2 (r_ccsdt_X_ab_oovo (1 + z) m n (0 + z) j))) (ET 0 [(0 + z); i]))) (ESum (0 + z) 3 (EMul (EAdd (ET 34 [m; n; i; (0 + z)]) (EScale (1) 2 (r_ccsdt_X_ab_ooov (1 + z) m n i (0 + z)))) (ET 1 [(0 + z); j]))))).
Definition r_ccsdt_X_ab_vovv (z a m e f : nat) : ex := (EOpp (ESum (0 + z) 0 (EMul (ET 36 [(0 + z); m; e; f]) (ET 0 [a; (0 + z)])))).
Definition r_ccsdt_X_ab_ovvv (z m a e f : nat) : ex := (EOpp (ESum (0 + z) 2 (EMul (ET 36 [m; (0 + z); e; f]) (ET 1 [a; (0 + z)])))).
Definition r_ccsdt_X_ab_voov (z a m i e : nat) : ex := (EAdd (ET 42 [a; m; i; e]) (ESub (ESum (0 + z) 1 (EMul (EAdd (ET 44 [a; m; (0 + z); e]) (EScale (1) 2 (r_ccsdt_X_ab_vovv (1 + z) a m (0 + z) e))) (ET 0 [(0 + z); i]))) (ESum (0 + z) 0 (EMul (EAdd (ET 34 [(0 + z); m; i; e]) (EScale (1) 2 (r_ccsdt_X_ab_ooov (1 + z) (0 + z) m i e))) (ET 0 [a; (0 + z)]))))).
Definition r_ccsdt_X_ab_ovvo (z m a e i : nat) : ex := (EAdd (ET 39 [m; a; e; i]) (ESub (ESum (0 + z) 3 (EMul (EAdd (ET 40 [m; a; e; (0 + z)]) (EScale (1) 2 (r_ccsdt_X_ab_ovvv (1 + z) m a e (0 + z)))) (ET 1 [(0 + z); i]))) (ESum (0 + z) 2 (EMul (EAdd (ET 35 [m; (0 + z); e; i]) (EScale (1) 2 (r_ccsdt_X_ab_oovo (1 + z) m (0 + z) e i))) (ET 1 [a; (0 + z)]))))).
Definition r_ccsdt_X_ab_ovov (z m a i e : nat) : ex := (EAdd (ET 38 [m; a; i; e]) (ESub (ESum (0 + z) 1 (EMul (EAdd (ET 40 [m; a; (0 + z); e]) (EScale (1) 2 (r_ccsdt_X_ab_ovvv (1 + z) m a (0 + z) e))) (ET 0 [(0 + z); i]))) (ESum (0 + z) 2 (EMul (EAdd (ET 34 [m; (0 + z); i; e]) (EScale (1) 2 (r_ccsdt_X_ab_ooov (1 + z) m (0 + z) i e))) (ET 1 [a; (0 + z)]))))).
Definition r_ccsdt_X_ab_vovo (z a m e i : nat) : ex := (ESub (ET 43 [a; m; e; i]) (ESub (ESum (0 + z) 0 (EMul (EAdd (ET 35 [(0 + z); m; e; i]) (EScale (1) 2 (r_ccsdt_X_ab_oovo (1 + z) (0 + z) m e i))) (ET 0 [a; (0 + z)]))) (ESum (0 + z) 3 (EMul (EAdd (ET 44 [a; m; e; (0 + z)]) (EScale (1) 2 (r_ccsdt_X_ab_vovv (1 + z) a m e (0 + z)))) (ET 1 [(0 + z); i]))))).
Definition r_ccsdt_X_mnij_2 (z m n i j : nat) : ex := (EAdd (ET 33 [m; n; i; j]) (EAdd (ESum (0 + z) 3 (EMul (ET 34 [m; n; i; (0 + z)]) (ET 1 [(0 + z); j]))) (ESum (0 + z) 1 (EMul (ET 35 [m; n; (0 + z); j]) (ET 0 [(0 + z); i]))))).
Definition r_ccsdt_L_mbej (z m b e j : nat) : ex := (EAdd (ET 39 [m; b; e; j]) (ESum (0 + z) 3 (EMul (ET 40 [m; b; e; (0 + z)]) (ET 1 [(0 + z); j])))).
Definition r_ccsdt_X_ab_ovoo (z m b i j : nat) : ex := (EAdd (ET 37 [m; b; i; j]) (ESub (ESum (0 + z) 1 (EMul (r_ccsdt_L_mbej (1 + z) m b (0 + z) j) (ET 0 [(0 + z); i]))) (ESum (0 + z) 2 (EMul (r_ccsdt_X_mnij_2 (1 + z) m (0 + z) i j) (ET 1 [b; (0 + z)]))))).
Definition r_ccsdt_L_amie_4 (z a m i f : nat) : ex := (ESum (0 + z) 1 (EMul (EAdd (ET 44 [a; m; (0 + z); f]) (r_ccsdt_X_ab_vovv (1 + z) a m (0 + z) f)) (ET 0 [(0 + z); i]))).
Definition r_ccsdt_X_ab_vooo (z a m i j : nat) : ex := (EAdd (ET 41 [a; m; i; j]) (ESum (0 + z) 3 (EMul (EAdd (ET 42 [a; m; i; (0 + z)]) (r_ccsdt_L_amie_4 (1 + z) a m i (0 + z))) (ET 1 [(0 + z); j])))).
Definition r_ccsdt_X_ab_vvvo (z a b e j : nat) : ex := (ESub (ET 47 [a; b; e; j]) (ESum (0 + z) 2 (EMul (ET 43 [a; (0 + z); e; j]) (ET 1 [b; (0 + z)])))).
Definition r_ccsdt_X_ab_vvov (z a b i e : nat) : ex := (ESub (ET 46 [a; b; i; e]) (ESum (0 + z) 0 (EMul (ET 38 [(0 + z); b; i; e]) (ET 0 [a; (0 + z)])))).
Definition r_ccsdt_I2A_voov (z a m i e : nat) : ex := (EAdd (r_ccsdt_X_aa_voov (0 + z) a m i e) (EAdd (EScale (1) 2 (ESum (0 + z) 0 (ESum (1 + z) 1 (EMul (ET 20 [m; (0 + z); e; (1 + z)]) (ET 2 [a; (1 + z); i; (0 + z)]))))) (ESum (0 + z) 2 (ESum (1 + z) 3 (EMul (ET 36 [m; (0 + z); e; (1 + z)]) (ET 3 [a; (1 + z); i; (0 + z)])))))).
Definition r_ccsdt_I2A_oooo (z m n i j : nat) : ex := (EAdd (r_ccsdt_X_aa_oooo_1 (0 + z) m n i j) (EScale (1) 2 (ESum (0 + z) 1 (ESum (1 + z) 1 (EMul (ET 20 [m; n; (0 + z); (1 + z)]) (ET 2 [(0 + z); (1 + z); i; j])))))).
Definition r_ccsdt_I2B_voov (z a m i e : nat) : ex := (EAdd (r_ccsdt_X_ab_voov (0 + z) a m i e) (EScale (1) 2 (ESum (0 + z) 2 (ESum (1 + z) 3 (EMul (ET 52 [m; (0 + z); e; (1 + z)]) (ET 3 [a; (1 + z); i; (0 + z)])))))).
Definition r_ccsdt_I2A_vooo (z a m i j : nat) : ex := (EAdd (r_ccsdt_X_aa_vooo_1 (0 + z) a m i j) (EScale (1) 2 (ESum (0 + z) 1 (ESum (1 + z) 1 (EMul (EAdd (ET 28 [a; m; (0 + z); (1 + z)]) (EScale (1) 2 (r_ccsdt_X_aa_vovv (2 + z) a m (0 + z) (1 + z)))) (ET 2 [(0 + z); (1 + z); i; j])))))).
Definition r_ccsdt_tau (z a b i j : nat) : ex := (EAdd (EScale (1) 2 (ET 2 [a; b; i; j])) (EMul (ET 0 [a; i]) (ET 0 [b; j]))).
Definition r_ccsdt_dT_aa (z a b i j : nat) : ex := (EScale (-1) 2 (ESum (0 + z) 0 (EMul (r_ccsdt_I2A_vooo (1 + z) a (0 + z) i j) (ET 0 [b; (0 + z)])))).
Definition r_ccsdt_dT_aa_1 (z a b i j : nat) : ex := (EAdd (r_ccsdt_dT_aa (0 + z) a b i j) (EScale (1) 2 (ESum (0 + z) 1 (EMul (r_ccsdt_X_aa_vvov (1 + z) a b i (0 + z)) (ET 0 [(0 + z); j]))))).
Definition r_ccsdt_dT_aa_2 (z a b i j : nat) : ex := (EAdd (r_ccsdt_dT_aa_1 (0 + z) a b i j) (EScale (1) 2 (ESum (0 + z) 1 (EMul (r_ccsdt_X_a_vv_1 (1 + z) a (0 + z)) (ET 2 [(0 + z); b; i; j]))))).
Definition r_ccsdt_dT_aa_3 (z a b i j : nat) : ex := (ESub (r_ccsdt_dT_aa_2 (0 + z) a b i j) (EScale (1) 2 (ESum (0 + z) 0 (EMul (r_ccsdt_X_a_oo (1 + z) (0 + z) i) (ET 2 [a; b; (0 + z); j]))))).
Definition r_ccsdt_dT_aa_4 (z a b i j : nat) : ex := (EAdd (r_ccsdt_dT_aa_3 (0 + z) a b i j) (ESum (0 + z) 0 (ESum (1 + z) 1 (EMul (r_ccsdt_I2A_voov (2 + z) a (0 + z) i (1 + z)) (ET 2 [(1 + z); b; (0 + z); j]))))).
Definition r_ccsdt_dT_aa_5 (z a b i j : nat) : ex := (EAdd (r_ccsdt_dT_aa_4 (0 + z) a b i j) (ESum (0 + z) 2 (ESum (1 + z) 3 (EMul (r_ccsdt_I2B_voov (2 + z) a (0 + z) i (1 + z)) (ET 3 [b; (1 + z); j; (0 + z)]))))).
Definition r_ccsdt_dT_aa_6 (z a b i j : nat) : ex := (EAdd (r_ccsdt_dT_aa_5 (0 + z) a b i j) (EScale (1) 4 (ESum (0 + z) 1 (ESum (1 + z) 1 (EMul (ET 32 [a; b; (0 + z); (1 + z)]) (r_ccsdt_tau (2 + z) (0 + z) (1 + z) i j)))))).
Definition r_ccsdt_dT_aa_7 (z a b i j : nat) : ex := (EAdd (r_ccsdt_dT_aa_6 (0 + z) a b i j) (EScale (1) 8 (ESum (0 + z) 0 (ESum (1 + z) 0 (EMul (r_ccsdt_I2A_oooo (2 + z) (0 + z) (1 + z) i j) (ET 2 [a; b; (0 + z); (1 + z)])))))).
Definition r_ccsdt_dT_aa_8 (z a b i j : nat) : ex := (EAdd (r_ccsdt_dT_aa_7 (0 + z) a b i j) (EScale (1) 4 (ESum (0 + z) 0 (ESum (1 + z) 1 (EMul (r_ccsdt_X_a_ov (2 + z) (0 + z) (1 + z)) (ET 5 [a; b; (1 + z); i; j; (0 + z)])))))).
Definition r_ccsdt_dT_aa_9 (z a b i j : nat) : ex := (EAdd (r_ccsdt_dT_aa_8 (0 + z) a b i j) (EScale (1) 4 (ESum (0 + z) 2 (ESum (1 + z) 3 (EMul (r_ccsdt_X_b_ov (2 + z) (0 + z) (1 + z)) (ET 6 [a; b; (1 + z); i; j; (0 + z)])))))).
Definition r_ccsdt_dT_aa_10 (z a b i j : nat) : ex := (ESub (r_ccsdt_dT_aa_9 (0 + z) a b i j) (EScale (1) 2 (ESum (0 + z) 0 (ESum (1 + z) 2 (ESum (2 + z) 3 (EMul (EAdd (ET 34 [(0 + z); (1 + z); i; (2 + z)]) (r_ccsdt_X_ab_ooov (3 + z) (0 + z) (1 + z) i (2 + z))) (ET 6 [a; b; (2 + z); (0 + z); j; (1 + z)]))))))).
Definition r_ccsdt_dT_aa_11 (z a b i j : nat) : ex := (ESub (r_ccsdt_dT_aa_10 (0 + z) a b i j) (EScale (1) 4 (ESum (0 + z) 0 (ESum (1 + z) 0 (ESum (2 + z) 1 (EMul (EAdd (ET 18 [(0 + z); (1 + z); i; (2 + z)]) (r_ccsdt_X_aa_ooov (3 + z) (0 + z) (1 + z) i (2 + z))) (ET 5 [a; b; (2 + z); (0 + z); j; (1 + z)]))))))).
Definition r_ccsdt_dT_aa_12 (z a b i j : nat) : ex := (EAdd (r_ccsdt_dT_aa_11 (0 + z) a b i j) (EScale (1) 4 (ESum (0 + z) 0 (ESum (1 + z) 1 (ESum (2 + z) 1 (EMul (EAdd (ET 28 [a; (0 + z); (1 + z); (2 + z)]) (r_ccsdt_X_aa_vovv (3 + z) a (0 + z) (1 + z) (2 + z))) (ET 5 [(1 + z); b; (2 + z); i; j; (0 + z)]))))))).
Definition r_ccsdt_dT_aa_13 (z a b i j : nat) : ex := (EAdd (r_ccsdt_dT_aa_12 (0 + z) a b i j) (EScale (1) 2 (ESum (0 + z) 2 (ESum (1 + z) 1 (ESum (2 + z) 3 (EMul (EAdd (ET 44 [a; (0 + z); (1 + z); (2 + z)]) (r_ccsdt_X_ab_vovv (3 + z) a (0 + z) (1 + z) (2 + z))) (ET 6 [(1 + z); b; (2 + z); i; j; (0 + z)]))))))).
Definition r_ccsdt_res_aa (z a b i j : nat) : ex := (EAdd (r_ccsdt_dT_aa_13 (0 + z) a b i j) (EScale (1) 4 (ET 29 [a; b; i; j]))).
Definition r_ccsdt_I2A_voov_1 (z a m i e : nat) : ex := (EAdd (r_ccsdt_X_aa_voov (0 + z) a m i e) (EAdd (ESum (0 + z) 0 (ESum (1 + z) 1 (EMul (ET 20 [(0 + z); m; (1 + z); e]) (ET 2 [a; (1 + z); i; (0 + z)])))) (ESum (0 + z) 2 (ESum (1 + z) 3 (EMul (ET 36 [m; (0 + z); e; (1 + z)]) (ET 3 [a; (1 + z); i; (0 + z)])))))).
Definition r_ccsdt_I2B_voov_1 (z a m i e : nat) : ex := (EAdd (r_ccsdt_X_ab_voov (0 + z) a m i e) (EAdd (ESum (0 + z) 0 (ESum (1 + z) 1 (EMul (ET 36 [(0 + z); m; (1 + z); e]) (ET 2 [a; (1 + z); i; (0 + z)])))) (ESum (0 + z) 2 (ESum (1 + z) 3 (EMul (ET 52 [(0 + z); m; (1 + z); e]) (ET 3 [a; (1 + z); i; (0 + z)])))))).
Definition r_ccsdt_I2B_oooo (z m n i j : nat) : ex := (EAdd (r_ccsdt_X_ab_oooo (0 + z) m n i j) (ESum (0 + z) 1 (ESum (1 + z) 3 (EMul (ET 36 [m; n; (0 + z); (1 + z)]) (ET 3 [(0 + z); (1 + z); i; j]))))).
Definition r_ccsdt_I2B_vovo (z a m e i : nat) : ex := (ESub (r_ccsdt_X_ab_vovo (0 + z) a m e i) (ESum (0 + z) 0 (ESum (1 + z) 3 (EMul (ET 36 [(0 + z); m; e; (1 + z)]) (ET 3 [a; (1 + z); (0 + z); i]))))).
Definition r_ccsdt_I2B_ovoo (z m b i j : nat) : ex := (EAdd (r_ccsdt_X_ab_ovoo (0 + z) m b i j) (ESum (0 + z) 1 (ESum (1 + z) 3 (EMul (EAdd (ET 40 [m; b; (0 + z); (1 + z)]) (EScale (1) 2 (r_ccsdt_X_ab_ovvv (2 + z) m b (0 + z) (1 + z)))) (ET 3 [(0 + z); (1 + z); i; j]))))).
Definition r_ccsdt_I2B_vooo (z a m i j : nat) : ex := (EAdd (r_ccsdt_X_ab_vooo (0 + z) a m i j) (ESum (0 + z) 1 (ESum (1 + z) 3 (EMul (EAdd (ET 44 [a; m; (0 + z); (1 + z)]) (EScale (1) 2 (r_ccsdt_X_ab_vovv (2 + z) a m (0 + z) (1 + z)))) (ET 3 [(0 + z); (1 + z); i; j]))))).
Definition r_ccsdt_tau_1 (z a b i j : nat) : ex := (EAdd (ET 3 [a; b; i; j]) (EMul (ET 0 [a; i]) (ET 1 [b; j]))).
Definition r_ccsdt_dT_ab (z a b i j : nat) : ex := (EOpp (ESum (0 + z) 0 (EMul (r_ccsdt_I2B_ovoo (1 + z) (0 + z) b i j) (ET 0 [a; (0 + z)])))).
Definition r_ccsdt_dT_ab_1 (z a b i j : nat) : ex := (ESub (r_ccsdt_dT_ab (0 + z) a b i j) (ESum (0 + z) 2 (EMul (r_ccsdt_I2B_vooo (1 + z) a (0 + z) i j) (ET 1 [b; (0 + z)])))).
Definition r_ccsdt_dT_ab_2 (z a b i j : nat) : ex := (EAdd (r_ccsdt_dT_ab_1 (0 + z) a b i j) (ESum (0 + z) 1 (EMul (r_ccsdt_X_ab_vvvo (1 + z) a b (0 + z) j) (ET 0 [(0 + z); i])))).
Definition r_ccsdt_dT_ab_3 (z a b i j : nat) : ex := (EAdd (r_ccsdt_dT_ab_2 (0 + z) a b i j) (ESum (0 + z) 3 (EMul (r_ccsdt_X_ab_vvov (1 + z) a b i (0 + z)) (ET 1 [(0 + z); j])))).
Definition r_ccsdt_dT_ab_4 (z a b i j : nat) : ex := (EAdd (r_ccsdt_dT_ab_3 (0 + z) a b i j) (ESum (0 + z) 1 (EMul (r_ccsdt_X_a_vv_1 (1 + z) a (0 + z)) (ET 3 [(0 + z); b; i; j])))).
Definition r_ccsdt_dT_ab_5 (z a b i j : nat) : ex := (EAdd (r_ccsdt_dT_ab_4 (0 + z) a b i j) (ESum (0 + z) 3 (EMul (r_ccsdt_X_b_vv_1 (1 + z) b (0 + z)) (ET 3 [a; (0 + z); i; j])))).
Definition r_ccsdt_dT_ab_6 (z a b i j : nat) : ex := (ESub (r_ccsdt_dT_ab_5 (0 + z) a b i j) (ESum (0 + z) 0 (EMul (r_ccsdt_X_a_oo (1 + z) (0 + z) i) (ET 3 [a; b; (0 + z); j])))).
Definition r_ccsdt_dT_ab_7 (z a b i j : nat) : ex := (ESub (r_ccsdt_dT_ab_6 (0 + z) a b i j) (ESum (0 + z) 2 (EMul (r_ccsdt_X_b_oo (1 + z) (0 + z) j) (ET 3 [a; b; i; (0 + z)])))).
Definition r_ccsdt_dT_ab_8 (z a b i j : nat) : ex := (EAdd (r_ccsdt_dT_ab_7 (0 + z) a b i j) (ESum (0 + z) 0 (ESum (1 + z) 1 (EMul (r_ccsdt_I2A_voov_1 (2 + z) a (0 + z) i (1 + z)) (ET 3 [(1 + z); b; (0 + z); j]))))).
Definition r_ccsdt_dT_ab_9 (z a b i j : nat) : ex := (EAdd (r_ccsdt_dT_ab_8 (0 + z) a b i j) (ESum (0 + z) 2 (ESum (1 + z) 3 (EMul (r_ccsdt_I2B_voov_1 (2 + z) a (0 + z) i (1 + z)) (ET 4 [(1 + z); b; (0 + z); j]))))).
Definition r_ccsdt_dT_ab_10 (z a b i j : nat) : ex := (EAdd (r_ccsdt_dT_ab_9 (0 + z) a b i j) (ESum (0 + z) 0 (ESum (1 + z) 1 (EMul (r_ccsdt_X_ab_ovvo (2 + z) (0 + z) b (1 + z) j) (ET 2 [a; (1 + z); i; (0 + z)]))))).
Definition r_ccsdt_dT_ab_11 (z a b i j : nat) : ex := (EAdd (r_ccsdt_dT_ab_10 (0 + z) a b i j) (ESum (0 + z) 2 (ESum (1 + z) 3 (EMul (r_ccsdt_X_bb_voov (2 + z) b (0 + z) j (1 + z)) (ET 3 [a; (1 + z); i; (0 + z)]))))).
Definition r_ccsdt_dT_ab_12 (z a b i j : nat) : ex := (ESub (r_ccsdt_dT_ab_11 (0 + z) a b i j) (ESum (0 + z) 0 (ESum (1 + z) 3 (EMul (r_ccsdt_X_ab_ovov (2 + z) (0 + z) b i (1 + z)) (ET 3 [a; (1 + z); (0 + z); j]))))).
Definition r_ccsdt_dT_ab_13 (z a b i j : nat) : ex := (ESub (r_ccsdt_dT_ab_12 (0 + z) a b i j) (ESum (0 + z) 2 (ESum (1 + z) 1 (EMul (r_ccsdt_I2B_vovo (2 + z) a (0 + z) (1 + z) j) (ET 3 [(1 + z); b; i; (0 + z)]))))).
Definition r_ccsdt_dT_ab_14 (z a b i j : nat) : ex := (EAdd (r_ccsdt_dT_ab_13 (0 + z) a b i j) (ESum (0 + z) 0 (ESum (1 + z) 2 (EMul (r_ccsdt_I2B_oooo (2 + z) (0 + z) (1 + z) i j) (ET 3 [a; b; (0 + z); (1 + z)]))))).
Definition r_ccsdt_dT_ab_15 (z a b i j : nat) : ex := (EAdd (r_ccsdt_dT_ab_14 (0 + z) a b i j) (ESum (0 + z) 1 (ESum (1 + z) 3 (EMul (ET 48 [a; b; (0 + z); (1 + z)]) (r_ccsdt_tau_1 (2 + z) (0 + z) (1 + z) i j))))).
Definition r_ccsdt_dT_ab_16 (z a b i j : nat) : ex := (ESub (r_ccsdt_dT_ab_15 (0 + z) a b i j) (EScale (1) 2 (ESum (0 + z) 0 (ESum (1 + z) 0 (ESum (2 + z) 1 (EMul (EAdd (ET 18 [(0 + z); (1 + z); i; (2 + z)]) (r_ccsdt_X_aa_ooov (3 + z) (0 + z) (1 + z) i (2 + z))) (ET 6 [a; (2 + z); b; (0 + z); (1 + z); j]))))))).
Definition r_ccsdt_dT_ab_17 (z a b i j : nat) : ex := (ESub (r_ccsdt_dT_ab_16 (0 + z) a b i j) (ESum (0 + z) 0 (ESum (1 + z) 2 (ESum (2 + z) 1 (EMul (EAdd (ET 35 [(0 + z); (1 + z); (2 + z); j]) (r_ccsdt_X_ab_oovo (3 + z) (0 + z) (1 + z) (2 + z) j)) (ET 6 [a; (2 + z); b; i; (0 + z); (1 + z)])))))).
Definition r_ccsdt_dT_ab_18 (z a b i j : nat) : ex := (ESub (r_ccsdt_dT_ab_17 (0 + z) a b i j) (EScale (1) 2 (ESum (0 + z) 2 (ESum (1 + z) 2 (ESum (2 + z) 3 (EMul (EAdd (ET 50 [(0 + z); (1 + z); j; (2 + z)]) (r_ccsdt_X_bb_ooov (3 + z) (0 + z) (1 + z) j (2 + z))) (ET 7 [a; (2 + z); b; i; (1 + z); (0 + z)]))))))).
Definition r_ccsdt_dT_ab_19 (z a b i j : nat) : ex := (ESub (r_ccsdt_dT_ab_18 (0 + z) a b i j) (ESum (0 + z) 0 (ESum (1 + z) 2 (ESum (2 + z) 3 (EMul (EAdd (ET 34 [(0 + z); (1 + z); i; (2 + z)]) (r_ccsdt_X_ab_ooov (3 + z) (0 + z) (1 + z) i (2 + z))) (ET 7 [a; (2 + z); b; (0 + z); (1 + z); j])))))).
Definition r_ccsdt_dT_ab_20 (z a b i j : nat) : ex := (EAdd (r_ccsdt_dT_ab_19 (0 + z) a b i j) (EScale (1) 2 (ESum (0 + z) 0 (ESum (1 + z) 1 (ESum (2 + z) 1 (EMul (EAdd (ET 28 [a; (0 + z); (1 + z); (2 + z)]) (r_ccsdt_X_aa_vovv (3 + z) a (0 + z) (1 + z) (2 + z))) (ET 6 [(1 + z); (2 + z); b; i; (0 + z); j]))))))).
Definition r_ccsdt_dT_ab_21 (z a b i j : nat) : ex := (EAdd (r_ccsdt_dT_ab_20 (0 + z) a b i j) (ESum (0 + z) 2 (ESum (1 + z) 1 (ESum (2 + z) 3 (EMul (EAdd (ET 44 [a; (0 + z); (1 + z); (2 + z)]) (r_ccsdt_X_ab_vovv (3 + z) a (0 + z) (1 + z) (2 + z))) (ET 7 [(1 + z); (2 + z); b; i; (0 + z); j])))))).
Definition r_ccsdt_dT_ab_22 (z a b i j : nat) : ex := (EAdd (r_ccsdt_dT_ab_21 (0 + z) a b i j) (ESum (0 + z) 0 (ESum (1 + z) 1 (ESum (2 + z) 3 (EMul (EAdd (ET 40 [(0 + z); b; (1 + z); (2 + z)]) (r_ccsdt_X_ab_ovvv (3 + z) (0 + z) b (1 + z) (2 + z))) (ET 6 [a; (1 + z); (2 + z); i; (0 + z); j])))))).
Definition r_ccsdt_dT_ab_23 (z a b i j : nat) : ex := (EAdd (r_ccsdt_dT_ab_22 (0 + z) a b i j) (EScale (1) 2 (ESum (0 + z) 2 (ESum (1 + z) 3 (ESum (2 + z) 3 (EMul (EAdd (ET 60 [b; (0 + z); (1 + z); (2 + z)]) (r_ccsdt_X_bb_vovv (3 + z) b (0 + z) (1 + z) (2 + z))) (ET 7 [a; (2 + z); (1 + z); i; (0 + z); j]))))))).
Definition r_ccsdt_dT_ab_24 (z a b i j : nat) : ex := (EAdd (r_ccsdt_dT_ab_23 (0 + z) a b i j) (ESum (0 + z) 0 (ESum (1 + z) 1 (EMul (r_ccsdt_X_a_ov (2 + z) (0 + z) (1 + z)) (ET 6 [a; (1 + z); b; i; (0 + z); j]))))).
Definition r_ccsdt_dT_ab_25 (z a b i j : nat) : ex := (EAdd (r_ccsdt_dT_ab_24 (0 + z) a b i j) (ESum (0 + z) 2 (ESum (1 + z) 3 (EMul (r_ccsdt_X_b_ov (2 + z) (0 + z) (1 + z)) (ET 7 [a; (1 + z); b; i; (0 + z); j]))))).
Definition r_ccsdt_res_ab (z a b i j : nat) : ex := (EAdd (r_ccsdt_dT_ab_25 (0 + z) a b i j) (ET 45 [a; b; i; j])).
Definition r_ccsdt_I2C_oooo (z m n i j : nat) : ex := (EAdd (r_ccsdt_X_bb_oooo_1 (0 + z) m n i j) (EScale (1) 2 (ESum (0 + z) 3 (ESum (1 + z) 3 (EMul (ET 52 [m; n; (0 + z); (1 + z)]) (ET 4 [(0 + z); (1 + z); i; j])))))).
Definition r_ccsdt_I2B_ovvo (z m a e i : nat) : ex := (EAdd (r_ccsdt_X_ab_ovvo (0 + z) m a e i) (EAdd (ESum (0 + z) 2 (ESum (1 + z) 3 (EMul (ET 36 [m; (0 + z); e; (1 + z)]) (ET 4 [a; (1 + z); i; (0 + z)])))) (EScale (1) 2 (ESum (0 + z) 0 (ESum (1 + z) 1 (EMul (ET 20 [m; (0 + z); e; (1 + z)]) (ET 3 [(1 + z); a; (0 + z); i]))))))).
Definition r_ccsdt_I2C_voov (z a m i e : nat) : ex := (EAdd (r_ccsdt_X_bb_voov (0 + z) a m i e) (EScale (1) 2 (ESum (0 + z) 2 (ESum (1 + z) 3 (EMul (ET 52 [m; (0 + z); e; (1 + z)]) (ET 4 [a; (1 + z); i; (0 + z)])))))).
Definition r_ccsdt_I2C_vooo (z a m i j : nat) : ex := (EAdd (r_ccsdt_X_bb_vooo_1 (0 + z) a m i j) (EScale (1) 2 (ESum (0 + z) 3 (ESum (1 + z) 3 (EMul (EAdd (ET 60 [a; m; (0 + z); (1 + z)]) (EScale (1) 2 (r_ccsdt_X_bb_vovv (2 + z) a m (0 + z) (1 + z)))) (ET 4 [(0 + z); (1 + z); i; j])))))).
Definition r_ccsdt_tau_2 (z a b i j : nat) : ex := (EAdd (EScale (1) 2 (ET 4 [a; b; i; j])) (EMul (ET 1 [a; i]) (ET 1 [b; j]))).
Definition r_ccsdt_dT_bb (z a b i j : nat) : ex := (EScale (-1) 2 (ESum (0 + z) 2 (EMul (r_ccsdt_I2C_vooo (1 + z) a (0 + z) i j) (ET 1 [b; (0 + z)])))).
Definition r_ccsdt_dT_bb_1 (z a b i j : nat) : ex := (EAdd (r_ccsdt_dT_bb (0 + z) a b i j) (EScale (1) 2 (ESum (0 + z) 3 (EMul (r_ccsdt_X_bb_vvov (1 + z) a b i (0 + z)) (ET 1 [(0 + z); j]))))).
Definition r_ccsdt_dT_bb_2 (z a b i j : nat) : ex := (EAdd (r_ccsdt_dT_bb_1 (0 + z) a b i j) (EScale (1) 2 (ESum (0 + z) 3 (EMul (r_ccsdt_X_b_vv_1 (1 + z) a (0 + z)) (ET 4 [(0 + z); b; i; j]))))).
Definition r_ccsdt_dT_bb_3 (z a b i j : nat) : ex := (ESub (r_ccsdt_dT_bb_2 (0 + z) a b i j) (EScale (1) 2 (ESum (0 + z) 2 (EMul (r_ccsdt_X_b_oo (1 + z) (0 + z) i) (ET 4 [a; b; (0 + z); j]))))).
Definition r_ccsdt_dT_bb_4 (z a b i j : nat) : ex := (EAdd (r_ccsdt_dT_bb_3 (0 + z) a b i j) (ESum (0 + z) 2 (ESum (1 + z) 3 (EMul (r_ccsdt_I2C_voov (2 + z) a (0 + z) i (1 + z)) (ET 4 [(1 + z); b; (0 + z); j]))))).
Definition r_ccsdt_dT_bb_5 (z a b i j : nat) : ex := (EAdd (r_ccsdt_dT_bb_4 (0 + z) a b i j) (ESum (0 + z) 0 (ESum (1 + z) 1 (EMul (r_ccsdt_I2B_ovvo (2 + z) (0 + z) a (1 + z) i) (ET 3 [(1 + z); b; (0 + z); j]))))).
Definition r_ccsdt_dT_bb_6 (z a b i j : nat) : ex := (EAdd (r_ccsdt_dT_bb_5 (0 + z) a b i j) (EScale (1) 4 (ESum (0 + z) 3 (ESum (1 + z) 3 (EMul (ET 64 [a; b; (0 + z); (1 + z)]) (r_ccsdt_tau_2 (2 + z) (0 + z) (1 + z) i j)))))).
Definition r_ccsdt_dT_bb_7 (z a b i j : nat) : ex := (EAdd (r_ccsdt_dT_bb_6 (0 + z) a b i j) (EScale (1) 8 (ESum (0 + z) 2 (ESum (1 + z) 2 (EMul (r_ccsdt_I2C_oooo (2 + z) (0 + z) (1 + z) i j) (ET 4 [a; b; (0 + z); (1 + z)])))))).
Definition r_ccsdt_dT_bb_8 (z a b i j : nat) : ex := (EAdd (r_ccsdt_dT_bb_7 (0 + z) a b i j) (EScale (1) 4 (ESum (0 + z) 0 (ESum (1 + z) 1 (EMul (r_ccsdt_X_a_ov (2 + z) (0 + z) (1 + z)) (ET 7 [(1 + z); a; b; (0 + z); i; j])))))).
Definition r_ccsdt_dT_bb_9 (z a b i j : nat) : ex := (EAdd (r_ccsdt_dT_bb_8 (0 + z) a b i j) (EScale (1) 4 (ESum (0 + z) 2 (ESum (1 + z) 3 (EMul (r_ccsdt_X_b_ov (2 + z) (0 + z) (1 + z)) (ET 8 [a; b; (1 + z); i; j; (0 + z)])))))).
Definition r_ccsdt_dT_bb_10 (z a b i j : nat) : ex := (EAdd (r_ccsdt_dT_bb_9 (0 + z) a b i j) (EScale (1) 4 (ESum (0 + z) 2 (ESum (1 + z) 3 (ESum (2 + z) 3 (EMul (EAdd (ET 60 [a; (0 + z); (1 + z); (2 + z)]) (r_ccsdt_X_bb_vovv (3 + z) a (0 + z) (1 + z) (2 + z))) (ET 8 [(1 + z); b; (2 + z); i; j; (0 + z)]))))))).
Definition r_ccsdt_dT_bb_11 (z a b i j : nat) : ex := (EAdd (r_ccsdt_dT_bb_10 (0 + z) a b i j) (EScale (1) 2 (ESum (0 + z) 0 (ESum (1 + z) 1 (ESum (2 + z) 3 (EMul (EAdd (ET 40 [(0 + z); a; (1 + z); (2 + z)]) (r_ccsdt_X_ab_ovvv (3 + z) (0 + z) a (1 + z) (2 + z))) (ET 7 [(1 + z); (2 + z); b; (0 + z); i; j]))))))).
Definition r_ccsdt_dT_bb_12 (z a b i j : nat) : ex := (ESub (r_ccsdt_dT_bb_11 (0 + z) a b i j) (EScale (1) 4 (ESum (0 + z) 2 (ESum (1 + z) 2 (ESum (2 + z) 3 (EMul (EAdd (ET 50 [(0 + z); (1 + z); i; (2 + z)]) (r_ccsdt_X_bb_ooov (3 + z) (0 + z) (1 + z) i (2 + z))) (ET 8 [a; b; (2 + z); (0 + z); j; (1 + z)]))))))).
Definition r_ccsdt_dT_bb_13 (z a b i j : nat) : ex := (ESub (r_ccsdt_dT_bb_12 (0 + z) a b i j) (EScale (1) 2 (ESum (0 + z) 0 (ESum (1 + z) 2 (ESum (2 + z) 1 (EMul (EAdd (ET 35 [(0 + z); (1 + z); (2 + z); i]) (r_ccsdt_X_ab_oovo (3 + z) (0 + z) (1 + z) (2 + z) i)) (ET 7 [(2 + z); a; b; (0 + z); (1 + z); j]))))))).
Definition r_ccsdt_res_bb (z a b i j : nat) : ex := (EAdd (r_ccsdt_dT_bb_13 (0 + z) a b i j) (EScale (1) 4 (ET 61 [a; b; i; j]))).
Definition r_ccsdt_tau_aa (z a b i j : nat) : ex := (EAdd (EScale (1) 2 (ET 2 [a; b; i; j])) (EMul (ET 0 [a; i]) (ET 0 [b; j]))).
Definition r_ccsdt_tau_aa_1 (z a b i j : nat) : ex := (ESub (r_ccsdt_tau_aa (0 + z) a b i j) (r_ccsdt_tau_aa (0 + z) a b j i)).
Definition r_ccsdt_tau_bb (z a b i j : nat) : ex := (EAdd (EScale (1) 2 (ET 4 [a; b; i; j])) (EMul (ET 1 [a; i]) (ET 1 [b; j]))).
Definition r_ccsdt_tau_bb_1 (z a b i j : nat) : ex := (ESub (r_ccsdt_tau_bb (0 + z) a b i j) (r_ccsdt_tau_bb (0 + z) a b j i)).
Definition r_ccsdt_tau_ab (z a b i j : nat) : ex := (EAdd (ET 3 [a; b; i; j]) (EMul (ET 0 [a; i]) (ET 1 [b; j]))).
Definition r_ccsdt_H_aa_vovv (z a m e f : nat) : ex := (EAdd (r_ccsdt_X_aa_vovv (0 + z) a m e f) (ET 28 [a; m; e; f])).
Definition r_ccsdt_H_bb_vovv (z a m e f : nat) : ex := (EAdd (r_ccsdt_X_bb_vovv (0 + z) a m e f) (ET 60 [a; m; e; f])).
Definition r_ccsdt_H_ab_vovv (z a m e f : nat) : ex := (EAdd (r_ccsdt_X_ab_vovv (0 + z) a m e f) (ET 44 [a; m; e; f])).
Definition r_ccsdt_H_ab_ovvv (z m a e f : nat) : ex := (EAdd (r_ccsdt_X_ab_ovvv (0 + z) m a e f) (ET 40 [m; a; e; f])).
Definition r_ccsdt_H_aa_ooov (z m n i e : nat) : ex := (EAdd (r_ccsdt_X_aa_ooov (0 + z) m n i e) (ET 18 [m; n; i; e])).
Definition r_ccsdt_H_bb_ooov (z m n i e : nat) : ex := (EAdd (r_ccsdt_X_bb_ooov (0 + z) m n i e) (ET 50 [m; n; i; e])).
Definition r_ccsdt_H_ab_ooov (z m n i e : nat) : ex := (EAdd (r_ccsdt_X_ab_ooov (0 + z) m n i e) (ET 34 [m; n; i; e])).
Definition r_ccsdt_H_ab_oovo (z n m e i : nat) : ex := (EAdd (r_ccsdt_X_ab_oovo (0 + z) n m e i) (ET 35 [n; m; e; i])).
Definition r_ccsdt_H_aa_vvvv (z a b e f : nat) : ex := (ESub (EAdd (EScale (1) 2 (ET 32 [a; b; e; f])) (EScale (1) 4 (ESum (0 + z) 0 (ESum (1 + z) 0 (EMul (ET 20 [(0 + z); (1 + z); e; f]) (r_ccsdt_tau_aa_1 (2 + z) a b (0 + z) (1 + z))))))) (ESum (0 + z) 0 (EMul (ET 28 [a; (0 + z); e; f]) (ET 0 [b; (0 + z)])))).
Definition r_ccsdt_H_aa_vvvv_1 (z a b e f : nat) : ex := (ESub (r_ccsdt_H_aa_vvvv (0 + z) a b e f) (r_ccsdt_H_aa_vvvv (0 + z) b a e f)).
Definition r_ccsdt_H_bb_vvvv (z a b e f : nat) : ex := (ESub (EAdd (EScale (1) 2 (ET 64 [a; b; e; f])) (EScale (1) 4 (ESum (0 + z) 2 (ESum (1 + z) 2 (EMul (ET 52 [(0 + z); (1 + z); e; f]) (r_ccsdt_tau_bb_1 (2 + z) a b (0 + z) (1 + z))))))) (ESum (0 + z) 2 (EMul (ET 60 [a; (0 + z); e; f]) (ET 1 [b; (0 + z)])))).
Definition r_ccsdt_H_bb_vvvv_1 (z a b e f : nat) : ex := (ESub (r_ccsdt_H_bb_vvvv (0 + z) a b e f) (r_ccsdt_H_bb_vvvv (0 + z) b a e f)).
Definition r_ccsdt_H_ab_vvvv (z a b e f : nat) : ex := (EAdd (ESub (ESub (ET 48 [a; b; e; f]) (ESum (0 + z) 0 (EMul (ET 40 [(0 + z); b; e; f]) (ET 0 [a; (0 + z)])))) (ESum (0 + z) 2 (EMul (ET 44 [a; (0 + z); e; f]) (ET 1 [b; (0 + z)])))) (ESum (0 + z) 0 (ESum (1 + z) 2 (EMul (ET 36 [(0 + z); (1 + z); e; f]) (r_ccsdt_tau_ab (2 + z) a b (0 + z) (1 + z)))))).
Definition r_ccsdt_H_aa_oooo (z m n i j : nat) : ex := (EAdd (EAdd (EScale (1) 2 (ET 17 [m; n; i; j])) (ESum (0 + z) 1 (EMul (ET 18 [n; m; j; (0 + z)]) (ET 0 [(0 + z); i])))) (EScale (1) 4 (ESum (0 + z) 1 (ESum (1 + z) 1 (EMul (ET 20 [m; n; (0 + z); (1 + z)]) (r_ccsdt_tau_aa_1 (2 + z) (0 + z) (1 + z) i j)))))).
Definition r_ccsdt_H_aa_oooo_1 (z m n i j : nat) : ex := (ESub (r_ccsdt_H_aa_oooo (0 + z) m n i j) (r_ccsdt_H_aa_oooo (0 + z) m n j i)).
Definition r_ccsdt_H_bb_oooo (z m n i j : nat) : ex := (EAdd (EAdd (EScale (1) 2 (ET 49 [m; n; i; j])) (ESum (0 + z) 3 (EMul (ET 50 [n; m; j; (0 + z)]) (ET 1 [(0 + z); i])))) (EScale (1) 4 (ESum (0 + z) 3 (ESum (1 + z) 3 (EMul (ET 52 [m; n; (0 + z); (1 + z)]) (r_ccsdt_tau_bb_1 (2 + z) (0 + z) (1 + z) i j)))))).
Definition r_ccsdt_H_bb_oooo_1 (z m n i j : nat) : ex := (ESub (r_ccsdt_H_bb_oooo (0 + z) m n i j) (r_ccsdt_H_bb_oooo (0 + z) m n j i)).
Definition r_ccsdt_H_ab_oooo (z m n i j : nat) : ex := (EAdd (EAdd (EAdd (ET 33 [m; n; i; j]) (ESum (0 + z) 1 (EMul (ET 35 [m; n; (0 + z); j]) (ET 0 [(0 + z); i])))) (ESum (0 + z) 3 (EMul (ET 34 [m; n; i; (0 + z)]) (ET 1 [(0 + z); j])))) (ESum (0 + z) 1 (ESum (1 + z) 3 (EMul (ET 36 [m; n; (0 + z); (1 + z)]) (r_ccsdt_tau_ab (2 + z) (0 + z) (1 + z) i j))))).
Definition r_ccsdt_H_aa_voov (z a m i e : nat) : ex := (EAdd (EAdd (ESub (EAdd (ET 26 [a; m; i; e]) (ESum (0 + z) 1 (EMul (ET 28 [a; m; (0 + z); e]) (ET 0 [(0 + z); i])))) (ESum (0 + z) 0 (EMul (r_ccsdt_H_aa_ooov (1 + z) (0 + z) m i e) (ET 0 [a; (0 + z)])))) (ESum (0 + z) 0 (ESum (1 + z) 1 (EMul (ET 20 [(0 + z); m; (1 + z); e]) (ET 2 [a; (1 + z); i; (0 + z)]))))) (ESum (0 + z) 2 (ESum (1 + z) 3 (EMul (ET 36 [m; (0 + z); e; (1 + z)]) (ET 3 [a; (1 + z); i; (0 + z)]))))).
Definition r_ccsdt_H_bb_voov (z a m i e : nat) : ex := (EAdd (EAdd (ESub (EAdd (ET 58 [a; m; i; e]) (ESum (0 + z) 3 (EMul (ET 60 [a; m; (0 + z); e]) (ET 1 [(0 + z); i])))) (ESum (0 + z) 2 (EMul (r_ccsdt_H_bb_ooov (1 + z) (0 + z) m i e) (ET 1 [a; (0 + z)])))) (ESum (0 + z) 2 (ESum (1 + z) 3 (EMul (ET 52 [(0 + z); m; (1 + z); e]) (ET 4 [a; (1 + z); i; (0 + z)]))))) (ESum (0 + z) 0 (ESum (1 + z) 1 (EMul (ET 36 [(0 + z); m; (1 + z); e]) (ET 3 [(1 + z); a; (0 + z); i]))))).
Definition r_ccsdt_H_ab_voov (z a m i e : nat) : ex := (EAdd (EAdd (ESub (EAdd (ET 42 [a; m; i; e]) (ESum (0 + z) 1 (EMul (ET 44 [a; m; (0 + z); e]) (ET 0 [(0 + z); i])))) (ESum (0 + z) 0 (EMul (r_ccsdt_H_ab_ooov (1 + z) (0 + z) m i e) (ET 0 [a; (0 + z)])))) (ESum (0 + z) 0 (ESum (1 + z) 1 (EMul (ET 36 [(0 + z); m; (1 + z); e]) (ET 2 [a; (1 + z); i; (0 + z)]))))) (ESum (0 + z) 2 (ESum (1 + z) 3 (EMul (ET 52 [(0 + z); m; (1 + z); e]) (ET 3 [a; (1 + z); i; (0 + z)]))))).
Definition r_ccsdt_H_ab_ovvo (z m a e i : nat) : ex := (EAdd (EAdd (ESub (EAdd (ET 39 [m; a; e; i]) (ESum (0 + z) 3 (EMul (ET 40 [m; a; e; (0 + z)]) (ET 1 [(0 + z); i])))) (ESum (0 + z) 2 (EMul (r_ccsdt_H_ab_oovo (1 + z) m (0 + z) e i) (ET 1 [a; (0 + z)])))) (ESum (0 + z) 2 (ESum (1 + z) 3 (EMul (ET 36 [m; (0 + z); e; (1 + z)]) (ET 4 [a; (1 + z); i; (0 + z)]))))) (ESum (0 + z) 0 (ESum (1 + z) 1 (EMul (ET 20 [m; (0 + z); e; (1 + z)]) (ET 3 [(1 + z); a; (0 + z); i]))))).
Definition r_ccsdt_H_ab_ovov (z m a i e : nat) : ex := (ESub (ESub (EAdd (ET 38 [m; a; i; e]) (ESum (0 + z) 1 (EMul (ET 40 [m; a; (0 + z); e]) (ET 0 [(0 + z); i])))) (ESum (0 + z) 2 (EMul (r_ccsdt_H_ab_ooov (1 + z) m (0 + z) i e) (ET 1 [a; (0 + z)])))) (ESum (0 + z) 2 (ESum (1 + z) 1 (EMul (ET 36 [m; (0 + z); (1 + z); e]) (ET 3 [(1 + z); a; i; (0 + z)]))))).
Definition r_ccsdt_H_ab_vovo (z a m e i : nat) : ex := (ESub (EAdd (ESub (ET 43 [a; m; e; i]) (ESum (0 + z) 0 (EMul (r_ccsdt_H_ab_oovo (1 + z) (0 + z) m e i) (ET 0 [a; (0 + z)])))) (ESum (0 + z) 3 (EMul (ET 44 [a; m; e; (0 + z)]) (ET 1 [(0 + z); i])))) (ESum (0 + z) 0 (ESum (1 + z) 3 (EMul (ET 36 [(0 + z); m; e; (1 + z)]) (ET 3 [a; (1 + z); (0 + z); i]))))).
Definition r_ccsdt_Q1 (z a m i j : nat) : ex := (EAdd (ESum (0 + z) 0 (ESum (1 + z) 1 (EMul (r_ccsdt_H_aa_ooov (2 + z) m (0 + z) j (1 + z)) (ET 2 [a; (1 + z); i; (0 + z)])))) (ESum (0 + z) 2 (ESum (1 + z) 3 (EMul (r_ccsdt_H_ab_ooov (2 + z) m (0 + z) j (1 + z)) (ET 3 [a; (1 + z); i; (0 + z)]))))).
Definition r_ccsdt_Q2 (z a m i f : nat) : ex := (EAdd (ET 26 [a; m; i; f]) (EScale (1) 2 (ESum (0 + z) 1 (EMul (ET 28 [a; m; (0 + z); f]) (ET 0 [(0 + z); i]))))).
Definition r_ccsdt_Q2_1 (z a m i j : nat) : ex := (ESum (0 + z) 1 (EMul (r_ccsdt_Q2 (1 + z) a m i (0 + z)) (ET 0 [(0 + z); j]))).
Definition r_ccsdt_Q1_1 (z a m i j : nat) : ex := (EAdd (r_ccsdt_Q1 (0 + z) a m i j) (r_ccsdt_Q2_1 (0 + z) a m i j)).
Definition r_ccsdt_Q1_2 (z a m i j : nat) : ex := (ESub (r_ccsdt_Q1_1 (0 + z) a m i j) (r_ccsdt_Q1_1 (0 + z) a m j i)).
Definition r_ccsdt_H_aa_vooo (z a m i j : nat) : ex := (EAdd (EAdd (ET 25 [a; m; i; j]) (r_ccsdt_Q1_2 (0 + z) a m i j)) (EAdd (ESub (ESum (0 + z) 1 (EMul (r_ccsdt_X_a_ov (1 + z) m (0 + z)) (ET 2 [a; (0 + z); i; j]))) (ESum (0 + z) 0 (EMul (r_ccsdt_H_aa_oooo_1 (1 + z) (0 + z) m i j) (ET 0 [a; (0 + z)])))) (EScale (1) 2 (ESum (0 + z) 1 (ESum (1 + z) 1 (EMul (ET 28 [a; m; (0 + z); (1 + z)]) (ET 2 [(0 + z); (1 + z); i; j]))))))).
Definition r_ccsdt_Q1_3 (z a m i j : nat) : ex := (EAdd (ESum (0 + z) 2 (ESum (1 + z) 3 (EMul (r_ccsdt_H_bb_ooov (2 + z) m (0 + z) j (1 + z)) (ET 4 [a; (1 + z); i; (0 + z)])))) (ESum (0 + z) 0 (ESum (1 + z) 1 (EMul (r_ccsdt_H_ab_oovo (2 + z) (0 + z) m (1 + z) j) (ET 3 [(1 + z); a; (0 + z); i]))))).
Definition r_ccsdt_Q2_2 (z a m i f : nat) : ex := (EAdd (ET 58 [a; m; i; f]) (EScale (1) 2 (ESum (0 + z) 3 (EMul (ET 60 [a; m; (0 + z); f]) (ET 1 [(0 + z); i]))))).
Definition r_ccsdt_Q2_3 (z a m i j : nat) : ex := (ESum (0 + z) 3 (EMul (r_ccsdt_Q2_2 (1 + z) a m i (0 + z)) (ET 1 [(0 + z); j]))).
Definition r_ccsdt_Q1_4 (z a m i j : nat) : ex := (EAdd (r_ccsdt_Q1_3 (0 + z) a m i j) (r_ccsdt_Q2_3 (0 + z) a m i j)).
Definition r_ccsdt_Q1_5 (z a m i j : nat) : ex := (ESub (r_ccsdt_Q1_4 (0 + z) a m i j) (r_ccsdt_Q1_4 (0 + z) a m j i)).
Definition r_ccsdt_H_bb_vooo (z a m i j : nat) : ex := (EAdd (EAdd (ET 57 [a; m; i; j]) (r_ccsdt_Q1_5 (0 + z) a m i j)) (EAdd (ESub (ESum (0 + z) 3 (EMul (r_ccsdt_X_b_ov (1 + z) m (0 + z)) (ET 4 [a; (0 + z); i; j]))) (ESum (0 + z) 2 (EMul (r_ccsdt_H_bb_oooo_1 (1 + z) (0 + z) m i j) (ET 1 [a; (0 + z)])))) (EScale (1) 2 (ESum (0 + z) 3 (ESum (1 + z) 3 (EMul (ET 60 [a; m; (0 + z); (1 + z)]) (ET 4 [(0 + z); (1 + z); i; j]))))))).
Definition r_ccsdt_Q1_6 (z a m i e : nat) : ex := (EAdd (ET 42 [a; m; i; e]) (ESum (0 + z) 1 (EMul (ET 44 [a; m; (0 + z); e]) (ET 0 [(0 + z); i])))).
Definition r_ccsdt_H_ab_vooo (z a m i j : nat) : ex := (EAdd (ET 41 [a; m; i; j]) (EAdd (EAdd (EAdd (ESub (EAdd (EAdd (ESub (ESum (0 + z) 3 (EMul (r_ccsdt_X_b_ov (1 + z) m (0 + z)) (ET 3 [a; (0 + z); i; j]))) (ESum (0 + z) 0 (EMul (r_ccsdt_H_ab_oooo (1 + z) (0 + z) m i j) (ET 0 [a; (0 + z)])))) (ESum (0 + z) 2 (ESum (1 + z) 3 (EMul (r_ccsdt_H_bb_ooov (2 + z) m (0 + z) j (1 + z)) (ET 3 [a; (1 + z); i; (0 + z)]))))) (ESum (0 + z) 0 (ESum (1 + z) 1 (EMul (r_ccsdt_H_ab_oovo (2 + z) (0 + z) m (1 + z) j) (ET 2 [a; (1 + z); i; (0 + z)]))))) (ESum (0 + z) 0 (ESum (1 + z) 3 (EMul (r_ccsdt_H_ab_ooov (2 + z) (0 + z) m i (1 + z)) (ET 3 [a; (1 + z); (0 + z); j]))))) (ESum (0 + z) 1 (EMul (ET 43 [a; m; (0 + z); j]) (ET 0 [(0 + z); i])))) (ESum (0 + z) 3 (EMul (r_ccsdt_Q1_6 (1 + z) a m i (0 + z)) (ET 1 [(0 + z); j])))) (ESum (0 + z) 1 (ESum (1 + z) 3 (EMul (ET 44 [a; m; (0 + z); (1 + z)]) (ET 3 [(0 + z); (1 + z); i; j])))))).
Definition r_ccsdt_Q1_7 (z m a j e : nat) : ex := (EAdd (ET 38 [m; a; j; e]) (ESum (0 + z) 1 (EMul (ET 40 [m; a; (0 + z); e]) (ET 0 [(0 + z); j])))).
Definition r_ccsdt_H_ab_ovoo (z m a j i : nat) : ex := (EAdd (ET 37 [m; a; j; i]) (EAdd (EAdd (EAdd (ESub (EAdd (EAdd (ESub (ESum (0 + z) 1 (EMul (r_ccsdt_X_a_ov (1 + z) m (0 + z)) (ET 3 [(0 + z); a; j; i]))) (ESum (0 + z) 2 (EMul (r_ccsdt_H_ab_oooo (1 + z) m (0 + z) j i) (ET 1 [a; (0 + z)])))) (ESum (0 + z) 0 (ESum (1 + z) 1 (EMul (r_ccsdt_H_aa_ooov (2 + z) m (0 + z) j (1 + z)) (ET 3 [(1 + z); a; (0 + z); i]))))) (ESum (0 + z) 2 (ESum (1 + z) 3 (EMul (r_ccsdt_H_ab_ooov (2 + z) m (0 + z) j (1 + z)) (ET 4 [(1 + z); a; (0 + z); i]))))) (ESum (0 + z) 2 (ESum (1 + z) 1 (EMul (r_ccsdt_H_ab_oovo (2 + z) m (0 + z) (1 + z) i) (ET 3 [(1 + z); a; j; (0 + z)]))))) (ESum (0 + z) 3 (EMul (r_ccsdt_Q1_7 (1 + z) m a j (0 + z)) (ET 1 [(0 + z); i])))) (ESum (0 + z) 1 (EMul (ET 39 [m; a; (0 + z); i]) (ET 0 [(0 + z); j])))) (ESum (0 + z) 1 (ESum (1 + z) 3 (EMul (ET 40 [m; a; (0 + z); (1 + z)]) (ET 3 [(0 + z); (1 + z); j; i])))))).
Definition r_ccsdt_x2a_voov (z a m i e : nat) : ex := (EAdd (r_ccsdt_H_aa_voov (0 + z) a m i e) (EScale (1) 2 (ESum (0 + z) 0 (EMul (r_ccsdt_H_aa_ooov (1 + z) (0 + z) m i e) (ET 0 [a; (0 + z)]))))).
Definition r_ccsdt_H_aa_vvov (z a b i e : nat) : ex := (EAdd (EAdd (EAdd (EAdd (ESub (ESub (EScale (1) 2 (ET 30 [a; b; i; e])) (EScale (1) 2 (ESum (0 + z) 0 (EMul (r_ccsdt_X_a_ov (1 + z) (0 + z) e) (ET 2 [a; b; i; (0 + z)]))))) (ESum (0 + z) 0 (EMul (r_ccsdt_x2a_voov (1 + z) a (0 + z) i e) (ET 0 [b; (0 + z)])))) (EScale (1) 4 (ESum (0 + z) 0 (ESum (1 + z) 0 (EMul (r_ccsdt_H_aa_ooov (2 + z) (0 + z) (1 + z) i e) (ET 2 [a; b; (0 + z); (1 + z)])))))) (EScale (1) 2 (ESum (0 + z) 1 (EMul (ET 32 [a; b; (0 + z); e]) (ET 0 [(0 + z); i]))))) (ESum (0 + z) 0 (ESum (1 + z) 1 (EMul (ET 28 [b; (0 + z); e; (1 + z)]) (ET 2 [a; (1 + z); i; (0 + z)]))))) (ESum (0 + z) 2 (ESum (1 + z) 3 (EMul (ET 44 [b; (0 + z); e; (1 + z)]) (ET 3 [a; (1 + z); i; (0 + z)]))))).
Definition r_ccsdt_H_aa_vvov_1 (z a b i e : nat) : ex := (ESub (r_ccsdt_H_aa_vvov (0 + z) a b i e) (r_ccsdt_H_aa_vvov (0 + z) b a i e)).
Definition r_ccsdt_x2c_voov (z a m i e : nat) : ex := (EAdd (r_ccsdt_H_bb_voov (0 + z) a m i e) (EScale (1) 2 (ESum (0 + z) 2 (EMul (r_ccsdt_H_bb_ooov (1 + z) (0 + z) m i e) (ET 1 [a; (0 + z)]))))).
Definition r_ccsdt_H_bb_vvov (z a b i e : nat) : ex := (EAdd (EAdd (EAdd (EAdd (ESub (ESub (EScale (1) 2 (ET 62 [a; b; i; e])) (EScale (1) 2 (ESum (0 + z) 2 (EMul (r_ccsdt_X_b_ov (1 + z) (0 + z) e) (ET 4 [a; b; i; (0 + z)]))))) (ESum (0 + z) 2 (EMul (r_ccsdt_x2c_voov (1 + z) a (0 + z) i e) (ET 1 [b; (0 + z)])))) (EScale (1) 4 (ESum (0 + z) 2 (ESum (1 + z) 2 (EMul (r_ccsdt_H_bb_ooov (2 + z) (0 + z) (1 + z) i e) (ET 4 [a; b; (0 + z); (1 + z)])))))) (EScale (1) 2 (ESum (0 + z) 3 (EMul (ET 64 [a; b; (0 + z); e]) (ET 1 [(0 + z); i]))))) (ESum (0 + z) 2 (ESum (1 + z) 3 (EMul (ET 60 [b; (0 + z); e; (1 + z)]) (ET 4 [a; (1 + z); i; (0 + z)]))))) (ESum (0 + z) 0 (ESum (1 + z) 1 (EMul (ET 40 [(0 + z); b; (1 + z); e]) (ET 3 [(1 + z); a; (0 + z); i]))))).
Definition r_ccsdt_H_bb_vvov_1 (z a b i e : nat) : ex := (ESub (r_ccsdt_H_bb_vvov (0 + z) a b i e) (r_ccsdt_H_bb_vvov (0 + z) b a i e)).
Definition r_ccsdt_x2b_voov (z a m i e : nat) : ex := (EAdd (r_ccsdt_H_ab_voov (0 + z) a m i e) (EScale (1) 2 (ESum (0 + z) 0 (EMul (r_ccsdt_H_ab_ooov (1 + z) (0 + z) m i e) (ET 0 [a; (0 + z)]))))).
Definition r_ccsdt_x2b_ovov (z m a i e : nat) : ex := (EAdd (r_ccsdt_H_ab_ovov (0 + z) m a i e) (EScale (1) 2 (ESum (0 + z) 2 (EMul (r_ccsdt_H_ab_ooov (1 + z) m (0 + z) i e) (ET 1 [a; (0 + z)]))))).
Definition r_ccsdt_H_ab_vvov (z a b i e : nat) : ex := (ESub (EAdd (EAdd (EAdd (EAdd (ESub (ESub (ESub (ET 46 [a; b; i; e]) (ESum (0 + z) 2 (EMul (r_ccsdt_X_b_ov (1 + z) (0 + z) e) (ET 3 [a; b; i; (0 + z)])))) (ESum (0 + z) 2 (EMul (r_ccsdt_x2b_voov (1 + z) a (0 + z) i e) (ET 1 [b; (0 + z)])))) (ESum (0 + z) 0 (EMul (r_ccsdt_x2b_ovov (1 + z) (0 + z) b i e) (ET 0 [a; (0 + z)])))) (ESum (0 + z) 0 (ESum (1 + z) 2 (EMul (r_ccsdt_H_ab_ooov (2 + z) (0 + z) (1 + z) i e) (ET 3 [a; b; (0 + z); (1 + z)]))))) (ESum (0 + z) 1 (EMul (ET 48 [a; b; (0 + z); e]) (ET 0 [(0 + z); i])))) (ESum (0 + z) 0 (ESum (1 + z) 1 (EMul (ET 40 [(0 + z); b; (1 + z); e]) (ET 2 [a; (1 + z); i; (0 + z)]))))) (ESum (0 + z) 2 (ESum (1 + z) 3 (EMul (ET 60 [b; (0 + z); e; (1 + z)]) (ET 3 [a; (1 + z); i; (0 + z)]))))) (ESum (0 + z) 2 (ESum (1 + z) 1 (EMul (ET 44 [a; (0 + z); (1 + z); e]) (ET 3 [(1 + z); b; i; (0 + z)]))))).
Definition r_ccsdt_x2b_ovvo (z m a e i : nat) : ex := (EAdd (r_ccsdt_H_ab_ovvo (0 + z) m a e i) (EScale (1) 2 (ESum (0 + z) 2 (EMul (r_ccsdt_H_ab_oovo (1 + z) m (0 + z) e i) (ET 1 [a; (0 + z)]))))).
Definition r_ccsdt_x2b_vovo (z a m e i : nat) : ex := (EAdd (r_ccsdt_H_ab_vovo (0 + z) a m e i) (EScale (1) 2 (ESum (0 + z) 0 (EMul (r_ccsdt_H_ab_oovo (1 + z) (0 + z) m e i) (ET 0 [a; (0 + z)]))))).
Definition r_ccsdt_H_ab_vvvo (z b a e i : nat) : ex := (ESub (EAdd (EAdd (EAdd (EAdd (ESub (ESub (ESub (ET 47 [b; a; e; i]) (ESum (0 + z) 0 (EMul (r_ccsdt_X_a_ov (1 + z) (0 + z) e) (ET 3 [b; a; (0 + z); i])))) (ESum (0 + z) 0 (EMul (r_ccsdt_x2b_ovvo (1 + z) (0 + z) a e i) (ET 0 [b; (0 + z)])))) (ESum (0 + z) 2 (EMul (r_ccsdt_x2b_vovo (1 + z) b (0 + z) e i) (ET 1 [a; (0 + z)])))) (ESum (0 + z) 0 (ESum (1 + z) 2 (EMul (r_ccsdt_H_ab_oovo (2 + z) (0 + z) (1 + z) e i) (ET 3 [b; a; (0 + z); (1 + z)]))))) (ESum (0 + z) 3 (EMul (ET 48 [b; a; e; (0 + z)]) (ET 1 [(0 + z); i])))) (ESum (0 + z) 2 (ESum (1 + z) 3 (EMul (ET 44 [b; (0 + z); e; (1 + z)]) (ET 4 [a; (1 + z); i; (0 + z)]))))) (ESum (0 + z) 0 (ESum (1 + z) 1 (EMul (ET 28 [b; (0 + z); e; (1 + z)]) (ET 3 [(1 + z); a; (0 + z); i]))))) (ESum (0 + z) 0 (ESum (1 + z) 3 (EMul (ET 40 [(0 + z); a; e; (1 + z)]) (ET 3 [b; (1 + z); (0 + z); i]))))).
Definition r_ccsdt_I2A_vvov (z a b i e : nat) : ex := (EScale (-1) 2 (ESum (0 + z) 0 (ESum (1 + z) 0 (ESum (2 + z) 1 (EMul (ET 20 [(0 + z); (1 + z); e; (2 + z)]) (ET 5 [a; b; (2 + z); i; (0 + z); (1 + z)])))))).
Definition r_ccsdt_I2A_vvov_1 (z a b i e : nat) : ex := (ESub (r_ccsdt_I2A_vvov (0 + z) a b i e) (ESum (0 + z) 0 (ESum (1 + z) 2 (ESum (2 + z) 3 (EMul (ET 36 [(0 + z); (1 + z); e; (2 + z)]) (ET 6 [a; b; (2 + z); i; (0 + z); (1 + z)])))))).
Definition r_ccsdt_I2A_vvov_2 (z a b i e : nat) : ex := (EAdd (r_ccsdt_I2A_vvov_1 (0 + z) a b i e) (r_ccsdt_H_aa_vvov_1 (0 + z) a b i e)).
Definition r_ccsdt_I2A_vooo_1 (z a m i j : nat) : ex := (EScale (1) 2 (ESum (0 + z) 0 (ESum (1 + z) 1 (ESum (2 + z) 1 (EMul (ET 20 [m; (0 + z); (1 + z); (2 + z)]) (ET 5 [a; (1 + z); (2 + z); i; j; (0 + z)])))))).
Definition r_ccsdt_I2A_vooo_2 (z a m i j : nat) : ex := (EAdd (r_ccsdt_I2A_vooo_1 (0 + z) a m i j) (EAdd (r_ccsdt_H_aa_vooo (0 + z) a m i j) (ESum (0 + z) 2 (ESum (1 + z) 1 (ESum (2 + z) 3 (EMul (ET 36 [m; (0 + z); (1 + z); (2 + z)]) (ET 6 [a; (1 + z); (2 + z); i; j; (0 + z)]))))))).
Definition r_ccsdt_I2A_vooo_3 (z a m i j : nat) : ex := (ESub (r_ccsdt_I2A_vooo_2 (0 + z) a m i j) (ESum (0 + z) 1 (EMul (r_ccsdt_X_a_ov (1 + z) m (0 + z)) (ET 2 [a; (0 + z); i; j])))).
Definition r_ccsdt_dT_aaa (z a b c i j k : nat) : ex := (EScale (-1) 4 (ESum (0 + z) 0 (EMul (r_ccsdt_I2A_vooo_3 (1 + z) a (0 + z) i j) (ET 2 [b; c; (0 + z); k])))).
Definition r_ccsdt_dT_aaa_1 (z a b c i j k : nat) : ex := (EAdd (r_ccsdt_dT_aaa (0 + z) a b c i j k) (EScale (1) 4 (ESum (0 + z) 1 (EMul (r_ccsdt_I2A_vvov_2 (1 + z) a b i (0 + z)) (ET 2 [(0 + z); c; j; k]))))).
Definition r_ccsdt_dT_aaa_2 (z a b c i j k : nat) : ex := (ESub (r_ccsdt_dT_aaa_1 (0 + z) a b c i j k) (EScale (1) 12 (ESum (0 + z) 0 (EMul (r_ccsdt_X_a_oo (1 + z) (0 + z) k) (ET 5 [a; b; c; i; j; (0 + z)]))))).
Definition r_ccsdt_dT_aaa_3 (z a b c i j k : nat) : ex := (EAdd (r_ccsdt_dT_aaa_2 (0 + z) a b c i j k) (EScale (1) 12 (ESum (0 + z) 1 (EMul (r_ccsdt_X_a_vv_1 (1 + z) c (0 + z)) (ET 5 [a; b; (0 + z); i; j; k]))))).
Definition r_ccsdt_dT_aaa_4 (z a b c i j k : nat) : ex := (EAdd (r_ccsdt_dT_aaa_3 (0 + z) a b c i j k) (EScale (1) 24 (ESum (0 + z) 0 (ESum (1 + z) 0 (EMul (r_ccsdt_H_aa_oooo_1 (2 + z) (0 + z) (1 + z) i j) (ET 5 [a; b; c; (0 + z); (1 + z); k])))))).
Definition r_ccsdt_dT_aaa_5 (z a b c i j k : nat) : ex := (EAdd (r_ccsdt_dT_aaa_4 (0 + z) a b c i j k) (EScale (1) 24 (ESum (0 + z) 1 (ESum (1 + z) 1 (EMul (r_ccsdt_H_aa_vvvv_1 (2 + z) a b (0 + z) (1 + z)) (ET 5 [(0 + z); (1 + z); c; i; j; k])))))).
Definition r_ccsdt_dT_aaa_6 (z a b c i j k : nat) : ex := (EAdd (r_ccsdt_dT_aaa_5 (0 + z) a b c i j k) (EScale (1) 4 (ESum (0 + z) 0 (ESum (1 + z) 1 (EMul (r_ccsdt_H_aa_voov (2 + z) c (0 + z) k (1 + z)) (ET 5 [a; b; (1 + z); i; j; (0 + z)])))))).
Definition r_ccsdt_dT_aaa_7 (z a b c i j k : nat) : ex := (EAdd (r_ccsdt_dT_aaa_6 (0 + z) a b c i j k) (EScale (1) 4 (ESum (0 + z) 2 (ESum (1 + z) 3 (EMul (r_ccsdt_H_ab_voov (2 + z) c (0 + z) k (1 + z)) (ET 6 [a; b; (1 + z); i; j; (0 + z)])))))).
Definition r_ccsdt_res_aaa (z a b c i j k : nat) : ex := (r_ccsdt_dT_aaa_7 (0 + z) a b c i j k).
Definition r_ccsdt_I2A_vvov_3 (z a b i e : nat) : ex := (EScale (-1) 2 (ESum (0 + z) 0 (ESum (1 + z) 0 (ESum (2 + z) 1 (EMul (ET 20 [(0 + z); (1 + z); e; (2 + z)]) (ET 5 [a; b; (2 + z); i; (0 + z); (1 + z)])))))).
Definition r_ccsdt_I2A_vvov_4 (z a b i e : nat) : ex := (EAdd (r_ccsdt_I2A_vvov_3 (0 + z) a b i e) (EOpp (ESum (0 + z) 0 (ESum (1 + z) 2 (ESum (2 + z) 3 (EMul (ET 36 [(0 + z); (1 + z); e; (2 + z)]) (ET 6 [a; b; (2 + z); i; (0 + z); (1 + z)]))))))).
Definition r_ccsdt_I2A_vvov_5 (z a b i e : nat) : ex := (EAdd (r_ccsdt_I2A_vvov_4 (0 + z) a b i e) (r_ccsdt_H_aa_vvov_1 (0 + z) a b i e)).
Definition r_ccsdt_I2A_vooo_4 (z a m i j : nat) : ex := (EScale (1) 2 (ESum (0 + z) 0 (ESum (1 + z) 1 (ESum (2 + z) 1 (EMul (ET 20 [m; (0 + z); (1 + z); (2 + z)]) (ET 5 [a; (1 + z); (2 + z); i; j; (0 + z)])))))).
Definition r_ccsdt_I2A_vooo_5 (z a m i j : nat) : ex := (EAdd (r_ccsdt_I2A_vooo_4 (0 + z) a m i j) (ESum (0 + z) 2 (ESum (1 + z) 1 (ESum (2 + z) 3 (EMul (ET 36 [m; (0 + z); (1 + z); (2 + z)]) (ET 6 [a; (1 + z); (2 + z); i; j; (0 + z)])))))).
Definition r_ccsdt_I2A_vooo_6 (z a m i j : nat) : ex := (EAdd (r_ccsdt_I2A_vooo_5 (0 + z) a m i j) (EOpp (ESum (0 + z) 1 (EMul (r_ccsdt_X_a_ov (1 + z) m (0 + z)) (ET 2 [a; (0 + z); i; j]))))).
Definition r_ccsdt_I2A_vooo_7 (z a m i j : nat) : ex := (EAdd (r_ccsdt_I2A_vooo_6 (0 + z) a m i j) (r_ccsdt_H_aa_vooo (0 + z) a m i j)).
Definition r_ccsdt_I2B_vvvo (z a b e j : nat) : ex := (EScale (-1) 2 (ESum (0 + z) 0 (ESum (1 + z) 0 (ESum (2 + z) 1 (EMul (ET 20 [(0 + z); (1 + z); e; (2 + z)]) (ET 6 [a; (2 + z); b; (0 + z); (1 + z); j])))))).
Definition r_ccsdt_I2B_vvvo_1 (z a b e j : nat) : ex := (EAdd (r_ccsdt_I2B_vvvo (0 + z) a b e j) (EOpp (ESum (0 + z) 0 (ESum (1 + z) 2 (ESum (2 + z) 3 (EMul (ET 36 [(0 + z); (1 + z); e; (2 + z)]) (ET 7 [a; (2 + z); b; (0 + z); (1 + z); j]))))))).
Definition r_ccsdt_I2B_vvvo_2 (z a b e j : nat) : ex := (EAdd (r_ccsdt_I2B_vvvo_1 (0 + z) a b e j) (r_ccsdt_H_ab_vvvo (0 + z) a b e j)).
Definition r_ccsdt_I2B_ovoo_1 (z m b i j : nat) : ex := (EScale (1) 2 (ESum (0 + z) 0 (ESum (1 + z) 1 (ESum (2 + z) 1 (EMul (ET 20 [m; (0 + z); (1 + z); (2 + z)]) (ET 6 [(1 + z); (2 + z); b; i; (0 + z); j])))))).
Definition r_ccsdt_I2B_ovoo_2 (z m b i j : nat) : ex := (EAdd (r_ccsdt_I2B_ovoo_1 (0 + z) m b i j) (ESum (0 + z) 2 (ESum (1 + z) 1 (ESum (2 + z) 3 (EMul (ET 36 [m; (0 + z); (1 + z); (2 + z)]) (ET 7 [(1 + z); (2 + z); b; i; (0 + z); j])))))).
Definition r_ccsdt_I2B_ovoo_3 (z m b i j : nat) : ex := (EAdd (r_ccsdt_I2B_ovoo_2 (0 + z) m b i j) (EOpp (ESum (0 + z) 1 (EMul (r_ccsdt_X_a_ov (1 + z) m (0 + z)) (ET 3 [(0 + z); b; i; j]))))).
Definition r_ccsdt_I2B_ovoo_4 (z m b i j : nat) : ex := (EAdd (r_ccsdt_I2B_ovoo_3 (0 + z) m b i j) (r_ccsdt_H_ab_ovoo (0 + z) m b i j)).
Definition r_ccsdt_I2B_vvov (z a b i e : nat) : ex := (EOpp (ESum (0 + z) 0 (ESum (1 + z) 2 (ESum (2 + z) 1 (EMul (ET 36 [(0 + z); (1 + z); (2 + z); e]) (ET 6 [a; (2 + z); b; i; (0 + z); (1 + z)])))))).
Definition r_ccsdt_I2B_vvov_1 (z a b i e : nat) : ex := (EAdd (r_ccsdt_I2B_vvov (0 + z) a b i e) (EScale (-1) 2 (ESum (0 + z) 2 (ESum (1 + z) 2 (ESum (2 + z) 3 (EMul (ET 52 [(0 + z); (1 + z); (2 + z); e]) (ET 7 [a; (2 + z); b; i; (0 + z); (1 + z)]))))))).
Definition r_ccsdt_I2B_vvov_2 (z a b i e : nat) : ex := (EAdd (r_ccsdt_I2B_vvov_1 (0 + z) a b i e) (r_ccsdt_H_ab_vvov (0 + z) a b i e)).
Definition r_ccsdt_I2B_vooo_1 (z a m i j : nat) : ex := (ESum (0 + z) 0 (ESum (1 + z) 1 (ESum (2 + z) 3 (EMul (ET 36 [(0 + z); m; (1 + z); (2 + z)]) (ET 6 [a; (1 + z); (2 + z); i; (0 + z); j]))))).
Definition r_ccsdt_I2B_vooo_2 (z a m i j : nat) : ex := (EAdd (r_ccsdt_I2B_vooo_1 (0 + z) a m i j) (EScale (1) 2 (ESum (0 + z) 2 (ESum (1 + z) 3 (ESum (2 + z) 3 (EMul (ET 52 [(0 + z); m; (1 + z); (2 + z)]) (ET 7 [a; (1 + z); (2 + z); i; (0 + z); j]))))))).
Definition r_ccsdt_I2B_vooo_3 (z a m i j : nat) : ex := (EAdd (r_ccsdt_I2B_vooo_2 (0 + z) a m i j) (EOpp (ESum (0 + z) 3 (EMul (r_ccsdt_X_b_ov (1 + z) m (0 + z)) (ET 3 [a; (0 + z); i; j]))))).
Definition r_ccsdt_I2B_vooo_4 (z a m i j : nat) : ex := (EAdd (r_ccsdt_I2B_vooo_3 (0 + z) a m i j) (r_ccsdt_H_ab_vooo (0 + z) a m i j)).
Definition r_ccsdt_dT_aab (z a b c i j k : nat) : ex := (EScale (1) 2 (ESum (0 + z) 1 (EMul (r_ccsdt_I2B_vvvo_2 (1 + z) b c (0 + z) k) (ET 2 [a; (0 + z); i; j])))).
Definition r_ccsdt_dT_aab_1 (z a b c i j k : nat) : ex := (ESub (r_ccsdt_dT_aab (0 + z) a b c i j k) (EScale (1) 2 (ESum (0 + z) 0 (EMul (r_ccsdt_I2B_ovoo_4 (1 + z) (0 + z) c j k) (ET 2 [a; b; i; (0 + z)]))))).
Definition r_ccsdt_dT_aab_2 (z a b c i j k : nat) : ex := (EAdd (r_ccsdt_dT_aab_1 (0 + z) a b c i j k) (ESum (0 + z) 3 (EMul (r_ccsdt_I2B_vvov_2 (1 + z) a c i (0 + z)) (ET 3 [b; (0 + z); j; k])))).
Definition r_ccsdt_dT_aab_3 (z a b c i j k : nat) : ex := (ESub (r_ccsdt_dT_aab_2 (0 + z) a b c i j k) (ESum (0 + z) 2 (EMul (r_ccsdt_I2B_vooo_4 (1 + z) a (0 + z) i k) (ET 3 [b; c; j; (0 + z)])))).
Definition r_ccsdt_dT_aab_4 (z a b c i j k : nat) : ex := (EAdd (r_ccsdt_dT_aab_3 (0 + z) a b c i j k) (EScale (1) 2 (ESum (0 + z) 1 (EMul (r_ccsdt_I2A_vvov_5 (1 + z) a b i (0 + z)) (ET 3 [(0 + z); c; j; k]))))).
Definition r_ccsdt_dT_aab_5 (z a b c i j k : nat) : ex := (ESub (r_ccsdt_dT_aab_4 (0 + z) a b c i j k) (EScale (1) 2 (ESum (0 + z) 0 (EMul (r_ccsdt_I2A_vooo_7 (1 + z) a (0 + z) i j) (ET 3 [b; c; (0 + z); k]))))).
Definition r_ccsdt_dT_aab_6 (z a b c i j k : nat) : ex := (ESub (r_ccsdt_dT_aab_5 (0 + z) a b c i j k) (EScale (1) 2 (ESum (0 + z) 0 (EMul (r_ccsdt_X_a_oo (1 + z) (0 + z) i) (ET 6 [a; b; c; (0 + z); j; k]))))).
Definition r_ccsdt_dT_aab_7 (z a b c i j k : nat) : ex := (ESub (r_ccsdt_dT_aab_6 (0 + z) a b c i j k) (EScale (1) 4 (ESum (0 + z) 2 (EMul (r_ccsdt_X_b_oo (1 + z) (0 + z) k) (ET 6 [a; b; c; i; j; (0 + z)]))))).
Definition r_ccsdt_dT_aab_8 (z a b c i j k : nat) : ex := (EAdd (r_ccsdt_dT_aab_7 (0 + z) a b c i j k) (EScale (1) 2 (ESum (0 + z) 1 (EMul (r_ccsdt_X_a_vv_1 (1 + z) a (0 + z)) (ET 6 [(0 + z); b; c; i; j; k]))))).
Definition r_ccsdt_dT_aab_9 (z a b c i j k : nat) : ex := (EAdd (r_ccsdt_dT_aab_8 (0 + z) a b c i j k) (EScale (1) 4 (ESum (0 + z) 3 (EMul (r_ccsdt_X_b_vv_1 (1 + z) c (0 + z)) (ET 6 [a; b; (0 + z); i; j; k]))))).
Definition r_ccsdt_dT_aab_10 (z a b c i j k : nat) : ex := (EAdd (r_ccsdt_dT_aab_9 (0 + z) a b c i j k) (EScale (1) 8 (ESum (0 + z) 0 (ESum (1 + z) 0 (EMul (r_ccsdt_H_aa_oooo_1 (2 + z) (0 + z) (1 + z) i j) (ET 6 [a; b; c; (0 + z); (1 + z); k])))))).
Definition r_ccsdt_dT_aab_11 (z a b c i j k : nat) : ex := (EAdd (r_ccsdt_dT_aab_10 (0 + z) a b c i j k) (EScale (1) 2 (ESum (0 + z) 0 (ESum (1 + z) 2 (EMul (r_ccsdt_H_ab_oooo (2 + z) (0 + z) (1 + z) j k) (ET 6 [a; b; c; i; (0 + z); (1 + z)])))))).
Definition r_ccsdt_dT_aab_12 (z a b c i j k : nat) : ex := (EAdd (r_ccsdt_dT_aab_11 (0 + z) a b c i j k) (EScale (1) 8 (ESum (0 + z) 1 (ESum (1 + z) 1 (EMul (r_ccsdt_H_aa_vvvv_1 (2 + z) a b (0 + z) (1 + z)) (ET 6 [(0 + z); (1 + z); c; i; j; k])))))).
Definition r_ccsdt_dT_aab_13 (z a b c i j k : nat) : ex := (EAdd (r_ccsdt_dT_aab_12 (0 + z) a b c i j k) (EScale (1) 2 (ESum (0 + z) 1 (ESum (1 + z) 3 (EMul (r_ccsdt_H_ab_vvvv (2 + z) b c (0 + z) (1 + z)) (ET 6 [a; (0 + z); (1 + z); i; j; k])))))).
Definition r_ccsdt_dT_aab_14 (z a b c i j k : nat) : ex := (EAdd (r_ccsdt_dT_aab_13 (0 + z) a b c i j k) (ESum (0 + z) 0 (ESum (1 + z) 1 (EMul (r_ccsdt_H_aa_voov (2 + z) a (0 + z) i (1 + z)) (ET 6 [(1 + z); b; c; (0 + z); j; k]))))).
Definition r_ccsdt_dT_aab_15 (z a b c i j k : nat) : ex := (EAdd (r_ccsdt_dT_aab_14 (0 + z) a b c i j k) (ESum (0 + z) 2 (ESum (1 + z) 3 (EMul (r_ccsdt_H_ab_voov (2 + z) a (0 + z) i (1 + z)) (ET 7 [b; (1 + z); c; j; (0 + z); k]))))).
Definition r_ccsdt_dT_aab_16 (z a b c i j k : nat) : ex := (EAdd (r_ccsdt_dT_aab_15 (0 + z) a b c i j k) (EScale (1) 4 (ESum (0 + z) 0 (ESum (1 + z) 1 (EMul (r_ccsdt_H_ab_ovvo (2 + z) (0 + z) c (1 + z) k) (ET 5 [a; b; (1 + z); i; j; (0 + z)])))))).
Definition r_ccsdt_dT_aab_17 (z a b c i j k : nat) : ex := (EAdd (r_ccsdt_dT_aab_16 (0 + z) a b c i j k) (EScale (1) 4 (ESum (0 + z) 2 (ESum (1 + z) 3 (EMul (r_ccsdt_H_bb_voov (2 + z) c (0 + z) k (1 + z)) (ET 6 [a; b; (1 + z); i; j; (0 + z)])))))).
Definition r_ccsdt_dT_aab_18 (z a b c i j k : nat) : ex := (ESub (r_ccsdt_dT_aab_17 (0 + z) a b c i j k) (EScale (1) 2 (ESum (0 + z) 2 (ESum (1 + z) 1 (EMul (r_ccsdt_H_ab_vovo (2 + z) a (0 + z) (1 + z) k) (ET 6 [(1 + z); b; c; i; j; (0 + z)])))))).
Definition r_ccsdt_dT_aab_19 (z a b c i j k : nat) : ex := (ESub (r_ccsdt_dT_aab_18 (0 + z) a b c i j k) (EScale (1) 2 (ESum (0 + z) 0 (ESum (1 + z) 3 (EMul (r_ccsdt_H_ab_ovov (2 + z) (0 + z) c i (1 + z)) (ET 6 [a; b; (1 + z); (0 + z); j; k])))))).
Definition r_ccsdt_res_aab (z a b c i j k : nat) : ex := (r_ccsdt_dT_aab_19 (0 + z) a b c i j k).
Definition r_ccsdt_I2B_vvvo_3 (z a b e j : nat) : ex := (EScale (-1) 2 (ESum (0 + z) 0 (ESum (1 + z) 0 (ESum (2 + z) 1 (EMul (ET 20 [(0 + z); (1 + z); e; (2 + z)]) (ET 6 [a; (2 + z); b; (0 + z); (1 + z); j])))))).
Definition r_ccsdt_I2B_vvvo_4 (z a b e j : nat) : ex := (EAdd (r_ccsdt_I2B_vvvo_3 (0 + z) a b e j) (EOpp (ESum (0 + z) 0 (ESum (1 + z) 2 (ESum (2 + z) 3 (EMul (ET 36 [(0 + z); (1 + z); e; (2 + z)]) (ET 7 [a; (2 + z); b; (0 + z); (1 + z); j]))))))).
Definition r_ccsdt_I2B_vvvo_5 (z a b e j : nat) : ex := (EAdd (r_ccsdt_I2B_vvvo_4 (0 + z) a b e j) (r_ccsdt_H_ab_vvvo (0 + z) a b e j)).
Definition r_ccsdt_I2B_ovoo_5 (z m b i j : nat) : ex := (EScale (1) 2 (ESum (0 + z) 0 (ESum (1 + z) 1 (ESum (2 + z) 1 (EMul (ET 20 [m; (0 + z); (1 + z); (2 + z)]) (ET 6 [(1 + z); (2 + z); b; i; (0 + z); j])))))).
Definition r_ccsdt_I2B_ovoo_6 (z m b i j : nat) : ex := (EAdd (r_ccsdt_I2B_ovoo_5 (0 + z) m b i j) (ESum (0 + z) 2 (ESum (1 + z) 1 (ESum (2 + z) 3 (EMul (ET 36 [m; (0 + z); (1 + z); (2 + z)]) (ET 7 [(1 + z); (2 + z); b; i; (0 + z); j])))))).
Definition r_ccsdt_I2B_ovoo_7 (z m b i j : nat) : ex := (ESub (r_ccsdt_I2B_ovoo_6 (0 + z) m b i j) (ESum (0 + z) 1 (EMul (r_ccsdt_X_a_ov (1 + z) m (0 + z)) (ET 3 [(0 + z); b; i; j])))).
Definition r_ccsdt_I2B_ovoo_8 (z m b i j : nat) : ex := (EAdd (r_ccsdt_I2B_ovoo_7 (0 + z) m b i j) (r_ccsdt_H_ab_ovoo (0 + z) m b i j)).
Definition r_ccsdt_I2B_vvov_3 (z a b i e : nat) : ex := (EOpp (ESum (0 + z) 0 (ESum (1 + z) 2 (ESum (2 + z) 1 (EMul (ET 36 [(0 + z); (1 + z); (2 + z); e]) (ET 6 [a; (2 + z); b; i; (0 + z); (1 + z)])))))).
Definition r_ccsdt_I2B_vvov_4 (z a b i e : nat) : ex := (EAdd (r_ccsdt_I2B_vvov_3 (0 + z) a b i e) (EScale (-1) 2 (ESum (0 + z) 2 (ESum (1 + z) 2 (ESum (2 + z) 3 (EMul (ET 52 [(0 + z); (1 + z); (2 + z); e]) (ET 7 [a; (2 + z); b; i; (0 + z); (1 + z)]))))))).
Definition r_ccsdt_I2B_vvov_5 (z a b i e : nat) : ex := (EAdd (r_ccsdt_I2B_vvov_4 (0 + z) a b i e) (r_ccsdt_H_ab_vvov (0 + z) a b i e)).
Definition r_ccsdt_I2B_vooo_5 (z a m i j : nat) : ex := (ESum (0 + z) 0 (ESum (1 + z) 1 (ESum (2 + z) 3 (EMul (ET 36 [(0 + z); m; (1 + z); (2 + z)]) (ET 6 [a; (1 + z); (2 + z); i; (0 + z); j]))))).
Definition r_ccsdt_I2B_vooo_6 (z a m i j : nat) : ex := (EAdd (r_ccsdt_I2B_vooo_5 (0 + z) a m i j) (EScale (1) 2 (ESum (0 + z) 2 (ESum (1 + z) 3 (ESum (2 + z) 3 (EMul (ET 52 [(0 + z); m; (1 + z); (2 + z)]) (ET 7 [a; (1 + z); (2 + z); i; (0 + z); j]))))))).
Definition r_ccsdt_I2B_vooo_7 (z a m i j : nat) : ex := (ESub (r_ccsdt_I2B_vooo_6 (0 + z) a m i j) (ESum (0 + z) 3 (EMul (r_ccsdt_X_b_ov (1 + z) m (0 + z)) (ET 3 [a; (0 + z); i; j])))).
Definition r_ccsdt_I2B_vooo_8 (z a m i j : nat) : ex := (EAdd (r_ccsdt_I2B_vooo_7 (0 + z) a m i j) (r_ccsdt_H_ab_vooo (0 + z) a m i j)).
Definition r_ccsdt_I2C_vvov (z a b i e : nat) : ex := (EScale (-1) 2 (ESum (0 + z) 2 (ESum (1 + z) 2 (ESum (2 + z) 3 (EMul (ET 52 [(0 + z); (1 + z); e; (2 + z)]) (ET 8 [a; b; (2 + z); i; (0 + z); (1 + z)])))))).
Definition r_ccsdt_I2C_vvov_1 (z a b i e : nat) : ex := (EAdd (r_ccsdt_I2C_vvov (0 + z) a b i e) (EOpp (ESum (0 + z) 0 (ESum (1 + z) 2 (ESum (2 + z) 1 (EMul (ET 36 [(0 + z); (1 + z); (2 + z); e]) (ET 7 [(2 + z); a; b; (0 + z); i; (1 + z)]))))))).
Definition r_ccsdt_I2C_vvov_2 (z a b i e : nat) : ex := (EAdd (r_ccsdt_I2C_vvov_1 (0 + z) a b i e) (r_ccsdt_H_bb_vvov_1 (0 + z) a b i e)).
Definition r_ccsdt_I2C_vooo_1 (z a m i j : nat) : ex := (ESum (0 + z) 0 (ESum (1 + z) 1 (ESum (2 + z) 3 (EMul (ET 36 [(0 + z); m; (1 + z); (2 + z)]) (ET 7 [(1 + z); a; (2 + z); (0 + z); i; j]))))).
Definition r_ccsdt_I2C_vooo_2 (z a m i j : nat) : ex := (EAdd (r_ccsdt_I2C_vooo_1 (0 + z) a m i j) (EScale (1) 2 (ESum (0 + z) 2 (ESum (1 + z) 3 (ESum (2 + z) 3 (EMul (ET 52 [m; (0 + z); (1 + z); (2 + z)]) (ET 8 [a; (1 + z); (2 + z); i; j; (0 + z)]))))))).
Definition r_ccsdt_I2C_vooo_3 (z a m i j : nat) : ex := (ESub (r_ccsdt_I2C_vooo_2 (0 + z) a m i j) (ESum (0 + z) 3 (EMul (r_ccsdt_X_b_ov (1 + z) m (0 + z)) (ET 4 [a; (0 + z); i; j])))).
Definition r_ccsdt_I2C_vooo_4 (z a m i j : nat) : ex := (EAdd (r_ccsdt_I2C_vooo_3 (0 + z) a m i j) (r_ccsdt_H_bb_vooo (0 + z) a m i j)).
Definition r_ccsdt_dT_abb (z a b c i j k : nat) : ex := (EScale (1) 2 (ESum (0 + z) 3 (EMul (r_ccsdt_I2B_vvov_5 (1 + z) a b i (0 + z)) (ET 4 [(0 + z); c; j; k])))).
Definition r_ccsdt_dT_abb_1 (z a b c i j k : nat) : ex := (ESub (r_ccsdt_dT_abb (0 + z) a b c i j k) (EScale (1) 2 (ESum (0 + z) 2 (EMul (r_ccsdt_I2B_vooo_8 (1 + z) a (0 + z) i j) (ET 4 [b; c; (0 + z); k]))))).
Definition r_ccsdt_dT_abb_2 (z a b c i j k : nat) : ex := (EAdd (r_ccsdt_dT_abb_1 (0 + z) a b c i j k) (EScale (1) 2 (ESum (0 + z) 3 (EMul (r_ccsdt_I2C_vvov_2 (1 + z) c b k (0 + z)) (ET 3 [a; (0 + z); i; j]))))).
Definition r_ccsdt_dT_abb_3 (z a b c i j k : nat) : ex := (ESub (r_ccsdt_dT_abb_2 (0 + z) a b c i j k) (EScale (1) 2 (ESum (0 + z) 2 (EMul (r_ccsdt_I2C_vooo_4 (1 + z) c (0 + z) k j) (ET 3 [a; b; i; (0 + z)]))))).
Definition r_ccsdt_dT_abb_4 (z a b c i j k : nat) : ex := (EAdd (r_ccsdt_dT_abb_3 (0 + z) a b c i j k) (ESum (0 + z) 1 (EMul (r_ccsdt_I2B_vvvo_5 (1 + z) a b (0 + z) j) (ET 3 [(0 + z); c; i; k])))).
Definition r_ccsdt_dT_abb_5 (z a b c i j k : nat) : ex := (ESub (r_ccsdt_dT_abb_4 (0 + z) a b c i j k) (ESum (0 + z) 0 (EMul (r_ccsdt_I2B_ovoo_8 (1 + z) (0 + z) b i j) (ET 3 [a; c; (0 + z); k])))).
Definition r_ccsdt_dT_abb_6 (z a b c i j k : nat) : ex := (ESub (r_ccsdt_dT_abb_5 (0 + z) a b c i j k) (EScale (1) 4 (ESum (0 + z) 0 (EMul (r_ccsdt_X_a_oo (1 + z) (0 + z) i) (ET 7 [a; b; c; (0 + z); j; k]))))).
Definition r_ccsdt_dT_abb_7 (z a b c i j k : nat) : ex := (ESub (r_ccsdt_dT_abb_6 (0 + z) a b c i j k) (EScale (1) 2 (ESum (0 + z) 2 (EMul (r_ccsdt_X_b_oo (1 + z) (0 + z) j) (ET 7 [a; b; c; i; (0 + z); k]))))).
Definition r_ccsdt_dT_abb_8 (z a b c i j k : nat) : ex := (EAdd (r_ccsdt_dT_abb_7 (0 + z) a b c i j k) (EScale (1) 4 (ESum (0 + z) 1 (EMul (r_ccsdt_X_a_vv_1 (1 + z) a (0 + z)) (ET 7 [(0 + z); b; c; i; j; k]))))).
Definition r_ccsdt_dT_abb_9 (z a b c i j k : nat) : ex := (EAdd (r_ccsdt_dT_abb_8 (0 + z) a b c i j k) (EScale (1) 2 (ESum (0 + z) 3 (EMul (r_ccsdt_X_b_vv_1 (1 + z) b (0 + z)) (ET 7 [a; (0 + z); c; i; j; k]))))).
Definition r_ccsdt_dT_abb_10 (z a b c i j k : nat) : ex := (EAdd (r_ccsdt_dT_abb_9 (0 + z) a b c i j k) (EScale (1) 8 (ESum (0 + z) 2 (ESum (1 + z) 2 (EMul (r_ccsdt_H_bb_oooo_1 (2 + z) (0 + z) (1 + z) j k) (ET 7 [a; b; c; i; (0 + z); (1 + z)])))))).
Definition r_ccsdt_dT_abb_11 (z a b c i j k : nat) : ex := (EAdd (r_ccsdt_dT_abb_10 (0 + z) a b c i j k) (EScale (1) 2 (ESum (0 + z) 0 (ESum (1 + z) 2 (EMul (r_ccsdt_H_ab_oooo (2 + z) (0 + z) (1 + z) i j) (ET 7 [a; b; c; (0 + z); (1 + z); k])))))).
Definition r_ccsdt_dT_abb_12 (z a b c i j k : nat) : ex := (EAdd (r_ccsdt_dT_abb_11 (0 + z) a b c i j k) (EScale (1) 8 (ESum (0 + z) 3 (ESum (1 + z) 3 (EMul (r_ccsdt_H_bb_vvvv_1 (2 + z) b c (0 + z) (1 + z)) (ET 7 [a; (0 + z); (1 + z); i; j; k])))))).
Definition r_ccsdt_dT_abb_13 (z a b c i j k : nat) : ex := (EAdd (r_ccsdt_dT_abb_12 (0 + z) a b c i j k) (EScale (1) 2 (ESum (0 + z) 1 (ESum (1 + z) 3 (EMul (r_ccsdt_H_ab_vvvv (2 + z) a b (0 + z) (1 + z)) (ET 7 [(0 + z); (1 + z); c; i; j; k])))))).
Definition r_ccsdt_dT_abb_14 (z a b c i j k : nat) : ex := (EAdd (r_ccsdt_dT_abb_13 (0 + z) a b c i j k) (EScale (1) 4 (ESum (0 + z) 0 (ESum (1 + z) 1 (EMul (r_ccsdt_H_aa_voov (2 + z) a (0 + z) i (1 + z)) (ET 7 [(1 + z); b; c; (0 + z); j; k])))))).
Definition r_ccsdt_dT_abb_15 (z a b c i j k : nat) : ex := (EAdd (r_ccsdt_dT_abb_14 (0 + z) a b c i j k) (EScale (1) 4 (ESum (0 + z) 2 (ESum (1 + z) 3 (EMul (r_ccsdt_H_ab_voov (2 + z) a (0 + z) i (1 + z)) (ET 8 [(1 + z); b; c; (0 + z); j; k])))))).
Definition r_ccsdt_dT_abb_16 (z a b c i j k : nat) : ex := (EAdd (r_ccsdt_dT_abb_15 (0 + z) a b c i j k) (ESum (0 + z) 0 (ESum (1 + z) 1 (EMul (r_ccsdt_H_ab_ovvo (2 + z) (0 + z) b (1 + z) j) (ET 6 [a; (1 + z); c; i; (0 + z); k]))))).
Definition r_ccsdt_dT_abb_17 (z a b c i j k : nat) : ex := (EAdd (r_ccsdt_dT_abb_16 (0 + z) a b c i j k) (ESum (0 + z) 2 (ESum (1 + z) 3 (EMul (r_ccsdt_H_bb_voov (2 + z) b (0 + z) j (1 + z)) (ET 7 [a; (1 + z); c; i; (0 + z); k]))))).
Definition r_ccsdt_dT_abb_18 (z a b c i j k : nat) : ex := (ESub (r_ccsdt_dT_abb_17 (0 + z) a b c i j k) (EScale (1) 2 (ESum (0 + z) 0 (ESum (1 + z) 3 (EMul (r_ccsdt_H_ab_ovov (2 + z) (0 + z) b i (1 + z)) (ET 7 [a; (1 + z); c; (0 + z); j; k])))))).
Definition r_ccsdt_dT_abb_19 (z a b c i j k : nat) : ex := (ESub (r_ccsdt_dT_abb_18 (0 + z) a b c i j k) (EScale (1) 2 (ESum (0 + z) 2 (ESum (1 + z) 1 (EMul (r_ccsdt_H_ab_vovo (2 + z) a (0 + z) (1 + z) j) (ET 7 [(1 + z); b; c; i; (0 + z); k])))))).
Definition r_ccsdt_res_abb (z a b c i j k : nat) : ex := (r_ccsdt_dT_abb_19 (0 + z) a b c i j k).
Definition r_ccsdt_I2C_vvov_3 (z a b i e : nat) : ex := (EScale (-1) 2 (ESum (0 + z) 2 (ESum (1 + z) 2 (ESum (2 + z) 3 (EMul (ET 52 [(0 + z); (1 + z); e; (2 + z)]) (ET 8 [a; b; (2 + z); i; (0 + z); (1 + z)])))))).
Definition r_ccsdt_I2C_vvov_4 (z a b i e : nat) : ex := (ESub (r_ccsdt_I2C_vvov_3 (0 + z) a b i e) (ESum (0 + z) 0 (ESum (1 + z) 2 (ESum (2 + z) 1 (EMul (ET 36 [(0 + z); (1 + z); (2 + z); e]) (ET 7 [(2 + z); a; b; (0 + z); i; (1 + z)])))))).
Definition r_ccsdt_I2C_vvov_5 (z a b i e : nat) : ex := (EAdd (r_ccsdt_I2C_vvov_4 (0 + z) a b i e) (r_ccsdt_H_bb_vvov_1 (0 + z) a b i e)).
Definition r_ccsdt_I2C_vooo_5 (z a m i j : nat) : ex := (EScale (1) 2 (ESum (0 + z) 2 (ESum (1 + z) 3 (ESum (2 + z) 3 (EMul (ET 52 [m; (0 + z); (1 + z); (2 + z)]) (ET 8 [a; (1 + z); (2 + z); i; j; (0 + z)])))))).
Definition r_ccsdt_I2C_vooo_6 (z a m i j : nat) : ex := (EAdd (r_ccsdt_I2C_vooo_5 (0 + z) a m i j) (ESum (0 + z) 0 (ESum (1 + z) 1 (ESum (2 + z) 3 (EMul (ET 36 [(0 + z); m; (1 + z); (2 + z)]) (ET 7 [(1 + z); a; (2 + z); (0 + z); i; j])))))).
Definition r_ccsdt_I2C_vooo_7 (z a m i j : nat) : ex := (ESub (r_ccsdt_I2C_vooo_6 (0 + z) a m i j) (ESum (0 + z) 3 (EMul (r_ccsdt_X_b_ov (1 + z) m (0 + z)) (ET 4 [a; (0 + z); i; j])))).
Definition r_ccsdt_I2C_vooo_8 (z a m i j : nat) : ex := (EAdd (r_ccsdt_I2C_vooo_7 (0 + z) a m i j) (r_ccsdt_H_bb_vooo (0 + z) a m i j)).
Definition r_ccsdt_dT_bbb (z a b c i j k : nat) : ex := (EScale (-1) 4 (ESum (0 + z) 2 (EMul (r_ccsdt_I2C_vooo_8 (1 + z) a (0 + z) i j) (ET 4 [b; c; (0 + z); k])))).
Definition r_ccsdt_dT_bbb_1 (z a b c i j k : nat) : ex := (EAdd (r_ccsdt_dT_bbb (0 + z) a b c i j k) (EScale (1) 4 (ESum (0 + z) 3 (EMul (r_ccsdt_I2C_vvov_5 (1 + z) a b i (0 + z)) (ET 4 [(0 + z); c; j; k]))))).
Definition r_ccsdt_dT_bbb_2 (z a b c i j k : nat) : ex := (ESub (r_ccsdt_dT_bbb_1 (0 + z) a b c i j k) (EScale (1) 12 (ESum (0 + z) 2 (EMul (r_ccsdt_X_b_oo (1 + z) (0 + z) k) (ET 8 [a; b; c; i; j; (0 + z)]))))).
Definition r_ccsdt_dT_bbb_3 (z a b c i j k : nat) : ex := (EAdd (r_ccsdt_dT_bbb_2 (0 + z) a b c i j k) (EScale (1) 12 (ESum (0 + z) 3 (EMul (r_ccsdt_X_b_vv_1 (1 + z) c (0 + z)) (ET 8 [a; b; (0 + z); i; j; k]))))).
Definition r_ccsdt_dT_bbb_4 (z a b c i j k : nat) : ex := (EAdd (r_ccsdt_dT_bbb_3 (0 + z) a b c i j k) (EScale (1) 24 (ESum (0 + z) 2 (ESum (1 + z) 2 (EMul (r_ccsdt_H_bb_oooo_1 (2 + z) (0 + z) (1 + z) i j) (ET 8 [a; b; c; (0 + z); (1 + z); k])))))).
Definition r_ccsdt_dT_bbb_5 (z a b c i j k : nat) : ex := (EAdd (r_ccsdt_dT_bbb_4 (0 + z) a b c i j k) (EScale (1) 24 (ESum (0 + z) 3 (ESum (1 + z) 3 (EMul (r_ccsdt_H_bb_vvvv_1 (2 + z) a b (0 + z) (1 + z)) (ET 8 [(0 + z); (1 + z); c; i; j; k])))))).
Definition r_ccsdt_dT_bbb_6 (z a b c i j k : nat) : ex := (EAdd (r_ccsdt_dT_bbb_5 (0 + z) a b c i j k) (EScale (1) 4 (ESum (0 + z) 0 (ESum (1 + z) 1 (EMul (r_ccsdt_H_ab_ovvo (2 + z) (0 + z) a (1 + z) i) (ET 7 [(1 + z); b; c; (0 + z); j; k])))))).
Definition r_ccsdt_dT_bbb_7 (z a b c i j k : nat) : ex := (EAdd (r_ccsdt_dT_bbb_6 (0 + z) a b c i j k) (EScale (1) 4 (ESum (0 + z) 2 (ESum (1 + z) 3 (EMul (r_ccsdt_H_bb_voov (2 + z) a (0 + z) i (1 + z)) (ET 8 [(1 + z); b; c; (0 + z); j; k])))))).
Definition r_ccsdt_res_bbb (z a b c i j k : nat) : ex := (r_ccsdt_dT_bbb_7 (0 + z) a b c i j k).
