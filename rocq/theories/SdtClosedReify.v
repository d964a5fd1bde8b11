(** Generated by tools/gen_sdt_closed.py: reified restricted and unrestricted CCSDT and EOMCCSDT programs (proof support). *)
From Coq Require Import Reals Arith List ZArith.
From Verif Require Import RSum IntegralsModel TensorObjs TensorAlg CcsdtModel EomsdtModel SdtClosedModel.
Import ListNotations.
Local Open Scope nat_scope.
Definition r_ccsdt_X_a_ov (z m e : nat) : ex := (EAdd (ET 0 [m; e]) (EAdd (ESum (0 + z) 0 (ESum (1 + z) 1 (EMul (ET 1 [m; (0 + z); e; (1 + z)]) (ET 2 [(1 + z); (0 + z)])))) (ESum (0 + z) 2 (ESum (1 + z) 3 (EMul (ET 3 [m; (0 + z); e; (1 + z)]) (ET 4 [(1 + z); (0 + z)])))))).
Definition r_ccsdt_X_b_ov (z m e : nat) : ex := (EAdd (ET 5 [m; e]) (EAdd (ESum (0 + z) 0 (ESum (1 + z) 1 (EMul (ET 3 [(0 + z); m; (1 + z); e]) (ET 2 [(1 + z); (0 + z)])))) (ESum (0 + z) 2 (ESum (1 + z) 3 (EMul (ET 6 [m; (0 + z); e; (1 + z)]) (ET 4 [(1 + z); (0 + z)])))))).
Definition r_ccsdt_X_a_vv (z a e : nat) : ex := (EAdd (ET 7 [a; e]) (ESub (ESub (EAdd (ESum (0 + z) 0 (ESum (1 + z) 1 (EMul (ET 8 [a; (0 + z); e; (1 + z)]) (ET 2 [(1 + z); (0 + z)])))) (ESum (0 + z) 2 (ESum (1 + z) 3 (EMul (ET 9 [a; (0 + z); e; (1 + z)]) (ET 4 [(1 + z); (0 + z)]))))) (EScale (1) 2 (ESum (0 + z) 0 (ESum (1 + z) 0 (ESum (2 + z) 1 (EMul (ET 1 [(0 + z); (1 + z); e; (2 + z)]) (ET 10 [a; (2 + z); (0 + z); (1 + z)]))))))) (ESum (0 + z) 0 (ESum (1 + z) 2 (ESum (2 + z) 3 (EMul (ET 3 [(0 + z); (1 + z); e; (2 + z)]) (ET 11 [a; (2 + z); (0 + z); (1 + z)]))))))).
Definition r_ccsdt_X_a_oo (z m i : nat) : ex := (EAdd (ET 12 [m; i]) (EAdd (EAdd (EAdd (EAdd (ESum (0 + z) 0 (ESum (1 + z) 1 (EMul (ET 13 [m; (0 + z); i; (1 + z)]) (ET 2 [(1 + z); (0 + z)])))) (ESum (0 + z) 2 (ESum (1 + z) 3 (EMul (ET 14 [m; (0 + z); i; (1 + z)]) (ET 4 [(1 + z); (0 + z)]))))) (ESum (0 + z) 1 (EMul (r_ccsdt_X_a_ov (1 + z) m (0 + z)) (ET 2 [(0 + z); i])))) (EScale (1) 2 (ESum (0 + z) 0 (ESum (1 + z) 1 (ESum (2 + z) 1 (EMul (ET 1 [m; (0 + z); (1 + z); (2 + z)]) (ET 10 [(1 + z); (2 + z); i; (0 + z)]))))))) (ESum (0 + z) 2 (ESum (1 + z) 1 (ESum (2 + z) 3 (EMul (ET 3 [m; (0 + z); (1 + z); (2 + z)]) (ET 11 [(1 + z); (2 + z); i; (0 + z)]))))))).
Definition r_ccsdt_X_b_vv (z a e : nat) : ex := (EAdd (ET 15 [a; e]) (ESub (ESub (EAdd (ESum (0 + z) 2 (ESum (1 + z) 3 (EMul (ET 16 [a; (0 + z); e; (1 + z)]) (ET 4 [(1 + z); (0 + z)])))) (ESum (0 + z) 0 (ESum (1 + z) 1 (EMul (ET 17 [(0 + z); a; (1 + z); e]) (ET 2 [(1 + z); (0 + z)]))))) (EScale (1) 2 (ESum (0 + z) 2 (ESum (1 + z) 2 (ESum (2 + z) 3 (EMul (ET 6 [(0 + z); (1 + z); e; (2 + z)]) (ET 18 [a; (2 + z); (0 + z); (1 + z)]))))))) (ESum (0 + z) 0 (ESum (1 + z) 2 (ESum (2 + z) 1 (EMul (ET 3 [(0 + z); (1 + z); (2 + z); e]) (ET 11 [(2 + z); a; (0 + z); (1 + z)]))))))).
Definition r_ccsdt_X_b_oo (z m i : nat) : ex := (EAdd (ET 19 [m; i]) (EAdd (EAdd (EAdd (EAdd (ESum (0 + z) 2 (ESum (1 + z) 3 (EMul (ET 20 [m; (0 + z); i; (1 + z)]) (ET 4 [(1 + z); (0 + z)])))) (ESum (0 + z) 0 (ESum (1 + z) 1 (EMul (ET 21 [(0 + z); m; (1 + z); i]) (ET 2 [(1 + z); (0 + z)]))))) (ESum (0 + z) 3 (EMul (r_ccsdt_X_b_ov (1 + z) m (0 + z)) (ET 4 [(0 + z); i])))) (EScale (1) 2 (ESum (0 + z) 2 (ESum (1 + z) 3 (ESum (2 + z) 3 (EMul (ET 6 [m; (0 + z); (1 + z); (2 + z)]) (ET 18 [(1 + z); (2 + z); i; (0 + z)]))))))) (ESum (0 + z) 0 (ESum (1 + z) 1 (ESum (2 + z) 3 (EMul (ET 3 [(0 + z); m; (1 + z); (2 + z)]) (ET 11 [(1 + z); (2 + z); (0 + z); i]))))))).
Definition r_ccsdt_dT_a (z a i : nat) : ex := (EOpp (ESum (0 + z) 0 (EMul (r_ccsdt_X_a_oo (1 + z) (0 + z) i) (ET 2 [a; (0 + z)])))).
Definition r_ccsdt_dT_a_1 (z a i : nat) : ex := (EAdd (r_ccsdt_dT_a (0 + z) a i) (ESum (0 + z) 1 (EMul (r_ccsdt_X_a_vv (1 + z) a (0 + z)) (ET 2 [(0 + z); i])))).
Definition r_ccsdt_dT_a_2 (z a i : nat) : ex := (EAdd (r_ccsdt_dT_a_1 (0 + z) a i) (ESum (0 + z) 0 (ESum (1 + z) 1 (EMul (r_ccsdt_X_a_ov (2 + z) (0 + z) (1 + z)) (ET 10 [a; (1 + z); i; (0 + z)]))))).
Definition r_ccsdt_dT_a_3 (z a i : nat) : ex := (EAdd (r_ccsdt_dT_a_2 (0 + z) a i) (ESum (0 + z) 2 (ESum (1 + z) 3 (EMul (r_ccsdt_X_b_ov (2 + z) (0 + z) (1 + z)) (ET 11 [a; (1 + z); i; (0 + z)]))))).
Definition r_ccsdt_dT_a_4 (z a i : nat) : ex := (EAdd (r_ccsdt_dT_a_3 (0 + z) a i) (ESum (0 + z) 0 (ESum (1 + z) 1 (EMul (ET 22 [a; (0 + z); i; (1 + z)]) (ET 2 [(1 + z); (0 + z)]))))).
Definition r_ccsdt_dT_a_5 (z a i : nat) : ex := (EAdd (r_ccsdt_dT_a_4 (0 + z) a i) (ESum (0 + z) 2 (ESum (1 + z) 3 (EMul (ET 23 [a; (0 + z); i; (1 + z)]) (ET 4 [(1 + z); (0 + z)]))))).
Definition r_ccsdt_dT_a_6 (z a i : nat) : ex := (ESub (r_ccsdt_dT_a_5 (0 + z) a i) (EScale (1) 2 (ESum (0 + z) 0 (ESum (1 + z) 0 (ESum (2 + z) 1 (EMul (ET 13 [(0 + z); (1 + z); i; (2 + z)]) (ET 10 [a; (2 + z); (0 + z); (1 + z)]))))))).
Definition r_ccsdt_dT_a_7 (z a i : nat) : ex := (ESub (r_ccsdt_dT_a_6 (0 + z) a i) (ESum (0 + z) 0 (ESum (1 + z) 2 (ESum (2 + z) 3 (EMul (ET 14 [(0 + z); (1 + z); i; (2 + z)]) (ET 11 [a; (2 + z); (0 + z); (1 + z)])))))).
Definition r_ccsdt_dT_a_8 (z a i : nat) : ex := (EAdd (r_ccsdt_dT_a_7 (0 + z) a i) (EScale (1) 2 (ESum (0 + z) 0 (ESum (1 + z) 1 (ESum (2 + z) 1 (EMul (ET 8 [a; (0 + z); (1 + z); (2 + z)]) (ET 10 [(1 + z); (2 + z); i; (0 + z)]))))))).
Definition r_ccsdt_dT_a_9 (z a i : nat) : ex := (EAdd (r_ccsdt_dT_a_8 (0 + z) a i) (ESum (0 + z) 2 (ESum (1 + z) 1 (ESum (2 + z) 3 (EMul (ET 9 [a; (0 + z); (1 + z); (2 + z)]) (ET 11 [(1 + z); (2 + z); i; (0 + z)])))))).
Definition r_ccsdt_dT_a_10 (z a i : nat) : ex := (EAdd (r_ccsdt_dT_a_9 (0 + z) a i) (EScale (1) 4 (ESum (0 + z) 0 (ESum (1 + z) 0 (ESum (2 + z) 1 (ESum (3 + z) 1 (EMul (ET 1 [(0 + z); (1 + z); (2 + z); (3 + z)]) (ET 24 [a; (2 + z); (3 + z); i; (0 + z); (1 + z)])))))))).
Definition r_ccsdt_dT_a_11 (z a i : nat) : ex := (EAdd (r_ccsdt_dT_a_10 (0 + z) a i) (ESum (0 + z) 0 (ESum (1 + z) 2 (ESum (2 + z) 1 (ESum (3 + z) 3 (EMul (ET 3 [(0 + z); (1 + z); (2 + z); (3 + z)]) (ET 25 [a; (2 + z); (3 + z); i; (0 + z); (1 + z)]))))))).
Definition r_ccsdt_dT_a_12 (z a i : nat) : ex := (EAdd (r_ccsdt_dT_a_11 (0 + z) a i) (EScale (1) 4 (ESum (0 + z) 2 (ESum (1 + z) 2 (ESum (2 + z) 3 (ESum (3 + z) 3 (EMul (ET 6 [(0 + z); (1 + z); (2 + z); (3 + z)]) (ET 26 [a; (2 + z); (3 + z); i; (0 + z); (1 + z)])))))))).
Definition r_ccsdt_res_a (z a i : nat) : ex := (EAdd (r_ccsdt_dT_a_12 (0 + z) a i) (ET 27 [a; i])).
Definition r_ccsdt_dT_b (z a i : nat) : ex := (EOpp (ESum (0 + z) 2 (EMul (r_ccsdt_X_b_oo (1 + z) (0 + z) i) (ET 4 [a; (0 + z)])))).
Definition r_ccsdt_dT_b_1 (z a i : nat) : ex := (EAdd (r_ccsdt_dT_b (0 + z) a i) (ESum (0 + z) 3 (EMul (r_ccsdt_X_b_vv (1 + z) a (0 + z)) (ET 4 [(0 + z); i])))).
Definition r_ccsdt_dT_b_2 (z a i : nat) : ex := (EAdd (r_ccsdt_dT_b_1 (0 + z) a i) (ESum (0 + z) 2 (ESum (1 + z) 3 (EMul (ET 28 [a; (0 + z); i; (1 + z)]) (ET 4 [(1 + z); (0 + z)]))))).
Definition r_ccsdt_dT_b_3 (z a i : nat) : ex := (EAdd (r_ccsdt_dT_b_2 (0 + z) a i) (ESum (0 + z) 0 (ESum (1 + z) 1 (EMul (ET 29 [(0 + z); a; (1 + z); i]) (ET 2 [(1 + z); (0 + z)]))))).
Definition r_ccsdt_dT_b_4 (z a i : nat) : ex := (EAdd (r_ccsdt_dT_b_3 (0 + z) a i) (ESum (0 + z) 0 (ESum (1 + z) 1 (EMul (r_ccsdt_X_a_ov (2 + z) (0 + z) (1 + z)) (ET 11 [(1 + z); a; (0 + z); i]))))).
Definition r_ccsdt_dT_b_5 (z a i : nat) : ex := (EAdd (r_ccsdt_dT_b_4 (0 + z) a i) (ESum (0 + z) 2 (ESum (1 + z) 3 (EMul (r_ccsdt_X_b_ov (2 + z) (0 + z) (1 + z)) (ET 18 [a; (1 + z); i; (0 + z)]))))).
Definition r_ccsdt_dT_b_6 (z a i : nat) : ex := (ESub (r_ccsdt_dT_b_5 (0 + z) a i) (EScale (1) 2 (ESum (0 + z) 2 (ESum (1 + z) 2 (ESum (2 + z) 3 (EMul (ET 20 [(0 + z); (1 + z); i; (2 + z)]) (ET 18 [a; (2 + z); (0 + z); (1 + z)]))))))).
Definition r_ccsdt_dT_b_7 (z a i : nat) : ex := (ESub (r_ccsdt_dT_b_6 (0 + z) a i) (ESum (0 + z) 0 (ESum (1 + z) 2 (ESum (2 + z) 1 (EMul (ET 21 [(0 + z); (1 + z); (2 + z); i]) (ET 11 [(2 + z); a; (0 + z); (1 + z)])))))).
Definition r_ccsdt_dT_b_8 (z a i : nat) : ex := (EAdd (r_ccsdt_dT_b_7 (0 + z) a i) (EScale (1) 2 (ESum (0 + z) 2 (ESum (1 + z) 3 (ESum (2 + z) 3 (EMul (ET 16 [a; (0 + z); (1 + z); (2 + z)]) (ET 18 [(1 + z); (2 + z); i; (0 + z)]))))))).
Definition r_ccsdt_dT_b_9 (z a i : nat) : ex := (EAdd (r_ccsdt_dT_b_8 (0 + z) a i) (ESum (0 + z) 0 (ESum (1 + z) 1 (ESum (2 + z) 3 (EMul (ET 17 [(0 + z); a; (1 + z); (2 + z)]) (ET 11 [(1 + z); (2 + z); (0 + z); i])))))).
Definition r_ccsdt_dT_b_10 (z a i : nat) : ex := (EAdd (r_ccsdt_dT_b_9 (0 + z) a i) (EScale (1) 4 (ESum (0 + z) 2 (ESum (1 + z) 2 (ESum (2 + z) 3 (ESum (3 + z) 3 (EMul (ET 6 [(0 + z); (1 + z); (2 + z); (3 + z)]) (ET 30 [a; (2 + z); (3 + z); i; (0 + z); (1 + z)])))))))).
Definition r_ccsdt_dT_b_11 (z a i : nat) : ex := (EAdd (r_ccsdt_dT_b_10 (0 + z) a i) (EScale (1) 4 (ESum (0 + z) 0 (ESum (1 + z) 0 (ESum (2 + z) 1 (ESum (3 + z) 1 (EMul (ET 1 [(0 + z); (1 + z); (2 + z); (3 + z)]) (ET 25 [(2 + z); (3 + z); a; (0 + z); (1 + z); i])))))))).
Definition r_ccsdt_dT_b_12 (z a i : nat) : ex := (EAdd (r_ccsdt_dT_b_11 (0 + z) a i) (ESum (0 + z) 0 (ESum (1 + z) 2 (ESum (2 + z) 1 (ESum (3 + z) 3 (EMul (ET 3 [(0 + z); (1 + z); (2 + z); (3 + z)]) (ET 26 [(2 + z); (3 + z); a; (0 + z); (1 + z); i]))))))).
Definition r_ccsdt_res_b (z a i : nat) : ex := (EAdd (r_ccsdt_dT_b_12 (0 + z) a i) (ET 31 [a; i])).
Definition r_ccsdt_X_a_vv_1 (z a e : nat) : ex := (ESub (r_ccsdt_X_a_vv (0 + z) a e) (ESum (0 + z) 0 (EMul (r_ccsdt_X_a_ov (1 + z) (0 + z) e) (ET 2 [a; (0 + z)])))).
Definition r_ccsdt_X_b_vv_1 (z a e : nat) : ex := (ESub (r_ccsdt_X_b_vv (0 + z) a e) (ESum (0 + z) 2 (EMul (r_ccsdt_X_b_ov (1 + z) (0 + z) e) (ET 4 [a; (0 + z)])))).
Definition r_ccsdt_X_aa_ooov (z m n i e : nat) : ex := (ESum (0 + z) 1 (EMul (ET 1 [m; n; (0 + z); e]) (ET 2 [(0 + z); i]))).
Definition r_ccsdt_X_aa_vovv (z a m e f : nat) : ex := (EOpp (ESum (0 + z) 0 (EMul (ET 1 [m; (0 + z); f; e]) (ET 2 [a; (0 + z)])))).
Definition r_ccsdt_X_aa_oooo (z m n i j : nat) : ex := (EAdd (EScale (1) 2 (ET 32 [m; n; i; j])) (ESum (0 + z) 1 (EMul (EAdd (ET 13 [n; m; j; (0 + z)]) (EScale (1) 2 (r_ccsdt_X_aa_ooov (1 + z) n m j (0 + z)))) (ET 2 [(0 + z); i])))).
Definition r_ccsdt_X_aa_oooo_1 (z m n i j : nat) : ex := (ESub (r_ccsdt_X_aa_oooo (0 + z) m n i j) (r_ccsdt_X_aa_oooo (0 + z) m n j i)).
Definition r_ccsdt_X_aa_voov (z a m i e : nat) : ex := (EAdd (ET 22 [a; m; i; e]) (ESub (ESum (0 + z) 1 (EMul (EAdd (ET 8 [a; m; (0 + z); e]) (EScale (1) 2 (r_ccsdt_X_aa_vovv (1 + z) a m (0 + z) e))) (ET 2 [(0 + z); i]))) (ESum (0 + z) 0 (EMul (EAdd (ET 13 [(0 + z); m; i; e]) (EScale (1) 2 (r_ccsdt_X_aa_ooov (1 + z) (0 + z) m i e))) (ET 2 [a; (0 + z)]))))).
Definition r_ccsdt_L_amie (z a m i f : nat) : ex := (EAdd (ET 22 [a; m; i; f]) (EScale (1) 2 (ESum (0 + z) 1 (EMul (ET 8 [a; m; (0 + z); f]) (ET 2 [(0 + z); i]))))).
Definition r_ccsdt_X_mnij (z m n i j : nat) : ex := (EAdd (ET 32 [m; n; i; j]) (ESum (0 + z) 1 (EMul (r_ccsdt_X_aa_ooov (1 + z) m n i (0 + z)) (ET 2 [(0 + z); j])))).
Definition r_ccsdt_X_aa_vooo (z a m i j : nat) : ex := (EAdd (EScale (1) 2 (ET 33 [a; m; i; j])) (ESub (ESum (0 + z) 1 (EMul (r_ccsdt_L_amie (1 + z) a m i (0 + z)) (ET 2 [(0 + z); j]))) (EScale (1) 4 (ESum (0 + z) 0 (EMul (r_ccsdt_X_mnij (1 + z) (0 + z) m i j) (ET 2 [a; (0 + z)])))))).
Definition r_ccsdt_X_aa_vooo_1 (z a m i j : nat) : ex := (ESub (r_ccsdt_X_aa_vooo (0 + z) a m i j) (r_ccsdt_X_aa_vooo (0 + z) a m j i)).
Definition r_ccsdt_L_amie_1 (z a n i e : nat) : ex := (ESum (0 + z) 0 (EMul (ET 13 [(0 + z); n; i; e]) (ET 2 [a; (0 + z)]))).
Definition r_ccsdt_X_aa_vvov (z a b i e : nat) : ex := (EAdd (ET 34 [a; b; i; e]) (ESum (0 + z) 0 (EMul (r_ccsdt_L_amie_1 (1 + z) a (0 + z) i e) (ET 2 [b; (0 + z)])))).
Definition r_ccsdt_X_bb_ooov (z m n i e : nat) : ex := (ESum (0 + z) 3 (EMul (ET 6 [m; n; (0 + z); e]) (ET 4 [(0 + z); i]))).
Definition r_ccsdt_X_bb_oooo (z m n i j : nat) : ex := (EAdd (EScale (1) 2 (ET 35 [m; n; i; j])) (ESum (0 + z) 3 (EMul (EAdd (ET 20 [n; m; j; (0 + z)]) (EScale (1) 2 (r_ccsdt_X_bb_ooov (1 + z) n m j (0 + z)))) (ET 4 [(0 + z); i])))).
Definition r_ccsdt_X_bb_oooo_1 (z m n i j : nat) : ex := (ESub (r_ccsdt_X_bb_oooo (0 + z) m n i j) (r_ccsdt_X_bb_oooo (0 + z) m n j i)).
Definition r_ccsdt_X_bb_vovv (z a m e f : nat) : ex := (EOpp (ESum (0 + z) 2 (EMul (ET 6 [m; (0 + z); f; e]) (ET 4 [a; (0 + z)])))).
Definition r_ccsdt_X_bb_voov (z a m i e : nat) : ex := (EAdd (ET 28 [a; m; i; e]) (ESub (ESum (0 + z) 3 (EMul (EAdd (ET 16 [a; m; (0 + z); e]) (EScale (1) 2 (r_ccsdt_X_bb_vovv (1 + z) a m (0 + z) e))) (ET 4 [(0 + z); i]))) (ESum (0 + z) 2 (EMul (EAdd (ET 20 [(0 + z); m; i; e]) (EScale (1) 2 (r_ccsdt_X_bb_ooov (1 + z) (0 + z) m i e))) (ET 4 [a; (0 + z)]))))).
Definition r_ccsdt_L_amie_2 (z a m i f : nat) : ex := (EAdd (ET 28 [a; m; i; f]) (EScale (1) 2 (ESum (0 + z) 3 (EMul (ET 16 [a; m; (0 + z); f]) (ET 4 [(0 + z); i]))))).
Definition r_ccsdt_X_mnij_1 (z m n i j : nat) : ex := (EAdd (ET 35 [m; n; i; j]) (ESum (0 + z) 3 (EMul (r_ccsdt_X_bb_ooov (1 + z) m n i (0 + z)) (ET 4 [(0 + z); j])))).
Definition r_ccsdt_X_bb_vooo (z a m i j : nat) : ex := (EAdd (EScale (1) 2 (ET 36 [a; m; i; j])) (ESub (ESum (0 + z) 3 (EMul (r_ccsdt_L_amie_2 (1 + z) a m i (0 + z)) (ET 4 [(0 + z); j]))) (EScale (1) 4 (ESum (0 + z) 2 (EMul (r_ccsdt_X_mnij_1 (1 + z) (0 + z) m i j) (ET 4 [a; (0 + z)])))))).
Definition r_ccsdt_X_bb_vooo_1 (z a m i j : nat) : ex := (ESub (r_ccsdt_X_bb_vooo (0 + z) a m i j) (r_ccsdt_X_bb_vooo (0 + z) a m j i)).
Definition r_ccsdt_L_amie_3 (z a n i e : nat) : ex := (ESum (0 + z) 2 (EMul (ET 20 [(0 + z); n; i; e]) (ET 4 [a; (0 + z)]))).
Definition r_ccsdt_X_bb_vvov (z a b i e : nat) : ex := (EAdd (ET 37 [a; b; i; e]) (ESum (0 + z) 2 (EMul (r_ccsdt_L_amie_3 (1 + z) a (0 + z) i e) (ET 4 [b; (0 + z)])))).
Definition r_ccsdt_X_ab_ooov (z m n i e : nat) : ex := (ESum (0 + z) 1 (EMul (ET 3 [m; n; (0 + z); e]) (ET 2 [(0 + z); i]))).
Definition r_ccsdt_X_ab_oovo (z n m e i : nat) : ex := (ESum (0 + z) 3 (EMul (ET 3 [n; m; e; (0 + z)]) (ET 4 [(0 + z); i]))).
Definition r_ccsdt_X_ab_oooo (z m n i j : nat) : ex := (EAdd (ET 38 [m; n; i; j]) (EAdd (ESum (0 + z) 1 (EMul (EAdd (ET 21 [m; n; (0 + z); j]) (EScale (1) 2 (r_ccsdt_X_ab_oovo (1 + z) m n (0 + z) j))) (ET 2 [(0 + z); i]))) (ESum (0 + z) 3 (EMul (EAdd (ET 14 [m; n; i; (0 + z)]) (EScale (1) 2 (r_ccsdt_X_ab_ooov (1 + z) m n i (0 + z)))) (ET 4 [(0 + z); j]))))).
Definition r_ccsdt_X_ab_vovv (z a m e f : nat) : ex := (EOpp (ESum (0 + z) 0 (EMul (ET 3 [(0 + z); m; e; f]) (ET 2 [a; (0 + z)])))).
Definition r_ccsdt_X_ab_ovvv (z m a e f : nat) : ex := (EOpp (ESum (0 + z) 2 (EMul (ET 3 [m; (0 + z); e; f]) (ET 4 [a; (0 + z)])))).
Definition r_ccsdt_X_ab_voov (z a m i e : nat) : ex := (EAdd (ET 23 [a; m; i; e]) (ESub (ESum (0 + z) 1 (EMul (EAdd (ET 9 [a; m; (0 + z); e]) (EScale (1) 2 (r_ccsdt_X_ab_vovv (1 + z) a m (0 + z) e))) (ET 2 [(0 + z); i]))) (ESum (0 + z) 0 (EMul (EAdd (ET 14 [(0 + z); m; i; e]) (EScale (1) 2 (r_ccsdt_X_ab_ooov (1 + z) (0 + z) m i e))) (ET 2 [a; (0 + z)]))))).
Definition r_ccsdt_X_ab_ovvo (z m a e i : nat) : ex := (EAdd (ET 29 [m; a; e; i]) (ESub (ESum (0 + z) 3 (EMul (EAdd (ET 17 [m; a; e; (0 + z)]) (EScale (1) 2 (r_ccsdt_X_ab_ovvv (1 + z) m a e (0 + z)))) (ET 4 [(0 + z); i]))) (ESum (0 + z) 2 (EMul (EAdd (ET 21 [m; (0 + z); e; i]) (EScale (1) 2 (r_ccsdt_X_ab_oovo (1 + z) m (0 + z) e i))) (ET 4 [a; (0 + z)]))))).
Definition r_ccsdt_X_ab_ovov (z m a i e : nat) : ex := (EAdd (ET 39 [m; a; i; e]) (ESub (ESum (0 + z) 1 (EMul (EAdd (ET 17 [m; a; (0 + z); e]) (EScale (1) 2 (r_ccsdt_X_ab_ovvv (1 + z) m a (0 + z) e))) (ET 2 [(0 + z); i]))) (ESum (0 + z) 2 (EMul (EAdd (ET 14 [m; (0 + z); i; e]) (EScale (1) 2 (r_ccsdt_X_ab_ooov (1 + z) m (0 + z) i e))) (ET 4 [a; (0 + z)]))))).
Definition r_ccsdt_X_ab_vovo (z a m e i : nat) : ex := (ESub (ET 40 [a; m; e; i]) (ESub (ESum (0 + z) 0 (EMul (EAdd (ET 21 [(0 + z); m; e; i]) (EScale (1) 2 (r_ccsdt_X_ab_oovo (1 + z) (0 + z) m e i))) (ET 2 [a; (0 + z)]))) (ESum (0 + z) 3 (EMul (EAdd (ET 9 [a; m; e; (0 + z)]) (EScale (1) 2 (r_ccsdt_X_ab_vovv (1 + z) a m e (0 + z)))) (ET 4 [(0 + z); i]))))).
Definition r_ccsdt_X_mnij_2 (z m n i j : nat) : ex := (EAdd (ET 38 [m; n; i; j]) (EAdd (ESum (0 + z) 3 (EMul (ET 14 [m; n; i; (0 + z)]) (ET 4 [(0 + z); j]))) (ESum (0 + z) 1 (EMul (ET 21 [m; n; (0 + z); j]) (ET 2 [(0 + z); i]))))).
Definition r_ccsdt_L_mbej (z m b e j : nat) : ex := (EAdd (ET 29 [m; b; e; j]) (ESum (0 + z) 3 (EMul (ET 17 [m; b; e; (0 + z)]) (ET 4 [(0 + z); j])))).
Definition r_ccsdt_X_ab_ovoo (z m b i j : nat) : ex := (EAdd (ET 41 [m; b; i; j]) (ESub (ESum (0 + z) 1 (EMul (r_ccsdt_L_mbej (1 + z) m b (0 + z) j) (ET 2 [(0 + z); i]))) (ESum (0 + z) 2 (EMul (r_ccsdt_X_mnij_2 (1 + z) m (0 + z) i j) (ET 4 [b; (0 + z)]))))).
Definition r_ccsdt_L_amie_4 (z a m i f : nat) : ex := (ESum (0 + z) 1 (EMul (EAdd (ET 9 [a; m; (0 + z); f]) (r_ccsdt_X_ab_vovv (1 + z) a m (0 + z) f)) (ET 2 [(0 + z); i]))).
Definition r_ccsdt_X_ab_vooo (z a m i j : nat) : ex := (EAdd (ET 42 [a; m; i; j]) (ESum (0 + z) 3 (EMul (EAdd (ET 23 [a; m; i; (0 + z)]) (r_ccsdt_L_amie_4 (1 + z) a m i (0 + z))) (ET 4 [(0 + z); j])))).
Definition r_ccsdt_X_ab_vvvo (z a b e j : nat) : ex := (ESub (ET 43 [a; b; e; j]) (ESum (0 + z) 2 (EMul (ET 40 [a; (0 + z); e; j]) (ET 4 [b; (0 + z)])))).
Definition r_ccsdt_X_ab_vvov (z a b i e : nat) : ex := (ESub (ET 44 [a; b; i; e]) (ESum (0 + z) 0 (EMul (ET 39 [(0 + z); b; i; e]) (ET 2 [a; (0 + z)])))).
Definition r_ccsdt_I2A_voov (z a m i e : nat) : ex := (EAdd (r_ccsdt_X_aa_voov (0 + z) a m i e) (EAdd (EScale (1) 2 (ESum (0 + z) 0 (ESum (1 + z) 1 (EMul (ET 1 [m; (0 + z); e; (1 + z)]) (ET 10 [a; (1 + z); i; (0 + z)]))))) (ESum (0 + z) 2 (ESum (1 + z) 3 (EMul (ET 3 [m; (0 + z); e; (1 + z)]) (ET 11 [a; (1 + z); i; (0 + z)])))))).
Definition r_ccsdt_I2A_oooo (z m n i j : nat) : ex := (EAdd (r_ccsdt_X_aa_oooo_1 (0 + z) m n i j) (EScale (1) 2 (ESum (0 + z) 1 (ESum (1 + z) 1 (EMul (ET 1 [m; n; (0 + z); (1 + z)]) (ET 10 [(0 + z); (1 + z); i; j])))))).
Definition r_ccsdt_I2B_voov (z a m i e : nat) : ex := (EAdd (r_ccsdt_X_ab_voov (0 + z) a m i e) (EScale (1) 2 (ESum (0 + z) 2 (ESum (1 + z) 3 (EMul (ET 6 [m; (0 + z); e; (1 + z)]) (ET 11 [a; (1 + z); i; (0 + z)])))))).
Definition r_ccsdt_I2A_vooo (z a m i j : nat) : ex := (EAdd (r_ccsdt_X_aa_vooo_1 (0 + z) a m i j) (EScale (1) 2 (ESum (0 + z) 1 (ESum (1 + z) 1 (EMul (EAdd (ET 8 [a; m; (0 + z); (1 + z)]) (EScale (1) 2 (r_ccsdt_X_aa_vovv (2 + z) a m (0 + z) (1 + z)))) (ET 10 [(0 + z); (1 + z); i; j])))))).
Definition r_ccsdt_tau (z a b i j : nat) : ex := (EAdd (EScale (1) 2 (ET 10 [a; b; i; j])) (EMul (ET 2 [a; i]) (ET 2 [b; j]))).
Definition r_ccsdt_dT_aa (z a b i j : nat) : ex := (EScale (-1) 2 (ESum (0 + z) 0 (EMul (r_ccsdt_I2A_vooo (1 + z) a (0 + z) i j) (ET 2 [b; (0 + z)])))).
Definition r_ccsdt_dT_aa_1 (z a b i j : nat) : ex := (EAdd (r_ccsdt_dT_aa (0 + z) a b i j) (EScale (1) 2 (ESum (0 + z) 1 (EMul (r_ccsdt_X_aa_vvov (1 + z) a b i (0 + z)) (ET 2 [(0 + z); j]))))).
Definition r_ccsdt_dT_aa_2 (z a b i j : nat) : ex := (EAdd (r_ccsdt_dT_aa_1 (0 + z) a b i j) (EScale (1) 2 (ESum (0 + z) 1 (EMul (r_ccsdt_X_a_vv_1 (1 + z) a (0 + z)) (ET 10 [(0 + z); b; i; j]))))).
Definition r_ccsdt_dT_aa_3 (z a b i j : nat) : ex := (ESub (r_ccsdt_dT_aa_2 (0 + z) a b i j) (EScale (1) 2 (ESum (0 + z) 0 (EMul (r_ccsdt_X_a_oo (1 + z) (0 + z) i) (ET 10 [a; b; (0 + z); j]))))).
Definition r_ccsdt_dT_aa_4 (z a b i j : nat) : ex := (EAdd (r_ccsdt_dT_aa_3 (0 + z) a b i j) (ESum (0 + z) 0 (ESum (1 + z) 1 (EMul (r_ccsdt_I2A_voov (2 + z) a (0 + z) i (1 + z)) (ET 10 [(1 + z); b; (0 + z); j]))))).
Definition r_ccsdt_dT_aa_5 (z a b i j : nat) : ex := (EAdd (r_ccsdt_dT_aa_4 (0 + z) a b i j) (ESum (0 + z) 2 (ESum (1 + z) 3 (EMul (r_ccsdt_I2B_voov (2 + z) a (0 + z) i (1 + z)) (ET 11 [b; (1 + z); j; (0 + z)]))))).
Definition r_ccsdt_dT_aa_6 (z a b i j : nat) : ex := (EAdd (r_ccsdt_dT_aa_5 (0 + z) a b i j) (EScale (1) 4 (ESum (0 + z) 1 (ESum (1 + z) 1 (EMul (ET 45 [a; b; (0 + z); (1 + z)]) (r_ccsdt_tau (2 + z) (0 + z) (1 + z) i j)))))).
Definition r_ccsdt_dT_aa_7 (z a b i j : nat) : ex := (EAdd (r_ccsdt_dT_aa_6 (0 + z) a b i j) (EScale (1) 8 (ESum (0 + z) 0 (ESum (1 + z) 0 (EMul (r_ccsdt_I2A_oooo (2 + z) (0 + z) (1 + z) i j) (ET 10 [a; b; (0 + z); (1 + z)])))))).
Definition r_ccsdt_dT_aa_8 (z a b i j : nat) : ex := (EAdd (r_ccsdt_dT_aa_7 (0 + z) a b i j) (EScale (1) 4 (ESum (0 + z) 0 (ESum (1 + z) 1 (EMul (r_ccsdt_X_a_ov (2 + z) (0 + z) (1 + z)) (ET 24 [a; b; (1 + z); i; j; (0 + z)])))))).
Definition r_ccsdt_dT_aa_9 (z a b i j : nat) : ex := (EAdd (r_ccsdt_dT_aa_8 (0 + z) a b i j) (EScale (1) 4 (ESum (0 + z) 2 (ESum (1 + z) 3 (EMul (r_ccsdt_X_b_ov (2 + z) (0 + z) (1 + z)) (ET 25 [a; b; (1 + z); i; j; (0 + z)])))))).
Definition r_ccsdt_dT_aa_10 (z a b i j : nat) : ex := (ESub (r_ccsdt_dT_aa_9 (0 + z) a b i j) (EScale (1) 2 (ESum (0 + z) 0 (ESum (1 + z) 2 (ESum (2 + z) 3 (EMul (EAdd (ET 14 [(0 + z); (1 + z); i; (2 + z)]) (r_ccsdt_X_ab_ooov (3 + z) (0 + z) (1 + z) i (2 + z))) (ET 25 [a; b; (2 + z); (0 + z); j; (1 + z)]))))))).
Definition r_ccsdt_dT_aa_11 (z a b i j : nat) : ex := (ESub (r_ccsdt_dT_aa_10 (0 + z) a b i j) (EScale (1) 4 (ESum (0 + z) 0 (ESum (1 + z) 0 (ESum (2 + z) 1 (EMul (EAdd (ET 13 [(0 + z); (1 + z); i; (2 + z)]) (r_ccsdt_X_aa_ooov (3 + z) (0 + z) (1 + z) i (2 + z))) (ET 24 [a; b; (2 + z); (0 + z); j; (1 + z)]))))))).
Definition r_ccsdt_dT_aa_12 (z a b i j : nat) : ex := (EAdd (r_ccsdt_dT_aa_11 (0 + z) a b i j) (EScale (1) 4 (ESum (0 + z) 0 (ESum (1 + z) 1 (ESum (2 + z) 1 (EMul (EAdd (ET 8 [a; (0 + z); (1 + z); (2 + z)]) (r_ccsdt_X_aa_vovv (3 + z) a (0 + z) (1 + z) (2 + z))) (ET 24 [(1 + z); b; (2 + z); i; j; (0 + z)]))))))).
Definition r_ccsdt_dT_aa_13 (z a b i j : nat) : ex := (EAdd (r_ccsdt_dT_aa_12 (0 + z) a b i j) (EScale (1) 2 (ESum (0 + z) 2 (ESum (1 + z) 1 (ESum (2 + z) 3 (EMul (EAdd (ET 9 [a; (0 + z); (1 + z); (2 + z)]) (r_ccsdt_X_ab_vovv (3 + z) a (0 + z) (1 + z) (2 + z))) (ET 25 [(1 + z); b; (2 + z); i; j; (0 + z)]))))))).
Definition r_ccsdt_res_aa (z a b i j : nat) : ex := (EAdd (r_ccsdt_dT_aa_13 (0 + z) a b i j) (EScale (1) 4 (ET 46 [a; b; i; j]))).
Definition r_ccsdt_I2A_voov_1 (z a m i e : nat) : ex := (EAdd (r_ccsdt_X_aa_voov (0 + z) a m i e) (EAdd (ESum (0 + z) 0 (ESum (1 + z) 1 (EMul (ET 1 [(0 + z); m; (1 + z); e]) (ET 10 [a; (1 + z); i; (0 + z)])))) (ESum (0 + z) 2 (ESum (1 + z) 3 (EMul (ET 3 [m; (0 + z); e; (1 + z)]) (ET 11 [a; (1 + z); i; (0 + z)])))))).
Definition r_ccsdt_I2B_voov_1 (z a m i e : nat) : ex := (EAdd (r_ccsdt_X_ab_voov (0 + z) a m i e) (EAdd (ESum (0 + z) 0 (ESum (1 + z) 1 (EMul (ET 3 [(0 + z); m; (1 + z); e]) (ET 10 [a; (1 + z); i; (0 + z)])))) (ESum (0 + z) 2 (ESum (1 + z) 3 (EMul (ET 6 [(0 + z); m; (1 + z); e]) (ET 11 [a; (1 + z); i; (0 + z)])))))).
Definition r_ccsdt_I2B_oooo (z m n i j : nat) : ex := (EAdd (r_ccsdt_X_ab_oooo (0 + z) m n i j) (ESum (0 + z) 1 (ESum (1 + z) 3 (EMul (ET 3 [m; n; (0 + z); (1 + z)]) (ET 11 [(0 + z); (1 + z); i; j]))))).
Definition r_ccsdt_I2B_vovo (z a m e i : nat) : ex := (ESub (r_ccsdt_X_ab_vovo (0 + z) a m e i) (ESum (0 + z) 0 (ESum (1 + z) 3 (EMul (ET 3 [(0 + z); m; e; (1 + z)]) (ET 11 [a; (1 + z); (0 + z); i]))))).
Definition r_ccsdt_I2B_ovoo (z m b i j : nat) : ex := (EAdd (r_ccsdt_X_ab_ovoo (0 + z) m b i j) (ESum (0 + z) 1 (ESum (1 + z) 3 (EMul (EAdd (ET 17 [m; b; (0 + z); (1 + z)]) (EScale (1) 2 (r_ccsdt_X_ab_ovvv (2 + z) m b (0 + z) (1 + z)))) (ET 11 [(0 + z); (1 + z); i; j]))))).
Definition r_ccsdt_I2B_vooo (z a m i j : nat) : ex := (EAdd (r_ccsdt_X_ab_vooo (0 + z) a m i j) (ESum (0 + z) 1 (ESum (1 + z) 3 (EMul (EAdd (ET 9 [a; m; (0 + z); (1 + z)]) (EScale (1) 2 (r_ccsdt_X_ab_vovv (2 + z) a m (0 + z) (1 + z)))) (ET 11 [(0 + z); (1 + z); i; j]))))).
Definition r_ccsdt_tau_1 (z a b i j : nat) : ex := (EAdd (ET 11 [a; b; i; j]) (EMul (ET 2 [a; i]) (ET 4 [b; j]))).
Definition r_ccsdt_dT_ab (z a b i j : nat) : ex := (EOpp (ESum (0 + z) 0 (EMul (r_ccsdt_I2B_ovoo (1 + z) (0 + z) b i j) (ET 2 [a; (0 + z)])))).
Definition r_ccsdt_dT_ab_1 (z a b i j : nat) : ex := (ESub (r_ccsdt_dT_ab (0 + z) a b i j) (ESum (0 + z) 2 (EMul (r_ccsdt_I2B_vooo (1 + z) a (0 + z) i j) (ET 4 [b; (0 + z)])))).
Definition r_ccsdt_dT_ab_2 (z a b i j : nat) : ex := (EAdd (r_ccsdt_dT_ab_1 (0 + z) a b i j) (ESum (0 + z) 1 (EMul (r_ccsdt_X_ab_vvvo (1 + z) a b (0 + z) j) (ET 2 [(0 + z); i])))).
Definition r_ccsdt_dT_ab_3 (z a b i j : nat) : ex := (EAdd (r_ccsdt_dT_ab_2 (0 + z) a b i j) (ESum (0 + z) 3 (EMul (r_ccsdt_X_ab_vvov (1 + z) a b i (0 + z)) (ET 4 [(0 + z); j])))).
Definition r_ccsdt_dT_ab_4 (z a b i j : nat) : ex := (EAdd (r_ccsdt_dT_ab_3 (0 + z) a b i j) (ESum (0 + z) 1 (EMul (r_ccsdt_X_a_vv_1 (1 + z) a (0 + z)) (ET 11 [(0 + z); b; i; j])))).
Definition r_ccsdt_dT_ab_5 (z a b i j : nat) : ex := (EAdd (r_ccsdt_dT_ab_4 (0 + z) a b i j) (ESum (0 + z) 3 (EMul (r_ccsdt_X_b_vv_1 (1 + z) b (0 + z)) (ET 11 [a; (0 + z); i; j])))).
Definition r_ccsdt_dT_ab_6 (z a b i j : nat) : ex := (ESub (r_ccsdt_dT_ab_5 (0 + z) a b i j) (ESum (0 + z) 0 (EMul (r_ccsdt_X_a_oo (1 + z) (0 + z) i) (ET 11 [a; b; (0 + z); j])))).
Definition r_ccsdt_dT_ab_7 (z a b i j : nat) : ex := (ESub (r_ccsdt_dT_ab_6 (0 + z) a b i j) (ESum (0 + z) 2 (EMul (r_ccsdt_X_b_oo (1 + z) (0 + z) j) (ET 11 [a; b; i; (0 + z)])))).
Definition r_ccsdt_dT_ab_8 (z a b i j : nat) : ex := (EAdd (r_ccsdt_dT_ab_7 (0 + z) a b i j) (ESum (0 + z) 0 (ESum (1 + z) 1 (EMul (r_ccsdt_I2A_voov_1 (2 + z) a (0 + z) i (1 + z)) (ET 11 [(1 + z); b; (0 + z); j]))))).
Definition r_ccsdt_dT_ab_9 (z a b i j : nat) : ex := (EAdd (r_ccsdt_dT_ab_8 (0 + z) a b i j) (ESum (0 + z) 2 (ESum (1 + z) 3 (EMul (r_ccsdt_I2B_voov_1 (2 + z) a (0 + z) i (1 + z)) (ET 18 [(1 + z); b; (0 + z); j]))))).
Definition r_ccsdt_dT_ab_10 (z a b i j : nat) : ex := (EAdd (r_ccsdt_dT_ab_9 (0 + z) a b i j) (ESum (0 + z) 0 (ESum (1 + z) 1 (EMul (r_ccsdt_X_ab_ovvo (2 + z) (0 + z) b (1 + z) j) (ET 10 [a; (1 + z); i; (0 + z)]))))).
Definition r_ccsdt_dT_ab_11 (z a b i j : nat) : ex := (EAdd (r_ccsdt_dT_ab_10 (0 + z) a b i j) (ESum (0 + z) 2 (ESum (1 + z) 3 (EMul (r_ccsdt_X_bb_voov (2 + z) b (0 + z) j (1 + z)) (ET 11 [a; (1 + z); i; (0 + z)]))))).
Definition r_ccsdt_dT_ab_12 (z a b i j : nat) : ex := (ESub (r_ccsdt_dT_ab_11 (0 + z) a b i j) (ESum (0 + z) 0 (ESum (1 + z) 3 (EMul (r_ccsdt_X_ab_ovov (2 + z) (0 + z) b i (1 + z)) (ET 11 [a; (1 + z); (0 + z); j]))))).
Definition r_ccsdt_dT_ab_13 (z a b i j : nat) : ex := (ESub (r_ccsdt_dT_ab_12 (0 + z) a b i j) (ESum (0 + z) 2 (ESum (1 + z) 1 (EMul (r_ccsdt_I2B_vovo (2 + z) a (0 + z) (1 + z) j) (ET 11 [(1 + z); b; i; (0 + z)]))))).
Definition r_ccsdt_dT_ab_14 (z a b i j : nat) : ex := (EAdd (r_ccsdt_dT_ab_13 (0 + z) a b i j) (ESum (0 + z) 0 (ESum (1 + z) 2 (EMul (r_ccsdt_I2B_oooo (2 + z) (0 + z) (1 + z) i j) (ET 11 [a; b; (0 + z); (1 + z)]))))).
Definition r_ccsdt_dT_ab_15 (z a b i j : nat) : ex := (EAdd (r_ccsdt_dT_ab_14 (0 + z) a b i j) (ESum (0 + z) 1 (ESum (1 + z) 3 (EMul (ET 47 [a; b; (0 + z); (1 + z)]) (r_ccsdt_tau_1 (2 + z) (0 + z) (1 + z) i j))))).
Definition r_ccsdt_dT_ab_16 (z a b i j : nat) : ex := (ESub (r_ccsdt_dT_ab_15 (0 + z) a b i j) (EScale (1) 2 (ESum (0 + z) 0 (ESum (1 + z) 0 (ESum (2 + z) 1 (EMul (EAdd (ET 13 [(0 + z); (1 + z); i; (2 + z)]) (r_ccsdt_X_aa_ooov (3 + z) (0 + z) (1 + z) i (2 + z))) (ET 25 [a; (2 + z); b; (0 + z); (1 + z); j]))))))).
Definition r_ccsdt_dT_ab_17 (z a b i j : nat) : ex := (ESub (r_ccsdt_dT_ab_16 (0 + z) a b i j) (ESum (0 + z) 0 (ESum (1 + z) 2 (ESum (2 + z) 1 (EMul (EAdd (ET 21 [(0 + z); (1 + z); (2 + z); j]) (r_ccsdt_X_ab_oovo (3 + z) (0 + z) (1 + z) (2 + z) j)) (ET 25 [a; (2 + z); b; i; (0 + z); (1 + z)])))))).
Definition r_ccsdt_dT_ab_18 (z a b i j : nat) : ex := (ESub (r_ccsdt_dT_ab_17 (0 + z) a b i j) (EScale (1) 2 (ESum (0 + z) 2 (ESum (1 + z) 2 (ESum (2 + z) 3 (EMul (EAdd (ET 20 [(0 + z); (1 + z); j; (2 + z)]) (r_ccsdt_X_bb_ooov (3 + z) (0 + z) (1 + z) j (2 + z))) (ET 26 [a; (2 + z); b; i; (1 + z); (0 + z)]))))))).
Definition r_ccsdt_dT_ab_19 (z a b i j : nat) : ex := (ESub (r_ccsdt_dT_ab_18 (0 + z) a b i j) (ESum (0 + z) 0 (ESum (1 + z) 2 (ESum (2 + z) 3 (EMul (EAdd (ET 14 [(0 + z); (1 + z); i; (2 + z)]) (r_ccsdt_X_ab_ooov (3 + z) (0 + z) (1 + z) i (2 + z))) (ET 26 [a; (2 + z); b; (0 + z); (1 + z); j])))))).
Definition r_ccsdt_dT_ab_20 (z a b i j : nat) : ex := (EAdd (r_ccsdt_dT_ab_19 (0 + z) a b i j) (EScale (1) 2 (ESum (0 + z) 0 (ESum (1 + z) 1 (ESum (2 + z) 1 (EMul (EAdd (ET 8 [a; (0 + z); (1 + z); (2 + z)]) (r_ccsdt_X_aa_vovv (3 + z) a (0 + z) (1 + z) (2 + z))) (ET 25 [(1 + z); (2 + z); b; i; (0 + z); j]))))))).
Definition r_ccsdt_dT_ab_21 (z a b i j : nat) : ex := (EAdd (r_ccsdt_dT_ab_20 (0 + z) a b i j) (ESum (0 + z) 2 (ESum (1 + z) 1 (ESum (2 + z) 3 (EMul (EAdd (ET 9 [a; (0 + z); (1 + z); (2 + z)]) (r_ccsdt_X_ab_vovv (3 + z) a (0 + z) (1 + z) (2 + z))) (ET 26 [(1 + z); (2 + z); b; i; (0 + z); j])))))).
Definition r_ccsdt_dT_ab_22 (z a b i j : nat) : ex := (EAdd (r_ccsdt_dT_ab_21 (0 + z) a b i j) (ESum (0 + z) 0 (ESum (1 + z) 1 (ESum (2 + z) 3 (EMul (EAdd (ET 17 [(0 + z); b; (1 + z); (2 + z)]) (r_ccsdt_X_ab_ovvv (3 + z) (0 + z) b (1 + z) (2 + z))) (ET 25 [a; (1 + z); (2 + z); i; (0 + z); j])))))).
Definition r_ccsdt_dT_ab_23 (z a b i j : nat) : ex := (EAdd (r_ccsdt_dT_ab_22 (0 + z) a b i j) (EScale (1) 2 (ESum (0 + z) 2 (ESum (1 + z) 3 (ESum (2 + z) 3 (EMul (EAdd (ET 16 [b; (0 + z); (1 + z); (2 + z)]) (r_ccsdt_X_bb_vovv (3 + z) b (0 + z) (1 + z) (2 + z))) (ET 26 [a; (2 + z); (1 + z); i; (0 + z); j]))))))).
Definition r_ccsdt_dT_ab_24 (z a b i j : nat) : ex := (EAdd (r_ccsdt_dT_ab_23 (0 + z) a b i j) (ESum (0 + z) 0 (ESum (1 + z) 1 (EMul (r_ccsdt_X_a_ov (2 + z) (0 + z) (1 + z)) (ET 25 [a; (1 + z); b; i; (0 + z); j]))))).
Definition r_ccsdt_dT_ab_25 (z a b i j : nat) : ex := (EAdd (r_ccsdt_dT_ab_24 (0 + z) a b i j) (ESum (0 + z) 2 (ESum (1 + z) 3 (EMul (r_ccsdt_X_b_ov (2 + z) (0 + z) (1 + z)) (ET 26 [a; (1 + z); b; i; (0 + z); j]))))).
Definition r_ccsdt_res_ab (z a b i j : nat) : ex := (EAdd (r_ccsdt_dT_ab_25 (0 + z) a b i j) (ET 48 [a; b; i; j])).
Definition r_ccsdt_I2C_oooo (z m n i j : nat) : ex := (EAdd (r_ccsdt_X_bb_oooo_1 (0 + z) m n i j) (EScale (1) 2 (ESum (0 + z) 3 (ESum (1 + z) 3 (EMul (ET 6 [m; n; (0 + z); (1 + z)]) (ET 18 [(0 + z); (1 + z); i; j])))))).
Definition r_ccsdt_I2B_ovvo (z m a e i : nat) : ex := (EAdd (r_ccsdt_X_ab_ovvo (0 + z) m a e i) (EAdd (ESum (0 + z) 2 (ESum (1 + z) 3 (EMul (ET 3 [m; (0 + z); e; (1 + z)]) (ET 18 [a; (1 + z); i; (0 + z)])))) (EScale (1) 2 (ESum (0 + z) 0 (ESum (1 + z) 1 (EMul (ET 1 [m; (0 + z); e; (1 + z)]) (ET 11 [(1 + z); a; (0 + z); i]))))))).
Definition r_ccsdt_I2C_voov (z a m i e : nat) : ex := (EAdd (r_ccsdt_X_bb_voov (0 + z) a m i e) (EScale (1) 2 (ESum (0 + z) 2 (ESum (1 + z) 3 (EMul (ET 6 [m; (0 + z); e; (1 + z)]) (ET 18 [a; (1 + z); i; (0 + z)])))))).
Definition r_ccsdt_I2C_vooo (z a m i j : nat) : ex := (EAdd (r_ccsdt_X_bb_vooo_1 (0 + z) a m i j) (EScale (1) 2 (ESum (0 + z) 3 (ESum (1 + z) 3 (EMul (EAdd (ET 16 [a; m; (0 + z); (1 + z)]) (EScale (1) 2 (r_ccsdt_X_bb_vovv (2 + z) a m (0 + z) (1 + z)))) (ET 18 [(0 + z); (1 + z); i; j])))))).
Definition r_ccsdt_tau_2 (z a b i j : nat) : ex := (EAdd (EScale (1) 2 (ET 18 [a; b; i; j])) (EMul (ET 4 [a; i]) (ET 4 [b; j]))).
Definition r_ccsdt_dT_bb (z a b i j : nat) : ex := (EScale (-1) 2 (ESum (0 + z) 2 (EMul (r_ccsdt_I2C_vooo (1 + z) a (0 + z) i j) (ET 4 [b; (0 + z)])))).
Definition r_ccsdt_dT_bb_1 (z a b i j : nat) : ex := (EAdd (r_ccsdt_dT_bb (0 + z) a b i j) (EScale (1) 2 (ESum (0 + z) 3 (EMul (r_ccsdt_X_bb_vvov (1 + z) a b i (0 + z)) (ET 4 [(0 + z); j]))))).
Definition r_ccsdt_dT_bb_2 (z a b i j : nat) : ex := (EAdd (r_ccsdt_dT_bb_1 (0 + z) a b i j) (EScale (1) 2 (ESum (0 + z) 3 (EMul (r_ccsdt_X_b_vv_1 (1 + z) a (0 + z)) (ET 18 [(0 + z); b; i; j]))))).
Definition r_ccsdt_dT_bb_3 (z a b i j : nat) : ex := (ESub (r_ccsdt_dT_bb_2 (0 + z) a b i j) (EScale (1) 2 (ESum (0 + z) 2 (EMul (r_ccsdt_X_b_oo (1 + z) (0 + z) i) (ET 18 [a; b; (0 + z); j]))))).
Definition r_ccsdt_dT_bb_4 (z a b i j : nat) : ex := (EAdd (r_ccsdt_dT_bb_3 (0 + z) a b i j) (ESum (0 + z) 2 (ESum (1 + z) 3 (EMul (r_ccsdt_I2C_voov (2 + z) a (0 + z) i (1 + z)) (ET 18 [(1 + z); b; (0 + z); j]))))).
Definition r_ccsdt_dT_bb_5 (z a b i j : nat) : ex := (EAdd (r_ccsdt_dT_bb_4 (0 + z) a b i j) (ESum (0 + z) 0 (ESum (1 + z) 1 (EMul (r_ccsdt_I2B_ovvo (2 + z) (0 + z) a (1 + z) i) (ET 11 [(1 + z); b; (0 + z); j]))))).
Definition r_ccsdt_dT_bb_6 (z a b i j : nat) : ex := (EAdd (r_ccsdt_dT_bb_5 (0 + z) a b i j) (EScale (1) 4 (ESum (0 + z) 3 (ESum (1 + z) 3 (EMul (ET 49 [a; b; (0 + z); (1 + z)]) (r_ccsdt_tau_2 (2 + z) (0 + z) (1 + z) i j)))))).
Definition r_ccsdt_dT_bb_7 (z a b i j : nat) : ex := (EAdd (r_ccsdt_dT_bb_6 (0 + z) a b i j) (EScale (1) 8 (ESum (0 + z) 2 (ESum (1 + z) 2 (EMul (r_ccsdt_I2C_oooo (2 + z) (0 + z) (1 + z) i j) (ET 18 [a; b; (0 + z); (1 + z)])))))).
Definition r_ccsdt_dT_bb_8 (z a b i j : nat) : ex := (EAdd (r_ccsdt_dT_bb_7 (0 + z) a b i j) (EScale (1) 4 (ESum (0 + z) 0 (ESum (1 + z) 1 (EMul (r_ccsdt_X_a_ov (2 + z) (0 + z) (1 + z)) (ET 26 [(1 + z); a; b; (0 + z); i; j])))))).
Definition r_ccsdt_dT_bb_9 (z a b i j : nat) : ex := (EAdd (r_ccsdt_dT_bb_8 (0 + z) a b i j) (EScale (1) 4 (ESum (0 + z) 2 (ESum (1 + z) 3 (EMul (r_ccsdt_X_b_ov (2 + z) (0 + z) (1 + z)) (ET 30 [a; b; (1 + z); i; j; (0 + z)])))))).
Definition r_ccsdt_dT_bb_10 (z a b i j : nat) : ex := (EAdd (r_ccsdt_dT_bb_9 (0 + z) a b i j) (EScale (1) 4 (ESum (0 + z) 2 (ESum (1 + z) 3 (ESum (2 + z) 3 (EMul (EAdd (ET 16 [a; (0 + z); (1 + z); (2 + z)]) (r_ccsdt_X_bb_vovv (3 + z) a (0 + z) (1 + z) (2 + z))) (ET 30 [(1 + z); b; (2 + z); i; j; (0 + z)]))))))).
Definition r_ccsdt_dT_bb_11 (z a b i j : nat) : ex := (EAdd (r_ccsdt_dT_bb_10 (0 + z) a b i j) (EScale (1) 2 (ESum (0 + z) 0 (ESum (1 + z) 1 (ESum (2 + z) 3 (EMul (EAdd (ET 17 [(0 + z); a; (1 + z); (2 + z)]) (r_ccsdt_X_ab_ovvv (3 + z) (0 + z) a (1 + z) (2 + z))) (ET 26 [(1 + z); (2 + z); b; (0 + z); i; j]))))))).
Definition r_ccsdt_dT_bb_12 (z a b i j : nat) : ex := (ESub (r_ccsdt_dT_bb_11 (0 + z) a b i j) (EScale (1) 4 (ESum (0 + z) 2 (ESum (1 + z) 2 (ESum (2 + z) 3 (EMul (EAdd (ET 20 [(0 + z); (1 + z); i; (2 + z)]) (r_ccsdt_X_bb_ooov (3 + z) (0 + z) (1 + z) i (2 + z))) (ET 30 [a; b; (2 + z); (0 + z); j; (1 + z)]))))))).
Definition r_ccsdt_dT_bb_13 (z a b i j : nat) : ex := (ESub (r_ccsdt_dT_bb_12 (0 + z) a b i j) (EScale (1) 2 (ESum (0 + z) 0 (ESum (1 + z) 2 (ESum (2 + z) 1 (EMul (EAdd (ET 21 [(0 + z); (1 + z); (2 + z); i]) (r_ccsdt_X_ab_oovo (3 + z) (0 + z) (1 + z) (2 + z) i)) (ET 26 [(2 + z); a; b; (0 + z); (1 + z); j]))))))).
Definition r_ccsdt_res_bb (z a b i j : nat) : ex := (EAdd (r_ccsdt_dT_bb_13 (0 + z) a b i j) (EScale (1) 4 (ET 50 [a; b; i; j]))).
Definition r_ccsdt_tau_aa (z a b i j : nat) : ex := (EAdd (EScale (1) 2 (ET 10 [a; b; i; j])) (EMul (ET 2 [a; i]) (ET 2 [b; j]))).
Definition r_ccsdt_tau_aa_1 (z a b i j : nat) : ex := (ESub (r_ccsdt_tau_aa (0 + z) a b i j) (r_ccsdt_tau_aa (0 + z) a b j i)).
Definition r_ccsdt_tau_bb (z a b i j : nat) : ex := (EAdd (EScale (1) 2 (ET 18 [a; b; i; j])) (EMul (ET 4 [a; i]) (ET 4 [b; j]))).
Definition r_ccsdt_tau_bb_1 (z a b i j : nat) : ex := (ESub (r_ccsdt_tau_bb (0 + z) a b i j) (r_ccsdt_tau_bb (0 + z) a b j i)).
Definition r_ccsdt_tau_ab (z a b i j : nat) : ex := (EAdd (ET 11 [a; b; i; j]) (EMul (ET 2 [a; i]) (ET 4 [b; j]))).
Definition r_ccsdt_H_aa_vovv (z a m e f : nat) : ex := (EAdd (r_ccsdt_X_aa_vovv (0 + z) a m e f) (ET 8 [a; m; e; f])).
Definition r_ccsdt_H_bb_vovv (z a m e f : nat) : ex := (EAdd (r_ccsdt_X_bb_vovv (0 + z) a m e f) (ET 16 [a; m; e; f])).
Definition r_ccsdt_H_ab_vovv (z a m e f : nat) : ex := (EAdd (r_ccsdt_X_ab_vovv (0 + z) a m e f) (ET 9 [a; m; e; f])).
Definition r_ccsdt_H_ab_ovvv (z m a e f : nat) : ex := (EAdd (r_ccsdt_X_ab_ovvv (0 + z) m a e f) (ET 17 [m; a; e; f])).
Definition r_ccsdt_H_aa_ooov (z m n i e : nat) : ex := (EAdd (r_ccsdt_X_aa_ooov (0 + z) m n i e) (ET 13 [m; n; i; e])).
Definition r_ccsdt_H_bb_ooov (z m n i e : nat) : ex := (EAdd (r_ccsdt_X_bb_ooov (0 + z) m n i e) (ET 20 [m; n; i; e])).
Definition r_ccsdt_H_ab_ooov (z m n i e : nat) : ex := (EAdd (r_ccsdt_X_ab_ooov (0 + z) m n i e) (ET 14 [m; n; i; e])).
Definition r_ccsdt_H_ab_oovo (z n m e i : nat) : ex := (EAdd (r_ccsdt_X_ab_oovo (0 + z) n m e i) (ET 21 [n; m; e; i])).
Definition r_ccsdt_H_aa_vvvv (z a b e f : nat) : ex := (ESub (EAdd (EScale (1) 2 (ET 45 [a; b; e; f])) (EScale (1) 4 (ESum (0 + z) 0 (ESum (1 + z) 0 (EMul (ET 1 [(0 + z); (1 + z); e; f]) (r_ccsdt_tau_aa_1 (2 + z) a b (0 + z) (1 + z))))))) (ESum (0 + z) 0 (EMul (ET 8 [a; (0 + z); e; f]) (ET 2 [b; (0 + z)])))).
Definition r_ccsdt_H_aa_vvvv_1 (z a b e f : nat) : ex := (ESub (r_ccsdt_H_aa_vvvv (0 + z) a b e f) (r_ccsdt_H_aa_vvvv (0 + z) b a e f)).
Definition r_ccsdt_H_bb_vvvv (z a b e f : nat) : ex := (ESub (EAdd (EScale (1) 2 (ET 49 [a; b; e; f])) (EScale (1) 4 (ESum (0 + z) 2 (ESum (1 + z) 2 (EMul (ET 6 [(0 + z); (1 + z); e; f]) (r_ccsdt_tau_bb_1 (2 + z) a b (0 + z) (1 + z))))))) (ESum (0 + z) 2 (EMul (ET 16 [a; (0 + z); e; f]) (ET 4 [b; (0 + z)])))).
Definition r_ccsdt_H_bb_vvvv_1 (z a b e f : nat) : ex := (ESub (r_ccsdt_H_bb_vvvv (0 + z) a b e f) (r_ccsdt_H_bb_vvvv (0 + z) b a e f)).
Definition r_ccsdt_H_ab_vvvv (z a b e f : nat) : ex := (EAdd (ESub (ESub (ET 47 [a; b; e; f]) (ESum (0 + z) 0 (EMul (ET 17 [(0 + z); b; e; f]) (ET 2 [a; (0 + z)])))) (ESum (0 + z) 2 (EMul (ET 9 [a; (0 + z); e; f]) (ET 4 [b; (0 + z)])))) (ESum (0 + z) 0 (ESum (1 + z) 2 (EMul (ET 3 [(0 + z); (1 + z); e; f]) (r_ccsdt_tau_ab (2 + z) a b (0 + z) (1 + z)))))).
Definition r_ccsdt_H_aa_oooo (z m n i j : nat) : ex := (EAdd (EAdd (EScale (1) 2 (ET 32 [m; n; i; j])) (ESum (0 + z) 1 (EMul (ET 13 [n; m; j; (0 + z)]) (ET 2 [(0 + z); i])))) (EScale (1) 4 (ESum (0 + z) 1 (ESum (1 + z) 1 (EMul (ET 1 [m; n; (0 + z); (1 + z)]) (r_ccsdt_tau_aa_1 (2 + z) (0 + z) (1 + z) i j)))))).
Definition r_ccsdt_H_aa_oooo_1 (z m n i j : nat) : ex := (ESub (r_ccsdt_H_aa_oooo (0 + z) m n i j) (r_ccsdt_H_aa_oooo (0 + z) m n j i)).
Definition r_ccsdt_H_bb_oooo (z m n i j : nat) : ex := (EAdd (EAdd (EScale (1) 2 (ET 35 [m; n; i; j])) (ESum (0 + z) 3 (EMul (ET 20 [n; m; j; (0 + z)]) (ET 4 [(0 + z); i])))) (EScale (1) 4 (ESum (0 + z) 3 (ESum (1 + z) 3 (EMul (ET 6 [m; n; (0 + z); (1 + z)]) (r_ccsdt_tau_bb_1 (2 + z) (0 + z) (1 + z) i j)))))).
Definition r_ccsdt_H_bb_oooo_1 (z m n i j : nat) : ex := (ESub (r_ccsdt_H_bb_oooo (0 + z) m n i j) (r_ccsdt_H_bb_oooo (0 + z) m n j i)).
Definition r_ccsdt_H_ab_oooo (z m n i j : nat) : ex := (EAdd (EAdd (EAdd (ET 38 [m; n; i; j]) (ESum (0 + z) 1 (EMul (ET 21 [m; n; (0 + z); j]) (ET 2 [(0 + z); i])))) (ESum (0 + z) 3 (EMul (ET 14 [m; n; i; (0 + z)]) (ET 4 [(0 + z); j])))) (ESum (0 + z) 1 (ESum (1 + z) 3 (EMul (ET 3 [m; n; (0 + z); (1 + z)]) (r_ccsdt_tau_ab (2 + z) (0 + z) (1 + z) i j))))).
Definition r_ccsdt_H_aa_voov (z a m i e : nat) : ex := (EAdd (EAdd (ESub (EAdd (ET 22 [a; m; i; e]) (ESum (0 + z) 1 (EMul (ET 8 [a; m; (0 + z); e]) (ET 2 [(0 + z); i])))) (ESum (0 + z) 0 (EMul (r_ccsdt_H_aa_ooov (1 + z) (0 + z) m i e) (ET 2 [a; (0 + z)])))) (ESum (0 + z) 0 (ESum (1 + z) 1 (EMul (ET 1 [(0 + z); m; (1 + z); e]) (ET 10 [a; (1 + z); i; (0 + z)]))))) (ESum (0 + z) 2 (ESum (1 + z) 3 (EMul (ET 3 [m; (0 + z); e; (1 + z)]) (ET 11 [a; (1 + z); i; (0 + z)]))))).
Definition r_ccsdt_H_bb_voov (z a m i e : nat) : ex := (EAdd (EAdd (ESub (EAdd (ET 28 [a; m; i; e]) (ESum (0 + z) 3 (EMul (ET 16 [a; m; (0 + z); e]) (ET 4 [(0 + z); i])))) (ESum (0 + z) 2 (EMul (r_ccsdt_H_bb_ooov (1 + z) (0 + z) m i e) (ET 4 [a; (0 + z)])))) (ESum (0 + z) 2 (ESum (1 + z) 3 (EMul (ET 6 [(0 + z); m; (1 + z); e]) (ET 18 [a; (1 + z); i; (0 + z)]))))) (ESum (0 + z) 0 (ESum (1 + z) 1 (EMul (ET 3 [(0 + z); m; (1 + z); e]) (ET 11 [(1 + z); a; (0 + z); i]))))).
Definition r_ccsdt_H_ab_voov (z a m i e : nat) : ex := (EAdd (EAdd (ESub (EAdd (ET 23 [a; m; i; e]) (ESum (0 + z) 1 (EMul (ET 9 [a; m; (0 + z); e]) (ET 2 [(0 + z); i])))) (ESum (0 + z) 0 (EMul (r_ccsdt_H_ab_ooov (1 + z) (0 + z) m i e) (ET 2 [a; (0 + z)])))) (ESum (0 + z) 0 (ESum (1 + z) 1 (EMul (ET 3 [(0 + z); m; (1 + z); e]) (ET 10 [a; (1 + z); i; (0 + z)]))))) (ESum (0 + z) 2 (ESum (1 + z) 3 (EMul (ET 6 [(0 + z); m; (1 + z); e]) (ET 11 [a; (1 + z); i; (0 + z)]))))).
Definition r_ccsdt_H_ab_ovvo (z m a e i : nat) : ex := (EAdd (EAdd (ESub (EAdd (ET 29 [m; a; e; i]) (ESum (0 + z) 3 (EMul (ET 17 [m; a; e; (0 + z)]) (ET 4 [(0 + z); i])))) (ESum (0 + z) 2 (EMul (r_ccsdt_H_ab_oovo (1 + z) m (0 + z) e i) (ET 4 [a; (0 + z)])))) (ESum (0 + z) 2 (ESum (1 + z) 3 (EMul (ET 3 [m; (0 + z); e; (1 + z)]) (ET 18 [a; (1 + z); i; (0 + z)]))))) (ESum (0 + z) 0 (ESum (1 + z) 1 (EMul (ET 1 [m; (0 + z); e; (1 + z)]) (ET 11 [(1 + z); a; (0 + z); i]))))).
Definition r_ccsdt_H_ab_ovov (z m a i e : nat) : ex := (ESub (ESub (EAdd (ET 39 [m; a; i; e]) (ESum (0 + z) 1 (EMul (ET 17 [m; a; (0 + z); e]) (ET 2 [(0 + z); i])))) (ESum (0 + z) 2 (EMul (r_ccsdt_H_ab_ooov (1 + z) m (0 + z) i e) (ET 4 [a; (0 + z)])))) (ESum (0 + z) 2 (ESum (1 + z) 1 (EMul (ET 3 [m; (0 + z); (1 + z); e]) (ET 11 [(1 + z); a; i; (0 + z)]))))).
Definition r_ccsdt_H_ab_vovo (z a m e i : nat) : ex := (ESub (EAdd (ESub (ET 40 [a; m; e; i]) (ESum (0 + z) 0 (EMul (r_ccsdt_H_ab_oovo (1 + z) (0 + z) m e i) (ET 2 [a; (0 + z)])))) (ESum (0 + z) 3 (EMul (ET 9 [a; m; e; (0 + z)]) (ET 4 [(0 + z); i])))) (ESum (0 + z) 0 (ESum (1 + z) 3 (EMul (ET 3 [(0 + z); m; e; (1 + z)]) (ET 11 [a; (1 + z); (0 + z); i]))))).
Definition r_ccsdt_Q1 (z a m i j : nat) : ex := (EAdd (ESum (0 + z) 0 (ESum (1 + z) 1 (EMul (r_ccsdt_H_aa_ooov (2 + z) m (0 + z) j (1 + z)) (ET 10 [a; (1 + z); i; (0 + z)])))) (ESum (0 + z) 2 (ESum (1 + z) 3 (EMul (r_ccsdt_H_ab_ooov (2 + z) m (0 + z) j (1 + z)) (ET 11 [a; (1 + z); i; (0 + z)]))))).
Definition r_ccsdt_Q2 (z a m i f : nat) : ex := (EAdd (ET 22 [a; m; i; f]) (EScale (1) 2 (ESum (0 + z) 1 (EMul (ET 8 [a; m; (0 + z); f]) (ET 2 [(0 + z); i]))))).
Definition r_ccsdt_Q2_1 (z a m i j : nat) : ex := (ESum (0 + z) 1 (EMul (r_ccsdt_Q2 (1 + z) a m i (0 + z)) (ET 2 [(0 + z); j]))).
Definition r_ccsdt_Q1_1 (z a m i j : nat) : ex := (EAdd (r_ccsdt_Q1 (0 + z) a m i j) (r_ccsdt_Q2_1 (0 + z) a m i j)).
Definition r_ccsdt_Q1_2 (z a m i j : nat) : ex := (ESub (r_ccsdt_Q1_1 (0 + z) a m i j) (r_ccsdt_Q1_1 (0 + z) a m j i)).
Definition r_ccsdt_H_aa_vooo (z a m i j : nat) : ex := (EAdd (EAdd (ET 33 [a; m; i; j]) (r_ccsdt_Q1_2 (0 + z) a m i j)) (EAdd (ESub (ESum (0 + z) 1 (EMul (r_ccsdt_X_a_ov (1 + z) m (0 + z)) (ET 10 [a; (0 + z); i; j]))) (ESum (0 + z) 0 (EMul (r_ccsdt_H_aa_oooo_1 (1 + z) (0 + z) m i j) (ET 2 [a; (0 + z)])))) (EScale (1) 2 (ESum (0 + z) 1 (ESum (1 + z) 1 (EMul (ET 8 [a; m; (0 + z); (1 + z)]) (ET 10 [(0 + z); (1 + z); i; j]))))))).
Definition r_ccsdt_Q1_3 (z a m i j : nat) : ex := (EAdd (ESum (0 + z) 2 (ESum (1 + z) 3 (EMul (r_ccsdt_H_bb_ooov (2 + z) m (0 + z) j (1 + z)) (ET 18 [a; (1 + z); i; (0 + z)])))) (ESum (0 + z) 0 (ESum (1 + z) 1 (EMul (r_ccsdt_H_ab_oovo (2 + z) (0 + z) m (1 + z) j) (ET 11 [(1 + z); a; (0 + z); i]))))).
Definition r_ccsdt_Q2_2 (z a m i f : nat) : ex := (EAdd (ET 28 [a; m; i; f]) (EScale (1) 2 (ESum (0 + z) 3 (EMul (ET 16 [a; m; (0 + z); f]) (ET 4 [(0 + z); i]))))).
Definition r_ccsdt_Q2_3 (z a m i j : nat) : ex := (ESum (0 + z) 3 (EMul (r_ccsdt_Q2_2 (1 + z) a m i (0 + z)) (ET 4 [(0 + z); j]))).
Definition r_ccsdt_Q1_4 (z a m i j : nat) : ex := (EAdd (r_ccsdt_Q1_3 (0 + z) a m i j) (r_ccsdt_Q2_3 (0 + z) a m i j)).
Definition r_ccsdt_Q1_5 (z a m i j : nat) : ex := (ESub (r_ccsdt_Q1_4 (0 + z) a m i j) (r_ccsdt_Q1_4 (0 + z) a m j i)).
Definition r_ccsdt_H_bb_vooo (z a m i j : nat) : ex := (EAdd (EAdd (ET 36 [a; m; i; j]) (r_ccsdt_Q1_5 (0 + z) a m i j)) (EAdd (ESub (ESum (0 + z) 3 (EMul (r_ccsdt_X_b_ov (1 + z) m (0 + z)) (ET 18 [a; (0 + z); i; j]))) (ESum (0 + z) 2 (EMul (r_ccsdt_H_bb_oooo_1 (1 + z) (0 + z) m i j) (ET 4 [a; (0 + z)])))) (EScale (1) 2 (ESum (0 + z) 3 (ESum (1 + z) 3 (EMul (ET 16 [a; m; (0 + z); (1 + z)]) (ET 18 [(0 + z); (1 + z); i; j]))))))).
Definition r_ccsdt_Q1_6 (z a m i e : nat) : ex := (EAdd (ET 23 [a; m; i; e]) (ESum (0 + z) 1 (EMul (ET 9 [a; m; (0 + z); e]) (ET 2 [(0 + z); i])))).
Definition r_ccsdt_H_ab_vooo (z a m i j : nat) : ex := (EAdd (ET 42 [a; m; i; j]) (EAdd (EAdd (EAdd (ESub (EAdd (EAdd (ESub (ESum (0 + z) 3 (EMul (r_ccsdt_X_b_ov (1 + z) m (0 + z)) (ET 11 [a; (0 + z); i; j]))) (ESum (0 + z) 0 (EMul (r_ccsdt_H_ab_oooo (1 + z) (0 + z) m i j) (ET 2 [a; (0 + z)])))) (ESum (0 + z) 2 (ESum (1 + z) 3 (EMul (r_ccsdt_H_bb_ooov (2 + z) m (0 + z) j (1 + z)) (ET 11 [a; (1 + z); i; (0 + z)]))))) (ESum (0 + z) 0 (ESum (1 + z) 1 (EMul (r_ccsdt_H_ab_oovo (2 + z) (0 + z) m (1 + z) j) (ET 10 [a; (1 + z); i; (0 + z)]))))) (ESum (0 + z) 0 (ESum (1 + z) 3 (EMul (r_ccsdt_H_ab_ooov (2 + z) (0 + z) m i (1 + z)) (ET 11 [a; (1 + z); (0 + z); j]))))) (ESum (0 + z) 1 (EMul (ET 40 [a; m; (0 + z); j]) (ET 2 [(0 + z); i])))) (ESum (0 + z) 3 (EMul (r_ccsdt_Q1_6 (1 + z) a m i (0 + z)) (ET 4 [(0 + z); j])))) (ESum (0 + z) 1 (ESum (1 + z) 3 (EMul (ET 9 [a; m; (0 + z); (1 + z)]) (ET 11 [(0 + z); (1 + z); i; j])))))).
Definition r_ccsdt_Q1_7 (z m a j e : nat) : ex := (EAdd (ET 39 [m; a; j; e]) (ESum (0 + z) 1 (EMul (ET 17 [m; a; (0 + z); e]) (ET 2 [(0 + z); j])))).
Definition r_ccsdt_H_ab_ovoo (z m a j i : nat) : ex := (EAdd (ET 41 [m; a; j; i]) (EAdd (EAdd (EAdd (ESub (EAdd (EAdd (ESub (ESum (0 + z) 1 (EMul (r_ccsdt_X_a_ov (1 + z) m (0 + z)) (ET 11 [(0 + z); a; j; i]))) (ESum (0 + z) 2 (EMul (r_ccsdt_H_ab_oooo (1 + z) m (0 + z) j i) (ET 4 [a; (0 + z)])))) (ESum (0 + z) 0 (ESum (1 + z) 1 (EMul (r_ccsdt_H_aa_ooov (2 + z) m (0 + z) j (1 + z)) (ET 11 [(1 + z); a; (0 + z); i]))))) (ESum (0 + z) 2 (ESum (1 + z) 3 (EMul (r_ccsdt_H_ab_ooov (2 + z) m (0 + z) j (1 + z)) (ET 18 [(1 + z); a; (0 + z); i]))))) (ESum (0 + z) 2 (ESum (1 + z) 1 (EMul (r_ccsdt_H_ab_oovo (2 + z) m (0 + z) (1 + z) i) (ET 11 [(1 + z); a; j; (0 + z)]))))) (ESum (0 + z) 3 (EMul (r_ccsdt_Q1_7 (1 + z) m a j (0 + z)) (ET 4 [(0 + z); i])))) (ESum (0 + z) 1 (EMul (ET 29 [m; a; (0 + z); i]) (ET 2 [(0 + z); j])))) (ESum (0 + z) 1 (ESum (1 + z) 3 (EMul (ET 17 [m; a; (0 + z); (1 + z)]) (ET 11 [(0 + z); (1 + z); j; i])))))).
Definition r_ccsdt_x2a_voov (z a m i e : nat) : ex := (EAdd (r_ccsdt_H_aa_voov (0 + z) a m i e) (EScale (1) 2 (ESum (0 + z) 0 (EMul (r_ccsdt_H_aa_ooov (1 + z) (0 + z) m i e) (ET 2 [a; (0 + z)]))))).
Definition r_ccsdt_H_aa_vvov (z a b i e : nat) : ex := (EAdd (EAdd (EAdd (EAdd (ESub (ESub (EScale (1) 2 (ET 34 [a; b; i; e])) (EScale (1) 2 (ESum (0 + z) 0 (EMul (r_ccsdt_X_a_ov (1 + z) (0 + z) e) (ET 10 [a; b; i; (0 + z)]))))) (ESum (0 + z) 0 (EMul (r_ccsdt_x2a_voov (1 + z) a (0 + z) i e) (ET 2 [b; (0 + z)])))) (EScale (1) 4 (ESum (0 + z) 0 (ESum (1 + z) 0 (EMul (r_ccsdt_H_aa_ooov (2 + z) (0 + z) (1 + z) i e) (ET 10 [a; b; (0 + z); (1 + z)])))))) (EScale (1) 2 (ESum (0 + z) 1 (EMul (ET 45 [a; b; (0 + z); e]) (ET 2 [(0 + z); i]))))) (ESum (0 + z) 0 (ESum (1 + z) 1 (EMul (ET 8 [b; (0 + z); e; (1 + z)]) (ET 10 [a; (1 + z); i; (0 + z)]))))) (ESum (0 + z) 2 (ESum (1 + z) 3 (EMul (ET 9 [b; (0 + z); e; (1 + z)]) (ET 11 [a; (1 + z); i; (0 + z)]))))).
Definition r_ccsdt_H_aa_vvov_1 (z a b i e : nat) : ex := (ESub (r_ccsdt_H_aa_vvov (0 + z) a b i e) (r_ccsdt_H_aa_vvov (0 + z) b a i e)).
Definition r_ccsdt_x2c_voov (z a m i e : nat) : ex := (EAdd (r_ccsdt_H_bb_voov (0 + z) a m i e) (EScale (1) 2 (ESum (0 + z) 2 (EMul (r_ccsdt_H_bb_ooov (1 + z) (0 + z) m i e) (ET 4 [a; (0 + z)]))))).
Definition r_ccsdt_H_bb_vvov (z a b i e : nat) : ex := (EAdd (EAdd (EAdd (EAdd (ESub (ESub (EScale (1) 2 (ET 37 [a; b; i; e])) (EScale (1) 2 (ESum (0 + z) 2 (EMul (r_ccsdt_X_b_ov (1 + z) (0 + z) e) (ET 18 [a; b; i; (0 + z)]))))) (ESum (0 + z) 2 (EMul (r_ccsdt_x2c_voov (1 + z) a (0 + z) i e) (ET 4 [b; (0 + z)])))) (EScale (1) 4 (ESum (0 + z) 2 (ESum (1 + z) 2 (EMul (r_ccsdt_H_bb_ooov (2 + z) (0 + z) (1 + z) i e) (ET 18 [a; b; (0 + z); (1 + z)])))))) (EScale (1) 2 (ESum (0 + z) 3 (EMul (ET 49 [a; b; (0 + z); e]) (ET 4 [(0 + z); i]))))) (ESum (0 + z) 2 (ESum (1 + z) 3 (EMul (ET 16 [b; (0 + z); e; (1 + z)]) (ET 18 [a; (1 + z); i; (0 + z)]))))) (ESum (0 + z) 0 (ESum (1 + z) 1 (EMul (ET 17 [(0 + z); b; (1 + z); e]) (ET 11 [(1 + z); a; (0 + z); i]))))).
Definition r_ccsdt_H_bb_vvov_1 (z a b i e : nat) : ex := (ESub (r_ccsdt_H_bb_vvov (0 + z) a b i e) (r_ccsdt_H_bb_vvov (0 + z) b a i e)).
Definition r_ccsdt_x2b_voov (z a m i e : nat) : ex := (EAdd (r_ccsdt_H_ab_voov (0 + z) a m i e) (EScale (1) 2 (ESum (0 + z) 0 (EMul (r_ccsdt_H_ab_ooov (1 + z) (0 + z) m i e) (ET 2 [a; (0 + z)]))))).
Definition r_ccsdt_x2b_ovov (z m a i e : nat) : ex := (EAdd (r_ccsdt_H_ab_ovov (0 + z) m a i e) (EScale (1) 2 (ESum (0 + z) 2 (EMul (r_ccsdt_H_ab_ooov (1 + z) m (0 + z) i e) (ET 4 [a; (0 + z)]))))).
Definition r_ccsdt_H_ab_vvov (z a b i e : nat) : ex := (ESub (EAdd (EAdd (EAdd (EAdd (ESub (ESub (ESub (ET 44 [a; b; i; e]) (ESum (0 + z) 2 (EMul (r_ccsdt_X_b_ov (1 + z) (0 + z) e) (ET 11 [a; b; i; (0 + z)])))) (ESum (0 + z) 2 (EMul (r_ccsdt_x2b_voov (1 + z) a (0 + z) i e) (ET 4 [b; (0 + z)])))) (ESum (0 + z) 0 (EMul (r_ccsdt_x2b_ovov (1 + z) (0 + z) b i e) (ET 2 [a; (0 + z)])))) (ESum (0 + z) 0 (ESum (1 + z) 2 (EMul (r_ccsdt_H_ab_ooov (2 + z) (0 + z) (1 + z) i e) (ET 11 [a; b; (0 + z); (1 + z)]))))) (ESum (0 + z) 1 (EMul (ET 47 [a; b; (0 + z); e]) (ET 2 [(0 + z); i])))) (ESum (0 + z) 0 (ESum (1 + z) 1 (EMul (ET 17 [(0 + z); b; (1 + z); e]) (ET 10 [a; (1 + z); i; (0 + z)]))))) (ESum (0 + z) 2 (ESum (1 + z) 3 (EMul (ET 16 [b; (0 + z); e; (1 + z)]) (ET 11 [a; (1 + z); i; (0 + z)]))))) (ESum (0 + z) 2 (ESum (1 + z) 1 (EMul (ET 9 [a; (0 + z); (1 + z); e]) (ET 11 [(1 + z); b; i; (0 + z)]))))).
Definition r_ccsdt_x2b_ovvo (z m a e i : nat) : ex := (EAdd (r_ccsdt_H_ab_ovvo (0 + z) m a e i) (EScale (1) 2 (ESum (0 + z) 2 (EMul (r_ccsdt_H_ab_oovo (1 + z) m (0 + z) e i) (ET 4 [a; (0 + z)]))))).
Definition r_ccsdt_x2b_vovo (z a m e i : nat) : ex := (EAdd (r_ccsdt_H_ab_vovo (0 + z) a m e i) (EScale (1) 2 (ESum (0 + z) 0 (EMul (r_ccsdt_H_ab_oovo (1 + z) (0 + z) m e i) (ET 2 [a; (0 + z)]))))).
Definition r_ccsdt_H_ab_vvvo (z b a e i : nat) : ex := (ESub (EAdd (EAdd (EAdd (EAdd (ESub (ESub (ESub (ET 43 [b; a; e; i]) (ESum (0 + z) 0 (EMul (r_ccsdt_X_a_ov (1 + z) (0 + z) e) (ET 11 [b; a; (0 + z); i])))) (ESum (0 + z) 0 (EMul (r_ccsdt_x2b_ovvo (1 + z) (0 + z) a e i) (ET 2 [b; (0 + z)])))) (ESum (0 + z) 2 (EMul (r_ccsdt_x2b_vovo (1 + z) b (0 + z) e i) (ET 4 [a; (0 + z)])))) (ESum (0 + z) 0 (ESum (1 + z) 2 (EMul (r_ccsdt_H_ab_oovo (2 + z) (0 + z) (1 + z) e i) (ET 11 [b; a; (0 + z); (1 + z)]))))) (ESum (0 + z) 3 (EMul (ET 47 [b; a; e; (0 + z)]) (ET 4 [(0 + z); i])))) (ESum (0 + z) 2 (ESum (1 + z) 3 (EMul (ET 9 [b; (0 + z); e; (1 + z)]) (ET 18 [a; (1 + z); i; (0 + z)]))))) (ESum (0 + z) 0 (ESum (1 + z) 1 (EMul (ET 8 [b; (0 + z); e; (1 + z)]) (ET 11 [(1 + z); a; (0 + z); i]))))) (ESum (0 + z) 0 (ESum (1 + z) 3 (EMul (ET 17 [(0 + z); a; e; (1 + z)]) (ET 11 [b; (1 + z); (0 + z); i]))))).
Definition r_ccsdt_I2A_vvov (z a b i e : nat) : ex := (EScale (-1) 2 (ESum (0 + z) 0 (ESum (1 + z) 0 (ESum (2 + z) 1 (EMul (ET 1 [(0 + z); (1 + z); e; (2 + z)]) (ET 24 [a; b; (2 + z); i; (0 + z); (1 + z)])))))).
Definition r_ccsdt_I2A_vvov_1 (z a b i e : nat) : ex := (ESub (r_ccsdt_I2A_vvov (0 + z) a b i e) (ESum (0 + z) 0 (ESum (1 + z) 2 (ESum (2 + z) 3 (EMul (ET 3 [(0 + z); (1 + z); e; (2 + z)]) (ET 25 [a; b; (2 + z); i; (0 + z); (1 + z)])))))).
Definition r_ccsdt_I2A_vvov_2 (z a b i e : nat) : ex := (EAdd (r_ccsdt_I2A_vvov_1 (0 + z) a b i e) (r_ccsdt_H_aa_vvov_1 (0 + z) a b i e)).
Definition r_ccsdt_I2A_vooo_1 (z a m i j : nat) : ex := (EScale (1) 2 (ESum (0 + z) 0 (ESum (1 + z) 1 (ESum (2 + z) 1 (EMul (ET 1 [m; (0 + z); (1 + z); (2 + z)]) (ET 24 [a; (1 + z); (2 + z); i; j; (0 + z)])))))).
Definition r_ccsdt_I2A_vooo_2 (z a m i j : nat) : ex := (EAdd (r_ccsdt_I2A_vooo_1 (0 + z) a m i j) (EAdd (r_ccsdt_H_aa_vooo (0 + z) a m i j) (ESum (0 + z) 2 (ESum (1 + z) 1 (ESum (2 + z) 3 (EMul (ET 3 [m; (0 + z); (1 + z); (2 + z)]) (ET 25 [a; (1 + z); (2 + z); i; j; (0 + z)]))))))).
Definition r_ccsdt_I2A_vooo_3 (z a m i j : nat) : ex := (ESub (r_ccsdt_I2A_vooo_2 (0 + z) a m i j) (ESum (0 + z) 1 (EMul (r_ccsdt_X_a_ov (1 + z) m (0 + z)) (ET 10 [a; (0 + z); i; j])))).
Definition r_ccsdt_dT_aaa (z a b c i j k : nat) : ex := (EScale (-1) 4 (ESum (0 + z) 0 (EMul (r_ccsdt_I2A_vooo_3 (1 + z) a (0 + z) i j) (ET 10 [b; c; (0 + z); k])))).
Definition r_ccsdt_dT_aaa_1 (z a b c i j k : nat) : ex := (EAdd (r_ccsdt_dT_aaa (0 + z) a b c i j k) (EScale (1) 4 (ESum (0 + z) 1 (EMul (r_ccsdt_I2A_vvov_2 (1 + z) a b i (0 + z)) (ET 10 [(0 + z); c; j; k]))))).
Definition r_ccsdt_dT_aaa_2 (z a b c i j k : nat) : ex := (ESub (r_ccsdt_dT_aaa_1 (0 + z) a b c i j k) (EScale (1) 12 (ESum (0 + z) 0 (EMul (r_ccsdt_X_a_oo (1 + z) (0 + z) k) (ET 24 [a; b; c; i; j; (0 + z)]))))).
Definition r_ccsdt_dT_aaa_3 (z a b c i j k : nat) : ex := (EAdd (r_ccsdt_dT_aaa_2 (0 + z) a b c i j k) (EScale (1) 12 (ESum (0 + z) 1 (EMul (r_ccsdt_X_a_vv_1 (1 + z) c (0 + z)) (ET 24 [a; b; (0 + z); i; j; k]))))).
Definition r_ccsdt_dT_aaa_4 (z a b c i j k : nat) : ex := (EAdd (r_ccsdt_dT_aaa_3 (0 + z) a b c i j k) (EScale (1) 24 (ESum (0 + z) 0 (ESum (1 + z) 0 (EMul (r_ccsdt_H_aa_oooo_1 (2 + z) (0 + z) (1 + z) i j) (ET 24 [a; b; c; (0 + z); (1 + z); k])))))).
Definition r_ccsdt_dT_aaa_5 (z a b c i j k : nat) : ex := (EAdd (r_ccsdt_dT_aaa_4 (0 + z) a b c i j k) (EScale (1) 24 (ESum (0 + z) 1 (ESum (1 + z) 1 (EMul (r_ccsdt_H_aa_vvvv_1 (2 + z) a b (0 + z) (1 + z)) (ET 24 [(0 + z); (1 + z); c; i; j; k])))))).
Definition r_ccsdt_dT_aaa_6 (z a b c i j k : nat) : ex := (EAdd (r_ccsdt_dT_aaa_5 (0 + z) a b c i j k) (EScale (1) 4 (ESum (0 + z) 0 (ESum (1 + z) 1 (EMul (r_ccsdt_H_aa_voov (2 + z) c (0 + z) k (1 + z)) (ET 24 [a; b; (1 + z); i; j; (0 + z)])))))).
Definition r_ccsdt_dT_aaa_7 (z a b c i j k : nat) : ex := (EAdd (r_ccsdt_dT_aaa_6 (0 + z) a b c i j k) (EScale (1) 4 (ESum (0 + z) 2 (ESum (1 + z) 3 (EMul (r_ccsdt_H_ab_voov (2 + z) c (0 + z) k (1 + z)) (ET 25 [a; b; (1 + z); i; j; (0 + z)])))))).
Definition r_ccsdt_res_aaa (z a b c i j k : nat) : ex := (r_ccsdt_dT_aaa_7 (0 + z) a b c i j k).
Definition r_ccsdt_I2A_vvov_3 (z a b i e : nat) : ex := (EScale (-1) 2 (ESum (0 + z) 0 (ESum (1 + z) 0 (ESum (2 + z) 1 (EMul (ET 1 [(0 + z); (1 + z); e; (2 + z)]) (ET 24 [a; b; (2 + z); i; (0 + z); (1 + z)])))))).
Definition r_ccsdt_I2A_vvov_4 (z a b i e : nat) : ex := (EAdd (r_ccsdt_I2A_vvov_3 (0 + z) a b i e) (EOpp (ESum (0 + z) 0 (ESum (1 + z) 2 (ESum (2 + z) 3 (EMul (ET 3 [(0 + z); (1 + z); e; (2 + z)]) (ET 25 [a; b; (2 + z); i; (0 + z); (1 + z)]))))))).
Definition r_ccsdt_I2A_vvov_5 (z a b i e : nat) : ex := (EAdd (r_ccsdt_I2A_vvov_4 (0 + z) a b i e) (r_ccsdt_H_aa_vvov_1 (0 + z) a b i e)).
Definition r_ccsdt_I2A_vooo_4 (z a m i j : nat) : ex := (EScale (1) 2 (ESum (0 + z) 0 (ESum (1 + z) 1 (ESum (2 + z) 1 (EMul (ET 1 [m; (0 + z); (1 + z); (2 + z)]) (ET 24 [a; (1 + z); (2 + z); i; j; (0 + z)])))))).
Definition r_ccsdt_I2A_vooo_5 (z a m i j : nat) : ex := (EAdd (r_ccsdt_I2A_vooo_4 (0 + z) a m i j) (ESum (0 + z) 2 (ESum (1 + z) 1 (ESum (2 + z) 3 (EMul (ET 3 [m; (0 + z); (1 + z); (2 + z)]) (ET 25 [a; (1 + z); (2 + z); i; j; (0 + z)])))))).
Definition r_ccsdt_I2A_vooo_6 (z a m i j : nat) : ex := (EAdd (r_ccsdt_I2A_vooo_5 (0 + z) a m i j) (EOpp (ESum (0 + z) 1 (EMul (r_ccsdt_X_a_ov (1 + z) m (0 + z)) (ET 10 [a; (0 + z); i; j]))))).
Definition r_ccsdt_I2A_vooo_7 (z a m i j : nat) : ex := (EAdd (r_ccsdt_I2A_vooo_6 (0 + z) a m i j) (r_ccsdt_H_aa_vooo (0 + z) a m i j)).
Definition r_ccsdt_I2B_vvvo (z a b e j : nat) : ex := (EScale (-1) 2 (ESum (0 + z) 0 (ESum (1 + z) 0 (ESum (2 + z) 1 (EMul (ET 1 [(0 + z); (1 + z); e; (2 + z)]) (ET 25 [a; (2 + z); b; (0 + z); (1 + z); j])))))).
Definition r_ccsdt_I2B_vvvo_1 (z a b e j : nat) : ex := (EAdd (r_ccsdt_I2B_vvvo (0 + z) a b e j) (EOpp (ESum (0 + z) 0 (ESum (1 + z) 2 (ESum (2 + z) 3 (EMul (ET 3 [(0 + z); (1 + z); e; (2 + z)]) (ET 26 [a; (2 + z); b; (0 + z); (1 + z); j]))))))).
Definition r_ccsdt_I2B_vvvo_2 (z a b e j : nat) : ex := (EAdd (r_ccsdt_I2B_vvvo_1 (0 + z) a b e j) (r_ccsdt_H_ab_vvvo (0 + z) a b e j)).
Definition r_ccsdt_I2B_ovoo_1 (z m b i j : nat) : ex := (EScale (1) 2 (ESum (0 + z) 0 (ESum (1 + z) 1 (ESum (2 + z) 1 (EMul (ET 1 [m; (0 + z); (1 + z); (2 + z)]) (ET 25 [(1 + z); (2 + z); b; i; (0 + z); j])))))).
Definition r_ccsdt_I2B_ovoo_2 (z m b i j : nat) : ex := (EAdd (r_ccsdt_I2B_ovoo_1 (0 + z) m b i j) (ESum (0 + z) 2 (ESum (1 + z) 1 (ESum (2 + z) 3 (EMul (ET 3 [m; (0 + z); (1 + z); (2 + z)]) (ET 26 [(1 + z); (2 + z); b; i; (0 + z); j])))))).
Definition r_ccsdt_I2B_ovoo_3 (z m b i j : nat) : ex := (EAdd (r_ccsdt_I2B_ovoo_2 (0 + z) m b i j) (EOpp (ESum (0 + z) 1 (EMul (r_ccsdt_X_a_ov (1 + z) m (0 + z)) (ET 11 [(0 + z); b; i; j]))))).
Definition r_ccsdt_I2B_ovoo_4 (z m b i j : nat) : ex := (EAdd (r_ccsdt_I2B_ovoo_3 (0 + z) m b i j) (r_ccsdt_H_ab_ovoo (0 + z) m b i j)).
Definition r_ccsdt_I2B_vvov (z a b i e : nat) : ex := (EOpp (ESum (0 + z) 0 (ESum (1 + z) 2 (ESum (2 + z) 1 (EMul (ET 3 [(0 + z); (1 + z); (2 + z); e]) (ET 25 [a; (2 + z); b; i; (0 + z); (1 + z)])))))).
Definition r_ccsdt_I2B_vvov_1 (z a b i e : nat) : ex := (EAdd (r_ccsdt_I2B_vvov (0 + z) a b i e) (EScale (-1) 2 (ESum (0 + z) 2 (ESum (1 + z) 2 (ESum (2 + z) 3 (EMul (ET 6 [(0 + z); (1 + z); (2 + z); e]) (ET 26 [a; (2 + z); b; i; (0 + z); (1 + z)]))))))).
Definition r_ccsdt_I2B_vvov_2 (z a b i e : nat) : ex := (EAdd (r_ccsdt_I2B_vvov_1 (0 + z) a b i e) (r_ccsdt_H_ab_vvov (0 + z) a b i e)).
Definition r_ccsdt_I2B_vooo_1 (z a m i j : nat) : ex := (ESum (0 + z) 0 (ESum (1 + z) 1 (ESum (2 + z) 3 (EMul (ET 3 [(0 + z); m; (1 + z); (2 + z)]) (ET 25 [a; (1 + z); (2 + z); i; (0 + z); j]))))).
Definition r_ccsdt_I2B_vooo_2 (z a m i j : nat) : ex := (EAdd (r_ccsdt_I2B_vooo_1 (0 + z) a m i j) (EScale (1) 2 (ESum (0 + z) 2 (ESum (1 + z) 3 (ESum (2 + z) 3 (EMul (ET 6 [(0 + z); m; (1 + z); (2 + z)]) (ET 26 [a; (1 + z); (2 + z); i; (0 + z); j]))))))).
Definition r_ccsdt_I2B_vooo_3 (z a m i j : nat) : ex := (EAdd (r_ccsdt_I2B_vooo_2 (0 + z) a m i j) (EOpp (ESum (0 + z) 3 (EMul (r_ccsdt_X_b_ov (1 + z) m (0 + z)) (ET 11 [a; (0 + z); i; j]))))).
Definition r_ccsdt_I2B_vooo_4 (z a m i j : nat) : ex := (EAdd (r_ccsdt_I2B_vooo_3 (0 + z) a m i j) (r_ccsdt_H_ab_vooo (0 + z) a m i j)).
Definition r_ccsdt_dT_aab (z a b c i j k : nat) : ex := (EScale (1) 2 (ESum (0 + z) 1 (EMul (r_ccsdt_I2B_vvvo_2 (1 + z) b c (0 + z) k) (ET 10 [a; (0 + z); i; j])))).
Definition r_ccsdt_dT_aab_1 (z a b c i j k : nat) : ex := (ESub (r_ccsdt_dT_aab (0 + z) a b c i j k) (EScale (1) 2 (ESum (0 + z) 0 (EMul (r_ccsdt_I2B_ovoo_4 (1 + z) (0 + z) c j k) (ET 10 [a; b; i; (0 + z)]))))).
Definition r_ccsdt_dT_aab_2 (z a b c i j k : nat) : ex := (EAdd (r_ccsdt_dT_aab_1 (0 + z) a b c i j k) (ESum (0 + z) 3 (EMul (r_ccsdt_I2B_vvov_2 (1 + z) a c i (0 + z)) (ET 11 [b; (0 + z); j; k])))).
Definition r_ccsdt_dT_aab_3 (z a b c i j k : nat) : ex := (ESub (r_ccsdt_dT_aab_2 (0 + z) a b c i j k) (ESum (0 + z) 2 (EMul (r_ccsdt_I2B_vooo_4 (1 + z) a (0 + z) i k) (ET 11 [b; c; j; (0 + z)])))).
Definition r_ccsdt_dT_aab_4 (z a b c i j k : nat) : ex := (EAdd (r_ccsdt_dT_aab_3 (0 + z) a b c i j k) (EScale (1) 2 (ESum (0 + z) 1 (EMul (r_ccsdt_I2A_vvov_5 (1 + z) a b i (0 + z)) (ET 11 [(0 + z); c; j; k]))))).
Definition r_ccsdt_dT_aab_5 (z a b c i j k : nat) : ex := (ESub (r_ccsdt_dT_aab_4 (0 + z) a b c i j k) (EScale (1) 2 (ESum (0 + z) 0 (EMul (r_ccsdt_I2A_vooo_7 (1 + z) a (0 + z) i j) (ET 11 [b; c; (0 + z); k]))))).
Definition r_ccsdt_dT_aab_6 (z a b c i j k : nat) : ex := (ESub (r_ccsdt_dT_aab_5 (0 + z) a b c i j k) (EScale (1) 2 (ESum (0 + z) 0 (EMul (r_ccsdt_X_a_oo (1 + z) (0 + z) i) (ET 25 [a; b; c; (0 + z); j; k]))))).
Definition r_ccsdt_dT_aab_7 (z a b c i j k : nat) : ex := (ESub (r_ccsdt_dT_aab_6 (0 + z) a b c i j k) (EScale (1) 4 (ESum (0 + z) 2 (EMul (r_ccsdt_X_b_oo (1 + z) (0 + z) k) (ET 25 [a; b; c; i; j; (0 + z)]))))).
Definition r_ccsdt_dT_aab_8 (z a b c i j k : nat) : ex := (EAdd (r_ccsdt_dT_aab_7 (0 + z) a b c i j k) (EScale (1) 2 (ESum (0 + z) 1 (EMul (r_ccsdt_X_a_vv_1 (1 + z) a (0 + z)) (ET 25 [(0 + z); b; c; i; j; k]))))).
Definition r_ccsdt_dT_aab_9 (z a b c i j k : nat) : ex := (EAdd (r_ccsdt_dT_aab_8 (0 + z) a b c i j k) (EScale (1) 4 (ESum (0 + z) 3 (EMul (r_ccsdt_X_b_vv_1 (1 + z) c (0 + z)) (ET 25 [a; b; (0 + z); i; j; k]))))).
Definition r_ccsdt_dT_aab_10 (z a b c i j k : nat) : ex := (EAdd (r_ccsdt_dT_aab_9 (0 + z) a b c i j k) (EScale (1) 8 (ESum (0 + z) 0 (ESum (1 + z) 0 (EMul (r_ccsdt_H_aa_oooo_1 (2 + z) (0 + z) (1 + z) i j) (ET 25 [a; b; c; (0 + z); (1 + z); k])))))).
Definition r_ccsdt_dT_aab_11 (z a b c i j k : nat) : ex := (EAdd (r_ccsdt_dT_aab_10 (0 + z) a b c i j k) (EScale (1) 2 (ESum (0 + z) 0 (ESum (1 + z) 2 (EMul (r_ccsdt_H_ab_oooo (2 + z) (0 + z) (1 + z) j k) (ET 25 [a; b; c; i; (0 + z); (1 + z)])))))).
Definition r_ccsdt_dT_aab_12 (z a b c i j k : nat) : ex := (EAdd (r_ccsdt_dT_aab_11 (0 + z) a b c i j k) (EScale (1) 8 (ESum (0 + z) 1 (ESum (1 + z) 1 (EMul (r_ccsdt_H_aa_vvvv_1 (2 + z) a b (0 + z) (1 + z)) (ET 25 [(0 + z); (1 + z); c; i; j; k])))))).
Definition r_ccsdt_dT_aab_13 (z a b c i j k : nat) : ex := (EAdd (r_ccsdt_dT_aab_12 (0 + z) a b c i j k) (EScale (1) 2 (ESum (0 + z) 1 (ESum (1 + z) 3 (EMul (r_ccsdt_H_ab_vvvv (2 + z) b c (0 + z) (1 + z)) (ET 25 [a; (0 + z); (1 + z); i; j; k])))))).
Definition r_ccsdt_dT_aab_14 (z a b c i j k : nat) : ex := (EAdd (r_ccsdt_dT_aab_13 (0 + z) a b c i j k) (ESum (0 + z) 0 (ESum (1 + z) 1 (EMul (r_ccsdt_H_aa_voov (2 + z) a (0 + z) i (1 + z)) (ET 25 [(1 + z); b; c; (0 + z); j; k]))))).
Definition r_ccsdt_dT_aab_15 (z a b c i j k : nat) : ex := (EAdd (r_ccsdt_dT_aab_14 (0 + z) a b c i j k) (ESum (0 + z) 2 (ESum (1 + z) 3 (EMul (r_ccsdt_H_ab_voov (2 + z) a (0 + z) i (1 + z)) (ET 26 [b; (1 + z); c; j; (0 + z); k]))))).
Definition r_ccsdt_dT_aab_16 (z a b c i j k : nat) : ex := (EAdd (r_ccsdt_dT_aab_15 (0 + z) a b c i j k) (EScale (1) 4 (ESum (0 + z) 0 (ESum (1 + z) 1 (EMul (r_ccsdt_H_ab_ovvo (2 + z) (0 + z) c (1 + z) k) (ET 24 [a; b; (1 + z); i; j; (0 + z)])))))).
Definition r_ccsdt_dT_aab_17 (z a b c i j k : nat) : ex := (EAdd (r_ccsdt_dT_aab_16 (0 + z) a b c i j k) (EScale (1) 4 (ESum (0 + z) 2 (ESum (1 + z) 3 (EMul (r_ccsdt_H_bb_voov (2 + z) c (0 + z) k (1 + z)) (ET 25 [a; b; (1 + z); i; j; (0 + z)])))))).
Definition r_ccsdt_dT_aab_18 (z a b c i j k : nat) : ex := (ESub (r_ccsdt_dT_aab_17 (0 + z) a b c i j k) (EScale (1) 2 (ESum (0 + z) 2 (ESum (1 + z) 1 (EMul (r_ccsdt_H_ab_vovo (2 + z) a (0 + z) (1 + z) k) (ET 25 [(1 + z); b; c; i; j; (0 + z)])))))).
Definition r_ccsdt_dT_aab_19 (z a b c i j k : nat) : ex := (ESub (r_ccsdt_dT_aab_18 (0 + z) a b c i j k) (EScale (1) 2 (ESum (0 + z) 0 (ESum (1 + z) 3 (EMul (r_ccsdt_H_ab_ovov (2 + z) (0 + z) c i (1 + z)) (ET 25 [a; b; (1 + z); (0 + z); j; k])))))).
Definition r_ccsdt_res_aab (z a b c i j k : nat) : ex := (r_ccsdt_dT_aab_19 (0 + z) a b c i j k).
Definition r_ccsdt_I2B_vvvo_3 (z a b e j : nat) : ex := (EScale (-1) 2 (ESum (0 + z) 0 (ESum (1 + z) 0 (ESum (2 + z) 1 (EMul (ET 1 [(0 + z); (1 + z); e; (2 + z)]) (ET 25 [a; (2 + z); b; (0 + z); (1 + z); j])))))).
Definition r_ccsdt_I2B_vvvo_4 (z a b e j : nat) : ex := (EAdd (r_ccsdt_I2B_vvvo_3 (0 + z) a b e j) (EOpp (ESum (0 + z) 0 (ESum (1 + z) 2 (ESum (2 + z) 3 (EMul (ET 3 [(0 + z); (1 + z); e; (2 + z)]) (ET 26 [a; (2 + z); b; (0 + z); (1 + z); j]))))))).
Definition r_ccsdt_I2B_vvvo_5 (z a b e j : nat) : ex := (EAdd (r_ccsdt_I2B_vvvo_4 (0 + z) a b e j) (r_ccsdt_H_ab_vvvo (0 + z) a b e j)).
Definition r_ccsdt_I2B_ovoo_5 (z m b i j : nat) : ex := (EScale (1) 2 (ESum (0 + z) 0 (ESum (1 + z) 1 (ESum (2 + z) 1 (EMul (ET 1 [m; (0 + z); (1 + z); (2 + z)]) (ET 25 [(1 + z); (2 + z); b; i; (0 + z); j])))))).
Definition r_ccsdt_I2B_ovoo_6 (z m b i j : nat) : ex := (EAdd (r_ccsdt_I2B_ovoo_5 (0 + z) m b i j) (ESum (0 + z) 2 (ESum (1 + z) 1 (ESum (2 + z) 3 (EMul (ET 3 [m; (0 + z); (1 + z); (2 + z)]) (ET 26 [(1 + z); (2 + z); b; i; (0 + z); j])))))).
Definition r_ccsdt_I2B_ovoo_7 (z m b i j : nat) : ex := (ESub (r_ccsdt_I2B_ovoo_6 (0 + z) m b i j) (ESum (0 + z) 1 (EMul (r_ccsdt_X_a_ov (1 + z) m (0 + z)) (ET 11 [(0 + z); b; i; j])))).
Definition r_ccsdt_I2B_ovoo_8 (z m b i j : nat) : ex := (EAdd (r_ccsdt_I2B_ovoo_7 (0 + z) m b i j) (r_ccsdt_H_ab_ovoo (0 + z) m b i j)).
Definition r_ccsdt_I2B_vvov_3 (z a b i e : nat) : ex := (EOpp (ESum (0 + z) 0 (ESum (1 + z) 2 (ESum (2 + z) 1 (EMul (ET 3 [(0 + z); (1 + z); (2 + z); e]) (ET 25 [a; (2 + z); b; i; (0 + z); (1 + z)])))))).
Definition r_ccsdt_I2B_vvov_4 (z a b i e : nat) : ex := (EAdd (r_ccsdt_I2B_vvov_3 (0 + z) a b i e) (EScale (-1) 2 (ESum (0 + z) 2 (ESum (1 + z) 2 (ESum (2 + z) 3 (EMul (ET 6 [(0 + z); (1 + z); (2 + z); e]) (ET 26 [a; (2 + z); b; i; (0 + z); (1 + z)]))))))).
Definition r_ccsdt_I2B_vvov_5 (z a b i e : nat) : ex := (EAdd (r_ccsdt_I2B_vvov_4 (0 + z) a b i e) (r_ccsdt_H_ab_vvov (0 + z) a b i e)).
Definition r_ccsdt_I2B_vooo_5 (z a m i j : nat) : ex := (ESum (0 + z) 0 (ESum (1 + z) 1 (ESum (2 + z) 3 (EMul (ET 3 [(0 + z); m; (1 + z); (2 + z)]) (ET 25 [a; (1 + z); (2 + z); i; (0 + z); j]))))).
Definition r_ccsdt_I2B_vooo_6 (z a m i j : nat) : ex := (EAdd (r_ccsdt_I2B_vooo_5 (0 + z) a m i j) (EScale (1) 2 (ESum (0 + z) 2 (ESum (1 + z) 3 (ESum (2 + z) 3 (EMul (ET 6 [(0 + z); m; (1 + z); (2 + z)]) (ET 26 [a; (1 + z); (2 + z); i; (0 + z); j]))))))).
Definition r_ccsdt_I2B_vooo_7 (z a m i j : nat) : ex := (ESub (r_ccsdt_I2B_vooo_6 (0 + z) a m i j) (ESum (0 + z) 3 (EMul (r_ccsdt_X_b_ov (1 + z) m (0 + z)) (ET 11 [a; (0 + z); i; j])))).
Definition r_ccsdt_I2B_vooo_8 (z a m i j : nat) : ex := (EAdd (r_ccsdt_I2B_vooo_7 (0 + z) a m i j) (r_ccsdt_H_ab_vooo (0 + z) a m i j)).
Definition r_ccsdt_I2C_vvov (z a b i e : nat) : ex := (EScale (-1) 2 (ESum (0 + z) 2 (ESum (1 + z) 2 (ESum (2 + z) 3 (EMul (ET 6 [(0 + z); (1 + z); e; (2 + z)]) (ET 30 [a; b; (2 + z); i; (0 + z); (1 + z)])))))).
Definition r_ccsdt_I2C_vvov_1 (z a b i e : nat) : ex := (EAdd (r_ccsdt_I2C_vvov (0 + z) a b i e) (EOpp (ESum (0 + z) 0 (ESum (1 + z) 2 (ESum (2 + z) 1 (EMul (ET 3 [(0 + z); (1 + z); (2 + z); e]) (ET 26 [(2 + z); a; b; (0 + z); i; (1 + z)]))))))).
Definition r_ccsdt_I2C_vvov_2 (z a b i e : nat) : ex := (EAdd (r_ccsdt_I2C_vvov_1 (0 + z) a b i e) (r_ccsdt_H_bb_vvov_1 (0 + z) a b i e)).
Definition r_ccsdt_I2C_vooo_1 (z a m i j : nat) : ex := (ESum (0 + z) 0 (ESum (1 + z) 1 (ESum (2 + z) 3 (EMul (ET 3 [(0 + z); m; (1 + z); (2 + z)]) (ET 26 [(1 + z); a; (2 + z); (0 + z); i; j]))))).
Definition r_ccsdt_I2C_vooo_2 (z a m i j : nat) : ex := (EAdd (r_ccsdt_I2C_vooo_1 (0 + z) a m i j) (EScale (1) 2 (ESum (0 + z) 2 (ESum (1 + z) 3 (ESum (2 + z) 3 (EMul (ET 6 [m; (0 + z); (1 + z); (2 + z)]) (ET 30 [a; (1 + z); (2 + z); i; j; (0 + z)]))))))).
Definition r_ccsdt_I2C_vooo_3 (z a m i j : nat) : ex := (ESub (r_ccsdt_I2C_vooo_2 (0 + z) a m i j) (ESum (0 + z) 3 (EMul (r_ccsdt_X_b_ov (1 + z) m (0 + z)) (ET 18 [a; (0 + z); i; j])))).
Definition r_ccsdt_I2C_vooo_4 (z a m i j : nat) : ex := (EAdd (r_ccsdt_I2C_vooo_3 (0 + z) a m i j) (r_ccsdt_H_bb_vooo (0 + z) a m i j)).
Definition r_ccsdt_dT_abb (z a b c i j k : nat) : ex := (EScale (1) 2 (ESum (0 + z) 3 (EMul (r_ccsdt_I2B_vvov_5 (1 + z) a b i (0 + z)) (ET 18 [(0 + z); c; j; k])))).
Definition r_ccsdt_dT_abb_1 (z a b c i j k : nat) : ex := (ESub (r_ccsdt_dT_abb (0 + z) a b c i j k) (EScale (1) 2 (ESum (0 + z) 2 (EMul (r_ccsdt_I2B_vooo_8 (1 + z) a (0 + z) i j) (ET 18 [b; c; (0 + z); k]))))).
Definition r_ccsdt_dT_abb_2 (z a b c i j k : nat) : ex := (EAdd (r_ccsdt_dT_abb_1 (0 + z) a b c i j k) (EScale (1) 2 (ESum (0 + z) 3 (EMul (r_ccsdt_I2C_vvov_2 (1 + z) c b k (0 + z)) (ET 11 [a; (0 + z); i; j]))))).
Definition r_ccsdt_dT_abb_3 (z a b c i j k : nat) : ex := (ESub (r_ccsdt_dT_abb_2 (0 + z) a b c i j k) (EScale (1) 2 (ESum (0 + z) 2 (EMul (r_ccsdt_I2C_vooo_4 (1 + z) c (0 + z) k j) (ET 11 [a; b; i; (0 + z)]))))).
Definition r_ccsdt_dT_abb_4 (z a b c i j k : nat) : ex := (EAdd (r_ccsdt_dT_abb_3 (0 + z) a b c i j k) (ESum (0 + z) 1 (EMul (r_ccsdt_I2B_vvvo_5 (1 + z) a b (0 + z) j) (ET 11 [(0 + z); c; i; k])))).
Definition r_ccsdt_dT_abb_5 (z a b c i j k : nat) : ex := (ESub (r_ccsdt_dT_abb_4 (0 + z) a b c i j k) (ESum (0 + z) 0 (EMul (r_ccsdt_I2B_ovoo_8 (1 + z) (0 + z) b i j) (ET 11 [a; c; (0 + z); k])))).
Definition r_ccsdt_dT_abb_6 (z a b c i j k : nat) : ex := (ESub (r_ccsdt_dT_abb_5 (0 + z) a b c i j k) (EScale (1) 4 (ESum (0 + z) 0 (EMul (r_ccsdt_X_a_oo (1 + z) (0 + z) i) (ET 26 [a; b; c; (0 + z); j; k]))))).
Definition r_ccsdt_dT_abb_7 (z a b c i j k : nat) : ex := (ESub (r_ccsdt_dT_abb_6 (0 + z) a b c i j k) (EScale (1) 2 (ESum (0 + z) 2 (EMul (r_ccsdt_X_b_oo (1 + z) (0 + z) j) (ET 26 [a; b; c; i; (0 + z); k]))))).
Definition r_ccsdt_dT_abb_8 (z a b c i j k : nat) : ex := (EAdd (r_ccsdt_dT_abb_7 (0 + z) a b c i j k) (EScale (1) 4 (ESum (0 + z) 1 (EMul (r_ccsdt_X_a_vv_1 (1 + z) a (0 + z)) (ET 26 [(0 + z); b; c; i; j; k]))))).
Definition r_ccsdt_dT_abb_9 (z a b c i j k : nat) : ex := (EAdd (r_ccsdt_dT_abb_8 (0 + z) a b c i j k) (EScale (1) 2 (ESum (0 + z) 3 (EMul (r_ccsdt_X_b_vv_1 (1 + z) b (0 + z)) (ET 26 [a; (0 + z); c; i; j; k]))))).
Definition r_ccsdt_dT_abb_10 (z a b c i j k : nat) : ex := (EAdd (r_ccsdt_dT_abb_9 (0 + z) a b c i j k) (EScale (1) 8 (ESum (0 + z) 2 (ESum (1 + z) 2 (EMul (r_ccsdt_H_bb_oooo_1 (2 + z) (0 + z) (1 + z) j k) (ET 26 [a; b; c; i; (0 + z); (1 + z)])))))).
Definition r_ccsdt_dT_abb_11 (z a b c i j k : nat) : ex := (EAdd (r_ccsdt_dT_abb_10 (0 + z) a b c i j k) (EScale (1) 2 (ESum (0 + z) 0 (ESum (1 + z) 2 (EMul (r_ccsdt_H_ab_oooo (2 + z) (0 + z) (1 + z) i j) (ET 26 [a; b; c; (0 + z); (1 + z); k])))))).
Definition r_ccsdt_dT_abb_12 (z a b c i j k : nat) : ex := (EAdd (r_ccsdt_dT_abb_11 (0 + z) a b c i j k) (EScale (1) 8 (ESum (0 + z) 3 (ESum (1 + z) 3 (EMul (r_ccsdt_H_bb_vvvv_1 (2 + z) b c (0 + z) (1 + z)) (ET 26 [a; (0 + z); (1 + z); i; j; k])))))).
Definition r_ccsdt_dT_abb_13 (z a b c i j k : nat) : ex := (EAdd (r_ccsdt_dT_abb_12 (0 + z) a b c i j k) (EScale (1) 2 (ESum (0 + z) 1 (ESum (1 + z) 3 (EMul (r_ccsdt_H_ab_vvvv (2 + z) a b (0 + z) (1 + z)) (ET 26 [(0 + z); (1 + z); c; i; j; k])))))).
Definition r_ccsdt_dT_abb_14 (z a b c i j k : nat) : ex := (EAdd (r_ccsdt_dT_abb_13 (0 + z) a b c i j k) (EScale (1) 4 (ESum (0 + z) 0 (ESum (1 + z) 1 (EMul (r_ccsdt_H_aa_voov (2 + z) a (0 + z) i (1 + z)) (ET 26 [(1 + z); b; c; (0 + z); j; k])))))).
Definition r_ccsdt_dT_abb_15 (z a b c i j k : nat) : ex := (EAdd (r_ccsdt_dT_abb_14 (0 + z) a b c i j k) (EScale (1) 4 (ESum (0 + z) 2 (ESum (1 + z) 3 (EMul (r_ccsdt_H_ab_voov (2 + z) a (0 + z) i (1 + z)) (ET 30 [(1 + z); b; c; (0 + z); j; k])))))).
Definition r_ccsdt_dT_abb_16 (z a b c i j k : nat) : ex := (EAdd (r_ccsdt_dT_abb_15 (0 + z) a b c i j k) (ESum (0 + z) 0 (ESum (1 + z) 1 (EMul (r_ccsdt_H_ab_ovvo (2 + z) (0 + z) b (1 + z) j) (ET 25 [a; (1 + z); c; i; (0 + z); k]))))).
Definition r_ccsdt_dT_abb_17 (z a b c i j k : nat) : ex := (EAdd (r_ccsdt_dT_abb_16 (0 + z) a b c i j k) (ESum (0 + z) 2 (ESum (1 + z) 3 (EMul (r_ccsdt_H_bb_voov (2 + z) b (0 + z) j (1 + z)) (ET 26 [a; (1 + z); c; i; (0 + z); k]))))).
Definition r_ccsdt_dT_abb_18 (z a b c i j k : nat) : ex := (ESub (r_ccsdt_dT_abb_17 (0 + z) a b c i j k) (EScale (1) 2 (ESum (0 + z) 0 (ESum (1 + z) 3 (EMul (r_ccsdt_H_ab_ovov (2 + z) (0 + z) b i (1 + z)) (ET 26 [a; (1 + z); c; (0 + z); j; k])))))).
Definition r_ccsdt_dT_abb_19 (z a b c i j k : nat) : ex := (ESub (r_ccsdt_dT_abb_18 (0 + z) a b c i j k) (EScale (1) 2 (ESum (0 + z) 2 (ESum (1 + z) 1 (EMul (r_ccsdt_H_ab_vovo (2 + z) a (0 + z) (1 + z) j) (ET 26 [(1 + z); b; c; i; (0 + z); k])))))).
Definition r_ccsdt_res_abb (z a b c i j k : nat) : ex := (r_ccsdt_dT_abb_19 (0 + z) a b c i j k).
Definition r_ccsdt_I2C_vvov_3 (z a b i e : nat) : ex := (EScale (-1) 2 (ESum (0 + z) 2 (ESum (1 + z) 2 (ESum (2 + z) 3 (EMul (ET 6 [(0 + z); (1 + z); e; (2 + z)]) (ET 30 [a; b; (2 + z); i; (0 + z); (1 + z)])))))).
Definition r_ccsdt_I2C_vvov_4 (z a b i e : nat) : ex := (ESub (r_ccsdt_I2C_vvov_3 (0 + z) a b i e) (ESum (0 + z) 0 (ESum (1 + z) 2 (ESum (2 + z) 1 (EMul (ET 3 [(0 + z); (1 + z); (2 + z); e]) (ET 26 [(2 + z); a; b; (0 + z); i; (1 + z)])))))).
Definition r_ccsdt_I2C_vvov_5 (z a b i e : nat) : ex := (EAdd (r_ccsdt_I2C_vvov_4 (0 + z) a b i e) (r_ccsdt_H_bb_vvov_1 (0 + z) a b i e)).
Definition r_ccsdt_I2C_vooo_5 (z a m i j : nat) : ex := (EScale (1) 2 (ESum (0 + z) 2 (ESum (1 + z) 3 (ESum (2 + z) 3 (EMul (ET 6 [m; (0 + z); (1 + z); (2 + z)]) (ET 30 [a; (1 + z); (2 + z); i; j; (0 + z)])))))).
Definition r_ccsdt_I2C_vooo_6 (z a m i j : nat) : ex := (EAdd (r_ccsdt_I2C_vooo_5 (0 + z) a m i j) (ESum (0 + z) 0 (ESum (1 + z) 1 (ESum (2 + z) 3 (EMul (ET 3 [(0 + z); m; (1 + z); (2 + z)]) (ET 26 [(1 + z); a; (2 + z); (0 + z); i; j])))))).
Definition r_ccsdt_I2C_vooo_7 (z a m i j : nat) : ex := (ESub (r_ccsdt_I2C_vooo_6 (0 + z) a m i j) (ESum (0 + z) 3 (EMul (r_ccsdt_X_b_ov (1 + z) m (0 + z)) (ET 18 [a; (0 + z); i; j])))).
Definition r_ccsdt_I2C_vooo_8 (z a m i j : nat) : ex := (EAdd (r_ccsdt_I2C_vooo_7 (0 + z) a m i j) (r_ccsdt_H_bb_vooo (0 + z) a m i j)).
Definition r_ccsdt_dT_bbb (z a b c i j k : nat) : ex := (EScale (-1) 4 (ESum (0 + z) 2 (EMul (r_ccsdt_I2C_vooo_8 (1 + z) a (0 + z) i j) (ET 18 [b; c; (0 + z); k])))).
Definition r_ccsdt_dT_bbb_1 (z a b c i j k : nat) : ex := (EAdd (r_ccsdt_dT_bbb (0 + z) a b c i j k) (EScale (1) 4 (ESum (0 + z) 3 (EMul (r_ccsdt_I2C_vvov_5 (1 + z) a b i (0 + z)) (ET 18 [(0 + z); c; j; k]))))).
Definition r_ccsdt_dT_bbb_2 (z a b c i j k : nat) : ex := (ESub (r_ccsdt_dT_bbb_1 (0 + z) a b c i j k) (EScale (1) 12 (ESum (0 + z) 2 (EMul (r_ccsdt_X_b_oo (1 + z) (0 + z) k) (ET 30 [a; b; c; i; j; (0 + z)]))))).
Definition r_ccsdt_dT_bbb_3 (z a b c i j k : nat) : ex := (EAdd (r_ccsdt_dT_bbb_2 (0 + z) a b c i j k) (EScale (1) 12 (ESum (0 + z) 3 (EMul (r_ccsdt_X_b_vv_1 (1 + z) c (0 + z)) (ET 30 [a; b; (0 + z); i; j; k]))))).
Definition r_ccsdt_dT_bbb_4 (z a b c i j k : nat) : ex := (EAdd (r_ccsdt_dT_bbb_3 (0 + z) a b c i j k) (EScale (1) 24 (ESum (0 + z) 2 (ESum (1 + z) 2 (EMul (r_ccsdt_H_bb_oooo_1 (2 + z) (0 + z) (1 + z) i j) (ET 30 [a; b; c; (0 + z); (1 + z); k])))))).
Definition r_ccsdt_dT_bbb_5 (z a b c i j k : nat) : ex := (EAdd (r_ccsdt_dT_bbb_4 (0 + z) a b c i j k) (EScale (1) 24 (ESum (0 + z) 3 (ESum (1 + z) 3 (EMul (r_ccsdt_H_bb_vvvv_1 (2 + z) a b (0 + z) (1 + z)) (ET 30 [(0 + z); (1 + z); c; i; j; k])))))).
Definition r_ccsdt_dT_bbb_6 (z a b c i j k : nat) : ex := (EAdd (r_ccsdt_dT_bbb_5 (0 + z) a b c i j k) (EScale (1) 4 (ESum (0 + z) 0 (ESum (1 + z) 1 (EMul (r_ccsdt_H_ab_ovvo (2 + z) (0 + z) a (1 + z) i) (ET 26 [(1 + z); b; c; (0 + z); j; k])))))).
Definition r_ccsdt_dT_bbb_7 (z a b c i j k : nat) : ex := (EAdd (r_ccsdt_dT_bbb_6 (0 + z) a b c i j k) (EScale (1) 4 (ESum (0 + z) 2 (ESum (1 + z) 3 (EMul (r_ccsdt_H_bb_voov (2 + z) a (0 + z) i (1 + z)) (ET 30 [(1 + z); b; c; (0 + z); j; k])))))).
Definition r_ccsdt_res_bbb (z a b c i j k : nat) : ex := (r_ccsdt_dT_bbb_7 (0 + z) a b c i j k).
Definition r_hb3_H_a_ov (z i a : nat) : ex := (EAdd (ET 0 [i; a]) (EAdd (ESum (0 + z) 0 (ESum (1 + z) 1 (EMul (ET 1 [i; (0 + z); a; (1 + z)]) (ET 2 [(1 + z); (0 + z)])))) (ESum (0 + z) 2 (ESum (1 + z) 3 (EMul (ET 3 [i; (0 + z); a; (1 + z)]) (ET 4 [(1 + z); (0 + z)])))))).
Definition r_hb3_H_a_oo (z i j : nat) : ex := (EAdd (ET 12 [i; j]) (EAdd (EAdd (EAdd (EAdd (ESum (0 + z) 1 (EMul (r_hb3_H_a_ov (1 + z) i (0 + z)) (ET 2 [(0 + z); j]))) (ESum (0 + z) 0 (ESum (1 + z) 1 (EMul (ET 13 [i; (0 + z); j; (1 + z)]) (ET 2 [(1 + z); (0 + z)]))))) (ESum (0 + z) 2 (ESum (1 + z) 3 (EMul (ET 14 [i; (0 + z); j; (1 + z)]) (ET 4 [(1 + z); (0 + z)]))))) (EScale (1) 2 (ESum (0 + z) 0 (ESum (1 + z) 1 (ESum (2 + z) 1 (EMul (ET 1 [i; (0 + z); (1 + z); (2 + z)]) (ET 10 [(1 + z); (2 + z); j; (0 + z)]))))))) (ESum (0 + z) 2 (ESum (1 + z) 1 (ESum (2 + z) 3 (EMul (ET 3 [i; (0 + z); (1 + z); (2 + z)]) (ET 11 [(1 + z); (2 + z); j; (0 + z)]))))))).
Definition r_hb3_H_a_vv (z a b : nat) : ex := (EAdd (ET 7 [a; b]) (ESub (ESub (EAdd (EAdd (EOpp (ESum (0 + z) 0 (EMul (r_hb3_H_a_ov (1 + z) (0 + z) b) (ET 2 [a; (0 + z)])))) (ESum (0 + z) 0 (ESum (1 + z) 1 (EMul (ET 8 [a; (0 + z); b; (1 + z)]) (ET 2 [(1 + z); (0 + z)]))))) (ESum (0 + z) 2 (ESum (1 + z) 3 (EMul (ET 9 [a; (0 + z); b; (1 + z)]) (ET 4 [(1 + z); (0 + z)]))))) (EScale (1) 2 (ESum (0 + z) 0 (ESum (1 + z) 0 (ESum (2 + z) 1 (EMul (ET 1 [(0 + z); (1 + z); b; (2 + z)]) (ET 10 [a; (2 + z); (0 + z); (1 + z)]))))))) (ESum (0 + z) 0 (ESum (1 + z) 2 (ESum (2 + z) 3 (EMul (ET 3 [(0 + z); (1 + z); b; (2 + z)]) (ET 11 [a; (2 + z); (0 + z); (1 + z)]))))))).
Definition r_hb3_H_b_ov (z i a : nat) : ex := (EAdd (ET 5 [i; a]) (EAdd (ESum (0 + z) 2 (ESum (1 + z) 3 (EMul (ET 6 [i; (0 + z); a; (1 + z)]) (ET 4 [(1 + z); (0 + z)])))) (ESum (0 + z) 0 (ESum (1 + z) 1 (EMul (ET 3 [(0 + z); i; (1 + z); a]) (ET 2 [(1 + z); (0 + z)])))))).
Definition r_hb3_H_b_oo (z i j : nat) : ex := (EAdd (ET 19 [i; j]) (EAdd (EAdd (EAdd (EAdd (ESum (0 + z) 3 (EMul (r_hb3_H_b_ov (1 + z) i (0 + z)) (ET 4 [(0 + z); j]))) (ESum (0 + z) 2 (ESum (1 + z) 3 (EMul (ET 20 [i; (0 + z); j; (1 + z)]) (ET 4 [(1 + z); (0 + z)]))))) (ESum (0 + z) 0 (ESum (1 + z) 1 (EMul (ET 21 [(0 + z); i; (1 + z); j]) (ET 2 [(1 + z); (0 + z)]))))) (EScale (1) 2 (ESum (0 + z) 2 (ESum (1 + z) 3 (ESum (2 + z) 3 (EMul (ET 6 [i; (0 + z); (1 + z); (2 + z)]) (ET 18 [(1 + z); (2 + z); j; (0 + z)]))))))) (ESum (0 + z) 0 (ESum (1 + z) 1 (ESum (2 + z) 3 (EMul (ET 3 [(0 + z); i; (1 + z); (2 + z)]) (ET 11 [(1 + z); (2 + z); (0 + z); j]))))))).
Definition r_hb3_H_b_vv (z a b : nat) : ex := (EAdd (ET 15 [a; b]) (ESub (ESub (EAdd (EAdd (EOpp (ESum (0 + z) 2 (EMul (r_hb3_H_b_ov (1 + z) (0 + z) b) (ET 4 [a; (0 + z)])))) (ESum (0 + z) 2 (ESum (1 + z) 3 (EMul (ET 16 [a; (0 + z); b; (1 + z)]) (ET 4 [(1 + z); (0 + z)]))))) (ESum (0 + z) 0 (ESum (1 + z) 1 (EMul (ET 17 [(0 + z); a; (1 + z); b]) (ET 2 [(1 + z); (0 + z)]))))) (EScale (1) 2 (ESum (0 + z) 2 (ESum (1 + z) 2 (ESum (2 + z) 3 (EMul (ET 6 [(0 + z); (1 + z); b; (2 + z)]) (ET 18 [a; (2 + z); (0 + z); (1 + z)]))))))) (ESum (0 + z) 0 (ESum (1 + z) 2 (ESum (2 + z) 1 (EMul (ET 3 [(0 + z); (1 + z); (2 + z); b]) (ET 11 [(2 + z); a; (0 + z); (1 + z)]))))))).
Definition r_hb3_tau_aa (z a b i j : nat) : ex := (EAdd (EScale (1) 2 (ET 10 [a; b; i; j])) (EMul (ET 2 [a; i]) (ET 2 [b; j]))).
Definition r_hb3_tau_aa_1 (z a b i j : nat) : ex := (ESub (r_hb3_tau_aa (0 + z) a b i j) (r_hb3_tau_aa (0 + z) a b j i)).
Definition r_hb3_tau_bb (z a b i j : nat) : ex := (EAdd (EScale (1) 2 (ET 18 [a; b; i; j])) (EMul (ET 4 [a; i]) (ET 4 [b; j]))).
Definition r_hb3_tau_bb_1 (z a b i j : nat) : ex := (ESub (r_hb3_tau_bb (0 + z) a b i j) (r_hb3_tau_bb (0 + z) a b j i)).
Definition r_hb3_tau_ab (z a b i j : nat) : ex := (EAdd (ET 11 [a; b; i; j]) (EMul (ET 2 [a; i]) (ET 4 [b; j]))).
Definition r_hb3_H_aa_oooo (z m n i j : nat) : ex := (EAdd (EAdd (EScale (1) 2 (ET 32 [m; n; i; j])) (ESum (0 + z) 1 (EMul (ET 13 [n; m; j; (0 + z)]) (ET 2 [(0 + z); i])))) (EScale (1) 4 (ESum (0 + z) 1 (ESum (1 + z) 1 (EMul (ET 1 [m; n; (0 + z); (1 + z)]) (r_hb3_tau_aa_1 (2 + z) (0 + z) (1 + z) i j)))))).
Definition r_hb3_H_aa_oooo_1 (z m n i j : nat) : ex := (ESub (r_hb3_H_aa_oooo (0 + z) m n i j) (r_hb3_H_aa_oooo (0 + z) m n j i)).
Definition r_hb3_H_bb_oooo (z m n i j : nat) : ex := (EAdd (EAdd (EScale (1) 2 (ET 35 [m; n; i; j])) (ESum (0 + z) 3 (EMul (ET 20 [n; m; j; (0 + z)]) (ET 4 [(0 + z); i])))) (EScale (1) 4 (ESum (0 + z) 3 (ESum (1 + z) 3 (EMul (ET 6 [m; n; (0 + z); (1 + z)]) (r_hb3_tau_bb_1 (2 + z) (0 + z) (1 + z) i j)))))).
Definition r_hb3_H_bb_oooo_1 (z m n i j : nat) : ex := (ESub (r_hb3_H_bb_oooo (0 + z) m n i j) (r_hb3_H_bb_oooo (0 + z) m n j i)).
Definition r_hb3_H_ab_oooo (z m n i j : nat) : ex := (EAdd (EAdd (EAdd (ET 38 [m; n; i; j]) (ESum (0 + z) 1 (EMul (ET 21 [m; n; (0 + z); j]) (ET 2 [(0 + z); i])))) (ESum (0 + z) 3 (EMul (ET 14 [m; n; i; (0 + z)]) (ET 4 [(0 + z); j])))) (ESum (0 + z) 1 (ESum (1 + z) 3 (EMul (ET 3 [m; n; (0 + z); (1 + z)]) (r_hb3_tau_ab (2 + z) (0 + z) (1 + z) i j))))).
Definition r_hb3_H_aa_ooov (z i j k a : nat) : ex := (EAdd (ET 13 [i; j; k; a]) (ESum (0 + z) 1 (EMul (ET 1 [i; j; (0 + z); a]) (ET 2 [(0 + z); k])))).
Definition r_hb3_H_bb_ooov (z i j k a : nat) : ex := (EAdd (ET 20 [i; j; k; a]) (ESum (0 + z) 3 (EMul (ET 6 [i; j; (0 + z); a]) (ET 4 [(0 + z); k])))).
Definition r_hb3_H_ab_ooov (z i j k a : nat) : ex := (EAdd (ET 14 [i; j; k; a]) (ESum (0 + z) 1 (EMul (ET 3 [i; j; (0 + z); a]) (ET 2 [(0 + z); k])))).
Definition r_hb3_H_ab_oovo (z i j a k : nat) : ex := (EAdd (ET 21 [i; j; a; k]) (ESum (0 + z) 3 (EMul (ET 3 [i; j; a; (0 + z)]) (ET 4 [(0 + z); k])))).
Definition r_hb3_Q1 (z a m i j : nat) : ex := (EAdd (ESum (0 + z) 0 (ESum (1 + z) 1 (EMul (r_hb3_H_aa_ooov (2 + z) m (0 + z) j (1 + z)) (ET 10 [a; (1 + z); i; (0 + z)])))) (ESum (0 + z) 2 (ESum (1 + z) 3 (EMul (r_hb3_H_ab_ooov (2 + z) m (0 + z) j (1 + z)) (ET 11 [a; (1 + z); i; (0 + z)]))))).
Definition r_hb3_Q2 (z a m i f : nat) : ex := (EAdd (ET 22 [a; m; i; f]) (EScale (1) 2 (ESum (0 + z) 1 (EMul (ET 8 [a; m; (0 + z); f]) (ET 2 [(0 + z); i]))))).
Definition r_hb3_Q2_1 (z a m i j : nat) : ex := (ESum (0 + z) 1 (EMul (r_hb3_Q2 (1 + z) a m i (0 + z)) (ET 2 [(0 + z); j]))).
Definition r_hb3_Q1_1 (z a m i j : nat) : ex := (EAdd (r_hb3_Q1 (0 + z) a m i j) (r_hb3_Q2_1 (0 + z) a m i j)).
Definition r_hb3_Q1_2 (z a m i j : nat) : ex := (ESub (r_hb3_Q1_1 (0 + z) a m i j) (r_hb3_Q1_1 (0 + z) a m j i)).
Definition r_hb3_H_aa_vooo (z a m i j : nat) : ex := (EAdd (EAdd (ET 33 [a; m; i; j]) (r_hb3_Q1_2 (0 + z) a m i j)) (EAdd (EAdd (EAdd (ESub (ESum (0 + z) 1 (EMul (r_hb3_H_a_ov (1 + z) m (0 + z)) (ET 10 [a; (0 + z); i; j]))) (ESum (0 + z) 0 (EMul (r_hb3_H_aa_oooo_1 (1 + z) (0 + z) m i j) (ET 2 [a; (0 + z)])))) (EScale (1) 2 (ESum (0 + z) 1 (ESum (1 + z) 1 (EMul (ET 8 [a; m; (0 + z); (1 + z)]) (ET 10 [(0 + z); (1 + z); i; j])))))) (EScale (1) 2 (ESum (0 + z) 0 (ESum (1 + z) 1 (ESum (2 + z) 1 (EMul (ET 1 [m; (0 + z); (1 + z); (2 + z)]) (ET 24 [a; (1 + z); (2 + z); i; j; (0 + z)]))))))) (ESum (0 + z) 2 (ESum (1 + z) 1 (ESum (2 + z) 3 (EMul (ET 3 [m; (0 + z); (1 + z); (2 + z)]) (ET 25 [a; (1 + z); (2 + z); i; j; (0 + z)]))))))).
Definition r_hb3_Q1_3 (z a m i j : nat) : ex := (EAdd (ESum (0 + z) 2 (ESum (1 + z) 3 (EMul (r_hb3_H_bb_ooov (2 + z) m (0 + z) j (1 + z)) (ET 18 [a; (1 + z); i; (0 + z)])))) (ESum (0 + z) 0 (ESum (1 + z) 1 (EMul (r_hb3_H_ab_oovo (2 + z) (0 + z) m (1 + z) j) (ET 11 [(1 + z); a; (0 + z); i]))))).
Definition r_hb3_Q2_2 (z a m i f : nat) : ex := (EAdd (ET 28 [a; m; i; f]) (EScale (1) 2 (ESum (0 + z) 3 (EMul (ET 16 [a; m; (0 + z); f]) (ET 4 [(0 + z); i]))))).
Definition r_hb3_Q2_3 (z a m i j : nat) : ex := (ESum (0 + z) 3 (EMul (r_hb3_Q2_2 (1 + z) a m i (0 + z)) (ET 4 [(0 + z); j]))).
Definition r_hb3_Q1_4 (z a m i j : nat) : ex := (EAdd (r_hb3_Q1_3 (0 + z) a m i j) (r_hb3_Q2_3 (0 + z) a m i j)).
Definition r_hb3_Q1_5 (z a m i j : nat) : ex := (ESub (r_hb3_Q1_4 (0 + z) a m i j) (r_hb3_Q1_4 (0 + z) a m j i)).
Definition r_hb3_H_bb_vooo (z a m i j : nat) : ex := (EAdd (EAdd (ET 36 [a; m; i; j]) (r_hb3_Q1_5 (0 + z) a m i j)) (EAdd (EAdd (EAdd (ESub (ESum (0 + z) 3 (EMul (r_hb3_H_b_ov (1 + z) m (0 + z)) (ET 18 [a; (0 + z); i; j]))) (ESum (0 + z) 2 (EMul (r_hb3_H_bb_oooo_1 (1 + z) (0 + z) m i j) (ET 4 [a; (0 + z)])))) (EScale (1) 2 (ESum (0 + z) 3 (ESum (1 + z) 3 (EMul (ET 16 [a; m; (0 + z); (1 + z)]) (ET 18 [(0 + z); (1 + z); i; j])))))) (EScale (1) 2 (ESum (0 + z) 2 (ESum (1 + z) 3 (ESum (2 + z) 3 (EMul (ET 6 [m; (0 + z); (1 + z); (2 + z)]) (ET 30 [a; (1 + z); (2 + z); i; j; (0 + z)]))))))) (ESum (0 + z) 0 (ESum (1 + z) 1 (ESum (2 + z) 3 (EMul (ET 3 [(0 + z); m; (1 + z); (2 + z)]) (ET 26 [(1 + z); a; (2 + z); (0 + z); i; j]))))))).
Definition r_hb3_Q1_6 (z a m i e : nat) : ex := (EAdd (ET 23 [a; m; i; e]) (ESum (0 + z) 1 (EMul (ET 9 [a; m; (0 + z); e]) (ET 2 [(0 + z); i])))).
Definition r_hb3_H_ab_vooo (z a m i j : nat) : ex := (EAdd (ET 42 [a; m; i; j]) (EAdd (EAdd (EAdd (EAdd (EAdd (ESub (EAdd (EAdd (ESub (ESum (0 + z) 3 (EMul (r_hb3_H_b_ov (1 + z) m (0 + z)) (ET 11 [a; (0 + z); i; j]))) (ESum (0 + z) 0 (EMul (r_hb3_H_ab_oooo (1 + z) (0 + z) m i j) (ET 2 [a; (0 + z)])))) (ESum (0 + z) 2 (ESum (1 + z) 3 (EMul (r_hb3_H_bb_ooov (2 + z) m (0 + z) j (1 + z)) (ET 11 [a; (1 + z); i; (0 + z)]))))) (ESum (0 + z) 0 (ESum (1 + z) 1 (EMul (r_hb3_H_ab_oovo (2 + z) (0 + z) m (1 + z) j) (ET 10 [a; (1 + z); i; (0 + z)]))))) (ESum (0 + z) 0 (ESum (1 + z) 3 (EMul (r_hb3_H_ab_ooov (2 + z) (0 + z) m i (1 + z)) (ET 11 [a; (1 + z); (0 + z); j]))))) (ESum (0 + z) 1 (EMul (ET 40 [a; m; (0 + z); j]) (ET 2 [(0 + z); i])))) (ESum (0 + z) 3 (EMul (r_hb3_Q1_6 (1 + z) a m i (0 + z)) (ET 4 [(0 + z); j])))) (ESum (0 + z) 1 (ESum (1 + z) 3 (EMul (ET 9 [a; m; (0 + z); (1 + z)]) (ET 11 [(0 + z); (1 + z); i; j]))))) (ESum (0 + z) 0 (ESum (1 + z) 1 (ESum (2 + z) 3 (EMul (ET 3 [(0 + z); m; (1 + z); (2 + z)]) (ET 25 [a; (1 + z); (2 + z); i; (0 + z); j])))))) (EScale (1) 2 (ESum (0 + z) 2 (ESum (1 + z) 3 (ESum (2 + z) 3 (EMul (ET 6 [m; (0 + z); (1 + z); (2 + z)]) (ET 26 [a; (1 + z); (2 + z); i; j; (0 + z)])))))))).
Definition r_hb3_Q1_7 (z m a j e : nat) : ex := (EAdd (ET 39 [m; a; j; e]) (ESum (0 + z) 1 (EMul (ET 17 [m; a; (0 + z); e]) (ET 2 [(0 + z); j])))).
Definition r_hb3_H_ab_ovoo (z m a j i : nat) : ex := (EAdd (ET 41 [m; a; j; i]) (EAdd (EAdd (EAdd (EAdd (EAdd (ESub (EAdd (EAdd (ESub (ESum (0 + z) 1 (EMul (r_hb3_H_a_ov (1 + z) m (0 + z)) (ET 11 [(0 + z); a; j; i]))) (ESum (0 + z) 2 (EMul (r_hb3_H_ab_oooo (1 + z) m (0 + z) j i) (ET 4 [a; (0 + z)])))) (ESum (0 + z) 0 (ESum (1 + z) 1 (EMul (r_hb3_H_aa_ooov (2 + z) m (0 + z) j (1 + z)) (ET 11 [(1 + z); a; (0 + z); i]))))) (ESum (0 + z) 2 (ESum (1 + z) 3 (EMul (r_hb3_H_ab_ooov (2 + z) m (0 + z) j (1 + z)) (ET 18 [(1 + z); a; (0 + z); i]))))) (ESum (0 + z) 2 (ESum (1 + z) 1 (EMul (r_hb3_H_ab_oovo (2 + z) m (0 + z) (1 + z) i) (ET 11 [(1 + z); a; j; (0 + z)]))))) (ESum (0 + z) 3 (EMul (r_hb3_Q1_7 (1 + z) m a j (0 + z)) (ET 4 [(0 + z); i])))) (ESum (0 + z) 1 (EMul (ET 29 [m; a; (0 + z); i]) (ET 2 [(0 + z); j])))) (ESum (0 + z) 1 (ESum (1 + z) 3 (EMul (ET 17 [m; a; (0 + z); (1 + z)]) (ET 11 [(0 + z); (1 + z); j; i]))))) (EScale (1) 2 (ESum (0 + z) 0 (ESum (1 + z) 1 (ESum (2 + z) 1 (EMul (ET 1 [m; (0 + z); (1 + z); (2 + z)]) (ET 25 [(1 + z); (2 + z); a; j; (0 + z); i]))))))) (ESum (0 + z) 2 (ESum (1 + z) 1 (ESum (2 + z) 3 (EMul (ET 3 [m; (0 + z); (1 + z); (2 + z)]) (ET 26 [(1 + z); (2 + z); a; j; (0 + z); i]))))))).
Definition r_hb3_H_aa_voov (z a m i e : nat) : ex := (EAdd (EAdd (ESub (EAdd (ET 22 [a; m; i; e]) (ESum (0 + z) 1 (EMul (ET 8 [a; m; (0 + z); e]) (ET 2 [(0 + z); i])))) (ESum (0 + z) 0 (EMul (r_hb3_H_aa_ooov (1 + z) (0 + z) m i e) (ET 2 [a; (0 + z)])))) (ESum (0 + z) 0 (ESum (1 + z) 1 (EMul (ET 1 [(0 + z); m; (1 + z); e]) (ET 10 [a; (1 + z); i; (0 + z)]))))) (ESum (0 + z) 2 (ESum (1 + z) 3 (EMul (ET 3 [m; (0 + z); e; (1 + z)]) (ET 11 [a; (1 + z); i; (0 + z)]))))).
Definition r_hb3_H_bb_voov (z a m i e : nat) : ex := (EAdd (EAdd (ESub (EAdd (ET 28 [a; m; i; e]) (ESum (0 + z) 3 (EMul (ET 16 [a; m; (0 + z); e]) (ET 4 [(0 + z); i])))) (ESum (0 + z) 2 (EMul (r_hb3_H_bb_ooov (1 + z) (0 + z) m i e) (ET 4 [a; (0 + z)])))) (ESum (0 + z) 2 (ESum (1 + z) 3 (EMul (ET 6 [(0 + z); m; (1 + z); e]) (ET 18 [a; (1 + z); i; (0 + z)]))))) (ESum (0 + z) 0 (ESum (1 + z) 1 (EMul (ET 3 [(0 + z); m; (1 + z); e]) (ET 11 [(1 + z); a; (0 + z); i]))))).
Definition r_hb3_H_ab_voov (z a m i e : nat) : ex := (EAdd (EAdd (ESub (EAdd (ET 23 [a; m; i; e]) (ESum (0 + z) 1 (EMul (ET 9 [a; m; (0 + z); e]) (ET 2 [(0 + z); i])))) (ESum (0 + z) 0 (EMul (r_hb3_H_ab_ooov (1 + z) (0 + z) m i e) (ET 2 [a; (0 + z)])))) (ESum (0 + z) 0 (ESum (1 + z) 1 (EMul (ET 3 [(0 + z); m; (1 + z); e]) (ET 10 [a; (1 + z); i; (0 + z)]))))) (ESum (0 + z) 2 (ESum (1 + z) 3 (EMul (ET 6 [(0 + z); m; (1 + z); e]) (ET 11 [a; (1 + z); i; (0 + z)]))))).
Definition r_hb3_H_ab_ovvo (z m a e i : nat) : ex := (EAdd (EAdd (ESub (EAdd (ET 29 [m; a; e; i]) (ESum (0 + z) 3 (EMul (ET 17 [m; a; e; (0 + z)]) (ET 4 [(0 + z); i])))) (ESum (0 + z) 2 (EMul (r_hb3_H_ab_oovo (1 + z) m (0 + z) e i) (ET 4 [a; (0 + z)])))) (ESum (0 + z) 2 (ESum (1 + z) 3 (EMul (ET 3 [m; (0 + z); e; (1 + z)]) (ET 18 [a; (1 + z); i; (0 + z)]))))) (ESum (0 + z) 0 (ESum (1 + z) 1 (EMul (ET 1 [m; (0 + z); e; (1 + z)]) (ET 11 [(1 + z); a; (0 + z); i]))))).
Definition r_hb3_H_ab_ovov (z m a i e : nat) : ex := (ESub (ESub (EAdd (ET 39 [m; a; i; e]) (ESum (0 + z) 1 (EMul (ET 17 [m; a; (0 + z); e]) (ET 2 [(0 + z); i])))) (ESum (0 + z) 2 (EMul (r_hb3_H_ab_ooov (1 + z) m (0 + z) i e) (ET 4 [a; (0 + z)])))) (ESum (0 + z) 2 (ESum (1 + z) 1 (EMul (ET 3 [m; (0 + z); (1 + z); e]) (ET 11 [(1 + z); a; i; (0 + z)]))))).
Definition r_hb3_H_ab_vovo (z a m e i : nat) : ex := (ESub (EAdd (ESub (ET 40 [a; m; e; i]) (ESum (0 + z) 0 (EMul (r_hb3_H_ab_oovo (1 + z) (0 + z) m e i) (ET 2 [a; (0 + z)])))) (ESum (0 + z) 3 (EMul (ET 9 [a; m; e; (0 + z)]) (ET 4 [(0 + z); i])))) (ESum (0 + z) 0 (ESum (1 + z) 3 (EMul (ET 3 [(0 + z); m; e; (1 + z)]) (ET 11 [a; (1 + z); (0 + z); i]))))).
Definition r_hb3_x2a_voov (z a m i e : nat) : ex := (EAdd (r_hb3_H_aa_voov (0 + z) a m i e) (EScale (1) 2 (ESum (0 + z) 0 (EMul (r_hb3_H_aa_ooov (1 + z) (0 + z) m i e) (ET 2 [a; (0 + z)]))))).
Definition r_hb3_H_aa_vvov (z a b i e : nat) : ex := (ESub (ESub (EAdd (EAdd (EAdd (EAdd (ESub (ESub (EScale (1) 2 (ET 34 [a; b; i; e])) (EScale (1) 2 (ESum (0 + z) 0 (EMul (r_hb3_H_a_ov (1 + z) (0 + z) e) (ET 10 [a; b; i; (0 + z)]))))) (ESum (0 + z) 0 (EMul (r_hb3_x2a_voov (1 + z) a (0 + z) i e) (ET 2 [b; (0 + z)])))) (EScale (1) 4 (ESum (0 + z) 0 (ESum (1 + z) 0 (EMul (r_hb3_H_aa_ooov (2 + z) (0 + z) (1 + z) i e) (ET 10 [a; b; (0 + z); (1 + z)])))))) (EScale (1) 2 (ESum (0 + z) 1 (EMul (ET 45 [a; b; (0 + z); e]) (ET 2 [(0 + z); i]))))) (ESum (0 + z) 0 (ESum (1 + z) 1 (EMul (ET 8 [b; (0 + z); e; (1 + z)]) (ET 10 [a; (1 + z); i; (0 + z)]))))) (ESum (0 + z) 2 (ESum (1 + z) 3 (EMul (ET 9 [b; (0 + z); e; (1 + z)]) (ET 11 [a; (1 + z); i; (0 + z)]))))) (EScale (1) 4 (ESum (0 + z) 0 (ESum (1 + z) 0 (ESum (2 + z) 1 (EMul (ET 1 [(0 + z); (1 + z); e; (2 + z)]) (ET 24 [a; b; (2 + z); i; (0 + z); (1 + z)]))))))) (EScale (1) 2 (ESum (0 + z) 0 (ESum (1 + z) 2 (ESum (2 + z) 3 (EMul (ET 3 [(0 + z); (1 + z); e; (2 + z)]) (ET 25 [a; b; (2 + z); i; (0 + z); (1 + z)]))))))).
Definition r_hb3_H_aa_vvov_1 (z a b i e : nat) : ex := (ESub (r_hb3_H_aa_vvov (0 + z) a b i e) (r_hb3_H_aa_vvov (0 + z) b a i e)).
Definition r_hb3_x2c_voov (z a m i e : nat) : ex := (EAdd (r_hb3_H_bb_voov (0 + z) a m i e) (EScale (1) 2 (ESum (0 + z) 2 (EMul (r_hb3_H_bb_ooov (1 + z) (0 + z) m i e) (ET 4 [a; (0 + z)]))))).
Definition r_hb3_H_bb_vvov (z a b i e : nat) : ex := (ESub (ESub (EAdd (EAdd (EAdd (EAdd (ESub (ESub (EScale (1) 2 (ET 37 [a; b; i; e])) (EScale (1) 2 (ESum (0 + z) 2 (EMul (r_hb3_H_b_ov (1 + z) (0 + z) e) (ET 18 [a; b; i; (0 + z)]))))) (ESum (0 + z) 2 (EMul (r_hb3_x2c_voov (1 + z) a (0 + z) i e) (ET 4 [b; (0 + z)])))) (EScale (1) 4 (ESum (0 + z) 2 (ESum (1 + z) 2 (EMul (r_hb3_H_bb_ooov (2 + z) (0 + z) (1 + z) i e) (ET 18 [a; b; (0 + z); (1 + z)])))))) (EScale (1) 2 (ESum (0 + z) 3 (EMul (ET 49 [a; b; (0 + z); e]) (ET 4 [(0 + z); i]))))) (ESum (0 + z) 2 (ESum (1 + z) 3 (EMul (ET 16 [b; (0 + z); e; (1 + z)]) (ET 18 [a; (1 + z); i; (0 + z)]))))) (ESum (0 + z) 0 (ESum (1 + z) 1 (EMul (ET 17 [(0 + z); b; (1 + z); e]) (ET 11 [(1 + z); a; (0 + z); i]))))) (EScale (1) 4 (ESum (0 + z) 2 (ESum (1 + z) 2 (ESum (2 + z) 3 (EMul (ET 6 [(0 + z); (1 + z); e; (2 + z)]) (ET 30 [a; b; (2 + z); i; (0 + z); (1 + z)]))))))) (EScale (1) 2 (ESum (0 + z) 0 (ESum (1 + z) 2 (ESum (2 + z) 1 (EMul (ET 3 [(0 + z); (1 + z); (2 + z); e]) (ET 26 [(2 + z); a; b; (0 + z); i; (1 + z)]))))))).
Definition r_hb3_H_bb_vvov_1 (z a b i e : nat) : ex := (ESub (r_hb3_H_bb_vvov (0 + z) a b i e) (r_hb3_H_bb_vvov (0 + z) b a i e)).
Definition r_hb3_x2b_voov (z a m i e : nat) : ex := (EAdd (r_hb3_H_ab_voov (0 + z) a m i e) (EScale (1) 2 (ESum (0 + z) 0 (EMul (r_hb3_H_ab_ooov (1 + z) (0 + z) m i e) (ET 2 [a; (0 + z)]))))).
Definition r_hb3_x2b_ovov (z m a i e : nat) : ex := (EAdd (r_hb3_H_ab_ovov (0 + z) m a i e) (EScale (1) 2 (ESum (0 + z) 2 (EMul (r_hb3_H_ab_ooov (1 + z) m (0 + z) i e) (ET 4 [a; (0 + z)]))))).
Definition r_hb3_H_ab_vvov (z a b i e : nat) : ex := (ESub (ESub (ESub (EAdd (EAdd (EAdd (EAdd (ESub (ESub (ESub (ET 44 [a; b; i; e]) (ESum (0 + z) 2 (EMul (r_hb3_H_b_ov (1 + z) (0 + z) e) (ET 11 [a; b; i; (0 + z)])))) (ESum (0 + z) 2 (EMul (r_hb3_x2b_voov (1 + z) a (0 + z) i e) (ET 4 [b; (0 + z)])))) (ESum (0 + z) 0 (EMul (r_hb3_x2b_ovov (1 + z) (0 + z) b i e) (ET 2 [a; (0 + z)])))) (ESum (0 + z) 0 (ESum (1 + z) 2 (EMul (r_hb3_H_ab_ooov (2 + z) (0 + z) (1 + z) i e) (ET 11 [a; b; (0 + z); (1 + z)]))))) (ESum (0 + z) 1 (EMul (ET 47 [a; b; (0 + z); e]) (ET 2 [(0 + z); i])))) (ESum (0 + z) 0 (ESum (1 + z) 1 (EMul (ET 17 [(0 + z); b; (1 + z); e]) (ET 10 [a; (1 + z); i; (0 + z)]))))) (ESum (0 + z) 2 (ESum (1 + z) 3 (EMul (ET 16 [b; (0 + z); e; (1 + z)]) (ET 11 [a; (1 + z); i; (0 + z)]))))) (ESum (0 + z) 2 (ESum (1 + z) 1 (EMul (ET 9 [a; (0 + z); (1 + z); e]) (ET 11 [(1 + z); b; i; (0 + z)]))))) (ESum (0 + z) 0 (ESum (1 + z) 2 (ESum (2 + z) 1 (EMul (ET 3 [(0 + z); (1 + z); (2 + z); e]) (ET 25 [a; (2 + z); b; i; (0 + z); (1 + z)])))))) (EScale (1) 2 (ESum (0 + z) 2 (ESum (1 + z) 2 (ESum (2 + z) 3 (EMul (ET 6 [(0 + z); (1 + z); e; (2 + z)]) (ET 26 [a; (2 + z); b; i; (1 + z); (0 + z)]))))))).
Definition r_hb3_x2b_ovvo (z m a e i : nat) : ex := (EAdd (r_hb3_H_ab_ovvo (0 + z) m a e i) (EScale (1) 2 (ESum (0 + z) 2 (EMul (r_hb3_H_ab_oovo (1 + z) m (0 + z) e i) (ET 4 [a; (0 + z)]))))).
Definition r_hb3_x2b_vovo (z a m e i : nat) : ex := (EAdd (r_hb3_H_ab_vovo (0 + z) a m e i) (EScale (1) 2 (ESum (0 + z) 0 (EMul (r_hb3_H_ab_oovo (1 + z) (0 + z) m e i) (ET 2 [a; (0 + z)]))))).
Definition r_hb3_H_ab_vvvo (z b a e i : nat) : ex := (ESub (ESub (ESub (EAdd (EAdd (EAdd (EAdd (ESub (ESub (ESub (ET 43 [b; a; e; i]) (ESum (0 + z) 0 (EMul (r_hb3_H_a_ov (1 + z) (0 + z) e) (ET 11 [b; a; (0 + z); i])))) (ESum (0 + z) 0 (EMul (r_hb3_x2b_ovvo (1 + z) (0 + z) a e i) (ET 2 [b; (0 + z)])))) (ESum (0 + z) 2 (EMul (r_hb3_x2b_vovo (1 + z) b (0 + z) e i) (ET 4 [a; (0 + z)])))) (ESum (0 + z) 0 (ESum (1 + z) 2 (EMul (r_hb3_H_ab_oovo (2 + z) (0 + z) (1 + z) e i) (ET 11 [b; a; (0 + z); (1 + z)]))))) (ESum (0 + z) 3 (EMul (ET 47 [b; a; e; (0 + z)]) (ET 4 [(0 + z); i])))) (ESum (0 + z) 2 (ESum (1 + z) 3 (EMul (ET 9 [b; (0 + z); e; (1 + z)]) (ET 18 [a; (1 + z); i; (0 + z)]))))) (ESum (0 + z) 0 (ESum (1 + z) 1 (EMul (ET 8 [b; (0 + z); e; (1 + z)]) (ET 11 [(1 + z); a; (0 + z); i]))))) (ESum (0 + z) 0 (ESum (1 + z) 3 (EMul (ET 17 [(0 + z); a; e; (1 + z)]) (ET 11 [b; (1 + z); (0 + z); i]))))) (EScale (1) 2 (ESum (0 + z) 0 (ESum (1 + z) 0 (ESum (2 + z) 1 (EMul (ET 1 [(0 + z); (1 + z); e; (2 + z)]) (ET 25 [b; (2 + z); a; (0 + z); (1 + z); i]))))))) (ESum (0 + z) 0 (ESum (1 + z) 2 (ESum (2 + z) 3 (EMul (ET 3 [(0 + z); (1 + z); e; (2 + z)]) (ET 26 [b; (2 + z); a; (0 + z); (1 + z); i])))))).
Definition r_hb3_H_aa_vvvv (z a b e f : nat) : ex := (ESub (EAdd (EScale (1) 2 (ET 45 [a; b; e; f])) (EScale (1) 4 (ESum (0 + z) 0 (ESum (1 + z) 0 (EMul (ET 1 [(0 + z); (1 + z); e; f]) (r_hb3_tau_aa_1 (2 + z) a b (0 + z) (1 + z))))))) (ESum (0 + z) 0 (EMul (ET 8 [a; (0 + z); e; f]) (ET 2 [b; (0 + z)])))).
Definition r_hb3_H_aa_vvvv_1 (z a b e f : nat) : ex := (ESub (r_hb3_H_aa_vvvv (0 + z) a b e f) (r_hb3_H_aa_vvvv (0 + z) b a e f)).
Definition r_hb3_H_bb_vvvv (z a b e f : nat) : ex := (ESub (EAdd (EScale (1) 2 (ET 49 [a; b; e; f])) (EScale (1) 4 (ESum (0 + z) 2 (ESum (1 + z) 2 (EMul (ET 6 [(0 + z); (1 + z); e; f]) (r_hb3_tau_bb_1 (2 + z) a b (0 + z) (1 + z))))))) (ESum (0 + z) 2 (EMul (ET 16 [a; (0 + z); e; f]) (ET 4 [b; (0 + z)])))).
Definition r_hb3_H_bb_vvvv_1 (z a b e f : nat) : ex := (ESub (r_hb3_H_bb_vvvv (0 + z) a b e f) (r_hb3_H_bb_vvvv (0 + z) b a e f)).
Definition r_hb3_H_ab_vvvv (z a b e f : nat) : ex := (EAdd (ESub (ESub (ET 47 [a; b; e; f]) (ESum (0 + z) 0 (EMul (ET 17 [(0 + z); b; e; f]) (ET 2 [a; (0 + z)])))) (ESum (0 + z) 2 (EMul (ET 9 [a; (0 + z); e; f]) (ET 4 [b; (0 + z)])))) (ESum (0 + z) 0 (ESum (1 + z) 2 (EMul (ET 3 [(0 + z); (1 + z); e; f]) (r_hb3_tau_ab (2 + z) a b (0 + z) (1 + z)))))).
Definition r_hb3_H_aa_vovv (z a i b c : nat) : ex := (ESub (ET 8 [a; i; b; c]) (ESum (0 + z) 0 (EMul (ET 1 [i; (0 + z); c; b]) (ET 2 [a; (0 + z)])))).
Definition r_hb3_H_bb_vovv (z a i b c : nat) : ex := (ESub (ET 16 [a; i; b; c]) (ESum (0 + z) 2 (EMul (ET 6 [i; (0 + z); c; b]) (ET 4 [a; (0 + z)])))).
Definition r_hb3_H_ab_vovv (z a i b c : nat) : ex := (ESub (ET 9 [a; i; b; c]) (ESum (0 + z) 0 (EMul (ET 3 [(0 + z); i; b; c]) (ET 2 [a; (0 + z)])))).
Definition r_hb3_H_ab_ovvv (z i a b c : nat) : ex := (ESub (ET 17 [i; a; b; c]) (ESum (0 + z) 2 (EMul (ET 3 [i; (0 + z); b; c]) (ET 4 [a; (0 + z)])))).
Definition r_eomt_X1A (z a i : nat) : ex := (EOpp (ESum (0 + z) 0 (EMul (ET 12 [(0 + z); i]) (ET 51 [a; (0 + z)])))).
Definition r_eomt_X1A_1 (z a i : nat) : ex := (EAdd (r_eomt_X1A (0 + z) a i) (ESum (0 + z) 1 (EMul (ET 7 [a; (0 + z)]) (ET 51 [(0 + z); i])))).
Definition r_eomt_X1A_2 (z a i : nat) : ex := (EAdd (r_eomt_X1A_1 (0 + z) a i) (ESum (0 + z) 0 (ESum (1 + z) 1 (EMul (ET 22 [a; (0 + z); i; (1 + z)]) (ET 51 [(1 + z); (0 + z)]))))).
Definition r_eomt_X1A_3 (z a i : nat) : ex := (EAdd (r_eomt_X1A_2 (0 + z) a i) (ESum (0 + z) 2 (ESum (1 + z) 3 (EMul (ET 23 [a; (0 + z); i; (1 + z)]) (ET 52 [(1 + z); (0 + z)]))))).
Definition r_eomt_X1A_4 (z a i : nat) : ex := (ESub (r_eomt_X1A_3 (0 + z) a i) (EScale (1) 2 (ESum (0 + z) 0 (ESum (1 + z) 0 (ESum (2 + z) 1 (EMul (ET 13 [(0 + z); (1 + z); i; (2 + z)]) (ET 53 [a; (2 + z); (0 + z); (1 + z)]))))))).
Definition r_eomt_X1A_5 (z a i : nat) : ex := (ESub (r_eomt_X1A_4 (0 + z) a i) (ESum (0 + z) 0 (ESum (1 + z) 2 (ESum (2 + z) 3 (EMul (ET 14 [(0 + z); (1 + z); i; (2 + z)]) (ET 54 [a; (2 + z); (0 + z); (1 + z)])))))).
Definition r_eomt_X1A_6 (z a i : nat) : ex := (EAdd (r_eomt_X1A_5 (0 + z) a i) (EScale (1) 2 (ESum (0 + z) 0 (ESum (1 + z) 1 (ESum (2 + z) 1 (EMul (ET 8 [a; (0 + z); (1 + z); (2 + z)]) (ET 53 [(1 + z); (2 + z); i; (0 + z)]))))))).
Definition r_eomt_X1A_7 (z a i : nat) : ex := (EAdd (r_eomt_X1A_6 (0 + z) a i) (ESum (0 + z) 2 (ESum (1 + z) 1 (ESum (2 + z) 3 (EMul (ET 9 [a; (0 + z); (1 + z); (2 + z)]) (ET 54 [(1 + z); (2 + z); i; (0 + z)])))))).
Definition r_eomt_X1A_8 (z a i : nat) : ex := (EAdd (r_eomt_X1A_7 (0 + z) a i) (ESum (0 + z) 0 (ESum (1 + z) 1 (EMul (ET 0 [(0 + z); (1 + z)]) (ET 53 [a; (1 + z); i; (0 + z)]))))).
Definition r_eomt_X1A_9 (z a i : nat) : ex := (EAdd (r_eomt_X1A_8 (0 + z) a i) (ESum (0 + z) 2 (ESum (1 + z) 3 (EMul (ET 5 [(0 + z); (1 + z)]) (ET 54 [a; (1 + z); i; (0 + z)]))))).
Definition r_eomt_X1A_10 (z a i : nat) : ex := (EAdd (r_eomt_X1A_9 (0 + z) a i) (EScale (1) 4 (ESum (0 + z) 0 (ESum (1 + z) 0 (ESum (2 + z) 1 (ESum (3 + z) 1 (EMul (ET 1 [(0 + z); (1 + z); (2 + z); (3 + z)]) (ET 55 [a; (2 + z); (3 + z); i; (0 + z); (1 + z)])))))))).
Definition r_eomt_X1A_11 (z a i : nat) : ex := (EAdd (r_eomt_X1A_10 (0 + z) a i) (ESum (0 + z) 0 (ESum (1 + z) 2 (ESum (2 + z) 1 (ESum (3 + z) 3 (EMul (ET 3 [(0 + z); (1 + z); (2 + z); (3 + z)]) (ET 56 [a; (2 + z); (3 + z); i; (0 + z); (1 + z)]))))))).
Definition r_eomt_X1A_12 (z a i : nat) : ex := (EAdd (r_eomt_X1A_11 (0 + z) a i) (EScale (1) 4 (ESum (0 + z) 2 (ESum (1 + z) 2 (ESum (2 + z) 3 (ESum (3 + z) 3 (EMul (ET 6 [(0 + z); (1 + z); (2 + z); (3 + z)]) (ET 57 [a; (2 + z); (3 + z); i; (0 + z); (1 + z)])))))))).
Definition r_eomt_X1B (z a i : nat) : ex := (EOpp (ESum (0 + z) 2 (EMul (ET 19 [(0 + z); i]) (ET 52 [a; (0 + z)])))).
Definition r_eomt_X1B_1 (z a i : nat) : ex := (EAdd (r_eomt_X1B (0 + z) a i) (ESum (0 + z) 3 (EMul (ET 15 [a; (0 + z)]) (ET 52 [(0 + z); i])))).
Definition r_eomt_X1B_2 (z a i : nat) : ex := (EAdd (r_eomt_X1B_1 (0 + z) a i) (ESum (0 + z) 0 (ESum (1 + z) 1 (EMul (ET 29 [(0 + z); a; (1 + z); i]) (ET 51 [(1 + z); (0 + z)]))))).
Definition r_eomt_X1B_3 (z a i : nat) : ex := (EAdd (r_eomt_X1B_2 (0 + z) a i) (ESum (0 + z) 2 (ESum (1 + z) 3 (EMul (ET 28 [a; (0 + z); i; (1 + z)]) (ET 52 [(1 + z); (0 + z)]))))).
Definition r_eomt_X1B_4 (z a i : nat) : ex := (ESub (r_eomt_X1B_3 (0 + z) a i) (ESum (0 + z) 0 (ESum (1 + z) 2 (ESum (2 + z) 1 (EMul (ET 21 [(0 + z); (1 + z); (2 + z); i]) (ET 54 [(2 + z); a; (0 + z); (1 + z)])))))).
Definition r_eomt_X1B_5 (z a i : nat) : ex := (ESub (r_eomt_X1B_4 (0 + z) a i) (EScale (1) 2 (ESum (0 + z) 2 (ESum (1 + z) 2 (ESum (2 + z) 3 (EMul (ET 20 [(0 + z); (1 + z); i; (2 + z)]) (ET 58 [a; (2 + z); (0 + z); (1 + z)]))))))).
Definition r_eomt_X1B_6 (z a i : nat) : ex := (EAdd (r_eomt_X1B_5 (0 + z) a i) (ESum (0 + z) 0 (ESum (1 + z) 1 (ESum (2 + z) 3 (EMul (ET 17 [(0 + z); a; (1 + z); (2 + z)]) (ET 54 [(1 + z); (2 + z); (0 + z); i])))))).
Definition r_eomt_X1B_7 (z a i : nat) : ex := (EAdd (r_eomt_X1B_6 (0 + z) a i) (EScale (1) 2 (ESum (0 + z) 2 (ESum (1 + z) 3 (ESum (2 + z) 3 (EMul (ET 16 [a; (0 + z); (1 + z); (2 + z)]) (ET 58 [(1 + z); (2 + z); i; (0 + z)]))))))).
Definition r_eomt_X1B_8 (z a i : nat) : ex := (EAdd (r_eomt_X1B_7 (0 + z) a i) (ESum (0 + z) 0 (ESum (1 + z) 1 (EMul (ET 0 [(0 + z); (1 + z)]) (ET 54 [(1 + z); a; (0 + z); i]))))).
Definition r_eomt_X1B_9 (z a i : nat) : ex := (EAdd (r_eomt_X1B_8 (0 + z) a i) (ESum (0 + z) 2 (ESum (1 + z) 3 (EMul (ET 5 [(0 + z); (1 + z)]) (ET 58 [a; (1 + z); i; (0 + z)]))))).
Definition r_eomt_X1B_10 (z a i : nat) : ex := (EAdd (r_eomt_X1B_9 (0 + z) a i) (EScale (1) 4 (ESum (0 + z) 0 (ESum (1 + z) 0 (ESum (2 + z) 1 (ESum (3 + z) 1 (EMul (ET 1 [(0 + z); (1 + z); (2 + z); (3 + z)]) (ET 56 [(2 + z); (3 + z); a; (0 + z); (1 + z); i])))))))).
Definition r_eomt_X1B_11 (z a i : nat) : ex := (EAdd (r_eomt_X1B_10 (0 + z) a i) (ESum (0 + z) 0 (ESum (1 + z) 2 (ESum (2 + z) 1 (ESum (3 + z) 3 (EMul (ET 3 [(0 + z); (1 + z); (2 + z); (3 + z)]) (ET 57 [(2 + z); (3 + z); a; (0 + z); (1 + z); i]))))))).
Definition r_eomt_X1B_12 (z a i : nat) : ex := (EAdd (r_eomt_X1B_11 (0 + z) a i) (EScale (1) 4 (ESum (0 + z) 2 (ESum (1 + z) 2 (ESum (2 + z) 3 (ESum (3 + z) 3 (EMul (ET 6 [(0 + z); (1 + z); (2 + z); (3 + z)]) (ET 59 [a; (2 + z); (3 + z); i; (0 + z); (1 + z)])))))))).
Definition r_eomt_X_a_ov (z m e : nat) : ex := (EAdd (ESum (0 + z) 0 (ESum (1 + z) 1 (EMul (ET 1 [m; (0 + z); e; (1 + z)]) (ET 51 [(1 + z); (0 + z)])))) (ESum (0 + z) 2 (ESum (1 + z) 3 (EMul (ET 3 [m; (0 + z); e; (1 + z)]) (ET 52 [(1 + z); (0 + z)]))))).
Definition r_eomt_X_b_ov (z m e : nat) : ex := (EAdd (ESum (0 + z) 0 (ESum (1 + z) 1 (EMul (ET 3 [(0 + z); m; (1 + z); e]) (ET 51 [(1 + z); (0 + z)])))) (ESum (0 + z) 2 (ESum (1 + z) 3 (EMul (ET 6 [(0 + z); m; (1 + z); e]) (ET 52 [(1 + z); (0 + z)]))))).
Definition r_eomt_X_a_oo (z m j : nat) : ex := (EAdd (EAdd (EAdd (ESum (0 + z) 0 (ESum (1 + z) 1 (EMul (ET 13 [m; (0 + z); j; (1 + z)]) (ET 51 [(1 + z); (0 + z)])))) (ESum (0 + z) 2 (ESum (1 + z) 3 (EMul (ET 14 [m; (0 + z); j; (1 + z)]) (ET 52 [(1 + z); (0 + z)]))))) (EScale (1) 2 (ESum (0 + z) 0 (ESum (1 + z) 1 (ESum (2 + z) 1 (EMul (ET 1 [m; (0 + z); (1 + z); (2 + z)]) (ET 53 [(1 + z); (2 + z); j; (0 + z)]))))))) (ESum (0 + z) 2 (ESum (1 + z) 1 (ESum (2 + z) 3 (EMul (ET 3 [m; (0 + z); (1 + z); (2 + z)]) (ET 54 [(1 + z); (2 + z); j; (0 + z)])))))).
Definition r_eomt_X_a_vv (z b e : nat) : ex := (ESub (ESub (EAdd (ESum (0 + z) 0 (ESum (1 + z) 1 (EMul (ET 8 [b; (0 + z); e; (1 + z)]) (ET 51 [(1 + z); (0 + z)])))) (ESum (0 + z) 2 (ESum (1 + z) 3 (EMul (ET 9 [b; (0 + z); e; (1 + z)]) (ET 52 [(1 + z); (0 + z)]))))) (EScale (1) 2 (ESum (0 + z) 0 (ESum (1 + z) 0 (ESum (2 + z) 1 (EMul (ET 1 [(0 + z); (1 + z); e; (2 + z)]) (ET 53 [b; (2 + z); (0 + z); (1 + z)]))))))) (ESum (0 + z) 0 (ESum (1 + z) 2 (ESum (2 + z) 3 (EMul (ET 3 [(0 + z); (1 + z); e; (2 + z)]) (ET 54 [b; (2 + z); (0 + z); (1 + z)])))))).
Definition r_eomt_X_b_oo (z m k : nat) : ex := (EAdd (EAdd (EAdd (ESum (0 + z) 0 (ESum (1 + z) 1 (EMul (ET 21 [(0 + z); m; (1 + z); k]) (ET 51 [(1 + z); (0 + z)])))) (ESum (0 + z) 2 (ESum (1 + z) 3 (EMul (ET 20 [m; (0 + z); k; (1 + z)]) (ET 52 [(1 + z); (0 + z)]))))) (ESum (0 + z) 0 (ESum (1 + z) 1 (ESum (2 + z) 3 (EMul (ET 3 [(0 + z); m; (1 + z); (2 + z)]) (ET 54 [(1 + z); (2 + z); (0 + z); k])))))) (EScale (1) 2 (ESum (0 + z) 2 (ESum (1 + z) 3 (ESum (2 + z) 3 (EMul (ET 6 [m; (0 + z); (1 + z); (2 + z)]) (ET 58 [(1 + z); (2 + z); k; (0 + z)]))))))).
Definition r_eomt_X_b_vv (z c e : nat) : ex := (ESub (ESub (EAdd (ESum (0 + z) 0 (ESum (1 + z) 1 (EMul (ET 17 [(0 + z); c; (1 + z); e]) (ET 51 [(1 + z); (0 + z)])))) (ESum (0 + z) 2 (ESum (1 + z) 3 (EMul (ET 16 [c; (0 + z); e; (1 + z)]) (ET 52 [(1 + z); (0 + z)]))))) (EScale (1) 1 (ESum (0 + z) 0 (ESum (1 + z) 2 (ESum (2 + z) 1 (EMul (ET 3 [(0 + z); (1 + z); (2 + z); e]) (ET 54 [(2 + z); c; (0 + z); (1 + z)]))))))) (EScale (1) 2 (ESum (0 + z) 2 (ESum (1 + z) 2 (ESum (2 + z) 3 (EMul (ET 6 [(0 + z); (1 + z); e; (2 + z)]) (ET 58 [(2 + z); c; (1 + z); (0 + z)]))))))).
Definition r_eomt_X2A (z a b i j : nat) : ex := (EScale (-1) 2 (ESum (0 + z) 0 (EMul (ET 12 [(0 + z); i]) (ET 53 [a; b; (0 + z); j])))).
Definition r_eomt_X2A_1 (z a b i j : nat) : ex := (EAdd (r_eomt_X2A (0 + z) a b i j) (EScale (1) 2 (ESum (0 + z) 1 (EMul (ET 7 [a; (0 + z)]) (ET 53 [(0 + z); b; i; j]))))).
Definition r_eomt_X2A_2 (z a b i j : nat) : ex := (EAdd (r_eomt_X2A_1 (0 + z) a b i j) (EScale (1) 8 (ESum (0 + z) 0 (ESum (1 + z) 0 (EMul (ET 32 [(0 + z); (1 + z); i; j]) (ET 53 [a; b; (0 + z); (1 + z)])))))).
Definition r_eomt_X2A_3 (z a b i j : nat) : ex := (EAdd (r_eomt_X2A_2 (0 + z) a b i j) (EScale (1) 8 (ESum (0 + z) 1 (ESum (1 + z) 1 (EMul (ET 45 [a; b; (0 + z); (1 + z)]) (ET 53 [(0 + z); (1 + z); i; j])))))).
Definition r_eomt_X2A_4 (z a b i j : nat) : ex := (EAdd (r_eomt_X2A_3 (0 + z) a b i j) (ESum (0 + z) 0 (ESum (1 + z) 1 (EMul (ET 22 [a; (0 + z); i; (1 + z)]) (ET 53 [(1 + z); b; (0 + z); j]))))).
Definition r_eomt_X2A_5 (z a b i j : nat) : ex := (EAdd (r_eomt_X2A_4 (0 + z) a b i j) (ESum (0 + z) 2 (ESum (1 + z) 3 (EMul (ET 23 [a; (0 + z); i; (1 + z)]) (ET 54 [b; (1 + z); j; (0 + z)]))))).
Definition r_eomt_X2A_6 (z a b i j : nat) : ex := (ESub (r_eomt_X2A_5 (0 + z) a b i j) (EScale (1) 2 (ESum (0 + z) 0 (EMul (ET 33 [b; (0 + z); j; i]) (ET 51 [a; (0 + z)]))))).
Definition r_eomt_X2A_7 (z a b i j : nat) : ex := (EAdd (r_eomt_X2A_6 (0 + z) a b i j) (EScale (1) 2 (ESum (0 + z) 1 (EMul (ET 34 [b; a; j; (0 + z)]) (ET 51 [(0 + z); i]))))).
Definition r_eomt_X2A_8 (z a b i j : nat) : ex := (EAdd (r_eomt_X2A_7 (0 + z) a b i j) (EScale (1) 2 (ESum (0 + z) 1 (EMul (r_eomt_X_a_vv (1 + z) b (0 + z)) (ET 10 [a; (0 + z); i; j]))))).
Definition r_eomt_X2A_9 (z a b i j : nat) : ex := (ESub (r_eomt_X2A_8 (0 + z) a b i j) (EScale (1) 2 (ESum (0 + z) 0 (EMul (r_eomt_X_a_oo (1 + z) (0 + z) j) (ET 10 [a; b; i; (0 + z)]))))).
Definition r_eomt_X2A_10 (z a b i j : nat) : ex := (EAdd (r_eomt_X2A_9 (0 + z) a b i j) (EScale (1) 4 (ESum (0 + z) 0 (ESum (1 + z) 1 (EMul (r_eomt_X_a_ov (2 + z) (0 + z) (1 + z)) (ET 24 [a; b; (1 + z); i; j; (0 + z)])))))).
Definition r_eomt_X2A_11 (z a b i j : nat) : ex := (EAdd (r_eomt_X2A_10 (0 + z) a b i j) (EScale (1) 4 (ESum (0 + z) 2 (ESum (1 + z) 3 (EMul (r_eomt_X_b_ov (2 + z) (0 + z) (1 + z)) (ET 25 [a; b; (1 + z); i; j; (0 + z)])))))).
Definition r_eomt_X2A_12 (z a b i j : nat) : ex := (EAdd (r_eomt_X2A_11 (0 + z) a b i j) (EScale (1) 4 (ESum (0 + z) 0 (ESum (1 + z) 1 (EMul (ET 0 [(0 + z); (1 + z)]) (ET 55 [a; b; (1 + z); i; j; (0 + z)])))))).
Definition r_eomt_X2A_13 (z a b i j : nat) : ex := (EAdd (r_eomt_X2A_12 (0 + z) a b i j) (EScale (1) 4 (ESum (0 + z) 2 (ESum (1 + z) 3 (EMul (ET 5 [(0 + z); (1 + z)]) (ET 56 [a; b; (1 + z); i; j; (0 + z)])))))).
Definition r_eomt_X2A_14 (z a b i j : nat) : ex := (ESub (r_eomt_X2A_13 (0 + z) a b i j) (EScale (1) 4 (ESum (0 + z) 0 (ESum (1 + z) 0 (ESum (2 + z) 1 (EMul (ET 13 [(0 + z); (1 + z); j; (2 + z)]) (ET 55 [a; b; (2 + z); i; (0 + z); (1 + z)]))))))).
Definition r_eomt_X2A_15 (z a b i j : nat) : ex := (ESub (r_eomt_X2A_14 (0 + z) a b i j) (EScale (1) 2 (ESum (0 + z) 0 (ESum (1 + z) 2 (ESum (2 + z) 3 (EMul (ET 14 [(0 + z); (1 + z); j; (2 + z)]) (ET 56 [a; b; (2 + z); i; (0 + z); (1 + z)]))))))).
Definition r_eomt_X2A_16 (z a b i j : nat) : ex := (EAdd (r_eomt_X2A_15 (0 + z) a b i j) (EScale (1) 4 (ESum (0 + z) 0 (ESum (1 + z) 1 (ESum (2 + z) 1 (EMul (ET 8 [b; (0 + z); (1 + z); (2 + z)]) (ET 55 [a; (1 + z); (2 + z); i; j; (0 + z)]))))))).
Definition r_eomt_X2A_17 (z a b i j : nat) : ex := (EAdd (r_eomt_X2A_16 (0 + z) a b i j) (EScale (1) 2 (ESum (0 + z) 2 (ESum (1 + z) 1 (ESum (2 + z) 3 (EMul (ET 9 [b; (0 + z); (1 + z); (2 + z)]) (ET 56 [a; (1 + z); (2 + z); i; j; (0 + z)]))))))).
Definition r_eomt_X2A_18 (z a b i j : nat) : ex := (ESub (r_eomt_X2A_17 (0 + z) a b i j) (r_eomt_X2A_17 (0 + z) b a i j)).
Definition r_eomt_X2A_19 (z a b i j : nat) : ex := (ESub (r_eomt_X2A_18 (0 + z) a b i j) (r_eomt_X2A_18 (0 + z) a b j i)).
Definition r_eomt_X2B (z a b i j : nat) : ex := (ESum (0 + z) 1 (EMul (ET 7 [a; (0 + z)]) (ET 54 [(0 + z); b; i; j]))).
Definition r_eomt_X2B_1 (z a b i j : nat) : ex := (EAdd (r_eomt_X2B (0 + z) a b i j) (ESum (0 + z) 3 (EMul (ET 15 [b; (0 + z)]) (ET 54 [a; (0 + z); i; j])))).
Definition r_eomt_X2B_2 (z a b i j : nat) : ex := (ESub (r_eomt_X2B_1 (0 + z) a b i j) (ESum (0 + z) 0 (EMul (ET 12 [(0 + z); i]) (ET 54 [a; b; (0 + z); j])))).
Definition r_eomt_X2B_3 (z a b i j : nat) : ex := (ESub (r_eomt_X2B_2 (0 + z) a b i j) (ESum (0 + z) 2 (EMul (ET 19 [(0 + z); j]) (ET 54 [a; b; i; (0 + z)])))).
Definition r_eomt_X2B_4 (z a b i j : nat) : ex := (EAdd (r_eomt_X2B_3 (0 + z) a b i j) (ESum (0 + z) 0 (ESum (1 + z) 2 (EMul (ET 38 [(0 + z); (1 + z); i; j]) (ET 54 [a; b; (0 + z); (1 + z)]))))).
Definition r_eomt_X2B_5 (z a b i j : nat) : ex := (EAdd (r_eomt_X2B_4 (0 + z) a b i j) (ESum (0 + z) 1 (ESum (1 + z) 3 (EMul (ET 47 [a; b; (0 + z); (1 + z)]) (ET 54 [(0 + z); (1 + z); i; j]))))).
Definition r_eomt_X2B_6 (z a b i j : nat) : ex := (EAdd (r_eomt_X2B_5 (0 + z) a b i j) (ESum (0 + z) 0 (ESum (1 + z) 1 (EMul (ET 22 [a; (0 + z); i; (1 + z)]) (ET 54 [(1 + z); b; (0 + z); j]))))).
Definition r_eomt_X2B_7 (z a b i j : nat) : ex := (EAdd (r_eomt_X2B_6 (0 + z) a b i j) (ESum (0 + z) 2 (ESum (1 + z) 3 (EMul (ET 23 [a; (0 + z); i; (1 + z)]) (ET 58 [(1 + z); b; (0 + z); j]))))).
Definition r_eomt_X2B_8 (z a b i j : nat) : ex := (EAdd (r_eomt_X2B_7 (0 + z) a b i j) (ESum (0 + z) 0 (ESum (1 + z) 1 (EMul (ET 29 [(0 + z); b; (1 + z); j]) (ET 53 [a; (1 + z); i; (0 + z)]))))).
Definition r_eomt_X2B_9 (z a b i j : nat) : ex := (EAdd (r_eomt_X2B_8 (0 + z) a b i j) (ESum (0 + z) 2 (ESum (1 + z) 3 (EMul (ET 28 [b; (0 + z); j; (1 + z)]) (ET 54 [a; (1 + z); i; (0 + z)]))))).
Definition r_eomt_X2B_10 (z a b i j : nat) : ex := (ESub (r_eomt_X2B_9 (0 + z) a b i j) (ESum (0 + z) 0 (ESum (1 + z) 3 (EMul (ET 39 [(0 + z); b; i; (1 + z)]) (ET 54 [a; (1 + z); (0 + z); j]))))).
Definition r_eomt_X2B_11 (z a b i j : nat) : ex := (ESub (r_eomt_X2B_10 (0 + z) a b i j) (ESum (0 + z) 2 (ESum (1 + z) 1 (EMul (ET 40 [a; (0 + z); (1 + z); j]) (ET 54 [(1 + z); b; i; (0 + z)]))))).
Definition r_eomt_X2B_12 (z a b i j : nat) : ex := (EAdd (r_eomt_X2B_11 (0 + z) a b i j) (ESum (0 + z) 1 (EMul (ET 43 [a; b; (0 + z); j]) (ET 51 [(0 + z); i])))).
Definition r_eomt_X2B_13 (z a b i j : nat) : ex := (EAdd (r_eomt_X2B_12 (0 + z) a b i j) (ESum (0 + z) 3 (EMul (ET 44 [a; b; i; (0 + z)]) (ET 52 [(0 + z); j])))).
Definition r_eomt_X2B_14 (z a b i j : nat) : ex := (ESub (r_eomt_X2B_13 (0 + z) a b i j) (ESum (0 + z) 0 (EMul (ET 41 [(0 + z); b; i; j]) (ET 51 [a; (0 + z)])))).
Definition r_eomt_X2B_15 (z a b i j : nat) : ex := (ESub (r_eomt_X2B_14 (0 + z) a b i j) (ESum (0 + z) 2 (EMul (ET 42 [a; (0 + z); i; j]) (ET 52 [b; (0 + z)])))).
Definition r_eomt_X2B_16 (z a b i j : nat) : ex := (EAdd (r_eomt_X2B_15 (0 + z) a b i j) (ESum (0 + z) 1 (EMul (r_eomt_X_a_vv (1 + z) a (0 + z)) (ET 11 [(0 + z); b; i; j])))).
Definition r_eomt_X2B_17 (z a b i j : nat) : ex := (ESub (r_eomt_X2B_16 (0 + z) a b i j) (ESum (0 + z) 0 (EMul (r_eomt_X_a_oo (1 + z) (0 + z) i) (ET 11 [a; b; (0 + z); j])))).
Definition r_eomt_X2B_18 (z a b i j : nat) : ex := (EAdd (r_eomt_X2B_17 (0 + z) a b i j) (ESum (0 + z) 3 (EMul (r_eomt_X_b_vv (1 + z) b (0 + z)) (ET 11 [a; (0 + z); i; j])))).
Definition r_eomt_X2B_19 (z a b i j : nat) : ex := (ESub (r_eomt_X2B_18 (0 + z) a b i j) (ESum (0 + z) 2 (EMul (r_eomt_X_b_oo (1 + z) (0 + z) j) (ET 11 [a; b; i; (0 + z)])))).
Definition r_eomt_X2B_20 (z a b i j : nat) : ex := (EAdd (r_eomt_X2B_19 (0 + z) a b i j) (ESum (0 + z) 0 (ESum (1 + z) 1 (EMul (r_eomt_X_a_ov (2 + z) (0 + z) (1 + z)) (ET 25 [a; (1 + z); b; i; (0 + z); j]))))).
Definition r_eomt_X2B_21 (z a b i j : nat) : ex := (EAdd (r_eomt_X2B_20 (0 + z) a b i j) (ESum (0 + z) 2 (ESum (1 + z) 3 (EMul (r_eomt_X_b_ov (2 + z) (0 + z) (1 + z)) (ET 26 [a; (1 + z); b; i; (0 + z); j]))))).
Definition r_eomt_X2B_22 (z a b i j : nat) : ex := (EAdd (r_eomt_X2B_21 (0 + z) a b i j) (ESum (0 + z) 0 (ESum (1 + z) 1 (EMul (ET 0 [(0 + z); (1 + z)]) (ET 56 [a; (1 + z); b; i; (0 + z); j]))))).
Definition r_eomt_X2B_23 (z a b i j : nat) : ex := (EAdd (r_eomt_X2B_22 (0 + z) a b i j) (ESum (0 + z) 2 (ESum (1 + z) 3 (EMul (ET 5 [(0 + z); (1 + z)]) (ET 57 [a; (1 + z); b; i; (0 + z); j]))))).
Definition r_eomt_X2B_24 (z a b i j : nat) : ex := (ESub (r_eomt_X2B_23 (0 + z) a b i j) (ESum (0 + z) 0 (ESum (1 + z) 2 (ESum (2 + z) 1 (EMul (ET 21 [(0 + z); (1 + z); (2 + z); j]) (ET 56 [a; (2 + z); b; i; (0 + z); (1 + z)])))))).
Definition r_eomt_X2B_25 (z a b i j : nat) : ex := (ESub (r_eomt_X2B_24 (0 + z) a b i j) (EScale (1) 2 (ESum (0 + z) 2 (ESum (1 + z) 2 (ESum (2 + z) 3 (EMul (ET 20 [(0 + z); (1 + z); j; (2 + z)]) (ET 57 [a; b; (2 + z); i; (0 + z); (1 + z)]))))))).
Definition r_eomt_X2B_26 (z a b i j : nat) : ex := (ESub (r_eomt_X2B_25 (0 + z) a b i j) (EScale (1) 2 (ESum (0 + z) 0 (ESum (1 + z) 0 (ESum (2 + z) 1 (EMul (ET 13 [(0 + z); (1 + z); i; (2 + z)]) (ET 56 [a; (2 + z); b; (0 + z); (1 + z); j]))))))).
Definition r_eomt_X2B_27 (z a b i j : nat) : ex := (ESub (r_eomt_X2B_26 (0 + z) a b i j) (ESum (0 + z) 0 (ESum (1 + z) 2 (ESum (2 + z) 3 (EMul (ET 14 [(0 + z); (1 + z); i; (2 + z)]) (ET 57 [a; b; (2 + z); (0 + z); j; (1 + z)])))))).
Definition r_eomt_X2B_28 (z a b i j : nat) : ex := (EAdd (r_eomt_X2B_27 (0 + z) a b i j) (ESum (0 + z) 0 (ESum (1 + z) 1 (ESum (2 + z) 3 (EMul (ET 17 [(0 + z); b; (1 + z); (2 + z)]) (ET 56 [a; (1 + z); (2 + z); i; (0 + z); j])))))).
Definition r_eomt_X2B_29 (z a b i j : nat) : ex := (EAdd (r_eomt_X2B_28 (0 + z) a b i j) (EScale (1) 2 (ESum (0 + z) 2 (ESum (1 + z) 3 (ESum (2 + z) 3 (EMul (ET 16 [b; (0 + z); (1 + z); (2 + z)]) (ET 57 [a; (1 + z); (2 + z); i; j; (0 + z)]))))))).
Definition r_eomt_X2B_30 (z a b i j : nat) : ex := (EAdd (r_eomt_X2B_29 (0 + z) a b i j) (EScale (1) 2 (ESum (0 + z) 0 (ESum (1 + z) 1 (ESum (2 + z) 1 (EMul (ET 8 [a; (0 + z); (1 + z); (2 + z)]) (ET 56 [(1 + z); (2 + z); b; i; (0 + z); j]))))))).
Definition r_eomt_X2B_31 (z a b i j : nat) : ex := (EAdd (r_eomt_X2B_30 (0 + z) a b i j) (ESum (0 + z) 2 (ESum (1 + z) 1 (ESum (2 + z) 3 (EMul (ET 9 [a; (0 + z); (1 + z); (2 + z)]) (ET 57 [(1 + z); (2 + z); b; i; (0 + z); j])))))).
Definition r_eomt_X2C (z a b i j : nat) : ex := (EScale (-1) 2 (ESum (0 + z) 2 (EMul (ET 19 [(0 + z); i]) (ET 58 [a; b; (0 + z); j])))).
Definition r_eomt_X2C_1 (z a b i j : nat) : ex := (EAdd (r_eomt_X2C (0 + z) a b i j) (EScale (1) 2 (ESum (0 + z) 3 (EMul (ET 15 [a; (0 + z)]) (ET 58 [(0 + z); b; i; j]))))).
Definition r_eomt_X2C_2 (z a b i j : nat) : ex := (EAdd (r_eomt_X2C_1 (0 + z) a b i j) (EScale (1) 8 (ESum (0 + z) 2 (ESum (1 + z) 2 (EMul (ET 35 [(0 + z); (1 + z); i; j]) (ET 58 [a; b; (0 + z); (1 + z)])))))).
Definition r_eomt_X2C_3 (z a b i j : nat) : ex := (EAdd (r_eomt_X2C_2 (0 + z) a b i j) (EScale (1) 8 (ESum (0 + z) 3 (ESum (1 + z) 3 (EMul (ET 49 [a; b; (0 + z); (1 + z)]) (ET 58 [(0 + z); (1 + z); i; j])))))).
Definition r_eomt_X2C_4 (z a b i j : nat) : ex := (EAdd (r_eomt_X2C_3 (0 + z) a b i j) (ESum (0 + z) 2 (ESum (1 + z) 3 (EMul (ET 28 [a; (0 + z); i; (1 + z)]) (ET 58 [(1 + z); b; (0 + z); j]))))).
Definition r_eomt_X2C_5 (z a b i j : nat) : ex := (EAdd (r_eomt_X2C_4 (0 + z) a b i j) (ESum (0 + z) 0 (ESum (1 + z) 1 (EMul (ET 29 [(0 + z); a; (1 + z); i]) (ET 54 [(1 + z); b; (0 + z); j]))))).
Definition r_eomt_X2C_6 (z a b i j : nat) : ex := (ESub (r_eomt_X2C_5 (0 + z) a b i j) (EScale (1) 2 (ESum (0 + z) 2 (EMul (ET 36 [b; (0 + z); j; i]) (ET 52 [a; (0 + z)]))))).
Definition r_eomt_X2C_7 (z a b i j : nat) : ex := (EAdd (r_eomt_X2C_6 (0 + z) a b i j) (EScale (1) 2 (ESum (0 + z) 3 (EMul (ET 37 [b; a; j; (0 + z)]) (ET 52 [(0 + z); i]))))).
Definition r_eomt_X2C_8 (z a b i j : nat) : ex := (EAdd (r_eomt_X2C_7 (0 + z) a b i j) (EScale (1) 2 (ESum (0 + z) 3 (EMul (r_eomt_X_b_vv (1 + z) b (0 + z)) (ET 18 [a; (0 + z); i; j]))))).
Definition r_eomt_X2C_9 (z a b i j : nat) : ex := (ESub (r_eomt_X2C_8 (0 + z) a b i j) (EScale (1) 2 (ESum (0 + z) 2 (EMul (r_eomt_X_b_oo (1 + z) (0 + z) j) (ET 18 [a; b; i; (0 + z)]))))).
Definition r_eomt_X2C_10 (z a b i j : nat) : ex := (EAdd (r_eomt_X2C_9 (0 + z) a b i j) (EScale (1) 4 (ESum (0 + z) 0 (ESum (1 + z) 1 (EMul (r_eomt_X_a_ov (2 + z) (0 + z) (1 + z)) (ET 26 [(1 + z); a; b; (0 + z); i; j])))))).
Definition r_eomt_X2C_11 (z a b i j : nat) : ex := (EAdd (r_eomt_X2C_10 (0 + z) a b i j) (EScale (1) 4 (ESum (0 + z) 2 (ESum (1 + z) 3 (EMul (r_eomt_X_b_ov (2 + z) (0 + z) (1 + z)) (ET 30 [a; b; (1 + z); i; j; (0 + z)])))))).
Definition r_eomt_X2C_12 (z a b i j : nat) : ex := (EAdd (r_eomt_X2C_11 (0 + z) a b i j) (EScale (1) 4 (ESum (0 + z) 0 (ESum (1 + z) 1 (EMul (ET 0 [(0 + z); (1 + z)]) (ET 57 [(1 + z); a; b; (0 + z); i; j])))))).
Definition r_eomt_X2C_13 (z a b i j : nat) : ex := (EAdd (r_eomt_X2C_12 (0 + z) a b i j) (EScale (1) 4 (ESum (0 + z) 2 (ESum (1 + z) 3 (EMul (ET 5 [(0 + z); (1 + z)]) (ET 59 [a; b; (1 + z); i; j; (0 + z)])))))).
Definition r_eomt_X2C_14 (z a b i j : nat) : ex := (ESub (r_eomt_X2C_13 (0 + z) a b i j) (EScale (1) 4 (ESum (0 + z) 2 (ESum (1 + z) 2 (ESum (2 + z) 3 (EMul (ET 20 [(0 + z); (1 + z); j; (2 + z)]) (ET 59 [a; b; (2 + z); i; (0 + z); (1 + z)]))))))).
Definition r_eomt_X2C_15 (z a b i j : nat) : ex := (ESub (r_eomt_X2C_14 (0 + z) a b i j) (EScale (1) 2 (ESum (0 + z) 0 (ESum (1 + z) 2 (ESum (2 + z) 1 (EMul (ET 21 [(0 + z); (1 + z); (2 + z); j]) (ET 57 [(2 + z); a; b; (0 + z); i; (1 + z)]))))))).
Definition r_eomt_X2C_16 (z a b i j : nat) : ex := (EAdd (r_eomt_X2C_15 (0 + z) a b i j) (EScale (1) 4 (ESum (0 + z) 2 (ESum (1 + z) 3 (ESum (2 + z) 3 (EMul (ET 16 [b; (0 + z); (1 + z); (2 + z)]) (ET 59 [a; (1 + z); (2 + z); i; j; (0 + z)]))))))).
Definition r_eomt_X2C_17 (z a b i j : nat) : ex := (EAdd (r_eomt_X2C_16 (0 + z) a b i j) (EScale (1) 2 (ESum (0 + z) 0 (ESum (1 + z) 1 (ESum (2 + z) 3 (EMul (ET 17 [(0 + z); b; (1 + z); (2 + z)]) (ET 57 [(1 + z); a; (2 + z); (0 + z); i; j]))))))).
Definition r_eomt_X2C_18 (z a b i j : nat) : ex := (ESub (r_eomt_X2C_17 (0 + z) a b i j) (r_eomt_X2C_17 (0 + z) b a i j)).
Definition r_eomt_X2C_19 (z a b i j : nat) : ex := (ESub (r_eomt_X2C_18 (0 + z) a b i j) (r_eomt_X2C_18 (0 + z) a b j i)).
Definition r_eomt_X_aa_oovv (z p q r s : nat) : ex := (EC (0) 1).
Definition r_eomt_X_ab_oovv (z p q r s : nat) : ex := (EC (0) 1).
Definition r_eomt_X_bb_oovv (z p q r s : nat) : ex := (EC (0) 1).
Definition r_eomt_X_a_oo_1 (z m j : nat) : ex := (EAdd (ESum (0 + z) 1 (EMul (ET 0 [m; (0 + z)]) (ET 51 [(0 + z); j]))) (r_eomt_X_a_oo (0 + z) m j)).
Definition r_eomt_X_b_oo_1 (z m k : nat) : ex := (EAdd (ESum (0 + z) 3 (EMul (ET 5 [m; (0 + z)]) (ET 52 [(0 + z); k]))) (r_eomt_X_b_oo (0 + z) m k)).
Definition r_eomt_X_a_vv_1 (z b e : nat) : ex := (EAdd (EScale (-1) 1 (ESum (0 + z) 0 (EMul (ET 0 [(0 + z); e]) (ET 51 [b; (0 + z)])))) (r_eomt_X_a_vv (0 + z) b e)).
Definition r_eomt_X_b_vv_1 (z c e : nat) : ex := (EAdd (EScale (-1) 1 (ESum (0 + z) 2 (EMul (ET 5 [(0 + z); e]) (ET 52 [c; (0 + z)])))) (r_eomt_X_b_vv (0 + z) c e)).
Definition r_eomt_X_aa_oooo (z m n i j : nat) : ex := (EAdd (ESum (0 + z) 1 (EMul (ET 13 [n; m; j; (0 + z)]) (ET 51 [(0 + z); i]))) (EScale (1) 4 (ESum (0 + z) 1 (ESum (1 + z) 1 (EMul (ET 1 [m; n; (0 + z); (1 + z)]) (ET 53 [(0 + z); (1 + z); i; j])))))).
Definition r_eomt_X_aa_oooo_1 (z m n i j : nat) : ex := (ESub (r_eomt_X_aa_oooo (0 + z) m n i j) (r_eomt_X_aa_oooo (0 + z) m n j i)).
Definition r_eomt_X_ab_oooo (z n m j k : nat) : ex := (EAdd (EAdd (ESum (0 + z) 3 (EMul (ET 14 [n; m; j; (0 + z)]) (ET 52 [(0 + z); k]))) (ESum (0 + z) 1 (EMul (ET 21 [n; m; (0 + z); k]) (ET 51 [(0 + z); j])))) (ESum (0 + z) 1 (ESum (1 + z) 3 (EMul (ET 3 [n; m; (0 + z); (1 + z)]) (ET 54 [(0 + z); (1 + z); j; k]))))).
Definition r_eomt_X_bb_oooo (z m n i j : nat) : ex := (EAdd (ESum (0 + z) 3 (EMul (ET 20 [m; n; i; (0 + z)]) (ET 52 [(0 + z); j]))) (EScale (1) 4 (ESum (0 + z) 3 (ESum (1 + z) 3 (EMul (ET 6 [m; n; (0 + z); (1 + z)]) (ET 58 [(0 + z); (1 + z); i; j])))))).
Definition r_eomt_X_bb_oooo_1 (z m n i j : nat) : ex := (ESub (r_eomt_X_bb_oooo (0 + z) m n i j) (r_eomt_X_bb_oooo (0 + z) m n j i)).
Definition r_eomt_X_aa_vvvv (z a b e f : nat) : ex := (EAdd (EScale (-1) 1 (ESum (0 + z) 0 (EMul (ET 8 [a; (0 + z); e; f]) (ET 51 [b; (0 + z)])))) (EScale (1) 4 (ESum (0 + z) 0 (ESum (1 + z) 0 (EMul (ET 1 [(0 + z); (1 + z); e; f]) (ET 53 [a; b; (0 + z); (1 + z)])))))).
Definition r_eomt_X_aa_vvvv_1 (z a b e f : nat) : ex := (ESub (r_eomt_X_aa_vvvv (0 + z) a b e f) (r_eomt_X_aa_vvvv (0 + z) b a e f)).
Definition r_eomt_X_ab_vvvv (z b c f e : nat) : ex := (EAdd (ESub (EOpp (ESum (0 + z) 2 (EMul (ET 9 [b; (0 + z); f; e]) (ET 52 [c; (0 + z)])))) (ESum (0 + z) 0 (EMul (ET 17 [(0 + z); c; f; e]) (ET 51 [b; (0 + z)])))) (ESum (0 + z) 0 (ESum (1 + z) 2 (EMul (ET 3 [(0 + z); (1 + z); f; e]) (ET 54 [b; c; (0 + z); (1 + z)]))))).
Definition r_eomt_X_bb_vvvv (z a b e f : nat) : ex := (EAdd (EOpp (ESum (0 + z) 2 (EMul (ET 16 [a; (0 + z); e; f]) (ET 52 [b; (0 + z)])))) (EScale (1) 4 (ESum (0 + z) 2 (ESum (1 + z) 2 (EMul (ET 6 [(0 + z); (1 + z); e; f]) (ET 58 [a; b; (0 + z); (1 + z)])))))).
Definition r_eomt_X_bb_vvvv_1 (z a b e f : nat) : ex := (ESub (r_eomt_X_bb_vvvv (0 + z) a b e f) (r_eomt_X_bb_vvvv (0 + z) b a e f)).
Definition r_eomt_X_aa_voov (z b m j e : nat) : ex := (EAdd (EAdd (EAdd (EScale (-1) 1 (ESum (0 + z) 0 (EMul (ET 13 [(0 + z); m; j; e]) (ET 51 [b; (0 + z)])))) (ESum (0 + z) 1 (EMul (ET 8 [b; m; (0 + z); e]) (ET 51 [(0 + z); j])))) (ESum (0 + z) 0 (ESum (1 + z) 1 (EMul (ET 1 [m; (0 + z); e; (1 + z)]) (ET 53 [(1 + z); b; (0 + z); j]))))) (ESum (0 + z) 2 (ESum (1 + z) 3 (EMul (ET 3 [m; (0 + z); e; (1 + z)]) (ET 54 [b; (1 + z); j; (0 + z)]))))).
Definition r_eomt_X_ab_voov (z b m j e : nat) : ex := (EAdd (EAdd (EAdd (EScale (-1) 1 (ESum (0 + z) 0 (EMul (ET 14 [(0 + z); m; j; e]) (ET 51 [b; (0 + z)])))) (ESum (0 + z) 1 (EMul (ET 9 [b; m; (0 + z); e]) (ET 51 [(0 + z); j])))) (ESum (0 + z) 0 (ESum (1 + z) 1 (EMul (ET 3 [(0 + z); m; (1 + z); e]) (ET 53 [(1 + z); b; (0 + z); j]))))) (ESum (0 + z) 2 (ESum (1 + z) 3 (EMul (ET 6 [m; (0 + z); e; (1 + z)]) (ET 54 [b; (1 + z); j; (0 + z)]))))).
Definition r_eomt_X_ab_ovvo (z n c f k : nat) : ex := (EAdd (EAdd (EAdd (EOpp (ESum (0 + z) 2 (EMul (ET 21 [n; (0 + z); f; k]) (ET 52 [c; (0 + z)])))) (ESum (0 + z) 3 (EMul (ET 17 [n; c; f; (0 + z)]) (ET 52 [(0 + z); k])))) (ESum (0 + z) 0 (ESum (1 + z) 1 (EMul (ET 1 [(0 + z); n; (1 + z); f]) (ET 54 [(1 + z); c; (0 + z); k]))))) (ESum (0 + z) 2 (ESum (1 + z) 3 (EMul (ET 3 [n; (0 + z); f; (1 + z)]) (ET 58 [(1 + z); c; (0 + z); k]))))).
Definition r_eomt_X_ab_vovo (z b m f k : nat) : ex := (ESub (ESub (ESum (0 + z) 3 (EMul (ET 9 [b; m; f; (0 + z)]) (ET 52 [(0 + z); k]))) (ESum (0 + z) 0 (EMul (ET 21 [(0 + z); m; f; k]) (ET 51 [b; (0 + z)])))) (ESum (0 + z) 0 (ESum (1 + z) 3 (EMul (ET 3 [(0 + z); m; f; (1 + z)]) (ET 54 [b; (1 + z); (0 + z); k]))))).
Definition r_eomt_X_ab_ovov (z n c j e : nat) : ex := (ESub (EAdd (EOpp (ESum (0 + z) 2 (EMul (ET 14 [n; (0 + z); j; e]) (ET 52 [c; (0 + z)])))) (ESum (0 + z) 1 (EMul (ET 17 [n; c; (0 + z); e]) (ET 51 [(0 + z); j])))) (ESum (0 + z) 2 (ESum (1 + z) 1 (EMul (ET 3 [n; (0 + z); (1 + z); e]) (ET 54 [(1 + z); c; j; (0 + z)]))))).
Definition r_eomt_X_bb_voov (z c n k f : nat) : ex := (EAdd (EAdd (EAdd (EOpp (ESum (0 + z) 2 (EMul (ET 20 [(0 + z); n; k; f]) (ET 52 [c; (0 + z)])))) (ESum (0 + z) 3 (EMul (ET 16 [c; n; (0 + z); f]) (ET 52 [(0 + z); k])))) (ESum (0 + z) 0 (ESum (1 + z) 1 (EMul (ET 3 [(0 + z); n; (1 + z); f]) (ET 54 [(1 + z); c; (0 + z); k]))))) (ESum (0 + z) 2 (ESum (1 + z) 3 (EMul (ET 6 [(0 + z); n; (1 + z); f]) (ET 58 [(1 + z); c; (0 + z); k]))))).
Definition r_eomt_X_aa_vvov (z b a j e : nat) : ex := (ESub (EAdd (EAdd (EAdd (EAdd (ESum (0 + z) 0 (EMul (ET 22 [a; (0 + z); j; e]) (ET 51 [b; (0 + z)]))) (ESum (0 + z) 0 (ESum (1 + z) 1 (EMul (ET 8 [a; (0 + z); e; (1 + z)]) (ET 53 [b; (1 + z); j; (0 + z)]))))) (ESum (0 + z) 2 (ESum (1 + z) 3 (EMul (ET 9 [a; (0 + z); e; (1 + z)]) (ET 54 [b; (1 + z); j; (0 + z)]))))) (EScale (1) 2 (ESum (0 + z) 1 (EMul (ET 45 [a; b; e; (0 + z)]) (ET 51 [(0 + z); j]))))) (EScale (1) 4 (ESum (0 + z) 0 (ESum (1 + z) 0 (EMul (ET 13 [(0 + z); (1 + z); j; e]) (ET 53 [a; b; (1 + z); (0 + z)])))))) (EScale (1) 2 (ESum (0 + z) 0 (EMul (r_eomt_X_a_ov (1 + z) (0 + z) e) (ET 10 [a; b; (0 + z); j]))))).
Definition r_eomt_X_aa_vvov_1 (z b a j e : nat) : ex := (ESub (r_eomt_X_aa_vvov (0 + z) b a j e) (r_eomt_X_aa_vvov (0 + z) a b j e)).
Definition r_eomt_X_aa_vooo (z b m j i : nat) : ex := (EAdd (ESub (EAdd (EAdd (EOpp (ESum (0 + z) 1 (EMul (ET 22 [b; m; i; (0 + z)]) (ET 51 [(0 + z); j])))) (ESum (0 + z) 0 (ESum (1 + z) 1 (EMul (ET 13 [m; (0 + z); i; (1 + z)]) (ET 53 [b; (1 + z); j; (0 + z)]))))) (ESum (0 + z) 2 (ESum (1 + z) 3 (EMul (ET 14 [m; (0 + z); i; (1 + z)]) (ET 54 [b; (1 + z); j; (0 + z)]))))) (EScale (1) 2 (ESum (0 + z) 0 (EMul (ET 32 [m; (0 + z); i; j]) (ET 51 [b; (0 + z)]))))) (EScale (1) 4 (ESum (0 + z) 1 (ESum (1 + z) 1 (EMul (ET 8 [b; m; (0 + z); (1 + z)]) (ET 53 [(1 + z); (0 + z); i; j])))))).
Definition r_eomt_X_aa_vooo_1 (z b m j i : nat) : ex := (ESub (r_eomt_X_aa_vooo (0 + z) b m j i) (r_eomt_X_aa_vooo (0 + z) b m i j)).
Definition r_eomt_X_ab_vvvo (z b c e k : nat) : ex := (ESub (ESub (EAdd (EAdd (EAdd (EAdd (ESub (EOpp (ESum (0 + z) 0 (EMul (ET 29 [(0 + z); c; e; k]) (ET 51 [b; (0 + z)])))) (ESum (0 + z) 2 (EMul (ET 40 [b; (0 + z); e; k]) (ET 52 [c; (0 + z)])))) (ESum (0 + z) 3 (EMul (ET 47 [b; c; e; (0 + z)]) (ET 52 [(0 + z); k])))) (ESum (0 + z) 0 (ESum (1 + z) 2 (EMul (ET 21 [(0 + z); (1 + z); e; k]) (ET 54 [b; c; (0 + z); (1 + z)]))))) (ESum (0 + z) 0 (ESum (1 + z) 1 (EMul (ET 8 [b; (0 + z); e; (1 + z)]) (ET 54 [(1 + z); c; (0 + z); k]))))) (ESum (0 + z) 2 (ESum (1 + z) 3 (EMul (ET 9 [b; (0 + z); e; (1 + z)]) (ET 58 [(1 + z); c; (0 + z); k]))))) (ESum (0 + z) 0 (ESum (1 + z) 3 (EMul (ET 17 [(0 + z); c; e; (1 + z)]) (ET 54 [b; (1 + z); (0 + z); k]))))) (ESum (0 + z) 0 (EMul (r_eomt_X_a_ov (1 + z) (0 + z) e) (ET 11 [b; c; (0 + z); k])))).
Definition r_eomt_X_ab_ovoo (z n c j k : nat) : ex := (ESub (EAdd (EAdd (EAdd (EAdd (EAdd (EOpp (ESum (0 + z) 2 (EMul (ET 38 [n; (0 + z); j; k]) (ET 52 [c; (0 + z)])))) (ESum (0 + z) 3 (EMul (ET 39 [n; c; j; (0 + z)]) (ET 52 [(0 + z); k])))) (ESum (0 + z) 1 (EMul (ET 29 [n; c; (0 + z); k]) (ET 51 [(0 + z); j])))) (ESum (0 + z) 1 (ESum (1 + z) 3 (EMul (ET 17 [n; c; (0 + z); (1 + z)]) (ET 54 [(0 + z); (1 + z); j; k]))))) (ESum (0 + z) 0 (ESum (1 + z) 1 (EMul (ET 13 [n; (0 + z); j; (1 + z)]) (ET 54 [(1 + z); c; (0 + z); k]))))) (ESum (0 + z) 2 (ESum (1 + z) 3 (EMul (ET 14 [n; (0 + z); j; (1 + z)]) (ET 58 [(1 + z); c; (0 + z); k]))))) (ESum (0 + z) 2 (ESum (1 + z) 1 (EMul (ET 21 [n; (0 + z); (1 + z); k]) (ET 54 [(1 + z); c; j; (0 + z)]))))).
Definition r_eomt_X_ab_vvov (z b c j e : nat) : ex := (ESub (ESub (EAdd (EAdd (EAdd (EAdd (ESub (EOpp (ESum (0 + z) 0 (EMul (ET 39 [(0 + z); c; j; e]) (ET 51 [b; (0 + z)])))) (ESum (0 + z) 2 (EMul (ET 23 [b; (0 + z); j; e]) (ET 52 [c; (0 + z)])))) (ESum (0 + z) 1 (EMul (ET 47 [b; c; (0 + z); e]) (ET 51 [(0 + z); j])))) (ESum (0 + z) 0 (ESum (1 + z) 2 (EMul (ET 14 [(0 + z); (1 + z); j; e]) (ET 54 [b; c; (0 + z); (1 + z)]))))) (ESum (0 + z) 0 (ESum (1 + z) 1 (EMul (ET 17 [(0 + z); c; (1 + z); e]) (ET 53 [b; (1 + z); j; (0 + z)]))))) (ESum (0 + z) 2 (ESum (1 + z) 3 (EMul (ET 16 [c; (0 + z); e; (1 + z)]) (ET 54 [b; (1 + z); j; (0 + z)]))))) (ESum (0 + z) 2 (ESum (1 + z) 1 (EMul (ET 9 [b; (0 + z); (1 + z); e]) (ET 54 [(1 + z); c; j; (0 + z)]))))) (ESum (0 + z) 2 (EMul (r_eomt_X_b_ov (1 + z) (0 + z) e) (ET 11 [b; c; j; (0 + z)])))).
Definition r_eomt_X_ab_vooo (z b n j k : nat) : ex := (ESub (EAdd (EAdd (EAdd (EAdd (EAdd (EOpp (ESum (0 + z) 0 (EMul (ET 38 [(0 + z); n; j; k]) (ET 51 [b; (0 + z)])))) (ESum (0 + z) 3 (EMul (ET 23 [b; n; j; (0 + z)]) (ET 52 [(0 + z); k])))) (ESum (0 + z) 1 (EMul (ET 40 [b; n; (0 + z); k]) (ET 51 [(0 + z); j])))) (ESum (0 + z) 1 (ESum (1 + z) 3 (EMul (ET 9 [b; n; (0 + z); (1 + z)]) (ET 54 [(0 + z); (1 + z); j; k]))))) (ESum (0 + z) 0 (ESum (1 + z) 1 (EMul (ET 21 [(0 + z); n; (1 + z); k]) (ET 53 [b; (1 + z); j; (0 + z)]))))) (ESum (0 + z) 2 (ESum (1 + z) 3 (EMul (ET 20 [n; (0 + z); k; (1 + z)]) (ET 54 [b; (1 + z); j; (0 + z)]))))) (ESum (0 + z) 0 (ESum (1 + z) 3 (EMul (ET 14 [(0 + z); n; j; (1 + z)]) (ET 54 [b; (1 + z); (0 + z); k]))))).
Definition r_eomt_X_bb_vvov (z b a j e : nat) : ex := (ESub (EAdd (EAdd (EAdd (EAdd (ESum (0 + z) 2 (EMul (ET 28 [a; (0 + z); j; e]) (ET 52 [b; (0 + z)]))) (EScale (1) 2 (ESum (0 + z) 3 (EMul (ET 49 [a; b; e; (0 + z)]) (ET 52 [(0 + z); j]))))) (EScale (1) 4 (ESum (0 + z) 2 (ESum (1 + z) 2 (EMul (ET 20 [(0 + z); (1 + z); j; e]) (ET 58 [a; b; (1 + z); (0 + z)])))))) (ESum (0 + z) 2 (ESum (1 + z) 3 (EMul (ET 16 [a; (0 + z); e; (1 + z)]) (ET 58 [b; (1 + z); j; (0 + z)]))))) (ESum (0 + z) 0 (ESum (1 + z) 1 (EMul (ET 17 [(0 + z); a; (1 + z); e]) (ET 54 [(1 + z); b; (0 + z); j]))))) (EScale (1) 2 (ESum (0 + z) 2 (EMul (r_eomt_X_b_ov (1 + z) (0 + z) e) (ET 18 [a; b; (0 + z); j]))))).
Definition r_eomt_X_bb_vvov_1 (z b a j e : nat) : ex := (ESub (r_eomt_X_bb_vvov (0 + z) b a j e) (r_eomt_X_bb_vvov (0 + z) a b j e)).
Definition r_eomt_X_bb_vooo (z b n j i : nat) : ex := (EAdd (EAdd (EAdd (ESub (EScale (-1) 2 (ESum (0 + z) 2 (EMul (ET 35 [n; (0 + z); i; j]) (ET 52 [b; (0 + z)])))) (ESum (0 + z) 3 (EMul (ET 28 [b; n; i; (0 + z)]) (ET 52 [(0 + z); j])))) (EScale (1) 4 (ESum (0 + z) 3 (ESum (1 + z) 3 (EMul (ET 16 [b; n; (0 + z); (1 + z)]) (ET 58 [(1 + z); (0 + z); i; j])))))) (ESum (0 + z) 2 (ESum (1 + z) 3 (EMul (ET 20 [n; (0 + z); i; (1 + z)]) (ET 58 [b; (1 + z); j; (0 + z)]))))) (ESum (0 + z) 0 (ESum (1 + z) 1 (EMul (ET 21 [(0 + z); n; (1 + z); i]) (ET 54 [(1 + z); b; (0 + z); j]))))).
Definition r_eomt_X_bb_vooo_1 (z b n j i : nat) : ex := (ESub (r_eomt_X_bb_vooo (0 + z) b n j i) (r_eomt_X_bb_vooo (0 + z) b n i j)).
Definition r_eomt_X_aa_vvov_2 (z b a j e : nat) : ex := (EAdd (r_eomt_X_aa_vvov_1 (0 + z) b a j e) (ESub (EScale (-1) 2 (ESum (0 + z) 0 (ESum (1 + z) 0 (ESum (2 + z) 1 (EMul (ET 1 [(0 + z); (1 + z); e; (2 + z)]) (ET 55 [b; a; (2 + z); j; (0 + z); (1 + z)])))))) (ESum (0 + z) 0 (ESum (1 + z) 2 (ESum (2 + z) 3 (EMul (ET 3 [(0 + z); (1 + z); e; (2 + z)]) (ET 56 [b; a; (2 + z); j; (0 + z); (1 + z)]))))))).
Definition r_eomt_X_aa_vooo_2 (z b m j i : nat) : ex := (EAdd (r_eomt_X_aa_vooo_1 (0 + z) b m j i) (EAdd (EScale (1) 2 (ESum (0 + z) 0 (ESum (1 + z) 1 (ESum (2 + z) 1 (EMul (ET 1 [m; (0 + z); (1 + z); (2 + z)]) (ET 55 [(1 + z); (2 + z); b; i; (0 + z); j])))))) (ESum (0 + z) 2 (ESum (1 + z) 1 (ESum (2 + z) 3 (EMul (ET 3 [m; (0 + z); (1 + z); (2 + z)]) (ET 56 [(1 + z); b; (2 + z); i; j; (0 + z)]))))))).
Definition r_eomt_X_ab_vvvo_1 (z b c e k : nat) : ex := (EAdd (r_eomt_X_ab_vvvo (0 + z) b c e k) (ESub (EScale (-1) 2 (ESum (0 + z) 0 (ESum (1 + z) 0 (ESum (2 + z) 1 (EMul (ET 1 [(0 + z); (1 + z); e; (2 + z)]) (ET 56 [b; (2 + z); c; (0 + z); (1 + z); k])))))) (ESum (0 + z) 0 (ESum (1 + z) 2 (ESum (2 + z) 3 (EMul (ET 3 [(0 + z); (1 + z); e; (2 + z)]) (ET 57 [b; (2 + z); c; (0 + z); (1 + z); k]))))))).
Definition r_eomt_X_ab_ovoo_1 (z n c j k : nat) : ex := (EAdd (r_eomt_X_ab_ovoo (0 + z) n c j k) (EAdd (EScale (1) 2 (ESum (0 + z) 0 (ESum (1 + z) 1 (ESum (2 + z) 1 (EMul (ET 1 [n; (0 + z); (1 + z); (2 + z)]) (ET 56 [(1 + z); (2 + z); c; j; (0 + z); k])))))) (ESum (0 + z) 2 (ESum (1 + z) 1 (ESum (2 + z) 3 (EMul (ET 3 [n; (0 + z); (1 + z); (2 + z)]) (ET 57 [(1 + z); (2 + z); c; j; (0 + z); k]))))))).
Definition r_eomt_X_ab_vvov_1 (z b c j e : nat) : ex := (EAdd (r_eomt_X_ab_vvov (0 + z) b c j e) (ESub (EOpp (ESum (0 + z) 0 (ESum (1 + z) 2 (ESum (2 + z) 1 (EMul (ET 3 [(0 + z); (1 + z); (2 + z); e]) (ET 56 [b; (2 + z); c; j; (0 + z); (1 + z)])))))) (EScale (1) 2 (ESum (0 + z) 2 (ESum (1 + z) 2 (ESum (2 + z) 3 (EMul (ET 6 [(0 + z); (1 + z); e; (2 + z)]) (ET 57 [b; (2 + z); c; j; (1 + z); (0 + z)])))))))).
Definition r_eomt_X_ab_vooo_1 (z b n j k : nat) : ex := (EAdd (r_eomt_X_ab_vooo (0 + z) b n j k) (EAdd (ESum (0 + z) 0 (ESum (1 + z) 1 (ESum (2 + z) 3 (EMul (ET 3 [(0 + z); n; (1 + z); (2 + z)]) (ET 56 [b; (1 + z); (2 + z); j; (0 + z); k]))))) (EScale (1) 2 (ESum (0 + z) 2 (ESum (1 + z) 3 (ESum (2 + z) 3 (EMul (ET 6 [n; (0 + z); (1 + z); (2 + z)]) (ET 57 [b; (1 + z); (2 + z); j; k; (0 + z)])))))))).
Definition r_eomt_X_bb_vvov_2 (z b a j e : nat) : ex := (EAdd (r_eomt_X_bb_vvov_1 (0 + z) b a j e) (ESub (EScale (-1) 2 (ESum (0 + z) 2 (ESum (1 + z) 2 (ESum (2 + z) 3 (EMul (ET 6 [(0 + z); (1 + z); e; (2 + z)]) (ET 59 [a; b; (2 + z); (0 + z); j; (1 + z)])))))) (ESum (0 + z) 0 (ESum (1 + z) 2 (ESum (2 + z) 1 (EMul (ET 3 [(0 + z); (1 + z); (2 + z); e]) (ET 57 [(2 + z); b; a; (0 + z); j; (1 + z)]))))))).
Definition r_eomt_X_bb_vooo_2 (z b n j i : nat) : ex := (EAdd (r_eomt_X_bb_vooo_1 (0 + z) b n j i) (EAdd (EScale (1) 2 (ESum (0 + z) 2 (ESum (1 + z) 3 (ESum (2 + z) 3 (EMul (ET 6 [n; (0 + z); (1 + z); (2 + z)]) (ET 59 [b; (1 + z); (2 + z); j; i; (0 + z)])))))) (ESum (0 + z) 0 (ESum (1 + z) 1 (ESum (2 + z) 3 (EMul (ET 3 [(0 + z); n; (1 + z); (2 + z)]) (ET 57 [(1 + z); (2 + z); b; (0 + z); i; j]))))))).
Definition r_eomt_X3A (z a b c i j k : nat) : ex := (EScale (1) 4 (ESum (0 + z) 1 (EMul (r_eomt_X_aa_vvov_2 (1 + z) b a j (0 + z)) (ET 10 [(0 + z); c; i; k])))).
Definition r_eomt_X3A_1 (z a b c i j k : nat) : ex := (EAdd (r_eomt_X3A (0 + z) a b c i j k) (EScale (1) 4 (ESum (0 + z) 1 (EMul (ET 34 [b; a; j; (0 + z)]) (ET 53 [(0 + z); c; i; k]))))).
Definition r_eomt_X3A_2 (z a b c i j k : nat) : ex := (ESub (r_eomt_X3A_1 (0 + z) a b c i j k) (EScale (1) 4 (ESum (0 + z) 0 (EMul (r_eomt_X_aa_vooo_2 (1 + z) b (0 + z) j i) (ET 10 [a; c; (0 + z); k]))))).
Definition r_eomt_X3A_3 (z a b c i j k : nat) : ex := (ESub (r_eomt_X3A_2 (0 + z) a b c i j k) (EScale (1) 4 (ESum (0 + z) 0 (EMul (ET 33 [b; (0 + z); j; i]) (ET 53 [a; c; (0 + z); k]))))).
Definition r_eomt_X3A_4 (z a b c i j k : nat) : ex := (EAdd (r_eomt_X3A_3 (0 + z) a b c i j k) (EScale (1) 12 (ESum (0 + z) 1 (EMul (r_eomt_X_a_vv_1 (1 + z) b (0 + z)) (ET 24 [a; (0 + z); c; i; j; k]))))).
Definition r_eomt_X3A_5 (z a b c i j k : nat) : ex := (ESub (r_eomt_X3A_4 (0 + z) a b c i j k) (EScale (1) 12 (ESum (0 + z) 0 (EMul (r_eomt_X_a_oo_1 (1 + z) (0 + z) j) (ET 24 [a; b; c; i; (0 + z); k]))))).
Definition r_eomt_X3A_6 (z a b c i j k : nat) : ex := (EAdd (r_eomt_X3A_5 (0 + z) a b c i j k) (EScale (1) 24 (ESum (0 + z) 0 (ESum (1 + z) 0 (EMul (r_eomt_X_aa_oooo_1 (2 + z) (0 + z) (1 + z) i j) (ET 24 [a; b; c; (0 + z); (1 + z); k])))))).
Definition r_eomt_X3A_7 (z a b c i j k : nat) : ex := (EAdd (r_eomt_X3A_6 (0 + z) a b c i j k) (EScale (1) 24 (ESum (0 + z) 1 (ESum (1 + z) 1 (EMul (r_eomt_X_aa_vvvv_1 (2 + z) a b (0 + z) (1 + z)) (ET 24 [(0 + z); (1 + z); c; i; j; k])))))).
Definition r_eomt_X3A_8 (z a b c i j k : nat) : ex := (EAdd (r_eomt_X3A_7 (0 + z) a b c i j k) (EScale (1) 4 (ESum (0 + z) 0 (ESum (1 + z) 1 (EMul (r_eomt_X_aa_voov (2 + z) b (0 + z) j (1 + z)) (ET 24 [a; (1 + z); c; i; (0 + z); k])))))).
Definition r_eomt_X3A_9 (z a b c i j k : nat) : ex := (EAdd (r_eomt_X3A_8 (0 + z) a b c i j k) (EScale (1) 4 (ESum (0 + z) 2 (ESum (1 + z) 3 (EMul (r_eomt_X_ab_voov (2 + z) b (0 + z) j (1 + z)) (ET 25 [a; c; (1 + z); i; k; (0 + z)])))))).
Definition r_eomt_X3A_10 (z a b c i j k : nat) : ex := (ESub (r_eomt_X3A_9 (0 + z) a b c i j k) (EScale (1) 12 (ESum (0 + z) 0 (EMul (ET 12 [(0 + z); j]) (ET 55 [a; b; c; i; (0 + z); k]))))).
Definition r_eomt_X3A_11 (z a b c i j k : nat) : ex := (EAdd (r_eomt_X3A_10 (0 + z) a b c i j k) (EScale (1) 12 (ESum (0 + z) 1 (EMul (ET 7 [b; (0 + z)]) (ET 55 [a; (0 + z); c; i; j; k]))))).
Definition r_eomt_X3A_12 (z a b c i j k : nat) : ex := (EAdd (r_eomt_X3A_11 (0 + z) a b c i j k) (EScale (1) 24 (ESum (0 + z) 0 (ESum (1 + z) 0 (EMul (ET 32 [(0 + z); (1 + z); i; j]) (ET 55 [a; b; c; (0 + z); (1 + z); k])))))).
Definition r_eomt_X3A_13 (z a b c i j k : nat) : ex := (EAdd (r_eomt_X3A_12 (0 + z) a b c i j k) (EScale (1) 24 (ESum (0 + z) 1 (ESum (1 + z) 1 (EMul (ET 45 [a; b; (0 + z); (1 + z)]) (ET 55 [(0 + z); (1 + z); c; i; j; k])))))).
Definition r_eomt_X3A_14 (z a b c i j k : nat) : ex := (EAdd (r_eomt_X3A_13 (0 + z) a b c i j k) (EScale (1) 4 (ESum (0 + z) 0 (ESum (1 + z) 1 (EMul (ET 22 [a; (0 + z); i; (1 + z)]) (ET 55 [(1 + z); b; c; (0 + z); j; k])))))).
Definition r_eomt_X3A_15 (z a b c i j k : nat) : ex := (EAdd (r_eomt_X3A_14 (0 + z) a b c i j k) (EScale (1) 4 (ESum (0 + z) 2 (ESum (1 + z) 3 (EMul (ET 23 [a; (0 + z); i; (1 + z)]) (ET 56 [b; c; (1 + z); j; k; (0 + z)])))))).
Definition r_eomt_X3A_16 (z a b c i j k : nat) : ex := (ESub (r_eomt_X3A_15 (0 + z) a b c i j k) (r_eomt_X3A_15 (0 + z) a b c i k j)).
Definition r_eomt_X3A_17 (z a b c i j k : nat) : ex := (ESub (r_eomt_X3A_16 (0 + z) a b c i j k) (EAdd (r_eomt_X3A_16 (0 + z) a b c j i k) (r_eomt_X3A_16 (0 + z) a b c k j i))).
Definition r_eomt_X3A_18 (z a b c i j k : nat) : ex := (ESub (r_eomt_X3A_17 (0 + z) a b c i j k) (r_eomt_X3A_17 (0 + z) a c b i j k)).
Definition r_eomt_X3A_19 (z a b c i j k : nat) : ex := (ESub (r_eomt_X3A_18 (0 + z) a b c i j k) (EAdd (r_eomt_X3A_18 (0 + z) b a c i j k) (r_eomt_X3A_18 (0 + z) c b a i j k))).
Definition r_eomt_X3B (z a b c i j k : nat) : ex := (EScale (1) 2 (ESum (0 + z) 1 (EMul (r_eomt_X_ab_vvvo_1 (1 + z) b c (0 + z) k) (ET 10 [a; (0 + z); i; j])))).
Definition r_eomt_X3B_1 (z a b c i j k : nat) : ex := (EAdd (r_eomt_X3B (0 + z) a b c i j k) (EScale (1) 2 (ESum (0 + z) 1 (EMul (ET 43 [b; c; (0 + z); k]) (ET 53 [a; (0 + z); i; j]))))).
Definition r_eomt_X3B_2 (z a b c i j k : nat) : ex := (ESub (r_eomt_X3B_1 (0 + z) a b c i j k) (EScale (1) 2 (ESum (0 + z) 0 (EMul (r_eomt_X_ab_ovoo_1 (1 + z) (0 + z) c j k) (ET 10 [a; b; i; (0 + z)]))))).
Definition r_eomt_X3B_3 (z a b c i j k : nat) : ex := (ESub (r_eomt_X3B_2 (0 + z) a b c i j k) (EScale (1) 2 (ESum (0 + z) 0 (EMul (ET 41 [(0 + z); c; j; k]) (ET 53 [a; b; i; (0 + z)]))))).
Definition r_eomt_X3B_4 (z a b c i j k : nat) : ex := (EAdd (r_eomt_X3B_3 (0 + z) a b c i j k) (EScale (1) 2 (ESum (0 + z) 1 (EMul (r_eomt_X_aa_vvov_2 (1 + z) b a j (0 + z)) (ET 11 [(0 + z); c; i; k]))))).
Definition r_eomt_X3B_5 (z a b c i j k : nat) : ex := (EAdd (r_eomt_X3B_4 (0 + z) a b c i j k) (EScale (1) 2 (ESum (0 + z) 1 (EMul (ET 34 [b; a; j; (0 + z)]) (ET 54 [(0 + z); c; i; k]))))).
Definition r_eomt_X3B_6 (z a b c i j k : nat) : ex := (ESub (r_eomt_X3B_5 (0 + z) a b c i j k) (EScale (1) 2 (ESum (0 + z) 0 (EMul (r_eomt_X_aa_vooo_2 (1 + z) b (0 + z) j i) (ET 11 [a; c; (0 + z); k]))))).
Definition r_eomt_X3B_7 (z a b c i j k : nat) : ex := (ESub (r_eomt_X3B_6 (0 + z) a b c i j k) (EScale (1) 2 (ESum (0 + z) 0 (EMul (ET 33 [b; (0 + z); j; i]) (ET 54 [a; c; (0 + z); k]))))).
Definition r_eomt_X3B_8 (z a b c i j k : nat) : ex := (EAdd (r_eomt_X3B_7 (0 + z) a b c i j k) (ESum (0 + z) 3 (EMul (r_eomt_X_ab_vvov_1 (1 + z) b c j (0 + z)) (ET 11 [a; (0 + z); i; k])))).
Definition r_eomt_X3B_9 (z a b c i j k : nat) : ex := (EAdd (r_eomt_X3B_8 (0 + z) a b c i j k) (ESum (0 + z) 3 (EMul (ET 44 [b; c; j; (0 + z)]) (ET 54 [a; (0 + z); i; k])))).
Definition r_eomt_X3B_10 (z a b c i j k : nat) : ex := (ESub (r_eomt_X3B_9 (0 + z) a b c i j k) (ESum (0 + z) 2 (EMul (r_eomt_X_ab_vooo_1 (1 + z) b (0 + z) j k) (ET 11 [a; c; i; (0 + z)])))).
Definition r_eomt_X3B_11 (z a b c i j k : nat) : ex := (ESub (r_eomt_X3B_10 (0 + z) a b c i j k) (ESum (0 + z) 2 (EMul (ET 42 [b; (0 + z); j; k]) (ET 54 [a; c; i; (0 + z)])))).
Definition r_eomt_X3B_12 (z a b c i j k : nat) : ex := (EAdd (r_eomt_X3B_11 (0 + z) a b c i j k) (EScale (1) 2 (ESum (0 + z) 1 (EMul (r_eomt_X_a_vv_1 (1 + z) b (0 + z)) (ET 25 [a; (0 + z); c; i; j; k]))))).
Definition r_eomt_X3B_13 (z a b c i j k : nat) : ex := (EAdd (r_eomt_X3B_12 (0 + z) a b c i j k) (EScale (1) 4 (ESum (0 + z) 3 (EMul (r_eomt_X_b_vv_1 (1 + z) c (0 + z)) (ET 25 [a; b; (0 + z); i; j; k]))))).
Definition r_eomt_X3B_14 (z a b c i j k : nat) : ex := (ESub (r_eomt_X3B_13 (0 + z) a b c i j k) (EScale (1) 2 (ESum (0 + z) 0 (EMul (r_eomt_X_a_oo_1 (1 + z) (0 + z) j) (ET 25 [a; b; c; i; (0 + z); k]))))).
Definition r_eomt_X3B_15 (z a b c i j k : nat) : ex := (ESub (r_eomt_X3B_14 (0 + z) a b c i j k) (EScale (1) 4 (ESum (0 + z) 2 (EMul (r_eomt_X_b_oo_1 (1 + z) (0 + z) k) (ET 25 [a; b; c; i; j; (0 + z)]))))).
Definition r_eomt_X3B_16 (z a b c i j k : nat) : ex := (EAdd (r_eomt_X3B_15 (0 + z) a b c i j k) (EScale (1) 2 (ESum (0 + z) 0 (ESum (1 + z) 2 (EMul (r_eomt_X_ab_oooo (2 + z) (0 + z) (1 + z) j k) (ET 25 [a; b; c; i; (0 + z); (1 + z)])))))).
Definition r_eomt_X3B_17 (z a b c i j k : nat) : ex := (EAdd (r_eomt_X3B_16 (0 + z) a b c i j k) (EScale (1) 8 (ESum (0 + z) 0 (ESum (1 + z) 0 (EMul (r_eomt_X_aa_oooo_1 (2 + z) (0 + z) (1 + z) i j) (ET 25 [a; b; c; (0 + z); (1 + z); k])))))).
Definition r_eomt_X3B_18 (z a b c i j k : nat) : ex := (EAdd (r_eomt_X3B_17 (0 + z) a b c i j k) (EScale (1) 2 (ESum (0 + z) 1 (ESum (1 + z) 3 (EMul (r_eomt_X_ab_vvvv (2 + z) b c (0 + z) (1 + z)) (ET 25 [a; (0 + z); (1 + z); i; j; k])))))).
Definition r_eomt_X3B_19 (z a b c i j k : nat) : ex := (EAdd (r_eomt_X3B_18 (0 + z) a b c i j k) (EScale (1) 8 (ESum (0 + z) 1 (ESum (1 + z) 1 (EMul (r_eomt_X_aa_vvvv_1 (2 + z) a b (0 + z) (1 + z)) (ET 25 [(0 + z); (1 + z); c; i; j; k])))))).
Definition r_eomt_X3B_20 (z a b c i j k : nat) : ex := (EAdd (r_eomt_X3B_19 (0 + z) a b c i j k) (EScale (1) 4 (ESum (0 + z) 0 (ESum (1 + z) 1 (EMul (r_eomt_X_ab_ovvo (2 + z) (0 + z) c (1 + z) k) (ET 24 [a; b; (1 + z); i; j; (0 + z)])))))).
Definition r_eomt_X3B_21 (z a b c i j k : nat) : ex := (EAdd (r_eomt_X3B_20 (0 + z) a b c i j k) (EScale (1) 4 (ESum (0 + z) 2 (ESum (1 + z) 3 (EMul (r_eomt_X_bb_voov (2 + z) c (0 + z) k (1 + z)) (ET 25 [a; b; (1 + z); i; j; (0 + z)])))))).
Definition r_eomt_X3B_22 (z a b c i j k : nat) : ex := (ESub (r_eomt_X3B_21 (0 + z) a b c i j k) (EScale (1) 2 (ESum (0 + z) 2 (ESum (1 + z) 1 (EMul (r_eomt_X_ab_vovo (2 + z) b (0 + z) (1 + z) k) (ET 25 [a; (1 + z); c; i; j; (0 + z)])))))).
Definition r_eomt_X3B_23 (z a b c i j k : nat) : ex := (ESub (r_eomt_X3B_22 (0 + z) a b c i j k) (EScale (1) 2 (ESum (0 + z) 0 (ESum (1 + z) 3 (EMul (r_eomt_X_ab_ovov (2 + z) (0 + z) c j (1 + z)) (ET 25 [a; b; (1 + z); i; (0 + z); k])))))).
Definition r_eomt_X3B_24 (z a b c i j k : nat) : ex := (EAdd (r_eomt_X3B_23 (0 + z) a b c i j k) (ESum (0 + z) 0 (ESum (1 + z) 1 (EMul (r_eomt_X_aa_voov (2 + z) b (0 + z) j (1 + z)) (ET 25 [a; (1 + z); c; i; (0 + z); k]))))).
Definition r_eomt_X3B_25 (z a b c i j k : nat) : ex := (EAdd (r_eomt_X3B_24 (0 + z) a b c i j k) (ESum (0 + z) 2 (ESum (1 + z) 3 (EMul (r_eomt_X_ab_voov (2 + z) b (0 + z) j (1 + z)) (ET 26 [a; (1 + z); c; i; (0 + z); k]))))).
Definition r_eomt_X3B_26 (z a b c i j k : nat) : ex := (ESub (r_eomt_X3B_25 (0 + z) a b c i j k) (EScale (1) 2 (ESum (0 + z) 0 (EMul (ET 12 [(0 + z); j]) (ET 56 [a; b; c; i; (0 + z); k]))))).
Definition r_eomt_X3B_27 (z a b c i j k : nat) : ex := (ESub (r_eomt_X3B_26 (0 + z) a b c i j k) (EScale (1) 4 (ESum (0 + z) 2 (EMul (ET 19 [(0 + z); k]) (ET 56 [a; b; c; i; j; (0 + z)]))))).
Definition r_eomt_X3B_28 (z a b c i j k : nat) : ex := (EAdd (r_eomt_X3B_27 (0 + z) a b c i j k) (EScale (1) 2 (ESum (0 + z) 1 (EMul (ET 7 [b; (0 + z)]) (ET 56 [a; (0 + z); c; i; j; k]))))).
Definition r_eomt_X3B_29 (z a b c i j k : nat) : ex := (EAdd (r_eomt_X3B_28 (0 + z) a b c i j k) (EScale (1) 4 (ESum (0 + z) 3 (EMul (ET 15 [c; (0 + z)]) (ET 56 [a; b; (0 + z); i; j; k]))))).
Definition r_eomt_X3B_30 (z a b c i j k : nat) : ex := (EAdd (r_eomt_X3B_29 (0 + z) a b c i j k) (EScale (1) 8 (ESum (0 + z) 0 (ESum (1 + z) 0 (EMul (ET 32 [(0 + z); (1 + z); i; j]) (ET 56 [a; b; c; (0 + z); (1 + z); k])))))).
Definition r_eomt_X3B_31 (z a b c i j k : nat) : ex := (EAdd (r_eomt_X3B_30 (0 + z) a b c i j k) (EScale (1) 2 (ESum (0 + z) 0 (ESum (1 + z) 2 (EMul (ET 38 [(0 + z); (1 + z); j; k]) (ET 56 [a; b; c; i; (0 + z); (1 + z)])))))).
Definition r_eomt_X3B_32 (z a b c i j k : nat) : ex := (EAdd (r_eomt_X3B_31 (0 + z) a b c i j k) (EScale (1) 8 (ESum (0 + z) 1 (ESum (1 + z) 1 (EMul (ET 45 [a; b; (0 + z); (1 + z)]) (ET 56 [(0 + z); (1 + z); c; i; j; k])))))).
Definition r_eomt_X3B_33 (z a b c i j k : nat) : ex := (EAdd (r_eomt_X3B_32 (0 + z) a b c i j k) (EScale (1) 2 (ESum (0 + z) 1 (ESum (1 + z) 3 (EMul (ET 47 [b; c; (0 + z); (1 + z)]) (ET 56 [a; (0 + z); (1 + z); i; j; k])))))).
Definition r_eomt_X3B_34 (z a b c i j k : nat) : ex := (EAdd (r_eomt_X3B_33 (0 + z) a b c i j k) (ESum (0 + z) 0 (ESum (1 + z) 1 (EMul (ET 22 [a; (0 + z); i; (1 + z)]) (ET 56 [(1 + z); b; c; (0 + z); j; k]))))).
Definition r_eomt_X3B_35 (z a b c i j k : nat) : ex := (EAdd (r_eomt_X3B_34 (0 + z) a b c i j k) (ESum (0 + z) 2 (ESum (1 + z) 3 (EMul (ET 23 [a; (0 + z); i; (1 + z)]) (ET 57 [b; (1 + z); c; j; (0 + z); k]))))).
Definition r_eomt_X3B_36 (z a b c i j k : nat) : ex := (EAdd (r_eomt_X3B_35 (0 + z) a b c i j k) (EScale (1) 4 (ESum (0 + z) 0 (ESum (1 + z) 1 (EMul (ET 29 [(0 + z); c; (1 + z); k]) (ET 55 [a; b; (1 + z); i; j; (0 + z)])))))).
Definition r_eomt_X3B_37 (z a b c i j k : nat) : ex := (EAdd (r_eomt_X3B_36 (0 + z) a b c i j k) (EScale (1) 4 (ESum (0 + z) 2 (ESum (1 + z) 3 (EMul (ET 28 [c; (0 + z); k; (1 + z)]) (ET 56 [a; b; (1 + z); i; j; (0 + z)])))))).
Definition r_eomt_X3B_38 (z a b c i j k : nat) : ex := (ESub (r_eomt_X3B_37 (0 + z) a b c i j k) (EScale (1) 2 (ESum (0 + z) 2 (ESum (1 + z) 1 (EMul (ET 40 [b; (0 + z); (1 + z); k]) (ET 56 [a; (1 + z); c; i; j; (0 + z)])))))).
Definition r_eomt_X3B_39 (z a b c i j k : nat) : ex := (ESub (r_eomt_X3B_38 (0 + z) a b c i j k) (EScale (1) 2 (ESum (0 + z) 0 (ESum (1 + z) 3 (EMul (ET 39 [(0 + z); c; j; (1 + z)]) (ET 56 [a; b; (1 + z); i; (0 + z); k])))))).
Definition r_eomt_X3B_40 (z a b c i j k : nat) : ex := (ESub (r_eomt_X3B_39 (0 + z) a b c i j k) (r_eomt_X3B_39 (0 + z) b a c i j k)).
Definition r_eomt_X3B_41 (z a b c i j k : nat) : ex := (ESub (r_eomt_X3B_40 (0 + z) a b c i j k) (r_eomt_X3B_40 (0 + z) a b c j i k)).
Definition r_eomt_X3C (z c b a k j i : nat) : ex := (EScale (1) 2 (ESum (0 + z) 3 (EMul (r_eomt_X_ab_vvov_1 (1 + z) c b k (0 + z)) (ET 18 [a; (0 + z); i; j])))).
Definition r_eomt_X3C_1 (z c b a k j i : nat) : ex := (EAdd (r_eomt_X3C (0 + z) c b a k j i) (EScale (1) 2 (ESum (0 + z) 3 (EMul (ET 44 [c; b; k; (0 + z)]) (ET 58 [a; (0 + z); i; j]))))).
Definition r_eomt_X3C_2 (z c b a k j i : nat) : ex := (ESub (r_eomt_X3C_1 (0 + z) c b a k j i) (EScale (1) 2 (ESum (0 + z) 2 (EMul (r_eomt_X_ab_vooo_1 (1 + z) c (0 + z) k j) (ET 18 [a; b; i; (0 + z)]))))).
Definition r_eomt_X3C_3 (z c b a k j i : nat) : ex := (ESub (r_eomt_X3C_2 (0 + z) c b a k j i) (EScale (1) 2 (ESum (0 + z) 2 (EMul (ET 42 [c; (0 + z); k; j]) (ET 58 [a; b; i; (0 + z)]))))).
Definition r_eomt_X3C_4 (z c b a k j i : nat) : ex := (EAdd (r_eomt_X3C_3 (0 + z) c b a k j i) (EScale (1) 2 (ESum (0 + z) 3 (EMul (r_eomt_X_bb_vvov_2 (1 + z) b a j (0 + z)) (ET 11 [c; (0 + z); k; i]))))).
Definition r_eomt_X3C_5 (z c b a k j i : nat) : ex := (EAdd (r_eomt_X3C_4 (0 + z) c b a k j i) (EScale (1) 2 (ESum (0 + z) 3 (EMul (ET 37 [b; a; j; (0 + z)]) (ET 54 [c; (0 + z); k; i]))))).
Definition r_eomt_X3C_6 (z c b a k j i : nat) : ex := (ESub (r_eomt_X3C_5 (0 + z) c b a k j i) (EScale (1) 2 (ESum (0 + z) 2 (EMul (r_eomt_X_bb_vooo_2 (1 + z) b (0 + z) j i) (ET 11 [c; a; k; (0 + z)]))))).
Definition r_eomt_X3C_7 (z c b a k j i : nat) : ex := (ESub (r_eomt_X3C_6 (0 + z) c b a k j i) (EScale (1) 2 (ESum (0 + z) 2 (EMul (ET 36 [b; (0 + z); j; i]) (ET 54 [c; a; k; (0 + z)]))))).
Definition r_eomt_X3C_8 (z c b a k j i : nat) : ex := (EAdd (r_eomt_X3C_7 (0 + z) c b a k j i) (ESum (0 + z) 1 (EMul (r_eomt_X_ab_vvvo_1 (1 + z) c b (0 + z) j) (ET 11 [(0 + z); a; k; i])))).
Definition r_eomt_X3C_9 (z c b a k j i : nat) : ex := (EAdd (r_eomt_X3C_8 (0 + z) c b a k j i) (ESum (0 + z) 1 (EMul (ET 43 [c; b; (0 + z); j]) (ET 54 [(0 + z); a; k; i])))).
Definition r_eomt_X3C_10 (z c b a k j i : nat) : ex := (ESub (r_eomt_X3C_9 (0 + z) c b a k j i) (ESum (0 + z) 0 (EMul (r_eomt_X_ab_ovoo_1 (1 + z) (0 + z) b k j) (ET 11 [c; a; (0 + z); i])))).
Definition r_eomt_X3C_11 (z c b a k j i : nat) : ex := (ESub (r_eomt_X3C_10 (0 + z) c b a k j i) (ESum (0 + z) 0 (EMul (ET 41 [(0 + z); b; k; j]) (ET 54 [c; a; (0 + z); i])))).
Definition r_eomt_X3C_12 (z c b a k j i : nat) : ex := (EAdd (r_eomt_X3C_11 (0 + z) c b a k j i) (EScale (1) 2 (ESum (0 + z) 3 (EMul (r_eomt_X_b_vv_1 (1 + z) b (0 + z)) (ET 26 [c; (0 + z); a; k; j; i]))))).
Definition r_eomt_X3C_13 (z c b a k j i : nat) : ex := (EAdd (r_eomt_X3C_12 (0 + z) c b a k j i) (EScale (1) 4 (ESum (0 + z) 1 (EMul (r_eomt_X_a_vv_1 (1 + z) c (0 + z)) (ET 26 [(0 + z); b; a; k; j; i]))))).
Definition r_eomt_X3C_14 (z c b a k j i : nat) : ex := (ESub (r_eomt_X3C_13 (0 + z) c b a k j i) (EScale (1) 2 (ESum (0 + z) 2 (EMul (r_eomt_X_b_oo_1 (1 + z) (0 + z) j) (ET 26 [c; b; a; k; (0 + z); i]))))).
Definition r_eomt_X3C_15 (z c b a k j i : nat) : ex := (ESub (r_eomt_X3C_14 (0 + z) c b a k j i) (EScale (1) 4 (ESum (0 + z) 0 (EMul (r_eomt_X_a_oo_1 (1 + z) (0 + z) k) (ET 26 [c; b; a; (0 + z); j; i]))))).
Definition r_eomt_X3C_16 (z c b a k j i : nat) : ex := (EAdd (r_eomt_X3C_15 (0 + z) c b a k j i) (EScale (1) 2 (ESum (0 + z) 0 (ESum (1 + z) 2 (EMul (r_eomt_X_ab_oooo (2 + z) (0 + z) (1 + z) k j) (ET 26 [c; b; a; (0 + z); (1 + z); i])))))).
Definition r_eomt_X3C_17 (z c b a k j i : nat) : ex := (EAdd (r_eomt_X3C_16 (0 + z) c b a k j i) (EScale (1) 8 (ESum (0 + z) 2 (ESum (1 + z) 2 (EMul (r_eomt_X_bb_oooo_1 (2 + z) (0 + z) (1 + z) i j) (ET 26 [c; b; a; k; (1 + z); (0 + z)])))))).
Definition r_eomt_X3C_18 (z c b a k j i : nat) : ex := (EAdd (r_eomt_X3C_17 (0 + z) c b a k j i) (EScale (1) 2 (ESum (0 + z) 1 (ESum (1 + z) 3 (EMul (r_eomt_X_ab_vvvv (2 + z) c b (0 + z) (1 + z)) (ET 26 [(0 + z); (1 + z); a; k; j; i])))))).
Definition r_eomt_X3C_19 (z c b a k j i : nat) : ex := (EAdd (r_eomt_X3C_18 (0 + z) c b a k j i) (EScale (1) 8 (ESum (0 + z) 3 (ESum (1 + z) 3 (EMul (r_eomt_X_bb_vvvv_1 (2 + z) a b (0 + z) (1 + z)) (ET 26 [c; (1 + z); (0 + z); k; j; i])))))).
Definition r_eomt_X3C_20 (z c b a k j i : nat) : ex := (EAdd (r_eomt_X3C_19 (0 + z) c b a k j i) (EScale (1) 4 (ESum (0 + z) 2 (ESum (1 + z) 3 (EMul (r_eomt_X_ab_voov (2 + z) c (0 + z) k (1 + z)) (ET 30 [a; b; (1 + z); i; j; (0 + z)])))))).
Definition r_eomt_X3C_21 (z c b a k j i : nat) : ex := (EAdd (r_eomt_X3C_20 (0 + z) c b a k j i) (EScale (1) 4 (ESum (0 + z) 0 (ESum (1 + z) 1 (EMul (r_eomt_X_aa_voov (2 + z) c (0 + z) k (1 + z)) (ET 26 [(1 + z); b; a; (0 + z); j; i])))))).
Definition r_eomt_X3C_22 (z c b a k j i : nat) : ex := (ESub (r_eomt_X3C_21 (0 + z) c b a k j i) (EScale (1) 2 (ESum (0 + z) 0 (ESum (1 + z) 3 (EMul (r_eomt_X_ab_ovov (2 + z) (0 + z) b k (1 + z)) (ET 26 [c; (1 + z); a; (0 + z); j; i])))))).
Definition r_eomt_X3C_23 (z c b a k j i : nat) : ex := (ESub (r_eomt_X3C_22 (0 + z) c b a k j i) (EScale (1) 2 (ESum (0 + z) 2 (ESum (1 + z) 1 (EMul (r_eomt_X_ab_vovo (2 + z) c (0 + z) (1 + z) j) (ET 26 [(1 + z); b; a; k; (0 + z); i])))))).
Definition r_eomt_X3C_24 (z c b a k j i : nat) : ex := (EAdd (r_eomt_X3C_23 (0 + z) c b a k j i) (ESum (0 + z) 2 (ESum (1 + z) 3 (EMul (r_eomt_X_bb_voov (2 + z) b (0 + z) j (1 + z)) (ET 26 [c; (1 + z); a; k; (0 + z); i]))))).
Definition r_eomt_X3C_25 (z c b a k j i : nat) : ex := (EAdd (r_eomt_X3C_24 (0 + z) c b a k j i) (ESum (0 + z) 0 (ESum (1 + z) 1 (EMul (r_eomt_X_ab_ovvo (2 + z) (0 + z) b (1 + z) j) (ET 25 [c; (1 + z); a; k; (0 + z); i]))))).
Definition r_eomt_X3C_26 (z c b a k j i : nat) : ex := (ESub (r_eomt_X3C_25 (0 + z) c b a k j i) (EScale (1) 2 (ESum (0 + z) 2 (EMul (ET 19 [(0 + z); j]) (ET 57 [c; b; a; k; (0 + z); i]))))).
Definition r_eomt_X3C_27 (z c b a k j i : nat) : ex := (ESub (r_eomt_X3C_26 (0 + z) c b a k j i) (EScale (1) 4 (ESum (0 + z) 0 (EMul (ET 12 [(0 + z); k]) (ET 57 [c; b; a; (0 + z); j; i]))))).
Definition r_eomt_X3C_28 (z c b a k j i : nat) : ex := (EAdd (r_eomt_X3C_27 (0 + z) c b a k j i) (EScale (1) 2 (ESum (0 + z) 3 (EMul (ET 15 [b; (0 + z)]) (ET 57 [c; (0 + z); a; k; j; i]))))).
Definition r_eomt_X3C_29 (z c b a k j i : nat) : ex := (EAdd (r_eomt_X3C_28 (0 + z) c b a k j i) (EScale (1) 4 (ESum (0 + z) 1 (EMul (ET 7 [c; (0 + z)]) (ET 57 [(0 + z); b; a; k; j; i]))))).
Definition r_eomt_X3C_30 (z c b a k j i : nat) : ex := (EAdd (r_eomt_X3C_29 (0 + z) c b a k j i) (EScale (1) 8 (ESum (0 + z) 2 (ESum (1 + z) 2 (EMul (ET 35 [(0 + z); (1 + z); i; j]) (ET 57 [c; b; a; k; (1 + z); (0 + z)])))))).
Definition r_eomt_X3C_31 (z c b a k j i : nat) : ex := (EAdd (r_eomt_X3C_30 (0 + z) c b a k j i) (EScale (1) 2 (ESum (0 + z) 0 (ESum (1 + z) 2 (EMul (ET 38 [(0 + z); (1 + z); k; j]) (ET 57 [c; b; a; (0 + z); (1 + z); i])))))).
Definition r_eomt_X3C_32 (z c b a k j i : nat) : ex := (EAdd (r_eomt_X3C_31 (0 + z) c b a k j i) (EScale (1) 8 (ESum (0 + z) 3 (ESum (1 + z) 3 (EMul (ET 49 [a; b; (0 + z); (1 + z)]) (ET 57 [c; (1 + z); (0 + z); k; j; i])))))).
Definition r_eomt_X3C_33 (z c b a k j i : nat) : ex := (EAdd (r_eomt_X3C_32 (0 + z) c b a k j i) (EScale (1) 2 (ESum (0 + z) 1 (ESum (1 + z) 3 (EMul (ET 47 [c; b; (0 + z); (1 + z)]) (ET 57 [(0 + z); (1 + z); a; k; j; i])))))).
Definition r_eomt_X3C_34 (z c b a k j i : nat) : ex := (EAdd (r_eomt_X3C_33 (0 + z) c b a k j i) (ESum (0 + z) 2 (ESum (1 + z) 3 (EMul (ET 28 [a; (0 + z); i; (1 + z)]) (ET 57 [c; b; (1 + z); k; j; (0 + z)]))))).
Definition r_eomt_X3C_35 (z c b a k j i : nat) : ex := (EAdd (r_eomt_X3C_34 (0 + z) c b a k j i) (ESum (0 + z) 0 (ESum (1 + z) 1 (EMul (ET 29 [(0 + z); a; (1 + z); i]) (ET 56 [c; (1 + z); b; k; (0 + z); j]))))).
Definition r_eomt_X3C_36 (z c b a k j i : nat) : ex := (EAdd (r_eomt_X3C_35 (0 + z) c b a k j i) (EScale (1) 4 (ESum (0 + z) 2 (ESum (1 + z) 3 (EMul (ET 23 [c; (0 + z); k; (1 + z)]) (ET 59 [(1 + z); b; a; (0 + z); j; i])))))).
Definition r_eomt_X3C_37 (z c b a k j i : nat) : ex := (EAdd (r_eomt_X3C_36 (0 + z) c b a k j i) (EScale (1) 4 (ESum (0 + z) 0 (ESum (1 + z) 1 (EMul (ET 22 [c; (0 + z); k; (1 + z)]) (ET 57 [(1 + z); b; a; (0 + z); j; i])))))).
Definition r_eomt_X3C_38 (z c b a k j i : nat) : ex := (ESub (r_eomt_X3C_37 (0 + z) c b a k j i) (EScale (1) 2 (ESum (0 + z) 0 (ESum (1 + z) 3 (EMul (ET 39 [(0 + z); b; k; (1 + z)]) (ET 57 [c; (1 + z); a; (0 + z); j; i])))))).
Definition r_eomt_X3C_39 (z c b a k j i : nat) : ex := (ESub (r_eomt_X3C_38 (0 + z) c b a k j i) (EScale (1) 2 (ESum (0 + z) 2 (ESum (1 + z) 1 (EMul (ET 40 [c; (0 + z); (1 + z); j]) (ET 57 [(1 + z); b; a; k; (0 + z); i])))))).
Definition r_eomt_X3C_40 (z c b a k j i : nat) : ex := (ESub (r_eomt_X3C_39 (0 + z) c b a k j i) (r_eomt_X3C_39 (0 + z) c a b k j i)).
Definition r_eomt_X3C_41 (z c b a k j i : nat) : ex := (ESub (r_eomt_X3C_40 (0 + z) c b a k j i) (r_eomt_X3C_40 (0 + z) c b a k i j)).
Definition r_eomt_X3D (z a b c i j k : nat) : ex := (EScale (1) 4 (ESum (0 + z) 3 (EMul (r_eomt_X_bb_vvov_2 (1 + z) b a j (0 + z)) (ET 18 [(0 + z); c; i; k])))).
Definition r_eomt_X3D_1 (z a b c i j k : nat) : ex := (EAdd (r_eomt_X3D (0 + z) a b c i j k) (EScale (1) 4 (ESum (0 + z) 3 (EMul (ET 37 [b; a; j; (0 + z)]) (ET 58 [(0 + z); c; i; k]))))).
Definition r_eomt_X3D_2 (z a b c i j k : nat) : ex := (ESub (r_eomt_X3D_1 (0 + z) a b c i j k) (EScale (1) 4 (ESum (0 + z) 2 (EMul (r_eomt_X_bb_vooo_2 (1 + z) b (0 + z) j i) (ET 18 [a; c; (0 + z); k]))))).
Definition r_eomt_X3D_3 (z a b c i j k : nat) : ex := (ESub (r_eomt_X3D_2 (0 + z) a b c i j k) (EScale (1) 4 (ESum (0 + z) 2 (EMul (ET 36 [b; (0 + z); j; i]) (ET 58 [a; c; (0 + z); k]))))).
Definition r_eomt_X3D_4 (z a b c i j k : nat) : ex := (EAdd (r_eomt_X3D_3 (0 + z) a b c i j k) (EScale (1) 12 (ESum (0 + z) 3 (EMul (r_eomt_X_b_vv_1 (1 + z) b (0 + z)) (ET 30 [a; (0 + z); c; i; j; k]))))).
Definition r_eomt_X3D_5 (z a b c i j k : nat) : ex := (ESub (r_eomt_X3D_4 (0 + z) a b c i j k) (EScale (1) 12 (ESum (0 + z) 2 (EMul (r_eomt_X_b_oo_1 (1 + z) (0 + z) j) (ET 30 [a; b; c; i; (0 + z); k]))))).
Definition r_eomt_X3D_6 (z a b c i j k : nat) : ex := (EAdd (r_eomt_X3D_5 (0 + z) a b c i j k) (EScale (1) 24 (ESum (0 + z) 2 (ESum (1 + z) 2 (EMul (r_eomt_X_bb_oooo_1 (2 + z) (0 + z) (1 + z) i j) (ET 30 [a; b; c; (0 + z); (1 + z); k])))))).
Definition r_eomt_X3D_7 (z a b c i j k : nat) : ex := (EAdd (r_eomt_X3D_6 (0 + z) a b c i j k) (EScale (1) 24 (ESum (0 + z) 3 (ESum (1 + z) 3 (EMul (r_eomt_X_bb_vvvv_1 (2 + z) a b (0 + z) (1 + z)) (ET 30 [(0 + z); (1 + z); c; i; j; k])))))).
Definition r_eomt_X3D_8 (z a b c i j k : nat) : ex := (EAdd (r_eomt_X3D_7 (0 + z) a b c i j k) (EScale (1) 4 (ESum (0 + z) 2 (ESum (1 + z) 3 (EMul (r_eomt_X_bb_voov (2 + z) b (0 + z) j (1 + z)) (ET 30 [a; (1 + z); c; i; (0 + z); k])))))).
Definition r_eomt_X3D_9 (z a b c i j k : nat) : ex := (EAdd (r_eomt_X3D_8 (0 + z) a b c i j k) (EScale (1) 4 (ESum (0 + z) 0 (ESum (1 + z) 1 (EMul (r_eomt_X_ab_ovvo (2 + z) (0 + z) b (1 + z) j) (ET 26 [(1 + z); c; a; (0 + z); k; i])))))).
Definition r_eomt_X3D_10 (z a b c i j k : nat) : ex := (ESub (r_eomt_X3D_9 (0 + z) a b c i j k) (EScale (1) 12 (ESum (0 + z) 2 (EMul (ET 19 [(0 + z); j]) (ET 59 [a; b; c; i; (0 + z); k]))))).
Definition r_eomt_X3D_11 (z a b c i j k : nat) : ex := (EAdd (r_eomt_X3D_10 (0 + z) a b c i j k) (EScale (1) 12 (ESum (0 + z) 3 (EMul (ET 15 [b; (0 + z)]) (ET 59 [a; (0 + z); c; i; j; k]))))).
Definition r_eomt_X3D_12 (z a b c i j k : nat) : ex := (EAdd (r_eomt_X3D_11 (0 + z) a b c i j k) (EScale (1) 24 (ESum (0 + z) 2 (ESum (1 + z) 2 (EMul (ET 35 [(0 + z); (1 + z); i; j]) (ET 59 [a; b; c; (0 + z); (1 + z); k])))))).
Definition r_eomt_X3D_13 (z a b c i j k : nat) : ex := (EAdd (r_eomt_X3D_12 (0 + z) a b c i j k) (EScale (1) 24 (ESum (0 + z) 3 (ESum (1 + z) 3 (EMul (ET 49 [a; b; (0 + z); (1 + z)]) (ET 59 [(0 + z); (1 + z); c; i; j; k])))))).
Definition r_eomt_X3D_14 (z a b c i j k : nat) : ex := (EAdd (r_eomt_X3D_13 (0 + z) a b c i j k) (EScale (1) 4 (ESum (0 + z) 2 (ESum (1 + z) 3 (EMul (ET 28 [a; (0 + z); i; (1 + z)]) (ET 59 [(1 + z); b; c; (0 + z); j; k])))))).
Definition r_eomt_X3D_15 (z a b c i j k : nat) : ex := (EAdd (r_eomt_X3D_14 (0 + z) a b c i j k) (EScale (1) 4 (ESum (0 + z) 0 (ESum (1 + z) 1 (EMul (ET 29 [(0 + z); a; (1 + z); i]) (ET 57 [(1 + z); c; b; (0 + z); k; j])))))).
Definition r_eomt_X3D_16 (z a b c i j k : nat) : ex := (ESub (r_eomt_X3D_15 (0 + z) a b c i j k) (r_eomt_X3D_15 (0 + z) a b c i k j)).
Definition r_eomt_X3D_17 (z a b c i j k : nat) : ex := (ESub (r_eomt_X3D_16 (0 + z) a b c i j k) (EAdd (r_eomt_X3D_16 (0 + z) a b c j i k) (r_eomt_X3D_16 (0 + z) a b c k j i))).
Definition r_eomt_X3D_18 (z a b c i j k : nat) : ex := (ESub (r_eomt_X3D_17 (0 + z) a b c i j k) (r_eomt_X3D_17 (0 + z) a c b i j k)).
Definition r_eomt_X3D_19 (z a b c i j k : nat) : ex := (ESub (r_eomt_X3D_18 (0 + z) a b c i j k) (EAdd (r_eomt_X3D_18 (0 + z) b a c i j k) (r_eomt_X3D_18 (0 + z) c b a i j k))).
Definition r_rccsdt_X_a_ov (z m e : nat) : ex := (EAdd (ET 0 [m; e]) (EAdd (ESum (0 + z) 0 (ESum (1 + z) 1 (EMul (ET 1 [m; (0 + z); e; (1 + z)]) (ET 2 [(1 + z); (0 + z)])))) (ESum (0 + z) 0 (ESum (1 + z) 1 (EMul (ET 3 [m; (0 + z); e; (1 + z)]) (ET 4 [(1 + z); (0 + z)])))))).
Definition r_rccsdt_X_a_vv (z a e : nat) : ex := (EAdd (ET 7 [a; e]) (ESub (ESub (EAdd (ESum (0 + z) 0 (ESum (1 + z) 1 (EMul (ET 8 [a; (0 + z); e; (1 + z)]) (ET 2 [(1 + z); (0 + z)])))) (ESum (0 + z) 0 (ESum (1 + z) 1 (EMul (ET 9 [a; (0 + z); e; (1 + z)]) (ET 4 [(1 + z); (0 + z)]))))) (EScale (1) 2 (ESum (0 + z) 0 (ESum (1 + z) 0 (ESum (2 + z) 1 (EMul (ET 1 [(0 + z); (1 + z); e; (2 + z)]) (ET 10 [a; (2 + z); (0 + z); (1 + z)]))))))) (ESum (0 + z) 0 (ESum (1 + z) 0 (ESum (2 + z) 1 (EMul (ET 3 [(0 + z); (1 + z); e; (2 + z)]) (ET 11 [a; (2 + z); (0 + z); (1 + z)]))))))).
Definition r_rccsdt_X_a_oo (z m i : nat) : ex := (EAdd (ET 12 [m; i]) (EAdd (EAdd (EAdd (EAdd (ESum (0 + z) 0 (ESum (1 + z) 1 (EMul (ET 13 [m; (0 + z); i; (1 + z)]) (ET 2 [(1 + z); (0 + z)])))) (ESum (0 + z) 0 (ESum (1 + z) 1 (EMul (ET 14 [m; (0 + z); i; (1 + z)]) (ET 4 [(1 + z); (0 + z)]))))) (ESum (0 + z) 1 (EMul (r_rccsdt_X_a_ov (1 + z) m (0 + z)) (ET 2 [(0 + z); i])))) (EScale (1) 2 (ESum (0 + z) 0 (ESum (1 + z) 1 (ESum (2 + z) 1 (EMul (ET 1 [m; (0 + z); (1 + z); (2 + z)]) (ET 10 [(1 + z); (2 + z); i; (0 + z)]))))))) (ESum (0 + z) 0 (ESum (1 + z) 1 (ESum (2 + z) 1 (EMul (ET 3 [m; (0 + z); (1 + z); (2 + z)]) (ET 11 [(1 + z); (2 + z); i; (0 + z)]))))))).
Definition r_rccsdt_dT_a (z a i : nat) : ex := (EOpp (ESum (0 + z) 0 (EMul (r_rccsdt_X_a_oo (1 + z) (0 + z) i) (ET 2 [a; (0 + z)])))).
Definition r_rccsdt_dT_a_1 (z a i : nat) : ex := (EAdd (r_rccsdt_dT_a (0 + z) a i) (ESum (0 + z) 1 (EMul (r_rccsdt_X_a_vv (1 + z) a (0 + z)) (ET 2 [(0 + z); i])))).
Definition r_rccsdt_dT_a_2 (z a i : nat) : ex := (EAdd (r_rccsdt_dT_a_1 (0 + z) a i) (ESum (0 + z) 0 (ESum (1 + z) 1 (EMul (r_rccsdt_X_a_ov (2 + z) (0 + z) (1 + z)) (ET 10 [a; (1 + z); i; (0 + z)]))))).
Definition r_rccsdt_dT_a_3 (z a i : nat) : ex := (EAdd (r_rccsdt_dT_a_2 (0 + z) a i) (ESum (0 + z) 0 (ESum (1 + z) 1 (EMul (r_rccsdt_X_a_ov (2 + z) (0 + z) (1 + z)) (ET 11 [a; (1 + z); i; (0 + z)]))))).
Definition r_rccsdt_dT_a_4 (z a i : nat) : ex := (EAdd (r_rccsdt_dT_a_3 (0 + z) a i) (ESum (0 + z) 0 (ESum (1 + z) 1 (EMul (ET 22 [a; (0 + z); i; (1 + z)]) (ET 2 [(1 + z); (0 + z)]))))).
Definition r_rccsdt_dT_a_5 (z a i : nat) : ex := (EAdd (r_rccsdt_dT_a_4 (0 + z) a i) (ESum (0 + z) 0 (ESum (1 + z) 1 (EMul (ET 23 [a; (0 + z); i; (1 + z)]) (ET 4 [(1 + z); (0 + z)]))))).
Definition r_rccsdt_dT_a_6 (z a i : nat) : ex := (ESub (r_rccsdt_dT_a_5 (0 + z) a i) (EScale (1) 2 (ESum (0 + z) 0 (ESum (1 + z) 0 (ESum (2 + z) 1 (EMul (ET 13 [(0 + z); (1 + z); i; (2 + z)]) (ET 10 [a; (2 + z); (0 + z); (1 + z)]))))))).
Definition r_rccsdt_dT_a_7 (z a i : nat) : ex := (ESub (r_rccsdt_dT_a_6 (0 + z) a i) (ESum (0 + z) 0 (ESum (1 + z) 0 (ESum (2 + z) 1 (EMul (ET 14 [(0 + z); (1 + z); i; (2 + z)]) (ET 11 [a; (2 + z); (0 + z); (1 + z)])))))).
Definition r_rccsdt_dT_a_8 (z a i : nat) : ex := (EAdd (r_rccsdt_dT_a_7 (0 + z) a i) (EScale (1) 2 (ESum (0 + z) 0 (ESum (1 + z) 1 (ESum (2 + z) 1 (EMul (ET 8 [a; (0 + z); (1 + z); (2 + z)]) (ET 10 [(1 + z); (2 + z); i; (0 + z)]))))))).
Definition r_rccsdt_dT_a_9 (z a i : nat) : ex := (EAdd (r_rccsdt_dT_a_8 (0 + z) a i) (ESum (0 + z) 0 (ESum (1 + z) 1 (ESum (2 + z) 1 (EMul (ET 9 [a; (0 + z); (1 + z); (2 + z)]) (ET 11 [(1 + z); (2 + z); i; (0 + z)])))))).
Definition r_rccsdt_dT_a_10 (z a i : nat) : ex := (EAdd (r_rccsdt_dT_a_9 (0 + z) a i) (EScale (1) 4 (ESum (0 + z) 0 (ESum (1 + z) 0 (ESum (2 + z) 1 (ESum (3 + z) 1 (EMul (ET 1 [(0 + z); (1 + z); (2 + z); (3 + z)]) (ET 24 [a; (2 + z); (3 + z); i; (0 + z); (1 + z)])))))))).
Definition r_rccsdt_dT_a_11 (z a i : nat) : ex := (EAdd (r_rccsdt_dT_a_10 (0 + z) a i) (ESum (0 + z) 0 (ESum (1 + z) 0 (ESum (2 + z) 1 (ESum (3 + z) 1 (EMul (ET 3 [(0 + z); (1 + z); (2 + z); (3 + z)]) (ET 25 [a; (2 + z); (3 + z); i; (0 + z); (1 + z)]))))))).
Definition r_rccsdt_dT_a_12 (z a i : nat) : ex := (EAdd (r_rccsdt_dT_a_11 (0 + z) a i) (EScale (1) 4 (ESum (0 + z) 0 (ESum (1 + z) 0 (ESum (2 + z) 1 (ESum (3 + z) 1 (EMul (ET 6 [(0 + z); (1 + z); (2 + z); (3 + z)]) (ET 26 [a; (2 + z); (3 + z); i; (0 + z); (1 + z)])))))))).
Definition r_rccsdt_res_a (z a i : nat) : ex := (EAdd (r_rccsdt_dT_a_12 (0 + z) a i) (ET 27 [a; i])).
Definition r_rccsdt_T_b (z a i : nat) : ex := (ET 2 [a; i]).
Definition r_rccsdt_dT_b (z a i : nat) : ex := (r_rccsdt_res_a (0 + z) a i).
Definition r_rccsdt_X_a_vv_1 (z a e : nat) : ex := (ESub (r_rccsdt_X_a_vv (0 + z) a e) (ESum (0 + z) 0 (EMul (r_rccsdt_X_a_ov (1 + z) (0 + z) e) (ET 2 [a; (0 + z)])))).
Definition r_rccsdt_X_aa_ooov (z m n i e : nat) : ex := (ESum (0 + z) 1 (EMul (ET 1 [m; n; (0 + z); e]) (ET 2 [(0 + z); i]))).
Definition r_rccsdt_X_aa_vovv (z a m e f : nat) : ex := (EOpp (ESum (0 + z) 0 (EMul (ET 1 [m; (0 + z); f; e]) (ET 2 [a; (0 + z)])))).
Definition r_rccsdt_X_aa_oooo (z m n i j : nat) : ex := (EAdd (EScale (1) 2 (ET 32 [m; n; i; j])) (ESum (0 + z) 1 (EMul (EAdd (ET 13 [n; m; j; (0 + z)]) (EScale (1) 2 (r_rccsdt_X_aa_ooov (1 + z) n m j (0 + z)))) (ET 2 [(0 + z); i])))).
Definition r_rccsdt_X_aa_oooo_1 (z m n i j : nat) : ex := (ESub (r_rccsdt_X_aa_oooo (0 + z) m n i j) (r_rccsdt_X_aa_oooo (0 + z) m n j i)).
Definition r_rccsdt_X_aa_voov (z a m i e : nat) : ex := (EAdd (ET 22 [a; m; i; e]) (ESub (ESum (0 + z) 1 (EMul (EAdd (ET 8 [a; m; (0 + z); e]) (EScale (1) 2 (r_rccsdt_X_aa_vovv (1 + z) a m (0 + z) e))) (ET 2 [(0 + z); i]))) (ESum (0 + z) 0 (EMul (EAdd (ET 13 [(0 + z); m; i; e]) (EScale (1) 2 (r_rccsdt_X_aa_ooov (1 + z) (0 + z) m i e))) (ET 2 [a; (0 + z)]))))).
Definition r_rccsdt_L_amie (z a m i f : nat) : ex := (EAdd (ET 22 [a; m; i; f]) (EScale (1) 2 (ESum (0 + z) 1 (EMul (ET 8 [a; m; (0 + z); f]) (ET 2 [(0 + z); i]))))).
Definition r_rccsdt_X_mnij (z m n i j : nat) : ex := (EAdd (ET 32 [m; n; i; j]) (ESum (0 + z) 1 (EMul (r_rccsdt_X_aa_ooov (1 + z) m n i (0 + z)) (ET 2 [(0 + z); j])))).
Definition r_rccsdt_X_aa_vooo (z a m i j : nat) : ex := (EAdd (EScale (1) 2 (ET 33 [a; m; i; j])) (ESub (ESum (0 + z) 1 (EMul (r_rccsdt_L_amie (1 + z) a m i (0 + z)) (ET 2 [(0 + z); j]))) (EScale (1) 4 (ESum (0 + z) 0 (EMul (r_rccsdt_X_mnij (1 + z) (0 + z) m i j) (ET 2 [a; (0 + z)])))))).
Definition r_rccsdt_X_aa_vooo_1 (z a m i j : nat) : ex := (ESub (r_rccsdt_X_aa_vooo (0 + z) a m i j) (r_rccsdt_X_aa_vooo (0 + z) a m j i)).
Definition r_rccsdt_L_amie_1 (z a n i e : nat) : ex := (ESum (0 + z) 0 (EMul (ET 13 [(0 + z); n; i; e]) (ET 2 [a; (0 + z)]))).
Definition r_rccsdt_X_aa_vvov (z a b i e : nat) : ex := (EAdd (ET 34 [a; b; i; e]) (ESum (0 + z) 0 (EMul (r_rccsdt_L_amie_1 (1 + z) a (0 + z) i e) (ET 2 [b; (0 + z)])))).
Definition r_rccsdt_X_ab_ooov (z m n i e : nat) : ex := (ESum (0 + z) 1 (EMul (ET 3 [m; n; (0 + z); e]) (ET 2 [(0 + z); i]))).
Definition r_rccsdt_X_ab_oovo (z n m e i : nat) : ex := (ESum (0 + z) 1 (EMul (ET 3 [n; m; e; (0 + z)]) (r_rccsdt_T_b (1 + z) (0 + z) i))).
Definition r_rccsdt_X_ab_oooo (z m n i j : nat) : ex := (EAdd (ET 38 [m; n; i; j]) (EAdd (ESum (0 + z) 1 (EMul (EAdd (ET 21 [m; n; (0 + z); j]) (EScale (1) 2 (r_rccsdt_X_ab_oovo (1 + z) m n (0 + z) j))) (ET 2 [(0 + z); i]))) (ESum (0 + z) 1 (EMul (EAdd (ET 14 [m; n; i; (0 + z)]) (EScale (1) 2 (r_rccsdt_X_ab_ooov (1 + z) m n i (0 + z)))) (r_rccsdt_T_b (2 + z) (0 + z) j))))).
Definition r_rccsdt_X_ab_vovv (z a m e f : nat) : ex := (EOpp (ESum (0 + z) 0 (EMul (ET 3 [(0 + z); m; e; f]) (ET 2 [a; (0 + z)])))).
Definition r_rccsdt_X_ab_ovvv (z m a e f : nat) : ex := (EOpp (ESum (0 + z) 0 (EMul (ET 3 [m; (0 + z); e; f]) (r_rccsdt_T_b (1 + z) a (0 + z))))).
Definition r_rccsdt_X_ab_voov (z a m i e : nat) : ex := (EAdd (ET 23 [a; m; i; e]) (ESub (ESum (0 + z) 1 (EMul (EAdd (ET 9 [a; m; (0 + z); e]) (EScale (1) 2 (r_rccsdt_X_ab_vovv (1 + z) a m (0 + z) e))) (ET 2 [(0 + z); i]))) (ESum (0 + z) 0 (EMul (EAdd (ET 14 [(0 + z); m; i; e]) (EScale (1) 2 (r_rccsdt_X_ab_ooov (1 + z) (0 + z) m i e))) (ET 2 [a; (0 + z)]))))).
Definition r_rccsdt_X_ab_ovvo (z m a e i : nat) : ex := (EAdd (ET 29 [m; a; e; i]) (ESub (ESum (0 + z) 1 (EMul (EAdd (ET 17 [m; a; e; (0 + z)]) (EScale (1) 2 (r_rccsdt_X_ab_ovvv (1 + z) m a e (0 + z)))) (r_rccsdt_T_b (2 + z) (0 + z) i))) (ESum (0 + z) 0 (EMul (EAdd (ET 21 [m; (0 + z); e; i]) (EScale (1) 2 (r_rccsdt_X_ab_oovo (1 + z) m (0 + z) e i))) (r_rccsdt_T_b (2 + z) a (0 + z)))))).
Definition r_rccsdt_X_ab_ovov (z m a i e : nat) : ex := (EAdd (ET 39 [m; a; i; e]) (ESub (ESum (0 + z) 1 (EMul (EAdd (ET 17 [m; a; (0 + z); e]) (EScale (1) 2 (r_rccsdt_X_ab_ovvv (1 + z) m a (0 + z) e))) (ET 2 [(0 + z); i]))) (ESum (0 + z) 0 (EMul (EAdd (ET 14 [m; (0 + z); i; e]) (EScale (1) 2 (r_rccsdt_X_ab_ooov (1 + z) m (0 + z) i e))) (r_rccsdt_T_b (2 + z) a (0 + z)))))).
Definition r_rccsdt_X_ab_vovo (z a m e i : nat) : ex := (ESub (ET 40 [a; m; e; i]) (ESub (ESum (0 + z) 0 (EMul (EAdd (ET 21 [(0 + z); m; e; i]) (EScale (1) 2 (r_rccsdt_X_ab_oovo (1 + z) (0 + z) m e i))) (ET 2 [a; (0 + z)]))) (ESum (0 + z) 1 (EMul (EAdd (ET 9 [a; m; e; (0 + z)]) (EScale (1) 2 (r_rccsdt_X_ab_vovv (1 + z) a m e (0 + z)))) (r_rccsdt_T_b (2 + z) (0 + z) i))))).
Definition r_rccsdt_X_mnij_1 (z m n i j : nat) : ex := (EAdd (ET 38 [m; n; i; j]) (EAdd (ESum (0 + z) 1 (EMul (ET 14 [m; n; i; (0 + z)]) (r_rccsdt_T_b (1 + z) (0 + z) j))) (ESum (0 + z) 1 (EMul (ET 21 [m; n; (0 + z); j]) (ET 2 [(0 + z); i]))))).
Definition r_rccsdt_L_mbej (z m b e j : nat) : ex := (EAdd (ET 29 [m; b; e; j]) (ESum (0 + z) 1 (EMul (ET 17 [m; b; e; (0 + z)]) (r_rccsdt_T_b (1 + z) (0 + z) j)))).
Definition r_rccsdt_X_ab_ovoo (z m b i j : nat) : ex := (EAdd (ET 41 [m; b; i; j]) (ESub (ESum (0 + z) 1 (EMul (r_rccsdt_L_mbej (1 + z) m b (0 + z) j) (ET 2 [(0 + z); i]))) (ESum (0 + z) 0 (EMul (r_rccsdt_X_mnij_1 (1 + z) m (0 + z) i j) (r_rccsdt_T_b (2 + z) b (0 + z)))))).
Definition r_rccsdt_L_amie_2 (z a m i f : nat) : ex := (ESum (0 + z) 1 (EMul (EAdd (ET 9 [a; m; (0 + z); f]) (r_rccsdt_X_ab_vovv (1 + z) a m (0 + z) f)) (ET 2 [(0 + z); i]))).
Definition r_rccsdt_X_ab_vooo (z a m i j : nat) : ex := (EAdd (ET 42 [a; m; i; j]) (ESum (0 + z) 1 (EMul (EAdd (ET 23 [a; m; i; (0 + z)]) (r_rccsdt_L_amie_2 (1 + z) a m i (0 + z))) (r_rccsdt_T_b (3 + z) (0 + z) j)))).
Definition r_rccsdt_X_ab_vvvo (z a b e j : nat) : ex := (ESub (ET 43 [a; b; e; j]) (ESum (0 + z) 0 (EMul (ET 40 [a; (0 + z); e; j]) (r_rccsdt_T_b (1 + z) b (0 + z))))).
Definition r_rccsdt_X_ab_vvov (z a b i e : nat) : ex := (ESub (ET 44 [a; b; i; e]) (ESum (0 + z) 0 (EMul (ET 39 [(0 + z); b; i; e]) (ET 2 [a; (0 + z)])))).
Definition r_rccsdt_I2A_voov (z a m i e : nat) : ex := (EAdd (r_rccsdt_X_aa_voov (0 + z) a m i e) (EAdd (EScale (1) 2 (ESum (0 + z) 0 (ESum (1 + z) 1 (EMul (ET 1 [m; (0 + z); e; (1 + z)]) (ET 10 [a; (1 + z); i; (0 + z)]))))) (ESum (0 + z) 0 (ESum (1 + z) 1 (EMul (ET 3 [m; (0 + z); e; (1 + z)]) (ET 11 [a; (1 + z); i; (0 + z)])))))).
Definition r_rccsdt_I2A_oooo (z m n i j : nat) : ex := (EAdd (r_rccsdt_X_aa_oooo_1 (0 + z) m n i j) (EScale (1) 2 (ESum (0 + z) 1 (ESum (1 + z) 1 (EMul (ET 1 [m; n; (0 + z); (1 + z)]) (ET 10 [(0 + z); (1 + z); i; j])))))).
Definition r_rccsdt_I2B_voov (z a m i e : nat) : ex := (EAdd (r_rccsdt_X_ab_voov (0 + z) a m i e) (EScale (1) 2 (ESum (0 + z) 0 (ESum (1 + z) 1 (EMul (ET 6 [m; (0 + z); e; (1 + z)]) (ET 11 [a; (1 + z); i; (0 + z)])))))).
Definition r_rccsdt_I2A_vooo (z a m i j : nat) : ex := (EAdd (r_rccsdt_X_aa_vooo_1 (0 + z) a m i j) (EScale (1) 2 (ESum (0 + z) 1 (ESum (1 + z) 1 (EMul (EAdd (ET 8 [a; m; (0 + z); (1 + z)]) (EScale (1) 2 (r_rccsdt_X_aa_vovv (2 + z) a m (0 + z) (1 + z)))) (ET 10 [(0 + z); (1 + z); i; j])))))).
Definition r_rccsdt_tau (z a b i j : nat) : ex := (EAdd (EScale (1) 2 (ET 10 [a; b; i; j])) (EMul (ET 2 [a; i]) (ET 2 [b; j]))).
Definition r_rccsdt_dT_aa (z a b i j : nat) : ex := (EScale (-1) 2 (ESum (0 + z) 0 (EMul (r_rccsdt_I2A_vooo (1 + z) a (0 + z) i j) (ET 2 [b; (0 + z)])))).
Definition r_rccsdt_dT_aa_1 (z a b i j : nat) : ex := (EAdd (r_rccsdt_dT_aa (0 + z) a b i j) (EScale (1) 2 (ESum (0 + z) 1 (EMul (r_rccsdt_X_aa_vvov (1 + z) a b i (0 + z)) (ET 2 [(0 + z); j]))))).
Definition r_rccsdt_dT_aa_2 (z a b i j : nat) : ex := (EAdd (r_rccsdt_dT_aa_1 (0 + z) a b i j) (EScale (1) 2 (ESum (0 + z) 1 (EMul (r_rccsdt_X_a_vv_1 (1 + z) a (0 + z)) (ET 10 [(0 + z); b; i; j]))))).
Definition r_rccsdt_dT_aa_3 (z a b i j : nat) : ex := (ESub (r_rccsdt_dT_aa_2 (0 + z) a b i j) (EScale (1) 2 (ESum (0 + z) 0 (EMul (r_rccsdt_X_a_oo (1 + z) (0 + z) i) (ET 10 [a; b; (0 + z); j]))))).
Definition r_rccsdt_dT_aa_4 (z a b i j : nat) : ex := (EAdd (r_rccsdt_dT_aa_3 (0 + z) a b i j) (ESum (0 + z) 0 (ESum (1 + z) 1 (EMul (r_rccsdt_I2A_voov (2 + z) a (0 + z) i (1 + z)) (ET 10 [(1 + z); b; (0 + z); j]))))).
Definition r_rccsdt_dT_aa_5 (z a b i j : nat) : ex := (EAdd (r_rccsdt_dT_aa_4 (0 + z) a b i j) (ESum (0 + z) 0 (ESum (1 + z) 1 (EMul (r_rccsdt_I2B_voov (2 + z) a (0 + z) i (1 + z)) (ET 11 [b; (1 + z); j; (0 + z)]))))).
Definition r_rccsdt_dT_aa_6 (z a b i j : nat) : ex := (EAdd (r_rccsdt_dT_aa_5 (0 + z) a b i j) (EScale (1) 4 (ESum (0 + z) 1 (ESum (1 + z) 1 (EMul (ET 45 [a; b; (0 + z); (1 + z)]) (r_rccsdt_tau (2 + z) (0 + z) (1 + z) i j)))))).
Definition r_rccsdt_dT_aa_7 (z a b i j : nat) : ex := (EAdd (r_rccsdt_dT_aa_6 (0 + z) a b i j) (EScale (1) 8 (ESum (0 + z) 0 (ESum (1 + z) 0 (EMul (r_rccsdt_I2A_oooo (2 + z) (0 + z) (1 + z) i j) (ET 10 [a; b; (0 + z); (1 + z)])))))).
Definition r_rccsdt_dT_aa_8 (z a b i j : nat) : ex := (EAdd (r_rccsdt_dT_aa_7 (0 + z) a b i j) (EScale (1) 4 (ESum (0 + z) 0 (ESum (1 + z) 1 (EMul (r_rccsdt_X_a_ov (2 + z) (0 + z) (1 + z)) (ET 24 [a; b; (1 + z); i; j; (0 + z)])))))).
Definition r_rccsdt_dT_aa_9 (z a b i j : nat) : ex := (EAdd (r_rccsdt_dT_aa_8 (0 + z) a b i j) (EScale (1) 4 (ESum (0 + z) 0 (ESum (1 + z) 1 (EMul (r_rccsdt_X_a_ov (2 + z) (0 + z) (1 + z)) (ET 25 [a; b; (1 + z); i; j; (0 + z)])))))).
Definition r_rccsdt_dT_aa_10 (z a b i j : nat) : ex := (ESub (r_rccsdt_dT_aa_9 (0 + z) a b i j) (EScale (1) 2 (ESum (0 + z) 0 (ESum (1 + z) 0 (ESum (2 + z) 1 (EMul (EAdd (ET 14 [(0 + z); (1 + z); i; (2 + z)]) (r_rccsdt_X_ab_ooov (3 + z) (0 + z) (1 + z) i (2 + z))) (ET 25 [a; b; (2 + z); (0 + z); j; (1 + z)]))))))).
Definition r_rccsdt_dT_aa_11 (z a b i j : nat) : ex := (ESub (r_rccsdt_dT_aa_10 (0 + z) a b i j) (EScale (1) 4 (ESum (0 + z) 0 (ESum (1 + z) 0 (ESum (2 + z) 1 (EMul (EAdd (ET 13 [(0 + z); (1 + z); i; (2 + z)]) (r_rccsdt_X_aa_ooov (3 + z) (0 + z) (1 + z) i (2 + z))) (ET 24 [a; b; (2 + z); (0 + z); j; (1 + z)]))))))).
Definition r_rccsdt_dT_aa_12 (z a b i j : nat) : ex := (EAdd (r_rccsdt_dT_aa_11 (0 + z) a b i j) (EScale (1) 4 (ESum (0 + z) 0 (ESum (1 + z) 1 (ESum (2 + z) 1 (EMul (EAdd (ET 8 [a; (0 + z); (1 + z); (2 + z)]) (r_rccsdt_X_aa_vovv (3 + z) a (0 + z) (1 + z) (2 + z))) (ET 24 [(1 + z); b; (2 + z); i; j; (0 + z)]))))))).
Definition r_rccsdt_dT_aa_13 (z a b i j : nat) : ex := (EAdd (r_rccsdt_dT_aa_12 (0 + z) a b i j) (EScale (1) 2 (ESum (0 + z) 0 (ESum (1 + z) 1 (ESum (2 + z) 1 (EMul (EAdd (ET 9 [a; (0 + z); (1 + z); (2 + z)]) (r_rccsdt_X_ab_vovv (3 + z) a (0 + z) (1 + z) (2 + z))) (ET 25 [(1 + z); b; (2 + z); i; j; (0 + z)]))))))).
Definition r_rccsdt_res_aa (z a b i j : nat) : ex := (EAdd (r_rccsdt_dT_aa_13 (0 + z) a b i j) (EScale (1) 4 (ET 46 [a; b; i; j]))).
Definition r_rccsdt_I2A_voov_1 (z a m i e : nat) : ex := (EAdd (r_rccsdt_X_aa_voov (0 + z) a m i e) (EAdd (ESum (0 + z) 0 (ESum (1 + z) 1 (EMul (ET 1 [(0 + z); m; (1 + z); e]) (ET 10 [a; (1 + z); i; (0 + z)])))) (ESum (0 + z) 0 (ESum (1 + z) 1 (EMul (ET 3 [m; (0 + z); e; (1 + z)]) (ET 11 [a; (1 + z); i; (0 + z)])))))).
Definition r_rccsdt_I2B_voov_1 (z a m i e : nat) : ex := (EAdd (r_rccsdt_X_ab_voov (0 + z) a m i e) (EAdd (ESum (0 + z) 0 (ESum (1 + z) 1 (EMul (ET 3 [(0 + z); m; (1 + z); e]) (ET 10 [a; (1 + z); i; (0 + z)])))) (ESum (0 + z) 0 (ESum (1 + z) 1 (EMul (ET 6 [(0 + z); m; (1 + z); e]) (ET 11 [a; (1 + z); i; (0 + z)])))))).
Definition r_rccsdt_I2B_oooo (z m n i j : nat) : ex := (EAdd (r_rccsdt_X_ab_oooo (0 + z) m n i j) (ESum (0 + z) 1 (ESum (1 + z) 1 (EMul (ET 3 [m; n; (0 + z); (1 + z)]) (ET 11 [(0 + z); (1 + z); i; j]))))).
Definition r_rccsdt_I2B_vovo (z a m e i : nat) : ex := (ESub (r_rccsdt_X_ab_vovo (0 + z) a m e i) (ESum (0 + z) 0 (ESum (1 + z) 1 (EMul (ET 3 [(0 + z); m; e; (1 + z)]) (ET 11 [a; (1 + z); (0 + z); i]))))).
Definition r_rccsdt_I2B_ovoo (z m b i j : nat) : ex := (EAdd (r_rccsdt_X_ab_ovoo (0 + z) m b i j) (ESum (0 + z) 1 (ESum (1 + z) 1 (EMul (EAdd (ET 17 [m; b; (0 + z); (1 + z)]) (EScale (1) 2 (r_rccsdt_X_ab_ovvv (2 + z) m b (0 + z) (1 + z)))) (ET 11 [(0 + z); (1 + z); i; j]))))).
Definition r_rccsdt_I2B_vooo (z a m i j : nat) : ex := (EAdd (r_rccsdt_X_ab_vooo (0 + z) a m i j) (ESum (0 + z) 1 (ESum (1 + z) 1 (EMul (EAdd (ET 9 [a; m; (0 + z); (1 + z)]) (EScale (1) 2 (r_rccsdt_X_ab_vovv (2 + z) a m (0 + z) (1 + z)))) (ET 11 [(0 + z); (1 + z); i; j]))))).
Definition r_rccsdt_tau_1 (z a b i j : nat) : ex := (EAdd (ET 11 [a; b; i; j]) (EMul (ET 2 [a; i]) (r_rccsdt_T_b (0 + z) b j))).
Definition r_rccsdt_dT_ab (z a b i j : nat) : ex := (EOpp (ESum (0 + z) 0 (EMul (r_rccsdt_I2B_ovoo (1 + z) (0 + z) b i j) (ET 2 [a; (0 + z)])))).
Definition r_rccsdt_dT_ab_1 (z a b i j : nat) : ex := (ESub (r_rccsdt_dT_ab (0 + z) a b i j) (ESum (0 + z) 0 (EMul (r_rccsdt_I2B_vooo (1 + z) a (0 + z) i j) (r_rccsdt_T_b (4 + z) b (0 + z))))).
Definition r_rccsdt_dT_ab_2 (z a b i j : nat) : ex := (EAdd (r_rccsdt_dT_ab_1 (0 + z) a b i j) (ESum (0 + z) 1 (EMul (r_rccsdt_X_ab_vvvo (1 + z) a b (0 + z) j) (ET 2 [(0 + z); i])))).
Definition r_rccsdt_dT_ab_3 (z a b i j : nat) : ex := (EAdd (r_rccsdt_dT_ab_2 (0 + z) a b i j) (ESum (0 + z) 1 (EMul (r_rccsdt_X_ab_vvov (1 + z) a b i (0 + z)) (r_rccsdt_T_b (2 + z) (0 + z) j)))).
Definition r_rccsdt_dT_ab_4 (z a b i j : nat) : ex := (EAdd (r_rccsdt_dT_ab_3 (0 + z) a b i j) (ESum (0 + z) 1 (EMul (r_rccsdt_X_a_vv_1 (1 + z) a (0 + z)) (ET 11 [(0 + z); b; i; j])))).
Definition r_rccsdt_dT_ab_5 (z a b i j : nat) : ex := (EAdd (r_rccsdt_dT_ab_4 (0 + z) a b i j) (ESum (0 + z) 1 (EMul (r_rccsdt_X_a_vv_1 (1 + z) b (0 + z)) (ET 11 [a; (0 + z); i; j])))).
Definition r_rccsdt_dT_ab_6 (z a b i j : nat) : ex := (ESub (r_rccsdt_dT_ab_5 (0 + z) a b i j) (ESum (0 + z) 0 (EMul (r_rccsdt_X_a_oo (1 + z) (0 + z) i) (ET 11 [a; b; (0 + z); j])))).
Definition r_rccsdt_dT_ab_7 (z a b i j : nat) : ex := (ESub (r_rccsdt_dT_ab_6 (0 + z) a b i j) (ESum (0 + z) 0 (EMul (r_rccsdt_X_a_oo (1 + z) (0 + z) j) (ET 11 [a; b; i; (0 + z)])))).
Definition r_rccsdt_dT_ab_8 (z a b i j : nat) : ex := (EAdd (r_rccsdt_dT_ab_7 (0 + z) a b i j) (ESum (0 + z) 0 (ESum (1 + z) 1 (EMul (r_rccsdt_I2A_voov_1 (2 + z) a (0 + z) i (1 + z)) (ET 11 [(1 + z); b; (0 + z); j]))))).
Definition r_rccsdt_dT_ab_9 (z a b i j : nat) : ex := (EAdd (r_rccsdt_dT_ab_8 (0 + z) a b i j) (ESum (0 + z) 0 (ESum (1 + z) 1 (EMul (r_rccsdt_I2B_voov_1 (2 + z) a (0 + z) i (1 + z)) (ET 18 [(1 + z); b; (0 + z); j]))))).
Definition r_rccsdt_dT_ab_10 (z a b i j : nat) : ex := (EAdd (r_rccsdt_dT_ab_9 (0 + z) a b i j) (ESum (0 + z) 0 (ESum (1 + z) 1 (EMul (r_rccsdt_X_ab_ovvo (2 + z) (0 + z) b (1 + z) j) (ET 10 [a; (1 + z); i; (0 + z)]))))).
Definition r_rccsdt_dT_ab_11 (z a b i j : nat) : ex := (EAdd (r_rccsdt_dT_ab_10 (0 + z) a b i j) (ESum (0 + z) 0 (ESum (1 + z) 1 (EMul (r_rccsdt_X_aa_voov (2 + z) b (0 + z) j (1 + z)) (ET 11 [a; (1 + z); i; (0 + z)]))))).
Definition r_rccsdt_dT_ab_12 (z a b i j : nat) : ex := (ESub (r_rccsdt_dT_ab_11 (0 + z) a b i j) (ESum (0 + z) 0 (ESum (1 + z) 1 (EMul (r_rccsdt_X_ab_ovov (2 + z) (0 + z) b i (1 + z)) (ET 11 [a; (1 + z); (0 + z); j]))))).
Definition r_rccsdt_dT_ab_13 (z a b i j : nat) : ex := (ESub (r_rccsdt_dT_ab_12 (0 + z) a b i j) (ESum (0 + z) 0 (ESum (1 + z) 1 (EMul (r_rccsdt_I2B_vovo (2 + z) a (0 + z) (1 + z) j) (ET 11 [(1 + z); b; i; (0 + z)]))))).
Definition r_rccsdt_dT_ab_14 (z a b i j : nat) : ex := (EAdd (r_rccsdt_dT_ab_13 (0 + z) a b i j) (ESum (0 + z) 0 (ESum (1 + z) 0 (EMul (r_rccsdt_I2B_oooo (2 + z) (0 + z) (1 + z) i j) (ET 11 [a; b; (0 + z); (1 + z)]))))).
Definition r_rccsdt_dT_ab_15 (z a b i j : nat) : ex := (EAdd (r_rccsdt_dT_ab_14 (0 + z) a b i j) (ESum (0 + z) 1 (ESum (1 + z) 1 (EMul (ET 47 [a; b; (0 + z); (1 + z)]) (r_rccsdt_tau_1 (2 + z) (0 + z) (1 + z) i j))))).
Definition r_rccsdt_dT_ab_16 (z a b i j : nat) : ex := (ESub (r_rccsdt_dT_ab_15 (0 + z) a b i j) (EScale (1) 2 (ESum (0 + z) 0 (ESum (1 + z) 0 (ESum (2 + z) 1 (EMul (EAdd (ET 13 [(0 + z); (1 + z); i; (2 + z)]) (r_rccsdt_X_aa_ooov (3 + z) (0 + z) (1 + z) i (2 + z))) (ET 25 [a; (2 + z); b; (0 + z); (1 + z); j]))))))).
Definition r_rccsdt_dT_ab_17 (z a b i j : nat) : ex := (ESub (r_rccsdt_dT_ab_16 (0 + z) a b i j) (ESum (0 + z) 0 (ESum (1 + z) 0 (ESum (2 + z) 1 (EMul (EAdd (ET 21 [(0 + z); (1 + z); (2 + z); j]) (r_rccsdt_X_ab_oovo (3 + z) (0 + z) (1 + z) (2 + z) j)) (ET 25 [a; (2 + z); b; i; (0 + z); (1 + z)])))))).
Definition r_rccsdt_dT_ab_18 (z a b i j : nat) : ex := (ESub (r_rccsdt_dT_ab_17 (0 + z) a b i j) (EScale (1) 2 (ESum (0 + z) 0 (ESum (1 + z) 0 (ESum (2 + z) 1 (EMul (EAdd (ET 20 [(0 + z); (1 + z); j; (2 + z)]) (r_rccsdt_X_aa_ooov (3 + z) (0 + z) (1 + z) j (2 + z))) (ET 26 [a; (2 + z); b; i; (1 + z); (0 + z)]))))))).
Definition r_rccsdt_dT_ab_19 (z a b i j : nat) : ex := (ESub (r_rccsdt_dT_ab_18 (0 + z) a b i j) (ESum (0 + z) 0 (ESum (1 + z) 0 (ESum (2 + z) 1 (EMul (EAdd (ET 14 [(0 + z); (1 + z); i; (2 + z)]) (r_rccsdt_X_ab_ooov (3 + z) (0 + z) (1 + z) i (2 + z))) (ET 26 [a; (2 + z); b; (0 + z); (1 + z); j])))))).
Definition r_rccsdt_dT_ab_20 (z a b i j : nat) : ex := (EAdd (r_rccsdt_dT_ab_19 (0 + z) a b i j) (EScale (1) 2 (ESum (0 + z) 0 (ESum (1 + z) 1 (ESum (2 + z) 1 (EMul (EAdd (ET 8 [a; (0 + z); (1 + z); (2 + z)]) (r_rccsdt_X_aa_vovv (3 + z) a (0 + z) (1 + z) (2 + z))) (ET 25 [(1 + z); (2 + z); b; i; (0 + z); j]))))))).
Definition r_rccsdt_dT_ab_21 (z a b i j : nat) : ex := (EAdd (r_rccsdt_dT_ab_20 (0 + z) a b i j) (ESum (0 + z) 0 (ESum (1 + z) 1 (ESum (2 + z) 1 (EMul (EAdd (ET 9 [a; (0 + z); (1 + z); (2 + z)]) (r_rccsdt_X_ab_vovv (3 + z) a (0 + z) (1 + z) (2 + z))) (ET 26 [(1 + z); (2 + z); b; i; (0 + z); j])))))).
Definition r_rccsdt_dT_ab_22 (z a b i j : nat) : ex := (EAdd (r_rccsdt_dT_ab_21 (0 + z) a b i j) (ESum (0 + z) 0 (ESum (1 + z) 1 (ESum (2 + z) 1 (EMul (EAdd (ET 17 [(0 + z); b; (1 + z); (2 + z)]) (r_rccsdt_X_ab_ovvv (3 + z) (0 + z) b (1 + z) (2 + z))) (ET 25 [a; (1 + z); (2 + z); i; (0 + z); j])))))).
Definition r_rccsdt_dT_ab_23 (z a b i j : nat) : ex := (EAdd (r_rccsdt_dT_ab_22 (0 + z) a b i j) (EScale (1) 2 (ESum (0 + z) 0 (ESum (1 + z) 1 (ESum (2 + z) 1 (EMul (EAdd (ET 16 [b; (0 + z); (1 + z); (2 + z)]) (r_rccsdt_X_aa_vovv (3 + z) b (0 + z) (1 + z) (2 + z))) (ET 26 [a; (2 + z); (1 + z); i; (0 + z); j]))))))).
Definition r_rccsdt_dT_ab_24 (z a b i j : nat) : ex := (EAdd (r_rccsdt_dT_ab_23 (0 + z) a b i j) (ESum (0 + z) 0 (ESum (1 + z) 1 (EMul (r_rccsdt_X_a_ov (2 + z) (0 + z) (1 + z)) (ET 25 [a; (1 + z); b; i; (0 + z); j]))))).
Definition r_rccsdt_dT_ab_25 (z a b i j : nat) : ex := (EAdd (r_rccsdt_dT_ab_24 (0 + z) a b i j) (ESum (0 + z) 0 (ESum (1 + z) 1 (EMul (r_rccsdt_X_a_ov (2 + z) (0 + z) (1 + z)) (ET 26 [a; (1 + z); b; i; (0 + z); j]))))).
Definition r_rccsdt_res_ab (z a b i j : nat) : ex := (EAdd (r_rccsdt_dT_ab_25 (0 + z) a b i j) (ET 48 [a; b; i; j])).
Definition r_rccsdt_T_bb (z a b i j : nat) : ex := (ET 10 [a; b; i; j]).
Definition r_rccsdt_dT_bb (z a b i j : nat) : ex := (r_rccsdt_res_aa (0 + z) a b i j).
Definition r_rccsdt_tau_aa (z a b i j : nat) : ex := (EAdd (EScale (1) 2 (ET 10 [a; b; i; j])) (EMul (ET 2 [a; i]) (ET 2 [b; j]))).
Definition r_rccsdt_tau_aa_1 (z a b i j : nat) : ex := (ESub (r_rccsdt_tau_aa (0 + z) a b i j) (r_rccsdt_tau_aa (0 + z) a b j i)).
Definition r_rccsdt_tau_ab (z a b i j : nat) : ex := (EAdd (ET 11 [a; b; i; j]) (EMul (ET 2 [a; i]) (r_rccsdt_T_b (0 + z) b j))).
Definition r_rccsdt_H_aa_vovv (z a m e f : nat) : ex := (EAdd (r_rccsdt_X_aa_vovv (0 + z) a m e f) (ET 8 [a; m; e; f])).
Definition r_rccsdt_H_ab_vovv (z a m e f : nat) : ex := (EAdd (r_rccsdt_X_ab_vovv (0 + z) a m e f) (ET 9 [a; m; e; f])).
Definition r_rccsdt_H_ab_ovvv (z m a e f : nat) : ex := (EAdd (r_rccsdt_X_ab_ovvv (0 + z) m a e f) (ET 17 [m; a; e; f])).
Definition r_rccsdt_H_aa_ooov (z m n i e : nat) : ex := (EAdd (r_rccsdt_X_aa_ooov (0 + z) m n i e) (ET 13 [m; n; i; e])).
Definition r_rccsdt_H_ab_ooov (z m n i e : nat) : ex := (EAdd (r_rccsdt_X_ab_ooov (0 + z) m n i e) (ET 14 [m; n; i; e])).
Definition r_rccsdt_H_ab_oovo (z n m e i : nat) : ex := (EAdd (r_rccsdt_X_ab_oovo (0 + z) n m e i) (ET 21 [n; m; e; i])).
Definition r_rccsdt_H_aa_vvvv (z a b e f : nat) : ex := (ESub (EAdd (EScale (1) 2 (ET 45 [a; b; e; f])) (EScale (1) 4 (ESum (0 + z) 0 (ESum (1 + z) 0 (EMul (ET 1 [(0 + z); (1 + z); e; f]) (r_rccsdt_tau_aa_1 (2 + z) a b (0 + z) (1 + z))))))) (ESum (0 + z) 0 (EMul (ET 8 [a; (0 + z); e; f]) (ET 2 [b; (0 + z)])))).
Definition r_rccsdt_H_aa_vvvv_1 (z a b e f : nat) : ex := (ESub (r_rccsdt_H_aa_vvvv (0 + z) a b e f) (r_rccsdt_H_aa_vvvv (0 + z) b a e f)).
Definition r_rccsdt_H_ab_vvvv (z a b e f : nat) : ex := (EAdd (ESub (ESub (ET 47 [a; b; e; f]) (ESum (0 + z) 0 (EMul (ET 17 [(0 + z); b; e; f]) (ET 2 [a; (0 + z)])))) (ESum (0 + z) 0 (EMul (ET 9 [a; (0 + z); e; f]) (r_rccsdt_T_b (1 + z) b (0 + z))))) (ESum (0 + z) 0 (ESum (1 + z) 0 (EMul (ET 3 [(0 + z); (1 + z); e; f]) (r_rccsdt_tau_ab (2 + z) a b (0 + z) (1 + z)))))).
Definition r_rccsdt_H_aa_oooo (z m n i j : nat) : ex := (EAdd (EAdd (EScale (1) 2 (ET 32 [m; n; i; j])) (ESum (0 + z) 1 (EMul (ET 13 [n; m; j; (0 + z)]) (ET 2 [(0 + z); i])))) (EScale (1) 4 (ESum (0 + z) 1 (ESum (1 + z) 1 (EMul (ET 1 [m; n; (0 + z); (1 + z)]) (r_rccsdt_tau_aa_1 (2 + z) (0 + z) (1 + z) i j)))))).
Definition r_rccsdt_H_aa_oooo_1 (z m n i j : nat) : ex := (ESub (r_rccsdt_H_aa_oooo (0 + z) m n i j) (r_rccsdt_H_aa_oooo (0 + z) m n j i)).
Definition r_rccsdt_H_ab_oooo (z m n i j : nat) : ex := (EAdd (EAdd (EAdd (ET 38 [m; n; i; j]) (ESum (0 + z) 1 (EMul (ET 21 [m; n; (0 + z); j]) (ET 2 [(0 + z); i])))) (ESum (0 + z) 1 (EMul (ET 14 [m; n; i; (0 + z)]) (r_rccsdt_T_b (1 + z) (0 + z) j)))) (ESum (0 + z) 1 (ESum (1 + z) 1 (EMul (ET 3 [m; n; (0 + z); (1 + z)]) (r_rccsdt_tau_ab (2 + z) (0 + z) (1 + z) i j))))).
Definition r_rccsdt_H_aa_voov (z a m i e : nat) : ex := (EAdd (EAdd (ESub (EAdd (ET 22 [a; m; i; e]) (ESum (0 + z) 1 (EMul (ET 8 [a; m; (0 + z); e]) (ET 2 [(0 + z); i])))) (ESum (0 + z) 0 (EMul (r_rccsdt_H_aa_ooov (1 + z) (0 + z) m i e) (ET 2 [a; (0 + z)])))) (ESum (0 + z) 0 (ESum (1 + z) 1 (EMul (ET 1 [(0 + z); m; (1 + z); e]) (ET 10 [a; (1 + z); i; (0 + z)]))))) (ESum (0 + z) 0 (ESum (1 + z) 1 (EMul (ET 3 [m; (0 + z); e; (1 + z)]) (ET 11 [a; (1 + z); i; (0 + z)]))))).
Definition r_rccsdt_H_ab_voov (z a m i e : nat) : ex := (EAdd (EAdd (ESub (EAdd (ET 23 [a; m; i; e]) (ESum (0 + z) 1 (EMul (ET 9 [a; m; (0 + z); e]) (ET 2 [(0 + z); i])))) (ESum (0 + z) 0 (EMul (r_rccsdt_H_ab_ooov (1 + z) (0 + z) m i e) (ET 2 [a; (0 + z)])))) (ESum (0 + z) 0 (ESum (1 + z) 1 (EMul (ET 3 [(0 + z); m; (1 + z); e]) (ET 10 [a; (1 + z); i; (0 + z)]))))) (ESum (0 + z) 0 (ESum (1 + z) 1 (EMul (ET 6 [(0 + z); m; (1 + z); e]) (ET 11 [a; (1 + z); i; (0 + z)]))))).
Definition r_rccsdt_H_ab_ovvo (z m a e i : nat) : ex := (EAdd (EAdd (ESub (EAdd (ET 29 [m; a; e; i]) (ESum (0 + z) 1 (EMul (ET 17 [m; a; e; (0 + z)]) (r_rccsdt_T_b (1 + z) (0 + z) i)))) (ESum (0 + z) 0 (EMul (r_rccsdt_H_ab_oovo (1 + z) m (0 + z) e i) (r_rccsdt_T_b (2 + z) a (0 + z))))) (ESum (0 + z) 0 (ESum (1 + z) 1 (EMul (ET 3 [m; (0 + z); e; (1 + z)]) (r_rccsdt_T_bb (2 + z) a (1 + z) i (0 + z)))))) (ESum (0 + z) 0 (ESum (1 + z) 1 (EMul (ET 1 [m; (0 + z); e; (1 + z)]) (ET 11 [(1 + z); a; (0 + z); i]))))).
Definition r_rccsdt_H_ab_ovov (z m a i e : nat) : ex := (ESub (ESub (EAdd (ET 39 [m; a; i; e]) (ESum (0 + z) 1 (EMul (ET 17 [m; a; (0 + z); e]) (ET 2 [(0 + z); i])))) (ESum (0 + z) 0 (EMul (r_rccsdt_H_ab_ooov (1 + z) m (0 + z) i e) (r_rccsdt_T_b (2 + z) a (0 + z))))) (ESum (0 + z) 0 (ESum (1 + z) 1 (EMul (ET 3 [m; (0 + z); (1 + z); e]) (ET 11 [(1 + z); a; i; (0 + z)]))))).
Definition r_rccsdt_H_ab_vovo (z a m e i : nat) : ex := (ESub (EAdd (ESub (ET 40 [a; m; e; i]) (ESum (0 + z) 0 (EMul (r_rccsdt_H_ab_oovo (1 + z) (0 + z) m e i) (ET 2 [a; (0 + z)])))) (ESum (0 + z) 1 (EMul (ET 9 [a; m; e; (0 + z)]) (r_rccsdt_T_b (1 + z) (0 + z) i)))) (ESum (0 + z) 0 (ESum (1 + z) 1 (EMul (ET 3 [(0 + z); m; e; (1 + z)]) (ET 11 [a; (1 + z); (0 + z); i]))))).
Definition r_rccsdt_Q1 (z a m i j : nat) : ex := (EAdd (ESum (0 + z) 0 (ESum (1 + z) 1 (EMul (r_rccsdt_H_aa_ooov (2 + z) m (0 + z) j (1 + z)) (ET 10 [a; (1 + z); i; (0 + z)])))) (ESum (0 + z) 0 (ESum (1 + z) 1 (EMul (r_rccsdt_H_ab_ooov (2 + z) m (0 + z) j (1 + z)) (ET 11 [a; (1 + z); i; (0 + z)]))))).
Definition r_rccsdt_Q2 (z a m i f : nat) : ex := (EAdd (ET 22 [a; m; i; f]) (EScale (1) 2 (ESum (0 + z) 1 (EMul (ET 8 [a; m; (0 + z); f]) (ET 2 [(0 + z); i]))))).
Definition r_rccsdt_Q2_1 (z a m i j : nat) : ex := (ESum (0 + z) 1 (EMul (r_rccsdt_Q2 (1 + z) a m i (0 + z)) (ET 2 [(0 + z); j]))).
Definition r_rccsdt_Q1_1 (z a m i j : nat) : ex := (EAdd (r_rccsdt_Q1 (0 + z) a m i j) (r_rccsdt_Q2_1 (0 + z) a m i j)).
Definition r_rccsdt_Q1_2 (z a m i j : nat) : ex := (ESub (r_rccsdt_Q1_1 (0 + z) a m i j) (r_rccsdt_Q1_1 (0 + z) a m j i)).
Definition r_rccsdt_H_aa_vooo (z a m i j : nat) : ex := (EAdd (EAdd (ET 33 [a; m; i; j]) (r_rccsdt_Q1_2 (0 + z) a m i j)) (EAdd (ESub (ESum (0 + z) 1 (EMul (r_rccsdt_X_a_ov (1 + z) m (0 + z)) (ET 10 [a; (0 + z); i; j]))) (ESum (0 + z) 0 (EMul (r_rccsdt_H_aa_oooo_1 (1 + z) (0 + z) m i j) (ET 2 [a; (0 + z)])))) (EScale (1) 2 (ESum (0 + z) 1 (ESum (1 + z) 1 (EMul (ET 8 [a; m; (0 + z); (1 + z)]) (ET 10 [(0 + z); (1 + z); i; j]))))))).
Definition r_rccsdt_Q1_3 (z a m i e : nat) : ex := (EAdd (ET 23 [a; m; i; e]) (ESum (0 + z) 1 (EMul (ET 9 [a; m; (0 + z); e]) (ET 2 [(0 + z); i])))).
Definition r_rccsdt_H_ab_vooo (z a m i j : nat) : ex := (EAdd (ET 42 [a; m; i; j]) (EAdd (EAdd (EAdd (ESub (EAdd (EAdd (ESub (ESum (0 + z) 1 (EMul (r_rccsdt_X_a_ov (1 + z) m (0 + z)) (ET 11 [a; (0 + z); i; j]))) (ESum (0 + z) 0 (EMul (r_rccsdt_H_ab_oooo (1 + z) (0 + z) m i j) (ET 2 [a; (0 + z)])))) (ESum (0 + z) 0 (ESum (1 + z) 1 (EMul (r_rccsdt_H_aa_ooov (2 + z) m (0 + z) j (1 + z)) (ET 11 [a; (1 + z); i; (0 + z)]))))) (ESum (0 + z) 0 (ESum (1 + z) 1 (EMul (r_rccsdt_H_ab_oovo (2 + z) (0 + z) m (1 + z) j) (ET 10 [a; (1 + z); i; (0 + z)]))))) (ESum (0 + z) 0 (ESum (1 + z) 1 (EMul (r_rccsdt_H_ab_ooov (2 + z) (0 + z) m i (1 + z)) (ET 11 [a; (1 + z); (0 + z); j]))))) (ESum (0 + z) 1 (EMul (ET 40 [a; m; (0 + z); j]) (ET 2 [(0 + z); i])))) (ESum (0 + z) 1 (EMul (r_rccsdt_Q1_3 (1 + z) a m i (0 + z)) (r_rccsdt_T_b (2 + z) (0 + z) j)))) (ESum (0 + z) 1 (ESum (1 + z) 1 (EMul (ET 9 [a; m; (0 + z); (1 + z)]) (ET 11 [(0 + z); (1 + z); i; j])))))).
Definition r_rccsdt_Q1_4 (z m a j e : nat) : ex := (EAdd (ET 39 [m; a; j; e]) (ESum (0 + z) 1 (EMul (ET 17 [m; a; (0 + z); e]) (ET 2 [(0 + z); j])))).
Definition r_rccsdt_H_ab_ovoo (z m a j i : nat) : ex := (EAdd (ET 41 [m; a; j; i]) (EAdd (EAdd (EAdd (ESub (EAdd (EAdd (ESub (ESum (0 + z) 1 (EMul (r_rccsdt_X_a_ov (1 + z) m (0 + z)) (ET 11 [(0 + z); a; j; i]))) (ESum (0 + z) 0 (EMul (r_rccsdt_H_ab_oooo (1 + z) m (0 + z) j i) (r_rccsdt_T_b (3 + z) a (0 + z))))) (ESum (0 + z) 0 (ESum (1 + z) 1 (EMul (r_rccsdt_H_aa_ooov (2 + z) m (0 + z) j (1 + z)) (ET 11 [(1 + z); a; (0 + z); i]))))) (ESum (0 + z) 0 (ESum (1 + z) 1 (EMul (r_rccsdt_H_ab_ooov (2 + z) m (0 + z) j (1 + z)) (r_rccsdt_T_bb (3 + z) (1 + z) a (0 + z) i))))) (ESum (0 + z) 0 (ESum (1 + z) 1 (EMul (r_rccsdt_H_ab_oovo (2 + z) m (0 + z) (1 + z) i) (ET 11 [(1 + z); a; j; (0 + z)]))))) (ESum (0 + z) 1 (EMul (r_rccsdt_Q1_4 (1 + z) m a j (0 + z)) (r_rccsdt_T_b (2 + z) (0 + z) i)))) (ESum (0 + z) 1 (EMul (ET 29 [m; a; (0 + z); i]) (ET 2 [(0 + z); j])))) (ESum (0 + z) 1 (ESum (1 + z) 1 (EMul (ET 17 [m; a; (0 + z); (1 + z)]) (ET 11 [(0 + z); (1 + z); j; i])))))).
Definition r_rccsdt_x2a_voov (z a m i e : nat) : ex := (EAdd (r_rccsdt_H_aa_voov (0 + z) a m i e) (EScale (1) 2 (ESum (0 + z) 0 (EMul (r_rccsdt_H_aa_ooov (1 + z) (0 + z) m i e) (ET 2 [a; (0 + z)]))))).
Definition r_rccsdt_H_aa_vvov (z a b i e : nat) : ex := (EAdd (EAdd (EAdd (EAdd (ESub (ESub (EScale (1) 2 (ET 34 [a; b; i; e])) (EScale (1) 2 (ESum (0 + z) 0 (EMul (r_rccsdt_X_a_ov (1 + z) (0 + z) e) (ET 10 [a; b; i; (0 + z)]))))) (ESum (0 + z) 0 (EMul (r_rccsdt_x2a_voov (1 + z) a (0 + z) i e) (ET 2 [b; (0 + z)])))) (EScale (1) 4 (ESum (0 + z) 0 (ESum (1 + z) 0 (EMul (r_rccsdt_H_aa_ooov (2 + z) (0 + z) (1 + z) i e) (ET 10 [a; b; (0 + z); (1 + z)])))))) (EScale (1) 2 (ESum (0 + z) 1 (EMul (ET 45 [a; b; (0 + z); e]) (ET 2 [(0 + z); i]))))) (ESum (0 + z) 0 (ESum (1 + z) 1 (EMul (ET 8 [b; (0 + z); e; (1 + z)]) (ET 10 [a; (1 + z); i; (0 + z)]))))) (ESum (0 + z) 0 (ESum (1 + z) 1 (EMul (ET 9 [b; (0 + z); e; (1 + z)]) (ET 11 [a; (1 + z); i; (0 + z)]))))).
Definition r_rccsdt_H_aa_vvov_1 (z a b i e : nat) : ex := (ESub (r_rccsdt_H_aa_vvov (0 + z) a b i e) (r_rccsdt_H_aa_vvov (0 + z) b a i e)).
Definition r_rccsdt_x2b_voov (z a m i e : nat) : ex := (EAdd (r_rccsdt_H_ab_voov (0 + z) a m i e) (EScale (1) 2 (ESum (0 + z) 0 (EMul (r_rccsdt_H_ab_ooov (1 + z) (0 + z) m i e) (ET 2 [a; (0 + z)]))))).
Definition r_rccsdt_x2b_ovov (z m a i e : nat) : ex := (EAdd (r_rccsdt_H_ab_ovov (0 + z) m a i e) (EScale (1) 2 (ESum (0 + z) 0 (EMul (r_rccsdt_H_ab_ooov (1 + z) m (0 + z) i e) (r_rccsdt_T_b (2 + z) a (0 + z)))))).
Definition r_rccsdt_H_ab_vvov (z a b i e : nat) : ex := (ESub (EAdd (EAdd (EAdd (EAdd (ESub (ESub (ESub (ET 44 [a; b; i; e]) (ESum (0 + z) 0 (EMul (r_rccsdt_X_a_ov (1 + z) (0 + z) e) (ET 11 [a; b; i; (0 + z)])))) (ESum (0 + z) 0 (EMul (r_rccsdt_x2b_voov (1 + z) a (0 + z) i e) (r_rccsdt_T_b (3 + z) b (0 + z))))) (ESum (0 + z) 0 (EMul (r_rccsdt_x2b_ovov (1 + z) (0 + z) b i e) (ET 2 [a; (0 + z)])))) (ESum (0 + z) 0 (ESum (1 + z) 0 (EMul (r_rccsdt_H_ab_ooov (2 + z) (0 + z) (1 + z) i e) (ET 11 [a; b; (0 + z); (1 + z)]))))) (ESum (0 + z) 1 (EMul (ET 47 [a; b; (0 + z); e]) (ET 2 [(0 + z); i])))) (ESum (0 + z) 0 (ESum (1 + z) 1 (EMul (ET 17 [(0 + z); b; (1 + z); e]) (ET 10 [a; (1 + z); i; (0 + z)]))))) (ESum (0 + z) 0 (ESum (1 + z) 1 (EMul (ET 16 [b; (0 + z); e; (1 + z)]) (ET 11 [a; (1 + z); i; (0 + z)]))))) (ESum (0 + z) 0 (ESum (1 + z) 1 (EMul (ET 9 [a; (0 + z); (1 + z); e]) (ET 11 [(1 + z); b; i; (0 + z)]))))).
Definition r_rccsdt_x2b_ovvo (z m a e i : nat) : ex := (EAdd (r_rccsdt_H_ab_ovvo (0 + z) m a e i) (EScale (1) 2 (ESum (0 + z) 0 (EMul (r_rccsdt_H_ab_oovo (1 + z) m (0 + z) e i) (r_rccsdt_T_b (2 + z) a (0 + z)))))).
Definition r_rccsdt_x2b_vovo (z a m e i : nat) : ex := (EAdd (r_rccsdt_H_ab_vovo (0 + z) a m e i) (EScale (1) 2 (ESum (0 + z) 0 (EMul (r_rccsdt_H_ab_oovo (1 + z) (0 + z) m e i) (ET 2 [a; (0 + z)]))))).
Definition r_rccsdt_H_ab_vvvo (z b a e i : nat) : ex := (ESub (EAdd (EAdd (EAdd (EAdd (ESub (ESub (ESub (ET 43 [b; a; e; i]) (ESum (0 + z) 0 (EMul (r_rccsdt_X_a_ov (1 + z) (0 + z) e) (ET 11 [b; a; (0 + z); i])))) (ESum (0 + z) 0 (EMul (r_rccsdt_x2b_ovvo (1 + z) (0 + z) a e i) (ET 2 [b; (0 + z)])))) (ESum (0 + z) 0 (EMul (r_rccsdt_x2b_vovo (1 + z) b (0 + z) e i) (r_rccsdt_T_b (3 + z) a (0 + z))))) (ESum (0 + z) 0 (ESum (1 + z) 0 (EMul (r_rccsdt_H_ab_oovo (2 + z) (0 + z) (1 + z) e i) (ET 11 [b; a; (0 + z); (1 + z)]))))) (ESum (0 + z) 1 (EMul (ET 47 [b; a; e; (0 + z)]) (r_rccsdt_T_b (1 + z) (0 + z) i)))) (ESum (0 + z) 0 (ESum (1 + z) 1 (EMul (ET 9 [b; (0 + z); e; (1 + z)]) (r_rccsdt_T_bb (2 + z) a (1 + z) i (0 + z)))))) (ESum (0 + z) 0 (ESum (1 + z) 1 (EMul (ET 8 [b; (0 + z); e; (1 + z)]) (ET 11 [(1 + z); a; (0 + z); i]))))) (ESum (0 + z) 0 (ESum (1 + z) 1 (EMul (ET 17 [(0 + z); a; e; (1 + z)]) (ET 11 [b; (1 + z); (0 + z); i]))))).
Definition r_rccsdt_I2A_vvov (z a b i e : nat) : ex := (EScale (-1) 2 (ESum (0 + z) 0 (ESum (1 + z) 0 (ESum (2 + z) 1 (EMul (ET 1 [(0 + z); (1 + z); e; (2 + z)]) (ET 24 [a; b; (2 + z); i; (0 + z); (1 + z)])))))).
Definition r_rccsdt_I2A_vvov_1 (z a b i e : nat) : ex := (ESub (r_rccsdt_I2A_vvov (0 + z) a b i e) (ESum (0 + z) 0 (ESum (1 + z) 0 (ESum (2 + z) 1 (EMul (ET 3 [(0 + z); (1 + z); e; (2 + z)]) (ET 25 [a; b; (2 + z); i; (0 + z); (1 + z)])))))).
Definition r_rccsdt_I2A_vvov_2 (z a b i e : nat) : ex := (EAdd (r_rccsdt_I2A_vvov_1 (0 + z) a b i e) (r_rccsdt_H_aa_vvov_1 (0 + z) a b i e)).
Definition r_rccsdt_I2A_vooo_1 (z a m i j : nat) : ex := (EScale (1) 2 (ESum (0 + z) 0 (ESum (1 + z) 1 (ESum (2 + z) 1 (EMul (ET 1 [m; (0 + z); (1 + z); (2 + z)]) (ET 24 [a; (1 + z); (2 + z); i; j; (0 + z)])))))).
Definition r_rccsdt_I2A_vooo_2 (z a m i j : nat) : ex := (EAdd (r_rccsdt_I2A_vooo_1 (0 + z) a m i j) (EAdd (r_rccsdt_H_aa_vooo (0 + z) a m i j) (ESum (0 + z) 0 (ESum (1 + z) 1 (ESum (2 + z) 1 (EMul (ET 3 [m; (0 + z); (1 + z); (2 + z)]) (ET 25 [a; (1 + z); (2 + z); i; j; (0 + z)]))))))).
Definition r_rccsdt_I2A_vooo_3 (z a m i j : nat) : ex := (ESub (r_rccsdt_I2A_vooo_2 (0 + z) a m i j) (ESum (0 + z) 1 (EMul (r_rccsdt_X_a_ov (1 + z) m (0 + z)) (ET 10 [a; (0 + z); i; j])))).
Definition r_rccsdt_dT_aaa (z a b c i j k : nat) : ex := (EScale (-1) 4 (ESum (0 + z) 0 (EMul (r_rccsdt_I2A_vooo_3 (1 + z) a (0 + z) i j) (ET 10 [b; c; (0 + z); k])))).
Definition r_rccsdt_dT_aaa_1 (z a b c i j k : nat) : ex := (EAdd (r_rccsdt_dT_aaa (0 + z) a b c i j k) (EScale (1) 4 (ESum (0 + z) 1 (EMul (r_rccsdt_I2A_vvov_2 (1 + z) a b i (0 + z)) (ET 10 [(0 + z); c; j; k]))))).
Definition r_rccsdt_dT_aaa_2 (z a b c i j k : nat) : ex := (ESub (r_rccsdt_dT_aaa_1 (0 + z) a b c i j k) (EScale (1) 12 (ESum (0 + z) 0 (EMul (r_rccsdt_X_a_oo (1 + z) (0 + z) k) (ET 24 [a; b; c; i; j; (0 + z)]))))).
Definition r_rccsdt_dT_aaa_3 (z a b c i j k : nat) : ex := (EAdd (r_rccsdt_dT_aaa_2 (0 + z) a b c i j k) (EScale (1) 12 (ESum (0 + z) 1 (EMul (r_rccsdt_X_a_vv_1 (1 + z) c (0 + z)) (ET 24 [a; b; (0 + z); i; j; k]))))).
Definition r_rccsdt_dT_aaa_4 (z a b c i j k : nat) : ex := (EAdd (r_rccsdt_dT_aaa_3 (0 + z) a b c i j k) (EScale (1) 24 (ESum (0 + z) 0 (ESum (1 + z) 0 (EMul (r_rccsdt_H_aa_oooo_1 (2 + z) (0 + z) (1 + z) i j) (ET 24 [a; b; c; (0 + z); (1 + z); k])))))).
Definition r_rccsdt_dT_aaa_5 (z a b c i j k : nat) : ex := (EAdd (r_rccsdt_dT_aaa_4 (0 + z) a b c i j k) (EScale (1) 24 (ESum (0 + z) 1 (ESum (1 + z) 1 (EMul (r_rccsdt_H_aa_vvvv_1 (2 + z) a b (0 + z) (1 + z)) (ET 24 [(0 + z); (1 + z); c; i; j; k])))))).
Definition r_rccsdt_dT_aaa_6 (z a b c i j k : nat) : ex := (EAdd (r_rccsdt_dT_aaa_5 (0 + z) a b c i j k) (EScale (1) 4 (ESum (0 + z) 0 (ESum (1 + z) 1 (EMul (r_rccsdt_H_aa_voov (2 + z) c (0 + z) k (1 + z)) (ET 24 [a; b; (1 + z); i; j; (0 + z)])))))).
Definition r_rccsdt_dT_aaa_7 (z a b c i j k : nat) : ex := (EAdd (r_rccsdt_dT_aaa_6 (0 + z) a b c i j k) (EScale (1) 4 (ESum (0 + z) 0 (ESum (1 + z) 1 (EMul (r_rccsdt_H_ab_voov (2 + z) c (0 + z) k (1 + z)) (ET 25 [a; b; (1 + z); i; j; (0 + z)])))))).
Definition r_rccsdt_res_aaa (z a b c i j k : nat) : ex := (r_rccsdt_dT_aaa_7 (0 + z) a b c i j k).
Definition r_rccsdt_I2A_vvov_3 (z a b i e : nat) : ex := (EScale (-1) 2 (ESum (0 + z) 0 (ESum (1 + z) 0 (ESum (2 + z) 1 (EMul (ET 1 [(0 + z); (1 + z); e; (2 + z)]) (ET 24 [a; b; (2 + z); i; (0 + z); (1 + z)])))))).
Definition r_rccsdt_I2A_vvov_4 (z a b i e : nat) : ex := (EAdd (r_rccsdt_I2A_vvov_3 (0 + z) a b i e) (EOpp (ESum (0 + z) 0 (ESum (1 + z) 0 (ESum (2 + z) 1 (EMul (ET 3 [(0 + z); (1 + z); e; (2 + z)]) (ET 25 [a; b; (2 + z); i; (0 + z); (1 + z)]))))))).
Definition r_rccsdt_I2A_vvov_5 (z a b i e : nat) : ex := (EAdd (r_rccsdt_I2A_vvov_4 (0 + z) a b i e) (r_rccsdt_H_aa_vvov_1 (0 + z) a b i e)).
Definition r_rccsdt_I2A_vooo_4 (z a m i j : nat) : ex := (EScale (1) 2 (ESum (0 + z) 0 (ESum (1 + z) 1 (ESum (2 + z) 1 (EMul (ET 1 [m; (0 + z); (1 + z); (2 + z)]) (ET 24 [a; (1 + z); (2 + z); i; j; (0 + z)])))))).
Definition r_rccsdt_I2A_vooo_5 (z a m i j : nat) : ex := (EAdd (r_rccsdt_I2A_vooo_4 (0 + z) a m i j) (ESum (0 + z) 0 (ESum (1 + z) 1 (ESum (2 + z) 1 (EMul (ET 3 [m; (0 + z); (1 + z); (2 + z)]) (ET 25 [a; (1 + z); (2 + z); i; j; (0 + z)])))))).
Definition r_rccsdt_I2A_vooo_6 (z a m i j : nat) : ex := (EAdd (r_rccsdt_I2A_vooo_5 (0 + z) a m i j) (EOpp (ESum (0 + z) 1 (EMul (r_rccsdt_X_a_ov (1 + z) m (0 + z)) (ET 10 [a; (0 + z); i; j]))))).
Definition r_rccsdt_I2A_vooo_7 (z a m i j : nat) : ex := (EAdd (r_rccsdt_I2A_vooo_6 (0 + z) a m i j) (r_rccsdt_H_aa_vooo (0 + z) a m i j)).
Definition r_rccsdt_I2B_vvvo (z a b e j : nat) : ex := (EScale (-1) 2 (ESum (0 + z) 0 (ESum (1 + z) 0 (ESum (2 + z) 1 (EMul (ET 1 [(0 + z); (1 + z); e; (2 + z)]) (ET 25 [a; (2 + z); b; (0 + z); (1 + z); j])))))).
Definition r_rccsdt_I2B_vvvo_1 (z a b e j : nat) : ex := (EAdd (r_rccsdt_I2B_vvvo (0 + z) a b e j) (EOpp (ESum (0 + z) 0 (ESum (1 + z) 0 (ESum (2 + z) 1 (EMul (ET 3 [(0 + z); (1 + z); e; (2 + z)]) (ET 26 [a; (2 + z); b; (0 + z); (1 + z); j]))))))).
Definition r_rccsdt_I2B_vvvo_2 (z a b e j : nat) : ex := (EAdd (r_rccsdt_I2B_vvvo_1 (0 + z) a b e j) (r_rccsdt_H_ab_vvvo (0 + z) a b e j)).
Definition r_rccsdt_I2B_ovoo_1 (z m b i j : nat) : ex := (EScale (1) 2 (ESum (0 + z) 0 (ESum (1 + z) 1 (ESum (2 + z) 1 (EMul (ET 1 [m; (0 + z); (1 + z); (2 + z)]) (ET 25 [(1 + z); (2 + z); b; i; (0 + z); j])))))).
Definition r_rccsdt_I2B_ovoo_2 (z m b i j : nat) : ex := (EAdd (r_rccsdt_I2B_ovoo_1 (0 + z) m b i j) (ESum (0 + z) 0 (ESum (1 + z) 1 (ESum (2 + z) 1 (EMul (ET 3 [m; (0 + z); (1 + z); (2 + z)]) (ET 26 [(1 + z); (2 + z); b; i; (0 + z); j])))))).
Definition r_rccsdt_I2B_ovoo_3 (z m b i j : nat) : ex := (EAdd (r_rccsdt_I2B_ovoo_2 (0 + z) m b i j) (EOpp (ESum (0 + z) 1 (EMul (r_rccsdt_X_a_ov (1 + z) m (0 + z)) (ET 11 [(0 + z); b; i; j]))))).
Definition r_rccsdt_I2B_ovoo_4 (z m b i j : nat) : ex := (EAdd (r_rccsdt_I2B_ovoo_3 (0 + z) m b i j) (r_rccsdt_H_ab_ovoo (0 + z) m b i j)).
Definition r_rccsdt_I2B_vvov (z a b i e : nat) : ex := (EOpp (ESum (0 + z) 0 (ESum (1 + z) 0 (ESum (2 + z) 1 (EMul (ET 3 [(0 + z); (1 + z); (2 + z); e]) (ET 25 [a; (2 + z); b; i; (0 + z); (1 + z)])))))).
Definition r_rccsdt_I2B_vvov_1 (z a b i e : nat) : ex := (EAdd (r_rccsdt_I2B_vvov (0 + z) a b i e) (EScale (-1) 2 (ESum (0 + z) 0 (ESum (1 + z) 0 (ESum (2 + z) 1 (EMul (ET 6 [(0 + z); (1 + z); (2 + z); e]) (ET 26 [a; (2 + z); b; i; (0 + z); (1 + z)]))))))).
Definition r_rccsdt_I2B_vvov_2 (z a b i e : nat) : ex := (EAdd (r_rccsdt_I2B_vvov_1 (0 + z) a b i e) (r_rccsdt_H_ab_vvov (0 + z) a b i e)).
Definition r_rccsdt_I2B_vooo_1 (z a m i j : nat) : ex := (ESum (0 + z) 0 (ESum (1 + z) 1 (ESum (2 + z) 1 (EMul (ET 3 [(0 + z); m; (1 + z); (2 + z)]) (ET 25 [a; (1 + z); (2 + z); i; (0 + z); j]))))).
Definition r_rccsdt_I2B_vooo_2 (z a m i j : nat) : ex := (EAdd (r_rccsdt_I2B_vooo_1 (0 + z) a m i j) (EScale (1) 2 (ESum (0 + z) 0 (ESum (1 + z) 1 (ESum (2 + z) 1 (EMul (ET 6 [(0 + z); m; (1 + z); (2 + z)]) (ET 26 [a; (1 + z); (2 + z); i; (0 + z); j]))))))).
Definition r_rccsdt_I2B_vooo_3 (z a m i j : nat) : ex := (EAdd (r_rccsdt_I2B_vooo_2 (0 + z) a m i j) (EOpp (ESum (0 + z) 1 (EMul (r_rccsdt_X_a_ov (1 + z) m (0 + z)) (ET 11 [a; (0 + z); i; j]))))).
Definition r_rccsdt_I2B_vooo_4 (z a m i j : nat) : ex := (EAdd (r_rccsdt_I2B_vooo_3 (0 + z) a m i j) (r_rccsdt_H_ab_vooo (0 + z) a m i j)).
Definition r_rccsdt_dT_aab (z a b c i j k : nat) : ex := (EScale (1) 2 (ESum (0 + z) 1 (EMul (r_rccsdt_I2B_vvvo_2 (1 + z) b c (0 + z) k) (ET 10 [a; (0 + z); i; j])))).
Definition r_rccsdt_dT_aab_1 (z a b c i j k : nat) : ex := (ESub (r_rccsdt_dT_aab (0 + z) a b c i j k) (EScale (1) 2 (ESum (0 + z) 0 (EMul (r_rccsdt_I2B_ovoo_4 (1 + z) (0 + z) c j k) (ET 10 [a; b; i; (0 + z)]))))).
Definition r_rccsdt_dT_aab_2 (z a b c i j k : nat) : ex := (EAdd (r_rccsdt_dT_aab_1 (0 + z) a b c i j k) (ESum (0 + z) 1 (EMul (r_rccsdt_I2B_vvov_2 (1 + z) a c i (0 + z)) (ET 11 [b; (0 + z); j; k])))).
Definition r_rccsdt_dT_aab_3 (z a b c i j k : nat) : ex := (ESub (r_rccsdt_dT_aab_2 (0 + z) a b c i j k) (ESum (0 + z) 0 (EMul (r_rccsdt_I2B_vooo_4 (1 + z) a (0 + z) i k) (ET 11 [b; c; j; (0 + z)])))).
Definition r_rccsdt_dT_aab_4 (z a b c i j k : nat) : ex := (EAdd (r_rccsdt_dT_aab_3 (0 + z) a b c i j k) (EScale (1) 2 (ESum (0 + z) 1 (EMul (r_rccsdt_I2A_vvov_5 (1 + z) a b i (0 + z)) (ET 11 [(0 + z); c; j; k]))))).
Definition r_rccsdt_dT_aab_5 (z a b c i j k : nat) : ex := (ESub (r_rccsdt_dT_aab_4 (0 + z) a b c i j k) (EScale (1) 2 (ESum (0 + z) 0 (EMul (r_rccsdt_I2A_vooo_7 (1 + z) a (0 + z) i j) (ET 11 [b; c; (0 + z); k]))))).
Definition r_rccsdt_dT_aab_6 (z a b c i j k : nat) : ex := (ESub (r_rccsdt_dT_aab_5 (0 + z) a b c i j k) (EScale (1) 2 (ESum (0 + z) 0 (EMul (r_rccsdt_X_a_oo (1 + z) (0 + z) i) (ET 25 [a; b; c; (0 + z); j; k]))))).
Definition r_rccsdt_dT_aab_7 (z a b c i j k : nat) : ex := (ESub (r_rccsdt_dT_aab_6 (0 + z) a b c i j k) (EScale (1) 4 (ESum (0 + z) 0 (EMul (r_rccsdt_X_a_oo (1 + z) (0 + z) k) (ET 25 [a; b; c; i; j; (0 + z)]))))).
Definition r_rccsdt_dT_aab_8 (z a b c i j k : nat) : ex := (EAdd (r_rccsdt_dT_aab_7 (0 + z) a b c i j k) (EScale (1) 2 (ESum (0 + z) 1 (EMul (r_rccsdt_X_a_vv_1 (1 + z) a (0 + z)) (ET 25 [(0 + z); b; c; i; j; k]))))).
Definition r_rccsdt_dT_aab_9 (z a b c i j k : nat) : ex := (EAdd (r_rccsdt_dT_aab_8 (0 + z) a b c i j k) (EScale (1) 4 (ESum (0 + z) 1 (EMul (r_rccsdt_X_a_vv_1 (1 + z) c (0 + z)) (ET 25 [a; b; (0 + z); i; j; k]))))).
Definition r_rccsdt_dT_aab_10 (z a b c i j k : nat) : ex := (EAdd (r_rccsdt_dT_aab_9 (0 + z) a b c i j k) (EScale (1) 8 (ESum (0 + z) 0 (ESum (1 + z) 0 (EMul (r_rccsdt_H_aa_oooo_1 (2 + z) (0 + z) (1 + z) i j) (ET 25 [a; b; c; (0 + z); (1 + z); k])))))).
Definition r_rccsdt_dT_aab_11 (z a b c i j k : nat) : ex := (EAdd (r_rccsdt_dT_aab_10 (0 + z) a b c i j k) (EScale (1) 2 (ESum (0 + z) 0 (ESum (1 + z) 0 (EMul (r_rccsdt_H_ab_oooo (2 + z) (0 + z) (1 + z) j k) (ET 25 [a; b; c; i; (0 + z); (1 + z)])))))).
Definition r_rccsdt_dT_aab_12 (z a b c i j k : nat) : ex := (EAdd (r_rccsdt_dT_aab_11 (0 + z) a b c i j k) (EScale (1) 8 (ESum (0 + z) 1 (ESum (1 + z) 1 (EMul (r_rccsdt_H_aa_vvvv_1 (2 + z) a b (0 + z) (1 + z)) (ET 25 [(0 + z); (1 + z); c; i; j; k])))))).
Definition r_rccsdt_dT_aab_13 (z a b c i j k : nat) : ex := (EAdd (r_rccsdt_dT_aab_12 (0 + z) a b c i j k) (EScale (1) 2 (ESum (0 + z) 1 (ESum (1 + z) 1 (EMul (r_rccsdt_H_ab_vvvv (2 + z) b c (0 + z) (1 + z)) (ET 25 [a; (0 + z); (1 + z); i; j; k])))))).
Definition r_rccsdt_dT_aab_14 (z a b c i j k : nat) : ex := (EAdd (r_rccsdt_dT_aab_13 (0 + z) a b c i j k) (ESum (0 + z) 0 (ESum (1 + z) 1 (EMul (r_rccsdt_H_aa_voov (2 + z) a (0 + z) i (1 + z)) (ET 25 [(1 + z); b; c; (0 + z); j; k]))))).
Definition r_rccsdt_dT_aab_15 (z a b c i j k : nat) : ex := (EAdd (r_rccsdt_dT_aab_14 (0 + z) a b c i j k) (ESum (0 + z) 0 (ESum (1 + z) 1 (EMul (r_rccsdt_H_ab_voov (2 + z) a (0 + z) i (1 + z)) (ET 26 [b; (1 + z); c; j; (0 + z); k]))))).
Definition r_rccsdt_dT_aab_16 (z a b c i j k : nat) : ex := (EAdd (r_rccsdt_dT_aab_15 (0 + z) a b c i j k) (EScale (1) 4 (ESum (0 + z) 0 (ESum (1 + z) 1 (EMul (r_rccsdt_H_ab_ovvo (2 + z) (0 + z) c (1 + z) k) (ET 24 [a; b; (1 + z); i; j; (0 + z)])))))).
Definition r_rccsdt_dT_aab_17 (z a b c i j k : nat) : ex := (EAdd (r_rccsdt_dT_aab_16 (0 + z) a b c i j k) (EScale (1) 4 (ESum (0 + z) 0 (ESum (1 + z) 1 (EMul (r_rccsdt_H_aa_voov (2 + z) c (0 + z) k (1 + z)) (ET 25 [a; b; (1 + z); i; j; (0 + z)])))))).
Definition r_rccsdt_dT_aab_18 (z a b c i j k : nat) : ex := (ESub (r_rccsdt_dT_aab_17 (0 + z) a b c i j k) (EScale (1) 2 (ESum (0 + z) 0 (ESum (1 + z) 1 (EMul (r_rccsdt_H_ab_vovo (2 + z) a (0 + z) (1 + z) k) (ET 25 [(1 + z); b; c; i; j; (0 + z)])))))).
Definition r_rccsdt_dT_aab_19 (z a b c i j k : nat) : ex := (ESub (r_rccsdt_dT_aab_18 (0 + z) a b c i j k) (EScale (1) 2 (ESum (0 + z) 0 (ESum (1 + z) 1 (EMul (r_rccsdt_H_ab_ovov (2 + z) (0 + z) c i (1 + z)) (ET 25 [a; b; (1 + z); (0 + z); j; k])))))).
Definition r_rccsdt_res_aab (z a b c i j k : nat) : ex := (r_rccsdt_dT_aab_19 (0 + z) a b c i j k).
Definition r_rccsdt_T_abb (z a b c i j k : nat) : ex := (ET 25 [c; b; a; k; j; i]).
Definition r_rccsdt_dT_abb (z a b c i j k : nat) : ex := (r_rccsdt_res_aab (0 + z) c b a k j i).
Definition r_rccsdt_T_bbb (z a b c i j k : nat) : ex := (ET 24 [a; b; c; i; j; k]).
Definition r_rccsdt_dT_bbb (z a b c i j k : nat) : ex := (r_rccsdt_res_aaa (0 + z) a b c i j k).
Definition r_rhb3_H_a_ov (z i a : nat) : ex := (EAdd (ET 0 [i; a]) (EAdd (ESum (0 + z) 0 (ESum (1 + z) 1 (EMul (ET 1 [i; (0 + z); a; (1 + z)]) (ET 2 [(1 + z); (0 + z)])))) (ESum (0 + z) 0 (ESum (1 + z) 1 (EMul (ET 3 [i; (0 + z); a; (1 + z)]) (ET 4 [(1 + z); (0 + z)])))))).
Definition r_rhb3_H_a_oo (z i j : nat) : ex := (EAdd (ET 12 [i; j]) (EAdd (EAdd (EAdd (EAdd (ESum (0 + z) 1 (EMul (r_rhb3_H_a_ov (1 + z) i (0 + z)) (ET 2 [(0 + z); j]))) (ESum (0 + z) 0 (ESum (1 + z) 1 (EMul (ET 13 [i; (0 + z); j; (1 + z)]) (ET 2 [(1 + z); (0 + z)]))))) (ESum (0 + z) 0 (ESum (1 + z) 1 (EMul (ET 14 [i; (0 + z); j; (1 + z)]) (ET 4 [(1 + z); (0 + z)]))))) (EScale (1) 2 (ESum (0 + z) 0 (ESum (1 + z) 1 (ESum (2 + z) 1 (EMul (ET 1 [i; (0 + z); (1 + z); (2 + z)]) (ET 10 [(1 + z); (2 + z); j; (0 + z)]))))))) (ESum (0 + z) 0 (ESum (1 + z) 1 (ESum (2 + z) 1 (EMul (ET 3 [i; (0 + z); (1 + z); (2 + z)]) (ET 11 [(1 + z); (2 + z); j; (0 + z)]))))))).
Definition r_rhb3_H_a_vv (z a b : nat) : ex := (EAdd (ET 7 [a; b]) (ESub (ESub (EAdd (EAdd (EOpp (ESum (0 + z) 0 (EMul (r_rhb3_H_a_ov (1 + z) (0 + z) b) (ET 2 [a; (0 + z)])))) (ESum (0 + z) 0 (ESum (1 + z) 1 (EMul (ET 8 [a; (0 + z); b; (1 + z)]) (ET 2 [(1 + z); (0 + z)]))))) (ESum (0 + z) 0 (ESum (1 + z) 1 (EMul (ET 9 [a; (0 + z); b; (1 + z)]) (ET 4 [(1 + z); (0 + z)]))))) (EScale (1) 2 (ESum (0 + z) 0 (ESum (1 + z) 0 (ESum (2 + z) 1 (EMul (ET 1 [(0 + z); (1 + z); b; (2 + z)]) (ET 10 [a; (2 + z); (0 + z); (1 + z)]))))))) (ESum (0 + z) 0 (ESum (1 + z) 0 (ESum (2 + z) 1 (EMul (ET 3 [(0 + z); (1 + z); b; (2 + z)]) (ET 11 [a; (2 + z); (0 + z); (1 + z)]))))))).
Definition r_rhb3_H_b_ov (z i a : nat) : ex := (EAdd (ET 5 [i; a]) (EAdd (ESum (0 + z) 0 (ESum (1 + z) 1 (EMul (ET 6 [i; (0 + z); a; (1 + z)]) (ET 4 [(1 + z); (0 + z)])))) (ESum (0 + z) 0 (ESum (1 + z) 1 (EMul (ET 3 [(0 + z); i; (1 + z); a]) (ET 2 [(1 + z); (0 + z)])))))).
Definition r_rhb3_H_b_oo (z i j : nat) : ex := (EAdd (ET 19 [i; j]) (EAdd (EAdd (EAdd (EAdd (ESum (0 + z) 1 (EMul (r_rhb3_H_b_ov (1 + z) i (0 + z)) (ET 4 [(0 + z); j]))) (ESum (0 + z) 0 (ESum (1 + z) 1 (EMul (ET 20 [i; (0 + z); j; (1 + z)]) (ET 4 [(1 + z); (0 + z)]))))) (ESum (0 + z) 0 (ESum (1 + z) 1 (EMul (ET 21 [(0 + z); i; (1 + z); j]) (ET 2 [(1 + z); (0 + z)]))))) (EScale (1) 2 (ESum (0 + z) 0 (ESum (1 + z) 1 (ESum (2 + z) 1 (EMul (ET 6 [i; (0 + z); (1 + z); (2 + z)]) (ET 18 [(1 + z); (2 + z); j; (0 + z)]))))))) (ESum (0 + z) 0 (ESum (1 + z) 1 (ESum (2 + z) 1 (EMul (ET 3 [(0 + z); i; (1 + z); (2 + z)]) (ET 11 [(1 + z); (2 + z); (0 + z); j]))))))).
Definition r_rhb3_H_b_vv (z a b : nat) : ex := (EAdd (ET 15 [a; b]) (ESub (ESub (EAdd (EAdd (EOpp (ESum (0 + z) 0 (EMul (r_rhb3_H_b_ov (1 + z) (0 + z) b) (ET 4 [a; (0 + z)])))) (ESum (0 + z) 0 (ESum (1 + z) 1 (EMul (ET 16 [a; (0 + z); b; (1 + z)]) (ET 4 [(1 + z); (0 + z)]))))) (ESum (0 + z) 0 (ESum (1 + z) 1 (EMul (ET 17 [(0 + z); a; (1 + z); b]) (ET 2 [(1 + z); (0 + z)]))))) (EScale (1) 2 (ESum (0 + z) 0 (ESum (1 + z) 0 (ESum (2 + z) 1 (EMul (ET 6 [(0 + z); (1 + z); b; (2 + z)]) (ET 18 [a; (2 + z); (0 + z); (1 + z)]))))))) (ESum (0 + z) 0 (ESum (1 + z) 0 (ESum (2 + z) 1 (EMul (ET 3 [(0 + z); (1 + z); (2 + z); b]) (ET 11 [(2 + z); a; (0 + z); (1 + z)]))))))).
Definition r_rhb3_tau_aa (z a b i j : nat) : ex := (EAdd (EScale (1) 2 (ET 10 [a; b; i; j])) (EMul (ET 2 [a; i]) (ET 2 [b; j]))).
Definition r_rhb3_tau_aa_1 (z a b i j : nat) : ex := (ESub (r_rhb3_tau_aa (0 + z) a b i j) (r_rhb3_tau_aa (0 + z) a b j i)).
Definition r_rhb3_tau_ab (z a b i j : nat) : ex := (EAdd (ET 11 [a; b; i; j]) (EMul (ET 2 [a; i]) (ET 4 [b; j]))).
Definition r_rhb3_H_aa_oooo (z m n i j : nat) : ex := (EAdd (EAdd (EScale (1) 2 (ET 32 [m; n; i; j])) (ESum (0 + z) 1 (EMul (ET 13 [n; m; j; (0 + z)]) (ET 2 [(0 + z); i])))) (EScale (1) 4 (ESum (0 + z) 1 (ESum (1 + z) 1 (EMul (ET 1 [m; n; (0 + z); (1 + z)]) (r_rhb3_tau_aa_1 (2 + z) (0 + z) (1 + z) i j)))))).
Definition r_rhb3_H_aa_oooo_1 (z m n i j : nat) : ex := (ESub (r_rhb3_H_aa_oooo (0 + z) m n i j) (r_rhb3_H_aa_oooo (0 + z) m n j i)).
Definition r_rhb3_H_ab_oooo (z m n i j : nat) : ex := (EAdd (EAdd (EAdd (ET 38 [m; n; i; j]) (ESum (0 + z) 1 (EMul (ET 21 [m; n; (0 + z); j]) (ET 2 [(0 + z); i])))) (ESum (0 + z) 1 (EMul (ET 14 [m; n; i; (0 + z)]) (ET 4 [(0 + z); j])))) (ESum (0 + z) 1 (ESum (1 + z) 1 (EMul (ET 3 [m; n; (0 + z); (1 + z)]) (r_rhb3_tau_ab (2 + z) (0 + z) (1 + z) i j))))).
Definition r_rhb3_H_aa_ooov (z i j k a : nat) : ex := (EAdd (ET 13 [i; j; k; a]) (ESum (0 + z) 1 (EMul (ET 1 [i; j; (0 + z); a]) (ET 2 [(0 + z); k])))).
Definition r_rhb3_H_ab_ooov (z i j k a : nat) : ex := (EAdd (ET 14 [i; j; k; a]) (ESum (0 + z) 1 (EMul (ET 3 [i; j; (0 + z); a]) (ET 2 [(0 + z); k])))).
Definition r_rhb3_H_ab_oovo (z i j a k : nat) : ex := (EAdd (ET 21 [i; j; a; k]) (ESum (0 + z) 1 (EMul (ET 3 [i; j; a; (0 + z)]) (ET 4 [(0 + z); k])))).
Definition r_rhb3_Q1 (z a m i j : nat) : ex := (EAdd (ESum (0 + z) 0 (ESum (1 + z) 1 (EMul (r_rhb3_H_aa_ooov (2 + z) m (0 + z) j (1 + z)) (ET 10 [a; (1 + z); i; (0 + z)])))) (ESum (0 + z) 0 (ESum (1 + z) 1 (EMul (r_rhb3_H_ab_ooov (2 + z) m (0 + z) j (1 + z)) (ET 11 [a; (1 + z); i; (0 + z)]))))).
Definition r_rhb3_Q2 (z a m i f : nat) : ex := (EAdd (ET 22 [a; m; i; f]) (EScale (1) 2 (ESum (0 + z) 1 (EMul (ET 8 [a; m; (0 + z); f]) (ET 2 [(0 + z); i]))))).
Definition r_rhb3_Q2_1 (z a m i j : nat) : ex := (ESum (0 + z) 1 (EMul (r_rhb3_Q2 (1 + z) a m i (0 + z)) (ET 2 [(0 + z); j]))).
Definition r_rhb3_Q1_1 (z a m i j : nat) : ex := (EAdd (r_rhb3_Q1 (0 + z) a m i j) (r_rhb3_Q2_1 (0 + z) a m i j)).
Definition r_rhb3_Q1_2 (z a m i j : nat) : ex := (ESub (r_rhb3_Q1_1 (0 + z) a m i j) (r_rhb3_Q1_1 (0 + z) a m j i)).
Definition r_rhb3_H_aa_vooo (z a m i j : nat) : ex := (EAdd (EAdd (ET 33 [a; m; i; j]) (r_rhb3_Q1_2 (0 + z) a m i j)) (EAdd (EAdd (EAdd (ESub (ESum (0 + z) 1 (EMul (r_rhb3_H_a_ov (1 + z) m (0 + z)) (ET 10 [a; (0 + z); i; j]))) (ESum (0 + z) 0 (EMul (r_rhb3_H_aa_oooo_1 (1 + z) (0 + z) m i j) (ET 2 [a; (0 + z)])))) (EScale (1) 2 (ESum (0 + z) 1 (ESum (1 + z) 1 (EMul (ET 8 [a; m; (0 + z); (1 + z)]) (ET 10 [(0 + z); (1 + z); i; j])))))) (EScale (1) 2 (ESum (0 + z) 0 (ESum (1 + z) 1 (ESum (2 + z) 1 (EMul (ET 1 [m; (0 + z); (1 + z); (2 + z)]) (ET 24 [a; (1 + z); (2 + z); i; j; (0 + z)]))))))) (ESum (0 + z) 0 (ESum (1 + z) 1 (ESum (2 + z) 1 (EMul (ET 3 [m; (0 + z); (1 + z); (2 + z)]) (ET 25 [a; (1 + z); (2 + z); i; j; (0 + z)]))))))).
Definition r_rhb3_Q1_3 (z a m i e : nat) : ex := (EAdd (ET 23 [a; m; i; e]) (ESum (0 + z) 1 (EMul (ET 9 [a; m; (0 + z); e]) (ET 2 [(0 + z); i])))).
Definition r_rhb3_H_ab_vooo (z a m i j : nat) : ex := (EAdd (ET 42 [a; m; i; j]) (EAdd (EAdd (EAdd (EAdd (EAdd (ESub (EAdd (EAdd (ESub (ESum (0 + z) 1 (EMul (r_rhb3_H_b_ov (1 + z) m (0 + z)) (ET 11 [a; (0 + z); i; j]))) (ESum (0 + z) 0 (EMul (r_rhb3_H_ab_oooo (1 + z) (0 + z) m i j) (ET 2 [a; (0 + z)])))) (ESum (0 + z) 0 (ESum (1 + z) 1 (EMul (r_rhb3_H_aa_ooov (2 + z) m (0 + z) j (1 + z)) (ET 11 [a; (1 + z); i; (0 + z)]))))) (ESum (0 + z) 0 (ESum (1 + z) 1 (EMul (r_rhb3_H_ab_oovo (2 + z) (0 + z) m (1 + z) j) (ET 10 [a; (1 + z); i; (0 + z)]))))) (ESum (0 + z) 0 (ESum (1 + z) 1 (EMul (r_rhb3_H_ab_ooov (2 + z) (0 + z) m i (1 + z)) (ET 11 [a; (1 + z); (0 + z); j]))))) (ESum (0 + z) 1 (EMul (ET 40 [a; m; (0 + z); j]) (ET 2 [(0 + z); i])))) (ESum (0 + z) 1 (EMul (r_rhb3_Q1_3 (1 + z) a m i (0 + z)) (ET 4 [(0 + z); j])))) (ESum (0 + z) 1 (ESum (1 + z) 1 (EMul (ET 9 [a; m; (0 + z); (1 + z)]) (ET 11 [(0 + z); (1 + z); i; j]))))) (ESum (0 + z) 0 (ESum (1 + z) 1 (ESum (2 + z) 1 (EMul (ET 3 [(0 + z); m; (1 + z); (2 + z)]) (ET 25 [a; (1 + z); (2 + z); i; (0 + z); j])))))) (EScale (1) 2 (ESum (0 + z) 0 (ESum (1 + z) 1 (ESum (2 + z) 1 (EMul (ET 6 [m; (0 + z); (1 + z); (2 + z)]) (ET 26 [a; (1 + z); (2 + z); i; j; (0 + z)])))))))).
Definition r_rhb3_Q1_4 (z m a j e : nat) : ex := (EAdd (ET 39 [m; a; j; e]) (ESum (0 + z) 1 (EMul (ET 17 [m; a; (0 + z); e]) (ET 2 [(0 + z); j])))).
Definition r_rhb3_H_ab_ovoo (z m a j i : nat) : ex := (EAdd (ET 41 [m; a; j; i]) (EAdd (EAdd (EAdd (EAdd (EAdd (ESub (EAdd (EAdd (ESub (ESum (0 + z) 1 (EMul (r_rhb3_H_a_ov (1 + z) m (0 + z)) (ET 11 [(0 + z); a; j; i]))) (ESum (0 + z) 0 (EMul (r_rhb3_H_ab_oooo (1 + z) m (0 + z) j i) (ET 4 [a; (0 + z)])))) (ESum (0 + z) 0 (ESum (1 + z) 1 (EMul (r_rhb3_H_aa_ooov (2 + z) m (0 + z) j (1 + z)) (ET 11 [(1 + z); a; (0 + z); i]))))) (ESum (0 + z) 0 (ESum (1 + z) 1 (EMul (r_rhb3_H_ab_ooov (2 + z) m (0 + z) j (1 + z)) (ET 18 [(1 + z); a; (0 + z); i]))))) (ESum (0 + z) 0 (ESum (1 + z) 1 (EMul (r_rhb3_H_ab_oovo (2 + z) m (0 + z) (1 + z) i) (ET 11 [(1 + z); a; j; (0 + z)]))))) (ESum (0 + z) 1 (EMul (r_rhb3_Q1_4 (1 + z) m a j (0 + z)) (ET 4 [(0 + z); i])))) (ESum (0 + z) 1 (EMul (ET 29 [m; a; (0 + z); i]) (ET 2 [(0 + z); j])))) (ESum (0 + z) 1 (ESum (1 + z) 1 (EMul (ET 17 [m; a; (0 + z); (1 + z)]) (ET 11 [(0 + z); (1 + z); j; i]))))) (EScale (1) 2 (ESum (0 + z) 0 (ESum (1 + z) 1 (ESum (2 + z) 1 (EMul (ET 1 [m; (0 + z); (1 + z); (2 + z)]) (ET 25 [(1 + z); (2 + z); a; j; (0 + z); i]))))))) (ESum (0 + z) 0 (ESum (1 + z) 1 (ESum (2 + z) 1 (EMul (ET 3 [m; (0 + z); (1 + z); (2 + z)]) (ET 26 [(1 + z); (2 + z); a; j; (0 + z); i]))))))).
Definition r_rhb3_H_aa_voov (z a m i e : nat) : ex := (EAdd (EAdd (ESub (EAdd (ET 22 [a; m; i; e]) (ESum (0 + z) 1 (EMul (ET 8 [a; m; (0 + z); e]) (ET 2 [(0 + z); i])))) (ESum (0 + z) 0 (EMul (r_rhb3_H_aa_ooov (1 + z) (0 + z) m i e) (ET 2 [a; (0 + z)])))) (ESum (0 + z) 0 (ESum (1 + z) 1 (EMul (ET 1 [(0 + z); m; (1 + z); e]) (ET 10 [a; (1 + z); i; (0 + z)]))))) (ESum (0 + z) 0 (ESum (1 + z) 1 (EMul (ET 3 [m; (0 + z); e; (1 + z)]) (ET 11 [a; (1 + z); i; (0 + z)]))))).
Definition r_rhb3_H_ab_voov (z a m i e : nat) : ex := (EAdd (EAdd (ESub (EAdd (ET 23 [a; m; i; e]) (ESum (0 + z) 1 (EMul (ET 9 [a; m; (0 + z); e]) (ET 2 [(0 + z); i])))) (ESum (0 + z) 0 (EMul (r_rhb3_H_ab_ooov (1 + z) (0 + z) m i e) (ET 2 [a; (0 + z)])))) (ESum (0 + z) 0 (ESum (1 + z) 1 (EMul (ET 3 [(0 + z); m; (1 + z); e]) (ET 10 [a; (1 + z); i; (0 + z)]))))) (ESum (0 + z) 0 (ESum (1 + z) 1 (EMul (ET 6 [(0 + z); m; (1 + z); e]) (ET 11 [a; (1 + z); i; (0 + z)]))))).
Definition r_rhb3_H_ab_ovvo (z m a e i : nat) : ex := (EAdd (EAdd (ESub (EAdd (ET 29 [m; a; e; i]) (ESum (0 + z) 1 (EMul (ET 17 [m; a; e; (0 + z)]) (ET 4 [(0 + z); i])))) (ESum (0 + z) 0 (EMul (r_rhb3_H_ab_oovo (1 + z) m (0 + z) e i) (ET 4 [a; (0 + z)])))) (ESum (0 + z) 0 (ESum (1 + z) 1 (EMul (ET 3 [m; (0 + z); e; (1 + z)]) (ET 18 [a; (1 + z); i; (0 + z)]))))) (ESum (0 + z) 0 (ESum (1 + z) 1 (EMul (ET 1 [m; (0 + z); e; (1 + z)]) (ET 11 [(1 + z); a; (0 + z); i]))))).
Definition r_rhb3_H_ab_ovov (z m a i e : nat) : ex := (ESub (ESub (EAdd (ET 39 [m; a; i; e]) (ESum (0 + z) 1 (EMul (ET 17 [m; a; (0 + z); e]) (ET 2 [(0 + z); i])))) (ESum (0 + z) 0 (EMul (r_rhb3_H_ab_ooov (1 + z) m (0 + z) i e) (ET 4 [a; (0 + z)])))) (ESum (0 + z) 0 (ESum (1 + z) 1 (EMul (ET 3 [m; (0 + z); (1 + z); e]) (ET 11 [(1 + z); a; i; (0 + z)]))))).
Definition r_rhb3_H_ab_vovo (z a m e i : nat) : ex := (ESub (EAdd (ESub (ET 40 [a; m; e; i]) (ESum (0 + z) 0 (EMul (r_rhb3_H_ab_oovo (1 + z) (0 + z) m e i) (ET 2 [a; (0 + z)])))) (ESum (0 + z) 1 (EMul (ET 9 [a; m; e; (0 + z)]) (ET 4 [(0 + z); i])))) (ESum (0 + z) 0 (ESum (1 + z) 1 (EMul (ET 3 [(0 + z); m; e; (1 + z)]) (ET 11 [a; (1 + z); (0 + z); i]))))).
Definition r_rhb3_x2a_voov (z a m i e : nat) : ex := (EAdd (r_rhb3_H_aa_voov (0 + z) a m i e) (EScale (1) 2 (ESum (0 + z) 0 (EMul (r_rhb3_H_aa_ooov (1 + z) (0 + z) m i e) (ET 2 [a; (0 + z)]))))).
Definition r_rhb3_H_aa_vvov (z a b i e : nat) : ex := (ESub (ESub (EAdd (EAdd (EAdd (EAdd (ESub (ESub (EScale (1) 2 (ET 34 [a; b; i; e])) (EScale (1) 2 (ESum (0 + z) 0 (EMul (r_rhb3_H_a_ov (1 + z) (0 + z) e) (ET 10 [a; b; i; (0 + z)]))))) (ESum (0 + z) 0 (EMul (r_rhb3_x2a_voov (1 + z) a (0 + z) i e) (ET 2 [b; (0 + z)])))) (EScale (1) 4 (ESum (0 + z) 0 (ESum (1 + z) 0 (EMul (r_rhb3_H_aa_ooov (2 + z) (0 + z) (1 + z) i e) (ET 10 [a; b; (0 + z); (1 + z)])))))) (EScale (1) 2 (ESum (0 + z) 1 (EMul (ET 45 [a; b; (0 + z); e]) (ET 2 [(0 + z); i]))))) (ESum (0 + z) 0 (ESum (1 + z) 1 (EMul (ET 8 [b; (0 + z); e; (1 + z)]) (ET 10 [a; (1 + z); i; (0 + z)]))))) (ESum (0 + z) 0 (ESum (1 + z) 1 (EMul (ET 9 [b; (0 + z); e; (1 + z)]) (ET 11 [a; (1 + z); i; (0 + z)]))))) (EScale (1) 4 (ESum (0 + z) 0 (ESum (1 + z) 0 (ESum (2 + z) 1 (EMul (ET 1 [(0 + z); (1 + z); e; (2 + z)]) (ET 24 [a; b; (2 + z); i; (0 + z); (1 + z)]))))))) (EScale (1) 2 (ESum (0 + z) 0 (ESum (1 + z) 0 (ESum (2 + z) 1 (EMul (ET 3 [(0 + z); (1 + z); e; (2 + z)]) (ET 25 [a; b; (2 + z); i; (0 + z); (1 + z)]))))))).
Definition r_rhb3_H_aa_vvov_1 (z a b i e : nat) : ex := (ESub (r_rhb3_H_aa_vvov (0 + z) a b i e) (r_rhb3_H_aa_vvov (0 + z) b a i e)).
Definition r_rhb3_x2b_voov (z a m i e : nat) : ex := (EAdd (r_rhb3_H_ab_voov (0 + z) a m i e) (EScale (1) 2 (ESum (0 + z) 0 (EMul (r_rhb3_H_ab_ooov (1 + z) (0 + z) m i e) (ET 2 [a; (0 + z)]))))).
Definition r_rhb3_x2b_ovov (z m a i e : nat) : ex := (EAdd (r_rhb3_H_ab_ovov (0 + z) m a i e) (EScale (1) 2 (ESum (0 + z) 0 (EMul (r_rhb3_H_ab_ooov (1 + z) m (0 + z) i e) (ET 4 [a; (0 + z)]))))).
Definition r_rhb3_H_ab_vvov (z a b i e : nat) : ex := (ESub (ESub (ESub (EAdd (EAdd (EAdd (EAdd (ESub (ESub (ESub (ET 44 [a; b; i; e]) (ESum (0 + z) 0 (EMul (r_rhb3_H_b_ov (1 + z) (0 + z) e) (ET 11 [a; b; i; (0 + z)])))) (ESum (0 + z) 0 (EMul (r_rhb3_x2b_voov (1 + z) a (0 + z) i e) (ET 4 [b; (0 + z)])))) (ESum (0 + z) 0 (EMul (r_rhb3_x2b_ovov (1 + z) (0 + z) b i e) (ET 2 [a; (0 + z)])))) (ESum (0 + z) 0 (ESum (1 + z) 0 (EMul (r_rhb3_H_ab_ooov (2 + z) (0 + z) (1 + z) i e) (ET 11 [a; b; (0 + z); (1 + z)]))))) (ESum (0 + z) 1 (EMul (ET 47 [a; b; (0 + z); e]) (ET 2 [(0 + z); i])))) (ESum (0 + z) 0 (ESum (1 + z) 1 (EMul (ET 17 [(0 + z); b; (1 + z); e]) (ET 10 [a; (1 + z); i; (0 + z)]))))) (ESum (0 + z) 0 (ESum (1 + z) 1 (EMul (ET 16 [b; (0 + z); e; (1 + z)]) (ET 11 [a; (1 + z); i; (0 + z)]))))) (ESum (0 + z) 0 (ESum (1 + z) 1 (EMul (ET 9 [a; (0 + z); (1 + z); e]) (ET 11 [(1 + z); b; i; (0 + z)]))))) (ESum (0 + z) 0 (ESum (1 + z) 0 (ESum (2 + z) 1 (EMul (ET 3 [(0 + z); (1 + z); (2 + z); e]) (ET 25 [a; (2 + z); b; i; (0 + z); (1 + z)])))))) (EScale (1) 2 (ESum (0 + z) 0 (ESum (1 + z) 0 (ESum (2 + z) 1 (EMul (ET 6 [(0 + z); (1 + z); e; (2 + z)]) (ET 26 [a; (2 + z); b; i; (1 + z); (0 + z)]))))))).
Definition r_rhb3_x2b_ovvo (z m a e i : nat) : ex := (EAdd (r_rhb3_H_ab_ovvo (0 + z) m a e i) (EScale (1) 2 (ESum (0 + z) 0 (EMul (r_rhb3_H_ab_oovo (1 + z) m (0 + z) e i) (ET 4 [a; (0 + z)]))))).
Definition r_rhb3_x2b_vovo (z a m e i : nat) : ex := (EAdd (r_rhb3_H_ab_vovo (0 + z) a m e i) (EScale (1) 2 (ESum (0 + z) 0 (EMul (r_rhb3_H_ab_oovo (1 + z) (0 + z) m e i) (ET 2 [a; (0 + z)]))))).
Definition r_rhb3_H_ab_vvvo (z b a e i : nat) : ex := (ESub (ESub (ESub (EAdd (EAdd (EAdd (EAdd (ESub (ESub (ESub (ET 43 [b; a; e; i]) (ESum (0 + z) 0 (EMul (r_rhb3_H_a_ov (1 + z) (0 + z) e) (ET 11 [b; a; (0 + z); i])))) (ESum (0 + z) 0 (EMul (r_rhb3_x2b_ovvo (1 + z) (0 + z) a e i) (ET 2 [b; (0 + z)])))) (ESum (0 + z) 0 (EMul (r_rhb3_x2b_vovo (1 + z) b (0 + z) e i) (ET 4 [a; (0 + z)])))) (ESum (0 + z) 0 (ESum (1 + z) 0 (EMul (r_rhb3_H_ab_oovo (2 + z) (0 + z) (1 + z) e i) (ET 11 [b; a; (0 + z); (1 + z)]))))) (ESum (0 + z) 1 (EMul (ET 47 [b; a; e; (0 + z)]) (ET 4 [(0 + z); i])))) (ESum (0 + z) 0 (ESum (1 + z) 1 (EMul (ET 9 [b; (0 + z); e; (1 + z)]) (ET 18 [a; (1 + z); i; (0 + z)]))))) (ESum (0 + z) 0 (ESum (1 + z) 1 (EMul (ET 8 [b; (0 + z); e; (1 + z)]) (ET 11 [(1 + z); a; (0 + z); i]))))) (ESum (0 + z) 0 (ESum (1 + z) 1 (EMul (ET 17 [(0 + z); a; e; (1 + z)]) (ET 11 [b; (1 + z); (0 + z); i]))))) (EScale (1) 2 (ESum (0 + z) 0 (ESum (1 + z) 0 (ESum (2 + z) 1 (EMul (ET 1 [(0 + z); (1 + z); e; (2 + z)]) (ET 25 [b; (2 + z); a; (0 + z); (1 + z); i]))))))) (ESum (0 + z) 0 (ESum (1 + z) 0 (ESum (2 + z) 1 (EMul (ET 3 [(0 + z); (1 + z); e; (2 + z)]) (ET 26 [b; (2 + z); a; (0 + z); (1 + z); i])))))).
Definition r_rhb3_H_aa_vvvv (z a b e f : nat) : ex := (ESub (EAdd (EScale (1) 2 (ET 45 [a; b; e; f])) (EScale (1) 4 (ESum (0 + z) 0 (ESum (1 + z) 0 (EMul (ET 1 [(0 + z); (1 + z); e; f]) (r_rhb3_tau_aa_1 (2 + z) a b (0 + z) (1 + z))))))) (ESum (0 + z) 0 (EMul (ET 8 [a; (0 + z); e; f]) (ET 2 [b; (0 + z)])))).
Definition r_rhb3_H_aa_vvvv_1 (z a b e f : nat) : ex := (ESub (r_rhb3_H_aa_vvvv (0 + z) a b e f) (r_rhb3_H_aa_vvvv (0 + z) b a e f)).
Definition r_rhb3_H_ab_vvvv (z a b e f : nat) : ex := (EAdd (ESub (ESub (ET 47 [a; b; e; f]) (ESum (0 + z) 0 (EMul (ET 17 [(0 + z); b; e; f]) (ET 2 [a; (0 + z)])))) (ESum (0 + z) 0 (EMul (ET 9 [a; (0 + z); e; f]) (ET 4 [b; (0 + z)])))) (ESum (0 + z) 0 (ESum (1 + z) 0 (EMul (ET 3 [(0 + z); (1 + z); e; f]) (r_rhb3_tau_ab (2 + z) a b (0 + z) (1 + z)))))).
Definition r_rhb3_H_aa_vovv (z a i b c : nat) : ex := (ESub (ET 8 [a; i; b; c]) (ESum (0 + z) 0 (EMul (ET 1 [i; (0 + z); c; b]) (ET 2 [a; (0 + z)])))).
Definition r_rhb3_H_ab_vovv (z a i b c : nat) : ex := (ESub (ET 9 [a; i; b; c]) (ESum (0 + z) 0 (EMul (ET 3 [(0 + z); i; b; c]) (ET 2 [a; (0 + z)])))).
Definition r_rhb3_H_ab_ovvv (z i a b c : nat) : ex := (ESub (ET 17 [i; a; b; c]) (ESum (0 + z) 0 (EMul (ET 3 [i; (0 + z); b; c]) (ET 4 [a; (0 + z)])))).
Definition r_reomt_X1A (z a i : nat) : ex := (EOpp (ESum (0 + z) 0 (EMul (ET 12 [(0 + z); i]) (ET 51 [a; (0 + z)])))).
Definition r_reomt_X1A_1 (z a i : nat) : ex := (EAdd (r_reomt_X1A (0 + z) a i) (ESum (0 + z) 1 (EMul (ET 7 [a; (0 + z)]) (ET 51 [(0 + z); i])))).
Definition r_reomt_X1A_2 (z a i : nat) : ex := (EAdd (r_reomt_X1A_1 (0 + z) a i) (ESum (0 + z) 0 (ESum (1 + z) 1 (EMul (ET 22 [a; (0 + z); i; (1 + z)]) (ET 51 [(1 + z); (0 + z)]))))).
Definition r_reomt_X1A_3 (z a i : nat) : ex := (EAdd (r_reomt_X1A_2 (0 + z) a i) (ESum (0 + z) 0 (ESum (1 + z) 1 (EMul (ET 23 [a; (0 + z); i; (1 + z)]) (ET 52 [(1 + z); (0 + z)]))))).
Definition r_reomt_X1A_4 (z a i : nat) : ex := (ESub (r_reomt_X1A_3 (0 + z) a i) (EScale (1) 2 (ESum (0 + z) 0 (ESum (1 + z) 0 (ESum (2 + z) 1 (EMul (ET 13 [(0 + z); (1 + z); i; (2 + z)]) (ET 53 [a; (2 + z); (0 + z); (1 + z)]))))))).
Definition r_reomt_X1A_5 (z a i : nat) : ex := (ESub (r_reomt_X1A_4 (0 + z) a i) (ESum (0 + z) 0 (ESum (1 + z) 0 (ESum (2 + z) 1 (EMul (ET 14 [(0 + z); (1 + z); i; (2 + z)]) (ET 54 [a; (2 + z); (0 + z); (1 + z)])))))).
Definition r_reomt_X1A_6 (z a i : nat) : ex := (EAdd (r_reomt_X1A_5 (0 + z) a i) (EScale (1) 2 (ESum (0 + z) 0 (ESum (1 + z) 1 (ESum (2 + z) 1 (EMul (ET 8 [a; (0 + z); (1 + z); (2 + z)]) (ET 53 [(1 + z); (2 + z); i; (0 + z)]))))))).
Definition r_reomt_X1A_7 (z a i : nat) : ex := (EAdd (r_reomt_X1A_6 (0 + z) a i) (ESum (0 + z) 0 (ESum (1 + z) 1 (ESum (2 + z) 1 (EMul (ET 9 [a; (0 + z); (1 + z); (2 + z)]) (ET 54 [(1 + z); (2 + z); i; (0 + z)])))))).
Definition r_reomt_X1A_8 (z a i : nat) : ex := (EAdd (r_reomt_X1A_7 (0 + z) a i) (ESum (0 + z) 0 (ESum (1 + z) 1 (EMul (ET 0 [(0 + z); (1 + z)]) (ET 53 [a; (1 + z); i; (0 + z)]))))).
Definition r_reomt_X1A_9 (z a i : nat) : ex := (EAdd (r_reomt_X1A_8 (0 + z) a i) (ESum (0 + z) 0 (ESum (1 + z) 1 (EMul (ET 5 [(0 + z); (1 + z)]) (ET 54 [a; (1 + z); i; (0 + z)]))))).
Definition r_reomt_X1A_10 (z a i : nat) : ex := (EAdd (r_reomt_X1A_9 (0 + z) a i) (EScale (1) 4 (ESum (0 + z) 0 (ESum (1 + z) 0 (ESum (2 + z) 1 (ESum (3 + z) 1 (EMul (ET 1 [(0 + z); (1 + z); (2 + z); (3 + z)]) (ET 55 [a; (2 + z); (3 + z); i; (0 + z); (1 + z)])))))))).
Definition r_reomt_X1A_11 (z a i : nat) : ex := (EAdd (r_reomt_X1A_10 (0 + z) a i) (ESum (0 + z) 0 (ESum (1 + z) 0 (ESum (2 + z) 1 (ESum (3 + z) 1 (EMul (ET 3 [(0 + z); (1 + z); (2 + z); (3 + z)]) (ET 56 [a; (2 + z); (3 + z); i; (0 + z); (1 + z)]))))))).
Definition r_reomt_X1A_12 (z a i : nat) : ex := (EAdd (r_reomt_X1A_11 (0 + z) a i) (EScale (1) 4 (ESum (0 + z) 0 (ESum (1 + z) 0 (ESum (2 + z) 1 (ESum (3 + z) 1 (EMul (ET 6 [(0 + z); (1 + z); (2 + z); (3 + z)]) (ET 57 [a; (2 + z); (3 + z); i; (0 + z); (1 + z)])))))))).
Definition r_reomt_dR_b (z a i : nat) : ex := (r_reomt_X1A_12 (0 + z) a i).
Definition r_reomt_X_a_ov (z m e : nat) : ex := (EAdd (ESum (0 + z) 0 (ESum (1 + z) 1 (EMul (ET 1 [m; (0 + z); e; (1 + z)]) (ET 51 [(1 + z); (0 + z)])))) (ESum (0 + z) 0 (ESum (1 + z) 1 (EMul (ET 3 [m; (0 + z); e; (1 + z)]) (ET 52 [(1 + z); (0 + z)]))))).
Definition r_reomt_X_b_ov (z m e : nat) : ex := (EAdd (ESum (0 + z) 0 (ESum (1 + z) 1 (EMul (ET 3 [(0 + z); m; (1 + z); e]) (ET 51 [(1 + z); (0 + z)])))) (ESum (0 + z) 0 (ESum (1 + z) 1 (EMul (ET 6 [(0 + z); m; (1 + z); e]) (ET 52 [(1 + z); (0 + z)]))))).
Definition r_reomt_X_a_oo (z m j : nat) : ex := (EAdd (EAdd (EAdd (ESum (0 + z) 0 (ESum (1 + z) 1 (EMul (ET 13 [m; (0 + z); j; (1 + z)]) (ET 51 [(1 + z); (0 + z)])))) (ESum (0 + z) 0 (ESum (1 + z) 1 (EMul (ET 14 [m; (0 + z); j; (1 + z)]) (ET 52 [(1 + z); (0 + z)]))))) (EScale (1) 2 (ESum (0 + z) 0 (ESum (1 + z) 1 (ESum (2 + z) 1 (EMul (ET 1 [m; (0 + z); (1 + z); (2 + z)]) (ET 53 [(1 + z); (2 + z); j; (0 + z)]))))))) (ESum (0 + z) 0 (ESum (1 + z) 1 (ESum (2 + z) 1 (EMul (ET 3 [m; (0 + z); (1 + z); (2 + z)]) (ET 54 [(1 + z); (2 + z); j; (0 + z)])))))).
Definition r_reomt_X_a_vv (z b e : nat) : ex := (ESub (ESub (EAdd (ESum (0 + z) 0 (ESum (1 + z) 1 (EMul (ET 8 [b; (0 + z); e; (1 + z)]) (ET 51 [(1 + z); (0 + z)])))) (ESum (0 + z) 0 (ESum (1 + z) 1 (EMul (ET 9 [b; (0 + z); e; (1 + z)]) (ET 52 [(1 + z); (0 + z)]))))) (EScale (1) 2 (ESum (0 + z) 0 (ESum (1 + z) 0 (ESum (2 + z) 1 (EMul (ET 1 [(0 + z); (1 + z); e; (2 + z)]) (ET 53 [b; (2 + z); (0 + z); (1 + z)]))))))) (ESum (0 + z) 0 (ESum (1 + z) 0 (ESum (2 + z) 1 (EMul (ET 3 [(0 + z); (1 + z); e; (2 + z)]) (ET 54 [b; (2 + z); (0 + z); (1 + z)])))))).
Definition r_reomt_X_b_oo (z m k : nat) : ex := (EAdd (EAdd (EAdd (ESum (0 + z) 0 (ESum (1 + z) 1 (EMul (ET 21 [(0 + z); m; (1 + z); k]) (ET 51 [(1 + z); (0 + z)])))) (ESum (0 + z) 0 (ESum (1 + z) 1 (EMul (ET 20 [m; (0 + z); k; (1 + z)]) (ET 52 [(1 + z); (0 + z)]))))) (ESum (0 + z) 0 (ESum (1 + z) 1 (ESum (2 + z) 1 (EMul (ET 3 [(0 + z); m; (1 + z); (2 + z)]) (ET 54 [(1 + z); (2 + z); (0 + z); k])))))) (EScale (1) 2 (ESum (0 + z) 0 (ESum (1 + z) 1 (ESum (2 + z) 1 (EMul (ET 6 [m; (0 + z); (1 + z); (2 + z)]) (ET 58 [(1 + z); (2 + z); k; (0 + z)]))))))).
Definition r_reomt_X_b_vv (z c e : nat) : ex := (ESub (ESub (EAdd (ESum (0 + z) 0 (ESum (1 + z) 1 (EMul (ET 17 [(0 + z); c; (1 + z); e]) (ET 51 [(1 + z); (0 + z)])))) (ESum (0 + z) 0 (ESum (1 + z) 1 (EMul (ET 16 [c; (0 + z); e; (1 + z)]) (ET 52 [(1 + z); (0 + z)]))))) (EScale (1) 1 (ESum (0 + z) 0 (ESum (1 + z) 0 (ESum (2 + z) 1 (EMul (ET 3 [(0 + z); (1 + z); (2 + z); e]) (ET 54 [(2 + z); c; (0 + z); (1 + z)]))))))) (EScale (1) 2 (ESum (0 + z) 0 (ESum (1 + z) 0 (ESum (2 + z) 1 (EMul (ET 6 [(0 + z); (1 + z); e; (2 + z)]) (ET 58 [(2 + z); c; (1 + z); (0 + z)]))))))).
Definition r_reomt_X2A (z a b i j : nat) : ex := (EScale (-1) 2 (ESum (0 + z) 0 (EMul (ET 12 [(0 + z); i]) (ET 53 [a; b; (0 + z); j])))).
Definition r_reomt_X2A_1 (z a b i j : nat) : ex := (EAdd (r_reomt_X2A (0 + z) a b i j) (EScale (1) 2 (ESum (0 + z) 1 (EMul (ET 7 [a; (0 + z)]) (ET 53 [(0 + z); b; i; j]))))).
Definition r_reomt_X2A_2 (z a b i j : nat) : ex := (EAdd (r_reomt_X2A_1 (0 + z) a b i j) (EScale (1) 8 (ESum (0 + z) 0 (ESum (1 + z) 0 (EMul (ET 32 [(0 + z); (1 + z); i; j]) (ET 53 [a; b; (0 + z); (1 + z)])))))).
Definition r_reomt_X2A_3 (z a b i j : nat) : ex := (EAdd (r_reomt_X2A_2 (0 + z) a b i j) (EScale (1) 8 (ESum (0 + z) 1 (ESum (1 + z) 1 (EMul (ET 45 [a; b; (0 + z); (1 + z)]) (ET 53 [(0 + z); (1 + z); i; j])))))).
Definition r_reomt_X2A_4 (z a b i j : nat) : ex := (EAdd (r_reomt_X2A_3 (0 + z) a b i j) (ESum (0 + z) 0 (ESum (1 + z) 1 (EMul (ET 22 [a; (0 + z); i; (1 + z)]) (ET 53 [(1 + z); b; (0 + z); j]))))).
Definition r_reomt_X2A_5 (z a b i j : nat) : ex := (EAdd (r_reomt_X2A_4 (0 + z) a b i j) (ESum (0 + z) 0 (ESum (1 + z) 1 (EMul (ET 23 [a; (0 + z); i; (1 + z)]) (ET 54 [b; (1 + z); j; (0 + z)]))))).
Definition r_reomt_X2A_6 (z a b i j : nat) : ex := (ESub (r_reomt_X2A_5 (0 + z) a b i j) (EScale (1) 2 (ESum (0 + z) 0 (EMul (ET 33 [b; (0 + z); j; i]) (ET 51 [a; (0 + z)]))))).
Definition r_reomt_X2A_7 (z a b i j : nat) : ex := (EAdd (r_reomt_X2A_6 (0 + z) a b i j) (EScale (1) 2 (ESum (0 + z) 1 (EMul (ET 34 [b; a; j; (0 + z)]) (ET 51 [(0 + z); i]))))).
Definition r_reomt_X2A_8 (z a b i j : nat) : ex := (EAdd (r_reomt_X2A_7 (0 + z) a b i j) (EScale (1) 2 (ESum (0 + z) 1 (EMul (r_reomt_X_a_vv (1 + z) b (0 + z)) (ET 10 [a; (0 + z); i; j]))))).
Definition r_reomt_X2A_9 (z a b i j : nat) : ex := (ESub (r_reomt_X2A_8 (0 + z) a b i j) (EScale (1) 2 (ESum (0 + z) 0 (EMul (r_reomt_X_a_oo (1 + z) (0 + z) j) (ET 10 [a; b; i; (0 + z)]))))).
Definition r_reomt_X2A_10 (z a b i j : nat) : ex := (EAdd (r_reomt_X2A_9 (0 + z) a b i j) (EScale (1) 4 (ESum (0 + z) 0 (ESum (1 + z) 1 (EMul (r_reomt_X_a_ov (2 + z) (0 + z) (1 + z)) (ET 24 [a; b; (1 + z); i; j; (0 + z)])))))).
Definition r_reomt_X2A_11 (z a b i j : nat) : ex := (EAdd (r_reomt_X2A_10 (0 + z) a b i j) (EScale (1) 4 (ESum (0 + z) 0 (ESum (1 + z) 1 (EMul (r_reomt_X_b_ov (2 + z) (0 + z) (1 + z)) (ET 25 [a; b; (1 + z); i; j; (0 + z)])))))).
Definition r_reomt_X2A_12 (z a b i j : nat) : ex := (EAdd (r_reomt_X2A_11 (0 + z) a b i j) (EScale (1) 4 (ESum (0 + z) 0 (ESum (1 + z) 1 (EMul (ET 0 [(0 + z); (1 + z)]) (ET 55 [a; b; (1 + z); i; j; (0 + z)])))))).
Definition r_reomt_X2A_13 (z a b i j : nat) : ex := (EAdd (r_reomt_X2A_12 (0 + z) a b i j) (EScale (1) 4 (ESum (0 + z) 0 (ESum (1 + z) 1 (EMul (ET 5 [(0 + z); (1 + z)]) (ET 56 [a; b; (1 + z); i; j; (0 + z)])))))).
Definition r_reomt_X2A_14 (z a b i j : nat) : ex := (ESub (r_reomt_X2A_13 (0 + z) a b i j) (EScale (1) 4 (ESum (0 + z) 0 (ESum (1 + z) 0 (ESum (2 + z) 1 (EMul (ET 13 [(0 + z); (1 + z); j; (2 + z)]) (ET 55 [a; b; (2 + z); i; (0 + z); (1 + z)]))))))).
Definition r_reomt_X2A_15 (z a b i j : nat) : ex := (ESub (r_reomt_X2A_14 (0 + z) a b i j) (EScale (1) 2 (ESum (0 + z) 0 (ESum (1 + z) 0 (ESum (2 + z) 1 (EMul (ET 14 [(0 + z); (1 + z); j; (2 + z)]) (ET 56 [a; b; (2 + z); i; (0 + z); (1 + z)]))))))).
Definition r_reomt_X2A_16 (z a b i j : nat) : ex := (EAdd (r_reomt_X2A_15 (0 + z) a b i j) (EScale (1) 4 (ESum (0 + z) 0 (ESum (1 + z) 1 (ESum (2 + z) 1 (EMul (ET 8 [b; (0 + z); (1 + z); (2 + z)]) (ET 55 [a; (1 + z); (2 + z); i; j; (0 + z)]))))))).
Definition r_reomt_X2A_17 (z a b i j : nat) : ex := (EAdd (r_reomt_X2A_16 (0 + z) a b i j) (EScale (1) 2 (ESum (0 + z) 0 (ESum (1 + z) 1 (ESum (2 + z) 1 (EMul (ET 9 [b; (0 + z); (1 + z); (2 + z)]) (ET 56 [a; (1 + z); (2 + z); i; j; (0 + z)]))))))).
Definition r_reomt_X2A_18 (z a b i j : nat) : ex := (ESub (r_reomt_X2A_17 (0 + z) a b i j) (r_reomt_X2A_17 (0 + z) b a i j)).
Definition r_reomt_X2A_19 (z a b i j : nat) : ex := (ESub (r_reomt_X2A_18 (0 + z) a b i j) (r_reomt_X2A_18 (0 + z) a b j i)).
Definition r_reomt_X2B (z a b i j : nat) : ex := (ESum (0 + z) 1 (EMul (ET 7 [a; (0 + z)]) (ET 54 [(0 + z); b; i; j]))).
Definition r_reomt_X2B_1 (z a b i j : nat) : ex := (EAdd (r_reomt_X2B (0 + z) a b i j) (ESum (0 + z) 1 (EMul (ET 15 [b; (0 + z)]) (ET 54 [a; (0 + z); i; j])))).
Definition r_reomt_X2B_2 (z a b i j : nat) : ex := (ESub (r_reomt_X2B_1 (0 + z) a b i j) (ESum (0 + z) 0 (EMul (ET 12 [(0 + z); i]) (ET 54 [a; b; (0 + z); j])))).
Definition r_reomt_X2B_3 (z a b i j : nat) : ex := (ESub (r_reomt_X2B_2 (0 + z) a b i j) (ESum (0 + z) 0 (EMul (ET 19 [(0 + z); j]) (ET 54 [a; b; i; (0 + z)])))).
Definition r_reomt_X2B_4 (z a b i j : nat) : ex := (EAdd (r_reomt_X2B_3 (0 + z) a b i j) (ESum (0 + z) 0 (ESum (1 + z) 0 (EMul (ET 38 [(0 + z); (1 + z); i; j]) (ET 54 [a; b; (0 + z); (1 + z)]))))).
Definition r_reomt_X2B_5 (z a b i j : nat) : ex := (EAdd (r_reomt_X2B_4 (0 + z) a b i j) (ESum (0 + z) 1 (ESum (1 + z) 1 (EMul (ET 47 [a; b; (0 + z); (1 + z)]) (ET 54 [(0 + z); (1 + z); i; j]))))).
Definition r_reomt_X2B_6 (z a b i j : nat) : ex := (EAdd (r_reomt_X2B_5 (0 + z) a b i j) (ESum (0 + z) 0 (ESum (1 + z) 1 (EMul (ET 22 [a; (0 + z); i; (1 + z)]) (ET 54 [(1 + z); b; (0 + z); j]))))).
Definition r_reomt_X2B_7 (z a b i j : nat) : ex := (EAdd (r_reomt_X2B_6 (0 + z) a b i j) (ESum (0 + z) 0 (ESum (1 + z) 1 (EMul (ET 23 [a; (0 + z); i; (1 + z)]) (ET 58 [(1 + z); b; (0 + z); j]))))).
Definition r_reomt_X2B_8 (z a b i j : nat) : ex := (EAdd (r_reomt_X2B_7 (0 + z) a b i j) (ESum (0 + z) 0 (ESum (1 + z) 1 (EMul (ET 29 [(0 + z); b; (1 + z); j]) (ET 53 [a; (1 + z); i; (0 + z)]))))).
Definition r_reomt_X2B_9 (z a b i j : nat) : ex := (EAdd (r_reomt_X2B_8 (0 + z) a b i j) (ESum (0 + z) 0 (ESum (1 + z) 1 (EMul (ET 28 [b; (0 + z); j; (1 + z)]) (ET 54 [a; (1 + z); i; (0 + z)]))))).
Definition r_reomt_X2B_10 (z a b i j : nat) : ex := (ESub (r_reomt_X2B_9 (0 + z) a b i j) (ESum (0 + z) 0 (ESum (1 + z) 1 (EMul (ET 39 [(0 + z); b; i; (1 + z)]) (ET 54 [a; (1 + z); (0 + z); j]))))).
Definition r_reomt_X2B_11 (z a b i j : nat) : ex := (ESub (r_reomt_X2B_10 (0 + z) a b i j) (ESum (0 + z) 0 (ESum (1 + z) 1 (EMul (ET 40 [a; (0 + z); (1 + z); j]) (ET 54 [(1 + z); b; i; (0 + z)]))))).
Definition r_reomt_X2B_12 (z a b i j : nat) : ex := (EAdd (r_reomt_X2B_11 (0 + z) a b i j) (ESum (0 + z) 1 (EMul (ET 43 [a; b; (0 + z); j]) (ET 51 [(0 + z); i])))).
Definition r_reomt_X2B_13 (z a b i j : nat) : ex := (EAdd (r_reomt_X2B_12 (0 + z) a b i j) (ESum (0 + z) 1 (EMul (ET 44 [a; b; i; (0 + z)]) (ET 52 [(0 + z); j])))).
Definition r_reomt_X2B_14 (z a b i j : nat) : ex := (ESub (r_reomt_X2B_13 (0 + z) a b i j) (ESum (0 + z) 0 (EMul (ET 41 [(0 + z); b; i; j]) (ET 51 [a; (0 + z)])))).
Definition r_reomt_X2B_15 (z a b i j : nat) : ex := (ESub (r_reomt_X2B_14 (0 + z) a b i j) (ESum (0 + z) 0 (EMul (ET 42 [a; (0 + z); i; j]) (ET 52 [b; (0 + z)])))).
Definition r_reomt_X2B_16 (z a b i j : nat) : ex := (EAdd (r_reomt_X2B_15 (0 + z) a b i j) (ESum (0 + z) 1 (EMul (r_reomt_X_a_vv (1 + z) a (0 + z)) (ET 11 [(0 + z); b; i; j])))).
Definition r_reomt_X2B_17 (z a b i j : nat) : ex := (ESub (r_reomt_X2B_16 (0 + z) a b i j) (ESum (0 + z) 0 (EMul (r_reomt_X_a_oo (1 + z) (0 + z) i) (ET 11 [a; b; (0 + z); j])))).
Definition r_reomt_X2B_18 (z a b i j : nat) : ex := (EAdd (r_reomt_X2B_17 (0 + z) a b i j) (ESum (0 + z) 1 (EMul (r_reomt_X_b_vv (1 + z) b (0 + z)) (ET 11 [a; (0 + z); i; j])))).
Definition r_reomt_X2B_19 (z a b i j : nat) : ex := (ESub (r_reomt_X2B_18 (0 + z) a b i j) (ESum (0 + z) 0 (EMul (r_reomt_X_b_oo (1 + z) (0 + z) j) (ET 11 [a; b; i; (0 + z)])))).
Definition r_reomt_X2B_20 (z a b i j : nat) : ex := (EAdd (r_reomt_X2B_19 (0 + z) a b i j) (ESum (0 + z) 0 (ESum (1 + z) 1 (EMul (r_reomt_X_a_ov (2 + z) (0 + z) (1 + z)) (ET 25 [a; (1 + z); b; i; (0 + z); j]))))).
Definition r_reomt_X2B_21 (z a b i j : nat) : ex := (EAdd (r_reomt_X2B_20 (0 + z) a b i j) (ESum (0 + z) 0 (ESum (1 + z) 1 (EMul (r_reomt_X_b_ov (2 + z) (0 + z) (1 + z)) (ET 26 [a; (1 + z); b; i; (0 + z); j]))))).
Definition r_reomt_X2B_22 (z a b i j : nat) : ex := (EAdd (r_reomt_X2B_21 (0 + z) a b i j) (ESum (0 + z) 0 (ESum (1 + z) 1 (EMul (ET 0 [(0 + z); (1 + z)]) (ET 56 [a; (1 + z); b; i; (0 + z); j]))))).
Definition r_reomt_X2B_23 (z a b i j : nat) : ex := (EAdd (r_reomt_X2B_22 (0 + z) a b i j) (ESum (0 + z) 0 (ESum (1 + z) 1 (EMul (ET 5 [(0 + z); (1 + z)]) (ET 57 [a; (1 + z); b; i; (0 + z); j]))))).
Definition r_reomt_X2B_24 (z a b i j : nat) : ex := (ESub (r_reomt_X2B_23 (0 + z) a b i j) (ESum (0 + z) 0 (ESum (1 + z) 0 (ESum (2 + z) 1 (EMul (ET 21 [(0 + z); (1 + z); (2 + z); j]) (ET 56 [a; (2 + z); b; i; (0 + z); (1 + z)])))))).
Definition r_reomt_X2B_25 (z a b i j : nat) : ex := (ESub (r_reomt_X2B_24 (0 + z) a b i j) (EScale (1) 2 (ESum (0 + z) 0 (ESum (1 + z) 0 (ESum (2 + z) 1 (EMul (ET 20 [(0 + z); (1 + z); j; (2 + z)]) (ET 57 [a; b; (2 + z); i; (0 + z); (1 + z)]))))))).
Definition r_reomt_X2B_26 (z a b i j : nat) : ex := (ESub (r_reomt_X2B_25 (0 + z) a b i j) (EScale (1) 2 (ESum (0 + z) 0 (ESum (1 + z) 0 (ESum (2 + z) 1 (EMul (ET 13 [(0 + z); (1 + z); i; (2 + z)]) (ET 56 [a; (2 + z); b; (0 + z); (1 + z); j]))))))).
Definition r_reomt_X2B_27 (z a b i j : nat) : ex := (ESub (r_reomt_X2B_26 (0 + z) a b i j) (ESum (0 + z) 0 (ESum (1 + z) 0 (ESum (2 + z) 1 (EMul (ET 14 [(0 + z); (1 + z); i; (2 + z)]) (ET 57 [a; b; (2 + z); (0 + z); j; (1 + z)])))))).
Definition r_reomt_X2B_28 (z a b i j : nat) : ex := (EAdd (r_reomt_X2B_27 (0 + z) a b i j) (ESum (0 + z) 0 (ESum (1 + z) 1 (ESum (2 + z) 1 (EMul (ET 17 [(0 + z); b; (1 + z); (2 + z)]) (ET 56 [a; (1 + z); (2 + z); i; (0 + z); j])))))).
Definition r_reomt_X2B_29 (z a b i j : nat) : ex := (EAdd (r_reomt_X2B_28 (0 + z) a b i j) (EScale (1) 2 (ESum (0 + z) 0 (ESum (1 + z) 1 (ESum (2 + z) 1 (EMul (ET 16 [b; (0 + z); (1 + z); (2 + z)]) (ET 57 [a; (1 + z); (2 + z); i; j; (0 + z)]))))))).
Definition r_reomt_X2B_30 (z a b i j : nat) : ex := (EAdd (r_reomt_X2B_29 (0 + z) a b i j) (EScale (1) 2 (ESum (0 + z) 0 (ESum (1 + z) 1 (ESum (2 + z) 1 (EMul (ET 8 [a; (0 + z); (1 + z); (2 + z)]) (ET 56 [(1 + z); (2 + z); b; i; (0 + z); j]))))))).
Definition r_reomt_X2B_31 (z a b i j : nat) : ex := (EAdd (r_reomt_X2B_30 (0 + z) a b i j) (ESum (0 + z) 0 (ESum (1 + z) 1 (ESum (2 + z) 1 (EMul (ET 9 [a; (0 + z); (1 + z); (2 + z)]) (ET 57 [(1 + z); (2 + z); b; i; (0 + z); j])))))).
Definition r_reomt_dR_bb (z a b i j : nat) : ex := (r_reomt_X2A_19 (0 + z) a b i j).
Definition r_reomt_X_aa_oovv (z p q r s : nat) : ex := (EC (0) 1).
Definition r_reomt_X_ab_oovv (z p q r s : nat) : ex := (EC (0) 1).
Definition r_reomt_X_bb_oovv (z p q r s : nat) : ex := (EC (0) 1).
Definition r_reomt_X_a_oo_1 (z m j : nat) : ex := (EAdd (ESum (0 + z) 1 (EMul (ET 0 [m; (0 + z)]) (ET 51 [(0 + z); j]))) (r_reomt_X_a_oo (0 + z) m j)).
Definition r_reomt_X_b_oo_1 (z m k : nat) : ex := (EAdd (ESum (0 + z) 1 (EMul (ET 5 [m; (0 + z)]) (ET 52 [(0 + z); k]))) (r_reomt_X_b_oo (0 + z) m k)).
Definition r_reomt_X_a_vv_1 (z b e : nat) : ex := (EAdd (EScale (-1) 1 (ESum (0 + z) 0 (EMul (ET 0 [(0 + z); e]) (ET 51 [b; (0 + z)])))) (r_reomt_X_a_vv (0 + z) b e)).
Definition r_reomt_X_b_vv_1 (z c e : nat) : ex := (EAdd (EScale (-1) 1 (ESum (0 + z) 0 (EMul (ET 5 [(0 + z); e]) (ET 52 [c; (0 + z)])))) (r_reomt_X_b_vv (0 + z) c e)).
Definition r_reomt_X_aa_oooo (z m n i j : nat) : ex := (EAdd (ESum (0 + z) 1 (EMul (ET 13 [n; m; j; (0 + z)]) (ET 51 [(0 + z); i]))) (EScale (1) 4 (ESum (0 + z) 1 (ESum (1 + z) 1 (EMul (ET 1 [m; n; (0 + z); (1 + z)]) (ET 53 [(0 + z); (1 + z); i; j])))))).
Definition r_reomt_X_aa_oooo_1 (z m n i j : nat) : ex := (ESub (r_reomt_X_aa_oooo (0 + z) m n i j) (r_reomt_X_aa_oooo (0 + z) m n j i)).
Definition r_reomt_X_ab_oooo (z n m j k : nat) : ex := (EAdd (EAdd (ESum (0 + z) 1 (EMul (ET 14 [n; m; j; (0 + z)]) (ET 52 [(0 + z); k]))) (ESum (0 + z) 1 (EMul (ET 21 [n; m; (0 + z); k]) (ET 51 [(0 + z); j])))) (ESum (0 + z) 1 (ESum (1 + z) 1 (EMul (ET 3 [n; m; (0 + z); (1 + z)]) (ET 54 [(0 + z); (1 + z); j; k]))))).
Definition r_reomt_X_bb_oooo (z m n i j : nat) : ex := (EAdd (ESum (0 + z) 1 (EMul (ET 20 [m; n; i; (0 + z)]) (ET 52 [(0 + z); j]))) (EScale (1) 4 (ESum (0 + z) 1 (ESum (1 + z) 1 (EMul (ET 6 [m; n; (0 + z); (1 + z)]) (ET 58 [(0 + z); (1 + z); i; j])))))).
Definition r_reomt_X_bb_oooo_1 (z m n i j : nat) : ex := (ESub (r_reomt_X_bb_oooo (0 + z) m n i j) (r_reomt_X_bb_oooo (0 + z) m n j i)).
Definition r_reomt_X_aa_vvvv (z a b e f : nat) : ex := (EAdd (EScale (-1) 1 (ESum (0 + z) 0 (EMul (ET 8 [a; (0 + z); e; f]) (ET 51 [b; (0 + z)])))) (EScale (1) 4 (ESum (0 + z) 0 (ESum (1 + z) 0 (EMul (ET 1 [(0 + z); (1 + z); e; f]) (ET 53 [a; b; (0 + z); (1 + z)])))))).
Definition r_reomt_X_aa_vvvv_1 (z a b e f : nat) : ex := (ESub (r_reomt_X_aa_vvvv (0 + z) a b e f) (r_reomt_X_aa_vvvv (0 + z) b a e f)).
Definition r_reomt_X_ab_vvvv (z b c f e : nat) : ex := (EAdd (ESub (EOpp (ESum (0 + z) 0 (EMul (ET 9 [b; (0 + z); f; e]) (ET 52 [c; (0 + z)])))) (ESum (0 + z) 0 (EMul (ET 17 [(0 + z); c; f; e]) (ET 51 [b; (0 + z)])))) (ESum (0 + z) 0 (ESum (1 + z) 0 (EMul (ET 3 [(0 + z); (1 + z); f; e]) (ET 54 [b; c; (0 + z); (1 + z)]))))).
Definition r_reomt_X_bb_vvvv (z a b e f : nat) : ex := (EAdd (EOpp (ESum (0 + z) 0 (EMul (ET 16 [a; (0 + z); e; f]) (ET 52 [b; (0 + z)])))) (EScale (1) 4 (ESum (0 + z) 0 (ESum (1 + z) 0 (EMul (ET 6 [(0 + z); (1 + z); e; f]) (ET 58 [a; b; (0 + z); (1 + z)])))))).
Definition r_reomt_X_bb_vvvv_1 (z a b e f : nat) : ex := (ESub (r_reomt_X_bb_vvvv (0 + z) a b e f) (r_reomt_X_bb_vvvv (0 + z) b a e f)).
Definition r_reomt_X_aa_voov (z b m j e : nat) : ex := (EAdd (EAdd (EAdd (EScale (-1) 1 (ESum (0 + z) 0 (EMul (ET 13 [(0 + z); m; j; e]) (ET 51 [b; (0 + z)])))) (ESum (0 + z) 1 (EMul (ET 8 [b; m; (0 + z); e]) (ET 51 [(0 + z); j])))) (ESum (0 + z) 0 (ESum (1 + z) 1 (EMul (ET 1 [m; (0 + z); e; (1 + z)]) (ET 53 [(1 + z); b; (0 + z); j]))))) (ESum (0 + z) 0 (ESum (1 + z) 1 (EMul (ET 3 [m; (0 + z); e; (1 + z)]) (ET 54 [b; (1 + z); j; (0 + z)]))))).
Definition r_reomt_X_ab_voov (z b m j e : nat) : ex := (EAdd (EAdd (EAdd (EScale (-1) 1 (ESum (0 + z) 0 (EMul (ET 14 [(0 + z); m; j; e]) (ET 51 [b; (0 + z)])))) (ESum (0 + z) 1 (EMul (ET 9 [b; m; (0 + z); e]) (ET 51 [(0 + z); j])))) (ESum (0 + z) 0 (ESum (1 + z) 1 (EMul (ET 3 [(0 + z); m; (1 + z); e]) (ET 53 [(1 + z); b; (0 + z); j]))))) (ESum (0 + z) 0 (ESum (1 + z) 1 (EMul (ET 6 [m; (0 + z); e; (1 + z)]) (ET 54 [b; (1 + z); j; (0 + z)]))))).
Definition r_reomt_X_ab_ovvo (z n c f k : nat) : ex := (EAdd (EAdd (EAdd (EOpp (ESum (0 + z) 0 (EMul (ET 21 [n; (0 + z); f; k]) (ET 52 [c; (0 + z)])))) (ESum (0 + z) 1 (EMul (ET 17 [n; c; f; (0 + z)]) (ET 52 [(0 + z); k])))) (ESum (0 + z) 0 (ESum (1 + z) 1 (EMul (ET 1 [(0 + z); n; (1 + z); f]) (ET 54 [(1 + z); c; (0 + z); k]))))) (ESum (0 + z) 0 (ESum (1 + z) 1 (EMul (ET 3 [n; (0 + z); f; (1 + z)]) (ET 58 [(1 + z); c; (0 + z); k]))))).
Definition r_reomt_X_ab_vovo (z b m f k : nat) : ex := (ESub (ESub (ESum (0 + z) 1 (EMul (ET 9 [b; m; f; (0 + z)]) (ET 52 [(0 + z); k]))) (ESum (0 + z) 0 (EMul (ET 21 [(0 + z); m; f; k]) (ET 51 [b; (0 + z)])))) (ESum (0 + z) 0 (ESum (1 + z) 1 (EMul (ET 3 [(0 + z); m; f; (1 + z)]) (ET 54 [b; (1 + z); (0 + z); k]))))).
Definition r_reomt_X_ab_ovov (z n c j e : nat) : ex := (ESub (EAdd (EOpp (ESum (0 + z) 0 (EMul (ET 14 [n; (0 + z); j; e]) (ET 52 [c; (0 + z)])))) (ESum (0 + z) 1 (EMul (ET 17 [n; c; (0 + z); e]) (ET 51 [(0 + z); j])))) (ESum (0 + z) 0 (ESum (1 + z) 1 (EMul (ET 3 [n; (0 + z); (1 + z); e]) (ET 54 [(1 + z); c; j; (0 + z)]))))).
Definition r_reomt_X_bb_voov (z c n k f : nat) : ex := (EAdd (EAdd (EAdd (EOpp (ESum (0 + z) 0 (EMul (ET 20 [(0 + z); n; k; f]) (ET 52 [c; (0 + z)])))) (ESum (0 + z) 1 (EMul (ET 16 [c; n; (0 + z); f]) (ET 52 [(0 + z); k])))) (ESum (0 + z) 0 (ESum (1 + z) 1 (EMul (ET 3 [(0 + z); n; (1 + z); f]) (ET 54 [(1 + z); c; (0 + z); k]))))) (ESum (0 + z) 0 (ESum (1 + z) 1 (EMul (ET 6 [(0 + z); n; (1 + z); f]) (ET 58 [(1 + z); c; (0 + z); k]))))).
Definition r_reomt_X_aa_vvov (z b a j e : nat) : ex := (ESub (EAdd (EAdd (EAdd (EAdd (ESum (0 + z) 0 (EMul (ET 22 [a; (0 + z); j; e]) (ET 51 [b; (0 + z)]))) (ESum (0 + z) 0 (ESum (1 + z) 1 (EMul (ET 8 [a; (0 + z); e; (1 + z)]) (ET 53 [b; (1 + z); j; (0 + z)]))))) (ESum (0 + z) 0 (ESum (1 + z) 1 (EMul (ET 9 [a; (0 + z); e; (1 + z)]) (ET 54 [b; (1 + z); j; (0 + z)]))))) (EScale (1) 2 (ESum (0 + z) 1 (EMul (ET 45 [a; b; e; (0 + z)]) (ET 51 [(0 + z); j]))))) (EScale (1) 4 (ESum (0 + z) 0 (ESum (1 + z) 0 (EMul (ET 13 [(0 + z); (1 + z); j; e]) (ET 53 [a; b; (1 + z); (0 + z)])))))) (EScale (1) 2 (ESum (0 + z) 0 (EMul (r_reomt_X_a_ov (1 + z) (0 + z) e) (ET 10 [a; b; (0 + z); j]))))).
Definition r_reomt_X_aa_vvov_1 (z b a j e : nat) : ex := (ESub (r_reomt_X_aa_vvov (0 + z) b a j e) (r_reomt_X_aa_vvov (0 + z) a b j e)).
Definition r_reomt_X_aa_vooo (z b m j i : nat) : ex := (EAdd (ESub (EAdd (EAdd (EOpp (ESum (0 + z) 1 (EMul (ET 22 [b; m; i; (0 + z)]) (ET 51 [(0 + z); j])))) (ESum (0 + z) 0 (ESum (1 + z) 1 (EMul (ET 13 [m; (0 + z); i; (1 + z)]) (ET 53 [b; (1 + z); j; (0 + z)]))))) (ESum (0 + z) 0 (ESum (1 + z) 1 (EMul (ET 14 [m; (0 + z); i; (1 + z)]) (ET 54 [b; (1 + z); j; (0 + z)]))))) (EScale (1) 2 (ESum (0 + z) 0 (EMul (ET 32 [m; (0 + z); i; j]) (ET 51 [b; (0 + z)]))))) (EScale (1) 4 (ESum (0 + z) 1 (ESum (1 + z) 1 (EMul (ET 8 [b; m; (0 + z); (1 + z)]) (ET 53 [(1 + z); (0 + z); i; j])))))).
Definition r_reomt_X_aa_vooo_1 (z b m j i : nat) : ex := (ESub (r_reomt_X_aa_vooo (0 + z) b m j i) (r_reomt_X_aa_vooo (0 + z) b m i j)).
Definition r_reomt_X_ab_vvvo (z b c e k : nat) : ex := (ESub (ESub (EAdd (EAdd (EAdd (EAdd (ESub (EOpp (ESum (0 + z) 0 (EMul (ET 29 [(0 + z); c; e; k]) (ET 51 [b; (0 + z)])))) (ESum (0 + z) 0 (EMul (ET 40 [b; (0 + z); e; k]) (ET 52 [c; (0 + z)])))) (ESum (0 + z) 1 (EMul (ET 47 [b; c; e; (0 + z)]) (ET 52 [(0 + z); k])))) (ESum (0 + z) 0 (ESum (1 + z) 0 (EMul (ET 21 [(0 + z); (1 + z); e; k]) (ET 54 [b; c; (0 + z); (1 + z)]))))) (ESum (0 + z) 0 (ESum (1 + z) 1 (EMul (ET 8 [b; (0 + z); e; (1 + z)]) (ET 54 [(1 + z); c; (0 + z); k]))))) (ESum (0 + z) 0 (ESum (1 + z) 1 (EMul (ET 9 [b; (0 + z); e; (1 + z)]) (ET 58 [(1 + z); c; (0 + z); k]))))) (ESum (0 + z) 0 (ESum (1 + z) 1 (EMul (ET 17 [(0 + z); c; e; (1 + z)]) (ET 54 [b; (1 + z); (0 + z); k]))))) (ESum (0 + z) 0 (EMul (r_reomt_X_a_ov (1 + z) (0 + z) e) (ET 11 [b; c; (0 + z); k])))).
Definition r_reomt_X_ab_ovoo (z n c j k : nat) : ex := (ESub (EAdd (EAdd (EAdd (EAdd (EAdd (EOpp (ESum (0 + z) 0 (EMul (ET 38 [n; (0 + z); j; k]) (ET 52 [c; (0 + z)])))) (ESum (0 + z) 1 (EMul (ET 39 [n; c; j; (0 + z)]) (ET 52 [(0 + z); k])))) (ESum (0 + z) 1 (EMul (ET 29 [n; c; (0 + z); k]) (ET 51 [(0 + z); j])))) (ESum (0 + z) 1 (ESum (1 + z) 1 (EMul (ET 17 [n; c; (0 + z); (1 + z)]) (ET 54 [(0 + z); (1 + z); j; k]))))) (ESum (0 + z) 0 (ESum (1 + z) 1 (EMul (ET 13 [n; (0 + z); j; (1 + z)]) (ET 54 [(1 + z); c; (0 + z); k]))))) (ESum (0 + z) 0 (ESum (1 + z) 1 (EMul (ET 14 [n; (0 + z); j; (1 + z)]) (ET 58 [(1 + z); c; (0 + z); k]))))) (ESum (0 + z) 0 (ESum (1 + z) 1 (EMul (ET 21 [n; (0 + z); (1 + z); k]) (ET 54 [(1 + z); c; j; (0 + z)]))))).
Definition r_reomt_X_ab_vvov (z b c j e : nat) : ex := (ESub (ESub (EAdd (EAdd (EAdd (EAdd (ESub (EOpp (ESum (0 + z) 0 (EMul (ET 39 [(0 + z); c; j; e]) (ET 51 [b; (0 + z)])))) (ESum (0 + z) 0 (EMul (ET 23 [b; (0 + z); j; e]) (ET 52 [c; (0 + z)])))) (ESum (0 + z) 1 (EMul (ET 47 [b; c; (0 + z); e]) (ET 51 [(0 + z); j])))) (ESum (0 + z) 0 (ESum (1 + z) 0 (EMul (ET 14 [(0 + z); (1 + z); j; e]) (ET 54 [b; c; (0 + z); (1 + z)]))))) (ESum (0 + z) 0 (ESum (1 + z) 1 (EMul (ET 17 [(0 + z); c; (1 + z); e]) (ET 53 [b; (1 + z); j; (0 + z)]))))) (ESum (0 + z) 0 (ESum (1 + z) 1 (EMul (ET 16 [c; (0 + z); e; (1 + z)]) (ET 54 [b; (1 + z); j; (0 + z)]))))) (ESum (0 + z) 0 (ESum (1 + z) 1 (EMul (ET 9 [b; (0 + z); (1 + z); e]) (ET 54 [(1 + z); c; j; (0 + z)]))))) (ESum (0 + z) 0 (EMul (r_reomt_X_b_ov (1 + z) (0 + z) e) (ET 11 [b; c; j; (0 + z)])))).
Definition r_reomt_X_ab_vooo (z b n j k : nat) : ex := (ESub (EAdd (EAdd (EAdd (EAdd (EAdd (EOpp (ESum (0 + z) 0 (EMul (ET 38 [(0 + z); n; j; k]) (ET 51 [b; (0 + z)])))) (ESum (0 + z) 1 (EMul (ET 23 [b; n; j; (0 + z)]) (ET 52 [(0 + z); k])))) (ESum (0 + z) 1 (EMul (ET 40 [b; n; (0 + z); k]) (ET 51 [(0 + z); j])))) (ESum (0 + z) 1 (ESum (1 + z) 1 (EMul (ET 9 [b; n; (0 + z); (1 + z)]) (ET 54 [(0 + z); (1 + z); j; k]))))) (ESum (0 + z) 0 (ESum (1 + z) 1 (EMul (ET 21 [(0 + z); n; (1 + z); k]) (ET 53 [b; (1 + z); j; (0 + z)]))))) (ESum (0 + z) 0 (ESum (1 + z) 1 (EMul (ET 20 [n; (0 + z); k; (1 + z)]) (ET 54 [b; (1 + z); j; (0 + z)]))))) (ESum (0 + z) 0 (ESum (1 + z) 1 (EMul (ET 14 [(0 + z); n; j; (1 + z)]) (ET 54 [b; (1 + z); (0 + z); k]))))).
Definition r_reomt_X_bb_vvov (z b a j e : nat) : ex := (ESub (EAdd (EAdd (EAdd (EAdd (ESum (0 + z) 0 (EMul (ET 28 [a; (0 + z); j; e]) (ET 52 [b; (0 + z)]))) (EScale (1) 2 (ESum (0 + z) 1 (EMul (ET 49 [a; b; e; (0 + z)]) (ET 52 [(0 + z); j]))))) (EScale (1) 4 (ESum (0 + z) 0 (ESum (1 + z) 0 (EMul (ET 20 [(0 + z); (1 + z); j; e]) (ET 58 [a; b; (1 + z); (0 + z)])))))) (ESum (0 + z) 0 (ESum (1 + z) 1 (EMul (ET 16 [a; (0 + z); e; (1 + z)]) (ET 58 [b; (1 + z); j; (0 + z)]))))) (ESum (0 + z) 0 (ESum (1 + z) 1 (EMul (ET 17 [(0 + z); a; (1 + z); e]) (ET 54 [(1 + z); b; (0 + z); j]))))) (EScale (1) 2 (ESum (0 + z) 0 (EMul (r_reomt_X_b_ov (1 + z) (0 + z) e) (ET 18 [a; b; (0 + z); j]))))).
Definition r_reomt_X_bb_vvov_1 (z b a j e : nat) : ex := (ESub (r_reomt_X_bb_vvov (0 + z) b a j e) (r_reomt_X_bb_vvov (0 + z) a b j e)).
Definition r_reomt_X_bb_vooo (z b n j i : nat) : ex := (EAdd (EAdd (EAdd (ESub (EScale (-1) 2 (ESum (0 + z) 0 (EMul (ET 35 [n; (0 + z); i; j]) (ET 52 [b; (0 + z)])))) (ESum (0 + z) 1 (EMul (ET 28 [b; n; i; (0 + z)]) (ET 52 [(0 + z); j])))) (EScale (1) 4 (ESum (0 + z) 1 (ESum (1 + z) 1 (EMul (ET 16 [b; n; (0 + z); (1 + z)]) (ET 58 [(1 + z); (0 + z); i; j])))))) (ESum (0 + z) 0 (ESum (1 + z) 1 (EMul (ET 20 [n; (0 + z); i; (1 + z)]) (ET 58 [b; (1 + z); j; (0 + z)]))))) (ESum (0 + z) 0 (ESum (1 + z) 1 (EMul (ET 21 [(0 + z); n; (1 + z); i]) (ET 54 [(1 + z); b; (0 + z); j]))))).
Definition r_reomt_X_bb_vooo_1 (z b n j i : nat) : ex := (ESub (r_reomt_X_bb_vooo (0 + z) b n j i) (r_reomt_X_bb_vooo (0 + z) b n i j)).
Definition r_reomt_X_aa_vvov_2 (z b a j e : nat) : ex := (EAdd (r_reomt_X_aa_vvov_1 (0 + z) b a j e) (ESub (EScale (-1) 2 (ESum (0 + z) 0 (ESum (1 + z) 0 (ESum (2 + z) 1 (EMul (ET 1 [(0 + z); (1 + z); e; (2 + z)]) (ET 55 [b; a; (2 + z); j; (0 + z); (1 + z)])))))) (ESum (0 + z) 0 (ESum (1 + z) 0 (ESum (2 + z) 1 (EMul (ET 3 [(0 + z); (1 + z); e; (2 + z)]) (ET 56 [b; a; (2 + z); j; (0 + z); (1 + z)]))))))).
Definition r_reomt_X_aa_vooo_2 (z b m j i : nat) : ex := (EAdd (r_reomt_X_aa_vooo_1 (0 + z) b m j i) (EAdd (EScale (1) 2 (ESum (0 + z) 0 (ESum (1 + z) 1 (ESum (2 + z) 1 (EMul (ET 1 [m; (0 + z); (1 + z); (2 + z)]) (ET 55 [(1 + z); (2 + z); b; i; (0 + z); j])))))) (ESum (0 + z) 0 (ESum (1 + z) 1 (ESum (2 + z) 1 (EMul (ET 3 [m; (0 + z); (1 + z); (2 + z)]) (ET 56 [(1 + z); b; (2 + z); i; j; (0 + z)]))))))).
Definition r_reomt_X_ab_vvvo_1 (z b c e k : nat) : ex := (EAdd (r_reomt_X_ab_vvvo (0 + z) b c e k) (ESub (EScale (-1) 2 (ESum (0 + z) 0 (ESum (1 + z) 0 (ESum (2 + z) 1 (EMul (ET 1 [(0 + z); (1 + z); e; (2 + z)]) (ET 56 [b; (2 + z); c; (0 + z); (1 + z); k])))))) (ESum (0 + z) 0 (ESum (1 + z) 0 (ESum (2 + z) 1 (EMul (ET 3 [(0 + z); (1 + z); e; (2 + z)]) (ET 57 [b; (2 + z); c; (0 + z); (1 + z); k]))))))).
Definition r_reomt_X_ab_ovoo_1 (z n c j k : nat) : ex := (EAdd (r_reomt_X_ab_ovoo (0 + z) n c j k) (EAdd (EScale (1) 2 (ESum (0 + z) 0 (ESum (1 + z) 1 (ESum (2 + z) 1 (EMul (ET 1 [n; (0 + z); (1 + z); (2 + z)]) (ET 56 [(1 + z); (2 + z); c; j; (0 + z); k])))))) (ESum (0 + z) 0 (ESum (1 + z) 1 (ESum (2 + z) 1 (EMul (ET 3 [n; (0 + z); (1 + z); (2 + z)]) (ET 57 [(1 + z); (2 + z); c; j; (0 + z); k]))))))).
Definition r_reomt_X_ab_vvov_1 (z b c j e : nat) : ex := (EAdd (r_reomt_X_ab_vvov (0 + z) b c j e) (ESub (EOpp (ESum (0 + z) 0 (ESum (1 + z) 0 (ESum (2 + z) 1 (EMul (ET 3 [(0 + z); (1 + z); (2 + z); e]) (ET 56 [b; (2 + z); c; j; (0 + z); (1 + z)])))))) (EScale (1) 2 (ESum (0 + z) 0 (ESum (1 + z) 0 (ESum (2 + z) 1 (EMul (ET 6 [(0 + z); (1 + z); e; (2 + z)]) (ET 57 [b; (2 + z); c; j; (1 + z); (0 + z)])))))))).
Definition r_reomt_X_ab_vooo_1 (z b n j k : nat) : ex := (EAdd (r_reomt_X_ab_vooo (0 + z) b n j k) (EAdd (ESum (0 + z) 0 (ESum (1 + z) 1 (ESum (2 + z) 1 (EMul (ET 3 [(0 + z); n; (1 + z); (2 + z)]) (ET 56 [b; (1 + z); (2 + z); j; (0 + z); k]))))) (EScale (1) 2 (ESum (0 + z) 0 (ESum (1 + z) 1 (ESum (2 + z) 1 (EMul (ET 6 [n; (0 + z); (1 + z); (2 + z)]) (ET 57 [b; (1 + z); (2 + z); j; k; (0 + z)])))))))).
Definition r_reomt_X_bb_vvov_2 (z b a j e : nat) : ex := (EAdd (r_reomt_X_bb_vvov_1 (0 + z) b a j e) (ESub (EScale (-1) 2 (ESum (0 + z) 0 (ESum (1 + z) 0 (ESum (2 + z) 1 (EMul (ET 6 [(0 + z); (1 + z); e; (2 + z)]) (ET 59 [a; b; (2 + z); (0 + z); j; (1 + z)])))))) (ESum (0 + z) 0 (ESum (1 + z) 0 (ESum (2 + z) 1 (EMul (ET 3 [(0 + z); (1 + z); (2 + z); e]) (ET 57 [(2 + z); b; a; (0 + z); j; (1 + z)]))))))).
Definition r_reomt_X_bb_vooo_2 (z b n j i : nat) : ex := (EAdd (r_reomt_X_bb_vooo_1 (0 + z) b n j i) (EAdd (EScale (1) 2 (ESum (0 + z) 0 (ESum (1 + z) 1 (ESum (2 + z) 1 (EMul (ET 6 [n; (0 + z); (1 + z); (2 + z)]) (ET 59 [b; (1 + z); (2 + z); j; i; (0 + z)])))))) (ESum (0 + z) 0 (ESum (1 + z) 1 (ESum (2 + z) 1 (EMul (ET 3 [(0 + z); n; (1 + z); (2 + z)]) (ET 57 [(1 + z); (2 + z); b; (0 + z); i; j]))))))).
Definition r_reomt_X3A (z a b c i j k : nat) : ex := (EScale (1) 4 (ESum (0 + z) 1 (EMul (r_reomt_X_aa_vvov_2 (1 + z) b a j (0 + z)) (ET 10 [(0 + z); c; i; k])))).
Definition r_reomt_X3A_1 (z a b c i j k : nat) : ex := (EAdd (r_reomt_X3A (0 + z) a b c i j k) (EScale (1) 4 (ESum (0 + z) 1 (EMul (ET 34 [b; a; j; (0 + z)]) (ET 53 [(0 + z); c; i; k]))))).
Definition r_reomt_X3A_2 (z a b c i j k : nat) : ex := (ESub (r_reomt_X3A_1 (0 + z) a b c i j k) (EScale (1) 4 (ESum (0 + z) 0 (EMul (r_reomt_X_aa_vooo_2 (1 + z) b (0 + z) j i) (ET 10 [a; c; (0 + z); k]))))).
Definition r_reomt_X3A_3 (z a b c i j k : nat) : ex := (ESub (r_reomt_X3A_2 (0 + z) a b c i j k) (EScale (1) 4 (ESum (0 + z) 0 (EMul (ET 33 [b; (0 + z); j; i]) (ET 53 [a; c; (0 + z); k]))))).
Definition r_reomt_X3A_4 (z a b c i j k : nat) : ex := (EAdd (r_reomt_X3A_3 (0 + z) a b c i j k) (EScale (1) 12 (ESum (0 + z) 1 (EMul (r_reomt_X_a_vv_1 (1 + z) b (0 + z)) (ET 24 [a; (0 + z); c; i; j; k]))))).
Definition r_reomt_X3A_5 (z a b c i j k : nat) : ex := (ESub (r_reomt_X3A_4 (0 + z) a b c i j k) (EScale (1) 12 (ESum (0 + z) 0 (EMul (r_reomt_X_a_oo_1 (1 + z) (0 + z) j) (ET 24 [a; b; c; i; (0 + z); k]))))).
Definition r_reomt_X3A_6 (z a b c i j k : nat) : ex := (EAdd (r_reomt_X3A_5 (0 + z) a b c i j k) (EScale (1) 24 (ESum (0 + z) 0 (ESum (1 + z) 0 (EMul (r_reomt_X_aa_oooo_1 (2 + z) (0 + z) (1 + z) i j) (ET 24 [a; b; c; (0 + z); (1 + z); k])))))).
Definition r_reomt_X3A_7 (z a b c i j k : nat) : ex := (EAdd (r_reomt_X3A_6 (0 + z) a b c i j k) (EScale (1) 24 (ESum (0 + z) 1 (ESum (1 + z) 1 (EMul (r_reomt_X_aa_vvvv_1 (2 + z) a b (0 + z) (1 + z)) (ET 24 [(0 + z); (1 + z); c; i; j; k])))))).
Definition r_reomt_X3A_8 (z a b c i j k : nat) : ex := (EAdd (r_reomt_X3A_7 (0 + z) a b c i j k) (EScale (1) 4 (ESum (0 + z) 0 (ESum (1 + z) 1 (EMul (r_reomt_X_aa_voov (2 + z) b (0 + z) j (1 + z)) (ET 24 [a; (1 + z); c; i; (0 + z); k])))))).
Definition r_reomt_X3A_9 (z a b c i j k : nat) : ex := (EAdd (r_reomt_X3A_8 (0 + z) a b c i j k) (EScale (1) 4 (ESum (0 + z) 0 (ESum (1 + z) 1 (EMul (r_reomt_X_ab_voov (2 + z) b (0 + z) j (1 + z)) (ET 25 [a; c; (1 + z); i; k; (0 + z)])))))).
Definition r_reomt_X3A_10 (z a b c i j k : nat) : ex := (ESub (r_reomt_X3A_9 (0 + z) a b c i j k) (EScale (1) 12 (ESum (0 + z) 0 (EMul (ET 12 [(0 + z); j]) (ET 55 [a; b; c; i; (0 + z); k]))))).
Definition r_reomt_X3A_11 (z a b c i j k : nat) : ex := (EAdd (r_reomt_X3A_10 (0 + z) a b c i j k) (EScale (1) 12 (ESum (0 + z) 1 (EMul (ET 7 [b; (0 + z)]) (ET 55 [a; (0 + z); c; i; j; k]))))).
Definition r_reomt_X3A_12 (z a b c i j k : nat) : ex := (EAdd (r_reomt_X3A_11 (0 + z) a b c i j k) (EScale (1) 24 (ESum (0 + z) 0 (ESum (1 + z) 0 (EMul (ET 32 [(0 + z); (1 + z); i; j]) (ET 55 [a; b; c; (0 + z); (1 + z); k])))))).
Definition r_reomt_X3A_13 (z a b c i j k : nat) : ex := (EAdd (r_reomt_X3A_12 (0 + z) a b c i j k) (EScale (1) 24 (ESum (0 + z) 1 (ESum (1 + z) 1 (EMul (ET 45 [a; b; (0 + z); (1 + z)]) (ET 55 [(0 + z); (1 + z); c; i; j; k])))))).
Definition r_reomt_X3A_14 (z a b c i j k : nat) : ex := (EAdd (r_reomt_X3A_13 (0 + z) a b c i j k) (EScale (1) 4 (ESum (0 + z) 0 (ESum (1 + z) 1 (EMul (ET 22 [a; (0 + z); i; (1 + z)]) (ET 55 [(1 + z); b; c; (0 + z); j; k])))))).
Definition r_reomt_X3A_15 (z a b c i j k : nat) : ex := (EAdd (r_reomt_X3A_14 (0 + z) a b c i j k) (EScale (1) 4 (ESum (0 + z) 0 (ESum (1 + z) 1 (EMul (ET 23 [a; (0 + z); i; (1 + z)]) (ET 56 [b; c; (1 + z); j; k; (0 + z)])))))).
Definition r_reomt_X3A_16 (z a b c i j k : nat) : ex := (ESub (r_reomt_X3A_15 (0 + z) a b c i j k) (r_reomt_X3A_15 (0 + z) a b c i k j)).
Definition r_reomt_X3A_17 (z a b c i j k : nat) : ex := (ESub (r_reomt_X3A_16 (0 + z) a b c i j k) (EAdd (r_reomt_X3A_16 (0 + z) a b c j i k) (r_reomt_X3A_16 (0 + z) a b c k j i))).
Definition r_reomt_X3A_18 (z a b c i j k : nat) : ex := (ESub (r_reomt_X3A_17 (0 + z) a b c i j k) (r_reomt_X3A_17 (0 + z) a c b i j k)).
Definition r_reomt_X3A_19 (z a b c i j k : nat) : ex := (ESub (r_reomt_X3A_18 (0 + z) a b c i j k) (EAdd (r_reomt_X3A_18 (0 + z) b a c i j k) (r_reomt_X3A_18 (0 + z) c b a i j k))).
Definition r_reomt_X3B (z a b c i j k : nat) : ex := (EScale (1) 2 (ESum (0 + z) 1 (EMul (r_reomt_X_ab_vvvo_1 (1 + z) b c (0 + z) k) (ET 10 [a; (0 + z); i; j])))).
Definition r_reomt_X3B_1 (z a b c i j k : nat) : ex := (EAdd (r_reomt_X3B (0 + z) a b c i j k) (EScale (1) 2 (ESum (0 + z) 1 (EMul (ET 43 [b; c; (0 + z); k]) (ET 53 [a; (0 + z); i; j]))))).
Definition r_reomt_X3B_2 (z a b c i j k : nat) : ex := (ESub (r_reomt_X3B_1 (0 + z) a b c i j k) (EScale (1) 2 (ESum (0 + z) 0 (EMul (r_reomt_X_ab_ovoo_1 (1 + z) (0 + z) c j k) (ET 10 [a; b; i; (0 + z)]))))).
Definition r_reomt_X3B_3 (z a b c i j k : nat) : ex := (ESub (r_reomt_X3B_2 (0 + z) a b c i j k) (EScale (1) 2 (ESum (0 + z) 0 (EMul (ET 41 [(0 + z); c; j; k]) (ET 53 [a; b; i; (0 + z)]))))).
Definition r_reomt_X3B_4 (z a b c i j k : nat) : ex := (EAdd (r_reomt_X3B_3 (0 + z) a b c i j k) (EScale (1) 2 (ESum (0 + z) 1 (EMul (r_reomt_X_aa_vvov_2 (1 + z) b a j (0 + z)) (ET 11 [(0 + z); c; i; k]))))).
Definition r_reomt_X3B_5 (z a b c i j k : nat) : ex := (EAdd (r_reomt_X3B_4 (0 + z) a b c i j k) (EScale (1) 2 (ESum (0 + z) 1 (EMul (ET 34 [b; a; j; (0 + z)]) (ET 54 [(0 + z); c; i; k]))))).
Definition r_reomt_X3B_6 (z a b c i j k : nat) : ex := (ESub (r_reomt_X3B_5 (0 + z) a b c i j k) (EScale (1) 2 (ESum (0 + z) 0 (EMul (r_reomt_X_aa_vooo_2 (1 + z) b (0 + z) j i) (ET 11 [a; c; (0 + z); k]))))).
Definition r_reomt_X3B_7 (z a b c i j k : nat) : ex := (ESub (r_reomt_X3B_6 (0 + z) a b c i j k) (EScale (1) 2 (ESum (0 + z) 0 (EMul (ET 33 [b; (0 + z); j; i]) (ET 54 [a; c; (0 + z); k]))))).
Definition r_reomt_X3B_8 (z a b c i j k : nat) : ex := (EAdd (r_reomt_X3B_7 (0 + z) a b c i j k) (ESum (0 + z) 1 (EMul (r_reomt_X_ab_vvov_1 (1 + z) b c j (0 + z)) (ET 11 [a; (0 + z); i; k])))).
Definition r_reomt_X3B_9 (z a b c i j k : nat) : ex := (EAdd (r_reomt_X3B_8 (0 + z) a b c i j k) (ESum (0 + z) 1 (EMul (ET 44 [b; c; j; (0 + z)]) (ET 54 [a; (0 + z); i; k])))).
Definition r_reomt_X3B_10 (z a b c i j k : nat) : ex := (ESub (r_reomt_X3B_9 (0 + z) a b c i j k) (ESum (0 + z) 0 (EMul (r_reomt_X_ab_vooo_1 (1 + z) b (0 + z) j k) (ET 11 [a; c; i; (0 + z)])))).
Definition r_reomt_X3B_11 (z a b c i j k : nat) : ex := (ESub (r_reomt_X3B_10 (0 + z) a b c i j k) (ESum (0 + z) 0 (EMul (ET 42 [b; (0 + z); j; k]) (ET 54 [a; c; i; (0 + z)])))).
Definition r_reomt_X3B_12 (z a b c i j k : nat) : ex := (EAdd (r_reomt_X3B_11 (0 + z) a b c i j k) (EScale (1) 2 (ESum (0 + z) 1 (EMul (r_reomt_X_a_vv_1 (1 + z) b (0 + z)) (ET 25 [a; (0 + z); c; i; j; k]))))).
Definition r_reomt_X3B_13 (z a b c i j k : nat) : ex := (EAdd (r_reomt_X3B_12 (0 + z) a b c i j k) (EScale (1) 4 (ESum (0 + z) 1 (EMul (r_reomt_X_b_vv_1 (1 + z) c (0 + z)) (ET 25 [a; b; (0 + z); i; j; k]))))).
Definition r_reomt_X3B_14 (z a b c i j k : nat) : ex := (ESub (r_reomt_X3B_13 (0 + z) a b c i j k) (EScale (1) 2 (ESum (0 + z) 0 (EMul (r_reomt_X_a_oo_1 (1 + z) (0 + z) j) (ET 25 [a; b; c; i; (0 + z); k]))))).
Definition r_reomt_X3B_15 (z a b c i j k : nat) : ex := (ESub (r_reomt_X3B_14 (0 + z) a b c i j k) (EScale (1) 4 (ESum (0 + z) 0 (EMul (r_reomt_X_b_oo_1 (1 + z) (0 + z) k) (ET 25 [a; b; c; i; j; (0 + z)]))))).
Definition r_reomt_X3B_16 (z a b c i j k : nat) : ex := (EAdd (r_reomt_X3B_15 (0 + z) a b c i j k) (EScale (1) 2 (ESum (0 + z) 0 (ESum (1 + z) 0 (EMul (r_reomt_X_ab_oooo (2 + z) (0 + z) (1 + z) j k) (ET 25 [a; b; c; i; (0 + z); (1 + z)])))))).
Definition r_reomt_X3B_17 (z a b c i j k : nat) : ex := (EAdd (r_reomt_X3B_16 (0 + z) a b c i j k) (EScale (1) 8 (ESum (0 + z) 0 (ESum (1 + z) 0 (EMul (r_reomt_X_aa_oooo_1 (2 + z) (0 + z) (1 + z) i j) (ET 25 [a; b; c; (0 + z); (1 + z); k])))))).
Definition r_reomt_X3B_18 (z a b c i j k : nat) : ex := (EAdd (r_reomt_X3B_17 (0 + z) a b c i j k) (EScale (1) 2 (ESum (0 + z) 1 (ESum (1 + z) 1 (EMul (r_reomt_X_ab_vvvv (2 + z) b c (0 + z) (1 + z)) (ET 25 [a; (0 + z); (1 + z); i; j; k])))))).
Definition r_reomt_X3B_19 (z a b c i j k : nat) : ex := (EAdd (r_reomt_X3B_18 (0 + z) a b c i j k) (EScale (1) 8 (ESum (0 + z) 1 (ESum (1 + z) 1 (EMul (r_reomt_X_aa_vvvv_1 (2 + z) a b (0 + z) (1 + z)) (ET 25 [(0 + z); (1 + z); c; i; j; k])))))).
Definition r_reomt_X3B_20 (z a b c i j k : nat) : ex := (EAdd (r_reomt_X3B_19 (0 + z) a b c i j k) (EScale (1) 4 (ESum (0 + z) 0 (ESum (1 + z) 1 (EMul (r_reomt_X_ab_ovvo (2 + z) (0 + z) c (1 + z) k) (ET 24 [a; b; (1 + z); i; j; (0 + z)])))))).
Definition r_reomt_X3B_21 (z a b c i j k : nat) : ex := (EAdd (r_reomt_X3B_20 (0 + z) a b c i j k) (EScale (1) 4 (ESum (0 + z) 0 (ESum (1 + z) 1 (EMul (r_reomt_X_bb_voov (2 + z) c (0 + z) k (1 + z)) (ET 25 [a; b; (1 + z); i; j; (0 + z)])))))).
Definition r_reomt_X3B_22 (z a b c i j k : nat) : ex := (ESub (r_reomt_X3B_21 (0 + z) a b c i j k) (EScale (1) 2 (ESum (0 + z) 0 (ESum (1 + z) 1 (EMul (r_reomt_X_ab_vovo (2 + z) b (0 + z) (1 + z) k) (ET 25 [a; (1 + z); c; i; j; (0 + z)])))))).
Definition r_reomt_X3B_23 (z a b c i j k : nat) : ex := (ESub (r_reomt_X3B_22 (0 + z) a b c i j k) (EScale (1) 2 (ESum (0 + z) 0 (ESum (1 + z) 1 (EMul (r_reomt_X_ab_ovov (2 + z) (0 + z) c j (1 + z)) (ET 25 [a; b; (1 + z); i; (0 + z); k])))))).
Definition r_reomt_X3B_24 (z a b c i j k : nat) : ex := (EAdd (r_reomt_X3B_23 (0 + z) a b c i j k) (ESum (0 + z) 0 (ESum (1 + z) 1 (EMul (r_reomt_X_aa_voov (2 + z) b (0 + z) j (1 + z)) (ET 25 [a; (1 + z); c; i; (0 + z); k]))))).
Definition r_reomt_X3B_25 (z a b c i j k : nat) : ex := (EAdd (r_reomt_X3B_24 (0 + z) a b c i j k) (ESum (0 + z) 0 (ESum (1 + z) 1 (EMul (r_reomt_X_ab_voov (2 + z) b (0 + z) j (1 + z)) (ET 26 [a; (1 + z); c; i; (0 + z); k]))))).
Definition r_reomt_X3B_26 (z a b c i j k : nat) : ex := (ESub (r_reomt_X3B_25 (0 + z) a b c i j k) (EScale (1) 2 (ESum (0 + z) 0 (EMul (ET 12 [(0 + z); j]) (ET 56 [a; b; c; i; (0 + z); k]))))).
Definition r_reomt_X3B_27 (z a b c i j k : nat) : ex := (ESub (r_reomt_X3B_26 (0 + z) a b c i j k) (EScale (1) 4 (ESum (0 + z) 0 (EMul (ET 19 [(0 + z); k]) (ET 56 [a; b; c; i; j; (0 + z)]))))).
Definition r_reomt_X3B_28 (z a b c i j k : nat) : ex := (EAdd (r_reomt_X3B_27 (0 + z) a b c i j k) (EScale (1) 2 (ESum (0 + z) 1 (EMul (ET 7 [b; (0 + z)]) (ET 56 [a; (0 + z); c; i; j; k]))))).
Definition r_reomt_X3B_29 (z a b c i j k : nat) : ex := (EAdd (r_reomt_X3B_28 (0 + z) a b c i j k) (EScale (1) 4 (ESum (0 + z) 1 (EMul (ET 15 [c; (0 + z)]) (ET 56 [a; b; (0 + z); i; j; k]))))).
Definition r_reomt_X3B_30 (z a b c i j k : nat) : ex := (EAdd (r_reomt_X3B_29 (0 + z) a b c i j k) (EScale (1) 8 (ESum (0 + z) 0 (ESum (1 + z) 0 (EMul (ET 32 [(0 + z); (1 + z); i; j]) (ET 56 [a; b; c; (0 + z); (1 + z); k])))))).
Definition r_reomt_X3B_31 (z a b c i j k : nat) : ex := (EAdd (r_reomt_X3B_30 (0 + z) a b c i j k) (EScale (1) 2 (ESum (0 + z) 0 (ESum (1 + z) 0 (EMul (ET 38 [(0 + z); (1 + z); j; k]) (ET 56 [a; b; c; i; (0 + z); (1 + z)])))))).
Definition r_reomt_X3B_32 (z a b c i j k : nat) : ex := (EAdd (r_reomt_X3B_31 (0 + z) a b c i j k) (EScale (1) 8 (ESum (0 + z) 1 (ESum (1 + z) 1 (EMul (ET 45 [a; b; (0 + z); (1 + z)]) (ET 56 [(0 + z); (1 + z); c; i; j; k])))))).
Definition r_reomt_X3B_33 (z a b c i j k : nat) : ex := (EAdd (r_reomt_X3B_32 (0 + z) a b c i j k) (EScale (1) 2 (ESum (0 + z) 1 (ESum (1 + z) 1 (EMul (ET 47 [b; c; (0 + z); (1 + z)]) (ET 56 [a; (0 + z); (1 + z); i; j; k])))))).
Definition r_reomt_X3B_34 (z a b c i j k : nat) : ex := (EAdd (r_reomt_X3B_33 (0 + z) a b c i j k) (ESum (0 + z) 0 (ESum (1 + z) 1 (EMul (ET 22 [a; (0 + z); i; (1 + z)]) (ET 56 [(1 + z); b; c; (0 + z); j; k]))))).
Definition r_reomt_X3B_35 (z a b c i j k : nat) : ex := (EAdd (r_reomt_X3B_34 (0 + z) a b c i j k) (ESum (0 + z) 0 (ESum (1 + z) 1 (EMul (ET 23 [a; (0 + z); i; (1 + z)]) (ET 57 [b; (1 + z); c; j; (0 + z); k]))))).
Definition r_reomt_X3B_36 (z a b c i j k : nat) : ex := (EAdd (r_reomt_X3B_35 (0 + z) a b c i j k) (EScale (1) 4 (ESum (0 + z) 0 (ESum (1 + z) 1 (EMul (ET 29 [(0 + z); c; (1 + z); k]) (ET 55 [a; b; (1 + z); i; j; (0 + z)])))))).
Definition r_reomt_X3B_37 (z a b c i j k : nat) : ex := (EAdd (r_reomt_X3B_36 (0 + z) a b c i j k) (EScale (1) 4 (ESum (0 + z) 0 (ESum (1 + z) 1 (EMul (ET 28 [c; (0 + z); k; (1 + z)]) (ET 56 [a; b; (1 + z); i; j; (0 + z)])))))).
Definition r_reomt_X3B_38 (z a b c i j k : nat) : ex := (ESub (r_reomt_X3B_37 (0 + z) a b c i j k) (EScale (1) 2 (ESum (0 + z) 0 (ESum (1 + z) 1 (EMul (ET 40 [b; (0 + z); (1 + z); k]) (ET 56 [a; (1 + z); c; i; j; (0 + z)])))))).
Definition r_reomt_X3B_39 (z a b c i j k : nat) : ex := (ESub (r_reomt_X3B_38 (0 + z) a b c i j k) (EScale (1) 2 (ESum (0 + z) 0 (ESum (1 + z) 1 (EMul (ET 39 [(0 + z); c; j; (1 + z)]) (ET 56 [a; b; (1 + z); i; (0 + z); k])))))).
Definition r_reomt_X3B_40 (z a b c i j k : nat) : ex := (ESub (r_reomt_X3B_39 (0 + z) a b c i j k) (r_reomt_X3B_39 (0 + z) b a c i j k)).
Definition r_reomt_X3B_41 (z a b c i j k : nat) : ex := (ESub (r_reomt_X3B_40 (0 + z) a b c i j k) (r_reomt_X3B_40 (0 + z) a b c j i k)).
Definition r_reomt_dR_abb (z a b c i j k : nat) : ex := (r_reomt_X3B_41 (0 + z) c b a k j i).
Definition r_reomt_dR_bbb (z a b c i j k : nat) : ex := (r_reomt_X3A_19 (0 + z) a b c i j k).
Definition sc_arrays (d : dims) (H : ints) (T R : amps) := [ap2 (i_a_ov H);
  ap4 (i_aa_oovv H);
  ap2 (x_a T);
  ap4 (i_ab_oovv H);
  ap2 (x_b T);
  ap2 (i_b_ov H);
  ap4 (i_bb_oovv H);
  ap2 (i_a_vv H);
  ap4 (i_aa_vovv H);
  ap4 (i_ab_vovv H);
  ap4 (x_aa T);
  ap4 (x_ab T);
  ap2 (i_a_oo H);
  ap4 (i_aa_ooov H);
  ap4 (i_ab_ooov H);
  ap2 (i_b_vv H);
  ap4 (i_bb_vovv H);
  ap4 (i_ab_ovvv H);
  ap4 (x_bb T);
  ap2 (i_b_oo H);
  ap4 (i_bb_ooov H);
  ap4 (i_ab_oovo H);
  ap4 (i_aa_voov H);
  ap4 (i_ab_voov H);
  ap6 (x_aaa T);
  ap6 (x_aab T);
  ap6 (x_abb T);
  ap2 (i_a_vo H);
  ap4 (i_bb_voov H);
  ap4 (i_ab_ovvo H);
  ap6 (x_bbb T);
  ap2 (i_b_vo H);
  ap4 (i_aa_oooo H);
  ap4 (i_aa_vooo H);
  ap4 (i_aa_vvov H);
  ap4 (i_bb_oooo H);
  ap4 (i_bb_vooo H);
  ap4 (i_bb_vvov H);
  ap4 (i_ab_oooo H);
  ap4 (i_ab_ovov H);
  ap4 (i_ab_vovo H);
  ap4 (i_ab_ovoo H);
  ap4 (i_ab_vooo H);
  ap4 (i_ab_vvvo H);
  ap4 (i_ab_vvov H);
  ap4 (i_aa_vvvv H);
  ap4 (i_aa_vvoo H);
  ap4 (i_ab_vvvv H);
  ap4 (i_ab_vvoo H);
  ap4 (i_bb_vvvv H);
  ap4 (i_bb_vvoo H);
  ap2 (x_a R);
  ap2 (x_b R);
  ap4 (x_aa R);
  ap4 (x_ab R);
  ap6 (x_aaa R);
  ap6 (x_aab R);
  ap6 (x_abb R);
  ap4 (x_bb R);
  ap6 (x_bbb R);
  ap4 (i_aa_ovvv H);
  ap4 (i_aa_oovo H);
  ap4 (i_bb_ovvv H);
  ap4 (i_bb_oovo H);
  ap4 (i_aa_ovov H);
  ap4 (i_aa_vovo H);
  ap4 (i_bb_ovov H);
  ap4 (i_bb_vovo H);
  ap4 (i_aa_ovoo H);
  ap4 (i_aa_vvvo H);
  ap4 (i_bb_ovoo H);
  ap4 (i_bb_vvvo H);
  ap4 (i_aa_ovvo H);
  ap4 (i_bb_ovvo H)].
Definition sc_gens : list (nat * (nat * list nat * bool)) := [(1, (1, [1; 0; 2; 3], false));
  (1, (1, [0; 1; 3; 2], false));
  (3, (3, [1; 0; 3; 2], true));
  (4, (2, [0; 1], true));
  (5, (0, [0; 1], true));
  (6, (6, [1; 0; 2; 3], false));
  (6, (6, [0; 1; 3; 2], false));
  (6, (1, [0; 1; 2; 3], true));
  (8, (60, [1; 0; 2; 3], false));
  (8, (8, [0; 1; 3; 2], false));
  (9, (17, [1; 0; 3; 2], true));
  (10, (10, [1; 0; 2; 3], false));
  (10, (10, [0; 1; 3; 2], false));
  (11, (11, [1; 0; 3; 2], true));
  (13, (13, [1; 0; 2; 3], false));
  (13, (61, [0; 1; 3; 2], false));
  (14, (21, [1; 0; 3; 2], true));
  (15, (7, [0; 1], true));
  (16, (62, [1; 0; 2; 3], false));
  (16, (16, [0; 1; 3; 2], false));
  (16, (8, [0; 1; 2; 3], true));
  (17, (9, [1; 0; 3; 2], true));
  (18, (18, [1; 0; 2; 3], false));
  (18, (18, [0; 1; 3; 2], false));
  (18, (10, [0; 1; 2; 3], true));
  (19, (12, [0; 1], true));
  (20, (20, [1; 0; 2; 3], false));
  (20, (63, [0; 1; 3; 2], false));
  (20, (13, [0; 1; 2; 3], true));
  (21, (14, [1; 0; 3; 2], true));
  (22, (64, [1; 0; 2; 3], false));
  (22, (65, [0; 1; 3; 2], false));
  (23, (29, [1; 0; 3; 2], true));
  (24, (24, [1; 0; 2; 3; 4; 5], false));
  (24, (24, [0; 2; 1; 3; 4; 5], false));
  (24, (24, [0; 1; 2; 4; 3; 5], false));
  (24, (24, [0; 1; 2; 3; 5; 4], false));
  (25, (25, [1; 0; 2; 3; 4; 5], false));
  (25, (25, [0; 1; 2; 4; 3; 5], false));
  (26, (26, [0; 2; 1; 3; 4; 5], false));
  (26, (26, [0; 1; 2; 3; 5; 4], false));
  (26, (25, [1; 2; 0; 4; 5; 3], true));
  (28, (66, [1; 0; 2; 3], false));
  (28, (67, [0; 1; 3; 2], false));
  (28, (22, [0; 1; 2; 3], true));
  (29, (23, [1; 0; 3; 2], true));
  (30, (30, [1; 0; 2; 3; 4; 5], false));
  (30, (30, [0; 2; 1; 3; 4; 5], false));
  (30, (30, [0; 1; 2; 4; 3; 5], false));
  (30, (30, [0; 1; 2; 3; 5; 4], false));
  (30, (24, [0; 1; 2; 3; 4; 5], true));
  (31, (27, [0; 1], true));
  (32, (32, [1; 0; 2; 3], false));
  (32, (32, [0; 1; 3; 2], false));
  (33, (68, [1; 0; 2; 3], false));
  (33, (33, [0; 1; 3; 2], false));
  (34, (34, [1; 0; 2; 3], false));
  (34, (69, [0; 1; 3; 2], false));
  (35, (35, [1; 0; 2; 3], false));
  (35, (35, [0; 1; 3; 2], false));
  (35, (32, [0; 1; 2; 3], true));
  (36, (70, [1; 0; 2; 3], false));
  (36, (36, [0; 1; 3; 2], false));
  (36, (33, [0; 1; 2; 3], true));
  (37, (37, [1; 0; 2; 3], false));
  (37, (71, [0; 1; 3; 2], false));
  (37, (34, [0; 1; 2; 3], true));
  (38, (38, [1; 0; 3; 2], true));
  (39, (40, [1; 0; 3; 2], true));
  (40, (39, [1; 0; 3; 2], true));
  (41, (42, [1; 0; 3; 2], true));
  (42, (41, [1; 0; 3; 2], true));
  (43, (44, [1; 0; 3; 2], true));
  (44, (43, [1; 0; 3; 2], true));
  (45, (45, [1; 0; 2; 3], false));
  (45, (45, [0; 1; 3; 2], false));
  (46, (46, [1; 0; 2; 3], false));
  (46, (46, [0; 1; 3; 2], false));
  (47, (47, [1; 0; 3; 2], true));
  (48, (48, [1; 0; 3; 2], true));
  (49, (49, [1; 0; 2; 3], false));
  (49, (49, [0; 1; 3; 2], false));
  (49, (45, [0; 1; 2; 3], true));
  (50, (50, [1; 0; 2; 3], false));
  (50, (50, [0; 1; 3; 2], false));
  (50, (46, [0; 1; 2; 3], true));
  (52, (51, [0; 1], true));
  (53, (53, [1; 0; 2; 3], false));
  (53, (53, [0; 1; 3; 2], false));
  (54, (54, [1; 0; 3; 2], true));
  (55, (55, [1; 0; 2; 3; 4; 5], false));
  (55, (55, [0; 2; 1; 3; 4; 5], false));
  (55, (55, [0; 1; 2; 4; 3; 5], false));
  (55, (55, [0; 1; 2; 3; 5; 4], false));
  (56, (56, [1; 0; 2; 3; 4; 5], false));
  (56, (56, [0; 1; 2; 4; 3; 5], false));
  (57, (57, [0; 2; 1; 3; 4; 5], false));
  (57, (57, [0; 1; 2; 3; 5; 4], false));
  (57, (56, [1; 2; 0; 4; 5; 3], true));
  (58, (58, [1; 0; 2; 3], false));
  (58, (58, [0; 1; 3; 2], false));
  (58, (53, [0; 1; 2; 3], true));
  (59, (59, [1; 0; 2; 3; 4; 5], false));
  (59, (59, [0; 2; 1; 3; 4; 5], false));
  (59, (59, [0; 1; 2; 4; 3; 5], false));
  (59, (59, [0; 1; 2; 3; 5; 4], false));
  (59, (55, [0; 1; 2; 3; 4; 5], true));
  (60, (8, [1; 0; 2; 3], false));
  (60, (60, [0; 1; 3; 2], false));
  (61, (61, [1; 0; 2; 3], false));
  (61, (13, [0; 1; 3; 2], false));
  (62, (16, [1; 0; 2; 3], false));
  (62, (62, [0; 1; 3; 2], false));
  (62, (60, [0; 1; 2; 3], true));
  (63, (63, [1; 0; 2; 3], false));
  (63, (20, [0; 1; 3; 2], false));
  (63, (61, [0; 1; 2; 3], true));
  (64, (22, [1; 0; 2; 3], false));
  (64, (72, [0; 1; 3; 2], false));
  (65, (72, [1; 0; 2; 3], false));
  (65, (22, [0; 1; 3; 2], false));
  (66, (28, [1; 0; 2; 3], false));
  (66, (73, [0; 1; 3; 2], false));
  (66, (64, [0; 1; 2; 3], true));
  (67, (73, [1; 0; 2; 3], false));
  (67, (28, [0; 1; 3; 2], false));
  (67, (65, [0; 1; 2; 3], true));
  (68, (33, [1; 0; 2; 3], false));
  (68, (68, [0; 1; 3; 2], false));
  (69, (69, [1; 0; 2; 3], false));
  (69, (34, [0; 1; 3; 2], false));
  (70, (36, [1; 0; 2; 3], false));
  (70, (70, [0; 1; 3; 2], false));
  (70, (68, [0; 1; 2; 3], true));
  (71, (71, [1; 0; 2; 3], false));
  (71, (37, [0; 1; 3; 2], false));
  (71, (69, [0; 1; 2; 3], true));
  (72, (65, [1; 0; 2; 3], false));
  (72, (64, [0; 1; 3; 2], false));
  (73, (67, [1; 0; 2; 3], false));
  (73, (66, [0; 1; 3; 2], false));
  (73, (72, [0; 1; 2; 3], true))].
Definition sc_tab := Eval vm_compute in symtab sc_gens 74.
