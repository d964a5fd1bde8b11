(** Generated by tools/gen_cc2.py: reified CC2 residuals, Hbar and EOMCC2 vector (proof support). *)
From Coq Require Import Reals Arith List ZArith.
From Verif Require Import RSum IntegralsModel TensorObjs TensorAlg CcsdModel CcsdtModel Cc2Model.
Import ListNotations.
Local Open Scope nat_scope.
Definition r_cc2_X_a_ov (z m e : nat) : ex := (EAdd (ET 0 [m; e]) (EAdd (ESum (0 + z) 0 (ESum (1 + z) 1 (EMul (ET 1 [m; (0 + z); e; (1 + z)]) (ET 2 [(1 + z); (0 + z)])))) (ESum (0 + z) 2 (ESum (1 + z) 3 (EMul (ET 3 [m; (0 + z); e; (1 + z)]) (ET 4 [(1 + z); (0 + z)])))))).
Definition r_cc2_X_b_ov (z m e : nat) : ex := (EAdd (ET 5 [m; e]) (EAdd (ESum (0 + z) 0 (ESum (1 + z) 1 (EMul (ET 3 [(0 + z); m; (1 + z); e]) (ET 2 [(1 + z); (0 + z)])))) (ESum (0 + z) 2 (ESum (1 + z) 3 (EMul (ET 6 [m; (0 + z); e; (1 + z)]) (ET 4 [(1 + z); (0 + z)])))))).
Definition r_cc2_X_a_vv (z a e : nat) : ex := (EAdd (ET 7 [a; e]) (ESub (ESub (EAdd (ESum (0 + z) 0 (ESum (1 + z) 1 (EMul (ET 8 [a; (0 + z); e; (1 + z)]) (ET 2 [(1 + z); (0 + z)])))) (ESum (0 + z) 2 (ESum (1 + z) 3 (EMul (ET 9 [a; (0 + z); e; (1 + z)]) (ET 4 [(1 + z); (0 + z)]))))) (EScale (1) 2 (ESum (0 + z) 0 (ESum (1 + z) 0 (ESum (2 + z) 1 (EMul (ET 1 [(0 + z); (1 + z); e; (2 + z)]) (ET 10 [a; (2 + z); (0 + z); (1 + z)]))))))) (ESum (0 + z) 0 (ESum (1 + z) 2 (ESum (2 + z) 3 (EMul (ET 3 [(0 + z); (1 + z); e; (2 + z)]) (ET 11 [a; (2 + z); (0 + z); (1 + z)]))))))).
Definition r_cc2_X_a_oo (z m i : nat) : ex := (EAdd (ET 12 [m; i]) (EAdd (EAdd (EAdd (EAdd (ESum (0 + z) 0 (ESum (1 + z) 1 (EMul (ET 13 [m; (0 + z); i; (1 + z)]) (ET 2 [(1 + z); (0 + z)])))) (ESum (0 + z) 2 (ESum (1 + z) 3 (EMul (ET 14 [m; (0 + z); i; (1 + z)]) (ET 4 [(1 + z); (0 + z)]))))) (ESum (0 + z) 1 (EMul (r_cc2_X_a_ov (1 + z) m (0 + z)) (ET 2 [(0 + z); i])))) (EScale (1) 2 (ESum (0 + z) 0 (ESum (1 + z) 1 (ESum (2 + z) 1 (EMul (ET 1 [m; (0 + z); (1 + z); (2 + z)]) (ET 10 [(1 + z); (2 + z); i; (0 + z)]))))))) (ESum (0 + z) 2 (ESum (1 + z) 1 (ESum (2 + z) 3 (EMul (ET 3 [m; (0 + z); (1 + z); (2 + z)]) (ET 11 [(1 + z); (2 + z); i; (0 + z)]))))))).
Definition r_cc2_X_b_vv (z a e : nat) : ex := (EAdd (ET 15 [a; e]) (ESub (ESub (EAdd (ESum (0 + z) 2 (ESum (1 + z) 3 (EMul (ET 16 [a; (0 + z); e; (1 + z)]) (ET 4 [(1 + z); (0 + z)])))) (ESum (0 + z) 0 (ESum (1 + z) 1 (EMul (ET 17 [(0 + z); a; (1 + z); e]) (ET 2 [(1 + z); (0 + z)]))))) (EScale (1) 2 (ESum (0 + z) 2 (ESum (1 + z) 2 (ESum (2 + z) 3 (EMul (ET 6 [(0 + z); (1 + z); e; (2 + z)]) (ET 18 [a; (2 + z); (0 + z); (1 + z)]))))))) (ESum (0 + z) 0 (ESum (1 + z) 2 (ESum (2 + z) 1 (EMul (ET 3 [(0 + z); (1 + z); (2 + z); e]) (ET 11 [(2 + z); a; (0 + z); (1 + z)]))))))).
Definition r_cc2_X_b_oo (z m i : nat) : ex := (EAdd (ET 19 [m; i]) (EAdd (EAdd (EAdd (EAdd (ESum (0 + z) 2 (ESum (1 + z) 3 (EMul (ET 20 [m; (0 + z); i; (1 + z)]) (ET 4 [(1 + z); (0 + z)])))) (ESum (0 + z) 0 (ESum (1 + z) 1 (EMul (ET 21 [(0 + z); m; (1 + z); i]) (ET 2 [(1 + z); (0 + z)]))))) (ESum (0 + z) 3 (EMul (r_cc2_X_b_ov (1 + z) m (0 + z)) (ET 4 [(0 + z); i])))) (EScale (1) 2 (ESum (0 + z) 2 (ESum (1 + z) 3 (ESum (2 + z) 3 (EMul (ET 6 [m; (0 + z); (1 + z); (2 + z)]) (ET 18 [(1 + z); (2 + z); i; (0 + z)]))))))) (ESum (0 + z) 0 (ESum (1 + z) 1 (ESum (2 + z) 3 (EMul (ET 3 [(0 + z); m; (1 + z); (2 + z)]) (ET 11 [(1 + z); (2 + z); (0 + z); i]))))))).
Definition r_cc2_dT_a (z a i : nat) : ex := (EOpp (ESum (0 + z) 0 (EMul (r_cc2_X_a_oo (1 + z) (0 + z) i) (ET 2 [a; (0 + z)])))).
Definition r_cc2_dT_a_1 (z a i : nat) : ex := (EAdd (r_cc2_dT_a (0 + z) a i) (ESum (0 + z) 1 (EMul (r_cc2_X_a_vv (1 + z) a (0 + z)) (ET 2 [(0 + z); i])))).
Definition r_cc2_dT_a_2 (z a i : nat) : ex := (EAdd (r_cc2_dT_a_1 (0 + z) a i) (ESum (0 + z) 0 (ESum (1 + z) 1 (EMul (r_cc2_X_a_ov (2 + z) (0 + z) (1 + z)) (ET 10 [a; (1 + z); i; (0 + z)]))))).
Definition r_cc2_dT_a_3 (z a i : nat) : ex := (EAdd (r_cc2_dT_a_2 (0 + z) a i) (ESum (0 + z) 2 (ESum (1 + z) 3 (EMul (r_cc2_X_b_ov (2 + z) (0 + z) (1 + z)) (ET 11 [a; (1 + z); i; (0 + z)]))))).
Definition r_cc2_dT_a_4 (z a i : nat) : ex := (EAdd (r_cc2_dT_a_3 (0 + z) a i) (ESum (0 + z) 0 (ESum (1 + z) 1 (EMul (ET 22 [a; (0 + z); i; (1 + z)]) (ET 2 [(1 + z); (0 + z)]))))).
Definition r_cc2_dT_a_5 (z a i : nat) : ex := (EAdd (r_cc2_dT_a_4 (0 + z) a i) (ESum (0 + z) 2 (ESum (1 + z) 3 (EMul (ET 23 [a; (0 + z); i; (1 + z)]) (ET 4 [(1 + z); (0 + z)]))))).
Definition r_cc2_dT_a_6 (z a i : nat) : ex := (ESub (r_cc2_dT_a_5 (0 + z) a i) (EScale (1) 2 (ESum (0 + z) 0 (ESum (1 + z) 0 (ESum (2 + z) 1 (EMul (ET 13 [(0 + z); (1 + z); i; (2 + z)]) (ET 10 [a; (2 + z); (0 + z); (1 + z)]))))))).
Definition r_cc2_dT_a_7 (z a i : nat) : ex := (ESub (r_cc2_dT_a_6 (0 + z) a i) (ESum (0 + z) 0 (ESum (1 + z) 2 (ESum (2 + z) 3 (EMul (ET 14 [(0 + z); (1 + z); i; (2 + z)]) (ET 11 [a; (2 + z); (0 + z); (1 + z)])))))).
Definition r_cc2_dT_a_8 (z a i : nat) : ex := (EAdd (r_cc2_dT_a_7 (0 + z) a i) (EScale (1) 2 (ESum (0 + z) 0 (ESum (1 + z) 1 (ESum (2 + z) 1 (EMul (ET 8 [a; (0 + z); (1 + z); (2 + z)]) (ET 10 [(1 + z); (2 + z); i; (0 + z)]))))))).
Definition r_cc2_dT_a_9 (z a i : nat) : ex := (EAdd (r_cc2_dT_a_8 (0 + z) a i) (ESum (0 + z) 2 (ESum (1 + z) 1 (ESum (2 + z) 3 (EMul (ET 9 [a; (0 + z); (1 + z); (2 + z)]) (ET 11 [(1 + z); (2 + z); i; (0 + z)])))))).
Definition r_cc2_res_a (z a i : nat) : ex := (EAdd (r_cc2_dT_a_9 (0 + z) a i) (ET 24 [a; i])).
Definition r_cc2_dT_b (z a i : nat) : ex := (EOpp (ESum (0 + z) 2 (EMul (r_cc2_X_b_oo (1 + z) (0 + z) i) (ET 4 [a; (0 + z)])))).
Definition r_cc2_dT_b_1 (z a i : nat) : ex := (EAdd (r_cc2_dT_b (0 + z) a i) (ESum (0 + z) 3 (EMul (r_cc2_X_b_vv (1 + z) a (0 + z)) (ET 4 [(0 + z); i])))).
Definition r_cc2_dT_b_2 (z a i : nat) : ex := (EAdd (r_cc2_dT_b_1 (0 + z) a i) (ESum (0 + z) 2 (ESum (1 + z) 3 (EMul (ET 25 [a; (0 + z); i; (1 + z)]) (ET 4 [(1 + z); (0 + z)]))))).
Definition r_cc2_dT_b_3 (z a i : nat) : ex := (EAdd (r_cc2_dT_b_2 (0 + z) a i) (ESum (0 + z) 0 (ESum (1 + z) 1 (EMul (ET 26 [(0 + z); a; (1 + z); i]) (ET 2 [(1 + z); (0 + z)]))))).
Definition r_cc2_dT_b_4 (z a i : nat) : ex := (EAdd (r_cc2_dT_b_3 (0 + z) a i) (ESum (0 + z) 0 (ESum (1 + z) 1 (EMul (r_cc2_X_a_ov (2 + z) (0 + z) (1 + z)) (ET 11 [(1 + z); a; (0 + z); i]))))).
Definition r_cc2_dT_b_5 (z a i : nat) : ex := (EAdd (r_cc2_dT_b_4 (0 + z) a i) (ESum (0 + z) 2 (ESum (1 + z) 3 (EMul (r_cc2_X_b_ov (2 + z) (0 + z) (1 + z)) (ET 18 [a; (1 + z); i; (0 + z)]))))).
Definition r_cc2_dT_b_6 (z a i : nat) : ex := (ESub (r_cc2_dT_b_5 (0 + z) a i) (EScale (1) 2 (ESum (0 + z) 2 (ESum (1 + z) 2 (ESum (2 + z) 3 (EMul (ET 20 [(0 + z); (1 + z); i; (2 + z)]) (ET 18 [a; (2 + z); (0 + z); (1 + z)]))))))).
Definition r_cc2_dT_b_7 (z a i : nat) : ex := (ESub (r_cc2_dT_b_6 (0 + z) a i) (ESum (0 + z) 0 (ESum (1 + z) 2 (ESum (2 + z) 1 (EMul (ET 21 [(0 + z); (1 + z); (2 + z); i]) (ET 11 [(2 + z); a; (0 + z); (1 + z)])))))).
Definition r_cc2_dT_b_8 (z a i : nat) : ex := (EAdd (r_cc2_dT_b_7 (0 + z) a i) (EScale (1) 2 (ESum (0 + z) 2 (ESum (1 + z) 3 (ESum (2 + z) 3 (EMul (ET 16 [a; (0 + z); (1 + z); (2 + z)]) (ET 18 [(1 + z); (2 + z); i; (0 + z)]))))))).
Definition r_cc2_dT_b_9 (z a i : nat) : ex := (EAdd (r_cc2_dT_b_8 (0 + z) a i) (ESum (0 + z) 0 (ESum (1 + z) 1 (ESum (2 + z) 3 (EMul (ET 17 [(0 + z); a; (1 + z); (2 + z)]) (ET 11 [(1 + z); (2 + z); (0 + z); i])))))).
Definition r_cc2_res_b (z a i : nat) : ex := (EAdd (r_cc2_dT_b_9 (0 + z) a i) (ET 27 [a; i])).
Definition r_cc2_X_a_vv_1 (z a e : nat) : ex := (ESub (r_cc2_X_a_vv (0 + z) a e) (ESum (0 + z) 0 (EMul (r_cc2_X_a_ov (1 + z) (0 + z) e) (ET 2 [a; (0 + z)])))).
Definition r_cc2_X_b_vv_1 (z a e : nat) : ex := (ESub (r_cc2_X_b_vv (0 + z) a e) (ESum (0 + z) 2 (EMul (r_cc2_X_b_ov (1 + z) (0 + z) e) (ET 4 [a; (0 + z)])))).
Definition r_cc2_X_aa_ooov (z m n i e : nat) : ex := (ESum (0 + z) 1 (EMul (ET 1 [m; n; (0 + z); e]) (ET 2 [(0 + z); i]))).
Definition r_cc2_X_aa_vovv (z a m e f : nat) : ex := (EOpp (ESum (0 + z) 0 (EMul (ET 1 [m; (0 + z); f; e]) (ET 2 [a; (0 + z)])))).
Definition r_cc2_X_aa_oooo (z m n i j : nat) : ex := (EAdd (EScale (1) 2 (ET 28 [m; n; i; j])) (ESum (0 + z) 1 (EMul (EAdd (ET 13 [n; m; j; (0 + z)]) (EScale (1) 2 (r_cc2_X_aa_ooov (1 + z) n m j (0 + z)))) (ET 2 [(0 + z); i])))).
Definition r_cc2_X_aa_oooo_1 (z m n i j : nat) : ex := (ESub (r_cc2_X_aa_oooo (0 + z) m n i j) (r_cc2_X_aa_oooo (0 + z) m n j i)).
Definition r_cc2_X_aa_voov (z a m i e : nat) : ex := (EAdd (ET 22 [a; m; i; e]) (ESub (ESum (0 + z) 1 (EMul (EAdd (ET 8 [a; m; (0 + z); e]) (EScale (1) 2 (r_cc2_X_aa_vovv (1 + z) a m (0 + z) e))) (ET 2 [(0 + z); i]))) (ESum (0 + z) 0 (EMul (EAdd (ET 13 [(0 + z); m; i; e]) (EScale (1) 2 (r_cc2_X_aa_ooov (1 + z) (0 + z) m i e))) (ET 2 [a; (0 + z)]))))).
Definition r_cc2_L_amie (z a m i f : nat) : ex := (EAdd (ET 22 [a; m; i; f]) (EScale (1) 2 (ESum (0 + z) 1 (EMul (ET 8 [a; m; (0 + z); f]) (ET 2 [(0 + z); i]))))).
Definition r_cc2_X_mnij (z m n i j : nat) : ex := (EAdd (ET 28 [m; n; i; j]) (ESum (0 + z) 1 (EMul (r_cc2_X_aa_ooov (1 + z) m n i (0 + z)) (ET 2 [(0 + z); j])))).
Definition r_cc2_X_aa_vooo (z a m i j : nat) : ex := (EAdd (EScale (1) 2 (ET 29 [a; m; i; j])) (ESub (ESum (0 + z) 1 (EMul (r_cc2_L_amie (1 + z) a m i (0 + z)) (ET 2 [(0 + z); j]))) (EScale (1) 4 (ESum (0 + z) 0 (EMul (r_cc2_X_mnij (1 + z) (0 + z) m i j) (ET 2 [a; (0 + z)])))))).
Definition r_cc2_X_aa_vooo_1 (z a m i j : nat) : ex := (ESub (r_cc2_X_aa_vooo (0 + z) a m i j) (r_cc2_X_aa_vooo (0 + z) a m j i)).
Definition r_cc2_L_amie_1 (z a n i e : nat) : ex := (ESum (0 + z) 0 (EMul (ET 13 [(0 + z); n; i; e]) (ET 2 [a; (0 + z)]))).
Definition r_cc2_X_aa_vvov (z a b i e : nat) : ex := (EAdd (ET 30 [a; b; i; e]) (ESum (0 + z) 0 (EMul (r_cc2_L_amie_1 (1 + z) a (0 + z) i e) (ET 2 [b; (0 + z)])))).
Definition r_cc2_X_bb_ooov (z m n i e : nat) : ex := (ESum (0 + z) 3 (EMul (ET 6 [m; n; (0 + z); e]) (ET 4 [(0 + z); i]))).
Definition r_cc2_X_bb_oooo (z m n i j : nat) : ex := (EAdd (EScale (1) 2 (ET 31 [m; n; i; j])) (ESum (0 + z) 3 (EMul (EAdd (ET 20 [n; m; j; (0 + z)]) (EScale (1) 2 (r_cc2_X_bb_ooov (1 + z) n m j (0 + z)))) (ET 4 [(0 + z); i])))).
Definition r_cc2_X_bb_oooo_1 (z m n i j : nat) : ex := (ESub (r_cc2_X_bb_oooo (0 + z) m n i j) (r_cc2_X_bb_oooo (0 + z) m n j i)).
Definition r_cc2_X_bb_vovv (z a m e f : nat) : ex := (EOpp (ESum (0 + z) 2 (EMul (ET 6 [m; (0 + z); f; e]) (ET 4 [a; (0 + z)])))).
Definition r_cc2_X_bb_voov (z a m i e : nat) : ex := (EAdd (ET 25 [a; m; i; e]) (ESub (ESum (0 + z) 3 (EMul (EAdd (ET 16 [a; m; (0 + z); e]) (EScale (1) 2 (r_cc2_X_bb_vovv (1 + z) a m (0 + z) e))) (ET 4 [(0 + z); i]))) (ESum (0 + z) 2 (EMul (EAdd (ET 20 [(0 + z); m; i; e]) (EScale (1) 2 (r_cc2_X_bb_ooov (1 + z) (0 + z) m i e))) (ET 4 [a; (0 + z)]))))).
Definition r_cc2_L_amie_2 (z a m i f : nat) : ex := (EAdd (ET 25 [a; m; i; f]) (EScale (1) 2 (ESum (0 + z) 3 (EMul (ET 16 [a; m; (0 + z); f]) (ET 4 [(0 + z); i]))))).
Definition r_cc2_X_mnij_1 (z m n i j : nat) : ex := (EAdd (ET 31 [m; n; i; j]) (ESum (0 + z) 3 (EMul (r_cc2_X_bb_ooov (1 + z) m n i (0 + z)) (ET 4 [(0 + z); j])))).
Definition r_cc2_X_bb_vooo (z a m i j : nat) : ex := (EAdd (EScale (1) 2 (ET 32 [a; m; i; j])) (ESub (ESum (0 + z) 3 (EMul (r_cc2_L_amie_2 (1 + z) a m i (0 + z)) (ET 4 [(0 + z); j]))) (EScale (1) 4 (ESum (0 + z) 2 (EMul (r_cc2_X_mnij_1 (1 + z) (0 + z) m i j) (ET 4 [a; (0 + z)])))))).
Definition r_cc2_X_bb_vooo_1 (z a m i j : nat) : ex := (ESub (r_cc2_X_bb_vooo (0 + z) a m i j) (r_cc2_X_bb_vooo (0 + z) a m j i)).
Definition r_cc2_L_amie_3 (z a n i e : nat) : ex := (ESum (0 + z) 2 (EMul (ET 20 [(0 + z); n; i; e]) (ET 4 [a; (0 + z)]))).
Definition r_cc2_X_bb_vvov (z a b i e : nat) : ex := (EAdd (ET 33 [a; b; i; e]) (ESum (0 + z) 2 (EMul (r_cc2_L_amie_3 (1 + z) a (0 + z) i e) (ET 4 [b; (0 + z)])))).
Definition r_cc2_X_ab_ooov (z m n i e : nat) : ex := (ESum (0 + z) 1 (EMul (ET 3 [m; n; (0 + z); e]) (ET 2 [(0 + z); i]))).
Definition r_cc2_X_ab_oovo (z n m e i : nat) : ex := (ESum (0 + z) 3 (EMul (ET 3 [n; m; e; (0 + z)]) (ET 4 [(0 + z); i]))).
Definition r_cc2_X_ab_oooo (z m n i j : nat) : ex := (EAdd (ET 34 [m; n; i; j]) (EAdd (ESum (0 + z) 1 (EMul (EAdd (ET 21 [m; n; (0 + z); j]) (EScale (1) 2 (r_cc2_X_ab_oovo (1 + z) m n (0 + z) j))) (ET 2 [(0 + z); i]))) (ESum (0 + z) 3 (EMul (EAdd (ET 14 [m; n; i; (0 + z)]) (EScale (1) 2 (r_cc2_X_ab_ooov (1 + z) m n i (0 + z)))) (ET 4 [(0 + z); j]))))).
Definition r_cc2_X_ab_vovv (z a m e f : nat) : ex := (EOpp (ESum (0 + z) 0 (EMul (ET 3 [(0 + z); m; e; f]) (ET 2 [a; (0 + z)])))).
Definition r_cc2_X_ab_ovvv (z m a e f : nat) : ex := (EOpp (ESum (0 + z) 2 (EMul (ET 3 [m; (0 + z); e; f]) (ET 4 [a; (0 + z)])))).
Definition r_cc2_X_ab_voov (z a m i e : nat) : ex := (EAdd (ET 23 [a; m; i; e]) (ESub (ESum (0 + z) 1 (EMul (EAdd (ET 9 [a; m; (0 + z); e]) (EScale (1) 2 (r_cc2_X_ab_vovv (1 + z) a m (0 + z) e))) (ET 2 [(0 + z); i]))) (ESum (0 + z) 0 (EMul (EAdd (ET 14 [(0 + z); m; i; e]) (EScale (1) 2 (r_cc2_X_ab_ooov (1 + z) (0 + z) m i e))) (ET 2 [a; (0 + z)]))))).
Definition r_cc2_X_ab_ovvo (z m a e i : nat) : ex := (EAdd (ET 26 [m; a; e; i]) (ESub (ESum (0 + z) 3 (EMul (EAdd (ET 17 [m; a; e; (0 + z)]) (EScale (1) 2 (r_cc2_X_ab_ovvv (1 + z) m a e (0 + z)))) (ET 4 [(0 + z); i]))) (ESum (0 + z) 2 (EMul (EAdd (ET 21 [m; (0 + z); e; i]) (EScale (1) 2 (r_cc2_X_ab_oovo (1 + z) m (0 + z) e i))) (ET 4 [a; (0 + z)]))))).
Definition r_cc2_X_ab_ovov (z m a i e : nat) : ex := (EAdd (ET 35 [m; a; i; e]) (ESub (ESum (0 + z) 1 (EMul (EAdd (ET 17 [m; a; (0 + z); e]) (EScale (1) 2 (r_cc2_X_ab_ovvv (1 + z) m a (0 + z) e))) (ET 2 [(0 + z); i]))) (ESum (0 + z) 2 (EMul (EAdd (ET 14 [m; (0 + z); i; e]) (EScale (1) 2 (r_cc2_X_ab_ooov (1 + z) m (0 + z) i e))) (ET 4 [a; (0 + z)]))))).
Definition r_cc2_X_ab_vovo (z a m e i : nat) : ex := (ESub (ET 36 [a; m; e; i]) (ESub (ESum (0 + z) 0 (EMul (EAdd (ET 21 [(0 + z); m; e; i]) (EScale (1) 2 (r_cc2_X_ab_oovo (1 + z) (0 + z) m e i))) (ET 2 [a; (0 + z)]))) (ESum (0 + z) 3 (EMul (EAdd (ET 9 [a; m; e; (0 + z)]) (EScale (1) 2 (r_cc2_X_ab_vovv (1 + z) a m e (0 + z)))) (ET 4 [(0 + z); i]))))).
Definition r_cc2_X_mnij_2 (z m n i j : nat) : ex := (EAdd (ET 34 [m; n; i; j]) (EAdd (ESum (0 + z) 3 (EMul (ET 14 [m; n; i; (0 + z)]) (ET 4 [(0 + z); j]))) (ESum (0 + z) 1 (EMul (ET 21 [m; n; (0 + z); j]) (ET 2 [(0 + z); i]))))).
Definition r_cc2_L_mbej (z m b e j : nat) : ex := (EAdd (ET 26 [m; b; e; j]) (ESum (0 + z) 3 (EMul (ET 17 [m; b; e; (0 + z)]) (ET 4 [(0 + z); j])))).
Definition r_cc2_X_ab_ovoo (z m b i j : nat) : ex := (EAdd (ET 37 [m; b; i; j]) (ESub (ESum (0 + z) 1 (EMul (r_cc2_L_mbej (1 + z) m b (0 + z) j) (ET 2 [(0 + z); i]))) (ESum (0 + z) 2 (EMul (r_cc2_X_mnij_2 (1 + z) m (0 + z) i j) (ET 4 [b; (0 + z)]))))).
Definition r_cc2_L_amie_4 (z a m i f : nat) : ex := (ESum (0 + z) 1 (EMul (EAdd (ET 9 [a; m; (0 + z); f]) (r_cc2_X_ab_vovv (1 + z) a m (0 + z) f)) (ET 2 [(0 + z); i]))).
Definition r_cc2_X_ab_vooo (z a m i j : nat) : ex := (EAdd (ET 38 [a; m; i; j]) (ESum (0 + z) 3 (EMul (EAdd (ET 23 [a; m; i; (0 + z)]) (r_cc2_L_amie_4 (1 + z) a m i (0 + z))) (ET 4 [(0 + z); j])))).
Definition r_cc2_X_ab_vvvo (z a b e j : nat) : ex := (ESub (ET 39 [a; b; e; j]) (ESum (0 + z) 2 (EMul (ET 36 [a; (0 + z); e; j]) (ET 4 [b; (0 + z)])))).
Definition r_cc2_X_ab_vvov (z a b i e : nat) : ex := (ESub (ET 40 [a; b; i; e]) (ESum (0 + z) 0 (EMul (ET 35 [(0 + z); b; i; e]) (ET 2 [a; (0 + z)])))).
Definition r_cc2_X_aa_vvov_1 (z a b i e : nat) : ex := (EAdd (r_cc2_X_aa_vvov (0 + z) a b i e) (EScale (1) 2 (ESum (0 + z) 1 (EMul (ET 41 [a; b; (0 + z); e]) (ET 2 [(0 + z); i]))))).
Definition r_cc2_X_ab_vvov_1 (z a b i e : nat) : ex := (EAdd (r_cc2_X_ab_vvov (0 + z) a b i e) (ESum (0 + z) 1 (EMul (ET 42 [a; b; (0 + z); e]) (ET 2 [(0 + z); i])))).
Definition r_cc2_X_bb_vvov_1 (z a b i e : nat) : ex := (EAdd (r_cc2_X_bb_vvov (0 + z) a b i e) (EScale (1) 2 (ESum (0 + z) 3 (EMul (ET 43 [a; b; (0 + z); e]) (ET 4 [(0 + z); i]))))).
Definition r_cc2_dT_aa (z a b i j : nat) : ex := (EScale (-1) 2 (ESum (0 + z) 0 (EMul (r_cc2_X_aa_vooo_1 (1 + z) a (0 + z) i j) (ET 2 [b; (0 + z)])))).
Definition r_cc2_dT_aa_1 (z a b i j : nat) : ex := (EAdd (r_cc2_dT_aa (0 + z) a b i j) (EScale (1) 2 (ESum (0 + z) 1 (EMul (r_cc2_X_aa_vvov_1 (1 + z) a b i (0 + z)) (ET 2 [(0 + z); j]))))).
Definition r_cc2_dT_aa_2 (z a b i j : nat) : ex := (ESub (r_cc2_dT_aa_1 (0 + z) a b i j) (EScale (1) 2 (ESum (0 + z) 0 (EMul (ET 12 [(0 + z); i]) (ET 10 [a; b; (0 + z); j]))))).
Definition r_cc2_dT_aa_3 (z a b i j : nat) : ex := (EAdd (r_cc2_dT_aa_2 (0 + z) a b i j) (EScale (1) 2 (ESum (0 + z) 1 (EMul (ET 7 [a; (0 + z)]) (ET 10 [(0 + z); b; i; j]))))).
Definition r_cc2_res_aa (z a b i j : nat) : ex := (EAdd (r_cc2_dT_aa_3 (0 + z) a b i j) (EScale (1) 4 (ET 44 [a; b; i; j]))).
Definition r_cc2_dT_ab (z a b i j : nat) : ex := (EOpp (ESum (0 + z) 0 (EMul (r_cc2_X_ab_ovoo (1 + z) (0 + z) b i j) (ET 2 [a; (0 + z)])))).
Definition r_cc2_dT_ab_1 (z a b i j : nat) : ex := (ESub (r_cc2_dT_ab (0 + z) a b i j) (ESum (0 + z) 2 (EMul (r_cc2_X_ab_vooo (1 + z) a (0 + z) i j) (ET 4 [b; (0 + z)])))).
Definition r_cc2_dT_ab_2 (z a b i j : nat) : ex := (EAdd (r_cc2_dT_ab_1 (0 + z) a b i j) (ESum (0 + z) 1 (EMul (r_cc2_X_ab_vvvo (1 + z) a b (0 + z) j) (ET 2 [(0 + z); i])))).
Definition r_cc2_dT_ab_3 (z a b i j : nat) : ex := (EAdd (r_cc2_dT_ab_2 (0 + z) a b i j) (ESum (0 + z) 3 (EMul (r_cc2_X_ab_vvov_1 (1 + z) a b i (0 + z)) (ET 4 [(0 + z); j])))).
Definition r_cc2_dT_ab_4 (z a b i j : nat) : ex := (ESub (r_cc2_dT_ab_3 (0 + z) a b i j) (ESum (0 + z) 0 (EMul (ET 12 [(0 + z); i]) (ET 11 [a; b; (0 + z); j])))).
Definition r_cc2_dT_ab_5 (z a b i j : nat) : ex := (ESub (r_cc2_dT_ab_4 (0 + z) a b i j) (ESum (0 + z) 2 (EMul (ET 19 [(0 + z); j]) (ET 11 [a; b; i; (0 + z)])))).
Definition r_cc2_dT_ab_6 (z a b i j : nat) : ex := (EAdd (r_cc2_dT_ab_5 (0 + z) a b i j) (ESum (0 + z) 1 (EMul (ET 7 [a; (0 + z)]) (ET 11 [(0 + z); b; i; j])))).
Definition r_cc2_dT_ab_7 (z a b i j : nat) : ex := (EAdd (r_cc2_dT_ab_6 (0 + z) a b i j) (ESum (0 + z) 3 (EMul (ET 15 [b; (0 + z)]) (ET 11 [a; (0 + z); i; j])))).
Definition r_cc2_res_ab (z a b i j : nat) : ex := (EAdd (r_cc2_dT_ab_7 (0 + z) a b i j) (ET 45 [a; b; i; j])).
Definition r_cc2_dT_bb (z a b i j : nat) : ex := (EScale (-1) 2 (ESum (0 + z) 2 (EMul (r_cc2_X_bb_vooo_1 (1 + z) a (0 + z) i j) (ET 4 [b; (0 + z)])))).
Definition r_cc2_dT_bb_1 (z a b i j : nat) : ex := (EAdd (r_cc2_dT_bb (0 + z) a b i j) (EScale (1) 2 (ESum (0 + z) 3 (EMul (r_cc2_X_bb_vvov_1 (1 + z) a b i (0 + z)) (ET 4 [(0 + z); j]))))).
Definition r_cc2_dT_bb_2 (z a b i j : nat) : ex := (ESub (r_cc2_dT_bb_1 (0 + z) a b i j) (EScale (1) 2 (ESum (0 + z) 2 (EMul (ET 19 [(0 + z); i]) (ET 18 [a; b; (0 + z); j]))))).
Definition r_cc2_dT_bb_3 (z a b i j : nat) : ex := (EAdd (r_cc2_dT_bb_2 (0 + z) a b i j) (EScale (1) 2 (ESum (0 + z) 3 (EMul (ET 15 [a; (0 + z)]) (ET 18 [(0 + z); b; i; j]))))).
Definition r_cc2_res_bb (z a b i j : nat) : ex := (EAdd (r_cc2_dT_bb_3 (0 + z) a b i j) (EScale (1) 4 (ET 46 [a; b; i; j]))).
Definition r_ccsd_X_a_ov (z m e : nat) : ex := (EAdd (ET 0 [m; e]) (EAdd (ESum (0 + z) 0 (ESum (1 + z) 1 (EMul (ET 1 [m; (0 + z); e; (1 + z)]) (ET 2 [(1 + z); (0 + z)])))) (ESum (0 + z) 2 (ESum (1 + z) 3 (EMul (ET 3 [m; (0 + z); e; (1 + z)]) (ET 4 [(1 + z); (0 + z)])))))).
Definition r_ccsd_X_b_ov (z m e : nat) : ex := (EAdd (ET 5 [m; e]) (EAdd (ESum (0 + z) 0 (ESum (1 + z) 1 (EMul (ET 3 [(0 + z); m; (1 + z); e]) (ET 2 [(1 + z); (0 + z)])))) (ESum (0 + z) 2 (ESum (1 + z) 3 (EMul (ET 6 [m; (0 + z); e; (1 + z)]) (ET 4 [(1 + z); (0 + z)])))))).
Definition r_ccsd_X_a_vv (z a e : nat) : ex := (EAdd (ET 7 [a; e]) (ESub (ESub (EAdd (ESum (0 + z) 0 (ESum (1 + z) 1 (EMul (ET 8 [a; (0 + z); e; (1 + z)]) (ET 2 [(1 + z); (0 + z)])))) (ESum (0 + z) 2 (ESum (1 + z) 3 (EMul (ET 9 [a; (0 + z); e; (1 + z)]) (ET 4 [(1 + z); (0 + z)]))))) (EScale (1) 2 (ESum (0 + z) 0 (ESum (1 + z) 0 (ESum (2 + z) 1 (EMul (ET 1 [(0 + z); (1 + z); e; (2 + z)]) (ET 10 [a; (2 + z); (0 + z); (1 + z)]))))))) (ESum (0 + z) 0 (ESum (1 + z) 2 (ESum (2 + z) 3 (EMul (ET 3 [(0 + z); (1 + z); e; (2 + z)]) (ET 11 [a; (2 + z); (0 + z); (1 + z)]))))))).
Definition r_ccsd_X_a_oo (z m i : nat) : ex := (EAdd (ET 12 [m; i]) (EAdd (EAdd (EAdd (EAdd (ESum (0 + z) 0 (ESum (1 + z) 1 (EMul (ET 13 [m; (0 + z); i; (1 + z)]) (ET 2 [(1 + z); (0 + z)])))) (ESum (0 + z) 2 (ESum (1 + z) 3 (EMul (ET 14 [m; (0 + z); i; (1 + z)]) (ET 4 [(1 + z); (0 + z)]))))) (ESum (0 + z) 1 (EMul (r_ccsd_X_a_ov (1 + z) m (0 + z)) (ET 2 [(0 + z); i])))) (EScale (1) 2 (ESum (0 + z) 0 (ESum (1 + z) 1 (ESum (2 + z) 1 (EMul (ET 1 [m; (0 + z); (1 + z); (2 + z)]) (ET 10 [(1 + z); (2 + z); i; (0 + z)]))))))) (ESum (0 + z) 2 (ESum (1 + z) 1 (ESum (2 + z) 3 (EMul (ET 3 [m; (0 + z); (1 + z); (2 + z)]) (ET 11 [(1 + z); (2 + z); i; (0 + z)]))))))).
Definition r_ccsd_X_b_vv (z a e : nat) : ex := (EAdd (ET 15 [a; e]) (ESub (ESub (EAdd (ESum (0 + z) 2 (ESum (1 + z) 3 (EMul (ET 16 [a; (0 + z); e; (1 + z)]) (ET 4 [(1 + z); (0 + z)])))) (ESum (0 + z) 0 (ESum (1 + z) 1 (EMul (ET 17 [(0 + z); a; (1 + z); e]) (ET 2 [(1 + z); (0 + z)]))))) (EScale (1) 2 (ESum (0 + z) 2 (ESum (1 + z) 2 (ESum (2 + z) 3 (EMul (ET 6 [(0 + z); (1 + z); e; (2 + z)]) (ET 18 [a; (2 + z); (0 + z); (1 + z)]))))))) (ESum (0 + z) 0 (ESum (1 + z) 2 (ESum (2 + z) 1 (EMul (ET 3 [(0 + z); (1 + z); (2 + z); e]) (ET 11 [(2 + z); a; (0 + z); (1 + z)]))))))).
Definition r_ccsd_X_b_oo (z m i : nat) : ex := (EAdd (ET 19 [m; i]) (EAdd (EAdd (EAdd (EAdd (ESum (0 + z) 2 (ESum (1 + z) 3 (EMul (ET 20 [m; (0 + z); i; (1 + z)]) (ET 4 [(1 + z); (0 + z)])))) (ESum (0 + z) 0 (ESum (1 + z) 1 (EMul (ET 21 [(0 + z); m; (1 + z); i]) (ET 2 [(1 + z); (0 + z)]))))) (ESum (0 + z) 3 (EMul (r_ccsd_X_b_ov (1 + z) m (0 + z)) (ET 4 [(0 + z); i])))) (EScale (1) 2 (ESum (0 + z) 2 (ESum (1 + z) 3 (ESum (2 + z) 3 (EMul (ET 6 [m; (0 + z); (1 + z); (2 + z)]) (ET 18 [(1 + z); (2 + z); i; (0 + z)]))))))) (ESum (0 + z) 0 (ESum (1 + z) 1 (ESum (2 + z) 3 (EMul (ET 3 [(0 + z); m; (1 + z); (2 + z)]) (ET 11 [(1 + z); (2 + z); (0 + z); i]))))))).
Definition r_ccsd_dT_a (z a i : nat) : ex := (EOpp (ESum (0 + z) 0 (EMul (r_ccsd_X_a_oo (1 + z) (0 + z) i) (ET 2 [a; (0 + z)])))).
Definition r_ccsd_dT_a_1 (z a i : nat) : ex := (EAdd (r_ccsd_dT_a (0 + z) a i) (ESum (0 + z) 1 (EMul (r_ccsd_X_a_vv (1 + z) a (0 + z)) (ET 2 [(0 + z); i])))).
Definition r_ccsd_dT_a_2 (z a i : nat) : ex := (EAdd (r_ccsd_dT_a_1 (0 + z) a i) (ESum (0 + z) 0 (ESum (1 + z) 1 (EMul (r_ccsd_X_a_ov (2 + z) (0 + z) (1 + z)) (ET 10 [a; (1 + z); i; (0 + z)]))))).
Definition r_ccsd_dT_a_3 (z a i : nat) : ex := (EAdd (r_ccsd_dT_a_2 (0 + z) a i) (ESum (0 + z) 2 (ESum (1 + z) 3 (EMul (r_ccsd_X_b_ov (2 + z) (0 + z) (1 + z)) (ET 11 [a; (1 + z); i; (0 + z)]))))).
Definition r_ccsd_dT_a_4 (z a i : nat) : ex := (EAdd (r_ccsd_dT_a_3 (0 + z) a i) (ESum (0 + z) 0 (ESum (1 + z) 1 (EMul (ET 22 [a; (0 + z); i; (1 + z)]) (ET 2 [(1 + z); (0 + z)]))))).
Definition r_ccsd_dT_a_5 (z a i : nat) : ex := (EAdd (r_ccsd_dT_a_4 (0 + z) a i) (ESum (0 + z) 2 (ESum (1 + z) 3 (EMul (ET 23 [a; (0 + z); i; (1 + z)]) (ET 4 [(1 + z); (0 + z)]))))).
Definition r_ccsd_dT_a_6 (z a i : nat) : ex := (ESub (r_ccsd_dT_a_5 (0 + z) a i) (EScale (1) 2 (ESum (0 + z) 0 (ESum (1 + z) 0 (ESum (2 + z) 1 (EMul (ET 13 [(0 + z); (1 + z); i; (2 + z)]) (ET 10 [a; (2 + z); (0 + z); (1 + z)]))))))).
Definition r_ccsd_dT_a_7 (z a i : nat) : ex := (ESub (r_ccsd_dT_a_6 (0 + z) a i) (ESum (0 + z) 0 (ESum (1 + z) 2 (ESum (2 + z) 3 (EMul (ET 14 [(0 + z); (1 + z); i; (2 + z)]) (ET 11 [a; (2 + z); (0 + z); (1 + z)])))))).
Definition r_ccsd_dT_a_8 (z a i : nat) : ex := (EAdd (r_ccsd_dT_a_7 (0 + z) a i) (EScale (1) 2 (ESum (0 + z) 0 (ESum (1 + z) 1 (ESum (2 + z) 1 (EMul (ET 8 [a; (0 + z); (1 + z); (2 + z)]) (ET 10 [(1 + z); (2 + z); i; (0 + z)]))))))).
Definition r_ccsd_dT_a_9 (z a i : nat) : ex := (EAdd (r_ccsd_dT_a_8 (0 + z) a i) (ESum (0 + z) 2 (ESum (1 + z) 1 (ESum (2 + z) 3 (EMul (ET 9 [a; (0 + z); (1 + z); (2 + z)]) (ET 11 [(1 + z); (2 + z); i; (0 + z)])))))).
Definition r_ccsd_res_a (z a i : nat) : ex := (EAdd (r_ccsd_dT_a_9 (0 + z) a i) (ET 24 [a; i])).
Definition r_ccsd_dT_b (z a i : nat) : ex := (EOpp (ESum (0 + z) 2 (EMul (r_ccsd_X_b_oo (1 + z) (0 + z) i) (ET 4 [a; (0 + z)])))).
Definition r_ccsd_dT_b_1 (z a i : nat) : ex := (EAdd (r_ccsd_dT_b (0 + z) a i) (ESum (0 + z) 3 (EMul (r_ccsd_X_b_vv (1 + z) a (0 + z)) (ET 4 [(0 + z); i])))).
Definition r_ccsd_dT_b_2 (z a i : nat) : ex := (EAdd (r_ccsd_dT_b_1 (0 + z) a i) (ESum (0 + z) 2 (ESum (1 + z) 3 (EMul (ET 25 [a; (0 + z); i; (1 + z)]) (ET 4 [(1 + z); (0 + z)]))))).
Definition r_ccsd_dT_b_3 (z a i : nat) : ex := (EAdd (r_ccsd_dT_b_2 (0 + z) a i) (ESum (0 + z) 0 (ESum (1 + z) 1 (EMul (ET 26 [(0 + z); a; (1 + z); i]) (ET 2 [(1 + z); (0 + z)]))))).
Definition r_ccsd_dT_b_4 (z a i : nat) : ex := (EAdd (r_ccsd_dT_b_3 (0 + z) a i) (ESum (0 + z) 0 (ESum (1 + z) 1 (EMul (r_ccsd_X_a_ov (2 + z) (0 + z) (1 + z)) (ET 11 [(1 + z); a; (0 + z); i]))))).
Definition r_ccsd_dT_b_5 (z a i : nat) : ex := (EAdd (r_ccsd_dT_b_4 (0 + z) a i) (ESum (0 + z) 2 (ESum (1 + z) 3 (EMul (r_ccsd_X_b_ov (2 + z) (0 + z) (1 + z)) (ET 18 [a; (1 + z); i; (0 + z)]))))).
Definition r_ccsd_dT_b_6 (z a i : nat) : ex := (ESub (r_ccsd_dT_b_5 (0 + z) a i) (EScale (1) 2 (ESum (0 + z) 2 (ESum (1 + z) 2 (ESum (2 + z) 3 (EMul (ET 20 [(0 + z); (1 + z); i; (2 + z)]) (ET 18 [a; (2 + z); (0 + z); (1 + z)]))))))).
Definition r_ccsd_dT_b_7 (z a i : nat) : ex := (ESub (r_ccsd_dT_b_6 (0 + z) a i) (ESum (0 + z) 0 (ESum (1 + z) 2 (ESum (2 + z) 1 (EMul (ET 21 [(0 + z); (1 + z); (2 + z); i]) (ET 11 [(2 + z); a; (0 + z); (1 + z)])))))).
Definition r_ccsd_dT_b_8 (z a i : nat) : ex := (EAdd (r_ccsd_dT_b_7 (0 + z) a i) (EScale (1) 2 (ESum (0 + z) 2 (ESum (1 + z) 3 (ESum (2 + z) 3 (EMul (ET 16 [a; (0 + z); (1 + z); (2 + z)]) (ET 18 [(1 + z); (2 + z); i; (0 + z)]))))))).
Definition r_ccsd_dT_b_9 (z a i : nat) : ex := (EAdd (r_ccsd_dT_b_8 (0 + z) a i) (ESum (0 + z) 0 (ESum (1 + z) 1 (ESum (2 + z) 3 (EMul (ET 17 [(0 + z); a; (1 + z); (2 + z)]) (ET 11 [(1 + z); (2 + z); (0 + z); i])))))).
Definition r_ccsd_res_b (z a i : nat) : ex := (EAdd (r_ccsd_dT_b_9 (0 + z) a i) (ET 27 [a; i])).
Definition r_ccsd_X_a_vv_1 (z a e : nat) : ex := (ESub (r_ccsd_X_a_vv (0 + z) a e) (ESum (0 + z) 0 (EMul (r_ccsd_X_a_ov (1 + z) (0 + z) e) (ET 2 [a; (0 + z)])))).
Definition r_ccsd_X_b_vv_1 (z a e : nat) : ex := (ESub (r_ccsd_X_b_vv (0 + z) a e) (ESum (0 + z) 2 (EMul (r_ccsd_X_b_ov (1 + z) (0 + z) e) (ET 4 [a; (0 + z)])))).
Definition r_ccsd_X_aa_ooov (z m n i e : nat) : ex := (ESum (0 + z) 1 (EMul (ET 1 [m; n; (0 + z); e]) (ET 2 [(0 + z); i]))).
Definition r_ccsd_X_aa_vovv (z a m e f : nat) : ex := (EOpp (ESum (0 + z) 0 (EMul (ET 1 [m; (0 + z); f; e]) (ET 2 [a; (0 + z)])))).
Definition r_ccsd_X_aa_oooo (z m n i j : nat) : ex := (EAdd (EScale (1) 2 (ET 28 [m; n; i; j])) (ESum (0 + z) 1 (EMul (EAdd (ET 13 [n; m; j; (0 + z)]) (EScale (1) 2 (r_ccsd_X_aa_ooov (1 + z) n m j (0 + z)))) (ET 2 [(0 + z); i])))).
Definition r_ccsd_X_aa_oooo_1 (z m n i j : nat) : ex := (ESub (r_ccsd_X_aa_oooo (0 + z) m n i j) (r_ccsd_X_aa_oooo (0 + z) m n j i)).
Definition r_ccsd_X_aa_voov (z a m i e : nat) : ex := (EAdd (ET 22 [a; m; i; e]) (ESub (ESum (0 + z) 1 (EMul (EAdd (ET 8 [a; m; (0 + z); e]) (EScale (1) 2 (r_ccsd_X_aa_vovv (1 + z) a m (0 + z) e))) (ET 2 [(0 + z); i]))) (ESum (0 + z) 0 (EMul (EAdd (ET 13 [(0 + z); m; i; e]) (EScale (1) 2 (r_ccsd_X_aa_ooov (1 + z) (0 + z) m i e))) (ET 2 [a; (0 + z)]))))).
Definition r_ccsd_L_amie (z a m i f : nat) : ex := (EAdd (ET 22 [a; m; i; f]) (EScale (1) 2 (ESum (0 + z) 1 (EMul (ET 8 [a; m; (0 + z); f]) (ET 2 [(0 + z); i]))))).
Definition r_ccsd_X_mnij (z m n i j : nat) : ex := (EAdd (ET 28 [m; n; i; j]) (ESum (0 + z) 1 (EMul (r_ccsd_X_aa_ooov (1 + z) m n i (0 + z)) (ET 2 [(0 + z); j])))).
Definition r_ccsd_X_aa_vooo (z a m i j : nat) : ex := (EAdd (EScale (1) 2 (ET 29 [a; m; i; j])) (ESub (ESum (0 + z) 1 (EMul (r_ccsd_L_amie (1 + z) a m i (0 + z)) (ET 2 [(0 + z); j]))) (EScale (1) 4 (ESum (0 + z) 0 (EMul (r_ccsd_X_mnij (1 + z) (0 + z) m i j) (ET 2 [a; (0 + z)])))))).
Definition r_ccsd_X_aa_vooo_1 (z a m i j : nat) : ex := (ESub (r_ccsd_X_aa_vooo (0 + z) a m i j) (r_ccsd_X_aa_vooo (0 + z) a m j i)).
Definition r_ccsd_L_amie_1 (z a n i e : nat) : ex := (ESum (0 + z) 0 (EMul (ET 13 [(0 + z); n; i; e]) (ET 2 [a; (0 + z)]))).
Definition r_ccsd_X_aa_vvov (z a b i e : nat) : ex := (EAdd (ET 30 [a; b; i; e]) (ESum (0 + z) 0 (EMul (r_ccsd_L_amie_1 (1 + z) a (0 + z) i e) (ET 2 [b; (0 + z)])))).
Definition r_ccsd_X_bb_ooov (z m n i e : nat) : ex := (ESum (0 + z) 3 (EMul (ET 6 [m; n; (0 + z); e]) (ET 4 [(0 + z); i]))).
Definition r_ccsd_X_bb_oooo (z m n i j : nat) : ex := (EAdd (EScale (1) 2 (ET 31 [m; n; i; j])) (ESum (0 + z) 3 (EMul (EAdd (ET 20 [n; m; j; (0 + z)]) (EScale (1) 2 (r_ccsd_X_bb_ooov (1 + z) n m j (0 + z)))) (ET 4 [(0 + z); i])))).
Definition r_ccsd_X_bb_oooo_1 (z m n i j : nat) : ex := (ESub (r_ccsd_X_bb_oooo (0 + z) m n i j) (r_ccsd_X_bb_oooo (0 + z) m n j i)).
Definition r_ccsd_X_bb_vovv (z a m e f : nat) : ex := (EOpp (ESum (0 + z) 2 (EMul (ET 6 [m; (0 + z); f; e]) (ET 4 [a; (0 + z)])))).
Definition r_ccsd_X_bb_voov (z a m i e : nat) : ex := (EAdd (ET 25 [a; m; i; e]) (ESub (ESum (0 + z) 3 (EMul (EAdd (ET 16 [a; m; (0 + z); e]) (EScale (1) 2 (r_ccsd_X_bb_vovv (1 + z) a m (0 + z) e))) (ET 4 [(0 + z); i]))) (ESum (0 + z) 2 (EMul (EAdd (ET 20 [(0 + z); m; i; e]) (EScale (1) 2 (r_ccsd_X_bb_ooov (1 + z) (0 + z) m i e))) (ET 4 [a; (0 + z)]))))).
Definition r_ccsd_L_amie_2 (z a m i f : nat) : ex := (EAdd (ET 25 [a; m; i; f]) (EScale (1) 2 (ESum (0 + z) 3 (EMul (ET 16 [a; m; (0 + z); f]) (ET 4 [(0 + z); i]))))).
Definition r_ccsd_X_mnij_1 (z m n i j : nat) : ex := (EAdd (ET 31 [m; n; i; j]) (ESum (0 + z) 3 (EMul (r_ccsd_X_bb_ooov (1 + z) m n i (0 + z)) (ET 4 [(0 + z); j])))).
Definition r_ccsd_X_bb_vooo (z a m i j : nat) : ex := (EAdd (EScale (1) 2 (ET 32 [a; m; i; j])) (ESub (ESum (0 + z) 3 (EMul (r_ccsd_L_amie_2 (1 + z) a m i (0 + z)) (ET 4 [(0 + z); j]))) (EScale (1) 4 (ESum (0 + z) 2 (EMul (r_ccsd_X_mnij_1 (1 + z) (0 + z) m i j) (ET 4 [a; (0 + z)])))))).
Definition r_ccsd_X_bb_vooo_1 (z a m i j : nat) : ex := (ESub (r_ccsd_X_bb_vooo (0 + z) a m i j) (r_ccsd_X_bb_vooo (0 + z) a m j i)).
Definition r_ccsd_L_amie_3 (z a n i e : nat) : ex := (ESum (0 + z) 2 (EMul (ET 20 [(0 + z); n; i; e]) (ET 4 [a; (0 + z)]))).
Definition r_ccsd_X_bb_vvov (z a b i e : nat) : ex := (EAdd (ET 33 [a; b; i; e]) (ESum (0 + z) 2 (EMul (r_ccsd_L_amie_3 (1 + z) a (0 + z) i e) (ET 4 [b; (0 + z)])))).
Definition r_ccsd_X_ab_ooov (z m n i e : nat) : ex := (ESum (0 + z) 1 (EMul (ET 3 [m; n; (0 + z); e]) (ET 2 [(0 + z); i]))).
Definition r_ccsd_X_ab_oovo (z n m e i : nat) : ex := (ESum (0 + z) 3 (EMul (ET 3 [n; m; e; (0 + z)]) (ET 4 [(0 + z); i]))).
Definition r_ccsd_X_ab_oooo (z m n i j : nat) : ex := (EAdd (ET 34 [m; n; i; j]) (EAdd (ESum (0 + z) 1 (EMul (EAdd (ET 21 [m; n; (0 + z); j]) (EScale (1) 2 (r_ccsd_X_ab_oovo (1 + z) m n (0 + z) j))) (ET 2 [(0 + z); i]))) (ESum (0 + z) 3 (EMul (EAdd (ET 14 [m; n; i; (0 + z)]) (EScale (1) 2 (r_ccsd_X_ab_ooov (1 + z) m n i (0 + z)))) (ET 4 [(0 + z); j]))))).
Definition r_ccsd_X_ab_vovv (z a m e f : nat) : ex := (EOpp (ESum (0 + z) 0 (EMul (ET 3 [(0 + z); m; e; f]) (ET 2 [a; (0 + z)])))).
Definition r_ccsd_X_ab_ovvv (z m a e f : nat) : ex := (EOpp (ESum (0 + z) 2 (EMul (ET 3 [m; (0 + z); e; f]) (ET 4 [a; (0 + z)])))).
Definition r_ccsd_X_ab_voov (z a m i e : nat) : ex := (EAdd (ET 23 [a; m; i; e]) (ESub (ESum (0 + z) 1 (EMul (EAdd (ET 9 [a; m; (0 + z); e]) (EScale (1) 2 (r_ccsd_X_ab_vovv (1 + z) a m (0 + z) e))) (ET 2 [(0 + z); i]))) (ESum (0 + z) 0 (EMul (EAdd (ET 14 [(0 + z); m; i; e]) (EScale (1) 2 (r_ccsd_X_ab_ooov (1 + z) (0 + z) m i e))) (ET 2 [a; (0 + z)]))))).
Definition r_ccsd_X_ab_ovvo (z m a e i : nat) : ex := (EAdd (ET 26 [m; a; e; i]) (ESub (ESum (0 + z) 3 (EMul (EAdd (ET 17 [m; a; e; (0 + z)]) (EScale (1) 2 (r_ccsd_X_ab_ovvv (1 + z) m a e (0 + z)))) (ET 4 [(0 + z); i]))) (ESum (0 + z) 2 (EMul (EAdd (ET 21 [m; (0 + z); e; i]) (EScale (1) 2 (r_ccsd_X_ab_oovo (1 + z) m (0 + z) e i))) (ET 4 [a; (0 + z)]))))).
Definition r_ccsd_X_ab_ovov (z m a i e : nat) : ex := (EAdd (ET 35 [m; a; i; e]) (ESub (ESum (0 + z) 1 (EMul (EAdd (ET 17 [m; a; (0 + z); e]) (EScale (1) 2 (r_ccsd_X_ab_ovvv (1 + z) m a (0 + z) e))) (ET 2 [(0 + z); i]))) (ESum (0 + z) 2 (EMul (EAdd (ET 14 [m; (0 + z); i; e]) (EScale (1) 2 (r_ccsd_X_ab_ooov (1 + z) m (0 + z) i e))) (ET 4 [a; (0 + z)]))))).
Definition r_ccsd_X_ab_vovo (z a m e i : nat) : ex := (ESub (ET 36 [a; m; e; i]) (ESub (ESum (0 + z) 0 (EMul (EAdd (ET 21 [(0 + z); m; e; i]) (EScale (1) 2 (r_ccsd_X_ab_oovo (1 + z) (0 + z) m e i))) (ET 2 [a; (0 + z)]))) (ESum (0 + z) 3 (EMul (EAdd (ET 9 [a; m; e; (0 + z)]) (EScale (1) 2 (r_ccsd_X_ab_vovv (1 + z) a m e (0 + z)))) (ET 4 [(0 + z); i]))))).
Definition r_ccsd_X_mnij_2 (z m n i j : nat) : ex := (EAdd (ET 34 [m; n; i; j]) (EAdd (ESum (0 + z) 3 (EMul (ET 14 [m; n; i; (0 + z)]) (ET 4 [(0 + z); j]))) (ESum (0 + z) 1 (EMul (ET 21 [m; n; (0 + z); j]) (ET 2 [(0 + z); i]))))).
Definition r_ccsd_L_mbej (z m b e j : nat) : ex := (EAdd (ET 26 [m; b; e; j]) (ESum (0 + z) 3 (EMul (ET 17 [m; b; e; (0 + z)]) (ET 4 [(0 + z); j])))).
Definition r_ccsd_X_ab_ovoo (z m b i j : nat) : ex := (EAdd (ET 37 [m; b; i; j]) (ESub (ESum (0 + z) 1 (EMul (r_ccsd_L_mbej (1 + z) m b (0 + z) j) (ET 2 [(0 + z); i]))) (ESum (0 + z) 2 (EMul (r_ccsd_X_mnij_2 (1 + z) m (0 + z) i j) (ET 4 [b; (0 + z)]))))).
Definition r_ccsd_L_amie_4 (z a m i f : nat) : ex := (ESum (0 + z) 1 (EMul (EAdd (ET 9 [a; m; (0 + z); f]) (r_ccsd_X_ab_vovv (1 + z) a m (0 + z) f)) (ET 2 [(0 + z); i]))).
Definition r_ccsd_X_ab_vooo (z a m i j : nat) : ex := (EAdd (ET 38 [a; m; i; j]) (ESum (0 + z) 3 (EMul (EAdd (ET 23 [a; m; i; (0 + z)]) (r_ccsd_L_amie_4 (1 + z) a m i (0 + z))) (ET 4 [(0 + z); j])))).
Definition r_ccsd_X_ab_vvvo (z a b e j : nat) : ex := (ESub (ET 39 [a; b; e; j]) (ESum (0 + z) 2 (EMul (ET 36 [a; (0 + z); e; j]) (ET 4 [b; (0 + z)])))).
Definition r_ccsd_X_ab_vvov (z a b i e : nat) : ex := (ESub (ET 40 [a; b; i; e]) (ESum (0 + z) 0 (EMul (ET 35 [(0 + z); b; i; e]) (ET 2 [a; (0 + z)])))).
Definition r_ccsd_I2A_voov (z a m i e : nat) : ex := (EAdd (r_ccsd_X_aa_voov (0 + z) a m i e) (EAdd (EScale (1) 2 (ESum (0 + z) 0 (ESum (1 + z) 1 (EMul (ET 1 [m; (0 + z); e; (1 + z)]) (ET 10 [a; (1 + z); i; (0 + z)]))))) (ESum (0 + z) 2 (ESum (1 + z) 3 (EMul (ET 3 [m; (0 + z); e; (1 + z)]) (ET 11 [a; (1 + z); i; (0 + z)])))))).
Definition r_ccsd_I2A_oooo (z m n i j : nat) : ex := (EAdd (r_ccsd_X_aa_oooo_1 (0 + z) m n i j) (EScale (1) 2 (ESum (0 + z) 1 (ESum (1 + z) 1 (EMul (ET 1 [m; n; (0 + z); (1 + z)]) (ET 10 [(0 + z); (1 + z); i; j])))))).
Definition r_ccsd_I2B_voov (z a m i e : nat) : ex := (EAdd (r_ccsd_X_ab_voov (0 + z) a m i e) (EScale (1) 2 (ESum (0 + z) 2 (ESum (1 + z) 3 (EMul (ET 6 [m; (0 + z); e; (1 + z)]) (ET 11 [a; (1 + z); i; (0 + z)])))))).
Definition r_ccsd_I2A_vooo (z a m i j : nat) : ex := (EAdd (r_ccsd_X_aa_vooo_1 (0 + z) a m i j) (EScale (1) 2 (ESum (0 + z) 1 (ESum (1 + z) 1 (EMul (EAdd (ET 8 [a; m; (0 + z); (1 + z)]) (EScale (1) 2 (r_ccsd_X_aa_vovv (2 + z) a m (0 + z) (1 + z)))) (ET 10 [(0 + z); (1 + z); i; j])))))).
Definition r_ccsd_tau (z a b i j : nat) : ex := (EAdd (EScale (1) 2 (ET 10 [a; b; i; j])) (EMul (ET 2 [a; i]) (ET 2 [b; j]))).
Definition r_ccsd_dT_aa (z a b i j : nat) : ex := (EScale (-1) 2 (ESum (0 + z) 0 (EMul (r_ccsd_I2A_vooo (1 + z) a (0 + z) i j) (ET 2 [b; (0 + z)])))).
Definition r_ccsd_dT_aa_1 (z a b i j : nat) : ex := (EAdd (r_ccsd_dT_aa (0 + z) a b i j) (EScale (1) 2 (ESum (0 + z) 1 (EMul (r_ccsd_X_aa_vvov (1 + z) a b i (0 + z)) (ET 2 [(0 + z); j]))))).
Definition r_ccsd_dT_aa_2 (z a b i j : nat) : ex := (EAdd (r_ccsd_dT_aa_1 (0 + z) a b i j) (EScale (1) 2 (ESum (0 + z) 1 (EMul (r_ccsd_X_a_vv_1 (1 + z) a (0 + z)) (ET 10 [(0 + z); b; i; j]))))).
Definition r_ccsd_dT_aa_3 (z a b i j : nat) : ex := (ESub (r_ccsd_dT_aa_2 (0 + z) a b i j) (EScale (1) 2 (ESum (0 + z) 0 (EMul (r_ccsd_X_a_oo (1 + z) (0 + z) i) (ET 10 [a; b; (0 + z); j]))))).
Definition r_ccsd_dT_aa_4 (z a b i j : nat) : ex := (EAdd (r_ccsd_dT_aa_3 (0 + z) a b i j) (ESum (0 + z) 0 (ESum (1 + z) 1 (EMul (r_ccsd_I2A_voov (2 + z) a (0 + z) i (1 + z)) (ET 10 [(1 + z); b; (0 + z); j]))))).
Definition r_ccsd_dT_aa_5 (z a b i j : nat) : ex := (EAdd (r_ccsd_dT_aa_4 (0 + z) a b i j) (ESum (0 + z) 2 (ESum (1 + z) 3 (EMul (r_ccsd_I2B_voov (2 + z) a (0 + z) i (1 + z)) (ET 11 [b; (1 + z); j; (0 + z)]))))).
Definition r_ccsd_dT_aa_6 (z a b i j : nat) : ex := (EAdd (r_ccsd_dT_aa_5 (0 + z) a b i j) (EScale (1) 8 (ESum (0 + z) 0 (ESum (1 + z) 0 (EMul (r_ccsd_I2A_oooo (2 + z) (0 + z) (1 + z) i j) (ET 10 [a; b; (0 + z); (1 + z)])))))).
Definition r_ccsd_dT_aa_7 (z a b i j : nat) : ex := (EAdd (r_ccsd_dT_aa_6 (0 + z) a b i j) (EScale (1) 4 (ESum (0 + z) 1 (ESum (1 + z) 1 (EMul (ET 41 [a; b; (0 + z); (1 + z)]) (r_ccsd_tau (2 + z) (0 + z) (1 + z) i j)))))).
Definition r_ccsd_res_aa (z a b i j : nat) : ex := (EAdd (r_ccsd_dT_aa_7 (0 + z) a b i j) (EScale (1) 4 (ET 44 [a; b; i; j]))).
Definition r_ccsd_I2A_voov_1 (z a m i e : nat) : ex := (EAdd (r_ccsd_X_aa_voov (0 + z) a m i e) (EAdd (ESum (0 + z) 0 (ESum (1 + z) 1 (EMul (ET 1 [(0 + z); m; (1 + z); e]) (ET 10 [a; (1 + z); i; (0 + z)])))) (ESum (0 + z) 2 (ESum (1 + z) 3 (EMul (ET 3 [m; (0 + z); e; (1 + z)]) (ET 11 [a; (1 + z); i; (0 + z)])))))).
Definition r_ccsd_I2B_voov_1 (z a m i e : nat) : ex := (EAdd (r_ccsd_X_ab_voov (0 + z) a m i e) (EAdd (ESum (0 + z) 0 (ESum (1 + z) 1 (EMul (ET 3 [(0 + z); m; (1 + z); e]) (ET 10 [a; (1 + z); i; (0 + z)])))) (ESum (0 + z) 2 (ESum (1 + z) 3 (EMul (ET 6 [(0 + z); m; (1 + z); e]) (ET 11 [a; (1 + z); i; (0 + z)])))))).
Definition r_ccsd_I2B_oooo (z m n i j : nat) : ex := (EAdd (r_ccsd_X_ab_oooo (0 + z) m n i j) (ESum (0 + z) 1 (ESum (1 + z) 3 (EMul (ET 3 [m; n; (0 + z); (1 + z)]) (ET 11 [(0 + z); (1 + z); i; j]))))).
Definition r_ccsd_I2B_vovo (z a m e i : nat) : ex := (ESub (r_ccsd_X_ab_vovo (0 + z) a m e i) (ESum (0 + z) 0 (ESum (1 + z) 3 (EMul (ET 3 [(0 + z); m; e; (1 + z)]) (ET 11 [a; (1 + z); (0 + z); i]))))).
Definition r_ccsd_I2B_ovoo (z m b i j : nat) : ex := (EAdd (r_ccsd_X_ab_ovoo (0 + z) m b i j) (ESum (0 + z) 1 (ESum (1 + z) 3 (EMul (EAdd (ET 17 [m; b; (0 + z); (1 + z)]) (EScale (1) 2 (r_ccsd_X_ab_ovvv (2 + z) m b (0 + z) (1 + z)))) (ET 11 [(0 + z); (1 + z); i; j]))))).
Definition r_ccsd_I2B_vooo (z a m i j : nat) : ex := (EAdd (r_ccsd_X_ab_vooo (0 + z) a m i j) (ESum (0 + z) 1 (ESum (1 + z) 3 (EMul (EAdd (ET 9 [a; m; (0 + z); (1 + z)]) (EScale (1) 2 (r_ccsd_X_ab_vovv (2 + z) a m (0 + z) (1 + z)))) (ET 11 [(0 + z); (1 + z); i; j]))))).
Definition r_ccsd_tau_1 (z a b i j : nat) : ex := (EAdd (ET 11 [a; b; i; j]) (EMul (ET 2 [a; i]) (ET 4 [b; j]))).
Definition r_ccsd_dT_ab (z a b i j : nat) : ex := (EOpp (ESum (0 + z) 0 (EMul (r_ccsd_I2B_ovoo (1 + z) (0 + z) b i j) (ET 2 [a; (0 + z)])))).
Definition r_ccsd_dT_ab_1 (z a b i j : nat) : ex := (ESub (r_ccsd_dT_ab (0 + z) a b i j) (ESum (0 + z) 2 (EMul (r_ccsd_I2B_vooo (1 + z) a (0 + z) i j) (ET 4 [b; (0 + z)])))).
Definition r_ccsd_dT_ab_2 (z a b i j : nat) : ex := (EAdd (r_ccsd_dT_ab_1 (0 + z) a b i j) (ESum (0 + z) 1 (EMul (r_ccsd_X_ab_vvvo (1 + z) a b (0 + z) j) (ET 2 [(0 + z); i])))).
Definition r_ccsd_dT_ab_3 (z a b i j : nat) : ex := (EAdd (r_ccsd_dT_ab_2 (0 + z) a b i j) (ESum (0 + z) 3 (EMul (r_ccsd_X_ab_vvov (1 + z) a b i (0 + z)) (ET 4 [(0 + z); j])))).
Definition r_ccsd_dT_ab_4 (z a b i j : nat) : ex := (EAdd (r_ccsd_dT_ab_3 (0 + z) a b i j) (ESum (0 + z) 1 (EMul (r_ccsd_X_a_vv_1 (1 + z) a (0 + z)) (ET 11 [(0 + z); b; i; j])))).
Definition r_ccsd_dT_ab_5 (z a b i j : nat) : ex := (EAdd (r_ccsd_dT_ab_4 (0 + z) a b i j) (ESum (0 + z) 3 (EMul (r_ccsd_X_b_vv_1 (1 + z) b (0 + z)) (ET 11 [a; (0 + z); i; j])))).
Definition r_ccsd_dT_ab_6 (z a b i j : nat) : ex := (ESub (r_ccsd_dT_ab_5 (0 + z) a b i j) (ESum (0 + z) 0 (EMul (r_ccsd_X_a_oo (1 + z) (0 + z) i) (ET 11 [a; b; (0 + z); j])))).
Definition r_ccsd_dT_ab_7 (z a b i j : nat) : ex := (ESub (r_ccsd_dT_ab_6 (0 + z) a b i j) (ESum (0 + z) 2 (EMul (r_ccsd_X_b_oo (1 + z) (0 + z) j) (ET 11 [a; b; i; (0 + z)])))).
Definition r_ccsd_dT_ab_8 (z a b i j : nat) : ex := (EAdd (r_ccsd_dT_ab_7 (0 + z) a b i j) (ESum (0 + z) 0 (ESum (1 + z) 1 (EMul (r_ccsd_I2A_voov_1 (2 + z) a (0 + z) i (1 + z)) (ET 11 [(1 + z); b; (0 + z); j]))))).
Definition r_ccsd_dT_ab_9 (z a b i j : nat) : ex := (EAdd (r_ccsd_dT_ab_8 (0 + z) a b i j) (ESum (0 + z) 2 (ESum (1 + z) 3 (EMul (r_ccsd_I2B_voov_1 (2 + z) a (0 + z) i (1 + z)) (ET 18 [(1 + z); b; (0 + z); j]))))).
Definition r_ccsd_dT_ab_10 (z a b i j : nat) : ex := (EAdd (r_ccsd_dT_ab_9 (0 + z) a b i j) (ESum (0 + z) 0 (ESum (1 + z) 1 (EMul (r_ccsd_X_ab_ovvo (2 + z) (0 + z) b (1 + z) j) (ET 10 [a; (1 + z); i; (0 + z)]))))).
Definition r_ccsd_dT_ab_11 (z a b i j : nat) : ex := (EAdd (r_ccsd_dT_ab_10 (0 + z) a b i j) (ESum (0 + z) 2 (ESum (1 + z) 3 (EMul (r_ccsd_X_bb_voov (2 + z) b (0 + z) j (1 + z)) (ET 11 [a; (1 + z); i; (0 + z)]))))).
Definition r_ccsd_dT_ab_12 (z a b i j : nat) : ex := (ESub (r_ccsd_dT_ab_11 (0 + z) a b i j) (ESum (0 + z) 0 (ESum (1 + z) 3 (EMul (r_ccsd_X_ab_ovov (2 + z) (0 + z) b i (1 + z)) (ET 11 [a; (1 + z); (0 + z); j]))))).
Definition r_ccsd_dT_ab_13 (z a b i j : nat) : ex := (ESub (r_ccsd_dT_ab_12 (0 + z) a b i j) (ESum (0 + z) 2 (ESum (1 + z) 1 (EMul (r_ccsd_I2B_vovo (2 + z) a (0 + z) (1 + z) j) (ET 11 [(1 + z); b; i; (0 + z)]))))).
Definition r_ccsd_dT_ab_14 (z a b i j : nat) : ex := (EAdd (r_ccsd_dT_ab_13 (0 + z) a b i j) (ESum (0 + z) 0 (ESum (1 + z) 2 (EMul (r_ccsd_I2B_oooo (2 + z) (0 + z) (1 + z) i j) (ET 11 [a; b; (0 + z); (1 + z)]))))).
Definition r_ccsd_dT_ab_15 (z a b i j : nat) : ex := (EAdd (r_ccsd_dT_ab_14 (0 + z) a b i j) (ESum (0 + z) 1 (ESum (1 + z) 3 (EMul (ET 42 [a; b; (0 + z); (1 + z)]) (r_ccsd_tau_1 (2 + z) (0 + z) (1 + z) i j))))).
Definition r_ccsd_res_ab (z a b i j : nat) : ex := (EAdd (r_ccsd_dT_ab_15 (0 + z) a b i j) (ET 45 [a; b; i; j])).
Definition r_ccsd_I2C_oooo (z m n i j : nat) : ex := (EAdd (r_ccsd_X_bb_oooo_1 (0 + z) m n i j) (EScale (1) 2 (ESum (0 + z) 3 (ESum (1 + z) 3 (EMul (ET 6 [m; n; (0 + z); (1 + z)]) (ET 18 [(0 + z); (1 + z); i; j])))))).
Definition r_ccsd_I2B_ovvo (z m a e i : nat) : ex := (EAdd (r_ccsd_X_ab_ovvo (0 + z) m a e i) (EAdd (ESum (0 + z) 2 (ESum (1 + z) 3 (EMul (ET 3 [m; (0 + z); e; (1 + z)]) (ET 18 [a; (1 + z); i; (0 + z)])))) (EScale (1) 2 (ESum (0 + z) 0 (ESum (1 + z) 1 (EMul (ET 1 [m; (0 + z); e; (1 + z)]) (ET 11 [(1 + z); a; (0 + z); i]))))))).
Definition r_ccsd_I2C_voov (z a m i e : nat) : ex := (EAdd (r_ccsd_X_bb_voov (0 + z) a m i e) (EScale (1) 2 (ESum (0 + z) 2 (ESum (1 + z) 3 (EMul (ET 6 [m; (0 + z); e; (1 + z)]) (ET 18 [a; (1 + z); i; (0 + z)])))))).
Definition r_ccsd_I2C_vooo (z a m i j : nat) : ex := (EAdd (r_ccsd_X_bb_vooo_1 (0 + z) a m i j) (EScale (1) 2 (ESum (0 + z) 3 (ESum (1 + z) 3 (EMul (EAdd (ET 16 [a; m; (0 + z); (1 + z)]) (EScale (1) 2 (r_ccsd_X_bb_vovv (2 + z) a m (0 + z) (1 + z)))) (ET 18 [(0 + z); (1 + z); i; j])))))).
Definition r_ccsd_tau_2 (z a b i j : nat) : ex := (EAdd (EScale (1) 2 (ET 18 [a; b; i; j])) (EMul (ET 4 [a; i]) (ET 4 [b; j]))).
Definition r_ccsd_dT_bb (z a b i j : nat) : ex := (EScale (-1) 2 (ESum (0 + z) 2 (EMul (r_ccsd_I2C_vooo (1 + z) a (0 + z) i j) (ET 4 [b; (0 + z)])))).
Definition r_ccsd_dT_bb_1 (z a b i j : nat) : ex := (EAdd (r_ccsd_dT_bb (0 + z) a b i j) (EScale (1) 2 (ESum (0 + z) 3 (EMul (r_ccsd_X_bb_vvov (1 + z) a b i (0 + z)) (ET 4 [(0 + z); j]))))).
Definition r_ccsd_dT_bb_2 (z a b i j : nat) : ex := (EAdd (r_ccsd_dT_bb_1 (0 + z) a b i j) (EScale (1) 2 (ESum (0 + z) 3 (EMul (r_ccsd_X_b_vv_1 (1 + z) a (0 + z)) (ET 18 [(0 + z); b; i; j]))))).
Definition r_ccsd_dT_bb_3 (z a b i j : nat) : ex := (ESub (r_ccsd_dT_bb_2 (0 + z) a b i j) (EScale (1) 2 (ESum (0 + z) 2 (EMul (r_ccsd_X_b_oo (1 + z) (0 + z) i) (ET 18 [a; b; (0 + z); j]))))).
Definition r_ccsd_dT_bb_4 (z a b i j : nat) : ex := (EAdd (r_ccsd_dT_bb_3 (0 + z) a b i j) (ESum (0 + z) 2 (ESum (1 + z) 3 (EMul (r_ccsd_I2C_voov (2 + z) a (0 + z) i (1 + z)) (ET 18 [(1 + z); b; (0 + z); j]))))).
Definition r_ccsd_dT_bb_5 (z a b i j : nat) : ex := (EAdd (r_ccsd_dT_bb_4 (0 + z) a b i j) (ESum (0 + z) 0 (ESum (1 + z) 1 (EMul (r_ccsd_I2B_ovvo (2 + z) (0 + z) a (1 + z) i) (ET 11 [(1 + z); b; (0 + z); j]))))).
Definition r_ccsd_dT_bb_6 (z a b i j : nat) : ex := (EAdd (r_ccsd_dT_bb_5 (0 + z) a b i j) (EScale (1) 8 (ESum (0 + z) 2 (ESum (1 + z) 2 (EMul (r_ccsd_I2C_oooo (2 + z) (0 + z) (1 + z) i j) (ET 18 [a; b; (0 + z); (1 + z)])))))).
Definition r_ccsd_dT_bb_7 (z a b i j : nat) : ex := (EAdd (r_ccsd_dT_bb_6 (0 + z) a b i j) (EScale (1) 4 (ESum (0 + z) 3 (ESum (1 + z) 3 (EMul (ET 43 [a; b; (0 + z); (1 + z)]) (r_ccsd_tau_2 (2 + z) (0 + z) (1 + z) i j)))))).
Definition r_ccsd_res_bb (z a b i j : nat) : ex := (EAdd (r_ccsd_dT_bb_7 (0 + z) a b i j) (EScale (1) 4 (ET 46 [a; b; i; j]))).
Definition r_rcc2_X_a_ov (z m e : nat) : ex := (EAdd (ET 0 [m; e]) (EAdd (ESum (0 + z) 0 (ESum (1 + z) 1 (EMul (ET 1 [m; (0 + z); e; (1 + z)]) (ET 2 [(1 + z); (0 + z)])))) (ESum (0 + z) 0 (ESum (1 + z) 1 (EMul (ET 3 [m; (0 + z); e; (1 + z)]) (ET 4 [(1 + z); (0 + z)])))))).
Definition r_rcc2_X_a_vv (z a e : nat) : ex := (EAdd (ET 7 [a; e]) (ESub (ESub (EAdd (ESum (0 + z) 0 (ESum (1 + z) 1 (EMul (ET 8 [a; (0 + z); e; (1 + z)]) (ET 2 [(1 + z); (0 + z)])))) (ESum (0 + z) 0 (ESum (1 + z) 1 (EMul (ET 9 [a; (0 + z); e; (1 + z)]) (ET 4 [(1 + z); (0 + z)]))))) (EScale (1) 2 (ESum (0 + z) 0 (ESum (1 + z) 0 (ESum (2 + z) 1 (EMul (ET 1 [(0 + z); (1 + z); e; (2 + z)]) (ET 10 [a; (2 + z); (0 + z); (1 + z)]))))))) (ESum (0 + z) 0 (ESum (1 + z) 0 (ESum (2 + z) 1 (EMul (ET 3 [(0 + z); (1 + z); e; (2 + z)]) (ET 11 [a; (2 + z); (0 + z); (1 + z)]))))))).
Definition r_rcc2_X_a_oo (z m i : nat) : ex := (EAdd (ET 12 [m; i]) (EAdd (EAdd (EAdd (EAdd (ESum (0 + z) 0 (ESum (1 + z) 1 (EMul (ET 13 [m; (0 + z); i; (1 + z)]) (ET 2 [(1 + z); (0 + z)])))) (ESum (0 + z) 0 (ESum (1 + z) 1 (EMul (ET 14 [m; (0 + z); i; (1 + z)]) (ET 4 [(1 + z); (0 + z)]))))) (ESum (0 + z) 1 (EMul (r_rcc2_X_a_ov (1 + z) m (0 + z)) (ET 2 [(0 + z); i])))) (EScale (1) 2 (ESum (0 + z) 0 (ESum (1 + z) 1 (ESum (2 + z) 1 (EMul (ET 1 [m; (0 + z); (1 + z); (2 + z)]) (ET 10 [(1 + z); (2 + z); i; (0 + z)]))))))) (ESum (0 + z) 0 (ESum (1 + z) 1 (ESum (2 + z) 1 (EMul (ET 3 [m; (0 + z); (1 + z); (2 + z)]) (ET 11 [(1 + z); (2 + z); i; (0 + z)]))))))).
Definition r_rcc2_dT_a (z a i : nat) : ex := (EOpp (ESum (0 + z) 0 (EMul (r_rcc2_X_a_oo (1 + z) (0 + z) i) (ET 2 [a; (0 + z)])))).
Definition r_rcc2_dT_a_1 (z a i : nat) : ex := (EAdd (r_rcc2_dT_a (0 + z) a i) (ESum (0 + z) 1 (EMul (r_rcc2_X_a_vv (1 + z) a (0 + z)) (ET 2 [(0 + z); i])))).
Definition r_rcc2_dT_a_2 (z a i : nat) : ex := (EAdd (r_rcc2_dT_a_1 (0 + z) a i) (ESum (0 + z) 0 (ESum (1 + z) 1 (EMul (r_rcc2_X_a_ov (2 + z) (0 + z) (1 + z)) (ET 10 [a; (1 + z); i; (0 + z)]))))).
Definition r_rcc2_dT_a_3 (z a i : nat) : ex := (EAdd (r_rcc2_dT_a_2 (0 + z) a i) (ESum (0 + z) 0 (ESum (1 + z) 1 (EMul (r_rcc2_X_a_ov (2 + z) (0 + z) (1 + z)) (ET 11 [a; (1 + z); i; (0 + z)]))))).
Definition r_rcc2_dT_a_4 (z a i : nat) : ex := (EAdd (r_rcc2_dT_a_3 (0 + z) a i) (ESum (0 + z) 0 (ESum (1 + z) 1 (EMul (ET 22 [a; (0 + z); i; (1 + z)]) (ET 2 [(1 + z); (0 + z)]))))).
Definition r_rcc2_dT_a_5 (z a i : nat) : ex := (EAdd (r_rcc2_dT_a_4 (0 + z) a i) (ESum (0 + z) 0 (ESum (1 + z) 1 (EMul (ET 23 [a; (0 + z); i; (1 + z)]) (ET 4 [(1 + z); (0 + z)]))))).
Definition r_rcc2_dT_a_6 (z a i : nat) : ex := (ESub (r_rcc2_dT_a_5 (0 + z) a i) (EScale (1) 2 (ESum (0 + z) 0 (ESum (1 + z) 0 (ESum (2 + z) 1 (EMul (ET 13 [(0 + z); (1 + z); i; (2 + z)]) (ET 10 [a; (2 + z); (0 + z); (1 + z)]))))))).
Definition r_rcc2_dT_a_7 (z a i : nat) : ex := (ESub (r_rcc2_dT_a_6 (0 + z) a i) (ESum (0 + z) 0 (ESum (1 + z) 0 (ESum (2 + z) 1 (EMul (ET 14 [(0 + z); (1 + z); i; (2 + z)]) (ET 11 [a; (2 + z); (0 + z); (1 + z)])))))).
Definition r_rcc2_dT_a_8 (z a i : nat) : ex := (EAdd (r_rcc2_dT_a_7 (0 + z) a i) (EScale (1) 2 (ESum (0 + z) 0 (ESum (1 + z) 1 (ESum (2 + z) 1 (EMul (ET 8 [a; (0 + z); (1 + z); (2 + z)]) (ET 10 [(1 + z); (2 + z); i; (0 + z)]))))))).
Definition r_rcc2_dT_a_9 (z a i : nat) : ex := (EAdd (r_rcc2_dT_a_8 (0 + z) a i) (ESum (0 + z) 0 (ESum (1 + z) 1 (ESum (2 + z) 1 (EMul (ET 9 [a; (0 + z); (1 + z); (2 + z)]) (ET 11 [(1 + z); (2 + z); i; (0 + z)])))))).
Definition r_rcc2_res_a (z a i : nat) : ex := (EAdd (r_rcc2_dT_a_9 (0 + z) a i) (ET 24 [a; i])).
Definition r_rcc2_T_b (z a i : nat) : ex := (ET 2 [a; i]).
Definition r_rcc2_dT_b (z a i : nat) : ex := (r_rcc2_res_a (0 + z) a i).
Definition r_rcc2_X_a_vv_1 (z a e : nat) : ex := (ESub (r_rcc2_X_a_vv (0 + z) a e) (ESum (0 + z) 0 (EMul (r_rcc2_X_a_ov (1 + z) (0 + z) e) (ET 2 [a; (0 + z)])))).
Definition r_rcc2_X_aa_ooov (z m n i e : nat) : ex := (ESum (0 + z) 1 (EMul (ET 1 [m; n; (0 + z); e]) (ET 2 [(0 + z); i]))).
Definition r_rcc2_X_aa_vovv (z a m e f : nat) : ex := (EOpp (ESum (0 + z) 0 (EMul (ET 1 [m; (0 + z); f; e]) (ET 2 [a; (0 + z)])))).
Definition r_rcc2_X_aa_oooo (z m n i j : nat) : ex := (EAdd (EScale (1) 2 (ET 28 [m; n; i; j])) (ESum (0 + z) 1 (EMul (EAdd (ET 13 [n; m; j; (0 + z)]) (EScale (1) 2 (r_rcc2_X_aa_ooov (1 + z) n m j (0 + z)))) (ET 2 [(0 + z); i])))).
Definition r_rcc2_X_aa_oooo_1 (z m n i j : nat) : ex := (ESub (r_rcc2_X_aa_oooo (0 + z) m n i j) (r_rcc2_X_aa_oooo (0 + z) m n j i)).
Definition r_rcc2_X_aa_voov (z a m i e : nat) : ex := (EAdd (ET 22 [a; m; i; e]) (ESub (ESum (0 + z) 1 (EMul (EAdd (ET 8 [a; m; (0 + z); e]) (EScale (1) 2 (r_rcc2_X_aa_vovv (1 + z) a m (0 + z) e))) (ET 2 [(0 + z); i]))) (ESum (0 + z) 0 (EMul (EAdd (ET 13 [(0 + z); m; i; e]) (EScale (1) 2 (r_rcc2_X_aa_ooov (1 + z) (0 + z) m i e))) (ET 2 [a; (0 + z)]))))).
Definition r_rcc2_L_amie (z a m i f : nat) : ex := (EAdd (ET 22 [a; m; i; f]) (EScale (1) 2 (ESum (0 + z) 1 (EMul (ET 8 [a; m; (0 + z); f]) (ET 2 [(0 + z); i]))))).
Definition r_rcc2_X_mnij (z m n i j : nat) : ex := (EAdd (ET 28 [m; n; i; j]) (ESum (0 + z) 1 (EMul (r_rcc2_X_aa_ooov (1 + z) m n i (0 + z)) (ET 2 [(0 + z); j])))).
Definition r_rcc2_X_aa_vooo (z a m i j : nat) : ex := (EAdd (EScale (1) 2 (ET 29 [a; m; i; j])) (ESub (ESum (0 + z) 1 (EMul (r_rcc2_L_amie (1 + z) a m i (0 + z)) (ET 2 [(0 + z); j]))) (EScale (1) 4 (ESum (0 + z) 0 (EMul (r_rcc2_X_mnij (1 + z) (0 + z) m i j) (ET 2 [a; (0 + z)])))))).
Definition r_rcc2_X_aa_vooo_1 (z a m i j : nat) : ex := (ESub (r_rcc2_X_aa_vooo (0 + z) a m i j) (r_rcc2_X_aa_vooo (0 + z) a m j i)).
Definition r_rcc2_L_amie_1 (z a n i e : nat) : ex := (ESum (0 + z) 0 (EMul (ET 13 [(0 + z); n; i; e]) (ET 2 [a; (0 + z)]))).
Definition r_rcc2_X_aa_vvov (z a b i e : nat) : ex := (EAdd (ET 30 [a; b; i; e]) (ESum (0 + z) 0 (EMul (r_rcc2_L_amie_1 (1 + z) a (0 + z) i e) (ET 2 [b; (0 + z)])))).
Definition r_rcc2_X_ab_ooov (z m n i e : nat) : ex := (ESum (0 + z) 1 (EMul (ET 3 [m; n; (0 + z); e]) (ET 2 [(0 + z); i]))).
Definition r_rcc2_X_ab_oovo (z n m e i : nat) : ex := (ESum (0 + z) 1 (EMul (ET 3 [n; m; e; (0 + z)]) (r_rcc2_T_b (1 + z) (0 + z) i))).
Definition r_rcc2_X_ab_oooo (z m n i j : nat) : ex := (EAdd (ET 34 [m; n; i; j]) (EAdd (ESum (0 + z) 1 (EMul (EAdd (ET 21 [m; n; (0 + z); j]) (EScale (1) 2 (r_rcc2_X_ab_oovo (1 + z) m n (0 + z) j))) (ET 2 [(0 + z); i]))) (ESum (0 + z) 1 (EMul (EAdd (ET 14 [m; n; i; (0 + z)]) (EScale (1) 2 (r_rcc2_X_ab_ooov (1 + z) m n i (0 + z)))) (r_rcc2_T_b (2 + z) (0 + z) j))))).
Definition r_rcc2_X_ab_vovv (z a m e f : nat) : ex := (EOpp (ESum (0 + z) 0 (EMul (ET 3 [(0 + z); m; e; f]) (ET 2 [a; (0 + z)])))).
Definition r_rcc2_X_ab_ovvv (z m a e f : nat) : ex := (EOpp (ESum (0 + z) 0 (EMul (ET 3 [m; (0 + z); e; f]) (r_rcc2_T_b (1 + z) a (0 + z))))).
Definition r_rcc2_X_ab_voov (z a m i e : nat) : ex := (EAdd (ET 23 [a; m; i; e]) (ESub (ESum (0 + z) 1 (EMul (EAdd (ET 9 [a; m; (0 + z); e]) (EScale (1) 2 (r_rcc2_X_ab_vovv (1 + z) a m (0 + z) e))) (ET 2 [(0 + z); i]))) (ESum (0 + z) 0 (EMul (EAdd (ET 14 [(0 + z); m; i; e]) (EScale (1) 2 (r_rcc2_X_ab_ooov (1 + z) (0 + z) m i e))) (ET 2 [a; (0 + z)]))))).
Definition r_rcc2_X_ab_ovvo (z m a e i : nat) : ex := (EAdd (ET 26 [m; a; e; i]) (ESub (ESum (0 + z) 1 (EMul (EAdd (ET 17 [m; a; e; (0 + z)]) (EScale (1) 2 (r_rcc2_X_ab_ovvv (1 + z) m a e (0 + z)))) (r_rcc2_T_b (2 + z) (0 + z) i))) (ESum (0 + z) 0 (EMul (EAdd (ET 21 [m; (0 + z); e; i]) (EScale (1) 2 (r_rcc2_X_ab_oovo (1 + z) m (0 + z) e i))) (r_rcc2_T_b (2 + z) a (0 + z)))))).
Definition r_rcc2_X_ab_ovov (z m a i e : nat) : ex := (EAdd (ET 35 [m; a; i; e]) (ESub (ESum (0 + z) 1 (EMul (EAdd (ET 17 [m; a; (0 + z); e]) (EScale (1) 2 (r_rcc2_X_ab_ovvv (1 + z) m a (0 + z) e))) (ET 2 [(0 + z); i]))) (ESum (0 + z) 0 (EMul (EAdd (ET 14 [m; (0 + z); i; e]) (EScale (1) 2 (r_rcc2_X_ab_ooov (1 + z) m (0 + z) i e))) (r_rcc2_T_b (2 + z) a (0 + z)))))).
Definition r_rcc2_X_ab_vovo (z a m e i : nat) : ex := (ESub (ET 36 [a; m; e; i]) (ESub (ESum (0 + z) 0 (EMul (EAdd (ET 21 [(0 + z); m; e; i]) (EScale (1) 2 (r_rcc2_X_ab_oovo (1 + z) (0 + z) m e i))) (ET 2 [a; (0 + z)]))) (ESum (0 + z) 1 (EMul (EAdd (ET 9 [a; m; e; (0 + z)]) (EScale (1) 2 (r_rcc2_X_ab_vovv (1 + z) a m e (0 + z)))) (r_rcc2_T_b (2 + z) (0 + z) i))))).
Definition r_rcc2_X_mnij_1 (z m n i j : nat) : ex := (EAdd (ET 34 [m; n; i; j]) (EAdd (ESum (0 + z) 1 (EMul (ET 14 [m; n; i; (0 + z)]) (r_rcc2_T_b (1 + z) (0 + z) j))) (ESum (0 + z) 1 (EMul (ET 21 [m; n; (0 + z); j]) (ET 2 [(0 + z); i]))))).
Definition r_rcc2_L_mbej (z m b e j : nat) : ex := (EAdd (ET 26 [m; b; e; j]) (ESum (0 + z) 1 (EMul (ET 17 [m; b; e; (0 + z)]) (r_rcc2_T_b (1 + z) (0 + z) j)))).
Definition r_rcc2_X_ab_ovoo (z m b i j : nat) : ex := (EAdd (ET 37 [m; b; i; j]) (ESub (ESum (0 + z) 1 (EMul (r_rcc2_L_mbej (1 + z) m b (0 + z) j) (ET 2 [(0 + z); i]))) (ESum (0 + z) 0 (EMul (r_rcc2_X_mnij_1 (1 + z) m (0 + z) i j) (r_rcc2_T_b (2 + z) b (0 + z)))))).
Definition r_rcc2_L_amie_2 (z a m i f : nat) : ex := (ESum (0 + z) 1 (EMul (EAdd (ET 9 [a; m; (0 + z); f]) (r_rcc2_X_ab_vovv (1 + z) a m (0 + z) f)) (ET 2 [(0 + z); i]))).
Definition r_rcc2_X_ab_vooo (z a m i j : nat) : ex := (EAdd (ET 38 [a; m; i; j]) (ESum (0 + z) 1 (EMul (EAdd (ET 23 [a; m; i; (0 + z)]) (r_rcc2_L_amie_2 (1 + z) a m i (0 + z))) (r_rcc2_T_b (3 + z) (0 + z) j)))).
Definition r_rcc2_X_ab_vvvo (z a b e j : nat) : ex := (ESub (ET 39 [a; b; e; j]) (ESum (0 + z) 0 (EMul (ET 36 [a; (0 + z); e; j]) (r_rcc2_T_b (1 + z) b (0 + z))))).
Definition r_rcc2_X_ab_vvov (z a b i e : nat) : ex := (ESub (ET 40 [a; b; i; e]) (ESum (0 + z) 0 (EMul (ET 35 [(0 + z); b; i; e]) (ET 2 [a; (0 + z)])))).
Definition r_rcc2_X_aa_vvov_1 (z a b i e : nat) : ex := (EAdd (r_rcc2_X_aa_vvov (0 + z) a b i e) (EScale (1) 2 (ESum (0 + z) 1 (EMul (ET 41 [a; b; (0 + z); e]) (ET 2 [(0 + z); i]))))).
Definition r_rcc2_X_ab_vvov_1 (z a b i e : nat) : ex := (EAdd (r_rcc2_X_ab_vvov (0 + z) a b i e) (ESum (0 + z) 1 (EMul (ET 42 [a; b; (0 + z); e]) (ET 2 [(0 + z); i])))).
Definition r_rcc2_X_bb_vvov (z a b i e : nat) : ex := (EAdd (r_rcc2_X_aa_vvov_1 (0 + z) a b i e) (EScale (1) 2 (ESum (0 + z) 1 (EMul (ET 43 [a; b; (0 + z); e]) (r_rcc2_T_b (1 + z) (0 + z) i))))).
Definition r_rcc2_dT_aa (z a b i j : nat) : ex := (EScale (-1) 2 (ESum (0 + z) 0 (EMul (r_rcc2_X_aa_vooo_1 (1 + z) a (0 + z) i j) (ET 2 [b; (0 + z)])))).
Definition r_rcc2_dT_aa_1 (z a b i j : nat) : ex := (EAdd (r_rcc2_dT_aa (0 + z) a b i j) (EScale (1) 2 (ESum (0 + z) 1 (EMul (r_rcc2_X_bb_vvov (1 + z) a b i (0 + z)) (ET 2 [(0 + z); j]))))).
Definition r_rcc2_dT_aa_2 (z a b i j : nat) : ex := (ESub (r_rcc2_dT_aa_1 (0 + z) a b i j) (EScale (1) 2 (ESum (0 + z) 0 (EMul (ET 12 [(0 + z); i]) (ET 10 [a; b; (0 + z); j]))))).
Definition r_rcc2_dT_aa_3 (z a b i j : nat) : ex := (EAdd (r_rcc2_dT_aa_2 (0 + z) a b i j) (EScale (1) 2 (ESum (0 + z) 1 (EMul (ET 7 [a; (0 + z)]) (ET 10 [(0 + z); b; i; j]))))).
Definition r_rcc2_res_aa (z a b i j : nat) : ex := (EAdd (r_rcc2_dT_aa_3 (0 + z) a b i j) (EScale (1) 4 (ET 44 [a; b; i; j]))).
Definition r_rcc2_dT_ab (z a b i j : nat) : ex := (EOpp (ESum (0 + z) 0 (EMul (r_rcc2_X_ab_ovoo (1 + z) (0 + z) b i j) (ET 2 [a; (0 + z)])))).
Definition r_rcc2_dT_ab_1 (z a b i j : nat) : ex := (ESub (r_rcc2_dT_ab (0 + z) a b i j) (ESum (0 + z) 0 (EMul (r_rcc2_X_ab_vooo (1 + z) a (0 + z) i j) (r_rcc2_T_b (4 + z) b (0 + z))))).
Definition r_rcc2_dT_ab_2 (z a b i j : nat) : ex := (EAdd (r_rcc2_dT_ab_1 (0 + z) a b i j) (ESum (0 + z) 1 (EMul (r_rcc2_X_ab_vvvo (1 + z) a b (0 + z) j) (ET 2 [(0 + z); i])))).
Definition r_rcc2_dT_ab_3 (z a b i j : nat) : ex := (EAdd (r_rcc2_dT_ab_2 (0 + z) a b i j) (ESum (0 + z) 1 (EMul (r_rcc2_X_ab_vvov_1 (1 + z) a b i (0 + z)) (r_rcc2_T_b (2 + z) (0 + z) j)))).
Definition r_rcc2_dT_ab_4 (z a b i j : nat) : ex := (ESub (r_rcc2_dT_ab_3 (0 + z) a b i j) (ESum (0 + z) 0 (EMul (ET 12 [(0 + z); i]) (ET 11 [a; b; (0 + z); j])))).
Definition r_rcc2_dT_ab_5 (z a b i j : nat) : ex := (ESub (r_rcc2_dT_ab_4 (0 + z) a b i j) (ESum (0 + z) 0 (EMul (ET 19 [(0 + z); j]) (ET 11 [a; b; i; (0 + z)])))).
Definition r_rcc2_dT_ab_6 (z a b i j : nat) : ex := (EAdd (r_rcc2_dT_ab_5 (0 + z) a b i j) (ESum (0 + z) 1 (EMul (ET 7 [a; (0 + z)]) (ET 11 [(0 + z); b; i; j])))).
Definition r_rcc2_dT_ab_7 (z a b i j : nat) : ex := (EAdd (r_rcc2_dT_ab_6 (0 + z) a b i j) (ESum (0 + z) 1 (EMul (ET 15 [b; (0 + z)]) (ET 11 [a; (0 + z); i; j])))).
Definition r_rcc2_res_ab (z a b i j : nat) : ex := (EAdd (r_rcc2_dT_ab_7 (0 + z) a b i j) (ET 45 [a; b; i; j])).
Definition r_rcc2_T_bb (z a b i j : nat) : ex := (ET 10 [a; b; i; j]).
Definition r_rcc2_dT_bb (z a b i j : nat) : ex := (r_rcc2_res_aa (0 + z) a b i j).
Definition r_hb2_H_a_ov (z i a : nat) : ex := (EAdd (ET 0 [i; a]) (EAdd (ESum (0 + z) 0 (ESum (1 + z) 1 (EMul (ET 1 [i; (0 + z); a; (1 + z)]) (ET 2 [(1 + z); (0 + z)])))) (ESum (0 + z) 2 (ESum (1 + z) 3 (EMul (ET 3 [i; (0 + z); a; (1 + z)]) (ET 4 [(1 + z); (0 + z)])))))).
Definition r_hb2_H_a_oo (z i j : nat) : ex := (EAdd (ET 12 [i; j]) (EAdd (EAdd (EAdd (EAdd (ESum (0 + z) 1 (EMul (r_hb2_H_a_ov (1 + z) i (0 + z)) (ET 2 [(0 + z); j]))) (ESum (0 + z) 0 (ESum (1 + z) 1 (EMul (ET 13 [i; (0 + z); j; (1 + z)]) (ET 2 [(1 + z); (0 + z)]))))) (ESum (0 + z) 2 (ESum (1 + z) 3 (EMul (ET 14 [i; (0 + z); j; (1 + z)]) (ET 4 [(1 + z); (0 + z)]))))) (EScale (1) 2 (ESum (0 + z) 0 (ESum (1 + z) 1 (ESum (2 + z) 1 (EMul (ET 1 [i; (0 + z); (1 + z); (2 + z)]) (ET 10 [(1 + z); (2 + z); j; (0 + z)]))))))) (ESum (0 + z) 2 (ESum (1 + z) 1 (ESum (2 + z) 3 (EMul (ET 3 [i; (0 + z); (1 + z); (2 + z)]) (ET 11 [(1 + z); (2 + z); j; (0 + z)]))))))).
Definition r_hb2_H_a_vv (z a b : nat) : ex := (EAdd (ET 7 [a; b]) (ESub (ESub (EAdd (EAdd (EOpp (ESum (0 + z) 0 (EMul (r_hb2_H_a_ov (1 + z) (0 + z) b) (ET 2 [a; (0 + z)])))) (ESum (0 + z) 0 (ESum (1 + z) 1 (EMul (ET 8 [a; (0 + z); b; (1 + z)]) (ET 2 [(1 + z); (0 + z)]))))) (ESum (0 + z) 2 (ESum (1 + z) 3 (EMul (ET 9 [a; (0 + z); b; (1 + z)]) (ET 4 [(1 + z); (0 + z)]))))) (EScale (1) 2 (ESum (0 + z) 0 (ESum (1 + z) 0 (ESum (2 + z) 1 (EMul (ET 1 [(0 + z); (1 + z); b; (2 + z)]) (ET 10 [a; (2 + z); (0 + z); (1 + z)]))))))) (ESum (0 + z) 0 (ESum (1 + z) 2 (ESum (2 + z) 3 (EMul (ET 3 [(0 + z); (1 + z); b; (2 + z)]) (ET 11 [a; (2 + z); (0 + z); (1 + z)]))))))).
Definition r_hb2_H_b_ov (z i a : nat) : ex := (EAdd (ET 5 [i; a]) (EAdd (ESum (0 + z) 2 (ESum (1 + z) 3 (EMul (ET 6 [i; (0 + z); a; (1 + z)]) (ET 4 [(1 + z); (0 + z)])))) (ESum (0 + z) 0 (ESum (1 + z) 1 (EMul (ET 3 [(0 + z); i; (1 + z); a]) (ET 2 [(1 + z); (0 + z)])))))).
Definition r_hb2_H_b_oo (z i j : nat) : ex := (EAdd (ET 19 [i; j]) (EAdd (EAdd (EAdd (EAdd (ESum (0 + z) 3 (EMul (r_hb2_H_b_ov (1 + z) i (0 + z)) (ET 4 [(0 + z); j]))) (ESum (0 + z) 2 (ESum (1 + z) 3 (EMul (ET 20 [i; (0 + z); j; (1 + z)]) (ET 4 [(1 + z); (0 + z)]))))) (ESum (0 + z) 0 (ESum (1 + z) 1 (EMul (ET 21 [(0 + z); i; (1 + z); j]) (ET 2 [(1 + z); (0 + z)]))))) (EScale (1) 2 (ESum (0 + z) 2 (ESum (1 + z) 3 (ESum (2 + z) 3 (EMul (ET 6 [i; (0 + z); (1 + z); (2 + z)]) (ET 18 [(1 + z); (2 + z); j; (0 + z)]))))))) (ESum (0 + z) 0 (ESum (1 + z) 1 (ESum (2 + z) 3 (EMul (ET 3 [(0 + z); i; (1 + z); (2 + z)]) (ET 11 [(1 + z); (2 + z); (0 + z); j]))))))).
Definition r_hb2_H_b_vv (z a b : nat) : ex := (EAdd (ET 15 [a; b]) (ESub (ESub (EAdd (EAdd (EOpp (ESum (0 + z) 2 (EMul (r_hb2_H_b_ov (1 + z) (0 + z) b) (ET 4 [a; (0 + z)])))) (ESum (0 + z) 2 (ESum (1 + z) 3 (EMul (ET 16 [a; (0 + z); b; (1 + z)]) (ET 4 [(1 + z); (0 + z)]))))) (ESum (0 + z) 0 (ESum (1 + z) 1 (EMul (ET 17 [(0 + z); a; (1 + z); b]) (ET 2 [(1 + z); (0 + z)]))))) (EScale (1) 2 (ESum (0 + z) 2 (ESum (1 + z) 2 (ESum (2 + z) 3 (EMul (ET 6 [(0 + z); (1 + z); b; (2 + z)]) (ET 18 [a; (2 + z); (0 + z); (1 + z)]))))))) (ESum (0 + z) 0 (ESum (1 + z) 2 (ESum (2 + z) 1 (EMul (ET 3 [(0 + z); (1 + z); (2 + z); b]) (ET 11 [(2 + z); a; (0 + z); (1 + z)]))))))).
Definition r_hb2_Q1 (z a m e f : nat) : ex := (EOpp (ESum (0 + z) 0 (EMul (ET 1 [m; (0 + z); f; e]) (ET 2 [a; (0 + z)])))).
Definition r_hb2_I2A_vovv (z a m e f : nat) : ex := (EAdd (ET 8 [a; m; e; f]) (EScale (1) 2 (r_hb2_Q1 (0 + z) a m e f))).
Definition r_hb2_H_aa_vovv (z a m e f : nat) : ex := (EAdd (r_hb2_I2A_vovv (0 + z) a m e f) (EScale (1) 2 (r_hb2_Q1 (0 + z) a m e f))).
Definition r_hb2_Q1_1 (z m n i e : nat) : ex := (ESum (0 + z) 1 (EMul (ET 1 [m; n; (0 + z); e]) (ET 2 [(0 + z); i]))).
Definition r_hb2_I2A_ooov (z m n i e : nat) : ex := (EAdd (ET 13 [m; n; i; e]) (EScale (1) 2 (r_hb2_Q1_1 (0 + z) m n i e))).
Definition r_hb2_H_aa_ooov (z m n i e : nat) : ex := (EAdd (r_hb2_I2A_ooov (0 + z) m n i e) (EScale (1) 2 (r_hb2_Q1_1 (0 + z) m n i e))).
Definition r_hb2_Q1_2 (z a m e f : nat) : ex := (EOpp (ESum (0 + z) 0 (EMul (ET 3 [(0 + z); m; e; f]) (ET 2 [a; (0 + z)])))).
Definition r_hb2_I2B_vovv (z a m e f : nat) : ex := (EAdd (ET 9 [a; m; e; f]) (EScale (1) 2 (r_hb2_Q1_2 (0 + z) a m e f))).
Definition r_hb2_H_ab_vovv (z a m e f : nat) : ex := (EAdd (r_hb2_I2B_vovv (0 + z) a m e f) (EScale (1) 2 (r_hb2_Q1_2 (0 + z) a m e f))).
Definition r_hb2_Q1_3 (z m n i e : nat) : ex := (ESum (0 + z) 1 (EMul (ET 3 [m; n; (0 + z); e]) (ET 2 [(0 + z); i]))).
Definition r_hb2_I2B_ooov (z m n i e : nat) : ex := (EAdd (ET 14 [m; n; i; e]) (EScale (1) 2 (r_hb2_Q1_3 (0 + z) m n i e))).
Definition r_hb2_H_ab_ooov (z m n i e : nat) : ex := (EAdd (r_hb2_I2B_ooov (0 + z) m n i e) (EScale (1) 2 (r_hb2_Q1_3 (0 + z) m n i e))).
Definition r_hb2_Q1_4 (z m a e f : nat) : ex := (EOpp (ESum (0 + z) 2 (EMul (ET 3 [m; (0 + z); e; f]) (ET 4 [a; (0 + z)])))).
Definition r_hb2_I2B_ovvv (z m a e f : nat) : ex := (EAdd (ET 17 [m; a; e; f]) (EScale (1) 2 (r_hb2_Q1_4 (0 + z) m a e f))).
Definition r_hb2_H_ab_ovvv (z m a e f : nat) : ex := (EAdd (r_hb2_I2B_ovvv (0 + z) m a e f) (EScale (1) 2 (r_hb2_Q1_4 (0 + z) m a e f))).
Definition r_hb2_Q1_5 (z n m e i : nat) : ex := (ESum (0 + z) 3 (EMul (ET 3 [n; m; e; (0 + z)]) (ET 4 [(0 + z); i]))).
Definition r_hb2_I2B_oovo (z n m e i : nat) : ex := (EAdd (ET 21 [n; m; e; i]) (EScale (1) 2 (r_hb2_Q1_5 (0 + z) n m e i))).
Definition r_hb2_H_ab_oovo (z n m e i : nat) : ex := (EAdd (r_hb2_I2B_oovo (0 + z) n m e i) (EScale (1) 2 (r_hb2_Q1_5 (0 + z) n m e i))).
Definition r_hb2_Q1_6 (z a m e f : nat) : ex := (EOpp (ESum (0 + z) 2 (EMul (ET 6 [(0 + z); m; e; f]) (ET 4 [a; (0 + z)])))).
Definition r_hb2_I2C_vovv (z a m e f : nat) : ex := (EAdd (ET 16 [a; m; e; f]) (EScale (1) 2 (r_hb2_Q1_6 (0 + z) a m e f))).
Definition r_hb2_H_bb_vovv (z a m e f : nat) : ex := (EAdd (r_hb2_I2C_vovv (0 + z) a m e f) (EScale (1) 2 (r_hb2_Q1_6 (0 + z) a m e f))).
Definition r_hb2_Q1_7 (z m n i e : nat) : ex := (ESum (0 + z) 3 (EMul (ET 6 [m; n; (0 + z); e]) (ET 4 [(0 + z); i]))).
Definition r_hb2_I2C_ooov (z m n i e : nat) : ex := (EAdd (ET 20 [m; n; i; e]) (EScale (1) 2 (r_hb2_Q1_7 (0 + z) m n i e))).
Definition r_hb2_H_bb_ooov (z m n i e : nat) : ex := (EAdd (r_hb2_I2C_ooov (0 + z) m n i e) (EScale (1) 2 (r_hb2_Q1_7 (0 + z) m n i e))).
Definition r_hb2_Q1_8 (z a b e f : nat) : ex := (EOpp (ESum (0 + z) 0 (EMul (r_hb2_I2A_vovv (1 + z) b (0 + z) f e) (ET 2 [a; (0 + z)])))).
Definition r_hb2_Q1_9 (z a b e f : nat) : ex := (ESub (r_hb2_Q1_8 (0 + z) a b e f) (r_hb2_Q1_8 (0 + z) b a e f)).
Definition r_hb2_H_aa_vvvv (z a b c d : nat) : ex := (EAdd (ET 41 [a; b; c; d]) (r_hb2_Q1_9 (0 + z) a b c d)).
Definition r_hb2_H_ab_vvvv (z a b c d : nat) : ex := (EAdd (ET 42 [a; b; c; d]) (ESub (EOpp (ESum (0 + z) 0 (EMul (r_hb2_I2B_ovvv (1 + z) (0 + z) b c d) (ET 2 [a; (0 + z)])))) (ESum (0 + z) 2 (EMul (r_hb2_I2B_vovv (1 + z) a (0 + z) c d) (ET 4 [b; (0 + z)]))))).
Definition r_hb2_Q1_10 (z a b e f : nat) : ex := (EOpp (ESum (0 + z) 2 (EMul (r_hb2_I2C_vovv (1 + z) b (0 + z) f e) (ET 4 [a; (0 + z)])))).
Definition r_hb2_Q1_11 (z a b e f : nat) : ex := (ESub (r_hb2_Q1_10 (0 + z) a b e f) (r_hb2_Q1_10 (0 + z) b a e f)).
Definition r_hb2_H_bb_vvvv (z a b c d : nat) : ex := (EAdd (ET 43 [a; b; c; d]) (r_hb2_Q1_11 (0 + z) a b c d)).
Definition r_hb2_Q1_12 (z m n i j : nat) : ex := (ESum (0 + z) 1 (EMul (r_hb2_I2A_ooov (1 + z) n m j (0 + z)) (ET 2 [(0 + z); i]))).
Definition r_hb2_Q1_13 (z m n i j : nat) : ex := (ESub (r_hb2_Q1_12 (0 + z) m n i j) (r_hb2_Q1_12 (0 + z) m n j i)).
Definition r_hb2_H_aa_oooo (z i j k l : nat) : ex := (EAdd (ET 28 [i; j; k; l]) (r_hb2_Q1_13 (0 + z) i j k l)).
Definition r_hb2_H_ab_oooo (z i j k l : nat) : ex := (EAdd (ET 34 [i; j; k; l]) (EAdd (ESum (0 + z) 1 (EMul (r_hb2_I2B_oovo (1 + z) i j (0 + z) l) (ET 2 [(0 + z); k]))) (ESum (0 + z) 3 (EMul (r_hb2_I2B_ooov (1 + z) i j k (0 + z)) (ET 4 [(0 + z); l]))))).
Definition r_hb2_Q1_14 (z m n i j : nat) : ex := (ESum (0 + z) 3 (EMul (r_hb2_I2C_ooov (1 + z) n m j (0 + z)) (ET 4 [(0 + z); i]))).
Definition r_hb2_Q1_15 (z m n i j : nat) : ex := (ESub (r_hb2_Q1_14 (0 + z) m n i j) (r_hb2_Q1_14 (0 + z) m n j i)).
Definition r_hb2_H_bb_oooo (z i j k l : nat) : ex := (EAdd (ET 31 [i; j; k; l]) (r_hb2_Q1_15 (0 + z) i j k l)).
Definition r_hb2_H_aa_voov (z a i j b : nat) : ex := (EAdd (ET 22 [a; i; j; b]) (EAdd (EAdd (ESub (ESum (0 + z) 1 (EMul (r_hb2_I2A_vovv (1 + z) a i (0 + z) b) (ET 2 [(0 + z); j]))) (ESum (0 + z) 0 (EMul (r_hb2_I2A_ooov (1 + z) (0 + z) i j b) (ET 2 [a; (0 + z)])))) (ESum (0 + z) 0 (ESum (1 + z) 1 (EMul (ET 1 [(0 + z); i; (1 + z); b]) (ET 10 [a; (1 + z); j; (0 + z)]))))) (ESum (0 + z) 2 (ESum (1 + z) 3 (EMul (ET 3 [i; (0 + z); b; (1 + z)]) (ET 11 [a; (1 + z); j; (0 + z)])))))).
Definition r_hb2_H_ab_voov (z a i j b : nat) : ex := (EAdd (ET 23 [a; i; j; b]) (EAdd (EAdd (ESub (ESum (0 + z) 1 (EMul (r_hb2_I2B_vovv (1 + z) a i (0 + z) b) (ET 2 [(0 + z); j]))) (ESum (0 + z) 0 (EMul (r_hb2_I2B_ooov (1 + z) (0 + z) i j b) (ET 2 [a; (0 + z)])))) (ESum (0 + z) 0 (ESum (1 + z) 1 (EMul (ET 3 [(0 + z); i; (1 + z); b]) (ET 10 [a; (1 + z); j; (0 + z)]))))) (ESum (0 + z) 2 (ESum (1 + z) 3 (EMul (ET 6 [(0 + z); i; (1 + z); b]) (ET 11 [a; (1 + z); j; (0 + z)])))))).
Definition r_hb2_H_ab_ovvo (z i a b j : nat) : ex := (EAdd (ET 26 [i; a; b; j]) (EAdd (EAdd (ESub (ESum (0 + z) 3 (EMul (r_hb2_I2B_ovvv (1 + z) i a b (0 + z)) (ET 4 [(0 + z); j]))) (ESum (0 + z) 2 (EMul (r_hb2_I2B_oovo (1 + z) i (0 + z) b j) (ET 4 [a; (0 + z)])))) (ESum (0 + z) 2 (ESum (1 + z) 3 (EMul (ET 3 [i; (0 + z); b; (1 + z)]) (ET 18 [a; (1 + z); j; (0 + z)]))))) (ESum (0 + z) 0 (ESum (1 + z) 1 (EMul (ET 1 [i; (0 + z); b; (1 + z)]) (ET 11 [(1 + z); a; (0 + z); j])))))).
Definition r_hb2_H_ab_ovov (z i a j b : nat) : ex := (EAdd (ET 35 [i; a; j; b]) (ESub (ESub (ESum (0 + z) 1 (EMul (r_hb2_I2B_ovvv (1 + z) i a (0 + z) b) (ET 2 [(0 + z); j]))) (ESum (0 + z) 2 (EMul (r_hb2_I2B_ooov (1 + z) i (0 + z) j b) (ET 4 [a; (0 + z)])))) (ESum (0 + z) 2 (ESum (1 + z) 1 (EMul (ET 3 [i; (0 + z); (1 + z); b]) (ET 11 [(1 + z); a; j; (0 + z)])))))).
Definition r_hb2_H_ab_vovo (z a i b j : nat) : ex := (EAdd (ET 36 [a; i; b; j]) (ESub (EAdd (EOpp (ESum (0 + z) 0 (EMul (r_hb2_I2B_oovo (1 + z) (0 + z) i b j) (ET 2 [a; (0 + z)])))) (ESum (0 + z) 3 (EMul (r_hb2_I2B_vovv (1 + z) a i b (0 + z)) (ET 4 [(0 + z); j])))) (ESum (0 + z) 0 (ESum (1 + z) 3 (EMul (ET 3 [(0 + z); i; b; (1 + z)]) (ET 11 [a; (1 + z); (0 + z); j])))))).
Definition r_hb2_H_bb_voov (z a i j b : nat) : ex := (EAdd (ET 25 [a; i; j; b]) (EAdd (EAdd (ESub (ESum (0 + z) 3 (EMul (r_hb2_I2C_vovv (1 + z) a i (0 + z) b) (ET 4 [(0 + z); j]))) (ESum (0 + z) 2 (EMul (r_hb2_I2C_ooov (1 + z) (0 + z) i j b) (ET 4 [a; (0 + z)])))) (ESum (0 + z) 2 (ESum (1 + z) 3 (EMul (ET 6 [(0 + z); i; (1 + z); b]) (ET 18 [a; (1 + z); j; (0 + z)]))))) (ESum (0 + z) 0 (ESum (1 + z) 1 (EMul (ET 3 [(0 + z); i; (1 + z); b]) (ET 11 [(1 + z); a; (0 + z); j])))))).
Definition r_hb2_Q1_16 (z a m i f : nat) : ex := (EAdd (ET 22 [a; m; i; f]) (EScale (1) 2 (ESum (0 + z) 1 (EMul (ET 8 [a; m; (0 + z); f]) (ET 2 [(0 + z); i]))))).
Definition r_hb2_Q1_17 (z a m i j : nat) : ex := (ESum (0 + z) 1 (EMul (r_hb2_Q1_16 (1 + z) a m i (0 + z)) (ET 2 [(0 + z); j]))).
Definition r_hb2_Q1_18 (z a m i j : nat) : ex := (ESub (r_hb2_Q1_17 (0 + z) a m i j) (r_hb2_Q1_17 (0 + z) a m j i)).
Definition r_hb2_H_aa_vooo (z a i j k : nat) : ex := (EAdd (ET 29 [a; i; j; k]) (EAdd (r_hb2_Q1_18 (0 + z) a i j k) (EOpp (ESum (0 + z) 0 (EMul (r_hb2_H_aa_oooo (1 + z) (0 + z) i j k) (ET 2 [a; (0 + z)])))))).
Definition r_hb2_Q1_19 (z a m i e : nat) : ex := (EAdd (ET 23 [a; m; i; e]) (ESum (0 + z) 1 (EMul (ET 9 [a; m; (0 + z); e]) (ET 2 [(0 + z); i])))).
Definition r_hb2_H_ab_vooo (z a i j k : nat) : ex := (EAdd (ET 38 [a; i; j; k]) (EAdd (EAdd (EOpp (ESum (0 + z) 0 (EMul (r_hb2_H_ab_oooo (1 + z) (0 + z) i j k) (ET 2 [a; (0 + z)])))) (ESum (0 + z) 1 (EMul (ET 36 [a; i; (0 + z); k]) (ET 2 [(0 + z); j])))) (ESum (0 + z) 3 (EMul (r_hb2_Q1_19 (1 + z) a i j (0 + z)) (ET 4 [(0 + z); k]))))).
Definition r_hb2_Q1_20 (z m a j e : nat) : ex := (EAdd (ET 35 [m; a; j; e]) (ESum (0 + z) 1 (EMul (ET 17 [m; a; (0 + z); e]) (ET 2 [(0 + z); j])))).
Definition r_hb2_H_ab_ovoo (z i a j k : nat) : ex := (EAdd (ET 37 [i; a; j; k]) (EAdd (EAdd (EOpp (ESum (0 + z) 2 (EMul (r_hb2_H_ab_oooo (1 + z) i (0 + z) j k) (ET 4 [a; (0 + z)])))) (ESum (0 + z) 3 (EMul (r_hb2_Q1_20 (1 + z) i a j (0 + z)) (ET 4 [(0 + z); k])))) (ESum (0 + z) 1 (EMul (ET 26 [i; a; (0 + z); k]) (ET 2 [(0 + z); j]))))).
Definition r_hb2_Q1_21 (z a m i f : nat) : ex := (EAdd (ET 25 [a; m; i; f]) (EScale (1) 2 (ESum (0 + z) 3 (EMul (ET 16 [a; m; (0 + z); f]) (ET 4 [(0 + z); i]))))).
Definition r_hb2_Q1_22 (z a m i j : nat) : ex := (ESum (0 + z) 3 (EMul (r_hb2_Q1_21 (1 + z) a m i (0 + z)) (ET 4 [(0 + z); j]))).
Definition r_hb2_Q1_23 (z a m i j : nat) : ex := (ESub (r_hb2_Q1_22 (0 + z) a m i j) (r_hb2_Q1_22 (0 + z) a m j i)).
Definition r_hb2_H_bb_vooo (z a i j k : nat) : ex := (EAdd (ET 32 [a; i; j; k]) (EAdd (r_hb2_Q1_23 (0 + z) a i j k) (EOpp (ESum (0 + z) 2 (EMul (r_hb2_H_bb_oooo (1 + z) (0 + z) i j k) (ET 4 [a; (0 + z)])))))).
Definition r_hb2_Q1_24 (z m b i e : nat) : ex := (ESub (ET 47 [m; b; i; e]) (EScale (1) 2 (ESum (0 + z) 0 (EMul (ET 13 [m; (0 + z); i; e]) (ET 2 [b; (0 + z)]))))).
Definition r_hb2_Q1_25 (z a b i e : nat) : ex := (EOpp (ESum (0 + z) 0 (EMul (r_hb2_Q1_24 (1 + z) (0 + z) b i e) (ET 2 [a; (0 + z)])))).
Definition r_hb2_Q1_26 (z a b i e : nat) : ex := (ESub (r_hb2_Q1_25 (0 + z) a b i e) (r_hb2_Q1_25 (0 + z) b a i e)).
Definition r_hb2_H_aa_vvov (z a b i c : nat) : ex := (EAdd (ET 30 [a; b; i; c]) (EAdd (r_hb2_Q1_26 (0 + z) a b i c) (ESum (0 + z) 1 (EMul (r_hb2_H_aa_vvvv (1 + z) a b (0 + z) c) (ET 2 [(0 + z); i]))))).
Definition r_hb2_Q1_27 (z m b i e : nat) : ex := (ESub (ET 35 [m; b; i; e]) (ESum (0 + z) 2 (EMul (ET 14 [m; (0 + z); i; e]) (ET 4 [b; (0 + z)])))).
Definition r_hb2_Q1_28 (z a b i e : nat) : ex := (EOpp (ESum (0 + z) 0 (EMul (r_hb2_Q1_27 (1 + z) (0 + z) b i e) (ET 2 [a; (0 + z)])))).
Definition r_hb2_H_ab_vvov (z a b i c : nat) : ex := (EAdd (ET 40 [a; b; i; c]) (EAdd (r_hb2_Q1_28 (0 + z) a b i c) (ESub (ESum (0 + z) 1 (EMul (r_hb2_H_ab_vvvv (1 + z) a b (0 + z) c) (ET 2 [(0 + z); i]))) (ESum (0 + z) 2 (EMul (ET 23 [a; (0 + z); i; c]) (ET 4 [b; (0 + z)])))))).
Definition r_hb2_Q1_29 (z b m e i : nat) : ex := (ESub (ET 36 [b; m; e; i]) (ESum (0 + z) 0 (EMul (ET 21 [(0 + z); m; e; i]) (ET 2 [b; (0 + z)])))).
Definition r_hb2_Q1_30 (z b a e i : nat) : ex := (EOpp (ESum (0 + z) 2 (EMul (r_hb2_Q1_29 (1 + z) b (0 + z) e i) (ET 4 [a; (0 + z)])))).
Definition r_hb2_H_ab_vvvo (z a b c i : nat) : ex := (EAdd (ET 39 [a; b; c; i]) (EAdd (r_hb2_Q1_30 (0 + z) a b c i) (ESub (ESum (0 + z) 3 (EMul (r_hb2_H_ab_vvvv (1 + z) a b c (0 + z)) (ET 4 [(0 + z); i]))) (ESum (0 + z) 0 (EMul (ET 26 [(0 + z); b; c; i]) (ET 2 [a; (0 + z)])))))).
Definition r_hb2_Q1_31 (z m b i e : nat) : ex := (ESub (ET 48 [m; b; i; e]) (EScale (1) 2 (ESum (0 + z) 2 (EMul (ET 20 [m; (0 + z); i; e]) (ET 4 [b; (0 + z)]))))).
Definition r_hb2_Q1_32 (z a b i e : nat) : ex := (EOpp (ESum (0 + z) 2 (EMul (r_hb2_Q1_31 (1 + z) (0 + z) b i e) (ET 4 [a; (0 + z)])))).
Definition r_hb2_Q1_33 (z a b i e : nat) : ex := (ESub (r_hb2_Q1_32 (0 + z) a b i e) (r_hb2_Q1_32 (0 + z) b a i e)).
Definition r_hb2_H_bb_vvov (z a b i c : nat) : ex := (EAdd (ET 33 [a; b; i; c]) (EAdd (r_hb2_Q1_33 (0 + z) a b i c) (ESum (0 + z) 3 (EMul (r_hb2_H_bb_vvvv (1 + z) a b (0 + z) c) (ET 4 [(0 + z); i]))))).
Definition r_ccsdt_X_a_ov (z m e : nat) : ex := (EAdd (ET 0 [m; e]) (EAdd (ESum (0 + z) 0 (ESum (1 + z) 1 (EMul (ET 1 [m; (0 + z); e; (1 + z)]) (ET 2 [(1 + z); (0 + z)])))) (ESum (0 + z) 2 (ESum (1 + z) 3 (EMul (ET 3 [m; (0 + z); e; (1 + z)]) (ET 4 [(1 + z); (0 + z)])))))).
Definition r_ccsdt_X_b_ov (z m e : nat) : ex := (EAdd (ET 5 [m; e]) (EAdd (ESum (0 + z) 0 (ESum (1 + z) 1 (EMul (ET 3 [(0 + z); m; (1 + z); e]) (ET 2 [(1 + z); (0 + z)])))) (ESum (0 + z) 2 (ESum (1 + z) 3 (EMul (ET 6 [m; (0 + z); e; (1 + z)]) (ET 4 [(1 + z); (0 + z)])))))).
Definition r_ccsdt_X_a_vv (z a e : nat) : ex := (EAdd (ET 7 [a; e]) (ESub (ESub (EAdd (ESum (0 + z) 0 (ESum (1 + z) 1 (EMul (ET 8 [a; (0 + z); e; (1 + z)]) (ET 2 [(1 + z); (0 + z)])))) (ESum (0 + z) 2 (ESum (1 + z) 3 (EMul (ET 9 [a; (0 + z); e; (1 + z)]) (ET 4 [(1 + z); (0 + z)]))))) (EScale (1) 2 (ESum (0 + z) 0 (ESum (1 + z) 0 (ESum (2 + z) 1 (EMul (ET 1 [(0 + z); (1 + z); e; (2 + z)]) (ET 10 [a; (2 + z); (0 + z); (1 + z)]))))))) (ESum (0 + z) 0 (ESum (1 + z) 2 (ESum (2 + z) 3 (EMul (ET 3 [(0 + z); (1 + z); e; (2 + z)]) (ET 11 [a; (2 + z); (0 + z); (1 + z)]))))))).
Definition r_ccsdt_X_a_oo (z m i : nat) : ex := (EAdd (ET 12 [m; i]) (EAdd (EAdd (EAdd (EAdd (ESum (0 + z) 0 (ESum (1 + z) 1 (EMul (ET 13 [m; (0 + z); i; (1 + z)]) (ET 2 [(1 + z); (0 + z)])))) (ESum (0 + z) 2 (ESum (1 + z) 3 (EMul (ET 14 [m; (0 + z); i; (1 + z)]) (ET 4 [(1 + z); (0 + z)]))))) (ESum (0 + z) 1 (EMul (r_ccsdt_X_a_ov (1 + z) m (0 + z)) (ET 2 [(0 + z); i])))) (EScale (1) 2 (ESum (0 + z) 0 (ESum (1 + z) 1 (ESum (2 + z) 1 (EMul (ET 1 [m; (0 + z); (1 + z); (2 + z)]) (ET 10 [(1 + z); (2 + z); i; (0 + z)]))))))) (ESum (0 + z) 2 (ESum (1 + z) 1 (ESum (2 + z) 3 (EMul (ET 3 [m; (0 + z); (1 + z); (2 + z)]) (ET 11 [(1 + z); (2 + z); i; (0 + z)]))))))).
Definition r_ccsdt_X_b_vv (z a e : nat) : ex := (EAdd (ET 15 [a; e]) (ESub (ESub (EAdd (ESum (0 + z) 2 (ESum (1 + z) 3 (EMul (ET 16 [a; (0 + z); e; (1 + z)]) (ET 4 [(1 + z); (0 + z)])))) (ESum (0 + z) 0 (ESum (1 + z) 1 (EMul (ET 17 [(0 + z); a; (1 + z); e]) (ET 2 [(1 + z); (0 + z)]))))) (EScale (1) 2 (ESum (0 + z) 2 (ESum (1 + z) 2 (ESum (2 + z) 3 (EMul (ET 6 [(0 + z); (1 + z); e; (2 + z)]) (ET 18 [a; (2 + z); (0 + z); (1 + z)]))))))) (ESum (0 + z) 0 (ESum (1 + z) 2 (ESum (2 + z) 1 (EMul (ET 3 [(0 + z); (1 + z); (2 + z); e]) (ET 11 [(2 + z); a; (0 + z); (1 + z)]))))))).
Definition r_ccsdt_X_b_oo (z m i : nat) : ex := (EAdd (ET 19 [m; i]) (EAdd (EAdd (EAdd (EAdd (ESum (0 + z) 2 (ESum (1 + z) 3 (EMul (ET 20 [m; (0 + z); i; (1 + z)]) (ET 4 [(1 + z); (0 + z)])))) (ESum (0 + z) 0 (ESum (1 + z) 1 (EMul (ET 21 [(0 + z); m; (1 + z); i]) (ET 2 [(1 + z); (0 + z)]))))) (ESum (0 + z) 3 (EMul (r_ccsdt_X_b_ov (1 + z) m (0 + z)) (ET 4 [(0 + z); i])))) (EScale (1) 2 (ESum (0 + z) 2 (ESum (1 + z) 3 (ESum (2 + z) 3 (EMul (ET 6 [m; (0 + z); (1 + z); (2 + z)]) (ET 18 [(1 + z); (2 + z); i; (0 + z)]))))))) (ESum (0 + z) 0 (ESum (1 + z) 1 (ESum (2 + z) 3 (EMul (ET 3 [(0 + z); m; (1 + z); (2 + z)]) (ET 11 [(1 + z); (2 + z); (0 + z); i]))))))).
Definition r_ccsdt_dT_a (z a i : nat) : ex := (EOpp (ESum (0 + z) 0 (EMul (r_ccsdt_X_a_oo (1 + z) (0 + z) i) (ET 2 [a; (0 + z)])))).
Definition r_ccsdt_dT_a_1 (z a i : nat) : ex := (EAdd (r_ccsdt_dT_a (0 + z) a i) (ESum (0 + z) 1 (EMul (r_ccsdt_X_a_vv (1 + z) a (0 + z)) (ET 2 [(0 + z); i])))).
Definition r_ccsdt_dT_a_2 (z a i : nat) : ex := (EAdd (r_ccsdt_dT_a_1 (0 + z) a i) (ESum (0 + z) 0 (ESum (1 + z) 1 (EMul (r_ccsdt_X_a_ov (2 + z) (0 + z) (1 + z)) (ET 10 [a; (1 + z); i; (0 + z)]))))).
Definition r_ccsdt_dT_a_3 (z a i : nat) : ex := (EAdd (r_ccsdt_dT_a_2 (0 + z) a i) (ESum (0 + z) 2 (ESum (1 + z) 3 (EMul (r_ccsdt_X_b_ov (2 + z) (0 + z) (1 + z)) (ET 11 [a; (1 + z); i; (0 + z)]))))).
Definition r_ccsdt_dT_a_4 (z a i : nat) : ex := (EAdd (r_ccsdt_dT_a_3 (0 + z) a i) (ESum (0 + z) 0 (ESum (1 + z) 1 (EMul (ET 22 [a; (0 + z); i; (1 + z)]) (ET 2 [(1 + z); (0 + z)]))))).
Definition r_ccsdt_dT_a_5 (z a i : nat) : ex := (EAdd (r_ccsdt_dT_a_4 (0 + z) a i) (ESum (0 + z) 2 (ESum (1 + z) 3 (EMul (ET 23 [a; (0 + z); i; (1 + z)]) (ET 4 [(1 + z); (0 + z)]))))).
Definition r_ccsdt_dT_a_6 (z a i : nat) : ex := (ESub (r_ccsdt_dT_a_5 (0 + z) a i) (EScale (1) 2 (ESum (0 + z) 0 (ESum (1 + z) 0 (ESum (2 + z) 1 (EMul (ET 13 [(0 + z); (1 + z); i; (2 + z)]) (ET 10 [a; (2 + z); (0 + z); (1 + z)]))))))).
Definition r_ccsdt_dT_a_7 (z a i : nat) : ex := (ESub (r_ccsdt_dT_a_6 (0 + z) a i) (ESum (0 + z) 0 (ESum (1 + z) 2 (ESum (2 + z) 3 (EMul (ET 14 [(0 + z); (1 + z); i; (2 + z)]) (ET 11 [a; (2 + z); (0 + z); (1 + z)])))))).
Definition r_ccsdt_dT_a_8 (z a i : nat) : ex := (EAdd (r_ccsdt_dT_a_7 (0 + z) a i) (EScale (1) 2 (ESum (0 + z) 0 (ESum (1 + z) 1 (ESum (2 + z) 1 (EMul (ET 8 [a; (0 + z); (1 + z); (2 + z)]) (ET 10 [(1 + z); (2 + z); i; (0 + z)]))))))).
Definition r_ccsdt_dT_a_9 (z a i : nat) : ex := (EAdd (r_ccsdt_dT_a_8 (0 + z) a i) (ESum (0 + z) 2 (ESum (1 + z) 1 (ESum (2 + z) 3 (EMul (ET 9 [a; (0 + z); (1 + z); (2 + z)]) (ET 11 [(1 + z); (2 + z); i; (0 + z)])))))).
Definition r_ccsdt_dT_a_10 (z a i : nat) : ex := (EAdd (r_ccsdt_dT_a_9 (0 + z) a i) (EScale (1) 4 (ESum (0 + z) 0 (ESum (1 + z) 0 (ESum (2 + z) 1 (ESum (3 + z) 1 (EMul (ET 1 [(0 + z); (1 + z); (2 + z); (3 + z)]) (ET 49 [a; (2 + z); (3 + z); i; (0 + z); (1 + z)])))))))).
Definition r_ccsdt_dT_a_11 (z a i : nat) : ex := (EAdd (r_ccsdt_dT_a_10 (0 + z) a i) (ESum (0 + z) 0 (ESum (1 + z) 2 (ESum (2 + z) 1 (ESum (3 + z) 3 (EMul (ET 3 [(0 + z); (1 + z); (2 + z); (3 + z)]) (ET 50 [a; (2 + z); (3 + z); i; (0 + z); (1 + z)]))))))).
Definition r_ccsdt_dT_a_12 (z a i : nat) : ex := (EAdd (r_ccsdt_dT_a_11 (0 + z) a i) (EScale (1) 4 (ESum (0 + z) 2 (ESum (1 + z) 2 (ESum (2 + z) 3 (ESum (3 + z) 3 (EMul (ET 6 [(0 + z); (1 + z); (2 + z); (3 + z)]) (ET 51 [a; (2 + z); (3 + z); i; (0 + z); (1 + z)])))))))).
Definition r_ccsdt_res_a (z a i : nat) : ex := (EAdd (r_ccsdt_dT_a_12 (0 + z) a i) (ET 24 [a; i])).
Definition r_ccsdt_dT_b (z a i : nat) : ex := (EOpp (ESum (0 + z) 2 (EMul (r_ccsdt_X_b_oo (1 + z) (0 + z) i) (ET 4 [a; (0 + z)])))).
Definition r_ccsdt_dT_b_1 (z a i : nat) : ex := (EAdd (r_ccsdt_dT_b (0 + z) a i) (ESum (0 + z) 3 (EMul (r_ccsdt_X_b_vv (1 + z) a (0 + z)) (ET 4 [(0 + z); i])))).
Definition r_ccsdt_dT_b_2 (z a i : nat) : ex := (EAdd (r_ccsdt_dT_b_1 (0 + z) a i) (ESum (0 + z) 2 (ESum (1 + z) 3 (EMul (ET 25 [a; (0 + z); i; (1 + z)]) (ET 4 [(1 + z); (0 + z)]))))).
Definition r_ccsdt_dT_b_3 (z a i : nat) : ex := (EAdd (r_ccsdt_dT_b_2 (0 + z) a i) (ESum (0 + z) 0 (ESum (1 + z) 1 (EMul (ET 26 [(0 + z); a; (1 + z); i]) (ET 2 [(1 + z); (0 + z)]))))).
Definition r_ccsdt_dT_b_4 (z a i : nat) : ex := (EAdd (r_ccsdt_dT_b_3 (0 + z) a i) (ESum (0 + z) 0 (ESum (1 + z) 1 (EMul (r_ccsdt_X_a_ov (2 + z) (0 + z) (1 + z)) (ET 11 [(1 + z); a; (0 + z); i]))))).
Definition r_ccsdt_dT_b_5 (z a i : nat) : ex := (EAdd (r_ccsdt_dT_b_4 (0 + z) a i) (ESum (0 + z) 2 (ESum (1 + z) 3 (EMul (r_ccsdt_X_b_ov (2 + z) (0 + z) (1 + z)) (ET 18 [a; (1 + z); i; (0 + z)]))))).
Definition r_ccsdt_dT_b_6 (z a i : nat) : ex := (ESub (r_ccsdt_dT_b_5 (0 + z) a i) (EScale (1) 2 (ESum (0 + z) 2 (ESum (1 + z) 2 (ESum (2 + z) 3 (EMul (ET 20 [(0 + z); (1 + z); i; (2 + z)]) (ET 18 [a; (2 + z); (0 + z); (1 + z)]))))))).
Definition r_ccsdt_dT_b_7 (z a i : nat) : ex := (ESub (r_ccsdt_dT_b_6 (0 + z) a i) (ESum (0 + z) 0 (ESum (1 + z) 2 (ESum (2 + z) 1 (EMul (ET 21 [(0 + z); (1 + z); (2 + z); i]) (ET 11 [(2 + z); a; (0 + z); (1 + z)])))))).
Definition r_ccsdt_dT_b_8 (z a i : nat) : ex := (EAdd (r_ccsdt_dT_b_7 (0 + z) a i) (EScale (1) 2 (ESum (0 + z) 2 (ESum (1 + z) 3 (ESum (2 + z) 3 (EMul (ET 16 [a; (0 + z); (1 + z); (2 + z)]) (ET 18 [(1 + z); (2 + z); i; (0 + z)]))))))).
Definition r_ccsdt_dT_b_9 (z a i : nat) : ex := (EAdd (r_ccsdt_dT_b_8 (0 + z) a i) (ESum (0 + z) 0 (ESum (1 + z) 1 (ESum (2 + z) 3 (EMul (ET 17 [(0 + z); a; (1 + z); (2 + z)]) (ET 11 [(1 + z); (2 + z); (0 + z); i])))))).
Definition r_ccsdt_dT_b_10 (z a i : nat) : ex := (EAdd (r_ccsdt_dT_b_9 (0 + z) a i) (EScale (1) 4 (ESum (0 + z) 2 (ESum (1 + z) 2 (ESum (2 + z) 3 (ESum (3 + z) 3 (EMul (ET 6 [(0 + z); (1 + z); (2 + z); (3 + z)]) (ET 52 [a; (2 + z); (3 + z); i; (0 + z); (1 + z)])))))))).
Definition r_ccsdt_dT_b_11 (z a i : nat) : ex := (EAdd (r_ccsdt_dT_b_10 (0 + z) a i) (EScale (1) 4 (ESum (0 + z) 0 (ESum (1 + z) 0 (ESum (2 + z) 1 (ESum (3 + z) 1 (EMul (ET 1 [(0 + z); (1 + z); (2 + z); (3 + z)]) (ET 50 [(2 + z); (3 + z); a; (0 + z); (1 + z); i])))))))).
Definition r_ccsdt_dT_b_12 (z a i : nat) : ex := (EAdd (r_ccsdt_dT_b_11 (0 + z) a i) (ESum (0 + z) 0 (ESum (1 + z) 2 (ESum (2 + z) 1 (ESum (3 + z) 3 (EMul (ET 3 [(0 + z); (1 + z); (2 + z); (3 + z)]) (ET 51 [(2 + z); (3 + z); a; (0 + z); (1 + z); i]))))))).
Definition r_ccsdt_res_b (z a i : nat) : ex := (EAdd (r_ccsdt_dT_b_12 (0 + z) a i) (ET 27 [a; i])).
Definition r_ccsdt_X_a_vv_1 (z a e : nat) : ex := (ESub (r_ccsdt_X_a_vv (0 + z) a e) (ESum (0 + z) 0 (EMul (r_ccsdt_X_a_ov (1 + z) (0 + z) e) (ET 2 [a; (0 + z)])))).
Definition r_ccsdt_X_b_vv_1 (z a e : nat) : ex := (ESub (r_ccsdt_X_b_vv (0 + z) a e) (ESum (0 + z) 2 (EMul (r_ccsdt_X_b_ov (1 + z) (0 + z) e) (ET 4 [a; (0 + z)])))).
Definition r_ccsdt_X_aa_ooov (z m n i e : nat) : ex := (ESum (0 + z) 1 (EMul (ET 1 [m; n; (0 + z); e]) (ET 2 [(0 + z); i]))).
Definition r_ccsdt_X_aa_vovv (z a m e f : nat) : ex := (EOpp (ESum (0 + z) 0 (EMul (ET 1 [m; (0 + z); f; e]) (ET 2 [a; (0 + z)])))).
Definition r_ccsdt_X_aa_oooo (z m n i j : nat) : ex := (EAdd (EScale (1) 2 (ET 28 [m; n; i; j])) (ESum (0 + z) 1 (EMul (EAdd (ET 13 [n; m; j; (0 + z)]) (EScale (1) 2 (r_ccsdt_X_aa_ooov (1 + z) n m j (0 + z)))) (ET 2 [(0 + z); i])))).
Definition r_ccsdt_X_aa_oooo_1 (z m n i j : nat) : ex := (ESub (r_ccsdt_X_aa_oooo (0 + z) m n i j) (r_ccsdt_X_aa_oooo (0 + z) m n j i)).
Definition r_ccsdt_X_aa_voov (z a m i e : nat) : ex := (EAdd (ET 22 [a; m; i; e]) (ESub (ESum (0 + z) 1 (EMul (EAdd (ET 8 [a; m; (0 + z); e]) (EScale (1) 2 (r_ccsdt_X_aa_vovv (1 + z) a m (0 + z) e))) (ET 2 [(0 + z); i]))) (ESum (0 + z) 0 (EMul (EAdd (ET 13 [(0 + z); m; i; e]) (EScale (1) 2 (r_ccsdt_X_aa_ooov (1 + z) (0 + z) m i e))) (ET 2 [a; (0 + z)]))))).
Definition r_ccsdt_L_amie (z a m i f : nat) : ex := (EAdd (ET 22 [a; m; i; f]) (EScale (1) 2 (ESum (0 + z) 1 (EMul (ET 8 [a; m; (0 + z); f]) (ET 2 [(0 + z); i]))))).
Definition r_ccsdt_X_mnij (z m n i j : nat) : ex := (EAdd (ET 28 [m; n; i; j]) (ESum (0 + z) 1 (EMul (r_ccsdt_X_aa_ooov (1 + z) m n i (0 + z)) (ET 2 [(0 + z); j])))).
Definition r_ccsdt_X_aa_vooo (z a m i j : nat) : ex := (EAdd (EScale (1) 2 (ET 29 [a; m; i; j])) (ESub (ESum (0 + z) 1 (EMul (r_ccsdt_L_amie (1 + z) a m i (0 + z)) (ET 2 [(0 + z); j]))) (EScale (1) 4 (ESum (0 + z) 0 (EMul (r_ccsdt_X_mnij (1 + z) (0 + z) m i j) (ET 2 [a; (0 + z)])))))).
Definition r_ccsdt_X_aa_vooo_1 (z a m i j : nat) : ex := (ESub (r_ccsdt_X_aa_vooo (0 + z) a m i j) (r_ccsdt_X_aa_vooo (0 + z) a m j i)).
Definition r_ccsdt_L_amie_1 (z a n i e : nat) : ex := (ESum (0 + z) 0 (EMul (ET 13 [(0 + z); n; i; e]) (ET 2 [a; (0 + z)]))).
Definition r_ccsdt_X_aa_vvov (z a b i e : nat) : ex := (EAdd (ET 30 [a; b; i; e]) (ESum (0 + z) 0 (EMul (r_ccsdt_L_amie_1 (1 + z) a (0 + z) i e) (ET 2 [b; (0 + z)])))).
Definition r_ccsdt_X_bb_ooov (z m n i e : nat) : ex := (ESum (0 + z) 3 (EMul (ET 6 [m; n; (0 + z); e]) (ET 4 [(0 + z); i]))).
Definition r_ccsdt_X_bb_oooo (z m n i j : nat) : ex := (EAdd (EScale (1) 2 (ET 31 [m; n; i; j])) (ESum (0 + z) 3 (EMul (EAdd (ET 20 [n; m; j; (0 + z)]) (EScale (1) 2 (r_ccsdt_X_bb_ooov (1 + z) n m j (0 + z)))) (ET 4 [(0 + z); i])))).
Definition r_ccsdt_X_bb_oooo_1 (z m n i j : nat) : ex := (ESub (r_ccsdt_X_bb_oooo (0 + z) m n i j) (r_ccsdt_X_bb_oooo (0 + z) m n j i)).
Definition r_ccsdt_X_bb_vovv (z a m e f : nat) : ex := (EOpp (ESum (0 + z) 2 (EMul (ET 6 [m; (0 + z); f; e]) (ET 4 [a; (0 + z)])))).
Definition r_ccsdt_X_bb_voov (z a m i e : nat) : ex := (EAdd (ET 25 [a; m; i; e]) (ESub (ESum (0 + z) 3 (EMul (EAdd (ET 16 [a; m; (0 + z); e]) (EScale (1) 2 (r_ccsdt_X_bb_vovv (1 + z) a m (0 + z) e))) (ET 4 [(0 + z); i]))) (ESum (0 + z) 2 (EMul (EAdd (ET 20 [(0 + z); m; i; e]) (EScale (1) 2 (r_ccsdt_X_bb_ooov (1 + z) (0 + z) m i e))) (ET 4 [a; (0 + z)]))))).
Definition r_ccsdt_L_amie_2 (z a m i f : nat) : ex := (EAdd (ET 25 [a; m; i; f]) (EScale (1) 2 (ESum (0 + z) 3 (EMul (ET 16 [a; m; (0 + z); f]) (ET 4 [(0 + z); i]))))).
Definition r_ccsdt_X_mnij_1 (z m n i j : nat) : ex := (EAdd (ET 31 [m; n; i; j]) (ESum (0 + z) 3 (EMul (r_ccsdt_X_bb_ooov (1 + z) m n i (0 + z)) (ET 4 [(0 + z); j])))).
Definition r_ccsdt_X_bb_vooo (z a m i j : nat) : ex := (EAdd (EScale (1) 2 (ET 32 [a; m; i; j])) (ESub (ESum (0 + z) 3 (EMul (r_ccsdt_L_amie_2 (1 + z) a m i (0 + z)) (ET 4 [(0 + z); j]))) (EScale (1) 4 (ESum (0 + z) 2 (EMul (r_ccsdt_X_mnij_1 (1 + z) (0 + z) m i j) (ET 4 [a; (0 + z)])))))).
Definition r_ccsdt_X_bb_vooo_1 (z a m i j : nat) : ex := (ESub (r_ccsdt_X_bb_vooo (0 + z) a m i j) (r_ccsdt_X_bb_vooo (0 + z) a m j i)).
Definition r_ccsdt_L_amie_3 (z a n i e : nat) : ex := (ESum (0 + z) 2 (EMul (ET 20 [(0 + z); n; i; e]) (ET 4 [a; (0 + z)]))).
Definition r_ccsdt_X_bb_vvov (z a b i e : nat) : ex := (EAdd (ET 33 [a; b; i; e]) (ESum (0 + z) 2 (EMul (r_ccsdt_L_amie_3 (1 + z) a (0 + z) i e) (ET 4 [b; (0 + z)])))).
Definition r_ccsdt_X_ab_ooov (z m n i e : nat) : ex := (ESum (0 + z) 1 (EMul (ET 3 [m; n; (0 + z); e]) (ET 2 [(0 + z); i]))).
Definition r_ccsdt_X_ab_oovo (z n m e i : nat) : ex := (ESum (0 + z) 3 (EMul (ET 3 [n; m; e; (0 + z)]) (ET 4 [(0 + z); i]))).
Definition r_ccsdt_X_ab_oooo (z m n i j : nat) : ex := (EAdd (ET 34 [m; n; i; j]) (EAdd (ESum (0 + z) 1 (EMul (EAdd (ET 21 [m; n; (0 + z); j]) (EScale (1) 2 (r_ccsdt_X_ab_oovo (1 + z) m n (0 + z) j))) (ET 2 [(0 + z); i]))) (ESum (0 + z) 3 (EMul (EAdd (ET 14 [m; n; i; (0 + z)]) (EScale (1) 2 (r_ccsdt_X_ab_ooov (1 + z) m n i (0 + z)))) (ET 4 [(0 + z); j]))))).
Definition r_ccsdt_X_ab_vovv (z a m e f : nat) : ex := (EOpp (ESum (0 + z) 0 (EMul (ET 3 [(0 + z); m; e; f]) (ET 2 [a; (0 + z)])))).
Definition r_ccsdt_X_ab_ovvv (z m a e f : nat) : ex := (EOpp (ESum (0 + z) 2 (EMul (ET 3 [m; (0 + z); e; f]) (ET 4 [a; (0 + z)])))).
Definition r_ccsdt_X_ab_voov (z a m i e : nat) : ex := (EAdd (ET 23 [a; m; i; e]) (ESub (ESum (0 + z) 1 (EMul (EAdd (ET 9 [a; m; (0 + z); e]) (EScale (1) 2 (r_ccsdt_X_ab_vovv (1 + z) a m (0 + z) e))) (ET 2 [(0 + z); i]))) (ESum (0 + z) 0 (EMul (EAdd (ET 14 [(0 + z); m; i; e]) (EScale (1) 2 (r_ccsdt_X_ab_ooov (1 + z) (0 + z) m i e))) (ET 2 [a; (0 + z)]))))).
Definition r_ccsdt_X_ab_ovvo (z m a e i : nat) : ex := (EAdd (ET 26 [m; a; e; i]) (ESub (ESum (0 + z) 3 (EMul (EAdd (ET 17 [m; a; e; (0 + z)]) (EScale (1) 2 (r_ccsdt_X_ab_ovvv (1 + z) m a e (0 + z)))) (ET 4 [(0 + z); i]))) (ESum (0 + z) 2 (EMul (EAdd (ET 21 [m; (0 + z); e; i]) (EScale (1) 2 (r_ccsdt_X_ab_oovo (1 + z) m (0 + z) e i))) (ET 4 [a; (0 + z)]))))).
Definition r_ccsdt_X_ab_ovov (z m a i e : nat) : ex := (EAdd (ET 35 [m; a; i; e]) (ESub (ESum (0 + z) 1 (EMul (EAdd (ET 17 [m; a; (0 + z); e]) (EScale (1) 2 (r_ccsdt_X_ab_ovvv (1 + z) m a (0 + z) e))) (ET 2 [(0 + z); i]))) (ESum (0 + z) 2 (EMul (EAdd (ET 14 [m; (0 + z); i; e]) (EScale (1) 2 (r_ccsdt_X_ab_ooov (1 + z) m (0 + z) i e))) (ET 4 [a; (0 + z)]))))).
Definition r_ccsdt_X_ab_vovo (z a m e i : nat) : ex := (ESub (ET 36 [a; m; e; i]) (ESub (ESum (0 + z) 0 (EMul (EAdd (ET 21 [(0 + z); m; e; i]) (EScale (1) 2 (r_ccsdt_X_ab_oovo (1 + z) (0 + z) m e i))) (ET 2 [a; (0 + z)]))) (ESum (0 + z) 3 (EMul (EAdd (ET 9 [a; m; e; (0 + z)]) (EScale (1) 2 (r_ccsdt_X_ab_vovv (1 + z) a m e (0 + z)))) (ET 4 [(0 + z); i]))))).
Definition r_ccsdt_X_mnij_2 (z m n i j : nat) : ex := (EAdd (ET 34 [m; n; i; j]) (EAdd (ESum (0 + z) 3 (EMul (ET 14 [m; n; i; (0 + z)]) (ET 4 [(0 + z); j]))) (ESum (0 + z) 1 (EMul (ET 21 [m; n; (0 + z); j]) (ET 2 [(0 + z); i]))))).
Definition r_ccsdt_L_mbej (z m b e j : nat) : ex := (EAdd (ET 26 [m; b; e; j]) (ESum (0 + z) 3 (EMul (ET 17 [m; b; e; (0 + z)]) (ET 4 [(0 + z); j])))).
Definition r_ccsdt_X_ab_ovoo (z m b i j : nat) : ex := (EAdd (ET 37 [m; b; i; j]) (ESub (ESum (0 + z) 1 (EMul (r_ccsdt_L_mbej (1 + z) m b (0 + z) j) (ET 2 [(0 + z); i]))) (ESum (0 + z) 2 (EMul (r_ccsdt_X_mnij_2 (1 + z) m (0 + z) i j) (ET 4 [b; (0 + z)]))))).
Definition r_ccsdt_L_amie_4 (z a m i f : nat) : ex := (ESum (0 + z) 1 (EMul (EAdd (ET 9 [a; m; (0 + z); f]) (r_ccsdt_X_ab_vovv (1 + z) a m (0 + z) f)) (ET 2 [(0 + z); i]))).
Definition r_ccsdt_X_ab_vooo (z a m i j : nat) : ex := (EAdd (ET 38 [a; m; i; j]) (ESum (0 + z) 3 (EMul (EAdd (ET 23 [a; m; i; (0 + z)]) (r_ccsdt_L_amie_4 (1 + z) a m i (0 + z))) (ET 4 [(0 + z); j])))).
Definition r_ccsdt_X_ab_vvvo (z a b e j : nat) : ex := (ESub (ET 39 [a; b; e; j]) (ESum (0 + z) 2 (EMul (ET 36 [a; (0 + z); e; j]) (ET 4 [b; (0 + z)])))).
Definition r_ccsdt_X_ab_vvov (z a b i e : nat) : ex := (ESub (ET 40 [a; b; i; e]) (ESum (0 + z) 0 (EMul (ET 35 [(0 + z); b; i; e]) (ET 2 [a; (0 + z)])))).
Definition r_ccsdt_I2A_voov (z a m i e : nat) : ex := (EAdd (r_ccsdt_X_aa_voov (0 + z) a m i e) (EAdd (EScale (1) 2 (ESum (0 + z) 0 (ESum (1 + z) 1 (EMul (ET 1 [m; (0 + z); e; (1 + z)]) (ET 10 [a; (1 + z); i; (0 + z)]))))) (ESum (0 + z) 2 (ESum (1 + z) 3 (EMul (ET 3 [m; (0 + z); e; (1 + z)]) (ET 11 [a; (1 + z); i; (0 + z)])))))).
Definition r_ccsdt_I2A_oooo (z m n i j : nat) : ex := (EAdd (r_ccsdt_X_aa_oooo_1 (0 + z) m n i j) (EScale (1) 2 (ESum (0 + z) 1 (ESum (1 + z) 1 (EMul (ET 1 [m; n; (0 + z); (1 + z)]) (ET 10 [(0 + z); (1 + z); i; j])))))).
Definition r_ccsdt_I2B_voov (z a m i e : nat) : ex := (EAdd (r_ccsdt_X_ab_voov (0 + z) a m i e) (EScale (1) 2 (ESum (0 + z) 2 (ESum (1 + z) 3 (EMul (ET 6 [m; (0 + z); e; (1 + z)]) (ET 11 [a; (1 + z); i; (0 + z)])))))).
Definition r_ccsdt_I2A_vooo (z a m i j : nat) : ex := (EAdd (r_ccsdt_X_aa_vooo_1 (0 + z) a m i j) (EScale (1) 2 (ESum (0 + z) 1 (ESum (1 + z) 1 (EMul (EAdd (ET 8 [a; m; (0 + z); (1 + z)]) (EScale (1) 2 (r_ccsdt_X_aa_vovv (2 + z) a m (0 + z) (1 + z)))) (ET 10 [(0 + z); (1 + z); i; j])))))).
Definition r_ccsdt_tau (z a b i j : nat) : ex := (EAdd (EScale (1) 2 (ET 10 [a; b; i; j])) (EMul (ET 2 [a; i]) (ET 2 [b; j]))).
Definition r_ccsdt_dT_aa (z a b i j : nat) : ex := (EScale (-1) 2 (ESum (0 + z) 0 (EMul (r_ccsdt_I2A_vooo (1 + z) a (0 + z) i j) (ET 2 [b; (0 + z)])))).
Definition r_ccsdt_dT_aa_1 (z a b i j : nat) : ex := (EAdd (r_ccsdt_dT_aa (0 + z) a b i j) (EScale (1) 2 (ESum (0 + z) 1 (EMul (r_ccsdt_X_aa_vvov (1 + z) a b i (0 + z)) (ET 2 [(0 + z); j]))))).
Definition r_ccsdt_dT_aa_2 (z a b i j : nat) : ex := (EAdd (r_ccsdt_dT_aa_1 (0 + z) a b i j) (EScale (1) 2 (ESum (0 + z) 1 (EMul (r_ccsdt_X_a_vv_1 (1 + z) a (0 + z)) (ET 10 [(0 + z); b; i; j]))))).
Definition r_ccsdt_dT_aa_3 (z a b i j : nat) : ex := (ESub (r_ccsdt_dT_aa_2 (0 + z) a b i j) (EScale (1) 2 (ESum (0 + z) 0 (EMul (r_ccsdt_X_a_oo (1 + z) (0 + z) i) (ET 10 [a; b; (0 + z); j]))))).
Definition r_ccsdt_dT_aa_4 (z a b i j : nat) : ex := (EAdd (r_ccsdt_dT_aa_3 (0 + z) a b i j) (ESum (0 + z) 0 (ESum (1 + z) 1 (EMul (r_ccsdt_I2A_voov (2 + z) a (0 + z) i (1 + z)) (ET 10 [(1 + z); b; (0 + z); j]))))).
Definition r_ccsdt_dT_aa_5 (z a b i j : nat) : ex := (EAdd (r_ccsdt_dT_aa_4 (0 + z) a b i j) (ESum (0 + z) 2 (ESum (1 + z) 3 (EMul (r_ccsdt_I2B_voov (2 + z) a (0 + z) i (1 + z)) (ET 11 [b; (1 + z); j; (0 + z)]))))).
Definition r_ccsdt_dT_aa_6 (z a b i j : nat) : ex := (EAdd (r_ccsdt_dT_aa_5 (0 + z) a b i j) (EScale (1) 4 (ESum (0 + z) 1 (ESum (1 + z) 1 (EMul (ET 41 [a; b; (0 + z); (1 + z)]) (r_ccsdt_tau (2 + z) (0 + z) (1 + z) i j)))))).
Definition r_ccsdt_dT_aa_7 (z a b i j : nat) : ex := (EAdd (r_ccsdt_dT_aa_6 (0 + z) a b i j) (EScale (1) 8 (ESum (0 + z) 0 (ESum (1 + z) 0 (EMul (r_ccsdt_I2A_oooo (2 + z) (0 + z) (1 + z) i j) (ET 10 [a; b; (0 + z); (1 + z)])))))).
Definition r_ccsdt_dT_aa_8 (z a b i j : nat) : ex := (EAdd (r_ccsdt_dT_aa_7 (0 + z) a b i j) (EScale (1) 4 (ESum (0 + z) 0 (ESum (1 + z) 1 (EMul (r_ccsdt_X_a_ov (2 + z) (0 + z) (1 + z)) (ET 49 [a; b; (1 + z); i; j; (0 + z)])))))).
Definition r_ccsdt_dT_aa_9 (z a b i j : nat) : ex := (EAdd (r_ccsdt_dT_aa_8 (0 + z) a b i j) (EScale (1) 4 (ESum (0 + z) 2 (ESum (1 + z) 3 (EMul (r_ccsdt_X_b_ov (2 + z) (0 + z) (1 + z)) (ET 50 [a; b; (1 + z); i; j; (0 + z)])))))).
Definition r_ccsdt_dT_aa_10 (z a b i j : nat) : ex := (ESub (r_ccsdt_dT_aa_9 (0 + z) a b i j) (EScale (1) 2 (ESum (0 + z) 0 (ESum (1 + z) 2 (ESum (2 + z) 3 (EMul (EAdd (ET 14 [(0 + z); (1 + z); i; (2 + z)]) (r_ccsdt_X_ab_ooov (3 + z) (0 + z) (1 + z) i (2 + z))) (ET 50 [a; b; (2 + z); (0 + z); j; (1 + z)]))))))).
Definition r_ccsdt_dT_aa_11 (z a b i j : nat) : ex := (ESub (r_ccsdt_dT_aa_10 (0 + z) a b i j) (EScale (1) 4 (ESum (0 + z) 0 (ESum (1 + z) 0 (ESum (2 + z) 1 (EMul (EAdd (ET 13 [(0 + z); (1 + z); i; (2 + z)]) (r_ccsdt_X_aa_ooov (3 + z) (0 + z) (1 + z) i (2 + z))) (ET 49 [a; b; (2 + z); (0 + z); j; (1 + z)]))))))).
Definition r_ccsdt_dT_aa_12 (z a b i j : nat) : ex := (EAdd (r_ccsdt_dT_aa_11 (0 + z) a b i j) (EScale (1) 4 (ESum (0 + z) 0 (ESum (1 + z) 1 (ESum (2 + z) 1 (EMul (EAdd (ET 8 [a; (0 + z); (1 + z); (2 + z)]) (r_ccsdt_X_aa_vovv (3 + z) a (0 + z) (1 + z) (2 + z))) (ET 49 [(1 + z); b; (2 + z); i; j; (0 + z)]))))))).
Definition r_ccsdt_dT_aa_13 (z a b i j : nat) : ex := (EAdd (r_ccsdt_dT_aa_12 (0 + z) a b i j) (EScale (1) 2 (ESum (0 + z) 2 (ESum (1 + z) 1 (ESum (2 + z) 3 (EMul (EAdd (ET 9 [a; (0 + z); (1 + z); (2 + z)]) (r_ccsdt_X_ab_vovv (3 + z) a (0 + z) (1 + z) (2 + z))) (ET 50 [(1 + z); b; (2 + z); i; j; (0 + z)]))))))).
Definition r_ccsdt_res_aa (z a b i j : nat) : ex := (EAdd (r_ccsdt_dT_aa_13 (0 + z) a b i j) (EScale (1) 4 (ET 44 [a; b; i; j]))).
Definition r_ccsdt_I2A_voov_1 (z a m i e : nat) : ex := (EAdd (r_ccsdt_X_aa_voov (0 + z) a m i e) (EAdd (ESum (0 + z) 0 (ESum (1 + z) 1 (EMul (ET 1 [(0 + z); m; (1 + z); e]) (ET 10 [a; (1 + z); i; (0 + z)])))) (ESum (0 + z) 2 (ESum (1 + z) 3 (EMul (ET 3 [m; (0 + z); e; (1 + z)]) (ET 11 [a; (1 + z); i; (0 + z)])))))).
Definition r_ccsdt_I2B_voov_1 (z a m i e : nat) : ex := (EAdd (r_ccsdt_X_ab_voov (0 + z) a m i e) (EAdd (ESum (0 + z) 0 (ESum (1 + z) 1 (EMul (ET 3 [(0 + z); m; (1 + z); e]) (ET 10 [a; (1 + z); i; (0 + z)])))) (ESum (0 + z) 2 (ESum (1 + z) 3 (EMul (ET 6 [(0 + z); m; (1 + z); e]) (ET 11 [a; (1 + z); i; (0 + z)])))))).
Definition r_ccsdt_I2B_oooo (z m n i j : nat) : ex := (EAdd (r_ccsdt_X_ab_oooo (0 + z) m n i j) (ESum (0 + z) 1 (ESum (1 + z) 3 (EMul (ET 3 [m; n; (0 + z); (1 + z)]) (ET 11 [(0 + z); (1 + z); i; j]))))).
Definition r_ccsdt_I2B_vovo (z a m e i : nat) : ex := (ESub (r_ccsdt_X_ab_vovo (0 + z) a m e i) (ESum (0 + z) 0 (ESum (1 + z) 3 (EMul (ET 3 [(0 + z); m; e; (1 + z)]) (ET 11 [a; (1 + z); (0 + z); i]))))).
Definition r_ccsdt_I2B_ovoo (z m b i j : nat) : ex := (EAdd (r_ccsdt_X_ab_ovoo (0 + z) m b i j) (ESum (0 + z) 1 (ESum (1 + z) 3 (EMul (EAdd (ET 17 [m; b; (0 + z); (1 + z)]) (EScale (1) 2 (r_ccsdt_X_ab_ovvv (2 + z) m b (0 + z) (1 + z)))) (ET 11 [(0 + z); (1 + z); i; j]))))).
Definition r_ccsdt_I2B_vooo (z a m i j : nat) : ex := (EAdd (r_ccsdt_X_ab_vooo (0 + z) a m i j) (ESum (0 + z) 1 (ESum (1 + z) 3 (EMul (EAdd (ET 9 [a; m; (0 + z); (1 + z)]) (EScale (1) 2 (r_ccsdt_X_ab_vovv (2 + z) a m (0 + z) (1 + z)))) (ET 11 [(0 + z); (1 + z); i; j]))))).
Definition r_ccsdt_tau_1 (z a b i j : nat) : ex := (EAdd (ET 11 [a; b; i; j]) (EMul (ET 2 [a; i]) (ET 4 [b; j]))).
Definition r_ccsdt_dT_ab (z a b i j : nat) : ex := (EOpp (ESum (0 + z) 0 (EMul (r_ccsdt_I2B_ovoo (1 + z) (0 + z) b i j) (ET 2 [a; (0 + z)])))).
Definition r_ccsdt_dT_ab_1 (z a b i j : nat) : ex := (ESub (r_ccsdt_dT_ab (0 + z) a b i j) (ESum (0 + z) 2 (EMul (r_ccsdt_I2B_vooo (1 + z) a (0 + z) i j) (ET 4 [b; (0 + z)])))).
Definition r_ccsdt_dT_ab_2 (z a b i j : nat) : ex := (EAdd (r_ccsdt_dT_ab_1 (0 + z) a b i j) (ESum (0 + z) 1 (EMul (r_ccsdt_X_ab_vvvo (1 + z) a b (0 + z) j) (ET 2 [(0 + z); i])))).
Definition r_ccsdt_dT_ab_3 (z a b i j : nat) : ex := (EAdd (r_ccsdt_dT_ab_2 (0 + z) a b i j) (ESum (0 + z) 3 (EMul (r_ccsdt_X_ab_vvov (1 + z) a b i (0 + z)) (ET 4 [(0 + z); j])))).
Definition r_ccsdt_dT_ab_4 (z a b i j : nat) : ex := (EAdd (r_ccsdt_dT_ab_3 (0 + z) a b i j) (ESum (0 + z) 1 (EMul (r_ccsdt_X_a_vv_1 (1 + z) a (0 + z)) (ET 11 [(0 + z); b; i; j])))).
Definition r_ccsdt_dT_ab_5 (z a b i j : nat) : ex := (EAdd (r_ccsdt_dT_ab_4 (0 + z) a b i j) (ESum (0 + z) 3 (EMul (r_ccsdt_X_b_vv_1 (1 + z) b (0 + z)) (ET 11 [a; (0 + z); i; j])))).
Definition r_ccsdt_dT_ab_6 (z a b i j : nat) : ex := (ESub (r_ccsdt_dT_ab_5 (0 + z) a b i j) (ESum (0 + z) 0 (EMul (r_ccsdt_X_a_oo (1 + z) (0 + z) i) (ET 11 [a; b; (0 + z); j])))).
Definition r_ccsdt_dT_ab_7 (z a b i j : nat) : ex := (ESub (r_ccsdt_dT_ab_6 (0 + z) a b i j) (ESum (0 + z) 2 (EMul (r_ccsdt_X_b_oo (1 + z) (0 + z) j) (ET 11 [a; b; i; (0 + z)])))).
Definition r_ccsdt_dT_ab_8 (z a b i j : nat) : ex := (EAdd (r_ccsdt_dT_ab_7 (0 + z) a b i j) (ESum (0 + z) 0 (ESum (1 + z) 1 (EMul (r_ccsdt_I2A_voov_1 (2 + z) a (0 + z) i (1 + z)) (ET 11 [(1 + z); b; (0 + z); j]))))).
Definition r_ccsdt_dT_ab_9 (z a b i j : nat) : ex := (EAdd (r_ccsdt_dT_ab_8 (0 + z) a b i j) (ESum (0 + z) 2 (ESum (1 + z) 3 (EMul (r_ccsdt_I2B_voov_1 (2 + z) a (0 + z) i (1 + z)) (ET 18 [(1 + z); b; (0 + z); j]))))).
Definition r_ccsdt_dT_ab_10 (z a b i j : nat) : ex := (EAdd (r_ccsdt_dT_ab_9 (0 + z) a b i j) (ESum (0 + z) 0 (ESum (1 + z) 1 (EMul (r_ccsdt_X_ab_ovvo (2 + z) (0 + z) b (1 + z) j) (ET 10 [a; (1 + z); i; (0 + z)]))))).
Definition r_ccsdt_dT_ab_11 (z a b i j : nat) : ex := (EAdd (r_ccsdt_dT_ab_10 (0 + z) a b i j) (ESum (0 + z) 2 (ESum (1 + z) 3 (EMul (r_ccsdt_X_bb_voov (2 + z) b (0 + z) j (1 + z)) (ET 11 [a; (1 + z); i; (0 + z)]))))).
Definition r_ccsdt_dT_ab_12 (z a b i j : nat) : ex := (ESub (r_ccsdt_dT_ab_11 (0 + z) a b i j) (ESum (0 + z) 0 (ESum (1 + z) 3 (EMul (r_ccsdt_X_ab_ovov (2 + z) (0 + z) b i (1 + z)) (ET 11 [a; (1 + z); (0 + z); j]))))).
Definition r_ccsdt_dT_ab_13 (z a b i j : nat) : ex := (ESub (r_ccsdt_dT_ab_12 (0 + z) a b i j) (ESum (0 + z) 2 (ESum (1 + z) 1 (EMul (r_ccsdt_I2B_vovo (2 + z) a (0 + z) (1 + z) j) (ET 11 [(1 + z); b; i; (0 + z)]))))).
Definition r_ccsdt_dT_ab_14 (z a b i j : nat) : ex := (EAdd (r_ccsdt_dT_ab_13 (0 + z) a b i j) (ESum (0 + z) 0 (ESum (1 + z) 2 (EMul (r_ccsdt_I2B_oooo (2 + z) (0 + z) (1 + z) i j) (ET 11 [a; b; (0 + z); (1 + z)]))))).
Definition r_ccsdt_dT_ab_15 (z a b i j : nat) : ex := (EAdd (r_ccsdt_dT_ab_14 (0 + z) a b i j) (ESum (0 + z) 1 (ESum (1 + z) 3 (EMul (ET 42 [a; b; (0 + z); (1 + z)]) (r_ccsdt_tau_1 (2 + z) (0 + z) (1 + z) i j))))).
Definition r_ccsdt_dT_ab_16 (z a b i j : nat) : ex := (ESub (r_ccsdt_dT_ab_15 (0 + z) a b i j) (EScale (1) 2 (ESum (0 + z) 0 (ESum (1 + z) 0 (ESum (2 + z) 1 (EMul (EAdd (ET 13 [(0 + z); (1 + z); i; (2 + z)]) (r_ccsdt_X_aa_ooov (3 + z) (0 + z) (1 + z) i (2 + z))) (ET 50 [a; (2 + z); b; (0 + z); (1 + z); j]))))))).
Definition r_ccsdt_dT_ab_17 (z a b i j : nat) : ex := (ESub (r_ccsdt_dT_ab_16 (0 + z) a b i j) (ESum (0 + z) 0 (ESum (1 + z) 2 (ESum (2 + z) 1 (EMul (EAdd (ET 21 [(0 + z); (1 + z); (2 + z); j]) (r_ccsdt_X_ab_oovo (3 + z) (0 + z) (1 + z) (2 + z) j)) (ET 50 [a; (2 + z); b; i; (0 + z); (1 + z)])))))).
Definition r_ccsdt_dT_ab_18 (z a b i j : nat) : ex := (ESub (r_ccsdt_dT_ab_17 (0 + z) a b i j) (EScale (1) 2 (ESum (0 + z) 2 (ESum (1 + z) 2 (ESum (2 + z) 3 (EMul (EAdd (ET 20 [(0 + z); (1 + z); j; (2 + z)]) (r_ccsdt_X_bb_ooov (3 + z) (0 + z) (1 + z) j (2 + z))) (ET 51 [a; (2 + z); b; i; (1 + z); (0 + z)]))))))).
Definition r_ccsdt_dT_ab_19 (z a b i j : nat) : ex := (ESub (r_ccsdt_dT_ab_18 (0 + z) a b i j) (ESum (0 + z) 0 (ESum (1 + z) 2 (ESum (2 + z) 3 (EMul (EAdd (ET 14 [(0 + z); (1 + z); i; (2 + z)]) (r_ccsdt_X_ab_ooov (3 + z) (0 + z) (1 + z) i (2 + z))) (ET 51 [a; (2 + z); b; (0 + z); (1 + z); j])))))).
Definition r_ccsdt_dT_ab_20 (z a b i j : nat) : ex := (EAdd (r_ccsdt_dT_ab_19 (0 + z) a b i j) (EScale (1) 2 (ESum (0 + z) 0 (ESum (1 + z) 1 (ESum (2 + z) 1 (EMul (EAdd (ET 8 [a; (0 + z); (1 + z); (2 + z)]) (r_ccsdt_X_aa_vovv (3 + z) a (0 + z) (1 + z) (2 + z))) (ET 50 [(1 + z); (2 + z); b; i; (0 + z); j]))))))).
Definition r_ccsdt_dT_ab_21 (z a b i j : nat) : ex := (EAdd (r_ccsdt_dT_ab_20 (0 + z) a b i j) (ESum (0 + z) 2 (ESum (1 + z) 1 (ESum (2 + z) 3 (EMul (EAdd (ET 9 [a; (0 + z); (1 + z); (2 + z)]) (r_ccsdt_X_ab_vovv (3 + z) a (0 + z) (1 + z) (2 + z))) (ET 51 [(1 + z); (2 + z); b; i; (0 + z); j])))))).
Definition r_ccsdt_dT_ab_22 (z a b i j : nat) : ex := (EAdd (r_ccsdt_dT_ab_21 (0 + z) a b i j) (ESum (0 + z) 0 (ESum (1 + z) 1 (ESum (2 + z) 3 (EMul (EAdd (ET 17 [(0 + z); b; (1 + z); (2 + z)]) (r_ccsdt_X_ab_ovvv (3 + z) (0 + z) b (1 + z) (2 + z))) (ET 50 [a; (1 + z); (2 + z); i; (0 + z); j])))))).
Definition r_ccsdt_dT_ab_23 (z a b i j : nat) : ex := (EAdd (r_ccsdt_dT_ab_22 (0 + z) a b i j) (EScale (1) 2 (ESum (0 + z) 2 (ESum (1 + z) 3 (ESum (2 + z) 3 (EMul (EAdd (ET 16 [b; (0 + z); (1 + z); (2 + z)]) (r_ccsdt_X_bb_vovv (3 + z) b (0 + z) (1 + z) (2 + z))) (ET 51 [a; (2 + z); (1 + z); i; (0 + z); j]))))))).
Definition r_ccsdt_dT_ab_24 (z a b i j : nat) : ex := (EAdd (r_ccsdt_dT_ab_23 (0 + z) a b i j) (ESum (0 + z) 0 (ESum (1 + z) 1 (EMul (r_ccsdt_X_a_ov (2 + z) (0 + z) (1 + z)) (ET 50 [a; (1 + z); b; i; (0 + z); j]))))).
Definition r_ccsdt_dT_ab_25 (z a b i j : nat) : ex := (EAdd (r_ccsdt_dT_ab_24 (0 + z) a b i j) (ESum (0 + z) 2 (ESum (1 + z) 3 (EMul (r_ccsdt_X_b_ov (2 + z) (0 + z) (1 + z)) (ET 51 [a; (1 + z); b; i; (0 + z); j]))))).
Definition r_ccsdt_res_ab (z a b i j : nat) : ex := (EAdd (r_ccsdt_dT_ab_25 (0 + z) a b i j) (ET 45 [a; b; i; j])).
Definition r_ccsdt_I2C_oooo (z m n i j : nat) : ex := (EAdd (r_ccsdt_X_bb_oooo_1 (0 + z) m n i j) (EScale (1) 2 (ESum (0 + z) 3 (ESum (1 + z) 3 (EMul (ET 6 [m; n; (0 + z); (1 + z)]) (ET 18 [(0 + z); (1 + z); i; j])))))).
Definition r_ccsdt_I2B_ovvo (z m a e i : nat) : ex := (EAdd (r_ccsdt_X_ab_ovvo (0 + z) m a e i) (EAdd (ESum (0 + z) 2 (ESum (1 + z) 3 (EMul (ET 3 [m; (0 + z); e; (1 + z)]) (ET 18 [a; (1 + z); i; (0 + z)])))) (EScale (1) 2 (ESum (0 + z) 0 (ESum (1 + z) 1 (EMul (ET 1 [m; (0 + z); e; (1 + z)]) (ET 11 [(1 + z); a; (0 + z); i]))))))).
Definition r_ccsdt_I2C_voov (z a m i e : nat) : ex := (EAdd (r_ccsdt_X_bb_voov (0 + z) a m i e) (EScale (1) 2 (ESum (0 + z) 2 (ESum (1 + z) 3 (EMul (ET 6 [m; (0 + z); e; (1 + z)]) (ET 18 [a; (1 + z); i; (0 + z)])))))).
Definition r_ccsdt_I2C_vooo (z a m i j : nat) : ex := (EAdd (r_ccsdt_X_bb_vooo_1 (0 + z) a m i j) (EScale (1) 2 (ESum (0 + z) 3 (ESum (1 + z) 3 (EMul (EAdd (ET 16 [a; m; (0 + z); (1 + z)]) (EScale (1) 2 (r_ccsdt_X_bb_vovv (2 + z) a m (0 + z) (1 + z)))) (ET 18 [(0 + z); (1 + z); i; j])))))).
Definition r_ccsdt_tau_2 (z a b i j : nat) : ex := (EAdd (EScale (1) 2 (ET 18 [a; b; i; j])) (EMul (ET 4 [a; i]) (ET 4 [b; j]))).
Definition r_ccsdt_dT_bb (z a b i j : nat) : ex := (EScale (-1) 2 (ESum (0 + z) 2 (EMul (r_ccsdt_I2C_vooo (1 + z) a (0 + z) i j) (ET 4 [b; (0 + z)])))).
Definition r_ccsdt_dT_bb_1 (z a b i j : nat) : ex := (EAdd (r_ccsdt_dT_bb (0 + z) a b i j) (EScale (1) 2 (ESum (0 + z) 3 (EMul (r_ccsdt_X_bb_vvov (1 + z) a b i (0 + z)) (ET 4 [(0 + z); j]))))).
Definition r_ccsdt_dT_bb_2 (z a b i j : nat) : ex := (EAdd (r_ccsdt_dT_bb_1 (0 + z) a b i j) (EScale (1) 2 (ESum (0 + z) 3 (EMul (r_ccsdt_X_b_vv_1 (1 + z) a (0 + z)) (ET 18 [(0 + z); b; i; j]))))).
Definition r_ccsdt_dT_bb_3 (z a b i j : nat) : ex := (ESub (r_ccsdt_dT_bb_2 (0 + z) a b i j) (EScale (1) 2 (ESum (0 + z) 2 (EMul (r_ccsdt_X_b_oo (1 + z) (0 + z) i) (ET 18 [a; b; (0 + z); j]))))).
Definition r_ccsdt_dT_bb_4 (z a b i j : nat) : ex := (EAdd (r_ccsdt_dT_bb_3 (0 + z) a b i j) (ESum (0 + z) 2 (ESum (1 + z) 3 (EMul (r_ccsdt_I2C_voov (2 + z) a (0 + z) i (1 + z)) (ET 18 [(1 + z); b; (0 + z); j]))))).
Definition r_ccsdt_dT_bb_5 (z a b i j : nat) : ex := (EAdd (r_ccsdt_dT_bb_4 (0 + z) a b i j) (ESum (0 + z) 0 (ESum (1 + z) 1 (EMul (r_ccsdt_I2B_ovvo (2 + z) (0 + z) a (1 + z) i) (ET 11 [(1 + z); b; (0 + z); j]))))).
Definition r_ccsdt_dT_bb_6 (z a b i j : nat) : ex := (EAdd (r_ccsdt_dT_bb_5 (0 + z) a b i j) (EScale (1) 4 (ESum (0 + z) 3 (ESum (1 + z) 3 (EMul (ET 43 [a; b; (0 + z); (1 + z)]) (r_ccsdt_tau_2 (2 + z) (0 + z) (1 + z) i j)))))).
Definition r_ccsdt_dT_bb_7 (z a b i j : nat) : ex := (EAdd (r_ccsdt_dT_bb_6 (0 + z) a b i j) (EScale (1) 8 (ESum (0 + z) 2 (ESum (1 + z) 2 (EMul (r_ccsdt_I2C_oooo (2 + z) (0 + z) (1 + z) i j) (ET 18 [a; b; (0 + z); (1 + z)])))))).
Definition r_ccsdt_dT_bb_8 (z a b i j : nat) : ex := (EAdd (r_ccsdt_dT_bb_7 (0 + z) a b i j) (EScale (1) 4 (ESum (0 + z) 0 (ESum (1 + z) 1 (EMul (r_ccsdt_X_a_ov (2 + z) (0 + z) (1 + z)) (ET 51 [(1 + z); a; b; (0 + z); i; j])))))).
Definition r_ccsdt_dT_bb_9 (z a b i j : nat) : ex := (EAdd (r_ccsdt_dT_bb_8 (0 + z) a b i j) (EScale (1) 4 (ESum (0 + z) 2 (ESum (1 + z) 3 (EMul (r_ccsdt_X_b_ov (2 + z) (0 + z) (1 + z)) (ET 52 [a; b; (1 + z); i; j; (0 + z)])))))).
Definition r_ccsdt_dT_bb_10 (z a b i j : nat) : ex := (EAdd (r_ccsdt_dT_bb_9 (0 + z) a b i j) (EScale (1) 4 (ESum (0 + z) 2 (ESum (1 + z) 3 (ESum (2 + z) 3 (EMul (EAdd (ET 16 [a; (0 + z); (1 + z); (2 + z)]) (r_ccsdt_X_bb_vovv (3 + z) a (0 + z) (1 + z) (2 + z))) (ET 52 [(1 + z); b; (2 + z); i; j; (0 + z)]))))))).
Definition r_ccsdt_dT_bb_11 (z a b i j : nat) : ex := (EAdd (r_ccsdt_dT_bb_10 (0 + z) a b i j) (EScale (1) 2 (ESum (0 + z) 0 (ESum (1 + z) 1 (ESum (2 + z) 3 (EMul (EAdd (ET 17 [(0 + z); a; (1 + z); (2 + z)]) (r_ccsdt_X_ab_ovvv (3 + z) (0 + z) a (1 + z) (2 + z))) (ET 51 [(1 + z); (2 + z); b; (0 + z); i; j]))))))).
Definition r_ccsdt_dT_bb_12 (z a b i j : nat) : ex := (ESub (r_ccsdt_dT_bb_11 (0 + z) a b i j) (EScale (1) 4 (ESum (0 + z) 2 (ESum (1 + z) 2 (ESum (2 + z) 3 (EMul (EAdd (ET 20 [(0 + z); (1 + z); i; (2 + z)]) (r_ccsdt_X_bb_ooov (3 + z) (0 + z) (1 + z) i (2 + z))) (ET 52 [a; b; (2 + z); (0 + z); j; (1 + z)]))))))).
Definition r_ccsdt_dT_bb_13 (z a b i j : nat) : ex := (ESub (r_ccsdt_dT_bb_12 (0 + z) a b i j) (EScale (1) 2 (ESum (0 + z) 0 (ESum (1 + z) 2 (ESum (2 + z) 1 (EMul (EAdd (ET 21 [(0 + z); (1 + z); (2 + z); i]) (r_ccsdt_X_ab_oovo (3 + z) (0 + z) (1 + z) (2 + z) i)) (ET 51 [(2 + z); a; b; (0 + z); (1 + z); j]))))))).
Definition r_ccsdt_res_bb (z a b i j : nat) : ex := (EAdd (r_ccsdt_dT_bb_13 (0 + z) a b i j) (EScale (1) 4 (ET 46 [a; b; i; j]))).
Definition r_ccsdt_tau_aa (z a b i j : nat) : ex := (EAdd (EScale (1) 2 (ET 10 [a; b; i; j])) (EMul (ET 2 [a; i]) (ET 2 [b; j]))).
Definition r_ccsdt_tau_aa_1 (z a b i j : nat) : ex := (ESub (r_ccsdt_tau_aa (0 + z) a b i j) (r_ccsdt_tau_aa (0 + z) a b j i)).
Definition r_ccsdt_tau_bb (z a b i j : nat) : ex := (EAdd (EScale (1) 2 (ET 18 [a; b; i; j])) (EMul (ET 4 [a; i]) (ET 4 [b; j]))).
Definition r_ccsdt_tau_bb_1 (z a b i j : nat) : ex := (ESub (r_ccsdt_tau_bb (0 + z) a b i j) (r_ccsdt_tau_bb (0 + z) a b j i)).
Definition r_ccsdt_tau_ab (z a b i j : nat) : ex := (EAdd (ET 11 [a; b; i; j]) (EMul (ET 2 [a; i]) (ET 4 [b; j]))).
Definition r_ccsdt_H_aa_vovv (z a m e f : nat) : ex := (EAdd (r_ccsdt_X_aa_vovv (0 + z) a m e f) (ET 8 [a; m; e; f])).
Definition r_ccsdt_H_bb_vovv (z a m e f : nat) : ex := (EAdd (r_ccsdt_X_bb_vovv (0 + z) a m e f) (ET 16 [a; m; e; f])).
Definition r_ccsdt_H_ab_vovv (z a m e f : nat) : ex := (EAdd (r_ccsdt_X_ab_vovv (0 + z) a m e f) (ET 9 [a; m; e; f])).
Definition r_ccsdt_H_ab_ovvv (z m a e f : nat) : ex := (EAdd (r_ccsdt_X_ab_ovvv (0 + z) m a e f) (ET 17 [m; a; e; f])).
Definition r_ccsdt_H_aa_ooov (z m n i e : nat) : ex := (EAdd (r_ccsdt_X_aa_ooov (0 + z) m n i e) (ET 13 [m; n; i; e])).
Definition r_ccsdt_H_bb_ooov (z m n i e : nat) : ex := (EAdd (r_ccsdt_X_bb_ooov (0 + z) m n i e) (ET 20 [m; n; i; e])).
Definition r_ccsdt_H_ab_ooov (z m n i e : nat) : ex := (EAdd (r_ccsdt_X_ab_ooov (0 + z) m n i e) (ET 14 [m; n; i; e])).
Definition r_ccsdt_H_ab_oovo (z n m e i : nat) : ex := (EAdd (r_ccsdt_X_ab_oovo (0 + z) n m e i) (ET 21 [n; m; e; i])).
Definition r_ccsdt_H_aa_vvvv (z a b e f : nat) : ex := (ESub (EAdd (EScale (1) 2 (ET 41 [a; b; e; f])) (EScale (1) 4 (ESum (0 + z) 0 (ESum (1 + z) 0 (EMul (ET 1 [(0 + z); (1 + z); e; f]) (r_ccsdt_tau_aa_1 (2 + z) a b (0 + z) (1 + z))))))) (ESum (0 + z) 0 (EMul (ET 8 [a; (0 + z); e; f]) (ET 2 [b; (0 + z)])))).
Definition r_ccsdt_H_aa_vvvv_1 (z a b e f : nat) : ex := (ESub (r_ccsdt_H_aa_vvvv (0 + z) a b e f) (r_ccsdt_H_aa_vvvv (0 + z) b a e f)).
Definition r_ccsdt_H_bb_vvvv (z a b e f : nat) : ex := (ESub (EAdd (EScale (1) 2 (ET 43 [a; b; e; f])) (EScale (1) 4 (ESum (0 + z) 2 (ESum (1 + z) 2 (EMul (ET 6 [(0 + z); (1 + z); e; f]) (r_ccsdt_tau_bb_1 (2 + z) a b (0 + z) (1 + z))))))) (ESum (0 + z) 2 (EMul (ET 16 [a; (0 + z); e; f]) (ET 4 [b; (0 + z)])))).
Definition r_ccsdt_H_bb_vvvv_1 (z a b e f : nat) : ex := (ESub (r_ccsdt_H_bb_vvvv (0 + z) a b e f) (r_ccsdt_H_bb_vvvv (0 + z) b a e f)).
Definition r_ccsdt_H_ab_vvvv (z a b e f : nat) : ex := (EAdd (ESub (ESub (ET 42 [a; b; e; f]) (ESum (0 + z) 0 (EMul (ET 17 [(0 + z); b; e; f]) (ET 2 [a; (0 + z)])))) (ESum (0 + z) 2 (EMul (ET 9 [a; (0 + z); e; f]) (ET 4 [b; (0 + z)])))) (ESum (0 + z) 0 (ESum (1 + z) 2 (EMul (ET 3 [(0 + z); (1 + z); e; f]) (r_ccsdt_tau_ab (2 + z) a b (0 + z) (1 + z)))))).
Definition r_ccsdt_H_aa_oooo (z m n i j : nat) : ex := (EAdd (EAdd (EScale (1) 2 (ET 28 [m; n; i; j])) (ESum (0 + z) 1 (EMul (ET 13 [n; m; j; (0 + z)]) (ET 2 [(0 + z); i])))) (EScale (1) 4 (ESum (0 + z) 1 (ESum (1 + z) 1 (EMul (ET 1 [m; n; (0 + z); (1 + z)]) (r_ccsdt_tau_aa_1 (2 + z) (0 + z) (1 + z) i j)))))).
Definition r_ccsdt_H_aa_oooo_1 (z m n i j : nat) : ex := (ESub (r_ccsdt_H_aa_oooo (0 + z) m n i j) (r_ccsdt_H_aa_oooo (0 + z) m n j i)).
Definition r_ccsdt_H_bb_oooo (z m n i j : nat) : ex := (EAdd (EAdd (EScale (1) 2 (ET 31 [m; n; i; j])) (ESum (0 + z) 3 (EMul (ET 20 [n; m; j; (0 + z)]) (ET 4 [(0 + z); i])))) (EScale (1) 4 (ESum (0 + z) 3 (ESum (1 + z) 3 (EMul (ET 6 [m; n; (0 + z); (1 + z)]) (r_ccsdt_tau_bb_1 (2 + z) (0 + z) (1 + z) i j)))))).
Definition r_ccsdt_H_bb_oooo_1 (z m n i j : nat) : ex := (ESub (r_ccsdt_H_bb_oooo (0 + z) m n i j) (r_ccsdt_H_bb_oooo (0 + z) m n j i)).
Definition r_ccsdt_H_ab_oooo (z m n i j : nat) : ex := (EAdd (EAdd (EAdd (ET 34 [m; n; i; j]) (ESum (0 + z) 1 (EMul (ET 21 [m; n; (0 + z); j]) (ET 2 [(0 + z); i])))) (ESum (0 + z) 3 (EMul (ET 14 [m; n; i; (0 + z)]) (ET 4 [(0 + z); j])))) (ESum (0 + z) 1 (ESum (1 + z) 3 (EMul (ET 3 [m; n; (0 + z); (1 + z)]) (r_ccsdt_tau_ab (2 + z) (0 + z) (1 + z) i j))))).
Definition r_ccsdt_H_aa_voov (z a m i e : nat) : ex := (EAdd (EAdd (ESub (EAdd (ET 22 [a; m; i; e]) (ESum (0 + z) 1 (EMul (ET 8 [a; m; (0 + z); e]) (ET 2 [(0 + z); i])))) (ESum (0 + z) 0 (EMul (r_ccsdt_H_aa_ooov (1 + z) (0 + z) m i e) (ET 2 [a; (0 + z)])))) (ESum (0 + z) 0 (ESum (1 + z) 1 (EMul (ET 1 [(0 + z); m; (1 + z); e]) (ET 10 [a; (1 + z); i; (0 + z)]))))) (ESum (0 + z) 2 (ESum (1 + z) 3 (EMul (ET 3 [m; (0 + z); e; (1 + z)]) (ET 11 [a; (1 + z); i; (0 + z)]))))).
Definition r_ccsdt_H_bb_voov (z a m i e : nat) : ex := (EAdd (EAdd (ESub (EAdd (ET 25 [a; m; i; e]) (ESum (0 + z) 3 (EMul (ET 16 [a; m; (0 + z); e]) (ET 4 [(0 + z); i])))) (ESum (0 + z) 2 (EMul (r_ccsdt_H_bb_ooov (1 + z) (0 + z) m i e) (ET 4 [a; (0 + z)])))) (ESum (0 + z) 2 (ESum (1 + z) 3 (EMul (ET 6 [(0 + z); m; (1 + z); e]) (ET 18 [a; (1 + z); i; (0 + z)]))))) (ESum (0 + z) 0 (ESum (1 + z) 1 (EMul (ET 3 [(0 + z); m; (1 + z); e]) (ET 11 [(1 + z); a; (0 + z); i]))))).
Definition r_ccsdt_H_ab_voov (z a m i e : nat) : ex := (EAdd (EAdd (ESub (EAdd (ET 23 [a; m; i; e]) (ESum (0 + z) 1 (EMul (ET 9 [a; m; (0 + z); e]) (ET 2 [(0 + z); i])))) (ESum (0 + z) 0 (EMul (r_ccsdt_H_ab_ooov (1 + z) (0 + z) m i e) (ET 2 [a; (0 + z)])))) (ESum (0 + z) 0 (ESum (1 + z) 1 (EMul (ET 3 [(0 + z); m; (1 + z); e]) (ET 10 [a; (1 + z); i; (0 + z)]))))) (ESum (0 + z) 2 (ESum (1 + z) 3 (EMul (ET 6 [(0 + z); m; (1 + z); e]) (ET 11 [a; (1 + z); i; (0 + z)]))))).
Definition r_ccsdt_H_ab_ovvo (z m a e i : nat) : ex := (EAdd (EAdd (ESub (EAdd (ET 26 [m; a; e; i]) (ESum (0 + z) 3 (EMul (ET 17 [m; a; e; (0 + z)]) (ET 4 [(0 + z); i])))) (ESum (0 + z) 2 (EMul (r_ccsdt_H_ab_oovo (1 + z) m (0 + z) e i) (ET 4 [a; (0 + z)])))) (ESum (0 + z) 2 (ESum (1 + z) 3 (EMul (ET 3 [m; (0 + z); e; (1 + z)]) (ET 18 [a; (1 + z); i; (0 + z)]))))) (ESum (0 + z) 0 (ESum (1 + z) 1 (EMul (ET 1 [m; (0 + z); e; (1 + z)]) (ET 11 [(1 + z); a; (0 + z); i]))))).
Definition r_ccsdt_H_ab_ovov (z m a i e : nat) : ex := (ESub (ESub (EAdd (ET 35 [m; a; i; e]) (ESum (0 + z) 1 (EMul (ET 17 [m; a; (0 + z); e]) (ET 2 [(0 + z); i])))) (ESum (0 + z) 2 (EMul (r_ccsdt_H_ab_ooov (1 + z) m (0 + z) i e) (ET 4 [a; (0 + z)])))) (ESum (0 + z) 2 (ESum (1 + z) 1 (EMul (ET 3 [m; (0 + z); (1 + z); e]) (ET 11 [(1 + z); a; i; (0 + z)]))))).
Definition r_ccsdt_H_ab_vovo (z a m e i : nat) : ex := (ESub (EAdd (ESub (ET 36 [a; m; e; i]) (ESum (0 + z) 0 (EMul (r_ccsdt_H_ab_oovo (1 + z) (0 + z) m e i) (ET 2 [a; (0 + z)])))) (ESum (0 + z) 3 (EMul (ET 9 [a; m; e; (0 + z)]) (ET 4 [(0 + z); i])))) (ESum (0 + z) 0 (ESum (1 + z) 3 (EMul (ET 3 [(0 + z); m; e; (1 + z)]) (ET 11 [a; (1 + z); (0 + z); i]))))).
Definition r_ccsdt_Q1 (z a m i j : nat) : ex := (EAdd (ESum (0 + z) 0 (ESum (1 + z) 1 (EMul (r_ccsdt_H_aa_ooov (2 + z) m (0 + z) j (1 + z)) (ET 10 [a; (1 + z); i; (0 + z)])))) (ESum (0 + z) 2 (ESum (1 + z) 3 (EMul (r_ccsdt_H_ab_ooov (2 + z) m (0 + z) j (1 + z)) (ET 11 [a; (1 + z); i; (0 + z)]))))).
Definition r_ccsdt_Q2 (z a m i f : nat) : ex := (EAdd (ET 22 [a; m; i; f]) (EScale (1) 2 (ESum (0 + z) 1 (EMul (ET 8 [a; m; (0 + z); f]) (ET 2 [(0 + z); i]))))).
Definition r_ccsdt_Q2_1 (z a m i j : nat) : ex := (ESum (0 + z) 1 (EMul (r_ccsdt_Q2 (1 + z) a m i (0 + z)) (ET 2 [(0 + z); j]))).
Definition r_ccsdt_Q1_1 (z a m i j : nat) : ex := (EAdd (r_ccsdt_Q1 (0 + z) a m i j) (r_ccsdt_Q2_1 (0 + z) a m i j)).
Definition r_ccsdt_Q1_2 (z a m i j : nat) : ex := (ESub (r_ccsdt_Q1_1 (0 + z) a m i j) (r_ccsdt_Q1_1 (0 + z) a m j i)).
Definition r_ccsdt_H_aa_vooo (z a m i j : nat) : ex := (EAdd (EAdd (ET 29 [a; m; i; j]) (r_ccsdt_Q1_2 (0 + z) a m i j)) (EAdd (ESub (ESum (0 + z) 1 (EMul (r_ccsdt_X_a_ov (1 + z) m (0 + z)) (ET 10 [a; (0 + z); i; j]))) (ESum (0 + z) 0 (EMul (r_ccsdt_H_aa_oooo_1 (1 + z) (0 + z) m i j) (ET 2 [a; (0 + z)])))) (EScale (1) 2 (ESum (0 + z) 1 (ESum (1 + z) 1 (EMul (ET 8 [a; m; (0 + z); (1 + z)]) (ET 10 [(0 + z); (1 + z); i; j]))))))).
Definition r_ccsdt_Q1_3 (z a m i j : nat) : ex := (EAdd (ESum (0 + z) 2 (ESum (1 + z) 3 (EMul (r_ccsdt_H_bb_ooov (2 + z) m (0 + z) j (1 + z)) (ET 18 [a; (1 + z); i; (0 + z)])))) (ESum (0 + z) 0 (ESum (1 + z) 1 (EMul (r_ccsdt_H_ab_oovo (2 + z) (0 + z) m (1 + z) j) (ET 11 [(1 + z); a; (0 + z); i]))))).
Definition r_ccsdt_Q2_2 (z a m i f : nat) : ex := (EAdd (ET 25 [a; m; i; f]) (EScale (1) 2 (ESum (0 + z) 3 (EMul (ET 16 [a; m; (0 + z); f]) (ET 4 [(0 + z); i]))))).
Definition r_ccsdt_Q2_3 (z a m i j : nat) : ex := (ESum (0 + z) 3 (EMul (r_ccsdt_Q2_2 (1 + z) a m i (0 + z)) (ET 4 [(0 + z); j]))).
Definition r_ccsdt_Q1_4 (z a m i j : nat) : ex := (EAdd (r_ccsdt_Q1_3 (0 + z) a m i j) (r_ccsdt_Q2_3 (0 + z) a m i j)).
Definition r_ccsdt_Q1_5 (z a m i j : nat) : ex := (ESub (r_ccsdt_Q1_4 (0 + z) a m i j) (r_ccsdt_Q1_4 (0 + z) a m j i)).
Definition r_ccsdt_H_bb_vooo (z a m i j : nat) : ex := (EAdd (EAdd (ET 32 [a; m; i; j]) (r_ccsdt_Q1_5 (0 + z) a m i j)) (EAdd (ESub (ESum (0 + z) 3 (EMul (r_ccsdt_X_b_ov (1 + z) m (0 + z)) (ET 18 [a; (0 + z); i; j]))) (ESum (0 + z) 2 (EMul (r_ccsdt_H_bb_oooo_1 (1 + z) (0 + z) m i j) (ET 4 [a; (0 + z)])))) (EScale (1) 2 (ESum (0 + z) 3 (ESum (1 + z) 3 (EMul (ET 16 [a; m; (0 + z); (1 + z)]) (ET 18 [(0 + z); (1 + z); i; j]))))))).
Definition r_ccsdt_Q1_6 (z a m i e : nat) : ex := (EAdd (ET 23 [a; m; i; e]) (ESum (0 + z) 1 (EMul (ET 9 [a; m; (0 + z); e]) (ET 2 [(0 + z); i])))).
Definition r_ccsdt_H_ab_vooo (z a m i j : nat) : ex := (EAdd (ET 38 [a; m; i; j]) (EAdd (EAdd (EAdd (ESub (EAdd (EAdd (ESub (ESum (0 + z) 3 (EMul (r_ccsdt_X_b_ov (1 + z) m (0 + z)) (ET 11 [a; (0 + z); i; j]))) (ESum (0 + z) 0 (EMul (r_ccsdt_H_ab_oooo (1 + z) (0 + z) m i j) (ET 2 [a; (0 + z)])))) (ESum (0 + z) 2 (ESum (1 + z) 3 (EMul (r_ccsdt_H_bb_ooov (2 + z) m (0 + z) j (1 + z)) (ET 11 [a; (1 + z); i; (0 + z)]))))) (ESum (0 + z) 0 (ESum (1 + z) 1 (EMul (r_ccsdt_H_ab_oovo (2 + z) (0 + z) m (1 + z) j) (ET 10 [a; (1 + z); i; (0 + z)]))))) (ESum (0 + z) 0 (ESum (1 + z) 3 (EMul (r_ccsdt_H_ab_ooov (2 + z) (0 + z) m i (1 + z)) (ET 11 [a; (1 + z); (0 + z); j]))))) (ESum (0 + z) 1 (EMul (ET 36 [a; m; (0 + z); j]) (ET 2 [(0 + z); i])))) (ESum (0 + z) 3 (EMul (r_ccsdt_Q1_6 (1 + z) a m i (0 + z)) (ET 4 [(0 + z); j])))) (ESum (0 + z) 1 (ESum (1 + z) 3 (EMul (ET 9 [a; m; (0 + z); (1 + z)]) (ET 11 [(0 + z); (1 + z); i; j])))))).
Definition r_ccsdt_Q1_7 (z m a j e : nat) : ex := (EAdd (ET 35 [m; a; j; e]) (ESum (0 + z) 1 (EMul (ET 17 [m; a; (0 + z); e]) (ET 2 [(0 + z); j])))).
Definition r_ccsdt_H_ab_ovoo (z m a j i : nat) : ex := (EAdd (ET 37 [m; a; j; i]) (EAdd (EAdd (EAdd (ESub (EAdd (EAdd (ESub (ESum (0 + z) 1 (EMul (r_ccsdt_X_a_ov (1 + z) m (0 + z)) (ET 11 [(0 + z); a; j; i]))) (ESum (0 + z) 2 (EMul (r_ccsdt_H_ab_oooo (1 + z) m (0 + z) j i) (ET 4 [a; (0 + z)])))) (ESum (0 + z) 0 (ESum (1 + z) 1 (EMul (r_ccsdt_H_aa_ooov (2 + z) m (0 + z) j (1 + z)) (ET 11 [(1 + z); a; (0 + z); i]))))) (ESum (0 + z) 2 (ESum (1 + z) 3 (EMul (r_ccsdt_H_ab_ooov (2 + z) m (0 + z) j (1 + z)) (ET 18 [(1 + z); a; (0 + z); i]))))) (ESum (0 + z) 2 (ESum (1 + z) 1 (EMul (r_ccsdt_H_ab_oovo (2 + z) m (0 + z) (1 + z) i) (ET 11 [(1 + z); a; j; (0 + z)]))))) (ESum (0 + z) 3 (EMul (r_ccsdt_Q1_7 (1 + z) m a j (0 + z)) (ET 4 [(0 + z); i])))) (ESum (0 + z) 1 (EMul (ET 26 [m; a; (0 + z); i]) (ET 2 [(0 + z); j])))) (ESum (0 + z) 1 (ESum (1 + z) 3 (EMul (ET 17 [m; a; (0 + z); (1 + z)]) (ET 11 [(0 + z); (1 + z); j; i])))))).
Definition r_ccsdt_x2a_voov (z a m i e : nat) : ex := (EAdd (r_ccsdt_H_aa_voov (0 + z) a m i e) (EScale (1) 2 (ESum (0 + z) 0 (EMul (r_ccsdt_H_aa_ooov (1 + z) (0 + z) m i e) (ET 2 [a; (0 + z)]))))).
Definition r_ccsdt_H_aa_vvov (z a b i e : nat) : ex := (EAdd (EAdd (EAdd (EAdd (ESub (ESub (EScale (1) 2 (ET 30 [a; b; i; e])) (EScale (1) 2 (ESum (0 + z) 0 (EMul (r_ccsdt_X_a_ov (1 + z) (0 + z) e) (ET 10 [a; b; i; (0 + z)]))))) (ESum (0 + z) 0 (EMul (r_ccsdt_x2a_voov (1 + z) a (0 + z) i e) (ET 2 [b; (0 + z)])))) (EScale (1) 4 (ESum (0 + z) 0 (ESum (1 + z) 0 (EMul (r_ccsdt_H_aa_ooov (2 + z) (0 + z) (1 + z) i e) (ET 10 [a; b; (0 + z); (1 + z)])))))) (EScale (1) 2 (ESum (0 + z) 1 (EMul (ET 41 [a; b; (0 + z); e]) (ET 2 [(0 + z); i]))))) (ESum (0 + z) 0 (ESum (1 + z) 1 (EMul (ET 8 [b; (0 + z); e; (1 + z)]) (ET 10 [a; (1 + z); i; (0 + z)]))))) (ESum (0 + z) 2 (ESum (1 + z) 3 (EMul (ET 9 [b; (0 + z); e; (1 + z)]) (ET 11 [a; (1 + z); i; (0 + z)]))))).
Definition r_ccsdt_H_aa_vvov_1 (z a b i e : nat) : ex := (ESub (r_ccsdt_H_aa_vvov (0 + z) a b i e) (r_ccsdt_H_aa_vvov (0 + z) b a i e)).
Definition r_ccsdt_x2c_voov (z a m i e : nat) : ex := (EAdd (r_ccsdt_H_bb_voov (0 + z) a m i e) (EScale (1) 2 (ESum (0 + z) 2 (EMul (r_ccsdt_H_bb_ooov (1 + z) (0 + z) m i e) (ET 4 [a; (0 + z)]))))).
Definition r_ccsdt_H_bb_vvov (z a b i e : nat) : ex := (EAdd (EAdd (EAdd (EAdd (ESub (ESub (EScale (1) 2 (ET 33 [a; b; i; e])) (EScale (1) 2 (ESum (0 + z) 2 (EMul (r_ccsdt_X_b_ov (1 + z) (0 + z) e) (ET 18 [a; b; i; (0 + z)]))))) (ESum (0 + z) 2 (EMul (r_ccsdt_x2c_voov (1 + z) a (0 + z) i e) (ET 4 [b; (0 + z)])))) (EScale (1) 4 (ESum (0 + z) 2 (ESum (1 + z) 2 (EMul (r_ccsdt_H_bb_ooov (2 + z) (0 + z) (1 + z) i e) (ET 18 [a; b; (0 + z); (1 + z)])))))) (EScale (1) 2 (ESum (0 + z) 3 (EMul (ET 43 [a; b; (0 + z); e]) (ET 4 [(0 + z); i]))))) (ESum (0 + z) 2 (ESum (1 + z) 3 (EMul (ET 16 [b; (0 + z); e; (1 + z)]) (ET 18 [a; (1 + z); i; (0 + z)]))))) (ESum (0 + z) 0 (ESum (1 + z) 1 (EMul (ET 17 [(0 + z); b; (1 + z); e]) (ET 11 [(1 + z); a; (0 + z); i]))))).
Definition r_ccsdt_H_bb_vvov_1 (z a b i e : nat) : ex := (ESub (r_ccsdt_H_bb_vvov (0 + z) a b i e) (r_ccsdt_H_bb_vvov (0 + z) b a i e)).
Definition r_ccsdt_x2b_voov (z a m i e : nat) : ex := (EAdd (r_ccsdt_H_ab_voov (0 + z) a m i e) (EScale (1) 2 (ESum (0 + z) 0 (EMul (r_ccsdt_H_ab_ooov (1 + z) (0 + z) m i e) (ET 2 [a; (0 + z)]))))).
Definition r_ccsdt_x2b_ovov (z m a i e : nat) : ex := (EAdd (r_ccsdt_H_ab_ovov (0 + z) m a i e) (EScale (1) 2 (ESum (0 + z) 2 (EMul (r_ccsdt_H_ab_ooov (1 + z) m (0 + z) i e) (ET 4 [a; (0 + z)]))))).
Definition r_ccsdt_H_ab_vvov (z a b i e : nat) : ex := (ESub (EAdd (EAdd (EAdd (EAdd (ESub (ESub (ESub (ET 40 [a; b; i; e]) (ESum (0 + z) 2 (EMul (r_ccsdt_X_b_ov (1 + z) (0 + z) e) (ET 11 [a; b; i; (0 + z)])))) (ESum (0 + z) 2 (EMul (r_ccsdt_x2b_voov (1 + z) a (0 + z) i e) (ET 4 [b; (0 + z)])))) (ESum (0 + z) 0 (EMul (r_ccsdt_x2b_ovov (1 + z) (0 + z) b i e) (ET 2 [a; (0 + z)])))) (ESum (0 + z) 0 (ESum (1 + z) 2 (EMul (r_ccsdt_H_ab_ooov (2 + z) (0 + z) (1 + z) i e) (ET 11 [a; b; (0 + z); (1 + z)]))))) (ESum (0 + z) 1 (EMul (ET 42 [a; b; (0 + z); e]) (ET 2 [(0 + z); i])))) (ESum (0 + z) 0 (ESum (1 + z) 1 (EMul (ET 17 [(0 + z); b; (1 + z); e]) (ET 10 [a; (1 + z); i; (0 + z)]))))) (ESum (0 + z) 2 (ESum (1 + z) 3 (EMul (ET 16 [b; (0 + z); e; (1 + z)]) (ET 11 [a; (1 + z); i; (0 + z)]))))) (ESum (0 + z) 2 (ESum (1 + z) 1 (EMul (ET 9 [a; (0 + z); (1 + z); e]) (ET 11 [(1 + z); b; i; (0 + z)]))))).
Definition r_ccsdt_x2b_ovvo (z m a e i : nat) : ex := (EAdd (r_ccsdt_H_ab_ovvo (0 + z) m a e i) (EScale (1) 2 (ESum (0 + z) 2 (EMul (r_ccsdt_H_ab_oovo (1 + z) m (0 + z) e i) (ET 4 [a; (0 + z)]))))).
Definition r_ccsdt_x2b_vovo (z a m e i : nat) : ex := (EAdd (r_ccsdt_H_ab_vovo (0 + z) a m e i) (EScale (1) 2 (ESum (0 + z) 0 (EMul (r_ccsdt_H_ab_oovo (1 + z) (0 + z) m e i) (ET 2 [a; (0 + z)]))))).
Definition r_ccsdt_H_ab_vvvo (z b a e i : nat) : ex := (ESub (EAdd (EAdd (EAdd (EAdd (ESub (ESub (ESub (ET 39 [b; a; e; i]) (ESum (0 + z) 0 (EMul (r_ccsdt_X_a_ov (1 + z) (0 + z) e) (ET 11 [b; a; (0 + z); i])))) (ESum (0 + z) 0 (EMul (r_ccsdt_x2b_ovvo (1 + z) (0 + z) a e i) (ET 2 [b; (0 + z)])))) (ESum (0 + z) 2 (EMul (r_ccsdt_x2b_vovo (1 + z) b (0 + z) e i) (ET 4 [a; (0 + z)])))) (ESum (0 + z) 0 (ESum (1 + z) 2 (EMul (r_ccsdt_H_ab_oovo (2 + z) (0 + z) (1 + z) e i) (ET 11 [b; a; (0 + z); (1 + z)]))))) (ESum (0 + z) 3 (EMul (ET 42 [b; a; e; (0 + z)]) (ET 4 [(0 + z); i])))) (ESum (0 + z) 2 (ESum (1 + z) 3 (EMul (ET 9 [b; (0 + z); e; (1 + z)]) (ET 18 [a; (1 + z); i; (0 + z)]))))) (ESum (0 + z) 0 (ESum (1 + z) 1 (EMul (ET 8 [b; (0 + z); e; (1 + z)]) (ET 11 [(1 + z); a; (0 + z); i]))))) (ESum (0 + z) 0 (ESum (1 + z) 3 (EMul (ET 17 [(0 + z); a; e; (1 + z)]) (ET 11 [b; (1 + z); (0 + z); i]))))).
Definition r_ccsdt_I2A_vvov (z a b i e : nat) : ex := (EScale (-1) 2 (ESum (0 + z) 0 (ESum (1 + z) 0 (ESum (2 + z) 1 (EMul (ET 1 [(0 + z); (1 + z); e; (2 + z)]) (ET 49 [a; b; (2 + z); i; (0 + z); (1 + z)])))))).
Definition r_ccsdt_I2A_vvov_1 (z a b i e : nat) : ex := (ESub (r_ccsdt_I2A_vvov (0 + z) a b i e) (ESum (0 + z) 0 (ESum (1 + z) 2 (ESum (2 + z) 3 (EMul (ET 3 [(0 + z); (1 + z); e; (2 + z)]) (ET 50 [a; b; (2 + z); i; (0 + z); (1 + z)])))))).
Definition r_ccsdt_I2A_vvov_2 (z a b i e : nat) : ex := (EAdd (r_ccsdt_I2A_vvov_1 (0 + z) a b i e) (r_ccsdt_H_aa_vvov_1 (0 + z) a b i e)).
Definition r_ccsdt_I2A_vooo_1 (z a m i j : nat) : ex := (EScale (1) 2 (ESum (0 + z) 0 (ESum (1 + z) 1 (ESum (2 + z) 1 (EMul (ET 1 [m; (0 + z); (1 + z); (2 + z)]) (ET 49 [a; (1 + z); (2 + z); i; j; (0 + z)])))))).
Definition r_ccsdt_I2A_vooo_2 (z a m i j : nat) : ex := (EAdd (r_ccsdt_I2A_vooo_1 (0 + z) a m i j) (EAdd (r_ccsdt_H_aa_vooo (0 + z) a m i j) (ESum (0 + z) 2 (ESum (1 + z) 1 (ESum (2 + z) 3 (EMul (ET 3 [m; (0 + z); (1 + z); (2 + z)]) (ET 50 [a; (1 + z); (2 + z); i; j; (0 + z)]))))))).
Definition r_ccsdt_I2A_vooo_3 (z a m i j : nat) : ex := (ESub (r_ccsdt_I2A_vooo_2 (0 + z) a m i j) (ESum (0 + z) 1 (EMul (r_ccsdt_X_a_ov (1 + z) m (0 + z)) (ET 10 [a; (0 + z); i; j])))).
Definition r_ccsdt_dT_aaa (z a b c i j k : nat) : ex := (EScale (-1) 4 (ESum (0 + z) 0 (EMul (r_ccsdt_I2A_vooo_3 (1 + z) a (0 + z) i j) (ET 10 [b; c; (0 + z); k])))).
Definition r_ccsdt_dT_aaa_1 (z a b c i j k : nat) : ex := (EAdd (r_ccsdt_dT_aaa (0 + z) a b c i j k) (EScale (1) 4 (ESum (0 + z) 1 (EMul (r_ccsdt_I2A_vvov_2 (1 + z) a b i (0 + z)) (ET 10 [(0 + z); c; j; k]))))).
Definition r_ccsdt_dT_aaa_2 (z a b c i j k : nat) : ex := (ESub (r_ccsdt_dT_aaa_1 (0 + z) a b c i j k) (EScale (1) 12 (ESum (0 + z) 0 (EMul (r_ccsdt_X_a_oo (1 + z) (0 + z) k) (ET 49 [a; b; c; i; j; (0 + z)]))))).
Definition r_ccsdt_dT_aaa_3 (z a b c i j k : nat) : ex := (EAdd (r_ccsdt_dT_aaa_2 (0 + z) a b c i j k) (EScale (1) 12 (ESum (0 + z) 1 (EMul (r_ccsdt_X_a_vv_1 (1 + z) c (0 + z)) (ET 49 [a; b; (0 + z); i; j; k]))))).
Definition r_ccsdt_dT_aaa_4 (z a b c i j k : nat) : ex := (EAdd (r_ccsdt_dT_aaa_3 (0 + z) a b c i j k) (EScale (1) 24 (ESum (0 + z) 0 (ESum (1 + z) 0 (EMul (r_ccsdt_H_aa_oooo_1 (2 + z) (0 + z) (1 + z) i j) (ET 49 [a; b; c; (0 + z); (1 + z); k])))))).
Definition r_ccsdt_dT_aaa_5 (z a b c i j k : nat) : ex := (EAdd (r_ccsdt_dT_aaa_4 (0 + z) a b c i j k) (EScale (1) 24 (ESum (0 + z) 1 (ESum (1 + z) 1 (EMul (r_ccsdt_H_aa_vvvv_1 (2 + z) a b (0 + z) (1 + z)) (ET 49 [(0 + z); (1 + z); c; i; j; k])))))).
Definition r_ccsdt_dT_aaa_6 (z a b c i j k : nat) : ex := (EAdd (r_ccsdt_dT_aaa_5 (0 + z) a b c i j k) (EScale (1) 4 (ESum (0 + z) 0 (ESum (1 + z) 1 (EMul (r_ccsdt_H_aa_voov (2 + z) c (0 + z) k (1 + z)) (ET 49 [a; b; (1 + z); i; j; (0 + z)])))))).
Definition r_ccsdt_dT_aaa_7 (z a b c i j k : nat) : ex := (EAdd (r_ccsdt_dT_aaa_6 (0 + z) a b c i j k) (EScale (1) 4 (ESum (0 + z) 2 (ESum (1 + z) 3 (EMul (r_ccsdt_H_ab_voov (2 + z) c (0 + z) k (1 + z)) (ET 50 [a; b; (1 + z); i; j; (0 + z)])))))).
Definition r_ccsdt_res_aaa (z a b c i j k : nat) : ex := (r_ccsdt_dT_aaa_7 (0 + z) a b c i j k).
Definition r_ccsdt_I2A_vvov_3 (z a b i e : nat) : ex := (EScale (-1) 2 (ESum (0 + z) 0 (ESum (1 + z) 0 (ESum (2 + z) 1 (EMul (ET 1 [(0 + z); (1 + z); e; (2 + z)]) (ET 49 [a; b; (2 + z); i; (0 + z); (1 + z)])))))).
Definition r_ccsdt_I2A_vvov_4 (z a b i e : nat) : ex := (EAdd (r_ccsdt_I2A_vvov_3 (0 + z) a b i e) (EOpp (ESum (0 + z) 0 (ESum (1 + z) 2 (ESum (2 + z) 3 (EMul (ET 3 [(0 + z); (1 + z); e; (2 + z)]) (ET 50 [a; b; (2 + z); i; (0 + z); (1 + z)]))))))).
Definition r_ccsdt_I2A_vvov_5 (z a b i e : nat) : ex := (EAdd (r_ccsdt_I2A_vvov_4 (0 + z) a b i e) (r_ccsdt_H_aa_vvov_1 (0 + z) a b i e)).
Definition r_ccsdt_I2A_vooo_4 (z a m i j : nat) : ex := (EScale (1) 2 (ESum (0 + z) 0 (ESum (1 + z) 1 (ESum (2 + z) 1 (EMul (ET 1 [m; (0 + z); (1 + z); (2 + z)]) (ET 49 [a; (1 + z); (2 + z); i; j; (0 + z)])))))).
Definition r_ccsdt_I2A_vooo_5 (z a m i j : nat) : ex := (EAdd (r_ccsdt_I2A_vooo_4 (0 + z) a m i j) (ESum (0 + z) 2 (ESum (1 + z) 1 (ESum (2 + z) 3 (EMul (ET 3 [m; (0 + z); (1 + z); (2 + z)]) (ET 50 [a; (1 + z); (2 + z); i; j; (0 + z)])))))).
Definition r_ccsdt_I2A_vooo_6 (z a m i j : nat) : ex := (EAdd (r_ccsdt_I2A_vooo_5 (0 + z) a m i j) (EOpp (ESum (0 + z) 1 (EMul (r_ccsdt_X_a_ov (1 + z) m (0 + z)) (ET 10 [a; (0 + z); i; j]))))).
Definition r_ccsdt_I2A_vooo_7 (z a m i j : nat) : ex := (EAdd (r_ccsdt_I2A_vooo_6 (0 + z) a m i j) (r_ccsdt_H_aa_vooo (0 + z) a m i j)).
Definition r_ccsdt_I2B_vvvo (z a b e j : nat) : ex := (EScale (-1) 2 (ESum (0 + z) 0 (ESum (1 + z) 0 (ESum (2 + z) 1 (EMul (ET 1 [(0 + z); (1 + z); e; (2 + z)]) (ET 50 [a; (2 + z); b; (0 + z); (1 + z); j])))))).
Definition r_ccsdt_I2B_vvvo_1 (z a b e j : nat) : ex := (EAdd (r_ccsdt_I2B_vvvo (0 + z) a b e j) (EOpp (ESum (0 + z) 0 (ESum (1 + z) 2 (ESum (2 + z) 3 (EMul (ET 3 [(0 + z); (1 + z); e; (2 + z)]) (ET 51 [a; (2 + z); b; (0 + z); (1 + z); j]))))))).
Definition r_ccsdt_I2B_vvvo_2 (z a b e j : nat) : ex := (EAdd (r_ccsdt_I2B_vvvo_1 (0 + z) a b e j) (r_ccsdt_H_ab_vvvo (0 + z) a b e j)).
Definition r_ccsdt_I2B_ovoo_1 (z m b i j : nat) : ex := (EScale (1) 2 (ESum (0 + z) 0 (ESum (1 + z) 1 (ESum (2 + z) 1 (EMul (ET 1 [m; (0 + z); (1 + z); (2 + z)]) (ET 50 [(1 + z); (2 + z); b; i; (0 + z); j])))))).
Definition r_ccsdt_I2B_ovoo_2 (z m b i j : nat) : ex := (EAdd (r_ccsdt_I2B_ovoo_1 (0 + z) m b i j) (ESum (0 + z) 2 (ESum (1 + z) 1 (ESum (2 + z) 3 (EMul (ET 3 [m; (0 + z); (1 + z); (2 + z)]) (ET 51 [(1 + z); (2 + z); b; i; (0 + z); j])))))).
Definition r_ccsdt_I2B_ovoo_3 (z m b i j : nat) : ex := (EAdd (r_ccsdt_I2B_ovoo_2 (0 + z) m b i j) (EOpp (ESum (0 + z) 1 (EMul (r_ccsdt_X_a_ov (1 + z) m (0 + z)) (ET 11 [(0 + z); b; i; j]))))).
Definition r_ccsdt_I2B_ovoo_4 (z m b i j : nat) : ex := (EAdd (r_ccsdt_I2B_ovoo_3 (0 + z) m b i j) (r_ccsdt_H_ab_ovoo (0 + z) m b i j)).
Definition r_ccsdt_I2B_vvov (z a b i e : nat) : ex := (EOpp (ESum (0 + z) 0 (ESum (1 + z) 2 (ESum (2 + z) 1 (EMul (ET 3 [(0 + z); (1 + z); (2 + z); e]) (ET 50 [a; (2 + z); b; i; (0 + z); (1 + z)])))))).
Definition r_ccsdt_I2B_vvov_1 (z a b i e : nat) : ex := (EAdd (r_ccsdt_I2B_vvov (0 + z) a b i e) (EScale (-1) 2 (ESum (0 + z) 2 (ESum (1 + z) 2 (ESum (2 + z) 3 (EMul (ET 6 [(0 + z); (1 + z); (2 + z); e]) (ET 51 [a; (2 + z); b; i; (0 + z); (1 + z)]))))))).
Definition r_ccsdt_I2B_vvov_2 (z a b i e : nat) : ex := (EAdd (r_ccsdt_I2B_vvov_1 (0 + z) a b i e) (r_ccsdt_H_ab_vvov (0 + z) a b i e)).
Definition r_ccsdt_I2B_vooo_1 (z a m i j : nat) : ex := (ESum (0 + z) 0 (ESum (1 + z) 1 (ESum (2 + z) 3 (EMul (ET 3 [(0 + z); m; (1 + z); (2 + z)]) (ET 50 [a; (1 + z); (2 + z); i; (0 + z); j]))))).
Definition r_ccsdt_I2B_vooo_2 (z a m i j : nat) : ex := (EAdd (r_ccsdt_I2B_vooo_1 (0 + z) a m i j) (EScale (1) 2 (ESum (0 + z) 2 (ESum (1 + z) 3 (ESum (2 + z) 3 (EMul (ET 6 [(0 + z); m; (1 + z); (2 + z)]) (ET 51 [a; (1 + z); (2 + z); i; (0 + z); j]))))))).
Definition r_ccsdt_I2B_vooo_3 (z a m i j : nat) : ex := (EAdd (r_ccsdt_I2B_vooo_2 (0 + z) a m i j) (EOpp (ESum (0 + z) 3 (EMul (r_ccsdt_X_b_ov (1 + z) m (0 + z)) (ET 11 [a; (0 + z); i; j]))))).
Definition r_ccsdt_I2B_vooo_4 (z a m i j : nat) : ex := (EAdd (r_ccsdt_I2B_vooo_3 (0 + z) a m i j) (r_ccsdt_H_ab_vooo (0 + z) a m i j)).
Definition r_ccsdt_dT_aab (z a b c i j k : nat) : ex := (EScale (1) 2 (ESum (0 + z) 1 (EMul (r_ccsdt_I2B_vvvo_2 (1 + z) b c (0 + z) k) (ET 10 [a; (0 + z); i; j])))).
Definition r_ccsdt_dT_aab_1 (z a b c i j k : nat) : ex := (ESub (r_ccsdt_dT_aab (0 + z) a b c i j k) (EScale (1) 2 (ESum (0 + z) 0 (EMul (r_ccsdt_I2B_ovoo_4 (1 + z) (0 + z) c j k) (ET 10 [a; b; i; (0 + z)]))))).
Definition r_ccsdt_dT_aab_2 (z a b c i j k : nat) : ex := (EAdd (r_ccsdt_dT_aab_1 (0 + z) a b c i j k) (ESum (0 + z) 3 (EMul (r_ccsdt_I2B_vvov_2 (1 + z) a c i (0 + z)) (ET 11 [b; (0 + z); j; k])))).
Definition r_ccsdt_dT_aab_3 (z a b c i j k : nat) : ex := (ESub (r_ccsdt_dT_aab_2 (0 + z) a b c i j k) (ESum (0 + z) 2 (EMul (r_ccsdt_I2B_vooo_4 (1 + z) a (0 + z) i k) (ET 11 [b; c; j; (0 + z)])))).
Definition r_ccsdt_dT_aab_4 (z a b c i j k : nat) : ex := (EAdd (r_ccsdt_dT_aab_3 (0 + z) a b c i j k) (EScale (1) 2 (ESum (0 + z) 1 (EMul (r_ccsdt_I2A_vvov_5 (1 + z) a b i (0 + z)) (ET 11 [(0 + z); c; j; k]))))).
Definition r_ccsdt_dT_aab_5 (z a b c i j k : nat) : ex := (ESub (r_ccsdt_dT_aab_4 (0 + z) a b c i j k) (EScale (1) 2 (ESum (0 + z) 0 (EMul (r_ccsdt_I2A_vooo_7 (1 + z) a (0 + z) i j) (ET 11 [b; c; (0 + z); k]))))).
Definition r_ccsdt_dT_aab_6 (z a b c i j k : nat) : ex := (ESub (r_ccsdt_dT_aab_5 (0 + z) a b c i j k) (EScale (1) 2 (ESum (0 + z) 0 (EMul (r_ccsdt_X_a_oo (1 + z) (0 + z) i) (ET 50 [a; b; c; (0 + z); j; k]))))).
Definition r_ccsdt_dT_aab_7 (z a b c i j k : nat) : ex := (ESub (r_ccsdt_dT_aab_6 (0 + z) a b c i j k) (EScale (1) 4 (ESum (0 + z) 2 (EMul (r_ccsdt_X_b_oo (1 + z) (0 + z) k) (ET 50 [a; b; c; i; j; (0 + z)]))))).
Definition r_ccsdt_dT_aab_8 (z a b c i j k : nat) : ex := (EAdd (r_ccsdt_dT_aab_7 (0 + z) a b c i j k) (EScale (1) 2 (ESum (0 + z) 1 (EMul (r_ccsdt_X_a_vv_1 (1 + z) a (0 + z)) (ET 50 [(0 + z); b; c; i; j; k]))))).
Definition r_ccsdt_dT_aab_9 (z a b c i j k : nat) : ex := (EAdd (r_ccsdt_dT_aab_8 (0 + z) a b c i j k) (EScale (1) 4 (ESum (0 + z) 3 (EMul (r_ccsdt_X_b_vv_1 (1 + z) c (0 + z)) (ET 50 [a; b; (0 + z); i; j; k]))))).
Definition r_ccsdt_dT_aab_10 (z a b c i j k : nat) : ex := (EAdd (r_ccsdt_dT_aab_9 (0 + z) a b c i j k) (EScale (1) 8 (ESum (0 + z) 0 (ESum (1 + z) 0 (EMul (r_ccsdt_H_aa_oooo_1 (2 + z) (0 + z) (1 + z) i j) (ET 50 [a; b; c; (0 + z); (1 + z); k])))))).
Definition r_ccsdt_dT_aab_11 (z a b c i j k : nat) : ex := (EAdd (r_ccsdt_dT_aab_10 (0 + z) a b c i j k) (EScale (1) 2 (ESum (0 + z) 0 (ESum (1 + z) 2 (EMul (r_ccsdt_H_ab_oooo (2 + z) (0 + z) (1 + z) j k) (ET 50 [a; b; c; i; (0 + z); (1 + z)])))))).
Definition r_ccsdt_dT_aab_12 (z a b c i j k : nat) : ex := (EAdd (r_ccsdt_dT_aab_11 (0 + z) a b c i j k) (EScale (1) 8 (ESum (0 + z) 1 (ESum (1 + z) 1 (EMul (r_ccsdt_H_aa_vvvv_1 (2 + z) a b (0 + z) (1 + z)) (ET 50 [(0 + z); (1 + z); c; i; j; k])))))).
Definition r_ccsdt_dT_aab_13 (z a b c i j k : nat) : ex := (EAdd (r_ccsdt_dT_aab_12 (0 + z) a b c i j k) (EScale (1) 2 (ESum (0 + z) 1 (ESum (1 + z) 3 (EMul (r_ccsdt_H_ab_vvvv (2 + z) b c (0 + z) (1 + z)) (ET 50 [a; (0 + z); (1 + z); i; j; k])))))).
Definition r_ccsdt_dT_aab_14 (z a b c i j k : nat) : ex := (EAdd (r_ccsdt_dT_aab_13 (0 + z) a b c i j k) (ESum (0 + z) 0 (ESum (1 + z) 1 (EMul (r_ccsdt_H_aa_voov (2 + z) a (0 + z) i (1 + z)) (ET 50 [(1 + z); b; c; (0 + z); j; k]))))).
Definition r_ccsdt_dT_aab_15 (z a b c i j k : nat) : ex := (EAdd (r_ccsdt_dT_aab_14 (0 + z) a b c i j k) (ESum (0 + z) 2 (ESum (1 + z) 3 (EMul (r_ccsdt_H_ab_voov (2 + z) a (0 + z) i (1 + z)) (ET 51 [b; (1 + z); c; j; (0 + z); k]))))).
Definition r_ccsdt_dT_aab_16 (z a b c i j k : nat) : ex := (EAdd (r_ccsdt_dT_aab_15 (0 + z) a b c i j k) (EScale (1) 4 (ESum (0 + z) 0 (ESum (1 + z) 1 (EMul (r_ccsdt_H_ab_ovvo (2 + z) (0 + z) c (1 + z) k) (ET 49 [a; b; (1 + z); i; j; (0 + z)])))))).
Definition r_ccsdt_dT_aab_17 (z a b c i j k : nat) : ex := (EAdd (r_ccsdt_dT_aab_16 (0 + z) a b c i j k) (EScale (1) 4 (ESum (0 + z) 2 (ESum (1 + z) 3 (EMul (r_ccsdt_H_bb_voov (2 + z) c (0 + z) k (1 + z)) (ET 50 [a; b; (1 + z); i; j; (0 + z)])))))).
Definition r_ccsdt_dT_aab_18 (z a b c i j k : nat) : ex := (ESub (r_ccsdt_dT_aab_17 (0 + z) a b c i j k) (EScale (1) 2 (ESum (0 + z) 2 (ESum (1 + z) 1 (EMul (r_ccsdt_H_ab_vovo (2 + z) a (0 + z) (1 + z) k) (ET 50 [(1 + z); b; c; i; j; (0 + z)])))))).
Definition r_ccsdt_dT_aab_19 (z a b c i j k : nat) : ex := (ESub (r_ccsdt_dT_aab_18 (0 + z) a b c i j k) (EScale (1) 2 (ESum (0 + z) 0 (ESum (1 + z) 3 (EMul (r_ccsdt_H_ab_ovov (2 + z) (0 + z) c i (1 + z)) (ET 50 [a; b; (1 + z); (0 + z); j; k])))))).
Definition r_ccsdt_res_aab (z a b c i j k : nat) : ex := (r_ccsdt_dT_aab_19 (0 + z) a b c i j k).
Definition r_ccsdt_I2B_vvvo_3 (z a b e j : nat) : ex := (EScale (-1) 2 (ESum (0 + z) 0 (ESum (1 + z) 0 (ESum (2 + z) 1 (EMul (ET 1 [(0 + z); (1 + z); e; (2 + z)]) (ET 50 [a; (2 + z); b; (0 + z); (1 + z); j])))))).
Definition r_ccsdt_I2B_vvvo_4 (z a b e j : nat) : ex := (EAdd (r_ccsdt_I2B_vvvo_3 (0 + z) a b e j) (EOpp (ESum (0 + z) 0 (ESum (1 + z) 2 (ESum (2 + z) 3 (EMul (ET 3 [(0 + z); (1 + z); e; (2 + z)]) (ET 51 [a; (2 + z); b; (0 + z); (1 + z); j]))))))).
Definition r_ccsdt_I2B_vvvo_5 (z a b e j : nat) : ex := (EAdd (r_ccsdt_I2B_vvvo_4 (0 + z) a b e j) (r_ccsdt_H_ab_vvvo (0 + z) a b e j)).
Definition r_ccsdt_I2B_ovoo_5 (z m b i j : nat) : ex := (EScale (1) 2 (ESum (0 + z) 0 (ESum (1 + z) 1 (ESum (2 + z) 1 (EMul (ET 1 [m; (0 + z); (1 + z); (2 + z)]) (ET 50 [(1 + z); (2 + z); b; i; (0 + z); j])))))).
Definition r_ccsdt_I2B_ovoo_6 (z m b i j : nat) : ex := (EAdd (r_ccsdt_I2B_ovoo_5 (0 + z) m b i j) (ESum (0 + z) 2 (ESum (1 + z) 1 (ESum (2 + z) 3 (EMul (ET 3 [m; (0 + z); (1 + z); (2 + z)]) (ET 51 [(1 + z); (2 + z); b; i; (0 + z); j])))))).
Definition r_ccsdt_I2B_ovoo_7 (z m b i j : nat) : ex := (ESub (r_ccsdt_I2B_ovoo_6 (0 + z) m b i j) (ESum (0 + z) 1 (EMul (r_ccsdt_X_a_ov (1 + z) m (0 + z)) (ET 11 [(0 + z); b; i; j])))).
Definition r_ccsdt_I2B_ovoo_8 (z m b i j : nat) : ex := (EAdd (r_ccsdt_I2B_ovoo_7 (0 + z) m b i j) (r_ccsdt_H_ab_ovoo (0 + z) m b i j)).
Definition r_ccsdt_I2B_vvov_3 (z a b i e : nat) : ex := (EOpp (ESum (0 + z) 0 (ESum (1 + z) 2 (ESum (2 + z) 1 (EMul (ET 3 [(0 + z); (1 + z); (2 + z); e]) (ET 50 [a; (2 + z); b; i; (0 + z); (1 + z)])))))).
Definition r_ccsdt_I2B_vvov_4 (z a b i e : nat) : ex := (EAdd (r_ccsdt_I2B_vvov_3 (0 + z) a b i e) (EScale (-1) 2 (ESum (0 + z) 2 (ESum (1 + z) 2 (ESum (2 + z) 3 (EMul (ET 6 [(0 + z); (1 + z); (2 + z); e]) (ET 51 [a; (2 + z); b; i; (0 + z); (1 + z)]))))))).
Definition r_ccsdt_I2B_vvov_5 (z a b i e : nat) : ex := (EAdd (r_ccsdt_I2B_vvov_4 (0 + z) a b i e) (r_ccsdt_H_ab_vvov (0 + z) a b i e)).
Definition r_ccsdt_I2B_vooo_5 (z a m i j : nat) : ex := (ESum (0 + z) 0 (ESum (1 + z) 1 (ESum (2 + z) 3 (EMul (ET 3 [(0 + z); m; (1 + z); (2 + z)]) (ET 50 [a; (1 + z); (2 + z); i; (0 + z); j]))))).
Definition r_ccsdt_I2B_vooo_6 (z a m i j : nat) : ex := (EAdd (r_ccsdt_I2B_vooo_5 (0 + z) a m i j) (EScale (1) 2 (ESum (0 + z) 2 (ESum (1 + z) 3 (ESum (2 + z) 3 (EMul (ET 6 [(0 + z); m; (1 + z); (2 + z)]) (ET 51 [a; (1 + z); (2 + z); i; (0 + z); j]))))))).
Definition r_ccsdt_I2B_vooo_7 (z a m i j : nat) : ex := (ESub (r_ccsdt_I2B_vooo_6 (0 + z) a m i j) (ESum (0 + z) 3 (EMul (r_ccsdt_X_b_ov (1 + z) m (0 + z)) (ET 11 [a; (0 + z); i; j])))).
Definition r_ccsdt_I2B_vooo_8 (z a m i j : nat) : ex := (EAdd (r_ccsdt_I2B_vooo_7 (0 + z) a m i j) (r_ccsdt_H_ab_vooo (0 + z) a m i j)).
Definition r_ccsdt_I2C_vvov (z a b i e : nat) : ex := (EScale (-1) 2 (ESum (0 + z) 2 (ESum (1 + z) 2 (ESum (2 + z) 3 (EMul (ET 6 [(0 + z); (1 + z); e; (2 + z)]) (ET 52 [a; b; (2 + z); i; (0 + z); (1 + z)])))))).
Definition r_ccsdt_I2C_vvov_1 (z a b i e : nat) : ex := (EAdd (r_ccsdt_I2C_vvov (0 + z) a b i e) (EOpp (ESum (0 + z) 0 (ESum (1 + z) 2 (ESum (2 + z) 1 (EMul (ET 3 [(0 + z); (1 + z); (2 + z); e]) (ET 51 [(2 + z); a; b; (0 + z); i; (1 + z)]))))))).
Definition r_ccsdt_I2C_vvov_2 (z a b i e : nat) : ex := (EAdd (r_ccsdt_I2C_vvov_1 (0 + z) a b i e) (r_ccsdt_H_bb_vvov_1 (0 + z) a b i e)).
Definition r_ccsdt_I2C_vooo_1 (z a m i j : nat) : ex := (ESum (0 + z) 0 (ESum (1 + z) 1 (ESum (2 + z) 3 (EMul (ET 3 [(0 + z); m; (1 + z); (2 + z)]) (ET 51 [(1 + z); a; (2 + z); (0 + z); i; j]))))).
Definition r_ccsdt_I2C_vooo_2 (z a m i j : nat) : ex := (EAdd (r_ccsdt_I2C_vooo_1 (0 + z) a m i j) (EScale (1) 2 (ESum (0 + z) 2 (ESum (1 + z) 3 (ESum (2 + z) 3 (EMul (ET 6 [m; (0 + z); (1 + z); (2 + z)]) (ET 52 [a; (1 + z); (2 + z); i; j; (0 + z)]))))))).
Definition r_ccsdt_I2C_vooo_3 (z a m i j : nat) : ex := (ESub (r_ccsdt_I2C_vooo_2 (0 + z) a m i j) (ESum (0 + z) 3 (EMul (r_ccsdt_X_b_ov (1 + z) m (0 + z)) (ET 18 [a; (0 + z); i; j])))).
Definition r_ccsdt_I2C_vooo_4 (z a m i j : nat) : ex := (EAdd (r_ccsdt_I2C_vooo_3 (0 + z) a m i j) (r_ccsdt_H_bb_vooo (0 + z) a m i j)).
Definition r_ccsdt_dT_abb (z a b c i j k : nat) : ex := (EScale (1) 2 (ESum (0 + z) 3 (EMul (r_ccsdt_I2B_vvov_5 (1 + z) a b i (0 + z)) (ET 18 [(0 + z); c; j; k])))).
Definition r_ccsdt_dT_abb_1 (z a b c i j k : nat) : ex := (ESub (r_ccsdt_dT_abb (0 + z) a b c i j k) (EScale (1) 2 (ESum (0 + z) 2 (EMul (r_ccsdt_I2B_vooo_8 (1 + z) a (0 + z) i j) (ET 18 [b; c; (0 + z); k]))))).
Definition r_ccsdt_dT_abb_2 (z a b c i j k : nat) : ex := (EAdd (r_ccsdt_dT_abb_1 (0 + z) a b c i j k) (EScale (1) 2 (ESum (0 + z) 3 (EMul (r_ccsdt_I2C_vvov_2 (1 + z) c b k (0 + z)) (ET 11 [a; (0 + z); i; j]))))).
Definition r_ccsdt_dT_abb_3 (z a b c i j k : nat) : ex := (ESub (r_ccsdt_dT_abb_2 (0 + z) a b c i j k) (EScale (1) 2 (ESum (0 + z) 2 (EMul (r_ccsdt_I2C_vooo_4 (1 + z) c (0 + z) k j) (ET 11 [a; b; i; (0 + z)]))))).
Definition r_ccsdt_dT_abb_4 (z a b c i j k : nat) : ex := (EAdd (r_ccsdt_dT_abb_3 (0 + z) a b c i j k) (ESum (0 + z) 1 (EMul (r_ccsdt_I2B_vvvo_5 (1 + z) a b (0 + z) j) (ET 11 [(0 + z); c; i; k])))).
Definition r_ccsdt_dT_abb_5 (z a b c i j k : nat) : ex := (ESub (r_ccsdt_dT_abb_4 (0 + z) a b c i j k) (ESum (0 + z) 0 (EMul (r_ccsdt_I2B_ovoo_8 (1 + z) (0 + z) b i j) (ET 11 [a; c; (0 + z); k])))).
Definition r_ccsdt_dT_abb_6 (z a b c i j k : nat) : ex := (ESub (r_ccsdt_dT_abb_5 (0 + z) a b c i j k) (EScale (1) 4 (ESum (0 + z) 0 (EMul (r_ccsdt_X_a_oo (1 + z) (0 + z) i) (ET 51 [a; b; c; (0 + z); j; k]))))).
Definition r_ccsdt_dT_abb_7 (z a b c i j k : nat) : ex := (ESub (r_ccsdt_dT_abb_6 (0 + z) a b c i j k) (EScale (1) 2 (ESum (0 + z) 2 (EMul (r_ccsdt_X_b_oo (1 + z) (0 + z) j) (ET 51 [a; b; c; i; (0 + z); k]))))).
Definition r_ccsdt_dT_abb_8 (z a b c i j k : nat) : ex := (EAdd (r_ccsdt_dT_abb_7 (0 + z) a b c i j k) (EScale (1) 4 (ESum (0 + z) 1 (EMul (r_ccsdt_X_a_vv_1 (1 + z) a (0 + z)) (ET 51 [(0 + z); b; c; i; j; k]))))).
Definition r_ccsdt_dT_abb_9 (z a b c i j k : nat) : ex := (EAdd (r_ccsdt_dT_abb_8 (0 + z) a b c i j k) (EScale (1) 2 (ESum (0 + z) 3 (EMul (r_ccsdt_X_b_vv_1 (1 + z) b (0 + z)) (ET 51 [a; (0 + z); c; i; j; k]))))).
Definition r_ccsdt_dT_abb_10 (z a b c i j k : nat) : ex := (EAdd (r_ccsdt_dT_abb_9 (0 + z) a b c i j k) (EScale (1) 8 (ESum (0 + z) 2 (ESum (1 + z) 2 (EMul (r_ccsdt_H_bb_oooo_1 (2 + z) (0 + z) (1 + z) j k) (ET 51 [a; b; c; i; (0 + z); (1 + z)])))))).
Definition r_ccsdt_dT_abb_11 (z a b c i j k : nat) : ex := (EAdd (r_ccsdt_dT_abb_10 (0 + z) a b c i j k) (EScale (1) 2 (ESum (0 + z) 0 (ESum (1 + z) 2 (EMul (r_ccsdt_H_ab_oooo (2 + z) (0 + z) (1 + z) i j) (ET 51 [a; b; c; (0 + z); (1 + z); k])))))).
Definition r_ccsdt_dT_abb_12 (z a b c i j k : nat) : ex := (EAdd (r_ccsdt_dT_abb_11 (0 + z) a b c i j k) (EScale (1) 8 (ESum (0 + z) 3 (ESum (1 + z) 3 (EMul (r_ccsdt_H_bb_vvvv_1 (2 + z) b c (0 + z) (1 + z)) (ET 51 [a; (0 + z); (1 + z); i; j; k])))))).
Definition r_ccsdt_dT_abb_13 (z a b c i j k : nat) : ex := (EAdd (r_ccsdt_dT_abb_12 (0 + z) a b c i j k) (EScale (1) 2 (ESum (0 + z) 1 (ESum (1 + z) 3 (EMul (r_ccsdt_H_ab_vvvv (2 + z) a b (0 + z) (1 + z)) (ET 51 [(0 + z); (1 + z); c; i; j; k])))))).
Definition r_ccsdt_dT_abb_14 (z a b c i j k : nat) : ex := (EAdd (r_ccsdt_dT_abb_13 (0 + z) a b c i j k) (EScale (1) 4 (ESum (0 + z) 0 (ESum (1 + z) 1 (EMul (r_ccsdt_H_aa_voov (2 + z) a (0 + z) i (1 + z)) (ET 51 [(1 + z); b; c; (0 + z); j; k])))))).
Definition r_ccsdt_dT_abb_15 (z a b c i j k : nat) : ex := (EAdd (r_ccsdt_dT_abb_14 (0 + z) a b c i j k) (EScale (1) 4 (ESum (0 + z) 2 (ESum (1 + z) 3 (EMul (r_ccsdt_H_ab_voov (2 + z) a (0 + z) i (1 + z)) (ET 52 [(1 + z); b; c; (0 + z); j; k])))))).
Definition r_ccsdt_dT_abb_16 (z a b c i j k : nat) : ex := (EAdd (r_ccsdt_dT_abb_15 (0 + z) a b c i j k) (ESum (0 + z) 0 (ESum (1 + z) 1 (EMul (r_ccsdt_H_ab_ovvo (2 + z) (0 + z) b (1 + z) j) (ET 50 [a; (1 + z); c; i; (0 + z); k]))))).
Definition r_ccsdt_dT_abb_17 (z a b c i j k : nat) : ex := (EAdd (r_ccsdt_dT_abb_16 (0 + z) a b c i j k) (ESum (0 + z) 2 (ESum (1 + z) 3 (EMul (r_ccsdt_H_bb_voov (2 + z) b (0 + z) j (1 + z)) (ET 51 [a; (1 + z); c; i; (0 + z); k]))))).
Definition r_ccsdt_dT_abb_18 (z a b c i j k : nat) : ex := (ESub (r_ccsdt_dT_abb_17 (0 + z) a b c i j k) (EScale (1) 2 (ESum (0 + z) 0 (ESum (1 + z) 3 (EMul (r_ccsdt_H_ab_ovov (2 + z) (0 + z) b i (1 + z)) (ET 51 [a; (1 + z); c; (0 + z); j; k])))))).
Definition r_ccsdt_dT_abb_19 (z a b c i j k : nat) : ex := (ESub (r_ccsdt_dT_abb_18 (0 + z) a b c i j k) (EScale (1) 2 (ESum (0 + z) 2 (ESum (1 + z) 1 (EMul (r_ccsdt_H_ab_vovo (2 + z) a (0 + z) (1 + z) j) (ET 51 [(1 + z); b; c; i; (0 + z); k])))))).
Definition r_ccsdt_res_abb (z a b c i j k : nat) : ex := (r_ccsdt_dT_abb_19 (0 + z) a b c i j k).
Definition r_ccsdt_I2C_vvov_3 (z a b i e : nat) : ex := (EScale (-1) 2 (ESum (0 + z) 2 (ESum (1 + z) 2 (ESum (2 + z) 3 (EMul (ET 6 [(0 + z); (1 + z); e; (2 + z)]) (ET 52 [a; b; (2 + z); i; (0 + z); (1 + z)])))))).
Definition r_ccsdt_I2C_vvov_4 (z a b i e : nat) : ex := (ESub (r_ccsdt_I2C_vvov_3 (0 + z) a b i e) (ESum (0 + z) 0 (ESum (1 + z) 2 (ESum (2 + z) 1 (EMul (ET 3 [(0 + z); (1 + z); (2 + z); e]) (ET 51 [(2 + z); a; b; (0 + z); i; (1 + z)])))))).
Definition r_ccsdt_I2C_vvov_5 (z a b i e : nat) : ex := (EAdd (r_ccsdt_I2C_vvov_4 (0 + z) a b i e) (r_ccsdt_H_bb_vvov_1 (0 + z) a b i e)).
Definition r_ccsdt_I2C_vooo_5 (z a m i j : nat) : ex := (EScale (1) 2 (ESum (0 + z) 2 (ESum (1 + z) 3 (ESum (2 + z) 3 (EMul (ET 6 [m; (0 + z); (1 + z); (2 + z)]) (ET 52 [a; (1 + z); (2 + z); i; j; (0 + z)])))))).
Definition r_ccsdt_I2C_vooo_6 (z a m i j : nat) : ex := (EAdd (r_ccsdt_I2C_vooo_5 (0 + z) a m i j) (ESum (0 + z) 0 (ESum (1 + z) 1 (ESum (2 + z) 3 (EMul (ET 3 [(0 + z); m; (1 + z); (2 + z)]) (ET 51 [(1 + z); a; (2 + z); (0 + z); i; j])))))).
Definition r_ccsdt_I2C_vooo_7 (z a m i j : nat) : ex := (ESub (r_ccsdt_I2C_vooo_6 (0 + z) a m i j) (ESum (0 + z) 3 (EMul (r_ccsdt_X_b_ov (1 + z) m (0 + z)) (ET 18 [a; (0 + z); i; j])))).
Definition r_ccsdt_I2C_vooo_8 (z a m i j : nat) : ex := (EAdd (r_ccsdt_I2C_vooo_7 (0 + z) a m i j) (r_ccsdt_H_bb_vooo (0 + z) a m i j)).
Definition r_ccsdt_dT_bbb (z a b c i j k : nat) : ex := (EScale (-1) 4 (ESum (0 + z) 2 (EMul (r_ccsdt_I2C_vooo_8 (1 + z) a (0 + z) i j) (ET 18 [b; c; (0 + z); k])))).
Definition r_ccsdt_dT_bbb_1 (z a b c i j k : nat) : ex := (EAdd (r_ccsdt_dT_bbb (0 + z) a b c i j k) (EScale (1) 4 (ESum (0 + z) 3 (EMul (r_ccsdt_I2C_vvov_5 (1 + z) a b i (0 + z)) (ET 18 [(0 + z); c; j; k]))))).
Definition r_ccsdt_dT_bbb_2 (z a b c i j k : nat) : ex := (ESub (r_ccsdt_dT_bbb_1 (0 + z) a b c i j k) (EScale (1) 12 (ESum (0 + z) 2 (EMul (r_ccsdt_X_b_oo (1 + z) (0 + z) k) (ET 52 [a; b; c; i; j; (0 + z)]))))).
Definition r_ccsdt_dT_bbb_3 (z a b c i j k : nat) : ex := (EAdd (r_ccsdt_dT_bbb_2 (0 + z) a b c i j k) (EScale (1) 12 (ESum (0 + z) 3 (EMul (r_ccsdt_X_b_vv_1 (1 + z) c (0 + z)) (ET 52 [a; b; (0 + z); i; j; k]))))).
Definition r_ccsdt_dT_bbb_4 (z a b c i j k : nat) : ex := (EAdd (r_ccsdt_dT_bbb_3 (0 + z) a b c i j k) (EScale (1) 24 (ESum (0 + z) 2 (ESum (1 + z) 2 (EMul (r_ccsdt_H_bb_oooo_1 (2 + z) (0 + z) (1 + z) i j) (ET 52 [a; b; c; (0 + z); (1 + z); k])))))).
Definition r_ccsdt_dT_bbb_5 (z a b c i j k : nat) : ex := (EAdd (r_ccsdt_dT_bbb_4 (0 + z) a b c i j k) (EScale (1) 24 (ESum (0 + z) 3 (ESum (1 + z) 3 (EMul (r_ccsdt_H_bb_vvvv_1 (2 + z) a b (0 + z) (1 + z)) (ET 52 [(0 + z); (1 + z); c; i; j; k])))))).
Definition r_ccsdt_dT_bbb_6 (z a b c i j k : nat) : ex := (EAdd (r_ccsdt_dT_bbb_5 (0 + z) a b c i j k) (EScale (1) 4 (ESum (0 + z) 0 (ESum (1 + z) 1 (EMul (r_ccsdt_H_ab_ovvo (2 + z) (0 + z) a (1 + z) i) (ET 51 [(1 + z); b; c; (0 + z); j; k])))))).
Definition r_ccsdt_dT_bbb_7 (z a b c i j k : nat) : ex := (EAdd (r_ccsdt_dT_bbb_6 (0 + z) a b c i j k) (EScale (1) 4 (ESum (0 + z) 2 (ESum (1 + z) 3 (EMul (r_ccsdt_H_bb_voov (2 + z) a (0 + z) i (1 + z)) (ET 52 [(1 + z); b; c; (0 + z); j; k])))))).
Definition r_ccsdt_res_bbb (z a b c i j k : nat) : ex := (r_ccsdt_dT_bbb_7 (0 + z) a b c i j k).
Definition r_cc2f_aa (z a b i j : nat) : ex := (EAdd (ESub (ESub (r_cc2_res_aa (0 + z) a b i j) (r_cc2_res_aa (0 + z) b a i j)) (r_cc2_res_aa (0 + z) a b j i)) (r_cc2_res_aa (0 + z) b a j i)).
Definition r_ccsdf_aa (z a b i j : nat) : ex := (EAdd (ESub (ESub (r_ccsd_res_aa (0 + z) a b i j) (r_ccsd_res_aa (0 + z) b a i j)) (r_ccsd_res_aa (0 + z) a b j i)) (r_ccsd_res_aa (0 + z) b a j i)).
Definition r_ccsdtf_aa (z a b i j : nat) : ex := (EAdd (ESub (ESub (r_ccsdt_res_aa (0 + z) a b i j) (r_ccsdt_res_aa (0 + z) b a i j)) (r_ccsdt_res_aa (0 + z) a b j i)) (r_ccsdt_res_aa (0 + z) b a j i)).
Definition r_cc2f_bb (z a b i j : nat) : ex := (EAdd (ESub (ESub (r_cc2_res_bb (0 + z) a b i j) (r_cc2_res_bb (0 + z) b a i j)) (r_cc2_res_bb (0 + z) a b j i)) (r_cc2_res_bb (0 + z) b a j i)).
Definition r_ccsdf_bb (z a b i j : nat) : ex := (EAdd (ESub (ESub (r_ccsd_res_bb (0 + z) a b i j) (r_ccsd_res_bb (0 + z) b a i j)) (r_ccsd_res_bb (0 + z) a b j i)) (r_ccsd_res_bb (0 + z) b a j i)).
Definition r_ccsdtf_bb (z a b i j : nat) : ex := (EAdd (ESub (ESub (r_ccsdt_res_bb (0 + z) a b i j) (r_ccsdt_res_bb (0 + z) b a i j)) (r_ccsdt_res_bb (0 + z) a b j i)) (r_ccsdt_res_bb (0 + z) b a j i)).
Definition r_rcc2f_aa (z a b i j : nat) : ex := (EAdd (ESub (ESub (r_rcc2_res_aa (0 + z) a b i j) (r_rcc2_res_aa (0 + z) b a i j)) (r_rcc2_res_aa (0 + z) a b j i)) (r_rcc2_res_aa (0 + z) b a j i)).
Definition r_extra (z a b i j : nat) : ex := (EScale (1) 1 (ESum (0 + z) 1 (ESum (1 + z) 1 (EMul (ET 41 [a; b; (0 + z); (1 + z)]) (EMul (ET 2 [(0 + z); i]) (ET 2 [(1 + z); j])))))).
Definition r_eom2_X1A (z a i : nat) : ex := (EOpp (ESum (0 + z) 0 (EMul (r_hb2_H_a_oo (1 + z) (0 + z) i) (ET 53 [a; (0 + z)])))).
Definition r_eom2_X1A_1 (z a i : nat) : ex := (EAdd (r_eom2_X1A (0 + z) a i) (ESum (0 + z) 1 (EMul (r_hb2_H_a_vv (1 + z) a (0 + z)) (ET 53 [(0 + z); i])))).
Definition r_eom2_X1A_2 (z a i : nat) : ex := (EAdd (r_eom2_X1A_1 (0 + z) a i) (ESum (0 + z) 0 (ESum (1 + z) 1 (EMul (r_hb2_H_aa_voov (2 + z) a (0 + z) i (1 + z)) (ET 53 [(1 + z); (0 + z)]))))).
Definition r_eom2_X1A_3 (z a i : nat) : ex := (EAdd (r_eom2_X1A_2 (0 + z) a i) (ESum (0 + z) 2 (ESum (1 + z) 3 (EMul (r_hb2_H_ab_voov (2 + z) a (0 + z) i (1 + z)) (ET 54 [(1 + z); (0 + z)]))))).
Definition r_eom2_X1A_4 (z a i : nat) : ex := (ESub (r_eom2_X1A_3 (0 + z) a i) (EScale (1) 2 (ESum (0 + z) 0 (ESum (1 + z) 0 (ESum (2 + z) 1 (EMul (r_hb2_H_aa_ooov (3 + z) (0 + z) (1 + z) i (2 + z)) (ET 55 [a; (2 + z); (0 + z); (1 + z)]))))))).
Definition r_eom2_X1A_5 (z a i : nat) : ex := (ESub (r_eom2_X1A_4 (0 + z) a i) (ESum (0 + z) 0 (ESum (1 + z) 2 (ESum (2 + z) 3 (EMul (r_hb2_H_ab_ooov (3 + z) (0 + z) (1 + z) i (2 + z)) (ET 56 [a; (2 + z); (0 + z); (1 + z)])))))).
Definition r_eom2_X1A_6 (z a i : nat) : ex := (EAdd (r_eom2_X1A_5 (0 + z) a i) (EScale (1) 2 (ESum (0 + z) 0 (ESum (1 + z) 1 (ESum (2 + z) 1 (EMul (r_hb2_H_aa_vovv (3 + z) a (0 + z) (1 + z) (2 + z)) (ET 55 [(1 + z); (2 + z); i; (0 + z)]))))))).
Definition r_eom2_X1A_7 (z a i : nat) : ex := (EAdd (r_eom2_X1A_6 (0 + z) a i) (ESum (0 + z) 2 (ESum (1 + z) 1 (ESum (2 + z) 3 (EMul (r_hb2_H_ab_vovv (3 + z) a (0 + z) (1 + z) (2 + z)) (ET 56 [(1 + z); (2 + z); i; (0 + z)])))))).
Definition r_eom2_X1A_8 (z a i : nat) : ex := (EAdd (r_eom2_X1A_7 (0 + z) a i) (ESum (0 + z) 0 (ESum (1 + z) 1 (EMul (r_hb2_H_a_ov (2 + z) (0 + z) (1 + z)) (ET 55 [a; (1 + z); i; (0 + z)]))))).
Definition r_eom2_X1A_9 (z a i : nat) : ex := (EAdd (r_eom2_X1A_8 (0 + z) a i) (ESum (0 + z) 2 (ESum (1 + z) 3 (EMul (r_hb2_H_b_ov (2 + z) (0 + z) (1 + z)) (ET 56 [a; (1 + z); i; (0 + z)]))))).
Definition r_eom2_X1B (z a i : nat) : ex := (EOpp (ESum (0 + z) 2 (EMul (r_hb2_H_b_oo (1 + z) (0 + z) i) (ET 54 [a; (0 + z)])))).
Definition r_eom2_X1B_1 (z a i : nat) : ex := (EAdd (r_eom2_X1B (0 + z) a i) (ESum (0 + z) 3 (EMul (r_hb2_H_b_vv (1 + z) a (0 + z)) (ET 54 [(0 + z); i])))).
Definition r_eom2_X1B_2 (z a i : nat) : ex := (EAdd (r_eom2_X1B_1 (0 + z) a i) (ESum (0 + z) 0 (ESum (1 + z) 1 (EMul (r_hb2_H_ab_ovvo (2 + z) (0 + z) a (1 + z) i) (ET 53 [(1 + z); (0 + z)]))))).
Definition r_eom2_X1B_3 (z a i : nat) : ex := (EAdd (r_eom2_X1B_2 (0 + z) a i) (ESum (0 + z) 2 (ESum (1 + z) 3 (EMul (r_hb2_H_bb_voov (2 + z) a (0 + z) i (1 + z)) (ET 54 [(1 + z); (0 + z)]))))).
Definition r_eom2_X1B_4 (z a i : nat) : ex := (ESub (r_eom2_X1B_3 (0 + z) a i) (ESum (0 + z) 0 (ESum (1 + z) 2 (ESum (2 + z) 1 (EMul (r_hb2_H_ab_oovo (3 + z) (0 + z) (1 + z) (2 + z) i) (ET 56 [(2 + z); a; (0 + z); (1 + z)])))))).
Definition r_eom2_X1B_5 (z a i : nat) : ex := (ESub (r_eom2_X1B_4 (0 + z) a i) (EScale (1) 2 (ESum (0 + z) 2 (ESum (1 + z) 2 (ESum (2 + z) 3 (EMul (r_hb2_H_bb_ooov (3 + z) (0 + z) (1 + z) i (2 + z)) (ET 57 [a; (2 + z); (0 + z); (1 + z)]))))))).
Definition r_eom2_X1B_6 (z a i : nat) : ex := (EAdd (r_eom2_X1B_5 (0 + z) a i) (ESum (0 + z) 0 (ESum (1 + z) 1 (ESum (2 + z) 3 (EMul (r_hb2_H_ab_ovvv (3 + z) (0 + z) a (1 + z) (2 + z)) (ET 56 [(1 + z); (2 + z); (0 + z); i])))))).
Definition r_eom2_X1B_7 (z a i : nat) : ex := (EAdd (r_eom2_X1B_6 (0 + z) a i) (EScale (1) 2 (ESum (0 + z) 2 (ESum (1 + z) 3 (ESum (2 + z) 3 (EMul (r_hb2_H_bb_vovv (3 + z) a (0 + z) (1 + z) (2 + z)) (ET 57 [(1 + z); (2 + z); i; (0 + z)]))))))).
Definition r_eom2_X1B_8 (z a i : nat) : ex := (EAdd (r_eom2_X1B_7 (0 + z) a i) (ESum (0 + z) 0 (ESum (1 + z) 1 (EMul (r_hb2_H_a_ov (2 + z) (0 + z) (1 + z)) (ET 56 [(1 + z); a; (0 + z); i]))))).
Definition r_eom2_X1B_9 (z a i : nat) : ex := (EAdd (r_eom2_X1B_8 (0 + z) a i) (ESum (0 + z) 2 (ESum (1 + z) 3 (EMul (r_hb2_H_b_ov (2 + z) (0 + z) (1 + z)) (ET 57 [a; (1 + z); i; (0 + z)]))))).
Definition r_eom2_X2A (z a b i j : nat) : ex := (EScale (-1) 2 (ESum (0 + z) 0 (EMul (r_hb2_H_a_oo (1 + z) (0 + z) i) (ET 55 [a; b; (0 + z); j])))).
Definition r_eom2_X2A_1 (z a b i j : nat) : ex := (EAdd (r_eom2_X2A (0 + z) a b i j) (EScale (1) 2 (ESum (0 + z) 1 (EMul (r_hb2_H_a_vv (1 + z) a (0 + z)) (ET 55 [(0 + z); b; i; j]))))).
Definition r_eom2_X2A_2 (z a b i j : nat) : ex := (ESub (r_eom2_X2A_1 (0 + z) a b i j) (EScale (1) 2 (ESum (0 + z) 0 (EMul (r_hb2_H_aa_vooo (1 + z) b (0 + z) j i) (ET 53 [a; (0 + z)]))))).
Definition r_eom2_X2A_3 (z a b i j : nat) : ex := (EAdd (r_eom2_X2A_2 (0 + z) a b i j) (EScale (1) 2 (ESum (0 + z) 1 (EMul (r_hb2_H_aa_vvov (1 + z) b a j (0 + z)) (ET 53 [(0 + z); i]))))).
Definition r_eom2_X2A_4 (z a b i j : nat) : ex := (ESub (r_eom2_X2A_3 (0 + z) a b i j) (r_eom2_X2A_3 (0 + z) b a i j)).
Definition r_eom2_X2A_5 (z a b i j : nat) : ex := (ESub (r_eom2_X2A_4 (0 + z) a b i j) (r_eom2_X2A_4 (0 + z) a b j i)).
Definition r_eom2_X2B (z a b i j : nat) : ex := (ESum (0 + z) 1 (EMul (r_hb2_H_a_vv (1 + z) a (0 + z)) (ET 56 [(0 + z); b; i; j]))).
Definition r_eom2_X2B_1 (z a b i j : nat) : ex := (EAdd (r_eom2_X2B (0 + z) a b i j) (ESum (0 + z) 3 (EMul (r_hb2_H_b_vv (1 + z) b (0 + z)) (ET 56 [a; (0 + z); i; j])))).
Definition r_eom2_X2B_2 (z a b i j : nat) : ex := (ESub (r_eom2_X2B_1 (0 + z) a b i j) (ESum (0 + z) 0 (EMul (r_hb2_H_a_oo (1 + z) (0 + z) i) (ET 56 [a; b; (0 + z); j])))).
Definition r_eom2_X2B_3 (z a b i j : nat) : ex := (ESub (r_eom2_X2B_2 (0 + z) a b i j) (ESum (0 + z) 2 (EMul (r_hb2_H_b_oo (1 + z) (0 + z) j) (ET 56 [a; b; i; (0 + z)])))).
Definition r_eom2_X2B_4 (z a b i j : nat) : ex := (EAdd (r_eom2_X2B_3 (0 + z) a b i j) (ESum (0 + z) 1 (EMul (r_hb2_H_ab_vvvo (1 + z) a b (0 + z) j) (ET 53 [(0 + z); i])))).
Definition r_eom2_X2B_5 (z a b i j : nat) : ex := (EAdd (r_eom2_X2B_4 (0 + z) a b i j) (ESum (0 + z) 3 (EMul (r_hb2_H_ab_vvov (1 + z) a b i (0 + z)) (ET 54 [(0 + z); j])))).
Definition r_eom2_X2B_6 (z a b i j : nat) : ex := (ESub (r_eom2_X2B_5 (0 + z) a b i j) (ESum (0 + z) 0 (EMul (r_hb2_H_ab_ovoo (1 + z) (0 + z) b i j) (ET 53 [a; (0 + z)])))).
Definition r_eom2_X2B_7 (z a b i j : nat) : ex := (ESub (r_eom2_X2B_6 (0 + z) a b i j) (ESum (0 + z) 2 (EMul (r_hb2_H_ab_vooo (1 + z) a (0 + z) i j) (ET 54 [b; (0 + z)])))).
Definition r_eom2_X2C (z a b i j : nat) : ex := (EScale (-1) 2 (ESum (0 + z) 2 (EMul (r_hb2_H_b_oo (1 + z) (0 + z) i) (ET 57 [a; b; (0 + z); j])))).
Definition r_eom2_X2C_1 (z a b i j : nat) : ex := (EAdd (r_eom2_X2C (0 + z) a b i j) (EScale (1) 2 (ESum (0 + z) 3 (EMul (r_hb2_H_b_vv (1 + z) a (0 + z)) (ET 57 [(0 + z); b; i; j]))))).
Definition r_eom2_X2C_2 (z a b i j : nat) : ex := (ESub (r_eom2_X2C_1 (0 + z) a b i j) (EScale (1) 2 (ESum (0 + z) 2 (EMul (r_hb2_H_bb_vooo (1 + z) b (0 + z) j i) (ET 54 [a; (0 + z)]))))).
Definition r_eom2_X2C_3 (z a b i j : nat) : ex := (EAdd (r_eom2_X2C_2 (0 + z) a b i j) (EScale (1) 2 (ESum (0 + z) 3 (EMul (r_hb2_H_bb_vvov (1 + z) b a j (0 + z)) (ET 54 [(0 + z); i]))))).
Definition r_eom2_X2C_4 (z a b i j : nat) : ex := (ESub (r_eom2_X2C_3 (0 + z) a b i j) (r_eom2_X2C_3 (0 + z) b a i j)).
Definition r_eom2_X2C_5 (z a b i j : nat) : ex := (ESub (r_eom2_X2C_4 (0 + z) a b i j) (r_eom2_X2C_4 (0 + z) a b j i)).
Definition r_eomf_X1A (z a i : nat) : ex := (EOpp (ESum (0 + z) 0 (EMul (ET 12 [(0 + z); i]) (ET 53 [a; (0 + z)])))).
Definition r_eomf_X1A_1 (z a i : nat) : ex := (EAdd (r_eomf_X1A (0 + z) a i) (ESum (0 + z) 1 (EMul (ET 7 [a; (0 + z)]) (ET 53 [(0 + z); i])))).
Definition r_eomf_X1A_2 (z a i : nat) : ex := (EAdd (r_eomf_X1A_1 (0 + z) a i) (ESum (0 + z) 0 (ESum (1 + z) 1 (EMul (r_hb2_H_aa_voov (2 + z) a (0 + z) i (1 + z)) (ET 53 [(1 + z); (0 + z)]))))).
Definition r_eomf_X1A_3 (z a i : nat) : ex := (EAdd (r_eomf_X1A_2 (0 + z) a i) (ESum (0 + z) 2 (ESum (1 + z) 3 (EMul (r_hb2_H_ab_voov (2 + z) a (0 + z) i (1 + z)) (ET 54 [(1 + z); (0 + z)]))))).
Definition r_eomf_X1A_4 (z a i : nat) : ex := (ESub (r_eomf_X1A_3 (0 + z) a i) (EScale (1) 2 (ESum (0 + z) 0 (ESum (1 + z) 0 (ESum (2 + z) 1 (EMul (r_hb2_H_aa_ooov (3 + z) (0 + z) (1 + z) i (2 + z)) (ET 55 [a; (2 + z); (0 + z); (1 + z)]))))))).
Definition r_eomf_X1A_5 (z a i : nat) : ex := (ESub (r_eomf_X1A_4 (0 + z) a i) (ESum (0 + z) 0 (ESum (1 + z) 2 (ESum (2 + z) 3 (EMul (r_hb2_H_ab_ooov (3 + z) (0 + z) (1 + z) i (2 + z)) (ET 56 [a; (2 + z); (0 + z); (1 + z)])))))).
Definition r_eomf_X1A_6 (z a i : nat) : ex := (EAdd (r_eomf_X1A_5 (0 + z) a i) (EScale (1) 2 (ESum (0 + z) 0 (ESum (1 + z) 1 (ESum (2 + z) 1 (EMul (r_hb2_H_aa_vovv (3 + z) a (0 + z) (1 + z) (2 + z)) (ET 55 [(1 + z); (2 + z); i; (0 + z)]))))))).
Definition r_eomf_X1A_7 (z a i : nat) : ex := (EAdd (r_eomf_X1A_6 (0 + z) a i) (ESum (0 + z) 2 (ESum (1 + z) 1 (ESum (2 + z) 3 (EMul (r_hb2_H_ab_vovv (3 + z) a (0 + z) (1 + z) (2 + z)) (ET 56 [(1 + z); (2 + z); i; (0 + z)])))))).
Definition r_eomf_X1A_8 (z a i : nat) : ex := (EAdd (r_eomf_X1A_7 (0 + z) a i) (ESum (0 + z) 0 (ESum (1 + z) 1 (EMul (r_hb2_H_a_ov (2 + z) (0 + z) (1 + z)) (ET 55 [a; (1 + z); i; (0 + z)]))))).
Definition r_eomf_X1A_9 (z a i : nat) : ex := (EAdd (r_eomf_X1A_8 (0 + z) a i) (ESum (0 + z) 2 (ESum (1 + z) 3 (EMul (r_hb2_H_b_ov (2 + z) (0 + z) (1 + z)) (ET 56 [a; (1 + z); i; (0 + z)]))))).
Definition r_eomf_X1B (z a i : nat) : ex := (EOpp (ESum (0 + z) 2 (EMul (ET 19 [(0 + z); i]) (ET 54 [a; (0 + z)])))).
Definition r_eomf_X1B_1 (z a i : nat) : ex := (EAdd (r_eomf_X1B (0 + z) a i) (ESum (0 + z) 3 (EMul (ET 15 [a; (0 + z)]) (ET 54 [(0 + z); i])))).
Definition r_eomf_X1B_2 (z a i : nat) : ex := (EAdd (r_eomf_X1B_1 (0 + z) a i) (ESum (0 + z) 0 (ESum (1 + z) 1 (EMul (r_hb2_H_ab_ovvo (2 + z) (0 + z) a (1 + z) i) (ET 53 [(1 + z); (0 + z)]))))).
Definition r_eomf_X1B_3 (z a i : nat) : ex := (EAdd (r_eomf_X1B_2 (0 + z) a i) (ESum (0 + z) 2 (ESum (1 + z) 3 (EMul (r_hb2_H_bb_voov (2 + z) a (0 + z) i (1 + z)) (ET 54 [(1 + z); (0 + z)]))))).
Definition r_eomf_X1B_4 (z a i : nat) : ex := (ESub (r_eomf_X1B_3 (0 + z) a i) (ESum (0 + z) 0 (ESum (1 + z) 2 (ESum (2 + z) 1 (EMul (r_hb2_H_ab_oovo (3 + z) (0 + z) (1 + z) (2 + z) i) (ET 56 [(2 + z); a; (0 + z); (1 + z)])))))).
Definition r_eomf_X1B_5 (z a i : nat) : ex := (ESub (r_eomf_X1B_4 (0 + z) a i) (EScale (1) 2 (ESum (0 + z) 2 (ESum (1 + z) 2 (ESum (2 + z) 3 (EMul (r_hb2_H_bb_ooov (3 + z) (0 + z) (1 + z) i (2 + z)) (ET 57 [a; (2 + z); (0 + z); (1 + z)]))))))).
Definition r_eomf_X1B_6 (z a i : nat) : ex := (EAdd (r_eomf_X1B_5 (0 + z) a i) (ESum (0 + z) 0 (ESum (1 + z) 1 (ESum (2 + z) 3 (EMul (r_hb2_H_ab_ovvv (3 + z) (0 + z) a (1 + z) (2 + z)) (ET 56 [(1 + z); (2 + z); (0 + z); i])))))).
Definition r_eomf_X1B_7 (z a i : nat) : ex := (EAdd (r_eomf_X1B_6 (0 + z) a i) (EScale (1) 2 (ESum (0 + z) 2 (ESum (1 + z) 3 (ESum (2 + z) 3 (EMul (r_hb2_H_bb_vovv (3 + z) a (0 + z) (1 + z) (2 + z)) (ET 57 [(1 + z); (2 + z); i; (0 + z)]))))))).
Definition r_eomf_X1B_8 (z a i : nat) : ex := (EAdd (r_eomf_X1B_7 (0 + z) a i) (ESum (0 + z) 0 (ESum (1 + z) 1 (EMul (r_hb2_H_a_ov (2 + z) (0 + z) (1 + z)) (ET 56 [(1 + z); a; (0 + z); i]))))).
Definition r_eomf_X1B_9 (z a i : nat) : ex := (EAdd (r_eomf_X1B_8 (0 + z) a i) (ESum (0 + z) 2 (ESum (1 + z) 3 (EMul (r_hb2_H_b_ov (2 + z) (0 + z) (1 + z)) (ET 57 [a; (1 + z); i; (0 + z)]))))).
Definition r_eomf_X2A (z a b i j : nat) : ex := (EScale (-1) 2 (ESum (0 + z) 0 (EMul (ET 12 [(0 + z); i]) (ET 55 [a; b; (0 + z); j])))).
Definition r_eomf_X2A_1 (z a b i j : nat) : ex := (EAdd (r_eomf_X2A (0 + z) a b i j) (EScale (1) 2 (ESum (0 + z) 1 (EMul (ET 7 [a; (0 + z)]) (ET 55 [(0 + z); b; i; j]))))).
Definition r_eomf_X2A_2 (z a b i j : nat) : ex := (ESub (r_eomf_X2A_1 (0 + z) a b i j) (EScale (1) 2 (ESum (0 + z) 0 (EMul (r_hb2_H_aa_vooo (1 + z) b (0 + z) j i) (ET 53 [a; (0 + z)]))))).
Definition r_eomf_X2A_3 (z a b i j : nat) : ex := (EAdd (r_eomf_X2A_2 (0 + z) a b i j) (EScale (1) 2 (ESum (0 + z) 1 (EMul (r_hb2_H_aa_vvov (1 + z) b a j (0 + z)) (ET 53 [(0 + z); i]))))).
Definition r_eomf_X2A_4 (z a b i j : nat) : ex := (ESub (r_eomf_X2A_3 (0 + z) a b i j) (r_eomf_X2A_3 (0 + z) b a i j)).
Definition r_eomf_X2A_5 (z a b i j : nat) : ex := (ESub (r_eomf_X2A_4 (0 + z) a b i j) (r_eomf_X2A_4 (0 + z) a b j i)).
Definition r_eomf_X2B (z a b i j : nat) : ex := (ESum (0 + z) 1 (EMul (ET 7 [a; (0 + z)]) (ET 56 [(0 + z); b; i; j]))).
Definition r_eomf_X2B_1 (z a b i j : nat) : ex := (EAdd (r_eomf_X2B (0 + z) a b i j) (ESum (0 + z) 3 (EMul (ET 15 [b; (0 + z)]) (ET 56 [a; (0 + z); i; j])))).
Definition r_eomf_X2B_2 (z a b i j : nat) : ex := (ESub (r_eomf_X2B_1 (0 + z) a b i j) (ESum (0 + z) 0 (EMul (ET 12 [(0 + z); i]) (ET 56 [a; b; (0 + z); j])))).
Definition r_eomf_X2B_3 (z a b i j : nat) : ex := (ESub (r_eomf_X2B_2 (0 + z) a b i j) (ESum (0 + z) 2 (EMul (ET 19 [(0 + z); j]) (ET 56 [a; b; i; (0 + z)])))).
Definition r_eomf_X2B_4 (z a b i j : nat) : ex := (EAdd (r_eomf_X2B_3 (0 + z) a b i j) (ESum (0 + z) 1 (EMul (r_hb2_H_ab_vvvo (1 + z) a b (0 + z) j) (ET 53 [(0 + z); i])))).
Definition r_eomf_X2B_5 (z a b i j : nat) : ex := (EAdd (r_eomf_X2B_4 (0 + z) a b i j) (ESum (0 + z) 3 (EMul (r_hb2_H_ab_vvov (1 + z) a b i (0 + z)) (ET 54 [(0 + z); j])))).
Definition r_eomf_X2B_6 (z a b i j : nat) : ex := (ESub (r_eomf_X2B_5 (0 + z) a b i j) (ESum (0 + z) 0 (EMul (r_hb2_H_ab_ovoo (1 + z) (0 + z) b i j) (ET 53 [a; (0 + z)])))).
Definition r_eomf_X2B_7 (z a b i j : nat) : ex := (ESub (r_eomf_X2B_6 (0 + z) a b i j) (ESum (0 + z) 2 (EMul (r_hb2_H_ab_vooo (1 + z) a (0 + z) i j) (ET 54 [b; (0 + z)])))).
Definition r_eomf_X2C (z a b i j : nat) : ex := (EScale (-1) 2 (ESum (0 + z) 2 (EMul (ET 19 [(0 + z); i]) (ET 57 [a; b; (0 + z); j])))).
Definition r_eomf_X2C_1 (z a b i j : nat) : ex := (EAdd (r_eomf_X2C (0 + z) a b i j) (EScale (1) 2 (ESum (0 + z) 3 (EMul (ET 15 [a; (0 + z)]) (ET 57 [(0 + z); b; i; j]))))).
Definition r_eomf_X2C_2 (z a b i j : nat) : ex := (ESub (r_eomf_X2C_1 (0 + z) a b i j) (EScale (1) 2 (ESum (0 + z) 2 (EMul (r_hb2_H_bb_vooo (1 + z) b (0 + z) j i) (ET 54 [a; (0 + z)]))))).
Definition r_eomf_X2C_3 (z a b i j : nat) : ex := (EAdd (r_eomf_X2C_2 (0 + z) a b i j) (EScale (1) 2 (ESum (0 + z) 3 (EMul (r_hb2_H_bb_vvov (1 + z) b a j (0 + z)) (ET 54 [(0 + z); i]))))).
Definition r_eomf_X2C_4 (z a b i j : nat) : ex := (ESub (r_eomf_X2C_3 (0 + z) a b i j) (r_eomf_X2C_3 (0 + z) b a i j)).
Definition r_eomf_X2C_5 (z a b i j : nat) : ex := (ESub (r_eomf_X2C_4 (0 + z) a b i j) (r_eomf_X2C_4 (0 + z) a b j i)).
Definition j2_arrays (d : dims) (H : ints) (T R : amps) := [ap2 (i_a_ov H);
  ap4 (i_aa_oovv H);
  ap2 (x_a T);
  ap4 (i_ab_oovv H);
  ap2 (x_b T);
  ap2 (i_b_ov H);
  ap4 (i_bb_oovv H);
  ap2 (i_a_vv H);
  ap4 (i_aa_vovv H);
  ap4 (i_ab_vovv H);
  ap4 (x_aa T);
  ap4 (x_ab T);
  ap2 (i_a_oo H);
  ap4 (i_aa_ooov H);
  ap4 (i_ab_ooov H);
  ap2 (i_b_vv H);
  ap4 (i_bb_vovv H);
  ap4 (i_ab_ovvv H);
  ap4 (x_bb T);
  ap2 (i_b_oo H);
  ap4 (i_bb_ooov H);
  ap4 (i_ab_oovo H);
  ap4 (i_aa_voov H);
  ap4 (i_ab_voov H);
  ap2 (i_a_vo H);
  ap4 (i_bb_voov H);
  ap4 (i_ab_ovvo H);
  ap2 (i_b_vo H);
  ap4 (i_aa_oooo H);
  ap4 (i_aa_vooo H);
  ap4 (i_aa_vvov H);
  ap4 (i_bb_oooo H);
  ap4 (i_bb_vooo H);
  ap4 (i_bb_vvov H);
  ap4 (i_ab_oooo H);
  ap4 (i_ab_ovov H);
  ap4 (i_ab_vovo H);
  ap4 (i_ab_ovoo H);
  ap4 (i_ab_vooo H);
  ap4 (i_ab_vvvo H);
  ap4 (i_ab_vvov H);
  ap4 (i_aa_vvvv H);
  ap4 (i_ab_vvvv H);
  ap4 (i_bb_vvvv H);
  ap4 (i_aa_vvoo H);
  ap4 (i_ab_vvoo H);
  ap4 (i_bb_vvoo H);
  ap4 (i_aa_ovov H);
  ap4 (i_bb_ovov H);
  ap6 (x_aaa T);
  ap6 (x_aab T);
  ap6 (x_abb T);
  ap6 (x_bbb T);
  ap2 (x_a R);
  ap2 (x_b R);
  ap4 (x_aa R);
  ap4 (x_ab R);
  ap4 (x_bb R);
  ap4 (i_aa_ovvv H);
  ap4 (i_aa_oovo H);
  ap4 (i_bb_ovvv H);
  ap4 (i_bb_oovo H);
  ap4 (i_aa_vovo H);
  ap4 (i_bb_vovo H);
  ap4 (i_aa_ovoo H);
  ap4 (i_aa_vvvo H);
  ap4 (i_bb_ovoo H);
  ap4 (i_bb_vvvo H);
  ap4 (i_aa_ovvo H);
  ap4 (i_bb_ovvo H)].
Definition j2_gens : list (nat * (nat * list nat * bool)) := [(1, (1, [1; 0; 2; 3], false));
  (1, (1, [0; 1; 3; 2], false));
  (6, (6, [1; 0; 2; 3], false));
  (6, (6, [0; 1; 3; 2], false));
  (8, (58, [1; 0; 2; 3], false));
  (8, (8, [0; 1; 3; 2], false));
  (10, (10, [1; 0; 2; 3], false));
  (10, (10, [0; 1; 3; 2], false));
  (13, (13, [1; 0; 2; 3], false));
  (13, (59, [0; 1; 3; 2], false));
  (16, (60, [1; 0; 2; 3], false));
  (16, (16, [0; 1; 3; 2], false));
  (18, (18, [1; 0; 2; 3], false));
  (18, (18, [0; 1; 3; 2], false));
  (20, (20, [1; 0; 2; 3], false));
  (20, (61, [0; 1; 3; 2], false));
  (22, (47, [1; 0; 2; 3], false));
  (22, (62, [0; 1; 3; 2], false));
  (25, (48, [1; 0; 2; 3], false));
  (25, (63, [0; 1; 3; 2], false));
  (28, (28, [1; 0; 2; 3], false));
  (28, (28, [0; 1; 3; 2], false));
  (29, (64, [1; 0; 2; 3], false));
  (29, (29, [0; 1; 3; 2], false));
  (30, (30, [1; 0; 2; 3], false));
  (30, (65, [0; 1; 3; 2], false));
  (31, (31, [1; 0; 2; 3], false));
  (31, (31, [0; 1; 3; 2], false));
  (32, (66, [1; 0; 2; 3], false));
  (32, (32, [0; 1; 3; 2], false));
  (33, (33, [1; 0; 2; 3], false));
  (33, (67, [0; 1; 3; 2], false));
  (41, (41, [1; 0; 2; 3], false));
  (41, (41, [0; 1; 3; 2], false));
  (43, (43, [1; 0; 2; 3], false));
  (43, (43, [0; 1; 3; 2], false));
  (44, (44, [1; 0; 2; 3], false));
  (44, (44, [0; 1; 3; 2], false));
  (46, (46, [1; 0; 2; 3], false));
  (46, (46, [0; 1; 3; 2], false));
  (47, (22, [1; 0; 2; 3], false));
  (47, (68, [0; 1; 3; 2], false));
  (48, (25, [1; 0; 2; 3], false));
  (48, (69, [0; 1; 3; 2], false));
  (49, (49, [1; 0; 2; 3; 4; 5], false));
  (49, (49, [0; 2; 1; 3; 4; 5], false));
  (49, (49, [0; 1; 2; 4; 3; 5], false));
  (49, (49, [0; 1; 2; 3; 5; 4], false));
  (50, (50, [1; 0; 2; 3; 4; 5], false));
  (50, (50, [0; 1; 2; 4; 3; 5], false));
  (51, (51, [0; 2; 1; 3; 4; 5], false));
  (51, (51, [0; 1; 2; 3; 5; 4], false));
  (52, (52, [1; 0; 2; 3; 4; 5], false));
  (52, (52, [0; 2; 1; 3; 4; 5], false));
  (52, (52, [0; 1; 2; 4; 3; 5], false));
  (52, (52, [0; 1; 2; 3; 5; 4], false));
  (55, (55, [1; 0; 2; 3], false));
  (55, (55, [0; 1; 3; 2], false));
  (57, (57, [1; 0; 2; 3], false));
  (57, (57, [0; 1; 3; 2], false));
  (58, (8, [1; 0; 2; 3], false));
  (58, (58, [0; 1; 3; 2], false));
  (59, (59, [1; 0; 2; 3], false));
  (59, (13, [0; 1; 3; 2], false));
  (60, (16, [1; 0; 2; 3], false));
  (60, (60, [0; 1; 3; 2], false));
  (61, (61, [1; 0; 2; 3], false));
  (61, (20, [0; 1; 3; 2], false));
  (62, (68, [1; 0; 2; 3], false));
  (62, (22, [0; 1; 3; 2], false));
  (63, (69, [1; 0; 2; 3], false));
  (63, (25, [0; 1; 3; 2], false));
  (64, (29, [1; 0; 2; 3], false));
  (64, (64, [0; 1; 3; 2], false));
  (65, (65, [1; 0; 2; 3], false));
  (65, (30, [0; 1; 3; 2], false));
  (66, (32, [1; 0; 2; 3], false));
  (66, (66, [0; 1; 3; 2], false));
  (67, (67, [1; 0; 2; 3], false));
  (67, (33, [0; 1; 3; 2], false));
  (68, (62, [1; 0; 2; 3], false));
  (68, (47, [0; 1; 3; 2], false));
  (69, (63, [1; 0; 2; 3], false));
  (69, (48, [0; 1; 3; 2], false))].
Definition j2_tab := Eval vm_compute in symtab j2_gens 70.
Definition c2_arrays (d : dims) (H : ints) (T R : amps) := [ap2 (i_a_ov H);
  ap4 (i_aa_oovv H);
  ap2 (x_a T);
  ap4 (i_ab_oovv H);
  ap2 (x_b T);
  ap2 (i_b_ov H);
  ap4 (i_bb_oovv H);
  ap2 (i_a_vv H);
  ap4 (i_aa_vovv H);
  ap4 (i_ab_vovv H);
  ap4 (x_aa T);
  ap4 (x_ab T);
  ap2 (i_a_oo H);
  ap4 (i_aa_ooov H);
  ap4 (i_ab_ooov H);
  ap2 (i_b_vv H);
  ap4 (i_bb_vovv H);
  ap4 (i_ab_ovvv H);
  ap4 (x_bb T);
  ap2 (i_b_oo H);
  ap4 (i_bb_ooov H);
  ap4 (i_ab_oovo H);
  ap4 (i_aa_voov H);
  ap4 (i_ab_voov H);
  ap2 (i_a_vo H);
  ap4 (i_bb_voov H);
  ap4 (i_ab_ovvo H);
  ap2 (i_b_vo H);
  ap4 (i_aa_oooo H);
  ap4 (i_aa_vooo H);
  ap4 (i_aa_vvov H);
  ap4 (i_bb_oooo H);
  ap4 (i_bb_vooo H);
  ap4 (i_bb_vvov H);
  ap4 (i_ab_oooo H);
  ap4 (i_ab_ovov H);
  ap4 (i_ab_vovo H);
  ap4 (i_ab_ovoo H);
  ap4 (i_ab_vooo H);
  ap4 (i_ab_vvvo H);
  ap4 (i_ab_vvov H);
  ap4 (i_aa_vvvv H);
  ap4 (i_ab_vvvv H);
  ap4 (i_bb_vvvv H);
  ap4 (i_aa_vvoo H);
  ap4 (i_ab_vvoo H);
  ap4 (i_bb_vvoo H);
  ap4 (i_aa_ovov H);
  ap4 (i_bb_ovov H);
  ap6 (x_aaa T);
  ap6 (x_aab T);
  ap6 (x_abb T);
  ap6 (x_bbb T);
  ap2 (x_a R);
  ap2 (x_b R);
  ap4 (x_aa R);
  ap4 (x_ab R);
  ap4 (x_bb R);
  ap4 (i_aa_ovvv H);
  ap4 (i_aa_oovo H);
  ap4 (i_bb_ovvv H);
  ap4 (i_bb_oovo H);
  ap4 (i_aa_vovo H);
  ap4 (i_bb_vovo H);
  ap4 (i_aa_ovoo H);
  ap4 (i_aa_vvvo H);
  ap4 (i_bb_ovoo H);
  ap4 (i_bb_vvvo H);
  ap4 (i_aa_ovvo H);
  ap4 (i_bb_ovvo H)].
Definition c2_gens : list (nat * (nat * list nat * bool)) := [(1, (1, [1; 0; 2; 3], false));
  (1, (1, [0; 1; 3; 2], false));
  (3, (3, [1; 0; 3; 2], true));
  (4, (2, [0; 1], true));
  (5, (0, [0; 1], true));
  (6, (6, [1; 0; 2; 3], false));
  (6, (6, [0; 1; 3; 2], false));
  (6, (1, [0; 1; 2; 3], true));
  (8, (58, [1; 0; 2; 3], false));
  (8, (8, [0; 1; 3; 2], false));
  (9, (17, [1; 0; 3; 2], true));
  (10, (10, [1; 0; 2; 3], false));
  (10, (10, [0; 1; 3; 2], false));
  (11, (11, [1; 0; 3; 2], true));
  (13, (13, [1; 0; 2; 3], false));
  (13, (59, [0; 1; 3; 2], false));
  (14, (21, [1; 0; 3; 2], true));
  (15, (7, [0; 1], true));
  (16, (60, [1; 0; 2; 3], false));
  (16, (16, [0; 1; 3; 2], false));
  (16, (8, [0; 1; 2; 3], true));
  (17, (9, [1; 0; 3; 2], true));
  (18, (18, [1; 0; 2; 3], false));
  (18, (18, [0; 1; 3; 2], false));
  (18, (10, [0; 1; 2; 3], true));
  (19, (12, [0; 1], true));
  (20, (20, [1; 0; 2; 3], false));
  (20, (61, [0; 1; 3; 2], false));
  (20, (13, [0; 1; 2; 3], true));
  (21, (14, [1; 0; 3; 2], true));
  (22, (47, [1; 0; 2; 3], false));
  (22, (62, [0; 1; 3; 2], false));
  (23, (26, [1; 0; 3; 2], true));
  (25, (48, [1; 0; 2; 3], false));
  (25, (63, [0; 1; 3; 2], false));
  (25, (22, [0; 1; 2; 3], true));
  (26, (23, [1; 0; 3; 2], true));
  (27, (24, [0; 1], true));
  (28, (28, [1; 0; 2; 3], false));
  (28, (28, [0; 1; 3; 2], false));
  (29, (64, [1; 0; 2; 3], false));
  (29, (29, [0; 1; 3; 2], false));
  (30, (30, [1; 0; 2; 3], false));
  (30, (65, [0; 1; 3; 2], false));
  (31, (31, [1; 0; 2; 3], false));
  (31, (31, [0; 1; 3; 2], false));
  (31, (28, [0; 1; 2; 3], true));
  (32, (66, [1; 0; 2; 3], false));
  (32, (32, [0; 1; 3; 2], false));
  (32, (29, [0; 1; 2; 3], true));
  (33, (33, [1; 0; 2; 3], false));
  (33, (67, [0; 1; 3; 2], false));
  (33, (30, [0; 1; 2; 3], true));
  (34, (34, [1; 0; 3; 2], true));
  (35, (36, [1; 0; 3; 2], true));
  (36, (35, [1; 0; 3; 2], true));
  (37, (38, [1; 0; 3; 2], true));
  (38, (37, [1; 0; 3; 2], true));
  (39, (40, [1; 0; 3; 2], true));
  (40, (39, [1; 0; 3; 2], true));
  (41, (41, [1; 0; 2; 3], false));
  (41, (41, [0; 1; 3; 2], false));
  (42, (42, [1; 0; 3; 2], true));
  (43, (43, [1; 0; 2; 3], false));
  (43, (43, [0; 1; 3; 2], false));
  (43, (41, [0; 1; 2; 3], true));
  (44, (44, [1; 0; 2; 3], false));
  (44, (44, [0; 1; 3; 2], false));
  (45, (45, [1; 0; 3; 2], true));
  (46, (46, [1; 0; 2; 3], false));
  (46, (46, [0; 1; 3; 2], false));
  (46, (44, [0; 1; 2; 3], true));
  (47, (22, [1; 0; 2; 3], false));
  (47, (68, [0; 1; 3; 2], false));
  (48, (25, [1; 0; 2; 3], false));
  (48, (69, [0; 1; 3; 2], false));
  (48, (47, [0; 1; 2; 3], true));
  (49, (49, [1; 0; 2; 3; 4; 5], false));
  (49, (49, [0; 2; 1; 3; 4; 5], false));
  (49, (49, [0; 1; 2; 4; 3; 5], false));
  (49, (49, [0; 1; 2; 3; 5; 4], false));
  (50, (50, [1; 0; 2; 3; 4; 5], false));
  (50, (50, [0; 1; 2; 4; 3; 5], false));
  (51, (51, [0; 2; 1; 3; 4; 5], false));
  (51, (51, [0; 1; 2; 3; 5; 4], false));
  (51, (50, [1; 2; 0; 4; 5; 3], true));
  (52, (52, [1; 0; 2; 3; 4; 5], false));
  (52, (52, [0; 2; 1; 3; 4; 5], false));
  (52, (52, [0; 1; 2; 4; 3; 5], false));
  (52, (52, [0; 1; 2; 3; 5; 4], false));
  (52, (49, [0; 1; 2; 3; 4; 5], true));
  (54, (53, [0; 1], true));
  (55, (55, [1; 0; 2; 3], false));
  (55, (55, [0; 1; 3; 2], false));
  (56, (56, [1; 0; 3; 2], true));
  (57, (57, [1; 0; 2; 3], false));
  (57, (57, [0; 1; 3; 2], false));
  (57, (55, [0; 1; 2; 3], true));
  (58, (8, [1; 0; 2; 3], false));
  (58, (58, [0; 1; 3; 2], false));
  (59, (59, [1; 0; 2; 3], false));
  (59, (13, [0; 1; 3; 2], false));
  (60, (16, [1; 0; 2; 3], false));
  (60, (60, [0; 1; 3; 2], false));
  (60, (58, [0; 1; 2; 3], true));
  (61, (61, [1; 0; 2; 3], false));
  (61, (20, [0; 1; 3; 2], false));
  (61, (59, [0; 1; 2; 3], true));
  (62, (68, [1; 0; 2; 3], false));
  (62, (22, [0; 1; 3; 2], false));
  (63, (69, [1; 0; 2; 3], false));
  (63, (25, [0; 1; 3; 2], false));
  (63, (62, [0; 1; 2; 3], true));
  (64, (29, [1; 0; 2; 3], false));
  (64, (64, [0; 1; 3; 2], false));
  (65, (65, [1; 0; 2; 3], false));
  (65, (30, [0; 1; 3; 2], false));
  (66, (32, [1; 0; 2; 3], false));
  (66, (66, [0; 1; 3; 2], false));
  (66, (64, [0; 1; 2; 3], true));
  (67, (67, [1; 0; 2; 3], false));
  (67, (33, [0; 1; 3; 2], false));
  (67, (65, [0; 1; 2; 3], true));
  (68, (62, [1; 0; 2; 3], false));
  (68, (47, [0; 1; 3; 2], false));
  (69, (63, [1; 0; 2; 3], false));
  (69, (48, [0; 1; 3; 2], false));
  (69, (68, [0; 1; 2; 3], true))].
Definition c2_tab := Eval vm_compute in symtab c2_gens 70.
Definition j2_dm (k : nat) : option nat := match k with | 2 => Some 53 | 4 => Some 54 | 10 => Some 55 | 11 => Some 56 | 18 => Some 57 | _ => None end.
