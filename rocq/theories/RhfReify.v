(** Generated by tools/gen_rhf.py: reified programs with and without flag_RHF, in pairs (proof support). *)
From Coq Require Import Reals Arith List ZArith.
From Verif Require Import RSum IntegralsModel TensorObjs TensorAlg CcsdModel EomModel RhfModel.
Import ListNotations.
Local Open Scope nat_scope.
Definition r_ccsd_X_a_ov (z m e : nat) : ex := (EAdd (ET 0 [m; e]) (EAdd (ESum (0 + z) 0 (ESum (1 + z) 1 (EMul (ET 1 [m; (0 + z); e; (1 + z)]) (ET 2 [(1 + z); (0 + z)])))) (ESum (0 + z) 2 (ESum (1 + z) 3 (EMul (ET 3 [m; (0 + z); e; (1 + z)]) (ET 4 [(1 + z); (0 + z)])))))).
Definition r_ccsd_X_b_ov (z m e : nat) : ex := (EAdd (ET 5 [m; e]) (EAdd (ESum (0 + z) 0 (ESum (1 + z) 1 (EMul (ET 3 [(0 + z); m; (1 + z); e]) (ET 2 [(1 + z); (0 + z)])))) (ESum (0 + z) 2 (ESum (1 + z) 3 (EMul (ET 6 [m; (0 + z); e; (1 + z)]) (ET 4 [(1 + z); (0 + z)])))))).
Definition r_ccsd_X_a_vv (z a e : nat) : ex := (EAdd (ET 7 [a; e]) (ESub (ESub (EAdd (ESum (0 + z) 0 (ESum (1 + z) 1 (EMul (ET 8 [a; (0 + z); e; (1 + z)]) (ET 2 [(1 + z); (0 + z)])))) (ESum (0 + z) 2 (ESum (1 + z) 3 (EMul (ET 9 [a; (0 + z); e; (1 + z)]) (ET 4 [(1 + z); (0 + z)]))))) (EScale (1) 2 (ESum (0 + z) 0 (ESum (1 + z) 0 (ESum (2 + z) 1 (EMul (ET 1 [(0 + z); (1 + z); e; (2 + z)]) (ET 10 [a; (2 + z); (0 + z); (1 + z)]))))))) (ESum (0 + z) 0 (ESum (1 + z) 2 (ESum (2 + z) 3 (EMul (ET 3 [(0 + z); (1 + z); e; (2 + z)]) (ET 11 [a; (2 + z); (0 + z); (1 + z)]))))))).
Definition r_ccsd_X_a_oo (z m i : nat) : ex := (EAdd (ET 12 [m; i]) (EAdd (EAdd (EAdd (EAdd (ESum (0 + z) 0 (ESum (1 + z) 1 (EMul (ET 13 [m; (0 + z); i; (1 + z)]) (ET 2 [(1 + z); (0 + z)])))) (ESum (0 + z) 2 (ESum (1 + z) 3 (EMul (ET 14 [m; (0 + z); i; (1 + z)]) (ET 4 [(1 + z); (0 + z)]))))) (ESum (0 + z) 1 (EMul (r_ccsd_X_a_ov (1 + z) m (0 + z)) (ET 2 [(0 + z); i])))) (EScale (1) 2 (ESum (0 + z) 0 (ESum (1 + z) 1 (ESum (2 + z) 1 (EMul (ET 1 [m; (0 + z); (1 + z); (2 + z)]) (ET 10 [(1 + z); (2 + z); i; (0 + z)]))))))) (ESum (0 + z) 2 (ESum (1 + z) 1 (ESum (2 + z) 3 (EMul (ET 3 [m; (0 + z); (1 + z); (2 + z)]) (ET 11 [(1 + z); (2 + z); i; (0 + z)]))))))).
Definition r_ccsd_X_b_vv (z a e : nat) : ex := (EAdd (ET 15 [a; e]) (ESub (ESub (EAdd (ESum (0 + z) 2 (ESum (1 + z) 3 (EMul (ET 16 [a; (0 + z); e; (1 + z)]) (ET 4 [(1 + z); (0 + z)])))) (ESum (0 + z) 0 (ESum (1 + z) 1 (EMul (ET 17 [(0 + z); a; (1 + z); e]) (ET 2 [(1 + z); (0 + z)]))))) (EScale (1) 2 (ESum (0 + z) 2 (ESum (1 + z) 2 (ESum (2 + z) 3 (EMul (ET 6 [(0 + z); (1 + z); e; (2 + z)]) (ET 18 [a; (2 + z); (0 + z); (1 + z)]))))))) (ESum (0 + z) 0 (ESum (1 + z) 2 (ESum (2 + z) 1 (EMul (ET 3 [(0 + z); (1 + z); (2 + z); e]) (ET 11 [(2 + z); a; (0 + z); (1 + z)]))))))).
Definition r_ccsd_X_b_oo (z m i : nat) : ex := (EAdd (ET 19 [m; i]) (EAdd (EAdd (EAdd (EAdd (ESum (0 + z) 2 (ESum (1 + z) 3 (EMul (ET 20 [m; (0 + z); i; (1 + z)]) (ET 4 [(1 + z); (0 + z)])))) (ESum (0 + z) 0 (ESum (1 + z) 1 (EMul (ET 21 [(0 + z); m; (1 + z); i]) (ET 2 [(1 + z); (0 + z)]))))) (ESum (0 + z) 3 (EMul (r_ccsd_X_b_ov (1 + z) m (0 + z)) (ET 4 [(0 + z); i])))) (EScale (1) 2 (ESum (0 + z) 2 (ESum (1 + z) 3 (ESum (2 + z) 3 (EMul (ET 6 [m; (0 + z); (1 + z); (2 + z)]) (ET 18 [(1 + z); (2 + z); i; (0 + z)]))))))) (ESum (0 + z) 0 (ESum (1 + z) 1 (ESum (2 + z) 3 (EMul (ET 3 [(0 + z); m; (1 + z); (2 + z)]) (ET 11 [(1 + z); (2 + z); (0 + z); i]))))))).
Definition r_ccsd_dT_a (z a i : nat) : ex := (EOpp (ESum (0 + z) 0 (EMul (r_ccsd_X_a_oo (1 + z) (0 + z) i) (ET 2 [a; (0 + z)])))).
Definition r_ccsd_dT_a_1 (z a i : nat) : ex := (EAdd (r_ccsd_dT_a (0 + z) a i) (ESum (0 + z) 1 (EMul (r_ccsd_X_a_vv (1 + z) a (0 + z)) (ET 2 [(0 + z); i])))).
Definition r_ccsd_dT_a_2 (z a i : nat) : ex := (EAdd (r_ccsd_dT_a_1 (0 + z) a i) (ESum (0 + z) 0 (ESum (1 + z) 1 (EMul (r_ccsd_X_a_ov (2 + z) (0 + z) (1 + z)) (ET 10 [a; (1 + z); i; (0 + z)]))))).
Definition r_ccsd_dT_a_3 (z a i : nat) : ex := (EAdd (r_ccsd_dT_a_2 (0 + z) a i) (ESum (0 + z) 2 (ESum (1 + z) 3 (EMul (r_ccsd_X_b_ov (2 + z) (0 + z) (1 + z)) (ET 11 [a; (1 + z); i; (0 + z)]))))).
Definition r_ccsd_dT_a_4 (z a i : nat) : ex := (EAdd (r_ccsd_dT_a_3 (0 + z) a i) (ESum (0 + z) 0 (ESum (1 + z) 1 (EMul (ET 22 [a; (0 + z); i; (1 + z)]) (ET 2 [(1 + z); (0 + z)]))))).
Definition r_ccsd_dT_a_5 (z a i : nat) : ex := (EAdd (r_ccsd_dT_a_4 (0 + z) a i) (ESum (0 + z) 2 (ESum (1 + z) 3 (EMul (ET 23 [a; (0 + z); i; (1 + z)]) (ET 4 [(1 + z); (0 + z)]))))).
Definition r_ccsd_dT_a_6 (z a i : nat) : ex := (ESub (r_ccsd_dT_a_5 (0 + z) a i) (EScale (1) 2 (ESum (0 + z) 0 (ESum (1 + z) 0 (ESum (2 + z) 1 (EMul (ET 13 [(0 + z); (1 + z); i; (2 + z)]) (ET 10 [a; (2 + z); (0 + z); (1 + z)]))))))).
Definition r_ccsd_dT_a_7 (z a i : nat) : ex := (ESub (r_ccsd_dT_a_6 (0 + z) a i) (ESum (0 + z) 0 (ESum (1 + z) 2 (ESum (2 + z) 3 (EMul (ET 14 [(0 + z); (1 + z); i; (2 + z)]) (ET 11 [a; (2 + z); (0 + z); (1 + z)])))))).
Definition r_ccsd_dT_a_8 (z a i : nat) : ex := (EAdd (r_ccsd_dT_a_7 (0 + z) a i) (EScale (1) 2 (ESum (0 + z) 0 (ESum (1 + z) 1 (ESum (2 + z) 1 (EMul (ET 8 [a; (0 + z); (1 + z); (2 + z)]) (ET 10 [(1 + z); (2 + z); i; (0 + z)]))))))).
Definition r_ccsd_dT_a_9 (z a i : nat) : ex := (EAdd (r_ccsd_dT_a_8 (0 + z) a i) (ESum (0 + z) 2 (ESum (1 + z) 1 (ESum (2 + z) 3 (EMul (ET 9 [a; (0 + z); (1 + z); (2 + z)]) (ET 11 [(1 + z); (2 + z); i; (0 + z)])))))).
Definition r_ccsd_res_a (z a i : nat) : ex := (EAdd (r_ccsd_dT_a_9 (0 + z) a i) (ET 24 [a; i])).
Definition r_ccsd_dT_b (z a i : nat) : ex := (EOpp (ESum (0 + z) 2 (EMul (r_ccsd_X_b_oo (1 + z) (0 + z) i) (ET 4 [a; (0 + z)])))).
Definition r_ccsd_dT_b_1 (z a i : nat) : ex := (EAdd (r_ccsd_dT_b (0 + z) a i) (ESum (0 + z) 3 (EMul (r_ccsd_X_b_vv (1 + z) a (0 + z)) (ET 4 [(0 + z); i])))).
Definition r_ccsd_dT_b_2 (z a i : nat) : ex := (EAdd (r_ccsd_dT_b_1 (0 + z) a i) (ESum (0 + z) 2 (ESum (1 + z) 3 (EMul (ET 25 [a; (0 + z); i; (1 + z)]) (ET 4 [(1 + z); (0 + z)]))))).
Definition r_ccsd_dT_b_3 (z a i : nat) : ex := (EAdd (r_ccsd_dT_b_2 (0 + z) a i) (ESum (0 + z) 0 (ESum (1 + z) 1 (EMul (ET 26 [(0 + z); a; (1 + z); i]) (ET 2 [(1 + z); (0 + z)]))))).
Definition r_ccsd_dT_b_4 (z a i : nat) : ex := (EAdd (r_ccsd_dT_b_3 (0 + z) a i) (ESum (0 + z) 0 (ESum (1 + z) 1 (EMul (r_ccsd_X_a_ov (2 + z) (0 + z) (1 + z)) (ET 11 [(1 + z); a; (0 + z); i]))))).
Definition r_ccsd_dT_b_5 (z a i : nat) : ex := (EAdd (r_ccsd_dT_b_4 (0 + z) a i) (ESum (0 + z) 2 (ESum (1 + z) 3 (EMul (r_ccsd_X_b_ov (2 + z) (0 + z) (1 + z)) (ET 18 [a; (1 + z); i; (0 + z)]))))).
Definition r_ccsd_dT_b_6 (z a i : nat) : ex := (ESub (r_ccsd_dT_b_5 (0 + z) a i) (EScale (1) 2 (ESum (0 + z) 2 (ESum (1 + z) 2 (ESum (2 + z) 3 (EMul (ET 20 [(0 + z); (1 + z); i; (2 + z)]) (ET 18 [a; (2 + z); (0 + z); (1 + z)]))))))).
Definition r_ccsd_dT_b_7 (z a i : nat) : ex := (ESub (r_ccsd_dT_b_6 (0 + z) a i) (ESum (0 + z) 0 (ESum (1 + z) 2 (ESum (2 + z) 1 (EMul (ET 21 [(0 + z); (1 + z); (2 + z); i]) (ET 11 [(2 + z); a; (0 + z); (1 + z)])))))).
Definition r_ccsd_dT_b_8 (z a i : nat) : ex := (EAdd (r_ccsd_dT_b_7 (0 + z) a i) (EScale (1) 2 (ESum (0 + z) 2 (ESum (1 + z) 3 (ESum (2 + z) 3 (EMul (ET 16 [a; (0 + z); (1 + z); (2 + z)]) (ET 18 [(1 + z); (2 + z); i; (0 + z)]))))))).
Definition r_ccsd_dT_b_9 (z a i : nat) : ex := (EAdd (r_ccsd_dT_b_8 (0 + z) a i) (ESum (0 + z) 0 (ESum (1 + z) 1 (ESum (2 + z) 3 (EMul (ET 17 [(0 + z); a; (1 + z); (2 + z)]) (ET 11 [(1 + z); (2 + z); (0 + z); i])))))).
Definition r_ccsd_res_b (z a i : nat) : ex := (EAdd (r_ccsd_dT_b_9 (0 + z) a i) (ET 27 [a; i])).
Definition r_ccsd_X_a_vv_1 (z a e : nat) : ex := (ESub (r_ccsd_X_a_vv (0 + z) a e) (ESum (0 + z) 0 (EMul (r_ccsd_X_a_ov (1 + z) (0 + z) e) (ET 2 [a; (0 + z)])))).
Definition r_ccsd_X_b_vv_1 (z a e : nat) : ex := (ESub (r_ccsd_X_b_vv (0 + z) a e) (ESum (0 + z) 2 (EMul (r_ccsd_X_b_ov (1 + z) (0 + z) e) (ET 4 [a; (0 + z)])))).
Definition r_ccsd_X_aa_ooov (z m n i e : nat) : ex := (ESum (0 + z) 1 (EMul (ET 1 [m; n; (0 + z); e]) (ET 2 [(0 + z); i]))).
Definition r_ccsd_X_aa_vovv (z a m e f : nat) : ex := (EOpp (ESum (0 + z) 0 (EMul (ET 1 [m; (0 + z); f; e]) (ET 2 [a; (0 + z)])))).
Definition r_ccsd_X_aa_oooo (z m n i j : nat) : ex := (EAdd (EScale (1) 2 (ET 28 [m; n; i; j])) (ESum (0 + z) 1 (EMul (EAdd (ET 13 [n; m; j; (0 + z)]) (EScale (1) 2 (r_ccsd_X_aa_ooov (1 + z) n m j (0 + z)))) (ET 2 [(0 + z); i])))).
Definition r_ccsd_X_aa_oooo_1 (z m n i j : nat) : ex := (ESub (r_ccsd_X_aa_oooo (0 + z) m n i j) (r_ccsd_X_aa_oooo (0 + z) m n j i)).
Definition r_ccsd_X_aa_voov (z a m i e : nat) : ex := (EAdd (ET 22 [a; m; i; e]) (ESub (ESum (0 + z) 1 (EMul (EAdd (ET 8 [a; m; (0 + z); e]) (EScale (1) 2 (r_ccsd_X_aa_vovv (1 + z) a m (0 + z) e))) (ET 2 [(0 + z); i]))) (ESum (0 + z) 0 (EMul (EAdd (ET 13 [(0 + z); m; i; e]) (EScale (1) 2 (r_ccsd_X_aa_ooov (1 + z) (0 + z) m i e))) (ET 2 [a; (0 + z)]))))).
Definition r_ccsd_L_amie (z a m i f : nat) : ex := (EAdd (ET 22 [a; m; i; f]) (EScale (1) 2 (ESum (0 + z) 1 (EMul (ET 8 [a; m; (0 + z); f]) (ET 2 [(0 + z); i]))))).
Definition r_ccsd_X_mnij (z m n i j : nat) : ex := (EAdd (ET 28 [m; n; i; j]) (ESum (0 + z) 1 (EMul (r_ccsd_X_aa_ooov (1 + z) m n i (0 + z)) (ET 2 [(0 + z); j])))).
Definition r_ccsd_X_aa_vooo (z a m i j : nat) : ex := (EAdd (EScale (1) 2 (ET 29 [a; m; i; j])) (ESub (ESum (0 + z) 1 (EMul (r_ccsd_L_amie (1 + z) a m i (0 + z)) (ET 2 [(0 + z); j]))) (EScale (1) 4 (ESum (0 + z) 0 (EMul (r_ccsd_X_mnij (1 + z) (0 + z) m i j) (ET 2 [a; (0 + z)])))))).
Definition r_ccsd_X_aa_vooo_1 (z a m i j : nat) : ex := (ESub (r_ccsd_X_aa_vooo (0 + z) a m i j) (r_ccsd_X_aa_vooo (0 + z) a m j i)).
Definition r_ccsd_L_amie_1 (z a n i e : nat) : ex := (ESum (0 + z) 0 (EMul (ET 13 [(0 + z); n; i; e]) (ET 2 [a; (0 + z)]))).
Definition r_ccsd_X_aa_vvov (z a b i e : nat) : ex := (EAdd (ET 30 [a; b; i; e]) (ESum (0 + z) 0 (EMul (r_ccsd_L_amie_1 (1 + z) a (0 + z) i e) (ET 2 [b; (0 + z)])))).
Definition r_ccsd_X_bb_ooov (z m n i e : nat) : ex := (ESum (0 + z) 3 (EMul (ET 6 [m; n; (0 + z); e]) (ET 4 [(0 + z); i]))).
Definition r_ccsd_X_bb_oooo (z m n i j : nat) : ex := (EAdd (EScale (1) 2 (ET 31 [m; n; i; j])) (ESum (0 + z) 3 (EMul (EAdd (ET 20 [n; m; j; (0 + z)]) (EScale (1) 2 (r_ccsd_X_bb_ooov (1 + z) n m j (0 + z)))) (ET 4 [(0 + z); i])))).
Definition r_ccsd_X_bb_oooo_1 (z m n i j : nat) : ex := (ESub (r_ccsd_X_bb_oooo (0 + z) m n i j) (r_ccsd_X_bb_oooo (0 + z) m n j i)).
Definition r_ccsd_X_bb_vovv (z a m e f : nat) : ex := (EOpp (ESum (0 + z) 2 (EMul (ET 6 [m; (0 + z); f; e]) (ET 4 [a; (0 + z)])))).
Definition r_ccsd_X_bb_voov (z a m i e : nat) : ex := (EAdd (ET 25 [a; m; i; e]) (ESub (ESum (0 + z) 3 (EMul (EAdd (ET 16 [a; m; (0 + z); e]) (EScale (1) 2 (r_ccsd_X_bb_vovv (1 + z) a m (0 + z) e))) (ET 4 [(0 + z); i]))) (ESum (0 + z) 2 (EMul (EAdd (ET 20 [(0 + z); m; i; e]) (EScale (1) 2 (r_ccsd_X_bb_ooov (1 + z) (0 + z) m i e))) (ET 4 [a; (0 + z)]))))).
Definition r_ccsd_L_amie_2 (z a m i f : nat) : ex := (EAdd (ET 25 [a; m; i; f]) (EScale (1) 2 (ESum (0 + z) 3 (EMul (ET 16 [a; m; (0 + z); f]) (ET 4 [(0 + z); i]))))).
Definition r_ccsd_X_mnij_1 (z m n i j : nat) : ex := (EAdd (ET 31 [m; n; i; j]) (ESum (0 + z) 3 (EMul (r_ccsd_X_bb_ooov (1 + z) m n i (0 + z)) (ET 4 [(0 + z); j])))).
Definition r_ccsd_X_bb_vooo (z a m i j : nat) : ex := (EAdd (EScale (1) 2 (ET 32 [a; m; i; j])) (ESub (ESum (0 + z) 3 (EMul (r_ccsd_L_amie_2 (1 + z) a m i (0 + z)) (ET 4 [(0 + z); j]))) (EScale (1) 4 (ESum (0 + z) 2 (EMul (r_ccsd_X_mnij_1 (1 + z) (0 + z) m i j) (ET 4 [a; (0 + z)])))))).
Definition r_ccsd_X_bb_vooo_1 (z a m i j : nat) : ex := (ESub (r_ccsd_X_bb_vooo (0 + z) a m i j) (r_ccsd_X_bb_vooo (0 + z) a m j i)).
Definition r_ccsd_L_amie_3 (z a n i e : nat) : ex := (ESum (0 + z) 2 (EMul (ET 20 [(0 + z); n; i; e]) (ET 4 [a; (0 + z)]))).
Definition r_ccsd_X_bb_vvov (z a b i e : nat) : ex := (EAdd (ET 33 [a; b; i; e]) (ESum (0 + z) 2 (EMul (r_ccsd_L_amie_3 (1 + z) a (0 + z) i e) (ET 4 [b; (0 + z)])))).
Definition r_ccsd_X_ab_ooov (z m n i e : nat) : ex := (ESum (0 + z) 1 (EMul (ET 3 [m; n; (0 + z); e]) (ET 2 [(0 + z); i]))).
Definition r_ccsd_X_ab_oovo (z n m e i : nat) : ex := (ESum (0 + z) 3 (EMul (ET 3 [n; m; e; (0 + z)]) (ET 4 [(0 + z); i]))).
Definition r_ccsd_X_ab_oooo (z m n i j : nat) : ex := (EAdd (ET 34 [m; n; i; j]) (EAdd (ESum (0 + z) 1 (EMul (EAdd (ET 21 [m; n; (0 + z); j]) (EScale (1) 2 (r_ccsd_X_ab_oovo (1 + z) m n (0 + z) j))) (ET 2 [(0 + z); i]))) (ESum (0 + z) 3 (EMul (EAdd (ET 14 [m; n; i; (0 + z)]) (EScale (1) 2 (r_ccsd_X_ab_ooov (1 + z) m n i (0 + z)))) (ET 4 [(0 + z); j]))))).
Definition r_ccsd_X_ab_vovv (z a m e f : nat) : ex := (EOpp (ESum (0 + z) 0 (EMul (ET 3 [(0 + z); m; e; f]) (ET 2 [a; (0 + z)])))).
Definition r_ccsd_X_ab_ovvv (z m a e f : nat) : ex := (EOpp (ESum (0 + z) 2 (EMul (ET 3 [m; (0 + z); e; f]) (ET 4 [a; (0 + z)])))).
Definition r_ccsd_X_ab_voov (z a m i e : nat) : ex := (EAdd (ET 23 [a; m; i; e]) (ESub (ESum (0 + z) 1 (EMul (EAdd (ET 9 [a; m; (0 + z); e]) (EScale (1) 2 (r_ccsd_X_ab_vovv (1 + z) a m (0 + z) e))) (ET 2 [(0 + z); i]))) (ESum (0 + z) 0 (EMul (EAdd (ET 14 [(0 + z); m; i; e]) (EScale (1) 2 (r_ccsd_X_ab_ooov (1 + z) (0 + z) m i e))) (ET 2 [a; (0 + z)]))))).
Definition r_ccsd_X_ab_ovvo (z m a e i : nat) : ex := (EAdd (ET 26 [m; a; e; i]) (ESub (ESum (0 + z) 3 (EMul (EAdd (ET 17 [m; a; e; (0 + z)]) (EScale (1) 2 (r_ccsd_X_ab_ovvv (1 + z) m a e (0 + z)))) (ET 4 [(0 + z); i]))) (ESum (0 + z) 2 (EMul (EAdd (ET 21 [m; (0 + z); e; i]) (EScale (1) 2 (r_ccsd_X_ab_oovo (1 + z) m (0 + z) e i))) (ET 4 [a; (0 + z)]))))).
Definition r_ccsd_X_ab_ovov (z m a i e : nat) : ex := (EAdd (ET 35 [m; a; i; e]) (ESub (ESum (0 + z) 1 (EMul (EAdd (ET 17 [m; a; (0 + z); e]) (EScale (1) 2 (r_ccsd_X_ab_ovvv (1 + z) m a (0 + z) e))) (ET 2 [(0 + z); i]))) (ESum (0 + z) 2 (EMul (EAdd (ET 14 [m; (0 + z); i; e]) (EScale (1) 2 (r_ccsd_X_ab_ooov (1 + z) m (0 + z) i e))) (ET 4 [a; (0 + z)]))))).
Definition r_ccsd_X_ab_vovo (z a m e i : nat) : ex := (ESub (ET 36 [a; m; e; i]) (ESub (ESum (0 + z) 0 (EMul (EAdd (ET 21 [(0 + z); m; e; i]) (EScale (1) 2 (r_ccsd_X_ab_oovo (1 + z) (0 + z) m e i))) (ET 2 [a; (0 + z)]))) (ESum (0 + z) 3 (EMul (EAdd (ET 9 [a; m; e; (0 + z)]) (EScale (1) 2 (r_ccsd_X_ab_vovv (1 + z) a m e (0 + z)))) (ET 4 [(0 + z); i]))))).
Definition r_ccsd_X_mnij_2 (z m n i j : nat) : ex := (EAdd (ET 34 [m; n; i; j]) (EAdd (ESum (0 + z) 3 (EMul (ET 14 [m; n; i; (0 + z)]) (ET 4 [(0 + z); j]))) (ESum (0 + z) 1 (EMul (ET 21 [m; n; (0 + z); j]) (ET 2 [(0 + z); i]))))).
Definition r_ccsd_L_mbej (z m b e j : nat) : ex := (EAdd (ET 26 [m; b; e; j]) (ESum (0 + z) 3 (EMul (ET 17 [m; b; e; (0 + z)]) (ET 4 [(0 + z); j])))).
Definition r_ccsd_X_ab_ovoo (z m b i j : nat) : ex := (EAdd (ET 37 [m; b; i; j]) (ESub (ESum (0 + z) 1 (EMul (r_ccsd_L_mbej (1 + z) m b (0 + z) j) (ET 2 [(0 + z); i]))) (ESum (0 + z) 2 (EMul (r_ccsd_X_mnij_2 (1 + z) m (0 + z) i j) (ET 4 [b; (0 + z)]))))).
Definition r_ccsd_L_amie_4 (z a m i f : nat) : ex := (ESum (0 + z) 1 (EMul (EAdd (ET 9 [a; m; (0 + z); f]) (r_ccsd_X_ab_vovv (1 + z) a m (0 + z) f)) (ET 2 [(0 + z); i]))).
Definition r_ccsd_X_ab_vooo (z a m i j : nat) : ex := (EAdd (ET 38 [a; m; i; j]) (ESum (0 + z) 3 (EMul (EAdd (ET 23 [a; m; i; (0 + z)]) (r_ccsd_L_amie_4 (1 + z) a m i (0 + z))) (ET 4 [(0 + z); j])))).
Definition r_ccsd_X_ab_vvvo (z a b e j : nat) : ex := (ESub (ET 39 [a; b; e; j]) (ESum (0 + z) 2 (EMul (ET 36 [a; (0 + z); e; j]) (ET 4 [b; (0 + z)])))).
Definition r_ccsd_X_ab_vvov (z a b i e : nat) : ex := (ESub (ET 40 [a; b; i; e]) (ESum (0 + z) 0 (EMul (ET 35 [(0 + z); b; i; e]) (ET 2 [a; (0 + z)])))).
Definition r_ccsd_I2A_voov (z a m i e : nat) : ex := (EAdd (r_ccsd_X_aa_voov (0 + z) a m i e) (EAdd (EScale (1) 2 (ESum (0 + z) 0 (ESum (1 + z) 1 (EMul (ET 1 [m; (0 + z); e; (1 + z)]) (ET 10 [a; (1 + z); i; (0 + z)]))))) (ESum (0 + z) 2 (ESum (1 + z) 3 (EMul (ET 3 [m; (0 + z); e; (1 + z)]) (ET 11 [a; (1 + z); i; (0 + z)])))))).
Definition r_ccsd_I2A_oooo (z m n i j : nat) : ex := (EAdd (r_ccsd_X_aa_oooo_1 (0 + z) m n i j) (EScale (1) 2 (ESum (0 + z) 1 (ESum (1 + z) 1 (EMul (ET 1 [m; n; (0 + z); (1 + z)]) (ET 10 [(0 + z); (1 + z); i; j])))))).
Definition r_ccsd_I2B_voov (z a m i e : nat) : ex := (EAdd (r_ccsd_X_ab_voov (0 + z) a m i e) (EScale (1) 2 (ESum (0 + z) 2 (ESum (1 + z) 3 (EMul (ET 6 [m; (0 + z); e; (1 + z)]) (ET 11 [a; (1 + z); i; (0 + z)])))))).
Definition r_ccsd_I2A_vooo (z a m i j : nat) : ex := (EAdd (r_ccsd_X_aa_vooo_1 (0 + z) a m i j) (EScale (1) 2 (ESum (0 + z) 1 (ESum (1 + z) 1 (EMul (EAdd (ET 8 [a; m; (0 + z); (1 + z)]) (EScale (1) 2 (r_ccsd_X_aa_vovv (2 + z) a m (0 + z) (1 + z)))) (ET 10 [(0 + z); (1 + z); i; j])))))).
Definition r_ccsd_tau (z a b i j : nat) : ex := (EAdd (EScale (1) 2 (ET 10 [a; b; i; j])) (EMul (ET 2 [a; i]) (ET 2 [b; j]))).
Definition r_ccsd_dT_aa (z a b i j : nat) : ex := (EScale (-1) 2 (ESum (0 + z) 0 (EMul (r_ccsd_I2A_vooo (1 + z) a (0 + z) i j) (ET 2 [b; (0 + z)])))).
Definition r_ccsd_dT_aa_1 (z a b i j : nat) : ex := (EAdd (r_ccsd_dT_aa (0 + z) a b i j) (EScale (1) 2 (ESum (0 + z) 1 (EMul (r_ccsd_X_aa_vvov (1 + z) a b i (0 + z)) (ET 2 [(0 + z); j]))))).
Definition r_ccsd_dT_aa_2 (z a b i j : nat) : ex := (EAdd (r_ccsd_dT_aa_1 (0 + z) a b i j) (EScale (1) 2 (ESum (0 + z) 1 (EMul (r_ccsd_X_a_vv_1 (1 + z) a (0 + z)) (ET 10 [(0 + z); b; i; j]))))).
Definition r_ccsd_dT_aa_3 (z a b i j : nat) : ex := (ESub (r_ccsd_dT_aa_2 (0 + z) a b i j) (EScale (1) 2 (ESum (0 + z) 0 (EMul (r_ccsd_X_a_oo (1 + z) (0 + z) i) (ET 10 [a; b; (0 + z); j]))))).
Definition r_ccsd_dT_aa_4 (z a b i j : nat) : ex := (EAdd (r_ccsd_dT_aa_3 (0 + z) a b i j) (ESum (0 + z) 0 (ESum (1 + z) 1 (EMul (r_ccsd_I2A_voov (2 + z) a (0 + z) i (1 + z)) (ET 10 [(1 + z); b; (0 + z); j]))))).
Definition r_ccsd_dT_aa_5 (z a b i j : nat) : ex := (EAdd (r_ccsd_dT_aa_4 (0 + z) a b i j) (ESum (0 + z) 2 (ESum (1 + z) 3 (EMul (r_ccsd_I2B_voov (2 + z) a (0 + z) i (1 + z)) (ET 11 [b; (1 + z); j; (0 + z)]))))).
Definition r_ccsd_dT_aa_6 (z a b i j : nat) : ex := (EAdd (r_ccsd_dT_aa_5 (0 + z) a b i j) (EScale (1) 8 (ESum (0 + z) 0 (ESum (1 + z) 0 (EMul (r_ccsd_I2A_oooo (2 + z) (0 + z) (1 + z) i j) (ET 10 [a; b; (0 + z); (1 + z)])))))).
Definition r_ccsd_dT_aa_7 (z a b i j : nat) : ex := (EAdd (r_ccsd_dT_aa_6 (0 + z) a b i j) (EScale (1) 4 (ESum (0 + z) 1 (ESum (1 + z) 1 (EMul (ET 41 [a; b; (0 + z); (1 + z)]) (r_ccsd_tau (2 + z) (0 + z) (1 + z) i j)))))).
Definition r_ccsd_res_aa (z a b i j : nat) : ex := (EAdd (r_ccsd_dT_aa_7 (0 + z) a b i j) (EScale (1) 4 (ET 42 [a; b; i; j]))).
Definition r_ccsd_I2A_voov_1 (z a m i e : nat) : ex := (EAdd (r_ccsd_X_aa_voov (0 + z) a m i e) (EAdd (ESum (0 + z) 0 (ESum (1 + z) 1 (EMul (ET 1 [(0 + z); m; (1 + z); e]) (ET 10 [a; (1 + z); i; (0 + z)])))) (ESum (0 + z) 2 (ESum (1 + z) 3 (EMul (ET 3 [m; (0 + z); e; (1 + z)]) (ET 11 [a; (1 + z); i; (0 + z)])))))).
Definition r_ccsd_I2B_voov_1 (z a m i e : nat) : ex := (EAdd (r_ccsd_X_ab_voov (0 + z) a m i e) (EAdd (ESum (0 + z) 0 (ESum (1 + z) 1 (EMul (ET 3 [(0 + z); m; (1 + z); e]) (ET 10 [a; (1 + z); i; (0 + z)])))) (ESum (0 + z) 2 (ESum (1 + z) 3 (EMul (ET 6 [(0 + z); m; (1 + z); e]) (ET 11 [a; (1 + z); i; (0 + z)])))))).
Definition r_ccsd_I2B_oooo (z m n i j : nat) : ex := (EAdd (r_ccsd_X_ab_oooo (0 + z) m n i j) (ESum (0 + z) 1 (ESum (1 + z) 3 (EMul (ET 3 [m; n; (0 + z); (1 + z)]) (ET 11 [(0 + z); (1 + z); i; j]))))).
Definition r_ccsd_I2B_vovo (z a m e i : nat) : ex := (ESub (r_ccsd_X_ab_vovo (0 + z) a m e i) (ESum (0 + z) 0 (ESum (1 + z) 3 (EMul (ET 3 [(0 + z); m; e; (1 + z)]) (ET 11 [a; (1 + z); (0 + z); i]))))).
Definition r_ccsd_I2B_ovoo (z m b i j : nat) : ex := (EAdd (r_ccsd_X_ab_ovoo (0 + z) m b i j) (ESum (0 + z) 1 (ESum (1 + z) 3 (EMul (EAdd (ET 17 [m; b; (0 + z); (1 + z)]) (EScale (1) 2 (r_ccsd_X_ab_ovvv (2 + z) m b (0 + z) (1 + z)))) (ET 11 [(0 + z); (1 + z); i; j]))))).
Definition r_ccsd_I2B_vooo (z a m i j : nat) : ex := (EAdd (r_ccsd_X_ab_vooo (0 + z) a m i j) (ESum (0 + z) 1 (ESum (1 + z) 3 (EMul (EAdd (ET 9 [a; m; (0 + z); (1 + z)]) (EScale (1) 2 (r_ccsd_X_ab_vovv (2 + z) a m (0 + z) (1 + z)))) (ET 11 [(0 + z); (1 + z); i; j]))))).
Definition r_ccsd_tau_1 (z a b i j : nat) : ex := (EAdd (ET 11 [a; b; i; j]) (EMul (ET 2 [a; i]) (ET 4 [b; j]))).
Definition r_ccsd_dT_ab (z a b i j : nat) : ex := (EOpp (ESum (0 + z) 0 (EMul (r_ccsd_I2B_ovoo (1 + z) (0 + z) b i j) (ET 2 [a; (0 + z)])))).
Definition r_ccsd_dT_ab_1 (z a b i j : nat) : ex := (ESub (r_ccsd_dT_ab (0 + z) a b i j) (ESum (0 + z) 2 (EMul (r_ccsd_I2B_vooo (1 + z) a (0 + z) i j) (ET 4 [b; (0 + z)])))).
Definition r_ccsd_dT_ab_2 (z a b i j : nat) : ex := (EAdd (r_ccsd_dT_ab_1 (0 + z) a b i j) (ESum (0 + z) 1 (EMul (r_ccsd_X_ab_vvvo (1 + z) a b (0 + z) j) (ET 2 [(0 + z); i])))).
Definition r_ccsd_dT_ab_3 (z a b i j : nat) : ex := (EAdd (r_ccsd_dT_ab_2 (0 + z) a b i j) (ESum (0 + z) 3 (EMul (r_ccsd_X_ab_vvov (1 + z) a b i (0 + z)) (ET 4 [(0 + z); j])))).
Definition r_ccsd_dT_ab_4 (z a b i j : nat) : ex := (EAdd (r_ccsd_dT_ab_3 (0 + z) a b i j) (ESum (0 + z) 1 (EMul (r_ccsd_X_a_vv_1 (1 + z) a (0 + z)) (ET 11 [(0 + z); b; i; j])))).
Definition r_ccsd_dT_ab_5 (z a b i j : nat) : ex := (EAdd (r_ccsd_dT_ab_4 (0 + z) a b i j) (ESum (0 + z) 3 (EMul (r_ccsd_X_b_vv_1 (1 + z) b (0 + z)) (ET 11 [a; (0 + z); i; j])))).
Definition r_ccsd_dT_ab_6 (z a b i j : nat) : ex := (ESub (r_ccsd_dT_ab_5 (0 + z) a b i j) (ESum (0 + z) 0 (EMul (r_ccsd_X_a_oo (1 + z) (0 + z) i) (ET 11 [a; b; (0 + z); j])))).
Definition r_ccsd_dT_ab_7 (z a b i j : nat) : ex := (ESub (r_ccsd_dT_ab_6 (0 + z) a b i j) (ESum (0 + z) 2 (EMul (r_ccsd_X_b_oo (1 + z) (0 + z) j) (ET 11 [a; b; i; (0 + z)])))).
Definition r_ccsd_dT_ab_8 (z a b i j : nat) : ex := (EAdd (r_ccsd_dT_ab_7 (0 + z) a b i j) (ESum (0 + z) 0 (ESum (1 + z) 1 (EMul (r_ccsd_I2A_voov_1 (2 + z) a (0 + z) i (1 + z)) (ET 11 [(1 + z); b; (0 + z); j]))))).
Definition r_ccsd_dT_ab_9 (z a b i j : nat) : ex := (EAdd (r_ccsd_dT_ab_8 (0 + z) a b i j) (ESum (0 + z) 2 (ESum (1 + z) 3 (EMul (r_ccsd_I2B_voov_1 (2 + z) a (0 + z) i (1 + z)) (ET 18 [(1 + z); b; (0 + z); j]))))).
Definition r_ccsd_dT_ab_10 (z a b i j : nat) : ex := (EAdd (r_ccsd_dT_ab_9 (0 + z) a b i j) (ESum (0 + z) 0 (ESum (1 + z) 1 (EMul (r_ccsd_X_ab_ovvo (2 + z) (0 + z) b (1 + z) j) (ET 10 [a; (1 + z); i; (0 + z)]))))).
Definition r_ccsd_dT_ab_11 (z a b i j : nat) : ex := (EAdd (r_ccsd_dT_ab_10 (0 + z) a b i j) (ESum (0 + z) 2 (ESum (1 + z) 3 (EMul (r_ccsd_X_bb_voov (2 + z) b (0 + z) j (1 + z)) (ET 11 [a; (1 + z); i; (0 + z)]))))).
Definition r_ccsd_dT_ab_12 (z a b i j : nat) : ex := (ESub (r_ccsd_dT_ab_11 (0 + z) a b i j) (ESum (0 + z) 0 (ESum (1 + z) 3 (EMul (r_ccsd_X_ab_ovov (2 + z) (0 + z) b i (1 + z)) (ET 11 [a; (1 + z); (0 + z); j]))))).
Definition r_ccsd_dT_ab_13 (z a b i j : nat) : ex := (ESub (r_ccsd_dT_ab_12 (0 + z) a b i j) (ESum (0 + z) 2 (ESum (1 + z) 1 (EMul (r_ccsd_I2B_vovo (2 + z) a (0 + z) (1 + z) j) (ET 11 [(1 + z); b; i; (0 + z)]))))).
Definition r_ccsd_dT_ab_14 (z a b i j : nat) : ex := (EAdd (r_ccsd_dT_ab_13 (0 + z) a b i j) (ESum (0 + z) 0 (ESum (1 + z) 2 (EMul (r_ccsd_I2B_oooo (2 + z) (0 + z) (1 + z) i j) (ET 11 [a; b; (0 + z); (1 + z)]))))).
Definition r_ccsd_dT_ab_15 (z a b i j : nat) : ex := (EAdd (r_ccsd_dT_ab_14 (0 + z) a b i j) (ESum (0 + z) 1 (ESum (1 + z) 3 (EMul (ET 43 [a; b; (0 + z); (1 + z)]) (r_ccsd_tau_1 (2 + z) (0 + z) (1 + z) i j))))).
Definition r_ccsd_res_ab (z a b i j : nat) : ex := (EAdd (r_ccsd_dT_ab_15 (0 + z) a b i j) (ET 44 [a; b; i; j])).
Definition r_ccsd_I2C_oooo (z m n i j : nat) : ex := (EAdd (r_ccsd_X_bb_oooo_1 (0 + z) m n i j) (EScale (1) 2 (ESum (0 + z) 3 (ESum (1 + z) 3 (EMul (ET 6 [m; n; (0 + z); (1 + z)]) (ET 18 [(0 + z); (1 + z); i; j])))))).
Definition r_ccsd_I2B_ovvo (z m a e i : nat) : ex := (EAdd (r_ccsd_X_ab_ovvo (0 + z) m a e i) (EAdd (ESum (0 + z) 2 (ESum (1 + z) 3 (EMul (ET 3 [m; (0 + z); e; (1 + z)]) (ET 18 [a; (1 + z); i; (0 + z)])))) (EScale (1) 2 (ESum (0 + z) 0 (ESum (1 + z) 1 (EMul (ET 1 [m; (0 + z); e; (1 + z)]) (ET 11 [(1 + z); a; (0 + z); i]))))))).
Definition r_ccsd_I2C_voov (z a m i e : nat) : ex := (EAdd (r_ccsd_X_bb_voov (0 + z) a m i e) (EScale (1) 2 (ESum (0 + z) 2 (ESum (1 + z) 3 (EMul (ET 6 [m; (0 + z); e; (1 + z)]) (ET 18 [a; (1 + z); i; (0 + z)])))))).
Definition r_ccsd_I2C_vooo (z a m i j : nat) : ex := (EAdd (r_ccsd_X_bb_vooo_1 (0 + z) a m i j) (EScale (1) 2 (ESum (0 + z) 3 (ESum (1 + z) 3 (EMul (EAdd (ET 16 [a; m; (0 + z); (1 + z)]) (EScale (1) 2 (r_ccsd_X_bb_vovv (2 + z) a m (0 + z) (1 + z)))) (ET 18 [(0 + z); (1 + z); i; j])))))).
Definition r_ccsd_tau_2 (z a b i j : nat) : ex := (EAdd (EScale (1) 2 (ET 18 [a; b; i; j])) (EMul (ET 4 [a; i]) (ET 4 [b; j]))).
Definition r_ccsd_dT_bb (z a b i j : nat) : ex := (EScale (-1) 2 (ESum (0 + z) 2 (EMul (r_ccsd_I2C_vooo (1 + z) a (0 + z) i j) (ET 4 [b; (0 + z)])))).
Definition r_ccsd_dT_bb_1 (z a b i j : nat) : ex := (EAdd (r_ccsd_dT_bb (0 + z) a b i j) (EScale (1) 2 (ESum (0 + z) 3 (EMul (r_ccsd_X_bb_vvov (1 + z) a b i (0 + z)) (ET 4 [(0 + z); j]))))).
Definition r_ccsd_dT_bb_2 (z a b i j : nat) : ex := (EAdd (r_ccsd_dT_bb_1 (0 + z) a b i j) (EScale (1) 2 (ESum (0 + z) 3 (EMul (r_ccsd_X_b_vv_1 (1 + z) a (0 + z)) (ET 18 [(0 + z); b; i; j]))))).
Definition r_ccsd_dT_bb_3 (z a b i j : nat) : ex := (ESub (r_ccsd_dT_bb_2 (0 + z) a b i j) (EScale (1) 2 (ESum (0 + z) 2 (EMul (r_ccsd_X_b_oo (1 + z) (0 + z) i) (ET 18 [a; b; (0 + z); j]))))).
Definition r_ccsd_dT_bb_4 (z a b i j : nat) : ex := (EAdd (r_ccsd_dT_bb_3 (0 + z) a b i j) (ESum (0 + z) 2 (ESum (1 + z) 3 (EMul (r_ccsd_I2C_voov (2 + z) a (0 + z) i (1 + z)) (ET 18 [(1 + z); b; (0 + z); j]))))).
Definition r_ccsd_dT_bb_5 (z a b i j : nat) : ex := (EAdd (r_ccsd_dT_bb_4 (0 + z) a b i j) (ESum (0 + z) 0 (ESum (1 + z) 1 (EMul (r_ccsd_I2B_ovvo (2 + z) (0 + z) a (1 + z) i) (ET 11 [(1 + z); b; (0 + z); j]))))).
Definition r_ccsd_dT_bb_6 (z a b i j : nat) : ex := (EAdd (r_ccsd_dT_bb_5 (0 + z) a b i j) (EScale (1) 8 (ESum (0 + z) 2 (ESum (1 + z) 2 (EMul (r_ccsd_I2C_oooo (2 + z) (0 + z) (1 + z) i j) (ET 18 [a; b; (0 + z); (1 + z)])))))).
Definition r_ccsd_dT_bb_7 (z a b i j : nat) : ex := (EAdd (r_ccsd_dT_bb_6 (0 + z) a b i j) (EScale (1) 4 (ESum (0 + z) 3 (ESum (1 + z) 3 (EMul (ET 45 [a; b; (0 + z); (1 + z)]) (r_ccsd_tau_2 (2 + z) (0 + z) (1 + z) i j)))))).
Definition r_ccsd_res_bb (z a b i j : nat) : ex := (EAdd (r_ccsd_dT_bb_7 (0 + z) a b i j) (EScale (1) 4 (ET 46 [a; b; i; j]))).
Definition r_ccd_I1A_oo (z m i : nat) : ex := (EAdd (EAdd (ET 12 [m; i]) (EScale (1) 2 (ESum (0 + z) 0 (ESum (1 + z) 1 (ESum (2 + z) 1 (EMul (ET 1 [m; (0 + z); (1 + z); (2 + z)]) (ET 10 [(1 + z); (2 + z); i; (0 + z)]))))))) (ESum (0 + z) 2 (ESum (1 + z) 1 (ESum (2 + z) 3 (EMul (ET 3 [m; (0 + z); (1 + z); (2 + z)]) (ET 11 [(1 + z); (2 + z); i; (0 + z)])))))).
Definition r_ccd_I1A_vv (z a e : nat) : ex := (ESub (ESub (ET 7 [a; e]) (EScale (1) 2 (ESum (0 + z) 0 (ESum (1 + z) 0 (ESum (2 + z) 1 (EMul (ET 1 [(0 + z); (1 + z); e; (2 + z)]) (ET 10 [a; (2 + z); (0 + z); (1 + z)]))))))) (ESum (0 + z) 0 (ESum (1 + z) 2 (ESum (2 + z) 3 (EMul (ET 3 [(0 + z); (1 + z); e; (2 + z)]) (ET 11 [a; (2 + z); (0 + z); (1 + z)])))))).
Definition r_ccd_I2A_voov (z a m i e : nat) : ex := (EAdd (EAdd (ET 22 [a; m; i; e]) (EScale (1) 2 (ESum (0 + z) 0 (ESum (1 + z) 1 (EMul (ET 1 [m; (0 + z); e; (1 + z)]) (ET 10 [a; (1 + z); i; (0 + z)])))))) (ESum (0 + z) 2 (ESum (1 + z) 3 (EMul (ET 3 [m; (0 + z); e; (1 + z)]) (ET 11 [a; (1 + z); i; (0 + z)]))))).
Definition r_ccd_I2A_oooo (z m n i j : nat) : ex := (EAdd (ET 28 [m; n; i; j]) (EScale (1) 2 (ESum (0 + z) 1 (ESum (1 + z) 1 (EMul (ET 1 [m; n; (0 + z); (1 + z)]) (ET 10 [(0 + z); (1 + z); i; j])))))).
Definition r_ccd_I2B_voov (z a m i e : nat) : ex := (EAdd (ET 23 [a; m; i; e]) (EScale (1) 2 (ESum (0 + z) 2 (ESum (1 + z) 3 (EMul (ET 6 [m; (0 + z); e; (1 + z)]) (ET 11 [a; (1 + z); i; (0 + z)])))))).
Definition r_ccd_dT_aa (z a b i j : nat) : ex := (EScale (1) 2 (ESum (0 + z) 1 (EMul (r_ccd_I1A_vv (1 + z) a (0 + z)) (ET 10 [(0 + z); b; i; j])))).
Definition r_ccd_dT_aa_1 (z a b i j : nat) : ex := (ESub (r_ccd_dT_aa (0 + z) a b i j) (EScale (1) 2 (ESum (0 + z) 0 (EMul (r_ccd_I1A_oo (1 + z) (0 + z) i) (ET 10 [a; b; (0 + z); j]))))).
Definition r_ccd_dT_aa_2 (z a b i j : nat) : ex := (EAdd (r_ccd_dT_aa_1 (0 + z) a b i j) (ESum (0 + z) 0 (ESum (1 + z) 1 (EMul (r_ccd_I2A_voov (2 + z) a (0 + z) i (1 + z)) (ET 10 [(1 + z); b; (0 + z); j]))))).
Definition r_ccd_dT_aa_3 (z a b i j : nat) : ex := (EAdd (r_ccd_dT_aa_2 (0 + z) a b i j) (ESum (0 + z) 2 (ESum (1 + z) 3 (EMul (r_ccd_I2B_voov (2 + z) a (0 + z) i (1 + z)) (ET 11 [b; (1 + z); j; (0 + z)]))))).
Definition r_ccd_dT_aa_4 (z a b i j : nat) : ex := (EAdd (r_ccd_dT_aa_3 (0 + z) a b i j) (EScale (1) 8 (ESum (0 + z) 1 (ESum (1 + z) 1 (EMul (ET 41 [a; b; (0 + z); (1 + z)]) (ET 10 [(0 + z); (1 + z); i; j])))))).
Definition r_ccd_dT_aa_5 (z a b i j : nat) : ex := (EAdd (r_ccd_dT_aa_4 (0 + z) a b i j) (EScale (1) 8 (ESum (0 + z) 0 (ESum (1 + z) 0 (EMul (r_ccd_I2A_oooo (2 + z) (0 + z) (1 + z) i j) (ET 10 [a; b; (0 + z); (1 + z)])))))).
Definition r_ccd_res_aa (z a b i j : nat) : ex := (EAdd (r_ccd_dT_aa_5 (0 + z) a b i j) (EScale (1) 4 (ET 42 [a; b; i; j]))).
Definition r_ccd_I1A_vv_1 (z a e : nat) : ex := (ESub (ESub (ET 7 [a; e]) (EScale (1) 2 (ESum (0 + z) 0 (ESum (1 + z) 0 (ESum (2 + z) 1 (EMul (ET 1 [(0 + z); (1 + z); e; (2 + z)]) (ET 10 [a; (2 + z); (0 + z); (1 + z)]))))))) (ESum (0 + z) 0 (ESum (1 + z) 2 (ESum (2 + z) 3 (EMul (ET 3 [(0 + z); (1 + z); e; (2 + z)]) (ET 11 [a; (2 + z); (0 + z); (1 + z)])))))).
Definition r_ccd_I1B_vv (z b e : nat) : ex := (ESub (ESub (ET 15 [b; e]) (ESum (0 + z) 0 (ESum (1 + z) 2 (ESum (2 + z) 1 (EMul (ET 3 [(0 + z); (1 + z); (2 + z); e]) (ET 11 [(2 + z); b; (0 + z); (1 + z)])))))) (EScale (1) 2 (ESum (0 + z) 2 (ESum (1 + z) 2 (ESum (2 + z) 3 (EMul (ET 6 [(0 + z); (1 + z); e; (2 + z)]) (ET 18 [(2 + z); b; (1 + z); (0 + z)]))))))).
Definition r_ccd_I1A_oo_1 (z m i : nat) : ex := (EAdd (EAdd (ET 12 [m; i]) (EScale (1) 2 (ESum (0 + z) 0 (ESum (1 + z) 1 (ESum (2 + z) 1 (EMul (ET 1 [m; (0 + z); (1 + z); (2 + z)]) (ET 10 [(1 + z); (2 + z); i; (0 + z)]))))))) (ESum (0 + z) 2 (ESum (1 + z) 1 (ESum (2 + z) 3 (EMul (ET 3 [m; (0 + z); (1 + z); (2 + z)]) (ET 11 [(1 + z); (2 + z); i; (0 + z)])))))).
Definition r_ccd_I1B_oo (z m j : nat) : ex := (EAdd (EAdd (ET 19 [m; j]) (ESum (0 + z) 0 (ESum (1 + z) 1 (ESum (2 + z) 3 (EMul (ET 3 [(0 + z); m; (1 + z); (2 + z)]) (ET 11 [(1 + z); (2 + z); (0 + z); j])))))) (EScale (1) 2 (ESum (0 + z) 2 (ESum (1 + z) 3 (ESum (2 + z) 3 (EMul (ET 6 [m; (0 + z); (1 + z); (2 + z)]) (ET 18 [(1 + z); (2 + z); j; (0 + z)]))))))).
Definition r_ccd_I2A_voov_1 (z a n i f : nat) : ex := (EAdd (EAdd (ET 22 [a; n; i; f]) (ESum (0 + z) 0 (ESum (1 + z) 1 (EMul (ET 1 [(0 + z); n; (1 + z); f]) (ET 10 [a; (1 + z); i; (0 + z)]))))) (ESum (0 + z) 2 (ESum (1 + z) 3 (EMul (ET 3 [n; (0 + z); f; (1 + z)]) (ET 11 [a; (1 + z); i; (0 + z)]))))).
Definition r_ccd_I2B_voov_1 (z a n i f : nat) : ex := (EAdd (EAdd (ET 23 [a; n; i; f]) (ESum (0 + z) 0 (ESum (1 + z) 1 (EMul (ET 3 [(0 + z); n; (1 + z); f]) (ET 10 [a; (1 + z); i; (0 + z)]))))) (ESum (0 + z) 2 (ESum (1 + z) 3 (EMul (ET 6 [(0 + z); n; (1 + z); f]) (ET 11 [a; (1 + z); i; (0 + z)]))))).
Definition r_ccd_I2B_oooo (z m n i j : nat) : ex := (EAdd (ET 34 [m; n; i; j]) (ESum (0 + z) 1 (ESum (1 + z) 3 (EMul (ET 3 [m; n; (0 + z); (1 + z)]) (ET 11 [(0 + z); (1 + z); i; j]))))).
Definition r_ccd_I2B_vovo (z a n e j : nat) : ex := (ESub (ET 36 [a; n; e; j]) (ESum (0 + z) 0 (ESum (1 + z) 3 (EMul (ET 3 [(0 + z); n; e; (1 + z)]) (ET 11 [a; (1 + z); (0 + z); j]))))).
Definition r_ccd_dT_ab (z a b i j : nat) : ex := (ESum (0 + z) 1 (EMul (r_ccd_I1A_vv_1 (1 + z) a (0 + z)) (ET 11 [(0 + z); b; i; j]))).
Definition r_ccd_dT_ab_1 (z a b i j : nat) : ex := (EAdd (r_ccd_dT_ab (0 + z) a b i j) (ESum (0 + z) 3 (EMul (r_ccd_I1B_vv (1 + z) b (0 + z)) (ET 11 [a; (0 + z); i; j])))).
Definition r_ccd_dT_ab_2 (z a b i j : nat) : ex := (ESub (r_ccd_dT_ab_1 (0 + z) a b i j) (ESum (0 + z) 0 (EMul (r_ccd_I1A_oo_1 (1 + z) (0 + z) i) (ET 11 [a; b; (0 + z); j])))).
Definition r_ccd_dT_ab_3 (z a b i j : nat) : ex := (ESub (r_ccd_dT_ab_2 (0 + z) a b i j) (ESum (0 + z) 2 (EMul (r_ccd_I1B_oo (1 + z) (0 + z) j) (ET 11 [a; b; i; (0 + z)])))).
Definition r_ccd_dT_ab_4 (z a b i j : nat) : ex := (EAdd (r_ccd_dT_ab_3 (0 + z) a b i j) (ESum (0 + z) 0 (ESum (1 + z) 1 (EMul (r_ccd_I2A_voov_1 (2 + z) a (0 + z) i (1 + z)) (ET 11 [(1 + z); b; (0 + z); j]))))).
Definition r_ccd_dT_ab_5 (z a b i j : nat) : ex := (EAdd (r_ccd_dT_ab_4 (0 + z) a b i j) (ESum (0 + z) 2 (ESum (1 + z) 3 (EMul (r_ccd_I2B_voov_1 (2 + z) a (0 + z) i (1 + z)) (ET 18 [(1 + z); b; (0 + z); j]))))).
Definition r_ccd_dT_ab_6 (z a b i j : nat) : ex := (EAdd (r_ccd_dT_ab_5 (0 + z) a b i j) (ESum (0 + z) 0 (ESum (1 + z) 1 (EMul (ET 26 [(0 + z); b; (1 + z); j]) (ET 10 [a; (1 + z); i; (0 + z)]))))).
Definition r_ccd_dT_ab_7 (z a b i j : nat) : ex := (EAdd (r_ccd_dT_ab_6 (0 + z) a b i j) (ESum (0 + z) 2 (ESum (1 + z) 3 (EMul (ET 25 [b; (0 + z); j; (1 + z)]) (ET 11 [a; (1 + z); i; (0 + z)]))))).
Definition r_ccd_dT_ab_8 (z a b i j : nat) : ex := (ESub (r_ccd_dT_ab_7 (0 + z) a b i j) (ESum (0 + z) 0 (ESum (1 + z) 3 (EMul (ET 35 [(0 + z); b; i; (1 + z)]) (ET 11 [a; (1 + z); (0 + z); j]))))).
Definition r_ccd_dT_ab_9 (z a b i j : nat) : ex := (ESub (r_ccd_dT_ab_8 (0 + z) a b i j) (ESum (0 + z) 2 (ESum (1 + z) 1 (EMul (r_ccd_I2B_vovo (2 + z) a (0 + z) (1 + z) j) (ET 11 [(1 + z); b; i; (0 + z)]))))).
Definition r_ccd_dT_ab_10 (z a b i j : nat) : ex := (EAdd (r_ccd_dT_ab_9 (0 + z) a b i j) (ESum (0 + z) 0 (ESum (1 + z) 2 (EMul (r_ccd_I2B_oooo (2 + z) (0 + z) (1 + z) i j) (ET 11 [a; b; (0 + z); (1 + z)]))))).
Definition r_ccd_dT_ab_11 (z a b i j : nat) : ex := (EAdd (r_ccd_dT_ab_10 (0 + z) a b i j) (ESum (0 + z) 1 (ESum (1 + z) 3 (EMul (ET 43 [a; b; (0 + z); (1 + z)]) (ET 11 [(0 + z); (1 + z); i; j]))))).
Definition r_ccd_res_ab (z a b i j : nat) : ex := (EAdd (r_ccd_dT_ab_11 (0 + z) a b i j) (ET 44 [a; b; i; j])).
Definition r_ccd_I1B_oo_1 (z m i : nat) : ex := (EAdd (EAdd (ET 19 [m; i]) (EScale (1) 2 (ESum (0 + z) 2 (ESum (1 + z) 3 (ESum (2 + z) 3 (EMul (ET 6 [m; (0 + z); (1 + z); (2 + z)]) (ET 18 [(1 + z); (2 + z); i; (0 + z)]))))))) (ESum (0 + z) 0 (ESum (1 + z) 1 (ESum (2 + z) 3 (EMul (ET 3 [(0 + z); m; (1 + z); (2 + z)]) (ET 11 [(1 + z); (2 + z); (0 + z); i])))))).
Definition r_ccd_I1B_vv_1 (z a e : nat) : ex := (ESub (ESub (ET 15 [a; e]) (EScale (1) 2 (ESum (0 + z) 2 (ESum (1 + z) 2 (ESum (2 + z) 3 (EMul (ET 6 [(0 + z); (1 + z); e; (2 + z)]) (ET 18 [a; (2 + z); (0 + z); (1 + z)]))))))) (ESum (0 + z) 0 (ESum (1 + z) 2 (ESum (2 + z) 1 (EMul (ET 3 [(0 + z); (1 + z); (2 + z); e]) (ET 11 [(2 + z); a; (0 + z); (1 + z)])))))).
Definition r_ccd_I2C_oooo (z m n i j : nat) : ex := (EAdd (ET 31 [m; n; i; j]) (EScale (1) 2 (ESum (0 + z) 3 (ESum (1 + z) 3 (EMul (ET 6 [m; n; (0 + z); (1 + z)]) (ET 18 [(0 + z); (1 + z); i; j])))))).
Definition r_ccd_I2B_ovvo (z m a e i : nat) : ex := (EAdd (EAdd (ET 26 [m; a; e; i]) (ESum (0 + z) 2 (ESum (1 + z) 3 (EMul (ET 3 [m; (0 + z); e; (1 + z)]) (ET 18 [a; (1 + z); i; (0 + z)]))))) (EScale (1) 2 (ESum (0 + z) 0 (ESum (1 + z) 1 (EMul (ET 1 [m; (0 + z); e; (1 + z)]) (ET 11 [(1 + z); a; (0 + z); i])))))).
Definition r_ccd_I2C_voov (z a m i e : nat) : ex := (EAdd (ET 25 [a; m; i; e]) (EScale (1) 2 (ESum (0 + z) 2 (ESum (1 + z) 3 (EMul (ET 6 [m; (0 + z); e; (1 + z)]) (ET 18 [a; (1 + z); i; (0 + z)])))))).
Definition r_ccd_dT_bb (z a b i j : nat) : ex := (EScale (1) 2 (ESum (0 + z) 3 (EMul (r_ccd_I1B_vv_1 (1 + z) a (0 + z)) (ET 18 [(0 + z); b; i; j])))).
Definition r_ccd_dT_bb_1 (z a b i j : nat) : ex := (ESub (r_ccd_dT_bb (0 + z) a b i j) (EScale (1) 2 (ESum (0 + z) 2 (EMul (r_ccd_I1B_oo_1 (1 + z) (0 + z) i) (ET 18 [a; b; (0 + z); j]))))).
Definition r_ccd_dT_bb_2 (z a b i j : nat) : ex := (EAdd (r_ccd_dT_bb_1 (0 + z) a b i j) (ESum (0 + z) 2 (ESum (1 + z) 3 (EMul (r_ccd_I2C_voov (2 + z) a (0 + z) i (1 + z)) (ET 18 [(1 + z); b; (0 + z); j]))))).
Definition r_ccd_dT_bb_3 (z a b i j : nat) : ex := (EAdd (r_ccd_dT_bb_2 (0 + z) a b i j) (ESum (0 + z) 0 (ESum (1 + z) 1 (EMul (r_ccd_I2B_ovvo (2 + z) (0 + z) a (1 + z) i) (ET 11 [(1 + z); b; (0 + z); j]))))).
Definition r_ccd_dT_bb_4 (z a b i j : nat) : ex := (EAdd (r_ccd_dT_bb_3 (0 + z) a b i j) (EScale (1) 8 (ESum (0 + z) 3 (ESum (1 + z) 3 (EMul (ET 45 [a; b; (0 + z); (1 + z)]) (ET 18 [(0 + z); (1 + z); i; j])))))).
Definition r_ccd_dT_bb_5 (z a b i j : nat) : ex := (EAdd (r_ccd_dT_bb_4 (0 + z) a b i j) (EScale (1) 8 (ESum (0 + z) 2 (ESum (1 + z) 2 (EMul (r_ccd_I2C_oooo (2 + z) (0 + z) (1 + z) i j) (ET 18 [a; b; (0 + z); (1 + z)])))))).
Definition r_ccd_res_bb (z a b i j : nat) : ex := (EAdd (r_ccd_dT_bb_5 (0 + z) a b i j) (EScale (1) 4 (ET 46 [a; b; i; j]))).
Definition r_hb_H_a_ov (z i a : nat) : ex := (EAdd (ET 0 [i; a]) (EAdd (ESum (0 + z) 0 (ESum (1 + z) 1 (EMul (ET 1 [i; (0 + z); a; (1 + z)]) (ET 2 [(1 + z); (0 + z)])))) (ESum (0 + z) 2 (ESum (1 + z) 3 (EMul (ET 3 [i; (0 + z); a; (1 + z)]) (ET 4 [(1 + z); (0 + z)])))))).
Definition r_hb_H_a_oo (z i j : nat) : ex := (EAdd (ET 12 [i; j]) (EAdd (EAdd (EAdd (EAdd (ESum (0 + z) 1 (EMul (r_hb_H_a_ov (1 + z) i (0 + z)) (ET 2 [(0 + z); j]))) (ESum (0 + z) 0 (ESum (1 + z) 1 (EMul (ET 13 [i; (0 + z); j; (1 + z)]) (ET 2 [(1 + z); (0 + z)]))))) (ESum (0 + z) 2 (ESum (1 + z) 3 (EMul (ET 14 [i; (0 + z); j; (1 + z)]) (ET 4 [(1 + z); (0 + z)]))))) (EScale (1) 2 (ESum (0 + z) 0 (ESum (1 + z) 1 (ESum (2 + z) 1 (EMul (ET 1 [i; (0 + z); (1 + z); (2 + z)]) (ET 10 [(1 + z); (2 + z); j; (0 + z)]))))))) (ESum (0 + z) 2 (ESum (1 + z) 1 (ESum (2 + z) 3 (EMul (ET 3 [i; (0 + z); (1 + z); (2 + z)]) (ET 11 [(1 + z); (2 + z); j; (0 + z)]))))))).
Definition r_hb_H_a_vv (z a b : nat) : ex := (EAdd (ET 7 [a; b]) (ESub (ESub (EAdd (EAdd (EOpp (ESum (0 + z) 0 (EMul (r_hb_H_a_ov (1 + z) (0 + z) b) (ET 2 [a; (0 + z)])))) (ESum (0 + z) 0 (ESum (1 + z) 1 (EMul (ET 8 [a; (0 + z); b; (1 + z)]) (ET 2 [(1 + z); (0 + z)]))))) (ESum (0 + z) 2 (ESum (1 + z) 3 (EMul (ET 9 [a; (0 + z); b; (1 + z)]) (ET 4 [(1 + z); (0 + z)]))))) (EScale (1) 2 (ESum (0 + z) 0 (ESum (1 + z) 0 (ESum (2 + z) 1 (EMul (ET 1 [(0 + z); (1 + z); b; (2 + z)]) (ET 10 [a; (2 + z); (0 + z); (1 + z)]))))))) (ESum (0 + z) 0 (ESum (1 + z) 2 (ESum (2 + z) 3 (EMul (ET 3 [(0 + z); (1 + z); b; (2 + z)]) (ET 11 [a; (2 + z); (0 + z); (1 + z)]))))))).
Definition r_hb_H_b_ov (z i a : nat) : ex := (EAdd (ET 5 [i; a]) (EAdd (ESum (0 + z) 2 (ESum (1 + z) 3 (EMul (ET 6 [i; (0 + z); a; (1 + z)]) (ET 4 [(1 + z); (0 + z)])))) (ESum (0 + z) 0 (ESum (1 + z) 1 (EMul (ET 3 [(0 + z); i; (1 + z); a]) (ET 2 [(1 + z); (0 + z)])))))).
Definition r_hb_H_b_oo (z i j : nat) : ex := (EAdd (ET 19 [i; j]) (EAdd (EAdd (EAdd (EAdd (ESum (0 + z) 3 (EMul (r_hb_H_b_ov (1 + z) i (0 + z)) (ET 4 [(0 + z); j]))) (ESum (0 + z) 2 (ESum (1 + z) 3 (EMul (ET 20 [i; (0 + z); j; (1 + z)]) (ET 4 [(1 + z); (0 + z)]))))) (ESum (0 + z) 0 (ESum (1 + z) 1 (EMul (ET 21 [(0 + z); i; (1 + z); j]) (ET 2 [(1 + z); (0 + z)]))))) (EScale (1) 2 (ESum (0 + z) 2 (ESum (1 + z) 3 (ESum (2 + z) 3 (EMul (ET 6 [i; (0 + z); (1 + z); (2 + z)]) (ET 18 [(1 + z); (2 + z); j; (0 + z)]))))))) (ESum (0 + z) 0 (ESum (1 + z) 1 (ESum (2 + z) 3 (EMul (ET 3 [(0 + z); i; (1 + z); (2 + z)]) (ET 11 [(1 + z); (2 + z); (0 + z); j]))))))).
Definition r_hb_H_b_vv (z a b : nat) : ex := (EAdd (ET 15 [a; b]) (ESub (ESub (EAdd (EAdd (EOpp (ESum (0 + z) 2 (EMul (r_hb_H_b_ov (1 + z) (0 + z) b) (ET 4 [a; (0 + z)])))) (ESum (0 + z) 2 (ESum (1 + z) 3 (EMul (ET 16 [a; (0 + z); b; (1 + z)]) (ET 4 [(1 + z); (0 + z)]))))) (ESum (0 + z) 0 (ESum (1 + z) 1 (EMul (ET 17 [(0 + z); a; (1 + z); b]) (ET 2 [(1 + z); (0 + z)]))))) (EScale (1) 2 (ESum (0 + z) 2 (ESum (1 + z) 2 (ESum (2 + z) 3 (EMul (ET 6 [(0 + z); (1 + z); b; (2 + z)]) (ET 18 [a; (2 + z); (0 + z); (1 + z)]))))))) (ESum (0 + z) 0 (ESum (1 + z) 2 (ESum (2 + z) 1 (EMul (ET 3 [(0 + z); (1 + z); (2 + z); b]) (ET 11 [(2 + z); a; (0 + z); (1 + z)]))))))).
Definition r_hb_tau_aa (z a b i j : nat) : ex := (EAdd (EScale (1) 2 (ET 10 [a; b; i; j])) (EMul (ET 2 [a; i]) (ET 2 [b; j]))).
Definition r_hb_tau_aa_1 (z a b i j : nat) : ex := (ESub (r_hb_tau_aa (0 + z) a b i j) (r_hb_tau_aa (0 + z) a b j i)).
Definition r_hb_tau_bb (z a b i j : nat) : ex := (EAdd (EScale (1) 2 (ET 18 [a; b; i; j])) (EMul (ET 4 [a; i]) (ET 4 [b; j]))).
Definition r_hb_tau_bb_1 (z a b i j : nat) : ex := (ESub (r_hb_tau_bb (0 + z) a b i j) (r_hb_tau_bb (0 + z) a b j i)).
Definition r_hb_tau_ab (z a b i j : nat) : ex := (EAdd (ET 11 [a; b; i; j]) (EMul (ET 2 [a; i]) (ET 4 [b; j]))).
Definition r_hb_H_aa_oooo (z m n i j : nat) : ex := (EAdd (EAdd (EScale (1) 2 (ET 28 [m; n; i; j])) (ESum (0 + z) 1 (EMul (ET 13 [n; m; j; (0 + z)]) (ET 2 [(0 + z); i])))) (EScale (1) 4 (ESum (0 + z) 1 (ESum (1 + z) 1 (EMul (ET 1 [m; n; (0 + z); (1 + z)]) (r_hb_tau_aa_1 (2 + z) (0 + z) (1 + z) i j)))))).
Definition r_hb_H_aa_oooo_1 (z m n i j : nat) : ex := (ESub (r_hb_H_aa_oooo (0 + z) m n i j) (r_hb_H_aa_oooo (0 + z) m n j i)).
Definition r_hb_H_bb_oooo (z m n i j : nat) : ex := (EAdd (EAdd (EScale (1) 2 (ET 31 [m; n; i; j])) (ESum (0 + z) 3 (EMul (ET 20 [n; m; j; (0 + z)]) (ET 4 [(0 + z); i])))) (EScale (1) 4 (ESum (0 + z) 3 (ESum (1 + z) 3 (EMul (ET 6 [m; n; (0 + z); (1 + z)]) (r_hb_tau_bb_1 (2 + z) (0 + z) (1 + z) i j)))))).
Definition r_hb_H_bb_oooo_1 (z m n i j : nat) : ex := (ESub (r_hb_H_bb_oooo (0 + z) m n i j) (r_hb_H_bb_oooo (0 + z) m n j i)).
Definition r_hb_H_ab_oooo (z m n i j : nat) : ex := (EAdd (EAdd (EAdd (ET 34 [m; n; i; j]) (ESum (0 + z) 1 (EMul (ET 21 [m; n; (0 + z); j]) (ET 2 [(0 + z); i])))) (ESum (0 + z) 3 (EMul (ET 14 [m; n; i; (0 + z)]) (ET 4 [(0 + z); j])))) (ESum (0 + z) 1 (ESum (1 + z) 3 (EMul (ET 3 [m; n; (0 + z); (1 + z)]) (r_hb_tau_ab (2 + z) (0 + z) (1 + z) i j))))).
Definition r_hb_H_aa_ooov (z i j k a : nat) : ex := (EAdd (ET 13 [i; j; k; a]) (ESum (0 + z) 1 (EMul (ET 1 [i; j; (0 + z); a]) (ET 2 [(0 + z); k])))).
Definition r_hb_H_bb_ooov (z i j k a : nat) : ex := (EAdd (ET 20 [i; j; k; a]) (ESum (0 + z) 3 (EMul (ET 6 [i; j; (0 + z); a]) (ET 4 [(0 + z); k])))).
Definition r_hb_H_ab_ooov (z i j k a : nat) : ex := (EAdd (ET 14 [i; j; k; a]) (ESum (0 + z) 1 (EMul (ET 3 [i; j; (0 + z); a]) (ET 2 [(0 + z); k])))).
Definition r_hb_H_ab_oovo (z i j a k : nat) : ex := (EAdd (ET 21 [i; j; a; k]) (ESum (0 + z) 3 (EMul (ET 3 [i; j; a; (0 + z)]) (ET 4 [(0 + z); k])))).
Definition r_hb_Q1 (z a m i j : nat) : ex := (EAdd (ESum (0 + z) 0 (ESum (1 + z) 1 (EMul (r_hb_H_aa_ooov (2 + z) m (0 + z) j (1 + z)) (ET 10 [a; (1 + z); i; (0 + z)])))) (ESum (0 + z) 2 (ESum (1 + z) 3 (EMul (r_hb_H_ab_ooov (2 + z) m (0 + z) j (1 + z)) (ET 11 [a; (1 + z); i; (0 + z)]))))).
Definition r_hb_Q2 (z a m i f : nat) : ex := (EAdd (ET 22 [a; m; i; f]) (EScale (1) 2 (ESum (0 + z) 1 (EMul (ET 8 [a; m; (0 + z); f]) (ET 2 [(0 + z); i]))))).
Definition r_hb_Q2_1 (z a m i j : nat) : ex := (ESum (0 + z) 1 (EMul (r_hb_Q2 (1 + z) a m i (0 + z)) (ET 2 [(0 + z); j]))).
Definition r_hb_Q1_1 (z a m i j : nat) : ex := (EAdd (r_hb_Q1 (0 + z) a m i j) (r_hb_Q2_1 (0 + z) a m i j)).
Definition r_hb_Q1_2 (z a m i j : nat) : ex := (ESub (r_hb_Q1_1 (0 + z) a m i j) (r_hb_Q1_1 (0 + z) a m j i)).
Definition r_hb_H_aa_vooo (z a m i j : nat) : ex := (EAdd (EAdd (ET 29 [a; m; i; j]) (r_hb_Q1_2 (0 + z) a m i j)) (EAdd (ESub (ESum (0 + z) 1 (EMul (r_hb_H_a_ov (1 + z) m (0 + z)) (ET 10 [a; (0 + z); i; j]))) (ESum (0 + z) 0 (EMul (r_hb_H_aa_oooo_1 (1 + z) (0 + z) m i j) (ET 2 [a; (0 + z)])))) (EScale (1) 2 (ESum (0 + z) 1 (ESum (1 + z) 1 (EMul (ET 8 [a; m; (0 + z); (1 + z)]) (ET 10 [(0 + z); (1 + z); i; j]))))))).
Definition r_hb_Q1_3 (z a m i j : nat) : ex := (EAdd (ESum (0 + z) 2 (ESum (1 + z) 3 (EMul (r_hb_H_bb_ooov (2 + z) m (0 + z) j (1 + z)) (ET 18 [a; (1 + z); i; (0 + z)])))) (ESum (0 + z) 0 (ESum (1 + z) 1 (EMul (r_hb_H_ab_oovo (2 + z) (0 + z) m (1 + z) j) (ET 11 [(1 + z); a; (0 + z); i]))))).
Definition r_hb_Q2_2 (z a m i f : nat) : ex := (EAdd (ET 25 [a; m; i; f]) (EScale (1) 2 (ESum (0 + z) 3 (EMul (ET 16 [a; m; (0 + z); f]) (ET 4 [(0 + z); i]))))).
Definition r_hb_Q2_3 (z a m i j : nat) : ex := (ESum (0 + z) 3 (EMul (r_hb_Q2_2 (1 + z) a m i (0 + z)) (ET 4 [(0 + z); j]))).
Definition r_hb_Q1_4 (z a m i j : nat) : ex := (EAdd (r_hb_Q1_3 (0 + z) a m i j) (r_hb_Q2_3 (0 + z) a m i j)).
Definition r_hb_Q1_5 (z a m i j : nat) : ex := (ESub (r_hb_Q1_4 (0 + z) a m i j) (r_hb_Q1_4 (0 + z) a m j i)).
Definition r_hb_H_bb_vooo (z a m i j : nat) : ex := (EAdd (EAdd (ET 32 [a; m; i; j]) (r_hb_Q1_5 (0 + z) a m i j)) (EAdd (ESub (ESum (0 + z) 3 (EMul (r_hb_H_b_ov (1 + z) m (0 + z)) (ET 18 [a; (0 + z); i; j]))) (ESum (0 + z) 2 (EMul (r_hb_H_bb_oooo_1 (1 + z) (0 + z) m i j) (ET 4 [a; (0 + z)])))) (EScale (1) 2 (ESum (0 + z) 3 (ESum (1 + z) 3 (EMul (ET 16 [a; m; (0 + z); (1 + z)]) (ET 18 [(0 + z); (1 + z); i; j]))))))).
Definition r_hb_Q1_6 (z a m i e : nat) : ex := (EAdd (ET 23 [a; m; i; e]) (ESum (0 + z) 1 (EMul (ET 9 [a; m; (0 + z); e]) (ET 2 [(0 + z); i])))).
Definition r_hb_H_ab_vooo (z a m i j : nat) : ex := (EAdd (ET 38 [a; m; i; j]) (EAdd (EAdd (EAdd (ESub (EAdd (EAdd (ESub (ESum (0 + z) 3 (EMul (r_hb_H_b_ov (1 + z) m (0 + z)) (ET 11 [a; (0 + z); i; j]))) (ESum (0 + z) 0 (EMul (r_hb_H_ab_oooo (1 + z) (0 + z) m i j) (ET 2 [a; (0 + z)])))) (ESum (0 + z) 2 (ESum (1 + z) 3 (EMul (r_hb_H_bb_ooov (2 + z) m (0 + z) j (1 + z)) (ET 11 [a; (1 + z); i; (0 + z)]))))) (ESum (0 + z) 0 (ESum (1 + z) 1 (EMul (r_hb_H_ab_oovo (2 + z) (0 + z) m (1 + z) j) (ET 10 [a; (1 + z); i; (0 + z)]))))) (ESum (0 + z) 0 (ESum (1 + z) 3 (EMul (r_hb_H_ab_ooov (2 + z) (0 + z) m i (1 + z)) (ET 11 [a; (1 + z); (0 + z); j]))))) (ESum (0 + z) 1 (EMul (ET 36 [a; m; (0 + z); j]) (ET 2 [(0 + z); i])))) (ESum (0 + z) 3 (EMul (r_hb_Q1_6 (1 + z) a m i (0 + z)) (ET 4 [(0 + z); j])))) (ESum (0 + z) 1 (ESum (1 + z) 3 (EMul (ET 9 [a; m; (0 + z); (1 + z)]) (ET 11 [(0 + z); (1 + z); i; j])))))).
Definition r_hb_Q1_7 (z m a j e : nat) : ex := (EAdd (ET 35 [m; a; j; e]) (ESum (0 + z) 1 (EMul (ET 17 [m; a; (0 + z); e]) (ET 2 [(0 + z); j])))).
Definition r_hb_H_ab_ovoo (z m a j i : nat) : ex := (EAdd (ET 37 [m; a; j; i]) (EAdd (EAdd (EAdd (ESub (EAdd (EAdd (ESub (ESum (0 + z) 1 (EMul (r_hb_H_a_ov (1 + z) m (0 + z)) (ET 11 [(0 + z); a; j; i]))) (ESum (0 + z) 2 (EMul (r_hb_H_ab_oooo (1 + z) m (0 + z) j i) (ET 4 [a; (0 + z)])))) (ESum (0 + z) 0 (ESum (1 + z) 1 (EMul (r_hb_H_aa_ooov (2 + z) m (0 + z) j (1 + z)) (ET 11 [(1 + z); a; (0 + z); i]))))) (ESum (0 + z) 2 (ESum (1 + z) 3 (EMul (r_hb_H_ab_ooov (2 + z) m (0 + z) j (1 + z)) (ET 18 [(1 + z); a; (0 + z); i]))))) (ESum (0 + z) 2 (ESum (1 + z) 1 (EMul (r_hb_H_ab_oovo (2 + z) m (0 + z) (1 + z) i) (ET 11 [(1 + z); a; j; (0 + z)]))))) (ESum (0 + z) 3 (EMul (r_hb_Q1_7 (1 + z) m a j (0 + z)) (ET 4 [(0 + z); i])))) (ESum (0 + z) 1 (EMul (ET 26 [m; a; (0 + z); i]) (ET 2 [(0 + z); j])))) (ESum (0 + z) 1 (ESum (1 + z) 3 (EMul (ET 17 [m; a; (0 + z); (1 + z)]) (ET 11 [(0 + z); (1 + z); j; i])))))).
Definition r_hb_H_aa_voov (z a m i e : nat) : ex := (EAdd (EAdd (ESub (EAdd (ET 22 [a; m; i; e]) (ESum (0 + z) 1 (EMul (ET 8 [a; m; (0 + z); e]) (ET 2 [(0 + z); i])))) (ESum (0 + z) 0 (EMul (r_hb_H_aa_ooov (1 + z) (0 + z) m i e) (ET 2 [a; (0 + z)])))) (ESum (0 + z) 0 (ESum (1 + z) 1 (EMul (ET 1 [(0 + z); m; (1 + z); e]) (ET 10 [a; (1 + z); i; (0 + z)]))))) (ESum (0 + z) 2 (ESum (1 + z) 3 (EMul (ET 3 [m; (0 + z); e; (1 + z)]) (ET 11 [a; (1 + z); i; (0 + z)]))))).
Definition r_hb_H_bb_voov (z a m i e : nat) : ex := (EAdd (EAdd (ESub (EAdd (ET 25 [a; m; i; e]) (ESum (0 + z) 3 (EMul (ET 16 [a; m; (0 + z); e]) (ET 4 [(0 + z); i])))) (ESum (0 + z) 2 (EMul (r_hb_H_bb_ooov (1 + z) (0 + z) m i e) (ET 4 [a; (0 + z)])))) (ESum (0 + z) 2 (ESum (1 + z) 3 (EMul (ET 6 [(0 + z); m; (1 + z); e]) (ET 18 [a; (1 + z); i; (0 + z)]))))) (ESum (0 + z) 0 (ESum (1 + z) 1 (EMul (ET 3 [(0 + z); m; (1 + z); e]) (ET 11 [(1 + z); a; (0 + z); i]))))).
Definition r_hb_H_ab_voov (z a m i e : nat) : ex := (EAdd (EAdd (ESub (EAdd (ET 23 [a; m; i; e]) (ESum (0 + z) 1 (EMul (ET 9 [a; m; (0 + z); e]) (ET 2 [(0 + z); i])))) (ESum (0 + z) 0 (EMul (r_hb_H_ab_ooov (1 + z) (0 + z) m i e) (ET 2 [a; (0 + z)])))) (ESum (0 + z) 0 (ESum (1 + z) 1 (EMul (ET 3 [(0 + z); m; (1 + z); e]) (ET 10 [a; (1 + z); i; (0 + z)]))))) (ESum (0 + z) 2 (ESum (1 + z) 3 (EMul (ET 6 [(0 + z); m; (1 + z); e]) (ET 11 [a; (1 + z); i; (0 + z)]))))).
Definition r_hb_H_ab_ovvo (z m a e i : nat) : ex := (EAdd (EAdd (ESub (EAdd (ET 26 [m; a; e; i]) (ESum (0 + z) 3 (EMul (ET 17 [m; a; e; (0 + z)]) (ET 4 [(0 + z); i])))) (ESum (0 + z) 2 (EMul (r_hb_H_ab_oovo (1 + z) m (0 + z) e i) (ET 4 [a; (0 + z)])))) (ESum (0 + z) 2 (ESum (1 + z) 3 (EMul (ET 3 [m; (0 + z); e; (1 + z)]) (ET 18 [a; (1 + z); i; (0 + z)]))))) (ESum (0 + z) 0 (ESum (1 + z) 1 (EMul (ET 1 [m; (0 + z); e; (1 + z)]) (ET 11 [(1 + z); a; (0 + z); i]))))).
Definition r_hb_H_ab_ovov (z m a i e : nat) : ex := (ESub (ESub (EAdd (ET 35 [m; a; i; e]) (ESum (0 + z) 1 (EMul (ET 17 [m; a; (0 + z); e]) (ET 2 [(0 + z); i])))) (ESum (0 + z) 2 (EMul (r_hb_H_ab_ooov (1 + z) m (0 + z) i e) (ET 4 [a; (0 + z)])))) (ESum (0 + z) 2 (ESum (1 + z) 1 (EMul (ET 3 [m; (0 + z); (1 + z); e]) (ET 11 [(1 + z); a; i; (0 + z)]))))).
Definition r_hb_H_ab_vovo (z a m e i : nat) : ex := (ESub (EAdd (ESub (ET 36 [a; m; e; i]) (ESum (0 + z) 0 (EMul (r_hb_H_ab_oovo (1 + z) (0 + z) m e i) (ET 2 [a; (0 + z)])))) (ESum (0 + z) 3 (EMul (ET 9 [a; m; e; (0 + z)]) (ET 4 [(0 + z); i])))) (ESum (0 + z) 0 (ESum (1 + z) 3 (EMul (ET 3 [(0 + z); m; e; (1 + z)]) (ET 11 [a; (1 + z); (0 + z); i]))))).
Definition r_hb_x2a_voov (z a m i e : nat) : ex := (EAdd (r_hb_H_aa_voov (0 + z) a m i e) (EScale (1) 2 (ESum (0 + z) 0 (EMul (r_hb_H_aa_ooov (1 + z) (0 + z) m i e) (ET 2 [a; (0 + z)]))))).
Definition r_hb_H_aa_vvov (z a b i e : nat) : ex := (EAdd (EAdd (EAdd (EAdd (ESub (ESub (EScale (1) 2 (ET 30 [a; b; i; e])) (EScale (1) 2 (ESum (0 + z) 0 (EMul (r_hb_H_a_ov (1 + z) (0 + z) e) (ET 10 [a; b; i; (0 + z)]))))) (ESum (0 + z) 0 (EMul (r_hb_x2a_voov (1 + z) a (0 + z) i e) (ET 2 [b; (0 + z)])))) (EScale (1) 4 (ESum (0 + z) 0 (ESum (1 + z) 0 (EMul (r_hb_H_aa_ooov (2 + z) (0 + z) (1 + z) i e) (ET 10 [a; b; (0 + z); (1 + z)])))))) (EScale (1) 2 (ESum (0 + z) 1 (EMul (ET 41 [a; b; (0 + z); e]) (ET 2 [(0 + z); i]))))) (ESum (0 + z) 0 (ESum (1 + z) 1 (EMul (ET 8 [b; (0 + z); e; (1 + z)]) (ET 10 [a; (1 + z); i; (0 + z)]))))) (ESum (0 + z) 2 (ESum (1 + z) 3 (EMul (ET 9 [b; (0 + z); e; (1 + z)]) (ET 11 [a; (1 + z); i; (0 + z)]))))).
Definition r_hb_H_aa_vvov_1 (z a b i e : nat) : ex := (ESub (r_hb_H_aa_vvov (0 + z) a b i e) (r_hb_H_aa_vvov (0 + z) b a i e)).
Definition r_hb_x2c_voov (z a m i e : nat) : ex := (EAdd (r_hb_H_bb_voov (0 + z) a m i e) (EScale (1) 2 (ESum (0 + z) 2 (EMul (r_hb_H_bb_ooov (1 + z) (0 + z) m i e) (ET 4 [a; (0 + z)]))))).
Definition r_hb_H_bb_vvov (z a b i e : nat) : ex := (EAdd (EAdd (EAdd (EAdd (ESub (ESub (EScale (1) 2 (ET 33 [a; b; i; e])) (EScale (1) 2 (ESum (0 + z) 2 (EMul (r_hb_H_b_ov (1 + z) (0 + z) e) (ET 18 [a; b; i; (0 + z)]))))) (ESum (0 + z) 2 (EMul (r_hb_x2c_voov (1 + z) a (0 + z) i e) (ET 4 [b; (0 + z)])))) (EScale (1) 4 (ESum (0 + z) 2 (ESum (1 + z) 2 (EMul (r_hb_H_bb_ooov (2 + z) (0 + z) (1 + z) i e) (ET 18 [a; b; (0 + z); (1 + z)])))))) (EScale (1) 2 (ESum (0 + z) 3 (EMul (ET 45 [a; b; (0 + z); e]) (ET 4 [(0 + z); i]))))) (ESum (0 + z) 2 (ESum (1 + z) 3 (EMul (ET 16 [b; (0 + z); e; (1 + z)]) (ET 18 [a; (1 + z); i; (0 + z)]))))) (ESum (0 + z) 0 (ESum (1 + z) 1 (EMul (ET 17 [(0 + z); b; (1 + z); e]) (ET 11 [(1 + z); a; (0 + z); i]))))).
Definition r_hb_H_bb_vvov_1 (z a b i e : nat) : ex := (ESub (r_hb_H_bb_vvov (0 + z) a b i e) (r_hb_H_bb_vvov (0 + z) b a i e)).
Definition r_hb_x2b_voov (z a m i e : nat) : ex := (EAdd (r_hb_H_ab_voov (0 + z) a m i e) (EScale (1) 2 (ESum (0 + z) 0 (EMul (r_hb_H_ab_ooov (1 + z) (0 + z) m i e) (ET 2 [a; (0 + z)]))))).
Definition r_hb_x2b_ovov (z m a i e : nat) : ex := (EAdd (r_hb_H_ab_ovov (0 + z) m a i e) (EScale (1) 2 (ESum (0 + z) 2 (EMul (r_hb_H_ab_ooov (1 + z) m (0 + z) i e) (ET 4 [a; (0 + z)]))))).
Definition r_hb_H_ab_vvov (z a b i e : nat) : ex := (ESub (EAdd (EAdd (EAdd (EAdd (ESub (ESub (ESub (ET 40 [a; b; i; e]) (ESum (0 + z) 2 (EMul (r_hb_H_b_ov (1 + z) (0 + z) e) (ET 11 [a; b; i; (0 + z)])))) (ESum (0 + z) 2 (EMul (r_hb_x2b_voov (1 + z) a (0 + z) i e) (ET 4 [b; (0 + z)])))) (ESum (0 + z) 0 (EMul (r_hb_x2b_ovov (1 + z) (0 + z) b i e) (ET 2 [a; (0 + z)])))) (ESum (0 + z) 0 (ESum (1 + z) 2 (EMul (r_hb_H_ab_ooov (2 + z) (0 + z) (1 + z) i e) (ET 11 [a; b; (0 + z); (1 + z)]))))) (ESum (0 + z) 1 (EMul (ET 43 [a; b; (0 + z); e]) (ET 2 [(0 + z); i])))) (ESum (0 + z) 0 (ESum (1 + z) 1 (EMul (ET 17 [(0 + z); b; (1 + z); e]) (ET 10 [a; (1 + z); i; (0 + z)]))))) (ESum (0 + z) 2 (ESum (1 + z) 3 (EMul (ET 16 [b; (0 + z); e; (1 + z)]) (ET 11 [a; (1 + z); i; (0 + z)]))))) (ESum (0 + z) 2 (ESum (1 + z) 1 (EMul (ET 9 [a; (0 + z); (1 + z); e]) (ET 11 [(1 + z); b; i; (0 + z)]))))).
Definition r_hb_x2b_ovvo (z m a e i : nat) : ex := (EAdd (r_hb_H_ab_ovvo (0 + z) m a e i) (EScale (1) 2 (ESum (0 + z) 2 (EMul (r_hb_H_ab_oovo (1 + z) m (0 + z) e i) (ET 4 [a; (0 + z)]))))).
Definition r_hb_x2b_vovo (z a m e i : nat) : ex := (EAdd (r_hb_H_ab_vovo (0 + z) a m e i) (EScale (1) 2 (ESum (0 + z) 0 (EMul (r_hb_H_ab_oovo (1 + z) (0 + z) m e i) (ET 2 [a; (0 + z)]))))).
Definition r_hb_H_ab_vvvo (z b a e i : nat) : ex := (ESub (EAdd (EAdd (EAdd (EAdd (ESub (ESub (ESub (ET 39 [b; a; e; i]) (ESum (0 + z) 0 (EMul (r_hb_H_a_ov (1 + z) (0 + z) e) (ET 11 [b; a; (0 + z); i])))) (ESum (0 + z) 0 (EMul (r_hb_x2b_ovvo (1 + z) (0 + z) a e i) (ET 2 [b; (0 + z)])))) (ESum (0 + z) 2 (EMul (r_hb_x2b_vovo (1 + z) b (0 + z) e i) (ET 4 [a; (0 + z)])))) (ESum (0 + z) 0 (ESum (1 + z) 2 (EMul (r_hb_H_ab_oovo (2 + z) (0 + z) (1 + z) e i) (ET 11 [b; a; (0 + z); (1 + z)]))))) (ESum (0 + z) 3 (EMul (ET 43 [b; a; e; (0 + z)]) (ET 4 [(0 + z); i])))) (ESum (0 + z) 2 (ESum (1 + z) 3 (EMul (ET 9 [b; (0 + z); e; (1 + z)]) (ET 18 [a; (1 + z); i; (0 + z)]))))) (ESum (0 + z) 0 (ESum (1 + z) 1 (EMul (ET 8 [b; (0 + z); e; (1 + z)]) (ET 11 [(1 + z); a; (0 + z); i]))))) (ESum (0 + z) 0 (ESum (1 + z) 3 (EMul (ET 17 [(0 + z); a; e; (1 + z)]) (ET 11 [b; (1 + z); (0 + z); i]))))).
Definition r_hb_H_aa_vvvv (z a b e f : nat) : ex := (ESub (EAdd (EScale (1) 2 (ET 41 [a; b; e; f])) (EScale (1) 4 (ESum (0 + z) 0 (ESum (1 + z) 0 (EMul (ET 1 [(0 + z); (1 + z); e; f]) (r_hb_tau_aa_1 (2 + z) a b (0 + z) (1 + z))))))) (ESum (0 + z) 0 (EMul (ET 8 [a; (0 + z); e; f]) (ET 2 [b; (0 + z)])))).
Definition r_hb_H_aa_vvvv_1 (z a b e f : nat) : ex := (ESub (r_hb_H_aa_vvvv (0 + z) a b e f) (r_hb_H_aa_vvvv (0 + z) b a e f)).
Definition r_hb_H_bb_vvvv (z a b e f : nat) : ex := (ESub (EAdd (EScale (1) 2 (ET 45 [a; b; e; f])) (EScale (1) 4 (ESum (0 + z) 2 (ESum (1 + z) 2 (EMul (ET 6 [(0 + z); (1 + z); e; f]) (r_hb_tau_bb_1 (2 + z) a b (0 + z) (1 + z))))))) (ESum (0 + z) 2 (EMul (ET 16 [a; (0 + z); e; f]) (ET 4 [b; (0 + z)])))).
Definition r_hb_H_bb_vvvv_1 (z a b e f : nat) : ex := (ESub (r_hb_H_bb_vvvv (0 + z) a b e f) (r_hb_H_bb_vvvv (0 + z) b a e f)).
Definition r_hb_H_ab_vvvv (z a b e f : nat) : ex := (EAdd (ESub (ESub (ET 43 [a; b; e; f]) (ESum (0 + z) 0 (EMul (ET 17 [(0 + z); b; e; f]) (ET 2 [a; (0 + z)])))) (ESum (0 + z) 2 (EMul (ET 9 [a; (0 + z); e; f]) (ET 4 [b; (0 + z)])))) (ESum (0 + z) 0 (ESum (1 + z) 2 (EMul (ET 3 [(0 + z); (1 + z); e; f]) (r_hb_tau_ab (2 + z) a b (0 + z) (1 + z)))))).
Definition r_hb_H_aa_vovv (z a i b c : nat) : ex := (ESub (ET 8 [a; i; b; c]) (ESum (0 + z) 0 (EMul (ET 1 [i; (0 + z); c; b]) (ET 2 [a; (0 + z)])))).
Definition r_hb_H_bb_vovv (z a i b c : nat) : ex := (ESub (ET 16 [a; i; b; c]) (ESum (0 + z) 2 (EMul (ET 6 [i; (0 + z); c; b]) (ET 4 [a; (0 + z)])))).
Definition r_hb_H_ab_vovv (z a i b c : nat) : ex := (ESub (ET 9 [a; i; b; c]) (ESum (0 + z) 0 (EMul (ET 3 [(0 + z); i; b; c]) (ET 2 [a; (0 + z)])))).
Definition r_hb_H_ab_ovvv (z i a b c : nat) : ex := (ESub (ET 17 [i; a; b; c]) (ESum (0 + z) 2 (EMul (ET 3 [i; (0 + z); b; c]) (ET 4 [a; (0 + z)])))).
Definition r_eom_X_a_oo (z m j : nat) : ex := (EAdd (EAdd (EAdd (ESum (0 + z) 0 (ESum (1 + z) 1 (EMul (ET 13 [m; (0 + z); j; (1 + z)]) (ET 47 [(1 + z); (0 + z)])))) (ESum (0 + z) 2 (ESum (1 + z) 3 (EMul (ET 14 [m; (0 + z); j; (1 + z)]) (ET 48 [(1 + z); (0 + z)]))))) (EScale (1) 2 (ESum (0 + z) 0 (ESum (1 + z) 1 (ESum (2 + z) 1 (EMul (ET 1 [m; (0 + z); (1 + z); (2 + z)]) (ET 49 [(1 + z); (2 + z); j; (0 + z)]))))))) (ESum (0 + z) 2 (ESum (1 + z) 1 (ESum (2 + z) 3 (EMul (ET 3 [m; (0 + z); (1 + z); (2 + z)]) (ET 50 [(1 + z); (2 + z); j; (0 + z)])))))).
Definition r_eom_X_a_vv (z b e : nat) : ex := (ESub (ESub (EAdd (ESum (0 + z) 0 (ESum (1 + z) 1 (EMul (ET 8 [b; (0 + z); e; (1 + z)]) (ET 47 [(1 + z); (0 + z)])))) (ESum (0 + z) 2 (ESum (1 + z) 3 (EMul (ET 9 [b; (0 + z); e; (1 + z)]) (ET 48 [(1 + z); (0 + z)]))))) (EScale (1) 2 (ESum (0 + z) 0 (ESum (1 + z) 0 (ESum (2 + z) 1 (EMul (ET 1 [(0 + z); (1 + z); e; (2 + z)]) (ET 49 [b; (2 + z); (0 + z); (1 + z)]))))))) (ESum (0 + z) 0 (ESum (1 + z) 2 (ESum (2 + z) 3 (EMul (ET 3 [(0 + z); (1 + z); e; (2 + z)]) (ET 50 [b; (2 + z); (0 + z); (1 + z)])))))).
Definition r_eom_X_b_oo (z m k : nat) : ex := (EAdd (EAdd (EAdd (ESum (0 + z) 0 (ESum (1 + z) 1 (EMul (ET 21 [(0 + z); m; (1 + z); k]) (ET 47 [(1 + z); (0 + z)])))) (ESum (0 + z) 2 (ESum (1 + z) 3 (EMul (ET 20 [m; (0 + z); k; (1 + z)]) (ET 48 [(1 + z); (0 + z)]))))) (ESum (0 + z) 0 (ESum (1 + z) 1 (ESum (2 + z) 3 (EMul (ET 3 [(0 + z); m; (1 + z); (2 + z)]) (ET 50 [(1 + z); (2 + z); (0 + z); k])))))) (EScale (1) 2 (ESum (0 + z) 2 (ESum (1 + z) 3 (ESum (2 + z) 3 (EMul (ET 6 [m; (0 + z); (1 + z); (2 + z)]) (ET 51 [(1 + z); (2 + z); k; (0 + z)]))))))).
Definition r_eom_X_b_vv (z c e : nat) : ex := (ESub (ESub (EAdd (ESum (0 + z) 0 (ESum (1 + z) 1 (EMul (ET 17 [(0 + z); c; (1 + z); e]) (ET 47 [(1 + z); (0 + z)])))) (ESum (0 + z) 2 (ESum (1 + z) 3 (EMul (ET 16 [c; (0 + z); e; (1 + z)]) (ET 48 [(1 + z); (0 + z)]))))) (EScale (1) 1 (ESum (0 + z) 0 (ESum (1 + z) 2 (ESum (2 + z) 1 (EMul (ET 3 [(0 + z); (1 + z); (2 + z); e]) (ET 50 [(2 + z); c; (0 + z); (1 + z)]))))))) (EScale (1) 2 (ESum (0 + z) 2 (ESum (1 + z) 2 (ESum (2 + z) 3 (EMul (ET 6 [(0 + z); (1 + z); e; (2 + z)]) (ET 51 [(2 + z); c; (1 + z); (0 + z)]))))))).
Definition r_eom_X1A (z a i : nat) : ex := (EOpp (ESum (0 + z) 0 (EMul (ET 12 [(0 + z); i]) (ET 47 [a; (0 + z)])))).
Definition r_eom_X1A_1 (z a i : nat) : ex := (EAdd (r_eom_X1A (0 + z) a i) (ESum (0 + z) 1 (EMul (ET 7 [a; (0 + z)]) (ET 47 [(0 + z); i])))).
Definition r_eom_X1A_2 (z a i : nat) : ex := (EAdd (r_eom_X1A_1 (0 + z) a i) (ESum (0 + z) 0 (ESum (1 + z) 1 (EMul (ET 22 [a; (0 + z); i; (1 + z)]) (ET 47 [(1 + z); (0 + z)]))))).
Definition r_eom_X1A_3 (z a i : nat) : ex := (EAdd (r_eom_X1A_2 (0 + z) a i) (ESum (0 + z) 2 (ESum (1 + z) 3 (EMul (ET 23 [a; (0 + z); i; (1 + z)]) (ET 48 [(1 + z); (0 + z)]))))).
Definition r_eom_X1A_4 (z a i : nat) : ex := (ESub (r_eom_X1A_3 (0 + z) a i) (EScale (1) 2 (ESum (0 + z) 0 (ESum (1 + z) 0 (ESum (2 + z) 1 (EMul (ET 13 [(0 + z); (1 + z); i; (2 + z)]) (ET 49 [a; (2 + z); (0 + z); (1 + z)]))))))).
Definition r_eom_X1A_5 (z a i : nat) : ex := (ESub (r_eom_X1A_4 (0 + z) a i) (ESum (0 + z) 0 (ESum (1 + z) 2 (ESum (2 + z) 3 (EMul (ET 14 [(0 + z); (1 + z); i; (2 + z)]) (ET 50 [a; (2 + z); (0 + z); (1 + z)])))))).
Definition r_eom_X1A_6 (z a i : nat) : ex := (EAdd (r_eom_X1A_5 (0 + z) a i) (EScale (1) 2 (ESum (0 + z) 0 (ESum (1 + z) 1 (ESum (2 + z) 1 (EMul (ET 8 [a; (0 + z); (1 + z); (2 + z)]) (ET 49 [(1 + z); (2 + z); i; (0 + z)]))))))).
Definition r_eom_X1A_7 (z a i : nat) : ex := (EAdd (r_eom_X1A_6 (0 + z) a i) (ESum (0 + z) 2 (ESum (1 + z) 1 (ESum (2 + z) 3 (EMul (ET 9 [a; (0 + z); (1 + z); (2 + z)]) (ET 50 [(1 + z); (2 + z); i; (0 + z)])))))).
Definition r_eom_X1A_8 (z a i : nat) : ex := (EAdd (r_eom_X1A_7 (0 + z) a i) (ESum (0 + z) 0 (ESum (1 + z) 1 (EMul (ET 0 [(0 + z); (1 + z)]) (ET 49 [a; (1 + z); i; (0 + z)]))))).
Definition r_eom_X1A_9 (z a i : nat) : ex := (EAdd (r_eom_X1A_8 (0 + z) a i) (ESum (0 + z) 2 (ESum (1 + z) 3 (EMul (ET 5 [(0 + z); (1 + z)]) (ET 50 [a; (1 + z); i; (0 + z)]))))).
Definition r_eom_X1B (z a i : nat) : ex := (EOpp (ESum (0 + z) 2 (EMul (ET 19 [(0 + z); i]) (ET 48 [a; (0 + z)])))).
Definition r_eom_X1B_1 (z a i : nat) : ex := (EAdd (r_eom_X1B (0 + z) a i) (ESum (0 + z) 3 (EMul (ET 15 [a; (0 + z)]) (ET 48 [(0 + z); i])))).
Definition r_eom_X1B_2 (z a i : nat) : ex := (EAdd (r_eom_X1B_1 (0 + z) a i) (ESum (0 + z) 0 (ESum (1 + z) 1 (EMul (ET 26 [(0 + z); a; (1 + z); i]) (ET 47 [(1 + z); (0 + z)]))))).
Definition r_eom_X1B_3 (z a i : nat) : ex := (EAdd (r_eom_X1B_2 (0 + z) a i) (ESum (0 + z) 2 (ESum (1 + z) 3 (EMul (ET 25 [a; (0 + z); i; (1 + z)]) (ET 48 [(1 + z); (0 + z)]))))).
Definition r_eom_X1B_4 (z a i : nat) : ex := (ESub (r_eom_X1B_3 (0 + z) a i) (ESum (0 + z) 0 (ESum (1 + z) 2 (ESum (2 + z) 1 (EMul (ET 21 [(0 + z); (1 + z); (2 + z); i]) (ET 50 [(2 + z); a; (0 + z); (1 + z)])))))).
Definition r_eom_X1B_5 (z a i : nat) : ex := (ESub (r_eom_X1B_4 (0 + z) a i) (EScale (1) 2 (ESum (0 + z) 2 (ESum (1 + z) 2 (ESum (2 + z) 3 (EMul (ET 20 [(0 + z); (1 + z); i; (2 + z)]) (ET 51 [a; (2 + z); (0 + z); (1 + z)]))))))).
Definition r_eom_X1B_6 (z a i : nat) : ex := (EAdd (r_eom_X1B_5 (0 + z) a i) (ESum (0 + z) 0 (ESum (1 + z) 1 (ESum (2 + z) 3 (EMul (ET 17 [(0 + z); a; (1 + z); (2 + z)]) (ET 50 [(1 + z); (2 + z); (0 + z); i])))))).
Definition r_eom_X1B_7 (z a i : nat) : ex := (EAdd (r_eom_X1B_6 (0 + z) a i) (EScale (1) 2 (ESum (0 + z) 2 (ESum (1 + z) 3 (ESum (2 + z) 3 (EMul (ET 16 [a; (0 + z); (1 + z); (2 + z)]) (ET 51 [(1 + z); (2 + z); i; (0 + z)]))))))).
Definition r_eom_X1B_8 (z a i : nat) : ex := (EAdd (r_eom_X1B_7 (0 + z) a i) (ESum (0 + z) 0 (ESum (1 + z) 1 (EMul (ET 0 [(0 + z); (1 + z)]) (ET 50 [(1 + z); a; (0 + z); i]))))).
Definition r_eom_X1B_9 (z a i : nat) : ex := (EAdd (r_eom_X1B_8 (0 + z) a i) (ESum (0 + z) 2 (ESum (1 + z) 3 (EMul (ET 5 [(0 + z); (1 + z)]) (ET 51 [a; (1 + z); i; (0 + z)]))))).
Definition r_eom_X2A (z a b i j : nat) : ex := (EScale (-1) 2 (ESum (0 + z) 0 (EMul (ET 12 [(0 + z); i]) (ET 49 [a; b; (0 + z); j])))).
Definition r_eom_X2A_1 (z a b i j : nat) : ex := (EAdd (r_eom_X2A (0 + z) a b i j) (EScale (1) 2 (ESum (0 + z) 1 (EMul (ET 7 [a; (0 + z)]) (ET 49 [(0 + z); b; i; j]))))).
Definition r_eom_X2A_2 (z a b i j : nat) : ex := (EAdd (r_eom_X2A_1 (0 + z) a b i j) (EScale (1) 8 (ESum (0 + z) 0 (ESum (1 + z) 0 (EMul (ET 28 [(0 + z); (1 + z); i; j]) (ET 49 [a; b; (0 + z); (1 + z)])))))).
Definition r_eom_X2A_3 (z a b i j : nat) : ex := (EAdd (r_eom_X2A_2 (0 + z) a b i j) (EScale (1) 8 (ESum (0 + z) 1 (ESum (1 + z) 1 (EMul (ET 41 [a; b; (0 + z); (1 + z)]) (ET 49 [(0 + z); (1 + z); i; j])))))).
Definition r_eom_X2A_4 (z a b i j : nat) : ex := (EAdd (r_eom_X2A_3 (0 + z) a b i j) (ESum (0 + z) 0 (ESum (1 + z) 1 (EMul (ET 22 [a; (0 + z); i; (1 + z)]) (ET 49 [(1 + z); b; (0 + z); j]))))).
Definition r_eom_X2A_5 (z a b i j : nat) : ex := (EAdd (r_eom_X2A_4 (0 + z) a b i j) (ESum (0 + z) 2 (ESum (1 + z) 3 (EMul (ET 23 [a; (0 + z); i; (1 + z)]) (ET 50 [b; (1 + z); j; (0 + z)]))))).
Definition r_eom_X2A_6 (z a b i j : nat) : ex := (ESub (r_eom_X2A_5 (0 + z) a b i j) (EScale (1) 2 (ESum (0 + z) 0 (EMul (ET 29 [b; (0 + z); j; i]) (ET 47 [a; (0 + z)]))))).
Definition r_eom_X2A_7 (z a b i j : nat) : ex := (EAdd (r_eom_X2A_6 (0 + z) a b i j) (EScale (1) 2 (ESum (0 + z) 1 (EMul (ET 30 [b; a; j; (0 + z)]) (ET 47 [(0 + z); i]))))).
Definition r_eom_X2A_8 (z a b i j : nat) : ex := (EAdd (r_eom_X2A_7 (0 + z) a b i j) (EScale (1) 2 (ESum (0 + z) 1 (EMul (r_eom_X_a_vv (1 + z) b (0 + z)) (ET 10 [a; (0 + z); i; j]))))).
Definition r_eom_X2A_9 (z a b i j : nat) : ex := (ESub (r_eom_X2A_8 (0 + z) a b i j) (EScale (1) 2 (ESum (0 + z) 0 (EMul (r_eom_X_a_oo (1 + z) (0 + z) j) (ET 10 [a; b; i; (0 + z)]))))).
Definition r_eom_X2A_10 (z a b i j : nat) : ex := (ESub (r_eom_X2A_9 (0 + z) a b i j) (r_eom_X2A_9 (0 + z) b a i j)).
Definition r_eom_X2A_11 (z a b i j : nat) : ex := (ESub (r_eom_X2A_10 (0 + z) a b i j) (r_eom_X2A_10 (0 + z) a b j i)).
Definition r_eom_X2B (z a b i j : nat) : ex := (ESum (0 + z) 1 (EMul (ET 7 [a; (0 + z)]) (ET 50 [(0 + z); b; i; j]))).
Definition r_eom_X2B_1 (z a b i j : nat) : ex := (EAdd (r_eom_X2B (0 + z) a b i j) (ESum (0 + z) 3 (EMul (ET 15 [b; (0 + z)]) (ET 50 [a; (0 + z); i; j])))).
Definition r_eom_X2B_2 (z a b i j : nat) : ex := (ESub (r_eom_X2B_1 (0 + z) a b i j) (ESum (0 + z) 0 (EMul (ET 12 [(0 + z); i]) (ET 50 [a; b; (0 + z); j])))).
Definition r_eom_X2B_3 (z a b i j : nat) : ex := (ESub (r_eom_X2B_2 (0 + z) a b i j) (ESum (0 + z) 2 (EMul (ET 19 [(0 + z); j]) (ET 50 [a; b; i; (0 + z)])))).
Definition r_eom_X2B_4 (z a b i j : nat) : ex := (EAdd (r_eom_X2B_3 (0 + z) a b i j) (ESum (0 + z) 0 (ESum (1 + z) 2 (EMul (ET 34 [(0 + z); (1 + z); i; j]) (ET 50 [a; b; (0 + z); (1 + z)]))))).
Definition r_eom_X2B_5 (z a b i j : nat) : ex := (EAdd (r_eom_X2B_4 (0 + z) a b i j) (ESum (0 + z) 1 (ESum (1 + z) 3 (EMul (ET 43 [a; b; (0 + z); (1 + z)]) (ET 50 [(0 + z); (1 + z); i; j]))))).
Definition r_eom_X2B_6 (z a b i j : nat) : ex := (EAdd (r_eom_X2B_5 (0 + z) a b i j) (ESum (0 + z) 0 (ESum (1 + z) 1 (EMul (ET 22 [a; (0 + z); i; (1 + z)]) (ET 50 [(1 + z); b; (0 + z); j]))))).
Definition r_eom_X2B_7 (z a b i j : nat) : ex := (EAdd (r_eom_X2B_6 (0 + z) a b i j) (ESum (0 + z) 2 (ESum (1 + z) 3 (EMul (ET 23 [a; (0 + z); i; (1 + z)]) (ET 51 [(1 + z); b; (0 + z); j]))))).
Definition r_eom_X2B_8 (z a b i j : nat) : ex := (EAdd (r_eom_X2B_7 (0 + z) a b i j) (ESum (0 + z) 0 (ESum (1 + z) 1 (EMul (ET 26 [(0 + z); b; (1 + z); j]) (ET 49 [a; (1 + z); i; (0 + z)]))))).
Definition r_eom_X2B_9 (z a b i j : nat) : ex := (EAdd (r_eom_X2B_8 (0 + z) a b i j) (ESum (0 + z) 2 (ESum (1 + z) 3 (EMul (ET 25 [b; (0 + z); j; (1 + z)]) (ET 50 [a; (1 + z); i; (0 + z)]))))).
Definition r_eom_X2B_10 (z a b i j : nat) : ex := (ESub (r_eom_X2B_9 (0 + z) a b i j) (ESum (0 + z) 0 (ESum (1 + z) 3 (EMul (ET 35 [(0 + z); b; i; (1 + z)]) (ET 50 [a; (1 + z); (0 + z); j]))))).
Definition r_eom_X2B_11 (z a b i j : nat) : ex := (ESub (r_eom_X2B_10 (0 + z) a b i j) (ESum (0 + z) 2 (ESum (1 + z) 1 (EMul (ET 36 [a; (0 + z); (1 + z); j]) (ET 50 [(1 + z); b; i; (0 + z)]))))).
Definition r_eom_X2B_12 (z a b i j : nat) : ex := (EAdd (r_eom_X2B_11 (0 + z) a b i j) (ESum (0 + z) 1 (EMul (ET 39 [a; b; (0 + z); j]) (ET 47 [(0 + z); i])))).
Definition r_eom_X2B_13 (z a b i j : nat) : ex := (EAdd (r_eom_X2B_12 (0 + z) a b i j) (ESum (0 + z) 3 (EMul (ET 40 [a; b; i; (0 + z)]) (ET 48 [(0 + z); j])))).
Definition r_eom_X2B_14 (z a b i j : nat) : ex := (ESub (r_eom_X2B_13 (0 + z) a b i j) (ESum (0 + z) 0 (EMul (ET 37 [(0 + z); b; i; j]) (ET 47 [a; (0 + z)])))).
Definition r_eom_X2B_15 (z a b i j : nat) : ex := (ESub (r_eom_X2B_14 (0 + z) a b i j) (ESum (0 + z) 2 (EMul (ET 38 [a; (0 + z); i; j]) (ET 48 [b; (0 + z)])))).
Definition r_eom_X2B_16 (z a b i j : nat) : ex := (EAdd (r_eom_X2B_15 (0 + z) a b i j) (ESum (0 + z) 1 (EMul (r_eom_X_a_vv (1 + z) a (0 + z)) (ET 11 [(0 + z); b; i; j])))).
Definition r_eom_X2B_17 (z a b i j : nat) : ex := (ESub (r_eom_X2B_16 (0 + z) a b i j) (ESum (0 + z) 0 (EMul (r_eom_X_a_oo (1 + z) (0 + z) i) (ET 11 [a; b; (0 + z); j])))).
Definition r_eom_X2B_18 (z a b i j : nat) : ex := (EAdd (r_eom_X2B_17 (0 + z) a b i j) (ESum (0 + z) 3 (EMul (r_eom_X_b_vv (1 + z) b (0 + z)) (ET 11 [a; (0 + z); i; j])))).
Definition r_eom_X2B_19 (z a b i j : nat) : ex := (ESub (r_eom_X2B_18 (0 + z) a b i j) (ESum (0 + z) 2 (EMul (r_eom_X_b_oo (1 + z) (0 + z) j) (ET 11 [a; b; i; (0 + z)])))).
Definition r_eom_X2C (z a b i j : nat) : ex := (EScale (-1) 2 (ESum (0 + z) 2 (EMul (ET 19 [(0 + z); i]) (ET 51 [a; b; (0 + z); j])))).
Definition r_eom_X2C_1 (z a b i j : nat) : ex := (EAdd (r_eom_X2C (0 + z) a b i j) (EScale (1) 2 (ESum (0 + z) 3 (EMul (ET 15 [a; (0 + z)]) (ET 51 [(0 + z); b; i; j]))))).
Definition r_eom_X2C_2 (z a b i j : nat) : ex := (EAdd (r_eom_X2C_1 (0 + z) a b i j) (EScale (1) 8 (ESum (0 + z) 2 (ESum (1 + z) 2 (EMul (ET 31 [(0 + z); (1 + z); i; j]) (ET 51 [a; b; (0 + z); (1 + z)])))))).
Definition r_eom_X2C_3 (z a b i j : nat) : ex := (EAdd (r_eom_X2C_2 (0 + z) a b i j) (EScale (1) 8 (ESum (0 + z) 3 (ESum (1 + z) 3 (EMul (ET 45 [a; b; (0 + z); (1 + z)]) (ET 51 [(0 + z); (1 + z); i; j])))))).
Definition r_eom_X2C_4 (z a b i j : nat) : ex := (EAdd (r_eom_X2C_3 (0 + z) a b i j) (ESum (0 + z) 2 (ESum (1 + z) 3 (EMul (ET 25 [a; (0 + z); i; (1 + z)]) (ET 51 [(1 + z); b; (0 + z); j]))))).
Definition r_eom_X2C_5 (z a b i j : nat) : ex := (EAdd (r_eom_X2C_4 (0 + z) a b i j) (ESum (0 + z) 0 (ESum (1 + z) 1 (EMul (ET 26 [(0 + z); a; (1 + z); i]) (ET 50 [(1 + z); b; (0 + z); j]))))).
Definition r_eom_X2C_6 (z a b i j : nat) : ex := (ESub (r_eom_X2C_5 (0 + z) a b i j) (EScale (1) 2 (ESum (0 + z) 2 (EMul (ET 32 [b; (0 + z); j; i]) (ET 48 [a; (0 + z)]))))).
Definition r_eom_X2C_7 (z a b i j : nat) : ex := (EAdd (r_eom_X2C_6 (0 + z) a b i j) (EScale (1) 2 (ESum (0 + z) 3 (EMul (ET 33 [b; a; j; (0 + z)]) (ET 48 [(0 + z); i]))))).
Definition r_eom_X2C_8 (z a b i j : nat) : ex := (EAdd (r_eom_X2C_7 (0 + z) a b i j) (EScale (1) 2 (ESum (0 + z) 3 (EMul (r_eom_X_b_vv (1 + z) b (0 + z)) (ET 18 [a; (0 + z); i; j]))))).
Definition r_eom_X2C_9 (z a b i j : nat) : ex := (ESub (r_eom_X2C_8 (0 + z) a b i j) (EScale (1) 2 (ESum (0 + z) 2 (EMul (r_eom_X_b_oo (1 + z) (0 + z) j) (ET 18 [a; b; i; (0 + z)]))))).
Definition r_eom_X2C_10 (z a b i j : nat) : ex := (ESub (r_eom_X2C_9 (0 + z) a b i j) (r_eom_X2C_9 (0 + z) b a i j)).
Definition r_eom_X2C_11 (z a b i j : nat) : ex := (ESub (r_eom_X2C_10 (0 + z) a b i j) (r_eom_X2C_10 (0 + z) a b j i)).
Definition r_left_X_a_vv (z g e : nat) : ex := (EAdd (EScale (1) 2 (ESum (0 + z) 1 (ESum (1 + z) 0 (ESum (2 + z) 0 (EMul (ET 49 [e; (0 + z); (1 + z); (2 + z)]) (ET 10 [(0 + z); g; (2 + z); (1 + z)])))))) (ESum (0 + z) 3 (ESum (1 + z) 0 (ESum (2 + z) 2 (EMul (ET 50 [e; (0 + z); (1 + z); (2 + z)]) (ET 11 [g; (0 + z); (1 + z); (2 + z)])))))).
Definition r_left_X_a_oo (z m n : nat) : ex := (ESub (EScale (-1) 2 (ESum (0 + z) 1 (ESum (1 + z) 1 (ESum (2 + z) 0 (EMul (ET 49 [(0 + z); (1 + z); m; (2 + z)]) (ET 10 [(0 + z); (1 + z); n; (2 + z)])))))) (ESum (0 + z) 1 (ESum (1 + z) 3 (ESum (2 + z) 2 (EMul (ET 50 [(0 + z); (1 + z); m; (2 + z)]) (ET 11 [(0 + z); (1 + z); n; (2 + z)])))))).
Definition r_left_X_b_vv (z f a : nat) : ex := (EAdd (EScale (1) 2 (ESum (0 + z) 3 (ESum (1 + z) 2 (ESum (2 + z) 2 (EMul (ET 51 [a; (0 + z); (1 + z); (2 + z)]) (ET 18 [f; (0 + z); (1 + z); (2 + z)])))))) (ESum (0 + z) 1 (ESum (1 + z) 0 (ESum (2 + z) 2 (EMul (ET 50 [(0 + z); a; (1 + z); (2 + z)]) (ET 11 [(0 + z); f; (1 + z); (2 + z)])))))).
Definition r_left_X_b_oo (z i n : nat) : ex := (ESub (EScale (-1) 2 (ESum (0 + z) 3 (ESum (1 + z) 3 (ESum (2 + z) 2 (EMul (ET 51 [(0 + z); (1 + z); i; (2 + z)]) (ET 18 [(0 + z); (1 + z); n; (2 + z)])))))) (ESum (0 + z) 1 (ESum (1 + z) 3 (ESum (2 + z) 0 (EMul (ET 50 [(0 + z); (1 + z); (2 + z); i]) (ET 11 [(0 + z); (1 + z); (2 + z); n])))))).
Definition r_left_LH_a (z a i : nat) : ex := (ESum (0 + z) 1 (EMul (ET 7 [(0 + z); a]) (ET 47 [(0 + z); i]))).
Definition r_left_LH_a_1 (z a i : nat) : ex := (ESub (r_left_LH_a (0 + z) a i) (ESum (0 + z) 0 (EMul (ET 12 [i; (0 + z)]) (ET 47 [a; (0 + z)])))).
Definition r_left_LH_a_2 (z a i : nat) : ex := (EAdd (r_left_LH_a_1 (0 + z) a i) (ESum (0 + z) 1 (ESum (1 + z) 0 (EMul (ET 22 [(0 + z); i; (1 + z); a]) (ET 47 [(0 + z); (1 + z)]))))).
Definition r_left_LH_a_3 (z a i : nat) : ex := (EAdd (r_left_LH_a_2 (0 + z) a i) (ESum (0 + z) 3 (ESum (1 + z) 2 (EMul (ET 26 [i; (0 + z); a; (1 + z)]) (ET 48 [(0 + z); (1 + z)]))))).
Definition r_left_LH_a_4 (z a i : nat) : ex := (EAdd (r_left_LH_a_3 (0 + z) a i) (EScale (1) 2 (ESum (0 + z) 1 (ESum (1 + z) 1 (ESum (2 + z) 0 (EMul (ET 30 [(0 + z); (1 + z); (2 + z); a]) (ET 49 [(1 + z); (0 + z); i; (2 + z)]))))))).
Definition r_left_LH_a_5 (z a i : nat) : ex := (EAdd (r_left_LH_a_4 (0 + z) a i) (ESum (0 + z) 1 (ESum (1 + z) 3 (ESum (2 + z) 2 (EMul (ET 39 [(0 + z); (1 + z); a; (2 + z)]) (ET 50 [(0 + z); (1 + z); i; (2 + z)])))))).
Definition r_left_LH_a_6 (z a i : nat) : ex := (ESub (r_left_LH_a_5 (0 + z) a i) (EScale (1) 2 (ESum (0 + z) 1 (ESum (1 + z) 0 (ESum (2 + z) 0 (EMul (ET 29 [(0 + z); i; (1 + z); (2 + z)]) (ET 49 [a; (0 + z); (2 + z); (1 + z)]))))))).
Definition r_left_LH_a_7 (z a i : nat) : ex := (ESub (r_left_LH_a_6 (0 + z) a i) (ESum (0 + z) 3 (ESum (1 + z) 0 (ESum (2 + z) 2 (EMul (ET 37 [i; (0 + z); (1 + z); (2 + z)]) (ET 50 [a; (0 + z); (1 + z); (2 + z)])))))).
Definition r_left_LH_a_8 (z a i : nat) : ex := (EAdd (r_left_LH_a_7 (0 + z) a i) (ESum (0 + z) 1 (ESum (1 + z) 1 (EMul (r_left_X_a_vv (2 + z) (0 + z) (1 + z)) (ET 8 [(1 + z); i; (0 + z); a]))))).
Definition r_left_LH_a_9 (z a i : nat) : ex := (EAdd (r_left_LH_a_8 (0 + z) a i) (ESum (0 + z) 0 (ESum (1 + z) 0 (EMul (r_left_X_a_oo (2 + z) (0 + z) (1 + z)) (ET 13 [(1 + z); i; (0 + z); a]))))).
Definition r_left_LH_a_10 (z a i : nat) : ex := (EAdd (r_left_LH_a_9 (0 + z) a i) (ESum (0 + z) 3 (ESum (1 + z) 3 (EMul (r_left_X_b_vv (2 + z) (0 + z) (1 + z)) (ET 17 [i; (1 + z); a; (0 + z)]))))).
Definition r_left_LH_a_11 (z a i : nat) : ex := (EAdd (r_left_LH_a_10 (0 + z) a i) (ESum (0 + z) 2 (ESum (1 + z) 2 (EMul (r_left_X_b_oo (2 + z) (0 + z) (1 + z)) (ET 21 [i; (1 + z); a; (0 + z)]))))).
Definition r_left_LH_b (z a i : nat) : ex := (ESum (0 + z) 3 (EMul (ET 15 [(0 + z); a]) (ET 48 [(0 + z); i]))).
Definition r_left_LH_b_1 (z a i : nat) : ex := (ESub (r_left_LH_b (0 + z) a i) (ESum (0 + z) 2 (EMul (ET 19 [i; (0 + z)]) (ET 48 [a; (0 + z)])))).
Definition r_left_LH_b_2 (z a i : nat) : ex := (EAdd (r_left_LH_b_1 (0 + z) a i) (ESum (0 + z) 1 (ESum (1 + z) 0 (EMul (ET 23 [(0 + z); i; (1 + z); a]) (ET 47 [(0 + z); (1 + z)]))))).
Definition r_left_LH_b_3 (z a i : nat) : ex := (EAdd (r_left_LH_b_2 (0 + z) a i) (ESum (0 + z) 3 (ESum (1 + z) 2 (EMul (ET 25 [(0 + z); i; (1 + z); a]) (ET 48 [(0 + z); (1 + z)]))))).
Definition r_left_LH_b_4 (z a i : nat) : ex := (ESub (r_left_LH_b_3 (0 + z) a i) (EScale (1) 2 (ESum (0 + z) 3 (ESum (1 + z) 2 (ESum (2 + z) 2 (EMul (ET 32 [(0 + z); i; (1 + z); (2 + z)]) (ET 51 [a; (0 + z); (2 + z); (1 + z)]))))))).
Definition r_left_LH_b_5 (z a i : nat) : ex := (ESub (r_left_LH_b_4 (0 + z) a i) (ESum (0 + z) 1 (ESum (1 + z) 0 (ESum (2 + z) 2 (EMul (ET 38 [(0 + z); i; (1 + z); (2 + z)]) (ET 50 [(0 + z); a; (1 + z); (2 + z)])))))).
Definition r_left_LH_b_6 (z a i : nat) : ex := (EAdd (r_left_LH_b_5 (0 + z) a i) (ESum (0 + z) 1 (ESum (1 + z) 3 (ESum (2 + z) 0 (EMul (ET 40 [(0 + z); (1 + z); (2 + z); a]) (ET 50 [(0 + z); (1 + z); (2 + z); i])))))).
Definition r_left_LH_b_7 (z a i : nat) : ex := (EAdd (r_left_LH_b_6 (0 + z) a i) (EScale (1) 2 (ESum (0 + z) 3 (ESum (1 + z) 3 (ESum (2 + z) 2 (EMul (ET 33 [(0 + z); (1 + z); (2 + z); a]) (ET 51 [(1 + z); (0 + z); i; (2 + z)]))))))).
Definition r_left_LH_b_8 (z a i : nat) : ex := (EAdd (r_left_LH_b_7 (0 + z) a i) (EAdd (ESum (0 + z) 3 (ESum (1 + z) 3 (EMul (r_left_X_b_vv (2 + z) (0 + z) (1 + z)) (ET 16 [(1 + z); i; (0 + z); a])))) (ESum (0 + z) 2 (ESum (1 + z) 2 (EMul (r_left_X_b_oo (2 + z) (0 + z) (1 + z)) (ET 20 [(1 + z); i; (0 + z); a])))))).
Definition r_left_LH_b_9 (z a i : nat) : ex := (EAdd (r_left_LH_b_8 (0 + z) a i) (EAdd (ESum (0 + z) 1 (ESum (1 + z) 1 (EMul (r_left_X_a_vv (2 + z) (0 + z) (1 + z)) (ET 9 [(1 + z); i; (0 + z); a])))) (ESum (0 + z) 0 (ESum (1 + z) 0 (EMul (r_left_X_a_oo (2 + z) (0 + z) (1 + z)) (ET 14 [(1 + z); i; (0 + z); a])))))).
Definition r_left_LH_aa (z a b i j : nat) : ex := (EScale (1) 2 (ESum (0 + z) 1 (EMul (ET 7 [(0 + z); a]) (ET 49 [(0 + z); b; i; j])))).
Definition r_left_LH_aa_1 (z a b i j : nat) : ex := (ESub (r_left_LH_aa (0 + z) a b i j) (EScale (1) 2 (ESum (0 + z) 0 (EMul (ET 12 [i; (0 + z)]) (ET 49 [a; b; (0 + z); j]))))).
Definition r_left_LH_aa_2 (z a b i j : nat) : ex := (EAdd (r_left_LH_aa_1 (0 + z) a b i j) (EMul (ET 0 [j; b]) (ET 47 [a; i]))).
Definition r_left_LH_aa_3 (z a b i j : nat) : ex := (ESub (r_left_LH_aa_2 (0 + z) a b i j) (EScale (1) 2 (ESum (0 + z) 1 (EMul (r_left_X_a_vv (1 + z) (0 + z) a) (ET 1 [i; j; (0 + z); b]))))).
Definition r_left_LH_aa_4 (z a b i j : nat) : ex := (EAdd (r_left_LH_aa_3 (0 + z) a b i j) (EScale (1) 2 (ESum (0 + z) 0 (EMul (r_left_X_a_oo (1 + z) i (0 + z)) (ET 1 [(0 + z); j; a; b]))))).
Definition r_left_LH_aa_5 (z a b i j : nat) : ex := (EAdd (r_left_LH_aa_4 (0 + z) a b i j) (ESum (0 + z) 1 (ESum (1 + z) 0 (EMul (ET 22 [(0 + z); i; (1 + z); a]) (ET 49 [(0 + z); b; (1 + z); j]))))).
Definition r_left_LH_aa_6 (z a b i j : nat) : ex := (EAdd (r_left_LH_aa_5 (0 + z) a b i j) (ESum (0 + z) 3 (ESum (1 + z) 2 (EMul (ET 26 [i; (0 + z); a; (1 + z)]) (ET 50 [b; (0 + z); j; (1 + z)]))))).
Definition r_left_LH_aa_7 (z a b i j : nat) : ex := (EAdd (r_left_LH_aa_6 (0 + z) a b i j) (EScale (1) 8 (ESum (0 + z) 0 (ESum (1 + z) 0 (EMul (ET 28 [i; j; (0 + z); (1 + z)]) (ET 49 [a; b; (0 + z); (1 + z)])))))).
Definition r_left_LH_aa_8 (z a b i j : nat) : ex := (EAdd (r_left_LH_aa_7 (0 + z) a b i j) (EScale (1) 8 (ESum (0 + z) 1 (ESum (1 + z) 1 (EMul (ET 41 [(0 + z); (1 + z); a; b]) (ET 49 [(0 + z); (1 + z); i; j])))))).
Definition r_left_LH_aa_9 (z a b i j : nat) : ex := (EAdd (r_left_LH_aa_8 (0 + z) a b i j) (EScale (1) 2 (ESum (0 + z) 1 (EMul (ET 8 [(0 + z); j; a; b]) (ET 47 [(0 + z); i]))))).
Definition r_left_LH_aa_10 (z a b i j : nat) : ex := (ESub (r_left_LH_aa_9 (0 + z) a b i j) (EScale (1) 2 (ESum (0 + z) 0 (EMul (ET 13 [i; j; (0 + z); b]) (ET 47 [a; (0 + z)]))))).
Definition r_left_LH_aa_11 (z a b i j : nat) : ex := (ESub (r_left_LH_aa_10 (0 + z) a b i j) (ESub (EAdd (r_left_LH_aa_10 (0 + z) b a i j) (r_left_LH_aa_10 (0 + z) a b j i)) (r_left_LH_aa_10 (0 + z) b a j i))).
Definition r_left_LH_ab (z a b i j : nat) : ex := (EOpp (ESum (0 + z) 0 (EMul (ET 14 [i; j; (0 + z); b]) (ET 47 [a; (0 + z)])))).
Definition r_left_LH_ab_1 (z a b i j : nat) : ex := (ESub (r_left_LH_ab (0 + z) a b i j) (ESum (0 + z) 2 (EMul (ET 21 [i; j; a; (0 + z)]) (ET 48 [b; (0 + z)])))).
Definition r_left_LH_ab_2 (z a b i j : nat) : ex := (EAdd (r_left_LH_ab_1 (0 + z) a b i j) (ESum (0 + z) 1 (EMul (ET 9 [(0 + z); j; a; b]) (ET 47 [(0 + z); i])))).
Definition r_left_LH_ab_3 (z a b i j : nat) : ex := (EAdd (r_left_LH_ab_2 (0 + z) a b i j) (ESum (0 + z) 3 (EMul (ET 17 [i; (0 + z); a; b]) (ET 48 [(0 + z); j])))).
Definition r_left_LH_ab_4 (z a b i j : nat) : ex := (EAdd (r_left_LH_ab_3 (0 + z) a b i j) (ESum (0 + z) 0 (ESum (1 + z) 2 (EMul (ET 34 [i; j; (0 + z); (1 + z)]) (ET 50 [a; b; (0 + z); (1 + z)]))))).
Definition r_left_LH_ab_5 (z a b i j : nat) : ex := (EAdd (r_left_LH_ab_4 (0 + z) a b i j) (ESum (0 + z) 1 (ESum (1 + z) 3 (EMul (ET 43 [(0 + z); (1 + z); a; b]) (ET 50 [(0 + z); (1 + z); i; j]))))).
Definition r_left_LH_ab_6 (z a b i j : nat) : ex := (EAdd (r_left_LH_ab_5 (0 + z) a b i j) (ESum (0 + z) 1 (ESum (1 + z) 0 (EMul (ET 23 [(0 + z); j; (1 + z); b]) (ET 49 [a; (0 + z); i; (1 + z)]))))).
Definition r_left_LH_ab_7 (z a b i j : nat) : ex := (EAdd (r_left_LH_ab_6 (0 + z) a b i j) (ESum (0 + z) 1 (ESum (1 + z) 0 (EMul (ET 22 [(0 + z); i; (1 + z); a]) (ET 50 [(0 + z); b; (1 + z); j]))))).
Definition r_left_LH_ab_8 (z a b i j : nat) : ex := (EAdd (r_left_LH_ab_7 (0 + z) a b i j) (ESum (0 + z) 3 (ESum (1 + z) 2 (EMul (ET 25 [(0 + z); j; (1 + z); b]) (ET 50 [a; (0 + z); i; (1 + z)]))))).
Definition r_left_LH_ab_9 (z a b i j : nat) : ex := (EAdd (r_left_LH_ab_8 (0 + z) a b i j) (ESum (0 + z) 3 (ESum (1 + z) 2 (EMul (ET 26 [i; (0 + z); a; (1 + z)]) (ET 51 [(0 + z); b; (1 + z); j]))))).
Definition r_left_LH_ab_10 (z a b i j : nat) : ex := (ESub (r_left_LH_ab_9 (0 + z) a b i j) (ESum (0 + z) 3 (ESum (1 + z) 0 (EMul (ET 35 [i; (0 + z); (1 + z); b]) (ET 50 [a; (0 + z); (1 + z); j]))))).
Definition r_left_LH_ab_11 (z a b i j : nat) : ex := (ESub (r_left_LH_ab_10 (0 + z) a b i j) (ESum (0 + z) 1 (ESum (1 + z) 2 (EMul (ET 36 [(0 + z); j; a; (1 + z)]) (ET 50 [(0 + z); b; i; (1 + z)]))))).
Definition r_left_LH_ab_12 (z a b i j : nat) : ex := (ESub (r_left_LH_ab_11 (0 + z) a b i j) (ESum (0 + z) 1 (EMul (r_left_X_a_vv (1 + z) (0 + z) a) (ET 3 [i; j; (0 + z); b])))).
Definition r_left_LH_ab_13 (z a b i j : nat) : ex := (EAdd (r_left_LH_ab_12 (0 + z) a b i j) (ESum (0 + z) 0 (EMul (r_left_X_a_oo (1 + z) i (0 + z)) (ET 3 [(0 + z); j; a; b])))).
Definition r_left_LH_ab_14 (z a b i j : nat) : ex := (ESub (r_left_LH_ab_13 (0 + z) a b i j) (ESum (0 + z) 3 (EMul (r_left_X_b_vv (1 + z) (0 + z) b) (ET 3 [i; j; a; (0 + z)])))).
Definition r_left_LH_ab_15 (z a b i j : nat) : ex := (EAdd (r_left_LH_ab_14 (0 + z) a b i j) (ESum (0 + z) 2 (EMul (r_left_X_b_oo (1 + z) j (0 + z)) (ET 3 [i; (0 + z); a; b])))).
Definition r_left_LH_ab_16 (z a b i j : nat) : ex := (EAdd (r_left_LH_ab_15 (0 + z) a b i j) (ESum (0 + z) 1 (EMul (ET 7 [(0 + z); a]) (ET 50 [(0 + z); b; i; j])))).
Definition r_left_LH_ab_17 (z a b i j : nat) : ex := (EAdd (r_left_LH_ab_16 (0 + z) a b i j) (ESum (0 + z) 3 (EMul (ET 15 [(0 + z); b]) (ET 50 [a; (0 + z); i; j])))).
Definition r_left_LH_ab_18 (z a b i j : nat) : ex := (ESub (r_left_LH_ab_17 (0 + z) a b i j) (ESum (0 + z) 0 (EMul (ET 12 [i; (0 + z)]) (ET 50 [a; b; (0 + z); j])))).
Definition r_left_LH_ab_19 (z a b i j : nat) : ex := (ESub (r_left_LH_ab_18 (0 + z) a b i j) (ESum (0 + z) 2 (EMul (ET 19 [j; (0 + z)]) (ET 50 [a; b; i; (0 + z)])))).
Definition r_left_LH_ab_20 (z a b i j : nat) : ex := (EAdd (r_left_LH_ab_19 (0 + z) a b i j) (EMul (ET 5 [j; b]) (ET 47 [a; i]))).
Definition r_left_LH_ab_21 (z a b i j : nat) : ex := (EAdd (r_left_LH_ab_20 (0 + z) a b i j) (EMul (ET 0 [i; a]) (ET 48 [b; j]))).
Definition r_left_LH_bb (z a b i j : nat) : ex := (EScale (1) 2 (ESum (0 + z) 3 (EMul (ET 15 [(0 + z); a]) (ET 51 [(0 + z); b; i; j])))).
Definition r_left_LH_bb_1 (z a b i j : nat) : ex := (ESub (r_left_LH_bb (0 + z) a b i j) (EScale (1) 2 (ESum (0 + z) 2 (EMul (ET 19 [i; (0 + z)]) (ET 51 [a; b; (0 + z); j]))))).
Definition r_left_LH_bb_2 (z a b i j : nat) : ex := (EAdd (r_left_LH_bb_1 (0 + z) a b i j) (EMul (ET 5 [j; b]) (ET 48 [a; i]))).
Definition r_left_LH_bb_3 (z a b i j : nat) : ex := (ESub (r_left_LH_bb_2 (0 + z) a b i j) (EScale (1) 2 (ESum (0 + z) 3 (EMul (r_left_X_b_vv (1 + z) (0 + z) a) (ET 6 [i; j; (0 + z); b]))))).
Definition r_left_LH_bb_4 (z a b i j : nat) : ex := (EAdd (r_left_LH_bb_3 (0 + z) a b i j) (EScale (1) 2 (ESum (0 + z) 2 (EMul (r_left_X_b_oo (1 + z) i (0 + z)) (ET 6 [(0 + z); j; a; b]))))).
Definition r_left_LH_bb_5 (z a b i j : nat) : ex := (EAdd (r_left_LH_bb_4 (0 + z) a b i j) (ESum (0 + z) 3 (ESum (1 + z) 2 (EMul (ET 25 [(0 + z); i; (1 + z); a]) (ET 51 [(0 + z); b; (1 + z); j]))))).
Definition r_left_LH_bb_6 (z a b i j : nat) : ex := (EAdd (r_left_LH_bb_5 (0 + z) a b i j) (ESum (0 + z) 1 (ESum (1 + z) 0 (EMul (ET 23 [(0 + z); i; (1 + z); a]) (ET 50 [(0 + z); b; (1 + z); j]))))).
Definition r_left_LH_bb_7 (z a b i j : nat) : ex := (EAdd (r_left_LH_bb_6 (0 + z) a b i j) (EScale (1) 8 (ESum (0 + z) 2 (ESum (1 + z) 2 (EMul (ET 31 [i; j; (0 + z); (1 + z)]) (ET 51 [a; b; (0 + z); (1 + z)])))))).
Definition r_left_LH_bb_8 (z a b i j : nat) : ex := (EAdd (r_left_LH_bb_7 (0 + z) a b i j) (EScale (1) 8 (ESum (0 + z) 3 (ESum (1 + z) 3 (EMul (ET 45 [(0 + z); (1 + z); a; b]) (ET 51 [(0 + z); (1 + z); i; j])))))).
Definition r_left_LH_bb_9 (z a b i j : nat) : ex := (EAdd (r_left_LH_bb_8 (0 + z) a b i j) (EScale (1) 2 (ESum (0 + z) 3 (EMul (ET 16 [(0 + z); j; a; b]) (ET 48 [(0 + z); i]))))).
Definition r_left_LH_bb_10 (z a b i j : nat) : ex := (ESub (r_left_LH_bb_9 (0 + z) a b i j) (EScale (1) 2 (ESum (0 + z) 2 (EMul (ET 20 [i; j; (0 + z); b]) (ET 48 [a; (0 + z)]))))).
Definition r_left_LH_bb_11 (z a b i j : nat) : ex := (ESub (r_left_LH_bb_10 (0 + z) a b i j) (ESub (EAdd (r_left_LH_bb_10 (0 + z) b a i j) (r_left_LH_bb_10 (0 + z) a b j i)) (r_left_LH_bb_10 (0 + z) b a j i))).
Definition r_rccsd_X_a_ov (z m e : nat) : ex := (EAdd (ET 0 [m; e]) (EAdd (ESum (0 + z) 0 (ESum (1 + z) 1 (EMul (ET 1 [m; (0 + z); e; (1 + z)]) (ET 2 [(1 + z); (0 + z)])))) (ESum (0 + z) 0 (ESum (1 + z) 1 (EMul (ET 3 [m; (0 + z); e; (1 + z)]) (ET 4 [(1 + z); (0 + z)])))))).
Definition r_rccsd_X_a_vv (z a e : nat) : ex := (EAdd (ET 7 [a; e]) (ESub (ESub (EAdd (ESum (0 + z) 0 (ESum (1 + z) 1 (EMul (ET 8 [a; (0 + z); e; (1 + z)]) (ET 2 [(1 + z); (0 + z)])))) (ESum (0 + z) 0 (ESum (1 + z) 1 (EMul (ET 9 [a; (0 + z); e; (1 + z)]) (ET 4 [(1 + z); (0 + z)]))))) (EScale (1) 2 (ESum (0 + z) 0 (ESum (1 + z) 0 (ESum (2 + z) 1 (EMul (ET 1 [(0 + z); (1 + z); e; (2 + z)]) (ET 10 [a; (2 + z); (0 + z); (1 + z)]))))))) (ESum (0 + z) 0 (ESum (1 + z) 0 (ESum (2 + z) 1 (EMul (ET 3 [(0 + z); (1 + z); e; (2 + z)]) (ET 11 [a; (2 + z); (0 + z); (1 + z)]))))))).
Definition r_rccsd_X_a_oo (z m i : nat) : ex := (EAdd (ET 12 [m; i]) (EAdd (EAdd (EAdd (EAdd (ESum (0 + z) 0 (ESum (1 + z) 1 (EMul (ET 13 [m; (0 + z); i; (1 + z)]) (ET 2 [(1 + z); (0 + z)])))) (ESum (0 + z) 0 (ESum (1 + z) 1 (EMul (ET 14 [m; (0 + z); i; (1 + z)]) (ET 4 [(1 + z); (0 + z)]))))) (ESum (0 + z) 1 (EMul (r_rccsd_X_a_ov (1 + z) m (0 + z)) (ET 2 [(0 + z); i])))) (EScale (1) 2 (ESum (0 + z) 0 (ESum (1 + z) 1 (ESum (2 + z) 1 (EMul (ET 1 [m; (0 + z); (1 + z); (2 + z)]) (ET 10 [(1 + z); (2 + z); i; (0 + z)]))))))) (ESum (0 + z) 0 (ESum (1 + z) 1 (ESum (2 + z) 1 (EMul (ET 3 [m; (0 + z); (1 + z); (2 + z)]) (ET 11 [(1 + z); (2 + z); i; (0 + z)]))))))).
Definition r_rccsd_dT_a (z a i : nat) : ex := (EOpp (ESum (0 + z) 0 (EMul (r_rccsd_X_a_oo (1 + z) (0 + z) i) (ET 2 [a; (0 + z)])))).
Definition r_rccsd_dT_a_1 (z a i : nat) : ex := (EAdd (r_rccsd_dT_a (0 + z) a i) (ESum (0 + z) 1 (EMul (r_rccsd_X_a_vv (1 + z) a (0 + z)) (ET 2 [(0 + z); i])))).
Definition r_rccsd_dT_a_2 (z a i : nat) : ex := (EAdd (r_rccsd_dT_a_1 (0 + z) a i) (ESum (0 + z) 0 (ESum (1 + z) 1 (EMul (r_rccsd_X_a_ov (2 + z) (0 + z) (1 + z)) (ET 10 [a; (1 + z); i; (0 + z)]))))).
Definition r_rccsd_dT_a_3 (z a i : nat) : ex := (EAdd (r_rccsd_dT_a_2 (0 + z) a i) (ESum (0 + z) 0 (ESum (1 + z) 1 (EMul (r_rccsd_X_a_ov (2 + z) (0 + z) (1 + z)) (ET 11 [a; (1 + z); i; (0 + z)]))))).
Definition r_rccsd_dT_a_4 (z a i : nat) : ex := (EAdd (r_rccsd_dT_a_3 (0 + z) a i) (ESum (0 + z) 0 (ESum (1 + z) 1 (EMul (ET 22 [a; (0 + z); i; (1 + z)]) (ET 2 [(1 + z); (0 + z)]))))).
Definition r_rccsd_dT_a_5 (z a i : nat) : ex := (EAdd (r_rccsd_dT_a_4 (0 + z) a i) (ESum (0 + z) 0 (ESum (1 + z) 1 (EMul (ET 23 [a; (0 + z); i; (1 + z)]) (ET 4 [(1 + z); (0 + z)]))))).
Definition r_rccsd_dT_a_6 (z a i : nat) : ex := (ESub (r_rccsd_dT_a_5 (0 + z) a i) (EScale (1) 2 (ESum (0 + z) 0 (ESum (1 + z) 0 (ESum (2 + z) 1 (EMul (ET 13 [(0 + z); (1 + z); i; (2 + z)]) (ET 10 [a; (2 + z); (0 + z); (1 + z)]))))))).
Definition r_rccsd_dT_a_7 (z a i : nat) : ex := (ESub (r_rccsd_dT_a_6 (0 + z) a i) (ESum (0 + z) 0 (ESum (1 + z) 0 (ESum (2 + z) 1 (EMul (ET 14 [(0 + z); (1 + z); i; (2 + z)]) (ET 11 [a; (2 + z); (0 + z); (1 + z)])))))).
Definition r_rccsd_dT_a_8 (z a i : nat) : ex := (EAdd (r_rccsd_dT_a_7 (0 + z) a i) (EScale (1) 2 (ESum (0 + z) 0 (ESum (1 + z) 1 (ESum (2 + z) 1 (EMul (ET 8 [a; (0 + z); (1 + z); (2 + z)]) (ET 10 [(1 + z); (2 + z); i; (0 + z)]))))))).
Definition r_rccsd_dT_a_9 (z a i : nat) : ex := (EAdd (r_rccsd_dT_a_8 (0 + z) a i) (ESum (0 + z) 0 (ESum (1 + z) 1 (ESum (2 + z) 1 (EMul (ET 9 [a; (0 + z); (1 + z); (2 + z)]) (ET 11 [(1 + z); (2 + z); i; (0 + z)])))))).
Definition r_rccsd_res_a (z a i : nat) : ex := (EAdd (r_rccsd_dT_a_9 (0 + z) a i) (ET 24 [a; i])).
Definition r_rccsd_T_b (z a i : nat) : ex := (ET 2 [a; i]).
Definition r_rccsd_dT_b (z a i : nat) : ex := (r_rccsd_res_a (0 + z) a i).
Definition r_rccsd_X_a_vv_1 (z a e : nat) : ex := (ESub (r_rccsd_X_a_vv (0 + z) a e) (ESum (0 + z) 0 (EMul (r_rccsd_X_a_ov (1 + z) (0 + z) e) (ET 2 [a; (0 + z)])))).
Definition r_rccsd_X_aa_ooov (z m n i e : nat) : ex := (ESum (0 + z) 1 (EMul (ET 1 [m; n; (0 + z); e]) (ET 2 [(0 + z); i]))).
Definition r_rccsd_X_aa_vovv (z a m e f : nat) : ex := (EOpp (ESum (0 + z) 0 (EMul (ET 1 [m; (0 + z); f; e]) (ET 2 [a; (0 + z)])))).
Definition r_rccsd_X_aa_oooo (z m n i j : nat) : ex := (EAdd (EScale (1) 2 (ET 28 [m; n; i; j])) (ESum (0 + z) 1 (EMul (EAdd (ET 13 [n; m; j; (0 + z)]) (EScale (1) 2 (r_rccsd_X_aa_ooov (1 + z) n m j (0 + z)))) (ET 2 [(0 + z); i])))).
Definition r_rccsd_X_aa_oooo_1 (z m n i j : nat) : ex := (ESub (r_rccsd_X_aa_oooo (0 + z) m n i j) (r_rccsd_X_aa_oooo (0 + z) m n j i)).
Definition r_rccsd_X_aa_voov (z a m i e : nat) : ex := (EAdd (ET 22 [a; m; i; e]) (ESub (ESum (0 + z) 1 (EMul (EAdd (ET 8 [a; m; (0 + z); e]) (EScale (1) 2 (r_rccsd_X_aa_vovv (1 + z) a m (0 + z) e))) (ET 2 [(0 + z); i]))) (ESum (0 + z) 0 (EMul (EAdd (ET 13 [(0 + z); m; i; e]) (EScale (1) 2 (r_rccsd_X_aa_ooov (1 + z) (0 + z) m i e))) (ET 2 [a; (0 + z)]))))).
Definition r_rccsd_L_amie (z a m i f : nat) : ex := (EAdd (ET 22 [a; m; i; f]) (EScale (1) 2 (ESum (0 + z) 1 (EMul (ET 8 [a; m; (0 + z); f]) (ET 2 [(0 + z); i]))))).
Definition r_rccsd_X_mnij (z m n i j : nat) : ex := (EAdd (ET 28 [m; n; i; j]) (ESum (0 + z) 1 (EMul (r_rccsd_X_aa_ooov (1 + z) m n i (0 + z)) (ET 2 [(0 + z); j])))).
Definition r_rccsd_X_aa_vooo (z a m i j : nat) : ex := (EAdd (EScale (1) 2 (ET 29 [a; m; i; j])) (ESub (ESum (0 + z) 1 (EMul (r_rccsd_L_amie (1 + z) a m i (0 + z)) (ET 2 [(0 + z); j]))) (EScale (1) 4 (ESum (0 + z) 0 (EMul (r_rccsd_X_mnij (1 + z) (0 + z) m i j) (ET 2 [a; (0 + z)])))))).
Definition r_rccsd_X_aa_vooo_1 (z a m i j : nat) : ex := (ESub (r_rccsd_X_aa_vooo (0 + z) a m i j) (r_rccsd_X_aa_vooo (0 + z) a m j i)).
Definition r_rccsd_L_amie_1 (z a n i e : nat) : ex := (ESum (0 + z) 0 (EMul (ET 13 [(0 + z); n; i; e]) (ET 2 [a; (0 + z)]))).
Definition r_rccsd_X_aa_vvov (z a b i e : nat) : ex := (EAdd (ET 30 [a; b; i; e]) (ESum (0 + z) 0 (EMul (r_rccsd_L_amie_1 (1 + z) a (0 + z) i e) (ET 2 [b; (0 + z)])))).
Definition r_rccsd_X_ab_ooov (z m n i e : nat) : ex := (ESum (0 + z) 1 (EMul (ET 3 [m; n; (0 + z); e]) (ET 2 [(0 + z); i]))).
Definition r_rccsd_X_ab_oovo (z n m e i : nat) : ex := (ESum (0 + z) 1 (EMul (ET 3 [n; m; e; (0 + z)]) (r_rccsd_T_b (1 + z) (0 + z) i))).
Definition r_rccsd_X_ab_oooo (z m n i j : nat) : ex := (EAdd (ET 34 [m; n; i; j]) (EAdd (ESum (0 + z) 1 (EMul (EAdd (ET 21 [m; n; (0 + z); j]) (EScale (1) 2 (r_rccsd_X_ab_oovo (1 + z) m n (0 + z) j))) (ET 2 [(0 + z); i]))) (ESum (0 + z) 1 (EMul (EAdd (ET 14 [m; n; i; (0 + z)]) (EScale (1) 2 (r_rccsd_X_ab_ooov (1 + z) m n i (0 + z)))) (r_rccsd_T_b (2 + z) (0 + z) j))))).
Definition r_rccsd_X_ab_vovv (z a m e f : nat) : ex := (EOpp (ESum (0 + z) 0 (EMul (ET 3 [(0 + z); m; e; f]) (ET 2 [a; (0 + z)])))).
Definition r_rccsd_X_ab_ovvv (z m a e f : nat) : ex := (EOpp (ESum (0 + z) 0 (EMul (ET 3 [m; (0 + z); e; f]) (r_rccsd_T_b (1 + z) a (0 + z))))).
Definition r_rccsd_X_ab_voov (z a m i e : nat) : ex := (EAdd (ET 23 [a; m; i; e]) (ESub (ESum (0 + z) 1 (EMul (EAdd (ET 9 [a; m; (0 + z); e]) (EScale (1) 2 (r_rccsd_X_ab_vovv (1 + z) a m (0 + z) e))) (ET 2 [(0 + z); i]))) (ESum (0 + z) 0 (EMul (EAdd (ET 14 [(0 + z); m; i; e]) (EScale (1) 2 (r_rccsd_X_ab_ooov (1 + z) (0 + z) m i e))) (ET 2 [a; (0 + z)]))))).
Definition r_rccsd_X_ab_ovvo (z m a e i : nat) : ex := (EAdd (ET 26 [m; a; e; i]) (ESub (ESum (0 + z) 1 (EMul (EAdd (ET 17 [m; a; e; (0 + z)]) (EScale (1) 2 (r_rccsd_X_ab_ovvv (1 + z) m a e (0 + z)))) (r_rccsd_T_b (2 + z) (0 + z) i))) (ESum (0 + z) 0 (EMul (EAdd (ET 21 [m; (0 + z); e; i]) (EScale (1) 2 (r_rccsd_X_ab_oovo (1 + z) m (0 + z) e i))) (r_rccsd_T_b (2 + z) a (0 + z)))))).
Definition r_rccsd_X_ab_ovov (z m a i e : nat) : ex := (EAdd (ET 35 [m; a; i; e]) (ESub (ESum (0 + z) 1 (EMul (EAdd (ET 17 [m; a; (0 + z); e]) (EScale (1) 2 (r_rccsd_X_ab_ovvv (1 + z) m a (0 + z) e))) (ET 2 [(0 + z); i]))) (ESum (0 + z) 0 (EMul (EAdd (ET 14 [m; (0 + z); i; e]) (EScale (1) 2 (r_rccsd_X_ab_ooov (1 + z) m (0 + z) i e))) (r_rccsd_T_b (2 + z) a (0 + z)))))).
Definition r_rccsd_X_ab_vovo (z a m e i : nat) : ex := (ESub (ET 36 [a; m; e; i]) (ESub (ESum (0 + z) 0 (EMul (EAdd (ET 21 [(0 + z); m; e; i]) (EScale (1) 2 (r_rccsd_X_ab_oovo (1 + z) (0 + z) m e i))) (ET 2 [a; (0 + z)]))) (ESum (0 + z) 1 (EMul (EAdd (ET 9 [a; m; e; (0 + z)]) (EScale (1) 2 (r_rccsd_X_ab_vovv (1 + z) a m e (0 + z)))) (r_rccsd_T_b (2 + z) (0 + z) i))))).
Definition r_rccsd_X_mnij_1 (z m n i j : nat) : ex := (EAdd (ET 34 [m; n; i; j]) (EAdd (ESum (0 + z) 1 (EMul (ET 14 [m; n; i; (0 + z)]) (r_rccsd_T_b (1 + z) (0 + z) j))) (ESum (0 + z) 1 (EMul (ET 21 [m; n; (0 + z); j]) (ET 2 [(0 + z); i]))))).
Definition r_rccsd_L_mbej (z m b e j : nat) : ex := (EAdd (ET 26 [m; b; e; j]) (ESum (0 + z) 1 (EMul (ET 17 [m; b; e; (0 + z)]) (r_rccsd_T_b (1 + z) (0 + z) j)))).
Definition r_rccsd_X_ab_ovoo (z m b i j : nat) : ex := (EAdd (ET 37 [m; b; i; j]) (ESub (ESum (0 + z) 1 (EMul (r_rccsd_L_mbej (1 + z) m b (0 + z) j) (ET 2 [(0 + z); i]))) (ESum (0 + z) 0 (EMul (r_rccsd_X_mnij_1 (1 + z) m (0 + z) i j) (r_rccsd_T_b (2 + z) b (0 + z)))))).
Definition r_rccsd_L_amie_2 (z a m i f : nat) : ex := (ESum (0 + z) 1 (EMul (EAdd (ET 9 [a; m; (0 + z); f]) (r_rccsd_X_ab_vovv (1 + z) a m (0 + z) f)) (ET 2 [(0 + z); i]))).
Definition r_rccsd_X_ab_vooo (z a m i j : nat) : ex := (EAdd (ET 38 [a; m; i; j]) (ESum (0 + z) 1 (EMul (EAdd (ET 23 [a; m; i; (0 + z)]) (r_rccsd_L_amie_2 (1 + z) a m i (0 + z))) (r_rccsd_T_b (3 + z) (0 + z) j)))).
Definition r_rccsd_X_ab_vvvo (z a b e j : nat) : ex := (ESub (ET 39 [a; b; e; j]) (ESum (0 + z) 0 (EMul (ET 36 [a; (0 + z); e; j]) (r_rccsd_T_b (1 + z) b (0 + z))))).
Definition r_rccsd_X_ab_vvov (z a b i e : nat) : ex := (ESub (ET 40 [a; b; i; e]) (ESum (0 + z) 0 (EMul (ET 35 [(0 + z); b; i; e]) (ET 2 [a; (0 + z)])))).
Definition r_rccsd_I2A_voov (z a m i e : nat) : ex := (EAdd (r_rccsd_X_aa_voov (0 + z) a m i e) (EAdd (EScale (1) 2 (ESum (0 + z) 0 (ESum (1 + z) 1 (EMul (ET 1 [m; (0 + z); e; (1 + z)]) (ET 10 [a; (1 + z); i; (0 + z)]))))) (ESum (0 + z) 0 (ESum (1 + z) 1 (EMul (ET 3 [m; (0 + z); e; (1 + z)]) (ET 11 [a; (1 + z); i; (0 + z)])))))).
Definition r_rccsd_I2A_oooo (z m n i j : nat) : ex := (EAdd (r_rccsd_X_aa_oooo_1 (0 + z) m n i j) (EScale (1) 2 (ESum (0 + z) 1 (ESum (1 + z) 1 (EMul (ET 1 [m; n; (0 + z); (1 + z)]) (ET 10 [(0 + z); (1 + z); i; j])))))).
Definition r_rccsd_I2B_voov (z a m i e : nat) : ex := (EAdd (r_rccsd_X_ab_voov (0 + z) a m i e) (EScale (1) 2 (ESum (0 + z) 0 (ESum (1 + z) 1 (EMul (ET 6 [m; (0 + z); e; (1 + z)]) (ET 11 [a; (1 + z); i; (0 + z)])))))).
Definition r_rccsd_I2A_vooo (z a m i j : nat) : ex := (EAdd (r_rccsd_X_aa_vooo_1 (0 + z) a m i j) (EScale (1) 2 (ESum (0 + z) 1 (ESum (1 + z) 1 (EMul (EAdd (ET 8 [a; m; (0 + z); (1 + z)]) (EScale (1) 2 (r_rccsd_X_aa_vovv (2 + z) a m (0 + z) (1 + z)))) (ET 10 [(0 + z); (1 + z); i; j])))))).
Definition r_rccsd_tau (z a b i j : nat) : ex := (EAdd (EScale (1) 2 (ET 10 [a; b; i; j])) (EMul (ET 2 [a; i]) (ET 2 [b; j]))).
Definition r_rccsd_dT_aa (z a b i j : nat) : ex := (EScale (-1) 2 (ESum (0 + z) 0 (EMul (r_rccsd_I2A_vooo (1 + z) a (0 + z) i j) (ET 2 [b; (0 + z)])))).
Definition r_rccsd_dT_aa_1 (z a b i j : nat) : ex := (EAdd (r_rccsd_dT_aa (0 + z) a b i j) (EScale (1) 2 (ESum (0 + z) 1 (EMul (r_rccsd_X_aa_vvov (1 + z) a b i (0 + z)) (ET 2 [(0 + z); j]))))).
Definition r_rccsd_dT_aa_2 (z a b i j : nat) : ex := (EAdd (r_rccsd_dT_aa_1 (0 + z) a b i j) (EScale (1) 2 (ESum (0 + z) 1 (EMul (r_rccsd_X_a_vv_1 (1 + z) a (0 + z)) (ET 10 [(0 + z); b; i; j]))))).
Definition r_rccsd_dT_aa_3 (z a b i j : nat) : ex := (ESub (r_rccsd_dT_aa_2 (0 + z) a b i j) (EScale (1) 2 (ESum (0 + z) 0 (EMul (r_rccsd_X_a_oo (1 + z) (0 + z) i) (ET 10 [a; b; (0 + z); j]))))).
Definition r_rccsd_dT_aa_4 (z a b i j : nat) : ex := (EAdd (r_rccsd_dT_aa_3 (0 + z) a b i j) (ESum (0 + z) 0 (ESum (1 + z) 1 (EMul (r_rccsd_I2A_voov (2 + z) a (0 + z) i (1 + z)) (ET 10 [(1 + z); b; (0 + z); j]))))).
Definition r_rccsd_dT_aa_5 (z a b i j : nat) : ex := (EAdd (r_rccsd_dT_aa_4 (0 + z) a b i j) (ESum (0 + z) 0 (ESum (1 + z) 1 (EMul (r_rccsd_I2B_voov (2 + z) a (0 + z) i (1 + z)) (ET 11 [b; (1 + z); j; (0 + z)]))))).
Definition r_rccsd_dT_aa_6 (z a b i j : nat) : ex := (EAdd (r_rccsd_dT_aa_5 (0 + z) a b i j) (EScale (1) 8 (ESum (0 + z) 0 (ESum (1 + z) 0 (EMul (r_rccsd_I2A_oooo (2 + z) (0 + z) (1 + z) i j) (ET 10 [a; b; (0 + z); (1 + z)])))))).
Definition r_rccsd_dT_aa_7 (z a b i j : nat) : ex := (EAdd (r_rccsd_dT_aa_6 (0 + z) a b i j) (EScale (1) 4 (ESum (0 + z) 1 (ESum (1 + z) 1 (EMul (ET 41 [a; b; (0 + z); (1 + z)]) (r_rccsd_tau (2 + z) (0 + z) (1 + z) i j)))))).
Definition r_rccsd_res_aa (z a b i j : nat) : ex := (EAdd (r_rccsd_dT_aa_7 (0 + z) a b i j) (EScale (1) 4 (ET 42 [a; b; i; j]))).
Definition r_rccsd_I2A_voov_1 (z a m i e : nat) : ex := (EAdd (r_rccsd_X_aa_voov (0 + z) a m i e) (EAdd (ESum (0 + z) 0 (ESum (1 + z) 1 (EMul (ET 1 [(0 + z); m; (1 + z); e]) (ET 10 [a; (1 + z); i; (0 + z)])))) (ESum (0 + z) 0 (ESum (1 + z) 1 (EMul (ET 3 [m; (0 + z); e; (1 + z)]) (ET 11 [a; (1 + z); i; (0 + z)])))))).
Definition r_rccsd_I2B_voov_1 (z a m i e : nat) : ex := (EAdd (r_rccsd_X_ab_voov (0 + z) a m i e) (EAdd (ESum (0 + z) 0 (ESum (1 + z) 1 (EMul (ET 3 [(0 + z); m; (1 + z); e]) (ET 10 [a; (1 + z); i; (0 + z)])))) (ESum (0 + z) 0 (ESum (1 + z) 1 (EMul (ET 6 [(0 + z); m; (1 + z); e]) (ET 11 [a; (1 + z); i; (0 + z)])))))).
Definition r_rccsd_I2B_oooo (z m n i j : nat) : ex := (EAdd (r_rccsd_X_ab_oooo (0 + z) m n i j) (ESum (0 + z) 1 (ESum (1 + z) 1 (EMul (ET 3 [m; n; (0 + z); (1 + z)]) (ET 11 [(0 + z); (1 + z); i; j]))))).
Definition r_rccsd_I2B_vovo (z a m e i : nat) : ex := (ESub (r_rccsd_X_ab_vovo (0 + z) a m e i) (ESum (0 + z) 0 (ESum (1 + z) 1 (EMul (ET 3 [(0 + z); m; e; (1 + z)]) (ET 11 [a; (1 + z); (0 + z); i]))))).
Definition r_rccsd_I2B_ovoo (z m b i j : nat) : ex := (EAdd (r_rccsd_X_ab_ovoo (0 + z) m b i j) (ESum (0 + z) 1 (ESum (1 + z) 1 (EMul (EAdd (ET 17 [m; b; (0 + z); (1 + z)]) (EScale (1) 2 (r_rccsd_X_ab_ovvv (2 + z) m b (0 + z) (1 + z)))) (ET 11 [(0 + z); (1 + z); i; j]))))).
Definition r_rccsd_I2B_vooo (z a m i j : nat) : ex := (EAdd (r_rccsd_X_ab_vooo (0 + z) a m i j) (ESum (0 + z) 1 (ESum (1 + z) 1 (EMul (EAdd (ET 9 [a; m; (0 + z); (1 + z)]) (EScale (1) 2 (r_rccsd_X_ab_vovv (2 + z) a m (0 + z) (1 + z)))) (ET 11 [(0 + z); (1 + z); i; j]))))).
Definition r_rccsd_tau_1 (z a b i j : nat) : ex := (EAdd (ET 11 [a; b; i; j]) (EMul (ET 2 [a; i]) (r_rccsd_T_b (0 + z) b j))).
Definition r_rccsd_dT_ab (z a b i j : nat) : ex := (EOpp (ESum (0 + z) 0 (EMul (r_rccsd_I2B_ovoo (1 + z) (0 + z) b i j) (ET 2 [a; (0 + z)])))).
Definition r_rccsd_dT_ab_1 (z a b i j : nat) : ex := (ESub (r_rccsd_dT_ab (0 + z) a b i j) (ESum (0 + z) 0 (EMul (r_rccsd_I2B_vooo (1 + z) a (0 + z) i j) (r_rccsd_T_b (4 + z) b (0 + z))))).
Definition r_rccsd_dT_ab_2 (z a b i j : nat) : ex := (EAdd (r_rccsd_dT_ab_1 (0 + z) a b i j) (ESum (0 + z) 1 (EMul (r_rccsd_X_ab_vvvo (1 + z) a b (0 + z) j) (ET 2 [(0 + z); i])))).
Definition r_rccsd_dT_ab_3 (z a b i j : nat) : ex := (EAdd (r_rccsd_dT_ab_2 (0 + z) a b i j) (ESum (0 + z) 1 (EMul (r_rccsd_X_ab_vvov (1 + z) a b i (0 + z)) (r_rccsd_T_b (2 + z) (0 + z) j)))).
Definition r_rccsd_dT_ab_4 (z a b i j : nat) : ex := (EAdd (r_rccsd_dT_ab_3 (0 + z) a b i j) (ESum (0 + z) 1 (EMul (r_rccsd_X_a_vv_1 (1 + z) a (0 + z)) (ET 11 [(0 + z); b; i; j])))).
Definition r_rccsd_dT_ab_5 (z a b i j : nat) : ex := (EAdd (r_rccsd_dT_ab_4 (0 + z) a b i j) (ESum (0 + z) 1 (EMul (r_rccsd_X_a_vv_1 (1 + z) b (0 + z)) (ET 11 [a; (0 + z); i; j])))).
Definition r_rccsd_dT_ab_6 (z a b i j : nat) : ex := (ESub (r_rccsd_dT_ab_5 (0 + z) a b i j) (ESum (0 + z) 0 (EMul (r_rccsd_X_a_oo (1 + z) (0 + z) i) (ET 11 [a; b; (0 + z); j])))).
Definition r_rccsd_dT_ab_7 (z a b i j : nat) : ex := (ESub (r_rccsd_dT_ab_6 (0 + z) a b i j) (ESum (0 + z) 0 (EMul (r_rccsd_X_a_oo (1 + z) (0 + z) j) (ET 11 [a; b; i; (0 + z)])))).
Definition r_rccsd_dT_ab_8 (z a b i j : nat) : ex := (EAdd (r_rccsd_dT_ab_7 (0 + z) a b i j) (ESum (0 + z) 0 (ESum (1 + z) 1 (EMul (r_rccsd_I2A_voov_1 (2 + z) a (0 + z) i (1 + z)) (ET 11 [(1 + z); b; (0 + z); j]))))).
Definition r_rccsd_dT_ab_9 (z a b i j : nat) : ex := (EAdd (r_rccsd_dT_ab_8 (0 + z) a b i j) (ESum (0 + z) 0 (ESum (1 + z) 1 (EMul (r_rccsd_I2B_voov_1 (2 + z) a (0 + z) i (1 + z)) (ET 18 [(1 + z); b; (0 + z); j]))))).
Definition r_rccsd_dT_ab_10 (z a b i j : nat) : ex := (EAdd (r_rccsd_dT_ab_9 (0 + z) a b i j) (ESum (0 + z) 0 (ESum (1 + z) 1 (EMul (r_rccsd_X_ab_ovvo (2 + z) (0 + z) b (1 + z) j) (ET 10 [a; (1 + z); i; (0 + z)]))))).
Definition r_rccsd_dT_ab_11 (z a b i j : nat) : ex := (EAdd (r_rccsd_dT_ab_10 (0 + z) a b i j) (ESum (0 + z) 0 (ESum (1 + z) 1 (EMul (r_rccsd_X_aa_voov (2 + z) b (0 + z) j (1 + z)) (ET 11 [a; (1 + z); i; (0 + z)]))))).
Definition r_rccsd_dT_ab_12 (z a b i j : nat) : ex := (ESub (r_rccsd_dT_ab_11 (0 + z) a b i j) (ESum (0 + z) 0 (ESum (1 + z) 1 (EMul (r_rccsd_X_ab_ovov (2 + z) (0 + z) b i (1 + z)) (ET 11 [a; (1 + z); (0 + z); j]))))).
Definition r_rccsd_dT_ab_13 (z a b i j : nat) : ex := (ESub (r_rccsd_dT_ab_12 (0 + z) a b i j) (ESum (0 + z) 0 (ESum (1 + z) 1 (EMul (r_rccsd_I2B_vovo (2 + z) a (0 + z) (1 + z) j) (ET 11 [(1 + z); b; i; (0 + z)]))))).
Definition r_rccsd_dT_ab_14 (z a b i j : nat) : ex := (EAdd (r_rccsd_dT_ab_13 (0 + z) a b i j) (ESum (0 + z) 0 (ESum (1 + z) 0 (EMul (r_rccsd_I2B_oooo (2 + z) (0 + z) (1 + z) i j) (ET 11 [a; b; (0 + z); (1 + z)]))))).
Definition r_rccsd_dT_ab_15 (z a b i j : nat) : ex := (EAdd (r_rccsd_dT_ab_14 (0 + z) a b i j) (ESum (0 + z) 1 (ESum (1 + z) 1 (EMul (ET 43 [a; b; (0 + z); (1 + z)]) (r_rccsd_tau_1 (2 + z) (0 + z) (1 + z) i j))))).
Definition r_rccsd_res_ab (z a b i j : nat) : ex := (EAdd (r_rccsd_dT_ab_15 (0 + z) a b i j) (ET 44 [a; b; i; j])).
Definition r_rccsd_T_bb (z a b i j : nat) : ex := (ET 10 [a; b; i; j]).
Definition r_rccsd_dT_bb (z a b i j : nat) : ex := (r_rccsd_res_aa (0 + z) a b i j).
Definition r_rccd_I1A_oo (z m i : nat) : ex := (EAdd (EAdd (ET 12 [m; i]) (EScale (1) 2 (ESum (0 + z) 0 (ESum (1 + z) 1 (ESum (2 + z) 1 (EMul (ET 1 [m; (0 + z); (1 + z); (2 + z)]) (ET 10 [(1 + z); (2 + z); i; (0 + z)]))))))) (ESum (0 + z) 0 (ESum (1 + z) 1 (ESum (2 + z) 1 (EMul (ET 3 [m; (0 + z); (1 + z); (2 + z)]) (ET 11 [(1 + z); (2 + z); i; (0 + z)])))))).
Definition r_rccd_I1A_vv (z a e : nat) : ex := (ESub (ESub (ET 7 [a; e]) (EScale (1) 2 (ESum (0 + z) 0 (ESum (1 + z) 0 (ESum (2 + z) 1 (EMul (ET 1 [(0 + z); (1 + z); e; (2 + z)]) (ET 10 [a; (2 + z); (0 + z); (1 + z)]))))))) (ESum (0 + z) 0 (ESum (1 + z) 0 (ESum (2 + z) 1 (EMul (ET 3 [(0 + z); (1 + z); e; (2 + z)]) (ET 11 [a; (2 + z); (0 + z); (1 + z)])))))).
Definition r_rccd_I2A_voov (z a m i e : nat) : ex := (EAdd (EAdd (ET 22 [a; m; i; e]) (EScale (1) 2 (ESum (0 + z) 0 (ESum (1 + z) 1 (EMul (ET 1 [m; (0 + z); e; (1 + z)]) (ET 10 [a; (1 + z); i; (0 + z)])))))) (ESum (0 + z) 0 (ESum (1 + z) 1 (EMul (ET 3 [m; (0 + z); e; (1 + z)]) (ET 11 [a; (1 + z); i; (0 + z)]))))).
Definition r_rccd_I2A_oooo (z m n i j : nat) : ex := (EAdd (ET 28 [m; n; i; j]) (EScale (1) 2 (ESum (0 + z) 1 (ESum (1 + z) 1 (EMul (ET 1 [m; n; (0 + z); (1 + z)]) (ET 10 [(0 + z); (1 + z); i; j])))))).
Definition r_rccd_I2B_voov (z a m i e : nat) : ex := (EAdd (ET 23 [a; m; i; e]) (EScale (1) 2 (ESum (0 + z) 0 (ESum (1 + z) 1 (EMul (ET 6 [m; (0 + z); e; (1 + z)]) (ET 11 [a; (1 + z); i; (0 + z)])))))).
Definition r_rccd_dT_aa (z a b i j : nat) : ex := (EScale (1) 2 (ESum (0 + z) 1 (EMul (r_rccd_I1A_vv (1 + z) a (0 + z)) (ET 10 [(0 + z); b; i; j])))).
Definition r_rccd_dT_aa_1 (z a b i j : nat) : ex := (ESub (r_rccd_dT_aa (0 + z) a b i j) (EScale (1) 2 (ESum (0 + z) 0 (EMul (r_rccd_I1A_oo (1 + z) (0 + z) i) (ET 10 [a; b; (0 + z); j]))))).
Definition r_rccd_dT_aa_2 (z a b i j : nat) : ex := (EAdd (r_rccd_dT_aa_1 (0 + z) a b i j) (ESum (0 + z) 0 (ESum (1 + z) 1 (EMul (r_rccd_I2A_voov (2 + z) a (0 + z) i (1 + z)) (ET 10 [(1 + z); b; (0 + z); j]))))).
Definition r_rccd_dT_aa_3 (z a b i j : nat) : ex := (EAdd (r_rccd_dT_aa_2 (0 + z) a b i j) (ESum (0 + z) 0 (ESum (1 + z) 1 (EMul (r_rccd_I2B_voov (2 + z) a (0 + z) i (1 + z)) (ET 11 [b; (1 + z); j; (0 + z)]))))).
Definition r_rccd_dT_aa_4 (z a b i j : nat) : ex := (EAdd (r_rccd_dT_aa_3 (0 + z) a b i j) (EScale (1) 8 (ESum (0 + z) 1 (ESum (1 + z) 1 (EMul (ET 41 [a; b; (0 + z); (1 + z)]) (ET 10 [(0 + z); (1 + z); i; j])))))).
Definition r_rccd_dT_aa_5 (z a b i j : nat) : ex := (EAdd (r_rccd_dT_aa_4 (0 + z) a b i j) (EScale (1) 8 (ESum (0 + z) 0 (ESum (1 + z) 0 (EMul (r_rccd_I2A_oooo (2 + z) (0 + z) (1 + z) i j) (ET 10 [a; b; (0 + z); (1 + z)])))))).
Definition r_rccd_res_aa (z a b i j : nat) : ex := (EAdd (r_rccd_dT_aa_5 (0 + z) a b i j) (EScale (1) 4 (ET 42 [a; b; i; j]))).
Definition r_rccd_I1A_vv_1 (z a e : nat) : ex := (ESub (ESub (ET 7 [a; e]) (EScale (1) 2 (ESum (0 + z) 0 (ESum (1 + z) 0 (ESum (2 + z) 1 (EMul (ET 1 [(0 + z); (1 + z); e; (2 + z)]) (ET 10 [a; (2 + z); (0 + z); (1 + z)]))))))) (ESum (0 + z) 0 (ESum (1 + z) 0 (ESum (2 + z) 1 (EMul (ET 3 [(0 + z); (1 + z); e; (2 + z)]) (ET 11 [a; (2 + z); (0 + z); (1 + z)])))))).
Definition r_rccd_I1B_vv (z b e : nat) : ex := (ESub (ESub (ET 15 [b; e]) (ESum (0 + z) 0 (ESum (1 + z) 0 (ESum (2 + z) 1 (EMul (ET 3 [(0 + z); (1 + z); (2 + z); e]) (ET 11 [(2 + z); b; (0 + z); (1 + z)])))))) (EScale (1) 2 (ESum (0 + z) 0 (ESum (1 + z) 0 (ESum (2 + z) 1 (EMul (ET 6 [(0 + z); (1 + z); e; (2 + z)]) (ET 18 [(2 + z); b; (1 + z); (0 + z)]))))))).
Definition r_rccd_I1A_oo_1 (z m i : nat) : ex := (EAdd (EAdd (ET 12 [m; i]) (EScale (1) 2 (ESum (0 + z) 0 (ESum (1 + z) 1 (ESum (2 + z) 1 (EMul (ET 1 [m; (0 + z); (1 + z); (2 + z)]) (ET 10 [(1 + z); (2 + z); i; (0 + z)]))))))) (ESum (0 + z) 0 (ESum (1 + z) 1 (ESum (2 + z) 1 (EMul (ET 3 [m; (0 + z); (1 + z); (2 + z)]) (ET 11 [(1 + z); (2 + z); i; (0 + z)])))))).
Definition r_rccd_I1B_oo (z m j : nat) : ex := (EAdd (EAdd (ET 19 [m; j]) (ESum (0 + z) 0 (ESum (1 + z) 1 (ESum (2 + z) 1 (EMul (ET 3 [(0 + z); m; (1 + z); (2 + z)]) (ET 11 [(1 + z); (2 + z); (0 + z); j])))))) (EScale (1) 2 (ESum (0 + z) 0 (ESum (1 + z) 1 (ESum (2 + z) 1 (EMul (ET 6 [m; (0 + z); (1 + z); (2 + z)]) (ET 18 [(1 + z); (2 + z); j; (0 + z)]))))))).
Definition r_rccd_I2A_voov_1 (z a n i f : nat) : ex := (EAdd (EAdd (ET 22 [a; n; i; f]) (ESum (0 + z) 0 (ESum (1 + z) 1 (EMul (ET 1 [(0 + z); n; (1 + z); f]) (ET 10 [a; (1 + z); i; (0 + z)]))))) (ESum (0 + z) 0 (ESum (1 + z) 1 (EMul (ET 3 [n; (0 + z); f; (1 + z)]) (ET 11 [a; (1 + z); i; (0 + z)]))))).
Definition r_rccd_I2B_voov_1 (z a n i f : nat) : ex := (EAdd (EAdd (ET 23 [a; n; i; f]) (ESum (0 + z) 0 (ESum (1 + z) 1 (EMul (ET 3 [(0 + z); n; (1 + z); f]) (ET 10 [a; (1 + z); i; (0 + z)]))))) (ESum (0 + z) 0 (ESum (1 + z) 1 (EMul (ET 6 [(0 + z); n; (1 + z); f]) (ET 11 [a; (1 + z); i; (0 + z)]))))).
Definition r_rccd_I2B_oooo (z m n i j : nat) : ex := (EAdd (ET 34 [m; n; i; j]) (ESum (0 + z) 1 (ESum (1 + z) 1 (EMul (ET 3 [m; n; (0 + z); (1 + z)]) (ET 11 [(0 + z); (1 + z); i; j]))))).
Definition r_rccd_I2B_vovo (z a n e j : nat) : ex := (ESub (ET 36 [a; n; e; j]) (ESum (0 + z) 0 (ESum (1 + z) 1 (EMul (ET 3 [(0 + z); n; e; (1 + z)]) (ET 11 [a; (1 + z); (0 + z); j]))))).
Definition r_rccd_dT_ab (z a b i j : nat) : ex := (ESum (0 + z) 1 (EMul (r_rccd_I1A_vv_1 (1 + z) a (0 + z)) (ET 11 [(0 + z); b; i; j]))).
Definition r_rccd_dT_ab_1 (z a b i j : nat) : ex := (EAdd (r_rccd_dT_ab (0 + z) a b i j) (ESum (0 + z) 1 (EMul (r_rccd_I1B_vv (1 + z) b (0 + z)) (ET 11 [a; (0 + z); i; j])))).
Definition r_rccd_dT_ab_2 (z a b i j : nat) : ex := (ESub (r_rccd_dT_ab_1 (0 + z) a b i j) (ESum (0 + z) 0 (EMul (r_rccd_I1A_oo_1 (1 + z) (0 + z) i) (ET 11 [a; b; (0 + z); j])))).
Definition r_rccd_dT_ab_3 (z a b i j : nat) : ex := (ESub (r_rccd_dT_ab_2 (0 + z) a b i j) (ESum (0 + z) 0 (EMul (r_rccd_I1B_oo (1 + z) (0 + z) j) (ET 11 [a; b; i; (0 + z)])))).
Definition r_rccd_dT_ab_4 (z a b i j : nat) : ex := (EAdd (r_rccd_dT_ab_3 (0 + z) a b i j) (ESum (0 + z) 0 (ESum (1 + z) 1 (EMul (r_rccd_I2A_voov_1 (2 + z) a (0 + z) i (1 + z)) (ET 11 [(1 + z); b; (0 + z); j]))))).
Definition r_rccd_dT_ab_5 (z a b i j : nat) : ex := (EAdd (r_rccd_dT_ab_4 (0 + z) a b i j) (ESum (0 + z) 0 (ESum (1 + z) 1 (EMul (r_rccd_I2B_voov_1 (2 + z) a (0 + z) i (1 + z)) (ET 18 [(1 + z); b; (0 + z); j]))))).
Definition r_rccd_dT_ab_6 (z a b i j : nat) : ex := (EAdd (r_rccd_dT_ab_5 (0 + z) a b i j) (ESum (0 + z) 0 (ESum (1 + z) 1 (EMul (ET 26 [(0 + z); b; (1 + z); j]) (ET 10 [a; (1 + z); i; (0 + z)]))))).
Definition r_rccd_dT_ab_7 (z a b i j : nat) : ex := (EAdd (r_rccd_dT_ab_6 (0 + z) a b i j) (ESum (0 + z) 0 (ESum (1 + z) 1 (EMul (ET 25 [b; (0 + z); j; (1 + z)]) (ET 11 [a; (1 + z); i; (0 + z)]))))).
Definition r_rccd_dT_ab_8 (z a b i j : nat) : ex := (ESub (r_rccd_dT_ab_7 (0 + z) a b i j) (ESum (0 + z) 0 (ESum (1 + z) 1 (EMul (ET 35 [(0 + z); b; i; (1 + z)]) (ET 11 [a; (1 + z); (0 + z); j]))))).
Definition r_rccd_dT_ab_9 (z a b i j : nat) : ex := (ESub (r_rccd_dT_ab_8 (0 + z) a b i j) (ESum (0 + z) 0 (ESum (1 + z) 1 (EMul (r_rccd_I2B_vovo (2 + z) a (0 + z) (1 + z) j) (ET 11 [(1 + z); b; i; (0 + z)]))))).
Definition r_rccd_dT_ab_10 (z a b i j : nat) : ex := (EAdd (r_rccd_dT_ab_9 (0 + z) a b i j) (ESum (0 + z) 0 (ESum (1 + z) 0 (EMul (r_rccd_I2B_oooo (2 + z) (0 + z) (1 + z) i j) (ET 11 [a; b; (0 + z); (1 + z)]))))).
Definition r_rccd_dT_ab_11 (z a b i j : nat) : ex := (EAdd (r_rccd_dT_ab_10 (0 + z) a b i j) (ESum (0 + z) 1 (ESum (1 + z) 1 (EMul (ET 43 [a; b; (0 + z); (1 + z)]) (ET 11 [(0 + z); (1 + z); i; j]))))).
Definition r_rccd_res_ab (z a b i j : nat) : ex := (EAdd (r_rccd_dT_ab_11 (0 + z) a b i j) (ET 44 [a; b; i; j])).
Definition r_rccd_T_bb (z a b i j : nat) : ex := (ET 10 [a; b; i; j]).
Definition r_rccd_dT_bb (z a b i j : nat) : ex := (r_rccd_res_aa (0 + z) a b i j).
Definition r_rhb_H_a_ov (z i a : nat) : ex := (EAdd (ET 0 [i; a]) (EAdd (ESum (0 + z) 0 (ESum (1 + z) 1 (EMul (ET 1 [i; (0 + z); a; (1 + z)]) (ET 2 [(1 + z); (0 + z)])))) (ESum (0 + z) 0 (ESum (1 + z) 1 (EMul (ET 3 [i; (0 + z); a; (1 + z)]) (ET 4 [(1 + z); (0 + z)])))))).
Definition r_rhb_H_a_oo (z i j : nat) : ex := (EAdd (ET 12 [i; j]) (EAdd (EAdd (EAdd (EAdd (ESum (0 + z) 1 (EMul (r_rhb_H_a_ov (1 + z) i (0 + z)) (ET 2 [(0 + z); j]))) (ESum (0 + z) 0 (ESum (1 + z) 1 (EMul (ET 13 [i; (0 + z); j; (1 + z)]) (ET 2 [(1 + z); (0 + z)]))))) (ESum (0 + z) 0 (ESum (1 + z) 1 (EMul (ET 14 [i; (0 + z); j; (1 + z)]) (ET 4 [(1 + z); (0 + z)]))))) (EScale (1) 2 (ESum (0 + z) 0 (ESum (1 + z) 1 (ESum (2 + z) 1 (EMul (ET 1 [i; (0 + z); (1 + z); (2 + z)]) (ET 10 [(1 + z); (2 + z); j; (0 + z)]))))))) (ESum (0 + z) 0 (ESum (1 + z) 1 (ESum (2 + z) 1 (EMul (ET 3 [i; (0 + z); (1 + z); (2 + z)]) (ET 11 [(1 + z); (2 + z); j; (0 + z)]))))))).
Definition r_rhb_H_a_vv (z a b : nat) : ex := (EAdd (ET 7 [a; b]) (ESub (ESub (EAdd (EAdd (EOpp (ESum (0 + z) 0 (EMul (r_rhb_H_a_ov (1 + z) (0 + z) b) (ET 2 [a; (0 + z)])))) (ESum (0 + z) 0 (ESum (1 + z) 1 (EMul (ET 8 [a; (0 + z); b; (1 + z)]) (ET 2 [(1 + z); (0 + z)]))))) (ESum (0 + z) 0 (ESum (1 + z) 1 (EMul (ET 9 [a; (0 + z); b; (1 + z)]) (ET 4 [(1 + z); (0 + z)]))))) (EScale (1) 2 (ESum (0 + z) 0 (ESum (1 + z) 0 (ESum (2 + z) 1 (EMul (ET 1 [(0 + z); (1 + z); b; (2 + z)]) (ET 10 [a; (2 + z); (0 + z); (1 + z)]))))))) (ESum (0 + z) 0 (ESum (1 + z) 0 (ESum (2 + z) 1 (EMul (ET 3 [(0 + z); (1 + z); b; (2 + z)]) (ET 11 [a; (2 + z); (0 + z); (1 + z)]))))))).
Definition r_rhb_H_b_ov (z i a : nat) : ex := (EAdd (ET 5 [i; a]) (EAdd (ESum (0 + z) 0 (ESum (1 + z) 1 (EMul (ET 6 [i; (0 + z); a; (1 + z)]) (ET 4 [(1 + z); (0 + z)])))) (ESum (0 + z) 0 (ESum (1 + z) 1 (EMul (ET 3 [(0 + z); i; (1 + z); a]) (ET 2 [(1 + z); (0 + z)])))))).
Definition r_rhb_H_b_oo (z i j : nat) : ex := (EAdd (ET 19 [i; j]) (EAdd (EAdd (EAdd (EAdd (ESum (0 + z) 1 (EMul (r_rhb_H_b_ov (1 + z) i (0 + z)) (ET 4 [(0 + z); j]))) (ESum (0 + z) 0 (ESum (1 + z) 1 (EMul (ET 20 [i; (0 + z); j; (1 + z)]) (ET 4 [(1 + z); (0 + z)]))))) (ESum (0 + z) 0 (ESum (1 + z) 1 (EMul (ET 21 [(0 + z); i; (1 + z); j]) (ET 2 [(1 + z); (0 + z)]))))) (EScale (1) 2 (ESum (0 + z) 0 (ESum (1 + z) 1 (ESum (2 + z) 1 (EMul (ET 6 [i; (0 + z); (1 + z); (2 + z)]) (ET 18 [(1 + z); (2 + z); j; (0 + z)]))))))) (ESum (0 + z) 0 (ESum (1 + z) 1 (ESum (2 + z) 1 (EMul (ET 3 [(0 + z); i; (1 + z); (2 + z)]) (ET 11 [(1 + z); (2 + z); (0 + z); j]))))))).
Definition r_rhb_H_b_vv (z a b : nat) : ex := (EAdd (ET 15 [a; b]) (ESub (ESub (EAdd (EAdd (EOpp (ESum (0 + z) 0 (EMul (r_rhb_H_b_ov (1 + z) (0 + z) b) (ET 4 [a; (0 + z)])))) (ESum (0 + z) 0 (ESum (1 + z) 1 (EMul (ET 16 [a; (0 + z); b; (1 + z)]) (ET 4 [(1 + z); (0 + z)]))))) (ESum (0 + z) 0 (ESum (1 + z) 1 (EMul (ET 17 [(0 + z); a; (1 + z); b]) (ET 2 [(1 + z); (0 + z)]))))) (EScale (1) 2 (ESum (0 + z) 0 (ESum (1 + z) 0 (ESum (2 + z) 1 (EMul (ET 6 [(0 + z); (1 + z); b; (2 + z)]) (ET 18 [a; (2 + z); (0 + z); (1 + z)]))))))) (ESum (0 + z) 0 (ESum (1 + z) 0 (ESum (2 + z) 1 (EMul (ET 3 [(0 + z); (1 + z); (2 + z); b]) (ET 11 [(2 + z); a; (0 + z); (1 + z)]))))))).
Definition r_rhb_tau_aa (z a b i j : nat) : ex := (EAdd (EScale (1) 2 (ET 10 [a; b; i; j])) (EMul (ET 2 [a; i]) (ET 2 [b; j]))).
Definition r_rhb_tau_aa_1 (z a b i j : nat) : ex := (ESub (r_rhb_tau_aa (0 + z) a b i j) (r_rhb_tau_aa (0 + z) a b j i)).
Definition r_rhb_tau_ab (z a b i j : nat) : ex := (EAdd (ET 11 [a; b; i; j]) (EMul (ET 2 [a; i]) (ET 4 [b; j]))).
Definition r_rhb_H_aa_oooo (z m n i j : nat) : ex := (EAdd (EAdd (EScale (1) 2 (ET 28 [m; n; i; j])) (ESum (0 + z) 1 (EMul (ET 13 [n; m; j; (0 + z)]) (ET 2 [(0 + z); i])))) (EScale (1) 4 (ESum (0 + z) 1 (ESum (1 + z) 1 (EMul (ET 1 [m; n; (0 + z); (1 + z)]) (r_rhb_tau_aa_1 (2 + z) (0 + z) (1 + z) i j)))))).
Definition r_rhb_H_aa_oooo_1 (z m n i j : nat) : ex := (ESub (r_rhb_H_aa_oooo (0 + z) m n i j) (r_rhb_H_aa_oooo (0 + z) m n j i)).
Definition r_rhb_H_ab_oooo (z m n i j : nat) : ex := (EAdd (EAdd (EAdd (ET 34 [m; n; i; j]) (ESum (0 + z) 1 (EMul (ET 21 [m; n; (0 + z); j]) (ET 2 [(0 + z); i])))) (ESum (0 + z) 1 (EMul (ET 14 [m; n; i; (0 + z)]) (ET 4 [(0 + z); j])))) (ESum (0 + z) 1 (ESum (1 + z) 1 (EMul (ET 3 [m; n; (0 + z); (1 + z)]) (r_rhb_tau_ab (2 + z) (0 + z) (1 + z) i j))))).
Definition r_rhb_H_aa_ooov (z i j k a : nat) : ex := (EAdd (ET 13 [i; j; k; a]) (ESum (0 + z) 1 (EMul (ET 1 [i; j; (0 + z); a]) (ET 2 [(0 + z); k])))).
Definition r_rhb_H_ab_ooov (z i j k a : nat) : ex := (EAdd (ET 14 [i; j; k; a]) (ESum (0 + z) 1 (EMul (ET 3 [i; j; (0 + z); a]) (ET 2 [(0 + z); k])))).
Definition r_rhb_H_ab_oovo (z i j a k : nat) : ex := (EAdd (ET 21 [i; j; a; k]) (ESum (0 + z) 1 (EMul (ET 3 [i; j; a; (0 + z)]) (ET 4 [(0 + z); k])))).
Definition r_rhb_Q1 (z a m i j : nat) : ex := (EAdd (ESum (0 + z) 0 (ESum (1 + z) 1 (EMul (r_rhb_H_aa_ooov (2 + z) m (0 + z) j (1 + z)) (ET 10 [a; (1 + z); i; (0 + z)])))) (ESum (0 + z) 0 (ESum (1 + z) 1 (EMul (r_rhb_H_ab_ooov (2 + z) m (0 + z) j (1 + z)) (ET 11 [a; (1 + z); i; (0 + z)]))))).
Definition r_rhb_Q2 (z a m i f : nat) : ex := (EAdd (ET 22 [a; m; i; f]) (EScale (1) 2 (ESum (0 + z) 1 (EMul (ET 8 [a; m; (0 + z); f]) (ET 2 [(0 + z); i]))))).
Definition r_rhb_Q2_1 (z a m i j : nat) : ex := (ESum (0 + z) 1 (EMul (r_rhb_Q2 (1 + z) a m i (0 + z)) (ET 2 [(0 + z); j]))).
Definition r_rhb_Q1_1 (z a m i j : nat) : ex := (EAdd (r_rhb_Q1 (0 + z) a m i j) (r_rhb_Q2_1 (0 + z) a m i j)).
Definition r_rhb_Q1_2 (z a m i j : nat) : ex := (ESub (r_rhb_Q1_1 (0 + z) a m i j) (r_rhb_Q1_1 (0 + z) a m j i)).
Definition r_rhb_H_aa_vooo (z a m i j : nat) : ex := (EAdd (EAdd (ET 29 [a; m; i; j]) (r_rhb_Q1_2 (0 + z) a m i j)) (EAdd (ESub (ESum (0 + z) 1 (EMul (r_rhb_H_a_ov (1 + z) m (0 + z)) (ET 10 [a; (0 + z); i; j]))) (ESum (0 + z) 0 (EMul (r_rhb_H_aa_oooo_1 (1 + z) (0 + z) m i j) (ET 2 [a; (0 + z)])))) (EScale (1) 2 (ESum (0 + z) 1 (ESum (1 + z) 1 (EMul (ET 8 [a; m; (0 + z); (1 + z)]) (ET 10 [(0 + z); (1 + z); i; j]))))))).
Definition r_rhb_Q1_3 (z a m i e : nat) : ex := (EAdd (ET 23 [a; m; i; e]) (ESum (0 + z) 1 (EMul (ET 9 [a; m; (0 + z); e]) (ET 2 [(0 + z); i])))).
Definition r_rhb_H_ab_vooo (z a m i j : nat) : ex := (EAdd (ET 38 [a; m; i; j]) (EAdd (EAdd (EAdd (ESub (EAdd (EAdd (ESub (ESum (0 + z) 1 (EMul (r_rhb_H_b_ov (1 + z) m (0 + z)) (ET 11 [a; (0 + z); i; j]))) (ESum (0 + z) 0 (EMul (r_rhb_H_ab_oooo (1 + z) (0 + z) m i j) (ET 2 [a; (0 + z)])))) (ESum (0 + z) 0 (ESum (1 + z) 1 (EMul (r_rhb_H_aa_ooov (2 + z) m (0 + z) j (1 + z)) (ET 11 [a; (1 + z); i; (0 + z)]))))) (ESum (0 + z) 0 (ESum (1 + z) 1 (EMul (r_rhb_H_ab_oovo (2 + z) (0 + z) m (1 + z) j) (ET 10 [a; (1 + z); i; (0 + z)]))))) (ESum (0 + z) 0 (ESum (1 + z) 1 (EMul (r_rhb_H_ab_ooov (2 + z) (0 + z) m i (1 + z)) (ET 11 [a; (1 + z); (0 + z); j]))))) (ESum (0 + z) 1 (EMul (ET 36 [a; m; (0 + z); j]) (ET 2 [(0 + z); i])))) (ESum (0 + z) 1 (EMul (r_rhb_Q1_3 (1 + z) a m i (0 + z)) (ET 4 [(0 + z); j])))) (ESum (0 + z) 1 (ESum (1 + z) 1 (EMul (ET 9 [a; m; (0 + z); (1 + z)]) (ET 11 [(0 + z); (1 + z); i; j])))))).
Definition r_rhb_Q1_4 (z m a j e : nat) : ex := (EAdd (ET 35 [m; a; j; e]) (ESum (0 + z) 1 (EMul (ET 17 [m; a; (0 + z); e]) (ET 2 [(0 + z); j])))).
Definition r_rhb_H_ab_ovoo (z m a j i : nat) : ex := (EAdd (ET 37 [m; a; j; i]) (EAdd (EAdd (EAdd (ESub (EAdd (EAdd (ESub (ESum (0 + z) 1 (EMul (r_rhb_H_a_ov (1 + z) m (0 + z)) (ET 11 [(0 + z); a; j; i]))) (ESum (0 + z) 0 (EMul (r_rhb_H_ab_oooo (1 + z) m (0 + z) j i) (ET 4 [a; (0 + z)])))) (ESum (0 + z) 0 (ESum (1 + z) 1 (EMul (r_rhb_H_aa_ooov (2 + z) m (0 + z) j (1 + z)) (ET 11 [(1 + z); a; (0 + z); i]))))) (ESum (0 + z) 0 (ESum (1 + z) 1 (EMul (r_rhb_H_ab_ooov (2 + z) m (0 + z) j (1 + z)) (ET 18 [(1 + z); a; (0 + z); i]))))) (ESum (0 + z) 0 (ESum (1 + z) 1 (EMul (r_rhb_H_ab_oovo (2 + z) m (0 + z) (1 + z) i) (ET 11 [(1 + z); a; j; (0 + z)]))))) (ESum (0 + z) 1 (EMul (r_rhb_Q1_4 (1 + z) m a j (0 + z)) (ET 4 [(0 + z); i])))) (ESum (0 + z) 1 (EMul (ET 26 [m; a; (0 + z); i]) (ET 2 [(0 + z); j])))) (ESum (0 + z) 1 (ESum (1 + z) 1 (EMul (ET 17 [m; a; (0 + z); (1 + z)]) (ET 11 [(0 + z); (1 + z); j; i])))))).
Definition r_rhb_H_aa_voov (z a m i e : nat) : ex := (EAdd (EAdd (ESub (EAdd (ET 22 [a; m; i; e]) (ESum (0 + z) 1 (EMul (ET 8 [a; m; (0 + z); e]) (ET 2 [(0 + z); i])))) (ESum (0 + z) 0 (EMul (r_rhb_H_aa_ooov (1 + z) (0 + z) m i e) (ET 2 [a; (0 + z)])))) (ESum (0 + z) 0 (ESum (1 + z) 1 (EMul (ET 1 [(0 + z); m; (1 + z); e]) (ET 10 [a; (1 + z); i; (0 + z)]))))) (ESum (0 + z) 0 (ESum (1 + z) 1 (EMul (ET 3 [m; (0 + z); e; (1 + z)]) (ET 11 [a; (1 + z); i; (0 + z)]))))).
Definition r_rhb_H_ab_voov (z a m i e : nat) : ex := (EAdd (EAdd (ESub (EAdd (ET 23 [a; m; i; e]) (ESum (0 + z) 1 (EMul (ET 9 [a; m; (0 + z); e]) (ET 2 [(0 + z); i])))) (ESum (0 + z) 0 (EMul (r_rhb_H_ab_ooov (1 + z) (0 + z) m i e) (ET 2 [a; (0 + z)])))) (ESum (0 + z) 0 (ESum (1 + z) 1 (EMul (ET 3 [(0 + z); m; (1 + z); e]) (ET 10 [a; (1 + z); i; (0 + z)]))))) (ESum (0 + z) 0 (ESum (1 + z) 1 (EMul (ET 6 [(0 + z); m; (1 + z); e]) (ET 11 [a; (1 + z); i; (0 + z)]))))).
Definition r_rhb_H_ab_ovvo (z m a e i : nat) : ex := (EAdd (EAdd (ESub (EAdd (ET 26 [m; a; e; i]) (ESum (0 + z) 1 (EMul (ET 17 [m; a; e; (0 + z)]) (ET 4 [(0 + z); i])))) (ESum (0 + z) 0 (EMul (r_rhb_H_ab_oovo (1 + z) m (0 + z) e i) (ET 4 [a; (0 + z)])))) (ESum (0 + z) 0 (ESum (1 + z) 1 (EMul (ET 3 [m; (0 + z); e; (1 + z)]) (ET 18 [a; (1 + z); i; (0 + z)]))))) (ESum (0 + z) 0 (ESum (1 + z) 1 (EMul (ET 1 [m; (0 + z); e; (1 + z)]) (ET 11 [(1 + z); a; (0 + z); i]))))).
Definition r_rhb_H_ab_ovov (z m a i e : nat) : ex := (ESub (ESub (EAdd (ET 35 [m; a; i; e]) (ESum (0 + z) 1 (EMul (ET 17 [m; a; (0 + z); e]) (ET 2 [(0 + z); i])))) (ESum (0 + z) 0 (EMul (r_rhb_H_ab_ooov (1 + z) m (0 + z) i e) (ET 4 [a; (0 + z)])))) (ESum (0 + z) 0 (ESum (1 + z) 1 (EMul (ET 3 [m; (0 + z); (1 + z); e]) (ET 11 [(1 + z); a; i; (0 + z)]))))).
Definition r_rhb_H_ab_vovo (z a m e i : nat) : ex := (ESub (EAdd (ESub (ET 36 [a; m; e; i]) (ESum (0 + z) 0 (EMul (r_rhb_H_ab_oovo (1 + z) (0 + z) m e i) (ET 2 [a; (0 + z)])))) (ESum (0 + z) 1 (EMul (ET 9 [a; m; e; (0 + z)]) (ET 4 [(0 + z); i])))) (ESum (0 + z) 0 (ESum (1 + z) 1 (EMul (ET 3 [(0 + z); m; e; (1 + z)]) (ET 11 [a; (1 + z); (0 + z); i]))))).
Definition r_rhb_x2a_voov (z a m i e : nat) : ex := (EAdd (r_rhb_H_aa_voov (0 + z) a m i e) (EScale (1) 2 (ESum (0 + z) 0 (EMul (r_rhb_H_aa_ooov (1 + z) (0 + z) m i e) (ET 2 [a; (0 + z)]))))).
Definition r_rhb_H_aa_vvov (z a b i e : nat) : ex := (EAdd (EAdd (EAdd (EAdd (ESub (ESub (EScale (1) 2 (ET 30 [a; b; i; e])) (EScale (1) 2 (ESum (0 + z) 0 (EMul (r_rhb_H_a_ov (1 + z) (0 + z) e) (ET 10 [a; b; i; (0 + z)]))))) (ESum (0 + z) 0 (EMul (r_rhb_x2a_voov (1 + z) a (0 + z) i e) (ET 2 [b; (0 + z)])))) (EScale (1) 4 (ESum (0 + z) 0 (ESum (1 + z) 0 (EMul (r_rhb_H_aa_ooov (2 + z) (0 + z) (1 + z) i e) (ET 10 [a; b; (0 + z); (1 + z)])))))) (EScale (1) 2 (ESum (0 + z) 1 (EMul (ET 41 [a; b; (0 + z); e]) (ET 2 [(0 + z); i]))))) (ESum (0 + z) 0 (ESum (1 + z) 1 (EMul (ET 8 [b; (0 + z); e; (1 + z)]) (ET 10 [a; (1 + z); i; (0 + z)]))))) (ESum (0 + z) 0 (ESum (1 + z) 1 (EMul (ET 9 [b; (0 + z); e; (1 + z)]) (ET 11 [a; (1 + z); i; (0 + z)]))))).
Definition r_rhb_H_aa_vvov_1 (z a b i e : nat) : ex := (ESub (r_rhb_H_aa_vvov (0 + z) a b i e) (r_rhb_H_aa_vvov (0 + z) b a i e)).
Definition r_rhb_x2b_voov (z a m i e : nat) : ex := (EAdd (r_rhb_H_ab_voov (0 + z) a m i e) (EScale (1) 2 (ESum (0 + z) 0 (EMul (r_rhb_H_ab_ooov (1 + z) (0 + z) m i e) (ET 2 [a; (0 + z)]))))).
Definition r_rhb_x2b_ovov (z m a i e : nat) : ex := (EAdd (r_rhb_H_ab_ovov (0 + z) m a i e) (EScale (1) 2 (ESum (0 + z) 0 (EMul (r_rhb_H_ab_ooov (1 + z) m (0 + z) i e) (ET 4 [a; (0 + z)]))))).
Definition r_rhb_H_ab_vvov (z a b i e : nat) : ex := (ESub (EAdd (EAdd (EAdd (EAdd (ESub (ESub (ESub (ET 40 [a; b; i; e]) (ESum (0 + z) 0 (EMul (r_rhb_H_b_ov (1 + z) (0 + z) e) (ET 11 [a; b; i; (0 + z)])))) (ESum (0 + z) 0 (EMul (r_rhb_x2b_voov (1 + z) a (0 + z) i e) (ET 4 [b; (0 + z)])))) (ESum (0 + z) 0 (EMul (r_rhb_x2b_ovov (1 + z) (0 + z) b i e) (ET 2 [a; (0 + z)])))) (ESum (0 + z) 0 (ESum (1 + z) 0 (EMul (r_rhb_H_ab_ooov (2 + z) (0 + z) (1 + z) i e) (ET 11 [a; b; (0 + z); (1 + z)]))))) (ESum (0 + z) 1 (EMul (ET 43 [a; b; (0 + z); e]) (ET 2 [(0 + z); i])))) (ESum (0 + z) 0 (ESum (1 + z) 1 (EMul (ET 17 [(0 + z); b; (1 + z); e]) (ET 10 [a; (1 + z); i; (0 + z)]))))) (ESum (0 + z) 0 (ESum (1 + z) 1 (EMul (ET 16 [b; (0 + z); e; (1 + z)]) (ET 11 [a; (1 + z); i; (0 + z)]))))) (ESum (0 + z) 0 (ESum (1 + z) 1 (EMul (ET 9 [a; (0 + z); (1 + z); e]) (ET 11 [(1 + z); b; i; (0 + z)]))))).
Definition r_rhb_x2b_ovvo (z m a e i : nat) : ex := (EAdd (r_rhb_H_ab_ovvo (0 + z) m a e i) (EScale (1) 2 (ESum (0 + z) 0 (EMul (r_rhb_H_ab_oovo (1 + z) m (0 + z) e i) (ET 4 [a; (0 + z)]))))).
Definition r_rhb_x2b_vovo (z a m e i : nat) : ex := (EAdd (r_rhb_H_ab_vovo (0 + z) a m e i) (EScale (1) 2 (ESum (0 + z) 0 (EMul (r_rhb_H_ab_oovo (1 + z) (0 + z) m e i) (ET 2 [a; (0 + z)]))))).
Definition r_rhb_H_ab_vvvo (z b a e i : nat) : ex := (ESub (EAdd (EAdd (EAdd (EAdd (ESub (ESub (ESub (ET 39 [b; a; e; i]) (ESum (0 + z) 0 (EMul (r_rhb_H_a_ov (1 + z) (0 + z) e) (ET 11 [b; a; (0 + z); i])))) (ESum (0 + z) 0 (EMul (r_rhb_x2b_ovvo (1 + z) (0 + z) a e i) (ET 2 [b; (0 + z)])))) (ESum (0 + z) 0 (EMul (r_rhb_x2b_vovo (1 + z) b (0 + z) e i) (ET 4 [a; (0 + z)])))) (ESum (0 + z) 0 (ESum (1 + z) 0 (EMul (r_rhb_H_ab_oovo (2 + z) (0 + z) (1 + z) e i) (ET 11 [b; a; (0 + z); (1 + z)]))))) (ESum (0 + z) 1 (EMul (ET 43 [b; a; e; (0 + z)]) (ET 4 [(0 + z); i])))) (ESum (0 + z) 0 (ESum (1 + z) 1 (EMul (ET 9 [b; (0 + z); e; (1 + z)]) (ET 18 [a; (1 + z); i; (0 + z)]))))) (ESum (0 + z) 0 (ESum (1 + z) 1 (EMul (ET 8 [b; (0 + z); e; (1 + z)]) (ET 11 [(1 + z); a; (0 + z); i]))))) (ESum (0 + z) 0 (ESum (1 + z) 1 (EMul (ET 17 [(0 + z); a; e; (1 + z)]) (ET 11 [b; (1 + z); (0 + z); i]))))).
Definition r_rhb_H_aa_vvvv (z a b e f : nat) : ex := (ESub (EAdd (EScale (1) 2 (ET 41 [a; b; e; f])) (EScale (1) 4 (ESum (0 + z) 0 (ESum (1 + z) 0 (EMul (ET 1 [(0 + z); (1 + z); e; f]) (r_rhb_tau_aa_1 (2 + z) a b (0 + z) (1 + z))))))) (ESum (0 + z) 0 (EMul (ET 8 [a; (0 + z); e; f]) (ET 2 [b; (0 + z)])))).
Definition r_rhb_H_aa_vvvv_1 (z a b e f : nat) : ex := (ESub (r_rhb_H_aa_vvvv (0 + z) a b e f) (r_rhb_H_aa_vvvv (0 + z) b a e f)).
Definition r_rhb_H_ab_vvvv (z a b e f : nat) : ex := (EAdd (ESub (ESub (ET 43 [a; b; e; f]) (ESum (0 + z) 0 (EMul (ET 17 [(0 + z); b; e; f]) (ET 2 [a; (0 + z)])))) (ESum (0 + z) 0 (EMul (ET 9 [a; (0 + z); e; f]) (ET 4 [b; (0 + z)])))) (ESum (0 + z) 0 (ESum (1 + z) 0 (EMul (ET 3 [(0 + z); (1 + z); e; f]) (r_rhb_tau_ab (2 + z) a b (0 + z) (1 + z)))))).
Definition r_rhb_H_aa_vovv (z a i b c : nat) : ex := (ESub (ET 8 [a; i; b; c]) (ESum (0 + z) 0 (EMul (ET 1 [i; (0 + z); c; b]) (ET 2 [a; (0 + z)])))).
Definition r_rhb_H_ab_vovv (z a i b c : nat) : ex := (ESub (ET 9 [a; i; b; c]) (ESum (0 + z) 0 (EMul (ET 3 [(0 + z); i; b; c]) (ET 2 [a; (0 + z)])))).
Definition r_rhb_H_ab_ovvv (z i a b c : nat) : ex := (ESub (ET 17 [i; a; b; c]) (ESum (0 + z) 0 (EMul (ET 3 [i; (0 + z); b; c]) (ET 4 [a; (0 + z)])))).
Definition r_reom_X_a_oo (z m j : nat) : ex := (EAdd (EAdd (EAdd (ESum (0 + z) 0 (ESum (1 + z) 1 (EMul (ET 13 [m; (0 + z); j; (1 + z)]) (ET 47 [(1 + z); (0 + z)])))) (ESum (0 + z) 0 (ESum (1 + z) 1 (EMul (ET 14 [m; (0 + z); j; (1 + z)]) (ET 48 [(1 + z); (0 + z)]))))) (EScale (1) 2 (ESum (0 + z) 0 (ESum (1 + z) 1 (ESum (2 + z) 1 (EMul (ET 1 [m; (0 + z); (1 + z); (2 + z)]) (ET 49 [(1 + z); (2 + z); j; (0 + z)]))))))) (ESum (0 + z) 0 (ESum (1 + z) 1 (ESum (2 + z) 1 (EMul (ET 3 [m; (0 + z); (1 + z); (2 + z)]) (ET 50 [(1 + z); (2 + z); j; (0 + z)])))))).
Definition r_reom_X_a_vv (z b e : nat) : ex := (ESub (ESub (EAdd (ESum (0 + z) 0 (ESum (1 + z) 1 (EMul (ET 8 [b; (0 + z); e; (1 + z)]) (ET 47 [(1 + z); (0 + z)])))) (ESum (0 + z) 0 (ESum (1 + z) 1 (EMul (ET 9 [b; (0 + z); e; (1 + z)]) (ET 48 [(1 + z); (0 + z)]))))) (EScale (1) 2 (ESum (0 + z) 0 (ESum (1 + z) 0 (ESum (2 + z) 1 (EMul (ET 1 [(0 + z); (1 + z); e; (2 + z)]) (ET 49 [b; (2 + z); (0 + z); (1 + z)]))))))) (ESum (0 + z) 0 (ESum (1 + z) 0 (ESum (2 + z) 1 (EMul (ET 3 [(0 + z); (1 + z); e; (2 + z)]) (ET 50 [b; (2 + z); (0 + z); (1 + z)])))))).
Definition r_reom_X_b_oo (z m k : nat) : ex := (EAdd (EAdd (EAdd (ESum (0 + z) 0 (ESum (1 + z) 1 (EMul (ET 21 [(0 + z); m; (1 + z); k]) (ET 47 [(1 + z); (0 + z)])))) (ESum (0 + z) 0 (ESum (1 + z) 1 (EMul (ET 20 [m; (0 + z); k; (1 + z)]) (ET 48 [(1 + z); (0 + z)]))))) (ESum (0 + z) 0 (ESum (1 + z) 1 (ESum (2 + z) 1 (EMul (ET 3 [(0 + z); m; (1 + z); (2 + z)]) (ET 50 [(1 + z); (2 + z); (0 + z); k])))))) (EScale (1) 2 (ESum (0 + z) 0 (ESum (1 + z) 1 (ESum (2 + z) 1 (EMul (ET 6 [m; (0 + z); (1 + z); (2 + z)]) (ET 51 [(1 + z); (2 + z); k; (0 + z)]))))))).
Definition r_reom_X_b_vv (z c e : nat) : ex := (ESub (ESub (EAdd (ESum (0 + z) 0 (ESum (1 + z) 1 (EMul (ET 17 [(0 + z); c; (1 + z); e]) (ET 47 [(1 + z); (0 + z)])))) (ESum (0 + z) 0 (ESum (1 + z) 1 (EMul (ET 16 [c; (0 + z); e; (1 + z)]) (ET 48 [(1 + z); (0 + z)]))))) (EScale (1) 1 (ESum (0 + z) 0 (ESum (1 + z) 0 (ESum (2 + z) 1 (EMul (ET 3 [(0 + z); (1 + z); (2 + z); e]) (ET 50 [(2 + z); c; (0 + z); (1 + z)]))))))) (EScale (1) 2 (ESum (0 + z) 0 (ESum (1 + z) 0 (ESum (2 + z) 1 (EMul (ET 6 [(0 + z); (1 + z); e; (2 + z)]) (ET 51 [(2 + z); c; (1 + z); (0 + z)]))))))).
Definition r_reom_X1A (z a i : nat) : ex := (EOpp (ESum (0 + z) 0 (EMul (ET 12 [(0 + z); i]) (ET 47 [a; (0 + z)])))).
Definition r_reom_X1A_1 (z a i : nat) : ex := (EAdd (r_reom_X1A (0 + z) a i) (ESum (0 + z) 1 (EMul (ET 7 [a; (0 + z)]) (ET 47 [(0 + z); i])))).
Definition r_reom_X1A_2 (z a i : nat) : ex := (EAdd (r_reom_X1A_1 (0 + z) a i) (ESum (0 + z) 0 (ESum (1 + z) 1 (EMul (ET 22 [a; (0 + z); i; (1 + z)]) (ET 47 [(1 + z); (0 + z)]))))).
Definition r_reom_X1A_3 (z a i : nat) : ex := (EAdd (r_reom_X1A_2 (0 + z) a i) (ESum (0 + z) 0 (ESum (1 + z) 1 (EMul (ET 23 [a; (0 + z); i; (1 + z)]) (ET 48 [(1 + z); (0 + z)]))))).
Definition r_reom_X1A_4 (z a i : nat) : ex := (ESub (r_reom_X1A_3 (0 + z) a i) (EScale (1) 2 (ESum (0 + z) 0 (ESum (1 + z) 0 (ESum (2 + z) 1 (EMul (ET 13 [(0 + z); (1 + z); i; (2 + z)]) (ET 49 [a; (2 + z); (0 + z); (1 + z)]))))))).
Definition r_reom_X1A_5 (z a i : nat) : ex := (ESub (r_reom_X1A_4 (0 + z) a i) (ESum (0 + z) 0 (ESum (1 + z) 0 (ESum (2 + z) 1 (EMul (ET 14 [(0 + z); (1 + z); i; (2 + z)]) (ET 50 [a; (2 + z); (0 + z); (1 + z)])))))).
Definition r_reom_X1A_6 (z a i : nat) : ex := (EAdd (r_reom_X1A_5 (0 + z) a i) (EScale (1) 2 (ESum (0 + z) 0 (ESum (1 + z) 1 (ESum (2 + z) 1 (EMul (ET 8 [a; (0 + z); (1 + z); (2 + z)]) (ET 49 [(1 + z); (2 + z); i; (0 + z)]))))))).
Definition r_reom_X1A_7 (z a i : nat) : ex := (EAdd (r_reom_X1A_6 (0 + z) a i) (ESum (0 + z) 0 (ESum (1 + z) 1 (ESum (2 + z) 1 (EMul (ET 9 [a; (0 + z); (1 + z); (2 + z)]) (ET 50 [(1 + z); (2 + z); i; (0 + z)])))))).
Definition r_reom_X1A_8 (z a i : nat) : ex := (EAdd (r_reom_X1A_7 (0 + z) a i) (ESum (0 + z) 0 (ESum (1 + z) 1 (EMul (ET 0 [(0 + z); (1 + z)]) (ET 49 [a; (1 + z); i; (0 + z)]))))).
Definition r_reom_X1A_9 (z a i : nat) : ex := (EAdd (r_reom_X1A_8 (0 + z) a i) (ESum (0 + z) 0 (ESum (1 + z) 1 (EMul (ET 5 [(0 + z); (1 + z)]) (ET 50 [a; (1 + z); i; (0 + z)]))))).
Definition r_reom_dR_b (z a i : nat) : ex := (r_reom_X1A_9 (0 + z) a i).
Definition r_reom_X2A (z a b i j : nat) : ex := (EScale (-1) 2 (ESum (0 + z) 0 (EMul (ET 12 [(0 + z); i]) (ET 49 [a; b; (0 + z); j])))).
Definition r_reom_X2A_1 (z a b i j : nat) : ex := (EAdd (r_reom_X2A (0 + z) a b i j) (EScale (1) 2 (ESum (0 + z) 1 (EMul (ET 7 [a; (0 + z)]) (ET 49 [(0 + z); b; i; j]))))).
Definition r_reom_X2A_2 (z a b i j : nat) : ex := (EAdd (r_reom_X2A_1 (0 + z) a b i j) (EScale (1) 8 (ESum (0 + z) 0 (ESum (1 + z) 0 (EMul (ET 28 [(0 + z); (1 + z); i; j]) (ET 49 [a; b; (0 + z); (1 + z)])))))).
Definition r_reom_X2A_3 (z a b i j : nat) : ex := (EAdd (r_reom_X2A_2 (0 + z) a b i j) (EScale (1) 8 (ESum (0 + z) 1 (ESum (1 + z) 1 (EMul (ET 41 [a; b; (0 + z); (1 + z)]) (ET 49 [(0 + z); (1 + z); i; j])))))).
Definition r_reom_X2A_4 (z a b i j : nat) : ex := (EAdd (r_reom_X2A_3 (0 + z) a b i j) (ESum (0 + z) 0 (ESum (1 + z) 1 (EMul (ET 22 [a; (0 + z); i; (1 + z)]) (ET 49 [(1 + z); b; (0 + z); j]))))).
Definition r_reom_X2A_5 (z a b i j : nat) : ex := (EAdd (r_reom_X2A_4 (0 + z) a b i j) (ESum (0 + z) 0 (ESum (1 + z) 1 (EMul (ET 23 [a; (0 + z); i; (1 + z)]) (ET 50 [b; (1 + z); j; (0 + z)]))))).
Definition r_reom_X2A_6 (z a b i j : nat) : ex := (ESub (r_reom_X2A_5 (0 + z) a b i j) (EScale (1) 2 (ESum (0 + z) 0 (EMul (ET 29 [b; (0 + z); j; i]) (ET 47 [a; (0 + z)]))))).
Definition r_reom_X2A_7 (z a b i j : nat) : ex := (EAdd (r_reom_X2A_6 (0 + z) a b i j) (EScale (1) 2 (ESum (0 + z) 1 (EMul (ET 30 [b; a; j; (0 + z)]) (ET 47 [(0 + z); i]))))).
Definition r_reom_X2A_8 (z a b i j : nat) : ex := (EAdd (r_reom_X2A_7 (0 + z) a b i j) (EScale (1) 2 (ESum (0 + z) 1 (EMul (r_reom_X_a_vv (1 + z) b (0 + z)) (ET 10 [a; (0 + z); i; j]))))).
Definition r_reom_X2A_9 (z a b i j : nat) : ex := (ESub (r_reom_X2A_8 (0 + z) a b i j) (EScale (1) 2 (ESum (0 + z) 0 (EMul (r_reom_X_a_oo (1 + z) (0 + z) j) (ET 10 [a; b; i; (0 + z)]))))).
Definition r_reom_X2A_10 (z a b i j : nat) : ex := (ESub (r_reom_X2A_9 (0 + z) a b i j) (r_reom_X2A_9 (0 + z) b a i j)).
Definition r_reom_X2A_11 (z a b i j : nat) : ex := (ESub (r_reom_X2A_10 (0 + z) a b i j) (r_reom_X2A_10 (0 + z) a b j i)).
Definition r_reom_X2B (z a b i j : nat) : ex := (ESum (0 + z) 1 (EMul (ET 7 [a; (0 + z)]) (ET 50 [(0 + z); b; i; j]))).
Definition r_reom_X2B_1 (z a b i j : nat) : ex := (EAdd (r_reom_X2B (0 + z) a b i j) (ESum (0 + z) 1 (EMul (ET 15 [b; (0 + z)]) (ET 50 [a; (0 + z); i; j])))).
Definition r_reom_X2B_2 (z a b i j : nat) : ex := (ESub (r_reom_X2B_1 (0 + z) a b i j) (ESum (0 + z) 0 (EMul (ET 12 [(0 + z); i]) (ET 50 [a; b; (0 + z); j])))).
Definition r_reom_X2B_3 (z a b i j : nat) : ex := (ESub (r_reom_X2B_2 (0 + z) a b i j) (ESum (0 + z) 0 (EMul (ET 19 [(0 + z); j]) (ET 50 [a; b; i; (0 + z)])))).
Definition r_reom_X2B_4 (z a b i j : nat) : ex := (EAdd (r_reom_X2B_3 (0 + z) a b i j) (ESum (0 + z) 0 (ESum (1 + z) 0 (EMul (ET 34 [(0 + z); (1 + z); i; j]) (ET 50 [a; b; (0 + z); (1 + z)]))))).
Definition r_reom_X2B_5 (z a b i j : nat) : ex := (EAdd (r_reom_X2B_4 (0 + z) a b i j) (ESum (0 + z) 1 (ESum (1 + z) 1 (EMul (ET 43 [a; b; (0 + z); (1 + z)]) (ET 50 [(0 + z); (1 + z); i; j]))))).
Definition r_reom_X2B_6 (z a b i j : nat) : ex := (EAdd (r_reom_X2B_5 (0 + z) a b i j) (ESum (0 + z) 0 (ESum (1 + z) 1 (EMul (ET 22 [a; (0 + z); i; (1 + z)]) (ET 50 [(1 + z); b; (0 + z); j]))))).
Definition r_reom_X2B_7 (z a b i j : nat) : ex := (EAdd (r_reom_X2B_6 (0 + z) a b i j) (ESum (0 + z) 0 (ESum (1 + z) 1 (EMul (ET 23 [a; (0 + z); i; (1 + z)]) (ET 51 [(1 + z); b; (0 + z); j]))))).
Definition r_reom_X2B_8 (z a b i j : nat) : ex := (EAdd (r_reom_X2B_7 (0 + z) a b i j) (ESum (0 + z) 0 (ESum (1 + z) 1 (EMul (ET 26 [(0 + z); b; (1 + z); j]) (ET 49 [a; (1 + z); i; (0 + z)]))))).
Definition r_reom_X2B_9 (z a b i j : nat) : ex := (EAdd (r_reom_X2B_8 (0 + z) a b i j) (ESum (0 + z) 0 (ESum (1 + z) 1 (EMul (ET 25 [b; (0 + z); j; (1 + z)]) (ET 50 [a; (1 + z); i; (0 + z)]))))).
Definition r_reom_X2B_10 (z a b i j : nat) : ex := (ESub (r_reom_X2B_9 (0 + z) a b i j) (ESum (0 + z) 0 (ESum (1 + z) 1 (EMul (ET 35 [(0 + z); b; i; (1 + z)]) (ET 50 [a; (1 + z); (0 + z); j]))))).
Definition r_reom_X2B_11 (z a b i j : nat) : ex := (ESub (r_reom_X2B_10 (0 + z) a b i j) (ESum (0 + z) 0 (ESum (1 + z) 1 (EMul (ET 36 [a; (0 + z); (1 + z); j]) (ET 50 [(1 + z); b; i; (0 + z)]))))).
Definition r_reom_X2B_12 (z a b i j : nat) : ex := (EAdd (r_reom_X2B_11 (0 + z) a b i j) (ESum (0 + z) 1 (EMul (ET 39 [a; b; (0 + z); j]) (ET 47 [(0 + z); i])))).
Definition r_reom_X2B_13 (z a b i j : nat) : ex := (EAdd (r_reom_X2B_12 (0 + z) a b i j) (ESum (0 + z) 1 (EMul (ET 40 [a; b; i; (0 + z)]) (ET 48 [(0 + z); j])))).
Definition r_reom_X2B_14 (z a b i j : nat) : ex := (ESub (r_reom_X2B_13 (0 + z) a b i j) (ESum (0 + z) 0 (EMul (ET 37 [(0 + z); b; i; j]) (ET 47 [a; (0 + z)])))).
Definition r_reom_X2B_15 (z a b i j : nat) : ex := (ESub (r_reom_X2B_14 (0 + z) a b i j) (ESum (0 + z) 0 (EMul (ET 38 [a; (0 + z); i; j]) (ET 48 [b; (0 + z)])))).
Definition r_reom_X2B_16 (z a b i j : nat) : ex := (EAdd (r_reom_X2B_15 (0 + z) a b i j) (ESum (0 + z) 1 (EMul (r_reom_X_a_vv (1 + z) a (0 + z)) (ET 11 [(0 + z); b; i; j])))).
Definition r_reom_X2B_17 (z a b i j : nat) : ex := (ESub (r_reom_X2B_16 (0 + z) a b i j) (ESum (0 + z) 0 (EMul (r_reom_X_a_oo (1 + z) (0 + z) i) (ET 11 [a; b; (0 + z); j])))).
Definition r_reom_X2B_18 (z a b i j : nat) : ex := (EAdd (r_reom_X2B_17 (0 + z) a b i j) (ESum (0 + z) 1 (EMul (r_reom_X_b_vv (1 + z) b (0 + z)) (ET 11 [a; (0 + z); i; j])))).
Definition r_reom_X2B_19 (z a b i j : nat) : ex := (ESub (r_reom_X2B_18 (0 + z) a b i j) (ESum (0 + z) 0 (EMul (r_reom_X_b_oo (1 + z) (0 + z) j) (ET 11 [a; b; i; (0 + z)])))).
Definition r_reom_dR_bb (z a b i j : nat) : ex := (r_reom_X2A_11 (0 + z) a b i j).
Definition r_rleft_X_a_vv (z g e : nat) : ex := (EAdd (EScale (1) 2 (ESum (0 + z) 1 (ESum (1 + z) 0 (ESum (2 + z) 0 (EMul (ET 49 [e; (0 + z); (1 + z); (2 + z)]) (ET 10 [(0 + z); g; (2 + z); (1 + z)])))))) (ESum (0 + z) 1 (ESum (1 + z) 0 (ESum (2 + z) 0 (EMul (ET 50 [e; (0 + z); (1 + z); (2 + z)]) (ET 11 [g; (0 + z); (1 + z); (2 + z)])))))).
Definition r_rleft_X_a_oo (z m n : nat) : ex := (ESub (EScale (-1) 2 (ESum (0 + z) 1 (ESum (1 + z) 1 (ESum (2 + z) 0 (EMul (ET 49 [(0 + z); (1 + z); m; (2 + z)]) (ET 10 [(0 + z); (1 + z); n; (2 + z)])))))) (ESum (0 + z) 1 (ESum (1 + z) 1 (ESum (2 + z) 0 (EMul (ET 50 [(0 + z); (1 + z); m; (2 + z)]) (ET 11 [(0 + z); (1 + z); n; (2 + z)])))))).
Definition r_rleft_X_b_vv (z f a : nat) : ex := (EAdd (EScale (1) 2 (ESum (0 + z) 1 (ESum (1 + z) 0 (ESum (2 + z) 0 (EMul (ET 51 [a; (0 + z); (1 + z); (2 + z)]) (ET 18 [f; (0 + z); (1 + z); (2 + z)])))))) (ESum (0 + z) 1 (ESum (1 + z) 0 (ESum (2 + z) 0 (EMul (ET 50 [(0 + z); a; (1 + z); (2 + z)]) (ET 11 [(0 + z); f; (1 + z); (2 + z)])))))).
Definition r_rleft_X_b_oo (z i n : nat) : ex := (ESub (EScale (-1) 2 (ESum (0 + z) 1 (ESum (1 + z) 1 (ESum (2 + z) 0 (EMul (ET 51 [(0 + z); (1 + z); i; (2 + z)]) (ET 18 [(0 + z); (1 + z); n; (2 + z)])))))) (ESum (0 + z) 1 (ESum (1 + z) 1 (ESum (2 + z) 0 (EMul (ET 50 [(0 + z); (1 + z); (2 + z); i]) (ET 11 [(0 + z); (1 + z); (2 + z); n])))))).
Definition r_rleft_LH_a (z a i : nat) : ex := (ESum (0 + z) 1 (EMul (ET 7 [(0 + z); a]) (ET 47 [(0 + z); i]))).
Definition r_rleft_LH_a_1 (z a i : nat) : ex := (ESub (r_rleft_LH_a (0 + z) a i) (ESum (0 + z) 0 (EMul (ET 12 [i; (0 + z)]) (ET 47 [a; (0 + z)])))).
Definition r_rleft_LH_a_2 (z a i : nat) : ex := (EAdd (r_rleft_LH_a_1 (0 + z) a i) (ESum (0 + z) 1 (ESum (1 + z) 0 (EMul (ET 22 [(0 + z); i; (1 + z); a]) (ET 47 [(0 + z); (1 + z)]))))).
Definition r_rleft_LH_a_3 (z a i : nat) : ex := (EAdd (r_rleft_LH_a_2 (0 + z) a i) (ESum (0 + z) 1 (ESum (1 + z) 0 (EMul (ET 26 [i; (0 + z); a; (1 + z)]) (ET 48 [(0 + z); (1 + z)]))))).
Definition r_rleft_LH_a_4 (z a i : nat) : ex := (EAdd (r_rleft_LH_a_3 (0 + z) a i) (EScale (1) 2 (ESum (0 + z) 1 (ESum (1 + z) 1 (ESum (2 + z) 0 (EMul (ET 30 [(0 + z); (1 + z); (2 + z); a]) (ET 49 [(1 + z); (0 + z); i; (2 + z)]))))))).
Definition r_rleft_LH_a_5 (z a i : nat) : ex := (EAdd (r_rleft_LH_a_4 (0 + z) a i) (ESum (0 + z) 1 (ESum (1 + z) 1 (ESum (2 + z) 0 (EMul (ET 39 [(0 + z); (1 + z); a; (2 + z)]) (ET 50 [(0 + z); (1 + z); i; (2 + z)])))))).
Definition r_rleft_LH_a_6 (z a i : nat) : ex := (ESub (r_rleft_LH_a_5 (0 + z) a i) (EScale (1) 2 (ESum (0 + z) 1 (ESum (1 + z) 0 (ESum (2 + z) 0 (EMul (ET 29 [(0 + z); i; (1 + z); (2 + z)]) (ET 49 [a; (0 + z); (2 + z); (1 + z)]))))))).
Definition r_rleft_LH_a_7 (z a i : nat) : ex := (ESub (r_rleft_LH_a_6 (0 + z) a i) (ESum (0 + z) 1 (ESum (1 + z) 0 (ESum (2 + z) 0 (EMul (ET 37 [i; (0 + z); (1 + z); (2 + z)]) (ET 50 [a; (0 + z); (1 + z); (2 + z)])))))).
Definition r_rleft_LH_a_8 (z a i : nat) : ex := (EAdd (r_rleft_LH_a_7 (0 + z) a i) (ESum (0 + z) 1 (ESum (1 + z) 1 (EMul (r_rleft_X_a_vv (2 + z) (0 + z) (1 + z)) (ET 8 [(1 + z); i; (0 + z); a]))))).
Definition r_rleft_LH_a_9 (z a i : nat) : ex := (EAdd (r_rleft_LH_a_8 (0 + z) a i) (ESum (0 + z) 0 (ESum (1 + z) 0 (EMul (r_rleft_X_a_oo (2 + z) (0 + z) (1 + z)) (ET 13 [(1 + z); i; (0 + z); a]))))).
Definition r_rleft_LH_a_10 (z a i : nat) : ex := (EAdd (r_rleft_LH_a_9 (0 + z) a i) (ESum (0 + z) 1 (ESum (1 + z) 1 (EMul (r_rleft_X_b_vv (2 + z) (0 + z) (1 + z)) (ET 17 [i; (1 + z); a; (0 + z)]))))).
Definition r_rleft_LH_a_11 (z a i : nat) : ex := (EAdd (r_rleft_LH_a_10 (0 + z) a i) (ESum (0 + z) 0 (ESum (1 + z) 0 (EMul (r_rleft_X_b_oo (2 + z) (0 + z) (1 + z)) (ET 21 [i; (1 + z); a; (0 + z)]))))).
Definition r_rleft_LH_b (z a i : nat) : ex := (r_rleft_LH_a_11 (0 + z) a i).
Definition r_rleft_LH_aa (z a b i j : nat) : ex := (EScale (1) 2 (ESum (0 + z) 1 (EMul (ET 7 [(0 + z); a]) (ET 49 [(0 + z); b; i; j])))).
Definition r_rleft_LH_aa_1 (z a b i j : nat) : ex := (ESub (r_rleft_LH_aa (0 + z) a b i j) (EScale (1) 2 (ESum (0 + z) 0 (EMul (ET 12 [i; (0 + z)]) (ET 49 [a; b; (0 + z); j]))))).
Definition r_rleft_LH_aa_2 (z a b i j : nat) : ex := (EAdd (r_rleft_LH_aa_1 (0 + z) a b i j) (EMul (ET 0 [j; b]) (ET 47 [a; i]))).
Definition r_rleft_LH_aa_3 (z a b i j : nat) : ex := (ESub (r_rleft_LH_aa_2 (0 + z) a b i j) (EScale (1) 2 (ESum (0 + z) 1 (EMul (r_rleft_X_a_vv (1 + z) (0 + z) a) (ET 1 [i; j; (0 + z); b]))))).
Definition r_rleft_LH_aa_4 (z a b i j : nat) : ex := (EAdd (r_rleft_LH_aa_3 (0 + z) a b i j) (EScale (1) 2 (ESum (0 + z) 0 (EMul (r_rleft_X_a_oo (1 + z) i (0 + z)) (ET 1 [(0 + z); j; a; b]))))).
Definition r_rleft_LH_aa_5 (z a b i j : nat) : ex := (EAdd (r_rleft_LH_aa_4 (0 + z) a b i j) (ESum (0 + z) 1 (ESum (1 + z) 0 (EMul (ET 22 [(0 + z); i; (1 + z); a]) (ET 49 [(0 + z); b; (1 + z); j]))))).
Definition r_rleft_LH_aa_6 (z a b i j : nat) : ex := (EAdd (r_rleft_LH_aa_5 (0 + z) a b i j) (ESum (0 + z) 1 (ESum (1 + z) 0 (EMul (ET 26 [i; (0 + z); a; (1 + z)]) (ET 50 [b; (0 + z); j; (1 + z)]))))).
Definition r_rleft_LH_aa_7 (z a b i j : nat) : ex := (EAdd (r_rleft_LH_aa_6 (0 + z) a b i j) (EScale (1) 8 (ESum (0 + z) 0 (ESum (1 + z) 0 (EMul (ET 28 [i; j; (0 + z); (1 + z)]) (ET 49 [a; b; (0 + z); (1 + z)])))))).
Definition r_rleft_LH_aa_8 (z a b i j : nat) : ex := (EAdd (r_rleft_LH_aa_7 (0 + z) a b i j) (EScale (1) 8 (ESum (0 + z) 1 (ESum (1 + z) 1 (EMul (ET 41 [(0 + z); (1 + z); a; b]) (ET 49 [(0 + z); (1 + z); i; j])))))).
Definition r_rleft_LH_aa_9 (z a b i j : nat) : ex := (EAdd (r_rleft_LH_aa_8 (0 + z) a b i j) (EScale (1) 2 (ESum (0 + z) 1 (EMul (ET 8 [(0 + z); j; a; b]) (ET 47 [(0 + z); i]))))).
Definition r_rleft_LH_aa_10 (z a b i j : nat) : ex := (ESub (r_rleft_LH_aa_9 (0 + z) a b i j) (EScale (1) 2 (ESum (0 + z) 0 (EMul (ET 13 [i; j; (0 + z); b]) (ET 47 [a; (0 + z)]))))).
Definition r_rleft_LH_aa_11 (z a b i j : nat) : ex := (ESub (r_rleft_LH_aa_10 (0 + z) a b i j) (ESub (EAdd (r_rleft_LH_aa_10 (0 + z) b a i j) (r_rleft_LH_aa_10 (0 + z) a b j i)) (r_rleft_LH_aa_10 (0 + z) b a j i))).
Definition r_rleft_LH_ab (z a b i j : nat) : ex := (EOpp (ESum (0 + z) 0 (EMul (ET 14 [i; j; (0 + z); b]) (ET 47 [a; (0 + z)])))).
Definition r_rleft_LH_ab_1 (z a b i j : nat) : ex := (ESub (r_rleft_LH_ab (0 + z) a b i j) (ESum (0 + z) 0 (EMul (ET 21 [i; j; a; (0 + z)]) (ET 48 [b; (0 + z)])))).
Definition r_rleft_LH_ab_2 (z a b i j : nat) : ex := (EAdd (r_rleft_LH_ab_1 (0 + z) a b i j) (ESum (0 + z) 1 (EMul (ET 9 [(0 + z); j; a; b]) (ET 47 [(0 + z); i])))).
Definition r_rleft_LH_ab_3 (z a b i j : nat) : ex := (EAdd (r_rleft_LH_ab_2 (0 + z) a b i j) (ESum (0 + z) 1 (EMul (ET 17 [i; (0 + z); a; b]) (ET 48 [(0 + z); j])))).
Definition r_rleft_LH_ab_4 (z a b i j : nat) : ex := (EAdd (r_rleft_LH_ab_3 (0 + z) a b i j) (ESum (0 + z) 0 (ESum (1 + z) 0 (EMul (ET 34 [i; j; (0 + z); (1 + z)]) (ET 50 [a; b; (0 + z); (1 + z)]))))).
Definition r_rleft_LH_ab_5 (z a b i j : nat) : ex := (EAdd (r_rleft_LH_ab_4 (0 + z) a b i j) (ESum (0 + z) 1 (ESum (1 + z) 1 (EMul (ET 43 [(0 + z); (1 + z); a; b]) (ET 50 [(0 + z); (1 + z); i; j]))))).
Definition r_rleft_LH_ab_6 (z a b i j : nat) : ex := (EAdd (r_rleft_LH_ab_5 (0 + z) a b i j) (ESum (0 + z) 1 (ESum (1 + z) 0 (EMul (ET 23 [(0 + z); j; (1 + z); b]) (ET 49 [a; (0 + z); i; (1 + z)]))))).
Definition r_rleft_LH_ab_7 (z a b i j : nat) : ex := (EAdd (r_rleft_LH_ab_6 (0 + z) a b i j) (ESum (0 + z) 1 (ESum (1 + z) 0 (EMul (ET 22 [(0 + z); i; (1 + z); a]) (ET 50 [(0 + z); b; (1 + z); j]))))).
Definition r_rleft_LH_ab_8 (z a b i j : nat) : ex := (EAdd (r_rleft_LH_ab_7 (0 + z) a b i j) (ESum (0 + z) 1 (ESum (1 + z) 0 (EMul (ET 25 [(0 + z); j; (1 + z); b]) (ET 50 [a; (0 + z); i; (1 + z)]))))).
Definition r_rleft_LH_ab_9 (z a b i j : nat) : ex := (EAdd (r_rleft_LH_ab_8 (0 + z) a b i j) (ESum (0 + z) 1 (ESum (1 + z) 0 (EMul (ET 26 [i; (0 + z); a; (1 + z)]) (ET 51 [(0 + z); b; (1 + z); j]))))).
Definition r_rleft_LH_ab_10 (z a b i j : nat) : ex := (ESub (r_rleft_LH_ab_9 (0 + z) a b i j) (ESum (0 + z) 1 (ESum (1 + z) 0 (EMul (ET 35 [i; (0 + z); (1 + z); b]) (ET 50 [a; (0 + z); (1 + z); j]))))).
Definition r_rleft_LH_ab_11 (z a b i j : nat) : ex := (ESub (r_rleft_LH_ab_10 (0 + z) a b i j) (ESum (0 + z) 1 (ESum (1 + z) 0 (EMul (ET 36 [(0 + z); j; a; (1 + z)]) (ET 50 [(0 + z); b; i; (1 + z)]))))).
Definition r_rleft_LH_ab_12 (z a b i j : nat) : ex := (ESub (r_rleft_LH_ab_11 (0 + z) a b i j) (ESum (0 + z) 1 (EMul (r_rleft_X_a_vv (1 + z) (0 + z) a) (ET 3 [i; j; (0 + z); b])))).
Definition r_rleft_LH_ab_13 (z a b i j : nat) : ex := (EAdd (r_rleft_LH_ab_12 (0 + z) a b i j) (ESum (0 + z) 0 (EMul (r_rleft_X_a_oo (1 + z) i (0 + z)) (ET 3 [(0 + z); j; a; b])))).
Definition r_rleft_LH_ab_14 (z a b i j : nat) : ex := (ESub (r_rleft_LH_ab_13 (0 + z) a b i j) (ESum (0 + z) 1 (EMul (r_rleft_X_b_vv (1 + z) (0 + z) b) (ET 3 [i; j; a; (0 + z)])))).
Definition r_rleft_LH_ab_15 (z a b i j : nat) : ex := (EAdd (r_rleft_LH_ab_14 (0 + z) a b i j) (ESum (0 + z) 0 (EMul (r_rleft_X_b_oo (1 + z) j (0 + z)) (ET 3 [i; (0 + z); a; b])))).
Definition r_rleft_LH_ab_16 (z a b i j : nat) : ex := (EAdd (r_rleft_LH_ab_15 (0 + z) a b i j) (ESum (0 + z) 1 (EMul (ET 7 [(0 + z); a]) (ET 50 [(0 + z); b; i; j])))).
Definition r_rleft_LH_ab_17 (z a b i j : nat) : ex := (EAdd (r_rleft_LH_ab_16 (0 + z) a b i j) (ESum (0 + z) 1 (EMul (ET 15 [(0 + z); b]) (ET 50 [a; (0 + z); i; j])))).
Definition r_rleft_LH_ab_18 (z a b i j : nat) : ex := (ESub (r_rleft_LH_ab_17 (0 + z) a b i j) (ESum (0 + z) 0 (EMul (ET 12 [i; (0 + z)]) (ET 50 [a; b; (0 + z); j])))).
Definition r_rleft_LH_ab_19 (z a b i j : nat) : ex := (ESub (r_rleft_LH_ab_18 (0 + z) a b i j) (ESum (0 + z) 0 (EMul (ET 19 [j; (0 + z)]) (ET 50 [a; b; i; (0 + z)])))).
Definition r_rleft_LH_ab_20 (z a b i j : nat) : ex := (EAdd (r_rleft_LH_ab_19 (0 + z) a b i j) (EMul (ET 5 [j; b]) (ET 47 [a; i]))).
Definition r_rleft_LH_ab_21 (z a b i j : nat) : ex := (EAdd (r_rleft_LH_ab_20 (0 + z) a b i j) (EMul (ET 0 [i; a]) (ET 48 [b; j]))).
Definition r_rleft_LH_bb (z a b i j : nat) : ex := (r_rleft_LH_aa_11 (0 + z) a b i j).
Definition p_ccsd_a : ex * ex := (r_ccsd_res_a 2 0 1, r_rccsd_res_a 2 0 1).
Definition p_ccsd_ab : ex * ex := (r_ccsd_res_ab 4 0 1 2 3, r_rccsd_res_ab 4 0 1 2 3).
Definition p_ccsd_b : ex * ex := (r_ccsd_res_b 2 0 1, r_rccsd_res_a 2 0 1).
Definition r_uccsd_four (z a b i j : nat) : ex := (EAdd (ESub (ESub (r_ccsd_res_aa (0 + z) a b i j) (r_ccsd_res_aa (0 + z) b a i j)) (r_ccsd_res_aa (0 + z) a b j i)) (r_ccsd_res_aa (0 + z) b a j i)).
Definition r_vccsd_four (z a b i j : nat) : ex := (EAdd (ESub (ESub (r_ccsd_res_bb (0 + z) a b i j) (r_ccsd_res_bb (0 + z) b a i j)) (r_ccsd_res_bb (0 + z) a b j i)) (r_ccsd_res_bb (0 + z) b a j i)).
Definition r_rccsd_four (z a b i j : nat) : ex := (EAdd (ESub (ESub (r_rccsd_res_aa (0 + z) a b i j) (r_rccsd_res_aa (0 + z) b a i j)) (r_rccsd_res_aa (0 + z) a b j i)) (r_rccsd_res_aa (0 + z) b a j i)).
Definition p_ccsd_aa : ex * ex := (r_uccsd_four 4 0 1 2 3, r_rccsd_four 4 0 1 2 3).
Definition p_ccsd_bb : ex * ex := (r_vccsd_four 4 0 1 2 3, r_rccsd_four 4 0 1 2 3).
Definition p_ccd_ab : ex * ex := (r_ccd_res_ab 4 0 1 2 3, r_rccd_res_ab 4 0 1 2 3).
Definition r_uccd_four (z a b i j : nat) : ex := (EAdd (ESub (ESub (r_ccd_res_aa (0 + z) a b i j) (r_ccd_res_aa (0 + z) b a i j)) (r_ccd_res_aa (0 + z) a b j i)) (r_ccd_res_aa (0 + z) b a j i)).
Definition r_vccd_four (z a b i j : nat) : ex := (EAdd (ESub (ESub (r_ccd_res_bb (0 + z) a b i j) (r_ccd_res_bb (0 + z) b a i j)) (r_ccd_res_bb (0 + z) a b j i)) (r_ccd_res_bb (0 + z) b a j i)).
Definition r_rccd_four (z a b i j : nat) : ex := (EAdd (ESub (ESub (r_rccd_res_aa (0 + z) a b i j) (r_rccd_res_aa (0 + z) b a i j)) (r_rccd_res_aa (0 + z) a b j i)) (r_rccd_res_aa (0 + z) b a j i)).
Definition p_ccd_aa : ex * ex := (r_uccd_four 4 0 1 2 3, r_rccd_four 4 0 1 2 3).
Definition p_ccd_bb : ex * ex := (r_vccd_four 4 0 1 2 3, r_rccd_four 4 0 1 2 3).
Definition p_hb_a_oo : ex * ex := (r_hb_H_a_oo 2 0 1, r_rhb_H_a_oo 2 0 1).
Definition p_hb_a_ov : ex * ex := (r_hb_H_a_ov 2 0 1, r_rhb_H_a_ov 2 0 1).
Definition p_hb_a_vo : ex * ex := (ET 24 [0; 1], ET 24 [0; 1]).
Definition p_hb_a_vv : ex * ex := (r_hb_H_a_vv 2 0 1, r_rhb_H_a_vv 2 0 1).
Definition p_hb_b_oo : ex * ex := (r_hb_H_b_oo 2 0 1, r_rhb_H_b_oo 2 0 1).
Definition p_hb_b_ov : ex * ex := (r_hb_H_b_ov 2 0 1, r_rhb_H_b_ov 2 0 1).
Definition p_hb_b_vo : ex * ex := (ET 27 [0; 1], ET 27 [0; 1]).
Definition p_hb_b_vv : ex * ex := (r_hb_H_b_vv 2 0 1, r_rhb_H_b_vv 2 0 1).
Definition p_hb_aa_oooo : ex * ex := (r_hb_H_aa_oooo_1 4 0 1 2 3, r_rhb_H_aa_oooo_1 4 0 1 2 3).
Definition p_hb_aa_ooov : ex * ex := (r_hb_H_aa_ooov 4 0 1 2 3, r_rhb_H_aa_ooov 4 0 1 2 3).
Definition p_hb_aa_oovo : ex * ex := (ET 52 [0; 1; 2; 3], ET 52 [0; 1; 2; 3]).
Definition p_hb_aa_oovv : ex * ex := (ET 1 [0; 1; 2; 3], ET 1 [0; 1; 2; 3]).
Definition p_hb_aa_ovoo : ex * ex := (ET 53 [0; 1; 2; 3], ET 53 [0; 1; 2; 3]).
Definition p_hb_aa_ovov : ex * ex := (ET 54 [0; 1; 2; 3], ET 54 [0; 1; 2; 3]).
Definition p_hb_aa_ovvo : ex * ex := (ET 55 [0; 1; 2; 3], ET 55 [0; 1; 2; 3]).
Definition p_hb_aa_ovvv : ex * ex := (ET 56 [0; 1; 2; 3], ET 56 [0; 1; 2; 3]).
Definition p_hb_aa_vooo : ex * ex := (r_hb_H_aa_vooo 4 0 1 2 3, r_rhb_H_aa_vooo 4 0 1 2 3).
Definition p_hb_aa_voov : ex * ex := (r_hb_H_aa_voov 4 0 1 2 3, r_rhb_H_aa_voov 4 0 1 2 3).
Definition p_hb_aa_vovo : ex * ex := (ET 57 [0; 1; 2; 3], ET 57 [0; 1; 2; 3]).
Definition p_hb_aa_vovv : ex * ex := (r_hb_H_aa_vovv 4 0 1 2 3, r_rhb_H_aa_vovv 4 0 1 2 3).
Definition p_hb_aa_vvoo : ex * ex := (ET 42 [0; 1; 2; 3], ET 42 [0; 1; 2; 3]).
Definition p_hb_aa_vvov : ex * ex := (r_hb_H_aa_vvov_1 4 0 1 2 3, r_rhb_H_aa_vvov_1 4 0 1 2 3).
Definition p_hb_aa_vvvo : ex * ex := (ET 58 [0; 1; 2; 3], ET 58 [0; 1; 2; 3]).
Definition p_hb_aa_vvvv : ex * ex := (r_hb_H_aa_vvvv_1 4 0 1 2 3, r_rhb_H_aa_vvvv_1 4 0 1 2 3).
Definition p_hb_ab_oooo : ex * ex := (r_hb_H_ab_oooo 4 0 1 2 3, r_rhb_H_ab_oooo 4 0 1 2 3).
Definition p_hb_ab_ooov : ex * ex := (r_hb_H_ab_ooov 4 0 1 2 3, r_rhb_H_ab_ooov 4 0 1 2 3).
Definition p_hb_ab_oovo : ex * ex := (r_hb_H_ab_oovo 4 0 1 2 3, r_rhb_H_ab_oovo 4 0 1 2 3).
Definition p_hb_ab_oovv : ex * ex := (ET 3 [0; 1; 2; 3], ET 3 [0; 1; 2; 3]).
Definition p_hb_ab_ovoo : ex * ex := (r_hb_H_ab_ovoo 4 0 1 2 3, r_rhb_H_ab_ovoo 4 0 1 2 3).
Definition p_hb_ab_ovov : ex * ex := (r_hb_H_ab_ovov 4 0 1 2 3, r_rhb_H_ab_ovov 4 0 1 2 3).
Definition p_hb_ab_ovvo : ex * ex := (r_hb_H_ab_ovvo 4 0 1 2 3, r_rhb_H_ab_ovvo 4 0 1 2 3).
Definition p_hb_ab_ovvv : ex * ex := (r_hb_H_ab_ovvv 4 0 1 2 3, r_rhb_H_ab_ovvv 4 0 1 2 3).
Definition p_hb_ab_vooo : ex * ex := (r_hb_H_ab_vooo 4 0 1 2 3, r_rhb_H_ab_vooo 4 0 1 2 3).
Definition p_hb_ab_voov : ex * ex := (r_hb_H_ab_voov 4 0 1 2 3, r_rhb_H_ab_voov 4 0 1 2 3).
Definition p_hb_ab_vovo : ex * ex := (r_hb_H_ab_vovo 4 0 1 2 3, r_rhb_H_ab_vovo 4 0 1 2 3).
Definition p_hb_ab_vovv : ex * ex := (r_hb_H_ab_vovv 4 0 1 2 3, r_rhb_H_ab_vovv 4 0 1 2 3).
Definition p_hb_ab_vvoo : ex * ex := (ET 44 [0; 1; 2; 3], ET 44 [0; 1; 2; 3]).
Definition p_hb_ab_vvov : ex * ex := (r_hb_H_ab_vvov 4 0 1 2 3, r_rhb_H_ab_vvov 4 0 1 2 3).
Definition p_hb_ab_vvvo : ex * ex := (r_hb_H_ab_vvvo 4 0 1 2 3, r_rhb_H_ab_vvvo 4 0 1 2 3).
Definition p_hb_ab_vvvv : ex * ex := (r_hb_H_ab_vvvv 4 0 1 2 3, r_rhb_H_ab_vvvv 4 0 1 2 3).
Definition p_hb_bb_oooo : ex * ex := (r_hb_H_bb_oooo_1 4 0 1 2 3, r_rhb_H_aa_oooo_1 4 0 1 2 3).
Definition p_hb_bb_ooov : ex * ex := (r_hb_H_bb_ooov 4 0 1 2 3, r_rhb_H_aa_ooov 4 0 1 2 3).
Definition p_hb_bb_oovo : ex * ex := (ET 59 [0; 1; 2; 3], ET 59 [0; 1; 2; 3]).
Definition p_hb_bb_oovv : ex * ex := (ET 6 [0; 1; 2; 3], ET 6 [0; 1; 2; 3]).
Definition p_hb_bb_ovoo : ex * ex := (ET 60 [0; 1; 2; 3], ET 60 [0; 1; 2; 3]).
Definition p_hb_bb_ovov : ex * ex := (ET 61 [0; 1; 2; 3], ET 61 [0; 1; 2; 3]).
Definition p_hb_bb_ovvo : ex * ex := (ET 62 [0; 1; 2; 3], ET 62 [0; 1; 2; 3]).
Definition p_hb_bb_ovvv : ex * ex := (ET 63 [0; 1; 2; 3], ET 63 [0; 1; 2; 3]).
Definition p_hb_bb_vooo : ex * ex := (r_hb_H_bb_vooo 4 0 1 2 3, r_rhb_H_aa_vooo 4 0 1 2 3).
Definition p_hb_bb_voov : ex * ex := (r_hb_H_bb_voov 4 0 1 2 3, r_rhb_H_aa_voov 4 0 1 2 3).
Definition p_hb_bb_vovo : ex * ex := (ET 64 [0; 1; 2; 3], ET 64 [0; 1; 2; 3]).
Definition p_hb_bb_vovv : ex * ex := (r_hb_H_bb_vovv 4 0 1 2 3, r_rhb_H_aa_vovv 4 0 1 2 3).
Definition p_hb_bb_vvoo : ex * ex := (ET 46 [0; 1; 2; 3], ET 46 [0; 1; 2; 3]).
Definition p_hb_bb_vvov : ex * ex := (r_hb_H_bb_vvov_1 4 0 1 2 3, r_rhb_H_aa_vvov_1 4 0 1 2 3).
Definition p_hb_bb_vvvo : ex * ex := (ET 65 [0; 1; 2; 3], ET 65 [0; 1; 2; 3]).
Definition p_hb_bb_vvvv : ex * ex := (r_hb_H_bb_vvvv_1 4 0 1 2 3, r_rhb_H_aa_vvvv_1 4 0 1 2 3).
Definition p_HR_a : ex * ex := (r_eom_X1A_9 2 0 1, r_reom_X1A_9 2 0 1).
Definition p_HR_b : ex * ex := (r_eom_X1B_9 2 0 1, r_reom_dR_b 2 0 1).
Definition p_HR_aa : ex * ex := (r_eom_X2A_11 4 0 1 2 3, r_reom_X2A_11 4 0 1 2 3).
Definition p_HR_ab : ex * ex := (r_eom_X2B_19 4 0 1 2 3, r_reom_X2B_19 4 0 1 2 3).
Definition p_HR_bb : ex * ex := (r_eom_X2C_11 4 0 1 2 3, r_reom_dR_bb 4 0 1 2 3).
Definition p_LH_a : ex * ex := (r_left_LH_a_11 2 0 1, r_rleft_LH_a_11 2 0 1).
Definition p_LH_b : ex * ex := (r_left_LH_b_9 2 0 1, r_rleft_LH_b 2 0 1).
Definition p_LH_aa : ex * ex := (r_left_LH_aa_11 4 0 1 2 3, r_rleft_LH_aa_11 4 0 1 2 3).
Definition p_LH_ab : ex * ex := (r_left_LH_ab_21 4 0 1 2 3, r_rleft_LH_ab_21 4 0 1 2 3).
Definition p_LH_bb : ex * ex := (r_left_LH_bb_11 4 0 1 2 3, r_rleft_LH_bb 4 0 1 2 3).
Definition rhf_arrays (d : dims) (H : ints) (T R : amps) := [ap2 (i_a_ov H);
  ap4 (i_aa_oovv H);
  ap2 (x_a T);
  ap4 (i_ab_oovv H);
  ap2 (x_b T);
  ap2 (i_b_ov H);
  ap4 (i_bb_oovv H);
  ap2 (i_a_vv H);
  ap4 (i_aa_vovv H);
  ap4 (i_ab_vovv H);
  ap4 (x_aa T);
  ap4 (x_ab T);
  ap2 (i_a_oo H);
  ap4 (i_aa_ooov H);
  ap4 (i_ab_ooov H);
  ap2 (i_b_vv H);
  ap4 (i_bb_vovv H);
  ap4 (i_ab_ovvv H);
  ap4 (x_bb T);
  ap2 (i_b_oo H);
  ap4 (i_bb_ooov H);
  ap4 (i_ab_oovo H);
  ap4 (i_aa_voov H);
  ap4 (i_ab_voov H);
  ap2 (i_a_vo H);
  ap4 (i_bb_voov H);
  ap4 (i_ab_ovvo H);
  ap2 (i_b_vo H);
  ap4 (i_aa_oooo H);
  ap4 (i_aa_vooo H);
  ap4 (i_aa_vvov H);
  ap4 (i_bb_oooo H);
  ap4 (i_bb_vooo H);
  ap4 (i_bb_vvov H);
  ap4 (i_ab_oooo H);
  ap4 (i_ab_ovov H);
  ap4 (i_ab_vovo H);
  ap4 (i_ab_ovoo H);
  ap4 (i_ab_vooo H);
  ap4 (i_ab_vvvo H);
  ap4 (i_ab_vvov H);
  ap4 (i_aa_vvvv H);
  ap4 (i_aa_vvoo H);
  ap4 (i_ab_vvvv H);
  ap4 (i_ab_vvoo H);
  ap4 (i_bb_vvvv H);
  ap4 (i_bb_vvoo H);
  ap2 (x_a R);
  ap2 (x_b R);
  ap4 (x_aa R);
  ap4 (x_ab R);
  ap4 (x_bb R);
  ap4 (i_aa_oovo H);
  ap4 (i_aa_ovoo H);
  ap4 (i_aa_ovov H);
  ap4 (i_aa_ovvo H);
  ap4 (i_aa_ovvv H);
  ap4 (i_aa_vovo H);
  ap4 (i_aa_vvvo H);
  ap4 (i_bb_oovo H);
  ap4 (i_bb_ovoo H);
  ap4 (i_bb_ovov H);
  ap4 (i_bb_ovvo H);
  ap4 (i_bb_ovvv H);
  ap4 (i_bb_vovo H);
  ap4 (i_bb_vvvo H)].
Definition rhf_gens : list (nat * (nat * list nat * bool)) := [(1, (1, [1; 0; 2; 3], false));
  (1, (1, [0; 1; 3; 2], false));
  (3, (3, [1; 0; 3; 2], true));
  (4, (2, [0; 1], true));
  (5, (0, [0; 1], true));
  (6, (6, [1; 0; 2; 3], false));
  (6, (6, [0; 1; 3; 2], false));
  (6, (1, [0; 1; 2; 3], true));
  (8, (56, [1; 0; 2; 3], false));
  (8, (8, [0; 1; 3; 2], false));
  (9, (17, [1; 0; 3; 2], true));
  (10, (10, [1; 0; 2; 3], false));
  (10, (10, [0; 1; 3; 2], false));
  (11, (11, [1; 0; 3; 2], true));
  (13, (13, [1; 0; 2; 3], false));
  (13, (52, [0; 1; 3; 2], false));
  (14, (21, [1; 0; 3; 2], true));
  (15, (7, [0; 1], true));
  (16, (63, [1; 0; 2; 3], false));
  (16, (16, [0; 1; 3; 2], false));
  (16, (8, [0; 1; 2; 3], true));
  (17, (9, [1; 0; 3; 2], true));
  (18, (18, [1; 0; 2; 3], false));
  (18, (18, [0; 1; 3; 2], false));
  (18, (10, [0; 1; 2; 3], true));
  (19, (12, [0; 1], true));
  (20, (20, [1; 0; 2; 3], false));
  (20, (59, [0; 1; 3; 2], false));
  (20, (13, [0; 1; 2; 3], true));
  (21, (14, [1; 0; 3; 2], true));
  (22, (54, [1; 0; 2; 3], false));
  (22, (57, [0; 1; 3; 2], false));
  (23, (26, [1; 0; 3; 2], true));
  (25, (61, [1; 0; 2; 3], false));
  (25, (64, [0; 1; 3; 2], false));
  (25, (22, [0; 1; 2; 3], true));
  (26, (23, [1; 0; 3; 2], true));
  (27, (24, [0; 1], true));
  (28, (28, [1; 0; 2; 3], false));
  (28, (28, [0; 1; 3; 2], false));
  (29, (53, [1; 0; 2; 3], false));
  (29, (29, [0; 1; 3; 2], false));
  (30, (30, [1; 0; 2; 3], false));
  (30, (58, [0; 1; 3; 2], false));
  (31, (31, [1; 0; 2; 3], false));
  (31, (31, [0; 1; 3; 2], false));
  (31, (28, [0; 1; 2; 3], true));
  (32, (60, [1; 0; 2; 3], false));
  (32, (32, [0; 1; 3; 2], false));
  (32, (29, [0; 1; 2; 3], true));
  (33, (33, [1; 0; 2; 3], false));
  (33, (65, [0; 1; 3; 2], false));
  (33, (30, [0; 1; 2; 3], true));
  (34, (34, [1; 0; 3; 2], true));
  (35, (36, [1; 0; 3; 2], true));
  (36, (35, [1; 0; 3; 2], true));
  (37, (38, [1; 0; 3; 2], true));
  (38, (37, [1; 0; 3; 2], true));
  (39, (40, [1; 0; 3; 2], true));
  (40, (39, [1; 0; 3; 2], true));
  (41, (41, [1; 0; 2; 3], false));
  (41, (41, [0; 1; 3; 2], false));
  (42, (42, [1; 0; 2; 3], false));
  (42, (42, [0; 1; 3; 2], false));
  (43, (43, [1; 0; 3; 2], true));
  (44, (44, [1; 0; 3; 2], true));
  (45, (45, [1; 0; 2; 3], false));
  (45, (45, [0; 1; 3; 2], false));
  (45, (41, [0; 1; 2; 3], true));
  (46, (46, [1; 0; 2; 3], false));
  (46, (46, [0; 1; 3; 2], false));
  (46, (42, [0; 1; 2; 3], true));
  (48, (47, [0; 1], true));
  (49, (49, [1; 0; 2; 3], false));
  (49, (49, [0; 1; 3; 2], false));
  (50, (50, [1; 0; 3; 2], true));
  (51, (51, [1; 0; 2; 3], false));
  (51, (51, [0; 1; 3; 2], false));
  (51, (49, [0; 1; 2; 3], true));
  (52, (52, [1; 0; 2; 3], false));
  (52, (13, [0; 1; 3; 2], false));
  (53, (29, [1; 0; 2; 3], false));
  (53, (53, [0; 1; 3; 2], false));
  (54, (22, [1; 0; 2; 3], false));
  (54, (55, [0; 1; 3; 2], false));
  (55, (57, [1; 0; 2; 3], false));
  (55, (54, [0; 1; 3; 2], false));
  (56, (8, [1; 0; 2; 3], false));
  (56, (56, [0; 1; 3; 2], false));
  (57, (55, [1; 0; 2; 3], false));
  (57, (22, [0; 1; 3; 2], false));
  (58, (58, [1; 0; 2; 3], false));
  (58, (30, [0; 1; 3; 2], false));
  (59, (59, [1; 0; 2; 3], false));
  (59, (20, [0; 1; 3; 2], false));
  (59, (52, [0; 1; 2; 3], true));
  (60, (32, [1; 0; 2; 3], false));
  (60, (60, [0; 1; 3; 2], false));
  (60, (53, [0; 1; 2; 3], true));
  (61, (25, [1; 0; 2; 3], false));
  (61, (62, [0; 1; 3; 2], false));
  (61, (54, [0; 1; 2; 3], true));
  (62, (64, [1; 0; 2; 3], false));
  (62, (61, [0; 1; 3; 2], false));
  (62, (55, [0; 1; 2; 3], true));
  (63, (16, [1; 0; 2; 3], false));
  (63, (63, [0; 1; 3; 2], false));
  (63, (56, [0; 1; 2; 3], true));
  (64, (62, [1; 0; 2; 3], false));
  (64, (25, [0; 1; 3; 2], false));
  (64, (57, [0; 1; 2; 3], true));
  (65, (65, [1; 0; 2; 3], false));
  (65, (33, [0; 1; 3; 2], false));
  (65, (58, [0; 1; 2; 3], true))].
Definition rhf_tab := Eval vm_compute in symtab rhf_gens 66.
