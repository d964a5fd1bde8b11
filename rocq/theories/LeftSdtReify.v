(** Generated by tools/gen_left_sdt.py: reified right and left EOMCCSDT programs (proof support). *)
From Coq Require Import Reals Arith List ZArith.
From Verif Require Import RSum IntegralsModel TensorObjs TensorAlg EomsdtModel LeftSdtModel.
Import ListNotations.
Local Open Scope nat_scope.
Definition r_eomt_X1A (z a i : nat) : ex := (EOpp (ESum (0 + z) 0 (EMul (ET 0 [(0 + z); i]) (ET 1 [a; (0 + z)])))).
Definition r_eomt_X1A_1 (z a i : nat) : ex := (EAdd (r_eomt_X1A (0 + z) a i) (ESum (0 + z) 1 (EMul (ET 2 [a; (0 + z)]) (ET 1 [(0 + z); i])))).
Definition r_eomt_X1A_2 (z a i : nat) : ex := (EAdd (r_eomt_X1A_1 (0 + z) a i) (ESum (0 + z) 0 (ESum (1 + z) 1 (EMul (ET 3 [a; (0 + z); i; (1 + z)]) (ET 1 [(1 + z); (0 + z)]))))).
Definition r_eomt_X1A_3 (z a i : nat) : ex := (EAdd (r_eomt_X1A_2 (0 + z) a i) (ESum (0 + z) 2 (ESum (1 + z) 3 (EMul (ET 4 [a; (0 + z); i; (1 + z)]) (ET 5 [(1 + z); (0 + z)]))))).
Definition r_eomt_X1A_4 (z a i : nat) : ex := (ESub (r_eomt_X1A_3 (0 + z) a i) (EScale (1) 2 (ESum (0 + z) 0 (ESum (1 + z) 0 (ESum (2 + z) 1 (EMul (ET 6 [(0 + z); (1 + z); i; (2 + z)]) (ET 7 [a; (2 + z); (0 + z); (1 + z)]))))))).
Definition r_eomt_X1A_5 (z a i : nat) : ex := (ESub (r_eomt_X1A_4 (0 + z) a i) (ESum (0 + z) 0 (ESum (1 + z) 2 (ESum (2 + z) 3 (EMul (ET 8 [(0 + z); (1 + z); i; (2 + z)]) (ET 9 [a; (2 + z); (0 + z); (1 + z)])))))).
Definition r_eomt_X1A_6 (z a i : nat) : ex := (EAdd (r_eomt_X1A_5 (0 + z) a i) (EScale (1) 2 (ESum (0 + z) 0 (ESum (1 + z) 1 (ESum (2 + z) 1 (EMul (ET 10 [a; (0 + z); (1 + z); (2 + z)]) (ET 7 [(1 + z); (2 + z); i; (0 + z)]))))))).
Definition r_eomt_X1A_7 (z a i : nat) : ex := (EAdd (r_eomt_X1A_6 (0 + z) a i) (ESum (0 + z) 2 (ESum (1 + z) 1 (ESum (2 + z) 3 (EMul (ET 11 [a; (0 + z); (1 + z); (2 + z)]) (ET 9 [(1 + z); (2 + z); i; (0 + z)])))))).
Definition r_eomt_X1A_8 (z a i : nat) : ex := (EAdd (r_eomt_X1A_7 (0 + z) a i) (ESum (0 + z) 0 (ESum (1 + z) 1 (EMul (ET 12 [(0 + z); (1 + z)]) (ET 7 [a; (1 + z); i; (0 + z)]))))).
Definition r_eomt_X1A_9 (z a i : nat) : ex := (EAdd (r_eomt_X1A_8 (0 + z) a i) (ESum (0 + z) 2 (ESum (1 + z) 3 (EMul (ET 13 [(0 + z); (1 + z)]) (ET 9 [a; (1 + z); i; (0 + z)]))))).
Definition r_eomt_X1A_10 (z a i : nat) : ex := (EAdd (r_eomt_X1A_9 (0 + z) a i) (EScale (1) 4 (ESum (0 + z) 0 (ESum (1 + z) 0 (ESum (2 + z) 1 (ESum (3 + z) 1 (EMul (ET 14 [(0 + z); (1 + z); (2 + z); (3 + z)]) (ET 15 [a; (2 + z); (3 + z); i; (0 + z); (1 + z)])))))))).
Definition r_eomt_X1A_11 (z a i : nat) : ex := (EAdd (r_eomt_X1A_10 (0 + z) a i) (ESum (0 + z) 0 (ESum (1 + z) 2 (ESum (2 + z) 1 (ESum (3 + z) 3 (EMul (ET 16 [(0 + z); (1 + z); (2 + z); (3 + z)]) (ET 17 [a; (2 + z); (3 + z); i; (0 + z); (1 + z)]))))))).
Definition r_eomt_X1A_12 (z a i : nat) : ex := (EAdd (r_eomt_X1A_11 (0 + z) a i) (EScale (1) 4 (ESum (0 + z) 2 (ESum (1 + z) 2 (ESum (2 + z) 3 (ESum (3 + z) 3 (EMul (ET 18 [(0 + z); (1 + z); (2 + z); (3 + z)]) (ET 19 [a; (2 + z); (3 + z); i; (0 + z); (1 + z)])))))))).
Definition r_eomt_X1B (z a i : nat) : ex := (EOpp (ESum (0 + z) 2 (EMul (ET 20 [(0 + z); i]) (ET 5 [a; (0 + z)])))).
Definition r_eomt_X1B_1 (z a i : nat) : ex := (EAdd (r_eomt_X1B (0 + z) a i) (ESum (0 + z) 3 (EMul (ET 21 [a; (0 + z)]) (ET 5 [(0 + z); i])))).
Definition r_eomt_X1B_2 (z a i : nat) : ex := (EAdd (r_eomt_X1B_1 (0 + z) a i) (ESum (0 + z) 0 (ESum (1 + z) 1 (EMul (ET 22 [(0 + z); a; (1 + z); i]) (ET 1 [(1 + z); (0 + z)]))))).
Definition r_eomt_X1B_3 (z a i : nat) : ex := (EAdd (r_eomt_X1B_2 (0 + z) a i) (ESum (0 + z) 2 (ESum (1 + z) 3 (EMul (ET 23 [a; (0 + z); i; (1 + z)]) (ET 5 [(1 + z); (0 + z)]))))).
Definition r_eomt_X1B_4 (z a i : nat) : ex := (ESub (r_eomt_X1B_3 (0 + z) a i) (ESum (0 + z) 0 (ESum (1 + z) 2 (ESum (2 + z) 1 (EMul (ET 24 [(0 + z); (1 + z); (2 + z); i]) (ET 9 [(2 + z); a; (0 + z); (1 + z)])))))).
Definition r_eomt_X1B_5 (z a i : nat) : ex := (ESub (r_eomt_X1B_4 (0 + z) a i) (EScale (1) 2 (ESum (0 + z) 2 (ESum (1 + z) 2 (ESum (2 + z) 3 (EMul (ET 25 [(0 + z); (1 + z); i; (2 + z)]) (ET 26 [a; (2 + z); (0 + z); (1 + z)]))))))).
Definition r_eomt_X1B_6 (z a i : nat) : ex := (EAdd (r_eomt_X1B_5 (0 + z) a i) (ESum (0 + z) 0 (ESum (1 + z) 1 (ESum (2 + z) 3 (EMul (ET 27 [(0 + z); a; (1 + z); (2 + z)]) (ET 9 [(1 + z); (2 + z); (0 + z); i])))))).
Definition r_eomt_X1B_7 (z a i : nat) : ex := (EAdd (r_eomt_X1B_6 (0 + z) a i) (EScale (1) 2 (ESum (0 + z) 2 (ESum (1 + z) 3 (ESum (2 + z) 3 (EMul (ET 28 [a; (0 + z); (1 + z); (2 + z)]) (ET 26 [(1 + z); (2 + z); i; (0 + z)]))))))).
Definition r_eomt_X1B_8 (z a i : nat) : ex := (EAdd (r_eomt_X1B_7 (0 + z) a i) (ESum (0 + z) 0 (ESum (1 + z) 1 (EMul (ET 12 [(0 + z); (1 + z)]) (ET 9 [(1 + z); a; (0 + z); i]))))).
Definition r_eomt_X1B_9 (z a i : nat) : ex := (EAdd (r_eomt_X1B_8 (0 + z) a i) (ESum (0 + z) 2 (ESum (1 + z) 3 (EMul (ET 13 [(0 + z); (1 + z)]) (ET 26 [a; (1 + z); i; (0 + z)]))))).
Definition r_eomt_X1B_10 (z a i : nat) : ex := (EAdd (r_eomt_X1B_9 (0 + z) a i) (EScale (1) 4 (ESum (0 + z) 0 (ESum (1 + z) 0 (ESum (2 + z) 1 (ESum (3 + z) 1 (EMul (ET 14 [(0 + z); (1 + z); (2 + z); (3 + z)]) (ET 17 [(2 + z); (3 + z); a; (0 + z); (1 + z); i])))))))).
Definition r_eomt_X1B_11 (z a i : nat) : ex := (EAdd (r_eomt_X1B_10 (0 + z) a i) (ESum (0 + z) 0 (ESum (1 + z) 2 (ESum (2 + z) 1 (ESum (3 + z) 3 (EMul (ET 16 [(0 + z); (1 + z); (2 + z); (3 + z)]) (ET 19 [(2 + z); (3 + z); a; (0 + z); (1 + z); i]))))))).
Definition r_eomt_X1B_12 (z a i : nat) : ex := (EAdd (r_eomt_X1B_11 (0 + z) a i) (EScale (1) 4 (ESum (0 + z) 2 (ESum (1 + z) 2 (ESum (2 + z) 3 (ESum (3 + z) 3 (EMul (ET 18 [(0 + z); (1 + z); (2 + z); (3 + z)]) (ET 29 [a; (2 + z); (3 + z); i; (0 + z); (1 + z)])))))))).
Definition r_eomt_X_a_ov (z m e : nat) : ex := (EAdd (ESum (0 + z) 0 (ESum (1 + z) 1 (EMul (ET 14 [m; (0 + z); e; (1 + z)]) (ET 1 [(1 + z); (0 + z)])))) (ESum (0 + z) 2 (ESum (1 + z) 3 (EMul (ET 16 [m; (0 + z); e; (1 + z)]) (ET 5 [(1 + z); (0 + z)]))))).
Definition r_eomt_X_b_ov (z m e : nat) : ex := (EAdd (ESum (0 + z) 0 (ESum (1 + z) 1 (EMul (ET 16 [(0 + z); m; (1 + z); e]) (ET 1 [(1 + z); (0 + z)])))) (ESum (0 + z) 2 (ESum (1 + z) 3 (EMul (ET 18 [(0 + z); m; (1 + z); e]) (ET 5 [(1 + z); (0 + z)]))))).
Definition r_eomt_X_a_oo (z m j : nat) : ex := (EAdd (EAdd (EAdd (ESum (0 + z) 0 (ESum (1 + z) 1 (EMul (ET 6 [m; (0 + z); j; (1 + z)]) (ET 1 [(1 + z); (0 + z)])))) (ESum (0 + z) 2 (ESum (1 + z) 3 (EMul (ET 8 [m; (0 + z); j; (1 + z)]) (ET 5 [(1 + z); (0 + z)]))))) (EScale (1) 2 (ESum (0 + z) 0 (ESum (1 + z) 1 (ESum (2 + z) 1 (EMul (ET 14 [m; (0 + z); (1 + z); (2 + z)]) (ET 7 [(1 + z); (2 + z); j; (0 + z)]))))))) (ESum (0 + z) 2 (ESum (1 + z) 1 (ESum (2 + z) 3 (EMul (ET 16 [m; (0 + z); (1 + z); (2 + z)]) (ET 9 [(1 + z); (2 + z); j; (0 + z)])))))).
Definition r_eomt_X_a_vv (z b e : nat) : ex := (ESub (ESub (EAdd (ESum (0 + z) 0 (ESum (1 + z) 1 (EMul (ET 10 [b; (0 + z); e; (1 + z)]) (ET 1 [(1 + z); (0 + z)])))) (ESum (0 + z) 2 (ESum (1 + z) 3 (EMul (ET 11 [b; (0 + z); e; (1 + z)]) (ET 5 [(1 + z); (0 + z)]))))) (EScale (1) 2 (ESum (0 + z) 0 (ESum (1 + z) 0 (ESum (2 + z) 1 (EMul (ET 14 [(0 + z); (1 + z); e; (2 + z)]) (ET 7 [b; (2 + z); (0 + z); (1 + z)]))))))) (ESum (0 + z) 0 (ESum (1 + z) 2 (ESum (2 + z) 3 (EMul (ET 16 [(0 + z); (1 + z); e; (2 + z)]) (ET 9 [b; (2 + z); (0 + z); (1 + z)])))))).
Definition r_eomt_X_b_oo (z m k : nat) : ex := (EAdd (EAdd (EAdd (ESum (0 + z) 0 (ESum (1 + z) 1 (EMul (ET 24 [(0 + z); m; (1 + z); k]) (ET 1 [(1 + z); (0 + z)])))) (ESum (0 + z) 2 (ESum (1 + z) 3 (EMul (ET 25 [m; (0 + z); k; (1 + z)]) (ET 5 [(1 + z); (0 + z)]))))) (ESum (0 + z) 0 (ESum (1 + z) 1 (ESum (2 + z) 3 (EMul (ET 16 [(0 + z); m; (1 + z); (2 + z)]) (ET 9 [(1 + z); (2 + z); (0 + z); k])))))) (EScale (1) 2 (ESum (0 + z) 2 (ESum (1 + z) 3 (ESum (2 + z) 3 (EMul (ET 18 [m; (0 + z); (1 + z); (2 + z)]) (ET 26 [(1 + z); (2 + z); k; (0 + z)]))))))).
Definition r_eomt_X_b_vv (z c e : nat) : ex := (ESub (ESub (EAdd (ESum (0 + z) 0 (ESum (1 + z) 1 (EMul (ET 27 [(0 + z); c; (1 + z); e]) (ET 1 [(1 + z); (0 + z)])))) (ESum (0 + z) 2 (ESum (1 + z) 3 (EMul (ET 28 [c; (0 + z); e; (1 + z)]) (ET 5 [(1 + z); (0 + z)]))))) (EScale (1) 1 (ESum (0 + z) 0 (ESum (1 + z) 2 (ESum (2 + z) 1 (EMul (ET 16 [(0 + z); (1 + z); (2 + z); e]) (ET 9 [(2 + z); c; (0 + z); (1 + z)]))))))) (EScale (1) 2 (ESum (0 + z) 2 (ESum (1 + z) 2 (ESum (2 + z) 3 (EMul (ET 18 [(0 + z); (1 + z); e; (2 + z)]) (ET 26 [(2 + z); c; (1 + z); (0 + z)]))))))).
Definition r_eomt_X2A (z a b i j : nat) : ex := (EScale (-1) 2 (ESum (0 + z) 0 (EMul (ET 0 [(0 + z); i]) (ET 7 [a; b; (0 + z); j])))).
Definition r_eomt_X2A_1 (z a b i j : nat) : ex := (EAdd (r_eomt_X2A (0 + z) a b i j) (EScale (1) 2 (ESum (0 + z) 1 (EMul (ET 2 [a; (0 + z)]) (ET 7 [(0 + z); b; i; j]))))).
Definition r_eomt_X2A_2 (z a b i j : nat) : ex := (EAdd (r_eomt_X2A_1 (0 + z) a b i j) (EScale (1) 8 (ESum (0 + z) 0 (ESum (1 + z) 0 (EMul (ET 30 [(0 + z); (1 + z); i; j]) (ET 7 [a; b; (0 + z); (1 + z)])))))).
Definition r_eomt_X2A_3 (z a b i j : nat) : ex := (EAdd (r_eomt_X2A_2 (0 + z) a b i j) (EScale (1) 8 (ESum (0 + z) 1 (ESum (1 + z) 1 (EMul (ET 31 [a; b; (0 + z); (1 + z)]) (ET 7 [(0 + z); (1 + z); i; j])))))).
Definition r_eomt_X2A_4 (z a b i j : nat) : ex := (EAdd (r_eomt_X2A_3 (0 + z) a b i j) (ESum (0 + z) 0 (ESum (1 + z) 1 (EMul (ET 3 [a; (0 + z); i; (1 + z)]) (ET 7 [(1 + z); b; (0 + z); j]))))).
Definition r_eomt_X2A_5 (z a b i j : nat) : ex := (EAdd (r_eomt_X2A_4 (0 + z) a b i j) (ESum (0 + z) 2 (ESum (1 + z) 3 (EMul (ET 4 [a; (0 + z); i; (1 + z)]) (ET 9 [b; (1 + z); j; (0 + z)]))))).
Definition r_eomt_X2A_6 (z a b i j : nat) : ex := (ESub (r_eomt_X2A_5 (0 + z) a b i j) (EScale (1) 2 (ESum (0 + z) 0 (EMul (ET 32 [b; (0 + z); j; i]) (ET 1 [a; (0 + z)]))))).
Definition r_eomt_X2A_7 (z a b i j : nat) : ex := (EAdd (r_eomt_X2A_6 (0 + z) a b i j) (EScale (1) 2 (ESum (0 + z) 1 (EMul (ET 33 [b; a; j; (0 + z)]) (ET 1 [(0 + z); i]))))).
Definition r_eomt_X2A_8 (z a b i j : nat) : ex := (EAdd (r_eomt_X2A_7 (0 + z) a b i j) (EScale (1) 2 (ESum (0 + z) 1 (EMul (r_eomt_X_a_vv (1 + z) b (0 + z)) (ET 34 [a; (0 + z); i; j]))))).
Definition r_eomt_X2A_9 (z a b i j : nat) : ex := (ESub (r_eomt_X2A_8 (0 + z) a b i j) (EScale (1) 2 (ESum (0 + z) 0 (EMul (r_eomt_X_a_oo (1 + z) (0 + z) j) (ET 34 [a; b; i; (0 + z)]))))).
Definition r_eomt_X2A_10 (z a b i j : nat) : ex := (EAdd (r_eomt_X2A_9 (0 + z) a b i j) (EScale (1) 4 (ESum (0 + z) 0 (ESum (1 + z) 1 (EMul (r_eomt_X_a_ov (2 + z) (0 + z) (1 + z)) (ET 35 [a; b; (1 + z); i; j; (0 + z)])))))).
Definition r_eomt_X2A_11 (z a b i j : nat) : ex := (EAdd (r_eomt_X2A_10 (0 + z) a b i j) (EScale (1) 4 (ESum (0 + z) 2 (ESum (1 + z) 3 (EMul (r_eomt_X_b_ov (2 + z) (0 + z) (1 + z)) (ET 36 [a; b; (1 + z); i; j; (0 + z)])))))).
Definition r_eomt_X2A_12 (z a b i j : nat) : ex := (EAdd (r_eomt_X2A_11 (0 + z) a b i j) (EScale (1) 4 (ESum (0 + z) 0 (ESum (1 + z) 1 (EMul (ET 12 [(0 + z); (1 + z)]) (ET 15 [a; b; (1 + z); i; j; (0 + z)])))))).
Definition r_eomt_X2A_13 (z a b i j : nat) : ex := (EAdd (r_eomt_X2A_12 (0 + z) a b i j) (EScale (1) 4 (ESum (0 + z) 2 (ESum (1 + z) 3 (EMul (ET 13 [(0 + z); (1 + z)]) (ET 17 [a; b; (1 + z); i; j; (0 + z)])))))).
Definition r_eomt_X2A_14 (z a b i j : nat) : ex := (ESub (r_eomt_X2A_13 (0 + z) a b i j) (EScale (1) 4 (ESum (0 + z) 0 (ESum (1 + z) 0 (ESum (2 + z) 1 (EMul (ET 6 [(0 + z); (1 + z); j; (2 + z)]) (ET 15 [a; b; (2 + z); i; (0 + z); (1 + z)]))))))).
Definition r_eomt_X2A_15 (z a b i j : nat) : ex := (ESub (r_eomt_X2A_14 (0 + z) a b i j) (EScale (1) 2 (ESum (0 + z) 0 (ESum (1 + z) 2 (ESum (2 + z) 3 (EMul (ET 8 [(0 + z); (1 + z); j; (2 + z)]) (ET 17 [a; b; (2 + z); i; (0 + z); (1 + z)]))))))).
Definition r_eomt_X2A_16 (z a b i j : nat) : ex := (EAdd (r_eomt_X2A_15 (0 + z) a b i j) (EScale (1) 4 (ESum (0 + z) 0 (ESum (1 + z) 1 (ESum (2 + z) 1 (EMul (ET 10 [b; (0 + z); (1 + z); (2 + z)]) (ET 15 [a; (1 + z); (2 + z); i; j; (0 + z)]))))))).
Definition r_eomt_X2A_17 (z a b i j : nat) : ex := (EAdd (r_eomt_X2A_16 (0 + z) a b i j) (EScale (1) 2 (ESum (0 + z) 2 (ESum (1 + z) 1 (ESum (2 + z) 3 (EMul (ET 11 [b; (0 + z); (1 + z); (2 + z)]) (ET 17 [a; (1 + z); (2 + z); i; j; (0 + z)]))))))).
Definition r_eomt_X2A_18 (z a b i j : nat) : ex := (ESub (r_eomt_X2A_17 (0 + z) a b i j) (r_eomt_X2A_17 (0 + z) b a i j)).
Definition r_eomt_X2A_19 (z a b i j : nat) : ex := (ESub (r_eomt_X2A_18 (0 + z) a b i j) (r_eomt_X2A_18 (0 + z) a b j i)).
Definition r_eomt_X2B (z a b i j : nat) : ex := (ESum (0 + z) 1 (EMul (ET 2 [a; (0 + z)]) (ET 9 [(0 + z); b; i; j]))).
Definition r_eomt_X2B_1 (z a b i j : nat) : ex := (EAdd (r_eomt_X2B (0 + z) a b i j) (ESum (0 + z) 3 (EMul (ET 21 [b; (0 + z)]) (ET 9 [a; (0 + z); i; j])))).
Definition r_eomt_X2B_2 (z a b i j : nat) : ex := (ESub (r_eomt_X2B_1 (0 + z) a b i j) (ESum (0 + z) 0 (EMul (ET 0 [(0 + z); i]) (ET 9 [a; b; (0 + z); j])))).
Definition r_eomt_X2B_3 (z a b i j : nat) : ex := (ESub (r_eomt_X2B_2 (0 + z) a b i j) (ESum (0 + z) 2 (EMul (ET 20 [(0 + z); j]) (ET 9 [a; b; i; (0 + z)])))).
Definition r_eomt_X2B_4 (z a b i j : nat) : ex := (EAdd (r_eomt_X2B_3 (0 + z) a b i j) (ESum (0 + z) 0 (ESum (1 + z) 2 (EMul (ET 37 [(0 + z); (1 + z); i; j]) (ET 9 [a; b; (0 + z); (1 + z)]))))).
Definition r_eomt_X2B_5 (z a b i j : nat) : ex := (EAdd (r_eomt_X2B_4 (0 + z) a b i j) (ESum (0 + z) 1 (ESum (1 + z) 3 (EMul (ET 38 [a; b; (0 + z); (1 + z)]) (ET 9 [(0 + z); (1 + z); i; j]))))).
Definition r_eomt_X2B_6 (z a b i j : nat) : ex := (EAdd (r_eomt_X2B_5 (0 + z) a b i j) (ESum (0 + z) 0 (ESum (1 + z) 1 (EMul (ET 3 [a; (0 + z); i; (1 + z)]) (ET 9 [(1 + z); b; (0 + z); j]))))).
Definition r_eomt_X2B_7 (z a b i j : nat) : ex := (EAdd (r_eomt_X2B_6 (0 + z) a b i j) (ESum (0 + z) 2 (ESum (1 + z) 3 (EMul (ET 4 [a; (0 + z); i; (1 + z)]) (ET 26 [(1 + z); b; (0 + z); j]))))).
Definition r_eomt_X2B_8 (z a b i j : nat) : ex := (EAdd (r_eomt_X2B_7 (0 + z) a b i j) (ESum (0 + z) 0 (ESum (1 + z) 1 (EMul (ET 22 [(0 + z); b; (1 + z); j]) (ET 7 [a; (1 + z); i; (0 + z)]))))).
Definition r_eomt_X2B_9 (z a b i j : nat) : ex := (EAdd (r_eomt_X2B_8 (0 + z) a b i j) (ESum (0 + z) 2 (ESum (1 + z) 3 (EMul (ET 23 [b; (0 + z); j; (1 + z)]) (ET 9 [a; (1 + z); i; (0 + z)]))))).
Definition r_eomt_X2B_10 (z a b i j : nat) : ex := (ESub (r_eomt_X2B_9 (0 + z) a b i j) (ESum (0 + z) 0 (ESum (1 + z) 3 (EMul (ET 39 [(0 + z); b; i; (1 + z)]) (ET 9 [a; (1 + z); (0 + z); j]))))).
Definition r_eomt_X2B_11 (z a b i j : nat) : ex := (ESub (r_eomt_X2B_10 (0 + z) a b i j) (ESum (0 + z) 2 (ESum (1 + z) 1 (EMul (ET 40 [a; (0 + z); (1 + z); j]) (ET 9 [(1 + z); b; i; (0 + z)]))))).
Definition r_eomt_X2B_12 (z a b i j : nat) : ex := (EAdd (r_eomt_X2B_11 (0 + z) a b i j) (ESum (0 + z) 1 (EMul (ET 41 [a; b; (0 + z); j]) (ET 1 [(0 + z); i])))).
Definition r_eomt_X2B_13 (z a b i j : nat) : ex := (EAdd (r_eomt_X2B_12 (0 + z) a b i j) (ESum (0 + z) 3 (EMul (ET 42 [a; b; i; (0 + z)]) (ET 5 [(0 + z); j])))).
Definition r_eomt_X2B_14 (z a b i j : nat) : ex := (ESub (r_eomt_X2B_13 (0 + z) a b i j) (ESum (0 + z) 0 (EMul (ET 43 [(0 + z); b; i; j]) (ET 1 [a; (0 + z)])))).
Definition r_eomt_X2B_15 (z a b i j : nat) : ex := (ESub (r_eomt_X2B_14 (0 + z) a b i j) (ESum (0 + z) 2 (EMul (ET 44 [a; (0 + z); i; j]) (ET 5 [b; (0 + z)])))).
Definition r_eomt_X2B_16 (z a b i j : nat) : ex := (EAdd (r_eomt_X2B_15 (0 + z) a b i j) (ESum (0 + z) 1 (EMul (r_eomt_X_a_vv (1 + z) a (0 + z)) (ET 45 [(0 + z); b; i; j])))).
Definition r_eomt_X2B_17 (z a b i j : nat) : ex := (ESub (r_eomt_X2B_16 (0 + z) a b i j) (ESum (0 + z) 0 (EMul (r_eomt_X_a_oo (1 + z) (0 + z) i) (ET 45 [a; b; (0 + z); j])))).
Definition r_eomt_X2B_18 (z a b i j : nat) : ex := (EAdd (r_eomt_X2B_17 (0 + z) a b i j) (ESum (0 + z) 3 (EMul (r_eomt_X_b_vv (1 + z) b (0 + z)) (ET 45 [a; (0 + z); i; j])))).
Definition r_eomt_X2B_19 (z a b i j : nat) : ex := (ESub (r_eomt_X2B_18 (0 + z) a b i j) (ESum (0 + z) 2 (EMul (r_eomt_X_b_oo (1 + z) (0 + z) j) (ET 45 [a; b; i; (0 + z)])))).
Definition r_eomt_X2B_20 (z a b i j : nat) : ex := (EAdd (r_eomt_X2B_19 (0 + z) a b i j) (ESum (0 + z) 0 (ESum (1 + z) 1 (EMul (r_eomt_X_a_ov (2 + z) (0 + z) (1 + z)) (ET 36 [a; (1 + z); b; i; (0 + z); j]))))).
Definition r_eomt_X2B_21 (z a b i j : nat) : ex := (EAdd (r_eomt_X2B_20 (0 + z) a b i j) (ESum (0 + z) 2 (ESum (1 + z) 3 (EMul (r_eomt_X_b_ov (2 + z) (0 + z) (1 + z)) (ET 46 [a; (1 + z); b; i; (0 + z); j]))))).
Definition r_eomt_X2B_22 (z a b i j : nat) : ex := (EAdd (r_eomt_X2B_21 (0 + z) a b i j) (ESum (0 + z) 0 (ESum (1 + z) 1 (EMul (ET 12 [(0 + z); (1 + z)]) (ET 17 [a; (1 + z); b; i; (0 + z); j]))))).
Definition r_eomt_X2B_23 (z a b i j : nat) : ex := (EAdd (r_eomt_X2B_22 (0 + z) a b i j) (ESum (0 + z) 2 (ESum (1 + z) 3 (EMul (ET 13 [(0 + z); (1 + z)]) (ET 19 [a; (1 + z); b; i; (0 + z); j]))))).
Definition r_eomt_X2B_24 (z a b i j : nat) : ex := (ESub (r_eomt_X2B_23 (0 + z) a b i j) (ESum (0 + z) 0 (ESum (1 + z) 2 (ESum (2 + z) 1 (EMul (ET 24 [(0 + z); (1 + z); (2 + z); j]) (ET 17 [a; (2 + z); b; i; (0 + z); (1 + z)])))))).
Definition r_eomt_X2B_25 (z a b i j : nat) : ex := (ESub (r_eomt_X2B_24 (0 + z) a b i j) (EScale (1) 2 (ESum (0 + z) 2 (ESum (1 + z) 2 (ESum (2 + z) 3 (EMul (ET 25 [(0 + z); (1 + z); j; (2 + z)]) (ET 19 [a; b; (2 + z); i; (0 + z); (1 + z)]))))))).
Definition r_eomt_X2B_26 (z a b i j : nat) : ex := (ESub (r_eomt_X2B_25 (0 + z) a b i j) (EScale (1) 2 (ESum (0 + z) 0 (ESum (1 + z) 0 (ESum (2 + z) 1 (EMul (ET 6 [(0 + z); (1 + z); i; (2 + z)]) (ET 17 [a; (2 + z); b; (0 + z); (1 + z); j]))))))).
Definition r_eomt_X2B_27 (z a b i j : nat) : ex := (ESub (r_eomt_X2B_26 (0 + z) a b i j) (ESum (0 + z) 0 (ESum (1 + z) 2 (ESum (2 + z) 3 (EMul (ET 8 [(0 + z); (1 + z); i; (2 + z)]) (ET 19 [a; b; (2 + z); (0 + z); j; (1 + z)])))))).
Definition r_eomt_X2B_28 (z a b i j : nat) : ex := (EAdd (r_eomt_X2B_27 (0 + z) a b i j) (ESum (0 + z) 0 (ESum (1 + z) 1 (ESum (2 + z) 3 (EMul (ET 27 [(0 + z); b; (1 + z); (2 + z)]) (ET 17 [a; (1 + z); (2 + z); i; (0 + z); j])))))).
Definition r_eomt_X2B_29 (z a b i j : nat) : ex := (EAdd (r_eomt_X2B_28 (0 + z) a b i j) (EScale (1) 2 (ESum (0 + z) 2 (ESum (1 + z) 3 (ESum (2 + z) 3 (EMul (ET 28 [b; (0 + z); (1 + z); (2 + z)]) (ET 19 [a; (1 + z); (2 + z); i; j; (0 + z)]))))))).
Definition r_eomt_X2B_30 (z a b i j : nat) : ex := (EAdd (r_eomt_X2B_29 (0 + z) a b i j) (EScale (1) 2 (ESum (0 + z) 0 (ESum (1 + z) 1 (ESum (2 + z) 1 (EMul (ET 10 [a; (0 + z); (1 + z); (2 + z)]) (ET 17 [(1 + z); (2 + z); b; i; (0 + z); j]))))))).
Definition r_eomt_X2B_31 (z a b i j : nat) : ex := (EAdd (r_eomt_X2B_30 (0 + z) a b i j) (ESum (0 + z) 2 (ESum (1 + z) 1 (ESum (2 + z) 3 (EMul (ET 11 [a; (0 + z); (1 + z); (2 + z)]) (ET 19 [(1 + z); (2 + z); b; i; (0 + z); j])))))).
Definition r_eomt_X2C (z a b i j : nat) : ex := (EScale (-1) 2 (ESum (0 + z) 2 (EMul (ET 20 [(0 + z); i]) (ET 26 [a; b; (0 + z); j])))).
Definition r_eomt_X2C_1 (z a b i j : nat) : ex := (EAdd (r_eomt_X2C (0 + z) a b i j) (EScale (1) 2 (ESum (0 + z) 3 (EMul (ET 21 [a; (0 + z)]) (ET 26 [(0 + z); b; i; j]))))).
Definition r_eomt_X2C_2 (z a b i j : nat) : ex := (EAdd (r_eomt_X2C_1 (0 + z) a b i j) (EScale (1) 8 (ESum (0 + z) 2 (ESum (1 + z) 2 (EMul (ET 47 [(0 + z); (1 + z); i; j]) (ET 26 [a; b; (0 + z); (1 + z)])))))).
Definition r_eomt_X2C_3 (z a b i j : nat) : ex := (EAdd (r_eomt_X2C_2 (0 + z) a b i j) (EScale (1) 8 (ESum (0 + z) 3 (ESum (1 + z) 3 (EMul (ET 48 [a; b; (0 + z); (1 + z)]) (ET 26 [(0 + z); (1 + z); i; j])))))).
Definition r_eomt_X2C_4 (z a b i j : nat) : ex := (EAdd (r_eomt_X2C_3 (0 + z) a b i j) (ESum (0 + z) 2 (ESum (1 + z) 3 (EMul (ET 23 [a; (0 + z); i; (1 + z)]) (ET 26 [(1 + z); b; (0 + z); j]))))).
Definition r_eomt_X2C_5 (z a b i j : nat) : ex := (EAdd (r_eomt_X2C_4 (0 + z) a b i j) (ESum (0 + z) 0 (ESum (1 + z) 1 (EMul (ET 22 [(0 + z); a; (1 + z); i]) (ET 9 [(1 + z); b; (0 + z); j]))))).
Definition r_eomt_X2C_6 (z a b i j : nat) : ex := (ESub (r_eomt_X2C_5 (0 + z) a b i j) (EScale (1) 2 (ESum (0 + z) 2 (EMul (ET 49 [b; (0 + z); j; i]) (ET 5 [a; (0 + z)]))))).
Definition r_eomt_X2C_7 (z a b i j : nat) : ex := (EAdd (r_eomt_X2C_6 (0 + z) a b i j) (EScale (1) 2 (ESum (0 + z) 3 (EMul (ET 50 [b; a; j; (0 + z)]) (ET 5 [(0 + z); i]))))).
Definition r_eomt_X2C_8 (z a b i j : nat) : ex := (EAdd (r_eomt_X2C_7 (0 + z) a b i j) (EScale (1) 2 (ESum (0 + z) 3 (EMul (r_eomt_X_b_vv (1 + z) b (0 + z)) (ET 51 [a; (0 + z); i; j]))))).
Definition r_eomt_X2C_9 (z a b i j : nat) : ex := (ESub (r_eomt_X2C_8 (0 + z) a b i j) (EScale (1) 2 (ESum (0 + z) 2 (EMul (r_eomt_X_b_oo (1 + z) (0 + z) j) (ET 51 [a; b; i; (0 + z)]))))).
Definition r_eomt_X2C_10 (z a b i j : nat) : ex := (EAdd (r_eomt_X2C_9 (0 + z) a b i j) (EScale (1) 4 (ESum (0 + z) 0 (ESum (1 + z) 1 (EMul (r_eomt_X_a_ov (2 + z) (0 + z) (1 + z)) (ET 46 [(1 + z); a; b; (0 + z); i; j])))))).
Definition r_eomt_X2C_11 (z a b i j : nat) : ex := (EAdd (r_eomt_X2C_10 (0 + z) a b i j) (EScale (1) 4 (ESum (0 + z) 2 (ESum (1 + z) 3 (EMul (r_eomt_X_b_ov (2 + z) (0 + z) (1 + z)) (ET 52 [a; b; (1 + z); i; j; (0 + z)])))))).
Definition r_eomt_X2C_12 (z a b i j : nat) : ex := (EAdd (r_eomt_X2C_11 (0 + z) a b i j) (EScale (1) 4 (ESum (0 + z) 0 (ESum (1 + z) 1 (EMul (ET 12 [(0 + z); (1 + z)]) (ET 19 [(1 + z); a; b; (0 + z); i; j])))))).
Definition r_eomt_X2C_13 (z a b i j : nat) : ex := (EAdd (r_eomt_X2C_12 (0 + z) a b i j) (EScale (1) 4 (ESum (0 + z) 2 (ESum (1 + z) 3 (EMul (ET 13 [(0 + z); (1 + z)]) (ET 29 [a; b; (1 + z); i; j; (0 + z)])))))).
Definition r_eomt_X2C_14 (z a b i j : nat) : ex := (ESub (r_eomt_X2C_13 (0 + z) a b i j) (EScale (1) 4 (ESum (0 + z) 2 (ESum (1 + z) 2 (ESum (2 + z) 3 (EMul (ET 25 [(0 + z); (1 + z); j; (2 + z)]) (ET 29 [a; b; (2 + z); i; (0 + z); (1 + z)]))))))).
Definition r_eomt_X2C_15 (z a b i j : nat) : ex := (ESub (r_eomt_X2C_14 (0 + z) a b i j) (EScale (1) 2 (ESum (0 + z) 0 (ESum (1 + z) 2 (ESum (2 + z) 1 (EMul (ET 24 [(0 + z); (1 + z); (2 + z); j]) (ET 19 [(2 + z); a; b; (0 + z); i; (1 + z)]))))))).
Definition r_eomt_X2C_16 (z a b i j : nat) : ex := (EAdd (r_eomt_X2C_15 (0 + z) a b i j) (EScale (1) 4 (ESum (0 + z) 2 (ESum (1 + z) 3 (ESum (2 + z) 3 (EMul (ET 28 [b; (0 + z); (1 + z); (2 + z)]) (ET 29 [a; (1 + z); (2 + z); i; j; (0 + z)]))))))).
Definition r_eomt_X2C_17 (z a b i j : nat) : ex := (EAdd (r_eomt_X2C_16 (0 + z) a b i j) (EScale (1) 2 (ESum (0 + z) 0 (ESum (1 + z) 1 (ESum (2 + z) 3 (EMul (ET 27 [(0 + z); b; (1 + z); (2 + z)]) (ET 19 [(1 + z); a; (2 + z); (0 + z); i; j]))))))).
Definition r_eomt_X2C_18 (z a b i j : nat) : ex := (ESub (r_eomt_X2C_17 (0 + z) a b i j) (r_eomt_X2C_17 (0 + z) b a i j)).
Definition r_eomt_X2C_19 (z a b i j : nat) : ex := (ESub (r_eomt_X2C_18 (0 + z) a b i j) (r_eomt_X2C_18 (0 + z) a b j i)).
Definition r_eomt_X_aa_oovv (z p q r s : nat) : ex := (EC (0) 1).
Definition r_eomt_X_ab_oovv (z p q r s : nat) : ex := (EC (0) 1).
Definition r_eomt_X_bb_oovv (z p q r s : nat) : ex := (EC (0) 1).
Definition r_eomt_X_a_oo_1 (z m j : nat) : ex := (EAdd (ESum (0 + z) 1 (EMul (ET 12 [m; (0 + z)]) (ET 1 [(0 + z); j]))) (r_eomt_X_a_oo (0 + z) m j)).
Definition r_eomt_X_b_oo_1 (z m k : nat) : ex := (EAdd (ESum (0 + z) 3 (EMul (ET 13 [m; (0 + z)]) (ET 5 [(0 + z); k]))) (r_eomt_X_b_oo (0 + z) m k)).
Definition r_eomt_X_a_vv_1 (z b e : nat) : ex := (EAdd (EScale (-1) 1 (ESum (0 + z) 0 (EMul (ET 12 [(0 + z); e]) (ET 1 [b; (0 + z)])))) (r_eomt_X_a_vv (0 + z) b e)).
Definition r_eomt_X_b_vv_1 (z c e : nat) : ex := (EAdd (EScale (-1) 1 (ESum (0 + z) 2 (EMul (ET 13 [(0 + z); e]) (ET 5 [c; (0 + z)])))) (r_eomt_X_b_vv (0 + z) c e)).
Definition r_eomt_X_aa_oooo (z m n i j : nat) : ex := (EAdd (ESum (0 + z) 1 (EMul (ET 6 [n; m; j; (0 + z)]) (ET 1 [(0 + z); i]))) (EScale (1) 4 (ESum (0 + z) 1 (ESum (1 + z) 1 (EMul (ET 14 [m; n; (0 + z); (1 + z)]) (ET 7 [(0 + z); (1 + z); i; j])))))).
Definition r_eomt_X_aa_oooo_1 (z m n i j : nat) : ex := (ESub (r_eomt_X_aa_oooo (0 + z) m n i j) (r_eomt_X_aa_oooo (0 + z) m n j i)).
Definition r_eomt_X_ab_oooo (z n m j k : nat) : ex := (EAdd (EAdd (ESum (0 + z) 3 (EMul (ET 8 [n; m; j; (0 + z)]) (ET 5 [(0 + z); k]))) (ESum (0 + z) 1 (EMul (ET 24 [n; m; (0 + z); k]) (ET 1 [(0 + z); j])))) (ESum (0 + z) 1 (ESum (1 + z) 3 (EMul (ET 16 [n; m; (0 + z); (1 + z)]) (ET 9 [(0 + z); (1 + z); j; k]))))).
Definition r_eomt_X_bb_oooo (z m n i j : nat) : ex := (EAdd (ESum (0 + z) 3 (EMul (ET 25 [m; n; i; (0 + z)]) (ET 5 [(0 + z); j]))) (EScale (1) 4 (ESum (0 + z) 3 (ESum (1 + z) 3 (EMul (ET 18 [m; n; (0 + z); (1 + z)]) (ET 26 [(0 + z); (1 + z); i; j])))))).
Definition r_eomt_X_bb_oooo_1 (z m n i j : nat) : ex := (ESub (r_eomt_X_bb_oooo (0 + z) m n i j) (r_eomt_X_bb_oooo (0 + z) m n j i)).
Definition r_eomt_X_aa_vvvv (z a b e f : nat) : ex := (EAdd (EScale (-1) 1 (ESum (0 + z) 0 (EMul (ET 10 [a; (0 + z); e; f]) (ET 1 [b; (0 + z)])))) (EScale (1) 4 (ESum (0 + z) 0 (ESum (1 + z) 0 (EMul (ET 14 [(0 + z); (1 + z); e; f]) (ET 7 [a; b; (0 + z); (1 + z)])))))).
Definition r_eomt_X_aa_vvvv_1 (z a b e f : nat) : ex := (ESub (r_eomt_X_aa_vvvv (0 + z) a b e f) (r_eomt_X_aa_vvvv (0 + z) b a e f)).
Definition r_eomt_X_ab_vvvv (z b c f e : nat) : ex := (EAdd (ESub (EOpp (ESum (0 + z) 2 (EMul (ET 11 [b; (0 + z); f; e]) (ET 5 [c; (0 + z)])))) (ESum (0 + z) 0 (EMul (ET 27 [(0 + z); c; f; e]) (ET 1 [b; (0 + z)])))) (ESum (0 + z) 0 (ESum (1 + z) 2 (EMul (ET 16 [(0 + z); (1 + z); f; e]) (ET 9 [b; c; (0 + z); (1 + z)]))))).
Definition r_eomt_X_bb_vvvv (z a b e f : nat) : ex := (EAdd (EOpp (ESum (0 + z) 2 (EMul (ET 28 [a; (0 + z); e; f]) (ET 5 [b; (0 + z)])))) (EScale (1) 4 (ESum (0 + z) 2 (ESum (1 + z) 2 (EMul (ET 18 [(0 + z); (1 + z); e; f]) (ET 26 [a; b; (0 + z); (1 + z)])))))).
Definition r_eomt_X_bb_vvvv_1 (z a b e f : nat) : ex := (ESub (r_eomt_X_bb_vvvv (0 + z) a b e f) (r_eomt_X_bb_vvvv (0 + z) b a e f)).
Definition r_eomt_X_aa_voov (z b m j e : nat) : ex := (EAdd (EAdd (EAdd (EScale (-1) 1 (ESum (0 + z) 0 (EMul (ET 6 [(0 + z); m; j; e]) (ET 1 [b; (0 + z)])))) (ESum (0 + z) 1 (EMul (ET 10 [b; m; (0 + z); e]) (ET 1 [(0 + z); j])))) (ESum (0 + z) 0 (ESum (1 + z) 1 (EMul (ET 14 [m; (0 + z); e; (1 + z)]) (ET 7 [(1 + z); b; (0 + z); j]))))) (ESum (0 + z) 2 (ESum (1 + z) 3 (EMul (ET 16 [m; (0 + z); e; (1 + z)]) (ET 9 [b; (1 + z); j; (0 + z)]))))).
Definition r_eomt_X_ab_voov (z b m j e : nat) : ex := (EAdd (EAdd (EAdd (EScale (-1) 1 (ESum (0 + z) 0 (EMul (ET 8 [(0 + z); m; j; e]) (ET 1 [b; (0 + z)])))) (ESum (0 + z) 1 (EMul (ET 11 [b; m; (0 + z); e]) (ET 1 [(0 + z); j])))) (ESum (0 + z) 0 (ESum (1 + z) 1 (EMul (ET 16 [(0 + z); m; (1 + z); e]) (ET 7 [(1 + z); b; (0 + z); j]))))) (ESum (0 + z) 2 (ESum (1 + z) 3 (EMul (ET 18 [m; (0 + z); e; (1 + z)]) (ET 9 [b; (1 + z); j; (0 + z)]))))).
Definition r_eomt_X_ab_ovvo (z n c f k : nat) : ex := (EAdd (EAdd (EAdd (EOpp (ESum (0 + z) 2 (EMul (ET 24 [n; (0 + z); f; k]) (ET 5 [c; (0 + z)])))) (ESum (0 + z) 3 (EMul (ET 27 [n; c; f; (0 + z)]) (ET 5 [(0 + z); k])))) (ESum (0 + z) 0 (ESum (1 + z) 1 (EMul (ET 14 [(0 + z); n; (1 + z); f]) (ET 9 [(1 + z); c; (0 + z); k]))))) (ESum (0 + z) 2 (ESum (1 + z) 3 (EMul (ET 16 [n; (0 + z); f; (1 + z)]) (ET 26 [(1 + z); c; (0 + z); k]))))).
Definition r_eomt_X_ab_vovo (z b m f k : nat) : ex := (ESub (ESub (ESum (0 + z) 3 (EMul (ET 11 [b; m; f; (0 + z)]) (ET 5 [(0 + z); k]))) (ESum (0 + z) 0 (EMul (ET 24 [(0 + z); m; f; k]) (ET 1 [b; (0 + z)])))) (ESum (0 + z) 0 (ESum (1 + z) 3 (EMul (ET 16 [(0 + z); m; f; (1 + z)]) (ET 9 [b; (1 + z); (0 + z); k]))))).
Definition r_eomt_X_ab_ovov (z n c j e : nat) : ex := (ESub (EAdd (EOpp (ESum (0 + z) 2 (EMul (ET 8 [n; (0 + z); j; e]) (ET 5 [c; (0 + z)])))) (ESum (0 + z) 1 (EMul (ET 27 [n; c; (0 + z); e]) (ET 1 [(0 + z); j])))) (ESum (0 + z) 2 (ESum (1 + z) 1 (EMul (ET 16 [n; (0 + z); (1 + z); e]) (ET 9 [(1 + z); c; j; (0 + z)]))))).
Definition r_eomt_X_bb_voov (z c n k f : nat) : ex := (EAdd (EAdd (EAdd (EOpp (ESum (0 + z) 2 (EMul (ET 25 [(0 + z); n; k; f]) (ET 5 [c; (0 + z)])))) (ESum (0 + z) 3 (EMul (ET 28 [c; n; (0 + z); f]) (ET 5 [(0 + z); k])))) (ESum (0 + z) 0 (ESum (1 + z) 1 (EMul (ET 16 [(0 + z); n; (1 + z); f]) (ET 9 [(1 + z); c; (0 + z); k]))))) (ESum (0 + z) 2 (ESum (1 + z) 3 (EMul (ET 18 [(0 + z); n; (1 + z); f]) (ET 26 [(1 + z); c; (0 + z); k]))))).
Definition r_eomt_X_aa_vvov (z b a j e : nat) : ex := (ESub (EAdd (EAdd (EAdd (EAdd (ESum (0 + z) 0 (EMul (ET 3 [a; (0 + z); j; e]) (ET 1 [b; (0 + z)]))) (ESum (0 + z) 0 (ESum (1 + z) 1 (EMul (ET 10 [a; (0 + z); e; (1 + z)]) (ET 7 [b; (1 + z); j; (0 + z)]))))) (ESum (0 + z) 2 (ESum (1 + z) 3 (EMul (ET 11 [a; (0 + z); e; (1 + z)]) (ET 9 [b; (1 + z); j; (0 + z)]))))) (EScale (1) 2 (ESum (0 + z) 1 (EMul (ET 31 [a; b; e; (0 + z)]) (ET 1 [(0 + z); j]))))) (EScale (1) 4 (ESum (0 + z) 0 (ESum (1 + z) 0 (EMul (ET 6 [(0 + z); (1 + z); j; e]) (ET 7 [a; b; (1 + z); (0 + z)])))))) (EScale (1) 2 (ESum (0 + z) 0 (EMul (r_eomt_X_a_ov (1 + z) (0 + z) e) (ET 34 [a; b; (0 + z); j]))))).
Definition r_eomt_X_aa_vvov_1 (z b a j e : nat) : ex := (ESub (r_eomt_X_aa_vvov (0 + z) b a j e) (r_eomt_X_aa_vvov (0 + z) a b j e)).
Definition r_eomt_X_aa_vooo (z b m j i : nat) : ex := (EAdd (ESub (EAdd (EAdd (EOpp (ESum (0 + z) 1 (EMul (ET 3 [b; m; i; (0 + z)]) (ET 1 [(0 + z); j])))) (ESum (0 + z) 0 (ESum (1 + z) 1 (EMul (ET 6 [m; (0 + z); i; (1 + z)]) (ET 7 [b; (1 + z); j; (0 + z)]))))) (ESum (0 + z) 2 (ESum (1 + z) 3 (EMul (ET 8 [m; (0 + z); i; (1 + z)]) (ET 9 [b; (1 + z); j; (0 + z)]))))) (EScale (1) 2 (ESum (0 + z) 0 (EMul (ET 30 [m; (0 + z); i; j]) (ET 1 [b; (0 + z)]))))) (EScale (1) 4 (ESum (0 + z) 1 (ESum (1 + z) 1 (EMul (ET 10 [b; m; (0 + z); (1 + z)]) (ET 7 [(1 + z); (0 + z); i; j])))))).
Definition r_eomt_X_aa_vooo_1 (z b m j i : nat) : ex := (ESub (r_eomt_X_aa_vooo (0 + z) b m j i) (r_eomt_X_aa_vooo (0 + z) b m i j)).
Definition r_eomt_X_ab_vvvo (z b c e k : nat) : ex := (ESub (ESub (EAdd (EAdd (EAdd (EAdd (ESub (EOpp (ESum (0 + z) 0 (EMul (ET 22 [(0 + z); c; e; k]) (ET 1 [b; (0 + z)])))) (ESum (0 + z) 2 (EMul (ET 40 [b; (0 + z); e; k]) (ET 5 [c; (0 + z)])))) (ESum (0 + z) 3 (EMul (ET 38 [b; c; e; (0 + z)]) (ET 5 [(0 + z); k])))) (ESum (0 + z) 0 (ESum (1 + z) 2 (EMul (ET 24 [(0 + z); (1 + z); e; k]) (ET 9 [b; c; (0 + z); (1 + z)]))))) (ESum (0 + z) 0 (ESum (1 + z) 1 (EMul (ET 10 [b; (0 + z); e; (1 + z)]) (ET 9 [(1 + z); c; (0 + z); k]))))) (ESum (0 + z) 2 (ESum (1 + z) 3 (EMul (ET 11 [b; (0 + z); e; (1 + z)]) (ET 26 [(1 + z); c; (0 + z); k]))))) (ESum (0 + z) 0 (ESum (1 + z) 3 (EMul (ET 27 [(0 + z); c; e; (1 + z)]) (ET 9 [b; (1 + z); (0 + z); k]))))) (ESum (0 + z) 0 (EMul (r_eomt_X_a_ov (1 + z) (0 + z) e) (ET 45 [b; c; (0 + z); k])))).
Definition r_eomt_X_ab_ovoo (z n c j k : nat) : ex := (ESub (EAdd (EAdd (EAdd (EAdd (EAdd (EOpp (ESum (0 + z) 2 (EMul (ET 37 [n; (0 + z); j; k]) (ET 5 [c; (0 + z)])))) (ESum (0 + z) 3 (EMul (ET 39 [n; c; j; (0 + z)]) (ET 5 [(0 + z); k])))) (ESum (0 + z) 1 (EMul (ET 22 [n; c; (0 + z); k]) (ET 1 [(0 + z); j])))) (ESum (0 + z) 1 (ESum (1 + z) 3 (EMul (ET 27 [n; c; (0 + z); (1 + z)]) (ET 9 [(0 + z); (1 + z); j; k]))))) (ESum (0 + z) 0 (ESum (1 + z) 1 (EMul (ET 6 [n; (0 + z); j; (1 + z)]) (ET 9 [(1 + z); c; (0 + z); k]))))) (ESum (0 + z) 2 (ESum (1 + z) 3 (EMul (ET 8 [n; (0 + z); j; (1 + z)]) (ET 26 [(1 + z); c; (0 + z); k]))))) (ESum (0 + z) 2 (ESum (1 + z) 1 (EMul (ET 24 [n; (0 + z); (1 + z); k]) (ET 9 [(1 + z); c; j; (0 + z)]))))).
Definition r_eomt_X_ab_vvov (z b c j e : nat) : ex := (ESub (ESub (EAdd (EAdd (EAdd (EAdd (ESub (EOpp (ESum (0 + z) 0 (EMul (ET 39 [(0 + z); c; j; e]) (ET 1 [b; (0 + z)])))) (ESum (0 + z) 2 (EMul (ET 4 [b; (0 + z); j; e]) (ET 5 [c; (0 + z)])))) (ESum (0 + z) 1 (EMul (ET 38 [b; c; (0 + z); e]) (ET 1 [(0 + z); j])))) (ESum (0 + z) 0 (ESum (1 + z) 2 (EMul (ET 8 [(0 + z); (1 + z); j; e]) (ET 9 [b; c; (0 + z); (1 + z)]))))) (ESum (0 + z) 0 (ESum (1 + z) 1 (EMul (ET 27 [(0 + z); c; (1 + z); e]) (ET 7 [b; (1 + z); j; (0 + z)]))))) (ESum (0 + z) 2 (ESum (1 + z) 3 (EMul (ET 28 [c; (0 + z); e; (1 + z)]) (ET 9 [b; (1 + z); j; (0 + z)]))))) (ESum (0 + z) 2 (ESum (1 + z) 1 (EMul (ET 11 [b; (0 + z); (1 + z); e]) (ET 9 [(1 + z); c; j; (0 + z)]))))) (ESum (0 + z) 2 (EMul (r_eomt_X_b_ov (1 + z) (0 + z) e) (ET 45 [b; c; j; (0 + z)])))).
Definition r_eomt_X_ab_vooo (z b n j k : nat) : ex := (ESub (EAdd (EAdd (EAdd (EAdd (EAdd (EOpp (ESum (0 + z) 0 (EMul (ET 37 [(0 + z); n; j; k]) (ET 1 [b; (0 + z)])))) (ESum (0 + z) 3 (EMul (ET 4 [b; n; j; (0 + z)]) (ET 5 [(0 + z); k])))) (ESum (0 + z) 1 (EMul (ET 40 [b; n; (0 + z); k]) (ET 1 [(0 + z); j])))) (ESum (0 + z) 1 (ESum (1 + z) 3 (EMul (ET 11 [b; n; (0 + z); (1 + z)]) (ET 9 [(0 + z); (1 + z); j; k]))))) (ESum (0 + z) 0 (ESum (1 + z) 1 (EMul (ET 24 [(0 + z); n; (1 + z); k]) (ET 7 [b; (1 + z); j; (0 + z)]))))) (ESum (0 + z) 2 (ESum (1 + z) 3 (EMul (ET 25 [n; (0 + z); k; (1 + z)]) (ET 9 [b; (1 + z); j; (0 + z)]))))) (ESum (0 + z) 0 (ESum (1 + z) 3 (EMul (ET 8 [(0 + z); n; j; (1 + z)]) (ET 9 [b; (1 + z); (0 + z); k]))))).
Definition r_eomt_X_bb_vvov (z b a j e : nat) : ex := (ESub (EAdd (EAdd (EAdd (EAdd (ESum (0 + z) 2 (EMul (ET 23 [a; (0 + z); j; e]) (ET 5 [b; (0 + z)]))) (EScale (1) 2 (ESum (0 + z) 3 (EMul (ET 48 [a; b; e; (0 + z)]) (ET 5 [(0 + z); j]))))) (EScale (1) 4 (ESum (0 + z) 2 (ESum (1 + z) 2 (EMul (ET 25 [(0 + z); (1 + z); j; e]) (ET 26 [a; b; (1 + z); (0 + z)])))))) (ESum (0 + z) 2 (ESum (1 + z) 3 (EMul (ET 28 [a; (0 + z); e; (1 + z)]) (ET 26 [b; (1 + z); j; (0 + z)]))))) (ESum (0 + z) 0 (ESum (1 + z) 1 (EMul (ET 27 [(0 + z); a; (1 + z); e]) (ET 9 [(1 + z); b; (0 + z); j]))))) (EScale (1) 2 (ESum (0 + z) 2 (EMul (r_eomt_X_b_ov (1 + z) (0 + z) e) (ET 51 [a; b; (0 + z); j]))))).
Definition r_eomt_X_bb_vvov_1 (z b a j e : nat) : ex := (ESub (r_eomt_X_bb_vvov (0 + z) b a j e) (r_eomt_X_bb_vvov (0 + z) a b j e)).
Definition r_eomt_X_bb_vooo (z b n j i : nat) : ex := (EAdd (EAdd (EAdd (ESub (EScale (-1) 2 (ESum (0 + z) 2 (EMul (ET 47 [n; (0 + z); i; j]) (ET 5 [b; (0 + z)])))) (ESum (0 + z) 3 (EMul (ET 23 [b; n; i; (0 + z)]) (ET 5 [(0 + z); j])))) (EScale (1) 4 (ESum (0 + z) 3 (ESum (1 + z) 3 (EMul (ET 28 [b; n; (0 + z); (1 + z)]) (ET 26 [(1 + z); (0 + z); i; j])))))) (ESum (0 + z) 2 (ESum (1 + z) 3 (EMul (ET 25 [n; (0 + z); i; (1 + z)]) (ET 26 [b; (1 + z); j; (0 + z)]))))) (ESum (0 + z) 0 (ESum (1 + z) 1 (EMul (ET 24 [(0 + z); n; (1 + z); i]) (ET 9 [(1 + z); b; (0 + z); j]))))).
Definition r_eomt_X_bb_vooo_1 (z b n j i : nat) : ex := (ESub (r_eomt_X_bb_vooo (0 + z) b n j i) (r_eomt_X_bb_vooo (0 + z) b n i j)).
Definition r_eomt_X_aa_vvov_2 (z b a j e : nat) : ex := (EAdd (r_eomt_X_aa_vvov_1 (0 + z) b a j e) (ESub (EScale (-1) 2 (ESum (0 + z) 0 (ESum (1 + z) 0 (ESum (2 + z) 1 (EMul (ET 14 [(0 + z); (1 + z); e; (2 + z)]) (ET 15 [b; a; (2 + z); j; (0 + z); (1 + z)])))))) (ESum (0 + z) 0 (ESum (1 + z) 2 (ESum (2 + z) 3 (EMul (ET 16 [(0 + z); (1 + z); e; (2 + z)]) (ET 17 [b; a; (2 + z); j; (0 + z); (1 + z)]))))))).
Definition r_eomt_X_aa_vooo_2 (z b m j i : nat) : ex := (EAdd (r_eomt_X_aa_vooo_1 (0 + z) b m j i) (EAdd (EScale (1) 2 (ESum (0 + z) 0 (ESum (1 + z) 1 (ESum (2 + z) 1 (EMul (ET 14 [m; (0 + z); (1 + z); (2 + z)]) (ET 15 [(1 + z); (2 + z); b; i; (0 + z); j])))))) (ESum (0 + z) 2 (ESum (1 + z) 1 (ESum (2 + z) 3 (EMul (ET 16 [m; (0 + z); (1 + z); (2 + z)]) (ET 17 [(1 + z); b; (2 + z); i; j; (0 + z)]))))))).
Definition r_eomt_X_ab_vvvo_1 (z b c e k : nat) : ex := (EAdd (r_eomt_X_ab_vvvo (0 + z) b c e k) (ESub (EScale (-1) 2 (ESum (0 + z) 0 (ESum (1 + z) 0 (ESum (2 + z) 1 (EMul (ET 14 [(0 + z); (1 + z); e; (2 + z)]) (ET 17 [b; (2 + z); c; (0 + z); (1 + z); k])))))) (ESum (0 + z) 0 (ESum (1 + z) 2 (ESum (2 + z) 3 (EMul (ET 16 [(0 + z); (1 + z); e; (2 + z)]) (ET 19 [b; (2 + z); c; (0 + z); (1 + z); k]))))))).
Definition r_eomt_X_ab_ovoo_1 (z n c j k : nat) : ex := (EAdd (r_eomt_X_ab_ovoo (0 + z) n c j k) (EAdd (EScale (1) 2 (ESum (0 + z) 0 (ESum (1 + z) 1 (ESum (2 + z) 1 (EMul (ET 14 [n; (0 + z); (1 + z); (2 + z)]) (ET 17 [(1 + z); (2 + z); c; j; (0 + z); k])))))) (ESum (0 + z) 2 (ESum (1 + z) 1 (ESum (2 + z) 3 (EMul (ET 16 [n; (0 + z); (1 + z); (2 + z)]) (ET 19 [(1 + z); (2 + z); c; j; (0 + z); k]))))))).
Definition r_eomt_X_ab_vvov_1 (z b c j e : nat) : ex := (EAdd (r_eomt_X_ab_vvov (0 + z) b c j e) (ESub (EOpp (ESum (0 + z) 0 (ESum (1 + z) 2 (ESum (2 + z) 1 (EMul (ET 16 [(0 + z); (1 + z); (2 + z); e]) (ET 17 [b; (2 + z); c; j; (0 + z); (1 + z)])))))) (EScale (1) 2 (ESum (0 + z) 2 (ESum (1 + z) 2 (ESum (2 + z) 3 (EMul (ET 18 [(0 + z); (1 + z); e; (2 + z)]) (ET 19 [b; (2 + z); c; j; (1 + z); (0 + z)])))))))).
Definition r_eomt_X_ab_vooo_1 (z b n j k : nat) : ex := (EAdd (r_eomt_X_ab_vooo (0 + z) b n j k) (EAdd (ESum (0 + z) 0 (ESum (1 + z) 1 (ESum (2 + z) 3 (EMul (ET 16 [(0 + z); n; (1 + z); (2 + z)]) (ET 17 [b; (1 + z); (2 + z); j; (0 + z); k]))))) (EScale (1) 2 (ESum (0 + z) 2 (ESum (1 + z) 3 (ESum (2 + z) 3 (EMul (ET 18 [n; (0 + z); (1 + z); (2 + z)]) (ET 19 [b; (1 + z); (2 + z); j; k; (0 + z)])))))))).
Definition r_eomt_X_bb_vvov_2 (z b a j e : nat) : ex := (EAdd (r_eomt_X_bb_vvov_1 (0 + z) b a j e) (ESub (EScale (-1) 2 (ESum (0 + z) 2 (ESum (1 + z) 2 (ESum (2 + z) 3 (EMul (ET 18 [(0 + z); (1 + z); e; (2 + z)]) (ET 29 [a; b; (2 + z); (0 + z); j; (1 + z)])))))) (ESum (0 + z) 0 (ESum (1 + z) 2 (ESum (2 + z) 1 (EMul (ET 16 [(0 + z); (1 + z); (2 + z); e]) (ET 19 [(2 + z); b; a; (0 + z); j; (1 + z)]))))))).
Definition r_eomt_X_bb_vooo_2 (z b n j i : nat) : ex := (EAdd (r_eomt_X_bb_vooo_1 (0 + z) b n j i) (EAdd (EScale (1) 2 (ESum (0 + z) 2 (ESum (1 + z) 3 (ESum (2 + z) 3 (EMul (ET 18 [n; (0 + z); (1 + z); (2 + z)]) (ET 29 [b; (1 + z); (2 + z); j; i; (0 + z)])))))) (ESum (0 + z) 0 (ESum (1 + z) 1 (ESum (2 + z) 3 (EMul (ET 16 [(0 + z); n; (1 + z); (2 + z)]) (ET 19 [(1 + z); (2 + z); b; (0 + z); i; j]))))))).
Definition r_eomt_X3A (z a b c i j k : nat) : ex := (EScale (1) 4 (ESum (0 + z) 1 (EMul (r_eomt_X_aa_vvov_2 (1 + z) b a j (0 + z)) (ET 34 [(0 + z); c; i; k])))).
Definition r_eomt_X3A_1 (z a b c i j k : nat) : ex := (EAdd (r_eomt_X3A (0 + z) a b c i j k) (EScale (1) 4 (ESum (0 + z) 1 (EMul (ET 33 [b; a; j; (0 + z)]) (ET 7 [(0 + z); c; i; k]))))).
Definition r_eomt_X3A_2 (z a b c i j k : nat) : ex := (ESub (r_eomt_X3A_1 (0 + z) a b c i j k) (EScale (1) 4 (ESum (0 + z) 0 (EMul (r_eomt_X_aa_vooo_2 (1 + z) b (0 + z) j i) (ET 34 [a; c; (0 + z); k]))))).
Definition r_eomt_X3A_3 (z a b c i j k : nat) : ex := (ESub (r_eomt_X3A_2 (0 + z) a b c i j k) (EScale (1) 4 (ESum (0 + z) 0 (EMul (ET 32 [b; (0 + z); j; i]) (ET 7 [a; c; (0 + z); k]))))).
Definition r_eomt_X3A_4 (z a b c i j k : nat) : ex := (EAdd (r_eomt_X3A_3 (0 + z) a b c i j k) (EScale (1) 12 (ESum (0 + z) 1 (EMul (r_eomt_X_a_vv_1 (1 + z) b (0 + z)) (ET 35 [a; (0 + z); c; i; j; k]))))).
Definition r_eomt_X3A_5 (z a b c i j k : nat) : ex := (ESub (r_eomt_X3A_4 (0 + z) a b c i j k) (EScale (1) 12 (ESum (0 + z) 0 (EMul (r_eomt_X_a_oo_1 (1 + z) (0 + z) j) (ET 35 [a; b; c; i; (0 + z); k]))))).
Definition r_eomt_X3A_6 (z a b c i j k : nat) : ex := (EAdd (r_eomt_X3A_5 (0 + z) a b c i j k) (EScale (1) 24 (ESum (0 + z) 0 (ESum (1 + z) 0 (EMul (r_eomt_X_aa_oooo_1 (2 + z) (0 + z) (1 + z) i j) (ET 35 [a; b; c; (0 + z); (1 + z); k])))))).
Definition r_eomt_X3A_7 (z a b c i j k : nat) : ex := (EAdd (r_eomt_X3A_6 (0 + z) a b c i j k) (EScale (1) 24 (ESum (0 + z) 1 (ESum (1 + z) 1 (EMul (r_eomt_X_aa_vvvv_1 (2 + z) a b (0 + z) (1 + z)) (ET 35 [(0 + z); (1 + z); c; i; j; k])))))).
Definition r_eomt_X3A_8 (z a b c i j k : nat) : ex := (EAdd (r_eomt_X3A_7 (0 + z) a b c i j k) (EScale (1) 4 (ESum (0 + z) 0 (ESum (1 + z) 1 (EMul (r_eomt_X_aa_voov (2 + z) b (0 + z) j (1 + z)) (ET 35 [a; (1 + z); c; i; (0 + z); k])))))).
Definition r_eomt_X3A_9 (z a b c i j k : nat) : ex := (EAdd (r_eomt_X3A_8 (0 + z) a b c i j k) (EScale (1) 4 (ESum (0 + z) 2 (ESum (1 + z) 3 (EMul (r_eomt_X_ab_voov (2 + z) b (0 + z) j (1 + z)) (ET 36 [a; c; (1 + z); i; k; (0 + z)])))))).
Definition r_eomt_X3A_10 (z a b c i j k : nat) : ex := (ESub (r_eomt_X3A_9 (0 + z) a b c i j k) (EScale (1) 12 (ESum (0 + z) 0 (EMul (ET 0 [(0 + z); j]) (ET 15 [a; b; c; i; (0 + z); k]))))).
Definition r_eomt_X3A_11 (z a b c i j k : nat) : ex := (EAdd (r_eomt_X3A_10 (0 + z) a b c i j k) (EScale (1) 12 (ESum (0 + z) 1 (EMul (ET 2 [b; (0 + z)]) (ET 15 [a; (0 + z); c; i; j; k]))))).
Definition r_eomt_X3A_12 (z a b c i j k : nat) : ex := (EAdd (r_eomt_X3A_11 (0 + z) a b c i j k) (EScale (1) 24 (ESum (0 + z) 0 (ESum (1 + z) 0 (EMul (ET 30 [(0 + z); (1 + z); i; j]) (ET 15 [a; b; c; (0 + z); (1 + z); k])))))).
Definition r_eomt_X3A_13 (z a b c i j k : nat) : ex := (EAdd (r_eomt_X3A_12 (0 + z) a b c i j k) (EScale (1) 24 (ESum (0 + z) 1 (ESum (1 + z) 1 (EMul (ET 31 [a; b; (0 + z); (1 + z)]) (ET 15 [(0 + z); (1 + z); c; i; j; k])))))).
Definition r_eomt_X3A_14 (z a b c i j k : nat) : ex := (EAdd (r_eomt_X3A_13 (0 + z) a b c i j k) (EScale (1) 4 (ESum (0 + z) 0 (ESum (1 + z) 1 (EMul (ET 3 [a; (0 + z); i; (1 + z)]) (ET 15 [(1 + z); b; c; (0 + z); j; k])))))).
Definition r_eomt_X3A_15 (z a b c i j k : nat) : ex := (EAdd (r_eomt_X3A_14 (0 + z) a b c i j k) (EScale (1) 4 (ESum (0 + z) 2 (ESum (1 + z) 3 (EMul (ET 4 [a; (0 + z); i; (1 + z)]) (ET 17 [b; c; (1 + z); j; k; (0 + z)])))))).
Definition r_eomt_X3A_16 (z a b c i j k : nat) : ex := (ESub (r_eomt_X3A_15 (0 + z) a b c i j k) (r_eomt_X3A_15 (0 + z) a b c i k j)).
Definition r_eomt_X3A_17 (z a b c i j k : nat) : ex := (ESub (r_eomt_X3A_16 (0 + z) a b c i j k) (EAdd (r_eomt_X3A_16 (0 + z) a b c j i k) (r_eomt_X3A_16 (0 + z) a b c k j i))).
Definition r_eomt_X3A_18 (z a b c i j k : nat) : ex := (ESub (r_eomt_X3A_17 (0 + z) a b c i j k) (r_eomt_X3A_17 (0 + z) a c b i j k)).
Definition r_eomt_X3A_19 (z a b c i j k : nat) : ex := (ESub (r_eomt_X3A_18 (0 + z) a b c i j k) (EAdd (r_eomt_X3A_18 (0 + z) b a c i j k) (r_eomt_X3A_18 (0 + z) c b a i j k))).
Definition r_eomt_X3B (z a b c i j k : nat) : ex := (EScale (1) 2 (ESum (0 + z) 1 (EMul (r_eomt_X_ab_vvvo_1 (1 + z) b c (0 + z) k) (ET 34 [a; (0 + z); i; j])))).
Definition r_eomt_X3B_1 (z a b c i j k : nat) : ex := (EAdd (r_eomt_X3B (0 + z) a b c i j k) (EScale (1) 2 (ESum (0 + z) 1 (EMul (ET 41 [b; c; (0 + z); k]) (ET 7 [a; (0 + z); i; j]))))).
Definition r_eomt_X3B_2 (z a b c i j k : nat) : ex := (ESub (r_eomt_X3B_1 (0 + z) a b c i j k) (EScale (1) 2 (ESum (0 + z) 0 (EMul (r_eomt_X_ab_ovoo_1 (1 + z) (0 + z) c j k) (ET 34 [a; b; i; (0 + z)]))))).
Definition r_eomt_X3B_3 (z a b c i j k : nat) : ex := (ESub (r_eomt_X3B_2 (0 + z) a b c i j k) (EScale (1) 2 (ESum (0 + z) 0 (EMul (ET 43 [(0 + z); c; j; k]) (ET 7 [a; b; i; (0 + z)]))))).
Definition r_eomt_X3B_4 (z a b c i j k : nat) : ex := (EAdd (r_eomt_X3B_3 (0 + z) a b c i j k) (EScale (1) 2 (ESum (0 + z) 1 (EMul (r_eomt_X_aa_vvov_2 (1 + z) b a j (0 + z)) (ET 45 [(0 + z); c; i; k]))))).
Definition r_eomt_X3B_5 (z a b c i j k : nat) : ex := (EAdd (r_eomt_X3B_4 (0 + z) a b c i j k) (EScale (1) 2 (ESum (0 + z) 1 (EMul (ET 33 [b; a; j; (0 + z)]) (ET 9 [(0 + z); c; i; k]))))).
Definition r_eomt_X3B_6 (z a b c i j k : nat) : ex := (ESub (r_eomt_X3B_5 (0 + z) a b c i j k) (EScale (1) 2 (ESum (0 + z) 0 (EMul (r_eomt_X_aa_vooo_2 (1 + z) b (0 + z) j i) (ET 45 [a; c; (0 + z); k]))))).
Definition r_eomt_X3B_7 (z a b c i j k : nat) : ex := (ESub (r_eomt_X3B_6 (0 + z) a b c i j k) (EScale (1) 2 (ESum (0 + z) 0 (EMul (ET 32 [b; (0 + z); j; i]) (ET 9 [a; c; (0 + z); k]))))).
Definition r_eomt_X3B_8 (z a b c i j k : nat) : ex := (EAdd (r_eomt_X3B_7 (0 + z) a b c i j k) (ESum (0 + z) 3 (EMul (r_eomt_X_ab_vvov_1 (1 + z) b c j (0 + z)) (ET 45 [a; (0 + z); i; k])))).
Definition r_eomt_X3B_9 (z a b c i j k : nat) : ex := (EAdd (r_eomt_X3B_8 (0 + z) a b c i j k) (ESum (0 + z) 3 (EMul (ET 42 [b; c; j; (0 + z)]) (ET 9 [a; (0 + z); i; k])))).
Definition r_eomt_X3B_10 (z a b c i j k : nat) : ex := (ESub (r_eomt_X3B_9 (0 + z) a b c i j k) (ESum (0 + z) 2 (EMul (r_eomt_X_ab_vooo_1 (1 + z) b (0 + z) j k) (ET 45 [a; c; i; (0 + z)])))).
Definition r_eomt_X3B_11 (z a b c i j k : nat) : ex := (ESub (r_eomt_X3B_10 (0 + z) a b c i j k) (ESum (0 + z) 2 (EMul (ET 44 [b; (0 + z); j; k]) (ET 9 [a; c; i; (0 + z)])))).
Definition r_eomt_X3B_12 (z a b c i j k : nat) : ex := (EAdd (r_eomt_X3B_11 (0 + z) a b c i j k) (EScale (1) 2 (ESum (0 + z) 1 (EMul (r_eomt_X_a_vv_1 (1 + z) b (0 + z)) (ET 36 [a; (0 + z); c; i; j; k]))))).
Definition r_eomt_X3B_13 (z a b c i j k : nat) : ex := (EAdd (r_eomt_X3B_12 (0 + z) a b c i j k) (EScale (1) 4 (ESum (0 + z) 3 (EMul (r_eomt_X_b_vv_1 (1 + z) c (0 + z)) (ET 36 [a; b; (0 + z); i; j; k]))))).
Definition r_eomt_X3B_14 (z a b c i j k : nat) : ex := (ESub (r_eomt_X3B_13 (0 + z) a b c i j k) (EScale (1) 2 (ESum (0 + z) 0 (EMul (r_eomt_X_a_oo_1 (1 + z) (0 + z) j) (ET 36 [a; b; c; i; (0 + z); k]))))).
Definition r_eomt_X3B_15 (z a b c i j k : nat) : ex := (ESub (r_eomt_X3B_14 (0 + z) a b c i j k) (EScale (1) 4 (ESum (0 + z) 2 (EMul (r_eomt_X_b_oo_1 (1 + z) (0 + z) k) (ET 36 [a; b; c; i; j; (0 + z)]))))).
Definition r_eomt_X3B_16 (z a b c i j k : nat) : ex := (EAdd (r_eomt_X3B_15 (0 + z) a b c i j k) (EScale (1) 2 (ESum (0 + z) 0 (ESum (1 + z) 2 (EMul (r_eomt_X_ab_oooo (2 + z) (0 + z) (1 + z) j k) (ET 36 [a; b; c; i; (0 + z); (1 + z)])))))).
Definition r_eomt_X3B_17 (z a b c i j k : nat) : ex := (EAdd (r_eomt_X3B_16 (0 + z) a b c i j k) (EScale (1) 8 (ESum (0 + z) 0 (ESum (1 + z) 0 (EMul (r_eomt_X_aa_oooo_1 (2 + z) (0 + z) (1 + z) i j) (ET 36 [a; b; c; (0 + z); (1 + z); k])))))).
Definition r_eomt_X3B_18 (z a b c i j k : nat) : ex := (EAdd (r_eomt_X3B_17 (0 + z) a b c i j k) (EScale (1) 2 (ESum (0 + z) 1 (ESum (1 + z) 3 (EMul (r_eomt_X_ab_vvvv (2 + z) b c (0 + z) (1 + z)) (ET 36 [a; (0 + z); (1 + z); i; j; k])))))).
Definition r_eomt_X3B_19 (z a b c i j k : nat) : ex := (EAdd (r_eomt_X3B_18 (0 + z) a b c i j k) (EScale (1) 8 (ESum (0 + z) 1 (ESum (1 + z) 1 (EMul (r_eomt_X_aa_vvvv_1 (2 + z) a b (0 + z) (1 + z)) (ET 36 [(0 + z); (1 + z); c; i; j; k])))))).
Definition r_eomt_X3B_20 (z a b c i j k : nat) : ex := (EAdd (r_eomt_X3B_19 (0 + z) a b c i j k) (EScale (1) 4 (ESum (0 + z) 0 (ESum (1 + z) 1 (EMul (r_eomt_X_ab_ovvo (2 + z) (0 + z) c (1 + z) k) (ET 35 [a; b; (1 + z); i; j; (0 + z)])))))).
Definition r_eomt_X3B_21 (z a b c i j k : nat) : ex := (EAdd (r_eomt_X3B_20 (0 + z) a b c i j k) (EScale (1) 4 (ESum (0 + z) 2 (ESum (1 + z) 3 (EMul (r_eomt_X_bb_voov (2 + z) c (0 + z) k (1 + z)) (ET 36 [a; b; (1 + z); i; j; (0 + z)])))))).
Definition r_eomt_X3B_22 (z a b c i j k : nat) : ex := (ESub (r_eomt_X3B_21 (0 + z) a b c i j k) (EScale (1) 2 (ESum (0 + z) 2 (ESum (1 + z) 1 (EMul (r_eomt_X_ab_vovo (2 + z) b (0 + z) (1 + z) k) (ET 36 [a; (1 + z); c; i; j; (0 + z)])))))).
Definition r_eomt_X3B_23 (z a b c i j k : nat) : ex := (ESub (r_eomt_X3B_22 (0 + z) a b c i j k) (EScale (1) 2 (ESum (0 + z) 0 (ESum (1 + z) 3 (EMul (r_eomt_X_ab_ovov (2 + z) (0 + z) c j (1 + z)) (ET 36 [a; b; (1 + z); i; (0 + z); k])))))).
Definition r_eomt_X3B_24 (z a b c i j k : nat) : ex := (EAdd (r_eomt_X3B_23 (0 + z) a b c i j k) (ESum (0 + z) 0 (ESum (1 + z) 1 (EMul (r_eomt_X_aa_voov (2 + z) b (0 + z) j (1 + z)) (ET 36 [a; (1 + z); c; i; (0 + z); k]))))).
Definition r_eomt_X3B_25 (z a b c i j k : nat) : ex := (EAdd (r_eomt_X3B_24 (0 + z) a b c i j k) (ESum (0 + z) 2 (ESum (1 + z) 3 (EMul (r_eomt_X_ab_voov (2 + z) b (0 + z) j (1 + z)) (ET 46 [a; (1 + z); c; i; (0 + z); k]))))).
Definition r_eomt_X3B_26 (z a b c i j k : nat) : ex := (ESub (r_eomt_X3B_25 (0 + z) a b c i j k) (EScale (1) 2 (ESum (0 + z) 0 (EMul (ET 0 [(0 + z); j]) (ET 17 [a; b; c; i; (0 + z); k]))))).
Definition r_eomt_X3B_27 (z a b c i j k : nat) : ex := (ESub (r_eomt_X3B_26 (0 + z) a b c i j k) (EScale (1) 4 (ESum (0 + z) 2 (EMul (ET 20 [(0 + z); k]) (ET 17 [a; b; c; i; j; (0 + z)]))))).
Definition r_eomt_X3B_28 (z a b c i j k : nat) : ex := (EAdd (r_eomt_X3B_27 (0 + z) a b c i j k) (EScale (1) 2 (ESum (0 + z) 1 (EMul (ET 2 [b; (0 + z)]) (ET 17 [a; (0 + z); c; i; j; k]))))).
Definition r_eomt_X3B_29 (z a b c i j k : nat) : ex := (EAdd (r_eomt_X3B_28 (0 + z) a b c i j k) (EScale (1) 4 (ESum (0 + z) 3 (EMul (ET 21 [c; (0 + z)]) (ET 17 [a; b; (0 + z); i; j; k]))))).
Definition r_eomt_X3B_30 (z a b c i j k : nat) : ex := (EAdd (r_eomt_X3B_29 (0 + z) a b c i j k) (EScale (1) 8 (ESum (0 + z) 0 (ESum (1 + z) 0 (EMul (ET 30 [(0 + z); (1 + z); i; j]) (ET 17 [a; b; c; (0 + z); (1 + z); k])))))).
Definition r_eomt_X3B_31 (z a b c i j k : nat) : ex := (EAdd (r_eomt_X3B_30 (0 + z) a b c i j k) (EScale (1) 2 (ESum (0 + z) 0 (ESum (1 + z) 2 (EMul (ET 37 [(0 + z); (1 + z); j; k]) (ET 17 [a; b; c; i; (0 + z); (1 + z)])))))).
Definition r_eomt_X3B_32 (z a b c i j k : nat) : ex := (EAdd (r_eomt_X3B_31 (0 + z) a b c i j k) (EScale (1) 8 (ESum (0 + z) 1 (ESum (1 + z) 1 (EMul (ET 31 [a; b; (0 + z); (1 + z)]) (ET 17 [(0 + z); (1 + z); c; i; j; k])))))).
Definition r_eomt_X3B_33 (z a b c i j k : nat) : ex := (EAdd (r_eomt_X3B_32 (0 + z) a b c i j k) (EScale (1) 2 (ESum (0 + z) 1 (ESum (1 + z) 3 (EMul (ET 38 [b; c; (0 + z); (1 + z)]) (ET 17 [a; (0 + z); (1 + z); i; j; k])))))).
Definition r_eomt_X3B_34 (z a b c i j k : nat) : ex := (EAdd (r_eomt_X3B_33 (0 + z) a b c i j k) (ESum (0 + z) 0 (ESum (1 + z) 1 (EMul (ET 3 [a; (0 + z); i; (1 + z)]) (ET 17 [(1 + z); b; c; (0 + z); j; k]))))).
Definition r_eomt_X3B_35 (z a b c i j k : nat) : ex := (EAdd (r_eomt_X3B_34 (0 + z) a b c i j k) (ESum (0 + z) 2 (ESum (1 + z) 3 (EMul (ET 4 [a; (0 + z); i; (1 + z)]) (ET 19 [b; (1 + z); c; j; (0 + z); k]))))).
Definition r_eomt_X3B_36 (z a b c i j k : nat) : ex := (EAdd (r_eomt_X3B_35 (0 + z) a b c i j k) (EScale (1) 4 (ESum (0 + z) 0 (ESum (1 + z) 1 (EMul (ET 22 [(0 + z); c; (1 + z); k]) (ET 15 [a; b; (1 + z); i; j; (0 + z)])))))).
Definition r_eomt_X3B_37 (z a b c i j k : nat) : ex := (EAdd (r_eomt_X3B_36 (0 + z) a b c i j k) (EScale (1) 4 (ESum (0 + z) 2 (ESum (1 + z) 3 (EMul (ET 23 [c; (0 + z); k; (1 + z)]) (ET 17 [a; b; (1 + z); i; j; (0 + z)])))))).
Definition r_eomt_X3B_38 (z a b c i j k : nat) : ex := (ESub (r_eomt_X3B_37 (0 + z) a b c i j k) (EScale (1) 2 (ESum (0 + z) 2 (ESum (1 + z) 1 (EMul (ET 40 [b; (0 + z); (1 + z); k]) (ET 17 [a; (1 + z); c; i; j; (0 + z)])))))).
Definition r_eomt_X3B_39 (z a b c i j k : nat) : ex := (ESub (r_eomt_X3B_38 (0 + z) a b c i j k) (EScale (1) 2 (ESum (0 + z) 0 (ESum (1 + z) 3 (EMul (ET 39 [(0 + z); c; j; (1 + z)]) (ET 17 [a; b; (1 + z); i; (0 + z); k])))))).
Definition r_eomt_X3B_40 (z a b c i j k : nat) : ex := (ESub (r_eomt_X3B_39 (0 + z) a b c i j k) (r_eomt_X3B_39 (0 + z) b a c i j k)).
Definition r_eomt_X3B_41 (z a b c i j k : nat) : ex := (ESub (r_eomt_X3B_40 (0 + z) a b c i j k) (r_eomt_X3B_40 (0 + z) a b c j i k)).
Definition r_eomt_X3C (z c b a k j i : nat) : ex := (EScale (1) 2 (ESum (0 + z) 3 (EMul (r_eomt_X_ab_vvov_1 (1 + z) c b k (0 + z)) (ET 51 [a; (0 + z); i; j])))).
Definition r_eomt_X3C_1 (z c b a k j i : nat) : ex := (EAdd (r_eomt_X3C (0 + z) c b a k j i) (EScale (1) 2 (ESum (0 + z) 3 (EMul (ET 42 [c; b; k; (0 + z)]) (ET 26 [a; (0 + z); i; j]))))).
Definition r_eomt_X3C_2 (z c b a k j i : nat) : ex := (ESub (r_eomt_X3C_1 (0 + z) c b a k j i) (EScale (1) 2 (ESum (0 + z) 2 (EMul (r_eomt_X_ab_vooo_1 (1 + z) c (0 + z) k j) (ET 51 [a; b; i; (0 + z)]))))).
Definition r_eomt_X3C_3 (z c b a k j i : nat) : ex := (ESub (r_eomt_X3C_2 (0 + z) c b a k j i) (EScale (1) 2 (ESum (0 + z) 2 (EMul (ET 44 [c; (0 + z); k; j]) (ET 26 [a; b; i; (0 + z)]))))).
Definition r_eomt_X3C_4 (z c b a k j i : nat) : ex := (EAdd (r_eomt_X3C_3 (0 + z) c b a k j i) (EScale (1) 2 (ESum (0 + z) 3 (EMul (r_eomt_X_bb_vvov_2 (1 + z) b a j (0 + z)) (ET 45 [c; (0 + z); k; i]))))).
Definition r_eomt_X3C_5 (z c b a k j i : nat) : ex := (EAdd (r_eomt_X3C_4 (0 + z) c b a k j i) (EScale (1) 2 (ESum (0 + z) 3 (EMul (ET 50 [b; a; j; (0 + z)]) (ET 9 [c; (0 + z); k; i]))))).
Definition r_eomt_X3C_6 (z c b a k j i : nat) : ex := (ESub (r_eomt_X3C_5 (0 + z) c b a k j i) (EScale (1) 2 (ESum (0 + z) 2 (EMul (r_eomt_X_bb_vooo_2 (1 + z) b (0 + z) j i) (ET 45 [c; a; k; (0 + z)]))))).
Definition r_eomt_X3C_7 (z c b a k j i : nat) : ex := (ESub (r_eomt_X3C_6 (0 + z) c b a k j i) (EScale (1) 2 (ESum (0 + z) 2 (EMul (ET 49 [b; (0 + z); j; i]) (ET 9 [c; a; k; (0 + z)]))))).
Definition r_eomt_X3C_8 (z c b a k j i : nat) : ex := (EAdd (r_eomt_X3C_7 (0 + z) c b a k j i) (ESum (0 + z) 1 (EMul (r_eomt_X_ab_vvvo_1 (1 + z) c b (0 + z) j) (ET 45 [(0 + z); a; k; i])))).
Definition r_eomt_X3C_9 (z c b a k j i : nat) : ex := (EAdd (r_eomt_X3C_8 (0 + z) c b a k j i) (ESum (0 + z) 1 (EMul (ET 41 [c; b; (0 + z); j]) (ET 9 [(0 + z); a; k; i])))).
Definition r_eomt_X3C_10 (z c b a k j i : nat) : ex := (ESub (r_eomt_X3C_9 (0 + z) c b a k j i) (ESum (0 + z) 0 (EMul (r_eomt_X_ab_ovoo_1 (1 + z) (0 + z) b k j) (ET 45 [c; a; (0 + z); i])))).
Definition r_eomt_X3C_11 (z c b a k j i : nat) : ex := (ESub (r_eomt_X3C_10 (0 + z) c b a k j i) (ESum (0 + z) 0 (EMul (ET 43 [(0 + z); b; k; j]) (ET 9 [c; a; (0 + z); i])))).
Definition r_eomt_X3C_12 (z c b a k j i : nat) : ex := (EAdd (r_eomt_X3C_11 (0 + z) c b a k j i) (EScale (1) 2 (ESum (0 + z) 3 (EMul (r_eomt_X_b_vv_1 (1 + z) b (0 + z)) (ET 46 [c; (0 + z); a; k; j; i]))))).
Definition r_eomt_X3C_13 (z c b a k j i : nat) : ex := (EAdd (r_eomt_X3C_12 (0 + z) c b a k j i) (EScale (1) 4 (ESum (0 + z) 1 (EMul (r_eomt_X_a_vv_1 (1 + z) c (0 + z)) (ET 46 [(0 + z); b; a; k; j; i]))))).
Definition r_eomt_X3C_14 (z c b a k j i : nat) : ex := (ESub (r_eomt_X3C_13 (0 + z) c b a k j i) (EScale (1) 2 (ESum (0 + z) 2 (EMul (r_eomt_X_b_oo_1 (1 + z) (0 + z) j) (ET 46 [c; b; a; k; (0 + z); i]))))).
Definition r_eomt_X3C_15 (z c b a k j i : nat) : ex := (ESub (r_eomt_X3C_14 (0 + z) c b a k j i) (EScale (1) 4 (ESum (0 + z) 0 (EMul (r_eomt_X_a_oo_1 (1 + z) (0 + z) k) (ET 46 [c; b; a; (0 + z); j; i]))))).
Definition r_eomt_X3C_16 (z c b a k j i : nat) : ex := (EAdd (r_eomt_X3C_15 (0 + z) c b a k j i) (EScale (1) 2 (ESum (0 + z) 0 (ESum (1 + z) 2 (EMul (r_eomt_X_ab_oooo (2 + z) (0 + z) (1 + z) k j) (ET 46 [c; b; a; (0 + z); (1 + z); i])))))).
Definition r_eomt_X3C_17 (z c b a k j i : nat) : ex := (EAdd (r_eomt_X3C_16 (0 + z) c b a k j i) (EScale (1) 8 (ESum (0 + z) 2 (ESum (1 + z) 2 (EMul (r_eomt_X_bb_oooo_1 (2 + z) (0 + z) (1 + z) i j) (ET 46 [c; b; a; k; (1 + z); (0 + z)])))))).
Definition r_eomt_X3C_18 (z c b a k j i : nat) : ex := (EAdd (r_eomt_X3C_17 (0 + z) c b a k j i) (EScale (1) 2 (ESum (0 + z) 1 (ESum (1 + z) 3 (EMul (r_eomt_X_ab_vvvv (2 + z) c b (0 + z) (1 + z)) (ET 46 [(0 + z); (1 + z); a; k; j; i])))))).
Definition r_eomt_X3C_19 (z c b a k j i : nat) : ex := (EAdd (r_eomt_X3C_18 (0 + z) c b a k j i) (EScale (1) 8 (ESum (0 + z) 3 (ESum (1 + z) 3 (EMul (r_eomt_X_bb_vvvv_1 (2 + z) a b (0 + z) (1 + z)) (ET 46 [c; (1 + z); (0 + z); k; j; i])))))).
Definition r_eomt_X3C_20 (z c b a k j i : nat) : ex := (EAdd (r_eomt_X3C_19 (0 + z) c b a k j i) (EScale (1) 4 (ESum (0 + z) 2 (ESum (1 + z) 3 (EMul (r_eomt_X_ab_voov (2 + z) c (0 + z) k (1 + z)) (ET 52 [a; b; (1 + z); i; j; (0 + z)])))))).
Definition r_eomt_X3C_21 (z c b a k j i : nat) : ex := (EAdd (r_eomt_X3C_20 (0 + z) c b a k j i) (EScale (1) 4 (ESum (0 + z) 0 (ESum (1 + z) 1 (EMul (r_eomt_X_aa_voov (2 + z) c (0 + z) k (1 + z)) (ET 46 [(1 + z); b; a; (0 + z); j; i])))))).
Definition r_eomt_X3C_22 (z c b a k j i : nat) : ex := (ESub (r_eomt_X3C_21 (0 + z) c b a k j i) (EScale (1) 2 (ESum (0 + z) 0 (ESum (1 + z) 3 (EMul (r_eomt_X_ab_ovov (2 + z) (0 + z) b k (1 + z)) (ET 46 [c; (1 + z); a; (0 + z); j; i])))))).
Definition r_eomt_X3C_23 (z c b a k j i : nat) : ex := (ESub (r_eomt_X3C_22 (0 + z) c b a k j i) (EScale (1) 2 (ESum (0 + z) 2 (ESum (1 + z) 1 (EMul (r_eomt_X_ab_vovo (2 + z) c (0 + z) (1 + z) j) (ET 46 [(1 + z); b; a; k; (0 + z); i])))))).
Definition r_eomt_X3C_24 (z c b a k j i : nat) : ex := (EAdd (r_eomt_X3C_23 (0 + z) c b a k j i) (ESum (0 + z) 2 (ESum (1 + z) 3 (EMul (r_eomt_X_bb_voov (2 + z) b (0 + z) j (1 + z)) (ET 46 [c; (1 + z); a; k; (0 + z); i]))))).
Definition r_eomt_X3C_25 (z c b a k j i : nat) : ex := (EAdd (r_eomt_X3C_24 (0 + z) c b a k j i) (ESum (0 + z) 0 (ESum (1 + z) 1 (EMul (r_eomt_X_ab_ovvo (2 + z) (0 + z) b (1 + z) j) (ET 36 [c; (1 + z); a; k; (0 + z); i]))))).
Definition r_eomt_X3C_26 (z c b a k j i : nat) : ex := (ESub (r_eomt_X3C_25 (0 + z) c b a k j i) (EScale (1) 2 (ESum (0 + z) 2 (EMul (ET 20 [(0 + z); j]) (ET 19 [c; b; a; k; (0 + z); i]))))).
Definition r_eomt_X3C_27 (z c b a k j i : nat) : ex := (ESub (r_eomt_X3C_26 (0 + z) c b a k j i) (EScale (1) 4 (ESum (0 + z) 0 (EMul (ET 0 [(0 + z); k]) (ET 19 [c; b; a; (0 + z); j; i]))))).
Definition r_eomt_X3C_28 (z c b a k j i : nat) : ex := (EAdd (r_eomt_X3C_27 (0 + z) c b a k j i) (EScale (1) 2 (ESum (0 + z) 3 (EMul (ET 21 [b; (0 + z)]) (ET 19 [c; (0 + z); a; k; j; i]))))).
Definition r_eomt_X3C_29 (z c b a k j i : nat) : ex := (EAdd (r_eomt_X3C_28 (0 + z) c b a k j i) (EScale (1) 4 (ESum (0 + z) 1 (EMul (ET 2 [c; (0 + z)]) (ET 19 [(0 + z); b; a; k; j; i]))))).
Definition r_eomt_X3C_30 (z c b a k j i : nat) : ex := (EAdd (r_eomt_X3C_29 (0 + z) c b a k j i) (EScale (1) 8 (ESum (0 + z) 2 (ESum (1 + z) 2 (EMul (ET 47 [(0 + z); (1 + z); i; j]) (ET 19 [c; b; a; k; (1 + z); (0 + z)])))))).
Definition r_eomt_X3C_31 (z c b a k j i : nat) : ex := (EAdd (r_eomt_X3C_30 (0 + z) c b a k j i) (EScale (1) 2 (ESum (0 + z) 0 (ESum (1 + z) 2 (EMul (ET 37 [(0 + z); (1 + z); k; j]) (ET 19 [c; b; a; (0 + z); (1 + z); i])))))).
Definition r_eomt_X3C_32 (z c b a k j i : nat) : ex := (EAdd (r_eomt_X3C_31 (0 + z) c b a k j i) (EScale (1) 8 (ESum (0 + z) 3 (ESum (1 + z) 3 (EMul (ET 48 [a; b; (0 + z); (1 + z)]) (ET 19 [c; (1 + z); (0 + z); k; j; i])))))).
Definition r_eomt_X3C_33 (z c b a k j i : nat) : ex := (EAdd (r_eomt_X3C_32 (0 + z) c b a k j i) (EScale (1) 2 (ESum (0 + z) 1 (ESum (1 + z) 3 (EMul (ET 38 [c; b; (0 + z); (1 + z)]) (ET 19 [(0 + z); (1 + z); a; k; j; i])))))).
Definition r_eomt_X3C_34 (z c b a k j i : nat) : ex := (EAdd (r_eomt_X3C_33 (0 + z) c b a k j i) (ESum (0 + z) 2 (ESum (1 + z) 3 (EMul (ET 23 [a; (0 + z); i; (1 + z)]) (ET 19 [c; b; (1 + z); k; j; (0 + z)]))))).
Definition r_eomt_X3C_35 (z c b a k j i : nat) : ex := (EAdd (r_eomt_X3C_34 (0 + z) c b a k j i) (ESum (0 + z) 0 (ESum (1 + z) 1 (EMul (ET 22 [(0 + z); a; (1 + z); i]) (ET 17 [c; (1 + z); b; k; (0 + z); j]))))).
Definition r_eomt_X3C_36 (z c b a k j i : nat) : ex := (EAdd (r_eomt_X3C_35 (0 + z) c b a k j i) (EScale (1) 4 (ESum (0 + z) 2 (ESum (1 + z) 3 (EMul (ET 4 [c; (0 + z); k; (1 + z)]) (ET 29 [(1 + z); b; a; (0 + z); j; i])))))).
Definition r_eomt_X3C_37 (z c b a k j i : nat) : ex := (EAdd (r_eomt_X3C_36 (0 + z) c b a k j i) (EScale (1) 4 (ESum (0 + z) 0 (ESum (1 + z) 1 (EMul (ET 3 [c; (0 + z); k; (1 + z)]) (ET 19 [(1 + z); b; a; (0 + z); j; i])))))).
Definition r_eomt_X3C_38 (z c b a k j i : nat) : ex := (ESub (r_eomt_X3C_37 (0 + z) c b a k j i) (EScale (1) 2 (ESum (0 + z) 0 (ESum (1 + z) 3 (EMul (ET 39 [(0 + z); b; k; (1 + z)]) (ET 19 [c; (1 + z); a; (0 + z); j; i])))))).
Definition r_eomt_X3C_39 (z c b a k j i : nat) : ex := (ESub (r_eomt_X3C_38 (0 + z) c b a k j i) (EScale (1) 2 (ESum (0 + z) 2 (ESum (1 + z) 1 (EMul (ET 40 [c; (0 + z); (1 + z); j]) (ET 19 [(1 + z); b; a; k; (0 + z); i])))))).
Definition r_eomt_X3C_40 (z c b a k j i : nat) : ex := (ESub (r_eomt_X3C_39 (0 + z) c b a k j i) (r_eomt_X3C_39 (0 + z) c a b k j i)).
Definition r_eomt_X3C_41 (z c b a k j i : nat) : ex := (ESub (r_eomt_X3C_40 (0 + z) c b a k j i) (r_eomt_X3C_40 (0 + z) c b a k i j)).
Definition r_eomt_X3D (z a b c i j k : nat) : ex := (EScale (1) 4 (ESum (0 + z) 3 (EMul (r_eomt_X_bb_vvov_2 (1 + z) b a j (0 + z)) (ET 51 [(0 + z); c; i; k])))).
Definition r_eomt_X3D_1 (z a b c i j k : nat) : ex := (EAdd (r_eomt_X3D (0 + z) a b c i j k) (EScale (1) 4 (ESum (0 + z) 3 (EMul (ET 50 [b; a; j; (0 + z)]) (ET 26 [(0 + z); c; i; k]))))).
Definition r_eomt_X3D_2 (z a b c i j k : nat) : ex := (ESub (r_eomt_X3D_1 (0 + z) a b c i j k) (EScale (1) 4 (ESum (0 + z) 2 (EMul (r_eomt_X_bb_vooo_2 (1 + z) b (0 + z) j i) (ET 51 [a; c; (0 + z); k]))))).
Definition r_eomt_X3D_3 (z a b c i j k : nat) : ex := (ESub (r_eomt_X3D_2 (0 + z) a b c i j k) (EScale (1) 4 (ESum (0 + z) 2 (EMul (ET 49 [b; (0 + z); j; i]) (ET 26 [a; c; (0 + z); k]))))).
Definition r_eomt_X3D_4 (z a b c i j k : nat) : ex := (EAdd (r_eomt_X3D_3 (0 + z) a b c i j k) (EScale (1) 12 (ESum (0 + z) 3 (EMul (r_eomt_X_b_vv_1 (1 + z) b (0 + z)) (ET 52 [a; (0 + z); c; i; j; k]))))).
Definition r_eomt_X3D_5 (z a b c i j k : nat) : ex := (ESub (r_eomt_X3D_4 (0 + z) a b c i j k) (EScale (1) 12 (ESum (0 + z) 2 (EMul (r_eomt_X_b_oo_1 (1 + z) (0 + z) j) (ET 52 [a; b; c; i; (0 + z); k]))))).
Definition r_eomt_X3D_6 (z a b c i j k : nat) : ex := (EAdd (r_eomt_X3D_5 (0 + z) a b c i j k) (EScale (1) 24 (ESum (0 + z) 2 (ESum (1 + z) 2 (EMul (r_eomt_X_bb_oooo_1 (2 + z) (0 + z) (1 + z) i j) (ET 52 [a; b; c; (0 + z); (1 + z); k])))))).
Definition r_eomt_X3D_7 (z a b c i j k : nat) : ex := (EAdd (r_eomt_X3D_6 (0 + z) a b c i j k) (EScale (1) 24 (ESum (0 + z) 3 (ESum (1 + z) 3 (EMul (r_eomt_X_bb_vvvv_1 (2 + z) a b (0 + z) (1 + z)) (ET 52 [(0 + z); (1 + z); c; i; j; k])))))).
Definition r_eomt_X3D_8 (z a b c i j k : nat) : ex := (EAdd (r_eomt_X3D_7 (0 + z) a b c i j k) (EScale (1) 4 (ESum (0 + z) 2 (ESum (1 + z) 3 (EMul (r_eomt_X_bb_voov (2 + z) b (0 + z) j (1 + z)) (ET 52 [a; (1 + z); c; i; (0 + z); k])))))).
Definition r_eomt_X3D_9 (z a b c i j k : nat) : ex := (EAdd (r_eomt_X3D_8 (0 + z) a b c i j k) (EScale (1) 4 (ESum (0 + z) 0 (ESum (1 + z) 1 (EMul (r_eomt_X_ab_ovvo (2 + z) (0 + z) b (1 + z) j) (ET 46 [(1 + z); c; a; (0 + z); k; i])))))).
Definition r_eomt_X3D_10 (z a b c i j k : nat) : ex := (ESub (r_eomt_X3D_9 (0 + z) a b c i j k) (EScale (1) 12 (ESum (0 + z) 2 (EMul (ET 20 [(0 + z); j]) (ET 29 [a; b; c; i; (0 + z); k]))))).
Definition r_eomt_X3D_11 (z a b c i j k : nat) : ex := (EAdd (r_eomt_X3D_10 (0 + z) a b c i j k) (EScale (1) 12 (ESum (0 + z) 3 (EMul (ET 21 [b; (0 + z)]) (ET 29 [a; (0 + z); c; i; j; k]))))).
Definition r_eomt_X3D_12 (z a b c i j k : nat) : ex := (EAdd (r_eomt_X3D_11 (0 + z) a b c i j k) (EScale (1) 24 (ESum (0 + z) 2 (ESum (1 + z) 2 (EMul (ET 47 [(0 + z); (1 + z); i; j]) (ET 29 [a; b; c; (0 + z); (1 + z); k])))))).
Definition r_eomt_X3D_13 (z a b c i j k : nat) : ex := (EAdd (r_eomt_X3D_12 (0 + z) a b c i j k) (EScale (1) 24 (ESum (0 + z) 3 (ESum (1 + z) 3 (EMul (ET 48 [a; b; (0 + z); (1 + z)]) (ET 29 [(0 + z); (1 + z); c; i; j; k])))))).
Definition r_eomt_X3D_14 (z a b c i j k : nat) : ex := (EAdd (r_eomt_X3D_13 (0 + z) a b c i j k) (EScale (1) 4 (ESum (0 + z) 2 (ESum (1 + z) 3 (EMul (ET 23 [a; (0 + z); i; (1 + z)]) (ET 29 [(1 + z); b; c; (0 + z); j; k])))))).
Definition r_eomt_X3D_15 (z a b c i j k : nat) : ex := (EAdd (r_eomt_X3D_14 (0 + z) a b c i j k) (EScale (1) 4 (ESum (0 + z) 0 (ESum (1 + z) 1 (EMul (ET 22 [(0 + z); a; (1 + z); i]) (ET 19 [(1 + z); c; b; (0 + z); k; j])))))).
Definition r_eomt_X3D_16 (z a b c i j k : nat) : ex := (ESub (r_eomt_X3D_15 (0 + z) a b c i j k) (r_eomt_X3D_15 (0 + z) a b c i k j)).
Definition r_eomt_X3D_17 (z a b c i j k : nat) : ex := (ESub (r_eomt_X3D_16 (0 + z) a b c i j k) (EAdd (r_eomt_X3D_16 (0 + z) a b c j i k) (r_eomt_X3D_16 (0 + z) a b c k j i))).
Definition r_eomt_X3D_18 (z a b c i j k : nat) : ex := (ESub (r_eomt_X3D_17 (0 + z) a b c i j k) (r_eomt_X3D_17 (0 + z) a c b i j k)).
Definition r_eomt_X3D_19 (z a b c i j k : nat) : ex := (ESub (r_eomt_X3D_18 (0 + z) a b c i j k) (EAdd (r_eomt_X3D_18 (0 + z) b a c i j k) (r_eomt_X3D_18 (0 + z) c b a i j k))).
Definition r_leftt_X_a_vo (z a i : nat) : ex := (EAdd (EAdd (EScale (1) 4 (ESum (0 + z) 1 (ESum (1 + z) 1 (ESum (2 + z) 0 (ESum (3 + z) 0 (EMul (ET 53 [(0 + z); (1 + z); (2 + z); (3 + z)]) (ET 35 [a; (0 + z); (1 + z); i; (2 + z); (3 + z)]))))))) (ESum (0 + z) 1 (ESum (1 + z) 3 (ESum (2 + z) 0 (ESum (3 + z) 2 (EMul (ET 54 [(0 + z); (1 + z); (2 + z); (3 + z)]) (ET 36 [a; (0 + z); (1 + z); i; (2 + z); (3 + z)]))))))) (EScale (1) 4 (ESum (0 + z) 3 (ESum (1 + z) 3 (ESum (2 + z) 2 (ESum (3 + z) 2 (EMul (ET 55 [(0 + z); (1 + z); (2 + z); (3 + z)]) (ET 46 [a; (0 + z); (1 + z); i; (2 + z); (3 + z)])))))))).
Definition r_leftt_X_b_vo (z a i : nat) : ex := (EAdd (EAdd (EScale (1) 4 (ESum (0 + z) 1 (ESum (1 + z) 1 (ESum (2 + z) 0 (ESum (3 + z) 0 (EMul (ET 53 [(0 + z); (1 + z); (2 + z); (3 + z)]) (ET 36 [(0 + z); (1 + z); a; (2 + z); (3 + z); i]))))))) (ESum (0 + z) 1 (ESum (1 + z) 3 (ESum (2 + z) 0 (ESum (3 + z) 2 (EMul (ET 54 [(0 + z); (1 + z); (2 + z); (3 + z)]) (ET 46 [(0 + z); (1 + z); a; (2 + z); (3 + z); i]))))))) (EScale (1) 4 (ESum (0 + z) 3 (ESum (1 + z) 3 (ESum (2 + z) 2 (ESum (3 + z) 2 (EMul (ET 55 [(0 + z); (1 + z); (2 + z); (3 + z)]) (ET 52 [(0 + z); (1 + z); a; (2 + z); (3 + z); i])))))))).
Definition r_leftt_X_aa_ooov (z j i m a : nat) : ex := (EAdd (EScale (1) 2 (ESum (0 + z) 1 (ESum (1 + z) 1 (ESum (2 + z) 0 (EMul (ET 56 [a; (0 + z); (1 + z); i; j; (2 + z)]) (ET 34 [(0 + z); (1 + z); m; (2 + z)])))))) (ESum (0 + z) 1 (ESum (1 + z) 3 (ESum (2 + z) 2 (EMul (ET 57 [a; (0 + z); (1 + z); i; j; (2 + z)]) (ET 45 [(0 + z); (1 + z); m; (2 + z)])))))).
Definition r_leftt_X_ab_oovo (z i j a m : nat) : ex := (EAdd (ESum (0 + z) 1 (ESum (1 + z) 3 (ESum (2 + z) 0 (EMul (ET 57 [a; (0 + z); (1 + z); i; (2 + z); j]) (ET 45 [(0 + z); (1 + z); (2 + z); m]))))) (EScale (1) 2 (ESum (0 + z) 3 (ESum (1 + z) 3 (ESum (2 + z) 2 (EMul (ET 58 [a; (0 + z); (1 + z); i; (2 + z); j]) (ET 51 [(0 + z); (1 + z); (2 + z); m]))))))).
Definition r_leftt_X_ab_ooov (z j i m a : nat) : ex := (EAdd (EScale (1) 2 (ESum (0 + z) 1 (ESum (1 + z) 1 (ESum (2 + z) 0 (EMul (ET 57 [(0 + z); (1 + z); a; j; (2 + z); i]) (ET 34 [(0 + z); (1 + z); m; (2 + z)])))))) (ESum (0 + z) 1 (ESum (1 + z) 3 (ESum (2 + z) 2 (EMul (ET 58 [(0 + z); (1 + z); a; j; (2 + z); i]) (ET 45 [(0 + z); (1 + z); m; (2 + z)])))))).
Definition r_leftt_X_bb_ooov (z j i m a : nat) : ex := (EAdd (EScale (1) 2 (ESum (0 + z) 3 (ESum (1 + z) 3 (ESum (2 + z) 2 (EMul (ET 59 [a; (0 + z); (1 + z); i; j; (2 + z)]) (ET 51 [(0 + z); (1 + z); m; (2 + z)])))))) (ESum (0 + z) 1 (ESum (1 + z) 3 (ESum (2 + z) 0 (EMul (ET 58 [(0 + z); (1 + z); a; (2 + z); j; i]) (ET 45 [(0 + z); (1 + z); (2 + z); m])))))).
Definition r_leftt_X_aa_vovv (z e i b a : nat) : ex := (ESub (EScale (-1) 2 (ESum (0 + z) 1 (ESum (1 + z) 0 (ESum (2 + z) 0 (EMul (ET 56 [a; b; (0 + z); i; (1 + z); (2 + z)]) (ET 34 [e; (0 + z); (1 + z); (2 + z)])))))) (ESum (0 + z) 3 (ESum (1 + z) 0 (ESum (2 + z) 2 (EMul (ET 57 [a; b; (0 + z); i; (1 + z); (2 + z)]) (ET 45 [e; (0 + z); (1 + z); (2 + z)])))))).
Definition r_leftt_X_ab_vovv (z e i b a : nat) : ex := (ESub (EScale (-1) 2 (ESum (0 + z) 1 (ESum (1 + z) 0 (ESum (2 + z) 0 (EMul (ET 57 [b; (0 + z); a; (1 + z); (2 + z); i]) (ET 34 [e; (0 + z); (1 + z); (2 + z)])))))) (ESum (0 + z) 3 (ESum (1 + z) 0 (ESum (2 + z) 2 (EMul (ET 58 [b; (0 + z); a; (1 + z); (2 + z); i]) (ET 45 [e; (0 + z); (1 + z); (2 + z)])))))).
Definition r_leftt_X_ab_ovvv (z i e a b : nat) : ex := (ESub (EOpp (ESum (0 + z) 1 (ESum (1 + z) 0 (ESum (2 + z) 2 (EMul (ET 57 [a; (0 + z); b; i; (1 + z); (2 + z)]) (ET 45 [(0 + z); e; (1 + z); (2 + z)])))))) (EScale (1) 2 (ESum (0 + z) 3 (ESum (1 + z) 2 (ESum (2 + z) 2 (EMul (ET 58 [a; (0 + z); b; i; (1 + z); (2 + z)]) (ET 51 [(0 + z); e; (1 + z); (2 + z)]))))))).
Definition r_leftt_X_bb_vovv (z e i b a : nat) : ex := (ESub (EScale (-1) 2 (ESum (0 + z) 3 (ESum (1 + z) 2 (ESum (2 + z) 2 (EMul (ET 59 [a; b; (0 + z); i; (1 + z); (2 + z)]) (ET 51 [e; (0 + z); (1 + z); (2 + z)])))))) (ESum (0 + z) 1 (ESum (1 + z) 0 (ESum (2 + z) 2 (EMul (ET 58 [(0 + z); b; a; (1 + z); (2 + z); i]) (ET 45 [(0 + z); e; (1 + z); (2 + z)])))))).
Definition r_leftt_X_a_oo (z m i : nat) : ex := (EAdd (EAdd (EScale (1) 12 (ESum (0 + z) 1 (ESum (1 + z) 1 (ESum (2 + z) 1 (ESum (3 + z) 0 (ESum (4 + z) 0 (EMul (ET 56 [(0 + z); (1 + z); (2 + z); m; (3 + z); (4 + z)]) (ET 35 [(0 + z); (1 + z); (2 + z); i; (3 + z); (4 + z)])))))))) (EScale (1) 2 (ESum (0 + z) 1 (ESum (1 + z) 1 (ESum (2 + z) 3 (ESum (3 + z) 0 (ESum (4 + z) 2 (EMul (ET 57 [(0 + z); (1 + z); (2 + z); m; (3 + z); (4 + z)]) (ET 36 [(0 + z); (1 + z); (2 + z); i; (3 + z); (4 + z)]))))))))) (EScale (1) 4 (ESum (0 + z) 1 (ESum (1 + z) 3 (ESum (2 + z) 3 (ESum (3 + z) 2 (ESum (4 + z) 2 (EMul (ET 58 [(0 + z); (1 + z); (2 + z); m; (3 + z); (4 + z)]) (ET 46 [(0 + z); (1 + z); (2 + z); i; (3 + z); (4 + z)]))))))))).
Definition r_leftt_X_b_oo (z m i : nat) : ex := (EAdd (EAdd (EScale (1) 12 (ESum (0 + z) 3 (ESum (1 + z) 3 (ESum (2 + z) 3 (ESum (3 + z) 2 (ESum (4 + z) 2 (EMul (ET 59 [(0 + z); (1 + z); (2 + z); m; (3 + z); (4 + z)]) (ET 52 [(0 + z); (1 + z); (2 + z); i; (3 + z); (4 + z)])))))))) (EScale (1) 2 (ESum (0 + z) 1 (ESum (1 + z) 3 (ESum (2 + z) 3 (ESum (3 + z) 0 (ESum (4 + z) 2 (EMul (ET 58 [(0 + z); (1 + z); (2 + z); (3 + z); (4 + z); m]) (ET 46 [(0 + z); (1 + z); (2 + z); (3 + z); (4 + z); i]))))))))) (EScale (1) 4 (ESum (0 + z) 1 (ESum (1 + z) 1 (ESum (2 + z) 3 (ESum (3 + z) 0 (ESum (4 + z) 0 (EMul (ET 57 [(0 + z); (1 + z); (2 + z); (3 + z); (4 + z); m]) (ET 36 [(0 + z); (1 + z); (2 + z); (3 + z); (4 + z); i]))))))))).
Definition r_leftt_X_a_vv (z a e : nat) : ex := (ESub (ESub (EScale (-1) 12 (ESum (0 + z) 1 (ESum (1 + z) 1 (ESum (2 + z) 0 (ESum (3 + z) 0 (ESum (4 + z) 0 (EMul (ET 56 [e; (0 + z); (1 + z); (2 + z); (3 + z); (4 + z)]) (ET 35 [a; (0 + z); (1 + z); (2 + z); (3 + z); (4 + z)])))))))) (EScale (1) 2 (ESum (0 + z) 1 (ESum (1 + z) 3 (ESum (2 + z) 0 (ESum (3 + z) 0 (ESum (4 + z) 2 (EMul (ET 57 [e; (0 + z); (1 + z); (2 + z); (3 + z); (4 + z)]) (ET 36 [a; (0 + z); (1 + z); (2 + z); (3 + z); (4 + z)]))))))))) (EScale (1) 4 (ESum (0 + z) 3 (ESum (1 + z) 3 (ESum (2 + z) 0 (ESum (3 + z) 2 (ESum (4 + z) 2 (EMul (ET 58 [e; (0 + z); (1 + z); (2 + z); (3 + z); (4 + z)]) (ET 46 [a; (0 + z); (1 + z); (2 + z); (3 + z); (4 + z)]))))))))).
Definition r_leftt_X_b_vv (z a e : nat) : ex := (ESub (ESub (EScale (-1) 12 (ESum (0 + z) 3 (ESum (1 + z) 3 (ESum (2 + z) 2 (ESum (3 + z) 2 (ESum (4 + z) 2 (EMul (ET 59 [e; (0 + z); (1 + z); (2 + z); (3 + z); (4 + z)]) (ET 52 [a; (0 + z); (1 + z); (2 + z); (3 + z); (4 + z)])))))))) (EScale (1) 2 (ESum (0 + z) 1 (ESum (1 + z) 3 (ESum (2 + z) 0 (ESum (3 + z) 2 (ESum (4 + z) 2 (EMul (ET 58 [(0 + z); (1 + z); e; (2 + z); (3 + z); (4 + z)]) (ET 46 [(0 + z); (1 + z); a; (2 + z); (3 + z); (4 + z)]))))))))) (EScale (1) 4 (ESum (0 + z) 1 (ESum (1 + z) 1 (ESum (2 + z) 0 (ESum (3 + z) 0 (ESum (4 + z) 2 (EMul (ET 57 [(0 + z); (1 + z); e; (2 + z); (3 + z); (4 + z)]) (ET 36 [(0 + z); (1 + z); a; (2 + z); (3 + z); (4 + z)]))))))))).
Definition r_leftt_X_aa_oooo (z m n i j : nat) : ex := (EAdd (EScale (1) 6 (ESum (0 + z) 1 (ESum (1 + z) 1 (ESum (2 + z) 1 (ESum (3 + z) 0 (EMul (ET 56 [(0 + z); (1 + z); (2 + z); m; n; (3 + z)]) (ET 35 [(0 + z); (1 + z); (2 + z); i; j; (3 + z)]))))))) (EScale (1) 2 (ESum (0 + z) 1 (ESum (1 + z) 1 (ESum (2 + z) 3 (ESum (3 + z) 2 (EMul (ET 57 [(0 + z); (1 + z); (2 + z); m; n; (3 + z)]) (ET 36 [(0 + z); (1 + z); (2 + z); i; j; (3 + z)])))))))).
Definition r_leftt_X_ab_oooo (z m n i j : nat) : ex := (EAdd (EScale (1) 2 (ESum (0 + z) 1 (ESum (1 + z) 1 (ESum (2 + z) 3 (ESum (3 + z) 0 (EMul (ET 57 [(0 + z); (1 + z); (2 + z); m; (3 + z); n]) (ET 36 [(0 + z); (1 + z); (2 + z); i; (3 + z); j]))))))) (EScale (1) 2 (ESum (0 + z) 1 (ESum (1 + z) 3 (ESum (2 + z) 3 (ESum (3 + z) 2 (EMul (ET 58 [(0 + z); (1 + z); (2 + z); m; (3 + z); n]) (ET 46 [(0 + z); (1 + z); (2 + z); i; (3 + z); j])))))))).
Definition r_leftt_X_bb_oooo (z m n i j : nat) : ex := (EAdd (EScale (1) 6 (ESum (0 + z) 3 (ESum (1 + z) 3 (ESum (2 + z) 3 (ESum (3 + z) 2 (EMul (ET 59 [(0 + z); (1 + z); (2 + z); m; n; (3 + z)]) (ET 52 [(0 + z); (1 + z); (2 + z); i; j; (3 + z)]))))))) (EScale (1) 2 (ESum (0 + z) 1 (ESum (1 + z) 3 (ESum (2 + z) 3 (ESum (3 + z) 0 (EMul (ET 58 [(0 + z); (1 + z); (2 + z); (3 + z); n; m]) (ET 46 [(0 + z); (1 + z); (2 + z); (3 + z); j; i])))))))).
Definition r_leftt_X_aa_vvvv (z a b e f : nat) : ex := (EAdd (EScale (1) 6 (ESum (0 + z) 1 (ESum (1 + z) 0 (ESum (2 + z) 0 (ESum (3 + z) 0 (EMul (ET 56 [e; f; (0 + z); (1 + z); (2 + z); (3 + z)]) (ET 35 [a; b; (0 + z); (1 + z); (2 + z); (3 + z)]))))))) (EScale (1) 2 (ESum (0 + z) 3 (ESum (1 + z) 0 (ESum (2 + z) 0 (ESum (3 + z) 2 (EMul (ET 57 [e; f; (0 + z); (1 + z); (2 + z); (3 + z)]) (ET 36 [a; b; (0 + z); (1 + z); (2 + z); (3 + z)])))))))).
Definition r_leftt_X_ab_vvvv (z a b e f : nat) : ex := (EAdd (EScale (1) 2 (ESum (0 + z) 1 (ESum (1 + z) 0 (ESum (2 + z) 0 (ESum (3 + z) 2 (EMul (ET 57 [e; (0 + z); f; (1 + z); (2 + z); (3 + z)]) (ET 36 [a; (0 + z); b; (1 + z); (2 + z); (3 + z)]))))))) (EScale (1) 2 (ESum (0 + z) 3 (ESum (1 + z) 0 (ESum (2 + z) 2 (ESum (3 + z) 2 (EMul (ET 58 [e; (0 + z); f; (1 + z); (2 + z); (3 + z)]) (ET 46 [a; (0 + z); b; (1 + z); (2 + z); (3 + z)])))))))).
Definition r_leftt_X_bb_vvvv (z a b e f : nat) : ex := (EAdd (EScale (1) 6 (ESum (0 + z) 3 (ESum (1 + z) 2 (ESum (2 + z) 2 (ESum (3 + z) 2 (EMul (ET 59 [e; f; (0 + z); (1 + z); (2 + z); (3 + z)]) (ET 52 [a; b; (0 + z); (1 + z); (2 + z); (3 + z)]))))))) (EScale (1) 2 (ESum (0 + z) 1 (ESum (1 + z) 0 (ESum (2 + z) 2 (ESum (3 + z) 2 (EMul (ET 58 [(0 + z); f; e; (1 + z); (2 + z); (3 + z)]) (ET 46 [(0 + z); b; a; (1 + z); (2 + z); (3 + z)])))))))).
Definition r_leftt_X_aa_voov (z a m i e : nat) : ex := (EAdd (EAdd (EScale (1) 4 (ESum (0 + z) 1 (ESum (1 + z) 1 (ESum (2 + z) 0 (ESum (3 + z) 0 (EMul (ET 56 [e; (0 + z); (1 + z); m; (2 + z); (3 + z)]) (ET 35 [a; (0 + z); (1 + z); i; (2 + z); (3 + z)]))))))) (ESum (0 + z) 1 (ESum (1 + z) 3 (ESum (2 + z) 0 (ESum (3 + z) 2 (EMul (ET 57 [e; (0 + z); (1 + z); m; (2 + z); (3 + z)]) (ET 36 [a; (0 + z); (1 + z); i; (2 + z); (3 + z)]))))))) (EScale (1) 4 (ESum (0 + z) 3 (ESum (1 + z) 3 (ESum (2 + z) 2 (ESum (3 + z) 2 (EMul (ET 58 [e; (0 + z); (1 + z); m; (2 + z); (3 + z)]) (ET 46 [a; (0 + z); (1 + z); i; (2 + z); (3 + z)])))))))).
Definition r_leftt_X_ab_voov (z a m i e : nat) : ex := (EAdd (EAdd (EScale (1) 4 (ESum (0 + z) 1 (ESum (1 + z) 1 (ESum (2 + z) 0 (ESum (3 + z) 0 (EMul (ET 57 [(0 + z); (1 + z); e; (2 + z); (3 + z); m]) (ET 35 [a; (0 + z); (1 + z); i; (2 + z); (3 + z)]))))))) (ESum (0 + z) 1 (ESum (1 + z) 3 (ESum (2 + z) 0 (ESum (3 + z) 2 (EMul (ET 58 [(0 + z); (1 + z); e; (2 + z); (3 + z); m]) (ET 36 [a; (0 + z); (1 + z); i; (2 + z); (3 + z)]))))))) (EScale (1) 4 (ESum (0 + z) 3 (ESum (1 + z) 3 (ESum (2 + z) 2 (ESum (3 + z) 2 (EMul (ET 59 [e; (0 + z); (1 + z); m; (2 + z); (3 + z)]) (ET 46 [a; (0 + z); (1 + z); i; (2 + z); (3 + z)])))))))).
Definition r_leftt_X_ab_vovo (z a m e i : nat) : ex := (ESub (EScale (-1) 2 (ESum (0 + z) 1 (ESum (1 + z) 3 (ESum (2 + z) 0 (ESum (3 + z) 0 (EMul (ET 57 [(0 + z); e; (1 + z); (2 + z); (3 + z); m]) (ET 36 [a; (0 + z); (1 + z); (3 + z); (2 + z); i]))))))) (EScale (1) 2 (ESum (0 + z) 3 (ESum (1 + z) 3 (ESum (2 + z) 0 (ESum (3 + z) 2 (EMul (ET 58 [e; (0 + z); (1 + z); (2 + z); (3 + z); m]) (ET 46 [a; (0 + z); (1 + z); (2 + z); (3 + z); i])))))))).
Definition r_leftt_X_ab_ovov (z m a i e : nat) : ex := (ESub (EScale (-1) 2 (ESum (0 + z) 1 (ESum (1 + z) 1 (ESum (2 + z) 0 (ESum (3 + z) 2 (EMul (ET 57 [(0 + z); (1 + z); e; m; (2 + z); (3 + z)]) (ET 36 [(0 + z); (1 + z); a; i; (2 + z); (3 + z)]))))))) (EScale (1) 2 (ESum (0 + z) 1 (ESum (1 + z) 3 (ESum (2 + z) 2 (ESum (3 + z) 2 (EMul (ET 58 [(0 + z); (1 + z); e; m; (2 + z); (3 + z)]) (ET 46 [(0 + z); (1 + z); a; i; (2 + z); (3 + z)])))))))).
Definition r_leftt_X_ab_ovvo (z m a e i : nat) : ex := (EAdd (EAdd (EScale (1) 4 (ESum (0 + z) 1 (ESum (1 + z) 1 (ESum (2 + z) 0 (ESum (3 + z) 0 (EMul (ET 56 [e; (0 + z); (1 + z); m; (2 + z); (3 + z)]) (ET 36 [(0 + z); (1 + z); a; (2 + z); (3 + z); i]))))))) (ESum (0 + z) 1 (ESum (1 + z) 3 (ESum (2 + z) 0 (ESum (3 + z) 2 (EMul (ET 57 [e; (0 + z); (1 + z); m; (2 + z); (3 + z)]) (ET 46 [(0 + z); (1 + z); a; (2 + z); (3 + z); i]))))))) (EScale (1) 4 (ESum (0 + z) 3 (ESum (1 + z) 3 (ESum (2 + z) 2 (ESum (3 + z) 2 (EMul (ET 58 [e; (0 + z); (1 + z); m; (2 + z); (3 + z)]) (ET 52 [(0 + z); (1 + z); a; (2 + z); (3 + z); i])))))))).
Definition r_leftt_X_bb_voov (z a m i e : nat) : ex := (EAdd (EAdd (EScale (1) 4 (ESum (0 + z) 3 (ESum (1 + z) 3 (ESum (2 + z) 2 (ESum (3 + z) 2 (EMul (ET 59 [e; (0 + z); (1 + z); m; (2 + z); (3 + z)]) (ET 52 [a; (0 + z); (1 + z); i; (2 + z); (3 + z)]))))))) (ESum (0 + z) 1 (ESum (1 + z) 3 (ESum (2 + z) 0 (ESum (3 + z) 2 (EMul (ET 58 [(0 + z); (1 + z); e; (2 + z); (3 + z); m]) (ET 46 [(0 + z); (1 + z); a; (2 + z); (3 + z); i]))))))) (EScale (1) 4 (ESum (0 + z) 1 (ESum (1 + z) 1 (ESum (2 + z) 0 (ESum (3 + z) 0 (EMul (ET 57 [(0 + z); (1 + z); e; (2 + z); (3 + z); m]) (ET 36 [(0 + z); (1 + z); a; (2 + z); (3 + z); i])))))))).
Definition r_leftt_LH_a (z a i : nat) : ex := (ESum (0 + z) 1 (EMul (ET 2 [(0 + z); a]) (ET 60 [(0 + z); i]))).
Definition r_leftt_LH_a_1 (z a i : nat) : ex := (ESub (r_leftt_LH_a (0 + z) a i) (ESum (0 + z) 0 (EMul (ET 0 [i; (0 + z)]) (ET 60 [a; (0 + z)])))).
Definition r_leftt_LH_a_2 (z a i : nat) : ex := (EAdd (r_leftt_LH_a_1 (0 + z) a i) (ESum (0 + z) 1 (ESum (1 + z) 0 (EMul (ET 3 [(0 + z); i; (1 + z); a]) (ET 60 [(0 + z); (1 + z)]))))).
Definition r_leftt_LH_a_3 (z a i : nat) : ex := (EAdd (r_leftt_LH_a_2 (0 + z) a i) (ESum (0 + z) 3 (ESum (1 + z) 2 (EMul (ET 22 [i; (0 + z); a; (1 + z)]) (ET 61 [(0 + z); (1 + z)]))))).
Definition r_leftt_LH_a_4 (z a i : nat) : ex := (EAdd (r_leftt_LH_a_3 (0 + z) a i) (EScale (1) 2 (ESum (0 + z) 1 (ESum (1 + z) 1 (ESum (2 + z) 0 (EMul (ET 33 [(0 + z); (1 + z); (2 + z); a]) (ET 53 [(1 + z); (0 + z); i; (2 + z)]))))))).
Definition r_leftt_LH_a_5 (z a i : nat) : ex := (EAdd (r_leftt_LH_a_4 (0 + z) a i) (ESum (0 + z) 1 (ESum (1 + z) 3 (ESum (2 + z) 2 (EMul (ET 41 [(0 + z); (1 + z); a; (2 + z)]) (ET 54 [(0 + z); (1 + z); i; (2 + z)])))))).
Definition r_leftt_LH_a_6 (z a i : nat) : ex := (ESub (r_leftt_LH_a_5 (0 + z) a i) (EScale (1) 2 (ESum (0 + z) 1 (ESum (1 + z) 0 (ESum (2 + z) 0 (EMul (ET 32 [(0 + z); i; (1 + z); (2 + z)]) (ET 53 [a; (0 + z); (2 + z); (1 + z)]))))))).
Definition r_leftt_LH_a_7 (z a i : nat) : ex := (ESub (r_leftt_LH_a_6 (0 + z) a i) (ESum (0 + z) 3 (ESum (1 + z) 0 (ESum (2 + z) 2 (EMul (ET 43 [i; (0 + z); (1 + z); (2 + z)]) (ET 54 [a; (0 + z); (1 + z); (2 + z)])))))).
Definition r_leftt_I1 (z g e : nat) : ex := (EScale (1) 4 (ESum (0 + z) 1 (ESum (1 + z) 0 (ESum (2 + z) 0 (EMul (ET 53 [e; (0 + z); (1 + z); (2 + z)]) (ET 34 [(0 + z); g; (2 + z); (1 + z)])))))).
Definition r_leftt_I2 (z g f : nat) : ex := (EScale (-1) 4 (ESum (0 + z) 1 (ESum (1 + z) 0 (ESum (2 + z) 0 (EMul (ET 53 [(0 + z); f; (1 + z); (2 + z)]) (ET 34 [(0 + z); g; (2 + z); (1 + z)])))))).
Definition r_leftt_I3 (z m n : nat) : ex := (EScale (-1) 4 (ESum (0 + z) 1 (ESum (1 + z) 1 (ESum (2 + z) 0 (EMul (ET 53 [(0 + z); (1 + z); m; (2 + z)]) (ET 34 [(0 + z); (1 + z); n; (2 + z)])))))).
Definition r_leftt_I4 (z o n : nat) : ex := (EScale (1) 4 (ESum (0 + z) 1 (ESum (1 + z) 1 (ESum (2 + z) 0 (EMul (ET 53 [(0 + z); (1 + z); (2 + z); o]) (ET 34 [(0 + z); (1 + z); n; (2 + z)])))))).
Definition r_leftt_LH_a_8 (z a i : nat) : ex := (EAdd (r_leftt_LH_a_7 (0 + z) a i) (ESum (0 + z) 1 (ESum (1 + z) 1 (EMul (r_leftt_I1 (2 + z) (0 + z) (1 + z)) (ET 10 [(1 + z); i; (0 + z); a]))))).
Definition r_leftt_LH_a_9 (z a i : nat) : ex := (EAdd (r_leftt_LH_a_8 (0 + z) a i) (ESum (0 + z) 1 (ESum (1 + z) 1 (EMul (r_leftt_I2 (2 + z) (0 + z) (1 + z)) (ET 10 [(1 + z); i; (0 + z); a]))))).
Definition r_leftt_LH_a_10 (z a i : nat) : ex := (EAdd (r_leftt_LH_a_9 (0 + z) a i) (ESum (0 + z) 0 (ESum (1 + z) 0 (EMul (r_leftt_I3 (2 + z) (0 + z) (1 + z)) (ET 6 [(1 + z); i; (0 + z); a]))))).
Definition r_leftt_LH_a_11 (z a i : nat) : ex := (EAdd (r_leftt_LH_a_10 (0 + z) a i) (ESum (0 + z) 0 (ESum (1 + z) 0 (EMul (r_leftt_I4 (2 + z) (0 + z) (1 + z)) (ET 6 [(1 + z); i; (0 + z); a]))))).
Definition r_leftt_I1_1 (z j n : nat) : ex := (EOpp (ESum (0 + z) 1 (ESum (1 + z) 3 (ESum (2 + z) 0 (EMul (ET 54 [(0 + z); (1 + z); (2 + z); j]) (ET 45 [(0 + z); (1 + z); (2 + z); n])))))).
Definition r_leftt_I2_1 (z f b : nat) : ex := (ESum (0 + z) 1 (ESum (1 + z) 0 (ESum (2 + z) 2 (EMul (ET 54 [(0 + z); b; (1 + z); (2 + z)]) (ET 45 [(0 + z); f; (1 + z); (2 + z)]))))).
Definition r_leftt_I3_1 (z f a : nat) : ex := (ESum (0 + z) 3 (ESum (1 + z) 0 (ESum (2 + z) 2 (EMul (ET 54 [a; (0 + z); (1 + z); (2 + z)]) (ET 45 [f; (0 + z); (1 + z); (2 + z)]))))).
Definition r_leftt_I4_1 (z i n : nat) : ex := (EOpp (ESum (0 + z) 1 (ESum (1 + z) 3 (ESum (2 + z) 2 (EMul (ET 54 [(0 + z); (1 + z); i; (2 + z)]) (ET 45 [(0 + z); (1 + z); n; (2 + z)])))))).
Definition r_leftt_LH_a_12 (z a i : nat) : ex := (EAdd (r_leftt_LH_a_11 (0 + z) a i) (ESum (0 + z) 2 (ESum (1 + z) 2 (EMul (r_leftt_I1_1 (2 + z) (0 + z) (1 + z)) (ET 24 [i; (1 + z); a; (0 + z)]))))).
Definition r_leftt_LH_a_13 (z a i : nat) : ex := (EAdd (r_leftt_LH_a_12 (0 + z) a i) (ESum (0 + z) 3 (ESum (1 + z) 3 (EMul (r_leftt_I2_1 (2 + z) (0 + z) (1 + z)) (ET 27 [i; (1 + z); a; (0 + z)]))))).
Definition r_leftt_LH_a_14 (z a i : nat) : ex := (EAdd (r_leftt_LH_a_13 (0 + z) a i) (ESum (0 + z) 1 (ESum (1 + z) 1 (EMul (r_leftt_I3_1 (2 + z) (0 + z) (1 + z)) (ET 10 [(1 + z); i; (0 + z); a]))))).
Definition r_leftt_LH_a_15 (z a i : nat) : ex := (EAdd (r_leftt_LH_a_14 (0 + z) a i) (ESum (0 + z) 0 (ESum (1 + z) 0 (EMul (r_leftt_I4_1 (2 + z) (0 + z) (1 + z)) (ET 6 [(1 + z); i; (0 + z); a]))))).
Definition r_leftt_I1_2 (z f a : nat) : ex := (EScale (1) 4 (ESum (0 + z) 3 (ESum (1 + z) 2 (ESum (2 + z) 2 (EMul (ET 55 [a; (0 + z); (1 + z); (2 + z)]) (ET 51 [f; (0 + z); (1 + z); (2 + z)])))))).
Definition r_leftt_I2_2 (z f b : nat) : ex := (EScale (-1) 4 (ESum (0 + z) 3 (ESum (1 + z) 2 (ESum (2 + z) 2 (EMul (ET 55 [(0 + z); b; (1 + z); (2 + z)]) (ET 51 [f; (0 + z); (1 + z); (2 + z)])))))).
Definition r_leftt_I3_2 (z i n : nat) : ex := (EScale (-1) 4 (ESum (0 + z) 3 (ESum (1 + z) 3 (ESum (2 + z) 2 (EMul (ET 55 [(0 + z); (1 + z); i; (2 + z)]) (ET 51 [(0 + z); (1 + z); n; (2 + z)])))))).
Definition r_leftt_I4_2 (z j n : nat) : ex := (EScale (1) 4 (ESum (0 + z) 3 (ESum (1 + z) 3 (ESum (2 + z) 2 (EMul (ET 55 [(0 + z); (1 + z); (2 + z); j]) (ET 51 [(0 + z); (1 + z); n; (2 + z)])))))).
Definition r_leftt_LH_a_16 (z a i : nat) : ex := (EAdd (r_leftt_LH_a_15 (0 + z) a i) (ESum (0 + z) 3 (ESum (1 + z) 3 (EMul (r_leftt_I1_2 (2 + z) (0 + z) (1 + z)) (ET 27 [i; (1 + z); a; (0 + z)]))))).
Definition r_leftt_LH_a_17 (z a i : nat) : ex := (EAdd (r_leftt_LH_a_16 (0 + z) a i) (ESum (0 + z) 3 (ESum (1 + z) 3 (EMul (r_leftt_I2_2 (2 + z) (0 + z) (1 + z)) (ET 27 [i; (1 + z); a; (0 + z)]))))).
Definition r_leftt_LH_a_18 (z a i : nat) : ex := (EAdd (r_leftt_LH_a_17 (0 + z) a i) (ESum (0 + z) 2 (ESum (1 + z) 2 (EMul (r_leftt_I3_2 (2 + z) (0 + z) (1 + z)) (ET 24 [i; (1 + z); a; (0 + z)]))))).
Definition r_leftt_LH_a_19 (z a i : nat) : ex := (EAdd (r_leftt_LH_a_18 (0 + z) a i) (ESum (0 + z) 2 (ESum (1 + z) 2 (EMul (r_leftt_I4_2 (2 + z) (0 + z) (1 + z)) (ET 24 [i; (1 + z); a; (0 + z)]))))).
Definition r_leftt_LH_a_20 (z a i : nat) : ex := (EAdd (r_leftt_LH_a_19 (0 + z) a i) (ESum (0 + z) 1 (ESum (1 + z) 0 (EMul (r_leftt_X_a_vo (2 + z) (0 + z) (1 + z)) (ET 14 [i; (1 + z); a; (0 + z)]))))).
Definition r_leftt_LH_a_21 (z a i : nat) : ex := (EAdd (r_leftt_LH_a_20 (0 + z) a i) (ESum (0 + z) 3 (ESum (1 + z) 2 (EMul (r_leftt_X_b_vo (2 + z) (0 + z) (1 + z)) (ET 16 [i; (1 + z); a; (0 + z)]))))).
Definition r_leftt_I1A_vo (z e m : nat) : ex := (ESub (EScale (-1) 2 (ESum (0 + z) 0 (ESum (1 + z) 0 (ESum (2 + z) 1 (EMul (r_leftt_X_aa_ooov (3 + z) (0 + z) (1 + z) m (2 + z)) (ET 34 [e; (2 + z); (0 + z); (1 + z)])))))) (ESum (0 + z) 0 (ESum (1 + z) 2 (ESum (2 + z) 3 (EMul (r_leftt_X_ab_ooov (3 + z) (0 + z) (1 + z) m (2 + z)) (ET 45 [e; (2 + z); (0 + z); (1 + z)])))))).
Definition r_leftt_I1B_vo (z e m : nat) : ex := (ESub (EScale (-1) 2 (ESum (0 + z) 2 (ESum (1 + z) 2 (ESum (2 + z) 3 (EMul (r_leftt_X_bb_ooov (3 + z) (0 + z) (1 + z) m (2 + z)) (ET 51 [e; (2 + z); (0 + z); (1 + z)])))))) (ESum (0 + z) 0 (ESum (1 + z) 2 (ESum (2 + z) 1 (EMul (r_leftt_X_ab_oovo (3 + z) (0 + z) (1 + z) (2 + z) m) (ET 45 [(2 + z); e; (0 + z); (1 + z)])))))).
Definition r_leftt_LH_a_22 (z a i : nat) : ex := (EAdd (r_leftt_LH_a_21 (0 + z) a i) (ESum (0 + z) 1 (ESum (1 + z) 0 (EMul (r_leftt_I1A_vo (2 + z) (0 + z) (1 + z)) (ET 14 [i; (1 + z); a; (0 + z)]))))).
Definition r_leftt_LH_a_23 (z a i : nat) : ex := (EAdd (r_leftt_LH_a_22 (0 + z) a i) (ESum (0 + z) 3 (ESum (1 + z) 2 (EMul (r_leftt_I1B_vo (2 + z) (0 + z) (1 + z)) (ET 16 [i; (1 + z); a; (0 + z)]))))).
Definition r_leftt_LH_a_24 (z a i : nat) : ex := (ESub (r_leftt_LH_a_23 (0 + z) a i) (ESum (0 + z) 0 (ESum (1 + z) 0 (EMul (r_leftt_X_a_oo (2 + z) (0 + z) (1 + z)) (ET 6 [(1 + z); i; (0 + z); a]))))).
Definition r_leftt_LH_a_25 (z a i : nat) : ex := (ESub (r_leftt_LH_a_24 (0 + z) a i) (ESum (0 + z) 2 (ESum (1 + z) 2 (EMul (r_leftt_X_b_oo (2 + z) (0 + z) (1 + z)) (ET 24 [i; (1 + z); a; (0 + z)]))))).
Definition r_leftt_LH_a_26 (z a i : nat) : ex := (ESub (r_leftt_LH_a_25 (0 + z) a i) (ESum (0 + z) 1 (ESum (1 + z) 1 (EMul (r_leftt_X_a_vv (2 + z) (0 + z) (1 + z)) (ET 10 [(1 + z); i; (0 + z); a]))))).
Definition r_leftt_LH_a_27 (z a i : nat) : ex := (ESub (r_leftt_LH_a_26 (0 + z) a i) (ESum (0 + z) 3 (ESum (1 + z) 3 (EMul (r_leftt_X_b_vv (2 + z) (0 + z) (1 + z)) (ET 27 [i; (1 + z); a; (0 + z)]))))).
Definition r_leftt_LH_a_28 (z a i : nat) : ex := (EAdd (r_leftt_LH_a_27 (0 + z) a i) (ESum (0 + z) 1 (EMul (ET 12 [i; (0 + z)]) (r_leftt_X_a_vv (1 + z) (0 + z) a)))).
Definition r_leftt_LH_a_29 (z a i : nat) : ex := (ESub (r_leftt_LH_a_28 (0 + z) a i) (ESum (0 + z) 0 (EMul (ET 12 [(0 + z); a]) (r_leftt_X_a_oo (1 + z) i (0 + z))))).
Definition r_leftt_LH_a_30 (z a i : nat) : ex := (EAdd (r_leftt_LH_a_29 (0 + z) a i) (EScale (1) 2 (ESum (0 + z) 0 (ESum (1 + z) 0 (ESum (2 + z) 0 (EMul (r_leftt_X_aa_ooov (3 + z) (0 + z) (1 + z) (2 + z) a) (ET 30 [i; (2 + z); (1 + z); (0 + z)]))))))).
Definition r_leftt_LH_a_31 (z a i : nat) : ex := (EAdd (r_leftt_LH_a_30 (0 + z) a i) (ESum (0 + z) 0 (ESum (1 + z) 2 (ESum (2 + z) 2 (EMul (r_leftt_X_ab_oovo (3 + z) (0 + z) (1 + z) a (2 + z)) (ET 37 [i; (2 + z); (0 + z); (1 + z)])))))).
Definition r_leftt_LH_a_32 (z a i : nat) : ex := (EAdd (r_leftt_LH_a_31 (0 + z) a i) (ESum (0 + z) 1 (ESum (1 + z) 0 (ESum (2 + z) 1 (EMul (r_leftt_X_aa_vovv (3 + z) (0 + z) (1 + z) a (2 + z)) (ET 3 [(2 + z); i; (1 + z); (0 + z)])))))).
Definition r_leftt_LH_a_33 (z a i : nat) : ex := (EAdd (r_leftt_LH_a_32 (0 + z) a i) (ESum (0 + z) 1 (ESum (1 + z) 2 (ESum (2 + z) 3 (EMul (r_leftt_X_ab_vovv (3 + z) (0 + z) (1 + z) a (2 + z)) (ET 22 [i; (2 + z); (0 + z); (1 + z)])))))).
Definition r_leftt_LH_a_34 (z a i : nat) : ex := (EAdd (r_leftt_LH_a_33 (0 + z) a i) (ESum (0 + z) 0 (ESum (1 + z) 3 (ESum (2 + z) 3 (EMul (r_leftt_X_ab_ovvv (3 + z) (0 + z) (1 + z) a (2 + z)) (ET 39 [i; (2 + z); (0 + z); (1 + z)])))))).
Definition r_leftt_LH_a_35 (z a i : nat) : ex := (ESub (r_leftt_LH_a_34 (0 + z) a i) (EScale (1) 2 (ESum (0 + z) 1 (ESum (1 + z) 1 (ESum (2 + z) 1 (EMul (r_leftt_X_aa_vovv (3 + z) (0 + z) i (1 + z) (2 + z)) (ET 31 [(2 + z); (1 + z); a; (0 + z)]))))))).
Definition r_leftt_LH_a_36 (z a i : nat) : ex := (ESub (r_leftt_LH_a_35 (0 + z) a i) (ESum (0 + z) 3 (ESum (1 + z) 1 (ESum (2 + z) 3 (EMul (r_leftt_X_ab_ovvv (3 + z) i (0 + z) (1 + z) (2 + z)) (ET 38 [(1 + z); (2 + z); a; (0 + z)])))))).
Definition r_leftt_LH_a_37 (z a i : nat) : ex := (ESub (r_leftt_LH_a_36 (0 + z) a i) (ESum (0 + z) 0 (ESum (1 + z) 0 (ESum (2 + z) 1 (EMul (r_leftt_X_aa_ooov (3 + z) i (0 + z) (1 + z) (2 + z)) (ET 3 [(2 + z); (1 + z); (0 + z); a])))))).
Definition r_leftt_LH_a_38 (z a i : nat) : ex := (ESub (r_leftt_LH_a_37 (0 + z) a i) (ESum (0 + z) 2 (ESum (1 + z) 0 (ESum (2 + z) 3 (EMul (r_leftt_X_ab_ooov (3 + z) i (0 + z) (1 + z) (2 + z)) (ET 22 [(1 + z); (2 + z); a; (0 + z)])))))).
Definition r_leftt_LH_a_39 (z a i : nat) : ex := (ESub (r_leftt_LH_a_38 (0 + z) a i) (ESum (0 + z) 2 (ESum (1 + z) 1 (ESum (2 + z) 2 (EMul (r_leftt_X_ab_oovo (3 + z) i (0 + z) (1 + z) (2 + z)) (ET 40 [(1 + z); (2 + z); a; (0 + z)])))))).
Definition r_leftt_LH_a_40 (z a i : nat) : ex := (EAdd (r_leftt_LH_a_39 (0 + z) a i) (EScale (1) 2 (ESum (0 + z) 0 (ESum (1 + z) 0 (ESum (2 + z) 0 (EMul (ET 6 [(0 + z); (1 + z); (2 + z); a]) (r_leftt_X_aa_oooo (3 + z) i (2 + z) (1 + z) (0 + z)))))))).
Definition r_leftt_LH_a_41 (z a i : nat) : ex := (EAdd (r_leftt_LH_a_40 (0 + z) a i) (ESum (0 + z) 0 (ESum (1 + z) 2 (ESum (2 + z) 2 (EMul (ET 24 [(0 + z); (1 + z); a; (2 + z)]) (r_leftt_X_ab_oooo (3 + z) i (2 + z) (0 + z) (1 + z))))))).
Definition r_leftt_LH_a_42 (z a i : nat) : ex := (EAdd (r_leftt_LH_a_41 (0 + z) a i) (ESum (0 + z) 1 (ESum (1 + z) 0 (ESum (2 + z) 1 (EMul (ET 10 [(0 + z); (1 + z); a; (2 + z)]) (r_leftt_X_aa_voov (3 + z) (2 + z) i (1 + z) (0 + z))))))).
Definition r_leftt_LH_a_43 (z a i : nat) : ex := (EAdd (r_leftt_LH_a_42 (0 + z) a i) (ESum (0 + z) 1 (ESum (1 + z) 2 (ESum (2 + z) 3 (EMul (ET 11 [(0 + z); (1 + z); a; (2 + z)]) (r_leftt_X_ab_ovvo (3 + z) i (2 + z) (0 + z) (1 + z))))))).
Definition r_leftt_LH_a_44 (z a i : nat) : ex := (EAdd (r_leftt_LH_a_43 (0 + z) a i) (ESum (0 + z) 0 (ESum (1 + z) 3 (ESum (2 + z) 3 (EMul (ET 27 [(0 + z); (1 + z); a; (2 + z)]) (r_leftt_X_ab_ovov (3 + z) i (2 + z) (0 + z) (1 + z))))))).
Definition r_leftt_LH_a_45 (z a i : nat) : ex := (ESub (r_leftt_LH_a_44 (0 + z) a i) (EScale (1) 2 (ESum (0 + z) 1 (ESum (1 + z) 1 (ESum (2 + z) 1 (EMul (ET 10 [(0 + z); i; (1 + z); (2 + z)]) (r_leftt_X_aa_vvvv (3 + z) (2 + z) (1 + z) a (0 + z)))))))).
Definition r_leftt_LH_a_46 (z a i : nat) : ex := (ESub (r_leftt_LH_a_45 (0 + z) a i) (ESum (0 + z) 3 (ESum (1 + z) 1 (ESum (2 + z) 3 (EMul (ET 27 [i; (0 + z); (1 + z); (2 + z)]) (r_leftt_X_ab_vvvv (3 + z) (1 + z) (2 + z) a (0 + z))))))).
Definition r_leftt_LH_a_47 (z a i : nat) : ex := (ESub (r_leftt_LH_a_46 (0 + z) a i) (ESum (0 + z) 0 (ESum (1 + z) 0 (ESum (2 + z) 1 (EMul (ET 6 [i; (0 + z); (1 + z); (2 + z)]) (r_leftt_X_aa_voov (3 + z) (2 + z) (1 + z) (0 + z) a)))))).
Definition r_leftt_LH_a_48 (z a i : nat) : ex := (ESub (r_leftt_LH_a_47 (0 + z) a i) (ESum (0 + z) 2 (ESum (1 + z) 0 (ESum (2 + z) 3 (EMul (ET 8 [i; (0 + z); (1 + z); (2 + z)]) (r_leftt_X_ab_ovvo (3 + z) (1 + z) (2 + z) a (0 + z))))))).
Definition r_leftt_LH_a_49 (z a i : nat) : ex := (ESub (r_leftt_LH_a_48 (0 + z) a i) (ESum (0 + z) 2 (ESum (1 + z) 1 (ESum (2 + z) 2 (EMul (ET 24 [i; (0 + z); (1 + z); (2 + z)]) (r_leftt_X_ab_vovo (3 + z) (1 + z) (2 + z) a (0 + z))))))).
Definition r_leftt_LH_b (z a i : nat) : ex := (ESum (0 + z) 3 (EMul (ET 21 [(0 + z); a]) (ET 61 [(0 + z); i]))).
Definition r_leftt_LH_b_1 (z a i : nat) : ex := (ESub (r_leftt_LH_b (0 + z) a i) (ESum (0 + z) 2 (EMul (ET 20 [i; (0 + z)]) (ET 61 [a; (0 + z)])))).
Definition r_leftt_LH_b_2 (z a i : nat) : ex := (EAdd (r_leftt_LH_b_1 (0 + z) a i) (ESum (0 + z) 3 (ESum (1 + z) 2 (EMul (ET 23 [(0 + z); i; (1 + z); a]) (ET 61 [(0 + z); (1 + z)]))))).
Definition r_leftt_LH_b_3 (z a i : nat) : ex := (EAdd (r_leftt_LH_b_2 (0 + z) a i) (ESum (0 + z) 1 (ESum (1 + z) 0 (EMul (ET 4 [(0 + z); i; (1 + z); a]) (ET 60 [(0 + z); (1 + z)]))))).
Definition r_leftt_LH_b_4 (z a i : nat) : ex := (EAdd (r_leftt_LH_b_3 (0 + z) a i) (EScale (1) 2 (ESum (0 + z) 3 (ESum (1 + z) 3 (ESum (2 + z) 2 (EMul (ET 50 [(0 + z); (1 + z); (2 + z); a]) (ET 55 [(1 + z); (0 + z); i; (2 + z)]))))))).
Definition r_leftt_LH_b_5 (z a i : nat) : ex := (EAdd (r_leftt_LH_b_4 (0 + z) a i) (ESum (0 + z) 1 (ESum (1 + z) 3 (ESum (2 + z) 0 (EMul (ET 42 [(0 + z); (1 + z); (2 + z); a]) (ET 54 [(0 + z); (1 + z); (2 + z); i])))))).
Definition r_leftt_LH_b_6 (z a i : nat) : ex := (ESub (r_leftt_LH_b_5 (0 + z) a i) (EScale (1) 2 (ESum (0 + z) 3 (ESum (1 + z) 2 (ESum (2 + z) 2 (EMul (ET 49 [(0 + z); i; (1 + z); (2 + z)]) (ET 55 [a; (0 + z); (2 + z); (1 + z)]))))))).
Definition r_leftt_LH_b_7 (z a i : nat) : ex := (ESub (r_leftt_LH_b_6 (0 + z) a i) (ESum (0 + z) 1 (ESum (1 + z) 0 (ESum (2 + z) 2 (EMul (ET 44 [(0 + z); i; (1 + z); (2 + z)]) (ET 54 [(0 + z); a; (1 + z); (2 + z)])))))).
Definition r_leftt_I1_3 (z g e : nat) : ex := (EScale (1) 4 (ESum (0 + z) 3 (ESum (1 + z) 2 (ESum (2 + z) 2 (EMul (ET 55 [e; (0 + z); (1 + z); (2 + z)]) (ET 51 [(0 + z); g; (2 + z); (1 + z)])))))).
Definition r_leftt_I2_3 (z g f : nat) : ex := (EScale (-1) 4 (ESum (0 + z) 3 (ESum (1 + z) 2 (ESum (2 + z) 2 (EMul (ET 55 [(0 + z); f; (1 + z); (2 + z)]) (ET 51 [(0 + z); g; (2 + z); (1 + z)])))))).
Definition r_leftt_I3_3 (z m n : nat) : ex := (EScale (-1) 4 (ESum (0 + z) 3 (ESum (1 + z) 3 (ESum (2 + z) 2 (EMul (ET 55 [(0 + z); (1 + z); m; (2 + z)]) (ET 51 [(0 + z); (1 + z); n; (2 + z)])))))).
Definition r_leftt_I4_3 (z o n : nat) : ex := (EScale (1) 4 (ESum (0 + z) 3 (ESum (1 + z) 3 (ESum (2 + z) 2 (EMul (ET 55 [(0 + z); (1 + z); (2 + z); o]) (ET 51 [(0 + z); (1 + z); n; (2 + z)])))))).
Definition r_leftt_LH_b_8 (z a i : nat) : ex := (EAdd (r_leftt_LH_b_7 (0 + z) a i) (ESum (0 + z) 3 (ESum (1 + z) 3 (EMul (r_leftt_I1_3 (2 + z) (0 + z) (1 + z)) (ET 28 [(1 + z); i; (0 + z); a]))))).
Definition r_leftt_LH_b_9 (z a i : nat) : ex := (EAdd (r_leftt_LH_b_8 (0 + z) a i) (ESum (0 + z) 3 (ESum (1 + z) 3 (EMul (r_leftt_I2_3 (2 + z) (0 + z) (1 + z)) (ET 28 [(1 + z); i; (0 + z); a]))))).
Definition r_leftt_LH_b_10 (z a i : nat) : ex := (EAdd (r_leftt_LH_b_9 (0 + z) a i) (ESum (0 + z) 2 (ESum (1 + z) 2 (EMul (r_leftt_I3_3 (2 + z) (0 + z) (1 + z)) (ET 25 [(1 + z); i; (0 + z); a]))))).
Definition r_leftt_LH_b_11 (z a i : nat) : ex := (EAdd (r_leftt_LH_b_10 (0 + z) a i) (ESum (0 + z) 2 (ESum (1 + z) 2 (EMul (r_leftt_I4_3 (2 + z) (0 + z) (1 + z)) (ET 25 [(1 + z); i; (0 + z); a]))))).
Definition r_leftt_I1_4 (z j n : nat) : ex := (EOpp (ESum (0 + z) 1 (ESum (1 + z) 3 (ESum (2 + z) 2 (EMul (ET 54 [(0 + z); (1 + z); j; (2 + z)]) (ET 45 [(0 + z); (1 + z); n; (2 + z)])))))).
Definition r_leftt_I2_4 (z f b : nat) : ex := (ESum (0 + z) 3 (ESum (1 + z) 0 (ESum (2 + z) 2 (EMul (ET 54 [b; (0 + z); (1 + z); (2 + z)]) (ET 45 [f; (0 + z); (1 + z); (2 + z)]))))).
Definition r_leftt_I3_4 (z f a : nat) : ex := (ESum (0 + z) 1 (ESum (1 + z) 0 (ESum (2 + z) 2 (EMul (ET 54 [(0 + z); a; (1 + z); (2 + z)]) (ET 45 [(0 + z); f; (1 + z); (2 + z)]))))).
Definition r_leftt_I4_4 (z i n : nat) : ex := (EOpp (ESum (0 + z) 1 (ESum (1 + z) 3 (ESum (2 + z) 0 (EMul (ET 54 [(0 + z); (1 + z); (2 + z); i]) (ET 45 [(0 + z); (1 + z); (2 + z); n])))))).
Definition r_leftt_LH_b_12 (z a i : nat) : ex := (EAdd (r_leftt_LH_b_11 (0 + z) a i) (ESum (0 + z) 0 (ESum (1 + z) 0 (EMul (r_leftt_I1_4 (2 + z) (0 + z) (1 + z)) (ET 8 [(1 + z); i; (0 + z); a]))))).
Definition r_leftt_LH_b_13 (z a i : nat) : ex := (EAdd (r_leftt_LH_b_12 (0 + z) a i) (ESum (0 + z) 1 (ESum (1 + z) 1 (EMul (r_leftt_I2_4 (2 + z) (0 + z) (1 + z)) (ET 11 [(1 + z); i; (0 + z); a]))))).
Definition r_leftt_LH_b_14 (z a i : nat) : ex := (EAdd (r_leftt_LH_b_13 (0 + z) a i) (ESum (0 + z) 3 (ESum (1 + z) 3 (EMul (r_leftt_I3_4 (2 + z) (0 + z) (1 + z)) (ET 28 [(1 + z); i; (0 + z); a]))))).
Definition r_leftt_LH_b_15 (z a i : nat) : ex := (EAdd (r_leftt_LH_b_14 (0 + z) a i) (ESum (0 + z) 2 (ESum (1 + z) 2 (EMul (r_leftt_I4_4 (2 + z) (0 + z) (1 + z)) (ET 25 [(1 + z); i; (0 + z); a]))))).
Definition r_leftt_I1_5 (z f a : nat) : ex := (EScale (1) 4 (ESum (0 + z) 1 (ESum (1 + z) 0 (ESum (2 + z) 0 (EMul (ET 53 [a; (0 + z); (1 + z); (2 + z)]) (ET 34 [f; (0 + z); (1 + z); (2 + z)])))))).
Definition r_leftt_I2_5 (z f b : nat) : ex := (EScale (-1) 4 (ESum (0 + z) 1 (ESum (1 + z) 0 (ESum (2 + z) 0 (EMul (ET 53 [(0 + z); b; (1 + z); (2 + z)]) (ET 34 [f; (0 + z); (1 + z); (2 + z)])))))).
Definition r_leftt_I3_5 (z i n : nat) : ex := (EScale (-1) 4 (ESum (0 + z) 1 (ESum (1 + z) 1 (ESum (2 + z) 0 (EMul (ET 53 [(0 + z); (1 + z); i; (2 + z)]) (ET 34 [(0 + z); (1 + z); n; (2 + z)])))))).
Definition r_leftt_I4_5 (z j n : nat) : ex := (EScale (1) 4 (ESum (0 + z) 1 (ESum (1 + z) 1 (ESum (2 + z) 0 (EMul (ET 53 [(0 + z); (1 + z); (2 + z); j]) (ET 34 [(0 + z); (1 + z); n; (2 + z)])))))).
Definition r_leftt_LH_b_16 (z a i : nat) : ex := (EAdd (r_leftt_LH_b_15 (0 + z) a i) (ESum (0 + z) 1 (ESum (1 + z) 1 (EMul (r_leftt_I1_5 (2 + z) (0 + z) (1 + z)) (ET 11 [(1 + z); i; (0 + z); a]))))).
Definition r_leftt_LH_b_17 (z a i : nat) : ex := (EAdd (r_leftt_LH_b_16 (0 + z) a i) (ESum (0 + z) 1 (ESum (1 + z) 1 (EMul (r_leftt_I2_5 (2 + z) (0 + z) (1 + z)) (ET 11 [(1 + z); i; (0 + z); a]))))).
Definition r_leftt_LH_b_18 (z a i : nat) : ex := (EAdd (r_leftt_LH_b_17 (0 + z) a i) (ESum (0 + z) 0 (ESum (1 + z) 0 (EMul (r_leftt_I3_5 (2 + z) (0 + z) (1 + z)) (ET 8 [(1 + z); i; (0 + z); a]))))).
Definition r_leftt_LH_b_19 (z a i : nat) : ex := (EAdd (r_leftt_LH_b_18 (0 + z) a i) (ESum (0 + z) 0 (ESum (1 + z) 0 (EMul (r_leftt_I4_5 (2 + z) (0 + z) (1 + z)) (ET 8 [(1 + z); i; (0 + z); a]))))).
Definition r_leftt_LH_b_20 (z a i : nat) : ex := (EAdd (r_leftt_LH_b_19 (0 + z) a i) (ESum (0 + z) 3 (ESum (1 + z) 2 (EMul (r_leftt_X_b_vo (2 + z) (0 + z) (1 + z)) (ET 18 [i; (1 + z); a; (0 + z)]))))).
Definition r_leftt_LH_b_21 (z a i : nat) : ex := (EAdd (r_leftt_LH_b_20 (0 + z) a i) (ESum (0 + z) 1 (ESum (1 + z) 0 (EMul (r_leftt_X_a_vo (2 + z) (0 + z) (1 + z)) (ET 16 [(1 + z); i; (0 + z); a]))))).
Definition r_leftt_I1B_vo_1 (z e m : nat) : ex := (ESub (EScale (-1) 2 (ESum (0 + z) 2 (ESum (1 + z) 2 (ESum (2 + z) 3 (EMul (r_leftt_X_bb_ooov (3 + z) (0 + z) (1 + z) m (2 + z)) (ET 51 [e; (2 + z); (0 + z); (1 + z)])))))) (ESum (0 + z) 0 (ESum (1 + z) 2 (ESum (2 + z) 1 (EMul (r_leftt_X_ab_oovo (3 + z) (0 + z) (1 + z) (2 + z) m) (ET 45 [(2 + z); e; (0 + z); (1 + z)])))))).
Definition r_leftt_I1A_vo_1 (z e m : nat) : ex := (ESub (EScale (-1) 2 (ESum (0 + z) 0 (ESum (1 + z) 0 (ESum (2 + z) 1 (EMul (r_leftt_X_aa_ooov (3 + z) (0 + z) (1 + z) m (2 + z)) (ET 34 [e; (2 + z); (0 + z); (1 + z)])))))) (ESum (0 + z) 0 (ESum (1 + z) 2 (ESum (2 + z) 3 (EMul (r_leftt_X_ab_ooov (3 + z) (0 + z) (1 + z) m (2 + z)) (ET 45 [e; (2 + z); (0 + z); (1 + z)])))))).
Definition r_leftt_LH_b_22 (z a i : nat) : ex := (EAdd (r_leftt_LH_b_21 (0 + z) a i) (ESum (0 + z) 3 (ESum (1 + z) 2 (EMul (r_leftt_I1B_vo_1 (2 + z) (0 + z) (1 + z)) (ET 18 [i; (1 + z); a; (0 + z)]))))).
Definition r_leftt_LH_b_23 (z a i : nat) : ex := (EAdd (r_leftt_LH_b_22 (0 + z) a i) (ESum (0 + z) 1 (ESum (1 + z) 0 (EMul (r_leftt_I1A_vo_1 (2 + z) (0 + z) (1 + z)) (ET 16 [(1 + z); i; (0 + z); a]))))).
Definition r_leftt_LH_b_24 (z a i : nat) : ex := (ESub (r_leftt_LH_b_23 (0 + z) a i) (ESum (0 + z) 2 (ESum (1 + z) 2 (EMul (r_leftt_X_b_oo (2 + z) (0 + z) (1 + z)) (ET 25 [(1 + z); i; (0 + z); a]))))).
Definition r_leftt_LH_b_25 (z a i : nat) : ex := (ESub (r_leftt_LH_b_24 (0 + z) a i) (ESum (0 + z) 0 (ESum (1 + z) 0 (EMul (r_leftt_X_a_oo (2 + z) (0 + z) (1 + z)) (ET 8 [(1 + z); i; (0 + z); a]))))).
Definition r_leftt_LH_b_26 (z a i : nat) : ex := (ESub (r_leftt_LH_b_25 (0 + z) a i) (ESum (0 + z) 3 (ESum (1 + z) 3 (EMul (r_leftt_X_b_vv (2 + z) (0 + z) (1 + z)) (ET 28 [(1 + z); i; (0 + z); a]))))).
Definition r_leftt_LH_b_27 (z a i : nat) : ex := (ESub (r_leftt_LH_b_26 (0 + z) a i) (ESum (0 + z) 1 (ESum (1 + z) 1 (EMul (r_leftt_X_a_vv (2 + z) (0 + z) (1 + z)) (ET 11 [(1 + z); i; (0 + z); a]))))).
Definition r_leftt_LH_b_28 (z a i : nat) : ex := (EAdd (r_leftt_LH_b_27 (0 + z) a i) (ESum (0 + z) 3 (EMul (ET 13 [i; (0 + z)]) (r_leftt_X_b_vv (1 + z) (0 + z) a)))).
Definition r_leftt_LH_b_29 (z a i : nat) : ex := (ESub (r_leftt_LH_b_28 (0 + z) a i) (ESum (0 + z) 2 (EMul (ET 13 [(0 + z); a]) (r_leftt_X_b_oo (1 + z) i (0 + z))))).
Definition r_leftt_LH_b_30 (z a i : nat) : ex := (EAdd (r_leftt_LH_b_29 (0 + z) a i) (EScale (1) 2 (ESum (0 + z) 2 (ESum (1 + z) 2 (ESum (2 + z) 2 (EMul (r_leftt_X_bb_ooov (3 + z) (0 + z) (1 + z) (2 + z) a) (ET 47 [i; (2 + z); (1 + z); (0 + z)]))))))).
Definition r_leftt_LH_b_31 (z a i : nat) : ex := (EAdd (r_leftt_LH_b_30 (0 + z) a i) (ESum (0 + z) 0 (ESum (1 + z) 2 (ESum (2 + z) 0 (EMul (r_leftt_X_ab_ooov (3 + z) (0 + z) (1 + z) (2 + z) a) (ET 37 [(2 + z); i; (0 + z); (1 + z)])))))).
Definition r_leftt_LH_b_32 (z a i : nat) : ex := (EAdd (r_leftt_LH_b_31 (0 + z) a i) (ESum (0 + z) 3 (ESum (1 + z) 2 (ESum (2 + z) 3 (EMul (r_leftt_X_bb_vovv (3 + z) (0 + z) (1 + z) a (2 + z)) (ET 23 [(2 + z); i; (1 + z); (0 + z)])))))).
Definition r_leftt_LH_b_33 (z a i : nat) : ex := (EAdd (r_leftt_LH_b_32 (0 + z) a i) (ESum (0 + z) 0 (ESum (1 + z) 3 (ESum (2 + z) 1 (EMul (r_leftt_X_ab_ovvv (3 + z) (0 + z) (1 + z) (2 + z) a) (ET 4 [(2 + z); i; (0 + z); (1 + z)])))))).
Definition r_leftt_LH_b_34 (z a i : nat) : ex := (EAdd (r_leftt_LH_b_33 (0 + z) a i) (ESum (0 + z) 1 (ESum (1 + z) 2 (ESum (2 + z) 1 (EMul (r_leftt_X_ab_vovv (3 + z) (0 + z) (1 + z) (2 + z) a) (ET 40 [(2 + z); i; (0 + z); (1 + z)])))))).
Definition r_leftt_LH_b_35 (z a i : nat) : ex := (ESub (r_leftt_LH_b_34 (0 + z) a i) (EScale (1) 2 (ESum (0 + z) 3 (ESum (1 + z) 3 (ESum (2 + z) 3 (EMul (r_leftt_X_bb_vovv (3 + z) (0 + z) i (1 + z) (2 + z)) (ET 48 [(2 + z); (1 + z); a; (0 + z)]))))))).
Definition r_leftt_LH_b_36 (z a i : nat) : ex := (ESub (r_leftt_LH_b_35 (0 + z) a i) (ESum (0 + z) 1 (ESum (1 + z) 1 (ESum (2 + z) 3 (EMul (r_leftt_X_ab_vovv (3 + z) (0 + z) i (1 + z) (2 + z)) (ET 38 [(1 + z); (2 + z); (0 + z); a])))))).
Definition r_leftt_LH_b_37 (z a i : nat) : ex := (ESub (r_leftt_LH_b_36 (0 + z) a i) (ESum (0 + z) 2 (ESum (1 + z) 2 (ESum (2 + z) 3 (EMul (r_leftt_X_bb_ooov (3 + z) i (0 + z) (1 + z) (2 + z)) (ET 23 [(2 + z); (1 + z); (0 + z); a])))))).
Definition r_leftt_LH_b_38 (z a i : nat) : ex := (ESub (r_leftt_LH_b_37 (0 + z) a i) (ESum (0 + z) 0 (ESum (1 + z) 1 (ESum (2 + z) 2 (EMul (r_leftt_X_ab_oovo (3 + z) (0 + z) i (1 + z) (2 + z)) (ET 4 [(1 + z); (2 + z); (0 + z); a])))))).
Definition r_leftt_LH_b_39 (z a i : nat) : ex := (ESub (r_leftt_LH_b_38 (0 + z) a i) (ESum (0 + z) 0 (ESum (1 + z) 0 (ESum (2 + z) 3 (EMul (r_leftt_X_ab_ooov (3 + z) (0 + z) i (1 + z) (2 + z)) (ET 39 [(1 + z); (2 + z); (0 + z); a])))))).
Definition r_leftt_LH_b_40 (z a i : nat) : ex := (EAdd (r_leftt_LH_b_39 (0 + z) a i) (EScale (1) 2 (ESum (0 + z) 2 (ESum (1 + z) 2 (ESum (2 + z) 2 (EMul (ET 25 [(0 + z); (1 + z); (2 + z); a]) (r_leftt_X_bb_oooo (3 + z) i (2 + z) (1 + z) (0 + z)))))))).
Definition r_leftt_LH_b_41 (z a i : nat) : ex := (EAdd (r_leftt_LH_b_40 (0 + z) a i) (ESum (0 + z) 0 (ESum (1 + z) 2 (ESum (2 + z) 0 (EMul (ET 8 [(0 + z); (1 + z); (2 + z); a]) (r_leftt_X_ab_oooo (3 + z) (2 + z) i (0 + z) (1 + z))))))).
Definition r_leftt_LH_b_42 (z a i : nat) : ex := (EAdd (r_leftt_LH_b_41 (0 + z) a i) (ESum (0 + z) 3 (ESum (1 + z) 2 (ESum (2 + z) 3 (EMul (ET 28 [(0 + z); (1 + z); a; (2 + z)]) (r_leftt_X_bb_voov (3 + z) (2 + z) i (1 + z) (0 + z))))))).
Definition r_leftt_LH_b_43 (z a i : nat) : ex := (EAdd (r_leftt_LH_b_42 (0 + z) a i) (ESum (0 + z) 0 (ESum (1 + z) 3 (ESum (2 + z) 1 (EMul (ET 27 [(0 + z); (1 + z); (2 + z); a]) (r_leftt_X_ab_voov (3 + z) (2 + z) i (0 + z) (1 + z))))))).
Definition r_leftt_LH_b_44 (z a i : nat) : ex := (EAdd (r_leftt_LH_b_43 (0 + z) a i) (ESum (0 + z) 1 (ESum (1 + z) 2 (ESum (2 + z) 1 (EMul (ET 11 [(0 + z); (1 + z); (2 + z); a]) (r_leftt_X_ab_vovo (3 + z) (2 + z) i (0 + z) (1 + z))))))).
Definition r_leftt_LH_b_45 (z a i : nat) : ex := (ESub (r_leftt_LH_b_44 (0 + z) a i) (EScale (1) 2 (ESum (0 + z) 3 (ESum (1 + z) 3 (ESum (2 + z) 3 (EMul (ET 28 [(0 + z); i; (1 + z); (2 + z)]) (r_leftt_X_bb_vvvv (3 + z) (2 + z) (1 + z) a (0 + z)))))))).
Definition r_leftt_LH_b_46 (z a i : nat) : ex := (ESub (r_leftt_LH_b_45 (0 + z) a i) (ESum (0 + z) 1 (ESum (1 + z) 1 (ESum (2 + z) 3 (EMul (ET 11 [(0 + z); i; (1 + z); (2 + z)]) (r_leftt_X_ab_vvvv (3 + z) (1 + z) (2 + z) (0 + z) a)))))).
Definition r_leftt_LH_b_47 (z a i : nat) : ex := (ESub (r_leftt_LH_b_46 (0 + z) a i) (ESum (0 + z) 2 (ESum (1 + z) 2 (ESum (2 + z) 3 (EMul (ET 25 [i; (0 + z); (1 + z); (2 + z)]) (r_leftt_X_bb_voov (3 + z) (2 + z) (1 + z) (0 + z) a)))))).
Definition r_leftt_LH_b_48 (z a i : nat) : ex := (ESub (r_leftt_LH_b_47 (0 + z) a i) (ESum (0 + z) 0 (ESum (1 + z) 1 (ESum (2 + z) 2 (EMul (ET 24 [(0 + z); i; (1 + z); (2 + z)]) (r_leftt_X_ab_voov (3 + z) (1 + z) (2 + z) (0 + z) a)))))).
Definition r_leftt_LH_b_49 (z a i : nat) : ex := (ESub (r_leftt_LH_b_48 (0 + z) a i) (ESum (0 + z) 0 (ESum (1 + z) 0 (ESum (2 + z) 3 (EMul (ET 8 [(0 + z); i; (1 + z); (2 + z)]) (r_leftt_X_ab_ovov (3 + z) (1 + z) (2 + z) (0 + z) a)))))).
Definition r_leftt_LH_aa (z a b i j : nat) : ex := (EScale (1) 2 (ESum (0 + z) 1 (EMul (ET 2 [(0 + z); a]) (ET 53 [(0 + z); b; i; j])))).
Definition r_leftt_LH_aa_1 (z a b i j : nat) : ex := (ESub (r_leftt_LH_aa (0 + z) a b i j) (EScale (1) 2 (ESum (0 + z) 0 (EMul (ET 0 [i; (0 + z)]) (ET 53 [a; b; (0 + z); j]))))).
Definition r_leftt_LH_aa_2 (z a b i j : nat) : ex := (EAdd (r_leftt_LH_aa_1 (0 + z) a b i j) (EMul (ET 12 [j; b]) (ET 60 [a; i]))).
Definition r_leftt_I1_6 (z e a : nat) : ex := (ESub (EScale (-1) 2 (ESum (0 + z) 1 (ESum (1 + z) 0 (ESum (2 + z) 0 (EMul (ET 53 [a; (0 + z); (1 + z); (2 + z)]) (ET 34 [e; (0 + z); (1 + z); (2 + z)])))))) (ESum (0 + z) 3 (ESum (1 + z) 0 (ESum (2 + z) 2 (EMul (ET 54 [a; (0 + z); (1 + z); (2 + z)]) (ET 45 [e; (0 + z); (1 + z); (2 + z)])))))).
Definition r_leftt_LH_aa_3 (z a b i j : nat) : ex := (EAdd (r_leftt_LH_aa_2 (0 + z) a b i j) (EScale (1) 2 (ESum (0 + z) 1 (EMul (r_leftt_I1_6 (1 + z) (0 + z) a) (ET 14 [i; j; (0 + z); b]))))).
Definition r_leftt_I1_7 (z i m : nat) : ex := (EAdd (EScale (1) 2 (ESum (0 + z) 1 (ESum (1 + z) 1 (ESum (2 + z) 0 (EMul (ET 53 [(0 + z); (1 + z); i; (2 + z)]) (ET 34 [(0 + z); (1 + z); m; (2 + z)])))))) (ESum (0 + z) 1 (ESum (1 + z) 3 (ESum (2 + z) 2 (EMul (ET 54 [(0 + z); (1 + z); i; (2 + z)]) (ET 45 [(0 + z); (1 + z); m; (2 + z)])))))).
Definition r_leftt_LH_aa_4 (z a b i j : nat) : ex := (ESub (r_leftt_LH_aa_3 (0 + z) a b i j) (EScale (1) 2 (ESum (0 + z) 0 (EMul (r_leftt_I1_7 (1 + z) i (0 + z)) (ET 14 [(0 + z); j; a; b]))))).
Definition r_leftt_LH_aa_5 (z a b i j : nat) : ex := (EAdd (r_leftt_LH_aa_4 (0 + z) a b i j) (ESum (0 + z) 1 (ESum (1 + z) 0 (EMul (ET 3 [(0 + z); i; (1 + z); a]) (ET 53 [(0 + z); b; (1 + z); j]))))).
Definition r_leftt_LH_aa_6 (z a b i j : nat) : ex := (EAdd (r_leftt_LH_aa_5 (0 + z) a b i j) (ESum (0 + z) 3 (ESum (1 + z) 2 (EMul (ET 22 [i; (0 + z); a; (1 + z)]) (ET 54 [b; (0 + z); j; (1 + z)]))))).
Definition r_leftt_LH_aa_7 (z a b i j : nat) : ex := (EAdd (r_leftt_LH_aa_6 (0 + z) a b i j) (EScale (1) 8 (ESum (0 + z) 0 (ESum (1 + z) 0 (EMul (ET 30 [i; j; (0 + z); (1 + z)]) (ET 53 [a; b; (0 + z); (1 + z)])))))).
Definition r_leftt_LH_aa_8 (z a b i j : nat) : ex := (EAdd (r_leftt_LH_aa_7 (0 + z) a b i j) (EScale (1) 8 (ESum (0 + z) 1 (ESum (1 + z) 1 (EMul (ET 31 [(0 + z); (1 + z); a; b]) (ET 53 [(0 + z); (1 + z); i; j])))))).
Definition r_leftt_LH_aa_9 (z a b i j : nat) : ex := (EAdd (r_leftt_LH_aa_8 (0 + z) a b i j) (EScale (1) 2 (ESum (0 + z) 1 (EMul (ET 10 [(0 + z); j; a; b]) (ET 60 [(0 + z); i]))))).
Definition r_leftt_LH_aa_10 (z a b i j : nat) : ex := (ESub (r_leftt_LH_aa_9 (0 + z) a b i j) (EScale (1) 2 (ESum (0 + z) 0 (EMul (ET 6 [i; j; (0 + z); b]) (ET 60 [a; (0 + z)]))))).
Definition r_leftt_LH_aa_11 (z a b i j : nat) : ex := (ESub (r_leftt_LH_aa_10 (0 + z) a b i j) (ESum (0 + z) 1 (ESum (1 + z) 1 (EMul (r_leftt_X_aa_vovv (2 + z) (0 + z) j (1 + z) b) (ET 10 [(1 + z); i; (0 + z); a]))))).
Definition r_leftt_LH_aa_12 (z a b i j : nat) : ex := (ESub (r_leftt_LH_aa_11 (0 + z) a b i j) (ESum (0 + z) 0 (ESum (1 + z) 0 (EMul (r_leftt_X_aa_ooov (2 + z) (0 + z) j (1 + z) b) (ET 6 [(1 + z); i; (0 + z); a]))))).
Definition r_leftt_LH_aa_13 (z a b i j : nat) : ex := (ESub (r_leftt_LH_aa_12 (0 + z) a b i j) (EScale (1) 4 (ESum (0 + z) 1 (ESum (1 + z) 0 (EMul (r_leftt_X_aa_vovv (2 + z) (0 + z) (1 + z) a b) (ET 6 [j; i; (1 + z); (0 + z)])))))).
Definition r_leftt_LH_aa_14 (z a b i j : nat) : ex := (ESub (r_leftt_LH_aa_13 (0 + z) a b i j) (EScale (1) 4 (ESum (0 + z) 0 (ESum (1 + z) 1 (EMul (r_leftt_X_aa_ooov (2 + z) j i (0 + z) (1 + z)) (ET 10 [(1 + z); (0 + z); a; b])))))).
Definition r_leftt_LH_aa_15 (z a b i j : nat) : ex := (ESub (r_leftt_LH_aa_14 (0 + z) a b i j) (ESum (0 + z) 3 (ESum (1 + z) 3 (EMul (r_leftt_X_ab_ovvv (2 + z) j (0 + z) b (1 + z)) (ET 27 [i; (1 + z); a; (0 + z)]))))).
Definition r_leftt_LH_aa_16 (z a b i j : nat) : ex := (ESub (r_leftt_LH_aa_15 (0 + z) a b i j) (ESum (0 + z) 2 (ESum (1 + z) 2 (EMul (r_leftt_X_ab_oovo (2 + z) j (0 + z) b (1 + z)) (ET 24 [i; (1 + z); a; (0 + z)]))))).
Definition r_leftt_LH_aa_17 (z a b i j : nat) : ex := (EAdd (r_leftt_LH_aa_16 (0 + z) a b i j) (ESum (0 + z) 1 (ESum (1 + z) 0 (EMul (r_leftt_X_aa_voov (2 + z) (0 + z) j (1 + z) b) (ET 14 [i; (1 + z); a; (0 + z)]))))).
Definition r_leftt_LH_aa_18 (z a b i j : nat) : ex := (EAdd (r_leftt_LH_aa_17 (0 + z) a b i j) (ESum (0 + z) 3 (ESum (1 + z) 2 (EMul (r_leftt_X_ab_ovvo (2 + z) j (0 + z) b (1 + z)) (ET 16 [i; (1 + z); a; (0 + z)]))))).
Definition r_leftt_LH_aa_19 (z a b i j : nat) : ex := (EAdd (r_leftt_LH_aa_18 (0 + z) a b i j) (EScale (1) 8 (ESum (0 + z) 1 (ESum (1 + z) 1 (EMul (r_leftt_X_aa_vvvv (2 + z) (0 + z) (1 + z) a b) (ET 14 [i; j; (0 + z); (1 + z)])))))).
Definition r_leftt_LH_aa_20 (z a b i j : nat) : ex := (EAdd (r_leftt_LH_aa_19 (0 + z) a b i j) (EScale (1) 8 (ESum (0 + z) 0 (ESum (1 + z) 0 (EMul (r_leftt_X_aa_oooo (2 + z) i j (0 + z) (1 + z)) (ET 14 [(0 + z); (1 + z); a; b])))))).
Definition r_leftt_LH_aa_21 (z a b i j : nat) : ex := (EAdd (r_leftt_LH_aa_20 (0 + z) a b i j) (EScale (1) 2 (ESum (0 + z) 1 (EMul (r_leftt_X_a_vv (1 + z) (0 + z) a) (ET 14 [i; j; (0 + z); b]))))).
Definition r_leftt_LH_aa_22 (z a b i j : nat) : ex := (ESub (r_leftt_LH_aa_21 (0 + z) a b i j) (EScale (1) 2 (ESum (0 + z) 0 (EMul (r_leftt_X_a_oo (1 + z) i (0 + z)) (ET 14 [j; (0 + z); b; a]))))).
Definition r_leftt_LH_aa_23 (z a b i j : nat) : ex := (EAdd (r_leftt_LH_aa_22 (0 + z) a b i j) (EScale (1) 4 (ESum (0 + z) 1 (ESum (1 + z) 1 (ESum (2 + z) 0 (EMul (ET 56 [(0 + z); b; (1 + z); i; j; (2 + z)]) (ET 33 [(1 + z); (0 + z); (2 + z); a]))))))).
Definition r_leftt_LH_aa_24 (z a b i j : nat) : ex := (EAdd (r_leftt_LH_aa_23 (0 + z) a b i j) (EScale (1) 2 (ESum (0 + z) 1 (ESum (1 + z) 3 (ESum (2 + z) 2 (EMul (ET 57 [(0 + z); b; (1 + z); i; j; (2 + z)]) (ET 41 [(0 + z); (1 + z); a; (2 + z)]))))))).
Definition r_leftt_LH_aa_25 (z a b i j : nat) : ex := (ESub (r_leftt_LH_aa_24 (0 + z) a b i j) (EScale (1) 4 (ESum (0 + z) 1 (ESum (1 + z) 0 (ESum (2 + z) 0 (EMul (ET 56 [a; b; (0 + z); (1 + z); j; (2 + z)]) (ET 32 [(0 + z); i; (2 + z); (1 + z)]))))))).
Definition r_leftt_LH_aa_26 (z a b i j : nat) : ex := (ESub (r_leftt_LH_aa_25 (0 + z) a b i j) (EScale (1) 2 (ESum (0 + z) 3 (ESum (1 + z) 0 (ESum (2 + z) 2 (EMul (ET 57 [a; b; (0 + z); (1 + z); j; (2 + z)]) (ET 43 [i; (0 + z); (1 + z); (2 + z)]))))))).
Definition r_leftt_LH_aa_27 (z a b i j : nat) : ex := (ESub (r_leftt_LH_aa_26 (0 + z) a b i j) (ESub (EAdd (r_leftt_LH_aa_26 (0 + z) b a i j) (r_leftt_LH_aa_26 (0 + z) a b j i)) (r_leftt_LH_aa_26 (0 + z) b a j i))).
Definition r_leftt_LH_ab (z a b i j : nat) : ex := (EOpp (ESum (0 + z) 0 (EMul (ET 8 [i; j; (0 + z); b]) (ET 60 [a; (0 + z)])))).
Definition r_leftt_LH_ab_1 (z a b i j : nat) : ex := (ESub (r_leftt_LH_ab (0 + z) a b i j) (ESum (0 + z) 2 (EMul (ET 24 [i; j; a; (0 + z)]) (ET 61 [b; (0 + z)])))).
Definition r_leftt_LH_ab_2 (z a b i j : nat) : ex := (EAdd (r_leftt_LH_ab_1 (0 + z) a b i j) (ESum (0 + z) 1 (EMul (ET 11 [(0 + z); j; a; b]) (ET 60 [(0 + z); i])))).
Definition r_leftt_LH_ab_3 (z a b i j : nat) : ex := (EAdd (r_leftt_LH_ab_2 (0 + z) a b i j) (ESum (0 + z) 3 (EMul (ET 27 [i; (0 + z); a; b]) (ET 61 [(0 + z); j])))).
Definition r_leftt_LH_ab_4 (z a b i j : nat) : ex := (EAdd (r_leftt_LH_ab_3 (0 + z) a b i j) (ESum (0 + z) 0 (ESum (1 + z) 2 (EMul (ET 37 [i; j; (0 + z); (1 + z)]) (ET 54 [a; b; (0 + z); (1 + z)]))))).
Definition r_leftt_LH_ab_5 (z a b i j : nat) : ex := (EAdd (r_leftt_LH_ab_4 (0 + z) a b i j) (ESum (0 + z) 1 (ESum (1 + z) 3 (EMul (ET 38 [(0 + z); (1 + z); a; b]) (ET 54 [(0 + z); (1 + z); i; j]))))).
Definition r_leftt_LH_ab_6 (z a b i j : nat) : ex := (EAdd (r_leftt_LH_ab_5 (0 + z) a b i j) (ESum (0 + z) 1 (ESum (1 + z) 0 (EMul (ET 4 [(0 + z); j; (1 + z); b]) (ET 53 [a; (0 + z); i; (1 + z)]))))).
Definition r_leftt_LH_ab_7 (z a b i j : nat) : ex := (EAdd (r_leftt_LH_ab_6 (0 + z) a b i j) (ESum (0 + z) 1 (ESum (1 + z) 0 (EMul (ET 3 [(0 + z); i; (1 + z); a]) (ET 54 [(0 + z); b; (1 + z); j]))))).
Definition r_leftt_LH_ab_8 (z a b i j : nat) : ex := (EAdd (r_leftt_LH_ab_7 (0 + z) a b i j) (ESum (0 + z) 3 (ESum (1 + z) 2 (EMul (ET 23 [(0 + z); j; (1 + z); b]) (ET 54 [a; (0 + z); i; (1 + z)]))))).
Definition r_leftt_LH_ab_9 (z a b i j : nat) : ex := (EAdd (r_leftt_LH_ab_8 (0 + z) a b i j) (ESum (0 + z) 3 (ESum (1 + z) 2 (EMul (ET 22 [i; (0 + z); a; (1 + z)]) (ET 55 [(0 + z); b; (1 + z); j]))))).
Definition r_leftt_LH_ab_10 (z a b i j : nat) : ex := (ESub (r_leftt_LH_ab_9 (0 + z) a b i j) (ESum (0 + z) 3 (ESum (1 + z) 0 (EMul (ET 39 [i; (0 + z); (1 + z); b]) (ET 54 [a; (0 + z); (1 + z); j]))))).
Definition r_leftt_LH_ab_11 (z a b i j : nat) : ex := (ESub (r_leftt_LH_ab_10 (0 + z) a b i j) (ESum (0 + z) 1 (ESum (1 + z) 2 (EMul (ET 40 [(0 + z); j; a; (1 + z)]) (ET 54 [(0 + z); b; i; (1 + z)]))))).
Definition r_leftt_I1_8 (z e a : nat) : ex := (ESub (EScale (-1) 2 (ESum (0 + z) 1 (ESum (1 + z) 0 (ESum (2 + z) 0 (EMul (ET 53 [a; (0 + z); (1 + z); (2 + z)]) (ET 34 [e; (0 + z); (1 + z); (2 + z)])))))) (ESum (0 + z) 3 (ESum (1 + z) 0 (ESum (2 + z) 2 (EMul (ET 54 [a; (0 + z); (1 + z); (2 + z)]) (ET 45 [e; (0 + z); (1 + z); (2 + z)])))))).
Definition r_leftt_LH_ab_12 (z a b i j : nat) : ex := (EAdd (r_leftt_LH_ab_11 (0 + z) a b i j) (ESum (0 + z) 1 (EMul (r_leftt_I1_8 (1 + z) (0 + z) a) (ET 16 [i; j; (0 + z); b])))).
Definition r_leftt_I1_9 (z i m : nat) : ex := (EAdd (EScale (1) 2 (ESum (0 + z) 1 (ESum (1 + z) 1 (ESum (2 + z) 0 (EMul (ET 53 [(0 + z); (1 + z); i; (2 + z)]) (ET 34 [(0 + z); (1 + z); m; (2 + z)])))))) (ESum (0 + z) 1 (ESum (1 + z) 3 (ESum (2 + z) 2 (EMul (ET 54 [(0 + z); (1 + z); i; (2 + z)]) (ET 45 [(0 + z); (1 + z); m; (2 + z)])))))).
Definition r_leftt_LH_ab_13 (z a b i j : nat) : ex := (ESub (r_leftt_LH_ab_12 (0 + z) a b i j) (ESum (0 + z) 0 (EMul (r_leftt_I1_9 (1 + z) i (0 + z)) (ET 16 [(0 + z); j; a; b])))).
Definition r_leftt_I1_10 (z e a : nat) : ex := (ESub (EScale (-1) 2 (ESum (0 + z) 3 (ESum (1 + z) 2 (ESum (2 + z) 2 (EMul (ET 55 [a; (0 + z); (1 + z); (2 + z)]) (ET 51 [e; (0 + z); (1 + z); (2 + z)])))))) (ESum (0 + z) 1 (ESum (1 + z) 0 (ESum (2 + z) 2 (EMul (ET 54 [(0 + z); a; (1 + z); (2 + z)]) (ET 45 [(0 + z); e; (1 + z); (2 + z)])))))).
Definition r_leftt_LH_ab_14 (z a b i j : nat) : ex := (EAdd (r_leftt_LH_ab_13 (0 + z) a b i j) (ESum (0 + z) 3 (EMul (r_leftt_I1_10 (1 + z) (0 + z) b) (ET 16 [i; j; a; (0 + z)])))).
Definition r_leftt_I1_11 (z i m : nat) : ex := (EAdd (EScale (1) 2 (ESum (0 + z) 3 (ESum (1 + z) 3 (ESum (2 + z) 2 (EMul (ET 55 [(0 + z); (1 + z); i; (2 + z)]) (ET 51 [(0 + z); (1 + z); m; (2 + z)])))))) (ESum (0 + z) 1 (ESum (1 + z) 3 (ESum (2 + z) 0 (EMul (ET 54 [(0 + z); (1 + z); (2 + z); i]) (ET 45 [(0 + z); (1 + z); (2 + z); m])))))).
Definition r_leftt_LH_ab_15 (z a b i j : nat) : ex := (ESub (r_leftt_LH_ab_14 (0 + z) a b i j) (ESum (0 + z) 2 (EMul (r_leftt_I1_11 (1 + z) j (0 + z)) (ET 16 [i; (0 + z); a; b])))).
Definition r_leftt_LH_ab_16 (z a b i j : nat) : ex := (EAdd (r_leftt_LH_ab_15 (0 + z) a b i j) (ESum (0 + z) 1 (EMul (ET 2 [(0 + z); a]) (ET 54 [(0 + z); b; i; j])))).
Definition r_leftt_LH_ab_17 (z a b i j : nat) : ex := (EAdd (r_leftt_LH_ab_16 (0 + z) a b i j) (ESum (0 + z) 3 (EMul (ET 21 [(0 + z); b]) (ET 54 [a; (0 + z); i; j])))).
Definition r_leftt_LH_ab_18 (z a b i j : nat) : ex := (ESub (r_leftt_LH_ab_17 (0 + z) a b i j) (ESum (0 + z) 0 (EMul (ET 0 [i; (0 + z)]) (ET 54 [a; b; (0 + z); j])))).
Definition r_leftt_LH_ab_19 (z a b i j : nat) : ex := (ESub (r_leftt_LH_ab_18 (0 + z) a b i j) (ESum (0 + z) 2 (EMul (ET 20 [j; (0 + z)]) (ET 54 [a; b; i; (0 + z)])))).
Definition r_leftt_LH_ab_20 (z a b i j : nat) : ex := (EAdd (r_leftt_LH_ab_19 (0 + z) a b i j) (EMul (ET 13 [j; b]) (ET 60 [a; i]))).
Definition r_leftt_LH_ab_21 (z a b i j : nat) : ex := (EAdd (r_leftt_LH_ab_20 (0 + z) a b i j) (EMul (ET 12 [i; a]) (ET 61 [b; j]))).
Definition r_leftt_LH_ab_22 (z a b i j : nat) : ex := (ESub (r_leftt_LH_ab_21 (0 + z) a b i j) (ESum (0 + z) 1 (ESum (1 + z) 1 (EMul (r_leftt_X_ab_vovv (2 + z) (0 + z) j (1 + z) b) (ET 10 [(1 + z); i; (0 + z); a]))))).
Definition r_leftt_LH_ab_23 (z a b i j : nat) : ex := (ESub (r_leftt_LH_ab_22 (0 + z) a b i j) (ESum (0 + z) 3 (ESum (1 + z) 3 (EMul (r_leftt_X_bb_vovv (2 + z) (0 + z) j (1 + z) b) (ET 27 [i; (1 + z); a; (0 + z)]))))).
Definition r_leftt_LH_ab_24 (z a b i j : nat) : ex := (ESub (r_leftt_LH_ab_23 (0 + z) a b i j) (ESum (0 + z) 1 (ESum (1 + z) 1 (EMul (r_leftt_X_aa_vovv (2 + z) (0 + z) i (1 + z) a) (ET 11 [(1 + z); j; (0 + z); b]))))).
Definition r_leftt_LH_ab_25 (z a b i j : nat) : ex := (ESub (r_leftt_LH_ab_24 (0 + z) a b i j) (ESum (0 + z) 3 (ESum (1 + z) 3 (EMul (r_leftt_X_ab_ovvv (2 + z) i (0 + z) a (1 + z)) (ET 28 [(1 + z); j; (0 + z); b]))))).
Definition r_leftt_LH_ab_26 (z a b i j : nat) : ex := (ESub (r_leftt_LH_ab_25 (0 + z) a b i j) (ESum (0 + z) 0 (ESum (1 + z) 0 (EMul (r_leftt_X_ab_ooov (2 + z) (0 + z) j (1 + z) b) (ET 6 [(1 + z); i; (0 + z); a]))))).
Definition r_leftt_LH_ab_27 (z a b i j : nat) : ex := (ESub (r_leftt_LH_ab_26 (0 + z) a b i j) (ESum (0 + z) 2 (ESum (1 + z) 2 (EMul (r_leftt_X_bb_ooov (2 + z) (0 + z) j (1 + z) b) (ET 24 [i; (1 + z); a; (0 + z)]))))).
Definition r_leftt_LH_ab_28 (z a b i j : nat) : ex := (ESub (r_leftt_LH_ab_27 (0 + z) a b i j) (ESum (0 + z) 0 (ESum (1 + z) 0 (EMul (r_leftt_X_aa_ooov (2 + z) (0 + z) i (1 + z) a) (ET 8 [(1 + z); j; (0 + z); b]))))).
Definition r_leftt_LH_ab_29 (z a b i j : nat) : ex := (ESub (r_leftt_LH_ab_28 (0 + z) a b i j) (ESum (0 + z) 2 (ESum (1 + z) 2 (EMul (r_leftt_X_ab_oovo (2 + z) i (0 + z) a (1 + z)) (ET 25 [(1 + z); j; (0 + z); b]))))).
Definition r_leftt_LH_ab_30 (z a b i j : nat) : ex := (EAdd (r_leftt_LH_ab_29 (0 + z) a b i j) (ESum (0 + z) 2 (ESum (1 + z) 0 (EMul (r_leftt_X_ab_ooov (2 + z) i (0 + z) (1 + z) b) (ET 24 [(1 + z); j; a; (0 + z)]))))).
Definition r_leftt_LH_ab_31 (z a b i j : nat) : ex := (EAdd (r_leftt_LH_ab_30 (0 + z) a b i j) (ESum (0 + z) 3 (ESum (1 + z) 1 (EMul (r_leftt_X_ab_ovvv (2 + z) i (0 + z) (1 + z) b) (ET 11 [(1 + z); j; a; (0 + z)]))))).
Definition r_leftt_LH_ab_32 (z a b i j : nat) : ex := (EAdd (r_leftt_LH_ab_31 (0 + z) a b i j) (ESum (0 + z) 1 (ESum (1 + z) 3 (EMul (r_leftt_X_ab_vovv (2 + z) (0 + z) j a (1 + z)) (ET 27 [i; (1 + z); (0 + z); b]))))).
Definition r_leftt_LH_ab_33 (z a b i j : nat) : ex := (EAdd (r_leftt_LH_ab_32 (0 + z) a b i j) (ESum (0 + z) 0 (ESum (1 + z) 2 (EMul (r_leftt_X_ab_oovo (2 + z) (0 + z) j a (1 + z)) (ET 8 [i; (1 + z); (0 + z); b]))))).
Definition r_leftt_LH_ab_34 (z a b i j : nat) : ex := (ESub (r_leftt_LH_ab_33 (0 + z) a b i j) (ESum (0 + z) 1 (ESum (1 + z) 2 (EMul (r_leftt_X_ab_vovv (2 + z) (0 + z) (1 + z) a b) (ET 24 [i; j; (0 + z); (1 + z)]))))).
Definition r_leftt_LH_ab_35 (z a b i j : nat) : ex := (ESub (r_leftt_LH_ab_34 (0 + z) a b i j) (ESum (0 + z) 0 (ESum (1 + z) 3 (EMul (r_leftt_X_ab_ovvv (2 + z) (0 + z) (1 + z) a b) (ET 8 [i; j; (0 + z); (1 + z)]))))).
Definition r_leftt_LH_ab_36 (z a b i j : nat) : ex := (ESub (r_leftt_LH_ab_35 (0 + z) a b i j) (ESum (0 + z) 0 (ESum (1 + z) 3 (EMul (r_leftt_X_ab_ooov (2 + z) i j (0 + z) (1 + z)) (ET 27 [(0 + z); (1 + z); a; b]))))).
Definition r_leftt_LH_ab_37 (z a b i j : nat) : ex := (ESub (r_leftt_LH_ab_36 (0 + z) a b i j) (ESum (0 + z) 1 (ESum (1 + z) 2 (EMul (r_leftt_X_ab_oovo (2 + z) i j (0 + z) (1 + z)) (ET 11 [(0 + z); (1 + z); a; b]))))).
Definition r_leftt_LH_ab_38 (z a b i j : nat) : ex := (EAdd (r_leftt_LH_ab_37 (0 + z) a b i j) (EAdd (ESum (0 + z) 1 (ESum (1 + z) 0 (EMul (r_leftt_X_ab_voov (2 + z) (0 + z) j (1 + z) b) (ET 14 [(1 + z); i; (0 + z); a])))) (ESum (0 + z) 3 (ESum (1 + z) 2 (EMul (r_leftt_X_bb_voov (2 + z) (0 + z) j (1 + z) b) (ET 16 [i; (1 + z); a; (0 + z)])))))).
Definition r_leftt_LH_ab_39 (z a b i j : nat) : ex := (EAdd (r_leftt_LH_ab_38 (0 + z) a b i j) (EAdd (ESum (0 + z) 1 (ESum (1 + z) 0 (EMul (r_leftt_X_aa_voov (2 + z) (0 + z) i (1 + z) a) (ET 16 [(1 + z); j; (0 + z); b])))) (ESum (0 + z) 3 (ESum (1 + z) 2 (EMul (r_leftt_X_ab_ovvo (2 + z) i (0 + z) a (1 + z)) (ET 18 [(1 + z); j; (0 + z); b])))))).
Definition r_leftt_LH_ab_40 (z a b i j : nat) : ex := (ESub (r_leftt_LH_ab_39 (0 + z) a b i j) (ESum (0 + z) 3 (ESum (1 + z) 0 (EMul (r_leftt_X_ab_ovov (2 + z) i (0 + z) (1 + z) b) (ET 16 [(1 + z); j; a; (0 + z)]))))).
Definition r_leftt_LH_ab_41 (z a b i j : nat) : ex := (ESub (r_leftt_LH_ab_40 (0 + z) a b i j) (ESum (0 + z) 1 (ESum (1 + z) 2 (EMul (r_leftt_X_ab_vovo (2 + z) (0 + z) j a (1 + z)) (ET 16 [i; (1 + z); (0 + z); b]))))).
Definition r_leftt_LH_ab_42 (z a b i j : nat) : ex := (EAdd (r_leftt_LH_ab_41 (0 + z) a b i j) (ESum (0 + z) 1 (ESum (1 + z) 3 (EMul (r_leftt_X_ab_vvvv (2 + z) (0 + z) (1 + z) a b) (ET 16 [i; j; (0 + z); (1 + z)]))))).
Definition r_leftt_LH_ab_43 (z a b i j : nat) : ex := (EAdd (r_leftt_LH_ab_42 (0 + z) a b i j) (ESum (0 + z) 0 (ESum (1 + z) 2 (EMul (r_leftt_X_ab_oooo (2 + z) i j (0 + z) (1 + z)) (ET 16 [(0 + z); (1 + z); a; b]))))).
Definition r_leftt_LH_ab_44 (z a b i j : nat) : ex := (EAdd (r_leftt_LH_ab_43 (0 + z) a b i j) (ESum (0 + z) 1 (EMul (r_leftt_X_a_vv (1 + z) (0 + z) a) (ET 16 [i; j; (0 + z); b])))).
Definition r_leftt_LH_ab_45 (z a b i j : nat) : ex := (EAdd (r_leftt_LH_ab_44 (0 + z) a b i j) (ESum (0 + z) 3 (EMul (r_leftt_X_b_vv (1 + z) (0 + z) b) (ET 16 [i; j; a; (0 + z)])))).
Definition r_leftt_LH_ab_46 (z a b i j : nat) : ex := (ESub (r_leftt_LH_ab_45 (0 + z) a b i j) (ESum (0 + z) 0 (EMul (r_leftt_X_a_oo (1 + z) i (0 + z)) (ET 16 [(0 + z); j; a; b])))).
Definition r_leftt_LH_ab_47 (z a b i j : nat) : ex := (ESub (r_leftt_LH_ab_46 (0 + z) a b i j) (ESum (0 + z) 2 (EMul (r_leftt_X_b_oo (1 + z) j (0 + z)) (ET 16 [i; (0 + z); a; b])))).
Definition r_leftt_LH_ab_48 (z a b i j : nat) : ex := (ESub (r_leftt_LH_ab_47 (0 + z) a b i j) (EScale (1) 2 (ESum (0 + z) 1 (ESum (1 + z) 0 (ESum (2 + z) 0 (EMul (ET 57 [a; (0 + z); b; (1 + z); (2 + z); j]) (ET 32 [(0 + z); i; (2 + z); (1 + z)]))))))).
Definition r_leftt_LH_ab_49 (z a b i j : nat) : ex := (ESub (r_leftt_LH_ab_48 (0 + z) a b i j) (ESum (0 + z) 3 (ESum (1 + z) 0 (ESum (2 + z) 2 (EMul (ET 58 [a; (0 + z); b; (1 + z); (2 + z); j]) (ET 43 [i; (0 + z); (1 + z); (2 + z)])))))).
Definition r_leftt_LH_ab_50 (z a b i j : nat) : ex := (ESub (r_leftt_LH_ab_49 (0 + z) a b i j) (ESum (0 + z) 1 (ESum (1 + z) 0 (ESum (2 + z) 2 (EMul (ET 57 [a; (0 + z); b; i; (1 + z); (2 + z)]) (ET 44 [(0 + z); j; (1 + z); (2 + z)])))))).
Definition r_leftt_LH_ab_51 (z a b i j : nat) : ex := (ESub (r_leftt_LH_ab_50 (0 + z) a b i j) (EScale (1) 2 (ESum (0 + z) 3 (ESum (1 + z) 2 (ESum (2 + z) 2 (EMul (ET 58 [a; (0 + z); b; i; (1 + z); (2 + z)]) (ET 49 [(0 + z); j; (1 + z); (2 + z)]))))))).
Definition r_leftt_LH_ab_52 (z a b i j : nat) : ex := (EAdd (r_leftt_LH_ab_51 (0 + z) a b i j) (EScale (1) 2 (ESum (0 + z) 1 (ESum (1 + z) 1 (ESum (2 + z) 0 (EMul (ET 57 [(0 + z); (1 + z); b; i; (2 + z); j]) (ET 33 [(1 + z); (0 + z); (2 + z); a]))))))).
Definition r_leftt_LH_ab_53 (z a b i j : nat) : ex := (EAdd (r_leftt_LH_ab_52 (0 + z) a b i j) (ESum (0 + z) 1 (ESum (1 + z) 3 (ESum (2 + z) 2 (EMul (ET 58 [(0 + z); (1 + z); b; i; (2 + z); j]) (ET 41 [(0 + z); (1 + z); a; (2 + z)])))))).
Definition r_leftt_LH_ab_54 (z a b i j : nat) : ex := (EAdd (r_leftt_LH_ab_53 (0 + z) a b i j) (ESum (0 + z) 1 (ESum (1 + z) 3 (ESum (2 + z) 0 (EMul (ET 57 [a; (0 + z); (1 + z); i; (2 + z); j]) (ET 42 [(0 + z); (1 + z); (2 + z); b])))))).
Definition r_leftt_LH_ab_55 (z a b i j : nat) : ex := (EAdd (r_leftt_LH_ab_54 (0 + z) a b i j) (EScale (1) 2 (ESum (0 + z) 3 (ESum (1 + z) 3 (ESum (2 + z) 2 (EMul (ET 58 [a; (0 + z); (1 + z); i; (2 + z); j]) (ET 50 [(0 + z); (1 + z); (2 + z); b]))))))).
Definition r_leftt_LH_bb (z a b i j : nat) : ex := (EScale (1) 2 (ESum (0 + z) 3 (EMul (ET 21 [(0 + z); a]) (ET 55 [(0 + z); b; i; j])))).
Definition r_leftt_LH_bb_1 (z a b i j : nat) : ex := (ESub (r_leftt_LH_bb (0 + z) a b i j) (EScale (1) 2 (ESum (0 + z) 2 (EMul (ET 20 [i; (0 + z)]) (ET 55 [a; b; (0 + z); j]))))).
Definition r_leftt_LH_bb_2 (z a b i j : nat) : ex := (EAdd (r_leftt_LH_bb_1 (0 + z) a b i j) (EMul (ET 13 [j; b]) (ET 61 [a; i]))).
Definition r_leftt_I1_12 (z e a : nat) : ex := (ESub (EScale (-1) 2 (ESum (0 + z) 3 (ESum (1 + z) 2 (ESum (2 + z) 2 (EMul (ET 55 [a; (0 + z); (1 + z); (2 + z)]) (ET 51 [e; (0 + z); (1 + z); (2 + z)])))))) (ESum (0 + z) 1 (ESum (1 + z) 0 (ESum (2 + z) 2 (EMul (ET 54 [(0 + z); a; (1 + z); (2 + z)]) (ET 45 [(0 + z); e; (1 + z); (2 + z)])))))).
Definition r_leftt_LH_bb_3 (z a b i j : nat) : ex := (EAdd (r_leftt_LH_bb_2 (0 + z) a b i j) (EScale (1) 2 (ESum (0 + z) 3 (EMul (r_leftt_I1_12 (1 + z) (0 + z) a) (ET 18 [i; j; (0 + z); b]))))).
Definition r_leftt_I1_13 (z i m : nat) : ex := (EAdd (EScale (1) 2 (ESum (0 + z) 3 (ESum (1 + z) 3 (ESum (2 + z) 2 (EMul (ET 55 [(0 + z); (1 + z); i; (2 + z)]) (ET 51 [(0 + z); (1 + z); m; (2 + z)])))))) (ESum (0 + z) 1 (ESum (1 + z) 3 (ESum (2 + z) 0 (EMul (ET 54 [(0 + z); (1 + z); (2 + z); i]) (ET 45 [(0 + z); (1 + z); (2 + z); m])))))).
Definition r_leftt_LH_bb_4 (z a b i j : nat) : ex := (ESub (r_leftt_LH_bb_3 (0 + z) a b i j) (EScale (1) 2 (ESum (0 + z) 2 (EMul (r_leftt_I1_13 (1 + z) i (0 + z)) (ET 18 [(0 + z); j; a; b]))))).
Definition r_leftt_LH_bb_5 (z a b i j : nat) : ex := (EAdd (r_leftt_LH_bb_4 (0 + z) a b i j) (ESum (0 + z) 3 (ESum (1 + z) 2 (EMul (ET 23 [(0 + z); i; (1 + z); a]) (ET 55 [(0 + z); b; (1 + z); j]))))).
Definition r_leftt_LH_bb_6 (z a b i j : nat) : ex := (EAdd (r_leftt_LH_bb_5 (0 + z) a b i j) (ESum (0 + z) 1 (ESum (1 + z) 0 (EMul (ET 4 [(0 + z); i; (1 + z); a]) (ET 54 [(0 + z); b; (1 + z); j]))))).
Definition r_leftt_LH_bb_7 (z a b i j : nat) : ex := (EAdd (r_leftt_LH_bb_6 (0 + z) a b i j) (EScale (1) 8 (ESum (0 + z) 2 (ESum (1 + z) 2 (EMul (ET 47 [i; j; (0 + z); (1 + z)]) (ET 55 [a; b; (0 + z); (1 + z)])))))).
Definition r_leftt_LH_bb_8 (z a b i j : nat) : ex := (EAdd (r_leftt_LH_bb_7 (0 + z) a b i j) (EScale (1) 8 (ESum (0 + z) 3 (ESum (1 + z) 3 (EMul (ET 48 [(0 + z); (1 + z); a; b]) (ET 55 [(0 + z); (1 + z); i; j])))))).
Definition r_leftt_LH_bb_9 (z a b i j : nat) : ex := (EAdd (r_leftt_LH_bb_8 (0 + z) a b i j) (EScale (1) 2 (ESum (0 + z) 3 (EMul (ET 28 [(0 + z); j; a; b]) (ET 61 [(0 + z); i]))))).
Definition r_leftt_LH_bb_10 (z a b i j : nat) : ex := (ESub (r_leftt_LH_bb_9 (0 + z) a b i j) (EScale (1) 2 (ESum (0 + z) 2 (EMul (ET 25 [i; j; (0 + z); b]) (ET 61 [a; (0 + z)]))))).
Definition r_leftt_LH_bb_11 (z a b i j : nat) : ex := (ESub (r_leftt_LH_bb_10 (0 + z) a b i j) (ESum (0 + z) 3 (ESum (1 + z) 3 (EMul (r_leftt_X_bb_vovv (2 + z) (0 + z) j (1 + z) b) (ET 28 [(1 + z); i; (0 + z); a]))))).
Definition r_leftt_LH_bb_12 (z a b i j : nat) : ex := (ESub (r_leftt_LH_bb_11 (0 + z) a b i j) (ESum (0 + z) 2 (ESum (1 + z) 2 (EMul (r_leftt_X_bb_ooov (2 + z) (0 + z) j (1 + z) b) (ET 25 [(1 + z); i; (0 + z); a]))))).
Definition r_leftt_LH_bb_13 (z a b i j : nat) : ex := (ESub (r_leftt_LH_bb_12 (0 + z) a b i j) (EScale (1) 4 (ESum (0 + z) 3 (ESum (1 + z) 2 (EMul (r_leftt_X_bb_vovv (2 + z) (0 + z) (1 + z) a b) (ET 25 [j; i; (1 + z); (0 + z)])))))).
Definition r_leftt_LH_bb_14 (z a b i j : nat) : ex := (ESub (r_leftt_LH_bb_13 (0 + z) a b i j) (EScale (1) 4 (ESum (0 + z) 2 (ESum (1 + z) 3 (EMul (r_leftt_X_bb_ooov (2 + z) j i (0 + z) (1 + z)) (ET 28 [(1 + z); (0 + z); a; b])))))).
Definition r_leftt_LH_bb_15 (z a b i j : nat) : ex := (ESub (r_leftt_LH_bb_14 (0 + z) a b i j) (ESum (0 + z) 1 (ESum (1 + z) 1 (EMul (r_leftt_X_ab_vovv (2 + z) (0 + z) j (1 + z) b) (ET 11 [(1 + z); i; (0 + z); a]))))).
Definition r_leftt_LH_bb_16 (z a b i j : nat) : ex := (ESub (r_leftt_LH_bb_15 (0 + z) a b i j) (ESum (0 + z) 0 (ESum (1 + z) 0 (EMul (r_leftt_X_ab_ooov (2 + z) (0 + z) j (1 + z) b) (ET 8 [(1 + z); i; (0 + z); a]))))).
Definition r_leftt_LH_bb_17 (z a b i j : nat) : ex := (EAdd (r_leftt_LH_bb_16 (0 + z) a b i j) (ESum (0 + z) 3 (ESum (1 + z) 2 (EMul (r_leftt_X_bb_voov (2 + z) (0 + z) j (1 + z) b) (ET 18 [i; (1 + z); a; (0 + z)]))))).
Definition r_leftt_LH_bb_18 (z a b i j : nat) : ex := (EAdd (r_leftt_LH_bb_17 (0 + z) a b i j) (ESum (0 + z) 1 (ESum (1 + z) 0 (EMul (r_leftt_X_ab_voov (2 + z) (0 + z) j (1 + z) b) (ET 16 [(1 + z); i; (0 + z); a]))))).
Definition r_leftt_LH_bb_19 (z a b i j : nat) : ex := (EAdd (r_leftt_LH_bb_18 (0 + z) a b i j) (EScale (1) 8 (ESum (0 + z) 3 (ESum (1 + z) 3 (EMul (r_leftt_X_bb_vvvv (2 + z) (0 + z) (1 + z) a b) (ET 18 [i; j; (0 + z); (1 + z)])))))).
Definition r_leftt_LH_bb_20 (z a b i j : nat) : ex := (EAdd (r_leftt_LH_bb_19 (0 + z) a b i j) (EScale (1) 8 (ESum (0 + z) 2 (ESum (1 + z) 2 (EMul (r_leftt_X_bb_oooo (2 + z) i j (0 + z) (1 + z)) (ET 18 [(0 + z); (1 + z); a; b])))))).
Definition r_leftt_LH_bb_21 (z a b i j : nat) : ex := (EAdd (r_leftt_LH_bb_20 (0 + z) a b i j) (EScale (1) 2 (ESum (0 + z) 3 (EMul (r_leftt_X_b_vv (1 + z) (0 + z) a) (ET 18 [i; j; (0 + z); b]))))).
Definition r_leftt_LH_bb_22 (z a b i j : nat) : ex := (ESub (r_leftt_LH_bb_21 (0 + z) a b i j) (EScale (1) 2 (ESum (0 + z) 2 (EMul (r_leftt_X_b_oo (1 + z) i (0 + z)) (ET 18 [j; (0 + z); b; a]))))).
Definition r_leftt_LH_bb_23 (z a b i j : nat) : ex := (EAdd (r_leftt_LH_bb_22 (0 + z) a b i j) (EScale (1) 4 (ESum (0 + z) 3 (ESum (1 + z) 3 (ESum (2 + z) 2 (EMul (ET 59 [(0 + z); b; (1 + z); i; j; (2 + z)]) (ET 50 [(1 + z); (0 + z); (2 + z); a]))))))).
Definition r_leftt_LH_bb_24 (z a b i j : nat) : ex := (EAdd (r_leftt_LH_bb_23 (0 + z) a b i j) (EScale (1) 2 (ESum (0 + z) 1 (ESum (1 + z) 3 (ESum (2 + z) 0 (EMul (ET 58 [(0 + z); b; (1 + z); (2 + z); j; i]) (ET 42 [(0 + z); (1 + z); (2 + z); a]))))))).
Definition r_leftt_LH_bb_25 (z a b i j : nat) : ex := (ESub (r_leftt_LH_bb_24 (0 + z) a b i j) (EScale (1) 4 (ESum (0 + z) 3 (ESum (1 + z) 2 (ESum (2 + z) 2 (EMul (ET 59 [a; b; (0 + z); (1 + z); j; (2 + z)]) (ET 49 [(0 + z); i; (2 + z); (1 + z)]))))))).
Definition r_leftt_LH_bb_26 (z a b i j : nat) : ex := (ESub (r_leftt_LH_bb_25 (0 + z) a b i j) (EScale (1) 2 (ESum (0 + z) 1 (ESum (1 + z) 0 (ESum (2 + z) 2 (EMul (ET 58 [(0 + z); b; a; (1 + z); j; (2 + z)]) (ET 44 [(0 + z); i; (1 + z); (2 + z)]))))))).
Definition r_leftt_LH_bb_27 (z a b i j : nat) : ex := (ESub (r_leftt_LH_bb_26 (0 + z) a b i j) (ESub (EAdd (r_leftt_LH_bb_26 (0 + z) b a i j) (r_leftt_LH_bb_26 (0 + z) a b j i)) (r_leftt_LH_bb_26 (0 + z) b a j i))).
Definition r_leftt_LH_aaa (z a b c i j k : nat) : ex := (EScale (1) 4 (EMul (ET 60 [a; i]) (ET 14 [j; k; b; c]))).
Definition r_leftt_LH_aaa_1 (z a b c i j k : nat) : ex := (EAdd (r_leftt_LH_aaa (0 + z) a b c i j k) (EScale (1) 4 (EMul (ET 53 [b; c; j; k]) (ET 12 [i; a])))).
Definition r_leftt_LH_aaa_2 (z a b c i j k : nat) : ex := (EAdd (r_leftt_LH_aaa_1 (0 + z) a b c i j k) (EScale (1) 4 (ESum (0 + z) 1 (EMul (ET 53 [(0 + z); b; i; j]) (ET 10 [(0 + z); k; a; c]))))).
Definition r_leftt_LH_aaa_3 (z a b c i j k : nat) : ex := (ESub (r_leftt_LH_aaa_2 (0 + z) a b c i j k) (EScale (1) 4 (ESum (0 + z) 0 (EMul (ET 53 [a; b; (0 + z); j]) (ET 6 [i; k; (0 + z); c]))))).
Definition r_leftt_LH_aaa_4 (z a b c i j k : nat) : ex := (EAdd (r_leftt_LH_aaa_3 (0 + z) a b c i j k) (EScale (1) 12 (ESum (0 + z) 1 (EMul (ET 2 [(0 + z); a]) (ET 56 [(0 + z); b; c; i; j; k]))))).
Definition r_leftt_LH_aaa_5 (z a b c i j k : nat) : ex := (ESub (r_leftt_LH_aaa_4 (0 + z) a b c i j k) (EScale (1) 12 (ESum (0 + z) 0 (EMul (ET 0 [i; (0 + z)]) (ET 56 [a; b; c; (0 + z); j; k]))))).
Definition r_leftt_LH_aaa_6 (z a b c i j k : nat) : ex := (EAdd (r_leftt_LH_aaa_5 (0 + z) a b c i j k) (EScale (1) 4 (ESum (0 + z) 1 (ESum (1 + z) 0 (EMul (ET 3 [(0 + z); i; (1 + z); a]) (ET 56 [(0 + z); b; c; (1 + z); j; k])))))).
Definition r_leftt_LH_aaa_7 (z a b c i j k : nat) : ex := (EAdd (r_leftt_LH_aaa_6 (0 + z) a b c i j k) (EScale (1) 4 (ESum (0 + z) 3 (ESum (1 + z) 2 (EMul (ET 22 [i; (0 + z); a; (1 + z)]) (ET 57 [b; c; (0 + z); j; k; (1 + z)])))))).
Definition r_leftt_LH_aaa_8 (z a b c i j k : nat) : ex := (EAdd (r_leftt_LH_aaa_7 (0 + z) a b c i j k) (EScale (1) 24 (ESum (0 + z) 0 (ESum (1 + z) 0 (EMul (ET 30 [i; j; (0 + z); (1 + z)]) (ET 56 [a; b; c; (0 + z); (1 + z); k])))))).
Definition r_leftt_LH_aaa_9 (z a b c i j k : nat) : ex := (EAdd (r_leftt_LH_aaa_8 (0 + z) a b c i j k) (EScale (1) 24 (ESum (0 + z) 1 (ESum (1 + z) 1 (EMul (ET 31 [(0 + z); (1 + z); a; b]) (ET 56 [(0 + z); (1 + z); c; i; j; k])))))).
Definition r_leftt_LH_aaa_10 (z a b c i j k : nat) : ex := (EAdd (r_leftt_LH_aaa_9 (0 + z) a b c i j k) (EScale (1) 4 (ESum (0 + z) 1 (EMul (ET 14 [i; j; (0 + z); b]) (r_leftt_X_aa_vovv (1 + z) (0 + z) k a c))))).
Definition r_leftt_LH_aaa_11 (z a b c i j k : nat) : ex := (ESub (r_leftt_LH_aaa_10 (0 + z) a b c i j k) (EScale (1) 4 (ESum (0 + z) 0 (EMul (ET 14 [(0 + z); j; a; b]) (r_leftt_X_aa_ooov (1 + z) i k (0 + z) c))))).
Definition r_leftt_LH_aaa_12 (z a b c i j k : nat) : ex := (ESub (r_leftt_LH_aaa_11 (0 + z) a b c i j k) (r_leftt_LH_aaa_11 (0 + z) a b c i k j)).
Definition r_leftt_LH_aaa_13 (z a b c i j k : nat) : ex := (ESub (r_leftt_LH_aaa_12 (0 + z) a b c i j k) (EAdd (r_leftt_LH_aaa_12 (0 + z) a b c j i k) (r_leftt_LH_aaa_12 (0 + z) a b c k j i))).
Definition r_leftt_LH_aaa_14 (z a b c i j k : nat) : ex := (ESub (r_leftt_LH_aaa_13 (0 + z) a b c i j k) (r_leftt_LH_aaa_13 (0 + z) a c b i j k)).
Definition r_leftt_LH_aaa_15 (z a b c i j k : nat) : ex := (ESub (r_leftt_LH_aaa_14 (0 + z) a b c i j k) (EAdd (r_leftt_LH_aaa_14 (0 + z) c b a i j k) (r_leftt_LH_aaa_14 (0 + z) b a c i j k))).
Definition r_leftt_LH_aab (z a b c i j k : nat) : ex := (EMul (ET 60 [a; i]) (ET 16 [j; k; b; c])).
Definition r_leftt_LH_aab_1 (z a b c i j k : nat) : ex := (EAdd (r_leftt_LH_aab (0 + z) a b c i j k) (EScale (1) 4 (EMul (ET 61 [c; k]) (ET 14 [i; j; a; b])))).
Definition r_leftt_LH_aab_2 (z a b c i j k : nat) : ex := (EAdd (r_leftt_LH_aab_1 (0 + z) a b c i j k) (EMul (ET 54 [b; c; j; k]) (ET 12 [i; a]))).
Definition r_leftt_LH_aab_3 (z a b c i j k : nat) : ex := (EAdd (r_leftt_LH_aab_2 (0 + z) a b c i j k) (EScale (1) 4 (EMul (ET 53 [a; b; i; j]) (ET 13 [k; c])))).
Definition r_leftt_LH_aab_4 (z a b c i j k : nat) : ex := (EAdd (r_leftt_LH_aab_3 (0 + z) a b c i j k) (EScale (1) 2 (ESum (0 + z) 1 (EMul (ET 11 [(0 + z); k; b; c]) (ET 53 [a; (0 + z); i; j]))))).
Definition r_leftt_LH_aab_5 (z a b c i j k : nat) : ex := (ESub (r_leftt_LH_aab_4 (0 + z) a b c i j k) (EScale (1) 2 (ESum (0 + z) 0 (EMul (ET 8 [j; k; (0 + z); c]) (ET 53 [a; b; i; (0 + z)]))))).
Definition r_leftt_LH_aab_6 (z a b c i j k : nat) : ex := (EAdd (r_leftt_LH_aab_5 (0 + z) a b c i j k) (ESum (0 + z) 3 (EMul (ET 27 [i; (0 + z); a; c]) (ET 54 [b; (0 + z); j; k])))).
Definition r_leftt_LH_aab_7 (z a b c i j k : nat) : ex := (ESub (r_leftt_LH_aab_6 (0 + z) a b c i j k) (ESum (0 + z) 2 (EMul (ET 24 [i; k; a; (0 + z)]) (ET 54 [b; c; j; (0 + z)])))).
Definition r_leftt_LH_aab_8 (z a b c i j k : nat) : ex := (EAdd (r_leftt_LH_aab_7 (0 + z) a b c i j k) (EScale (1) 2 (ESum (0 + z) 1 (EMul (ET 10 [(0 + z); i; b; a]) (ET 54 [(0 + z); c; j; k]))))).
Definition r_leftt_LH_aab_9 (z a b c i j k : nat) : ex := (ESub (r_leftt_LH_aab_8 (0 + z) a b c i j k) (EScale (1) 2 (ESum (0 + z) 0 (EMul (ET 6 [j; i; (0 + z); a]) (ET 54 [b; c; (0 + z); k]))))).
Definition r_leftt_LH_aab_10 (z a b c i j k : nat) : ex := (EAdd (r_leftt_LH_aab_9 (0 + z) a b c i j k) (EScale (1) 2 (ESum (0 + z) 1 (EMul (r_leftt_X_ab_vovv (1 + z) (0 + z) k b c) (ET 14 [i; j; a; (0 + z)]))))).
Definition r_leftt_LH_aab_11 (z a b c i j k : nat) : ex := (ESub (r_leftt_LH_aab_10 (0 + z) a b c i j k) (EScale (1) 2 (ESum (0 + z) 0 (EMul (r_leftt_X_ab_ooov (1 + z) j k (0 + z) c) (ET 14 [i; (0 + z); a; b]))))).
Definition r_leftt_LH_aab_12 (z a b c i j k : nat) : ex := (EAdd (r_leftt_LH_aab_11 (0 + z) a b c i j k) (ESum (0 + z) 3 (EMul (r_leftt_X_ab_ovvv (1 + z) i (0 + z) a c) (ET 16 [j; k; b; (0 + z)])))).
Definition r_leftt_LH_aab_13 (z a b c i j k : nat) : ex := (ESub (r_leftt_LH_aab_12 (0 + z) a b c i j k) (ESum (0 + z) 2 (EMul (r_leftt_X_ab_oovo (1 + z) i k a (0 + z)) (ET 16 [j; (0 + z); b; c])))).
Definition r_leftt_LH_aab_14 (z a b c i j k : nat) : ex := (EAdd (r_leftt_LH_aab_13 (0 + z) a b c i j k) (EScale (1) 2 (ESum (0 + z) 1 (EMul (r_leftt_X_aa_vovv (1 + z) (0 + z) i b a) (ET 16 [j; k; (0 + z); c]))))).
Definition r_leftt_LH_aab_15 (z a b c i j k : nat) : ex := (ESub (r_leftt_LH_aab_14 (0 + z) a b c i j k) (EScale (1) 2 (ESum (0 + z) 0 (EMul (r_leftt_X_aa_ooov (1 + z) j i (0 + z) a) (ET 16 [(0 + z); k; b; c]))))).
Definition r_leftt_LH_aab_16 (z a b c i j k : nat) : ex := (ESub (r_leftt_LH_aab_15 (0 + z) a b c i j k) (EScale (1) 2 (ESum (0 + z) 0 (EMul (ET 0 [i; (0 + z)]) (ET 57 [a; b; c; (0 + z); j; k]))))).
Definition r_leftt_LH_aab_17 (z a b c i j k : nat) : ex := (ESub (r_leftt_LH_aab_16 (0 + z) a b c i j k) (EScale (1) 4 (ESum (0 + z) 2 (EMul (ET 20 [k; (0 + z)]) (ET 57 [a; b; c; i; j; (0 + z)]))))).
Definition r_leftt_LH_aab_18 (z a b c i j k : nat) : ex := (EAdd (r_leftt_LH_aab_17 (0 + z) a b c i j k) (EScale (1) 2 (ESum (0 + z) 1 (EMul (ET 2 [(0 + z); a]) (ET 57 [(0 + z); b; c; i; j; k]))))).
Definition r_leftt_LH_aab_19 (z a b c i j k : nat) : ex := (EAdd (r_leftt_LH_aab_18 (0 + z) a b c i j k) (EScale (1) 4 (ESum (0 + z) 3 (EMul (ET 21 [(0 + z); c]) (ET 57 [a; b; (0 + z); i; j; k]))))).
Definition r_leftt_LH_aab_20 (z a b c i j k : nat) : ex := (EAdd (r_leftt_LH_aab_19 (0 + z) a b c i j k) (EScale (1) 8 (ESum (0 + z) 0 (ESum (1 + z) 0 (EMul (ET 30 [i; j; (0 + z); (1 + z)]) (ET 57 [a; b; c; (0 + z); (1 + z); k])))))).
Definition r_leftt_LH_aab_21 (z a b c i j k : nat) : ex := (EAdd (r_leftt_LH_aab_20 (0 + z) a b c i j k) (EScale (1) 2 (ESum (0 + z) 0 (ESum (1 + z) 2 (EMul (ET 37 [j; k; (0 + z); (1 + z)]) (ET 57 [a; b; c; i; (0 + z); (1 + z)])))))).
Definition r_leftt_LH_aab_22 (z a b c i j k : nat) : ex := (EAdd (r_leftt_LH_aab_21 (0 + z) a b c i j k) (EScale (1) 8 (ESum (0 + z) 1 (ESum (1 + z) 1 (EMul (ET 31 [(0 + z); (1 + z); a; b]) (ET 57 [(0 + z); (1 + z); c; i; j; k])))))).
Definition r_leftt_LH_aab_23 (z a b c i j k : nat) : ex := (EAdd (r_leftt_LH_aab_22 (0 + z) a b c i j k) (EScale (1) 2 (ESum (0 + z) 1 (ESum (1 + z) 3 (EMul (ET 38 [(0 + z); (1 + z); b; c]) (ET 57 [a; (0 + z); (1 + z); i; j; k])))))).
Definition r_leftt_LH_aab_24 (z a b c i j k : nat) : ex := (EAdd (r_leftt_LH_aab_23 (0 + z) a b c i j k) (ESum (0 + z) 1 (ESum (1 + z) 0 (EMul (ET 3 [(0 + z); i; (1 + z); a]) (ET 57 [(0 + z); b; c; (1 + z); j; k]))))).
Definition r_leftt_LH_aab_25 (z a b c i j k : nat) : ex := (EAdd (r_leftt_LH_aab_24 (0 + z) a b c i j k) (ESum (0 + z) 3 (ESum (1 + z) 2 (EMul (ET 22 [i; (0 + z); a; (1 + z)]) (ET 58 [b; (0 + z); c; j; (1 + z); k]))))).
Definition r_leftt_LH_aab_26 (z a b c i j k : nat) : ex := (EAdd (r_leftt_LH_aab_25 (0 + z) a b c i j k) (EScale (1) 4 (ESum (0 + z) 1 (ESum (1 + z) 0 (EMul (ET 4 [(0 + z); k; (1 + z); c]) (ET 56 [a; b; (0 + z); i; j; (1 + z)])))))).
Definition r_leftt_LH_aab_27 (z a b c i j k : nat) : ex := (EAdd (r_leftt_LH_aab_26 (0 + z) a b c i j k) (EScale (1) 4 (ESum (0 + z) 3 (ESum (1 + z) 2 (EMul (ET 23 [(0 + z); k; (1 + z); c]) (ET 57 [a; b; (0 + z); i; j; (1 + z)])))))).
Definition r_leftt_LH_aab_28 (z a b c i j k : nat) : ex := (ESub (r_leftt_LH_aab_27 (0 + z) a b c i j k) (EScale (1) 2 (ESum (0 + z) 1 (ESum (1 + z) 2 (EMul (ET 40 [(0 + z); k; a; (1 + z)]) (ET 57 [(0 + z); b; c; i; j; (1 + z)])))))).
Definition r_leftt_LH_aab_29 (z a b c i j k : nat) : ex := (ESub (r_leftt_LH_aab_28 (0 + z) a b c i j k) (EScale (1) 2 (ESum (0 + z) 3 (ESum (1 + z) 0 (EMul (ET 39 [i; (0 + z); (1 + z); c]) (ET 57 [a; b; (0 + z); (1 + z); j; k])))))).
Definition r_leftt_LH_aab_30 (z a b c i j k : nat) : ex := (ESub (r_leftt_LH_aab_29 (0 + z) a b c i j k) (r_leftt_LH_aab_29 (0 + z) b a c i j k)).
Definition r_leftt_LH_aab_31 (z a b c i j k : nat) : ex := (ESub (r_leftt_LH_aab_30 (0 + z) a b c i j k) (r_leftt_LH_aab_30 (0 + z) a b c j i k)).
Definition r_leftt_LH_abb (z c b a k j i : nat) : ex := (EMul (ET 61 [a; i]) (ET 16 [k; j; c; b])).
Definition r_leftt_LH_abb_1 (z c b a k j i : nat) : ex := (EAdd (r_leftt_LH_abb (0 + z) c b a k j i) (EScale (1) 4 (EMul (ET 60 [c; k]) (ET 18 [i; j; a; b])))).
Definition r_leftt_LH_abb_2 (z c b a k j i : nat) : ex := (EAdd (r_leftt_LH_abb_1 (0 + z) c b a k j i) (EMul (ET 54 [c; b; k; j]) (ET 13 [i; a]))).
Definition r_leftt_LH_abb_3 (z c b a k j i : nat) : ex := (EAdd (r_leftt_LH_abb_2 (0 + z) c b a k j i) (EScale (1) 4 (EMul (ET 55 [a; b; i; j]) (ET 12 [k; c])))).
Definition r_leftt_LH_abb_4 (z c b a k j i : nat) : ex := (EAdd (r_leftt_LH_abb_3 (0 + z) c b a k j i) (EScale (1) 2 (ESum (0 + z) 3 (EMul (ET 27 [k; (0 + z); c; b]) (ET 55 [a; (0 + z); i; j]))))).
Definition r_leftt_LH_abb_5 (z c b a k j i : nat) : ex := (ESub (r_leftt_LH_abb_4 (0 + z) c b a k j i) (EScale (1) 2 (ESum (0 + z) 2 (EMul (ET 24 [k; j; c; (0 + z)]) (ET 55 [a; b; i; (0 + z)]))))).
Definition r_leftt_LH_abb_6 (z c b a k j i : nat) : ex := (EAdd (r_leftt_LH_abb_5 (0 + z) c b a k j i) (ESum (0 + z) 1 (EMul (ET 11 [(0 + z); i; c; a]) (ET 54 [(0 + z); b; k; j])))).
Definition r_leftt_LH_abb_7 (z c b a k j i : nat) : ex := (ESub (r_leftt_LH_abb_6 (0 + z) c b a k j i) (ESum (0 + z) 0 (EMul (ET 8 [k; i; (0 + z); a]) (ET 54 [c; b; (0 + z); j])))).
Definition r_leftt_LH_abb_8 (z c b a k j i : nat) : ex := (EAdd (r_leftt_LH_abb_7 (0 + z) c b a k j i) (EScale (1) 2 (ESum (0 + z) 3 (EMul (ET 28 [(0 + z); i; b; a]) (ET 54 [c; (0 + z); k; j]))))).
Definition r_leftt_LH_abb_9 (z c b a k j i : nat) : ex := (ESub (r_leftt_LH_abb_8 (0 + z) c b a k j i) (EScale (1) 2 (ESum (0 + z) 2 (EMul (ET 25 [j; i; (0 + z); a]) (ET 54 [c; b; k; (0 + z)]))))).
Definition r_leftt_LH_abb_10 (z c b a k j i : nat) : ex := (EAdd (r_leftt_LH_abb_9 (0 + z) c b a k j i) (EScale (1) 2 (ESum (0 + z) 3 (EMul (r_leftt_X_ab_ovvv (1 + z) k (0 + z) c b) (ET 18 [i; j; a; (0 + z)]))))).
Definition r_leftt_LH_abb_11 (z c b a k j i : nat) : ex := (ESub (r_leftt_LH_abb_10 (0 + z) c b a k j i) (EScale (1) 2 (ESum (0 + z) 2 (EMul (r_leftt_X_ab_oovo (1 + z) k j c (0 + z)) (ET 18 [i; (0 + z); a; b]))))).
Definition r_leftt_LH_abb_12 (z c b a k j i : nat) : ex := (EAdd (r_leftt_LH_abb_11 (0 + z) c b a k j i) (ESum (0 + z) 1 (EMul (r_leftt_X_ab_vovv (1 + z) (0 + z) i c a) (ET 16 [k; j; (0 + z); b])))).
Definition r_leftt_LH_abb_13 (z c b a k j i : nat) : ex := (ESub (r_leftt_LH_abb_12 (0 + z) c b a k j i) (ESum (0 + z) 0 (EMul (r_leftt_X_ab_ooov (1 + z) k i (0 + z) a) (ET 16 [(0 + z); j; c; b])))).
Definition r_leftt_LH_abb_14 (z c b a k j i : nat) : ex := (EAdd (r_leftt_LH_abb_13 (0 + z) c b a k j i) (EScale (1) 2 (ESum (0 + z) 3 (EMul (r_leftt_X_bb_vovv (1 + z) (0 + z) i b a) (ET 16 [k; j; c; (0 + z)]))))).
Definition r_leftt_LH_abb_15 (z c b a k j i : nat) : ex := (ESub (r_leftt_LH_abb_14 (0 + z) c b a k j i) (EScale (1) 2 (ESum (0 + z) 2 (EMul (r_leftt_X_bb_ooov (1 + z) j i (0 + z) a) (ET 16 [k; (0 + z); c; b]))))).
Definition r_leftt_LH_abb_16 (z c b a k j i : nat) : ex := (ESub (r_leftt_LH_abb_15 (0 + z) c b a k j i) (EScale (1) 2 (ESum (0 + z) 2 (EMul (ET 20 [i; (0 + z)]) (ET 58 [c; b; a; k; j; (0 + z)]))))).
Definition r_leftt_LH_abb_17 (z c b a k j i : nat) : ex := (ESub (r_leftt_LH_abb_16 (0 + z) c b a k j i) (EScale (1) 4 (ESum (0 + z) 0 (EMul (ET 0 [k; (0 + z)]) (ET 58 [c; b; a; (0 + z); j; i]))))).
Definition r_leftt_LH_abb_18 (z c b a k j i : nat) : ex := (EAdd (r_leftt_LH_abb_17 (0 + z) c b a k j i) (EScale (1) 2 (ESum (0 + z) 3 (EMul (ET 21 [(0 + z); a]) (ET 58 [c; b; (0 + z); k; j; i]))))).
Definition r_leftt_LH_abb_19 (z c b a k j i : nat) : ex := (EAdd (r_leftt_LH_abb_18 (0 + z) c b a k j i) (EScale (1) 4 (ESum (0 + z) 1 (EMul (ET 2 [(0 + z); c]) (ET 58 [(0 + z); b; a; k; j; i]))))).
Definition r_leftt_LH_abb_20 (z c b a k j i : nat) : ex := (EAdd (r_leftt_LH_abb_19 (0 + z) c b a k j i) (EScale (1) 8 (ESum (0 + z) 2 (ESum (1 + z) 2 (EMul (ET 47 [i; j; (0 + z); (1 + z)]) (ET 58 [c; b; a; k; (1 + z); (0 + z)])))))).
Definition r_leftt_LH_abb_21 (z c b a k j i : nat) : ex := (EAdd (r_leftt_LH_abb_20 (0 + z) c b a k j i) (EScale (1) 2 (ESum (0 + z) 0 (ESum (1 + z) 2 (EMul (ET 37 [k; j; (0 + z); (1 + z)]) (ET 58 [c; b; a; (0 + z); (1 + z); i])))))).
Definition r_leftt_LH_abb_22 (z c b a k j i : nat) : ex := (EAdd (r_leftt_LH_abb_21 (0 + z) c b a k j i) (EScale (1) 8 (ESum (0 + z) 3 (ESum (1 + z) 3 (EMul (ET 48 [(0 + z); (1 + z); a; b]) (ET 58 [c; (1 + z); (0 + z); k; j; i])))))).
Definition r_leftt_LH_abb_23 (z c b a k j i : nat) : ex := (EAdd (r_leftt_LH_abb_22 (0 + z) c b a k j i) (EScale (1) 2 (ESum (0 + z) 1 (ESum (1 + z) 3 (EMul (ET 38 [(0 + z); (1 + z); c; b]) (ET 58 [(0 + z); (1 + z); a; k; j; i])))))).
Definition r_leftt_LH_abb_24 (z c b a k j i : nat) : ex := (EAdd (r_leftt_LH_abb_23 (0 + z) c b a k j i) (ESum (0 + z) 3 (ESum (1 + z) 2 (EMul (ET 23 [(0 + z); i; (1 + z); a]) (ET 58 [c; b; (0 + z); k; j; (1 + z)]))))).
Definition r_leftt_LH_abb_25 (z c b a k j i : nat) : ex := (EAdd (r_leftt_LH_abb_24 (0 + z) c b a k j i) (ESum (0 + z) 1 (ESum (1 + z) 0 (EMul (ET 4 [(0 + z); i; (1 + z); a]) (ET 57 [c; (0 + z); b; k; (1 + z); j]))))).
Definition r_leftt_LH_abb_26 (z c b a k j i : nat) : ex := (EAdd (r_leftt_LH_abb_25 (0 + z) c b a k j i) (EScale (1) 4 (ESum (0 + z) 3 (ESum (1 + z) 2 (EMul (ET 22 [k; (0 + z); c; (1 + z)]) (ET 59 [a; b; (0 + z); i; j; (1 + z)])))))).
Definition r_leftt_LH_abb_27 (z c b a k j i : nat) : ex := (EAdd (r_leftt_LH_abb_26 (0 + z) c b a k j i) (EScale (1) 4 (ESum (0 + z) 1 (ESum (1 + z) 0 (EMul (ET 3 [(0 + z); k; (1 + z); c]) (ET 58 [(0 + z); b; a; (1 + z); j; i])))))).
Definition r_leftt_LH_abb_28 (z c b a k j i : nat) : ex := (ESub (r_leftt_LH_abb_27 (0 + z) c b a k j i) (EScale (1) 2 (ESum (0 + z) 3 (ESum (1 + z) 0 (EMul (ET 39 [k; (0 + z); (1 + z); a]) (ET 58 [c; b; (0 + z); (1 + z); j; i])))))).
Definition r_leftt_LH_abb_29 (z c b a k j i : nat) : ex := (ESub (r_leftt_LH_abb_28 (0 + z) c b a k j i) (EScale (1) 2 (ESum (0 + z) 1 (ESum (1 + z) 2 (EMul (ET 40 [(0 + z); i; c; (1 + z)]) (ET 58 [(0 + z); b; a; k; j; (1 + z)])))))).
Definition r_leftt_LH_abb_30 (z c b a k j i : nat) : ex := (ESub (r_leftt_LH_abb_29 (0 + z) c b a k j i) (r_leftt_LH_abb_29 (0 + z) c a b k j i)).
Definition r_leftt_LH_abb_31 (z c b a k j i : nat) : ex := (ESub (r_leftt_LH_abb_30 (0 + z) c b a k j i) (r_leftt_LH_abb_30 (0 + z) c b a k i j)).
Definition r_leftt_LH_bbb (z a b c i j k : nat) : ex := (EScale (1) 4 (EMul (ET 61 [a; i]) (ET 18 [j; k; b; c]))).
Definition r_leftt_LH_bbb_1 (z a b c i j k : nat) : ex := (EAdd (r_leftt_LH_bbb (0 + z) a b c i j k) (EScale (1) 4 (EMul (ET 55 [b; c; j; k]) (ET 13 [i; a])))).
Definition r_leftt_LH_bbb_2 (z a b c i j k : nat) : ex := (EAdd (r_leftt_LH_bbb_1 (0 + z) a b c i j k) (EScale (1) 4 (ESum (0 + z) 3 (EMul (ET 55 [(0 + z); b; i; j]) (ET 28 [(0 + z); k; a; c]))))).
Definition r_leftt_LH_bbb_3 (z a b c i j k : nat) : ex := (ESub (r_leftt_LH_bbb_2 (0 + z) a b c i j k) (EScale (1) 4 (ESum (0 + z) 2 (EMul (ET 55 [a; b; (0 + z); j]) (ET 25 [i; k; (0 + z); c]))))).
Definition r_leftt_LH_bbb_4 (z a b c i j k : nat) : ex := (EAdd (r_leftt_LH_bbb_3 (0 + z) a b c i j k) (EScale (1) 12 (ESum (0 + z) 3 (EMul (ET 21 [(0 + z); a]) (ET 59 [(0 + z); b; c; i; j; k]))))).
Definition r_leftt_LH_bbb_5 (z a b c i j k : nat) : ex := (ESub (r_leftt_LH_bbb_4 (0 + z) a b c i j k) (EScale (1) 12 (ESum (0 + z) 2 (EMul (ET 20 [i; (0 + z)]) (ET 59 [a; b; c; (0 + z); j; k]))))).
Definition r_leftt_LH_bbb_6 (z a b c i j k : nat) : ex := (EAdd (r_leftt_LH_bbb_5 (0 + z) a b c i j k) (EScale (1) 4 (ESum (0 + z) 3 (ESum (1 + z) 2 (EMul (ET 23 [(0 + z); i; (1 + z); a]) (ET 59 [(0 + z); b; c; (1 + z); j; k])))))).
Definition r_leftt_LH_bbb_7 (z a b c i j k : nat) : ex := (EAdd (r_leftt_LH_bbb_6 (0 + z) a b c i j k) (EScale (1) 4 (ESum (0 + z) 1 (ESum (1 + z) 0 (EMul (ET 4 [(0 + z); i; (1 + z); a]) (ET 58 [(0 + z); c; b; (1 + z); k; j])))))).
Definition r_leftt_LH_bbb_8 (z a b c i j k : nat) : ex := (EAdd (r_leftt_LH_bbb_7 (0 + z) a b c i j k) (EScale (1) 24 (ESum (0 + z) 2 (ESum (1 + z) 2 (EMul (ET 47 [i; j; (0 + z); (1 + z)]) (ET 59 [a; b; c; (0 + z); (1 + z); k])))))).
Definition r_leftt_LH_bbb_9 (z a b c i j k : nat) : ex := (EAdd (r_leftt_LH_bbb_8 (0 + z) a b c i j k) (EScale (1) 24 (ESum (0 + z) 3 (ESum (1 + z) 3 (EMul (ET 48 [(0 + z); (1 + z); a; b]) (ET 59 [(0 + z); (1 + z); c; i; j; k])))))).
Definition r_leftt_LH_bbb_10 (z a b c i j k : nat) : ex := (EAdd (r_leftt_LH_bbb_9 (0 + z) a b c i j k) (EScale (1) 4 (ESum (0 + z) 3 (EMul (ET 18 [i; j; (0 + z); b]) (r_leftt_X_bb_vovv (1 + z) (0 + z) k a c))))).
Definition r_leftt_LH_bbb_11 (z a b c i j k : nat) : ex := (ESub (r_leftt_LH_bbb_10 (0 + z) a b c i j k) (EScale (1) 4 (ESum (0 + z) 2 (EMul (ET 18 [(0 + z); j; a; b]) (r_leftt_X_bb_ooov (1 + z) i k (0 + z) c))))).
Definition r_leftt_LH_bbb_12 (z a b c i j k : nat) : ex := (ESub (r_leftt_LH_bbb_11 (0 + z) a b c i j k) (r_leftt_LH_bbb_11 (0 + z) a b c i k j)).
Definition r_leftt_LH_bbb_13 (z a b c i j k : nat) : ex := (ESub (r_leftt_LH_bbb_12 (0 + z) a b c i j k) (EAdd (r_leftt_LH_bbb_12 (0 + z) a b c j i k) (r_leftt_LH_bbb_12 (0 + z) a b c k j i))).
Definition r_leftt_LH_bbb_14 (z a b c i j k : nat) : ex := (ESub (r_leftt_LH_bbb_13 (0 + z) a b c i j k) (r_leftt_LH_bbb_13 (0 + z) a c b i j k)).
Definition r_leftt_LH_bbb_15 (z a b c i j k : nat) : ex := (ESub (r_leftt_LH_bbb_14 (0 + z) a b c i j k) (EAdd (r_leftt_LH_bbb_14 (0 + z) c b a i j k) (r_leftt_LH_bbb_14 (0 + z) b a c i j k))).
Definition r_lt_lhs (z : nat) : ex := (EAdd (EAdd (EAdd (EAdd (EAdd (EAdd (EAdd (EAdd (ESum (0 + z) 1 (ESum (1 + z) 0 (EMul (ET 60 [(0 + z); (1 + z)]) (r_eomt_X1A_12 (2 + z) (0 + z) (1 + z))))) (ESum (0 + z) 3 (ESum (1 + z) 2 (EMul (ET 61 [(0 + z); (1 + z)]) (r_eomt_X1B_12 (2 + z) (0 + z) (1 + z)))))) (ESum (0 + z) 1 (ESum (1 + z) 1 (ESum (2 + z) 0 (ESum (3 + z) 0 (EMul (ET 53 [(0 + z); (1 + z); (2 + z); (3 + z)]) (r_eomt_X2A_17 (4 + z) (0 + z) (1 + z) (2 + z) (3 + z)))))))) (ESum (0 + z) 1 (ESum (1 + z) 3 (ESum (2 + z) 0 (ESum (3 + z) 2 (EMul (ET 54 [(0 + z); (1 + z); (2 + z); (3 + z)]) (r_eomt_X2B_31 (4 + z) (0 + z) (1 + z) (2 + z) (3 + z)))))))) (ESum (0 + z) 3 (ESum (1 + z) 3 (ESum (2 + z) 2 (ESum (3 + z) 2 (EMul (ET 55 [(0 + z); (1 + z); (2 + z); (3 + z)]) (r_eomt_X2C_17 (4 + z) (0 + z) (1 + z) (2 + z) (3 + z)))))))) (ESum (0 + z) 1 (ESum (1 + z) 1 (ESum (2 + z) 1 (ESum (3 + z) 0 (ESum (4 + z) 0 (ESum (5 + z) 0 (EMul (ET 56 [(0 + z); (1 + z); (2 + z); (3 + z); (4 + z); (5 + z)]) (r_eomt_X3A_15 (6 + z) (0 + z) (1 + z) (2 + z) (3 + z) (4 + z) (5 + z)))))))))) (ESum (0 + z) 1 (ESum (1 + z) 1 (ESum (2 + z) 3 (ESum (3 + z) 0 (ESum (4 + z) 0 (ESum (5 + z) 2 (EMul (ET 57 [(0 + z); (1 + z); (2 + z); (3 + z); (4 + z); (5 + z)]) (r_eomt_X3B_39 (6 + z) (0 + z) (1 + z) (2 + z) (3 + z) (4 + z) (5 + z)))))))))) (ESum (0 + z) 1 (ESum (1 + z) 3 (ESum (2 + z) 3 (ESum (3 + z) 0 (ESum (4 + z) 2 (ESum (5 + z) 2 (EMul (ET 58 [(0 + z); (1 + z); (2 + z); (3 + z); (4 + z); (5 + z)]) (r_eomt_X3C_39 (6 + z) (0 + z) (1 + z) (2 + z) (3 + z) (4 + z) (5 + z)))))))))) (ESum (0 + z) 3 (ESum (1 + z) 3 (ESum (2 + z) 3 (ESum (3 + z) 2 (ESum (4 + z) 2 (ESum (5 + z) 2 (EMul (ET 59 [(0 + z); (1 + z); (2 + z); (3 + z); (4 + z); (5 + z)]) (r_eomt_X3D_15 (6 + z) (0 + z) (1 + z) (2 + z) (3 + z) (4 + z) (5 + z)))))))))).
Definition r_lt_rhs (z : nat) : ex := (EAdd (EAdd (EAdd (EAdd (EAdd (EAdd (EAdd (EAdd (ESum (0 + z) 1 (ESum (1 + z) 0 (EMul (ET 1 [(0 + z); (1 + z)]) (r_leftt_LH_a_49 (2 + z) (0 + z) (1 + z))))) (ESum (0 + z) 3 (ESum (1 + z) 2 (EMul (ET 5 [(0 + z); (1 + z)]) (r_leftt_LH_b_49 (2 + z) (0 + z) (1 + z)))))) (ESum (0 + z) 1 (ESum (1 + z) 1 (ESum (2 + z) 0 (ESum (3 + z) 0 (EMul (ET 7 [(0 + z); (1 + z); (2 + z); (3 + z)]) (r_leftt_LH_aa_26 (4 + z) (0 + z) (1 + z) (2 + z) (3 + z)))))))) (ESum (0 + z) 1 (ESum (1 + z) 3 (ESum (2 + z) 0 (ESum (3 + z) 2 (EMul (ET 9 [(0 + z); (1 + z); (2 + z); (3 + z)]) (r_leftt_LH_ab_55 (4 + z) (0 + z) (1 + z) (2 + z) (3 + z)))))))) (ESum (0 + z) 3 (ESum (1 + z) 3 (ESum (2 + z) 2 (ESum (3 + z) 2 (EMul (ET 26 [(0 + z); (1 + z); (2 + z); (3 + z)]) (r_leftt_LH_bb_26 (4 + z) (0 + z) (1 + z) (2 + z) (3 + z)))))))) (ESum (0 + z) 1 (ESum (1 + z) 1 (ESum (2 + z) 1 (ESum (3 + z) 0 (ESum (4 + z) 0 (ESum (5 + z) 0 (EMul (ET 15 [(0 + z); (1 + z); (2 + z); (3 + z); (4 + z); (5 + z)]) (r_leftt_LH_aaa_11 (6 + z) (0 + z) (1 + z) (2 + z) (3 + z) (4 + z) (5 + z)))))))))) (ESum (0 + z) 1 (ESum (1 + z) 1 (ESum (2 + z) 3 (ESum (3 + z) 0 (ESum (4 + z) 0 (ESum (5 + z) 2 (EMul (ET 17 [(0 + z); (1 + z); (2 + z); (3 + z); (4 + z); (5 + z)]) (r_leftt_LH_aab_29 (6 + z) (0 + z) (1 + z) (2 + z) (3 + z) (4 + z) (5 + z)))))))))) (ESum (0 + z) 1 (ESum (1 + z) 3 (ESum (2 + z) 3 (ESum (3 + z) 0 (ESum (4 + z) 2 (ESum (5 + z) 2 (EMul (ET 19 [(0 + z); (1 + z); (2 + z); (3 + z); (4 + z); (5 + z)]) (r_leftt_LH_abb_29 (6 + z) (0 + z) (1 + z) (2 + z) (3 + z) (4 + z) (5 + z)))))))))) (ESum (0 + z) 3 (ESum (1 + z) 3 (ESum (2 + z) 3 (ESum (3 + z) 2 (ESum (4 + z) 2 (ESum (5 + z) 2 (EMul (ET 29 [(0 + z); (1 + z); (2 + z); (3 + z); (4 + z); (5 + z)]) (r_leftt_LH_bbb_11 (6 + z) (0 + z) (1 + z) (2 + z) (3 + z) (4 + z) (5 + z)))))))))).
Definition lt_arrays (d : dims) (H : ints) (T L R : amps) := [ap2 (i_a_oo H);
  ap2 (x_a R);
  ap2 (i_a_vv H);
  ap4 (i_aa_voov H);
  ap4 (i_ab_voov H);
  ap2 (x_b R);
  ap4 (i_aa_ooov H);
  ap4 (x_aa R);
  ap4 (i_ab_ooov H);
  ap4 (x_ab R);
  ap4 (i_aa_vovv H);
  ap4 (i_ab_vovv H);
  ap2 (i_a_ov H);
  ap2 (i_b_ov H);
  ap4 (i_aa_oovv H);
  ap6 (x_aaa R);
  ap4 (i_ab_oovv H);
  ap6 (x_aab R);
  ap4 (i_bb_oovv H);
  ap6 (x_abb R);
  ap2 (i_b_oo H);
  ap2 (i_b_vv H);
  ap4 (i_ab_ovvo H);
  ap4 (i_bb_voov H);
  ap4 (i_ab_oovo H);
  ap4 (i_bb_ooov H);
  ap4 (x_bb R);
  ap4 (i_ab_ovvv H);
  ap4 (i_bb_vovv H);
  ap6 (x_bbb R);
  ap4 (i_aa_oooo H);
  ap4 (i_aa_vvvv H);
  ap4 (i_aa_vooo H);
  ap4 (i_aa_vvov H);
  ap4 (x_aa T);
  ap6 (x_aaa T);
  ap6 (x_aab T);
  ap4 (i_ab_oooo H);
  ap4 (i_ab_vvvv H);
  ap4 (i_ab_ovov H);
  ap4 (i_ab_vovo H);
  ap4 (i_ab_vvvo H);
  ap4 (i_ab_vvov H);
  ap4 (i_ab_ovoo H);
  ap4 (i_ab_vooo H);
  ap4 (x_ab T);
  ap6 (x_abb T);
  ap4 (i_bb_oooo H);
  ap4 (i_bb_vvvv H);
  ap4 (i_bb_vooo H);
  ap4 (i_bb_vvov H);
  ap4 (x_bb T);
  ap6 (x_bbb T);
  ap4 (x_aa L);
  ap4 (x_ab L);
  ap4 (x_bb L);
  ap6 (x_aaa L);
  ap6 (x_aab L);
  ap6 (x_abb L);
  ap6 (x_bbb L);
  ap2 (x_a L);
  ap2 (x_b L);
  ap4 (i_aa_ovov H);
  ap4 (i_aa_vovo H);
  ap4 (i_aa_oovo H);
  ap4 (i_aa_ovvv H);
  ap4 (i_bb_ovov H);
  ap4 (i_bb_vovo H);
  ap4 (i_bb_oovo H);
  ap4 (i_bb_ovvv H);
  ap4 (i_aa_ovoo H);
  ap4 (i_aa_vvvo H);
  ap4 (i_bb_ovoo H);
  ap4 (i_bb_vvvo H);
  ap4 (i_aa_ovvo H);
  ap4 (i_bb_ovvo H)].
Definition lt_gens : list (nat * (nat * list nat * bool)) := [(3, (62, [1; 0; 2; 3], false));
  (3, (63, [0; 1; 3; 2], false));
  (6, (6, [1; 0; 2; 3], false));
  (6, (64, [0; 1; 3; 2], false));
  (7, (7, [1; 0; 2; 3], false));
  (7, (7, [0; 1; 3; 2], false));
  (10, (65, [1; 0; 2; 3], false));
  (10, (10, [0; 1; 3; 2], false));
  (14, (14, [1; 0; 2; 3], false));
  (14, (14, [0; 1; 3; 2], false));
  (15, (15, [1; 0; 2; 3; 4; 5], false));
  (15, (15, [0; 2; 1; 3; 4; 5], false));
  (15, (15, [0; 1; 2; 4; 3; 5], false));
  (15, (15, [0; 1; 2; 3; 5; 4], false));
  (17, (17, [1; 0; 2; 3; 4; 5], false));
  (17, (17, [0; 1; 2; 4; 3; 5], false));
  (18, (18, [1; 0; 2; 3], false));
  (18, (18, [0; 1; 3; 2], false));
  (19, (19, [0; 2; 1; 3; 4; 5], false));
  (19, (19, [0; 1; 2; 3; 5; 4], false));
  (23, (66, [1; 0; 2; 3], false));
  (23, (67, [0; 1; 3; 2], false));
  (25, (25, [1; 0; 2; 3], false));
  (25, (68, [0; 1; 3; 2], false));
  (26, (26, [1; 0; 2; 3], false));
  (26, (26, [0; 1; 3; 2], false));
  (28, (69, [1; 0; 2; 3], false));
  (28, (28, [0; 1; 3; 2], false));
  (29, (29, [1; 0; 2; 3; 4; 5], false));
  (29, (29, [0; 2; 1; 3; 4; 5], false));
  (29, (29, [0; 1; 2; 4; 3; 5], false));
  (29, (29, [0; 1; 2; 3; 5; 4], false));
  (30, (30, [1; 0; 2; 3], false));
  (30, (30, [0; 1; 3; 2], false));
  (31, (31, [1; 0; 2; 3], false));
  (31, (31, [0; 1; 3; 2], false));
  (32, (70, [1; 0; 2; 3], false));
  (32, (32, [0; 1; 3; 2], false));
  (33, (33, [1; 0; 2; 3], false));
  (33, (71, [0; 1; 3; 2], false));
  (34, (34, [1; 0; 2; 3], false));
  (34, (34, [0; 1; 3; 2], false));
  (35, (35, [1; 0; 2; 3; 4; 5], false));
  (35, (35, [0; 2; 1; 3; 4; 5], false));
  (35, (35, [0; 1; 2; 4; 3; 5], false));
  (35, (35, [0; 1; 2; 3; 5; 4], false));
  (36, (36, [1; 0; 2; 3; 4; 5], false));
  (36, (36, [0; 1; 2; 4; 3; 5], false));
  (46, (46, [0; 2; 1; 3; 4; 5], false));
  (46, (46, [0; 1; 2; 3; 5; 4], false));
  (47, (47, [1; 0; 2; 3], false));
  (47, (47, [0; 1; 3; 2], false));
  (48, (48, [1; 0; 2; 3], false));
  (48, (48, [0; 1; 3; 2], false));
  (49, (72, [1; 0; 2; 3], false));
  (49, (49, [0; 1; 3; 2], false));
  (50, (50, [1; 0; 2; 3], false));
  (50, (73, [0; 1; 3; 2], false));
  (51, (51, [1; 0; 2; 3], false));
  (51, (51, [0; 1; 3; 2], false));
  (52, (52, [1; 0; 2; 3; 4; 5], false));
  (52, (52, [0; 2; 1; 3; 4; 5], false));
  (52, (52, [0; 1; 2; 4; 3; 5], false));
  (52, (52, [0; 1; 2; 3; 5; 4], false));
  (53, (53, [1; 0; 2; 3], false));
  (53, (53, [0; 1; 3; 2], false));
  (55, (55, [1; 0; 2; 3], false));
  (55, (55, [0; 1; 3; 2], false));
  (56, (56, [1; 0; 2; 3; 4; 5], false));
  (56, (56, [0; 2; 1; 3; 4; 5], false));
  (56, (56, [0; 1; 2; 4; 3; 5], false));
  (56, (56, [0; 1; 2; 3; 5; 4], false));
  (57, (57, [1; 0; 2; 3; 4; 5], false));
  (57, (57, [0; 1; 2; 4; 3; 5], false));
  (58, (58, [0; 2; 1; 3; 4; 5], false));
  (58, (58, [0; 1; 2; 3; 5; 4], false));
  (59, (59, [1; 0; 2; 3; 4; 5], false));
  (59, (59, [0; 2; 1; 3; 4; 5], false));
  (59, (59, [0; 1; 2; 4; 3; 5], false));
  (59, (59, [0; 1; 2; 3; 5; 4], false));
  (62, (3, [1; 0; 2; 3], false));
  (62, (74, [0; 1; 3; 2], false));
  (63, (74, [1; 0; 2; 3], false));
  (63, (3, [0; 1; 3; 2], false));
  (64, (64, [1; 0; 2; 3], false));
  (64, (6, [0; 1; 3; 2], false));
  (65, (10, [1; 0; 2; 3], false));
  (65, (65, [0; 1; 3; 2], false));
  (66, (23, [1; 0; 2; 3], false));
  (66, (75, [0; 1; 3; 2], false));
  (67, (75, [1; 0; 2; 3], false));
  (67, (23, [0; 1; 3; 2], false));
  (68, (68, [1; 0; 2; 3], false));
  (68, (25, [0; 1; 3; 2], false));
  (69, (28, [1; 0; 2; 3], false));
  (69, (69, [0; 1; 3; 2], false));
  (70, (32, [1; 0; 2; 3], false));
  (70, (70, [0; 1; 3; 2], false));
  (71, (71, [1; 0; 2; 3], false));
  (71, (33, [0; 1; 3; 2], false));
  (72, (49, [1; 0; 2; 3], false));
  (72, (72, [0; 1; 3; 2], false));
  (73, (73, [1; 0; 2; 3], false));
  (73, (50, [0; 1; 3; 2], false));
  (74, (63, [1; 0; 2; 3], false));
  (74, (62, [0; 1; 3; 2], false));
  (75, (67, [1; 0; 2; 3], false));
  (75, (66, [0; 1; 3; 2], false))].
Definition lt_tab := Eval vm_compute in symtab lt_gens 76.
Definition lt_asym_r (Q : amps) : amps := mkAmps (fun a i => x_a Q a i)%R (fun a i => x_b Q a i)%R (fun a b i j => ((x_aa Q a b i j - x_aa Q b a i j) - (x_aa Q a b j i - x_aa Q b a j i)))%R (fun a b i j => x_ab Q a b i j)%R (fun a b i j => ((x_bb Q a b i j - x_bb Q b a i j) - (x_bb Q a b j i - x_bb Q b a j i)))%R (fun a b c i j k => ((((x_aaa Q a b c i j k - x_aaa Q a b c i k j) - ((x_aaa Q a b c j i k - x_aaa Q a b c j k i) + (x_aaa Q a b c k j i - x_aaa Q a b c k i j))) - ((x_aaa Q a c b i j k - x_aaa Q a c b i k j) - ((x_aaa Q a c b j i k - x_aaa Q a c b j k i) + (x_aaa Q a c b k j i - x_aaa Q a c b k i j)))) - ((((x_aaa Q b a c i j k - x_aaa Q b a c i k j) - ((x_aaa Q b a c j i k - x_aaa Q b a c j k i) + (x_aaa Q b a c k j i - x_aaa Q b a c k i j))) - ((x_aaa Q b c a i j k - x_aaa Q b c a i k j) - ((x_aaa Q b c a j i k - x_aaa Q b c a j k i) + (x_aaa Q b c a k j i - x_aaa Q b c a k i j)))) + (((x_aaa Q c b a i j k - x_aaa Q c b a i k j) - ((x_aaa Q c b a j i k - x_aaa Q c b a j k i) + (x_aaa Q c b a k j i - x_aaa Q c b a k i j))) - ((x_aaa Q c a b i j k - x_aaa Q c a b i k j) - ((x_aaa Q c a b j i k - x_aaa Q c a b j k i) + (x_aaa Q c a b k j i - x_aaa Q c a b k i j)))))))%R (fun a b c i j k => ((x_aab Q a b c i j k - x_aab Q b a c i j k) - (x_aab Q a b c j i k - x_aab Q b a c j i k)))%R (fun a b c i j k => ((x_abb Q a b c i j k - x_abb Q a c b i j k) - (x_abb Q a b c i k j - x_abb Q a c b i k j)))%R (fun a b c i j k => ((((x_bbb Q a b c i j k - x_bbb Q a b c i k j) - ((x_bbb Q a b c j i k - x_bbb Q a b c j k i) + (x_bbb Q a b c k j i - x_bbb Q a b c k i j))) - ((x_bbb Q a c b i j k - x_bbb Q a c b i k j) - ((x_bbb Q a c b j i k - x_bbb Q a c b j k i) + (x_bbb Q a c b k j i - x_bbb Q a c b k i j)))) - ((((x_bbb Q b a c i j k - x_bbb Q b a c i k j) - ((x_bbb Q b a c j i k - x_bbb Q b a c j k i) + (x_bbb Q b a c k j i - x_bbb Q b a c k i j))) - ((x_bbb Q b c a i j k - x_bbb Q b c a i k j) - ((x_bbb Q b c a j i k - x_bbb Q b c a j k i) + (x_bbb Q b c a k j i - x_bbb Q b c a k i j)))) + (((x_bbb Q c b a i j k - x_bbb Q c b a i k j) - ((x_bbb Q c b a j i k - x_bbb Q c b a j k i) + (x_bbb Q c b a k j i - x_bbb Q c b a k i j))) - ((x_bbb Q c a b i j k - x_bbb Q c a b i k j) - ((x_bbb Q c a b j i k - x_bbb Q c a b j k i) + (x_bbb Q c a b k j i - x_bbb Q c a b k i j)))))))%R.
Definition lt_pre_r (d : dims) (H : ints) (T Y : amps) : amps := mkAmps (eomt_X1A_12 d H T Y) (eomt_X1B_12 d H T Y) (eomt_X2A_17 d H T Y) (eomt_X2B_31 d H T Y) (eomt_X2C_17 d H T Y) (eomt_X3A_15 d H T Y) (eomt_X3B_39 d H T Y) (eomt_X3C_39 d H T Y) (eomt_X3D_15 d H T Y).
Definition lt_asym_l (Q : amps) : amps := mkAmps (fun a i => x_a Q a i)%R (fun a i => x_b Q a i)%R (fun a b i j => (x_aa Q a b i j - ((x_aa Q b a i j + x_aa Q a b j i) - x_aa Q b a j i)))%R (fun a b i j => x_ab Q a b i j)%R (fun a b i j => (x_bb Q a b i j - ((x_bb Q b a i j + x_bb Q a b j i) - x_bb Q b a j i)))%R (fun a b c i j k => ((((x_aaa Q a b c i j k - x_aaa Q a b c i k j) - ((x_aaa Q a b c j i k - x_aaa Q a b c j k i) + (x_aaa Q a b c k j i - x_aaa Q a b c k i j))) - ((x_aaa Q a c b i j k - x_aaa Q a c b i k j) - ((x_aaa Q a c b j i k - x_aaa Q a c b j k i) + (x_aaa Q a c b k j i - x_aaa Q a c b k i j)))) - ((((x_aaa Q c b a i j k - x_aaa Q c b a i k j) - ((x_aaa Q c b a j i k - x_aaa Q c b a j k i) + (x_aaa Q c b a k j i - x_aaa Q c b a k i j))) - ((x_aaa Q c a b i j k - x_aaa Q c a b i k j) - ((x_aaa Q c a b j i k - x_aaa Q c a b j k i) + (x_aaa Q c a b k j i - x_aaa Q c a b k i j)))) + (((x_aaa Q b a c i j k - x_aaa Q b a c i k j) - ((x_aaa Q b a c j i k - x_aaa Q b a c j k i) + (x_aaa Q b a c k j i - x_aaa Q b a c k i j))) - ((x_aaa Q b c a i j k - x_aaa Q b c a i k j) - ((x_aaa Q b c a j i k - x_aaa Q b c a j k i) + (x_aaa Q b c a k j i - x_aaa Q b c a k i j)))))))%R (fun a b c i j k => ((x_aab Q a b c i j k - x_aab Q b a c i j k) - (x_aab Q a b c j i k - x_aab Q b a c j i k)))%R (fun a b c i j k => ((x_abb Q a b c i j k - x_abb Q a c b i j k) - (x_abb Q a b c i k j - x_abb Q a c b i k j)))%R (fun a b c i j k => ((((x_bbb Q a b c i j k - x_bbb Q a b c i k j) - ((x_bbb Q a b c j i k - x_bbb Q a b c j k i) + (x_bbb Q a b c k j i - x_bbb Q a b c k i j))) - ((x_bbb Q a c b i j k - x_bbb Q a c b i k j) - ((x_bbb Q a c b j i k - x_bbb Q a c b j k i) + (x_bbb Q a c b k j i - x_bbb Q a c b k i j)))) - ((((x_bbb Q c b a i j k - x_bbb Q c b a i k j) - ((x_bbb Q c b a j i k - x_bbb Q c b a j k i) + (x_bbb Q c b a k j i - x_bbb Q c b a k i j))) - ((x_bbb Q c a b i j k - x_bbb Q c a b i k j) - ((x_bbb Q c a b j i k - x_bbb Q c a b j k i) + (x_bbb Q c a b k j i - x_bbb Q c a b k i j)))) + (((x_bbb Q b a c i j k - x_bbb Q b a c i k j) - ((x_bbb Q b a c j i k - x_bbb Q b a c j k i) + (x_bbb Q b a c k j i - x_bbb Q b a c k i j))) - ((x_bbb Q b c a i j k - x_bbb Q b c a i k j) - ((x_bbb Q b c a j i k - x_bbb Q b c a j k i) + (x_bbb Q b c a k j i - x_bbb Q b c a k i j)))))))%R.
Definition lt_pre_l (d : dims) (H : ints) (T Y : amps) : amps := mkAmps (leftt_LH_a_49 d H T Y) (leftt_LH_b_49 d H T Y) (leftt_LH_aa_26 d H T Y) (leftt_LH_ab_55 d H T Y) (leftt_LH_bb_26 d H T Y) (leftt_LH_aaa_11 d H T Y) (leftt_LH_aab_29 d H T Y) (leftt_LH_abb_29 d H T Y) (leftt_LH_bbb_11 d H T Y).
Definition r_lt_asym_r (z : nat) : ex := (EAdd (EAdd (EAdd (EAdd (EAdd (EAdd (EAdd (EAdd (ESum (0 + z) 1 (ESum (1 + z) 0 (EMul (ET 0 [(0 + z); (1 + z)]) (ET 1 [(0 + z); (1 + z)])))) (ESum (0 + z) 3 (ESum (1 + z) 2 (EMul (ET 2 [(0 + z); (1 + z)]) (ET 3 [(0 + z); (1 + z)]))))) (EScale (1) 4 (ESum (0 + z) 1 (ESum (1 + z) 1 (ESum (2 + z) 0 (ESum (3 + z) 0 (EMul (ET 4 [(0 + z); (1 + z); (2 + z); (3 + z)]) (ESub (ESub (ET 5 [(0 + z); (1 + z); (2 + z); (3 + z)]) (ET 5 [(1 + z); (0 + z); (2 + z); (3 + z)])) (ESub (ET 5 [(0 + z); (1 + z); (3 + z); (2 + z)]) (ET 5 [(1 + z); (0 + z); (3 + z); (2 + z)])))))))))) (ESum (0 + z) 1 (ESum (1 + z) 3 (ESum (2 + z) 0 (ESum (3 + z) 2 (EMul (ET 6 [(0 + z); (1 + z); (2 + z); (3 + z)]) (ET 7 [(0 + z); (1 + z); (2 + z); (3 + z)]))))))) (EScale (1) 4 (ESum (0 + z) 3 (ESum (1 + z) 3 (ESum (2 + z) 2 (ESum (3 + z) 2 (EMul (ET 8 [(0 + z); (1 + z); (2 + z); (3 + z)]) (ESub (ESub (ET 9 [(0 + z); (1 + z); (2 + z); (3 + z)]) (ET 9 [(1 + z); (0 + z); (2 + z); (3 + z)])) (ESub (ET 9 [(0 + z); (1 + z); (3 + z); (2 + z)]) (ET 9 [(1 + z); (0 + z); (3 + z); (2 + z)])))))))))) (EScale (1) 36 (ESum (0 + z) 1 (ESum (1 + z) 1 (ESum (2 + z) 1 (ESum (3 + z) 0 (ESum (4 + z) 0 (ESum (5 + z) 0 (EMul (ET 10 [(0 + z); (1 + z); (2 + z); (3 + z); (4 + z); (5 + z)]) (ESub (ESub (ESub (ESub (ET 11 [(0 + z); (1 + z); (2 + z); (3 + z); (4 + z); (5 + z)]) (ET 11 [(0 + z); (1 + z); (2 + z); (3 + z); (5 + z); (4 + z)])) (EAdd (ESub (ET 11 [(0 + z); (1 + z); (2 + z); (4 + z); (3 + z); (5 + z)]) (ET 11 [(0 + z); (1 + z); (2 + z); (4 + z); (5 + z); (3 + z)])) (ESub (ET 11 [(0 + z); (1 + z); (2 + z); (5 + z); (4 + z); (3 + z)]) (ET 11 [(0 + z); (1 + z); (2 + z); (5 + z); (3 + z); (4 + z)])))) (ESub (ESub (ET 11 [(0 + z); (2 + z); (1 + z); (3 + z); (4 + z); (5 + z)]) (ET 11 [(0 + z); (2 + z); (1 + z); (3 + z); (5 + z); (4 + z)])) (EAdd (ESub (ET 11 [(0 + z); (2 + z); (1 + z); (4 + z); (3 + z); (5 + z)]) (ET 11 [(0 + z); (2 + z); (1 + z); (4 + z); (5 + z); (3 + z)])) (ESub (ET 11 [(0 + z); (2 + z); (1 + z); (5 + z); (4 + z); (3 + z)]) (ET 11 [(0 + z); (2 + z); (1 + z); (5 + z); (3 + z); (4 + z)]))))) (EAdd (ESub (ESub (ESub (ET 11 [(1 + z); (0 + z); (2 + z); (3 + z); (4 + z); (5 + z)]) (ET 11 [(1 + z); (0 + z); (2 + z); (3 + z); (5 + z); (4 + z)])) (EAdd (ESub (ET 11 [(1 + z); (0 + z); (2 + z); (4 + z); (3 + z); (5 + z)]) (ET 11 [(1 + z); (0 + z); (2 + z); (4 + z); (5 + z); (3 + z)])) (ESub (ET 11 [(1 + z); (0 + z); (2 + z); (5 + z); (4 + z); (3 + z)]) (ET 11 [(1 + z); (0 + z); (2 + z); (5 + z); (3 + z); (4 + z)])))) (ESub (ESub (ET 11 [(1 + z); (2 + z); (0 + z); (3 + z); (4 + z); (5 + z)]) (ET 11 [(1 + z); (2 + z); (0 + z); (3 + z); (5 + z); (4 + z)])) (EAdd (ESub (ET 11 [(1 + z); (2 + z); (0 + z); (4 + z); (3 + z); (5 + z)]) (ET 11 [(1 + z); (2 + z); (0 + z); (4 + z); (5 + z); (3 + z)])) (ESub (ET 11 [(1 + z); (2 + z); (0 + z); (5 + z); (4 + z); (3 + z)]) (ET 11 [(1 + z); (2 + z); (0 + z); (5 + z); (3 + z); (4 + z)]))))) (ESub (ESub (ESub (ET 11 [(2 + z); (1 + z); (0 + z); (3 + z); (4 + z); (5 + z)]) (ET 11 [(2 + z); (1 + z); (0 + z); (3 + z); (5 + z); (4 + z)])) (EAdd (ESub (ET 11 [(2 + z); (1 + z); (0 + z); (4 + z); (3 + z); (5 + z)]) (ET 11 [(2 + z); (1 + z); (0 + z); (4 + z); (5 + z); (3 + z)])) (ESub (ET 11 [(2 + z); (1 + z); (0 + z); (5 + z); (4 + z); (3 + z)]) (ET 11 [(2 + z); (1 + z); (0 + z); (5 + z); (3 + z); (4 + z)])))) (ESub (ESub (ET 11 [(2 + z); (0 + z); (1 + z); (3 + z); (4 + z); (5 + z)]) (ET 11 [(2 + z); (0 + z); (1 + z); (3 + z); (5 + z); (4 + z)])) (EAdd (ESub (ET 11 [(2 + z); (0 + z); (1 + z); (4 + z); (3 + z); (5 + z)]) (ET 11 [(2 + z); (0 + z); (1 + z); (4 + z); (5 + z); (3 + z)])) (ESub (ET 11 [(2 + z); (0 + z); (1 + z); (5 + z); (4 + z); (3 + z)]) (ET 11 [(2 + z); (0 + z); (1 + z); (5 + z); (3 + z); (4 + z)])))))))))))))))) (EScale (1) 4 (ESum (0 + z) 1 (ESum (1 + z) 1 (ESum (2 + z) 3 (ESum (3 + z) 0 (ESum (4 + z) 0 (ESum (5 + z) 2 (EMul (ET 12 [(0 + z); (1 + z); (2 + z); (3 + z); (4 + z); (5 + z)]) (ESub (ESub (ET 13 [(0 + z); (1 + z); (2 + z); (3 + z); (4 + z); (5 + z)]) (ET 13 [(1 + z); (0 + z); (2 + z); (3 + z); (4 + z); (5 + z)])) (ESub (ET 13 [(0 + z); (1 + z); (2 + z); (4 + z); (3 + z); (5 + z)]) (ET 13 [(1 + z); (0 + z); (2 + z); (4 + z); (3 + z); (5 + z)])))))))))))) (EScale (1) 4 (ESum (0 + z) 1 (ESum (1 + z) 3 (ESum (2 + z) 3 (ESum (3 + z) 0 (ESum (4 + z) 2 (ESum (5 + z) 2 (EMul (ET 14 [(0 + z); (1 + z); (2 + z); (3 + z); (4 + z); (5 + z)]) (ESub (ESub (ET 15 [(0 + z); (1 + z); (2 + z); (3 + z); (4 + z); (5 + z)]) (ET 15 [(0 + z); (2 + z); (1 + z); (3 + z); (4 + z); (5 + z)])) (ESub (ET 15 [(0 + z); (1 + z); (2 + z); (3 + z); (5 + z); (4 + z)]) (ET 15 [(0 + z); (2 + z); (1 + z); (3 + z); (5 + z); (4 + z)])))))))))))) (EScale (1) 36 (ESum (0 + z) 3 (ESum (1 + z) 3 (ESum (2 + z) 3 (ESum (3 + z) 2 (ESum (4 + z) 2 (ESum (5 + z) 2 (EMul (ET 16 [(0 + z); (1 + z); (2 + z); (3 + z); (4 + z); (5 + z)]) (ESub (ESub (ESub (ESub (ET 17 [(0 + z); (1 + z); (2 + z); (3 + z); (4 + z); (5 + z)]) (ET 17 [(0 + z); (1 + z); (2 + z); (3 + z); (5 + z); (4 + z)])) (EAdd (ESub (ET 17 [(0 + z); (1 + z); (2 + z); (4 + z); (3 + z); (5 + z)]) (ET 17 [(0 + z); (1 + z); (2 + z); (4 + z); (5 + z); (3 + z)])) (ESub (ET 17 [(0 + z); (1 + z); (2 + z); (5 + z); (4 + z); (3 + z)]) (ET 17 [(0 + z); (1 + z); (2 + z); (5 + z); (3 + z); (4 + z)])))) (ESub (ESub (ET 17 [(0 + z); (2 + z); (1 + z); (3 + z); (4 + z); (5 + z)]) (ET 17 [(0 + z); (2 + z); (1 + z); (3 + z); (5 + z); (4 + z)])) (EAdd (ESub (ET 17 [(0 + z); (2 + z); (1 + z); (4 + z); (3 + z); (5 + z)]) (ET 17 [(0 + z); (2 + z); (1 + z); (4 + z); (5 + z); (3 + z)])) (ESub (ET 17 [(0 + z); (2 + z); (1 + z); (5 + z); (4 + z); (3 + z)]) (ET 17 [(0 + z); (2 + z); (1 + z); (5 + z); (3 + z); (4 + z)]))))) (EAdd (ESub (ESub (ESub (ET 17 [(1 + z); (0 + z); (2 + z); (3 + z); (4 + z); (5 + z)]) (ET 17 [(1 + z); (0 + z); (2 + z); (3 + z); (5 + z); (4 + z)])) (EAdd (ESub (ET 17 [(1 + z); (0 + z); (2 + z); (4 + z); (3 + z); (5 + z)]) (ET 17 [(1 + z); (0 + z); (2 + z); (4 + z); (5 + z); (3 + z)])) (ESub (ET 17 [(1 + z); (0 + z); (2 + z); (5 + z); (4 + z); (3 + z)]) (ET 17 [(1 + z); (0 + z); (2 + z); (5 + z); (3 + z); (4 + z)])))) (ESub (ESub (ET 17 [(1 + z); (2 + z); (0 + z); (3 + z); (4 + z); (5 + z)]) (ET 17 [(1 + z); (2 + z); (0 + z); (3 + z); (5 + z); (4 + z)])) (EAdd (ESub (ET 17 [(1 + z); (2 + z); (0 + z); (4 + z); (3 + z); (5 + z)]) (ET 17 [(1 + z); (2 + z); (0 + z); (4 + z); (5 + z); (3 + z)])) (ESub (ET 17 [(1 + z); (2 + z); (0 + z); (5 + z); (4 + z); (3 + z)]) (ET 17 [(1 + z); (2 + z); (0 + z); (5 + z); (3 + z); (4 + z)]))))) (ESub (ESub (ESub (ET 17 [(2 + z); (1 + z); (0 + z); (3 + z); (4 + z); (5 + z)]) (ET 17 [(2 + z); (1 + z); (0 + z); (3 + z); (5 + z); (4 + z)])) (EAdd (ESub (ET 17 [(2 + z); (1 + z); (0 + z); (4 + z); (3 + z); (5 + z)]) (ET 17 [(2 + z); (1 + z); (0 + z); (4 + z); (5 + z); (3 + z)])) (ESub (ET 17 [(2 + z); (1 + z); (0 + z); (5 + z); (4 + z); (3 + z)]) (ET 17 [(2 + z); (1 + z); (0 + z); (5 + z); (3 + z); (4 + z)])))) (ESub (ESub (ET 17 [(2 + z); (0 + z); (1 + z); (3 + z); (4 + z); (5 + z)]) (ET 17 [(2 + z); (0 + z); (1 + z); (3 + z); (5 + z); (4 + z)])) (EAdd (ESub (ET 17 [(2 + z); (0 + z); (1 + z); (4 + z); (3 + z); (5 + z)]) (ET 17 [(2 + z); (0 + z); (1 + z); (4 + z); (5 + z); (3 + z)])) (ESub (ET 17 [(2 + z); (0 + z); (1 + z); (5 + z); (4 + z); (3 + z)]) (ET 17 [(2 + z); (0 + z); (1 + z); (5 + z); (3 + z); (4 + z)])))))))))))))))).
Definition r_lt_asym_l (z : nat) : ex := (EAdd (EAdd (EAdd (EAdd (EAdd (EAdd (EAdd (EAdd (ESum (0 + z) 1 (ESum (1 + z) 0 (EMul (ET 0 [(0 + z); (1 + z)]) (ET 1 [(0 + z); (1 + z)])))) (ESum (0 + z) 3 (ESum (1 + z) 2 (EMul (ET 2 [(0 + z); (1 + z)]) (ET 3 [(0 + z); (1 + z)]))))) (EScale (1) 4 (ESum (0 + z) 1 (ESum (1 + z) 1 (ESum (2 + z) 0 (ESum (3 + z) 0 (EMul (ET 4 [(0 + z); (1 + z); (2 + z); (3 + z)]) (ESub (ET 5 [(0 + z); (1 + z); (2 + z); (3 + z)]) (ESub (EAdd (ET 5 [(1 + z); (0 + z); (2 + z); (3 + z)]) (ET 5 [(0 + z); (1 + z); (3 + z); (2 + z)])) (ET 5 [(1 + z); (0 + z); (3 + z); (2 + z)])))))))))) (ESum (0 + z) 1 (ESum (1 + z) 3 (ESum (2 + z) 0 (ESum (3 + z) 2 (EMul (ET 6 [(0 + z); (1 + z); (2 + z); (3 + z)]) (ET 7 [(0 + z); (1 + z); (2 + z); (3 + z)]))))))) (EScale (1) 4 (ESum (0 + z) 3 (ESum (1 + z) 3 (ESum (2 + z) 2 (ESum (3 + z) 2 (EMul (ET 8 [(0 + z); (1 + z); (2 + z); (3 + z)]) (ESub (ET 9 [(0 + z); (1 + z); (2 + z); (3 + z)]) (ESub (EAdd (ET 9 [(1 + z); (0 + z); (2 + z); (3 + z)]) (ET 9 [(0 + z); (1 + z); (3 + z); (2 + z)])) (ET 9 [(1 + z); (0 + z); (3 + z); (2 + z)])))))))))) (EScale (1) 36 (ESum (0 + z) 1 (ESum (1 + z) 1 (ESum (2 + z) 1 (ESum (3 + z) 0 (ESum (4 + z) 0 (ESum (5 + z) 0 (EMul (ET 10 [(0 + z); (1 + z); (2 + z); (3 + z); (4 + z); (5 + z)]) (ESub (ESub (ESub (ESub (ET 11 [(0 + z); (1 + z); (2 + z); (3 + z); (4 + z); (5 + z)]) (ET 11 [(0 + z); (1 + z); (2 + z); (3 + z); (5 + z); (4 + z)])) (EAdd (ESub (ET 11 [(0 + z); (1 + z); (2 + z); (4 + z); (3 + z); (5 + z)]) (ET 11 [(0 + z); (1 + z); (2 + z); (4 + z); (5 + z); (3 + z)])) (ESub (ET 11 [(0 + z); (1 + z); (2 + z); (5 + z); (4 + z); (3 + z)]) (ET 11 [(0 + z); (1 + z); (2 + z); (5 + z); (3 + z); (4 + z)])))) (ESub (ESub (ET 11 [(0 + z); (2 + z); (1 + z); (3 + z); (4 + z); (5 + z)]) (ET 11 [(0 + z); (2 + z); (1 + z); (3 + z); (5 + z); (4 + z)])) (EAdd (ESub (ET 11 [(0 + z); (2 + z); (1 + z); (4 + z); (3 + z); (5 + z)]) (ET 11 [(0 + z); (2 + z); (1 + z); (4 + z); (5 + z); (3 + z)])) (ESub (ET 11 [(0 + z); (2 + z); (1 + z); (5 + z); (4 + z); (3 + z)]) (ET 11 [(0 + z); (2 + z); (1 + z); (5 + z); (3 + z); (4 + z)]))))) (EAdd (ESub (ESub (ESub (ET 11 [(2 + z); (1 + z); (0 + z); (3 + z); (4 + z); (5 + z)]) (ET 11 [(2 + z); (1 + z); (0 + z); (3 + z); (5 + z); (4 + z)])) (EAdd (ESub (ET 11 [(2 + z); (1 + z); (0 + z); (4 + z); (3 + z); (5 + z)]) (ET 11 [(2 + z); (1 + z); (0 + z); (4 + z); (5 + z); (3 + z)])) (ESub (ET 11 [(2 + z); (1 + z); (0 + z); (5 + z); (4 + z); (3 + z)]) (ET 11 [(2 + z); (1 + z); (0 + z); (5 + z); (3 + z); (4 + z)])))) (ESub (ESub (ET 11 [(2 + z); (0 + z); (1 + z); (3 + z); (4 + z); (5 + z)]) (ET 11 [(2 + z); (0 + z); (1 + z); (3 + z); (5 + z); (4 + z)])) (EAdd (ESub (ET 11 [(2 + z); (0 + z); (1 + z); (4 + z); (3 + z); (5 + z)]) (ET 11 [(2 + z); (0 + z); (1 + z); (4 + z); (5 + z); (3 + z)])) (ESub (ET 11 [(2 + z); (0 + z); (1 + z); (5 + z); (4 + z); (3 + z)]) (ET 11 [(2 + z); (0 + z); (1 + z); (5 + z); (3 + z); (4 + z)]))))) (ESub (ESub (ESub (ET 11 [(1 + z); (0 + z); (2 + z); (3 + z); (4 + z); (5 + z)]) (ET 11 [(1 + z); (0 + z); (2 + z); (3 + z); (5 + z); (4 + z)])) (EAdd (ESub (ET 11 [(1 + z); (0 + z); (2 + z); (4 + z); (3 + z); (5 + z)]) (ET 11 [(1 + z); (0 + z); (2 + z); (4 + z); (5 + z); (3 + z)])) (ESub (ET 11 [(1 + z); (0 + z); (2 + z); (5 + z); (4 + z); (3 + z)]) (ET 11 [(1 + z); (0 + z); (2 + z); (5 + z); (3 + z); (4 + z)])))) (ESub (ESub (ET 11 [(1 + z); (2 + z); (0 + z); (3 + z); (4 + z); (5 + z)]) (ET 11 [(1 + z); (2 + z); (0 + z); (3 + z); (5 + z); (4 + z)])) (EAdd (ESub (ET 11 [(1 + z); (2 + z); (0 + z); (4 + z); (3 + z); (5 + z)]) (ET 11 [(1 + z); (2 + z); (0 + z); (4 + z); (5 + z); (3 + z)])) (ESub (ET 11 [(1 + z); (2 + z); (0 + z); (5 + z); (4 + z); (3 + z)]) (ET 11 [(1 + z); (2 + z); (0 + z); (5 + z); (3 + z); (4 + z)])))))))))))))))) (EScale (1) 4 (ESum (0 + z) 1 (ESum (1 + z) 1 (ESum (2 + z) 3 (ESum (3 + z) 0 (ESum (4 + z) 0 (ESum (5 + z) 2 (EMul (ET 12 [(0 + z); (1 + z); (2 + z); (3 + z); (4 + z); (5 + z)]) (ESub (ESub (ET 13 [(0 + z); (1 + z); (2 + z); (3 + z); (4 + z); (5 + z)]) (ET 13 [(1 + z); (0 + z); (2 + z); (3 + z); (4 + z); (5 + z)])) (ESub (ET 13 [(0 + z); (1 + z); (2 + z); (4 + z); (3 + z); (5 + z)]) (ET 13 [(1 + z); (0 + z); (2 + z); (4 + z); (3 + z); (5 + z)])))))))))))) (EScale (1) 4 (ESum (0 + z) 1 (ESum (1 + z) 3 (ESum (2 + z) 3 (ESum (3 + z) 0 (ESum (4 + z) 2 (ESum (5 + z) 2 (EMul (ET 14 [(0 + z); (1 + z); (2 + z); (3 + z); (4 + z); (5 + z)]) (ESub (ESub (ET 15 [(0 + z); (1 + z); (2 + z); (3 + z); (4 + z); (5 + z)]) (ET 15 [(0 + z); (2 + z); (1 + z); (3 + z); (4 + z); (5 + z)])) (ESub (ET 15 [(0 + z); (1 + z); (2 + z); (3 + z); (5 + z); (4 + z)]) (ET 15 [(0 + z); (2 + z); (1 + z); (3 + z); (5 + z); (4 + z)])))))))))))) (EScale (1) 36 (ESum (0 + z) 3 (ESum (1 + z) 3 (ESum (2 + z) 3 (ESum (3 + z) 2 (ESum (4 + z) 2 (ESum (5 + z) 2 (EMul (ET 16 [(0 + z); (1 + z); (2 + z); (3 + z); (4 + z); (5 + z)]) (ESub (ESub (ESub (ESub (ET 17 [(0 + z); (1 + z); (2 + z); (3 + z); (4 + z); (5 + z)]) (ET 17 [(0 + z); (1 + z); (2 + z); (3 + z); (5 + z); (4 + z)])) (EAdd (ESub (ET 17 [(0 + z); (1 + z); (2 + z); (4 + z); (3 + z); (5 + z)]) (ET 17 [(0 + z); (1 + z); (2 + z); (4 + z); (5 + z); (3 + z)])) (ESub (ET 17 [(0 + z); (1 + z); (2 + z); (5 + z); (4 + z); (3 + z)]) (ET 17 [(0 + z); (1 + z); (2 + z); (5 + z); (3 + z); (4 + z)])))) (ESub (ESub (ET 17 [(0 + z); (2 + z); (1 + z); (3 + z); (4 + z); (5 + z)]) (ET 17 [(0 + z); (2 + z); (1 + z); (3 + z); (5 + z); (4 + z)])) (EAdd (ESub (ET 17 [(0 + z); (2 + z); (1 + z); (4 + z); (3 + z); (5 + z)]) (ET 17 [(0 + z); (2 + z); (1 + z); (4 + z); (5 + z); (3 + z)])) (ESub (ET 17 [(0 + z); (2 + z); (1 + z); (5 + z); (4 + z); (3 + z)]) (ET 17 [(0 + z); (2 + z); (1 + z); (5 + z); (3 + z); (4 + z)]))))) (EAdd (ESub (ESub (ESub (ET 17 [(2 + z); (1 + z); (0 + z); (3 + z); (4 + z); (5 + z)]) (ET 17 [(2 + z); (1 + z); (0 + z); (3 + z); (5 + z); (4 + z)])) (EAdd (ESub (ET 17 [(2 + z); (1 + z); (0 + z); (4 + z); (3 + z); (5 + z)]) (ET 17 [(2 + z); (1 + z); (0 + z); (4 + z); (5 + z); (3 + z)])) (ESub (ET 17 [(2 + z); (1 + z); (0 + z); (5 + z); (4 + z); (3 + z)]) (ET 17 [(2 + z); (1 + z); (0 + z); (5 + z); (3 + z); (4 + z)])))) (ESub (ESub (ET 17 [(2 + z); (0 + z); (1 + z); (3 + z); (4 + z); (5 + z)]) (ET 17 [(2 + z); (0 + z); (1 + z); (3 + z); (5 + z); (4 + z)])) (EAdd (ESub (ET 17 [(2 + z); (0 + z); (1 + z); (4 + z); (3 + z); (5 + z)]) (ET 17 [(2 + z); (0 + z); (1 + z); (4 + z); (5 + z); (3 + z)])) (ESub (ET 17 [(2 + z); (0 + z); (1 + z); (5 + z); (4 + z); (3 + z)]) (ET 17 [(2 + z); (0 + z); (1 + z); (5 + z); (3 + z); (4 + z)]))))) (ESub (ESub (ESub (ET 17 [(1 + z); (0 + z); (2 + z); (3 + z); (4 + z); (5 + z)]) (ET 17 [(1 + z); (0 + z); (2 + z); (3 + z); (5 + z); (4 + z)])) (EAdd (ESub (ET 17 [(1 + z); (0 + z); (2 + z); (4 + z); (3 + z); (5 + z)]) (ET 17 [(1 + z); (0 + z); (2 + z); (4 + z); (5 + z); (3 + z)])) (ESub (ET 17 [(1 + z); (0 + z); (2 + z); (5 + z); (4 + z); (3 + z)]) (ET 17 [(1 + z); (0 + z); (2 + z); (5 + z); (3 + z); (4 + z)])))) (ESub (ESub (ET 17 [(1 + z); (2 + z); (0 + z); (3 + z); (4 + z); (5 + z)]) (ET 17 [(1 + z); (2 + z); (0 + z); (3 + z); (5 + z); (4 + z)])) (EAdd (ESub (ET 17 [(1 + z); (2 + z); (0 + z); (4 + z); (3 + z); (5 + z)]) (ET 17 [(1 + z); (2 + z); (0 + z); (4 + z); (5 + z); (3 + z)])) (ESub (ET 17 [(1 + z); (2 + z); (0 + z); (5 + z); (4 + z); (3 + z)]) (ET 17 [(1 + z); (2 + z); (0 + z); (5 + z); (3 + z); (4 + z)])))))))))))))))).
Definition r_lt_plain (z : nat) : ex := (EAdd (EAdd (EAdd (EAdd (EAdd (EAdd (EAdd (EAdd (ESum (0 + z) 1 (ESum (1 + z) 0 (EMul (ET 0 [(0 + z); (1 + z)]) (ET 1 [(0 + z); (1 + z)])))) (ESum (0 + z) 3 (ESum (1 + z) 2 (EMul (ET 2 [(0 + z); (1 + z)]) (ET 3 [(0 + z); (1 + z)]))))) (ESum (0 + z) 1 (ESum (1 + z) 1 (ESum (2 + z) 0 (ESum (3 + z) 0 (EMul (ET 4 [(0 + z); (1 + z); (2 + z); (3 + z)]) (ET 5 [(0 + z); (1 + z); (2 + z); (3 + z)]))))))) (ESum (0 + z) 1 (ESum (1 + z) 3 (ESum (2 + z) 0 (ESum (3 + z) 2 (EMul (ET 6 [(0 + z); (1 + z); (2 + z); (3 + z)]) (ET 7 [(0 + z); (1 + z); (2 + z); (3 + z)]))))))) (ESum (0 + z) 3 (ESum (1 + z) 3 (ESum (2 + z) 2 (ESum (3 + z) 2 (EMul (ET 8 [(0 + z); (1 + z); (2 + z); (3 + z)]) (ET 9 [(0 + z); (1 + z); (2 + z); (3 + z)]))))))) (ESum (0 + z) 1 (ESum (1 + z) 1 (ESum (2 + z) 1 (ESum (3 + z) 0 (ESum (4 + z) 0 (ESum (5 + z) 0 (EMul (ET 10 [(0 + z); (1 + z); (2 + z); (3 + z); (4 + z); (5 + z)]) (ET 11 [(0 + z); (1 + z); (2 + z); (3 + z); (4 + z); (5 + z)]))))))))) (ESum (0 + z) 1 (ESum (1 + z) 1 (ESum (2 + z) 3 (ESum (3 + z) 0 (ESum (4 + z) 0 (ESum (5 + z) 2 (EMul (ET 12 [(0 + z); (1 + z); (2 + z); (3 + z); (4 + z); (5 + z)]) (ET 13 [(0 + z); (1 + z); (2 + z); (3 + z); (4 + z); (5 + z)]))))))))) (ESum (0 + z) 1 (ESum (1 + z) 3 (ESum (2 + z) 3 (ESum (3 + z) 0 (ESum (4 + z) 2 (ESum (5 + z) 2 (EMul (ET 14 [(0 + z); (1 + z); (2 + z); (3 + z); (4 + z); (5 + z)]) (ET 15 [(0 + z); (1 + z); (2 + z); (3 + z); (4 + z); (5 + z)]))))))))) (ESum (0 + z) 3 (ESum (1 + z) 3 (ESum (2 + z) 3 (ESum (3 + z) 2 (ESum (4 + z) 2 (ESum (5 + z) 2 (EMul (ET 16 [(0 + z); (1 + z); (2 + z); (3 + z); (4 + z); (5 + z)]) (ET 17 [(0 + z); (1 + z); (2 + z); (3 + z); (4 + z); (5 + z)]))))))))).
Definition ltas_arrays (L Q : amps) := [ap2 (x_a L);
  ap2 (x_a Q);
  ap2 (x_b L);
  ap2 (x_b Q);
  ap4 (x_aa L);
  ap4 (x_aa Q);
  ap4 (x_ab L);
  ap4 (x_ab Q);
  ap4 (x_bb L);
  ap4 (x_bb Q);
  ap6 (x_aaa L);
  ap6 (x_aaa Q);
  ap6 (x_aab L);
  ap6 (x_aab Q);
  ap6 (x_abb L);
  ap6 (x_abb Q);
  ap6 (x_bbb L);
  ap6 (x_bbb Q)].
Definition ltas_gens : list (nat * (nat * list nat * bool)) := [(4, (4, [1; 0; 2; 3], false));
  (4, (4, [0; 1; 3; 2], false));
  (8, (8, [1; 0; 2; 3], false));
  (8, (8, [0; 1; 3; 2], false));
  (10, (10, [1; 0; 2; 3; 4; 5], false));
  (10, (10, [0; 2; 1; 3; 4; 5], false));
  (10, (10, [0; 1; 2; 4; 3; 5], false));
  (10, (10, [0; 1; 2; 3; 5; 4], false));
  (12, (12, [1; 0; 2; 3; 4; 5], false));
  (12, (12, [0; 1; 2; 4; 3; 5], false));
  (14, (14, [0; 2; 1; 3; 4; 5], false));
  (14, (14, [0; 1; 2; 3; 5; 4], false));
  (16, (16, [1; 0; 2; 3; 4; 5], false));
  (16, (16, [0; 2; 1; 3; 4; 5], false));
  (16, (16, [0; 1; 2; 4; 3; 5], false));
  (16, (16, [0; 1; 2; 3; 5; 4], false))].
Definition ltas_tab := Eval vm_compute in symtab ltas_gens 18.
