(** Generated by tools/gen_eomccsd.py: reified right and left EOMCCSD programs (proof support). *)
From Coq Require Import Reals Arith List ZArith.
From Verif Require Import RSum IntegralsModel TensorObjs TensorAlg EomModel.
Import ListNotations.
Local Open Scope nat_scope.
Definition r_eom_X_a_oo (z m j : nat) : ex := (EAdd (EAdd (EAdd (ESum (0 + z) 0 (ESum (1 + z) 1 (EMul (ET 0 [m; (0 + z); j; (1 + z)]) (ET 1 [(1 + z); (0 + z)])))) (ESum (0 + z) 2 (ESum (1 + z) 3 (EMul (ET 2 [m; (0 + z); j; (1 + z)]) (ET 3 [(1 + z); (0 + z)]))))) (EScale (1) 2 (ESum (0 + z) 0 (ESum (1 + z) 1 (ESum (2 + z) 1 (EMul (ET 4 [m; (0 + z); (1 + z); (2 + z)]) (ET 5 [(1 + z); (2 + z); j; (0 + z)]))))))) (ESum (0 + z) 2 (ESum (1 + z) 1 (ESum (2 + z) 3 (EMul (ET 6 [m; (0 + z); (1 + z); (2 + z)]) (ET 7 [(1 + z); (2 + z); j; (0 + z)])))))).
Definition r_eom_X_a_vv (z b e : nat) : ex := (ESub (ESub (EAdd (ESum (0 + z) 0 (ESum (1 + z) 1 (EMul (ET 8 [b; (0 + z); e; (1 + z)]) (ET 1 [(1 + z); (0 + z)])))) (ESum (0 + z) 2 (ESum (1 + z) 3 (EMul (ET 9 [b; (0 + z); e; (1 + z)]) (ET 3 [(1 + z); (0 + z)]))))) (EScale (1) 2 (ESum (0 + z) 0 (ESum (1 + z) 0 (ESum (2 + z) 1 (EMul (ET 4 [(0 + z); (1 + z); e; (2 + z)]) (ET 5 [b; (2 + z); (0 + z); (1 + z)]))))))) (ESum (0 + z) 0 (ESum (1 + z) 2 (ESum (2 + z) 3 (EMul (ET 6 [(0 + z); (1 + z); e; (2 + z)]) (ET 7 [b; (2 + z); (0 + z); (1 + z)])))))).
Definition r_eom_X_b_oo (z m k : nat) : ex := (EAdd (EAdd (EAdd (ESum (0 + z) 0 (ESum (1 + z) 1 (EMul (ET 10 [(0 + z); m; (1 + z); k]) (ET 1 [(1 + z); (0 + z)])))) (ESum (0 + z) 2 (ESum (1 + z) 3 (EMul (ET 11 [m; (0 + z); k; (1 + z)]) (ET 3 [(1 + z); (0 + z)]))))) (ESum (0 + z) 0 (ESum (1 + z) 1 (ESum (2 + z) 3 (EMul (ET 6 [(0 + z); m; (1 + z); (2 + z)]) (ET 7 [(1 + z); (2 + z); (0 + z); k])))))) (EScale (1) 2 (ESum (0 + z) 2 (ESum (1 + z) 3 (ESum (2 + z) 3 (EMul (ET 12 [m; (0 + z); (1 + z); (2 + z)]) (ET 13 [(1 + z); (2 + z); k; (0 + z)]))))))).
Definition r_eom_X_b_vv (z c e : nat) : ex := (ESub (ESub (EAdd (ESum (0 + z) 0 (ESum (1 + z) 1 (EMul (ET 14 [(0 + z); c; (1 + z); e]) (ET 1 [(1 + z); (0 + z)])))) (ESum (0 + z) 2 (ESum (1 + z) 3 (EMul (ET 15 [c; (0 + z); e; (1 + z)]) (ET 3 [(1 + z); (0 + z)]))))) (EScale (1) 1 (ESum (0 + z) 0 (ESum (1 + z) 2 (ESum (2 + z) 1 (EMul (ET 6 [(0 + z); (1 + z); (2 + z); e]) (ET 7 [(2 + z); c; (0 + z); (1 + z)]))))))) (EScale (1) 2 (ESum (0 + z) 2 (ESum (1 + z) 2 (ESum (2 + z) 3 (EMul (ET 12 [(0 + z); (1 + z); e; (2 + z)]) (ET 13 [(2 + z); c; (1 + z); (0 + z)]))))))).
Definition r_eom_X1A (z a i : nat) : ex := (EOpp (ESum (0 + z) 0 (EMul (ET 16 [(0 + z); i]) (ET 1 [a; (0 + z)])))).
Definition r_eom_X1A_1 (z a i : nat) : ex := (EAdd (r_eom_X1A (0 + z) a i) (ESum (0 + z) 1 (EMul (ET 17 [a; (0 + z)]) (ET 1 [(0 + z); i])))).
Definition r_eom_X1A_2 (z a i : nat) : ex := (EAdd (r_eom_X1A_1 (0 + z) a i) (ESum (0 + z) 0 (ESum (1 + z) 1 (EMul (ET 18 [a; (0 + z); i; (1 + z)]) (ET 1 [(1 + z); (0 + z)]))))).
Definition r_eom_X1A_3 (z a i : nat) : ex := (EAdd (r_eom_X1A_2 (0 + z) a i) (ESum (0 + z) 2 (ESum (1 + z) 3 (EMul (ET 19 [a; (0 + z); i; (1 + z)]) (ET 3 [(1 + z); (0 + z)]))))).
Definition r_eom_X1A_4 (z a i : nat) : ex := (ESub (r_eom_X1A_3 (0 + z) a i) (EScale (1) 2 (ESum (0 + z) 0 (ESum (1 + z) 0 (ESum (2 + z) 1 (EMul (ET 0 [(0 + z); (1 + z); i; (2 + z)]) (ET 5 [a; (2 + z); (0 + z); (1 + z)]))))))).
Definition r_eom_X1A_5 (z a i : nat) : ex := (ESub (r_eom_X1A_4 (0 + z) a i) (ESum (0 + z) 0 (ESum (1 + z) 2 (ESum (2 + z) 3 (EMul (ET 2 [(0 + z); (1 + z); i; (2 + z)]) (ET 7 [a; (2 + z); (0 + z); (1 + z)])))))).
Definition r_eom_X1A_6 (z a i : nat) : ex := (EAdd (r_eom_X1A_5 (0 + z) a i) (EScale (1) 2 (ESum (0 + z) 0 (ESum (1 + z) 1 (ESum (2 + z) 1 (EMul (ET 8 [a; (0 + z); (1 + z); (2 + z)]) (ET 5 [(1 + z); (2 + z); i; (0 + z)]))))))).
Definition r_eom_X1A_7 (z a i : nat) : ex := (EAdd (r_eom_X1A_6 (0 + z) a i) (ESum (0 + z) 2 (ESum (1 + z) 1 (ESum (2 + z) 3 (EMul (ET 9 [a; (0 + z); (1 + z); (2 + z)]) (ET 7 [(1 + z); (2 + z); i; (0 + z)])))))).
Definition r_eom_X1A_8 (z a i : nat) : ex := (EAdd (r_eom_X1A_7 (0 + z) a i) (ESum (0 + z) 0 (ESum (1 + z) 1 (EMul (ET 20 [(0 + z); (1 + z)]) (ET 5 [a; (1 + z); i; (0 + z)]))))).
Definition r_eom_X1A_9 (z a i : nat) : ex := (EAdd (r_eom_X1A_8 (0 + z) a i) (ESum (0 + z) 2 (ESum (1 + z) 3 (EMul (ET 21 [(0 + z); (1 + z)]) (ET 7 [a; (1 + z); i; (0 + z)]))))).
Definition r_eom_X1B (z a i : nat) : ex := (EOpp (ESum (0 + z) 2 (EMul (ET 22 [(0 + z); i]) (ET 3 [a; (0 + z)])))).
Definition r_eom_X1B_1 (z a i : nat) : ex := (EAdd (r_eom_X1B (0 + z) a i) (ESum (0 + z) 3 (EMul (ET 23 [a; (0 + z)]) (ET 3 [(0 + z); i])))).
Definition r_eom_X1B_2 (z a i : nat) : ex := (EAdd (r_eom_X1B_1 (0 + z) a i) (ESum (0 + z) 0 (ESum (1 + z) 1 (EMul (ET 24 [(0 + z); a; (1 + z); i]) (ET 1 [(1 + z); (0 + z)]))))).
Definition r_eom_X1B_3 (z a i : nat) : ex := (EAdd (r_eom_X1B_2 (0 + z) a i) (ESum (0 + z) 2 (ESum (1 + z) 3 (EMul (ET 25 [a; (0 + z); i; (1 + z)]) (ET 3 [(1 + z); (0 + z)]))))).
Definition r_eom_X1B_4 (z a i : nat) : ex := (ESub (r_eom_X1B_3 (0 + z) a i) (ESum (0 + z) 0 (ESum (1 + z) 2 (ESum (2 + z) 1 (EMul (ET 10 [(0 + z); (1 + z); (2 + z); i]) (ET 7 [(2 + z); a; (0 + z); (1 + z)])))))).
Definition r_eom_X1B_5 (z a i : nat) : ex := (ESub (r_eom_X1B_4 (0 + z) a i) (EScale (1) 2 (ESum (0 + z) 2 (ESum (1 + z) 2 (ESum (2 + z) 3 (EMul (ET 11 [(0 + z); (1 + z); i; (2 + z)]) (ET 13 [a; (2 + z); (0 + z); (1 + z)]))))))).
Definition r_eom_X1B_6 (z a i : nat) : ex := (EAdd (r_eom_X1B_5 (0 + z) a i) (ESum (0 + z) 0 (ESum (1 + z) 1 (ESum (2 + z) 3 (EMul (ET 14 [(0 + z); a; (1 + z); (2 + z)]) (ET 7 [(1 + z); (2 + z); (0 + z); i])))))).
Definition r_eom_X1B_7 (z a i : nat) : ex := (EAdd (r_eom_X1B_6 (0 + z) a i) (EScale (1) 2 (ESum (0 + z) 2 (ESum (1 + z) 3 (ESum (2 + z) 3 (EMul (ET 15 [a; (0 + z); (1 + z); (2 + z)]) (ET 13 [(1 + z); (2 + z); i; (0 + z)]))))))).
Definition r_eom_X1B_8 (z a i : nat) : ex := (EAdd (r_eom_X1B_7 (0 + z) a i) (ESum (0 + z) 0 (ESum (1 + z) 1 (EMul (ET 20 [(0 + z); (1 + z)]) (ET 7 [(1 + z); a; (0 + z); i]))))).
Definition r_eom_X1B_9 (z a i : nat) : ex := (EAdd (r_eom_X1B_8 (0 + z) a i) (ESum (0 + z) 2 (ESum (1 + z) 3 (EMul (ET 21 [(0 + z); (1 + z)]) (ET 13 [a; (1 + z); i; (0 + z)]))))).
Definition r_eom_X2A (z a b i j : nat) : ex := (EScale (-1) 2 (ESum (0 + z) 0 (EMul (ET 16 [(0 + z); i]) (ET 5 [a; b; (0 + z); j])))).
Definition r_eom_X2A_1 (z a b i j : nat) : ex := (EAdd (r_eom_X2A (0 + z) a b i j) (EScale (1) 2 (ESum (0 + z) 1 (EMul (ET 17 [a; (0 + z)]) (ET 5 [(0 + z); b; i; j]))))).
Definition r_eom_X2A_2 (z a b i j : nat) : ex := (EAdd (r_eom_X2A_1 (0 + z) a b i j) (EScale (1) 8 (ESum (0 + z) 0 (ESum (1 + z) 0 (EMul (ET 26 [(0 + z); (1 + z); i; j]) (ET 5 [a; b; (0 + z); (1 + z)])))))).
Definition r_eom_X2A_3 (z a b i j : nat) : ex := (EAdd (r_eom_X2A_2 (0 + z) a b i j) (EScale (1) 8 (ESum (0 + z) 1 (ESum (1 + z) 1 (EMul (ET 27 [a; b; (0 + z); (1 + z)]) (ET 5 [(0 + z); (1 + z); i; j])))))).
Definition r_eom_X2A_4 (z a b i j : nat) : ex := (EAdd (r_eom_X2A_3 (0 + z) a b i j) (ESum (0 + z) 0 (ESum (1 + z) 1 (EMul (ET 18 [a; (0 + z); i; (1 + z)]) (ET 5 [(1 + z); b; (0 + z); j]))))).
Definition r_eom_X2A_5 (z a b i j : nat) : ex := (EAdd (r_eom_X2A_4 (0 + z) a b i j) (ESum (0 + z) 2 (ESum (1 + z) 3 (EMul (ET 19 [a; (0 + z); i; (1 + z)]) (ET 7 [b; (1 + z); j; (0 + z)]))))).
Definition r_eom_X2A_6 (z a b i j : nat) : ex := (ESub (r_eom_X2A_5 (0 + z) a b i j) (EScale (1) 2 (ESum (0 + z) 0 (EMul (ET 28 [b; (0 + z); j; i]) (ET 1 [a; (0 + z)]))))).
Definition r_eom_X2A_7 (z a b i j : nat) : ex := (EAdd (r_eom_X2A_6 (0 + z) a b i j) (EScale (1) 2 (ESum (0 + z) 1 (EMul (ET 29 [b; a; j; (0 + z)]) (ET 1 [(0 + z); i]))))).
Definition r_eom_X2A_8 (z a b i j : nat) : ex := (EAdd (r_eom_X2A_7 (0 + z) a b i j) (EScale (1) 2 (ESum (0 + z) 1 (EMul (r_eom_X_a_vv (1 + z) b (0 + z)) (ET 30 [a; (0 + z); i; j]))))).
Definition r_eom_X2A_9 (z a b i j : nat) : ex := (ESub (r_eom_X2A_8 (0 + z) a b i j) (EScale (1) 2 (ESum (0 + z) 0 (EMul (r_eom_X_a_oo (1 + z) (0 + z) j) (ET 30 [a; b; i; (0 + z)]))))).
Definition r_eom_X2A_10 (z a b i j : nat) : ex := (ESub (r_eom_X2A_9 (0 + z) a b i j) (r_eom_X2A_9 (0 + z) b a i j)).
Definition r_eom_X2A_11 (z a b i j : nat) : ex := (ESub (r_eom_X2A_10 (0 + z) a b i j) (r_eom_X2A_10 (0 + z) a b j i)).
Definition r_eom_X2B (z a b i j : nat) : ex := (ESum (0 + z) 1 (EMul (ET 17 [a; (0 + z)]) (ET 7 [(0 + z); b; i; j]))).
Definition r_eom_X2B_1 (z a b i j : nat) : ex := (EAdd (r_eom_X2B (0 + z) a b i j) (ESum (0 + z) 3 (EMul (ET 23 [b; (0 + z)]) (ET 7 [a; (0 + z); i; j])))).
Definition r_eom_X2B_2 (z a b i j : nat) : ex := (ESub (r_eom_X2B_1 (0 + z) a b i j) (ESum (0 + z) 0 (EMul (ET 16 [(0 + z); i]) (ET 7 [a; b; (0 + z); j])))).
Definition r_eom_X2B_3 (z a b i j : nat) : ex := (ESub (r_eom_X2B_2 (0 + z) a b i j) (ESum (0 + z) 2 (EMul (ET 22 [(0 + z); j]) (ET 7 [a; b; i; (0 + z)])))).
Definition r_eom_X2B_4 (z a b i j : nat) : ex := (EAdd (r_eom_X2B_3 (0 + z) a b i j) (ESum (0 + z) 0 (ESum (1 + z) 2 (EMul (ET 31 [(0 + z); (1 + z); i; j]) (ET 7 [a; b; (0 + z); (1 + z)]))))).
Definition r_eom_X2B_5 (z a b i j : nat) : ex := (EAdd (r_eom_X2B_4 (0 + z) a b i j) (ESum (0 + z) 1 (ESum (1 + z) 3 (EMul (ET 32 [a; b; (0 + z); (1 + z)]) (ET 7 [(0 + z); (1 + z); i; j]))))).
Definition r_eom_X2B_6 (z a b i j : nat) : ex := (EAdd (r_eom_X2B_5 (0 + z) a b i j) (ESum (0 + z) 0 (ESum (1 + z) 1 (EMul (ET 18 [a; (0 + z); i; (1 + z)]) (ET 7 [(1 + z); b; (0 + z); j]))))).
Definition r_eom_X2B_7 (z a b i j : nat) : ex := (EAdd (r_eom_X2B_6 (0 + z) a b i j) (ESum (0 + z) 2 (ESum (1 + z) 3 (EMul (ET 19 [a; (0 + z); i; (1 + z)]) (ET 13 [(1 + z); b; (0 + z); j]))))).
Definition r_eom_X2B_8 (z a b i j : nat) : ex := (EAdd (r_eom_X2B_7 (0 + z) a b i j) (ESum (0 + z) 0 (ESum (1 + z) 1 (EMul (ET 24 [(0 + z); b; (1 + z); j]) (ET 5 [a; (1 + z); i; (0 + z)]))))).
Definition r_eom_X2B_9 (z a b i j : nat) : ex := (EAdd (r_eom_X2B_8 (0 + z) a b i j) (ESum (0 + z) 2 (ESum (1 + z) 3 (EMul (ET 25 [b; (0 + z); j; (1 + z)]) (ET 7 [a; (1 + z); i; (0 + z)]))))).
Definition r_eom_X2B_10 (z a b i j : nat) : ex := (ESub (r_eom_X2B_9 (0 + z) a b i j) (ESum (0 + z) 0 (ESum (1 + z) 3 (EMul (ET 33 [(0 + z); b; i; (1 + z)]) (ET 7 [a; (1 + z); (0 + z); j]))))).
Definition r_eom_X2B_11 (z a b i j : nat) : ex := (ESub (r_eom_X2B_10 (0 + z) a b i j) (ESum (0 + z) 2 (ESum (1 + z) 1 (EMul (ET 34 [a; (0 + z); (1 + z); j]) (ET 7 [(1 + z); b; i; (0 + z)]))))).
Definition r_eom_X2B_12 (z a b i j : nat) : ex := (EAdd (r_eom_X2B_11 (0 + z) a b i j) (ESum (0 + z) 1 (EMul (ET 35 [a; b; (0 + z); j]) (ET 1 [(0 + z); i])))).
Definition r_eom_X2B_13 (z a b i j : nat) : ex := (EAdd (r_eom_X2B_12 (0 + z) a b i j) (ESum (0 + z) 3 (EMul (ET 36 [a; b; i; (0 + z)]) (ET 3 [(0 + z); j])))).
Definition r_eom_X2B_14 (z a b i j : nat) : ex := (ESub (r_eom_X2B_13 (0 + z) a b i j) (ESum (0 + z) 0 (EMul (ET 37 [(0 + z); b; i; j]) (ET 1 [a; (0 + z)])))).
Definition r_eom_X2B_15 (z a b i j : nat) : ex := (ESub (r_eom_X2B_14 (0 + z) a b i j) (ESum (0 + z) 2 (EMul (ET 38 [a; (0 + z); i; j]) (ET 3 [b; (0 + z)])))).
Definition r_eom_X2B_16 (z a b i j : nat) : ex := (EAdd (r_eom_X2B_15 (0 + z) a b i j) (ESum (0 + z) 1 (EMul (r_eom_X_a_vv (1 + z) a (0 + z)) (ET 39 [(0 + z); b; i; j])))).
Definition r_eom_X2B_17 (z a b i j : nat) : ex := (ESub (r_eom_X2B_16 (0 + z) a b i j) (ESum (0 + z) 0 (EMul (r_eom_X_a_oo (1 + z) (0 + z) i) (ET 39 [a; b; (0 + z); j])))).
Definition r_eom_X2B_18 (z a b i j : nat) : ex := (EAdd (r_eom_X2B_17 (0 + z) a b i j) (ESum (0 + z) 3 (EMul (r_eom_X_b_vv (1 + z) b (0 + z)) (ET 39 [a; (0 + z); i; j])))).
Definition r_eom_X2B_19 (z a b i j : nat) : ex := (ESub (r_eom_X2B_18 (0 + z) a b i j) (ESum (0 + z) 2 (EMul (r_eom_X_b_oo (1 + z) (0 + z) j) (ET 39 [a; b; i; (0 + z)])))).
Definition r_eom_X2C (z a b i j : nat) : ex := (EScale (-1) 2 (ESum (0 + z) 2 (EMul (ET 22 [(0 + z); i]) (ET 13 [a; b; (0 + z); j])))).
Definition r_eom_X2C_1 (z a b i j : nat) : ex := (EAdd (r_eom_X2C (0 + z) a b i j) (EScale (1) 2 (ESum (0 + z) 3 (EMul (ET 23 [a; (0 + z)]) (ET 13 [(0 + z); b; i; j]))))).
Definition r_eom_X2C_2 (z a b i j : nat) : ex := (EAdd (r_eom_X2C_1 (0 + z) a b i j) (EScale (1) 8 (ESum (0 + z) 2 (ESum (1 + z) 2 (EMul (ET 40 [(0 + z); (1 + z); i; j]) (ET 13 [a; b; (0 + z); (1 + z)])))))).
Definition r_eom_X2C_3 (z a b i j : nat) : ex := (EAdd (r_eom_X2C_2 (0 + z) a b i j) (EScale (1) 8 (ESum (0 + z) 3 (ESum (1 + z) 3 (EMul (ET 41 [a; b; (0 + z); (1 + z)]) (ET 13 [(0 + z); (1 + z); i; j])))))).
Definition r_eom_X2C_4 (z a b i j : nat) : ex := (EAdd (r_eom_X2C_3 (0 + z) a b i j) (ESum (0 + z) 2 (ESum (1 + z) 3 (EMul (ET 25 [a; (0 + z); i; (1 + z)]) (ET 13 [(1 + z); b; (0 + z); j]))))).
Definition r_eom_X2C_5 (z a b i j : nat) : ex := (EAdd (r_eom_X2C_4 (0 + z) a b i j) (ESum (0 + z) 0 (ESum (1 + z) 1 (EMul (ET 24 [(0 + z); a; (1 + z); i]) (ET 7 [(1 + z); b; (0 + z); j]))))).
Definition r_eom_X2C_6 (z a b i j : nat) : ex := (ESub (r_eom_X2C_5 (0 + z) a b i j) (EScale (1) 2 (ESum (0 + z) 2 (EMul (ET 42 [b; (0 + z); j; i]) (ET 3 [a; (0 + z)]))))).
Definition r_eom_X2C_7 (z a b i j : nat) : ex := (EAdd (r_eom_X2C_6 (0 + z) a b i j) (EScale (1) 2 (ESum (0 + z) 3 (EMul (ET 43 [b; a; j; (0 + z)]) (ET 3 [(0 + z); i]))))).
Definition r_eom_X2C_8 (z a b i j : nat) : ex := (EAdd (r_eom_X2C_7 (0 + z) a b i j) (EScale (1) 2 (ESum (0 + z) 3 (EMul (r_eom_X_b_vv (1 + z) b (0 + z)) (ET 44 [a; (0 + z); i; j]))))).
Definition r_eom_X2C_9 (z a b i j : nat) : ex := (ESub (r_eom_X2C_8 (0 + z) a b i j) (EScale (1) 2 (ESum (0 + z) 2 (EMul (r_eom_X_b_oo (1 + z) (0 + z) j) (ET 44 [a; b; i; (0 + z)]))))).
Definition r_eom_X2C_10 (z a b i j : nat) : ex := (ESub (r_eom_X2C_9 (0 + z) a b i j) (r_eom_X2C_9 (0 + z) b a i j)).
Definition r_eom_X2C_11 (z a b i j : nat) : ex := (ESub (r_eom_X2C_10 (0 + z) a b i j) (r_eom_X2C_10 (0 + z) a b j i)).
Definition r_left_X_a_vv (z g e : nat) : ex := (EAdd (EScale (1) 2 (ESum (0 + z) 1 (ESum (1 + z) 0 (ESum (2 + z) 0 (EMul (ET 45 [e; (0 + z); (1 + z); (2 + z)]) (ET 30 [(0 + z); g; (2 + z); (1 + z)])))))) (ESum (0 + z) 3 (ESum (1 + z) 0 (ESum (2 + z) 2 (EMul (ET 46 [e; (0 + z); (1 + z); (2 + z)]) (ET 39 [g; (0 + z); (1 + z); (2 + z)])))))).
Definition r_left_X_a_oo (z m n : nat) : ex := (ESub (EScale (-1) 2 (ESum (0 + z) 1 (ESum (1 + z) 1 (ESum (2 + z) 0 (EMul (ET 45 [(0 + z); (1 + z); m; (2 + z)]) (ET 30 [(0 + z); (1 + z); n; (2 + z)])))))) (ESum (0 + z) 1 (ESum (1 + z) 3 (ESum (2 + z) 2 (EMul (ET 46 [(0 + z); (1 + z); m; (2 + z)]) (ET 39 [(0 + z); (1 + z); n; (2 + z)])))))).
Definition r_left_X_b_vv (z f a : nat) : ex := (EAdd (EScale (1) 2 (ESum (0 + z) 3 (ESum (1 + z) 2 (ESum (2 + z) 2 (EMul (ET 47 [a; (0 + z); (1 + z); (2 + z)]) (ET 44 [f; (0 + z); (1 + z); (2 + z)])))))) (ESum (0 + z) 1 (ESum (1 + z) 0 (ESum (2 + z) 2 (EMul (ET 46 [(0 + z); a; (1 + z); (2 + z)]) (ET 39 [(0 + z); f; (1 + z); (2 + z)])))))).
Definition r_left_X_b_oo (z i n : nat) : ex := (ESub (EScale (-1) 2 (ESum (0 + z) 3 (ESum (1 + z) 3 (ESum (2 + z) 2 (EMul (ET 47 [(0 + z); (1 + z); i; (2 + z)]) (ET 44 [(0 + z); (1 + z); n; (2 + z)])))))) (ESum (0 + z) 1 (ESum (1 + z) 3 (ESum (2 + z) 0 (EMul (ET 46 [(0 + z); (1 + z); (2 + z); i]) (ET 39 [(0 + z); (1 + z); (2 + z); n])))))).
Definition r_left_LH_a (z a i : nat) : ex := (ESum (0 + z) 1 (EMul (ET 17 [(0 + z); a]) (ET 48 [(0 + z); i]))).
Definition r_left_LH_a_1 (z a i : nat) : ex := (ESub (r_left_LH_a (0 + z) a i) (ESum (0 + z) 0 (EMul (ET 16 [i; (0 + z)]) (ET 48 [a; (0 + z)])))).
Definition r_left_LH_a_2 (z a i : nat) : ex := (EAdd (r_left_LH_a_1 (0 + z) a i) (ESum (0 + z) 1 (ESum (1 + z) 0 (EMul (ET 18 [(0 + z); i; (1 + z); a]) (ET 48 [(0 + z); (1 + z)]))))).
Definition r_left_LH_a_3 (z a i : nat) : ex := (EAdd (r_left_LH_a_2 (0 + z) a i) (ESum (0 + z) 3 (ESum (1 + z) 2 (EMul (ET 24 [i; (0 + z); a; (1 + z)]) (ET 49 [(0 + z); (1 + z)]))))).
Definition r_left_LH_a_4 (z a i : nat) : ex := (EAdd (r_left_LH_a_3 (0 + z) a i) (EScale (1) 2 (ESum (0 + z) 1 (ESum (1 + z) 1 (ESum (2 + z) 0 (EMul (ET 29 [(0 + z); (1 + z); (2 + z); a]) (ET 45 [(1 + z); (0 + z); i; (2 + z)]))))))).
Definition r_left_LH_a_5 (z a i : nat) : ex := (EAdd (r_left_LH_a_4 (0 + z) a i) (ESum (0 + z) 1 (ESum (1 + z) 3 (ESum (2 + z) 2 (EMul (ET 35 [(0 + z); (1 + z); a; (2 + z)]) (ET 46 [(0 + z); (1 + z); i; (2 + z)])))))).
Definition r_left_LH_a_6 (z a i : nat) : ex := (ESub (r_left_LH_a_5 (0 + z) a i) (EScale (1) 2 (ESum (0 + z) 1 (ESum (1 + z) 0 (ESum (2 + z) 0 (EMul (ET 28 [(0 + z); i; (1 + z); (2 + z)]) (ET 45 [a; (0 + z); (2 + z); (1 + z)]))))))).
Definition r_left_LH_a_7 (z a i : nat) : ex := (ESub (r_left_LH_a_6 (0 + z) a i) (ESum (0 + z) 3 (ESum (1 + z) 0 (ESum (2 + z) 2 (EMul (ET 37 [i; (0 + z); (1 + z); (2 + z)]) (ET 46 [a; (0 + z); (1 + z); (2 + z)])))))).
Definition r_left_LH_a_8 (z a i : nat) : ex := (EAdd (r_left_LH_a_7 (0 + z) a i) (ESum (0 + z) 1 (ESum (1 + z) 1 (EMul (r_left_X_a_vv (2 + z) (0 + z) (1 + z)) (ET 8 [(1 + z); i; (0 + z); a]))))).
Definition r_left_LH_a_9 (z a i : nat) : ex := (EAdd (r_left_LH_a_8 (0 + z) a i) (ESum (0 + z) 0 (ESum (1 + z) 0 (EMul (r_left_X_a_oo (2 + z) (0 + z) (1 + z)) (ET 0 [(1 + z); i; (0 + z); a]))))).
Definition r_left_LH_a_10 (z a i : nat) : ex := (EAdd (r_left_LH_a_9 (0 + z) a i) (ESum (0 + z) 3 (ESum (1 + z) 3 (EMul (r_left_X_b_vv (2 + z) (0 + z) (1 + z)) (ET 14 [i; (1 + z); a; (0 + z)]))))).
Definition r_left_LH_a_11 (z a i : nat) : ex := (EAdd (r_left_LH_a_10 (0 + z) a i) (ESum (0 + z) 2 (ESum (1 + z) 2 (EMul (r_left_X_b_oo (2 + z) (0 + z) (1 + z)) (ET 10 [i; (1 + z); a; (0 + z)]))))).
Definition r_left_LH_b (z a i : nat) : ex := (ESum (0 + z) 3 (EMul (ET 23 [(0 + z); a]) (ET 49 [(0 + z); i]))).
Definition r_left_LH_b_1 (z a i : nat) : ex := (ESub (r_left_LH_b (0 + z) a i) (ESum (0 + z) 2 (EMul (ET 22 [i; (0 + z)]) (ET 49 [a; (0 + z)])))).
Definition r_left_LH_b_2 (z a i : nat) : ex := (EAdd (r_left_LH_b_1 (0 + z) a i) (ESum (0 + z) 1 (ESum (1 + z) 0 (EMul (ET 19 [(0 + z); i; (1 + z); a]) (ET 48 [(0 + z); (1 + z)]))))).
Definition r_left_LH_b_3 (z a i : nat) : ex := (EAdd (r_left_LH_b_2 (0 + z) a i) (ESum (0 + z) 3 (ESum (1 + z) 2 (EMul (ET 25 [(0 + z); i; (1 + z); a]) (ET 49 [(0 + z); (1 + z)]))))).
Definition r_left_LH_b_4 (z a i : nat) : ex := (ESub (r_left_LH_b_3 (0 + z) a i) (EScale (1) 2 (ESum (0 + z) 3 (ESum (1 + z) 2 (ESum (2 + z) 2 (EMul (ET 42 [(0 + z); i; (1 + z); (2 + z)]) (ET 47 [a; (0 + z); (2 + z); (1 + z)]))))))).
Definition r_left_LH_b_5 (z a i : nat) : ex := (ESub (r_left_LH_b_4 (0 + z) a i) (ESum (0 + z) 1 (ESum (1 + z) 0 (ESum (2 + z) 2 (EMul (ET 38 [(0 + z); i; (1 + z); (2 + z)]) (ET 46 [(0 + z); a; (1 + z); (2 + z)])))))).
Definition r_left_LH_b_6 (z a i : nat) : ex := (EAdd (r_left_LH_b_5 (0 + z) a i) (ESum (0 + z) 1 (ESum (1 + z) 3 (ESum (2 + z) 0 (EMul (ET 36 [(0 + z); (1 + z); (2 + z); a]) (ET 46 [(0 + z); (1 + z); (2 + z); i])))))).
Definition r_left_LH_b_7 (z a i : nat) : ex := (EAdd (r_left_LH_b_6 (0 + z) a i) (EScale (1) 2 (ESum (0 + z) 3 (ESum (1 + z) 3 (ESum (2 + z) 2 (EMul (ET 43 [(0 + z); (1 + z); (2 + z); a]) (ET 47 [(1 + z); (0 + z); i; (2 + z)]))))))).
Definition r_left_LH_b_8 (z a i : nat) : ex := (EAdd (r_left_LH_b_7 (0 + z) a i) (EAdd (ESum (0 + z) 3 (ESum (1 + z) 3 (EMul (r_left_X_b_vv (2 + z) (0 + z) (1 + z)) (ET 15 [(1 + z); i; (0 + z); a])))) (ESum (0 + z) 2 (ESum (1 + z) 2 (EMul (r_left_X_b_oo (2 + z) (0 + z) (1 + z)) (ET 11 [(1 + z); i; (0 + z); a])))))).
Definition r_left_LH_b_9 (z a i : nat) : ex := (EAdd (r_left_LH_b_8 (0 + z) a i) (EAdd (ESum (0 + z) 1 (ESum (1 + z) 1 (EMul (r_left_X_a_vv (2 + z) (0 + z) (1 + z)) (ET 9 [(1 + z); i; (0 + z); a])))) (ESum (0 + z) 0 (ESum (1 + z) 0 (EMul (r_left_X_a_oo (2 + z) (0 + z) (1 + z)) (ET 2 [(1 + z); i; (0 + z); a])))))).
Definition r_left_LH_aa (z a b i j : nat) : ex := (EScale (1) 2 (ESum (0 + z) 1 (EMul (ET 17 [(0 + z); a]) (ET 45 [(0 + z); b; i; j])))).
Definition r_left_LH_aa_1 (z a b i j : nat) : ex := (ESub (r_left_LH_aa (0 + z) a b i j) (EScale (1) 2 (ESum (0 + z) 0 (EMul (ET 16 [i; (0 + z)]) (ET 45 [a; b; (0 + z); j]))))).
Definition r_left_LH_aa_2 (z a b i j : nat) : ex := (EAdd (r_left_LH_aa_1 (0 + z) a b i j) (EMul (ET 20 [j; b]) (ET 48 [a; i]))).
Definition r_left_LH_aa_3 (z a b i j : nat) : ex := (ESub (r_left_LH_aa_2 (0 + z) a b i j) (EScale (1) 2 (ESum (0 + z) 1 (EMul (r_left_X_a_vv (1 + z) (0 + z) a) (ET 4 [i; j; (0 + z); b]))))).
Definition r_left_LH_aa_4 (z a b i j : nat) : ex := (EAdd (r_left_LH_aa_3 (0 + z) a b i j) (EScale (1) 2 (ESum (0 + z) 0 (EMul (r_left_X_a_oo (1 + z) i (0 + z)) (ET 4 [(0 + z); j; a; b]))))).
Definition r_left_LH_aa_5 (z a b i j : nat) : ex := (EAdd (r_left_LH_aa_4 (0 + z) a b i j) (ESum (0 + z) 1 (ESum (1 + z) 0 (EMul (ET 18 [(0 + z); i; (1 + z); a]) (ET 45 [(0 + z); b; (1 + z); j]))))).
Definition r_left_LH_aa_6 (z a b i j : nat) : ex := (EAdd (r_left_LH_aa_5 (0 + z) a b i j) (ESum (0 + z) 3 (ESum (1 + z) 2 (EMul (ET 24 [i; (0 + z); a; (1 + z)]) (ET 46 [b; (0 + z); j; (1 + z)]))))).
Definition r_left_LH_aa_7 (z a b i j : nat) : ex := (EAdd (r_left_LH_aa_6 (0 + z) a b i j) (EScale (1) 8 (ESum (0 + z) 0 (ESum (1 + z) 0 (EMul (ET 26 [i; j; (0 + z); (1 + z)]) (ET 45 [a; b; (0 + z); (1 + z)])))))).
Definition r_left_LH_aa_8 (z a b i j : nat) : ex := (EAdd (r_left_LH_aa_7 (0 + z) a b i j) (EScale (1) 8 (ESum (0 + z) 1 (ESum (1 + z) 1 (EMul (ET 27 [(0 + z); (1 + z); a; b]) (ET 45 [(0 + z); (1 + z); i; j])))))).
Definition r_left_LH_aa_9 (z a b i j : nat) : ex := (EAdd (r_left_LH_aa_8 (0 + z) a b i j) (EScale (1) 2 (ESum (0 + z) 1 (EMul (ET 8 [(0 + z); j; a; b]) (ET 48 [(0 + z); i]))))).
Definition r_left_LH_aa_10 (z a b i j : nat) : ex := (ESub (r_left_LH_aa_9 (0 + z) a b i j) (EScale (1) 2 (ESum (0 + z) 0 (EMul (ET 0 [i; j; (0 + z); b]) (ET 48 [a; (0 + z)]))))).
Definition r_left_LH_aa_11 (z a b i j : nat) : ex := (ESub (r_left_LH_aa_10 (0 + z) a b i j) (ESub (EAdd (r_left_LH_aa_10 (0 + z) b a i j) (r_left_LH_aa_10 (0 + z) a b j i)) (r_left_LH_aa_10 (0 + z) b a j i))).
Definition r_left_LH_ab (z a b i j : nat) : ex := (EOpp (ESum (0 + z) 0 (EMul (ET 2 [i; j; (0 + z); b]) (ET 48 [a; (0 + z)])))).
Definition r_left_LH_ab_1 (z a b i j : nat) : ex := (ESub (r_left_LH_ab (0 + z) a b i j) (ESum (0 + z) 2 (EMul (ET 10 [i; j; a; (0 + z)]) (ET 49 [b; (0 + z)])))).
Definition r_left_LH_ab_2 (z a b i j : nat) : ex := (EAdd (r_left_LH_ab_1 (0 + z) a b i j) (ESum (0 + z) 1 (EMul (ET 9 [(0 + z); j; a; b]) (ET 48 [(0 + z); i])))).
Definition r_left_LH_ab_3 (z a b i j : nat) : ex := (EAdd (r_left_LH_ab_2 (0 + z) a b i j) (ESum (0 + z) 3 (EMul (ET 14 [i; (0 + z); a; b]) (ET 49 [(0 + z); j])))).
Definition r_left_LH_ab_4 (z a b i j : nat) : ex := (EAdd (r_left_LH_ab_3 (0 + z) a b i j) (ESum (0 + z) 0 (ESum (1 + z) 2 (EMul (ET 31 [i; j; (0 + z); (1 + z)]) (ET 46 [a; b; (0 + z); (1 + z)]))))).
Definition r_left_LH_ab_5 (z a b i j : nat) : ex := (EAdd (r_left_LH_ab_4 (0 + z) a b i j) (ESum (0 + z) 1 (ESum (1 + z) 3 (EMul (ET 32 [(0 + z); (1 + z); a; b]) (ET 46 [(0 + z); (1 + z); i; j]))))).
Definition r_left_LH_ab_6 (z a b i j : nat) : ex := (EAdd (r_left_LH_ab_5 (0 + z) a b i j) (ESum (0 + z) 1 (ESum (1 + z) 0 (EMul (ET 19 [(0 + z); j; (1 + z); b]) (ET 45 [a; (0 + z); i; (1 + z)]))))).
Definition r_left_LH_ab_7 (z a b i j : nat) : ex := (EAdd (r_left_LH_ab_6 (0 + z) a b i j) (ESum (0 + z) 1 (ESum (1 + z) 0 (EMul (ET 18 [(0 + z); i; (1 + z); a]) (ET 46 [(0 + z); b; (1 + z); j]))))).
Definition r_left_LH_ab_8 (z a b i j : nat) : ex := (EAdd (r_left_LH_ab_7 (0 + z) a b i j) (ESum (0 + z) 3 (ESum (1 + z) 2 (EMul (ET 25 [(0 + z); j; (1 + z); b]) (ET 46 [a; (0 + z); i; (1 + z)]))))).
Definition r_left_LH_ab_9 (z a b i j : nat) : ex := (EAdd (r_left_LH_ab_8 (0 + z) a b i j) (ESum (0 + z) 3 (ESum (1 + z) 2 (EMul (ET 24 [i; (0 + z); a; (1 + z)]) (ET 47 [(0 + z); b; (1 + z); j]))))).
Definition r_left_LH_ab_10 (z a b i j : nat) : ex := (ESub (r_left_LH_ab_9 (0 + z) a b i j) (ESum (0 + z) 3 (ESum (1 + z) 0 (EMul (ET 33 [i; (0 + z); (1 + z); b]) (ET 46 [a; (0 + z); (1 + z); j]))))).
Definition r_left_LH_ab_11 (z a b i j : nat) : ex := (ESub (r_left_LH_ab_10 (0 + z) a b i j) (ESum (0 + z) 1 (ESum (1 + z) 2 (EMul (ET 34 [(0 + z); j; a; (1 + z)]) (ET 46 [(0 + z); b; i; (1 + z)]))))).
Definition r_left_LH_ab_12 (z a b i j : nat) : ex := (ESub (r_left_LH_ab_11 (0 + z) a b i j) (ESum (0 + z) 1 (EMul (r_left_X_a_vv (1 + z) (0 + z) a) (ET 6 [i; j; (0 + z); b])))).
Definition r_left_LH_ab_13 (z a b i j : nat) : ex := (EAdd (r_left_LH_ab_12 (0 + z) a b i j) (ESum (0 + z) 0 (EMul (r_left_X_a_oo (1 + z) i (0 + z)) (ET 6 [(0 + z); j; a; b])))).
Definition r_left_LH_ab_14 (z a b i j : nat) : ex := (ESub (r_left_LH_ab_13 (0 + z) a b i j) (ESum (0 + z) 3 (EMul (r_left_X_b_vv (1 + z) (0 + z) b) (ET 6 [i; j; a; (0 + z)])))).
Definition r_left_LH_ab_15 (z a b i j : nat) : ex := (EAdd (r_left_LH_ab_14 (0 + z) a b i j) (ESum (0 + z) 2 (EMul (r_left_X_b_oo (1 + z) j (0 + z)) (ET 6 [i; (0 + z); a; b])))).
Definition r_left_LH_ab_16 (z a b i j : nat) : ex := (EAdd (r_left_LH_ab_15 (0 + z) a b i j) (ESum (0 + z) 1 (EMul (ET 17 [(0 + z); a]) (ET 46 [(0 + z); b; i; j])))).
Definition r_left_LH_ab_17 (z a b i j : nat) : ex := (EAdd (r_left_LH_ab_16 (0 + z) a b i j) (ESum (0 + z) 3 (EMul (ET 23 [(0 + z); b]) (ET 46 [a; (0 + z); i; j])))).
Definition r_left_LH_ab_18 (z a b i j : nat) : ex := (ESub (r_left_LH_ab_17 (0 + z) a b i j) (ESum (0 + z) 0 (EMul (ET 16 [i; (0 + z)]) (ET 46 [a; b; (0 + z); j])))).
Definition r_left_LH_ab_19 (z a b i j : nat) : ex := (ESub (r_left_LH_ab_18 (0 + z) a b i j) (ESum (0 + z) 2 (EMul (ET 22 [j; (0 + z)]) (ET 46 [a; b; i; (0 + z)])))).
Definition r_left_LH_ab_20 (z a b i j : nat) : ex := (EAdd (r_left_LH_ab_19 (0 + z) a b i j) (EMul (ET 21 [j; b]) (ET 48 [a; i]))).
Definition r_left_LH_ab_21 (z a b i j : nat) : ex := (EAdd (r_left_LH_ab_20 (0 + z) a b i j) (EMul (ET 20 [i; a]) (ET 49 [b; j]))).
Definition r_left_LH_bb (z a b i j : nat) : ex := (EScale (1) 2 (ESum (0 + z) 3 (EMul (ET 23 [(0 + z); a]) (ET 47 [(0 + z); b; i; j])))).
Definition r_left_LH_bb_1 (z a b i j : nat) : ex := (ESub (r_left_LH_bb (0 + z) a b i j) (EScale (1) 2 (ESum (0 + z) 2 (EMul (ET 22 [i; (0 + z)]) (ET 47 [a; b; (0 + z); j]))))).
Definition r_left_LH_bb_2 (z a b i j : nat) : ex := (EAdd (r_left_LH_bb_1 (0 + z) a b i j) (EMul (ET 21 [j; b]) (ET 49 [a; i]))).
Definition r_left_LH_bb_3 (z a b i j : nat) : ex := (ESub (r_left_LH_bb_2 (0 + z) a b i j) (EScale (1) 2 (ESum (0 + z) 3 (EMul (r_left_X_b_vv (1 + z) (0 + z) a) (ET 12 [i; j; (0 + z); b]))))).
Definition r_left_LH_bb_4 (z a b i j : nat) : ex := (EAdd (r_left_LH_bb_3 (0 + z) a b i j) (EScale (1) 2 (ESum (0 + z) 2 (EMul (r_left_X_b_oo (1 + z) i (0 + z)) (ET 12 [(0 + z); j; a; b]))))).
Definition r_left_LH_bb_5 (z a b i j : nat) : ex := (EAdd (r_left_LH_bb_4 (0 + z) a b i j) (ESum (0 + z) 3 (ESum (1 + z) 2 (EMul (ET 25 [(0 + z); i; (1 + z); a]) (ET 47 [(0 + z); b; (1 + z); j]))))).
Definition r_left_LH_bb_6 (z a b i j : nat) : ex := (EAdd (r_left_LH_bb_5 (0 + z) a b i j) (ESum (0 + z) 1 (ESum (1 + z) 0 (EMul (ET 19 [(0 + z); i; (1 + z); a]) (ET 46 [(0 + z); b; (1 + z); j]))))).
Definition r_left_LH_bb_7 (z a b i j : nat) : ex := (EAdd (r_left_LH_bb_6 (0 + z) a b i j) (EScale (1) 8 (ESum (0 + z) 2 (ESum (1 + z) 2 (EMul (ET 40 [i; j; (0 + z); (1 + z)]) (ET 47 [a; b; (0 + z); (1 + z)])))))).
Definition r_left_LH_bb_8 (z a b i j : nat) : ex := (EAdd (r_left_LH_bb_7 (0 + z) a b i j) (EScale (1) 8 (ESum (0 + z) 3 (ESum (1 + z) 3 (EMul (ET 41 [(0 + z); (1 + z); a; b]) (ET 47 [(0 + z); (1 + z); i; j])))))).
Definition r_left_LH_bb_9 (z a b i j : nat) : ex := (EAdd (r_left_LH_bb_8 (0 + z) a b i j) (EScale (1) 2 (ESum (0 + z) 3 (EMul (ET 15 [(0 + z); j; a; b]) (ET 49 [(0 + z); i]))))).
Definition r_left_LH_bb_10 (z a b i j : nat) : ex := (ESub (r_left_LH_bb_9 (0 + z) a b i j) (EScale (1) 2 (ESum (0 + z) 2 (EMul (ET 11 [i; j; (0 + z); b]) (ET 49 [a; (0 + z)]))))).
Definition r_left_LH_bb_11 (z a b i j : nat) : ex := (ESub (r_left_LH_bb_10 (0 + z) a b i j) (ESub (EAdd (r_left_LH_bb_10 (0 + z) b a i j) (r_left_LH_bb_10 (0 + z) a b j i)) (r_left_LH_bb_10 (0 + z) b a j i))).
Definition r_lhs (z : nat) : ex := (EAdd (EAdd (EAdd (EAdd (ESum (0 + z) 1 (ESum (1 + z) 0 (EMul (ET 48 [(0 + z); (1 + z)]) (r_eom_X1A_9 (2 + z) (0 + z) (1 + z))))) (ESum (0 + z) 3 (ESum (1 + z) 2 (EMul (ET 49 [(0 + z); (1 + z)]) (r_eom_X1B_9 (2 + z) (0 + z) (1 + z)))))) (EScale (1) 4 (ESum (0 + z) 1 (ESum (1 + z) 1 (ESum (2 + z) 0 (ESum (3 + z) 0 (EMul (ET 45 [(0 + z); (1 + z); (2 + z); (3 + z)]) (r_eom_X2A_11 (4 + z) (0 + z) (1 + z) (2 + z) (3 + z))))))))) (ESum (0 + z) 1 (ESum (1 + z) 3 (ESum (2 + z) 0 (ESum (3 + z) 2 (EMul (ET 46 [(0 + z); (1 + z); (2 + z); (3 + z)]) (r_eom_X2B_19 (4 + z) (0 + z) (1 + z) (2 + z) (3 + z)))))))) (EScale (1) 4 (ESum (0 + z) 3 (ESum (1 + z) 3 (ESum (2 + z) 2 (ESum (3 + z) 2 (EMul (ET 47 [(0 + z); (1 + z); (2 + z); (3 + z)]) (r_eom_X2C_11 (4 + z) (0 + z) (1 + z) (2 + z) (3 + z))))))))).
Definition r_rhs (z : nat) : ex := (EAdd (EAdd (EAdd (EAdd (ESum (0 + z) 1 (ESum (1 + z) 0 (EMul (r_left_LH_a_11 (2 + z) (0 + z) (1 + z)) (ET 1 [(0 + z); (1 + z)])))) (ESum (0 + z) 3 (ESum (1 + z) 2 (EMul (r_left_LH_b_9 (2 + z) (0 + z) (1 + z)) (ET 3 [(0 + z); (1 + z)]))))) (EScale (1) 4 (ESum (0 + z) 1 (ESum (1 + z) 1 (ESum (2 + z) 0 (ESum (3 + z) 0 (EMul (r_left_LH_aa_11 (4 + z) (0 + z) (1 + z) (2 + z) (3 + z)) (ET 5 [(0 + z); (1 + z); (2 + z); (3 + z)])))))))) (ESum (0 + z) 1 (ESum (1 + z) 3 (ESum (2 + z) 0 (ESum (3 + z) 2 (EMul (r_left_LH_ab_21 (4 + z) (0 + z) (1 + z) (2 + z) (3 + z)) (ET 7 [(0 + z); (1 + z); (2 + z); (3 + z)]))))))) (EScale (1) 4 (ESum (0 + z) 3 (ESum (1 + z) 3 (ESum (2 + z) 2 (ESum (3 + z) 2 (EMul (r_left_LH_bb_11 (4 + z) (0 + z) (1 + z) (2 + z) (3 + z)) (ET 13 [(0 + z); (1 + z); (2 + z); (3 + z)])))))))).
Definition eom_arrays (d : dims) (H : ints) (T L R : amps) := [ap4 (i_aa_ooov H);
  ap2 (x_a R);
  ap4 (i_ab_ooov H);
  ap2 (x_b R);
  ap4 (i_aa_oovv H);
  ap4 (x_aa R);
  ap4 (i_ab_oovv H);
  ap4 (x_ab R);
  ap4 (i_aa_vovv H);
  ap4 (i_ab_vovv H);
  ap4 (i_ab_oovo H);
  ap4 (i_bb_ooov H);
  ap4 (i_bb_oovv H);
  ap4 (x_bb R);
  ap4 (i_ab_ovvv H);
  ap4 (i_bb_vovv H);
  ap2 (i_a_oo H);
  ap2 (i_a_vv H);
  ap4 (i_aa_voov H);
  ap4 (i_ab_voov H);
  ap2 (i_a_ov H);
  ap2 (i_b_ov H);
  ap2 (i_b_oo H);
  ap2 (i_b_vv H);
  ap4 (i_ab_ovvo H);
  ap4 (i_bb_voov H);
  ap4 (i_aa_oooo H);
  ap4 (i_aa_vvvv H);
  ap4 (i_aa_vooo H);
  ap4 (i_aa_vvov H);
  ap4 (x_aa T);
  ap4 (i_ab_oooo H);
  ap4 (i_ab_vvvv H);
  ap4 (i_ab_ovov H);
  ap4 (i_ab_vovo H);
  ap4 (i_ab_vvvo H);
  ap4 (i_ab_vvov H);
  ap4 (i_ab_ovoo H);
  ap4 (i_ab_vooo H);
  ap4 (x_ab T);
  ap4 (i_bb_oooo H);
  ap4 (i_bb_vvvv H);
  ap4 (i_bb_vooo H);
  ap4 (i_bb_vvov H);
  ap4 (x_bb T);
  ap4 (x_aa L);
  ap4 (x_ab L);
  ap4 (x_bb L);
  ap2 (x_a L);
  ap2 (x_b L);
  ap4 (i_aa_oovo H);
  ap4 (i_aa_ovvv H);
  ap4 (i_bb_oovo H);
  ap4 (i_bb_ovvv H);
  ap4 (i_aa_ovov H);
  ap4 (i_aa_vovo H);
  ap4 (i_bb_ovov H);
  ap4 (i_bb_vovo H);
  ap4 (i_aa_ovoo H);
  ap4 (i_aa_vvvo H);
  ap4 (i_bb_ovoo H);
  ap4 (i_bb_vvvo H);
  ap4 (i_aa_ovvo H);
  ap4 (i_bb_ovvo H)].
Definition eom_gens : list (nat * (nat * list nat * bool)) := [(0, (0, [1; 0; 2; 3], false));
  (0, (50, [0; 1; 3; 2], false));
  (4, (4, [1; 0; 2; 3], false));
  (4, (4, [0; 1; 3; 2], false));
  (5, (5, [1; 0; 2; 3], false));
  (5, (5, [0; 1; 3; 2], false));
  (8, (51, [1; 0; 2; 3], false));
  (8, (8, [0; 1; 3; 2], false));
  (11, (11, [1; 0; 2; 3], false));
  (11, (52, [0; 1; 3; 2], false));
  (12, (12, [1; 0; 2; 3], false));
  (12, (12, [0; 1; 3; 2], false));
  (13, (13, [1; 0; 2; 3], false));
  (13, (13, [0; 1; 3; 2], false));
  (15, (53, [1; 0; 2; 3], false));
  (15, (15, [0; 1; 3; 2], false));
  (18, (54, [1; 0; 2; 3], false));
  (18, (55, [0; 1; 3; 2], false));
  (25, (56, [1; 0; 2; 3], false));
  (25, (57, [0; 1; 3; 2], false));
  (26, (26, [1; 0; 2; 3], false));
  (26, (26, [0; 1; 3; 2], false));
  (27, (27, [1; 0; 2; 3], false));
  (27, (27, [0; 1; 3; 2], false));
  (28, (58, [1; 0; 2; 3], false));
  (28, (28, [0; 1; 3; 2], false));
  (29, (29, [1; 0; 2; 3], false));
  (29, (59, [0; 1; 3; 2], false));
  (30, (30, [1; 0; 2; 3], false));
  (30, (30, [0; 1; 3; 2], false));
  (40, (40, [1; 0; 2; 3], false));
  (40, (40, [0; 1; 3; 2], false));
  (41, (41, [1; 0; 2; 3], false));
  (41, (41, [0; 1; 3; 2], false));
  (42, (60, [1; 0; 2; 3], false));
  (42, (42, [0; 1; 3; 2], false));
  (43, (43, [1; 0; 2; 3], false));
  (43, (61, [0; 1; 3; 2], false));
  (44, (44, [1; 0; 2; 3], false));
  (44, (44, [0; 1; 3; 2], false));
  (45, (45, [1; 0; 2; 3], false));
  (45, (45, [0; 1; 3; 2], false));
  (47, (47, [1; 0; 2; 3], false));
  (47, (47, [0; 1; 3; 2], false));
  (50, (50, [1; 0; 2; 3], false));
  (50, (0, [0; 1; 3; 2], false));
  (51, (8, [1; 0; 2; 3], false));
  (51, (51, [0; 1; 3; 2], false));
  (52, (52, [1; 0; 2; 3], false));
  (52, (11, [0; 1; 3; 2], false));
  (53, (15, [1; 0; 2; 3], false));
  (53, (53, [0; 1; 3; 2], false));
  (54, (18, [1; 0; 2; 3], false));
  (54, (62, [0; 1; 3; 2], false));
  (55, (62, [1; 0; 2; 3], false));
  (55, (18, [0; 1; 3; 2], false));
  (56, (25, [1; 0; 2; 3], false));
  (56, (63, [0; 1; 3; 2], false));
  (57, (63, [1; 0; 2; 3], false));
  (57, (25, [0; 1; 3; 2], false));
  (58, (28, [1; 0; 2; 3], false));
  (58, (58, [0; 1; 3; 2], false));
  (59, (59, [1; 0; 2; 3], false));
  (59, (29, [0; 1; 3; 2], false));
  (60, (42, [1; 0; 2; 3], false));
  (60, (60, [0; 1; 3; 2], false));
  (61, (61, [1; 0; 2; 3], false));
  (61, (43, [0; 1; 3; 2], false));
  (62, (55, [1; 0; 2; 3], false));
  (62, (54, [0; 1; 3; 2], false));
  (63, (57, [1; 0; 2; 3], false));
  (63, (56, [0; 1; 3; 2], false))].
Definition eom_tab := Eval vm_compute in symtab eom_gens 64.
