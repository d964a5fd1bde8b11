(** Generated by tools/gen_left3.py: reified right and left IPT programs (proof support). *)
From Coq Require Import Reals Arith List ZArith.
From Verif Require Import RSum IntegralsModel TensorObjs TensorAlg Sector3Model Left3Model.
Import ListNotations.
Local Open Scope nat_scope.
Definition r_iptr_X_aa_ovv (z i b e : nat) : ex := (EAdd (EAdd (EAdd (EAdd (ESub (EScale (-1) 2 (ESum (0 + z) 0 (ESum (1 + z) 0 (ESum (2 + z) 1 (EMul (ET 0 [(0 + z); (1 + z); e; (2 + z)]) (ET 1 [i; b; (2 + z); (0 + z); (1 + z)])))))) (ESum (0 + z) 0 (ESum (1 + z) 2 (ESum (2 + z) 3 (EMul (ET 2 [(0 + z); (1 + z); e; (2 + z)]) (ET 3 [i; b; (2 + z); (0 + z); (1 + z)])))))) (ESum (0 + z) 0 (ESum (1 + z) 1 (EMul (ET 4 [b; (0 + z); e; (1 + z)]) (ET 5 [i; (1 + z); (0 + z)]))))) (ESum (0 + z) 2 (ESum (1 + z) 3 (EMul (ET 6 [b; (0 + z); e; (1 + z)]) (ET 7 [i; (1 + z); (0 + z)]))))) (EScale (1) 2 (ESum (0 + z) 0 (ESum (1 + z) 0 (EMul (ET 8 [(0 + z); (1 + z); i; e]) (ET 5 [(0 + z); b; (1 + z)])))))) (ESum (0 + z) 0 (EMul (ET 9 [b; (0 + z); i; e]) (ET 10 [(0 + z)])))).
Definition r_iptr_X_ab_vvo (z e b j : nat) : ex := (ESub (EAdd (ESub (ESub (EScale (-1) 2 (ESum (0 + z) 0 (ESum (1 + z) 0 (ESum (2 + z) 1 (EMul (ET 0 [(0 + z); (1 + z); e; (2 + z)]) (ET 3 [(0 + z); (2 + z); b; (1 + z); j])))))) (ESum (0 + z) 0 (ESum (1 + z) 2 (ESum (2 + z) 3 (EMul (ET 2 [(0 + z); (1 + z); e; (2 + z)]) (ET 11 [(0 + z); b; (2 + z); j; (1 + z)])))))) (ESum (0 + z) 0 (ESum (1 + z) 3 (EMul (ET 12 [(0 + z); b; e; (1 + z)]) (ET 7 [(0 + z); (1 + z); j]))))) (ESum (0 + z) 0 (ESum (1 + z) 2 (EMul (ET 13 [(0 + z); (1 + z); e; j]) (ET 7 [(0 + z); b; (1 + z)]))))) (ESum (0 + z) 0 (EMul (ET 14 [(0 + z); b; e; j]) (ET 10 [(0 + z)])))).
Definition r_iptr_X_ab_ovv (z i b e : nat) : ex := (ESub (EAdd (EAdd (EAdd (ESub (EOpp (ESum (0 + z) 0 (ESum (1 + z) 2 (ESum (2 + z) 1 (EMul (ET 2 [(0 + z); (1 + z); (2 + z); e]) (ET 3 [i; (2 + z); b; (0 + z); (1 + z)])))))) (EScale (1) 2 (ESum (0 + z) 2 (ESum (1 + z) 2 (ESum (2 + z) 3 (EMul (ET 15 [(0 + z); (1 + z); e; (2 + z)]) (ET 11 [i; b; (2 + z); (0 + z); (1 + z)]))))))) (ESum (0 + z) 0 (ESum (1 + z) 1 (EMul (ET 12 [(0 + z); b; (1 + z); e]) (ET 5 [i; (1 + z); (0 + z)]))))) (ESum (0 + z) 2 (ESum (1 + z) 3 (EMul (ET 16 [b; (0 + z); e; (1 + z)]) (ET 7 [i; (1 + z); (0 + z)]))))) (ESum (0 + z) 0 (ESum (1 + z) 2 (EMul (ET 17 [(0 + z); (1 + z); i; e]) (ET 7 [(0 + z); b; (1 + z)]))))) (ESum (0 + z) 0 (EMul (ET 18 [(0 + z); b; i; e]) (ET 10 [(0 + z)])))).
Definition r_iptr_X_aa_ooo (z i m j : nat) : ex := (ESub (EAdd (EAdd (EAdd (EScale (1) 4 (ESum (0 + z) 0 (ESum (1 + z) 1 (ESum (2 + z) 1 (EMul (ET 0 [m; (0 + z); (1 + z); (2 + z)]) (ET 1 [i; (1 + z); (2 + z); j; (0 + z)])))))) (EScale (1) 2 (ESum (0 + z) 2 (ESum (1 + z) 1 (ESum (2 + z) 3 (EMul (ET 2 [m; (0 + z); (1 + z); (2 + z)]) (ET 3 [i; (1 + z); (2 + z); j; (0 + z)]))))))) (ESum (0 + z) 0 (ESum (1 + z) 1 (EMul (ET 8 [m; (0 + z); j; (1 + z)]) (ET 5 [i; (1 + z); (0 + z)]))))) (ESum (0 + z) 2 (ESum (1 + z) 3 (EMul (ET 17 [m; (0 + z); j; (1 + z)]) (ET 7 [i; (1 + z); (0 + z)]))))) (EScale (1) 2 (ESum (0 + z) 0 (EMul (ET 19 [m; (0 + z); j; i]) (ET 10 [(0 + z)]))))).
Definition r_iptr_X_aa_ooo_1 (z i m j : nat) : ex := (ESub (r_iptr_X_aa_ooo (0 + z) i m j) (r_iptr_X_aa_ooo (0 + z) j m i)).
Definition r_iptr_X_ab_ooo (z i m j : nat) : ex := (ESub (ESub (EAdd (EAdd (EAdd (ESum (0 + z) 0 (ESum (1 + z) 1 (ESum (2 + z) 3 (EMul (ET 2 [(0 + z); m; (1 + z); (2 + z)]) (ET 3 [i; (1 + z); (2 + z); (0 + z); j]))))) (EScale (1) 2 (ESum (0 + z) 2 (ESum (1 + z) 3 (ESum (2 + z) 3 (EMul (ET 15 [m; (0 + z); (1 + z); (2 + z)]) (ET 11 [i; (1 + z); (2 + z); j; (0 + z)]))))))) (ESum (0 + z) 0 (ESum (1 + z) 1 (EMul (ET 13 [(0 + z); m; (1 + z); j]) (ET 5 [i; (1 + z); (0 + z)]))))) (ESum (0 + z) 2 (ESum (1 + z) 3 (EMul (ET 20 [m; (0 + z); j; (1 + z)]) (ET 7 [i; (1 + z); (0 + z)]))))) (ESum (0 + z) 0 (ESum (1 + z) 3 (EMul (ET 17 [(0 + z); m; i; (1 + z)]) (ET 7 [(0 + z); (1 + z); j]))))) (ESum (0 + z) 0 (EMul (ET 21 [(0 + z); m; i; j]) (ET 10 [(0 + z)])))).
Definition r_iptr_X1A (z i : nat) : ex := (ESub (EC (0) 1) (ESum (0 + z) 0 (EMul (ET 22 [(0 + z); i]) (ET 10 [(0 + z)])))).
Definition r_iptr_X1A_1 (z i : nat) : ex := (ESub (r_iptr_X1A (0 + z) i) (EScale (1) 2 (ESum (0 + z) 0 (ESum (1 + z) 0 (ESum (2 + z) 1 (EMul (ET 8 [(0 + z); (1 + z); i; (2 + z)]) (ET 5 [(0 + z); (2 + z); (1 + z)]))))))).
Definition r_iptr_X1A_2 (z i : nat) : ex := (ESub (r_iptr_X1A_1 (0 + z) i) (ESum (0 + z) 0 (ESum (1 + z) 2 (ESum (2 + z) 3 (EMul (ET 17 [(0 + z); (1 + z); i; (2 + z)]) (ET 7 [(0 + z); (2 + z); (1 + z)])))))).
Definition r_iptr_X1A_3 (z i : nat) : ex := (EAdd (r_iptr_X1A_2 (0 + z) i) (ESum (0 + z) 0 (ESum (1 + z) 1 (EMul (ET 23 [(0 + z); (1 + z)]) (ET 5 [i; (1 + z); (0 + z)]))))).
Definition r_iptr_X1A_4 (z i : nat) : ex := (EAdd (r_iptr_X1A_3 (0 + z) i) (ESum (0 + z) 2 (ESum (1 + z) 3 (EMul (ET 24 [(0 + z); (1 + z)]) (ET 7 [i; (1 + z); (0 + z)]))))).
Definition r_iptr_X1A_5 (z i : nat) : ex := (EAdd (r_iptr_X1A_4 (0 + z) i) (EScale (1) 4 (ESum (0 + z) 0 (ESum (1 + z) 0 (ESum (2 + z) 1 (ESum (3 + z) 1 (EMul (ET 0 [(0 + z); (1 + z); (2 + z); (3 + z)]) (ET 1 [i; (2 + z); (3 + z); (0 + z); (1 + z)])))))))).
Definition r_iptr_X1A_6 (z i : nat) : ex := (EAdd (r_iptr_X1A_5 (0 + z) i) (ESum (0 + z) 0 (ESum (1 + z) 2 (ESum (2 + z) 1 (ESum (3 + z) 3 (EMul (ET 2 [(0 + z); (1 + z); (2 + z); (3 + z)]) (ET 3 [i; (2 + z); (3 + z); (0 + z); (1 + z)]))))))).
Definition r_iptr_X1A_7 (z i : nat) : ex := (EAdd (r_iptr_X1A_6 (0 + z) i) (EScale (1) 4 (ESum (0 + z) 2 (ESum (1 + z) 2 (ESum (2 + z) 3 (ESum (3 + z) 3 (EMul (ET 15 [(0 + z); (1 + z); (2 + z); (3 + z)]) (ET 11 [i; (2 + z); (3 + z); (0 + z); (1 + z)])))))))).
Definition r_iptr_X2A (z i b j : nat) : ex := (EScale (-1) 2 (ESum (0 + z) 0 (EMul (ET 25 [b; (0 + z); j; i]) (ET 10 [(0 + z)])))).
Definition r_iptr_X2A_1 (z i b j : nat) : ex := (EAdd (r_iptr_X2A (0 + z) i b j) (EScale (1) 2 (ESum (0 + z) 1 (EMul (ET 26 [b; (0 + z)]) (ET 5 [i; (0 + z); j]))))).
Definition r_iptr_X2A_2 (z i b j : nat) : ex := (EAdd (r_iptr_X2A_1 (0 + z) i b j) (EScale (1) 4 (ESum (0 + z) 0 (ESum (1 + z) 0 (EMul (ET 19 [(0 + z); (1 + z); i; j]) (ET 5 [(0 + z); b; (1 + z)])))))).
Definition r_iptr_I1 (z e : nat) : ex := (ESub (EScale (-1) 2 (ESum (0 + z) 0 (ESum (1 + z) 0 (ESum (2 + z) 1 (EMul (ET 0 [(0 + z); (1 + z); e; (2 + z)]) (ET 5 [(0 + z); (2 + z); (1 + z)])))))) (ESum (0 + z) 0 (ESum (1 + z) 2 (ESum (2 + z) 3 (EMul (ET 2 [(0 + z); (1 + z); e; (2 + z)]) (ET 7 [(0 + z); (2 + z); (1 + z)])))))).
Definition r_iptr_X2A_3 (z i b j : nat) : ex := (EAdd (r_iptr_X2A_2 (0 + z) i b j) (EScale (1) 2 (ESum (0 + z) 1 (EMul (r_iptr_I1 (1 + z) (0 + z)) (ET 27 [(0 + z); b; i; j]))))).
Definition r_iptr_X2A_4 (z i b j : nat) : ex := (ESub (r_iptr_X2A_3 (0 + z) i b j) (ESum (0 + z) 0 (EMul (ET 22 [(0 + z); i]) (ET 5 [(0 + z); b; j])))).
Definition r_iptr_X2A_5 (z i b j : nat) : ex := (EAdd (r_iptr_X2A_4 (0 + z) i b j) (ESum (0 + z) 0 (ESum (1 + z) 1 (EMul (ET 9 [b; (0 + z); j; (1 + z)]) (ET 5 [i; (1 + z); (0 + z)]))))).
Definition r_iptr_X2A_6 (z i b j : nat) : ex := (EAdd (r_iptr_X2A_5 (0 + z) i b j) (ESum (0 + z) 2 (ESum (1 + z) 3 (EMul (ET 28 [b; (0 + z); j; (1 + z)]) (ET 7 [i; (1 + z); (0 + z)]))))).
Definition r_iptr_X2A_7 (z i b j : nat) : ex := (EAdd (r_iptr_X2A_6 (0 + z) i b j) (EScale (1) 2 (ESum (0 + z) 0 (ESum (1 + z) 1 (EMul (ET 23 [(0 + z); (1 + z)]) (ET 1 [i; b; (1 + z); j; (0 + z)])))))).
Definition r_iptr_X2A_8 (z i b j : nat) : ex := (EAdd (r_iptr_X2A_7 (0 + z) i b j) (EScale (1) 2 (ESum (0 + z) 2 (ESum (1 + z) 3 (EMul (ET 24 [(0 + z); (1 + z)]) (ET 3 [i; b; (1 + z); j; (0 + z)])))))).
Definition r_iptr_X2A_9 (z i b j : nat) : ex := (EAdd (r_iptr_X2A_8 (0 + z) i b j) (EScale (1) 4 (ESum (0 + z) 0 (ESum (1 + z) 1 (ESum (2 + z) 1 (EMul (ET 4 [b; (0 + z); (1 + z); (2 + z)]) (ET 1 [i; (1 + z); (2 + z); j; (0 + z)]))))))).
Definition r_iptr_X2A_10 (z i b j : nat) : ex := (EAdd (r_iptr_X2A_9 (0 + z) i b j) (EScale (1) 2 (ESum (0 + z) 2 (ESum (1 + z) 1 (ESum (2 + z) 3 (EMul (ET 6 [b; (0 + z); (1 + z); (2 + z)]) (ET 3 [i; (1 + z); (2 + z); j; (0 + z)]))))))).
Definition r_iptr_X2A_11 (z i b j : nat) : ex := (ESub (r_iptr_X2A_10 (0 + z) i b j) (EScale (1) 2 (ESum (0 + z) 0 (ESum (1 + z) 0 (ESum (2 + z) 1 (EMul (ET 8 [(0 + z); (1 + z); j; (2 + z)]) (ET 1 [i; b; (2 + z); (0 + z); (1 + z)]))))))).
Definition r_iptr_X2A_12 (z i b j : nat) : ex := (ESub (r_iptr_X2A_11 (0 + z) i b j) (ESum (0 + z) 0 (ESum (1 + z) 2 (ESum (2 + z) 3 (EMul (ET 17 [(0 + z); (1 + z); j; (2 + z)]) (ET 3 [i; b; (2 + z); (0 + z); (1 + z)])))))).
Definition r_iptr_X2A_13 (z i b j : nat) : ex := (ESub (r_iptr_X2A_12 (0 + z) i b j) (r_iptr_X2A_12 (0 + z) j b i)).
Definition r_iptr_X2B (z i b j : nat) : ex := (EScale (-1) 1 (ESum (0 + z) 0 (EMul (ET 29 [(0 + z); b; i; j]) (ET 10 [(0 + z)])))).
Definition r_iptr_X2B_1 (z i b j : nat) : ex := (ESub (r_iptr_X2B (0 + z) i b j) (ESum (0 + z) 0 (EMul (ET 22 [(0 + z); i]) (ET 7 [(0 + z); b; j])))).
Definition r_iptr_X2B_2 (z i b j : nat) : ex := (ESub (r_iptr_X2B_1 (0 + z) i b j) (ESum (0 + z) 2 (EMul (ET 30 [(0 + z); j]) (ET 7 [i; b; (0 + z)])))).
Definition r_iptr_X2B_3 (z i b j : nat) : ex := (EAdd (r_iptr_X2B_2 (0 + z) i b j) (ESum (0 + z) 3 (EMul (ET 31 [b; (0 + z)]) (ET 7 [i; (0 + z); j])))).
Definition r_iptr_X2B_4 (z i b j : nat) : ex := (EAdd (r_iptr_X2B_3 (0 + z) i b j) (ESum (0 + z) 0 (ESum (1 + z) 2 (EMul (ET 21 [(0 + z); (1 + z); i; j]) (ET 7 [(0 + z); b; (1 + z)]))))).
Definition r_iptr_X2B_5 (z i b j : nat) : ex := (EAdd (r_iptr_X2B_4 (0 + z) i b j) (ESum (0 + z) 0 (ESum (1 + z) 1 (EMul (ET 14 [(0 + z); b; (1 + z); j]) (ET 5 [i; (1 + z); (0 + z)]))))).
Definition r_iptr_X2B_6 (z i b j : nat) : ex := (EAdd (r_iptr_X2B_5 (0 + z) i b j) (ESum (0 + z) 2 (ESum (1 + z) 3 (EMul (ET 32 [b; (0 + z); j; (1 + z)]) (ET 7 [i; (1 + z); (0 + z)]))))).
Definition r_iptr_X2B_7 (z i b j : nat) : ex := (ESub (r_iptr_X2B_6 (0 + z) i b j) (ESum (0 + z) 0 (ESum (1 + z) 3 (EMul (ET 18 [(0 + z); b; i; (1 + z)]) (ET 7 [(0 + z); (1 + z); j]))))).
Definition r_iptr_I1_1 (z e : nat) : ex := (ESub (EScale (-1) 2 (ESum (0 + z) 0 (ESum (1 + z) 0 (ESum (2 + z) 1 (EMul (ET 0 [(0 + z); (1 + z); e; (2 + z)]) (ET 5 [(0 + z); (2 + z); (1 + z)])))))) (ESum (0 + z) 0 (ESum (1 + z) 2 (ESum (2 + z) 3 (EMul (ET 2 [(0 + z); (1 + z); e; (2 + z)]) (ET 7 [(0 + z); (2 + z); (1 + z)])))))).
Definition r_iptr_X2B_8 (z i b j : nat) : ex := (EAdd (r_iptr_X2B_7 (0 + z) i b j) (ESum (0 + z) 1 (EMul (r_iptr_I1_1 (1 + z) (0 + z)) (ET 33 [(0 + z); b; i; j])))).
Definition r_iptr_X2B_9 (z i b j : nat) : ex := (EAdd (r_iptr_X2B_8 (0 + z) i b j) (ESum (0 + z) 0 (ESum (1 + z) 1 (EMul (ET 23 [(0 + z); (1 + z)]) (ET 3 [i; (1 + z); b; (0 + z); j]))))).
Definition r_iptr_X2B_10 (z i b j : nat) : ex := (EAdd (r_iptr_X2B_9 (0 + z) i b j) (ESum (0 + z) 2 (ESum (1 + z) 3 (EMul (ET 24 [(0 + z); (1 + z)]) (ET 11 [i; b; (1 + z); j; (0 + z)]))))).
Definition r_iptr_X2B_11 (z i b j : nat) : ex := (EAdd (r_iptr_X2B_10 (0 + z) i b j) (ESum (0 + z) 0 (ESum (1 + z) 1 (ESum (2 + z) 3 (EMul (ET 12 [(0 + z); b; (1 + z); (2 + z)]) (ET 3 [i; (1 + z); (2 + z); (0 + z); j])))))).
Definition r_iptr_X2B_12 (z i b j : nat) : ex := (EAdd (r_iptr_X2B_11 (0 + z) i b j) (EScale (1) 2 (ESum (0 + z) 2 (ESum (1 + z) 3 (ESum (2 + z) 3 (EMul (ET 16 [b; (0 + z); (1 + z); (2 + z)]) (ET 11 [i; (1 + z); (2 + z); j; (0 + z)]))))))).
Definition r_iptr_X2B_13 (z i b j : nat) : ex := (ESub (r_iptr_X2B_12 (0 + z) i b j) (EScale (1) 2 (ESum (0 + z) 0 (ESum (1 + z) 0 (ESum (2 + z) 1 (EMul (ET 8 [(0 + z); (1 + z); i; (2 + z)]) (ET 3 [(0 + z); (2 + z); b; (1 + z); j]))))))).
Definition r_iptr_X2B_14 (z i b j : nat) : ex := (ESub (r_iptr_X2B_13 (0 + z) i b j) (ESum (0 + z) 0 (ESum (1 + z) 2 (ESum (2 + z) 3 (EMul (ET 17 [(0 + z); (1 + z); i; (2 + z)]) (ET 11 [(0 + z); (2 + z); b; (1 + z); j])))))).
Definition r_iptr_X2B_15 (z i b j : nat) : ex := (ESub (r_iptr_X2B_14 (0 + z) i b j) (ESum (0 + z) 0 (ESum (1 + z) 2 (ESum (2 + z) 1 (EMul (ET 13 [(0 + z); (1 + z); (2 + z); j]) (ET 3 [i; (2 + z); b; (0 + z); (1 + z)])))))).
Definition r_iptr_X2B_16 (z i b j : nat) : ex := (ESub (r_iptr_X2B_15 (0 + z) i b j) (EScale (1) 2 (ESum (0 + z) 2 (ESum (1 + z) 2 (ESum (2 + z) 3 (EMul (ET 20 [(0 + z); (1 + z); j; (2 + z)]) (ET 11 [i; (2 + z); b; (1 + z); (0 + z)]))))))).
Definition r_iptr_X3A (z i b c j k : nat) : ex := (EScale (-1) 4 (ESum (0 + z) 0 (EMul (ET 22 [(0 + z); j]) (ET 1 [i; b; c; (0 + z); k])))).
Definition r_iptr_X3A_1 (z i b c j k : nat) : ex := (EAdd (r_iptr_X3A (0 + z) i b c j k) (EScale (1) 6 (ESum (0 + z) 1 (EMul (ET 26 [b; (0 + z)]) (ET 1 [i; (0 + z); c; j; k]))))).
Definition r_iptr_X3A_2 (z i b c j k : nat) : ex := (EAdd (r_iptr_X3A_1 (0 + z) i b c j k) (EScale (1) 8 (ESum (0 + z) 0 (ESum (1 + z) 0 (EMul (ET 19 [(0 + z); (1 + z); j; k]) (ET 1 [i; b; c; (0 + z); (1 + z)])))))).
Definition r_iptr_X3A_3 (z i b c j k : nat) : ex := (EAdd (r_iptr_X3A_2 (0 + z) i b c j k) (EScale (1) 24 (ESum (0 + z) 1 (ESum (1 + z) 1 (EMul (ET 34 [b; c; (0 + z); (1 + z)]) (ET 1 [i; (0 + z); (1 + z); j; k])))))).
Definition r_iptr_X3A_4 (z i b c j k : nat) : ex := (EAdd (r_iptr_X3A_3 (0 + z) i b c j k) (EScale (1) 2 (ESum (0 + z) 0 (ESum (1 + z) 1 (EMul (ET 9 [b; (0 + z); j; (1 + z)]) (ET 1 [i; (1 + z); c; (0 + z); k])))))).
Definition r_iptr_X3A_5 (z i b c j k : nat) : ex := (EAdd (r_iptr_X3A_4 (0 + z) i b c j k) (EScale (1) 2 (ESum (0 + z) 2 (ESum (1 + z) 3 (EMul (ET 28 [b; (0 + z); j; (1 + z)]) (ET 3 [i; c; (1 + z); k; (0 + z)])))))).
Definition r_iptr_X3A_6 (z i b c j k : nat) : ex := (ESub (r_iptr_X3A_5 (0 + z) i b c j k) (EScale (1) 2 (ESum (0 + z) 0 (EMul (ET 25 [c; (0 + z); k; j]) (ET 5 [i; b; (0 + z)]))))).
Definition r_iptr_X3A_7 (z i b c j k : nat) : ex := (EAdd (r_iptr_X3A_6 (0 + z) i b c j k) (EScale (1) 4 (ESum (0 + z) 1 (EMul (ET 35 [c; b; k; (0 + z)]) (ET 5 [i; (0 + z); j]))))).
Definition r_iptr_X3A_8 (z i b c j k : nat) : ex := (ESub (r_iptr_X3A_7 (0 + z) i b c j k) (EScale (1) 4 (ESum (0 + z) 0 (EMul (r_iptr_X_aa_ooo_1 (1 + z) i (0 + z) j) (ET 27 [b; c; (0 + z); k]))))).
Definition r_iptr_X3A_9 (z i b c j k : nat) : ex := (EAdd (r_iptr_X3A_8 (0 + z) i b c j k) (EScale (1) 2 (ESum (0 + z) 1 (EMul (r_iptr_X_aa_ovv (1 + z) i b (0 + z)) (ET 27 [(0 + z); c; j; k]))))).
Definition r_iptr_X3A_10 (z i b c j k : nat) : ex := (ESub (r_iptr_X3A_9 (0 + z) i b c j k) (EAdd (r_iptr_X3A_9 (0 + z) j b c i k) (r_iptr_X3A_9 (0 + z) k b c j i))).
Definition r_iptr_X3A_11 (z i b c j k : nat) : ex := (ESub (r_iptr_X3A_10 (0 + z) i b c j k) (r_iptr_X3A_10 (0 + z) i b c k j)).
Definition r_iptr_X3A_12 (z i b c j k : nat) : ex := (ESub (r_iptr_X3A_11 (0 + z) i b c j k) (r_iptr_X3A_11 (0 + z) i c b j k)).
Definition r_iptr_X3B (z i b c j k : nat) : ex := (EOpp (ESum (0 + z) 0 (EMul (ET 22 [(0 + z); j]) (ET 3 [i; b; c; (0 + z); k])))).
Definition r_iptr_X3B_1 (z i b c j k : nat) : ex := (ESub (r_iptr_X3B (0 + z) i b c j k) (EScale (1) 2 (ESum (0 + z) 2 (EMul (ET 30 [(0 + z); k]) (ET 3 [i; b; c; j; (0 + z)]))))).
Definition r_iptr_X3B_2 (z i b c j k : nat) : ex := (EAdd (r_iptr_X3B_1 (0 + z) i b c j k) (EScale (1) 2 (ESum (0 + z) 1 (EMul (ET 26 [b; (0 + z)]) (ET 3 [i; (0 + z); c; j; k]))))).
Definition r_iptr_X3B_3 (z i b c j k : nat) : ex := (EAdd (r_iptr_X3B_2 (0 + z) i b c j k) (EScale (1) 2 (ESum (0 + z) 3 (EMul (ET 31 [c; (0 + z)]) (ET 3 [i; b; (0 + z); j; k]))))).
Definition r_iptr_X3B_4 (z i b c j k : nat) : ex := (EAdd (r_iptr_X3B_3 (0 + z) i b c j k) (ESum (0 + z) 0 (ESum (1 + z) 2 (EMul (ET 21 [(0 + z); (1 + z); j; k]) (ET 3 [i; b; c; (0 + z); (1 + z)]))))).
Definition r_iptr_X3B_5 (z i b c j k : nat) : ex := (EAdd (r_iptr_X3B_4 (0 + z) i b c j k) (EScale (1) 4 (ESum (0 + z) 0 (ESum (1 + z) 0 (EMul (ET 19 [(0 + z); (1 + z); i; j]) (ET 3 [(0 + z); b; c; (1 + z); k])))))).
Definition r_iptr_X3B_6 (z i b c j k : nat) : ex := (EAdd (r_iptr_X3B_5 (0 + z) i b c j k) (EScale (1) 2 (ESum (0 + z) 1 (ESum (1 + z) 3 (EMul (ET 36 [b; c; (0 + z); (1 + z)]) (ET 3 [i; (0 + z); (1 + z); j; k])))))).
Definition r_iptr_X3B_7 (z i b c j k : nat) : ex := (EAdd (r_iptr_X3B_6 (0 + z) i b c j k) (EScale (1) 2 (ESum (0 + z) 0 (ESum (1 + z) 1 (EMul (ET 14 [(0 + z); c; (1 + z); k]) (ET 1 [i; b; (1 + z); j; (0 + z)])))))).
Definition r_iptr_X3B_8 (z i b c j k : nat) : ex := (EAdd (r_iptr_X3B_7 (0 + z) i b c j k) (EScale (1) 2 (ESum (0 + z) 2 (ESum (1 + z) 3 (EMul (ET 32 [c; (0 + z); k; (1 + z)]) (ET 3 [i; b; (1 + z); j; (0 + z)])))))).
Definition r_iptr_X3B_9 (z i b c j k : nat) : ex := (EAdd (r_iptr_X3B_8 (0 + z) i b c j k) (ESum (0 + z) 0 (ESum (1 + z) 1 (EMul (ET 9 [b; (0 + z); j; (1 + z)]) (ET 3 [i; (1 + z); c; (0 + z); k]))))).
Definition r_iptr_X3B_10 (z i b c j k : nat) : ex := (EAdd (r_iptr_X3B_9 (0 + z) i b c j k) (ESum (0 + z) 2 (ESum (1 + z) 3 (EMul (ET 28 [b; (0 + z); j; (1 + z)]) (ET 11 [i; (1 + z); c; (0 + z); k]))))).
Definition r_iptr_X3B_11 (z i b c j k : nat) : ex := (ESub (r_iptr_X3B_10 (0 + z) i b c j k) (ESum (0 + z) 0 (ESum (1 + z) 3 (EMul (ET 18 [(0 + z); c; j; (1 + z)]) (ET 3 [i; b; (1 + z); (0 + z); k]))))).
Definition r_iptr_X3B_12 (z i b c j k : nat) : ex := (ESub (r_iptr_X3B_11 (0 + z) i b c j k) (EScale (1) 2 (ESum (0 + z) 2 (ESum (1 + z) 1 (EMul (ET 37 [b; (0 + z); (1 + z); k]) (ET 3 [i; (1 + z); c; j; (0 + z)])))))).
Definition r_iptr_X3B_13 (z i b c j k : nat) : ex := (ESub (r_iptr_X3B_12 (0 + z) i b c j k) (ESum (0 + z) 0 (EMul (ET 29 [(0 + z); c; j; k]) (ET 5 [i; b; (0 + z)])))).
Definition r_iptr_X3B_14 (z i b c j k : nat) : ex := (ESub (r_iptr_X3B_13 (0 + z) i b c j k) (EScale (1) 2 (ESum (0 + z) 0 (EMul (ET 25 [b; (0 + z); j; i]) (ET 7 [(0 + z); c; k]))))).
Definition r_iptr_X3B_15 (z i b c j k : nat) : ex := (ESub (r_iptr_X3B_14 (0 + z) i b c j k) (ESum (0 + z) 2 (EMul (ET 38 [b; (0 + z); j; k]) (ET 7 [i; c; (0 + z)])))).
Definition r_iptr_X3B_16 (z i b c j k : nat) : ex := (EAdd (r_iptr_X3B_15 (0 + z) i b c j k) (ESum (0 + z) 3 (EMul (ET 39 [b; c; j; (0 + z)]) (ET 7 [i; (0 + z); k])))).
Definition r_iptr_X3B_17 (z i b c j k : nat) : ex := (EAdd (r_iptr_X3B_16 (0 + z) i b c j k) (EScale (1) 2 (ESum (0 + z) 1 (EMul (ET 40 [b; c; (0 + z); k]) (ET 5 [i; (0 + z); j]))))).
Definition r_iptr_X3B_18 (z i b c j k : nat) : ex := (EAdd (r_iptr_X3B_17 (0 + z) i b c j k) (EScale (1) 2 (ESum (0 + z) 1 (EMul (r_iptr_X_ab_vvo (1 + z) (0 + z) c k) (ET 27 [(0 + z); b; i; j]))))).
Definition r_iptr_X3B_19 (z i b c j k : nat) : ex := (ESub (r_iptr_X3B_18 (0 + z) i b c j k) (EScale (1) 2 (ESum (0 + z) 0 (EMul (r_iptr_X_aa_ooo_1 (1 + z) i (0 + z) j) (ET 33 [b; c; (0 + z); k]))))).
Definition r_iptr_X3B_20 (z i b c j k : nat) : ex := (ESub (r_iptr_X3B_19 (0 + z) i b c j k) (ESum (0 + z) 2 (EMul (r_iptr_X_ab_ooo (1 + z) i (0 + z) k) (ET 33 [b; c; j; (0 + z)])))).
Definition r_iptr_X3B_21 (z i b c j k : nat) : ex := (EAdd (r_iptr_X3B_20 (0 + z) i b c j k) (ESum (0 + z) 3 (EMul (r_iptr_X_ab_ovv (1 + z) i c (0 + z)) (ET 33 [b; (0 + z); j; k])))).
Definition r_iptr_X3B_22 (z i b c j k : nat) : ex := (EAdd (r_iptr_X3B_21 (0 + z) i b c j k) (ESum (0 + z) 1 (EMul (r_iptr_X_aa_ovv (1 + z) i b (0 + z)) (ET 33 [(0 + z); c; j; k])))).
Definition r_iptr_X3B_23 (z i b c j k : nat) : ex := (ESub (r_iptr_X3B_22 (0 + z) i b c j k) (r_iptr_X3B_22 (0 + z) j b c i k)).
Definition r_iptr_X3C (z i b c j k : nat) : ex := (EScale (-1) 2 (ESum (0 + z) 2 (EMul (ET 30 [(0 + z); j]) (ET 11 [i; b; c; (0 + z); k])))).
Definition r_iptr_X3C_1 (z i b c j k : nat) : ex := (ESub (r_iptr_X3C (0 + z) i b c j k) (EScale (1) 4 (ESum (0 + z) 0 (EMul (ET 22 [(0 + z); i]) (ET 11 [(0 + z); b; c; j; k]))))).
Definition r_iptr_X3C_2 (z i b c j k : nat) : ex := (EAdd (r_iptr_X3C_1 (0 + z) i b c j k) (EScale (1) 2 (ESum (0 + z) 3 (EMul (ET 31 [b; (0 + z)]) (ET 11 [i; (0 + z); c; j; k]))))).
Definition r_iptr_X3C_3 (z i b c j k : nat) : ex := (EAdd (r_iptr_X3C_2 (0 + z) i b c j k) (EScale (1) 8 (ESum (0 + z) 2 (ESum (1 + z) 2 (EMul (ET 41 [(0 + z); (1 + z); j; k]) (ET 11 [i; b; c; (0 + z); (1 + z)])))))).
Definition r_iptr_X3C_4 (z i b c j k : nat) : ex := (EAdd (r_iptr_X3C_3 (0 + z) i b c j k) (EScale (1) 2 (ESum (0 + z) 0 (ESum (1 + z) 2 (EMul (ET 21 [(0 + z); (1 + z); i; j]) (ET 11 [(0 + z); b; c; (1 + z); k])))))).
Definition r_iptr_X3C_5 (z i b c j k : nat) : ex := (EAdd (r_iptr_X3C_4 (0 + z) i b c j k) (EScale (1) 8 (ESum (0 + z) 3 (ESum (1 + z) 3 (EMul (ET 42 [b; c; (0 + z); (1 + z)]) (ET 11 [i; (0 + z); (1 + z); j; k])))))).
Definition r_iptr_X3C_6 (z i b c j k : nat) : ex := (EAdd (r_iptr_X3C_5 (0 + z) i b c j k) (ESum (0 + z) 0 (ESum (1 + z) 1 (EMul (ET 14 [(0 + z); b; (1 + z); j]) (ET 3 [i; (1 + z); c; (0 + z); k]))))).
Definition r_iptr_X3C_7 (z i b c j k : nat) : ex := (EAdd (r_iptr_X3C_6 (0 + z) i b c j k) (ESum (0 + z) 2 (ESum (1 + z) 3 (EMul (ET 32 [b; (0 + z); j; (1 + z)]) (ET 11 [i; (1 + z); c; (0 + z); k]))))).
Definition r_iptr_X3C_8 (z i b c j k : nat) : ex := (ESub (r_iptr_X3C_7 (0 + z) i b c j k) (EScale (1) 2 (ESum (0 + z) 0 (ESum (1 + z) 3 (EMul (ET 18 [(0 + z); b; i; (1 + z)]) (ET 11 [(0 + z); (1 + z); c; j; k])))))).
Definition r_iptr_X3C_9 (z i b c j k : nat) : ex := (ESub (r_iptr_X3C_8 (0 + z) i b c j k) (ESum (0 + z) 0 (EMul (ET 29 [(0 + z); c; i; k]) (ET 7 [(0 + z); b; j])))).
Definition r_iptr_X3C_10 (z i b c j k : nat) : ex := (ESub (r_iptr_X3C_9 (0 + z) i b c j k) (EScale (1) 2 (ESum (0 + z) 2 (EMul (ET 43 [c; (0 + z); k; j]) (ET 7 [i; b; (0 + z)]))))).
Definition r_iptr_X3C_11 (z i b c j k : nat) : ex := (EAdd (r_iptr_X3C_10 (0 + z) i b c j k) (EScale (1) 2 (ESum (0 + z) 3 (EMul (ET 44 [c; b; k; (0 + z)]) (ET 7 [i; (0 + z); j]))))).
Definition r_iptr_X3C_12 (z i b c j k : nat) : ex := (ESub (r_iptr_X3C_11 (0 + z) i b c j k) (EScale (1) 2 (ESum (0 + z) 2 (EMul (r_iptr_X_ab_ooo (1 + z) i (0 + z) j) (ET 45 [b; c; (0 + z); k]))))).
Definition r_iptr_X3C_13 (z i b c j k : nat) : ex := (EAdd (r_iptr_X3C_12 (0 + z) i b c j k) (EScale (1) 2 (ESum (0 + z) 3 (EMul (r_iptr_X_ab_ovv (1 + z) i b (0 + z)) (ET 45 [(0 + z); c; j; k]))))).
Definition r_iptr_X3C_14 (z i b c j k : nat) : ex := (EAdd (r_iptr_X3C_13 (0 + z) i b c j k) (ESum (0 + z) 1 (EMul (r_iptr_X_ab_vvo (1 + z) (0 + z) b j) (ET 33 [(0 + z); c; i; k])))).
Definition r_iptr_X3C_15 (z i b c j k : nat) : ex := (ESub (r_iptr_X3C_14 (0 + z) i b c j k) (r_iptr_X3C_14 (0 + z) i c b j k)).
Definition r_iptr_X3C_16 (z i b c j k : nat) : ex := (ESub (r_iptr_X3C_15 (0 + z) i b c j k) (r_iptr_X3C_15 (0 + z) i b c k j)).
Definition r_iptl_X_a_v (z e : nat) : ex := (ESub (EScale (-1) 2 (ESum (0 + z) 0 (ESum (1 + z) 1 (ESum (2 + z) 0 (EMul (ET 46 [(0 + z); (1 + z); (2 + z)]) (ET 27 [e; (1 + z); (0 + z); (2 + z)])))))) (ESum (0 + z) 0 (ESum (1 + z) 3 (ESum (2 + z) 2 (EMul (ET 47 [(0 + z); (1 + z); (2 + z)]) (ET 33 [e; (1 + z); (0 + z); (2 + z)])))))).
Definition r_iptl_X_aa_vvo (z a b j : nat) : ex := (ESub (EScale (-1) 2 (ESum (0 + z) 0 (ESum (1 + z) 1 (ESum (2 + z) 0 (EMul (ET 48 [(0 + z); b; (1 + z); j; (2 + z)]) (ET 27 [a; (1 + z); (0 + z); (2 + z)])))))) (ESum (0 + z) 0 (ESum (1 + z) 3 (ESum (2 + z) 2 (EMul (ET 49 [(0 + z); b; (1 + z); j; (2 + z)]) (ET 33 [a; (1 + z); (0 + z); (2 + z)])))))).
Definition r_iptl_X_aa_ooo (z i j k : nat) : ex := (EAdd (EScale (1) 2 (ESum (0 + z) 1 (ESum (1 + z) 1 (ESum (2 + z) 0 (EMul (ET 48 [i; (0 + z); (1 + z); j; (2 + z)]) (ET 27 [(0 + z); (1 + z); k; (2 + z)])))))) (ESum (0 + z) 1 (ESum (1 + z) 3 (ESum (2 + z) 2 (EMul (ET 49 [i; (0 + z); (1 + z); j; (2 + z)]) (ET 33 [(0 + z); (1 + z); k; (2 + z)])))))).
Definition r_iptl_X_ab_ooo (z i j k : nat) : ex := (EAdd (ESum (0 + z) 1 (ESum (1 + z) 3 (ESum (2 + z) 0 (EMul (ET 49 [i; (0 + z); (1 + z); (2 + z); j]) (ET 33 [(0 + z); (1 + z); (2 + z); k]))))) (EScale (1) 2 (ESum (0 + z) 3 (ESum (1 + z) 3 (ESum (2 + z) 2 (EMul (ET 50 [i; (0 + z); (1 + z); j; (2 + z)]) (ET 45 [(0 + z); (1 + z); k; (2 + z)]))))))).
Definition r_iptl_X_ab_vvo (z a b j : nat) : ex := (ESub (EScale (-1) 2 (ESum (0 + z) 0 (ESum (1 + z) 1 (ESum (2 + z) 0 (EMul (ET 49 [(0 + z); (1 + z); b; (2 + z); j]) (ET 27 [a; (1 + z); (0 + z); (2 + z)])))))) (ESum (0 + z) 0 (ESum (1 + z) 3 (ESum (2 + z) 2 (EMul (ET 50 [(0 + z); (1 + z); b; (2 + z); j]) (ET 33 [a; (1 + z); (0 + z); (2 + z)])))))).
Definition r_iptl_X_ab_ovv (z i c b : nat) : ex := (ESub (EOpp (ESum (0 + z) 1 (ESum (1 + z) 0 (ESum (2 + z) 2 (EMul (ET 49 [i; (0 + z); b; (1 + z); (2 + z)]) (ET 33 [(0 + z); c; (1 + z); (2 + z)])))))) (EScale (1) 2 (ESum (0 + z) 3 (ESum (1 + z) 2 (ESum (2 + z) 2 (EMul (ET 50 [i; (0 + z); b; (1 + z); (2 + z)]) (ET 45 [(0 + z); c; (1 + z); (2 + z)]))))))).
Definition r_iptl_LH_a (z i : nat) : ex := (EScale (-1) 1 (ESum (0 + z) 0 (EMul (ET 51 [(0 + z)]) (ET 22 [i; (0 + z)])))).
Definition r_iptl_LH_a_1 (z i : nat) : ex := (ESub (r_iptl_LH_a (0 + z) i) (EScale (1) 2 (ESum (0 + z) 0 (ESum (1 + z) 1 (ESum (2 + z) 0 (EMul (ET 46 [(0 + z); (1 + z); (2 + z)]) (ET 25 [(1 + z); i; (2 + z); (0 + z)]))))))).
Definition r_iptl_LH_a_2 (z i : nat) : ex := (ESub (r_iptl_LH_a_1 (0 + z) i) (ESum (0 + z) 0 (ESum (1 + z) 3 (ESum (2 + z) 2 (EMul (ET 47 [(0 + z); (1 + z); (2 + z)]) (ET 29 [i; (1 + z); (0 + z); (2 + z)])))))).
Definition r_iptl_LH_a_3 (z i : nat) : ex := (EAdd (r_iptl_LH_a_2 (0 + z) i) (ESum (0 + z) 3 (ESum (1 + z) 1 (ESum (2 + z) 2 (EMul (ET 14 [i; (0 + z); (1 + z); (2 + z)]) (r_iptl_X_ab_vvo (3 + z) (1 + z) (0 + z) (2 + z))))))).
Definition r_iptl_LH_a_4 (z i : nat) : ex := (EAdd (r_iptl_LH_a_3 (0 + z) i) (ESum (0 + z) 1 (ESum (1 + z) 0 (ESum (2 + z) 1 (EMul (ET 9 [(0 + z); i; (1 + z); (2 + z)]) (r_iptl_X_aa_vvo (3 + z) (2 + z) (0 + z) (1 + z))))))).
Definition r_iptl_LH_a_5 (z i : nat) : ex := (EAdd (r_iptl_LH_a_4 (0 + z) i) (EScale (1) 2 (ESum (0 + z) 0 (ESum (1 + z) 0 (ESum (2 + z) 0 (EMul (r_iptl_X_aa_ooo (3 + z) (0 + z) (1 + z) (2 + z)) (ET 19 [i; (2 + z); (0 + z); (1 + z)]))))))).
Definition r_iptl_LH_a_6 (z i : nat) : ex := (EAdd (r_iptl_LH_a_5 (0 + z) i) (ESum (0 + z) 0 (ESum (1 + z) 3 (ESum (2 + z) 3 (EMul (r_iptl_X_ab_ovv (3 + z) (0 + z) (1 + z) (2 + z)) (ET 18 [i; (2 + z); (0 + z); (1 + z)])))))).
Definition r_iptl_LH_a_7 (z i : nat) : ex := (EAdd (r_iptl_LH_a_6 (0 + z) i) (ESum (0 + z) 0 (ESum (1 + z) 2 (ESum (2 + z) 2 (EMul (r_iptl_X_ab_ooo (3 + z) (0 + z) (1 + z) (2 + z)) (ET 21 [i; (2 + z); (0 + z); (1 + z)])))))).
Definition r_iptl_LH_aa (z i b j : nat) : ex := (EMul (ET 51 [i]) (ET 23 [j; b])).
Definition r_iptl_LH_aa_1 (z i b j : nat) : ex := (ESub (r_iptl_LH_aa (0 + z) i b j) (EScale (1) 2 (ESum (0 + z) 0 (EMul (ET 51 [(0 + z)]) (ET 8 [i; j; (0 + z); b]))))).
Definition r_iptl_LH_aa_2 (z i b j : nat) : ex := (EAdd (r_iptl_LH_aa_1 (0 + z) i b j) (EScale (1) 2 (ESum (0 + z) 1 (EMul (ET 46 [i; (0 + z); j]) (ET 26 [(0 + z); b]))))).
Definition r_iptl_LH_aa_3 (z i b j : nat) : ex := (ESub (r_iptl_LH_aa_2 (0 + z) i b j) (ESum (0 + z) 0 (EMul (ET 46 [i; b; (0 + z)]) (ET 22 [j; (0 + z)])))).
Definition r_iptl_LH_aa_4 (z i b j : nat) : ex := (EAdd (r_iptl_LH_aa_3 (0 + z) i b j) (EScale (1) 4 (ESum (0 + z) 0 (ESum (1 + z) 0 (EMul (ET 46 [(0 + z); b; (1 + z)]) (ET 19 [i; j; (0 + z); (1 + z)])))))).
Definition r_iptl_LH_aa_5 (z i b j : nat) : ex := (EAdd (r_iptl_LH_aa_4 (0 + z) i b j) (ESum (0 + z) 1 (ESum (1 + z) 0 (EMul (ET 46 [i; (0 + z); (1 + z)]) (ET 9 [(0 + z); j; (1 + z); b]))))).
Definition r_iptl_LH_aa_6 (z i b j : nat) : ex := (EAdd (r_iptl_LH_aa_5 (0 + z) i b j) (ESum (0 + z) 3 (ESum (1 + z) 2 (EMul (ET 47 [i; (0 + z); (1 + z)]) (ET 14 [j; (0 + z); b; (1 + z)]))))).
Definition r_iptl_LH_aa_7 (z i b j : nat) : ex := (EAdd (r_iptl_LH_aa_6 (0 + z) i b j) (EScale (1) 2 (ESum (0 + z) 1 (EMul (r_iptl_X_a_v (1 + z) (0 + z)) (ET 0 [i; j; (0 + z); b]))))).
Definition r_iptl_LH_aa_8 (z i b j : nat) : ex := (ESub (r_iptl_LH_aa_7 (0 + z) i b j) (EScale (1) 2 (ESum (0 + z) 1 (ESum (1 + z) 0 (ESum (2 + z) 0 (EMul (ET 25 [(0 + z); i; (1 + z); (2 + z)]) (ET 48 [(2 + z); b; (0 + z); j; (1 + z)]))))))).
Definition r_iptl_LH_aa_9 (z i b j : nat) : ex := (ESub (r_iptl_LH_aa_8 (0 + z) i b j) (ESum (0 + z) 3 (ESum (1 + z) 0 (ESum (2 + z) 2 (EMul (ET 29 [i; (0 + z); (1 + z); (2 + z)]) (ET 49 [(1 + z); b; (0 + z); j; (2 + z)])))))).
Definition r_iptl_LH_aa_10 (z i b j : nat) : ex := (EAdd (r_iptl_LH_aa_9 (0 + z) i b j) (EScale (1) 4 (ESum (0 + z) 1 (ESum (1 + z) 1 (ESum (2 + z) 0 (EMul (ET 35 [(0 + z); (1 + z); (2 + z); b]) (ET 48 [i; (1 + z); (0 + z); j; (2 + z)]))))))).
Definition r_iptl_LH_aa_11 (z i b j : nat) : ex := (EAdd (r_iptl_LH_aa_10 (0 + z) i b j) (EScale (1) 2 (ESum (0 + z) 1 (ESum (1 + z) 3 (ESum (2 + z) 2 (EMul (ET 40 [(0 + z); (1 + z); b; (2 + z)]) (ET 49 [i; (0 + z); (1 + z); j; (2 + z)]))))))).
Definition r_iptl_LH_aa_12 (z i b j : nat) : ex := (EAdd (r_iptl_LH_aa_11 (0 + z) i b j) (ESum (0 + z) 1 (ESum (1 + z) 1 (EMul (r_iptl_X_aa_vvo (2 + z) (0 + z) (1 + z) j) (ET 4 [(1 + z); i; b; (0 + z)]))))).
Definition r_iptl_LH_aa_13 (z i b j : nat) : ex := (ESub (r_iptl_LH_aa_12 (0 + z) i b j) (EScale (1) 2 (ESum (0 + z) 1 (ESum (1 + z) 0 (EMul (r_iptl_X_aa_vvo (2 + z) (0 + z) b (1 + z)) (ET 8 [j; i; (1 + z); (0 + z)])))))).
Definition r_iptl_LH_aa_14 (z i b j : nat) : ex := (ESub (r_iptl_LH_aa_13 (0 + z) i b j) (ESum (0 + z) 0 (ESum (1 + z) 0 (EMul (r_iptl_X_aa_ooo (2 + z) i (0 + z) (1 + z)) (ET 8 [(1 + z); j; (0 + z); b]))))).
Definition r_iptl_LH_aa_15 (z i b j : nat) : ex := (ESub (r_iptl_LH_aa_14 (0 + z) i b j) (ESum (0 + z) 2 (ESum (1 + z) 2 (EMul (r_iptl_X_ab_ooo (2 + z) i (0 + z) (1 + z)) (ET 13 [j; (1 + z); b; (0 + z)]))))).
Definition r_iptl_LH_aa_16 (z i b j : nat) : ex := (ESub (r_iptl_LH_aa_15 (0 + z) i b j) (ESum (0 + z) 3 (ESum (1 + z) 3 (EMul (r_iptl_X_ab_ovv (2 + z) i (0 + z) (1 + z)) (ET 12 [j; (1 + z); b; (0 + z)]))))).
Definition r_iptl_LH_aa_17 (z i b j : nat) : ex := (ESub (r_iptl_LH_aa_16 (0 + z) i b j) (r_iptl_LH_aa_16 (0 + z) j b i)).
Definition r_iptl_LH_ab (z i b j : nat) : ex := (EMul (ET 51 [i]) (ET 24 [j; b])).
Definition r_iptl_LH_ab_1 (z i b j : nat) : ex := (ESub (r_iptl_LH_ab (0 + z) i b j) (ESum (0 + z) 0 (EMul (ET 51 [(0 + z)]) (ET 17 [i; j; (0 + z); b])))).
Definition r_iptl_LH_ab_2 (z i b j : nat) : ex := (ESub (r_iptl_LH_ab_1 (0 + z) i b j) (ESum (0 + z) 2 (EMul (ET 47 [i; b; (0 + z)]) (ET 30 [j; (0 + z)])))).
Definition r_iptl_LH_ab_3 (z i b j : nat) : ex := (ESub (r_iptl_LH_ab_2 (0 + z) i b j) (ESum (0 + z) 0 (EMul (ET 47 [(0 + z); b; j]) (ET 22 [i; (0 + z)])))).
Definition r_iptl_LH_ab_4 (z i b j : nat) : ex := (EAdd (r_iptl_LH_ab_3 (0 + z) i b j) (ESum (0 + z) 3 (EMul (ET 47 [i; (0 + z); j]) (ET 31 [(0 + z); b])))).
Definition r_iptl_LH_ab_5 (z i b j : nat) : ex := (EAdd (r_iptl_LH_ab_4 (0 + z) i b j) (ESum (0 + z) 0 (ESum (1 + z) 2 (EMul (ET 47 [(0 + z); b; (1 + z)]) (ET 21 [i; j; (0 + z); (1 + z)]))))).
Definition r_iptl_LH_ab_6 (z i b j : nat) : ex := (EAdd (r_iptl_LH_ab_5 (0 + z) i b j) (ESum (0 + z) 1 (ESum (1 + z) 0 (EMul (ET 46 [i; (0 + z); (1 + z)]) (ET 28 [(0 + z); j; (1 + z); b]))))).
Definition r_iptl_LH_ab_7 (z i b j : nat) : ex := (EAdd (r_iptl_LH_ab_6 (0 + z) i b j) (ESum (0 + z) 3 (ESum (1 + z) 2 (EMul (ET 47 [i; (0 + z); (1 + z)]) (ET 32 [(0 + z); j; (1 + z); b]))))).
Definition r_iptl_LH_ab_8 (z i b j : nat) : ex := (ESub (r_iptl_LH_ab_7 (0 + z) i b j) (ESum (0 + z) 0 (ESum (1 + z) 3 (EMul (ET 47 [(0 + z); (1 + z); j]) (ET 18 [i; (1 + z); (0 + z); b]))))).
Definition r_iptl_LH_ab_9 (z i b j : nat) : ex := (EAdd (r_iptl_LH_ab_8 (0 + z) i b j) (ESum (0 + z) 1 (EMul (r_iptl_X_a_v (1 + z) (0 + z)) (ET 2 [i; j; (0 + z); b])))).
Definition r_iptl_LH_ab_10 (z i b j : nat) : ex := (ESub (r_iptl_LH_ab_9 (0 + z) i b j) (EScale (1) 2 (ESum (0 + z) 0 (ESum (1 + z) 1 (ESum (2 + z) 0 (EMul (ET 49 [(0 + z); (1 + z); b; (2 + z); j]) (ET 25 [(1 + z); i; (2 + z); (0 + z)]))))))).
Definition r_iptl_LH_ab_11 (z i b j : nat) : ex := (ESub (r_iptl_LH_ab_10 (0 + z) i b j) (ESum (0 + z) 0 (ESum (1 + z) 3 (ESum (2 + z) 2 (EMul (ET 50 [(0 + z); (1 + z); b; (2 + z); j]) (ET 29 [i; (1 + z); (0 + z); (2 + z)])))))).
Definition r_iptl_LH_ab_12 (z i b j : nat) : ex := (EAdd (r_iptl_LH_ab_11 (0 + z) i b j) (ESum (0 + z) 1 (ESum (1 + z) 3 (ESum (2 + z) 0 (EMul (ET 49 [i; (0 + z); (1 + z); (2 + z); j]) (ET 39 [(0 + z); (1 + z); (2 + z); b])))))).
Definition r_iptl_LH_ab_13 (z i b j : nat) : ex := (EAdd (r_iptl_LH_ab_12 (0 + z) i b j) (EScale (1) 2 (ESum (0 + z) 3 (ESum (1 + z) 3 (ESum (2 + z) 2 (EMul (ET 50 [i; (0 + z); (1 + z); (2 + z); j]) (ET 44 [(0 + z); (1 + z); (2 + z); b]))))))).
Definition r_iptl_LH_ab_14 (z i b j : nat) : ex := (ESub (r_iptl_LH_ab_13 (0 + z) i b j) (ESum (0 + z) 1 (ESum (1 + z) 0 (ESum (2 + z) 2 (EMul (ET 49 [i; (0 + z); b; (1 + z); (2 + z)]) (ET 38 [(0 + z); j; (1 + z); (2 + z)])))))).
Definition r_iptl_LH_ab_15 (z i b j : nat) : ex := (ESub (r_iptl_LH_ab_14 (0 + z) i b j) (EScale (1) 2 (ESum (0 + z) 3 (ESum (1 + z) 2 (ESum (2 + z) 2 (EMul (ET 50 [i; (0 + z); b; (1 + z); (2 + z)]) (ET 43 [(0 + z); j; (1 + z); (2 + z)]))))))).
Definition r_iptl_LH_ab_16 (z i b j : nat) : ex := (EAdd (r_iptl_LH_ab_15 (0 + z) i b j) (ESum (0 + z) 1 (ESum (1 + z) 1 (EMul (r_iptl_X_aa_vvo (2 + z) (0 + z) (1 + z) i) (ET 6 [(1 + z); j; (0 + z); b]))))).
Definition r_iptl_LH_ab_17 (z i b j : nat) : ex := (ESub (r_iptl_LH_ab_16 (0 + z) i b j) (ESum (0 + z) 3 (ESum (1 + z) 3 (EMul (r_iptl_X_ab_ovv (2 + z) i (0 + z) (1 + z)) (ET 16 [(1 + z); j; (0 + z); b]))))).
Definition r_iptl_LH_ab_18 (z i b j : nat) : ex := (ESub (r_iptl_LH_ab_17 (0 + z) i b j) (ESum (0 + z) 1 (ESum (1 + z) 2 (EMul (r_iptl_X_ab_vvo (2 + z) (0 + z) b (1 + z)) (ET 13 [i; j; (0 + z); (1 + z)]))))).
Definition r_iptl_LH_ab_19 (z i b j : nat) : ex := (EAdd (r_iptl_LH_ab_18 (0 + z) i b j) (ESum (0 + z) 1 (ESum (1 + z) 3 (EMul (r_iptl_X_ab_vvo (2 + z) (0 + z) (1 + z) j) (ET 12 [i; (1 + z); (0 + z); b]))))).
Definition r_iptl_LH_ab_20 (z i b j : nat) : ex := (ESub (r_iptl_LH_ab_19 (0 + z) i b j) (ESum (0 + z) 0 (ESum (1 + z) 0 (EMul (r_iptl_X_aa_ooo (2 + z) i (0 + z) (1 + z)) (ET 17 [(1 + z); j; (0 + z); b]))))).
Definition r_iptl_LH_ab_21 (z i b j : nat) : ex := (ESub (r_iptl_LH_ab_20 (0 + z) i b j) (ESum (0 + z) 2 (ESum (1 + z) 2 (EMul (r_iptl_X_ab_ooo (2 + z) i (0 + z) (1 + z)) (ET 20 [(1 + z); j; (0 + z); b]))))).
Definition r_iptl_LH_ab_22 (z i b j : nat) : ex := (EAdd (r_iptl_LH_ab_21 (0 + z) i b j) (ESum (0 + z) 0 (ESum (1 + z) 2 (EMul (r_iptl_X_ab_ooo (2 + z) (0 + z) j (1 + z)) (ET 17 [i; (1 + z); (0 + z); b]))))).
Definition r_iptl_LH_ab_23 (z i b j : nat) : ex := (ESub (r_iptl_LH_ab_22 (0 + z) i b j) (ESum (0 + z) 0 (ESum (1 + z) 3 (EMul (r_iptl_X_ab_ovv (2 + z) (0 + z) (1 + z) b) (ET 17 [i; j; (0 + z); (1 + z)]))))).
Definition r_iptl_LH_aaa (z i b c j k : nat) : ex := (EScale (1) 4 (EMul (ET 51 [i]) (ET 0 [j; k; b; c]))).
Definition r_iptl_LH_aaa_1 (z i b c j k : nat) : ex := (EAdd (r_iptl_LH_aaa (0 + z) i b c j k) (EScale (1) 2 (EMul (ET 46 [i; b; j]) (ET 23 [k; c])))).
Definition r_iptl_LH_aaa_2 (z i b c j k : nat) : ex := (EAdd (r_iptl_LH_aaa_1 (0 + z) i b c j k) (EScale (1) 4 (ESum (0 + z) 1 (EMul (ET 46 [i; (0 + z); j]) (ET 4 [(0 + z); k; b; c]))))).
Definition r_iptl_LH_aaa_3 (z i b c j k : nat) : ex := (ESub (r_iptl_LH_aaa_2 (0 + z) i b c j k) (EScale (1) 2 (ESum (0 + z) 0 (EMul (ET 46 [(0 + z); c; k]) (ET 8 [i; j; (0 + z); b]))))).
Definition r_iptl_LH_aaa_4 (z i b c j k : nat) : ex := (ESub (r_iptl_LH_aaa_3 (0 + z) i b c j k) (EScale (1) 4 (ESum (0 + z) 0 (EMul (ET 22 [i; (0 + z)]) (ET 48 [(0 + z); b; c; j; k]))))).
Definition r_iptl_LH_aaa_5 (z i b c j k : nat) : ex := (EAdd (r_iptl_LH_aaa_4 (0 + z) i b c j k) (EScale (1) 6 (ESum (0 + z) 1 (EMul (ET 26 [(0 + z); b]) (ET 48 [i; (0 + z); c; j; k]))))).
Definition r_iptl_LH_aaa_6 (z i b c j k : nat) : ex := (EAdd (r_iptl_LH_aaa_5 (0 + z) i b c j k) (EScale (1) 8 (ESum (0 + z) 0 (ESum (1 + z) 0 (EMul (ET 19 [j; k; (0 + z); (1 + z)]) (ET 48 [i; b; c; (0 + z); (1 + z)])))))).
Definition r_iptl_LH_aaa_7 (z i b c j k : nat) : ex := (EAdd (r_iptl_LH_aaa_6 (0 + z) i b c j k) (EScale (1) 24 (ESum (0 + z) 1 (ESum (1 + z) 1 (EMul (ET 34 [(0 + z); (1 + z); b; c]) (ET 48 [i; (0 + z); (1 + z); j; k])))))).
Definition r_iptl_LH_aaa_8 (z i b c j k : nat) : ex := (EAdd (r_iptl_LH_aaa_7 (0 + z) i b c j k) (EScale (1) 2 (ESum (0 + z) 1 (ESum (1 + z) 0 (EMul (ET 9 [(0 + z); k; (1 + z); c]) (ET 48 [i; b; (0 + z); j; (1 + z)])))))).
Definition r_iptl_LH_aaa_9 (z i b c j k : nat) : ex := (EAdd (r_iptl_LH_aaa_8 (0 + z) i b c j k) (EScale (1) 2 (ESum (0 + z) 3 (ESum (1 + z) 2 (EMul (ET 14 [k; (0 + z); c; (1 + z)]) (ET 49 [i; b; (0 + z); j; (1 + z)])))))).
Definition r_iptl_LH_aaa_10 (z i b c j k : nat) : ex := (EAdd (r_iptl_LH_aaa_9 (0 + z) i b c j k) (EScale (1) 2 (ESum (0 + z) 1 (EMul (r_iptl_X_aa_vvo (1 + z) (0 + z) c k) (ET 0 [i; j; (0 + z); b]))))).
Definition r_iptl_LH_aaa_11 (z i b c j k : nat) : ex := (ESub (r_iptl_LH_aaa_10 (0 + z) i b c j k) (EScale (1) 4 (ESum (0 + z) 0 (EMul (r_iptl_X_aa_ooo (1 + z) i k (0 + z)) (ET 0 [(0 + z); j; c; b]))))).
Definition r_iptl_LH_aaa_12 (z i b c j k : nat) : ex := (ESub (r_iptl_LH_aaa_11 (0 + z) i b c j k) (EAdd (r_iptl_LH_aaa_11 (0 + z) j b c i k) (r_iptl_LH_aaa_11 (0 + z) k b c j i))).
Definition r_iptl_LH_aaa_13 (z i b c j k : nat) : ex := (ESub (r_iptl_LH_aaa_12 (0 + z) i b c j k) (r_iptl_LH_aaa_12 (0 + z) i b c k j)).
Definition r_iptl_LH_aaa_14 (z i b c j k : nat) : ex := (ESub (r_iptl_LH_aaa_13 (0 + z) i b c j k) (r_iptl_LH_aaa_13 (0 + z) i c b j k)).
Definition r_iptl_LH_aab (z i b c j k : nat) : ex := (EMul (ET 51 [i]) (ET 2 [j; k; b; c])).
Definition r_iptl_LH_aab_1 (z i b c j k : nat) : ex := (EAdd (r_iptl_LH_aab (0 + z) i b c j k) (EScale (1) 2 (EMul (ET 46 [i; b; j]) (ET 24 [k; c])))).
Definition r_iptl_LH_aab_2 (z i b c j k : nat) : ex := (EAdd (r_iptl_LH_aab_1 (0 + z) i b c j k) (EMul (ET 47 [i; c; k]) (ET 23 [j; b]))).
Definition r_iptl_LH_aab_3 (z i b c j k : nat) : ex := (EAdd (r_iptl_LH_aab_2 (0 + z) i b c j k) (EScale (1) 2 (ESum (0 + z) 1 (EMul (ET 46 [i; (0 + z); j]) (ET 6 [(0 + z); k; b; c]))))).
Definition r_iptl_LH_aab_4 (z i b c j k : nat) : ex := (EAdd (r_iptl_LH_aab_3 (0 + z) i b c j k) (ESum (0 + z) 3 (EMul (ET 47 [i; (0 + z); k]) (ET 12 [j; (0 + z); b; c])))).
Definition r_iptl_LH_aab_5 (z i b c j k : nat) : ex := (ESub (r_iptl_LH_aab_4 (0 + z) i b c j k) (ESum (0 + z) 0 (EMul (ET 46 [(0 + z); b; j]) (ET 17 [i; k; (0 + z); c])))).
Definition r_iptl_LH_aab_6 (z i b c j k : nat) : ex := (ESub (r_iptl_LH_aab_5 (0 + z) i b c j k) (EScale (1) 2 (ESum (0 + z) 0 (EMul (ET 47 [(0 + z); c; k]) (ET 8 [i; j; (0 + z); b]))))).
Definition r_iptl_LH_aab_7 (z i b c j k : nat) : ex := (ESub (r_iptl_LH_aab_6 (0 + z) i b c j k) (ESum (0 + z) 2 (EMul (ET 47 [i; c; (0 + z)]) (ET 13 [j; k; b; (0 + z)])))).
Definition r_iptl_LH_aab_8 (z i b c j k : nat) : ex := (ESub (r_iptl_LH_aab_7 (0 + z) i b c j k) (ESum (0 + z) 0 (EMul (ET 22 [i; (0 + z)]) (ET 49 [(0 + z); b; c; j; k])))).
Definition r_iptl_LH_aab_9 (z i b c j k : nat) : ex := (ESub (r_iptl_LH_aab_8 (0 + z) i b c j k) (EScale (1) 2 (ESum (0 + z) 2 (EMul (ET 30 [k; (0 + z)]) (ET 49 [i; b; c; j; (0 + z)]))))).
Definition r_iptl_LH_aab_10 (z i b c j k : nat) : ex := (EAdd (r_iptl_LH_aab_9 (0 + z) i b c j k) (EScale (1) 2 (ESum (0 + z) 1 (EMul (ET 26 [(0 + z); b]) (ET 49 [i; (0 + z); c; j; k]))))).
Definition r_iptl_LH_aab_11 (z i b c j k : nat) : ex := (EAdd (r_iptl_LH_aab_10 (0 + z) i b c j k) (EScale (1) 2 (ESum (0 + z) 3 (EMul (ET 31 [(0 + z); c]) (ET 49 [i; b; (0 + z); j; k]))))).
Definition r_iptl_LH_aab_12 (z i b c j k : nat) : ex := (EAdd (r_iptl_LH_aab_11 (0 + z) i b c j k) (EScale (1) 4 (ESum (0 + z) 0 (ESum (1 + z) 0 (EMul (ET 19 [i; j; (0 + z); (1 + z)]) (ET 49 [(0 + z); b; c; (1 + z); k])))))).
Definition r_iptl_LH_aab_13 (z i b c j k : nat) : ex := (EAdd (r_iptl_LH_aab_12 (0 + z) i b c j k) (ESum (0 + z) 0 (ESum (1 + z) 2 (EMul (ET 21 [j; k; (0 + z); (1 + z)]) (ET 49 [i; b; c; (0 + z); (1 + z)]))))).
Definition r_iptl_LH_aab_14 (z i b c j k : nat) : ex := (EAdd (r_iptl_LH_aab_13 (0 + z) i b c j k) (EScale (1) 2 (ESum (0 + z) 1 (ESum (1 + z) 3 (EMul (ET 36 [(0 + z); (1 + z); b; c]) (ET 49 [i; (0 + z); (1 + z); j; k])))))).
Definition r_iptl_LH_aab_15 (z i b c j k : nat) : ex := (EAdd (r_iptl_LH_aab_14 (0 + z) i b c j k) (ESum (0 + z) 1 (ESum (1 + z) 0 (EMul (ET 9 [(0 + z); j; (1 + z); b]) (ET 49 [i; (0 + z); c; (1 + z); k]))))).
Definition r_iptl_LH_aab_16 (z i b c j k : nat) : ex := (EAdd (r_iptl_LH_aab_15 (0 + z) i b c j k) (ESum (0 + z) 3 (ESum (1 + z) 2 (EMul (ET 14 [j; (0 + z); b; (1 + z)]) (ET 50 [i; (0 + z); c; (1 + z); k]))))).
Definition r_iptl_LH_aab_17 (z i b c j k : nat) : ex := (EAdd (r_iptl_LH_aab_16 (0 + z) i b c j k) (EScale (1) 2 (ESum (0 + z) 1 (ESum (1 + z) 0 (EMul (ET 28 [(0 + z); k; (1 + z); c]) (ET 48 [i; b; (0 + z); j; (1 + z)])))))).
Definition r_iptl_LH_aab_18 (z i b c j k : nat) : ex := (EAdd (r_iptl_LH_aab_17 (0 + z) i b c j k) (EScale (1) 2 (ESum (0 + z) 3 (ESum (1 + z) 2 (EMul (ET 32 [(0 + z); k; (1 + z); c]) (ET 49 [i; b; (0 + z); j; (1 + z)])))))).
Definition r_iptl_LH_aab_19 (z i b c j k : nat) : ex := (ESub (r_iptl_LH_aab_18 (0 + z) i b c j k) (ESum (0 + z) 3 (ESum (1 + z) 0 (EMul (ET 18 [j; (0 + z); (1 + z); c]) (ET 49 [i; b; (0 + z); (1 + z); k]))))).
Definition r_iptl_LH_aab_20 (z i b c j k : nat) : ex := (ESub (r_iptl_LH_aab_19 (0 + z) i b c j k) (EScale (1) 2 (ESum (0 + z) 1 (ESum (1 + z) 2 (EMul (ET 37 [(0 + z); k; b; (1 + z)]) (ET 49 [i; (0 + z); c; j; (1 + z)])))))).
Definition r_iptl_LH_aab_21 (z i b c j k : nat) : ex := (ESub (r_iptl_LH_aab_20 (0 + z) i b c j k) (EScale (1) 2 (ESum (0 + z) 0 (EMul (r_iptl_X_aa_ooo (1 + z) i j (0 + z)) (ET 2 [(0 + z); k; b; c]))))).
Definition r_iptl_LH_aab_22 (z i b c j k : nat) : ex := (ESub (r_iptl_LH_aab_21 (0 + z) i b c j k) (ESum (0 + z) 2 (EMul (r_iptl_X_ab_ooo (1 + z) i k (0 + z)) (ET 2 [j; (0 + z); b; c])))).
Definition r_iptl_LH_aab_23 (z i b c j k : nat) : ex := (EAdd (r_iptl_LH_aab_22 (0 + z) i b c j k) (ESum (0 + z) 1 (EMul (r_iptl_X_aa_vvo (1 + z) (0 + z) b j) (ET 2 [i; k; (0 + z); c])))).
Definition r_iptl_LH_aab_24 (z i b c j k : nat) : ex := (EAdd (r_iptl_LH_aab_23 (0 + z) i b c j k) (EScale (1) 2 (ESum (0 + z) 1 (EMul (r_iptl_X_ab_vvo (1 + z) (0 + z) c k) (ET 0 [i; j; (0 + z); b]))))).
Definition r_iptl_LH_aab_25 (z i b c j k : nat) : ex := (EAdd (r_iptl_LH_aab_24 (0 + z) i b c j k) (ESum (0 + z) 3 (EMul (r_iptl_X_ab_ovv (1 + z) i (0 + z) c) (ET 2 [j; k; b; (0 + z)])))).
Definition r_iptl_LH_aab_26 (z i b c j k : nat) : ex := (ESub (r_iptl_LH_aab_25 (0 + z) i b c j k) (r_iptl_LH_aab_25 (0 + z) j b c i k)).
Definition r_iptl_LH_abb (z i b c j k : nat) : ex := (EScale (1) 4 (EMul (ET 51 [i]) (ET 15 [j; k; b; c]))).
Definition r_iptl_LH_abb_1 (z i b c j k : nat) : ex := (EAdd (r_iptl_LH_abb (0 + z) i b c j k) (EMul (ET 47 [i; b; j]) (ET 24 [k; c]))).
Definition r_iptl_LH_abb_2 (z i b c j k : nat) : ex := (EAdd (r_iptl_LH_abb_1 (0 + z) i b c j k) (EScale (1) 2 (ESum (0 + z) 3 (EMul (ET 47 [i; (0 + z); j]) (ET 16 [(0 + z); k; b; c]))))).
Definition r_iptl_LH_abb_3 (z i b c j k : nat) : ex := (ESub (r_iptl_LH_abb_2 (0 + z) i b c j k) (ESum (0 + z) 0 (EMul (ET 47 [(0 + z); c; k]) (ET 17 [i; j; (0 + z); b])))).
Definition r_iptl_LH_abb_4 (z i b c j k : nat) : ex := (ESub (r_iptl_LH_abb_3 (0 + z) i b c j k) (EScale (1) 2 (ESum (0 + z) 2 (EMul (ET 47 [i; b; (0 + z)]) (ET 20 [j; k; (0 + z); c]))))).
Definition r_iptl_LH_abb_5 (z i b c j k : nat) : ex := (ESub (r_iptl_LH_abb_4 (0 + z) i b c j k) (EScale (1) 4 (ESum (0 + z) 0 (EMul (ET 22 [i; (0 + z)]) (ET 50 [(0 + z); b; c; j; k]))))).
Definition r_iptl_LH_abb_6 (z i b c j k : nat) : ex := (ESub (r_iptl_LH_abb_5 (0 + z) i b c j k) (EScale (1) 2 (ESum (0 + z) 2 (EMul (ET 30 [j; (0 + z)]) (ET 50 [i; b; c; (0 + z); k]))))).
Definition r_iptl_LH_abb_7 (z i b c j k : nat) : ex := (EAdd (r_iptl_LH_abb_6 (0 + z) i b c j k) (EScale (1) 2 (ESum (0 + z) 3 (EMul (ET 31 [(0 + z); b]) (ET 50 [i; (0 + z); c; j; k]))))).
Definition r_iptl_LH_abb_8 (z i b c j k : nat) : ex := (EAdd (r_iptl_LH_abb_7 (0 + z) i b c j k) (EScale (1) 8 (ESum (0 + z) 2 (ESum (1 + z) 2 (EMul (ET 41 [j; k; (0 + z); (1 + z)]) (ET 50 [i; b; c; (0 + z); (1 + z)])))))).
Definition r_iptl_LH_abb_9 (z i b c j k : nat) : ex := (EAdd (r_iptl_LH_abb_8 (0 + z) i b c j k) (EScale (1) 2 (ESum (0 + z) 0 (ESum (1 + z) 2 (EMul (ET 21 [i; j; (0 + z); (1 + z)]) (ET 50 [(0 + z); b; c; (1 + z); k])))))).
Definition r_iptl_LH_abb_10 (z i b c j k : nat) : ex := (EAdd (r_iptl_LH_abb_9 (0 + z) i b c j k) (EScale (1) 8 (ESum (0 + z) 3 (ESum (1 + z) 3 (EMul (ET 42 [(0 + z); (1 + z); b; c]) (ET 50 [i; (0 + z); (1 + z); j; k])))))).
Definition r_iptl_LH_abb_11 (z i b c j k : nat) : ex := (EAdd (r_iptl_LH_abb_10 (0 + z) i b c j k) (ESum (0 + z) 1 (ESum (1 + z) 0 (EMul (ET 28 [(0 + z); j; (1 + z); b]) (ET 49 [i; (0 + z); c; (1 + z); k]))))).
Definition r_iptl_LH_abb_12 (z i b c j k : nat) : ex := (EAdd (r_iptl_LH_abb_11 (0 + z) i b c j k) (ESum (0 + z) 3 (ESum (1 + z) 2 (EMul (ET 32 [(0 + z); j; (1 + z); b]) (ET 50 [i; (0 + z); c; (1 + z); k]))))).
Definition r_iptl_LH_abb_13 (z i b c j k : nat) : ex := (ESub (r_iptl_LH_abb_12 (0 + z) i b c j k) (EScale (1) 2 (ESum (0 + z) 3 (ESum (1 + z) 0 (EMul (ET 18 [i; (0 + z); (1 + z); b]) (ET 50 [(1 + z); (0 + z); c; j; k])))))).
Definition r_iptl_LH_abb_14 (z i b c j k : nat) : ex := (ESub (r_iptl_LH_abb_13 (0 + z) i b c j k) (EScale (1) 2 (ESum (0 + z) 2 (EMul (r_iptl_X_ab_ooo (1 + z) i j (0 + z)) (ET 15 [(0 + z); k; b; c]))))).
Definition r_iptl_LH_abb_15 (z i b c j k : nat) : ex := (EAdd (r_iptl_LH_abb_14 (0 + z) i b c j k) (ESum (0 + z) 1 (EMul (r_iptl_X_ab_vvo (1 + z) (0 + z) c k) (ET 2 [i; j; (0 + z); b])))).
Definition r_iptl_LH_abb_16 (z i b c j k : nat) : ex := (EAdd (r_iptl_LH_abb_15 (0 + z) i b c j k) (EScale (1) 2 (ESum (0 + z) 3 (EMul (r_iptl_X_ab_ovv (1 + z) i (0 + z) c) (ET 15 [j; k; b; (0 + z)]))))).
Definition r_iptl_LH_abb_17 (z i b c j k : nat) : ex := (ESub (r_iptl_LH_abb_16 (0 + z) i b c j k) (r_iptl_LH_abb_16 (0 + z) i c b j k)).
Definition r_iptl_LH_abb_18 (z i b c j k : nat) : ex := (ESub (r_iptl_LH_abb_17 (0 + z) i b c j k) (r_iptl_LH_abb_17 (0 + z) i b c k j)).
Definition r_ipt_lhs (z : nat) : ex := (EAdd (EAdd (EAdd (EAdd (EAdd (ESum (0 + z) 0 (EMul (ET 51 [(0 + z)]) (r_iptr_X1A_7 (1 + z) (0 + z)))) (ESum (0 + z) 0 (ESum (1 + z) 1 (ESum (2 + z) 0 (EMul (ET 46 [(0 + z); (1 + z); (2 + z)]) (r_iptr_X2A_12 (3 + z) (0 + z) (1 + z) (2 + z))))))) (ESum (0 + z) 0 (ESum (1 + z) 3 (ESum (2 + z) 2 (EMul (ET 47 [(0 + z); (1 + z); (2 + z)]) (r_iptr_X2B_16 (3 + z) (0 + z) (1 + z) (2 + z))))))) (ESum (0 + z) 0 (ESum (1 + z) 1 (ESum (2 + z) 1 (ESum (3 + z) 0 (ESum (4 + z) 0 (EMul (ET 48 [(0 + z); (1 + z); (2 + z); (3 + z); (4 + z)]) (r_iptr_X3A_9 (5 + z) (0 + z) (1 + z) (2 + z) (3 + z) (4 + z))))))))) (ESum (0 + z) 0 (ESum (1 + z) 1 (ESum (2 + z) 3 (ESum (3 + z) 0 (ESum (4 + z) 2 (EMul (ET 49 [(0 + z); (1 + z); (2 + z); (3 + z); (4 + z)]) (r_iptr_X3B_22 (5 + z) (0 + z) (1 + z) (2 + z) (3 + z) (4 + z))))))))) (ESum (0 + z) 0 (ESum (1 + z) 3 (ESum (2 + z) 3 (ESum (3 + z) 2 (ESum (4 + z) 2 (EMul (ET 50 [(0 + z); (1 + z); (2 + z); (3 + z); (4 + z)]) (r_iptr_X3C_14 (5 + z) (0 + z) (1 + z) (2 + z) (3 + z) (4 + z))))))))).
Definition r_ipt_rhs (z : nat) : ex := (EAdd (EAdd (EAdd (EAdd (EAdd (ESum (0 + z) 0 (EMul (ET 10 [(0 + z)]) (r_iptl_LH_a_7 (1 + z) (0 + z)))) (ESum (0 + z) 0 (ESum (1 + z) 1 (ESum (2 + z) 0 (EMul (ET 5 [(0 + z); (1 + z); (2 + z)]) (r_iptl_LH_aa_16 (3 + z) (0 + z) (1 + z) (2 + z))))))) (ESum (0 + z) 0 (ESum (1 + z) 3 (ESum (2 + z) 2 (EMul (ET 7 [(0 + z); (1 + z); (2 + z)]) (r_iptl_LH_ab_23 (3 + z) (0 + z) (1 + z) (2 + z))))))) (ESum (0 + z) 0 (ESum (1 + z) 1 (ESum (2 + z) 1 (ESum (3 + z) 0 (ESum (4 + z) 0 (EMul (ET 1 [(0 + z); (1 + z); (2 + z); (3 + z); (4 + z)]) (r_iptl_LH_aaa_11 (5 + z) (0 + z) (1 + z) (2 + z) (3 + z) (4 + z))))))))) (ESum (0 + z) 0 (ESum (1 + z) 1 (ESum (2 + z) 3 (ESum (3 + z) 0 (ESum (4 + z) 2 (EMul (ET 3 [(0 + z); (1 + z); (2 + z); (3 + z); (4 + z)]) (r_iptl_LH_aab_25 (5 + z) (0 + z) (1 + z) (2 + z) (3 + z) (4 + z))))))))) (ESum (0 + z) 0 (ESum (1 + z) 3 (ESum (2 + z) 3 (ESum (3 + z) 2 (ESum (4 + z) 2 (EMul (ET 11 [(0 + z); (1 + z); (2 + z); (3 + z); (4 + z)]) (r_iptl_LH_abb_16 (5 + z) (0 + z) (1 + z) (2 + z) (3 + z) (4 + z))))))))).
Definition iptlr_arrays (d : dims) (H : ints) (T : amps) (L R : iptv) := [ap4 (i_aa_oovv H);
  ap5 (ipt_aaa R);
  ap4 (i_ab_oovv H);
  ap5 (ipt_aab R);
  ap4 (i_aa_vovv H);
  ap3 (ipt_aa R);
  ap4 (i_ab_vovv H);
  ap3 (ipt_ab R);
  ap4 (i_aa_ooov H);
  ap4 (i_aa_voov H);
  ap1 (ipt_a R);
  ap5 (ipt_abb R);
  ap4 (i_ab_ovvv H);
  ap4 (i_ab_oovo H);
  ap4 (i_ab_ovvo H);
  ap4 (i_bb_oovv H);
  ap4 (i_bb_vovv H);
  ap4 (i_ab_ooov H);
  ap4 (i_ab_ovov H);
  ap4 (i_aa_oooo H);
  ap4 (i_bb_ooov H);
  ap4 (i_ab_oooo H);
  ap2 (i_a_oo H);
  ap2 (i_a_ov H);
  ap2 (i_b_ov H);
  ap4 (i_aa_vooo H);
  ap2 (i_a_vv H);
  ap4 (x_aa T);
  ap4 (i_ab_voov H);
  ap4 (i_ab_ovoo H);
  ap2 (i_b_oo H);
  ap2 (i_b_vv H);
  ap4 (i_bb_voov H);
  ap4 (x_ab T);
  ap4 (i_aa_vvvv H);
  ap4 (i_aa_vvov H);
  ap4 (i_ab_vvvv H);
  ap4 (i_ab_vovo H);
  ap4 (i_ab_vooo H);
  ap4 (i_ab_vvov H);
  ap4 (i_ab_vvvo H);
  ap4 (i_bb_oooo H);
  ap4 (i_bb_vvvv H);
  ap4 (i_bb_vooo H);
  ap4 (i_bb_vvov H);
  ap4 (x_bb T);
  ap3 (ipt_aa L);
  ap3 (ipt_ab L);
  ap5 (ipt_aaa L);
  ap5 (ipt_aab L);
  ap5 (ipt_abb L);
  ap1 (ipt_a L);
  ap4 (i_aa_ovvv H);
  ap4 (i_aa_oovo H);
  ap4 (i_aa_ovov H);
  ap4 (i_aa_vovo H);
  ap4 (i_bb_ovvv H);
  ap4 (i_bb_oovo H);
  ap4 (i_aa_ovoo H);
  ap4 (i_bb_ovov H);
  ap4 (i_bb_vovo H);
  ap4 (i_aa_vvvo H);
  ap4 (i_bb_ovoo H);
  ap4 (i_bb_vvvo H);
  ap4 (i_aa_ovvo H);
  ap4 (i_bb_ovvo H)].
Definition iptlr_gens : list (nat * (nat * list nat * bool)) := [(0, (0, [1; 0; 2; 3], false));
  (0, (0, [0; 1; 3; 2], false));
  (1, (1, [3; 1; 2; 0; 4], false));
  (1, (1, [0; 1; 2; 4; 3], false));
  (1, (1, [0; 2; 1; 3; 4], false));
  (3, (3, [3; 1; 2; 0; 4], false));
  (4, (52, [1; 0; 2; 3], false));
  (4, (4, [0; 1; 3; 2], false));
  (5, (5, [2; 1; 0], false));
  (8, (8, [1; 0; 2; 3], false));
  (8, (53, [0; 1; 3; 2], false));
  (9, (54, [1; 0; 2; 3], false));
  (9, (55, [0; 1; 3; 2], false));
  (11, (11, [0; 1; 2; 4; 3], false));
  (11, (11, [0; 2; 1; 3; 4], false));
  (15, (15, [1; 0; 2; 3], false));
  (15, (15, [0; 1; 3; 2], false));
  (16, (56, [1; 0; 2; 3], false));
  (16, (16, [0; 1; 3; 2], false));
  (19, (19, [1; 0; 2; 3], false));
  (19, (19, [0; 1; 3; 2], false));
  (20, (20, [1; 0; 2; 3], false));
  (20, (57, [0; 1; 3; 2], false));
  (25, (58, [1; 0; 2; 3], false));
  (25, (25, [0; 1; 3; 2], false));
  (27, (27, [1; 0; 2; 3], false));
  (27, (27, [0; 1; 3; 2], false));
  (32, (59, [1; 0; 2; 3], false));
  (32, (60, [0; 1; 3; 2], false));
  (34, (34, [1; 0; 2; 3], false));
  (34, (34, [0; 1; 3; 2], false));
  (35, (35, [1; 0; 2; 3], false));
  (35, (61, [0; 1; 3; 2], false));
  (41, (41, [1; 0; 2; 3], false));
  (41, (41, [0; 1; 3; 2], false));
  (42, (42, [1; 0; 2; 3], false));
  (42, (42, [0; 1; 3; 2], false));
  (43, (62, [1; 0; 2; 3], false));
  (43, (43, [0; 1; 3; 2], false));
  (44, (44, [1; 0; 2; 3], false));
  (44, (63, [0; 1; 3; 2], false));
  (45, (45, [1; 0; 2; 3], false));
  (45, (45, [0; 1; 3; 2], false));
  (46, (46, [2; 1; 0], false));
  (48, (48, [3; 1; 2; 0; 4], false));
  (48, (48, [0; 1; 2; 4; 3], false));
  (48, (48, [0; 2; 1; 3; 4], false));
  (49, (49, [3; 1; 2; 0; 4], false));
  (50, (50, [0; 1; 2; 4; 3], false));
  (50, (50, [0; 2; 1; 3; 4], false));
  (52, (4, [1; 0; 2; 3], false));
  (52, (52, [0; 1; 3; 2], false));
  (53, (53, [1; 0; 2; 3], false));
  (53, (8, [0; 1; 3; 2], false));
  (54, (9, [1; 0; 2; 3], false));
  (54, (64, [0; 1; 3; 2], false));
  (55, (64, [1; 0; 2; 3], false));
  (55, (9, [0; 1; 3; 2], false));
  (56, (16, [1; 0; 2; 3], false));
  (56, (56, [0; 1; 3; 2], false));
  (57, (57, [1; 0; 2; 3], false));
  (57, (20, [0; 1; 3; 2], false));
  (58, (25, [1; 0; 2; 3], false));
  (58, (58, [0; 1; 3; 2], false));
  (59, (32, [1; 0; 2; 3], false));
  (59, (65, [0; 1; 3; 2], false));
  (60, (65, [1; 0; 2; 3], false));
  (60, (32, [0; 1; 3; 2], false));
  (61, (61, [1; 0; 2; 3], false));
  (61, (35, [0; 1; 3; 2], false));
  (62, (43, [1; 0; 2; 3], false));
  (62, (62, [0; 1; 3; 2], false));
  (63, (63, [1; 0; 2; 3], false));
  (63, (44, [0; 1; 3; 2], false));
  (64, (55, [1; 0; 2; 3], false));
  (64, (54, [0; 1; 3; 2], false));
  (65, (60, [1; 0; 2; 3], false));
  (65, (59, [0; 1; 3; 2], false))].
Definition iptlr_tab := Eval vm_compute in symtab iptlr_gens 66.
Definition ipt_asym_r (Q : iptv) : iptv := mkIpt (fun a => ipt_a Q a)%R (fun a b c => (ipt_aa Q a b c - ipt_aa Q c b a))%R (fun a b c => ipt_ab Q a b c)%R (fun a b c d e => (((ipt_aaa Q a b c d e - (ipt_aaa Q d b c a e + ipt_aaa Q e b c d a)) - (ipt_aaa Q a b c e d - (ipt_aaa Q e b c a d + ipt_aaa Q d b c e a))) - ((ipt_aaa Q a c b d e - (ipt_aaa Q d c b a e + ipt_aaa Q e c b d a)) - (ipt_aaa Q a c b e d - (ipt_aaa Q e c b a d + ipt_aaa Q d c b e a)))))%R (fun a b c d e => (ipt_aab Q a b c d e - ipt_aab Q d b c a e))%R (fun a b c d e => ((ipt_abb Q a b c d e - ipt_abb Q a c b d e) - (ipt_abb Q a b c e d - ipt_abb Q a c b e d)))%R.
Definition ipt_pre_r (d : dims) (H : ints) (T : amps) (Y : iptv) : iptv := mkIpt (iptr_X1A_7 d H T Y) (iptr_X2A_12 d H T Y) (iptr_X2B_16 d H T Y) (iptr_X3A_9 d H T Y) (iptr_X3B_22 d H T Y) (iptr_X3C_14 d H T Y).
Definition ipt_asym_l (Q : iptv) : iptv := mkIpt (fun a => ipt_a Q a)%R (fun a b c => (ipt_aa Q a b c - ipt_aa Q c b a))%R (fun a b c => ipt_ab Q a b c)%R (fun a b c d e => (((ipt_aaa Q a b c d e - (ipt_aaa Q d b c a e + ipt_aaa Q e b c d a)) - (ipt_aaa Q a b c e d - (ipt_aaa Q e b c a d + ipt_aaa Q d b c e a))) - ((ipt_aaa Q a c b d e - (ipt_aaa Q d c b a e + ipt_aaa Q e c b d a)) - (ipt_aaa Q a c b e d - (ipt_aaa Q e c b a d + ipt_aaa Q d c b e a)))))%R (fun a b c d e => (ipt_aab Q a b c d e - ipt_aab Q d b c a e))%R (fun a b c d e => ((ipt_abb Q a b c d e - ipt_abb Q a c b d e) - (ipt_abb Q a b c e d - ipt_abb Q a c b e d)))%R.
Definition ipt_pre_l (d : dims) (H : ints) (T : amps) (Y : iptv) : iptv := mkIpt (iptl_LH_a_7 d H T Y) (iptl_LH_aa_16 d H T Y) (iptl_LH_ab_23 d H T Y) (iptl_LH_aaa_11 d H T Y) (iptl_LH_aab_25 d H T Y) (iptl_LH_abb_16 d H T Y).
Definition r_ipt_asym_r (z : nat) : ex := (EAdd (EAdd (EAdd (EAdd (EAdd (ESum (0 + z) 0 (EMul (ET 0 [(0 + z)]) (ET 1 [(0 + z)]))) (EScale (1) 2 (ESum (0 + z) 0 (ESum (1 + z) 1 (ESum (2 + z) 0 (EMul (ET 2 [(0 + z); (1 + z); (2 + z)]) (ESub (ET 3 [(0 + z); (1 + z); (2 + z)]) (ET 3 [(2 + z); (1 + z); (0 + z)])))))))) (ESum (0 + z) 0 (ESum (1 + z) 3 (ESum (2 + z) 2 (EMul (ET 4 [(0 + z); (1 + z); (2 + z)]) (ET 5 [(0 + z); (1 + z); (2 + z)])))))) (EScale (1) 12 (ESum (0 + z) 0 (ESum (1 + z) 1 (ESum (2 + z) 1 (ESum (3 + z) 0 (ESum (4 + z) 0 (EMul (ET 6 [(0 + z); (1 + z); (2 + z); (3 + z); (4 + z)]) (ESub (ESub (ESub (ET 7 [(0 + z); (1 + z); (2 + z); (3 + z); (4 + z)]) (EAdd (ET 7 [(3 + z); (1 + z); (2 + z); (0 + z); (4 + z)]) (ET 7 [(4 + z); (1 + z); (2 + z); (3 + z); (0 + z)]))) (ESub (ET 7 [(0 + z); (1 + z); (2 + z); (4 + z); (3 + z)]) (EAdd (ET 7 [(4 + z); (1 + z); (2 + z); (0 + z); (3 + z)]) (ET 7 [(3 + z); (1 + z); (2 + z); (4 + z); (0 + z)])))) (ESub (ESub (ET 7 [(0 + z); (2 + z); (1 + z); (3 + z); (4 + z)]) (EAdd (ET 7 [(3 + z); (2 + z); (1 + z); (0 + z); (4 + z)]) (ET 7 [(4 + z); (2 + z); (1 + z); (3 + z); (0 + z)]))) (ESub (ET 7 [(0 + z); (2 + z); (1 + z); (4 + z); (3 + z)]) (EAdd (ET 7 [(4 + z); (2 + z); (1 + z); (0 + z); (3 + z)]) (ET 7 [(3 + z); (2 + z); (1 + z); (4 + z); (0 + z)]))))))))))))) (EScale (1) 2 (ESum (0 + z) 0 (ESum (1 + z) 1 (ESum (2 + z) 3 (ESum (3 + z) 0 (ESum (4 + z) 2 (EMul (ET 8 [(0 + z); (1 + z); (2 + z); (3 + z); (4 + z)]) (ESub (ET 9 [(0 + z); (1 + z); (2 + z); (3 + z); (4 + z)]) (ET 9 [(3 + z); (1 + z); (2 + z); (0 + z); (4 + z)])))))))))) (EScale (1) 4 (ESum (0 + z) 0 (ESum (1 + z) 3 (ESum (2 + z) 3 (ESum (3 + z) 2 (ESum (4 + z) 2 (EMul (ET 10 [(0 + z); (1 + z); (2 + z); (3 + z); (4 + z)]) (ESub (ESub (ET 11 [(0 + z); (1 + z); (2 + z); (3 + z); (4 + z)]) (ET 11 [(0 + z); (2 + z); (1 + z); (3 + z); (4 + z)])) (ESub (ET 11 [(0 + z); (1 + z); (2 + z); (4 + z); (3 + z)]) (ET 11 [(0 + z); (2 + z); (1 + z); (4 + z); (3 + z)]))))))))))).
Definition r_ipt_asym_l (z : nat) : ex := (EAdd (EAdd (EAdd (EAdd (EAdd (ESum (0 + z) 0 (EMul (ET 0 [(0 + z)]) (ET 1 [(0 + z)]))) (EScale (1) 2 (ESum (0 + z) 0 (ESum (1 + z) 1 (ESum (2 + z) 0 (EMul (ET 2 [(0 + z); (1 + z); (2 + z)]) (ESub (ET 3 [(0 + z); (1 + z); (2 + z)]) (ET 3 [(2 + z); (1 + z); (0 + z)])))))))) (ESum (0 + z) 0 (ESum (1 + z) 3 (ESum (2 + z) 2 (EMul (ET 4 [(0 + z); (1 + z); (2 + z)]) (ET 5 [(0 + z); (1 + z); (2 + z)])))))) (EScale (1) 12 (ESum (0 + z) 0 (ESum (1 + z) 1 (ESum (2 + z) 1 (ESum (3 + z) 0 (ESum (4 + z) 0 (EMul (ET 6 [(0 + z); (1 + z); (2 + z); (3 + z); (4 + z)]) (ESub (ESub (ESub (ET 7 [(0 + z); (1 + z); (2 + z); (3 + z); (4 + z)]) (EAdd (ET 7 [(3 + z); (1 + z); (2 + z); (0 + z); (4 + z)]) (ET 7 [(4 + z); (1 + z); (2 + z); (3 + z); (0 + z)]))) (ESub (ET 7 [(0 + z); (1 + z); (2 + z); (4 + z); (3 + z)]) (EAdd (ET 7 [(4 + z); (1 + z); (2 + z); (0 + z); (3 + z)]) (ET 7 [(3 + z); (1 + z); (2 + z); (4 + z); (0 + z)])))) (ESub (ESub (ET 7 [(0 + z); (2 + z); (1 + z); (3 + z); (4 + z)]) (EAdd (ET 7 [(3 + z); (2 + z); (1 + z); (0 + z); (4 + z)]) (ET 7 [(4 + z); (2 + z); (1 + z); (3 + z); (0 + z)]))) (ESub (ET 7 [(0 + z); (2 + z); (1 + z); (4 + z); (3 + z)]) (EAdd (ET 7 [(4 + z); (2 + z); (1 + z); (0 + z); (3 + z)]) (ET 7 [(3 + z); (2 + z); (1 + z); (4 + z); (0 + z)]))))))))))))) (EScale (1) 2 (ESum (0 + z) 0 (ESum (1 + z) 1 (ESum (2 + z) 3 (ESum (3 + z) 0 (ESum (4 + z) 2 (EMul (ET 8 [(0 + z); (1 + z); (2 + z); (3 + z); (4 + z)]) (ESub (ET 9 [(0 + z); (1 + z); (2 + z); (3 + z); (4 + z)]) (ET 9 [(3 + z); (1 + z); (2 + z); (0 + z); (4 + z)])))))))))) (EScale (1) 4 (ESum (0 + z) 0 (ESum (1 + z) 3 (ESum (2 + z) 3 (ESum (3 + z) 2 (ESum (4 + z) 2 (EMul (ET 10 [(0 + z); (1 + z); (2 + z); (3 + z); (4 + z)]) (ESub (ESub (ET 11 [(0 + z); (1 + z); (2 + z); (3 + z); (4 + z)]) (ET 11 [(0 + z); (2 + z); (1 + z); (3 + z); (4 + z)])) (ESub (ET 11 [(0 + z); (1 + z); (2 + z); (4 + z); (3 + z)]) (ET 11 [(0 + z); (2 + z); (1 + z); (4 + z); (3 + z)]))))))))))).
Definition r_ipt_plain (z : nat) : ex := (EAdd (EAdd (EAdd (EAdd (EAdd (ESum (0 + z) 0 (EMul (ET 0 [(0 + z)]) (ET 1 [(0 + z)]))) (ESum (0 + z) 0 (ESum (1 + z) 1 (ESum (2 + z) 0 (EMul (ET 2 [(0 + z); (1 + z); (2 + z)]) (ET 3 [(0 + z); (1 + z); (2 + z)])))))) (ESum (0 + z) 0 (ESum (1 + z) 3 (ESum (2 + z) 2 (EMul (ET 4 [(0 + z); (1 + z); (2 + z)]) (ET 5 [(0 + z); (1 + z); (2 + z)])))))) (ESum (0 + z) 0 (ESum (1 + z) 1 (ESum (2 + z) 1 (ESum (3 + z) 0 (ESum (4 + z) 0 (EMul (ET 6 [(0 + z); (1 + z); (2 + z); (3 + z); (4 + z)]) (ET 7 [(0 + z); (1 + z); (2 + z); (3 + z); (4 + z)])))))))) (ESum (0 + z) 0 (ESum (1 + z) 1 (ESum (2 + z) 3 (ESum (3 + z) 0 (ESum (4 + z) 2 (EMul (ET 8 [(0 + z); (1 + z); (2 + z); (3 + z); (4 + z)]) (ET 9 [(0 + z); (1 + z); (2 + z); (3 + z); (4 + z)])))))))) (ESum (0 + z) 0 (ESum (1 + z) 3 (ESum (2 + z) 3 (ESum (3 + z) 2 (ESum (4 + z) 2 (EMul (ET 10 [(0 + z); (1 + z); (2 + z); (3 + z); (4 + z)]) (ET 11 [(0 + z); (1 + z); (2 + z); (3 + z); (4 + z)])))))))).
Definition iptas_arrays (L Q : iptv) := [ap1 (ipt_a L);
  ap1 (ipt_a Q);
  ap3 (ipt_aa L);
  ap3 (ipt_aa Q);
  ap3 (ipt_ab L);
  ap3 (ipt_ab Q);
  ap5 (ipt_aaa L);
  ap5 (ipt_aaa Q);
  ap5 (ipt_aab L);
  ap5 (ipt_aab Q);
  ap5 (ipt_abb L);
  ap5 (ipt_abb Q)].
Definition iptas_gens : list (nat * (nat * list nat * bool)) := [(2, (2, [2; 1; 0], false));
  (6, (6, [3; 1; 2; 0; 4], false));
  (6, (6, [0; 1; 2; 4; 3], false));
  (6, (6, [0; 2; 1; 3; 4], false));
  (8, (8, [3; 1; 2; 0; 4], false));
  (10, (10, [0; 1; 2; 4; 3], false));
  (10, (10, [0; 2; 1; 3; 4], false))].
Definition iptas_tab := Eval vm_compute in symtab iptas_gens 12.
