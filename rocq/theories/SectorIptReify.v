(** Generated by tools/gen_sector3.py: the IPT sigma vector with the similarity-transformed Hamiltonian put in, reified; arrays 0-65 as in CcsdReify.v (proof support). *)
From Coq Require Import Reals Arith List ZArith.
From Verif Require Import RSum IntegralsModel TensorObjs TensorAlg CcsdReify Sector3Model.
Import ListNotations.
Local Open Scope nat_scope.
Definition r_iptr_X_aa_ovv (z i b e : nat) : ex := (EAdd (EAdd (EAdd (EAdd (ESub (EScale (-1) 2 (ESum (0 + z) 0 (ESum (1 + z) 0 (ESum (2 + z) 1 (EMul (ET 1 [(0 + z); (1 + z); e; (2 + z)]) (ET 69 [i; b; (2 + z); (0 + z); (1 + z)])))))) (ESum (0 + z) 0 (ESum (1 + z) 2 (ESum (2 + z) 3 (EMul (ET 3 [(0 + z); (1 + z); e; (2 + z)]) (ET 70 [i; b; (2 + z); (0 + z); (1 + z)])))))) (ESum (0 + z) 0 (ESum (1 + z) 1 (EMul (r_hb_H_aa_vovv (2 + z) b (0 + z) e (1 + z)) (ET 67 [i; (1 + z); (0 + z)]))))) (ESum (0 + z) 2 (ESum (1 + z) 3 (EMul (r_hb_H_ab_vovv (2 + z) b (0 + z) e (1 + z)) (ET 68 [i; (1 + z); (0 + z)]))))) (EScale (1) 2 (ESum (0 + z) 0 (ESum (1 + z) 0 (EMul (r_hb_H_aa_ooov (2 + z) (0 + z) (1 + z) i e) (ET 67 [(0 + z); b; (1 + z)])))))) (ESum (0 + z) 0 (EMul (r_hb_H_aa_voov (1 + z) b (0 + z) i e) (ET 66 [(0 + z)])))).
Definition r_iptr_X_ab_vvo (z e b j : nat) : ex := (ESub (EAdd (ESub (ESub (EScale (-1) 2 (ESum (0 + z) 0 (ESum (1 + z) 0 (ESum (2 + z) 1 (EMul (ET 1 [(0 + z); (1 + z); e; (2 + z)]) (ET 70 [(0 + z); (2 + z); b; (1 + z); j])))))) (ESum (0 + z) 0 (ESum (1 + z) 2 (ESum (2 + z) 3 (EMul (ET 3 [(0 + z); (1 + z); e; (2 + z)]) (ET 71 [(0 + z); b; (2 + z); j; (1 + z)])))))) (ESum (0 + z) 0 (ESum (1 + z) 3 (EMul (r_hb_H_ab_ovvv (2 + z) (0 + z) b e (1 + z)) (ET 68 [(0 + z); (1 + z); j]))))) (ESum (0 + z) 0 (ESum (1 + z) 2 (EMul (r_hb_H_ab_oovo (2 + z) (0 + z) (1 + z) e j) (ET 68 [(0 + z); b; (1 + z)]))))) (ESum (0 + z) 0 (EMul (r_hb_H_ab_ovvo (1 + z) (0 + z) b e j) (ET 66 [(0 + z)])))).
Definition r_iptr_X_ab_ovv (z i b e : nat) : ex := (ESub (EAdd (EAdd (EAdd (ESub (EOpp (ESum (0 + z) 0 (ESum (1 + z) 2 (ESum (2 + z) 1 (EMul (ET 3 [(0 + z); (1 + z); (2 + z); e]) (ET 70 [i; (2 + z); b; (0 + z); (1 + z)])))))) (EScale (1) 2 (ESum (0 + z) 2 (ESum (1 + z) 2 (ESum (2 + z) 3 (EMul (ET 6 [(0 + z); (1 + z); e; (2 + z)]) (ET 71 [i; b; (2 + z); (0 + z); (1 + z)]))))))) (ESum (0 + z) 0 (ESum (1 + z) 1 (EMul (r_hb_H_ab_ovvv (2 + z) (0 + z) b (1 + z) e) (ET 67 [i; (1 + z); (0 + z)]))))) (ESum (0 + z) 2 (ESum (1 + z) 3 (EMul (r_hb_H_bb_vovv (2 + z) b (0 + z) e (1 + z)) (ET 68 [i; (1 + z); (0 + z)]))))) (ESum (0 + z) 0 (ESum (1 + z) 2 (EMul (r_hb_H_ab_ooov (2 + z) (0 + z) (1 + z) i e) (ET 68 [(0 + z); b; (1 + z)]))))) (ESum (0 + z) 0 (EMul (r_hb_H_ab_ovov (1 + z) (0 + z) b i e) (ET 66 [(0 + z)])))).
Definition r_iptr_X_aa_ooo (z i m j : nat) : ex := (ESub (EAdd (EAdd (EAdd (EScale (1) 4 (ESum (0 + z) 0 (ESum (1 + z) 1 (ESum (2 + z) 1 (EMul (ET 1 [m; (0 + z); (1 + z); (2 + z)]) (ET 69 [i; (1 + z); (2 + z); j; (0 + z)])))))) (EScale (1) 2 (ESum (0 + z) 2 (ESum (1 + z) 1 (ESum (2 + z) 3 (EMul (ET 3 [m; (0 + z); (1 + z); (2 + z)]) (ET 70 [i; (1 + z); (2 + z); j; (0 + z)]))))))) (ESum (0 + z) 0 (ESum (1 + z) 1 (EMul (r_hb_H_aa_ooov (2 + z) m (0 + z) j (1 + z)) (ET 67 [i; (1 + z); (0 + z)]))))) (ESum (0 + z) 2 (ESum (1 + z) 3 (EMul (r_hb_H_ab_ooov (2 + z) m (0 + z) j (1 + z)) (ET 68 [i; (1 + z); (0 + z)]))))) (EScale (1) 2 (ESum (0 + z) 0 (EMul (r_hb_H_aa_oooo_1 (1 + z) m (0 + z) j i) (ET 66 [(0 + z)]))))).
Definition r_iptr_X_aa_ooo_1 (z i m j : nat) : ex := (ESub (r_iptr_X_aa_ooo (0 + z) i m j) (r_iptr_X_aa_ooo (0 + z) j m i)).
Definition r_iptr_X_ab_ooo (z i m j : nat) : ex := (ESub (ESub (EAdd (EAdd (EAdd (ESum (0 + z) 0 (ESum (1 + z) 1 (ESum (2 + z) 3 (EMul (ET 3 [(0 + z); m; (1 + z); (2 + z)]) (ET 70 [i; (1 + z); (2 + z); (0 + z); j]))))) (EScale (1) 2 (ESum (0 + z) 2 (ESum (1 + z) 3 (ESum (2 + z) 3 (EMul (ET 6 [m; (0 + z); (1 + z); (2 + z)]) (ET 71 [i; (1 + z); (2 + z); j; (0 + z)]))))))) (ESum (0 + z) 0 (ESum (1 + z) 1 (EMul (r_hb_H_ab_oovo (2 + z) (0 + z) m (1 + z) j) (ET 67 [i; (1 + z); (0 + z)]))))) (ESum (0 + z) 2 (ESum (1 + z) 3 (EMul (r_hb_H_bb_ooov (2 + z) m (0 + z) j (1 + z)) (ET 68 [i; (1 + z); (0 + z)]))))) (ESum (0 + z) 0 (ESum (1 + z) 3 (EMul (r_hb_H_ab_ooov (2 + z) (0 + z) m i (1 + z)) (ET 68 [(0 + z); (1 + z); j]))))) (ESum (0 + z) 0 (EMul (r_hb_H_ab_oooo (1 + z) (0 + z) m i j) (ET 66 [(0 + z)])))).
Definition r_iptr_X1A (z i : nat) : ex := (ESub (EC (0) 1) (ESum (0 + z) 0 (EMul (r_hb_H_a_oo (1 + z) (0 + z) i) (ET 66 [(0 + z)])))).
Definition r_iptr_X1A_1 (z i : nat) : ex := (ESub (r_iptr_X1A (0 + z) i) (EScale (1) 2 (ESum (0 + z) 0 (ESum (1 + z) 0 (ESum (2 + z) 1 (EMul (r_hb_H_aa_ooov (3 + z) (0 + z) (1 + z) i (2 + z)) (ET 67 [(0 + z); (2 + z); (1 + z)]))))))).
Definition r_iptr_X1A_2 (z i : nat) : ex := (ESub (r_iptr_X1A_1 (0 + z) i) (ESum (0 + z) 0 (ESum (1 + z) 2 (ESum (2 + z) 3 (EMul (r_hb_H_ab_ooov (3 + z) (0 + z) (1 + z) i (2 + z)) (ET 68 [(0 + z); (2 + z); (1 + z)])))))).
Definition r_iptr_X1A_3 (z i : nat) : ex := (EAdd (r_iptr_X1A_2 (0 + z) i) (ESum (0 + z) 0 (ESum (1 + z) 1 (EMul (r_hb_H_a_ov (2 + z) (0 + z) (1 + z)) (ET 67 [i; (1 + z); (0 + z)]))))).
Definition r_iptr_X1A_4 (z i : nat) : ex := (EAdd (r_iptr_X1A_3 (0 + z) i) (ESum (0 + z) 2 (ESum (1 + z) 3 (EMul (r_hb_H_b_ov (2 + z) (0 + z) (1 + z)) (ET 68 [i; (1 + z); (0 + z)]))))).
Definition r_iptr_X1A_5 (z i : nat) : ex := (EAdd (r_iptr_X1A_4 (0 + z) i) (EScale (1) 4 (ESum (0 + z) 0 (ESum (1 + z) 0 (ESum (2 + z) 1 (ESum (3 + z) 1 (EMul (ET 1 [(0 + z); (1 + z); (2 + z); (3 + z)]) (ET 69 [i; (2 + z); (3 + z); (0 + z); (1 + z)])))))))).
Definition r_iptr_X1A_6 (z i : nat) : ex := (EAdd (r_iptr_X1A_5 (0 + z) i) (ESum (0 + z) 0 (ESum (1 + z) 2 (ESum (2 + z) 1 (ESum (3 + z) 3 (EMul (ET 3 [(0 + z); (1 + z); (2 + z); (3 + z)]) (ET 70 [i; (2 + z); (3 + z); (0 + z); (1 + z)]))))))).
Definition r_iptr_X1A_7 (z i : nat) : ex := (EAdd (r_iptr_X1A_6 (0 + z) i) (EScale (1) 4 (ESum (0 + z) 2 (ESum (1 + z) 2 (ESum (2 + z) 3 (ESum (3 + z) 3 (EMul (ET 6 [(0 + z); (1 + z); (2 + z); (3 + z)]) (ET 71 [i; (2 + z); (3 + z); (0 + z); (1 + z)])))))))).
Definition r_iptr_X2A (z i b j : nat) : ex := (EScale (-1) 2 (ESum (0 + z) 0 (EMul (r_hb_H_aa_vooo (1 + z) b (0 + z) j i) (ET 66 [(0 + z)])))).
Definition r_iptr_X2A_1 (z i b j : nat) : ex := (EAdd (r_iptr_X2A (0 + z) i b j) (EScale (1) 2 (ESum (0 + z) 1 (EMul (r_hb_H_a_vv (1 + z) b (0 + z)) (ET 67 [i; (0 + z); j]))))).
Definition r_iptr_X2A_2 (z i b j : nat) : ex := (EAdd (r_iptr_X2A_1 (0 + z) i b j) (EScale (1) 4 (ESum (0 + z) 0 (ESum (1 + z) 0 (EMul (r_hb_H_aa_oooo_1 (2 + z) (0 + z) (1 + z) i j) (ET 67 [(0 + z); b; (1 + z)])))))).
Definition r_iptr_I1 (z e : nat) : ex := (ESub (EScale (-1) 2 (ESum (0 + z) 0 (ESum (1 + z) 0 (ESum (2 + z) 1 (EMul (ET 1 [(0 + z); (1 + z); e; (2 + z)]) (ET 67 [(0 + z); (2 + z); (1 + z)])))))) (ESum (0 + z) 0 (ESum (1 + z) 2 (ESum (2 + z) 3 (EMul (ET 3 [(0 + z); (1 + z); e; (2 + z)]) (ET 68 [(0 + z); (2 + z); (1 + z)])))))).
Definition r_iptr_X2A_3 (z i b j : nat) : ex := (EAdd (r_iptr_X2A_2 (0 + z) i b j) (EScale (1) 2 (ESum (0 + z) 1 (EMul (r_iptr_I1 (1 + z) (0 + z)) (ET 10 [(0 + z); b; i; j]))))).
Definition r_iptr_X2A_4 (z i b j : nat) : ex := (ESub (r_iptr_X2A_3 (0 + z) i b j) (ESum (0 + z) 0 (EMul (r_hb_H_a_oo (1 + z) (0 + z) i) (ET 67 [(0 + z); b; j])))).
Definition r_iptr_X2A_5 (z i b j : nat) : ex := (EAdd (r_iptr_X2A_4 (0 + z) i b j) (ESum (0 + z) 0 (ESum (1 + z) 1 (EMul (r_hb_H_aa_voov (2 + z) b (0 + z) j (1 + z)) (ET 67 [i; (1 + z); (0 + z)]))))).
Definition r_iptr_X2A_6 (z i b j : nat) : ex := (EAdd (r_iptr_X2A_5 (0 + z) i b j) (ESum (0 + z) 2 (ESum (1 + z) 3 (EMul (r_hb_H_ab_voov (2 + z) b (0 + z) j (1 + z)) (ET 68 [i; (1 + z); (0 + z)]))))).
Definition r_iptr_X2A_7 (z i b j : nat) : ex := (EAdd (r_iptr_X2A_6 (0 + z) i b j) (EScale (1) 2 (ESum (0 + z) 0 (ESum (1 + z) 1 (EMul (r_hb_H_a_ov (2 + z) (0 + z) (1 + z)) (ET 69 [i; b; (1 + z); j; (0 + z)])))))).
Definition r_iptr_X2A_8 (z i b j : nat) : ex := (EAdd (r_iptr_X2A_7 (0 + z) i b j) (EScale (1) 2 (ESum (0 + z) 2 (ESum (1 + z) 3 (EMul (r_hb_H_b_ov (2 + z) (0 + z) (1 + z)) (ET 70 [i; b; (1 + z); j; (0 + z)])))))).
Definition r_iptr_X2A_9 (z i b j : nat) : ex := (EAdd (r_iptr_X2A_8 (0 + z) i b j) (EScale (1) 4 (ESum (0 + z) 0 (ESum (1 + z) 1 (ESum (2 + z) 1 (EMul (r_hb_H_aa_vovv (3 + z) b (0 + z) (1 + z) (2 + z)) (ET 69 [i; (1 + z); (2 + z); j; (0 + z)]))))))).
Definition r_iptr_X2A_10 (z i b j : nat) : ex := (EAdd (r_iptr_X2A_9 (0 + z) i b j) (EScale (1) 2 (ESum (0 + z) 2 (ESum (1 + z) 1 (ESum (2 + z) 3 (EMul (r_hb_H_ab_vovv (3 + z) b (0 + z) (1 + z) (2 + z)) (ET 70 [i; (1 + z); (2 + z); j; (0 + z)]))))))).
Definition r_iptr_X2A_11 (z i b j : nat) : ex := (ESub (r_iptr_X2A_10 (0 + z) i b j) (EScale (1) 2 (ESum (0 + z) 0 (ESum (1 + z) 0 (ESum (2 + z) 1 (EMul (r_hb_H_aa_ooov (3 + z) (0 + z) (1 + z) j (2 + z)) (ET 69 [i; b; (2 + z); (0 + z); (1 + z)]))))))).
Definition r_iptr_X2A_12 (z i b j : nat) : ex := (ESub (r_iptr_X2A_11 (0 + z) i b j) (ESum (0 + z) 0 (ESum (1 + z) 2 (ESum (2 + z) 3 (EMul (r_hb_H_ab_ooov (3 + z) (0 + z) (1 + z) j (2 + z)) (ET 70 [i; b; (2 + z); (0 + z); (1 + z)])))))).
Definition r_iptr_X2A_13 (z i b j : nat) : ex := (ESub (r_iptr_X2A_12 (0 + z) i b j) (r_iptr_X2A_12 (0 + z) j b i)).
Definition r_iptr_X2B (z i b j : nat) : ex := (EScale (-1) 1 (ESum (0 + z) 0 (EMul (r_hb_H_ab_ovoo (1 + z) (0 + z) b i j) (ET 66 [(0 + z)])))).
Definition r_iptr_X2B_1 (z i b j : nat) : ex := (ESub (r_iptr_X2B (0 + z) i b j) (ESum (0 + z) 0 (EMul (r_hb_H_a_oo (1 + z) (0 + z) i) (ET 68 [(0 + z); b; j])))).
Definition r_iptr_X2B_2 (z i b j : nat) : ex := (ESub (r_iptr_X2B_1 (0 + z) i b j) (ESum (0 + z) 2 (EMul (r_hb_H_b_oo (1 + z) (0 + z) j) (ET 68 [i; b; (0 + z)])))).
Definition r_iptr_X2B_3 (z i b j : nat) : ex := (EAdd (r_iptr_X2B_2 (0 + z) i b j) (ESum (0 + z) 3 (EMul (r_hb_H_b_vv (1 + z) b (0 + z)) (ET 68 [i; (0 + z); j])))).
Definition r_iptr_X2B_4 (z i b j : nat) : ex := (EAdd (r_iptr_X2B_3 (0 + z) i b j) (ESum (0 + z) 0 (ESum (1 + z) 2 (EMul (r_hb_H_ab_oooo (2 + z) (0 + z) (1 + z) i j) (ET 68 [(0 + z); b; (1 + z)]))))).
Definition r_iptr_X2B_5 (z i b j : nat) : ex := (EAdd (r_iptr_X2B_4 (0 + z) i b j) (ESum (0 + z) 0 (ESum (1 + z) 1 (EMul (r_hb_H_ab_ovvo (2 + z) (0 + z) b (1 + z) j) (ET 67 [i; (1 + z); (0 + z)]))))).
Definition r_iptr_X2B_6 (z i b j : nat) : ex := (EAdd (r_iptr_X2B_5 (0 + z) i b j) (ESum (0 + z) 2 (ESum (1 + z) 3 (EMul (r_hb_H_bb_voov (2 + z) b (0 + z) j (1 + z)) (ET 68 [i; (1 + z); (0 + z)]))))).
Definition r_iptr_X2B_7 (z i b j : nat) : ex := (ESub (r_iptr_X2B_6 (0 + z) i b j) (ESum (0 + z) 0 (ESum (1 + z) 3 (EMul (r_hb_H_ab_ovov (2 + z) (0 + z) b i (1 + z)) (ET 68 [(0 + z); (1 + z); j]))))).
Definition r_iptr_I1_1 (z e : nat) : ex := (ESub (EScale (-1) 2 (ESum (0 + z) 0 (ESum (1 + z) 0 (ESum (2 + z) 1 (EMul (ET 1 [(0 + z); (1 + z); e; (2 + z)]) (ET 67 [(0 + z); (2 + z); (1 + z)])))))) (ESum (0 + z) 0 (ESum (1 + z) 2 (ESum (2 + z) 3 (EMul (ET 3 [(0 + z); (1 + z); e; (2 + z)]) (ET 68 [(0 + z); (2 + z); (1 + z)])))))).
Definition r_iptr_X2B_8 (z i b j : nat) : ex := (EAdd (r_iptr_X2B_7 (0 + z) i b j) (ESum (0 + z) 1 (EMul (r_iptr_I1_1 (1 + z) (0 + z)) (ET 11 [(0 + z); b; i; j])))).
Definition r_iptr_X2B_9 (z i b j : nat) : ex := (EAdd (r_iptr_X2B_8 (0 + z) i b j) (ESum (0 + z) 0 (ESum (1 + z) 1 (EMul (r_hb_H_a_ov (2 + z) (0 + z) (1 + z)) (ET 70 [i; (1 + z); b; (0 + z); j]))))).
Definition r_iptr_X2B_10 (z i b j : nat) : ex := (EAdd (r_iptr_X2B_9 (0 + z) i b j) (ESum (0 + z) 2 (ESum (1 + z) 3 (EMul (r_hb_H_b_ov (2 + z) (0 + z) (1 + z)) (ET 71 [i; b; (1 + z); j; (0 + z)]))))).
Definition r_iptr_X2B_11 (z i b j : nat) : ex := (EAdd (r_iptr_X2B_10 (0 + z) i b j) (ESum (0 + z) 0 (ESum (1 + z) 1 (ESum (2 + z) 3 (EMul (r_hb_H_ab_ovvv (3 + z) (0 + z) b (1 + z) (2 + z)) (ET 70 [i; (1 + z); (2 + z); (0 + z); j])))))).
Definition r_iptr_X2B_12 (z i b j : nat) : ex := (EAdd (r_iptr_X2B_11 (0 + z) i b j) (EScale (1) 2 (ESum (0 + z) 2 (ESum (1 + z) 3 (ESum (2 + z) 3 (EMul (r_hb_H_bb_vovv (3 + z) b (0 + z) (1 + z) (2 + z)) (ET 71 [i; (1 + z); (2 + z); j; (0 + z)]))))))).
Definition r_iptr_X2B_13 (z i b j : nat) : ex := (ESub (r_iptr_X2B_12 (0 + z) i b j) (EScale (1) 2 (ESum (0 + z) 0 (ESum (1 + z) 0 (ESum (2 + z) 1 (EMul (r_hb_H_aa_ooov (3 + z) (0 + z) (1 + z) i (2 + z)) (ET 70 [(0 + z); (2 + z); b; (1 + z); j]))))))).
Definition r_iptr_X2B_14 (z i b j : nat) : ex := (ESub (r_iptr_X2B_13 (0 + z) i b j) (ESum (0 + z) 0 (ESum (1 + z) 2 (ESum (2 + z) 3 (EMul (r_hb_H_ab_ooov (3 + z) (0 + z) (1 + z) i (2 + z)) (ET 71 [(0 + z); (2 + z); b; (1 + z); j])))))).
Definition r_iptr_X2B_15 (z i b j : nat) : ex := (ESub (r_iptr_X2B_14 (0 + z) i b j) (ESum (0 + z) 0 (ESum (1 + z) 2 (ESum (2 + z) 1 (EMul (r_hb_H_ab_oovo (3 + z) (0 + z) (1 + z) (2 + z) j) (ET 70 [i; (2 + z); b; (0 + z); (1 + z)])))))).
Definition r_iptr_X2B_16 (z i b j : nat) : ex := (ESub (r_iptr_X2B_15 (0 + z) i b j) (EScale (1) 2 (ESum (0 + z) 2 (ESum (1 + z) 2 (ESum (2 + z) 3 (EMul (r_hb_H_bb_ooov (3 + z) (0 + z) (1 + z) j (2 + z)) (ET 71 [i; (2 + z); b; (1 + z); (0 + z)]))))))).
Definition r_iptr_X3A (z i b c j k : nat) : ex := (EScale (-1) 4 (ESum (0 + z) 0 (EMul (r_hb_H_a_oo (1 + z) (0 + z) j) (ET 69 [i; b; c; (0 + z); k])))).
Definition r_iptr_X3A_1 (z i b c j k : nat) : ex := (EAdd (r_iptr_X3A (0 + z) i b c j k) (EScale (1) 6 (ESum (0 + z) 1 (EMul (r_hb_H_a_vv (1 + z) b (0 + z)) (ET 69 [i; (0 + z); c; j; k]))))).
Definition r_iptr_X3A_2 (z i b c j k : nat) : ex := (EAdd (r_iptr_X3A_1 (0 + z) i b c j k) (EScale (1) 8 (ESum (0 + z) 0 (ESum (1 + z) 0 (EMul (r_hb_H_aa_oooo_1 (2 + z) (0 + z) (1 + z) j k) (ET 69 [i; b; c; (0 + z); (1 + z)])))))).
Definition r_iptr_X3A_3 (z i b c j k : nat) : ex := (EAdd (r_iptr_X3A_2 (0 + z) i b c j k) (EScale (1) 24 (ESum (0 + z) 1 (ESum (1 + z) 1 (EMul (r_hb_H_aa_vvvv_1 (2 + z) b c (0 + z) (1 + z)) (ET 69 [i; (0 + z); (1 + z); j; k])))))).
Definition r_iptr_X3A_4 (z i b c j k : nat) : ex := (EAdd (r_iptr_X3A_3 (0 + z) i b c j k) (EScale (1) 2 (ESum (0 + z) 0 (ESum (1 + z) 1 (EMul (r_hb_H_aa_voov (2 + z) b (0 + z) j (1 + z)) (ET 69 [i; (1 + z); c; (0 + z); k])))))).
Definition r_iptr_X3A_5 (z i b c j k : nat) : ex := (EAdd (r_iptr_X3A_4 (0 + z) i b c j k) (EScale (1) 2 (ESum (0 + z) 2 (ESum (1 + z) 3 (EMul (r_hb_H_ab_voov (2 + z) b (0 + z) j (1 + z)) (ET 70 [i; c; (1 + z); k; (0 + z)])))))).
Definition r_iptr_X3A_6 (z i b c j k : nat) : ex := (ESub (r_iptr_X3A_5 (0 + z) i b c j k) (EScale (1) 2 (ESum (0 + z) 0 (EMul (r_hb_H_aa_vooo (1 + z) c (0 + z) k j) (ET 67 [i; b; (0 + z)]))))).
Definition r_iptr_X3A_7 (z i b c j k : nat) : ex := (EAdd (r_iptr_X3A_6 (0 + z) i b c j k) (EScale (1) 4 (ESum (0 + z) 1 (EMul (r_hb_H_aa_vvov_1 (1 + z) c b k (0 + z)) (ET 67 [i; (0 + z); j]))))).
Definition r_iptr_X3A_8 (z i b c j k : nat) : ex := (ESub (r_iptr_X3A_7 (0 + z) i b c j k) (EScale (1) 4 (ESum (0 + z) 0 (EMul (r_iptr_X_aa_ooo_1 (1 + z) i (0 + z) j) (ET 10 [b; c; (0 + z); k]))))).
Definition r_iptr_X3A_9 (z i b c j k : nat) : ex := (EAdd (r_iptr_X3A_8 (0 + z) i b c j k) (EScale (1) 2 (ESum (0 + z) 1 (EMul (r_iptr_X_aa_ovv (1 + z) i b (0 + z)) (ET 10 [(0 + z); c; j; k]))))).
Definition r_iptr_X3A_10 (z i b c j k : nat) : ex := (ESub (r_iptr_X3A_9 (0 + z) i b c j k) (EAdd (r_iptr_X3A_9 (0 + z) j b c i k) (r_iptr_X3A_9 (0 + z) k b c j i))).
Definition r_iptr_X3A_11 (z i b c j k : nat) : ex := (ESub (r_iptr_X3A_10 (0 + z) i b c j k) (r_iptr_X3A_10 (0 + z) i b c k j)).
Definition r_iptr_X3A_12 (z i b c j k : nat) : ex := (ESub (r_iptr_X3A_11 (0 + z) i b c j k) (r_iptr_X3A_11 (0 + z) i c b j k)).
Definition r_iptr_X3B (z i b c j k : nat) : ex := (EOpp (ESum (0 + z) 0 (EMul (r_hb_H_a_oo (1 + z) (0 + z) j) (ET 70 [i; b; c; (0 + z); k])))).
Definition r_iptr_X3B_1 (z i b c j k : nat) : ex := (ESub (r_iptr_X3B (0 + z) i b c j k) (EScale (1) 2 (ESum (0 + z) 2 (EMul (r_hb_H_b_oo (1 + z) (0 + z) k) (ET 70 [i; b; c; j; (0 + z)]))))).
Definition r_iptr_X3B_2 (z i b c j k : nat) : ex := (EAdd (r_iptr_X3B_1 (0 + z) i b c j k) (EScale (1) 2 (ESum (0 + z) 1 (EMul (r_hb_H_a_vv (1 + z) b (0 + z)) (ET 70 [i; (0 + z); c; j; k]))))).
Definition r_iptr_X3B_3 (z i b c j k : nat) : ex := (EAdd (r_iptr_X3B_2 (0 + z) i b c j k) (EScale (1) 2 (ESum (0 + z) 3 (EMul (r_hb_H_b_vv (1 + z) c (0 + z)) (ET 70 [i; b; (0 + z); j; k]))))).
Definition r_iptr_X3B_4 (z i b c j k : nat) : ex := (EAdd (r_iptr_X3B_3 (0 + z) i b c j k) (ESum (0 + z) 0 (ESum (1 + z) 2 (EMul (r_hb_H_ab_oooo (2 + z) (0 + z) (1 + z) j k) (ET 70 [i; b; c; (0 + z); (1 + z)]))))).
Definition r_iptr_X3B_5 (z i b c j k : nat) : ex := (EAdd (r_iptr_X3B_4 (0 + z) i b c j k) (EScale (1) 4 (ESum (0 + z) 0 (ESum (1 + z) 0 (EMul (r_hb_H_aa_oooo_1 (2 + z) (0 + z) (1 + z) i j) (ET 70 [(0 + z); b; c; (1 + z); k])))))).
Definition r_iptr_X3B_6 (z i b c j k : nat) : ex := (EAdd (r_iptr_X3B_5 (0 + z) i b c j k) (EScale (1) 2 (ESum (0 + z) 1 (ESum (1 + z) 3 (EMul (r_hb_H_ab_vvvv (2 + z) b c (0 + z) (1 + z)) (ET 70 [i; (0 + z); (1 + z); j; k])))))).
Definition r_iptr_X3B_7 (z i b c j k : nat) : ex := (EAdd (r_iptr_X3B_6 (0 + z) i b c j k) (EScale (1) 2 (ESum (0 + z) 0 (ESum (1 + z) 1 (EMul (r_hb_H_ab_ovvo (2 + z) (0 + z) c (1 + z) k) (ET 69 [i; b; (1 + z); j; (0 + z)])))))).
Definition r_iptr_X3B_8 (z i b c j k : nat) : ex := (EAdd (r_iptr_X3B_7 (0 + z) i b c j k) (EScale (1) 2 (ESum (0 + z) 2 (ESum (1 + z) 3 (EMul (r_hb_H_bb_voov (2 + z) c (0 + z) k (1 + z)) (ET 70 [i; b; (1 + z); j; (0 + z)])))))).
Definition r_iptr_X3B_9 (z i b c j k : nat) : ex := (EAdd (r_iptr_X3B_8 (0 + z) i b c j k) (ESum (0 + z) 0 (ESum (1 + z) 1 (EMul (r_hb_H_aa_voov (2 + z) b (0 + z) j (1 + z)) (ET 70 [i; (1 + z); c; (0 + z); k]))))).
Definition r_iptr_X3B_10 (z i b c j k : nat) : ex := (EAdd (r_iptr_X3B_9 (0 + z) i b c j k) (ESum (0 + z) 2 (ESum (1 + z) 3 (EMul (r_hb_H_ab_voov (2 + z) b (0 + z) j (1 + z)) (ET 71 [i; (1 + z); c; (0 + z); k]))))).
Definition r_iptr_X3B_11 (z i b c j k : nat) : ex := (ESub (r_iptr_X3B_10 (0 + z) i b c j k) (ESum (0 + z) 0 (ESum (1 + z) 3 (EMul (r_hb_H_ab_ovov (2 + z) (0 + z) c j (1 + z)) (ET 70 [i; b; (1 + z); (0 + z); k]))))).
Definition r_iptr_X3B_12 (z i b c j k : nat) : ex := (ESub (r_iptr_X3B_11 (0 + z) i b c j k) (EScale (1) 2 (ESum (0 + z) 2 (ESum (1 + z) 1 (EMul (r_hb_H_ab_vovo (2 + z) b (0 + z) (1 + z) k) (ET 70 [i; (1 + z); c; j; (0 + z)])))))).
Definition r_iptr_X3B_13 (z i b c j k : nat) : ex := (ESub (r_iptr_X3B_12 (0 + z) i b c j k) (ESum (0 + z) 0 (EMul (r_hb_H_ab_ovoo (1 + z) (0 + z) c j k) (ET 67 [i; b; (0 + z)])))).
Definition r_iptr_X3B_14 (z i b c j k : nat) : ex := (ESub (r_iptr_X3B_13 (0 + z) i b c j k) (EScale (1) 2 (ESum (0 + z) 0 (EMul (r_hb_H_aa_vooo (1 + z) b (0 + z) j i) (ET 68 [(0 + z); c; k]))))).
Definition r_iptr_X3B_15 (z i b c j k : nat) : ex := (ESub (r_iptr_X3B_14 (0 + z) i b c j k) (ESum (0 + z) 2 (EMul (r_hb_H_ab_vooo (1 + z) b (0 + z) j k) (ET 68 [i; c; (0 + z)])))).
Definition r_iptr_X3B_16 (z i b c j k : nat) : ex := (EAdd (r_iptr_X3B_15 (0 + z) i b c j k) (ESum (0 + z) 3 (EMul (r_hb_H_ab_vvov (1 + z) b c j (0 + z)) (ET 68 [i; (0 + z); k])))).
Definition r_iptr_X3B_17 (z i b c j k : nat) : ex := (EAdd (r_iptr_X3B_16 (0 + z) i b c j k) (EScale (1) 2 (ESum (0 + z) 1 (EMul (r_hb_H_ab_vvvo (1 + z) b c (0 + z) k) (ET 67 [i; (0 + z); j]))))).
Definition r_iptr_X3B_18 (z i b c j k : nat) : ex := (EAdd (r_iptr_X3B_17 (0 + z) i b c j k) (EScale (1) 2 (ESum (0 + z) 1 (EMul (r_iptr_X_ab_vvo (1 + z) (0 + z) c k) (ET 10 [(0 + z); b; i; j]))))).
Definition r_iptr_X3B_19 (z i b c j k : nat) : ex := (ESub (r_iptr_X3B_18 (0 + z) i b c j k) (EScale (1) 2 (ESum (0 + z) 0 (EMul (r_iptr_X_aa_ooo_1 (1 + z) i (0 + z) j) (ET 11 [b; c; (0 + z); k]))))).
Definition r_iptr_X3B_20 (z i b c j k : nat) : ex := (ESub (r_iptr_X3B_19 (0 + z) i b c j k) (ESum (0 + z) 2 (EMul (r_iptr_X_ab_ooo (1 + z) i (0 + z) k) (ET 11 [b; c; j; (0 + z)])))).
Definition r_iptr_X3B_21 (z i b c j k : nat) : ex := (EAdd (r_iptr_X3B_20 (0 + z) i b c j k) (ESum (0 + z) 3 (EMul (r_iptr_X_ab_ovv (1 + z) i c (0 + z)) (ET 11 [b; (0 + z); j; k])))).
Definition r_iptr_X3B_22 (z i b c j k : nat) : ex := (EAdd (r_iptr_X3B_21 (0 + z) i b c j k) (ESum (0 + z) 1 (EMul (r_iptr_X_aa_ovv (1 + z) i b (0 + z)) (ET 11 [(0 + z); c; j; k])))).
Definition r_iptr_X3B_23 (z i b c j k : nat) : ex := (ESub (r_iptr_X3B_22 (0 + z) i b c j k) (r_iptr_X3B_22 (0 + z) j b c i k)).
Definition r_iptr_X3C (z i b c j k : nat) : ex := (EScale (-1) 2 (ESum (0 + z) 2 (EMul (r_hb_H_b_oo (1 + z) (0 + z) j) (ET 71 [i; b; c; (0 + z); k])))).
Definition r_iptr_X3C_1 (z i b c j k : nat) : ex := (ESub (r_iptr_X3C (0 + z) i b c j k) (EScale (1) 4 (ESum (0 + z) 0 (EMul (r_hb_H_a_oo (1 + z) (0 + z) i) (ET 71 [(0 + z); b; c; j; k]))))).
Definition r_iptr_X3C_2 (z i b c j k : nat) : ex := (EAdd (r_iptr_X3C_1 (0 + z) i b c j k) (EScale (1) 2 (ESum (0 + z) 3 (EMul (r_hb_H_b_vv (1 + z) b (0 + z)) (ET 71 [i; (0 + z); c; j; k]))))).
Definition r_iptr_X3C_3 (z i b c j k : nat) : ex := (EAdd (r_iptr_X3C_2 (0 + z) i b c j k) (EScale (1) 8 (ESum (0 + z) 2 (ESum (1 + z) 2 (EMul (r_hb_H_bb_oooo_1 (2 + z) (0 + z) (1 + z) j k) (ET 71 [i; b; c; (0 + z); (1 + z)])))))).
Definition r_iptr_X3C_4 (z i b c j k : nat) : ex := (EAdd (r_iptr_X3C_3 (0 + z) i b c j k) (EScale (1) 2 (ESum (0 + z) 0 (ESum (1 + z) 2 (EMul (r_hb_H_ab_oooo (2 + z) (0 + z) (1 + z) i j) (ET 71 [(0 + z); b; c; (1 + z); k])))))).
Definition r_iptr_X3C_5 (z i b c j k : nat) : ex := (EAdd (r_iptr_X3C_4 (0 + z) i b c j k) (EScale (1) 8 (ESum (0 + z) 3 (ESum (1 + z) 3 (EMul (r_hb_H_bb_vvvv_1 (2 + z) b c (0 + z) (1 + z)) (ET 71 [i; (0 + z); (1 + z); j; k])))))).
Definition r_iptr_X3C_6 (z i b c j k : nat) : ex := (EAdd (r_iptr_X3C_5 (0 + z) i b c j k) (ESum (0 + z) 0 (ESum (1 + z) 1 (EMul (r_hb_H_ab_ovvo (2 + z) (0 + z) b (1 + z) j) (ET 70 [i; (1 + z); c; (0 + z); k]))))).
Definition r_iptr_X3C_7 (z i b c j k : nat) : ex := (EAdd (r_iptr_X3C_6 (0 + z) i b c j k) (ESum (0 + z) 2 (ESum (1 + z) 3 (EMul (r_hb_H_bb_voov (2 + z) b (0 + z) j (1 + z)) (ET 71 [i; (1 + z); c; (0 + z); k]))))).
Definition r_iptr_X3C_8 (z i b c j k : nat) : ex := (ESub (r_iptr_X3C_7 (0 + z) i b c j k) (EScale (1) 2 (ESum (0 + z) 0 (ESum (1 + z) 3 (EMul (r_hb_H_ab_ovov (2 + z) (0 + z) b i (1 + z)) (ET 71 [(0 + z); (1 + z); c; j; k])))))).
Definition r_iptr_X3C_9 (z i b c j k : nat) : ex := (ESub (r_iptr_X3C_8 (0 + z) i b c j k) (ESum (0 + z) 0 (EMul (r_hb_H_ab_ovoo (1 + z) (0 + z) c i k) (ET 68 [(0 + z); b; j])))).
Definition r_iptr_X3C_10 (z i b c j k : nat) : ex := (ESub (r_iptr_X3C_9 (0 + z) i b c j k) (EScale (1) 2 (ESum (0 + z) 2 (EMul (r_hb_H_bb_vooo (1 + z) c (0 + z) k j) (ET 68 [i; b; (0 + z)]))))).
Definition r_iptr_X3C_11 (z i b c j k : nat) : ex := (EAdd (r_iptr_X3C_10 (0 + z) i b c j k) (EScale (1) 2 (ESum (0 + z) 3 (EMul (r_hb_H_bb_vvov_1 (1 + z) c b k (0 + z)) (ET 68 [i; (0 + z); j]))))).
Definition r_iptr_X3C_12 (z i b c j k : nat) : ex := (ESub (r_iptr_X3C_11 (0 + z) i b c j k) (EScale (1) 2 (ESum (0 + z) 2 (EMul (r_iptr_X_ab_ooo (1 + z) i (0 + z) j) (ET 18 [b; c; (0 + z); k]))))).
Definition r_iptr_X3C_13 (z i b c j k : nat) : ex := (EAdd (r_iptr_X3C_12 (0 + z) i b c j k) (EScale (1) 2 (ESum (0 + z) 3 (EMul (r_iptr_X_ab_ovv (1 + z) i b (0 + z)) (ET 18 [(0 + z); c; j; k]))))).
Definition r_iptr_X3C_14 (z i b c j k : nat) : ex := (EAdd (r_iptr_X3C_13 (0 + z) i b c j k) (ESum (0 + z) 1 (EMul (r_iptr_X_ab_vvo (1 + z) (0 + z) b j) (ET 11 [(0 + z); c; i; k])))).
Definition r_iptr_X3C_15 (z i b c j k : nat) : ex := (ESub (r_iptr_X3C_14 (0 + z) i b c j k) (r_iptr_X3C_14 (0 + z) i c b j k)).
Definition r_iptr_X3C_16 (z i b c j k : nat) : ex := (ESub (r_iptr_X3C_15 (0 + z) i b c j k) (r_iptr_X3C_15 (0 + z) i b c k j)).
Definition s_ipt_a := r_iptr_X1A_7.
Definition s_ipt_aa := r_iptr_X2A_13.
Definition s_ipt_ab := r_iptr_X2B_16.
Definition s_ipt_aaa := r_iptr_X3A_12.
Definition s_ipt_aab := r_iptr_X3B_23.
Definition s_ipt_abb := r_iptr_X3C_16.
