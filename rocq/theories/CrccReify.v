(** Generated by tools/gen_crcc.py: moments and left amplitudes of CR-CC(2,3) with the similarity-transformed Hamiltonian put in, reified; arrays 0-65 as in
    FockArrays.v, 66-70 the left amplitudes (proof support). *)
From Coq Require Import Reals Arith List ZArith.
From Verif Require Import RSum IntegralsModel TensorObjs TensorAlg.
Import ListNotations.
Local Open Scope nat_scope.
Definition k_hb_H_a_ov (z i a : nat) : ex := (EAdd (ET 10 [i; a]) (EAdd (ESum (0 + z) 0 (ESum (1 + z) 1 (EMul (ET 20 [i; (0 + z); a; (1 + z)]) (ET 0 [(1 + z); (0 + z)])))) (ESum (0 + z) 2 (ESum (1 + z) 3 (EMul (ET 36 [i; (0 + z); a; (1 + z)]) (ET 1 [(1 + z); (0 + z)])))))).
Definition k_hb_H_a_oo (z i j : nat) : ex := (EAdd (ET 9 [i; j]) (EAdd (EAdd (EAdd (EAdd (ESum (0 + z) 1 (EMul (k_hb_H_a_ov (1 + z) i (0 + z)) (ET 0 [(0 + z); j]))) (ESum (0 + z) 0 (ESum (1 + z) 1 (EMul (ET 18 [i; (0 + z); j; (1 + z)]) (ET 0 [(1 + z); (0 + z)]))))) (ESum (0 + z) 2 (ESum (1 + z) 3 (EMul (ET 34 [i; (0 + z); j; (1 + z)]) (ET 1 [(1 + z); (0 + z)]))))) (EScale (1) 2 (ESum (0 + z) 0 (ESum (1 + z) 1 (ESum (2 + z) 1 (EMul (ET 20 [i; (0 + z); (1 + z); (2 + z)]) (ET 2 [(1 + z); (2 + z); j; (0 + z)]))))))) (ESum (0 + z) 2 (ESum (1 + z) 1 (ESum (2 + z) 3 (EMul (ET 36 [i; (0 + z); (1 + z); (2 + z)]) (ET 3 [(1 + z); (2 + z); j; (0 + z)]))))))).
Definition k_hb_H_a_vv (z a b : nat) : ex := (EAdd (ET 12 [a; b]) (ESub (ESub (EAdd (EAdd (EOpp (ESum (0 + z) 0 (EMul (k_hb_H_a_ov (1 + z) (0 + z) b) (ET 0 [a; (0 + z)])))) (ESum (0 + z) 0 (ESum (1 + z) 1 (EMul (ET 28 [a; (0 + z); b; (1 + z)]) (ET 0 [(1 + z); (0 + z)]))))) (ESum (0 + z) 2 (ESum (1 + z) 3 (EMul (ET 44 [a; (0 + z); b; (1 + z)]) (ET 1 [(1 + z); (0 + z)]))))) (EScale (1) 2 (ESum (0 + z) 0 (ESum (1 + z) 0 (ESum (2 + z) 1 (EMul (ET 20 [(0 + z); (1 + z); b; (2 + z)]) (ET 2 [a; (2 + z); (0 + z); (1 + z)]))))))) (ESum (0 + z) 0 (ESum (1 + z) 2 (ESum (2 + z) 3 (EMul (ET 36 [(0 + z); (1 + z); b; (2 + z)]) (ET 3 [a; (2 + z); (0 + z); (1 + z)]))))))).
Definition k_hb_H_b_ov (z i a : nat) : ex := (EAdd (ET 14 [i; a]) (EAdd (ESum (0 + z) 2 (ESum (1 + z) 3 (EMul (ET 52 [i; (0 + z); a; (1 + z)]) (ET 1 [(1 + z); (0 + z)])))) (ESum (0 + z) 0 (ESum (1 + z) 1 (EMul (ET 36 [(0 + z); i; (1 + z); a]) (ET 0 [(1 + z); (0 + z)])))))).
Definition k_hb_H_b_oo (z i j : nat) : ex := (EAdd (ET 13 [i; j]) (EAdd (EAdd (EAdd (EAdd (ESum (0 + z) 3 (EMul (k_hb_H_b_ov (1 + z) i (0 + z)) (ET 1 [(0 + z); j]))) (ESum (0 + z) 2 (ESum (1 + z) 3 (EMul (ET 50 [i; (0 + z); j; (1 + z)]) (ET 1 [(1 + z); (0 + z)]))))) (ESum (0 + z) 0 (ESum (1 + z) 1 (EMul (ET 35 [(0 + z); i; (1 + z); j]) (ET 0 [(1 + z); (0 + z)]))))) (EScale (1) 2 (ESum (0 + z) 2 (ESum (1 + z) 3 (ESum (2 + z) 3 (EMul (ET 52 [i; (0 + z); (1 + z); (2 + z)]) (ET 4 [(1 + z); (2 + z); j; (0 + z)]))))))) (ESum (0 + z) 0 (ESum (1 + z) 1 (ESum (2 + z) 3 (EMul (ET 36 [(0 + z); i; (1 + z); (2 + z)]) (ET 3 [(1 + z); (2 + z); (0 + z); j]))))))).
Definition k_hb_H_b_vv (z a b : nat) : ex := (EAdd (ET 16 [a; b]) (ESub (ESub (EAdd (EAdd (EOpp (ESum (0 + z) 2 (EMul (k_hb_H_b_ov (1 + z) (0 + z) b) (ET 1 [a; (0 + z)])))) (ESum (0 + z) 2 (ESum (1 + z) 3 (EMul (ET 60 [a; (0 + z); b; (1 + z)]) (ET 1 [(1 + z); (0 + z)]))))) (ESum (0 + z) 0 (ESum (1 + z) 1 (EMul (ET 40 [(0 + z); a; (1 + z); b]) (ET 0 [(1 + z); (0 + z)]))))) (EScale (1) 2 (ESum (0 + z) 2 (ESum (1 + z) 2 (ESum (2 + z) 3 (EMul (ET 52 [(0 + z); (1 + z); b; (2 + z)]) (ET 4 [a; (2 + z); (0 + z); (1 + z)]))))))) (ESum (0 + z) 0 (ESum (1 + z) 2 (ESum (2 + z) 1 (EMul (ET 36 [(0 + z); (1 + z); (2 + z); b]) (ET 3 [(2 + z); a; (0 + z); (1 + z)]))))))).
Definition k_hb_tau_aa (z a b i j : nat) : ex := (EAdd (EScale (1) 2 (ET 2 [a; b; i; j])) (EMul (ET 0 [a; i]) (ET 0 [b; j]))).
Definition k_hb_tau_aa_1 (z a b i j : nat) : ex := (ESub (k_hb_tau_aa (0 + z) a b i j) (k_hb_tau_aa (0 + z) a b j i)).
Definition k_hb_tau_bb (z a b i j : nat) : ex := (EAdd (EScale (1) 2 (ET 4 [a; b; i; j])) (EMul (ET 1 [a; i]) (ET 1 [b; j]))).
Definition k_hb_tau_bb_1 (z a b i j : nat) : ex := (ESub (k_hb_tau_bb (0 + z) a b i j) (k_hb_tau_bb (0 + z) a b j i)).
Definition k_hb_tau_ab (z a b i j : nat) : ex := (EAdd (ET 3 [a; b; i; j]) (EMul (ET 0 [a; i]) (ET 1 [b; j]))).
Definition k_hb_H_aa_oooo (z m n i j : nat) : ex := (EAdd (EAdd (EScale (1) 2 (ET 17 [m; n; i; j])) (ESum (0 + z) 1 (EMul (ET 18 [n; m; j; (0 + z)]) (ET 0 [(0 + z); i])))) (EScale (1) 4 (ESum (0 + z) 1 (ESum (1 + z) 1 (EMul (ET 20 [m; n; (0 + z); (1 + z)]) (k_hb_tau_aa_1 (2 + z) (0 + z) (1 + z) i j)))))).
Definition k_hb_H_aa_oooo_1 (z m n i j : nat) : ex := (ESub (k_hb_H_aa_oooo (0 + z) m n i j) (k_hb_H_aa_oooo (0 + z) m n j i)).
Definition k_hb_H_bb_oooo (z m n i j : nat) : ex := (EAdd (EAdd (EScale (1) 2 (ET 49 [m; n; i; j])) (ESum (0 + z) 3 (EMul (ET 50 [n; m; j; (0 + z)]) (ET 1 [(0 + z); i])))) (EScale (1) 4 (ESum (0 + z) 3 (ESum (1 + z) 3 (EMul (ET 52 [m; n; (0 + z); (1 + z)]) (k_hb_tau_bb_1 (2 + z) (0 + z) (1 + z) i j)))))).
Definition k_hb_H_bb_oooo_1 (z m n i j : nat) : ex := (ESub (k_hb_H_bb_oooo (0 + z) m n i j) (k_hb_H_bb_oooo (0 + z) m n j i)).
Definition k_hb_H_ab_oooo (z m n i j : nat) : ex := (EAdd (EAdd (EAdd (ET 33 [m; n; i; j]) (ESum (0 + z) 1 (EMul (ET 35 [m; n; (0 + z); j]) (ET 0 [(0 + z); i])))) (ESum (0 + z) 3 (EMul (ET 34 [m; n; i; (0 + z)]) (ET 1 [(0 + z); j])))) (ESum (0 + z) 1 (ESum (1 + z) 3 (EMul (ET 36 [m; n; (0 + z); (1 + z)]) (k_hb_tau_ab (2 + z) (0 + z) (1 + z) i j))))).
Definition k_hb_H_aa_ooov (z i j k a : nat) : ex := (EAdd (ET 18 [i; j; k; a]) (ESum (0 + z) 1 (EMul (ET 20 [i; j; (0 + z); a]) (ET 0 [(0 + z); k])))).
Definition k_hb_H_bb_ooov (z i j k a : nat) : ex := (EAdd (ET 50 [i; j; k; a]) (ESum (0 + z) 3 (EMul (ET 52 [i; j; (0 + z); a]) (ET 1 [(0 + z); k])))).
Definition k_hb_H_ab_ooov (z i j k a : nat) : ex := (EAdd (ET 34 [i; j; k; a]) (ESum (0 + z) 1 (EMul (ET 36 [i; j; (0 + z); a]) (ET 0 [(0 + z); k])))).
Definition k_hb_H_ab_oovo (z i j a k : nat) : ex := (EAdd (ET 35 [i; j; a; k]) (ESum (0 + z) 3 (EMul (ET 36 [i; j; a; (0 + z)]) (ET 1 [(0 + z); k])))).
Definition k_hb_Q1 (z a m i j : nat) : ex := (EAdd (ESum (0 + z) 0 (ESum (1 + z) 1 (EMul (k_hb_H_aa_ooov (2 + z) m (0 + z) j (1 + z)) (ET 2 [a; (1 + z); i; (0 + z)])))) (ESum (0 + z) 2 (ESum (1 + z) 3 (EMul (k_hb_H_ab_ooov (2 + z) m (0 + z) j (1 + z)) (ET 3 [a; (1 + z); i; (0 + z)]))))).
Definition k_hb_Q2 (z a m i f : nat) : ex := (EAdd (ET 26 [a; m; i; f]) (EScale (1) 2 (ESum (0 + z) 1 (EMul (ET 28 [a; m; (0 + z); f]) (ET 0 [(0 + z); i]))))).
Definition k_hb_Q2_1 (z a m i j : nat) : ex := (ESum (0 + z) 1 (EMul (k_hb_Q2 (1 + z) a m i (0 + z)) (ET 0 [(0 + z); j]))).
Definition k_hb_Q1_1 (z a m i j : nat) : ex := (EAdd (k_hb_Q1 (0 + z) a m i j) (k_hb_Q2_1 (0 + z) a m i j)).
Definition k_hb_Q1_2 (z a m i j : nat) : ex := (ESub (k_hb_Q1_1 (0 + z) a m i j) (k_hb_Q1_1 (0 + z) a m j i)).
Definition k_hb_H_aa_vooo (z a m i j : nat) : ex := (EAdd (EAdd (ET 25 [a; m; i; j]) (k_hb_Q1_2 (0 + z) a m i j)) (EAdd (ESub (ESum (0 + z) 1 (EMul (k_hb_H_a_ov (1 + z) m (0 + z)) (ET 2 [a; (0 + z); i; j]))) (ESum (0 + z) 0 (EMul (k_hb_H_aa_oooo_1 (1 + z) (0 + z) m i j) (ET 0 [a; (0 + z)])))) (EScale (1) 2 (ESum (0 + z) 1 (ESum (1 + z) 1 (EMul (ET 28 [a; m; (0 + z); (1 + z)]) (ET 2 [(0 + z); (1 + z); i; j]))))))).
Definition k_hb_Q1_3 (z a m i j : nat) : ex := (EAdd (ESum (0 + z) 2 (ESum (1 + z) 3 (EMul (k_hb_H_bb_ooov (2 + z) m (0 + z) j (1 + z)) (ET 4 [a; (1 + z); i; (0 + z)])))) (ESum (0 + z) 0 (ESum (1 + z) 1 (EMul (k_hb_H_ab_oovo (2 + z) (0 + z) m (1 + z) j) (ET 3 [(1 + z); a; (0 + z); i]))))).
Definition k_hb_Q2_2 (z a m i f : nat) : ex := (EAdd (ET 58 [a; m; i; f]) (EScale (1) 2 (ESum (0 + z) 3 (EMul (ET 60 [a; m; (0 + z); f]) (ET 1 [(0 + z); i]))))).
Definition k_hb_Q2_3 (z a m i j : nat) : ex := (ESum (0 + z) 3 (EMul (k_hb_Q2_2 (1 + z) a m i (0 + z)) (ET 1 [(0 + z); j]))).
Definition k_hb_Q1_4 (z a m i j : nat) : ex := (EAdd (k_hb_Q1_3 (0 + z) a m i j) (k_hb_Q2_3 (0 + z) a m i j)).
Definition k_hb_Q1_5 (z a m i j : nat) : ex := (ESub (k_hb_Q1_4 (0 + z) a m i j) (k_hb_Q1_4 (0 + z) a m j i)).
Definition k_hb_H_bb_vooo (z a m i j : nat) : ex := (EAdd (EAdd (ET 57 [a; m; i; j]) (k_hb_Q1_5 (0 + z) a m i j)) (EAdd (ESub (ESum (0 + z) 3 (EMul (k_hb_H_b_ov (1 + z) m (0 + z)) (ET 4 [a; (0 + z); i; j]))) (ESum (0 + z) 2 (EMul (k_hb_H_bb_oooo_1 (1 + z) (0 + z) m i j) (ET 1 [a; (0 + z)])))) (EScale (1) 2 (ESum (0 + z) 3 (ESum (1 + z) 3 (EMul (ET 60 [a; m; (0 + z); (1 + z)]) (ET 4 [(0 + z); (1 + z); i; j]))))))).
Definition k_hb_Q1_6 (z a m i e : nat) : ex := (EAdd (ET 42 [a; m; i; e]) (ESum (0 + z) 1 (EMul (ET 44 [a; m; (0 + z); e]) (ET 0 [(0 + z); i])))).
Definition k_hb_H_ab_vooo (z a m i j : nat) : ex := (EAdd (ET 41 [a; m; i; j]) (EAdd (EAdd (EAdd (ESub (EAdd (EAdd (ESub (ESum (0 + z) 3 (EMul (k_hb_H_b_ov (1 + z) m (0 + z)) (ET 3 [a; (0 + z); i; j]))) (ESum (0 + z) 0 (EMul (k_hb_H_ab_oooo (1 + z) (0 + z) m i j) (ET 0 [a; (0 + z)])))) (ESum (0 + z) 2 (ESum (1 + z) 3 (EMul (k_hb_H_bb_ooov (2 + z) m (0 + z) j (1 + z)) (ET 3 [a; (1 + z); i; (0 + z)]))))) (ESum (0 + z) 0 (ESum (1 + z) 1 (EMul (k_hb_H_ab_oovo (2 + z) (0 + z) m (1 + z) j) (ET 2 [a; (1 + z); i; (0 + z)]))))) (ESum (0 + z) 0 (ESum (1 + z) 3 (EMul (k_hb_H_ab_ooov (2 + z) (0 + z) m i (1 + z)) (ET 3 [a; (1 + z); (0 + z); j]))))) (ESum (0 + z) 1 (EMul (ET 43 [a; m; (0 + z); j]) (ET 0 [(0 + z); i])))) (ESum (0 + z) 3 (EMul (k_hb_Q1_6 (1 + z) a m i (0 + z)) (ET 1 [(0 + z); j])))) (ESum (0 + z) 1 (ESum (1 + z) 3 (EMul (ET 44 [a; m; (0 + z); (1 + z)]) (ET 3 [(0 + z); (1 + z); i; j])))))).
Definition k_hb_Q1_7 (z m a j e : nat) : ex := (EAdd (ET 38 [m; a; j; e]) (ESum (0 + z) 1 (EMul (ET 40 [m; a; (0 + z); e]) (ET 0 [(0 + z); j])))).
Definition k_hb_H_ab_ovoo (z m a j i : nat) : ex := (EAdd (ET 37 [m; a; j; i]) (EAdd (EAdd (EAdd (ESub (EAdd (EAdd (ESub (ESum (0 + z) 1 (EMul (k_hb_H_a_ov (1 + z) m (0 + z)) (ET 3 [(0 + z); a; j; i]))) (ESum (0 + z) 2 (EMul (k_hb_H_ab_oooo (1 + z) m (0 + z) j i) (ET 1 [a; (0 + z)])))) (ESum (0 + z) 0 (ESum (1 + z) 1 (EMul (k_hb_H_aa_ooov (2 + z) m (0 + z) j (1 + z)) (ET 3 [(1 + z); a; (0 + z); i]))))) (ESum (0 + z) 2 (ESum (1 + z) 3 (EMul (k_hb_H_ab_ooov (2 + z) m (0 + z) j (1 + z)) (ET 4 [(1 + z); a; (0 + z); i]))))) (ESum (0 + z) 2 (ESum (1 + z) 1 (EMul (k_hb_H_ab_oovo (2 + z) m (0 + z) (1 + z) i) (ET 3 [(1 + z); a; j; (0 + z)]))))) (ESum (0 + z) 3 (EMul (k_hb_Q1_7 (1 + z) m a j (0 + z)) (ET 1 [(0 + z); i])))) (ESum (0 + z) 1 (EMul (ET 39 [m; a; (0 + z); i]) (ET 0 [(0 + z); j])))) (ESum (0 + z) 1 (ESum (1 + z) 3 (EMul (ET 40 [m; a; (0 + z); (1 + z)]) (ET 3 [(0 + z); (1 + z); j; i])))))).
Definition k_hb_H_aa_voov (z a m i e : nat) : ex := (EAdd (EAdd (ESub (EAdd (ET 26 [a; m; i; e]) (ESum (0 + z) 1 (EMul (ET 28 [a; m; (0 + z); e]) (ET 0 [(0 + z); i])))) (ESum (0 + z) 0 (EMul (k_hb_H_aa_ooov (1 + z) (0 + z) m i e) (ET 0 [a; (0 + z)])))) (ESum (0 + z) 0 (ESum (1 + z) 1 (EMul (ET 20 [(0 + z); m; (1 + z); e]) (ET 2 [a; (1 + z); i; (0 + z)]))))) (ESum (0 + z) 2 (ESum (1 + z) 3 (EMul (ET 36 [m; (0 + z); e; (1 + z)]) (ET 3 [a; (1 + z); i; (0 + z)]))))).
Definition k_hb_H_bb_voov (z a m i e : nat) : ex := (EAdd (EAdd (ESub (EAdd (ET 58 [a; m; i; e]) (ESum (0 + z) 3 (EMul (ET 60 [a; m; (0 + z); e]) (ET 1 [(0 + z); i])))) (ESum (0 + z) 2 (EMul (k_hb_H_bb_ooov (1 + z) (0 + z) m i e) (ET 1 [a; (0 + z)])))) (ESum (0 + z) 2 (ESum (1 + z) 3 (EMul (ET 52 [(0 + z); m; (1 + z); e]) (ET 4 [a; (1 + z); i; (0 + z)]))))) (ESum (0 + z) 0 (ESum (1 + z) 1 (EMul (ET 36 [(0 + z); m; (1 + z); e]) (ET 3 [(1 + z); a; (0 + z); i]))))).
Definition k_hb_H_ab_voov (z a m i e : nat) : ex := (EAdd (EAdd (ESub (EAdd (ET 42 [a; m; i; e]) (ESum (0 + z) 1 (EMul (ET 44 [a; m; (0 + z); e]) (ET 0 [(0 + z); i])))) (ESum (0 + z) 0 (EMul (k_hb_H_ab_ooov (1 + z) (0 + z) m i e) (ET 0 [a; (0 + z)])))) (ESum (0 + z) 0 (ESum (1 + z) 1 (EMul (ET 36 [(0 + z); m; (1 + z); e]) (ET 2 [a; (1 + z); i; (0 + z)]))))) (ESum (0 + z) 2 (ESum (1 + z) 3 (EMul (ET 52 [(0 + z); m; (1 + z); e]) (ET 3 [a; (1 + z); i; (0 + z)]))))).
Definition k_hb_H_ab_ovvo (z m a e i : nat) : ex := (EAdd (EAdd (ESub (EAdd (ET 39 [m; a; e; i]) (ESum (0 + z) 3 (EMul (ET 40 [m; a; e; (0 + z)]) (ET 1 [(0 + z); i])))) (ESum (0 + z) 2 (EMul (k_hb_H_ab_oovo (1 + z) m (0 + z) e i) (ET 1 [a; (0 + z)])))) (ESum (0 + z) 2 (ESum (1 + z) 3 (EMul (ET 36 [m; (0 + z); e; (1 + z)]) (ET 4 [a; (1 + z); i; (0 + z)]))))) (ESum (0 + z) 0 (ESum (1 + z) 1 (EMul (ET 20 [m; (0 + z); e; (1 + z)]) (ET 3 [(1 + z); a; (0 + z); i]))))).
Definition k_hb_H_ab_ovov (z m a i e : nat) : ex := (ESub (ESub (EAdd (ET 38 [m; a; i; e]) (ESum (0 + z) 1 (EMul (ET 40 [m; a; (0 + z); e]) (ET 0 [(0 + z); i])))) (ESum (0 + z) 2 (EMul (k_hb_H_ab_ooov (1 + z) m (0 + z) i e) (ET 1 [a; (0 + z)])))) (ESum (0 + z) 2 (ESum (1 + z) 1 (EMul (ET 36 [m; (0 + z); (1 + z); e]) (ET 3 [(1 + z); a; i; (0 + z)]))))).
Definition k_hb_H_ab_vovo (z a m e i : nat) : ex := (ESub (EAdd (ESub (ET 43 [a; m; e; i]) (ESum (0 + z) 0 (EMul (k_hb_H_ab_oovo (1 + z) (0 + z) m e i) (ET 0 [a; (0 + z)])))) (ESum (0 + z) 3 (EMul (ET 44 [a; m; e; (0 + z)]) (ET 1 [(0 + z); i])))) (ESum (0 + z) 0 (ESum (1 + z) 3 (EMul (ET 36 [(0 + z); m; e; (1 + z)]) (ET 3 [a; (1 + z); (0 + z); i]))))).
Definition k_hb_x2a_voov (z a m i e : nat) : ex := (EAdd (k_hb_H_aa_voov (0 + z) a m i e) (EScale (1) 2 (ESum (0 + z) 0 (EMul (k_hb_H_aa_ooov (1 + z) (0 + z) m i e) (ET 0 [a; (0 + z)]))))).
Definition k_hb_H_aa_vvov (z a b i e : nat) : ex := (EAdd (EAdd (EAdd (EAdd (ESub (ESub (EScale (1) 2 (ET 30 [a; b; i; e])) (EScale (1) 2 (ESum (0 + z) 0 (EMul (k_hb_H_a_ov (1 + z) (0 + z) e) (ET 2 [a; b; i; (0 + z)]))))) (ESum (0 + z) 0 (EMul (k_hb_x2a_voov (1 + z) a (0 + z) i e) (ET 0 [b; (0 + z)])))) (EScale (1) 4 (ESum (0 + z) 0 (ESum (1 + z) 0 (EMul (k_hb_H_aa_ooov (2 + z) (0 + z) (1 + z) i e) (ET 2 [a; b; (0 + z); (1 + z)])))))) (EScale (1) 2 (ESum (0 + z) 1 (EMul (ET 32 [a; b; (0 + z); e]) (ET 0 [(0 + z); i]))))) (ESum (0 + z) 0 (ESum (1 + z) 1 (EMul (ET 28 [b; (0 + z); e; (1 + z)]) (ET 2 [a; (1 + z); i; (0 + z)]))))) (ESum (0 + z) 2 (ESum (1 + z) 3 (EMul (ET 44 [b; (0 + z); e; (1 + z)]) (ET 3 [a; (1 + z); i; (0 + z)]))))).
Definition k_hb_H_aa_vvov_1 (z a b i e : nat) : ex := (ESub (k_hb_H_aa_vvov (0 + z) a b i e) (k_hb_H_aa_vvov (0 + z) b a i e)).
Definition k_hb_x2c_voov (z a m i e : nat) : ex := (EAdd (k_hb_H_bb_voov (0 + z) a m i e) (EScale (1) 2 (ESum (0 + z) 2 (EMul (k_hb_H_bb_ooov (1 + z) (0 + z) m i e) (ET 1 [a; (0 + z)]))))).
Definition k_hb_H_bb_vvov (z a b i e : nat) : ex := (EAdd (EAdd (EAdd (EAdd (ESub (ESub (EScale (1) 2 (ET 62 [a; b; i; e])) (EScale (1) 2 (ESum (0 + z) 2 (EMul (k_hb_H_b_ov (1 + z) (0 + z) e) (ET 4 [a; b; i; (0 + z)]))))) (ESum (0 + z) 2 (EMul (k_hb_x2c_voov (1 + z) a (0 + z) i e) (ET 1 [b; (0 + z)])))) (EScale (1) 4 (ESum (0 + z) 2 (ESum (1 + z) 2 (EMul (k_hb_H_bb_ooov (2 + z) (0 + z) (1 + z) i e) (ET 4 [a; b; (0 + z); (1 + z)])))))) (EScale (1) 2 (ESum (0 + z) 3 (EMul (ET 64 [a; b; (0 + z); e]) (ET 1 [(0 + z); i]))))) (ESum (0 + z) 2 (ESum (1 + z) 3 (EMul (ET 60 [b; (0 + z); e; (1 + z)]) (ET 4 [a; (1 + z); i; (0 + z)]))))) (ESum (0 + z) 0 (ESum (1 + z) 1 (EMul (ET 40 [(0 + z); b; (1 + z); e]) (ET 3 [(1 + z); a; (0 + z); i]))))).
Definition k_hb_H_bb_vvov_1 (z a b i e : nat) : ex := (ESub (k_hb_H_bb_vvov (0 + z) a b i e) (k_hb_H_bb_vvov (0 + z) b a i e)).
Definition k_hb_x2b_voov (z a m i e : nat) : ex := (EAdd (k_hb_H_ab_voov (0 + z) a m i e) (EScale (1) 2 (ESum (0 + z) 0 (EMul (k_hb_H_ab_ooov (1 + z) (0 + z) m i e) (ET 0 [a; (0 + z)]))))).
Definition k_hb_x2b_ovov (z m a i e : nat) : ex := (EAdd (k_hb_H_ab_ovov (0 + z) m a i e) (EScale (1) 2 (ESum (0 + z) 2 (EMul (k_hb_H_ab_ooov (1 + z) m (0 + z) i e) (ET 1 [a; (0 + z)]))))).
Definition k_hb_H_ab_vvov (z a b i e : nat) : ex := (ESub (EAdd (EAdd (EAdd (EAdd (ESub (ESub (ESub (ET 46 [a; b; i; e]) (ESum (0 + z) 2 (EMul (k_hb_H_b_ov (1 + z) (0 + z) e) (ET 3 [a; b; i; (0 + z)])))) (ESum (0 + z) 2 (EMul (k_hb_x2b_voov (1 + z) a (0 + z) i e) (ET 1 [b; (0 + z)])))) (ESum (0 + z) 0 (EMul (k_hb_x2b_ovov (1 + z) (0 + z) b i e) (ET 0 [a; (0 + z)])))) (ESum (0 + z) 0 (ESum (1 + z) 2 (EMul (k_hb_H_ab_ooov (2 + z) (0 + z) (1 + z) i e) (ET 3 [a; b; (0 + z); (1 + z)]))))) (ESum (0 + z) 1 (EMul (ET 48 [a; b; (0 + z); e]) (ET 0 [(0 + z); i])))) (ESum (0 + z) 0 (ESum (1 + z) 1 (EMul (ET 40 [(0 + z); b; (1 + z); e]) (ET 2 [a; (1 + z); i; (0 + z)]))))) (ESum (0 + z) 2 (ESum (1 + z) 3 (EMul (ET 60 [b; (0 + z); e; (1 + z)]) (ET 3 [a; (1 + z); i; (0 + z)]))))) (ESum (0 + z) 2 (ESum (1 + z) 1 (EMul (ET 44 [a; (0 + z); (1 + z); e]) (ET 3 [(1 + z); b; i; (0 + z)]))))).
Definition k_hb_x2b_ovvo (z m a e i : nat) : ex := (EAdd (k_hb_H_ab_ovvo (0 + z) m a e i) (EScale (1) 2 (ESum (0 + z) 2 (EMul (k_hb_H_ab_oovo (1 + z) m (0 + z) e i) (ET 1 [a; (0 + z)]))))).
Definition k_hb_x2b_vovo (z a m e i : nat) : ex := (EAdd (k_hb_H_ab_vovo (0 + z) a m e i) (EScale (1) 2 (ESum (0 + z) 0 (EMul (k_hb_H_ab_oovo (1 + z) (0 + z) m e i) (ET 0 [a; (0 + z)]))))).
Definition k_hb_H_ab_vvvo (z b a e i : nat) : ex := (ESub (EAdd (EAdd (EAdd (EAdd (ESub (ESub (ESub (ET 47 [b; a; e; i]) (ESum (0 + z) 0 (EMul (k_hb_H_a_ov (1 + z) (0 + z) e) (ET 3 [b; a; (0 + z); i])))) (ESum (0 + z) 0 (EMul (k_hb_x2b_ovvo (1 + z) (0 + z) a e i) (ET 0 [b; (0 + z)])))) (ESum (0 + z) 2 (EMul (k_hb_x2b_vovo (1 + z) b (0 + z) e i) (ET 1 [a; (0 + z)])))) (ESum (0 + z) 0 (ESum (1 + z) 2 (EMul (k_hb_H_ab_oovo (2 + z) (0 + z) (1 + z) e i) (ET 3 [b; a; (0 + z); (1 + z)]))))) (ESum (0 + z) 3 (EMul (ET 48 [b; a; e; (0 + z)]) (ET 1 [(0 + z); i])))) (ESum (0 + z) 2 (ESum (1 + z) 3 (EMul (ET 44 [b; (0 + z); e; (1 + z)]) (ET 4 [a; (1 + z); i; (0 + z)]))))) (ESum (0 + z) 0 (ESum (1 + z) 1 (EMul (ET 28 [b; (0 + z); e; (1 + z)]) (ET 3 [(1 + z); a; (0 + z); i]))))) (ESum (0 + z) 0 (ESum (1 + z) 3 (EMul (ET 40 [(0 + z); a; e; (1 + z)]) (ET 3 [b; (1 + z); (0 + z); i]))))).
Definition k_hb_H_aa_vvvv (z a b e f : nat) : ex := (ESub (EAdd (EScale (1) 2 (ET 32 [a; b; e; f])) (EScale (1) 4 (ESum (0 + z) 0 (ESum (1 + z) 0 (EMul (ET 20 [(0 + z); (1 + z); e; f]) (k_hb_tau_aa_1 (2 + z) a b (0 + z) (1 + z))))))) (ESum (0 + z) 0 (EMul (ET 28 [a; (0 + z); e; f]) (ET 0 [b; (0 + z)])))).
Definition k_hb_H_aa_vvvv_1 (z a b e f : nat) : ex := (ESub (k_hb_H_aa_vvvv (0 + z) a b e f) (k_hb_H_aa_vvvv (0 + z) b a e f)).
Definition k_hb_H_bb_vvvv (z a b e f : nat) : ex := (ESub (EAdd (EScale (1) 2 (ET 64 [a; b; e; f])) (EScale (1) 4 (ESum (0 + z) 2 (ESum (1 + z) 2 (EMul (ET 52 [(0 + z); (1 + z); e; f]) (k_hb_tau_bb_1 (2 + z) a b (0 + z) (1 + z))))))) (ESum (0 + z) 2 (EMul (ET 60 [a; (0 + z); e; f]) (ET 1 [b; (0 + z)])))).
Definition k_hb_H_bb_vvvv_1 (z a b e f : nat) : ex := (ESub (k_hb_H_bb_vvvv (0 + z) a b e f) (k_hb_H_bb_vvvv (0 + z) b a e f)).
Definition k_hb_H_ab_vvvv (z a b e f : nat) : ex := (EAdd (ESub (ESub (ET 48 [a; b; e; f]) (ESum (0 + z) 0 (EMul (ET 40 [(0 + z); b; e; f]) (ET 0 [a; (0 + z)])))) (ESum (0 + z) 2 (EMul (ET 44 [a; (0 + z); e; f]) (ET 1 [b; (0 + z)])))) (ESum (0 + z) 0 (ESum (1 + z) 2 (EMul (ET 36 [(0 + z); (1 + z); e; f]) (k_hb_tau_ab (2 + z) a b (0 + z) (1 + z)))))).
Definition k_hb_H_aa_vovv (z a i b c : nat) : ex := (ESub (ET 28 [a; i; b; c]) (ESum (0 + z) 0 (EMul (ET 20 [i; (0 + z); c; b]) (ET 0 [a; (0 + z)])))).
Definition k_hb_H_bb_vovv (z a i b c : nat) : ex := (ESub (ET 60 [a; i; b; c]) (ESum (0 + z) 2 (EMul (ET 52 [i; (0 + z); c; b]) (ET 1 [a; (0 + z)])))).
Definition k_hb_H_ab_vovv (z a i b c : nat) : ex := (ESub (ET 44 [a; i; b; c]) (ESum (0 + z) 0 (EMul (ET 36 [(0 + z); i; b; c]) (ET 0 [a; (0 + z)])))).
Definition k_hb_H_ab_ovvv (z i a b c : nat) : ex := (ESub (ET 40 [i; a; b; c]) (ESum (0 + z) 2 (EMul (ET 36 [i; (0 + z); b; c]) (ET 1 [a; (0 + z)])))).
Definition k_crcc_d3aaa_v (z a i b : nat) : ex := (EOpp (ESum (0 + z) 0 (EMul (ET 20 [i; (0 + z); a; b]) (ET 2 [a; b; i; (0 + z)])))).
Definition k_crcc_d3aaa_o (z a i j : nat) : ex := (ESum (0 + z) 1 (EMul (ET 20 [i; j; a; (0 + z)]) (ET 2 [a; (0 + z); i; j]))).
Definition k_crcc_d3aab_v (z a i c : nat) : ex := (EOpp (ESum (0 + z) 2 (EMul (ET 36 [i; (0 + z); a; c]) (ET 3 [a; c; i; (0 + z)])))).
Definition k_crcc_d3aab_o (z a i k : nat) : ex := (ESum (0 + z) 3 (EMul (ET 36 [i; k; a; (0 + z)]) (ET 3 [a; (0 + z); i; k]))).
Definition k_crcc_d3abb_v (z a k c : nat) : ex := (EOpp (ESum (0 + z) 0 (EMul (ET 36 [(0 + z); k; a; c]) (ET 3 [a; c; (0 + z); k])))).
Definition k_crcc_d3abb_o (z c i k : nat) : ex := (ESum (0 + z) 1 (EMul (ET 36 [i; k; (0 + z); c]) (ET 3 [(0 + z); c; i; k]))).
Definition k_crcc_d3bbb_v (z a i b : nat) : ex := (EOpp (ESum (0 + z) 2 (EMul (ET 52 [i; (0 + z); a; b]) (ET 4 [a; b; i; (0 + z)])))).
Definition k_crcc_d3bbb_o (z a i j : nat) : ex := (ESum (0 + z) 3 (EMul (ET 52 [i; j; a; (0 + z)]) (ET 4 [a; (0 + z); i; j]))).
Definition k_crcc_I2A_vvov (z a b i e : nat) : ex := (EAdd (k_hb_H_aa_vvov_1 (0 + z) a b i e) (ESum (0 + z) 0 (EMul (k_hb_H_a_ov (1 + z) (0 + z) e) (ET 2 [a; b; i; (0 + z)])))).
Definition k_crcc_X3aaa (z a b c i j k : nat) : ex := (EAdd (EAdd (EAdd (EAdd (EAdd (EScale (-1) 2 (ESum (0 + z) 0 (EMul (k_hb_H_aa_vooo (1 + z) a (0 + z) i j) (ET 2 [b; c; (0 + z); k])))) (EScale (1) 2 (ESum (0 + z) 0 (EMul (k_hb_H_aa_vooo (1 + z) a (0 + z) k j) (ET 2 [b; c; (0 + z); i]))))) (EScale (1) 2 (ESum (0 + z) 0 (EMul (k_hb_H_aa_vooo (1 + z) a (0 + z) i k) (ET 2 [b; c; (0 + z); j]))))) (EScale (1) 2 (ESum (0 + z) 1 (EMul (k_crcc_I2A_vvov (1 + z) a b i (0 + z)) (ET 2 [(0 + z); c; j; k]))))) (EScale (-1) 2 (ESum (0 + z) 1 (EMul (k_crcc_I2A_vvov (1 + z) a b j (0 + z)) (ET 2 [(0 + z); c; i; k]))))) (EScale (-1) 2 (ESum (0 + z) 1 (EMul (k_crcc_I2A_vvov (1 + z) a b k (0 + z)) (ET 2 [(0 + z); c; j; i]))))).
Definition k_crcc_L3aaa (z a b c i j k : nat) : ex := (EAdd (EAdd (EAdd (EAdd (EAdd (EScale (1) 2 (ESum (0 + z) 1 (EMul (k_hb_H_aa_vovv (1 + z) (0 + z) i b a) (ET 68 [(0 + z); c; j; k])))) (EScale (-1) 2 (ESum (0 + z) 1 (EMul (k_hb_H_aa_vovv (1 + z) (0 + z) j b a) (ET 68 [(0 + z); c; i; k]))))) (EScale (-1) 2 (ESum (0 + z) 1 (EMul (k_hb_H_aa_vovv (1 + z) (0 + z) k b a) (ET 68 [(0 + z); c; j; i]))))) (EScale (-1) 2 (ESum (0 + z) 0 (EMul (k_hb_H_aa_ooov (1 + z) j i (0 + z) a) (ET 68 [b; c; (0 + z); k]))))) (EScale (1) 2 (ESum (0 + z) 0 (EMul (k_hb_H_aa_ooov (1 + z) k i (0 + z) a) (ET 68 [b; c; (0 + z); j]))))) (EScale (1) 2 (ESum (0 + z) 0 (EMul (k_hb_H_aa_ooov (1 + z) j k (0 + z) a) (ET 68 [b; c; (0 + z); i]))))).
Definition k_crcc_M_aaa (z a b c i j k : nat) : ex := (ESub (ESub (ESub (EAdd (EAdd (k_crcc_X3aaa (0 + z) a b c i j k) (k_crcc_X3aaa (0 + z) b c a i j k)) (k_crcc_X3aaa (0 + z) c a b i j k)) (k_crcc_X3aaa (0 + z) a c b i j k)) (k_crcc_X3aaa (0 + z) b a c i j k)) (k_crcc_X3aaa (0 + z) c b a i j k)).
Definition k_crcc_L2_aaa (z a b c i j k : nat) : ex := (ESub (ESub (ESub (EAdd (EAdd (k_crcc_L3aaa (0 + z) a b c i j k) (k_crcc_L3aaa (0 + z) b c a i j k)) (k_crcc_L3aaa (0 + z) c a b i j k)) (k_crcc_L3aaa (0 + z) a c b i j k)) (k_crcc_L3aaa (0 + z) b a c i j k)) (k_crcc_L3aaa (0 + z) c b a i j k)).
Definition k_crcc_L1_aaa (z a b c i j k : nat) : ex := (EAdd (EAdd (EAdd (EAdd (ESub (ESub (ESub (ESub (EAdd (EAdd (EAdd (EAdd (EAdd (ESub (ESub (ESub (ESub (EMul (ET 66 [c; k]) (ET 20 [i; j; a; b])) (EMul (ET 66 [a; k]) (ET 20 [i; j; c; b]))) (EMul (ET 66 [b; k]) (ET 20 [i; j; a; c]))) (EMul (ET 66 [c; i]) (ET 20 [k; j; a; b]))) (EMul (ET 66 [c; j]) (ET 20 [i; k; a; b]))) (EMul (ET 66 [a; i]) (ET 20 [k; j; c; b]))) (EMul (ET 66 [b; i]) (ET 20 [k; j; a; c]))) (EMul (ET 66 [a; j]) (ET 20 [i; k; c; b]))) (EMul (ET 66 [b; j]) (ET 20 [i; k; a; c]))) (EMul (k_hb_H_a_ov (0 + z) k c) (ET 68 [a; b; i; j]))) (EMul (k_hb_H_a_ov (0 + z) k a) (ET 68 [c; b; i; j]))) (EMul (k_hb_H_a_ov (0 + z) k b) (ET 68 [a; c; i; j]))) (EMul (k_hb_H_a_ov (0 + z) i c) (ET 68 [a; b; k; j]))) (EMul (k_hb_H_a_ov (0 + z) j c) (ET 68 [a; b; i; k]))) (EMul (k_hb_H_a_ov (0 + z) i a) (ET 68 [c; b; k; j]))) (EMul (k_hb_H_a_ov (0 + z) i b) (ET 68 [a; c; k; j]))) (EMul (k_hb_H_a_ov (0 + z) j a) (ET 68 [c; b; i; k]))) (EMul (k_hb_H_a_ov (0 + z) j b) (ET 68 [a; c; i; k]))).
Definition k_crcc_L_aaa (z a b c i j k : nat) : ex := (EAdd (k_crcc_L2_aaa (0 + z) a b c i j k) (k_crcc_L1_aaa (0 + z) a b c i j k)).
Definition k_crcc_I2B_ovoo (z m c j k : nat) : ex := (ESub (k_hb_H_ab_ovoo (0 + z) m c j k) (ESum (0 + z) 1 (EMul (k_hb_H_a_ov (1 + z) m (0 + z)) (ET 3 [(0 + z); c; j; k])))).
Definition k_crcc_I2B_vooo (z a m i k : nat) : ex := (ESub (k_hb_H_ab_vooo (0 + z) a m i k) (ESum (0 + z) 3 (EMul (k_hb_H_b_ov (1 + z) m (0 + z)) (ET 3 [a; (0 + z); i; k])))).
Definition k_crcc_I2A_vooo (z a m i j : nat) : ex := (ESub (k_hb_H_aa_vooo (0 + z) a m i j) (ESum (0 + z) 1 (EMul (k_hb_H_a_ov (1 + z) m (0 + z)) (ET 2 [a; (0 + z); i; j])))).
Definition k_crcc_X3aab (z a b c i j k : nat) : ex := (EAdd (EAdd (EAdd (EAdd (EAdd (EAdd (EAdd (EAdd (EAdd (EScale (1) 1 (ESum (0 + z) 1 (EMul (ET 2 [a; (0 + z); i; j]) (k_hb_H_ab_vvvo (1 + z) b c (0 + z) k)))) (EScale (1) 2 (ESum (0 + z) 0 (EMul (ET 2 [a; b; (0 + z); i]) (k_crcc_I2B_ovoo (1 + z) (0 + z) c j k))))) (EScale (-1) 2 (ESum (0 + z) 0 (EMul (ET 2 [a; b; (0 + z); j]) (k_crcc_I2B_ovoo (1 + z) (0 + z) c i k))))) (EScale (1) 1 (ESum (0 + z) 3 (EMul (ET 3 [a; (0 + z); i; k]) (k_hb_H_ab_vvov (1 + z) b c j (0 + z)))))) (EScale (-1) 1 (ESum (0 + z) 3 (EMul (ET 3 [a; (0 + z); j; k]) (k_hb_H_ab_vvov (1 + z) b c i (0 + z)))))) (EScale (-1) 1 (ESum (0 + z) 2 (EMul (k_crcc_I2B_vooo (1 + z) a (0 + z) i k) (ET 3 [b; c; j; (0 + z)]))))) (EScale (1) 1 (ESum (0 + z) 2 (EMul (k_crcc_I2B_vooo (1 + z) a (0 + z) j k) (ET 3 [b; c; i; (0 + z)]))))) (EScale (1) 2 (ESum (0 + z) 1 (EMul (k_hb_H_aa_vvov_1 (1 + z) a b i (0 + z)) (ET 3 [(0 + z); c; j; k]))))) (EScale (-1) 2 (ESum (0 + z) 1 (EMul (k_hb_H_aa_vvov_1 (1 + z) a b j (0 + z)) (ET 3 [(0 + z); c; i; k]))))) (EScale (-1) 1 (ESum (0 + z) 0 (EMul (k_crcc_I2A_vooo (1 + z) a (0 + z) i j) (ET 3 [b; c; (0 + z); k]))))).
Definition k_crcc_L3aab (z a b c i j k : nat) : ex := (EAdd (EAdd (EAdd (EAdd (EAdd (EAdd (EAdd (EAdd (EAdd (EScale (1) 1 (ESum (0 + z) 1 (EMul (ET 68 [a; (0 + z); i; j]) (k_hb_H_ab_vovv (1 + z) (0 + z) k b c)))) (EScale (1) 2 (ESum (0 + z) 1 (EMul (k_hb_H_aa_vovv (1 + z) (0 + z) i b a) (ET 69 [(0 + z); c; j; k]))))) (EScale (-1) 2 (ESum (0 + z) 1 (EMul (k_hb_H_aa_vovv (1 + z) (0 + z) j b a) (ET 69 [(0 + z); c; i; k]))))) (EScale (1) 1 (ESum (0 + z) 3 (EMul (ET 69 [a; (0 + z); i; k]) (k_hb_H_ab_ovvv (1 + z) j (0 + z) b c))))) (EScale (-1) 1 (ESum (0 + z) 3 (EMul (ET 69 [a; (0 + z); j; k]) (k_hb_H_ab_ovvv (1 + z) i (0 + z) b c))))) (EScale (1) 2 (ESum (0 + z) 0 (EMul (ET 68 [a; b; (0 + z); i]) (k_hb_H_ab_ooov (1 + z) j k (0 + z) c))))) (EScale (-1) 2 (ESum (0 + z) 0 (EMul (ET 68 [a; b; (0 + z); j]) (k_hb_H_ab_ooov (1 + z) i k (0 + z) c))))) (EScale (-1) 1 (ESum (0 + z) 0 (EMul (k_hb_H_aa_ooov (1 + z) j i (0 + z) a) (ET 69 [b; c; (0 + z); k]))))) (EScale (-1) 1 (ESum (0 + z) 2 (EMul (k_hb_H_ab_oovo (1 + z) i k a (0 + z)) (ET 69 [b; c; j; (0 + z)]))))) (EScale (1) 1 (ESum (0 + z) 2 (EMul (k_hb_H_ab_oovo (1 + z) j k a (0 + z)) (ET 69 [b; c; i; (0 + z)]))))).
Definition k_crcc_M_aab (z a b c i j k : nat) : ex := (ESub (k_crcc_X3aab (0 + z) a b c i j k) (k_crcc_X3aab (0 + z) b a c i j k)).
Definition k_crcc_L2_aab (z a b c i j k : nat) : ex := (ESub (k_crcc_L3aab (0 + z) a b c i j k) (k_crcc_L3aab (0 + z) b a c i j k)).
Definition k_crcc_L1_aab (z a b c i j k : nat) : ex := (EAdd (EAdd (ESub (ESub (EAdd (EAdd (EAdd (ESub (ESub (EMul (ET 66 [a; i]) (ET 36 [j; k; b; c])) (EMul (ET 66 [a; j]) (ET 36 [i; k; b; c]))) (EMul (ET 66 [b; i]) (ET 36 [j; k; a; c]))) (EMul (ET 66 [b; j]) (ET 36 [i; k; a; c]))) (EMul (ET 67 [c; k]) (ET 20 [i; j; a; b]))) (EMul (ET 69 [b; c; j; k]) (k_hb_H_a_ov (0 + z) i a))) (EMul (ET 69 [b; c; i; k]) (k_hb_H_a_ov (0 + z) j a))) (EMul (ET 69 [a; c; j; k]) (k_hb_H_a_ov (0 + z) i b))) (EMul (ET 69 [a; c; i; k]) (k_hb_H_a_ov (0 + z) j b))) (EMul (ET 68 [a; b; i; j]) (k_hb_H_b_ov (0 + z) k c))).
Definition k_crcc_L_aab (z a b c i j k : nat) : ex := (EAdd (k_crcc_L2_aab (0 + z) a b c i j k) (k_crcc_L1_aab (0 + z) a b c i j k)).
Definition k_crcc_I2B_vooo_1 (z a m i j : nat) : ex := (ESub (k_hb_H_ab_vooo (0 + z) a m i j) (ESum (0 + z) 3 (EMul (k_hb_H_b_ov (1 + z) m (0 + z)) (ET 3 [a; (0 + z); i; j])))).
Definition k_crcc_I2C_vooo (z c m k j : nat) : ex := (ESub (k_hb_H_bb_vooo (0 + z) c m k j) (ESum (0 + z) 3 (EMul (k_hb_H_b_ov (1 + z) m (0 + z)) (ET 4 [c; (0 + z); k; j])))).
Definition k_crcc_I2B_ovoo_1 (z m b i j : nat) : ex := (ESub (k_hb_H_ab_ovoo (0 + z) m b i j) (ESum (0 + z) 1 (EMul (k_hb_H_a_ov (1 + z) m (0 + z)) (ET 3 [(0 + z); b; i; j])))).
Definition k_crcc_X3abb (z a b c i j k : nat) : ex := (EAdd (EAdd (EAdd (EAdd (EAdd (EAdd (EAdd (EAdd (EAdd (EScale (1) 1 (ESum (0 + z) 3 (EMul (k_hb_H_ab_vvov (1 + z) a b i (0 + z)) (ET 4 [(0 + z); c; j; k])))) (EScale (-1) 2 (ESum (0 + z) 2 (EMul (k_crcc_I2B_vooo_1 (1 + z) a (0 + z) i j) (ET 4 [b; c; (0 + z); k]))))) (EScale (1) 2 (ESum (0 + z) 2 (EMul (k_crcc_I2B_vooo_1 (1 + z) a (0 + z) i k) (ET 4 [b; c; (0 + z); j]))))) (EScale (1) 2 (ESum (0 + z) 3 (EMul (ET 3 [a; (0 + z); i; j]) (k_hb_H_bb_vvov_1 (1 + z) c b k (0 + z)))))) (EScale (-1) 2 (ESum (0 + z) 3 (EMul (ET 3 [a; (0 + z); i; k]) (k_hb_H_bb_vvov_1 (1 + z) c b j (0 + z)))))) (EScale (-1) 1 (ESum (0 + z) 2 (EMul (ET 3 [a; b; i; (0 + z)]) (k_crcc_I2C_vooo (1 + z) c (0 + z) k j))))) (EScale (1) 1 (ESum (0 + z) 1 (EMul (k_hb_H_ab_vvvo (1 + z) a b (0 + z) j) (ET 3 [(0 + z); c; i; k]))))) (EScale (-1) 1 (ESum (0 + z) 1 (EMul (k_hb_H_ab_vvvo (1 + z) a b (0 + z) k) (ET 3 [(0 + z); c; i; j]))))) (EScale (-1) 1 (ESum (0 + z) 0 (EMul (ET 3 [a; b; (0 + z); j]) (k_crcc_I2B_ovoo_1 (1 + z) (0 + z) c i k))))) (EScale (1) 1 (ESum (0 + z) 0 (EMul (ET 3 [a; b; (0 + z); k]) (k_crcc_I2B_ovoo_1 (1 + z) (0 + z) c i j))))).
Definition k_crcc_L3abb (z a b c i j k : nat) : ex := (EAdd (EAdd (EAdd (EAdd (EAdd (EAdd (EAdd (EAdd (EAdd (EScale (1) 1 (ESum (0 + z) 3 (EMul (k_hb_H_ab_ovvv (1 + z) i (0 + z) a b) (ET 70 [(0 + z); c; j; k])))) (EScale (1) 2 (ESum (0 + z) 3 (EMul (ET 69 [a; (0 + z); i; j]) (k_hb_H_bb_vovv (1 + z) (0 + z) k b c))))) (EScale (-1) 2 (ESum (0 + z) 3 (EMul (ET 69 [a; (0 + z); i; k]) (k_hb_H_bb_vovv (1 + z) (0 + z) j b c))))) (EScale (1) 1 (ESum (0 + z) 1 (EMul (k_hb_H_ab_vovv (1 + z) (0 + z) j a b) (ET 69 [(0 + z); c; i; k]))))) (EScale (-1) 1 (ESum (0 + z) 1 (EMul (k_hb_H_ab_vovv (1 + z) (0 + z) k a b) (ET 69 [(0 + z); c; i; j]))))) (EScale (-1) 2 (ESum (0 + z) 2 (EMul (k_hb_H_ab_oovo (1 + z) i j a (0 + z)) (ET 70 [b; c; (0 + z); k]))))) (EScale (1) 2 (ESum (0 + z) 2 (EMul (k_hb_H_ab_oovo (1 + z) i k a (0 + z)) (ET 70 [b; c; (0 + z); j]))))) (EScale (-1) 1 (ESum (0 + z) 2 (EMul (ET 69 [a; b; i; (0 + z)]) (k_hb_H_bb_ooov (1 + z) j k (0 + z) c))))) (EScale (-1) 1 (ESum (0 + z) 0 (EMul (ET 69 [a; b; (0 + z); j]) (k_hb_H_ab_ooov (1 + z) i k (0 + z) c))))) (EScale (1) 1 (ESum (0 + z) 0 (EMul (ET 69 [a; b; (0 + z); k]) (k_hb_H_ab_ooov (1 + z) i j (0 + z) c))))).
Definition k_crcc_M_abb (z a b c i j k : nat) : ex := (ESub (k_crcc_X3abb (0 + z) a b c i j k) (k_crcc_X3abb (0 + z) a c b i j k)).
Definition k_crcc_L2_abb (z a b c i j k : nat) : ex := (ESub (k_crcc_L3abb (0 + z) a b c i j k) (k_crcc_L3abb (0 + z) a c b i j k)).
Definition k_crcc_L1_abb (z a b c i j k : nat) : ex := (EAdd (EAdd (ESub (ESub (EAdd (EAdd (EAdd (ESub (ESub (EMul (ET 67 [c; k]) (ET 36 [i; j; a; b])) (EMul (ET 67 [b; k]) (ET 36 [i; j; a; c]))) (EMul (ET 67 [c; j]) (ET 36 [i; k; a; b]))) (EMul (ET 67 [b; j]) (ET 36 [i; k; a; c]))) (EMul (ET 66 [a; i]) (ET 52 [j; k; b; c]))) (EMul (k_hb_H_b_ov (0 + z) k c) (ET 69 [a; b; i; j]))) (EMul (k_hb_H_b_ov (0 + z) k b) (ET 69 [a; c; i; j]))) (EMul (k_hb_H_b_ov (0 + z) j c) (ET 69 [a; b; i; k]))) (EMul (k_hb_H_b_ov (0 + z) j b) (ET 69 [a; c; i; k]))) (EMul (k_hb_H_a_ov (0 + z) i a) (ET 70 [b; c; j; k]))).
Definition k_crcc_L_abb (z a b c i j k : nat) : ex := (EAdd (k_crcc_L2_abb (0 + z) a b c i j k) (k_crcc_L1_abb (0 + z) a b c i j k)).
Definition k_crcc_I2C_vvov (z a b i e : nat) : ex := (EAdd (k_hb_H_bb_vvov_1 (0 + z) a b i e) (ESum (0 + z) 2 (EMul (k_hb_H_b_ov (1 + z) (0 + z) e) (ET 4 [a; b; i; (0 + z)])))).
Definition k_crcc_X3bbb (z a b c i j k : nat) : ex := (EAdd (EAdd (EAdd (EAdd (EAdd (EScale (-1) 2 (ESum (0 + z) 2 (EMul (k_hb_H_bb_vooo (1 + z) a (0 + z) i j) (ET 4 [b; c; (0 + z); k])))) (EScale (1) 2 (ESum (0 + z) 2 (EMul (k_hb_H_bb_vooo (1 + z) a (0 + z) k j) (ET 4 [b; c; (0 + z); i]))))) (EScale (1) 2 (ESum (0 + z) 2 (EMul (k_hb_H_bb_vooo (1 + z) a (0 + z) i k) (ET 4 [b; c; (0 + z); j]))))) (EScale (1) 2 (ESum (0 + z) 3 (EMul (k_crcc_I2C_vvov (1 + z) a b i (0 + z)) (ET 4 [(0 + z); c; j; k]))))) (EScale (-1) 2 (ESum (0 + z) 3 (EMul (k_crcc_I2C_vvov (1 + z) a b j (0 + z)) (ET 4 [(0 + z); c; i; k]))))) (EScale (-1) 2 (ESum (0 + z) 3 (EMul (k_crcc_I2C_vvov (1 + z) a b k (0 + z)) (ET 4 [(0 + z); c; j; i]))))).
Definition k_crcc_L3bbb (z a b c i j k : nat) : ex := (EAdd (EAdd (EAdd (EAdd (EAdd (EScale (1) 2 (ESum (0 + z) 3 (EMul (k_hb_H_bb_vovv (1 + z) (0 + z) i b a) (ET 70 [(0 + z); c; j; k])))) (EScale (-1) 2 (ESum (0 + z) 3 (EMul (k_hb_H_bb_vovv (1 + z) (0 + z) j b a) (ET 70 [(0 + z); c; i; k]))))) (EScale (-1) 2 (ESum (0 + z) 3 (EMul (k_hb_H_bb_vovv (1 + z) (0 + z) k b a) (ET 70 [(0 + z); c; j; i]))))) (EScale (-1) 2 (ESum (0 + z) 2 (EMul (k_hb_H_bb_ooov (1 + z) j i (0 + z) a) (ET 70 [b; c; (0 + z); k]))))) (EScale (1) 2 (ESum (0 + z) 2 (EMul (k_hb_H_bb_ooov (1 + z) k i (0 + z) a) (ET 70 [b; c; (0 + z); j]))))) (EScale (1) 2 (ESum (0 + z) 2 (EMul (k_hb_H_bb_ooov (1 + z) j k (0 + z) a) (ET 70 [b; c; (0 + z); i]))))).
Definition k_crcc_M_bbb (z a b c i j k : nat) : ex := (ESub (ESub (ESub (EAdd (EAdd (k_crcc_X3bbb (0 + z) a b c i j k) (k_crcc_X3bbb (0 + z) b c a i j k)) (k_crcc_X3bbb (0 + z) c a b i j k)) (k_crcc_X3bbb (0 + z) a c b i j k)) (k_crcc_X3bbb (0 + z) b a c i j k)) (k_crcc_X3bbb (0 + z) c b a i j k)).
Definition k_crcc_L2_bbb (z a b c i j k : nat) : ex := (ESub (ESub (ESub (EAdd (EAdd (k_crcc_L3bbb (0 + z) a b c i j k) (k_crcc_L3bbb (0 + z) b c a i j k)) (k_crcc_L3bbb (0 + z) c a b i j k)) (k_crcc_L3bbb (0 + z) a c b i j k)) (k_crcc_L3bbb (0 + z) b a c i j k)) (k_crcc_L3bbb (0 + z) c b a i j k)).
Definition k_crcc_L1_bbb (z a b c i j k : nat) : ex := (EAdd (EAdd (EAdd (EAdd (ESub (ESub (ESub (ESub (EAdd (EAdd (EAdd (EAdd (EAdd (ESub (ESub (ESub (ESub (EMul (ET 67 [c; k]) (ET 52 [i; j; a; b])) (EMul (ET 67 [a; k]) (ET 52 [i; j; c; b]))) (EMul (ET 67 [b; k]) (ET 52 [i; j; a; c]))) (EMul (ET 67 [c; i]) (ET 52 [k; j; a; b]))) (EMul (ET 67 [c; j]) (ET 52 [i; k; a; b]))) (EMul (ET 67 [a; i]) (ET 52 [k; j; c; b]))) (EMul (ET 67 [b; i]) (ET 52 [k; j; a; c]))) (EMul (ET 67 [a; j]) (ET 52 [i; k; c; b]))) (EMul (ET 67 [b; j]) (ET 52 [i; k; a; c]))) (EMul (k_hb_H_b_ov (0 + z) k c) (ET 70 [a; b; i; j]))) (EMul (k_hb_H_b_ov (0 + z) k a) (ET 70 [c; b; i; j]))) (EMul (k_hb_H_b_ov (0 + z) k b) (ET 70 [a; c; i; j]))) (EMul (k_hb_H_b_ov (0 + z) i c) (ET 70 [a; b; k; j]))) (EMul (k_hb_H_b_ov (0 + z) j c) (ET 70 [a; b; i; k]))) (EMul (k_hb_H_b_ov (0 + z) i a) (ET 70 [c; b; k; j]))) (EMul (k_hb_H_b_ov (0 + z) i b) (ET 70 [a; c; k; j]))) (EMul (k_hb_H_b_ov (0 + z) j a) (ET 70 [c; b; i; k]))) (EMul (k_hb_H_b_ov (0 + z) j b) (ET 70 [a; c; i; k]))).
Definition k_crcc_L_bbb (z a b c i j k : nat) : ex := (EAdd (k_crcc_L2_bbb (0 + z) a b c i j k) (k_crcc_L1_bbb (0 + z) a b c i j k)).
