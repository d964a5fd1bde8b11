(** Generated by tools/gen_sector.py: the SF sigma vector with the similarity-transformed Hamiltonian put in, reified; arrays 0-65 as in CcsdReify.v (proof support). *)
From Coq Require Import Reals Arith List ZArith.
From Verif Require Import RSum IntegralsModel TensorObjs TensorAlg CcsdReify SectorModel.
Import ListNotations.
Local Open Scope nat_scope.
Definition r_sfr_x1b (z a i : nat) : ex := (ESum (0 + z) 3 (EMul (r_hb_H_b_vv (1 + z) a (0 + z)) (ET 66 [(0 + z); i]))).
Definition r_sfr_x1b_1 (z a i : nat) : ex := (ESub (r_sfr_x1b (0 + z) a i) (ESum (0 + z) 0 (EMul (r_hb_H_a_oo (1 + z) (0 + z) i) (ET 66 [a; (0 + z)])))).
Definition r_sfr_x1b_2 (z a i : nat) : ex := (ESub (r_sfr_x1b_1 (0 + z) a i) (ESum (0 + z) 0 (ESum (1 + z) 3 (EMul (r_hb_H_ab_ovov (2 + z) (0 + z) a i (1 + z)) (ET 66 [(1 + z); (0 + z)]))))).
Definition r_sfr_x1b_3 (z a i : nat) : ex := (EAdd (r_sfr_x1b_2 (0 + z) a i) (ESum (0 + z) 0 (ESum (1 + z) 1 (EMul (r_hb_H_a_ov (2 + z) (0 + z) (1 + z)) (ET 67 [(1 + z); a; (0 + z); i]))))).
Definition r_sfr_x1b_4 (z a i : nat) : ex := (EAdd (r_sfr_x1b_3 (0 + z) a i) (ESum (0 + z) 2 (ESum (1 + z) 3 (EMul (r_hb_H_b_ov (2 + z) (0 + z) (1 + z)) (ET 68 [(1 + z); a; (0 + z); i]))))).
Definition r_sfr_x1b_5 (z a i : nat) : ex := (ESub (r_sfr_x1b_4 (0 + z) a i) (EScale (1) 2 (ESum (0 + z) 0 (ESum (1 + z) 0 (ESum (2 + z) 1 (EMul (r_hb_H_aa_ooov (3 + z) (0 + z) (1 + z) i (2 + z)) (ET 67 [(2 + z); a; (1 + z); (0 + z)]))))))).
Definition r_sfr_x1b_6 (z a i : nat) : ex := (ESub (r_sfr_x1b_5 (0 + z) a i) (ESum (0 + z) 0 (ESum (1 + z) 2 (ESum (2 + z) 3 (EMul (r_hb_H_ab_ooov (3 + z) (0 + z) (1 + z) i (2 + z)) (ET 68 [(2 + z); a; (1 + z); (0 + z)])))))).
Definition r_sfr_x1b_7 (z a i : nat) : ex := (EAdd (r_sfr_x1b_6 (0 + z) a i) (EScale (1) 2 (ESum (0 + z) 2 (ESum (1 + z) 3 (ESum (2 + z) 3 (EMul (r_hb_H_bb_vovv (3 + z) a (0 + z) (1 + z) (2 + z)) (ET 68 [(2 + z); (1 + z); (0 + z); i]))))))).
Definition r_sfr_x1b_8 (z a i : nat) : ex := (EAdd (r_sfr_x1b_7 (0 + z) a i) (ESum (0 + z) 0 (ESum (1 + z) 1 (ESum (2 + z) 3 (EMul (r_hb_H_ab_ovvv (3 + z) (0 + z) a (1 + z) (2 + z)) (ET 67 [(1 + z); (2 + z); (0 + z); i])))))).
Definition r_sfr_x_oo (z m j : nat) : ex := (ESub (EAdd (ESum (0 + z) 0 (ESum (1 + z) 1 (ESum (2 + z) 3 (EMul (ET 3 [(0 + z); m; (1 + z); (2 + z)]) (ET 67 [(1 + z); (2 + z); (0 + z); j]))))) (EScale (1) 2 (ESum (0 + z) 2 (ESum (1 + z) 3 (ESum (2 + z) 3 (EMul (ET 6 [m; (0 + z); (1 + z); (2 + z)]) (ET 68 [(2 + z); (1 + z); (0 + z); j]))))))) (ESum (0 + z) 0 (ESum (1 + z) 3 (EMul (r_hb_H_ab_ooov (2 + z) (0 + z) m j (1 + z)) (ET 66 [(1 + z); (0 + z)]))))).
Definition r_sfr_x_vv (z b e : nat) : ex := (ESub (ESub (EScale (-1) 2 (ESum (0 + z) 0 (ESum (1 + z) 0 (ESum (2 + z) 1 (EMul (ET 1 [(0 + z); (1 + z); e; (2 + z)]) (ET 67 [(2 + z); b; (1 + z); (0 + z)])))))) (ESum (0 + z) 0 (ESum (1 + z) 2 (ESum (2 + z) 3 (EMul (ET 3 [(0 + z); (1 + z); e; (2 + z)]) (ET 68 [(2 + z); b; (1 + z); (0 + z)])))))) (ESum (0 + z) 0 (ESum (1 + z) 3 (EMul (r_hb_H_ab_ovvv (2 + z) (0 + z) b e (1 + z)) (ET 66 [(1 + z); (0 + z)]))))).
Definition r_sfr_x2b (z a b i j : nat) : ex := (ESum (0 + z) 3 (EMul (r_hb_H_ab_vvov (1 + z) a b i (0 + z)) (ET 66 [(0 + z); j]))).
Definition r_sfr_x2b_1 (z a b i j : nat) : ex := (ESub (r_sfr_x2b (0 + z) a b i j) (EScale (1) 2 (ESum (0 + z) 0 (EMul (r_hb_H_aa_vooo (1 + z) a (0 + z) i j) (ET 66 [b; (0 + z)]))))).
Definition r_sfr_x2b_2 (z a b i j : nat) : ex := (ESub (r_sfr_x2b_1 (0 + z) a b i j) (ESum (0 + z) 0 (EMul (r_hb_H_a_oo (1 + z) (0 + z) i) (ET 67 [a; b; (0 + z); j])))).
Definition r_sfr_x2b_3 (z a b i j : nat) : ex := (EAdd (r_sfr_x2b_2 (0 + z) a b i j) (EScale (1) 2 (ESum (0 + z) 3 (EMul (r_hb_H_b_vv (1 + z) b (0 + z)) (ET 67 [a; (0 + z); i; j]))))).
Definition r_sfr_x2b_4 (z a b i j : nat) : ex := (EAdd (r_sfr_x2b_3 (0 + z) a b i j) (EScale (1) 2 (ESum (0 + z) 1 (EMul (r_hb_H_a_vv (1 + z) a (0 + z)) (ET 67 [(0 + z); b; i; j]))))).
Definition r_sfr_x2b_5 (z a b i j : nat) : ex := (EAdd (r_sfr_x2b_4 (0 + z) a b i j) (EScale (1) 4 (ESum (0 + z) 0 (ESum (1 + z) 0 (EMul (r_hb_H_aa_oooo_1 (2 + z) (0 + z) (1 + z) i j) (ET 67 [a; b; (0 + z); (1 + z)])))))).
Definition r_sfr_x2b_6 (z a b i j : nat) : ex := (EAdd (r_sfr_x2b_5 (0 + z) a b i j) (EScale (1) 2 (ESum (0 + z) 1 (ESum (1 + z) 3 (EMul (r_hb_H_ab_vvvv (2 + z) a b (0 + z) (1 + z)) (ET 67 [(0 + z); (1 + z); i; j])))))).
Definition r_sfr_x2b_7 (z a b i j : nat) : ex := (EAdd (r_sfr_x2b_6 (0 + z) a b i j) (ESum (0 + z) 0 (ESum (1 + z) 1 (EMul (r_hb_H_aa_voov (2 + z) a (0 + z) i (1 + z)) (ET 67 [(1 + z); b; (0 + z); j]))))).
Definition r_sfr_x2b_8 (z a b i j : nat) : ex := (EAdd (r_sfr_x2b_7 (0 + z) a b i j) (ESum (0 + z) 2 (ESum (1 + z) 3 (EMul (r_hb_H_ab_voov (2 + z) a (0 + z) i (1 + z)) (ET 68 [(1 + z); b; (0 + z); j]))))).
Definition r_sfr_x2b_9 (z a b i j : nat) : ex := (ESub (r_sfr_x2b_8 (0 + z) a b i j) (ESum (0 + z) 0 (ESum (1 + z) 3 (EMul (r_hb_H_ab_ovov (2 + z) (0 + z) b i (1 + z)) (ET 67 [a; (1 + z); (0 + z); j]))))).
Definition r_sfr_x2b_10 (z a b i j : nat) : ex := (ESub (r_sfr_x2b_9 (0 + z) a b i j) (ESum (0 + z) 2 (EMul (r_sfr_x_oo (1 + z) (0 + z) j) (ET 11 [a; b; i; (0 + z)])))).
Definition r_sfr_x2b_11 (z a b i j : nat) : ex := (EAdd (r_sfr_x2b_10 (0 + z) a b i j) (EScale (1) 2 (ESum (0 + z) 1 (EMul (r_sfr_x_vv (1 + z) b (0 + z)) (ET 10 [a; (0 + z); i; j]))))).
Definition r_sfr_x2b_12 (z a b i j : nat) : ex := (ESub (r_sfr_x2b_11 (0 + z) a b i j) (r_sfr_x2b_11 (0 + z) a b j i)).
Definition r_sfr_x2c (z a b i j : nat) : ex := (EScale (1) 2 (ESum (0 + z) 3 (EMul (r_hb_H_bb_vvov_1 (1 + z) a b i (0 + z)) (ET 66 [(0 + z); j])))).
Definition r_sfr_x2c_1 (z a b i j : nat) : ex := (ESub (r_sfr_x2c (0 + z) a b i j) (ESum (0 + z) 0 (EMul (r_hb_H_ab_ovoo (1 + z) (0 + z) a j i) (ET 66 [b; (0 + z)])))).
Definition r_sfr_x2c_2 (z a b i j : nat) : ex := (ESub (r_sfr_x2c_1 (0 + z) a b i j) (EScale (1) 2 (ESum (0 + z) 0 (EMul (r_hb_H_a_oo (1 + z) (0 + z) j) (ET 68 [a; b; i; (0 + z)]))))).
Definition r_sfr_x2c_3 (z a b i j : nat) : ex := (ESub (r_sfr_x2c_2 (0 + z) a b i j) (EScale (1) 2 (ESum (0 + z) 2 (EMul (r_hb_H_b_oo (1 + z) (0 + z) i) (ET 68 [a; b; (0 + z); j]))))).
Definition r_sfr_x2c_4 (z a b i j : nat) : ex := (EAdd (r_sfr_x2c_3 (0 + z) a b i j) (ESum (0 + z) 3 (EMul (r_hb_H_b_vv (1 + z) a (0 + z)) (ET 68 [(0 + z); b; i; j])))).
Definition r_sfr_x2c_5 (z a b i j : nat) : ex := (EAdd (r_sfr_x2c_4 (0 + z) a b i j) (EScale (1) 4 (ESum (0 + z) 3 (ESum (1 + z) 3 (EMul (r_hb_H_bb_vvvv_1 (2 + z) a b (0 + z) (1 + z)) (ET 68 [(0 + z); (1 + z); i; j])))))).
Definition r_sfr_x2c_6 (z a b i j : nat) : ex := (EAdd (r_sfr_x2c_5 (0 + z) a b i j) (EScale (1) 2 (ESum (0 + z) 0 (ESum (1 + z) 2 (EMul (r_hb_H_ab_oooo (2 + z) (0 + z) (1 + z) j i) (ET 68 [a; b; (1 + z); (0 + z)])))))).
Definition r_sfr_x2c_7 (z a b i j : nat) : ex := (EAdd (r_sfr_x2c_6 (0 + z) a b i j) (ESum (0 + z) 2 (ESum (1 + z) 3 (EMul (r_hb_H_bb_voov (2 + z) a (0 + z) i (1 + z)) (ET 68 [(1 + z); b; (0 + z); j]))))).
Definition r_sfr_x2c_8 (z a b i j : nat) : ex := (EAdd (r_sfr_x2c_7 (0 + z) a b i j) (ESum (0 + z) 0 (ESum (1 + z) 1 (EMul (r_hb_H_ab_ovvo (2 + z) (0 + z) a (1 + z) i) (ET 67 [(1 + z); b; (0 + z); j]))))).
Definition r_sfr_x2c_9 (z a b i j : nat) : ex := (ESub (r_sfr_x2c_8 (0 + z) a b i j) (ESum (0 + z) 0 (ESum (1 + z) 3 (EMul (r_hb_H_ab_ovov (2 + z) (0 + z) a j (1 + z)) (ET 68 [(1 + z); b; i; (0 + z)]))))).
Definition r_sfr_x2c_10 (z a b i j : nat) : ex := (ESub (r_sfr_x2c_9 (0 + z) a b i j) (EScale (1) 2 (ESum (0 + z) 2 (EMul (r_sfr_x_oo (1 + z) (0 + z) j) (ET 18 [a; b; i; (0 + z)]))))).
Definition r_sfr_x2c_11 (z a b i j : nat) : ex := (EAdd (r_sfr_x2c_10 (0 + z) a b i j) (ESum (0 + z) 1 (EMul (r_sfr_x_vv (1 + z) b (0 + z)) (ET 11 [(0 + z); a; j; i])))).
Definition r_sfr_x2c_12 (z a b i j : nat) : ex := (ESub (r_sfr_x2c_11 (0 + z) a b i j) (r_sfr_x2c_11 (0 + z) b a i j)).
Definition s_sf_b := r_sfr_x1b_8.
Definition s_sf_ab := r_sfr_x2b_12.
Definition s_sf_bb := r_sfr_x2c_12.
