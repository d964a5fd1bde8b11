(** Generated by tools/gen_sector.py: the DIP sigma vector with the similarity-transformed Hamiltonian put in, reified; arrays 0-65 as in CcsdReify.v (proof support). *)
From Coq Require Import Reals Arith List ZArith.
From Verif Require Import RSum IntegralsModel TensorObjs TensorAlg CcsdReify SectorModel.
Import ListNotations.
Local Open Scope nat_scope.
Definition r_dipr_x2b (z i j : nat) : ex := (EOpp (ESum (0 + z) 0 (EMul (r_hb_H_a_oo (1 + z) (0 + z) i) (ET 66 [(0 + z); j])))).
Definition r_dipr_x2b_1 (z i j : nat) : ex := (ESub (r_dipr_x2b (0 + z) i j) (ESum (0 + z) 2 (EMul (r_hb_H_b_oo (1 + z) (0 + z) j) (ET 66 [i; (0 + z)])))).
Definition r_dipr_x2b_2 (z i j : nat) : ex := (EAdd (r_dipr_x2b_1 (0 + z) i j) (ESum (0 + z) 0 (ESum (1 + z) 2 (EMul (r_hb_H_ab_oooo (2 + z) (0 + z) (1 + z) i j) (ET 66 [(0 + z); (1 + z)]))))).
Definition r_dipr_x2b_3 (z i j : nat) : ex := (EAdd (r_dipr_x2b_2 (0 + z) i j) (ESum (0 + z) 0 (ESum (1 + z) 1 (EMul (r_hb_H_a_ov (2 + z) (0 + z) (1 + z)) (ET 67 [i; j; (1 + z); (0 + z)]))))).
Definition r_dipr_x2b_4 (z i j : nat) : ex := (EAdd (r_dipr_x2b_3 (0 + z) i j) (ESum (0 + z) 2 (ESum (1 + z) 3 (EMul (r_hb_H_b_ov (2 + z) (0 + z) (1 + z)) (ET 68 [i; j; (1 + z); (0 + z)]))))).
Definition r_dipr_x2b_5 (z i j : nat) : ex := (ESub (r_dipr_x2b_4 (0 + z) i j) (ESum (0 + z) 0 (ESum (1 + z) 2 (ESum (2 + z) 1 (EMul (r_hb_H_ab_oovo (3 + z) (0 + z) (1 + z) (2 + z) j) (ET 67 [i; (1 + z); (2 + z); (0 + z)])))))).
Definition r_dipr_x2b_6 (z i j : nat) : ex := (ESub (r_dipr_x2b_5 (0 + z) i j) (EScale (1) 2 (ESum (0 + z) 2 (ESum (1 + z) 2 (ESum (2 + z) 3 (EMul (r_hb_H_bb_ooov (3 + z) (0 + z) (1 + z) j (2 + z)) (ET 68 [i; (0 + z); (2 + z); (1 + z)]))))))).
Definition r_dipr_x2b_7 (z i j : nat) : ex := (ESub (r_dipr_x2b_6 (0 + z) i j) (EScale (1) 2 (ESum (0 + z) 0 (ESum (1 + z) 0 (ESum (2 + z) 1 (EMul (r_hb_H_aa_ooov (3 + z) (0 + z) (1 + z) i (2 + z)) (ET 67 [(0 + z); j; (2 + z); (1 + z)]))))))).
Definition r_dipr_x2b_8 (z i j : nat) : ex := (ESub (r_dipr_x2b_7 (0 + z) i j) (ESum (0 + z) 0 (ESum (1 + z) 2 (ESum (2 + z) 3 (EMul (r_hb_H_ab_ooov (3 + z) (0 + z) (1 + z) i (2 + z)) (ET 68 [(0 + z); j; (2 + z); (1 + z)])))))).
Definition r_dipr_x3b (z i j c k : nat) : ex := (EScale (-1) 2 (ESum (0 + z) 0 (EMul (r_hb_H_aa_vooo (1 + z) c (0 + z) k i) (ET 66 [(0 + z); j])))).
Definition r_dipr_x3b_1 (z i j c k : nat) : ex := (ESub (r_dipr_x3b (0 + z) i j c k) (ESum (0 + z) 2 (EMul (r_hb_H_ab_vooo (1 + z) c (0 + z) k j) (ET 66 [i; (0 + z)])))).
Definition r_dipr_x3b_2 (z i j c k : nat) : ex := (ESub (r_dipr_x3b_1 (0 + z) i j c k) (ESum (0 + z) 0 (EMul (r_hb_H_a_oo (1 + z) (0 + z) k) (ET 67 [i; j; c; (0 + z)])))).
Definition r_dipr_x3b_3 (z i j c k : nat) : ex := (ESub (r_dipr_x3b_2 (0 + z) i j c k) (EScale (1) 2 (ESum (0 + z) 2 (EMul (r_hb_H_b_oo (1 + z) (0 + z) j) (ET 67 [i; (0 + z); c; k]))))).
Definition r_dipr_x3b_4 (z i j c k : nat) : ex := (EAdd (r_dipr_x3b_3 (0 + z) i j c k) (EScale (1) 2 (ESum (0 + z) 1 (EMul (r_hb_H_a_vv (1 + z) c (0 + z)) (ET 67 [i; j; (0 + z); k]))))).
Definition r_dipr_x3b_5 (z i j c k : nat) : ex := (EAdd (r_dipr_x3b_4 (0 + z) i j c k) (ESum (0 + z) 0 (ESum (1 + z) 1 (EMul (r_hb_H_aa_voov (2 + z) c (0 + z) k (1 + z)) (ET 67 [i; j; (1 + z); (0 + z)]))))).
Definition r_dipr_x3b_6 (z i j c k : nat) : ex := (EAdd (r_dipr_x3b_5 (0 + z) i j c k) (ESum (0 + z) 2 (ESum (1 + z) 3 (EMul (r_hb_H_ab_voov (2 + z) c (0 + z) k (1 + z)) (ET 68 [i; j; (1 + z); (0 + z)]))))).
Definition r_dipr_x3b_7 (z i j c k : nat) : ex := (EAdd (r_dipr_x3b_6 (0 + z) i j c k) (ESum (0 + z) 0 (ESum (1 + z) 2 (EMul (r_hb_H_ab_oooo (2 + z) (0 + z) (1 + z) i j) (ET 67 [(0 + z); (1 + z); c; k]))))).
Definition r_dipr_x3b_8 (z i j c k : nat) : ex := (EAdd (r_dipr_x3b_7 (0 + z) i j c k) (EScale (1) 4 (ESum (0 + z) 0 (ESum (1 + z) 0 (EMul (r_hb_H_aa_oooo_1 (2 + z) (0 + z) (1 + z) i k) (ET 67 [(0 + z); j; c; (1 + z)])))))).
Definition r_dipr_x3b_9 (z i j c k : nat) : ex := (ESub (r_dipr_x3b_8 (0 + z) i j c k) (EScale (1) 2 (ESum (0 + z) 2 (ESum (1 + z) 1 (EMul (r_hb_H_ab_vovo (2 + z) c (0 + z) (1 + z) j) (ET 67 [i; (0 + z); (1 + z); k])))))).
Definition r_dipr_x_ov (z i e : nat) : ex := (ESub (ESub (ESum (0 + z) 0 (ESum (1 + z) 2 (EMul (r_hb_H_ab_ooov (2 + z) (0 + z) (1 + z) i e) (ET 66 [(0 + z); (1 + z)])))) (ESum (0 + z) 0 (ESum (1 + z) 2 (ESum (2 + z) 1 (EMul (ET 3 [(0 + z); (1 + z); (2 + z); e]) (ET 67 [i; (1 + z); (2 + z); (0 + z)])))))) (EScale (1) 2 (ESum (0 + z) 2 (ESum (1 + z) 2 (ESum (2 + z) 3 (EMul (ET 6 [(0 + z); (1 + z); (2 + z); e]) (ET 68 [i; (1 + z); (2 + z); (0 + z)]))))))).
Definition r_dipr_x_vo (z e j : nat) : ex := (ESub (ESub (ESum (0 + z) 0 (ESum (1 + z) 2 (EMul (r_hb_H_ab_oovo (2 + z) (0 + z) (1 + z) e j) (ET 66 [(0 + z); (1 + z)])))) (EScale (1) 2 (ESum (0 + z) 0 (ESum (1 + z) 0 (ESum (2 + z) 1 (EMul (ET 1 [(0 + z); (1 + z); e; (2 + z)]) (ET 67 [(0 + z); j; (2 + z); (1 + z)]))))))) (ESum (0 + z) 0 (ESum (1 + z) 2 (ESum (2 + z) 3 (EMul (ET 3 [(0 + z); (1 + z); e; (2 + z)]) (ET 68 [(0 + z); j; (2 + z); (1 + z)])))))).
Definition r_dipr_x3b_10 (z i j c k : nat) : ex := (EAdd (r_dipr_x3b_9 (0 + z) i j c k) (ESum (0 + z) 3 (EMul (r_dipr_x_ov (1 + z) i (0 + z)) (ET 11 [c; (0 + z); k; j])))).
Definition r_dipr_x3b_11 (z i j c k : nat) : ex := (EAdd (r_dipr_x3b_10 (0 + z) i j c k) (EScale (1) 2 (ESum (0 + z) 1 (EMul (r_dipr_x_vo (1 + z) (0 + z) j) (ET 10 [(0 + z); c; i; k]))))).
Definition r_dipr_x3b_12 (z i j c k : nat) : ex := (ESub (r_dipr_x3b_11 (0 + z) i j c k) (r_dipr_x3b_11 (0 + z) k j c i)).
Definition r_dipr_x3c (z i j c k : nat) : ex := (EOpp (ESum (0 + z) 0 (EMul (r_hb_H_ab_ovoo (1 + z) (0 + z) c i k) (ET 66 [(0 + z); j])))).
Definition r_dipr_x3c_1 (z i j c k : nat) : ex := (ESub (r_dipr_x3c (0 + z) i j c k) (EScale (1) 2 (ESum (0 + z) 2 (EMul (r_hb_H_bb_vooo (1 + z) c (0 + z) k j) (ET 66 [i; (0 + z)]))))).
Definition r_dipr_x3c_2 (z i j c k : nat) : ex := (ESub (r_dipr_x3c_1 (0 + z) i j c k) (EScale (1) 2 (ESum (0 + z) 0 (EMul (r_hb_H_a_oo (1 + z) (0 + z) i) (ET 68 [(0 + z); j; c; k]))))).
Definition r_dipr_x3c_3 (z i j c k : nat) : ex := (ESub (r_dipr_x3c_2 (0 + z) i j c k) (ESum (0 + z) 2 (EMul (r_hb_H_b_oo (1 + z) (0 + z) j) (ET 68 [i; (0 + z); c; k])))).
Definition r_dipr_x3c_4 (z i j c k : nat) : ex := (EAdd (r_dipr_x3c_3 (0 + z) i j c k) (EScale (1) 2 (ESum (0 + z) 3 (EMul (r_hb_H_b_vv (1 + z) c (0 + z)) (ET 68 [i; j; (0 + z); k]))))).
Definition r_dipr_x3c_5 (z i j c k : nat) : ex := (EAdd (r_dipr_x3c_4 (0 + z) i j c k) (ESum (0 + z) 0 (ESum (1 + z) 2 (EMul (r_hb_H_ab_oooo (2 + z) (0 + z) (1 + z) i j) (ET 68 [(0 + z); (1 + z); c; k]))))).
Definition r_dipr_x3c_6 (z i j c k : nat) : ex := (EAdd (r_dipr_x3c_5 (0 + z) i j c k) (EScale (1) 4 (ESum (0 + z) 2 (ESum (1 + z) 2 (EMul (r_hb_H_bb_oooo_1 (2 + z) (0 + z) (1 + z) j k) (ET 68 [i; (0 + z); c; (1 + z)])))))).
Definition r_dipr_x3c_7 (z i j c k : nat) : ex := (EAdd (r_dipr_x3c_6 (0 + z) i j c k) (ESum (0 + z) 0 (ESum (1 + z) 1 (EMul (r_hb_H_ab_ovvo (2 + z) (0 + z) c (1 + z) k) (ET 67 [i; j; (1 + z); (0 + z)]))))).
Definition r_dipr_x3c_8 (z i j c k : nat) : ex := (EAdd (r_dipr_x3c_7 (0 + z) i j c k) (ESum (0 + z) 2 (ESum (1 + z) 3 (EMul (r_hb_H_bb_voov (2 + z) c (0 + z) k (1 + z)) (ET 68 [i; j; (1 + z); (0 + z)]))))).
Definition r_dipr_x3c_9 (z i j c k : nat) : ex := (ESub (r_dipr_x3c_8 (0 + z) i j c k) (EScale (1) 2 (ESum (0 + z) 0 (ESum (1 + z) 3 (EMul (r_hb_H_ab_ovov (2 + z) (0 + z) c i (1 + z)) (ET 68 [(0 + z); j; (1 + z); k])))))).
Definition r_dipr_x_ov_1 (z i e : nat) : ex := (ESub (ESub (ESum (0 + z) 0 (ESum (1 + z) 2 (EMul (r_hb_H_ab_ooov (2 + z) (0 + z) (1 + z) i e) (ET 66 [(0 + z); (1 + z)])))) (ESum (0 + z) 0 (ESum (1 + z) 2 (ESum (2 + z) 1 (EMul (ET 3 [(0 + z); (1 + z); (2 + z); e]) (ET 67 [i; (1 + z); (2 + z); (0 + z)])))))) (EScale (1) 2 (ESum (0 + z) 2 (ESum (1 + z) 2 (ESum (2 + z) 3 (EMul (ET 6 [(0 + z); (1 + z); (2 + z); e]) (ET 68 [i; (1 + z); (2 + z); (0 + z)]))))))).
Definition r_dipr_x_vo_1 (z e j : nat) : ex := (ESub (ESub (ESum (0 + z) 0 (ESum (1 + z) 2 (EMul (r_hb_H_ab_oovo (2 + z) (0 + z) (1 + z) e j) (ET 66 [(0 + z); (1 + z)])))) (EScale (1) 2 (ESum (0 + z) 0 (ESum (1 + z) 0 (ESum (2 + z) 1 (EMul (ET 1 [(0 + z); (1 + z); e; (2 + z)]) (ET 67 [(0 + z); j; (2 + z); (1 + z)]))))))) (ESum (0 + z) 0 (ESum (1 + z) 2 (ESum (2 + z) 3 (EMul (ET 3 [(0 + z); (1 + z); e; (2 + z)]) (ET 68 [(0 + z); j; (2 + z); (1 + z)])))))).
Definition r_dipr_x3c_10 (z i j c k : nat) : ex := (EAdd (r_dipr_x3c_9 (0 + z) i j c k) (ESum (0 + z) 1 (EMul (r_dipr_x_vo_1 (1 + z) (0 + z) j) (ET 11 [(0 + z); c; i; k])))).
Definition r_dipr_x3c_11 (z i j c k : nat) : ex := (EAdd (r_dipr_x3c_10 (0 + z) i j c k) (EScale (1) 2 (ESum (0 + z) 3 (EMul (r_dipr_x_ov_1 (1 + z) i (0 + z)) (ET 18 [(0 + z); c; j; k]))))).
Definition r_dipr_x3c_12 (z i j c k : nat) : ex := (ESub (r_dipr_x3c_11 (0 + z) i j c k) (r_dipr_x3c_11 (0 + z) i k c j)).
Definition s_dip_ab := r_dipr_x2b_8.
Definition s_dip_aba := r_dipr_x3b_12.
Definition s_dip_abb := r_dipr_x3c_12.
