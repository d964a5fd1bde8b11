(** Generated by tools/gen_sector.py: the EA sigma vector with the similarity-transformed Hamiltonian put in, reified; arrays 0-65 as in CcsdReify.v (proof support). *)
From Coq Require Import Reals Arith List ZArith.
From Verif Require Import RSum IntegralsModel TensorObjs TensorAlg CcsdReify SectorModel.
Import ListNotations.
Local Open Scope nat_scope.
Definition r_ear_X1A (z a : nat) : ex := (ESum (0 + z) 1 (EMul (r_hb_H_a_vv (1 + z) a (0 + z)) (ET 66 [(0 + z)]))).
Definition r_ear_X1A_1 (z a : nat) : ex := (EAdd (r_ear_X1A (0 + z) a) (EScale (1) 2 (ESum (0 + z) 0 (ESum (1 + z) 1 (ESum (2 + z) 1 (EMul (r_hb_H_aa_vovv (3 + z) a (0 + z) (1 + z) (2 + z)) (ET 67 [(1 + z); (2 + z); (0 + z)]))))))).
Definition r_ear_X1A_2 (z a : nat) : ex := (EAdd (r_ear_X1A_1 (0 + z) a) (ESum (0 + z) 2 (ESum (1 + z) 1 (ESum (2 + z) 3 (EMul (r_hb_H_ab_vovv (3 + z) a (0 + z) (1 + z) (2 + z)) (ET 68 [(1 + z); (2 + z); (0 + z)])))))).
Definition r_ear_X1A_3 (z a : nat) : ex := (EAdd (r_ear_X1A_2 (0 + z) a) (ESum (0 + z) 0 (ESum (1 + z) 1 (EMul (r_hb_H_a_ov (2 + z) (0 + z) (1 + z)) (ET 67 [a; (1 + z); (0 + z)]))))).
Definition r_ear_X1A_4 (z a : nat) : ex := (EAdd (r_ear_X1A_3 (0 + z) a) (ESum (0 + z) 2 (ESum (1 + z) 3 (EMul (r_hb_H_b_ov (2 + z) (0 + z) (1 + z)) (ET 68 [a; (1 + z); (0 + z)]))))).
Definition r_ear_X2A (z a b j : nat) : ex := (EScale (1) 2 (ESum (0 + z) 1 (EMul (r_hb_H_aa_vvov_1 (1 + z) b a j (0 + z)) (ET 66 [(0 + z)])))).
Definition r_ear_X2A_1 (z a b j : nat) : ex := (ESub (r_ear_X2A (0 + z) a b j) (EScale (1) 2 (ESum (0 + z) 0 (EMul (r_hb_H_a_oo (1 + z) (0 + z) j) (ET 67 [a; b; (0 + z)]))))).
Definition r_ear_X2A_2 (z a b j : nat) : ex := (EAdd (r_ear_X2A_1 (0 + z) a b j) (EScale (1) 4 (ESum (0 + z) 1 (ESum (1 + z) 1 (EMul (r_hb_H_aa_vvvv_1 (2 + z) a b (0 + z) (1 + z)) (ET 67 [(0 + z); (1 + z); j])))))).
Definition r_ear_I1 (z m : nat) : ex := (EAdd (EScale (1) 2 (ESum (0 + z) 0 (ESum (1 + z) 1 (ESum (2 + z) 1 (EMul (ET 1 [m; (0 + z); (1 + z); (2 + z)]) (ET 67 [(1 + z); (2 + z); (0 + z)])))))) (ESum (0 + z) 2 (ESum (1 + z) 1 (ESum (2 + z) 3 (EMul (ET 3 [m; (0 + z); (1 + z); (2 + z)]) (ET 68 [(1 + z); (2 + z); (0 + z)])))))).
Definition r_ear_X2A_3 (z a b j : nat) : ex := (ESub (r_ear_X2A_2 (0 + z) a b j) (EScale (1) 2 (ESum (0 + z) 0 (EMul (r_ear_I1 (1 + z) (0 + z)) (ET 10 [a; b; (0 + z); j]))))).
Definition r_ear_X2A_4 (z a b j : nat) : ex := (EAdd (r_ear_X2A_3 (0 + z) a b j) (ESum (0 + z) 1 (EMul (r_hb_H_a_vv (1 + z) a (0 + z)) (ET 67 [(0 + z); b; j])))).
Definition r_ear_X2A_5 (z a b j : nat) : ex := (EAdd (r_ear_X2A_4 (0 + z) a b j) (ESum (0 + z) 0 (ESum (1 + z) 1 (EMul (r_hb_H_aa_voov (2 + z) b (0 + z) j (1 + z)) (ET 67 [a; (1 + z); (0 + z)]))))).
Definition r_ear_X2A_6 (z a b j : nat) : ex := (EAdd (r_ear_X2A_5 (0 + z) a b j) (ESum (0 + z) 2 (ESum (1 + z) 3 (EMul (r_hb_H_ab_voov (2 + z) b (0 + z) j (1 + z)) (ET 68 [a; (1 + z); (0 + z)]))))).
Definition r_ear_X2A_7 (z a b j : nat) : ex := (ESub (r_ear_X2A_6 (0 + z) a b j) (r_ear_X2A_6 (0 + z) b a j)).
Definition r_ear_X2B (z a b j : nat) : ex := (ESum (0 + z) 1 (EMul (r_hb_H_ab_vvvo (1 + z) a b (0 + z) j) (ET 66 [(0 + z)]))).
Definition r_ear_X2B_1 (z a b j : nat) : ex := (EAdd (r_ear_X2B (0 + z) a b j) (ESum (0 + z) 1 (EMul (r_hb_H_a_vv (1 + z) a (0 + z)) (ET 68 [(0 + z); b; j])))).
Definition r_ear_X2B_2 (z a b j : nat) : ex := (EAdd (r_ear_X2B_1 (0 + z) a b j) (ESum (0 + z) 3 (EMul (r_hb_H_b_vv (1 + z) b (0 + z)) (ET 68 [a; (0 + z); j])))).
Definition r_ear_X2B_3 (z a b j : nat) : ex := (ESub (r_ear_X2B_2 (0 + z) a b j) (ESum (0 + z) 2 (EMul (r_hb_H_b_oo (1 + z) (0 + z) j) (ET 68 [a; b; (0 + z)])))).
Definition r_ear_X2B_4 (z a b j : nat) : ex := (EAdd (r_ear_X2B_3 (0 + z) a b j) (ESum (0 + z) 0 (ESum (1 + z) 1 (EMul (r_hb_H_ab_ovvo (2 + z) (0 + z) b (1 + z) j) (ET 67 [a; (1 + z); (0 + z)]))))).
Definition r_ear_X2B_5 (z a b j : nat) : ex := (EAdd (r_ear_X2B_4 (0 + z) a b j) (ESum (0 + z) 2 (ESum (1 + z) 3 (EMul (r_hb_H_bb_voov (2 + z) b (0 + z) j (1 + z)) (ET 68 [a; (1 + z); (0 + z)]))))).
Definition r_ear_X2B_6 (z a b j : nat) : ex := (ESub (r_ear_X2B_5 (0 + z) a b j) (ESum (0 + z) 2 (ESum (1 + z) 1 (EMul (r_hb_H_ab_vovo (2 + z) a (0 + z) (1 + z) j) (ET 68 [(1 + z); b; (0 + z)]))))).
Definition r_ear_X2B_7 (z a b j : nat) : ex := (EAdd (r_ear_X2B_6 (0 + z) a b j) (ESum (0 + z) 1 (ESum (1 + z) 3 (EMul (r_hb_H_ab_vvvv (2 + z) a b (0 + z) (1 + z)) (ET 68 [(0 + z); (1 + z); j]))))).
Definition r_ear_I1_1 (z m : nat) : ex := (EAdd (EScale (1) 2 (ESum (0 + z) 0 (ESum (1 + z) 1 (ESum (2 + z) 1 (EMul (ET 1 [m; (0 + z); (1 + z); (2 + z)]) (ET 67 [(1 + z); (2 + z); (0 + z)])))))) (ESum (0 + z) 2 (ESum (1 + z) 1 (ESum (2 + z) 3 (EMul (ET 3 [m; (0 + z); (1 + z); (2 + z)]) (ET 68 [(1 + z); (2 + z); (0 + z)])))))).
Definition r_ear_X2B_8 (z a b j : nat) : ex := (ESub (r_ear_X2B_7 (0 + z) a b j) (ESum (0 + z) 0 (EMul (r_ear_I1_1 (1 + z) (0 + z)) (ET 11 [a; b; (0 + z); j])))).
Definition s_ea_a := r_ear_X1A_4.
Definition s_ea_aa := r_ear_X2A_7.
Definition s_ea_ab := r_ear_X2B_8.
