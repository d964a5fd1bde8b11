(** Generated by tools/gen_sector.py: the IP sigma vector with the similarity-transformed Hamiltonian put in, reified; arrays 0-65 as in CcsdReify.v (proof support). *)
From Coq Require Import Reals Arith List ZArith.
From Verif Require Import RSum IntegralsModel TensorObjs TensorAlg CcsdReify SectorModel.
Import ListNotations.
Local Open Scope nat_scope.
Definition r_ipr_X1A (z i : nat) : ex := (ESub (EC (0) 1) (ESum (0 + z) 0 (EMul (r_hb_H_a_oo (1 + z) (0 + z) i) (ET 66 [(0 + z)])))).
Definition r_ipr_X1A_1 (z i : nat) : ex := (ESub (r_ipr_X1A (0 + z) i) (EScale (1) 2 (ESum (0 + z) 0 (ESum (1 + z) 0 (ESum (2 + z) 1 (EMul (r_hb_H_aa_ooov (3 + z) (0 + z) (1 + z) i (2 + z)) (ET 67 [(0 + z); (2 + z); (1 + z)]))))))).
Definition r_ipr_X1A_2 (z i : nat) : ex := (ESub (r_ipr_X1A_1 (0 + z) i) (ESum (0 + z) 0 (ESum (1 + z) 2 (ESum (2 + z) 3 (EMul (r_hb_H_ab_ooov (3 + z) (0 + z) (1 + z) i (2 + z)) (ET 68 [(0 + z); (2 + z); (1 + z)])))))).
Definition r_ipr_X1A_3 (z i : nat) : ex := (EAdd (r_ipr_X1A_2 (0 + z) i) (ESum (0 + z) 0 (ESum (1 + z) 1 (EMul (r_hb_H_a_ov (2 + z) (0 + z) (1 + z)) (ET 67 [i; (1 + z); (0 + z)]))))).
Definition r_ipr_X1A_4 (z i : nat) : ex := (EAdd (r_ipr_X1A_3 (0 + z) i) (ESum (0 + z) 2 (ESum (1 + z) 3 (EMul (r_hb_H_b_ov (2 + z) (0 + z) (1 + z)) (ET 68 [i; (1 + z); (0 + z)]))))).
Definition r_ipr_X2A (z i b j : nat) : ex := (EScale (-1) 2 (ESum (0 + z) 0 (EMul (r_hb_H_aa_vooo (1 + z) b (0 + z) j i) (ET 66 [(0 + z)])))).
Definition r_ipr_X2A_1 (z i b j : nat) : ex := (EAdd (r_ipr_X2A (0 + z) i b j) (EScale (1) 2 (ESum (0 + z) 1 (EMul (r_hb_H_a_vv (1 + z) b (0 + z)) (ET 67 [i; (0 + z); j]))))).
Definition r_ipr_X2A_2 (z i b j : nat) : ex := (EAdd (r_ipr_X2A_1 (0 + z) i b j) (EScale (1) 4 (ESum (0 + z) 0 (ESum (1 + z) 0 (EMul (r_hb_H_aa_oooo_1 (2 + z) (0 + z) (1 + z) i j) (ET 67 [(0 + z); b; (1 + z)])))))).
Definition r_ipr_I1 (z e : nat) : ex := (ESub (EScale (-1) 2 (ESum (0 + z) 0 (ESum (1 + z) 0 (ESum (2 + z) 1 (EMul (ET 1 [(0 + z); (1 + z); e; (2 + z)]) (ET 67 [(0 + z); (2 + z); (1 + z)])))))) (ESum (0 + z) 0 (ESum (1 + z) 2 (ESum (2 + z) 3 (EMul (ET 3 [(0 + z); (1 + z); e; (2 + z)]) (ET 68 [(0 + z); (2 + z); (1 + z)])))))).
Definition r_ipr_X2A_3 (z i b j : nat) : ex := (EAdd (r_ipr_X2A_2 (0 + z) i b j) (EScale (1) 2 (ESum (0 + z) 1 (EMul (r_ipr_I1 (1 + z) (0 + z)) (ET 10 [(0 + z); b; i; j]))))).
Definition r_ipr_X2A_4 (z i b j : nat) : ex := (ESub (r_ipr_X2A_3 (0 + z) i b j) (ESum (0 + z) 0 (EMul (r_hb_H_a_oo (1 + z) (0 + z) i) (ET 67 [(0 + z); b; j])))).
Definition r_ipr_X2A_5 (z i b j : nat) : ex := (EAdd (r_ipr_X2A_4 (0 + z) i b j) (ESum (0 + z) 0 (ESum (1 + z) 1 (EMul (r_hb_H_aa_voov (2 + z) b (0 + z) j (1 + z)) (ET 67 [i; (1 + z); (0 + z)]))))).
Definition r_ipr_X2A_6 (z i b j : nat) : ex := (EAdd (r_ipr_X2A_5 (0 + z) i b j) (ESum (0 + z) 2 (ESum (1 + z) 3 (EMul (r_hb_H_ab_voov (2 + z) b (0 + z) j (1 + z)) (ET 68 [i; (1 + z); (0 + z)]))))).
Definition r_ipr_X2A_7 (z i b j : nat) : ex := (ESub (r_ipr_X2A_6 (0 + z) i b j) (r_ipr_X2A_6 (0 + z) j b i)).
Definition r_ipr_X2B (z i b j : nat) : ex := (EScale (-1) 1 (ESum (0 + z) 0 (EMul (r_hb_H_ab_ovoo (1 + z) (0 + z) b i j) (ET 66 [(0 + z)])))).
Definition r_ipr_X2B_1 (z i b j : nat) : ex := (ESub (r_ipr_X2B (0 + z) i b j) (ESum (0 + z) 0 (EMul (r_hb_H_a_oo (1 + z) (0 + z) i) (ET 68 [(0 + z); b; j])))).
Definition r_ipr_X2B_2 (z i b j : nat) : ex := (ESub (r_ipr_X2B_1 (0 + z) i b j) (ESum (0 + z) 2 (EMul (r_hb_H_b_oo (1 + z) (0 + z) j) (ET 68 [i; b; (0 + z)])))).
Definition r_ipr_X2B_3 (z i b j : nat) : ex := (EAdd (r_ipr_X2B_2 (0 + z) i b j) (ESum (0 + z) 3 (EMul (r_hb_H_b_vv (1 + z) b (0 + z)) (ET 68 [i; (0 + z); j])))).
Definition r_ipr_X2B_4 (z i b j : nat) : ex := (EAdd (r_ipr_X2B_3 (0 + z) i b j) (ESum (0 + z) 0 (ESum (1 + z) 2 (EMul (r_hb_H_ab_oooo (2 + z) (0 + z) (1 + z) i j) (ET 68 [(0 + z); b; (1 + z)]))))).
Definition r_ipr_X2B_5 (z i b j : nat) : ex := (EAdd (r_ipr_X2B_4 (0 + z) i b j) (ESum (0 + z) 0 (ESum (1 + z) 1 (EMul (r_hb_H_ab_ovvo (2 + z) (0 + z) b (1 + z) j) (ET 67 [i; (1 + z); (0 + z)]))))).
Definition r_ipr_X2B_6 (z i b j : nat) : ex := (EAdd (r_ipr_X2B_5 (0 + z) i b j) (ESum (0 + z) 2 (ESum (1 + z) 3 (EMul (r_hb_H_bb_voov (2 + z) b (0 + z) j (1 + z)) (ET 68 [i; (1 + z); (0 + z)]))))).
Definition r_ipr_X2B_7 (z i b j : nat) : ex := (ESub (r_ipr_X2B_6 (0 + z) i b j) (ESum (0 + z) 0 (ESum (1 + z) 3 (EMul (r_hb_H_ab_ovov (2 + z) (0 + z) b i (1 + z)) (ET 68 [(0 + z); (1 + z); j]))))).
Definition r_ipr_I1_1 (z e : nat) : ex := (ESub (EScale (-1) 2 (ESum (0 + z) 0 (ESum (1 + z) 0 (ESum (2 + z) 1 (EMul (ET 1 [(0 + z); (1 + z); e; (2 + z)]) (ET 67 [(0 + z); (2 + z); (1 + z)])))))) (ESum (0 + z) 0 (ESum (1 + z) 2 (ESum (2 + z) 3 (EMul (ET 3 [(0 + z); (1 + z); e; (2 + z)]) (ET 68 [(0 + z); (2 + z); (1 + z)])))))).
Definition r_ipr_X2B_8 (z i b j : nat) : ex := (EAdd (r_ipr_X2B_7 (0 + z) i b j) (ESum (0 + z) 1 (EMul (r_ipr_I1_1 (1 + z) (0 + z)) (ET 11 [(0 + z); b; i; j])))).
Definition s_ip_a := r_ipr_X1A_4.
Definition s_ip_aa := r_ipr_X2A_7.
Definition s_ip_ab := r_ipr_X2B_8.
