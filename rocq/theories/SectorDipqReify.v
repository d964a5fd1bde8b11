(** Generated by tools/gen_sector3.py: the DIPQ sigma vector with the similarity-transformed Hamiltonian put in, reified; arrays 0-65 as in CcsdReify.v (proof support). *)
From Coq Require Import Reals Arith List ZArith.
From Verif Require Import RSum IntegralsModel TensorObjs TensorAlg CcsdReify Sector3Model.
Import ListNotations.
Local Open Scope nat_scope.
Definition r_dipqr_X_ab_ov (z i e : nat) : ex := (ESub (ESub (ESum (0 + z) 0 (ESum (1 + z) 2 (EMul (r_hb_H_ab_ooov (2 + z) (0 + z) (1 + z) i e) (ET 66 [(0 + z); (1 + z)])))) (ESum (0 + z) 0 (ESum (1 + z) 2 (ESum (2 + z) 1 (EMul (ET 3 [(0 + z); (1 + z); (2 + z); e]) (ET 67 [i; (1 + z); (2 + z); (0 + z)])))))) (EScale (1) 2 (ESum (0 + z) 2 (ESum (1 + z) 2 (ESum (2 + z) 3 (EMul (ET 6 [(0 + z); (1 + z); (2 + z); e]) (ET 68 [i; (1 + z); (2 + z); (0 + z)]))))))).
Definition r_dipqr_X_ab_vo (z e j : nat) : ex := (ESub (ESub (ESum (0 + z) 0 (ESum (1 + z) 2 (EMul (r_hb_H_ab_oovo (2 + z) (0 + z) (1 + z) e j) (ET 66 [(0 + z); (1 + z)])))) (EScale (1) 2 (ESum (0 + z) 0 (ESum (1 + z) 0 (ESum (2 + z) 1 (EMul (ET 1 [(0 + z); (1 + z); e; (2 + z)]) (ET 67 [(0 + z); j; (2 + z); (1 + z)]))))))) (ESum (0 + z) 0 (ESum (1 + z) 2 (ESum (2 + z) 3 (EMul (ET 3 [(0 + z); (1 + z); e; (2 + z)]) (ET 68 [(0 + z); j; (2 + z); (1 + z)])))))).
Definition r_dipqr_X_ab_vv (z e f : nat) : ex := (ESum (0 + z) 0 (ESum (1 + z) 2 (EMul (ET 3 [(0 + z); (1 + z); e; f]) (ET 66 [(0 + z); (1 + z)])))).
Definition r_dipqr_X_aba_oovv (z i j c e : nat) : ex := (ESub (ESub (ESub (EAdd (EAdd (EAdd (EAdd (ESum (0 + z) 0 (ESum (1 + z) 1 (EMul (r_hb_H_aa_vovv (2 + z) c (0 + z) e (1 + z)) (ET 67 [i; j; (1 + z); (0 + z)])))) (ESum (0 + z) 2 (ESum (1 + z) 3 (EMul (r_hb_H_ab_vovv (2 + z) c (0 + z) e (1 + z)) (ET 68 [i; j; (1 + z); (0 + z)]))))) (ESum (0 + z) 0 (EMul (r_hb_H_aa_voov (1 + z) c (0 + z) i e) (ET 66 [(0 + z); j])))) (ESum (0 + z) 0 (ESum (1 + z) 2 (EMul (r_hb_H_ab_oovo (2 + z) (0 + z) (1 + z) e j) (ET 67 [i; (1 + z); c; (0 + z)]))))) (EScale (1) 2 (ESum (0 + z) 0 (ESum (1 + z) 0 (EMul (r_hb_H_aa_ooov (2 + z) (0 + z) (1 + z) i e) (ET 67 [(0 + z); j; c; (1 + z)])))))) (ESum (0 + z) 2 (EMul (r_hb_H_ab_vovo (1 + z) c (0 + z) e j) (ET 66 [i; (0 + z)])))) (EScale (1) 2 (ESum (0 + z) 0 (ESum (1 + z) 0 (ESum (2 + z) 1 (EMul (ET 1 [(0 + z); (1 + z); e; (2 + z)]) (ET 69 [i; j; c; (2 + z); (0 + z); (1 + z)]))))))) (ESum (0 + z) 0 (ESum (1 + z) 2 (ESum (2 + z) 3 (EMul (ET 3 [(0 + z); (1 + z); e; (2 + z)]) (ET 70 [i; j; c; (2 + z); (0 + z); (1 + z)])))))).
Definition r_dipqr_X_aba_oooo (z i j m k : nat) : ex := (EAdd (EAdd (ESub (ESub (ESub (EAdd (ESum (0 + z) 0 (ESum (1 + z) 1 (EMul (r_hb_H_aa_ooov (2 + z) m (0 + z) k (1 + z)) (ET 67 [i; j; (1 + z); (0 + z)])))) (ESum (0 + z) 2 (ESum (1 + z) 3 (EMul (r_hb_H_ab_ooov (2 + z) m (0 + z) k (1 + z)) (ET 68 [i; j; (1 + z); (0 + z)]))))) (EScale (1) 2 (ESum (0 + z) 2 (ESum (1 + z) 1 (EMul (r_hb_H_ab_oovo (2 + z) m (0 + z) (1 + z) j) (ET 67 [i; (0 + z); (1 + z); k])))))) (EScale (1) 2 (ESum (0 + z) 0 (EMul (r_hb_H_aa_oooo_1 (1 + z) (0 + z) m i k) (ET 66 [(0 + z); j]))))) (ESum (0 + z) 2 (EMul (r_hb_H_ab_oooo (1 + z) m (0 + z) k j) (ET 66 [i; (0 + z)])))) (EScale (1) 4 (ESum (0 + z) 0 (ESum (1 + z) 1 (ESum (2 + z) 1 (EMul (ET 1 [m; (0 + z); (1 + z); (2 + z)]) (ET 69 [i; j; (1 + z); (2 + z); k; (0 + z)]))))))) (EScale (1) 2 (ESum (0 + z) 2 (ESum (1 + z) 1 (ESum (2 + z) 3 (EMul (ET 3 [m; (0 + z); (1 + z); (2 + z)]) (ET 70 [i; j; (1 + z); (2 + z); k; (0 + z)]))))))).
Definition r_dipqr_X_aba_oooo_1 (z i j m k : nat) : ex := (ESub (r_dipqr_X_aba_oooo (0 + z) i j m k) (r_dipqr_X_aba_oooo (0 + z) k j m i)).
Definition r_dipqr_X_aba_ovvo (z i e c k : nat) : ex := (ESub (ESub (ESub (ESub (ESum (0 + z) 0 (ESum (1 + z) 2 (EMul (r_hb_H_ab_ooov (2 + z) (0 + z) (1 + z) i e) (ET 67 [(0 + z); (1 + z); c; k])))) (EScale (1) 2 (ESum (0 + z) 2 (ESum (1 + z) 1 (EMul (r_hb_H_ab_vovv (2 + z) c (0 + z) (1 + z) e) (ET 67 [i; (0 + z); (1 + z); k])))))) (ESum (0 + z) 2 (EMul (r_hb_H_ab_voov (1 + z) c (0 + z) k e) (ET 66 [i; (0 + z)])))) (EScale (1) 2 (ESum (0 + z) 0 (ESum (1 + z) 2 (ESum (2 + z) 1 (EMul (ET 3 [(0 + z); (1 + z); (2 + z); e]) (ET 69 [i; (1 + z); c; (2 + z); k; (0 + z)]))))))) (EScale (1) 4 (ESum (0 + z) 2 (ESum (1 + z) 2 (ESum (2 + z) 3 (EMul (ET 6 [(0 + z); (1 + z); e; (2 + z)]) (ET 70 [i; (0 + z); c; (2 + z); k; (1 + z)]))))))).
Definition r_dipqr_X_aba_ovvo_1 (z i e c k : nat) : ex := (ESub (r_dipqr_X_aba_ovvo (0 + z) i e c k) (r_dipqr_X_aba_ovvo (0 + z) k e c i)).
Definition r_dipqr_X_abb_oovv (z i j d e : nat) : ex := (ESub (ESub (ESub (EAdd (EAdd (EAdd (EAdd (ESum (0 + z) 0 (ESum (1 + z) 1 (EMul (r_hb_H_ab_ovvv (2 + z) (0 + z) d (1 + z) e) (ET 67 [i; j; (1 + z); (0 + z)])))) (ESum (0 + z) 2 (ESum (1 + z) 3 (EMul (r_hb_H_bb_vovv (2 + z) d (0 + z) e (1 + z)) (ET 68 [i; j; (1 + z); (0 + z)]))))) (ESum (0 + z) 2 (EMul (r_hb_H_bb_voov (1 + z) d (0 + z) j e) (ET 66 [i; (0 + z)])))) (EScale (1) 2 (ESum (0 + z) 2 (ESum (1 + z) 2 (EMul (r_hb_H_bb_ooov (2 + z) (0 + z) (1 + z) j e) (ET 68 [i; (0 + z); d; (1 + z)])))))) (ESum (0 + z) 0 (ESum (1 + z) 2 (EMul (r_hb_H_ab_ooov (2 + z) (0 + z) (1 + z) i e) (ET 68 [(0 + z); j; d; (1 + z)]))))) (ESum (0 + z) 0 (EMul (r_hb_H_ab_ovov (1 + z) (0 + z) d i e) (ET 66 [(0 + z); j])))) (ESum (0 + z) 0 (ESum (1 + z) 2 (ESum (2 + z) 1 (EMul (ET 3 [(0 + z); (1 + z); (2 + z); e]) (ET 70 [i; j; (2 + z); d; (0 + z); (1 + z)])))))) (EScale (1) 2 (ESum (0 + z) 2 (ESum (1 + z) 2 (ESum (2 + z) 3 (EMul (ET 6 [(0 + z); (1 + z); e; (2 + z)]) (ET 71 [i; j; (2 + z); d; (1 + z); (0 + z)]))))))).
Definition r_dipqr_X_abb_oooo (z i j m k : nat) : ex := (EAdd (EAdd (ESub (ESub (ESub (EAdd (ESum (0 + z) 0 (ESum (1 + z) 1 (EMul (r_hb_H_ab_oovo (2 + z) (0 + z) m (1 + z) k) (ET 67 [i; j; (1 + z); (0 + z)])))) (ESum (0 + z) 2 (ESum (1 + z) 3 (EMul (r_hb_H_bb_ooov (2 + z) m (0 + z) k (1 + z)) (ET 68 [i; j; (1 + z); (0 + z)]))))) (ESum (0 + z) 0 (EMul (r_hb_H_ab_oooo (1 + z) (0 + z) m i k) (ET 66 [(0 + z); j])))) (EScale (1) 2 (ESum (0 + z) 0 (ESum (1 + z) 3 (EMul (r_hb_H_ab_ooov (2 + z) (0 + z) m i (1 + z)) (ET 68 [(0 + z); j; (1 + z); k])))))) (EScale (1) 2 (ESum (0 + z) 2 (EMul (r_hb_H_bb_oooo_1 (1 + z) (0 + z) m j k) (ET 66 [i; (0 + z)]))))) (EScale (1) 2 (ESum (0 + z) 0 (ESum (1 + z) 1 (ESum (2 + z) 3 (EMul (ET 3 [(0 + z); m; (1 + z); (2 + z)]) (ET 70 [i; j; (1 + z); (2 + z); (0 + z); k]))))))) (EScale (1) 4 (ESum (0 + z) 2 (ESum (1 + z) 3 (ESum (2 + z) 3 (EMul (ET 6 [m; (0 + z); (1 + z); (2 + z)]) (ET 71 [i; j; (2 + z); (1 + z); (0 + z); k]))))))).
Definition r_dipqr_X_abb_oooo_1 (z i j m k : nat) : ex := (ESub (r_dipqr_X_abb_oooo (0 + z) i j m k) (r_dipqr_X_abb_oooo (0 + z) i k m j)).
Definition r_dipqr_X_abb_vovo (z e j d l : nat) : ex := (ESub (ESub (ESub (EAdd (EScale (-1) 2 (ESum (0 + z) 0 (ESum (1 + z) 3 (EMul (r_hb_H_ab_ovvv (2 + z) (0 + z) d e (1 + z)) (ET 68 [(0 + z); j; (1 + z); l]))))) (ESum (0 + z) 0 (ESum (1 + z) 2 (EMul (r_hb_H_ab_oovo (2 + z) (0 + z) (1 + z) e j) (ET 68 [(0 + z); (1 + z); d; l]))))) (ESum (0 + z) 0 (EMul (r_hb_H_ab_ovvo (1 + z) (0 + z) d e l) (ET 66 [(0 + z); j])))) (EScale (1) 4 (ESum (0 + z) 0 (ESum (1 + z) 0 (ESum (2 + z) 1 (EMul (ET 1 [(0 + z); (1 + z); e; (2 + z)]) (ET 70 [(0 + z); j; (2 + z); d; (1 + z); l]))))))) (EScale (1) 2 (ESum (0 + z) 0 (ESum (1 + z) 2 (ESum (2 + z) 3 (EMul (ET 3 [(0 + z); (1 + z); e; (2 + z)]) (ET 71 [(0 + z); j; (2 + z); d; (1 + z); l]))))))).
Definition r_dipqr_X_abb_vovo_1 (z e j d l : nat) : ex := (ESub (r_dipqr_X_abb_vovo (0 + z) e j d l) (r_dipqr_X_abb_vovo (0 + z) e l d j)).
Definition r_dipqr_x2b (z i j : nat) : ex := (EOpp (ESum (0 + z) 0 (EMul (r_hb_H_a_oo (1 + z) (0 + z) i) (ET 66 [(0 + z); j])))).
Definition r_dipqr_x2b_1 (z i j : nat) : ex := (ESub (r_dipqr_x2b (0 + z) i j) (ESum (0 + z) 2 (EMul (r_hb_H_b_oo (1 + z) (0 + z) j) (ET 66 [i; (0 + z)])))).
Definition r_dipqr_x2b_2 (z i j : nat) : ex := (EAdd (r_dipqr_x2b_1 (0 + z) i j) (ESum (0 + z) 0 (ESum (1 + z) 2 (EMul (r_hb_H_ab_oooo (2 + z) (0 + z) (1 + z) i j) (ET 66 [(0 + z); (1 + z)]))))).
Definition r_dipqr_x2b_3 (z i j : nat) : ex := (EAdd (r_dipqr_x2b_2 (0 + z) i j) (ESum (0 + z) 0 (ESum (1 + z) 1 (EMul (r_hb_H_a_ov (2 + z) (0 + z) (1 + z)) (ET 67 [i; j; (1 + z); (0 + z)]))))).
Definition r_dipqr_x2b_4 (z i j : nat) : ex := (EAdd (r_dipqr_x2b_3 (0 + z) i j) (ESum (0 + z) 2 (ESum (1 + z) 3 (EMul (r_hb_H_b_ov (2 + z) (0 + z) (1 + z)) (ET 68 [i; j; (1 + z); (0 + z)]))))).
Definition r_dipqr_x2b_5 (z i j : nat) : ex := (ESub (r_dipqr_x2b_4 (0 + z) i j) (ESum (0 + z) 0 (ESum (1 + z) 2 (ESum (2 + z) 1 (EMul (r_hb_H_ab_oovo (3 + z) (0 + z) (1 + z) (2 + z) j) (ET 67 [i; (1 + z); (2 + z); (0 + z)])))))).
Definition r_dipqr_x2b_6 (z i j : nat) : ex := (ESub (r_dipqr_x2b_5 (0 + z) i j) (EScale (1) 2 (ESum (0 + z) 2 (ESum (1 + z) 2 (ESum (2 + z) 3 (EMul (r_hb_H_bb_ooov (3 + z) (0 + z) (1 + z) j (2 + z)) (ET 68 [i; (0 + z); (2 + z); (1 + z)]))))))).
Definition r_dipqr_x2b_7 (z i j : nat) : ex := (ESub (r_dipqr_x2b_6 (0 + z) i j) (EScale (1) 2 (ESum (0 + z) 0 (ESum (1 + z) 0 (ESum (2 + z) 1 (EMul (r_hb_H_aa_ooov (3 + z) (0 + z) (1 + z) i (2 + z)) (ET 67 [(0 + z); j; (2 + z); (1 + z)]))))))).
Definition r_dipqr_x2b_8 (z i j : nat) : ex := (ESub (r_dipqr_x2b_7 (0 + z) i j) (ESum (0 + z) 0 (ESum (1 + z) 2 (ESum (2 + z) 3 (EMul (r_hb_H_ab_ooov (3 + z) (0 + z) (1 + z) i (2 + z)) (ET 68 [(0 + z); j; (2 + z); (1 + z)])))))).
Definition r_dipqr_x2b_9 (z i j : nat) : ex := (EAdd (r_dipqr_x2b_8 (0 + z) i j) (EScale (1) 4 (ESum (0 + z) 0 (ESum (1 + z) 0 (ESum (2 + z) 1 (ESum (3 + z) 1 (EMul (ET 1 [(0 + z); (1 + z); (2 + z); (3 + z)]) (ET 69 [i; j; (2 + z); (3 + z); (0 + z); (1 + z)])))))))).
Definition r_dipqr_x2b_10 (z i j : nat) : ex := (EAdd (r_dipqr_x2b_9 (0 + z) i j) (ESum (0 + z) 0 (ESum (1 + z) 2 (ESum (2 + z) 1 (ESum (3 + z) 3 (EMul (ET 3 [(0 + z); (1 + z); (2 + z); (3 + z)]) (ET 70 [i; j; (2 + z); (3 + z); (0 + z); (1 + z)]))))))).
Definition r_dipqr_x2b_11 (z i j : nat) : ex := (EAdd (r_dipqr_x2b_10 (0 + z) i j) (EScale (1) 4 (ESum (0 + z) 2 (ESum (1 + z) 2 (ESum (2 + z) 3 (ESum (3 + z) 3 (EMul (ET 6 [(0 + z); (1 + z); (2 + z); (3 + z)]) (ET 71 [i; j; (2 + z); (3 + z); (0 + z); (1 + z)])))))))).
Definition r_dipqr_x3b (z i j c k : nat) : ex := (EScale (-1) 2 (ESum (0 + z) 0 (EMul (r_hb_H_aa_vooo (1 + z) c (0 + z) k i) (ET 66 [(0 + z); j])))).
Definition r_dipqr_x3b_1 (z i j c k : nat) : ex := (ESub (r_dipqr_x3b (0 + z) i j c k) (ESum (0 + z) 2 (EMul (r_hb_H_ab_vooo (1 + z) c (0 + z) k j) (ET 66 [i; (0 + z)])))).
Definition r_dipqr_x3b_2 (z i j c k : nat) : ex := (ESub (r_dipqr_x3b_1 (0 + z) i j c k) (ESum (0 + z) 0 (EMul (r_hb_H_a_oo (1 + z) (0 + z) k) (ET 67 [i; j; c; (0 + z)])))).
Definition r_dipqr_x3b_3 (z i j c k : nat) : ex := (ESub (r_dipqr_x3b_2 (0 + z) i j c k) (EScale (1) 2 (ESum (0 + z) 2 (EMul (r_hb_H_b_oo (1 + z) (0 + z) j) (ET 67 [i; (0 + z); c; k]))))).
Definition r_dipqr_x3b_4 (z i j c k : nat) : ex := (EAdd (r_dipqr_x3b_3 (0 + z) i j c k) (EScale (1) 2 (ESum (0 + z) 1 (EMul (r_hb_H_a_vv (1 + z) c (0 + z)) (ET 67 [i; j; (0 + z); k]))))).
Definition r_dipqr_x3b_5 (z i j c k : nat) : ex := (EAdd (r_dipqr_x3b_4 (0 + z) i j c k) (ESum (0 + z) 0 (ESum (1 + z) 1 (EMul (r_hb_H_aa_voov (2 + z) c (0 + z) k (1 + z)) (ET 67 [i; j; (1 + z); (0 + z)]))))).
Definition r_dipqr_x3b_6 (z i j c k : nat) : ex := (EAdd (r_dipqr_x3b_5 (0 + z) i j c k) (ESum (0 + z) 2 (ESum (1 + z) 3 (EMul (r_hb_H_ab_voov (2 + z) c (0 + z) k (1 + z)) (ET 68 [i; j; (1 + z); (0 + z)]))))).
Definition r_dipqr_x3b_7 (z i j c k : nat) : ex := (EAdd (r_dipqr_x3b_6 (0 + z) i j c k) (ESum (0 + z) 0 (ESum (1 + z) 2 (EMul (r_hb_H_ab_oooo (2 + z) (0 + z) (1 + z) i j) (ET 67 [(0 + z); (1 + z); c; k]))))).
Definition r_dipqr_x3b_8 (z i j c k : nat) : ex := (EAdd (r_dipqr_x3b_7 (0 + z) i j c k) (EScale (1) 4 (ESum (0 + z) 0 (ESum (1 + z) 0 (EMul (r_hb_H_aa_oooo_1 (2 + z) (0 + z) (1 + z) i k) (ET 67 [(0 + z); j; c; (1 + z)])))))).
Definition r_dipqr_x3b_9 (z i j c k : nat) : ex := (ESub (r_dipqr_x3b_8 (0 + z) i j c k) (EScale (1) 2 (ESum (0 + z) 2 (ESum (1 + z) 1 (EMul (r_hb_H_ab_vovo (2 + z) c (0 + z) (1 + z) j) (ET 67 [i; (0 + z); (1 + z); k])))))).
Definition r_dipqr_x3b_10 (z i j c k : nat) : ex := (EAdd (r_dipqr_x3b_9 (0 + z) i j c k) (ESum (0 + z) 3 (EMul (r_dipqr_X_ab_ov (1 + z) i (0 + z)) (ET 11 [c; (0 + z); k; j])))).
Definition r_dipqr_x3b_11 (z i j c k : nat) : ex := (EAdd (r_dipqr_x3b_10 (0 + z) i j c k) (EScale (1) 2 (ESum (0 + z) 1 (EMul (r_dipqr_X_ab_vo (1 + z) (0 + z) j) (ET 10 [(0 + z); c; i; k]))))).
Definition r_dipqr_x3b_12 (z i j c k : nat) : ex := (EAdd (r_dipqr_x3b_11 (0 + z) i j c k) (EScale (1) 2 (ESum (0 + z) 0 (ESum (1 + z) 1 (EMul (r_hb_H_a_ov (2 + z) (0 + z) (1 + z)) (ET 69 [i; j; c; (1 + z); k; (0 + z)])))))).
Definition r_dipqr_x3b_13 (z i j c k : nat) : ex := (EAdd (r_dipqr_x3b_12 (0 + z) i j c k) (EScale (1) 2 (ESum (0 + z) 2 (ESum (1 + z) 3 (EMul (r_hb_H_b_ov (2 + z) (0 + z) (1 + z)) (ET 70 [i; j; c; (1 + z); k; (0 + z)])))))).
Definition r_dipqr_x3b_14 (z i j c k : nat) : ex := (ESub (r_dipqr_x3b_13 (0 + z) i j c k) (EScale (1) 2 (ESum (0 + z) 0 (ESum (1 + z) 0 (ESum (2 + z) 1 (EMul (r_hb_H_aa_ooov (3 + z) (0 + z) (1 + z) i (2 + z)) (ET 69 [(0 + z); j; c; (2 + z); k; (1 + z)]))))))).
Definition r_dipqr_x3b_15 (z i j c k : nat) : ex := (ESub (r_dipqr_x3b_14 (0 + z) i j c k) (ESum (0 + z) 0 (ESum (1 + z) 2 (ESum (2 + z) 3 (EMul (r_hb_H_ab_ooov (3 + z) (0 + z) (1 + z) i (2 + z)) (ET 70 [(0 + z); j; c; (2 + z); k; (1 + z)])))))).
Definition r_dipqr_x3b_16 (z i j c k : nat) : ex := (ESub (r_dipqr_x3b_15 (0 + z) i j c k) (EScale (1) 2 (ESum (0 + z) 0 (ESum (1 + z) 2 (ESum (2 + z) 1 (EMul (r_hb_H_ab_oovo (3 + z) (0 + z) (1 + z) (2 + z) j) (ET 69 [i; (1 + z); c; (2 + z); k; (0 + z)]))))))).
Definition r_dipqr_x3b_17 (z i j c k : nat) : ex := (ESub (r_dipqr_x3b_16 (0 + z) i j c k) (EScale (1) 4 (ESum (0 + z) 2 (ESum (1 + z) 2 (ESum (2 + z) 3 (EMul (r_hb_H_bb_ooov (3 + z) (0 + z) (1 + z) j (2 + z)) (ET 70 [i; (0 + z); c; (2 + z); k; (1 + z)]))))))).
Definition r_dipqr_x3b_18 (z i j c k : nat) : ex := (EAdd (r_dipqr_x3b_17 (0 + z) i j c k) (EScale (1) 4 (ESum (0 + z) 0 (ESum (1 + z) 1 (ESum (2 + z) 1 (EMul (r_hb_H_aa_vovv (3 + z) c (0 + z) (1 + z) (2 + z)) (ET 69 [i; j; (1 + z); (2 + z); k; (0 + z)]))))))).
Definition r_dipqr_x3b_19 (z i j c k : nat) : ex := (EAdd (r_dipqr_x3b_18 (0 + z) i j c k) (EScale (1) 2 (ESum (0 + z) 2 (ESum (1 + z) 1 (ESum (2 + z) 3 (EMul (r_hb_H_ab_vovv (3 + z) c (0 + z) (1 + z) (2 + z)) (ET 70 [i; j; (1 + z); (2 + z); k; (0 + z)]))))))).
Definition r_dipqr_x3b_20 (z i j c k : nat) : ex := (ESub (r_dipqr_x3b_19 (0 + z) i j c k) (r_dipqr_x3b_19 (0 + z) k j c i)).
Definition r_dipqr_x3c (z i j c k : nat) : ex := (EOpp (ESum (0 + z) 0 (EMul (r_hb_H_ab_ovoo (1 + z) (0 + z) c i k) (ET 66 [(0 + z); j])))).
Definition r_dipqr_x3c_1 (z i j c k : nat) : ex := (ESub (r_dipqr_x3c (0 + z) i j c k) (EScale (1) 2 (ESum (0 + z) 2 (EMul (r_hb_H_bb_vooo (1 + z) c (0 + z) k j) (ET 66 [i; (0 + z)]))))).
Definition r_dipqr_x3c_2 (z i j c k : nat) : ex := (ESub (r_dipqr_x3c_1 (0 + z) i j c k) (EScale (1) 2 (ESum (0 + z) 0 (EMul (r_hb_H_a_oo (1 + z) (0 + z) i) (ET 68 [(0 + z); j; c; k]))))).
Definition r_dipqr_x3c_3 (z i j c k : nat) : ex := (ESub (r_dipqr_x3c_2 (0 + z) i j c k) (ESum (0 + z) 2 (EMul (r_hb_H_b_oo (1 + z) (0 + z) j) (ET 68 [i; (0 + z); c; k])))).
Definition r_dipqr_x3c_4 (z i j c k : nat) : ex := (EAdd (r_dipqr_x3c_3 (0 + z) i j c k) (EScale (1) 2 (ESum (0 + z) 3 (EMul (r_hb_H_b_vv (1 + z) c (0 + z)) (ET 68 [i; j; (0 + z); k]))))).
Definition r_dipqr_x3c_5 (z i j c k : nat) : ex := (EAdd (r_dipqr_x3c_4 (0 + z) i j c k) (ESum (0 + z) 0 (ESum (1 + z) 2 (EMul (r_hb_H_ab_oooo (2 + z) (0 + z) (1 + z) i j) (ET 68 [(0 + z); (1 + z); c; k]))))).
Definition r_dipqr_x3c_6 (z i j c k : nat) : ex := (EAdd (r_dipqr_x3c_5 (0 + z) i j c k) (EScale (1) 4 (ESum (0 + z) 2 (ESum (1 + z) 2 (EMul (r_hb_H_bb_oooo_1 (2 + z) (0 + z) (1 + z) j k) (ET 68 [i; (0 + z); c; (1 + z)])))))).
Definition r_dipqr_x3c_7 (z i j c k : nat) : ex := (EAdd (r_dipqr_x3c_6 (0 + z) i j c k) (ESum (0 + z) 0 (ESum (1 + z) 1 (EMul (r_hb_H_ab_ovvo (2 + z) (0 + z) c (1 + z) k) (ET 67 [i; j; (1 + z); (0 + z)]))))).
Definition r_dipqr_x3c_8 (z i j c k : nat) : ex := (EAdd (r_dipqr_x3c_7 (0 + z) i j c k) (ESum (0 + z) 2 (ESum (1 + z) 3 (EMul (r_hb_H_bb_voov (2 + z) c (0 + z) k (1 + z)) (ET 68 [i; j; (1 + z); (0 + z)]))))).
Definition r_dipqr_x3c_9 (z i j c k : nat) : ex := (ESub (r_dipqr_x3c_8 (0 + z) i j c k) (EScale (1) 2 (ESum (0 + z) 0 (ESum (1 + z) 3 (EMul (r_hb_H_ab_ovov (2 + z) (0 + z) c i (1 + z)) (ET 68 [(0 + z); j; (1 + z); k])))))).
Definition r_dipqr_x3c_10 (z i j c k : nat) : ex := (EAdd (r_dipqr_x3c_9 (0 + z) i j c k) (ESum (0 + z) 1 (EMul (r_dipqr_X_ab_vo (1 + z) (0 + z) j) (ET 11 [(0 + z); c; i; k])))).
Definition r_dipqr_x3c_11 (z i j c k : nat) : ex := (EAdd (r_dipqr_x3c_10 (0 + z) i j c k) (EScale (1) 2 (ESum (0 + z) 3 (EMul (r_dipqr_X_ab_ov (1 + z) i (0 + z)) (ET 18 [(0 + z); c; j; k]))))).
Definition r_dipqr_x3c_12 (z i j c k : nat) : ex := (EAdd (r_dipqr_x3c_11 (0 + z) i j c k) (EScale (1) 2 (ESum (0 + z) 0 (ESum (1 + z) 1 (EMul (r_hb_H_a_ov (2 + z) (0 + z) (1 + z)) (ET 70 [i; j; (1 + z); c; (0 + z); k])))))).
Definition r_dipqr_x3c_13 (z i j c k : nat) : ex := (EAdd (r_dipqr_x3c_12 (0 + z) i j c k) (EScale (1) 2 (ESum (0 + z) 2 (ESum (1 + z) 3 (EMul (r_hb_H_b_ov (2 + z) (0 + z) (1 + z)) (ET 71 [i; j; (1 + z); c; (0 + z); k])))))).
Definition r_dipqr_x3c_14 (z i j c k : nat) : ex := (EAdd (r_dipqr_x3c_13 (0 + z) i j c k) (EScale (1) 2 (ESum (0 + z) 0 (ESum (1 + z) 1 (ESum (2 + z) 3 (EMul (r_hb_H_ab_ovvv (3 + z) (0 + z) c (1 + z) (2 + z)) (ET 70 [i; j; (1 + z); (2 + z); (0 + z); k]))))))).
Definition r_dipqr_x3c_15 (z i j c k : nat) : ex := (EAdd (r_dipqr_x3c_14 (0 + z) i j c k) (EScale (1) 4 (ESum (0 + z) 2 (ESum (1 + z) 3 (ESum (2 + z) 3 (EMul (r_hb_H_bb_vovv (3 + z) c (0 + z) (1 + z) (2 + z)) (ET 71 [i; j; (1 + z); (2 + z); k; (0 + z)]))))))).
Definition r_dipqr_x3c_16 (z i j c k : nat) : ex := (ESub (r_dipqr_x3c_15 (0 + z) i j c k) (ESum (0 + z) 0 (ESum (1 + z) 2 (ESum (2 + z) 1 (EMul (r_hb_H_ab_oovo (3 + z) (0 + z) (1 + z) (2 + z) k) (ET 70 [i; j; (2 + z); c; (0 + z); (1 + z)])))))).
Definition r_dipqr_x3c_17 (z i j c k : nat) : ex := (ESub (r_dipqr_x3c_16 (0 + z) i j c k) (EScale (1) 2 (ESum (0 + z) 2 (ESum (1 + z) 2 (ESum (2 + z) 3 (EMul (r_hb_H_bb_ooov (3 + z) (0 + z) (1 + z) k (2 + z)) (ET 71 [i; j; c; (2 + z); (0 + z); (1 + z)]))))))).
Definition r_dipqr_x3c_18 (z i j c k : nat) : ex := (ESub (r_dipqr_x3c_17 (0 + z) i j c k) (EScale (1) 4 (ESum (0 + z) 0 (ESum (1 + z) 0 (ESum (2 + z) 1 (EMul (r_hb_H_aa_ooov (3 + z) (0 + z) (1 + z) i (2 + z)) (ET 70 [(0 + z); j; (2 + z); c; (1 + z); k]))))))).
Definition r_dipqr_x3c_19 (z i j c k : nat) : ex := (ESub (r_dipqr_x3c_18 (0 + z) i j c k) (EScale (1) 2 (ESum (0 + z) 0 (ESum (1 + z) 2 (ESum (2 + z) 3 (EMul (r_hb_H_ab_ooov (3 + z) (0 + z) (1 + z) i (2 + z)) (ET 71 [(0 + z); j; (2 + z); c; (1 + z); k]))))))).
Definition r_dipqr_x3c_20 (z i j c k : nat) : ex := (ESub (r_dipqr_x3c_19 (0 + z) i j c k) (r_dipqr_x3c_19 (0 + z) i k c j)).
Definition r_dipqr_x4b (z i j c d k l : nat) : ex := (EScale (-1) 2 (ESum (0 + z) 0 (EMul (r_hb_H_aa_vooo (1 + z) c (0 + z) k l) (ET 67 [i; j; d; (0 + z)])))).
Definition r_dipqr_x4b_1 (z i j c d k l : nat) : ex := (ESub (r_dipqr_x4b (0 + z) i j c d k l) (EScale (1) 2 (ESum (0 + z) 2 (EMul (r_hb_H_ab_vooo (1 + z) c (0 + z) k j) (ET 67 [i; (0 + z); d; l]))))).
Definition r_dipqr_x4b_2 (z i j c d k l : nat) : ex := (EAdd (r_dipqr_x4b_1 (0 + z) i j c d k l) (EScale (1) 4 (ESum (0 + z) 1 (EMul (r_hb_H_aa_vvov_1 (1 + z) c d k (0 + z)) (ET 67 [i; j; (0 + z); l]))))).
Definition r_dipqr_x4b_3 (z i j c d k l : nat) : ex := (EAdd (r_dipqr_x4b_2 (0 + z) i j c d k l) (EScale (1) 2 (ESum (0 + z) 1 (EMul (r_dipqr_X_aba_oovv (1 + z) i j d (0 + z)) (ET 10 [c; (0 + z); k; l]))))).
Definition r_dipqr_x4b_4 (z i j c d k l : nat) : ex := (ESub (r_dipqr_x4b_3 (0 + z) i j c d k l) (EScale (1) 4 (ESum (0 + z) 0 (EMul (r_dipqr_X_aba_oooo_1 (1 + z) i j (0 + z) l) (ET 10 [c; d; k; (0 + z)]))))).
Definition r_dipqr_x4b_5 (z i j c d k l : nat) : ex := (EAdd (r_dipqr_x4b_4 (0 + z) i j c d k l) (EScale (1) 2 (ESum (0 + z) 3 (EMul (r_dipqr_X_aba_ovvo_1 (1 + z) i (0 + z) c k) (ET 11 [d; (0 + z); l; j]))))).
Definition r_dipqr_x4b_6 (z i j c d k l : nat) : ex := (ESub (r_dipqr_x4b_5 (0 + z) i j c d k l) (EScale (1) 4 (ESum (0 + z) 0 (EMul (r_hb_H_a_oo (1 + z) (0 + z) l) (ET 69 [i; j; c; d; k; (0 + z)]))))).
Definition r_dipqr_x4b_7 (z i j c d k l : nat) : ex := (ESub (r_dipqr_x4b_6 (0 + z) i j c d k l) (EScale (1) 12 (ESum (0 + z) 2 (EMul (r_hb_H_b_oo (1 + z) (0 + z) j) (ET 69 [i; (0 + z); c; d; k; l]))))).
Definition r_dipqr_x4b_8 (z i j c d k l : nat) : ex := (EAdd (r_dipqr_x4b_7 (0 + z) i j c d k l) (EScale (1) 6 (ESum (0 + z) 1 (EMul (r_hb_H_a_vv (1 + z) d (0 + z)) (ET 69 [i; j; c; (0 + z); k; l]))))).
Definition r_dipqr_x4b_9 (z i j c d k l : nat) : ex := (EAdd (r_dipqr_x4b_8 (0 + z) i j c d k l) (EScale (1) 24 (ESum (0 + z) 1 (ESum (1 + z) 1 (EMul (r_hb_H_aa_vvvv_1 (2 + z) c d (0 + z) (1 + z)) (ET 69 [i; j; (0 + z); (1 + z); k; l])))))).
Definition r_dipqr_x4b_10 (z i j c d k l : nat) : ex := (EAdd (r_dipqr_x4b_9 (0 + z) i j c d k l) (EScale (1) 8 (ESum (0 + z) 0 (ESum (1 + z) 0 (EMul (r_hb_H_aa_oooo_1 (2 + z) (0 + z) (1 + z) k l) (ET 69 [i; j; c; d; (0 + z); (1 + z)])))))).
Definition r_dipqr_x4b_11 (z i j c d k l : nat) : ex := (EAdd (r_dipqr_x4b_10 (0 + z) i j c d k l) (EScale (1) 4 (ESum (0 + z) 0 (ESum (1 + z) 2 (EMul (r_hb_H_ab_oooo (2 + z) (0 + z) (1 + z) i j) (ET 69 [(0 + z); (1 + z); c; d; k; l])))))).
Definition r_dipqr_x4b_12 (z i j c d k l : nat) : ex := (EAdd (r_dipqr_x4b_11 (0 + z) i j c d k l) (EScale (1) 2 (ESum (0 + z) 0 (ESum (1 + z) 1 (EMul (r_hb_H_aa_voov (2 + z) d (0 + z) l (1 + z)) (ET 69 [i; j; c; (1 + z); k; (0 + z)])))))).
Definition r_dipqr_x4b_13 (z i j c d k l : nat) : ex := (EAdd (r_dipqr_x4b_12 (0 + z) i j c d k l) (EScale (1) 2 (ESum (0 + z) 2 (ESum (1 + z) 3 (EMul (r_hb_H_ab_voov (2 + z) d (0 + z) l (1 + z)) (ET 70 [i; j; c; (1 + z); k; (0 + z)])))))).
Definition r_dipqr_x4b_14 (z i j c d k l : nat) : ex := (ESub (r_dipqr_x4b_13 (0 + z) i j c d k l) (EScale (1) 6 (ESum (0 + z) 2 (ESum (1 + z) 1 (EMul (r_hb_H_ab_vovo (2 + z) d (0 + z) (1 + z) j) (ET 69 [i; (0 + z); c; (1 + z); k; l])))))).
Definition r_dipqr_x4b_15 (z i j c d k l : nat) : ex := (EAdd (r_dipqr_x4b_14 (0 + z) i j c d k l) (EScale (1) 2 (ESum (0 + z) 1 (ESum (1 + z) 3 (EMul (EMul (r_dipqr_X_ab_vv (2 + z) (0 + z) (1 + z)) (ET 10 [(0 + z); d; i; l])) (ET 11 [c; (1 + z); k; j])))))).
Definition r_dipqr_x4b_16 (z i j c d k l : nat) : ex := (ESub (r_dipqr_x4b_15 (0 + z) i j c d k l) (r_dipqr_x4b_15 (0 + z) i j d c k l)).
Definition r_dipqr_x4b_17 (z i j c d k l : nat) : ex := (ESub (r_dipqr_x4b_16 (0 + z) i j c d k l) (r_dipqr_x4b_16 (0 + z) i j c d l k)).
Definition r_dipqr_x4b_18 (z i j c d k l : nat) : ex := (ESub (r_dipqr_x4b_17 (0 + z) i j c d k l) (EAdd (r_dipqr_x4b_17 (0 + z) k j c d i l) (r_dipqr_x4b_17 (0 + z) l j c d k i))).
Definition r_dipqr_x4c (z i j c d k l : nat) : ex := (EOpp (ESum (0 + z) 0 (EMul (r_hb_H_ab_ovoo (1 + z) (0 + z) d k l) (ET 67 [i; j; c; (0 + z)])))).
Definition r_dipqr_x4c_1 (z i j c d k l : nat) : ex := (ESub (r_dipqr_x4c (0 + z) i j c d k l) (ESum (0 + z) 2 (EMul (r_hb_H_ab_vooo (1 + z) c (0 + z) k l) (ET 68 [i; j; d; (0 + z)])))).
Definition r_dipqr_x4c_2 (z i j c d k l : nat) : ex := (EAdd (r_dipqr_x4c_1 (0 + z) i j c d k l) (EScale (1) 2 (ESum (0 + z) 1 (EMul (r_hb_H_ab_vvvo (1 + z) c d (0 + z) l) (ET 67 [i; j; (0 + z); k]))))).
Definition r_dipqr_x4c_3 (z i j c d k l : nat) : ex := (EAdd (r_dipqr_x4c_2 (0 + z) i j c d k l) (EScale (1) 2 (ESum (0 + z) 3 (EMul (r_hb_H_ab_vvov (1 + z) c d k (0 + z)) (ET 68 [i; j; (0 + z); l]))))).
Definition r_dipqr_x4c_4 (z i j c d k l : nat) : ex := (ESub (r_dipqr_x4c_3 (0 + z) i j c d k l) (EScale (1) 4 (ESum (0 + z) 0 (EMul (r_hb_H_aa_vooo (1 + z) c (0 + z) k i) (ET 68 [(0 + z); j; d; l]))))).
Definition r_dipqr_x4c_5 (z i j c d k l : nat) : ex := (ESub (r_dipqr_x4c_4 (0 + z) i j c d k l) (EScale (1) 4 (ESum (0 + z) 2 (EMul (r_hb_H_bb_vooo (1 + z) d (0 + z) l j) (ET 67 [i; (0 + z); c; k]))))).
Definition r_dipqr_x4c_6 (z i j c d k l : nat) : ex := (ESub (r_dipqr_x4c_5 (0 + z) i j c d k l) (EScale (1) 2 (ESum (0 + z) 2 (EMul (r_dipqr_X_abb_oooo_1 (1 + z) i j (0 + z) l) (ET 11 [c; d; k; (0 + z)]))))).
Definition r_dipqr_x4c_7 (z i j c d k l : nat) : ex := (ESub (r_dipqr_x4c_6 (0 + z) i j c d k l) (EScale (1) 2 (ESum (0 + z) 0 (EMul (r_dipqr_X_aba_oooo_1 (1 + z) i j (0 + z) k) (ET 11 [c; d; (0 + z); l]))))).
Definition r_dipqr_x4c_8 (z i j c d k l : nat) : ex := (EAdd (r_dipqr_x4c_7 (0 + z) i j c d k l) (ESum (0 + z) 1 (EMul (r_dipqr_X_aba_oovv (1 + z) i j c (0 + z)) (ET 11 [(0 + z); d; k; l])))).
Definition r_dipqr_x4c_9 (z i j c d k l : nat) : ex := (EAdd (r_dipqr_x4c_8 (0 + z) i j c d k l) (ESum (0 + z) 3 (EMul (r_dipqr_X_abb_oovv (1 + z) i j d (0 + z)) (ET 11 [c; (0 + z); k; l])))).
Definition r_dipqr_x4c_10 (z i j c d k l : nat) : ex := (EAdd (r_dipqr_x4c_9 (0 + z) i j c d k l) (EScale (1) 4 (ESum (0 + z) 3 (EMul (r_dipqr_X_aba_ovvo_1 (1 + z) i (0 + z) c k) (ET 18 [(0 + z); d; j; l]))))).
Definition r_dipqr_x4c_11 (z i j c d k l : nat) : ex := (EAdd (r_dipqr_x4c_10 (0 + z) i j c d k l) (EScale (1) 4 (ESum (0 + z) 1 (EMul (r_dipqr_X_abb_vovo_1 (1 + z) (0 + z) j d l) (ET 10 [(0 + z); c; i; k]))))).
Definition r_dipqr_x4c_12 (z i j c d k l : nat) : ex := (ESub (r_dipqr_x4c_11 (0 + z) i j c d k l) (EScale (1) 2 (ESum (0 + z) 0 (EMul (r_hb_H_a_oo (1 + z) (0 + z) i) (ET 70 [(0 + z); j; c; d; k; l]))))).
Definition r_dipqr_x4c_13 (z i j c d k l : nat) : ex := (ESub (r_dipqr_x4c_12 (0 + z) i j c d k l) (EScale (1) 2 (ESum (0 + z) 2 (EMul (r_hb_H_b_oo (1 + z) (0 + z) j) (ET 70 [i; (0 + z); c; d; k; l]))))).
Definition r_dipqr_x4c_14 (z i j c d k l : nat) : ex := (EAdd (r_dipqr_x4c_13 (0 + z) i j c d k l) (EScale (1) 4 (ESum (0 + z) 1 (EMul (r_hb_H_a_vv (1 + z) c (0 + z)) (ET 70 [i; j; (0 + z); d; k; l]))))).
Definition r_dipqr_x4c_15 (z i j c d k l : nat) : ex := (EAdd (r_dipqr_x4c_14 (0 + z) i j c d k l) (EScale (1) 4 (ESum (0 + z) 3 (EMul (r_hb_H_b_vv (1 + z) d (0 + z)) (ET 70 [i; j; c; (0 + z); k; l]))))).
Definition r_dipqr_x4c_16 (z i j c d k l : nat) : ex := (EAdd (r_dipqr_x4c_15 (0 + z) i j c d k l) (EScale (1) 4 (ESum (0 + z) 1 (ESum (1 + z) 3 (EMul (r_hb_H_ab_vvvv (2 + z) c d (0 + z) (1 + z)) (ET 70 [i; j; (0 + z); (1 + z); k; l])))))).
Definition r_dipqr_x4c_17 (z i j c d k l : nat) : ex := (EAdd (r_dipqr_x4c_16 (0 + z) i j c d k l) (ESum (0 + z) 0 (ESum (1 + z) 2 (EMul (r_hb_H_ab_oooo (2 + z) (0 + z) (1 + z) k l) (ET 70 [i; j; c; d; (0 + z); (1 + z)]))))).
Definition r_dipqr_x4c_18 (z i j c d k l : nat) : ex := (EAdd (r_dipqr_x4c_17 (0 + z) i j c d k l) (EScale (1) 8 (ESum (0 + z) 0 (ESum (1 + z) 0 (EMul (r_hb_H_aa_oooo_1 (2 + z) (0 + z) (1 + z) i k) (ET 70 [(0 + z); j; c; d; (1 + z); l])))))).
Definition r_dipqr_x4c_19 (z i j c d k l : nat) : ex := (EAdd (r_dipqr_x4c_18 (0 + z) i j c d k l) (EScale (1) 8 (ESum (0 + z) 2 (ESum (1 + z) 2 (EMul (r_hb_H_bb_oooo_1 (2 + z) (0 + z) (1 + z) j l) (ET 70 [i; (0 + z); c; d; k; (1 + z)])))))).
Definition r_dipqr_x4c_20 (z i j c d k l : nat) : ex := (EAdd (r_dipqr_x4c_19 (0 + z) i j c d k l) (EScale (1) 2 (ESum (0 + z) 0 (ESum (1 + z) 1 (EMul (r_hb_H_aa_voov (2 + z) c (0 + z) k (1 + z)) (ET 70 [i; j; (1 + z); d; (0 + z); l])))))).
Definition r_dipqr_x4c_21 (z i j c d k l : nat) : ex := (EAdd (r_dipqr_x4c_20 (0 + z) i j c d k l) (EScale (1) 2 (ESum (0 + z) 2 (ESum (1 + z) 3 (EMul (r_hb_H_ab_voov (2 + z) c (0 + z) k (1 + z)) (ET 71 [i; j; (1 + z); d; (0 + z); l])))))).
Definition r_dipqr_x4c_22 (z i j c d k l : nat) : ex := (EAdd (r_dipqr_x4c_21 (0 + z) i j c d k l) (EScale (1) 2 (ESum (0 + z) 0 (ESum (1 + z) 1 (EMul (r_hb_H_ab_ovvo (2 + z) (0 + z) d (1 + z) l) (ET 69 [i; j; c; (1 + z); k; (0 + z)])))))).
Definition r_dipqr_x4c_23 (z i j c d k l : nat) : ex := (EAdd (r_dipqr_x4c_22 (0 + z) i j c d k l) (EScale (1) 2 (ESum (0 + z) 2 (ESum (1 + z) 3 (EMul (r_hb_H_bb_voov (2 + z) d (0 + z) l (1 + z)) (ET 70 [i; j; c; (1 + z); k; (0 + z)])))))).
Definition r_dipqr_x4c_24 (z i j c d k l : nat) : ex := (ESub (r_dipqr_x4c_23 (0 + z) i j c d k l) (EScale (1) 2 (ESum (0 + z) 2 (ESum (1 + z) 1 (EMul (r_hb_H_ab_vovo (2 + z) c (0 + z) (1 + z) l) (ET 70 [i; j; (1 + z); d; k; (0 + z)])))))).
Definition r_dipqr_x4c_25 (z i j c d k l : nat) : ex := (ESub (r_dipqr_x4c_24 (0 + z) i j c d k l) (EScale (1) 2 (ESum (0 + z) 0 (ESum (1 + z) 3 (EMul (r_hb_H_ab_ovov (2 + z) (0 + z) d k (1 + z)) (ET 70 [i; j; c; (1 + z); (0 + z); l])))))).
Definition r_dipqr_x4c_26 (z i j c d k l : nat) : ex := (EAdd (r_dipqr_x4c_25 (0 + z) i j c d k l) (EScale (1) 4 (ESum (0 + z) 1 (ESum (1 + z) 3 (EMul (EMul (r_dipqr_X_ab_vv (2 + z) (0 + z) (1 + z)) (ET 10 [(0 + z); c; i; k])) (ET 18 [(1 + z); d; j; l])))))).
Definition r_dipqr_x4c_27 (z i j c d k l : nat) : ex := (EAdd (r_dipqr_x4c_26 (0 + z) i j c d k l) (ESum (0 + z) 1 (ESum (1 + z) 3 (EMul (EMul (r_dipqr_X_ab_vv (2 + z) (0 + z) (1 + z)) (ET 11 [(0 + z); d; i; l])) (ET 11 [c; (1 + z); k; j]))))).
Definition r_dipqr_x4c_28 (z i j c d k l : nat) : ex := (ESub (r_dipqr_x4c_27 (0 + z) i j c d k l) (r_dipqr_x4c_27 (0 + z) k j c d i l)).
Definition r_dipqr_x4c_29 (z i j c d k l : nat) : ex := (ESub (r_dipqr_x4c_28 (0 + z) i j c d k l) (r_dipqr_x4c_28 (0 + z) i l c d k j)).
Definition r_dipqr_x4d (z i j c d k l : nat) : ex := (EScale (-1) 2 (ESum (0 + z) 2 (EMul (r_hb_H_bb_vooo (1 + z) c (0 + z) k l) (ET 68 [i; j; d; (0 + z)])))).
Definition r_dipqr_x4d_1 (z i j c d k l : nat) : ex := (ESub (r_dipqr_x4d (0 + z) i j c d k l) (EScale (1) 2 (ESum (0 + z) 0 (EMul (r_hb_H_ab_ovoo (1 + z) (0 + z) c i k) (ET 68 [(0 + z); j; d; l]))))).
Definition r_dipqr_x4d_2 (z i j c d k l : nat) : ex := (EAdd (r_dipqr_x4d_1 (0 + z) i j c d k l) (EScale (1) 4 (ESum (0 + z) 3 (EMul (r_hb_H_bb_vvov_1 (1 + z) c d k (0 + z)) (ET 68 [i; j; (0 + z); l]))))).
Definition r_dipqr_x4d_3 (z i j c d k l : nat) : ex := (ESub (r_dipqr_x4d_2 (0 + z) i j c d k l) (EScale (1) 4 (ESum (0 + z) 2 (EMul (r_dipqr_X_abb_oooo_1 (1 + z) i j (0 + z) l) (ET 18 [c; d; k; (0 + z)]))))).
Definition r_dipqr_x4d_4 (z i j c d k l : nat) : ex := (EAdd (r_dipqr_x4d_3 (0 + z) i j c d k l) (EScale (1) 2 (ESum (0 + z) 3 (EMul (r_dipqr_X_abb_oovv (1 + z) i j d (0 + z)) (ET 18 [c; (0 + z); k; l]))))).
Definition r_dipqr_x4d_5 (z i j c d k l : nat) : ex := (EAdd (r_dipqr_x4d_4 (0 + z) i j c d k l) (EScale (1) 2 (ESum (0 + z) 1 (EMul (r_dipqr_X_abb_vovo_1 (1 + z) (0 + z) j c k) (ET 11 [(0 + z); d; i; l]))))).
Definition r_dipqr_x4d_6 (z i j c d k l : nat) : ex := (ESub (r_dipqr_x4d_5 (0 + z) i j c d k l) (EScale (1) 4 (ESum (0 + z) 2 (EMul (r_hb_H_b_oo (1 + z) (0 + z) l) (ET 71 [i; j; c; d; k; (0 + z)]))))).
Definition r_dipqr_x4d_7 (z i j c d k l : nat) : ex := (ESub (r_dipqr_x4d_6 (0 + z) i j c d k l) (EScale (1) 12 (ESum (0 + z) 0 (EMul (r_hb_H_a_oo (1 + z) (0 + z) i) (ET 71 [(0 + z); j; c; d; k; l]))))).
Definition r_dipqr_x4d_8 (z i j c d k l : nat) : ex := (EAdd (r_dipqr_x4d_7 (0 + z) i j c d k l) (EScale (1) 6 (ESum (0 + z) 3 (EMul (r_hb_H_b_vv (1 + z) d (0 + z)) (ET 71 [i; j; c; (0 + z); k; l]))))).
Definition r_dipqr_x4d_9 (z i j c d k l : nat) : ex := (EAdd (r_dipqr_x4d_8 (0 + z) i j c d k l) (EScale (1) 24 (ESum (0 + z) 3 (ESum (1 + z) 3 (EMul (r_hb_H_bb_vvvv_1 (2 + z) c d (0 + z) (1 + z)) (ET 71 [i; j; (0 + z); (1 + z); k; l])))))).
Definition r_dipqr_x4d_10 (z i j c d k l : nat) : ex := (EAdd (r_dipqr_x4d_9 (0 + z) i j c d k l) (EScale (1) 8 (ESum (0 + z) 2 (ESum (1 + z) 2 (EMul (r_hb_H_bb_oooo_1 (2 + z) (0 + z) (1 + z) k l) (ET 71 [i; j; c; d; (0 + z); (1 + z)])))))).
Definition r_dipqr_x4d_11 (z i j c d k l : nat) : ex := (EAdd (r_dipqr_x4d_10 (0 + z) i j c d k l) (EScale (1) 4 (ESum (0 + z) 0 (ESum (1 + z) 2 (EMul (r_hb_H_ab_oooo (2 + z) (0 + z) (1 + z) i j) (ET 71 [(0 + z); (1 + z); c; d; k; l])))))).
Definition r_dipqr_x4d_12 (z i j c d k l : nat) : ex := (EAdd (r_dipqr_x4d_11 (0 + z) i j c d k l) (EScale (1) 2 (ESum (0 + z) 0 (ESum (1 + z) 1 (EMul (r_hb_H_ab_ovvo (2 + z) (0 + z) d (1 + z) l) (ET 70 [i; j; (1 + z); c; (0 + z); k])))))).
Definition r_dipqr_x4d_13 (z i j c d k l : nat) : ex := (EAdd (r_dipqr_x4d_12 (0 + z) i j c d k l) (EScale (1) 2 (ESum (0 + z) 2 (ESum (1 + z) 3 (EMul (r_hb_H_bb_voov (2 + z) d (0 + z) l (1 + z)) (ET 71 [i; j; c; (1 + z); k; (0 + z)])))))).
Definition r_dipqr_x4d_14 (z i j c d k l : nat) : ex := (ESub (r_dipqr_x4d_13 (0 + z) i j c d k l) (EScale (1) 6 (ESum (0 + z) 0 (ESum (1 + z) 3 (EMul (r_hb_H_ab_ovov (2 + z) (0 + z) d i (1 + z)) (ET 71 [(0 + z); j; c; (1 + z); k; l])))))).
Definition r_dipqr_x4d_15 (z i j c d k l : nat) : ex := (EAdd (r_dipqr_x4d_14 (0 + z) i j c d k l) (EScale (1) 2 (ESum (0 + z) 1 (ESum (1 + z) 3 (EMul (EMul (r_dipqr_X_ab_vv (2 + z) (0 + z) (1 + z)) (ET 11 [(0 + z); d; i; l])) (ET 18 [(1 + z); c; j; k])))))).
Definition r_dipqr_x4d_16 (z i j c d k l : nat) : ex := (ESub (r_dipqr_x4d_15 (0 + z) i j c d k l) (r_dipqr_x4d_15 (0 + z) i j d c k l)).
Definition r_dipqr_x4d_17 (z i j c d k l : nat) : ex := (ESub (r_dipqr_x4d_16 (0 + z) i j c d k l) (r_dipqr_x4d_16 (0 + z) i j c d l k)).
Definition r_dipqr_x4d_18 (z i j c d k l : nat) : ex := (ESub (r_dipqr_x4d_17 (0 + z) i j c d k l) (EAdd (r_dipqr_x4d_17 (0 + z) i k c d j l) (r_dipqr_x4d_17 (0 + z) i l c d k j))).
Definition s_dipq_ab := r_dipqr_x2b_11.
Definition s_dipq_aba := r_dipqr_x3b_20.
Definition s_dipq_abb := r_dipqr_x3c_20.
Definition s_dipq_abaa := r_dipqr_x4b_18.
Definition s_dipq_abab := r_dipqr_x4c_29.
Definition s_dipq_abbb := r_dipqr_x4d_18.
