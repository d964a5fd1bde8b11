(** Generated by tools/gen_sector3.py: the DEAQ sigma vector with the similarity-transformed Hamiltonian put in, reified; arrays 0-65 as in CcsdReify.v (proof support). *)
From Coq Require Import Reals Arith List ZArith.
From Verif Require Import RSum IntegralsModel TensorObjs TensorAlg CcsdReify Sector3Model.
Import ListNotations.
Local Open Scope nat_scope.
Definition r_deaqr_X_ab_ov (z m b : nat) : ex := (EAdd (EAdd (ESum (0 + z) 1 (ESum (1 + z) 3 (EMul (r_hb_H_ab_ovvv (2 + z) m b (0 + z) (1 + z)) (ET 66 [(0 + z); (1 + z)])))) (EScale (1) 2 (ESum (0 + z) 0 (ESum (1 + z) 1 (ESum (2 + z) 1 (EMul (ET 1 [m; (0 + z); (1 + z); (2 + z)]) (ET 67 [(1 + z); b; (2 + z); (0 + z)]))))))) (ESum (0 + z) 2 (ESum (1 + z) 1 (ESum (2 + z) 3 (EMul (ET 3 [m; (0 + z); (1 + z); (2 + z)]) (ET 68 [(1 + z); b; (2 + z); (0 + z)])))))).
Definition r_deaqr_X_ab_vo (z a m : nat) : ex := (EAdd (EAdd (ESum (0 + z) 1 (ESum (1 + z) 3 (EMul (r_hb_H_ab_vovv (2 + z) a m (0 + z) (1 + z)) (ET 66 [(0 + z); (1 + z)])))) (EScale (1) 2 (ESum (0 + z) 2 (ESum (1 + z) 3 (ESum (2 + z) 3 (EMul (ET 6 [(0 + z); m; (1 + z); (2 + z)]) (ET 68 [a; (2 + z); (1 + z); (0 + z)]))))))) (ESum (0 + z) 0 (ESum (1 + z) 1 (ESum (2 + z) 3 (EMul (ET 3 [(0 + z); m; (1 + z); (2 + z)]) (ET 67 [a; (2 + z); (1 + z); (0 + z)])))))).
Definition r_deaqr_X_ab_oo (z m n : nat) : ex := (ESum (0 + z) 1 (ESum (1 + z) 3 (EMul (ET 3 [m; n; (0 + z); (1 + z)]) (ET 66 [(0 + z); (1 + z)])))).
Definition r_deaqr_X_aba_vvoo (z a b m k : nat) : ex := (EAdd (EAdd (EAdd (ESub (EAdd (EAdd (EAdd (ESum (0 + z) 0 (ESum (1 + z) 1 (EMul (r_hb_H_aa_ooov (2 + z) m (0 + z) k (1 + z)) (ET 67 [a; b; (1 + z); (0 + z)])))) (ESum (0 + z) 2 (ESum (1 + z) 3 (EMul (r_hb_H_ab_ooov (2 + z) m (0 + z) k (1 + z)) (ET 68 [a; b; (1 + z); (0 + z)]))))) (EScale (1) 2 (ESum (0 + z) 1 (ESum (1 + z) 1 (EMul (r_hb_H_aa_vovv (2 + z) a m (0 + z) (1 + z)) (ET 67 [(0 + z); b; (1 + z); k])))))) (ESum (0 + z) 1 (ESum (1 + z) 3 (EMul (r_hb_H_ab_ovvv (2 + z) m b (0 + z) (1 + z)) (ET 67 [a; (1 + z); (0 + z); k]))))) (ESum (0 + z) 1 (EMul (r_hb_H_aa_voov (1 + z) a m k (0 + z)) (ET 66 [(0 + z); b])))) (ESum (0 + z) 3 (EMul (r_hb_H_ab_ovov (1 + z) m b k (0 + z)) (ET 66 [a; (0 + z)])))) (EScale (1) 2 (ESum (0 + z) 0 (ESum (1 + z) 1 (ESum (2 + z) 1 (EMul (ET 1 [m; (0 + z); (1 + z); (2 + z)]) (ET 69 [a; b; (1 + z); (2 + z); k; (0 + z)]))))))) (ESum (0 + z) 2 (ESum (1 + z) 1 (ESum (2 + z) 3 (EMul (ET 3 [m; (0 + z); (1 + z); (2 + z)]) (ET 70 [a; b; (1 + z); (2 + z); k; (0 + z)])))))).
Definition r_deaqr_X_aba_vvvv (z a b c e : nat) : ex := (ESub (ESub (EAdd (EAdd (ESub (EAdd (ESum (0 + z) 0 (ESum (1 + z) 1 (EMul (r_hb_H_aa_vovv (2 + z) c (0 + z) e (1 + z)) (ET 67 [a; b; (1 + z); (0 + z)])))) (ESum (0 + z) 2 (ESum (1 + z) 3 (EMul (r_hb_H_ab_vovv (2 + z) c (0 + z) e (1 + z)) (ET 68 [a; b; (1 + z); (0 + z)]))))) (EScale (1) 2 (ESum (0 + z) 0 (ESum (1 + z) 3 (EMul (r_hb_H_ab_ovvv (2 + z) (0 + z) b e (1 + z)) (ET 67 [a; (1 + z); c; (0 + z)])))))) (ESum (0 + z) 3 (EMul (r_hb_H_ab_vvvv (1 + z) c b e (0 + z)) (ET 66 [a; (0 + z)])))) (EScale (1) 2 (ESum (0 + z) 1 (EMul (r_hb_H_aa_vvvv_1 (1 + z) a c (0 + z) e) (ET 66 [(0 + z); b]))))) (EScale (1) 4 (ESum (0 + z) 0 (ESum (1 + z) 0 (ESum (2 + z) 1 (EMul (ET 1 [(0 + z); (1 + z); e; (2 + z)]) (ET 69 [a; b; c; (2 + z); (0 + z); (1 + z)]))))))) (EScale (1) 2 (ESum (0 + z) 0 (ESum (1 + z) 2 (ESum (2 + z) 3 (EMul (ET 3 [(0 + z); (1 + z); e; (2 + z)]) (ET 70 [a; b; c; (2 + z); (0 + z); (1 + z)]))))))).
Definition r_deaqr_X_aba_vvvv_1 (z a b c e : nat) : ex := (ESub (r_deaqr_X_aba_vvvv (0 + z) a b c e) (r_deaqr_X_aba_vvvv (0 + z) c b a e)).
Definition r_deaqr_X_aba_vovo (z a m c k : nat) : ex := (EAdd (EAdd (EAdd (ESub (ESum (0 + z) 1 (ESum (1 + z) 3 (EMul (r_hb_H_ab_vovv (2 + z) a m (0 + z) (1 + z)) (ET 67 [(0 + z); (1 + z); c; k])))) (EScale (1) 2 (ESum (0 + z) 0 (ESum (1 + z) 3 (EMul (r_hb_H_ab_ooov (2 + z) (0 + z) m k (1 + z)) (ET 67 [a; (1 + z); c; (0 + z)])))))) (ESum (0 + z) 3 (EMul (r_hb_H_ab_voov (1 + z) c m k (0 + z)) (ET 66 [a; (0 + z)])))) (EScale (1) 4 (ESum (0 + z) 2 (ESum (1 + z) 3 (ESum (2 + z) 3 (EMul (ET 6 [m; (0 + z); (1 + z); (2 + z)]) (ET 70 [a; (1 + z); c; (2 + z); k; (0 + z)]))))))) (EScale (1) 2 (ESum (0 + z) 0 (ESum (1 + z) 1 (ESum (2 + z) 3 (EMul (ET 3 [(0 + z); m; (1 + z); (2 + z)]) (ET 69 [a; (2 + z); c; (1 + z); k; (0 + z)]))))))).
Definition r_deaqr_X_aba_vovo_1 (z a m c k : nat) : ex := (ESub (r_deaqr_X_aba_vovo (0 + z) a m c k) (r_deaqr_X_aba_vovo (0 + z) c m a k)).
Definition r_deaqr_X_abb_vvoo (z a b m k : nat) : ex := (EAdd (EAdd (ESub (EAdd (EAdd (EAdd (EAdd (ESum (0 + z) 0 (ESum (1 + z) 1 (EMul (r_hb_H_ab_oovo (2 + z) (0 + z) m (1 + z) k) (ET 67 [a; b; (1 + z); (0 + z)])))) (ESum (0 + z) 2 (ESum (1 + z) 3 (EMul (r_hb_H_bb_ooov (2 + z) m (0 + z) k (1 + z)) (ET 68 [a; b; (1 + z); (0 + z)]))))) (EScale (1) 2 (ESum (0 + z) 3 (ESum (1 + z) 3 (EMul (r_hb_H_bb_vovv (2 + z) b m (0 + z) (1 + z)) (ET 68 [a; (0 + z); (1 + z); k])))))) (ESum (0 + z) 1 (ESum (1 + z) 3 (EMul (r_hb_H_ab_vovv (2 + z) a m (0 + z) (1 + z)) (ET 68 [(0 + z); b; (1 + z); k]))))) (ESum (0 + z) 1 (EMul (r_hb_H_ab_vovo (1 + z) a m (0 + z) k) (ET 66 [(0 + z); b])))) (ESum (0 + z) 3 (EMul (r_hb_H_bb_voov (1 + z) b m k (0 + z)) (ET 66 [a; (0 + z)])))) (EScale (1) 2 (ESum (0 + z) 2 (ESum (1 + z) 3 (ESum (2 + z) 3 (EMul (ET 6 [m; (0 + z); (1 + z); (2 + z)]) (ET 71 [a; b; (1 + z); (2 + z); k; (0 + z)]))))))) (ESum (0 + z) 0 (ESum (1 + z) 1 (ESum (2 + z) 3 (EMul (ET 3 [(0 + z); m; (1 + z); (2 + z)]) (ET 70 [a; b; (1 + z); (2 + z); (0 + z); k])))))).
Definition r_deaqr_X_abb_vvvv (z a b c e : nat) : ex := (ESub (ESub (EAdd (EAdd (ESub (EAdd (ESum (0 + z) 0 (ESum (1 + z) 1 (EMul (r_hb_H_ab_ovvv (2 + z) (0 + z) c (1 + z) e) (ET 67 [a; b; (1 + z); (0 + z)])))) (ESum (0 + z) 2 (ESum (1 + z) 3 (EMul (r_hb_H_bb_vovv (2 + z) c (0 + z) e (1 + z)) (ET 68 [a; b; (1 + z); (0 + z)]))))) (EScale (1) 2 (ESum (0 + z) 2 (ESum (1 + z) 1 (EMul (r_hb_H_ab_vovv (2 + z) a (0 + z) (1 + z) e) (ET 68 [(1 + z); b; c; (0 + z)])))))) (EScale (1) 2 (ESum (0 + z) 3 (EMul (r_hb_H_bb_vvvv_1 (1 + z) b c (0 + z) e) (ET 66 [a; (0 + z)]))))) (ESum (0 + z) 1 (EMul (r_hb_H_ab_vvvv (1 + z) a c (0 + z) e) (ET 66 [(0 + z); b])))) (EScale (1) 4 (ESum (0 + z) 2 (ESum (1 + z) 2 (ESum (2 + z) 3 (EMul (ET 6 [(0 + z); (1 + z); e; (2 + z)]) (ET 71 [a; b; c; (2 + z); (0 + z); (1 + z)]))))))) (EScale (1) 2 (ESum (0 + z) 0 (ESum (1 + z) 2 (ESum (2 + z) 1 (EMul (ET 3 [(0 + z); (1 + z); (2 + z); e]) (ET 70 [a; b; (2 + z); c; (0 + z); (1 + z)]))))))).
Definition r_deaqr_X_abb_vvvv_1 (z a b c e : nat) : ex := (ESub (r_deaqr_X_abb_vvvv (0 + z) a b c e) (r_deaqr_X_abb_vvvv (0 + z) a c b e)).
Definition r_deaqr_X_abb_ovvo (z m b d l : nat) : ex := (EAdd (EAdd (EAdd (EAdd (EScale (-1) 2 (ESum (0 + z) 2 (ESum (1 + z) 1 (EMul (r_hb_H_ab_oovo (2 + z) m (0 + z) (1 + z) l) (ET 68 [(1 + z); b; d; (0 + z)]))))) (ESum (0 + z) 1 (ESum (1 + z) 3 (EMul (r_hb_H_ab_ovvv (2 + z) m b (0 + z) (1 + z)) (ET 68 [(0 + z); (1 + z); d; l]))))) (ESum (0 + z) 1 (EMul (r_hb_H_ab_ovvo (1 + z) m d (0 + z) l) (ET 66 [(0 + z); b])))) (EScale (1) 4 (ESum (0 + z) 0 (ESum (1 + z) 1 (ESum (2 + z) 1 (EMul (ET 1 [m; (0 + z); (1 + z); (2 + z)]) (ET 70 [(1 + z); b; (2 + z); d; (0 + z); l]))))))) (EScale (1) 2 (ESum (0 + z) 2 (ESum (1 + z) 1 (ESum (2 + z) 3 (EMul (ET 3 [m; (0 + z); (1 + z); (2 + z)]) (ET 71 [(1 + z); b; (2 + z); d; (0 + z); l]))))))).
Definition r_deaqr_X_abb_ovvo_1 (z m b d l : nat) : ex := (ESub (r_deaqr_X_abb_ovvo (0 + z) m b d l) (r_deaqr_X_abb_ovvo (0 + z) m d b l)).
Definition r_deaqr_x2b (z a b : nat) : ex := (ESum (0 + z) 1 (EMul (r_hb_H_a_vv (1 + z) a (0 + z)) (ET 66 [(0 + z); b]))).
Definition r_deaqr_x2b_1 (z a b : nat) : ex := (EAdd (r_deaqr_x2b (0 + z) a b) (ESum (0 + z) 3 (EMul (r_hb_H_b_vv (1 + z) b (0 + z)) (ET 66 [a; (0 + z)])))).
Definition r_deaqr_x2b_2 (z a b : nat) : ex := (EAdd (r_deaqr_x2b_1 (0 + z) a b) (ESum (0 + z) 1 (ESum (1 + z) 3 (EMul (r_hb_H_ab_vvvv (2 + z) a b (0 + z) (1 + z)) (ET 66 [(0 + z); (1 + z)]))))).
Definition r_deaqr_x2b_3 (z a b : nat) : ex := (EAdd (r_deaqr_x2b_2 (0 + z) a b) (ESum (0 + z) 0 (ESum (1 + z) 1 (EMul (r_hb_H_a_ov (2 + z) (0 + z) (1 + z)) (ET 67 [a; b; (1 + z); (0 + z)]))))).
Definition r_deaqr_x2b_4 (z a b : nat) : ex := (EAdd (r_deaqr_x2b_3 (0 + z) a b) (ESum (0 + z) 2 (ESum (1 + z) 3 (EMul (r_hb_H_b_ov (2 + z) (0 + z) (1 + z)) (ET 68 [a; b; (1 + z); (0 + z)]))))).
Definition r_deaqr_x2b_5 (z a b : nat) : ex := (EAdd (r_deaqr_x2b_4 (0 + z) a b) (ESum (0 + z) 0 (ESum (1 + z) 1 (ESum (2 + z) 3 (EMul (r_hb_H_ab_ovvv (3 + z) (0 + z) b (1 + z) (2 + z)) (ET 67 [a; (2 + z); (1 + z); (0 + z)])))))).
Definition r_deaqr_x2b_6 (z a b : nat) : ex := (EAdd (r_deaqr_x2b_5 (0 + z) a b) (EScale (1) 2 (ESum (0 + z) 0 (ESum (1 + z) 1 (ESum (2 + z) 1 (EMul (r_hb_H_aa_vovv (3 + z) a (0 + z) (1 + z) (2 + z)) (ET 67 [(1 + z); b; (2 + z); (0 + z)]))))))).
Definition r_deaqr_x2b_7 (z a b : nat) : ex := (EAdd (r_deaqr_x2b_6 (0 + z) a b) (EScale (1) 2 (ESum (0 + z) 2 (ESum (1 + z) 3 (ESum (2 + z) 3 (EMul (r_hb_H_bb_vovv (3 + z) b (0 + z) (1 + z) (2 + z)) (ET 68 [a; (1 + z); (2 + z); (0 + z)]))))))).
Definition r_deaqr_x2b_8 (z a b : nat) : ex := (EAdd (r_deaqr_x2b_7 (0 + z) a b) (ESum (0 + z) 2 (ESum (1 + z) 1 (ESum (2 + z) 3 (EMul (r_hb_H_ab_vovv (3 + z) a (0 + z) (1 + z) (2 + z)) (ET 68 [(1 + z); b; (2 + z); (0 + z)])))))).
Definition r_deaqr_x2b_9 (z a b : nat) : ex := (EAdd (r_deaqr_x2b_8 (0 + z) a b) (EScale (1) 4 (ESum (0 + z) 0 (ESum (1 + z) 0 (ESum (2 + z) 1 (ESum (3 + z) 1 (EMul (ET 1 [(0 + z); (1 + z); (2 + z); (3 + z)]) (ET 69 [a; b; (2 + z); (3 + z); (0 + z); (1 + z)])))))))).
Definition r_deaqr_x2b_10 (z a b : nat) : ex := (EAdd (r_deaqr_x2b_9 (0 + z) a b) (ESum (0 + z) 0 (ESum (1 + z) 2 (ESum (2 + z) 1 (ESum (3 + z) 3 (EMul (ET 3 [(0 + z); (1 + z); (2 + z); (3 + z)]) (ET 70 [a; b; (2 + z); (3 + z); (0 + z); (1 + z)]))))))).
Definition r_deaqr_x2b_11 (z a b : nat) : ex := (EAdd (r_deaqr_x2b_10 (0 + z) a b) (EScale (1) 4 (ESum (0 + z) 2 (ESum (1 + z) 2 (ESum (2 + z) 3 (ESum (3 + z) 3 (EMul (ET 6 [(0 + z); (1 + z); (2 + z); (3 + z)]) (ET 71 [a; b; (2 + z); (3 + z); (0 + z); (1 + z)])))))))).
Definition r_deaqr_x3b (z a b c k : nat) : ex := (EScale (1) 2 (ESum (0 + z) 1 (EMul (r_hb_H_aa_vvov_1 (1 + z) c a k (0 + z)) (ET 66 [(0 + z); b])))).
Definition r_deaqr_x3b_1 (z a b c k : nat) : ex := (EAdd (r_deaqr_x3b (0 + z) a b c k) (ESum (0 + z) 3 (EMul (r_hb_H_ab_vvov (1 + z) c b k (0 + z)) (ET 66 [a; (0 + z)])))).
Definition r_deaqr_x3b_2 (z a b c k : nat) : ex := (EAdd (r_deaqr_x3b_1 (0 + z) a b c k) (ESum (0 + z) 1 (EMul (r_hb_H_a_vv (1 + z) a (0 + z)) (ET 67 [(0 + z); b; c; k])))).
Definition r_deaqr_x3b_3 (z a b c k : nat) : ex := (EAdd (r_deaqr_x3b_2 (0 + z) a b c k) (EScale (1) 2 (ESum (0 + z) 3 (EMul (r_hb_H_b_vv (1 + z) b (0 + z)) (ET 67 [a; (0 + z); c; k]))))).
Definition r_deaqr_x3b_4 (z a b c k : nat) : ex := (EAdd (r_deaqr_x3b_3 (0 + z) a b c k) (ESum (0 + z) 1 (ESum (1 + z) 3 (EMul (r_hb_H_ab_vvvv (2 + z) a b (0 + z) (1 + z)) (ET 67 [(0 + z); (1 + z); c; k]))))).
Definition r_deaqr_x3b_5 (z a b c k : nat) : ex := (EAdd (r_deaqr_x3b_4 (0 + z) a b c k) (EScale (1) 4 (ESum (0 + z) 1 (ESum (1 + z) 1 (EMul (r_hb_H_aa_vvvv_1 (2 + z) a c (0 + z) (1 + z)) (ET 67 [(0 + z); b; (1 + z); k])))))).
Definition r_deaqr_x3b_6 (z a b c k : nat) : ex := (EAdd (r_deaqr_x3b_5 (0 + z) a b c k) (ESum (0 + z) 0 (ESum (1 + z) 1 (EMul (r_hb_H_aa_voov (2 + z) c (0 + z) k (1 + z)) (ET 67 [a; b; (1 + z); (0 + z)]))))).
Definition r_deaqr_x3b_7 (z a b c k : nat) : ex := (EAdd (r_deaqr_x3b_6 (0 + z) a b c k) (ESum (0 + z) 2 (ESum (1 + z) 3 (EMul (r_hb_H_ab_voov (2 + z) c (0 + z) k (1 + z)) (ET 68 [a; b; (1 + z); (0 + z)]))))).
Definition r_deaqr_x3b_8 (z a b c k : nat) : ex := (ESub (r_deaqr_x3b_7 (0 + z) a b c k) (EScale (1) 2 (ESum (0 + z) 0 (ESum (1 + z) 3 (EMul (r_hb_H_ab_ovov (2 + z) (0 + z) b k (1 + z)) (ET 67 [a; (1 + z); c; (0 + z)])))))).
Definition r_deaqr_x3b_9 (z a b c k : nat) : ex := (ESub (r_deaqr_x3b_8 (0 + z) a b c k) (EScale (1) 2 (ESum (0 + z) 0 (EMul (r_deaqr_X_ab_ov (1 + z) (0 + z) b) (ET 10 [a; c; (0 + z); k]))))).
Definition r_deaqr_x3b_10 (z a b c k : nat) : ex := (ESub (r_deaqr_x3b_9 (0 + z) a b c k) (ESum (0 + z) 2 (EMul (r_deaqr_X_ab_vo (1 + z) a (0 + z)) (ET 11 [c; b; k; (0 + z)])))).
Definition r_deaqr_x3b_11 (z a b c k : nat) : ex := (ESub (r_deaqr_x3b_10 (0 + z) a b c k) (EScale (1) 2 (ESum (0 + z) 0 (EMul (r_hb_H_a_oo (1 + z) (0 + z) k) (ET 67 [a; b; c; (0 + z)]))))).
Definition r_deaqr_x3b_12 (z a b c k : nat) : ex := (EAdd (r_deaqr_x3b_11 (0 + z) a b c k) (EScale (1) 2 (ESum (0 + z) 0 (ESum (1 + z) 1 (EMul (r_hb_H_a_ov (2 + z) (0 + z) (1 + z)) (ET 69 [a; b; c; (1 + z); k; (0 + z)])))))).
Definition r_deaqr_x3b_13 (z a b c k : nat) : ex := (EAdd (r_deaqr_x3b_12 (0 + z) a b c k) (EScale (1) 2 (ESum (0 + z) 2 (ESum (1 + z) 3 (EMul (r_hb_H_b_ov (2 + z) (0 + z) (1 + z)) (ET 70 [a; b; c; (1 + z); k; (0 + z)])))))).
Definition r_deaqr_x3b_14 (z a b c k : nat) : ex := (ESub (r_deaqr_x3b_13 (0 + z) a b c k) (EScale (1) 4 (ESum (0 + z) 0 (ESum (1 + z) 0 (ESum (2 + z) 1 (EMul (r_hb_H_aa_ooov (3 + z) (0 + z) (1 + z) k (2 + z)) (ET 69 [a; b; c; (2 + z); (0 + z); (1 + z)]))))))).
Definition r_deaqr_x3b_15 (z a b c k : nat) : ex := (ESub (r_deaqr_x3b_14 (0 + z) a b c k) (EScale (1) 2 (ESum (0 + z) 0 (ESum (1 + z) 2 (ESum (2 + z) 3 (EMul (r_hb_H_ab_ooov (3 + z) (0 + z) (1 + z) k (2 + z)) (ET 70 [a; b; c; (2 + z); (0 + z); (1 + z)]))))))).
Definition r_deaqr_x3b_16 (z a b c k : nat) : ex := (EAdd (r_deaqr_x3b_15 (0 + z) a b c k) (EScale (1) 2 (ESum (0 + z) 0 (ESum (1 + z) 1 (ESum (2 + z) 1 (EMul (r_hb_H_aa_vovv (3 + z) c (0 + z) (1 + z) (2 + z)) (ET 69 [a; b; (1 + z); (2 + z); k; (0 + z)]))))))).
Definition r_deaqr_x3b_17 (z a b c k : nat) : ex := (EAdd (r_deaqr_x3b_16 (0 + z) a b c k) (ESum (0 + z) 2 (ESum (1 + z) 1 (ESum (2 + z) 3 (EMul (r_hb_H_ab_vovv (3 + z) c (0 + z) (1 + z) (2 + z)) (ET 70 [a; b; (1 + z); (2 + z); k; (0 + z)])))))).
Definition r_deaqr_x3b_18 (z a b c k : nat) : ex := (EAdd (r_deaqr_x3b_17 (0 + z) a b c k) (EScale (1) 2 (ESum (0 + z) 0 (ESum (1 + z) 1 (ESum (2 + z) 3 (EMul (r_hb_H_ab_ovvv (3 + z) (0 + z) b (1 + z) (2 + z)) (ET 69 [a; (2 + z); c; (1 + z); k; (0 + z)]))))))).
Definition r_deaqr_x3b_19 (z a b c k : nat) : ex := (EAdd (r_deaqr_x3b_18 (0 + z) a b c k) (EScale (1) 4 (ESum (0 + z) 2 (ESum (1 + z) 3 (ESum (2 + z) 3 (EMul (r_hb_H_bb_vovv (3 + z) b (0 + z) (1 + z) (2 + z)) (ET 70 [a; (1 + z); c; (2 + z); k; (0 + z)]))))))).
Definition r_deaqr_x3b_20 (z a b c k : nat) : ex := (ESub (r_deaqr_x3b_19 (0 + z) a b c k) (r_deaqr_x3b_19 (0 + z) c b a k)).
Definition r_deaqr_x3c (z a b c k : nat) : ex := (ESum (0 + z) 1 (EMul (r_hb_H_ab_vvvo (1 + z) a c (0 + z) k) (ET 66 [(0 + z); b]))).
Definition r_deaqr_x3c_1 (z a b c k : nat) : ex := (EAdd (r_deaqr_x3c (0 + z) a b c k) (EScale (1) 2 (ESum (0 + z) 3 (EMul (r_hb_H_bb_vvov_1 (1 + z) c b k (0 + z)) (ET 66 [a; (0 + z)]))))).
Definition r_deaqr_x3c_2 (z a b c k : nat) : ex := (EAdd (r_deaqr_x3c_1 (0 + z) a b c k) (EScale (1) 2 (ESum (0 + z) 1 (EMul (r_hb_H_a_vv (1 + z) a (0 + z)) (ET 68 [(0 + z); b; c; k]))))).
Definition r_deaqr_x3c_3 (z a b c k : nat) : ex := (EAdd (r_deaqr_x3c_2 (0 + z) a b c k) (ESum (0 + z) 3 (EMul (r_hb_H_b_vv (1 + z) b (0 + z)) (ET 68 [a; (0 + z); c; k])))).
Definition r_deaqr_x3c_4 (z a b c k : nat) : ex := (EAdd (r_deaqr_x3c_3 (0 + z) a b c k) (ESum (0 + z) 1 (ESum (1 + z) 3 (EMul (r_hb_H_ab_vvvv (2 + z) a b (0 + z) (1 + z)) (ET 68 [(0 + z); (1 + z); c; k]))))).
Definition r_deaqr_x3c_5 (z a b c k : nat) : ex := (EAdd (r_deaqr_x3c_4 (0 + z) a b c k) (EScale (1) 4 (ESum (0 + z) 3 (ESum (1 + z) 3 (EMul (r_hb_H_bb_vvvv_1 (2 + z) b c (0 + z) (1 + z)) (ET 68 [a; (0 + z); (1 + z); k])))))).
Definition r_deaqr_x3c_6 (z a b c k : nat) : ex := (EAdd (r_deaqr_x3c_5 (0 + z) a b c k) (ESum (0 + z) 0 (ESum (1 + z) 1 (EMul (r_hb_H_ab_ovvo (2 + z) (0 + z) c (1 + z) k) (ET 67 [a; b; (1 + z); (0 + z)]))))).
Definition r_deaqr_x3c_7 (z a b c k : nat) : ex := (EAdd (r_deaqr_x3c_6 (0 + z) a b c k) (ESum (0 + z) 2 (ESum (1 + z) 3 (EMul (r_hb_H_bb_voov (2 + z) c (0 + z) k (1 + z)) (ET 68 [a; b; (1 + z); (0 + z)]))))).
Definition r_deaqr_x3c_8 (z a b c k : nat) : ex := (ESub (r_deaqr_x3c_7 (0 + z) a b c k) (EScale (1) 2 (ESum (0 + z) 2 (ESum (1 + z) 1 (EMul (r_hb_H_ab_vovo (2 + z) a (0 + z) (1 + z) k) (ET 68 [(1 + z); b; c; (0 + z)])))))).
Definition r_deaqr_x3c_9 (z a b c k : nat) : ex := (ESub (r_deaqr_x3c_8 (0 + z) a b c k) (ESum (0 + z) 0 (EMul (r_deaqr_X_ab_ov (1 + z) (0 + z) b) (ET 11 [a; c; (0 + z); k])))).
Definition r_deaqr_x3c_10 (z a b c k : nat) : ex := (ESub (r_deaqr_x3c_9 (0 + z) a b c k) (EScale (1) 2 (ESum (0 + z) 2 (EMul (r_deaqr_X_ab_vo (1 + z) a (0 + z)) (ET 18 [b; c; (0 + z); k]))))).
Definition r_deaqr_x3c_11 (z a b c k : nat) : ex := (ESub (r_deaqr_x3c_10 (0 + z) a b c k) (EScale (1) 2 (ESum (0 + z) 2 (EMul (r_hb_H_b_oo (1 + z) (0 + z) k) (ET 68 [a; b; c; (0 + z)]))))).
Definition r_deaqr_x3c_12 (z a b c k : nat) : ex := (EAdd (r_deaqr_x3c_11 (0 + z) a b c k) (EScale (1) 2 (ESum (0 + z) 0 (ESum (1 + z) 1 (EMul (r_hb_H_a_ov (2 + z) (0 + z) (1 + z)) (ET 70 [a; b; (1 + z); c; (0 + z); k])))))).
Definition r_deaqr_x3c_13 (z a b c k : nat) : ex := (EAdd (r_deaqr_x3c_12 (0 + z) a b c k) (EScale (1) 2 (ESum (0 + z) 2 (ESum (1 + z) 3 (EMul (r_hb_H_b_ov (2 + z) (0 + z) (1 + z)) (ET 71 [a; b; (1 + z); c; (0 + z); k])))))).
Definition r_deaqr_x3c_14 (z a b c k : nat) : ex := (ESub (r_deaqr_x3c_13 (0 + z) a b c k) (EScale (1) 2 (ESum (0 + z) 0 (ESum (1 + z) 2 (ESum (2 + z) 1 (EMul (r_hb_H_ab_oovo (3 + z) (0 + z) (1 + z) (2 + z) k) (ET 70 [a; b; (2 + z); c; (0 + z); (1 + z)]))))))).
Definition r_deaqr_x3c_15 (z a b c k : nat) : ex := (ESub (r_deaqr_x3c_14 (0 + z) a b c k) (EScale (1) 4 (ESum (0 + z) 2 (ESum (1 + z) 2 (ESum (2 + z) 3 (EMul (r_hb_H_bb_ooov (3 + z) (0 + z) (1 + z) k (2 + z)) (ET 71 [a; b; c; (2 + z); (0 + z); (1 + z)]))))))).
Definition r_deaqr_x3c_16 (z a b c k : nat) : ex := (EAdd (r_deaqr_x3c_15 (0 + z) a b c k) (ESum (0 + z) 0 (ESum (1 + z) 1 (ESum (2 + z) 3 (EMul (r_hb_H_ab_ovvv (3 + z) (0 + z) c (1 + z) (2 + z)) (ET 70 [a; b; (1 + z); (2 + z); (0 + z); k])))))).
Definition r_deaqr_x3c_17 (z a b c k : nat) : ex := (EAdd (r_deaqr_x3c_16 (0 + z) a b c k) (EScale (1) 2 (ESum (0 + z) 2 (ESum (1 + z) 3 (ESum (2 + z) 3 (EMul (r_hb_H_bb_vovv (3 + z) c (0 + z) (1 + z) (2 + z)) (ET 71 [a; b; (1 + z); (2 + z); k; (0 + z)]))))))).
Definition r_deaqr_x3c_18 (z a b c k : nat) : ex := (EAdd (r_deaqr_x3c_17 (0 + z) a b c k) (EScale (1) 4 (ESum (0 + z) 0 (ESum (1 + z) 1 (ESum (2 + z) 1 (EMul (r_hb_H_aa_vovv (3 + z) a (0 + z) (1 + z) (2 + z)) (ET 70 [(1 + z); b; (2 + z); c; (0 + z); k]))))))).
Definition r_deaqr_x3c_19 (z a b c k : nat) : ex := (EAdd (r_deaqr_x3c_18 (0 + z) a b c k) (EScale (1) 2 (ESum (0 + z) 2 (ESum (1 + z) 1 (ESum (2 + z) 3 (EMul (r_hb_H_ab_vovv (3 + z) a (0 + z) (1 + z) (2 + z)) (ET 71 [(1 + z); b; (2 + z); c; (0 + z); k]))))))).
Definition r_deaqr_x3c_20 (z a b c k : nat) : ex := (ESub (r_deaqr_x3c_19 (0 + z) a b c k) (r_deaqr_x3c_19 (0 + z) a c b k)).
Definition r_deaqr_x4b (z a b c d k l : nat) : ex := (EScale (1) 2 (ESum (0 + z) 1 (EMul (r_hb_H_aa_vvov_1 (1 + z) c d k (0 + z)) (ET 67 [a; b; (0 + z); l])))).
Definition r_deaqr_x4b_1 (z a b c d k l : nat) : ex := (EAdd (r_deaqr_x4b (0 + z) a b c d k l) (EScale (1) 2 (ESum (0 + z) 3 (EMul (r_hb_H_ab_vvov (1 + z) c b k (0 + z)) (ET 67 [a; (0 + z); d; l]))))).
Definition r_deaqr_x4b_2 (z a b c d k l : nat) : ex := (ESub (r_deaqr_x4b_1 (0 + z) a b c d k l) (EScale (1) 4 (ESum (0 + z) 0 (EMul (r_hb_H_aa_vooo (1 + z) c (0 + z) k l) (ET 67 [a; b; d; (0 + z)]))))).
Definition r_deaqr_x4b_3 (z a b c d k l : nat) : ex := (ESub (r_deaqr_x4b_2 (0 + z) a b c d k l) (EScale (1) 2 (ESum (0 + z) 0 (EMul (r_deaqr_X_aba_vvoo (1 + z) a b (0 + z) l) (ET 10 [c; d; k; (0 + z)]))))).
Definition r_deaqr_x4b_4 (z a b c d k l : nat) : ex := (EAdd (r_deaqr_x4b_3 (0 + z) a b c d k l) (EScale (1) 4 (ESum (0 + z) 1 (EMul (r_deaqr_X_aba_vvvv_1 (1 + z) a b d (0 + z)) (ET 10 [c; (0 + z); k; l]))))).
Definition r_deaqr_x4b_5 (z a b c d k l : nat) : ex := (ESub (r_deaqr_x4b_4 (0 + z) a b c d k l) (EScale (1) 2 (ESum (0 + z) 2 (EMul (r_deaqr_X_aba_vovo_1 (1 + z) a (0 + z) c k) (ET 11 [d; b; l; (0 + z)]))))).
Definition r_deaqr_x4b_6 (z a b c d k l : nat) : ex := (EAdd (r_deaqr_x4b_5 (0 + z) a b c d k l) (EScale (1) 4 (ESum (0 + z) 1 (EMul (r_hb_H_a_vv (1 + z) d (0 + z)) (ET 69 [a; b; c; (0 + z); k; l]))))).
Definition r_deaqr_x4b_7 (z a b c d k l : nat) : ex := (EAdd (r_deaqr_x4b_6 (0 + z) a b c d k l) (EScale (1) 12 (ESum (0 + z) 3 (EMul (r_hb_H_b_vv (1 + z) b (0 + z)) (ET 69 [a; (0 + z); c; d; k; l]))))).
Definition r_deaqr_x4b_8 (z a b c d k l : nat) : ex := (ESub (r_deaqr_x4b_7 (0 + z) a b c d k l) (EScale (1) 6 (ESum (0 + z) 0 (EMul (r_hb_H_a_oo (1 + z) (0 + z) l) (ET 69 [a; b; c; d; k; (0 + z)]))))).
Definition r_deaqr_x4b_9 (z a b c d k l : nat) : ex := (EAdd (r_deaqr_x4b_8 (0 + z) a b c d k l) (EScale (1) 24 (ESum (0 + z) 0 (ESum (1 + z) 0 (EMul (r_hb_H_aa_oooo_1 (2 + z) (0 + z) (1 + z) k l) (ET 69 [a; b; c; d; (0 + z); (1 + z)])))))).
Definition r_deaqr_x4b_10 (z a b c d k l : nat) : ex := (EAdd (r_deaqr_x4b_9 (0 + z) a b c d k l) (EScale (1) 8 (ESum (0 + z) 1 (ESum (1 + z) 1 (EMul (r_hb_H_aa_vvvv_1 (2 + z) c d (0 + z) (1 + z)) (ET 69 [a; b; (0 + z); (1 + z); k; l])))))).
Definition r_deaqr_x4b_11 (z a b c d k l : nat) : ex := (EAdd (r_deaqr_x4b_10 (0 + z) a b c d k l) (EScale (1) 4 (ESum (0 + z) 1 (ESum (1 + z) 3 (EMul (r_hb_H_ab_vvvv (2 + z) a b (0 + z) (1 + z)) (ET 69 [(0 + z); (1 + z); c; d; k; l])))))).
Definition r_deaqr_x4b_12 (z a b c d k l : nat) : ex := (EAdd (r_deaqr_x4b_11 (0 + z) a b c d k l) (EScale (1) 2 (ESum (0 + z) 0 (ESum (1 + z) 1 (EMul (r_hb_H_aa_voov (2 + z) d (0 + z) l (1 + z)) (ET 69 [a; b; c; (1 + z); k; (0 + z)])))))).
Definition r_deaqr_x4b_13 (z a b c d k l : nat) : ex := (EAdd (r_deaqr_x4b_12 (0 + z) a b c d k l) (EScale (1) 2 (ESum (0 + z) 2 (ESum (1 + z) 3 (EMul (r_hb_H_ab_voov (2 + z) d (0 + z) l (1 + z)) (ET 70 [a; b; c; (1 + z); k; (0 + z)])))))).
Definition r_deaqr_x4b_14 (z a b c d k l : nat) : ex := (ESub (r_deaqr_x4b_13 (0 + z) a b c d k l) (EScale (1) 6 (ESum (0 + z) 0 (ESum (1 + z) 3 (EMul (r_hb_H_ab_ovov (2 + z) (0 + z) b l (1 + z)) (ET 69 [a; (1 + z); c; d; k; (0 + z)])))))).
Definition r_deaqr_x4b_15 (z a b c d k l : nat) : ex := (EAdd (r_deaqr_x4b_14 (0 + z) a b c d k l) (EScale (1) 2 (ESum (0 + z) 0 (ESum (1 + z) 2 (EMul (EMul (r_deaqr_X_ab_oo (2 + z) (0 + z) (1 + z)) (ET 10 [a; d; (0 + z); l])) (ET 11 [c; b; k; (1 + z)])))))).
Definition r_deaqr_x4b_16 (z a b c d k l : nat) : ex := (ESub (r_deaqr_x4b_15 (0 + z) a b c d k l) (r_deaqr_x4b_15 (0 + z) a b c d l k)).
Definition r_deaqr_x4b_17 (z a b c d k l : nat) : ex := (ESub (r_deaqr_x4b_16 (0 + z) a b c d k l) (r_deaqr_x4b_16 (0 + z) a b d c k l)).
Definition r_deaqr_x4b_18 (z a b c d k l : nat) : ex := (ESub (r_deaqr_x4b_17 (0 + z) a b c d k l) (EAdd (r_deaqr_x4b_17 (0 + z) c b a d k l) (r_deaqr_x4b_17 (0 + z) d b c a k l))).
Definition r_deaqr_x4c (z a b c d k l : nat) : ex := (ESum (0 + z) 1 (EMul (r_hb_H_ab_vvvo (1 + z) c d (0 + z) l) (ET 67 [a; b; (0 + z); k]))).
Definition r_deaqr_x4c_1 (z a b c d k l : nat) : ex := (EAdd (r_deaqr_x4c (0 + z) a b c d k l) (ESum (0 + z) 3 (EMul (r_hb_H_ab_vvov (1 + z) c d k (0 + z)) (ET 68 [a; b; (0 + z); l])))).
Definition r_deaqr_x4c_2 (z a b c d k l : nat) : ex := (ESub (r_deaqr_x4c_1 (0 + z) a b c d k l) (EScale (1) 2 (ESum (0 + z) 0 (EMul (r_hb_H_ab_ovoo (1 + z) (0 + z) d k l) (ET 67 [a; b; c; (0 + z)]))))).
Definition r_deaqr_x4c_3 (z a b c d k l : nat) : ex := (ESub (r_deaqr_x4c_2 (0 + z) a b c d k l) (EScale (1) 2 (ESum (0 + z) 2 (EMul (r_hb_H_ab_vooo (1 + z) c (0 + z) k l) (ET 68 [a; b; d; (0 + z)]))))).
Definition r_deaqr_x4c_4 (z a b c d k l : nat) : ex := (EAdd (r_deaqr_x4c_3 (0 + z) a b c d k l) (EScale (1) 4 (ESum (0 + z) 1 (EMul (r_hb_H_aa_vvov_1 (1 + z) c a k (0 + z)) (ET 68 [(0 + z); b; d; l]))))).
Definition r_deaqr_x4c_5 (z a b c d k l : nat) : ex := (EAdd (r_deaqr_x4c_4 (0 + z) a b c d k l) (EScale (1) 4 (ESum (0 + z) 3 (EMul (r_hb_H_bb_vvov_1 (1 + z) d b l (0 + z)) (ET 67 [a; (0 + z); c; k]))))).
Definition r_deaqr_x4c_6 (z a b c d k l : nat) : ex := (EAdd (r_deaqr_x4c_5 (0 + z) a b c d k l) (EScale (1) 2 (ESum (0 + z) 3 (EMul (r_deaqr_X_abb_vvvv_1 (1 + z) a b d (0 + z)) (ET 11 [c; (0 + z); k; l]))))).
Definition r_deaqr_x4c_7 (z a b c d k l : nat) : ex := (EAdd (r_deaqr_x4c_6 (0 + z) a b c d k l) (EScale (1) 2 (ESum (0 + z) 1 (EMul (r_deaqr_X_aba_vvvv_1 (1 + z) a b c (0 + z)) (ET 11 [(0 + z); d; k; l]))))).
Definition r_deaqr_x4c_8 (z a b c d k l : nat) : ex := (ESub (r_deaqr_x4c_7 (0 + z) a b c d k l) (ESum (0 + z) 0 (EMul (r_deaqr_X_aba_vvoo (1 + z) a b (0 + z) k) (ET 11 [c; d; (0 + z); l])))).
Definition r_deaqr_x4c_9 (z a b c d k l : nat) : ex := (ESub (r_deaqr_x4c_8 (0 + z) a b c d k l) (ESum (0 + z) 2 (EMul (r_deaqr_X_abb_vvoo (1 + z) a b (0 + z) l) (ET 11 [c; d; k; (0 + z)])))).
Definition r_deaqr_x4c_10 (z a b c d k l : nat) : ex := (ESub (r_deaqr_x4c_9 (0 + z) a b c d k l) (EScale (1) 4 (ESum (0 + z) 2 (EMul (r_deaqr_X_aba_vovo_1 (1 + z) a (0 + z) c k) (ET 18 [b; d; (0 + z); l]))))).
Definition r_deaqr_x4c_11 (z a b c d k l : nat) : ex := (ESub (r_deaqr_x4c_10 (0 + z) a b c d k l) (EScale (1) 4 (ESum (0 + z) 0 (EMul (r_deaqr_X_abb_ovvo_1 (1 + z) (0 + z) b d l) (ET 10 [a; c; (0 + z); k]))))).
Definition r_deaqr_x4c_12 (z a b c d k l : nat) : ex := (EAdd (r_deaqr_x4c_11 (0 + z) a b c d k l) (EScale (1) 2 (ESum (0 + z) 1 (EMul (r_hb_H_a_vv (1 + z) a (0 + z)) (ET 70 [(0 + z); b; c; d; k; l]))))).
Definition r_deaqr_x4c_13 (z a b c d k l : nat) : ex := (EAdd (r_deaqr_x4c_12 (0 + z) a b c d k l) (EScale (1) 2 (ESum (0 + z) 3 (EMul (r_hb_H_b_vv (1 + z) b (0 + z)) (ET 70 [a; (0 + z); c; d; k; l]))))).
Definition r_deaqr_x4c_14 (z a b c d k l : nat) : ex := (ESub (r_deaqr_x4c_13 (0 + z) a b c d k l) (EScale (1) 4 (ESum (0 + z) 0 (EMul (r_hb_H_a_oo (1 + z) (0 + z) k) (ET 70 [a; b; c; d; (0 + z); l]))))).
Definition r_deaqr_x4c_15 (z a b c d k l : nat) : ex := (ESub (r_deaqr_x4c_14 (0 + z) a b c d k l) (EScale (1) 4 (ESum (0 + z) 2 (EMul (r_hb_H_b_oo (1 + z) (0 + z) l) (ET 70 [a; b; c; d; k; (0 + z)]))))).
Definition r_deaqr_x4c_16 (z a b c d k l : nat) : ex := (EAdd (r_deaqr_x4c_15 (0 + z) a b c d k l) (EScale (1) 4 (ESum (0 + z) 0 (ESum (1 + z) 2 (EMul (r_hb_H_ab_oooo (2 + z) (0 + z) (1 + z) k l) (ET 70 [a; b; c; d; (0 + z); (1 + z)])))))).
Definition r_deaqr_x4c_17 (z a b c d k l : nat) : ex := (EAdd (r_deaqr_x4c_16 (0 + z) a b c d k l) (ESum (0 + z) 1 (ESum (1 + z) 3 (EMul (r_hb_H_ab_vvvv (2 + z) c d (0 + z) (1 + z)) (ET 70 [a; b; (0 + z); (1 + z); k; l]))))).
Definition r_deaqr_x4c_18 (z a b c d k l : nat) : ex := (EAdd (r_deaqr_x4c_17 (0 + z) a b c d k l) (EScale (1) 8 (ESum (0 + z) 1 (ESum (1 + z) 1 (EMul (r_hb_H_aa_vvvv_1 (2 + z) a c (0 + z) (1 + z)) (ET 70 [(0 + z); b; (1 + z); d; k; l])))))).
Definition r_deaqr_x4c_19 (z a b c d k l : nat) : ex := (EAdd (r_deaqr_x4c_18 (0 + z) a b c d k l) (EScale (1) 8 (ESum (0 + z) 3 (ESum (1 + z) 3 (EMul (r_hb_H_bb_vvvv_1 (2 + z) b d (0 + z) (1 + z)) (ET 70 [a; (0 + z); c; (1 + z); k; l])))))).
Definition r_deaqr_x4c_20 (z a b c d k l : nat) : ex := (EAdd (r_deaqr_x4c_19 (0 + z) a b c d k l) (EScale (1) 2 (ESum (0 + z) 0 (ESum (1 + z) 1 (EMul (r_hb_H_aa_voov (2 + z) c (0 + z) k (1 + z)) (ET 70 [a; b; (1 + z); d; (0 + z); l])))))).
Definition r_deaqr_x4c_21 (z a b c d k l : nat) : ex := (EAdd (r_deaqr_x4c_20 (0 + z) a b c d k l) (EScale (1) 2 (ESum (0 + z) 2 (ESum (1 + z) 3 (EMul (r_hb_H_ab_voov (2 + z) c (0 + z) k (1 + z)) (ET 71 [a; b; (1 + z); d; (0 + z); l])))))).
Definition r_deaqr_x4c_22 (z a b c d k l : nat) : ex := (EAdd (r_deaqr_x4c_21 (0 + z) a b c d k l) (EScale (1) 2 (ESum (0 + z) 0 (ESum (1 + z) 1 (EMul (r_hb_H_ab_ovvo (2 + z) (0 + z) d (1 + z) l) (ET 69 [a; b; c; (1 + z); k; (0 + z)])))))).
Definition r_deaqr_x4c_23 (z a b c d k l : nat) : ex := (EAdd (r_deaqr_x4c_22 (0 + z) a b c d k l) (EScale (1) 2 (ESum (0 + z) 2 (ESum (1 + z) 3 (EMul (r_hb_H_bb_voov (2 + z) d (0 + z) l (1 + z)) (ET 70 [a; b; c; (1 + z); k; (0 + z)])))))).
Definition r_deaqr_x4c_24 (z a b c d k l : nat) : ex := (ESub (r_deaqr_x4c_23 (0 + z) a b c d k l) (EScale (1) 2 (ESum (0 + z) 0 (ESum (1 + z) 3 (EMul (r_hb_H_ab_ovov (2 + z) (0 + z) d k (1 + z)) (ET 70 [a; b; c; (1 + z); (0 + z); l])))))).
Definition r_deaqr_x4c_25 (z a b c d k l : nat) : ex := (ESub (r_deaqr_x4c_24 (0 + z) a b c d k l) (EScale (1) 2 (ESum (0 + z) 2 (ESum (1 + z) 1 (EMul (r_hb_H_ab_vovo (2 + z) c (0 + z) (1 + z) l) (ET 70 [a; b; (1 + z); d; k; (0 + z)])))))).
Definition r_deaqr_x4c_26 (z a b c d k l : nat) : ex := (EAdd (r_deaqr_x4c_25 (0 + z) a b c d k l) (EScale (1) 4 (ESum (0 + z) 0 (ESum (1 + z) 2 (EMul (EMul (r_deaqr_X_ab_oo (2 + z) (0 + z) (1 + z)) (ET 10 [a; c; (0 + z); k])) (ET 18 [b; d; (1 + z); l])))))).
Definition r_deaqr_x4c_27 (z a b c d k l : nat) : ex := (EAdd (r_deaqr_x4c_26 (0 + z) a b c d k l) (ESum (0 + z) 0 (ESum (1 + z) 2 (EMul (EMul (r_deaqr_X_ab_oo (2 + z) (0 + z) (1 + z)) (ET 11 [a; d; (0 + z); l])) (ET 11 [c; b; k; (1 + z)]))))).
Definition r_deaqr_x4c_28 (z a b c d k l : nat) : ex := (ESub (r_deaqr_x4c_27 (0 + z) a b c d k l) (r_deaqr_x4c_27 (0 + z) c b a d k l)).
Definition r_deaqr_x4c_29 (z a b c d k l : nat) : ex := (ESub (r_deaqr_x4c_28 (0 + z) a b c d k l) (r_deaqr_x4c_28 (0 + z) a d c b k l)).
Definition r_deaqr_x4d (z a b c d k l : nat) : ex := (EScale (1) 2 (ESum (0 + z) 3 (EMul (r_hb_H_bb_vvov_1 (1 + z) c d k (0 + z)) (ET 68 [a; b; (0 + z); l])))).
Definition r_deaqr_x4d_1 (z a b c d k l : nat) : ex := (EAdd (r_deaqr_x4d (0 + z) a b c d k l) (EScale (1) 2 (ESum (0 + z) 1 (EMul (r_hb_H_ab_vvvo (1 + z) a c (0 + z) k) (ET 68 [(0 + z); b; d; l]))))).
Definition r_deaqr_x4d_2 (z a b c d k l : nat) : ex := (ESub (r_deaqr_x4d_1 (0 + z) a b c d k l) (EScale (1) 4 (ESum (0 + z) 2 (EMul (r_hb_H_bb_vooo (1 + z) c (0 + z) k l) (ET 68 [a; b; d; (0 + z)]))))).
Definition r_deaqr_x4d_3 (z a b c d k l : nat) : ex := (EAdd (r_deaqr_x4d_2 (0 + z) a b c d k l) (EScale (1) 4 (ESum (0 + z) 3 (EMul (r_deaqr_X_abb_vvvv_1 (1 + z) a b d (0 + z)) (ET 18 [c; (0 + z); k; l]))))).
Definition r_deaqr_x4d_4 (z a b c d k l : nat) : ex := (ESub (r_deaqr_x4d_3 (0 + z) a b c d k l) (EScale (1) 2 (ESum (0 + z) 2 (EMul (r_deaqr_X_abb_vvoo (1 + z) a b (0 + z) l) (ET 18 [c; d; k; (0 + z)]))))).
Definition r_deaqr_x4d_5 (z a b c d k l : nat) : ex := (ESub (r_deaqr_x4d_4 (0 + z) a b c d k l) (EScale (1) 2 (ESum (0 + z) 0 (EMul (r_deaqr_X_abb_ovvo_1 (1 + z) (0 + z) b c k) (ET 11 [a; d; (0 + z); l]))))).
Definition r_deaqr_x4d_6 (z a b c d k l : nat) : ex := (EAdd (r_deaqr_x4d_5 (0 + z) a b c d k l) (EScale (1) 4 (ESum (0 + z) 3 (EMul (r_hb_H_b_vv (1 + z) d (0 + z)) (ET 71 [a; b; c; (0 + z); k; l]))))).
Definition r_deaqr_x4d_7 (z a b c d k l : nat) : ex := (EAdd (r_deaqr_x4d_6 (0 + z) a b c d k l) (EScale (1) 12 (ESum (0 + z) 1 (EMul (r_hb_H_a_vv (1 + z) a (0 + z)) (ET 71 [(0 + z); b; c; d; k; l]))))).
Definition r_deaqr_x4d_8 (z a b c d k l : nat) : ex := (ESub (r_deaqr_x4d_7 (0 + z) a b c d k l) (EScale (1) 6 (ESum (0 + z) 2 (EMul (r_hb_H_b_oo (1 + z) (0 + z) l) (ET 71 [a; b; c; d; k; (0 + z)]))))).
Definition r_deaqr_x4d_9 (z a b c d k l : nat) : ex := (EAdd (r_deaqr_x4d_8 (0 + z) a b c d k l) (EScale (1) 24 (ESum (0 + z) 2 (ESum (1 + z) 2 (EMul (r_hb_H_bb_oooo_1 (2 + z) (0 + z) (1 + z) k l) (ET 71 [a; b; c; d; (0 + z); (1 + z)])))))).
Definition r_deaqr_x4d_10 (z a b c d k l : nat) : ex := (EAdd (r_deaqr_x4d_9 (0 + z) a b c d k l) (EScale (1) 8 (ESum (0 + z) 3 (ESum (1 + z) 3 (EMul (r_hb_H_bb_vvvv_1 (2 + z) c d (0 + z) (1 + z)) (ET 71 [a; b; (0 + z); (1 + z); k; l])))))).
Definition r_deaqr_x4d_11 (z a b c d k l : nat) : ex := (EAdd (r_deaqr_x4d_10 (0 + z) a b c d k l) (EScale (1) 4 (ESum (0 + z) 1 (ESum (1 + z) 3 (EMul (r_hb_H_ab_vvvv (2 + z) a b (0 + z) (1 + z)) (ET 71 [(0 + z); (1 + z); c; d; k; l])))))).
Definition r_deaqr_x4d_12 (z a b c d k l : nat) : ex := (EAdd (r_deaqr_x4d_11 (0 + z) a b c d k l) (EScale (1) 2 (ESum (0 + z) 0 (ESum (1 + z) 1 (EMul (r_hb_H_ab_ovvo (2 + z) (0 + z) d (1 + z) l) (ET 70 [a; b; (1 + z); c; (0 + z); k])))))).
Definition r_deaqr_x4d_13 (z a b c d k l : nat) : ex := (EAdd (r_deaqr_x4d_12 (0 + z) a b c d k l) (EScale (1) 2 (ESum (0 + z) 2 (ESum (1 + z) 3 (EMul (r_hb_H_bb_voov (2 + z) d (0 + z) l (1 + z)) (ET 71 [a; b; c; (1 + z); k; (0 + z)])))))).
Definition r_deaqr_x4d_14 (z a b c d k l : nat) : ex := (ESub (r_deaqr_x4d_13 (0 + z) a b c d k l) (EScale (1) 6 (ESum (0 + z) 2 (ESum (1 + z) 1 (EMul (r_hb_H_ab_vovo (2 + z) a (0 + z) (1 + z) l) (ET 71 [(1 + z); b; c; d; k; (0 + z)])))))).
Definition r_deaqr_x4d_15 (z a b c d k l : nat) : ex := (EAdd (r_deaqr_x4d_14 (0 + z) a b c d k l) (EScale (1) 2 (ESum (0 + z) 0 (ESum (1 + z) 2 (EMul (EMul (r_deaqr_X_ab_oo (2 + z) (0 + z) (1 + z)) (ET 11 [a; d; (0 + z); l])) (ET 18 [b; c; (1 + z); k])))))).
Definition r_deaqr_x4d_16 (z a b c d k l : nat) : ex := (ESub (r_deaqr_x4d_15 (0 + z) a b c d k l) (r_deaqr_x4d_15 (0 + z) a b c d l k)).
Definition r_deaqr_x4d_17 (z a b c d k l : nat) : ex := (ESub (r_deaqr_x4d_16 (0 + z) a b c d k l) (r_deaqr_x4d_16 (0 + z) a b d c k l)).
Definition r_deaqr_x4d_18 (z a b c d k l : nat) : ex := (ESub (r_deaqr_x4d_17 (0 + z) a b c d k l) (EAdd (r_deaqr_x4d_17 (0 + z) a c b d k l) (r_deaqr_x4d_17 (0 + z) a d c b k l))).
Definition s_deaq_ab := r_deaqr_x2b_11.
Definition s_deaq_aba := r_deaqr_x3b_20.
Definition s_deaq_abb := r_deaqr_x3c_20.
Definition s_deaq_abaa := r_deaqr_x4b_18.
Definition s_deaq_abab := r_deaqr_x4c_29.
Definition s_deaq_abbb := r_deaqr_x4d_18.
