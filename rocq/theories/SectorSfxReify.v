(** Generated by tools/gen_sfx.py: the sigma vector of SpinFlip3Fixed.v reified; arrays 0-65 as in CcsdReify.v (proof support). *)
From Coq Require Import Reals Arith List ZArith.
From Verif Require Import RSum IntegralsModel TensorObjs TensorAlg CcsdReify Sector3Model SpinFlip3Fixed.
Import ListNotations.
Local Open Scope nat_scope.
Definition r_sfxr_x_oo (z m j : nat) : ex := (ESub (EAdd (ESum (0 + z) 0 (ESum (1 + z) 1 (ESum (2 + z) 3 (EMul (ET 3 [(0 + z); m; (1 + z); (2 + z)]) (ET 67 [(1 + z); (2 + z); (0 + z); j]))))) (EScale (1) 2 (ESum (0 + z) 2 (ESum (1 + z) 3 (ESum (2 + z) 3 (EMul (ET 6 [m; (0 + z); (1 + z); (2 + z)]) (ET 68 [(2 + z); (1 + z); (0 + z); j]))))))) (ESum (0 + z) 0 (ESum (1 + z) 3 (EMul (r_hb_H_ab_ooov (2 + z) (0 + z) m j (1 + z)) (ET 66 [(1 + z); (0 + z)]))))).
Definition r_sfxr_x_vv (z b e : nat) : ex := (ESub (ESub (EScale (-1) 2 (ESum (0 + z) 0 (ESum (1 + z) 0 (ESum (2 + z) 1 (EMul (ET 1 [(0 + z); (1 + z); e; (2 + z)]) (ET 67 [(2 + z); b; (1 + z); (0 + z)])))))) (ESum (0 + z) 0 (ESum (1 + z) 2 (ESum (2 + z) 3 (EMul (ET 3 [(0 + z); (1 + z); e; (2 + z)]) (ET 68 [(2 + z); b; (1 + z); (0 + z)])))))) (ESum (0 + z) 0 (ESum (1 + z) 3 (EMul (r_hb_H_ab_ovvv (2 + z) (0 + z) b e (1 + z)) (ET 66 [(1 + z); (0 + z)]))))).
Definition r_sfxr_x_ov (z n e : nat) : ex := (EOpp (ESum (0 + z) 0 (ESum (1 + z) 3 (EMul (ET 3 [(0 + z); n; e; (1 + z)]) (ET 66 [(1 + z); (0 + z)]))))).
Definition r_sfxr_X_ab_ovoo (z m c j k : nat) : ex := (EAdd (EAdd (EAdd (EAdd (EAdd (EAdd (ESub (EScale (0) 1 (ESum (0 + z) 1 (EMul (r_hb_H_a_ov (1 + z) m (0 + z)) (ET 67 [(0 + z); c; j; k])))) (EScale (1) 2 (ESum (0 + z) 0 (EMul (r_hb_H_aa_oooo_1 (1 + z) m (0 + z) j k) (ET 66 [c; (0 + z)]))))) (ESum (0 + z) 3 (EMul (r_hb_H_ab_ovov (1 + z) m c j (0 + z)) (ET 66 [(0 + z); k])))) (ESum (0 + z) 0 (ESum (1 + z) 1 (EMul (r_hb_H_aa_ooov (2 + z) m (0 + z) j (1 + z)) (ET 67 [(1 + z); c; (0 + z); k]))))) (ESum (0 + z) 2 (ESum (1 + z) 3 (EMul (r_hb_H_ab_ooov (2 + z) m (0 + z) j (1 + z)) (ET 68 [(1 + z); c; (0 + z); k]))))) (EScale (1) 4 (ESum (0 + z) 0 (ESum (1 + z) 1 (ESum (2 + z) 1 (EMul (ET 1 [m; (0 + z); (1 + z); (2 + z)]) (ET 69 [(1 + z); (2 + z); c; j; (0 + z); k]))))))) (EScale (1) 2 (ESum (0 + z) 1 (ESum (1 + z) 3 (EMul (r_hb_H_ab_ovvv (2 + z) m c (0 + z) (1 + z)) (ET 67 [(0 + z); (1 + z); j; k])))))) (EScale (1) 2 (ESum (0 + z) 2 (ESum (1 + z) 1 (ESum (2 + z) 3 (EMul (ET 3 [m; (0 + z); (1 + z); (2 + z)]) (ET 70 [(1 + z); (2 + z); c; j; (0 + z); k]))))))).
Definition r_sfxr_X_ab_ovoo_1 (z m c j k : nat) : ex := (ESub (r_sfxr_X_ab_ovoo (0 + z) m c j k) (r_sfxr_X_ab_ovoo (0 + z) m c k j)).
Definition r_sfxr_X_ab_vooo (z a m i k : nat) : ex := (EAdd (EAdd (EAdd (ESub (EAdd (EAdd (EScale (0) 1 (ESum (0 + z) 3 (EMul (r_hb_H_b_ov (1 + z) m (0 + z)) (ET 67 [a; (0 + z); i; k])))) (EScale (1) 2 (ESum (0 + z) 1 (EMul (r_sfxr_x_ov (1 + z) m (0 + z)) (ET 10 [a; (0 + z); i; k]))))) (ESum (0 + z) 3 (EMul (r_hb_H_ab_voov (1 + z) a m i (0 + z)) (ET 66 [(0 + z); k])))) (ESum (0 + z) 0 (ESum (1 + z) 3 (EMul (r_hb_H_ab_ooov (2 + z) (0 + z) m i (1 + z)) (ET 67 [a; (1 + z); (0 + z); k]))))) (EScale (1) 2 (ESum (0 + z) 1 (ESum (1 + z) 3 (EMul (r_hb_H_ab_vovv (2 + z) a m (0 + z) (1 + z)) (ET 67 [(0 + z); (1 + z); i; k])))))) (EScale (1) 2 (ESum (0 + z) 0 (ESum (1 + z) 1 (ESum (2 + z) 3 (EMul (ET 3 [(0 + z); m; (1 + z); (2 + z)]) (ET 69 [a; (1 + z); (2 + z); i; (0 + z); k]))))))) (EScale (1) 4 (ESum (0 + z) 2 (ESum (1 + z) 3 (ESum (2 + z) 3 (EMul (ET 6 [(0 + z); m; (1 + z); (2 + z)]) (ET 70 [a; (1 + z); (2 + z); i; (0 + z); k]))))))).
Definition r_sfxr_X_ab_vooo_1 (z a m i k : nat) : ex := (ESub (r_sfxr_X_ab_vooo (0 + z) a m i k) (r_sfxr_X_ab_vooo (0 + z) a m k i)).
Definition r_sfxr_X_ab_vvvo (z a c e k : nat) : ex := (EAdd (ESub (ESub (ESub (EAdd (EAdd (EAdd (EAdd (EScale (0) 1 (ESum (0 + z) 0 (EMul (r_hb_H_a_ov (1 + z) (0 + z) e) (ET 67 [a; c; (0 + z); k])))) (ESum (0 + z) 3 (EMul (r_hb_H_ab_vvvv (1 + z) a c e (0 + z)) (ET 66 [(0 + z); k])))) (ESum (0 + z) 0 (EMul (r_hb_H_aa_voov (1 + z) a (0 + z) k e) (ET 66 [c; (0 + z)])))) (ESum (0 + z) 0 (ESum (1 + z) 1 (EMul (r_hb_H_aa_vovv (2 + z) a (0 + z) e (1 + z)) (ET 67 [(1 + z); c; (0 + z); k]))))) (ESum (0 + z) 2 (ESum (1 + z) 3 (EMul (r_hb_H_ab_vovv (2 + z) a (0 + z) e (1 + z)) (ET 68 [(1 + z); c; (0 + z); k]))))) (EScale (1) 2 (ESum (0 + z) 0 (ESum (1 + z) 0 (ESum (2 + z) 1 (EMul (ET 1 [(0 + z); (1 + z); e; (2 + z)]) (ET 69 [a; (2 + z); c; (0 + z); (1 + z); k]))))))) (ESum (0 + z) 0 (ESum (1 + z) 3 (EMul (r_hb_H_ab_ovvv (2 + z) (0 + z) c e (1 + z)) (ET 67 [a; (1 + z); (0 + z); k]))))) (ESum (0 + z) 0 (ESum (1 + z) 2 (ESum (2 + z) 3 (EMul (ET 3 [(0 + z); (1 + z); e; (2 + z)]) (ET 70 [a; (2 + z); c; (0 + z); (1 + z); k])))))) (EScale (1) 2 (ESum (0 + z) 0 (ESum (1 + z) 0 (EMul (r_hb_H_aa_ooov (2 + z) (0 + z) (1 + z) k e) (ET 67 [a; c; (1 + z); (0 + z)])))))).
Definition r_sfxr_X_bb_ovoo (z m c j k : nat) : ex := (EAdd (ESub (EAdd (ESub (EAdd (EAdd (EAdd (ESub (ESub (EScale (0) 1 (ESum (0 + z) 3 (EMul (r_hb_H_b_ov (1 + z) m (0 + z)) (ET 68 [(0 + z); c; j; k])))) (ESum (0 + z) 3 (EMul (r_hb_H_bb_voov (1 + z) c m j (0 + z)) (ET 66 [(0 + z); k])))) (ESum (0 + z) 0 (EMul (r_hb_H_ab_oooo (1 + z) (0 + z) m k j) (ET 66 [c; (0 + z)])))) (ESum (0 + z) 0 (ESum (1 + z) 1 (EMul (r_hb_H_ab_oovo (2 + z) (0 + z) m (1 + z) j) (ET 67 [(1 + z); c; (0 + z); k]))))) (ESum (0 + z) 2 (ESum (1 + z) 3 (EMul (r_hb_H_bb_ooov (2 + z) m (0 + z) j (1 + z)) (ET 68 [(1 + z); c; (0 + z); k]))))) (ESum (0 + z) 0 (ESum (1 + z) 1 (ESum (2 + z) 3 (EMul (ET 3 [(0 + z); m; (1 + z); (2 + z)]) (ET 70 [(1 + z); (2 + z); c; (0 + z); j; k])))))) (ESum (0 + z) 0 (ESum (1 + z) 3 (EMul (r_hb_H_ab_ooov (2 + z) (0 + z) m k (1 + z)) (ET 68 [(1 + z); c; j; (0 + z)]))))) (EScale (1) 2 (ESum (0 + z) 2 (ESum (1 + z) 3 (ESum (2 + z) 3 (EMul (ET 6 [(0 + z); m; (1 + z); (2 + z)]) (ET 71 [(1 + z); (2 + z); c; (0 + z); j; k]))))))) (ESum (0 + z) 1 (EMul (r_sfxr_x_ov (1 + z) m (0 + z)) (ET 11 [(0 + z); c; k; j])))) (EScale (1) 2 (ESum (0 + z) 3 (ESum (1 + z) 3 (EMul (r_hb_H_bb_vovv (2 + z) c m (0 + z) (1 + z)) (ET 68 [(1 + z); (0 + z); j; k])))))).
Definition r_sfxr_X_bb_vvvo (z b c e k : nat) : ex := (ESub (EAdd (ESub (EAdd (EAdd (EAdd (ESub (EScale (0) 1 (ESum (0 + z) 2 (EMul (r_hb_H_b_ov (1 + z) (0 + z) e) (ET 68 [b; c; (0 + z); k])))) (ESum (0 + z) 0 (EMul (r_hb_H_ab_ovov (1 + z) (0 + z) b k e) (ET 66 [c; (0 + z)])))) (EScale (1) 2 (ESum (0 + z) 3 (EMul (r_hb_H_bb_vvvv_1 (1 + z) b c e (0 + z)) (ET 66 [(0 + z); k]))))) (ESum (0 + z) 0 (ESum (1 + z) 1 (EMul (r_hb_H_ab_ovvv (2 + z) (0 + z) b (1 + z) e) (ET 67 [(1 + z); c; (0 + z); k]))))) (ESum (0 + z) 2 (ESum (1 + z) 3 (EMul (r_hb_H_bb_vovv (2 + z) b (0 + z) e (1 + z)) (ET 68 [(1 + z); c; (0 + z); k]))))) (EScale (1) 2 (ESum (0 + z) 0 (ESum (1 + z) 2 (ESum (2 + z) 1 (EMul (ET 3 [(0 + z); (1 + z); (2 + z); e]) (ET 70 [(2 + z); b; c; (0 + z); (1 + z); k]))))))) (EScale (1) 2 (ESum (0 + z) 0 (ESum (1 + z) 2 (EMul (r_hb_H_ab_ooov (2 + z) (0 + z) (1 + z) k e) (ET 68 [b; c; (1 + z); (0 + z)])))))) (EScale (1) 4 (ESum (0 + z) 2 (ESum (1 + z) 2 (ESum (2 + z) 3 (EMul (ET 6 [(0 + z); (1 + z); (2 + z); e]) (ET 71 [(2 + z); b; c; (0 + z); (1 + z); k]))))))).
Definition r_sfxr_X_bb_vvvo_1 (z b c e k : nat) : ex := (ESub (r_sfxr_X_bb_vvvo (0 + z) b c e k) (r_sfxr_X_bb_vvvo (0 + z) c b e k)).
Definition r_sfxr_X_bb_vvov (z b c j e : nat) : ex := (ESub (ESub (EAdd (ESub (ESub (EScale (0) 1 (ESum (0 + z) 0 (EMul (r_hb_H_a_ov (1 + z) (0 + z) e) (ET 68 [b; c; j; (0 + z)])))) (ESum (0 + z) 0 (EMul (r_hb_H_ab_ovvo (1 + z) (0 + z) b e j) (ET 66 [c; (0 + z)])))) (ESum (0 + z) 0 (ESum (1 + z) 3 (EMul (r_hb_H_ab_ovvv (2 + z) (0 + z) b e (1 + z)) (ET 68 [(1 + z); c; j; (0 + z)]))))) (EScale (1) 2 (ESum (0 + z) 0 (ESum (1 + z) 2 (EMul (r_hb_H_ab_oovo (2 + z) (0 + z) (1 + z) e j) (ET 68 [b; c; (1 + z); (0 + z)])))))) (EScale (1) 4 (ESum (0 + z) 0 (ESum (1 + z) 0 (ESum (2 + z) 1 (EMul (ET 1 [(0 + z); (1 + z); e; (2 + z)]) (ET 70 [(2 + z); b; c; (1 + z); j; (0 + z)]))))))) (EScale (1) 2 (ESum (0 + z) 0 (ESum (1 + z) 2 (ESum (2 + z) 3 (EMul (ET 3 [(0 + z); (1 + z); e; (2 + z)]) (ET 71 [(2 + z); b; c; (1 + z); j; (0 + z)]))))))).
Definition r_sfxr_X_bb_vvov_1 (z b c j e : nat) : ex := (ESub (r_sfxr_X_bb_vvov (0 + z) b c j e) (r_sfxr_X_bb_vvov (0 + z) c b j e)).
Definition r_sfxr_x1b (z a i : nat) : ex := (ESum (0 + z) 3 (EMul (r_hb_H_b_vv (1 + z) a (0 + z)) (ET 66 [(0 + z); i]))).
Definition r_sfxr_x1b_1 (z a i : nat) : ex := (ESub (r_sfxr_x1b (0 + z) a i) (ESum (0 + z) 0 (EMul (r_hb_H_a_oo (1 + z) (0 + z) i) (ET 66 [a; (0 + z)])))).
Definition r_sfxr_x1b_2 (z a i : nat) : ex := (ESub (r_sfxr_x1b_1 (0 + z) a i) (ESum (0 + z) 0 (ESum (1 + z) 3 (EMul (r_hb_H_ab_ovov (2 + z) (0 + z) a i (1 + z)) (ET 66 [(1 + z); (0 + z)]))))).
Definition r_sfxr_x1b_3 (z a i : nat) : ex := (EAdd (r_sfxr_x1b_2 (0 + z) a i) (ESum (0 + z) 0 (ESum (1 + z) 1 (EMul (r_hb_H_a_ov (2 + z) (0 + z) (1 + z)) (ET 67 [(1 + z); a; (0 + z); i]))))).
Definition r_sfxr_x1b_4 (z a i : nat) : ex := (EAdd (r_sfxr_x1b_3 (0 + z) a i) (ESum (0 + z) 2 (ESum (1 + z) 3 (EMul (r_hb_H_b_ov (2 + z) (0 + z) (1 + z)) (ET 68 [(1 + z); a; (0 + z); i]))))).
Definition r_sfxr_x1b_5 (z a i : nat) : ex := (ESub (r_sfxr_x1b_4 (0 + z) a i) (EScale (1) 2 (ESum (0 + z) 0 (ESum (1 + z) 0 (ESum (2 + z) 1 (EMul (r_hb_H_aa_ooov (3 + z) (0 + z) (1 + z) i (2 + z)) (ET 67 [(2 + z); a; (1 + z); (0 + z)]))))))).
Definition r_sfxr_x1b_6 (z a i : nat) : ex := (ESub (r_sfxr_x1b_5 (0 + z) a i) (ESum (0 + z) 0 (ESum (1 + z) 2 (ESum (2 + z) 3 (EMul (r_hb_H_ab_ooov (3 + z) (0 + z) (1 + z) i (2 + z)) (ET 68 [(2 + z); a; (1 + z); (0 + z)])))))).
Definition r_sfxr_x1b_7 (z a i : nat) : ex := (EAdd (r_sfxr_x1b_6 (0 + z) a i) (EScale (1) 2 (ESum (0 + z) 2 (ESum (1 + z) 3 (ESum (2 + z) 3 (EMul (r_hb_H_bb_vovv (3 + z) a (0 + z) (1 + z) (2 + z)) (ET 68 [(2 + z); (1 + z); (0 + z); i]))))))).
Definition r_sfxr_x1b_8 (z a i : nat) : ex := (EAdd (r_sfxr_x1b_7 (0 + z) a i) (ESum (0 + z) 0 (ESum (1 + z) 1 (ESum (2 + z) 3 (EMul (r_hb_H_ab_ovvv (3 + z) (0 + z) a (1 + z) (2 + z)) (ET 67 [(1 + z); (2 + z); (0 + z); i])))))).
Definition r_sfxr_x1b_9 (z a i : nat) : ex := (EAdd (r_sfxr_x1b_8 (0 + z) a i) (EScale (1) 4 (ESum (0 + z) 0 (ESum (1 + z) 0 (ESum (2 + z) 1 (ESum (3 + z) 1 (EMul (ET 1 [(0 + z); (1 + z); (2 + z); (3 + z)]) (ET 69 [(2 + z); (3 + z); a; (0 + z); (1 + z); i])))))))).
Definition r_sfxr_x1b_10 (z a i : nat) : ex := (EAdd (r_sfxr_x1b_9 (0 + z) a i) (ESum (0 + z) 0 (ESum (1 + z) 2 (ESum (2 + z) 1 (ESum (3 + z) 3 (EMul (ET 3 [(0 + z); (1 + z); (2 + z); (3 + z)]) (ET 70 [(2 + z); (3 + z); a; (0 + z); (1 + z); i]))))))).
Definition r_sfxr_x1b_11 (z a i : nat) : ex := (EAdd (r_sfxr_x1b_10 (0 + z) a i) (EScale (1) 4 (ESum (0 + z) 2 (ESum (1 + z) 2 (ESum (2 + z) 3 (ESum (3 + z) 3 (EMul (ET 6 [(0 + z); (1 + z); (2 + z); (3 + z)]) (ET 71 [(2 + z); (3 + z); a; (0 + z); (1 + z); i])))))))).
Definition r_sfxr_x2b (z a b i j : nat) : ex := (ESum (0 + z) 3 (EMul (r_hb_H_ab_vvov (1 + z) a b i (0 + z)) (ET 66 [(0 + z); j]))).
Definition r_sfxr_x2b_1 (z a b i j : nat) : ex := (ESub (r_sfxr_x2b (0 + z) a b i j) (EScale (1) 2 (ESum (0 + z) 0 (EMul (r_hb_H_aa_vooo (1 + z) a (0 + z) i j) (ET 66 [b; (0 + z)]))))).
Definition r_sfxr_x2b_2 (z a b i j : nat) : ex := (ESub (r_sfxr_x2b_1 (0 + z) a b i j) (ESum (0 + z) 0 (EMul (r_hb_H_a_oo (1 + z) (0 + z) i) (ET 67 [a; b; (0 + z); j])))).
Definition r_sfxr_x2b_3 (z a b i j : nat) : ex := (EAdd (r_sfxr_x2b_2 (0 + z) a b i j) (EScale (1) 2 (ESum (0 + z) 3 (EMul (r_hb_H_b_vv (1 + z) b (0 + z)) (ET 67 [a; (0 + z); i; j]))))).
Definition r_sfxr_x2b_4 (z a b i j : nat) : ex := (EAdd (r_sfxr_x2b_3 (0 + z) a b i j) (EScale (1) 2 (ESum (0 + z) 1 (EMul (r_hb_H_a_vv (1 + z) a (0 + z)) (ET 67 [(0 + z); b; i; j]))))).
Definition r_sfxr_x2b_5 (z a b i j : nat) : ex := (EAdd (r_sfxr_x2b_4 (0 + z) a b i j) (EScale (1) 4 (ESum (0 + z) 0 (ESum (1 + z) 0 (EMul (r_hb_H_aa_oooo_1 (2 + z) (0 + z) (1 + z) i j) (ET 67 [a; b; (0 + z); (1 + z)])))))).
Definition r_sfxr_x2b_6 (z a b i j : nat) : ex := (EAdd (r_sfxr_x2b_5 (0 + z) a b i j) (EScale (1) 2 (ESum (0 + z) 1 (ESum (1 + z) 3 (EMul (r_hb_H_ab_vvvv (2 + z) a b (0 + z) (1 + z)) (ET 67 [(0 + z); (1 + z); i; j])))))).
Definition r_sfxr_x2b_7 (z a b i j : nat) : ex := (EAdd (r_sfxr_x2b_6 (0 + z) a b i j) (ESum (0 + z) 0 (ESum (1 + z) 1 (EMul (r_hb_H_aa_voov (2 + z) a (0 + z) i (1 + z)) (ET 67 [(1 + z); b; (0 + z); j]))))).
Definition r_sfxr_x2b_8 (z a b i j : nat) : ex := (EAdd (r_sfxr_x2b_7 (0 + z) a b i j) (ESum (0 + z) 2 (ESum (1 + z) 3 (EMul (r_hb_H_ab_voov (2 + z) a (0 + z) i (1 + z)) (ET 68 [(1 + z); b; (0 + z); j]))))).
Definition r_sfxr_x2b_9 (z a b i j : nat) : ex := (ESub (r_sfxr_x2b_8 (0 + z) a b i j) (ESum (0 + z) 0 (ESum (1 + z) 3 (EMul (r_hb_H_ab_ovov (2 + z) (0 + z) b i (1 + z)) (ET 67 [a; (1 + z); (0 + z); j]))))).
Definition r_sfxr_x2b_10 (z a b i j : nat) : ex := (ESub (r_sfxr_x2b_9 (0 + z) a b i j) (ESum (0 + z) 2 (EMul (r_sfxr_x_oo (1 + z) (0 + z) j) (ET 11 [a; b; i; (0 + z)])))).
Definition r_sfxr_x2b_11 (z a b i j : nat) : ex := (EAdd (r_sfxr_x2b_10 (0 + z) a b i j) (EScale (1) 2 (ESum (0 + z) 1 (EMul (r_sfxr_x_vv (1 + z) b (0 + z)) (ET 10 [a; (0 + z); i; j]))))).
Definition r_sfxr_x2b_12 (z a b i j : nat) : ex := (EAdd (r_sfxr_x2b_11 (0 + z) a b i j) (EScale (1) 2 (ESum (0 + z) 0 (ESum (1 + z) 1 (EMul (r_hb_H_a_ov (2 + z) (0 + z) (1 + z)) (ET 69 [a; (1 + z); b; i; (0 + z); j])))))).
Definition r_sfxr_x2b_13 (z a b i j : nat) : ex := (EAdd (r_sfxr_x2b_12 (0 + z) a b i j) (EScale (1) 2 (ESum (0 + z) 2 (ESum (1 + z) 3 (EMul (r_hb_H_b_ov (2 + z) (0 + z) (1 + z)) (ET 70 [a; (1 + z); b; i; (0 + z); j])))))).
Definition r_sfxr_x2b_14 (z a b i j : nat) : ex := (ESub (r_sfxr_x2b_13 (0 + z) a b i j) (EScale (1) 2 (ESum (0 + z) 0 (ESum (1 + z) 0 (ESum (2 + z) 1 (EMul (r_hb_H_aa_ooov (3 + z) (0 + z) (1 + z) i (2 + z)) (ET 69 [a; (2 + z); b; (0 + z); (1 + z); j]))))))).
Definition r_sfxr_x2b_15 (z a b i j : nat) : ex := (ESub (r_sfxr_x2b_14 (0 + z) a b i j) (ESum (0 + z) 0 (ESum (1 + z) 2 (ESum (2 + z) 3 (EMul (r_hb_H_ab_ooov (3 + z) (0 + z) (1 + z) i (2 + z)) (ET 70 [a; (2 + z); b; (0 + z); (1 + z); j])))))).
Definition r_sfxr_x2b_16 (z a b i j : nat) : ex := (EAdd (r_sfxr_x2b_15 (0 + z) a b i j) (EScale (1) 4 (ESum (0 + z) 0 (ESum (1 + z) 1 (ESum (2 + z) 1 (EMul (r_hb_H_aa_vovv (3 + z) a (0 + z) (1 + z) (2 + z)) (ET 69 [(1 + z); (2 + z); b; i; (0 + z); j]))))))).
Definition r_sfxr_x2b_17 (z a b i j : nat) : ex := (EAdd (r_sfxr_x2b_16 (0 + z) a b i j) (EScale (1) 2 (ESum (0 + z) 2 (ESum (1 + z) 1 (ESum (2 + z) 3 (EMul (r_hb_H_ab_vovv (3 + z) a (0 + z) (1 + z) (2 + z)) (ET 70 [(1 + z); (2 + z); b; i; (0 + z); j]))))))).
Definition r_sfxr_x2b_18 (z a b i j : nat) : ex := (EAdd (r_sfxr_x2b_17 (0 + z) a b i j) (EScale (1) 2 (ESum (0 + z) 0 (ESum (1 + z) 1 (ESum (2 + z) 3 (EMul (r_hb_H_ab_ovvv (3 + z) (0 + z) b (1 + z) (2 + z)) (ET 69 [a; (1 + z); (2 + z); i; (0 + z); j]))))))).
Definition r_sfxr_x2b_19 (z a b i j : nat) : ex := (EAdd (r_sfxr_x2b_18 (0 + z) a b i j) (EScale (1) 4 (ESum (0 + z) 2 (ESum (1 + z) 3 (ESum (2 + z) 3 (EMul (r_hb_H_bb_vovv (3 + z) b (0 + z) (1 + z) (2 + z)) (ET 70 [a; (2 + z); (1 + z); i; (0 + z); j]))))))).
Definition r_sfxr_x2b_20 (z a b i j : nat) : ex := (ESub (r_sfxr_x2b_19 (0 + z) a b i j) (r_sfxr_x2b_19 (0 + z) a b j i)).
Definition r_sfxr_x2c (z a b i j : nat) : ex := (EScale (1) 2 (ESum (0 + z) 3 (EMul (r_hb_H_bb_vvov_1 (1 + z) a b i (0 + z)) (ET 66 [(0 + z); j])))).
Definition r_sfxr_x2c_1 (z a b i j : nat) : ex := (ESub (r_sfxr_x2c (0 + z) a b i j) (ESum (0 + z) 0 (EMul (r_hb_H_ab_ovoo (1 + z) (0 + z) a j i) (ET 66 [b; (0 + z)])))).
Definition r_sfxr_x2c_2 (z a b i j : nat) : ex := (ESub (r_sfxr_x2c_1 (0 + z) a b i j) (EScale (1) 2 (ESum (0 + z) 0 (EMul (r_hb_H_a_oo (1 + z) (0 + z) j) (ET 68 [a; b; i; (0 + z)]))))).
Definition r_sfxr_x2c_3 (z a b i j : nat) : ex := (ESub (r_sfxr_x2c_2 (0 + z) a b i j) (EScale (1) 2 (ESum (0 + z) 2 (EMul (r_hb_H_b_oo (1 + z) (0 + z) i) (ET 68 [a; b; (0 + z); j]))))).
Definition r_sfxr_x2c_4 (z a b i j : nat) : ex := (EAdd (r_sfxr_x2c_3 (0 + z) a b i j) (ESum (0 + z) 3 (EMul (r_hb_H_b_vv (1 + z) a (0 + z)) (ET 68 [(0 + z); b; i; j])))).
Definition r_sfxr_x2c_5 (z a b i j : nat) : ex := (EAdd (r_sfxr_x2c_4 (0 + z) a b i j) (EScale (1) 4 (ESum (0 + z) 3 (ESum (1 + z) 3 (EMul (r_hb_H_bb_vvvv_1 (2 + z) a b (0 + z) (1 + z)) (ET 68 [(0 + z); (1 + z); i; j])))))).
Definition r_sfxr_x2c_6 (z a b i j : nat) : ex := (EAdd (r_sfxr_x2c_5 (0 + z) a b i j) (EScale (1) 2 (ESum (0 + z) 0 (ESum (1 + z) 2 (EMul (r_hb_H_ab_oooo (2 + z) (0 + z) (1 + z) j i) (ET 68 [a; b; (1 + z); (0 + z)])))))).
Definition r_sfxr_x2c_7 (z a b i j : nat) : ex := (EAdd (r_sfxr_x2c_6 (0 + z) a b i j) (ESum (0 + z) 2 (ESum (1 + z) 3 (EMul (r_hb_H_bb_voov (2 + z) a (0 + z) i (1 + z)) (ET 68 [(1 + z); b; (0 + z); j]))))).
Definition r_sfxr_x2c_8 (z a b i j : nat) : ex := (EAdd (r_sfxr_x2c_7 (0 + z) a b i j) (ESum (0 + z) 0 (ESum (1 + z) 1 (EMul (r_hb_H_ab_ovvo (2 + z) (0 + z) a (1 + z) i) (ET 67 [(1 + z); b; (0 + z); j]))))).
Definition r_sfxr_x2c_9 (z a b i j : nat) : ex := (ESub (r_sfxr_x2c_8 (0 + z) a b i j) (ESum (0 + z) 0 (ESum (1 + z) 3 (EMul (r_hb_H_ab_ovov (2 + z) (0 + z) a j (1 + z)) (ET 68 [(1 + z); b; i; (0 + z)]))))).
Definition r_sfxr_x2c_10 (z a b i j : nat) : ex := (ESub (r_sfxr_x2c_9 (0 + z) a b i j) (EScale (1) 2 (ESum (0 + z) 2 (EMul (r_sfxr_x_oo (1 + z) (0 + z) j) (ET 18 [a; b; i; (0 + z)]))))).
Definition r_sfxr_x2c_11 (z a b i j : nat) : ex := (EAdd (r_sfxr_x2c_10 (0 + z) a b i j) (ESum (0 + z) 1 (EMul (r_sfxr_x_vv (1 + z) b (0 + z)) (ET 11 [(0 + z); a; j; i])))).
Definition r_sfxr_x2c_12 (z a b i j : nat) : ex := (EAdd (r_sfxr_x2c_11 (0 + z) a b i j) (EScale (1) 2 (ESum (0 + z) 0 (ESum (1 + z) 1 (EMul (r_hb_H_a_ov (2 + z) (0 + z) (1 + z)) (ET 70 [(1 + z); a; b; (0 + z); i; j])))))).
Definition r_sfxr_x2c_13 (z a b i j : nat) : ex := (EAdd (r_sfxr_x2c_12 (0 + z) a b i j) (EScale (1) 2 (ESum (0 + z) 2 (ESum (1 + z) 3 (EMul (r_hb_H_b_ov (2 + z) (0 + z) (1 + z)) (ET 71 [(1 + z); a; b; (0 + z); i; j])))))).
Definition r_sfxr_x2c_14 (z a b i j : nat) : ex := (ESub (r_sfxr_x2c_13 (0 + z) a b i j) (EScale (1) 2 (ESum (0 + z) 0 (ESum (1 + z) 2 (ESum (2 + z) 1 (EMul (r_hb_H_ab_oovo (3 + z) (0 + z) (1 + z) (2 + z) i) (ET 70 [(2 + z); a; b; (0 + z); (1 + z); j]))))))).
Definition r_sfxr_x2c_15 (z a b i j : nat) : ex := (ESub (r_sfxr_x2c_14 (0 + z) a b i j) (EScale (1) 4 (ESum (0 + z) 2 (ESum (1 + z) 2 (ESum (2 + z) 3 (EMul (r_hb_H_bb_ooov (3 + z) (0 + z) (1 + z) i (2 + z)) (ET 71 [(2 + z); a; b; (1 + z); (0 + z); j]))))))).
Definition r_sfxr_x2c_16 (z a b i j : nat) : ex := (ESub (r_sfxr_x2c_15 (0 + z) a b i j) (EScale (1) 4 (ESum (0 + z) 0 (ESum (1 + z) 0 (ESum (2 + z) 1 (EMul (r_hb_H_aa_ooov (3 + z) (0 + z) (1 + z) j (2 + z)) (ET 70 [(2 + z); a; b; (1 + z); i; (0 + z)]))))))).
Definition r_sfxr_x2c_17 (z a b i j : nat) : ex := (ESub (r_sfxr_x2c_16 (0 + z) a b i j) (EScale (1) 2 (ESum (0 + z) 0 (ESum (1 + z) 2 (ESum (2 + z) 3 (EMul (r_hb_H_ab_ooov (3 + z) (0 + z) (1 + z) j (2 + z)) (ET 71 [(2 + z); a; b; (1 + z); i; (0 + z)]))))))).
Definition r_sfxr_x2c_18 (z a b i j : nat) : ex := (EAdd (r_sfxr_x2c_17 (0 + z) a b i j) (ESum (0 + z) 0 (ESum (1 + z) 1 (ESum (2 + z) 3 (EMul (r_hb_H_ab_ovvv (3 + z) (0 + z) a (1 + z) (2 + z)) (ET 70 [(1 + z); (2 + z); b; (0 + z); i; j])))))).
Definition r_sfxr_x2c_19 (z a b i j : nat) : ex := (EAdd (r_sfxr_x2c_18 (0 + z) a b i j) (EScale (1) 2 (ESum (0 + z) 2 (ESum (1 + z) 3 (ESum (2 + z) 3 (EMul (r_hb_H_bb_vovv (3 + z) a (0 + z) (1 + z) (2 + z)) (ET 71 [(2 + z); (1 + z); b; (0 + z); i; j]))))))).
Definition r_sfxr_x2c_20 (z a b i j : nat) : ex := (ESub (r_sfxr_x2c_19 (0 + z) a b i j) (r_sfxr_x2c_19 (0 + z) b a i j)).
Definition r_sfxr_x3b (z a b c i j k : nat) : ex := (EScale (-1) 2 (ESum (0 + z) 0 (EMul (r_hb_H_aa_vooo (1 + z) a (0 + z) i j) (ET 67 [b; c; (0 + z); k])))).
Definition r_sfxr_x3b_1 (z a b c i j k : nat) : ex := (EAdd (r_sfxr_x3b (0 + z) a b c i j k) (EScale (1) 4 (ESum (0 + z) 1 (EMul (r_hb_H_aa_vvov_1 (1 + z) a b i (0 + z)) (ET 67 [(0 + z); c; j; k]))))).
Definition r_sfxr_x3b_2 (z a b c i j k : nat) : ex := (EAdd (r_sfxr_x3b_1 (0 + z) a b c i j k) (EScale (1) 2 (ESum (0 + z) 3 (EMul (r_hb_H_ab_vvov (1 + z) a c i (0 + z)) (ET 67 [b; (0 + z); j; k]))))).
Definition r_sfxr_x3b_3 (z a b c i j k : nat) : ex := (ESub (r_sfxr_x3b_2 (0 + z) a b c i j k) (EScale (1) 4 (ESum (0 + z) 0 (EMul (r_sfxr_X_ab_ovoo_1 (1 + z) (0 + z) c j k) (ET 10 [a; b; i; (0 + z)]))))).
Definition r_sfxr_x3b_4 (z a b c i j k : nat) : ex := (EAdd (r_sfxr_x3b_3 (0 + z) a b c i j k) (EScale (1) 2 (ESum (0 + z) 1 (EMul (r_sfxr_X_ab_vvvo (1 + z) b c (0 + z) k) (ET 10 [a; (0 + z); i; j]))))).
Definition r_sfxr_x3b_5 (z a b c i j k : nat) : ex := (ESub (r_sfxr_x3b_4 (0 + z) a b c i j k) (EScale (1) 2 (ESum (0 + z) 2 (EMul (r_sfxr_X_ab_vooo_1 (1 + z) a (0 + z) i k) (ET 11 [b; c; j; (0 + z)]))))).
Definition r_sfxr_x3b_6 (z a b c i j k : nat) : ex := (ESub (r_sfxr_x3b_5 (0 + z) a b c i j k) (EScale (1) 4 (ESum (0 + z) 0 (EMul (r_hb_H_a_oo (1 + z) (0 + z) j) (ET 69 [a; b; c; i; (0 + z); k]))))).
Definition r_sfxr_x3b_7 (z a b c i j k : nat) : ex := (EAdd (r_sfxr_x3b_6 (0 + z) a b c i j k) (EScale (1) 6 (ESum (0 + z) 1 (EMul (r_hb_H_a_vv (1 + z) b (0 + z)) (ET 69 [a; (0 + z); c; i; j; k]))))).
Definition r_sfxr_x3b_8 (z a b c i j k : nat) : ex := (EAdd (r_sfxr_x3b_7 (0 + z) a b c i j k) (EScale (1) 12 (ESum (0 + z) 3 (EMul (r_hb_H_b_vv (1 + z) c (0 + z)) (ET 69 [a; b; (0 + z); i; j; k]))))).
Definition r_sfxr_x3b_9 (z a b c i j k : nat) : ex := (EAdd (r_sfxr_x3b_8 (0 + z) a b c i j k) (EScale (1) 8 (ESum (0 + z) 0 (ESum (1 + z) 0 (EMul (r_hb_H_aa_oooo_1 (2 + z) (0 + z) (1 + z) i j) (ET 69 [a; b; c; (0 + z); (1 + z); k])))))).
Definition r_sfxr_x3b_10 (z a b c i j k : nat) : ex := (EAdd (r_sfxr_x3b_9 (0 + z) a b c i j k) (EScale (1) 24 (ESum (0 + z) 1 (ESum (1 + z) 1 (EMul (r_hb_H_aa_vvvv_1 (2 + z) a b (0 + z) (1 + z)) (ET 69 [(0 + z); (1 + z); c; i; j; k])))))).
Definition r_sfxr_x3b_11 (z a b c i j k : nat) : ex := (EAdd (r_sfxr_x3b_10 (0 + z) a b c i j k) (EScale (1) 6 (ESum (0 + z) 1 (ESum (1 + z) 3 (EMul (r_hb_H_ab_vvvv (2 + z) b c (0 + z) (1 + z)) (ET 69 [a; (0 + z); (1 + z); i; j; k])))))).
Definition r_sfxr_x3b_12 (z a b c i j k : nat) : ex := (EAdd (r_sfxr_x3b_11 (0 + z) a b c i j k) (EScale (1) 2 (ESum (0 + z) 0 (ESum (1 + z) 1 (EMul (r_hb_H_aa_voov (2 + z) a (0 + z) i (1 + z)) (ET 69 [b; (1 + z); c; j; (0 + z); k])))))).
Definition r_sfxr_x3b_13 (z a b c i j k : nat) : ex := (EAdd (r_sfxr_x3b_12 (0 + z) a b c i j k) (EScale (1) 2 (ESum (0 + z) 2 (ESum (1 + z) 3 (EMul (r_hb_H_ab_voov (2 + z) a (0 + z) i (1 + z)) (ET 70 [b; (1 + z); c; j; (0 + z); k])))))).
Definition r_sfxr_x3b_14 (z a b c i j k : nat) : ex := (ESub (r_sfxr_x3b_13 (0 + z) a b c i j k) (EScale (1) 4 (ESum (0 + z) 0 (ESum (1 + z) 3 (EMul (r_hb_H_ab_ovov (2 + z) (0 + z) c i (1 + z)) (ET 69 [a; b; (1 + z); (0 + z); j; k])))))).
Definition r_sfxr_x3b_15 (z a b c i j k : nat) : ex := (ESub (r_sfxr_x3b_14 (0 + z) a b c i j k) (r_sfxr_x3b_14 (0 + z) b a c i j k)).
Definition r_sfxr_x3b_16 (z a b c i j k : nat) : ex := (ESub (r_sfxr_x3b_15 (0 + z) a b c i j k) (r_sfxr_x3b_15 (0 + z) a b c i k j)).
Definition r_sfxr_x3b_17 (z a b c i j k : nat) : ex := (ESub (r_sfxr_x3b_16 (0 + z) a b c i j k) (EAdd (r_sfxr_x3b_16 (0 + z) a b c j i k) (r_sfxr_x3b_16 (0 + z) a b c k j i))).
Definition r_sfxr_x3c (z a b c i j k : nat) : ex := (EOpp (ESum (0 + z) 0 (EMul (r_hb_H_ab_ovoo (1 + z) (0 + z) b i j) (ET 67 [a; c; (0 + z); k])))).
Definition r_sfxr_x3c_1 (z a b c i j k : nat) : ex := (ESub (r_sfxr_x3c (0 + z) a b c i j k) (EScale (1) 4 (ESum (0 + z) 0 (EMul (r_hb_H_aa_vooo (1 + z) a (0 + z) i k) (ET 68 [b; c; j; (0 + z)]))))).
Definition r_sfxr_x3c_2 (z a b c i j k : nat) : ex := (ESub (r_sfxr_x3c_1 (0 + z) a b c i j k) (EScale (1) 2 (ESum (0 + z) 2 (EMul (r_hb_H_ab_vooo (1 + z) a (0 + z) i j) (ET 68 [b; c; (0 + z); k]))))).
Definition r_sfxr_x3c_3 (z a b c i j k : nat) : ex := (EAdd (r_sfxr_x3c_2 (0 + z) a b c i j k) (ESum (0 + z) 3 (EMul (r_hb_H_ab_vvov (1 + z) a b i (0 + z)) (ET 68 [(0 + z); c; j; k])))).
Definition r_sfxr_x3c_4 (z a b c i j k : nat) : ex := (EAdd (r_sfxr_x3c_3 (0 + z) a b c i j k) (EScale (1) 2 (ESum (0 + z) 1 (EMul (r_hb_H_ab_vvvo (1 + z) a b (0 + z) j) (ET 67 [(0 + z); c; i; k]))))).
Definition r_sfxr_x3c_5 (z a b c i j k : nat) : ex := (EAdd (r_sfxr_x3c_4 (0 + z) a b c i j k) (EScale (1) 4 (ESum (0 + z) 3 (EMul (r_hb_H_bb_vvov_1 (1 + z) b c j (0 + z)) (ET 67 [a; (0 + z); i; k]))))).
Definition r_sfxr_x3c_6 (z a b c i j k : nat) : ex := (ESub (r_sfxr_x3c_5 (0 + z) a b c i j k) (EScale (1) 2 (ESum (0 + z) 0 (EMul (r_sfxr_X_ab_ovoo_1 (1 + z) (0 + z) c i k) (ET 11 [a; b; (0 + z); j]))))).
Definition r_sfxr_x3c_7 (z a b c i j k : nat) : ex := (ESub (r_sfxr_x3c_6 (0 + z) a b c i j k) (ESum (0 + z) 2 (EMul (r_sfxr_X_bb_ovoo (1 + z) (0 + z) c j k) (ET 11 [a; b; i; (0 + z)])))).
Definition r_sfxr_x3c_8 (z a b c i j k : nat) : ex := (ESub (r_sfxr_x3c_7 (0 + z) a b c i j k) (EScale (1) 4 (ESum (0 + z) 2 (EMul (r_sfxr_X_ab_vooo_1 (1 + z) a (0 + z) i k) (ET 18 [b; c; j; (0 + z)]))))).
Definition r_sfxr_x3c_9 (z a b c i j k : nat) : ex := (EAdd (r_sfxr_x3c_8 (0 + z) a b c i j k) (ESum (0 + z) 1 (EMul (r_sfxr_X_ab_vvvo (1 + z) a c (0 + z) k) (ET 11 [(0 + z); b; i; j])))).
Definition r_sfxr_x3c_10 (z a b c i j k : nat) : ex := (EAdd (r_sfxr_x3c_9 (0 + z) a b c i j k) (EScale (1) 2 (ESum (0 + z) 3 (EMul (r_sfxr_X_bb_vvvo_1 (1 + z) b c (0 + z) k) (ET 11 [a; (0 + z); i; j]))))).
Definition r_sfxr_x3c_11 (z a b c i j k : nat) : ex := (EAdd (r_sfxr_x3c_10 (0 + z) a b c i j k) (EScale (1) 4 (ESum (0 + z) 1 (EMul (r_sfxr_X_bb_vvov_1 (1 + z) b c j (0 + z)) (ET 10 [a; (0 + z); i; k]))))).
Definition r_sfxr_x3c_12 (z a b c i j k : nat) : ex := (ESub (r_sfxr_x3c_11 (0 + z) a b c i j k) (EScale (1) 2 (ESum (0 + z) 0 (EMul (r_hb_H_a_oo (1 + z) (0 + z) i) (ET 70 [a; b; c; (0 + z); j; k]))))).
Definition r_sfxr_x3c_13 (z a b c i j k : nat) : ex := (ESub (r_sfxr_x3c_12 (0 + z) a b c i j k) (EScale (1) 4 (ESum (0 + z) 2 (EMul (r_hb_H_b_oo (1 + z) (0 + z) j) (ET 70 [a; b; c; i; (0 + z); k]))))).
Definition r_sfxr_x3c_14 (z a b c i j k : nat) : ex := (EAdd (r_sfxr_x3c_13 (0 + z) a b c i j k) (EScale (1) 4 (ESum (0 + z) 1 (EMul (r_hb_H_a_vv (1 + z) a (0 + z)) (ET 70 [(0 + z); b; c; i; j; k]))))).
Definition r_sfxr_x3c_15 (z a b c i j k : nat) : ex := (EAdd (r_sfxr_x3c_14 (0 + z) a b c i j k) (EScale (1) 2 (ESum (0 + z) 3 (EMul (r_hb_H_b_vv (1 + z) b (0 + z)) (ET 70 [a; (0 + z); c; i; j; k]))))).
Definition r_sfxr_x3c_16 (z a b c i j k : nat) : ex := (EAdd (r_sfxr_x3c_15 (0 + z) a b c i j k) (EScale (1) 8 (ESum (0 + z) 0 (ESum (1 + z) 0 (EMul (r_hb_H_aa_oooo_1 (2 + z) (0 + z) (1 + z) i k) (ET 70 [a; b; c; (0 + z); j; (1 + z)])))))).
Definition r_sfxr_x3c_17 (z a b c i j k : nat) : ex := (EAdd (r_sfxr_x3c_16 (0 + z) a b c i j k) (EScale (1) 2 (ESum (0 + z) 0 (ESum (1 + z) 2 (EMul (r_hb_H_ab_oooo (2 + z) (0 + z) (1 + z) i j) (ET 70 [a; b; c; (0 + z); (1 + z); k])))))).
Definition r_sfxr_x3c_18 (z a b c i j k : nat) : ex := (EAdd (r_sfxr_x3c_17 (0 + z) a b c i j k) (EScale (1) 2 (ESum (0 + z) 1 (ESum (1 + z) 3 (EMul (r_hb_H_ab_vvvv (2 + z) a c (0 + z) (1 + z)) (ET 70 [(0 + z); b; (1 + z); i; j; k])))))).
Definition r_sfxr_x3c_19 (z a b c i j k : nat) : ex := (EAdd (r_sfxr_x3c_18 (0 + z) a b c i j k) (EScale (1) 8 (ESum (0 + z) 3 (ESum (1 + z) 3 (EMul (r_hb_H_bb_vvvv_1 (2 + z) b c (0 + z) (1 + z)) (ET 70 [a; (0 + z); (1 + z); i; j; k])))))).
Definition r_sfxr_x3c_20 (z a b c i j k : nat) : ex := (EAdd (r_sfxr_x3c_19 (0 + z) a b c i j k) (EScale (1) 2 (ESum (0 + z) 0 (ESum (1 + z) 1 (EMul (r_hb_H_aa_voov (2 + z) a (0 + z) i (1 + z)) (ET 70 [(1 + z); b; c; (0 + z); j; k])))))).
Definition r_sfxr_x3c_21 (z a b c i j k : nat) : ex := (EAdd (r_sfxr_x3c_20 (0 + z) a b c i j k) (EScale (1) 2 (ESum (0 + z) 2 (ESum (1 + z) 3 (EMul (r_hb_H_ab_voov (2 + z) a (0 + z) i (1 + z)) (ET 71 [(1 + z); b; c; (0 + z); j; k])))))).
Definition r_sfxr_x3c_22 (z a b c i j k : nat) : ex := (EAdd (r_sfxr_x3c_21 (0 + z) a b c i j k) (EScale (1) 2 (ESum (0 + z) 0 (ESum (1 + z) 1 (EMul (r_hb_H_ab_ovvo (2 + z) (0 + z) b (1 + z) j) (ET 69 [a; (1 + z); c; i; (0 + z); k])))))).
Definition r_sfxr_x3c_23 (z a b c i j k : nat) : ex := (EAdd (r_sfxr_x3c_22 (0 + z) a b c i j k) (EScale (1) 2 (ESum (0 + z) 2 (ESum (1 + z) 3 (EMul (r_hb_H_bb_voov (2 + z) b (0 + z) j (1 + z)) (ET 70 [a; (1 + z); c; i; (0 + z); k])))))).
Definition r_sfxr_x3c_24 (z a b c i j k : nat) : ex := (ESub (r_sfxr_x3c_23 (0 + z) a b c i j k) (EScale (1) 4 (ESum (0 + z) 2 (ESum (1 + z) 1 (EMul (r_hb_H_ab_vovo (2 + z) a (0 + z) (1 + z) j) (ET 70 [(1 + z); b; c; i; (0 + z); k])))))).
Definition r_sfxr_x3c_25 (z a b c i j k : nat) : ex := (ESub (r_sfxr_x3c_24 (0 + z) a b c i j k) (ESum (0 + z) 0 (ESum (1 + z) 3 (EMul (r_hb_H_ab_ovov (2 + z) (0 + z) b i (1 + z)) (ET 70 [a; (1 + z); c; (0 + z); j; k]))))).
Definition r_sfxr_x3c_26 (z a b c i j k : nat) : ex := (ESub (r_sfxr_x3c_25 (0 + z) a b c i j k) (r_sfxr_x3c_25 (0 + z) a c b i j k)).
Definition r_sfxr_x3c_27 (z a b c i j k : nat) : ex := (ESub (r_sfxr_x3c_26 (0 + z) a b c i j k) (r_sfxr_x3c_26 (0 + z) a b c k j i)).
Definition r_sfxr_x3d (z a b c i j k : nat) : ex := (EScale (-1) 4 (ESum (0 + z) 2 (EMul (r_hb_H_bb_vooo (1 + z) a (0 + z) i j) (ET 68 [b; c; (0 + z); k])))).
Definition r_sfxr_x3d_1 (z a b c i j k : nat) : ex := (ESub (r_sfxr_x3d (0 + z) a b c i j k) (EScale (1) 2 (ESum (0 + z) 0 (EMul (r_hb_H_ab_ovoo (1 + z) (0 + z) a k i) (ET 68 [b; c; j; (0 + z)]))))).
Definition r_sfxr_x3d_2 (z a b c i j k : nat) : ex := (EAdd (r_sfxr_x3d_1 (0 + z) a b c i j k) (EScale (1) 2 (ESum (0 + z) 3 (EMul (r_hb_H_bb_vvov_1 (1 + z) a b i (0 + z)) (ET 68 [(0 + z); c; j; k]))))).
Definition r_sfxr_x3d_3 (z a b c i j k : nat) : ex := (ESub (r_sfxr_x3d_2 (0 + z) a b c i j k) (EScale (1) 2 (ESum (0 + z) 2 (EMul (r_sfxr_X_bb_ovoo (1 + z) (0 + z) c j k) (ET 18 [a; b; i; (0 + z)]))))).
Definition r_sfxr_x3d_4 (z a b c i j k : nat) : ex := (EAdd (r_sfxr_x3d_3 (0 + z) a b c i j k) (EScale (1) 2 (ESum (0 + z) 1 (EMul (r_sfxr_X_bb_vvov_1 (1 + z) b c j (0 + z)) (ET 11 [(0 + z); a; k; i]))))).
Definition r_sfxr_x3d_5 (z a b c i j k : nat) : ex := (EAdd (r_sfxr_x3d_4 (0 + z) a b c i j k) (EScale (1) 4 (ESum (0 + z) 3 (EMul (r_sfxr_X_bb_vvvo_1 (1 + z) b c (0 + z) k) (ET 18 [a; (0 + z); i; j]))))).
Definition r_sfxr_x3d_6 (z a b c i j k : nat) : ex := (ESub (r_sfxr_x3d_5 (0 + z) a b c i j k) (EScale (1) 6 (ESum (0 + z) 2 (EMul (r_hb_H_b_oo (1 + z) (0 + z) i) (ET 71 [a; b; c; (0 + z); j; k]))))).
Definition r_sfxr_x3d_7 (z a b c i j k : nat) : ex := (ESub (r_sfxr_x3d_6 (0 + z) a b c i j k) (EScale (1) 12 (ESum (0 + z) 0 (EMul (r_hb_H_a_oo (1 + z) (0 + z) k) (ET 71 [a; b; c; i; j; (0 + z)]))))).
Definition r_sfxr_x3d_8 (z a b c i j k : nat) : ex := (EAdd (r_sfxr_x3d_7 (0 + z) a b c i j k) (EScale (1) 4 (ESum (0 + z) 3 (EMul (r_hb_H_b_vv (1 + z) c (0 + z)) (ET 71 [a; b; (0 + z); i; j; k]))))).
Definition r_sfxr_x3d_9 (z a b c i j k : nat) : ex := (EAdd (r_sfxr_x3d_8 (0 + z) a b c i j k) (EScale (1) 24 (ESum (0 + z) 2 (ESum (1 + z) 2 (EMul (r_hb_H_bb_oooo_1 (2 + z) (0 + z) (1 + z) i j) (ET 71 [a; b; c; (0 + z); (1 + z); k])))))).
Definition r_sfxr_x3d_10 (z a b c i j k : nat) : ex := (EAdd (r_sfxr_x3d_9 (0 + z) a b c i j k) (EScale (1) 6 (ESum (0 + z) 0 (ESum (1 + z) 2 (EMul (r_hb_H_ab_oooo (2 + z) (0 + z) (1 + z) k j) (ET 71 [a; b; c; i; (1 + z); (0 + z)])))))).
Definition r_sfxr_x3d_11 (z a b c i j k : nat) : ex := (EAdd (r_sfxr_x3d_10 (0 + z) a b c i j k) (EScale (1) 8 (ESum (0 + z) 3 (ESum (1 + z) 3 (EMul (r_hb_H_bb_vvvv_1 (2 + z) a b (0 + z) (1 + z)) (ET 71 [(0 + z); (1 + z); c; i; j; k])))))).
Definition r_sfxr_x3d_12 (z a b c i j k : nat) : ex := (EAdd (r_sfxr_x3d_11 (0 + z) a b c i j k) (EScale (1) 2 (ESum (0 + z) 0 (ESum (1 + z) 1 (EMul (r_hb_H_ab_ovvo (2 + z) (0 + z) a (1 + z) i) (ET 70 [(1 + z); b; c; (0 + z); j; k])))))).
Definition r_sfxr_x3d_13 (z a b c i j k : nat) : ex := (EAdd (r_sfxr_x3d_12 (0 + z) a b c i j k) (EScale (1) 2 (ESum (0 + z) 2 (ESum (1 + z) 3 (EMul (r_hb_H_bb_voov (2 + z) a (0 + z) i (1 + z)) (ET 71 [(1 + z); b; c; (0 + z); j; k])))))).
Definition r_sfxr_x3d_14 (z a b c i j k : nat) : ex := (ESub (r_sfxr_x3d_13 (0 + z) a b c i j k) (EScale (1) 4 (ESum (0 + z) 0 (ESum (1 + z) 3 (EMul (r_hb_H_ab_ovov (2 + z) (0 + z) b k (1 + z)) (ET 71 [a; (1 + z); c; i; j; (0 + z)])))))).
Definition r_sfxr_x3d_15 (z a b c i j k : nat) : ex := (ESub (r_sfxr_x3d_14 (0 + z) a b c i j k) (r_sfxr_x3d_14 (0 + z) a b c j i k)).
Definition r_sfxr_x3d_16 (z a b c i j k : nat) : ex := (ESub (r_sfxr_x3d_15 (0 + z) a b c i j k) (r_sfxr_x3d_15 (0 + z) a c b i j k)).
Definition r_sfxr_x3d_17 (z a b c i j k : nat) : ex := (ESub (r_sfxr_x3d_16 (0 + z) a b c i j k) (EAdd (r_sfxr_x3d_16 (0 + z) b a c i j k) (r_sfxr_x3d_16 (0 + z) c b a i j k))).
Definition s_sfx_b := r_sfxr_x1b_11.
Definition s_sfx_ab := r_sfxr_x2b_20.
Definition s_sfx_bb := r_sfxr_x2c_20.
Definition s_sfx_aab := r_sfxr_x3b_17.
Definition s_sfx_abb := r_sfxr_x3c_27.
Definition s_sfx_bbb := r_sfxr_x3d_17.
