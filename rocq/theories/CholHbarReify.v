(** Generated by tools/gen_cholhbar.py: reified Hbar programs, dense and with Cholesky vectors (proof support). *)
From Coq Require Import Reals Arith List ZArith.
From Verif Require Import RSum IntegralsModel TensorObjs TensorAlg CholLoops CcsdModel EomModel CholEomModel.
Import ListNotations.
Open Scope R_scope.
Local Open Scope nat_scope.
Definition b_aa_oooo (z p q r s : nat) : ex := (ESub (ESum (0 + z) 4 (EMul (ET 0 [(0 + z); p; r]) (ET 0 [(0 + z); q; s]))) (ESum (0 + z) 4 (EMul (ET 0 [(0 + z); p; s]) (ET 0 [(0 + z); q; r])))).
Definition b_aa_ooov (z p q r s : nat) : ex := (ESub (ESum (0 + z) 4 (EMul (ET 0 [(0 + z); p; r]) (ET 1 [(0 + z); q; s]))) (ESum (0 + z) 4 (EMul (ET 1 [(0 + z); p; s]) (ET 0 [(0 + z); q; r])))).
Definition b_aa_oovo (z p q r s : nat) : ex := (ESub (ESum (0 + z) 4 (EMul (ET 1 [(0 + z); p; r]) (ET 0 [(0 + z); q; s]))) (ESum (0 + z) 4 (EMul (ET 0 [(0 + z); p; s]) (ET 1 [(0 + z); q; r])))).
Definition b_aa_oovv (z p q r s : nat) : ex := (ESub (ESum (0 + z) 4 (EMul (ET 1 [(0 + z); p; r]) (ET 1 [(0 + z); q; s]))) (ESum (0 + z) 4 (EMul (ET 1 [(0 + z); p; s]) (ET 1 [(0 + z); q; r])))).
Definition b_aa_ovoo (z p q r s : nat) : ex := (ESub (ESum (0 + z) 4 (EMul (ET 0 [(0 + z); p; r]) (ET 2 [(0 + z); q; s]))) (ESum (0 + z) 4 (EMul (ET 0 [(0 + z); p; s]) (ET 2 [(0 + z); q; r])))).
Definition b_aa_ovov (z p q r s : nat) : ex := (ESub (ESum (0 + z) 4 (EMul (ET 0 [(0 + z); p; r]) (ET 3 [(0 + z); q; s]))) (ESum (0 + z) 4 (EMul (ET 1 [(0 + z); p; s]) (ET 2 [(0 + z); q; r])))).
Definition b_aa_ovvo (z p q r s : nat) : ex := (ESub (ESum (0 + z) 4 (EMul (ET 1 [(0 + z); p; r]) (ET 2 [(0 + z); q; s]))) (ESum (0 + z) 4 (EMul (ET 0 [(0 + z); p; s]) (ET 3 [(0 + z); q; r])))).
Definition b_aa_ovvv (z p q r s : nat) : ex := (ESub (ESum (0 + z) 4 (EMul (ET 1 [(0 + z); p; r]) (ET 3 [(0 + z); q; s]))) (ESum (0 + z) 4 (EMul (ET 1 [(0 + z); p; s]) (ET 3 [(0 + z); q; r])))).
Definition b_aa_vooo (z p q r s : nat) : ex := (ESub (ESum (0 + z) 4 (EMul (ET 2 [(0 + z); p; r]) (ET 0 [(0 + z); q; s]))) (ESum (0 + z) 4 (EMul (ET 2 [(0 + z); p; s]) (ET 0 [(0 + z); q; r])))).
Definition b_aa_voov (z p q r s : nat) : ex := (ESub (ESum (0 + z) 4 (EMul (ET 2 [(0 + z); p; r]) (ET 1 [(0 + z); q; s]))) (ESum (0 + z) 4 (EMul (ET 3 [(0 + z); p; s]) (ET 0 [(0 + z); q; r])))).
Definition b_aa_vovo (z p q r s : nat) : ex := (ESub (ESum (0 + z) 4 (EMul (ET 3 [(0 + z); p; r]) (ET 0 [(0 + z); q; s]))) (ESum (0 + z) 4 (EMul (ET 2 [(0 + z); p; s]) (ET 1 [(0 + z); q; r])))).
Definition b_aa_vovv (z p q r s : nat) : ex := (ESub (ESum (0 + z) 4 (EMul (ET 3 [(0 + z); p; r]) (ET 1 [(0 + z); q; s]))) (ESum (0 + z) 4 (EMul (ET 3 [(0 + z); p; s]) (ET 1 [(0 + z); q; r])))).
Definition b_aa_vvoo (z p q r s : nat) : ex := (ESub (ESum (0 + z) 4 (EMul (ET 2 [(0 + z); p; r]) (ET 2 [(0 + z); q; s]))) (ESum (0 + z) 4 (EMul (ET 2 [(0 + z); p; s]) (ET 2 [(0 + z); q; r])))).
Definition b_aa_vvov (z p q r s : nat) : ex := (ESub (ESum (0 + z) 4 (EMul (ET 2 [(0 + z); p; r]) (ET 3 [(0 + z); q; s]))) (ESum (0 + z) 4 (EMul (ET 3 [(0 + z); p; s]) (ET 2 [(0 + z); q; r])))).
Definition b_aa_vvvo (z p q r s : nat) : ex := (ESub (ESum (0 + z) 4 (EMul (ET 3 [(0 + z); p; r]) (ET 2 [(0 + z); q; s]))) (ESum (0 + z) 4 (EMul (ET 2 [(0 + z); p; s]) (ET 3 [(0 + z); q; r])))).
Definition b_aa_vvvv (z p q r s : nat) : ex := (ESub (ESum (0 + z) 4 (EMul (ET 3 [(0 + z); p; r]) (ET 3 [(0 + z); q; s]))) (ESum (0 + z) 4 (EMul (ET 3 [(0 + z); p; s]) (ET 3 [(0 + z); q; r])))).
Definition b_ab_oooo (z p q r s : nat) : ex := (ESum (0 + z) 4 (EMul (ET 0 [(0 + z); p; r]) (ET 4 [(0 + z); q; s]))).
Definition b_ab_ooov (z p q r s : nat) : ex := (ESum (0 + z) 4 (EMul (ET 0 [(0 + z); p; r]) (ET 5 [(0 + z); q; s]))).
Definition b_ab_oovo (z p q r s : nat) : ex := (ESum (0 + z) 4 (EMul (ET 1 [(0 + z); p; r]) (ET 4 [(0 + z); q; s]))).
Definition b_ab_oovv (z p q r s : nat) : ex := (ESum (0 + z) 4 (EMul (ET 1 [(0 + z); p; r]) (ET 5 [(0 + z); q; s]))).
Definition b_ab_ovoo (z p q r s : nat) : ex := (ESum (0 + z) 4 (EMul (ET 0 [(0 + z); p; r]) (ET 6 [(0 + z); q; s]))).
Definition b_ab_ovov (z p q r s : nat) : ex := (ESum (0 + z) 4 (EMul (ET 0 [(0 + z); p; r]) (ET 7 [(0 + z); q; s]))).
Definition b_ab_ovvo (z p q r s : nat) : ex := (ESum (0 + z) 4 (EMul (ET 1 [(0 + z); p; r]) (ET 6 [(0 + z); q; s]))).
Definition b_ab_ovvv (z p q r s : nat) : ex := (ESum (0 + z) 4 (EMul (ET 1 [(0 + z); p; r]) (ET 7 [(0 + z); q; s]))).
Definition b_ab_vooo (z p q r s : nat) : ex := (ESum (0 + z) 4 (EMul (ET 2 [(0 + z); p; r]) (ET 4 [(0 + z); q; s]))).
Definition b_ab_voov (z p q r s : nat) : ex := (ESum (0 + z) 4 (EMul (ET 2 [(0 + z); p; r]) (ET 5 [(0 + z); q; s]))).
Definition b_ab_vovo (z p q r s : nat) : ex := (ESum (0 + z) 4 (EMul (ET 3 [(0 + z); p; r]) (ET 4 [(0 + z); q; s]))).
Definition b_ab_vovv (z p q r s : nat) : ex := (ESum (0 + z) 4 (EMul (ET 3 [(0 + z); p; r]) (ET 5 [(0 + z); q; s]))).
Definition b_ab_vvoo (z p q r s : nat) : ex := (ESum (0 + z) 4 (EMul (ET 2 [(0 + z); p; r]) (ET 6 [(0 + z); q; s]))).
Definition b_ab_vvov (z p q r s : nat) : ex := (ESum (0 + z) 4 (EMul (ET 2 [(0 + z); p; r]) (ET 7 [(0 + z); q; s]))).
Definition b_ab_vvvo (z p q r s : nat) : ex := (ESum (0 + z) 4 (EMul (ET 3 [(0 + z); p; r]) (ET 6 [(0 + z); q; s]))).
Definition b_ab_vvvv (z p q r s : nat) : ex := (ESum (0 + z) 4 (EMul (ET 3 [(0 + z); p; r]) (ET 7 [(0 + z); q; s]))).
Definition b_bb_oooo (z p q r s : nat) : ex := (ESub (ESum (0 + z) 4 (EMul (ET 4 [(0 + z); p; r]) (ET 4 [(0 + z); q; s]))) (ESum (0 + z) 4 (EMul (ET 4 [(0 + z); p; s]) (ET 4 [(0 + z); q; r])))).
Definition b_bb_ooov (z p q r s : nat) : ex := (ESub (ESum (0 + z) 4 (EMul (ET 4 [(0 + z); p; r]) (ET 5 [(0 + z); q; s]))) (ESum (0 + z) 4 (EMul (ET 5 [(0 + z); p; s]) (ET 4 [(0 + z); q; r])))).
Definition b_bb_oovo (z p q r s : nat) : ex := (ESub (ESum (0 + z) 4 (EMul (ET 5 [(0 + z); p; r]) (ET 4 [(0 + z); q; s]))) (ESum (0 + z) 4 (EMul (ET 4 [(0 + z); p; s]) (ET 5 [(0 + z); q; r])))).
Definition b_bb_oovv (z p q r s : nat) : ex := (ESub (ESum (0 + z) 4 (EMul (ET 5 [(0 + z); p; r]) (ET 5 [(0 + z); q; s]))) (ESum (0 + z) 4 (EMul (ET 5 [(0 + z); p; s]) (ET 5 [(0 + z); q; r])))).
Definition b_bb_ovoo (z p q r s : nat) : ex := (ESub (ESum (0 + z) 4 (EMul (ET 4 [(0 + z); p; r]) (ET 6 [(0 + z); q; s]))) (ESum (0 + z) 4 (EMul (ET 4 [(0 + z); p; s]) (ET 6 [(0 + z); q; r])))).
Definition b_bb_ovov (z p q r s : nat) : ex := (ESub (ESum (0 + z) 4 (EMul (ET 4 [(0 + z); p; r]) (ET 7 [(0 + z); q; s]))) (ESum (0 + z) 4 (EMul (ET 5 [(0 + z); p; s]) (ET 6 [(0 + z); q; r])))).
Definition b_bb_ovvo (z p q r s : nat) : ex := (ESub (ESum (0 + z) 4 (EMul (ET 5 [(0 + z); p; r]) (ET 6 [(0 + z); q; s]))) (ESum (0 + z) 4 (EMul (ET 4 [(0 + z); p; s]) (ET 7 [(0 + z); q; r])))).
Definition b_bb_ovvv (z p q r s : nat) : ex := (ESub (ESum (0 + z) 4 (EMul (ET 5 [(0 + z); p; r]) (ET 7 [(0 + z); q; s]))) (ESum (0 + z) 4 (EMul (ET 5 [(0 + z); p; s]) (ET 7 [(0 + z); q; r])))).
Definition b_bb_vooo (z p q r s : nat) : ex := (ESub (ESum (0 + z) 4 (EMul (ET 6 [(0 + z); p; r]) (ET 4 [(0 + z); q; s]))) (ESum (0 + z) 4 (EMul (ET 6 [(0 + z); p; s]) (ET 4 [(0 + z); q; r])))).
Definition b_bb_voov (z p q r s : nat) : ex := (ESub (ESum (0 + z) 4 (EMul (ET 6 [(0 + z); p; r]) (ET 5 [(0 + z); q; s]))) (ESum (0 + z) 4 (EMul (ET 7 [(0 + z); p; s]) (ET 4 [(0 + z); q; r])))).
Definition b_bb_vovo (z p q r s : nat) : ex := (ESub (ESum (0 + z) 4 (EMul (ET 7 [(0 + z); p; r]) (ET 4 [(0 + z); q; s]))) (ESum (0 + z) 4 (EMul (ET 6 [(0 + z); p; s]) (ET 5 [(0 + z); q; r])))).
Definition b_bb_vovv (z p q r s : nat) : ex := (ESub (ESum (0 + z) 4 (EMul (ET 7 [(0 + z); p; r]) (ET 5 [(0 + z); q; s]))) (ESum (0 + z) 4 (EMul (ET 7 [(0 + z); p; s]) (ET 5 [(0 + z); q; r])))).
Definition b_bb_vvoo (z p q r s : nat) : ex := (ESub (ESum (0 + z) 4 (EMul (ET 6 [(0 + z); p; r]) (ET 6 [(0 + z); q; s]))) (ESum (0 + z) 4 (EMul (ET 6 [(0 + z); p; s]) (ET 6 [(0 + z); q; r])))).
Definition b_bb_vvov (z p q r s : nat) : ex := (ESub (ESum (0 + z) 4 (EMul (ET 6 [(0 + z); p; r]) (ET 7 [(0 + z); q; s]))) (ESum (0 + z) 4 (EMul (ET 7 [(0 + z); p; s]) (ET 6 [(0 + z); q; r])))).
Definition b_bb_vvvo (z p q r s : nat) : ex := (ESub (ESum (0 + z) 4 (EMul (ET 7 [(0 + z); p; r]) (ET 6 [(0 + z); q; s]))) (ESum (0 + z) 4 (EMul (ET 6 [(0 + z); p; s]) (ET 7 [(0 + z); q; r])))).
Definition b_bb_vvvv (z p q r s : nat) : ex := (ESub (ESum (0 + z) 4 (EMul (ET 7 [(0 + z); p; r]) (ET 7 [(0 + z); q; s]))) (ESum (0 + z) 4 (EMul (ET 7 [(0 + z); p; s]) (ET 7 [(0 + z); q; r])))).
Definition r_hb_H_a_ov (z i a : nat) : ex := (EAdd (ET 8 [i; a]) (EAdd (ESum (0 + z) 0 (ESum (1 + z) 1 (EMul (b_aa_oovv (2 + z) i (0 + z) a (1 + z)) (ET 9 [(1 + z); (0 + z)])))) (ESum (0 + z) 2 (ESum (1 + z) 3 (EMul (b_ab_oovv (2 + z) i (0 + z) a (1 + z)) (ET 10 [(1 + z); (0 + z)])))))).
Definition r_hb_H_a_oo (z i j : nat) : ex := (EAdd (ET 11 [i; j]) (EAdd (EAdd (EAdd (EAdd (ESum (0 + z) 1 (EMul (r_hb_H_a_ov (1 + z) i (0 + z)) (ET 9 [(0 + z); j]))) (ESum (0 + z) 0 (ESum (1 + z) 1 (EMul (b_aa_ooov (2 + z) i (0 + z) j (1 + z)) (ET 9 [(1 + z); (0 + z)]))))) (ESum (0 + z) 2 (ESum (1 + z) 3 (EMul (b_ab_ooov (2 + z) i (0 + z) j (1 + z)) (ET 10 [(1 + z); (0 + z)]))))) (EScale (1) 2 (ESum (0 + z) 0 (ESum (1 + z) 1 (ESum (2 + z) 1 (EMul (b_aa_oovv (3 + z) i (0 + z) (1 + z) (2 + z)) (ET 12 [(1 + z); (2 + z); j; (0 + z)]))))))) (ESum (0 + z) 2 (ESum (1 + z) 1 (ESum (2 + z) 3 (EMul (b_ab_oovv (3 + z) i (0 + z) (1 + z) (2 + z)) (ET 13 [(1 + z); (2 + z); j; (0 + z)]))))))).
Definition r_hb_H_a_vv (z a b : nat) : ex := (EAdd (ET 14 [a; b]) (ESub (ESub (EAdd (EAdd (EOpp (ESum (0 + z) 0 (EMul (r_hb_H_a_ov (1 + z) (0 + z) b) (ET 9 [a; (0 + z)])))) (ESum (0 + z) 0 (ESum (1 + z) 1 (EMul (b_aa_vovv (2 + z) a (0 + z) b (1 + z)) (ET 9 [(1 + z); (0 + z)]))))) (ESum (0 + z) 2 (ESum (1 + z) 3 (EMul (b_ab_vovv (2 + z) a (0 + z) b (1 + z)) (ET 10 [(1 + z); (0 + z)]))))) (EScale (1) 2 (ESum (0 + z) 0 (ESum (1 + z) 0 (ESum (2 + z) 1 (EMul (b_aa_oovv (3 + z) (0 + z) (1 + z) b (2 + z)) (ET 12 [a; (2 + z); (0 + z); (1 + z)]))))))) (ESum (0 + z) 0 (ESum (1 + z) 2 (ESum (2 + z) 3 (EMul (b_ab_oovv (3 + z) (0 + z) (1 + z) b (2 + z)) (ET 13 [a; (2 + z); (0 + z); (1 + z)]))))))).
Definition r_hb_H_b_ov (z i a : nat) : ex := (EAdd (ET 15 [i; a]) (EAdd (ESum (0 + z) 2 (ESum (1 + z) 3 (EMul (b_bb_oovv (2 + z) i (0 + z) a (1 + z)) (ET 10 [(1 + z); (0 + z)])))) (ESum (0 + z) 0 (ESum (1 + z) 1 (EMul (b_ab_oovv (2 + z) (0 + z) i (1 + z) a) (ET 9 [(1 + z); (0 + z)])))))).
Definition r_hb_H_b_oo (z i j : nat) : ex := (EAdd (ET 16 [i; j]) (EAdd (EAdd (EAdd (EAdd (ESum (0 + z) 3 (EMul (r_hb_H_b_ov (1 + z) i (0 + z)) (ET 10 [(0 + z); j]))) (ESum (0 + z) 2 (ESum (1 + z) 3 (EMul (b_bb_ooov (2 + z) i (0 + z) j (1 + z)) (ET 10 [(1 + z); (0 + z)]))))) (ESum (0 + z) 0 (ESum (1 + z) 1 (EMul (b_ab_oovo (2 + z) (0 + z) i (1 + z) j) (ET 9 [(1 + z); (0 + z)]))))) (EScale (1) 2 (ESum (0 + z) 2 (ESum (1 + z) 3 (ESum (2 + z) 3 (EMul (b_bb_oovv (3 + z) i (0 + z) (1 + z) (2 + z)) (ET 17 [(1 + z); (2 + z); j; (0 + z)]))))))) (ESum (0 + z) 0 (ESum (1 + z) 1 (ESum (2 + z) 3 (EMul (b_ab_oovv (3 + z) (0 + z) i (1 + z) (2 + z)) (ET 13 [(1 + z); (2 + z); (0 + z); j]))))))).
Definition r_hb_H_b_vv (z a b : nat) : ex := (EAdd (ET 18 [a; b]) (ESub (ESub (EAdd (EAdd (EOpp (ESum (0 + z) 2 (EMul (r_hb_H_b_ov (1 + z) (0 + z) b) (ET 10 [a; (0 + z)])))) (ESum (0 + z) 2 (ESum (1 + z) 3 (EMul (b_bb_vovv (2 + z) a (0 + z) b (1 + z)) (ET 10 [(1 + z); (0 + z)]))))) (ESum (0 + z) 0 (ESum (1 + z) 1 (EMul (b_ab_ovvv (2 + z) (0 + z) a (1 + z) b) (ET 9 [(1 + z); (0 + z)]))))) (EScale (1) 2 (ESum (0 + z) 2 (ESum (1 + z) 2 (ESum (2 + z) 3 (EMul (b_bb_oovv (3 + z) (0 + z) (1 + z) b (2 + z)) (ET 17 [a; (2 + z); (0 + z); (1 + z)]))))))) (ESum (0 + z) 0 (ESum (1 + z) 2 (ESum (2 + z) 1 (EMul (b_ab_oovv (3 + z) (0 + z) (1 + z) (2 + z) b) (ET 13 [(2 + z); a; (0 + z); (1 + z)]))))))).
Definition r_hb_tau_aa (z a b i j : nat) : ex := (EAdd (EScale (1) 2 (ET 12 [a; b; i; j])) (EMul (ET 9 [a; i]) (ET 9 [b; j]))).
Definition r_hb_tau_aa_1 (z a b i j : nat) : ex := (ESub (r_hb_tau_aa (0 + z) a b i j) (r_hb_tau_aa (0 + z) a b j i)).
Definition r_hb_tau_bb (z a b i j : nat) : ex := (EAdd (EScale (1) 2 (ET 17 [a; b; i; j])) (EMul (ET 10 [a; i]) (ET 10 [b; j]))).
Definition r_hb_tau_bb_1 (z a b i j : nat) : ex := (ESub (r_hb_tau_bb (0 + z) a b i j) (r_hb_tau_bb (0 + z) a b j i)).
Definition r_hb_tau_ab (z a b i j : nat) : ex := (EAdd (ET 13 [a; b; i; j]) (EMul (ET 9 [a; i]) (ET 10 [b; j]))).
Definition r_hb_H_aa_oooo (z m n i j : nat) : ex := (EAdd (EAdd (EScale (1) 2 (b_aa_oooo (0 + z) m n i j)) (ESum (0 + z) 1 (EMul (b_aa_ooov (1 + z) n m j (0 + z)) (ET 9 [(0 + z); i])))) (EScale (1) 4 (ESum (0 + z) 1 (ESum (1 + z) 1 (EMul (b_aa_oovv (2 + z) m n (0 + z) (1 + z)) (r_hb_tau_aa_1 (3 + z) (0 + z) (1 + z) i j)))))).
Definition r_hb_H_aa_oooo_1 (z m n i j : nat) : ex := (ESub (r_hb_H_aa_oooo (0 + z) m n i j) (r_hb_H_aa_oooo (0 + z) m n j i)).
Definition r_hb_H_bb_oooo (z m n i j : nat) : ex := (EAdd (EAdd (EScale (1) 2 (b_bb_oooo (0 + z) m n i j)) (ESum (0 + z) 3 (EMul (b_bb_ooov (1 + z) n m j (0 + z)) (ET 10 [(0 + z); i])))) (EScale (1) 4 (ESum (0 + z) 3 (ESum (1 + z) 3 (EMul (b_bb_oovv (2 + z) m n (0 + z) (1 + z)) (r_hb_tau_bb_1 (3 + z) (0 + z) (1 + z) i j)))))).
Definition r_hb_H_bb_oooo_1 (z m n i j : nat) : ex := (ESub (r_hb_H_bb_oooo (0 + z) m n i j) (r_hb_H_bb_oooo (0 + z) m n j i)).
Definition r_hb_H_ab_oooo (z m n i j : nat) : ex := (EAdd (EAdd (EAdd (b_ab_oooo (0 + z) m n i j) (ESum (0 + z) 1 (EMul (b_ab_oovo (1 + z) m n (0 + z) j) (ET 9 [(0 + z); i])))) (ESum (0 + z) 3 (EMul (b_ab_ooov (1 + z) m n i (0 + z)) (ET 10 [(0 + z); j])))) (ESum (0 + z) 1 (ESum (1 + z) 3 (EMul (b_ab_oovv (2 + z) m n (0 + z) (1 + z)) (r_hb_tau_ab (3 + z) (0 + z) (1 + z) i j))))).
Definition r_hb_H_aa_ooov (z i j k a : nat) : ex := (EAdd (b_aa_ooov (0 + z) i j k a) (ESum (0 + z) 1 (EMul (b_aa_oovv (1 + z) i j (0 + z) a) (ET 9 [(0 + z); k])))).
Definition r_hb_H_bb_ooov (z i j k a : nat) : ex := (EAdd (b_bb_ooov (0 + z) i j k a) (ESum (0 + z) 3 (EMul (b_bb_oovv (1 + z) i j (0 + z) a) (ET 10 [(0 + z); k])))).
Definition r_hb_H_ab_ooov (z i j k a : nat) : ex := (EAdd (b_ab_ooov (0 + z) i j k a) (ESum (0 + z) 1 (EMul (b_ab_oovv (1 + z) i j (0 + z) a) (ET 9 [(0 + z); k])))).
Definition r_hb_H_ab_oovo (z i j a k : nat) : ex := (EAdd (b_ab_oovo (0 + z) i j a k) (ESum (0 + z) 3 (EMul (b_ab_oovv (1 + z) i j a (0 + z)) (ET 10 [(0 + z); k])))).
Definition r_hb_Q1 (z a m i j : nat) : ex := (EAdd (ESum (0 + z) 0 (ESum (1 + z) 1 (EMul (r_hb_H_aa_ooov (2 + z) m (0 + z) j (1 + z)) (ET 12 [a; (1 + z); i; (0 + z)])))) (ESum (0 + z) 2 (ESum (1 + z) 3 (EMul (r_hb_H_ab_ooov (2 + z) m (0 + z) j (1 + z)) (ET 13 [a; (1 + z); i; (0 + z)]))))).
Definition r_hb_Q2 (z a m i f : nat) : ex := (EAdd (b_aa_voov (0 + z) a m i f) (EScale (1) 2 (ESum (0 + z) 1 (EMul (b_aa_vovv (1 + z) a m (0 + z) f) (ET 9 [(0 + z); i]))))).
Definition r_hb_Q2_1 (z a m i j : nat) : ex := (ESum (0 + z) 1 (EMul (r_hb_Q2 (1 + z) a m i (0 + z)) (ET 9 [(0 + z); j]))).
Definition r_hb_Q1_1 (z a m i j : nat) : ex := (EAdd (r_hb_Q1 (0 + z) a m i j) (r_hb_Q2_1 (0 + z) a m i j)).
Definition r_hb_Q1_2 (z a m i j : nat) : ex := (ESub (r_hb_Q1_1 (0 + z) a m i j) (r_hb_Q1_1 (0 + z) a m j i)).
Definition r_hb_H_aa_vooo (z a m i j : nat) : ex := (EAdd (EAdd (b_aa_vooo (0 + z) a m i j) (r_hb_Q1_2 (0 + z) a m i j)) (EAdd (ESub (ESum (0 + z) 1 (EMul (r_hb_H_a_ov (1 + z) m (0 + z)) (ET 12 [a; (0 + z); i; j]))) (ESum (0 + z) 0 (EMul (r_hb_H_aa_oooo_1 (1 + z) (0 + z) m i j) (ET 9 [a; (0 + z)])))) (EScale (1) 2 (ESum (0 + z) 1 (ESum (1 + z) 1 (EMul (b_aa_vovv (2 + z) a m (0 + z) (1 + z)) (ET 12 [(0 + z); (1 + z); i; j]))))))).
Definition r_hb_Q1_3 (z a m i j : nat) : ex := (EAdd (ESum (0 + z) 2 (ESum (1 + z) 3 (EMul (r_hb_H_bb_ooov (2 + z) m (0 + z) j (1 + z)) (ET 17 [a; (1 + z); i; (0 + z)])))) (ESum (0 + z) 0 (ESum (1 + z) 1 (EMul (r_hb_H_ab_oovo (2 + z) (0 + z) m (1 + z) j) (ET 13 [(1 + z); a; (0 + z); i]))))).
Definition r_hb_Q2_2 (z a m i f : nat) : ex := (EAdd (b_bb_voov (0 + z) a m i f) (EScale (1) 2 (ESum (0 + z) 3 (EMul (b_bb_vovv (1 + z) a m (0 + z) f) (ET 10 [(0 + z); i]))))).
Definition r_hb_Q2_3 (z a m i j : nat) : ex := (ESum (0 + z) 3 (EMul (r_hb_Q2_2 (1 + z) a m i (0 + z)) (ET 10 [(0 + z); j]))).
Definition r_hb_Q1_4 (z a m i j : nat) : ex := (EAdd (r_hb_Q1_3 (0 + z) a m i j) (r_hb_Q2_3 (0 + z) a m i j)).
Definition r_hb_Q1_5 (z a m i j : nat) : ex := (ESub (r_hb_Q1_4 (0 + z) a m i j) (r_hb_Q1_4 (0 + z) a m j i)).
Definition r_hb_H_bb_vooo (z a m i j : nat) : ex := (EAdd (EAdd (b_bb_vooo (0 + z) a m i j) (r_hb_Q1_5 (0 + z) a m i j)) (EAdd (ESub (ESum (0 + z) 3 (EMul (r_hb_H_b_ov (1 + z) m (0 + z)) (ET 17 [a; (0 + z); i; j]))) (ESum (0 + z) 2 (EMul (r_hb_H_bb_oooo_1 (1 + z) (0 + z) m i j) (ET 10 [a; (0 + z)])))) (EScale (1) 2 (ESum (0 + z) 3 (ESum (1 + z) 3 (EMul (b_bb_vovv (2 + z) a m (0 + z) (1 + z)) (ET 17 [(0 + z); (1 + z); i; j]))))))).
Definition r_hb_Q1_6 (z a m i e : nat) : ex := (EAdd (b_ab_voov (0 + z) a m i e) (ESum (0 + z) 1 (EMul (b_ab_vovv (1 + z) a m (0 + z) e) (ET 9 [(0 + z); i])))).
Definition r_hb_H_ab_vooo (z a m i j : nat) : ex := (EAdd (b_ab_vooo (0 + z) a m i j) (EAdd (EAdd (EAdd (ESub (EAdd (EAdd (ESub (ESum (0 + z) 3 (EMul (r_hb_H_b_ov (1 + z) m (0 + z)) (ET 13 [a; (0 + z); i; j]))) (ESum (0 + z) 0 (EMul (r_hb_H_ab_oooo (1 + z) (0 + z) m i j) (ET 9 [a; (0 + z)])))) (ESum (0 + z) 2 (ESum (1 + z) 3 (EMul (r_hb_H_bb_ooov (2 + z) m (0 + z) j (1 + z)) (ET 13 [a; (1 + z); i; (0 + z)]))))) (ESum (0 + z) 0 (ESum (1 + z) 1 (EMul (r_hb_H_ab_oovo (2 + z) (0 + z) m (1 + z) j) (ET 12 [a; (1 + z); i; (0 + z)]))))) (ESum (0 + z) 0 (ESum (1 + z) 3 (EMul (r_hb_H_ab_ooov (2 + z) (0 + z) m i (1 + z)) (ET 13 [a; (1 + z); (0 + z); j]))))) (ESum (0 + z) 1 (EMul (b_ab_vovo (1 + z) a m (0 + z) j) (ET 9 [(0 + z); i])))) (ESum (0 + z) 3 (EMul (r_hb_Q1_6 (1 + z) a m i (0 + z)) (ET 10 [(0 + z); j])))) (ESum (0 + z) 1 (ESum (1 + z) 3 (EMul (b_ab_vovv (2 + z) a m (0 + z) (1 + z)) (ET 13 [(0 + z); (1 + z); i; j])))))).
Definition r_hb_Q1_7 (z m a j e : nat) : ex := (EAdd (b_ab_ovov (0 + z) m a j e) (ESum (0 + z) 1 (EMul (b_ab_ovvv (1 + z) m a (0 + z) e) (ET 9 [(0 + z); j])))).
Definition r_hb_H_ab_ovoo (z m a j i : nat) : ex := (EAdd (b_ab_ovoo (0 + z) m a j i) (EAdd (EAdd (EAdd (ESub (EAdd (EAdd (ESub (ESum (0 + z) 1 (EMul (r_hb_H_a_ov (1 + z) m (0 + z)) (ET 13 [(0 + z); a; j; i]))) (ESum (0 + z) 2 (EMul (r_hb_H_ab_oooo (1 + z) m (0 + z) j i) (ET 10 [a; (0 + z)])))) (ESum (0 + z) 0 (ESum (1 + z) 1 (EMul (r_hb_H_aa_ooov (2 + z) m (0 + z) j (1 + z)) (ET 13 [(1 + z); a; (0 + z); i]))))) (ESum (0 + z) 2 (ESum (1 + z) 3 (EMul (r_hb_H_ab_ooov (2 + z) m (0 + z) j (1 + z)) (ET 17 [(1 + z); a; (0 + z); i]))))) (ESum (0 + z) 2 (ESum (1 + z) 1 (EMul (r_hb_H_ab_oovo (2 + z) m (0 + z) (1 + z) i) (ET 13 [(1 + z); a; j; (0 + z)]))))) (ESum (0 + z) 3 (EMul (r_hb_Q1_7 (1 + z) m a j (0 + z)) (ET 10 [(0 + z); i])))) (ESum (0 + z) 1 (EMul (b_ab_ovvo (1 + z) m a (0 + z) i) (ET 9 [(0 + z); j])))) (ESum (0 + z) 1 (ESum (1 + z) 3 (EMul (b_ab_ovvv (2 + z) m a (0 + z) (1 + z)) (ET 13 [(0 + z); (1 + z); j; i])))))).
Definition r_hb_H_aa_voov (z a m i e : nat) : ex := (EAdd (EAdd (ESub (EAdd (b_aa_voov (0 + z) a m i e) (ESum (0 + z) 1 (EMul (b_aa_vovv (1 + z) a m (0 + z) e) (ET 9 [(0 + z); i])))) (ESum (0 + z) 0 (EMul (r_hb_H_aa_ooov (1 + z) (0 + z) m i e) (ET 9 [a; (0 + z)])))) (ESum (0 + z) 0 (ESum (1 + z) 1 (EMul (b_aa_oovv (2 + z) (0 + z) m (1 + z) e) (ET 12 [a; (1 + z); i; (0 + z)]))))) (ESum (0 + z) 2 (ESum (1 + z) 3 (EMul (b_ab_oovv (2 + z) m (0 + z) e (1 + z)) (ET 13 [a; (1 + z); i; (0 + z)]))))).
Definition r_hb_H_bb_voov (z a m i e : nat) : ex := (EAdd (EAdd (ESub (EAdd (b_bb_voov (0 + z) a m i e) (ESum (0 + z) 3 (EMul (b_bb_vovv (1 + z) a m (0 + z) e) (ET 10 [(0 + z); i])))) (ESum (0 + z) 2 (EMul (r_hb_H_bb_ooov (1 + z) (0 + z) m i e) (ET 10 [a; (0 + z)])))) (ESum (0 + z) 2 (ESum (1 + z) 3 (EMul (b_bb_oovv (2 + z) (0 + z) m (1 + z) e) (ET 17 [a; (1 + z); i; (0 + z)]))))) (ESum (0 + z) 0 (ESum (1 + z) 1 (EMul (b_ab_oovv (2 + z) (0 + z) m (1 + z) e) (ET 13 [(1 + z); a; (0 + z); i]))))).
Definition r_hb_H_ab_voov (z a m i e : nat) : ex := (EAdd (EAdd (ESub (EAdd (b_ab_voov (0 + z) a m i e) (ESum (0 + z) 1 (EMul (b_ab_vovv (1 + z) a m (0 + z) e) (ET 9 [(0 + z); i])))) (ESum (0 + z) 0 (EMul (r_hb_H_ab_ooov (1 + z) (0 + z) m i e) (ET 9 [a; (0 + z)])))) (ESum (0 + z) 0 (ESum (1 + z) 1 (EMul (b_ab_oovv (2 + z) (0 + z) m (1 + z) e) (ET 12 [a; (1 + z); i; (0 + z)]))))) (ESum (0 + z) 2 (ESum (1 + z) 3 (EMul (b_bb_oovv (2 + z) (0 + z) m (1 + z) e) (ET 13 [a; (1 + z); i; (0 + z)]))))).
Definition r_hb_H_ab_ovvo (z m a e i : nat) : ex := (EAdd (EAdd (ESub (EAdd (b_ab_ovvo (0 + z) m a e i) (ESum (0 + z) 3 (EMul (b_ab_ovvv (1 + z) m a e (0 + z)) (ET 10 [(0 + z); i])))) (ESum (0 + z) 2 (EMul (r_hb_H_ab_oovo (1 + z) m (0 + z) e i) (ET 10 [a; (0 + z)])))) (ESum (0 + z) 2 (ESum (1 + z) 3 (EMul (b_ab_oovv (2 + z) m (0 + z) e (1 + z)) (ET 17 [a; (1 + z); i; (0 + z)]))))) (ESum (0 + z) 0 (ESum (1 + z) 1 (EMul (b_aa_oovv (2 + z) m (0 + z) e (1 + z)) (ET 13 [(1 + z); a; (0 + z); i]))))).
Definition r_hb_H_ab_ovov (z m a i e : nat) : ex := (ESub (ESub (EAdd (b_ab_ovov (0 + z) m a i e) (ESum (0 + z) 1 (EMul (b_ab_ovvv (1 + z) m a (0 + z) e) (ET 9 [(0 + z); i])))) (ESum (0 + z) 2 (EMul (r_hb_H_ab_ooov (1 + z) m (0 + z) i e) (ET 10 [a; (0 + z)])))) (ESum (0 + z) 2 (ESum (1 + z) 1 (EMul (b_ab_oovv (2 + z) m (0 + z) (1 + z) e) (ET 13 [(1 + z); a; i; (0 + z)]))))).
Definition r_hb_H_ab_vovo (z a m e i : nat) : ex := (ESub (EAdd (ESub (b_ab_vovo (0 + z) a m e i) (ESum (0 + z) 0 (EMul (r_hb_H_ab_oovo (1 + z) (0 + z) m e i) (ET 9 [a; (0 + z)])))) (ESum (0 + z) 3 (EMul (b_ab_vovv (1 + z) a m e (0 + z)) (ET 10 [(0 + z); i])))) (ESum (0 + z) 0 (ESum (1 + z) 3 (EMul (b_ab_oovv (2 + z) (0 + z) m e (1 + z)) (ET 13 [a; (1 + z); (0 + z); i]))))).
Definition r_hb_x2a_voov (z a m i e : nat) : ex := (EAdd (r_hb_H_aa_voov (0 + z) a m i e) (EScale (1) 2 (ESum (0 + z) 0 (EMul (r_hb_H_aa_ooov (1 + z) (0 + z) m i e) (ET 9 [a; (0 + z)]))))).
Definition r_hb_H_aa_vvov (z a b i e : nat) : ex := (EAdd (EAdd (EAdd (EAdd (ESub (ESub (EScale (1) 2 (b_aa_vvov (0 + z) a b i e)) (EScale (1) 2 (ESum (0 + z) 0 (EMul (r_hb_H_a_ov (1 + z) (0 + z) e) (ET 12 [a; b; i; (0 + z)]))))) (ESum (0 + z) 0 (EMul (r_hb_x2a_voov (1 + z) a (0 + z) i e) (ET 9 [b; (0 + z)])))) (EScale (1) 4 (ESum (0 + z) 0 (ESum (1 + z) 0 (EMul (r_hb_H_aa_ooov (2 + z) (0 + z) (1 + z) i e) (ET 12 [a; b; (0 + z); (1 + z)])))))) (EScale (1) 2 (ESum (0 + z) 1 (EMul (b_aa_vvvv (1 + z) a b (0 + z) e) (ET 9 [(0 + z); i]))))) (ESum (0 + z) 0 (ESum (1 + z) 1 (EMul (b_aa_vovv (2 + z) b (0 + z) e (1 + z)) (ET 12 [a; (1 + z); i; (0 + z)]))))) (ESum (0 + z) 2 (ESum (1 + z) 3 (EMul (b_ab_vovv (2 + z) b (0 + z) e (1 + z)) (ET 13 [a; (1 + z); i; (0 + z)]))))).
Definition r_hb_H_aa_vvov_1 (z a b i e : nat) : ex := (ESub (r_hb_H_aa_vvov (0 + z) a b i e) (r_hb_H_aa_vvov (0 + z) b a i e)).
Definition r_hb_x2c_voov (z a m i e : nat) : ex := (EAdd (r_hb_H_bb_voov (0 + z) a m i e) (EScale (1) 2 (ESum (0 + z) 2 (EMul (r_hb_H_bb_ooov (1 + z) (0 + z) m i e) (ET 10 [a; (0 + z)]))))).
Definition r_hb_H_bb_vvov (z a b i e : nat) : ex := (EAdd (EAdd (EAdd (EAdd (ESub (ESub (EScale (1) 2 (b_bb_vvov (0 + z) a b i e)) (EScale (1) 2 (ESum (0 + z) 2 (EMul (r_hb_H_b_ov (1 + z) (0 + z) e) (ET 17 [a; b; i; (0 + z)]))))) (ESum (0 + z) 2 (EMul (r_hb_x2c_voov (1 + z) a (0 + z) i e) (ET 10 [b; (0 + z)])))) (EScale (1) 4 (ESum (0 + z) 2 (ESum (1 + z) 2 (EMul (r_hb_H_bb_ooov (2 + z) (0 + z) (1 + z) i e) (ET 17 [a; b; (0 + z); (1 + z)])))))) (EScale (1) 2 (ESum (0 + z) 3 (EMul (b_bb_vvvv (1 + z) a b (0 + z) e) (ET 10 [(0 + z); i]))))) (ESum (0 + z) 2 (ESum (1 + z) 3 (EMul (b_bb_vovv (2 + z) b (0 + z) e (1 + z)) (ET 17 [a; (1 + z); i; (0 + z)]))))) (ESum (0 + z) 0 (ESum (1 + z) 1 (EMul (b_ab_ovvv (2 + z) (0 + z) b (1 + z) e) (ET 13 [(1 + z); a; (0 + z); i]))))).
Definition r_hb_H_bb_vvov_1 (z a b i e : nat) : ex := (ESub (r_hb_H_bb_vvov (0 + z) a b i e) (r_hb_H_bb_vvov (0 + z) b a i e)).
Definition r_hb_x2b_voov (z a m i e : nat) : ex := (EAdd (r_hb_H_ab_voov (0 + z) a m i e) (EScale (1) 2 (ESum (0 + z) 0 (EMul (r_hb_H_ab_ooov (1 + z) (0 + z) m i e) (ET 9 [a; (0 + z)]))))).
Definition r_hb_x2b_ovov (z m a i e : nat) : ex := (EAdd (r_hb_H_ab_ovov (0 + z) m a i e) (EScale (1) 2 (ESum (0 + z) 2 (EMul (r_hb_H_ab_ooov (1 + z) m (0 + z) i e) (ET 10 [a; (0 + z)]))))).
Definition r_hb_H_ab_vvov (z a b i e : nat) : ex := (ESub (EAdd (EAdd (EAdd (EAdd (ESub (ESub (ESub (b_ab_vvov (0 + z) a b i e) (ESum (0 + z) 2 (EMul (r_hb_H_b_ov (1 + z) (0 + z) e) (ET 13 [a; b; i; (0 + z)])))) (ESum (0 + z) 2 (EMul (r_hb_x2b_voov (1 + z) a (0 + z) i e) (ET 10 [b; (0 + z)])))) (ESum (0 + z) 0 (EMul (r_hb_x2b_ovov (1 + z) (0 + z) b i e) (ET 9 [a; (0 + z)])))) (ESum (0 + z) 0 (ESum (1 + z) 2 (EMul (r_hb_H_ab_ooov (2 + z) (0 + z) (1 + z) i e) (ET 13 [a; b; (0 + z); (1 + z)]))))) (ESum (0 + z) 1 (EMul (b_ab_vvvv (1 + z) a b (0 + z) e) (ET 9 [(0 + z); i])))) (ESum (0 + z) 0 (ESum (1 + z) 1 (EMul (b_ab_ovvv (2 + z) (0 + z) b (1 + z) e) (ET 12 [a; (1 + z); i; (0 + z)]))))) (ESum (0 + z) 2 (ESum (1 + z) 3 (EMul (b_bb_vovv (2 + z) b (0 + z) e (1 + z)) (ET 13 [a; (1 + z); i; (0 + z)]))))) (ESum (0 + z) 2 (ESum (1 + z) 1 (EMul (b_ab_vovv (2 + z) a (0 + z) (1 + z) e) (ET 13 [(1 + z); b; i; (0 + z)]))))).
Definition r_hb_x2b_ovvo (z m a e i : nat) : ex := (EAdd (r_hb_H_ab_ovvo (0 + z) m a e i) (EScale (1) 2 (ESum (0 + z) 2 (EMul (r_hb_H_ab_oovo (1 + z) m (0 + z) e i) (ET 10 [a; (0 + z)]))))).
Definition r_hb_x2b_vovo (z a m e i : nat) : ex := (EAdd (r_hb_H_ab_vovo (0 + z) a m e i) (EScale (1) 2 (ESum (0 + z) 0 (EMul (r_hb_H_ab_oovo (1 + z) (0 + z) m e i) (ET 9 [a; (0 + z)]))))).
Definition r_hb_H_ab_vvvo (z b a e i : nat) : ex := (ESub (EAdd (EAdd (EAdd (EAdd (ESub (ESub (ESub (b_ab_vvvo (0 + z) b a e i) (ESum (0 + z) 0 (EMul (r_hb_H_a_ov (1 + z) (0 + z) e) (ET 13 [b; a; (0 + z); i])))) (ESum (0 + z) 0 (EMul (r_hb_x2b_ovvo (1 + z) (0 + z) a e i) (ET 9 [b; (0 + z)])))) (ESum (0 + z) 2 (EMul (r_hb_x2b_vovo (1 + z) b (0 + z) e i) (ET 10 [a; (0 + z)])))) (ESum (0 + z) 0 (ESum (1 + z) 2 (EMul (r_hb_H_ab_oovo (2 + z) (0 + z) (1 + z) e i) (ET 13 [b; a; (0 + z); (1 + z)]))))) (ESum (0 + z) 3 (EMul (b_ab_vvvv (1 + z) b a e (0 + z)) (ET 10 [(0 + z); i])))) (ESum (0 + z) 2 (ESum (1 + z) 3 (EMul (b_ab_vovv (2 + z) b (0 + z) e (1 + z)) (ET 17 [a; (1 + z); i; (0 + z)]))))) (ESum (0 + z) 0 (ESum (1 + z) 1 (EMul (b_aa_vovv (2 + z) b (0 + z) e (1 + z)) (ET 13 [(1 + z); a; (0 + z); i]))))) (ESum (0 + z) 0 (ESum (1 + z) 3 (EMul (b_ab_ovvv (2 + z) (0 + z) a e (1 + z)) (ET 13 [b; (1 + z); (0 + z); i]))))).
Definition r_hb_H_aa_vvvv (z a b e f : nat) : ex := (ESub (EAdd (EScale (1) 2 (b_aa_vvvv (0 + z) a b e f)) (EScale (1) 4 (ESum (0 + z) 0 (ESum (1 + z) 0 (EMul (b_aa_oovv (2 + z) (0 + z) (1 + z) e f) (r_hb_tau_aa_1 (3 + z) a b (0 + z) (1 + z))))))) (ESum (0 + z) 0 (EMul (b_aa_vovv (1 + z) a (0 + z) e f) (ET 9 [b; (0 + z)])))).
Definition r_hb_H_aa_vvvv_1 (z a b e f : nat) : ex := (ESub (r_hb_H_aa_vvvv (0 + z) a b e f) (r_hb_H_aa_vvvv (0 + z) b a e f)).
Definition r_hb_H_bb_vvvv (z a b e f : nat) : ex := (ESub (EAdd (EScale (1) 2 (b_bb_vvvv (0 + z) a b e f)) (EScale (1) 4 (ESum (0 + z) 2 (ESum (1 + z) 2 (EMul (b_bb_oovv (2 + z) (0 + z) (1 + z) e f) (r_hb_tau_bb_1 (3 + z) a b (0 + z) (1 + z))))))) (ESum (0 + z) 2 (EMul (b_bb_vovv (1 + z) a (0 + z) e f) (ET 10 [b; (0 + z)])))).
Definition r_hb_H_bb_vvvv_1 (z a b e f : nat) : ex := (ESub (r_hb_H_bb_vvvv (0 + z) a b e f) (r_hb_H_bb_vvvv (0 + z) b a e f)).
Definition r_hb_H_ab_vvvv (z a b e f : nat) : ex := (EAdd (ESub (ESub (b_ab_vvvv (0 + z) a b e f) (ESum (0 + z) 0 (EMul (b_ab_ovvv (1 + z) (0 + z) b e f) (ET 9 [a; (0 + z)])))) (ESum (0 + z) 2 (EMul (b_ab_vovv (1 + z) a (0 + z) e f) (ET 10 [b; (0 + z)])))) (ESum (0 + z) 0 (ESum (1 + z) 2 (EMul (b_ab_oovv (2 + z) (0 + z) (1 + z) e f) (r_hb_tau_ab (3 + z) a b (0 + z) (1 + z)))))).
Definition r_hb_H_aa_vovv (z a i b c : nat) : ex := (ESub (b_aa_vovv (0 + z) a i b c) (ESum (0 + z) 0 (EMul (b_aa_oovv (1 + z) i (0 + z) c b) (ET 9 [a; (0 + z)])))).
Definition r_hb_H_bb_vovv (z a i b c : nat) : ex := (ESub (b_bb_vovv (0 + z) a i b c) (ESum (0 + z) 2 (EMul (b_bb_oovv (1 + z) i (0 + z) c b) (ET 10 [a; (0 + z)])))).
Definition r_hb_H_ab_vovv (z a i b c : nat) : ex := (ESub (b_ab_vovv (0 + z) a i b c) (ESum (0 + z) 0 (EMul (b_ab_oovv (1 + z) (0 + z) i b c) (ET 9 [a; (0 + z)])))).
Definition r_hb_H_ab_ovvv (z i a b c : nat) : ex := (ESub (b_ab_ovvv (0 + z) i a b c) (ESum (0 + z) 2 (EMul (b_ab_oovv (1 + z) i (0 + z) b c) (ET 10 [a; (0 + z)])))).
Definition r_chb_H_a_ov (z i a : nat) : ex := (EAdd (ET 8 [i; a]) (EAdd (ESum (0 + z) 0 (ESum (1 + z) 1 (EMul (b_aa_oovv (2 + z) i (0 + z) a (1 + z)) (ET 9 [(1 + z); (0 + z)])))) (ESum (0 + z) 2 (ESum (1 + z) 3 (EMul (b_ab_oovv (2 + z) i (0 + z) a (1 + z)) (ET 10 [(1 + z); (0 + z)])))))).
Definition r_chb_H_b_ov (z i a : nat) : ex := (EAdd (ET 15 [i; a]) (EAdd (ESum (0 + z) 2 (ESum (1 + z) 3 (EMul (b_bb_oovv (2 + z) i (0 + z) a (1 + z)) (ET 10 [(1 + z); (0 + z)])))) (ESum (0 + z) 0 (ESum (1 + z) 1 (EMul (b_ab_oovv (2 + z) (0 + z) i (1 + z) a) (ET 9 [(1 + z); (0 + z)])))))).
Definition r_chb_H_a_oo (z j i : nat) : ex := (EAdd (ET 11 [j; i]) (EAdd (EAdd (EAdd (EAdd (ESum (0 + z) 1 (EMul (r_chb_H_a_ov (1 + z) j (0 + z)) (ET 9 [(0 + z); i]))) (ESum (0 + z) 0 (ESum (1 + z) 1 (EMul (b_aa_ooov (2 + z) j (0 + z) i (1 + z)) (ET 9 [(1 + z); (0 + z)]))))) (ESum (0 + z) 2 (ESum (1 + z) 3 (EMul (b_ab_ooov (2 + z) j (0 + z) i (1 + z)) (ET 10 [(1 + z); (0 + z)]))))) (EScale (1) 2 (ESum (0 + z) 0 (ESum (1 + z) 1 (ESum (2 + z) 1 (EMul (b_aa_oovv (3 + z) j (0 + z) (1 + z) (2 + z)) (ET 12 [(1 + z); (2 + z); i; (0 + z)]))))))) (ESum (0 + z) 2 (ESum (1 + z) 1 (ESum (2 + z) 3 (EMul (b_ab_oovv (3 + z) j (0 + z) (1 + z) (2 + z)) (ET 13 [(1 + z); (2 + z); i; (0 + z)]))))))).
Definition r_chb_H_b_oo (z j i : nat) : ex := (EAdd (ET 16 [j; i]) (EAdd (EAdd (EAdd (EAdd (ESum (0 + z) 3 (EMul (r_chb_H_b_ov (1 + z) j (0 + z)) (ET 10 [(0 + z); i]))) (ESum (0 + z) 2 (ESum (1 + z) 3 (EMul (b_bb_ooov (2 + z) j (0 + z) i (1 + z)) (ET 10 [(1 + z); (0 + z)]))))) (ESum (0 + z) 0 (ESum (1 + z) 1 (EMul (b_ab_oovo (2 + z) (0 + z) j (1 + z) i) (ET 9 [(1 + z); (0 + z)]))))) (EScale (1) 2 (ESum (0 + z) 2 (ESum (1 + z) 3 (ESum (2 + z) 3 (EMul (b_bb_oovv (3 + z) j (0 + z) (1 + z) (2 + z)) (ET 17 [(1 + z); (2 + z); i; (0 + z)]))))))) (ESum (0 + z) 0 (ESum (1 + z) 1 (ESum (2 + z) 3 (EMul (b_ab_oovv (3 + z) (0 + z) j (1 + z) (2 + z)) (ET 13 [(1 + z); (2 + z); (0 + z); i]))))))).
Definition r_chb_H_a_vv (z a e : nat) : ex := (EAdd (ET 14 [a; e]) (ESub (EScale (-1) 2 (ESum (0 + z) 0 (ESum (1 + z) 0 (ESum (2 + z) 1 (EMul (b_aa_oovv (3 + z) (0 + z) (1 + z) e (2 + z)) (ET 12 [a; (2 + z); (0 + z); (1 + z)])))))) (ESum (0 + z) 0 (ESum (1 + z) 2 (ESum (2 + z) 3 (EMul (b_ab_oovv (3 + z) (0 + z) (1 + z) e (2 + z)) (ET 13 [a; (2 + z); (0 + z); (1 + z)]))))))).
Definition r_chb_bt1 (z x : nat) : ex := (EAdd (ESum (0 + z) 0 (ESum (1 + z) 1 (EMul (ET 1 [x; (0 + z); (1 + z)]) (ET 9 [(1 + z); (0 + z)])))) (ESum (0 + z) 2 (ESum (1 + z) 3 (EMul (ET 5 [x; (0 + z); (1 + z)]) (ET 10 [(1 + z); (0 + z)]))))).
Definition r_chb_bxt1 (z x f e : nat) : ex := (EOpp (ESum (0 + z) 0 (EMul (ET 1 [x; (0 + z); e]) (ET 9 [f; (0 + z)])))).
Definition r_chb_H_a_vv_1 (z a e : nat) : ex := (EAdd (r_chb_H_a_vv (0 + z) a e) (ESub (EAdd (ESum (0 + z) 4 (EMul (ET 3 [(0 + z); a; e]) (r_chb_bt1 (1 + z) (0 + z)))) (ESum (0 + z) 4 (ESum (1 + z) 1 (EMul (ET 3 [(0 + z); a; (1 + z)]) (r_chb_bxt1 (2 + z) (0 + z) (1 + z) e))))) (ESum (0 + z) 0 (EMul (r_chb_H_a_ov (1 + z) (0 + z) e) (ET 9 [a; (0 + z)]))))).
Definition r_chb_H_b_vv (z a e : nat) : ex := (EAdd (ET 18 [a; e]) (ESub (ESub (EScale (-1) 2 (ESum (0 + z) 2 (ESum (1 + z) 2 (ESum (2 + z) 3 (EMul (b_bb_oovv (3 + z) (0 + z) (1 + z) e (2 + z)) (ET 17 [a; (2 + z); (0 + z); (1 + z)])))))) (ESum (0 + z) 0 (ESum (1 + z) 2 (ESum (2 + z) 1 (EMul (b_ab_oovv (3 + z) (0 + z) (1 + z) (2 + z) e) (ET 13 [(2 + z); a; (0 + z); (1 + z)])))))) (ESum (0 + z) 2 (EMul (r_chb_H_b_ov (1 + z) (0 + z) e) (ET 10 [a; (0 + z)]))))).
Definition r_chb_bt1_1 (z x : nat) : ex := (EAdd (ESum (0 + z) 2 (ESum (1 + z) 3 (EMul (ET 5 [x; (0 + z); (1 + z)]) (ET 10 [(1 + z); (0 + z)])))) (ESum (0 + z) 0 (ESum (1 + z) 1 (EMul (ET 1 [x; (0 + z); (1 + z)]) (ET 9 [(1 + z); (0 + z)]))))).
Definition r_chb_bxt1_1 (z x f e : nat) : ex := (EOpp (ESum (0 + z) 2 (EMul (ET 5 [x; (0 + z); e]) (ET 10 [f; (0 + z)])))).
Definition r_chb_H_b_vv_1 (z a e : nat) : ex := (EAdd (r_chb_H_b_vv (0 + z) a e) (EAdd (ESum (0 + z) 4 (EMul (ET 7 [(0 + z); a; e]) (r_chb_bt1_1 (1 + z) (0 + z)))) (ESum (0 + z) 4 (ESum (1 + z) 3 (EMul (ET 7 [(0 + z); a; (1 + z)]) (r_chb_bxt1_1 (2 + z) (0 + z) (1 + z) e)))))).
Definition r_chb_H_chol_a_oo (z x m i : nat) : ex := (EAdd (ET 0 [x; m; i]) (ESum (0 + z) 1 (EMul (ET 1 [x; m; (0 + z)]) (ET 9 [(0 + z); i])))).
Definition r_chb_H_chol_a_vv (z x a e : nat) : ex := (ESub (ET 3 [x; a; e]) (ESum (0 + z) 0 (EMul (ET 1 [x; (0 + z); e]) (ET 9 [a; (0 + z)])))).
Definition r_chb_H_chol_a_vo (z x a i : nat) : ex := (EAdd (EAdd (ESub (ET 2 [x; a; i]) (ESum (0 + z) 0 (EMul (r_chb_H_chol_a_oo (1 + z) x (0 + z) i) (ET 9 [a; (0 + z)])))) (ESum (0 + z) 1 (EMul (r_chb_H_chol_a_vv (1 + z) x a (0 + z)) (ET 9 [(0 + z); i])))) (ESum (0 + z) 0 (ESum (1 + z) 1 (EMul (EMul (ET 1 [x; (0 + z); (1 + z)]) (ET 9 [(1 + z); i])) (ET 9 [a; (0 + z)]))))).
Definition r_chb_H_chol_b_oo (z x m i : nat) : ex := (EAdd (ET 4 [x; m; i]) (ESum (0 + z) 3 (EMul (ET 5 [x; m; (0 + z)]) (ET 10 [(0 + z); i])))).
Definition r_chb_H_chol_b_vv (z x a e : nat) : ex := (ESub (ET 7 [x; a; e]) (ESum (0 + z) 2 (EMul (ET 5 [x; (0 + z); e]) (ET 10 [a; (0 + z)])))).
Definition r_chb_H_chol_b_vo (z x a i : nat) : ex := (EAdd (EAdd (ESub (ET 6 [x; a; i]) (ESum (0 + z) 2 (EMul (r_chb_H_chol_b_oo (1 + z) x (0 + z) i) (ET 10 [a; (0 + z)])))) (ESum (0 + z) 3 (EMul (r_chb_H_chol_b_vv (1 + z) x a (0 + z)) (ET 10 [(0 + z); i])))) (ESum (0 + z) 2 (ESum (1 + z) 3 (EMul (EMul (ET 5 [x; (0 + z); (1 + z)]) (ET 10 [(1 + z); i])) (ET 10 [a; (0 + z)]))))).
Definition r_chb_x_a_vo (z x a i : nat) : ex := (EAdd (EAdd (r_chb_H_chol_a_vo (0 + z) x a i) (ESum (0 + z) 0 (ESum (1 + z) 1 (EMul (ET 1 [x; (0 + z); (1 + z)]) (ET 12 [a; (1 + z); i; (0 + z)]))))) (ESum (0 + z) 2 (ESum (1 + z) 3 (EMul (ET 5 [x; (0 + z); (1 + z)]) (ET 13 [a; (1 + z); i; (0 + z)]))))).
Definition r_chb_x_b_vo (z x a i : nat) : ex := (EAdd (EAdd (r_chb_H_chol_b_vo (0 + z) x a i) (ESum (0 + z) 2 (ESum (1 + z) 3 (EMul (ET 5 [x; (0 + z); (1 + z)]) (ET 17 [a; (1 + z); i; (0 + z)]))))) (ESum (0 + z) 0 (ESum (1 + z) 1 (EMul (ET 1 [x; (0 + z); (1 + z)]) (ET 13 [(1 + z); a; (0 + z); i]))))).
Definition r_chb_H_aa_oooo (z m n i j : nat) : ex := (EAdd (ESub (ESum (0 + z) 4 (EMul (r_chb_H_chol_a_oo (1 + z) (0 + z) m i) (r_chb_H_chol_a_oo (2 + z) (0 + z) n j))) (ESum (0 + z) 4 (EMul (r_chb_H_chol_a_oo (1 + z) (0 + z) m j) (r_chb_H_chol_a_oo (2 + z) (0 + z) n i)))) (EScale (1) 2 (ESum (0 + z) 1 (ESum (1 + z) 1 (EMul (b_aa_oovv (2 + z) m n (0 + z) (1 + z)) (ET 12 [(0 + z); (1 + z); i; j])))))).
Definition r_chb_H_bb_oooo (z m n i j : nat) : ex := (EAdd (ESub (ESum (0 + z) 4 (EMul (r_chb_H_chol_b_oo (1 + z) (0 + z) m i) (r_chb_H_chol_b_oo (2 + z) (0 + z) n j))) (ESum (0 + z) 4 (EMul (r_chb_H_chol_b_oo (1 + z) (0 + z) m j) (r_chb_H_chol_b_oo (2 + z) (0 + z) n i)))) (EScale (1) 2 (ESum (0 + z) 3 (ESum (1 + z) 3 (EMul (b_bb_oovv (2 + z) m n (0 + z) (1 + z)) (ET 17 [(0 + z); (1 + z); i; j])))))).
Definition r_chb_H_ab_oooo (z m n i j : nat) : ex := (EAdd (ESum (0 + z) 4 (EMul (r_chb_H_chol_a_oo (1 + z) (0 + z) m i) (r_chb_H_chol_b_oo (2 + z) (0 + z) n j))) (ESum (0 + z) 1 (ESum (1 + z) 3 (EMul (b_ab_oovv (2 + z) m n (0 + z) (1 + z)) (ET 13 [(0 + z); (1 + z); i; j]))))).
Definition r_chb_H_aa_ooov (z m n i e : nat) : ex := (ESum (0 + z) 4 (EMul (r_chb_H_chol_a_oo (1 + z) (0 + z) m i) (ET 1 [(0 + z); n; e]))).
Definition r_chb_H_aa_ooov_1 (z m n i e : nat) : ex := (ESub (r_chb_H_aa_ooov (0 + z) m n i e) (r_chb_H_aa_ooov (0 + z) n m i e)).
Definition r_chb_H_bb_ooov (z m n i e : nat) : ex := (ESum (0 + z) 4 (EMul (r_chb_H_chol_b_oo (1 + z) (0 + z) m i) (ET 5 [(0 + z); n; e]))).
Definition r_chb_H_bb_ooov_1 (z m n i e : nat) : ex := (ESub (r_chb_H_bb_ooov (0 + z) m n i e) (r_chb_H_bb_ooov (0 + z) n m i e)).
Definition r_chb_H_ab_ooov (z m n i e : nat) : ex := (ESum (0 + z) 4 (EMul (r_chb_H_chol_a_oo (1 + z) (0 + z) m i) (ET 5 [(0 + z); n; e]))).
Definition r_chb_H_ab_oovo (z m n e i : nat) : ex := (ESum (0 + z) 4 (EMul (ET 1 [(0 + z); m; e]) (r_chb_H_chol_b_oo (1 + z) (0 + z) n i))).
Definition r_chb_H_aa_vovv (z b n e f : nat) : ex := (ESum (0 + z) 4 (EMul (r_chb_H_chol_a_vv (1 + z) (0 + z) b e) (ET 1 [(0 + z); n; f]))).
Definition r_chb_H_aa_vovv_1 (z b n e f : nat) : ex := (ESub (r_chb_H_aa_vovv (0 + z) b n e f) (r_chb_H_aa_vovv (0 + z) b n f e)).
Definition r_chb_H_bb_vovv (z b n e f : nat) : ex := (ESum (0 + z) 4 (EMul (r_chb_H_chol_b_vv (1 + z) (0 + z) b e) (ET 5 [(0 + z); n; f]))).
Definition r_chb_H_bb_vovv_1 (z b n e f : nat) : ex := (ESub (r_chb_H_bb_vovv (0 + z) b n e f) (r_chb_H_bb_vovv (0 + z) b n f e)).
Definition r_chb_H_ab_vovv (z b n e f : nat) : ex := (ESum (0 + z) 4 (EMul (r_chb_H_chol_a_vv (1 + z) (0 + z) b e) (ET 5 [(0 + z); n; f]))).
Definition r_chb_H_ab_ovvv (z n b f e : nat) : ex := (ESum (0 + z) 4 (EMul (ET 1 [(0 + z); n; f]) (r_chb_H_chol_b_vv (1 + z) (0 + z) b e))).
Definition r_chb_H_aa_vooo (z a m i j : nat) : ex := (ESub (EAdd (EAdd (ESum (0 + z) 4 (EMul (r_chb_x_a_vo (1 + z) (0 + z) a i) (r_chb_H_chol_a_oo (3 + z) (0 + z) m j))) (EScale (1) 4 (ESum (0 + z) 1 (ESum (1 + z) 1 (EMul (r_chb_H_aa_vovv_1 (2 + z) a m (0 + z) (1 + z)) (ET 12 [(0 + z); (1 + z); i; j])))))) (EScale (1) 2 (ESum (0 + z) 1 (EMul (r_chb_H_a_ov (1 + z) m (0 + z)) (ET 12 [a; (0 + z); i; j]))))) (ESum (0 + z) 4 (ESum (1 + z) 0 (ESum (2 + z) 1 (EMul (EMul (r_chb_H_chol_a_oo (3 + z) (0 + z) (1 + z) j) (ET 1 [(0 + z); m; (2 + z)])) (ET 12 [a; (2 + z); i; (1 + z)])))))).
Definition r_chb_H_aa_vooo_1 (z a m i j : nat) : ex := (ESub (r_chb_H_aa_vooo (0 + z) a m i j) (r_chb_H_aa_vooo (0 + z) a m j i)).
Definition r_chb_H_bb_vooo (z a m i j : nat) : ex := (ESub (EAdd (EAdd (ESum (0 + z) 4 (EMul (r_chb_x_b_vo (1 + z) (0 + z) a i) (r_chb_H_chol_b_oo (3 + z) (0 + z) m j))) (EScale (1) 4 (ESum (0 + z) 3 (ESum (1 + z) 3 (EMul (r_chb_H_bb_vovv_1 (2 + z) a m (0 + z) (1 + z)) (ET 17 [(0 + z); (1 + z); i; j])))))) (EScale (1) 2 (ESum (0 + z) 3 (EMul (r_chb_H_b_ov (1 + z) m (0 + z)) (ET 17 [a; (0 + z); i; j]))))) (ESum (0 + z) 4 (ESum (1 + z) 2 (ESum (2 + z) 3 (EMul (EMul (r_chb_H_chol_b_oo (3 + z) (0 + z) (1 + z) j) (ET 5 [(0 + z); m; (2 + z)])) (ET 17 [a; (2 + z); i; (1 + z)])))))).
Definition r_chb_H_bb_vooo_1 (z a m i j : nat) : ex := (ESub (r_chb_H_bb_vooo (0 + z) a m i j) (r_chb_H_bb_vooo (0 + z) a m j i)).
Definition r_chb_H_ab_vooo (z a m i j : nat) : ex := (EAdd (ESub (EAdd (EAdd (EAdd (ESum (0 + z) 4 (EMul (r_chb_H_chol_a_vo (1 + z) (0 + z) a i) (r_chb_H_chol_b_oo (3 + z) (0 + z) m j))) (ESum (0 + z) 1 (ESum (1 + z) 3 (EMul (r_chb_H_ab_vovv (2 + z) a m (0 + z) (1 + z)) (ET 13 [(0 + z); (1 + z); i; j]))))) (ESum (0 + z) 0 (ESum (1 + z) 1 (EMul (r_chb_H_ab_oovo (2 + z) (0 + z) m (1 + z) j) (ET 12 [a; (1 + z); i; (0 + z)]))))) (ESum (0 + z) 2 (ESum (1 + z) 3 (EMul (r_chb_H_bb_ooov_1 (2 + z) m (0 + z) j (1 + z)) (ET 13 [a; (1 + z); i; (0 + z)]))))) (ESum (0 + z) 0 (ESum (1 + z) 3 (EMul (r_chb_H_ab_ooov (2 + z) (0 + z) m i (1 + z)) (ET 13 [a; (1 + z); (0 + z); j]))))) (ESum (0 + z) 3 (EMul (r_chb_H_b_ov (1 + z) m (0 + z)) (ET 13 [a; (0 + z); i; j])))).
Definition r_chb_H_ab_ovoo (z m b i j : nat) : ex := (EAdd (EAdd (ESub (EAdd (EAdd (ESum (0 + z) 4 (EMul (r_chb_H_chol_a_oo (1 + z) (0 + z) m i) (r_chb_H_chol_b_vo (2 + z) (0 + z) b j))) (ESum (0 + z) 0 (ESum (1 + z) 1 (EMul (r_chb_H_aa_ooov_1 (2 + z) m (0 + z) i (1 + z)) (ET 13 [(1 + z); b; (0 + z); j]))))) (ESum (0 + z) 2 (ESum (1 + z) 3 (EMul (r_chb_H_ab_ooov (2 + z) m (0 + z) i (1 + z)) (ET 17 [(1 + z); b; (0 + z); j]))))) (ESum (0 + z) 2 (ESum (1 + z) 1 (EMul (r_chb_H_ab_oovo (2 + z) m (0 + z) (1 + z) j) (ET 13 [(1 + z); b; i; (0 + z)]))))) (ESum (0 + z) 1 (ESum (1 + z) 3 (EMul (r_chb_H_ab_ovvv (2 + z) m b (0 + z) (1 + z)) (ET 13 [(0 + z); (1 + z); i; j]))))) (ESum (0 + z) 1 (EMul (r_chb_H_a_ov (1 + z) m (0 + z)) (ET 13 [(0 + z); b; i; j])))).
Definition r_chb_H_aa_voov (z a m i e : nat) : ex := (EAdd (EAdd (ESub (ESum (0 + z) 4 (EMul (r_chb_H_chol_a_vo (1 + z) (0 + z) a i) (ET 1 [(0 + z); m; e]))) (ESum (0 + z) 4 (EMul (r_chb_H_chol_a_vv (1 + z) (0 + z) a e) (r_chb_H_chol_a_oo (2 + z) (0 + z) m i)))) (ESum (0 + z) 0 (ESum (1 + z) 1 (EMul (b_aa_oovv (2 + z) m (0 + z) e (1 + z)) (ET 12 [a; (1 + z); i; (0 + z)]))))) (ESum (0 + z) 2 (ESum (1 + z) 3 (EMul (b_ab_oovv (2 + z) m (0 + z) e (1 + z)) (ET 13 [a; (1 + z); i; (0 + z)]))))).
Definition r_chb_H_bb_voov (z a m i e : nat) : ex := (EAdd (EAdd (ESub (ESum (0 + z) 4 (EMul (r_chb_H_chol_b_vo (1 + z) (0 + z) a i) (ET 5 [(0 + z); m; e]))) (ESum (0 + z) 4 (EMul (r_chb_H_chol_b_vv (1 + z) (0 + z) a e) (r_chb_H_chol_b_oo (2 + z) (0 + z) m i)))) (ESum (0 + z) 2 (ESum (1 + z) 3 (EMul (b_bb_oovv (2 + z) m (0 + z) e (1 + z)) (ET 17 [a; (1 + z); i; (0 + z)]))))) (ESum (0 + z) 0 (ESum (1 + z) 1 (EMul (b_ab_oovv (2 + z) (0 + z) m (1 + z) e) (ET 13 [(1 + z); a; (0 + z); i]))))).
Definition r_chb_H_ab_voov (z a m i e : nat) : ex := (EAdd (EAdd (ESum (0 + z) 4 (EMul (r_chb_H_chol_a_vo (1 + z) (0 + z) a i) (ET 5 [(0 + z); m; e]))) (ESum (0 + z) 0 (ESum (1 + z) 1 (EMul (b_ab_oovv (2 + z) (0 + z) m (1 + z) e) (ET 12 [a; (1 + z); i; (0 + z)]))))) (ESum (0 + z) 2 (ESum (1 + z) 3 (EMul (b_bb_oovv (2 + z) m (0 + z) e (1 + z)) (ET 13 [a; (1 + z); i; (0 + z)]))))).
Definition r_chb_H_ab_ovvo (z m b e j : nat) : ex := (EAdd (EAdd (ESum (0 + z) 4 (EMul (r_chb_H_chol_b_vo (1 + z) (0 + z) b j) (ET 1 [(0 + z); m; e]))) (ESum (0 + z) 0 (ESum (1 + z) 1 (EMul (b_aa_oovv (2 + z) m (0 + z) e (1 + z)) (ET 13 [(1 + z); b; (0 + z); j]))))) (ESum (0 + z) 2 (ESum (1 + z) 3 (EMul (b_ab_oovv (2 + z) m (0 + z) e (1 + z)) (ET 17 [(1 + z); b; (0 + z); j]))))).
Definition r_chb_H_ab_ovov (z m b i e : nat) : ex := (ESub (ESum (0 + z) 4 (EMul (r_chb_H_chol_a_oo (1 + z) (0 + z) m i) (r_chb_H_chol_b_vv (2 + z) (0 + z) b e))) (ESum (0 + z) 2 (ESum (1 + z) 1 (EMul (b_ab_oovv (2 + z) m (0 + z) (1 + z) e) (ET 13 [(1 + z); b; i; (0 + z)]))))).
Definition r_chb_H_ab_vovo (z a m e j : nat) : ex := (ESub (ESum (0 + z) 4 (EMul (r_chb_H_chol_a_vv (1 + z) (0 + z) a e) (r_chb_H_chol_b_oo (2 + z) (0 + z) m j))) (ESum (0 + z) 0 (ESum (1 + z) 3 (EMul (b_ab_oovv (2 + z) (0 + z) m e (1 + z)) (ET 13 [a; (1 + z); (0 + z); j]))))).
Definition r_chb_H_aa_vvov (z a b i e : nat) : ex := (ESub (ESub (EAdd (ESum (0 + z) 4 (EMul (r_chb_x_a_vo (1 + z) (0 + z) a i) (r_chb_H_chol_a_vv (3 + z) (0 + z) b e))) (EScale (1) 4 (ESum (0 + z) 0 (ESum (1 + z) 0 (EMul (r_chb_H_aa_ooov_1 (2 + z) (0 + z) (1 + z) i e) (ET 12 [a; b; (0 + z); (1 + z)])))))) (EScale (1) 2 (ESum (0 + z) 0 (EMul (r_chb_H_a_ov (1 + z) (0 + z) e) (ET 12 [a; b; i; (0 + z)]))))) (ESum (0 + z) 4 (ESum (1 + z) 1 (ESum (2 + z) 0 (EMul (EMul (r_chb_H_chol_a_vv (3 + z) (0 + z) b (1 + z)) (ET 1 [(0 + z); (2 + z); e])) (ET 12 [a; (1 + z); i; (2 + z)])))))).
Definition r_chb_H_aa_vvov_1 (z a b i e : nat) : ex := (ESub (r_chb_H_aa_vvov (0 + z) a b i e) (r_chb_H_aa_vvov (0 + z) b a i e)).
Definition r_chb_H_bb_vvov (z a b i e : nat) : ex := (ESub (ESub (EAdd (ESum (0 + z) 4 (EMul (r_chb_x_b_vo (1 + z) (0 + z) a i) (r_chb_H_chol_b_vv (3 + z) (0 + z) b e))) (EScale (1) 4 (ESum (0 + z) 2 (ESum (1 + z) 2 (EMul (r_chb_H_bb_ooov_1 (2 + z) (0 + z) (1 + z) i e) (ET 17 [a; b; (0 + z); (1 + z)])))))) (EScale (1) 2 (ESum (0 + z) 2 (EMul (r_chb_H_b_ov (1 + z) (0 + z) e) (ET 17 [a; b; i; (0 + z)]))))) (ESum (0 + z) 4 (ESum (1 + z) 3 (ESum (2 + z) 2 (EMul (EMul (r_chb_H_chol_b_vv (3 + z) (0 + z) b (1 + z)) (ET 5 [(0 + z); (2 + z); e])) (ET 17 [a; (1 + z); i; (2 + z)])))))).
Definition r_chb_H_bb_vvov_1 (z a b i e : nat) : ex := (ESub (r_chb_H_bb_vvov (0 + z) a b i e) (r_chb_H_bb_vvov (0 + z) b a i e)).
Definition r_chb_H_ab_vvov (z a b i e : nat) : ex := (ESub (EAdd (ESub (EAdd (EAdd (ESum (0 + z) 4 (EMul (r_chb_H_chol_a_vo (1 + z) (0 + z) a i) (r_chb_H_chol_b_vv (3 + z) (0 + z) b e))) (ESum (0 + z) 0 (ESum (1 + z) 1 (EMul (r_chb_H_ab_ovvv (2 + z) (0 + z) b (1 + z) e) (ET 12 [a; (1 + z); i; (0 + z)]))))) (ESum (0 + z) 2 (ESum (1 + z) 3 (EMul (r_chb_H_bb_vovv_1 (2 + z) b (0 + z) e (1 + z)) (ET 13 [a; (1 + z); i; (0 + z)]))))) (ESum (0 + z) 2 (ESum (1 + z) 1 (EMul (r_chb_H_ab_vovv (2 + z) a (0 + z) (1 + z) e) (ET 13 [(1 + z); b; i; (0 + z)]))))) (ESum (0 + z) 0 (ESum (1 + z) 2 (EMul (r_chb_H_ab_ooov (2 + z) (0 + z) (1 + z) i e) (ET 13 [a; b; (0 + z); (1 + z)]))))) (ESum (0 + z) 2 (EMul (r_chb_H_b_ov (1 + z) (0 + z) e) (ET 13 [a; b; i; (0 + z)])))).
Definition r_chb_H_ab_vvvo (z a b e j : nat) : ex := (ESub (EAdd (ESub (EAdd (EAdd (ESum (0 + z) 4 (EMul (r_chb_H_chol_a_vv (1 + z) (0 + z) a e) (r_chb_H_chol_b_vo (2 + z) (0 + z) b j))) (ESum (0 + z) 0 (ESum (1 + z) 1 (EMul (r_chb_H_aa_vovv_1 (2 + z) a (0 + z) e (1 + z)) (ET 13 [(1 + z); b; (0 + z); j]))))) (ESum (0 + z) 2 (ESum (1 + z) 3 (EMul (r_chb_H_ab_vovv (2 + z) a (0 + z) e (1 + z)) (ET 17 [(1 + z); b; (0 + z); j]))))) (ESum (0 + z) 0 (ESum (1 + z) 3 (EMul (r_chb_H_ab_ovvv (2 + z) (0 + z) b e (1 + z)) (ET 13 [a; (1 + z); (0 + z); j]))))) (ESum (0 + z) 0 (ESum (1 + z) 2 (EMul (r_chb_H_ab_oovo (2 + z) (0 + z) (1 + z) e j) (ET 13 [a; b; (0 + z); (1 + z)]))))) (ESum (0 + z) 0 (EMul (r_chb_H_a_ov (1 + z) (0 + z) e) (ET 13 [a; b; (0 + z); j])))).
Definition r_crhb_H_a_ov (z i a : nat) : ex := (EAdd (ET 8 [i; a]) (EAdd (ESum (0 + z) 0 (ESum (1 + z) 1 (EMul (b_aa_oovv (2 + z) i (0 + z) a (1 + z)) (ET 9 [(1 + z); (0 + z)])))) (ESum (0 + z) 0 (ESum (1 + z) 1 (EMul (b_ab_oovv (2 + z) i (0 + z) a (1 + z)) (ET 10 [(1 + z); (0 + z)])))))).
Definition r_crhb_H_b_ov (z i a : nat) : ex := (r_crhb_H_a_ov (0 + z) i a).
Definition r_crhb_H_a_oo (z j i : nat) : ex := (EAdd (ET 11 [j; i]) (EAdd (EAdd (EAdd (EAdd (ESum (0 + z) 1 (EMul (r_crhb_H_a_ov (1 + z) j (0 + z)) (ET 9 [(0 + z); i]))) (ESum (0 + z) 0 (ESum (1 + z) 1 (EMul (b_aa_ooov (2 + z) j (0 + z) i (1 + z)) (ET 9 [(1 + z); (0 + z)]))))) (ESum (0 + z) 0 (ESum (1 + z) 1 (EMul (b_ab_ooov (2 + z) j (0 + z) i (1 + z)) (ET 10 [(1 + z); (0 + z)]))))) (EScale (1) 2 (ESum (0 + z) 0 (ESum (1 + z) 1 (ESum (2 + z) 1 (EMul (b_aa_oovv (3 + z) j (0 + z) (1 + z) (2 + z)) (ET 12 [(1 + z); (2 + z); i; (0 + z)]))))))) (ESum (0 + z) 0 (ESum (1 + z) 1 (ESum (2 + z) 1 (EMul (b_ab_oovv (3 + z) j (0 + z) (1 + z) (2 + z)) (ET 13 [(1 + z); (2 + z); i; (0 + z)]))))))).
Definition r_crhb_H_b_oo (z j i : nat) : ex := (r_crhb_H_a_oo (0 + z) j i).
Definition r_crhb_H_a_vv (z a e : nat) : ex := (EAdd (ET 14 [a; e]) (ESub (EScale (-1) 2 (ESum (0 + z) 0 (ESum (1 + z) 0 (ESum (2 + z) 1 (EMul (b_aa_oovv (3 + z) (0 + z) (1 + z) e (2 + z)) (ET 12 [a; (2 + z); (0 + z); (1 + z)])))))) (ESum (0 + z) 0 (ESum (1 + z) 0 (ESum (2 + z) 1 (EMul (b_ab_oovv (3 + z) (0 + z) (1 + z) e (2 + z)) (ET 13 [a; (2 + z); (0 + z); (1 + z)]))))))).
Definition r_crhb_bt1 (z x : nat) : ex := (EAdd (ESum (0 + z) 0 (ESum (1 + z) 1 (EMul (ET 1 [x; (0 + z); (1 + z)]) (ET 9 [(1 + z); (0 + z)])))) (ESum (0 + z) 0 (ESum (1 + z) 1 (EMul (ET 5 [x; (0 + z); (1 + z)]) (ET 10 [(1 + z); (0 + z)]))))).
Definition r_crhb_bxt1 (z x f e : nat) : ex := (EOpp (ESum (0 + z) 0 (EMul (ET 1 [x; (0 + z); e]) (ET 9 [f; (0 + z)])))).
Definition r_crhb_H_a_vv_1 (z a e : nat) : ex := (EAdd (r_crhb_H_a_vv (0 + z) a e) (ESub (EAdd (ESum (0 + z) 4 (EMul (ET 3 [(0 + z); a; e]) (r_crhb_bt1 (1 + z) (0 + z)))) (ESum (0 + z) 4 (ESum (1 + z) 1 (EMul (ET 3 [(0 + z); a; (1 + z)]) (r_crhb_bxt1 (2 + z) (0 + z) (1 + z) e))))) (ESum (0 + z) 0 (EMul (r_crhb_H_a_ov (1 + z) (0 + z) e) (ET 9 [a; (0 + z)]))))).
Definition r_crhb_H_b_vv (z a e : nat) : ex := (r_crhb_H_a_vv_1 (0 + z) a e).
Definition r_crhb_H_chol_a_oo (z x m i : nat) : ex := (EAdd (ET 0 [x; m; i]) (ESum (0 + z) 1 (EMul (ET 1 [x; m; (0 + z)]) (ET 9 [(0 + z); i])))).
Definition r_crhb_H_chol_a_vv (z x a e : nat) : ex := (ESub (ET 3 [x; a; e]) (ESum (0 + z) 0 (EMul (ET 1 [x; (0 + z); e]) (ET 9 [a; (0 + z)])))).
Definition r_crhb_H_chol_a_vo (z x a i : nat) : ex := (EAdd (EAdd (ESub (ET 2 [x; a; i]) (ESum (0 + z) 0 (EMul (r_crhb_H_chol_a_oo (1 + z) x (0 + z) i) (ET 9 [a; (0 + z)])))) (ESum (0 + z) 1 (EMul (r_crhb_H_chol_a_vv (1 + z) x a (0 + z)) (ET 9 [(0 + z); i])))) (ESum (0 + z) 0 (ESum (1 + z) 1 (EMul (EMul (ET 1 [x; (0 + z); (1 + z)]) (ET 9 [(1 + z); i])) (ET 9 [a; (0 + z)]))))).
Definition r_crhb_H_chol_b_oo (z x m i : nat) : ex := (r_crhb_H_chol_a_oo (0 + z) x m i).
Definition r_crhb_H_chol_b_vv (z x a e : nat) : ex := (r_crhb_H_chol_a_vv (0 + z) x a e).
Definition r_crhb_H_chol_b_vo (z x a i : nat) : ex := (r_crhb_H_chol_a_vo (0 + z) x a i).
Definition r_crhb_x_a_vo (z x a i : nat) : ex := (EAdd (EAdd (r_crhb_H_chol_a_vo (0 + z) x a i) (ESum (0 + z) 0 (ESum (1 + z) 1 (EMul (ET 1 [x; (0 + z); (1 + z)]) (ET 12 [a; (1 + z); i; (0 + z)]))))) (ESum (0 + z) 0 (ESum (1 + z) 1 (EMul (ET 5 [x; (0 + z); (1 + z)]) (ET 13 [a; (1 + z); i; (0 + z)]))))).
Definition r_crhb_x_b_vo (z x a i : nat) : ex := (r_crhb_x_a_vo (0 + z) x a i).
Definition r_crhb_H_aa_oooo (z m n i j : nat) : ex := (EAdd (ESub (ESum (0 + z) 4 (EMul (r_crhb_H_chol_a_oo (1 + z) (0 + z) m i) (r_crhb_H_chol_a_oo (2 + z) (0 + z) n j))) (ESum (0 + z) 4 (EMul (r_crhb_H_chol_a_oo (1 + z) (0 + z) m j) (r_crhb_H_chol_a_oo (2 + z) (0 + z) n i)))) (EScale (1) 2 (ESum (0 + z) 1 (ESum (1 + z) 1 (EMul (b_aa_oovv (2 + z) m n (0 + z) (1 + z)) (ET 12 [(0 + z); (1 + z); i; j])))))).
Definition r_crhb_H_bb_oooo (z m n i j : nat) : ex := (r_crhb_H_aa_oooo (0 + z) m n i j).
Definition r_crhb_H_ab_oooo (z m n i j : nat) : ex := (EAdd (ESum (0 + z) 4 (EMul (r_crhb_H_chol_a_oo (1 + z) (0 + z) m i) (r_crhb_H_chol_b_oo (2 + z) (0 + z) n j))) (ESum (0 + z) 1 (ESum (1 + z) 1 (EMul (b_ab_oovv (2 + z) m n (0 + z) (1 + z)) (ET 13 [(0 + z); (1 + z); i; j]))))).
Definition r_crhb_H_aa_ooov (z m n i e : nat) : ex := (ESum (0 + z) 4 (EMul (r_crhb_H_chol_a_oo (1 + z) (0 + z) m i) (ET 1 [(0 + z); n; e]))).
Definition r_crhb_H_aa_ooov_1 (z m n i e : nat) : ex := (ESub (r_crhb_H_aa_ooov (0 + z) m n i e) (r_crhb_H_aa_ooov (0 + z) n m i e)).
Definition r_crhb_H_bb_ooov (z m n i e : nat) : ex := (r_crhb_H_aa_ooov_1 (0 + z) m n i e).
Definition r_crhb_H_ab_ooov (z m n i e : nat) : ex := (ESum (0 + z) 4 (EMul (r_crhb_H_chol_a_oo (1 + z) (0 + z) m i) (ET 5 [(0 + z); n; e]))).
Definition r_crhb_H_ab_oovo (z m n e i : nat) : ex := (ESum (0 + z) 4 (EMul (ET 1 [(0 + z); m; e]) (r_crhb_H_chol_b_oo (1 + z) (0 + z) n i))).
Definition r_crhb_H_aa_vovv (z b n e f : nat) : ex := (ESum (0 + z) 4 (EMul (r_crhb_H_chol_a_vv (1 + z) (0 + z) b e) (ET 1 [(0 + z); n; f]))).
Definition r_crhb_H_aa_vovv_1 (z b n e f : nat) : ex := (ESub (r_crhb_H_aa_vovv (0 + z) b n e f) (r_crhb_H_aa_vovv (0 + z) b n f e)).
Definition r_crhb_H_bb_vovv (z b n e f : nat) : ex := (r_crhb_H_aa_vovv_1 (0 + z) b n e f).
Definition r_crhb_H_ab_vovv (z b n e f : nat) : ex := (ESum (0 + z) 4 (EMul (r_crhb_H_chol_a_vv (1 + z) (0 + z) b e) (ET 5 [(0 + z); n; f]))).
Definition r_crhb_H_ab_ovvv (z n b f e : nat) : ex := (ESum (0 + z) 4 (EMul (ET 1 [(0 + z); n; f]) (r_crhb_H_chol_b_vv (1 + z) (0 + z) b e))).
Definition r_crhb_H_aa_vooo (z a m i j : nat) : ex := (ESub (EAdd (EAdd (ESum (0 + z) 4 (EMul (r_crhb_x_a_vo (1 + z) (0 + z) a i) (r_crhb_H_chol_a_oo (3 + z) (0 + z) m j))) (EScale (1) 4 (ESum (0 + z) 1 (ESum (1 + z) 1 (EMul (r_crhb_H_aa_vovv_1 (2 + z) a m (0 + z) (1 + z)) (ET 12 [(0 + z); (1 + z); i; j])))))) (EScale (1) 2 (ESum (0 + z) 1 (EMul (r_crhb_H_a_ov (1 + z) m (0 + z)) (ET 12 [a; (0 + z); i; j]))))) (ESum (0 + z) 4 (ESum (1 + z) 0 (ESum (2 + z) 1 (EMul (EMul (r_crhb_H_chol_a_oo (3 + z) (0 + z) (1 + z) j) (ET 1 [(0 + z); m; (2 + z)])) (ET 12 [a; (2 + z); i; (1 + z)])))))).
Definition r_crhb_H_aa_vooo_1 (z a m i j : nat) : ex := (ESub (r_crhb_H_aa_vooo (0 + z) a m i j) (r_crhb_H_aa_vooo (0 + z) a m j i)).
Definition r_crhb_H_bb_vooo (z a m i j : nat) : ex := (r_crhb_H_aa_vooo_1 (0 + z) a m i j).
Definition r_crhb_H_ab_vooo (z a m i j : nat) : ex := (EAdd (ESub (EAdd (EAdd (EAdd (ESum (0 + z) 4 (EMul (r_crhb_H_chol_a_vo (1 + z) (0 + z) a i) (r_crhb_H_chol_b_oo (3 + z) (0 + z) m j))) (ESum (0 + z) 1 (ESum (1 + z) 1 (EMul (r_crhb_H_ab_vovv (2 + z) a m (0 + z) (1 + z)) (ET 13 [(0 + z); (1 + z); i; j]))))) (ESum (0 + z) 0 (ESum (1 + z) 1 (EMul (r_crhb_H_ab_oovo (2 + z) (0 + z) m (1 + z) j) (ET 12 [a; (1 + z); i; (0 + z)]))))) (ESum (0 + z) 0 (ESum (1 + z) 1 (EMul (r_crhb_H_bb_ooov (2 + z) m (0 + z) j (1 + z)) (ET 13 [a; (1 + z); i; (0 + z)]))))) (ESum (0 + z) 0 (ESum (1 + z) 1 (EMul (r_crhb_H_ab_ooov (2 + z) (0 + z) m i (1 + z)) (ET 13 [a; (1 + z); (0 + z); j]))))) (ESum (0 + z) 1 (EMul (r_crhb_H_b_ov (1 + z) m (0 + z)) (ET 13 [a; (0 + z); i; j])))).
Definition r_crhb_H_ab_ovoo (z m b i j : nat) : ex := (EAdd (EAdd (ESub (EAdd (EAdd (ESum (0 + z) 4 (EMul (r_crhb_H_chol_a_oo (1 + z) (0 + z) m i) (r_crhb_H_chol_b_vo (2 + z) (0 + z) b j))) (ESum (0 + z) 0 (ESum (1 + z) 1 (EMul (r_crhb_H_aa_ooov_1 (2 + z) m (0 + z) i (1 + z)) (ET 13 [(1 + z); b; (0 + z); j]))))) (ESum (0 + z) 0 (ESum (1 + z) 1 (EMul (r_crhb_H_ab_ooov (2 + z) m (0 + z) i (1 + z)) (ET 17 [(1 + z); b; (0 + z); j]))))) (ESum (0 + z) 0 (ESum (1 + z) 1 (EMul (r_crhb_H_ab_oovo (2 + z) m (0 + z) (1 + z) j) (ET 13 [(1 + z); b; i; (0 + z)]))))) (ESum (0 + z) 1 (ESum (1 + z) 1 (EMul (r_crhb_H_ab_ovvv (2 + z) m b (0 + z) (1 + z)) (ET 13 [(0 + z); (1 + z); i; j]))))) (ESum (0 + z) 1 (EMul (r_crhb_H_a_ov (1 + z) m (0 + z)) (ET 13 [(0 + z); b; i; j])))).
Definition r_crhb_H_aa_voov (z a m i e : nat) : ex := (EAdd (EAdd (ESub (ESum (0 + z) 4 (EMul (r_crhb_H_chol_a_vo (1 + z) (0 + z) a i) (ET 1 [(0 + z); m; e]))) (ESum (0 + z) 4 (EMul (r_crhb_H_chol_a_vv (1 + z) (0 + z) a e) (r_crhb_H_chol_a_oo (2 + z) (0 + z) m i)))) (ESum (0 + z) 0 (ESum (1 + z) 1 (EMul (b_aa_oovv (2 + z) m (0 + z) e (1 + z)) (ET 12 [a; (1 + z); i; (0 + z)]))))) (ESum (0 + z) 0 (ESum (1 + z) 1 (EMul (b_ab_oovv (2 + z) m (0 + z) e (1 + z)) (ET 13 [a; (1 + z); i; (0 + z)]))))).
Definition r_crhb_H_bb_voov (z a m i e : nat) : ex := (r_crhb_H_aa_voov (0 + z) a m i e).
Definition r_crhb_H_ab_voov (z a m i e : nat) : ex := (EAdd (EAdd (ESum (0 + z) 4 (EMul (r_crhb_H_chol_a_vo (1 + z) (0 + z) a i) (ET 5 [(0 + z); m; e]))) (ESum (0 + z) 0 (ESum (1 + z) 1 (EMul (b_ab_oovv (2 + z) (0 + z) m (1 + z) e) (ET 12 [a; (1 + z); i; (0 + z)]))))) (ESum (0 + z) 0 (ESum (1 + z) 1 (EMul (b_bb_oovv (2 + z) m (0 + z) e (1 + z)) (ET 13 [a; (1 + z); i; (0 + z)]))))).
Definition r_crhb_H_ab_ovvo (z m b e j : nat) : ex := (EAdd (EAdd (ESum (0 + z) 4 (EMul (r_crhb_H_chol_b_vo (1 + z) (0 + z) b j) (ET 1 [(0 + z); m; e]))) (ESum (0 + z) 0 (ESum (1 + z) 1 (EMul (b_aa_oovv (2 + z) m (0 + z) e (1 + z)) (ET 13 [(1 + z); b; (0 + z); j]))))) (ESum (0 + z) 0 (ESum (1 + z) 1 (EMul (b_ab_oovv (2 + z) m (0 + z) e (1 + z)) (ET 17 [(1 + z); b; (0 + z); j]))))).
Definition r_crhb_H_ab_ovov (z m b i e : nat) : ex := (ESub (ESum (0 + z) 4 (EMul (r_crhb_H_chol_a_oo (1 + z) (0 + z) m i) (r_crhb_H_chol_b_vv (2 + z) (0 + z) b e))) (ESum (0 + z) 0 (ESum (1 + z) 1 (EMul (b_ab_oovv (2 + z) m (0 + z) (1 + z) e) (ET 13 [(1 + z); b; i; (0 + z)]))))).
Definition r_crhb_H_ab_vovo (z a m e j : nat) : ex := (ESub (ESum (0 + z) 4 (EMul (r_crhb_H_chol_a_vv (1 + z) (0 + z) a e) (r_crhb_H_chol_b_oo (2 + z) (0 + z) m j))) (ESum (0 + z) 0 (ESum (1 + z) 1 (EMul (b_ab_oovv (2 + z) (0 + z) m e (1 + z)) (ET 13 [a; (1 + z); (0 + z); j]))))).
Definition r_crhb_H_aa_vvov (z a b i e : nat) : ex := (ESub (ESub (EAdd (ESum (0 + z) 4 (EMul (r_crhb_x_a_vo (1 + z) (0 + z) a i) (r_crhb_H_chol_a_vv (3 + z) (0 + z) b e))) (EScale (1) 4 (ESum (0 + z) 0 (ESum (1 + z) 0 (EMul (r_crhb_H_aa_ooov_1 (2 + z) (0 + z) (1 + z) i e) (ET 12 [a; b; (0 + z); (1 + z)])))))) (EScale (1) 2 (ESum (0 + z) 0 (EMul (r_crhb_H_a_ov (1 + z) (0 + z) e) (ET 12 [a; b; i; (0 + z)]))))) (ESum (0 + z) 4 (ESum (1 + z) 1 (ESum (2 + z) 0 (EMul (EMul (r_crhb_H_chol_a_vv (3 + z) (0 + z) b (1 + z)) (ET 1 [(0 + z); (2 + z); e])) (ET 12 [a; (1 + z); i; (2 + z)])))))).
Definition r_crhb_H_aa_vvov_1 (z a b i e : nat) : ex := (ESub (r_crhb_H_aa_vvov (0 + z) a b i e) (r_crhb_H_aa_vvov (0 + z) b a i e)).
Definition r_crhb_H_bb_vvov (z a b i e : nat) : ex := (r_crhb_H_aa_vvov_1 (0 + z) a b i e).
Definition r_crhb_H_ab_vvov (z a b i e : nat) : ex := (ESub (EAdd (ESub (EAdd (EAdd (ESum (0 + z) 4 (EMul (r_crhb_H_chol_a_vo (1 + z) (0 + z) a i) (r_crhb_H_chol_b_vv (3 + z) (0 + z) b e))) (ESum (0 + z) 0 (ESum (1 + z) 1 (EMul (r_crhb_H_ab_ovvv (2 + z) (0 + z) b (1 + z) e) (ET 12 [a; (1 + z); i; (0 + z)]))))) (ESum (0 + z) 0 (ESum (1 + z) 1 (EMul (r_crhb_H_bb_vovv (2 + z) b (0 + z) e (1 + z)) (ET 13 [a; (1 + z); i; (0 + z)]))))) (ESum (0 + z) 0 (ESum (1 + z) 1 (EMul (r_crhb_H_ab_vovv (2 + z) a (0 + z) (1 + z) e) (ET 13 [(1 + z); b; i; (0 + z)]))))) (ESum (0 + z) 0 (ESum (1 + z) 0 (EMul (r_crhb_H_ab_ooov (2 + z) (0 + z) (1 + z) i e) (ET 13 [a; b; (0 + z); (1 + z)]))))) (ESum (0 + z) 0 (EMul (r_crhb_H_b_ov (1 + z) (0 + z) e) (ET 13 [a; b; i; (0 + z)])))).
Definition r_crhb_H_ab_vvvo (z a b e j : nat) : ex := (ESub (EAdd (ESub (EAdd (EAdd (ESum (0 + z) 4 (EMul (r_crhb_H_chol_a_vv (1 + z) (0 + z) a e) (r_crhb_H_chol_b_vo (2 + z) (0 + z) b j))) (ESum (0 + z) 0 (ESum (1 + z) 1 (EMul (r_crhb_H_aa_vovv_1 (2 + z) a (0 + z) e (1 + z)) (ET 13 [(1 + z); b; (0 + z); j]))))) (ESum (0 + z) 0 (ESum (1 + z) 1 (EMul (r_crhb_H_ab_vovv (2 + z) a (0 + z) e (1 + z)) (ET 17 [(1 + z); b; (0 + z); j]))))) (ESum (0 + z) 0 (ESum (1 + z) 1 (EMul (r_crhb_H_ab_ovvv (2 + z) (0 + z) b e (1 + z)) (ET 13 [a; (1 + z); (0 + z); j]))))) (ESum (0 + z) 0 (ESum (1 + z) 0 (EMul (r_crhb_H_ab_oovo (2 + z) (0 + z) (1 + z) e j) (ET 13 [a; b; (0 + z); (1 + z)]))))) (ESum (0 + z) 0 (EMul (r_crhb_H_a_ov (1 + z) (0 + z) e) (ET 13 [a; b; (0 + z); j])))).
Definition vc_aa (z p q r s : nat) : ex := (EAdd (ESub (ESum (0 + z) 4 (EMul (r_chb_H_chol_a_vv (1 + z) (0 + z) p r) (r_chb_H_chol_a_vv (2 + z) (0 + z) q s))) (ESum (0 + z) 4 (EMul (r_chb_H_chol_a_vv (1 + z) (0 + z) p s) (r_chb_H_chol_a_vv (2 + z) (0 + z) q r)))) (EScale (1) 2 (ESum (0 + z) 0 (ESum (1 + z) 0 (EMul (b_aa_oovv (2 + z) (0 + z) (1 + z) r s) (ET 12 [p; q; (0 + z); (1 + z)])))))).
Definition vc_ab (z p q r s : nat) : ex := (EAdd (ESum (0 + z) 4 (EMul (r_chb_H_chol_a_vv (1 + z) (0 + z) p r) (r_chb_H_chol_b_vv (2 + z) (0 + z) q s))) (ESum (0 + z) 0 (ESum (1 + z) 2 (EMul (b_ab_oovv (2 + z) (0 + z) (1 + z) r s) (ET 13 [p; q; (0 + z); (1 + z)]))))).
Definition vc_bb (z p q r s : nat) : ex := (EAdd (ESub (ESum (0 + z) 4 (EMul (r_chb_H_chol_b_vv (1 + z) (0 + z) p r) (r_chb_H_chol_b_vv (2 + z) (0 + z) q s))) (ESum (0 + z) 4 (EMul (r_chb_H_chol_b_vv (1 + z) (0 + z) p s) (r_chb_H_chol_b_vv (2 + z) (0 + z) q r)))) (EScale (1) 2 (ESum (0 + z) 2 (ESum (1 + z) 2 (EMul (b_bb_oovv (2 + z) (0 + z) (1 + z) r s) (ET 17 [p; q; (0 + z); (1 + z)])))))).
Definition vr_aa (z p q r s : nat) : ex := (EAdd (ESub (ESum (0 + z) 4 (EMul (r_crhb_H_chol_a_vv (1 + z) (0 + z) p r) (r_crhb_H_chol_a_vv (2 + z) (0 + z) q s))) (ESum (0 + z) 4 (EMul (r_crhb_H_chol_a_vv (1 + z) (0 + z) p s) (r_crhb_H_chol_a_vv (2 + z) (0 + z) q r)))) (EScale (1) 2 (ESum (0 + z) 0 (ESum (1 + z) 0 (EMul (b_aa_oovv (2 + z) (0 + z) (1 + z) r s) (ET 12 [p; q; (0 + z); (1 + z)])))))).
Definition vr_ab (z p q r s : nat) : ex := (EAdd (ESum (0 + z) 4 (EMul (r_crhb_H_chol_a_vv (1 + z) (0 + z) p r) (r_crhb_H_chol_b_vv (2 + z) (0 + z) q s))) (ESum (0 + z) 0 (ESum (1 + z) 2 (EMul (b_ab_oovv (2 + z) (0 + z) (1 + z) r s) (ET 13 [p; q; (0 + z); (1 + z)]))))).
Definition vr_bb (z p q r s : nat) : ex := (EAdd (ESub (ESum (0 + z) 4 (EMul (r_crhb_H_chol_b_vv (1 + z) (0 + z) p r) (r_crhb_H_chol_b_vv (2 + z) (0 + z) q s))) (ESum (0 + z) 4 (EMul (r_crhb_H_chol_b_vv (1 + z) (0 + z) p s) (r_crhb_H_chol_b_vv (2 + z) (0 + z) q r)))) (EScale (1) 2 (ESum (0 + z) 2 (ESum (1 + z) 2 (EMul (b_bb_oovv (2 + z) (0 + z) (1 + z) r s) (ET 17 [p; q; (0 + z); (1 + z)])))))).
Definition p_a_oo : ex * ex := (r_hb_H_a_oo 2 0 1, r_chb_H_a_oo 2 0 1).
Definition q_a_oo : ex * ex := (r_hb_H_a_oo 2 0 1, r_crhb_H_a_oo 2 0 1).
Definition p_a_ov : ex * ex := (r_hb_H_a_ov 2 0 1, r_chb_H_a_ov 2 0 1).
Definition q_a_ov : ex * ex := (r_hb_H_a_ov 2 0 1, r_crhb_H_a_ov 2 0 1).
Definition p_a_vv : ex * ex := (r_hb_H_a_vv 2 0 1, r_chb_H_a_vv_1 2 0 1).
Definition q_a_vv : ex * ex := (r_hb_H_a_vv 2 0 1, r_crhb_H_a_vv_1 2 0 1).
Definition p_b_oo : ex * ex := (r_hb_H_b_oo 2 0 1, r_chb_H_b_oo 2 0 1).
Definition q_b_oo : ex * ex := (r_hb_H_b_oo 2 0 1, r_crhb_H_b_oo 2 0 1).
Definition p_b_ov : ex * ex := (r_hb_H_b_ov 2 0 1, r_chb_H_b_ov 2 0 1).
Definition q_b_ov : ex * ex := (r_hb_H_b_ov 2 0 1, r_crhb_H_b_ov 2 0 1).
Definition p_b_vv : ex * ex := (r_hb_H_b_vv 2 0 1, r_chb_H_b_vv_1 2 0 1).
Definition q_b_vv : ex * ex := (r_hb_H_b_vv 2 0 1, r_crhb_H_b_vv 2 0 1).
Definition p_aa_oooo : ex * ex := (r_hb_H_aa_oooo_1 4 0 1 2 3, r_chb_H_aa_oooo 4 0 1 2 3).
Definition q_aa_oooo : ex * ex := (r_hb_H_aa_oooo_1 4 0 1 2 3, r_crhb_H_aa_oooo 4 0 1 2 3).
Definition p_aa_ooov : ex * ex := (r_hb_H_aa_ooov 4 0 1 2 3, r_chb_H_aa_ooov_1 4 0 1 2 3).
Definition q_aa_ooov : ex * ex := (r_hb_H_aa_ooov 4 0 1 2 3, r_crhb_H_aa_ooov_1 4 0 1 2 3).
Definition p_aa_oovv : ex * ex := (b_aa_oovv 4 0 1 2 3, b_aa_oovv 4 0 1 2 3).
Definition q_aa_oovv : ex * ex := (b_aa_oovv 4 0 1 2 3, b_aa_oovv 4 0 1 2 3).
Definition p_aa_vooo : ex * ex := (r_hb_H_aa_vooo 4 0 1 2 3, r_chb_H_aa_vooo_1 4 0 1 2 3).
Definition q_aa_vooo : ex * ex := (r_hb_H_aa_vooo 4 0 1 2 3, r_crhb_H_aa_vooo_1 4 0 1 2 3).
Definition p_aa_voov : ex * ex := (r_hb_H_aa_voov 4 0 1 2 3, r_chb_H_aa_voov 4 0 1 2 3).
Definition q_aa_voov : ex * ex := (r_hb_H_aa_voov 4 0 1 2 3, r_crhb_H_aa_voov 4 0 1 2 3).
Definition p_aa_vovv : ex * ex := (r_hb_H_aa_vovv 4 0 1 2 3, r_chb_H_aa_vovv_1 4 0 1 2 3).
Definition q_aa_vovv : ex * ex := (r_hb_H_aa_vovv 4 0 1 2 3, r_crhb_H_aa_vovv_1 4 0 1 2 3).
Definition p_aa_vvov : ex * ex := (r_hb_H_aa_vvov_1 4 0 1 2 3, r_chb_H_aa_vvov_1 4 0 1 2 3).
Definition q_aa_vvov : ex * ex := (r_hb_H_aa_vvov_1 4 0 1 2 3, r_crhb_H_aa_vvov_1 4 0 1 2 3).
Definition p_ab_oooo : ex * ex := (r_hb_H_ab_oooo 4 0 1 2 3, r_chb_H_ab_oooo 4 0 1 2 3).
Definition q_ab_oooo : ex * ex := (r_hb_H_ab_oooo 4 0 1 2 3, r_crhb_H_ab_oooo 4 0 1 2 3).
Definition p_ab_ooov : ex * ex := (r_hb_H_ab_ooov 4 0 1 2 3, r_chb_H_ab_ooov 4 0 1 2 3).
Definition q_ab_ooov : ex * ex := (r_hb_H_ab_ooov 4 0 1 2 3, r_crhb_H_ab_ooov 4 0 1 2 3).
Definition p_ab_oovo : ex * ex := (r_hb_H_ab_oovo 4 0 1 2 3, r_chb_H_ab_oovo 4 0 1 2 3).
Definition q_ab_oovo : ex * ex := (r_hb_H_ab_oovo 4 0 1 2 3, r_crhb_H_ab_oovo 4 0 1 2 3).
Definition p_ab_oovv : ex * ex := (b_ab_oovv 4 0 1 2 3, b_ab_oovv 4 0 1 2 3).
Definition q_ab_oovv : ex * ex := (b_ab_oovv 4 0 1 2 3, b_ab_oovv 4 0 1 2 3).
Definition p_ab_ovoo : ex * ex := (r_hb_H_ab_ovoo 4 0 1 2 3, r_chb_H_ab_ovoo 4 0 1 2 3).
Definition q_ab_ovoo : ex * ex := (r_hb_H_ab_ovoo 4 0 1 2 3, r_crhb_H_ab_ovoo 4 0 1 2 3).
Definition p_ab_ovov : ex * ex := (r_hb_H_ab_ovov 4 0 1 2 3, r_chb_H_ab_ovov 4 0 1 2 3).
Definition q_ab_ovov : ex * ex := (r_hb_H_ab_ovov 4 0 1 2 3, r_crhb_H_ab_ovov 4 0 1 2 3).
Definition p_ab_ovvo : ex * ex := (r_hb_H_ab_ovvo 4 0 1 2 3, r_chb_H_ab_ovvo 4 0 1 2 3).
Definition q_ab_ovvo : ex * ex := (r_hb_H_ab_ovvo 4 0 1 2 3, r_crhb_H_ab_ovvo 4 0 1 2 3).
Definition p_ab_ovvv : ex * ex := (r_hb_H_ab_ovvv 4 0 1 2 3, r_chb_H_ab_ovvv 4 0 1 2 3).
Definition q_ab_ovvv : ex * ex := (r_hb_H_ab_ovvv 4 0 1 2 3, r_crhb_H_ab_ovvv 4 0 1 2 3).
Definition p_ab_vooo : ex * ex := (r_hb_H_ab_vooo 4 0 1 2 3, r_chb_H_ab_vooo 4 0 1 2 3).
Definition q_ab_vooo : ex * ex := (r_hb_H_ab_vooo 4 0 1 2 3, r_crhb_H_ab_vooo 4 0 1 2 3).
Definition p_ab_voov : ex * ex := (r_hb_H_ab_voov 4 0 1 2 3, r_chb_H_ab_voov 4 0 1 2 3).
Definition q_ab_voov : ex * ex := (r_hb_H_ab_voov 4 0 1 2 3, r_crhb_H_ab_voov 4 0 1 2 3).
Definition p_ab_vovo : ex * ex := (r_hb_H_ab_vovo 4 0 1 2 3, r_chb_H_ab_vovo 4 0 1 2 3).
Definition q_ab_vovo : ex * ex := (r_hb_H_ab_vovo 4 0 1 2 3, r_crhb_H_ab_vovo 4 0 1 2 3).
Definition p_ab_vovv : ex * ex := (r_hb_H_ab_vovv 4 0 1 2 3, r_chb_H_ab_vovv 4 0 1 2 3).
Definition q_ab_vovv : ex * ex := (r_hb_H_ab_vovv 4 0 1 2 3, r_crhb_H_ab_vovv 4 0 1 2 3).
Definition p_ab_vvov : ex * ex := (r_hb_H_ab_vvov 4 0 1 2 3, r_chb_H_ab_vvov 4 0 1 2 3).
Definition q_ab_vvov : ex * ex := (r_hb_H_ab_vvov 4 0 1 2 3, r_crhb_H_ab_vvov 4 0 1 2 3).
Definition p_ab_vvvo : ex * ex := (r_hb_H_ab_vvvo 4 0 1 2 3, r_chb_H_ab_vvvo 4 0 1 2 3).
Definition q_ab_vvvo : ex * ex := (r_hb_H_ab_vvvo 4 0 1 2 3, r_crhb_H_ab_vvvo 4 0 1 2 3).
Definition p_bb_oooo : ex * ex := (r_hb_H_bb_oooo_1 4 0 1 2 3, r_chb_H_bb_oooo 4 0 1 2 3).
Definition q_bb_oooo : ex * ex := (r_hb_H_bb_oooo_1 4 0 1 2 3, r_crhb_H_bb_oooo 4 0 1 2 3).
Definition p_bb_ooov : ex * ex := (r_hb_H_bb_ooov 4 0 1 2 3, r_chb_H_bb_ooov_1 4 0 1 2 3).
Definition q_bb_ooov : ex * ex := (r_hb_H_bb_ooov 4 0 1 2 3, r_crhb_H_bb_ooov 4 0 1 2 3).
Definition p_bb_oovv : ex * ex := (b_bb_oovv 4 0 1 2 3, b_bb_oovv 4 0 1 2 3).
Definition q_bb_oovv : ex * ex := (b_bb_oovv 4 0 1 2 3, b_bb_oovv 4 0 1 2 3).
Definition p_bb_vooo : ex * ex := (r_hb_H_bb_vooo 4 0 1 2 3, r_chb_H_bb_vooo_1 4 0 1 2 3).
Definition q_bb_vooo : ex * ex := (r_hb_H_bb_vooo 4 0 1 2 3, r_crhb_H_bb_vooo 4 0 1 2 3).
Definition p_bb_voov : ex * ex := (r_hb_H_bb_voov 4 0 1 2 3, r_chb_H_bb_voov 4 0 1 2 3).
Definition q_bb_voov : ex * ex := (r_hb_H_bb_voov 4 0 1 2 3, r_crhb_H_bb_voov 4 0 1 2 3).
Definition p_bb_vovv : ex * ex := (r_hb_H_bb_vovv 4 0 1 2 3, r_chb_H_bb_vovv_1 4 0 1 2 3).
Definition q_bb_vovv : ex * ex := (r_hb_H_bb_vovv 4 0 1 2 3, r_crhb_H_bb_vovv 4 0 1 2 3).
Definition p_bb_vvov : ex * ex := (r_hb_H_bb_vvov_1 4 0 1 2 3, r_chb_H_bb_vvov_1 4 0 1 2 3).
Definition q_bb_vvov : ex * ex := (r_hb_H_bb_vvov_1 4 0 1 2 3, r_crhb_H_bb_vvov 4 0 1 2 3).
Definition p_aa_vvvv : ex * ex := (r_hb_H_aa_vvvv_1 4 0 1 2 3, vc_aa 4 0 1 2 3).
Definition q_aa_vvvv : ex * ex := (r_hb_H_aa_vvvv_1 4 0 1 2 3, vr_aa 4 0 1 2 3).
Definition p_ab_vvvv : ex * ex := (r_hb_H_ab_vvvv 4 0 1 2 3, vc_ab 4 0 1 2 3).
Definition q_ab_vvvv : ex * ex := (r_hb_H_ab_vvvv 4 0 1 2 3, vr_ab 4 0 1 2 3).
Definition p_bb_vvvv : ex * ex := (r_hb_H_bb_vvvv_1 4 0 1 2 3, vc_bb 4 0 1 2 3).
Definition q_bb_vvvv : ex * ex := (r_hb_H_bb_vvvv_1 4 0 1 2 3, vr_bb 4 0 1 2 3).
Definition all_p := [p_a_oo; p_a_ov; p_a_vv; p_b_oo; p_b_ov; p_b_vv; p_aa_oooo; p_aa_ooov; p_aa_oovv; p_aa_vooo; p_aa_voov; p_aa_vovv; p_aa_vvov; p_ab_oooo; p_ab_ooov; p_ab_oovo; p_ab_oovv; p_ab_ovoo; p_ab_ovov; p_ab_ovvo; p_ab_ovvv; p_ab_vooo; p_ab_voov; p_ab_vovo; p_ab_vovv; p_ab_vvov; p_ab_vvvo; p_bb_oooo; p_bb_ooov; p_bb_oovv; p_bb_vooo; p_bb_voov; p_bb_vovv; p_bb_vvov; p_aa_vvvv; p_ab_vvvv; p_bb_vvvv].
Definition all_q := [q_a_oo; q_a_ov; q_a_vv; q_b_oo; q_b_ov; q_b_vv; q_aa_oooo; q_aa_ooov; q_aa_oovv; q_aa_vooo; q_aa_voov; q_aa_vovv; q_aa_vvov; q_ab_oooo; q_ab_ooov; q_ab_oovo; q_ab_oovv; q_ab_ovoo; q_ab_ovov; q_ab_ovvo; q_ab_ovvv; q_ab_vooo; q_ab_voov; q_ab_vovo; q_ab_vovv; q_ab_vvov; q_ab_vvvo; q_bb_oooo; q_bb_ooov; q_bb_oovv; q_bb_vooo; q_bb_voov; q_bb_vovv; q_bb_vvov; q_aa_vvvv; q_ab_vvvv; q_bb_vvvv].
Definition chb_arrays (d : dims) (nx : nat) (C : chol) (H : ints) (T : amps) := [ap3 (c_a_oo C);
  ap3 (c_a_ov C);
  ap3 (c_a_vo C);
  ap3 (c_a_vv C);
  ap3 (c_b_oo C);
  ap3 (c_b_ov C);
  ap3 (c_b_vo C);
  ap3 (c_b_vv C);
  ap2 (i_a_ov H);
  ap2 (x_a T);
  ap2 (x_b T);
  ap2 (i_a_oo H);
  ap4 (x_aa T);
  ap4 (x_ab T);
  ap2 (i_a_vv H);
  ap2 (i_b_ov H);
  ap2 (i_b_oo H);
  ap4 (x_bb T);
  ap2 (i_b_vv H)].
Definition chb_gens : list (nat * (nat * list nat * bool)) := [(12, (12, [1; 0; 2; 3], false));
  (12, (12, [0; 1; 3; 2], false));
  (17, (17, [1; 0; 2; 3], false));
  (17, (17, [0; 1; 3; 2], false))].
Definition chb_tab := Eval vm_compute in symtab chb_gens 19.
Definition chbc_arrays (d : dims) (nx : nat) (C : chol) (H : ints) (T : amps) := [ap3 (c_a_oo C);
  ap3 (c_a_ov C);
  ap3 (c_a_vo C);
  ap3 (c_a_vv C);
  ap3 (c_b_oo C);
  ap3 (c_b_ov C);
  ap3 (c_b_vo C);
  ap3 (c_b_vv C);
  ap2 (i_a_ov H);
  ap2 (x_a T);
  ap2 (x_b T);
  ap2 (i_a_oo H);
  ap4 (x_aa T);
  ap4 (x_ab T);
  ap2 (i_a_vv H);
  ap2 (i_b_ov H);
  ap2 (i_b_oo H);
  ap4 (x_bb T);
  ap2 (i_b_vv H)].
Definition chbc_gens : list (nat * (nat * list nat * bool)) := [(4, (0, [0; 1; 2], true));
  (5, (1, [0; 1; 2], true));
  (6, (2, [0; 1; 2], true));
  (7, (3, [0; 1; 2], true));
  (10, (9, [0; 1], true));
  (12, (12, [1; 0; 2; 3], false));
  (12, (12, [0; 1; 3; 2], false));
  (13, (13, [1; 0; 3; 2], true));
  (15, (8, [0; 1], true));
  (16, (11, [0; 1], true));
  (17, (17, [1; 0; 2; 3], false));
  (17, (17, [0; 1; 3; 2], false));
  (17, (12, [0; 1; 2; 3], true));
  (18, (14, [0; 1], true))].
Definition chbc_tab := Eval vm_compute in symtab chbc_gens 19.
