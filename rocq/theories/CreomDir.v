(** Generated by tools/gen_creom.py: the derivative of blocks of the CCSD similarity-transformed Hamiltonian along a direction Y, and its reification (proof support). *)
From Coq Require Import Reals Arith List ZArith.
From Verif Require Import RSum IntegralsModel TensorObjs TensorAlg CrccModel CreomModel CcsdModel.
Import ListNotations.
Local Open Scope R_scope.
(** derivative of the block a_ov of the similarity-transformed Hamiltonian along Y *)
Definition creom_G_a_ov (d : dims) (H0 H : ints) (T Y L : amps) : mat2 := fun m e =>
  creom_X_a_ov d H0 H T Y L m e.
(** derivative of the block b_ov of the similarity-transformed Hamiltonian along Y *)
Definition creom_G_b_ov (d : dims) (H0 H : ints) (T Y L : amps) : mat2 := fun m e =>
  creom_X_b_ov d H0 H T Y L m e.
(** derivative of the block aa_vooo of the similarity-transformed Hamiltonian along Y *)
Definition creom_G_aa_vooo (d : dims) (H0 H : ints) (T Y L : amps) : mat4 := fun b m j i =>
  creom_X_aa_vooo_1 d H0 H T Y L b m j i + sumn (nua d) (fun e => (creom_X_a_ov d H0 H T Y L m e) * (x_aa T b e j i)) + sumn (nua d) (fun e => (i_a_ov H m e) * (x_aa Y b e j i)).
(** derivative of the block aa_vvov of the similarity-transformed Hamiltonian along Y *)
Definition creom_G_aa_vvov (d : dims) (H0 H : ints) (T Y L : amps) : mat4 := fun b a j e =>
  creom_X_aa_vvov_1 d H0 H T Y L b a j e - sumn (noa d) (fun m => (i_a_ov H m e) * (x_aa Y b a j m)).
(** derivative of the block bb_vooo of the similarity-transformed Hamiltonian along Y *)
Definition creom_G_bb_vooo (d : dims) (H0 H : ints) (T Y L : amps) : mat4 := fun b n j i =>
  creom_X_bb_vooo_1 d H0 H T Y L b n j i + sumn (nub d) (fun e => (creom_X_b_ov d H0 H T Y L n e) * (x_bb T b e j i)) + sumn (nub d) (fun e => (i_b_ov H n e) * (x_bb Y b e j i)).
(** derivative of the block bb_vvov of the similarity-transformed Hamiltonian along Y *)
Definition creom_G_bb_vvov (d : dims) (H0 H : ints) (T Y L : amps) : mat4 := fun b a j e =>
  creom_X_bb_vvov_1 d H0 H T Y L b a j e - sumn (nob d) (fun m => (i_b_ov H m e) * (x_bb Y b a j m)).
(** derivative of the block ab_ovoo of the similarity-transformed Hamiltonian along Y *)
Definition creom_G_ab_ovoo (d : dims) (H0 H : ints) (T Y L : amps) : mat4 := fun n c j k =>
  creom_X_ab_ovoo d H0 H T Y L n c j k + sumn (nua d) (fun e => (creom_X_a_ov d H0 H T Y L n e) * (x_ab T e c j k)) + sumn (nua d) (fun e => (i_a_ov H n e) * (x_ab Y e c j k)).
(** derivative of the block ab_vooo of the similarity-transformed Hamiltonian along Y *)
Definition creom_G_ab_vooo (d : dims) (H0 H : ints) (T Y L : amps) : mat4 := fun b n j k =>
  creom_X_ab_vooo d H0 H T Y L b n j k + sumn (nub d) (fun e => (creom_X_b_ov d H0 H T Y L n e) * (x_ab T b e j k)) + sumn (nub d) (fun e => (i_b_ov H n e) * (x_ab Y b e j k)).
(** derivative of the block ab_vvvo of the similarity-transformed Hamiltonian along Y *)
Definition creom_G_ab_vvvo (d : dims) (H0 H : ints) (T Y L : amps) : mat4 := fun b c e k =>
  creom_X_ab_vvvo d H0 H T Y L b c e k - sumn (noa d) (fun m => (i_a_ov H m e) * (x_ab Y b c m k)).
(** derivative of the block ab_vvov of the similarity-transformed Hamiltonian along Y *)
Definition creom_G_ab_vvov (d : dims) (H0 H : ints) (T Y L : amps) : mat4 := fun b c j e =>
  creom_X_ab_vvov d H0 H T Y L b c j e - sumn (nob d) (fun m => (i_b_ov H m e) * (x_ab Y b c j m)).
Local Open Scope nat_scope.
Definition cd_hb_H_a_ov (z i a : nat) : ex := (EAdd (ET 0 [i; a]) (EAdd (ESum (0 + z) 0 (ESum (1 + z) 1 (EMul (ET 1 [i; (0 + z); a; (1 + z)]) (ET 2 [(1 + z); (0 + z)])))) (ESum (0 + z) 2 (ESum (1 + z) 3 (EMul (ET 3 [i; (0 + z); a; (1 + z)]) (ET 4 [(1 + z); (0 + z)])))))).
Definition cd_hb_H_a_oo (z i j : nat) : ex := (EAdd (ET 5 [i; j]) (EAdd (EAdd (EAdd (EAdd (ESum (0 + z) 1 (EMul (cd_hb_H_a_ov (1 + z) i (0 + z)) (ET 2 [(0 + z); j]))) (ESum (0 + z) 0 (ESum (1 + z) 1 (EMul (ET 6 [i; (0 + z); j; (1 + z)]) (ET 2 [(1 + z); (0 + z)]))))) (ESum (0 + z) 2 (ESum (1 + z) 3 (EMul (ET 7 [i; (0 + z); j; (1 + z)]) (ET 4 [(1 + z); (0 + z)]))))) (EScale (1) 2 (ESum (0 + z) 0 (ESum (1 + z) 1 (ESum (2 + z) 1 (EMul (ET 1 [i; (0 + z); (1 + z); (2 + z)]) (ET 8 [(1 + z); (2 + z); j; (0 + z)]))))))) (ESum (0 + z) 2 (ESum (1 + z) 1 (ESum (2 + z) 3 (EMul (ET 3 [i; (0 + z); (1 + z); (2 + z)]) (ET 9 [(1 + z); (2 + z); j; (0 + z)]))))))).
Definition cd_hb_H_a_vv (z a b : nat) : ex := (EAdd (ET 10 [a; b]) (ESub (ESub (EAdd (EAdd (EOpp (ESum (0 + z) 0 (EMul (cd_hb_H_a_ov (1 + z) (0 + z) b) (ET 2 [a; (0 + z)])))) (ESum (0 + z) 0 (ESum (1 + z) 1 (EMul (ET 11 [a; (0 + z); b; (1 + z)]) (ET 2 [(1 + z); (0 + z)]))))) (ESum (0 + z) 2 (ESum (1 + z) 3 (EMul (ET 12 [a; (0 + z); b; (1 + z)]) (ET 4 [(1 + z); (0 + z)]))))) (EScale (1) 2 (ESum (0 + z) 0 (ESum (1 + z) 0 (ESum (2 + z) 1 (EMul (ET 1 [(0 + z); (1 + z); b; (2 + z)]) (ET 8 [a; (2 + z); (0 + z); (1 + z)]))))))) (ESum (0 + z) 0 (ESum (1 + z) 2 (ESum (2 + z) 3 (EMul (ET 3 [(0 + z); (1 + z); b; (2 + z)]) (ET 9 [a; (2 + z); (0 + z); (1 + z)]))))))).
Definition cd_hb_H_b_ov (z i a : nat) : ex := (EAdd (ET 13 [i; a]) (EAdd (ESum (0 + z) 2 (ESum (1 + z) 3 (EMul (ET 14 [i; (0 + z); a; (1 + z)]) (ET 4 [(1 + z); (0 + z)])))) (ESum (0 + z) 0 (ESum (1 + z) 1 (EMul (ET 3 [(0 + z); i; (1 + z); a]) (ET 2 [(1 + z); (0 + z)])))))).
Definition cd_hb_H_b_oo (z i j : nat) : ex := (EAdd (ET 15 [i; j]) (EAdd (EAdd (EAdd (EAdd (ESum (0 + z) 3 (EMul (cd_hb_H_b_ov (1 + z) i (0 + z)) (ET 4 [(0 + z); j]))) (ESum (0 + z) 2 (ESum (1 + z) 3 (EMul (ET 16 [i; (0 + z); j; (1 + z)]) (ET 4 [(1 + z); (0 + z)]))))) (ESum (0 + z) 0 (ESum (1 + z) 1 (EMul (ET 17 [(0 + z); i; (1 + z); j]) (ET 2 [(1 + z); (0 + z)]))))) (EScale (1) 2 (ESum (0 + z) 2 (ESum (1 + z) 3 (ESum (2 + z) 3 (EMul (ET 14 [i; (0 + z); (1 + z); (2 + z)]) (ET 18 [(1 + z); (2 + z); j; (0 + z)]))))))) (ESum (0 + z) 0 (ESum (1 + z) 1 (ESum (2 + z) 3 (EMul (ET 3 [(0 + z); i; (1 + z); (2 + z)]) (ET 9 [(1 + z); (2 + z); (0 + z); j]))))))).
Definition cd_hb_H_b_vv (z a b : nat) : ex := (EAdd (ET 19 [a; b]) (ESub (ESub (EAdd (EAdd (EOpp (ESum (0 + z) 2 (EMul (cd_hb_H_b_ov (1 + z) (0 + z) b) (ET 4 [a; (0 + z)])))) (ESum (0 + z) 2 (ESum (1 + z) 3 (EMul (ET 20 [a; (0 + z); b; (1 + z)]) (ET 4 [(1 + z); (0 + z)]))))) (ESum (0 + z) 0 (ESum (1 + z) 1 (EMul (ET 21 [(0 + z); a; (1 + z); b]) (ET 2 [(1 + z); (0 + z)]))))) (EScale (1) 2 (ESum (0 + z) 2 (ESum (1 + z) 2 (ESum (2 + z) 3 (EMul (ET 14 [(0 + z); (1 + z); b; (2 + z)]) (ET 18 [a; (2 + z); (0 + z); (1 + z)]))))))) (ESum (0 + z) 0 (ESum (1 + z) 2 (ESum (2 + z) 1 (EMul (ET 3 [(0 + z); (1 + z); (2 + z); b]) (ET 9 [(2 + z); a; (0 + z); (1 + z)]))))))).
Definition cd_hb_tau_aa (z a b i j : nat) : ex := (EAdd (EScale (1) 2 (ET 8 [a; b; i; j])) (EMul (ET 2 [a; i]) (ET 2 [b; j]))).
Definition cd_hb_tau_aa_1 (z a b i j : nat) : ex := (ESub (cd_hb_tau_aa (0 + z) a b i j) (cd_hb_tau_aa (0 + z) a b j i)).
Definition cd_hb_tau_bb (z a b i j : nat) : ex := (EAdd (EScale (1) 2 (ET 18 [a; b; i; j])) (EMul (ET 4 [a; i]) (ET 4 [b; j]))).
Definition cd_hb_tau_bb_1 (z a b i j : nat) : ex := (ESub (cd_hb_tau_bb (0 + z) a b i j) (cd_hb_tau_bb (0 + z) a b j i)).
Definition cd_hb_tau_ab (z a b i j : nat) : ex := (EAdd (ET 9 [a; b; i; j]) (EMul (ET 2 [a; i]) (ET 4 [b; j]))).
Definition cd_hb_H_aa_oooo (z m n i j : nat) : ex := (EAdd (EAdd (EScale (1) 2 (ET 22 [m; n; i; j])) (ESum (0 + z) 1 (EMul (ET 6 [n; m; j; (0 + z)]) (ET 2 [(0 + z); i])))) (EScale (1) 4 (ESum (0 + z) 1 (ESum (1 + z) 1 (EMul (ET 1 [m; n; (0 + z); (1 + z)]) (cd_hb_tau_aa_1 (2 + z) (0 + z) (1 + z) i j)))))).
Definition cd_hb_H_aa_oooo_1 (z m n i j : nat) : ex := (ESub (cd_hb_H_aa_oooo (0 + z) m n i j) (cd_hb_H_aa_oooo (0 + z) m n j i)).
Definition cd_hb_H_bb_oooo (z m n i j : nat) : ex := (EAdd (EAdd (EScale (1) 2 (ET 23 [m; n; i; j])) (ESum (0 + z) 3 (EMul (ET 16 [n; m; j; (0 + z)]) (ET 4 [(0 + z); i])))) (EScale (1) 4 (ESum (0 + z) 3 (ESum (1 + z) 3 (EMul (ET 14 [m; n; (0 + z); (1 + z)]) (cd_hb_tau_bb_1 (2 + z) (0 + z) (1 + z) i j)))))).
Definition cd_hb_H_bb_oooo_1 (z m n i j : nat) : ex := (ESub (cd_hb_H_bb_oooo (0 + z) m n i j) (cd_hb_H_bb_oooo (0 + z) m n j i)).
Definition cd_hb_H_ab_oooo (z m n i j : nat) : ex := (EAdd (EAdd (EAdd (ET 24 [m; n; i; j]) (ESum (0 + z) 1 (EMul (ET 17 [m; n; (0 + z); j]) (ET 2 [(0 + z); i])))) (ESum (0 + z) 3 (EMul (ET 7 [m; n; i; (0 + z)]) (ET 4 [(0 + z); j])))) (ESum (0 + z) 1 (ESum (1 + z) 3 (EMul (ET 3 [m; n; (0 + z); (1 + z)]) (cd_hb_tau_ab (2 + z) (0 + z) (1 + z) i j))))).
Definition cd_hb_H_aa_ooov (z i j k a : nat) : ex := (EAdd (ET 6 [i; j; k; a]) (ESum (0 + z) 1 (EMul (ET 1 [i; j; (0 + z); a]) (ET 2 [(0 + z); k])))).
Definition cd_hb_H_bb_ooov (z i j k a : nat) : ex := (EAdd (ET 16 [i; j; k; a]) (ESum (0 + z) 3 (EMul (ET 14 [i; j; (0 + z); a]) (ET 4 [(0 + z); k])))).
Definition cd_hb_H_ab_ooov (z i j k a : nat) : ex := (EAdd (ET 7 [i; j; k; a]) (ESum (0 + z) 1 (EMul (ET 3 [i; j; (0 + z); a]) (ET 2 [(0 + z); k])))).
Definition cd_hb_H_ab_oovo (z i j a k : nat) : ex := (EAdd (ET 17 [i; j; a; k]) (ESum (0 + z) 3 (EMul (ET 3 [i; j; a; (0 + z)]) (ET 4 [(0 + z); k])))).
Definition cd_hb_Q1 (z a m i j : nat) : ex := (EAdd (ESum (0 + z) 0 (ESum (1 + z) 1 (EMul (cd_hb_H_aa_ooov (2 + z) m (0 + z) j (1 + z)) (ET 8 [a; (1 + z); i; (0 + z)])))) (ESum (0 + z) 2 (ESum (1 + z) 3 (EMul (cd_hb_H_ab_ooov (2 + z) m (0 + z) j (1 + z)) (ET 9 [a; (1 + z); i; (0 + z)]))))).
Definition cd_hb_Q2 (z a m i f : nat) : ex := (EAdd (ET 25 [a; m; i; f]) (EScale (1) 2 (ESum (0 + z) 1 (EMul (ET 11 [a; m; (0 + z); f]) (ET 2 [(0 + z); i]))))).
Definition cd_hb_Q2_1 (z a m i j : nat) : ex := (ESum (0 + z) 1 (EMul (cd_hb_Q2 (1 + z) a m i (0 + z)) (ET 2 [(0 + z); j]))).
Definition cd_hb_Q1_1 (z a m i j : nat) : ex := (EAdd (cd_hb_Q1 (0 + z) a m i j) (cd_hb_Q2_1 (0 + z) a m i j)).
Definition cd_hb_Q1_2 (z a m i j : nat) : ex := (ESub (cd_hb_Q1_1 (0 + z) a m i j) (cd_hb_Q1_1 (0 + z) a m j i)).
Definition cd_hb_H_aa_vooo (z a m i j : nat) : ex := (EAdd (EAdd (ET 26 [a; m; i; j]) (cd_hb_Q1_2 (0 + z) a m i j)) (EAdd (ESub (ESum (0 + z) 1 (EMul (cd_hb_H_a_ov (1 + z) m (0 + z)) (ET 8 [a; (0 + z); i; j]))) (ESum (0 + z) 0 (EMul (cd_hb_H_aa_oooo_1 (1 + z) (0 + z) m i j) (ET 2 [a; (0 + z)])))) (EScale (1) 2 (ESum (0 + z) 1 (ESum (1 + z) 1 (EMul (ET 11 [a; m; (0 + z); (1 + z)]) (ET 8 [(0 + z); (1 + z); i; j]))))))).
Definition cd_hb_Q1_3 (z a m i j : nat) : ex := (EAdd (ESum (0 + z) 2 (ESum (1 + z) 3 (EMul (cd_hb_H_bb_ooov (2 + z) m (0 + z) j (1 + z)) (ET 18 [a; (1 + z); i; (0 + z)])))) (ESum (0 + z) 0 (ESum (1 + z) 1 (EMul (cd_hb_H_ab_oovo (2 + z) (0 + z) m (1 + z) j) (ET 9 [(1 + z); a; (0 + z); i]))))).
Definition cd_hb_Q2_2 (z a m i f : nat) : ex := (EAdd (ET 27 [a; m; i; f]) (EScale (1) 2 (ESum (0 + z) 3 (EMul (ET 20 [a; m; (0 + z); f]) (ET 4 [(0 + z); i]))))).
Definition cd_hb_Q2_3 (z a m i j : nat) : ex := (ESum (0 + z) 3 (EMul (cd_hb_Q2_2 (1 + z) a m i (0 + z)) (ET 4 [(0 + z); j]))).
Definition cd_hb_Q1_4 (z a m i j : nat) : ex := (EAdd (cd_hb_Q1_3 (0 + z) a m i j) (cd_hb_Q2_3 (0 + z) a m i j)).
Definition cd_hb_Q1_5 (z a m i j : nat) : ex := (ESub (cd_hb_Q1_4 (0 + z) a m i j) (cd_hb_Q1_4 (0 + z) a m j i)).
Definition cd_hb_H_bb_vooo (z a m i j : nat) : ex := (EAdd (EAdd (ET 28 [a; m; i; j]) (cd_hb_Q1_5 (0 + z) a m i j)) (EAdd (ESub (ESum (0 + z) 3 (EMul (cd_hb_H_b_ov (1 + z) m (0 + z)) (ET 18 [a; (0 + z); i; j]))) (ESum (0 + z) 2 (EMul (cd_hb_H_bb_oooo_1 (1 + z) (0 + z) m i j) (ET 4 [a; (0 + z)])))) (EScale (1) 2 (ESum (0 + z) 3 (ESum (1 + z) 3 (EMul (ET 20 [a; m; (0 + z); (1 + z)]) (ET 18 [(0 + z); (1 + z); i; j]))))))).
Definition cd_hb_Q1_6 (z a m i e : nat) : ex := (EAdd (ET 29 [a; m; i; e]) (ESum (0 + z) 1 (EMul (ET 12 [a; m; (0 + z); e]) (ET 2 [(0 + z); i])))).
Definition cd_hb_H_ab_vooo (z a m i j : nat) : ex := (EAdd (ET 30 [a; m; i; j]) (EAdd (EAdd (EAdd (ESub (EAdd (EAdd (ESub (ESum (0 + z) 3 (EMul (cd_hb_H_b_ov (1 + z) m (0 + z)) (ET 9 [a; (0 + z); i; j]))) (ESum (0 + z) 0 (EMul (cd_hb_H_ab_oooo (1 + z) (0 + z) m i j) (ET 2 [a; (0 + z)])))) (ESum (0 + z) 2 (ESum (1 + z) 3 (EMul (cd_hb_H_bb_ooov (2 + z) m (0 + z) j (1 + z)) (ET 9 [a; (1 + z); i; (0 + z)]))))) (ESum (0 + z) 0 (ESum (1 + z) 1 (EMul (cd_hb_H_ab_oovo (2 + z) (0 + z) m (1 + z) j) (ET 8 [a; (1 + z); i; (0 + z)]))))) (ESum (0 + z) 0 (ESum (1 + z) 3 (EMul (cd_hb_H_ab_ooov (2 + z) (0 + z) m i (1 + z)) (ET 9 [a; (1 + z); (0 + z); j]))))) (ESum (0 + z) 1 (EMul (ET 31 [a; m; (0 + z); j]) (ET 2 [(0 + z); i])))) (ESum (0 + z) 3 (EMul (cd_hb_Q1_6 (1 + z) a m i (0 + z)) (ET 4 [(0 + z); j])))) (ESum (0 + z) 1 (ESum (1 + z) 3 (EMul (ET 12 [a; m; (0 + z); (1 + z)]) (ET 9 [(0 + z); (1 + z); i; j])))))).
Definition cd_hb_Q1_7 (z m a j e : nat) : ex := (EAdd (ET 32 [m; a; j; e]) (ESum (0 + z) 1 (EMul (ET 21 [m; a; (0 + z); e]) (ET 2 [(0 + z); j])))).
Definition cd_hb_H_ab_ovoo (z m a j i : nat) : ex := (EAdd (ET 33 [m; a; j; i]) (EAdd (EAdd (EAdd (ESub (EAdd (EAdd (ESub (ESum (0 + z) 1 (EMul (cd_hb_H_a_ov (1 + z) m (0 + z)) (ET 9 [(0 + z); a; j; i]))) (ESum (0 + z) 2 (EMul (cd_hb_H_ab_oooo (1 + z) m (0 + z) j i) (ET 4 [a; (0 + z)])))) (ESum (0 + z) 0 (ESum (1 + z) 1 (EMul (cd_hb_H_aa_ooov (2 + z) m (0 + z) j (1 + z)) (ET 9 [(1 + z); a; (0 + z); i]))))) (ESum (0 + z) 2 (ESum (1 + z) 3 (EMul (cd_hb_H_ab_ooov (2 + z) m (0 + z) j (1 + z)) (ET 18 [(1 + z); a; (0 + z); i]))))) (ESum (0 + z) 2 (ESum (1 + z) 1 (EMul (cd_hb_H_ab_oovo (2 + z) m (0 + z) (1 + z) i) (ET 9 [(1 + z); a; j; (0 + z)]))))) (ESum (0 + z) 3 (EMul (cd_hb_Q1_7 (1 + z) m a j (0 + z)) (ET 4 [(0 + z); i])))) (ESum (0 + z) 1 (EMul (ET 34 [m; a; (0 + z); i]) (ET 2 [(0 + z); j])))) (ESum (0 + z) 1 (ESum (1 + z) 3 (EMul (ET 21 [m; a; (0 + z); (1 + z)]) (ET 9 [(0 + z); (1 + z); j; i])))))).
Definition cd_hb_H_aa_voov (z a m i e : nat) : ex := (EAdd (EAdd (ESub (EAdd (ET 25 [a; m; i; e]) (ESum (0 + z) 1 (EMul (ET 11 [a; m; (0 + z); e]) (ET 2 [(0 + z); i])))) (ESum (0 + z) 0 (EMul (cd_hb_H_aa_ooov (1 + z) (0 + z) m i e) (ET 2 [a; (0 + z)])))) (ESum (0 + z) 0 (ESum (1 + z) 1 (EMul (ET 1 [(0 + z); m; (1 + z); e]) (ET 8 [a; (1 + z); i; (0 + z)]))))) (ESum (0 + z) 2 (ESum (1 + z) 3 (EMul (ET 3 [m; (0 + z); e; (1 + z)]) (ET 9 [a; (1 + z); i; (0 + z)]))))).
Definition cd_hb_H_bb_voov (z a m i e : nat) : ex := (EAdd (EAdd (ESub (EAdd (ET 27 [a; m; i; e]) (ESum (0 + z) 3 (EMul (ET 20 [a; m; (0 + z); e]) (ET 4 [(0 + z); i])))) (ESum (0 + z) 2 (EMul (cd_hb_H_bb_ooov (1 + z) (0 + z) m i e) (ET 4 [a; (0 + z)])))) (ESum (0 + z) 2 (ESum (1 + z) 3 (EMul (ET 14 [(0 + z); m; (1 + z); e]) (ET 18 [a; (1 + z); i; (0 + z)]))))) (ESum (0 + z) 0 (ESum (1 + z) 1 (EMul (ET 3 [(0 + z); m; (1 + z); e]) (ET 9 [(1 + z); a; (0 + z); i]))))).
Definition cd_hb_H_ab_voov (z a m i e : nat) : ex := (EAdd (EAdd (ESub (EAdd (ET 29 [a; m; i; e]) (ESum (0 + z) 1 (EMul (ET 12 [a; m; (0 + z); e]) (ET 2 [(0 + z); i])))) (ESum (0 + z) 0 (EMul (cd_hb_H_ab_ooov (1 + z) (0 + z) m i e) (ET 2 [a; (0 + z)])))) (ESum (0 + z) 0 (ESum (1 + z) 1 (EMul (ET 3 [(0 + z); m; (1 + z); e]) (ET 8 [a; (1 + z); i; (0 + z)]))))) (ESum (0 + z) 2 (ESum (1 + z) 3 (EMul (ET 14 [(0 + z); m; (1 + z); e]) (ET 9 [a; (1 + z); i; (0 + z)]))))).
Definition cd_hb_H_ab_ovvo (z m a e i : nat) : ex := (EAdd (EAdd (ESub (EAdd (ET 34 [m; a; e; i]) (ESum (0 + z) 3 (EMul (ET 21 [m; a; e; (0 + z)]) (ET 4 [(0 + z); i])))) (ESum (0 + z) 2 (EMul (cd_hb_H_ab_oovo (1 + z) m (0 + z) e i) (ET 4 [a; (0 + z)])))) (ESum (0 + z) 2 (ESum (1 + z) 3 (EMul (ET 3 [m; (0 + z); e; (1 + z)]) (ET 18 [a; (1 + z); i; (0 + z)]))))) (ESum (0 + z) 0 (ESum (1 + z) 1 (EMul (ET 1 [m; (0 + z); e; (1 + z)]) (ET 9 [(1 + z); a; (0 + z); i]))))).
Definition cd_hb_H_ab_ovov (z m a i e : nat) : ex := (ESub (ESub (EAdd (ET 32 [m; a; i; e]) (ESum (0 + z) 1 (EMul (ET 21 [m; a; (0 + z); e]) (ET 2 [(0 + z); i])))) (ESum (0 + z) 2 (EMul (cd_hb_H_ab_ooov (1 + z) m (0 + z) i e) (ET 4 [a; (0 + z)])))) (ESum (0 + z) 2 (ESum (1 + z) 1 (EMul (ET 3 [m; (0 + z); (1 + z); e]) (ET 9 [(1 + z); a; i; (0 + z)]))))).
Definition cd_hb_H_ab_vovo (z a m e i : nat) : ex := (ESub (EAdd (ESub (ET 31 [a; m; e; i]) (ESum (0 + z) 0 (EMul (cd_hb_H_ab_oovo (1 + z) (0 + z) m e i) (ET 2 [a; (0 + z)])))) (ESum (0 + z) 3 (EMul (ET 12 [a; m; e; (0 + z)]) (ET 4 [(0 + z); i])))) (ESum (0 + z) 0 (ESum (1 + z) 3 (EMul (ET 3 [(0 + z); m; e; (1 + z)]) (ET 9 [a; (1 + z); (0 + z); i]))))).
Definition cd_hb_x2a_voov (z a m i e : nat) : ex := (EAdd (cd_hb_H_aa_voov (0 + z) a m i e) (EScale (1) 2 (ESum (0 + z) 0 (EMul (cd_hb_H_aa_ooov (1 + z) (0 + z) m i e) (ET 2 [a; (0 + z)]))))).
Definition cd_hb_H_aa_vvov (z a b i e : nat) : ex := (EAdd (EAdd (EAdd (EAdd (ESub (ESub (EScale (1) 2 (ET 35 [a; b; i; e])) (EScale (1) 2 (ESum (0 + z) 0 (EMul (cd_hb_H_a_ov (1 + z) (0 + z) e) (ET 8 [a; b; i; (0 + z)]))))) (ESum (0 + z) 0 (EMul (cd_hb_x2a_voov (1 + z) a (0 + z) i e) (ET 2 [b; (0 + z)])))) (EScale (1) 4 (ESum (0 + z) 0 (ESum (1 + z) 0 (EMul (cd_hb_H_aa_ooov (2 + z) (0 + z) (1 + z) i e) (ET 8 [a; b; (0 + z); (1 + z)])))))) (EScale (1) 2 (ESum (0 + z) 1 (EMul (ET 36 [a; b; (0 + z); e]) (ET 2 [(0 + z); i]))))) (ESum (0 + z) 0 (ESum (1 + z) 1 (EMul (ET 11 [b; (0 + z); e; (1 + z)]) (ET 8 [a; (1 + z); i; (0 + z)]))))) (ESum (0 + z) 2 (ESum (1 + z) 3 (EMul (ET 12 [b; (0 + z); e; (1 + z)]) (ET 9 [a; (1 + z); i; (0 + z)]))))).
Definition cd_hb_H_aa_vvov_1 (z a b i e : nat) : ex := (ESub (cd_hb_H_aa_vvov (0 + z) a b i e) (cd_hb_H_aa_vvov (0 + z) b a i e)).
Definition cd_hb_x2c_voov (z a m i e : nat) : ex := (EAdd (cd_hb_H_bb_voov (0 + z) a m i e) (EScale (1) 2 (ESum (0 + z) 2 (EMul (cd_hb_H_bb_ooov (1 + z) (0 + z) m i e) (ET 4 [a; (0 + z)]))))).
Definition cd_hb_H_bb_vvov (z a b i e : nat) : ex := (EAdd (EAdd (EAdd (EAdd (ESub (ESub (EScale (1) 2 (ET 37 [a; b; i; e])) (EScale (1) 2 (ESum (0 + z) 2 (EMul (cd_hb_H_b_ov (1 + z) (0 + z) e) (ET 18 [a; b; i; (0 + z)]))))) (ESum (0 + z) 2 (EMul (cd_hb_x2c_voov (1 + z) a (0 + z) i e) (ET 4 [b; (0 + z)])))) (EScale (1) 4 (ESum (0 + z) 2 (ESum (1 + z) 2 (EMul (cd_hb_H_bb_ooov (2 + z) (0 + z) (1 + z) i e) (ET 18 [a; b; (0 + z); (1 + z)])))))) (EScale (1) 2 (ESum (0 + z) 3 (EMul (ET 38 [a; b; (0 + z); e]) (ET 4 [(0 + z); i]))))) (ESum (0 + z) 2 (ESum (1 + z) 3 (EMul (ET 20 [b; (0 + z); e; (1 + z)]) (ET 18 [a; (1 + z); i; (0 + z)]))))) (ESum (0 + z) 0 (ESum (1 + z) 1 (EMul (ET 21 [(0 + z); b; (1 + z); e]) (ET 9 [(1 + z); a; (0 + z); i]))))).
Definition cd_hb_H_bb_vvov_1 (z a b i e : nat) : ex := (ESub (cd_hb_H_bb_vvov (0 + z) a b i e) (cd_hb_H_bb_vvov (0 + z) b a i e)).
Definition cd_hb_x2b_voov (z a m i e : nat) : ex := (EAdd (cd_hb_H_ab_voov (0 + z) a m i e) (EScale (1) 2 (ESum (0 + z) 0 (EMul (cd_hb_H_ab_ooov (1 + z) (0 + z) m i e) (ET 2 [a; (0 + z)]))))).
Definition cd_hb_x2b_ovov (z m a i e : nat) : ex := (EAdd (cd_hb_H_ab_ovov (0 + z) m a i e) (EScale (1) 2 (ESum (0 + z) 2 (EMul (cd_hb_H_ab_ooov (1 + z) m (0 + z) i e) (ET 4 [a; (0 + z)]))))).
Definition cd_hb_H_ab_vvov (z a b i e : nat) : ex := (ESub (EAdd (EAdd (EAdd (EAdd (ESub (ESub (ESub (ET 39 [a; b; i; e]) (ESum (0 + z) 2 (EMul (cd_hb_H_b_ov (1 + z) (0 + z) e) (ET 9 [a; b; i; (0 + z)])))) (ESum (0 + z) 2 (EMul (cd_hb_x2b_voov (1 + z) a (0 + z) i e) (ET 4 [b; (0 + z)])))) (ESum (0 + z) 0 (EMul (cd_hb_x2b_ovov (1 + z) (0 + z) b i e) (ET 2 [a; (0 + z)])))) (ESum (0 + z) 0 (ESum (1 + z) 2 (EMul (cd_hb_H_ab_ooov (2 + z) (0 + z) (1 + z) i e) (ET 9 [a; b; (0 + z); (1 + z)]))))) (ESum (0 + z) 1 (EMul (ET 40 [a; b; (0 + z); e]) (ET 2 [(0 + z); i])))) (ESum (0 + z) 0 (ESum (1 + z) 1 (EMul (ET 21 [(0 + z); b; (1 + z); e]) (ET 8 [a; (1 + z); i; (0 + z)]))))) (ESum (0 + z) 2 (ESum (1 + z) 3 (EMul (ET 20 [b; (0 + z); e; (1 + z)]) (ET 9 [a; (1 + z); i; (0 + z)]))))) (ESum (0 + z) 2 (ESum (1 + z) 1 (EMul (ET 12 [a; (0 + z); (1 + z); e]) (ET 9 [(1 + z); b; i; (0 + z)]))))).
Definition cd_hb_x2b_ovvo (z m a e i : nat) : ex := (EAdd (cd_hb_H_ab_ovvo (0 + z) m a e i) (EScale (1) 2 (ESum (0 + z) 2 (EMul (cd_hb_H_ab_oovo (1 + z) m (0 + z) e i) (ET 4 [a; (0 + z)]))))).
Definition cd_hb_x2b_vovo (z a m e i : nat) : ex := (EAdd (cd_hb_H_ab_vovo (0 + z) a m e i) (EScale (1) 2 (ESum (0 + z) 0 (EMul (cd_hb_H_ab_oovo (1 + z) (0 + z) m e i) (ET 2 [a; (0 + z)]))))).
Definition cd_hb_H_ab_vvvo (z b a e i : nat) : ex := (ESub (EAdd (EAdd (EAdd (EAdd (ESub (ESub (ESub (ET 41 [b; a; e; i]) (ESum (0 + z) 0 (EMul (cd_hb_H_a_ov (1 + z) (0 + z) e) (ET 9 [b; a; (0 + z); i])))) (ESum (0 + z) 0 (EMul (cd_hb_x2b_ovvo (1 + z) (0 + z) a e i) (ET 2 [b; (0 + z)])))) (ESum (0 + z) 2 (EMul (cd_hb_x2b_vovo (1 + z) b (0 + z) e i) (ET 4 [a; (0 + z)])))) (ESum (0 + z) 0 (ESum (1 + z) 2 (EMul (cd_hb_H_ab_oovo (2 + z) (0 + z) (1 + z) e i) (ET 9 [b; a; (0 + z); (1 + z)]))))) (ESum (0 + z) 3 (EMul (ET 40 [b; a; e; (0 + z)]) (ET 4 [(0 + z); i])))) (ESum (0 + z) 2 (ESum (1 + z) 3 (EMul (ET 12 [b; (0 + z); e; (1 + z)]) (ET 18 [a; (1 + z); i; (0 + z)]))))) (ESum (0 + z) 0 (ESum (1 + z) 1 (EMul (ET 11 [b; (0 + z); e; (1 + z)]) (ET 9 [(1 + z); a; (0 + z); i]))))) (ESum (0 + z) 0 (ESum (1 + z) 3 (EMul (ET 21 [(0 + z); a; e; (1 + z)]) (ET 9 [b; (1 + z); (0 + z); i]))))).
Definition cd_hb_H_aa_vvvv (z a b e f : nat) : ex := (ESub (EAdd (EScale (1) 2 (ET 36 [a; b; e; f])) (EScale (1) 4 (ESum (0 + z) 0 (ESum (1 + z) 0 (EMul (ET 1 [(0 + z); (1 + z); e; f]) (cd_hb_tau_aa_1 (2 + z) a b (0 + z) (1 + z))))))) (ESum (0 + z) 0 (EMul (ET 11 [a; (0 + z); e; f]) (ET 2 [b; (0 + z)])))).
Definition cd_hb_H_aa_vvvv_1 (z a b e f : nat) : ex := (ESub (cd_hb_H_aa_vvvv (0 + z) a b e f) (cd_hb_H_aa_vvvv (0 + z) b a e f)).
Definition cd_hb_H_bb_vvvv (z a b e f : nat) : ex := (ESub (EAdd (EScale (1) 2 (ET 38 [a; b; e; f])) (EScale (1) 4 (ESum (0 + z) 2 (ESum (1 + z) 2 (EMul (ET 14 [(0 + z); (1 + z); e; f]) (cd_hb_tau_bb_1 (2 + z) a b (0 + z) (1 + z))))))) (ESum (0 + z) 2 (EMul (ET 20 [a; (0 + z); e; f]) (ET 4 [b; (0 + z)])))).
Definition cd_hb_H_bb_vvvv_1 (z a b e f : nat) : ex := (ESub (cd_hb_H_bb_vvvv (0 + z) a b e f) (cd_hb_H_bb_vvvv (0 + z) b a e f)).
Definition cd_hb_H_ab_vvvv (z a b e f : nat) : ex := (EAdd (ESub (ESub (ET 40 [a; b; e; f]) (ESum (0 + z) 0 (EMul (ET 21 [(0 + z); b; e; f]) (ET 2 [a; (0 + z)])))) (ESum (0 + z) 2 (EMul (ET 12 [a; (0 + z); e; f]) (ET 4 [b; (0 + z)])))) (ESum (0 + z) 0 (ESum (1 + z) 2 (EMul (ET 3 [(0 + z); (1 + z); e; f]) (cd_hb_tau_ab (2 + z) a b (0 + z) (1 + z)))))).
Definition cd_hb_H_aa_vovv (z a i b c : nat) : ex := (ESub (ET 11 [a; i; b; c]) (ESum (0 + z) 0 (EMul (ET 1 [i; (0 + z); c; b]) (ET 2 [a; (0 + z)])))).
Definition cd_hb_H_bb_vovv (z a i b c : nat) : ex := (ESub (ET 20 [a; i; b; c]) (ESum (0 + z) 2 (EMul (ET 14 [i; (0 + z); c; b]) (ET 4 [a; (0 + z)])))).
Definition cd_hb_H_ab_vovv (z a i b c : nat) : ex := (ESub (ET 12 [a; i; b; c]) (ESum (0 + z) 0 (EMul (ET 3 [(0 + z); i; b; c]) (ET 2 [a; (0 + z)])))).
Definition cd_hb_H_ab_ovvv (z i a b c : nat) : ex := (ESub (ET 21 [i; a; b; c]) (ESum (0 + z) 2 (EMul (ET 3 [i; (0 + z); b; c]) (ET 4 [a; (0 + z)])))).
Definition cd_creom_X_a_ov (z m e : nat) : ex := (EAdd (ESum (0 + z) 0 (ESum (1 + z) 1 (EMul (ET 1 [m; (0 + z); e; (1 + z)]) (ET 42 [(1 + z); (0 + z)])))) (ESum (0 + z) 2 (ESum (1 + z) 3 (EMul (ET 3 [m; (0 + z); e; (1 + z)]) (ET 43 [(1 + z); (0 + z)]))))).
Definition cd_creom_X_b_ov (z m e : nat) : ex := (EAdd (ESum (0 + z) 0 (ESum (1 + z) 1 (EMul (ET 3 [(0 + z); m; (1 + z); e]) (ET 42 [(1 + z); (0 + z)])))) (ESum (0 + z) 2 (ESum (1 + z) 3 (EMul (ET 14 [(0 + z); m; (1 + z); e]) (ET 43 [(1 + z); (0 + z)]))))).
Definition cd_creom_X_aa_vvov (z b a j e : nat) : ex := (ESub (EAdd (EAdd (EAdd (EAdd (ESum (0 + z) 0 (EMul (cd_hb_H_aa_voov (1 + z) a (0 + z) j e) (ET 42 [b; (0 + z)]))) (ESum (0 + z) 0 (ESum (1 + z) 1 (EMul (cd_hb_H_aa_vovv (2 + z) a (0 + z) e (1 + z)) (ET 44 [b; (1 + z); j; (0 + z)]))))) (ESum (0 + z) 2 (ESum (1 + z) 3 (EMul (cd_hb_H_ab_vovv (2 + z) a (0 + z) e (1 + z)) (ET 45 [b; (1 + z); j; (0 + z)]))))) (EScale (1) 2 (ESum (0 + z) 1 (EMul (cd_hb_H_aa_vvvv_1 (1 + z) a b e (0 + z)) (ET 42 [(0 + z); j]))))) (EScale (1) 4 (ESum (0 + z) 0 (ESum (1 + z) 0 (EMul (cd_hb_H_aa_ooov (2 + z) (0 + z) (1 + z) j e) (ET 44 [a; b; (1 + z); (0 + z)])))))) (EScale (1) 2 (ESum (0 + z) 0 (EMul (cd_creom_X_a_ov (1 + z) (0 + z) e) (ET 8 [a; b; (0 + z); j]))))).
Definition cd_creom_X_aa_vvov_1 (z b a j e : nat) : ex := (ESub (cd_creom_X_aa_vvov (0 + z) b a j e) (cd_creom_X_aa_vvov (0 + z) a b j e)).
Definition cd_creom_X_aa_vooo (z b m j i : nat) : ex := (EAdd (ESub (EAdd (EAdd (EOpp (ESum (0 + z) 1 (EMul (cd_hb_H_aa_voov (1 + z) b m i (0 + z)) (ET 42 [(0 + z); j])))) (ESum (0 + z) 0 (ESum (1 + z) 1 (EMul (cd_hb_H_aa_ooov (2 + z) m (0 + z) i (1 + z)) (ET 44 [b; (1 + z); j; (0 + z)]))))) (ESum (0 + z) 2 (ESum (1 + z) 3 (EMul (cd_hb_H_ab_ooov (2 + z) m (0 + z) i (1 + z)) (ET 45 [b; (1 + z); j; (0 + z)]))))) (EScale (1) 2 (ESum (0 + z) 0 (EMul (cd_hb_H_aa_oooo_1 (1 + z) m (0 + z) i j) (ET 42 [b; (0 + z)]))))) (EScale (1) 4 (ESum (0 + z) 1 (ESum (1 + z) 1 (EMul (cd_hb_H_aa_vovv (2 + z) b m (0 + z) (1 + z)) (ET 44 [(1 + z); (0 + z); i; j])))))).
Definition cd_creom_X_aa_vooo_1 (z b m j i : nat) : ex := (ESub (cd_creom_X_aa_vooo (0 + z) b m j i) (cd_creom_X_aa_vooo (0 + z) b m i j)).
Definition cd_creom_X_ab_vvvo (z b c e k : nat) : ex := (ESub (ESub (EAdd (EAdd (EAdd (EAdd (ESub (EOpp (ESum (0 + z) 0 (EMul (cd_hb_H_ab_ovvo (1 + z) (0 + z) c e k) (ET 42 [b; (0 + z)])))) (ESum (0 + z) 2 (EMul (cd_hb_H_ab_vovo (1 + z) b (0 + z) e k) (ET 43 [c; (0 + z)])))) (ESum (0 + z) 3 (EMul (cd_hb_H_ab_vvvv (1 + z) b c e (0 + z)) (ET 43 [(0 + z); k])))) (ESum (0 + z) 0 (ESum (1 + z) 2 (EMul (cd_hb_H_ab_oovo (2 + z) (0 + z) (1 + z) e k) (ET 45 [b; c; (0 + z); (1 + z)]))))) (ESum (0 + z) 0 (ESum (1 + z) 1 (EMul (cd_hb_H_aa_vovv (2 + z) b (0 + z) e (1 + z)) (ET 45 [(1 + z); c; (0 + z); k]))))) (ESum (0 + z) 2 (ESum (1 + z) 3 (EMul (cd_hb_H_ab_vovv (2 + z) b (0 + z) e (1 + z)) (ET 46 [(1 + z); c; (0 + z); k]))))) (ESum (0 + z) 0 (ESum (1 + z) 3 (EMul (cd_hb_H_ab_ovvv (2 + z) (0 + z) c e (1 + z)) (ET 45 [b; (1 + z); (0 + z); k]))))) (ESum (0 + z) 0 (EMul (cd_creom_X_a_ov (1 + z) (0 + z) e) (ET 9 [b; c; (0 + z); k])))).
Definition cd_creom_X_ab_ovoo (z n c j k : nat) : ex := (ESub (EAdd (EAdd (EAdd (EAdd (EAdd (EOpp (ESum (0 + z) 2 (EMul (cd_hb_H_ab_oooo (1 + z) n (0 + z) j k) (ET 43 [c; (0 + z)])))) (ESum (0 + z) 3 (EMul (cd_hb_H_ab_ovov (1 + z) n c j (0 + z)) (ET 43 [(0 + z); k])))) (ESum (0 + z) 1 (EMul (cd_hb_H_ab_ovvo (1 + z) n c (0 + z) k) (ET 42 [(0 + z); j])))) (ESum (0 + z) 1 (ESum (1 + z) 3 (EMul (cd_hb_H_ab_ovvv (2 + z) n c (0 + z) (1 + z)) (ET 45 [(0 + z); (1 + z); j; k]))))) (ESum (0 + z) 0 (ESum (1 + z) 1 (EMul (cd_hb_H_aa_ooov (2 + z) n (0 + z) j (1 + z)) (ET 45 [(1 + z); c; (0 + z); k]))))) (ESum (0 + z) 2 (ESum (1 + z) 3 (EMul (cd_hb_H_ab_ooov (2 + z) n (0 + z) j (1 + z)) (ET 46 [(1 + z); c; (0 + z); k]))))) (ESum (0 + z) 2 (ESum (1 + z) 1 (EMul (cd_hb_H_ab_oovo (2 + z) n (0 + z) (1 + z) k) (ET 45 [(1 + z); c; j; (0 + z)]))))).
Definition cd_creom_X_ab_vvov (z b c j e : nat) : ex := (ESub (ESub (EAdd (EAdd (EAdd (EAdd (ESub (EOpp (ESum (0 + z) 0 (EMul (cd_hb_H_ab_ovov (1 + z) (0 + z) c j e) (ET 42 [b; (0 + z)])))) (ESum (0 + z) 2 (EMul (cd_hb_H_ab_voov (1 + z) b (0 + z) j e) (ET 43 [c; (0 + z)])))) (ESum (0 + z) 1 (EMul (cd_hb_H_ab_vvvv (1 + z) b c (0 + z) e) (ET 42 [(0 + z); j])))) (ESum (0 + z) 0 (ESum (1 + z) 2 (EMul (cd_hb_H_ab_ooov (2 + z) (0 + z) (1 + z) j e) (ET 45 [b; c; (0 + z); (1 + z)]))))) (ESum (0 + z) 0 (ESum (1 + z) 1 (EMul (cd_hb_H_ab_ovvv (2 + z) (0 + z) c (1 + z) e) (ET 44 [b; (1 + z); j; (0 + z)]))))) (ESum (0 + z) 2 (ESum (1 + z) 3 (EMul (cd_hb_H_bb_vovv (2 + z) c (0 + z) e (1 + z)) (ET 45 [b; (1 + z); j; (0 + z)]))))) (ESum (0 + z) 2 (ESum (1 + z) 1 (EMul (cd_hb_H_ab_vovv (2 + z) b (0 + z) (1 + z) e) (ET 45 [(1 + z); c; j; (0 + z)]))))) (ESum (0 + z) 2 (EMul (cd_creom_X_b_ov (1 + z) (0 + z) e) (ET 9 [b; c; j; (0 + z)])))).
Definition cd_creom_X_ab_vooo (z b n j k : nat) : ex := (ESub (EAdd (EAdd (EAdd (EAdd (EAdd (EOpp (ESum (0 + z) 0 (EMul (cd_hb_H_ab_oooo (1 + z) (0 + z) n j k) (ET 42 [b; (0 + z)])))) (ESum (0 + z) 3 (EMul (cd_hb_H_ab_voov (1 + z) b n j (0 + z)) (ET 43 [(0 + z); k])))) (ESum (0 + z) 1 (EMul (cd_hb_H_ab_vovo (1 + z) b n (0 + z) k) (ET 42 [(0 + z); j])))) (ESum (0 + z) 1 (ESum (1 + z) 3 (EMul (cd_hb_H_ab_vovv (2 + z) b n (0 + z) (1 + z)) (ET 45 [(0 + z); (1 + z); j; k]))))) (ESum (0 + z) 0 (ESum (1 + z) 1 (EMul (cd_hb_H_ab_oovo (2 + z) (0 + z) n (1 + z) k) (ET 44 [b; (1 + z); j; (0 + z)]))))) (ESum (0 + z) 2 (ESum (1 + z) 3 (EMul (cd_hb_H_bb_ooov (2 + z) n (0 + z) k (1 + z)) (ET 45 [b; (1 + z); j; (0 + z)]))))) (ESum (0 + z) 0 (ESum (1 + z) 3 (EMul (cd_hb_H_ab_ooov (2 + z) (0 + z) n j (1 + z)) (ET 45 [b; (1 + z); (0 + z); k]))))).
Definition cd_creom_X_bb_vvov (z b a j e : nat) : ex := (ESub (EAdd (EAdd (EAdd (EAdd (ESum (0 + z) 2 (EMul (cd_hb_H_bb_voov (1 + z) a (0 + z) j e) (ET 43 [b; (0 + z)]))) (EScale (1) 2 (ESum (0 + z) 3 (EMul (cd_hb_H_bb_vvvv_1 (1 + z) a b e (0 + z)) (ET 43 [(0 + z); j]))))) (EScale (1) 4 (ESum (0 + z) 2 (ESum (1 + z) 2 (EMul (cd_hb_H_bb_ooov (2 + z) (0 + z) (1 + z) j e) (ET 46 [a; b; (1 + z); (0 + z)])))))) (ESum (0 + z) 2 (ESum (1 + z) 3 (EMul (cd_hb_H_bb_vovv (2 + z) a (0 + z) e (1 + z)) (ET 46 [b; (1 + z); j; (0 + z)]))))) (ESum (0 + z) 0 (ESum (1 + z) 1 (EMul (cd_hb_H_ab_ovvv (2 + z) (0 + z) a (1 + z) e) (ET 45 [(1 + z); b; (0 + z); j]))))) (EScale (1) 2 (ESum (0 + z) 2 (EMul (cd_creom_X_b_ov (1 + z) (0 + z) e) (ET 18 [a; b; (0 + z); j]))))).
Definition cd_creom_X_bb_vvov_1 (z b a j e : nat) : ex := (ESub (cd_creom_X_bb_vvov (0 + z) b a j e) (cd_creom_X_bb_vvov (0 + z) a b j e)).
Definition cd_creom_X_bb_vooo (z b n j i : nat) : ex := (EAdd (EAdd (EAdd (ESub (EScale (-1) 2 (ESum (0 + z) 2 (EMul (cd_hb_H_bb_oooo_1 (1 + z) n (0 + z) i j) (ET 43 [b; (0 + z)])))) (ESum (0 + z) 3 (EMul (cd_hb_H_bb_voov (1 + z) b n i (0 + z)) (ET 43 [(0 + z); j])))) (EScale (1) 4 (ESum (0 + z) 3 (ESum (1 + z) 3 (EMul (cd_hb_H_bb_vovv (2 + z) b n (0 + z) (1 + z)) (ET 46 [(1 + z); (0 + z); i; j])))))) (ESum (0 + z) 2 (ESum (1 + z) 3 (EMul (cd_hb_H_bb_ooov (2 + z) n (0 + z) i (1 + z)) (ET 46 [b; (1 + z); j; (0 + z)]))))) (ESum (0 + z) 0 (ESum (1 + z) 1 (EMul (cd_hb_H_ab_oovo (2 + z) (0 + z) n (1 + z) i) (ET 45 [(1 + z); b; (0 + z); j]))))).
Definition cd_creom_X_bb_vooo_1 (z b n j i : nat) : ex := (ESub (cd_creom_X_bb_vooo (0 + z) b n j i) (cd_creom_X_bb_vooo (0 + z) b n i j)).
Definition cd_creom_G_a_ov (z m e : nat) : ex := (cd_creom_X_a_ov (0 + z) m e).
Definition cd_creom_G_b_ov (z m e : nat) : ex := (cd_creom_X_b_ov (0 + z) m e).
Definition cd_creom_G_aa_vooo (z b m j i : nat) : ex := (EAdd (EAdd (cd_creom_X_aa_vooo_1 (0 + z) b m j i) (ESum (0 + z) 1 (EMul (cd_creom_X_a_ov (1 + z) m (0 + z)) (ET 8 [b; (0 + z); j; i])))) (ESum (0 + z) 1 (EMul (cd_hb_H_a_ov (1 + z) m (0 + z)) (ET 44 [b; (0 + z); j; i])))).
Definition cd_creom_G_aa_vvov (z b a j e : nat) : ex := (ESub (cd_creom_X_aa_vvov_1 (0 + z) b a j e) (ESum (0 + z) 0 (EMul (cd_hb_H_a_ov (1 + z) (0 + z) e) (ET 44 [b; a; j; (0 + z)])))).
Definition cd_creom_G_bb_vooo (z b n j i : nat) : ex := (EAdd (EAdd (cd_creom_X_bb_vooo_1 (0 + z) b n j i) (ESum (0 + z) 3 (EMul (cd_creom_X_b_ov (1 + z) n (0 + z)) (ET 18 [b; (0 + z); j; i])))) (ESum (0 + z) 3 (EMul (cd_hb_H_b_ov (1 + z) n (0 + z)) (ET 46 [b; (0 + z); j; i])))).
Definition cd_creom_G_bb_vvov (z b a j e : nat) : ex := (ESub (cd_creom_X_bb_vvov_1 (0 + z) b a j e) (ESum (0 + z) 2 (EMul (cd_hb_H_b_ov (1 + z) (0 + z) e) (ET 46 [b; a; j; (0 + z)])))).
Definition cd_creom_G_ab_ovoo (z n c j k : nat) : ex := (EAdd (EAdd (cd_creom_X_ab_ovoo (0 + z) n c j k) (ESum (0 + z) 1 (EMul (cd_creom_X_a_ov (1 + z) n (0 + z)) (ET 9 [(0 + z); c; j; k])))) (ESum (0 + z) 1 (EMul (cd_hb_H_a_ov (1 + z) n (0 + z)) (ET 45 [(0 + z); c; j; k])))).
Definition cd_creom_G_ab_vooo (z b n j k : nat) : ex := (EAdd (EAdd (cd_creom_X_ab_vooo (0 + z) b n j k) (ESum (0 + z) 3 (EMul (cd_creom_X_b_ov (1 + z) n (0 + z)) (ET 9 [b; (0 + z); j; k])))) (ESum (0 + z) 3 (EMul (cd_hb_H_b_ov (1 + z) n (0 + z)) (ET 45 [b; (0 + z); j; k])))).
Definition cd_creom_G_ab_vvvo (z b c e k : nat) : ex := (ESub (cd_creom_X_ab_vvvo (0 + z) b c e k) (ESum (0 + z) 0 (EMul (cd_hb_H_a_ov (1 + z) (0 + z) e) (ET 45 [b; c; (0 + z); k])))).
Definition cd_creom_G_ab_vvov (z b c j e : nat) : ex := (ESub (cd_creom_X_ab_vvov (0 + z) b c j e) (ESum (0 + z) 2 (EMul (cd_hb_H_b_ov (1 + z) (0 + z) e) (ET 45 [b; c; j; (0 + z)])))).
Definition cd_arrays (d : dims) (H : ints) (T Y : amps) := [ap2 (i_a_ov H);
  ap4 (i_aa_oovv H);
  ap2 (x_a T);
  ap4 (i_ab_oovv H);
  ap2 (x_b T);
  ap2 (i_a_oo H);
  ap4 (i_aa_ooov H);
  ap4 (i_ab_ooov H);
  ap4 (x_aa T);
  ap4 (x_ab T);
  ap2 (i_a_vv H);
  ap4 (i_aa_vovv H);
  ap4 (i_ab_vovv H);
  ap2 (i_b_ov H);
  ap4 (i_bb_oovv H);
  ap2 (i_b_oo H);
  ap4 (i_bb_ooov H);
  ap4 (i_ab_oovo H);
  ap4 (x_bb T);
  ap2 (i_b_vv H);
  ap4 (i_bb_vovv H);
  ap4 (i_ab_ovvv H);
  ap4 (i_aa_oooo H);
  ap4 (i_bb_oooo H);
  ap4 (i_ab_oooo H);
  ap4 (i_aa_voov H);
  ap4 (i_aa_vooo H);
  ap4 (i_bb_voov H);
  ap4 (i_bb_vooo H);
  ap4 (i_ab_voov H);
  ap4 (i_ab_vooo H);
  ap4 (i_ab_vovo H);
  ap4 (i_ab_ovov H);
  ap4 (i_ab_ovoo H);
  ap4 (i_ab_ovvo H);
  ap4 (i_aa_vvov H);
  ap4 (i_aa_vvvv H);
  ap4 (i_bb_vvov H);
  ap4 (i_bb_vvvv H);
  ap4 (i_ab_vvov H);
  ap4 (i_ab_vvvv H);
  ap4 (i_ab_vvvo H);
  ap2 (x_a Y);
  ap2 (x_b Y);
  ap4 (x_aa Y);
  ap4 (x_ab Y);
  ap4 (x_bb Y);
  ap4 (i_aa_oovo H);
  ap4 (i_aa_ovvv H);
  ap4 (i_bb_oovo H);
  ap4 (i_bb_ovvv H);
  ap4 (i_aa_ovov H);
  ap4 (i_aa_vovo H);
  ap4 (i_aa_ovoo H);
  ap4 (i_bb_ovov H);
  ap4 (i_bb_vovo H);
  ap4 (i_bb_ovoo H);
  ap4 (i_aa_vvvo H);
  ap4 (i_bb_vvvo H);
  ap4 (i_aa_ovvo H);
  ap4 (i_bb_ovvo H)].
Definition cd_gens : list (nat * (nat * list nat * bool)) := [(1, (1, [1; 0; 2; 3], false));
  (1, (1, [0; 1; 3; 2], false));
  (6, (6, [1; 0; 2; 3], false));
  (6, (47, [0; 1; 3; 2], false));
  (8, (8, [1; 0; 2; 3], false));
  (8, (8, [0; 1; 3; 2], false));
  (11, (48, [1; 0; 2; 3], false));
  (11, (11, [0; 1; 3; 2], false));
  (14, (14, [1; 0; 2; 3], false));
  (14, (14, [0; 1; 3; 2], false));
  (16, (16, [1; 0; 2; 3], false));
  (16, (49, [0; 1; 3; 2], false));
  (18, (18, [1; 0; 2; 3], false));
  (18, (18, [0; 1; 3; 2], false));
  (20, (50, [1; 0; 2; 3], false));
  (20, (20, [0; 1; 3; 2], false));
  (22, (22, [1; 0; 2; 3], false));
  (22, (22, [0; 1; 3; 2], false));
  (23, (23, [1; 0; 2; 3], false));
  (23, (23, [0; 1; 3; 2], false));
  (25, (51, [1; 0; 2; 3], false));
  (25, (52, [0; 1; 3; 2], false));
  (26, (53, [1; 0; 2; 3], false));
  (26, (26, [0; 1; 3; 2], false));
  (27, (54, [1; 0; 2; 3], false));
  (27, (55, [0; 1; 3; 2], false));
  (28, (56, [1; 0; 2; 3], false));
  (28, (28, [0; 1; 3; 2], false));
  (35, (35, [1; 0; 2; 3], false));
  (35, (57, [0; 1; 3; 2], false));
  (36, (36, [1; 0; 2; 3], false));
  (36, (36, [0; 1; 3; 2], false));
  (37, (37, [1; 0; 2; 3], false));
  (37, (58, [0; 1; 3; 2], false));
  (38, (38, [1; 0; 2; 3], false));
  (38, (38, [0; 1; 3; 2], false));
  (44, (44, [1; 0; 2; 3], false));
  (44, (44, [0; 1; 3; 2], false));
  (46, (46, [1; 0; 2; 3], false));
  (46, (46, [0; 1; 3; 2], false));
  (47, (47, [1; 0; 2; 3], false));
  (47, (6, [0; 1; 3; 2], false));
  (48, (11, [1; 0; 2; 3], false));
  (48, (48, [0; 1; 3; 2], false));
  (49, (49, [1; 0; 2; 3], false));
  (49, (16, [0; 1; 3; 2], false));
  (50, (20, [1; 0; 2; 3], false));
  (50, (50, [0; 1; 3; 2], false));
  (51, (25, [1; 0; 2; 3], false));
  (51, (59, [0; 1; 3; 2], false));
  (52, (59, [1; 0; 2; 3], false));
  (52, (25, [0; 1; 3; 2], false));
  (53, (26, [1; 0; 2; 3], false));
  (53, (53, [0; 1; 3; 2], false));
  (54, (27, [1; 0; 2; 3], false));
  (54, (60, [0; 1; 3; 2], false));
  (55, (60, [1; 0; 2; 3], false));
  (55, (27, [0; 1; 3; 2], false));
  (56, (28, [1; 0; 2; 3], false));
  (56, (56, [0; 1; 3; 2], false));
  (57, (57, [1; 0; 2; 3], false));
  (57, (35, [0; 1; 3; 2], false));
  (58, (58, [1; 0; 2; 3], false));
  (58, (37, [0; 1; 3; 2], false));
  (59, (52, [1; 0; 2; 3], false));
  (59, (51, [0; 1; 3; 2], false));
  (60, (55, [1; 0; 2; 3], false));
  (60, (54, [0; 1; 3; 2], false))].
Definition cd_tab := Eval vm_compute in symtab cd_gens 61.
Definition cd_dm (k : nat) : option nat := match k with | 2 => Some 42 | 4 => Some 43 | 8 => Some 44 | 9 => Some 45 | 18 => Some 46 | _ => None end.
Definition cdh_a_ov : ex := cd_hb_H_a_ov 2 0 1.
Definition cdg_a_ov : ex := cd_creom_G_a_ov 2 0 1.
Definition cdh_b_ov : ex := cd_hb_H_b_ov 2 0 1.
Definition cdg_b_ov : ex := cd_creom_G_b_ov 2 0 1.
Definition cdh_aa_vooo : ex := cd_hb_H_aa_vooo 4 0 1 2 3.
Definition cdg_aa_vooo : ex := cd_creom_G_aa_vooo 4 0 1 2 3.
Definition cdh_aa_vvov : ex := cd_hb_H_aa_vvov_1 4 0 1 2 3.
Definition cdg_aa_vvov : ex := cd_creom_G_aa_vvov 4 0 1 2 3.
Definition cdh_bb_vooo : ex := cd_hb_H_bb_vooo 4 0 1 2 3.
Definition cdg_bb_vooo : ex := cd_creom_G_bb_vooo 4 0 1 2 3.
Definition cdh_bb_vvov : ex := cd_hb_H_bb_vvov_1 4 0 1 2 3.
Definition cdg_bb_vvov : ex := cd_creom_G_bb_vvov 4 0 1 2 3.
Definition cdh_ab_ovoo : ex := cd_hb_H_ab_ovoo 4 0 1 2 3.
Definition cdg_ab_ovoo : ex := cd_creom_G_ab_ovoo 4 0 1 2 3.
Definition cdh_ab_vooo : ex := cd_hb_H_ab_vooo 4 0 1 2 3.
Definition cdg_ab_vooo : ex := cd_creom_G_ab_vooo 4 0 1 2 3.
Definition cdh_ab_vvvo : ex := cd_hb_H_ab_vvvo 4 0 1 2 3.
Definition cdg_ab_vvvo : ex := cd_creom_G_ab_vvvo 4 0 1 2 3.
Definition cdh_ab_vvov : ex := cd_hb_H_ab_vvov 4 0 1 2 3.
Definition cdg_ab_vvov : ex := cd_creom_G_ab_vvov 4 0 1 2 3.
