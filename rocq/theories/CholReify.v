(** Generated by tools/gen_chol.py: the arrays of CholModel.v with unrestricted sums in place of the Fortran contraction, and their reification together with
    the dense CCSD residual (proof support). *)
From Coq Require Import Reals Arith List ZArith.
From Verif Require Import RSum IntegralsModel TensorObjs TensorAlg CholLoops CholModel CcsdModel.
Import ListNotations.
Open Scope R_scope.
(** ccpy/cc/ccsd_chol.py, update, lines 13-16 *)
Definition cf_X_a_ov (d : dims) (nx : nat) (C : chol) (H : ints) (T U : amps) : mat2 := fun m e =>
  i_a_ov H m e + (sumn (noa d) (fun n => sumn (nua d) (fun f => (i_aa_oovv H m n e f) * (x_a T f n))) + sumn (nob d) (fun n => sumn (nub d) (fun f => (i_ab_oovv H m n e f) * (x_b T f n)))).
(** ccpy/cc/ccsd_chol.py, update, lines 17-20 *)
Definition cf_X_a_vv (d : dims) (nx : nat) (C : chol) (H : ints) (T U : amps) : mat2 := fun a e =>
  i_a_vv H a e + ((-1) / 2 * (sumn (noa d) (fun m => sumn (noa d) (fun n => sumn (nua d) (fun f => (i_aa_oovv H m n e f) * (x_aa T a f m n))))) - sumn (noa d) (fun m => sumn (nob d) (fun n => sumn (nub d) (fun f => (i_ab_oovv H m n e f) * (x_ab T a f m n))))).
(** ccpy/cc/ccsd_chol.py, update, lines 21-24 *)
Definition cf_bt1 (d : dims) (nx : nat) (C : chol) (H : ints) (T U : amps) : mat1 := fun x =>
  sumn (noa d) (fun n => sumn (nua d) (fun f => (c_a_ov C x n f) * (x_a T f n))) + sumn (nob d) (fun n => sumn (nub d) (fun f => (c_b_ov C x n f) * (x_b T f n))).
(** ccpy/cc/ccsd_chol.py, update, line 25 *)
Definition cf_bxt1 (d : dims) (nx : nat) (C : chol) (H : ints) (T U : amps) : mat3 := fun x f e =>
  (- (sumn (noa d) (fun n => (c_a_ov C x n e) * (x_a T f n)))).
(** ccpy/cc/ccsd_chol.py, update, lines 26-29 *)
Definition cf_X_a_vv_1 (d : dims) (nx : nat) (C : chol) (H : ints) (T U : amps) : mat2 := fun a e =>
  cf_X_a_vv d nx C H T U a e + (sumn nx (fun x => (c_a_vv C x a e) * (cf_bt1 d nx C H T U x)) + sumn nx (fun x => sumn (nua d) (fun f => (c_a_vv C x a f) * (cf_bxt1 d nx C H T U x f e)))).
(** ccpy/cc/ccsd_chol.py, update, lines 30-36 *)
Definition cf_X_a_oo (d : dims) (nx : nat) (C : chol) (H : ints) (T U : amps) : mat2 := fun m i =>
  i_a_oo H m i + (sumn (noa d) (fun n => sumn (nua d) (fun f => (i_aa_ooov H m n i f) * (x_a T f n))) + sumn (nob d) (fun n => sumn (nub d) (fun f => (i_ab_ooov H m n i f) * (x_b T f n))) + sumn (nua d) (fun e => (cf_X_a_ov d nx C H T U m e) * (x_a T e i)) + 1 / 2 * (sumn (noa d) (fun n => sumn (nua d) (fun e => sumn (nua d) (fun f => (i_aa_oovv H m n e f) * (x_aa T e f i n))))) + sumn (nob d) (fun n => sumn (nua d) (fun e => sumn (nub d) (fun f => (i_ab_oovv H m n e f) * (x_ab T e f i n))))).
(** ccpy/cc/ccsd_chol.py, update, lines 42-45 *)
Definition cf_X_b_ov (d : dims) (nx : nat) (C : chol) (H : ints) (T U : amps) : mat2 := fun m e =>
  i_b_ov H m e + (sumn (noa d) (fun n => sumn (nua d) (fun f => (i_ab_oovv H n m f e) * (x_a T f n))) + sumn (nob d) (fun n => sumn (nub d) (fun f => (i_bb_oovv H m n e f) * (x_b T f n)))).
(** ccpy/cc/ccsd_chol.py, update, lines 46-49 *)
Definition cf_X_b_vv (d : dims) (nx : nat) (C : chol) (H : ints) (T U : amps) : mat2 := fun a e =>
  i_b_vv H a e + ((-1) / 2 * (sumn (nob d) (fun m => sumn (nob d) (fun n => sumn (nub d) (fun f => (i_bb_oovv H m n e f) * (x_bb T a f m n))))) - sumn (noa d) (fun n => sumn (nob d) (fun m => sumn (nua d) (fun f => (i_ab_oovv H n m f e) * (x_ab T f a n m))))).
(** ccpy/cc/ccsd_chol.py, update, lines 50-53 *)
Definition cf_bt1_1 (d : dims) (nx : nat) (C : chol) (H : ints) (T U : amps) : mat1 := fun x =>
  sumn (nob d) (fun n => sumn (nub d) (fun f => (c_b_ov C x n f) * (x_b T f n))) + sumn (noa d) (fun n => sumn (nua d) (fun f => (c_a_ov C x n f) * (x_a T f n))).
(** ccpy/cc/ccsd_chol.py, update, line 54 *)
Definition cf_bxt1_1 (d : dims) (nx : nat) (C : chol) (H : ints) (T U : amps) : mat3 := fun x f e =>
  (- (sumn (nob d) (fun n => (c_b_ov C x n e) * (x_b T f n)))).
(** ccpy/cc/ccsd_chol.py, update, lines 55-58 *)
Definition cf_X_b_vv_1 (d : dims) (nx : nat) (C : chol) (H : ints) (T U : amps) : mat2 := fun a e =>
  cf_X_b_vv d nx C H T U a e + (sumn nx (fun x => (c_b_vv C x a e) * (cf_bt1_1 d nx C H T U x)) + sumn nx (fun x => sumn (nub d) (fun f => (c_b_vv C x a f) * (cf_bxt1_1 d nx C H T U x f e)))).
(** ccpy/cc/ccsd_chol.py, update, lines 59-65 *)
Definition cf_X_b_oo (d : dims) (nx : nat) (C : chol) (H : ints) (T U : amps) : mat2 := fun m i =>
  i_b_oo H m i + (sumn (nob d) (fun n => sumn (nub d) (fun f => (i_bb_ooov H m n i f) * (x_b T f n))) + sumn (noa d) (fun n => sumn (nua d) (fun f => (i_ab_oovo H n m f i) * (x_a T f n))) + sumn (nub d) (fun e => (cf_X_b_ov d nx C H T U m e) * (x_b T e i)) + 1 / 2 * (sumn (nob d) (fun n => sumn (nub d) (fun e => sumn (nub d) (fun f => (i_bb_oovv H m n e f) * (x_bb T e f i n))))) + sumn (noa d) (fun n => sumn (nua d) (fun f => sumn (nub d) (fun e => (i_ab_oovv H n m f e) * (x_ab T f e n i))))).
(** ccpy/cc/ccsd_chol.py, update_t1a, line 122 *)
Definition cf_dT_a (d : dims) (nx : nat) (C : chol) (H : ints) (T U : amps) : mat2 := fun a i =>
  (- (sumn (noa d) (fun m => (cf_X_a_oo d nx C H T U m i) * (x_a T a m)))).
(** ccpy/cc/ccsd_chol.py, update_t1a, line 123 *)
Definition cf_dT_a_1 (d : dims) (nx : nat) (C : chol) (H : ints) (T U : amps) : mat2 := fun a i =>
  cf_dT_a d nx C H T U a i + sumn (nua d) (fun e => (cf_X_a_vv_1 d nx C H T U a e) * (x_a T e i)).
(** ccpy/cc/ccsd_chol.py, update_t1a, line 124 *)
Definition cf_dT_a_2 (d : dims) (nx : nat) (C : chol) (H : ints) (T U : amps) : mat2 := fun a i =>
  cf_dT_a_1 d nx C H T U a i + sumn (noa d) (fun m => sumn (nua d) (fun e => (cf_X_a_ov d nx C H T U m e) * (x_aa T a e i m))).
(** ccpy/cc/ccsd_chol.py, update_t1a, line 125 *)
Definition cf_dT_a_3 (d : dims) (nx : nat) (C : chol) (H : ints) (T U : amps) : mat2 := fun a i =>
  cf_dT_a_2 d nx C H T U a i + sumn (nob d) (fun m => sumn (nub d) (fun e => (cf_X_b_ov d nx C H T U m e) * (x_ab T a e i m))).
(** ccpy/cc/ccsd_chol.py, update_t1a, line 126 *)
Definition cf_dT_a_4 (d : dims) (nx : nat) (C : chol) (H : ints) (T U : amps) : mat2 := fun a i =>
  cf_dT_a_3 d nx C H T U a i + sumn (noa d) (fun n => sumn (nua d) (fun f => (i_aa_voov H a n i f) * (x_a T f n))).
(** ccpy/cc/ccsd_chol.py, update_t1a, line 127 *)
Definition cf_dT_a_5 (d : dims) (nx : nat) (C : chol) (H : ints) (T U : amps) : mat2 := fun a i =>
  cf_dT_a_4 d nx C H T U a i + sumn (nob d) (fun n => sumn (nub d) (fun f => (i_ab_voov H a n i f) * (x_b T f n))).
(** ccpy/cc/ccsd_chol.py, update_t1a, line 128 *)
Definition cf_dT_a_6 (d : dims) (nx : nat) (C : chol) (H : ints) (T U : amps) : mat2 := fun a i =>
  cf_dT_a_5 d nx C H T U a i - 1 / 2 * (sumn (noa d) (fun m => sumn (noa d) (fun n => sumn (nua d) (fun f => (i_aa_ooov H m n i f) * (x_aa T a f m n))))).
(** ccpy/cc/ccsd_chol.py, update_t1a, line 129 *)
Definition cf_dT_a_7 (d : dims) (nx : nat) (C : chol) (H : ints) (T U : amps) : mat2 := fun a i =>
  cf_dT_a_6 d nx C H T U a i - sumn (noa d) (fun m => sumn (nob d) (fun n => sumn (nub d) (fun f => (i_ab_ooov H m n i f) * (x_ab T a f m n)))).
(** ccpy/cc/ccsd_chol.py, update_t1a, lines 131-135 *)
Definition cf_b_vo (d : dims) (nx : nat) (C : chol) (H : ints) (T U : amps) : mat3 := fun x e i =>
  1 / 2 * (sumn (noa d) (fun m => sumn (nua d) (fun f => (c_a_ov C x m f) * (x_aa T e f i m)))) - 1 / 2 * (sumn (noa d) (fun m => sumn (nua d) (fun e' => (c_a_ov C x m e') * (x_aa T e' e i m)))) + sumn (nob d) (fun n => sumn (nub d) (fun f => (c_b_ov C x n f) * (x_ab T e f i n))).
(** ccpy/cc/ccsd_chol.py, update_t1a, line 136 *)
Definition cf_dT_a_8 (d : dims) (nx : nat) (C : chol) (H : ints) (T U : amps) : mat2 := fun a i =>
  cf_dT_a_7 d nx C H T U a i + sumn nx (fun x => sumn (nua d) (fun e => (c_a_vv C x a e) * (cf_b_vo d nx C H T U x e i))).
(** ccpy/cc/ccsd_chol.py, update_t1a, lines 138-140 *)
Definition cf_res_a (d : dims) (nx : nat) (C : chol) (H : ints) (T U : amps) : mat2 := fun a i =>
  cf_dT_a_8 d nx C H T U a i + i_a_vo H a i.
(** ccpy/cc/ccsd_chol.py, update_t1b, line 148 *)
Definition cf_dT_b (d : dims) (nx : nat) (C : chol) (H : ints) (T U : amps) : mat2 := fun a i =>
  (- (sumn (nob d) (fun m => (cf_X_b_oo d nx C H T U m i) * (x_b T a m)))).
(** ccpy/cc/ccsd_chol.py, update_t1b, line 149 *)
Definition cf_dT_b_1 (d : dims) (nx : nat) (C : chol) (H : ints) (T U : amps) : mat2 := fun a i =>
  cf_dT_b d nx C H T U a i + sumn (nub d) (fun e => (cf_X_b_vv_1 d nx C H T U a e) * (x_b T e i)).
(** ccpy/cc/ccsd_chol.py, update_t1b, line 150 *)
Definition cf_dT_b_2 (d : dims) (nx : nat) (C : chol) (H : ints) (T U : amps) : mat2 := fun a i =>
  cf_dT_b_1 d nx C H T U a i + sumn (nob d) (fun n => sumn (nub d) (fun f => (i_bb_voov H a n i f) * (x_b T f n))).
(** ccpy/cc/ccsd_chol.py, update_t1b, line 151 *)
Definition cf_dT_b_3 (d : dims) (nx : nat) (C : chol) (H : ints) (T U : amps) : mat2 := fun a i =>
  cf_dT_b_2 d nx C H T U a i + sumn (noa d) (fun n => sumn (nua d) (fun f => (i_ab_ovvo H n a f i) * (x_a U f n))).
(** ccpy/cc/ccsd_chol.py, update_t1b, line 152 *)
Definition cf_dT_b_4 (d : dims) (nx : nat) (C : chol) (H : ints) (T U : amps) : mat2 := fun a i =>
  cf_dT_b_3 d nx C H T U a i + sumn (noa d) (fun m => sumn (nua d) (fun e => (cf_X_a_ov d nx C H T U m e) * (x_ab T e a m i))).
(** ccpy/cc/ccsd_chol.py, update_t1b, line 153 *)
Definition cf_dT_b_5 (d : dims) (nx : nat) (C : chol) (H : ints) (T U : amps) : mat2 := fun a i =>
  cf_dT_b_4 d nx C H T U a i + sumn (nob d) (fun m => sumn (nub d) (fun e => (cf_X_b_ov d nx C H T U m e) * (x_bb T a e i m))).
(** ccpy/cc/ccsd_chol.py, update_t1b, line 154 *)
Definition cf_dT_b_6 (d : dims) (nx : nat) (C : chol) (H : ints) (T U : amps) : mat2 := fun a i =>
  cf_dT_b_5 d nx C H T U a i - 1 / 2 * (sumn (nob d) (fun m => sumn (nob d) (fun n => sumn (nub d) (fun f => (i_bb_ooov H m n i f) * (x_bb T a f m n))))).
(** ccpy/cc/ccsd_chol.py, update_t1b, line 155 *)
Definition cf_dT_b_7 (d : dims) (nx : nat) (C : chol) (H : ints) (T U : amps) : mat2 := fun a i =>
  cf_dT_b_6 d nx C H T U a i - sumn (noa d) (fun n => sumn (nob d) (fun m => sumn (nua d) (fun f => (i_ab_oovo H n m f i) * (x_ab T f a n m)))).
(** ccpy/cc/ccsd_chol.py, update_t1b, lines 157-161 *)
Definition cf_b_vo_1 (d : dims) (nx : nat) (C : chol) (H : ints) (T U : amps) : mat3 := fun x e i =>
  1 / 2 * (sumn (nob d) (fun n => sumn (nub d) (fun f => (c_b_ov C x n f) * (x_bb T e f i n)))) - 1 / 2 * (sumn (nob d) (fun n => sumn (nub d) (fun e' => (c_b_ov C x n e') * (x_bb T e' e i n)))) + sumn (noa d) (fun n => sumn (nua d) (fun f => (c_a_ov C x n f) * (x_ab T f e n i))).
(** ccpy/cc/ccsd_chol.py, update_t1b, line 162 *)
Definition cf_dT_b_8 (d : dims) (nx : nat) (C : chol) (H : ints) (T U : amps) : mat2 := fun a i =>
  cf_dT_b_7 d nx C H T U a i + sumn nx (fun x => sumn (nub d) (fun e => (c_b_vv C x a e) * (cf_b_vo_1 d nx C H T U x e i))).
(** ccpy/cc/ccsd_chol.py, update_t1b, lines 164-166 *)
Definition cf_res_b (d : dims) (nx : nat) (C : chol) (H : ints) (T U : amps) : mat2 := fun a i =>
  cf_dT_b_8 d nx C H T U a i + i_b_vo H a i.
(** ccpy/cc/ccsd_chol.py, update, line 76 *)
Definition cf_X_a_vv_2 (d : dims) (nx : nat) (C : chol) (H : ints) (T U : amps) : mat2 := fun a e =>
  cf_X_a_vv_1 d nx C H T U a e - sumn (noa d) (fun m => (cf_X_a_ov d nx C H T U m e) * (x_a U a m)).
(** ccpy/cc/ccsd_chol.py, update, line 80 *)
Definition cf_X_b_vv_2 (d : dims) (nx : nat) (C : chol) (H : ints) (T U : amps) : mat2 := fun a e =>
  cf_X_b_vv_1 d nx C H T U a e - sumn (nob d) (fun m => (cf_X_b_ov d nx C H T U m e) * (x_b U a m)).
(** ccpy/cc/ccsd_chol.py, update, line 82 *)
Definition cf_X_chol_a_ov (d : dims) (nx : nat) (C : chol) (H : ints) (T U : amps) : mat3 := fun a i b =>
  c_a_ov C a i b.
(** ccpy/cc/ccsd_chol.py, update, line 83 *)
Definition cf_X_chol_a_oo (d : dims) (nx : nat) (C : chol) (H : ints) (T U : amps) : mat3 := fun x m i =>
  c_a_oo C x m i + sumn (nua d) (fun e => (cf_X_chol_a_ov d nx C H T U x m e) * (x_a U e i)).
(** ccpy/cc/ccsd_chol.py, update, line 84 *)
Definition cf_X_chol_a_vv (d : dims) (nx : nat) (C : chol) (H : ints) (T U : amps) : mat3 := fun x a e =>
  c_a_vv C x a e - sumn (noa d) (fun m => (cf_X_chol_a_ov d nx C H T U x m e) * (x_a U a m)).
(** ccpy/cc/ccsd_chol.py, update, lines 85-90 *)
Definition cf_X_chol_a_vo (d : dims) (nx : nat) (C : chol) (H : ints) (T U : amps) : mat3 := fun x a i =>
  c_a_vo C x a i - sumn (noa d) (fun m => (cf_X_chol_a_oo d nx C H T U x m i) * (x_a U a m)) + sumn (nua d) (fun e => (cf_X_chol_a_vv d nx C H T U x a e) * (x_a U e i)) + sumn (noa d) (fun m => sumn (nua d) (fun e => (cf_X_chol_a_ov d nx C H T U x m e) * (x_a U e i) * (x_a U a m))).
(** ccpy/cc/ccsd_chol.py, update, line 97 *)
Definition cf_X_chol_b_ov (d : dims) (nx : nat) (C : chol) (H : ints) (T U : amps) : mat3 := fun a i b =>
  c_b_ov C a i b.
(** ccpy/cc/ccsd_chol.py, update, line 98 *)
Definition cf_X_chol_b_oo (d : dims) (nx : nat) (C : chol) (H : ints) (T U : amps) : mat3 := fun x m i =>
  c_b_oo C x m i + sumn (nub d) (fun e => (cf_X_chol_b_ov d nx C H T U x m e) * (x_b U e i)).
(** ccpy/cc/ccsd_chol.py, update, line 99 *)
Definition cf_X_chol_b_vv (d : dims) (nx : nat) (C : chol) (H : ints) (T U : amps) : mat3 := fun x a e =>
  c_b_vv C x a e - sumn (nob d) (fun m => (cf_X_chol_b_ov d nx C H T U x m e) * (x_b U a m)).
(** ccpy/cc/ccsd_chol.py, update, lines 100-105 *)
Definition cf_X_chol_b_vo (d : dims) (nx : nat) (C : chol) (H : ints) (T U : amps) : mat3 := fun x a i =>
  c_b_vo C x a i - sumn (nob d) (fun m => (cf_X_chol_b_oo d nx C H T U x m i) * (x_b U a m)) + sumn (nub d) (fun e => (cf_X_chol_b_vv d nx C H T U x a e) * (x_b U e i)) + sumn (nob d) (fun m => sumn (nub d) (fun e => (cf_X_chol_b_ov d nx C H T U x m e) * (x_b U e i) * (x_b U a m))).
(** ccpy/cc/ccsd_chol.py, update_t2a, lines 174-178 *)
Definition cf_h2a_oooo (d : dims) (nx : nat) (C : chol) (H : ints) (T U : amps) : mat4 := fun m n i j =>
  sumn nx (fun x => (cf_X_chol_a_oo d nx C H T U x m i) * (cf_X_chol_a_oo d nx C H T U x n j)) - sumn nx (fun x => (cf_X_chol_a_oo d nx C H T U x m j) * (cf_X_chol_a_oo d nx C H T U x n i)) + 1 / 2 * (sumn (nua d) (fun e => sumn (nua d) (fun f => (i_aa_oovv H m n e f) * (x_aa T e f i j)))).
(** ccpy/cc/ccsd_chol.py, update_t2a, lines 179-184 *)
Definition cf_h2a_voov (d : dims) (nx : nat) (C : chol) (H : ints) (T U : amps) : mat4 := fun a m i e =>
  sumn nx (fun x => (cf_X_chol_a_vo d nx C H T U x a i) * (cf_X_chol_a_ov d nx C H T U x m e)) - sumn nx (fun x => (cf_X_chol_a_vv d nx C H T U x a e) * (cf_X_chol_a_oo d nx C H T U x m i)) + 1 / 2 * (sumn (noa d) (fun n => sumn (nua d) (fun f => (i_aa_oovv H m n e f) * (x_aa T a f i n)))) + sumn (nob d) (fun n => sumn (nub d) (fun f => (i_ab_oovv H m n e f) * (x_ab T a f i n))).
(** ccpy/cc/ccsd_chol.py, update_t2a, lines 185-188 *)
Definition cf_h2b_voov (d : dims) (nx : nat) (C : chol) (H : ints) (T U : amps) : mat4 := fun a m i e =>
  sumn nx (fun x => (cf_X_chol_a_vo d nx C H T U x a i) * (cf_X_chol_b_ov d nx C H T U x m e)) + 1 / 2 * (sumn (nob d) (fun n => sumn (nub d) (fun f => (i_bb_oovv H m n e f) * (x_ab T a f i n)))).
(** ccpy/cc/ccsd_chol.py, update_t2a, line 193 *)
Definition cf_dT_aa (d : dims) (nx : nat) (C : chol) (H : ints) (T U : amps) : mat4 := fun a b i j =>
  1 / 2 * (sumn nx (fun x => (cf_X_chol_a_vo d nx C H T U x a i) * (cf_X_chol_a_vo d nx C H T U x b j))).
(** ccpy/cc/ccsd_chol.py, update_t2a, line 195 *)
Definition cf_dT_aa_1 (d : dims) (nx : nat) (C : chol) (H : ints) (T U : amps) : mat4 := fun a b i j =>
  cf_dT_aa d nx C H T U a b i j - 1 / 2 * (sumn (noa d) (fun m => (cf_X_a_oo d nx C H T U m i) * (x_aa T a b m j))).
(** ccpy/cc/ccsd_chol.py, update_t2a, line 196 *)
Definition cf_dT_aa_2 (d : dims) (nx : nat) (C : chol) (H : ints) (T U : amps) : mat4 := fun a b i j =>
  cf_dT_aa_1 d nx C H T U a b i j + 1 / 2 * (sumn (nua d) (fun e => (cf_X_a_vv_2 d nx C H T U a e) * (x_aa T e b i j))).
(** ccpy/cc/ccsd_chol.py, update_t2a, line 197 *)
Definition cf_dT_aa_3 (d : dims) (nx : nat) (C : chol) (H : ints) (T U : amps) : mat4 := fun a b i j =>
  cf_dT_aa_2 d nx C H T U a b i j + sumn (noa d) (fun m => sumn (nua d) (fun e => (cf_h2a_voov d nx C H T U a m i e) * (x_aa T e b m j))).
(** ccpy/cc/ccsd_chol.py, update_t2a, line 198 *)
Definition cf_dT_aa_4 (d : dims) (nx : nat) (C : chol) (H : ints) (T U : amps) : mat4 := fun a b i j =>
  cf_dT_aa_3 d nx C H T U a b i j + sumn (nob d) (fun m => sumn (nub d) (fun e => (cf_h2b_voov d nx C H T U a m i e) * (x_ab T b e j m))).
(** ccpy/cc/ccsd_chol.py, update_t2a, line 199 *)
Definition cf_dT_aa_5 (d : dims) (nx : nat) (C : chol) (H : ints) (T U : amps) : mat4 := fun a b i j =>
  cf_dT_aa_4 d nx C H T U a b i j + 1 / 8 * (sumn (noa d) (fun m => sumn (noa d) (fun n => (cf_h2a_oooo d nx C H T U m n i j) * (x_aa T a b m n)))).
(** ccpy/cc/ccsd_chol.py, update_t2a, line 205 *)
Definition cf_vR (d : dims) (nx : nat) (C : chol) (H : ints) (T U : amps) : mat3 := fun a b c =>
  cf_X_chol_a_vv d nx C H T U a c b.
(** ccpy/cc/ccsd_chol.py, update_t2a, line 205 *)
Definition cf_vT (d : dims) (nx : nat) (C : chol) (H : ints) (T U : amps) : mat4 := fun i j a b =>
  1 / 2 * (x_aa T b a j i).
(** ccpy/cc/ccsd_chol.py, update_t2a, line 206 *)
Definition cf_dT_aa_6 (d : dims) (nx : nat) (C : chol) (H : ints) (T U : amps) : mat4 := fun a b i j =>
  cf_dT_aa_5 d nx C H T U a b i j + 1 / 4 * (sumn (nua d) (fun e' => sumn (nua d) (fun f' => (sumn nx (fun x => (cf_vR d nx C H T U x f' b) * (cf_vR d nx C H T U x e' a) - (cf_vR d nx C H T U x e' b) * (cf_vR d nx C H T U x f' a))) * (cf_vT d nx C H T U j i f' e')))).
(** ccpy/cc/ccsd_chol.py, update_t2a, lines 207-209 *)
Definition cf_res_aa (d : dims) (nx : nat) (C : chol) (H : ints) (T U : amps) : mat4 := fun a b i j =>
  cf_dT_aa_6 d nx C H T U a b i j.
(** ccpy/cc/ccsd_chol.py, update_t2b, line 227 *)
Definition cf_X_aa_voov (d : dims) (nx : nat) (C : chol) (H : ints) (T U : amps) : mat4 := fun a m i e =>
  cf_h2a_voov d nx C H T U a m i e + 1 / 2 * (sumn (noa d) (fun m' => sumn (nua d) (fun e' => (i_aa_oovv H m' m e' e) * (x_aa U a e' i m')))).
(** ccpy/cc/ccsd_chol.py, update_t2b, lines 228-231 *)
Definition cf_X_ab_voov (d : dims) (nx : nat) (C : chol) (H : ints) (T U : amps) : mat4 := fun a m i e =>
  cf_h2b_voov d nx C H T U a m i e + (1 / 2 * (sumn (nob d) (fun m' => sumn (nub d) (fun e' => (i_bb_oovv H m' m e' e) * (x_ab T a e' i m')))) + sumn (noa d) (fun m' => sumn (nua d) (fun e' => (i_ab_oovv H m' m e' e) * (x_aa U a e' i m')))).
(** ccpy/cc/ccsd_chol.py, update_t2b, lines 232-235 *)
Definition cf_h2b_oooo (d : dims) (nx : nat) (C : chol) (H : ints) (T U : amps) : mat4 := fun m n i j =>
  sumn nx (fun x => (cf_X_chol_a_oo d nx C H T U x m i) * (cf_X_chol_b_oo d nx C H T U x n j)) + sumn (nua d) (fun e => sumn (nub d) (fun f => (i_ab_oovv H m n e f) * (x_ab T e f i j))).
(** ccpy/cc/ccsd_chol.py, update_t2b, lines 236-238 *)
Definition cf_h2b_ovvo (d : dims) (nx : nat) (C : chol) (H : ints) (T U : amps) : mat4 := fun m a e i =>
  sumn nx (fun x => (cf_X_chol_a_ov d nx C H T U x m e) * (cf_X_chol_b_vo d nx C H T U x a i)).
(** ccpy/cc/ccsd_chol.py, update_t2b, lines 239-242 *)
Definition cf_h2b_vovo (d : dims) (nx : nat) (C : chol) (H : ints) (T U : amps) : mat4 := fun a m e i =>
  sumn nx (fun x => (cf_X_chol_a_vv d nx C H T U x a e) * (cf_X_chol_b_oo d nx C H T U x m i)) - sumn (noa d) (fun m' => sumn (nub d) (fun f => (i_ab_oovv H m' m e f) * (x_ab T a f m' i))).
(** ccpy/cc/ccsd_chol.py, update_t2b, lines 243-245 *)
Definition cf_h2b_ovov (d : dims) (nx : nat) (C : chol) (H : ints) (T U : amps) : mat4 := fun m b j e =>
  sumn nx (fun x => (cf_X_chol_a_oo d nx C H T U x m j) * (cf_X_chol_b_vv d nx C H T U x b e)).
(** ccpy/cc/ccsd_chol.py, update_t2b, lines 246-249 *)
Definition cf_h2c_voov (d : dims) (nx : nat) (C : chol) (H : ints) (T U : amps) : mat4 := fun a m i e =>
  sumn nx (fun x => (cf_X_chol_b_vo d nx C H T U x a i) * (cf_X_chol_b_ov d nx C H T U x m e)) - sumn nx (fun x => (cf_X_chol_b_vv d nx C H T U x a e) * (cf_X_chol_b_oo d nx C H T U x m i)).
(** ccpy/cc/ccsd_chol.py, update_t2b, line 251 *)
Definition cf_dT_ab (d : dims) (nx : nat) (C : chol) (H : ints) (T U : amps) : mat4 := fun a b i j =>
  sumn nx (fun x => (cf_X_chol_a_vo d nx C H T U x a i) * (cf_X_chol_b_vo d nx C H T U x b j)).
(** ccpy/cc/ccsd_chol.py, update_t2b, line 253 *)
Definition cf_dT_ab_1 (d : dims) (nx : nat) (C : chol) (H : ints) (T U : amps) : mat4 := fun a b i j =>
  cf_dT_ab d nx C H T U a b i j + sumn (nua d) (fun e => (cf_X_a_vv_2 d nx C H T U a e) * (x_ab T e b i j)).
(** ccpy/cc/ccsd_chol.py, update_t2b, line 254 *)
Definition cf_dT_ab_2 (d : dims) (nx : nat) (C : chol) (H : ints) (T U : amps) : mat4 := fun a b i j =>
  cf_dT_ab_1 d nx C H T U a b i j + sumn (nub d) (fun e => (cf_X_b_vv_2 d nx C H T U b e) * (x_ab T a e i j)).
(** ccpy/cc/ccsd_chol.py, update_t2b, line 255 *)
Definition cf_dT_ab_3 (d : dims) (nx : nat) (C : chol) (H : ints) (T U : amps) : mat4 := fun a b i j =>
  cf_dT_ab_2 d nx C H T U a b i j - sumn (noa d) (fun m => (cf_X_a_oo d nx C H T U m i) * (x_ab T a b m j)).
(** ccpy/cc/ccsd_chol.py, update_t2b, line 256 *)
Definition cf_dT_ab_4 (d : dims) (nx : nat) (C : chol) (H : ints) (T U : amps) : mat4 := fun a b i j =>
  cf_dT_ab_3 d nx C H T U a b i j - sumn (nob d) (fun m => (cf_X_b_oo d nx C H T U m j) * (x_ab T a b i m)).
(** ccpy/cc/ccsd_chol.py, update_t2b, line 257 *)
Definition cf_dT_ab_5 (d : dims) (nx : nat) (C : chol) (H : ints) (T U : amps) : mat4 := fun a b i j =>
  cf_dT_ab_4 d nx C H T U a b i j + sumn (noa d) (fun m => sumn (nua d) (fun e => (cf_X_aa_voov d nx C H T U a m i e) * (x_ab T e b m j))).
(** ccpy/cc/ccsd_chol.py, update_t2b, line 258 *)
Definition cf_dT_ab_6 (d : dims) (nx : nat) (C : chol) (H : ints) (T U : amps) : mat4 := fun a b i j =>
  cf_dT_ab_5 d nx C H T U a b i j + sumn (nob d) (fun m => sumn (nub d) (fun e => (cf_X_ab_voov d nx C H T U a m i e) * (x_bb T e b m j))).
(** ccpy/cc/ccsd_chol.py, update_t2b, line 259 *)
Definition cf_dT_ab_7 (d : dims) (nx : nat) (C : chol) (H : ints) (T U : amps) : mat4 := fun a b i j =>
  cf_dT_ab_6 d nx C H T U a b i j + sumn (noa d) (fun m => sumn (nua d) (fun e => (cf_h2b_ovvo d nx C H T U m b e j) * (x_aa U a e i m))).
(** ccpy/cc/ccsd_chol.py, update_t2b, line 260 *)
Definition cf_dT_ab_8 (d : dims) (nx : nat) (C : chol) (H : ints) (T U : amps) : mat4 := fun a b i j =>
  cf_dT_ab_7 d nx C H T U a b i j + sumn (nob d) (fun m => sumn (nub d) (fun e => (cf_h2c_voov d nx C H T U b m j e) * (x_ab T a e i m))).
(** ccpy/cc/ccsd_chol.py, update_t2b, line 261 *)
Definition cf_dT_ab_9 (d : dims) (nx : nat) (C : chol) (H : ints) (T U : amps) : mat4 := fun a b i j =>
  cf_dT_ab_8 d nx C H T U a b i j - sumn (noa d) (fun m => sumn (nub d) (fun e => (cf_h2b_ovov d nx C H T U m b i e) * (x_ab T a e m j))).
(** ccpy/cc/ccsd_chol.py, update_t2b, line 262 *)
Definition cf_dT_ab_10 (d : dims) (nx : nat) (C : chol) (H : ints) (T U : amps) : mat4 := fun a b i j =>
  cf_dT_ab_9 d nx C H T U a b i j - sumn (nob d) (fun m => sumn (nua d) (fun e => (cf_h2b_vovo d nx C H T U a m e j) * (x_ab T e b i m))).
(** ccpy/cc/ccsd_chol.py, update_t2b, line 263 *)
Definition cf_dT_ab_11 (d : dims) (nx : nat) (C : chol) (H : ints) (T U : amps) : mat4 := fun a b i j =>
  cf_dT_ab_10 d nx C H T U a b i j + sumn (noa d) (fun m => sumn (nob d) (fun n => (cf_h2b_oooo d nx C H T U m n i j) * (x_ab T a b m n))).
(** ccpy/cc/ccsd_chol.py, update_t2b, line 268 *)
Definition cf_vRa (d : dims) (nx : nat) (C : chol) (H : ints) (T U : amps) : mat3 := fun a b c =>
  cf_X_chol_a_vv d nx C H T U a c b.
(** ccpy/cc/ccsd_chol.py, update_t2b, line 268 *)
Definition cf_vRb (d : dims) (nx : nat) (C : chol) (H : ints) (T U : amps) : mat3 := fun a b c =>
  cf_X_chol_b_vv d nx C H T U a c b.
(** ccpy/cc/ccsd_chol.py, update_t2b, line 268 *)
Definition cf_vT_1 (d : dims) (nx : nat) (C : chol) (H : ints) (T U : amps) : mat4 := fun i j a b =>
  x_ab T b a j i.
(** ccpy/cc/ccsd_chol.py, update_t2b, line 269 *)
Definition cf_dT_ab_12 (d : dims) (nx : nat) (C : chol) (H : ints) (T U : amps) : mat4 := fun a b i j =>
  cf_dT_ab_11 d nx C H T U a b i j + sumn (nua d) (fun e' => sumn (nub d) (fun f' => (sumn nx (fun x => (cf_vRb d nx C H T U x f' b) * (cf_vRa d nx C H T U x e' a))) * (cf_vT_1 d nx C H T U j i f' e'))).
(** ccpy/cc/ccsd_chol.py, update_t2b, lines 271-273 *)
Definition cf_res_ab (d : dims) (nx : nat) (C : chol) (H : ints) (T U : amps) : mat4 := fun a b i j =>
  cf_dT_ab_12 d nx C H T U a b i j.
(** ccpy/cc/ccsd_chol.py, update_t2c, lines 281-285 *)
Definition cf_h2c_oooo (d : dims) (nx : nat) (C : chol) (H : ints) (T U : amps) : mat4 := fun m n i j =>
  sumn nx (fun x => (cf_X_chol_b_oo d nx C H T U x m i) * (cf_X_chol_b_oo d nx C H T U x n j)) - sumn nx (fun x => (cf_X_chol_b_oo d nx C H T U x m j) * (cf_X_chol_b_oo d nx C H T U x n i)) + 1 / 2 * (sumn (nub d) (fun e => sumn (nub d) (fun f => (i_bb_oovv H m n e f) * (x_bb T e f i j)))).
(** ccpy/cc/ccsd_chol.py, update_t2c, lines 286-291 *)
Definition cf_h2c_voov_1 (d : dims) (nx : nat) (C : chol) (H : ints) (T U : amps) : mat4 := fun a m i e =>
  sumn nx (fun x => (cf_X_chol_b_vo d nx C H T U x a i) * (cf_X_chol_b_ov d nx C H T U x m e)) - sumn nx (fun x => (cf_X_chol_b_vv d nx C H T U x a e) * (cf_X_chol_b_oo d nx C H T U x m i)) + 1 / 2 * (sumn (nob d) (fun n => sumn (nub d) (fun f => (i_bb_oovv H m n e f) * (x_bb T a f i n)))) + sumn (noa d) (fun n => sumn (nua d) (fun f => (i_ab_oovv H n m f e) * (x_ab U f a n i))).
(** ccpy/cc/ccsd_chol.py, update_t2c, lines 292-295 *)
Definition cf_h2b_ovvo_1 (d : dims) (nx : nat) (C : chol) (H : ints) (T U : amps) : mat4 := fun m a e i =>
  sumn nx (fun x => (cf_X_chol_b_vo d nx C H T U x a i) * (cf_X_chol_a_ov d nx C H T U x m e)) + 1 / 2 * (sumn (noa d) (fun n => sumn (nua d) (fun f => (i_aa_oovv H m n e f) * (x_ab U f a n i)))).
(** ccpy/cc/ccsd_chol.py, update_t2c, line 297 *)
Definition cf_dT_bb (d : dims) (nx : nat) (C : chol) (H : ints) (T U : amps) : mat4 := fun a b i j =>
  1 / 2 * (sumn nx (fun x => (cf_X_chol_b_vo d nx C H T U x a i) * (cf_X_chol_b_vo d nx C H T U x b j))).
(** ccpy/cc/ccsd_chol.py, update_t2c, line 299 *)
Definition cf_dT_bb_1 (d : dims) (nx : nat) (C : chol) (H : ints) (T U : amps) : mat4 := fun a b i j =>
  cf_dT_bb d nx C H T U a b i j - 1 / 2 * (sumn (nob d) (fun m => (cf_X_b_oo d nx C H T U m i) * (x_bb T a b m j))).
(** ccpy/cc/ccsd_chol.py, update_t2c, line 300 *)
Definition cf_dT_bb_2 (d : dims) (nx : nat) (C : chol) (H : ints) (T U : amps) : mat4 := fun a b i j =>
  cf_dT_bb_1 d nx C H T U a b i j + 1 / 2 * (sumn (nub d) (fun e => (cf_X_b_vv_2 d nx C H T U a e) * (x_bb T e b i j))).
(** ccpy/cc/ccsd_chol.py, update_t2c, line 301 *)
Definition cf_dT_bb_3 (d : dims) (nx : nat) (C : chol) (H : ints) (T U : amps) : mat4 := fun a b i j =>
  cf_dT_bb_2 d nx C H T U a b i j + sumn (nob d) (fun m => sumn (nub d) (fun e => (cf_h2c_voov_1 d nx C H T U a m i e) * (x_bb T e b m j))).
(** ccpy/cc/ccsd_chol.py, update_t2c, line 302 *)
Definition cf_dT_bb_4 (d : dims) (nx : nat) (C : chol) (H : ints) (T U : amps) : mat4 := fun a b i j =>
  cf_dT_bb_3 d nx C H T U a b i j + sumn (noa d) (fun m => sumn (nua d) (fun e => (cf_h2b_ovvo_1 d nx C H T U m a e i) * (x_ab U e b m j))).
(** ccpy/cc/ccsd_chol.py, update_t2c, line 303 *)
Definition cf_dT_bb_5 (d : dims) (nx : nat) (C : chol) (H : ints) (T U : amps) : mat4 := fun a b i j =>
  cf_dT_bb_4 d nx C H T U a b i j + 1 / 8 * (sumn (nob d) (fun m => sumn (nob d) (fun n => (cf_h2c_oooo d nx C H T U m n i j) * (x_bb T a b m n)))).
(** ccpy/cc/ccsd_chol.py, update_t2c, line 309 *)
Definition cf_vR_1 (d : dims) (nx : nat) (C : chol) (H : ints) (T U : amps) : mat3 := fun a b c =>
  cf_X_chol_b_vv d nx C H T U a c b.
(** ccpy/cc/ccsd_chol.py, update_t2c, line 309 *)
Definition cf_vT_2 (d : dims) (nx : nat) (C : chol) (H : ints) (T U : amps) : mat4 := fun i j a b =>
  1 / 2 * (x_bb T b a j i).
(** ccpy/cc/ccsd_chol.py, update_t2c, line 310 *)
Definition cf_dT_bb_6 (d : dims) (nx : nat) (C : chol) (H : ints) (T U : amps) : mat4 := fun a b i j =>
  cf_dT_bb_5 d nx C H T U a b i j + 1 / 4 * (sumn (nub d) (fun e' => sumn (nub d) (fun f' => (sumn nx (fun x => (cf_vR_1 d nx C H T U x f' b) * (cf_vR_1 d nx C H T U x e' a) - (cf_vR_1 d nx C H T U x e' b) * (cf_vR_1 d nx C H T U x f' a))) * (cf_vT_2 d nx C H T U j i f' e')))).
(** ccpy/cc/ccsd_chol.py, update_t2c, lines 311-313 *)
Definition cf_res_bb (d : dims) (nx : nat) (C : chol) (H : ints) (T U : amps) : mat4 := fun a b i j =>
  cf_dT_bb_6 d nx C H T U a b i j.
(** ccpy/cc/ccsd_chol.py, update, lines 13-16 *)
Definition cg_X_a_ov (d : dims) (nx : nat) (C : chol) (H : ints) (T U : amps) : mat2 := fun m e =>
  i_a_ov H m e + (sumn (noa d) (fun n => sumn (nua d) (fun f => (i_aa_oovv H m n e f) * (x_a T f n))) + sumn (noa d) (fun n => sumn (nua d) (fun f => (i_ab_oovv H m n e f) * (x_b T f n)))).
(** ccpy/cc/ccsd_chol.py, update, lines 17-20 *)
Definition cg_X_a_vv (d : dims) (nx : nat) (C : chol) (H : ints) (T U : amps) : mat2 := fun a e =>
  i_a_vv H a e + ((-1) / 2 * (sumn (noa d) (fun m => sumn (noa d) (fun n => sumn (nua d) (fun f => (i_aa_oovv H m n e f) * (x_aa T a f m n))))) - sumn (noa d) (fun m => sumn (noa d) (fun n => sumn (nua d) (fun f => (i_ab_oovv H m n e f) * (x_ab T a f m n))))).
(** ccpy/cc/ccsd_chol.py, update, lines 21-24 *)
Definition cg_bt1 (d : dims) (nx : nat) (C : chol) (H : ints) (T U : amps) : mat1 := fun x =>
  sumn (noa d) (fun n => sumn (nua d) (fun f => (c_a_ov C x n f) * (x_a T f n))) + sumn (noa d) (fun n => sumn (nua d) (fun f => (c_b_ov C x n f) * (x_b T f n))).
(** ccpy/cc/ccsd_chol.py, update, line 25 *)
Definition cg_bxt1 (d : dims) (nx : nat) (C : chol) (H : ints) (T U : amps) : mat3 := fun x f e =>
  (- (sumn (noa d) (fun n => (c_a_ov C x n e) * (x_a T f n)))).
(** ccpy/cc/ccsd_chol.py, update, lines 26-29 *)
Definition cg_X_a_vv_1 (d : dims) (nx : nat) (C : chol) (H : ints) (T U : amps) : mat2 := fun a e =>
  cg_X_a_vv d nx C H T U a e + (sumn nx (fun x => (c_a_vv C x a e) * (cg_bt1 d nx C H T U x)) + sumn nx (fun x => sumn (nua d) (fun f => (c_a_vv C x a f) * (cg_bxt1 d nx C H T U x f e)))).
(** ccpy/cc/ccsd_chol.py, update, lines 30-36 *)
Definition cg_X_a_oo (d : dims) (nx : nat) (C : chol) (H : ints) (T U : amps) : mat2 := fun m i =>
  i_a_oo H m i + (sumn (noa d) (fun n => sumn (nua d) (fun f => (i_aa_ooov H m n i f) * (x_a T f n))) + sumn (noa d) (fun n => sumn (nua d) (fun f => (i_ab_ooov H m n i f) * (x_b T f n))) + sumn (nua d) (fun e => (cg_X_a_ov d nx C H T U m e) * (x_a T e i)) + 1 / 2 * (sumn (noa d) (fun n => sumn (nua d) (fun e => sumn (nua d) (fun f => (i_aa_oovv H m n e f) * (x_aa T e f i n))))) + sumn (noa d) (fun n => sumn (nua d) (fun e => sumn (nua d) (fun f => (i_ab_oovv H m n e f) * (x_ab T e f i n))))).
(** ccpy/cc/ccsd_chol.py, update, line 38 *)
Definition cg_X_b_ov (d : dims) (nx : nat) (C : chol) (H : ints) (T U : amps) : mat2 := fun m e =>
  cg_X_a_ov d nx C H T U m e.
(** ccpy/cc/ccsd_chol.py, update, line 39 *)
Definition cg_X_b_oo (d : dims) (nx : nat) (C : chol) (H : ints) (T U : amps) : mat2 := fun m i =>
  cg_X_a_oo d nx C H T U m i.
(** ccpy/cc/ccsd_chol.py, update, line 40 *)
Definition cg_X_b_vv (d : dims) (nx : nat) (C : chol) (H : ints) (T U : amps) : mat2 := fun a e =>
  cg_X_a_vv_1 d nx C H T U a e.
(** ccpy/cc/ccsd_chol.py, update_t1a, line 122 *)
Definition cg_dT_a (d : dims) (nx : nat) (C : chol) (H : ints) (T U : amps) : mat2 := fun a i =>
  (- (sumn (noa d) (fun m => (cg_X_a_oo d nx C H T U m i) * (x_a T a m)))).
(** ccpy/cc/ccsd_chol.py, update_t1a, line 123 *)
Definition cg_dT_a_1 (d : dims) (nx : nat) (C : chol) (H : ints) (T U : amps) : mat2 := fun a i =>
  cg_dT_a d nx C H T U a i + sumn (nua d) (fun e => (cg_X_a_vv_1 d nx C H T U a e) * (x_a T e i)).
(** ccpy/cc/ccsd_chol.py, update_t1a, line 124 *)
Definition cg_dT_a_2 (d : dims) (nx : nat) (C : chol) (H : ints) (T U : amps) : mat2 := fun a i =>
  cg_dT_a_1 d nx C H T U a i + sumn (noa d) (fun m => sumn (nua d) (fun e => (cg_X_a_ov d nx C H T U m e) * (x_aa T a e i m))).
(** ccpy/cc/ccsd_chol.py, update_t1a, line 125 *)
Definition cg_dT_a_3 (d : dims) (nx : nat) (C : chol) (H : ints) (T U : amps) : mat2 := fun a i =>
  cg_dT_a_2 d nx C H T U a i + sumn (noa d) (fun m => sumn (nua d) (fun e => (cg_X_b_ov d nx C H T U m e) * (x_ab T a e i m))).
(** ccpy/cc/ccsd_chol.py, update_t1a, line 126 *)
Definition cg_dT_a_4 (d : dims) (nx : nat) (C : chol) (H : ints) (T U : amps) : mat2 := fun a i =>
  cg_dT_a_3 d nx C H T U a i + sumn (noa d) (fun n => sumn (nua d) (fun f => (i_aa_voov H a n i f) * (x_a T f n))).
(** ccpy/cc/ccsd_chol.py, update_t1a, line 127 *)
Definition cg_dT_a_5 (d : dims) (nx : nat) (C : chol) (H : ints) (T U : amps) : mat2 := fun a i =>
  cg_dT_a_4 d nx C H T U a i + sumn (noa d) (fun n => sumn (nua d) (fun f => (i_ab_voov H a n i f) * (x_b T f n))).
(** ccpy/cc/ccsd_chol.py, update_t1a, line 128 *)
Definition cg_dT_a_6 (d : dims) (nx : nat) (C : chol) (H : ints) (T U : amps) : mat2 := fun a i =>
  cg_dT_a_5 d nx C H T U a i - 1 / 2 * (sumn (noa d) (fun m => sumn (noa d) (fun n => sumn (nua d) (fun f => (i_aa_ooov H m n i f) * (x_aa T a f m n))))).
(** ccpy/cc/ccsd_chol.py, update_t1a, line 129 *)
Definition cg_dT_a_7 (d : dims) (nx : nat) (C : chol) (H : ints) (T U : amps) : mat2 := fun a i =>
  cg_dT_a_6 d nx C H T U a i - sumn (noa d) (fun m => sumn (noa d) (fun n => sumn (nua d) (fun f => (i_ab_ooov H m n i f) * (x_ab T a f m n)))).
(** ccpy/cc/ccsd_chol.py, update_t1a, lines 131-135 *)
Definition cg_b_vo (d : dims) (nx : nat) (C : chol) (H : ints) (T U : amps) : mat3 := fun x e i =>
  1 / 2 * (sumn (noa d) (fun m => sumn (nua d) (fun f => (c_a_ov C x m f) * (x_aa T e f i m)))) - 1 / 2 * (sumn (noa d) (fun m => sumn (nua d) (fun e' => (c_a_ov C x m e') * (x_aa T e' e i m)))) + sumn (noa d) (fun n => sumn (nua d) (fun f => (c_b_ov C x n f) * (x_ab T e f i n))).
(** ccpy/cc/ccsd_chol.py, update_t1a, line 136 *)
Definition cg_dT_a_8 (d : dims) (nx : nat) (C : chol) (H : ints) (T U : amps) : mat2 := fun a i =>
  cg_dT_a_7 d nx C H T U a i + sumn nx (fun x => sumn (nua d) (fun e => (c_a_vv C x a e) * (cg_b_vo d nx C H T U x e i))).
(** ccpy/cc/ccsd_chol.py, update_t1a, lines 138-140 *)
Definition cg_res_a (d : dims) (nx : nat) (C : chol) (H : ints) (T U : amps) : mat2 := fun a i =>
  cg_dT_a_8 d nx C H T U a i + i_a_vo H a i.
(** ccpy/cc/ccsd_chol.py, update, line 70 *)
Definition cg_T_b (d : dims) (nx : nat) (C : chol) (H : ints) (T U : amps) : mat2 := fun a i =>
  x_a U a i.
(** ccpy/cc/ccsd_chol.py, update, line 71 *)
Definition cg_dT_b (d : dims) (nx : nat) (C : chol) (H : ints) (T U : amps) : mat2 := fun a i =>
  cg_res_a d nx C H T U a i.
(** ccpy/cc/ccsd_chol.py, update, line 76 *)
Definition cg_X_a_vv_2 (d : dims) (nx : nat) (C : chol) (H : ints) (T U : amps) : mat2 := fun a e =>
  cg_X_a_vv_1 d nx C H T U a e - sumn (noa d) (fun m => (cg_X_a_ov d nx C H T U m e) * (x_a U a m)).
(** ccpy/cc/ccsd_chol.py, update, line 78 *)
Definition cg_X_b_vv_1 (d : dims) (nx : nat) (C : chol) (H : ints) (T U : amps) : mat2 := fun a e =>
  cg_X_a_vv_2 d nx C H T U a e.
(** ccpy/cc/ccsd_chol.py, update, line 82 *)
Definition cg_X_chol_a_ov (d : dims) (nx : nat) (C : chol) (H : ints) (T U : amps) : mat3 := fun a i b =>
  c_a_ov C a i b.
(** ccpy/cc/ccsd_chol.py, update, line 83 *)
Definition cg_X_chol_a_oo (d : dims) (nx : nat) (C : chol) (H : ints) (T U : amps) : mat3 := fun x m i =>
  c_a_oo C x m i + sumn (nua d) (fun e => (cg_X_chol_a_ov d nx C H T U x m e) * (x_a U e i)).
(** ccpy/cc/ccsd_chol.py, update, line 84 *)
Definition cg_X_chol_a_vv (d : dims) (nx : nat) (C : chol) (H : ints) (T U : amps) : mat3 := fun x a e =>
  c_a_vv C x a e - sumn (noa d) (fun m => (cg_X_chol_a_ov d nx C H T U x m e) * (x_a U a m)).
(** ccpy/cc/ccsd_chol.py, update, lines 85-90 *)
Definition cg_X_chol_a_vo (d : dims) (nx : nat) (C : chol) (H : ints) (T U : amps) : mat3 := fun x a i =>
  c_a_vo C x a i - sumn (noa d) (fun m => (cg_X_chol_a_oo d nx C H T U x m i) * (x_a U a m)) + sumn (nua d) (fun e => (cg_X_chol_a_vv d nx C H T U x a e) * (x_a U e i)) + sumn (noa d) (fun m => sumn (nua d) (fun e => (cg_X_chol_a_ov d nx C H T U x m e) * (x_a U e i) * (x_a U a m))).
(** ccpy/cc/ccsd_chol.py, update, line 92 *)
Definition cg_X_chol_b_ov (d : dims) (nx : nat) (C : chol) (H : ints) (T U : amps) : mat3 := fun a i b =>
  cg_X_chol_a_ov d nx C H T U a i b.
(** ccpy/cc/ccsd_chol.py, update, line 93 *)
Definition cg_X_chol_b_oo (d : dims) (nx : nat) (C : chol) (H : ints) (T U : amps) : mat3 := fun x m i =>
  cg_X_chol_a_oo d nx C H T U x m i.
(** ccpy/cc/ccsd_chol.py, update, line 94 *)
Definition cg_X_chol_b_vv (d : dims) (nx : nat) (C : chol) (H : ints) (T U : amps) : mat3 := fun x a e =>
  cg_X_chol_a_vv d nx C H T U x a e.
(** ccpy/cc/ccsd_chol.py, update, line 95 *)
Definition cg_X_chol_b_vo (d : dims) (nx : nat) (C : chol) (H : ints) (T U : amps) : mat3 := fun x a i =>
  cg_X_chol_a_vo d nx C H T U x a i.
(** ccpy/cc/ccsd_chol.py, update_t2a, lines 174-178 *)
Definition cg_h2a_oooo (d : dims) (nx : nat) (C : chol) (H : ints) (T U : amps) : mat4 := fun m n i j =>
  sumn nx (fun x => (cg_X_chol_a_oo d nx C H T U x m i) * (cg_X_chol_a_oo d nx C H T U x n j)) - sumn nx (fun x => (cg_X_chol_a_oo d nx C H T U x m j) * (cg_X_chol_a_oo d nx C H T U x n i)) + 1 / 2 * (sumn (nua d) (fun e => sumn (nua d) (fun f => (i_aa_oovv H m n e f) * (x_aa T e f i j)))).
(** ccpy/cc/ccsd_chol.py, update_t2a, lines 179-184 *)
Definition cg_h2a_voov (d : dims) (nx : nat) (C : chol) (H : ints) (T U : amps) : mat4 := fun a m i e =>
  sumn nx (fun x => (cg_X_chol_a_vo d nx C H T U x a i) * (cg_X_chol_a_ov d nx C H T U x m e)) - sumn nx (fun x => (cg_X_chol_a_vv d nx C H T U x a e) * (cg_X_chol_a_oo d nx C H T U x m i)) + 1 / 2 * (sumn (noa d) (fun n => sumn (nua d) (fun f => (i_aa_oovv H m n e f) * (x_aa T a f i n)))) + sumn (noa d) (fun n => sumn (nua d) (fun f => (i_ab_oovv H m n e f) * (x_ab T a f i n))).
(** ccpy/cc/ccsd_chol.py, update_t2a, lines 185-188 *)
Definition cg_h2b_voov (d : dims) (nx : nat) (C : chol) (H : ints) (T U : amps) : mat4 := fun a m i e =>
  sumn nx (fun x => (cg_X_chol_a_vo d nx C H T U x a i) * (cg_X_chol_b_ov d nx C H T U x m e)) + 1 / 2 * (sumn (noa d) (fun n => sumn (nua d) (fun f => (i_bb_oovv H m n e f) * (x_ab T a f i n)))).
(** ccpy/cc/ccsd_chol.py, update_t2a, line 193 *)
Definition cg_dT_aa (d : dims) (nx : nat) (C : chol) (H : ints) (T U : amps) : mat4 := fun a b i j =>
  1 / 2 * (sumn nx (fun x => (cg_X_chol_a_vo d nx C H T U x a i) * (cg_X_chol_a_vo d nx C H T U x b j))).
(** ccpy/cc/ccsd_chol.py, update_t2a, line 195 *)
Definition cg_dT_aa_1 (d : dims) (nx : nat) (C : chol) (H : ints) (T U : amps) : mat4 := fun a b i j =>
  cg_dT_aa d nx C H T U a b i j - 1 / 2 * (sumn (noa d) (fun m => (cg_X_a_oo d nx C H T U m i) * (x_aa T a b m j))).
(** ccpy/cc/ccsd_chol.py, update_t2a, line 196 *)
Definition cg_dT_aa_2 (d : dims) (nx : nat) (C : chol) (H : ints) (T U : amps) : mat4 := fun a b i j =>
  cg_dT_aa_1 d nx C H T U a b i j + 1 / 2 * (sumn (nua d) (fun e => (cg_X_a_vv_2 d nx C H T U a e) * (x_aa T e b i j))).
(** ccpy/cc/ccsd_chol.py, update_t2a, line 197 *)
Definition cg_dT_aa_3 (d : dims) (nx : nat) (C : chol) (H : ints) (T U : amps) : mat4 := fun a b i j =>
  cg_dT_aa_2 d nx C H T U a b i j + sumn (noa d) (fun m => sumn (nua d) (fun e => (cg_h2a_voov d nx C H T U a m i e) * (x_aa T e b m j))).
(** ccpy/cc/ccsd_chol.py, update_t2a, line 198 *)
Definition cg_dT_aa_4 (d : dims) (nx : nat) (C : chol) (H : ints) (T U : amps) : mat4 := fun a b i j =>
  cg_dT_aa_3 d nx C H T U a b i j + sumn (noa d) (fun m => sumn (nua d) (fun e => (cg_h2b_voov d nx C H T U a m i e) * (x_ab T b e j m))).
(** ccpy/cc/ccsd_chol.py, update_t2a, line 199 *)
Definition cg_dT_aa_5 (d : dims) (nx : nat) (C : chol) (H : ints) (T U : amps) : mat4 := fun a b i j =>
  cg_dT_aa_4 d nx C H T U a b i j + 1 / 8 * (sumn (noa d) (fun m => sumn (noa d) (fun n => (cg_h2a_oooo d nx C H T U m n i j) * (x_aa T a b m n)))).
(** ccpy/cc/ccsd_chol.py, update_t2a, line 205 *)
Definition cg_vR (d : dims) (nx : nat) (C : chol) (H : ints) (T U : amps) : mat3 := fun a b c =>
  cg_X_chol_a_vv d nx C H T U a c b.
(** ccpy/cc/ccsd_chol.py, update_t2a, line 205 *)
Definition cg_vT (d : dims) (nx : nat) (C : chol) (H : ints) (T U : amps) : mat4 := fun i j a b =>
  1 / 2 * (x_aa T b a j i).
(** ccpy/cc/ccsd_chol.py, update_t2a, line 206 *)
Definition cg_dT_aa_6 (d : dims) (nx : nat) (C : chol) (H : ints) (T U : amps) : mat4 := fun a b i j =>
  cg_dT_aa_5 d nx C H T U a b i j + 1 / 4 * (sumn (nua d) (fun e' => sumn (nua d) (fun f' => (sumn nx (fun x => (cg_vR d nx C H T U x f' b) * (cg_vR d nx C H T U x e' a) - (cg_vR d nx C H T U x e' b) * (cg_vR d nx C H T U x f' a))) * (cg_vT d nx C H T U j i f' e')))).
(** ccpy/cc/ccsd_chol.py, update_t2a, lines 207-209 *)
Definition cg_res_aa (d : dims) (nx : nat) (C : chol) (H : ints) (T U : amps) : mat4 := fun a b i j =>
  cg_dT_aa_6 d nx C H T U a b i j.
(** ccpy/cc/ccsd_chol.py, update_t2b, line 227 *)
Definition cg_X_aa_voov (d : dims) (nx : nat) (C : chol) (H : ints) (T U : amps) : mat4 := fun a m i e =>
  cg_h2a_voov d nx C H T U a m i e + 1 / 2 * (sumn (noa d) (fun m' => sumn (nua d) (fun e' => (i_aa_oovv H m' m e' e) * (x_aa U a e' i m')))).
(** ccpy/cc/ccsd_chol.py, update_t2b, lines 228-231 *)
Definition cg_X_ab_voov (d : dims) (nx : nat) (C : chol) (H : ints) (T U : amps) : mat4 := fun a m i e =>
  cg_h2b_voov d nx C H T U a m i e + (1 / 2 * (sumn (noa d) (fun m' => sumn (nua d) (fun e' => (i_bb_oovv H m' m e' e) * (x_ab T a e' i m')))) + sumn (noa d) (fun m' => sumn (nua d) (fun e' => (i_ab_oovv H m' m e' e) * (x_aa U a e' i m')))).
(** ccpy/cc/ccsd_chol.py, update_t2b, lines 232-235 *)
Definition cg_h2b_oooo (d : dims) (nx : nat) (C : chol) (H : ints) (T U : amps) : mat4 := fun m n i j =>
  sumn nx (fun x => (cg_X_chol_a_oo d nx C H T U x m i) * (cg_X_chol_b_oo d nx C H T U x n j)) + sumn (nua d) (fun e => sumn (nua d) (fun f => (i_ab_oovv H m n e f) * (x_ab T e f i j))).
(** ccpy/cc/ccsd_chol.py, update_t2b, lines 236-238 *)
Definition cg_h2b_ovvo (d : dims) (nx : nat) (C : chol) (H : ints) (T U : amps) : mat4 := fun m a e i =>
  sumn nx (fun x => (cg_X_chol_a_ov d nx C H T U x m e) * (cg_X_chol_b_vo d nx C H T U x a i)).
(** ccpy/cc/ccsd_chol.py, update_t2b, lines 239-242 *)
Definition cg_h2b_vovo (d : dims) (nx : nat) (C : chol) (H : ints) (T U : amps) : mat4 := fun a m e i =>
  sumn nx (fun x => (cg_X_chol_a_vv d nx C H T U x a e) * (cg_X_chol_b_oo d nx C H T U x m i)) - sumn (noa d) (fun m' => sumn (nua d) (fun f => (i_ab_oovv H m' m e f) * (x_ab T a f m' i))).
(** ccpy/cc/ccsd_chol.py, update_t2b, lines 243-245 *)
Definition cg_h2b_ovov (d : dims) (nx : nat) (C : chol) (H : ints) (T U : amps) : mat4 := fun m b j e =>
  sumn nx (fun x => (cg_X_chol_a_oo d nx C H T U x m j) * (cg_X_chol_b_vv d nx C H T U x b e)).
(** ccpy/cc/ccsd_chol.py, update_t2b, lines 246-249 *)
Definition cg_h2c_voov (d : dims) (nx : nat) (C : chol) (H : ints) (T U : amps) : mat4 := fun a m i e =>
  sumn nx (fun x => (cg_X_chol_b_vo d nx C H T U x a i) * (cg_X_chol_b_ov d nx C H T U x m e)) - sumn nx (fun x => (cg_X_chol_b_vv d nx C H T U x a e) * (cg_X_chol_b_oo d nx C H T U x m i)).
(** ccpy/cc/ccsd_chol.py, update_t2b, line 251 *)
Definition cg_dT_ab (d : dims) (nx : nat) (C : chol) (H : ints) (T U : amps) : mat4 := fun a b i j =>
  sumn nx (fun x => (cg_X_chol_a_vo d nx C H T U x a i) * (cg_X_chol_b_vo d nx C H T U x b j)).
(** ccpy/cc/ccsd_chol.py, update_t2b, line 253 *)
Definition cg_dT_ab_1 (d : dims) (nx : nat) (C : chol) (H : ints) (T U : amps) : mat4 := fun a b i j =>
  cg_dT_ab d nx C H T U a b i j + sumn (nua d) (fun e => (cg_X_a_vv_2 d nx C H T U a e) * (x_ab T e b i j)).
(** ccpy/cc/ccsd_chol.py, update_t2b, line 254 *)
Definition cg_dT_ab_2 (d : dims) (nx : nat) (C : chol) (H : ints) (T U : amps) : mat4 := fun a b i j =>
  cg_dT_ab_1 d nx C H T U a b i j + sumn (nua d) (fun e => (cg_X_b_vv_1 d nx C H T U b e) * (x_ab T a e i j)).
(** ccpy/cc/ccsd_chol.py, update_t2b, line 255 *)
Definition cg_dT_ab_3 (d : dims) (nx : nat) (C : chol) (H : ints) (T U : amps) : mat4 := fun a b i j =>
  cg_dT_ab_2 d nx C H T U a b i j - sumn (noa d) (fun m => (cg_X_a_oo d nx C H T U m i) * (x_ab T a b m j)).
(** ccpy/cc/ccsd_chol.py, update_t2b, line 256 *)
Definition cg_dT_ab_4 (d : dims) (nx : nat) (C : chol) (H : ints) (T U : amps) : mat4 := fun a b i j =>
  cg_dT_ab_3 d nx C H T U a b i j - sumn (noa d) (fun m => (cg_X_b_oo d nx C H T U m j) * (x_ab T a b i m)).
(** ccpy/cc/ccsd_chol.py, update_t2b, line 257 *)
Definition cg_dT_ab_5 (d : dims) (nx : nat) (C : chol) (H : ints) (T U : amps) : mat4 := fun a b i j =>
  cg_dT_ab_4 d nx C H T U a b i j + sumn (noa d) (fun m => sumn (nua d) (fun e => (cg_X_aa_voov d nx C H T U a m i e) * (x_ab T e b m j))).
(** ccpy/cc/ccsd_chol.py, update_t2b, line 258 *)
Definition cg_dT_ab_6 (d : dims) (nx : nat) (C : chol) (H : ints) (T U : amps) : mat4 := fun a b i j =>
  cg_dT_ab_5 d nx C H T U a b i j + sumn (noa d) (fun m => sumn (nua d) (fun e => (cg_X_ab_voov d nx C H T U a m i e) * (x_bb T e b m j))).
(** ccpy/cc/ccsd_chol.py, update_t2b, line 259 *)
Definition cg_dT_ab_7 (d : dims) (nx : nat) (C : chol) (H : ints) (T U : amps) : mat4 := fun a b i j =>
  cg_dT_ab_6 d nx C H T U a b i j + sumn (noa d) (fun m => sumn (nua d) (fun e => (cg_h2b_ovvo d nx C H T U m b e j) * (x_aa U a e i m))).
(** ccpy/cc/ccsd_chol.py, update_t2b, line 260 *)
Definition cg_dT_ab_8 (d : dims) (nx : nat) (C : chol) (H : ints) (T U : amps) : mat4 := fun a b i j =>
  cg_dT_ab_7 d nx C H T U a b i j + sumn (noa d) (fun m => sumn (nua d) (fun e => (cg_h2c_voov d nx C H T U b m j e) * (x_ab T a e i m))).
(** ccpy/cc/ccsd_chol.py, update_t2b, line 261 *)
Definition cg_dT_ab_9 (d : dims) (nx : nat) (C : chol) (H : ints) (T U : amps) : mat4 := fun a b i j =>
  cg_dT_ab_8 d nx C H T U a b i j - sumn (noa d) (fun m => sumn (nua d) (fun e => (cg_h2b_ovov d nx C H T U m b i e) * (x_ab T a e m j))).
(** ccpy/cc/ccsd_chol.py, update_t2b, line 262 *)
Definition cg_dT_ab_10 (d : dims) (nx : nat) (C : chol) (H : ints) (T U : amps) : mat4 := fun a b i j =>
  cg_dT_ab_9 d nx C H T U a b i j - sumn (noa d) (fun m => sumn (nua d) (fun e => (cg_h2b_vovo d nx C H T U a m e j) * (x_ab T e b i m))).
(** ccpy/cc/ccsd_chol.py, update_t2b, line 263 *)
Definition cg_dT_ab_11 (d : dims) (nx : nat) (C : chol) (H : ints) (T U : amps) : mat4 := fun a b i j =>
  cg_dT_ab_10 d nx C H T U a b i j + sumn (noa d) (fun m => sumn (noa d) (fun n => (cg_h2b_oooo d nx C H T U m n i j) * (x_ab T a b m n))).
(** ccpy/cc/ccsd_chol.py, update_t2b, line 268 *)
Definition cg_vRa (d : dims) (nx : nat) (C : chol) (H : ints) (T U : amps) : mat3 := fun a b c =>
  cg_X_chol_a_vv d nx C H T U a c b.
(** ccpy/cc/ccsd_chol.py, update_t2b, line 268 *)
Definition cg_vRb (d : dims) (nx : nat) (C : chol) (H : ints) (T U : amps) : mat3 := fun a b c =>
  cg_X_chol_b_vv d nx C H T U a c b.
(** ccpy/cc/ccsd_chol.py, update_t2b, line 268 *)
Definition cg_vT_1 (d : dims) (nx : nat) (C : chol) (H : ints) (T U : amps) : mat4 := fun i j a b =>
  x_ab T b a j i.
(** ccpy/cc/ccsd_chol.py, update_t2b, line 269 *)
Definition cg_dT_ab_12 (d : dims) (nx : nat) (C : chol) (H : ints) (T U : amps) : mat4 := fun a b i j =>
  cg_dT_ab_11 d nx C H T U a b i j + sumn (nua d) (fun e' => sumn (nua d) (fun f' => (sumn nx (fun x => (cg_vRb d nx C H T U x f' b) * (cg_vRa d nx C H T U x e' a))) * (cg_vT_1 d nx C H T U j i f' e'))).
(** ccpy/cc/ccsd_chol.py, update_t2b, lines 271-273 *)
Definition cg_res_ab (d : dims) (nx : nat) (C : chol) (H : ints) (T U : amps) : mat4 := fun a b i j =>
  cg_dT_ab_12 d nx C H T U a b i j.
(** ccpy/cc/ccsd_chol.py, update, line 111 *)
Definition cg_T_bb (d : dims) (nx : nat) (C : chol) (H : ints) (T U : amps) : mat4 := fun a b i j =>
  x_aa U a b i j.
(** ccpy/cc/ccsd_chol.py, update, line 112 *)
Definition cg_dT_bb (d : dims) (nx : nat) (C : chol) (H : ints) (T U : amps) : mat4 := fun a b i j =>
  cg_res_aa d nx C H T U a b i j.
Local Open Scope nat_scope.
Definition b_aa_oooo (z p q r s : nat) : ex := (ESub (ESum (0 + z) 4 (EMul (ET 0 [(0 + z); p; r]) (ET 0 [(0 + z); q; s]))) (ESum (0 + z) 4 (EMul (ET 0 [(0 + z); p; s]) (ET 0 [(0 + z); q; r])))).
Definition b_aa_ooov (z p q r s : nat) : ex := (ESub (ESum (0 + z) 4 (EMul (ET 0 [(0 + z); p; r]) (ET 1 [(0 + z); q; s]))) (ESum (0 + z) 4 (EMul (ET 1 [(0 + z); p; s]) (ET 0 [(0 + z); q; r])))).
Definition b_aa_oovo (z p q r s : nat) : ex := (ESub (ESum (0 + z) 4 (EMul (ET 1 [(0 + z); p; r]) (ET 0 [(0 + z); q; s]))) (ESum (0 + z) 4 (EMul (ET 0 [(0 + z); p; s]) (ET 1 [(0 + z); q; r])))).
Definition b_aa_oovv (z p q r s : nat) : ex := (ESub (ESum (0 + z) 4 (EMul (ET 1 [(0 + z); p; r]) (ET 1 [(0 + z); q; s]))) (ESum (0 + z) 4 (EMul (ET 1 [(0 + z); p; s]) (ET 1 [(0 + z); q; r])))).
Definition b_aa_ovoo (z p q r s : nat) : ex := (ESub (ESum (0 + z) 4 (EMul (ET 0 [(0 + z); p; r]) (ET 2 [(0 + z); q; s]))) (ESum (0 + z) 4 (EMul (ET 0 [(0 + z); p; s]) (ET 2 [(0 + z); q; r])))).
Definition b_aa_ovov (z p q r s : nat) : ex := (ESub (ESum (0 + z) 4 (EMul (ET 0 [(0 + z); p; r]) (ET 3 [(0 + z); q; s]))) (ESum (0 + z) 4 (EMul (ET 1 [(0 + z); p; s]) (ET 2 [(0 + z); q; r])))).
Definition b_aa_ovvo (z p q r s : nat) : ex := (ESub (ESum (0 + z) 4 (EMul (ET 1 [(0 + z); p; r]) (ET 2 [(0 + z); q; s]))) (ESum (0 + z) 4 (EMul (ET 0 [(0 + z); p; s]) (ET 3 [(0 + z); q; r])))).
Definition b_aa_ovvv (z p q r s : nat) : ex := (ESub (ESum (0 + z) 4 (EMul (ET 1 [(0 + z); p; r]) (ET 3 [(0 + z); q; s]))) (ESum (0 + z) 4 (EMul (ET 1 [(0 + z); p; s]) (ET 3 [(0 + z); q; r])))).
Definition b_aa_vooo (z p q r s : nat) : ex := (ESub (ESum (0 + z) 4 (EMul (ET 2 [(0 + z); p; r]) (ET 0 [(0 + z); q; s]))) (ESum (0 + z) 4 (EMul (ET 2 [(0 + z); p; s]) (ET 0 [(0 + z); q; r])))).
Definition b_aa_voov (z p q r s : nat) : ex := (ESub (ESum (0 + z) 4 (EMul (ET 2 [(0 + z); p; r]) (ET 1 [(0 + z); q; s]))) (ESum (0 + z) 4 (EMul (ET 3 [(0 + z); p; s]) (ET 0 [(0 + z); q; r])))).
Definition b_aa_vovo (z p q r s : nat) : ex := (ESub (ESum (0 + z) 4 (EMul (ET 3 [(0 + z); p; r]) (ET 0 [(0 + z); q; s]))) (ESum (0 + z) 4 (EMul (ET 2 [(0 + z); p; s]) (ET 1 [(0 + z); q; r])))).
Definition b_aa_vovv (z p q r s : nat) : ex := (ESub (ESum (0 + z) 4 (EMul (ET 3 [(0 + z); p; r]) (ET 1 [(0 + z); q; s]))) (ESum (0 + z) 4 (EMul (ET 3 [(0 + z); p; s]) (ET 1 [(0 + z); q; r])))).
Definition b_aa_vvoo (z p q r s : nat) : ex := (ESub (ESum (0 + z) 4 (EMul (ET 2 [(0 + z); p; r]) (ET 2 [(0 + z); q; s]))) (ESum (0 + z) 4 (EMul (ET 2 [(0 + z); p; s]) (ET 2 [(0 + z); q; r])))).
Definition b_aa_vvov (z p q r s : nat) : ex := (ESub (ESum (0 + z) 4 (EMul (ET 2 [(0 + z); p; r]) (ET 3 [(0 + z); q; s]))) (ESum (0 + z) 4 (EMul (ET 3 [(0 + z); p; s]) (ET 2 [(0 + z); q; r])))).
Definition b_aa_vvvo (z p q r s : nat) : ex := (ESub (ESum (0 + z) 4 (EMul (ET 3 [(0 + z); p; r]) (ET 2 [(0 + z); q; s]))) (ESum (0 + z) 4 (EMul (ET 2 [(0 + z); p; s]) (ET 3 [(0 + z); q; r])))).
Definition b_aa_vvvv (z p q r s : nat) : ex := (ESub (ESum (0 + z) 4 (EMul (ET 3 [(0 + z); p; r]) (ET 3 [(0 + z); q; s]))) (ESum (0 + z) 4 (EMul (ET 3 [(0 + z); p; s]) (ET 3 [(0 + z); q; r])))).
Definition b_ab_oooo (z p q r s : nat) : ex := (ESum (0 + z) 4 (EMul (ET 0 [(0 + z); p; r]) (ET 4 [(0 + z); q; s]))).
Definition b_ab_ooov (z p q r s : nat) : ex := (ESum (0 + z) 4 (EMul (ET 0 [(0 + z); p; r]) (ET 5 [(0 + z); q; s]))).
Definition b_ab_oovo (z p q r s : nat) : ex := (ESum (0 + z) 4 (EMul (ET 1 [(0 + z); p; r]) (ET 4 [(0 + z); q; s]))).
Definition b_ab_oovv (z p q r s : nat) : ex := (ESum (0 + z) 4 (EMul (ET 1 [(0 + z); p; r]) (ET 5 [(0 + z); q; s]))).
Definition b_ab_ovoo (z p q r s : nat) : ex := (ESum (0 + z) 4 (EMul (ET 0 [(0 + z); p; r]) (ET 6 [(0 + z); q; s]))).
Definition b_ab_ovov (z p q r s : nat) : ex := (ESum (0 + z) 4 (EMul (ET 0 [(0 + z); p; r]) (ET 7 [(0 + z); q; s]))).
Definition b_ab_ovvo (z p q r s : nat) : ex := (ESum (0 + z) 4 (EMul (ET 1 [(0 + z); p; r]) (ET 6 [(0 + z); q; s]))).
Definition b_ab_ovvv (z p q r s : nat) : ex := (ESum (0 + z) 4 (EMul (ET 1 [(0 + z); p; r]) (ET 7 [(0 + z); q; s]))).
Definition b_ab_vooo (z p q r s : nat) : ex := (ESum (0 + z) 4 (EMul (ET 2 [(0 + z); p; r]) (ET 4 [(0 + z); q; s]))).
Definition b_ab_voov (z p q r s : nat) : ex := (ESum (0 + z) 4 (EMul (ET 2 [(0 + z); p; r]) (ET 5 [(0 + z); q; s]))).
Definition b_ab_vovo (z p q r s : nat) : ex := (ESum (0 + z) 4 (EMul (ET 3 [(0 + z); p; r]) (ET 4 [(0 + z); q; s]))).
Definition b_ab_vovv (z p q r s : nat) : ex := (ESum (0 + z) 4 (EMul (ET 3 [(0 + z); p; r]) (ET 5 [(0 + z); q; s]))).
Definition b_ab_vvoo (z p q r s : nat) : ex := (ESum (0 + z) 4 (EMul (ET 2 [(0 + z); p; r]) (ET 6 [(0 + z); q; s]))).
Definition b_ab_vvov (z p q r s : nat) : ex := (ESum (0 + z) 4 (EMul (ET 2 [(0 + z); p; r]) (ET 7 [(0 + z); q; s]))).
Definition b_ab_vvvo (z p q r s : nat) : ex := (ESum (0 + z) 4 (EMul (ET 3 [(0 + z); p; r]) (ET 6 [(0 + z); q; s]))).
Definition b_ab_vvvv (z p q r s : nat) : ex := (ESum (0 + z) 4 (EMul (ET 3 [(0 + z); p; r]) (ET 7 [(0 + z); q; s]))).
Definition b_bb_oooo (z p q r s : nat) : ex := (ESub (ESum (0 + z) 4 (EMul (ET 4 [(0 + z); p; r]) (ET 4 [(0 + z); q; s]))) (ESum (0 + z) 4 (EMul (ET 4 [(0 + z); p; s]) (ET 4 [(0 + z); q; r])))).
Definition b_bb_ooov (z p q r s : nat) : ex := (ESub (ESum (0 + z) 4 (EMul (ET 4 [(0 + z); p; r]) (ET 5 [(0 + z); q; s]))) (ESum (0 + z) 4 (EMul (ET 5 [(0 + z); p; s]) (ET 4 [(0 + z); q; r])))).
Definition b_bb_oovo (z p q r s : nat) : ex := (ESub (ESum (0 + z) 4 (EMul (ET 5 [(0 + z); p; r]) (ET 4 [(0 + z); q; s]))) (ESum (0 + z) 4 (EMul (ET 4 [(0 + z); p; s]) (ET 5 [(0 + z); q; r])))).
Definition b_bb_oovv (z p q r s : nat) : ex := (ESub (ESum (0 + z) 4 (EMul (ET 5 [(0 + z); p; r]) (ET 5 [(0 + z); q; s]))) (ESum (0 + z) 4 (EMul (ET 5 [(0 + z); p; s]) (ET 5 [(0 + z); q; r])))).
Definition b_bb_ovoo (z p q r s : nat) : ex := (ESub (ESum (0 + z) 4 (EMul (ET 4 [(0 + z); p; r]) (ET 6 [(0 + z); q; s]))) (ESum (0 + z) 4 (EMul (ET 4 [(0 + z); p; s]) (ET 6 [(0 + z); q; r])))).
Definition b_bb_ovov (z p q r s : nat) : ex := (ESub (ESum (0 + z) 4 (EMul (ET 4 [(0 + z); p; r]) (ET 7 [(0 + z); q; s]))) (ESum (0 + z) 4 (EMul (ET 5 [(0 + z); p; s]) (ET 6 [(0 + z); q; r])))).
Definition b_bb_ovvo (z p q r s : nat) : ex := (ESub (ESum (0 + z) 4 (EMul (ET 5 [(0 + z); p; r]) (ET 6 [(0 + z); q; s]))) (ESum (0 + z) 4 (EMul (ET 4 [(0 + z); p; s]) (ET 7 [(0 + z); q; r])))).
Definition b_bb_ovvv (z p q r s : nat) : ex := (ESub (ESum (0 + z) 4 (EMul (ET 5 [(0 + z); p; r]) (ET 7 [(0 + z); q; s]))) (ESum (0 + z) 4 (EMul (ET 5 [(0 + z); p; s]) (ET 7 [(0 + z); q; r])))).
Definition b_bb_vooo (z p q r s : nat) : ex := (ESub (ESum (0 + z) 4 (EMul (ET 6 [(0 + z); p; r]) (ET 4 [(0 + z); q; s]))) (ESum (0 + z) 4 (EMul (ET 6 [(0 + z); p; s]) (ET 4 [(0 + z); q; r])))).
Definition b_bb_voov (z p q r s : nat) : ex := (ESub (ESum (0 + z) 4 (EMul (ET 6 [(0 + z); p; r]) (ET 5 [(0 + z); q; s]))) (ESum (0 + z) 4 (EMul (ET 7 [(0 + z); p; s]) (ET 4 [(0 + z); q; r])))).
Definition b_bb_vovo (z p q r s : nat) : ex := (ESub (ESum (0 + z) 4 (EMul (ET 7 [(0 + z); p; r]) (ET 4 [(0 + z); q; s]))) (ESum (0 + z) 4 (EMul (ET 6 [(0 + z); p; s]) (ET 5 [(0 + z); q; r])))).
Definition b_bb_vovv (z p q r s : nat) : ex := (ESub (ESum (0 + z) 4 (EMul (ET 7 [(0 + z); p; r]) (ET 5 [(0 + z); q; s]))) (ESum (0 + z) 4 (EMul (ET 7 [(0 + z); p; s]) (ET 5 [(0 + z); q; r])))).
Definition b_bb_vvoo (z p q r s : nat) : ex := (ESub (ESum (0 + z) 4 (EMul (ET 6 [(0 + z); p; r]) (ET 6 [(0 + z); q; s]))) (ESum (0 + z) 4 (EMul (ET 6 [(0 + z); p; s]) (ET 6 [(0 + z); q; r])))).
Definition b_bb_vvov (z p q r s : nat) : ex := (ESub (ESum (0 + z) 4 (EMul (ET 6 [(0 + z); p; r]) (ET 7 [(0 + z); q; s]))) (ESum (0 + z) 4 (EMul (ET 7 [(0 + z); p; s]) (ET 6 [(0 + z); q; r])))).
Definition b_bb_vvvo (z p q r s : nat) : ex := (ESub (ESum (0 + z) 4 (EMul (ET 7 [(0 + z); p; r]) (ET 6 [(0 + z); q; s]))) (ESum (0 + z) 4 (EMul (ET 6 [(0 + z); p; s]) (ET 7 [(0 + z); q; r])))).
Definition b_bb_vvvv (z p q r s : nat) : ex := (ESub (ESum (0 + z) 4 (EMul (ET 7 [(0 + z); p; r]) (ET 7 [(0 + z); q; s]))) (ESum (0 + z) 4 (EMul (ET 7 [(0 + z); p; s]) (ET 7 [(0 + z); q; r])))).
Definition r_ccsd_X_a_ov (z m e : nat) : ex := (EAdd (ET 8 [m; e]) (EAdd (ESum (0 + z) 0 (ESum (1 + z) 1 (EMul (b_aa_oovv (2 + z) m (0 + z) e (1 + z)) (ET 9 [(1 + z); (0 + z)])))) (ESum (0 + z) 2 (ESum (1 + z) 3 (EMul (b_ab_oovv (2 + z) m (0 + z) e (1 + z)) (ET 10 [(1 + z); (0 + z)])))))).
Definition r_ccsd_X_b_ov (z m e : nat) : ex := (EAdd (ET 11 [m; e]) (EAdd (ESum (0 + z) 0 (ESum (1 + z) 1 (EMul (b_ab_oovv (2 + z) (0 + z) m (1 + z) e) (ET 9 [(1 + z); (0 + z)])))) (ESum (0 + z) 2 (ESum (1 + z) 3 (EMul (b_bb_oovv (2 + z) m (0 + z) e (1 + z)) (ET 10 [(1 + z); (0 + z)])))))).
Definition r_ccsd_X_a_vv (z a e : nat) : ex := (EAdd (ET 12 [a; e]) (ESub (ESub (EAdd (ESum (0 + z) 0 (ESum (1 + z) 1 (EMul (b_aa_vovv (2 + z) a (0 + z) e (1 + z)) (ET 9 [(1 + z); (0 + z)])))) (ESum (0 + z) 2 (ESum (1 + z) 3 (EMul (b_ab_vovv (2 + z) a (0 + z) e (1 + z)) (ET 10 [(1 + z); (0 + z)]))))) (EScale (1) 2 (ESum (0 + z) 0 (ESum (1 + z) 0 (ESum (2 + z) 1 (EMul (b_aa_oovv (3 + z) (0 + z) (1 + z) e (2 + z)) (ET 13 [a; (2 + z); (0 + z); (1 + z)]))))))) (ESum (0 + z) 0 (ESum (1 + z) 2 (ESum (2 + z) 3 (EMul (b_ab_oovv (3 + z) (0 + z) (1 + z) e (2 + z)) (ET 14 [a; (2 + z); (0 + z); (1 + z)]))))))).
Definition r_ccsd_X_a_oo (z m i : nat) : ex := (EAdd (ET 15 [m; i]) (EAdd (EAdd (EAdd (EAdd (ESum (0 + z) 0 (ESum (1 + z) 1 (EMul (b_aa_ooov (2 + z) m (0 + z) i (1 + z)) (ET 9 [(1 + z); (0 + z)])))) (ESum (0 + z) 2 (ESum (1 + z) 3 (EMul (b_ab_ooov (2 + z) m (0 + z) i (1 + z)) (ET 10 [(1 + z); (0 + z)]))))) (ESum (0 + z) 1 (EMul (r_ccsd_X_a_ov (1 + z) m (0 + z)) (ET 9 [(0 + z); i])))) (EScale (1) 2 (ESum (0 + z) 0 (ESum (1 + z) 1 (ESum (2 + z) 1 (EMul (b_aa_oovv (3 + z) m (0 + z) (1 + z) (2 + z)) (ET 13 [(1 + z); (2 + z); i; (0 + z)]))))))) (ESum (0 + z) 2 (ESum (1 + z) 1 (ESum (2 + z) 3 (EMul (b_ab_oovv (3 + z) m (0 + z) (1 + z) (2 + z)) (ET 14 [(1 + z); (2 + z); i; (0 + z)]))))))).
Definition r_ccsd_X_b_vv (z a e : nat) : ex := (EAdd (ET 16 [a; e]) (ESub (ESub (EAdd (ESum (0 + z) 2 (ESum (1 + z) 3 (EMul (b_bb_vovv (2 + z) a (0 + z) e (1 + z)) (ET 10 [(1 + z); (0 + z)])))) (ESum (0 + z) 0 (ESum (1 + z) 1 (EMul (b_ab_ovvv (2 + z) (0 + z) a (1 + z) e) (ET 9 [(1 + z); (0 + z)]))))) (EScale (1) 2 (ESum (0 + z) 2 (ESum (1 + z) 2 (ESum (2 + z) 3 (EMul (b_bb_oovv (3 + z) (0 + z) (1 + z) e (2 + z)) (ET 17 [a; (2 + z); (0 + z); (1 + z)]))))))) (ESum (0 + z) 0 (ESum (1 + z) 2 (ESum (2 + z) 1 (EMul (b_ab_oovv (3 + z) (0 + z) (1 + z) (2 + z) e) (ET 14 [(2 + z); a; (0 + z); (1 + z)]))))))).
Definition r_ccsd_X_b_oo (z m i : nat) : ex := (EAdd (ET 18 [m; i]) (EAdd (EAdd (EAdd (EAdd (ESum (0 + z) 2 (ESum (1 + z) 3 (EMul (b_bb_ooov (2 + z) m (0 + z) i (1 + z)) (ET 10 [(1 + z); (0 + z)])))) (ESum (0 + z) 0 (ESum (1 + z) 1 (EMul (b_ab_oovo (2 + z) (0 + z) m (1 + z) i) (ET 9 [(1 + z); (0 + z)]))))) (ESum (0 + z) 3 (EMul (r_ccsd_X_b_ov (1 + z) m (0 + z)) (ET 10 [(0 + z); i])))) (EScale (1) 2 (ESum (0 + z) 2 (ESum (1 + z) 3 (ESum (2 + z) 3 (EMul (b_bb_oovv (3 + z) m (0 + z) (1 + z) (2 + z)) (ET 17 [(1 + z); (2 + z); i; (0 + z)]))))))) (ESum (0 + z) 0 (ESum (1 + z) 1 (ESum (2 + z) 3 (EMul (b_ab_oovv (3 + z) (0 + z) m (1 + z) (2 + z)) (ET 14 [(1 + z); (2 + z); (0 + z); i]))))))).
Definition r_ccsd_dT_a (z a i : nat) : ex := (EOpp (ESum (0 + z) 0 (EMul (r_ccsd_X_a_oo (1 + z) (0 + z) i) (ET 9 [a; (0 + z)])))).
Definition r_ccsd_dT_a_1 (z a i : nat) : ex := (EAdd (r_ccsd_dT_a (0 + z) a i) (ESum (0 + z) 1 (EMul (r_ccsd_X_a_vv (1 + z) a (0 + z)) (ET 9 [(0 + z); i])))).
Definition r_ccsd_dT_a_2 (z a i : nat) : ex := (EAdd (r_ccsd_dT_a_1 (0 + z) a i) (ESum (0 + z) 0 (ESum (1 + z) 1 (EMul (r_ccsd_X_a_ov (2 + z) (0 + z) (1 + z)) (ET 13 [a; (1 + z); i; (0 + z)]))))).
Definition r_ccsd_dT_a_3 (z a i : nat) : ex := (EAdd (r_ccsd_dT_a_2 (0 + z) a i) (ESum (0 + z) 2 (ESum (1 + z) 3 (EMul (r_ccsd_X_b_ov (2 + z) (0 + z) (1 + z)) (ET 14 [a; (1 + z); i; (0 + z)]))))).
Definition r_ccsd_dT_a_4 (z a i : nat) : ex := (EAdd (r_ccsd_dT_a_3 (0 + z) a i) (ESum (0 + z) 0 (ESum (1 + z) 1 (EMul (b_aa_voov (2 + z) a (0 + z) i (1 + z)) (ET 9 [(1 + z); (0 + z)]))))).
Definition r_ccsd_dT_a_5 (z a i : nat) : ex := (EAdd (r_ccsd_dT_a_4 (0 + z) a i) (ESum (0 + z) 2 (ESum (1 + z) 3 (EMul (b_ab_voov (2 + z) a (0 + z) i (1 + z)) (ET 10 [(1 + z); (0 + z)]))))).
Definition r_ccsd_dT_a_6 (z a i : nat) : ex := (ESub (r_ccsd_dT_a_5 (0 + z) a i) (EScale (1) 2 (ESum (0 + z) 0 (ESum (1 + z) 0 (ESum (2 + z) 1 (EMul (b_aa_ooov (3 + z) (0 + z) (1 + z) i (2 + z)) (ET 13 [a; (2 + z); (0 + z); (1 + z)]))))))).
Definition r_ccsd_dT_a_7 (z a i : nat) : ex := (ESub (r_ccsd_dT_a_6 (0 + z) a i) (ESum (0 + z) 0 (ESum (1 + z) 2 (ESum (2 + z) 3 (EMul (b_ab_ooov (3 + z) (0 + z) (1 + z) i (2 + z)) (ET 14 [a; (2 + z); (0 + z); (1 + z)])))))).
Definition r_ccsd_dT_a_8 (z a i : nat) : ex := (EAdd (r_ccsd_dT_a_7 (0 + z) a i) (EScale (1) 2 (ESum (0 + z) 0 (ESum (1 + z) 1 (ESum (2 + z) 1 (EMul (b_aa_vovv (3 + z) a (0 + z) (1 + z) (2 + z)) (ET 13 [(1 + z); (2 + z); i; (0 + z)]))))))).
Definition r_ccsd_dT_a_9 (z a i : nat) : ex := (EAdd (r_ccsd_dT_a_8 (0 + z) a i) (ESum (0 + z) 2 (ESum (1 + z) 1 (ESum (2 + z) 3 (EMul (b_ab_vovv (3 + z) a (0 + z) (1 + z) (2 + z)) (ET 14 [(1 + z); (2 + z); i; (0 + z)])))))).
Definition r_ccsd_res_a (z a i : nat) : ex := (EAdd (r_ccsd_dT_a_9 (0 + z) a i) (ET 19 [a; i])).
Definition r_ccsd_dT_b (z a i : nat) : ex := (EOpp (ESum (0 + z) 2 (EMul (r_ccsd_X_b_oo (1 + z) (0 + z) i) (ET 10 [a; (0 + z)])))).
Definition r_ccsd_dT_b_1 (z a i : nat) : ex := (EAdd (r_ccsd_dT_b (0 + z) a i) (ESum (0 + z) 3 (EMul (r_ccsd_X_b_vv (1 + z) a (0 + z)) (ET 10 [(0 + z); i])))).
Definition r_ccsd_dT_b_2 (z a i : nat) : ex := (EAdd (r_ccsd_dT_b_1 (0 + z) a i) (ESum (0 + z) 2 (ESum (1 + z) 3 (EMul (b_bb_voov (2 + z) a (0 + z) i (1 + z)) (ET 10 [(1 + z); (0 + z)]))))).
Definition r_ccsd_dT_b_3 (z a i : nat) : ex := (EAdd (r_ccsd_dT_b_2 (0 + z) a i) (ESum (0 + z) 0 (ESum (1 + z) 1 (EMul (b_ab_ovvo (2 + z) (0 + z) a (1 + z) i) (ET 9 [(1 + z); (0 + z)]))))).
Definition r_ccsd_dT_b_4 (z a i : nat) : ex := (EAdd (r_ccsd_dT_b_3 (0 + z) a i) (ESum (0 + z) 0 (ESum (1 + z) 1 (EMul (r_ccsd_X_a_ov (2 + z) (0 + z) (1 + z)) (ET 14 [(1 + z); a; (0 + z); i]))))).
Definition r_ccsd_dT_b_5 (z a i : nat) : ex := (EAdd (r_ccsd_dT_b_4 (0 + z) a i) (ESum (0 + z) 2 (ESum (1 + z) 3 (EMul (r_ccsd_X_b_ov (2 + z) (0 + z) (1 + z)) (ET 17 [a; (1 + z); i; (0 + z)]))))).
Definition r_ccsd_dT_b_6 (z a i : nat) : ex := (ESub (r_ccsd_dT_b_5 (0 + z) a i) (EScale (1) 2 (ESum (0 + z) 2 (ESum (1 + z) 2 (ESum (2 + z) 3 (EMul (b_bb_ooov (3 + z) (0 + z) (1 + z) i (2 + z)) (ET 17 [a; (2 + z); (0 + z); (1 + z)]))))))).
Definition r_ccsd_dT_b_7 (z a i : nat) : ex := (ESub (r_ccsd_dT_b_6 (0 + z) a i) (ESum (0 + z) 0 (ESum (1 + z) 2 (ESum (2 + z) 1 (EMul (b_ab_oovo (3 + z) (0 + z) (1 + z) (2 + z) i) (ET 14 [(2 + z); a; (0 + z); (1 + z)])))))).
Definition r_ccsd_dT_b_8 (z a i : nat) : ex := (EAdd (r_ccsd_dT_b_7 (0 + z) a i) (EScale (1) 2 (ESum (0 + z) 2 (ESum (1 + z) 3 (ESum (2 + z) 3 (EMul (b_bb_vovv (3 + z) a (0 + z) (1 + z) (2 + z)) (ET 17 [(1 + z); (2 + z); i; (0 + z)]))))))).
Definition r_ccsd_dT_b_9 (z a i : nat) : ex := (EAdd (r_ccsd_dT_b_8 (0 + z) a i) (ESum (0 + z) 0 (ESum (1 + z) 1 (ESum (2 + z) 3 (EMul (b_ab_ovvv (3 + z) (0 + z) a (1 + z) (2 + z)) (ET 14 [(1 + z); (2 + z); (0 + z); i])))))).
Definition r_ccsd_res_b (z a i : nat) : ex := (EAdd (r_ccsd_dT_b_9 (0 + z) a i) (ET 20 [a; i])).
Definition r_ccsd_X_a_vv_1 (z a e : nat) : ex := (ESub (r_ccsd_X_a_vv (0 + z) a e) (ESum (0 + z) 0 (EMul (r_ccsd_X_a_ov (1 + z) (0 + z) e) (ET 9 [a; (0 + z)])))).
Definition r_ccsd_X_b_vv_1 (z a e : nat) : ex := (ESub (r_ccsd_X_b_vv (0 + z) a e) (ESum (0 + z) 2 (EMul (r_ccsd_X_b_ov (1 + z) (0 + z) e) (ET 10 [a; (0 + z)])))).
Definition r_ccsd_X_aa_ooov (z m n i e : nat) : ex := (ESum (0 + z) 1 (EMul (b_aa_oovv (1 + z) m n (0 + z) e) (ET 9 [(0 + z); i]))).
Definition r_ccsd_X_aa_vovv (z a m e f : nat) : ex := (EOpp (ESum (0 + z) 0 (EMul (b_aa_oovv (1 + z) m (0 + z) f e) (ET 9 [a; (0 + z)])))).
Definition r_ccsd_X_aa_oooo (z m n i j : nat) : ex := (EAdd (EScale (1) 2 (b_aa_oooo (0 + z) m n i j)) (ESum (0 + z) 1 (EMul (EAdd (b_aa_ooov (1 + z) n m j (0 + z)) (EScale (1) 2 (r_ccsd_X_aa_ooov (1 + z) n m j (0 + z)))) (ET 9 [(0 + z); i])))).
Definition r_ccsd_X_aa_oooo_1 (z m n i j : nat) : ex := (ESub (r_ccsd_X_aa_oooo (0 + z) m n i j) (r_ccsd_X_aa_oooo (0 + z) m n j i)).
Definition r_ccsd_X_aa_voov (z a m i e : nat) : ex := (EAdd (b_aa_voov (0 + z) a m i e) (ESub (ESum (0 + z) 1 (EMul (EAdd (b_aa_vovv (1 + z) a m (0 + z) e) (EScale (1) 2 (r_ccsd_X_aa_vovv (1 + z) a m (0 + z) e))) (ET 9 [(0 + z); i]))) (ESum (0 + z) 0 (EMul (EAdd (b_aa_ooov (1 + z) (0 + z) m i e) (EScale (1) 2 (r_ccsd_X_aa_ooov (1 + z) (0 + z) m i e))) (ET 9 [a; (0 + z)]))))).
Definition r_ccsd_L_amie (z a m i f : nat) : ex := (EAdd (b_aa_voov (0 + z) a m i f) (EScale (1) 2 (ESum (0 + z) 1 (EMul (b_aa_vovv (1 + z) a m (0 + z) f) (ET 9 [(0 + z); i]))))).
Definition r_ccsd_X_mnij (z m n i j : nat) : ex := (EAdd (b_aa_oooo (0 + z) m n i j) (ESum (0 + z) 1 (EMul (r_ccsd_X_aa_ooov (1 + z) m n i (0 + z)) (ET 9 [(0 + z); j])))).
Definition r_ccsd_X_aa_vooo (z a m i j : nat) : ex := (EAdd (EScale (1) 2 (b_aa_vooo (0 + z) a m i j)) (ESub (ESum (0 + z) 1 (EMul (r_ccsd_L_amie (1 + z) a m i (0 + z)) (ET 9 [(0 + z); j]))) (EScale (1) 4 (ESum (0 + z) 0 (EMul (r_ccsd_X_mnij (1 + z) (0 + z) m i j) (ET 9 [a; (0 + z)])))))).
Definition r_ccsd_X_aa_vooo_1 (z a m i j : nat) : ex := (ESub (r_ccsd_X_aa_vooo (0 + z) a m i j) (r_ccsd_X_aa_vooo (0 + z) a m j i)).
Definition r_ccsd_L_amie_1 (z a n i e : nat) : ex := (ESum (0 + z) 0 (EMul (b_aa_ooov (1 + z) (0 + z) n i e) (ET 9 [a; (0 + z)]))).
Definition r_ccsd_X_aa_vvov (z a b i e : nat) : ex := (EAdd (b_aa_vvov (0 + z) a b i e) (ESum (0 + z) 0 (EMul (r_ccsd_L_amie_1 (1 + z) a (0 + z) i e) (ET 9 [b; (0 + z)])))).
Definition r_ccsd_X_bb_ooov (z m n i e : nat) : ex := (ESum (0 + z) 3 (EMul (b_bb_oovv (1 + z) m n (0 + z) e) (ET 10 [(0 + z); i]))).
Definition r_ccsd_X_bb_oooo (z m n i j : nat) : ex := (EAdd (EScale (1) 2 (b_bb_oooo (0 + z) m n i j)) (ESum (0 + z) 3 (EMul (EAdd (b_bb_ooov (1 + z) n m j (0 + z)) (EScale (1) 2 (r_ccsd_X_bb_ooov (1 + z) n m j (0 + z)))) (ET 10 [(0 + z); i])))).
Definition r_ccsd_X_bb_oooo_1 (z m n i j : nat) : ex := (ESub (r_ccsd_X_bb_oooo (0 + z) m n i j) (r_ccsd_X_bb_oooo (0 + z) m n j i)).
Definition r_ccsd_X_bb_vovv (z a m e f : nat) : ex := (EOpp (ESum (0 + z) 2 (EMul (b_bb_oovv (1 + z) m (0 + z) f e) (ET 10 [a; (0 + z)])))).
Definition r_ccsd_X_bb_voov (z a m i e : nat) : ex := (EAdd (b_bb_voov (0 + z) a m i e) (ESub (ESum (0 + z) 3 (EMul (EAdd (b_bb_vovv (1 + z) a m (0 + z) e) (EScale (1) 2 (r_ccsd_X_bb_vovv (1 + z) a m (0 + z) e))) (ET 10 [(0 + z); i]))) (ESum (0 + z) 2 (EMul (EAdd (b_bb_ooov (1 + z) (0 + z) m i e) (EScale (1) 2 (r_ccsd_X_bb_ooov (1 + z) (0 + z) m i e))) (ET 10 [a; (0 + z)]))))).
Definition r_ccsd_L_amie_2 (z a m i f : nat) : ex := (EAdd (b_bb_voov (0 + z) a m i f) (EScale (1) 2 (ESum (0 + z) 3 (EMul (b_bb_vovv (1 + z) a m (0 + z) f) (ET 10 [(0 + z); i]))))).
Definition r_ccsd_X_mnij_1 (z m n i j : nat) : ex := (EAdd (b_bb_oooo (0 + z) m n i j) (ESum (0 + z) 3 (EMul (r_ccsd_X_bb_ooov (1 + z) m n i (0 + z)) (ET 10 [(0 + z); j])))).
Definition r_ccsd_X_bb_vooo (z a m i j : nat) : ex := (EAdd (EScale (1) 2 (b_bb_vooo (0 + z) a m i j)) (ESub (ESum (0 + z) 3 (EMul (r_ccsd_L_amie_2 (1 + z) a m i (0 + z)) (ET 10 [(0 + z); j]))) (EScale (1) 4 (ESum (0 + z) 2 (EMul (r_ccsd_X_mnij_1 (1 + z) (0 + z) m i j) (ET 10 [a; (0 + z)])))))).
Definition r_ccsd_X_bb_vooo_1 (z a m i j : nat) : ex := (ESub (r_ccsd_X_bb_vooo (0 + z) a m i j) (r_ccsd_X_bb_vooo (0 + z) a m j i)).
Definition r_ccsd_L_amie_3 (z a n i e : nat) : ex := (ESum (0 + z) 2 (EMul (b_bb_ooov (1 + z) (0 + z) n i e) (ET 10 [a; (0 + z)]))).
Definition r_ccsd_X_bb_vvov (z a b i e : nat) : ex := (EAdd (b_bb_vvov (0 + z) a b i e) (ESum (0 + z) 2 (EMul (r_ccsd_L_amie_3 (1 + z) a (0 + z) i e) (ET 10 [b; (0 + z)])))).
Definition r_ccsd_X_ab_ooov (z m n i e : nat) : ex := (ESum (0 + z) 1 (EMul (b_ab_oovv (1 + z) m n (0 + z) e) (ET 9 [(0 + z); i]))).
Definition r_ccsd_X_ab_oovo (z n m e i : nat) : ex := (ESum (0 + z) 3 (EMul (b_ab_oovv (1 + z) n m e (0 + z)) (ET 10 [(0 + z); i]))).
Definition r_ccsd_X_ab_oooo (z m n i j : nat) : ex := (EAdd (b_ab_oooo (0 + z) m n i j) (EAdd (ESum (0 + z) 1 (EMul (EAdd (b_ab_oovo (1 + z) m n (0 + z) j) (EScale (1) 2 (r_ccsd_X_ab_oovo (1 + z) m n (0 + z) j))) (ET 9 [(0 + z); i]))) (ESum (0 + z) 3 (EMul (EAdd (b_ab_ooov (1 + z) m n i (0 + z)) (EScale (1) 2 (r_ccsd_X_ab_ooov (1 + z) m n i (0 + z)))) (ET 10 [(0 + z); j]))))).
Definition r_ccsd_X_ab_vovv (z a m e f : nat) : ex := (EOpp (ESum (0 + z) 0 (EMul (b_ab_oovv (1 + z) (0 + z) m e f) (ET 9 [a; (0 + z)])))).
Definition r_ccsd_X_ab_ovvv (z m a e f : nat) : ex := (EOpp (ESum (0 + z) 2 (EMul (b_ab_oovv (1 + z) m (0 + z) e f) (ET 10 [a; (0 + z)])))).
Definition r_ccsd_X_ab_voov (z a m i e : nat) : ex := (EAdd (b_ab_voov (0 + z) a m i e) (ESub (ESum (0 + z) 1 (EMul (EAdd (b_ab_vovv (1 + z) a m (0 + z) e) (EScale (1) 2 (r_ccsd_X_ab_vovv (1 + z) a m (0 + z) e))) (ET 9 [(0 + z); i]))) (ESum (0 + z) 0 (EMul (EAdd (b_ab_ooov (1 + z) (0 + z) m i e) (EScale (1) 2 (r_ccsd_X_ab_ooov (1 + z) (0 + z) m i e))) (ET 9 [a; (0 + z)]))))).
Definition r_ccsd_X_ab_ovvo (z m a e i : nat) : ex := (EAdd (b_ab_ovvo (0 + z) m a e i) (ESub (ESum (0 + z) 3 (EMul (EAdd (b_ab_ovvv (1 + z) m a e (0 + z)) (EScale (1) 2 (r_ccsd_X_ab_ovvv (1 + z) m a e (0 + z)))) (ET 10 [(0 + z); i]))) (ESum (0 + z) 2 (EMul (EAdd (b_ab_oovo (1 + z) m (0 + z) e i) (EScale (1) 2 (r_ccsd_X_ab_oovo (1 + z) m (0 + z) e i))) (ET 10 [a; (0 + z)]))))).
Definition r_ccsd_X_ab_ovov (z m a i e : nat) : ex := (EAdd (b_ab_ovov (0 + z) m a i e) (ESub (ESum (0 + z) 1 (EMul (EAdd (b_ab_ovvv (1 + z) m a (0 + z) e) (EScale (1) 2 (r_ccsd_X_ab_ovvv (1 + z) m a (0 + z) e))) (ET 9 [(0 + z); i]))) (ESum (0 + z) 2 (EMul (EAdd (b_ab_ooov (1 + z) m (0 + z) i e) (EScale (1) 2 (r_ccsd_X_ab_ooov (1 + z) m (0 + z) i e))) (ET 10 [a; (0 + z)]))))).
Definition r_ccsd_X_ab_vovo (z a m e i : nat) : ex := (ESub (b_ab_vovo (0 + z) a m e i) (ESub (ESum (0 + z) 0 (EMul (EAdd (b_ab_oovo (1 + z) (0 + z) m e i) (EScale (1) 2 (r_ccsd_X_ab_oovo (1 + z) (0 + z) m e i))) (ET 9 [a; (0 + z)]))) (ESum (0 + z) 3 (EMul (EAdd (b_ab_vovv (1 + z) a m e (0 + z)) (EScale (1) 2 (r_ccsd_X_ab_vovv (1 + z) a m e (0 + z)))) (ET 10 [(0 + z); i]))))).
Definition r_ccsd_X_mnij_2 (z m n i j : nat) : ex := (EAdd (b_ab_oooo (0 + z) m n i j) (EAdd (ESum (0 + z) 3 (EMul (b_ab_ooov (1 + z) m n i (0 + z)) (ET 10 [(0 + z); j]))) (ESum (0 + z) 1 (EMul (b_ab_oovo (1 + z) m n (0 + z) j) (ET 9 [(0 + z); i]))))).
Definition r_ccsd_L_mbej (z m b e j : nat) : ex := (EAdd (b_ab_ovvo (0 + z) m b e j) (ESum (0 + z) 3 (EMul (b_ab_ovvv (1 + z) m b e (0 + z)) (ET 10 [(0 + z); j])))).
Definition r_ccsd_X_ab_ovoo (z m b i j : nat) : ex := (EAdd (b_ab_ovoo (0 + z) m b i j) (ESub (ESum (0 + z) 1 (EMul (r_ccsd_L_mbej (1 + z) m b (0 + z) j) (ET 9 [(0 + z); i]))) (ESum (0 + z) 2 (EMul (r_ccsd_X_mnij_2 (1 + z) m (0 + z) i j) (ET 10 [b; (0 + z)]))))).
Definition r_ccsd_L_amie_4 (z a m i f : nat) : ex := (ESum (0 + z) 1 (EMul (EAdd (b_ab_vovv (1 + z) a m (0 + z) f) (r_ccsd_X_ab_vovv (1 + z) a m (0 + z) f)) (ET 9 [(0 + z); i]))).
Definition r_ccsd_X_ab_vooo (z a m i j : nat) : ex := (EAdd (b_ab_vooo (0 + z) a m i j) (ESum (0 + z) 3 (EMul (EAdd (b_ab_voov (1 + z) a m i (0 + z)) (r_ccsd_L_amie_4 (1 + z) a m i (0 + z))) (ET 10 [(0 + z); j])))).
Definition r_ccsd_X_ab_vvvo (z a b e j : nat) : ex := (ESub (b_ab_vvvo (0 + z) a b e j) (ESum (0 + z) 2 (EMul (b_ab_vovo (1 + z) a (0 + z) e j) (ET 10 [b; (0 + z)])))).
Definition r_ccsd_X_ab_vvov (z a b i e : nat) : ex := (ESub (b_ab_vvov (0 + z) a b i e) (ESum (0 + z) 0 (EMul (b_ab_ovov (1 + z) (0 + z) b i e) (ET 9 [a; (0 + z)])))).
Definition r_ccsd_I2A_voov (z a m i e : nat) : ex := (EAdd (r_ccsd_X_aa_voov (0 + z) a m i e) (EAdd (EScale (1) 2 (ESum (0 + z) 0 (ESum (1 + z) 1 (EMul (b_aa_oovv (2 + z) m (0 + z) e (1 + z)) (ET 13 [a; (1 + z); i; (0 + z)]))))) (ESum (0 + z) 2 (ESum (1 + z) 3 (EMul (b_ab_oovv (2 + z) m (0 + z) e (1 + z)) (ET 14 [a; (1 + z); i; (0 + z)])))))).
Definition r_ccsd_I2A_oooo (z m n i j : nat) : ex := (EAdd (r_ccsd_X_aa_oooo_1 (0 + z) m n i j) (EScale (1) 2 (ESum (0 + z) 1 (ESum (1 + z) 1 (EMul (b_aa_oovv (2 + z) m n (0 + z) (1 + z)) (ET 13 [(0 + z); (1 + z); i; j])))))).
Definition r_ccsd_I2B_voov (z a m i e : nat) : ex := (EAdd (r_ccsd_X_ab_voov (0 + z) a m i e) (EScale (1) 2 (ESum (0 + z) 2 (ESum (1 + z) 3 (EMul (b_bb_oovv (2 + z) m (0 + z) e (1 + z)) (ET 14 [a; (1 + z); i; (0 + z)])))))).
Definition r_ccsd_I2A_vooo (z a m i j : nat) : ex := (EAdd (r_ccsd_X_aa_vooo_1 (0 + z) a m i j) (EScale (1) 2 (ESum (0 + z) 1 (ESum (1 + z) 1 (EMul (EAdd (b_aa_vovv (2 + z) a m (0 + z) (1 + z)) (EScale (1) 2 (r_ccsd_X_aa_vovv (2 + z) a m (0 + z) (1 + z)))) (ET 13 [(0 + z); (1 + z); i; j])))))).
Definition r_ccsd_tau (z a b i j : nat) : ex := (EAdd (EScale (1) 2 (ET 13 [a; b; i; j])) (EMul (ET 9 [a; i]) (ET 9 [b; j]))).
Definition r_ccsd_dT_aa (z a b i j : nat) : ex := (EScale (-1) 2 (ESum (0 + z) 0 (EMul (r_ccsd_I2A_vooo (1 + z) a (0 + z) i j) (ET 9 [b; (0 + z)])))).
Definition r_ccsd_dT_aa_1 (z a b i j : nat) : ex := (EAdd (r_ccsd_dT_aa (0 + z) a b i j) (EScale (1) 2 (ESum (0 + z) 1 (EMul (r_ccsd_X_aa_vvov (1 + z) a b i (0 + z)) (ET 9 [(0 + z); j]))))).
Definition r_ccsd_dT_aa_2 (z a b i j : nat) : ex := (EAdd (r_ccsd_dT_aa_1 (0 + z) a b i j) (EScale (1) 2 (ESum (0 + z) 1 (EMul (r_ccsd_X_a_vv_1 (1 + z) a (0 + z)) (ET 13 [(0 + z); b; i; j]))))).
Definition r_ccsd_dT_aa_3 (z a b i j : nat) : ex := (ESub (r_ccsd_dT_aa_2 (0 + z) a b i j) (EScale (1) 2 (ESum (0 + z) 0 (EMul (r_ccsd_X_a_oo (1 + z) (0 + z) i) (ET 13 [a; b; (0 + z); j]))))).
Definition r_ccsd_dT_aa_4 (z a b i j : nat) : ex := (EAdd (r_ccsd_dT_aa_3 (0 + z) a b i j) (ESum (0 + z) 0 (ESum (1 + z) 1 (EMul (r_ccsd_I2A_voov (2 + z) a (0 + z) i (1 + z)) (ET 13 [(1 + z); b; (0 + z); j]))))).
Definition r_ccsd_dT_aa_5 (z a b i j : nat) : ex := (EAdd (r_ccsd_dT_aa_4 (0 + z) a b i j) (ESum (0 + z) 2 (ESum (1 + z) 3 (EMul (r_ccsd_I2B_voov (2 + z) a (0 + z) i (1 + z)) (ET 14 [b; (1 + z); j; (0 + z)]))))).
Definition r_ccsd_dT_aa_6 (z a b i j : nat) : ex := (EAdd (r_ccsd_dT_aa_5 (0 + z) a b i j) (EScale (1) 8 (ESum (0 + z) 0 (ESum (1 + z) 0 (EMul (r_ccsd_I2A_oooo (2 + z) (0 + z) (1 + z) i j) (ET 13 [a; b; (0 + z); (1 + z)])))))).
Definition r_ccsd_dT_aa_7 (z a b i j : nat) : ex := (EAdd (r_ccsd_dT_aa_6 (0 + z) a b i j) (EScale (1) 4 (ESum (0 + z) 1 (ESum (1 + z) 1 (EMul (b_aa_vvvv (2 + z) a b (0 + z) (1 + z)) (r_ccsd_tau (3 + z) (0 + z) (1 + z) i j)))))).
Definition r_ccsd_res_aa (z a b i j : nat) : ex := (EAdd (r_ccsd_dT_aa_7 (0 + z) a b i j) (EScale (1) 4 (b_aa_vvoo (0 + z) a b i j))).
Definition r_ccsd_I2A_voov_1 (z a m i e : nat) : ex := (EAdd (r_ccsd_X_aa_voov (0 + z) a m i e) (EAdd (ESum (0 + z) 0 (ESum (1 + z) 1 (EMul (b_aa_oovv (2 + z) (0 + z) m (1 + z) e) (ET 13 [a; (1 + z); i; (0 + z)])))) (ESum (0 + z) 2 (ESum (1 + z) 3 (EMul (b_ab_oovv (2 + z) m (0 + z) e (1 + z)) (ET 14 [a; (1 + z); i; (0 + z)])))))).
Definition r_ccsd_I2B_voov_1 (z a m i e : nat) : ex := (EAdd (r_ccsd_X_ab_voov (0 + z) a m i e) (EAdd (ESum (0 + z) 0 (ESum (1 + z) 1 (EMul (b_ab_oovv (2 + z) (0 + z) m (1 + z) e) (ET 13 [a; (1 + z); i; (0 + z)])))) (ESum (0 + z) 2 (ESum (1 + z) 3 (EMul (b_bb_oovv (2 + z) (0 + z) m (1 + z) e) (ET 14 [a; (1 + z); i; (0 + z)])))))).
Definition r_ccsd_I2B_oooo (z m n i j : nat) : ex := (EAdd (r_ccsd_X_ab_oooo (0 + z) m n i j) (ESum (0 + z) 1 (ESum (1 + z) 3 (EMul (b_ab_oovv (2 + z) m n (0 + z) (1 + z)) (ET 14 [(0 + z); (1 + z); i; j]))))).
Definition r_ccsd_I2B_vovo (z a m e i : nat) : ex := (ESub (r_ccsd_X_ab_vovo (0 + z) a m e i) (ESum (0 + z) 0 (ESum (1 + z) 3 (EMul (b_ab_oovv (2 + z) (0 + z) m e (1 + z)) (ET 14 [a; (1 + z); (0 + z); i]))))).
Definition r_ccsd_I2B_ovoo (z m b i j : nat) : ex := (EAdd (r_ccsd_X_ab_ovoo (0 + z) m b i j) (ESum (0 + z) 1 (ESum (1 + z) 3 (EMul (EAdd (b_ab_ovvv (2 + z) m b (0 + z) (1 + z)) (EScale (1) 2 (r_ccsd_X_ab_ovvv (2 + z) m b (0 + z) (1 + z)))) (ET 14 [(0 + z); (1 + z); i; j]))))).
Definition r_ccsd_I2B_vooo (z a m i j : nat) : ex := (EAdd (r_ccsd_X_ab_vooo (0 + z) a m i j) (ESum (0 + z) 1 (ESum (1 + z) 3 (EMul (EAdd (b_ab_vovv (2 + z) a m (0 + z) (1 + z)) (EScale (1) 2 (r_ccsd_X_ab_vovv (2 + z) a m (0 + z) (1 + z)))) (ET 14 [(0 + z); (1 + z); i; j]))))).
Definition r_ccsd_tau_1 (z a b i j : nat) : ex := (EAdd (ET 14 [a; b; i; j]) (EMul (ET 9 [a; i]) (ET 10 [b; j]))).
Definition r_ccsd_dT_ab (z a b i j : nat) : ex := (EOpp (ESum (0 + z) 0 (EMul (r_ccsd_I2B_ovoo (1 + z) (0 + z) b i j) (ET 9 [a; (0 + z)])))).
Definition r_ccsd_dT_ab_1 (z a b i j : nat) : ex := (ESub (r_ccsd_dT_ab (0 + z) a b i j) (ESum (0 + z) 2 (EMul (r_ccsd_I2B_vooo (1 + z) a (0 + z) i j) (ET 10 [b; (0 + z)])))).
Definition r_ccsd_dT_ab_2 (z a b i j : nat) : ex := (EAdd (r_ccsd_dT_ab_1 (0 + z) a b i j) (ESum (0 + z) 1 (EMul (r_ccsd_X_ab_vvvo (1 + z) a b (0 + z) j) (ET 9 [(0 + z); i])))).
Definition r_ccsd_dT_ab_3 (z a b i j : nat) : ex := (EAdd (r_ccsd_dT_ab_2 (0 + z) a b i j) (ESum (0 + z) 3 (EMul (r_ccsd_X_ab_vvov (1 + z) a b i (0 + z)) (ET 10 [(0 + z); j])))).
Definition r_ccsd_dT_ab_4 (z a b i j : nat) : ex := (EAdd (r_ccsd_dT_ab_3 (0 + z) a b i j) (ESum (0 + z) 1 (EMul (r_ccsd_X_a_vv_1 (1 + z) a (0 + z)) (ET 14 [(0 + z); b; i; j])))).
Definition r_ccsd_dT_ab_5 (z a b i j : nat) : ex := (EAdd (r_ccsd_dT_ab_4 (0 + z) a b i j) (ESum (0 + z) 3 (EMul (r_ccsd_X_b_vv_1 (1 + z) b (0 + z)) (ET 14 [a; (0 + z); i; j])))).
Definition r_ccsd_dT_ab_6 (z a b i j : nat) : ex := (ESub (r_ccsd_dT_ab_5 (0 + z) a b i j) (ESum (0 + z) 0 (EMul (r_ccsd_X_a_oo (1 + z) (0 + z) i) (ET 14 [a; b; (0 + z); j])))).
Definition r_ccsd_dT_ab_7 (z a b i j : nat) : ex := (ESub (r_ccsd_dT_ab_6 (0 + z) a b i j) (ESum (0 + z) 2 (EMul (r_ccsd_X_b_oo (1 + z) (0 + z) j) (ET 14 [a; b; i; (0 + z)])))).
Definition r_ccsd_dT_ab_8 (z a b i j : nat) : ex := (EAdd (r_ccsd_dT_ab_7 (0 + z) a b i j) (ESum (0 + z) 0 (ESum (1 + z) 1 (EMul (r_ccsd_I2A_voov_1 (2 + z) a (0 + z) i (1 + z)) (ET 14 [(1 + z); b; (0 + z); j]))))).
Definition r_ccsd_dT_ab_9 (z a b i j : nat) : ex := (EAdd (r_ccsd_dT_ab_8 (0 + z) a b i j) (ESum (0 + z) 2 (ESum (1 + z) 3 (EMul (r_ccsd_I2B_voov_1 (2 + z) a (0 + z) i (1 + z)) (ET 17 [(1 + z); b; (0 + z); j]))))).
Definition r_ccsd_dT_ab_10 (z a b i j : nat) : ex := (EAdd (r_ccsd_dT_ab_9 (0 + z) a b i j) (ESum (0 + z) 0 (ESum (1 + z) 1 (EMul (r_ccsd_X_ab_ovvo (2 + z) (0 + z) b (1 + z) j) (ET 13 [a; (1 + z); i; (0 + z)]))))).
Definition r_ccsd_dT_ab_11 (z a b i j : nat) : ex := (EAdd (r_ccsd_dT_ab_10 (0 + z) a b i j) (ESum (0 + z) 2 (ESum (1 + z) 3 (EMul (r_ccsd_X_bb_voov (2 + z) b (0 + z) j (1 + z)) (ET 14 [a; (1 + z); i; (0 + z)]))))).
Definition r_ccsd_dT_ab_12 (z a b i j : nat) : ex := (ESub (r_ccsd_dT_ab_11 (0 + z) a b i j) (ESum (0 + z) 0 (ESum (1 + z) 3 (EMul (r_ccsd_X_ab_ovov (2 + z) (0 + z) b i (1 + z)) (ET 14 [a; (1 + z); (0 + z); j]))))).
Definition r_ccsd_dT_ab_13 (z a b i j : nat) : ex := (ESub (r_ccsd_dT_ab_12 (0 + z) a b i j) (ESum (0 + z) 2 (ESum (1 + z) 1 (EMul (r_ccsd_I2B_vovo (2 + z) a (0 + z) (1 + z) j) (ET 14 [(1 + z); b; i; (0 + z)]))))).
Definition r_ccsd_dT_ab_14 (z a b i j : nat) : ex := (EAdd (r_ccsd_dT_ab_13 (0 + z) a b i j) (ESum (0 + z) 0 (ESum (1 + z) 2 (EMul (r_ccsd_I2B_oooo (2 + z) (0 + z) (1 + z) i j) (ET 14 [a; b; (0 + z); (1 + z)]))))).
Definition r_ccsd_dT_ab_15 (z a b i j : nat) : ex := (EAdd (r_ccsd_dT_ab_14 (0 + z) a b i j) (ESum (0 + z) 1 (ESum (1 + z) 3 (EMul (b_ab_vvvv (2 + z) a b (0 + z) (1 + z)) (r_ccsd_tau_1 (3 + z) (0 + z) (1 + z) i j))))).
Definition r_ccsd_res_ab (z a b i j : nat) : ex := (EAdd (r_ccsd_dT_ab_15 (0 + z) a b i j) (b_ab_vvoo (0 + z) a b i j)).
Definition r_ccsd_I2C_oooo (z m n i j : nat) : ex := (EAdd (r_ccsd_X_bb_oooo_1 (0 + z) m n i j) (EScale (1) 2 (ESum (0 + z) 3 (ESum (1 + z) 3 (EMul (b_bb_oovv (2 + z) m n (0 + z) (1 + z)) (ET 17 [(0 + z); (1 + z); i; j])))))).
Definition r_ccsd_I2B_ovvo (z m a e i : nat) : ex := (EAdd (r_ccsd_X_ab_ovvo (0 + z) m a e i) (EAdd (ESum (0 + z) 2 (ESum (1 + z) 3 (EMul (b_ab_oovv (2 + z) m (0 + z) e (1 + z)) (ET 17 [a; (1 + z); i; (0 + z)])))) (EScale (1) 2 (ESum (0 + z) 0 (ESum (1 + z) 1 (EMul (b_aa_oovv (2 + z) m (0 + z) e (1 + z)) (ET 14 [(1 + z); a; (0 + z); i]))))))).
Definition r_ccsd_I2C_voov (z a m i e : nat) : ex := (EAdd (r_ccsd_X_bb_voov (0 + z) a m i e) (EScale (1) 2 (ESum (0 + z) 2 (ESum (1 + z) 3 (EMul (b_bb_oovv (2 + z) m (0 + z) e (1 + z)) (ET 17 [a; (1 + z); i; (0 + z)])))))).
Definition r_ccsd_I2C_vooo (z a m i j : nat) : ex := (EAdd (r_ccsd_X_bb_vooo_1 (0 + z) a m i j) (EScale (1) 2 (ESum (0 + z) 3 (ESum (1 + z) 3 (EMul (EAdd (b_bb_vovv (2 + z) a m (0 + z) (1 + z)) (EScale (1) 2 (r_ccsd_X_bb_vovv (2 + z) a m (0 + z) (1 + z)))) (ET 17 [(0 + z); (1 + z); i; j])))))).
Definition r_ccsd_tau_2 (z a b i j : nat) : ex := (EAdd (EScale (1) 2 (ET 17 [a; b; i; j])) (EMul (ET 10 [a; i]) (ET 10 [b; j]))).
Definition r_ccsd_dT_bb (z a b i j : nat) : ex := (EScale (-1) 2 (ESum (0 + z) 2 (EMul (r_ccsd_I2C_vooo (1 + z) a (0 + z) i j) (ET 10 [b; (0 + z)])))).
Definition r_ccsd_dT_bb_1 (z a b i j : nat) : ex := (EAdd (r_ccsd_dT_bb (0 + z) a b i j) (EScale (1) 2 (ESum (0 + z) 3 (EMul (r_ccsd_X_bb_vvov (1 + z) a b i (0 + z)) (ET 10 [(0 + z); j]))))).
Definition r_ccsd_dT_bb_2 (z a b i j : nat) : ex := (EAdd (r_ccsd_dT_bb_1 (0 + z) a b i j) (EScale (1) 2 (ESum (0 + z) 3 (EMul (r_ccsd_X_b_vv_1 (1 + z) a (0 + z)) (ET 17 [(0 + z); b; i; j]))))).
Definition r_ccsd_dT_bb_3 (z a b i j : nat) : ex := (ESub (r_ccsd_dT_bb_2 (0 + z) a b i j) (EScale (1) 2 (ESum (0 + z) 2 (EMul (r_ccsd_X_b_oo (1 + z) (0 + z) i) (ET 17 [a; b; (0 + z); j]))))).
Definition r_ccsd_dT_bb_4 (z a b i j : nat) : ex := (EAdd (r_ccsd_dT_bb_3 (0 + z) a b i j) (ESum (0 + z) 2 (ESum (1 + z) 3 (EMul (r_ccsd_I2C_voov (2 + z) a (0 + z) i (1 + z)) (ET 17 [(1 + z); b; (0 + z); j]))))).
Definition r_ccsd_dT_bb_5 (z a b i j : nat) : ex := (EAdd (r_ccsd_dT_bb_4 (0 + z) a b i j) (ESum (0 + z) 0 (ESum (1 + z) 1 (EMul (r_ccsd_I2B_ovvo (2 + z) (0 + z) a (1 + z) i) (ET 14 [(1 + z); b; (0 + z); j]))))).
Definition r_ccsd_dT_bb_6 (z a b i j : nat) : ex := (EAdd (r_ccsd_dT_bb_5 (0 + z) a b i j) (EScale (1) 8 (ESum (0 + z) 2 (ESum (1 + z) 2 (EMul (r_ccsd_I2C_oooo (2 + z) (0 + z) (1 + z) i j) (ET 17 [a; b; (0 + z); (1 + z)])))))).
Definition r_ccsd_dT_bb_7 (z a b i j : nat) : ex := (EAdd (r_ccsd_dT_bb_6 (0 + z) a b i j) (EScale (1) 4 (ESum (0 + z) 3 (ESum (1 + z) 3 (EMul (b_bb_vvvv (2 + z) a b (0 + z) (1 + z)) (r_ccsd_tau_2 (3 + z) (0 + z) (1 + z) i j)))))).
Definition r_ccsd_res_bb (z a b i j : nat) : ex := (EAdd (r_ccsd_dT_bb_7 (0 + z) a b i j) (EScale (1) 4 (b_bb_vvoo (0 + z) a b i j))).
Definition r_cf_X_a_ov (z m e : nat) : ex := (EAdd (ET 8 [m; e]) (EAdd (ESum (0 + z) 0 (ESum (1 + z) 1 (EMul (b_aa_oovv (2 + z) m (0 + z) e (1 + z)) (ET 9 [(1 + z); (0 + z)])))) (ESum (0 + z) 2 (ESum (1 + z) 3 (EMul (b_ab_oovv (2 + z) m (0 + z) e (1 + z)) (ET 10 [(1 + z); (0 + z)])))))).
Definition r_cf_X_a_vv (z a e : nat) : ex := (EAdd (ET 12 [a; e]) (ESub (EScale (-1) 2 (ESum (0 + z) 0 (ESum (1 + z) 0 (ESum (2 + z) 1 (EMul (b_aa_oovv (3 + z) (0 + z) (1 + z) e (2 + z)) (ET 13 [a; (2 + z); (0 + z); (1 + z)])))))) (ESum (0 + z) 0 (ESum (1 + z) 2 (ESum (2 + z) 3 (EMul (b_ab_oovv (3 + z) (0 + z) (1 + z) e (2 + z)) (ET 14 [a; (2 + z); (0 + z); (1 + z)]))))))).
Definition r_cf_bt1 (z x : nat) : ex := (EAdd (ESum (0 + z) 0 (ESum (1 + z) 1 (EMul (ET 1 [x; (0 + z); (1 + z)]) (ET 9 [(1 + z); (0 + z)])))) (ESum (0 + z) 2 (ESum (1 + z) 3 (EMul (ET 5 [x; (0 + z); (1 + z)]) (ET 10 [(1 + z); (0 + z)]))))).
Definition r_cf_bxt1 (z x f e : nat) : ex := (EOpp (ESum (0 + z) 0 (EMul (ET 1 [x; (0 + z); e]) (ET 9 [f; (0 + z)])))).
Definition r_cf_X_a_vv_1 (z a e : nat) : ex := (EAdd (r_cf_X_a_vv (0 + z) a e) (EAdd (ESum (0 + z) 4 (EMul (ET 3 [(0 + z); a; e]) (r_cf_bt1 (1 + z) (0 + z)))) (ESum (0 + z) 4 (ESum (1 + z) 1 (EMul (ET 3 [(0 + z); a; (1 + z)]) (r_cf_bxt1 (2 + z) (0 + z) (1 + z) e)))))).
Definition r_cf_X_a_oo (z m i : nat) : ex := (EAdd (ET 15 [m; i]) (EAdd (EAdd (EAdd (EAdd (ESum (0 + z) 0 (ESum (1 + z) 1 (EMul (b_aa_ooov (2 + z) m (0 + z) i (1 + z)) (ET 9 [(1 + z); (0 + z)])))) (ESum (0 + z) 2 (ESum (1 + z) 3 (EMul (b_ab_ooov (2 + z) m (0 + z) i (1 + z)) (ET 10 [(1 + z); (0 + z)]))))) (ESum (0 + z) 1 (EMul (r_cf_X_a_ov (1 + z) m (0 + z)) (ET 9 [(0 + z); i])))) (EScale (1) 2 (ESum (0 + z) 0 (ESum (1 + z) 1 (ESum (2 + z) 1 (EMul (b_aa_oovv (3 + z) m (0 + z) (1 + z) (2 + z)) (ET 13 [(1 + z); (2 + z); i; (0 + z)]))))))) (ESum (0 + z) 2 (ESum (1 + z) 1 (ESum (2 + z) 3 (EMul (b_ab_oovv (3 + z) m (0 + z) (1 + z) (2 + z)) (ET 14 [(1 + z); (2 + z); i; (0 + z)]))))))).
Definition r_cf_X_b_ov (z m e : nat) : ex := (EAdd (ET 11 [m; e]) (EAdd (ESum (0 + z) 0 (ESum (1 + z) 1 (EMul (b_ab_oovv (2 + z) (0 + z) m (1 + z) e) (ET 9 [(1 + z); (0 + z)])))) (ESum (0 + z) 2 (ESum (1 + z) 3 (EMul (b_bb_oovv (2 + z) m (0 + z) e (1 + z)) (ET 10 [(1 + z); (0 + z)])))))).
Definition r_cf_X_b_vv (z a e : nat) : ex := (EAdd (ET 16 [a; e]) (ESub (EScale (-1) 2 (ESum (0 + z) 2 (ESum (1 + z) 2 (ESum (2 + z) 3 (EMul (b_bb_oovv (3 + z) (0 + z) (1 + z) e (2 + z)) (ET 17 [a; (2 + z); (0 + z); (1 + z)])))))) (ESum (0 + z) 0 (ESum (1 + z) 2 (ESum (2 + z) 1 (EMul (b_ab_oovv (3 + z) (0 + z) (1 + z) (2 + z) e) (ET 14 [(2 + z); a; (0 + z); (1 + z)]))))))).
Definition r_cf_bt1_1 (z x : nat) : ex := (EAdd (ESum (0 + z) 2 (ESum (1 + z) 3 (EMul (ET 5 [x; (0 + z); (1 + z)]) (ET 10 [(1 + z); (0 + z)])))) (ESum (0 + z) 0 (ESum (1 + z) 1 (EMul (ET 1 [x; (0 + z); (1 + z)]) (ET 9 [(1 + z); (0 + z)]))))).
Definition r_cf_bxt1_1 (z x f e : nat) : ex := (EOpp (ESum (0 + z) 2 (EMul (ET 5 [x; (0 + z); e]) (ET 10 [f; (0 + z)])))).
Definition r_cf_X_b_vv_1 (z a e : nat) : ex := (EAdd (r_cf_X_b_vv (0 + z) a e) (EAdd (ESum (0 + z) 4 (EMul (ET 7 [(0 + z); a; e]) (r_cf_bt1_1 (1 + z) (0 + z)))) (ESum (0 + z) 4 (ESum (1 + z) 3 (EMul (ET 7 [(0 + z); a; (1 + z)]) (r_cf_bxt1_1 (2 + z) (0 + z) (1 + z) e)))))).
Definition r_cf_X_b_oo (z m i : nat) : ex := (EAdd (ET 18 [m; i]) (EAdd (EAdd (EAdd (EAdd (ESum (0 + z) 2 (ESum (1 + z) 3 (EMul (b_bb_ooov (2 + z) m (0 + z) i (1 + z)) (ET 10 [(1 + z); (0 + z)])))) (ESum (0 + z) 0 (ESum (1 + z) 1 (EMul (b_ab_oovo (2 + z) (0 + z) m (1 + z) i) (ET 9 [(1 + z); (0 + z)]))))) (ESum (0 + z) 3 (EMul (r_cf_X_b_ov (1 + z) m (0 + z)) (ET 10 [(0 + z); i])))) (EScale (1) 2 (ESum (0 + z) 2 (ESum (1 + z) 3 (ESum (2 + z) 3 (EMul (b_bb_oovv (3 + z) m (0 + z) (1 + z) (2 + z)) (ET 17 [(1 + z); (2 + z); i; (0 + z)]))))))) (ESum (0 + z) 0 (ESum (1 + z) 1 (ESum (2 + z) 3 (EMul (b_ab_oovv (3 + z) (0 + z) m (1 + z) (2 + z)) (ET 14 [(1 + z); (2 + z); (0 + z); i]))))))).
Definition r_cf_dT_a (z a i : nat) : ex := (EOpp (ESum (0 + z) 0 (EMul (r_cf_X_a_oo (1 + z) (0 + z) i) (ET 9 [a; (0 + z)])))).
Definition r_cf_dT_a_1 (z a i : nat) : ex := (EAdd (r_cf_dT_a (0 + z) a i) (ESum (0 + z) 1 (EMul (r_cf_X_a_vv_1 (1 + z) a (0 + z)) (ET 9 [(0 + z); i])))).
Definition r_cf_dT_a_2 (z a i : nat) : ex := (EAdd (r_cf_dT_a_1 (0 + z) a i) (ESum (0 + z) 0 (ESum (1 + z) 1 (EMul (r_cf_X_a_ov (2 + z) (0 + z) (1 + z)) (ET 13 [a; (1 + z); i; (0 + z)]))))).
Definition r_cf_dT_a_3 (z a i : nat) : ex := (EAdd (r_cf_dT_a_2 (0 + z) a i) (ESum (0 + z) 2 (ESum (1 + z) 3 (EMul (r_cf_X_b_ov (2 + z) (0 + z) (1 + z)) (ET 14 [a; (1 + z); i; (0 + z)]))))).
Definition r_cf_dT_a_4 (z a i : nat) : ex := (EAdd (r_cf_dT_a_3 (0 + z) a i) (ESum (0 + z) 0 (ESum (1 + z) 1 (EMul (b_aa_voov (2 + z) a (0 + z) i (1 + z)) (ET 9 [(1 + z); (0 + z)]))))).
Definition r_cf_dT_a_5 (z a i : nat) : ex := (EAdd (r_cf_dT_a_4 (0 + z) a i) (ESum (0 + z) 2 (ESum (1 + z) 3 (EMul (b_ab_voov (2 + z) a (0 + z) i (1 + z)) (ET 10 [(1 + z); (0 + z)]))))).
Definition r_cf_dT_a_6 (z a i : nat) : ex := (ESub (r_cf_dT_a_5 (0 + z) a i) (EScale (1) 2 (ESum (0 + z) 0 (ESum (1 + z) 0 (ESum (2 + z) 1 (EMul (b_aa_ooov (3 + z) (0 + z) (1 + z) i (2 + z)) (ET 13 [a; (2 + z); (0 + z); (1 + z)]))))))).
Definition r_cf_dT_a_7 (z a i : nat) : ex := (ESub (r_cf_dT_a_6 (0 + z) a i) (ESum (0 + z) 0 (ESum (1 + z) 2 (ESum (2 + z) 3 (EMul (b_ab_ooov (3 + z) (0 + z) (1 + z) i (2 + z)) (ET 14 [a; (2 + z); (0 + z); (1 + z)])))))).
Definition r_cf_b_vo (z x e i : nat) : ex := (EAdd (ESub (EScale (1) 2 (ESum (0 + z) 0 (ESum (1 + z) 1 (EMul (ET 1 [x; (0 + z); (1 + z)]) (ET 13 [e; (1 + z); i; (0 + z)]))))) (EScale (1) 2 (ESum (0 + z) 0 (ESum (1 + z) 1 (EMul (ET 1 [x; (0 + z); (1 + z)]) (ET 13 [(1 + z); e; i; (0 + z)])))))) (ESum (0 + z) 2 (ESum (1 + z) 3 (EMul (ET 5 [x; (0 + z); (1 + z)]) (ET 14 [e; (1 + z); i; (0 + z)]))))).
Definition r_cf_dT_a_8 (z a i : nat) : ex := (EAdd (r_cf_dT_a_7 (0 + z) a i) (ESum (0 + z) 4 (ESum (1 + z) 1 (EMul (ET 3 [(0 + z); a; (1 + z)]) (r_cf_b_vo (2 + z) (0 + z) (1 + z) i))))).
Definition r_cf_res_a (z a i : nat) : ex := (EAdd (r_cf_dT_a_8 (0 + z) a i) (ET 19 [a; i])).
Definition r_cf_dT_b (z a i : nat) : ex := (EOpp (ESum (0 + z) 2 (EMul (r_cf_X_b_oo (1 + z) (0 + z) i) (ET 10 [a; (0 + z)])))).
Definition r_cf_dT_b_1 (z a i : nat) : ex := (EAdd (r_cf_dT_b (0 + z) a i) (ESum (0 + z) 3 (EMul (r_cf_X_b_vv_1 (1 + z) a (0 + z)) (ET 10 [(0 + z); i])))).
Definition r_cf_dT_b_2 (z a i : nat) : ex := (EAdd (r_cf_dT_b_1 (0 + z) a i) (ESum (0 + z) 2 (ESum (1 + z) 3 (EMul (b_bb_voov (2 + z) a (0 + z) i (1 + z)) (ET 10 [(1 + z); (0 + z)]))))).
Definition r_cf_dT_b_3 (z a i : nat) : ex := (EAdd (r_cf_dT_b_2 (0 + z) a i) (ESum (0 + z) 0 (ESum (1 + z) 1 (EMul (b_ab_ovvo (2 + z) (0 + z) a (1 + z) i) (ET 9 [(1 + z); (0 + z)]))))).
Definition r_cf_dT_b_4 (z a i : nat) : ex := (EAdd (r_cf_dT_b_3 (0 + z) a i) (ESum (0 + z) 0 (ESum (1 + z) 1 (EMul (r_cf_X_a_ov (2 + z) (0 + z) (1 + z)) (ET 14 [(1 + z); a; (0 + z); i]))))).
Definition r_cf_dT_b_5 (z a i : nat) : ex := (EAdd (r_cf_dT_b_4 (0 + z) a i) (ESum (0 + z) 2 (ESum (1 + z) 3 (EMul (r_cf_X_b_ov (2 + z) (0 + z) (1 + z)) (ET 17 [a; (1 + z); i; (0 + z)]))))).
Definition r_cf_dT_b_6 (z a i : nat) : ex := (ESub (r_cf_dT_b_5 (0 + z) a i) (EScale (1) 2 (ESum (0 + z) 2 (ESum (1 + z) 2 (ESum (2 + z) 3 (EMul (b_bb_ooov (3 + z) (0 + z) (1 + z) i (2 + z)) (ET 17 [a; (2 + z); (0 + z); (1 + z)]))))))).
Definition r_cf_dT_b_7 (z a i : nat) : ex := (ESub (r_cf_dT_b_6 (0 + z) a i) (ESum (0 + z) 0 (ESum (1 + z) 2 (ESum (2 + z) 1 (EMul (b_ab_oovo (3 + z) (0 + z) (1 + z) (2 + z) i) (ET 14 [(2 + z); a; (0 + z); (1 + z)])))))).
Definition r_cf_b_vo_1 (z x e i : nat) : ex := (EAdd (ESub (EScale (1) 2 (ESum (0 + z) 2 (ESum (1 + z) 3 (EMul (ET 5 [x; (0 + z); (1 + z)]) (ET 17 [e; (1 + z); i; (0 + z)]))))) (EScale (1) 2 (ESum (0 + z) 2 (ESum (1 + z) 3 (EMul (ET 5 [x; (0 + z); (1 + z)]) (ET 17 [(1 + z); e; i; (0 + z)])))))) (ESum (0 + z) 0 (ESum (1 + z) 1 (EMul (ET 1 [x; (0 + z); (1 + z)]) (ET 14 [(1 + z); e; (0 + z); i]))))).
Definition r_cf_dT_b_8 (z a i : nat) : ex := (EAdd (r_cf_dT_b_7 (0 + z) a i) (ESum (0 + z) 4 (ESum (1 + z) 3 (EMul (ET 7 [(0 + z); a; (1 + z)]) (r_cf_b_vo_1 (2 + z) (0 + z) (1 + z) i))))).
Definition r_cf_res_b (z a i : nat) : ex := (EAdd (r_cf_dT_b_8 (0 + z) a i) (ET 20 [a; i])).
Definition r_cf_X_a_vv_2 (z a e : nat) : ex := (ESub (r_cf_X_a_vv_1 (0 + z) a e) (ESum (0 + z) 0 (EMul (r_cf_X_a_ov (1 + z) (0 + z) e) (ET 9 [a; (0 + z)])))).
Definition r_cf_X_b_vv_2 (z a e : nat) : ex := (ESub (r_cf_X_b_vv_1 (0 + z) a e) (ESum (0 + z) 2 (EMul (r_cf_X_b_ov (1 + z) (0 + z) e) (ET 10 [a; (0 + z)])))).
Definition r_cf_X_chol_a_ov (z a i b : nat) : ex := (ET 1 [a; i; b]).
Definition r_cf_X_chol_a_oo (z x m i : nat) : ex := (EAdd (ET 0 [x; m; i]) (ESum (0 + z) 1 (EMul (r_cf_X_chol_a_ov (1 + z) x m (0 + z)) (ET 9 [(0 + z); i])))).
Definition r_cf_X_chol_a_vv (z x a e : nat) : ex := (ESub (ET 3 [x; a; e]) (ESum (0 + z) 0 (EMul (r_cf_X_chol_a_ov (1 + z) x (0 + z) e) (ET 9 [a; (0 + z)])))).
Definition r_cf_X_chol_a_vo (z x a i : nat) : ex := (EAdd (EAdd (ESub (ET 2 [x; a; i]) (ESum (0 + z) 0 (EMul (r_cf_X_chol_a_oo (1 + z) x (0 + z) i) (ET 9 [a; (0 + z)])))) (ESum (0 + z) 1 (EMul (r_cf_X_chol_a_vv (1 + z) x a (0 + z)) (ET 9 [(0 + z); i])))) (ESum (0 + z) 0 (ESum (1 + z) 1 (EMul (EMul (r_cf_X_chol_a_ov (2 + z) x (0 + z) (1 + z)) (ET 9 [(1 + z); i])) (ET 9 [a; (0 + z)]))))).
Definition r_cf_X_chol_b_ov (z a i b : nat) : ex := (ET 5 [a; i; b]).
Definition r_cf_X_chol_b_oo (z x m i : nat) : ex := (EAdd (ET 4 [x; m; i]) (ESum (0 + z) 3 (EMul (r_cf_X_chol_b_ov (1 + z) x m (0 + z)) (ET 10 [(0 + z); i])))).
Definition r_cf_X_chol_b_vv (z x a e : nat) : ex := (ESub (ET 7 [x; a; e]) (ESum (0 + z) 2 (EMul (r_cf_X_chol_b_ov (1 + z) x (0 + z) e) (ET 10 [a; (0 + z)])))).
Definition r_cf_X_chol_b_vo (z x a i : nat) : ex := (EAdd (EAdd (ESub (ET 6 [x; a; i]) (ESum (0 + z) 2 (EMul (r_cf_X_chol_b_oo (1 + z) x (0 + z) i) (ET 10 [a; (0 + z)])))) (ESum (0 + z) 3 (EMul (r_cf_X_chol_b_vv (1 + z) x a (0 + z)) (ET 10 [(0 + z); i])))) (ESum (0 + z) 2 (ESum (1 + z) 3 (EMul (EMul (r_cf_X_chol_b_ov (2 + z) x (0 + z) (1 + z)) (ET 10 [(1 + z); i])) (ET 10 [a; (0 + z)]))))).
Definition r_cf_h2a_oooo (z m n i j : nat) : ex := (EAdd (ESub (ESum (0 + z) 4 (EMul (r_cf_X_chol_a_oo (1 + z) (0 + z) m i) (r_cf_X_chol_a_oo (2 + z) (0 + z) n j))) (ESum (0 + z) 4 (EMul (r_cf_X_chol_a_oo (1 + z) (0 + z) m j) (r_cf_X_chol_a_oo (2 + z) (0 + z) n i)))) (EScale (1) 2 (ESum (0 + z) 1 (ESum (1 + z) 1 (EMul (b_aa_oovv (2 + z) m n (0 + z) (1 + z)) (ET 13 [(0 + z); (1 + z); i; j])))))).
Definition r_cf_h2a_voov (z a m i e : nat) : ex := (EAdd (EAdd (ESub (ESum (0 + z) 4 (EMul (r_cf_X_chol_a_vo (1 + z) (0 + z) a i) (r_cf_X_chol_a_ov (3 + z) (0 + z) m e))) (ESum (0 + z) 4 (EMul (r_cf_X_chol_a_vv (1 + z) (0 + z) a e) (r_cf_X_chol_a_oo (2 + z) (0 + z) m i)))) (EScale (1) 2 (ESum (0 + z) 0 (ESum (1 + z) 1 (EMul (b_aa_oovv (2 + z) m (0 + z) e (1 + z)) (ET 13 [a; (1 + z); i; (0 + z)])))))) (ESum (0 + z) 2 (ESum (1 + z) 3 (EMul (b_ab_oovv (2 + z) m (0 + z) e (1 + z)) (ET 14 [a; (1 + z); i; (0 + z)]))))).
Definition r_cf_h2b_voov (z a m i e : nat) : ex := (EAdd (ESum (0 + z) 4 (EMul (r_cf_X_chol_a_vo (1 + z) (0 + z) a i) (r_cf_X_chol_b_ov (3 + z) (0 + z) m e))) (EScale (1) 2 (ESum (0 + z) 2 (ESum (1 + z) 3 (EMul (b_bb_oovv (2 + z) m (0 + z) e (1 + z)) (ET 14 [a; (1 + z); i; (0 + z)])))))).
Definition r_cf_dT_aa (z a b i j : nat) : ex := (EScale (1) 2 (ESum (0 + z) 4 (EMul (r_cf_X_chol_a_vo (1 + z) (0 + z) a i) (r_cf_X_chol_a_vo (3 + z) (0 + z) b j)))).
Definition r_cf_dT_aa_1 (z a b i j : nat) : ex := (ESub (r_cf_dT_aa (0 + z) a b i j) (EScale (1) 2 (ESum (0 + z) 0 (EMul (r_cf_X_a_oo (1 + z) (0 + z) i) (ET 13 [a; b; (0 + z); j]))))).
Definition r_cf_dT_aa_2 (z a b i j : nat) : ex := (EAdd (r_cf_dT_aa_1 (0 + z) a b i j) (EScale (1) 2 (ESum (0 + z) 1 (EMul (r_cf_X_a_vv_2 (1 + z) a (0 + z)) (ET 13 [(0 + z); b; i; j]))))).
Definition r_cf_dT_aa_3 (z a b i j : nat) : ex := (EAdd (r_cf_dT_aa_2 (0 + z) a b i j) (ESum (0 + z) 0 (ESum (1 + z) 1 (EMul (r_cf_h2a_voov (2 + z) a (0 + z) i (1 + z)) (ET 13 [(1 + z); b; (0 + z); j]))))).
Definition r_cf_dT_aa_4 (z a b i j : nat) : ex := (EAdd (r_cf_dT_aa_3 (0 + z) a b i j) (ESum (0 + z) 2 (ESum (1 + z) 3 (EMul (r_cf_h2b_voov (2 + z) a (0 + z) i (1 + z)) (ET 14 [b; (1 + z); j; (0 + z)]))))).
Definition r_cf_dT_aa_5 (z a b i j : nat) : ex := (EAdd (r_cf_dT_aa_4 (0 + z) a b i j) (EScale (1) 8 (ESum (0 + z) 0 (ESum (1 + z) 0 (EMul (r_cf_h2a_oooo (2 + z) (0 + z) (1 + z) i j) (ET 13 [a; b; (0 + z); (1 + z)])))))).
Definition r_cf_vR (z a b c : nat) : ex := (r_cf_X_chol_a_vv (0 + z) a c b).
Definition r_cf_vT (z i j a b : nat) : ex := (EScale (1) 2 (ET 13 [b; a; j; i])).
Definition r_cf_dT_aa_6 (z a b i j : nat) : ex := (EAdd (r_cf_dT_aa_5 (0 + z) a b i j) (EScale (1) 4 (ESum (0 + z) 1 (ESum (1 + z) 1 (EMul (ESum (2 + z) 4 (ESub (EMul (r_cf_vR (3 + z) (2 + z) (1 + z) b) (r_cf_vR (4 + z) (2 + z) (0 + z) a)) (EMul (r_cf_vR (3 + z) (2 + z) (0 + z) b) (r_cf_vR (4 + z) (2 + z) (1 + z) a)))) (r_cf_vT (5 + z) j i (1 + z) (0 + z))))))).
Definition r_cf_res_aa (z a b i j : nat) : ex := (r_cf_dT_aa_6 (0 + z) a b i j).
Definition r_cf_X_aa_voov (z a m i e : nat) : ex := (EAdd (r_cf_h2a_voov (0 + z) a m i e) (EScale (1) 2 (ESum (0 + z) 0 (ESum (1 + z) 1 (EMul (b_aa_oovv (2 + z) (0 + z) m (1 + z) e) (ET 13 [a; (1 + z); i; (0 + z)])))))).
Definition r_cf_X_ab_voov (z a m i e : nat) : ex := (EAdd (r_cf_h2b_voov (0 + z) a m i e) (EAdd (EScale (1) 2 (ESum (0 + z) 2 (ESum (1 + z) 3 (EMul (b_bb_oovv (2 + z) (0 + z) m (1 + z) e) (ET 14 [a; (1 + z); i; (0 + z)]))))) (ESum (0 + z) 0 (ESum (1 + z) 1 (EMul (b_ab_oovv (2 + z) (0 + z) m (1 + z) e) (ET 13 [a; (1 + z); i; (0 + z)])))))).
Definition r_cf_h2b_oooo (z m n i j : nat) : ex := (EAdd (ESum (0 + z) 4 (EMul (r_cf_X_chol_a_oo (1 + z) (0 + z) m i) (r_cf_X_chol_b_oo (2 + z) (0 + z) n j))) (ESum (0 + z) 1 (ESum (1 + z) 3 (EMul (b_ab_oovv (2 + z) m n (0 + z) (1 + z)) (ET 14 [(0 + z); (1 + z); i; j]))))).
Definition r_cf_h2b_ovvo (z m a e i : nat) : ex := (ESum (0 + z) 4 (EMul (r_cf_X_chol_a_ov (1 + z) (0 + z) m e) (r_cf_X_chol_b_vo (1 + z) (0 + z) a i))).
Definition r_cf_h2b_vovo (z a m e i : nat) : ex := (ESub (ESum (0 + z) 4 (EMul (r_cf_X_chol_a_vv (1 + z) (0 + z) a e) (r_cf_X_chol_b_oo (2 + z) (0 + z) m i))) (ESum (0 + z) 0 (ESum (1 + z) 3 (EMul (b_ab_oovv (2 + z) (0 + z) m e (1 + z)) (ET 14 [a; (1 + z); (0 + z); i]))))).
Definition r_cf_h2b_ovov (z m b j e : nat) : ex := (ESum (0 + z) 4 (EMul (r_cf_X_chol_a_oo (1 + z) (0 + z) m j) (r_cf_X_chol_b_vv (2 + z) (0 + z) b e))).
Definition r_cf_h2c_voov (z a m i e : nat) : ex := (ESub (ESum (0 + z) 4 (EMul (r_cf_X_chol_b_vo (1 + z) (0 + z) a i) (r_cf_X_chol_b_ov (3 + z) (0 + z) m e))) (ESum (0 + z) 4 (EMul (r_cf_X_chol_b_vv (1 + z) (0 + z) a e) (r_cf_X_chol_b_oo (2 + z) (0 + z) m i)))).
Definition r_cf_dT_ab (z a b i j : nat) : ex := (ESum (0 + z) 4 (EMul (r_cf_X_chol_a_vo (1 + z) (0 + z) a i) (r_cf_X_chol_b_vo (3 + z) (0 + z) b j))).
Definition r_cf_dT_ab_1 (z a b i j : nat) : ex := (EAdd (r_cf_dT_ab (0 + z) a b i j) (ESum (0 + z) 1 (EMul (r_cf_X_a_vv_2 (1 + z) a (0 + z)) (ET 14 [(0 + z); b; i; j])))).
Definition r_cf_dT_ab_2 (z a b i j : nat) : ex := (EAdd (r_cf_dT_ab_1 (0 + z) a b i j) (ESum (0 + z) 3 (EMul (r_cf_X_b_vv_2 (1 + z) b (0 + z)) (ET 14 [a; (0 + z); i; j])))).
Definition r_cf_dT_ab_3 (z a b i j : nat) : ex := (ESub (r_cf_dT_ab_2 (0 + z) a b i j) (ESum (0 + z) 0 (EMul (r_cf_X_a_oo (1 + z) (0 + z) i) (ET 14 [a; b; (0 + z); j])))).
Definition r_cf_dT_ab_4 (z a b i j : nat) : ex := (ESub (r_cf_dT_ab_3 (0 + z) a b i j) (ESum (0 + z) 2 (EMul (r_cf_X_b_oo (1 + z) (0 + z) j) (ET 14 [a; b; i; (0 + z)])))).
Definition r_cf_dT_ab_5 (z a b i j : nat) : ex := (EAdd (r_cf_dT_ab_4 (0 + z) a b i j) (ESum (0 + z) 0 (ESum (1 + z) 1 (EMul (r_cf_X_aa_voov (2 + z) a (0 + z) i (1 + z)) (ET 14 [(1 + z); b; (0 + z); j]))))).
Definition r_cf_dT_ab_6 (z a b i j : nat) : ex := (EAdd (r_cf_dT_ab_5 (0 + z) a b i j) (ESum (0 + z) 2 (ESum (1 + z) 3 (EMul (r_cf_X_ab_voov (2 + z) a (0 + z) i (1 + z)) (ET 17 [(1 + z); b; (0 + z); j]))))).
Definition r_cf_dT_ab_7 (z a b i j : nat) : ex := (EAdd (r_cf_dT_ab_6 (0 + z) a b i j) (ESum (0 + z) 0 (ESum (1 + z) 1 (EMul (r_cf_h2b_ovvo (2 + z) (0 + z) b (1 + z) j) (ET 13 [a; (1 + z); i; (0 + z)]))))).
Definition r_cf_dT_ab_8 (z a b i j : nat) : ex := (EAdd (r_cf_dT_ab_7 (0 + z) a b i j) (ESum (0 + z) 2 (ESum (1 + z) 3 (EMul (r_cf_h2c_voov (2 + z) b (0 + z) j (1 + z)) (ET 14 [a; (1 + z); i; (0 + z)]))))).
Definition r_cf_dT_ab_9 (z a b i j : nat) : ex := (ESub (r_cf_dT_ab_8 (0 + z) a b i j) (ESum (0 + z) 0 (ESum (1 + z) 3 (EMul (r_cf_h2b_ovov (2 + z) (0 + z) b i (1 + z)) (ET 14 [a; (1 + z); (0 + z); j]))))).
Definition r_cf_dT_ab_10 (z a b i j : nat) : ex := (ESub (r_cf_dT_ab_9 (0 + z) a b i j) (ESum (0 + z) 2 (ESum (1 + z) 1 (EMul (r_cf_h2b_vovo (2 + z) a (0 + z) (1 + z) j) (ET 14 [(1 + z); b; i; (0 + z)]))))).
Definition r_cf_dT_ab_11 (z a b i j : nat) : ex := (EAdd (r_cf_dT_ab_10 (0 + z) a b i j) (ESum (0 + z) 0 (ESum (1 + z) 2 (EMul (r_cf_h2b_oooo (2 + z) (0 + z) (1 + z) i j) (ET 14 [a; b; (0 + z); (1 + z)]))))).
Definition r_cf_vRa (z a b c : nat) : ex := (r_cf_X_chol_a_vv (0 + z) a c b).
Definition r_cf_vRb (z a b c : nat) : ex := (r_cf_X_chol_b_vv (0 + z) a c b).
Definition r_cf_vT_1 (z i j a b : nat) : ex := (ET 14 [b; a; j; i]).
Definition r_cf_dT_ab_12 (z a b i j : nat) : ex := (EAdd (r_cf_dT_ab_11 (0 + z) a b i j) (ESum (0 + z) 1 (ESum (1 + z) 3 (EMul (ESum (2 + z) 4 (EMul (r_cf_vRb (3 + z) (2 + z) (1 + z) b) (r_cf_vRa (4 + z) (2 + z) (0 + z) a))) (r_cf_vT_1 (5 + z) j i (1 + z) (0 + z)))))).
Definition r_cf_res_ab (z a b i j : nat) : ex := (r_cf_dT_ab_12 (0 + z) a b i j).
Definition r_cf_h2c_oooo (z m n i j : nat) : ex := (EAdd (ESub (ESum (0 + z) 4 (EMul (r_cf_X_chol_b_oo (1 + z) (0 + z) m i) (r_cf_X_chol_b_oo (2 + z) (0 + z) n j))) (ESum (0 + z) 4 (EMul (r_cf_X_chol_b_oo (1 + z) (0 + z) m j) (r_cf_X_chol_b_oo (2 + z) (0 + z) n i)))) (EScale (1) 2 (ESum (0 + z) 3 (ESum (1 + z) 3 (EMul (b_bb_oovv (2 + z) m n (0 + z) (1 + z)) (ET 17 [(0 + z); (1 + z); i; j])))))).
Definition r_cf_h2c_voov_1 (z a m i e : nat) : ex := (EAdd (EAdd (ESub (ESum (0 + z) 4 (EMul (r_cf_X_chol_b_vo (1 + z) (0 + z) a i) (r_cf_X_chol_b_ov (3 + z) (0 + z) m e))) (ESum (0 + z) 4 (EMul (r_cf_X_chol_b_vv (1 + z) (0 + z) a e) (r_cf_X_chol_b_oo (2 + z) (0 + z) m i)))) (EScale (1) 2 (ESum (0 + z) 2 (ESum (1 + z) 3 (EMul (b_bb_oovv (2 + z) m (0 + z) e (1 + z)) (ET 17 [a; (1 + z); i; (0 + z)])))))) (ESum (0 + z) 0 (ESum (1 + z) 1 (EMul (b_ab_oovv (2 + z) (0 + z) m (1 + z) e) (ET 14 [(1 + z); a; (0 + z); i]))))).
Definition r_cf_h2b_ovvo_1 (z m a e i : nat) : ex := (EAdd (ESum (0 + z) 4 (EMul (r_cf_X_chol_b_vo (1 + z) (0 + z) a i) (r_cf_X_chol_a_ov (3 + z) (0 + z) m e))) (EScale (1) 2 (ESum (0 + z) 0 (ESum (1 + z) 1 (EMul (b_aa_oovv (2 + z) m (0 + z) e (1 + z)) (ET 14 [(1 + z); a; (0 + z); i])))))).
Definition r_cf_dT_bb (z a b i j : nat) : ex := (EScale (1) 2 (ESum (0 + z) 4 (EMul (r_cf_X_chol_b_vo (1 + z) (0 + z) a i) (r_cf_X_chol_b_vo (3 + z) (0 + z) b j)))).
Definition r_cf_dT_bb_1 (z a b i j : nat) : ex := (ESub (r_cf_dT_bb (0 + z) a b i j) (EScale (1) 2 (ESum (0 + z) 2 (EMul (r_cf_X_b_oo (1 + z) (0 + z) i) (ET 17 [a; b; (0 + z); j]))))).
Definition r_cf_dT_bb_2 (z a b i j : nat) : ex := (EAdd (r_cf_dT_bb_1 (0 + z) a b i j) (EScale (1) 2 (ESum (0 + z) 3 (EMul (r_cf_X_b_vv_2 (1 + z) a (0 + z)) (ET 17 [(0 + z); b; i; j]))))).
Definition r_cf_dT_bb_3 (z a b i j : nat) : ex := (EAdd (r_cf_dT_bb_2 (0 + z) a b i j) (ESum (0 + z) 2 (ESum (1 + z) 3 (EMul (r_cf_h2c_voov_1 (2 + z) a (0 + z) i (1 + z)) (ET 17 [(1 + z); b; (0 + z); j]))))).
Definition r_cf_dT_bb_4 (z a b i j : nat) : ex := (EAdd (r_cf_dT_bb_3 (0 + z) a b i j) (ESum (0 + z) 0 (ESum (1 + z) 1 (EMul (r_cf_h2b_ovvo_1 (2 + z) (0 + z) a (1 + z) i) (ET 14 [(1 + z); b; (0 + z); j]))))).
Definition r_cf_dT_bb_5 (z a b i j : nat) : ex := (EAdd (r_cf_dT_bb_4 (0 + z) a b i j) (EScale (1) 8 (ESum (0 + z) 2 (ESum (1 + z) 2 (EMul (r_cf_h2c_oooo (2 + z) (0 + z) (1 + z) i j) (ET 17 [a; b; (0 + z); (1 + z)])))))).
Definition r_cf_vR_1 (z a b c : nat) : ex := (r_cf_X_chol_b_vv (0 + z) a c b).
Definition r_cf_vT_2 (z i j a b : nat) : ex := (EScale (1) 2 (ET 17 [b; a; j; i])).
Definition r_cf_dT_bb_6 (z a b i j : nat) : ex := (EAdd (r_cf_dT_bb_5 (0 + z) a b i j) (EScale (1) 4 (ESum (0 + z) 3 (ESum (1 + z) 3 (EMul (ESum (2 + z) 4 (ESub (EMul (r_cf_vR_1 (3 + z) (2 + z) (1 + z) b) (r_cf_vR_1 (4 + z) (2 + z) (0 + z) a)) (EMul (r_cf_vR_1 (3 + z) (2 + z) (0 + z) b) (r_cf_vR_1 (4 + z) (2 + z) (1 + z) a)))) (r_cf_vT_2 (5 + z) j i (1 + z) (0 + z))))))).
Definition r_cf_res_bb (z a b i j : nat) : ex := (r_cf_dT_bb_6 (0 + z) a b i j).
Definition r_cg_X_a_ov (z m e : nat) : ex := (EAdd (ET 8 [m; e]) (EAdd (ESum (0 + z) 0 (ESum (1 + z) 1 (EMul (b_aa_oovv (2 + z) m (0 + z) e (1 + z)) (ET 9 [(1 + z); (0 + z)])))) (ESum (0 + z) 0 (ESum (1 + z) 1 (EMul (b_ab_oovv (2 + z) m (0 + z) e (1 + z)) (ET 10 [(1 + z); (0 + z)])))))).
Definition r_cg_X_a_vv (z a e : nat) : ex := (EAdd (ET 12 [a; e]) (ESub (EScale (-1) 2 (ESum (0 + z) 0 (ESum (1 + z) 0 (ESum (2 + z) 1 (EMul (b_aa_oovv (3 + z) (0 + z) (1 + z) e (2 + z)) (ET 13 [a; (2 + z); (0 + z); (1 + z)])))))) (ESum (0 + z) 0 (ESum (1 + z) 0 (ESum (2 + z) 1 (EMul (b_ab_oovv (3 + z) (0 + z) (1 + z) e (2 + z)) (ET 14 [a; (2 + z); (0 + z); (1 + z)]))))))).
Definition r_cg_bt1 (z x : nat) : ex := (EAdd (ESum (0 + z) 0 (ESum (1 + z) 1 (EMul (ET 1 [x; (0 + z); (1 + z)]) (ET 9 [(1 + z); (0 + z)])))) (ESum (0 + z) 0 (ESum (1 + z) 1 (EMul (ET 5 [x; (0 + z); (1 + z)]) (ET 10 [(1 + z); (0 + z)]))))).
Definition r_cg_bxt1 (z x f e : nat) : ex := (EOpp (ESum (0 + z) 0 (EMul (ET 1 [x; (0 + z); e]) (ET 9 [f; (0 + z)])))).
Definition r_cg_X_a_vv_1 (z a e : nat) : ex := (EAdd (r_cg_X_a_vv (0 + z) a e) (EAdd (ESum (0 + z) 4 (EMul (ET 3 [(0 + z); a; e]) (r_cg_bt1 (1 + z) (0 + z)))) (ESum (0 + z) 4 (ESum (1 + z) 1 (EMul (ET 3 [(0 + z); a; (1 + z)]) (r_cg_bxt1 (2 + z) (0 + z) (1 + z) e)))))).
Definition r_cg_X_a_oo (z m i : nat) : ex := (EAdd (ET 15 [m; i]) (EAdd (EAdd (EAdd (EAdd (ESum (0 + z) 0 (ESum (1 + z) 1 (EMul (b_aa_ooov (2 + z) m (0 + z) i (1 + z)) (ET 9 [(1 + z); (0 + z)])))) (ESum (0 + z) 0 (ESum (1 + z) 1 (EMul (b_ab_ooov (2 + z) m (0 + z) i (1 + z)) (ET 10 [(1 + z); (0 + z)]))))) (ESum (0 + z) 1 (EMul (r_cg_X_a_ov (1 + z) m (0 + z)) (ET 9 [(0 + z); i])))) (EScale (1) 2 (ESum (0 + z) 0 (ESum (1 + z) 1 (ESum (2 + z) 1 (EMul (b_aa_oovv (3 + z) m (0 + z) (1 + z) (2 + z)) (ET 13 [(1 + z); (2 + z); i; (0 + z)]))))))) (ESum (0 + z) 0 (ESum (1 + z) 1 (ESum (2 + z) 1 (EMul (b_ab_oovv (3 + z) m (0 + z) (1 + z) (2 + z)) (ET 14 [(1 + z); (2 + z); i; (0 + z)]))))))).
Definition r_cg_X_b_ov (z m e : nat) : ex := (r_cg_X_a_ov (0 + z) m e).
Definition r_cg_X_b_oo (z m i : nat) : ex := (r_cg_X_a_oo (0 + z) m i).
Definition r_cg_X_b_vv (z a e : nat) : ex := (r_cg_X_a_vv_1 (0 + z) a e).
Definition r_cg_dT_a (z a i : nat) : ex := (EOpp (ESum (0 + z) 0 (EMul (r_cg_X_a_oo (1 + z) (0 + z) i) (ET 9 [a; (0 + z)])))).
Definition r_cg_dT_a_1 (z a i : nat) : ex := (EAdd (r_cg_dT_a (0 + z) a i) (ESum (0 + z) 1 (EMul (r_cg_X_a_vv_1 (1 + z) a (0 + z)) (ET 9 [(0 + z); i])))).
Definition r_cg_dT_a_2 (z a i : nat) : ex := (EAdd (r_cg_dT_a_1 (0 + z) a i) (ESum (0 + z) 0 (ESum (1 + z) 1 (EMul (r_cg_X_a_ov (2 + z) (0 + z) (1 + z)) (ET 13 [a; (1 + z); i; (0 + z)]))))).
Definition r_cg_dT_a_3 (z a i : nat) : ex := (EAdd (r_cg_dT_a_2 (0 + z) a i) (ESum (0 + z) 0 (ESum (1 + z) 1 (EMul (r_cg_X_b_ov (2 + z) (0 + z) (1 + z)) (ET 14 [a; (1 + z); i; (0 + z)]))))).
Definition r_cg_dT_a_4 (z a i : nat) : ex := (EAdd (r_cg_dT_a_3 (0 + z) a i) (ESum (0 + z) 0 (ESum (1 + z) 1 (EMul (b_aa_voov (2 + z) a (0 + z) i (1 + z)) (ET 9 [(1 + z); (0 + z)]))))).
Definition r_cg_dT_a_5 (z a i : nat) : ex := (EAdd (r_cg_dT_a_4 (0 + z) a i) (ESum (0 + z) 0 (ESum (1 + z) 1 (EMul (b_ab_voov (2 + z) a (0 + z) i (1 + z)) (ET 10 [(1 + z); (0 + z)]))))).
Definition r_cg_dT_a_6 (z a i : nat) : ex := (ESub (r_cg_dT_a_5 (0 + z) a i) (EScale (1) 2 (ESum (0 + z) 0 (ESum (1 + z) 0 (ESum (2 + z) 1 (EMul (b_aa_ooov (3 + z) (0 + z) (1 + z) i (2 + z)) (ET 13 [a; (2 + z); (0 + z); (1 + z)]))))))).
Definition r_cg_dT_a_7 (z a i : nat) : ex := (ESub (r_cg_dT_a_6 (0 + z) a i) (ESum (0 + z) 0 (ESum (1 + z) 0 (ESum (2 + z) 1 (EMul (b_ab_ooov (3 + z) (0 + z) (1 + z) i (2 + z)) (ET 14 [a; (2 + z); (0 + z); (1 + z)])))))).
Definition r_cg_b_vo (z x e i : nat) : ex := (EAdd (ESub (EScale (1) 2 (ESum (0 + z) 0 (ESum (1 + z) 1 (EMul (ET 1 [x; (0 + z); (1 + z)]) (ET 13 [e; (1 + z); i; (0 + z)]))))) (EScale (1) 2 (ESum (0 + z) 0 (ESum (1 + z) 1 (EMul (ET 1 [x; (0 + z); (1 + z)]) (ET 13 [(1 + z); e; i; (0 + z)])))))) (ESum (0 + z) 0 (ESum (1 + z) 1 (EMul (ET 5 [x; (0 + z); (1 + z)]) (ET 14 [e; (1 + z); i; (0 + z)]))))).
Definition r_cg_dT_a_8 (z a i : nat) : ex := (EAdd (r_cg_dT_a_7 (0 + z) a i) (ESum (0 + z) 4 (ESum (1 + z) 1 (EMul (ET 3 [(0 + z); a; (1 + z)]) (r_cg_b_vo (2 + z) (0 + z) (1 + z) i))))).
Definition r_cg_res_a (z a i : nat) : ex := (EAdd (r_cg_dT_a_8 (0 + z) a i) (ET 19 [a; i])).
Definition r_cg_T_b (z a i : nat) : ex := (ET 9 [a; i]).
Definition r_cg_dT_b (z a i : nat) : ex := (r_cg_res_a (0 + z) a i).
Definition r_cg_X_a_vv_2 (z a e : nat) : ex := (ESub (r_cg_X_a_vv_1 (0 + z) a e) (ESum (0 + z) 0 (EMul (r_cg_X_a_ov (1 + z) (0 + z) e) (ET 9 [a; (0 + z)])))).
Definition r_cg_X_b_vv_1 (z a e : nat) : ex := (r_cg_X_a_vv_2 (0 + z) a e).
Definition r_cg_X_chol_a_ov (z a i b : nat) : ex := (ET 1 [a; i; b]).
Definition r_cg_X_chol_a_oo (z x m i : nat) : ex := (EAdd (ET 0 [x; m; i]) (ESum (0 + z) 1 (EMul (r_cg_X_chol_a_ov (1 + z) x m (0 + z)) (ET 9 [(0 + z); i])))).
Definition r_cg_X_chol_a_vv (z x a e : nat) : ex := (ESub (ET 3 [x; a; e]) (ESum (0 + z) 0 (EMul (r_cg_X_chol_a_ov (1 + z) x (0 + z) e) (ET 9 [a; (0 + z)])))).
Definition r_cg_X_chol_a_vo (z x a i : nat) : ex := (EAdd (EAdd (ESub (ET 2 [x; a; i]) (ESum (0 + z) 0 (EMul (r_cg_X_chol_a_oo (1 + z) x (0 + z) i) (ET 9 [a; (0 + z)])))) (ESum (0 + z) 1 (EMul (r_cg_X_chol_a_vv (1 + z) x a (0 + z)) (ET 9 [(0 + z); i])))) (ESum (0 + z) 0 (ESum (1 + z) 1 (EMul (EMul (r_cg_X_chol_a_ov (2 + z) x (0 + z) (1 + z)) (ET 9 [(1 + z); i])) (ET 9 [a; (0 + z)]))))).
Definition r_cg_X_chol_b_ov (z a i b : nat) : ex := (r_cg_X_chol_a_ov (0 + z) a i b).
Definition r_cg_X_chol_b_oo (z x m i : nat) : ex := (r_cg_X_chol_a_oo (0 + z) x m i).
Definition r_cg_X_chol_b_vv (z x a e : nat) : ex := (r_cg_X_chol_a_vv (0 + z) x a e).
Definition r_cg_X_chol_b_vo (z x a i : nat) : ex := (r_cg_X_chol_a_vo (0 + z) x a i).
Definition r_cg_h2a_oooo (z m n i j : nat) : ex := (EAdd (ESub (ESum (0 + z) 4 (EMul (r_cg_X_chol_a_oo (1 + z) (0 + z) m i) (r_cg_X_chol_a_oo (2 + z) (0 + z) n j))) (ESum (0 + z) 4 (EMul (r_cg_X_chol_a_oo (1 + z) (0 + z) m j) (r_cg_X_chol_a_oo (2 + z) (0 + z) n i)))) (EScale (1) 2 (ESum (0 + z) 1 (ESum (1 + z) 1 (EMul (b_aa_oovv (2 + z) m n (0 + z) (1 + z)) (ET 13 [(0 + z); (1 + z); i; j])))))).
Definition r_cg_h2a_voov (z a m i e : nat) : ex := (EAdd (EAdd (ESub (ESum (0 + z) 4 (EMul (r_cg_X_chol_a_vo (1 + z) (0 + z) a i) (r_cg_X_chol_a_ov (3 + z) (0 + z) m e))) (ESum (0 + z) 4 (EMul (r_cg_X_chol_a_vv (1 + z) (0 + z) a e) (r_cg_X_chol_a_oo (2 + z) (0 + z) m i)))) (EScale (1) 2 (ESum (0 + z) 0 (ESum (1 + z) 1 (EMul (b_aa_oovv (2 + z) m (0 + z) e (1 + z)) (ET 13 [a; (1 + z); i; (0 + z)])))))) (ESum (0 + z) 0 (ESum (1 + z) 1 (EMul (b_ab_oovv (2 + z) m (0 + z) e (1 + z)) (ET 14 [a; (1 + z); i; (0 + z)]))))).
Definition r_cg_h2b_voov (z a m i e : nat) : ex := (EAdd (ESum (0 + z) 4 (EMul (r_cg_X_chol_a_vo (1 + z) (0 + z) a i) (r_cg_X_chol_b_ov (3 + z) (0 + z) m e))) (EScale (1) 2 (ESum (0 + z) 0 (ESum (1 + z) 1 (EMul (b_bb_oovv (2 + z) m (0 + z) e (1 + z)) (ET 14 [a; (1 + z); i; (0 + z)])))))).
Definition r_cg_dT_aa (z a b i j : nat) : ex := (EScale (1) 2 (ESum (0 + z) 4 (EMul (r_cg_X_chol_a_vo (1 + z) (0 + z) a i) (r_cg_X_chol_a_vo (3 + z) (0 + z) b j)))).
Definition r_cg_dT_aa_1 (z a b i j : nat) : ex := (ESub (r_cg_dT_aa (0 + z) a b i j) (EScale (1) 2 (ESum (0 + z) 0 (EMul (r_cg_X_a_oo (1 + z) (0 + z) i) (ET 13 [a; b; (0 + z); j]))))).
Definition r_cg_dT_aa_2 (z a b i j : nat) : ex := (EAdd (r_cg_dT_aa_1 (0 + z) a b i j) (EScale (1) 2 (ESum (0 + z) 1 (EMul (r_cg_X_a_vv_2 (1 + z) a (0 + z)) (ET 13 [(0 + z); b; i; j]))))).
Definition r_cg_dT_aa_3 (z a b i j : nat) : ex := (EAdd (r_cg_dT_aa_2 (0 + z) a b i j) (ESum (0 + z) 0 (ESum (1 + z) 1 (EMul (r_cg_h2a_voov (2 + z) a (0 + z) i (1 + z)) (ET 13 [(1 + z); b; (0 + z); j]))))).
Definition r_cg_dT_aa_4 (z a b i j : nat) : ex := (EAdd (r_cg_dT_aa_3 (0 + z) a b i j) (ESum (0 + z) 0 (ESum (1 + z) 1 (EMul (r_cg_h2b_voov (2 + z) a (0 + z) i (1 + z)) (ET 14 [b; (1 + z); j; (0 + z)]))))).
Definition r_cg_dT_aa_5 (z a b i j : nat) : ex := (EAdd (r_cg_dT_aa_4 (0 + z) a b i j) (EScale (1) 8 (ESum (0 + z) 0 (ESum (1 + z) 0 (EMul (r_cg_h2a_oooo (2 + z) (0 + z) (1 + z) i j) (ET 13 [a; b; (0 + z); (1 + z)])))))).
Definition r_cg_vR (z a b c : nat) : ex := (r_cg_X_chol_a_vv (0 + z) a c b).
Definition r_cg_vT (z i j a b : nat) : ex := (EScale (1) 2 (ET 13 [b; a; j; i])).
Definition r_cg_dT_aa_6 (z a b i j : nat) : ex := (EAdd (r_cg_dT_aa_5 (0 + z) a b i j) (EScale (1) 4 (ESum (0 + z) 1 (ESum (1 + z) 1 (EMul (ESum (2 + z) 4 (ESub (EMul (r_cg_vR (3 + z) (2 + z) (1 + z) b) (r_cg_vR (4 + z) (2 + z) (0 + z) a)) (EMul (r_cg_vR (3 + z) (2 + z) (0 + z) b) (r_cg_vR (4 + z) (2 + z) (1 + z) a)))) (r_cg_vT (5 + z) j i (1 + z) (0 + z))))))).
Definition r_cg_res_aa (z a b i j : nat) : ex := (r_cg_dT_aa_6 (0 + z) a b i j).
Definition r_cg_X_aa_voov (z a m i e : nat) : ex := (EAdd (r_cg_h2a_voov (0 + z) a m i e) (EScale (1) 2 (ESum (0 + z) 0 (ESum (1 + z) 1 (EMul (b_aa_oovv (2 + z) (0 + z) m (1 + z) e) (ET 13 [a; (1 + z); i; (0 + z)])))))).
Definition r_cg_X_ab_voov (z a m i e : nat) : ex := (EAdd (r_cg_h2b_voov (0 + z) a m i e) (EAdd (EScale (1) 2 (ESum (0 + z) 0 (ESum (1 + z) 1 (EMul (b_bb_oovv (2 + z) (0 + z) m (1 + z) e) (ET 14 [a; (1 + z); i; (0 + z)]))))) (ESum (0 + z) 0 (ESum (1 + z) 1 (EMul (b_ab_oovv (2 + z) (0 + z) m (1 + z) e) (ET 13 [a; (1 + z); i; (0 + z)])))))).
Definition r_cg_h2b_oooo (z m n i j : nat) : ex := (EAdd (ESum (0 + z) 4 (EMul (r_cg_X_chol_a_oo (1 + z) (0 + z) m i) (r_cg_X_chol_b_oo (2 + z) (0 + z) n j))) (ESum (0 + z) 1 (ESum (1 + z) 1 (EMul (b_ab_oovv (2 + z) m n (0 + z) (1 + z)) (ET 14 [(0 + z); (1 + z); i; j]))))).
Definition r_cg_h2b_ovvo (z m a e i : nat) : ex := (ESum (0 + z) 4 (EMul (r_cg_X_chol_a_ov (1 + z) (0 + z) m e) (r_cg_X_chol_b_vo (1 + z) (0 + z) a i))).
Definition r_cg_h2b_vovo (z a m e i : nat) : ex := (ESub (ESum (0 + z) 4 (EMul (r_cg_X_chol_a_vv (1 + z) (0 + z) a e) (r_cg_X_chol_b_oo (2 + z) (0 + z) m i))) (ESum (0 + z) 0 (ESum (1 + z) 1 (EMul (b_ab_oovv (2 + z) (0 + z) m e (1 + z)) (ET 14 [a; (1 + z); (0 + z); i]))))).
Definition r_cg_h2b_ovov (z m b j e : nat) : ex := (ESum (0 + z) 4 (EMul (r_cg_X_chol_a_oo (1 + z) (0 + z) m j) (r_cg_X_chol_b_vv (2 + z) (0 + z) b e))).
Definition r_cg_h2c_voov (z a m i e : nat) : ex := (ESub (ESum (0 + z) 4 (EMul (r_cg_X_chol_b_vo (1 + z) (0 + z) a i) (r_cg_X_chol_b_ov (3 + z) (0 + z) m e))) (ESum (0 + z) 4 (EMul (r_cg_X_chol_b_vv (1 + z) (0 + z) a e) (r_cg_X_chol_b_oo (2 + z) (0 + z) m i)))).
Definition r_cg_dT_ab (z a b i j : nat) : ex := (ESum (0 + z) 4 (EMul (r_cg_X_chol_a_vo (1 + z) (0 + z) a i) (r_cg_X_chol_b_vo (3 + z) (0 + z) b j))).
Definition r_cg_dT_ab_1 (z a b i j : nat) : ex := (EAdd (r_cg_dT_ab (0 + z) a b i j) (ESum (0 + z) 1 (EMul (r_cg_X_a_vv_2 (1 + z) a (0 + z)) (ET 14 [(0 + z); b; i; j])))).
Definition r_cg_dT_ab_2 (z a b i j : nat) : ex := (EAdd (r_cg_dT_ab_1 (0 + z) a b i j) (ESum (0 + z) 1 (EMul (r_cg_X_b_vv_1 (1 + z) b (0 + z)) (ET 14 [a; (0 + z); i; j])))).
Definition r_cg_dT_ab_3 (z a b i j : nat) : ex := (ESub (r_cg_dT_ab_2 (0 + z) a b i j) (ESum (0 + z) 0 (EMul (r_cg_X_a_oo (1 + z) (0 + z) i) (ET 14 [a; b; (0 + z); j])))).
Definition r_cg_dT_ab_4 (z a b i j : nat) : ex := (ESub (r_cg_dT_ab_3 (0 + z) a b i j) (ESum (0 + z) 0 (EMul (r_cg_X_b_oo (1 + z) (0 + z) j) (ET 14 [a; b; i; (0 + z)])))).
Definition r_cg_dT_ab_5 (z a b i j : nat) : ex := (EAdd (r_cg_dT_ab_4 (0 + z) a b i j) (ESum (0 + z) 0 (ESum (1 + z) 1 (EMul (r_cg_X_aa_voov (2 + z) a (0 + z) i (1 + z)) (ET 14 [(1 + z); b; (0 + z); j]))))).
Definition r_cg_dT_ab_6 (z a b i j : nat) : ex := (EAdd (r_cg_dT_ab_5 (0 + z) a b i j) (ESum (0 + z) 0 (ESum (1 + z) 1 (EMul (r_cg_X_ab_voov (2 + z) a (0 + z) i (1 + z)) (ET 17 [(1 + z); b; (0 + z); j]))))).
Definition r_cg_dT_ab_7 (z a b i j : nat) : ex := (EAdd (r_cg_dT_ab_6 (0 + z) a b i j) (ESum (0 + z) 0 (ESum (1 + z) 1 (EMul (r_cg_h2b_ovvo (2 + z) (0 + z) b (1 + z) j) (ET 13 [a; (1 + z); i; (0 + z)]))))).
Definition r_cg_dT_ab_8 (z a b i j : nat) : ex := (EAdd (r_cg_dT_ab_7 (0 + z) a b i j) (ESum (0 + z) 0 (ESum (1 + z) 1 (EMul (r_cg_h2c_voov (2 + z) b (0 + z) j (1 + z)) (ET 14 [a; (1 + z); i; (0 + z)]))))).
Definition r_cg_dT_ab_9 (z a b i j : nat) : ex := (ESub (r_cg_dT_ab_8 (0 + z) a b i j) (ESum (0 + z) 0 (ESum (1 + z) 1 (EMul (r_cg_h2b_ovov (2 + z) (0 + z) b i (1 + z)) (ET 14 [a; (1 + z); (0 + z); j]))))).
Definition r_cg_dT_ab_10 (z a b i j : nat) : ex := (ESub (r_cg_dT_ab_9 (0 + z) a b i j) (ESum (0 + z) 0 (ESum (1 + z) 1 (EMul (r_cg_h2b_vovo (2 + z) a (0 + z) (1 + z) j) (ET 14 [(1 + z); b; i; (0 + z)]))))).
Definition r_cg_dT_ab_11 (z a b i j : nat) : ex := (EAdd (r_cg_dT_ab_10 (0 + z) a b i j) (ESum (0 + z) 0 (ESum (1 + z) 0 (EMul (r_cg_h2b_oooo (2 + z) (0 + z) (1 + z) i j) (ET 14 [a; b; (0 + z); (1 + z)]))))).
Definition r_cg_vRa (z a b c : nat) : ex := (r_cg_X_chol_a_vv (0 + z) a c b).
Definition r_cg_vRb (z a b c : nat) : ex := (r_cg_X_chol_b_vv (0 + z) a c b).
Definition r_cg_vT_1 (z i j a b : nat) : ex := (ET 14 [b; a; j; i]).
Definition r_cg_dT_ab_12 (z a b i j : nat) : ex := (EAdd (r_cg_dT_ab_11 (0 + z) a b i j) (ESum (0 + z) 1 (ESum (1 + z) 1 (EMul (ESum (2 + z) 4 (EMul (r_cg_vRb (3 + z) (2 + z) (1 + z) b) (r_cg_vRa (4 + z) (2 + z) (0 + z) a))) (r_cg_vT_1 (5 + z) j i (1 + z) (0 + z)))))).
Definition r_cg_res_ab (z a b i j : nat) : ex := (r_cg_dT_ab_12 (0 + z) a b i j).
Definition r_cg_T_bb (z a b i j : nat) : ex := (ET 13 [a; b; i; j]).
Definition r_cg_dT_bb (z a b i j : nat) : ex := (r_cg_res_aa (0 + z) a b i j).
Definition r_ccsd_four_aa (z a b i j : nat) : ex := (EAdd (ESub (ESub (r_ccsd_res_aa (0 + z) a b i j) (r_ccsd_res_aa (0 + z) b a i j)) (r_ccsd_res_aa (0 + z) a b j i)) (r_ccsd_res_aa (0 + z) b a j i)).
Definition r_ccsd_four_bb (z a b i j : nat) : ex := (EAdd (ESub (ESub (r_ccsd_res_bb (0 + z) a b i j) (r_ccsd_res_bb (0 + z) b a i j)) (r_ccsd_res_bb (0 + z) a b j i)) (r_ccsd_res_bb (0 + z) b a j i)).
Definition r_cf_four_aa (z a b i j : nat) : ex := (EAdd (ESub (ESub (r_cf_res_aa (0 + z) a b i j) (r_cf_res_aa (0 + z) b a i j)) (r_cf_res_aa (0 + z) a b j i)) (r_cf_res_aa (0 + z) b a j i)).
Definition r_cf_four_bb (z a b i j : nat) : ex := (EAdd (ESub (ESub (r_cf_res_bb (0 + z) a b i j) (r_cf_res_bb (0 + z) b a i j)) (r_cf_res_bb (0 + z) a b j i)) (r_cf_res_bb (0 + z) b a j i)).
Definition r_cg_four_aa (z a b i j : nat) : ex := (EAdd (ESub (ESub (r_cg_res_aa (0 + z) a b i j) (r_cg_res_aa (0 + z) b a i j)) (r_cg_res_aa (0 + z) a b j i)) (r_cg_res_aa (0 + z) b a j i)).
Definition chl_arrays (d : dims) (nx : nat) (C : chol) (H : ints) (T : amps) := [ap3 (c_a_oo C);
  ap3 (c_a_ov C);
  ap3 (c_a_vo C);
  ap3 (c_a_vv C);
  ap3 (c_b_oo C);
  ap3 (c_b_ov C);
  ap3 (c_b_vo C);
  ap3 (c_b_vv C);
  ap2 (i_a_ov H);
  ap2 (x_a T);
  ap2 (x_b T);
  ap2 (i_b_ov H);
  ap2 (i_a_vv H);
  ap4 (x_aa T);
  ap4 (x_ab T);
  ap2 (i_a_oo H);
  ap2 (i_b_vv H);
  ap4 (x_bb T);
  ap2 (i_b_oo H);
  ap2 (i_a_vo H);
  ap2 (i_b_vo H)].
Definition chl_gens : list (nat * (nat * list nat * bool)) := [(13, (13, [1; 0; 2; 3], false));
  (13, (13, [0; 1; 3; 2], false));
  (17, (17, [1; 0; 2; 3], false));
  (17, (17, [0; 1; 3; 2], false))].
Definition chl_tab := Eval vm_compute in symtab chl_gens 21.
Definition chc_arrays (d : dims) (nx : nat) (C : chol) (H : ints) (T : amps) := [ap3 (c_a_oo C);
  ap3 (c_a_ov C);
  ap3 (c_a_vo C);
  ap3 (c_a_vv C);
  ap3 (c_b_oo C);
  ap3 (c_b_ov C);
  ap3 (c_b_vo C);
  ap3 (c_b_vv C);
  ap2 (i_a_ov H);
  ap2 (x_a T);
  ap2 (x_b T);
  ap2 (i_b_ov H);
  ap2 (i_a_vv H);
  ap4 (x_aa T);
  ap4 (x_ab T);
  ap2 (i_a_oo H);
  ap2 (i_b_vv H);
  ap4 (x_bb T);
  ap2 (i_b_oo H);
  ap2 (i_a_vo H);
  ap2 (i_b_vo H)].
Definition chc_gens : list (nat * (nat * list nat * bool)) := [(4, (0, [0; 1; 2], true));
  (5, (1, [0; 1; 2], true));
  (6, (2, [0; 1; 2], true));
  (7, (3, [0; 1; 2], true));
  (10, (9, [0; 1], true));
  (11, (8, [0; 1], true));
  (13, (13, [1; 0; 2; 3], false));
  (13, (13, [0; 1; 3; 2], false));
  (14, (14, [1; 0; 3; 2], true));
  (16, (12, [0; 1], true));
  (17, (17, [1; 0; 2; 3], false));
  (17, (17, [0; 1; 3; 2], false));
  (17, (13, [0; 1; 2; 3], true));
  (18, (15, [0; 1], true));
  (20, (19, [0; 1], true))].
Definition chc_tab := Eval vm_compute in symtab chc_gens 21.
Definition e_ccsd_a : ex := r_ccsd_res_a 2 0 1.
Definition e_ccsd_b : ex := r_ccsd_res_b 2 0 1.
Definition e_ccsd_aa : ex := r_ccsd_four_aa 4 0 1 2 3.
Definition e_ccsd_ab : ex := r_ccsd_res_ab 4 0 1 2 3.
Definition e_ccsd_bb : ex := r_ccsd_four_bb 4 0 1 2 3.
Definition e_cf_a : ex := r_cf_res_a 2 0 1.
Definition e_cf_b : ex := r_cf_res_b 2 0 1.
Definition e_cf_aa : ex := r_cf_four_aa 4 0 1 2 3.
Definition e_cf_ab : ex := r_cf_res_ab 4 0 1 2 3.
Definition e_cf_bb : ex := r_cf_four_bb 4 0 1 2 3.
Definition e_cg_a : ex := r_cg_res_a 2 0 1.
Definition e_cg_aa : ex := r_cg_four_aa 4 0 1 2 3.
Definition e_cg_ab : ex := r_cg_res_ab 4 0 1 2 3.
