(** Generated by tools/gen_chol.py from the text of /repo.  Models ccpy/cc/ccsd_chol.py (update, update_t1a .. update_t2c; flag_RHF = False: ch_, True: cr_).
    Exact reals; an array is a function read below its dimensions; memory order is left out.  H holds the blocks of getCholeskyHamiltonian (the generator
    refuses a read of a block that routine leaves at None), C the Cholesky vectors H.chol, nx their number; T the amplitudes when update is entered, U the
    amplitudes at the time of use, once they have been updated.  ch_res_* are the arrays handed to the Fortran update loops. *)
From Coq Require Import Reals Arith List.
From Verif Require Import RSum IntegralsModel TensorObjs CholLoops.
Open Scope R_scope.
(** ccpy/cc/ccsd_chol.py, update, lines 13-16 *)
Definition ch_X_a_ov (d : dims) (nx : nat) (C : chol) (H : ints) (T U : amps) : mat2 := fun m e =>
  i_a_ov H m e + (sumn (noa d) (fun n => sumn (nua d) (fun f => (i_aa_oovv H m n e f) * (x_a T f n))) + sumn (nob d) (fun n => sumn (nub d) (fun f => (i_ab_oovv H m n e f) * (x_b T f n)))).
(** ccpy/cc/ccsd_chol.py, update, lines 17-20 *)
Definition ch_X_a_vv (d : dims) (nx : nat) (C : chol) (H : ints) (T U : amps) : mat2 := fun a e =>
  i_a_vv H a e + ((-1) / 2 * (sumn (noa d) (fun m => sumn (noa d) (fun n => sumn (nua d) (fun f => (i_aa_oovv H m n e f) * (x_aa T a f m n))))) - sumn (noa d) (fun m => sumn (nob d) (fun n => sumn (nub d) (fun f => (i_ab_oovv H m n e f) * (x_ab T a f m n))))).
(** ccpy/cc/ccsd_chol.py, update, lines 21-24 *)
Definition ch_bt1 (d : dims) (nx : nat) (C : chol) (H : ints) (T U : amps) : mat1 := fun x =>
  sumn (noa d) (fun n => sumn (nua d) (fun f => (c_a_ov C x n f) * (x_a T f n))) + sumn (nob d) (fun n => sumn (nub d) (fun f => (c_b_ov C x n f) * (x_b T f n))).
(** ccpy/cc/ccsd_chol.py, update, line 25 *)
Definition ch_bxt1 (d : dims) (nx : nat) (C : chol) (H : ints) (T U : amps) : mat3 := fun x f e =>
  (- (sumn (noa d) (fun n => (c_a_ov C x n e) * (x_a T f n)))).
(** ccpy/cc/ccsd_chol.py, update, lines 26-29 *)
Definition ch_X_a_vv_1 (d : dims) (nx : nat) (C : chol) (H : ints) (T U : amps) : mat2 := fun a e =>
  ch_X_a_vv d nx C H T U a e + (sumn nx (fun x => (c_a_vv C x a e) * (ch_bt1 d nx C H T U x)) + sumn nx (fun x => sumn (nua d) (fun f => (c_a_vv C x a f) * (ch_bxt1 d nx C H T U x f e)))).
(** ccpy/cc/ccsd_chol.py, update, lines 30-36 *)
Definition ch_X_a_oo (d : dims) (nx : nat) (C : chol) (H : ints) (T U : amps) : mat2 := fun m i =>
  i_a_oo H m i + (sumn (noa d) (fun n => sumn (nua d) (fun f => (i_aa_ooov H m n i f) * (x_a T f n))) + sumn (nob d) (fun n => sumn (nub d) (fun f => (i_ab_ooov H m n i f) * (x_b T f n))) + sumn (nua d) (fun e => (ch_X_a_ov d nx C H T U m e) * (x_a T e i)) + 1 / 2 * (sumn (noa d) (fun n => sumn (nua d) (fun e => sumn (nua d) (fun f => (i_aa_oovv H m n e f) * (x_aa T e f i n))))) + sumn (nob d) (fun n => sumn (nua d) (fun e => sumn (nub d) (fun f => (i_ab_oovv H m n e f) * (x_ab T e f i n))))).
(** ccpy/cc/ccsd_chol.py, update, lines 42-45 *)
Definition ch_X_b_ov (d : dims) (nx : nat) (C : chol) (H : ints) (T U : amps) : mat2 := fun m e =>
  i_b_ov H m e + (sumn (noa d) (fun n => sumn (nua d) (fun f => (i_ab_oovv H n m f e) * (x_a T f n))) + sumn (nob d) (fun n => sumn (nub d) (fun f => (i_bb_oovv H m n e f) * (x_b T f n)))).
(** ccpy/cc/ccsd_chol.py, update, lines 46-49 *)
Definition ch_X_b_vv (d : dims) (nx : nat) (C : chol) (H : ints) (T U : amps) : mat2 := fun a e =>
  i_b_vv H a e + ((-1) / 2 * (sumn (nob d) (fun m => sumn (nob d) (fun n => sumn (nub d) (fun f => (i_bb_oovv H m n e f) * (x_bb T a f m n))))) - sumn (noa d) (fun n => sumn (nob d) (fun m => sumn (nua d) (fun f => (i_ab_oovv H n m f e) * (x_ab T f a n m))))).
(** ccpy/cc/ccsd_chol.py, update, lines 50-53 *)
Definition ch_bt1_1 (d : dims) (nx : nat) (C : chol) (H : ints) (T U : amps) : mat1 := fun x =>
  sumn (nob d) (fun n => sumn (nub d) (fun f => (c_b_ov C x n f) * (x_b T f n))) + sumn (noa d) (fun n => sumn (nua d) (fun f => (c_a_ov C x n f) * (x_a T f n))).
(** ccpy/cc/ccsd_chol.py, update, line 54 *)
Definition ch_bxt1_1 (d : dims) (nx : nat) (C : chol) (H : ints) (T U : amps) : mat3 := fun x f e =>
  (- (sumn (nob d) (fun n => (c_b_ov C x n e) * (x_b T f n)))).
(** ccpy/cc/ccsd_chol.py, update, lines 55-58 *)
Definition ch_X_b_vv_1 (d : dims) (nx : nat) (C : chol) (H : ints) (T U : amps) : mat2 := fun a e =>
  ch_X_b_vv d nx C H T U a e + (sumn nx (fun x => (c_b_vv C x a e) * (ch_bt1_1 d nx C H T U x)) + sumn nx (fun x => sumn (nub d) (fun f => (c_b_vv C x a f) * (ch_bxt1_1 d nx C H T U x f e)))).
(** ccpy/cc/ccsd_chol.py, update, lines 59-65 *)
Definition ch_X_b_oo (d : dims) (nx : nat) (C : chol) (H : ints) (T U : amps) : mat2 := fun m i =>
  i_b_oo H m i + (sumn (nob d) (fun n => sumn (nub d) (fun f => (i_bb_ooov H m n i f) * (x_b T f n))) + sumn (noa d) (fun n => sumn (nua d) (fun f => (i_ab_oovo H n m f i) * (x_a T f n))) + sumn (nub d) (fun e => (ch_X_b_ov d nx C H T U m e) * (x_b T e i)) + 1 / 2 * (sumn (nob d) (fun n => sumn (nub d) (fun e => sumn (nub d) (fun f => (i_bb_oovv H m n e f) * (x_bb T e f i n))))) + sumn (noa d) (fun n => sumn (nua d) (fun f => sumn (nub d) (fun e => (i_ab_oovv H n m f e) * (x_ab T f e n i))))).
(** ccpy/cc/ccsd_chol.py, update_t1a, line 122 *)
Definition ch_dT_a (d : dims) (nx : nat) (C : chol) (H : ints) (T U : amps) : mat2 := fun a i =>
  (- (sumn (noa d) (fun m => (ch_X_a_oo d nx C H T U m i) * (x_a T a m)))).
(** ccpy/cc/ccsd_chol.py, update_t1a, line 123 *)
Definition ch_dT_a_1 (d : dims) (nx : nat) (C : chol) (H : ints) (T U : amps) : mat2 := fun a i =>
  ch_dT_a d nx C H T U a i + sumn (nua d) (fun e => (ch_X_a_vv_1 d nx C H T U a e) * (x_a T e i)).
(** ccpy/cc/ccsd_chol.py, update_t1a, line 124 *)
Definition ch_dT_a_2 (d : dims) (nx : nat) (C : chol) (H : ints) (T U : amps) : mat2 := fun a i =>
  ch_dT_a_1 d nx C H T U a i + sumn (noa d) (fun m => sumn (nua d) (fun e => (ch_X_a_ov d nx C H T U m e) * (x_aa T a e i m))).
(** ccpy/cc/ccsd_chol.py, update_t1a, line 125 *)
Definition ch_dT_a_3 (d : dims) (nx : nat) (C : chol) (H : ints) (T U : amps) : mat2 := fun a i =>
  ch_dT_a_2 d nx C H T U a i + sumn (nob d) (fun m => sumn (nub d) (fun e => (ch_X_b_ov d nx C H T U m e) * (x_ab T a e i m))).
(** ccpy/cc/ccsd_chol.py, update_t1a, line 126 *)
Definition ch_dT_a_4 (d : dims) (nx : nat) (C : chol) (H : ints) (T U : amps) : mat2 := fun a i =>
  ch_dT_a_3 d nx C H T U a i + sumn (noa d) (fun n => sumn (nua d) (fun f => (i_aa_voov H a n i f) * (x_a T f n))).
(** ccpy/cc/ccsd_chol.py, update_t1a, line 127 *)
Definition ch_dT_a_5 (d : dims) (nx : nat) (C : chol) (H : ints) (T U : amps) : mat2 := fun a i =>
  ch_dT_a_4 d nx C H T U a i + sumn (nob d) (fun n => sumn (nub d) (fun f => (i_ab_voov H a n i f) * (x_b T f n))).
(** ccpy/cc/ccsd_chol.py, update_t1a, line 128 *)
Definition ch_dT_a_6 (d : dims) (nx : nat) (C : chol) (H : ints) (T U : amps) : mat2 := fun a i =>
  ch_dT_a_5 d nx C H T U a i - 1 / 2 * (sumn (noa d) (fun m => sumn (noa d) (fun n => sumn (nua d) (fun f => (i_aa_ooov H m n i f) * (x_aa T a f m n))))).
(** ccpy/cc/ccsd_chol.py, update_t1a, line 129 *)
Definition ch_dT_a_7 (d : dims) (nx : nat) (C : chol) (H : ints) (T U : amps) : mat2 := fun a i =>
  ch_dT_a_6 d nx C H T U a i - sumn (noa d) (fun m => sumn (nob d) (fun n => sumn (nub d) (fun f => (i_ab_ooov H m n i f) * (x_ab T a f m n)))).
(** ccpy/cc/ccsd_chol.py, update_t1a, lines 131-135 *)
Definition ch_b_vo (d : dims) (nx : nat) (C : chol) (H : ints) (T U : amps) : mat3 := fun x e i =>
  1 / 2 * (sumn (noa d) (fun m => sumn (nua d) (fun f => (c_a_ov C x m f) * (x_aa T e f i m)))) - 1 / 2 * (sumn (noa d) (fun m => sumn (nua d) (fun e' => (c_a_ov C x m e') * (x_aa T e' e i m)))) + sumn (nob d) (fun n => sumn (nub d) (fun f => (c_b_ov C x n f) * (x_ab T e f i n))).
(** ccpy/cc/ccsd_chol.py, update_t1a, line 136 *)
Definition ch_dT_a_8 (d : dims) (nx : nat) (C : chol) (H : ints) (T U : amps) : mat2 := fun a i =>
  ch_dT_a_7 d nx C H T U a i + sumn nx (fun x => sumn (nua d) (fun e => (c_a_vv C x a e) * (ch_b_vo d nx C H T U x e i))).
(** ccpy/cc/ccsd_chol.py, update_t1a, lines 138-140 *)
Definition ch_res_a (d : dims) (nx : nat) (C : chol) (H : ints) (T U : amps) : mat2 := fun a i =>
  ch_dT_a_8 d nx C H T U a i + i_a_vo H a i.
(** ccpy/cc/ccsd_chol.py, update_t1b, line 148 *)
Definition ch_dT_b (d : dims) (nx : nat) (C : chol) (H : ints) (T U : amps) : mat2 := fun a i =>
  (- (sumn (nob d) (fun m => (ch_X_b_oo d nx C H T U m i) * (x_b T a m)))).
(** ccpy/cc/ccsd_chol.py, update_t1b, line 149 *)
Definition ch_dT_b_1 (d : dims) (nx : nat) (C : chol) (H : ints) (T U : amps) : mat2 := fun a i =>
  ch_dT_b d nx C H T U a i + sumn (nub d) (fun e => (ch_X_b_vv_1 d nx C H T U a e) * (x_b T e i)).
(** ccpy/cc/ccsd_chol.py, update_t1b, line 150 *)
Definition ch_dT_b_2 (d : dims) (nx : nat) (C : chol) (H : ints) (T U : amps) : mat2 := fun a i =>
  ch_dT_b_1 d nx C H T U a i + sumn (nob d) (fun n => sumn (nub d) (fun f => (i_bb_voov H a n i f) * (x_b T f n))).
(** ccpy/cc/ccsd_chol.py, update_t1b, line 151 *)
Definition ch_dT_b_3 (d : dims) (nx : nat) (C : chol) (H : ints) (T U : amps) : mat2 := fun a i =>
  ch_dT_b_2 d nx C H T U a i + sumn (noa d) (fun n => sumn (nua d) (fun f => (i_ab_ovvo H n a f i) * (x_a U f n))).
(** ccpy/cc/ccsd_chol.py, update_t1b, line 152 *)
Definition ch_dT_b_4 (d : dims) (nx : nat) (C : chol) (H : ints) (T U : amps) : mat2 := fun a i =>
  ch_dT_b_3 d nx C H T U a i + sumn (noa d) (fun m => sumn (nua d) (fun e => (ch_X_a_ov d nx C H T U m e) * (x_ab T e a m i))).
(** ccpy/cc/ccsd_chol.py, update_t1b, line 153 *)
Definition ch_dT_b_5 (d : dims) (nx : nat) (C : chol) (H : ints) (T U : amps) : mat2 := fun a i =>
  ch_dT_b_4 d nx C H T U a i + sumn (nob d) (fun m => sumn (nub d) (fun e => (ch_X_b_ov d nx C H T U m e) * (x_bb T a e i m))).
(** ccpy/cc/ccsd_chol.py, update_t1b, line 154 *)
Definition ch_dT_b_6 (d : dims) (nx : nat) (C : chol) (H : ints) (T U : amps) : mat2 := fun a i =>
  ch_dT_b_5 d nx C H T U a i - 1 / 2 * (sumn (nob d) (fun m => sumn (nob d) (fun n => sumn (nub d) (fun f => (i_bb_ooov H m n i f) * (x_bb T a f m n))))).
(** ccpy/cc/ccsd_chol.py, update_t1b, line 155 *)
Definition ch_dT_b_7 (d : dims) (nx : nat) (C : chol) (H : ints) (T U : amps) : mat2 := fun a i =>
  ch_dT_b_6 d nx C H T U a i - sumn (noa d) (fun n => sumn (nob d) (fun m => sumn (nua d) (fun f => (i_ab_oovo H n m f i) * (x_ab T f a n m)))).
(** ccpy/cc/ccsd_chol.py, update_t1b, lines 157-161 *)
Definition ch_b_vo_1 (d : dims) (nx : nat) (C : chol) (H : ints) (T U : amps) : mat3 := fun x e i =>
  1 / 2 * (sumn (nob d) (fun n => sumn (nub d) (fun f => (c_b_ov C x n f) * (x_bb T e f i n)))) - 1 / 2 * (sumn (nob d) (fun n => sumn (nub d) (fun e' => (c_b_ov C x n e') * (x_bb T e' e i n)))) + sumn (noa d) (fun n => sumn (nua d) (fun f => (c_a_ov C x n f) * (x_ab T f e n i))).
(** ccpy/cc/ccsd_chol.py, update_t1b, line 162 *)
Definition ch_dT_b_8 (d : dims) (nx : nat) (C : chol) (H : ints) (T U : amps) : mat2 := fun a i =>
  ch_dT_b_7 d nx C H T U a i + sumn nx (fun x => sumn (nub d) (fun e => (c_b_vv C x a e) * (ch_b_vo_1 d nx C H T U x e i))).
(** ccpy/cc/ccsd_chol.py, update_t1b, lines 164-166 *)
Definition ch_res_b (d : dims) (nx : nat) (C : chol) (H : ints) (T U : amps) : mat2 := fun a i =>
  ch_dT_b_8 d nx C H T U a i + i_b_vo H a i.
(** ccpy/cc/ccsd_chol.py, update, line 76 *)
Definition ch_X_a_vv_2 (d : dims) (nx : nat) (C : chol) (H : ints) (T U : amps) : mat2 := fun a e =>
  ch_X_a_vv_1 d nx C H T U a e - sumn (noa d) (fun m => (ch_X_a_ov d nx C H T U m e) * (x_a U a m)).
(** ccpy/cc/ccsd_chol.py, update, line 80 *)
Definition ch_X_b_vv_2 (d : dims) (nx : nat) (C : chol) (H : ints) (T U : amps) : mat2 := fun a e =>
  ch_X_b_vv_1 d nx C H T U a e - sumn (nob d) (fun m => (ch_X_b_ov d nx C H T U m e) * (x_b U a m)).
(** ccpy/cc/ccsd_chol.py, update, line 82 *)
Definition ch_X_chol_a_ov (d : dims) (nx : nat) (C : chol) (H : ints) (T U : amps) : mat3 := fun a i b =>
  c_a_ov C a i b.
(** ccpy/cc/ccsd_chol.py, update, line 83 *)
Definition ch_X_chol_a_oo (d : dims) (nx : nat) (C : chol) (H : ints) (T U : amps) : mat3 := fun x m i =>
  c_a_oo C x m i + sumn (nua d) (fun e => (ch_X_chol_a_ov d nx C H T U x m e) * (x_a U e i)).
(** ccpy/cc/ccsd_chol.py, update, line 84 *)
Definition ch_X_chol_a_vv (d : dims) (nx : nat) (C : chol) (H : ints) (T U : amps) : mat3 := fun x a e =>
  c_a_vv C x a e - sumn (noa d) (fun m => (ch_X_chol_a_ov d nx C H T U x m e) * (x_a U a m)).
(** ccpy/cc/ccsd_chol.py, update, lines 85-90 *)
Definition ch_X_chol_a_vo (d : dims) (nx : nat) (C : chol) (H : ints) (T U : amps) : mat3 := fun x a i =>
  c_a_vo C x a i - sumn (noa d) (fun m => (ch_X_chol_a_oo d nx C H T U x m i) * (x_a U a m)) + sumn (nua d) (fun e => (ch_X_chol_a_vv d nx C H T U x a e) * (x_a U e i)) + sumn (noa d) (fun m => sumn (nua d) (fun e => (ch_X_chol_a_ov d nx C H T U x m e) * (x_a U e i) * (x_a U a m))).
(** ccpy/cc/ccsd_chol.py, update, line 97 *)
Definition ch_X_chol_b_ov (d : dims) (nx : nat) (C : chol) (H : ints) (T U : amps) : mat3 := fun a i b =>
  c_b_ov C a i b.
(** ccpy/cc/ccsd_chol.py, update, line 98 *)
Definition ch_X_chol_b_oo (d : dims) (nx : nat) (C : chol) (H : ints) (T U : amps) : mat3 := fun x m i =>
  c_b_oo C x m i + sumn (nub d) (fun e => (ch_X_chol_b_ov d nx C H T U x m e) * (x_b U e i)).
(** ccpy/cc/ccsd_chol.py, update, line 99 *)
Definition ch_X_chol_b_vv (d : dims) (nx : nat) (C : chol) (H : ints) (T U : amps) : mat3 := fun x a e =>
  c_b_vv C x a e - sumn (nob d) (fun m => (ch_X_chol_b_ov d nx C H T U x m e) * (x_b U a m)).
(** ccpy/cc/ccsd_chol.py, update, lines 100-105 *)
Definition ch_X_chol_b_vo (d : dims) (nx : nat) (C : chol) (H : ints) (T U : amps) : mat3 := fun x a i =>
  c_b_vo C x a i - sumn (nob d) (fun m => (ch_X_chol_b_oo d nx C H T U x m i) * (x_b U a m)) + sumn (nub d) (fun e => (ch_X_chol_b_vv d nx C H T U x a e) * (x_b U e i)) + sumn (nob d) (fun m => sumn (nub d) (fun e => (ch_X_chol_b_ov d nx C H T U x m e) * (x_b U e i) * (x_b U a m))).
(** ccpy/cc/ccsd_chol.py, update_t2a, lines 174-178 *)
Definition ch_h2a_oooo (d : dims) (nx : nat) (C : chol) (H : ints) (T U : amps) : mat4 := fun m n i j =>
  sumn nx (fun x => (ch_X_chol_a_oo d nx C H T U x m i) * (ch_X_chol_a_oo d nx C H T U x n j)) - sumn nx (fun x => (ch_X_chol_a_oo d nx C H T U x m j) * (ch_X_chol_a_oo d nx C H T U x n i)) + 1 / 2 * (sumn (nua d) (fun e => sumn (nua d) (fun f => (i_aa_oovv H m n e f) * (x_aa T e f i j)))).
(** ccpy/cc/ccsd_chol.py, update_t2a, lines 179-184 *)
Definition ch_h2a_voov (d : dims) (nx : nat) (C : chol) (H : ints) (T U : amps) : mat4 := fun a m i e =>
  sumn nx (fun x => (ch_X_chol_a_vo d nx C H T U x a i) * (ch_X_chol_a_ov d nx C H T U x m e)) - sumn nx (fun x => (ch_X_chol_a_vv d nx C H T U x a e) * (ch_X_chol_a_oo d nx C H T U x m i)) + 1 / 2 * (sumn (noa d) (fun n => sumn (nua d) (fun f => (i_aa_oovv H m n e f) * (x_aa T a f i n)))) + sumn (nob d) (fun n => sumn (nub d) (fun f => (i_ab_oovv H m n e f) * (x_ab T a f i n))).
(** ccpy/cc/ccsd_chol.py, update_t2a, lines 185-188 *)
Definition ch_h2b_voov (d : dims) (nx : nat) (C : chol) (H : ints) (T U : amps) : mat4 := fun a m i e =>
  sumn nx (fun x => (ch_X_chol_a_vo d nx C H T U x a i) * (ch_X_chol_b_ov d nx C H T U x m e)) + 1 / 2 * (sumn (nob d) (fun n => sumn (nub d) (fun f => (i_bb_oovv H m n e f) * (x_ab T a f i n)))).
(** ccpy/cc/ccsd_chol.py, update_t2a, line 193 *)
Definition ch_dT_aa (d : dims) (nx : nat) (C : chol) (H : ints) (T U : amps) : mat4 := fun a b i j =>
  1 / 2 * (sumn nx (fun x => (ch_X_chol_a_vo d nx C H T U x a i) * (ch_X_chol_a_vo d nx C H T U x b j))).
(** ccpy/cc/ccsd_chol.py, update_t2a, line 195 *)
Definition ch_dT_aa_1 (d : dims) (nx : nat) (C : chol) (H : ints) (T U : amps) : mat4 := fun a b i j =>
  ch_dT_aa d nx C H T U a b i j - 1 / 2 * (sumn (noa d) (fun m => (ch_X_a_oo d nx C H T U m i) * (x_aa T a b m j))).
(** ccpy/cc/ccsd_chol.py, update_t2a, line 196 *)
Definition ch_dT_aa_2 (d : dims) (nx : nat) (C : chol) (H : ints) (T U : amps) : mat4 := fun a b i j =>
  ch_dT_aa_1 d nx C H T U a b i j + 1 / 2 * (sumn (nua d) (fun e => (ch_X_a_vv_2 d nx C H T U a e) * (x_aa T e b i j))).
(** ccpy/cc/ccsd_chol.py, update_t2a, line 197 *)
Definition ch_dT_aa_3 (d : dims) (nx : nat) (C : chol) (H : ints) (T U : amps) : mat4 := fun a b i j =>
  ch_dT_aa_2 d nx C H T U a b i j + sumn (noa d) (fun m => sumn (nua d) (fun e => (ch_h2a_voov d nx C H T U a m i e) * (x_aa T e b m j))).
(** ccpy/cc/ccsd_chol.py, update_t2a, line 198 *)
Definition ch_dT_aa_4 (d : dims) (nx : nat) (C : chol) (H : ints) (T U : amps) : mat4 := fun a b i j =>
  ch_dT_aa_3 d nx C H T U a b i j + sumn (nob d) (fun m => sumn (nub d) (fun e => (ch_h2b_voov d nx C H T U a m i e) * (x_ab T b e j m))).
(** ccpy/cc/ccsd_chol.py, update_t2a, line 199 *)
Definition ch_dT_aa_5 (d : dims) (nx : nat) (C : chol) (H : ints) (T U : amps) : mat4 := fun a b i j =>
  ch_dT_aa_4 d nx C H T U a b i j + 1 / 8 * (sumn (noa d) (fun m => sumn (noa d) (fun n => (ch_h2a_oooo d nx C H T U m n i j) * (x_aa T a b m n)))).
(** ccpy/cc/ccsd_chol.py, update_t2a, line 205 *)
Definition ch_vR (d : dims) (nx : nat) (C : chol) (H : ints) (T U : amps) : mat3 := fun a b c =>
  ch_X_chol_a_vv d nx C H T U a c b.
(** ccpy/cc/ccsd_chol.py, update_t2a, line 205 *)
Definition ch_vT (d : dims) (nx : nat) (C : chol) (H : ints) (T U : amps) : mat4 := fun i j a b =>
  1 / 2 * (x_aa T b a j i).
(** ccpy/cc/ccsd_chol.py, update_t2a, line 206 *)
Definition ch_dT_aa_6 (d : dims) (nx : nat) (C : chol) (H : ints) (T U : amps) : mat4 := fun a b i j =>
  ch_dT_aa_5 d nx C H T U a b i j + vvvv_t2_sym (noa d) (nua d) nx (ch_vR d nx C H T U) (ch_vT d nx C H T U) j i b a.
(** ccpy/cc/ccsd_chol.py, update_t2a, lines 207-209 *)
Definition ch_res_aa (d : dims) (nx : nat) (C : chol) (H : ints) (T U : amps) : mat4 := fun a b i j =>
  ch_dT_aa_6 d nx C H T U a b i j.
(** ccpy/cc/ccsd_chol.py, update_t2b, line 227 *)
Definition ch_X_aa_voov (d : dims) (nx : nat) (C : chol) (H : ints) (T U : amps) : mat4 := fun a m i e =>
  ch_h2a_voov d nx C H T U a m i e + 1 / 2 * (sumn (noa d) (fun m' => sumn (nua d) (fun e' => (i_aa_oovv H m' m e' e) * (x_aa U a e' i m')))).
(** ccpy/cc/ccsd_chol.py, update_t2b, lines 228-231 *)
Definition ch_X_ab_voov (d : dims) (nx : nat) (C : chol) (H : ints) (T U : amps) : mat4 := fun a m i e =>
  ch_h2b_voov d nx C H T U a m i e + (1 / 2 * (sumn (nob d) (fun m' => sumn (nub d) (fun e' => (i_bb_oovv H m' m e' e) * (x_ab T a e' i m')))) + sumn (noa d) (fun m' => sumn (nua d) (fun e' => (i_ab_oovv H m' m e' e) * (x_aa U a e' i m')))).
(** ccpy/cc/ccsd_chol.py, update_t2b, lines 232-235 *)
Definition ch_h2b_oooo (d : dims) (nx : nat) (C : chol) (H : ints) (T U : amps) : mat4 := fun m n i j =>
  sumn nx (fun x => (ch_X_chol_a_oo d nx C H T U x m i) * (ch_X_chol_b_oo d nx C H T U x n j)) + sumn (nua d) (fun e => sumn (nub d) (fun f => (i_ab_oovv H m n e f) * (x_ab T e f i j))).
(** ccpy/cc/ccsd_chol.py, update_t2b, lines 236-238 *)
Definition ch_h2b_ovvo (d : dims) (nx : nat) (C : chol) (H : ints) (T U : amps) : mat4 := fun m a e i =>
  sumn nx (fun x => (ch_X_chol_a_ov d nx C H T U x m e) * (ch_X_chol_b_vo d nx C H T U x a i)).
(** ccpy/cc/ccsd_chol.py, update_t2b, lines 239-242 *)
Definition ch_h2b_vovo (d : dims) (nx : nat) (C : chol) (H : ints) (T U : amps) : mat4 := fun a m e i =>
  sumn nx (fun x => (ch_X_chol_a_vv d nx C H T U x a e) * (ch_X_chol_b_oo d nx C H T U x m i)) - sumn (noa d) (fun m' => sumn (nub d) (fun f => (i_ab_oovv H m' m e f) * (x_ab T a f m' i))).
(** ccpy/cc/ccsd_chol.py, update_t2b, lines 243-245 *)
Definition ch_h2b_ovov (d : dims) (nx : nat) (C : chol) (H : ints) (T U : amps) : mat4 := fun m b j e =>
  sumn nx (fun x => (ch_X_chol_a_oo d nx C H T U x m j) * (ch_X_chol_b_vv d nx C H T U x b e)).
(** ccpy/cc/ccsd_chol.py, update_t2b, lines 246-249 *)
Definition ch_h2c_voov (d : dims) (nx : nat) (C : chol) (H : ints) (T U : amps) : mat4 := fun a m i e =>
  sumn nx (fun x => (ch_X_chol_b_vo d nx C H T U x a i) * (ch_X_chol_b_ov d nx C H T U x m e)) - sumn nx (fun x => (ch_X_chol_b_vv d nx C H T U x a e) * (ch_X_chol_b_oo d nx C H T U x m i)).
(** ccpy/cc/ccsd_chol.py, update_t2b, line 251 *)
Definition ch_dT_ab (d : dims) (nx : nat) (C : chol) (H : ints) (T U : amps) : mat4 := fun a b i j =>
  sumn nx (fun x => (ch_X_chol_a_vo d nx C H T U x a i) * (ch_X_chol_b_vo d nx C H T U x b j)).
(** ccpy/cc/ccsd_chol.py, update_t2b, line 253 *)
Definition ch_dT_ab_1 (d : dims) (nx : nat) (C : chol) (H : ints) (T U : amps) : mat4 := fun a b i j =>
  ch_dT_ab d nx C H T U a b i j + sumn (nua d) (fun e => (ch_X_a_vv_2 d nx C H T U a e) * (x_ab T e b i j)).
(** ccpy/cc/ccsd_chol.py, update_t2b, line 254 *)
Definition ch_dT_ab_2 (d : dims) (nx : nat) (C : chol) (H : ints) (T U : amps) : mat4 := fun a b i j =>
  ch_dT_ab_1 d nx C H T U a b i j + sumn (nub d) (fun e => (ch_X_b_vv_2 d nx C H T U b e) * (x_ab T a e i j)).
(** ccpy/cc/ccsd_chol.py, update_t2b, line 255 *)
Definition ch_dT_ab_3 (d : dims) (nx : nat) (C : chol) (H : ints) (T U : amps) : mat4 := fun a b i j =>
  ch_dT_ab_2 d nx C H T U a b i j - sumn (noa d) (fun m => (ch_X_a_oo d nx C H T U m i) * (x_ab T a b m j)).
(** ccpy/cc/ccsd_chol.py, update_t2b, line 256 *)
Definition ch_dT_ab_4 (d : dims) (nx : nat) (C : chol) (H : ints) (T U : amps) : mat4 := fun a b i j =>
  ch_dT_ab_3 d nx C H T U a b i j - sumn (nob d) (fun m => (ch_X_b_oo d nx C H T U m j) * (x_ab T a b i m)).
(** ccpy/cc/ccsd_chol.py, update_t2b, line 257 *)
Definition ch_dT_ab_5 (d : dims) (nx : nat) (C : chol) (H : ints) (T U : amps) : mat4 := fun a b i j =>
  ch_dT_ab_4 d nx C H T U a b i j + sumn (noa d) (fun m => sumn (nua d) (fun e => (ch_X_aa_voov d nx C H T U a m i e) * (x_ab T e b m j))).
(** ccpy/cc/ccsd_chol.py, update_t2b, line 258 *)
Definition ch_dT_ab_6 (d : dims) (nx : nat) (C : chol) (H : ints) (T U : amps) : mat4 := fun a b i j =>
  ch_dT_ab_5 d nx C H T U a b i j + sumn (nob d) (fun m => sumn (nub d) (fun e => (ch_X_ab_voov d nx C H T U a m i e) * (x_bb T e b m j))).
(** ccpy/cc/ccsd_chol.py, update_t2b, line 259 *)
Definition ch_dT_ab_7 (d : dims) (nx : nat) (C : chol) (H : ints) (T U : amps) : mat4 := fun a b i j =>
  ch_dT_ab_6 d nx C H T U a b i j + sumn (noa d) (fun m => sumn (nua d) (fun e => (ch_h2b_ovvo d nx C H T U m b e j) * (x_aa U a e i m))).
(** ccpy/cc/ccsd_chol.py, update_t2b, line 260 *)
Definition ch_dT_ab_8 (d : dims) (nx : nat) (C : chol) (H : ints) (T U : amps) : mat4 := fun a b i j =>
  ch_dT_ab_7 d nx C H T U a b i j + sumn (nob d) (fun m => sumn (nub d) (fun e => (ch_h2c_voov d nx C H T U b m j e) * (x_ab T a e i m))).
(** ccpy/cc/ccsd_chol.py, update_t2b, line 261 *)
Definition ch_dT_ab_9 (d : dims) (nx : nat) (C : chol) (H : ints) (T U : amps) : mat4 := fun a b i j =>
  ch_dT_ab_8 d nx C H T U a b i j - sumn (noa d) (fun m => sumn (nub d) (fun e => (ch_h2b_ovov d nx C H T U m b i e) * (x_ab T a e m j))).
(** ccpy/cc/ccsd_chol.py, update_t2b, line 262 *)
Definition ch_dT_ab_10 (d : dims) (nx : nat) (C : chol) (H : ints) (T U : amps) : mat4 := fun a b i j =>
  ch_dT_ab_9 d nx C H T U a b i j - sumn (nob d) (fun m => sumn (nua d) (fun e => (ch_h2b_vovo d nx C H T U a m e j) * (x_ab T e b i m))).
(** ccpy/cc/ccsd_chol.py, update_t2b, line 263 *)
Definition ch_dT_ab_11 (d : dims) (nx : nat) (C : chol) (H : ints) (T U : amps) : mat4 := fun a b i j =>
  ch_dT_ab_10 d nx C H T U a b i j + sumn (noa d) (fun m => sumn (nob d) (fun n => (ch_h2b_oooo d nx C H T U m n i j) * (x_ab T a b m n))).
(** ccpy/cc/ccsd_chol.py, update_t2b, line 268 *)
Definition ch_vRa (d : dims) (nx : nat) (C : chol) (H : ints) (T U : amps) : mat3 := fun a b c =>
  ch_X_chol_a_vv d nx C H T U a c b.
(** ccpy/cc/ccsd_chol.py, update_t2b, line 268 *)
Definition ch_vRb (d : dims) (nx : nat) (C : chol) (H : ints) (T U : amps) : mat3 := fun a b c =>
  ch_X_chol_b_vv d nx C H T U a c b.
(** ccpy/cc/ccsd_chol.py, update_t2b, line 268 *)
Definition ch_vT_1 (d : dims) (nx : nat) (C : chol) (H : ints) (T U : amps) : mat4 := fun i j a b =>
  x_ab T b a j i.
(** ccpy/cc/ccsd_chol.py, update_t2b, line 269 *)
Definition ch_dT_ab_12 (d : dims) (nx : nat) (C : chol) (H : ints) (T U : amps) : mat4 := fun a b i j =>
  ch_dT_ab_11 d nx C H T U a b i j + vvvv_t2 (nua d) (nub d) nx (ch_vRa d nx C H T U) (ch_vRb d nx C H T U) (ch_vT_1 d nx C H T U) j i b a.
(** ccpy/cc/ccsd_chol.py, update_t2b, lines 271-273 *)
Definition ch_res_ab (d : dims) (nx : nat) (C : chol) (H : ints) (T U : amps) : mat4 := fun a b i j =>
  ch_dT_ab_12 d nx C H T U a b i j.
(** ccpy/cc/ccsd_chol.py, update_t2c, lines 281-285 *)
Definition ch_h2c_oooo (d : dims) (nx : nat) (C : chol) (H : ints) (T U : amps) : mat4 := fun m n i j =>
  sumn nx (fun x => (ch_X_chol_b_oo d nx C H T U x m i) * (ch_X_chol_b_oo d nx C H T U x n j)) - sumn nx (fun x => (ch_X_chol_b_oo d nx C H T U x m j) * (ch_X_chol_b_oo d nx C H T U x n i)) + 1 / 2 * (sumn (nub d) (fun e => sumn (nub d) (fun f => (i_bb_oovv H m n e f) * (x_bb T e f i j)))).
(** ccpy/cc/ccsd_chol.py, update_t2c, lines 286-291 *)
Definition ch_h2c_voov_1 (d : dims) (nx : nat) (C : chol) (H : ints) (T U : amps) : mat4 := fun a m i e =>
  sumn nx (fun x => (ch_X_chol_b_vo d nx C H T U x a i) * (ch_X_chol_b_ov d nx C H T U x m e)) - sumn nx (fun x => (ch_X_chol_b_vv d nx C H T U x a e) * (ch_X_chol_b_oo d nx C H T U x m i)) + 1 / 2 * (sumn (nob d) (fun n => sumn (nub d) (fun f => (i_bb_oovv H m n e f) * (x_bb T a f i n)))) + sumn (noa d) (fun n => sumn (nua d) (fun f => (i_ab_oovv H n m f e) * (x_ab U f a n i))).
(** ccpy/cc/ccsd_chol.py, update_t2c, lines 292-295 *)
Definition ch_h2b_ovvo_1 (d : dims) (nx : nat) (C : chol) (H : ints) (T U : amps) : mat4 := fun m a e i =>
  sumn nx (fun x => (ch_X_chol_b_vo d nx C H T U x a i) * (ch_X_chol_a_ov d nx C H T U x m e)) + 1 / 2 * (sumn (noa d) (fun n => sumn (nua d) (fun f => (i_aa_oovv H m n e f) * (x_ab U f a n i)))).
(** ccpy/cc/ccsd_chol.py, update_t2c, line 297 *)
Definition ch_dT_bb (d : dims) (nx : nat) (C : chol) (H : ints) (T U : amps) : mat4 := fun a b i j =>
  1 / 2 * (sumn nx (fun x => (ch_X_chol_b_vo d nx C H T U x a i) * (ch_X_chol_b_vo d nx C H T U x b j))).
(** ccpy/cc/ccsd_chol.py, update_t2c, line 299 *)
Definition ch_dT_bb_1 (d : dims) (nx : nat) (C : chol) (H : ints) (T U : amps) : mat4 := fun a b i j =>
  ch_dT_bb d nx C H T U a b i j - 1 / 2 * (sumn (nob d) (fun m => (ch_X_b_oo d nx C H T U m i) * (x_bb T a b m j))).
(** ccpy/cc/ccsd_chol.py, update_t2c, line 300 *)
Definition ch_dT_bb_2 (d : dims) (nx : nat) (C : chol) (H : ints) (T U : amps) : mat4 := fun a b i j =>
  ch_dT_bb_1 d nx C H T U a b i j + 1 / 2 * (sumn (nub d) (fun e => (ch_X_b_vv_2 d nx C H T U a e) * (x_bb T e b i j))).
(** ccpy/cc/ccsd_chol.py, update_t2c, line 301 *)
Definition ch_dT_bb_3 (d : dims) (nx : nat) (C : chol) (H : ints) (T U : amps) : mat4 := fun a b i j =>
  ch_dT_bb_2 d nx C H T U a b i j + sumn (nob d) (fun m => sumn (nub d) (fun e => (ch_h2c_voov_1 d nx C H T U a m i e) * (x_bb T e b m j))).
(** ccpy/cc/ccsd_chol.py, update_t2c, line 302 *)
Definition ch_dT_bb_4 (d : dims) (nx : nat) (C : chol) (H : ints) (T U : amps) : mat4 := fun a b i j =>
  ch_dT_bb_3 d nx C H T U a b i j + sumn (noa d) (fun m => sumn (nua d) (fun e => (ch_h2b_ovvo_1 d nx C H T U m a e i) * (x_ab U e b m j))).
(** ccpy/cc/ccsd_chol.py, update_t2c, line 303 *)
Definition ch_dT_bb_5 (d : dims) (nx : nat) (C : chol) (H : ints) (T U : amps) : mat4 := fun a b i j =>
  ch_dT_bb_4 d nx C H T U a b i j + 1 / 8 * (sumn (nob d) (fun m => sumn (nob d) (fun n => (ch_h2c_oooo d nx C H T U m n i j) * (x_bb T a b m n)))).
(** ccpy/cc/ccsd_chol.py, update_t2c, line 309 *)
Definition ch_vR_1 (d : dims) (nx : nat) (C : chol) (H : ints) (T U : amps) : mat3 := fun a b c =>
  ch_X_chol_b_vv d nx C H T U a c b.
(** ccpy/cc/ccsd_chol.py, update_t2c, line 309 *)
Definition ch_vT_2 (d : dims) (nx : nat) (C : chol) (H : ints) (T U : amps) : mat4 := fun i j a b =>
  1 / 2 * (x_bb T b a j i).
(** ccpy/cc/ccsd_chol.py, update_t2c, line 310 *)
Definition ch_dT_bb_6 (d : dims) (nx : nat) (C : chol) (H : ints) (T U : amps) : mat4 := fun a b i j =>
  ch_dT_bb_5 d nx C H T U a b i j + vvvv_t2_sym (nob d) (nub d) nx (ch_vR_1 d nx C H T U) (ch_vT_2 d nx C H T U) j i b a.
(** ccpy/cc/ccsd_chol.py, update_t2c, lines 311-313 *)
Definition ch_res_bb (d : dims) (nx : nat) (C : chol) (H : ints) (T U : amps) : mat4 := fun a b i j =>
  ch_dT_bb_6 d nx C H T U a b i j.
(** flag_RHF = True: the spins share the axis lengths *)
(** ccpy/cc/ccsd_chol.py, update, lines 13-16 *)
Definition cr_X_a_ov (d : dims) (nx : nat) (C : chol) (H : ints) (T U : amps) : mat2 := fun m e =>
  i_a_ov H m e + (sumn (noa d) (fun n => sumn (nua d) (fun f => (i_aa_oovv H m n e f) * (x_a T f n))) + sumn (noa d) (fun n => sumn (nua d) (fun f => (i_ab_oovv H m n e f) * (x_b T f n)))).
(** ccpy/cc/ccsd_chol.py, update, lines 17-20 *)
Definition cr_X_a_vv (d : dims) (nx : nat) (C : chol) (H : ints) (T U : amps) : mat2 := fun a e =>
  i_a_vv H a e + ((-1) / 2 * (sumn (noa d) (fun m => sumn (noa d) (fun n => sumn (nua d) (fun f => (i_aa_oovv H m n e f) * (x_aa T a f m n))))) - sumn (noa d) (fun m => sumn (noa d) (fun n => sumn (nua d) (fun f => (i_ab_oovv H m n e f) * (x_ab T a f m n))))).
(** ccpy/cc/ccsd_chol.py, update, lines 21-24 *)
Definition cr_bt1 (d : dims) (nx : nat) (C : chol) (H : ints) (T U : amps) : mat1 := fun x =>
  sumn (noa d) (fun n => sumn (nua d) (fun f => (c_a_ov C x n f) * (x_a T f n))) + sumn (noa d) (fun n => sumn (nua d) (fun f => (c_b_ov C x n f) * (x_b T f n))).
(** ccpy/cc/ccsd_chol.py, update, line 25 *)
Definition cr_bxt1 (d : dims) (nx : nat) (C : chol) (H : ints) (T U : amps) : mat3 := fun x f e =>
  (- (sumn (noa d) (fun n => (c_a_ov C x n e) * (x_a T f n)))).
(** ccpy/cc/ccsd_chol.py, update, lines 26-29 *)
Definition cr_X_a_vv_1 (d : dims) (nx : nat) (C : chol) (H : ints) (T U : amps) : mat2 := fun a e =>
  cr_X_a_vv d nx C H T U a e + (sumn nx (fun x => (c_a_vv C x a e) * (cr_bt1 d nx C H T U x)) + sumn nx (fun x => sumn (nua d) (fun f => (c_a_vv C x a f) * (cr_bxt1 d nx C H T U x f e)))).
(** ccpy/cc/ccsd_chol.py, update, lines 30-36 *)
Definition cr_X_a_oo (d : dims) (nx : nat) (C : chol) (H : ints) (T U : amps) : mat2 := fun m i =>
  i_a_oo H m i + (sumn (noa d) (fun n => sumn (nua d) (fun f => (i_aa_ooov H m n i f) * (x_a T f n))) + sumn (noa d) (fun n => sumn (nua d) (fun f => (i_ab_ooov H m n i f) * (x_b T f n))) + sumn (nua d) (fun e => (cr_X_a_ov d nx C H T U m e) * (x_a T e i)) + 1 / 2 * (sumn (noa d) (fun n => sumn (nua d) (fun e => sumn (nua d) (fun f => (i_aa_oovv H m n e f) * (x_aa T e f i n))))) + sumn (noa d) (fun n => sumn (nua d) (fun e => sumn (nua d) (fun f => (i_ab_oovv H m n e f) * (x_ab T e f i n))))).
(** ccpy/cc/ccsd_chol.py, update, line 38 *)
Definition cr_X_b_ov (d : dims) (nx : nat) (C : chol) (H : ints) (T U : amps) : mat2 := fun m e =>
  cr_X_a_ov d nx C H T U m e.
(** ccpy/cc/ccsd_chol.py, update, line 39 *)
Definition cr_X_b_oo (d : dims) (nx : nat) (C : chol) (H : ints) (T U : amps) : mat2 := fun m i =>
  cr_X_a_oo d nx C H T U m i.
(** ccpy/cc/ccsd_chol.py, update, line 40 *)
Definition cr_X_b_vv (d : dims) (nx : nat) (C : chol) (H : ints) (T U : amps) : mat2 := fun a e =>
  cr_X_a_vv_1 d nx C H T U a e.
(** ccpy/cc/ccsd_chol.py, update_t1a, line 122 *)
Definition cr_dT_a (d : dims) (nx : nat) (C : chol) (H : ints) (T U : amps) : mat2 := fun a i =>
  (- (sumn (noa d) (fun m => (cr_X_a_oo d nx C H T U m i) * (x_a T a m)))).
(** ccpy/cc/ccsd_chol.py, update_t1a, line 123 *)
Definition cr_dT_a_1 (d : dims) (nx : nat) (C : chol) (H : ints) (T U : amps) : mat2 := fun a i =>
  cr_dT_a d nx C H T U a i + sumn (nua d) (fun e => (cr_X_a_vv_1 d nx C H T U a e) * (x_a T e i)).
(** ccpy/cc/ccsd_chol.py, update_t1a, line 124 *)
Definition cr_dT_a_2 (d : dims) (nx : nat) (C : chol) (H : ints) (T U : amps) : mat2 := fun a i =>
  cr_dT_a_1 d nx C H T U a i + sumn (noa d) (fun m => sumn (nua d) (fun e => (cr_X_a_ov d nx C H T U m e) * (x_aa T a e i m))).
(** ccpy/cc/ccsd_chol.py, update_t1a, line 125 *)
Definition cr_dT_a_3 (d : dims) (nx : nat) (C : chol) (H : ints) (T U : amps) : mat2 := fun a i =>
  cr_dT_a_2 d nx C H T U a i + sumn (noa d) (fun m => sumn (nua d) (fun e => (cr_X_b_ov d nx C H T U m e) * (x_ab T a e i m))).
(** ccpy/cc/ccsd_chol.py, update_t1a, line 126 *)
Definition cr_dT_a_4 (d : dims) (nx : nat) (C : chol) (H : ints) (T U : amps) : mat2 := fun a i =>
  cr_dT_a_3 d nx C H T U a i + sumn (noa d) (fun n => sumn (nua d) (fun f => (i_aa_voov H a n i f) * (x_a T f n))).
(** ccpy/cc/ccsd_chol.py, update_t1a, line 127 *)
Definition cr_dT_a_5 (d : dims) (nx : nat) (C : chol) (H : ints) (T U : amps) : mat2 := fun a i =>
  cr_dT_a_4 d nx C H T U a i + sumn (noa d) (fun n => sumn (nua d) (fun f => (i_ab_voov H a n i f) * (x_b T f n))).
(** ccpy/cc/ccsd_chol.py, update_t1a, line 128 *)
Definition cr_dT_a_6 (d : dims) (nx : nat) (C : chol) (H : ints) (T U : amps) : mat2 := fun a i =>
  cr_dT_a_5 d nx C H T U a i - 1 / 2 * (sumn (noa d) (fun m => sumn (noa d) (fun n => sumn (nua d) (fun f => (i_aa_ooov H m n i f) * (x_aa T a f m n))))).
(** ccpy/cc/ccsd_chol.py, update_t1a, line 129 *)
Definition cr_dT_a_7 (d : dims) (nx : nat) (C : chol) (H : ints) (T U : amps) : mat2 := fun a i =>
  cr_dT_a_6 d nx C H T U a i - sumn (noa d) (fun m => sumn (noa d) (fun n => sumn (nua d) (fun f => (i_ab_ooov H m n i f) * (x_ab T a f m n)))).
(** ccpy/cc/ccsd_chol.py, update_t1a, lines 131-135 *)
Definition cr_b_vo (d : dims) (nx : nat) (C : chol) (H : ints) (T U : amps) : mat3 := fun x e i =>
  1 / 2 * (sumn (noa d) (fun m => sumn (nua d) (fun f => (c_a_ov C x m f) * (x_aa T e f i m)))) - 1 / 2 * (sumn (noa d) (fun m => sumn (nua d) (fun e' => (c_a_ov C x m e') * (x_aa T e' e i m)))) + sumn (noa d) (fun n => sumn (nua d) (fun f => (c_b_ov C x n f) * (x_ab T e f i n))).
(** ccpy/cc/ccsd_chol.py, update_t1a, line 136 *)
Definition cr_dT_a_8 (d : dims) (nx : nat) (C : chol) (H : ints) (T U : amps) : mat2 := fun a i =>
  cr_dT_a_7 d nx C H T U a i + sumn nx (fun x => sumn (nua d) (fun e => (c_a_vv C x a e) * (cr_b_vo d nx C H T U x e i))).
(** ccpy/cc/ccsd_chol.py, update_t1a, lines 138-140 *)
Definition cr_res_a (d : dims) (nx : nat) (C : chol) (H : ints) (T U : amps) : mat2 := fun a i =>
  cr_dT_a_8 d nx C H T U a i + i_a_vo H a i.
(** ccpy/cc/ccsd_chol.py, update, line 70 *)
Definition cr_T_b (d : dims) (nx : nat) (C : chol) (H : ints) (T U : amps) : mat2 := fun a i =>
  x_a U a i.
(** ccpy/cc/ccsd_chol.py, update, line 71 *)
Definition cr_dT_b (d : dims) (nx : nat) (C : chol) (H : ints) (T U : amps) : mat2 := fun a i =>
  cr_res_a d nx C H T U a i.
(** ccpy/cc/ccsd_chol.py, update, line 76 *)
Definition cr_X_a_vv_2 (d : dims) (nx : nat) (C : chol) (H : ints) (T U : amps) : mat2 := fun a e =>
  cr_X_a_vv_1 d nx C H T U a e - sumn (noa d) (fun m => (cr_X_a_ov d nx C H T U m e) * (x_a U a m)).
(** ccpy/cc/ccsd_chol.py, update, line 78 *)
Definition cr_X_b_vv_1 (d : dims) (nx : nat) (C : chol) (H : ints) (T U : amps) : mat2 := fun a e =>
  cr_X_a_vv_2 d nx C H T U a e.
(** ccpy/cc/ccsd_chol.py, update, line 82 *)
Definition cr_X_chol_a_ov (d : dims) (nx : nat) (C : chol) (H : ints) (T U : amps) : mat3 := fun a i b =>
  c_a_ov C a i b.
(** ccpy/cc/ccsd_chol.py, update, line 83 *)
Definition cr_X_chol_a_oo (d : dims) (nx : nat) (C : chol) (H : ints) (T U : amps) : mat3 := fun x m i =>
  c_a_oo C x m i + sumn (nua d) (fun e => (cr_X_chol_a_ov d nx C H T U x m e) * (x_a U e i)).
(** ccpy/cc/ccsd_chol.py, update, line 84 *)
Definition cr_X_chol_a_vv (d : dims) (nx : nat) (C : chol) (H : ints) (T U : amps) : mat3 := fun x a e =>
  c_a_vv C x a e - sumn (noa d) (fun m => (cr_X_chol_a_ov d nx C H T U x m e) * (x_a U a m)).
(** ccpy/cc/ccsd_chol.py, update, lines 85-90 *)
Definition cr_X_chol_a_vo (d : dims) (nx : nat) (C : chol) (H : ints) (T U : amps) : mat3 := fun x a i =>
  c_a_vo C x a i - sumn (noa d) (fun m => (cr_X_chol_a_oo d nx C H T U x m i) * (x_a U a m)) + sumn (nua d) (fun e => (cr_X_chol_a_vv d nx C H T U x a e) * (x_a U e i)) + sumn (noa d) (fun m => sumn (nua d) (fun e => (cr_X_chol_a_ov d nx C H T U x m e) * (x_a U e i) * (x_a U a m))).
(** ccpy/cc/ccsd_chol.py, update, line 92 *)
Definition cr_X_chol_b_ov (d : dims) (nx : nat) (C : chol) (H : ints) (T U : amps) : mat3 := fun a i b =>
  cr_X_chol_a_ov d nx C H T U a i b.
(** ccpy/cc/ccsd_chol.py, update, line 93 *)
Definition cr_X_chol_b_oo (d : dims) (nx : nat) (C : chol) (H : ints) (T U : amps) : mat3 := fun x m i =>
  cr_X_chol_a_oo d nx C H T U x m i.
(** ccpy/cc/ccsd_chol.py, update, line 94 *)
Definition cr_X_chol_b_vv (d : dims) (nx : nat) (C : chol) (H : ints) (T U : amps) : mat3 := fun x a e =>
  cr_X_chol_a_vv d nx C H T U x a e.
(** ccpy/cc/ccsd_chol.py, update, line 95 *)
Definition cr_X_chol_b_vo (d : dims) (nx : nat) (C : chol) (H : ints) (T U : amps) : mat3 := fun x a i =>
  cr_X_chol_a_vo d nx C H T U x a i.
(** ccpy/cc/ccsd_chol.py, update_t2a, lines 174-178 *)
Definition cr_h2a_oooo (d : dims) (nx : nat) (C : chol) (H : ints) (T U : amps) : mat4 := fun m n i j =>
  sumn nx (fun x => (cr_X_chol_a_oo d nx C H T U x m i) * (cr_X_chol_a_oo d nx C H T U x n j)) - sumn nx (fun x => (cr_X_chol_a_oo d nx C H T U x m j) * (cr_X_chol_a_oo d nx C H T U x n i)) + 1 / 2 * (sumn (nua d) (fun e => sumn (nua d) (fun f => (i_aa_oovv H m n e f) * (x_aa T e f i j)))).
(** ccpy/cc/ccsd_chol.py, update_t2a, lines 179-184 *)
Definition cr_h2a_voov (d : dims) (nx : nat) (C : chol) (H : ints) (T U : amps) : mat4 := fun a m i e =>
  sumn nx (fun x => (cr_X_chol_a_vo d nx C H T U x a i) * (cr_X_chol_a_ov d nx C H T U x m e)) - sumn nx (fun x => (cr_X_chol_a_vv d nx C H T U x a e) * (cr_X_chol_a_oo d nx C H T U x m i)) + 1 / 2 * (sumn (noa d) (fun n => sumn (nua d) (fun f => (i_aa_oovv H m n e f) * (x_aa T a f i n)))) + sumn (noa d) (fun n => sumn (nua d) (fun f => (i_ab_oovv H m n e f) * (x_ab T a f i n))).
(** ccpy/cc/ccsd_chol.py, update_t2a, lines 185-188 *)
Definition cr_h2b_voov (d : dims) (nx : nat) (C : chol) (H : ints) (T U : amps) : mat4 := fun a m i e =>
  sumn nx (fun x => (cr_X_chol_a_vo d nx C H T U x a i) * (cr_X_chol_b_ov d nx C H T U x m e)) + 1 / 2 * (sumn (noa d) (fun n => sumn (nua d) (fun f => (i_bb_oovv H m n e f) * (x_ab T a f i n)))).
(** ccpy/cc/ccsd_chol.py, update_t2a, line 193 *)
Definition cr_dT_aa (d : dims) (nx : nat) (C : chol) (H : ints) (T U : amps) : mat4 := fun a b i j =>
  1 / 2 * (sumn nx (fun x => (cr_X_chol_a_vo d nx C H T U x a i) * (cr_X_chol_a_vo d nx C H T U x b j))).
(** ccpy/cc/ccsd_chol.py, update_t2a, line 195 *)
Definition cr_dT_aa_1 (d : dims) (nx : nat) (C : chol) (H : ints) (T U : amps) : mat4 := fun a b i j =>
  cr_dT_aa d nx C H T U a b i j - 1 / 2 * (sumn (noa d) (fun m => (cr_X_a_oo d nx C H T U m i) * (x_aa T a b m j))).
(** ccpy/cc/ccsd_chol.py, update_t2a, line 196 *)
Definition cr_dT_aa_2 (d : dims) (nx : nat) (C : chol) (H : ints) (T U : amps) : mat4 := fun a b i j =>
  cr_dT_aa_1 d nx C H T U a b i j + 1 / 2 * (sumn (nua d) (fun e => (cr_X_a_vv_2 d nx C H T U a e) * (x_aa T e b i j))).
(** ccpy/cc/ccsd_chol.py, update_t2a, line 197 *)
Definition cr_dT_aa_3 (d : dims) (nx : nat) (C : chol) (H : ints) (T U : amps) : mat4 := fun a b i j =>
  cr_dT_aa_2 d nx C H T U a b i j + sumn (noa d) (fun m => sumn (nua d) (fun e => (cr_h2a_voov d nx C H T U a m i e) * (x_aa T e b m j))).
(** ccpy/cc/ccsd_chol.py, update_t2a, line 198 *)
Definition cr_dT_aa_4 (d : dims) (nx : nat) (C : chol) (H : ints) (T U : amps) : mat4 := fun a b i j =>
  cr_dT_aa_3 d nx C H T U a b i j + sumn (noa d) (fun m => sumn (nua d) (fun e => (cr_h2b_voov d nx C H T U a m i e) * (x_ab T b e j m))).
(** ccpy/cc/ccsd_chol.py, update_t2a, line 199 *)
Definition cr_dT_aa_5 (d : dims) (nx : nat) (C : chol) (H : ints) (T U : amps) : mat4 := fun a b i j =>
  cr_dT_aa_4 d nx C H T U a b i j + 1 / 8 * (sumn (noa d) (fun m => sumn (noa d) (fun n => (cr_h2a_oooo d nx C H T U m n i j) * (x_aa T a b m n)))).
(** ccpy/cc/ccsd_chol.py, update_t2a, line 205 *)
Definition cr_vR (d : dims) (nx : nat) (C : chol) (H : ints) (T U : amps) : mat3 := fun a b c =>
  cr_X_chol_a_vv d nx C H T U a c b.
(** ccpy/cc/ccsd_chol.py, update_t2a, line 205 *)
Definition cr_vT (d : dims) (nx : nat) (C : chol) (H : ints) (T U : amps) : mat4 := fun i j a b =>
  1 / 2 * (x_aa T b a j i).
(** ccpy/cc/ccsd_chol.py, update_t2a, line 206 *)
Definition cr_dT_aa_6 (d : dims) (nx : nat) (C : chol) (H : ints) (T U : amps) : mat4 := fun a b i j =>
  cr_dT_aa_5 d nx C H T U a b i j + vvvv_t2_sym (noa d) (nua d) nx (cr_vR d nx C H T U) (cr_vT d nx C H T U) j i b a.
(** ccpy/cc/ccsd_chol.py, update_t2a, lines 207-209 *)
Definition cr_res_aa (d : dims) (nx : nat) (C : chol) (H : ints) (T U : amps) : mat4 := fun a b i j =>
  cr_dT_aa_6 d nx C H T U a b i j.
(** ccpy/cc/ccsd_chol.py, update_t2b, line 227 *)
Definition cr_X_aa_voov (d : dims) (nx : nat) (C : chol) (H : ints) (T U : amps) : mat4 := fun a m i e =>
  cr_h2a_voov d nx C H T U a m i e + 1 / 2 * (sumn (noa d) (fun m' => sumn (nua d) (fun e' => (i_aa_oovv H m' m e' e) * (x_aa U a e' i m')))).
(** ccpy/cc/ccsd_chol.py, update_t2b, lines 228-231 *)
Definition cr_X_ab_voov (d : dims) (nx : nat) (C : chol) (H : ints) (T U : amps) : mat4 := fun a m i e =>
  cr_h2b_voov d nx C H T U a m i e + (1 / 2 * (sumn (noa d) (fun m' => sumn (nua d) (fun e' => (i_bb_oovv H m' m e' e) * (x_ab T a e' i m')))) + sumn (noa d) (fun m' => sumn (nua d) (fun e' => (i_ab_oovv H m' m e' e) * (x_aa U a e' i m')))).
(** ccpy/cc/ccsd_chol.py, update_t2b, lines 232-235 *)
Definition cr_h2b_oooo (d : dims) (nx : nat) (C : chol) (H : ints) (T U : amps) : mat4 := fun m n i j =>
  sumn nx (fun x => (cr_X_chol_a_oo d nx C H T U x m i) * (cr_X_chol_b_oo d nx C H T U x n j)) + sumn (nua d) (fun e => sumn (nua d) (fun f => (i_ab_oovv H m n e f) * (x_ab T e f i j))).
(** ccpy/cc/ccsd_chol.py, update_t2b, lines 236-238 *)
Definition cr_h2b_ovvo (d : dims) (nx : nat) (C : chol) (H : ints) (T U : amps) : mat4 := fun m a e i =>
  sumn nx (fun x => (cr_X_chol_a_ov d nx C H T U x m e) * (cr_X_chol_b_vo d nx C H T U x a i)).
(** ccpy/cc/ccsd_chol.py, update_t2b, lines 239-242 *)
Definition cr_h2b_vovo (d : dims) (nx : nat) (C : chol) (H : ints) (T U : amps) : mat4 := fun a m e i =>
  sumn nx (fun x => (cr_X_chol_a_vv d nx C H T U x a e) * (cr_X_chol_b_oo d nx C H T U x m i)) - sumn (noa d) (fun m' => sumn (nua d) (fun f => (i_ab_oovv H m' m e f) * (x_ab T a f m' i))).
(** ccpy/cc/ccsd_chol.py, update_t2b, lines 243-245 *)
Definition cr_h2b_ovov (d : dims) (nx : nat) (C : chol) (H : ints) (T U : amps) : mat4 := fun m b j e =>
  sumn nx (fun x => (cr_X_chol_a_oo d nx C H T U x m j) * (cr_X_chol_b_vv d nx C H T U x b e)).
(** ccpy/cc/ccsd_chol.py, update_t2b, lines 246-249 *)
Definition cr_h2c_voov (d : dims) (nx : nat) (C : chol) (H : ints) (T U : amps) : mat4 := fun a m i e =>
  sumn nx (fun x => (cr_X_chol_b_vo d nx C H T U x a i) * (cr_X_chol_b_ov d nx C H T U x m e)) - sumn nx (fun x => (cr_X_chol_b_vv d nx C H T U x a e) * (cr_X_chol_b_oo d nx C H T U x m i)).
(** ccpy/cc/ccsd_chol.py, update_t2b, line 251 *)
Definition cr_dT_ab (d : dims) (nx : nat) (C : chol) (H : ints) (T U : amps) : mat4 := fun a b i j =>
  sumn nx (fun x => (cr_X_chol_a_vo d nx C H T U x a i) * (cr_X_chol_b_vo d nx C H T U x b j)).
(** ccpy/cc/ccsd_chol.py, update_t2b, line 253 *)
Definition cr_dT_ab_1 (d : dims) (nx : nat) (C : chol) (H : ints) (T U : amps) : mat4 := fun a b i j =>
  cr_dT_ab d nx C H T U a b i j + sumn (nua d) (fun e => (cr_X_a_vv_2 d nx C H T U a e) * (x_ab T e b i j)).
(** ccpy/cc/ccsd_chol.py, update_t2b, line 254 *)
Definition cr_dT_ab_2 (d : dims) (nx : nat) (C : chol) (H : ints) (T U : amps) : mat4 := fun a b i j =>
  cr_dT_ab_1 d nx C H T U a b i j + sumn (nua d) (fun e => (cr_X_b_vv_1 d nx C H T U b e) * (x_ab T a e i j)).
(** ccpy/cc/ccsd_chol.py, update_t2b, line 255 *)
Definition cr_dT_ab_3 (d : dims) (nx : nat) (C : chol) (H : ints) (T U : amps) : mat4 := fun a b i j =>
  cr_dT_ab_2 d nx C H T U a b i j - sumn (noa d) (fun m => (cr_X_a_oo d nx C H T U m i) * (x_ab T a b m j)).
(** ccpy/cc/ccsd_chol.py, update_t2b, line 256 *)
Definition cr_dT_ab_4 (d : dims) (nx : nat) (C : chol) (H : ints) (T U : amps) : mat4 := fun a b i j =>
  cr_dT_ab_3 d nx C H T U a b i j - sumn (noa d) (fun m => (cr_X_b_oo d nx C H T U m j) * (x_ab T a b i m)).
(** ccpy/cc/ccsd_chol.py, update_t2b, line 257 *)
Definition cr_dT_ab_5 (d : dims) (nx : nat) (C : chol) (H : ints) (T U : amps) : mat4 := fun a b i j =>
  cr_dT_ab_4 d nx C H T U a b i j + sumn (noa d) (fun m => sumn (nua d) (fun e => (cr_X_aa_voov d nx C H T U a m i e) * (x_ab T e b m j))).
(** ccpy/cc/ccsd_chol.py, update_t2b, line 258 *)
Definition cr_dT_ab_6 (d : dims) (nx : nat) (C : chol) (H : ints) (T U : amps) : mat4 := fun a b i j =>
  cr_dT_ab_5 d nx C H T U a b i j + sumn (noa d) (fun m => sumn (nua d) (fun e => (cr_X_ab_voov d nx C H T U a m i e) * (x_bb T e b m j))).
(** ccpy/cc/ccsd_chol.py, update_t2b, line 259 *)
Definition cr_dT_ab_7 (d : dims) (nx : nat) (C : chol) (H : ints) (T U : amps) : mat4 := fun a b i j =>
  cr_dT_ab_6 d nx C H T U a b i j + sumn (noa d) (fun m => sumn (nua d) (fun e => (cr_h2b_ovvo d nx C H T U m b e j) * (x_aa U a e i m))).
(** ccpy/cc/ccsd_chol.py, update_t2b, line 260 *)
Definition cr_dT_ab_8 (d : dims) (nx : nat) (C : chol) (H : ints) (T U : amps) : mat4 := fun a b i j =>
  cr_dT_ab_7 d nx C H T U a b i j + sumn (noa d) (fun m => sumn (nua d) (fun e => (cr_h2c_voov d nx C H T U b m j e) * (x_ab T a e i m))).
(** ccpy/cc/ccsd_chol.py, update_t2b, line 261 *)
Definition cr_dT_ab_9 (d : dims) (nx : nat) (C : chol) (H : ints) (T U : amps) : mat4 := fun a b i j =>
  cr_dT_ab_8 d nx C H T U a b i j - sumn (noa d) (fun m => sumn (nua d) (fun e => (cr_h2b_ovov d nx C H T U m b i e) * (x_ab T a e m j))).
(** ccpy/cc/ccsd_chol.py, update_t2b, line 262 *)
Definition cr_dT_ab_10 (d : dims) (nx : nat) (C : chol) (H : ints) (T U : amps) : mat4 := fun a b i j =>
  cr_dT_ab_9 d nx C H T U a b i j - sumn (noa d) (fun m => sumn (nua d) (fun e => (cr_h2b_vovo d nx C H T U a m e j) * (x_ab T e b i m))).
(** ccpy/cc/ccsd_chol.py, update_t2b, line 263 *)
Definition cr_dT_ab_11 (d : dims) (nx : nat) (C : chol) (H : ints) (T U : amps) : mat4 := fun a b i j =>
  cr_dT_ab_10 d nx C H T U a b i j + sumn (noa d) (fun m => sumn (noa d) (fun n => (cr_h2b_oooo d nx C H T U m n i j) * (x_ab T a b m n))).
(** ccpy/cc/ccsd_chol.py, update_t2b, line 268 *)
Definition cr_vRa (d : dims) (nx : nat) (C : chol) (H : ints) (T U : amps) : mat3 := fun a b c =>
  cr_X_chol_a_vv d nx C H T U a c b.
(** ccpy/cc/ccsd_chol.py, update_t2b, line 268 *)
Definition cr_vRb (d : dims) (nx : nat) (C : chol) (H : ints) (T U : amps) : mat3 := fun a b c =>
  cr_X_chol_b_vv d nx C H T U a c b.
(** ccpy/cc/ccsd_chol.py, update_t2b, line 268 *)
Definition cr_vT_1 (d : dims) (nx : nat) (C : chol) (H : ints) (T U : amps) : mat4 := fun i j a b =>
  x_ab T b a j i.
(** ccpy/cc/ccsd_chol.py, update_t2b, line 269 *)
Definition cr_dT_ab_12 (d : dims) (nx : nat) (C : chol) (H : ints) (T U : amps) : mat4 := fun a b i j =>
  cr_dT_ab_11 d nx C H T U a b i j + vvvv_t2 (nua d) (nua d) nx (cr_vRa d nx C H T U) (cr_vRb d nx C H T U) (cr_vT_1 d nx C H T U) j i b a.
(** ccpy/cc/ccsd_chol.py, update_t2b, lines 271-273 *)
Definition cr_res_ab (d : dims) (nx : nat) (C : chol) (H : ints) (T U : amps) : mat4 := fun a b i j =>
  cr_dT_ab_12 d nx C H T U a b i j.
(** ccpy/cc/ccsd_chol.py, update, line 111 *)
Definition cr_T_bb (d : dims) (nx : nat) (C : chol) (H : ints) (T U : amps) : mat4 := fun a b i j =>
  x_aa U a b i j.
(** ccpy/cc/ccsd_chol.py, update, line 112 *)
Definition cr_dT_bb (d : dims) (nx : nat) (C : chol) (H : ints) (T U : amps) : mat4 := fun a b i j =>
  cr_res_aa d nx C H T U a b i j.
