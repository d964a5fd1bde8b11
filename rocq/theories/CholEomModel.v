(** Generated by tools/gen_cholhbar.py from the text of /repo.  Models ccpy/hbar/hbar_ccsd_chol.py (build_hbar_ccsd_chol; RHF_symmetry = False: chb_, True: crhb_),
    ccpy/eomcc/eomccsd_chol.py with get_eomccsd_chol_intermediates of eomccsd_intermediates.py (HR; flag_RHF = False: ceom_, True: creomc_) and
    ccpy/left/left_ccsd_chol.py with build_left_ccsd_chol_intermediates of left_cc_intermediates.py (LH_fun; cleft_, crleft_).
    Exact reals; an array is a function read below its dimensions.  H, C: the Hamiltonian and the vectors when the routine is entered (build_hbar_ccsd_chol
    works in place: H = H0; the blocks it does not set are those of H).  The generator refuses a read of a vvvv block of Hbar. *)
From Coq Require Import Reals Arith List.
From Verif Require Import RSum IntegralsModel TensorObjs CholLoops.
Open Scope R_scope.
(** ccpy/hbar/hbar_ccsd_chol.py, build_hbar_ccsd_chol, lines 10-13 *)
Definition chb_H_a_ov (d : dims) (nx : nat) (C : chol) (H : ints) (T : amps) : mat2 := fun i a =>
  i_a_ov H i a + (sumn (noa d) (fun m => sumn (nua d) (fun e => (i_aa_oovv H i m a e) * (x_a T e m))) + sumn (nob d) (fun m => sumn (nub d) (fun e => (i_ab_oovv H i m a e) * (x_b T e m)))).
(** ccpy/hbar/hbar_ccsd_chol.py, build_hbar_ccsd_chol, lines 17-20 *)
Definition chb_H_b_ov (d : dims) (nx : nat) (C : chol) (H : ints) (T : amps) : mat2 := fun i a =>
  i_b_ov H i a + (sumn (nob d) (fun m => sumn (nub d) (fun e => (i_bb_oovv H i m a e) * (x_b T e m))) + sumn (noa d) (fun m => sumn (nua d) (fun e => (i_ab_oovv H m i e a) * (x_a T e m)))).
(** ccpy/hbar/hbar_ccsd_chol.py, build_hbar_ccsd_chol, lines 22-28 *)
Definition chb_H_a_oo (d : dims) (nx : nat) (C : chol) (H : ints) (T : amps) : mat2 := fun j i =>
  i_a_oo H j i + (sumn (nua d) (fun e => (chb_H_a_ov d nx C H T j e) * (x_a T e i)) + sumn (noa d) (fun m => sumn (nua d) (fun e => (i_aa_ooov H j m i e) * (x_a T e m))) + sumn (nob d) (fun m => sumn (nub d) (fun e => (i_ab_ooov H j m i e) * (x_b T e m))) + 1 / 2 * (sumn (noa d) (fun n => sumn (nua d) (fun e => sumn (nua d) (fun f => (i_aa_oovv H j n e f) * (x_aa T e f i n))))) + sumn (nob d) (fun n => sumn (nua d) (fun e => sumn (nub d) (fun f => (i_ab_oovv H j n e f) * (x_ab T e f i n))))).
(** ccpy/hbar/hbar_ccsd_chol.py, build_hbar_ccsd_chol, lines 32-38 *)
Definition chb_H_b_oo (d : dims) (nx : nat) (C : chol) (H : ints) (T : amps) : mat2 := fun j i =>
  i_b_oo H j i + (sumn (nub d) (fun e => (chb_H_b_ov d nx C H T j e) * (x_b T e i)) + sumn (nob d) (fun m => sumn (nub d) (fun e => (i_bb_ooov H j m i e) * (x_b T e m))) + sumn (noa d) (fun m => sumn (nua d) (fun e => (i_ab_oovo H m j e i) * (x_a T e m))) + 1 / 2 * (sumn (nob d) (fun n => sumn (nub d) (fun e => sumn (nub d) (fun f => (i_bb_oovv H j n e f) * (x_bb T e f i n))))) + sumn (noa d) (fun n => sumn (nua d) (fun f => sumn (nub d) (fun e => (i_ab_oovv H n j f e) * (x_ab T f e n i))))).
(** ccpy/hbar/hbar_ccsd_chol.py, build_hbar_ccsd_chol, lines 39-42 *)
Definition chb_H_a_vv (d : dims) (nx : nat) (C : chol) (H : ints) (T : amps) : mat2 := fun a e =>
  i_a_vv H a e + ((-1) / 2 * (sumn (noa d) (fun m => sumn (noa d) (fun n => sumn (nua d) (fun f => (i_aa_oovv H m n e f) * (x_aa T a f m n))))) - sumn (noa d) (fun m => sumn (nob d) (fun n => sumn (nub d) (fun f => (i_ab_oovv H m n e f) * (x_ab T a f m n))))).
(** ccpy/hbar/hbar_ccsd_chol.py, build_hbar_ccsd_chol, lines 43-46 *)
Definition chb_bt1 (d : dims) (nx : nat) (C : chol) (H : ints) (T : amps) : mat1 := fun x =>
  sumn (noa d) (fun n => sumn (nua d) (fun f => (c_a_ov C x n f) * (x_a T f n))) + sumn (nob d) (fun n => sumn (nub d) (fun f => (c_b_ov C x n f) * (x_b T f n))).
(** ccpy/hbar/hbar_ccsd_chol.py, build_hbar_ccsd_chol, line 47 *)
Definition chb_bxt1 (d : dims) (nx : nat) (C : chol) (H : ints) (T : amps) : mat3 := fun x f e =>
  (- (sumn (noa d) (fun n => (c_a_ov C x n e) * (x_a T f n)))).
(** ccpy/hbar/hbar_ccsd_chol.py, build_hbar_ccsd_chol, lines 48-52 *)
Definition chb_H_a_vv_1 (d : dims) (nx : nat) (C : chol) (H : ints) (T : amps) : mat2 := fun a e =>
  chb_H_a_vv d nx C H T a e + (sumn nx (fun x => (c_a_vv C x a e) * (chb_bt1 d nx C H T x)) + sumn nx (fun x => sumn (nua d) (fun f => (c_a_vv C x a f) * (chb_bxt1 d nx C H T x f e))) - sumn (noa d) (fun m => (chb_H_a_ov d nx C H T m e) * (x_a T a m))).
(** ccpy/hbar/hbar_ccsd_chol.py, build_hbar_ccsd_chol, lines 56-60 *)
Definition chb_H_b_vv (d : dims) (nx : nat) (C : chol) (H : ints) (T : amps) : mat2 := fun a e =>
  i_b_vv H a e + ((-1) / 2 * (sumn (nob d) (fun m => sumn (nob d) (fun n => sumn (nub d) (fun f => (i_bb_oovv H m n e f) * (x_bb T a f m n))))) - sumn (noa d) (fun n => sumn (nob d) (fun m => sumn (nua d) (fun f => (i_ab_oovv H n m f e) * (x_ab T f a n m)))) - sumn (nob d) (fun m => (chb_H_b_ov d nx C H T m e) * (x_b T a m))).
(** ccpy/hbar/hbar_ccsd_chol.py, build_hbar_ccsd_chol, lines 61-64 *)
Definition chb_bt1_1 (d : dims) (nx : nat) (C : chol) (H : ints) (T : amps) : mat1 := fun x =>
  sumn (nob d) (fun n => sumn (nub d) (fun f => (c_b_ov C x n f) * (x_b T f n))) + sumn (noa d) (fun n => sumn (nua d) (fun f => (c_a_ov C x n f) * (x_a T f n))).
(** ccpy/hbar/hbar_ccsd_chol.py, build_hbar_ccsd_chol, line 65 *)
Definition chb_bxt1_1 (d : dims) (nx : nat) (C : chol) (H : ints) (T : amps) : mat3 := fun x f e =>
  (- (sumn (nob d) (fun n => (c_b_ov C x n e) * (x_b T f n)))).
(** ccpy/hbar/hbar_ccsd_chol.py, build_hbar_ccsd_chol, lines 66-69 *)
Definition chb_H_b_vv_1 (d : dims) (nx : nat) (C : chol) (H : ints) (T : amps) : mat2 := fun a e =>
  chb_H_b_vv d nx C H T a e + (sumn nx (fun x => (c_b_vv C x a e) * (chb_bt1_1 d nx C H T x)) + sumn nx (fun x => sumn (nub d) (fun f => (c_b_vv C x a f) * (chb_bxt1_1 d nx C H T x f e)))).
(** ccpy/hbar/hbar_ccsd_chol.py, build_hbar_ccsd_chol, line 75 *)
Definition chb_H_chol_a_oo (d : dims) (nx : nat) (C : chol) (H : ints) (T : amps) : mat3 := fun x m i =>
  c_a_oo C x m i + sumn (nua d) (fun e => (c_a_ov C x m e) * (x_a T e i)).
(** ccpy/hbar/hbar_ccsd_chol.py, build_hbar_ccsd_chol, line 76 *)
Definition chb_H_chol_a_vv (d : dims) (nx : nat) (C : chol) (H : ints) (T : amps) : mat3 := fun x a e =>
  c_a_vv C x a e - sumn (noa d) (fun m => (c_a_ov C x m e) * (x_a T a m)).
(** ccpy/hbar/hbar_ccsd_chol.py, build_hbar_ccsd_chol, lines 77-82 *)
Definition chb_H_chol_a_vo (d : dims) (nx : nat) (C : chol) (H : ints) (T : amps) : mat3 := fun x a i =>
  c_a_vo C x a i - sumn (noa d) (fun m => (chb_H_chol_a_oo d nx C H T x m i) * (x_a T a m)) + sumn (nua d) (fun e => (chb_H_chol_a_vv d nx C H T x a e) * (x_a T e i)) + sumn (noa d) (fun m => sumn (nua d) (fun e => (c_a_ov C x m e) * (x_a T e i) * (x_a T a m))).
(** ccpy/hbar/hbar_ccsd_chol.py, build_hbar_ccsd_chol, line 89 *)
Definition chb_H_chol_b_oo (d : dims) (nx : nat) (C : chol) (H : ints) (T : amps) : mat3 := fun x m i =>
  c_b_oo C x m i + sumn (nub d) (fun e => (c_b_ov C x m e) * (x_b T e i)).
(** ccpy/hbar/hbar_ccsd_chol.py, build_hbar_ccsd_chol, line 90 *)
Definition chb_H_chol_b_vv (d : dims) (nx : nat) (C : chol) (H : ints) (T : amps) : mat3 := fun x a e =>
  c_b_vv C x a e - sumn (nob d) (fun m => (c_b_ov C x m e) * (x_b T a m)).
(** ccpy/hbar/hbar_ccsd_chol.py, build_hbar_ccsd_chol, lines 91-96 *)
Definition chb_H_chol_b_vo (d : dims) (nx : nat) (C : chol) (H : ints) (T : amps) : mat3 := fun x a i =>
  c_b_vo C x a i - sumn (nob d) (fun m => (chb_H_chol_b_oo d nx C H T x m i) * (x_b T a m)) + sumn (nub d) (fun e => (chb_H_chol_b_vv d nx C H T x a e) * (x_b T e i)) + sumn (nob d) (fun m => sumn (nub d) (fun e => (c_b_ov C x m e) * (x_b T e i) * (x_b T a m))).
(** ccpy/hbar/hbar_ccsd_chol.py, build_hbar_ccsd_chol, lines 100-104 *)
Definition chb_x_a_vo (d : dims) (nx : nat) (C : chol) (H : ints) (T : amps) : mat3 := fun x a i =>
  chb_H_chol_a_vo d nx C H T x a i + sumn (noa d) (fun n => sumn (nua d) (fun f => (c_a_ov C x n f) * (x_aa T a f i n))) + sumn (nob d) (fun n => sumn (nub d) (fun f => (c_b_ov C x n f) * (x_ab T a f i n))).
(** ccpy/hbar/hbar_ccsd_chol.py, build_hbar_ccsd_chol, lines 108-112 *)
Definition chb_x_b_vo (d : dims) (nx : nat) (C : chol) (H : ints) (T : amps) : mat3 := fun x a i =>
  chb_H_chol_b_vo d nx C H T x a i + sumn (nob d) (fun n => sumn (nub d) (fun f => (c_b_ov C x n f) * (x_bb T a f i n))) + sumn (noa d) (fun n => sumn (nua d) (fun f => (c_a_ov C x n f) * (x_ab T f a n i))).
(** ccpy/hbar/hbar_ccsd_chol.py, build_hbar_ccsd_chol, lines 135-139 *)
Definition chb_H_aa_oooo (d : dims) (nx : nat) (C : chol) (H : ints) (T : amps) : mat4 := fun m n i j =>
  sumn nx (fun x => (chb_H_chol_a_oo d nx C H T x m i) * (chb_H_chol_a_oo d nx C H T x n j)) - sumn nx (fun x => (chb_H_chol_a_oo d nx C H T x m j) * (chb_H_chol_a_oo d nx C H T x n i)) + 1 / 2 * (sumn (nua d) (fun e => sumn (nua d) (fun f => (i_aa_oovv H m n e f) * (x_aa T e f i j)))).
(** ccpy/hbar/hbar_ccsd_chol.py, build_hbar_ccsd_chol, lines 143-147 *)
Definition chb_H_bb_oooo (d : dims) (nx : nat) (C : chol) (H : ints) (T : amps) : mat4 := fun m n i j =>
  sumn nx (fun x => (chb_H_chol_b_oo d nx C H T x m i) * (chb_H_chol_b_oo d nx C H T x n j)) - sumn nx (fun x => (chb_H_chol_b_oo d nx C H T x m j) * (chb_H_chol_b_oo d nx C H T x n i)) + 1 / 2 * (sumn (nub d) (fun e => sumn (nub d) (fun f => (i_bb_oovv H m n e f) * (x_bb T e f i j)))).
(** ccpy/hbar/hbar_ccsd_chol.py, build_hbar_ccsd_chol, lines 148-151 *)
Definition chb_H_ab_oooo (d : dims) (nx : nat) (C : chol) (H : ints) (T : amps) : mat4 := fun m n i j =>
  sumn nx (fun x => (chb_H_chol_a_oo d nx C H T x m i) * (chb_H_chol_b_oo d nx C H T x n j)) + sumn (nua d) (fun e => sumn (nub d) (fun f => (i_ab_oovv H m n e f) * (x_ab T e f i j))).
(** ccpy/hbar/hbar_ccsd_chol.py, build_hbar_ccsd_chol, line 157 *)
Definition chb_H_aa_ooov (d : dims) (nx : nat) (C : chol) (H : ints) (T : amps) : mat4 := fun m n i e =>
  sumn nx (fun x => (chb_H_chol_a_oo d nx C H T x m i) * (c_a_ov C x n e)).
(** ccpy/hbar/hbar_ccsd_chol.py, build_hbar_ccsd_chol, line 158 *)
Definition chb_H_aa_ooov_1 (d : dims) (nx : nat) (C : chol) (H : ints) (T : amps) : mat4 := fun m n i e =>
  chb_H_aa_ooov d nx C H T m n i e - chb_H_aa_ooov d nx C H T n m i e.
(** ccpy/hbar/hbar_ccsd_chol.py, build_hbar_ccsd_chol, line 162 *)
Definition chb_H_bb_ooov (d : dims) (nx : nat) (C : chol) (H : ints) (T : amps) : mat4 := fun m n i e =>
  sumn nx (fun x => (chb_H_chol_b_oo d nx C H T x m i) * (c_b_ov C x n e)).
(** ccpy/hbar/hbar_ccsd_chol.py, build_hbar_ccsd_chol, line 163 *)
Definition chb_H_bb_ooov_1 (d : dims) (nx : nat) (C : chol) (H : ints) (T : amps) : mat4 := fun m n i e =>
  chb_H_bb_ooov d nx C H T m n i e - chb_H_bb_ooov d nx C H T n m i e.
(** ccpy/hbar/hbar_ccsd_chol.py, build_hbar_ccsd_chol, lines 164-166 *)
Definition chb_H_ab_ooov (d : dims) (nx : nat) (C : chol) (H : ints) (T : amps) : mat4 := fun m n i e =>
  sumn nx (fun x => (chb_H_chol_a_oo d nx C H T x m i) * (c_b_ov C x n e)).
(** ccpy/hbar/hbar_ccsd_chol.py, build_hbar_ccsd_chol, lines 167-169 *)
Definition chb_H_ab_oovo (d : dims) (nx : nat) (C : chol) (H : ints) (T : amps) : mat4 := fun m n e i =>
  sumn nx (fun x => (c_a_ov C x m e) * (chb_H_chol_b_oo d nx C H T x n i)).
(** ccpy/hbar/hbar_ccsd_chol.py, build_hbar_ccsd_chol, line 175 *)
Definition chb_H_aa_vovv (d : dims) (nx : nat) (C : chol) (H : ints) (T : amps) : mat4 := fun b n e f =>
  sumn nx (fun x => (chb_H_chol_a_vv d nx C H T x b e) * (c_a_ov C x n f)).
(** ccpy/hbar/hbar_ccsd_chol.py, build_hbar_ccsd_chol, line 176 *)
Definition chb_H_aa_vovv_1 (d : dims) (nx : nat) (C : chol) (H : ints) (T : amps) : mat4 := fun b n e f =>
  chb_H_aa_vovv d nx C H T b n e f - chb_H_aa_vovv d nx C H T b n f e.
(** ccpy/hbar/hbar_ccsd_chol.py, build_hbar_ccsd_chol, line 180 *)
Definition chb_H_bb_vovv (d : dims) (nx : nat) (C : chol) (H : ints) (T : amps) : mat4 := fun b n e f =>
  sumn nx (fun x => (chb_H_chol_b_vv d nx C H T x b e) * (c_b_ov C x n f)).
(** ccpy/hbar/hbar_ccsd_chol.py, build_hbar_ccsd_chol, line 181 *)
Definition chb_H_bb_vovv_1 (d : dims) (nx : nat) (C : chol) (H : ints) (T : amps) : mat4 := fun b n e f =>
  chb_H_bb_vovv d nx C H T b n e f - chb_H_bb_vovv d nx C H T b n f e.
(** ccpy/hbar/hbar_ccsd_chol.py, build_hbar_ccsd_chol, line 182 *)
Definition chb_H_ab_vovv (d : dims) (nx : nat) (C : chol) (H : ints) (T : amps) : mat4 := fun b n e f =>
  sumn nx (fun x => (chb_H_chol_a_vv d nx C H T x b e) * (c_b_ov C x n f)).
(** ccpy/hbar/hbar_ccsd_chol.py, build_hbar_ccsd_chol, line 183 *)
Definition chb_H_ab_ovvv (d : dims) (nx : nat) (C : chol) (H : ints) (T : amps) : mat4 := fun n b f e =>
  sumn nx (fun x => (c_a_ov C x n f) * (chb_H_chol_b_vv d nx C H T x b e)).
(** ccpy/hbar/hbar_ccsd_chol.py, build_hbar_ccsd_chol, lines 189-197 *)
Definition chb_H_aa_vooo (d : dims) (nx : nat) (C : chol) (H : ints) (T : amps) : mat4 := fun a m i j =>
  sumn nx (fun x => (chb_x_a_vo d nx C H T x a i) * (chb_H_chol_a_oo d nx C H T x m j)) + 1 / 4 * (sumn (nua d) (fun e => sumn (nua d) (fun f => (chb_H_aa_vovv_1 d nx C H T a m e f) * (x_aa T e f i j)))) + 1 / 2 * (sumn (nua d) (fun e => (chb_H_a_ov d nx C H T m e) * (x_aa T a e i j))) - sumn nx (fun x => sumn (noa d) (fun n => sumn (nua d) (fun f => (chb_H_chol_a_oo d nx C H T x n j) * (c_a_ov C x m f) * (x_aa T a f i n)))).
(** ccpy/hbar/hbar_ccsd_chol.py, build_hbar_ccsd_chol, line 198 *)
Definition chb_H_aa_vooo_1 (d : dims) (nx : nat) (C : chol) (H : ints) (T : amps) : mat4 := fun a m i j =>
  chb_H_aa_vooo d nx C H T a m i j - chb_H_aa_vooo d nx C H T a m j i.
(** ccpy/hbar/hbar_ccsd_chol.py, build_hbar_ccsd_chol, lines 202-210 *)
Definition chb_H_bb_vooo (d : dims) (nx : nat) (C : chol) (H : ints) (T : amps) : mat4 := fun a m i j =>
  sumn nx (fun x => (chb_x_b_vo d nx C H T x a i) * (chb_H_chol_b_oo d nx C H T x m j)) + 1 / 4 * (sumn (nub d) (fun e => sumn (nub d) (fun f => (chb_H_bb_vovv_1 d nx C H T a m e f) * (x_bb T e f i j)))) + 1 / 2 * (sumn (nub d) (fun e => (chb_H_b_ov d nx C H T m e) * (x_bb T a e i j))) - sumn nx (fun x => sumn (nob d) (fun n => sumn (nub d) (fun f => (chb_H_chol_b_oo d nx C H T x n j) * (c_b_ov C x m f) * (x_bb T a f i n)))).
(** ccpy/hbar/hbar_ccsd_chol.py, build_hbar_ccsd_chol, line 211 *)
Definition chb_H_bb_vooo_1 (d : dims) (nx : nat) (C : chol) (H : ints) (T : amps) : mat4 := fun a m i j =>
  chb_H_bb_vooo d nx C H T a m i j - chb_H_bb_vooo d nx C H T a m j i.
(** ccpy/hbar/hbar_ccsd_chol.py, build_hbar_ccsd_chol, lines 212-219 *)
Definition chb_H_ab_vooo (d : dims) (nx : nat) (C : chol) (H : ints) (T : amps) : mat4 := fun a m i j =>
  sumn nx (fun x => (chb_H_chol_a_vo d nx C H T x a i) * (chb_H_chol_b_oo d nx C H T x m j)) + sumn (nua d) (fun e => sumn (nub d) (fun f => (chb_H_ab_vovv d nx C H T a m e f) * (x_ab T e f i j))) + sumn (noa d) (fun n => sumn (nua d) (fun f => (chb_H_ab_oovo d nx C H T n m f j) * (x_aa T a f i n))) + sumn (nob d) (fun n => sumn (nub d) (fun f => (chb_H_bb_ooov_1 d nx C H T m n j f) * (x_ab T a f i n))) - sumn (noa d) (fun n => sumn (nub d) (fun f => (chb_H_ab_ooov d nx C H T n m i f) * (x_ab T a f n j))) + sumn (nub d) (fun e => (chb_H_b_ov d nx C H T m e) * (x_ab T a e i j)).
(** ccpy/hbar/hbar_ccsd_chol.py, build_hbar_ccsd_chol, lines 220-227 *)
Definition chb_H_ab_ovoo (d : dims) (nx : nat) (C : chol) (H : ints) (T : amps) : mat4 := fun m b i j =>
  sumn nx (fun x => (chb_H_chol_a_oo d nx C H T x m i) * (chb_H_chol_b_vo d nx C H T x b j)) + sumn (noa d) (fun n => sumn (nua d) (fun f => (chb_H_aa_ooov_1 d nx C H T m n i f) * (x_ab T f b n j))) + sumn (nob d) (fun n => sumn (nub d) (fun f => (chb_H_ab_ooov d nx C H T m n i f) * (x_bb T f b n j))) - sumn (nob d) (fun n => sumn (nua d) (fun f => (chb_H_ab_oovo d nx C H T m n f j) * (x_ab T f b i n))) + sumn (nua d) (fun e => sumn (nub d) (fun f => (chb_H_ab_ovvv d nx C H T m b e f) * (x_ab T e f i j))) + sumn (nua d) (fun e => (chb_H_a_ov d nx C H T m e) * (x_ab T e b i j)).
(** ccpy/hbar/hbar_ccsd_chol.py, build_hbar_ccsd_chol, lines 233-238 *)
Definition chb_H_aa_voov (d : dims) (nx : nat) (C : chol) (H : ints) (T : amps) : mat4 := fun a m i e =>
  sumn nx (fun x => (chb_H_chol_a_vo d nx C H T x a i) * (c_a_ov C x m e)) - sumn nx (fun x => (chb_H_chol_a_vv d nx C H T x a e) * (chb_H_chol_a_oo d nx C H T x m i)) + sumn (noa d) (fun n => sumn (nua d) (fun f => (i_aa_oovv H m n e f) * (x_aa T a f i n))) + sumn (nob d) (fun n => sumn (nub d) (fun f => (i_ab_oovv H m n e f) * (x_ab T a f i n))).
(** ccpy/hbar/hbar_ccsd_chol.py, build_hbar_ccsd_chol, lines 242-247 *)
Definition chb_H_bb_voov (d : dims) (nx : nat) (C : chol) (H : ints) (T : amps) : mat4 := fun a m i e =>
  sumn nx (fun x => (chb_H_chol_b_vo d nx C H T x a i) * (c_b_ov C x m e)) - sumn nx (fun x => (chb_H_chol_b_vv d nx C H T x a e) * (chb_H_chol_b_oo d nx C H T x m i)) + sumn (nob d) (fun n => sumn (nub d) (fun f => (i_bb_oovv H m n e f) * (x_bb T a f i n))) + sumn (noa d) (fun n => sumn (nua d) (fun f => (i_ab_oovv H n m f e) * (x_ab T f a n i))).
(** ccpy/hbar/hbar_ccsd_chol.py, build_hbar_ccsd_chol, lines 248-252 *)
Definition chb_H_ab_voov (d : dims) (nx : nat) (C : chol) (H : ints) (T : amps) : mat4 := fun a m i e =>
  sumn nx (fun x => (chb_H_chol_a_vo d nx C H T x a i) * (c_b_ov C x m e)) + sumn (noa d) (fun n => sumn (nua d) (fun f => (i_ab_oovv H n m f e) * (x_aa T a f i n))) + sumn (nob d) (fun n => sumn (nub d) (fun f => (i_bb_oovv H m n e f) * (x_ab T a f i n))).
(** ccpy/hbar/hbar_ccsd_chol.py, build_hbar_ccsd_chol, lines 253-257 *)
Definition chb_H_ab_ovvo (d : dims) (nx : nat) (C : chol) (H : ints) (T : amps) : mat4 := fun m b e j =>
  sumn nx (fun x => (chb_H_chol_b_vo d nx C H T x b j) * (c_a_ov C x m e)) + sumn (noa d) (fun n => sumn (nua d) (fun f => (i_aa_oovv H m n e f) * (x_ab T f b n j))) + sumn (nob d) (fun n => sumn (nub d) (fun f => (i_ab_oovv H m n e f) * (x_bb T f b n j))).
(** ccpy/hbar/hbar_ccsd_chol.py, build_hbar_ccsd_chol, lines 258-261 *)
Definition chb_H_ab_ovov (d : dims) (nx : nat) (C : chol) (H : ints) (T : amps) : mat4 := fun m b i e =>
  sumn nx (fun x => (chb_H_chol_a_oo d nx C H T x m i) * (chb_H_chol_b_vv d nx C H T x b e)) - sumn (nob d) (fun n => sumn (nua d) (fun f => (i_ab_oovv H m n f e) * (x_ab T f b i n))).
(** ccpy/hbar/hbar_ccsd_chol.py, build_hbar_ccsd_chol, lines 262-265 *)
Definition chb_H_ab_vovo (d : dims) (nx : nat) (C : chol) (H : ints) (T : amps) : mat4 := fun a m e j =>
  sumn nx (fun x => (chb_H_chol_a_vv d nx C H T x a e) * (chb_H_chol_b_oo d nx C H T x m j)) - sumn (noa d) (fun n => sumn (nub d) (fun f => (i_ab_oovv H n m e f) * (x_ab T a f n j))).
(** ccpy/hbar/hbar_ccsd_chol.py, build_hbar_ccsd_chol, lines 271-279 *)
Definition chb_H_aa_vvov (d : dims) (nx : nat) (C : chol) (H : ints) (T : amps) : mat4 := fun a b i e =>
  sumn nx (fun x => (chb_x_a_vo d nx C H T x a i) * (chb_H_chol_a_vv d nx C H T x b e)) + 1 / 4 * (sumn (noa d) (fun m => sumn (noa d) (fun n => (chb_H_aa_ooov_1 d nx C H T m n i e) * (x_aa T a b m n)))) - 1 / 2 * (sumn (noa d) (fun m => (chb_H_a_ov d nx C H T m e) * (x_aa T a b i m))) - sumn nx (fun x => sumn (nua d) (fun f => sumn (noa d) (fun n => (chb_H_chol_a_vv d nx C H T x b f) * (c_a_ov C x n e) * (x_aa T a f i n)))).
(** ccpy/hbar/hbar_ccsd_chol.py, build_hbar_ccsd_chol, line 280 *)
Definition chb_H_aa_vvov_1 (d : dims) (nx : nat) (C : chol) (H : ints) (T : amps) : mat4 := fun a b i e =>
  chb_H_aa_vvov d nx C H T a b i e - chb_H_aa_vvov d nx C H T b a i e.
(** ccpy/hbar/hbar_ccsd_chol.py, build_hbar_ccsd_chol, lines 284-292 *)
Definition chb_H_bb_vvov (d : dims) (nx : nat) (C : chol) (H : ints) (T : amps) : mat4 := fun a b i e =>
  sumn nx (fun x => (chb_x_b_vo d nx C H T x a i) * (chb_H_chol_b_vv d nx C H T x b e)) + 1 / 4 * (sumn (nob d) (fun m => sumn (nob d) (fun n => (chb_H_bb_ooov_1 d nx C H T m n i e) * (x_bb T a b m n)))) - 1 / 2 * (sumn (nob d) (fun m => (chb_H_b_ov d nx C H T m e) * (x_bb T a b i m))) - sumn nx (fun x => sumn (nub d) (fun f => sumn (nob d) (fun n => (chb_H_chol_b_vv d nx C H T x b f) * (c_b_ov C x n e) * (x_bb T a f i n)))).
(** ccpy/hbar/hbar_ccsd_chol.py, build_hbar_ccsd_chol, line 293 *)
Definition chb_H_bb_vvov_1 (d : dims) (nx : nat) (C : chol) (H : ints) (T : amps) : mat4 := fun a b i e =>
  chb_H_bb_vvov d nx C H T a b i e - chb_H_bb_vvov d nx C H T b a i e.
(** ccpy/hbar/hbar_ccsd_chol.py, build_hbar_ccsd_chol, lines 294-301 *)
Definition chb_H_ab_vvov (d : dims) (nx : nat) (C : chol) (H : ints) (T : amps) : mat4 := fun a b i e =>
  sumn nx (fun x => (chb_H_chol_a_vo d nx C H T x a i) * (chb_H_chol_b_vv d nx C H T x b e)) + sumn (noa d) (fun n => sumn (nua d) (fun f => (chb_H_ab_ovvv d nx C H T n b f e) * (x_aa T a f i n))) + sumn (nob d) (fun n => sumn (nub d) (fun f => (chb_H_bb_vovv_1 d nx C H T b n e f) * (x_ab T a f i n))) - sumn (nob d) (fun n => sumn (nua d) (fun f => (chb_H_ab_vovv d nx C H T a n f e) * (x_ab T f b i n))) + sumn (noa d) (fun m => sumn (nob d) (fun n => (chb_H_ab_ooov d nx C H T m n i e) * (x_ab T a b m n))) - sumn (nob d) (fun m => (chb_H_b_ov d nx C H T m e) * (x_ab T a b i m)).
(** ccpy/hbar/hbar_ccsd_chol.py, build_hbar_ccsd_chol, lines 302-309 *)
Definition chb_H_ab_vvvo (d : dims) (nx : nat) (C : chol) (H : ints) (T : amps) : mat4 := fun a b e j =>
  sumn nx (fun x => (chb_H_chol_a_vv d nx C H T x a e) * (chb_H_chol_b_vo d nx C H T x b j)) + sumn (noa d) (fun n => sumn (nua d) (fun f => (chb_H_aa_vovv_1 d nx C H T a n e f) * (x_ab T f b n j))) + sumn (nob d) (fun n => sumn (nub d) (fun f => (chb_H_ab_vovv d nx C H T a n e f) * (x_bb T f b n j))) - sumn (noa d) (fun m => sumn (nub d) (fun f => (chb_H_ab_ovvv d nx C H T m b e f) * (x_ab T a f m j))) + sumn (noa d) (fun m => sumn (nob d) (fun n => (chb_H_ab_oovo d nx C H T m n e j) * (x_ab T a b m n))) - sumn (noa d) (fun m => (chb_H_a_ov d nx C H T m e) * (x_ab T a b m j)).
(** hbar_ccsd_chol.py, build_hbar_ccsd_chol, line 311: the Hamiltonian returned, and its vectors H.chol *)
Definition chol_hbar (d : dims) (nx : nat) (C : chol) (H : ints) (T : amps) : ints := mkInts (chb_H_a_oo d nx C H T) (chb_H_a_ov d nx C H T) (i_a_vo H) (chb_H_a_vv_1 d nx C H T) (chb_H_b_oo d nx C H T) (chb_H_b_ov d nx C H T) (i_b_vo H) (chb_H_b_vv_1 d nx C H T) (chb_H_aa_oooo d nx C H T) (chb_H_aa_ooov_1 d nx C H T) (i_aa_oovo H) (i_aa_oovv H) (i_aa_ovoo H) (i_aa_ovov H) (i_aa_ovvo H) (i_aa_ovvv H) (chb_H_aa_vooo_1 d nx C H T) (chb_H_aa_voov d nx C H T) (i_aa_vovo H) (chb_H_aa_vovv_1 d nx C H T) (i_aa_vvoo H) (chb_H_aa_vvov_1 d nx C H T) (i_aa_vvvo H) (i_aa_vvvv H) (chb_H_ab_oooo d nx C H T) (chb_H_ab_ooov d nx C H T) (chb_H_ab_oovo d nx C H T) (i_ab_oovv H) (chb_H_ab_ovoo d nx C H T) (chb_H_ab_ovov d nx C H T) (chb_H_ab_ovvo d nx C H T) (chb_H_ab_ovvv d nx C H T) (chb_H_ab_vooo d nx C H T) (chb_H_ab_voov d nx C H T) (chb_H_ab_vovo d nx C H T) (chb_H_ab_vovv d nx C H T) (i_ab_vvoo H) (chb_H_ab_vvov d nx C H T) (chb_H_ab_vvvo d nx C H T) (i_ab_vvvv H) (chb_H_bb_oooo d nx C H T) (chb_H_bb_ooov_1 d nx C H T) (i_bb_oovo H) (i_bb_oovv H) (i_bb_ovoo H) (i_bb_ovov H) (i_bb_ovvo H) (i_bb_ovvv H) (chb_H_bb_vooo_1 d nx C H T) (chb_H_bb_voov d nx C H T) (i_bb_vovo H) (chb_H_bb_vovv_1 d nx C H T) (i_bb_vvoo H) (chb_H_bb_vvov_1 d nx C H T) (i_bb_vvvo H) (i_bb_vvvv H).
Definition chol_dressed (d : dims) (nx : nat) (C : chol) (H : ints) (T : amps) : chol := mkChol (chb_H_chol_a_oo d nx C H T) (c_a_ov C) (chb_H_chol_a_vo d nx C H T) (chb_H_chol_a_vv d nx C H T) (chb_H_chol_b_oo d nx C H T) (c_b_ov C) (chb_H_chol_b_vo d nx C H T) (chb_H_chol_b_vv d nx C H T).
(** ccpy/hbar/hbar_ccsd_chol.py, build_hbar_ccsd_chol, lines 10-13 *)
Definition crhb_H_a_ov (d : dims) (nx : nat) (C : chol) (H : ints) (T : amps) : mat2 := fun i a =>
  i_a_ov H i a + (sumn (noa d) (fun m => sumn (nua d) (fun e => (i_aa_oovv H i m a e) * (x_a T e m))) + sumn (noa d) (fun m => sumn (nua d) (fun e => (i_ab_oovv H i m a e) * (x_b T e m)))).
(** ccpy/hbar/hbar_ccsd_chol.py, build_hbar_ccsd_chol, line 15 *)
Definition crhb_H_b_ov (d : dims) (nx : nat) (C : chol) (H : ints) (T : amps) : mat2 := fun i a =>
  crhb_H_a_ov d nx C H T i a.
(** ccpy/hbar/hbar_ccsd_chol.py, build_hbar_ccsd_chol, lines 22-28 *)
Definition crhb_H_a_oo (d : dims) (nx : nat) (C : chol) (H : ints) (T : amps) : mat2 := fun j i =>
  i_a_oo H j i + (sumn (nua d) (fun e => (crhb_H_a_ov d nx C H T j e) * (x_a T e i)) + sumn (noa d) (fun m => sumn (nua d) (fun e => (i_aa_ooov H j m i e) * (x_a T e m))) + sumn (noa d) (fun m => sumn (nua d) (fun e => (i_ab_ooov H j m i e) * (x_b T e m))) + 1 / 2 * (sumn (noa d) (fun n => sumn (nua d) (fun e => sumn (nua d) (fun f => (i_aa_oovv H j n e f) * (x_aa T e f i n))))) + sumn (noa d) (fun n => sumn (nua d) (fun e => sumn (nua d) (fun f => (i_ab_oovv H j n e f) * (x_ab T e f i n))))).
(** ccpy/hbar/hbar_ccsd_chol.py, build_hbar_ccsd_chol, line 30 *)
Definition crhb_H_b_oo (d : dims) (nx : nat) (C : chol) (H : ints) (T : amps) : mat2 := fun j i =>
  crhb_H_a_oo d nx C H T j i.
(** ccpy/hbar/hbar_ccsd_chol.py, build_hbar_ccsd_chol, lines 39-42 *)
Definition crhb_H_a_vv (d : dims) (nx : nat) (C : chol) (H : ints) (T : amps) : mat2 := fun a e =>
  i_a_vv H a e + ((-1) / 2 * (sumn (noa d) (fun m => sumn (noa d) (fun n => sumn (nua d) (fun f => (i_aa_oovv H m n e f) * (x_aa T a f m n))))) - sumn (noa d) (fun m => sumn (noa d) (fun n => sumn (nua d) (fun f => (i_ab_oovv H m n e f) * (x_ab T a f m n))))).
(** ccpy/hbar/hbar_ccsd_chol.py, build_hbar_ccsd_chol, lines 43-46 *)
Definition crhb_bt1 (d : dims) (nx : nat) (C : chol) (H : ints) (T : amps) : mat1 := fun x =>
  sumn (noa d) (fun n => sumn (nua d) (fun f => (c_a_ov C x n f) * (x_a T f n))) + sumn (noa d) (fun n => sumn (nua d) (fun f => (c_b_ov C x n f) * (x_b T f n))).
(** ccpy/hbar/hbar_ccsd_chol.py, build_hbar_ccsd_chol, line 47 *)
Definition crhb_bxt1 (d : dims) (nx : nat) (C : chol) (H : ints) (T : amps) : mat3 := fun x f e =>
  (- (sumn (noa d) (fun n => (c_a_ov C x n e) * (x_a T f n)))).
(** ccpy/hbar/hbar_ccsd_chol.py, build_hbar_ccsd_chol, lines 48-52 *)
Definition crhb_H_a_vv_1 (d : dims) (nx : nat) (C : chol) (H : ints) (T : amps) : mat2 := fun a e =>
  crhb_H_a_vv d nx C H T a e + (sumn nx (fun x => (c_a_vv C x a e) * (crhb_bt1 d nx C H T x)) + sumn nx (fun x => sumn (nua d) (fun f => (c_a_vv C x a f) * (crhb_bxt1 d nx C H T x f e))) - sumn (noa d) (fun m => (crhb_H_a_ov d nx C H T m e) * (x_a T a m))).
(** ccpy/hbar/hbar_ccsd_chol.py, build_hbar_ccsd_chol, line 54 *)
Definition crhb_H_b_vv (d : dims) (nx : nat) (C : chol) (H : ints) (T : amps) : mat2 := fun a e =>
  crhb_H_a_vv_1 d nx C H T a e.
(** ccpy/hbar/hbar_ccsd_chol.py, build_hbar_ccsd_chol, line 75 *)
Definition crhb_H_chol_a_oo (d : dims) (nx : nat) (C : chol) (H : ints) (T : amps) : mat3 := fun x m i =>
  c_a_oo C x m i + sumn (nua d) (fun e => (c_a_ov C x m e) * (x_a T e i)).
(** ccpy/hbar/hbar_ccsd_chol.py, build_hbar_ccsd_chol, line 76 *)
Definition crhb_H_chol_a_vv (d : dims) (nx : nat) (C : chol) (H : ints) (T : amps) : mat3 := fun x a e =>
  c_a_vv C x a e - sumn (noa d) (fun m => (c_a_ov C x m e) * (x_a T a m)).
(** ccpy/hbar/hbar_ccsd_chol.py, build_hbar_ccsd_chol, lines 77-82 *)
Definition crhb_H_chol_a_vo (d : dims) (nx : nat) (C : chol) (H : ints) (T : amps) : mat3 := fun x a i =>
  c_a_vo C x a i - sumn (noa d) (fun m => (crhb_H_chol_a_oo d nx C H T x m i) * (x_a T a m)) + sumn (nua d) (fun e => (crhb_H_chol_a_vv d nx C H T x a e) * (x_a T e i)) + sumn (noa d) (fun m => sumn (nua d) (fun e => (c_a_ov C x m e) * (x_a T e i) * (x_a T a m))).
(** ccpy/hbar/hbar_ccsd_chol.py, build_hbar_ccsd_chol, line 84 *)
Definition crhb_H_chol_b_oo (d : dims) (nx : nat) (C : chol) (H : ints) (T : amps) : mat3 := fun x m i =>
  crhb_H_chol_a_oo d nx C H T x m i.
(** ccpy/hbar/hbar_ccsd_chol.py, build_hbar_ccsd_chol, line 85 *)
Definition crhb_H_chol_b_vv (d : dims) (nx : nat) (C : chol) (H : ints) (T : amps) : mat3 := fun x a e =>
  crhb_H_chol_a_vv d nx C H T x a e.
(** ccpy/hbar/hbar_ccsd_chol.py, build_hbar_ccsd_chol, line 86 *)
Definition crhb_H_chol_b_vo (d : dims) (nx : nat) (C : chol) (H : ints) (T : amps) : mat3 := fun x a i =>
  crhb_H_chol_a_vo d nx C H T x a i.
(** ccpy/hbar/hbar_ccsd_chol.py, build_hbar_ccsd_chol, lines 100-104 *)
Definition crhb_x_a_vo (d : dims) (nx : nat) (C : chol) (H : ints) (T : amps) : mat3 := fun x a i =>
  crhb_H_chol_a_vo d nx C H T x a i + sumn (noa d) (fun n => sumn (nua d) (fun f => (c_a_ov C x n f) * (x_aa T a f i n))) + sumn (noa d) (fun n => sumn (nua d) (fun f => (c_b_ov C x n f) * (x_ab T a f i n))).
(** ccpy/hbar/hbar_ccsd_chol.py, build_hbar_ccsd_chol, line 106 *)
Definition crhb_x_b_vo (d : dims) (nx : nat) (C : chol) (H : ints) (T : amps) : mat3 := fun x a i =>
  crhb_x_a_vo d nx C H T x a i.
(** ccpy/hbar/hbar_ccsd_chol.py, build_hbar_ccsd_chol, lines 135-139 *)
Definition crhb_H_aa_oooo (d : dims) (nx : nat) (C : chol) (H : ints) (T : amps) : mat4 := fun m n i j =>
  sumn nx (fun x => (crhb_H_chol_a_oo d nx C H T x m i) * (crhb_H_chol_a_oo d nx C H T x n j)) - sumn nx (fun x => (crhb_H_chol_a_oo d nx C H T x m j) * (crhb_H_chol_a_oo d nx C H T x n i)) + 1 / 2 * (sumn (nua d) (fun e => sumn (nua d) (fun f => (i_aa_oovv H m n e f) * (x_aa T e f i j)))).
(** ccpy/hbar/hbar_ccsd_chol.py, build_hbar_ccsd_chol, line 141 *)
Definition crhb_H_bb_oooo (d : dims) (nx : nat) (C : chol) (H : ints) (T : amps) : mat4 := fun m n i j =>
  crhb_H_aa_oooo d nx C H T m n i j.
(** ccpy/hbar/hbar_ccsd_chol.py, build_hbar_ccsd_chol, lines 148-151 *)
Definition crhb_H_ab_oooo (d : dims) (nx : nat) (C : chol) (H : ints) (T : amps) : mat4 := fun m n i j =>
  sumn nx (fun x => (crhb_H_chol_a_oo d nx C H T x m i) * (crhb_H_chol_b_oo d nx C H T x n j)) + sumn (nua d) (fun e => sumn (nua d) (fun f => (i_ab_oovv H m n e f) * (x_ab T e f i j))).
(** ccpy/hbar/hbar_ccsd_chol.py, build_hbar_ccsd_chol, line 157 *)
Definition crhb_H_aa_ooov (d : dims) (nx : nat) (C : chol) (H : ints) (T : amps) : mat4 := fun m n i e =>
  sumn nx (fun x => (crhb_H_chol_a_oo d nx C H T x m i) * (c_a_ov C x n e)).
(** ccpy/hbar/hbar_ccsd_chol.py, build_hbar_ccsd_chol, line 158 *)
Definition crhb_H_aa_ooov_1 (d : dims) (nx : nat) (C : chol) (H : ints) (T : amps) : mat4 := fun m n i e =>
  crhb_H_aa_ooov d nx C H T m n i e - crhb_H_aa_ooov d nx C H T n m i e.
(** ccpy/hbar/hbar_ccsd_chol.py, build_hbar_ccsd_chol, line 160 *)
Definition crhb_H_bb_ooov (d : dims) (nx : nat) (C : chol) (H : ints) (T : amps) : mat4 := fun m n i e =>
  crhb_H_aa_ooov_1 d nx C H T m n i e.
(** ccpy/hbar/hbar_ccsd_chol.py, build_hbar_ccsd_chol, lines 164-166 *)
Definition crhb_H_ab_ooov (d : dims) (nx : nat) (C : chol) (H : ints) (T : amps) : mat4 := fun m n i e =>
  sumn nx (fun x => (crhb_H_chol_a_oo d nx C H T x m i) * (c_b_ov C x n e)).
(** ccpy/hbar/hbar_ccsd_chol.py, build_hbar_ccsd_chol, lines 167-169 *)
Definition crhb_H_ab_oovo (d : dims) (nx : nat) (C : chol) (H : ints) (T : amps) : mat4 := fun m n e i =>
  sumn nx (fun x => (c_a_ov C x m e) * (crhb_H_chol_b_oo d nx C H T x n i)).
(** ccpy/hbar/hbar_ccsd_chol.py, build_hbar_ccsd_chol, line 175 *)
Definition crhb_H_aa_vovv (d : dims) (nx : nat) (C : chol) (H : ints) (T : amps) : mat4 := fun b n e f =>
  sumn nx (fun x => (crhb_H_chol_a_vv d nx C H T x b e) * (c_a_ov C x n f)).
(** ccpy/hbar/hbar_ccsd_chol.py, build_hbar_ccsd_chol, line 176 *)
Definition crhb_H_aa_vovv_1 (d : dims) (nx : nat) (C : chol) (H : ints) (T : amps) : mat4 := fun b n e f =>
  crhb_H_aa_vovv d nx C H T b n e f - crhb_H_aa_vovv d nx C H T b n f e.
(** ccpy/hbar/hbar_ccsd_chol.py, build_hbar_ccsd_chol, line 178 *)
Definition crhb_H_bb_vovv (d : dims) (nx : nat) (C : chol) (H : ints) (T : amps) : mat4 := fun b n e f =>
  crhb_H_aa_vovv_1 d nx C H T b n e f.
(** ccpy/hbar/hbar_ccsd_chol.py, build_hbar_ccsd_chol, line 182 *)
Definition crhb_H_ab_vovv (d : dims) (nx : nat) (C : chol) (H : ints) (T : amps) : mat4 := fun b n e f =>
  sumn nx (fun x => (crhb_H_chol_a_vv d nx C H T x b e) * (c_b_ov C x n f)).
(** ccpy/hbar/hbar_ccsd_chol.py, build_hbar_ccsd_chol, line 183 *)
Definition crhb_H_ab_ovvv (d : dims) (nx : nat) (C : chol) (H : ints) (T : amps) : mat4 := fun n b f e =>
  sumn nx (fun x => (c_a_ov C x n f) * (crhb_H_chol_b_vv d nx C H T x b e)).
(** ccpy/hbar/hbar_ccsd_chol.py, build_hbar_ccsd_chol, lines 189-197 *)
Definition crhb_H_aa_vooo (d : dims) (nx : nat) (C : chol) (H : ints) (T : amps) : mat4 := fun a m i j =>
  sumn nx (fun x => (crhb_x_a_vo d nx C H T x a i) * (crhb_H_chol_a_oo d nx C H T x m j)) + 1 / 4 * (sumn (nua d) (fun e => sumn (nua d) (fun f => (crhb_H_aa_vovv_1 d nx C H T a m e f) * (x_aa T e f i j)))) + 1 / 2 * (sumn (nua d) (fun e => (crhb_H_a_ov d nx C H T m e) * (x_aa T a e i j))) - sumn nx (fun x => sumn (noa d) (fun n => sumn (nua d) (fun f => (crhb_H_chol_a_oo d nx C H T x n j) * (c_a_ov C x m f) * (x_aa T a f i n)))).
(** ccpy/hbar/hbar_ccsd_chol.py, build_hbar_ccsd_chol, line 198 *)
Definition crhb_H_aa_vooo_1 (d : dims) (nx : nat) (C : chol) (H : ints) (T : amps) : mat4 := fun a m i j =>
  crhb_H_aa_vooo d nx C H T a m i j - crhb_H_aa_vooo d nx C H T a m j i.
(** ccpy/hbar/hbar_ccsd_chol.py, build_hbar_ccsd_chol, line 200 *)
Definition crhb_H_bb_vooo (d : dims) (nx : nat) (C : chol) (H : ints) (T : amps) : mat4 := fun a m i j =>
  crhb_H_aa_vooo_1 d nx C H T a m i j.
(** ccpy/hbar/hbar_ccsd_chol.py, build_hbar_ccsd_chol, lines 212-219 *)
Definition crhb_H_ab_vooo (d : dims) (nx : nat) (C : chol) (H : ints) (T : amps) : mat4 := fun a m i j =>
  sumn nx (fun x => (crhb_H_chol_a_vo d nx C H T x a i) * (crhb_H_chol_b_oo d nx C H T x m j)) + sumn (nua d) (fun e => sumn (nua d) (fun f => (crhb_H_ab_vovv d nx C H T a m e f) * (x_ab T e f i j))) + sumn (noa d) (fun n => sumn (nua d) (fun f => (crhb_H_ab_oovo d nx C H T n m f j) * (x_aa T a f i n))) + sumn (noa d) (fun n => sumn (nua d) (fun f => (crhb_H_bb_ooov d nx C H T m n j f) * (x_ab T a f i n))) - sumn (noa d) (fun n => sumn (nua d) (fun f => (crhb_H_ab_ooov d nx C H T n m i f) * (x_ab T a f n j))) + sumn (nua d) (fun e => (crhb_H_b_ov d nx C H T m e) * (x_ab T a e i j)).
(** ccpy/hbar/hbar_ccsd_chol.py, build_hbar_ccsd_chol, lines 220-227 *)
Definition crhb_H_ab_ovoo (d : dims) (nx : nat) (C : chol) (H : ints) (T : amps) : mat4 := fun m b i j =>
  sumn nx (fun x => (crhb_H_chol_a_oo d nx C H T x m i) * (crhb_H_chol_b_vo d nx C H T x b j)) + sumn (noa d) (fun n => sumn (nua d) (fun f => (crhb_H_aa_ooov_1 d nx C H T m n i f) * (x_ab T f b n j))) + sumn (noa d) (fun n => sumn (nua d) (fun f => (crhb_H_ab_ooov d nx C H T m n i f) * (x_bb T f b n j))) - sumn (noa d) (fun n => sumn (nua d) (fun f => (crhb_H_ab_oovo d nx C H T m n f j) * (x_ab T f b i n))) + sumn (nua d) (fun e => sumn (nua d) (fun f => (crhb_H_ab_ovvv d nx C H T m b e f) * (x_ab T e f i j))) + sumn (nua d) (fun e => (crhb_H_a_ov d nx C H T m e) * (x_ab T e b i j)).
(** ccpy/hbar/hbar_ccsd_chol.py, build_hbar_ccsd_chol, lines 233-238 *)
Definition crhb_H_aa_voov (d : dims) (nx : nat) (C : chol) (H : ints) (T : amps) : mat4 := fun a m i e =>
  sumn nx (fun x => (crhb_H_chol_a_vo d nx C H T x a i) * (c_a_ov C x m e)) - sumn nx (fun x => (crhb_H_chol_a_vv d nx C H T x a e) * (crhb_H_chol_a_oo d nx C H T x m i)) + sumn (noa d) (fun n => sumn (nua d) (fun f => (i_aa_oovv H m n e f) * (x_aa T a f i n))) + sumn (noa d) (fun n => sumn (nua d) (fun f => (i_ab_oovv H m n e f) * (x_ab T a f i n))).
(** ccpy/hbar/hbar_ccsd_chol.py, build_hbar_ccsd_chol, line 240 *)
Definition crhb_H_bb_voov (d : dims) (nx : nat) (C : chol) (H : ints) (T : amps) : mat4 := fun a m i e =>
  crhb_H_aa_voov d nx C H T a m i e.
(** ccpy/hbar/hbar_ccsd_chol.py, build_hbar_ccsd_chol, lines 248-252 *)
Definition crhb_H_ab_voov (d : dims) (nx : nat) (C : chol) (H : ints) (T : amps) : mat4 := fun a m i e =>
  sumn nx (fun x => (crhb_H_chol_a_vo d nx C H T x a i) * (c_b_ov C x m e)) + sumn (noa d) (fun n => sumn (nua d) (fun f => (i_ab_oovv H n m f e) * (x_aa T a f i n))) + sumn (noa d) (fun n => sumn (nua d) (fun f => (i_bb_oovv H m n e f) * (x_ab T a f i n))).
(** ccpy/hbar/hbar_ccsd_chol.py, build_hbar_ccsd_chol, lines 253-257 *)
Definition crhb_H_ab_ovvo (d : dims) (nx : nat) (C : chol) (H : ints) (T : amps) : mat4 := fun m b e j =>
  sumn nx (fun x => (crhb_H_chol_b_vo d nx C H T x b j) * (c_a_ov C x m e)) + sumn (noa d) (fun n => sumn (nua d) (fun f => (i_aa_oovv H m n e f) * (x_ab T f b n j))) + sumn (noa d) (fun n => sumn (nua d) (fun f => (i_ab_oovv H m n e f) * (x_bb T f b n j))).
(** ccpy/hbar/hbar_ccsd_chol.py, build_hbar_ccsd_chol, lines 258-261 *)
Definition crhb_H_ab_ovov (d : dims) (nx : nat) (C : chol) (H : ints) (T : amps) : mat4 := fun m b i e =>
  sumn nx (fun x => (crhb_H_chol_a_oo d nx C H T x m i) * (crhb_H_chol_b_vv d nx C H T x b e)) - sumn (noa d) (fun n => sumn (nua d) (fun f => (i_ab_oovv H m n f e) * (x_ab T f b i n))).
(** ccpy/hbar/hbar_ccsd_chol.py, build_hbar_ccsd_chol, lines 262-265 *)
Definition crhb_H_ab_vovo (d : dims) (nx : nat) (C : chol) (H : ints) (T : amps) : mat4 := fun a m e j =>
  sumn nx (fun x => (crhb_H_chol_a_vv d nx C H T x a e) * (crhb_H_chol_b_oo d nx C H T x m j)) - sumn (noa d) (fun n => sumn (nua d) (fun f => (i_ab_oovv H n m e f) * (x_ab T a f n j))).
(** ccpy/hbar/hbar_ccsd_chol.py, build_hbar_ccsd_chol, lines 271-279 *)
Definition crhb_H_aa_vvov (d : dims) (nx : nat) (C : chol) (H : ints) (T : amps) : mat4 := fun a b i e =>
  sumn nx (fun x => (crhb_x_a_vo d nx C H T x a i) * (crhb_H_chol_a_vv d nx C H T x b e)) + 1 / 4 * (sumn (noa d) (fun m => sumn (noa d) (fun n => (crhb_H_aa_ooov_1 d nx C H T m n i e) * (x_aa T a b m n)))) - 1 / 2 * (sumn (noa d) (fun m => (crhb_H_a_ov d nx C H T m e) * (x_aa T a b i m))) - sumn nx (fun x => sumn (nua d) (fun f => sumn (noa d) (fun n => (crhb_H_chol_a_vv d nx C H T x b f) * (c_a_ov C x n e) * (x_aa T a f i n)))).
(** ccpy/hbar/hbar_ccsd_chol.py, build_hbar_ccsd_chol, line 280 *)
Definition crhb_H_aa_vvov_1 (d : dims) (nx : nat) (C : chol) (H : ints) (T : amps) : mat4 := fun a b i e =>
  crhb_H_aa_vvov d nx C H T a b i e - crhb_H_aa_vvov d nx C H T b a i e.
(** ccpy/hbar/hbar_ccsd_chol.py, build_hbar_ccsd_chol, line 282 *)
Definition crhb_H_bb_vvov (d : dims) (nx : nat) (C : chol) (H : ints) (T : amps) : mat4 := fun a b i e =>
  crhb_H_aa_vvov_1 d nx C H T a b i e.
(** ccpy/hbar/hbar_ccsd_chol.py, build_hbar_ccsd_chol, lines 294-301 *)
Definition crhb_H_ab_vvov (d : dims) (nx : nat) (C : chol) (H : ints) (T : amps) : mat4 := fun a b i e =>
  sumn nx (fun x => (crhb_H_chol_a_vo d nx C H T x a i) * (crhb_H_chol_b_vv d nx C H T x b e)) + sumn (noa d) (fun n => sumn (nua d) (fun f => (crhb_H_ab_ovvv d nx C H T n b f e) * (x_aa T a f i n))) + sumn (noa d) (fun n => sumn (nua d) (fun f => (crhb_H_bb_vovv d nx C H T b n e f) * (x_ab T a f i n))) - sumn (noa d) (fun n => sumn (nua d) (fun f => (crhb_H_ab_vovv d nx C H T a n f e) * (x_ab T f b i n))) + sumn (noa d) (fun m => sumn (noa d) (fun n => (crhb_H_ab_ooov d nx C H T m n i e) * (x_ab T a b m n))) - sumn (noa d) (fun m => (crhb_H_b_ov d nx C H T m e) * (x_ab T a b i m)).
(** ccpy/hbar/hbar_ccsd_chol.py, build_hbar_ccsd_chol, lines 302-309 *)
Definition crhb_H_ab_vvvo (d : dims) (nx : nat) (C : chol) (H : ints) (T : amps) : mat4 := fun a b e j =>
  sumn nx (fun x => (crhb_H_chol_a_vv d nx C H T x a e) * (crhb_H_chol_b_vo d nx C H T x b j)) + sumn (noa d) (fun n => sumn (nua d) (fun f => (crhb_H_aa_vovv_1 d nx C H T a n e f) * (x_ab T f b n j))) + sumn (noa d) (fun n => sumn (nua d) (fun f => (crhb_H_ab_vovv d nx C H T a n e f) * (x_bb T f b n j))) - sumn (noa d) (fun m => sumn (nua d) (fun f => (crhb_H_ab_ovvv d nx C H T m b e f) * (x_ab T a f m j))) + sumn (noa d) (fun m => sumn (noa d) (fun n => (crhb_H_ab_oovo d nx C H T m n e j) * (x_ab T a b m n))) - sumn (noa d) (fun m => (crhb_H_a_ov d nx C H T m e) * (x_ab T a b m j)).
(** hbar_ccsd_chol.py, build_hbar_ccsd_chol, line 311: the Hamiltonian returned, and its vectors H.chol *)
Definition rchol_hbar (d : dims) (nx : nat) (C : chol) (H : ints) (T : amps) : ints := mkInts (crhb_H_a_oo d nx C H T) (crhb_H_a_ov d nx C H T) (i_a_vo H) (crhb_H_a_vv_1 d nx C H T) (crhb_H_b_oo d nx C H T) (crhb_H_b_ov d nx C H T) (i_b_vo H) (crhb_H_b_vv d nx C H T) (crhb_H_aa_oooo d nx C H T) (crhb_H_aa_ooov_1 d nx C H T) (i_aa_oovo H) (i_aa_oovv H) (i_aa_ovoo H) (i_aa_ovov H) (i_aa_ovvo H) (i_aa_ovvv H) (crhb_H_aa_vooo_1 d nx C H T) (crhb_H_aa_voov d nx C H T) (i_aa_vovo H) (crhb_H_aa_vovv_1 d nx C H T) (i_aa_vvoo H) (crhb_H_aa_vvov_1 d nx C H T) (i_aa_vvvo H) (i_aa_vvvv H) (crhb_H_ab_oooo d nx C H T) (crhb_H_ab_ooov d nx C H T) (crhb_H_ab_oovo d nx C H T) (i_ab_oovv H) (crhb_H_ab_ovoo d nx C H T) (crhb_H_ab_ovov d nx C H T) (crhb_H_ab_ovvo d nx C H T) (crhb_H_ab_ovvv d nx C H T) (crhb_H_ab_vooo d nx C H T) (crhb_H_ab_voov d nx C H T) (crhb_H_ab_vovo d nx C H T) (crhb_H_ab_vovv d nx C H T) (i_ab_vvoo H) (crhb_H_ab_vvov d nx C H T) (crhb_H_ab_vvvo d nx C H T) (i_ab_vvvv H) (crhb_H_bb_oooo d nx C H T) (crhb_H_bb_ooov d nx C H T) (i_bb_oovo H) (i_bb_oovv H) (i_bb_ovoo H) (i_bb_ovov H) (i_bb_ovvo H) (i_bb_ovvv H) (crhb_H_bb_vooo d nx C H T) (crhb_H_bb_voov d nx C H T) (i_bb_vovo H) (crhb_H_bb_vovv d nx C H T) (i_bb_vvoo H) (crhb_H_bb_vvov d nx C H T) (i_bb_vvvo H) (i_bb_vvvv H).
Definition rchol_dressed (d : dims) (nx : nat) (C : chol) (H : ints) (T : amps) : chol := mkChol (crhb_H_chol_a_oo d nx C H T) (c_a_ov C) (crhb_H_chol_a_vo d nx C H T) (crhb_H_chol_a_vv d nx C H T) (crhb_H_chol_b_oo d nx C H T) (c_b_ov C) (crhb_H_chol_b_vo d nx C H T) (crhb_H_chol_b_vv d nx C H T).
(** ccpy/eomcc/eomccsd_intermediates.py, get_eomccsd_chol_intermediates, lines 51-57 *)
Definition ceom_X_a_oo (d : dims) (nx : nat) (C : chol) (H : ints) (T R : amps) : mat2 := fun m j =>
  sumn (noa d) (fun n => sumn (nua d) (fun f => (i_aa_ooov H m n j f) * (x_a R f n))) + sumn (nob d) (fun n => sumn (nub d) (fun f => (i_ab_ooov H m n j f) * (x_b R f n))) + 1 / 2 * (sumn (noa d) (fun n => sumn (nua d) (fun e => sumn (nua d) (fun f => (i_aa_oovv H m n e f) * (x_aa R e f j n))))) + sumn (nob d) (fun n => sumn (nua d) (fun e => sumn (nub d) (fun f => (i_ab_oovv H m n e f) * (x_ab R e f j n)))).
(** ccpy/eomcc/eomccsd_intermediates.py, get_eomccsd_chol_intermediates, lines 59-65 *)
Definition ceom_X_a_vv (d : dims) (nx : nat) (C : chol) (H : ints) (T R : amps) : mat2 := fun b e =>
  sumn (noa d) (fun n => sumn (nua d) (fun f => (i_aa_vovv H b n e f) * (x_a R f n))) + sumn (nob d) (fun n => sumn (nub d) (fun f => (i_ab_vovv H b n e f) * (x_b R f n))) - 1 / 2 * (sumn (noa d) (fun m => sumn (noa d) (fun n => sumn (nua d) (fun f => (i_aa_oovv H m n e f) * (x_aa R b f m n))))) - sumn (noa d) (fun m => sumn (nob d) (fun n => sumn (nub d) (fun f => (i_ab_oovv H m n e f) * (x_ab R b f m n)))).
(** ccpy/eomcc/eomccsd_intermediates.py, get_eomccsd_chol_intermediates, lines 67-73 *)
Definition ceom_X_b_oo (d : dims) (nx : nat) (C : chol) (H : ints) (T R : amps) : mat2 := fun m k =>
  sumn (noa d) (fun n => sumn (nua d) (fun f => (i_ab_oovo H n m f k) * (x_a R f n))) + sumn (nob d) (fun n => sumn (nub d) (fun f => (i_bb_ooov H m n k f) * (x_b R f n))) + sumn (noa d) (fun n => sumn (nua d) (fun f => sumn (nub d) (fun e => (i_ab_oovv H n m f e) * (x_ab R f e n k)))) + 1 / 2 * (sumn (nob d) (fun n => sumn (nub d) (fun e => sumn (nub d) (fun f => (i_bb_oovv H m n e f) * (x_bb R e f k n))))).
(** ccpy/eomcc/eomccsd_intermediates.py, get_eomccsd_chol_intermediates, lines 75-81 *)
Definition ceom_X_b_vv (d : dims) (nx : nat) (C : chol) (H : ints) (T R : amps) : mat2 := fun c e =>
  sumn (noa d) (fun n => sumn (nua d) (fun f => (i_ab_ovvv H n c f e) * (x_a R f n))) + sumn (nob d) (fun n => sumn (nub d) (fun f => (i_bb_vovv H c n e f) * (x_b R f n))) - 1 / 1 * (sumn (noa d) (fun n => sumn (nob d) (fun m => sumn (nua d) (fun f => (i_ab_oovv H n m f e) * (x_ab R f c n m))))) - 1 / 2 * (sumn (nob d) (fun m => sumn (nob d) (fun n => sumn (nub d) (fun f => (i_bb_oovv H m n e f) * (x_bb R f c n m))))).
(** ccpy/eomcc/eomccsd_intermediates.py, get_eomccsd_chol_intermediates, lines 83-85 *)
Definition ceom_X_aa_oooo (d : dims) (nx : nat) (C : chol) (H : ints) (T R : amps) : mat4 := fun m n i j =>
  1 / 2 * (sumn (nua d) (fun e => sumn (nua d) (fun f => (i_aa_oovv H m n e f) * (x_aa R e f i j)))).
(** ccpy/eomcc/eomccsd_intermediates.py, get_eomccsd_chol_intermediates, lines 86-88 *)
Definition ceom_X_ab_oooo (d : dims) (nx : nat) (C : chol) (H : ints) (T R : amps) : mat4 := fun m n i j =>
  sumn (nua d) (fun e => sumn (nub d) (fun f => (i_ab_oovv H m n e f) * (x_ab R e f i j))).
(** ccpy/eomcc/eomccsd_intermediates.py, get_eomccsd_chol_intermediates, lines 89-91 *)
Definition ceom_X_bb_oooo (d : dims) (nx : nat) (C : chol) (H : ints) (T R : amps) : mat4 := fun m n i j =>
  1 / 2 * (sumn (nub d) (fun e => sumn (nub d) (fun f => (i_bb_oovv H m n e f) * (x_bb R e f i j)))).
(** ccpy/eomcc/eomccsd_chol.py, build_HR_1A, line 54 *)
Definition ceom_X1A (d : dims) (nx : nat) (C : chol) (H : ints) (T R : amps) : mat2 := fun a i =>
  (- (sumn (noa d) (fun m => (i_a_oo H m i) * (x_a R a m)))).
(** ccpy/eomcc/eomccsd_chol.py, build_HR_1A, line 55 *)
Definition ceom_X1A_1 (d : dims) (nx : nat) (C : chol) (H : ints) (T R : amps) : mat2 := fun a i =>
  ceom_X1A d nx C H T R a i + sumn (nua d) (fun e => (i_a_vv H a e) * (x_a R e i)).
(** ccpy/eomcc/eomccsd_chol.py, build_HR_1A, line 56 *)
Definition ceom_X1A_2 (d : dims) (nx : nat) (C : chol) (H : ints) (T R : amps) : mat2 := fun a i =>
  ceom_X1A_1 d nx C H T R a i + sumn (noa d) (fun m => sumn (nua d) (fun e => (i_aa_voov H a m i e) * (x_a R e m))).
(** ccpy/eomcc/eomccsd_chol.py, build_HR_1A, line 57 *)
Definition ceom_X1A_3 (d : dims) (nx : nat) (C : chol) (H : ints) (T R : amps) : mat2 := fun a i =>
  ceom_X1A_2 d nx C H T R a i + sumn (nob d) (fun m => sumn (nub d) (fun e => (i_ab_voov H a m i e) * (x_b R e m))).
(** ccpy/eomcc/eomccsd_chol.py, build_HR_1A, line 58 *)
Definition ceom_X1A_4 (d : dims) (nx : nat) (C : chol) (H : ints) (T R : amps) : mat2 := fun a i =>
  ceom_X1A_3 d nx C H T R a i - 1 / 2 * (sumn (noa d) (fun m => sumn (noa d) (fun n => sumn (nua d) (fun f => (i_aa_ooov H m n i f) * (x_aa R a f m n))))).
(** ccpy/eomcc/eomccsd_chol.py, build_HR_1A, line 59 *)
Definition ceom_X1A_5 (d : dims) (nx : nat) (C : chol) (H : ints) (T R : amps) : mat2 := fun a i =>
  ceom_X1A_4 d nx C H T R a i - sumn (noa d) (fun m => sumn (nob d) (fun n => sumn (nub d) (fun f => (i_ab_ooov H m n i f) * (x_ab R a f m n)))).
(** ccpy/eomcc/eomccsd_chol.py, build_HR_1A, line 60 *)
Definition ceom_X1A_6 (d : dims) (nx : nat) (C : chol) (H : ints) (T R : amps) : mat2 := fun a i =>
  ceom_X1A_5 d nx C H T R a i + 1 / 2 * (sumn (noa d) (fun n => sumn (nua d) (fun e => sumn (nua d) (fun f => (i_aa_vovv H a n e f) * (x_aa R e f i n))))).
(** ccpy/eomcc/eomccsd_chol.py, build_HR_1A, line 61 *)
Definition ceom_X1A_7 (d : dims) (nx : nat) (C : chol) (H : ints) (T R : amps) : mat2 := fun a i =>
  ceom_X1A_6 d nx C H T R a i + sumn (nob d) (fun n => sumn (nua d) (fun e => sumn (nub d) (fun f => (i_ab_vovv H a n e f) * (x_ab R e f i n)))).
(** ccpy/eomcc/eomccsd_chol.py, build_HR_1A, line 62 *)
Definition ceom_X1A_8 (d : dims) (nx : nat) (C : chol) (H : ints) (T R : amps) : mat2 := fun a i =>
  ceom_X1A_7 d nx C H T R a i + sumn (noa d) (fun m => sumn (nua d) (fun e => (i_a_ov H m e) * (x_aa R a e i m))).
(** ccpy/eomcc/eomccsd_chol.py, build_HR_1A, line 63 *)
Definition ceom_X1A_9 (d : dims) (nx : nat) (C : chol) (H : ints) (T R : amps) : mat2 := fun a i =>
  ceom_X1A_8 d nx C H T R a i + sumn (nob d) (fun m => sumn (nub d) (fun e => (i_b_ov H m e) * (x_ab R a e i m))).
(** ccpy/eomcc/eomccsd_chol.py, build_HR_1B, line 68 *)
Definition ceom_X1B (d : dims) (nx : nat) (C : chol) (H : ints) (T R : amps) : mat2 := fun a i =>
  (- (sumn (nob d) (fun m => (i_b_oo H m i) * (x_b R a m)))).
(** ccpy/eomcc/eomccsd_chol.py, build_HR_1B, line 69 *)
Definition ceom_X1B_1 (d : dims) (nx : nat) (C : chol) (H : ints) (T R : amps) : mat2 := fun a i =>
  ceom_X1B d nx C H T R a i + sumn (nub d) (fun e => (i_b_vv H a e) * (x_b R e i)).
(** ccpy/eomcc/eomccsd_chol.py, build_HR_1B, line 70 *)
Definition ceom_X1B_2 (d : dims) (nx : nat) (C : chol) (H : ints) (T R : amps) : mat2 := fun a i =>
  ceom_X1B_1 d nx C H T R a i + sumn (noa d) (fun m => sumn (nua d) (fun e => (i_ab_ovvo H m a e i) * (x_a R e m))).
(** ccpy/eomcc/eomccsd_chol.py, build_HR_1B, line 71 *)
Definition ceom_X1B_3 (d : dims) (nx : nat) (C : chol) (H : ints) (T R : amps) : mat2 := fun a i =>
  ceom_X1B_2 d nx C H T R a i + sumn (nob d) (fun m => sumn (nub d) (fun e => (i_bb_voov H a m i e) * (x_b R e m))).
(** ccpy/eomcc/eomccsd_chol.py, build_HR_1B, line 72 *)
Definition ceom_X1B_4 (d : dims) (nx : nat) (C : chol) (H : ints) (T R : amps) : mat2 := fun a i =>
  ceom_X1B_3 d nx C H T R a i - sumn (noa d) (fun n => sumn (nob d) (fun m => sumn (nua d) (fun f => (i_ab_oovo H n m f i) * (x_ab R f a n m)))).
(** ccpy/eomcc/eomccsd_chol.py, build_HR_1B, line 73 *)
Definition ceom_X1B_5 (d : dims) (nx : nat) (C : chol) (H : ints) (T R : amps) : mat2 := fun a i =>
  ceom_X1B_4 d nx C H T R a i - 1 / 2 * (sumn (nob d) (fun m => sumn (nob d) (fun n => sumn (nub d) (fun f => (i_bb_ooov H m n i f) * (x_bb R a f m n))))).
(** ccpy/eomcc/eomccsd_chol.py, build_HR_1B, line 74 *)
Definition ceom_X1B_6 (d : dims) (nx : nat) (C : chol) (H : ints) (T R : amps) : mat2 := fun a i =>
  ceom_X1B_5 d nx C H T R a i + sumn (noa d) (fun n => sumn (nua d) (fun f => sumn (nub d) (fun e => (i_ab_ovvv H n a f e) * (x_ab R f e n i)))).
(** ccpy/eomcc/eomccsd_chol.py, build_HR_1B, line 75 *)
Definition ceom_X1B_7 (d : dims) (nx : nat) (C : chol) (H : ints) (T R : amps) : mat2 := fun a i =>
  ceom_X1B_6 d nx C H T R a i + 1 / 2 * (sumn (nob d) (fun n => sumn (nub d) (fun e => sumn (nub d) (fun f => (i_bb_vovv H a n e f) * (x_bb R e f i n))))).
(** ccpy/eomcc/eomccsd_chol.py, build_HR_1B, line 76 *)
Definition ceom_X1B_8 (d : dims) (nx : nat) (C : chol) (H : ints) (T R : amps) : mat2 := fun a i =>
  ceom_X1B_7 d nx C H T R a i + sumn (noa d) (fun m => sumn (nua d) (fun e => (i_a_ov H m e) * (x_ab R e a m i))).
(** ccpy/eomcc/eomccsd_chol.py, build_HR_1B, line 77 *)
Definition ceom_X1B_9 (d : dims) (nx : nat) (C : chol) (H : ints) (T R : amps) : mat2 := fun a i =>
  ceom_X1B_8 d nx C H T R a i + sumn (nob d) (fun m => sumn (nub d) (fun e => (i_b_ov H m e) * (x_bb R a e i m))).
(** ccpy/eomcc/eomccsd_chol.py, build_HR_2A, line 83 *)
Definition ceom_X2A (d : dims) (nx : nat) (C : chol) (H : ints) (T R : amps) : mat4 := fun a b i j =>
  (-1) / 2 * (sumn (noa d) (fun m => (i_a_oo H m i) * (x_aa R a b m j))).
(** ccpy/eomcc/eomccsd_chol.py, build_HR_2A, line 84 *)
Definition ceom_X2A_1 (d : dims) (nx : nat) (C : chol) (H : ints) (T R : amps) : mat4 := fun a b i j =>
  ceom_X2A d nx C H T R a b i j + 1 / 2 * (sumn (nua d) (fun e => (i_a_vv H a e) * (x_aa R e b i j))).
(** ccpy/eomcc/eomccsd_chol.py, build_HR_2A, line 85 *)
Definition ceom_X2A_2 (d : dims) (nx : nat) (C : chol) (H : ints) (T R : amps) : mat4 := fun a b i j =>
  ceom_X2A_1 d nx C H T R a b i j + 1 / 8 * (sumn (noa d) (fun m => sumn (noa d) (fun n => (i_aa_oooo H m n i j) * (x_aa R a b m n)))).
(** ccpy/eomcc/eomccsd_chol.py, build_HR_2A, line 87 *)
Definition ceom_X2A_3 (d : dims) (nx : nat) (C : chol) (H : ints) (T R : amps) : mat4 := fun a b i j =>
  ceom_X2A_2 d nx C H T R a b i j + 1 / 8 * (sumn (noa d) (fun m => sumn (noa d) (fun n => (ceom_X_aa_oooo d nx C H T R m n i j) * (x_aa T a b m n)))).
(** ccpy/eomcc/eomccsd_chol.py, build_HR_2A, line 94 *)
Definition ceom_vR (d : dims) (nx : nat) (C : chol) (H : ints) (T R : amps) : mat3 := fun a b c =>
  c_a_vv C a c b.
(** ccpy/eomcc/eomccsd_chol.py, build_HR_2A, line 94 *)
Definition ceom_vT (d : dims) (nx : nat) (C : chol) (H : ints) (T R : amps) : mat4 := fun i j a b =>
  1 / 2 * (x_aa R b a j i).
(** ccpy/eomcc/eomccsd_chol.py, build_HR_2A, line 95 *)
Definition ceom_X2A_4 (d : dims) (nx : nat) (C : chol) (H : ints) (T R : amps) : mat4 := fun a b i j =>
  ceom_X2A_3 d nx C H T R a b i j + vvvv_t2_sym (noa d) (nua d) nx (ceom_vR d nx C H T R) (ceom_vT d nx C H T R) j i b a.
(** ccpy/eomcc/eomccsd_chol.py, build_HR_2A, line 97 *)
Definition ceom_X2A_5 (d : dims) (nx : nat) (C : chol) (H : ints) (T R : amps) : mat4 := fun a b i j =>
  ceom_X2A_4 d nx C H T R a b i j + sumn (noa d) (fun m => sumn (nua d) (fun e => (i_aa_voov H a m i e) * (x_aa R e b m j))).
(** ccpy/eomcc/eomccsd_chol.py, build_HR_2A, line 98 *)
Definition ceom_X2A_6 (d : dims) (nx : nat) (C : chol) (H : ints) (T R : amps) : mat4 := fun a b i j =>
  ceom_X2A_5 d nx C H T R a b i j + sumn (nob d) (fun m => sumn (nub d) (fun e => (i_ab_voov H a m i e) * (x_ab R b e j m))).
(** ccpy/eomcc/eomccsd_chol.py, build_HR_2A, line 99 *)
Definition ceom_X2A_7 (d : dims) (nx : nat) (C : chol) (H : ints) (T R : amps) : mat4 := fun a b i j =>
  ceom_X2A_6 d nx C H T R a b i j - 1 / 2 * (sumn (noa d) (fun m => (i_aa_vooo H b m j i) * (x_a R a m))).
(** ccpy/eomcc/eomccsd_chol.py, build_HR_2A, line 100 *)
Definition ceom_X2A_8 (d : dims) (nx : nat) (C : chol) (H : ints) (T R : amps) : mat4 := fun a b i j =>
  ceom_X2A_7 d nx C H T R a b i j + 1 / 2 * (sumn (nua d) (fun e => (i_aa_vvov H b a j e) * (x_a R e i))).
(** ccpy/eomcc/eomccsd_chol.py, build_HR_2A, line 101 *)
Definition ceom_X2A_9 (d : dims) (nx : nat) (C : chol) (H : ints) (T R : amps) : mat4 := fun a b i j =>
  ceom_X2A_8 d nx C H T R a b i j + 1 / 2 * (sumn (nua d) (fun e => (ceom_X_a_vv d nx C H T R b e) * (x_aa T a e i j))).
(** ccpy/eomcc/eomccsd_chol.py, build_HR_2A, line 102 *)
Definition ceom_X2A_10 (d : dims) (nx : nat) (C : chol) (H : ints) (T R : amps) : mat4 := fun a b i j =>
  ceom_X2A_9 d nx C H T R a b i j - 1 / 2 * (sumn (noa d) (fun m => (ceom_X_a_oo d nx C H T R m j) * (x_aa T a b i m))).
(** ccpy/eomcc/eomccsd_chol.py, build_HR_2A, line 103 *)
Definition ceom_X2A_11 (d : dims) (nx : nat) (C : chol) (H : ints) (T R : amps) : mat4 := fun a b i j =>
  ceom_X2A_10 d nx C H T R a b i j - ceom_X2A_10 d nx C H T R b a i j.
(** ccpy/eomcc/eomccsd_chol.py, build_HR_2A, line 104 *)
Definition ceom_X2A_12 (d : dims) (nx : nat) (C : chol) (H : ints) (T R : amps) : mat4 := fun a b i j =>
  ceom_X2A_11 d nx C H T R a b i j - ceom_X2A_11 d nx C H T R a b j i.
(** ccpy/eomcc/eomccsd_chol.py, build_HR_2B, line 109 *)
Definition ceom_X2B (d : dims) (nx : nat) (C : chol) (H : ints) (T R : amps) : mat4 := fun a b i j =>
  sumn (nua d) (fun e => (i_a_vv H a e) * (x_ab R e b i j)).
(** ccpy/eomcc/eomccsd_chol.py, build_HR_2B, line 110 *)
Definition ceom_X2B_1 (d : dims) (nx : nat) (C : chol) (H : ints) (T R : amps) : mat4 := fun a b i j =>
  ceom_X2B d nx C H T R a b i j + sumn (nub d) (fun e => (i_b_vv H b e) * (x_ab R a e i j)).
(** ccpy/eomcc/eomccsd_chol.py, build_HR_2B, line 111 *)
Definition ceom_X2B_2 (d : dims) (nx : nat) (C : chol) (H : ints) (T R : amps) : mat4 := fun a b i j =>
  ceom_X2B_1 d nx C H T R a b i j - sumn (noa d) (fun m => (i_a_oo H m i) * (x_ab R a b m j)).
(** ccpy/eomcc/eomccsd_chol.py, build_HR_2B, line 112 *)
Definition ceom_X2B_3 (d : dims) (nx : nat) (C : chol) (H : ints) (T R : amps) : mat4 := fun a b i j =>
  ceom_X2B_2 d nx C H T R a b i j - sumn (nob d) (fun m => (i_b_oo H m j) * (x_ab R a b i m)).
(** ccpy/eomcc/eomccsd_chol.py, build_HR_2B, line 113 *)
Definition ceom_X2B_4 (d : dims) (nx : nat) (C : chol) (H : ints) (T R : amps) : mat4 := fun a b i j =>
  ceom_X2B_3 d nx C H T R a b i j + sumn (noa d) (fun m => sumn (nob d) (fun n => (i_ab_oooo H m n i j) * (x_ab R a b m n))).
(** ccpy/eomcc/eomccsd_chol.py, build_HR_2B, line 115 *)
Definition ceom_X2B_5 (d : dims) (nx : nat) (C : chol) (H : ints) (T R : amps) : mat4 := fun a b i j =>
  ceom_X2B_4 d nx C H T R a b i j + sumn (noa d) (fun m => sumn (nob d) (fun n => (ceom_X_ab_oooo d nx C H T R m n i j) * (x_ab T a b m n))).
(** ccpy/eomcc/eomccsd_chol.py, build_HR_2B, line 121 *)
Definition ceom_vRa (d : dims) (nx : nat) (C : chol) (H : ints) (T R : amps) : mat3 := fun a b c =>
  c_a_vv C a c b.
(** ccpy/eomcc/eomccsd_chol.py, build_HR_2B, line 121 *)
Definition ceom_vRb (d : dims) (nx : nat) (C : chol) (H : ints) (T R : amps) : mat3 := fun a b c =>
  c_b_vv C a c b.
(** ccpy/eomcc/eomccsd_chol.py, build_HR_2B, line 121 *)
Definition ceom_vT_1 (d : dims) (nx : nat) (C : chol) (H : ints) (T R : amps) : mat4 := fun i j a b =>
  x_ab R b a j i.
(** ccpy/eomcc/eomccsd_chol.py, build_HR_2B, line 122 *)
Definition ceom_X2B_6 (d : dims) (nx : nat) (C : chol) (H : ints) (T R : amps) : mat4 := fun a b i j =>
  ceom_X2B_5 d nx C H T R a b i j + vvvv_t2 (nua d) (nub d) nx (ceom_vRa d nx C H T R) (ceom_vRb d nx C H T R) (ceom_vT_1 d nx C H T R) j i b a.
(** ccpy/eomcc/eomccsd_chol.py, build_HR_2B, line 124 *)
Definition ceom_X2B_7 (d : dims) (nx : nat) (C : chol) (H : ints) (T R : amps) : mat4 := fun a b i j =>
  ceom_X2B_6 d nx C H T R a b i j + sumn (noa d) (fun m => sumn (nua d) (fun e => (i_aa_voov H a m i e) * (x_ab R e b m j))).
(** ccpy/eomcc/eomccsd_chol.py, build_HR_2B, line 125 *)
Definition ceom_X2B_8 (d : dims) (nx : nat) (C : chol) (H : ints) (T R : amps) : mat4 := fun a b i j =>
  ceom_X2B_7 d nx C H T R a b i j + sumn (nob d) (fun m => sumn (nub d) (fun e => (i_ab_voov H a m i e) * (x_bb R e b m j))).
(** ccpy/eomcc/eomccsd_chol.py, build_HR_2B, line 126 *)
Definition ceom_X2B_9 (d : dims) (nx : nat) (C : chol) (H : ints) (T R : amps) : mat4 := fun a b i j =>
  ceom_X2B_8 d nx C H T R a b i j + sumn (noa d) (fun m => sumn (nua d) (fun e => (i_ab_ovvo H m b e j) * (x_aa R a e i m))).
(** ccpy/eomcc/eomccsd_chol.py, build_HR_2B, line 127 *)
Definition ceom_X2B_10 (d : dims) (nx : nat) (C : chol) (H : ints) (T R : amps) : mat4 := fun a b i j =>
  ceom_X2B_9 d nx C H T R a b i j + sumn (nob d) (fun m => sumn (nub d) (fun e => (i_bb_voov H b m j e) * (x_ab R a e i m))).
(** ccpy/eomcc/eomccsd_chol.py, build_HR_2B, line 128 *)
Definition ceom_X2B_11 (d : dims) (nx : nat) (C : chol) (H : ints) (T R : amps) : mat4 := fun a b i j =>
  ceom_X2B_10 d nx C H T R a b i j - sumn (noa d) (fun m => sumn (nub d) (fun e => (i_ab_ovov H m b i e) * (x_ab R a e m j))).
(** ccpy/eomcc/eomccsd_chol.py, build_HR_2B, line 129 *)
Definition ceom_X2B_12 (d : dims) (nx : nat) (C : chol) (H : ints) (T R : amps) : mat4 := fun a b i j =>
  ceom_X2B_11 d nx C H T R a b i j - sumn (nob d) (fun m => sumn (nua d) (fun e => (i_ab_vovo H a m e j) * (x_ab R e b i m))).
(** ccpy/eomcc/eomccsd_chol.py, build_HR_2B, line 130 *)
Definition ceom_X2B_13 (d : dims) (nx : nat) (C : chol) (H : ints) (T R : amps) : mat4 := fun a b i j =>
  ceom_X2B_12 d nx C H T R a b i j + sumn (nua d) (fun e => (i_ab_vvvo H a b e j) * (x_a R e i)).
(** ccpy/eomcc/eomccsd_chol.py, build_HR_2B, line 131 *)
Definition ceom_X2B_14 (d : dims) (nx : nat) (C : chol) (H : ints) (T R : amps) : mat4 := fun a b i j =>
  ceom_X2B_13 d nx C H T R a b i j + sumn (nub d) (fun e => (i_ab_vvov H a b i e) * (x_b R e j)).
(** ccpy/eomcc/eomccsd_chol.py, build_HR_2B, line 132 *)
Definition ceom_X2B_15 (d : dims) (nx : nat) (C : chol) (H : ints) (T R : amps) : mat4 := fun a b i j =>
  ceom_X2B_14 d nx C H T R a b i j - sumn (noa d) (fun m => (i_ab_ovoo H m b i j) * (x_a R a m)).
(** ccpy/eomcc/eomccsd_chol.py, build_HR_2B, line 133 *)
Definition ceom_X2B_16 (d : dims) (nx : nat) (C : chol) (H : ints) (T R : amps) : mat4 := fun a b i j =>
  ceom_X2B_15 d nx C H T R a b i j - sumn (nob d) (fun m => (i_ab_vooo H a m i j) * (x_b R b m)).
(** ccpy/eomcc/eomccsd_chol.py, build_HR_2B, line 134 *)
Definition ceom_X2B_17 (d : dims) (nx : nat) (C : chol) (H : ints) (T R : amps) : mat4 := fun a b i j =>
  ceom_X2B_16 d nx C H T R a b i j + sumn (nua d) (fun e => (ceom_X_a_vv d nx C H T R a e) * (x_ab T e b i j)).
(** ccpy/eomcc/eomccsd_chol.py, build_HR_2B, line 135 *)
Definition ceom_X2B_18 (d : dims) (nx : nat) (C : chol) (H : ints) (T R : amps) : mat4 := fun a b i j =>
  ceom_X2B_17 d nx C H T R a b i j - sumn (noa d) (fun m => (ceom_X_a_oo d nx C H T R m i) * (x_ab T a b m j)).
(** ccpy/eomcc/eomccsd_chol.py, build_HR_2B, line 136 *)
Definition ceom_X2B_19 (d : dims) (nx : nat) (C : chol) (H : ints) (T R : amps) : mat4 := fun a b i j =>
  ceom_X2B_18 d nx C H T R a b i j + sumn (nub d) (fun e => (ceom_X_b_vv d nx C H T R b e) * (x_ab T a e i j)).
(** ccpy/eomcc/eomccsd_chol.py, build_HR_2B, line 137 *)
Definition ceom_X2B_20 (d : dims) (nx : nat) (C : chol) (H : ints) (T R : amps) : mat4 := fun a b i j =>
  ceom_X2B_19 d nx C H T R a b i j - sumn (nob d) (fun m => (ceom_X_b_oo d nx C H T R m j) * (x_ab T a b i m)).
(** ccpy/eomcc/eomccsd_chol.py, build_HR_2C, line 142 *)
Definition ceom_X2C (d : dims) (nx : nat) (C : chol) (H : ints) (T R : amps) : mat4 := fun a b i j =>
  (-1) / 2 * (sumn (nob d) (fun m => (i_b_oo H m i) * (x_bb R a b m j))).
(** ccpy/eomcc/eomccsd_chol.py, build_HR_2C, line 143 *)
Definition ceom_X2C_1 (d : dims) (nx : nat) (C : chol) (H : ints) (T R : amps) : mat4 := fun a b i j =>
  ceom_X2C d nx C H T R a b i j + 1 / 2 * (sumn (nub d) (fun e => (i_b_vv H a e) * (x_bb R e b i j))).
(** ccpy/eomcc/eomccsd_chol.py, build_HR_2C, line 144 *)
Definition ceom_X2C_2 (d : dims) (nx : nat) (C : chol) (H : ints) (T R : amps) : mat4 := fun a b i j =>
  ceom_X2C_1 d nx C H T R a b i j + 1 / 8 * (sumn (nob d) (fun m => sumn (nob d) (fun n => (i_bb_oooo H m n i j) * (x_bb R a b m n)))).
(** ccpy/eomcc/eomccsd_chol.py, build_HR_2C, line 146 *)
Definition ceom_X2C_3 (d : dims) (nx : nat) (C : chol) (H : ints) (T R : amps) : mat4 := fun a b i j =>
  ceom_X2C_2 d nx C H T R a b i j + 1 / 8 * (sumn (nob d) (fun m => sumn (nob d) (fun n => (ceom_X_bb_oooo d nx C H T R m n i j) * (x_bb T a b m n)))).
(** ccpy/eomcc/eomccsd_chol.py, build_HR_2C, line 153 *)
Definition ceom_vR_1 (d : dims) (nx : nat) (C : chol) (H : ints) (T R : amps) : mat3 := fun a b c =>
  c_b_vv C a c b.
(** ccpy/eomcc/eomccsd_chol.py, build_HR_2C, line 153 *)
Definition ceom_vT_2 (d : dims) (nx : nat) (C : chol) (H : ints) (T R : amps) : mat4 := fun i j a b =>
  1 / 2 * (x_bb R b a j i).
(** ccpy/eomcc/eomccsd_chol.py, build_HR_2C, line 154 *)
Definition ceom_X2C_4 (d : dims) (nx : nat) (C : chol) (H : ints) (T R : amps) : mat4 := fun a b i j =>
  ceom_X2C_3 d nx C H T R a b i j + vvvv_t2_sym (nob d) (nub d) nx (ceom_vR_1 d nx C H T R) (ceom_vT_2 d nx C H T R) j i b a.
(** ccpy/eomcc/eomccsd_chol.py, build_HR_2C, line 156 *)
Definition ceom_X2C_5 (d : dims) (nx : nat) (C : chol) (H : ints) (T R : amps) : mat4 := fun a b i j =>
  ceom_X2C_4 d nx C H T R a b i j + sumn (nob d) (fun m => sumn (nub d) (fun e => (i_bb_voov H a m i e) * (x_bb R e b m j))).
(** ccpy/eomcc/eomccsd_chol.py, build_HR_2C, line 157 *)
Definition ceom_X2C_6 (d : dims) (nx : nat) (C : chol) (H : ints) (T R : amps) : mat4 := fun a b i j =>
  ceom_X2C_5 d nx C H T R a b i j + sumn (noa d) (fun m => sumn (nua d) (fun e => (i_ab_ovvo H m a e i) * (x_ab R e b m j))).
(** ccpy/eomcc/eomccsd_chol.py, build_HR_2C, line 158 *)
Definition ceom_X2C_7 (d : dims) (nx : nat) (C : chol) (H : ints) (T R : amps) : mat4 := fun a b i j =>
  ceom_X2C_6 d nx C H T R a b i j - 1 / 2 * (sumn (nob d) (fun m => (i_bb_vooo H b m j i) * (x_b R a m))).
(** ccpy/eomcc/eomccsd_chol.py, build_HR_2C, line 159 *)
Definition ceom_X2C_8 (d : dims) (nx : nat) (C : chol) (H : ints) (T R : amps) : mat4 := fun a b i j =>
  ceom_X2C_7 d nx C H T R a b i j + 1 / 2 * (sumn (nub d) (fun e => (i_bb_vvov H b a j e) * (x_b R e i))).
(** ccpy/eomcc/eomccsd_chol.py, build_HR_2C, line 160 *)
Definition ceom_X2C_9 (d : dims) (nx : nat) (C : chol) (H : ints) (T R : amps) : mat4 := fun a b i j =>
  ceom_X2C_8 d nx C H T R a b i j + 1 / 2 * (sumn (nub d) (fun e => (ceom_X_b_vv d nx C H T R b e) * (x_bb T a e i j))).
(** ccpy/eomcc/eomccsd_chol.py, build_HR_2C, line 161 *)
Definition ceom_X2C_10 (d : dims) (nx : nat) (C : chol) (H : ints) (T R : amps) : mat4 := fun a b i j =>
  ceom_X2C_9 d nx C H T R a b i j - 1 / 2 * (sumn (nob d) (fun m => (ceom_X_b_oo d nx C H T R m j) * (x_bb T a b i m))).
(** ccpy/eomcc/eomccsd_chol.py, build_HR_2C, line 162 *)
Definition ceom_X2C_11 (d : dims) (nx : nat) (C : chol) (H : ints) (T R : amps) : mat4 := fun a b i j =>
  ceom_X2C_10 d nx C H T R a b i j - ceom_X2C_10 d nx C H T R b a i j.
(** ccpy/eomcc/eomccsd_chol.py, build_HR_2C, line 163 *)
Definition ceom_X2C_12 (d : dims) (nx : nat) (C : chol) (H : ints) (T R : amps) : mat4 := fun a b i j =>
  ceom_X2C_11 d nx C H T R a b i j - ceom_X2C_11 d nx C H T R a b j i.
(** eomccsd_chol.py, HR, lines 32-50 *)
Definition chol_HR (d : dims) (nx : nat) (C : chol) (H : ints) (T R : amps) : amps := mkAmps (ceom_X1A_9 d nx C H T R) (ceom_X1B_9 d nx C H T R) (ceom_X2A_12 d nx C H T R) (ceom_X2B_20 d nx C H T R) (ceom_X2C_12 d nx C H T R) (fun _ _ _ _ _ _ => 0) (fun _ _ _ _ _ _ => 0) (fun _ _ _ _ _ _ => 0) (fun _ _ _ _ _ _ => 0).
(** ccpy/eomcc/eomccsd_intermediates.py, get_eomccsd_chol_intermediates, lines 51-57 *)
Definition creomc_X_a_oo (d : dims) (nx : nat) (C : chol) (H : ints) (T R : amps) : mat2 := fun m j =>
  sumn (noa d) (fun n => sumn (nua d) (fun f => (i_aa_ooov H m n j f) * (x_a R f n))) + sumn (noa d) (fun n => sumn (nua d) (fun f => (i_ab_ooov H m n j f) * (x_b R f n))) + 1 / 2 * (sumn (noa d) (fun n => sumn (nua d) (fun e => sumn (nua d) (fun f => (i_aa_oovv H m n e f) * (x_aa R e f j n))))) + sumn (noa d) (fun n => sumn (nua d) (fun e => sumn (nua d) (fun f => (i_ab_oovv H m n e f) * (x_ab R e f j n)))).
(** ccpy/eomcc/eomccsd_intermediates.py, get_eomccsd_chol_intermediates, lines 59-65 *)
Definition creomc_X_a_vv (d : dims) (nx : nat) (C : chol) (H : ints) (T R : amps) : mat2 := fun b e =>
  sumn (noa d) (fun n => sumn (nua d) (fun f => (i_aa_vovv H b n e f) * (x_a R f n))) + sumn (noa d) (fun n => sumn (nua d) (fun f => (i_ab_vovv H b n e f) * (x_b R f n))) - 1 / 2 * (sumn (noa d) (fun m => sumn (noa d) (fun n => sumn (nua d) (fun f => (i_aa_oovv H m n e f) * (x_aa R b f m n))))) - sumn (noa d) (fun m => sumn (noa d) (fun n => sumn (nua d) (fun f => (i_ab_oovv H m n e f) * (x_ab R b f m n)))).
(** ccpy/eomcc/eomccsd_intermediates.py, get_eomccsd_chol_intermediates, lines 67-73 *)
Definition creomc_X_b_oo (d : dims) (nx : nat) (C : chol) (H : ints) (T R : amps) : mat2 := fun m k =>
  sumn (noa d) (fun n => sumn (nua d) (fun f => (i_ab_oovo H n m f k) * (x_a R f n))) + sumn (noa d) (fun n => sumn (nua d) (fun f => (i_bb_ooov H m n k f) * (x_b R f n))) + sumn (noa d) (fun n => sumn (nua d) (fun f => sumn (nua d) (fun e => (i_ab_oovv H n m f e) * (x_ab R f e n k)))) + 1 / 2 * (sumn (noa d) (fun n => sumn (nua d) (fun e => sumn (nua d) (fun f => (i_bb_oovv H m n e f) * (x_bb R e f k n))))).
(** ccpy/eomcc/eomccsd_intermediates.py, get_eomccsd_chol_intermediates, lines 75-81 *)
Definition creomc_X_b_vv (d : dims) (nx : nat) (C : chol) (H : ints) (T R : amps) : mat2 := fun c e =>
  sumn (noa d) (fun n => sumn (nua d) (fun f => (i_ab_ovvv H n c f e) * (x_a R f n))) + sumn (noa d) (fun n => sumn (nua d) (fun f => (i_bb_vovv H c n e f) * (x_b R f n))) - 1 / 1 * (sumn (noa d) (fun n => sumn (noa d) (fun m => sumn (nua d) (fun f => (i_ab_oovv H n m f e) * (x_ab R f c n m))))) - 1 / 2 * (sumn (noa d) (fun m => sumn (noa d) (fun n => sumn (nua d) (fun f => (i_bb_oovv H m n e f) * (x_bb R f c n m))))).
(** ccpy/eomcc/eomccsd_intermediates.py, get_eomccsd_chol_intermediates, lines 83-85 *)
Definition creomc_X_aa_oooo (d : dims) (nx : nat) (C : chol) (H : ints) (T R : amps) : mat4 := fun m n i j =>
  1 / 2 * (sumn (nua d) (fun e => sumn (nua d) (fun f => (i_aa_oovv H m n e f) * (x_aa R e f i j)))).
(** ccpy/eomcc/eomccsd_intermediates.py, get_eomccsd_chol_intermediates, lines 86-88 *)
Definition creomc_X_ab_oooo (d : dims) (nx : nat) (C : chol) (H : ints) (T R : amps) : mat4 := fun m n i j =>
  sumn (nua d) (fun e => sumn (nua d) (fun f => (i_ab_oovv H m n e f) * (x_ab R e f i j))).
(** ccpy/eomcc/eomccsd_intermediates.py, get_eomccsd_chol_intermediates, lines 89-91 *)
Definition creomc_X_bb_oooo (d : dims) (nx : nat) (C : chol) (H : ints) (T R : amps) : mat4 := fun m n i j =>
  1 / 2 * (sumn (nua d) (fun e => sumn (nua d) (fun f => (i_bb_oovv H m n e f) * (x_bb R e f i j)))).
(** ccpy/eomcc/eomccsd_chol.py, build_HR_1A, line 54 *)
Definition creomc_X1A (d : dims) (nx : nat) (C : chol) (H : ints) (T R : amps) : mat2 := fun a i =>
  (- (sumn (noa d) (fun m => (i_a_oo H m i) * (x_a R a m)))).
(** ccpy/eomcc/eomccsd_chol.py, build_HR_1A, line 55 *)
Definition creomc_X1A_1 (d : dims) (nx : nat) (C : chol) (H : ints) (T R : amps) : mat2 := fun a i =>
  creomc_X1A d nx C H T R a i + sumn (nua d) (fun e => (i_a_vv H a e) * (x_a R e i)).
(** ccpy/eomcc/eomccsd_chol.py, build_HR_1A, line 56 *)
Definition creomc_X1A_2 (d : dims) (nx : nat) (C : chol) (H : ints) (T R : amps) : mat2 := fun a i =>
  creomc_X1A_1 d nx C H T R a i + sumn (noa d) (fun m => sumn (nua d) (fun e => (i_aa_voov H a m i e) * (x_a R e m))).
(** ccpy/eomcc/eomccsd_chol.py, build_HR_1A, line 57 *)
Definition creomc_X1A_3 (d : dims) (nx : nat) (C : chol) (H : ints) (T R : amps) : mat2 := fun a i =>
  creomc_X1A_2 d nx C H T R a i + sumn (noa d) (fun m => sumn (nua d) (fun e => (i_ab_voov H a m i e) * (x_b R e m))).
(** ccpy/eomcc/eomccsd_chol.py, build_HR_1A, line 58 *)
Definition creomc_X1A_4 (d : dims) (nx : nat) (C : chol) (H : ints) (T R : amps) : mat2 := fun a i =>
  creomc_X1A_3 d nx C H T R a i - 1 / 2 * (sumn (noa d) (fun m => sumn (noa d) (fun n => sumn (nua d) (fun f => (i_aa_ooov H m n i f) * (x_aa R a f m n))))).
(** ccpy/eomcc/eomccsd_chol.py, build_HR_1A, line 59 *)
Definition creomc_X1A_5 (d : dims) (nx : nat) (C : chol) (H : ints) (T R : amps) : mat2 := fun a i =>
  creomc_X1A_4 d nx C H T R a i - sumn (noa d) (fun m => sumn (noa d) (fun n => sumn (nua d) (fun f => (i_ab_ooov H m n i f) * (x_ab R a f m n)))).
(** ccpy/eomcc/eomccsd_chol.py, build_HR_1A, line 60 *)
Definition creomc_X1A_6 (d : dims) (nx : nat) (C : chol) (H : ints) (T R : amps) : mat2 := fun a i =>
  creomc_X1A_5 d nx C H T R a i + 1 / 2 * (sumn (noa d) (fun n => sumn (nua d) (fun e => sumn (nua d) (fun f => (i_aa_vovv H a n e f) * (x_aa R e f i n))))).
(** ccpy/eomcc/eomccsd_chol.py, build_HR_1A, line 61 *)
Definition creomc_X1A_7 (d : dims) (nx : nat) (C : chol) (H : ints) (T R : amps) : mat2 := fun a i =>
  creomc_X1A_6 d nx C H T R a i + sumn (noa d) (fun n => sumn (nua d) (fun e => sumn (nua d) (fun f => (i_ab_vovv H a n e f) * (x_ab R e f i n)))).
(** ccpy/eomcc/eomccsd_chol.py, build_HR_1A, line 62 *)
Definition creomc_X1A_8 (d : dims) (nx : nat) (C : chol) (H : ints) (T R : amps) : mat2 := fun a i =>
  creomc_X1A_7 d nx C H T R a i + sumn (noa d) (fun m => sumn (nua d) (fun e => (i_a_ov H m e) * (x_aa R a e i m))).
(** ccpy/eomcc/eomccsd_chol.py, build_HR_1A, line 63 *)
Definition creomc_X1A_9 (d : dims) (nx : nat) (C : chol) (H : ints) (T R : amps) : mat2 := fun a i =>
  creomc_X1A_8 d nx C H T R a i + sumn (noa d) (fun m => sumn (nua d) (fun e => (i_b_ov H m e) * (x_ab R a e i m))).
(** ccpy/eomcc/eomccsd_chol.py, HR, line 40 *)
Definition creomc_dR_b (d : dims) (nx : nat) (C : chol) (H : ints) (T R : amps) : mat2 := fun a i =>
  creomc_X1A_9 d nx C H T R a i.
(** ccpy/eomcc/eomccsd_chol.py, build_HR_2A, line 83 *)
Definition creomc_X2A (d : dims) (nx : nat) (C : chol) (H : ints) (T R : amps) : mat4 := fun a b i j =>
  (-1) / 2 * (sumn (noa d) (fun m => (i_a_oo H m i) * (x_aa R a b m j))).
(** ccpy/eomcc/eomccsd_chol.py, build_HR_2A, line 84 *)
Definition creomc_X2A_1 (d : dims) (nx : nat) (C : chol) (H : ints) (T R : amps) : mat4 := fun a b i j =>
  creomc_X2A d nx C H T R a b i j + 1 / 2 * (sumn (nua d) (fun e => (i_a_vv H a e) * (x_aa R e b i j))).
(** ccpy/eomcc/eomccsd_chol.py, build_HR_2A, line 85 *)
Definition creomc_X2A_2 (d : dims) (nx : nat) (C : chol) (H : ints) (T R : amps) : mat4 := fun a b i j =>
  creomc_X2A_1 d nx C H T R a b i j + 1 / 8 * (sumn (noa d) (fun m => sumn (noa d) (fun n => (i_aa_oooo H m n i j) * (x_aa R a b m n)))).
(** ccpy/eomcc/eomccsd_chol.py, build_HR_2A, line 87 *)
Definition creomc_X2A_3 (d : dims) (nx : nat) (C : chol) (H : ints) (T R : amps) : mat4 := fun a b i j =>
  creomc_X2A_2 d nx C H T R a b i j + 1 / 8 * (sumn (noa d) (fun m => sumn (noa d) (fun n => (creomc_X_aa_oooo d nx C H T R m n i j) * (x_aa T a b m n)))).
(** ccpy/eomcc/eomccsd_chol.py, build_HR_2A, line 94 *)
Definition creomc_vR (d : dims) (nx : nat) (C : chol) (H : ints) (T R : amps) : mat3 := fun a b c =>
  c_a_vv C a c b.
(** ccpy/eomcc/eomccsd_chol.py, build_HR_2A, line 94 *)
Definition creomc_vT (d : dims) (nx : nat) (C : chol) (H : ints) (T R : amps) : mat4 := fun i j a b =>
  1 / 2 * (x_aa R b a j i).
(** ccpy/eomcc/eomccsd_chol.py, build_HR_2A, line 95 *)
Definition creomc_X2A_4 (d : dims) (nx : nat) (C : chol) (H : ints) (T R : amps) : mat4 := fun a b i j =>
  creomc_X2A_3 d nx C H T R a b i j + vvvv_t2_sym (noa d) (nua d) nx (creomc_vR d nx C H T R) (creomc_vT d nx C H T R) j i b a.
(** ccpy/eomcc/eomccsd_chol.py, build_HR_2A, line 97 *)
Definition creomc_X2A_5 (d : dims) (nx : nat) (C : chol) (H : ints) (T R : amps) : mat4 := fun a b i j =>
  creomc_X2A_4 d nx C H T R a b i j + sumn (noa d) (fun m => sumn (nua d) (fun e => (i_aa_voov H a m i e) * (x_aa R e b m j))).
(** ccpy/eomcc/eomccsd_chol.py, build_HR_2A, line 98 *)
Definition creomc_X2A_6 (d : dims) (nx : nat) (C : chol) (H : ints) (T R : amps) : mat4 := fun a b i j =>
  creomc_X2A_5 d nx C H T R a b i j + sumn (noa d) (fun m => sumn (nua d) (fun e => (i_ab_voov H a m i e) * (x_ab R b e j m))).
(** ccpy/eomcc/eomccsd_chol.py, build_HR_2A, line 99 *)
Definition creomc_X2A_7 (d : dims) (nx : nat) (C : chol) (H : ints) (T R : amps) : mat4 := fun a b i j =>
  creomc_X2A_6 d nx C H T R a b i j - 1 / 2 * (sumn (noa d) (fun m => (i_aa_vooo H b m j i) * (x_a R a m))).
(** ccpy/eomcc/eomccsd_chol.py, build_HR_2A, line 100 *)
Definition creomc_X2A_8 (d : dims) (nx : nat) (C : chol) (H : ints) (T R : amps) : mat4 := fun a b i j =>
  creomc_X2A_7 d nx C H T R a b i j + 1 / 2 * (sumn (nua d) (fun e => (i_aa_vvov H b a j e) * (x_a R e i))).
(** ccpy/eomcc/eomccsd_chol.py, build_HR_2A, line 101 *)
Definition creomc_X2A_9 (d : dims) (nx : nat) (C : chol) (H : ints) (T R : amps) : mat4 := fun a b i j =>
  creomc_X2A_8 d nx C H T R a b i j + 1 / 2 * (sumn (nua d) (fun e => (creomc_X_a_vv d nx C H T R b e) * (x_aa T a e i j))).
(** ccpy/eomcc/eomccsd_chol.py, build_HR_2A, line 102 *)
Definition creomc_X2A_10 (d : dims) (nx : nat) (C : chol) (H : ints) (T R : amps) : mat4 := fun a b i j =>
  creomc_X2A_9 d nx C H T R a b i j - 1 / 2 * (sumn (noa d) (fun m => (creomc_X_a_oo d nx C H T R m j) * (x_aa T a b i m))).
(** ccpy/eomcc/eomccsd_chol.py, build_HR_2A, line 103 *)
Definition creomc_X2A_11 (d : dims) (nx : nat) (C : chol) (H : ints) (T R : amps) : mat4 := fun a b i j =>
  creomc_X2A_10 d nx C H T R a b i j - creomc_X2A_10 d nx C H T R b a i j.
(** ccpy/eomcc/eomccsd_chol.py, build_HR_2A, line 104 *)
Definition creomc_X2A_12 (d : dims) (nx : nat) (C : chol) (H : ints) (T R : amps) : mat4 := fun a b i j =>
  creomc_X2A_11 d nx C H T R a b i j - creomc_X2A_11 d nx C H T R a b j i.
(** ccpy/eomcc/eomccsd_chol.py, build_HR_2B, line 109 *)
Definition creomc_X2B (d : dims) (nx : nat) (C : chol) (H : ints) (T R : amps) : mat4 := fun a b i j =>
  sumn (nua d) (fun e => (i_a_vv H a e) * (x_ab R e b i j)).
(** ccpy/eomcc/eomccsd_chol.py, build_HR_2B, line 110 *)
Definition creomc_X2B_1 (d : dims) (nx : nat) (C : chol) (H : ints) (T R : amps) : mat4 := fun a b i j =>
  creomc_X2B d nx C H T R a b i j + sumn (nua d) (fun e => (i_b_vv H b e) * (x_ab R a e i j)).
(** ccpy/eomcc/eomccsd_chol.py, build_HR_2B, line 111 *)
Definition creomc_X2B_2 (d : dims) (nx : nat) (C : chol) (H : ints) (T R : amps) : mat4 := fun a b i j =>
  creomc_X2B_1 d nx C H T R a b i j - sumn (noa d) (fun m => (i_a_oo H m i) * (x_ab R a b m j)).
(** ccpy/eomcc/eomccsd_chol.py, build_HR_2B, line 112 *)
Definition creomc_X2B_3 (d : dims) (nx : nat) (C : chol) (H : ints) (T R : amps) : mat4 := fun a b i j =>
  creomc_X2B_2 d nx C H T R a b i j - sumn (noa d) (fun m => (i_b_oo H m j) * (x_ab R a b i m)).
(** ccpy/eomcc/eomccsd_chol.py, build_HR_2B, line 113 *)
Definition creomc_X2B_4 (d : dims) (nx : nat) (C : chol) (H : ints) (T R : amps) : mat4 := fun a b i j =>
  creomc_X2B_3 d nx C H T R a b i j + sumn (noa d) (fun m => sumn (noa d) (fun n => (i_ab_oooo H m n i j) * (x_ab R a b m n))).
(** ccpy/eomcc/eomccsd_chol.py, build_HR_2B, line 115 *)
Definition creomc_X2B_5 (d : dims) (nx : nat) (C : chol) (H : ints) (T R : amps) : mat4 := fun a b i j =>
  creomc_X2B_4 d nx C H T R a b i j + sumn (noa d) (fun m => sumn (noa d) (fun n => (creomc_X_ab_oooo d nx C H T R m n i j) * (x_ab T a b m n))).
(** ccpy/eomcc/eomccsd_chol.py, build_HR_2B, line 121 *)
Definition creomc_vRa (d : dims) (nx : nat) (C : chol) (H : ints) (T R : amps) : mat3 := fun a b c =>
  c_a_vv C a c b.
(** ccpy/eomcc/eomccsd_chol.py, build_HR_2B, line 121 *)
Definition creomc_vRb (d : dims) (nx : nat) (C : chol) (H : ints) (T R : amps) : mat3 := fun a b c =>
  c_b_vv C a c b.
(** ccpy/eomcc/eomccsd_chol.py, build_HR_2B, line 121 *)
Definition creomc_vT_1 (d : dims) (nx : nat) (C : chol) (H : ints) (T R : amps) : mat4 := fun i j a b =>
  x_ab R b a j i.
(** ccpy/eomcc/eomccsd_chol.py, build_HR_2B, line 122 *)
Definition creomc_X2B_6 (d : dims) (nx : nat) (C : chol) (H : ints) (T R : amps) : mat4 := fun a b i j =>
  creomc_X2B_5 d nx C H T R a b i j + vvvv_t2 (nua d) (nua d) nx (creomc_vRa d nx C H T R) (creomc_vRb d nx C H T R) (creomc_vT_1 d nx C H T R) j i b a.
(** ccpy/eomcc/eomccsd_chol.py, build_HR_2B, line 124 *)
Definition creomc_X2B_7 (d : dims) (nx : nat) (C : chol) (H : ints) (T R : amps) : mat4 := fun a b i j =>
  creomc_X2B_6 d nx C H T R a b i j + sumn (noa d) (fun m => sumn (nua d) (fun e => (i_aa_voov H a m i e) * (x_ab R e b m j))).
(** ccpy/eomcc/eomccsd_chol.py, build_HR_2B, line 125 *)
Definition creomc_X2B_8 (d : dims) (nx : nat) (C : chol) (H : ints) (T R : amps) : mat4 := fun a b i j =>
  creomc_X2B_7 d nx C H T R a b i j + sumn (noa d) (fun m => sumn (nua d) (fun e => (i_ab_voov H a m i e) * (x_bb R e b m j))).
(** ccpy/eomcc/eomccsd_chol.py, build_HR_2B, line 126 *)
Definition creomc_X2B_9 (d : dims) (nx : nat) (C : chol) (H : ints) (T R : amps) : mat4 := fun a b i j =>
  creomc_X2B_8 d nx C H T R a b i j + sumn (noa d) (fun m => sumn (nua d) (fun e => (i_ab_ovvo H m b e j) * (x_aa R a e i m))).
(** ccpy/eomcc/eomccsd_chol.py, build_HR_2B, line 127 *)
Definition creomc_X2B_10 (d : dims) (nx : nat) (C : chol) (H : ints) (T R : amps) : mat4 := fun a b i j =>
  creomc_X2B_9 d nx C H T R a b i j + sumn (noa d) (fun m => sumn (nua d) (fun e => (i_bb_voov H b m j e) * (x_ab R a e i m))).
(** ccpy/eomcc/eomccsd_chol.py, build_HR_2B, line 128 *)
Definition creomc_X2B_11 (d : dims) (nx : nat) (C : chol) (H : ints) (T R : amps) : mat4 := fun a b i j =>
  creomc_X2B_10 d nx C H T R a b i j - sumn (noa d) (fun m => sumn (nua d) (fun e => (i_ab_ovov H m b i e) * (x_ab R a e m j))).
(** ccpy/eomcc/eomccsd_chol.py, build_HR_2B, line 129 *)
Definition creomc_X2B_12 (d : dims) (nx : nat) (C : chol) (H : ints) (T R : amps) : mat4 := fun a b i j =>
  creomc_X2B_11 d nx C H T R a b i j - sumn (noa d) (fun m => sumn (nua d) (fun e => (i_ab_vovo H a m e j) * (x_ab R e b i m))).
(** ccpy/eomcc/eomccsd_chol.py, build_HR_2B, line 130 *)
Definition creomc_X2B_13 (d : dims) (nx : nat) (C : chol) (H : ints) (T R : amps) : mat4 := fun a b i j =>
  creomc_X2B_12 d nx C H T R a b i j + sumn (nua d) (fun e => (i_ab_vvvo H a b e j) * (x_a R e i)).
(** ccpy/eomcc/eomccsd_chol.py, build_HR_2B, line 131 *)
Definition creomc_X2B_14 (d : dims) (nx : nat) (C : chol) (H : ints) (T R : amps) : mat4 := fun a b i j =>
  creomc_X2B_13 d nx C H T R a b i j + sumn (nua d) (fun e => (i_ab_vvov H a b i e) * (x_b R e j)).
(** ccpy/eomcc/eomccsd_chol.py, build_HR_2B, line 132 *)
Definition creomc_X2B_15 (d : dims) (nx : nat) (C : chol) (H : ints) (T R : amps) : mat4 := fun a b i j =>
  creomc_X2B_14 d nx C H T R a b i j - sumn (noa d) (fun m => (i_ab_ovoo H m b i j) * (x_a R a m)).
(** ccpy/eomcc/eomccsd_chol.py, build_HR_2B, line 133 *)
Definition creomc_X2B_16 (d : dims) (nx : nat) (C : chol) (H : ints) (T R : amps) : mat4 := fun a b i j =>
  creomc_X2B_15 d nx C H T R a b i j - sumn (noa d) (fun m => (i_ab_vooo H a m i j) * (x_b R b m)).
(** ccpy/eomcc/eomccsd_chol.py, build_HR_2B, line 134 *)
Definition creomc_X2B_17 (d : dims) (nx : nat) (C : chol) (H : ints) (T R : amps) : mat4 := fun a b i j =>
  creomc_X2B_16 d nx C H T R a b i j + sumn (nua d) (fun e => (creomc_X_a_vv d nx C H T R a e) * (x_ab T e b i j)).
(** ccpy/eomcc/eomccsd_chol.py, build_HR_2B, line 135 *)
Definition creomc_X2B_18 (d : dims) (nx : nat) (C : chol) (H : ints) (T R : amps) : mat4 := fun a b i j =>
  creomc_X2B_17 d nx C H T R a b i j - sumn (noa d) (fun m => (creomc_X_a_oo d nx C H T R m i) * (x_ab T a b m j)).
(** ccpy/eomcc/eomccsd_chol.py, build_HR_2B, line 136 *)
Definition creomc_X2B_19 (d : dims) (nx : nat) (C : chol) (H : ints) (T R : amps) : mat4 := fun a b i j =>
  creomc_X2B_18 d nx C H T R a b i j + sumn (nua d) (fun e => (creomc_X_b_vv d nx C H T R b e) * (x_ab T a e i j)).
(** ccpy/eomcc/eomccsd_chol.py, build_HR_2B, line 137 *)
Definition creomc_X2B_20 (d : dims) (nx : nat) (C : chol) (H : ints) (T R : amps) : mat4 := fun a b i j =>
  creomc_X2B_19 d nx C H T R a b i j - sumn (noa d) (fun m => (creomc_X_b_oo d nx C H T R m j) * (x_ab T a b i m)).
(** ccpy/eomcc/eomccsd_chol.py, HR, line 47 *)
Definition creomc_dR_bb (d : dims) (nx : nat) (C : chol) (H : ints) (T R : amps) : mat4 := fun a b i j =>
  creomc_X2A_12 d nx C H T R a b i j.
(** eomccsd_chol.py, HR, lines 32-50, flag_RHF = True *)
Definition rchol_HR (d : dims) (nx : nat) (C : chol) (H : ints) (T R : amps) : amps := mkAmps (creomc_X1A_9 d nx C H T R) (creomc_dR_b d nx C H T R) (creomc_X2A_12 d nx C H T R) (creomc_X2B_20 d nx C H T R) (creomc_dR_bb d nx C H T R) (fun _ _ _ _ _ _ => 0) (fun _ _ _ _ _ _ => 0) (fun _ _ _ _ _ _ => 0) (fun _ _ _ _ _ _ => 0).
(** ccpy/left/left_cc_intermediates.py, build_left_ccsd_chol_intermediates, lines 35-38 *)
Definition cleft_X_a_vv (d : dims) (nx : nat) (C : chol) (H : ints) (T L : amps) : mat2 := fun g e =>
  1 / 2 * (sumn (nua d) (fun f => sumn (noa d) (fun m => sumn (noa d) (fun n => (x_aa L e f m n) * (x_aa T f g n m))))) + sumn (nub d) (fun b => sumn (noa d) (fun i => sumn (nob d) (fun j => (x_ab L e b i j) * (x_ab T g b i j)))).
(** ccpy/left/left_cc_intermediates.py, build_left_ccsd_chol_intermediates, lines 39-42 *)
Definition cleft_X_a_oo (d : dims) (nx : nat) (C : chol) (H : ints) (T L : amps) : mat2 := fun m n =>
  (-1) / 2 * (sumn (nua d) (fun e => sumn (nua d) (fun f => sumn (noa d) (fun o => (x_aa L e f m o) * (x_aa T e f n o))))) - sumn (nua d) (fun a => sumn (nub d) (fun b => sumn (nob d) (fun j => (x_ab L a b m j) * (x_ab T a b n j)))).
(** ccpy/left/left_cc_intermediates.py, build_left_ccsd_chol_intermediates, lines 43-46 *)
Definition cleft_X_b_vv (d : dims) (nx : nat) (C : chol) (H : ints) (T L : amps) : mat2 := fun f a =>
  1 / 2 * (sumn (nub d) (fun b => sumn (nob d) (fun i => sumn (nob d) (fun j => (x_bb L a b i j) * (x_bb T f b i j))))) + sumn (nua d) (fun a' => sumn (noa d) (fun i => sumn (nob d) (fun j => (x_ab L a' a i j) * (x_ab T a' f i j)))).
(** ccpy/left/left_cc_intermediates.py, build_left_ccsd_chol_intermediates, lines 47-50 *)
Definition cleft_X_b_oo (d : dims) (nx : nat) (C : chol) (H : ints) (T L : amps) : mat2 := fun i n =>
  (-1) / 2 * (sumn (nub d) (fun a => sumn (nub d) (fun b => sumn (nob d) (fun j => (x_bb L a b i j) * (x_bb T a b n j))))) - sumn (nua d) (fun a => sumn (nub d) (fun b => sumn (noa d) (fun i' => (x_ab L a b i' i) * (x_ab T a b i' n)))).
(** ccpy/left/left_cc_intermediates.py, build_left_ccsd_chol_intermediates, line 51 *)
Definition cleft_X_aa_oooo (d : dims) (nx : nat) (C : chol) (H : ints) (T L : amps) : mat4 := fun i j m n =>
  1 / 2 * (sumn (nua d) (fun e => sumn (nua d) (fun f => (x_aa L e f i j) * (x_aa T e f m n)))).
(** ccpy/left/left_cc_intermediates.py, build_left_ccsd_chol_intermediates, line 52 *)
Definition cleft_X_ab_oooo (d : dims) (nx : nat) (C : chol) (H : ints) (T L : amps) : mat4 := fun i j m n =>
  sumn (nua d) (fun e => sumn (nub d) (fun f => (x_ab L e f i j) * (x_ab T e f m n))).
(** ccpy/left/left_cc_intermediates.py, build_left_ccsd_chol_intermediates, line 53 *)
Definition cleft_X_bb_oooo (d : dims) (nx : nat) (C : chol) (H : ints) (T L : amps) : mat4 := fun i j m n =>
  1 / 2 * (sumn (nub d) (fun e => sumn (nub d) (fun f => (x_bb L e f i j) * (x_bb T e f m n)))).
(** ccpy/left/left_cc_intermediates.py, build_left_ccsd_chol_intermediates, line 56 *)
Definition cleft_X_aa_ooov (d : dims) (nx : nat) (C : chol) (H : ints) (T L : amps) : mat4 := fun j i n e =>
  sumn (nua d) (fun f => (x_aa L f e j i) * (x_a T f n)).
(** ccpy/left/left_cc_intermediates.py, build_left_ccsd_chol_intermediates, line 57 *)
Definition cleft_X_ab_ooov (d : dims) (nx : nat) (C : chol) (H : ints) (T L : amps) : mat4 := fun i j m f =>
  sumn (nua d) (fun e => (x_ab L e f i j) * (x_a T e m)).
(** ccpy/left/left_cc_intermediates.py, build_left_ccsd_chol_intermediates, line 58 *)
Definition cleft_X_ab_oovo (d : dims) (nx : nat) (C : chol) (H : ints) (T L : amps) : mat4 := fun i j e n =>
  sumn (nub d) (fun f => (x_ab L e f i j) * (x_b T f n)).
(** ccpy/left/left_cc_intermediates.py, build_left_ccsd_chol_intermediates, line 59 *)
Definition cleft_X_bb_ooov (d : dims) (nx : nat) (C : chol) (H : ints) (T L : amps) : mat4 := fun j i n e =>
  sumn (nub d) (fun f => (x_bb L f e j i) * (x_b T f n)).
(** ccpy/left/left_ccsd_chol.py, build_LH_1A, line 94 *)
Definition cleft_LH_a (d : dims) (nx : nat) (C : chol) (H : ints) (T L : amps) : mat2 := fun a i =>
  sumn (nua d) (fun e => (i_a_vv H e a) * (x_a L e i)).
(** ccpy/left/left_ccsd_chol.py, build_LH_1A, line 95 *)
Definition cleft_LH_a_1 (d : dims) (nx : nat) (C : chol) (H : ints) (T L : amps) : mat2 := fun a i =>
  cleft_LH_a d nx C H T L a i - sumn (noa d) (fun m => (i_a_oo H i m) * (x_a L a m)).
(** ccpy/left/left_ccsd_chol.py, build_LH_1A, line 96 *)
Definition cleft_LH_a_2 (d : dims) (nx : nat) (C : chol) (H : ints) (T L : amps) : mat2 := fun a i =>
  cleft_LH_a_1 d nx C H T L a i + sumn (nua d) (fun e => sumn (noa d) (fun m => (i_aa_voov H e i m a) * (x_a L e m))).
(** ccpy/left/left_ccsd_chol.py, build_LH_1A, line 97 *)
Definition cleft_LH_a_3 (d : dims) (nx : nat) (C : chol) (H : ints) (T L : amps) : mat2 := fun a i =>
  cleft_LH_a_2 d nx C H T L a i + sumn (nub d) (fun e => sumn (nob d) (fun m => (i_ab_ovvo H i e a m) * (x_b L e m))).
(** ccpy/left/left_ccsd_chol.py, build_LH_1A, line 99 *)
Definition cleft_LH_a_4 (d : dims) (nx : nat) (C : chol) (H : ints) (T L : amps) : mat2 := fun a i =>
  cleft_LH_a_3 d nx C H T L a i + 1 / 2 * (sumn (nua d) (fun f => sumn (nua d) (fun e => sumn (noa d) (fun n => (i_aa_vvov H f e n a) * (x_aa L e f i n))))).
(** ccpy/left/left_ccsd_chol.py, build_LH_1A, line 100 *)
Definition cleft_LH_a_5 (d : dims) (nx : nat) (C : chol) (H : ints) (T L : amps) : mat2 := fun a i =>
  cleft_LH_a_4 d nx C H T L a i + sumn (nua d) (fun e => sumn (nub d) (fun f => sumn (nob d) (fun n => (i_ab_vvvo H e f a n) * (x_ab L e f i n)))).
(** ccpy/left/left_ccsd_chol.py, build_LH_1A, line 102 *)
Definition cleft_LH_a_6 (d : dims) (nx : nat) (C : chol) (H : ints) (T L : amps) : mat2 := fun a i =>
  cleft_LH_a_5 d nx C H T L a i - 1 / 2 * (sumn (nua d) (fun f => sumn (noa d) (fun n => sumn (noa d) (fun m => (i_aa_vooo H f i n m) * (x_aa L a f m n))))).
(** ccpy/left/left_ccsd_chol.py, build_LH_1A, line 103 *)
Definition cleft_LH_a_7 (d : dims) (nx : nat) (C : chol) (H : ints) (T L : amps) : mat2 := fun a i =>
  cleft_LH_a_6 d nx C H T L a i - sumn (nub d) (fun f => sumn (noa d) (fun m => sumn (nob d) (fun n => (i_ab_ovoo H i f m n) * (x_ab L a f m n)))).
(** ccpy/left/left_ccsd_chol.py, build_LH_1A, line 105 *)
Definition cleft_LH_a_8 (d : dims) (nx : nat) (C : chol) (H : ints) (T L : amps) : mat2 := fun a i =>
  cleft_LH_a_7 d nx C H T L a i + sumn (nua d) (fun g => sumn (nua d) (fun e => (cleft_X_a_vv d nx C H T L g e) * (i_aa_vovv H e i g a))).
(** ccpy/left/left_ccsd_chol.py, build_LH_1A, line 106 *)
Definition cleft_LH_a_9 (d : dims) (nx : nat) (C : chol) (H : ints) (T L : amps) : mat2 := fun a i =>
  cleft_LH_a_8 d nx C H T L a i + sumn (nub d) (fun f => sumn (nub d) (fun a' => (cleft_X_b_vv d nx C H T L f a') * (i_ab_ovvv H i a' a f))).
(** ccpy/left/left_ccsd_chol.py, build_LH_1A, line 108 *)
Definition cleft_LH_a_10 (d : dims) (nx : nat) (C : chol) (H : ints) (T L : amps) : mat2 := fun a i =>
  cleft_LH_a_9 d nx C H T L a i + sumn (noa d) (fun m => sumn (noa d) (fun n => (cleft_X_a_oo d nx C H T L m n) * (i_aa_ooov H n i m a))).
(** ccpy/left/left_ccsd_chol.py, build_LH_1A, line 109 *)
Definition cleft_LH_a_11 (d : dims) (nx : nat) (C : chol) (H : ints) (T L : amps) : mat2 := fun a i =>
  cleft_LH_a_10 d nx C H T L a i + sumn (nob d) (fun i' => sumn (nob d) (fun n => (cleft_X_b_oo d nx C H T L i' n) * (i_ab_oovo H i n a i'))).
(** ccpy/left/left_ccsd_chol.py, build_LH_1B, line 115 *)
Definition cleft_LH_b (d : dims) (nx : nat) (C : chol) (H : ints) (T L : amps) : mat2 := fun a i =>
  sumn (nub d) (fun e => (i_b_vv H e a) * (x_b L e i)).
(** ccpy/left/left_ccsd_chol.py, build_LH_1B, line 116 *)
Definition cleft_LH_b_1 (d : dims) (nx : nat) (C : chol) (H : ints) (T L : amps) : mat2 := fun a i =>
  cleft_LH_b d nx C H T L a i - sumn (nob d) (fun m => (i_b_oo H i m) * (x_b L a m)).
(** ccpy/left/left_ccsd_chol.py, build_LH_1B, line 117 *)
Definition cleft_LH_b_2 (d : dims) (nx : nat) (C : chol) (H : ints) (T L : amps) : mat2 := fun a i =>
  cleft_LH_b_1 d nx C H T L a i + sumn (nua d) (fun e => sumn (noa d) (fun m => (i_ab_voov H e i m a) * (x_a L e m))).
(** ccpy/left/left_ccsd_chol.py, build_LH_1B, line 118 *)
Definition cleft_LH_b_3 (d : dims) (nx : nat) (C : chol) (H : ints) (T L : amps) : mat2 := fun a i =>
  cleft_LH_b_2 d nx C H T L a i + sumn (nub d) (fun e => sumn (nob d) (fun m => (i_bb_voov H e i m a) * (x_b L e m))).
(** ccpy/left/left_ccsd_chol.py, build_LH_1B, line 119 *)
Definition cleft_LH_b_4 (d : dims) (nx : nat) (C : chol) (H : ints) (T L : amps) : mat2 := fun a i =>
  cleft_LH_b_3 d nx C H T L a i - 1 / 2 * (sumn (nub d) (fun f => sumn (nob d) (fun n => sumn (nob d) (fun m => (i_bb_vooo H f i n m) * (x_bb L a f m n))))).
(** ccpy/left/left_ccsd_chol.py, build_LH_1B, line 120 *)
Definition cleft_LH_b_5 (d : dims) (nx : nat) (C : chol) (H : ints) (T L : amps) : mat2 := fun a i =>
  cleft_LH_b_4 d nx C H T L a i - sumn (nua d) (fun f => sumn (noa d) (fun n => sumn (nob d) (fun m => (i_ab_vooo H f i n m) * (x_ab L f a n m)))).
(** ccpy/left/left_ccsd_chol.py, build_LH_1B, line 122 *)
Definition cleft_LH_b_6 (d : dims) (nx : nat) (C : chol) (H : ints) (T L : amps) : mat2 := fun a i =>
  cleft_LH_b_5 d nx C H T L a i + sumn (nua d) (fun f => sumn (nub d) (fun e => sumn (noa d) (fun n => (i_ab_vvov H f e n a) * (x_ab L f e n i)))).
(** ccpy/left/left_ccsd_chol.py, build_LH_1B, line 123 *)
Definition cleft_LH_b_7 (d : dims) (nx : nat) (C : chol) (H : ints) (T L : amps) : mat2 := fun a i =>
  cleft_LH_b_6 d nx C H T L a i + 1 / 2 * (sumn (nub d) (fun f => sumn (nub d) (fun e => sumn (nob d) (fun n => (i_bb_vvov H f e n a) * (x_bb L e f i n))))).
(** ccpy/left/left_ccsd_chol.py, build_LH_1B, lines 125-128 *)
Definition cleft_LH_b_8 (d : dims) (nx : nat) (C : chol) (H : ints) (T L : amps) : mat2 := fun a i =>
  cleft_LH_b_7 d nx C H T L a i + (sumn (nub d) (fun g => sumn (nub d) (fun e => (cleft_X_b_vv d nx C H T L g e) * (i_bb_vovv H e i g a))) + sumn (nob d) (fun m => sumn (nob d) (fun o => (cleft_X_b_oo d nx C H T L m o) * (i_bb_ooov H o i m a)))).
(** ccpy/left/left_ccsd_chol.py, build_LH_1B, lines 129-132 *)
Definition cleft_LH_b_9 (d : dims) (nx : nat) (C : chol) (H : ints) (T L : amps) : mat2 := fun a i =>
  cleft_LH_b_8 d nx C H T L a i + (sumn (nua d) (fun g => sumn (nua d) (fun e => (cleft_X_a_vv d nx C H T L g e) * (i_ab_vovv H e i g a))) + sumn (noa d) (fun m => sumn (noa d) (fun o => (cleft_X_a_oo d nx C H T L m o) * (i_ab_ooov H o i m a)))).
(** ccpy/left/left_ccsd_chol.py, build_LH_2A, line 137 *)
Definition cleft_LH_aa (d : dims) (nx : nat) (C : chol) (H : ints) (T L : amps) : mat4 := fun a b i j =>
  1 / 2 * (sumn (nua d) (fun e => (i_a_vv H e a) * (x_aa L e b i j))).
(** ccpy/left/left_ccsd_chol.py, build_LH_2A, line 138 *)
Definition cleft_LH_aa_1 (d : dims) (nx : nat) (C : chol) (H : ints) (T L : amps) : mat4 := fun a b i j =>
  cleft_LH_aa d nx C H T L a b i j - 1 / 2 * (sumn (noa d) (fun m => (i_a_oo H i m) * (x_aa L a b m j))).
(** ccpy/left/left_ccsd_chol.py, build_LH_2A, line 139 *)
Definition cleft_LH_aa_2 (d : dims) (nx : nat) (C : chol) (H : ints) (T L : amps) : mat4 := fun a b i j =>
  cleft_LH_aa_1 d nx C H T L a b i j + (i_a_ov H j b) * (x_a L a i).
(** ccpy/left/left_ccsd_chol.py, build_LH_2A, line 140 *)
Definition cleft_LH_aa_3 (d : dims) (nx : nat) (C : chol) (H : ints) (T L : amps) : mat4 := fun a b i j =>
  cleft_LH_aa_2 d nx C H T L a b i j - 1 / 2 * (sumn (nua d) (fun e => (cleft_X_a_vv d nx C H T L e a) * (i_aa_oovv H i j e b))).
(** ccpy/left/left_ccsd_chol.py, build_LH_2A, line 141 *)
Definition cleft_LH_aa_4 (d : dims) (nx : nat) (C : chol) (H : ints) (T L : amps) : mat4 := fun a b i j =>
  cleft_LH_aa_3 d nx C H T L a b i j + 1 / 2 * (sumn (noa d) (fun m => (cleft_X_a_oo d nx C H T L i m) * (i_aa_oovv H m j a b))).
(** ccpy/left/left_ccsd_chol.py, build_LH_2A, line 142 *)
Definition cleft_LH_aa_5 (d : dims) (nx : nat) (C : chol) (H : ints) (T L : amps) : mat4 := fun a b i j =>
  cleft_LH_aa_4 d nx C H T L a b i j + sumn (nua d) (fun e => sumn (noa d) (fun m => (i_aa_voov H e i m a) * (x_aa L e b m j))).
(** ccpy/left/left_ccsd_chol.py, build_LH_2A, line 143 *)
Definition cleft_LH_aa_6 (d : dims) (nx : nat) (C : chol) (H : ints) (T L : amps) : mat4 := fun a b i j =>
  cleft_LH_aa_5 d nx C H T L a b i j + sumn (nub d) (fun e => sumn (nob d) (fun m => (i_ab_ovvo H i e a m) * (x_ab L b e j m))).
(** ccpy/left/left_ccsd_chol.py, build_LH_2A, line 144 *)
Definition cleft_LH_aa_7 (d : dims) (nx : nat) (C : chol) (H : ints) (T L : amps) : mat4 := fun a b i j =>
  cleft_LH_aa_6 d nx C H T L a b i j + 1 / 8 * (sumn (noa d) (fun m => sumn (noa d) (fun n => (i_aa_oooo H i j m n) * (x_aa L a b m n)))).
(** ccpy/left/left_ccsd_chol.py, build_LH_2A, line 146 *)
Definition cleft_LH_aa_8 (d : dims) (nx : nat) (C : chol) (H : ints) (T L : amps) : mat4 := fun a b i j =>
  cleft_LH_aa_7 d nx C H T L a b i j + 1 / 8 * (sumn (noa d) (fun m => sumn (noa d) (fun n => (cleft_X_aa_oooo d nx C H T L i j m n) * (i_aa_oovv H m n a b)))).
(** ccpy/left/left_ccsd_chol.py, build_LH_2A, line 153 *)
Definition cleft_vR (d : dims) (nx : nat) (C : chol) (H : ints) (T L : amps) : mat3 := fun a b c =>
  c_a_vv C a b c.
(** ccpy/left/left_ccsd_chol.py, build_LH_2A, line 153 *)
Definition cleft_vT (d : dims) (nx : nat) (C : chol) (H : ints) (T L : amps) : mat4 := fun i j a b =>
  1 / 2 * (x_aa L b a j i).
(** ccpy/left/left_ccsd_chol.py, build_LH_2A, line 154 *)
Definition cleft_LH_aa_9 (d : dims) (nx : nat) (C : chol) (H : ints) (T L : amps) : mat4 := fun a b i j =>
  cleft_LH_aa_8 d nx C H T L a b i j + vvvv_t2_sym (noa d) (nua d) nx (cleft_vR d nx C H T L) (cleft_vT d nx C H T L) j i b a.
(** ccpy/left/left_ccsd_chol.py, build_LH_2A, line 156 *)
Definition cleft_LH_aa_10 (d : dims) (nx : nat) (C : chol) (H : ints) (T L : amps) : mat4 := fun a b i j =>
  cleft_LH_aa_9 d nx C H T L a b i j + 1 / 2 * (sumn (nua d) (fun e => (i_aa_vovv H e j a b) * (x_a L e i))).
(** ccpy/left/left_ccsd_chol.py, build_LH_2A, line 157 *)
Definition cleft_LH_aa_11 (d : dims) (nx : nat) (C : chol) (H : ints) (T L : amps) : mat4 := fun a b i j =>
  cleft_LH_aa_10 d nx C H T L a b i j - 1 / 2 * (sumn (noa d) (fun m => (i_aa_ooov H i j m b) * (x_a L a m))).
(** ccpy/left/left_ccsd_chol.py, build_LH_2A, line 158 *)
Definition cleft_LH_aa_12 (d : dims) (nx : nat) (C : chol) (H : ints) (T L : amps) : mat4 := fun a b i j =>
  cleft_LH_aa_11 d nx C H T L a b i j - (cleft_LH_aa_11 d nx C H T L b a i j + cleft_LH_aa_11 d nx C H T L a b j i - cleft_LH_aa_11 d nx C H T L b a j i).
(** ccpy/left/left_ccsd_chol.py, build_LH_2B, line 164 *)
Definition cleft_LH_ab (d : dims) (nx : nat) (C : chol) (H : ints) (T L : amps) : mat4 := fun a b i j =>
  (- (sumn (noa d) (fun m => (i_ab_ooov H i j m b) * (x_a L a m)))).
(** ccpy/left/left_ccsd_chol.py, build_LH_2B, line 165 *)
Definition cleft_LH_ab_1 (d : dims) (nx : nat) (C : chol) (H : ints) (T L : amps) : mat4 := fun a b i j =>
  cleft_LH_ab d nx C H T L a b i j - sumn (nob d) (fun m => (i_ab_oovo H i j a m) * (x_b L b m)).
(** ccpy/left/left_ccsd_chol.py, build_LH_2B, line 166 *)
Definition cleft_LH_ab_2 (d : dims) (nx : nat) (C : chol) (H : ints) (T L : amps) : mat4 := fun a b i j =>
  cleft_LH_ab_1 d nx C H T L a b i j + sumn (nua d) (fun e => (i_ab_vovv H e j a b) * (x_a L e i)).
(** ccpy/left/left_ccsd_chol.py, build_LH_2B, line 167 *)
Definition cleft_LH_ab_3 (d : dims) (nx : nat) (C : chol) (H : ints) (T L : amps) : mat4 := fun a b i j =>
  cleft_LH_ab_2 d nx C H T L a b i j + sumn (nub d) (fun e => (i_ab_ovvv H i e a b) * (x_b L e j)).
(** ccpy/left/left_ccsd_chol.py, build_LH_2B, line 168 *)
Definition cleft_LH_ab_4 (d : dims) (nx : nat) (C : chol) (H : ints) (T L : amps) : mat4 := fun a b i j =>
  cleft_LH_ab_3 d nx C H T L a b i j + sumn (noa d) (fun m => sumn (nob d) (fun n => (i_ab_oooo H i j m n) * (x_ab L a b m n))).
(** ccpy/left/left_ccsd_chol.py, build_LH_2B, line 170 *)
Definition cleft_LH_ab_5 (d : dims) (nx : nat) (C : chol) (H : ints) (T L : amps) : mat4 := fun a b i j =>
  cleft_LH_ab_4 d nx C H T L a b i j + sumn (noa d) (fun m => sumn (nob d) (fun n => (cleft_X_ab_oooo d nx C H T L i j m n) * (i_ab_oovv H m n a b))).
(** ccpy/left/left_ccsd_chol.py, build_LH_2B, line 176 *)
Definition cleft_vRa (d : dims) (nx : nat) (C : chol) (H : ints) (T L : amps) : mat3 := fun a b c =>
  c_a_vv C a b c.
(** ccpy/left/left_ccsd_chol.py, build_LH_2B, line 176 *)
Definition cleft_vRb (d : dims) (nx : nat) (C : chol) (H : ints) (T L : amps) : mat3 := fun a b c =>
  c_b_vv C a b c.
(** ccpy/left/left_ccsd_chol.py, build_LH_2B, line 176 *)
Definition cleft_vT_1 (d : dims) (nx : nat) (C : chol) (H : ints) (T L : amps) : mat4 := fun i j a b =>
  x_ab L b a j i.
(** ccpy/left/left_ccsd_chol.py, build_LH_2B, line 177 *)
Definition cleft_LH_ab_6 (d : dims) (nx : nat) (C : chol) (H : ints) (T L : amps) : mat4 := fun a b i j =>
  cleft_LH_ab_5 d nx C H T L a b i j + vvvv_t2 (nua d) (nub d) nx (cleft_vRa d nx C H T L) (cleft_vRb d nx C H T L) (cleft_vT_1 d nx C H T L) j i b a.
(** ccpy/left/left_ccsd_chol.py, build_LH_2B, line 179 *)
Definition cleft_LH_ab_7 (d : dims) (nx : nat) (C : chol) (H : ints) (T L : amps) : mat4 := fun a b i j =>
  cleft_LH_ab_6 d nx C H T L a b i j + sumn (nua d) (fun e => sumn (noa d) (fun m => (i_ab_voov H e j m b) * (x_aa L a e i m))).
(** ccpy/left/left_ccsd_chol.py, build_LH_2B, line 180 *)
Definition cleft_LH_ab_8 (d : dims) (nx : nat) (C : chol) (H : ints) (T L : amps) : mat4 := fun a b i j =>
  cleft_LH_ab_7 d nx C H T L a b i j + sumn (nua d) (fun e => sumn (noa d) (fun m => (i_aa_voov H e i m a) * (x_ab L e b m j))).
(** ccpy/left/left_ccsd_chol.py, build_LH_2B, line 181 *)
Definition cleft_LH_ab_9 (d : dims) (nx : nat) (C : chol) (H : ints) (T L : amps) : mat4 := fun a b i j =>
  cleft_LH_ab_8 d nx C H T L a b i j + sumn (nub d) (fun e => sumn (nob d) (fun m => (i_bb_voov H e j m b) * (x_ab L a e i m))).
(** ccpy/left/left_ccsd_chol.py, build_LH_2B, line 182 *)
Definition cleft_LH_ab_10 (d : dims) (nx : nat) (C : chol) (H : ints) (T L : amps) : mat4 := fun a b i j =>
  cleft_LH_ab_9 d nx C H T L a b i j + sumn (nub d) (fun e => sumn (nob d) (fun m => (i_ab_ovvo H i e a m) * (x_bb L e b m j))).
(** ccpy/left/left_ccsd_chol.py, build_LH_2B, line 183 *)
Definition cleft_LH_ab_11 (d : dims) (nx : nat) (C : chol) (H : ints) (T L : amps) : mat4 := fun a b i j =>
  cleft_LH_ab_10 d nx C H T L a b i j - sumn (nub d) (fun e => sumn (noa d) (fun m => (i_ab_ovov H i e m b) * (x_ab L a e m j))).
(** ccpy/left/left_ccsd_chol.py, build_LH_2B, line 184 *)
Definition cleft_LH_ab_12 (d : dims) (nx : nat) (C : chol) (H : ints) (T L : amps) : mat4 := fun a b i j =>
  cleft_LH_ab_11 d nx C H T L a b i j - sumn (nua d) (fun e => sumn (nob d) (fun m => (i_ab_vovo H e j a m) * (x_ab L e b i m))).
(** ccpy/left/left_ccsd_chol.py, build_LH_2B, line 185 *)
Definition cleft_LH_ab_13 (d : dims) (nx : nat) (C : chol) (H : ints) (T L : amps) : mat4 := fun a b i j =>
  cleft_LH_ab_12 d nx C H T L a b i j - sumn (nua d) (fun e => (cleft_X_a_vv d nx C H T L e a) * (i_ab_oovv H i j e b)).
(** ccpy/left/left_ccsd_chol.py, build_LH_2B, line 186 *)
Definition cleft_LH_ab_14 (d : dims) (nx : nat) (C : chol) (H : ints) (T L : amps) : mat4 := fun a b i j =>
  cleft_LH_ab_13 d nx C H T L a b i j + sumn (noa d) (fun m => (cleft_X_a_oo d nx C H T L i m) * (i_ab_oovv H m j a b)).
(** ccpy/left/left_ccsd_chol.py, build_LH_2B, line 187 *)
Definition cleft_LH_ab_15 (d : dims) (nx : nat) (C : chol) (H : ints) (T L : amps) : mat4 := fun a b i j =>
  cleft_LH_ab_14 d nx C H T L a b i j - sumn (nub d) (fun e => (cleft_X_b_vv d nx C H T L e b) * (i_ab_oovv H i j a e)).
(** ccpy/left/left_ccsd_chol.py, build_LH_2B, line 188 *)
Definition cleft_LH_ab_16 (d : dims) (nx : nat) (C : chol) (H : ints) (T L : amps) : mat4 := fun a b i j =>
  cleft_LH_ab_15 d nx C H T L a b i j + sumn (nob d) (fun m => (cleft_X_b_oo d nx C H T L j m) * (i_ab_oovv H i m a b)).
(** ccpy/left/left_ccsd_chol.py, build_LH_2B, line 189 *)
Definition cleft_LH_ab_17 (d : dims) (nx : nat) (C : chol) (H : ints) (T L : amps) : mat4 := fun a b i j =>
  cleft_LH_ab_16 d nx C H T L a b i j + sumn (nua d) (fun e => (i_a_vv H e a) * (x_ab L e b i j)).
(** ccpy/left/left_ccsd_chol.py, build_LH_2B, line 190 *)
Definition cleft_LH_ab_18 (d : dims) (nx : nat) (C : chol) (H : ints) (T L : amps) : mat4 := fun a b i j =>
  cleft_LH_ab_17 d nx C H T L a b i j + sumn (nub d) (fun e => (i_b_vv H e b) * (x_ab L a e i j)).
(** ccpy/left/left_ccsd_chol.py, build_LH_2B, line 191 *)
Definition cleft_LH_ab_19 (d : dims) (nx : nat) (C : chol) (H : ints) (T L : amps) : mat4 := fun a b i j =>
  cleft_LH_ab_18 d nx C H T L a b i j - sumn (noa d) (fun m => (i_a_oo H i m) * (x_ab L a b m j)).
(** ccpy/left/left_ccsd_chol.py, build_LH_2B, line 192 *)
Definition cleft_LH_ab_20 (d : dims) (nx : nat) (C : chol) (H : ints) (T L : amps) : mat4 := fun a b i j =>
  cleft_LH_ab_19 d nx C H T L a b i j - sumn (nob d) (fun m => (i_b_oo H j m) * (x_ab L a b i m)).
(** ccpy/left/left_ccsd_chol.py, build_LH_2B, line 193 *)
Definition cleft_LH_ab_21 (d : dims) (nx : nat) (C : chol) (H : ints) (T L : amps) : mat4 := fun a b i j =>
  cleft_LH_ab_20 d nx C H T L a b i j + (i_b_ov H j b) * (x_a L a i).
(** ccpy/left/left_ccsd_chol.py, build_LH_2B, line 194 *)
Definition cleft_LH_ab_22 (d : dims) (nx : nat) (C : chol) (H : ints) (T L : amps) : mat4 := fun a b i j =>
  cleft_LH_ab_21 d nx C H T L a b i j + (i_a_ov H i a) * (x_b L b j).
(** ccpy/left/left_ccsd_chol.py, build_LH_2C, line 199 *)
Definition cleft_LH_bb (d : dims) (nx : nat) (C : chol) (H : ints) (T L : amps) : mat4 := fun a b i j =>
  1 / 2 * (sumn (nub d) (fun e => (i_b_vv H e a) * (x_bb L e b i j))).
(** ccpy/left/left_ccsd_chol.py, build_LH_2C, line 200 *)
Definition cleft_LH_bb_1 (d : dims) (nx : nat) (C : chol) (H : ints) (T L : amps) : mat4 := fun a b i j =>
  cleft_LH_bb d nx C H T L a b i j - 1 / 2 * (sumn (nob d) (fun m => (i_b_oo H i m) * (x_bb L a b m j))).
(** ccpy/left/left_ccsd_chol.py, build_LH_2C, line 201 *)
Definition cleft_LH_bb_2 (d : dims) (nx : nat) (C : chol) (H : ints) (T L : amps) : mat4 := fun a b i j =>
  cleft_LH_bb_1 d nx C H T L a b i j + (i_b_ov H j b) * (x_b L a i).
(** ccpy/left/left_ccsd_chol.py, build_LH_2C, line 202 *)
Definition cleft_LH_bb_3 (d : dims) (nx : nat) (C : chol) (H : ints) (T L : amps) : mat4 := fun a b i j =>
  cleft_LH_bb_2 d nx C H T L a b i j - 1 / 2 * (sumn (nub d) (fun e => (cleft_X_b_vv d nx C H T L e a) * (i_bb_oovv H i j e b))).
(** ccpy/left/left_ccsd_chol.py, build_LH_2C, line 203 *)
Definition cleft_LH_bb_4 (d : dims) (nx : nat) (C : chol) (H : ints) (T L : amps) : mat4 := fun a b i j =>
  cleft_LH_bb_3 d nx C H T L a b i j + 1 / 2 * (sumn (nob d) (fun m => (cleft_X_b_oo d nx C H T L i m) * (i_bb_oovv H m j a b))).
(** ccpy/left/left_ccsd_chol.py, build_LH_2C, line 204 *)
Definition cleft_LH_bb_5 (d : dims) (nx : nat) (C : chol) (H : ints) (T L : amps) : mat4 := fun a b i j =>
  cleft_LH_bb_4 d nx C H T L a b i j + sumn (nub d) (fun e => sumn (nob d) (fun m => (i_bb_voov H e i m a) * (x_bb L e b m j))).
(** ccpy/left/left_ccsd_chol.py, build_LH_2C, line 205 *)
Definition cleft_LH_bb_6 (d : dims) (nx : nat) (C : chol) (H : ints) (T L : amps) : mat4 := fun a b i j =>
  cleft_LH_bb_5 d nx C H T L a b i j + sumn (nua d) (fun e => sumn (noa d) (fun m => (i_ab_voov H e i m a) * (x_ab L e b m j))).
(** ccpy/left/left_ccsd_chol.py, build_LH_2C, line 206 *)
Definition cleft_LH_bb_7 (d : dims) (nx : nat) (C : chol) (H : ints) (T L : amps) : mat4 := fun a b i j =>
  cleft_LH_bb_6 d nx C H T L a b i j + 1 / 8 * (sumn (nob d) (fun m => sumn (nob d) (fun n => (i_bb_oooo H i j m n) * (x_bb L a b m n)))).
(** ccpy/left/left_ccsd_chol.py, build_LH_2C, line 208 *)
Definition cleft_LH_bb_8 (d : dims) (nx : nat) (C : chol) (H : ints) (T L : amps) : mat4 := fun a b i j =>
  cleft_LH_bb_7 d nx C H T L a b i j + 1 / 8 * (sumn (nob d) (fun m => sumn (nob d) (fun n => (cleft_X_bb_oooo d nx C H T L i j m n) * (i_bb_oovv H m n a b)))).
(** ccpy/left/left_ccsd_chol.py, build_LH_2C, line 215 *)
Definition cleft_vR_1 (d : dims) (nx : nat) (C : chol) (H : ints) (T L : amps) : mat3 := fun a b c =>
  c_b_vv C a b c.
(** ccpy/left/left_ccsd_chol.py, build_LH_2C, line 215 *)
Definition cleft_vT_2 (d : dims) (nx : nat) (C : chol) (H : ints) (T L : amps) : mat4 := fun i j a b =>
  1 / 2 * (x_bb L b a j i).
(** ccpy/left/left_ccsd_chol.py, build_LH_2C, line 216 *)
Definition cleft_LH_bb_9 (d : dims) (nx : nat) (C : chol) (H : ints) (T L : amps) : mat4 := fun a b i j =>
  cleft_LH_bb_8 d nx C H T L a b i j + vvvv_t2_sym (nob d) (nub d) nx (cleft_vR_1 d nx C H T L) (cleft_vT_2 d nx C H T L) j i b a.
(** ccpy/left/left_ccsd_chol.py, build_LH_2C, line 218 *)
Definition cleft_LH_bb_10 (d : dims) (nx : nat) (C : chol) (H : ints) (T L : amps) : mat4 := fun a b i j =>
  cleft_LH_bb_9 d nx C H T L a b i j + 1 / 2 * (sumn (nub d) (fun e => (i_bb_vovv H e j a b) * (x_b L e i))).
(** ccpy/left/left_ccsd_chol.py, build_LH_2C, line 219 *)
Definition cleft_LH_bb_11 (d : dims) (nx : nat) (C : chol) (H : ints) (T L : amps) : mat4 := fun a b i j =>
  cleft_LH_bb_10 d nx C H T L a b i j - 1 / 2 * (sumn (nob d) (fun m => (i_bb_ooov H i j m b) * (x_b L a m))).
(** ccpy/left/left_ccsd_chol.py, build_LH_2C, line 220 *)
Definition cleft_LH_bb_12 (d : dims) (nx : nat) (C : chol) (H : ints) (T L : amps) : mat4 := fun a b i j =>
  cleft_LH_bb_11 d nx C H T L a b i j - (cleft_LH_bb_11 d nx C H T L b a i j + cleft_LH_bb_11 d nx C H T L a b j i - cleft_LH_bb_11 d nx C H T L b a j i).
(** left_ccsd_chol.py, LH_fun, lines 72-90 *)
Definition chol_LH (d : dims) (nx : nat) (C : chol) (H : ints) (T L : amps) : amps := mkAmps (cleft_LH_a_11 d nx C H T L) (cleft_LH_b_9 d nx C H T L) (cleft_LH_aa_12 d nx C H T L) (cleft_LH_ab_22 d nx C H T L) (cleft_LH_bb_12 d nx C H T L) (fun _ _ _ _ _ _ => 0) (fun _ _ _ _ _ _ => 0) (fun _ _ _ _ _ _ => 0) (fun _ _ _ _ _ _ => 0).
(** ccpy/left/left_cc_intermediates.py, build_left_ccsd_chol_intermediates, lines 35-38 *)
Definition crleft_X_a_vv (d : dims) (nx : nat) (C : chol) (H : ints) (T L : amps) : mat2 := fun g e =>
  1 / 2 * (sumn (nua d) (fun f => sumn (noa d) (fun m => sumn (noa d) (fun n => (x_aa L e f m n) * (x_aa T f g n m))))) + sumn (nua d) (fun b => sumn (noa d) (fun i => sumn (noa d) (fun j => (x_ab L e b i j) * (x_ab T g b i j)))).
(** ccpy/left/left_cc_intermediates.py, build_left_ccsd_chol_intermediates, lines 39-42 *)
Definition crleft_X_a_oo (d : dims) (nx : nat) (C : chol) (H : ints) (T L : amps) : mat2 := fun m n =>
  (-1) / 2 * (sumn (nua d) (fun e => sumn (nua d) (fun f => sumn (noa d) (fun o => (x_aa L e f m o) * (x_aa T e f n o))))) - sumn (nua d) (fun a => sumn (nua d) (fun b => sumn (noa d) (fun j => (x_ab L a b m j) * (x_ab T a b n j)))).
(** ccpy/left/left_cc_intermediates.py, build_left_ccsd_chol_intermediates, lines 43-46 *)
Definition crleft_X_b_vv (d : dims) (nx : nat) (C : chol) (H : ints) (T L : amps) : mat2 := fun f a =>
  1 / 2 * (sumn (nua d) (fun b => sumn (noa d) (fun i => sumn (noa d) (fun j => (x_bb L a b i j) * (x_bb T f b i j))))) + sumn (nua d) (fun a' => sumn (noa d) (fun i => sumn (noa d) (fun j => (x_ab L a' a i j) * (x_ab T a' f i j)))).
(** ccpy/left/left_cc_intermediates.py, build_left_ccsd_chol_intermediates, lines 47-50 *)
Definition crleft_X_b_oo (d : dims) (nx : nat) (C : chol) (H : ints) (T L : amps) : mat2 := fun i n =>
  (-1) / 2 * (sumn (nua d) (fun a => sumn (nua d) (fun b => sumn (noa d) (fun j => (x_bb L a b i j) * (x_bb T a b n j))))) - sumn (nua d) (fun a => sumn (nua d) (fun b => sumn (noa d) (fun i' => (x_ab L a b i' i) * (x_ab T a b i' n)))).
(** ccpy/left/left_cc_intermediates.py, build_left_ccsd_chol_intermediates, line 51 *)
Definition crleft_X_aa_oooo (d : dims) (nx : nat) (C : chol) (H : ints) (T L : amps) : mat4 := fun i j m n =>
  1 / 2 * (sumn (nua d) (fun e => sumn (nua d) (fun f => (x_aa L e f i j) * (x_aa T e f m n)))).
(** ccpy/left/left_cc_intermediates.py, build_left_ccsd_chol_intermediates, line 52 *)
Definition crleft_X_ab_oooo (d : dims) (nx : nat) (C : chol) (H : ints) (T L : amps) : mat4 := fun i j m n =>
  sumn (nua d) (fun e => sumn (nua d) (fun f => (x_ab L e f i j) * (x_ab T e f m n))).
(** ccpy/left/left_cc_intermediates.py, build_left_ccsd_chol_intermediates, line 53 *)
Definition crleft_X_bb_oooo (d : dims) (nx : nat) (C : chol) (H : ints) (T L : amps) : mat4 := fun i j m n =>
  1 / 2 * (sumn (nua d) (fun e => sumn (nua d) (fun f => (x_bb L e f i j) * (x_bb T e f m n)))).
(** ccpy/left/left_cc_intermediates.py, build_left_ccsd_chol_intermediates, line 56 *)
Definition crleft_X_aa_ooov (d : dims) (nx : nat) (C : chol) (H : ints) (T L : amps) : mat4 := fun j i n e =>
  sumn (nua d) (fun f => (x_aa L f e j i) * (x_a T f n)).
(** ccpy/left/left_cc_intermediates.py, build_left_ccsd_chol_intermediates, line 57 *)
Definition crleft_X_ab_ooov (d : dims) (nx : nat) (C : chol) (H : ints) (T L : amps) : mat4 := fun i j m f =>
  sumn (nua d) (fun e => (x_ab L e f i j) * (x_a T e m)).
(** ccpy/left/left_cc_intermediates.py, build_left_ccsd_chol_intermediates, line 58 *)
Definition crleft_X_ab_oovo (d : dims) (nx : nat) (C : chol) (H : ints) (T L : amps) : mat4 := fun i j e n =>
  sumn (nua d) (fun f => (x_ab L e f i j) * (x_b T f n)).
(** ccpy/left/left_cc_intermediates.py, build_left_ccsd_chol_intermediates, line 59 *)
Definition crleft_X_bb_ooov (d : dims) (nx : nat) (C : chol) (H : ints) (T L : amps) : mat4 := fun j i n e =>
  sumn (nua d) (fun f => (x_bb L f e j i) * (x_b T f n)).
(** ccpy/left/left_ccsd_chol.py, build_LH_1A, line 94 *)
Definition crleft_LH_a (d : dims) (nx : nat) (C : chol) (H : ints) (T L : amps) : mat2 := fun a i =>
  sumn (nua d) (fun e => (i_a_vv H e a) * (x_a L e i)).
(** ccpy/left/left_ccsd_chol.py, build_LH_1A, line 95 *)
Definition crleft_LH_a_1 (d : dims) (nx : nat) (C : chol) (H : ints) (T L : amps) : mat2 := fun a i =>
  crleft_LH_a d nx C H T L a i - sumn (noa d) (fun m => (i_a_oo H i m) * (x_a L a m)).
(** ccpy/left/left_ccsd_chol.py, build_LH_1A, line 96 *)
Definition crleft_LH_a_2 (d : dims) (nx : nat) (C : chol) (H : ints) (T L : amps) : mat2 := fun a i =>
  crleft_LH_a_1 d nx C H T L a i + sumn (nua d) (fun e => sumn (noa d) (fun m => (i_aa_voov H e i m a) * (x_a L e m))).
(** ccpy/left/left_ccsd_chol.py, build_LH_1A, line 97 *)
Definition crleft_LH_a_3 (d : dims) (nx : nat) (C : chol) (H : ints) (T L : amps) : mat2 := fun a i =>
  crleft_LH_a_2 d nx C H T L a i + sumn (nua d) (fun e => sumn (noa d) (fun m => (i_ab_ovvo H i e a m) * (x_b L e m))).
(** ccpy/left/left_ccsd_chol.py, build_LH_1A, line 99 *)
Definition crleft_LH_a_4 (d : dims) (nx : nat) (C : chol) (H : ints) (T L : amps) : mat2 := fun a i =>
  crleft_LH_a_3 d nx C H T L a i + 1 / 2 * (sumn (nua d) (fun f => sumn (nua d) (fun e => sumn (noa d) (fun n => (i_aa_vvov H f e n a) * (x_aa L e f i n))))).
(** ccpy/left/left_ccsd_chol.py, build_LH_1A, line 100 *)
Definition crleft_LH_a_5 (d : dims) (nx : nat) (C : chol) (H : ints) (T L : amps) : mat2 := fun a i =>
  crleft_LH_a_4 d nx C H T L a i + sumn (nua d) (fun e => sumn (nua d) (fun f => sumn (noa d) (fun n => (i_ab_vvvo H e f a n) * (x_ab L e f i n)))).
(** ccpy/left/left_ccsd_chol.py, build_LH_1A, line 102 *)
Definition crleft_LH_a_6 (d : dims) (nx : nat) (C : chol) (H : ints) (T L : amps) : mat2 := fun a i =>
  crleft_LH_a_5 d nx C H T L a i - 1 / 2 * (sumn (nua d) (fun f => sumn (noa d) (fun n => sumn (noa d) (fun m => (i_aa_vooo H f i n m) * (x_aa L a f m n))))).
(** ccpy/left/left_ccsd_chol.py, build_LH_1A, line 103 *)
Definition crleft_LH_a_7 (d : dims) (nx : nat) (C : chol) (H : ints) (T L : amps) : mat2 := fun a i =>
  crleft_LH_a_6 d nx C H T L a i - sumn (nua d) (fun f => sumn (noa d) (fun m => sumn (noa d) (fun n => (i_ab_ovoo H i f m n) * (x_ab L a f m n)))).
(** ccpy/left/left_ccsd_chol.py, build_LH_1A, line 105 *)
Definition crleft_LH_a_8 (d : dims) (nx : nat) (C : chol) (H : ints) (T L : amps) : mat2 := fun a i =>
  crleft_LH_a_7 d nx C H T L a i + sumn (nua d) (fun g => sumn (nua d) (fun e => (crleft_X_a_vv d nx C H T L g e) * (i_aa_vovv H e i g a))).
(** ccpy/left/left_ccsd_chol.py, build_LH_1A, line 106 *)
Definition crleft_LH_a_9 (d : dims) (nx : nat) (C : chol) (H : ints) (T L : amps) : mat2 := fun a i =>
  crleft_LH_a_8 d nx C H T L a i + sumn (nua d) (fun f => sumn (nua d) (fun a' => (crleft_X_b_vv d nx C H T L f a') * (i_ab_ovvv H i a' a f))).
(** ccpy/left/left_ccsd_chol.py, build_LH_1A, line 108 *)
Definition crleft_LH_a_10 (d : dims) (nx : nat) (C : chol) (H : ints) (T L : amps) : mat2 := fun a i =>
  crleft_LH_a_9 d nx C H T L a i + sumn (noa d) (fun m => sumn (noa d) (fun n => (crleft_X_a_oo d nx C H T L m n) * (i_aa_ooov H n i m a))).
(** ccpy/left/left_ccsd_chol.py, build_LH_1A, line 109 *)
Definition crleft_LH_a_11 (d : dims) (nx : nat) (C : chol) (H : ints) (T L : amps) : mat2 := fun a i =>
  crleft_LH_a_10 d nx C H T L a i + sumn (noa d) (fun i' => sumn (noa d) (fun n => (crleft_X_b_oo d nx C H T L i' n) * (i_ab_oovo H i n a i'))).
(** ccpy/left/left_ccsd_chol.py, LH_fun, line 80 *)
Definition crleft_LH_b (d : dims) (nx : nat) (C : chol) (H : ints) (T L : amps) : mat2 := fun a i =>
  crleft_LH_a_11 d nx C H T L a i.
(** ccpy/left/left_ccsd_chol.py, build_LH_2A, line 137 *)
Definition crleft_LH_aa (d : dims) (nx : nat) (C : chol) (H : ints) (T L : amps) : mat4 := fun a b i j =>
  1 / 2 * (sumn (nua d) (fun e => (i_a_vv H e a) * (x_aa L e b i j))).
(** ccpy/left/left_ccsd_chol.py, build_LH_2A, line 138 *)
Definition crleft_LH_aa_1 (d : dims) (nx : nat) (C : chol) (H : ints) (T L : amps) : mat4 := fun a b i j =>
  crleft_LH_aa d nx C H T L a b i j - 1 / 2 * (sumn (noa d) (fun m => (i_a_oo H i m) * (x_aa L a b m j))).
(** ccpy/left/left_ccsd_chol.py, build_LH_2A, line 139 *)
Definition crleft_LH_aa_2 (d : dims) (nx : nat) (C : chol) (H : ints) (T L : amps) : mat4 := fun a b i j =>
  crleft_LH_aa_1 d nx C H T L a b i j + (i_a_ov H j b) * (x_a L a i).
(** ccpy/left/left_ccsd_chol.py, build_LH_2A, line 140 *)
Definition crleft_LH_aa_3 (d : dims) (nx : nat) (C : chol) (H : ints) (T L : amps) : mat4 := fun a b i j =>
  crleft_LH_aa_2 d nx C H T L a b i j - 1 / 2 * (sumn (nua d) (fun e => (crleft_X_a_vv d nx C H T L e a) * (i_aa_oovv H i j e b))).
(** ccpy/left/left_ccsd_chol.py, build_LH_2A, line 141 *)
Definition crleft_LH_aa_4 (d : dims) (nx : nat) (C : chol) (H : ints) (T L : amps) : mat4 := fun a b i j =>
  crleft_LH_aa_3 d nx C H T L a b i j + 1 / 2 * (sumn (noa d) (fun m => (crleft_X_a_oo d nx C H T L i m) * (i_aa_oovv H m j a b))).
(** ccpy/left/left_ccsd_chol.py, build_LH_2A, line 142 *)
Definition crleft_LH_aa_5 (d : dims) (nx : nat) (C : chol) (H : ints) (T L : amps) : mat4 := fun a b i j =>
  crleft_LH_aa_4 d nx C H T L a b i j + sumn (nua d) (fun e => sumn (noa d) (fun m => (i_aa_voov H e i m a) * (x_aa L e b m j))).
(** ccpy/left/left_ccsd_chol.py, build_LH_2A, line 143 *)
Definition crleft_LH_aa_6 (d : dims) (nx : nat) (C : chol) (H : ints) (T L : amps) : mat4 := fun a b i j =>
  crleft_LH_aa_5 d nx C H T L a b i j + sumn (nua d) (fun e => sumn (noa d) (fun m => (i_ab_ovvo H i e a m) * (x_ab L b e j m))).
(** ccpy/left/left_ccsd_chol.py, build_LH_2A, line 144 *)
Definition crleft_LH_aa_7 (d : dims) (nx : nat) (C : chol) (H : ints) (T L : amps) : mat4 := fun a b i j =>
  crleft_LH_aa_6 d nx C H T L a b i j + 1 / 8 * (sumn (noa d) (fun m => sumn (noa d) (fun n => (i_aa_oooo H i j m n) * (x_aa L a b m n)))).
(** ccpy/left/left_ccsd_chol.py, build_LH_2A, line 146 *)
Definition crleft_LH_aa_8 (d : dims) (nx : nat) (C : chol) (H : ints) (T L : amps) : mat4 := fun a b i j =>
  crleft_LH_aa_7 d nx C H T L a b i j + 1 / 8 * (sumn (noa d) (fun m => sumn (noa d) (fun n => (crleft_X_aa_oooo d nx C H T L i j m n) * (i_aa_oovv H m n a b)))).
(** ccpy/left/left_ccsd_chol.py, build_LH_2A, line 153 *)
Definition crleft_vR (d : dims) (nx : nat) (C : chol) (H : ints) (T L : amps) : mat3 := fun a b c =>
  c_a_vv C a b c.
(** ccpy/left/left_ccsd_chol.py, build_LH_2A, line 153 *)
Definition crleft_vT (d : dims) (nx : nat) (C : chol) (H : ints) (T L : amps) : mat4 := fun i j a b =>
  1 / 2 * (x_aa L b a j i).
(** ccpy/left/left_ccsd_chol.py, build_LH_2A, line 154 *)
Definition crleft_LH_aa_9 (d : dims) (nx : nat) (C : chol) (H : ints) (T L : amps) : mat4 := fun a b i j =>
  crleft_LH_aa_8 d nx C H T L a b i j + vvvv_t2_sym (noa d) (nua d) nx (crleft_vR d nx C H T L) (crleft_vT d nx C H T L) j i b a.
(** ccpy/left/left_ccsd_chol.py, build_LH_2A, line 156 *)
Definition crleft_LH_aa_10 (d : dims) (nx : nat) (C : chol) (H : ints) (T L : amps) : mat4 := fun a b i j =>
  crleft_LH_aa_9 d nx C H T L a b i j + 1 / 2 * (sumn (nua d) (fun e => (i_aa_vovv H e j a b) * (x_a L e i))).
(** ccpy/left/left_ccsd_chol.py, build_LH_2A, line 157 *)
Definition crleft_LH_aa_11 (d : dims) (nx : nat) (C : chol) (H : ints) (T L : amps) : mat4 := fun a b i j =>
  crleft_LH_aa_10 d nx C H T L a b i j - 1 / 2 * (sumn (noa d) (fun m => (i_aa_ooov H i j m b) * (x_a L a m))).
(** ccpy/left/left_ccsd_chol.py, build_LH_2A, line 158 *)
Definition crleft_LH_aa_12 (d : dims) (nx : nat) (C : chol) (H : ints) (T L : amps) : mat4 := fun a b i j =>
  crleft_LH_aa_11 d nx C H T L a b i j - (crleft_LH_aa_11 d nx C H T L b a i j + crleft_LH_aa_11 d nx C H T L a b j i - crleft_LH_aa_11 d nx C H T L b a j i).
(** ccpy/left/left_ccsd_chol.py, build_LH_2B, line 164 *)
Definition crleft_LH_ab (d : dims) (nx : nat) (C : chol) (H : ints) (T L : amps) : mat4 := fun a b i j =>
  (- (sumn (noa d) (fun m => (i_ab_ooov H i j m b) * (x_a L a m)))).
(** ccpy/left/left_ccsd_chol.py, build_LH_2B, line 165 *)
Definition crleft_LH_ab_1 (d : dims) (nx : nat) (C : chol) (H : ints) (T L : amps) : mat4 := fun a b i j =>
  crleft_LH_ab d nx C H T L a b i j - sumn (noa d) (fun m => (i_ab_oovo H i j a m) * (x_b L b m)).
(** ccpy/left/left_ccsd_chol.py, build_LH_2B, line 166 *)
Definition crleft_LH_ab_2 (d : dims) (nx : nat) (C : chol) (H : ints) (T L : amps) : mat4 := fun a b i j =>
  crleft_LH_ab_1 d nx C H T L a b i j + sumn (nua d) (fun e => (i_ab_vovv H e j a b) * (x_a L e i)).
(** ccpy/left/left_ccsd_chol.py, build_LH_2B, line 167 *)
Definition crleft_LH_ab_3 (d : dims) (nx : nat) (C : chol) (H : ints) (T L : amps) : mat4 := fun a b i j =>
  crleft_LH_ab_2 d nx C H T L a b i j + sumn (nua d) (fun e => (i_ab_ovvv H i e a b) * (x_b L e j)).
(** ccpy/left/left_ccsd_chol.py, build_LH_2B, line 168 *)
Definition crleft_LH_ab_4 (d : dims) (nx : nat) (C : chol) (H : ints) (T L : amps) : mat4 := fun a b i j =>
  crleft_LH_ab_3 d nx C H T L a b i j + sumn (noa d) (fun m => sumn (noa d) (fun n => (i_ab_oooo H i j m n) * (x_ab L a b m n))).
(** ccpy/left/left_ccsd_chol.py, build_LH_2B, line 170 *)
Definition crleft_LH_ab_5 (d : dims) (nx : nat) (C : chol) (H : ints) (T L : amps) : mat4 := fun a b i j =>
  crleft_LH_ab_4 d nx C H T L a b i j + sumn (noa d) (fun m => sumn (noa d) (fun n => (crleft_X_ab_oooo d nx C H T L i j m n) * (i_ab_oovv H m n a b))).
(** ccpy/left/left_ccsd_chol.py, build_LH_2B, line 176 *)
Definition crleft_vRa (d : dims) (nx : nat) (C : chol) (H : ints) (T L : amps) : mat3 := fun a b c =>
  c_a_vv C a b c.
(** ccpy/left/left_ccsd_chol.py, build_LH_2B, line 176 *)
Definition crleft_vRb (d : dims) (nx : nat) (C : chol) (H : ints) (T L : amps) : mat3 := fun a b c =>
  c_b_vv C a b c.
(** ccpy/left/left_ccsd_chol.py, build_LH_2B, line 176 *)
Definition crleft_vT_1 (d : dims) (nx : nat) (C : chol) (H : ints) (T L : amps) : mat4 := fun i j a b =>
  x_ab L b a j i.
(** ccpy/left/left_ccsd_chol.py, build_LH_2B, line 177 *)
Definition crleft_LH_ab_6 (d : dims) (nx : nat) (C : chol) (H : ints) (T L : amps) : mat4 := fun a b i j =>
  crleft_LH_ab_5 d nx C H T L a b i j + vvvv_t2 (nua d) (nua d) nx (crleft_vRa d nx C H T L) (crleft_vRb d nx C H T L) (crleft_vT_1 d nx C H T L) j i b a.
(** ccpy/left/left_ccsd_chol.py, build_LH_2B, line 179 *)
Definition crleft_LH_ab_7 (d : dims) (nx : nat) (C : chol) (H : ints) (T L : amps) : mat4 := fun a b i j =>
  crleft_LH_ab_6 d nx C H T L a b i j + sumn (nua d) (fun e => sumn (noa d) (fun m => (i_ab_voov H e j m b) * (x_aa L a e i m))).
(** ccpy/left/left_ccsd_chol.py, build_LH_2B, line 180 *)
Definition crleft_LH_ab_8 (d : dims) (nx : nat) (C : chol) (H : ints) (T L : amps) : mat4 := fun a b i j =>
  crleft_LH_ab_7 d nx C H T L a b i j + sumn (nua d) (fun e => sumn (noa d) (fun m => (i_aa_voov H e i m a) * (x_ab L e b m j))).
(** ccpy/left/left_ccsd_chol.py, build_LH_2B, line 181 *)
Definition crleft_LH_ab_9 (d : dims) (nx : nat) (C : chol) (H : ints) (T L : amps) : mat4 := fun a b i j =>
  crleft_LH_ab_8 d nx C H T L a b i j + sumn (nua d) (fun e => sumn (noa d) (fun m => (i_bb_voov H e j m b) * (x_ab L a e i m))).
(** ccpy/left/left_ccsd_chol.py, build_LH_2B, line 182 *)
Definition crleft_LH_ab_10 (d : dims) (nx : nat) (C : chol) (H : ints) (T L : amps) : mat4 := fun a b i j =>
  crleft_LH_ab_9 d nx C H T L a b i j + sumn (nua d) (fun e => sumn (noa d) (fun m => (i_ab_ovvo H i e a m) * (x_bb L e b m j))).
(** ccpy/left/left_ccsd_chol.py, build_LH_2B, line 183 *)
Definition crleft_LH_ab_11 (d : dims) (nx : nat) (C : chol) (H : ints) (T L : amps) : mat4 := fun a b i j =>
  crleft_LH_ab_10 d nx C H T L a b i j - sumn (nua d) (fun e => sumn (noa d) (fun m => (i_ab_ovov H i e m b) * (x_ab L a e m j))).
(** ccpy/left/left_ccsd_chol.py, build_LH_2B, line 184 *)
Definition crleft_LH_ab_12 (d : dims) (nx : nat) (C : chol) (H : ints) (T L : amps) : mat4 := fun a b i j =>
  crleft_LH_ab_11 d nx C H T L a b i j - sumn (nua d) (fun e => sumn (noa d) (fun m => (i_ab_vovo H e j a m) * (x_ab L e b i m))).
(** ccpy/left/left_ccsd_chol.py, build_LH_2B, line 185 *)
Definition crleft_LH_ab_13 (d : dims) (nx : nat) (C : chol) (H : ints) (T L : amps) : mat4 := fun a b i j =>
  crleft_LH_ab_12 d nx C H T L a b i j - sumn (nua d) (fun e => (crleft_X_a_vv d nx C H T L e a) * (i_ab_oovv H i j e b)).
(** ccpy/left/left_ccsd_chol.py, build_LH_2B, line 186 *)
Definition crleft_LH_ab_14 (d : dims) (nx : nat) (C : chol) (H : ints) (T L : amps) : mat4 := fun a b i j =>
  crleft_LH_ab_13 d nx C H T L a b i j + sumn (noa d) (fun m => (crleft_X_a_oo d nx C H T L i m) * (i_ab_oovv H m j a b)).
(** ccpy/left/left_ccsd_chol.py, build_LH_2B, line 187 *)
Definition crleft_LH_ab_15 (d : dims) (nx : nat) (C : chol) (H : ints) (T L : amps) : mat4 := fun a b i j =>
  crleft_LH_ab_14 d nx C H T L a b i j - sumn (nua d) (fun e => (crleft_X_b_vv d nx C H T L e b) * (i_ab_oovv H i j a e)).
(** ccpy/left/left_ccsd_chol.py, build_LH_2B, line 188 *)
Definition crleft_LH_ab_16 (d : dims) (nx : nat) (C : chol) (H : ints) (T L : amps) : mat4 := fun a b i j =>
  crleft_LH_ab_15 d nx C H T L a b i j + sumn (noa d) (fun m => (crleft_X_b_oo d nx C H T L j m) * (i_ab_oovv H i m a b)).
(** ccpy/left/left_ccsd_chol.py, build_LH_2B, line 189 *)
Definition crleft_LH_ab_17 (d : dims) (nx : nat) (C : chol) (H : ints) (T L : amps) : mat4 := fun a b i j =>
  crleft_LH_ab_16 d nx C H T L a b i j + sumn (nua d) (fun e => (i_a_vv H e a) * (x_ab L e b i j)).
(** ccpy/left/left_ccsd_chol.py, build_LH_2B, line 190 *)
Definition crleft_LH_ab_18 (d : dims) (nx : nat) (C : chol) (H : ints) (T L : amps) : mat4 := fun a b i j =>
  crleft_LH_ab_17 d nx C H T L a b i j + sumn (nua d) (fun e => (i_b_vv H e b) * (x_ab L a e i j)).
(** ccpy/left/left_ccsd_chol.py, build_LH_2B, line 191 *)
Definition crleft_LH_ab_19 (d : dims) (nx : nat) (C : chol) (H : ints) (T L : amps) : mat4 := fun a b i j =>
  crleft_LH_ab_18 d nx C H T L a b i j - sumn (noa d) (fun m => (i_a_oo H i m) * (x_ab L a b m j)).
(** ccpy/left/left_ccsd_chol.py, build_LH_2B, line 192 *)
Definition crleft_LH_ab_20 (d : dims) (nx : nat) (C : chol) (H : ints) (T L : amps) : mat4 := fun a b i j =>
  crleft_LH_ab_19 d nx C H T L a b i j - sumn (noa d) (fun m => (i_b_oo H j m) * (x_ab L a b i m)).
(** ccpy/left/left_ccsd_chol.py, build_LH_2B, line 193 *)
Definition crleft_LH_ab_21 (d : dims) (nx : nat) (C : chol) (H : ints) (T L : amps) : mat4 := fun a b i j =>
  crleft_LH_ab_20 d nx C H T L a b i j + (i_b_ov H j b) * (x_a L a i).
(** ccpy/left/left_ccsd_chol.py, build_LH_2B, line 194 *)
Definition crleft_LH_ab_22 (d : dims) (nx : nat) (C : chol) (H : ints) (T L : amps) : mat4 := fun a b i j =>
  crleft_LH_ab_21 d nx C H T L a b i j + (i_a_ov H i a) * (x_b L b j).
(** ccpy/left/left_ccsd_chol.py, LH_fun, line 87 *)
Definition crleft_LH_bb (d : dims) (nx : nat) (C : chol) (H : ints) (T L : amps) : mat4 := fun a b i j =>
  crleft_LH_aa_12 d nx C H T L a b i j.
(** left_ccsd_chol.py, LH_fun, lines 72-90, flag_RHF = True *)
Definition rchol_LH (d : dims) (nx : nat) (C : chol) (H : ints) (T L : amps) : amps := mkAmps (crleft_LH_a_11 d nx C H T L) (crleft_LH_b d nx C H T L) (crleft_LH_aa_12 d nx C H T L) (crleft_LH_ab_22 d nx C H T L) (crleft_LH_bb d nx C H T L) (fun _ _ _ _ _ _ => 0) (fun _ _ _ _ _ _ => 0) (fun _ _ _ _ _ _ => 0) (fun _ _ _ _ _ _ => 0).
