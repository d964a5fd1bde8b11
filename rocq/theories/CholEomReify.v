(** Generated by tools/gen_cholhbar.py: the routines of CholEomModel.v with unrestricted sums in place of the Fortran contraction, and their reification together with the dense ones (proof support). *)
From Coq Require Import Reals Arith List ZArith.
From Verif Require Import RSum IntegralsModel TensorObjs TensorAlg CholLoops CcsdModel EomModel CholEomModel.
Import ListNotations.
Open Scope R_scope.
(** ccpy/eomcc/eomccsd_intermediates.py, get_eomccsd_chol_intermediates, lines 51-57 *)
Definition cfeom_X_a_oo (d : dims) (nx : nat) (C : chol) (H : ints) (T R : amps) : mat2 := fun m j =>
  sumn (noa d) (fun n => sumn (nua d) (fun f => (i_aa_ooov H m n j f) * (x_a R f n))) + sumn (nob d) (fun n => sumn (nub d) (fun f => (i_ab_ooov H m n j f) * (x_b R f n))) + 1 / 2 * (sumn (noa d) (fun n => sumn (nua d) (fun e => sumn (nua d) (fun f => (i_aa_oovv H m n e f) * (x_aa R e f j n))))) + sumn (nob d) (fun n => sumn (nua d) (fun e => sumn (nub d) (fun f => (i_ab_oovv H m n e f) * (x_ab R e f j n)))).
(** ccpy/eomcc/eomccsd_intermediates.py, get_eomccsd_chol_intermediates, lines 59-65 *)
Definition cfeom_X_a_vv (d : dims) (nx : nat) (C : chol) (H : ints) (T R : amps) : mat2 := fun b e =>
  sumn (noa d) (fun n => sumn (nua d) (fun f => (i_aa_vovv H b n e f) * (x_a R f n))) + sumn (nob d) (fun n => sumn (nub d) (fun f => (i_ab_vovv H b n e f) * (x_b R f n))) - 1 / 2 * (sumn (noa d) (fun m => sumn (noa d) (fun n => sumn (nua d) (fun f => (i_aa_oovv H m n e f) * (x_aa R b f m n))))) - sumn (noa d) (fun m => sumn (nob d) (fun n => sumn (nub d) (fun f => (i_ab_oovv H m n e f) * (x_ab R b f m n)))).
(** ccpy/eomcc/eomccsd_intermediates.py, get_eomccsd_chol_intermediates, lines 67-73 *)
Definition cfeom_X_b_oo (d : dims) (nx : nat) (C : chol) (H : ints) (T R : amps) : mat2 := fun m k =>
  sumn (noa d) (fun n => sumn (nua d) (fun f => (i_ab_oovo H n m f k) * (x_a R f n))) + sumn (nob d) (fun n => sumn (nub d) (fun f => (i_bb_ooov H m n k f) * (x_b R f n))) + sumn (noa d) (fun n => sumn (nua d) (fun f => sumn (nub d) (fun e => (i_ab_oovv H n m f e) * (x_ab R f e n k)))) + 1 / 2 * (sumn (nob d) (fun n => sumn (nub d) (fun e => sumn (nub d) (fun f => (i_bb_oovv H m n e f) * (x_bb R e f k n))))).
(** ccpy/eomcc/eomccsd_intermediates.py, get_eomccsd_chol_intermediates, lines 75-81 *)
Definition cfeom_X_b_vv (d : dims) (nx : nat) (C : chol) (H : ints) (T R : amps) : mat2 := fun c e =>
  sumn (noa d) (fun n => sumn (nua d) (fun f => (i_ab_ovvv H n c f e) * (x_a R f n))) + sumn (nob d) (fun n => sumn (nub d) (fun f => (i_bb_vovv H c n e f) * (x_b R f n))) - 1 / 1 * (sumn (noa d) (fun n => sumn (nob d) (fun m => sumn (nua d) (fun f => (i_ab_oovv H n m f e) * (x_ab R f c n m))))) - 1 / 2 * (sumn (nob d) (fun m => sumn (nob d) (fun n => sumn (nub d) (fun f => (i_bb_oovv H m n e f) * (x_bb R f c n m))))).
(** ccpy/eomcc/eomccsd_intermediates.py, get_eomccsd_chol_intermediates, lines 83-85 *)
Definition cfeom_X_aa_oooo (d : dims) (nx : nat) (C : chol) (H : ints) (T R : amps) : mat4 := fun m n i j =>
  1 / 2 * (sumn (nua d) (fun e => sumn (nua d) (fun f => (i_aa_oovv H m n e f) * (x_aa R e f i j)))).
(** ccpy/eomcc/eomccsd_intermediates.py, get_eomccsd_chol_intermediates, lines 86-88 *)
Definition cfeom_X_ab_oooo (d : dims) (nx : nat) (C : chol) (H : ints) (T R : amps) : mat4 := fun m n i j =>
  sumn (nua d) (fun e => sumn (nub d) (fun f => (i_ab_oovv H m n e f) * (x_ab R e f i j))).
(** ccpy/eomcc/eomccsd_intermediates.py, get_eomccsd_chol_intermediates, lines 89-91 *)
Definition cfeom_X_bb_oooo (d : dims) (nx : nat) (C : chol) (H : ints) (T R : amps) : mat4 := fun m n i j =>
  1 / 2 * (sumn (nub d) (fun e => sumn (nub d) (fun f => (i_bb_oovv H m n e f) * (x_bb R e f i j)))).
(** ccpy/eomcc/eomccsd_chol.py, build_HR_1A, line 54 *)
Definition cfeom_X1A (d : dims) (nx : nat) (C : chol) (H : ints) (T R : amps) : mat2 := fun a i =>
  (- (sumn (noa d) (fun m => (i_a_oo H m i) * (x_a R a m)))).
(** ccpy/eomcc/eomccsd_chol.py, build_HR_1A, line 55 *)
Definition cfeom_X1A_1 (d : dims) (nx : nat) (C : chol) (H : ints) (T R : amps) : mat2 := fun a i =>
  cfeom_X1A d nx C H T R a i + sumn (nua d) (fun e => (i_a_vv H a e) * (x_a R e i)).
(** ccpy/eomcc/eomccsd_chol.py, build_HR_1A, line 56 *)
Definition cfeom_X1A_2 (d : dims) (nx : nat) (C : chol) (H : ints) (T R : amps) : mat2 := fun a i =>
  cfeom_X1A_1 d nx C H T R a i + sumn (noa d) (fun m => sumn (nua d) (fun e => (i_aa_voov H a m i e) * (x_a R e m))).
(** ccpy/eomcc/eomccsd_chol.py, build_HR_1A, line 57 *)
Definition cfeom_X1A_3 (d : dims) (nx : nat) (C : chol) (H : ints) (T R : amps) : mat2 := fun a i =>
  cfeom_X1A_2 d nx C H T R a i + sumn (nob d) (fun m => sumn (nub d) (fun e => (i_ab_voov H a m i e) * (x_b R e m))).
(** ccpy/eomcc/eomccsd_chol.py, build_HR_1A, line 58 *)
Definition cfeom_X1A_4 (d : dims) (nx : nat) (C : chol) (H : ints) (T R : amps) : mat2 := fun a i =>
  cfeom_X1A_3 d nx C H T R a i - 1 / 2 * (sumn (noa d) (fun m => sumn (noa d) (fun n => sumn (nua d) (fun f => (i_aa_ooov H m n i f) * (x_aa R a f m n))))).
(** ccpy/eomcc/eomccsd_chol.py, build_HR_1A, line 59 *)
Definition cfeom_X1A_5 (d : dims) (nx : nat) (C : chol) (H : ints) (T R : amps) : mat2 := fun a i =>
  cfeom_X1A_4 d nx C H T R a i - sumn (noa d) (fun m => sumn (nob d) (fun n => sumn (nub d) (fun f => (i_ab_ooov H m n i f) * (x_ab R a f m n)))).
(** ccpy/eomcc/eomccsd_chol.py, build_HR_1A, line 60 *)
Definition cfeom_X1A_6 (d : dims) (nx : nat) (C : chol) (H : ints) (T R : amps) : mat2 := fun a i =>
  cfeom_X1A_5 d nx C H T R a i + 1 / 2 * (sumn (noa d) (fun n => sumn (nua d) (fun e => sumn (nua d) (fun f => (i_aa_vovv H a n e f) * (x_aa R e f i n))))).
(** ccpy/eomcc/eomccsd_chol.py, build_HR_1A, line 61 *)
Definition cfeom_X1A_7 (d : dims) (nx : nat) (C : chol) (H : ints) (T R : amps) : mat2 := fun a i =>
  cfeom_X1A_6 d nx C H T R a i + sumn (nob d) (fun n => sumn (nua d) (fun e => sumn (nub d) (fun f => (i_ab_vovv H a n e f) * (x_ab R e f i n)))).
(** ccpy/eomcc/eomccsd_chol.py, build_HR_1A, line 62 *)
Definition cfeom_X1A_8 (d : dims) (nx : nat) (C : chol) (H : ints) (T R : amps) : mat2 := fun a i =>
  cfeom_X1A_7 d nx C H T R a i + sumn (noa d) (fun m => sumn (nua d) (fun e => (i_a_ov H m e) * (x_aa R a e i m))).
(** ccpy/eomcc/eomccsd_chol.py, build_HR_1A, line 63 *)
Definition cfeom_X1A_9 (d : dims) (nx : nat) (C : chol) (H : ints) (T R : amps) : mat2 := fun a i =>
  cfeom_X1A_8 d nx C H T R a i + sumn (nob d) (fun m => sumn (nub d) (fun e => (i_b_ov H m e) * (x_ab R a e i m))).
(** ccpy/eomcc/eomccsd_chol.py, build_HR_1B, line 68 *)
Definition cfeom_X1B (d : dims) (nx : nat) (C : chol) (H : ints) (T R : amps) : mat2 := fun a i =>
  (- (sumn (nob d) (fun m => (i_b_oo H m i) * (x_b R a m)))).
(** ccpy/eomcc/eomccsd_chol.py, build_HR_1B, line 69 *)
Definition cfeom_X1B_1 (d : dims) (nx : nat) (C : chol) (H : ints) (T R : amps) : mat2 := fun a i =>
  cfeom_X1B d nx C H T R a i + sumn (nub d) (fun e => (i_b_vv H a e) * (x_b R e i)).
(** ccpy/eomcc/eomccsd_chol.py, build_HR_1B, line 70 *)
Definition cfeom_X1B_2 (d : dims) (nx : nat) (C : chol) (H : ints) (T R : amps) : mat2 := fun a i =>
  cfeom_X1B_1 d nx C H T R a i + sumn (noa d) (fun m => sumn (nua d) (fun e => (i_ab_ovvo H m a e i) * (x_a R e m))).
(** ccpy/eomcc/eomccsd_chol.py, build_HR_1B, line 71 *)
Definition cfeom_X1B_3 (d : dims) (nx : nat) (C : chol) (H : ints) (T R : amps) : mat2 := fun a i =>
  cfeom_X1B_2 d nx C H T R a i + sumn (nob d) (fun m => sumn (nub d) (fun e => (i_bb_voov H a m i e) * (x_b R e m))).
(** ccpy/eomcc/eomccsd_chol.py, build_HR_1B, line 72 *)
Definition cfeom_X1B_4 (d : dims) (nx : nat) (C : chol) (H : ints) (T R : amps) : mat2 := fun a i =>
  cfeom_X1B_3 d nx C H T R a i - sumn (noa d) (fun n => sumn (nob d) (fun m => sumn (nua d) (fun f => (i_ab_oovo H n m f i) * (x_ab R f a n m)))).
(** ccpy/eomcc/eomccsd_chol.py, build_HR_1B, line 73 *)
Definition cfeom_X1B_5 (d : dims) (nx : nat) (C : chol) (H : ints) (T R : amps) : mat2 := fun a i =>
  cfeom_X1B_4 d nx C H T R a i - 1 / 2 * (sumn (nob d) (fun m => sumn (nob d) (fun n => sumn (nub d) (fun f => (i_bb_ooov H m n i f) * (x_bb R a f m n))))).
(** ccpy/eomcc/eomccsd_chol.py, build_HR_1B, line 74 *)
Definition cfeom_X1B_6 (d : dims) (nx : nat) (C : chol) (H : ints) (T R : amps) : mat2 := fun a i =>
  cfeom_X1B_5 d nx C H T R a i + sumn (noa d) (fun n => sumn (nua d) (fun f => sumn (nub d) (fun e => (i_ab_ovvv H n a f e) * (x_ab R f e n i)))).
(** ccpy/eomcc/eomccsd_chol.py, build_HR_1B, line 75 *)
Definition cfeom_X1B_7 (d : dims) (nx : nat) (C : chol) (H : ints) (T R : amps) : mat2 := fun a i =>
  cfeom_X1B_6 d nx C H T R a i + 1 / 2 * (sumn (nob d) (fun n => sumn (nub d) (fun e => sumn (nub d) (fun f => (i_bb_vovv H a n e f) * (x_bb R e f i n))))).
(** ccpy/eomcc/eomccsd_chol.py, build_HR_1B, line 76 *)
Definition cfeom_X1B_8 (d : dims) (nx : nat) (C : chol) (H : ints) (T R : amps) : mat2 := fun a i =>
  cfeom_X1B_7 d nx C H T R a i + sumn (noa d) (fun m => sumn (nua d) (fun e => (i_a_ov H m e) * (x_ab R e a m i))).
(** ccpy/eomcc/eomccsd_chol.py, build_HR_1B, line 77 *)
Definition cfeom_X1B_9 (d : dims) (nx : nat) (C : chol) (H : ints) (T R : amps) : mat2 := fun a i =>
  cfeom_X1B_8 d nx C H T R a i + sumn (nob d) (fun m => sumn (nub d) (fun e => (i_b_ov H m e) * (x_bb R a e i m))).
(** ccpy/eomcc/eomccsd_chol.py, build_HR_2A, line 83 *)
Definition cfeom_X2A (d : dims) (nx : nat) (C : chol) (H : ints) (T R : amps) : mat4 := fun a b i j =>
  (-1) / 2 * (sumn (noa d) (fun m => (i_a_oo H m i) * (x_aa R a b m j))).
(** ccpy/eomcc/eomccsd_chol.py, build_HR_2A, line 84 *)
Definition cfeom_X2A_1 (d : dims) (nx : nat) (C : chol) (H : ints) (T R : amps) : mat4 := fun a b i j =>
  cfeom_X2A d nx C H T R a b i j + 1 / 2 * (sumn (nua d) (fun e => (i_a_vv H a e) * (x_aa R e b i j))).
(** ccpy/eomcc/eomccsd_chol.py, build_HR_2A, line 85 *)
Definition cfeom_X2A_2 (d : dims) (nx : nat) (C : chol) (H : ints) (T R : amps) : mat4 := fun a b i j =>
  cfeom_X2A_1 d nx C H T R a b i j + 1 / 8 * (sumn (noa d) (fun m => sumn (noa d) (fun n => (i_aa_oooo H m n i j) * (x_aa R a b m n)))).
(** ccpy/eomcc/eomccsd_chol.py, build_HR_2A, line 87 *)
Definition cfeom_X2A_3 (d : dims) (nx : nat) (C : chol) (H : ints) (T R : amps) : mat4 := fun a b i j =>
  cfeom_X2A_2 d nx C H T R a b i j + 1 / 8 * (sumn (noa d) (fun m => sumn (noa d) (fun n => (cfeom_X_aa_oooo d nx C H T R m n i j) * (x_aa T a b m n)))).
(** ccpy/eomcc/eomccsd_chol.py, build_HR_2A, line 94 *)
Definition cfeom_vR (d : dims) (nx : nat) (C : chol) (H : ints) (T R : amps) : mat3 := fun a b c =>
  c_a_vv C a c b.
(** ccpy/eomcc/eomccsd_chol.py, build_HR_2A, line 94 *)
Definition cfeom_vT (d : dims) (nx : nat) (C : chol) (H : ints) (T R : amps) : mat4 := fun i j a b =>
  1 / 2 * (x_aa R b a j i).
(** ccpy/eomcc/eomccsd_chol.py, build_HR_2A, line 95 *)
Definition cfeom_X2A_4 (d : dims) (nx : nat) (C : chol) (H : ints) (T R : amps) : mat4 := fun a b i j =>
  cfeom_X2A_3 d nx C H T R a b i j + 1 / 4 * (sumn (nua d) (fun e' => sumn (nua d) (fun f' => (sumn nx (fun x => (cfeom_vR d nx C H T R x f' b) * (cfeom_vR d nx C H T R x e' a) - (cfeom_vR d nx C H T R x e' b) * (cfeom_vR d nx C H T R x f' a))) * (cfeom_vT d nx C H T R j i f' e')))).
(** ccpy/eomcc/eomccsd_chol.py, build_HR_2A, line 97 *)
Definition cfeom_X2A_5 (d : dims) (nx : nat) (C : chol) (H : ints) (T R : amps) : mat4 := fun a b i j =>
  cfeom_X2A_4 d nx C H T R a b i j + sumn (noa d) (fun m => sumn (nua d) (fun e => (i_aa_voov H a m i e) * (x_aa R e b m j))).
(** ccpy/eomcc/eomccsd_chol.py, build_HR_2A, line 98 *)
Definition cfeom_X2A_6 (d : dims) (nx : nat) (C : chol) (H : ints) (T R : amps) : mat4 := fun a b i j =>
  cfeom_X2A_5 d nx C H T R a b i j + sumn (nob d) (fun m => sumn (nub d) (fun e => (i_ab_voov H a m i e) * (x_ab R b e j m))).
(** ccpy/eomcc/eomccsd_chol.py, build_HR_2A, line 99 *)
Definition cfeom_X2A_7 (d : dims) (nx : nat) (C : chol) (H : ints) (T R : amps) : mat4 := fun a b i j =>
  cfeom_X2A_6 d nx C H T R a b i j - 1 / 2 * (sumn (noa d) (fun m => (i_aa_vooo H b m j i) * (x_a R a m))).
(** ccpy/eomcc/eomccsd_chol.py, build_HR_2A, line 100 *)
Definition cfeom_X2A_8 (d : dims) (nx : nat) (C : chol) (H : ints) (T R : amps) : mat4 := fun a b i j =>
  cfeom_X2A_7 d nx C H T R a b i j + 1 / 2 * (sumn (nua d) (fun e => (i_aa_vvov H b a j e) * (x_a R e i))).
(** ccpy/eomcc/eomccsd_chol.py, build_HR_2A, line 101 *)
Definition cfeom_X2A_9 (d : dims) (nx : nat) (C : chol) (H : ints) (T R : amps) : mat4 := fun a b i j =>
  cfeom_X2A_8 d nx C H T R a b i j + 1 / 2 * (sumn (nua d) (fun e => (cfeom_X_a_vv d nx C H T R b e) * (x_aa T a e i j))).
(** ccpy/eomcc/eomccsd_chol.py, build_HR_2A, line 102 *)
Definition cfeom_X2A_10 (d : dims) (nx : nat) (C : chol) (H : ints) (T R : amps) : mat4 := fun a b i j =>
  cfeom_X2A_9 d nx C H T R a b i j - 1 / 2 * (sumn (noa d) (fun m => (cfeom_X_a_oo d nx C H T R m j) * (x_aa T a b i m))).
(** ccpy/eomcc/eomccsd_chol.py, build_HR_2A, line 103 *)
Definition cfeom_X2A_11 (d : dims) (nx : nat) (C : chol) (H : ints) (T R : amps) : mat4 := fun a b i j =>
  cfeom_X2A_10 d nx C H T R a b i j - cfeom_X2A_10 d nx C H T R b a i j.
(** ccpy/eomcc/eomccsd_chol.py, build_HR_2A, line 104 *)
Definition cfeom_X2A_12 (d : dims) (nx : nat) (C : chol) (H : ints) (T R : amps) : mat4 := fun a b i j =>
  cfeom_X2A_11 d nx C H T R a b i j - cfeom_X2A_11 d nx C H T R a b j i.
(** ccpy/eomcc/eomccsd_chol.py, build_HR_2B, line 109 *)
Definition cfeom_X2B (d : dims) (nx : nat) (C : chol) (H : ints) (T R : amps) : mat4 := fun a b i j =>
  sumn (nua d) (fun e => (i_a_vv H a e) * (x_ab R e b i j)).
(** ccpy/eomcc/eomccsd_chol.py, build_HR_2B, line 110 *)
Definition cfeom_X2B_1 (d : dims) (nx : nat) (C : chol) (H : ints) (T R : amps) : mat4 := fun a b i j =>
  cfeom_X2B d nx C H T R a b i j + sumn (nub d) (fun e => (i_b_vv H b e) * (x_ab R a e i j)).
(** ccpy/eomcc/eomccsd_chol.py, build_HR_2B, line 111 *)
Definition cfeom_X2B_2 (d : dims) (nx : nat) (C : chol) (H : ints) (T R : amps) : mat4 := fun a b i j =>
  cfeom_X2B_1 d nx C H T R a b i j - sumn (noa d) (fun m => (i_a_oo H m i) * (x_ab R a b m j)).
(** ccpy/eomcc/eomccsd_chol.py, build_HR_2B, line 112 *)
Definition cfeom_X2B_3 (d : dims) (nx : nat) (C : chol) (H : ints) (T R : amps) : mat4 := fun a b i j =>
  cfeom_X2B_2 d nx C H T R a b i j - sumn (nob d) (fun m => (i_b_oo H m j) * (x_ab R a b i m)).
(** ccpy/eomcc/eomccsd_chol.py, build_HR_2B, line 113 *)
Definition cfeom_X2B_4 (d : dims) (nx : nat) (C : chol) (H : ints) (T R : amps) : mat4 := fun a b i j =>
  cfeom_X2B_3 d nx C H T R a b i j + sumn (noa d) (fun m => sumn (nob d) (fun n => (i_ab_oooo H m n i j) * (x_ab R a b m n))).
(** ccpy/eomcc/eomccsd_chol.py, build_HR_2B, line 115 *)
Definition cfeom_X2B_5 (d : dims) (nx : nat) (C : chol) (H : ints) (T R : amps) : mat4 := fun a b i j =>
  cfeom_X2B_4 d nx C H T R a b i j + sumn (noa d) (fun m => sumn (nob d) (fun n => (cfeom_X_ab_oooo d nx C H T R m n i j) * (x_ab T a b m n))).
(** ccpy/eomcc/eomccsd_chol.py, build_HR_2B, line 121 *)
Definition cfeom_vRa (d : dims) (nx : nat) (C : chol) (H : ints) (T R : amps) : mat3 := fun a b c =>
  c_a_vv C a c b.
(** ccpy/eomcc/eomccsd_chol.py, build_HR_2B, line 121 *)
Definition cfeom_vRb (d : dims) (nx : nat) (C : chol) (H : ints) (T R : amps) : mat3 := fun a b c =>
  c_b_vv C a c b.
(** ccpy/eomcc/eomccsd_chol.py, build_HR_2B, line 121 *)
Definition cfeom_vT_1 (d : dims) (nx : nat) (C : chol) (H : ints) (T R : amps) : mat4 := fun i j a b =>
  x_ab R b a j i.
(** ccpy/eomcc/eomccsd_chol.py, build_HR_2B, line 122 *)
Definition cfeom_X2B_6 (d : dims) (nx : nat) (C : chol) (H : ints) (T R : amps) : mat4 := fun a b i j =>
  cfeom_X2B_5 d nx C H T R a b i j + sumn (nua d) (fun e' => sumn (nub d) (fun f' => (sumn nx (fun x => (cfeom_vRb d nx C H T R x f' b) * (cfeom_vRa d nx C H T R x e' a))) * (cfeom_vT_1 d nx C H T R j i f' e'))).
(** ccpy/eomcc/eomccsd_chol.py, build_HR_2B, line 124 *)
Definition cfeom_X2B_7 (d : dims) (nx : nat) (C : chol) (H : ints) (T R : amps) : mat4 := fun a b i j =>
  cfeom_X2B_6 d nx C H T R a b i j + sumn (noa d) (fun m => sumn (nua d) (fun e => (i_aa_voov H a m i e) * (x_ab R e b m j))).
(** ccpy/eomcc/eomccsd_chol.py, build_HR_2B, line 125 *)
Definition cfeom_X2B_8 (d : dims) (nx : nat) (C : chol) (H : ints) (T R : amps) : mat4 := fun a b i j =>
  cfeom_X2B_7 d nx C H T R a b i j + sumn (nob d) (fun m => sumn (nub d) (fun e => (i_ab_voov H a m i e) * (x_bb R e b m j))).
(** ccpy/eomcc/eomccsd_chol.py, build_HR_2B, line 126 *)
Definition cfeom_X2B_9 (d : dims) (nx : nat) (C : chol) (H : ints) (T R : amps) : mat4 := fun a b i j =>
  cfeom_X2B_8 d nx C H T R a b i j + sumn (noa d) (fun m => sumn (nua d) (fun e => (i_ab_ovvo H m b e j) * (x_aa R a e i m))).
(** ccpy/eomcc/eomccsd_chol.py, build_HR_2B, line 127 *)
Definition cfeom_X2B_10 (d : dims) (nx : nat) (C : chol) (H : ints) (T R : amps) : mat4 := fun a b i j =>
  cfeom_X2B_9 d nx C H T R a b i j + sumn (nob d) (fun m => sumn (nub d) (fun e => (i_bb_voov H b m j e) * (x_ab R a e i m))).
(** ccpy/eomcc/eomccsd_chol.py, build_HR_2B, line 128 *)
Definition cfeom_X2B_11 (d : dims) (nx : nat) (C : chol) (H : ints) (T R : amps) : mat4 := fun a b i j =>
  cfeom_X2B_10 d nx C H T R a b i j - sumn (noa d) (fun m => sumn (nub d) (fun e => (i_ab_ovov H m b i e) * (x_ab R a e m j))).
(** ccpy/eomcc/eomccsd_chol.py, build_HR_2B, line 129 *)
Definition cfeom_X2B_12 (d : dims) (nx : nat) (C : chol) (H : ints) (T R : amps) : mat4 := fun a b i j =>
  cfeom_X2B_11 d nx C H T R a b i j - sumn (nob d) (fun m => sumn (nua d) (fun e => (i_ab_vovo H a m e j) * (x_ab R e b i m))).
(** ccpy/eomcc/eomccsd_chol.py, build_HR_2B, line 130 *)
Definition cfeom_X2B_13 (d : dims) (nx : nat) (C : chol) (H : ints) (T R : amps) : mat4 := fun a b i j =>
  cfeom_X2B_12 d nx C H T R a b i j + sumn (nua d) (fun e => (i_ab_vvvo H a b e j) * (x_a R e i)).
(** ccpy/eomcc/eomccsd_chol.py, build_HR_2B, line 131 *)
Definition cfeom_X2B_14 (d : dims) (nx : nat) (C : chol) (H : ints) (T R : amps) : mat4 := fun a b i j =>
  cfeom_X2B_13 d nx C H T R a b i j + sumn (nub d) (fun e => (i_ab_vvov H a b i e) * (x_b R e j)).
(** ccpy/eomcc/eomccsd_chol.py, build_HR_2B, line 132 *)
Definition cfeom_X2B_15 (d : dims) (nx : nat) (C : chol) (H : ints) (T R : amps) : mat4 := fun a b i j =>
  cfeom_X2B_14 d nx C H T R a b i j - sumn (noa d) (fun m => (i_ab_ovoo H m b i j) * (x_a R a m)).
(** ccpy/eomcc/eomccsd_chol.py, build_HR_2B, line 133 *)
Definition cfeom_X2B_16 (d : dims) (nx : nat) (C : chol) (H : ints) (T R : amps) : mat4 := fun a b i j =>
  cfeom_X2B_15 d nx C H T R a b i j - sumn (nob d) (fun m => (i_ab_vooo H a m i j) * (x_b R b m)).
(** ccpy/eomcc/eomccsd_chol.py, build_HR_2B, line 134 *)
Definition cfeom_X2B_17 (d : dims) (nx : nat) (C : chol) (H : ints) (T R : amps) : mat4 := fun a b i j =>
  cfeom_X2B_16 d nx C H T R a b i j + sumn (nua d) (fun e => (cfeom_X_a_vv d nx C H T R a e) * (x_ab T e b i j)).
(** ccpy/eomcc/eomccsd_chol.py, build_HR_2B, line 135 *)
Definition cfeom_X2B_18 (d : dims) (nx : nat) (C : chol) (H : ints) (T R : amps) : mat4 := fun a b i j =>
  cfeom_X2B_17 d nx C H T R a b i j - sumn (noa d) (fun m => (cfeom_X_a_oo d nx C H T R m i) * (x_ab T a b m j)).
(** ccpy/eomcc/eomccsd_chol.py, build_HR_2B, line 136 *)
Definition cfeom_X2B_19 (d : dims) (nx : nat) (C : chol) (H : ints) (T R : amps) : mat4 := fun a b i j =>
  cfeom_X2B_18 d nx C H T R a b i j + sumn (nub d) (fun e => (cfeom_X_b_vv d nx C H T R b e) * (x_ab T a e i j)).
(** ccpy/eomcc/eomccsd_chol.py, build_HR_2B, line 137 *)
Definition cfeom_X2B_20 (d : dims) (nx : nat) (C : chol) (H : ints) (T R : amps) : mat4 := fun a b i j =>
  cfeom_X2B_19 d nx C H T R a b i j - sumn (nob d) (fun m => (cfeom_X_b_oo d nx C H T R m j) * (x_ab T a b i m)).
(** ccpy/eomcc/eomccsd_chol.py, build_HR_2C, line 142 *)
Definition cfeom_X2C (d : dims) (nx : nat) (C : chol) (H : ints) (T R : amps) : mat4 := fun a b i j =>
  (-1) / 2 * (sumn (nob d) (fun m => (i_b_oo H m i) * (x_bb R a b m j))).
(** ccpy/eomcc/eomccsd_chol.py, build_HR_2C, line 143 *)
Definition cfeom_X2C_1 (d : dims) (nx : nat) (C : chol) (H : ints) (T R : amps) : mat4 := fun a b i j =>
  cfeom_X2C d nx C H T R a b i j + 1 / 2 * (sumn (nub d) (fun e => (i_b_vv H a e) * (x_bb R e b i j))).
(** ccpy/eomcc/eomccsd_chol.py, build_HR_2C, line 144 *)
Definition cfeom_X2C_2 (d : dims) (nx : nat) (C : chol) (H : ints) (T R : amps) : mat4 := fun a b i j =>
  cfeom_X2C_1 d nx C H T R a b i j + 1 / 8 * (sumn (nob d) (fun m => sumn (nob d) (fun n => (i_bb_oooo H m n i j) * (x_bb R a b m n)))).
(** ccpy/eomcc/eomccsd_chol.py, build_HR_2C, line 146 *)
Definition cfeom_X2C_3 (d : dims) (nx : nat) (C : chol) (H : ints) (T R : amps) : mat4 := fun a b i j =>
  cfeom_X2C_2 d nx C H T R a b i j + 1 / 8 * (sumn (nob d) (fun m => sumn (nob d) (fun n => (cfeom_X_bb_oooo d nx C H T R m n i j) * (x_bb T a b m n)))).
(** ccpy/eomcc/eomccsd_chol.py, build_HR_2C, line 153 *)
Definition cfeom_vR_1 (d : dims) (nx : nat) (C : chol) (H : ints) (T R : amps) : mat3 := fun a b c =>
  c_b_vv C a c b.
(** ccpy/eomcc/eomccsd_chol.py, build_HR_2C, line 153 *)
Definition cfeom_vT_2 (d : dims) (nx : nat) (C : chol) (H : ints) (T R : amps) : mat4 := fun i j a b =>
  1 / 2 * (x_bb R b a j i).
(** ccpy/eomcc/eomccsd_chol.py, build_HR_2C, line 154 *)
Definition cfeom_X2C_4 (d : dims) (nx : nat) (C : chol) (H : ints) (T R : amps) : mat4 := fun a b i j =>
  cfeom_X2C_3 d nx C H T R a b i j + 1 / 4 * (sumn (nub d) (fun e' => sumn (nub d) (fun f' => (sumn nx (fun x => (cfeom_vR_1 d nx C H T R x f' b) * (cfeom_vR_1 d nx C H T R x e' a) - (cfeom_vR_1 d nx C H T R x e' b) * (cfeom_vR_1 d nx C H T R x f' a))) * (cfeom_vT_2 d nx C H T R j i f' e')))).
(** ccpy/eomcc/eomccsd_chol.py, build_HR_2C, line 156 *)
Definition cfeom_X2C_5 (d : dims) (nx : nat) (C : chol) (H : ints) (T R : amps) : mat4 := fun a b i j =>
  cfeom_X2C_4 d nx C H T R a b i j + sumn (nob d) (fun m => sumn (nub d) (fun e => (i_bb_voov H a m i e) * (x_bb R e b m j))).
(** ccpy/eomcc/eomccsd_chol.py, build_HR_2C, line 157 *)
Definition cfeom_X2C_6 (d : dims) (nx : nat) (C : chol) (H : ints) (T R : amps) : mat4 := fun a b i j =>
  cfeom_X2C_5 d nx C H T R a b i j + sumn (noa d) (fun m => sumn (nua d) (fun e => (i_ab_ovvo H m a e i) * (x_ab R e b m j))).
(** ccpy/eomcc/eomccsd_chol.py, build_HR_2C, line 158 *)
Definition cfeom_X2C_7 (d : dims) (nx : nat) (C : chol) (H : ints) (T R : amps) : mat4 := fun a b i j =>
  cfeom_X2C_6 d nx C H T R a b i j - 1 / 2 * (sumn (nob d) (fun m => (i_bb_vooo H b m j i) * (x_b R a m))).
(** ccpy/eomcc/eomccsd_chol.py, build_HR_2C, line 159 *)
Definition cfeom_X2C_8 (d : dims) (nx : nat) (C : chol) (H : ints) (T R : amps) : mat4 := fun a b i j =>
  cfeom_X2C_7 d nx C H T R a b i j + 1 / 2 * (sumn (nub d) (fun e => (i_bb_vvov H b a j e) * (x_b R e i))).
(** ccpy/eomcc/eomccsd_chol.py, build_HR_2C, line 160 *)
Definition cfeom_X2C_9 (d : dims) (nx : nat) (C : chol) (H : ints) (T R : amps) : mat4 := fun a b i j =>
  cfeom_X2C_8 d nx C H T R a b i j + 1 / 2 * (sumn (nub d) (fun e => (cfeom_X_b_vv d nx C H T R b e) * (x_bb T a e i j))).
(** ccpy/eomcc/eomccsd_chol.py, build_HR_2C, line 161 *)
Definition cfeom_X2C_10 (d : dims) (nx : nat) (C : chol) (H : ints) (T R : amps) : mat4 := fun a b i j =>
  cfeom_X2C_9 d nx C H T R a b i j - 1 / 2 * (sumn (nob d) (fun m => (cfeom_X_b_oo d nx C H T R m j) * (x_bb T a b i m))).
(** ccpy/eomcc/eomccsd_chol.py, build_HR_2C, line 162 *)
Definition cfeom_X2C_11 (d : dims) (nx : nat) (C : chol) (H : ints) (T R : amps) : mat4 := fun a b i j =>
  cfeom_X2C_10 d nx C H T R a b i j - cfeom_X2C_10 d nx C H T R b a i j.
(** ccpy/eomcc/eomccsd_chol.py, build_HR_2C, line 163 *)
Definition cfeom_X2C_12 (d : dims) (nx : nat) (C : chol) (H : ints) (T R : amps) : mat4 := fun a b i j =>
  cfeom_X2C_11 d nx C H T R a b i j - cfeom_X2C_11 d nx C H T R a b j i.
(** ccpy/left/left_cc_intermediates.py, build_left_ccsd_chol_intermediates, lines 35-38 *)
Definition cfleft_X_a_vv (d : dims) (nx : nat) (C : chol) (H : ints) (T L : amps) : mat2 := fun g e =>
  1 / 2 * (sumn (nua d) (fun f => sumn (noa d) (fun m => sumn (noa d) (fun n => (x_aa L e f m n) * (x_aa T f g n m))))) + sumn (nub d) (fun b => sumn (noa d) (fun i => sumn (nob d) (fun j => (x_ab L e b i j) * (x_ab T g b i j)))).
(** ccpy/left/left_cc_intermediates.py, build_left_ccsd_chol_intermediates, lines 39-42 *)
Definition cfleft_X_a_oo (d : dims) (nx : nat) (C : chol) (H : ints) (T L : amps) : mat2 := fun m n =>
  (-1) / 2 * (sumn (nua d) (fun e => sumn (nua d) (fun f => sumn (noa d) (fun o => (x_aa L e f m o) * (x_aa T e f n o))))) - sumn (nua d) (fun a => sumn (nub d) (fun b => sumn (nob d) (fun j => (x_ab L a b m j) * (x_ab T a b n j)))).
(** ccpy/left/left_cc_intermediates.py, build_left_ccsd_chol_intermediates, lines 43-46 *)
Definition cfleft_X_b_vv (d : dims) (nx : nat) (C : chol) (H : ints) (T L : amps) : mat2 := fun f a =>
  1 / 2 * (sumn (nub d) (fun b => sumn (nob d) (fun i => sumn (nob d) (fun j => (x_bb L a b i j) * (x_bb T f b i j))))) + sumn (nua d) (fun a' => sumn (noa d) (fun i => sumn (nob d) (fun j => (x_ab L a' a i j) * (x_ab T a' f i j)))).
(** ccpy/left/left_cc_intermediates.py, build_left_ccsd_chol_intermediates, lines 47-50 *)
Definition cfleft_X_b_oo (d : dims) (nx : nat) (C : chol) (H : ints) (T L : amps) : mat2 := fun i n =>
  (-1) / 2 * (sumn (nub d) (fun a => sumn (nub d) (fun b => sumn (nob d) (fun j => (x_bb L a b i j) * (x_bb T a b n j))))) - sumn (nua d) (fun a => sumn (nub d) (fun b => sumn (noa d) (fun i' => (x_ab L a b i' i) * (x_ab T a b i' n)))).
(** ccpy/left/left_cc_intermediates.py, build_left_ccsd_chol_intermediates, line 51 *)
Definition cfleft_X_aa_oooo (d : dims) (nx : nat) (C : chol) (H : ints) (T L : amps) : mat4 := fun i j m n =>
  1 / 2 * (sumn (nua d) (fun e => sumn (nua d) (fun f => (x_aa L e f i j) * (x_aa T e f m n)))).
(** ccpy/left/left_cc_intermediates.py, build_left_ccsd_chol_intermediates, line 52 *)
Definition cfleft_X_ab_oooo (d : dims) (nx : nat) (C : chol) (H : ints) (T L : amps) : mat4 := fun i j m n =>
  sumn (nua d) (fun e => sumn (nub d) (fun f => (x_ab L e f i j) * (x_ab T e f m n))).
(** ccpy/left/left_cc_intermediates.py, build_left_ccsd_chol_intermediates, line 53 *)
Definition cfleft_X_bb_oooo (d : dims) (nx : nat) (C : chol) (H : ints) (T L : amps) : mat4 := fun i j m n =>
  1 / 2 * (sumn (nub d) (fun e => sumn (nub d) (fun f => (x_bb L e f i j) * (x_bb T e f m n)))).
(** ccpy/left/left_cc_intermediates.py, build_left_ccsd_chol_intermediates, line 56 *)
Definition cfleft_X_aa_ooov (d : dims) (nx : nat) (C : chol) (H : ints) (T L : amps) : mat4 := fun j i n e =>
  sumn (nua d) (fun f => (x_aa L f e j i) * (x_a T f n)).
(** ccpy/left/left_cc_intermediates.py, build_left_ccsd_chol_intermediates, line 57 *)
Definition cfleft_X_ab_ooov (d : dims) (nx : nat) (C : chol) (H : ints) (T L : amps) : mat4 := fun i j m f =>
  sumn (nua d) (fun e => (x_ab L e f i j) * (x_a T e m)).
(** ccpy/left/left_cc_intermediates.py, build_left_ccsd_chol_intermediates, line 58 *)
Definition cfleft_X_ab_oovo (d : dims) (nx : nat) (C : chol) (H : ints) (T L : amps) : mat4 := fun i j e n =>
  sumn (nub d) (fun f => (x_ab L e f i j) * (x_b T f n)).
(** ccpy/left/left_cc_intermediates.py, build_left_ccsd_chol_intermediates, line 59 *)
Definition cfleft_X_bb_ooov (d : dims) (nx : nat) (C : chol) (H : ints) (T L : amps) : mat4 := fun j i n e =>
  sumn (nub d) (fun f => (x_bb L f e j i) * (x_b T f n)).
(** ccpy/left/left_ccsd_chol.py, build_LH_1A, line 94 *)
Definition cfleft_LH_a (d : dims) (nx : nat) (C : chol) (H : ints) (T L : amps) : mat2 := fun a i =>
  sumn (nua d) (fun e => (i_a_vv H e a) * (x_a L e i)).
(** ccpy/left/left_ccsd_chol.py, build_LH_1A, line 95 *)
Definition cfleft_LH_a_1 (d : dims) (nx : nat) (C : chol) (H : ints) (T L : amps) : mat2 := fun a i =>
  cfleft_LH_a d nx C H T L a i - sumn (noa d) (fun m => (i_a_oo H i m) * (x_a L a m)).
(** ccpy/left/left_ccsd_chol.py, build_LH_1A, line 96 *)
Definition cfleft_LH_a_2 (d : dims) (nx : nat) (C : chol) (H : ints) (T L : amps) : mat2 := fun a i =>
  cfleft_LH_a_1 d nx C H T L a i + sumn (nua d) (fun e => sumn (noa d) (fun m => (i_aa_voov H e i m a) * (x_a L e m))).
(** ccpy/left/left_ccsd_chol.py, build_LH_1A, line 97 *)
Definition cfleft_LH_a_3 (d : dims) (nx : nat) (C : chol) (H : ints) (T L : amps) : mat2 := fun a i =>
  cfleft_LH_a_2 d nx C H T L a i + sumn (nub d) (fun e => sumn (nob d) (fun m => (i_ab_ovvo H i e a m) * (x_b L e m))).
(** ccpy/left/left_ccsd_chol.py, build_LH_1A, line 99 *)
Definition cfleft_LH_a_4 (d : dims) (nx : nat) (C : chol) (H : ints) (T L : amps) : mat2 := fun a i =>
  cfleft_LH_a_3 d nx C H T L a i + 1 / 2 * (sumn (nua d) (fun f => sumn (nua d) (fun e => sumn (noa d) (fun n => (i_aa_vvov H f e n a) * (x_aa L e f i n))))).
(** ccpy/left/left_ccsd_chol.py, build_LH_1A, line 100 *)
Definition cfleft_LH_a_5 (d : dims) (nx : nat) (C : chol) (H : ints) (T L : amps) : mat2 := fun a i =>
  cfleft_LH_a_4 d nx C H T L a i + sumn (nua d) (fun e => sumn (nub d) (fun f => sumn (nob d) (fun n => (i_ab_vvvo H e f a n) * (x_ab L e f i n)))).
(** ccpy/left/left_ccsd_chol.py, build_LH_1A, line 102 *)
Definition cfleft_LH_a_6 (d : dims) (nx : nat) (C : chol) (H : ints) (T L : amps) : mat2 := fun a i =>
  cfleft_LH_a_5 d nx C H T L a i - 1 / 2 * (sumn (nua d) (fun f => sumn (noa d) (fun n => sumn (noa d) (fun m => (i_aa_vooo H f i n m) * (x_aa L a f m n))))).
(** ccpy/left/left_ccsd_chol.py, build_LH_1A, line 103 *)
Definition cfleft_LH_a_7 (d : dims) (nx : nat) (C : chol) (H : ints) (T L : amps) : mat2 := fun a i =>
  cfleft_LH_a_6 d nx C H T L a i - sumn (nub d) (fun f => sumn (noa d) (fun m => sumn (nob d) (fun n => (i_ab_ovoo H i f m n) * (x_ab L a f m n)))).
(** ccpy/left/left_ccsd_chol.py, build_LH_1A, line 105 *)
Definition cfleft_LH_a_8 (d : dims) (nx : nat) (C : chol) (H : ints) (T L : amps) : mat2 := fun a i =>
  cfleft_LH_a_7 d nx C H T L a i + sumn (nua d) (fun g => sumn (nua d) (fun e => (cfleft_X_a_vv d nx C H T L g e) * (i_aa_vovv H e i g a))).
(** ccpy/left/left_ccsd_chol.py, build_LH_1A, line 106 *)
Definition cfleft_LH_a_9 (d : dims) (nx : nat) (C : chol) (H : ints) (T L : amps) : mat2 := fun a i =>
  cfleft_LH_a_8 d nx C H T L a i + sumn (nub d) (fun f => sumn (nub d) (fun a' => (cfleft_X_b_vv d nx C H T L f a') * (i_ab_ovvv H i a' a f))).
(** ccpy/left/left_ccsd_chol.py, build_LH_1A, line 108 *)
Definition cfleft_LH_a_10 (d : dims) (nx : nat) (C : chol) (H : ints) (T L : amps) : mat2 := fun a i =>
  cfleft_LH_a_9 d nx C H T L a i + sumn (noa d) (fun m => sumn (noa d) (fun n => (cfleft_X_a_oo d nx C H T L m n) * (i_aa_ooov H n i m a))).
(** ccpy/left/left_ccsd_chol.py, build_LH_1A, line 109 *)
Definition cfleft_LH_a_11 (d : dims) (nx : nat) (C : chol) (H : ints) (T L : amps) : mat2 := fun a i =>
  cfleft_LH_a_10 d nx C H T L a i + sumn (nob d) (fun i' => sumn (nob d) (fun n => (cfleft_X_b_oo d nx C H T L i' n) * (i_ab_oovo H i n a i'))).
(** ccpy/left/left_ccsd_chol.py, build_LH_1B, line 115 *)
Definition cfleft_LH_b (d : dims) (nx : nat) (C : chol) (H : ints) (T L : amps) : mat2 := fun a i =>
  sumn (nub d) (fun e => (i_b_vv H e a) * (x_b L e i)).
(** ccpy/left/left_ccsd_chol.py, build_LH_1B, line 116 *)
Definition cfleft_LH_b_1 (d : dims) (nx : nat) (C : chol) (H : ints) (T L : amps) : mat2 := fun a i =>
  cfleft_LH_b d nx C H T L a i - sumn (nob d) (fun m => (i_b_oo H i m) * (x_b L a m)).
(** ccpy/left/left_ccsd_chol.py, build_LH_1B, line 117 *)
Definition cfleft_LH_b_2 (d : dims) (nx : nat) (C : chol) (H : ints) (T L : amps) : mat2 := fun a i =>
  cfleft_LH_b_1 d nx C H T L a i + sumn (nua d) (fun e => sumn (noa d) (fun m => (i_ab_voov H e i m a) * (x_a L e m))).
(** ccpy/left/left_ccsd_chol.py, build_LH_1B, line 118 *)
Definition cfleft_LH_b_3 (d : dims) (nx : nat) (C : chol) (H : ints) (T L : amps) : mat2 := fun a i =>
  cfleft_LH_b_2 d nx C H T L a i + sumn (nub d) (fun e => sumn (nob d) (fun m => (i_bb_voov H e i m a) * (x_b L e m))).
(** ccpy/left/left_ccsd_chol.py, build_LH_1B, line 119 *)
Definition cfleft_LH_b_4 (d : dims) (nx : nat) (C : chol) (H : ints) (T L : amps) : mat2 := fun a i =>
  cfleft_LH_b_3 d nx C H T L a i - 1 / 2 * (sumn (nub d) (fun f => sumn (nob d) (fun n => sumn (nob d) (fun m => (i_bb_vooo H f i n m) * (x_bb L a f m n))))).
(** ccpy/left/left_ccsd_chol.py, build_LH_1B, line 120 *)
Definition cfleft_LH_b_5 (d : dims) (nx : nat) (C : chol) (H : ints) (T L : amps) : mat2 := fun a i =>
  cfleft_LH_b_4 d nx C H T L a i - sumn (nua d) (fun f => sumn (noa d) (fun n => sumn (nob d) (fun m => (i_ab_vooo H f i n m) * (x_ab L f a n m)))).
(** ccpy/left/left_ccsd_chol.py, build_LH_1B, line 122 *)
Definition cfleft_LH_b_6 (d : dims) (nx : nat) (C : chol) (H : ints) (T L : amps) : mat2 := fun a i =>
  cfleft_LH_b_5 d nx C H T L a i + sumn (nua d) (fun f => sumn (nub d) (fun e => sumn (noa d) (fun n => (i_ab_vvov H f e n a) * (x_ab L f e n i)))).
(** ccpy/left/left_ccsd_chol.py, build_LH_1B, line 123 *)
Definition cfleft_LH_b_7 (d : dims) (nx : nat) (C : chol) (H : ints) (T L : amps) : mat2 := fun a i =>
  cfleft_LH_b_6 d nx C H T L a i + 1 / 2 * (sumn (nub d) (fun f => sumn (nub d) (fun e => sumn (nob d) (fun n => (i_bb_vvov H f e n a) * (x_bb L e f i n))))).
(** ccpy/left/left_ccsd_chol.py, build_LH_1B, lines 125-128 *)
Definition cfleft_LH_b_8 (d : dims) (nx : nat) (C : chol) (H : ints) (T L : amps) : mat2 := fun a i =>
  cfleft_LH_b_7 d nx C H T L a i + (sumn (nub d) (fun g => sumn (nub d) (fun e => (cfleft_X_b_vv d nx C H T L g e) * (i_bb_vovv H e i g a))) + sumn (nob d) (fun m => sumn (nob d) (fun o => (cfleft_X_b_oo d nx C H T L m o) * (i_bb_ooov H o i m a)))).
(** ccpy/left/left_ccsd_chol.py, build_LH_1B, lines 129-132 *)
Definition cfleft_LH_b_9 (d : dims) (nx : nat) (C : chol) (H : ints) (T L : amps) : mat2 := fun a i =>
  cfleft_LH_b_8 d nx C H T L a i + (sumn (nua d) (fun g => sumn (nua d) (fun e => (cfleft_X_a_vv d nx C H T L g e) * (i_ab_vovv H e i g a))) + sumn (noa d) (fun m => sumn (noa d) (fun o => (cfleft_X_a_oo d nx C H T L m o) * (i_ab_ooov H o i m a)))).
(** ccpy/left/left_ccsd_chol.py, build_LH_2A, line 137 *)
Definition cfleft_LH_aa (d : dims) (nx : nat) (C : chol) (H : ints) (T L : amps) : mat4 := fun a b i j =>
  1 / 2 * (sumn (nua d) (fun e => (i_a_vv H e a) * (x_aa L e b i j))).
(** ccpy/left/left_ccsd_chol.py, build_LH_2A, line 138 *)
Definition cfleft_LH_aa_1 (d : dims) (nx : nat) (C : chol) (H : ints) (T L : amps) : mat4 := fun a b i j =>
  cfleft_LH_aa d nx C H T L a b i j - 1 / 2 * (sumn (noa d) (fun m => (i_a_oo H i m) * (x_aa L a b m j))).
(** ccpy/left/left_ccsd_chol.py, build_LH_2A, line 139 *)
Definition cfleft_LH_aa_2 (d : dims) (nx : nat) (C : chol) (H : ints) (T L : amps) : mat4 := fun a b i j =>
  cfleft_LH_aa_1 d nx C H T L a b i j + (i_a_ov H j b) * (x_a L a i).
(** ccpy/left/left_ccsd_chol.py, build_LH_2A, line 140 *)
Definition cfleft_LH_aa_3 (d : dims) (nx : nat) (C : chol) (H : ints) (T L : amps) : mat4 := fun a b i j =>
  cfleft_LH_aa_2 d nx C H T L a b i j - 1 / 2 * (sumn (nua d) (fun e => (cfleft_X_a_vv d nx C H T L e a) * (i_aa_oovv H i j e b))).
(** ccpy/left/left_ccsd_chol.py, build_LH_2A, line 141 *)
Definition cfleft_LH_aa_4 (d : dims) (nx : nat) (C : chol) (H : ints) (T L : amps) : mat4 := fun a b i j =>
  cfleft_LH_aa_3 d nx C H T L a b i j + 1 / 2 * (sumn (noa d) (fun m => (cfleft_X_a_oo d nx C H T L i m) * (i_aa_oovv H m j a b))).
(** ccpy/left/left_ccsd_chol.py, build_LH_2A, line 142 *)
Definition cfleft_LH_aa_5 (d : dims) (nx : nat) (C : chol) (H : ints) (T L : amps) : mat4 := fun a b i j =>
  cfleft_LH_aa_4 d nx C H T L a b i j + sumn (nua d) (fun e => sumn (noa d) (fun m => (i_aa_voov H e i m a) * (x_aa L e b m j))).
(** ccpy/left/left_ccsd_chol.py, build_LH_2A, line 143 *)
Definition cfleft_LH_aa_6 (d : dims) (nx : nat) (C : chol) (H : ints) (T L : amps) : mat4 := fun a b i j =>
  cfleft_LH_aa_5 d nx C H T L a b i j + sumn (nub d) (fun e => sumn (nob d) (fun m => (i_ab_ovvo H i e a m) * (x_ab L b e j m))).
(** ccpy/left/left_ccsd_chol.py, build_LH_2A, line 144 *)
Definition cfleft_LH_aa_7 (d : dims) (nx : nat) (C : chol) (H : ints) (T L : amps) : mat4 := fun a b i j =>
  cfleft_LH_aa_6 d nx C H T L a b i j + 1 / 8 * (sumn (noa d) (fun m => sumn (noa d) (fun n => (i_aa_oooo H i j m n) * (x_aa L a b m n)))).
(** ccpy/left/left_ccsd_chol.py, build_LH_2A, line 146 *)
Definition cfleft_LH_aa_8 (d : dims) (nx : nat) (C : chol) (H : ints) (T L : amps) : mat4 := fun a b i j =>
  cfleft_LH_aa_7 d nx C H T L a b i j + 1 / 8 * (sumn (noa d) (fun m => sumn (noa d) (fun n => (cfleft_X_aa_oooo d nx C H T L i j m n) * (i_aa_oovv H m n a b)))).
(** ccpy/left/left_ccsd_chol.py, build_LH_2A, line 153 *)
Definition cfleft_vR (d : dims) (nx : nat) (C : chol) (H : ints) (T L : amps) : mat3 := fun a b c =>
  c_a_vv C a b c.
(** ccpy/left/left_ccsd_chol.py, build_LH_2A, line 153 *)
Definition cfleft_vT (d : dims) (nx : nat) (C : chol) (H : ints) (T L : amps) : mat4 := fun i j a b =>
  1 / 2 * (x_aa L b a j i).
(** ccpy/left/left_ccsd_chol.py, build_LH_2A, line 154 *)
Definition cfleft_LH_aa_9 (d : dims) (nx : nat) (C : chol) (H : ints) (T L : amps) : mat4 := fun a b i j =>
  cfleft_LH_aa_8 d nx C H T L a b i j + 1 / 4 * (sumn (nua d) (fun e' => sumn (nua d) (fun f' => (sumn nx (fun x => (cfleft_vR d nx C H T L x f' b) * (cfleft_vR d nx C H T L x e' a) - (cfleft_vR d nx C H T L x e' b) * (cfleft_vR d nx C H T L x f' a))) * (cfleft_vT d nx C H T L j i f' e')))).
(** ccpy/left/left_ccsd_chol.py, build_LH_2A, line 156 *)
Definition cfleft_LH_aa_10 (d : dims) (nx : nat) (C : chol) (H : ints) (T L : amps) : mat4 := fun a b i j =>
  cfleft_LH_aa_9 d nx C H T L a b i j + 1 / 2 * (sumn (nua d) (fun e => (i_aa_vovv H e j a b) * (x_a L e i))).
(** ccpy/left/left_ccsd_chol.py, build_LH_2A, line 157 *)
Definition cfleft_LH_aa_11 (d : dims) (nx : nat) (C : chol) (H : ints) (T L : amps) : mat4 := fun a b i j =>
  cfleft_LH_aa_10 d nx C H T L a b i j - 1 / 2 * (sumn (noa d) (fun m => (i_aa_ooov H i j m b) * (x_a L a m))).
(** ccpy/left/left_ccsd_chol.py, build_LH_2A, line 158 *)
Definition cfleft_LH_aa_12 (d : dims) (nx : nat) (C : chol) (H : ints) (T L : amps) : mat4 := fun a b i j =>
  cfleft_LH_aa_11 d nx C H T L a b i j - (cfleft_LH_aa_11 d nx C H T L b a i j + cfleft_LH_aa_11 d nx C H T L a b j i - cfleft_LH_aa_11 d nx C H T L b a j i).
(** ccpy/left/left_ccsd_chol.py, build_LH_2B, line 164 *)
Definition cfleft_LH_ab (d : dims) (nx : nat) (C : chol) (H : ints) (T L : amps) : mat4 := fun a b i j =>
  (- (sumn (noa d) (fun m => (i_ab_ooov H i j m b) * (x_a L a m)))).
(** ccpy/left/left_ccsd_chol.py, build_LH_2B, line 165 *)
Definition cfleft_LH_ab_1 (d : dims) (nx : nat) (C : chol) (H : ints) (T L : amps) : mat4 := fun a b i j =>
  cfleft_LH_ab d nx C H T L a b i j - sumn (nob d) (fun m => (i_ab_oovo H i j a m) * (x_b L b m)).
(** ccpy/left/left_ccsd_chol.py, build_LH_2B, line 166 *)
Definition cfleft_LH_ab_2 (d : dims) (nx : nat) (C : chol) (H : ints) (T L : amps) : mat4 := fun a b i j =>
  cfleft_LH_ab_1 d nx C H T L a b i j + sumn (nua d) (fun e => (i_ab_vovv H e j a b) * (x_a L e i)).
(** ccpy/left/left_ccsd_chol.py, build_LH_2B, line 167 *)
Definition cfleft_LH_ab_3 (d : dims) (nx : nat) (C : chol) (H : ints) (T L : amps) : mat4 := fun a b i j =>
  cfleft_LH_ab_2 d nx C H T L a b i j + sumn (nub d) (fun e => (i_ab_ovvv H i e a b) * (x_b L e j)).
(** ccpy/left/left_ccsd_chol.py, build_LH_2B, line 168 *)
Definition cfleft_LH_ab_4 (d : dims) (nx : nat) (C : chol) (H : ints) (T L : amps) : mat4 := fun a b i j =>
  cfleft_LH_ab_3 d nx C H T L a b i j + sumn (noa d) (fun m => sumn (nob d) (fun n => (i_ab_oooo H i j m n) * (x_ab L a b m n))).
(** ccpy/left/left_ccsd_chol.py, build_LH_2B, line 170 *)
Definition cfleft_LH_ab_5 (d : dims) (nx : nat) (C : chol) (H : ints) (T L : amps) : mat4 := fun a b i j =>
  cfleft_LH_ab_4 d nx C H T L a b i j + sumn (noa d) (fun m => sumn (nob d) (fun n => (cfleft_X_ab_oooo d nx C H T L i j m n) * (i_ab_oovv H m n a b))).
(** ccpy/left/left_ccsd_chol.py, build_LH_2B, line 176 *)
Definition cfleft_vRa (d : dims) (nx : nat) (C : chol) (H : ints) (T L : amps) : mat3 := fun a b c =>
  c_a_vv C a b c.
(** ccpy/left/left_ccsd_chol.py, build_LH_2B, line 176 *)
Definition cfleft_vRb (d : dims) (nx : nat) (C : chol) (H : ints) (T L : amps) : mat3 := fun a b c =>
  c_b_vv C a b c.
(** ccpy/left/left_ccsd_chol.py, build_LH_2B, line 176 *)
Definition cfleft_vT_1 (d : dims) (nx : nat) (C : chol) (H : ints) (T L : amps) : mat4 := fun i j a b =>
  x_ab L b a j i.
(** ccpy/left/left_ccsd_chol.py, build_LH_2B, line 177 *)
Definition cfleft_LH_ab_6 (d : dims) (nx : nat) (C : chol) (H : ints) (T L : amps) : mat4 := fun a b i j =>
  cfleft_LH_ab_5 d nx C H T L a b i j + sumn (nua d) (fun e' => sumn (nub d) (fun f' => (sumn nx (fun x => (cfleft_vRb d nx C H T L x f' b) * (cfleft_vRa d nx C H T L x e' a))) * (cfleft_vT_1 d nx C H T L j i f' e'))).
(** ccpy/left/left_ccsd_chol.py, build_LH_2B, line 179 *)
Definition cfleft_LH_ab_7 (d : dims) (nx : nat) (C : chol) (H : ints) (T L : amps) : mat4 := fun a b i j =>
  cfleft_LH_ab_6 d nx C H T L a b i j + sumn (nua d) (fun e => sumn (noa d) (fun m => (i_ab_voov H e j m b) * (x_aa L a e i m))).
(** ccpy/left/left_ccsd_chol.py, build_LH_2B, line 180 *)
Definition cfleft_LH_ab_8 (d : dims) (nx : nat) (C : chol) (H : ints) (T L : amps) : mat4 := fun a b i j =>
  cfleft_LH_ab_7 d nx C H T L a b i j + sumn (nua d) (fun e => sumn (noa d) (fun m => (i_aa_voov H e i m a) * (x_ab L e b m j))).
(** ccpy/left/left_ccsd_chol.py, build_LH_2B, line 181 *)
Definition cfleft_LH_ab_9 (d : dims) (nx : nat) (C : chol) (H : ints) (T L : amps) : mat4 := fun a b i j =>
  cfleft_LH_ab_8 d nx C H T L a b i j + sumn (nub d) (fun e => sumn (nob d) (fun m => (i_bb_voov H e j m b) * (x_ab L a e i m))).
(** ccpy/left/left_ccsd_chol.py, build_LH_2B, line 182 *)
Definition cfleft_LH_ab_10 (d : dims) (nx : nat) (C : chol) (H : ints) (T L : amps) : mat4 := fun a b i j =>
  cfleft_LH_ab_9 d nx C H T L a b i j + sumn (nub d) (fun e => sumn (nob d) (fun m => (i_ab_ovvo H i e a m) * (x_bb L e b m j))).
(** ccpy/left/left_ccsd_chol.py, build_LH_2B, line 183 *)
Definition cfleft_LH_ab_11 (d : dims) (nx : nat) (C : chol) (H : ints) (T L : amps) : mat4 := fun a b i j =>
  cfleft_LH_ab_10 d nx C H T L a b i j - sumn (nub d) (fun e => sumn (noa d) (fun m => (i_ab_ovov H i e m b) * (x_ab L a e m j))).
(** ccpy/left/left_ccsd_chol.py, build_LH_2B, line 184 *)
Definition cfleft_LH_ab_12 (d : dims) (nx : nat) (C : chol) (H : ints) (T L : amps) : mat4 := fun a b i j =>
  cfleft_LH_ab_11 d nx C H T L a b i j - sumn (nua d) (fun e => sumn (nob d) (fun m => (i_ab_vovo H e j a m) * (x_ab L e b i m))).
(** ccpy/left/left_ccsd_chol.py, build_LH_2B, line 185 *)
Definition cfleft_LH_ab_13 (d : dims) (nx : nat) (C : chol) (H : ints) (T L : amps) : mat4 := fun a b i j =>
  cfleft_LH_ab_12 d nx C H T L a b i j - sumn (nua d) (fun e => (cfleft_X_a_vv d nx C H T L e a) * (i_ab_oovv H i j e b)).
(** ccpy/left/left_ccsd_chol.py, build_LH_2B, line 186 *)
Definition cfleft_LH_ab_14 (d : dims) (nx : nat) (C : chol) (H : ints) (T L : amps) : mat4 := fun a b i j =>
  cfleft_LH_ab_13 d nx C H T L a b i j + sumn (noa d) (fun m => (cfleft_X_a_oo d nx C H T L i m) * (i_ab_oovv H m j a b)).
(** ccpy/left/left_ccsd_chol.py, build_LH_2B, line 187 *)
Definition cfleft_LH_ab_15 (d : dims) (nx : nat) (C : chol) (H : ints) (T L : amps) : mat4 := fun a b i j =>
  cfleft_LH_ab_14 d nx C H T L a b i j - sumn (nub d) (fun e => (cfleft_X_b_vv d nx C H T L e b) * (i_ab_oovv H i j a e)).
(** ccpy/left/left_ccsd_chol.py, build_LH_2B, line 188 *)
Definition cfleft_LH_ab_16 (d : dims) (nx : nat) (C : chol) (H : ints) (T L : amps) : mat4 := fun a b i j =>
  cfleft_LH_ab_15 d nx C H T L a b i j + sumn (nob d) (fun m => (cfleft_X_b_oo d nx C H T L j m) * (i_ab_oovv H i m a b)).
(** ccpy/left/left_ccsd_chol.py, build_LH_2B, line 189 *)
Definition cfleft_LH_ab_17 (d : dims) (nx : nat) (C : chol) (H : ints) (T L : amps) : mat4 := fun a b i j =>
  cfleft_LH_ab_16 d nx C H T L a b i j + sumn (nua d) (fun e => (i_a_vv H e a) * (x_ab L e b i j)).
(** ccpy/left/left_ccsd_chol.py, build_LH_2B, line 190 *)
Definition cfleft_LH_ab_18 (d : dims) (nx : nat) (C : chol) (H : ints) (T L : amps) : mat4 := fun a b i j =>
  cfleft_LH_ab_17 d nx C H T L a b i j + sumn (nub d) (fun e => (i_b_vv H e b) * (x_ab L a e i j)).
(** ccpy/left/left_ccsd_chol.py, build_LH_2B, line 191 *)
Definition cfleft_LH_ab_19 (d : dims) (nx : nat) (C : chol) (H : ints) (T L : amps) : mat4 := fun a b i j =>
  cfleft_LH_ab_18 d nx C H T L a b i j - sumn (noa d) (fun m => (i_a_oo H i m) * (x_ab L a b m j)).
(** ccpy/left/left_ccsd_chol.py, build_LH_2B, line 192 *)
Definition cfleft_LH_ab_20 (d : dims) (nx : nat) (C : chol) (H : ints) (T L : amps) : mat4 := fun a b i j =>
  cfleft_LH_ab_19 d nx C H T L a b i j - sumn (nob d) (fun m => (i_b_oo H j m) * (x_ab L a b i m)).
(** ccpy/left/left_ccsd_chol.py, build_LH_2B, line 193 *)
Definition cfleft_LH_ab_21 (d : dims) (nx : nat) (C : chol) (H : ints) (T L : amps) : mat4 := fun a b i j =>
  cfleft_LH_ab_20 d nx C H T L a b i j + (i_b_ov H j b) * (x_a L a i).
(** ccpy/left/left_ccsd_chol.py, build_LH_2B, line 194 *)
Definition cfleft_LH_ab_22 (d : dims) (nx : nat) (C : chol) (H : ints) (T L : amps) : mat4 := fun a b i j =>
  cfleft_LH_ab_21 d nx C H T L a b i j + (i_a_ov H i a) * (x_b L b j).
(** ccpy/left/left_ccsd_chol.py, build_LH_2C, line 199 *)
Definition cfleft_LH_bb (d : dims) (nx : nat) (C : chol) (H : ints) (T L : amps) : mat4 := fun a b i j =>
  1 / 2 * (sumn (nub d) (fun e => (i_b_vv H e a) * (x_bb L e b i j))).
(** ccpy/left/left_ccsd_chol.py, build_LH_2C, line 200 *)
Definition cfleft_LH_bb_1 (d : dims) (nx : nat) (C : chol) (H : ints) (T L : amps) : mat4 := fun a b i j =>
  cfleft_LH_bb d nx C H T L a b i j - 1 / 2 * (sumn (nob d) (fun m => (i_b_oo H i m) * (x_bb L a b m j))).
(** ccpy/left/left_ccsd_chol.py, build_LH_2C, line 201 *)
Definition cfleft_LH_bb_2 (d : dims) (nx : nat) (C : chol) (H : ints) (T L : amps) : mat4 := fun a b i j =>
  cfleft_LH_bb_1 d nx C H T L a b i j + (i_b_ov H j b) * (x_b L a i).
(** ccpy/left/left_ccsd_chol.py, build_LH_2C, line 202 *)
Definition cfleft_LH_bb_3 (d : dims) (nx : nat) (C : chol) (H : ints) (T L : amps) : mat4 := fun a b i j =>
  cfleft_LH_bb_2 d nx C H T L a b i j - 1 / 2 * (sumn (nub d) (fun e => (cfleft_X_b_vv d nx C H T L e a) * (i_bb_oovv H i j e b))).
(** ccpy/left/left_ccsd_chol.py, build_LH_2C, line 203 *)
Definition cfleft_LH_bb_4 (d : dims) (nx : nat) (C : chol) (H : ints) (T L : amps) : mat4 := fun a b i j =>
  cfleft_LH_bb_3 d nx C H T L a b i j + 1 / 2 * (sumn (nob d) (fun m => (cfleft_X_b_oo d nx C H T L i m) * (i_bb_oovv H m j a b))).
(** ccpy/left/left_ccsd_chol.py, build_LH_2C, line 204 *)
Definition cfleft_LH_bb_5 (d : dims) (nx : nat) (C : chol) (H : ints) (T L : amps) : mat4 := fun a b i j =>
  cfleft_LH_bb_4 d nx C H T L a b i j + sumn (nub d) (fun e => sumn (nob d) (fun m => (i_bb_voov H e i m a) * (x_bb L e b m j))).
(** ccpy/left/left_ccsd_chol.py, build_LH_2C, line 205 *)
Definition cfleft_LH_bb_6 (d : dims) (nx : nat) (C : chol) (H : ints) (T L : amps) : mat4 := fun a b i j =>
  cfleft_LH_bb_5 d nx C H T L a b i j + sumn (nua d) (fun e => sumn (noa d) (fun m => (i_ab_voov H e i m a) * (x_ab L e b m j))).
(** ccpy/left/left_ccsd_chol.py, build_LH_2C, line 206 *)
Definition cfleft_LH_bb_7 (d : dims) (nx : nat) (C : chol) (H : ints) (T L : amps) : mat4 := fun a b i j =>
  cfleft_LH_bb_6 d nx C H T L a b i j + 1 / 8 * (sumn (nob d) (fun m => sumn (nob d) (fun n => (i_bb_oooo H i j m n) * (x_bb L a b m n)))).
(** ccpy/left/left_ccsd_chol.py, build_LH_2C, line 208 *)
Definition cfleft_LH_bb_8 (d : dims) (nx : nat) (C : chol) (H : ints) (T L : amps) : mat4 := fun a b i j =>
  cfleft_LH_bb_7 d nx C H T L a b i j + 1 / 8 * (sumn (nob d) (fun m => sumn (nob d) (fun n => (cfleft_X_bb_oooo d nx C H T L i j m n) * (i_bb_oovv H m n a b)))).
(** ccpy/left/left_ccsd_chol.py, build_LH_2C, line 215 *)
Definition cfleft_vR_1 (d : dims) (nx : nat) (C : chol) (H : ints) (T L : amps) : mat3 := fun a b c =>
  c_b_vv C a b c.
(** ccpy/left/left_ccsd_chol.py, build_LH_2C, line 215 *)
Definition cfleft_vT_2 (d : dims) (nx : nat) (C : chol) (H : ints) (T L : amps) : mat4 := fun i j a b =>
  1 / 2 * (x_bb L b a j i).
(** ccpy/left/left_ccsd_chol.py, build_LH_2C, line 216 *)
Definition cfleft_LH_bb_9 (d : dims) (nx : nat) (C : chol) (H : ints) (T L : amps) : mat4 := fun a b i j =>
  cfleft_LH_bb_8 d nx C H T L a b i j + 1 / 4 * (sumn (nub d) (fun e' => sumn (nub d) (fun f' => (sumn nx (fun x => (cfleft_vR_1 d nx C H T L x f' b) * (cfleft_vR_1 d nx C H T L x e' a) - (cfleft_vR_1 d nx C H T L x e' b) * (cfleft_vR_1 d nx C H T L x f' a))) * (cfleft_vT_2 d nx C H T L j i f' e')))).
(** ccpy/left/left_ccsd_chol.py, build_LH_2C, line 218 *)
Definition cfleft_LH_bb_10 (d : dims) (nx : nat) (C : chol) (H : ints) (T L : amps) : mat4 := fun a b i j =>
  cfleft_LH_bb_9 d nx C H T L a b i j + 1 / 2 * (sumn (nub d) (fun e => (i_bb_vovv H e j a b) * (x_b L e i))).
(** ccpy/left/left_ccsd_chol.py, build_LH_2C, line 219 *)
Definition cfleft_LH_bb_11 (d : dims) (nx : nat) (C : chol) (H : ints) (T L : amps) : mat4 := fun a b i j =>
  cfleft_LH_bb_10 d nx C H T L a b i j - 1 / 2 * (sumn (nob d) (fun m => (i_bb_ooov H i j m b) * (x_b L a m))).
(** ccpy/left/left_ccsd_chol.py, build_LH_2C, line 220 *)
Definition cfleft_LH_bb_12 (d : dims) (nx : nat) (C : chol) (H : ints) (T L : amps) : mat4 := fun a b i j =>
  cfleft_LH_bb_11 d nx C H T L a b i j - (cfleft_LH_bb_11 d nx C H T L b a i j + cfleft_LH_bb_11 d nx C H T L a b j i - cfleft_LH_bb_11 d nx C H T L b a j i).
(** ccpy/eomcc/eomccsd_intermediates.py, get_eomccsd_chol_intermediates, lines 51-57 *)
Definition cgeom_X_a_oo (d : dims) (nx : nat) (C : chol) (H : ints) (T R : amps) : mat2 := fun m j =>
  sumn (noa d) (fun n => sumn (nua d) (fun f => (i_aa_ooov H m n j f) * (x_a R f n))) + sumn (noa d) (fun n => sumn (nua d) (fun f => (i_ab_ooov H m n j f) * (x_b R f n))) + 1 / 2 * (sumn (noa d) (fun n => sumn (nua d) (fun e => sumn (nua d) (fun f => (i_aa_oovv H m n e f) * (x_aa R e f j n))))) + sumn (noa d) (fun n => sumn (nua d) (fun e => sumn (nua d) (fun f => (i_ab_oovv H m n e f) * (x_ab R e f j n)))).
(** ccpy/eomcc/eomccsd_intermediates.py, get_eomccsd_chol_intermediates, lines 59-65 *)
Definition cgeom_X_a_vv (d : dims) (nx : nat) (C : chol) (H : ints) (T R : amps) : mat2 := fun b e =>
  sumn (noa d) (fun n => sumn (nua d) (fun f => (i_aa_vovv H b n e f) * (x_a R f n))) + sumn (noa d) (fun n => sumn (nua d) (fun f => (i_ab_vovv H b n e f) * (x_b R f n))) - 1 / 2 * (sumn (noa d) (fun m => sumn (noa d) (fun n => sumn (nua d) (fun f => (i_aa_oovv H m n e f) * (x_aa R b f m n))))) - sumn (noa d) (fun m => sumn (noa d) (fun n => sumn (nua d) (fun f => (i_ab_oovv H m n e f) * (x_ab R b f m n)))).
(** ccpy/eomcc/eomccsd_intermediates.py, get_eomccsd_chol_intermediates, lines 67-73 *)
Definition cgeom_X_b_oo (d : dims) (nx : nat) (C : chol) (H : ints) (T R : amps) : mat2 := fun m k =>
  sumn (noa d) (fun n => sumn (nua d) (fun f => (i_ab_oovo H n m f k) * (x_a R f n))) + sumn (noa d) (fun n => sumn (nua d) (fun f => (i_bb_ooov H m n k f) * (x_b R f n))) + sumn (noa d) (fun n => sumn (nua d) (fun f => sumn (nua d) (fun e => (i_ab_oovv H n m f e) * (x_ab R f e n k)))) + 1 / 2 * (sumn (noa d) (fun n => sumn (nua d) (fun e => sumn (nua d) (fun f => (i_bb_oovv H m n e f) * (x_bb R e f k n))))).
(** ccpy/eomcc/eomccsd_intermediates.py, get_eomccsd_chol_intermediates, lines 75-81 *)
Definition cgeom_X_b_vv (d : dims) (nx : nat) (C : chol) (H : ints) (T R : amps) : mat2 := fun c e =>
  sumn (noa d) (fun n => sumn (nua d) (fun f => (i_ab_ovvv H n c f e) * (x_a R f n))) + sumn (noa d) (fun n => sumn (nua d) (fun f => (i_bb_vovv H c n e f) * (x_b R f n))) - 1 / 1 * (sumn (noa d) (fun n => sumn (noa d) (fun m => sumn (nua d) (fun f => (i_ab_oovv H n m f e) * (x_ab R f c n m))))) - 1 / 2 * (sumn (noa d) (fun m => sumn (noa d) (fun n => sumn (nua d) (fun f => (i_bb_oovv H m n e f) * (x_bb R f c n m))))).
(** ccpy/eomcc/eomccsd_intermediates.py, get_eomccsd_chol_intermediates, lines 83-85 *)
Definition cgeom_X_aa_oooo (d : dims) (nx : nat) (C : chol) (H : ints) (T R : amps) : mat4 := fun m n i j =>
  1 / 2 * (sumn (nua d) (fun e => sumn (nua d) (fun f => (i_aa_oovv H m n e f) * (x_aa R e f i j)))).
(** ccpy/eomcc/eomccsd_intermediates.py, get_eomccsd_chol_intermediates, lines 86-88 *)
Definition cgeom_X_ab_oooo (d : dims) (nx : nat) (C : chol) (H : ints) (T R : amps) : mat4 := fun m n i j =>
  sumn (nua d) (fun e => sumn (nua d) (fun f => (i_ab_oovv H m n e f) * (x_ab R e f i j))).
(** ccpy/eomcc/eomccsd_intermediates.py, get_eomccsd_chol_intermediates, lines 89-91 *)
Definition cgeom_X_bb_oooo (d : dims) (nx : nat) (C : chol) (H : ints) (T R : amps) : mat4 := fun m n i j =>
  1 / 2 * (sumn (nua d) (fun e => sumn (nua d) (fun f => (i_bb_oovv H m n e f) * (x_bb R e f i j)))).
(** ccpy/eomcc/eomccsd_chol.py, build_HR_1A, line 54 *)
Definition cgeom_X1A (d : dims) (nx : nat) (C : chol) (H : ints) (T R : amps) : mat2 := fun a i =>
  (- (sumn (noa d) (fun m => (i_a_oo H m i) * (x_a R a m)))).
(** ccpy/eomcc/eomccsd_chol.py, build_HR_1A, line 55 *)
Definition cgeom_X1A_1 (d : dims) (nx : nat) (C : chol) (H : ints) (T R : amps) : mat2 := fun a i =>
  cgeom_X1A d nx C H T R a i + sumn (nua d) (fun e => (i_a_vv H a e) * (x_a R e i)).
(** ccpy/eomcc/eomccsd_chol.py, build_HR_1A, line 56 *)
Definition cgeom_X1A_2 (d : dims) (nx : nat) (C : chol) (H : ints) (T R : amps) : mat2 := fun a i =>
  cgeom_X1A_1 d nx C H T R a i + sumn (noa d) (fun m => sumn (nua d) (fun e => (i_aa_voov H a m i e) * (x_a R e m))).
(** ccpy/eomcc/eomccsd_chol.py, build_HR_1A, line 57 *)
Definition cgeom_X1A_3 (d : dims) (nx : nat) (C : chol) (H : ints) (T R : amps) : mat2 := fun a i =>
  cgeom_X1A_2 d nx C H T R a i + sumn (noa d) (fun m => sumn (nua d) (fun e => (i_ab_voov H a m i e) * (x_b R e m))).
(** ccpy/eomcc/eomccsd_chol.py, build_HR_1A, line 58 *)
Definition cgeom_X1A_4 (d : dims) (nx : nat) (C : chol) (H : ints) (T R : amps) : mat2 := fun a i =>
  cgeom_X1A_3 d nx C H T R a i - 1 / 2 * (sumn (noa d) (fun m => sumn (noa d) (fun n => sumn (nua d) (fun f => (i_aa_ooov H m n i f) * (x_aa R a f m n))))).
(** ccpy/eomcc/eomccsd_chol.py, build_HR_1A, line 59 *)
Definition cgeom_X1A_5 (d : dims) (nx : nat) (C : chol) (H : ints) (T R : amps) : mat2 := fun a i =>
  cgeom_X1A_4 d nx C H T R a i - sumn (noa d) (fun m => sumn (noa d) (fun n => sumn (nua d) (fun f => (i_ab_ooov H m n i f) * (x_ab R a f m n)))).
(** ccpy/eomcc/eomccsd_chol.py, build_HR_1A, line 60 *)
Definition cgeom_X1A_6 (d : dims) (nx : nat) (C : chol) (H : ints) (T R : amps) : mat2 := fun a i =>
  cgeom_X1A_5 d nx C H T R a i + 1 / 2 * (sumn (noa d) (fun n => sumn (nua d) (fun e => sumn (nua d) (fun f => (i_aa_vovv H a n e f) * (x_aa R e f i n))))).
(** ccpy/eomcc/eomccsd_chol.py, build_HR_1A, line 61 *)
Definition cgeom_X1A_7 (d : dims) (nx : nat) (C : chol) (H : ints) (T R : amps) : mat2 := fun a i =>
  cgeom_X1A_6 d nx C H T R a i + sumn (noa d) (fun n => sumn (nua d) (fun e => sumn (nua d) (fun f => (i_ab_vovv H a n e f) * (x_ab R e f i n)))).
(** ccpy/eomcc/eomccsd_chol.py, build_HR_1A, line 62 *)
Definition cgeom_X1A_8 (d : dims) (nx : nat) (C : chol) (H : ints) (T R : amps) : mat2 := fun a i =>
  cgeom_X1A_7 d nx C H T R a i + sumn (noa d) (fun m => sumn (nua d) (fun e => (i_a_ov H m e) * (x_aa R a e i m))).
(** ccpy/eomcc/eomccsd_chol.py, build_HR_1A, line 63 *)
Definition cgeom_X1A_9 (d : dims) (nx : nat) (C : chol) (H : ints) (T R : amps) : mat2 := fun a i =>
  cgeom_X1A_8 d nx C H T R a i + sumn (noa d) (fun m => sumn (nua d) (fun e => (i_b_ov H m e) * (x_ab R a e i m))).
(** ccpy/eomcc/eomccsd_chol.py, HR, line 40 *)
Definition cgeom_dR_b (d : dims) (nx : nat) (C : chol) (H : ints) (T R : amps) : mat2 := fun a i =>
  cgeom_X1A_9 d nx C H T R a i.
(** ccpy/eomcc/eomccsd_chol.py, build_HR_2A, line 83 *)
Definition cgeom_X2A (d : dims) (nx : nat) (C : chol) (H : ints) (T R : amps) : mat4 := fun a b i j =>
  (-1) / 2 * (sumn (noa d) (fun m => (i_a_oo H m i) * (x_aa R a b m j))).
(** ccpy/eomcc/eomccsd_chol.py, build_HR_2A, line 84 *)
Definition cgeom_X2A_1 (d : dims) (nx : nat) (C : chol) (H : ints) (T R : amps) : mat4 := fun a b i j =>
  cgeom_X2A d nx C H T R a b i j + 1 / 2 * (sumn (nua d) (fun e => (i_a_vv H a e) * (x_aa R e b i j))).
(** ccpy/eomcc/eomccsd_chol.py, build_HR_2A, line 85 *)
Definition cgeom_X2A_2 (d : dims) (nx : nat) (C : chol) (H : ints) (T R : amps) : mat4 := fun a b i j =>
  cgeom_X2A_1 d nx C H T R a b i j + 1 / 8 * (sumn (noa d) (fun m => sumn (noa d) (fun n => (i_aa_oooo H m n i j) * (x_aa R a b m n)))).
(** ccpy/eomcc/eomccsd_chol.py, build_HR_2A, line 87 *)
Definition cgeom_X2A_3 (d : dims) (nx : nat) (C : chol) (H : ints) (T R : amps) : mat4 := fun a b i j =>
  cgeom_X2A_2 d nx C H T R a b i j + 1 / 8 * (sumn (noa d) (fun m => sumn (noa d) (fun n => (cgeom_X_aa_oooo d nx C H T R m n i j) * (x_aa T a b m n)))).
(** ccpy/eomcc/eomccsd_chol.py, build_HR_2A, line 94 *)
Definition cgeom_vR (d : dims) (nx : nat) (C : chol) (H : ints) (T R : amps) : mat3 := fun a b c =>
  c_a_vv C a c b.
(** ccpy/eomcc/eomccsd_chol.py, build_HR_2A, line 94 *)
Definition cgeom_vT (d : dims) (nx : nat) (C : chol) (H : ints) (T R : amps) : mat4 := fun i j a b =>
  1 / 2 * (x_aa R b a j i).
(** ccpy/eomcc/eomccsd_chol.py, build_HR_2A, line 95 *)
Definition cgeom_X2A_4 (d : dims) (nx : nat) (C : chol) (H : ints) (T R : amps) : mat4 := fun a b i j =>
  cgeom_X2A_3 d nx C H T R a b i j + 1 / 4 * (sumn (nua d) (fun e' => sumn (nua d) (fun f' => (sumn nx (fun x => (cgeom_vR d nx C H T R x f' b) * (cgeom_vR d nx C H T R x e' a) - (cgeom_vR d nx C H T R x e' b) * (cgeom_vR d nx C H T R x f' a))) * (cgeom_vT d nx C H T R j i f' e')))).
(** ccpy/eomcc/eomccsd_chol.py, build_HR_2A, line 97 *)
Definition cgeom_X2A_5 (d : dims) (nx : nat) (C : chol) (H : ints) (T R : amps) : mat4 := fun a b i j =>
  cgeom_X2A_4 d nx C H T R a b i j + sumn (noa d) (fun m => sumn (nua d) (fun e => (i_aa_voov H a m i e) * (x_aa R e b m j))).
(** ccpy/eomcc/eomccsd_chol.py, build_HR_2A, line 98 *)
Definition cgeom_X2A_6 (d : dims) (nx : nat) (C : chol) (H : ints) (T R : amps) : mat4 := fun a b i j =>
  cgeom_X2A_5 d nx C H T R a b i j + sumn (noa d) (fun m => sumn (nua d) (fun e => (i_ab_voov H a m i e) * (x_ab R b e j m))).
(** ccpy/eomcc/eomccsd_chol.py, build_HR_2A, line 99 *)
Definition cgeom_X2A_7 (d : dims) (nx : nat) (C : chol) (H : ints) (T R : amps) : mat4 := fun a b i j =>
  cgeom_X2A_6 d nx C H T R a b i j - 1 / 2 * (sumn (noa d) (fun m => (i_aa_vooo H b m j i) * (x_a R a m))).
(** ccpy/eomcc/eomccsd_chol.py, build_HR_2A, line 100 *)
Definition cgeom_X2A_8 (d : dims) (nx : nat) (C : chol) (H : ints) (T R : amps) : mat4 := fun a b i j =>
  cgeom_X2A_7 d nx C H T R a b i j + 1 / 2 * (sumn (nua d) (fun e => (i_aa_vvov H b a j e) * (x_a R e i))).
(** ccpy/eomcc/eomccsd_chol.py, build_HR_2A, line 101 *)
Definition cgeom_X2A_9 (d : dims) (nx : nat) (C : chol) (H : ints) (T R : amps) : mat4 := fun a b i j =>
  cgeom_X2A_8 d nx C H T R a b i j + 1 / 2 * (sumn (nua d) (fun e => (cgeom_X_a_vv d nx C H T R b e) * (x_aa T a e i j))).
(** ccpy/eomcc/eomccsd_chol.py, build_HR_2A, line 102 *)
Definition cgeom_X2A_10 (d : dims) (nx : nat) (C : chol) (H : ints) (T R : amps) : mat4 := fun a b i j =>
  cgeom_X2A_9 d nx C H T R a b i j - 1 / 2 * (sumn (noa d) (fun m => (cgeom_X_a_oo d nx C H T R m j) * (x_aa T a b i m))).
(** ccpy/eomcc/eomccsd_chol.py, build_HR_2A, line 103 *)
Definition cgeom_X2A_11 (d : dims) (nx : nat) (C : chol) (H : ints) (T R : amps) : mat4 := fun a b i j =>
  cgeom_X2A_10 d nx C H T R a b i j - cgeom_X2A_10 d nx C H T R b a i j.
(** ccpy/eomcc/eomccsd_chol.py, build_HR_2A, line 104 *)
Definition cgeom_X2A_12 (d : dims) (nx : nat) (C : chol) (H : ints) (T R : amps) : mat4 := fun a b i j =>
  cgeom_X2A_11 d nx C H T R a b i j - cgeom_X2A_11 d nx C H T R a b j i.
(** ccpy/eomcc/eomccsd_chol.py, build_HR_2B, line 109 *)
Definition cgeom_X2B (d : dims) (nx : nat) (C : chol) (H : ints) (T R : amps) : mat4 := fun a b i j =>
  sumn (nua d) (fun e => (i_a_vv H a e) * (x_ab R e b i j)).
(** ccpy/eomcc/eomccsd_chol.py, build_HR_2B, line 110 *)
Definition cgeom_X2B_1 (d : dims) (nx : nat) (C : chol) (H : ints) (T R : amps) : mat4 := fun a b i j =>
  cgeom_X2B d nx C H T R a b i j + sumn (nua d) (fun e => (i_b_vv H b e) * (x_ab R a e i j)).
(** ccpy/eomcc/eomccsd_chol.py, build_HR_2B, line 111 *)
Definition cgeom_X2B_2 (d : dims) (nx : nat) (C : chol) (H : ints) (T R : amps) : mat4 := fun a b i j =>
  cgeom_X2B_1 d nx C H T R a b i j - sumn (noa d) (fun m => (i_a_oo H m i) * (x_ab R a b m j)).
(** ccpy/eomcc/eomccsd_chol.py, build_HR_2B, line 112 *)
Definition cgeom_X2B_3 (d : dims) (nx : nat) (C : chol) (H : ints) (T R : amps) : mat4 := fun a b i j =>
  cgeom_X2B_2 d nx C H T R a b i j - sumn (noa d) (fun m => (i_b_oo H m j) * (x_ab R a b i m)).
(** ccpy/eomcc/eomccsd_chol.py, build_HR_2B, line 113 *)
Definition cgeom_X2B_4 (d : dims) (nx : nat) (C : chol) (H : ints) (T R : amps) : mat4 := fun a b i j =>
  cgeom_X2B_3 d nx C H T R a b i j + sumn (noa d) (fun m => sumn (noa d) (fun n => (i_ab_oooo H m n i j) * (x_ab R a b m n))).
(** ccpy/eomcc/eomccsd_chol.py, build_HR_2B, line 115 *)
Definition cgeom_X2B_5 (d : dims) (nx : nat) (C : chol) (H : ints) (T R : amps) : mat4 := fun a b i j =>
  cgeom_X2B_4 d nx C H T R a b i j + sumn (noa d) (fun m => sumn (noa d) (fun n => (cgeom_X_ab_oooo d nx C H T R m n i j) * (x_ab T a b m n))).
(** ccpy/eomcc/eomccsd_chol.py, build_HR_2B, line 121 *)
Definition cgeom_vRa (d : dims) (nx : nat) (C : chol) (H : ints) (T R : amps) : mat3 := fun a b c =>
  c_a_vv C a c b.
(** ccpy/eomcc/eomccsd_chol.py, build_HR_2B, line 121 *)
Definition cgeom_vRb (d : dims) (nx : nat) (C : chol) (H : ints) (T R : amps) : mat3 := fun a b c =>
  c_b_vv C a c b.
(** ccpy/eomcc/eomccsd_chol.py, build_HR_2B, line 121 *)
Definition cgeom_vT_1 (d : dims) (nx : nat) (C : chol) (H : ints) (T R : amps) : mat4 := fun i j a b =>
  x_ab R b a j i.
(** ccpy/eomcc/eomccsd_chol.py, build_HR_2B, line 122 *)
Definition cgeom_X2B_6 (d : dims) (nx : nat) (C : chol) (H : ints) (T R : amps) : mat4 := fun a b i j =>
  cgeom_X2B_5 d nx C H T R a b i j + sumn (nua d) (fun e' => sumn (nua d) (fun f' => (sumn nx (fun x => (cgeom_vRb d nx C H T R x f' b) * (cgeom_vRa d nx C H T R x e' a))) * (cgeom_vT_1 d nx C H T R j i f' e'))).
(** ccpy/eomcc/eomccsd_chol.py, build_HR_2B, line 124 *)
Definition cgeom_X2B_7 (d : dims) (nx : nat) (C : chol) (H : ints) (T R : amps) : mat4 := fun a b i j =>
  cgeom_X2B_6 d nx C H T R a b i j + sumn (noa d) (fun m => sumn (nua d) (fun e => (i_aa_voov H a m i e) * (x_ab R e b m j))).
(** ccpy/eomcc/eomccsd_chol.py, build_HR_2B, line 125 *)
Definition cgeom_X2B_8 (d : dims) (nx : nat) (C : chol) (H : ints) (T R : amps) : mat4 := fun a b i j =>
  cgeom_X2B_7 d nx C H T R a b i j + sumn (noa d) (fun m => sumn (nua d) (fun e => (i_ab_voov H a m i e) * (x_bb R e b m j))).
(** ccpy/eomcc/eomccsd_chol.py, build_HR_2B, line 126 *)
Definition cgeom_X2B_9 (d : dims) (nx : nat) (C : chol) (H : ints) (T R : amps) : mat4 := fun a b i j =>
  cgeom_X2B_8 d nx C H T R a b i j + sumn (noa d) (fun m => sumn (nua d) (fun e => (i_ab_ovvo H m b e j) * (x_aa R a e i m))).
(** ccpy/eomcc/eomccsd_chol.py, build_HR_2B, line 127 *)
Definition cgeom_X2B_10 (d : dims) (nx : nat) (C : chol) (H : ints) (T R : amps) : mat4 := fun a b i j =>
  cgeom_X2B_9 d nx C H T R a b i j + sumn (noa d) (fun m => sumn (nua d) (fun e => (i_bb_voov H b m j e) * (x_ab R a e i m))).
(** ccpy/eomcc/eomccsd_chol.py, build_HR_2B, line 128 *)
Definition cgeom_X2B_11 (d : dims) (nx : nat) (C : chol) (H : ints) (T R : amps) : mat4 := fun a b i j =>
  cgeom_X2B_10 d nx C H T R a b i j - sumn (noa d) (fun m => sumn (nua d) (fun e => (i_ab_ovov H m b i e) * (x_ab R a e m j))).
(** ccpy/eomcc/eomccsd_chol.py, build_HR_2B, line 129 *)
Definition cgeom_X2B_12 (d : dims) (nx : nat) (C : chol) (H : ints) (T R : amps) : mat4 := fun a b i j =>
  cgeom_X2B_11 d nx C H T R a b i j - sumn (noa d) (fun m => sumn (nua d) (fun e => (i_ab_vovo H a m e j) * (x_ab R e b i m))).
(** ccpy/eomcc/eomccsd_chol.py, build_HR_2B, line 130 *)
Definition cgeom_X2B_13 (d : dims) (nx : nat) (C : chol) (H : ints) (T R : amps) : mat4 := fun a b i j =>
  cgeom_X2B_12 d nx C H T R a b i j + sumn (nua d) (fun e => (i_ab_vvvo H a b e j) * (x_a R e i)).
(** ccpy/eomcc/eomccsd_chol.py, build_HR_2B, line 131 *)
Definition cgeom_X2B_14 (d : dims) (nx : nat) (C : chol) (H : ints) (T R : amps) : mat4 := fun a b i j =>
  cgeom_X2B_13 d nx C H T R a b i j + sumn (nua d) (fun e => (i_ab_vvov H a b i e) * (x_b R e j)).
(** ccpy/eomcc/eomccsd_chol.py, build_HR_2B, line 132 *)
Definition cgeom_X2B_15 (d : dims) (nx : nat) (C : chol) (H : ints) (T R : amps) : mat4 := fun a b i j =>
  cgeom_X2B_14 d nx C H T R a b i j - sumn (noa d) (fun m => (i_ab_ovoo H m b i j) * (x_a R a m)).
(** ccpy/eomcc/eomccsd_chol.py, build_HR_2B, line 133 *)
Definition cgeom_X2B_16 (d : dims) (nx : nat) (C : chol) (H : ints) (T R : amps) : mat4 := fun a b i j =>
  cgeom_X2B_15 d nx C H T R a b i j - sumn (noa d) (fun m => (i_ab_vooo H a m i j) * (x_b R b m)).
(** ccpy/eomcc/eomccsd_chol.py, build_HR_2B, line 134 *)
Definition cgeom_X2B_17 (d : dims) (nx : nat) (C : chol) (H : ints) (T R : amps) : mat4 := fun a b i j =>
  cgeom_X2B_16 d nx C H T R a b i j + sumn (nua d) (fun e => (cgeom_X_a_vv d nx C H T R a e) * (x_ab T e b i j)).
(** ccpy/eomcc/eomccsd_chol.py, build_HR_2B, line 135 *)
Definition cgeom_X2B_18 (d : dims) (nx : nat) (C : chol) (H : ints) (T R : amps) : mat4 := fun a b i j =>
  cgeom_X2B_17 d nx C H T R a b i j - sumn (noa d) (fun m => (cgeom_X_a_oo d nx C H T R m i) * (x_ab T a b m j)).
(** ccpy/eomcc/eomccsd_chol.py, build_HR_2B, line 136 *)
Definition cgeom_X2B_19 (d : dims) (nx : nat) (C : chol) (H : ints) (T R : amps) : mat4 := fun a b i j =>
  cgeom_X2B_18 d nx C H T R a b i j + sumn (nua d) (fun e => (cgeom_X_b_vv d nx C H T R b e) * (x_ab T a e i j)).
(** ccpy/eomcc/eomccsd_chol.py, build_HR_2B, line 137 *)
Definition cgeom_X2B_20 (d : dims) (nx : nat) (C : chol) (H : ints) (T R : amps) : mat4 := fun a b i j =>
  cgeom_X2B_19 d nx C H T R a b i j - sumn (noa d) (fun m => (cgeom_X_b_oo d nx C H T R m j) * (x_ab T a b i m)).
(** ccpy/eomcc/eomccsd_chol.py, HR, line 47 *)
Definition cgeom_dR_bb (d : dims) (nx : nat) (C : chol) (H : ints) (T R : amps) : mat4 := fun a b i j =>
  cgeom_X2A_12 d nx C H T R a b i j.
(** ccpy/left/left_cc_intermediates.py, build_left_ccsd_chol_intermediates, lines 35-38 *)
Definition cgleft_X_a_vv (d : dims) (nx : nat) (C : chol) (H : ints) (T L : amps) : mat2 := fun g e =>
  1 / 2 * (sumn (nua d) (fun f => sumn (noa d) (fun m => sumn (noa d) (fun n => (x_aa L e f m n) * (x_aa T f g n m))))) + sumn (nua d) (fun b => sumn (noa d) (fun i => sumn (noa d) (fun j => (x_ab L e b i j) * (x_ab T g b i j)))).
(** ccpy/left/left_cc_intermediates.py, build_left_ccsd_chol_intermediates, lines 39-42 *)
Definition cgleft_X_a_oo (d : dims) (nx : nat) (C : chol) (H : ints) (T L : amps) : mat2 := fun m n =>
  (-1) / 2 * (sumn (nua d) (fun e => sumn (nua d) (fun f => sumn (noa d) (fun o => (x_aa L e f m o) * (x_aa T e f n o))))) - sumn (nua d) (fun a => sumn (nua d) (fun b => sumn (noa d) (fun j => (x_ab L a b m j) * (x_ab T a b n j)))).
(** ccpy/left/left_cc_intermediates.py, build_left_ccsd_chol_intermediates, lines 43-46 *)
Definition cgleft_X_b_vv (d : dims) (nx : nat) (C : chol) (H : ints) (T L : amps) : mat2 := fun f a =>
  1 / 2 * (sumn (nua d) (fun b => sumn (noa d) (fun i => sumn (noa d) (fun j => (x_bb L a b i j) * (x_bb T f b i j))))) + sumn (nua d) (fun a' => sumn (noa d) (fun i => sumn (noa d) (fun j => (x_ab L a' a i j) * (x_ab T a' f i j)))).
(** ccpy/left/left_cc_intermediates.py, build_left_ccsd_chol_intermediates, lines 47-50 *)
Definition cgleft_X_b_oo (d : dims) (nx : nat) (C : chol) (H : ints) (T L : amps) : mat2 := fun i n =>
  (-1) / 2 * (sumn (nua d) (fun a => sumn (nua d) (fun b => sumn (noa d) (fun j => (x_bb L a b i j) * (x_bb T a b n j))))) - sumn (nua d) (fun a => sumn (nua d) (fun b => sumn (noa d) (fun i' => (x_ab L a b i' i) * (x_ab T a b i' n)))).
(** ccpy/left/left_cc_intermediates.py, build_left_ccsd_chol_intermediates, line 51 *)
Definition cgleft_X_aa_oooo (d : dims) (nx : nat) (C : chol) (H : ints) (T L : amps) : mat4 := fun i j m n =>
  1 / 2 * (sumn (nua d) (fun e => sumn (nua d) (fun f => (x_aa L e f i j) * (x_aa T e f m n)))).
(** ccpy/left/left_cc_intermediates.py, build_left_ccsd_chol_intermediates, line 52 *)
Definition cgleft_X_ab_oooo (d : dims) (nx : nat) (C : chol) (H : ints) (T L : amps) : mat4 := fun i j m n =>
  sumn (nua d) (fun e => sumn (nua d) (fun f => (x_ab L e f i j) * (x_ab T e f m n))).
(** ccpy/left/left_cc_intermediates.py, build_left_ccsd_chol_intermediates, line 53 *)
Definition cgleft_X_bb_oooo (d : dims) (nx : nat) (C : chol) (H : ints) (T L : amps) : mat4 := fun i j m n =>
  1 / 2 * (sumn (nua d) (fun e => sumn (nua d) (fun f => (x_bb L e f i j) * (x_bb T e f m n)))).
(** ccpy/left/left_cc_intermediates.py, build_left_ccsd_chol_intermediates, line 56 *)
Definition cgleft_X_aa_ooov (d : dims) (nx : nat) (C : chol) (H : ints) (T L : amps) : mat4 := fun j i n e =>
  sumn (nua d) (fun f => (x_aa L f e j i) * (x_a T f n)).
(** ccpy/left/left_cc_intermediates.py, build_left_ccsd_chol_intermediates, line 57 *)
Definition cgleft_X_ab_ooov (d : dims) (nx : nat) (C : chol) (H : ints) (T L : amps) : mat4 := fun i j m f =>
  sumn (nua d) (fun e => (x_ab L e f i j) * (x_a T e m)).
(** ccpy/left/left_cc_intermediates.py, build_left_ccsd_chol_intermediates, line 58 *)
Definition cgleft_X_ab_oovo (d : dims) (nx : nat) (C : chol) (H : ints) (T L : amps) : mat4 := fun i j e n =>
  sumn (nua d) (fun f => (x_ab L e f i j) * (x_b T f n)).
(** ccpy/left/left_cc_intermediates.py, build_left_ccsd_chol_intermediates, line 59 *)
Definition cgleft_X_bb_ooov (d : dims) (nx : nat) (C : chol) (H : ints) (T L : amps) : mat4 := fun j i n e =>
  sumn (nua d) (fun f => (x_bb L f e j i) * (x_b T f n)).
(** ccpy/left/left_ccsd_chol.py, build_LH_1A, line 94 *)
Definition cgleft_LH_a (d : dims) (nx : nat) (C : chol) (H : ints) (T L : amps) : mat2 := fun a i =>
  sumn (nua d) (fun e => (i_a_vv H e a) * (x_a L e i)).
(** ccpy/left/left_ccsd_chol.py, build_LH_1A, line 95 *)
Definition cgleft_LH_a_1 (d : dims) (nx : nat) (C : chol) (H : ints) (T L : amps) : mat2 := fun a i =>
  cgleft_LH_a d nx C H T L a i - sumn (noa d) (fun m => (i_a_oo H i m) * (x_a L a m)).
(** ccpy/left/left_ccsd_chol.py, build_LH_1A, line 96 *)
Definition cgleft_LH_a_2 (d : dims) (nx : nat) (C : chol) (H : ints) (T L : amps) : mat2 := fun a i =>
  cgleft_LH_a_1 d nx C H T L a i + sumn (nua d) (fun e => sumn (noa d) (fun m => (i_aa_voov H e i m a) * (x_a L e m))).
(** ccpy/left/left_ccsd_chol.py, build_LH_1A, line 97 *)
Definition cgleft_LH_a_3 (d : dims) (nx : nat) (C : chol) (H : ints) (T L : amps) : mat2 := fun a i =>
  cgleft_LH_a_2 d nx C H T L a i + sumn (nua d) (fun e => sumn (noa d) (fun m => (i_ab_ovvo H i e a m) * (x_b L e m))).
(** ccpy/left/left_ccsd_chol.py, build_LH_1A, line 99 *)
Definition cgleft_LH_a_4 (d : dims) (nx : nat) (C : chol) (H : ints) (T L : amps) : mat2 := fun a i =>
  cgleft_LH_a_3 d nx C H T L a i + 1 / 2 * (sumn (nua d) (fun f => sumn (nua d) (fun e => sumn (noa d) (fun n => (i_aa_vvov H f e n a) * (x_aa L e f i n))))).
(** ccpy/left/left_ccsd_chol.py, build_LH_1A, line 100 *)
Definition cgleft_LH_a_5 (d : dims) (nx : nat) (C : chol) (H : ints) (T L : amps) : mat2 := fun a i =>
  cgleft_LH_a_4 d nx C H T L a i + sumn (nua d) (fun e => sumn (nua d) (fun f => sumn (noa d) (fun n => (i_ab_vvvo H e f a n) * (x_ab L e f i n)))).
(** ccpy/left/left_ccsd_chol.py, build_LH_1A, line 102 *)
Definition cgleft_LH_a_6 (d : dims) (nx : nat) (C : chol) (H : ints) (T L : amps) : mat2 := fun a i =>
  cgleft_LH_a_5 d nx C H T L a i - 1 / 2 * (sumn (nua d) (fun f => sumn (noa d) (fun n => sumn (noa d) (fun m => (i_aa_vooo H f i n m) * (x_aa L a f m n))))).
(** ccpy/left/left_ccsd_chol.py, build_LH_1A, line 103 *)
Definition cgleft_LH_a_7 (d : dims) (nx : nat) (C : chol) (H : ints) (T L : amps) : mat2 := fun a i =>
  cgleft_LH_a_6 d nx C H T L a i - sumn (nua d) (fun f => sumn (noa d) (fun m => sumn (noa d) (fun n => (i_ab_ovoo H i f m n) * (x_ab L a f m n)))).
(** ccpy/left/left_ccsd_chol.py, build_LH_1A, line 105 *)
Definition cgleft_LH_a_8 (d : dims) (nx : nat) (C : chol) (H : ints) (T L : amps) : mat2 := fun a i =>
  cgleft_LH_a_7 d nx C H T L a i + sumn (nua d) (fun g => sumn (nua d) (fun e => (cgleft_X_a_vv d nx C H T L g e) * (i_aa_vovv H e i g a))).
(** ccpy/left/left_ccsd_chol.py, build_LH_1A, line 106 *)
Definition cgleft_LH_a_9 (d : dims) (nx : nat) (C : chol) (H : ints) (T L : amps) : mat2 := fun a i =>
  cgleft_LH_a_8 d nx C H T L a i + sumn (nua d) (fun f => sumn (nua d) (fun a' => (cgleft_X_b_vv d nx C H T L f a') * (i_ab_ovvv H i a' a f))).
(** ccpy/left/left_ccsd_chol.py, build_LH_1A, line 108 *)
Definition cgleft_LH_a_10 (d : dims) (nx : nat) (C : chol) (H : ints) (T L : amps) : mat2 := fun a i =>
  cgleft_LH_a_9 d nx C H T L a i + sumn (noa d) (fun m => sumn (noa d) (fun n => (cgleft_X_a_oo d nx C H T L m n) * (i_aa_ooov H n i m a))).
(** ccpy/left/left_ccsd_chol.py, build_LH_1A, line 109 *)
Definition cgleft_LH_a_11 (d : dims) (nx : nat) (C : chol) (H : ints) (T L : amps) : mat2 := fun a i =>
  cgleft_LH_a_10 d nx C H T L a i + sumn (noa d) (fun i' => sumn (noa d) (fun n => (cgleft_X_b_oo d nx C H T L i' n) * (i_ab_oovo H i n a i'))).
(** ccpy/left/left_ccsd_chol.py, LH_fun, line 80 *)
Definition cgleft_LH_b (d : dims) (nx : nat) (C : chol) (H : ints) (T L : amps) : mat2 := fun a i =>
  cgleft_LH_a_11 d nx C H T L a i.
(** ccpy/left/left_ccsd_chol.py, build_LH_2A, line 137 *)
Definition cgleft_LH_aa (d : dims) (nx : nat) (C : chol) (H : ints) (T L : amps) : mat4 := fun a b i j =>
  1 / 2 * (sumn (nua d) (fun e => (i_a_vv H e a) * (x_aa L e b i j))).
(** ccpy/left/left_ccsd_chol.py, build_LH_2A, line 138 *)
Definition cgleft_LH_aa_1 (d : dims) (nx : nat) (C : chol) (H : ints) (T L : amps) : mat4 := fun a b i j =>
  cgleft_LH_aa d nx C H T L a b i j - 1 / 2 * (sumn (noa d) (fun m => (i_a_oo H i m) * (x_aa L a b m j))).
(** ccpy/left/left_ccsd_chol.py, build_LH_2A, line 139 *)
Definition cgleft_LH_aa_2 (d : dims) (nx : nat) (C : chol) (H : ints) (T L : amps) : mat4 := fun a b i j =>
  cgleft_LH_aa_1 d nx C H T L a b i j + (i_a_ov H j b) * (x_a L a i).
(** ccpy/left/left_ccsd_chol.py, build_LH_2A, line 140 *)
Definition cgleft_LH_aa_3 (d : dims) (nx : nat) (C : chol) (H : ints) (T L : amps) : mat4 := fun a b i j =>
  cgleft_LH_aa_2 d nx C H T L a b i j - 1 / 2 * (sumn (nua d) (fun e => (cgleft_X_a_vv d nx C H T L e a) * (i_aa_oovv H i j e b))).
(** ccpy/left/left_ccsd_chol.py, build_LH_2A, line 141 *)
Definition cgleft_LH_aa_4 (d : dims) (nx : nat) (C : chol) (H : ints) (T L : amps) : mat4 := fun a b i j =>
  cgleft_LH_aa_3 d nx C H T L a b i j + 1 / 2 * (sumn (noa d) (fun m => (cgleft_X_a_oo d nx C H T L i m) * (i_aa_oovv H m j a b))).
(** ccpy/left/left_ccsd_chol.py, build_LH_2A, line 142 *)
Definition cgleft_LH_aa_5 (d : dims) (nx : nat) (C : chol) (H : ints) (T L : amps) : mat4 := fun a b i j =>
  cgleft_LH_aa_4 d nx C H T L a b i j + sumn (nua d) (fun e => sumn (noa d) (fun m => (i_aa_voov H e i m a) * (x_aa L e b m j))).
(** ccpy/left/left_ccsd_chol.py, build_LH_2A, line 143 *)
Definition cgleft_LH_aa_6 (d : dims) (nx : nat) (C : chol) (H : ints) (T L : amps) : mat4 := fun a b i j =>
  cgleft_LH_aa_5 d nx C H T L a b i j + sumn (nua d) (fun e => sumn (noa d) (fun m => (i_ab_ovvo H i e a m) * (x_ab L b e j m))).
(** ccpy/left/left_ccsd_chol.py, build_LH_2A, line 144 *)
Definition cgleft_LH_aa_7 (d : dims) (nx : nat) (C : chol) (H : ints) (T L : amps) : mat4 := fun a b i j =>
  cgleft_LH_aa_6 d nx C H T L a b i j + 1 / 8 * (sumn (noa d) (fun m => sumn (noa d) (fun n => (i_aa_oooo H i j m n) * (x_aa L a b m n)))).
(** ccpy/left/left_ccsd_chol.py, build_LH_2A, line 146 *)
Definition cgleft_LH_aa_8 (d : dims) (nx : nat) (C : chol) (H : ints) (T L : amps) : mat4 := fun a b i j =>
  cgleft_LH_aa_7 d nx C H T L a b i j + 1 / 8 * (sumn (noa d) (fun m => sumn (noa d) (fun n => (cgleft_X_aa_oooo d nx C H T L i j m n) * (i_aa_oovv H m n a b)))).
(** ccpy/left/left_ccsd_chol.py, build_LH_2A, line 153 *)
Definition cgleft_vR (d : dims) (nx : nat) (C : chol) (H : ints) (T L : amps) : mat3 := fun a b c =>
  c_a_vv C a b c.
(** ccpy/left/left_ccsd_chol.py, build_LH_2A, line 153 *)
Definition cgleft_vT (d : dims) (nx : nat) (C : chol) (H : ints) (T L : amps) : mat4 := fun i j a b =>
  1 / 2 * (x_aa L b a j i).
(** ccpy/left/left_ccsd_chol.py, build_LH_2A, line 154 *)
Definition cgleft_LH_aa_9 (d : dims) (nx : nat) (C : chol) (H : ints) (T L : amps) : mat4 := fun a b i j =>
  cgleft_LH_aa_8 d nx C H T L a b i j + 1 / 4 * (sumn (nua d) (fun e' => sumn (nua d) (fun f' => (sumn nx (fun x => (cgleft_vR d nx C H T L x f' b) * (cgleft_vR d nx C H T L x e' a) - (cgleft_vR d nx C H T L x e' b) * (cgleft_vR d nx C H T L x f' a))) * (cgleft_vT d nx C H T L j i f' e')))).
(** ccpy/left/left_ccsd_chol.py, build_LH_2A, line 156 *)
Definition cgleft_LH_aa_10 (d : dims) (nx : nat) (C : chol) (H : ints) (T L : amps) : mat4 := fun a b i j =>
  cgleft_LH_aa_9 d nx C H T L a b i j + 1 / 2 * (sumn (nua d) (fun e => (i_aa_vovv H e j a b) * (x_a L e i))).
(** ccpy/left/left_ccsd_chol.py, build_LH_2A, line 157 *)
Definition cgleft_LH_aa_11 (d : dims) (nx : nat) (C : chol) (H : ints) (T L : amps) : mat4 := fun a b i j =>
  cgleft_LH_aa_10 d nx C H T L a b i j - 1 / 2 * (sumn (noa d) (fun m => (i_aa_ooov H i j m b) * (x_a L a m))).
(** ccpy/left/left_ccsd_chol.py, build_LH_2A, line 158 *)
Definition cgleft_LH_aa_12 (d : dims) (nx : nat) (C : chol) (H : ints) (T L : amps) : mat4 := fun a b i j =>
  cgleft_LH_aa_11 d nx C H T L a b i j - (cgleft_LH_aa_11 d nx C H T L b a i j + cgleft_LH_aa_11 d nx C H T L a b j i - cgleft_LH_aa_11 d nx C H T L b a j i).
(** ccpy/left/left_ccsd_chol.py, build_LH_2B, line 164 *)
Definition cgleft_LH_ab (d : dims) (nx : nat) (C : chol) (H : ints) (T L : amps) : mat4 := fun a b i j =>
  (- (sumn (noa d) (fun m => (i_ab_ooov H i j m b) * (x_a L a m)))).
(** ccpy/left/left_ccsd_chol.py, build_LH_2B, line 165 *)
Definition cgleft_LH_ab_1 (d : dims) (nx : nat) (C : chol) (H : ints) (T L : amps) : mat4 := fun a b i j =>
  cgleft_LH_ab d nx C H T L a b i j - sumn (noa d) (fun m => (i_ab_oovo H i j a m) * (x_b L b m)).
(** ccpy/left/left_ccsd_chol.py, build_LH_2B, line 166 *)
Definition cgleft_LH_ab_2 (d : dims) (nx : nat) (C : chol) (H : ints) (T L : amps) : mat4 := fun a b i j =>
  cgleft_LH_ab_1 d nx C H T L a b i j + sumn (nua d) (fun e => (i_ab_vovv H e j a b) * (x_a L e i)).
(** ccpy/left/left_ccsd_chol.py, build_LH_2B, line 167 *)
Definition cgleft_LH_ab_3 (d : dims) (nx : nat) (C : chol) (H : ints) (T L : amps) : mat4 := fun a b i j =>
  cgleft_LH_ab_2 d nx C H T L a b i j + sumn (nua d) (fun e => (i_ab_ovvv H i e a b) * (x_b L e j)).
(** ccpy/left/left_ccsd_chol.py, build_LH_2B, line 168 *)
Definition cgleft_LH_ab_4 (d : dims) (nx : nat) (C : chol) (H : ints) (T L : amps) : mat4 := fun a b i j =>
  cgleft_LH_ab_3 d nx C H T L a b i j + sumn (noa d) (fun m => sumn (noa d) (fun n => (i_ab_oooo H i j m n) * (x_ab L a b m n))).
(** ccpy/left/left_ccsd_chol.py, build_LH_2B, line 170 *)
Definition cgleft_LH_ab_5 (d : dims) (nx : nat) (C : chol) (H : ints) (T L : amps) : mat4 := fun a b i j =>
  cgleft_LH_ab_4 d nx C H T L a b i j + sumn (noa d) (fun m => sumn (noa d) (fun n => (cgleft_X_ab_oooo d nx C H T L i j m n) * (i_ab_oovv H m n a b))).
(** ccpy/left/left_ccsd_chol.py, build_LH_2B, line 176 *)
Definition cgleft_vRa (d : dims) (nx : nat) (C : chol) (H : ints) (T L : amps) : mat3 := fun a b c =>
  c_a_vv C a b c.
(** ccpy/left/left_ccsd_chol.py, build_LH_2B, line 176 *)
Definition cgleft_vRb (d : dims) (nx : nat) (C : chol) (H : ints) (T L : amps) : mat3 := fun a b c =>
  c_b_vv C a b c.
(** ccpy/left/left_ccsd_chol.py, build_LH_2B, line 176 *)
Definition cgleft_vT_1 (d : dims) (nx : nat) (C : chol) (H : ints) (T L : amps) : mat4 := fun i j a b =>
  x_ab L b a j i.
(** ccpy/left/left_ccsd_chol.py, build_LH_2B, line 177 *)
Definition cgleft_LH_ab_6 (d : dims) (nx : nat) (C : chol) (H : ints) (T L : amps) : mat4 := fun a b i j =>
  cgleft_LH_ab_5 d nx C H T L a b i j + sumn (nua d) (fun e' => sumn (nua d) (fun f' => (sumn nx (fun x => (cgleft_vRb d nx C H T L x f' b) * (cgleft_vRa d nx C H T L x e' a))) * (cgleft_vT_1 d nx C H T L j i f' e'))).
(** ccpy/left/left_ccsd_chol.py, build_LH_2B, line 179 *)
Definition cgleft_LH_ab_7 (d : dims) (nx : nat) (C : chol) (H : ints) (T L : amps) : mat4 := fun a b i j =>
  cgleft_LH_ab_6 d nx C H T L a b i j + sumn (nua d) (fun e => sumn (noa d) (fun m => (i_ab_voov H e j m b) * (x_aa L a e i m))).
(** ccpy/left/left_ccsd_chol.py, build_LH_2B, line 180 *)
Definition cgleft_LH_ab_8 (d : dims) (nx : nat) (C : chol) (H : ints) (T L : amps) : mat4 := fun a b i j =>
  cgleft_LH_ab_7 d nx C H T L a b i j + sumn (nua d) (fun e => sumn (noa d) (fun m => (i_aa_voov H e i m a) * (x_ab L e b m j))).
(** ccpy/left/left_ccsd_chol.py, build_LH_2B, line 181 *)
Definition cgleft_LH_ab_9 (d : dims) (nx : nat) (C : chol) (H : ints) (T L : amps) : mat4 := fun a b i j =>
  cgleft_LH_ab_8 d nx C H T L a b i j + sumn (nua d) (fun e => sumn (noa d) (fun m => (i_bb_voov H e j m b) * (x_ab L a e i m))).
(** ccpy/left/left_ccsd_chol.py, build_LH_2B, line 182 *)
Definition cgleft_LH_ab_10 (d : dims) (nx : nat) (C : chol) (H : ints) (T L : amps) : mat4 := fun a b i j =>
  cgleft_LH_ab_9 d nx C H T L a b i j + sumn (nua d) (fun e => sumn (noa d) (fun m => (i_ab_ovvo H i e a m) * (x_bb L e b m j))).
(** ccpy/left/left_ccsd_chol.py, build_LH_2B, line 183 *)
Definition cgleft_LH_ab_11 (d : dims) (nx : nat) (C : chol) (H : ints) (T L : amps) : mat4 := fun a b i j =>
  cgleft_LH_ab_10 d nx C H T L a b i j - sumn (nua d) (fun e => sumn (noa d) (fun m => (i_ab_ovov H i e m b) * (x_ab L a e m j))).
(** ccpy/left/left_ccsd_chol.py, build_LH_2B, line 184 *)
Definition cgleft_LH_ab_12 (d : dims) (nx : nat) (C : chol) (H : ints) (T L : amps) : mat4 := fun a b i j =>
  cgleft_LH_ab_11 d nx C H T L a b i j - sumn (nua d) (fun e => sumn (noa d) (fun m => (i_ab_vovo H e j a m) * (x_ab L e b i m))).
(** ccpy/left/left_ccsd_chol.py, build_LH_2B, line 185 *)
Definition cgleft_LH_ab_13 (d : dims) (nx : nat) (C : chol) (H : ints) (T L : amps) : mat4 := fun a b i j =>
  cgleft_LH_ab_12 d nx C H T L a b i j - sumn (nua d) (fun e => (cgleft_X_a_vv d nx C H T L e a) * (i_ab_oovv H i j e b)).
(** ccpy/left/left_ccsd_chol.py, build_LH_2B, line 186 *)
Definition cgleft_LH_ab_14 (d : dims) (nx : nat) (C : chol) (H : ints) (T L : amps) : mat4 := fun a b i j =>
  cgleft_LH_ab_13 d nx C H T L a b i j + sumn (noa d) (fun m => (cgleft_X_a_oo d nx C H T L i m) * (i_ab_oovv H m j a b)).
(** ccpy/left/left_ccsd_chol.py, build_LH_2B, line 187 *)
Definition cgleft_LH_ab_15 (d : dims) (nx : nat) (C : chol) (H : ints) (T L : amps) : mat4 := fun a b i j =>
  cgleft_LH_ab_14 d nx C H T L a b i j - sumn (nua d) (fun e => (cgleft_X_b_vv d nx C H T L e b) * (i_ab_oovv H i j a e)).
(** ccpy/left/left_ccsd_chol.py, build_LH_2B, line 188 *)
Definition cgleft_LH_ab_16 (d : dims) (nx : nat) (C : chol) (H : ints) (T L : amps) : mat4 := fun a b i j =>
  cgleft_LH_ab_15 d nx C H T L a b i j + sumn (noa d) (fun m => (cgleft_X_b_oo d nx C H T L j m) * (i_ab_oovv H i m a b)).
(** ccpy/left/left_ccsd_chol.py, build_LH_2B, line 189 *)
Definition cgleft_LH_ab_17 (d : dims) (nx : nat) (C : chol) (H : ints) (T L : amps) : mat4 := fun a b i j =>
  cgleft_LH_ab_16 d nx C H T L a b i j + sumn (nua d) (fun e => (i_a_vv H e a) * (x_ab L e b i j)).
(** ccpy/left/left_ccsd_chol.py, build_LH_2B, line 190 *)
Definition cgleft_LH_ab_18 (d : dims) (nx : nat) (C : chol) (H : ints) (T L : amps) : mat4 := fun a b i j =>
  cgleft_LH_ab_17 d nx C H T L a b i j + sumn (nua d) (fun e => (i_b_vv H e b) * (x_ab L a e i j)).
(** ccpy/left/left_ccsd_chol.py, build_LH_2B, line 191 *)
Definition cgleft_LH_ab_19 (d : dims) (nx : nat) (C : chol) (H : ints) (T L : amps) : mat4 := fun a b i j =>
  cgleft_LH_ab_18 d nx C H T L a b i j - sumn (noa d) (fun m => (i_a_oo H i m) * (x_ab L a b m j)).
(** ccpy/left/left_ccsd_chol.py, build_LH_2B, line 192 *)
Definition cgleft_LH_ab_20 (d : dims) (nx : nat) (C : chol) (H : ints) (T L : amps) : mat4 := fun a b i j =>
  cgleft_LH_ab_19 d nx C H T L a b i j - sumn (noa d) (fun m => (i_b_oo H j m) * (x_ab L a b i m)).
(** ccpy/left/left_ccsd_chol.py, build_LH_2B, line 193 *)
Definition cgleft_LH_ab_21 (d : dims) (nx : nat) (C : chol) (H : ints) (T L : amps) : mat4 := fun a b i j =>
  cgleft_LH_ab_20 d nx C H T L a b i j + (i_b_ov H j b) * (x_a L a i).
(** ccpy/left/left_ccsd_chol.py, build_LH_2B, line 194 *)
Definition cgleft_LH_ab_22 (d : dims) (nx : nat) (C : chol) (H : ints) (T L : amps) : mat4 := fun a b i j =>
  cgleft_LH_ab_21 d nx C H T L a b i j + (i_a_ov H i a) * (x_b L b j).
(** ccpy/left/left_ccsd_chol.py, LH_fun, line 87 *)
Definition cgleft_LH_bb (d : dims) (nx : nat) (C : chol) (H : ints) (T L : amps) : mat4 := fun a b i j =>
  cgleft_LH_aa_12 d nx C H T L a b i j.
(** H with its vvvv blocks replaced *)
Definition with_vvvv (H : ints) (x y z : mat4) : ints := mkInts (i_a_oo H) (i_a_ov H) (i_a_vo H) (i_a_vv H) (i_b_oo H) (i_b_ov H) (i_b_vo H) (i_b_vv H) (i_aa_oooo H) (i_aa_ooov H) (i_aa_oovo H) (i_aa_oovv H) (i_aa_ovoo H) (i_aa_ovov H) (i_aa_ovvo H) (i_aa_ovvv H) (i_aa_vooo H) (i_aa_voov H) (i_aa_vovo H) (i_aa_vovv H) (i_aa_vvoo H) (i_aa_vvov H) (i_aa_vvvo H) x (i_ab_oooo H) (i_ab_ooov H) (i_ab_oovo H) (i_ab_oovv H) (i_ab_ovoo H) (i_ab_ovov H) (i_ab_ovvo H) (i_ab_ovvv H) (i_ab_vooo H) (i_ab_voov H) (i_ab_vovo H) (i_ab_vovv H) (i_ab_vvoo H) (i_ab_vvov H) (i_ab_vvvo H) y (i_bb_oooo H) (i_bb_ooov H) (i_bb_oovo H) (i_bb_oovv H) (i_bb_ovoo H) (i_bb_ovov H) (i_bb_ovvo H) (i_bb_ovvv H) (i_bb_vooo H) (i_bb_voov H) (i_bb_vovo H) (i_bb_vovv H) (i_bb_vvoo H) (i_bb_vvov H) (i_bb_vvvo H) z.
Local Open Scope nat_scope.
Definition v_aa (z p q r s : nat) : ex := (EAdd (ESub (ESum (0 + z) 4 (EMul (ET 0 [(0 + z); p; r]) (ET 0 [(0 + z); q; s]))) (ESum (0 + z) 4 (EMul (ET 0 [(0 + z); p; s]) (ET 0 [(0 + z); q; r])))) (EScale (1) 2 (ESum (0 + z) 0 (ESum (1 + z) 0 (EMul (ET 1 [(0 + z); (1 + z); r; s]) (ET 2 [p; q; (0 + z); (1 + z)])))))).
Definition v_ab (z p q r s : nat) : ex := (EAdd (ESum (0 + z) 4 (EMul (ET 0 [(0 + z); p; r]) (ET 3 [(0 + z); q; s]))) (ESum (0 + z) 0 (ESum (1 + z) 2 (EMul (ET 4 [(0 + z); (1 + z); r; s]) (ET 5 [p; q; (0 + z); (1 + z)]))))).
Definition v_bb (z p q r s : nat) : ex := (EAdd (ESub (ESum (0 + z) 4 (EMul (ET 3 [(0 + z); p; r]) (ET 3 [(0 + z); q; s]))) (ESum (0 + z) 4 (EMul (ET 3 [(0 + z); p; s]) (ET 3 [(0 + z); q; r])))) (EScale (1) 2 (ESum (0 + z) 2 (ESum (1 + z) 2 (EMul (ET 6 [(0 + z); (1 + z); r; s]) (ET 7 [p; q; (0 + z); (1 + z)])))))).
Definition r_eom_X_a_oo (z m j : nat) : ex := (EAdd (EAdd (EAdd (ESum (0 + z) 0 (ESum (1 + z) 1 (EMul (ET 8 [m; (0 + z); j; (1 + z)]) (ET 9 [(1 + z); (0 + z)])))) (ESum (0 + z) 2 (ESum (1 + z) 3 (EMul (ET 10 [m; (0 + z); j; (1 + z)]) (ET 11 [(1 + z); (0 + z)]))))) (EScale (1) 2 (ESum (0 + z) 0 (ESum (1 + z) 1 (ESum (2 + z) 1 (EMul (ET 1 [m; (0 + z); (1 + z); (2 + z)]) (ET 12 [(1 + z); (2 + z); j; (0 + z)]))))))) (ESum (0 + z) 2 (ESum (1 + z) 1 (ESum (2 + z) 3 (EMul (ET 4 [m; (0 + z); (1 + z); (2 + z)]) (ET 13 [(1 + z); (2 + z); j; (0 + z)])))))).
Definition r_eom_X_a_vv (z b e : nat) : ex := (ESub (ESub (EAdd (ESum (0 + z) 0 (ESum (1 + z) 1 (EMul (ET 14 [b; (0 + z); e; (1 + z)]) (ET 9 [(1 + z); (0 + z)])))) (ESum (0 + z) 2 (ESum (1 + z) 3 (EMul (ET 15 [b; (0 + z); e; (1 + z)]) (ET 11 [(1 + z); (0 + z)]))))) (EScale (1) 2 (ESum (0 + z) 0 (ESum (1 + z) 0 (ESum (2 + z) 1 (EMul (ET 1 [(0 + z); (1 + z); e; (2 + z)]) (ET 12 [b; (2 + z); (0 + z); (1 + z)]))))))) (ESum (0 + z) 0 (ESum (1 + z) 2 (ESum (2 + z) 3 (EMul (ET 4 [(0 + z); (1 + z); e; (2 + z)]) (ET 13 [b; (2 + z); (0 + z); (1 + z)])))))).
Definition r_eom_X_b_oo (z m k : nat) : ex := (EAdd (EAdd (EAdd (ESum (0 + z) 0 (ESum (1 + z) 1 (EMul (ET 16 [(0 + z); m; (1 + z); k]) (ET 9 [(1 + z); (0 + z)])))) (ESum (0 + z) 2 (ESum (1 + z) 3 (EMul (ET 17 [m; (0 + z); k; (1 + z)]) (ET 11 [(1 + z); (0 + z)]))))) (ESum (0 + z) 0 (ESum (1 + z) 1 (ESum (2 + z) 3 (EMul (ET 4 [(0 + z); m; (1 + z); (2 + z)]) (ET 13 [(1 + z); (2 + z); (0 + z); k])))))) (EScale (1) 2 (ESum (0 + z) 2 (ESum (1 + z) 3 (ESum (2 + z) 3 (EMul (ET 6 [m; (0 + z); (1 + z); (2 + z)]) (ET 18 [(1 + z); (2 + z); k; (0 + z)]))))))).
Definition r_eom_X_b_vv (z c e : nat) : ex := (ESub (ESub (EAdd (ESum (0 + z) 0 (ESum (1 + z) 1 (EMul (ET 19 [(0 + z); c; (1 + z); e]) (ET 9 [(1 + z); (0 + z)])))) (ESum (0 + z) 2 (ESum (1 + z) 3 (EMul (ET 20 [c; (0 + z); e; (1 + z)]) (ET 11 [(1 + z); (0 + z)]))))) (EScale (1) 1 (ESum (0 + z) 0 (ESum (1 + z) 2 (ESum (2 + z) 1 (EMul (ET 4 [(0 + z); (1 + z); (2 + z); e]) (ET 13 [(2 + z); c; (0 + z); (1 + z)]))))))) (EScale (1) 2 (ESum (0 + z) 2 (ESum (1 + z) 2 (ESum (2 + z) 3 (EMul (ET 6 [(0 + z); (1 + z); e; (2 + z)]) (ET 18 [(2 + z); c; (1 + z); (0 + z)]))))))).
Definition r_eom_X1A (z a i : nat) : ex := (EOpp (ESum (0 + z) 0 (EMul (ET 21 [(0 + z); i]) (ET 9 [a; (0 + z)])))).
Definition r_eom_X1A_1 (z a i : nat) : ex := (EAdd (r_eom_X1A (0 + z) a i) (ESum (0 + z) 1 (EMul (ET 22 [a; (0 + z)]) (ET 9 [(0 + z); i])))).
Definition r_eom_X1A_2 (z a i : nat) : ex := (EAdd (r_eom_X1A_1 (0 + z) a i) (ESum (0 + z) 0 (ESum (1 + z) 1 (EMul (ET 23 [a; (0 + z); i; (1 + z)]) (ET 9 [(1 + z); (0 + z)]))))).
Definition r_eom_X1A_3 (z a i : nat) : ex := (EAdd (r_eom_X1A_2 (0 + z) a i) (ESum (0 + z) 2 (ESum (1 + z) 3 (EMul (ET 24 [a; (0 + z); i; (1 + z)]) (ET 11 [(1 + z); (0 + z)]))))).
Definition r_eom_X1A_4 (z a i : nat) : ex := (ESub (r_eom_X1A_3 (0 + z) a i) (EScale (1) 2 (ESum (0 + z) 0 (ESum (1 + z) 0 (ESum (2 + z) 1 (EMul (ET 8 [(0 + z); (1 + z); i; (2 + z)]) (ET 12 [a; (2 + z); (0 + z); (1 + z)]))))))).
Definition r_eom_X1A_5 (z a i : nat) : ex := (ESub (r_eom_X1A_4 (0 + z) a i) (ESum (0 + z) 0 (ESum (1 + z) 2 (ESum (2 + z) 3 (EMul (ET 10 [(0 + z); (1 + z); i; (2 + z)]) (ET 13 [a; (2 + z); (0 + z); (1 + z)])))))).
Definition r_eom_X1A_6 (z a i : nat) : ex := (EAdd (r_eom_X1A_5 (0 + z) a i) (EScale (1) 2 (ESum (0 + z) 0 (ESum (1 + z) 1 (ESum (2 + z) 1 (EMul (ET 14 [a; (0 + z); (1 + z); (2 + z)]) (ET 12 [(1 + z); (2 + z); i; (0 + z)]))))))).
Definition r_eom_X1A_7 (z a i : nat) : ex := (EAdd (r_eom_X1A_6 (0 + z) a i) (ESum (0 + z) 2 (ESum (1 + z) 1 (ESum (2 + z) 3 (EMul (ET 15 [a; (0 + z); (1 + z); (2 + z)]) (ET 13 [(1 + z); (2 + z); i; (0 + z)])))))).
Definition r_eom_X1A_8 (z a i : nat) : ex := (EAdd (r_eom_X1A_7 (0 + z) a i) (ESum (0 + z) 0 (ESum (1 + z) 1 (EMul (ET 25 [(0 + z); (1 + z)]) (ET 12 [a; (1 + z); i; (0 + z)]))))).
Definition r_eom_X1A_9 (z a i : nat) : ex := (EAdd (r_eom_X1A_8 (0 + z) a i) (ESum (0 + z) 2 (ESum (1 + z) 3 (EMul (ET 26 [(0 + z); (1 + z)]) (ET 13 [a; (1 + z); i; (0 + z)]))))).
Definition r_eom_X1B (z a i : nat) : ex := (EOpp (ESum (0 + z) 2 (EMul (ET 27 [(0 + z); i]) (ET 11 [a; (0 + z)])))).
Definition r_eom_X1B_1 (z a i : nat) : ex := (EAdd (r_eom_X1B (0 + z) a i) (ESum (0 + z) 3 (EMul (ET 28 [a; (0 + z)]) (ET 11 [(0 + z); i])))).
Definition r_eom_X1B_2 (z a i : nat) : ex := (EAdd (r_eom_X1B_1 (0 + z) a i) (ESum (0 + z) 0 (ESum (1 + z) 1 (EMul (ET 29 [(0 + z); a; (1 + z); i]) (ET 9 [(1 + z); (0 + z)]))))).
Definition r_eom_X1B_3 (z a i : nat) : ex := (EAdd (r_eom_X1B_2 (0 + z) a i) (ESum (0 + z) 2 (ESum (1 + z) 3 (EMul (ET 30 [a; (0 + z); i; (1 + z)]) (ET 11 [(1 + z); (0 + z)]))))).
Definition r_eom_X1B_4 (z a i : nat) : ex := (ESub (r_eom_X1B_3 (0 + z) a i) (ESum (0 + z) 0 (ESum (1 + z) 2 (ESum (2 + z) 1 (EMul (ET 16 [(0 + z); (1 + z); (2 + z); i]) (ET 13 [(2 + z); a; (0 + z); (1 + z)])))))).
Definition r_eom_X1B_5 (z a i : nat) : ex := (ESub (r_eom_X1B_4 (0 + z) a i) (EScale (1) 2 (ESum (0 + z) 2 (ESum (1 + z) 2 (ESum (2 + z) 3 (EMul (ET 17 [(0 + z); (1 + z); i; (2 + z)]) (ET 18 [a; (2 + z); (0 + z); (1 + z)]))))))).
Definition r_eom_X1B_6 (z a i : nat) : ex := (EAdd (r_eom_X1B_5 (0 + z) a i) (ESum (0 + z) 0 (ESum (1 + z) 1 (ESum (2 + z) 3 (EMul (ET 19 [(0 + z); a; (1 + z); (2 + z)]) (ET 13 [(1 + z); (2 + z); (0 + z); i])))))).
Definition r_eom_X1B_7 (z a i : nat) : ex := (EAdd (r_eom_X1B_6 (0 + z) a i) (EScale (1) 2 (ESum (0 + z) 2 (ESum (1 + z) 3 (ESum (2 + z) 3 (EMul (ET 20 [a; (0 + z); (1 + z); (2 + z)]) (ET 18 [(1 + z); (2 + z); i; (0 + z)]))))))).
Definition r_eom_X1B_8 (z a i : nat) : ex := (EAdd (r_eom_X1B_7 (0 + z) a i) (ESum (0 + z) 0 (ESum (1 + z) 1 (EMul (ET 25 [(0 + z); (1 + z)]) (ET 13 [(1 + z); a; (0 + z); i]))))).
Definition r_eom_X1B_9 (z a i : nat) : ex := (EAdd (r_eom_X1B_8 (0 + z) a i) (ESum (0 + z) 2 (ESum (1 + z) 3 (EMul (ET 26 [(0 + z); (1 + z)]) (ET 18 [a; (1 + z); i; (0 + z)]))))).
Definition r_eom_X2A (z a b i j : nat) : ex := (EScale (-1) 2 (ESum (0 + z) 0 (EMul (ET 21 [(0 + z); i]) (ET 12 [a; b; (0 + z); j])))).
Definition r_eom_X2A_1 (z a b i j : nat) : ex := (EAdd (r_eom_X2A (0 + z) a b i j) (EScale (1) 2 (ESum (0 + z) 1 (EMul (ET 22 [a; (0 + z)]) (ET 12 [(0 + z); b; i; j]))))).
Definition r_eom_X2A_2 (z a b i j : nat) : ex := (EAdd (r_eom_X2A_1 (0 + z) a b i j) (EScale (1) 8 (ESum (0 + z) 0 (ESum (1 + z) 0 (EMul (ET 31 [(0 + z); (1 + z); i; j]) (ET 12 [a; b; (0 + z); (1 + z)])))))).
Definition r_eom_X2A_3 (z a b i j : nat) : ex := (EAdd (r_eom_X2A_2 (0 + z) a b i j) (EScale (1) 8 (ESum (0 + z) 1 (ESum (1 + z) 1 (EMul (v_aa (2 + z) a b (0 + z) (1 + z)) (ET 12 [(0 + z); (1 + z); i; j])))))).
Definition r_eom_X2A_4 (z a b i j : nat) : ex := (EAdd (r_eom_X2A_3 (0 + z) a b i j) (ESum (0 + z) 0 (ESum (1 + z) 1 (EMul (ET 23 [a; (0 + z); i; (1 + z)]) (ET 12 [(1 + z); b; (0 + z); j]))))).
Definition r_eom_X2A_5 (z a b i j : nat) : ex := (EAdd (r_eom_X2A_4 (0 + z) a b i j) (ESum (0 + z) 2 (ESum (1 + z) 3 (EMul (ET 24 [a; (0 + z); i; (1 + z)]) (ET 13 [b; (1 + z); j; (0 + z)]))))).
Definition r_eom_X2A_6 (z a b i j : nat) : ex := (ESub (r_eom_X2A_5 (0 + z) a b i j) (EScale (1) 2 (ESum (0 + z) 0 (EMul (ET 32 [b; (0 + z); j; i]) (ET 9 [a; (0 + z)]))))).
Definition r_eom_X2A_7 (z a b i j : nat) : ex := (EAdd (r_eom_X2A_6 (0 + z) a b i j) (EScale (1) 2 (ESum (0 + z) 1 (EMul (ET 33 [b; a; j; (0 + z)]) (ET 9 [(0 + z); i]))))).
Definition r_eom_X2A_8 (z a b i j : nat) : ex := (EAdd (r_eom_X2A_7 (0 + z) a b i j) (EScale (1) 2 (ESum (0 + z) 1 (EMul (r_eom_X_a_vv (1 + z) b (0 + z)) (ET 2 [a; (0 + z); i; j]))))).
Definition r_eom_X2A_9 (z a b i j : nat) : ex := (ESub (r_eom_X2A_8 (0 + z) a b i j) (EScale (1) 2 (ESum (0 + z) 0 (EMul (r_eom_X_a_oo (1 + z) (0 + z) j) (ET 2 [a; b; i; (0 + z)]))))).
Definition r_eom_X2A_10 (z a b i j : nat) : ex := (ESub (r_eom_X2A_9 (0 + z) a b i j) (r_eom_X2A_9 (0 + z) b a i j)).
Definition r_eom_X2A_11 (z a b i j : nat) : ex := (ESub (r_eom_X2A_10 (0 + z) a b i j) (r_eom_X2A_10 (0 + z) a b j i)).
Definition r_eom_X2B (z a b i j : nat) : ex := (ESum (0 + z) 1 (EMul (ET 22 [a; (0 + z)]) (ET 13 [(0 + z); b; i; j]))).
Definition r_eom_X2B_1 (z a b i j : nat) : ex := (EAdd (r_eom_X2B (0 + z) a b i j) (ESum (0 + z) 3 (EMul (ET 28 [b; (0 + z)]) (ET 13 [a; (0 + z); i; j])))).
Definition r_eom_X2B_2 (z a b i j : nat) : ex := (ESub (r_eom_X2B_1 (0 + z) a b i j) (ESum (0 + z) 0 (EMul (ET 21 [(0 + z); i]) (ET 13 [a; b; (0 + z); j])))).
Definition r_eom_X2B_3 (z a b i j : nat) : ex := (ESub (r_eom_X2B_2 (0 + z) a b i j) (ESum (0 + z) 2 (EMul (ET 27 [(0 + z); j]) (ET 13 [a; b; i; (0 + z)])))).
Definition r_eom_X2B_4 (z a b i j : nat) : ex := (EAdd (r_eom_X2B_3 (0 + z) a b i j) (ESum (0 + z) 0 (ESum (1 + z) 2 (EMul (ET 34 [(0 + z); (1 + z); i; j]) (ET 13 [a; b; (0 + z); (1 + z)]))))).
Definition r_eom_X2B_5 (z a b i j : nat) : ex := (EAdd (r_eom_X2B_4 (0 + z) a b i j) (ESum (0 + z) 1 (ESum (1 + z) 3 (EMul (v_ab (2 + z) a b (0 + z) (1 + z)) (ET 13 [(0 + z); (1 + z); i; j]))))).
Definition r_eom_X2B_6 (z a b i j : nat) : ex := (EAdd (r_eom_X2B_5 (0 + z) a b i j) (ESum (0 + z) 0 (ESum (1 + z) 1 (EMul (ET 23 [a; (0 + z); i; (1 + z)]) (ET 13 [(1 + z); b; (0 + z); j]))))).
Definition r_eom_X2B_7 (z a b i j : nat) : ex := (EAdd (r_eom_X2B_6 (0 + z) a b i j) (ESum (0 + z) 2 (ESum (1 + z) 3 (EMul (ET 24 [a; (0 + z); i; (1 + z)]) (ET 18 [(1 + z); b; (0 + z); j]))))).
Definition r_eom_X2B_8 (z a b i j : nat) : ex := (EAdd (r_eom_X2B_7 (0 + z) a b i j) (ESum (0 + z) 0 (ESum (1 + z) 1 (EMul (ET 29 [(0 + z); b; (1 + z); j]) (ET 12 [a; (1 + z); i; (0 + z)]))))).
Definition r_eom_X2B_9 (z a b i j : nat) : ex := (EAdd (r_eom_X2B_8 (0 + z) a b i j) (ESum (0 + z) 2 (ESum (1 + z) 3 (EMul (ET 30 [b; (0 + z); j; (1 + z)]) (ET 13 [a; (1 + z); i; (0 + z)]))))).
Definition r_eom_X2B_10 (z a b i j : nat) : ex := (ESub (r_eom_X2B_9 (0 + z) a b i j) (ESum (0 + z) 0 (ESum (1 + z) 3 (EMul (ET 35 [(0 + z); b; i; (1 + z)]) (ET 13 [a; (1 + z); (0 + z); j]))))).
Definition r_eom_X2B_11 (z a b i j : nat) : ex := (ESub (r_eom_X2B_10 (0 + z) a b i j) (ESum (0 + z) 2 (ESum (1 + z) 1 (EMul (ET 36 [a; (0 + z); (1 + z); j]) (ET 13 [(1 + z); b; i; (0 + z)]))))).
Definition r_eom_X2B_12 (z a b i j : nat) : ex := (EAdd (r_eom_X2B_11 (0 + z) a b i j) (ESum (0 + z) 1 (EMul (ET 37 [a; b; (0 + z); j]) (ET 9 [(0 + z); i])))).
Definition r_eom_X2B_13 (z a b i j : nat) : ex := (EAdd (r_eom_X2B_12 (0 + z) a b i j) (ESum (0 + z) 3 (EMul (ET 38 [a; b; i; (0 + z)]) (ET 11 [(0 + z); j])))).
Definition r_eom_X2B_14 (z a b i j : nat) : ex := (ESub (r_eom_X2B_13 (0 + z) a b i j) (ESum (0 + z) 0 (EMul (ET 39 [(0 + z); b; i; j]) (ET 9 [a; (0 + z)])))).
Definition r_eom_X2B_15 (z a b i j : nat) : ex := (ESub (r_eom_X2B_14 (0 + z) a b i j) (ESum (0 + z) 2 (EMul (ET 40 [a; (0 + z); i; j]) (ET 11 [b; (0 + z)])))).
Definition r_eom_X2B_16 (z a b i j : nat) : ex := (EAdd (r_eom_X2B_15 (0 + z) a b i j) (ESum (0 + z) 1 (EMul (r_eom_X_a_vv (1 + z) a (0 + z)) (ET 5 [(0 + z); b; i; j])))).
Definition r_eom_X2B_17 (z a b i j : nat) : ex := (ESub (r_eom_X2B_16 (0 + z) a b i j) (ESum (0 + z) 0 (EMul (r_eom_X_a_oo (1 + z) (0 + z) i) (ET 5 [a; b; (0 + z); j])))).
Definition r_eom_X2B_18 (z a b i j : nat) : ex := (EAdd (r_eom_X2B_17 (0 + z) a b i j) (ESum (0 + z) 3 (EMul (r_eom_X_b_vv (1 + z) b (0 + z)) (ET 5 [a; (0 + z); i; j])))).
Definition r_eom_X2B_19 (z a b i j : nat) : ex := (ESub (r_eom_X2B_18 (0 + z) a b i j) (ESum (0 + z) 2 (EMul (r_eom_X_b_oo (1 + z) (0 + z) j) (ET 5 [a; b; i; (0 + z)])))).
Definition r_eom_X2C (z a b i j : nat) : ex := (EScale (-1) 2 (ESum (0 + z) 2 (EMul (ET 27 [(0 + z); i]) (ET 18 [a; b; (0 + z); j])))).
Definition r_eom_X2C_1 (z a b i j : nat) : ex := (EAdd (r_eom_X2C (0 + z) a b i j) (EScale (1) 2 (ESum (0 + z) 3 (EMul (ET 28 [a; (0 + z)]) (ET 18 [(0 + z); b; i; j]))))).
Definition r_eom_X2C_2 (z a b i j : nat) : ex := (EAdd (r_eom_X2C_1 (0 + z) a b i j) (EScale (1) 8 (ESum (0 + z) 2 (ESum (1 + z) 2 (EMul (ET 41 [(0 + z); (1 + z); i; j]) (ET 18 [a; b; (0 + z); (1 + z)])))))).
Definition r_eom_X2C_3 (z a b i j : nat) : ex := (EAdd (r_eom_X2C_2 (0 + z) a b i j) (EScale (1) 8 (ESum (0 + z) 3 (ESum (1 + z) 3 (EMul (v_bb (2 + z) a b (0 + z) (1 + z)) (ET 18 [(0 + z); (1 + z); i; j])))))).
Definition r_eom_X2C_4 (z a b i j : nat) : ex := (EAdd (r_eom_X2C_3 (0 + z) a b i j) (ESum (0 + z) 2 (ESum (1 + z) 3 (EMul (ET 30 [a; (0 + z); i; (1 + z)]) (ET 18 [(1 + z); b; (0 + z); j]))))).
Definition r_eom_X2C_5 (z a b i j : nat) : ex := (EAdd (r_eom_X2C_4 (0 + z) a b i j) (ESum (0 + z) 0 (ESum (1 + z) 1 (EMul (ET 29 [(0 + z); a; (1 + z); i]) (ET 13 [(1 + z); b; (0 + z); j]))))).
Definition r_eom_X2C_6 (z a b i j : nat) : ex := (ESub (r_eom_X2C_5 (0 + z) a b i j) (EScale (1) 2 (ESum (0 + z) 2 (EMul (ET 42 [b; (0 + z); j; i]) (ET 11 [a; (0 + z)]))))).
Definition r_eom_X2C_7 (z a b i j : nat) : ex := (EAdd (r_eom_X2C_6 (0 + z) a b i j) (EScale (1) 2 (ESum (0 + z) 3 (EMul (ET 43 [b; a; j; (0 + z)]) (ET 11 [(0 + z); i]))))).
Definition r_eom_X2C_8 (z a b i j : nat) : ex := (EAdd (r_eom_X2C_7 (0 + z) a b i j) (EScale (1) 2 (ESum (0 + z) 3 (EMul (r_eom_X_b_vv (1 + z) b (0 + z)) (ET 7 [a; (0 + z); i; j]))))).
Definition r_eom_X2C_9 (z a b i j : nat) : ex := (ESub (r_eom_X2C_8 (0 + z) a b i j) (EScale (1) 2 (ESum (0 + z) 2 (EMul (r_eom_X_b_oo (1 + z) (0 + z) j) (ET 7 [a; b; i; (0 + z)]))))).
Definition r_eom_X2C_10 (z a b i j : nat) : ex := (ESub (r_eom_X2C_9 (0 + z) a b i j) (r_eom_X2C_9 (0 + z) b a i j)).
Definition r_eom_X2C_11 (z a b i j : nat) : ex := (ESub (r_eom_X2C_10 (0 + z) a b i j) (r_eom_X2C_10 (0 + z) a b j i)).
Definition r_left_X_a_vv (z g e : nat) : ex := (EAdd (EScale (1) 2 (ESum (0 + z) 1 (ESum (1 + z) 0 (ESum (2 + z) 0 (EMul (ET 12 [e; (0 + z); (1 + z); (2 + z)]) (ET 2 [(0 + z); g; (2 + z); (1 + z)])))))) (ESum (0 + z) 3 (ESum (1 + z) 0 (ESum (2 + z) 2 (EMul (ET 13 [e; (0 + z); (1 + z); (2 + z)]) (ET 5 [g; (0 + z); (1 + z); (2 + z)])))))).
Definition r_left_X_a_oo (z m n : nat) : ex := (ESub (EScale (-1) 2 (ESum (0 + z) 1 (ESum (1 + z) 1 (ESum (2 + z) 0 (EMul (ET 12 [(0 + z); (1 + z); m; (2 + z)]) (ET 2 [(0 + z); (1 + z); n; (2 + z)])))))) (ESum (0 + z) 1 (ESum (1 + z) 3 (ESum (2 + z) 2 (EMul (ET 13 [(0 + z); (1 + z); m; (2 + z)]) (ET 5 [(0 + z); (1 + z); n; (2 + z)])))))).
Definition r_left_X_b_vv (z f a : nat) : ex := (EAdd (EScale (1) 2 (ESum (0 + z) 3 (ESum (1 + z) 2 (ESum (2 + z) 2 (EMul (ET 18 [a; (0 + z); (1 + z); (2 + z)]) (ET 7 [f; (0 + z); (1 + z); (2 + z)])))))) (ESum (0 + z) 1 (ESum (1 + z) 0 (ESum (2 + z) 2 (EMul (ET 13 [(0 + z); a; (1 + z); (2 + z)]) (ET 5 [(0 + z); f; (1 + z); (2 + z)])))))).
Definition r_left_X_b_oo (z i n : nat) : ex := (ESub (EScale (-1) 2 (ESum (0 + z) 3 (ESum (1 + z) 3 (ESum (2 + z) 2 (EMul (ET 18 [(0 + z); (1 + z); i; (2 + z)]) (ET 7 [(0 + z); (1 + z); n; (2 + z)])))))) (ESum (0 + z) 1 (ESum (1 + z) 3 (ESum (2 + z) 0 (EMul (ET 13 [(0 + z); (1 + z); (2 + z); i]) (ET 5 [(0 + z); (1 + z); (2 + z); n])))))).
Definition r_left_LH_a (z a i : nat) : ex := (ESum (0 + z) 1 (EMul (ET 22 [(0 + z); a]) (ET 9 [(0 + z); i]))).
Definition r_left_LH_a_1 (z a i : nat) : ex := (ESub (r_left_LH_a (0 + z) a i) (ESum (0 + z) 0 (EMul (ET 21 [i; (0 + z)]) (ET 9 [a; (0 + z)])))).
Definition r_left_LH_a_2 (z a i : nat) : ex := (EAdd (r_left_LH_a_1 (0 + z) a i) (ESum (0 + z) 1 (ESum (1 + z) 0 (EMul (ET 23 [(0 + z); i; (1 + z); a]) (ET 9 [(0 + z); (1 + z)]))))).
Definition r_left_LH_a_3 (z a i : nat) : ex := (EAdd (r_left_LH_a_2 (0 + z) a i) (ESum (0 + z) 3 (ESum (1 + z) 2 (EMul (ET 29 [i; (0 + z); a; (1 + z)]) (ET 11 [(0 + z); (1 + z)]))))).
Definition r_left_LH_a_4 (z a i : nat) : ex := (EAdd (r_left_LH_a_3 (0 + z) a i) (EScale (1) 2 (ESum (0 + z) 1 (ESum (1 + z) 1 (ESum (2 + z) 0 (EMul (ET 33 [(0 + z); (1 + z); (2 + z); a]) (ET 12 [(1 + z); (0 + z); i; (2 + z)]))))))).
Definition r_left_LH_a_5 (z a i : nat) : ex := (EAdd (r_left_LH_a_4 (0 + z) a i) (ESum (0 + z) 1 (ESum (1 + z) 3 (ESum (2 + z) 2 (EMul (ET 37 [(0 + z); (1 + z); a; (2 + z)]) (ET 13 [(0 + z); (1 + z); i; (2 + z)])))))).
Definition r_left_LH_a_6 (z a i : nat) : ex := (ESub (r_left_LH_a_5 (0 + z) a i) (EScale (1) 2 (ESum (0 + z) 1 (ESum (1 + z) 0 (ESum (2 + z) 0 (EMul (ET 32 [(0 + z); i; (1 + z); (2 + z)]) (ET 12 [a; (0 + z); (2 + z); (1 + z)]))))))).
Definition r_left_LH_a_7 (z a i : nat) : ex := (ESub (r_left_LH_a_6 (0 + z) a i) (ESum (0 + z) 3 (ESum (1 + z) 0 (ESum (2 + z) 2 (EMul (ET 39 [i; (0 + z); (1 + z); (2 + z)]) (ET 13 [a; (0 + z); (1 + z); (2 + z)])))))).
Definition r_left_LH_a_8 (z a i : nat) : ex := (EAdd (r_left_LH_a_7 (0 + z) a i) (ESum (0 + z) 1 (ESum (1 + z) 1 (EMul (r_left_X_a_vv (2 + z) (0 + z) (1 + z)) (ET 14 [(1 + z); i; (0 + z); a]))))).
Definition r_left_LH_a_9 (z a i : nat) : ex := (EAdd (r_left_LH_a_8 (0 + z) a i) (ESum (0 + z) 0 (ESum (1 + z) 0 (EMul (r_left_X_a_oo (2 + z) (0 + z) (1 + z)) (ET 8 [(1 + z); i; (0 + z); a]))))).
Definition r_left_LH_a_10 (z a i : nat) : ex := (EAdd (r_left_LH_a_9 (0 + z) a i) (ESum (0 + z) 3 (ESum (1 + z) 3 (EMul (r_left_X_b_vv (2 + z) (0 + z) (1 + z)) (ET 19 [i; (1 + z); a; (0 + z)]))))).
Definition r_left_LH_a_11 (z a i : nat) : ex := (EAdd (r_left_LH_a_10 (0 + z) a i) (ESum (0 + z) 2 (ESum (1 + z) 2 (EMul (r_left_X_b_oo (2 + z) (0 + z) (1 + z)) (ET 16 [i; (1 + z); a; (0 + z)]))))).
Definition r_left_LH_b (z a i : nat) : ex := (ESum (0 + z) 3 (EMul (ET 28 [(0 + z); a]) (ET 11 [(0 + z); i]))).
Definition r_left_LH_b_1 (z a i : nat) : ex := (ESub (r_left_LH_b (0 + z) a i) (ESum (0 + z) 2 (EMul (ET 27 [i; (0 + z)]) (ET 11 [a; (0 + z)])))).
Definition r_left_LH_b_2 (z a i : nat) : ex := (EAdd (r_left_LH_b_1 (0 + z) a i) (ESum (0 + z) 1 (ESum (1 + z) 0 (EMul (ET 24 [(0 + z); i; (1 + z); a]) (ET 9 [(0 + z); (1 + z)]))))).
Definition r_left_LH_b_3 (z a i : nat) : ex := (EAdd (r_left_LH_b_2 (0 + z) a i) (ESum (0 + z) 3 (ESum (1 + z) 2 (EMul (ET 30 [(0 + z); i; (1 + z); a]) (ET 11 [(0 + z); (1 + z)]))))).
Definition r_left_LH_b_4 (z a i : nat) : ex := (ESub (r_left_LH_b_3 (0 + z) a i) (EScale (1) 2 (ESum (0 + z) 3 (ESum (1 + z) 2 (ESum (2 + z) 2 (EMul (ET 42 [(0 + z); i; (1 + z); (2 + z)]) (ET 18 [a; (0 + z); (2 + z); (1 + z)]))))))).
Definition r_left_LH_b_5 (z a i : nat) : ex := (ESub (r_left_LH_b_4 (0 + z) a i) (ESum (0 + z) 1 (ESum (1 + z) 0 (ESum (2 + z) 2 (EMul (ET 40 [(0 + z); i; (1 + z); (2 + z)]) (ET 13 [(0 + z); a; (1 + z); (2 + z)])))))).
Definition r_left_LH_b_6 (z a i : nat) : ex := (EAdd (r_left_LH_b_5 (0 + z) a i) (ESum (0 + z) 1 (ESum (1 + z) 3 (ESum (2 + z) 0 (EMul (ET 38 [(0 + z); (1 + z); (2 + z); a]) (ET 13 [(0 + z); (1 + z); (2 + z); i])))))).
Definition r_left_LH_b_7 (z a i : nat) : ex := (EAdd (r_left_LH_b_6 (0 + z) a i) (EScale (1) 2 (ESum (0 + z) 3 (ESum (1 + z) 3 (ESum (2 + z) 2 (EMul (ET 43 [(0 + z); (1 + z); (2 + z); a]) (ET 18 [(1 + z); (0 + z); i; (2 + z)]))))))).
Definition r_left_LH_b_8 (z a i : nat) : ex := (EAdd (r_left_LH_b_7 (0 + z) a i) (EAdd (ESum (0 + z) 3 (ESum (1 + z) 3 (EMul (r_left_X_b_vv (2 + z) (0 + z) (1 + z)) (ET 20 [(1 + z); i; (0 + z); a])))) (ESum (0 + z) 2 (ESum (1 + z) 2 (EMul (r_left_X_b_oo (2 + z) (0 + z) (1 + z)) (ET 17 [(1 + z); i; (0 + z); a])))))).
Definition r_left_LH_b_9 (z a i : nat) : ex := (EAdd (r_left_LH_b_8 (0 + z) a i) (EAdd (ESum (0 + z) 1 (ESum (1 + z) 1 (EMul (r_left_X_a_vv (2 + z) (0 + z) (1 + z)) (ET 15 [(1 + z); i; (0 + z); a])))) (ESum (0 + z) 0 (ESum (1 + z) 0 (EMul (r_left_X_a_oo (2 + z) (0 + z) (1 + z)) (ET 10 [(1 + z); i; (0 + z); a])))))).
Definition r_left_LH_aa (z a b i j : nat) : ex := (EScale (1) 2 (ESum (0 + z) 1 (EMul (ET 22 [(0 + z); a]) (ET 12 [(0 + z); b; i; j])))).
Definition r_left_LH_aa_1 (z a b i j : nat) : ex := (ESub (r_left_LH_aa (0 + z) a b i j) (EScale (1) 2 (ESum (0 + z) 0 (EMul (ET 21 [i; (0 + z)]) (ET 12 [a; b; (0 + z); j]))))).
Definition r_left_LH_aa_2 (z a b i j : nat) : ex := (EAdd (r_left_LH_aa_1 (0 + z) a b i j) (EMul (ET 25 [j; b]) (ET 9 [a; i]))).
Definition r_left_LH_aa_3 (z a b i j : nat) : ex := (ESub (r_left_LH_aa_2 (0 + z) a b i j) (EScale (1) 2 (ESum (0 + z) 1 (EMul (r_left_X_a_vv (1 + z) (0 + z) a) (ET 1 [i; j; (0 + z); b]))))).
Definition r_left_LH_aa_4 (z a b i j : nat) : ex := (EAdd (r_left_LH_aa_3 (0 + z) a b i j) (EScale (1) 2 (ESum (0 + z) 0 (EMul (r_left_X_a_oo (1 + z) i (0 + z)) (ET 1 [(0 + z); j; a; b]))))).
Definition r_left_LH_aa_5 (z a b i j : nat) : ex := (EAdd (r_left_LH_aa_4 (0 + z) a b i j) (ESum (0 + z) 1 (ESum (1 + z) 0 (EMul (ET 23 [(0 + z); i; (1 + z); a]) (ET 12 [(0 + z); b; (1 + z); j]))))).
Definition r_left_LH_aa_6 (z a b i j : nat) : ex := (EAdd (r_left_LH_aa_5 (0 + z) a b i j) (ESum (0 + z) 3 (ESum (1 + z) 2 (EMul (ET 29 [i; (0 + z); a; (1 + z)]) (ET 13 [b; (0 + z); j; (1 + z)]))))).
Definition r_left_LH_aa_7 (z a b i j : nat) : ex := (EAdd (r_left_LH_aa_6 (0 + z) a b i j) (EScale (1) 8 (ESum (0 + z) 0 (ESum (1 + z) 0 (EMul (ET 31 [i; j; (0 + z); (1 + z)]) (ET 12 [a; b; (0 + z); (1 + z)])))))).
Definition r_left_LH_aa_8 (z a b i j : nat) : ex := (EAdd (r_left_LH_aa_7 (0 + z) a b i j) (EScale (1) 8 (ESum (0 + z) 1 (ESum (1 + z) 1 (EMul (v_aa (2 + z) (0 + z) (1 + z) a b) (ET 12 [(0 + z); (1 + z); i; j])))))).
Definition r_left_LH_aa_9 (z a b i j : nat) : ex := (EAdd (r_left_LH_aa_8 (0 + z) a b i j) (EScale (1) 2 (ESum (0 + z) 1 (EMul (ET 14 [(0 + z); j; a; b]) (ET 9 [(0 + z); i]))))).
Definition r_left_LH_aa_10 (z a b i j : nat) : ex := (ESub (r_left_LH_aa_9 (0 + z) a b i j) (EScale (1) 2 (ESum (0 + z) 0 (EMul (ET 8 [i; j; (0 + z); b]) (ET 9 [a; (0 + z)]))))).
Definition r_left_LH_aa_11 (z a b i j : nat) : ex := (ESub (r_left_LH_aa_10 (0 + z) a b i j) (ESub (EAdd (r_left_LH_aa_10 (0 + z) b a i j) (r_left_LH_aa_10 (0 + z) a b j i)) (r_left_LH_aa_10 (0 + z) b a j i))).
Definition r_left_LH_ab (z a b i j : nat) : ex := (EOpp (ESum (0 + z) 0 (EMul (ET 10 [i; j; (0 + z); b]) (ET 9 [a; (0 + z)])))).
Definition r_left_LH_ab_1 (z a b i j : nat) : ex := (ESub (r_left_LH_ab (0 + z) a b i j) (ESum (0 + z) 2 (EMul (ET 16 [i; j; a; (0 + z)]) (ET 11 [b; (0 + z)])))).
Definition r_left_LH_ab_2 (z a b i j : nat) : ex := (EAdd (r_left_LH_ab_1 (0 + z) a b i j) (ESum (0 + z) 1 (EMul (ET 15 [(0 + z); j; a; b]) (ET 9 [(0 + z); i])))).
Definition r_left_LH_ab_3 (z a b i j : nat) : ex := (EAdd (r_left_LH_ab_2 (0 + z) a b i j) (ESum (0 + z) 3 (EMul (ET 19 [i; (0 + z); a; b]) (ET 11 [(0 + z); j])))).
Definition r_left_LH_ab_4 (z a b i j : nat) : ex := (EAdd (r_left_LH_ab_3 (0 + z) a b i j) (ESum (0 + z) 0 (ESum (1 + z) 2 (EMul (ET 34 [i; j; (0 + z); (1 + z)]) (ET 13 [a; b; (0 + z); (1 + z)]))))).
Definition r_left_LH_ab_5 (z a b i j : nat) : ex := (EAdd (r_left_LH_ab_4 (0 + z) a b i j) (ESum (0 + z) 1 (ESum (1 + z) 3 (EMul (v_ab (2 + z) (0 + z) (1 + z) a b) (ET 13 [(0 + z); (1 + z); i; j]))))).
Definition r_left_LH_ab_6 (z a b i j : nat) : ex := (EAdd (r_left_LH_ab_5 (0 + z) a b i j) (ESum (0 + z) 1 (ESum (1 + z) 0 (EMul (ET 24 [(0 + z); j; (1 + z); b]) (ET 12 [a; (0 + z); i; (1 + z)]))))).
Definition r_left_LH_ab_7 (z a b i j : nat) : ex := (EAdd (r_left_LH_ab_6 (0 + z) a b i j) (ESum (0 + z) 1 (ESum (1 + z) 0 (EMul (ET 23 [(0 + z); i; (1 + z); a]) (ET 13 [(0 + z); b; (1 + z); j]))))).
Definition r_left_LH_ab_8 (z a b i j : nat) : ex := (EAdd (r_left_LH_ab_7 (0 + z) a b i j) (ESum (0 + z) 3 (ESum (1 + z) 2 (EMul (ET 30 [(0 + z); j; (1 + z); b]) (ET 13 [a; (0 + z); i; (1 + z)]))))).
Definition r_left_LH_ab_9 (z a b i j : nat) : ex := (EAdd (r_left_LH_ab_8 (0 + z) a b i j) (ESum (0 + z) 3 (ESum (1 + z) 2 (EMul (ET 29 [i; (0 + z); a; (1 + z)]) (ET 18 [(0 + z); b; (1 + z); j]))))).
Definition r_left_LH_ab_10 (z a b i j : nat) : ex := (ESub (r_left_LH_ab_9 (0 + z) a b i j) (ESum (0 + z) 3 (ESum (1 + z) 0 (EMul (ET 35 [i; (0 + z); (1 + z); b]) (ET 13 [a; (0 + z); (1 + z); j]))))).
Definition r_left_LH_ab_11 (z a b i j : nat) : ex := (ESub (r_left_LH_ab_10 (0 + z) a b i j) (ESum (0 + z) 1 (ESum (1 + z) 2 (EMul (ET 36 [(0 + z); j; a; (1 + z)]) (ET 13 [(0 + z); b; i; (1 + z)]))))).
Definition r_left_LH_ab_12 (z a b i j : nat) : ex := (ESub (r_left_LH_ab_11 (0 + z) a b i j) (ESum (0 + z) 1 (EMul (r_left_X_a_vv (1 + z) (0 + z) a) (ET 4 [i; j; (0 + z); b])))).
Definition r_left_LH_ab_13 (z a b i j : nat) : ex := (EAdd (r_left_LH_ab_12 (0 + z) a b i j) (ESum (0 + z) 0 (EMul (r_left_X_a_oo (1 + z) i (0 + z)) (ET 4 [(0 + z); j; a; b])))).
Definition r_left_LH_ab_14 (z a b i j : nat) : ex := (ESub (r_left_LH_ab_13 (0 + z) a b i j) (ESum (0 + z) 3 (EMul (r_left_X_b_vv (1 + z) (0 + z) b) (ET 4 [i; j; a; (0 + z)])))).
Definition r_left_LH_ab_15 (z a b i j : nat) : ex := (EAdd (r_left_LH_ab_14 (0 + z) a b i j) (ESum (0 + z) 2 (EMul (r_left_X_b_oo (1 + z) j (0 + z)) (ET 4 [i; (0 + z); a; b])))).
Definition r_left_LH_ab_16 (z a b i j : nat) : ex := (EAdd (r_left_LH_ab_15 (0 + z) a b i j) (ESum (0 + z) 1 (EMul (ET 22 [(0 + z); a]) (ET 13 [(0 + z); b; i; j])))).
Definition r_left_LH_ab_17 (z a b i j : nat) : ex := (EAdd (r_left_LH_ab_16 (0 + z) a b i j) (ESum (0 + z) 3 (EMul (ET 28 [(0 + z); b]) (ET 13 [a; (0 + z); i; j])))).
Definition r_left_LH_ab_18 (z a b i j : nat) : ex := (ESub (r_left_LH_ab_17 (0 + z) a b i j) (ESum (0 + z) 0 (EMul (ET 21 [i; (0 + z)]) (ET 13 [a; b; (0 + z); j])))).
Definition r_left_LH_ab_19 (z a b i j : nat) : ex := (ESub (r_left_LH_ab_18 (0 + z) a b i j) (ESum (0 + z) 2 (EMul (ET 27 [j; (0 + z)]) (ET 13 [a; b; i; (0 + z)])))).
Definition r_left_LH_ab_20 (z a b i j : nat) : ex := (EAdd (r_left_LH_ab_19 (0 + z) a b i j) (EMul (ET 26 [j; b]) (ET 9 [a; i]))).
Definition r_left_LH_ab_21 (z a b i j : nat) : ex := (EAdd (r_left_LH_ab_20 (0 + z) a b i j) (EMul (ET 25 [i; a]) (ET 11 [b; j]))).
Definition r_left_LH_bb (z a b i j : nat) : ex := (EScale (1) 2 (ESum (0 + z) 3 (EMul (ET 28 [(0 + z); a]) (ET 18 [(0 + z); b; i; j])))).
Definition r_left_LH_bb_1 (z a b i j : nat) : ex := (ESub (r_left_LH_bb (0 + z) a b i j) (EScale (1) 2 (ESum (0 + z) 2 (EMul (ET 27 [i; (0 + z)]) (ET 18 [a; b; (0 + z); j]))))).
Definition r_left_LH_bb_2 (z a b i j : nat) : ex := (EAdd (r_left_LH_bb_1 (0 + z) a b i j) (EMul (ET 26 [j; b]) (ET 11 [a; i]))).
Definition r_left_LH_bb_3 (z a b i j : nat) : ex := (ESub (r_left_LH_bb_2 (0 + z) a b i j) (EScale (1) 2 (ESum (0 + z) 3 (EMul (r_left_X_b_vv (1 + z) (0 + z) a) (ET 6 [i; j; (0 + z); b]))))).
Definition r_left_LH_bb_4 (z a b i j : nat) : ex := (EAdd (r_left_LH_bb_3 (0 + z) a b i j) (EScale (1) 2 (ESum (0 + z) 2 (EMul (r_left_X_b_oo (1 + z) i (0 + z)) (ET 6 [(0 + z); j; a; b]))))).
Definition r_left_LH_bb_5 (z a b i j : nat) : ex := (EAdd (r_left_LH_bb_4 (0 + z) a b i j) (ESum (0 + z) 3 (ESum (1 + z) 2 (EMul (ET 30 [(0 + z); i; (1 + z); a]) (ET 18 [(0 + z); b; (1 + z); j]))))).
Definition r_left_LH_bb_6 (z a b i j : nat) : ex := (EAdd (r_left_LH_bb_5 (0 + z) a b i j) (ESum (0 + z) 1 (ESum (1 + z) 0 (EMul (ET 24 [(0 + z); i; (1 + z); a]) (ET 13 [(0 + z); b; (1 + z); j]))))).
Definition r_left_LH_bb_7 (z a b i j : nat) : ex := (EAdd (r_left_LH_bb_6 (0 + z) a b i j) (EScale (1) 8 (ESum (0 + z) 2 (ESum (1 + z) 2 (EMul (ET 41 [i; j; (0 + z); (1 + z)]) (ET 18 [a; b; (0 + z); (1 + z)])))))).
Definition r_left_LH_bb_8 (z a b i j : nat) : ex := (EAdd (r_left_LH_bb_7 (0 + z) a b i j) (EScale (1) 8 (ESum (0 + z) 3 (ESum (1 + z) 3 (EMul (v_bb (2 + z) (0 + z) (1 + z) a b) (ET 18 [(0 + z); (1 + z); i; j])))))).
Definition r_left_LH_bb_9 (z a b i j : nat) : ex := (EAdd (r_left_LH_bb_8 (0 + z) a b i j) (EScale (1) 2 (ESum (0 + z) 3 (EMul (ET 20 [(0 + z); j; a; b]) (ET 11 [(0 + z); i]))))).
Definition r_left_LH_bb_10 (z a b i j : nat) : ex := (ESub (r_left_LH_bb_9 (0 + z) a b i j) (EScale (1) 2 (ESum (0 + z) 2 (EMul (ET 17 [i; j; (0 + z); b]) (ET 11 [a; (0 + z)]))))).
Definition r_left_LH_bb_11 (z a b i j : nat) : ex := (ESub (r_left_LH_bb_10 (0 + z) a b i j) (ESub (EAdd (r_left_LH_bb_10 (0 + z) b a i j) (r_left_LH_bb_10 (0 + z) a b j i)) (r_left_LH_bb_10 (0 + z) b a j i))).
Definition r_cfeom_X_a_oo (z m j : nat) : ex := (EAdd (EAdd (EAdd (ESum (0 + z) 0 (ESum (1 + z) 1 (EMul (ET 8 [m; (0 + z); j; (1 + z)]) (ET 9 [(1 + z); (0 + z)])))) (ESum (0 + z) 2 (ESum (1 + z) 3 (EMul (ET 10 [m; (0 + z); j; (1 + z)]) (ET 11 [(1 + z); (0 + z)]))))) (EScale (1) 2 (ESum (0 + z) 0 (ESum (1 + z) 1 (ESum (2 + z) 1 (EMul (ET 1 [m; (0 + z); (1 + z); (2 + z)]) (ET 12 [(1 + z); (2 + z); j; (0 + z)]))))))) (ESum (0 + z) 2 (ESum (1 + z) 1 (ESum (2 + z) 3 (EMul (ET 4 [m; (0 + z); (1 + z); (2 + z)]) (ET 13 [(1 + z); (2 + z); j; (0 + z)])))))).
Definition r_cfeom_X_a_vv (z b e : nat) : ex := (ESub (ESub (EAdd (ESum (0 + z) 0 (ESum (1 + z) 1 (EMul (ET 14 [b; (0 + z); e; (1 + z)]) (ET 9 [(1 + z); (0 + z)])))) (ESum (0 + z) 2 (ESum (1 + z) 3 (EMul (ET 15 [b; (0 + z); e; (1 + z)]) (ET 11 [(1 + z); (0 + z)]))))) (EScale (1) 2 (ESum (0 + z) 0 (ESum (1 + z) 0 (ESum (2 + z) 1 (EMul (ET 1 [(0 + z); (1 + z); e; (2 + z)]) (ET 12 [b; (2 + z); (0 + z); (1 + z)]))))))) (ESum (0 + z) 0 (ESum (1 + z) 2 (ESum (2 + z) 3 (EMul (ET 4 [(0 + z); (1 + z); e; (2 + z)]) (ET 13 [b; (2 + z); (0 + z); (1 + z)])))))).
Definition r_cfeom_X_b_oo (z m k : nat) : ex := (EAdd (EAdd (EAdd (ESum (0 + z) 0 (ESum (1 + z) 1 (EMul (ET 16 [(0 + z); m; (1 + z); k]) (ET 9 [(1 + z); (0 + z)])))) (ESum (0 + z) 2 (ESum (1 + z) 3 (EMul (ET 17 [m; (0 + z); k; (1 + z)]) (ET 11 [(1 + z); (0 + z)]))))) (ESum (0 + z) 0 (ESum (1 + z) 1 (ESum (2 + z) 3 (EMul (ET 4 [(0 + z); m; (1 + z); (2 + z)]) (ET 13 [(1 + z); (2 + z); (0 + z); k])))))) (EScale (1) 2 (ESum (0 + z) 2 (ESum (1 + z) 3 (ESum (2 + z) 3 (EMul (ET 6 [m; (0 + z); (1 + z); (2 + z)]) (ET 18 [(1 + z); (2 + z); k; (0 + z)]))))))).
Definition r_cfeom_X_b_vv (z c e : nat) : ex := (ESub (ESub (EAdd (ESum (0 + z) 0 (ESum (1 + z) 1 (EMul (ET 19 [(0 + z); c; (1 + z); e]) (ET 9 [(1 + z); (0 + z)])))) (ESum (0 + z) 2 (ESum (1 + z) 3 (EMul (ET 20 [c; (0 + z); e; (1 + z)]) (ET 11 [(1 + z); (0 + z)]))))) (EScale (1) 1 (ESum (0 + z) 0 (ESum (1 + z) 2 (ESum (2 + z) 1 (EMul (ET 4 [(0 + z); (1 + z); (2 + z); e]) (ET 13 [(2 + z); c; (0 + z); (1 + z)]))))))) (EScale (1) 2 (ESum (0 + z) 2 (ESum (1 + z) 2 (ESum (2 + z) 3 (EMul (ET 6 [(0 + z); (1 + z); e; (2 + z)]) (ET 18 [(2 + z); c; (1 + z); (0 + z)]))))))).
Definition r_cfeom_X_aa_oooo (z m n i j : nat) : ex := (EScale (1) 2 (ESum (0 + z) 1 (ESum (1 + z) 1 (EMul (ET 1 [m; n; (0 + z); (1 + z)]) (ET 12 [(0 + z); (1 + z); i; j]))))).
Definition r_cfeom_X_ab_oooo (z m n i j : nat) : ex := (ESum (0 + z) 1 (ESum (1 + z) 3 (EMul (ET 4 [m; n; (0 + z); (1 + z)]) (ET 13 [(0 + z); (1 + z); i; j])))).
Definition r_cfeom_X_bb_oooo (z m n i j : nat) : ex := (EScale (1) 2 (ESum (0 + z) 3 (ESum (1 + z) 3 (EMul (ET 6 [m; n; (0 + z); (1 + z)]) (ET 18 [(0 + z); (1 + z); i; j]))))).
Definition r_cfeom_X1A (z a i : nat) : ex := (EOpp (ESum (0 + z) 0 (EMul (ET 21 [(0 + z); i]) (ET 9 [a; (0 + z)])))).
Definition r_cfeom_X1A_1 (z a i : nat) : ex := (EAdd (r_cfeom_X1A (0 + z) a i) (ESum (0 + z) 1 (EMul (ET 22 [a; (0 + z)]) (ET 9 [(0 + z); i])))).
Definition r_cfeom_X1A_2 (z a i : nat) : ex := (EAdd (r_cfeom_X1A_1 (0 + z) a i) (ESum (0 + z) 0 (ESum (1 + z) 1 (EMul (ET 23 [a; (0 + z); i; (1 + z)]) (ET 9 [(1 + z); (0 + z)]))))).
Definition r_cfeom_X1A_3 (z a i : nat) : ex := (EAdd (r_cfeom_X1A_2 (0 + z) a i) (ESum (0 + z) 2 (ESum (1 + z) 3 (EMul (ET 24 [a; (0 + z); i; (1 + z)]) (ET 11 [(1 + z); (0 + z)]))))).
Definition r_cfeom_X1A_4 (z a i : nat) : ex := (ESub (r_cfeom_X1A_3 (0 + z) a i) (EScale (1) 2 (ESum (0 + z) 0 (ESum (1 + z) 0 (ESum (2 + z) 1 (EMul (ET 8 [(0 + z); (1 + z); i; (2 + z)]) (ET 12 [a; (2 + z); (0 + z); (1 + z)]))))))).
Definition r_cfeom_X1A_5 (z a i : nat) : ex := (ESub (r_cfeom_X1A_4 (0 + z) a i) (ESum (0 + z) 0 (ESum (1 + z) 2 (ESum (2 + z) 3 (EMul (ET 10 [(0 + z); (1 + z); i; (2 + z)]) (ET 13 [a; (2 + z); (0 + z); (1 + z)])))))).
Definition r_cfeom_X1A_6 (z a i : nat) : ex := (EAdd (r_cfeom_X1A_5 (0 + z) a i) (EScale (1) 2 (ESum (0 + z) 0 (ESum (1 + z) 1 (ESum (2 + z) 1 (EMul (ET 14 [a; (0 + z); (1 + z); (2 + z)]) (ET 12 [(1 + z); (2 + z); i; (0 + z)]))))))).
Definition r_cfeom_X1A_7 (z a i : nat) : ex := (EAdd (r_cfeom_X1A_6 (0 + z) a i) (ESum (0 + z) 2 (ESum (1 + z) 1 (ESum (2 + z) 3 (EMul (ET 15 [a; (0 + z); (1 + z); (2 + z)]) (ET 13 [(1 + z); (2 + z); i; (0 + z)])))))).
Definition r_cfeom_X1A_8 (z a i : nat) : ex := (EAdd (r_cfeom_X1A_7 (0 + z) a i) (ESum (0 + z) 0 (ESum (1 + z) 1 (EMul (ET 25 [(0 + z); (1 + z)]) (ET 12 [a; (1 + z); i; (0 + z)]))))).
Definition r_cfeom_X1A_9 (z a i : nat) : ex := (EAdd (r_cfeom_X1A_8 (0 + z) a i) (ESum (0 + z) 2 (ESum (1 + z) 3 (EMul (ET 26 [(0 + z); (1 + z)]) (ET 13 [a; (1 + z); i; (0 + z)]))))).
Definition r_cfeom_X1B (z a i : nat) : ex := (EOpp (ESum (0 + z) 2 (EMul (ET 27 [(0 + z); i]) (ET 11 [a; (0 + z)])))).
Definition r_cfeom_X1B_1 (z a i : nat) : ex := (EAdd (r_cfeom_X1B (0 + z) a i) (ESum (0 + z) 3 (EMul (ET 28 [a; (0 + z)]) (ET 11 [(0 + z); i])))).
Definition r_cfeom_X1B_2 (z a i : nat) : ex := (EAdd (r_cfeom_X1B_1 (0 + z) a i) (ESum (0 + z) 0 (ESum (1 + z) 1 (EMul (ET 29 [(0 + z); a; (1 + z); i]) (ET 9 [(1 + z); (0 + z)]))))).
Definition r_cfeom_X1B_3 (z a i : nat) : ex := (EAdd (r_cfeom_X1B_2 (0 + z) a i) (ESum (0 + z) 2 (ESum (1 + z) 3 (EMul (ET 30 [a; (0 + z); i; (1 + z)]) (ET 11 [(1 + z); (0 + z)]))))).
Definition r_cfeom_X1B_4 (z a i : nat) : ex := (ESub (r_cfeom_X1B_3 (0 + z) a i) (ESum (0 + z) 0 (ESum (1 + z) 2 (ESum (2 + z) 1 (EMul (ET 16 [(0 + z); (1 + z); (2 + z); i]) (ET 13 [(2 + z); a; (0 + z); (1 + z)])))))).
Definition r_cfeom_X1B_5 (z a i : nat) : ex := (ESub (r_cfeom_X1B_4 (0 + z) a i) (EScale (1) 2 (ESum (0 + z) 2 (ESum (1 + z) 2 (ESum (2 + z) 3 (EMul (ET 17 [(0 + z); (1 + z); i; (2 + z)]) (ET 18 [a; (2 + z); (0 + z); (1 + z)]))))))).
Definition r_cfeom_X1B_6 (z a i : nat) : ex := (EAdd (r_cfeom_X1B_5 (0 + z) a i) (ESum (0 + z) 0 (ESum (1 + z) 1 (ESum (2 + z) 3 (EMul (ET 19 [(0 + z); a; (1 + z); (2 + z)]) (ET 13 [(1 + z); (2 + z); (0 + z); i])))))).
Definition r_cfeom_X1B_7 (z a i : nat) : ex := (EAdd (r_cfeom_X1B_6 (0 + z) a i) (EScale (1) 2 (ESum (0 + z) 2 (ESum (1 + z) 3 (ESum (2 + z) 3 (EMul (ET 20 [a; (0 + z); (1 + z); (2 + z)]) (ET 18 [(1 + z); (2 + z); i; (0 + z)]))))))).
Definition r_cfeom_X1B_8 (z a i : nat) : ex := (EAdd (r_cfeom_X1B_7 (0 + z) a i) (ESum (0 + z) 0 (ESum (1 + z) 1 (EMul (ET 25 [(0 + z); (1 + z)]) (ET 13 [(1 + z); a; (0 + z); i]))))).
Definition r_cfeom_X1B_9 (z a i : nat) : ex := (EAdd (r_cfeom_X1B_8 (0 + z) a i) (ESum (0 + z) 2 (ESum (1 + z) 3 (EMul (ET 26 [(0 + z); (1 + z)]) (ET 18 [a; (1 + z); i; (0 + z)]))))).
Definition r_cfeom_X2A (z a b i j : nat) : ex := (EScale (-1) 2 (ESum (0 + z) 0 (EMul (ET 21 [(0 + z); i]) (ET 12 [a; b; (0 + z); j])))).
Definition r_cfeom_X2A_1 (z a b i j : nat) : ex := (EAdd (r_cfeom_X2A (0 + z) a b i j) (EScale (1) 2 (ESum (0 + z) 1 (EMul (ET 22 [a; (0 + z)]) (ET 12 [(0 + z); b; i; j]))))).
Definition r_cfeom_X2A_2 (z a b i j : nat) : ex := (EAdd (r_cfeom_X2A_1 (0 + z) a b i j) (EScale (1) 8 (ESum (0 + z) 0 (ESum (1 + z) 0 (EMul (ET 31 [(0 + z); (1 + z); i; j]) (ET 12 [a; b; (0 + z); (1 + z)])))))).
Definition r_cfeom_X2A_3 (z a b i j : nat) : ex := (EAdd (r_cfeom_X2A_2 (0 + z) a b i j) (EScale (1) 8 (ESum (0 + z) 0 (ESum (1 + z) 0 (EMul (r_cfeom_X_aa_oooo (2 + z) (0 + z) (1 + z) i j) (ET 2 [a; b; (0 + z); (1 + z)])))))).
Definition r_cfeom_vR (z a b c : nat) : ex := (ET 0 [a; c; b]).
Definition r_cfeom_vT (z i j a b : nat) : ex := (EScale (1) 2 (ET 12 [b; a; j; i])).
Definition r_cfeom_X2A_4 (z a b i j : nat) : ex := (EAdd (r_cfeom_X2A_3 (0 + z) a b i j) (EScale (1) 4 (ESum (0 + z) 1 (ESum (1 + z) 1 (EMul (ESum (2 + z) 4 (ESub (EMul (r_cfeom_vR (3 + z) (2 + z) (1 + z) b) (r_cfeom_vR (3 + z) (2 + z) (0 + z) a)) (EMul (r_cfeom_vR (3 + z) (2 + z) (0 + z) b) (r_cfeom_vR (3 + z) (2 + z) (1 + z) a)))) (r_cfeom_vT (3 + z) j i (1 + z) (0 + z))))))).
Definition r_cfeom_X2A_5 (z a b i j : nat) : ex := (EAdd (r_cfeom_X2A_4 (0 + z) a b i j) (ESum (0 + z) 0 (ESum (1 + z) 1 (EMul (ET 23 [a; (0 + z); i; (1 + z)]) (ET 12 [(1 + z); b; (0 + z); j]))))).
Definition r_cfeom_X2A_6 (z a b i j : nat) : ex := (EAdd (r_cfeom_X2A_5 (0 + z) a b i j) (ESum (0 + z) 2 (ESum (1 + z) 3 (EMul (ET 24 [a; (0 + z); i; (1 + z)]) (ET 13 [b; (1 + z); j; (0 + z)]))))).
Definition r_cfeom_X2A_7 (z a b i j : nat) : ex := (ESub (r_cfeom_X2A_6 (0 + z) a b i j) (EScale (1) 2 (ESum (0 + z) 0 (EMul (ET 32 [b; (0 + z); j; i]) (ET 9 [a; (0 + z)]))))).
Definition r_cfeom_X2A_8 (z a b i j : nat) : ex := (EAdd (r_cfeom_X2A_7 (0 + z) a b i j) (EScale (1) 2 (ESum (0 + z) 1 (EMul (ET 33 [b; a; j; (0 + z)]) (ET 9 [(0 + z); i]))))).
Definition r_cfeom_X2A_9 (z a b i j : nat) : ex := (EAdd (r_cfeom_X2A_8 (0 + z) a b i j) (EScale (1) 2 (ESum (0 + z) 1 (EMul (r_cfeom_X_a_vv (1 + z) b (0 + z)) (ET 2 [a; (0 + z); i; j]))))).
Definition r_cfeom_X2A_10 (z a b i j : nat) : ex := (ESub (r_cfeom_X2A_9 (0 + z) a b i j) (EScale (1) 2 (ESum (0 + z) 0 (EMul (r_cfeom_X_a_oo (1 + z) (0 + z) j) (ET 2 [a; b; i; (0 + z)]))))).
Definition r_cfeom_X2A_11 (z a b i j : nat) : ex := (ESub (r_cfeom_X2A_10 (0 + z) a b i j) (r_cfeom_X2A_10 (0 + z) b a i j)).
Definition r_cfeom_X2A_12 (z a b i j : nat) : ex := (ESub (r_cfeom_X2A_11 (0 + z) a b i j) (r_cfeom_X2A_11 (0 + z) a b j i)).
Definition r_cfeom_X2B (z a b i j : nat) : ex := (ESum (0 + z) 1 (EMul (ET 22 [a; (0 + z)]) (ET 13 [(0 + z); b; i; j]))).
Definition r_cfeom_X2B_1 (z a b i j : nat) : ex := (EAdd (r_cfeom_X2B (0 + z) a b i j) (ESum (0 + z) 3 (EMul (ET 28 [b; (0 + z)]) (ET 13 [a; (0 + z); i; j])))).
Definition r_cfeom_X2B_2 (z a b i j : nat) : ex := (ESub (r_cfeom_X2B_1 (0 + z) a b i j) (ESum (0 + z) 0 (EMul (ET 21 [(0 + z); i]) (ET 13 [a; b; (0 + z); j])))).
Definition r_cfeom_X2B_3 (z a b i j : nat) : ex := (ESub (r_cfeom_X2B_2 (0 + z) a b i j) (ESum (0 + z) 2 (EMul (ET 27 [(0 + z); j]) (ET 13 [a; b; i; (0 + z)])))).
Definition r_cfeom_X2B_4 (z a b i j : nat) : ex := (EAdd (r_cfeom_X2B_3 (0 + z) a b i j) (ESum (0 + z) 0 (ESum (1 + z) 2 (EMul (ET 34 [(0 + z); (1 + z); i; j]) (ET 13 [a; b; (0 + z); (1 + z)]))))).
Definition r_cfeom_X2B_5 (z a b i j : nat) : ex := (EAdd (r_cfeom_X2B_4 (0 + z) a b i j) (ESum (0 + z) 0 (ESum (1 + z) 2 (EMul (r_cfeom_X_ab_oooo (2 + z) (0 + z) (1 + z) i j) (ET 5 [a; b; (0 + z); (1 + z)]))))).
Definition r_cfeom_vRa (z a b c : nat) : ex := (ET 0 [a; c; b]).
Definition r_cfeom_vRb (z a b c : nat) : ex := (ET 3 [a; c; b]).
Definition r_cfeom_vT_1 (z i j a b : nat) : ex := (ET 13 [b; a; j; i]).
Definition r_cfeom_X2B_6 (z a b i j : nat) : ex := (EAdd (r_cfeom_X2B_5 (0 + z) a b i j) (ESum (0 + z) 1 (ESum (1 + z) 3 (EMul (ESum (2 + z) 4 (EMul (r_cfeom_vRb (3 + z) (2 + z) (1 + z) b) (r_cfeom_vRa (3 + z) (2 + z) (0 + z) a))) (r_cfeom_vT_1 (3 + z) j i (1 + z) (0 + z)))))).
Definition r_cfeom_X2B_7 (z a b i j : nat) : ex := (EAdd (r_cfeom_X2B_6 (0 + z) a b i j) (ESum (0 + z) 0 (ESum (1 + z) 1 (EMul (ET 23 [a; (0 + z); i; (1 + z)]) (ET 13 [(1 + z); b; (0 + z); j]))))).
Definition r_cfeom_X2B_8 (z a b i j : nat) : ex := (EAdd (r_cfeom_X2B_7 (0 + z) a b i j) (ESum (0 + z) 2 (ESum (1 + z) 3 (EMul (ET 24 [a; (0 + z); i; (1 + z)]) (ET 18 [(1 + z); b; (0 + z); j]))))).
Definition r_cfeom_X2B_9 (z a b i j : nat) : ex := (EAdd (r_cfeom_X2B_8 (0 + z) a b i j) (ESum (0 + z) 0 (ESum (1 + z) 1 (EMul (ET 29 [(0 + z); b; (1 + z); j]) (ET 12 [a; (1 + z); i; (0 + z)]))))).
Definition r_cfeom_X2B_10 (z a b i j : nat) : ex := (EAdd (r_cfeom_X2B_9 (0 + z) a b i j) (ESum (0 + z) 2 (ESum (1 + z) 3 (EMul (ET 30 [b; (0 + z); j; (1 + z)]) (ET 13 [a; (1 + z); i; (0 + z)]))))).
Definition r_cfeom_X2B_11 (z a b i j : nat) : ex := (ESub (r_cfeom_X2B_10 (0 + z) a b i j) (ESum (0 + z) 0 (ESum (1 + z) 3 (EMul (ET 35 [(0 + z); b; i; (1 + z)]) (ET 13 [a; (1 + z); (0 + z); j]))))).
Definition r_cfeom_X2B_12 (z a b i j : nat) : ex := (ESub (r_cfeom_X2B_11 (0 + z) a b i j) (ESum (0 + z) 2 (ESum (1 + z) 1 (EMul (ET 36 [a; (0 + z); (1 + z); j]) (ET 13 [(1 + z); b; i; (0 + z)]))))).
Definition r_cfeom_X2B_13 (z a b i j : nat) : ex := (EAdd (r_cfeom_X2B_12 (0 + z) a b i j) (ESum (0 + z) 1 (EMul (ET 37 [a; b; (0 + z); j]) (ET 9 [(0 + z); i])))).
Definition r_cfeom_X2B_14 (z a b i j : nat) : ex := (EAdd (r_cfeom_X2B_13 (0 + z) a b i j) (ESum (0 + z) 3 (EMul (ET 38 [a; b; i; (0 + z)]) (ET 11 [(0 + z); j])))).
Definition r_cfeom_X2B_15 (z a b i j : nat) : ex := (ESub (r_cfeom_X2B_14 (0 + z) a b i j) (ESum (0 + z) 0 (EMul (ET 39 [(0 + z); b; i; j]) (ET 9 [a; (0 + z)])))).
Definition r_cfeom_X2B_16 (z a b i j : nat) : ex := (ESub (r_cfeom_X2B_15 (0 + z) a b i j) (ESum (0 + z) 2 (EMul (ET 40 [a; (0 + z); i; j]) (ET 11 [b; (0 + z)])))).
Definition r_cfeom_X2B_17 (z a b i j : nat) : ex := (EAdd (r_cfeom_X2B_16 (0 + z) a b i j) (ESum (0 + z) 1 (EMul (r_cfeom_X_a_vv (1 + z) a (0 + z)) (ET 5 [(0 + z); b; i; j])))).
Definition r_cfeom_X2B_18 (z a b i j : nat) : ex := (ESub (r_cfeom_X2B_17 (0 + z) a b i j) (ESum (0 + z) 0 (EMul (r_cfeom_X_a_oo (1 + z) (0 + z) i) (ET 5 [a; b; (0 + z); j])))).
Definition r_cfeom_X2B_19 (z a b i j : nat) : ex := (EAdd (r_cfeom_X2B_18 (0 + z) a b i j) (ESum (0 + z) 3 (EMul (r_cfeom_X_b_vv (1 + z) b (0 + z)) (ET 5 [a; (0 + z); i; j])))).
Definition r_cfeom_X2B_20 (z a b i j : nat) : ex := (ESub (r_cfeom_X2B_19 (0 + z) a b i j) (ESum (0 + z) 2 (EMul (r_cfeom_X_b_oo (1 + z) (0 + z) j) (ET 5 [a; b; i; (0 + z)])))).
Definition r_cfeom_X2C (z a b i j : nat) : ex := (EScale (-1) 2 (ESum (0 + z) 2 (EMul (ET 27 [(0 + z); i]) (ET 18 [a; b; (0 + z); j])))).
Definition r_cfeom_X2C_1 (z a b i j : nat) : ex := (EAdd (r_cfeom_X2C (0 + z) a b i j) (EScale (1) 2 (ESum (0 + z) 3 (EMul (ET 28 [a; (0 + z)]) (ET 18 [(0 + z); b; i; j]))))).
Definition r_cfeom_X2C_2 (z a b i j : nat) : ex := (EAdd (r_cfeom_X2C_1 (0 + z) a b i j) (EScale (1) 8 (ESum (0 + z) 2 (ESum (1 + z) 2 (EMul (ET 41 [(0 + z); (1 + z); i; j]) (ET 18 [a; b; (0 + z); (1 + z)])))))).
Definition r_cfeom_X2C_3 (z a b i j : nat) : ex := (EAdd (r_cfeom_X2C_2 (0 + z) a b i j) (EScale (1) 8 (ESum (0 + z) 2 (ESum (1 + z) 2 (EMul (r_cfeom_X_bb_oooo (2 + z) (0 + z) (1 + z) i j) (ET 7 [a; b; (0 + z); (1 + z)])))))).
Definition r_cfeom_vR_1 (z a b c : nat) : ex := (ET 3 [a; c; b]).
Definition r_cfeom_vT_2 (z i j a b : nat) : ex := (EScale (1) 2 (ET 18 [b; a; j; i])).
Definition r_cfeom_X2C_4 (z a b i j : nat) : ex := (EAdd (r_cfeom_X2C_3 (0 + z) a b i j) (EScale (1) 4 (ESum (0 + z) 3 (ESum (1 + z) 3 (EMul (ESum (2 + z) 4 (ESub (EMul (r_cfeom_vR_1 (3 + z) (2 + z) (1 + z) b) (r_cfeom_vR_1 (3 + z) (2 + z) (0 + z) a)) (EMul (r_cfeom_vR_1 (3 + z) (2 + z) (0 + z) b) (r_cfeom_vR_1 (3 + z) (2 + z) (1 + z) a)))) (r_cfeom_vT_2 (3 + z) j i (1 + z) (0 + z))))))).
Definition r_cfeom_X2C_5 (z a b i j : nat) : ex := (EAdd (r_cfeom_X2C_4 (0 + z) a b i j) (ESum (0 + z) 2 (ESum (1 + z) 3 (EMul (ET 30 [a; (0 + z); i; (1 + z)]) (ET 18 [(1 + z); b; (0 + z); j]))))).
Definition r_cfeom_X2C_6 (z a b i j : nat) : ex := (EAdd (r_cfeom_X2C_5 (0 + z) a b i j) (ESum (0 + z) 0 (ESum (1 + z) 1 (EMul (ET 29 [(0 + z); a; (1 + z); i]) (ET 13 [(1 + z); b; (0 + z); j]))))).
Definition r_cfeom_X2C_7 (z a b i j : nat) : ex := (ESub (r_cfeom_X2C_6 (0 + z) a b i j) (EScale (1) 2 (ESum (0 + z) 2 (EMul (ET 42 [b; (0 + z); j; i]) (ET 11 [a; (0 + z)]))))).
Definition r_cfeom_X2C_8 (z a b i j : nat) : ex := (EAdd (r_cfeom_X2C_7 (0 + z) a b i j) (EScale (1) 2 (ESum (0 + z) 3 (EMul (ET 43 [b; a; j; (0 + z)]) (ET 11 [(0 + z); i]))))).
Definition r_cfeom_X2C_9 (z a b i j : nat) : ex := (EAdd (r_cfeom_X2C_8 (0 + z) a b i j) (EScale (1) 2 (ESum (0 + z) 3 (EMul (r_cfeom_X_b_vv (1 + z) b (0 + z)) (ET 7 [a; (0 + z); i; j]))))).
Definition r_cfeom_X2C_10 (z a b i j : nat) : ex := (ESub (r_cfeom_X2C_9 (0 + z) a b i j) (EScale (1) 2 (ESum (0 + z) 2 (EMul (r_cfeom_X_b_oo (1 + z) (0 + z) j) (ET 7 [a; b; i; (0 + z)]))))).
Definition r_cfeom_X2C_11 (z a b i j : nat) : ex := (ESub (r_cfeom_X2C_10 (0 + z) a b i j) (r_cfeom_X2C_10 (0 + z) b a i j)).
Definition r_cfeom_X2C_12 (z a b i j : nat) : ex := (ESub (r_cfeom_X2C_11 (0 + z) a b i j) (r_cfeom_X2C_11 (0 + z) a b j i)).
Definition r_cfleft_X_a_vv (z g e : nat) : ex := (EAdd (EScale (1) 2 (ESum (0 + z) 1 (ESum (1 + z) 0 (ESum (2 + z) 0 (EMul (ET 12 [e; (0 + z); (1 + z); (2 + z)]) (ET 2 [(0 + z); g; (2 + z); (1 + z)])))))) (ESum (0 + z) 3 (ESum (1 + z) 0 (ESum (2 + z) 2 (EMul (ET 13 [e; (0 + z); (1 + z); (2 + z)]) (ET 5 [g; (0 + z); (1 + z); (2 + z)])))))).
Definition r_cfleft_X_a_oo (z m n : nat) : ex := (ESub (EScale (-1) 2 (ESum (0 + z) 1 (ESum (1 + z) 1 (ESum (2 + z) 0 (EMul (ET 12 [(0 + z); (1 + z); m; (2 + z)]) (ET 2 [(0 + z); (1 + z); n; (2 + z)])))))) (ESum (0 + z) 1 (ESum (1 + z) 3 (ESum (2 + z) 2 (EMul (ET 13 [(0 + z); (1 + z); m; (2 + z)]) (ET 5 [(0 + z); (1 + z); n; (2 + z)])))))).
Definition r_cfleft_X_b_vv (z f a : nat) : ex := (EAdd (EScale (1) 2 (ESum (0 + z) 3 (ESum (1 + z) 2 (ESum (2 + z) 2 (EMul (ET 18 [a; (0 + z); (1 + z); (2 + z)]) (ET 7 [f; (0 + z); (1 + z); (2 + z)])))))) (ESum (0 + z) 1 (ESum (1 + z) 0 (ESum (2 + z) 2 (EMul (ET 13 [(0 + z); a; (1 + z); (2 + z)]) (ET 5 [(0 + z); f; (1 + z); (2 + z)])))))).
Definition r_cfleft_X_b_oo (z i n : nat) : ex := (ESub (EScale (-1) 2 (ESum (0 + z) 3 (ESum (1 + z) 3 (ESum (2 + z) 2 (EMul (ET 18 [(0 + z); (1 + z); i; (2 + z)]) (ET 7 [(0 + z); (1 + z); n; (2 + z)])))))) (ESum (0 + z) 1 (ESum (1 + z) 3 (ESum (2 + z) 0 (EMul (ET 13 [(0 + z); (1 + z); (2 + z); i]) (ET 5 [(0 + z); (1 + z); (2 + z); n])))))).
Definition r_cfleft_X_aa_oooo (z i j m n : nat) : ex := (EScale (1) 2 (ESum (0 + z) 1 (ESum (1 + z) 1 (EMul (ET 12 [(0 + z); (1 + z); i; j]) (ET 2 [(0 + z); (1 + z); m; n]))))).
Definition r_cfleft_X_ab_oooo (z i j m n : nat) : ex := (ESum (0 + z) 1 (ESum (1 + z) 3 (EMul (ET 13 [(0 + z); (1 + z); i; j]) (ET 5 [(0 + z); (1 + z); m; n])))).
Definition r_cfleft_X_bb_oooo (z i j m n : nat) : ex := (EScale (1) 2 (ESum (0 + z) 3 (ESum (1 + z) 3 (EMul (ET 18 [(0 + z); (1 + z); i; j]) (ET 7 [(0 + z); (1 + z); m; n]))))).
Definition r_cfleft_X_aa_ooov (z j i n e : nat) : ex := (ESum (0 + z) 1 (EMul (ET 12 [(0 + z); e; j; i]) (ET 44 [(0 + z); n]))).
Definition r_cfleft_X_ab_ooov (z i j m f : nat) : ex := (ESum (0 + z) 1 (EMul (ET 13 [(0 + z); f; i; j]) (ET 44 [(0 + z); m]))).
Definition r_cfleft_X_ab_oovo (z i j e n : nat) : ex := (ESum (0 + z) 3 (EMul (ET 13 [e; (0 + z); i; j]) (ET 45 [(0 + z); n]))).
Definition r_cfleft_X_bb_ooov (z j i n e : nat) : ex := (ESum (0 + z) 3 (EMul (ET 18 [(0 + z); e; j; i]) (ET 45 [(0 + z); n]))).
Definition r_cfleft_LH_a (z a i : nat) : ex := (ESum (0 + z) 1 (EMul (ET 22 [(0 + z); a]) (ET 9 [(0 + z); i]))).
Definition r_cfleft_LH_a_1 (z a i : nat) : ex := (ESub (r_cfleft_LH_a (0 + z) a i) (ESum (0 + z) 0 (EMul (ET 21 [i; (0 + z)]) (ET 9 [a; (0 + z)])))).
Definition r_cfleft_LH_a_2 (z a i : nat) : ex := (EAdd (r_cfleft_LH_a_1 (0 + z) a i) (ESum (0 + z) 1 (ESum (1 + z) 0 (EMul (ET 23 [(0 + z); i; (1 + z); a]) (ET 9 [(0 + z); (1 + z)]))))).
Definition r_cfleft_LH_a_3 (z a i : nat) : ex := (EAdd (r_cfleft_LH_a_2 (0 + z) a i) (ESum (0 + z) 3 (ESum (1 + z) 2 (EMul (ET 29 [i; (0 + z); a; (1 + z)]) (ET 11 [(0 + z); (1 + z)]))))).
Definition r_cfleft_LH_a_4 (z a i : nat) : ex := (EAdd (r_cfleft_LH_a_3 (0 + z) a i) (EScale (1) 2 (ESum (0 + z) 1 (ESum (1 + z) 1 (ESum (2 + z) 0 (EMul (ET 33 [(0 + z); (1 + z); (2 + z); a]) (ET 12 [(1 + z); (0 + z); i; (2 + z)]))))))).
Definition r_cfleft_LH_a_5 (z a i : nat) : ex := (EAdd (r_cfleft_LH_a_4 (0 + z) a i) (ESum (0 + z) 1 (ESum (1 + z) 3 (ESum (2 + z) 2 (EMul (ET 37 [(0 + z); (1 + z); a; (2 + z)]) (ET 13 [(0 + z); (1 + z); i; (2 + z)])))))).
Definition r_cfleft_LH_a_6 (z a i : nat) : ex := (ESub (r_cfleft_LH_a_5 (0 + z) a i) (EScale (1) 2 (ESum (0 + z) 1 (ESum (1 + z) 0 (ESum (2 + z) 0 (EMul (ET 32 [(0 + z); i; (1 + z); (2 + z)]) (ET 12 [a; (0 + z); (2 + z); (1 + z)]))))))).
Definition r_cfleft_LH_a_7 (z a i : nat) : ex := (ESub (r_cfleft_LH_a_6 (0 + z) a i) (ESum (0 + z) 3 (ESum (1 + z) 0 (ESum (2 + z) 2 (EMul (ET 39 [i; (0 + z); (1 + z); (2 + z)]) (ET 13 [a; (0 + z); (1 + z); (2 + z)])))))).
Definition r_cfleft_LH_a_8 (z a i : nat) : ex := (EAdd (r_cfleft_LH_a_7 (0 + z) a i) (ESum (0 + z) 1 (ESum (1 + z) 1 (EMul (r_cfleft_X_a_vv (2 + z) (0 + z) (1 + z)) (ET 14 [(1 + z); i; (0 + z); a]))))).
Definition r_cfleft_LH_a_9 (z a i : nat) : ex := (EAdd (r_cfleft_LH_a_8 (0 + z) a i) (ESum (0 + z) 3 (ESum (1 + z) 3 (EMul (r_cfleft_X_b_vv (2 + z) (0 + z) (1 + z)) (ET 19 [i; (1 + z); a; (0 + z)]))))).
Definition r_cfleft_LH_a_10 (z a i : nat) : ex := (EAdd (r_cfleft_LH_a_9 (0 + z) a i) (ESum (0 + z) 0 (ESum (1 + z) 0 (EMul (r_cfleft_X_a_oo (2 + z) (0 + z) (1 + z)) (ET 8 [(1 + z); i; (0 + z); a]))))).
Definition r_cfleft_LH_a_11 (z a i : nat) : ex := (EAdd (r_cfleft_LH_a_10 (0 + z) a i) (ESum (0 + z) 2 (ESum (1 + z) 2 (EMul (r_cfleft_X_b_oo (2 + z) (0 + z) (1 + z)) (ET 16 [i; (1 + z); a; (0 + z)]))))).
Definition r_cfleft_LH_b (z a i : nat) : ex := (ESum (0 + z) 3 (EMul (ET 28 [(0 + z); a]) (ET 11 [(0 + z); i]))).
Definition r_cfleft_LH_b_1 (z a i : nat) : ex := (ESub (r_cfleft_LH_b (0 + z) a i) (ESum (0 + z) 2 (EMul (ET 27 [i; (0 + z)]) (ET 11 [a; (0 + z)])))).
Definition r_cfleft_LH_b_2 (z a i : nat) : ex := (EAdd (r_cfleft_LH_b_1 (0 + z) a i) (ESum (0 + z) 1 (ESum (1 + z) 0 (EMul (ET 24 [(0 + z); i; (1 + z); a]) (ET 9 [(0 + z); (1 + z)]))))).
Definition r_cfleft_LH_b_3 (z a i : nat) : ex := (EAdd (r_cfleft_LH_b_2 (0 + z) a i) (ESum (0 + z) 3 (ESum (1 + z) 2 (EMul (ET 30 [(0 + z); i; (1 + z); a]) (ET 11 [(0 + z); (1 + z)]))))).
Definition r_cfleft_LH_b_4 (z a i : nat) : ex := (ESub (r_cfleft_LH_b_3 (0 + z) a i) (EScale (1) 2 (ESum (0 + z) 3 (ESum (1 + z) 2 (ESum (2 + z) 2 (EMul (ET 42 [(0 + z); i; (1 + z); (2 + z)]) (ET 18 [a; (0 + z); (2 + z); (1 + z)]))))))).
Definition r_cfleft_LH_b_5 (z a i : nat) : ex := (ESub (r_cfleft_LH_b_4 (0 + z) a i) (ESum (0 + z) 1 (ESum (1 + z) 0 (ESum (2 + z) 2 (EMul (ET 40 [(0 + z); i; (1 + z); (2 + z)]) (ET 13 [(0 + z); a; (1 + z); (2 + z)])))))).
Definition r_cfleft_LH_b_6 (z a i : nat) : ex := (EAdd (r_cfleft_LH_b_5 (0 + z) a i) (ESum (0 + z) 1 (ESum (1 + z) 3 (ESum (2 + z) 0 (EMul (ET 38 [(0 + z); (1 + z); (2 + z); a]) (ET 13 [(0 + z); (1 + z); (2 + z); i])))))).
Definition r_cfleft_LH_b_7 (z a i : nat) : ex := (EAdd (r_cfleft_LH_b_6 (0 + z) a i) (EScale (1) 2 (ESum (0 + z) 3 (ESum (1 + z) 3 (ESum (2 + z) 2 (EMul (ET 43 [(0 + z); (1 + z); (2 + z); a]) (ET 18 [(1 + z); (0 + z); i; (2 + z)]))))))).
Definition r_cfleft_LH_b_8 (z a i : nat) : ex := (EAdd (r_cfleft_LH_b_7 (0 + z) a i) (EAdd (ESum (0 + z) 3 (ESum (1 + z) 3 (EMul (r_cfleft_X_b_vv (2 + z) (0 + z) (1 + z)) (ET 20 [(1 + z); i; (0 + z); a])))) (ESum (0 + z) 2 (ESum (1 + z) 2 (EMul (r_cfleft_X_b_oo (2 + z) (0 + z) (1 + z)) (ET 17 [(1 + z); i; (0 + z); a])))))).
Definition r_cfleft_LH_b_9 (z a i : nat) : ex := (EAdd (r_cfleft_LH_b_8 (0 + z) a i) (EAdd (ESum (0 + z) 1 (ESum (1 + z) 1 (EMul (r_cfleft_X_a_vv (2 + z) (0 + z) (1 + z)) (ET 15 [(1 + z); i; (0 + z); a])))) (ESum (0 + z) 0 (ESum (1 + z) 0 (EMul (r_cfleft_X_a_oo (2 + z) (0 + z) (1 + z)) (ET 10 [(1 + z); i; (0 + z); a])))))).
Definition r_cfleft_LH_aa (z a b i j : nat) : ex := (EScale (1) 2 (ESum (0 + z) 1 (EMul (ET 22 [(0 + z); a]) (ET 12 [(0 + z); b; i; j])))).
Definition r_cfleft_LH_aa_1 (z a b i j : nat) : ex := (ESub (r_cfleft_LH_aa (0 + z) a b i j) (EScale (1) 2 (ESum (0 + z) 0 (EMul (ET 21 [i; (0 + z)]) (ET 12 [a; b; (0 + z); j]))))).
Definition r_cfleft_LH_aa_2 (z a b i j : nat) : ex := (EAdd (r_cfleft_LH_aa_1 (0 + z) a b i j) (EMul (ET 25 [j; b]) (ET 9 [a; i]))).
Definition r_cfleft_LH_aa_3 (z a b i j : nat) : ex := (ESub (r_cfleft_LH_aa_2 (0 + z) a b i j) (EScale (1) 2 (ESum (0 + z) 1 (EMul (r_cfleft_X_a_vv (1 + z) (0 + z) a) (ET 1 [i; j; (0 + z); b]))))).
Definition r_cfleft_LH_aa_4 (z a b i j : nat) : ex := (EAdd (r_cfleft_LH_aa_3 (0 + z) a b i j) (EScale (1) 2 (ESum (0 + z) 0 (EMul (r_cfleft_X_a_oo (1 + z) i (0 + z)) (ET 1 [(0 + z); j; a; b]))))).
Definition r_cfleft_LH_aa_5 (z a b i j : nat) : ex := (EAdd (r_cfleft_LH_aa_4 (0 + z) a b i j) (ESum (0 + z) 1 (ESum (1 + z) 0 (EMul (ET 23 [(0 + z); i; (1 + z); a]) (ET 12 [(0 + z); b; (1 + z); j]))))).
Definition r_cfleft_LH_aa_6 (z a b i j : nat) : ex := (EAdd (r_cfleft_LH_aa_5 (0 + z) a b i j) (ESum (0 + z) 3 (ESum (1 + z) 2 (EMul (ET 29 [i; (0 + z); a; (1 + z)]) (ET 13 [b; (0 + z); j; (1 + z)]))))).
Definition r_cfleft_LH_aa_7 (z a b i j : nat) : ex := (EAdd (r_cfleft_LH_aa_6 (0 + z) a b i j) (EScale (1) 8 (ESum (0 + z) 0 (ESum (1 + z) 0 (EMul (ET 31 [i; j; (0 + z); (1 + z)]) (ET 12 [a; b; (0 + z); (1 + z)])))))).
Definition r_cfleft_LH_aa_8 (z a b i j : nat) : ex := (EAdd (r_cfleft_LH_aa_7 (0 + z) a b i j) (EScale (1) 8 (ESum (0 + z) 0 (ESum (1 + z) 0 (EMul (r_cfleft_X_aa_oooo (2 + z) i j (0 + z) (1 + z)) (ET 1 [(0 + z); (1 + z); a; b])))))).
Definition r_cfleft_vR (z a b c : nat) : ex := (ET 0 [a; b; c]).
Definition r_cfleft_vT (z i j a b : nat) : ex := (EScale (1) 2 (ET 12 [b; a; j; i])).
Definition r_cfleft_LH_aa_9 (z a b i j : nat) : ex := (EAdd (r_cfleft_LH_aa_8 (0 + z) a b i j) (EScale (1) 4 (ESum (0 + z) 1 (ESum (1 + z) 1 (EMul (ESum (2 + z) 4 (ESub (EMul (r_cfleft_vR (3 + z) (2 + z) (1 + z) b) (r_cfleft_vR (3 + z) (2 + z) (0 + z) a)) (EMul (r_cfleft_vR (3 + z) (2 + z) (0 + z) b) (r_cfleft_vR (3 + z) (2 + z) (1 + z) a)))) (r_cfleft_vT (3 + z) j i (1 + z) (0 + z))))))).
Definition r_cfleft_LH_aa_10 (z a b i j : nat) : ex := (EAdd (r_cfleft_LH_aa_9 (0 + z) a b i j) (EScale (1) 2 (ESum (0 + z) 1 (EMul (ET 14 [(0 + z); j; a; b]) (ET 9 [(0 + z); i]))))).
Definition r_cfleft_LH_aa_11 (z a b i j : nat) : ex := (ESub (r_cfleft_LH_aa_10 (0 + z) a b i j) (EScale (1) 2 (ESum (0 + z) 0 (EMul (ET 8 [i; j; (0 + z); b]) (ET 9 [a; (0 + z)]))))).
Definition r_cfleft_LH_aa_12 (z a b i j : nat) : ex := (ESub (r_cfleft_LH_aa_11 (0 + z) a b i j) (ESub (EAdd (r_cfleft_LH_aa_11 (0 + z) b a i j) (r_cfleft_LH_aa_11 (0 + z) a b j i)) (r_cfleft_LH_aa_11 (0 + z) b a j i))).
Definition r_cfleft_LH_ab (z a b i j : nat) : ex := (EOpp (ESum (0 + z) 0 (EMul (ET 10 [i; j; (0 + z); b]) (ET 9 [a; (0 + z)])))).
Definition r_cfleft_LH_ab_1 (z a b i j : nat) : ex := (ESub (r_cfleft_LH_ab (0 + z) a b i j) (ESum (0 + z) 2 (EMul (ET 16 [i; j; a; (0 + z)]) (ET 11 [b; (0 + z)])))).
Definition r_cfleft_LH_ab_2 (z a b i j : nat) : ex := (EAdd (r_cfleft_LH_ab_1 (0 + z) a b i j) (ESum (0 + z) 1 (EMul (ET 15 [(0 + z); j; a; b]) (ET 9 [(0 + z); i])))).
Definition r_cfleft_LH_ab_3 (z a b i j : nat) : ex := (EAdd (r_cfleft_LH_ab_2 (0 + z) a b i j) (ESum (0 + z) 3 (EMul (ET 19 [i; (0 + z); a; b]) (ET 11 [(0 + z); j])))).
Definition r_cfleft_LH_ab_4 (z a b i j : nat) : ex := (EAdd (r_cfleft_LH_ab_3 (0 + z) a b i j) (ESum (0 + z) 0 (ESum (1 + z) 2 (EMul (ET 34 [i; j; (0 + z); (1 + z)]) (ET 13 [a; b; (0 + z); (1 + z)]))))).
Definition r_cfleft_LH_ab_5 (z a b i j : nat) : ex := (EAdd (r_cfleft_LH_ab_4 (0 + z) a b i j) (ESum (0 + z) 0 (ESum (1 + z) 2 (EMul (r_cfleft_X_ab_oooo (2 + z) i j (0 + z) (1 + z)) (ET 4 [(0 + z); (1 + z); a; b]))))).
Definition r_cfleft_vRa (z a b c : nat) : ex := (ET 0 [a; b; c]).
Definition r_cfleft_vRb (z a b c : nat) : ex := (ET 3 [a; b; c]).
Definition r_cfleft_vT_1 (z i j a b : nat) : ex := (ET 13 [b; a; j; i]).
Definition r_cfleft_LH_ab_6 (z a b i j : nat) : ex := (EAdd (r_cfleft_LH_ab_5 (0 + z) a b i j) (ESum (0 + z) 1 (ESum (1 + z) 3 (EMul (ESum (2 + z) 4 (EMul (r_cfleft_vRb (3 + z) (2 + z) (1 + z) b) (r_cfleft_vRa (3 + z) (2 + z) (0 + z) a))) (r_cfleft_vT_1 (3 + z) j i (1 + z) (0 + z)))))).
Definition r_cfleft_LH_ab_7 (z a b i j : nat) : ex := (EAdd (r_cfleft_LH_ab_6 (0 + z) a b i j) (ESum (0 + z) 1 (ESum (1 + z) 0 (EMul (ET 24 [(0 + z); j; (1 + z); b]) (ET 12 [a; (0 + z); i; (1 + z)]))))).
Definition r_cfleft_LH_ab_8 (z a b i j : nat) : ex := (EAdd (r_cfleft_LH_ab_7 (0 + z) a b i j) (ESum (0 + z) 1 (ESum (1 + z) 0 (EMul (ET 23 [(0 + z); i; (1 + z); a]) (ET 13 [(0 + z); b; (1 + z); j]))))).
Definition r_cfleft_LH_ab_9 (z a b i j : nat) : ex := (EAdd (r_cfleft_LH_ab_8 (0 + z) a b i j) (ESum (0 + z) 3 (ESum (1 + z) 2 (EMul (ET 30 [(0 + z); j; (1 + z); b]) (ET 13 [a; (0 + z); i; (1 + z)]))))).
Definition r_cfleft_LH_ab_10 (z a b i j : nat) : ex := (EAdd (r_cfleft_LH_ab_9 (0 + z) a b i j) (ESum (0 + z) 3 (ESum (1 + z) 2 (EMul (ET 29 [i; (0 + z); a; (1 + z)]) (ET 18 [(0 + z); b; (1 + z); j]))))).
Definition r_cfleft_LH_ab_11 (z a b i j : nat) : ex := (ESub (r_cfleft_LH_ab_10 (0 + z) a b i j) (ESum (0 + z) 3 (ESum (1 + z) 0 (EMul (ET 35 [i; (0 + z); (1 + z); b]) (ET 13 [a; (0 + z); (1 + z); j]))))).
Definition r_cfleft_LH_ab_12 (z a b i j : nat) : ex := (ESub (r_cfleft_LH_ab_11 (0 + z) a b i j) (ESum (0 + z) 1 (ESum (1 + z) 2 (EMul (ET 36 [(0 + z); j; a; (1 + z)]) (ET 13 [(0 + z); b; i; (1 + z)]))))).
Definition r_cfleft_LH_ab_13 (z a b i j : nat) : ex := (ESub (r_cfleft_LH_ab_12 (0 + z) a b i j) (ESum (0 + z) 1 (EMul (r_cfleft_X_a_vv (1 + z) (0 + z) a) (ET 4 [i; j; (0 + z); b])))).
Definition r_cfleft_LH_ab_14 (z a b i j : nat) : ex := (EAdd (r_cfleft_LH_ab_13 (0 + z) a b i j) (ESum (0 + z) 0 (EMul (r_cfleft_X_a_oo (1 + z) i (0 + z)) (ET 4 [(0 + z); j; a; b])))).
Definition r_cfleft_LH_ab_15 (z a b i j : nat) : ex := (ESub (r_cfleft_LH_ab_14 (0 + z) a b i j) (ESum (0 + z) 3 (EMul (r_cfleft_X_b_vv (1 + z) (0 + z) b) (ET 4 [i; j; a; (0 + z)])))).
Definition r_cfleft_LH_ab_16 (z a b i j : nat) : ex := (EAdd (r_cfleft_LH_ab_15 (0 + z) a b i j) (ESum (0 + z) 2 (EMul (r_cfleft_X_b_oo (1 + z) j (0 + z)) (ET 4 [i; (0 + z); a; b])))).
Definition r_cfleft_LH_ab_17 (z a b i j : nat) : ex := (EAdd (r_cfleft_LH_ab_16 (0 + z) a b i j) (ESum (0 + z) 1 (EMul (ET 22 [(0 + z); a]) (ET 13 [(0 + z); b; i; j])))).
Definition r_cfleft_LH_ab_18 (z a b i j : nat) : ex := (EAdd (r_cfleft_LH_ab_17 (0 + z) a b i j) (ESum (0 + z) 3 (EMul (ET 28 [(0 + z); b]) (ET 13 [a; (0 + z); i; j])))).
Definition r_cfleft_LH_ab_19 (z a b i j : nat) : ex := (ESub (r_cfleft_LH_ab_18 (0 + z) a b i j) (ESum (0 + z) 0 (EMul (ET 21 [i; (0 + z)]) (ET 13 [a; b; (0 + z); j])))).
Definition r_cfleft_LH_ab_20 (z a b i j : nat) : ex := (ESub (r_cfleft_LH_ab_19 (0 + z) a b i j) (ESum (0 + z) 2 (EMul (ET 27 [j; (0 + z)]) (ET 13 [a; b; i; (0 + z)])))).
Definition r_cfleft_LH_ab_21 (z a b i j : nat) : ex := (EAdd (r_cfleft_LH_ab_20 (0 + z) a b i j) (EMul (ET 26 [j; b]) (ET 9 [a; i]))).
Definition r_cfleft_LH_ab_22 (z a b i j : nat) : ex := (EAdd (r_cfleft_LH_ab_21 (0 + z) a b i j) (EMul (ET 25 [i; a]) (ET 11 [b; j]))).
Definition r_cfleft_LH_bb (z a b i j : nat) : ex := (EScale (1) 2 (ESum (0 + z) 3 (EMul (ET 28 [(0 + z); a]) (ET 18 [(0 + z); b; i; j])))).
Definition r_cfleft_LH_bb_1 (z a b i j : nat) : ex := (ESub (r_cfleft_LH_bb (0 + z) a b i j) (EScale (1) 2 (ESum (0 + z) 2 (EMul (ET 27 [i; (0 + z)]) (ET 18 [a; b; (0 + z); j]))))).
Definition r_cfleft_LH_bb_2 (z a b i j : nat) : ex := (EAdd (r_cfleft_LH_bb_1 (0 + z) a b i j) (EMul (ET 26 [j; b]) (ET 11 [a; i]))).
Definition r_cfleft_LH_bb_3 (z a b i j : nat) : ex := (ESub (r_cfleft_LH_bb_2 (0 + z) a b i j) (EScale (1) 2 (ESum (0 + z) 3 (EMul (r_cfleft_X_b_vv (1 + z) (0 + z) a) (ET 6 [i; j; (0 + z); b]))))).
Definition r_cfleft_LH_bb_4 (z a b i j : nat) : ex := (EAdd (r_cfleft_LH_bb_3 (0 + z) a b i j) (EScale (1) 2 (ESum (0 + z) 2 (EMul (r_cfleft_X_b_oo (1 + z) i (0 + z)) (ET 6 [(0 + z); j; a; b]))))).
Definition r_cfleft_LH_bb_5 (z a b i j : nat) : ex := (EAdd (r_cfleft_LH_bb_4 (0 + z) a b i j) (ESum (0 + z) 3 (ESum (1 + z) 2 (EMul (ET 30 [(0 + z); i; (1 + z); a]) (ET 18 [(0 + z); b; (1 + z); j]))))).
Definition r_cfleft_LH_bb_6 (z a b i j : nat) : ex := (EAdd (r_cfleft_LH_bb_5 (0 + z) a b i j) (ESum (0 + z) 1 (ESum (1 + z) 0 (EMul (ET 24 [(0 + z); i; (1 + z); a]) (ET 13 [(0 + z); b; (1 + z); j]))))).
Definition r_cfleft_LH_bb_7 (z a b i j : nat) : ex := (EAdd (r_cfleft_LH_bb_6 (0 + z) a b i j) (EScale (1) 8 (ESum (0 + z) 2 (ESum (1 + z) 2 (EMul (ET 41 [i; j; (0 + z); (1 + z)]) (ET 18 [a; b; (0 + z); (1 + z)])))))).
Definition r_cfleft_LH_bb_8 (z a b i j : nat) : ex := (EAdd (r_cfleft_LH_bb_7 (0 + z) a b i j) (EScale (1) 8 (ESum (0 + z) 2 (ESum (1 + z) 2 (EMul (r_cfleft_X_bb_oooo (2 + z) i j (0 + z) (1 + z)) (ET 6 [(0 + z); (1 + z); a; b])))))).
Definition r_cfleft_vR_1 (z a b c : nat) : ex := (ET 3 [a; b; c]).
Definition r_cfleft_vT_2 (z i j a b : nat) : ex := (EScale (1) 2 (ET 18 [b; a; j; i])).
Definition r_cfleft_LH_bb_9 (z a b i j : nat) : ex := (EAdd (r_cfleft_LH_bb_8 (0 + z) a b i j) (EScale (1) 4 (ESum (0 + z) 3 (ESum (1 + z) 3 (EMul (ESum (2 + z) 4 (ESub (EMul (r_cfleft_vR_1 (3 + z) (2 + z) (1 + z) b) (r_cfleft_vR_1 (3 + z) (2 + z) (0 + z) a)) (EMul (r_cfleft_vR_1 (3 + z) (2 + z) (0 + z) b) (r_cfleft_vR_1 (3 + z) (2 + z) (1 + z) a)))) (r_cfleft_vT_2 (3 + z) j i (1 + z) (0 + z))))))).
Definition r_cfleft_LH_bb_10 (z a b i j : nat) : ex := (EAdd (r_cfleft_LH_bb_9 (0 + z) a b i j) (EScale (1) 2 (ESum (0 + z) 3 (EMul (ET 20 [(0 + z); j; a; b]) (ET 11 [(0 + z); i]))))).
Definition r_cfleft_LH_bb_11 (z a b i j : nat) : ex := (ESub (r_cfleft_LH_bb_10 (0 + z) a b i j) (EScale (1) 2 (ESum (0 + z) 2 (EMul (ET 17 [i; j; (0 + z); b]) (ET 11 [a; (0 + z)]))))).
Definition r_cfleft_LH_bb_12 (z a b i j : nat) : ex := (ESub (r_cfleft_LH_bb_11 (0 + z) a b i j) (ESub (EAdd (r_cfleft_LH_bb_11 (0 + z) b a i j) (r_cfleft_LH_bb_11 (0 + z) a b j i)) (r_cfleft_LH_bb_11 (0 + z) b a j i))).
Definition r_cgeom_X_a_oo (z m j : nat) : ex := (EAdd (EAdd (EAdd (ESum (0 + z) 0 (ESum (1 + z) 1 (EMul (ET 8 [m; (0 + z); j; (1 + z)]) (ET 9 [(1 + z); (0 + z)])))) (ESum (0 + z) 0 (ESum (1 + z) 1 (EMul (ET 10 [m; (0 + z); j; (1 + z)]) (ET 11 [(1 + z); (0 + z)]))))) (EScale (1) 2 (ESum (0 + z) 0 (ESum (1 + z) 1 (ESum (2 + z) 1 (EMul (ET 1 [m; (0 + z); (1 + z); (2 + z)]) (ET 12 [(1 + z); (2 + z); j; (0 + z)]))))))) (ESum (0 + z) 0 (ESum (1 + z) 1 (ESum (2 + z) 1 (EMul (ET 4 [m; (0 + z); (1 + z); (2 + z)]) (ET 13 [(1 + z); (2 + z); j; (0 + z)])))))).
Definition r_cgeom_X_a_vv (z b e : nat) : ex := (ESub (ESub (EAdd (ESum (0 + z) 0 (ESum (1 + z) 1 (EMul (ET 14 [b; (0 + z); e; (1 + z)]) (ET 9 [(1 + z); (0 + z)])))) (ESum (0 + z) 0 (ESum (1 + z) 1 (EMul (ET 15 [b; (0 + z); e; (1 + z)]) (ET 11 [(1 + z); (0 + z)]))))) (EScale (1) 2 (ESum (0 + z) 0 (ESum (1 + z) 0 (ESum (2 + z) 1 (EMul (ET 1 [(0 + z); (1 + z); e; (2 + z)]) (ET 12 [b; (2 + z); (0 + z); (1 + z)]))))))) (ESum (0 + z) 0 (ESum (1 + z) 0 (ESum (2 + z) 1 (EMul (ET 4 [(0 + z); (1 + z); e; (2 + z)]) (ET 13 [b; (2 + z); (0 + z); (1 + z)])))))).
Definition r_cgeom_X_b_oo (z m k : nat) : ex := (EAdd (EAdd (EAdd (ESum (0 + z) 0 (ESum (1 + z) 1 (EMul (ET 16 [(0 + z); m; (1 + z); k]) (ET 9 [(1 + z); (0 + z)])))) (ESum (0 + z) 0 (ESum (1 + z) 1 (EMul (ET 17 [m; (0 + z); k; (1 + z)]) (ET 11 [(1 + z); (0 + z)]))))) (ESum (0 + z) 0 (ESum (1 + z) 1 (ESum (2 + z) 1 (EMul (ET 4 [(0 + z); m; (1 + z); (2 + z)]) (ET 13 [(1 + z); (2 + z); (0 + z); k])))))) (EScale (1) 2 (ESum (0 + z) 0 (ESum (1 + z) 1 (ESum (2 + z) 1 (EMul (ET 6 [m; (0 + z); (1 + z); (2 + z)]) (ET 18 [(1 + z); (2 + z); k; (0 + z)]))))))).
Definition r_cgeom_X_b_vv (z c e : nat) : ex := (ESub (ESub (EAdd (ESum (0 + z) 0 (ESum (1 + z) 1 (EMul (ET 19 [(0 + z); c; (1 + z); e]) (ET 9 [(1 + z); (0 + z)])))) (ESum (0 + z) 0 (ESum (1 + z) 1 (EMul (ET 20 [c; (0 + z); e; (1 + z)]) (ET 11 [(1 + z); (0 + z)]))))) (EScale (1) 1 (ESum (0 + z) 0 (ESum (1 + z) 0 (ESum (2 + z) 1 (EMul (ET 4 [(0 + z); (1 + z); (2 + z); e]) (ET 13 [(2 + z); c; (0 + z); (1 + z)]))))))) (EScale (1) 2 (ESum (0 + z) 0 (ESum (1 + z) 0 (ESum (2 + z) 1 (EMul (ET 6 [(0 + z); (1 + z); e; (2 + z)]) (ET 18 [(2 + z); c; (1 + z); (0 + z)]))))))).
Definition r_cgeom_X_aa_oooo (z m n i j : nat) : ex := (EScale (1) 2 (ESum (0 + z) 1 (ESum (1 + z) 1 (EMul (ET 1 [m; n; (0 + z); (1 + z)]) (ET 12 [(0 + z); (1 + z); i; j]))))).
Definition r_cgeom_X_ab_oooo (z m n i j : nat) : ex := (ESum (0 + z) 1 (ESum (1 + z) 1 (EMul (ET 4 [m; n; (0 + z); (1 + z)]) (ET 13 [(0 + z); (1 + z); i; j])))).
Definition r_cgeom_X_bb_oooo (z m n i j : nat) : ex := (EScale (1) 2 (ESum (0 + z) 1 (ESum (1 + z) 1 (EMul (ET 6 [m; n; (0 + z); (1 + z)]) (ET 18 [(0 + z); (1 + z); i; j]))))).
Definition r_cgeom_X1A (z a i : nat) : ex := (EOpp (ESum (0 + z) 0 (EMul (ET 21 [(0 + z); i]) (ET 9 [a; (0 + z)])))).
Definition r_cgeom_X1A_1 (z a i : nat) : ex := (EAdd (r_cgeom_X1A (0 + z) a i) (ESum (0 + z) 1 (EMul (ET 22 [a; (0 + z)]) (ET 9 [(0 + z); i])))).
Definition r_cgeom_X1A_2 (z a i : nat) : ex := (EAdd (r_cgeom_X1A_1 (0 + z) a i) (ESum (0 + z) 0 (ESum (1 + z) 1 (EMul (ET 23 [a; (0 + z); i; (1 + z)]) (ET 9 [(1 + z); (0 + z)]))))).
Definition r_cgeom_X1A_3 (z a i : nat) : ex := (EAdd (r_cgeom_X1A_2 (0 + z) a i) (ESum (0 + z) 0 (ESum (1 + z) 1 (EMul (ET 24 [a; (0 + z); i; (1 + z)]) (ET 11 [(1 + z); (0 + z)]))))).
Definition r_cgeom_X1A_4 (z a i : nat) : ex := (ESub (r_cgeom_X1A_3 (0 + z) a i) (EScale (1) 2 (ESum (0 + z) 0 (ESum (1 + z) 0 (ESum (2 + z) 1 (EMul (ET 8 [(0 + z); (1 + z); i; (2 + z)]) (ET 12 [a; (2 + z); (0 + z); (1 + z)]))))))).
Definition r_cgeom_X1A_5 (z a i : nat) : ex := (ESub (r_cgeom_X1A_4 (0 + z) a i) (ESum (0 + z) 0 (ESum (1 + z) 0 (ESum (2 + z) 1 (EMul (ET 10 [(0 + z); (1 + z); i; (2 + z)]) (ET 13 [a; (2 + z); (0 + z); (1 + z)])))))).
Definition r_cgeom_X1A_6 (z a i : nat) : ex := (EAdd (r_cgeom_X1A_5 (0 + z) a i) (EScale (1) 2 (ESum (0 + z) 0 (ESum (1 + z) 1 (ESum (2 + z) 1 (EMul (ET 14 [a; (0 + z); (1 + z); (2 + z)]) (ET 12 [(1 + z); (2 + z); i; (0 + z)]))))))).
Definition r_cgeom_X1A_7 (z a i : nat) : ex := (EAdd (r_cgeom_X1A_6 (0 + z) a i) (ESum (0 + z) 0 (ESum (1 + z) 1 (ESum (2 + z) 1 (EMul (ET 15 [a; (0 + z); (1 + z); (2 + z)]) (ET 13 [(1 + z); (2 + z); i; (0 + z)])))))).
Definition r_cgeom_X1A_8 (z a i : nat) : ex := (EAdd (r_cgeom_X1A_7 (0 + z) a i) (ESum (0 + z) 0 (ESum (1 + z) 1 (EMul (ET 25 [(0 + z); (1 + z)]) (ET 12 [a; (1 + z); i; (0 + z)]))))).
Definition r_cgeom_X1A_9 (z a i : nat) : ex := (EAdd (r_cgeom_X1A_8 (0 + z) a i) (ESum (0 + z) 0 (ESum (1 + z) 1 (EMul (ET 26 [(0 + z); (1 + z)]) (ET 13 [a; (1 + z); i; (0 + z)]))))).
Definition r_cgeom_dR_b (z a i : nat) : ex := (r_cgeom_X1A_9 (0 + z) a i).
Definition r_cgeom_X2A (z a b i j : nat) : ex := (EScale (-1) 2 (ESum (0 + z) 0 (EMul (ET 21 [(0 + z); i]) (ET 12 [a; b; (0 + z); j])))).
Definition r_cgeom_X2A_1 (z a b i j : nat) : ex := (EAdd (r_cgeom_X2A (0 + z) a b i j) (EScale (1) 2 (ESum (0 + z) 1 (EMul (ET 22 [a; (0 + z)]) (ET 12 [(0 + z); b; i; j]))))).
Definition r_cgeom_X2A_2 (z a b i j : nat) : ex := (EAdd (r_cgeom_X2A_1 (0 + z) a b i j) (EScale (1) 8 (ESum (0 + z) 0 (ESum (1 + z) 0 (EMul (ET 31 [(0 + z); (1 + z); i; j]) (ET 12 [a; b; (0 + z); (1 + z)])))))).
Definition r_cgeom_X2A_3 (z a b i j : nat) : ex := (EAdd (r_cgeom_X2A_2 (0 + z) a b i j) (EScale (1) 8 (ESum (0 + z) 0 (ESum (1 + z) 0 (EMul (r_cgeom_X_aa_oooo (2 + z) (0 + z) (1 + z) i j) (ET 2 [a; b; (0 + z); (1 + z)])))))).
Definition r_cgeom_vR (z a b c : nat) : ex := (ET 0 [a; c; b]).
Definition r_cgeom_vT (z i j a b : nat) : ex := (EScale (1) 2 (ET 12 [b; a; j; i])).
Definition r_cgeom_X2A_4 (z a b i j : nat) : ex := (EAdd (r_cgeom_X2A_3 (0 + z) a b i j) (EScale (1) 4 (ESum (0 + z) 1 (ESum (1 + z) 1 (EMul (ESum (2 + z) 4 (ESub (EMul (r_cgeom_vR (3 + z) (2 + z) (1 + z) b) (r_cgeom_vR (3 + z) (2 + z) (0 + z) a)) (EMul (r_cgeom_vR (3 + z) (2 + z) (0 + z) b) (r_cgeom_vR (3 + z) (2 + z) (1 + z) a)))) (r_cgeom_vT (3 + z) j i (1 + z) (0 + z))))))).
Definition r_cgeom_X2A_5 (z a b i j : nat) : ex := (EAdd (r_cgeom_X2A_4 (0 + z) a b i j) (ESum (0 + z) 0 (ESum (1 + z) 1 (EMul (ET 23 [a; (0 + z); i; (1 + z)]) (ET 12 [(1 + z); b; (0 + z); j]))))).
Definition r_cgeom_X2A_6 (z a b i j : nat) : ex := (EAdd (r_cgeom_X2A_5 (0 + z) a b i j) (ESum (0 + z) 0 (ESum (1 + z) 1 (EMul (ET 24 [a; (0 + z); i; (1 + z)]) (ET 13 [b; (1 + z); j; (0 + z)]))))).
Definition r_cgeom_X2A_7 (z a b i j : nat) : ex := (ESub (r_cgeom_X2A_6 (0 + z) a b i j) (EScale (1) 2 (ESum (0 + z) 0 (EMul (ET 32 [b; (0 + z); j; i]) (ET 9 [a; (0 + z)]))))).
Definition r_cgeom_X2A_8 (z a b i j : nat) : ex := (EAdd (r_cgeom_X2A_7 (0 + z) a b i j) (EScale (1) 2 (ESum (0 + z) 1 (EMul (ET 33 [b; a; j; (0 + z)]) (ET 9 [(0 + z); i]))))).
Definition r_cgeom_X2A_9 (z a b i j : nat) : ex := (EAdd (r_cgeom_X2A_8 (0 + z) a b i j) (EScale (1) 2 (ESum (0 + z) 1 (EMul (r_cgeom_X_a_vv (1 + z) b (0 + z)) (ET 2 [a; (0 + z); i; j]))))).
Definition r_cgeom_X2A_10 (z a b i j : nat) : ex := (ESub (r_cgeom_X2A_9 (0 + z) a b i j) (EScale (1) 2 (ESum (0 + z) 0 (EMul (r_cgeom_X_a_oo (1 + z) (0 + z) j) (ET 2 [a; b; i; (0 + z)]))))).
Definition r_cgeom_X2A_11 (z a b i j : nat) : ex := (ESub (r_cgeom_X2A_10 (0 + z) a b i j) (r_cgeom_X2A_10 (0 + z) b a i j)).
Definition r_cgeom_X2A_12 (z a b i j : nat) : ex := (ESub (r_cgeom_X2A_11 (0 + z) a b i j) (r_cgeom_X2A_11 (0 + z) a b j i)).
Definition r_cgeom_X2B (z a b i j : nat) : ex := (ESum (0 + z) 1 (EMul (ET 22 [a; (0 + z)]) (ET 13 [(0 + z); b; i; j]))).
Definition r_cgeom_X2B_1 (z a b i j : nat) : ex := (EAdd (r_cgeom_X2B (0 + z) a b i j) (ESum (0 + z) 1 (EMul (ET 28 [b; (0 + z)]) (ET 13 [a; (0 + z); i; j])))).
Definition r_cgeom_X2B_2 (z a b i j : nat) : ex := (ESub (r_cgeom_X2B_1 (0 + z) a b i j) (ESum (0 + z) 0 (EMul (ET 21 [(0 + z); i]) (ET 13 [a; b; (0 + z); j])))).
Definition r_cgeom_X2B_3 (z a b i j : nat) : ex := (ESub (r_cgeom_X2B_2 (0 + z) a b i j) (ESum (0 + z) 0 (EMul (ET 27 [(0 + z); j]) (ET 13 [a; b; i; (0 + z)])))).
Definition r_cgeom_X2B_4 (z a b i j : nat) : ex := (EAdd (r_cgeom_X2B_3 (0 + z) a b i j) (ESum (0 + z) 0 (ESum (1 + z) 0 (EMul (ET 34 [(0 + z); (1 + z); i; j]) (ET 13 [a; b; (0 + z); (1 + z)]))))).
Definition r_cgeom_X2B_5 (z a b i j : nat) : ex := (EAdd (r_cgeom_X2B_4 (0 + z) a b i j) (ESum (0 + z) 0 (ESum (1 + z) 0 (EMul (r_cgeom_X_ab_oooo (2 + z) (0 + z) (1 + z) i j) (ET 5 [a; b; (0 + z); (1 + z)]))))).
Definition r_cgeom_vRa (z a b c : nat) : ex := (ET 0 [a; c; b]).
Definition r_cgeom_vRb (z a b c : nat) : ex := (ET 3 [a; c; b]).
Definition r_cgeom_vT_1 (z i j a b : nat) : ex := (ET 13 [b; a; j; i]).
Definition r_cgeom_X2B_6 (z a b i j : nat) : ex := (EAdd (r_cgeom_X2B_5 (0 + z) a b i j) (ESum (0 + z) 1 (ESum (1 + z) 1 (EMul (ESum (2 + z) 4 (EMul (r_cgeom_vRb (3 + z) (2 + z) (1 + z) b) (r_cgeom_vRa (3 + z) (2 + z) (0 + z) a))) (r_cgeom_vT_1 (3 + z) j i (1 + z) (0 + z)))))).
Definition r_cgeom_X2B_7 (z a b i j : nat) : ex := (EAdd (r_cgeom_X2B_6 (0 + z) a b i j) (ESum (0 + z) 0 (ESum (1 + z) 1 (EMul (ET 23 [a; (0 + z); i; (1 + z)]) (ET 13 [(1 + z); b; (0 + z); j]))))).
Definition r_cgeom_X2B_8 (z a b i j : nat) : ex := (EAdd (r_cgeom_X2B_7 (0 + z) a b i j) (ESum (0 + z) 0 (ESum (1 + z) 1 (EMul (ET 24 [a; (0 + z); i; (1 + z)]) (ET 18 [(1 + z); b; (0 + z); j]))))).
Definition r_cgeom_X2B_9 (z a b i j : nat) : ex := (EAdd (r_cgeom_X2B_8 (0 + z) a b i j) (ESum (0 + z) 0 (ESum (1 + z) 1 (EMul (ET 29 [(0 + z); b; (1 + z); j]) (ET 12 [a; (1 + z); i; (0 + z)]))))).
Definition r_cgeom_X2B_10 (z a b i j : nat) : ex := (EAdd (r_cgeom_X2B_9 (0 + z) a b i j) (ESum (0 + z) 0 (ESum (1 + z) 1 (EMul (ET 30 [b; (0 + z); j; (1 + z)]) (ET 13 [a; (1 + z); i; (0 + z)]))))).
Definition r_cgeom_X2B_11 (z a b i j : nat) : ex := (ESub (r_cgeom_X2B_10 (0 + z) a b i j) (ESum (0 + z) 0 (ESum (1 + z) 1 (EMul (ET 35 [(0 + z); b; i; (1 + z)]) (ET 13 [a; (1 + z); (0 + z); j]))))).
Definition r_cgeom_X2B_12 (z a b i j : nat) : ex := (ESub (r_cgeom_X2B_11 (0 + z) a b i j) (ESum (0 + z) 0 (ESum (1 + z) 1 (EMul (ET 36 [a; (0 + z); (1 + z); j]) (ET 13 [(1 + z); b; i; (0 + z)]))))).
Definition r_cgeom_X2B_13 (z a b i j : nat) : ex := (EAdd (r_cgeom_X2B_12 (0 + z) a b i j) (ESum (0 + z) 1 (EMul (ET 37 [a; b; (0 + z); j]) (ET 9 [(0 + z); i])))).
Definition r_cgeom_X2B_14 (z a b i j : nat) : ex := (EAdd (r_cgeom_X2B_13 (0 + z) a b i j) (ESum (0 + z) 1 (EMul (ET 38 [a; b; i; (0 + z)]) (ET 11 [(0 + z); j])))).
Definition r_cgeom_X2B_15 (z a b i j : nat) : ex := (ESub (r_cgeom_X2B_14 (0 + z) a b i j) (ESum (0 + z) 0 (EMul (ET 39 [(0 + z); b; i; j]) (ET 9 [a; (0 + z)])))).
Definition r_cgeom_X2B_16 (z a b i j : nat) : ex := (ESub (r_cgeom_X2B_15 (0 + z) a b i j) (ESum (0 + z) 0 (EMul (ET 40 [a; (0 + z); i; j]) (ET 11 [b; (0 + z)])))).
Definition r_cgeom_X2B_17 (z a b i j : nat) : ex := (EAdd (r_cgeom_X2B_16 (0 + z) a b i j) (ESum (0 + z) 1 (EMul (r_cgeom_X_a_vv (1 + z) a (0 + z)) (ET 5 [(0 + z); b; i; j])))).
Definition r_cgeom_X2B_18 (z a b i j : nat) : ex := (ESub (r_cgeom_X2B_17 (0 + z) a b i j) (ESum (0 + z) 0 (EMul (r_cgeom_X_a_oo (1 + z) (0 + z) i) (ET 5 [a; b; (0 + z); j])))).
Definition r_cgeom_X2B_19 (z a b i j : nat) : ex := (EAdd (r_cgeom_X2B_18 (0 + z) a b i j) (ESum (0 + z) 1 (EMul (r_cgeom_X_b_vv (1 + z) b (0 + z)) (ET 5 [a; (0 + z); i; j])))).
Definition r_cgeom_X2B_20 (z a b i j : nat) : ex := (ESub (r_cgeom_X2B_19 (0 + z) a b i j) (ESum (0 + z) 0 (EMul (r_cgeom_X_b_oo (1 + z) (0 + z) j) (ET 5 [a; b; i; (0 + z)])))).
Definition r_cgeom_dR_bb (z a b i j : nat) : ex := (r_cgeom_X2A_12 (0 + z) a b i j).
Definition r_cgleft_X_a_vv (z g e : nat) : ex := (EAdd (EScale (1) 2 (ESum (0 + z) 1 (ESum (1 + z) 0 (ESum (2 + z) 0 (EMul (ET 12 [e; (0 + z); (1 + z); (2 + z)]) (ET 2 [(0 + z); g; (2 + z); (1 + z)])))))) (ESum (0 + z) 1 (ESum (1 + z) 0 (ESum (2 + z) 0 (EMul (ET 13 [e; (0 + z); (1 + z); (2 + z)]) (ET 5 [g; (0 + z); (1 + z); (2 + z)])))))).
Definition r_cgleft_X_a_oo (z m n : nat) : ex := (ESub (EScale (-1) 2 (ESum (0 + z) 1 (ESum (1 + z) 1 (ESum (2 + z) 0 (EMul (ET 12 [(0 + z); (1 + z); m; (2 + z)]) (ET 2 [(0 + z); (1 + z); n; (2 + z)])))))) (ESum (0 + z) 1 (ESum (1 + z) 1 (ESum (2 + z) 0 (EMul (ET 13 [(0 + z); (1 + z); m; (2 + z)]) (ET 5 [(0 + z); (1 + z); n; (2 + z)])))))).
Definition r_cgleft_X_b_vv (z f a : nat) : ex := (EAdd (EScale (1) 2 (ESum (0 + z) 1 (ESum (1 + z) 0 (ESum (2 + z) 0 (EMul (ET 18 [a; (0 + z); (1 + z); (2 + z)]) (ET 7 [f; (0 + z); (1 + z); (2 + z)])))))) (ESum (0 + z) 1 (ESum (1 + z) 0 (ESum (2 + z) 0 (EMul (ET 13 [(0 + z); a; (1 + z); (2 + z)]) (ET 5 [(0 + z); f; (1 + z); (2 + z)])))))).
Definition r_cgleft_X_b_oo (z i n : nat) : ex := (ESub (EScale (-1) 2 (ESum (0 + z) 1 (ESum (1 + z) 1 (ESum (2 + z) 0 (EMul (ET 18 [(0 + z); (1 + z); i; (2 + z)]) (ET 7 [(0 + z); (1 + z); n; (2 + z)])))))) (ESum (0 + z) 1 (ESum (1 + z) 1 (ESum (2 + z) 0 (EMul (ET 13 [(0 + z); (1 + z); (2 + z); i]) (ET 5 [(0 + z); (1 + z); (2 + z); n])))))).
Definition r_cgleft_X_aa_oooo (z i j m n : nat) : ex := (EScale (1) 2 (ESum (0 + z) 1 (ESum (1 + z) 1 (EMul (ET 12 [(0 + z); (1 + z); i; j]) (ET 2 [(0 + z); (1 + z); m; n]))))).
Definition r_cgleft_X_ab_oooo (z i j m n : nat) : ex := (ESum (0 + z) 1 (ESum (1 + z) 1 (EMul (ET 13 [(0 + z); (1 + z); i; j]) (ET 5 [(0 + z); (1 + z); m; n])))).
Definition r_cgleft_X_bb_oooo (z i j m n : nat) : ex := (EScale (1) 2 (ESum (0 + z) 1 (ESum (1 + z) 1 (EMul (ET 18 [(0 + z); (1 + z); i; j]) (ET 7 [(0 + z); (1 + z); m; n]))))).
Definition r_cgleft_X_aa_ooov (z j i n e : nat) : ex := (ESum (0 + z) 1 (EMul (ET 12 [(0 + z); e; j; i]) (ET 44 [(0 + z); n]))).
Definition r_cgleft_X_ab_ooov (z i j m f : nat) : ex := (ESum (0 + z) 1 (EMul (ET 13 [(0 + z); f; i; j]) (ET 44 [(0 + z); m]))).
Definition r_cgleft_X_ab_oovo (z i j e n : nat) : ex := (ESum (0 + z) 1 (EMul (ET 13 [e; (0 + z); i; j]) (ET 45 [(0 + z); n]))).
Definition r_cgleft_X_bb_ooov (z j i n e : nat) : ex := (ESum (0 + z) 1 (EMul (ET 18 [(0 + z); e; j; i]) (ET 45 [(0 + z); n]))).
Definition r_cgleft_LH_a (z a i : nat) : ex := (ESum (0 + z) 1 (EMul (ET 22 [(0 + z); a]) (ET 9 [(0 + z); i]))).
Definition r_cgleft_LH_a_1 (z a i : nat) : ex := (ESub (r_cgleft_LH_a (0 + z) a i) (ESum (0 + z) 0 (EMul (ET 21 [i; (0 + z)]) (ET 9 [a; (0 + z)])))).
Definition r_cgleft_LH_a_2 (z a i : nat) : ex := (EAdd (r_cgleft_LH_a_1 (0 + z) a i) (ESum (0 + z) 1 (ESum (1 + z) 0 (EMul (ET 23 [(0 + z); i; (1 + z); a]) (ET 9 [(0 + z); (1 + z)]))))).
Definition r_cgleft_LH_a_3 (z a i : nat) : ex := (EAdd (r_cgleft_LH_a_2 (0 + z) a i) (ESum (0 + z) 1 (ESum (1 + z) 0 (EMul (ET 29 [i; (0 + z); a; (1 + z)]) (ET 11 [(0 + z); (1 + z)]))))).
Definition r_cgleft_LH_a_4 (z a i : nat) : ex := (EAdd (r_cgleft_LH_a_3 (0 + z) a i) (EScale (1) 2 (ESum (0 + z) 1 (ESum (1 + z) 1 (ESum (2 + z) 0 (EMul (ET 33 [(0 + z); (1 + z); (2 + z); a]) (ET 12 [(1 + z); (0 + z); i; (2 + z)]))))))).
Definition r_cgleft_LH_a_5 (z a i : nat) : ex := (EAdd (r_cgleft_LH_a_4 (0 + z) a i) (ESum (0 + z) 1 (ESum (1 + z) 1 (ESum (2 + z) 0 (EMul (ET 37 [(0 + z); (1 + z); a; (2 + z)]) (ET 13 [(0 + z); (1 + z); i; (2 + z)])))))).
Definition r_cgleft_LH_a_6 (z a i : nat) : ex := (ESub (r_cgleft_LH_a_5 (0 + z) a i) (EScale (1) 2 (ESum (0 + z) 1 (ESum (1 + z) 0 (ESum (2 + z) 0 (EMul (ET 32 [(0 + z); i; (1 + z); (2 + z)]) (ET 12 [a; (0 + z); (2 + z); (1 + z)]))))))).
Definition r_cgleft_LH_a_7 (z a i : nat) : ex := (ESub (r_cgleft_LH_a_6 (0 + z) a i) (ESum (0 + z) 1 (ESum (1 + z) 0 (ESum (2 + z) 0 (EMul (ET 39 [i; (0 + z); (1 + z); (2 + z)]) (ET 13 [a; (0 + z); (1 + z); (2 + z)])))))).
Definition r_cgleft_LH_a_8 (z a i : nat) : ex := (EAdd (r_cgleft_LH_a_7 (0 + z) a i) (ESum (0 + z) 1 (ESum (1 + z) 1 (EMul (r_cgleft_X_a_vv (2 + z) (0 + z) (1 + z)) (ET 14 [(1 + z); i; (0 + z); a]))))).
Definition r_cgleft_LH_a_9 (z a i : nat) : ex := (EAdd (r_cgleft_LH_a_8 (0 + z) a i) (ESum (0 + z) 1 (ESum (1 + z) 1 (EMul (r_cgleft_X_b_vv (2 + z) (0 + z) (1 + z)) (ET 19 [i; (1 + z); a; (0 + z)]))))).
Definition r_cgleft_LH_a_10 (z a i : nat) : ex := (EAdd (r_cgleft_LH_a_9 (0 + z) a i) (ESum (0 + z) 0 (ESum (1 + z) 0 (EMul (r_cgleft_X_a_oo (2 + z) (0 + z) (1 + z)) (ET 8 [(1 + z); i; (0 + z); a]))))).
Definition r_cgleft_LH_a_11 (z a i : nat) : ex := (EAdd (r_cgleft_LH_a_10 (0 + z) a i) (ESum (0 + z) 0 (ESum (1 + z) 0 (EMul (r_cgleft_X_b_oo (2 + z) (0 + z) (1 + z)) (ET 16 [i; (1 + z); a; (0 + z)]))))).
Definition r_cgleft_LH_b (z a i : nat) : ex := (r_cgleft_LH_a_11 (0 + z) a i).
Definition r_cgleft_LH_aa (z a b i j : nat) : ex := (EScale (1) 2 (ESum (0 + z) 1 (EMul (ET 22 [(0 + z); a]) (ET 12 [(0 + z); b; i; j])))).
Definition r_cgleft_LH_aa_1 (z a b i j : nat) : ex := (ESub (r_cgleft_LH_aa (0 + z) a b i j) (EScale (1) 2 (ESum (0 + z) 0 (EMul (ET 21 [i; (0 + z)]) (ET 12 [a; b; (0 + z); j]))))).
Definition r_cgleft_LH_aa_2 (z a b i j : nat) : ex := (EAdd (r_cgleft_LH_aa_1 (0 + z) a b i j) (EMul (ET 25 [j; b]) (ET 9 [a; i]))).
Definition r_cgleft_LH_aa_3 (z a b i j : nat) : ex := (ESub (r_cgleft_LH_aa_2 (0 + z) a b i j) (EScale (1) 2 (ESum (0 + z) 1 (EMul (r_cgleft_X_a_vv (1 + z) (0 + z) a) (ET 1 [i; j; (0 + z); b]))))).
Definition r_cgleft_LH_aa_4 (z a b i j : nat) : ex := (EAdd (r_cgleft_LH_aa_3 (0 + z) a b i j) (EScale (1) 2 (ESum (0 + z) 0 (EMul (r_cgleft_X_a_oo (1 + z) i (0 + z)) (ET 1 [(0 + z); j; a; b]))))).
Definition r_cgleft_LH_aa_5 (z a b i j : nat) : ex := (EAdd (r_cgleft_LH_aa_4 (0 + z) a b i j) (ESum (0 + z) 1 (ESum (1 + z) 0 (EMul (ET 23 [(0 + z); i; (1 + z); a]) (ET 12 [(0 + z); b; (1 + z); j]))))).
Definition r_cgleft_LH_aa_6 (z a b i j : nat) : ex := (EAdd (r_cgleft_LH_aa_5 (0 + z) a b i j) (ESum (0 + z) 1 (ESum (1 + z) 0 (EMul (ET 29 [i; (0 + z); a; (1 + z)]) (ET 13 [b; (0 + z); j; (1 + z)]))))).
Definition r_cgleft_LH_aa_7 (z a b i j : nat) : ex := (EAdd (r_cgleft_LH_aa_6 (0 + z) a b i j) (EScale (1) 8 (ESum (0 + z) 0 (ESum (1 + z) 0 (EMul (ET 31 [i; j; (0 + z); (1 + z)]) (ET 12 [a; b; (0 + z); (1 + z)])))))).
Definition r_cgleft_LH_aa_8 (z a b i j : nat) : ex := (EAdd (r_cgleft_LH_aa_7 (0 + z) a b i j) (EScale (1) 8 (ESum (0 + z) 0 (ESum (1 + z) 0 (EMul (r_cgleft_X_aa_oooo (2 + z) i j (0 + z) (1 + z)) (ET 1 [(0 + z); (1 + z); a; b])))))).
Definition r_cgleft_vR (z a b c : nat) : ex := (ET 0 [a; b; c]).
Definition r_cgleft_vT (z i j a b : nat) : ex := (EScale (1) 2 (ET 12 [b; a; j; i])).
Definition r_cgleft_LH_aa_9 (z a b i j : nat) : ex := (EAdd (r_cgleft_LH_aa_8 (0 + z) a b i j) (EScale (1) 4 (ESum (0 + z) 1 (ESum (1 + z) 1 (EMul (ESum (2 + z) 4 (ESub (EMul (r_cgleft_vR (3 + z) (2 + z) (1 + z) b) (r_cgleft_vR (3 + z) (2 + z) (0 + z) a)) (EMul (r_cgleft_vR (3 + z) (2 + z) (0 + z) b) (r_cgleft_vR (3 + z) (2 + z) (1 + z) a)))) (r_cgleft_vT (3 + z) j i (1 + z) (0 + z))))))).
Definition r_cgleft_LH_aa_10 (z a b i j : nat) : ex := (EAdd (r_cgleft_LH_aa_9 (0 + z) a b i j) (EScale (1) 2 (ESum (0 + z) 1 (EMul (ET 14 [(0 + z); j; a; b]) (ET 9 [(0 + z); i]))))).
Definition r_cgleft_LH_aa_11 (z a b i j : nat) : ex := (ESub (r_cgleft_LH_aa_10 (0 + z) a b i j) (EScale (1) 2 (ESum (0 + z) 0 (EMul (ET 8 [i; j; (0 + z); b]) (ET 9 [a; (0 + z)]))))).
Definition r_cgleft_LH_aa_12 (z a b i j : nat) : ex := (ESub (r_cgleft_LH_aa_11 (0 + z) a b i j) (ESub (EAdd (r_cgleft_LH_aa_11 (0 + z) b a i j) (r_cgleft_LH_aa_11 (0 + z) a b j i)) (r_cgleft_LH_aa_11 (0 + z) b a j i))).
Definition r_cgleft_LH_ab (z a b i j : nat) : ex := (EOpp (ESum (0 + z) 0 (EMul (ET 10 [i; j; (0 + z); b]) (ET 9 [a; (0 + z)])))).
Definition r_cgleft_LH_ab_1 (z a b i j : nat) : ex := (ESub (r_cgleft_LH_ab (0 + z) a b i j) (ESum (0 + z) 0 (EMul (ET 16 [i; j; a; (0 + z)]) (ET 11 [b; (0 + z)])))).
Definition r_cgleft_LH_ab_2 (z a b i j : nat) : ex := (EAdd (r_cgleft_LH_ab_1 (0 + z) a b i j) (ESum (0 + z) 1 (EMul (ET 15 [(0 + z); j; a; b]) (ET 9 [(0 + z); i])))).
Definition r_cgleft_LH_ab_3 (z a b i j : nat) : ex := (EAdd (r_cgleft_LH_ab_2 (0 + z) a b i j) (ESum (0 + z) 1 (EMul (ET 19 [i; (0 + z); a; b]) (ET 11 [(0 + z); j])))).
Definition r_cgleft_LH_ab_4 (z a b i j : nat) : ex := (EAdd (r_cgleft_LH_ab_3 (0 + z) a b i j) (ESum (0 + z) 0 (ESum (1 + z) 0 (EMul (ET 34 [i; j; (0 + z); (1 + z)]) (ET 13 [a; b; (0 + z); (1 + z)]))))).
Definition r_cgleft_LH_ab_5 (z a b i j : nat) : ex := (EAdd (r_cgleft_LH_ab_4 (0 + z) a b i j) (ESum (0 + z) 0 (ESum (1 + z) 0 (EMul (r_cgleft_X_ab_oooo (2 + z) i j (0 + z) (1 + z)) (ET 4 [(0 + z); (1 + z); a; b]))))).
Definition r_cgleft_vRa (z a b c : nat) : ex := (ET 0 [a; b; c]).
Definition r_cgleft_vRb (z a b c : nat) : ex := (ET 3 [a; b; c]).
Definition r_cgleft_vT_1 (z i j a b : nat) : ex := (ET 13 [b; a; j; i]).
Definition r_cgleft_LH_ab_6 (z a b i j : nat) : ex := (EAdd (r_cgleft_LH_ab_5 (0 + z) a b i j) (ESum (0 + z) 1 (ESum (1 + z) 1 (EMul (ESum (2 + z) 4 (EMul (r_cgleft_vRb (3 + z) (2 + z) (1 + z) b) (r_cgleft_vRa (3 + z) (2 + z) (0 + z) a))) (r_cgleft_vT_1 (3 + z) j i (1 + z) (0 + z)))))).
Definition r_cgleft_LH_ab_7 (z a b i j : nat) : ex := (EAdd (r_cgleft_LH_ab_6 (0 + z) a b i j) (ESum (0 + z) 1 (ESum (1 + z) 0 (EMul (ET 24 [(0 + z); j; (1 + z); b]) (ET 12 [a; (0 + z); i; (1 + z)]))))).
Definition r_cgleft_LH_ab_8 (z a b i j : nat) : ex := (EAdd (r_cgleft_LH_ab_7 (0 + z) a b i j) (ESum (0 + z) 1 (ESum (1 + z) 0 (EMul (ET 23 [(0 + z); i; (1 + z); a]) (ET 13 [(0 + z); b; (1 + z); j]))))).
Definition r_cgleft_LH_ab_9 (z a b i j : nat) : ex := (EAdd (r_cgleft_LH_ab_8 (0 + z) a b i j) (ESum (0 + z) 1 (ESum (1 + z) 0 (EMul (ET 30 [(0 + z); j; (1 + z); b]) (ET 13 [a; (0 + z); i; (1 + z)]))))).
Definition r_cgleft_LH_ab_10 (z a b i j : nat) : ex := (EAdd (r_cgleft_LH_ab_9 (0 + z) a b i j) (ESum (0 + z) 1 (ESum (1 + z) 0 (EMul (ET 29 [i; (0 + z); a; (1 + z)]) (ET 18 [(0 + z); b; (1 + z); j]))))).
Definition r_cgleft_LH_ab_11 (z a b i j : nat) : ex := (ESub (r_cgleft_LH_ab_10 (0 + z) a b i j) (ESum (0 + z) 1 (ESum (1 + z) 0 (EMul (ET 35 [i; (0 + z); (1 + z); b]) (ET 13 [a; (0 + z); (1 + z); j]))))).
Definition r_cgleft_LH_ab_12 (z a b i j : nat) : ex := (ESub (r_cgleft_LH_ab_11 (0 + z) a b i j) (ESum (0 + z) 1 (ESum (1 + z) 0 (EMul (ET 36 [(0 + z); j; a; (1 + z)]) (ET 13 [(0 + z); b; i; (1 + z)]))))).
Definition r_cgleft_LH_ab_13 (z a b i j : nat) : ex := (ESub (r_cgleft_LH_ab_12 (0 + z) a b i j) (ESum (0 + z) 1 (EMul (r_cgleft_X_a_vv (1 + z) (0 + z) a) (ET 4 [i; j; (0 + z); b])))).
Definition r_cgleft_LH_ab_14 (z a b i j : nat) : ex := (EAdd (r_cgleft_LH_ab_13 (0 + z) a b i j) (ESum (0 + z) 0 (EMul (r_cgleft_X_a_oo (1 + z) i (0 + z)) (ET 4 [(0 + z); j; a; b])))).
Definition r_cgleft_LH_ab_15 (z a b i j : nat) : ex := (ESub (r_cgleft_LH_ab_14 (0 + z) a b i j) (ESum (0 + z) 1 (EMul (r_cgleft_X_b_vv (1 + z) (0 + z) b) (ET 4 [i; j; a; (0 + z)])))).
Definition r_cgleft_LH_ab_16 (z a b i j : nat) : ex := (EAdd (r_cgleft_LH_ab_15 (0 + z) a b i j) (ESum (0 + z) 0 (EMul (r_cgleft_X_b_oo (1 + z) j (0 + z)) (ET 4 [i; (0 + z); a; b])))).
Definition r_cgleft_LH_ab_17 (z a b i j : nat) : ex := (EAdd (r_cgleft_LH_ab_16 (0 + z) a b i j) (ESum (0 + z) 1 (EMul (ET 22 [(0 + z); a]) (ET 13 [(0 + z); b; i; j])))).
Definition r_cgleft_LH_ab_18 (z a b i j : nat) : ex := (EAdd (r_cgleft_LH_ab_17 (0 + z) a b i j) (ESum (0 + z) 1 (EMul (ET 28 [(0 + z); b]) (ET 13 [a; (0 + z); i; j])))).
Definition r_cgleft_LH_ab_19 (z a b i j : nat) : ex := (ESub (r_cgleft_LH_ab_18 (0 + z) a b i j) (ESum (0 + z) 0 (EMul (ET 21 [i; (0 + z)]) (ET 13 [a; b; (0 + z); j])))).
Definition r_cgleft_LH_ab_20 (z a b i j : nat) : ex := (ESub (r_cgleft_LH_ab_19 (0 + z) a b i j) (ESum (0 + z) 0 (EMul (ET 27 [j; (0 + z)]) (ET 13 [a; b; i; (0 + z)])))).
Definition r_cgleft_LH_ab_21 (z a b i j : nat) : ex := (EAdd (r_cgleft_LH_ab_20 (0 + z) a b i j) (EMul (ET 26 [j; b]) (ET 9 [a; i]))).
Definition r_cgleft_LH_ab_22 (z a b i j : nat) : ex := (EAdd (r_cgleft_LH_ab_21 (0 + z) a b i j) (EMul (ET 25 [i; a]) (ET 11 [b; j]))).
Definition r_cgleft_LH_bb (z a b i j : nat) : ex := (r_cgleft_LH_aa_12 (0 + z) a b i j).
Definition p_HR_a : ex * ex := (r_eom_X1A_9 2 0 1, r_cfeom_X1A_9 2 0 1).
Definition q_HR_a : ex * ex := (r_eom_X1A_9 2 0 1, r_cgeom_X1A_9 2 0 1).
Definition p_HR_b : ex * ex := (r_eom_X1B_9 2 0 1, r_cfeom_X1B_9 2 0 1).
Definition q_HR_b : ex * ex := (r_eom_X1B_9 2 0 1, r_cgeom_dR_b 2 0 1).
Definition p_HR_aa : ex * ex := (r_eom_X2A_11 4 0 1 2 3, r_cfeom_X2A_12 4 0 1 2 3).
Definition q_HR_aa : ex * ex := (r_eom_X2A_11 4 0 1 2 3, r_cgeom_X2A_12 4 0 1 2 3).
Definition p_HR_ab : ex * ex := (r_eom_X2B_19 4 0 1 2 3, r_cfeom_X2B_20 4 0 1 2 3).
Definition q_HR_ab : ex * ex := (r_eom_X2B_19 4 0 1 2 3, r_cgeom_X2B_20 4 0 1 2 3).
Definition p_HR_bb : ex * ex := (r_eom_X2C_11 4 0 1 2 3, r_cfeom_X2C_12 4 0 1 2 3).
Definition q_HR_bb : ex * ex := (r_eom_X2C_11 4 0 1 2 3, r_cgeom_dR_bb 4 0 1 2 3).
Definition p_LH_a : ex * ex := (r_left_LH_a_11 2 0 1, r_cfleft_LH_a_11 2 0 1).
Definition q_LH_a : ex * ex := (r_left_LH_a_11 2 0 1, r_cgleft_LH_a_11 2 0 1).
Definition p_LH_b : ex * ex := (r_left_LH_b_9 2 0 1, r_cfleft_LH_b_9 2 0 1).
Definition q_LH_b : ex * ex := (r_left_LH_b_9 2 0 1, r_cgleft_LH_b 2 0 1).
Definition p_LH_aa : ex * ex := (r_left_LH_aa_11 4 0 1 2 3, r_cfleft_LH_aa_12 4 0 1 2 3).
Definition q_LH_aa : ex * ex := (r_left_LH_aa_11 4 0 1 2 3, r_cgleft_LH_aa_12 4 0 1 2 3).
Definition p_LH_ab : ex * ex := (r_left_LH_ab_21 4 0 1 2 3, r_cfleft_LH_ab_22 4 0 1 2 3).
Definition q_LH_ab : ex * ex := (r_left_LH_ab_21 4 0 1 2 3, r_cgleft_LH_ab_22 4 0 1 2 3).
Definition p_LH_bb : ex * ex := (r_left_LH_bb_11 4 0 1 2 3, r_cfleft_LH_bb_12 4 0 1 2 3).
Definition q_LH_bb : ex * ex := (r_left_LH_bb_11 4 0 1 2 3, r_cgleft_LH_bb 4 0 1 2 3).
Definition all_pe := [p_HR_a; p_HR_b; p_HR_aa; p_HR_ab; p_HR_bb; p_LH_a; p_LH_b; p_LH_aa; p_LH_ab; p_LH_bb].
Definition all_qe := [q_HR_a; q_HR_b; q_HR_aa; q_HR_ab; q_HR_bb; q_LH_a; q_LH_b; q_LH_aa; q_LH_ab; q_LH_bb].
Definition che_arrays (d : dims) (nx : nat) (C : chol) (H : ints) (T R : amps) := [ap3 (c_a_vv C);
  ap4 (i_aa_oovv H);
  ap4 (x_aa T);
  ap3 (c_b_vv C);
  ap4 (i_ab_oovv H);
  ap4 (x_ab T);
  ap4 (i_bb_oovv H);
  ap4 (x_bb T);
  ap4 (i_aa_ooov H);
  ap2 (x_a R);
  ap4 (i_ab_ooov H);
  ap2 (x_b R);
  ap4 (x_aa R);
  ap4 (x_ab R);
  ap4 (i_aa_vovv H);
  ap4 (i_ab_vovv H);
  ap4 (i_ab_oovo H);
  ap4 (i_bb_ooov H);
  ap4 (x_bb R);
  ap4 (i_ab_ovvv H);
  ap4 (i_bb_vovv H);
  ap2 (i_a_oo H);
  ap2 (i_a_vv H);
  ap4 (i_aa_voov H);
  ap4 (i_ab_voov H);
  ap2 (i_a_ov H);
  ap2 (i_b_ov H);
  ap2 (i_b_oo H);
  ap2 (i_b_vv H);
  ap4 (i_ab_ovvo H);
  ap4 (i_bb_voov H);
  ap4 (i_aa_oooo H);
  ap4 (i_aa_vooo H);
  ap4 (i_aa_vvov H);
  ap4 (i_ab_oooo H);
  ap4 (i_ab_ovov H);
  ap4 (i_ab_vovo H);
  ap4 (i_ab_vvvo H);
  ap4 (i_ab_vvov H);
  ap4 (i_ab_ovoo H);
  ap4 (i_ab_vooo H);
  ap4 (i_bb_oooo H);
  ap4 (i_bb_vooo H);
  ap4 (i_bb_vvov H);
  ap2 (x_a T);
  ap2 (x_b T);
  ap4 (i_aa_oovo H);
  ap4 (i_aa_ovvv H);
  ap4 (i_bb_oovo H);
  ap4 (i_bb_ovvv H);
  ap4 (i_aa_ovov H);
  ap4 (i_aa_vovo H);
  ap4 (i_bb_ovov H);
  ap4 (i_bb_vovo H);
  ap4 (i_aa_ovoo H);
  ap4 (i_aa_vvvo H);
  ap4 (i_bb_ovoo H);
  ap4 (i_bb_vvvo H);
  ap4 (i_aa_ovvo H);
  ap4 (i_bb_ovvo H)].
Definition che_gens : list (nat * (nat * list nat * bool)) := [(1, (1, [1; 0; 2; 3], false));
  (1, (1, [0; 1; 3; 2], false));
  (2, (2, [1; 0; 2; 3], false));
  (2, (2, [0; 1; 3; 2], false));
  (6, (6, [1; 0; 2; 3], false));
  (6, (6, [0; 1; 3; 2], false));
  (7, (7, [1; 0; 2; 3], false));
  (7, (7, [0; 1; 3; 2], false));
  (8, (8, [1; 0; 2; 3], false));
  (8, (46, [0; 1; 3; 2], false));
  (12, (12, [1; 0; 2; 3], false));
  (12, (12, [0; 1; 3; 2], false));
  (14, (47, [1; 0; 2; 3], false));
  (14, (14, [0; 1; 3; 2], false));
  (17, (17, [1; 0; 2; 3], false));
  (17, (48, [0; 1; 3; 2], false));
  (18, (18, [1; 0; 2; 3], false));
  (18, (18, [0; 1; 3; 2], false));
  (20, (49, [1; 0; 2; 3], false));
  (20, (20, [0; 1; 3; 2], false));
  (23, (50, [1; 0; 2; 3], false));
  (23, (51, [0; 1; 3; 2], false));
  (30, (52, [1; 0; 2; 3], false));
  (30, (53, [0; 1; 3; 2], false));
  (31, (31, [1; 0; 2; 3], false));
  (31, (31, [0; 1; 3; 2], false));
  (32, (54, [1; 0; 2; 3], false));
  (32, (32, [0; 1; 3; 2], false));
  (33, (33, [1; 0; 2; 3], false));
  (33, (55, [0; 1; 3; 2], false));
  (41, (41, [1; 0; 2; 3], false));
  (41, (41, [0; 1; 3; 2], false));
  (42, (56, [1; 0; 2; 3], false));
  (42, (42, [0; 1; 3; 2], false));
  (43, (43, [1; 0; 2; 3], false));
  (43, (57, [0; 1; 3; 2], false));
  (46, (46, [1; 0; 2; 3], false));
  (46, (8, [0; 1; 3; 2], false));
  (47, (14, [1; 0; 2; 3], false));
  (47, (47, [0; 1; 3; 2], false));
  (48, (48, [1; 0; 2; 3], false));
  (48, (17, [0; 1; 3; 2], false));
  (49, (20, [1; 0; 2; 3], false));
  (49, (49, [0; 1; 3; 2], false));
  (50, (23, [1; 0; 2; 3], false));
  (50, (58, [0; 1; 3; 2], false));
  (51, (58, [1; 0; 2; 3], false));
  (51, (23, [0; 1; 3; 2], false));
  (52, (30, [1; 0; 2; 3], false));
  (52, (59, [0; 1; 3; 2], false));
  (53, (59, [1; 0; 2; 3], false));
  (53, (30, [0; 1; 3; 2], false));
  (54, (32, [1; 0; 2; 3], false));
  (54, (54, [0; 1; 3; 2], false));
  (55, (55, [1; 0; 2; 3], false));
  (55, (33, [0; 1; 3; 2], false));
  (56, (42, [1; 0; 2; 3], false));
  (56, (56, [0; 1; 3; 2], false));
  (57, (57, [1; 0; 2; 3], false));
  (57, (43, [0; 1; 3; 2], false));
  (58, (51, [1; 0; 2; 3], false));
  (58, (50, [0; 1; 3; 2], false));
  (59, (53, [1; 0; 2; 3], false));
  (59, (52, [0; 1; 3; 2], false))].
Definition che_tab := Eval vm_compute in symtab che_gens 60.
Definition chec_arrays (d : dims) (nx : nat) (C : chol) (H : ints) (T R : amps) := [ap3 (c_a_vv C);
  ap4 (i_aa_oovv H);
  ap4 (x_aa T);
  ap3 (c_b_vv C);
  ap4 (i_ab_oovv H);
  ap4 (x_ab T);
  ap4 (i_bb_oovv H);
  ap4 (x_bb T);
  ap4 (i_aa_ooov H);
  ap2 (x_a R);
  ap4 (i_ab_ooov H);
  ap2 (x_b R);
  ap4 (x_aa R);
  ap4 (x_ab R);
  ap4 (i_aa_vovv H);
  ap4 (i_ab_vovv H);
  ap4 (i_ab_oovo H);
  ap4 (i_bb_ooov H);
  ap4 (x_bb R);
  ap4 (i_ab_ovvv H);
  ap4 (i_bb_vovv H);
  ap2 (i_a_oo H);
  ap2 (i_a_vv H);
  ap4 (i_aa_voov H);
  ap4 (i_ab_voov H);
  ap2 (i_a_ov H);
  ap2 (i_b_ov H);
  ap2 (i_b_oo H);
  ap2 (i_b_vv H);
  ap4 (i_ab_ovvo H);
  ap4 (i_bb_voov H);
  ap4 (i_aa_oooo H);
  ap4 (i_aa_vooo H);
  ap4 (i_aa_vvov H);
  ap4 (i_ab_oooo H);
  ap4 (i_ab_ovov H);
  ap4 (i_ab_vovo H);
  ap4 (i_ab_vvvo H);
  ap4 (i_ab_vvov H);
  ap4 (i_ab_ovoo H);
  ap4 (i_ab_vooo H);
  ap4 (i_bb_oooo H);
  ap4 (i_bb_vooo H);
  ap4 (i_bb_vvov H);
  ap2 (x_a T);
  ap2 (x_b T);
  ap4 (i_aa_oovo H);
  ap4 (i_aa_ovvv H);
  ap4 (i_bb_oovo H);
  ap4 (i_bb_ovvv H);
  ap4 (i_aa_ovov H);
  ap4 (i_aa_vovo H);
  ap4 (i_bb_ovov H);
  ap4 (i_bb_vovo H);
  ap4 (i_aa_ovoo H);
  ap4 (i_aa_vvvo H);
  ap4 (i_bb_ovoo H);
  ap4 (i_bb_vvvo H);
  ap4 (i_aa_ovvo H);
  ap4 (i_bb_ovvo H)].
Definition chec_gens : list (nat * (nat * list nat * bool)) := [(1, (1, [1; 0; 2; 3], false));
  (1, (1, [0; 1; 3; 2], false));
  (2, (2, [1; 0; 2; 3], false));
  (2, (2, [0; 1; 3; 2], false));
  (3, (0, [0; 1; 2], true));
  (4, (4, [1; 0; 3; 2], true));
  (5, (5, [1; 0; 3; 2], true));
  (6, (6, [1; 0; 2; 3], false));
  (6, (6, [0; 1; 3; 2], false));
  (6, (1, [0; 1; 2; 3], true));
  (7, (7, [1; 0; 2; 3], false));
  (7, (7, [0; 1; 3; 2], false));
  (7, (2, [0; 1; 2; 3], true));
  (8, (8, [1; 0; 2; 3], false));
  (8, (46, [0; 1; 3; 2], false));
  (10, (16, [1; 0; 3; 2], true));
  (11, (9, [0; 1], true));
  (12, (12, [1; 0; 2; 3], false));
  (12, (12, [0; 1; 3; 2], false));
  (13, (13, [1; 0; 3; 2], true));
  (14, (47, [1; 0; 2; 3], false));
  (14, (14, [0; 1; 3; 2], false));
  (15, (19, [1; 0; 3; 2], true));
  (16, (10, [1; 0; 3; 2], true));
  (17, (17, [1; 0; 2; 3], false));
  (17, (48, [0; 1; 3; 2], false));
  (17, (8, [0; 1; 2; 3], true));
  (18, (18, [1; 0; 2; 3], false));
  (18, (18, [0; 1; 3; 2], false));
  (18, (12, [0; 1; 2; 3], true));
  (19, (15, [1; 0; 3; 2], true));
  (20, (49, [1; 0; 2; 3], false));
  (20, (20, [0; 1; 3; 2], false));
  (20, (14, [0; 1; 2; 3], true));
  (23, (50, [1; 0; 2; 3], false));
  (23, (51, [0; 1; 3; 2], false));
  (24, (29, [1; 0; 3; 2], true));
  (26, (25, [0; 1], true));
  (27, (21, [0; 1], true));
  (28, (22, [0; 1], true));
  (29, (24, [1; 0; 3; 2], true));
  (30, (52, [1; 0; 2; 3], false));
  (30, (53, [0; 1; 3; 2], false));
  (30, (23, [0; 1; 2; 3], true));
  (31, (31, [1; 0; 2; 3], false));
  (31, (31, [0; 1; 3; 2], false));
  (32, (54, [1; 0; 2; 3], false));
  (32, (32, [0; 1; 3; 2], false));
  (33, (33, [1; 0; 2; 3], false));
  (33, (55, [0; 1; 3; 2], false));
  (34, (34, [1; 0; 3; 2], true));
  (35, (36, [1; 0; 3; 2], true));
  (36, (35, [1; 0; 3; 2], true));
  (37, (38, [1; 0; 3; 2], true));
  (38, (37, [1; 0; 3; 2], true));
  (39, (40, [1; 0; 3; 2], true));
  (40, (39, [1; 0; 3; 2], true));
  (41, (41, [1; 0; 2; 3], false));
  (41, (41, [0; 1; 3; 2], false));
  (41, (31, [0; 1; 2; 3], true));
  (42, (56, [1; 0; 2; 3], false));
  (42, (42, [0; 1; 3; 2], false));
  (42, (32, [0; 1; 2; 3], true));
  (43, (43, [1; 0; 2; 3], false));
  (43, (57, [0; 1; 3; 2], false));
  (43, (33, [0; 1; 2; 3], true));
  (45, (44, [0; 1], true));
  (46, (46, [1; 0; 2; 3], false));
  (46, (8, [0; 1; 3; 2], false));
  (47, (14, [1; 0; 2; 3], false));
  (47, (47, [0; 1; 3; 2], false));
  (48, (48, [1; 0; 2; 3], false));
  (48, (17, [0; 1; 3; 2], false));
  (48, (46, [0; 1; 2; 3], true));
  (49, (20, [1; 0; 2; 3], false));
  (49, (49, [0; 1; 3; 2], false));
  (49, (47, [0; 1; 2; 3], true));
  (50, (23, [1; 0; 2; 3], false));
  (50, (58, [0; 1; 3; 2], false));
  (51, (58, [1; 0; 2; 3], false));
  (51, (23, [0; 1; 3; 2], false));
  (52, (30, [1; 0; 2; 3], false));
  (52, (59, [0; 1; 3; 2], false));
  (52, (50, [0; 1; 2; 3], true));
  (53, (59, [1; 0; 2; 3], false));
  (53, (30, [0; 1; 3; 2], false));
  (53, (51, [0; 1; 2; 3], true));
  (54, (32, [1; 0; 2; 3], false));
  (54, (54, [0; 1; 3; 2], false));
  (55, (55, [1; 0; 2; 3], false));
  (55, (33, [0; 1; 3; 2], false));
  (56, (42, [1; 0; 2; 3], false));
  (56, (56, [0; 1; 3; 2], false));
  (56, (54, [0; 1; 2; 3], true));
  (57, (57, [1; 0; 2; 3], false));
  (57, (43, [0; 1; 3; 2], false));
  (57, (55, [0; 1; 2; 3], true));
  (58, (51, [1; 0; 2; 3], false));
  (58, (50, [0; 1; 3; 2], false));
  (59, (53, [1; 0; 2; 3], false));
  (59, (52, [0; 1; 3; 2], false));
  (59, (58, [0; 1; 2; 3], true))].
Definition chec_tab := Eval vm_compute in symtab chec_gens 60.
