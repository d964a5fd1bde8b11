(** Generated by tools/gen_eomccsd.py from the source text (symbolic execution of the numpy statements; exact reals).
    Models ccpy/eomcc/eomccsd.py (HR, build_HR_1A .. build_HR_2C), ccpy/eomcc/eomccsd_intermediates.py (get_eomccsd_intermediates),
    ccpy/left/left_ccsd.py (LH_fun, build_LH_1A .. build_LH_2C), ccpy/left/left_cc_intermediates.py (build_left_ccsd_intermediates); flag_RHF = False. *)
From Coq Require Import Reals Arith.
From Verif Require Import RSum IntegralsModel TensorObjs.
Open Scope R_scope.
(** ccpy/eomcc/eomccsd_intermediates.py, get_eomccsd_intermediates, lines 12-18 *)
Definition eom_X_a_oo (d : dims) (H : ints) (T R : amps) : mat2 := fun m j =>
  sumn (noa d) (fun n => sumn (nua d) (fun f => (i_aa_ooov H m n j f) * (x_a R f n))) + sumn (nob d) (fun n => sumn (nub d) (fun f => (i_ab_ooov H m n j f) * (x_b R f n))) + 1 / 2 * (sumn (noa d) (fun n => sumn (nua d) (fun e => sumn (nua d) (fun f => (i_aa_oovv H m n e f) * (x_aa R e f j n))))) + sumn (nob d) (fun n => sumn (nua d) (fun e => sumn (nub d) (fun f => (i_ab_oovv H m n e f) * (x_ab R e f j n)))).
(** ccpy/eomcc/eomccsd_intermediates.py, get_eomccsd_intermediates, lines 20-26 *)
Definition eom_X_a_vv (d : dims) (H : ints) (T R : amps) : mat2 := fun b e =>
  sumn (noa d) (fun n => sumn (nua d) (fun f => (i_aa_vovv H b n e f) * (x_a R f n))) + sumn (nob d) (fun n => sumn (nub d) (fun f => (i_ab_vovv H b n e f) * (x_b R f n))) - 1 / 2 * (sumn (noa d) (fun m => sumn (noa d) (fun n => sumn (nua d) (fun f => (i_aa_oovv H m n e f) * (x_aa R b f m n))))) - sumn (noa d) (fun m => sumn (nob d) (fun n => sumn (nub d) (fun f => (i_ab_oovv H m n e f) * (x_ab R b f m n)))).
(** ccpy/eomcc/eomccsd_intermediates.py, get_eomccsd_intermediates, lines 28-34 *)
Definition eom_X_b_oo (d : dims) (H : ints) (T R : amps) : mat2 := fun m k =>
  sumn (noa d) (fun n => sumn (nua d) (fun f => (i_ab_oovo H n m f k) * (x_a R f n))) + sumn (nob d) (fun n => sumn (nub d) (fun f => (i_bb_ooov H m n k f) * (x_b R f n))) + sumn (noa d) (fun n => sumn (nua d) (fun f => sumn (nub d) (fun e => (i_ab_oovv H n m f e) * (x_ab R f e n k)))) + 1 / 2 * (sumn (nob d) (fun n => sumn (nub d) (fun e => sumn (nub d) (fun f => (i_bb_oovv H m n e f) * (x_bb R e f k n))))).
(** ccpy/eomcc/eomccsd_intermediates.py, get_eomccsd_intermediates, lines 36-42 *)
Definition eom_X_b_vv (d : dims) (H : ints) (T R : amps) : mat2 := fun c e =>
  sumn (noa d) (fun n => sumn (nua d) (fun f => (i_ab_ovvv H n c f e) * (x_a R f n))) + sumn (nob d) (fun n => sumn (nub d) (fun f => (i_bb_vovv H c n e f) * (x_b R f n))) - 1 / 1 * (sumn (noa d) (fun n => sumn (nob d) (fun m => sumn (nua d) (fun f => (i_ab_oovv H n m f e) * (x_ab R f c n m))))) - 1 / 2 * (sumn (nob d) (fun m => sumn (nob d) (fun n => sumn (nub d) (fun f => (i_bb_oovv H m n e f) * (x_bb R f c n m))))).
(** ccpy/eomcc/eomccsd.py, build_HR_1A, line 52 *)
Definition eom_X1A (d : dims) (H : ints) (T R : amps) : mat2 := fun a i =>
  (- (sumn (noa d) (fun m => (i_a_oo H m i) * (x_a R a m)))).
(** ccpy/eomcc/eomccsd.py, build_HR_1A, line 53 *)
Definition eom_X1A_1 (d : dims) (H : ints) (T R : amps) : mat2 := fun a i =>
  eom_X1A d H T R a i + sumn (nua d) (fun e => (i_a_vv H a e) * (x_a R e i)).
(** ccpy/eomcc/eomccsd.py, build_HR_1A, line 54 *)
Definition eom_X1A_2 (d : dims) (H : ints) (T R : amps) : mat2 := fun a i =>
  eom_X1A_1 d H T R a i + sumn (noa d) (fun m => sumn (nua d) (fun e => (i_aa_voov H a m i e) * (x_a R e m))).
(** ccpy/eomcc/eomccsd.py, build_HR_1A, line 55 *)
Definition eom_X1A_3 (d : dims) (H : ints) (T R : amps) : mat2 := fun a i =>
  eom_X1A_2 d H T R a i + sumn (nob d) (fun m => sumn (nub d) (fun e => (i_ab_voov H a m i e) * (x_b R e m))).
(** ccpy/eomcc/eomccsd.py, build_HR_1A, line 56 *)
Definition eom_X1A_4 (d : dims) (H : ints) (T R : amps) : mat2 := fun a i =>
  eom_X1A_3 d H T R a i - 1 / 2 * (sumn (noa d) (fun m => sumn (noa d) (fun n => sumn (nua d) (fun f => (i_aa_ooov H m n i f) * (x_aa R a f m n))))).
(** ccpy/eomcc/eomccsd.py, build_HR_1A, line 57 *)
Definition eom_X1A_5 (d : dims) (H : ints) (T R : amps) : mat2 := fun a i =>
  eom_X1A_4 d H T R a i - sumn (noa d) (fun m => sumn (nob d) (fun n => sumn (nub d) (fun f => (i_ab_ooov H m n i f) * (x_ab R a f m n)))).
(** ccpy/eomcc/eomccsd.py, build_HR_1A, line 58 *)
Definition eom_X1A_6 (d : dims) (H : ints) (T R : amps) : mat2 := fun a i =>
  eom_X1A_5 d H T R a i + 1 / 2 * (sumn (noa d) (fun n => sumn (nua d) (fun e => sumn (nua d) (fun f => (i_aa_vovv H a n e f) * (x_aa R e f i n))))).
(** ccpy/eomcc/eomccsd.py, build_HR_1A, line 59 *)
Definition eom_X1A_7 (d : dims) (H : ints) (T R : amps) : mat2 := fun a i =>
  eom_X1A_6 d H T R a i + sumn (nob d) (fun n => sumn (nua d) (fun e => sumn (nub d) (fun f => (i_ab_vovv H a n e f) * (x_ab R e f i n)))).
(** ccpy/eomcc/eomccsd.py, build_HR_1A, line 60 *)
Definition eom_X1A_8 (d : dims) (H : ints) (T R : amps) : mat2 := fun a i =>
  eom_X1A_7 d H T R a i + sumn (noa d) (fun m => sumn (nua d) (fun e => (i_a_ov H m e) * (x_aa R a e i m))).
(** ccpy/eomcc/eomccsd.py, build_HR_1A, line 61 *)
Definition eom_X1A_9 (d : dims) (H : ints) (T R : amps) : mat2 := fun a i =>
  eom_X1A_8 d H T R a i + sumn (nob d) (fun m => sumn (nub d) (fun e => (i_b_ov H m e) * (x_ab R a e i m))).
(** ccpy/eomcc/eomccsd.py, build_HR_1B, line 66 *)
Definition eom_X1B (d : dims) (H : ints) (T R : amps) : mat2 := fun a i =>
  (- (sumn (nob d) (fun m => (i_b_oo H m i) * (x_b R a m)))).
(** ccpy/eomcc/eomccsd.py, build_HR_1B, line 67 *)
Definition eom_X1B_1 (d : dims) (H : ints) (T R : amps) : mat2 := fun a i =>
  eom_X1B d H T R a i + sumn (nub d) (fun e => (i_b_vv H a e) * (x_b R e i)).
(** ccpy/eomcc/eomccsd.py, build_HR_1B, line 68 *)
Definition eom_X1B_2 (d : dims) (H : ints) (T R : amps) : mat2 := fun a i =>
  eom_X1B_1 d H T R a i + sumn (noa d) (fun m => sumn (nua d) (fun e => (i_ab_ovvo H m a e i) * (x_a R e m))).
(** ccpy/eomcc/eomccsd.py, build_HR_1B, line 69 *)
Definition eom_X1B_3 (d : dims) (H : ints) (T R : amps) : mat2 := fun a i =>
  eom_X1B_2 d H T R a i + sumn (nob d) (fun m => sumn (nub d) (fun e => (i_bb_voov H a m i e) * (x_b R e m))).
(** ccpy/eomcc/eomccsd.py, build_HR_1B, line 70 *)
Definition eom_X1B_4 (d : dims) (H : ints) (T R : amps) : mat2 := fun a i =>
  eom_X1B_3 d H T R a i - sumn (noa d) (fun n => sumn (nob d) (fun m => sumn (nua d) (fun f => (i_ab_oovo H n m f i) * (x_ab R f a n m)))).
(** ccpy/eomcc/eomccsd.py, build_HR_1B, line 71 *)
Definition eom_X1B_5 (d : dims) (H : ints) (T R : amps) : mat2 := fun a i =>
  eom_X1B_4 d H T R a i - 1 / 2 * (sumn (nob d) (fun m => sumn (nob d) (fun n => sumn (nub d) (fun f => (i_bb_ooov H m n i f) * (x_bb R a f m n))))).
(** ccpy/eomcc/eomccsd.py, build_HR_1B, line 72 *)
Definition eom_X1B_6 (d : dims) (H : ints) (T R : amps) : mat2 := fun a i =>
  eom_X1B_5 d H T R a i + sumn (noa d) (fun n => sumn (nua d) (fun f => sumn (nub d) (fun e => (i_ab_ovvv H n a f e) * (x_ab R f e n i)))).
(** ccpy/eomcc/eomccsd.py, build_HR_1B, line 73 *)
Definition eom_X1B_7 (d : dims) (H : ints) (T R : amps) : mat2 := fun a i =>
  eom_X1B_6 d H T R a i + 1 / 2 * (sumn (nob d) (fun n => sumn (nub d) (fun e => sumn (nub d) (fun f => (i_bb_vovv H a n e f) * (x_bb R e f i n))))).
(** ccpy/eomcc/eomccsd.py, build_HR_1B, line 74 *)
Definition eom_X1B_8 (d : dims) (H : ints) (T R : amps) : mat2 := fun a i =>
  eom_X1B_7 d H T R a i + sumn (noa d) (fun m => sumn (nua d) (fun e => (i_a_ov H m e) * (x_ab R e a m i))).
(** ccpy/eomcc/eomccsd.py, build_HR_1B, line 75 *)
Definition eom_X1B_9 (d : dims) (H : ints) (T R : amps) : mat2 := fun a i =>
  eom_X1B_8 d H T R a i + sumn (nob d) (fun m => sumn (nub d) (fun e => (i_b_ov H m e) * (x_bb R a e i m))).
(** ccpy/eomcc/eomccsd.py, build_HR_2A, line 80 *)
Definition eom_X2A (d : dims) (H : ints) (T R : amps) : mat4 := fun a b i j =>
  (-1) / 2 * (sumn (noa d) (fun m => (i_a_oo H m i) * (x_aa R a b m j))).
(** ccpy/eomcc/eomccsd.py, build_HR_2A, line 81 *)
Definition eom_X2A_1 (d : dims) (H : ints) (T R : amps) : mat4 := fun a b i j =>
  eom_X2A d H T R a b i j + 1 / 2 * (sumn (nua d) (fun e => (i_a_vv H a e) * (x_aa R e b i j))).
(** ccpy/eomcc/eomccsd.py, build_HR_2A, line 82 *)
Definition eom_X2A_2 (d : dims) (H : ints) (T R : amps) : mat4 := fun a b i j =>
  eom_X2A_1 d H T R a b i j + 1 / 8 * (sumn (noa d) (fun m => sumn (noa d) (fun n => (i_aa_oooo H m n i j) * (x_aa R a b m n)))).
(** ccpy/eomcc/eomccsd.py, build_HR_2A, line 83 *)
Definition eom_X2A_3 (d : dims) (H : ints) (T R : amps) : mat4 := fun a b i j =>
  eom_X2A_2 d H T R a b i j + 1 / 8 * (sumn (nua d) (fun e => sumn (nua d) (fun f => (i_aa_vvvv H a b e f) * (x_aa R e f i j)))).
(** ccpy/eomcc/eomccsd.py, build_HR_2A, line 84 *)
Definition eom_X2A_4 (d : dims) (H : ints) (T R : amps) : mat4 := fun a b i j =>
  eom_X2A_3 d H T R a b i j + sumn (noa d) (fun m => sumn (nua d) (fun e => (i_aa_voov H a m i e) * (x_aa R e b m j))).
(** ccpy/eomcc/eomccsd.py, build_HR_2A, line 85 *)
Definition eom_X2A_5 (d : dims) (H : ints) (T R : amps) : mat4 := fun a b i j =>
  eom_X2A_4 d H T R a b i j + sumn (nob d) (fun m => sumn (nub d) (fun e => (i_ab_voov H a m i e) * (x_ab R b e j m))).
(** ccpy/eomcc/eomccsd.py, build_HR_2A, line 86 *)
Definition eom_X2A_6 (d : dims) (H : ints) (T R : amps) : mat4 := fun a b i j =>
  eom_X2A_5 d H T R a b i j - 1 / 2 * (sumn (noa d) (fun m => (i_aa_vooo H b m j i) * (x_a R a m))).
(** ccpy/eomcc/eomccsd.py, build_HR_2A, line 87 *)
Definition eom_X2A_7 (d : dims) (H : ints) (T R : amps) : mat4 := fun a b i j =>
  eom_X2A_6 d H T R a b i j + 1 / 2 * (sumn (nua d) (fun e => (i_aa_vvov H b a j e) * (x_a R e i))).
(** ccpy/eomcc/eomccsd.py, build_HR_2A, line 88 *)
Definition eom_X2A_8 (d : dims) (H : ints) (T R : amps) : mat4 := fun a b i j =>
  eom_X2A_7 d H T R a b i j + 1 / 2 * (sumn (nua d) (fun e => (eom_X_a_vv d H T R b e) * (x_aa T a e i j))).
(** ccpy/eomcc/eomccsd.py, build_HR_2A, line 89 *)
Definition eom_X2A_9 (d : dims) (H : ints) (T R : amps) : mat4 := fun a b i j =>
  eom_X2A_8 d H T R a b i j - 1 / 2 * (sumn (noa d) (fun m => (eom_X_a_oo d H T R m j) * (x_aa T a b i m))).
(** ccpy/eomcc/eomccsd.py, build_HR_2A, line 90 *)
Definition eom_X2A_10 (d : dims) (H : ints) (T R : amps) : mat4 := fun a b i j =>
  eom_X2A_9 d H T R a b i j - eom_X2A_9 d H T R b a i j.
(** ccpy/eomcc/eomccsd.py, build_HR_2A, line 91 *)
Definition eom_X2A_11 (d : dims) (H : ints) (T R : amps) : mat4 := fun a b i j =>
  eom_X2A_10 d H T R a b i j - eom_X2A_10 d H T R a b j i.
(** ccpy/eomcc/eomccsd.py, build_HR_2B, line 96 *)
Definition eom_X2B (d : dims) (H : ints) (T R : amps) : mat4 := fun a b i j =>
  sumn (nua d) (fun e => (i_a_vv H a e) * (x_ab R e b i j)).
(** ccpy/eomcc/eomccsd.py, build_HR_2B, line 97 *)
Definition eom_X2B_1 (d : dims) (H : ints) (T R : amps) : mat4 := fun a b i j =>
  eom_X2B d H T R a b i j + sumn (nub d) (fun e => (i_b_vv H b e) * (x_ab R a e i j)).
(** ccpy/eomcc/eomccsd.py, build_HR_2B, line 98 *)
Definition eom_X2B_2 (d : dims) (H : ints) (T R : amps) : mat4 := fun a b i j =>
  eom_X2B_1 d H T R a b i j - sumn (noa d) (fun m => (i_a_oo H m i) * (x_ab R a b m j)).
(** ccpy/eomcc/eomccsd.py, build_HR_2B, line 99 *)
Definition eom_X2B_3 (d : dims) (H : ints) (T R : amps) : mat4 := fun a b i j =>
  eom_X2B_2 d H T R a b i j - sumn (nob d) (fun m => (i_b_oo H m j) * (x_ab R a b i m)).
(** ccpy/eomcc/eomccsd.py, build_HR_2B, line 100 *)
Definition eom_X2B_4 (d : dims) (H : ints) (T R : amps) : mat4 := fun a b i j =>
  eom_X2B_3 d H T R a b i j + sumn (noa d) (fun m => sumn (nob d) (fun n => (i_ab_oooo H m n i j) * (x_ab R a b m n))).
(** ccpy/eomcc/eomccsd.py, build_HR_2B, line 101 *)
Definition eom_X2B_5 (d : dims) (H : ints) (T R : amps) : mat4 := fun a b i j =>
  eom_X2B_4 d H T R a b i j + sumn (nua d) (fun e => sumn (nub d) (fun f => (i_ab_vvvv H a b e f) * (x_ab R e f i j))).
(** ccpy/eomcc/eomccsd.py, build_HR_2B, line 102 *)
Definition eom_X2B_6 (d : dims) (H : ints) (T R : amps) : mat4 := fun a b i j =>
  eom_X2B_5 d H T R a b i j + sumn (noa d) (fun m => sumn (nua d) (fun e => (i_aa_voov H a m i e) * (x_ab R e b m j))).
(** ccpy/eomcc/eomccsd.py, build_HR_2B, line 103 *)
Definition eom_X2B_7 (d : dims) (H : ints) (T R : amps) : mat4 := fun a b i j =>
  eom_X2B_6 d H T R a b i j + sumn (nob d) (fun m => sumn (nub d) (fun e => (i_ab_voov H a m i e) * (x_bb R e b m j))).
(** ccpy/eomcc/eomccsd.py, build_HR_2B, line 104 *)
Definition eom_X2B_8 (d : dims) (H : ints) (T R : amps) : mat4 := fun a b i j =>
  eom_X2B_7 d H T R a b i j + sumn (noa d) (fun m => sumn (nua d) (fun e => (i_ab_ovvo H m b e j) * (x_aa R a e i m))).
(** ccpy/eomcc/eomccsd.py, build_HR_2B, line 105 *)
Definition eom_X2B_9 (d : dims) (H : ints) (T R : amps) : mat4 := fun a b i j =>
  eom_X2B_8 d H T R a b i j + sumn (nob d) (fun m => sumn (nub d) (fun e => (i_bb_voov H b m j e) * (x_ab R a e i m))).
(** ccpy/eomcc/eomccsd.py, build_HR_2B, line 106 *)
Definition eom_X2B_10 (d : dims) (H : ints) (T R : amps) : mat4 := fun a b i j =>
  eom_X2B_9 d H T R a b i j - sumn (noa d) (fun m => sumn (nub d) (fun e => (i_ab_ovov H m b i e) * (x_ab R a e m j))).
(** ccpy/eomcc/eomccsd.py, build_HR_2B, line 107 *)
Definition eom_X2B_11 (d : dims) (H : ints) (T R : amps) : mat4 := fun a b i j =>
  eom_X2B_10 d H T R a b i j - sumn (nob d) (fun m => sumn (nua d) (fun e => (i_ab_vovo H a m e j) * (x_ab R e b i m))).
(** ccpy/eomcc/eomccsd.py, build_HR_2B, line 108 *)
Definition eom_X2B_12 (d : dims) (H : ints) (T R : amps) : mat4 := fun a b i j =>
  eom_X2B_11 d H T R a b i j + sumn (nua d) (fun e => (i_ab_vvvo H a b e j) * (x_a R e i)).
(** ccpy/eomcc/eomccsd.py, build_HR_2B, line 109 *)
Definition eom_X2B_13 (d : dims) (H : ints) (T R : amps) : mat4 := fun a b i j =>
  eom_X2B_12 d H T R a b i j + sumn (nub d) (fun e => (i_ab_vvov H a b i e) * (x_b R e j)).
(** ccpy/eomcc/eomccsd.py, build_HR_2B, line 110 *)
Definition eom_X2B_14 (d : dims) (H : ints) (T R : amps) : mat4 := fun a b i j =>
  eom_X2B_13 d H T R a b i j - sumn (noa d) (fun m => (i_ab_ovoo H m b i j) * (x_a R a m)).
(** ccpy/eomcc/eomccsd.py, build_HR_2B, line 111 *)
Definition eom_X2B_15 (d : dims) (H : ints) (T R : amps) : mat4 := fun a b i j =>
  eom_X2B_14 d H T R a b i j - sumn (nob d) (fun m => (i_ab_vooo H a m i j) * (x_b R b m)).
(** ccpy/eomcc/eomccsd.py, build_HR_2B, line 112 *)
Definition eom_X2B_16 (d : dims) (H : ints) (T R : amps) : mat4 := fun a b i j =>
  eom_X2B_15 d H T R a b i j + sumn (nua d) (fun e => (eom_X_a_vv d H T R a e) * (x_ab T e b i j)).
(** ccpy/eomcc/eomccsd.py, build_HR_2B, line 113 *)
Definition eom_X2B_17 (d : dims) (H : ints) (T R : amps) : mat4 := fun a b i j =>
  eom_X2B_16 d H T R a b i j - sumn (noa d) (fun m => (eom_X_a_oo d H T R m i) * (x_ab T a b m j)).
(** ccpy/eomcc/eomccsd.py, build_HR_2B, line 114 *)
Definition eom_X2B_18 (d : dims) (H : ints) (T R : amps) : mat4 := fun a b i j =>
  eom_X2B_17 d H T R a b i j + sumn (nub d) (fun e => (eom_X_b_vv d H T R b e) * (x_ab T a e i j)).
(** ccpy/eomcc/eomccsd.py, build_HR_2B, line 115 *)
Definition eom_X2B_19 (d : dims) (H : ints) (T R : amps) : mat4 := fun a b i j =>
  eom_X2B_18 d H T R a b i j - sumn (nob d) (fun m => (eom_X_b_oo d H T R m j) * (x_ab T a b i m)).
(** ccpy/eomcc/eomccsd.py, build_HR_2C, line 120 *)
Definition eom_X2C (d : dims) (H : ints) (T R : amps) : mat4 := fun a b i j =>
  (-1) / 2 * (sumn (nob d) (fun m => (i_b_oo H m i) * (x_bb R a b m j))).
(** ccpy/eomcc/eomccsd.py, build_HR_2C, line 121 *)
Definition eom_X2C_1 (d : dims) (H : ints) (T R : amps) : mat4 := fun a b i j =>
  eom_X2C d H T R a b i j + 1 / 2 * (sumn (nub d) (fun e => (i_b_vv H a e) * (x_bb R e b i j))).
(** ccpy/eomcc/eomccsd.py, build_HR_2C, line 122 *)
Definition eom_X2C_2 (d : dims) (H : ints) (T R : amps) : mat4 := fun a b i j =>
  eom_X2C_1 d H T R a b i j + 1 / 8 * (sumn (nob d) (fun m => sumn (nob d) (fun n => (i_bb_oooo H m n i j) * (x_bb R a b m n)))).
(** ccpy/eomcc/eomccsd.py, build_HR_2C, line 123 *)
Definition eom_X2C_3 (d : dims) (H : ints) (T R : amps) : mat4 := fun a b i j =>
  eom_X2C_2 d H T R a b i j + 1 / 8 * (sumn (nub d) (fun e => sumn (nub d) (fun f => (i_bb_vvvv H a b e f) * (x_bb R e f i j)))).
(** ccpy/eomcc/eomccsd.py, build_HR_2C, line 124 *)
Definition eom_X2C_4 (d : dims) (H : ints) (T R : amps) : mat4 := fun a b i j =>
  eom_X2C_3 d H T R a b i j + sumn (nob d) (fun m => sumn (nub d) (fun e => (i_bb_voov H a m i e) * (x_bb R e b m j))).
(** ccpy/eomcc/eomccsd.py, build_HR_2C, line 125 *)
Definition eom_X2C_5 (d : dims) (H : ints) (T R : amps) : mat4 := fun a b i j =>
  eom_X2C_4 d H T R a b i j + sumn (noa d) (fun m => sumn (nua d) (fun e => (i_ab_ovvo H m a e i) * (x_ab R e b m j))).
(** ccpy/eomcc/eomccsd.py, build_HR_2C, line 126 *)
Definition eom_X2C_6 (d : dims) (H : ints) (T R : amps) : mat4 := fun a b i j =>
  eom_X2C_5 d H T R a b i j - 1 / 2 * (sumn (nob d) (fun m => (i_bb_vooo H b m j i) * (x_b R a m))).
(** ccpy/eomcc/eomccsd.py, build_HR_2C, line 127 *)
Definition eom_X2C_7 (d : dims) (H : ints) (T R : amps) : mat4 := fun a b i j =>
  eom_X2C_6 d H T R a b i j + 1 / 2 * (sumn (nub d) (fun e => (i_bb_vvov H b a j e) * (x_b R e i))).
(** ccpy/eomcc/eomccsd.py, build_HR_2C, line 128 *)
Definition eom_X2C_8 (d : dims) (H : ints) (T R : amps) : mat4 := fun a b i j =>
  eom_X2C_7 d H T R a b i j + 1 / 2 * (sumn (nub d) (fun e => (eom_X_b_vv d H T R b e) * (x_bb T a e i j))).
(** ccpy/eomcc/eomccsd.py, build_HR_2C, line 129 *)
Definition eom_X2C_9 (d : dims) (H : ints) (T R : amps) : mat4 := fun a b i j =>
  eom_X2C_8 d H T R a b i j - 1 / 2 * (sumn (nob d) (fun m => (eom_X_b_oo d H T R m j) * (x_bb T a b i m))).
(** ccpy/eomcc/eomccsd.py, build_HR_2C, line 130 *)
Definition eom_X2C_10 (d : dims) (H : ints) (T R : amps) : mat4 := fun a b i j =>
  eom_X2C_9 d H T R a b i j - eom_X2C_9 d H T R b a i j.
(** ccpy/eomcc/eomccsd.py, build_HR_2C, line 131 *)
Definition eom_X2C_11 (d : dims) (H : ints) (T R : amps) : mat4 := fun a b i j =>
  eom_X2C_10 d H T R a b i j - eom_X2C_10 d H T R a b j i.
(** eomccsd.py, HR, lines 31-48: the vector returned *)
Definition eom_HR (d : dims) (H : ints) (T R : amps) : amps := mkAmps (eom_X1A_9 d H T R) (eom_X1B_9 d H T R) (eom_X2A_11 d H T R) (eom_X2B_19 d H T R) (eom_X2C_11 d H T R) (fun _ _ _ _ _ _ => 0) (fun _ _ _ _ _ _ => 0) (fun _ _ _ _ _ _ => 0) (fun _ _ _ _ _ _ => 0).
(** ccpy/left/left_cc_intermediates.py, build_left_ccsd_intermediates, lines 11-14 *)
Definition left_X_a_vv (d : dims) (H : ints) (T L : amps) : mat2 := fun g e =>
  1 / 2 * (sumn (nua d) (fun f => sumn (noa d) (fun m => sumn (noa d) (fun n => (x_aa L e f m n) * (x_aa T f g n m))))) + sumn (nub d) (fun b => sumn (noa d) (fun i => sumn (nob d) (fun j => (x_ab L e b i j) * (x_ab T g b i j)))).
(** ccpy/left/left_cc_intermediates.py, build_left_ccsd_intermediates, lines 15-18 *)
Definition left_X_a_oo (d : dims) (H : ints) (T L : amps) : mat2 := fun m n =>
  (-1) / 2 * (sumn (nua d) (fun e => sumn (nua d) (fun f => sumn (noa d) (fun o => (x_aa L e f m o) * (x_aa T e f n o))))) - sumn (nua d) (fun a => sumn (nub d) (fun b => sumn (nob d) (fun j => (x_ab L a b m j) * (x_ab T a b n j)))).
(** ccpy/left/left_cc_intermediates.py, build_left_ccsd_intermediates, lines 19-22 *)
Definition left_X_b_vv (d : dims) (H : ints) (T L : amps) : mat2 := fun f a =>
  1 / 2 * (sumn (nub d) (fun b => sumn (nob d) (fun i => sumn (nob d) (fun j => (x_bb L a b i j) * (x_bb T f b i j))))) + sumn (nua d) (fun a' => sumn (noa d) (fun i => sumn (nob d) (fun j => (x_ab L a' a i j) * (x_ab T a' f i j)))).
(** ccpy/left/left_cc_intermediates.py, build_left_ccsd_intermediates, lines 23-26 *)
Definition left_X_b_oo (d : dims) (H : ints) (T L : amps) : mat2 := fun i n =>
  (-1) / 2 * (sumn (nub d) (fun a => sumn (nub d) (fun b => sumn (nob d) (fun j => (x_bb L a b i j) * (x_bb T a b n j))))) - sumn (nua d) (fun a => sumn (nub d) (fun b => sumn (noa d) (fun i' => (x_ab L a b i' i) * (x_ab T a b i' n)))).
(** ccpy/left/left_ccsd.py, build_LH_1A, line 93 *)
Definition left_LH_a (d : dims) (H : ints) (T L : amps) : mat2 := fun a i =>
  sumn (nua d) (fun e => (i_a_vv H e a) * (x_a L e i)).
(** ccpy/left/left_ccsd.py, build_LH_1A, line 94 *)
Definition left_LH_a_1 (d : dims) (H : ints) (T L : amps) : mat2 := fun a i =>
  left_LH_a d H T L a i - sumn (noa d) (fun m => (i_a_oo H i m) * (x_a L a m)).
(** ccpy/left/left_ccsd.py, build_LH_1A, line 95 *)
Definition left_LH_a_2 (d : dims) (H : ints) (T L : amps) : mat2 := fun a i =>
  left_LH_a_1 d H T L a i + sumn (nua d) (fun e => sumn (noa d) (fun m => (i_aa_voov H e i m a) * (x_a L e m))).
(** ccpy/left/left_ccsd.py, build_LH_1A, line 96 *)
Definition left_LH_a_3 (d : dims) (H : ints) (T L : amps) : mat2 := fun a i =>
  left_LH_a_2 d H T L a i + sumn (nub d) (fun e => sumn (nob d) (fun m => (i_ab_ovvo H i e a m) * (x_b L e m))).
(** ccpy/left/left_ccsd.py, build_LH_1A, line 97 *)
Definition left_LH_a_4 (d : dims) (H : ints) (T L : amps) : mat2 := fun a i =>
  left_LH_a_3 d H T L a i + 1 / 2 * (sumn (nua d) (fun f => sumn (nua d) (fun e => sumn (noa d) (fun n => (i_aa_vvov H f e n a) * (x_aa L e f i n))))).
(** ccpy/left/left_ccsd.py, build_LH_1A, line 98 *)
Definition left_LH_a_5 (d : dims) (H : ints) (T L : amps) : mat2 := fun a i =>
  left_LH_a_4 d H T L a i + sumn (nua d) (fun e => sumn (nub d) (fun f => sumn (nob d) (fun n => (i_ab_vvvo H e f a n) * (x_ab L e f i n)))).
(** ccpy/left/left_ccsd.py, build_LH_1A, line 99 *)
Definition left_LH_a_6 (d : dims) (H : ints) (T L : amps) : mat2 := fun a i =>
  left_LH_a_5 d H T L a i - 1 / 2 * (sumn (nua d) (fun f => sumn (noa d) (fun n => sumn (noa d) (fun m => (i_aa_vooo H f i n m) * (x_aa L a f m n))))).
(** ccpy/left/left_ccsd.py, build_LH_1A, line 100 *)
Definition left_LH_a_7 (d : dims) (H : ints) (T L : amps) : mat2 := fun a i =>
  left_LH_a_6 d H T L a i - sumn (nub d) (fun f => sumn (noa d) (fun m => sumn (nob d) (fun n => (i_ab_ovoo H i f m n) * (x_ab L a f m n)))).
(** ccpy/left/left_ccsd.py, build_LH_1A, line 101 *)
Definition left_LH_a_8 (d : dims) (H : ints) (T L : amps) : mat2 := fun a i =>
  left_LH_a_7 d H T L a i + sumn (nua d) (fun g => sumn (nua d) (fun e => (left_X_a_vv d H T L g e) * (i_aa_vovv H e i g a))).
(** ccpy/left/left_ccsd.py, build_LH_1A, line 102 *)
Definition left_LH_a_9 (d : dims) (H : ints) (T L : amps) : mat2 := fun a i =>
  left_LH_a_8 d H T L a i + sumn (noa d) (fun m => sumn (noa d) (fun n => (left_X_a_oo d H T L m n) * (i_aa_ooov H n i m a))).
(** ccpy/left/left_ccsd.py, build_LH_1A, line 103 *)
Definition left_LH_a_10 (d : dims) (H : ints) (T L : amps) : mat2 := fun a i =>
  left_LH_a_9 d H T L a i + sumn (nub d) (fun f => sumn (nub d) (fun a' => (left_X_b_vv d H T L f a') * (i_ab_ovvv H i a' a f))).
(** ccpy/left/left_ccsd.py, build_LH_1A, line 104 *)
Definition left_LH_a_11 (d : dims) (H : ints) (T L : amps) : mat2 := fun a i =>
  left_LH_a_10 d H T L a i + sumn (nob d) (fun i' => sumn (nob d) (fun n => (left_X_b_oo d H T L i' n) * (i_ab_oovo H i n a i'))).
(** ccpy/left/left_ccsd.py, build_LH_1B, line 110 *)
Definition left_LH_b (d : dims) (H : ints) (T L : amps) : mat2 := fun a i =>
  sumn (nub d) (fun e => (i_b_vv H e a) * (x_b L e i)).
(** ccpy/left/left_ccsd.py, build_LH_1B, line 111 *)
Definition left_LH_b_1 (d : dims) (H : ints) (T L : amps) : mat2 := fun a i =>
  left_LH_b d H T L a i - sumn (nob d) (fun m => (i_b_oo H i m) * (x_b L a m)).
(** ccpy/left/left_ccsd.py, build_LH_1B, line 112 *)
Definition left_LH_b_2 (d : dims) (H : ints) (T L : amps) : mat2 := fun a i =>
  left_LH_b_1 d H T L a i + sumn (nua d) (fun e => sumn (noa d) (fun m => (i_ab_voov H e i m a) * (x_a L e m))).
(** ccpy/left/left_ccsd.py, build_LH_1B, line 113 *)
Definition left_LH_b_3 (d : dims) (H : ints) (T L : amps) : mat2 := fun a i =>
  left_LH_b_2 d H T L a i + sumn (nub d) (fun e => sumn (nob d) (fun m => (i_bb_voov H e i m a) * (x_b L e m))).
(** ccpy/left/left_ccsd.py, build_LH_1B, line 114 *)
Definition left_LH_b_4 (d : dims) (H : ints) (T L : amps) : mat2 := fun a i =>
  left_LH_b_3 d H T L a i - 1 / 2 * (sumn (nub d) (fun f => sumn (nob d) (fun n => sumn (nob d) (fun m => (i_bb_vooo H f i n m) * (x_bb L a f m n))))).
(** ccpy/left/left_ccsd.py, build_LH_1B, line 115 *)
Definition left_LH_b_5 (d : dims) (H : ints) (T L : amps) : mat2 := fun a i =>
  left_LH_b_4 d H T L a i - sumn (nua d) (fun f => sumn (noa d) (fun n => sumn (nob d) (fun m => (i_ab_vooo H f i n m) * (x_ab L f a n m)))).
(** ccpy/left/left_ccsd.py, build_LH_1B, line 116 *)
Definition left_LH_b_6 (d : dims) (H : ints) (T L : amps) : mat2 := fun a i =>
  left_LH_b_5 d H T L a i + sumn (nua d) (fun f => sumn (nub d) (fun e => sumn (noa d) (fun n => (i_ab_vvov H f e n a) * (x_ab L f e n i)))).
(** ccpy/left/left_ccsd.py, build_LH_1B, line 117 *)
Definition left_LH_b_7 (d : dims) (H : ints) (T L : amps) : mat2 := fun a i =>
  left_LH_b_6 d H T L a i + 1 / 2 * (sumn (nub d) (fun f => sumn (nub d) (fun e => sumn (nob d) (fun n => (i_bb_vvov H f e n a) * (x_bb L e f i n))))).
(** ccpy/left/left_ccsd.py, build_LH_1B, lines 118-121 *)
Definition left_LH_b_8 (d : dims) (H : ints) (T L : amps) : mat2 := fun a i =>
  left_LH_b_7 d H T L a i + (sumn (nub d) (fun g => sumn (nub d) (fun e => (left_X_b_vv d H T L g e) * (i_bb_vovv H e i g a))) + sumn (nob d) (fun m => sumn (nob d) (fun o => (left_X_b_oo d H T L m o) * (i_bb_ooov H o i m a)))).
(** ccpy/left/left_ccsd.py, build_LH_1B, lines 122-125 *)
Definition left_LH_b_9 (d : dims) (H : ints) (T L : amps) : mat2 := fun a i =>
  left_LH_b_8 d H T L a i + (sumn (nua d) (fun g => sumn (nua d) (fun e => (left_X_a_vv d H T L g e) * (i_ab_vovv H e i g a))) + sumn (noa d) (fun m => sumn (noa d) (fun o => (left_X_a_oo d H T L m o) * (i_ab_ooov H o i m a)))).
(** ccpy/left/left_ccsd.py, build_LH_2A, line 129 *)
Definition left_LH_aa (d : dims) (H : ints) (T L : amps) : mat4 := fun a b i j =>
  1 / 2 * (sumn (nua d) (fun e => (i_a_vv H e a) * (x_aa L e b i j))).
(** ccpy/left/left_ccsd.py, build_LH_2A, line 130 *)
Definition left_LH_aa_1 (d : dims) (H : ints) (T L : amps) : mat4 := fun a b i j =>
  left_LH_aa d H T L a b i j - 1 / 2 * (sumn (noa d) (fun m => (i_a_oo H i m) * (x_aa L a b m j))).
(** ccpy/left/left_ccsd.py, build_LH_2A, line 131 *)
Definition left_LH_aa_2 (d : dims) (H : ints) (T L : amps) : mat4 := fun a b i j =>
  left_LH_aa_1 d H T L a b i j + (i_a_ov H j b) * (x_a L a i).
(** ccpy/left/left_ccsd.py, build_LH_2A, line 132 *)
Definition left_LH_aa_3 (d : dims) (H : ints) (T L : amps) : mat4 := fun a b i j =>
  left_LH_aa_2 d H T L a b i j - 1 / 2 * (sumn (nua d) (fun e => (left_X_a_vv d H T L e a) * (i_aa_oovv H i j e b))).
(** ccpy/left/left_ccsd.py, build_LH_2A, line 133 *)
Definition left_LH_aa_4 (d : dims) (H : ints) (T L : amps) : mat4 := fun a b i j =>
  left_LH_aa_3 d H T L a b i j + 1 / 2 * (sumn (noa d) (fun m => (left_X_a_oo d H T L i m) * (i_aa_oovv H m j a b))).
(** ccpy/left/left_ccsd.py, build_LH_2A, line 134 *)
Definition left_LH_aa_5 (d : dims) (H : ints) (T L : amps) : mat4 := fun a b i j =>
  left_LH_aa_4 d H T L a b i j + sumn (nua d) (fun e => sumn (noa d) (fun m => (i_aa_voov H e i m a) * (x_aa L e b m j))).
(** ccpy/left/left_ccsd.py, build_LH_2A, line 135 *)
Definition left_LH_aa_6 (d : dims) (H : ints) (T L : amps) : mat4 := fun a b i j =>
  left_LH_aa_5 d H T L a b i j + sumn (nub d) (fun e => sumn (nob d) (fun m => (i_ab_ovvo H i e a m) * (x_ab L b e j m))).
(** ccpy/left/left_ccsd.py, build_LH_2A, line 136 *)
Definition left_LH_aa_7 (d : dims) (H : ints) (T L : amps) : mat4 := fun a b i j =>
  left_LH_aa_6 d H T L a b i j + 1 / 8 * (sumn (noa d) (fun m => sumn (noa d) (fun n => (i_aa_oooo H i j m n) * (x_aa L a b m n)))).
(** ccpy/left/left_ccsd.py, build_LH_2A, line 137 *)
Definition left_LH_aa_8 (d : dims) (H : ints) (T L : amps) : mat4 := fun a b i j =>
  left_LH_aa_7 d H T L a b i j + 1 / 8 * (sumn (nua d) (fun e => sumn (nua d) (fun f => (i_aa_vvvv H e f a b) * (x_aa L e f i j)))).
(** ccpy/left/left_ccsd.py, build_LH_2A, line 138 *)
Definition left_LH_aa_9 (d : dims) (H : ints) (T L : amps) : mat4 := fun a b i j =>
  left_LH_aa_8 d H T L a b i j + 1 / 2 * (sumn (nua d) (fun e => (i_aa_vovv H e j a b) * (x_a L e i))).
(** ccpy/left/left_ccsd.py, build_LH_2A, line 139 *)
Definition left_LH_aa_10 (d : dims) (H : ints) (T L : amps) : mat4 := fun a b i j =>
  left_LH_aa_9 d H T L a b i j - 1 / 2 * (sumn (noa d) (fun m => (i_aa_ooov H i j m b) * (x_a L a m))).
(** ccpy/left/left_ccsd.py, build_LH_2A, line 140 *)
Definition left_LH_aa_11 (d : dims) (H : ints) (T L : amps) : mat4 := fun a b i j =>
  left_LH_aa_10 d H T L a b i j - (left_LH_aa_10 d H T L b a i j + left_LH_aa_10 d H T L a b j i - left_LH_aa_10 d H T L b a j i).
(** ccpy/left/left_ccsd.py, build_LH_2B, line 145 *)
Definition left_LH_ab (d : dims) (H : ints) (T L : amps) : mat4 := fun a b i j =>
  (- (sumn (noa d) (fun m => (i_ab_ooov H i j m b) * (x_a L a m)))).
(** ccpy/left/left_ccsd.py, build_LH_2B, line 146 *)
Definition left_LH_ab_1 (d : dims) (H : ints) (T L : amps) : mat4 := fun a b i j =>
  left_LH_ab d H T L a b i j - sumn (nob d) (fun m => (i_ab_oovo H i j a m) * (x_b L b m)).
(** ccpy/left/left_ccsd.py, build_LH_2B, line 147 *)
Definition left_LH_ab_2 (d : dims) (H : ints) (T L : amps) : mat4 := fun a b i j =>
  left_LH_ab_1 d H T L a b i j + sumn (nua d) (fun e => (i_ab_vovv H e j a b) * (x_a L e i)).
(** ccpy/left/left_ccsd.py, build_LH_2B, line 148 *)
Definition left_LH_ab_3 (d : dims) (H : ints) (T L : amps) : mat4 := fun a b i j =>
  left_LH_ab_2 d H T L a b i j + sumn (nub d) (fun e => (i_ab_ovvv H i e a b) * (x_b L e j)).
(** ccpy/left/left_ccsd.py, build_LH_2B, line 149 *)
Definition left_LH_ab_4 (d : dims) (H : ints) (T L : amps) : mat4 := fun a b i j =>
  left_LH_ab_3 d H T L a b i j + sumn (noa d) (fun m => sumn (nob d) (fun n => (i_ab_oooo H i j m n) * (x_ab L a b m n))).
(** ccpy/left/left_ccsd.py, build_LH_2B, line 150 *)
Definition left_LH_ab_5 (d : dims) (H : ints) (T L : amps) : mat4 := fun a b i j =>
  left_LH_ab_4 d H T L a b i j + sumn (nua d) (fun e => sumn (nub d) (fun f => (i_ab_vvvv H e f a b) * (x_ab L e f i j))).
(** ccpy/left/left_ccsd.py, build_LH_2B, line 151 *)
Definition left_LH_ab_6 (d : dims) (H : ints) (T L : amps) : mat4 := fun a b i j =>
  left_LH_ab_5 d H T L a b i j + sumn (nua d) (fun e => sumn (noa d) (fun m => (i_ab_voov H e j m b) * (x_aa L a e i m))).
(** ccpy/left/left_ccsd.py, build_LH_2B, line 152 *)
Definition left_LH_ab_7 (d : dims) (H : ints) (T L : amps) : mat4 := fun a b i j =>
  left_LH_ab_6 d H T L a b i j + sumn (nua d) (fun e => sumn (noa d) (fun m => (i_aa_voov H e i m a) * (x_ab L e b m j))).
(** ccpy/left/left_ccsd.py, build_LH_2B, line 153 *)
Definition left_LH_ab_8 (d : dims) (H : ints) (T L : amps) : mat4 := fun a b i j =>
  left_LH_ab_7 d H T L a b i j + sumn (nub d) (fun e => sumn (nob d) (fun m => (i_bb_voov H e j m b) * (x_ab L a e i m))).
(** ccpy/left/left_ccsd.py, build_LH_2B, line 154 *)
Definition left_LH_ab_9 (d : dims) (H : ints) (T L : amps) : mat4 := fun a b i j =>
  left_LH_ab_8 d H T L a b i j + sumn (nub d) (fun e => sumn (nob d) (fun m => (i_ab_ovvo H i e a m) * (x_bb L e b m j))).
(** ccpy/left/left_ccsd.py, build_LH_2B, line 155 *)
Definition left_LH_ab_10 (d : dims) (H : ints) (T L : amps) : mat4 := fun a b i j =>
  left_LH_ab_9 d H T L a b i j - sumn (nub d) (fun e => sumn (noa d) (fun m => (i_ab_ovov H i e m b) * (x_ab L a e m j))).
(** ccpy/left/left_ccsd.py, build_LH_2B, line 156 *)
Definition left_LH_ab_11 (d : dims) (H : ints) (T L : amps) : mat4 := fun a b i j =>
  left_LH_ab_10 d H T L a b i j - sumn (nua d) (fun e => sumn (nob d) (fun m => (i_ab_vovo H e j a m) * (x_ab L e b i m))).
(** ccpy/left/left_ccsd.py, build_LH_2B, line 157 *)
Definition left_LH_ab_12 (d : dims) (H : ints) (T L : amps) : mat4 := fun a b i j =>
  left_LH_ab_11 d H T L a b i j - sumn (nua d) (fun e => (left_X_a_vv d H T L e a) * (i_ab_oovv H i j e b)).
(** ccpy/left/left_ccsd.py, build_LH_2B, line 158 *)
Definition left_LH_ab_13 (d : dims) (H : ints) (T L : amps) : mat4 := fun a b i j =>
  left_LH_ab_12 d H T L a b i j + sumn (noa d) (fun m => (left_X_a_oo d H T L i m) * (i_ab_oovv H m j a b)).
(** ccpy/left/left_ccsd.py, build_LH_2B, line 159 *)
Definition left_LH_ab_14 (d : dims) (H : ints) (T L : amps) : mat4 := fun a b i j =>
  left_LH_ab_13 d H T L a b i j - sumn (nub d) (fun e => (left_X_b_vv d H T L e b) * (i_ab_oovv H i j a e)).
(** ccpy/left/left_ccsd.py, build_LH_2B, line 160 *)
Definition left_LH_ab_15 (d : dims) (H : ints) (T L : amps) : mat4 := fun a b i j =>
  left_LH_ab_14 d H T L a b i j + sumn (nob d) (fun m => (left_X_b_oo d H T L j m) * (i_ab_oovv H i m a b)).
(** ccpy/left/left_ccsd.py, build_LH_2B, line 161 *)
Definition left_LH_ab_16 (d : dims) (H : ints) (T L : amps) : mat4 := fun a b i j =>
  left_LH_ab_15 d H T L a b i j + sumn (nua d) (fun e => (i_a_vv H e a) * (x_ab L e b i j)).
(** ccpy/left/left_ccsd.py, build_LH_2B, line 162 *)
Definition left_LH_ab_17 (d : dims) (H : ints) (T L : amps) : mat4 := fun a b i j =>
  left_LH_ab_16 d H T L a b i j + sumn (nub d) (fun e => (i_b_vv H e b) * (x_ab L a e i j)).
(** ccpy/left/left_ccsd.py, build_LH_2B, line 163 *)
Definition left_LH_ab_18 (d : dims) (H : ints) (T L : amps) : mat4 := fun a b i j =>
  left_LH_ab_17 d H T L a b i j - sumn (noa d) (fun m => (i_a_oo H i m) * (x_ab L a b m j)).
(** ccpy/left/left_ccsd.py, build_LH_2B, line 164 *)
Definition left_LH_ab_19 (d : dims) (H : ints) (T L : amps) : mat4 := fun a b i j =>
  left_LH_ab_18 d H T L a b i j - sumn (nob d) (fun m => (i_b_oo H j m) * (x_ab L a b i m)).
(** ccpy/left/left_ccsd.py, build_LH_2B, line 165 *)
Definition left_LH_ab_20 (d : dims) (H : ints) (T L : amps) : mat4 := fun a b i j =>
  left_LH_ab_19 d H T L a b i j + (i_b_ov H j b) * (x_a L a i).
(** ccpy/left/left_ccsd.py, build_LH_2B, line 166 *)
Definition left_LH_ab_21 (d : dims) (H : ints) (T L : amps) : mat4 := fun a b i j =>
  left_LH_ab_20 d H T L a b i j + (i_a_ov H i a) * (x_b L b j).
(** ccpy/left/left_ccsd.py, build_LH_2C, line 170 *)
Definition left_LH_bb (d : dims) (H : ints) (T L : amps) : mat4 := fun a b i j =>
  1 / 2 * (sumn (nub d) (fun e => (i_b_vv H e a) * (x_bb L e b i j))).
(** ccpy/left/left_ccsd.py, build_LH_2C, line 171 *)
Definition left_LH_bb_1 (d : dims) (H : ints) (T L : amps) : mat4 := fun a b i j =>
  left_LH_bb d H T L a b i j - 1 / 2 * (sumn (nob d) (fun m => (i_b_oo H i m) * (x_bb L a b m j))).
(** ccpy/left/left_ccsd.py, build_LH_2C, line 172 *)
Definition left_LH_bb_2 (d : dims) (H : ints) (T L : amps) : mat4 := fun a b i j =>
  left_LH_bb_1 d H T L a b i j + (i_b_ov H j b) * (x_b L a i).
(** ccpy/left/left_ccsd.py, build_LH_2C, line 173 *)
Definition left_LH_bb_3 (d : dims) (H : ints) (T L : amps) : mat4 := fun a b i j =>
  left_LH_bb_2 d H T L a b i j - 1 / 2 * (sumn (nub d) (fun e => (left_X_b_vv d H T L e a) * (i_bb_oovv H i j e b))).
(** ccpy/left/left_ccsd.py, build_LH_2C, line 174 *)
Definition left_LH_bb_4 (d : dims) (H : ints) (T L : amps) : mat4 := fun a b i j =>
  left_LH_bb_3 d H T L a b i j + 1 / 2 * (sumn (nob d) (fun m => (left_X_b_oo d H T L i m) * (i_bb_oovv H m j a b))).
(** ccpy/left/left_ccsd.py, build_LH_2C, line 175 *)
Definition left_LH_bb_5 (d : dims) (H : ints) (T L : amps) : mat4 := fun a b i j =>
  left_LH_bb_4 d H T L a b i j + sumn (nub d) (fun e => sumn (nob d) (fun m => (i_bb_voov H e i m a) * (x_bb L e b m j))).
(** ccpy/left/left_ccsd.py, build_LH_2C, line 176 *)
Definition left_LH_bb_6 (d : dims) (H : ints) (T L : amps) : mat4 := fun a b i j =>
  left_LH_bb_5 d H T L a b i j + sumn (nua d) (fun e => sumn (noa d) (fun m => (i_ab_voov H e i m a) * (x_ab L e b m j))).
(** ccpy/left/left_ccsd.py, build_LH_2C, line 177 *)
Definition left_LH_bb_7 (d : dims) (H : ints) (T L : amps) : mat4 := fun a b i j =>
  left_LH_bb_6 d H T L a b i j + 1 / 8 * (sumn (nob d) (fun m => sumn (nob d) (fun n => (i_bb_oooo H i j m n) * (x_bb L a b m n)))).
(** ccpy/left/left_ccsd.py, build_LH_2C, line 178 *)
Definition left_LH_bb_8 (d : dims) (H : ints) (T L : amps) : mat4 := fun a b i j =>
  left_LH_bb_7 d H T L a b i j + 1 / 8 * (sumn (nub d) (fun e => sumn (nub d) (fun f => (i_bb_vvvv H e f a b) * (x_bb L e f i j)))).
(** ccpy/left/left_ccsd.py, build_LH_2C, line 179 *)
Definition left_LH_bb_9 (d : dims) (H : ints) (T L : amps) : mat4 := fun a b i j =>
  left_LH_bb_8 d H T L a b i j + 1 / 2 * (sumn (nub d) (fun e => (i_bb_vovv H e j a b) * (x_b L e i))).
(** ccpy/left/left_ccsd.py, build_LH_2C, line 180 *)
Definition left_LH_bb_10 (d : dims) (H : ints) (T L : amps) : mat4 := fun a b i j =>
  left_LH_bb_9 d H T L a b i j - 1 / 2 * (sumn (nob d) (fun m => (i_bb_ooov H i j m b) * (x_b L a m))).
(** ccpy/left/left_ccsd.py, build_LH_2C, line 181 *)
Definition left_LH_bb_11 (d : dims) (H : ints) (T L : amps) : mat4 := fun a b i j =>
  left_LH_bb_10 d H T L a b i j - (left_LH_bb_10 d H T L b a i j + left_LH_bb_10 d H T L a b j i - left_LH_bb_10 d H T L b a j i).
(** left_ccsd.py, LH_fun, lines 71-89: the vector returned *)
Definition left_LH (d : dims) (H : ints) (T L : amps) : amps := mkAmps (left_LH_a_11 d H T L) (left_LH_b_9 d H T L) (left_LH_aa_11 d H T L) (left_LH_ab_21 d H T L) (left_LH_bb_11 d H T L) (fun _ _ _ _ _ _ => 0) (fun _ _ _ _ _ _ => 0) (fun _ _ _ _ _ _ => 0) (fun _ _ _ _ _ _ => 0).
