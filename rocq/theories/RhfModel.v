(** Generated by tools/gen_rhf.py from the source text (symbolic execution of the numpy statements; exact reals).
    Models ccpy/cc/ccd.py (update, update_t2a .. update_t2c) with flag_RHF = False (ccd_) and True (rccd_), and with flag_RHF = True:
    ccpy/cc/ccsd.py and ccpy/hbar/hbar_ccs.py (rccsd_), ccpy/hbar/hbar_ccsd.py (rhb_), ccpy/eomcc/eomccsd.py with its intermediates (reom_),
    ccpy/left/left_ccsd.py with its intermediates (rleft_).  With the flag set the alpha and beta spaces have the same size: all axis lengths are written
    with the alpha sizes.  T holds the amplitudes on entry of update and U the blocks that have been overwritten by the time they are read; res_x is the array
    handed to the Fortran routine cc_loops2.update_x. *)
From Coq Require Import Reals Arith.
From Verif Require Import RSum IntegralsModel TensorObjs.
Open Scope R_scope.
(** ccpy/cc/ccd.py, update_t2a, lines 28-32 *)
Definition ccd_I1A_oo (d : dims) (H : ints) (T U : amps) : mat2 := fun m i =>
  i_a_oo H m i + 1 / 2 * (sumn (noa d) (fun n => sumn (nua d) (fun e => sumn (nua d) (fun f => (i_aa_oovv H m n e f) * (x_aa T e f i n))))) + sumn (nob d) (fun n => sumn (nua d) (fun e => sumn (nub d) (fun f => (i_ab_oovv H m n e f) * (x_ab T e f i n)))).
(** ccpy/cc/ccd.py, update_t2a, lines 34-38 *)
Definition ccd_I1A_vv (d : dims) (H : ints) (T U : amps) : mat2 := fun a e =>
  i_a_vv H a e - 1 / 2 * (sumn (noa d) (fun m => sumn (noa d) (fun n => sumn (nua d) (fun f => (i_aa_oovv H m n e f) * (x_aa T a f m n))))) - sumn (noa d) (fun m => sumn (nob d) (fun n => sumn (nub d) (fun f => (i_ab_oovv H m n e f) * (x_ab T a f m n)))).
(** ccpy/cc/ccd.py, update_t2a, lines 40-44 *)
Definition ccd_I2A_voov (d : dims) (H : ints) (T U : amps) : mat4 := fun a m i e =>
  i_aa_voov H a m i e + 1 / 2 * (sumn (noa d) (fun n => sumn (nua d) (fun f => (i_aa_oovv H m n e f) * (x_aa T a f i n)))) + sumn (nob d) (fun n => sumn (nub d) (fun f => (i_ab_oovv H m n e f) * (x_ab T a f i n))).
(** ccpy/cc/ccd.py, update_t2a, lines 46-48 *)
Definition ccd_I2A_oooo (d : dims) (H : ints) (T U : amps) : mat4 := fun m n i j =>
  i_aa_oooo H m n i j + 1 / 2 * (sumn (nua d) (fun e => sumn (nua d) (fun f => (i_aa_oovv H m n e f) * (x_aa T e f i j)))).
(** ccpy/cc/ccd.py, update_t2a, lines 50-52 *)
Definition ccd_I2B_voov (d : dims) (H : ints) (T U : amps) : mat4 := fun a m i e =>
  i_ab_voov H a m i e + 1 / 2 * (sumn (nob d) (fun n => sumn (nub d) (fun f => (i_bb_oovv H m n e f) * (x_ab T a f i n)))).
(** ccpy/cc/ccd.py, update_t2a, line 54 *)
Definition ccd_dT_aa (d : dims) (H : ints) (T U : amps) : mat4 := fun a b i j =>
  1 / 2 * (sumn (nua d) (fun e => (ccd_I1A_vv d H T U a e) * (x_aa T e b i j))).
(** ccpy/cc/ccd.py, update_t2a, line 55 *)
Definition ccd_dT_aa_1 (d : dims) (H : ints) (T U : amps) : mat4 := fun a b i j =>
  ccd_dT_aa d H T U a b i j - 1 / 2 * (sumn (noa d) (fun m => (ccd_I1A_oo d H T U m i) * (x_aa T a b m j))).
(** ccpy/cc/ccd.py, update_t2a, line 56 *)
Definition ccd_dT_aa_2 (d : dims) (H : ints) (T U : amps) : mat4 := fun a b i j =>
  ccd_dT_aa_1 d H T U a b i j + sumn (noa d) (fun m => sumn (nua d) (fun e => (ccd_I2A_voov d H T U a m i e) * (x_aa T e b m j))).
(** ccpy/cc/ccd.py, update_t2a, line 57 *)
Definition ccd_dT_aa_3 (d : dims) (H : ints) (T U : amps) : mat4 := fun a b i j =>
  ccd_dT_aa_2 d H T U a b i j + sumn (nob d) (fun m => sumn (nub d) (fun e => (ccd_I2B_voov d H T U a m i e) * (x_ab T b e j m))).
(** ccpy/cc/ccd.py, update_t2a, line 58 *)
Definition ccd_dT_aa_4 (d : dims) (H : ints) (T U : amps) : mat4 := fun a b i j =>
  ccd_dT_aa_3 d H T U a b i j + 1 / 8 * (sumn (nua d) (fun e => sumn (nua d) (fun f => (i_aa_vvvv H a b e f) * (x_aa T e f i j)))).
(** ccpy/cc/ccd.py, update_t2a, line 59 *)
Definition ccd_dT_aa_5 (d : dims) (H : ints) (T U : amps) : mat4 := fun a b i j =>
  ccd_dT_aa_4 d H T U a b i j + 1 / 8 * (sumn (noa d) (fun m => sumn (noa d) (fun n => (ccd_I2A_oooo d H T U m n i j) * (x_aa T a b m n)))).
(** ccpy/cc/ccd.py, update_t2a, lines 61-63 *)
Definition ccd_res_aa (d : dims) (H : ints) (T U : amps) : mat4 := fun a b i j =>
  ccd_dT_aa_5 d H T U a b i j + 1 / 4 * (i_aa_vvoo H a b i j).
(** ccpy/cc/ccd.py, update_t2b, lines 71-75 *)
Definition ccd_I1A_vv_1 (d : dims) (H : ints) (T U : amps) : mat2 := fun a e =>
  i_a_vv H a e - 1 / 2 * (sumn (noa d) (fun m => sumn (noa d) (fun n => sumn (nua d) (fun f => (i_aa_oovv H m n e f) * (x_aa U a f m n))))) - sumn (noa d) (fun m => sumn (nob d) (fun n => sumn (nub d) (fun f => (i_ab_oovv H m n e f) * (x_ab T a f m n)))).
(** ccpy/cc/ccd.py, update_t2b, lines 77-81 *)
Definition ccd_I1B_vv (d : dims) (H : ints) (T U : amps) : mat2 := fun b e =>
  i_b_vv H b e - sumn (noa d) (fun n => sumn (nob d) (fun m => sumn (nua d) (fun f => (i_ab_oovv H n m f e) * (x_ab T f b n m)))) - 1 / 2 * (sumn (nob d) (fun m => sumn (nob d) (fun n => sumn (nub d) (fun f => (i_bb_oovv H m n e f) * (x_bb T f b n m))))).
(** ccpy/cc/ccd.py, update_t2b, lines 83-87 *)
Definition ccd_I1A_oo_1 (d : dims) (H : ints) (T U : amps) : mat2 := fun m i =>
  i_a_oo H m i + 1 / 2 * (sumn (noa d) (fun n => sumn (nua d) (fun e => sumn (nua d) (fun f => (i_aa_oovv H m n e f) * (x_aa U e f i n))))) + sumn (nob d) (fun n => sumn (nua d) (fun e => sumn (nub d) (fun f => (i_ab_oovv H m n e f) * (x_ab T e f i n)))).
(** ccpy/cc/ccd.py, update_t2b, lines 89-93 *)
Definition ccd_I1B_oo (d : dims) (H : ints) (T U : amps) : mat2 := fun m j =>
  i_b_oo H m j + sumn (noa d) (fun n => sumn (nua d) (fun f => sumn (nub d) (fun e => (i_ab_oovv H n m f e) * (x_ab T f e n j)))) + 1 / 2 * (sumn (nob d) (fun n => sumn (nub d) (fun e => sumn (nub d) (fun f => (i_bb_oovv H m n e f) * (x_bb T e f j n))))).
(** ccpy/cc/ccd.py, update_t2b, lines 95-99 *)
Definition ccd_I2A_voov_1 (d : dims) (H : ints) (T U : amps) : mat4 := fun a n i f =>
  i_aa_voov H a n i f + sumn (noa d) (fun m => sumn (nua d) (fun e => (i_aa_oovv H m n e f) * (x_aa U a e i m))) + sumn (nob d) (fun m => sumn (nub d) (fun e => (i_ab_oovv H n m f e) * (x_ab T a e i m))).
(** ccpy/cc/ccd.py, update_t2b, lines 101-105 *)
Definition ccd_I2B_voov_1 (d : dims) (H : ints) (T U : amps) : mat4 := fun a n i f =>
  i_ab_voov H a n i f + sumn (noa d) (fun m => sumn (nua d) (fun e => (i_ab_oovv H m n e f) * (x_aa U a e i m))) + sumn (nob d) (fun m => sumn (nub d) (fun e => (i_bb_oovv H m n e f) * (x_ab T a e i m))).
(** ccpy/cc/ccd.py, update_t2b, line 107 *)
Definition ccd_I2B_oooo (d : dims) (H : ints) (T U : amps) : mat4 := fun m n i j =>
  i_ab_oooo H m n i j + sumn (nua d) (fun e => sumn (nub d) (fun f => (i_ab_oovv H m n e f) * (x_ab T e f i j))).
(** ccpy/cc/ccd.py, update_t2b, line 109 *)
Definition ccd_I2B_vovo (d : dims) (H : ints) (T U : amps) : mat4 := fun a n e j =>
  i_ab_vovo H a n e j - sumn (noa d) (fun m => sumn (nub d) (fun f => (i_ab_oovv H m n e f) * (x_ab T a f m j))).
(** ccpy/cc/ccd.py, update_t2b, line 111 *)
Definition ccd_dT_ab (d : dims) (H : ints) (T U : amps) : mat4 := fun a b i j =>
  sumn (nua d) (fun e => (ccd_I1A_vv_1 d H T U a e) * (x_ab T e b i j)).
(** ccpy/cc/ccd.py, update_t2b, line 112 *)
Definition ccd_dT_ab_1 (d : dims) (H : ints) (T U : amps) : mat4 := fun a b i j =>
  ccd_dT_ab d H T U a b i j + sumn (nub d) (fun e => (ccd_I1B_vv d H T U b e) * (x_ab T a e i j)).
(** ccpy/cc/ccd.py, update_t2b, line 113 *)
Definition ccd_dT_ab_2 (d : dims) (H : ints) (T U : amps) : mat4 := fun a b i j =>
  ccd_dT_ab_1 d H T U a b i j - sumn (noa d) (fun m => (ccd_I1A_oo_1 d H T U m i) * (x_ab T a b m j)).
(** ccpy/cc/ccd.py, update_t2b, line 114 *)
Definition ccd_dT_ab_3 (d : dims) (H : ints) (T U : amps) : mat4 := fun a b i j =>
  ccd_dT_ab_2 d H T U a b i j - sumn (nob d) (fun m => (ccd_I1B_oo d H T U m j) * (x_ab T a b i m)).
(** ccpy/cc/ccd.py, update_t2b, line 115 *)
Definition ccd_dT_ab_4 (d : dims) (H : ints) (T U : amps) : mat4 := fun a b i j =>
  ccd_dT_ab_3 d H T U a b i j + sumn (noa d) (fun m => sumn (nua d) (fun e => (ccd_I2A_voov_1 d H T U a m i e) * (x_ab T e b m j))).
(** ccpy/cc/ccd.py, update_t2b, line 116 *)
Definition ccd_dT_ab_5 (d : dims) (H : ints) (T U : amps) : mat4 := fun a b i j =>
  ccd_dT_ab_4 d H T U a b i j + sumn (nob d) (fun m => sumn (nub d) (fun e => (ccd_I2B_voov_1 d H T U a m i e) * (x_bb T e b m j))).
(** ccpy/cc/ccd.py, update_t2b, line 117 *)
Definition ccd_dT_ab_6 (d : dims) (H : ints) (T U : amps) : mat4 := fun a b i j =>
  ccd_dT_ab_5 d H T U a b i j + sumn (noa d) (fun m => sumn (nua d) (fun e => (i_ab_ovvo H m b e j) * (x_aa U a e i m))).
(** ccpy/cc/ccd.py, update_t2b, line 118 *)
Definition ccd_dT_ab_7 (d : dims) (H : ints) (T U : amps) : mat4 := fun a b i j =>
  ccd_dT_ab_6 d H T U a b i j + sumn (nob d) (fun m => sumn (nub d) (fun e => (i_bb_voov H b m j e) * (x_ab T a e i m))).
(** ccpy/cc/ccd.py, update_t2b, line 119 *)
Definition ccd_dT_ab_8 (d : dims) (H : ints) (T U : amps) : mat4 := fun a b i j =>
  ccd_dT_ab_7 d H T U a b i j - sumn (noa d) (fun m => sumn (nub d) (fun e => (i_ab_ovov H m b i e) * (x_ab T a e m j))).
(** ccpy/cc/ccd.py, update_t2b, line 120 *)
Definition ccd_dT_ab_9 (d : dims) (H : ints) (T U : amps) : mat4 := fun a b i j =>
  ccd_dT_ab_8 d H T U a b i j - sumn (nob d) (fun m => sumn (nua d) (fun e => (ccd_I2B_vovo d H T U a m e j) * (x_ab T e b i m))).
(** ccpy/cc/ccd.py, update_t2b, line 121 *)
Definition ccd_dT_ab_10 (d : dims) (H : ints) (T U : amps) : mat4 := fun a b i j =>
  ccd_dT_ab_9 d H T U a b i j + sumn (noa d) (fun m => sumn (nob d) (fun n => (ccd_I2B_oooo d H T U m n i j) * (x_ab T a b m n))).
(** ccpy/cc/ccd.py, update_t2b, line 122 *)
Definition ccd_dT_ab_11 (d : dims) (H : ints) (T U : amps) : mat4 := fun a b i j =>
  ccd_dT_ab_10 d H T U a b i j + sumn (nua d) (fun e => sumn (nub d) (fun f => (i_ab_vvvv H a b e f) * (x_ab T e f i j))).
(** ccpy/cc/ccd.py, update_t2b, lines 124-126 *)
Definition ccd_res_ab (d : dims) (H : ints) (T U : amps) : mat4 := fun a b i j =>
  ccd_dT_ab_11 d H T U a b i j + i_ab_vvoo H a b i j.
(** ccpy/cc/ccd.py, update_t2c, lines 134-138 *)
Definition ccd_I1B_oo_1 (d : dims) (H : ints) (T U : amps) : mat2 := fun m i =>
  i_b_oo H m i + 1 / 2 * (sumn (nob d) (fun n => sumn (nub d) (fun e => sumn (nub d) (fun f => (i_bb_oovv H m n e f) * (x_bb T e f i n))))) + sumn (noa d) (fun n => sumn (nua d) (fun f => sumn (nub d) (fun e => (i_ab_oovv H n m f e) * (x_ab U f e n i)))).
(** ccpy/cc/ccd.py, update_t2c, lines 140-144 *)
Definition ccd_I1B_vv_1 (d : dims) (H : ints) (T U : amps) : mat2 := fun a e =>
  i_b_vv H a e - 1 / 2 * (sumn (nob d) (fun m => sumn (nob d) (fun n => sumn (nub d) (fun f => (i_bb_oovv H m n e f) * (x_bb T a f m n))))) - sumn (noa d) (fun n => sumn (nob d) (fun m => sumn (nua d) (fun f => (i_ab_oovv H n m f e) * (x_ab U f a n m)))).
(** ccpy/cc/ccd.py, update_t2c, lines 146-148 *)
Definition ccd_I2C_oooo (d : dims) (H : ints) (T U : amps) : mat4 := fun m n i j =>
  i_bb_oooo H m n i j + 1 / 2 * (sumn (nub d) (fun e => sumn (nub d) (fun f => (i_bb_oovv H m n e f) * (x_bb T e f i j)))).
(** ccpy/cc/ccd.py, update_t2c, lines 150-154 *)
Definition ccd_I2B_ovvo (d : dims) (H : ints) (T U : amps) : mat4 := fun m a e i =>
  i_ab_ovvo H m a e i + sumn (nob d) (fun n => sumn (nub d) (fun f => (i_ab_oovv H m n e f) * (x_bb T a f i n))) + 1 / 2 * (sumn (noa d) (fun n => sumn (nua d) (fun f => (i_aa_oovv H m n e f) * (x_ab U f a n i)))).
(** ccpy/cc/ccd.py, update_t2c, lines 156-158 *)
Definition ccd_I2C_voov (d : dims) (H : ints) (T U : amps) : mat4 := fun a m i e =>
  i_bb_voov H a m i e + 1 / 2 * (sumn (nob d) (fun n => sumn (nub d) (fun f => (i_bb_oovv H m n e f) * (x_bb T a f i n)))).
(** ccpy/cc/ccd.py, update_t2c, line 160 *)
Definition ccd_dT_bb (d : dims) (H : ints) (T U : amps) : mat4 := fun a b i j =>
  1 / 2 * (sumn (nub d) (fun e => (ccd_I1B_vv_1 d H T U a e) * (x_bb T e b i j))).
(** ccpy/cc/ccd.py, update_t2c, line 161 *)
Definition ccd_dT_bb_1 (d : dims) (H : ints) (T U : amps) : mat4 := fun a b i j =>
  ccd_dT_bb d H T U a b i j - 1 / 2 * (sumn (nob d) (fun m => (ccd_I1B_oo_1 d H T U m i) * (x_bb T a b m j))).
(** ccpy/cc/ccd.py, update_t2c, line 162 *)
Definition ccd_dT_bb_2 (d : dims) (H : ints) (T U : amps) : mat4 := fun a b i j =>
  ccd_dT_bb_1 d H T U a b i j + sumn (nob d) (fun m => sumn (nub d) (fun e => (ccd_I2C_voov d H T U a m i e) * (x_bb T e b m j))).
(** ccpy/cc/ccd.py, update_t2c, line 163 *)
Definition ccd_dT_bb_3 (d : dims) (H : ints) (T U : amps) : mat4 := fun a b i j =>
  ccd_dT_bb_2 d H T U a b i j + sumn (noa d) (fun m => sumn (nua d) (fun e => (ccd_I2B_ovvo d H T U m a e i) * (x_ab U e b m j))).
(** ccpy/cc/ccd.py, update_t2c, line 164 *)
Definition ccd_dT_bb_4 (d : dims) (H : ints) (T U : amps) : mat4 := fun a b i j =>
  ccd_dT_bb_3 d H T U a b i j + 1 / 8 * (sumn (nub d) (fun e => sumn (nub d) (fun f => (i_bb_vvvv H a b e f) * (x_bb T e f i j)))).
(** ccpy/cc/ccd.py, update_t2c, line 165 *)
Definition ccd_dT_bb_5 (d : dims) (H : ints) (T U : amps) : mat4 := fun a b i j =>
  ccd_dT_bb_4 d H T U a b i j + 1 / 8 * (sumn (nob d) (fun m => sumn (nob d) (fun n => (ccd_I2C_oooo d H T U m n i j) * (x_bb T a b m n)))).
(** ccpy/cc/ccd.py, update_t2c, lines 167-169 *)
Definition ccd_res_bb (d : dims) (H : ints) (T U : amps) : mat4 := fun a b i j =>
  ccd_dT_bb_5 d H T U a b i j + 1 / 4 * (i_bb_vvoo H a b i j).
(** ccpy/cc/ccd.py, update_t2a, lines 28-32 *)
Definition rccd_I1A_oo (d : dims) (H : ints) (T U : amps) : mat2 := fun m i =>
  i_a_oo H m i + 1 / 2 * (sumn (noa d) (fun n => sumn (nua d) (fun e => sumn (nua d) (fun f => (i_aa_oovv H m n e f) * (x_aa T e f i n))))) + sumn (noa d) (fun n => sumn (nua d) (fun e => sumn (nua d) (fun f => (i_ab_oovv H m n e f) * (x_ab T e f i n)))).
(** ccpy/cc/ccd.py, update_t2a, lines 34-38 *)
Definition rccd_I1A_vv (d : dims) (H : ints) (T U : amps) : mat2 := fun a e =>
  i_a_vv H a e - 1 / 2 * (sumn (noa d) (fun m => sumn (noa d) (fun n => sumn (nua d) (fun f => (i_aa_oovv H m n e f) * (x_aa T a f m n))))) - sumn (noa d) (fun m => sumn (noa d) (fun n => sumn (nua d) (fun f => (i_ab_oovv H m n e f) * (x_ab T a f m n)))).
(** ccpy/cc/ccd.py, update_t2a, lines 40-44 *)
Definition rccd_I2A_voov (d : dims) (H : ints) (T U : amps) : mat4 := fun a m i e =>
  i_aa_voov H a m i e + 1 / 2 * (sumn (noa d) (fun n => sumn (nua d) (fun f => (i_aa_oovv H m n e f) * (x_aa T a f i n)))) + sumn (noa d) (fun n => sumn (nua d) (fun f => (i_ab_oovv H m n e f) * (x_ab T a f i n))).
(** ccpy/cc/ccd.py, update_t2a, lines 46-48 *)
Definition rccd_I2A_oooo (d : dims) (H : ints) (T U : amps) : mat4 := fun m n i j =>
  i_aa_oooo H m n i j + 1 / 2 * (sumn (nua d) (fun e => sumn (nua d) (fun f => (i_aa_oovv H m n e f) * (x_aa T e f i j)))).
(** ccpy/cc/ccd.py, update_t2a, lines 50-52 *)
Definition rccd_I2B_voov (d : dims) (H : ints) (T U : amps) : mat4 := fun a m i e =>
  i_ab_voov H a m i e + 1 / 2 * (sumn (noa d) (fun n => sumn (nua d) (fun f => (i_bb_oovv H m n e f) * (x_ab T a f i n)))).
(** ccpy/cc/ccd.py, update_t2a, line 54 *)
Definition rccd_dT_aa (d : dims) (H : ints) (T U : amps) : mat4 := fun a b i j =>
  1 / 2 * (sumn (nua d) (fun e => (rccd_I1A_vv d H T U a e) * (x_aa T e b i j))).
(** ccpy/cc/ccd.py, update_t2a, line 55 *)
Definition rccd_dT_aa_1 (d : dims) (H : ints) (T U : amps) : mat4 := fun a b i j =>
  rccd_dT_aa d H T U a b i j - 1 / 2 * (sumn (noa d) (fun m => (rccd_I1A_oo d H T U m i) * (x_aa T a b m j))).
(** ccpy/cc/ccd.py, update_t2a, line 56 *)
Definition rccd_dT_aa_2 (d : dims) (H : ints) (T U : amps) : mat4 := fun a b i j =>
  rccd_dT_aa_1 d H T U a b i j + sumn (noa d) (fun m => sumn (nua d) (fun e => (rccd_I2A_voov d H T U a m i e) * (x_aa T e b m j))).
(** ccpy/cc/ccd.py, update_t2a, line 57 *)
Definition rccd_dT_aa_3 (d : dims) (H : ints) (T U : amps) : mat4 := fun a b i j =>
  rccd_dT_aa_2 d H T U a b i j + sumn (noa d) (fun m => sumn (nua d) (fun e => (rccd_I2B_voov d H T U a m i e) * (x_ab T b e j m))).
(** ccpy/cc/ccd.py, update_t2a, line 58 *)
Definition rccd_dT_aa_4 (d : dims) (H : ints) (T U : amps) : mat4 := fun a b i j =>
  rccd_dT_aa_3 d H T U a b i j + 1 / 8 * (sumn (nua d) (fun e => sumn (nua d) (fun f => (i_aa_vvvv H a b e f) * (x_aa T e f i j)))).
(** ccpy/cc/ccd.py, update_t2a, line 59 *)
Definition rccd_dT_aa_5 (d : dims) (H : ints) (T U : amps) : mat4 := fun a b i j =>
  rccd_dT_aa_4 d H T U a b i j + 1 / 8 * (sumn (noa d) (fun m => sumn (noa d) (fun n => (rccd_I2A_oooo d H T U m n i j) * (x_aa T a b m n)))).
(** ccpy/cc/ccd.py, update_t2a, lines 61-63 *)
Definition rccd_res_aa (d : dims) (H : ints) (T U : amps) : mat4 := fun a b i j =>
  rccd_dT_aa_5 d H T U a b i j + 1 / 4 * (i_aa_vvoo H a b i j).
(** ccpy/cc/ccd.py, update_t2b, lines 71-75 *)
Definition rccd_I1A_vv_1 (d : dims) (H : ints) (T U : amps) : mat2 := fun a e =>
  i_a_vv H a e - 1 / 2 * (sumn (noa d) (fun m => sumn (noa d) (fun n => sumn (nua d) (fun f => (i_aa_oovv H m n e f) * (x_aa U a f m n))))) - sumn (noa d) (fun m => sumn (noa d) (fun n => sumn (nua d) (fun f => (i_ab_oovv H m n e f) * (x_ab T a f m n)))).
(** ccpy/cc/ccd.py, update_t2b, lines 77-81 *)
Definition rccd_I1B_vv (d : dims) (H : ints) (T U : amps) : mat2 := fun b e =>
  i_b_vv H b e - sumn (noa d) (fun n => sumn (noa d) (fun m => sumn (nua d) (fun f => (i_ab_oovv H n m f e) * (x_ab T f b n m)))) - 1 / 2 * (sumn (noa d) (fun m => sumn (noa d) (fun n => sumn (nua d) (fun f => (i_bb_oovv H m n e f) * (x_bb T f b n m))))).
(** ccpy/cc/ccd.py, update_t2b, lines 83-87 *)
Definition rccd_I1A_oo_1 (d : dims) (H : ints) (T U : amps) : mat2 := fun m i =>
  i_a_oo H m i + 1 / 2 * (sumn (noa d) (fun n => sumn (nua d) (fun e => sumn (nua d) (fun f => (i_aa_oovv H m n e f) * (x_aa U e f i n))))) + sumn (noa d) (fun n => sumn (nua d) (fun e => sumn (nua d) (fun f => (i_ab_oovv H m n e f) * (x_ab T e f i n)))).
(** ccpy/cc/ccd.py, update_t2b, lines 89-93 *)
Definition rccd_I1B_oo (d : dims) (H : ints) (T U : amps) : mat2 := fun m j =>
  i_b_oo H m j + sumn (noa d) (fun n => sumn (nua d) (fun f => sumn (nua d) (fun e => (i_ab_oovv H n m f e) * (x_ab T f e n j)))) + 1 / 2 * (sumn (noa d) (fun n => sumn (nua d) (fun e => sumn (nua d) (fun f => (i_bb_oovv H m n e f) * (x_bb T e f j n))))).
(** ccpy/cc/ccd.py, update_t2b, lines 95-99 *)
Definition rccd_I2A_voov_1 (d : dims) (H : ints) (T U : amps) : mat4 := fun a n i f =>
  i_aa_voov H a n i f + sumn (noa d) (fun m => sumn (nua d) (fun e => (i_aa_oovv H m n e f) * (x_aa U a e i m))) + sumn (noa d) (fun m => sumn (nua d) (fun e => (i_ab_oovv H n m f e) * (x_ab T a e i m))).
(** ccpy/cc/ccd.py, update_t2b, lines 101-105 *)
Definition rccd_I2B_voov_1 (d : dims) (H : ints) (T U : amps) : mat4 := fun a n i f =>
  i_ab_voov H a n i f + sumn (noa d) (fun m => sumn (nua d) (fun e => (i_ab_oovv H m n e f) * (x_aa U a e i m))) + sumn (noa d) (fun m => sumn (nua d) (fun e => (i_bb_oovv H m n e f) * (x_ab T a e i m))).
(** ccpy/cc/ccd.py, update_t2b, line 107 *)
Definition rccd_I2B_oooo (d : dims) (H : ints) (T U : amps) : mat4 := fun m n i j =>
  i_ab_oooo H m n i j + sumn (nua d) (fun e => sumn (nua d) (fun f => (i_ab_oovv H m n e f) * (x_ab T e f i j))).
(** ccpy/cc/ccd.py, update_t2b, line 109 *)
Definition rccd_I2B_vovo (d : dims) (H : ints) (T U : amps) : mat4 := fun a n e j =>
  i_ab_vovo H a n e j - sumn (noa d) (fun m => sumn (nua d) (fun f => (i_ab_oovv H m n e f) * (x_ab T a f m j))).
(** ccpy/cc/ccd.py, update_t2b, line 111 *)
Definition rccd_dT_ab (d : dims) (H : ints) (T U : amps) : mat4 := fun a b i j =>
  sumn (nua d) (fun e => (rccd_I1A_vv_1 d H T U a e) * (x_ab T e b i j)).
(** ccpy/cc/ccd.py, update_t2b, line 112 *)
Definition rccd_dT_ab_1 (d : dims) (H : ints) (T U : amps) : mat4 := fun a b i j =>
  rccd_dT_ab d H T U a b i j + sumn (nua d) (fun e => (rccd_I1B_vv d H T U b e) * (x_ab T a e i j)).
(** ccpy/cc/ccd.py, update_t2b, line 113 *)
Definition rccd_dT_ab_2 (d : dims) (H : ints) (T U : amps) : mat4 := fun a b i j =>
  rccd_dT_ab_1 d H T U a b i j - sumn (noa d) (fun m => (rccd_I1A_oo_1 d H T U m i) * (x_ab T a b m j)).
(** ccpy/cc/ccd.py, update_t2b, line 114 *)
Definition rccd_dT_ab_3 (d : dims) (H : ints) (T U : amps) : mat4 := fun a b i j =>
  rccd_dT_ab_2 d H T U a b i j - sumn (noa d) (fun m => (rccd_I1B_oo d H T U m j) * (x_ab T a b i m)).
(** ccpy/cc/ccd.py, update_t2b, line 115 *)
Definition rccd_dT_ab_4 (d : dims) (H : ints) (T U : amps) : mat4 := fun a b i j =>
  rccd_dT_ab_3 d H T U a b i j + sumn (noa d) (fun m => sumn (nua d) (fun e => (rccd_I2A_voov_1 d H T U a m i e) * (x_ab T e b m j))).
(** ccpy/cc/ccd.py, update_t2b, line 116 *)
Definition rccd_dT_ab_5 (d : dims) (H : ints) (T U : amps) : mat4 := fun a b i j =>
  rccd_dT_ab_4 d H T U a b i j + sumn (noa d) (fun m => sumn (nua d) (fun e => (rccd_I2B_voov_1 d H T U a m i e) * (x_bb T e b m j))).
(** ccpy/cc/ccd.py, update_t2b, line 117 *)
Definition rccd_dT_ab_6 (d : dims) (H : ints) (T U : amps) : mat4 := fun a b i j =>
  rccd_dT_ab_5 d H T U a b i j + sumn (noa d) (fun m => sumn (nua d) (fun e => (i_ab_ovvo H m b e j) * (x_aa U a e i m))).
(** ccpy/cc/ccd.py, update_t2b, line 118 *)
Definition rccd_dT_ab_7 (d : dims) (H : ints) (T U : amps) : mat4 := fun a b i j =>
  rccd_dT_ab_6 d H T U a b i j + sumn (noa d) (fun m => sumn (nua d) (fun e => (i_bb_voov H b m j e) * (x_ab T a e i m))).
(** ccpy/cc/ccd.py, update_t2b, line 119 *)
Definition rccd_dT_ab_8 (d : dims) (H : ints) (T U : amps) : mat4 := fun a b i j =>
  rccd_dT_ab_7 d H T U a b i j - sumn (noa d) (fun m => sumn (nua d) (fun e => (i_ab_ovov H m b i e) * (x_ab T a e m j))).
(** ccpy/cc/ccd.py, update_t2b, line 120 *)
Definition rccd_dT_ab_9 (d : dims) (H : ints) (T U : amps) : mat4 := fun a b i j =>
  rccd_dT_ab_8 d H T U a b i j - sumn (noa d) (fun m => sumn (nua d) (fun e => (rccd_I2B_vovo d H T U a m e j) * (x_ab T e b i m))).
(** ccpy/cc/ccd.py, update_t2b, line 121 *)
Definition rccd_dT_ab_10 (d : dims) (H : ints) (T U : amps) : mat4 := fun a b i j =>
  rccd_dT_ab_9 d H T U a b i j + sumn (noa d) (fun m => sumn (noa d) (fun n => (rccd_I2B_oooo d H T U m n i j) * (x_ab T a b m n))).
(** ccpy/cc/ccd.py, update_t2b, line 122 *)
Definition rccd_dT_ab_11 (d : dims) (H : ints) (T U : amps) : mat4 := fun a b i j =>
  rccd_dT_ab_10 d H T U a b i j + sumn (nua d) (fun e => sumn (nua d) (fun f => (i_ab_vvvv H a b e f) * (x_ab T e f i j))).
(** ccpy/cc/ccd.py, update_t2b, lines 124-126 *)
Definition rccd_res_ab (d : dims) (H : ints) (T U : amps) : mat4 := fun a b i j =>
  rccd_dT_ab_11 d H T U a b i j + i_ab_vvoo H a b i j.
(** ccpy/cc/ccd.py, update, line 16 *)
Definition rccd_T_bb (d : dims) (H : ints) (T U : amps) : mat4 := fun a b i j =>
  x_aa U a b i j.
(** ccpy/cc/ccd.py, update, line 17 *)
Definition rccd_dT_bb (d : dims) (H : ints) (T U : amps) : mat4 := fun a b i j =>
  rccd_res_aa d H T U a b i j.
(** ccpy/hbar/hbar_ccs.py, get_pre_ccs_intermediates, lines 108-111 *)
Definition rccsd_X_a_ov (d : dims) (H : ints) (T U : amps) : mat2 := fun m e =>
  i_a_ov H m e + (sumn (noa d) (fun n => sumn (nua d) (fun f => (i_aa_oovv H m n e f) * (x_a T f n))) + sumn (noa d) (fun n => sumn (nua d) (fun f => (i_ab_oovv H m n e f) * (x_b T f n)))).
(** ccpy/hbar/hbar_ccs.py, get_pre_ccs_intermediates, lines 119-124 *)
Definition rccsd_X_a_vv (d : dims) (H : ints) (T U : amps) : mat2 := fun a e =>
  i_a_vv H a e + (sumn (noa d) (fun n => sumn (nua d) (fun f => (i_aa_vovv H a n e f) * (x_a T f n))) + sumn (noa d) (fun n => sumn (nua d) (fun f => (i_ab_vovv H a n e f) * (x_b T f n))) - 1 / 2 * (sumn (noa d) (fun m => sumn (noa d) (fun n => sumn (nua d) (fun f => (i_aa_oovv H m n e f) * (x_aa T a f m n))))) - sumn (noa d) (fun m => sumn (noa d) (fun n => sumn (nua d) (fun f => (i_ab_oovv H m n e f) * (x_ab T a f m n))))).
(** ccpy/hbar/hbar_ccs.py, get_pre_ccs_intermediates, lines 125-131 *)
Definition rccsd_X_a_oo (d : dims) (H : ints) (T U : amps) : mat2 := fun m i =>
  i_a_oo H m i + (sumn (noa d) (fun n => sumn (nua d) (fun f => (i_aa_ooov H m n i f) * (x_a T f n))) + sumn (noa d) (fun n => sumn (nua d) (fun f => (i_ab_ooov H m n i f) * (x_b T f n))) + sumn (nua d) (fun e => (rccsd_X_a_ov d H T U m e) * (x_a T e i)) + 1 / 2 * (sumn (noa d) (fun n => sumn (nua d) (fun e => sumn (nua d) (fun f => (i_aa_oovv H m n e f) * (x_aa T e f i n))))) + sumn (noa d) (fun n => sumn (nua d) (fun e => sumn (nua d) (fun f => (i_ab_oovv H m n e f) * (x_ab T e f i n))))).
(** ccpy/cc/ccsd.py, update_t1a, line 40 *)
Definition rccsd_dT_a (d : dims) (H : ints) (T U : amps) : mat2 := fun a i =>
  (- (sumn (noa d) (fun m => (rccsd_X_a_oo d H T U m i) * (x_a T a m)))).
(** ccpy/cc/ccsd.py, update_t1a, line 41 *)
Definition rccsd_dT_a_1 (d : dims) (H : ints) (T U : amps) : mat2 := fun a i =>
  rccsd_dT_a d H T U a i + sumn (nua d) (fun e => (rccsd_X_a_vv d H T U a e) * (x_a T e i)).
(** ccpy/cc/ccsd.py, update_t1a, line 42 *)
Definition rccsd_dT_a_2 (d : dims) (H : ints) (T U : amps) : mat2 := fun a i =>
  rccsd_dT_a_1 d H T U a i + sumn (noa d) (fun m => sumn (nua d) (fun e => (rccsd_X_a_ov d H T U m e) * (x_aa T a e i m))).
(** ccpy/cc/ccsd.py, update_t1a, line 43 *)
Definition rccsd_dT_a_3 (d : dims) (H : ints) (T U : amps) : mat2 := fun a i =>
  rccsd_dT_a_2 d H T U a i + sumn (noa d) (fun m => sumn (nua d) (fun e => (rccsd_X_a_ov d H T U m e) * (x_ab T a e i m))).
(** ccpy/cc/ccsd.py, update_t1a, line 44 *)
Definition rccsd_dT_a_4 (d : dims) (H : ints) (T U : amps) : mat2 := fun a i =>
  rccsd_dT_a_3 d H T U a i + sumn (noa d) (fun n => sumn (nua d) (fun f => (i_aa_voov H a n i f) * (x_a T f n))).
(** ccpy/cc/ccsd.py, update_t1a, line 45 *)
Definition rccsd_dT_a_5 (d : dims) (H : ints) (T U : amps) : mat2 := fun a i =>
  rccsd_dT_a_4 d H T U a i + sumn (noa d) (fun n => sumn (nua d) (fun f => (i_ab_voov H a n i f) * (x_b T f n))).
(** ccpy/cc/ccsd.py, update_t1a, line 46 *)
Definition rccsd_dT_a_6 (d : dims) (H : ints) (T U : amps) : mat2 := fun a i =>
  rccsd_dT_a_5 d H T U a i - 1 / 2 * (sumn (noa d) (fun m => sumn (noa d) (fun n => sumn (nua d) (fun f => (i_aa_ooov H m n i f) * (x_aa T a f m n))))).
(** ccpy/cc/ccsd.py, update_t1a, line 47 *)
Definition rccsd_dT_a_7 (d : dims) (H : ints) (T U : amps) : mat2 := fun a i =>
  rccsd_dT_a_6 d H T U a i - sumn (noa d) (fun m => sumn (noa d) (fun n => sumn (nua d) (fun f => (i_ab_ooov H m n i f) * (x_ab T a f m n)))).
(** ccpy/cc/ccsd.py, update_t1a, line 48 *)
Definition rccsd_dT_a_8 (d : dims) (H : ints) (T U : amps) : mat2 := fun a i =>
  rccsd_dT_a_7 d H T U a i + 1 / 2 * (sumn (noa d) (fun n => sumn (nua d) (fun e => sumn (nua d) (fun f => (i_aa_vovv H a n e f) * (x_aa T e f i n))))).
(** ccpy/cc/ccsd.py, update_t1a, line 49 *)
Definition rccsd_dT_a_9 (d : dims) (H : ints) (T U : amps) : mat2 := fun a i =>
  rccsd_dT_a_8 d H T U a i + sumn (noa d) (fun n => sumn (nua d) (fun e => sumn (nua d) (fun f => (i_ab_vovv H a n e f) * (x_ab T e f i n)))).
(** ccpy/cc/ccsd.py, update_t1a, lines 50-52 *)
Definition rccsd_res_a (d : dims) (H : ints) (T U : amps) : mat2 := fun a i =>
  rccsd_dT_a_9 d H T U a i + i_a_vo H a i.
(** ccpy/cc/ccsd.py, update, line 17 *)
Definition rccsd_T_b (d : dims) (H : ints) (T U : amps) : mat2 := fun a i =>
  x_a U a i.
(** ccpy/cc/ccsd.py, update, line 18 *)
Definition rccsd_dT_b (d : dims) (H : ints) (T U : amps) : mat2 := fun a i =>
  rccsd_res_a d H T U a i.
(** ccpy/hbar/hbar_ccs.py, get_ccs_intermediates_opt, line 9 *)
Definition rccsd_X_a_vv_1 (d : dims) (H : ints) (T U : amps) : mat2 := fun a e =>
  rccsd_X_a_vv d H T U a e - sumn (noa d) (fun m => (rccsd_X_a_ov d H T U m e) * (x_a U a m)).
(** ccpy/hbar/hbar_ccs.py, get_ccs_intermediates_opt, line 16 *)
Definition rccsd_X_aa_ooov (d : dims) (H : ints) (T U : amps) : mat4 := fun m n i e =>
  sumn (nua d) (fun f => (i_aa_oovv H m n f e) * (x_a U f i)).
(** ccpy/hbar/hbar_ccs.py, get_ccs_intermediates_opt, line 17 *)
Definition rccsd_X_aa_vovv (d : dims) (H : ints) (T U : amps) : mat4 := fun a m e f =>
  (- (sumn (noa d) (fun n => (i_aa_oovv H m n f e) * (x_a U a n)))).
(** ccpy/hbar/hbar_ccs.py, get_ccs_intermediates_opt, line 18 *)
Definition rccsd_X_aa_oooo (d : dims) (H : ints) (T U : amps) : mat4 := fun m n i j =>
  1 / 2 * (i_aa_oooo H m n i j) + sumn (nua d) (fun e => (i_aa_ooov H n m j e + 1 / 2 * (rccsd_X_aa_ooov d H T U n m j e)) * (x_a U e i)).
(** ccpy/hbar/hbar_ccs.py, get_ccs_intermediates_opt, line 19 *)
Definition rccsd_X_aa_oooo_1 (d : dims) (H : ints) (T U : amps) : mat4 := fun m n i j =>
  rccsd_X_aa_oooo d H T U m n i j - rccsd_X_aa_oooo d H T U m n j i.
(** ccpy/hbar/hbar_ccs.py, get_ccs_intermediates_opt, lines 20-23 *)
Definition rccsd_X_aa_voov (d : dims) (H : ints) (T U : amps) : mat4 := fun a m i e =>
  i_aa_voov H a m i e + (sumn (nua d) (fun f => (i_aa_vovv H a m f e + 1 / 2 * (rccsd_X_aa_vovv d H T U a m f e)) * (x_a U f i)) - sumn (noa d) (fun n => (i_aa_ooov H n m i e + 1 / 2 * (rccsd_X_aa_ooov d H T U n m i e)) * (x_a U a n))).
(** ccpy/hbar/hbar_ccs.py, get_ccs_intermediates_opt, line 24 *)
Definition rccsd_L_amie (d : dims) (H : ints) (T U : amps) : mat4 := fun a m i f =>
  i_aa_voov H a m i f + 1 / 2 * (sumn (nua d) (fun e => (i_aa_vovv H a m e f) * (x_a U e i))).
(** ccpy/hbar/hbar_ccs.py, get_ccs_intermediates_opt, line 25 *)
Definition rccsd_X_mnij (d : dims) (H : ints) (T U : amps) : mat4 := fun m n i j =>
  i_aa_oooo H m n i j + sumn (nua d) (fun e => (rccsd_X_aa_ooov d H T U m n i e) * (x_a U e j)).
(** ccpy/hbar/hbar_ccs.py, get_ccs_intermediates_opt, lines 26-29 *)
Definition rccsd_X_aa_vooo (d : dims) (H : ints) (T U : amps) : mat4 := fun a m i j =>
  1 / 2 * (i_aa_vooo H a m i j) + (sumn (nua d) (fun e => (rccsd_L_amie d H T U a m i e) * (x_a U e j)) - 1 / 4 * (sumn (noa d) (fun m' => (rccsd_X_mnij d H T U m' m i j) * (x_a U a m')))).
(** ccpy/hbar/hbar_ccs.py, get_ccs_intermediates_opt, line 30 *)
Definition rccsd_X_aa_vooo_1 (d : dims) (H : ints) (T U : amps) : mat4 := fun a m i j =>
  rccsd_X_aa_vooo d H T U a m i j - rccsd_X_aa_vooo d H T U a m j i.
(** ccpy/hbar/hbar_ccs.py, get_ccs_intermediates_opt, line 31 *)
Definition rccsd_L_amie_1 (d : dims) (H : ints) (T U : amps) : mat4 := fun a n i e =>
  sumn (noa d) (fun m => (i_aa_ooov H m n i e) * (x_a U a m)).
(** ccpy/hbar/hbar_ccs.py, get_ccs_intermediates_opt, line 32 *)
Definition rccsd_X_aa_vvov (d : dims) (H : ints) (T U : amps) : mat4 := fun a b i e =>
  i_aa_vvov H a b i e + sumn (noa d) (fun n => (rccsd_L_amie_1 d H T U a n i e) * (x_a U b n)).
(** ccpy/hbar/hbar_ccs.py, get_ccs_intermediates_opt, line 67 *)
Definition rccsd_X_ab_ooov (d : dims) (H : ints) (T U : amps) : mat4 := fun m n i e =>
  sumn (nua d) (fun f => (i_ab_oovv H m n f e) * (x_a U f i)).
(** ccpy/hbar/hbar_ccs.py, get_ccs_intermediates_opt, line 68 *)
Definition rccsd_X_ab_oovo (d : dims) (H : ints) (T U : amps) : mat4 := fun n m e i =>
  sumn (nua d) (fun f => (i_ab_oovv H n m e f) * (rccsd_T_b d H T U f i)).
(** ccpy/hbar/hbar_ccs.py, get_ccs_intermediates_opt, lines 69-72 *)
Definition rccsd_X_ab_oooo (d : dims) (H : ints) (T U : amps) : mat4 := fun m n i j =>
  i_ab_oooo H m n i j + (sumn (nua d) (fun e => (i_ab_oovo H m n e j + 1 / 2 * (rccsd_X_ab_oovo d H T U m n e j)) * (x_a U e i)) + sumn (nua d) (fun e => (i_ab_ooov H m n i e + 1 / 2 * (rccsd_X_ab_ooov d H T U m n i e)) * (rccsd_T_b d H T U e j))).
(** ccpy/hbar/hbar_ccs.py, get_ccs_intermediates_opt, line 73 *)
Definition rccsd_X_ab_vovv (d : dims) (H : ints) (T U : amps) : mat4 := fun a m e f =>
  (- (sumn (noa d) (fun n => (i_ab_oovv H n m e f) * (x_a U a n)))).
(** ccpy/hbar/hbar_ccs.py, get_ccs_intermediates_opt, line 74 *)
Definition rccsd_X_ab_ovvv (d : dims) (H : ints) (T U : amps) : mat4 := fun m a e f =>
  (- (sumn (noa d) (fun n => (i_ab_oovv H m n e f) * (rccsd_T_b d H T U a n)))).
(** ccpy/hbar/hbar_ccs.py, get_ccs_intermediates_opt, lines 75-78 *)
Definition rccsd_X_ab_voov (d : dims) (H : ints) (T U : amps) : mat4 := fun a m i e =>
  i_ab_voov H a m i e + (sumn (nua d) (fun f => (i_ab_vovv H a m f e + 1 / 2 * (rccsd_X_ab_vovv d H T U a m f e)) * (x_a U f i)) - sumn (noa d) (fun n => (i_ab_ooov H n m i e + 1 / 2 * (rccsd_X_ab_ooov d H T U n m i e)) * (x_a U a n))).
(** ccpy/hbar/hbar_ccs.py, get_ccs_intermediates_opt, lines 79-82 *)
Definition rccsd_X_ab_ovvo (d : dims) (H : ints) (T U : amps) : mat4 := fun m a e i =>
  i_ab_ovvo H m a e i + (sumn (nua d) (fun f => (i_ab_ovvv H m a e f + 1 / 2 * (rccsd_X_ab_ovvv d H T U m a e f)) * (rccsd_T_b d H T U f i)) - sumn (noa d) (fun n => (i_ab_oovo H m n e i + 1 / 2 * (rccsd_X_ab_oovo d H T U m n e i)) * (rccsd_T_b d H T U a n))).
(** ccpy/hbar/hbar_ccs.py, get_ccs_intermediates_opt, lines 83-86 *)
Definition rccsd_X_ab_ovov (d : dims) (H : ints) (T U : amps) : mat4 := fun m a i e =>
  i_ab_ovov H m a i e + (sumn (nua d) (fun f => (i_ab_ovvv H m a f e + 1 / 2 * (rccsd_X_ab_ovvv d H T U m a f e)) * (x_a U f i)) - sumn (noa d) (fun n => (i_ab_ooov H m n i e + 1 / 2 * (rccsd_X_ab_ooov d H T U m n i e)) * (rccsd_T_b d H T U a n))).
(** ccpy/hbar/hbar_ccs.py, get_ccs_intermediates_opt, lines 87-90 *)
Definition rccsd_X_ab_vovo (d : dims) (H : ints) (T U : amps) : mat4 := fun a m e i =>
  i_ab_vovo H a m e i - (sumn (noa d) (fun n => (i_ab_oovo H n m e i + 1 / 2 * (rccsd_X_ab_oovo d H T U n m e i)) * (x_a U a n)) - sumn (nua d) (fun f => (i_ab_vovv H a m e f + 1 / 2 * (rccsd_X_ab_vovv d H T U a m e f)) * (rccsd_T_b d H T U f i))).
(** ccpy/hbar/hbar_ccs.py, get_ccs_intermediates_opt, lines 91-94 *)
Definition rccsd_X_mnij_1 (d : dims) (H : ints) (T U : amps) : mat4 := fun m n i j =>
  i_ab_oooo H m n i j + (sumn (nua d) (fun f => (i_ab_ooov H m n i f) * (rccsd_T_b d H T U f j)) + sumn (nua d) (fun e => (i_ab_oovo H m n e j) * (x_a U e i))).
(** ccpy/hbar/hbar_ccs.py, get_ccs_intermediates_opt, line 95 *)
Definition rccsd_L_mbej (d : dims) (H : ints) (T U : amps) : mat4 := fun m b e j =>
  i_ab_ovvo H m b e j + sumn (nua d) (fun f => (i_ab_ovvv H m b e f) * (rccsd_T_b d H T U f j)).
(** ccpy/hbar/hbar_ccs.py, get_ccs_intermediates_opt, lines 96-99 *)
Definition rccsd_X_ab_ovoo (d : dims) (H : ints) (T U : amps) : mat4 := fun m b i j =>
  i_ab_ovoo H m b i j + (sumn (nua d) (fun e => (rccsd_L_mbej d H T U m b e j) * (x_a U e i)) - sumn (noa d) (fun n => (rccsd_X_mnij_1 d H T U m n i j) * (rccsd_T_b d H T U b n))).
(** ccpy/hbar/hbar_ccs.py, get_ccs_intermediates_opt, line 100 *)
Definition rccsd_L_amie_2 (d : dims) (H : ints) (T U : amps) : mat4 := fun a m i f =>
  sumn (nua d) (fun e => (i_ab_vovv H a m e f + rccsd_X_ab_vovv d H T U a m e f) * (x_a U e i)).
(** ccpy/hbar/hbar_ccs.py, get_ccs_intermediates_opt, line 101 *)
Definition rccsd_X_ab_vooo (d : dims) (H : ints) (T U : amps) : mat4 := fun a m i j =>
  i_ab_vooo H a m i j + sumn (nua d) (fun f => (i_ab_voov H a m i f + rccsd_L_amie_2 d H T U a m i f) * (rccsd_T_b d H T U f j)).
(** ccpy/hbar/hbar_ccs.py, get_ccs_intermediates_opt, line 102 *)
Definition rccsd_X_ab_vvvo (d : dims) (H : ints) (T U : amps) : mat4 := fun a b e j =>
  i_ab_vvvo H a b e j - sumn (noa d) (fun n => (i_ab_vovo H a n e j) * (rccsd_T_b d H T U b n)).
(** ccpy/hbar/hbar_ccs.py, get_ccs_intermediates_opt, line 103 *)
Definition rccsd_X_ab_vvov (d : dims) (H : ints) (T U : amps) : mat4 := fun a b i e =>
  i_ab_vvov H a b i e - sumn (noa d) (fun m => (i_ab_ovov H m b i e) * (x_a U a m)).
(** ccpy/cc/ccsd.py, update_t2a, lines 84-87 *)
Definition rccsd_I2A_voov (d : dims) (H : ints) (T U : amps) : mat4 := fun a m i e =>
  rccsd_X_aa_voov d H T U a m i e + (1 / 2 * (sumn (noa d) (fun n => sumn (nua d) (fun f => (i_aa_oovv H m n e f) * (x_aa T a f i n)))) + sumn (noa d) (fun n => sumn (nua d) (fun f => (i_ab_oovv H m n e f) * (x_ab T a f i n)))).
(** ccpy/cc/ccsd.py, update_t2a, line 88 *)
Definition rccsd_I2A_oooo (d : dims) (H : ints) (T U : amps) : mat4 := fun m n i j =>
  rccsd_X_aa_oooo_1 d H T U m n i j + 1 / 2 * (sumn (nua d) (fun e => sumn (nua d) (fun f => (i_aa_oovv H m n e f) * (x_aa T e f i j)))).
(** ccpy/cc/ccsd.py, update_t2a, line 89 *)
Definition rccsd_I2B_voov (d : dims) (H : ints) (T U : amps) : mat4 := fun a m i e =>
  rccsd_X_ab_voov d H T U a m i e + 1 / 2 * (sumn (noa d) (fun n => sumn (nua d) (fun f => (i_bb_oovv H m n e f) * (x_ab T a f i n)))).
(** ccpy/cc/ccsd.py, update_t2a, line 90 *)
Definition rccsd_I2A_vooo (d : dims) (H : ints) (T U : amps) : mat4 := fun a m i j =>
  rccsd_X_aa_vooo_1 d H T U a m i j + 1 / 2 * (sumn (nua d) (fun e => sumn (nua d) (fun f => (i_aa_vovv H a m e f + 1 / 2 * (rccsd_X_aa_vovv d H T U a m e f)) * (x_aa T e f i j)))).
(** ccpy/cc/ccsd.py, update_t2a, line 92 *)
Definition rccsd_tau (d : dims) (H : ints) (T U : amps) : mat4 := fun a b i j =>
  1 / 2 * (x_aa T a b i j) + (x_a U a i) * (x_a U b j).
(** ccpy/cc/ccsd.py, update_t2a, line 94 *)
Definition rccsd_dT_aa (d : dims) (H : ints) (T U : amps) : mat4 := fun a b i j =>
  (-1) / 2 * (sumn (noa d) (fun m => (rccsd_I2A_vooo d H T U a m i j) * (x_a U b m))).
(** ccpy/cc/ccsd.py, update_t2a, line 95 *)
Definition rccsd_dT_aa_1 (d : dims) (H : ints) (T U : amps) : mat4 := fun a b i j =>
  rccsd_dT_aa d H T U a b i j + 1 / 2 * (sumn (nua d) (fun e => (rccsd_X_aa_vvov d H T U a b i e) * (x_a U e j))).
(** ccpy/cc/ccsd.py, update_t2a, line 96 *)
Definition rccsd_dT_aa_2 (d : dims) (H : ints) (T U : amps) : mat4 := fun a b i j =>
  rccsd_dT_aa_1 d H T U a b i j + 1 / 2 * (sumn (nua d) (fun e => (rccsd_X_a_vv_1 d H T U a e) * (x_aa T e b i j))).
(** ccpy/cc/ccsd.py, update_t2a, line 97 *)
Definition rccsd_dT_aa_3 (d : dims) (H : ints) (T U : amps) : mat4 := fun a b i j =>
  rccsd_dT_aa_2 d H T U a b i j - 1 / 2 * (sumn (noa d) (fun m => (rccsd_X_a_oo d H T U m i) * (x_aa T a b m j))).
(** ccpy/cc/ccsd.py, update_t2a, line 98 *)
Definition rccsd_dT_aa_4 (d : dims) (H : ints) (T U : amps) : mat4 := fun a b i j =>
  rccsd_dT_aa_3 d H T U a b i j + sumn (noa d) (fun m => sumn (nua d) (fun e => (rccsd_I2A_voov d H T U a m i e) * (x_aa T e b m j))).
(** ccpy/cc/ccsd.py, update_t2a, line 99 *)
Definition rccsd_dT_aa_5 (d : dims) (H : ints) (T U : amps) : mat4 := fun a b i j =>
  rccsd_dT_aa_4 d H T U a b i j + sumn (noa d) (fun m => sumn (nua d) (fun e => (rccsd_I2B_voov d H T U a m i e) * (x_ab T b e j m))).
(** ccpy/cc/ccsd.py, update_t2a, line 100 *)
Definition rccsd_dT_aa_6 (d : dims) (H : ints) (T U : amps) : mat4 := fun a b i j =>
  rccsd_dT_aa_5 d H T U a b i j + 1 / 8 * (sumn (noa d) (fun m => sumn (noa d) (fun n => (rccsd_I2A_oooo d H T U m n i j) * (x_aa T a b m n)))).
(** ccpy/cc/ccsd.py, update_t2a, line 101 *)
Definition rccsd_dT_aa_7 (d : dims) (H : ints) (T U : amps) : mat4 := fun a b i j =>
  rccsd_dT_aa_6 d H T U a b i j + 1 / 4 * (sumn (nua d) (fun e => sumn (nua d) (fun f => (i_aa_vvvv H a b e f) * (rccsd_tau d H T U e f i j)))).
(** ccpy/cc/ccsd.py, update_t2a, lines 103-105 *)
Definition rccsd_res_aa (d : dims) (H : ints) (T U : amps) : mat4 := fun a b i j =>
  rccsd_dT_aa_7 d H T U a b i j + 1 / 4 * (i_aa_vvoo H a b i j).
(** ccpy/cc/ccsd.py, update_t2b, lines 116-119 *)
Definition rccsd_I2A_voov_1 (d : dims) (H : ints) (T U : amps) : mat4 := fun a m i e =>
  rccsd_X_aa_voov d H T U a m i e + (sumn (noa d) (fun m' => sumn (nua d) (fun e' => (i_aa_oovv H m' m e' e) * (x_aa U a e' i m'))) + sumn (noa d) (fun m' => sumn (nua d) (fun e' => (i_ab_oovv H m m' e e') * (x_ab T a e' i m')))).
(** ccpy/cc/ccsd.py, update_t2b, lines 120-123 *)
Definition rccsd_I2B_voov_1 (d : dims) (H : ints) (T U : amps) : mat4 := fun a m i e =>
  rccsd_X_ab_voov d H T U a m i e + (sumn (noa d) (fun m' => sumn (nua d) (fun e' => (i_ab_oovv H m' m e' e) * (x_aa U a e' i m'))) + sumn (noa d) (fun m' => sumn (nua d) (fun e' => (i_bb_oovv H m' m e' e) * (x_ab T a e' i m')))).
(** ccpy/cc/ccsd.py, update_t2b, line 124 *)
Definition rccsd_I2B_oooo (d : dims) (H : ints) (T U : amps) : mat4 := fun m n i j =>
  rccsd_X_ab_oooo d H T U m n i j + sumn (nua d) (fun e => sumn (nua d) (fun f => (i_ab_oovv H m n e f) * (x_ab T e f i j))).
(** ccpy/cc/ccsd.py, update_t2b, line 125 *)
Definition rccsd_I2B_vovo (d : dims) (H : ints) (T U : amps) : mat4 := fun a m e i =>
  rccsd_X_ab_vovo d H T U a m e i - sumn (noa d) (fun m' => sumn (nua d) (fun f => (i_ab_oovv H m' m e f) * (x_ab T a f m' i))).
(** ccpy/cc/ccsd.py, update_t2b, line 126 *)
Definition rccsd_I2B_ovoo (d : dims) (H : ints) (T U : amps) : mat4 := fun m b i j =>
  rccsd_X_ab_ovoo d H T U m b i j + sumn (nua d) (fun e => sumn (nua d) (fun f => (i_ab_ovvv H m b e f + 1 / 2 * (rccsd_X_ab_ovvv d H T U m b e f)) * (x_ab T e f i j))).
(** ccpy/cc/ccsd.py, update_t2b, line 127 *)
Definition rccsd_I2B_vooo (d : dims) (H : ints) (T U : amps) : mat4 := fun a m i j =>
  rccsd_X_ab_vooo d H T U a m i j + sumn (nua d) (fun e => sumn (nua d) (fun f => (i_ab_vovv H a m e f + 1 / 2 * (rccsd_X_ab_vovv d H T U a m e f)) * (x_ab T e f i j))).
(** ccpy/cc/ccsd.py, update_t2b, line 129 *)
Definition rccsd_tau_1 (d : dims) (H : ints) (T U : amps) : mat4 := fun a b i j =>
  x_ab T a b i j + (x_a U a i) * (rccsd_T_b d H T U b j).
(** ccpy/cc/ccsd.py, update_t2b, line 131 *)
Definition rccsd_dT_ab (d : dims) (H : ints) (T U : amps) : mat4 := fun a b i j =>
  (- (sumn (noa d) (fun m => (rccsd_I2B_ovoo d H T U m b i j) * (x_a U a m)))).
(** ccpy/cc/ccsd.py, update_t2b, line 132 *)
Definition rccsd_dT_ab_1 (d : dims) (H : ints) (T U : amps) : mat4 := fun a b i j =>
  rccsd_dT_ab d H T U a b i j - sumn (noa d) (fun m => (rccsd_I2B_vooo d H T U a m i j) * (rccsd_T_b d H T U b m)).
(** ccpy/cc/ccsd.py, update_t2b, line 133 *)
Definition rccsd_dT_ab_2 (d : dims) (H : ints) (T U : amps) : mat4 := fun a b i j =>
  rccsd_dT_ab_1 d H T U a b i j + sumn (nua d) (fun e => (rccsd_X_ab_vvvo d H T U a b e j) * (x_a U e i)).
(** ccpy/cc/ccsd.py, update_t2b, line 134 *)
Definition rccsd_dT_ab_3 (d : dims) (H : ints) (T U : amps) : mat4 := fun a b i j =>
  rccsd_dT_ab_2 d H T U a b i j + sumn (nua d) (fun e => (rccsd_X_ab_vvov d H T U a b i e) * (rccsd_T_b d H T U e j)).
(** ccpy/cc/ccsd.py, update_t2b, line 135 *)
Definition rccsd_dT_ab_4 (d : dims) (H : ints) (T U : amps) : mat4 := fun a b i j =>
  rccsd_dT_ab_3 d H T U a b i j + sumn (nua d) (fun e => (rccsd_X_a_vv_1 d H T U a e) * (x_ab T e b i j)).
(** ccpy/cc/ccsd.py, update_t2b, line 136 *)
Definition rccsd_dT_ab_5 (d : dims) (H : ints) (T U : amps) : mat4 := fun a b i j =>
  rccsd_dT_ab_4 d H T U a b i j + sumn (nua d) (fun e => (rccsd_X_a_vv_1 d H T U b e) * (x_ab T a e i j)).
(** ccpy/cc/ccsd.py, update_t2b, line 137 *)
Definition rccsd_dT_ab_6 (d : dims) (H : ints) (T U : amps) : mat4 := fun a b i j =>
  rccsd_dT_ab_5 d H T U a b i j - sumn (noa d) (fun m => (rccsd_X_a_oo d H T U m i) * (x_ab T a b m j)).
(** ccpy/cc/ccsd.py, update_t2b, line 138 *)
Definition rccsd_dT_ab_7 (d : dims) (H : ints) (T U : amps) : mat4 := fun a b i j =>
  rccsd_dT_ab_6 d H T U a b i j - sumn (noa d) (fun m => (rccsd_X_a_oo d H T U m j) * (x_ab T a b i m)).
(** ccpy/cc/ccsd.py, update_t2b, line 139 *)
Definition rccsd_dT_ab_8 (d : dims) (H : ints) (T U : amps) : mat4 := fun a b i j =>
  rccsd_dT_ab_7 d H T U a b i j + sumn (noa d) (fun m => sumn (nua d) (fun e => (rccsd_I2A_voov_1 d H T U a m i e) * (x_ab T e b m j))).
(** ccpy/cc/ccsd.py, update_t2b, line 140 *)
Definition rccsd_dT_ab_9 (d : dims) (H : ints) (T U : amps) : mat4 := fun a b i j =>
  rccsd_dT_ab_8 d H T U a b i j + sumn (noa d) (fun m => sumn (nua d) (fun e => (rccsd_I2B_voov_1 d H T U a m i e) * (x_bb T e b m j))).
(** ccpy/cc/ccsd.py, update_t2b, line 141 *)
Definition rccsd_dT_ab_10 (d : dims) (H : ints) (T U : amps) : mat4 := fun a b i j =>
  rccsd_dT_ab_9 d H T U a b i j + sumn (noa d) (fun m => sumn (nua d) (fun e => (rccsd_X_ab_ovvo d H T U m b e j) * (x_aa U a e i m))).
(** ccpy/cc/ccsd.py, update_t2b, line 142 *)
Definition rccsd_dT_ab_11 (d : dims) (H : ints) (T U : amps) : mat4 := fun a b i j =>
  rccsd_dT_ab_10 d H T U a b i j + sumn (noa d) (fun m => sumn (nua d) (fun e => (rccsd_X_aa_voov d H T U b m j e) * (x_ab T a e i m))).
(** ccpy/cc/ccsd.py, update_t2b, line 143 *)
Definition rccsd_dT_ab_12 (d : dims) (H : ints) (T U : amps) : mat4 := fun a b i j =>
  rccsd_dT_ab_11 d H T U a b i j - sumn (noa d) (fun m => sumn (nua d) (fun e => (rccsd_X_ab_ovov d H T U m b i e) * (x_ab T a e m j))).
(** ccpy/cc/ccsd.py, update_t2b, line 144 *)
Definition rccsd_dT_ab_13 (d : dims) (H : ints) (T U : amps) : mat4 := fun a b i j =>
  rccsd_dT_ab_12 d H T U a b i j - sumn (noa d) (fun m => sumn (nua d) (fun e => (rccsd_I2B_vovo d H T U a m e j) * (x_ab T e b i m))).
(** ccpy/cc/ccsd.py, update_t2b, line 145 *)
Definition rccsd_dT_ab_14 (d : dims) (H : ints) (T U : amps) : mat4 := fun a b i j =>
  rccsd_dT_ab_13 d H T U a b i j + sumn (noa d) (fun m => sumn (noa d) (fun n => (rccsd_I2B_oooo d H T U m n i j) * (x_ab T a b m n))).
(** ccpy/cc/ccsd.py, update_t2b, line 146 *)
Definition rccsd_dT_ab_15 (d : dims) (H : ints) (T U : amps) : mat4 := fun a b i j =>
  rccsd_dT_ab_14 d H T U a b i j + sumn (nua d) (fun e => sumn (nua d) (fun f => (i_ab_vvvv H a b e f) * (rccsd_tau_1 d H T U e f i j))).
(** ccpy/cc/ccsd.py, update_t2b, lines 148-150 *)
Definition rccsd_res_ab (d : dims) (H : ints) (T U : amps) : mat4 := fun a b i j =>
  rccsd_dT_ab_15 d H T U a b i j + i_ab_vvoo H a b i j.
(** ccpy/cc/ccsd.py, update, line 29 *)
Definition rccsd_T_bb (d : dims) (H : ints) (T U : amps) : mat4 := fun a b i j =>
  x_aa U a b i j.
(** ccpy/cc/ccsd.py, update, line 30 *)
Definition rccsd_dT_bb (d : dims) (H : ints) (T U : amps) : mat4 := fun a b i j =>
  rccsd_res_aa d H T U a b i j.
(** ccpy/hbar/hbar_ccsd.py, build_hbar_ccsd, lines 9-12 *)
Definition rhb_H_a_ov (d : dims) (H : ints) (T : amps) : mat2 := fun i a =>
  i_a_ov H i a + (sumn (noa d) (fun m => sumn (nua d) (fun e => (i_aa_oovv H i m a e) * (x_a T e m))) + sumn (noa d) (fun m => sumn (nua d) (fun e => (i_ab_oovv H i m a e) * (x_b T e m)))).
(** ccpy/hbar/hbar_ccsd.py, build_hbar_ccsd, lines 14-20 *)
Definition rhb_H_a_oo (d : dims) (H : ints) (T : amps) : mat2 := fun i j =>
  i_a_oo H i j + (sumn (nua d) (fun e => (rhb_H_a_ov d H T i e) * (x_a T e j)) + sumn (noa d) (fun m => sumn (nua d) (fun e => (i_aa_ooov H i m j e) * (x_a T e m))) + sumn (noa d) (fun m => sumn (nua d) (fun e => (i_ab_ooov H i m j e) * (x_b T e m))) + 1 / 2 * (sumn (noa d) (fun n => sumn (nua d) (fun e => sumn (nua d) (fun f => (i_aa_oovv H i n e f) * (x_aa T e f j n))))) + sumn (noa d) (fun n => sumn (nua d) (fun e => sumn (nua d) (fun f => (i_ab_oovv H i n e f) * (x_ab T e f j n))))).
(** ccpy/hbar/hbar_ccsd.py, build_hbar_ccsd, lines 22-28 *)
Definition rhb_H_a_vv (d : dims) (H : ints) (T : amps) : mat2 := fun a b =>
  i_a_vv H a b + ((- (sumn (noa d) (fun m => (rhb_H_a_ov d H T m b) * (x_a T a m)))) + sumn (noa d) (fun m => sumn (nua d) (fun e => (i_aa_vovv H a m b e) * (x_a T e m))) + sumn (noa d) (fun m => sumn (nua d) (fun e => (i_ab_vovv H a m b e) * (x_b T e m))) - 1 / 2 * (sumn (noa d) (fun m => sumn (noa d) (fun n => sumn (nua d) (fun f => (i_aa_oovv H m n b f) * (x_aa T a f m n))))) - sumn (noa d) (fun m => sumn (noa d) (fun n => sumn (nua d) (fun f => (i_ab_oovv H m n b f) * (x_ab T a f m n))))).
(** ccpy/hbar/hbar_ccsd.py, build_hbar_ccsd, lines 30-33 *)
Definition rhb_H_b_ov (d : dims) (H : ints) (T : amps) : mat2 := fun i a =>
  i_b_ov H i a + (sumn (noa d) (fun m => sumn (nua d) (fun e => (i_bb_oovv H i m a e) * (x_b T e m))) + sumn (noa d) (fun m => sumn (nua d) (fun e => (i_ab_oovv H m i e a) * (x_a T e m)))).
(** ccpy/hbar/hbar_ccsd.py, build_hbar_ccsd, lines 35-41 *)
Definition rhb_H_b_oo (d : dims) (H : ints) (T : amps) : mat2 := fun i j =>
  i_b_oo H i j + (sumn (nua d) (fun e => (rhb_H_b_ov d H T i e) * (x_b T e j)) + sumn (noa d) (fun m => sumn (nua d) (fun e => (i_bb_ooov H i m j e) * (x_b T e m))) + sumn (noa d) (fun m => sumn (nua d) (fun e => (i_ab_oovo H m i e j) * (x_a T e m))) + 1 / 2 * (sumn (noa d) (fun n => sumn (nua d) (fun e => sumn (nua d) (fun f => (i_bb_oovv H i n e f) * (x_bb T e f j n))))) + sumn (noa d) (fun n => sumn (nua d) (fun f => sumn (nua d) (fun e => (i_ab_oovv H n i f e) * (x_ab T f e n j))))).
(** ccpy/hbar/hbar_ccsd.py, build_hbar_ccsd, lines 43-49 *)
Definition rhb_H_b_vv (d : dims) (H : ints) (T : amps) : mat2 := fun a b =>
  i_b_vv H a b + ((- (sumn (noa d) (fun m => (rhb_H_b_ov d H T m b) * (x_b T a m)))) + sumn (noa d) (fun m => sumn (nua d) (fun e => (i_bb_vovv H a m b e) * (x_b T e m))) + sumn (noa d) (fun m => sumn (nua d) (fun e => (i_ab_ovvv H m a e b) * (x_a T e m))) - 1 / 2 * (sumn (noa d) (fun m => sumn (noa d) (fun n => sumn (nua d) (fun f => (i_bb_oovv H m n b f) * (x_bb T a f m n))))) - sumn (noa d) (fun n => sumn (noa d) (fun m => sumn (nua d) (fun f => (i_ab_oovv H n m f b) * (x_ab T f a n m))))).
(** ccpy/hbar/hbar_ccsd.py, build_hbar_ccsd, line 53 *)
Definition rhb_tau_aa (d : dims) (H : ints) (T : amps) : mat4 := fun a b i j =>
  1 / 2 * (x_aa T a b i j) + (x_a T a i) * (x_a T b j).
(** ccpy/hbar/hbar_ccsd.py, build_hbar_ccsd, line 54 *)
Definition rhb_tau_aa_1 (d : dims) (H : ints) (T : amps) : mat4 := fun a b i j =>
  rhb_tau_aa d H T a b i j - rhb_tau_aa d H T a b j i.
(** ccpy/hbar/hbar_ccsd.py, build_hbar_ccsd, line 60 *)
Definition rhb_tau_ab (d : dims) (H : ints) (T : amps) : mat4 := fun a b i j =>
  x_ab T a b i j + (x_a T a i) * (x_b T b j).
(** ccpy/hbar/hbar_ccsd.py, build_hbar_ccsd, lines 66-70 *)
Definition rhb_H_aa_oooo (d : dims) (H : ints) (T : amps) : mat4 := fun m n i j =>
  1 / 2 * (i_aa_oooo H m n i j) + sumn (nua d) (fun e => (i_aa_ooov H n m j e) * (x_a T e i)) + 1 / 4 * (sumn (nua d) (fun e => sumn (nua d) (fun f => (i_aa_oovv H m n e f) * (rhb_tau_aa_1 d H T e f i j)))).
(** ccpy/hbar/hbar_ccsd.py, build_hbar_ccsd, line 71 *)
Definition rhb_H_aa_oooo_1 (d : dims) (H : ints) (T : amps) : mat4 := fun m n i j =>
  rhb_H_aa_oooo d H T m n i j - rhb_H_aa_oooo d H T m n j i.
(** ccpy/hbar/hbar_ccsd.py, build_hbar_ccsd, lines 81-86 *)
Definition rhb_H_ab_oooo (d : dims) (H : ints) (T : amps) : mat4 := fun m n i j =>
  i_ab_oooo H m n i j + sumn (nua d) (fun e => (i_ab_oovo H m n e j) * (x_a T e i)) + sumn (nua d) (fun e => (i_ab_ooov H m n i e) * (x_b T e j)) + sumn (nua d) (fun e => sumn (nua d) (fun f => (i_ab_oovv H m n e f) * (rhb_tau_ab d H T e f i j))).
(** ccpy/hbar/hbar_ccsd.py, build_hbar_ccsd, line 92 *)
Definition rhb_H_aa_ooov (d : dims) (H : ints) (T : amps) : mat4 := fun i j k a =>
  i_aa_ooov H i j k a + sumn (nua d) (fun f => (i_aa_oovv H i j f a) * (x_a T f k)).
(** ccpy/hbar/hbar_ccsd.py, build_hbar_ccsd, line 97 *)
Definition rhb_H_ab_ooov (d : dims) (H : ints) (T : amps) : mat4 := fun i j k a =>
  i_ab_ooov H i j k a + sumn (nua d) (fun f => (i_ab_oovv H i j f a) * (x_a T f k)).
(** ccpy/hbar/hbar_ccsd.py, build_hbar_ccsd, line 98 *)
Definition rhb_H_ab_oovo (d : dims) (H : ints) (T : amps) : mat4 := fun i j a k =>
  i_ab_oovo H i j a k + sumn (nua d) (fun f => (i_ab_oovv H i j a f) * (x_b T f k)).
(** ccpy/hbar/hbar_ccsd.py, build_hbar_ccsd, lines 104-107 *)
Definition rhb_Q1 (d : dims) (H : ints) (T : amps) : mat4 := fun a m i j =>
  sumn (noa d) (fun n => sumn (nua d) (fun f => (rhb_H_aa_ooov d H T m n j f) * (x_aa T a f i n))) + sumn (noa d) (fun n => sumn (nua d) (fun f => (rhb_H_ab_ooov d H T m n j f) * (x_ab T a f i n))).
(** ccpy/hbar/hbar_ccsd.py, build_hbar_ccsd, line 108 *)
Definition rhb_Q2 (d : dims) (H : ints) (T : amps) : mat4 := fun a m i f =>
  i_aa_voov H a m i f + 1 / 2 * (sumn (nua d) (fun e => (i_aa_vovv H a m e f) * (x_a T e i))).
(** ccpy/hbar/hbar_ccsd.py, build_hbar_ccsd, line 109 *)
Definition rhb_Q2_1 (d : dims) (H : ints) (T : amps) : mat4 := fun a m i j =>
  sumn (nua d) (fun f => (rhb_Q2 d H T a m i f) * (x_a T f j)).
(** ccpy/hbar/hbar_ccsd.py, build_hbar_ccsd, line 110 *)
Definition rhb_Q1_1 (d : dims) (H : ints) (T : amps) : mat4 := fun a m i j =>
  rhb_Q1 d H T a m i j + rhb_Q2_1 d H T a m i j.
(** ccpy/hbar/hbar_ccsd.py, build_hbar_ccsd, line 111 *)
Definition rhb_Q1_2 (d : dims) (H : ints) (T : amps) : mat4 := fun a m i j =>
  rhb_Q1_1 d H T a m i j - rhb_Q1_1 d H T a m j i.
(** ccpy/hbar/hbar_ccsd.py, build_hbar_ccsd, lines 112-116 *)
Definition rhb_H_aa_vooo (d : dims) (H : ints) (T : amps) : mat4 := fun a m i j =>
  i_aa_vooo H a m i j + rhb_Q1_2 d H T a m i j + (sumn (nua d) (fun e => (rhb_H_a_ov d H T m e) * (x_aa T a e i j)) - sumn (noa d) (fun n => (rhb_H_aa_oooo_1 d H T n m i j) * (x_a T a n)) + 1 / 2 * (sumn (nua d) (fun e => sumn (nua d) (fun f => (i_aa_vovv H a m e f) * (x_aa T e f i j))))).
(** ccpy/hbar/hbar_ccsd.py, build_hbar_ccsd, line 133 *)
Definition rhb_Q1_3 (d : dims) (H : ints) (T : amps) : mat4 := fun a m i e =>
  i_ab_voov H a m i e + sumn (nua d) (fun f => (i_ab_vovv H a m f e) * (x_a T f i)).
(** ccpy/hbar/hbar_ccsd.py, build_hbar_ccsd, lines 134-143 *)
Definition rhb_H_ab_vooo (d : dims) (H : ints) (T : amps) : mat4 := fun a m i j =>
  i_ab_vooo H a m i j + (sumn (nua d) (fun e => (rhb_H_b_ov d H T m e) * (x_ab T a e i j)) - sumn (noa d) (fun n => (rhb_H_ab_oooo d H T n m i j) * (x_a T a n)) + sumn (noa d) (fun n => sumn (nua d) (fun f => (rhb_H_aa_ooov d H T m n j f) * (x_ab T a f i n))) + sumn (noa d) (fun n => sumn (nua d) (fun f => (rhb_H_ab_oovo d H T n m f j) * (x_aa T a f i n))) - sumn (noa d) (fun n => sumn (nua d) (fun f => (rhb_H_ab_ooov d H T n m i f) * (x_ab T a f n j))) + sumn (nua d) (fun e => (i_ab_vovo H a m e j) * (x_a T e i)) + sumn (nua d) (fun e => (rhb_Q1_3 d H T a m i e) * (x_b T e j)) + sumn (nua d) (fun e => sumn (nua d) (fun f => (i_ab_vovv H a m e f) * (x_ab T e f i j)))).
(** ccpy/hbar/hbar_ccsd.py, build_hbar_ccsd, line 144 *)
Definition rhb_Q1_4 (d : dims) (H : ints) (T : amps) : mat4 := fun m a j e =>
  i_ab_ovov H m a j e + sumn (nua d) (fun f => (i_ab_ovvv H m a f e) * (x_a T f j)).
(** ccpy/hbar/hbar_ccsd.py, build_hbar_ccsd, lines 145-154 *)
Definition rhb_H_ab_ovoo (d : dims) (H : ints) (T : amps) : mat4 := fun m a j i =>
  i_ab_ovoo H m a j i + (sumn (nua d) (fun e => (rhb_H_a_ov d H T m e) * (x_ab T e a j i)) - sumn (noa d) (fun n => (rhb_H_ab_oooo d H T m n j i) * (x_b T a n)) + sumn (noa d) (fun n => sumn (nua d) (fun f => (rhb_H_aa_ooov d H T m n j f) * (x_ab T f a n i))) + sumn (noa d) (fun n => sumn (nua d) (fun f => (rhb_H_ab_ooov d H T m n j f) * (x_bb T f a n i))) - sumn (noa d) (fun n => sumn (nua d) (fun f => (rhb_H_ab_oovo d H T m n f i) * (x_ab T f a j n))) + sumn (nua d) (fun e => (rhb_Q1_4 d H T m a j e) * (x_b T e i)) + sumn (nua d) (fun e => (i_ab_ovvo H m a e i) * (x_a T e j)) + sumn (nua d) (fun f => sumn (nua d) (fun e => (i_ab_ovvv H m a f e) * (x_ab T f e j i)))).
(** ccpy/hbar/hbar_ccsd.py, build_hbar_ccsd, lines 160-166 *)
Definition rhb_H_aa_voov (d : dims) (H : ints) (T : amps) : mat4 := fun a m i e =>
  i_aa_voov H a m i e + sumn (nua d) (fun f => (i_aa_vovv H a m f e) * (x_a T f i)) - sumn (noa d) (fun n => (rhb_H_aa_ooov d H T n m i e) * (x_a T a n)) + sumn (noa d) (fun n => sumn (nua d) (fun f => (i_aa_oovv H n m f e) * (x_aa T a f i n))) + sumn (noa d) (fun n => sumn (nua d) (fun f => (i_ab_oovv H m n e f) * (x_ab T a f i n))).
(** ccpy/hbar/hbar_ccsd.py, build_hbar_ccsd, lines 177-183 *)
Definition rhb_H_ab_voov (d : dims) (H : ints) (T : amps) : mat4 := fun a m i e =>
  i_ab_voov H a m i e + sumn (nua d) (fun f => (i_ab_vovv H a m f e) * (x_a T f i)) - sumn (noa d) (fun n => (rhb_H_ab_ooov d H T n m i e) * (x_a T a n)) + sumn (noa d) (fun n => sumn (nua d) (fun f => (i_ab_oovv H n m f e) * (x_aa T a f i n))) + sumn (noa d) (fun n => sumn (nua d) (fun f => (i_bb_oovv H n m f e) * (x_ab T a f i n))).
(** ccpy/hbar/hbar_ccsd.py, build_hbar_ccsd, lines 184-190 *)
Definition rhb_H_ab_ovvo (d : dims) (H : ints) (T : amps) : mat4 := fun m a e i =>
  i_ab_ovvo H m a e i + sumn (nua d) (fun f => (i_ab_ovvv H m a e f) * (x_b T f i)) - sumn (noa d) (fun n => (rhb_H_ab_oovo d H T m n e i) * (x_b T a n)) + sumn (noa d) (fun n => sumn (nua d) (fun f => (i_ab_oovv H m n e f) * (x_bb T a f i n))) + sumn (noa d) (fun n => sumn (nua d) (fun f => (i_aa_oovv H m n e f) * (x_ab T f a n i))).
(** ccpy/hbar/hbar_ccsd.py, build_hbar_ccsd, lines 191-196 *)
Definition rhb_H_ab_ovov (d : dims) (H : ints) (T : amps) : mat4 := fun m a i e =>
  i_ab_ovov H m a i e + sumn (nua d) (fun f => (i_ab_ovvv H m a f e) * (x_a T f i)) - sumn (noa d) (fun n => (rhb_H_ab_ooov d H T m n i e) * (x_b T a n)) - sumn (noa d) (fun n => sumn (nua d) (fun f => (i_ab_oovv H m n f e) * (x_ab T f a i n))).
(** ccpy/hbar/hbar_ccsd.py, build_hbar_ccsd, lines 197-202 *)
Definition rhb_H_ab_vovo (d : dims) (H : ints) (T : amps) : mat4 := fun a m e i =>
  i_ab_vovo H a m e i - sumn (noa d) (fun n => (rhb_H_ab_oovo d H T n m e i) * (x_a T a n)) + sumn (nua d) (fun f => (i_ab_vovv H a m e f) * (x_b T f i)) - sumn (noa d) (fun n => sumn (nua d) (fun f => (i_ab_oovv H n m e f) * (x_ab T a f n i))).
(** ccpy/hbar/hbar_ccsd.py, build_hbar_ccsd, line 208 *)
Definition rhb_x2a_voov (d : dims) (H : ints) (T : amps) : mat4 := fun a m i e =>
  rhb_H_aa_voov d H T a m i e + 1 / 2 * (sumn (noa d) (fun n => (rhb_H_aa_ooov d H T n m i e) * (x_a T a n))).
(** ccpy/hbar/hbar_ccsd.py, build_hbar_ccsd, lines 209-218 *)
Definition rhb_H_aa_vvov (d : dims) (H : ints) (T : amps) : mat4 := fun a b i e =>
  1 / 2 * (i_aa_vvov H a b i e) - 1 / 2 * (sumn (noa d) (fun m => (rhb_H_a_ov d H T m e) * (x_aa T a b i m))) - sumn (noa d) (fun m => (rhb_x2a_voov d H T a m i e) * (x_a T b m)) + 1 / 4 * (sumn (noa d) (fun m => sumn (noa d) (fun n => (rhb_H_aa_ooov d H T m n i e) * (x_aa T a b m n)))) + 1 / 2 * (sumn (nua d) (fun f => (i_aa_vvvv H a b f e) * (x_a T f i))) + sumn (noa d) (fun n => sumn (nua d) (fun f => (i_aa_vovv H b n e f) * (x_aa T a f i n))) + sumn (noa d) (fun n => sumn (nua d) (fun f => (i_ab_vovv H b n e f) * (x_ab T a f i n))).
(** ccpy/hbar/hbar_ccsd.py, build_hbar_ccsd, line 219 *)
Definition rhb_H_aa_vvov_1 (d : dims) (H : ints) (T : amps) : mat4 := fun a b i e =>
  rhb_H_aa_vvov d H T a b i e - rhb_H_aa_vvov d H T b a i e.
(** ccpy/hbar/hbar_ccsd.py, build_hbar_ccsd, line 237 *)
Definition rhb_x2b_voov (d : dims) (H : ints) (T : amps) : mat4 := fun a m i e =>
  rhb_H_ab_voov d H T a m i e + 1 / 2 * (sumn (noa d) (fun n => (rhb_H_ab_ooov d H T n m i e) * (x_a T a n))).
(** ccpy/hbar/hbar_ccsd.py, build_hbar_ccsd, line 238 *)
Definition rhb_x2b_ovov (d : dims) (H : ints) (T : amps) : mat4 := fun m a i e =>
  rhb_H_ab_ovov d H T m a i e + 1 / 2 * (sumn (noa d) (fun m' => (rhb_H_ab_ooov d H T m m' i e) * (x_b T a m'))).
(** ccpy/hbar/hbar_ccsd.py, build_hbar_ccsd, lines 239-250 *)
Definition rhb_H_ab_vvov (d : dims) (H : ints) (T : amps) : mat4 := fun a b i e =>
  i_ab_vvov H a b i e - sumn (noa d) (fun m => (rhb_H_b_ov d H T m e) * (x_ab T a b i m)) - sumn (noa d) (fun m => (rhb_x2b_voov d H T a m i e) * (x_b T b m)) - sumn (noa d) (fun m => (rhb_x2b_ovov d H T m b i e) * (x_a T a m)) + sumn (noa d) (fun n => sumn (noa d) (fun m => (rhb_H_ab_ooov d H T n m i e) * (x_ab T a b n m))) + sumn (nua d) (fun f => (i_ab_vvvv H a b f e) * (x_a T f i)) + sumn (noa d) (fun m => sumn (nua d) (fun f => (i_ab_ovvv H m b f e) * (x_aa T a f i m))) + sumn (noa d) (fun m => sumn (nua d) (fun f => (i_bb_vovv H b m e f) * (x_ab T a f i m))) - sumn (noa d) (fun m => sumn (nua d) (fun f => (i_ab_vovv H a m f e) * (x_ab T f b i m))).
(** ccpy/hbar/hbar_ccsd.py, build_hbar_ccsd, line 251 *)
Definition rhb_x2b_ovvo (d : dims) (H : ints) (T : amps) : mat4 := fun m a e i =>
  rhb_H_ab_ovvo d H T m a e i + 1 / 2 * (sumn (noa d) (fun m' => (rhb_H_ab_oovo d H T m m' e i) * (x_b T a m'))).
(** ccpy/hbar/hbar_ccsd.py, build_hbar_ccsd, line 252 *)
Definition rhb_x2b_vovo (d : dims) (H : ints) (T : amps) : mat4 := fun a m e i =>
  rhb_H_ab_vovo d H T a m e i + 1 / 2 * (sumn (noa d) (fun n => (rhb_H_ab_oovo d H T n m e i) * (x_a T a n))).
(** ccpy/hbar/hbar_ccsd.py, build_hbar_ccsd, lines 253-264 *)
Definition rhb_H_ab_vvvo (d : dims) (H : ints) (T : amps) : mat4 := fun b a e i =>
  i_ab_vvvo H b a e i - sumn (noa d) (fun m => (rhb_H_a_ov d H T m e) * (x_ab T b a m i)) - sumn (noa d) (fun m => (rhb_x2b_ovvo d H T m a e i) * (x_a T b m)) - sumn (noa d) (fun m => (rhb_x2b_vovo d H T b m e i) * (x_b T a m)) + sumn (noa d) (fun n => sumn (noa d) (fun m => (rhb_H_ab_oovo d H T n m e i) * (x_ab T b a n m))) + sumn (nua d) (fun f => (i_ab_vvvv H b a e f) * (x_b T f i)) + sumn (noa d) (fun m => sumn (nua d) (fun f => (i_ab_vovv H b m e f) * (x_bb T a f i m))) + sumn (noa d) (fun m => sumn (nua d) (fun f => (i_aa_vovv H b m e f) * (x_ab T f a m i))) - sumn (noa d) (fun m => sumn (nua d) (fun f => (i_ab_ovvv H m a e f) * (x_ab T b f m i))).
(** ccpy/hbar/hbar_ccsd.py, build_hbar_ccsd, lines 270-274 *)
Definition rhb_H_aa_vvvv (d : dims) (H : ints) (T : amps) : mat4 := fun a b e f =>
  1 / 2 * (i_aa_vvvv H a b e f) + 1 / 4 * (sumn (noa d) (fun m => sumn (noa d) (fun n => (i_aa_oovv H m n e f) * (rhb_tau_aa_1 d H T a b m n)))) - sumn (noa d) (fun m => (i_aa_vovv H a m e f) * (x_a T b m)).
(** ccpy/hbar/hbar_ccsd.py, build_hbar_ccsd, line 275 *)
Definition rhb_H_aa_vvvv_1 (d : dims) (H : ints) (T : amps) : mat4 := fun a b e f =>
  rhb_H_aa_vvvv d H T a b e f - rhb_H_aa_vvvv d H T b a e f.
(** ccpy/hbar/hbar_ccsd.py, build_hbar_ccsd, lines 285-290 *)
Definition rhb_H_ab_vvvv (d : dims) (H : ints) (T : amps) : mat4 := fun a b e f =>
  i_ab_vvvv H a b e f - sumn (noa d) (fun m => (i_ab_ovvv H m b e f) * (x_a T a m)) - sumn (noa d) (fun m => (i_ab_vovv H a m e f) * (x_b T b m)) + sumn (noa d) (fun m => sumn (noa d) (fun n => (i_ab_oovv H m n e f) * (rhb_tau_ab d H T a b m n))).
(** ccpy/hbar/hbar_ccsd.py, build_hbar_ccsd, line 296 *)
Definition rhb_H_aa_vovv (d : dims) (H : ints) (T : amps) : mat4 := fun a i b c =>
  i_aa_vovv H a i b c - sumn (noa d) (fun n => (i_aa_oovv H i n c b) * (x_a T a n)).
(** ccpy/hbar/hbar_ccsd.py, build_hbar_ccsd, line 301 *)
Definition rhb_H_ab_vovv (d : dims) (H : ints) (T : amps) : mat4 := fun a i b c =>
  i_ab_vovv H a i b c - sumn (noa d) (fun n => (i_ab_oovv H n i b c) * (x_a T a n)).
(** ccpy/hbar/hbar_ccsd.py, build_hbar_ccsd, line 302 *)
Definition rhb_H_ab_ovvv (d : dims) (H : ints) (T : amps) : mat4 := fun i a b c =>
  i_ab_ovvv H i a b c - sumn (noa d) (fun n => (i_ab_oovv H i n b c) * (x_b T a n)).
(** hbar_ccsd.py, build_hbar_ccsd, line 299, flag_RHF = True *)
Definition rhbar_ccsd (d : dims) (H : ints) (T : amps) : ints := mkInts (rhb_H_a_oo d H T) (rhb_H_a_ov d H T) (i_a_vo H) (rhb_H_a_vv d H T) (rhb_H_b_oo d H T) (rhb_H_b_ov d H T) (i_b_vo H) (rhb_H_b_vv d H T) (rhb_H_aa_oooo_1 d H T) (rhb_H_aa_ooov d H T) (i_aa_oovo H) (i_aa_oovv H) (i_aa_ovoo H) (i_aa_ovov H) (i_aa_ovvo H) (i_aa_ovvv H) (rhb_H_aa_vooo d H T) (rhb_H_aa_voov d H T) (i_aa_vovo H) (rhb_H_aa_vovv d H T) (i_aa_vvoo H) (rhb_H_aa_vvov_1 d H T) (i_aa_vvvo H) (rhb_H_aa_vvvv_1 d H T) (rhb_H_ab_oooo d H T) (rhb_H_ab_ooov d H T) (rhb_H_ab_oovo d H T) (i_ab_oovv H) (rhb_H_ab_ovoo d H T) (rhb_H_ab_ovov d H T) (rhb_H_ab_ovvo d H T) (rhb_H_ab_ovvv d H T) (rhb_H_ab_vooo d H T) (rhb_H_ab_voov d H T) (rhb_H_ab_vovo d H T) (rhb_H_ab_vovv d H T) (i_ab_vvoo H) (rhb_H_ab_vvov d H T) (rhb_H_ab_vvvo d H T) (rhb_H_ab_vvvv d H T) (rhb_H_aa_oooo_1 d H T) (rhb_H_aa_ooov d H T) (i_bb_oovo H) (i_bb_oovv H) (i_bb_ovoo H) (i_bb_ovov H) (i_bb_ovvo H) (i_bb_ovvv H) (rhb_H_aa_vooo d H T) (rhb_H_aa_voov d H T) (i_bb_vovo H) (rhb_H_aa_vovv d H T) (i_bb_vvoo H) (rhb_H_aa_vvov_1 d H T) (i_bb_vvvo H) (rhb_H_aa_vvvv_1 d H T).
(** ccpy/eomcc/eomccsd_intermediates.py, get_eomccsd_intermediates, lines 12-18 *)
Definition reom_X_a_oo (d : dims) (H : ints) (T R : amps) : mat2 := fun m j =>
  sumn (noa d) (fun n => sumn (nua d) (fun f => (i_aa_ooov H m n j f) * (x_a R f n))) + sumn (noa d) (fun n => sumn (nua d) (fun f => (i_ab_ooov H m n j f) * (x_b R f n))) + 1 / 2 * (sumn (noa d) (fun n => sumn (nua d) (fun e => sumn (nua d) (fun f => (i_aa_oovv H m n e f) * (x_aa R e f j n))))) + sumn (noa d) (fun n => sumn (nua d) (fun e => sumn (nua d) (fun f => (i_ab_oovv H m n e f) * (x_ab R e f j n)))).
(** ccpy/eomcc/eomccsd_intermediates.py, get_eomccsd_intermediates, lines 20-26 *)
Definition reom_X_a_vv (d : dims) (H : ints) (T R : amps) : mat2 := fun b e =>
  sumn (noa d) (fun n => sumn (nua d) (fun f => (i_aa_vovv H b n e f) * (x_a R f n))) + sumn (noa d) (fun n => sumn (nua d) (fun f => (i_ab_vovv H b n e f) * (x_b R f n))) - 1 / 2 * (sumn (noa d) (fun m => sumn (noa d) (fun n => sumn (nua d) (fun f => (i_aa_oovv H m n e f) * (x_aa R b f m n))))) - sumn (noa d) (fun m => sumn (noa d) (fun n => sumn (nua d) (fun f => (i_ab_oovv H m n e f) * (x_ab R b f m n)))).
(** ccpy/eomcc/eomccsd_intermediates.py, get_eomccsd_intermediates, lines 28-34 *)
Definition reom_X_b_oo (d : dims) (H : ints) (T R : amps) : mat2 := fun m k =>
  sumn (noa d) (fun n => sumn (nua d) (fun f => (i_ab_oovo H n m f k) * (x_a R f n))) + sumn (noa d) (fun n => sumn (nua d) (fun f => (i_bb_ooov H m n k f) * (x_b R f n))) + sumn (noa d) (fun n => sumn (nua d) (fun f => sumn (nua d) (fun e => (i_ab_oovv H n m f e) * (x_ab R f e n k)))) + 1 / 2 * (sumn (noa d) (fun n => sumn (nua d) (fun e => sumn (nua d) (fun f => (i_bb_oovv H m n e f) * (x_bb R e f k n))))).
(** ccpy/eomcc/eomccsd_intermediates.py, get_eomccsd_intermediates, lines 36-42 *)
Definition reom_X_b_vv (d : dims) (H : ints) (T R : amps) : mat2 := fun c e =>
  sumn (noa d) (fun n => sumn (nua d) (fun f => (i_ab_ovvv H n c f e) * (x_a R f n))) + sumn (noa d) (fun n => sumn (nua d) (fun f => (i_bb_vovv H c n e f) * (x_b R f n))) - 1 / 1 * (sumn (noa d) (fun n => sumn (noa d) (fun m => sumn (nua d) (fun f => (i_ab_oovv H n m f e) * (x_ab R f c n m))))) - 1 / 2 * (sumn (noa d) (fun m => sumn (noa d) (fun n => sumn (nua d) (fun f => (i_bb_oovv H m n e f) * (x_bb R f c n m))))).
(** ccpy/eomcc/eomccsd.py, build_HR_1A, line 52 *)
Definition reom_X1A (d : dims) (H : ints) (T R : amps) : mat2 := fun a i =>
  (- (sumn (noa d) (fun m => (i_a_oo H m i) * (x_a R a m)))).
(** ccpy/eomcc/eomccsd.py, build_HR_1A, line 53 *)
Definition reom_X1A_1 (d : dims) (H : ints) (T R : amps) : mat2 := fun a i =>
  reom_X1A d H T R a i + sumn (nua d) (fun e => (i_a_vv H a e) * (x_a R e i)).
(** ccpy/eomcc/eomccsd.py, build_HR_1A, line 54 *)
Definition reom_X1A_2 (d : dims) (H : ints) (T R : amps) : mat2 := fun a i =>
  reom_X1A_1 d H T R a i + sumn (noa d) (fun m => sumn (nua d) (fun e => (i_aa_voov H a m i e) * (x_a R e m))).
(** ccpy/eomcc/eomccsd.py, build_HR_1A, line 55 *)
Definition reom_X1A_3 (d : dims) (H : ints) (T R : amps) : mat2 := fun a i =>
  reom_X1A_2 d H T R a i + sumn (noa d) (fun m => sumn (nua d) (fun e => (i_ab_voov H a m i e) * (x_b R e m))).
(** ccpy/eomcc/eomccsd.py, build_HR_1A, line 56 *)
Definition reom_X1A_4 (d : dims) (H : ints) (T R : amps) : mat2 := fun a i =>
  reom_X1A_3 d H T R a i - 1 / 2 * (sumn (noa d) (fun m => sumn (noa d) (fun n => sumn (nua d) (fun f => (i_aa_ooov H m n i f) * (x_aa R a f m n))))).
(** ccpy/eomcc/eomccsd.py, build_HR_1A, line 57 *)
Definition reom_X1A_5 (d : dims) (H : ints) (T R : amps) : mat2 := fun a i =>
  reom_X1A_4 d H T R a i - sumn (noa d) (fun m => sumn (noa d) (fun n => sumn (nua d) (fun f => (i_ab_ooov H m n i f) * (x_ab R a f m n)))).
(** ccpy/eomcc/eomccsd.py, build_HR_1A, line 58 *)
Definition reom_X1A_6 (d : dims) (H : ints) (T R : amps) : mat2 := fun a i =>
  reom_X1A_5 d H T R a i + 1 / 2 * (sumn (noa d) (fun n => sumn (nua d) (fun e => sumn (nua d) (fun f => (i_aa_vovv H a n e f) * (x_aa R e f i n))))).
(** ccpy/eomcc/eomccsd.py, build_HR_1A, line 59 *)
Definition reom_X1A_7 (d : dims) (H : ints) (T R : amps) : mat2 := fun a i =>
  reom_X1A_6 d H T R a i + sumn (noa d) (fun n => sumn (nua d) (fun e => sumn (nua d) (fun f => (i_ab_vovv H a n e f) * (x_ab R e f i n)))).
(** ccpy/eomcc/eomccsd.py, build_HR_1A, line 60 *)
Definition reom_X1A_8 (d : dims) (H : ints) (T R : amps) : mat2 := fun a i =>
  reom_X1A_7 d H T R a i + sumn (noa d) (fun m => sumn (nua d) (fun e => (i_a_ov H m e) * (x_aa R a e i m))).
(** ccpy/eomcc/eomccsd.py, build_HR_1A, line 61 *)
Definition reom_X1A_9 (d : dims) (H : ints) (T R : amps) : mat2 := fun a i =>
  reom_X1A_8 d H T R a i + sumn (noa d) (fun m => sumn (nua d) (fun e => (i_b_ov H m e) * (x_ab R a e i m))).
(** ccpy/eomcc/eomccsd.py, HR, line 38 *)
Definition reom_dR_b (d : dims) (H : ints) (T R : amps) : mat2 := fun a i =>
  reom_X1A_9 d H T R a i.
(** ccpy/eomcc/eomccsd.py, build_HR_2A, line 80 *)
Definition reom_X2A (d : dims) (H : ints) (T R : amps) : mat4 := fun a b i j =>
  (-1) / 2 * (sumn (noa d) (fun m => (i_a_oo H m i) * (x_aa R a b m j))).
(** ccpy/eomcc/eomccsd.py, build_HR_2A, line 81 *)
Definition reom_X2A_1 (d : dims) (H : ints) (T R : amps) : mat4 := fun a b i j =>
  reom_X2A d H T R a b i j + 1 / 2 * (sumn (nua d) (fun e => (i_a_vv H a e) * (x_aa R e b i j))).
(** ccpy/eomcc/eomccsd.py, build_HR_2A, line 82 *)
Definition reom_X2A_2 (d : dims) (H : ints) (T R : amps) : mat4 := fun a b i j =>
  reom_X2A_1 d H T R a b i j + 1 / 8 * (sumn (noa d) (fun m => sumn (noa d) (fun n => (i_aa_oooo H m n i j) * (x_aa R a b m n)))).
(** ccpy/eomcc/eomccsd.py, build_HR_2A, line 83 *)
Definition reom_X2A_3 (d : dims) (H : ints) (T R : amps) : mat4 := fun a b i j =>
  reom_X2A_2 d H T R a b i j + 1 / 8 * (sumn (nua d) (fun e => sumn (nua d) (fun f => (i_aa_vvvv H a b e f) * (x_aa R e f i j)))).
(** ccpy/eomcc/eomccsd.py, build_HR_2A, line 84 *)
Definition reom_X2A_4 (d : dims) (H : ints) (T R : amps) : mat4 := fun a b i j =>
  reom_X2A_3 d H T R a b i j + sumn (noa d) (fun m => sumn (nua d) (fun e => (i_aa_voov H a m i e) * (x_aa R e b m j))).
(** ccpy/eomcc/eomccsd.py, build_HR_2A, line 85 *)
Definition reom_X2A_5 (d : dims) (H : ints) (T R : amps) : mat4 := fun a b i j =>
  reom_X2A_4 d H T R a b i j + sumn (noa d) (fun m => sumn (nua d) (fun e => (i_ab_voov H a m i e) * (x_ab R b e j m))).
(** ccpy/eomcc/eomccsd.py, build_HR_2A, line 86 *)
Definition reom_X2A_6 (d : dims) (H : ints) (T R : amps) : mat4 := fun a b i j =>
  reom_X2A_5 d H T R a b i j - 1 / 2 * (sumn (noa d) (fun m => (i_aa_vooo H b m j i) * (x_a R a m))).
(** ccpy/eomcc/eomccsd.py, build_HR_2A, line 87 *)
Definition reom_X2A_7 (d : dims) (H : ints) (T R : amps) : mat4 := fun a b i j =>
  reom_X2A_6 d H T R a b i j + 1 / 2 * (sumn (nua d) (fun e => (i_aa_vvov H b a j e) * (x_a R e i))).
(** ccpy/eomcc/eomccsd.py, build_HR_2A, line 88 *)
Definition reom_X2A_8 (d : dims) (H : ints) (T R : amps) : mat4 := fun a b i j =>
  reom_X2A_7 d H T R a b i j + 1 / 2 * (sumn (nua d) (fun e => (reom_X_a_vv d H T R b e) * (x_aa T a e i j))).
(** ccpy/eomcc/eomccsd.py, build_HR_2A, line 89 *)
Definition reom_X2A_9 (d : dims) (H : ints) (T R : amps) : mat4 := fun a b i j =>
  reom_X2A_8 d H T R a b i j - 1 / 2 * (sumn (noa d) (fun m => (reom_X_a_oo d H T R m j) * (x_aa T a b i m))).
(** ccpy/eomcc/eomccsd.py, build_HR_2A, line 90 *)
Definition reom_X2A_10 (d : dims) (H : ints) (T R : amps) : mat4 := fun a b i j =>
  reom_X2A_9 d H T R a b i j - reom_X2A_9 d H T R b a i j.
(** ccpy/eomcc/eomccsd.py, build_HR_2A, line 91 *)
Definition reom_X2A_11 (d : dims) (H : ints) (T R : amps) : mat4 := fun a b i j =>
  reom_X2A_10 d H T R a b i j - reom_X2A_10 d H T R a b j i.
(** ccpy/eomcc/eomccsd.py, build_HR_2B, line 96 *)
Definition reom_X2B (d : dims) (H : ints) (T R : amps) : mat4 := fun a b i j =>
  sumn (nua d) (fun e => (i_a_vv H a e) * (x_ab R e b i j)).
(** ccpy/eomcc/eomccsd.py, build_HR_2B, line 97 *)
Definition reom_X2B_1 (d : dims) (H : ints) (T R : amps) : mat4 := fun a b i j =>
  reom_X2B d H T R a b i j + sumn (nua d) (fun e => (i_b_vv H b e) * (x_ab R a e i j)).
(** ccpy/eomcc/eomccsd.py, build_HR_2B, line 98 *)
Definition reom_X2B_2 (d : dims) (H : ints) (T R : amps) : mat4 := fun a b i j =>
  reom_X2B_1 d H T R a b i j - sumn (noa d) (fun m => (i_a_oo H m i) * (x_ab R a b m j)).
(** ccpy/eomcc/eomccsd.py, build_HR_2B, line 99 *)
Definition reom_X2B_3 (d : dims) (H : ints) (T R : amps) : mat4 := fun a b i j =>
  reom_X2B_2 d H T R a b i j - sumn (noa d) (fun m => (i_b_oo H m j) * (x_ab R a b i m)).
(** ccpy/eomcc/eomccsd.py, build_HR_2B, line 100 *)
Definition reom_X2B_4 (d : dims) (H : ints) (T R : amps) : mat4 := fun a b i j =>
  reom_X2B_3 d H T R a b i j + sumn (noa d) (fun m => sumn (noa d) (fun n => (i_ab_oooo H m n i j) * (x_ab R a b m n))).
(** ccpy/eomcc/eomccsd.py, build_HR_2B, line 101 *)
Definition reom_X2B_5 (d : dims) (H : ints) (T R : amps) : mat4 := fun a b i j =>
  reom_X2B_4 d H T R a b i j + sumn (nua d) (fun e => sumn (nua d) (fun f => (i_ab_vvvv H a b e f) * (x_ab R e f i j))).
(** ccpy/eomcc/eomccsd.py, build_HR_2B, line 102 *)
Definition reom_X2B_6 (d : dims) (H : ints) (T R : amps) : mat4 := fun a b i j =>
  reom_X2B_5 d H T R a b i j + sumn (noa d) (fun m => sumn (nua d) (fun e => (i_aa_voov H a m i e) * (x_ab R e b m j))).
(** ccpy/eomcc/eomccsd.py, build_HR_2B, line 103 *)
Definition reom_X2B_7 (d : dims) (H : ints) (T R : amps) : mat4 := fun a b i j =>
  reom_X2B_6 d H T R a b i j + sumn (noa d) (fun m => sumn (nua d) (fun e => (i_ab_voov H a m i e) * (x_bb R e b m j))).
(** ccpy/eomcc/eomccsd.py, build_HR_2B, line 104 *)
Definition reom_X2B_8 (d : dims) (H : ints) (T R : amps) : mat4 := fun a b i j =>
  reom_X2B_7 d H T R a b i j + sumn (noa d) (fun m => sumn (nua d) (fun e => (i_ab_ovvo H m b e j) * (x_aa R a e i m))).
(** ccpy/eomcc/eomccsd.py, build_HR_2B, line 105 *)
Definition reom_X2B_9 (d : dims) (H : ints) (T R : amps) : mat4 := fun a b i j =>
  reom_X2B_8 d H T R a b i j + sumn (noa d) (fun m => sumn (nua d) (fun e => (i_bb_voov H b m j e) * (x_ab R a e i m))).
(** ccpy/eomcc/eomccsd.py, build_HR_2B, line 106 *)
Definition reom_X2B_10 (d : dims) (H : ints) (T R : amps) : mat4 := fun a b i j =>
  reom_X2B_9 d H T R a b i j - sumn (noa d) (fun m => sumn (nua d) (fun e => (i_ab_ovov H m b i e) * (x_ab R a e m j))).
(** ccpy/eomcc/eomccsd.py, build_HR_2B, line 107 *)
Definition reom_X2B_11 (d : dims) (H : ints) (T R : amps) : mat4 := fun a b i j =>
  reom_X2B_10 d H T R a b i j - sumn (noa d) (fun m => sumn (nua d) (fun e => (i_ab_vovo H a m e j) * (x_ab R e b i m))).
(** ccpy/eomcc/eomccsd.py, build_HR_2B, line 108 *)
Definition reom_X2B_12 (d : dims) (H : ints) (T R : amps) : mat4 := fun a b i j =>
  reom_X2B_11 d H T R a b i j + sumn (nua d) (fun e => (i_ab_vvvo H a b e j) * (x_a R e i)).
(** ccpy/eomcc/eomccsd.py, build_HR_2B, line 109 *)
Definition reom_X2B_13 (d : dims) (H : ints) (T R : amps) : mat4 := fun a b i j =>
  reom_X2B_12 d H T R a b i j + sumn (nua d) (fun e => (i_ab_vvov H a b i e) * (x_b R e j)).
(** ccpy/eomcc/eomccsd.py, build_HR_2B, line 110 *)
Definition reom_X2B_14 (d : dims) (H : ints) (T R : amps) : mat4 := fun a b i j =>
  reom_X2B_13 d H T R a b i j - sumn (noa d) (fun m => (i_ab_ovoo H m b i j) * (x_a R a m)).
(** ccpy/eomcc/eomccsd.py, build_HR_2B, line 111 *)
Definition reom_X2B_15 (d : dims) (H : ints) (T R : amps) : mat4 := fun a b i j =>
  reom_X2B_14 d H T R a b i j - sumn (noa d) (fun m => (i_ab_vooo H a m i j) * (x_b R b m)).
(** ccpy/eomcc/eomccsd.py, build_HR_2B, line 112 *)
Definition reom_X2B_16 (d : dims) (H : ints) (T R : amps) : mat4 := fun a b i j =>
  reom_X2B_15 d H T R a b i j + sumn (nua d) (fun e => (reom_X_a_vv d H T R a e) * (x_ab T e b i j)).
(** ccpy/eomcc/eomccsd.py, build_HR_2B, line 113 *)
Definition reom_X2B_17 (d : dims) (H : ints) (T R : amps) : mat4 := fun a b i j =>
  reom_X2B_16 d H T R a b i j - sumn (noa d) (fun m => (reom_X_a_oo d H T R m i) * (x_ab T a b m j)).
(** ccpy/eomcc/eomccsd.py, build_HR_2B, line 114 *)
Definition reom_X2B_18 (d : dims) (H : ints) (T R : amps) : mat4 := fun a b i j =>
  reom_X2B_17 d H T R a b i j + sumn (nua d) (fun e => (reom_X_b_vv d H T R b e) * (x_ab T a e i j)).
(** ccpy/eomcc/eomccsd.py, build_HR_2B, line 115 *)
Definition reom_X2B_19 (d : dims) (H : ints) (T R : amps) : mat4 := fun a b i j =>
  reom_X2B_18 d H T R a b i j - sumn (noa d) (fun m => (reom_X_b_oo d H T R m j) * (x_ab T a b i m)).
(** ccpy/eomcc/eomccsd.py, HR, line 45 *)
Definition reom_dR_bb (d : dims) (H : ints) (T R : amps) : mat4 := fun a b i j =>
  reom_X2A_11 d H T R a b i j.
(** eomccsd.py, HR, lines 31-48, flag_RHF = True *)
Definition reom_HR (d : dims) (H : ints) (T R : amps) : amps := mkAmps (reom_X1A_9 d H T R) (reom_dR_b d H T R) (reom_X2A_11 d H T R) (reom_X2B_19 d H T R) (reom_dR_bb d H T R) (fun _ _ _ _ _ _ => 0) (fun _ _ _ _ _ _ => 0) (fun _ _ _ _ _ _ => 0) (fun _ _ _ _ _ _ => 0).
(** ccpy/left/left_cc_intermediates.py, build_left_ccsd_intermediates, lines 11-14 *)
Definition rleft_X_a_vv (d : dims) (H : ints) (T L : amps) : mat2 := fun g e =>
  1 / 2 * (sumn (nua d) (fun f => sumn (noa d) (fun m => sumn (noa d) (fun n => (x_aa L e f m n) * (x_aa T f g n m))))) + sumn (nua d) (fun b => sumn (noa d) (fun i => sumn (noa d) (fun j => (x_ab L e b i j) * (x_ab T g b i j)))).
(** ccpy/left/left_cc_intermediates.py, build_left_ccsd_intermediates, lines 15-18 *)
Definition rleft_X_a_oo (d : dims) (H : ints) (T L : amps) : mat2 := fun m n =>
  (-1) / 2 * (sumn (nua d) (fun e => sumn (nua d) (fun f => sumn (noa d) (fun o => (x_aa L e f m o) * (x_aa T e f n o))))) - sumn (nua d) (fun a => sumn (nua d) (fun b => sumn (noa d) (fun j => (x_ab L a b m j) * (x_ab T a b n j)))).
(** ccpy/left/left_cc_intermediates.py, build_left_ccsd_intermediates, lines 19-22 *)
Definition rleft_X_b_vv (d : dims) (H : ints) (T L : amps) : mat2 := fun f a =>
  1 / 2 * (sumn (nua d) (fun b => sumn (noa d) (fun i => sumn (noa d) (fun j => (x_bb L a b i j) * (x_bb T f b i j))))) + sumn (nua d) (fun a' => sumn (noa d) (fun i => sumn (noa d) (fun j => (x_ab L a' a i j) * (x_ab T a' f i j)))).
(** ccpy/left/left_cc_intermediates.py, build_left_ccsd_intermediates, lines 23-26 *)
Definition rleft_X_b_oo (d : dims) (H : ints) (T L : amps) : mat2 := fun i n =>
  (-1) / 2 * (sumn (nua d) (fun a => sumn (nua d) (fun b => sumn (noa d) (fun j => (x_bb L a b i j) * (x_bb T a b n j))))) - sumn (nua d) (fun a => sumn (nua d) (fun b => sumn (noa d) (fun i' => (x_ab L a b i' i) * (x_ab T a b i' n)))).
(** ccpy/left/left_ccsd.py, build_LH_1A, line 93 *)
Definition rleft_LH_a (d : dims) (H : ints) (T L : amps) : mat2 := fun a i =>
  sumn (nua d) (fun e => (i_a_vv H e a) * (x_a L e i)).
(** ccpy/left/left_ccsd.py, build_LH_1A, line 94 *)
Definition rleft_LH_a_1 (d : dims) (H : ints) (T L : amps) : mat2 := fun a i =>
  rleft_LH_a d H T L a i - sumn (noa d) (fun m => (i_a_oo H i m) * (x_a L a m)).
(** ccpy/left/left_ccsd.py, build_LH_1A, line 95 *)
Definition rleft_LH_a_2 (d : dims) (H : ints) (T L : amps) : mat2 := fun a i =>
  rleft_LH_a_1 d H T L a i + sumn (nua d) (fun e => sumn (noa d) (fun m => (i_aa_voov H e i m a) * (x_a L e m))).
(** ccpy/left/left_ccsd.py, build_LH_1A, line 96 *)
Definition rleft_LH_a_3 (d : dims) (H : ints) (T L : amps) : mat2 := fun a i =>
  rleft_LH_a_2 d H T L a i + sumn (nua d) (fun e => sumn (noa d) (fun m => (i_ab_ovvo H i e a m) * (x_b L e m))).
(** ccpy/left/left_ccsd.py, build_LH_1A, line 97 *)
Definition rleft_LH_a_4 (d : dims) (H : ints) (T L : amps) : mat2 := fun a i =>
  rleft_LH_a_3 d H T L a i + 1 / 2 * (sumn (nua d) (fun f => sumn (nua d) (fun e => sumn (noa d) (fun n => (i_aa_vvov H f e n a) * (x_aa L e f i n))))).
(** ccpy/left/left_ccsd.py, build_LH_1A, line 98 *)
Definition rleft_LH_a_5 (d : dims) (H : ints) (T L : amps) : mat2 := fun a i =>
  rleft_LH_a_4 d H T L a i + sumn (nua d) (fun e => sumn (nua d) (fun f => sumn (noa d) (fun n => (i_ab_vvvo H e f a n) * (x_ab L e f i n)))).
(** ccpy/left/left_ccsd.py, build_LH_1A, line 99 *)
Definition rleft_LH_a_6 (d : dims) (H : ints) (T L : amps) : mat2 := fun a i =>
  rleft_LH_a_5 d H T L a i - 1 / 2 * (sumn (nua d) (fun f => sumn (noa d) (fun n => sumn (noa d) (fun m => (i_aa_vooo H f i n m) * (x_aa L a f m n))))).
(** ccpy/left/left_ccsd.py, build_LH_1A, line 100 *)
Definition rleft_LH_a_7 (d : dims) (H : ints) (T L : amps) : mat2 := fun a i =>
  rleft_LH_a_6 d H T L a i - sumn (nua d) (fun f => sumn (noa d) (fun m => sumn (noa d) (fun n => (i_ab_ovoo H i f m n) * (x_ab L a f m n)))).
(** ccpy/left/left_ccsd.py, build_LH_1A, line 101 *)
Definition rleft_LH_a_8 (d : dims) (H : ints) (T L : amps) : mat2 := fun a i =>
  rleft_LH_a_7 d H T L a i + sumn (nua d) (fun g => sumn (nua d) (fun e => (rleft_X_a_vv d H T L g e) * (i_aa_vovv H e i g a))).
(** ccpy/left/left_ccsd.py, build_LH_1A, line 102 *)
Definition rleft_LH_a_9 (d : dims) (H : ints) (T L : amps) : mat2 := fun a i =>
  rleft_LH_a_8 d H T L a i + sumn (noa d) (fun m => sumn (noa d) (fun n => (rleft_X_a_oo d H T L m n) * (i_aa_ooov H n i m a))).
(** ccpy/left/left_ccsd.py, build_LH_1A, line 103 *)
Definition rleft_LH_a_10 (d : dims) (H : ints) (T L : amps) : mat2 := fun a i =>
  rleft_LH_a_9 d H T L a i + sumn (nua d) (fun f => sumn (nua d) (fun a' => (rleft_X_b_vv d H T L f a') * (i_ab_ovvv H i a' a f))).
(** ccpy/left/left_ccsd.py, build_LH_1A, line 104 *)
Definition rleft_LH_a_11 (d : dims) (H : ints) (T L : amps) : mat2 := fun a i =>
  rleft_LH_a_10 d H T L a i + sumn (noa d) (fun i' => sumn (noa d) (fun n => (rleft_X_b_oo d H T L i' n) * (i_ab_oovo H i n a i'))).
(** ccpy/left/left_ccsd.py, LH_fun, line 79 *)
Definition rleft_LH_b (d : dims) (H : ints) (T L : amps) : mat2 := fun a i =>
  rleft_LH_a_11 d H T L a i.
(** ccpy/left/left_ccsd.py, build_LH_2A, line 129 *)
Definition rleft_LH_aa (d : dims) (H : ints) (T L : amps) : mat4 := fun a b i j =>
  1 / 2 * (sumn (nua d) (fun e => (i_a_vv H e a) * (x_aa L e b i j))).
(** ccpy/left/left_ccsd.py, build_LH_2A, line 130 *)
Definition rleft_LH_aa_1 (d : dims) (H : ints) (T L : amps) : mat4 := fun a b i j =>
  rleft_LH_aa d H T L a b i j - 1 / 2 * (sumn (noa d) (fun m => (i_a_oo H i m) * (x_aa L a b m j))).
(** ccpy/left/left_ccsd.py, build_LH_2A, line 131 *)
Definition rleft_LH_aa_2 (d : dims) (H : ints) (T L : amps) : mat4 := fun a b i j =>
  rleft_LH_aa_1 d H T L a b i j + (i_a_ov H j b) * (x_a L a i).
(** ccpy/left/left_ccsd.py, build_LH_2A, line 132 *)
Definition rleft_LH_aa_3 (d : dims) (H : ints) (T L : amps) : mat4 := fun a b i j =>
  rleft_LH_aa_2 d H T L a b i j - 1 / 2 * (sumn (nua d) (fun e => (rleft_X_a_vv d H T L e a) * (i_aa_oovv H i j e b))).
(** ccpy/left/left_ccsd.py, build_LH_2A, line 133 *)
Definition rleft_LH_aa_4 (d : dims) (H : ints) (T L : amps) : mat4 := fun a b i j =>
  rleft_LH_aa_3 d H T L a b i j + 1 / 2 * (sumn (noa d) (fun m => (rleft_X_a_oo d H T L i m) * (i_aa_oovv H m j a b))).
(** ccpy/left/left_ccsd.py, build_LH_2A, line 134 *)
Definition rleft_LH_aa_5 (d : dims) (H : ints) (T L : amps) : mat4 := fun a b i j =>
  rleft_LH_aa_4 d H T L a b i j + sumn (nua d) (fun e => sumn (noa d) (fun m => (i_aa_voov H e i m a) * (x_aa L e b m j))).
(** ccpy/left/left_ccsd.py, build_LH_2A, line 135 *)
Definition rleft_LH_aa_6 (d : dims) (H : ints) (T L : amps) : mat4 := fun a b i j =>
  rleft_LH_aa_5 d H T L a b i j + sumn (nua d) (fun e => sumn (noa d) (fun m => (i_ab_ovvo H i e a m) * (x_ab L b e j m))).
(** ccpy/left/left_ccsd.py, build_LH_2A, line 136 *)
Definition rleft_LH_aa_7 (d : dims) (H : ints) (T L : amps) : mat4 := fun a b i j =>
  rleft_LH_aa_6 d H T L a b i j + 1 / 8 * (sumn (noa d) (fun m => sumn (noa d) (fun n => (i_aa_oooo H i j m n) * (x_aa L a b m n)))).
(** ccpy/left/left_ccsd.py, build_LH_2A, line 137 *)
Definition rleft_LH_aa_8 (d : dims) (H : ints) (T L : amps) : mat4 := fun a b i j =>
  rleft_LH_aa_7 d H T L a b i j + 1 / 8 * (sumn (nua d) (fun e => sumn (nua d) (fun f => (i_aa_vvvv H e f a b) * (x_aa L e f i j)))).
(** ccpy/left/left_ccsd.py, build_LH_2A, line 138 *)
Definition rleft_LH_aa_9 (d : dims) (H : ints) (T L : amps) : mat4 := fun a b i j =>
  rleft_LH_aa_8 d H T L a b i j + 1 / 2 * (sumn (nua d) (fun e => (i_aa_vovv H e j a b) * (x_a L e i))).
(** ccpy/left/left_ccsd.py, build_LH_2A, line 139 *)
Definition rleft_LH_aa_10 (d : dims) (H : ints) (T L : amps) : mat4 := fun a b i j =>
  rleft_LH_aa_9 d H T L a b i j - 1 / 2 * (sumn (noa d) (fun m => (i_aa_ooov H i j m b) * (x_a L a m))).
(** ccpy/left/left_ccsd.py, build_LH_2A, line 140 *)
Definition rleft_LH_aa_11 (d : dims) (H : ints) (T L : amps) : mat4 := fun a b i j =>
  rleft_LH_aa_10 d H T L a b i j - (rleft_LH_aa_10 d H T L b a i j + rleft_LH_aa_10 d H T L a b j i - rleft_LH_aa_10 d H T L b a j i).
(** ccpy/left/left_ccsd.py, build_LH_2B, line 145 *)
Definition rleft_LH_ab (d : dims) (H : ints) (T L : amps) : mat4 := fun a b i j =>
  (- (sumn (noa d) (fun m => (i_ab_ooov H i j m b) * (x_a L a m)))).
(** ccpy/left/left_ccsd.py, build_LH_2B, line 146 *)
Definition rleft_LH_ab_1 (d : dims) (H : ints) (T L : amps) : mat4 := fun a b i j =>
  rleft_LH_ab d H T L a b i j - sumn (noa d) (fun m => (i_ab_oovo H i j a m) * (x_b L b m)).
(** ccpy/left/left_ccsd.py, build_LH_2B, line 147 *)
Definition rleft_LH_ab_2 (d : dims) (H : ints) (T L : amps) : mat4 := fun a b i j =>
  rleft_LH_ab_1 d H T L a b i j + sumn (nua d) (fun e => (i_ab_vovv H e j a b) * (x_a L e i)).
(** ccpy/left/left_ccsd.py, build_LH_2B, line 148 *)
Definition rleft_LH_ab_3 (d : dims) (H : ints) (T L : amps) : mat4 := fun a b i j =>
  rleft_LH_ab_2 d H T L a b i j + sumn (nua d) (fun e => (i_ab_ovvv H i e a b) * (x_b L e j)).
(** ccpy/left/left_ccsd.py, build_LH_2B, line 149 *)
Definition rleft_LH_ab_4 (d : dims) (H : ints) (T L : amps) : mat4 := fun a b i j =>
  rleft_LH_ab_3 d H T L a b i j + sumn (noa d) (fun m => sumn (noa d) (fun n => (i_ab_oooo H i j m n) * (x_ab L a b m n))).
(** ccpy/left/left_ccsd.py, build_LH_2B, line 150 *)
Definition rleft_LH_ab_5 (d : dims) (H : ints) (T L : amps) : mat4 := fun a b i j =>
  rleft_LH_ab_4 d H T L a b i j + sumn (nua d) (fun e => sumn (nua d) (fun f => (i_ab_vvvv H e f a b) * (x_ab L e f i j))).
(** ccpy/left/left_ccsd.py, build_LH_2B, line 151 *)
Definition rleft_LH_ab_6 (d : dims) (H : ints) (T L : amps) : mat4 := fun a b i j =>
  rleft_LH_ab_5 d H T L a b i j + sumn (nua d) (fun e => sumn (noa d) (fun m => (i_ab_voov H e j m b) * (x_aa L a e i m))).
(** ccpy/left/left_ccsd.py, build_LH_2B, line 152 *)
Definition rleft_LH_ab_7 (d : dims) (H : ints) (T L : amps) : mat4 := fun a b i j =>
  rleft_LH_ab_6 d H T L a b i j + sumn (nua d) (fun e => sumn (noa d) (fun m => (i_aa_voov H e i m a) * (x_ab L e b m j))).
(** ccpy/left/left_ccsd.py, build_LH_2B, line 153 *)
Definition rleft_LH_ab_8 (d : dims) (H : ints) (T L : amps) : mat4 := fun a b i j =>
  rleft_LH_ab_7 d H T L a b i j + sumn (nua d) (fun e => sumn (noa d) (fun m => (i_bb_voov H e j m b) * (x_ab L a e i m))).
(** ccpy/left/left_ccsd.py, build_LH_2B, line 154 *)
Definition rleft_LH_ab_9 (d : dims) (H : ints) (T L : amps) : mat4 := fun a b i j =>
  rleft_LH_ab_8 d H T L a b i j + sumn (nua d) (fun e => sumn (noa d) (fun m => (i_ab_ovvo H i e a m) * (x_bb L e b m j))).
(** ccpy/left/left_ccsd.py, build_LH_2B, line 155 *)
Definition rleft_LH_ab_10 (d : dims) (H : ints) (T L : amps) : mat4 := fun a b i j =>
  rleft_LH_ab_9 d H T L a b i j - sumn (nua d) (fun e => sumn (noa d) (fun m => (i_ab_ovov H i e m b) * (x_ab L a e m j))).
(** ccpy/left/left_ccsd.py, build_LH_2B, line 156 *)
Definition rleft_LH_ab_11 (d : dims) (H : ints) (T L : amps) : mat4 := fun a b i j =>
  rleft_LH_ab_10 d H T L a b i j - sumn (nua d) (fun e => sumn (noa d) (fun m => (i_ab_vovo H e j a m) * (x_ab L e b i m))).
(** ccpy/left/left_ccsd.py, build_LH_2B, line 157 *)
Definition rleft_LH_ab_12 (d : dims) (H : ints) (T L : amps) : mat4 := fun a b i j =>
  rleft_LH_ab_11 d H T L a b i j - sumn (nua d) (fun e => (rleft_X_a_vv d H T L e a) * (i_ab_oovv H i j e b)).
(** ccpy/left/left_ccsd.py, build_LH_2B, line 158 *)
Definition rleft_LH_ab_13 (d : dims) (H : ints) (T L : amps) : mat4 := fun a b i j =>
  rleft_LH_ab_12 d H T L a b i j + sumn (noa d) (fun m => (rleft_X_a_oo d H T L i m) * (i_ab_oovv H m j a b)).
(** ccpy/left/left_ccsd.py, build_LH_2B, line 159 *)
Definition rleft_LH_ab_14 (d : dims) (H : ints) (T L : amps) : mat4 := fun a b i j =>
  rleft_LH_ab_13 d H T L a b i j - sumn (nua d) (fun e => (rleft_X_b_vv d H T L e b) * (i_ab_oovv H i j a e)).
(** ccpy/left/left_ccsd.py, build_LH_2B, line 160 *)
Definition rleft_LH_ab_15 (d : dims) (H : ints) (T L : amps) : mat4 := fun a b i j =>
  rleft_LH_ab_14 d H T L a b i j + sumn (noa d) (fun m => (rleft_X_b_oo d H T L j m) * (i_ab_oovv H i m a b)).
(** ccpy/left/left_ccsd.py, build_LH_2B, line 161 *)
Definition rleft_LH_ab_16 (d : dims) (H : ints) (T L : amps) : mat4 := fun a b i j =>
  rleft_LH_ab_15 d H T L a b i j + sumn (nua d) (fun e => (i_a_vv H e a) * (x_ab L e b i j)).
(** ccpy/left/left_ccsd.py, build_LH_2B, line 162 *)
Definition rleft_LH_ab_17 (d : dims) (H : ints) (T L : amps) : mat4 := fun a b i j =>
  rleft_LH_ab_16 d H T L a b i j + sumn (nua d) (fun e => (i_b_vv H e b) * (x_ab L a e i j)).
(** ccpy/left/left_ccsd.py, build_LH_2B, line 163 *)
Definition rleft_LH_ab_18 (d : dims) (H : ints) (T L : amps) : mat4 := fun a b i j =>
  rleft_LH_ab_17 d H T L a b i j - sumn (noa d) (fun m => (i_a_oo H i m) * (x_ab L a b m j)).
(** ccpy/left/left_ccsd.py, build_LH_2B, line 164 *)
Definition rleft_LH_ab_19 (d : dims) (H : ints) (T L : amps) : mat4 := fun a b i j =>
  rleft_LH_ab_18 d H T L a b i j - sumn (noa d) (fun m => (i_b_oo H j m) * (x_ab L a b i m)).
(** ccpy/left/left_ccsd.py, build_LH_2B, line 165 *)
Definition rleft_LH_ab_20 (d : dims) (H : ints) (T L : amps) : mat4 := fun a b i j =>
  rleft_LH_ab_19 d H T L a b i j + (i_b_ov H j b) * (x_a L a i).
(** ccpy/left/left_ccsd.py, build_LH_2B, line 166 *)
Definition rleft_LH_ab_21 (d : dims) (H : ints) (T L : amps) : mat4 := fun a b i j =>
  rleft_LH_ab_20 d H T L a b i j + (i_a_ov H i a) * (x_b L b j).
(** ccpy/left/left_ccsd.py, LH_fun, line 86 *)
Definition rleft_LH_bb (d : dims) (H : ints) (T L : amps) : mat4 := fun a b i j =>
  rleft_LH_aa_11 d H T L a b i j.
(** left_ccsd.py, LH_fun, lines 71-89, flag_RHF = True *)
Definition rleft_LH (d : dims) (H : ints) (T L : amps) : amps := mkAmps (rleft_LH_a_11 d H T L) (rleft_LH_b d H T L) (rleft_LH_aa_11 d H T L) (rleft_LH_ab_21 d H T L) (rleft_LH_bb d H T L) (fun _ _ _ _ _ _ => 0) (fun _ _ _ _ _ _ => 0) (fun _ _ _ _ _ _ => 0) (fun _ _ _ _ _ _ => 0).
