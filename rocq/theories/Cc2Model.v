(** Generated by tools/gen_cc2.py from the source text (symbolic execution of the numpy statements; exact reals).
    Models ccpy/cc/cc2.py (update, update_t1a .. update_t2c) and ccpy/hbar/hbar_ccs.py with flag_RHF = False (cc2_) and True (rcc2_),
    ccpy/hbar/hbar_cc2.py (build_hbar_cc2, RHF_symmetry = False), ccpy/eomcc/eomcc2.py (HR, build_HR_1A .. build_HR_2C, flag_RHF = False).
    T holds the amplitudes on entry of update and U the blocks that have been overwritten by the time they are read; res_x is the array handed to the Fortran
    routine cc_loops2.update_x.  In the rcc2_ definitions the spins share the axis lengths, and assignments without a copy share the array, as in Python. *)
From Coq Require Import Reals Arith.
From Verif Require Import RSum IntegralsModel TensorObjs.
Open Scope R_scope.
(** ccpy/hbar/hbar_ccs.py, get_pre_ccs_intermediates, lines 108-111 *)
Definition cc2_X_a_ov (d : dims) (H : ints) (T U : amps) : mat2 := fun m e =>
  i_a_ov H m e + (sumn (noa d) (fun n => sumn (nua d) (fun f => (i_aa_oovv H m n e f) * (x_a T f n))) + sumn (nob d) (fun n => sumn (nub d) (fun f => (i_ab_oovv H m n e f) * (x_b T f n)))).
(** ccpy/hbar/hbar_ccs.py, get_pre_ccs_intermediates, lines 115-118 *)
Definition cc2_X_b_ov (d : dims) (H : ints) (T U : amps) : mat2 := fun m e =>
  i_b_ov H m e + (sumn (noa d) (fun n => sumn (nua d) (fun f => (i_ab_oovv H n m f e) * (x_a T f n))) + sumn (nob d) (fun n => sumn (nub d) (fun f => (i_bb_oovv H m n e f) * (x_b T f n)))).
(** ccpy/hbar/hbar_ccs.py, get_pre_ccs_intermediates, lines 119-124 *)
Definition cc2_X_a_vv (d : dims) (H : ints) (T U : amps) : mat2 := fun a e =>
  i_a_vv H a e + (sumn (noa d) (fun n => sumn (nua d) (fun f => (i_aa_vovv H a n e f) * (x_a T f n))) + sumn (nob d) (fun n => sumn (nub d) (fun f => (i_ab_vovv H a n e f) * (x_b T f n))) - 1 / 2 * (sumn (noa d) (fun m => sumn (noa d) (fun n => sumn (nua d) (fun f => (i_aa_oovv H m n e f) * (x_aa T a f m n))))) - sumn (noa d) (fun m => sumn (nob d) (fun n => sumn (nub d) (fun f => (i_ab_oovv H m n e f) * (x_ab T a f m n))))).
(** ccpy/hbar/hbar_ccs.py, get_pre_ccs_intermediates, lines 125-131 *)
Definition cc2_X_a_oo (d : dims) (H : ints) (T U : amps) : mat2 := fun m i =>
  i_a_oo H m i + (sumn (noa d) (fun n => sumn (nua d) (fun f => (i_aa_ooov H m n i f) * (x_a T f n))) + sumn (nob d) (fun n => sumn (nub d) (fun f => (i_ab_ooov H m n i f) * (x_b T f n))) + sumn (nua d) (fun e => (cc2_X_a_ov d H T U m e) * (x_a T e i)) + 1 / 2 * (sumn (noa d) (fun n => sumn (nua d) (fun e => sumn (nua d) (fun f => (i_aa_oovv H m n e f) * (x_aa T e f i n))))) + sumn (nob d) (fun n => sumn (nua d) (fun e => sumn (nub d) (fun f => (i_ab_oovv H m n e f) * (x_ab T e f i n))))).
(** ccpy/hbar/hbar_ccs.py, get_pre_ccs_intermediates, lines 136-141 *)
Definition cc2_X_b_vv (d : dims) (H : ints) (T U : amps) : mat2 := fun a e =>
  i_b_vv H a e + (sumn (nob d) (fun n => sumn (nub d) (fun f => (i_bb_vovv H a n e f) * (x_b T f n))) + sumn (noa d) (fun n => sumn (nua d) (fun f => (i_ab_ovvv H n a f e) * (x_a T f n))) - 1 / 2 * (sumn (nob d) (fun m => sumn (nob d) (fun n => sumn (nub d) (fun f => (i_bb_oovv H m n e f) * (x_bb T a f m n))))) - sumn (noa d) (fun n => sumn (nob d) (fun m => sumn (nua d) (fun f => (i_ab_oovv H n m f e) * (x_ab T f a n m))))).
(** ccpy/hbar/hbar_ccs.py, get_pre_ccs_intermediates, lines 142-148 *)
Definition cc2_X_b_oo (d : dims) (H : ints) (T U : amps) : mat2 := fun m i =>
  i_b_oo H m i + (sumn (nob d) (fun n => sumn (nub d) (fun f => (i_bb_ooov H m n i f) * (x_b T f n))) + sumn (noa d) (fun n => sumn (nua d) (fun f => (i_ab_oovo H n m f i) * (x_a T f n))) + sumn (nub d) (fun e => (cc2_X_b_ov d H T U m e) * (x_b T e i)) + 1 / 2 * (sumn (nob d) (fun n => sumn (nub d) (fun e => sumn (nub d) (fun f => (i_bb_oovv H m n e f) * (x_bb T e f i n))))) + sumn (noa d) (fun n => sumn (nua d) (fun f => sumn (nub d) (fun e => (i_ab_oovv H n m f e) * (x_ab T f e n i))))).
(** ccpy/cc/cc2.py, update_t1a, line 46 *)
Definition cc2_dT_a (d : dims) (H : ints) (T U : amps) : mat2 := fun a i =>
  (- (sumn (noa d) (fun m => (cc2_X_a_oo d H T U m i) * (x_a T a m)))).
(** ccpy/cc/cc2.py, update_t1a, line 47 *)
Definition cc2_dT_a_1 (d : dims) (H : ints) (T U : amps) : mat2 := fun a i =>
  cc2_dT_a d H T U a i + sumn (nua d) (fun e => (cc2_X_a_vv d H T U a e) * (x_a T e i)).
(** ccpy/cc/cc2.py, update_t1a, line 48 *)
Definition cc2_dT_a_2 (d : dims) (H : ints) (T U : amps) : mat2 := fun a i =>
  cc2_dT_a_1 d H T U a i + sumn (noa d) (fun m => sumn (nua d) (fun e => (cc2_X_a_ov d H T U m e) * (x_aa T a e i m))).
(** ccpy/cc/cc2.py, update_t1a, line 49 *)
Definition cc2_dT_a_3 (d : dims) (H : ints) (T U : amps) : mat2 := fun a i =>
  cc2_dT_a_2 d H T U a i + sumn (nob d) (fun m => sumn (nub d) (fun e => (cc2_X_b_ov d H T U m e) * (x_ab T a e i m))).
(** ccpy/cc/cc2.py, update_t1a, line 50 *)
Definition cc2_dT_a_4 (d : dims) (H : ints) (T U : amps) : mat2 := fun a i =>
  cc2_dT_a_3 d H T U a i + sumn (noa d) (fun n => sumn (nua d) (fun f => (i_aa_voov H a n i f) * (x_a T f n))).
(** ccpy/cc/cc2.py, update_t1a, line 51 *)
Definition cc2_dT_a_5 (d : dims) (H : ints) (T U : amps) : mat2 := fun a i =>
  cc2_dT_a_4 d H T U a i + sumn (nob d) (fun n => sumn (nub d) (fun f => (i_ab_voov H a n i f) * (x_b T f n))).
(** ccpy/cc/cc2.py, update_t1a, line 52 *)
Definition cc2_dT_a_6 (d : dims) (H : ints) (T U : amps) : mat2 := fun a i =>
  cc2_dT_a_5 d H T U a i - 1 / 2 * (sumn (noa d) (fun m => sumn (noa d) (fun n => sumn (nua d) (fun f => (i_aa_ooov H m n i f) * (x_aa T a f m n))))).
(** ccpy/cc/cc2.py, update_t1a, line 53 *)
Definition cc2_dT_a_7 (d : dims) (H : ints) (T U : amps) : mat2 := fun a i =>
  cc2_dT_a_6 d H T U a i - sumn (noa d) (fun m => sumn (nob d) (fun n => sumn (nub d) (fun f => (i_ab_ooov H m n i f) * (x_ab T a f m n)))).
(** ccpy/cc/cc2.py, update_t1a, line 54 *)
Definition cc2_dT_a_8 (d : dims) (H : ints) (T U : amps) : mat2 := fun a i =>
  cc2_dT_a_7 d H T U a i + 1 / 2 * (sumn (noa d) (fun n => sumn (nua d) (fun e => sumn (nua d) (fun f => (i_aa_vovv H a n e f) * (x_aa T e f i n))))).
(** ccpy/cc/cc2.py, update_t1a, line 55 *)
Definition cc2_dT_a_9 (d : dims) (H : ints) (T U : amps) : mat2 := fun a i =>
  cc2_dT_a_8 d H T U a i + sumn (nob d) (fun n => sumn (nua d) (fun e => sumn (nub d) (fun f => (i_ab_vovv H a n e f) * (x_ab T e f i n)))).
(** ccpy/cc/cc2.py, update_t1a, lines 56-58 *)
Definition cc2_res_a (d : dims) (H : ints) (T U : amps) : mat2 := fun a i =>
  cc2_dT_a_9 d H T U a i + i_a_vo H a i.
(** ccpy/cc/cc2.py, update_t1b, line 65 *)
Definition cc2_dT_b (d : dims) (H : ints) (T U : amps) : mat2 := fun a i =>
  (- (sumn (nob d) (fun m => (cc2_X_b_oo d H T U m i) * (x_b T a m)))).
(** ccpy/cc/cc2.py, update_t1b, line 66 *)
Definition cc2_dT_b_1 (d : dims) (H : ints) (T U : amps) : mat2 := fun a i =>
  cc2_dT_b d H T U a i + sumn (nub d) (fun e => (cc2_X_b_vv d H T U a e) * (x_b T e i)).
(** ccpy/cc/cc2.py, update_t1b, line 67 *)
Definition cc2_dT_b_2 (d : dims) (H : ints) (T U : amps) : mat2 := fun a i =>
  cc2_dT_b_1 d H T U a i + sumn (nob d) (fun n => sumn (nub d) (fun f => (i_bb_voov H a n i f) * (x_b T f n))).
(** ccpy/cc/cc2.py, update_t1b, line 68 *)
Definition cc2_dT_b_3 (d : dims) (H : ints) (T U : amps) : mat2 := fun a i =>
  cc2_dT_b_2 d H T U a i + sumn (noa d) (fun n => sumn (nua d) (fun f => (i_ab_ovvo H n a f i) * (x_a U f n))).
(** ccpy/cc/cc2.py, update_t1b, line 69 *)
Definition cc2_dT_b_4 (d : dims) (H : ints) (T U : amps) : mat2 := fun a i =>
  cc2_dT_b_3 d H T U a i + sumn (noa d) (fun m => sumn (nua d) (fun e => (cc2_X_a_ov d H T U m e) * (x_ab T e a m i))).
(** ccpy/cc/cc2.py, update_t1b, line 70 *)
Definition cc2_dT_b_5 (d : dims) (H : ints) (T U : amps) : mat2 := fun a i =>
  cc2_dT_b_4 d H T U a i + sumn (nob d) (fun m => sumn (nub d) (fun e => (cc2_X_b_ov d H T U m e) * (x_bb T a e i m))).
(** ccpy/cc/cc2.py, update_t1b, line 71 *)
Definition cc2_dT_b_6 (d : dims) (H : ints) (T U : amps) : mat2 := fun a i =>
  cc2_dT_b_5 d H T U a i - 1 / 2 * (sumn (nob d) (fun m => sumn (nob d) (fun n => sumn (nub d) (fun f => (i_bb_ooov H m n i f) * (x_bb T a f m n))))).
(** ccpy/cc/cc2.py, update_t1b, line 72 *)
Definition cc2_dT_b_7 (d : dims) (H : ints) (T U : amps) : mat2 := fun a i =>
  cc2_dT_b_6 d H T U a i - sumn (noa d) (fun n => sumn (nob d) (fun m => sumn (nua d) (fun f => (i_ab_oovo H n m f i) * (x_ab T f a n m)))).
(** ccpy/cc/cc2.py, update_t1b, line 73 *)
Definition cc2_dT_b_8 (d : dims) (H : ints) (T U : amps) : mat2 := fun a i =>
  cc2_dT_b_7 d H T U a i + 1 / 2 * (sumn (nob d) (fun n => sumn (nub d) (fun e => sumn (nub d) (fun f => (i_bb_vovv H a n e f) * (x_bb T e f i n))))).
(** ccpy/cc/cc2.py, update_t1b, line 74 *)
Definition cc2_dT_b_9 (d : dims) (H : ints) (T U : amps) : mat2 := fun a i =>
  cc2_dT_b_8 d H T U a i + sumn (noa d) (fun n => sumn (nua d) (fun f => sumn (nub d) (fun e => (i_ab_ovvv H n a f e) * (x_ab T f e n i)))).
(** ccpy/cc/cc2.py, update_t1b, lines 75-77 *)
Definition cc2_res_b (d : dims) (H : ints) (T U : amps) : mat2 := fun a i =>
  cc2_dT_b_9 d H T U a i + i_b_vo H a i.
(** ccpy/hbar/hbar_ccs.py, get_ccs_intermediates_opt, line 9 *)
Definition cc2_X_a_vv_1 (d : dims) (H : ints) (T U : amps) : mat2 := fun a e =>
  cc2_X_a_vv d H T U a e - sumn (noa d) (fun m => (cc2_X_a_ov d H T U m e) * (x_a U a m)).
(** ccpy/hbar/hbar_ccs.py, get_ccs_intermediates_opt, line 13 *)
Definition cc2_X_b_vv_1 (d : dims) (H : ints) (T U : amps) : mat2 := fun a e =>
  cc2_X_b_vv d H T U a e - sumn (nob d) (fun m => (cc2_X_b_ov d H T U m e) * (x_b U a m)).
(** ccpy/hbar/hbar_ccs.py, get_ccs_intermediates_opt, line 16 *)
Definition cc2_X_aa_ooov (d : dims) (H : ints) (T U : amps) : mat4 := fun m n i e =>
  sumn (nua d) (fun f => (i_aa_oovv H m n f e) * (x_a U f i)).
(** ccpy/hbar/hbar_ccs.py, get_ccs_intermediates_opt, line 17 *)
Definition cc2_X_aa_vovv (d : dims) (H : ints) (T U : amps) : mat4 := fun a m e f =>
  (- (sumn (noa d) (fun n => (i_aa_oovv H m n f e) * (x_a U a n)))).
(** ccpy/hbar/hbar_ccs.py, get_ccs_intermediates_opt, line 18 *)
Definition cc2_X_aa_oooo (d : dims) (H : ints) (T U : amps) : mat4 := fun m n i j =>
  1 / 2 * (i_aa_oooo H m n i j) + sumn (nua d) (fun e => (i_aa_ooov H n m j e + 1 / 2 * (cc2_X_aa_ooov d H T U n m j e)) * (x_a U e i)).
(** ccpy/hbar/hbar_ccs.py, get_ccs_intermediates_opt, line 19 *)
Definition cc2_X_aa_oooo_1 (d : dims) (H : ints) (T U : amps) : mat4 := fun m n i j =>
  cc2_X_aa_oooo d H T U m n i j - cc2_X_aa_oooo d H T U m n j i.
(** ccpy/hbar/hbar_ccs.py, get_ccs_intermediates_opt, lines 20-23 *)
Definition cc2_X_aa_voov (d : dims) (H : ints) (T U : amps) : mat4 := fun a m i e =>
  i_aa_voov H a m i e + (sumn (nua d) (fun f => (i_aa_vovv H a m f e + 1 / 2 * (cc2_X_aa_vovv d H T U a m f e)) * (x_a U f i)) - sumn (noa d) (fun n => (i_aa_ooov H n m i e + 1 / 2 * (cc2_X_aa_ooov d H T U n m i e)) * (x_a U a n))).
(** ccpy/hbar/hbar_ccs.py, get_ccs_intermediates_opt, line 24 *)
Definition cc2_L_amie (d : dims) (H : ints) (T U : amps) : mat4 := fun a m i f =>
  i_aa_voov H a m i f + 1 / 2 * (sumn (nua d) (fun e => (i_aa_vovv H a m e f) * (x_a U e i))).
(** ccpy/hbar/hbar_ccs.py, get_ccs_intermediates_opt, line 25 *)
Definition cc2_X_mnij (d : dims) (H : ints) (T U : amps) : mat4 := fun m n i j =>
  i_aa_oooo H m n i j + sumn (nua d) (fun e => (cc2_X_aa_ooov d H T U m n i e) * (x_a U e j)).
(** ccpy/hbar/hbar_ccs.py, get_ccs_intermediates_opt, lines 26-29 *)
Definition cc2_X_aa_vooo (d : dims) (H : ints) (T U : amps) : mat4 := fun a m i j =>
  1 / 2 * (i_aa_vooo H a m i j) + (sumn (nua d) (fun e => (cc2_L_amie d H T U a m i e) * (x_a U e j)) - 1 / 4 * (sumn (noa d) (fun m' => (cc2_X_mnij d H T U m' m i j) * (x_a U a m')))).
(** ccpy/hbar/hbar_ccs.py, get_ccs_intermediates_opt, line 30 *)
Definition cc2_X_aa_vooo_1 (d : dims) (H : ints) (T U : amps) : mat4 := fun a m i j =>
  cc2_X_aa_vooo d H T U a m i j - cc2_X_aa_vooo d H T U a m j i.
(** ccpy/hbar/hbar_ccs.py, get_ccs_intermediates_opt, line 31 *)
Definition cc2_L_amie_1 (d : dims) (H : ints) (T U : amps) : mat4 := fun a n i e =>
  sumn (noa d) (fun m => (i_aa_ooov H m n i e) * (x_a U a m)).
(** ccpy/hbar/hbar_ccs.py, get_ccs_intermediates_opt, line 32 *)
Definition cc2_X_aa_vvov (d : dims) (H : ints) (T U : amps) : mat4 := fun a b i e =>
  i_aa_vvov H a b i e + sumn (noa d) (fun n => (cc2_L_amie_1 d H T U a n i e) * (x_a U b n)).
(** ccpy/hbar/hbar_ccs.py, get_ccs_intermediates_opt, line 45 *)
Definition cc2_X_bb_ooov (d : dims) (H : ints) (T U : amps) : mat4 := fun m n i e =>
  sumn (nub d) (fun f => (i_bb_oovv H m n f e) * (x_b U f i)).
(** ccpy/hbar/hbar_ccs.py, get_ccs_intermediates_opt, line 46 *)
Definition cc2_X_bb_oooo (d : dims) (H : ints) (T U : amps) : mat4 := fun m n i j =>
  1 / 2 * (i_bb_oooo H m n i j) + sumn (nub d) (fun e => (i_bb_ooov H n m j e + 1 / 2 * (cc2_X_bb_ooov d H T U n m j e)) * (x_b U e i)).
(** ccpy/hbar/hbar_ccs.py, get_ccs_intermediates_opt, line 47 *)
Definition cc2_X_bb_oooo_1 (d : dims) (H : ints) (T U : amps) : mat4 := fun m n i j =>
  cc2_X_bb_oooo d H T U m n i j - cc2_X_bb_oooo d H T U m n j i.
(** ccpy/hbar/hbar_ccs.py, get_ccs_intermediates_opt, line 48 *)
Definition cc2_X_bb_vovv (d : dims) (H : ints) (T U : amps) : mat4 := fun a m e f =>
  (- (sumn (nob d) (fun n => (i_bb_oovv H m n f e) * (x_b U a n)))).
(** ccpy/hbar/hbar_ccs.py, get_ccs_intermediates_opt, lines 49-52 *)
Definition cc2_X_bb_voov (d : dims) (H : ints) (T U : amps) : mat4 := fun a m i e =>
  i_bb_voov H a m i e + (sumn (nub d) (fun f => (i_bb_vovv H a m f e + 1 / 2 * (cc2_X_bb_vovv d H T U a m f e)) * (x_b U f i)) - sumn (nob d) (fun n => (i_bb_ooov H n m i e + 1 / 2 * (cc2_X_bb_ooov d H T U n m i e)) * (x_b U a n))).
(** ccpy/hbar/hbar_ccs.py, get_ccs_intermediates_opt, line 53 *)
Definition cc2_L_amie_2 (d : dims) (H : ints) (T U : amps) : mat4 := fun a m i f =>
  i_bb_voov H a m i f + 1 / 2 * (sumn (nub d) (fun e => (i_bb_vovv H a m e f) * (x_b U e i))).
(** ccpy/hbar/hbar_ccs.py, get_ccs_intermediates_opt, line 54 *)
Definition cc2_X_mnij_1 (d : dims) (H : ints) (T U : amps) : mat4 := fun m n i j =>
  i_bb_oooo H m n i j + sumn (nub d) (fun e => (cc2_X_bb_ooov d H T U m n i e) * (x_b U e j)).
(** ccpy/hbar/hbar_ccs.py, get_ccs_intermediates_opt, lines 55-58 *)
Definition cc2_X_bb_vooo (d : dims) (H : ints) (T U : amps) : mat4 := fun a m i j =>
  1 / 2 * (i_bb_vooo H a m i j) + (sumn (nub d) (fun e => (cc2_L_amie_2 d H T U a m i e) * (x_b U e j)) - 1 / 4 * (sumn (nob d) (fun m' => (cc2_X_mnij_1 d H T U m' m i j) * (x_b U a m')))).
(** ccpy/hbar/hbar_ccs.py, get_ccs_intermediates_opt, line 59 *)
Definition cc2_X_bb_vooo_1 (d : dims) (H : ints) (T U : amps) : mat4 := fun a m i j =>
  cc2_X_bb_vooo d H T U a m i j - cc2_X_bb_vooo d H T U a m j i.
(** ccpy/hbar/hbar_ccs.py, get_ccs_intermediates_opt, line 60 *)
Definition cc2_L_amie_3 (d : dims) (H : ints) (T U : amps) : mat4 := fun a n i e =>
  sumn (nob d) (fun m => (i_bb_ooov H m n i e) * (x_b U a m)).
(** ccpy/hbar/hbar_ccs.py, get_ccs_intermediates_opt, line 61 *)
Definition cc2_X_bb_vvov (d : dims) (H : ints) (T U : amps) : mat4 := fun a b i e =>
  i_bb_vvov H a b i e + sumn (nob d) (fun n => (cc2_L_amie_3 d H T U a n i e) * (x_b U b n)).
(** ccpy/hbar/hbar_ccs.py, get_ccs_intermediates_opt, line 67 *)
Definition cc2_X_ab_ooov (d : dims) (H : ints) (T U : amps) : mat4 := fun m n i e =>
  sumn (nua d) (fun f => (i_ab_oovv H m n f e) * (x_a U f i)).
(** ccpy/hbar/hbar_ccs.py, get_ccs_intermediates_opt, line 68 *)
Definition cc2_X_ab_oovo (d : dims) (H : ints) (T U : amps) : mat4 := fun n m e i =>
  sumn (nub d) (fun f => (i_ab_oovv H n m e f) * (x_b U f i)).
(** ccpy/hbar/hbar_ccs.py, get_ccs_intermediates_opt, lines 69-72 *)
Definition cc2_X_ab_oooo (d : dims) (H : ints) (T U : amps) : mat4 := fun m n i j =>
  i_ab_oooo H m n i j + (sumn (nua d) (fun e => (i_ab_oovo H m n e j + 1 / 2 * (cc2_X_ab_oovo d H T U m n e j)) * (x_a U e i)) + sumn (nub d) (fun e => (i_ab_ooov H m n i e + 1 / 2 * (cc2_X_ab_ooov d H T U m n i e)) * (x_b U e j))).
(** ccpy/hbar/hbar_ccs.py, get_ccs_intermediates_opt, line 73 *)
Definition cc2_X_ab_vovv (d : dims) (H : ints) (T U : amps) : mat4 := fun a m e f =>
  (- (sumn (noa d) (fun n => (i_ab_oovv H n m e f) * (x_a U a n)))).
(** ccpy/hbar/hbar_ccs.py, get_ccs_intermediates_opt, line 74 *)
Definition cc2_X_ab_ovvv (d : dims) (H : ints) (T U : amps) : mat4 := fun m a e f =>
  (- (sumn (nob d) (fun n => (i_ab_oovv H m n e f) * (x_b U a n)))).
(** ccpy/hbar/hbar_ccs.py, get_ccs_intermediates_opt, lines 75-78 *)
Definition cc2_X_ab_voov (d : dims) (H : ints) (T U : amps) : mat4 := fun a m i e =>
  i_ab_voov H a m i e + (sumn (nua d) (fun f => (i_ab_vovv H a m f e + 1 / 2 * (cc2_X_ab_vovv d H T U a m f e)) * (x_a U f i)) - sumn (noa d) (fun n => (i_ab_ooov H n m i e + 1 / 2 * (cc2_X_ab_ooov d H T U n m i e)) * (x_a U a n))).
(** ccpy/hbar/hbar_ccs.py, get_ccs_intermediates_opt, lines 79-82 *)
Definition cc2_X_ab_ovvo (d : dims) (H : ints) (T U : amps) : mat4 := fun m a e i =>
  i_ab_ovvo H m a e i + (sumn (nub d) (fun f => (i_ab_ovvv H m a e f + 1 / 2 * (cc2_X_ab_ovvv d H T U m a e f)) * (x_b U f i)) - sumn (nob d) (fun n => (i_ab_oovo H m n e i + 1 / 2 * (cc2_X_ab_oovo d H T U m n e i)) * (x_b U a n))).
(** ccpy/hbar/hbar_ccs.py, get_ccs_intermediates_opt, lines 83-86 *)
Definition cc2_X_ab_ovov (d : dims) (H : ints) (T U : amps) : mat4 := fun m a i e =>
  i_ab_ovov H m a i e + (sumn (nua d) (fun f => (i_ab_ovvv H m a f e + 1 / 2 * (cc2_X_ab_ovvv d H T U m a f e)) * (x_a U f i)) - sumn (nob d) (fun n => (i_ab_ooov H m n i e + 1 / 2 * (cc2_X_ab_ooov d H T U m n i e)) * (x_b U a n))).
(** ccpy/hbar/hbar_ccs.py, get_ccs_intermediates_opt, lines 87-90 *)
Definition cc2_X_ab_vovo (d : dims) (H : ints) (T U : amps) : mat4 := fun a m e i =>
  i_ab_vovo H a m e i - (sumn (noa d) (fun n => (i_ab_oovo H n m e i + 1 / 2 * (cc2_X_ab_oovo d H T U n m e i)) * (x_a U a n)) - sumn (nub d) (fun f => (i_ab_vovv H a m e f + 1 / 2 * (cc2_X_ab_vovv d H T U a m e f)) * (x_b U f i))).
(** ccpy/hbar/hbar_ccs.py, get_ccs_intermediates_opt, lines 91-94 *)
Definition cc2_X_mnij_2 (d : dims) (H : ints) (T U : amps) : mat4 := fun m n i j =>
  i_ab_oooo H m n i j + (sumn (nub d) (fun f => (i_ab_ooov H m n i f) * (x_b U f j)) + sumn (nua d) (fun e => (i_ab_oovo H m n e j) * (x_a U e i))).
(** ccpy/hbar/hbar_ccs.py, get_ccs_intermediates_opt, line 95 *)
Definition cc2_L_mbej (d : dims) (H : ints) (T U : amps) : mat4 := fun m b e j =>
  i_ab_ovvo H m b e j + sumn (nub d) (fun f => (i_ab_ovvv H m b e f) * (x_b U f j)).
(** ccpy/hbar/hbar_ccs.py, get_ccs_intermediates_opt, lines 96-99 *)
Definition cc2_X_ab_ovoo (d : dims) (H : ints) (T U : amps) : mat4 := fun m b i j =>
  i_ab_ovoo H m b i j + (sumn (nua d) (fun e => (cc2_L_mbej d H T U m b e j) * (x_a U e i)) - sumn (nob d) (fun n => (cc2_X_mnij_2 d H T U m n i j) * (x_b U b n))).
(** ccpy/hbar/hbar_ccs.py, get_ccs_intermediates_opt, line 100 *)
Definition cc2_L_amie_4 (d : dims) (H : ints) (T U : amps) : mat4 := fun a m i f =>
  sumn (nua d) (fun e => (i_ab_vovv H a m e f + cc2_X_ab_vovv d H T U a m e f) * (x_a U e i)).
(** ccpy/hbar/hbar_ccs.py, get_ccs_intermediates_opt, line 101 *)
Definition cc2_X_ab_vooo (d : dims) (H : ints) (T U : amps) : mat4 := fun a m i j =>
  i_ab_vooo H a m i j + sumn (nub d) (fun f => (i_ab_voov H a m i f + cc2_L_amie_4 d H T U a m i f) * (x_b U f j)).
(** ccpy/hbar/hbar_ccs.py, get_ccs_intermediates_opt, line 102 *)
Definition cc2_X_ab_vvvo (d : dims) (H : ints) (T U : amps) : mat4 := fun a b e j =>
  i_ab_vvvo H a b e j - sumn (nob d) (fun n => (i_ab_vovo H a n e j) * (x_b U b n)).
(** ccpy/hbar/hbar_ccs.py, get_ccs_intermediates_opt, line 103 *)
Definition cc2_X_ab_vvov (d : dims) (H : ints) (T U : amps) : mat4 := fun a b i e =>
  i_ab_vvov H a b i e - sumn (noa d) (fun m => (i_ab_ovov H m b i e) * (x_a U a m)).
(** ccpy/cc/cc2.py, update, line 27 *)
Definition cc2_X_aa_vvov_1 (d : dims) (H : ints) (T U : amps) : mat4 := fun a b i e =>
  cc2_X_aa_vvov d H T U a b i e + 1 / 2 * (sumn (nua d) (fun e' => (i_aa_vvvv H a b e' e) * (x_a U e' i))).
(** ccpy/cc/cc2.py, update, line 28 *)
Definition cc2_X_ab_vvov_1 (d : dims) (H : ints) (T U : amps) : mat4 := fun a b i e =>
  cc2_X_ab_vvov d H T U a b i e + sumn (nua d) (fun e' => (i_ab_vvvv H a b e' e) * (x_a U e' i)).
(** ccpy/cc/cc2.py, update, line 29 *)
Definition cc2_X_bb_vvov_1 (d : dims) (H : ints) (T U : amps) : mat4 := fun a b i e =>
  cc2_X_bb_vvov d H T U a b i e + 1 / 2 * (sumn (nub d) (fun e' => (i_bb_vvvv H a b e' e) * (x_b U e' i))).
(** ccpy/cc/cc2.py, update_t2a, line 84 *)
Definition cc2_dT_aa (d : dims) (H : ints) (T U : amps) : mat4 := fun a b i j =>
  (-1) / 2 * (sumn (noa d) (fun m => (cc2_X_aa_vooo_1 d H T U a m i j) * (x_a U b m))).
(** ccpy/cc/cc2.py, update_t2a, line 85 *)
Definition cc2_dT_aa_1 (d : dims) (H : ints) (T U : amps) : mat4 := fun a b i j =>
  cc2_dT_aa d H T U a b i j + 1 / 2 * (sumn (nua d) (fun e => (cc2_X_aa_vvov_1 d H T U a b i e) * (x_a U e j))).
(** ccpy/cc/cc2.py, update_t2a, line 87 *)
Definition cc2_dT_aa_2 (d : dims) (H : ints) (T U : amps) : mat4 := fun a b i j =>
  cc2_dT_aa_1 d H T U a b i j - 1 / 2 * (sumn (noa d) (fun m => (i_a_oo H m i) * (x_aa T a b m j))).
(** ccpy/cc/cc2.py, update_t2a, line 88 *)
Definition cc2_dT_aa_3 (d : dims) (H : ints) (T U : amps) : mat4 := fun a b i j =>
  cc2_dT_aa_2 d H T U a b i j + 1 / 2 * (sumn (nua d) (fun e => (i_a_vv H a e) * (x_aa T e b i j))).
(** ccpy/cc/cc2.py, update_t2a, lines 89-91 *)
Definition cc2_res_aa (d : dims) (H : ints) (T U : amps) : mat4 := fun a b i j =>
  cc2_dT_aa_3 d H T U a b i j + 1 / 4 * (i_aa_vvoo H a b i j).
(** ccpy/cc/cc2.py, update_t2b, line 98 *)
Definition cc2_dT_ab (d : dims) (H : ints) (T U : amps) : mat4 := fun a b i j =>
  (- (sumn (noa d) (fun m => (cc2_X_ab_ovoo d H T U m b i j) * (x_a U a m)))).
(** ccpy/cc/cc2.py, update_t2b, line 99 *)
Definition cc2_dT_ab_1 (d : dims) (H : ints) (T U : amps) : mat4 := fun a b i j =>
  cc2_dT_ab d H T U a b i j - sumn (nob d) (fun m => (cc2_X_ab_vooo d H T U a m i j) * (x_b U b m)).
(** ccpy/cc/cc2.py, update_t2b, line 100 *)
Definition cc2_dT_ab_2 (d : dims) (H : ints) (T U : amps) : mat4 := fun a b i j =>
  cc2_dT_ab_1 d H T U a b i j + sumn (nua d) (fun e => (cc2_X_ab_vvvo d H T U a b e j) * (x_a U e i)).
(** ccpy/cc/cc2.py, update_t2b, line 101 *)
Definition cc2_dT_ab_3 (d : dims) (H : ints) (T U : amps) : mat4 := fun a b i j =>
  cc2_dT_ab_2 d H T U a b i j + sumn (nub d) (fun e => (cc2_X_ab_vvov_1 d H T U a b i e) * (x_b U e j)).
(** ccpy/cc/cc2.py, update_t2b, line 103 *)
Definition cc2_dT_ab_4 (d : dims) (H : ints) (T U : amps) : mat4 := fun a b i j =>
  cc2_dT_ab_3 d H T U a b i j - sumn (noa d) (fun m => (i_a_oo H m i) * (x_ab T a b m j)).
(** ccpy/cc/cc2.py, update_t2b, line 104 *)
Definition cc2_dT_ab_5 (d : dims) (H : ints) (T U : amps) : mat4 := fun a b i j =>
  cc2_dT_ab_4 d H T U a b i j - sumn (nob d) (fun m => (i_b_oo H m j) * (x_ab T a b i m)).
(** ccpy/cc/cc2.py, update_t2b, line 105 *)
Definition cc2_dT_ab_6 (d : dims) (H : ints) (T U : amps) : mat4 := fun a b i j =>
  cc2_dT_ab_5 d H T U a b i j + sumn (nua d) (fun e => (i_a_vv H a e) * (x_ab T e b i j)).
(** ccpy/cc/cc2.py, update_t2b, line 106 *)
Definition cc2_dT_ab_7 (d : dims) (H : ints) (T U : amps) : mat4 := fun a b i j =>
  cc2_dT_ab_6 d H T U a b i j + sumn (nub d) (fun e => (i_b_vv H b e) * (x_ab T a e i j)).
(** ccpy/cc/cc2.py, update_t2b, lines 107-109 *)
Definition cc2_res_ab (d : dims) (H : ints) (T U : amps) : mat4 := fun a b i j =>
  cc2_dT_ab_7 d H T U a b i j + i_ab_vvoo H a b i j.
(** ccpy/cc/cc2.py, update_t2c, line 116 *)
Definition cc2_dT_bb (d : dims) (H : ints) (T U : amps) : mat4 := fun a b i j =>
  (-1) / 2 * (sumn (nob d) (fun m => (cc2_X_bb_vooo_1 d H T U a m i j) * (x_b U b m))).
(** ccpy/cc/cc2.py, update_t2c, line 117 *)
Definition cc2_dT_bb_1 (d : dims) (H : ints) (T U : amps) : mat4 := fun a b i j =>
  cc2_dT_bb d H T U a b i j + 1 / 2 * (sumn (nub d) (fun e => (cc2_X_bb_vvov_1 d H T U a b i e) * (x_b U e j))).
(** ccpy/cc/cc2.py, update_t2c, line 119 *)
Definition cc2_dT_bb_2 (d : dims) (H : ints) (T U : amps) : mat4 := fun a b i j =>
  cc2_dT_bb_1 d H T U a b i j - 1 / 2 * (sumn (nob d) (fun m => (i_b_oo H m i) * (x_bb T a b m j))).
(** ccpy/cc/cc2.py, update_t2c, line 120 *)
Definition cc2_dT_bb_3 (d : dims) (H : ints) (T U : amps) : mat4 := fun a b i j =>
  cc2_dT_bb_2 d H T U a b i j + 1 / 2 * (sumn (nub d) (fun e => (i_b_vv H a e) * (x_bb T e b i j))).
(** ccpy/cc/cc2.py, update_t2c, lines 121-123 *)
Definition cc2_res_bb (d : dims) (H : ints) (T U : amps) : mat4 := fun a b i j =>
  cc2_dT_bb_3 d H T U a b i j + 1 / 4 * (i_bb_vvoo H a b i j).
(** ccpy/hbar/hbar_ccs.py, get_pre_ccs_intermediates, lines 108-111 *)
Definition rcc2_X_a_ov (d : dims) (H : ints) (T U : amps) : mat2 := fun m e =>
  i_a_ov H m e + (sumn (noa d) (fun n => sumn (nua d) (fun f => (i_aa_oovv H m n e f) * (x_a T f n))) + sumn (noa d) (fun n => sumn (nua d) (fun f => (i_ab_oovv H m n e f) * (x_b T f n)))).
(** ccpy/hbar/hbar_ccs.py, get_pre_ccs_intermediates, lines 119-124 *)
Definition rcc2_X_a_vv (d : dims) (H : ints) (T U : amps) : mat2 := fun a e =>
  i_a_vv H a e + (sumn (noa d) (fun n => sumn (nua d) (fun f => (i_aa_vovv H a n e f) * (x_a T f n))) + sumn (noa d) (fun n => sumn (nua d) (fun f => (i_ab_vovv H a n e f) * (x_b T f n))) - 1 / 2 * (sumn (noa d) (fun m => sumn (noa d) (fun n => sumn (nua d) (fun f => (i_aa_oovv H m n e f) * (x_aa T a f m n))))) - sumn (noa d) (fun m => sumn (noa d) (fun n => sumn (nua d) (fun f => (i_ab_oovv H m n e f) * (x_ab T a f m n))))).
(** ccpy/hbar/hbar_ccs.py, get_pre_ccs_intermediates, lines 125-131 *)
Definition rcc2_X_a_oo (d : dims) (H : ints) (T U : amps) : mat2 := fun m i =>
  i_a_oo H m i + (sumn (noa d) (fun n => sumn (nua d) (fun f => (i_aa_ooov H m n i f) * (x_a T f n))) + sumn (noa d) (fun n => sumn (nua d) (fun f => (i_ab_ooov H m n i f) * (x_b T f n))) + sumn (nua d) (fun e => (rcc2_X_a_ov d H T U m e) * (x_a T e i)) + 1 / 2 * (sumn (noa d) (fun n => sumn (nua d) (fun e => sumn (nua d) (fun f => (i_aa_oovv H m n e f) * (x_aa T e f i n))))) + sumn (noa d) (fun n => sumn (nua d) (fun e => sumn (nua d) (fun f => (i_ab_oovv H m n e f) * (x_ab T e f i n))))).
(** ccpy/cc/cc2.py, update_t1a, line 46 *)
Definition rcc2_dT_a (d : dims) (H : ints) (T U : amps) : mat2 := fun a i =>
  (- (sumn (noa d) (fun m => (rcc2_X_a_oo d H T U m i) * (x_a T a m)))).
(** ccpy/cc/cc2.py, update_t1a, line 47 *)
Definition rcc2_dT_a_1 (d : dims) (H : ints) (T U : amps) : mat2 := fun a i =>
  rcc2_dT_a d H T U a i + sumn (nua d) (fun e => (rcc2_X_a_vv d H T U a e) * (x_a T e i)).
(** ccpy/cc/cc2.py, update_t1a, line 48 *)
Definition rcc2_dT_a_2 (d : dims) (H : ints) (T U : amps) : mat2 := fun a i =>
  rcc2_dT_a_1 d H T U a i + sumn (noa d) (fun m => sumn (nua d) (fun e => (rcc2_X_a_ov d H T U m e) * (x_aa T a e i m))).
(** ccpy/cc/cc2.py, update_t1a, line 49 *)
Definition rcc2_dT_a_3 (d : dims) (H : ints) (T U : amps) : mat2 := fun a i =>
  rcc2_dT_a_2 d H T U a i + sumn (noa d) (fun m => sumn (nua d) (fun e => (rcc2_X_a_ov d H T U m e) * (x_ab T a e i m))).
(** ccpy/cc/cc2.py, update_t1a, line 50 *)
Definition rcc2_dT_a_4 (d : dims) (H : ints) (T U : amps) : mat2 := fun a i =>
  rcc2_dT_a_3 d H T U a i + sumn (noa d) (fun n => sumn (nua d) (fun f => (i_aa_voov H a n i f) * (x_a T f n))).
(** ccpy/cc/cc2.py, update_t1a, line 51 *)
Definition rcc2_dT_a_5 (d : dims) (H : ints) (T U : amps) : mat2 := fun a i =>
  rcc2_dT_a_4 d H T U a i + sumn (noa d) (fun n => sumn (nua d) (fun f => (i_ab_voov H a n i f) * (x_b T f n))).
(** ccpy/cc/cc2.py, update_t1a, line 52 *)
Definition rcc2_dT_a_6 (d : dims) (H : ints) (T U : amps) : mat2 := fun a i =>
  rcc2_dT_a_5 d H T U a i - 1 / 2 * (sumn (noa d) (fun m => sumn (noa d) (fun n => sumn (nua d) (fun f => (i_aa_ooov H m n i f) * (x_aa T a f m n))))).
(** ccpy/cc/cc2.py, update_t1a, line 53 *)
Definition rcc2_dT_a_7 (d : dims) (H : ints) (T U : amps) : mat2 := fun a i =>
  rcc2_dT_a_6 d H T U a i - sumn (noa d) (fun m => sumn (noa d) (fun n => sumn (nua d) (fun f => (i_ab_ooov H m n i f) * (x_ab T a f m n)))).
(** ccpy/cc/cc2.py, update_t1a, line 54 *)
Definition rcc2_dT_a_8 (d : dims) (H : ints) (T U : amps) : mat2 := fun a i =>
  rcc2_dT_a_7 d H T U a i + 1 / 2 * (sumn (noa d) (fun n => sumn (nua d) (fun e => sumn (nua d) (fun f => (i_aa_vovv H a n e f) * (x_aa T e f i n))))).
(** ccpy/cc/cc2.py, update_t1a, line 55 *)
Definition rcc2_dT_a_9 (d : dims) (H : ints) (T U : amps) : mat2 := fun a i =>
  rcc2_dT_a_8 d H T U a i + sumn (noa d) (fun n => sumn (nua d) (fun e => sumn (nua d) (fun f => (i_ab_vovv H a n e f) * (x_ab T e f i n)))).
(** ccpy/cc/cc2.py, update_t1a, lines 56-58 *)
Definition rcc2_res_a (d : dims) (H : ints) (T U : amps) : mat2 := fun a i =>
  rcc2_dT_a_9 d H T U a i + i_a_vo H a i.
(** ccpy/cc/cc2.py, update, line 18 *)
Definition rcc2_T_b (d : dims) (H : ints) (T U : amps) : mat2 := fun a i =>
  x_a U a i.
(** ccpy/cc/cc2.py, update, line 19 *)
Definition rcc2_dT_b (d : dims) (H : ints) (T U : amps) : mat2 := fun a i =>
  rcc2_res_a d H T U a i.
(** ccpy/hbar/hbar_ccs.py, get_ccs_intermediates_opt, line 9 *)
Definition rcc2_X_a_vv_1 (d : dims) (H : ints) (T U : amps) : mat2 := fun a e =>
  rcc2_X_a_vv d H T U a e - sumn (noa d) (fun m => (rcc2_X_a_ov d H T U m e) * (x_a U a m)).
(** ccpy/hbar/hbar_ccs.py, get_ccs_intermediates_opt, line 16 *)
Definition rcc2_X_aa_ooov (d : dims) (H : ints) (T U : amps) : mat4 := fun m n i e =>
  sumn (nua d) (fun f => (i_aa_oovv H m n f e) * (x_a U f i)).
(** ccpy/hbar/hbar_ccs.py, get_ccs_intermediates_opt, line 17 *)
Definition rcc2_X_aa_vovv (d : dims) (H : ints) (T U : amps) : mat4 := fun a m e f =>
  (- (sumn (noa d) (fun n => (i_aa_oovv H m n f e) * (x_a U a n)))).
(** ccpy/hbar/hbar_ccs.py, get_ccs_intermediates_opt, line 18 *)
Definition rcc2_X_aa_oooo (d : dims) (H : ints) (T U : amps) : mat4 := fun m n i j =>
  1 / 2 * (i_aa_oooo H m n i j) + sumn (nua d) (fun e => (i_aa_ooov H n m j e + 1 / 2 * (rcc2_X_aa_ooov d H T U n m j e)) * (x_a U e i)).
(** ccpy/hbar/hbar_ccs.py, get_ccs_intermediates_opt, line 19 *)
Definition rcc2_X_aa_oooo_1 (d : dims) (H : ints) (T U : amps) : mat4 := fun m n i j =>
  rcc2_X_aa_oooo d H T U m n i j - rcc2_X_aa_oooo d H T U m n j i.
(** ccpy/hbar/hbar_ccs.py, get_ccs_intermediates_opt, lines 20-23 *)
Definition rcc2_X_aa_voov (d : dims) (H : ints) (T U : amps) : mat4 := fun a m i e =>
  i_aa_voov H a m i e + (sumn (nua d) (fun f => (i_aa_vovv H a m f e + 1 / 2 * (rcc2_X_aa_vovv d H T U a m f e)) * (x_a U f i)) - sumn (noa d) (fun n => (i_aa_ooov H n m i e + 1 / 2 * (rcc2_X_aa_ooov d H T U n m i e)) * (x_a U a n))).
(** ccpy/hbar/hbar_ccs.py, get_ccs_intermediates_opt, line 24 *)
Definition rcc2_L_amie (d : dims) (H : ints) (T U : amps) : mat4 := fun a m i f =>
  i_aa_voov H a m i f + 1 / 2 * (sumn (nua d) (fun e => (i_aa_vovv H a m e f) * (x_a U e i))).
(** ccpy/hbar/hbar_ccs.py, get_ccs_intermediates_opt, line 25 *)
Definition rcc2_X_mnij (d : dims) (H : ints) (T U : amps) : mat4 := fun m n i j =>
  i_aa_oooo H m n i j + sumn (nua d) (fun e => (rcc2_X_aa_ooov d H T U m n i e) * (x_a U e j)).
(** ccpy/hbar/hbar_ccs.py, get_ccs_intermediates_opt, lines 26-29 *)
Definition rcc2_X_aa_vooo (d : dims) (H : ints) (T U : amps) : mat4 := fun a m i j =>
  1 / 2 * (i_aa_vooo H a m i j) + (sumn (nua d) (fun e => (rcc2_L_amie d H T U a m i e) * (x_a U e j)) - 1 / 4 * (sumn (noa d) (fun m' => (rcc2_X_mnij d H T U m' m i j) * (x_a U a m')))).
(** ccpy/hbar/hbar_ccs.py, get_ccs_intermediates_opt, line 30 *)
Definition rcc2_X_aa_vooo_1 (d : dims) (H : ints) (T U : amps) : mat4 := fun a m i j =>
  rcc2_X_aa_vooo d H T U a m i j - rcc2_X_aa_vooo d H T U a m j i.
(** ccpy/hbar/hbar_ccs.py, get_ccs_intermediates_opt, line 31 *)
Definition rcc2_L_amie_1 (d : dims) (H : ints) (T U : amps) : mat4 := fun a n i e =>
  sumn (noa d) (fun m => (i_aa_ooov H m n i e) * (x_a U a m)).
(** ccpy/hbar/hbar_ccs.py, get_ccs_intermediates_opt, line 32 *)
Definition rcc2_X_aa_vvov (d : dims) (H : ints) (T U : amps) : mat4 := fun a b i e =>
  i_aa_vvov H a b i e + sumn (noa d) (fun n => (rcc2_L_amie_1 d H T U a n i e) * (x_a U b n)).
(** ccpy/hbar/hbar_ccs.py, get_ccs_intermediates_opt, line 67 *)
Definition rcc2_X_ab_ooov (d : dims) (H : ints) (T U : amps) : mat4 := fun m n i e =>
  sumn (nua d) (fun f => (i_ab_oovv H m n f e) * (x_a U f i)).
(** ccpy/hbar/hbar_ccs.py, get_ccs_intermediates_opt, line 68 *)
Definition rcc2_X_ab_oovo (d : dims) (H : ints) (T U : amps) : mat4 := fun n m e i =>
  sumn (nua d) (fun f => (i_ab_oovv H n m e f) * (rcc2_T_b d H T U f i)).
(** ccpy/hbar/hbar_ccs.py, get_ccs_intermediates_opt, lines 69-72 *)
Definition rcc2_X_ab_oooo (d : dims) (H : ints) (T U : amps) : mat4 := fun m n i j =>
  i_ab_oooo H m n i j + (sumn (nua d) (fun e => (i_ab_oovo H m n e j + 1 / 2 * (rcc2_X_ab_oovo d H T U m n e j)) * (x_a U e i)) + sumn (nua d) (fun e => (i_ab_ooov H m n i e + 1 / 2 * (rcc2_X_ab_ooov d H T U m n i e)) * (rcc2_T_b d H T U e j))).
(** ccpy/hbar/hbar_ccs.py, get_ccs_intermediates_opt, line 73 *)
Definition rcc2_X_ab_vovv (d : dims) (H : ints) (T U : amps) : mat4 := fun a m e f =>
  (- (sumn (noa d) (fun n => (i_ab_oovv H n m e f) * (x_a U a n)))).
(** ccpy/hbar/hbar_ccs.py, get_ccs_intermediates_opt, line 74 *)
Definition rcc2_X_ab_ovvv (d : dims) (H : ints) (T U : amps) : mat4 := fun m a e f =>
  (- (sumn (noa d) (fun n => (i_ab_oovv H m n e f) * (rcc2_T_b d H T U a n)))).
(** ccpy/hbar/hbar_ccs.py, get_ccs_intermediates_opt, lines 75-78 *)
Definition rcc2_X_ab_voov (d : dims) (H : ints) (T U : amps) : mat4 := fun a m i e =>
  i_ab_voov H a m i e + (sumn (nua d) (fun f => (i_ab_vovv H a m f e + 1 / 2 * (rcc2_X_ab_vovv d H T U a m f e)) * (x_a U f i)) - sumn (noa d) (fun n => (i_ab_ooov H n m i e + 1 / 2 * (rcc2_X_ab_ooov d H T U n m i e)) * (x_a U a n))).
(** ccpy/hbar/hbar_ccs.py, get_ccs_intermediates_opt, lines 79-82 *)
Definition rcc2_X_ab_ovvo (d : dims) (H : ints) (T U : amps) : mat4 := fun m a e i =>
  i_ab_ovvo H m a e i + (sumn (nua d) (fun f => (i_ab_ovvv H m a e f + 1 / 2 * (rcc2_X_ab_ovvv d H T U m a e f)) * (rcc2_T_b d H T U f i)) - sumn (noa d) (fun n => (i_ab_oovo H m n e i + 1 / 2 * (rcc2_X_ab_oovo d H T U m n e i)) * (rcc2_T_b d H T U a n))).
(** ccpy/hbar/hbar_ccs.py, get_ccs_intermediates_opt, lines 83-86 *)
Definition rcc2_X_ab_ovov (d : dims) (H : ints) (T U : amps) : mat4 := fun m a i e =>
  i_ab_ovov H m a i e + (sumn (nua d) (fun f => (i_ab_ovvv H m a f e + 1 / 2 * (rcc2_X_ab_ovvv d H T U m a f e)) * (x_a U f i)) - sumn (noa d) (fun n => (i_ab_ooov H m n i e + 1 / 2 * (rcc2_X_ab_ooov d H T U m n i e)) * (rcc2_T_b d H T U a n))).
(** ccpy/hbar/hbar_ccs.py, get_ccs_intermediates_opt, lines 87-90 *)
Definition rcc2_X_ab_vovo (d : dims) (H : ints) (T U : amps) : mat4 := fun a m e i =>
  i_ab_vovo H a m e i - (sumn (noa d) (fun n => (i_ab_oovo H n m e i + 1 / 2 * (rcc2_X_ab_oovo d H T U n m e i)) * (x_a U a n)) - sumn (nua d) (fun f => (i_ab_vovv H a m e f + 1 / 2 * (rcc2_X_ab_vovv d H T U a m e f)) * (rcc2_T_b d H T U f i))).
(** ccpy/hbar/hbar_ccs.py, get_ccs_intermediates_opt, lines 91-94 *)
Definition rcc2_X_mnij_1 (d : dims) (H : ints) (T U : amps) : mat4 := fun m n i j =>
  i_ab_oooo H m n i j + (sumn (nua d) (fun f => (i_ab_ooov H m n i f) * (rcc2_T_b d H T U f j)) + sumn (nua d) (fun e => (i_ab_oovo H m n e j) * (x_a U e i))).
(** ccpy/hbar/hbar_ccs.py, get_ccs_intermediates_opt, line 95 *)
Definition rcc2_L_mbej (d : dims) (H : ints) (T U : amps) : mat4 := fun m b e j =>
  i_ab_ovvo H m b e j + sumn (nua d) (fun f => (i_ab_ovvv H m b e f) * (rcc2_T_b d H T U f j)).
(** ccpy/hbar/hbar_ccs.py, get_ccs_intermediates_opt, lines 96-99 *)
Definition rcc2_X_ab_ovoo (d : dims) (H : ints) (T U : amps) : mat4 := fun m b i j =>
  i_ab_ovoo H m b i j + (sumn (nua d) (fun e => (rcc2_L_mbej d H T U m b e j) * (x_a U e i)) - sumn (noa d) (fun n => (rcc2_X_mnij_1 d H T U m n i j) * (rcc2_T_b d H T U b n))).
(** ccpy/hbar/hbar_ccs.py, get_ccs_intermediates_opt, line 100 *)
Definition rcc2_L_amie_2 (d : dims) (H : ints) (T U : amps) : mat4 := fun a m i f =>
  sumn (nua d) (fun e => (i_ab_vovv H a m e f + rcc2_X_ab_vovv d H T U a m e f) * (x_a U e i)).
(** ccpy/hbar/hbar_ccs.py, get_ccs_intermediates_opt, line 101 *)
Definition rcc2_X_ab_vooo (d : dims) (H : ints) (T U : amps) : mat4 := fun a m i j =>
  i_ab_vooo H a m i j + sumn (nua d) (fun f => (i_ab_voov H a m i f + rcc2_L_amie_2 d H T U a m i f) * (rcc2_T_b d H T U f j)).
(** ccpy/hbar/hbar_ccs.py, get_ccs_intermediates_opt, line 102 *)
Definition rcc2_X_ab_vvvo (d : dims) (H : ints) (T U : amps) : mat4 := fun a b e j =>
  i_ab_vvvo H a b e j - sumn (noa d) (fun n => (i_ab_vovo H a n e j) * (rcc2_T_b d H T U b n)).
(** ccpy/hbar/hbar_ccs.py, get_ccs_intermediates_opt, line 103 *)
Definition rcc2_X_ab_vvov (d : dims) (H : ints) (T U : amps) : mat4 := fun a b i e =>
  i_ab_vvov H a b i e - sumn (noa d) (fun m => (i_ab_ovov H m b i e) * (x_a U a m)).
(** ccpy/cc/cc2.py, update, line 27 *)
Definition rcc2_X_aa_vvov_1 (d : dims) (H : ints) (T U : amps) : mat4 := fun a b i e =>
  rcc2_X_aa_vvov d H T U a b i e + 1 / 2 * (sumn (nua d) (fun e' => (i_aa_vvvv H a b e' e) * (x_a U e' i))).
(** ccpy/cc/cc2.py, update, line 28 *)
Definition rcc2_X_ab_vvov_1 (d : dims) (H : ints) (T U : amps) : mat4 := fun a b i e =>
  rcc2_X_ab_vvov d H T U a b i e + sumn (nua d) (fun e' => (i_ab_vvvv H a b e' e) * (x_a U e' i)).
(** ccpy/cc/cc2.py, update, line 29 *)
Definition rcc2_X_bb_vvov (d : dims) (H : ints) (T U : amps) : mat4 := fun a b i e =>
  rcc2_X_aa_vvov_1 d H T U a b i e + 1 / 2 * (sumn (nua d) (fun e' => (i_bb_vvvv H a b e' e) * (rcc2_T_b d H T U e' i))).
(** ccpy/cc/cc2.py, update_t2a, line 84 *)
Definition rcc2_dT_aa (d : dims) (H : ints) (T U : amps) : mat4 := fun a b i j =>
  (-1) / 2 * (sumn (noa d) (fun m => (rcc2_X_aa_vooo_1 d H T U a m i j) * (x_a U b m))).
(** ccpy/cc/cc2.py, update_t2a, line 85 *)
Definition rcc2_dT_aa_1 (d : dims) (H : ints) (T U : amps) : mat4 := fun a b i j =>
  rcc2_dT_aa d H T U a b i j + 1 / 2 * (sumn (nua d) (fun e => (rcc2_X_bb_vvov d H T U a b i e) * (x_a U e j))).
(** ccpy/cc/cc2.py, update_t2a, line 87 *)
Definition rcc2_dT_aa_2 (d : dims) (H : ints) (T U : amps) : mat4 := fun a b i j =>
  rcc2_dT_aa_1 d H T U a b i j - 1 / 2 * (sumn (noa d) (fun m => (i_a_oo H m i) * (x_aa T a b m j))).
(** ccpy/cc/cc2.py, update_t2a, line 88 *)
Definition rcc2_dT_aa_3 (d : dims) (H : ints) (T U : amps) : mat4 := fun a b i j =>
  rcc2_dT_aa_2 d H T U a b i j + 1 / 2 * (sumn (nua d) (fun e => (i_a_vv H a e) * (x_aa T e b i j))).
(** ccpy/cc/cc2.py, update_t2a, lines 89-91 *)
Definition rcc2_res_aa (d : dims) (H : ints) (T U : amps) : mat4 := fun a b i j =>
  rcc2_dT_aa_3 d H T U a b i j + 1 / 4 * (i_aa_vvoo H a b i j).
(** ccpy/cc/cc2.py, update_t2b, line 98 *)
Definition rcc2_dT_ab (d : dims) (H : ints) (T U : amps) : mat4 := fun a b i j =>
  (- (sumn (noa d) (fun m => (rcc2_X_ab_ovoo d H T U m b i j) * (x_a U a m)))).
(** ccpy/cc/cc2.py, update_t2b, line 99 *)
Definition rcc2_dT_ab_1 (d : dims) (H : ints) (T U : amps) : mat4 := fun a b i j =>
  rcc2_dT_ab d H T U a b i j - sumn (noa d) (fun m => (rcc2_X_ab_vooo d H T U a m i j) * (rcc2_T_b d H T U b m)).
(** ccpy/cc/cc2.py, update_t2b, line 100 *)
Definition rcc2_dT_ab_2 (d : dims) (H : ints) (T U : amps) : mat4 := fun a b i j =>
  rcc2_dT_ab_1 d H T U a b i j + sumn (nua d) (fun e => (rcc2_X_ab_vvvo d H T U a b e j) * (x_a U e i)).
(** ccpy/cc/cc2.py, update_t2b, line 101 *)
Definition rcc2_dT_ab_3 (d : dims) (H : ints) (T U : amps) : mat4 := fun a b i j =>
  rcc2_dT_ab_2 d H T U a b i j + sumn (nua d) (fun e => (rcc2_X_ab_vvov_1 d H T U a b i e) * (rcc2_T_b d H T U e j)).
(** ccpy/cc/cc2.py, update_t2b, line 103 *)
Definition rcc2_dT_ab_4 (d : dims) (H : ints) (T U : amps) : mat4 := fun a b i j =>
  rcc2_dT_ab_3 d H T U a b i j - sumn (noa d) (fun m => (i_a_oo H m i) * (x_ab T a b m j)).
(** ccpy/cc/cc2.py, update_t2b, line 104 *)
Definition rcc2_dT_ab_5 (d : dims) (H : ints) (T U : amps) : mat4 := fun a b i j =>
  rcc2_dT_ab_4 d H T U a b i j - sumn (noa d) (fun m => (i_b_oo H m j) * (x_ab T a b i m)).
(** ccpy/cc/cc2.py, update_t2b, line 105 *)
Definition rcc2_dT_ab_6 (d : dims) (H : ints) (T U : amps) : mat4 := fun a b i j =>
  rcc2_dT_ab_5 d H T U a b i j + sumn (nua d) (fun e => (i_a_vv H a e) * (x_ab T e b i j)).
(** ccpy/cc/cc2.py, update_t2b, line 106 *)
Definition rcc2_dT_ab_7 (d : dims) (H : ints) (T U : amps) : mat4 := fun a b i j =>
  rcc2_dT_ab_6 d H T U a b i j + sumn (nua d) (fun e => (i_b_vv H b e) * (x_ab T a e i j)).
(** ccpy/cc/cc2.py, update_t2b, lines 107-109 *)
Definition rcc2_res_ab (d : dims) (H : ints) (T U : amps) : mat4 := fun a b i j =>
  rcc2_dT_ab_7 d H T U a b i j + i_ab_vvoo H a b i j.
(** ccpy/cc/cc2.py, update, line 35 *)
Definition rcc2_T_bb (d : dims) (H : ints) (T U : amps) : mat4 := fun a b i j =>
  x_aa U a b i j.
(** ccpy/cc/cc2.py, update, line 36 *)
Definition rcc2_dT_bb (d : dims) (H : ints) (T U : amps) : mat4 := fun a b i j =>
  rcc2_res_aa d H T U a b i j.
(** ccpy/hbar/hbar_cc2.py, build_hbar_cc2, lines 12-15 *)
Definition hb2_H_a_ov (d : dims) (H : ints) (T : amps) : mat2 := fun i a =>
  i_a_ov H i a + (sumn (noa d) (fun m => sumn (nua d) (fun e => (i_aa_oovv H i m a e) * (x_a T e m))) + sumn (nob d) (fun m => sumn (nub d) (fun e => (i_ab_oovv H i m a e) * (x_b T e m)))).
(** ccpy/hbar/hbar_cc2.py, build_hbar_cc2, lines 17-23 *)
Definition hb2_H_a_oo (d : dims) (H : ints) (T : amps) : mat2 := fun i j =>
  i_a_oo H i j + (sumn (nua d) (fun e => (hb2_H_a_ov d H T i e) * (x_a T e j)) + sumn (noa d) (fun m => sumn (nua d) (fun e => (i_aa_ooov H i m j e) * (x_a T e m))) + sumn (nob d) (fun m => sumn (nub d) (fun e => (i_ab_ooov H i m j e) * (x_b T e m))) + 1 / 2 * (sumn (noa d) (fun n => sumn (nua d) (fun e => sumn (nua d) (fun f => (i_aa_oovv H i n e f) * (x_aa T e f j n))))) + sumn (nob d) (fun n => sumn (nua d) (fun e => sumn (nub d) (fun f => (i_ab_oovv H i n e f) * (x_ab T e f j n))))).
(** ccpy/hbar/hbar_cc2.py, build_hbar_cc2, lines 25-31 *)
Definition hb2_H_a_vv (d : dims) (H : ints) (T : amps) : mat2 := fun a b =>
  i_a_vv H a b + ((- (sumn (noa d) (fun m => (hb2_H_a_ov d H T m b) * (x_a T a m)))) + sumn (noa d) (fun m => sumn (nua d) (fun e => (i_aa_vovv H a m b e) * (x_a T e m))) + sumn (nob d) (fun m => sumn (nub d) (fun e => (i_ab_vovv H a m b e) * (x_b T e m))) - 1 / 2 * (sumn (noa d) (fun m => sumn (noa d) (fun n => sumn (nua d) (fun f => (i_aa_oovv H m n b f) * (x_aa T a f m n))))) - sumn (noa d) (fun m => sumn (nob d) (fun n => sumn (nub d) (fun f => (i_ab_oovv H m n b f) * (x_ab T a f m n))))).
(** ccpy/hbar/hbar_cc2.py, build_hbar_cc2, lines 33-36 *)
Definition hb2_H_b_ov (d : dims) (H : ints) (T : amps) : mat2 := fun i a =>
  i_b_ov H i a + (sumn (nob d) (fun m => sumn (nub d) (fun e => (i_bb_oovv H i m a e) * (x_b T e m))) + sumn (noa d) (fun m => sumn (nua d) (fun e => (i_ab_oovv H m i e a) * (x_a T e m)))).
(** ccpy/hbar/hbar_cc2.py, build_hbar_cc2, lines 38-44 *)
Definition hb2_H_b_oo (d : dims) (H : ints) (T : amps) : mat2 := fun i j =>
  i_b_oo H i j + (sumn (nub d) (fun e => (hb2_H_b_ov d H T i e) * (x_b T e j)) + sumn (nob d) (fun m => sumn (nub d) (fun e => (i_bb_ooov H i m j e) * (x_b T e m))) + sumn (noa d) (fun m => sumn (nua d) (fun e => (i_ab_oovo H m i e j) * (x_a T e m))) + 1 / 2 * (sumn (nob d) (fun n => sumn (nub d) (fun e => sumn (nub d) (fun f => (i_bb_oovv H i n e f) * (x_bb T e f j n))))) + sumn (noa d) (fun n => sumn (nua d) (fun f => sumn (nub d) (fun e => (i_ab_oovv H n i f e) * (x_ab T f e n j))))).
(** ccpy/hbar/hbar_cc2.py, build_hbar_cc2, lines 46-52 *)
Definition hb2_H_b_vv (d : dims) (H : ints) (T : amps) : mat2 := fun a b =>
  i_b_vv H a b + ((- (sumn (nob d) (fun m => (hb2_H_b_ov d H T m b) * (x_b T a m)))) + sumn (nob d) (fun m => sumn (nub d) (fun e => (i_bb_vovv H a m b e) * (x_b T e m))) + sumn (noa d) (fun m => sumn (nua d) (fun e => (i_ab_ovvv H m a e b) * (x_a T e m))) - 1 / 2 * (sumn (nob d) (fun m => sumn (nob d) (fun n => sumn (nub d) (fun f => (i_bb_oovv H m n b f) * (x_bb T a f m n))))) - sumn (noa d) (fun n => sumn (nob d) (fun m => sumn (nua d) (fun f => (i_ab_oovv H n m f b) * (x_ab T f a n m))))).
(** ccpy/hbar/hbar_cc2.py, build_hbar_cc2, line 54 *)
Definition hb2_Q1 (d : dims) (H : ints) (T : amps) : mat4 := fun a m e f =>
  (- (sumn (noa d) (fun n => (i_aa_oovv H m n f e) * (x_a T a n)))).
(** ccpy/hbar/hbar_cc2.py, build_hbar_cc2, line 55 *)
Definition hb2_I2A_vovv (d : dims) (H : ints) (T : amps) : mat4 := fun a m e f =>
  i_aa_vovv H a m e f + 1 / 2 * (hb2_Q1 d H T a m e f).
(** ccpy/hbar/hbar_cc2.py, build_hbar_cc2, line 56 *)
Definition hb2_H_aa_vovv (d : dims) (H : ints) (T : amps) : mat4 := fun a m e f =>
  hb2_I2A_vovv d H T a m e f + 1 / 2 * (hb2_Q1 d H T a m e f).
(** ccpy/hbar/hbar_cc2.py, build_hbar_cc2, line 58 *)
Definition hb2_Q1_1 (d : dims) (H : ints) (T : amps) : mat4 := fun m n i e =>
  sumn (nua d) (fun f => (i_aa_oovv H m n f e) * (x_a T f i)).
(** ccpy/hbar/hbar_cc2.py, build_hbar_cc2, line 59 *)
Definition hb2_I2A_ooov (d : dims) (H : ints) (T : amps) : mat4 := fun m n i e =>
  i_aa_ooov H m n i e + 1 / 2 * (hb2_Q1_1 d H T m n i e).
(** ccpy/hbar/hbar_cc2.py, build_hbar_cc2, line 60 *)
Definition hb2_H_aa_ooov (d : dims) (H : ints) (T : amps) : mat4 := fun m n i e =>
  hb2_I2A_ooov d H T m n i e + 1 / 2 * (hb2_Q1_1 d H T m n i e).
(** ccpy/hbar/hbar_cc2.py, build_hbar_cc2, line 62 *)
Definition hb2_Q1_2 (d : dims) (H : ints) (T : amps) : mat4 := fun a m e f =>
  (- (sumn (noa d) (fun n => (i_ab_oovv H n m e f) * (x_a T a n)))).
(** ccpy/hbar/hbar_cc2.py, build_hbar_cc2, line 63 *)
Definition hb2_I2B_vovv (d : dims) (H : ints) (T : amps) : mat4 := fun a m e f =>
  i_ab_vovv H a m e f + 1 / 2 * (hb2_Q1_2 d H T a m e f).
(** ccpy/hbar/hbar_cc2.py, build_hbar_cc2, line 64 *)
Definition hb2_H_ab_vovv (d : dims) (H : ints) (T : amps) : mat4 := fun a m e f =>
  hb2_I2B_vovv d H T a m e f + 1 / 2 * (hb2_Q1_2 d H T a m e f).
(** ccpy/hbar/hbar_cc2.py, build_hbar_cc2, line 66 *)
Definition hb2_Q1_3 (d : dims) (H : ints) (T : amps) : mat4 := fun m n i e =>
  sumn (nua d) (fun f => (i_ab_oovv H m n f e) * (x_a T f i)).
(** ccpy/hbar/hbar_cc2.py, build_hbar_cc2, line 67 *)
Definition hb2_I2B_ooov (d : dims) (H : ints) (T : amps) : mat4 := fun m n i e =>
  i_ab_ooov H m n i e + 1 / 2 * (hb2_Q1_3 d H T m n i e).
(** ccpy/hbar/hbar_cc2.py, build_hbar_cc2, line 68 *)
Definition hb2_H_ab_ooov (d : dims) (H : ints) (T : amps) : mat4 := fun m n i e =>
  hb2_I2B_ooov d H T m n i e + 1 / 2 * (hb2_Q1_3 d H T m n i e).
(** ccpy/hbar/hbar_cc2.py, build_hbar_cc2, line 70 *)
Definition hb2_Q1_4 (d : dims) (H : ints) (T : amps) : mat4 := fun m a e f =>
  (- (sumn (nob d) (fun n => (i_ab_oovv H m n e f) * (x_b T a n)))).
(** ccpy/hbar/hbar_cc2.py, build_hbar_cc2, line 71 *)
Definition hb2_I2B_ovvv (d : dims) (H : ints) (T : amps) : mat4 := fun m a e f =>
  i_ab_ovvv H m a e f + 1 / 2 * (hb2_Q1_4 d H T m a e f).
(** ccpy/hbar/hbar_cc2.py, build_hbar_cc2, line 72 *)
Definition hb2_H_ab_ovvv (d : dims) (H : ints) (T : amps) : mat4 := fun m a e f =>
  hb2_I2B_ovvv d H T m a e f + 1 / 2 * (hb2_Q1_4 d H T m a e f).
(** ccpy/hbar/hbar_cc2.py, build_hbar_cc2, line 74 *)
Definition hb2_Q1_5 (d : dims) (H : ints) (T : amps) : mat4 := fun n m e i =>
  sumn (nub d) (fun f => (i_ab_oovv H n m e f) * (x_b T f i)).
(** ccpy/hbar/hbar_cc2.py, build_hbar_cc2, line 75 *)
Definition hb2_I2B_oovo (d : dims) (H : ints) (T : amps) : mat4 := fun n m e i =>
  i_ab_oovo H n m e i + 1 / 2 * (hb2_Q1_5 d H T n m e i).
(** ccpy/hbar/hbar_cc2.py, build_hbar_cc2, line 76 *)
Definition hb2_H_ab_oovo (d : dims) (H : ints) (T : amps) : mat4 := fun n m e i =>
  hb2_I2B_oovo d H T n m e i + 1 / 2 * (hb2_Q1_5 d H T n m e i).
(** ccpy/hbar/hbar_cc2.py, build_hbar_cc2, line 78 *)
Definition hb2_Q1_6 (d : dims) (H : ints) (T : amps) : mat4 := fun a m e f =>
  (- (sumn (nob d) (fun n => (i_bb_oovv H n m e f) * (x_b T a n)))).
(** ccpy/hbar/hbar_cc2.py, build_hbar_cc2, line 79 *)
Definition hb2_I2C_vovv (d : dims) (H : ints) (T : amps) : mat4 := fun a m e f =>
  i_bb_vovv H a m e f + 1 / 2 * (hb2_Q1_6 d H T a m e f).
(** ccpy/hbar/hbar_cc2.py, build_hbar_cc2, line 80 *)
Definition hb2_H_bb_vovv (d : dims) (H : ints) (T : amps) : mat4 := fun a m e f =>
  hb2_I2C_vovv d H T a m e f + 1 / 2 * (hb2_Q1_6 d H T a m e f).
(** ccpy/hbar/hbar_cc2.py, build_hbar_cc2, line 82 *)
Definition hb2_Q1_7 (d : dims) (H : ints) (T : amps) : mat4 := fun m n i e =>
  sumn (nub d) (fun f => (i_bb_oovv H m n f e) * (x_b T f i)).
(** ccpy/hbar/hbar_cc2.py, build_hbar_cc2, line 83 *)
Definition hb2_I2C_ooov (d : dims) (H : ints) (T : amps) : mat4 := fun m n i e =>
  i_bb_ooov H m n i e + 1 / 2 * (hb2_Q1_7 d H T m n i e).
(** ccpy/hbar/hbar_cc2.py, build_hbar_cc2, line 84 *)
Definition hb2_H_bb_ooov (d : dims) (H : ints) (T : amps) : mat4 := fun m n i e =>
  hb2_I2C_ooov d H T m n i e + 1 / 2 * (hb2_Q1_7 d H T m n i e).
(** ccpy/hbar/hbar_cc2.py, build_hbar_cc2, line 86 *)
Definition hb2_Q1_8 (d : dims) (H : ints) (T : amps) : mat4 := fun a b e f =>
  (- (sumn (noa d) (fun m => (hb2_I2A_vovv d H T b m f e) * (x_a T a m)))).
(** ccpy/hbar/hbar_cc2.py, build_hbar_cc2, line 87 *)
Definition hb2_Q1_9 (d : dims) (H : ints) (T : amps) : mat4 := fun a b e f =>
  hb2_Q1_8 d H T a b e f - hb2_Q1_8 d H T b a e f.
(** ccpy/hbar/hbar_cc2.py, build_hbar_cc2, line 88 *)
Definition hb2_H_aa_vvvv (d : dims) (H : ints) (T : amps) : mat4 := fun a b c dd =>
  i_aa_vvvv H a b c dd + hb2_Q1_9 d H T a b c dd.
(** ccpy/hbar/hbar_cc2.py, build_hbar_cc2, lines 90-93 *)
Definition hb2_H_ab_vvvv (d : dims) (H : ints) (T : amps) : mat4 := fun a b c dd =>
  i_ab_vvvv H a b c dd + ((- (sumn (noa d) (fun m => (hb2_I2B_ovvv d H T m b c dd) * (x_a T a m)))) - sumn (nob d) (fun m => (hb2_I2B_vovv d H T a m c dd) * (x_b T b m))).
(** ccpy/hbar/hbar_cc2.py, build_hbar_cc2, line 95 *)
Definition hb2_Q1_10 (d : dims) (H : ints) (T : amps) : mat4 := fun a b e f =>
  (- (sumn (nob d) (fun m => (hb2_I2C_vovv d H T b m f e) * (x_b T a m)))).
(** ccpy/hbar/hbar_cc2.py, build_hbar_cc2, line 96 *)
Definition hb2_Q1_11 (d : dims) (H : ints) (T : amps) : mat4 := fun a b e f =>
  hb2_Q1_10 d H T a b e f - hb2_Q1_10 d H T b a e f.
(** ccpy/hbar/hbar_cc2.py, build_hbar_cc2, line 97 *)
Definition hb2_H_bb_vvvv (d : dims) (H : ints) (T : amps) : mat4 := fun a b c dd =>
  i_bb_vvvv H a b c dd + hb2_Q1_11 d H T a b c dd.
(** ccpy/hbar/hbar_cc2.py, build_hbar_cc2, line 99 *)
Definition hb2_Q1_12 (d : dims) (H : ints) (T : amps) : mat4 := fun m n i j =>
  sumn (nua d) (fun e => (hb2_I2A_ooov d H T n m j e) * (x_a T e i)).
(** ccpy/hbar/hbar_cc2.py, build_hbar_cc2, line 100 *)
Definition hb2_Q1_13 (d : dims) (H : ints) (T : amps) : mat4 := fun m n i j =>
  hb2_Q1_12 d H T m n i j - hb2_Q1_12 d H T m n j i.
(** ccpy/hbar/hbar_cc2.py, build_hbar_cc2, line 101 *)
Definition hb2_H_aa_oooo (d : dims) (H : ints) (T : amps) : mat4 := fun i j k l =>
  i_aa_oooo H i j k l + hb2_Q1_13 d H T i j k l.
(** ccpy/hbar/hbar_cc2.py, build_hbar_cc2, lines 103-106 *)
Definition hb2_H_ab_oooo (d : dims) (H : ints) (T : amps) : mat4 := fun i j k l =>
  i_ab_oooo H i j k l + (sumn (nua d) (fun e => (hb2_I2B_oovo d H T i j e l) * (x_a T e k)) + sumn (nub d) (fun e => (hb2_I2B_ooov d H T i j k e) * (x_b T e l))).
(** ccpy/hbar/hbar_cc2.py, build_hbar_cc2, line 108 *)
Definition hb2_Q1_14 (d : dims) (H : ints) (T : amps) : mat4 := fun m n i j =>
  sumn (nub d) (fun e => (hb2_I2C_ooov d H T n m j e) * (x_b T e i)).
(** ccpy/hbar/hbar_cc2.py, build_hbar_cc2, line 109 *)
Definition hb2_Q1_15 (d : dims) (H : ints) (T : amps) : mat4 := fun m n i j =>
  hb2_Q1_14 d H T m n i j - hb2_Q1_14 d H T m n j i.
(** ccpy/hbar/hbar_cc2.py, build_hbar_cc2, line 110 *)
Definition hb2_H_bb_oooo (d : dims) (H : ints) (T : amps) : mat4 := fun i j k l =>
  i_bb_oooo H i j k l + hb2_Q1_15 d H T i j k l.
(** ccpy/hbar/hbar_cc2.py, build_hbar_cc2, lines 112-117 *)
Definition hb2_H_aa_voov (d : dims) (H : ints) (T : amps) : mat4 := fun a i j b =>
  i_aa_voov H a i j b + (sumn (nua d) (fun f => (hb2_I2A_vovv d H T a i f b) * (x_a T f j)) - sumn (noa d) (fun n => (hb2_I2A_ooov d H T n i j b) * (x_a T a n)) + sumn (noa d) (fun n => sumn (nua d) (fun f => (i_aa_oovv H n i f b) * (x_aa T a f j n))) + sumn (nob d) (fun n => sumn (nub d) (fun f => (i_ab_oovv H i n b f) * (x_ab T a f j n)))).
(** ccpy/hbar/hbar_cc2.py, build_hbar_cc2, lines 119-124 *)
Definition hb2_H_ab_voov (d : dims) (H : ints) (T : amps) : mat4 := fun a i j b =>
  i_ab_voov H a i j b + (sumn (nua d) (fun f => (hb2_I2B_vovv d H T a i f b) * (x_a T f j)) - sumn (noa d) (fun n => (hb2_I2B_ooov d H T n i j b) * (x_a T a n)) + sumn (noa d) (fun n => sumn (nua d) (fun f => (i_ab_oovv H n i f b) * (x_aa T a f j n))) + sumn (nob d) (fun n => sumn (nub d) (fun f => (i_bb_oovv H n i f b) * (x_ab T a f j n)))).
(** ccpy/hbar/hbar_cc2.py, build_hbar_cc2, lines 126-131 *)
Definition hb2_H_ab_ovvo (d : dims) (H : ints) (T : amps) : mat4 := fun i a b j =>
  i_ab_ovvo H i a b j + (sumn (nub d) (fun f => (hb2_I2B_ovvv d H T i a b f) * (x_b T f j)) - sumn (nob d) (fun n => (hb2_I2B_oovo d H T i n b j) * (x_b T a n)) + sumn (nob d) (fun n => sumn (nub d) (fun f => (i_ab_oovv H i n b f) * (x_bb T a f j n))) + sumn (noa d) (fun n => sumn (nua d) (fun f => (i_aa_oovv H i n b f) * (x_ab T f a n j)))).
(** ccpy/hbar/hbar_cc2.py, build_hbar_cc2, lines 133-137 *)
Definition hb2_H_ab_ovov (d : dims) (H : ints) (T : amps) : mat4 := fun i a j b =>
  i_ab_ovov H i a j b + (sumn (nua d) (fun f => (hb2_I2B_ovvv d H T i a f b) * (x_a T f j)) - sumn (nob d) (fun n => (hb2_I2B_ooov d H T i n j b) * (x_b T a n)) - sumn (nob d) (fun n => sumn (nua d) (fun f => (i_ab_oovv H i n f b) * (x_ab T f a j n)))).
(** ccpy/hbar/hbar_cc2.py, build_hbar_cc2, lines 139-143 *)
Definition hb2_H_ab_vovo (d : dims) (H : ints) (T : amps) : mat4 := fun a i b j =>
  i_ab_vovo H a i b j + ((- (sumn (noa d) (fun n => (hb2_I2B_oovo d H T n i b j) * (x_a T a n)))) + sumn (nub d) (fun f => (hb2_I2B_vovv d H T a i b f) * (x_b T f j)) - sumn (noa d) (fun n => sumn (nub d) (fun f => (i_ab_oovv H n i b f) * (x_ab T a f n j)))).
(** ccpy/hbar/hbar_cc2.py, build_hbar_cc2, lines 145-150 *)
Definition hb2_H_bb_voov (d : dims) (H : ints) (T : amps) : mat4 := fun a i j b =>
  i_bb_voov H a i j b + (sumn (nub d) (fun f => (hb2_I2C_vovv d H T a i f b) * (x_b T f j)) - sumn (nob d) (fun n => (hb2_I2C_ooov d H T n i j b) * (x_b T a n)) + sumn (nob d) (fun n => sumn (nub d) (fun f => (i_bb_oovv H n i f b) * (x_bb T a f j n))) + sumn (noa d) (fun n => sumn (nua d) (fun f => (i_ab_oovv H n i f b) * (x_ab T f a n j)))).
(** ccpy/hbar/hbar_cc2.py, build_hbar_cc2, line 152 *)
Definition hb2_Q1_16 (d : dims) (H : ints) (T : amps) : mat4 := fun a m i f =>
  i_aa_voov H a m i f + 1 / 2 * (sumn (nua d) (fun e => (i_aa_vovv H a m e f) * (x_a T e i))).
(** ccpy/hbar/hbar_cc2.py, build_hbar_cc2, line 153 *)
Definition hb2_Q1_17 (d : dims) (H : ints) (T : amps) : mat4 := fun a m i j =>
  sumn (nua d) (fun f => (hb2_Q1_16 d H T a m i f) * (x_a T f j)).
(** ccpy/hbar/hbar_cc2.py, build_hbar_cc2, line 154 *)
Definition hb2_Q1_18 (d : dims) (H : ints) (T : amps) : mat4 := fun a m i j =>
  hb2_Q1_17 d H T a m i j - hb2_Q1_17 d H T a m j i.
(** ccpy/hbar/hbar_cc2.py, build_hbar_cc2, lines 155-157 *)
Definition hb2_H_aa_vooo (d : dims) (H : ints) (T : amps) : mat4 := fun a i j k =>
  i_aa_vooo H a i j k + (hb2_Q1_18 d H T a i j k + (- (sumn (noa d) (fun n => (hb2_H_aa_oooo d H T n i j k) * (x_a T a n))))).
(** ccpy/hbar/hbar_cc2.py, build_hbar_cc2, line 159 *)
Definition hb2_Q1_19 (d : dims) (H : ints) (T : amps) : mat4 := fun a m i e =>
  i_ab_voov H a m i e + sumn (nua d) (fun f => (i_ab_vovv H a m f e) * (x_a T f i)).
(** ccpy/hbar/hbar_cc2.py, build_hbar_cc2, lines 160-164 *)
Definition hb2_H_ab_vooo (d : dims) (H : ints) (T : amps) : mat4 := fun a i j k =>
  i_ab_vooo H a i j k + ((- (sumn (noa d) (fun n => (hb2_H_ab_oooo d H T n i j k) * (x_a T a n)))) + sumn (nua d) (fun e => (i_ab_vovo H a i e k) * (x_a T e j)) + sumn (nub d) (fun e => (hb2_Q1_19 d H T a i j e) * (x_b T e k))).
(** ccpy/hbar/hbar_cc2.py, build_hbar_cc2, line 166 *)
Definition hb2_Q1_20 (d : dims) (H : ints) (T : amps) : mat4 := fun m a j e =>
  i_ab_ovov H m a j e + sumn (nua d) (fun f => (i_ab_ovvv H m a f e) * (x_a T f j)).
(** ccpy/hbar/hbar_cc2.py, build_hbar_cc2, lines 167-171 *)
Definition hb2_H_ab_ovoo (d : dims) (H : ints) (T : amps) : mat4 := fun i a j k =>
  i_ab_ovoo H i a j k + ((- (sumn (nob d) (fun n => (hb2_H_ab_oooo d H T i n j k) * (x_b T a n)))) + sumn (nub d) (fun e => (hb2_Q1_20 d H T i a j e) * (x_b T e k)) + sumn (nua d) (fun e => (i_ab_ovvo H i a e k) * (x_a T e j))).
(** ccpy/hbar/hbar_cc2.py, build_hbar_cc2, line 173 *)
Definition hb2_Q1_21 (d : dims) (H : ints) (T : amps) : mat4 := fun a m i f =>
  i_bb_voov H a m i f + 1 / 2 * (sumn (nub d) (fun e => (i_bb_vovv H a m e f) * (x_b T e i))).
(** ccpy/hbar/hbar_cc2.py, build_hbar_cc2, line 174 *)
Definition hb2_Q1_22 (d : dims) (H : ints) (T : amps) : mat4 := fun a m i j =>
  sumn (nub d) (fun f => (hb2_Q1_21 d H T a m i f) * (x_b T f j)).
(** ccpy/hbar/hbar_cc2.py, build_hbar_cc2, line 175 *)
Definition hb2_Q1_23 (d : dims) (H : ints) (T : amps) : mat4 := fun a m i j =>
  hb2_Q1_22 d H T a m i j - hb2_Q1_22 d H T a m j i.
(** ccpy/hbar/hbar_cc2.py, build_hbar_cc2, lines 176-178 *)
Definition hb2_H_bb_vooo (d : dims) (H : ints) (T : amps) : mat4 := fun a i j k =>
  i_bb_vooo H a i j k + (hb2_Q1_23 d H T a i j k + (- (sumn (nob d) (fun n => (hb2_H_bb_oooo d H T n i j k) * (x_b T a n))))).
(** ccpy/hbar/hbar_cc2.py, build_hbar_cc2, line 180 *)
Definition hb2_Q1_24 (d : dims) (H : ints) (T : amps) : mat4 := fun m b i e =>
  i_aa_ovov H m b i e - 1 / 2 * (sumn (noa d) (fun n => (i_aa_ooov H m n i e) * (x_a T b n))).
(** ccpy/hbar/hbar_cc2.py, build_hbar_cc2, line 181 *)
Definition hb2_Q1_25 (d : dims) (H : ints) (T : amps) : mat4 := fun a b i e =>
  (- (sumn (noa d) (fun m => (hb2_Q1_24 d H T m b i e) * (x_a T a m)))).
(** ccpy/hbar/hbar_cc2.py, build_hbar_cc2, line 182 *)
Definition hb2_Q1_26 (d : dims) (H : ints) (T : amps) : mat4 := fun a b i e =>
  hb2_Q1_25 d H T a b i e - hb2_Q1_25 d H T b a i e.
(** ccpy/hbar/hbar_cc2.py, build_hbar_cc2, lines 183-185 *)
Definition hb2_H_aa_vvov (d : dims) (H : ints) (T : amps) : mat4 := fun a b i c =>
  i_aa_vvov H a b i c + (hb2_Q1_26 d H T a b i c + sumn (nua d) (fun f => (hb2_H_aa_vvvv d H T a b f c) * (x_a T f i))).
(** ccpy/hbar/hbar_cc2.py, build_hbar_cc2, line 187 *)
Definition hb2_Q1_27 (d : dims) (H : ints) (T : amps) : mat4 := fun m b i e =>
  i_ab_ovov H m b i e - sumn (nob d) (fun n => (i_ab_ooov H m n i e) * (x_b T b n)).
(** ccpy/hbar/hbar_cc2.py, build_hbar_cc2, line 188 *)
Definition hb2_Q1_28 (d : dims) (H : ints) (T : amps) : mat4 := fun a b i e =>
  (- (sumn (noa d) (fun m => (hb2_Q1_27 d H T m b i e) * (x_a T a m)))).
(** ccpy/hbar/hbar_cc2.py, build_hbar_cc2, lines 189-192 *)
Definition hb2_H_ab_vvov (d : dims) (H : ints) (T : amps) : mat4 := fun a b i c =>
  i_ab_vvov H a b i c + (hb2_Q1_28 d H T a b i c + (sumn (nua d) (fun f => (hb2_H_ab_vvvv d H T a b f c) * (x_a T f i)) - sumn (nob d) (fun m => (i_ab_voov H a m i c) * (x_b T b m)))).
(** ccpy/hbar/hbar_cc2.py, build_hbar_cc2, line 194 *)
Definition hb2_Q1_29 (d : dims) (H : ints) (T : amps) : mat4 := fun b m e i =>
  i_ab_vovo H b m e i - sumn (noa d) (fun n => (i_ab_oovo H n m e i) * (x_a T b n)).
(** ccpy/hbar/hbar_cc2.py, build_hbar_cc2, line 195 *)
Definition hb2_Q1_30 (d : dims) (H : ints) (T : amps) : mat4 := fun b a e i =>
  (- (sumn (nob d) (fun m => (hb2_Q1_29 d H T b m e i) * (x_b T a m)))).
(** ccpy/hbar/hbar_cc2.py, build_hbar_cc2, lines 196-199 *)
Definition hb2_H_ab_vvvo (d : dims) (H : ints) (T : amps) : mat4 := fun a b c i =>
  i_ab_vvvo H a b c i + (hb2_Q1_30 d H T a b c i + (sumn (nub d) (fun f => (hb2_H_ab_vvvv d H T a b c f) * (x_b T f i)) - sumn (noa d) (fun n => (i_ab_ovvo H n b c i) * (x_a T a n)))).
(** ccpy/hbar/hbar_cc2.py, build_hbar_cc2, line 201 *)
Definition hb2_Q1_31 (d : dims) (H : ints) (T : amps) : mat4 := fun m b i e =>
  i_bb_ovov H m b i e - 1 / 2 * (sumn (nob d) (fun n => (i_bb_ooov H m n i e) * (x_b T b n))).
(** ccpy/hbar/hbar_cc2.py, build_hbar_cc2, line 202 *)
Definition hb2_Q1_32 (d : dims) (H : ints) (T : amps) : mat4 := fun a b i e =>
  (- (sumn (nob d) (fun m => (hb2_Q1_31 d H T m b i e) * (x_b T a m)))).
(** ccpy/hbar/hbar_cc2.py, build_hbar_cc2, line 203 *)
Definition hb2_Q1_33 (d : dims) (H : ints) (T : amps) : mat4 := fun a b i e =>
  hb2_Q1_32 d H T a b i e - hb2_Q1_32 d H T b a i e.
(** ccpy/hbar/hbar_cc2.py, build_hbar_cc2, lines 204-206 *)
Definition hb2_H_bb_vvov (d : dims) (H : ints) (T : amps) : mat4 := fun a b i c =>
  i_bb_vvov H a b i c + (hb2_Q1_33 d H T a b i c + sumn (nub d) (fun f => (hb2_H_bb_vvvv d H T a b f c) * (x_b T f i))).
(** hbar_cc2.py, build_hbar_cc2, line 228: all blocks when the function returns (those never assigned keep the bare integrals) *)
Definition hbar_cc2 (d : dims) (H : ints) (T : amps) : ints := mkInts (hb2_H_a_oo d H T) (hb2_H_a_ov d H T) (i_a_vo H) (hb2_H_a_vv d H T) (hb2_H_b_oo d H T) (hb2_H_b_ov d H T) (i_b_vo H) (hb2_H_b_vv d H T) (hb2_H_aa_oooo d H T) (hb2_H_aa_ooov d H T) (i_aa_oovo H) (i_aa_oovv H) (i_aa_ovoo H) (i_aa_ovov H) (i_aa_ovvo H) (i_aa_ovvv H) (hb2_H_aa_vooo d H T) (hb2_H_aa_voov d H T) (i_aa_vovo H) (hb2_H_aa_vovv d H T) (i_aa_vvoo H) (hb2_H_aa_vvov d H T) (i_aa_vvvo H) (hb2_H_aa_vvvv d H T) (hb2_H_ab_oooo d H T) (hb2_H_ab_ooov d H T) (hb2_H_ab_oovo d H T) (i_ab_oovv H) (hb2_H_ab_ovoo d H T) (hb2_H_ab_ovov d H T) (hb2_H_ab_ovvo d H T) (hb2_H_ab_ovvv d H T) (hb2_H_ab_vooo d H T) (hb2_H_ab_voov d H T) (hb2_H_ab_vovo d H T) (hb2_H_ab_vovv d H T) (i_ab_vvoo H) (hb2_H_ab_vvov d H T) (hb2_H_ab_vvvo d H T) (hb2_H_ab_vvvv d H T) (hb2_H_bb_oooo d H T) (hb2_H_bb_ooov d H T) (i_bb_oovo H) (i_bb_oovv H) (i_bb_ovoo H) (i_bb_ovov H) (i_bb_ovvo H) (i_bb_ovvv H) (hb2_H_bb_vooo d H T) (hb2_H_bb_voov d H T) (i_bb_vovo H) (hb2_H_bb_vovv d H T) (i_bb_vvoo H) (hb2_H_bb_vvov d H T) (i_bb_vvvo H) (hb2_H_bb_vvvv d H T).
(** ccpy/eomcc/eomcc2.py, build_HR_1A, line 43 *)
Definition eom2_X1A (d : dims) (H : ints) (T R : amps) : mat2 := fun a i =>
  (- (sumn (noa d) (fun m => (i_a_oo H m i) * (x_a R a m)))).
(** ccpy/eomcc/eomcc2.py, build_HR_1A, line 44 *)
Definition eom2_X1A_1 (d : dims) (H : ints) (T R : amps) : mat2 := fun a i =>
  eom2_X1A d H T R a i + sumn (nua d) (fun e => (i_a_vv H a e) * (x_a R e i)).
(** ccpy/eomcc/eomcc2.py, build_HR_1A, line 45 *)
Definition eom2_X1A_2 (d : dims) (H : ints) (T R : amps) : mat2 := fun a i =>
  eom2_X1A_1 d H T R a i + sumn (noa d) (fun m => sumn (nua d) (fun e => (i_aa_voov H a m i e) * (x_a R e m))).
(** ccpy/eomcc/eomcc2.py, build_HR_1A, line 46 *)
Definition eom2_X1A_3 (d : dims) (H : ints) (T R : amps) : mat2 := fun a i =>
  eom2_X1A_2 d H T R a i + sumn (nob d) (fun m => sumn (nub d) (fun e => (i_ab_voov H a m i e) * (x_b R e m))).
(** ccpy/eomcc/eomcc2.py, build_HR_1A, line 47 *)
Definition eom2_X1A_4 (d : dims) (H : ints) (T R : amps) : mat2 := fun a i =>
  eom2_X1A_3 d H T R a i - 1 / 2 * (sumn (noa d) (fun m => sumn (noa d) (fun n => sumn (nua d) (fun f => (i_aa_ooov H m n i f) * (x_aa R a f m n))))).
(** ccpy/eomcc/eomcc2.py, build_HR_1A, line 48 *)
Definition eom2_X1A_5 (d : dims) (H : ints) (T R : amps) : mat2 := fun a i =>
  eom2_X1A_4 d H T R a i - sumn (noa d) (fun m => sumn (nob d) (fun n => sumn (nub d) (fun f => (i_ab_ooov H m n i f) * (x_ab R a f m n)))).
(** ccpy/eomcc/eomcc2.py, build_HR_1A, line 49 *)
Definition eom2_X1A_6 (d : dims) (H : ints) (T R : amps) : mat2 := fun a i =>
  eom2_X1A_5 d H T R a i + 1 / 2 * (sumn (noa d) (fun n => sumn (nua d) (fun e => sumn (nua d) (fun f => (i_aa_vovv H a n e f) * (x_aa R e f i n))))).
(** ccpy/eomcc/eomcc2.py, build_HR_1A, line 50 *)
Definition eom2_X1A_7 (d : dims) (H : ints) (T R : amps) : mat2 := fun a i =>
  eom2_X1A_6 d H T R a i + sumn (nob d) (fun n => sumn (nua d) (fun e => sumn (nub d) (fun f => (i_ab_vovv H a n e f) * (x_ab R e f i n)))).
(** ccpy/eomcc/eomcc2.py, build_HR_1A, line 51 *)
Definition eom2_X1A_8 (d : dims) (H : ints) (T R : amps) : mat2 := fun a i =>
  eom2_X1A_7 d H T R a i + sumn (noa d) (fun m => sumn (nua d) (fun e => (i_a_ov H m e) * (x_aa R a e i m))).
(** ccpy/eomcc/eomcc2.py, build_HR_1A, line 52 *)
Definition eom2_X1A_9 (d : dims) (H : ints) (T R : amps) : mat2 := fun a i =>
  eom2_X1A_8 d H T R a i + sumn (nob d) (fun m => sumn (nub d) (fun e => (i_b_ov H m e) * (x_ab R a e i m))).
(** ccpy/eomcc/eomcc2.py, build_HR_1B, line 57 *)
Definition eom2_X1B (d : dims) (H : ints) (T R : amps) : mat2 := fun a i =>
  (- (sumn (nob d) (fun m => (i_b_oo H m i) * (x_b R a m)))).
(** ccpy/eomcc/eomcc2.py, build_HR_1B, line 58 *)
Definition eom2_X1B_1 (d : dims) (H : ints) (T R : amps) : mat2 := fun a i =>
  eom2_X1B d H T R a i + sumn (nub d) (fun e => (i_b_vv H a e) * (x_b R e i)).
(** ccpy/eomcc/eomcc2.py, build_HR_1B, line 59 *)
Definition eom2_X1B_2 (d : dims) (H : ints) (T R : amps) : mat2 := fun a i =>
  eom2_X1B_1 d H T R a i + sumn (noa d) (fun m => sumn (nua d) (fun e => (i_ab_ovvo H m a e i) * (x_a R e m))).
(** ccpy/eomcc/eomcc2.py, build_HR_1B, line 60 *)
Definition eom2_X1B_3 (d : dims) (H : ints) (T R : amps) : mat2 := fun a i =>
  eom2_X1B_2 d H T R a i + sumn (nob d) (fun m => sumn (nub d) (fun e => (i_bb_voov H a m i e) * (x_b R e m))).
(** ccpy/eomcc/eomcc2.py, build_HR_1B, line 61 *)
Definition eom2_X1B_4 (d : dims) (H : ints) (T R : amps) : mat2 := fun a i =>
  eom2_X1B_3 d H T R a i - sumn (noa d) (fun n => sumn (nob d) (fun m => sumn (nua d) (fun f => (i_ab_oovo H n m f i) * (x_ab R f a n m)))).
(** ccpy/eomcc/eomcc2.py, build_HR_1B, line 62 *)
Definition eom2_X1B_5 (d : dims) (H : ints) (T R : amps) : mat2 := fun a i =>
  eom2_X1B_4 d H T R a i - 1 / 2 * (sumn (nob d) (fun m => sumn (nob d) (fun n => sumn (nub d) (fun f => (i_bb_ooov H m n i f) * (x_bb R a f m n))))).
(** ccpy/eomcc/eomcc2.py, build_HR_1B, line 63 *)
Definition eom2_X1B_6 (d : dims) (H : ints) (T R : amps) : mat2 := fun a i =>
  eom2_X1B_5 d H T R a i + sumn (noa d) (fun n => sumn (nua d) (fun f => sumn (nub d) (fun e => (i_ab_ovvv H n a f e) * (x_ab R f e n i)))).
(** ccpy/eomcc/eomcc2.py, build_HR_1B, line 64 *)
Definition eom2_X1B_7 (d : dims) (H : ints) (T R : amps) : mat2 := fun a i =>
  eom2_X1B_6 d H T R a i + 1 / 2 * (sumn (nob d) (fun n => sumn (nub d) (fun e => sumn (nub d) (fun f => (i_bb_vovv H a n e f) * (x_bb R e f i n))))).
(** ccpy/eomcc/eomcc2.py, build_HR_1B, line 65 *)
Definition eom2_X1B_8 (d : dims) (H : ints) (T R : amps) : mat2 := fun a i =>
  eom2_X1B_7 d H T R a i + sumn (noa d) (fun m => sumn (nua d) (fun e => (i_a_ov H m e) * (x_ab R e a m i))).
(** ccpy/eomcc/eomcc2.py, build_HR_1B, line 66 *)
Definition eom2_X1B_9 (d : dims) (H : ints) (T R : amps) : mat2 := fun a i =>
  eom2_X1B_8 d H T R a i + sumn (nob d) (fun m => sumn (nub d) (fun e => (i_b_ov H m e) * (x_bb R a e i m))).
(** ccpy/eomcc/eomcc2.py, build_HR_2A, line 71 *)
Definition eom2_X2A (d : dims) (H : ints) (T R : amps) : mat4 := fun a b i j =>
  (-1) / 2 * (sumn (noa d) (fun m => (i_a_oo H m i) * (x_aa R a b m j))).
(** ccpy/eomcc/eomcc2.py, build_HR_2A, line 72 *)
Definition eom2_X2A_1 (d : dims) (H : ints) (T R : amps) : mat4 := fun a b i j =>
  eom2_X2A d H T R a b i j + 1 / 2 * (sumn (nua d) (fun e => (i_a_vv H a e) * (x_aa R e b i j))).
(** ccpy/eomcc/eomcc2.py, build_HR_2A, line 73 *)
Definition eom2_X2A_2 (d : dims) (H : ints) (T R : amps) : mat4 := fun a b i j =>
  eom2_X2A_1 d H T R a b i j - 1 / 2 * (sumn (noa d) (fun m => (i_aa_vooo H b m j i) * (x_a R a m))).
(** ccpy/eomcc/eomcc2.py, build_HR_2A, line 74 *)
Definition eom2_X2A_3 (d : dims) (H : ints) (T R : amps) : mat4 := fun a b i j =>
  eom2_X2A_2 d H T R a b i j + 1 / 2 * (sumn (nua d) (fun e => (i_aa_vvov H b a j e) * (x_a R e i))).
(** ccpy/eomcc/eomcc2.py, build_HR_2A, line 75 *)
Definition eom2_X2A_4 (d : dims) (H : ints) (T R : amps) : mat4 := fun a b i j =>
  eom2_X2A_3 d H T R a b i j - eom2_X2A_3 d H T R b a i j.
(** ccpy/eomcc/eomcc2.py, build_HR_2A, line 76 *)
Definition eom2_X2A_5 (d : dims) (H : ints) (T R : amps) : mat4 := fun a b i j =>
  eom2_X2A_4 d H T R a b i j - eom2_X2A_4 d H T R a b j i.
(** ccpy/eomcc/eomcc2.py, build_HR_2B, line 81 *)
Definition eom2_X2B (d : dims) (H : ints) (T R : amps) : mat4 := fun a b i j =>
  sumn (nua d) (fun e => (i_a_vv H a e) * (x_ab R e b i j)).
(** ccpy/eomcc/eomcc2.py, build_HR_2B, line 82 *)
Definition eom2_X2B_1 (d : dims) (H : ints) (T R : amps) : mat4 := fun a b i j =>
  eom2_X2B d H T R a b i j + sumn (nub d) (fun e => (i_b_vv H b e) * (x_ab R a e i j)).
(** ccpy/eomcc/eomcc2.py, build_HR_2B, line 83 *)
Definition eom2_X2B_2 (d : dims) (H : ints) (T R : amps) : mat4 := fun a b i j =>
  eom2_X2B_1 d H T R a b i j - sumn (noa d) (fun m => (i_a_oo H m i) * (x_ab R a b m j)).
(** ccpy/eomcc/eomcc2.py, build_HR_2B, line 84 *)
Definition eom2_X2B_3 (d : dims) (H : ints) (T R : amps) : mat4 := fun a b i j =>
  eom2_X2B_2 d H T R a b i j - sumn (nob d) (fun m => (i_b_oo H m j) * (x_ab R a b i m)).
(** ccpy/eomcc/eomcc2.py, build_HR_2B, line 85 *)
Definition eom2_X2B_4 (d : dims) (H : ints) (T R : amps) : mat4 := fun a b i j =>
  eom2_X2B_3 d H T R a b i j + sumn (nua d) (fun e => (i_ab_vvvo H a b e j) * (x_a R e i)).
(** ccpy/eomcc/eomcc2.py, build_HR_2B, line 86 *)
Definition eom2_X2B_5 (d : dims) (H : ints) (T R : amps) : mat4 := fun a b i j =>
  eom2_X2B_4 d H T R a b i j + sumn (nub d) (fun e => (i_ab_vvov H a b i e) * (x_b R e j)).
(** ccpy/eomcc/eomcc2.py, build_HR_2B, line 87 *)
Definition eom2_X2B_6 (d : dims) (H : ints) (T R : amps) : mat4 := fun a b i j =>
  eom2_X2B_5 d H T R a b i j - sumn (noa d) (fun m => (i_ab_ovoo H m b i j) * (x_a R a m)).
(** ccpy/eomcc/eomcc2.py, build_HR_2B, line 88 *)
Definition eom2_X2B_7 (d : dims) (H : ints) (T R : amps) : mat4 := fun a b i j =>
  eom2_X2B_6 d H T R a b i j - sumn (nob d) (fun m => (i_ab_vooo H a m i j) * (x_b R b m)).
(** ccpy/eomcc/eomcc2.py, build_HR_2C, line 93 *)
Definition eom2_X2C (d : dims) (H : ints) (T R : amps) : mat4 := fun a b i j =>
  (-1) / 2 * (sumn (nob d) (fun m => (i_b_oo H m i) * (x_bb R a b m j))).
(** ccpy/eomcc/eomcc2.py, build_HR_2C, line 94 *)
Definition eom2_X2C_1 (d : dims) (H : ints) (T R : amps) : mat4 := fun a b i j =>
  eom2_X2C d H T R a b i j + 1 / 2 * (sumn (nub d) (fun e => (i_b_vv H a e) * (x_bb R e b i j))).
(** ccpy/eomcc/eomcc2.py, build_HR_2C, line 95 *)
Definition eom2_X2C_2 (d : dims) (H : ints) (T R : amps) : mat4 := fun a b i j =>
  eom2_X2C_1 d H T R a b i j - 1 / 2 * (sumn (nob d) (fun m => (i_bb_vooo H b m j i) * (x_b R a m))).
(** ccpy/eomcc/eomcc2.py, build_HR_2C, line 96 *)
Definition eom2_X2C_3 (d : dims) (H : ints) (T R : amps) : mat4 := fun a b i j =>
  eom2_X2C_2 d H T R a b i j + 1 / 2 * (sumn (nub d) (fun e => (i_bb_vvov H b a j e) * (x_b R e i))).
(** ccpy/eomcc/eomcc2.py, build_HR_2C, line 97 *)
Definition eom2_X2C_4 (d : dims) (H : ints) (T R : amps) : mat4 := fun a b i j =>
  eom2_X2C_3 d H T R a b i j - eom2_X2C_3 d H T R b a i j.
(** ccpy/eomcc/eomcc2.py, build_HR_2C, line 98 *)
Definition eom2_X2C_5 (d : dims) (H : ints) (T R : amps) : mat4 := fun a b i j =>
  eom2_X2C_4 d H T R a b i j - eom2_X2C_4 d H T R a b j i.
(** eomcc2.py, HR, lines 24-40: the vector returned *)
Definition eom2_HR (d : dims) (H : ints) (T R : amps) : amps := mkAmps (eom2_X1A_9 d H T R) (eom2_X1B_9 d H T R) (eom2_X2A_5 d H T R) (eom2_X2B_7 d H T R) (eom2_X2C_5 d H T R) (fun _ _ _ _ _ _ => 0) (fun _ _ _ _ _ _ => 0) (fun _ _ _ _ _ _ => 0) (fun _ _ _ _ _ _ => 0).
