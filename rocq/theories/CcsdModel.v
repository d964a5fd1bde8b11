(** Generated by tools/gen_ccsd.py from the source text (symbolic execution of the numpy statements; exact reals).
    Models ccpy/cc/ccsd.py (update, update_t1a .. update_t2c), ccpy/hbar/hbar_ccs.py (get_pre_ccs_intermediates, get_ccs_intermediates_opt),
    ccpy/hbar/hbar_ccsd.py (build_hbar_ccsd), ccpy/energy/cc_energy.py (get_cc_energy); flag_RHF = False.
    In the ccsd_ definitions T holds the amplitudes on entry of update and U the blocks that have been overwritten by the time they are read;
    ccsd_res_x is the array handed to the Fortran routine cc_loops2.update_x. *)
From Coq Require Import Reals Arith.
From Verif Require Import RSum IntegralsModel TensorObjs.
Open Scope R_scope.
(** ccpy/hbar/hbar_ccs.py, get_pre_ccs_intermediates, lines 108-111 *)
Definition ccsd_X_a_ov (d : dims) (H : ints) (T U : amps) : mat2 := fun m e =>
  i_a_ov H m e + (sumn (noa d) (fun n => sumn (nua d) (fun f => (i_aa_oovv H m n e f) * (x_a T f n))) + sumn (nob d) (fun n => sumn (nub d) (fun f => (i_ab_oovv H m n e f) * (x_b T f n)))).
(** ccpy/hbar/hbar_ccs.py, get_pre_ccs_intermediates, lines 115-118 *)
Definition ccsd_X_b_ov (d : dims) (H : ints) (T U : amps) : mat2 := fun m e =>
  i_b_ov H m e + (sumn (noa d) (fun n => sumn (nua d) (fun f => (i_ab_oovv H n m f e) * (x_a T f n))) + sumn (nob d) (fun n => sumn (nub d) (fun f => (i_bb_oovv H m n e f) * (x_b T f n)))).
(** ccpy/hbar/hbar_ccs.py, get_pre_ccs_intermediates, lines 119-124 *)
Definition ccsd_X_a_vv (d : dims) (H : ints) (T U : amps) : mat2 := fun a e =>
  i_a_vv H a e + (sumn (noa d) (fun n => sumn (nua d) (fun f => (i_aa_vovv H a n e f) * (x_a T f n))) + sumn (nob d) (fun n => sumn (nub d) (fun f => (i_ab_vovv H a n e f) * (x_b T f n))) - 1 / 2 * (sumn (noa d) (fun m => sumn (noa d) (fun n => sumn (nua d) (fun f => (i_aa_oovv H m n e f) * (x_aa T a f m n))))) - sumn (noa d) (fun m => sumn (nob d) (fun n => sumn (nub d) (fun f => (i_ab_oovv H m n e f) * (x_ab T a f m n))))).
(** ccpy/hbar/hbar_ccs.py, get_pre_ccs_intermediates, lines 125-131 *)
Definition ccsd_X_a_oo (d : dims) (H : ints) (T U : amps) : mat2 := fun m i =>
  i_a_oo H m i + (sumn (noa d) (fun n => sumn (nua d) (fun f => (i_aa_ooov H m n i f) * (x_a T f n))) + sumn (nob d) (fun n => sumn (nub d) (fun f => (i_ab_ooov H m n i f) * (x_b T f n))) + sumn (nua d) (fun e => (ccsd_X_a_ov d H T U m e) * (x_a T e i)) + 1 / 2 * (sumn (noa d) (fun n => sumn (nua d) (fun e => sumn (nua d) (fun f => (i_aa_oovv H m n e f) * (x_aa T e f i n))))) + sumn (nob d) (fun n => sumn (nua d) (fun e => sumn (nub d) (fun f => (i_ab_oovv H m n e f) * (x_ab T e f i n))))).
(** ccpy/hbar/hbar_ccs.py, get_pre_ccs_intermediates, lines 136-141 *)
Definition ccsd_X_b_vv (d : dims) (H : ints) (T U : amps) : mat2 := fun a e =>
  i_b_vv H a e + (sumn (nob d) (fun n => sumn (nub d) (fun f => (i_bb_vovv H a n e f) * (x_b T f n))) + sumn (noa d) (fun n => sumn (nua d) (fun f => (i_ab_ovvv H n a f e) * (x_a T f n))) - 1 / 2 * (sumn (nob d) (fun m => sumn (nob d) (fun n => sumn (nub d) (fun f => (i_bb_oovv H m n e f) * (x_bb T a f m n))))) - sumn (noa d) (fun n => sumn (nob d) (fun m => sumn (nua d) (fun f => (i_ab_oovv H n m f e) * (x_ab T f a n m))))).
(** ccpy/hbar/hbar_ccs.py, get_pre_ccs_intermediates, lines 142-148 *)
Definition ccsd_X_b_oo (d : dims) (H : ints) (T U : amps) : mat2 := fun m i =>
  i_b_oo H m i + (sumn (nob d) (fun n => sumn (nub d) (fun f => (i_bb_ooov H m n i f) * (x_b T f n))) + sumn (noa d) (fun n => sumn (nua d) (fun f => (i_ab_oovo H n m f i) * (x_a T f n))) + sumn (nub d) (fun e => (ccsd_X_b_ov d H T U m e) * (x_b T e i)) + 1 / 2 * (sumn (nob d) (fun n => sumn (nub d) (fun e => sumn (nub d) (fun f => (i_bb_oovv H m n e f) * (x_bb T e f i n))))) + sumn (noa d) (fun n => sumn (nua d) (fun f => sumn (nub d) (fun e => (i_ab_oovv H n m f e) * (x_ab T f e n i))))).
(** ccpy/cc/ccsd.py, update_t1a, line 40 *)
Definition ccsd_dT_a (d : dims) (H : ints) (T U : amps) : mat2 := fun a i =>
  (- (sumn (noa d) (fun m => (ccsd_X_a_oo d H T U m i) * (x_a T a m)))).
(** ccpy/cc/ccsd.py, update_t1a, line 41 *)
Definition ccsd_dT_a_1 (d : dims) (H : ints) (T U : amps) : mat2 := fun a i =>
  ccsd_dT_a d H T U a i + sumn (nua d) (fun e => (ccsd_X_a_vv d H T U a e) * (x_a T e i)).
(** ccpy/cc/ccsd.py, update_t1a, line 42 *)
Definition ccsd_dT_a_2 (d : dims) (H : ints) (T U : amps) : mat2 := fun a i =>
  ccsd_dT_a_1 d H T U a i + sumn (noa d) (fun m => sumn (nua d) (fun e => (ccsd_X_a_ov d H T U m e) * (x_aa T a e i m))).
(** ccpy/cc/ccsd.py, update_t1a, line 43 *)
Definition ccsd_dT_a_3 (d : dims) (H : ints) (T U : amps) : mat2 := fun a i =>
  ccsd_dT_a_2 d H T U a i + sumn (nob d) (fun m => sumn (nub d) (fun e => (ccsd_X_b_ov d H T U m e) * (x_ab T a e i m))).
(** ccpy/cc/ccsd.py, update_t1a, line 44 *)
Definition ccsd_dT_a_4 (d : dims) (H : ints) (T U : amps) : mat2 := fun a i =>
  ccsd_dT_a_3 d H T U a i + sumn (noa d) (fun n => sumn (nua d) (fun f => (i_aa_voov H a n i f) * (x_a T f n))).
(** ccpy/cc/ccsd.py, update_t1a, line 45 *)
Definition ccsd_dT_a_5 (d : dims) (H : ints) (T U : amps) : mat2 := fun a i =>
  ccsd_dT_a_4 d H T U a i + sumn (nob d) (fun n => sumn (nub d) (fun f => (i_ab_voov H a n i f) * (x_b T f n))).
(** ccpy/cc/ccsd.py, update_t1a, line 46 *)
Definition ccsd_dT_a_6 (d : dims) (H : ints) (T U : amps) : mat2 := fun a i =>
  ccsd_dT_a_5 d H T U a i - 1 / 2 * (sumn (noa d) (fun m => sumn (noa d) (fun n => sumn (nua d) (fun f => (i_aa_ooov H m n i f) * (x_aa T a f m n))))).
(** ccpy/cc/ccsd.py, update_t1a, line 47 *)
Definition ccsd_dT_a_7 (d : dims) (H : ints) (T U : amps) : mat2 := fun a i =>
  ccsd_dT_a_6 d H T U a i - sumn (noa d) (fun m => sumn (nob d) (fun n => sumn (nub d) (fun f => (i_ab_ooov H m n i f) * (x_ab T a f m n)))).
(** ccpy/cc/ccsd.py, update_t1a, line 48 *)
Definition ccsd_dT_a_8 (d : dims) (H : ints) (T U : amps) : mat2 := fun a i =>
  ccsd_dT_a_7 d H T U a i + 1 / 2 * (sumn (noa d) (fun n => sumn (nua d) (fun e => sumn (nua d) (fun f => (i_aa_vovv H a n e f) * (x_aa T e f i n))))).
(** ccpy/cc/ccsd.py, update_t1a, line 49 *)
Definition ccsd_dT_a_9 (d : dims) (H : ints) (T U : amps) : mat2 := fun a i =>
  ccsd_dT_a_8 d H T U a i + sumn (nob d) (fun n => sumn (nua d) (fun e => sumn (nub d) (fun f => (i_ab_vovv H a n e f) * (x_ab T e f i n)))).
(** ccpy/cc/ccsd.py, update_t1a, lines 50-52 *)
Definition ccsd_res_a (d : dims) (H : ints) (T U : amps) : mat2 := fun a i =>
  ccsd_dT_a_9 d H T U a i + i_a_vo H a i.
(** ccpy/cc/ccsd.py, update_t1b, line 61 *)
Definition ccsd_dT_b (d : dims) (H : ints) (T U : amps) : mat2 := fun a i =>
  (- (sumn (nob d) (fun m => (ccsd_X_b_oo d H T U m i) * (x_b T a m)))).
(** ccpy/cc/ccsd.py, update_t1b, line 62 *)
Definition ccsd_dT_b_1 (d : dims) (H : ints) (T U : amps) : mat2 := fun a i =>
  ccsd_dT_b d H T U a i + sumn (nub d) (fun e => (ccsd_X_b_vv d H T U a e) * (x_b T e i)).
(** ccpy/cc/ccsd.py, update_t1b, line 63 *)
Definition ccsd_dT_b_2 (d : dims) (H : ints) (T U : amps) : mat2 := fun a i =>
  ccsd_dT_b_1 d H T U a i + sumn (nob d) (fun n => sumn (nub d) (fun f => (i_bb_voov H a n i f) * (x_b T f n))).
(** ccpy/cc/ccsd.py, update_t1b, line 64 *)
Definition ccsd_dT_b_3 (d : dims) (H : ints) (T U : amps) : mat2 := fun a i =>
  ccsd_dT_b_2 d H T U a i + sumn (noa d) (fun n => sumn (nua d) (fun f => (i_ab_ovvo H n a f i) * (x_a U f n))).
(** ccpy/cc/ccsd.py, update_t1b, line 65 *)
Definition ccsd_dT_b_4 (d : dims) (H : ints) (T U : amps) : mat2 := fun a i =>
  ccsd_dT_b_3 d H T U a i + sumn (noa d) (fun m => sumn (nua d) (fun e => (ccsd_X_a_ov d H T U m e) * (x_ab T e a m i))).
(** ccpy/cc/ccsd.py, update_t1b, line 66 *)
Definition ccsd_dT_b_5 (d : dims) (H : ints) (T U : amps) : mat2 := fun a i =>
  ccsd_dT_b_4 d H T U a i + sumn (nob d) (fun m => sumn (nub d) (fun e => (ccsd_X_b_ov d H T U m e) * (x_bb T a e i m))).
(** ccpy/cc/ccsd.py, update_t1b, line 67 *)
Definition ccsd_dT_b_6 (d : dims) (H : ints) (T U : amps) : mat2 := fun a i =>
  ccsd_dT_b_5 d H T U a i - 1 / 2 * (sumn (nob d) (fun m => sumn (nob d) (fun n => sumn (nub d) (fun f => (i_bb_ooov H m n i f) * (x_bb T a f m n))))).
(** ccpy/cc/ccsd.py, update_t1b, line 68 *)
Definition ccsd_dT_b_7 (d : dims) (H : ints) (T U : amps) : mat2 := fun a i =>
  ccsd_dT_b_6 d H T U a i - sumn (noa d) (fun n => sumn (nob d) (fun m => sumn (nua d) (fun f => (i_ab_oovo H n m f i) * (x_ab T f a n m)))).
(** ccpy/cc/ccsd.py, update_t1b, line 69 *)
Definition ccsd_dT_b_8 (d : dims) (H : ints) (T U : amps) : mat2 := fun a i =>
  ccsd_dT_b_7 d H T U a i + 1 / 2 * (sumn (nob d) (fun n => sumn (nub d) (fun e => sumn (nub d) (fun f => (i_bb_vovv H a n e f) * (x_bb T e f i n))))).
(** ccpy/cc/ccsd.py, update_t1b, line 70 *)
Definition ccsd_dT_b_9 (d : dims) (H : ints) (T U : amps) : mat2 := fun a i =>
  ccsd_dT_b_8 d H T U a i + sumn (noa d) (fun n => sumn (nua d) (fun f => sumn (nub d) (fun e => (i_ab_ovvv H n a f e) * (x_ab T f e n i)))).
(** ccpy/cc/ccsd.py, update_t1b, lines 71-73 *)
Definition ccsd_res_b (d : dims) (H : ints) (T U : amps) : mat2 := fun a i =>
  ccsd_dT_b_9 d H T U a i + i_b_vo H a i.
(** ccpy/hbar/hbar_ccs.py, get_ccs_intermediates_opt, line 9 *)
Definition ccsd_X_a_vv_1 (d : dims) (H : ints) (T U : amps) : mat2 := fun a e =>
  ccsd_X_a_vv d H T U a e - sumn (noa d) (fun m => (ccsd_X_a_ov d H T U m e) * (x_a U a m)).
(** ccpy/hbar/hbar_ccs.py, get_ccs_intermediates_opt, line 13 *)
Definition ccsd_X_b_vv_1 (d : dims) (H : ints) (T U : amps) : mat2 := fun a e =>
  ccsd_X_b_vv d H T U a e - sumn (nob d) (fun m => (ccsd_X_b_ov d H T U m e) * (x_b U a m)).
(** ccpy/hbar/hbar_ccs.py, get_ccs_intermediates_opt, line 16 *)
Definition ccsd_X_aa_ooov (d : dims) (H : ints) (T U : amps) : mat4 := fun m n i e =>
  sumn (nua d) (fun f => (i_aa_oovv H m n f e) * (x_a U f i)).
(** ccpy/hbar/hbar_ccs.py, get_ccs_intermediates_opt, line 17 *)
Definition ccsd_X_aa_vovv (d : dims) (H : ints) (T U : amps) : mat4 := fun a m e f =>
  (- (sumn (noa d) (fun n => (i_aa_oovv H m n f e) * (x_a U a n)))).
(** ccpy/hbar/hbar_ccs.py, get_ccs_intermediates_opt, line 18 *)
Definition ccsd_X_aa_oooo (d : dims) (H : ints) (T U : amps) : mat4 := fun m n i j =>
  1 / 2 * (i_aa_oooo H m n i j) + sumn (nua d) (fun e => (i_aa_ooov H n m j e + 1 / 2 * (ccsd_X_aa_ooov d H T U n m j e)) * (x_a U e i)).
(** ccpy/hbar/hbar_ccs.py, get_ccs_intermediates_opt, line 19 *)
Definition ccsd_X_aa_oooo_1 (d : dims) (H : ints) (T U : amps) : mat4 := fun m n i j =>
  ccsd_X_aa_oooo d H T U m n i j - ccsd_X_aa_oooo d H T U m n j i.
(** ccpy/hbar/hbar_ccs.py, get_ccs_intermediates_opt, lines 20-23 *)
Definition ccsd_X_aa_voov (d : dims) (H : ints) (T U : amps) : mat4 := fun a m i e =>
  i_aa_voov H a m i e + (sumn (nua d) (fun f => (i_aa_vovv H a m f e + 1 / 2 * (ccsd_X_aa_vovv d H T U a m f e)) * (x_a U f i)) - sumn (noa d) (fun n => (i_aa_ooov H n m i e + 1 / 2 * (ccsd_X_aa_ooov d H T U n m i e)) * (x_a U a n))).
(** ccpy/hbar/hbar_ccs.py, get_ccs_intermediates_opt, line 24 *)
Definition ccsd_L_amie (d : dims) (H : ints) (T U : amps) : mat4 := fun a m i f =>
  i_aa_voov H a m i f + 1 / 2 * (sumn (nua d) (fun e => (i_aa_vovv H a m e f) * (x_a U e i))).
(** ccpy/hbar/hbar_ccs.py, get_ccs_intermediates_opt, line 25 *)
Definition ccsd_X_mnij (d : dims) (H : ints) (T U : amps) : mat4 := fun m n i j =>
  i_aa_oooo H m n i j + sumn (nua d) (fun e => (ccsd_X_aa_ooov d H T U m n i e) * (x_a U e j)).
(** ccpy/hbar/hbar_ccs.py, get_ccs_intermediates_opt, lines 26-29 *)
Definition ccsd_X_aa_vooo (d : dims) (H : ints) (T U : amps) : mat4 := fun a m i j =>
  1 / 2 * (i_aa_vooo H a m i j) + (sumn (nua d) (fun e => (ccsd_L_amie d H T U a m i e) * (x_a U e j)) - 1 / 4 * (sumn (noa d) (fun m' => (ccsd_X_mnij d H T U m' m i j) * (x_a U a m')))).
(** ccpy/hbar/hbar_ccs.py, get_ccs_intermediates_opt, line 30 *)
Definition ccsd_X_aa_vooo_1 (d : dims) (H : ints) (T U : amps) : mat4 := fun a m i j =>
  ccsd_X_aa_vooo d H T U a m i j - ccsd_X_aa_vooo d H T U a m j i.
(** ccpy/hbar/hbar_ccs.py, get_ccs_intermediates_opt, line 31 *)
Definition ccsd_L_amie_1 (d : dims) (H : ints) (T U : amps) : mat4 := fun a n i e =>
  sumn (noa d) (fun m => (i_aa_ooov H m n i e) * (x_a U a m)).
(** ccpy/hbar/hbar_ccs.py, get_ccs_intermediates_opt, line 32 *)
Definition ccsd_X_aa_vvov (d : dims) (H : ints) (T U : amps) : mat4 := fun a b i e =>
  i_aa_vvov H a b i e + sumn (noa d) (fun n => (ccsd_L_amie_1 d H T U a n i e) * (x_a U b n)).
(** ccpy/hbar/hbar_ccs.py, get_ccs_intermediates_opt, line 45 *)
Definition ccsd_X_bb_ooov (d : dims) (H : ints) (T U : amps) : mat4 := fun m n i e =>
  sumn (nub d) (fun f => (i_bb_oovv H m n f e) * (x_b U f i)).
(** ccpy/hbar/hbar_ccs.py, get_ccs_intermediates_opt, line 46 *)
Definition ccsd_X_bb_oooo (d : dims) (H : ints) (T U : amps) : mat4 := fun m n i j =>
  1 / 2 * (i_bb_oooo H m n i j) + sumn (nub d) (fun e => (i_bb_ooov H n m j e + 1 / 2 * (ccsd_X_bb_ooov d H T U n m j e)) * (x_b U e i)).
(** ccpy/hbar/hbar_ccs.py, get_ccs_intermediates_opt, line 47 *)
Definition ccsd_X_bb_oooo_1 (d : dims) (H : ints) (T U : amps) : mat4 := fun m n i j =>
  ccsd_X_bb_oooo d H T U m n i j - ccsd_X_bb_oooo d H T U m n j i.
(** ccpy/hbar/hbar_ccs.py, get_ccs_intermediates_opt, line 48 *)
Definition ccsd_X_bb_vovv (d : dims) (H : ints) (T U : amps) : mat4 := fun a m e f =>
  (- (sumn (nob d) (fun n => (i_bb_oovv H m n f e) * (x_b U a n)))).
(** ccpy/hbar/hbar_ccs.py, get_ccs_intermediates_opt, lines 49-52 *)
Definition ccsd_X_bb_voov (d : dims) (H : ints) (T U : amps) : mat4 := fun a m i e =>
  i_bb_voov H a m i e + (sumn (nub d) (fun f => (i_bb_vovv H a m f e + 1 / 2 * (ccsd_X_bb_vovv d H T U a m f e)) * (x_b U f i)) - sumn (nob d) (fun n => (i_bb_ooov H n m i e + 1 / 2 * (ccsd_X_bb_ooov d H T U n m i e)) * (x_b U a n))).
(** ccpy/hbar/hbar_ccs.py, get_ccs_intermediates_opt, line 53 *)
Definition ccsd_L_amie_2 (d : dims) (H : ints) (T U : amps) : mat4 := fun a m i f =>
  i_bb_voov H a m i f + 1 / 2 * (sumn (nub d) (fun e => (i_bb_vovv H a m e f) * (x_b U e i))).
(** ccpy/hbar/hbar_ccs.py, get_ccs_intermediates_opt, line 54 *)
Definition ccsd_X_mnij_1 (d : dims) (H : ints) (T U : amps) : mat4 := fun m n i j =>
  i_bb_oooo H m n i j + sumn (nub d) (fun e => (ccsd_X_bb_ooov d H T U m n i e) * (x_b U e j)).
(** ccpy/hbar/hbar_ccs.py, get_ccs_intermediates_opt, lines 55-58 *)
Definition ccsd_X_bb_vooo (d : dims) (H : ints) (T U : amps) : mat4 := fun a m i j =>
  1 / 2 * (i_bb_vooo H a m i j) + (sumn (nub d) (fun e => (ccsd_L_amie_2 d H T U a m i e) * (x_b U e j)) - 1 / 4 * (sumn (nob d) (fun m' => (ccsd_X_mnij_1 d H T U m' m i j) * (x_b U a m')))).
(** ccpy/hbar/hbar_ccs.py, get_ccs_intermediates_opt, line 59 *)
Definition ccsd_X_bb_vooo_1 (d : dims) (H : ints) (T U : amps) : mat4 := fun a m i j =>
  ccsd_X_bb_vooo d H T U a m i j - ccsd_X_bb_vooo d H T U a m j i.
(** ccpy/hbar/hbar_ccs.py, get_ccs_intermediates_opt, line 60 *)
Definition ccsd_L_amie_3 (d : dims) (H : ints) (T U : amps) : mat4 := fun a n i e =>
  sumn (nob d) (fun m => (i_bb_ooov H m n i e) * (x_b U a m)).
(** ccpy/hbar/hbar_ccs.py, get_ccs_intermediates_opt, line 61 *)
Definition ccsd_X_bb_vvov (d : dims) (H : ints) (T U : amps) : mat4 := fun a b i e =>
  i_bb_vvov H a b i e + sumn (nob d) (fun n => (ccsd_L_amie_3 d H T U a n i e) * (x_b U b n)).
(** ccpy/hbar/hbar_ccs.py, get_ccs_intermediates_opt, line 67 *)
Definition ccsd_X_ab_ooov (d : dims) (H : ints) (T U : amps) : mat4 := fun m n i e =>
  sumn (nua d) (fun f => (i_ab_oovv H m n f e) * (x_a U f i)).
(** ccpy/hbar/hbar_ccs.py, get_ccs_intermediates_opt, line 68 *)
Definition ccsd_X_ab_oovo (d : dims) (H : ints) (T U : amps) : mat4 := fun n m e i =>
  sumn (nub d) (fun f => (i_ab_oovv H n m e f) * (x_b U f i)).
(** ccpy/hbar/hbar_ccs.py, get_ccs_intermediates_opt, lines 69-72 *)
Definition ccsd_X_ab_oooo (d : dims) (H : ints) (T U : amps) : mat4 := fun m n i j =>
  i_ab_oooo H m n i j + (sumn (nua d) (fun e => (i_ab_oovo H m n e j + 1 / 2 * (ccsd_X_ab_oovo d H T U m n e j)) * (x_a U e i)) + sumn (nub d) (fun e => (i_ab_ooov H m n i e + 1 / 2 * (ccsd_X_ab_ooov d H T U m n i e)) * (x_b U e j))).
(** ccpy/hbar/hbar_ccs.py, get_ccs_intermediates_opt, line 73 *)
Definition ccsd_X_ab_vovv (d : dims) (H : ints) (T U : amps) : mat4 := fun a m e f =>
  (- (sumn (noa d) (fun n => (i_ab_oovv H n m e f) * (x_a U a n)))).
(** ccpy/hbar/hbar_ccs.py, get_ccs_intermediates_opt, line 74 *)
Definition ccsd_X_ab_ovvv (d : dims) (H : ints) (T U : amps) : mat4 := fun m a e f =>
  (- (sumn (nob d) (fun n => (i_ab_oovv H m n e f) * (x_b U a n)))).
(** ccpy/hbar/hbar_ccs.py, get_ccs_intermediates_opt, lines 75-78 *)
Definition ccsd_X_ab_voov (d : dims) (H : ints) (T U : amps) : mat4 := fun a m i e =>
  i_ab_voov H a m i e + (sumn (nua d) (fun f => (i_ab_vovv H a m f e + 1 / 2 * (ccsd_X_ab_vovv d H T U a m f e)) * (x_a U f i)) - sumn (noa d) (fun n => (i_ab_ooov H n m i e + 1 / 2 * (ccsd_X_ab_ooov d H T U n m i e)) * (x_a U a n))).
(** ccpy/hbar/hbar_ccs.py, get_ccs_intermediates_opt, lines 79-82 *)
Definition ccsd_X_ab_ovvo (d : dims) (H : ints) (T U : amps) : mat4 := fun m a e i =>
  i_ab_ovvo H m a e i + (sumn (nub d) (fun f => (i_ab_ovvv H m a e f + 1 / 2 * (ccsd_X_ab_ovvv d H T U m a e f)) * (x_b U f i)) - sumn (nob d) (fun n => (i_ab_oovo H m n e i + 1 / 2 * (ccsd_X_ab_oovo d H T U m n e i)) * (x_b U a n))).
(** ccpy/hbar/hbar_ccs.py, get_ccs_intermediates_opt, lines 83-86 *)
Definition ccsd_X_ab_ovov (d : dims) (H : ints) (T U : amps) : mat4 := fun m a i e =>
  i_ab_ovov H m a i e + (sumn (nua d) (fun f => (i_ab_ovvv H m a f e + 1 / 2 * (ccsd_X_ab_ovvv d H T U m a f e)) * (x_a U f i)) - sumn (nob d) (fun n => (i_ab_ooov H m n i e + 1 / 2 * (ccsd_X_ab_ooov d H T U m n i e)) * (x_b U a n))).
(** ccpy/hbar/hbar_ccs.py, get_ccs_intermediates_opt, lines 87-90 *)
Definition ccsd_X_ab_vovo (d : dims) (H : ints) (T U : amps) : mat4 := fun a m e i =>
  i_ab_vovo H a m e i - (sumn (noa d) (fun n => (i_ab_oovo H n m e i + 1 / 2 * (ccsd_X_ab_oovo d H T U n m e i)) * (x_a U a n)) - sumn (nub d) (fun f => (i_ab_vovv H a m e f + 1 / 2 * (ccsd_X_ab_vovv d H T U a m e f)) * (x_b U f i))).
(** ccpy/hbar/hbar_ccs.py, get_ccs_intermediates_opt, lines 91-94 *)
Definition ccsd_X_mnij_2 (d : dims) (H : ints) (T U : amps) : mat4 := fun m n i j =>
  i_ab_oooo H m n i j + (sumn (nub d) (fun f => (i_ab_ooov H m n i f) * (x_b U f j)) + sumn (nua d) (fun e => (i_ab_oovo H m n e j) * (x_a U e i))).
(** ccpy/hbar/hbar_ccs.py, get_ccs_intermediates_opt, line 95 *)
Definition ccsd_L_mbej (d : dims) (H : ints) (T U : amps) : mat4 := fun m b e j =>
  i_ab_ovvo H m b e j + sumn (nub d) (fun f => (i_ab_ovvv H m b e f) * (x_b U f j)).
(** ccpy/hbar/hbar_ccs.py, get_ccs_intermediates_opt, lines 96-99 *)
Definition ccsd_X_ab_ovoo (d : dims) (H : ints) (T U : amps) : mat4 := fun m b i j =>
  i_ab_ovoo H m b i j + (sumn (nua d) (fun e => (ccsd_L_mbej d H T U m b e j) * (x_a U e i)) - sumn (nob d) (fun n => (ccsd_X_mnij_2 d H T U m n i j) * (x_b U b n))).
(** ccpy/hbar/hbar_ccs.py, get_ccs_intermediates_opt, line 100 *)
Definition ccsd_L_amie_4 (d : dims) (H : ints) (T U : amps) : mat4 := fun a m i f =>
  sumn (nua d) (fun e => (i_ab_vovv H a m e f + ccsd_X_ab_vovv d H T U a m e f) * (x_a U e i)).
(** ccpy/hbar/hbar_ccs.py, get_ccs_intermediates_opt, line 101 *)
Definition ccsd_X_ab_vooo (d : dims) (H : ints) (T U : amps) : mat4 := fun a m i j =>
  i_ab_vooo H a m i j + sumn (nub d) (fun f => (i_ab_voov H a m i f + ccsd_L_amie_4 d H T U a m i f) * (x_b U f j)).
(** ccpy/hbar/hbar_ccs.py, get_ccs_intermediates_opt, line 102 *)
Definition ccsd_X_ab_vvvo (d : dims) (H : ints) (T U : amps) : mat4 := fun a b e j =>
  i_ab_vvvo H a b e j - sumn (nob d) (fun n => (i_ab_vovo H a n e j) * (x_b U b n)).
(** ccpy/hbar/hbar_ccs.py, get_ccs_intermediates_opt, line 103 *)
Definition ccsd_X_ab_vvov (d : dims) (H : ints) (T U : amps) : mat4 := fun a b i e =>
  i_ab_vvov H a b i e - sumn (noa d) (fun m => (i_ab_ovov H m b i e) * (x_a U a m)).
(** ccpy/cc/ccsd.py, update_t2a, lines 84-87 *)
Definition ccsd_I2A_voov (d : dims) (H : ints) (T U : amps) : mat4 := fun a m i e =>
  ccsd_X_aa_voov d H T U a m i e + (1 / 2 * (sumn (noa d) (fun n => sumn (nua d) (fun f => (i_aa_oovv H m n e f) * (x_aa T a f i n)))) + sumn (nob d) (fun n => sumn (nub d) (fun f => (i_ab_oovv H m n e f) * (x_ab T a f i n)))).
(** ccpy/cc/ccsd.py, update_t2a, line 88 *)
Definition ccsd_I2A_oooo (d : dims) (H : ints) (T U : amps) : mat4 := fun m n i j =>
  ccsd_X_aa_oooo_1 d H T U m n i j + 1 / 2 * (sumn (nua d) (fun e => sumn (nua d) (fun f => (i_aa_oovv H m n e f) * (x_aa T e f i j)))).
(** ccpy/cc/ccsd.py, update_t2a, line 89 *)
Definition ccsd_I2B_voov (d : dims) (H : ints) (T U : amps) : mat4 := fun a m i e =>
  ccsd_X_ab_voov d H T U a m i e + 1 / 2 * (sumn (nob d) (fun n => sumn (nub d) (fun f => (i_bb_oovv H m n e f) * (x_ab T a f i n)))).
(** ccpy/cc/ccsd.py, update_t2a, line 90 *)
Definition ccsd_I2A_vooo (d : dims) (H : ints) (T U : amps) : mat4 := fun a m i j =>
  ccsd_X_aa_vooo_1 d H T U a m i j + 1 / 2 * (sumn (nua d) (fun e => sumn (nua d) (fun f => (i_aa_vovv H a m e f + 1 / 2 * (ccsd_X_aa_vovv d H T U a m e f)) * (x_aa T e f i j)))).
(** ccpy/cc/ccsd.py, update_t2a, line 92 *)
Definition ccsd_tau (d : dims) (H : ints) (T U : amps) : mat4 := fun a b i j =>
  1 / 2 * (x_aa T a b i j) + (x_a U a i) * (x_a U b j).
(** ccpy/cc/ccsd.py, update_t2a, line 94 *)
Definition ccsd_dT_aa (d : dims) (H : ints) (T U : amps) : mat4 := fun a b i j =>
  (-1) / 2 * (sumn (noa d) (fun m => (ccsd_I2A_vooo d H T U a m i j) * (x_a U b m))).
(** ccpy/cc/ccsd.py, update_t2a, line 95 *)
Definition ccsd_dT_aa_1 (d : dims) (H : ints) (T U : amps) : mat4 := fun a b i j =>
  ccsd_dT_aa d H T U a b i j + 1 / 2 * (sumn (nua d) (fun e => (ccsd_X_aa_vvov d H T U a b i e) * (x_a U e j))).
(** ccpy/cc/ccsd.py, update_t2a, line 96 *)
Definition ccsd_dT_aa_2 (d : dims) (H : ints) (T U : amps) : mat4 := fun a b i j =>
  ccsd_dT_aa_1 d H T U a b i j + 1 / 2 * (sumn (nua d) (fun e => (ccsd_X_a_vv_1 d H T U a e) * (x_aa T e b i j))).
(** ccpy/cc/ccsd.py, update_t2a, line 97 *)
Definition ccsd_dT_aa_3 (d : dims) (H : ints) (T U : amps) : mat4 := fun a b i j =>
  ccsd_dT_aa_2 d H T U a b i j - 1 / 2 * (sumn (noa d) (fun m => (ccsd_X_a_oo d H T U m i) * (x_aa T a b m j))).
(** ccpy/cc/ccsd.py, update_t2a, line 98 *)
Definition ccsd_dT_aa_4 (d : dims) (H : ints) (T U : amps) : mat4 := fun a b i j =>
  ccsd_dT_aa_3 d H T U a b i j + sumn (noa d) (fun m => sumn (nua d) (fun e => (ccsd_I2A_voov d H T U a m i e) * (x_aa T e b m j))).
(** ccpy/cc/ccsd.py, update_t2a, line 99 *)
Definition ccsd_dT_aa_5 (d : dims) (H : ints) (T U : amps) : mat4 := fun a b i j =>
  ccsd_dT_aa_4 d H T U a b i j + sumn (nob d) (fun m => sumn (nub d) (fun e => (ccsd_I2B_voov d H T U a m i e) * (x_ab T b e j m))).
(** ccpy/cc/ccsd.py, update_t2a, line 100 *)
Definition ccsd_dT_aa_6 (d : dims) (H : ints) (T U : amps) : mat4 := fun a b i j =>
  ccsd_dT_aa_5 d H T U a b i j + 1 / 8 * (sumn (noa d) (fun m => sumn (noa d) (fun n => (ccsd_I2A_oooo d H T U m n i j) * (x_aa T a b m n)))).
(** ccpy/cc/ccsd.py, update_t2a, line 101 *)
Definition ccsd_dT_aa_7 (d : dims) (H : ints) (T U : amps) : mat4 := fun a b i j =>
  ccsd_dT_aa_6 d H T U a b i j + 1 / 4 * (sumn (nua d) (fun e => sumn (nua d) (fun f => (i_aa_vvvv H a b e f) * (ccsd_tau d H T U e f i j)))).
(** ccpy/cc/ccsd.py, update_t2a, lines 103-105 *)
Definition ccsd_res_aa (d : dims) (H : ints) (T U : amps) : mat4 := fun a b i j =>
  ccsd_dT_aa_7 d H T U a b i j + 1 / 4 * (i_aa_vvoo H a b i j).
(** ccpy/cc/ccsd.py, update_t2b, lines 116-119 *)
Definition ccsd_I2A_voov_1 (d : dims) (H : ints) (T U : amps) : mat4 := fun a m i e =>
  ccsd_X_aa_voov d H T U a m i e + (sumn (noa d) (fun m' => sumn (nua d) (fun e' => (i_aa_oovv H m' m e' e) * (x_aa U a e' i m'))) + sumn (nob d) (fun m' => sumn (nub d) (fun e' => (i_ab_oovv H m m' e e') * (x_ab T a e' i m')))).
(** ccpy/cc/ccsd.py, update_t2b, lines 120-123 *)
Definition ccsd_I2B_voov_1 (d : dims) (H : ints) (T U : amps) : mat4 := fun a m i e =>
  ccsd_X_ab_voov d H T U a m i e + (sumn (noa d) (fun m' => sumn (nua d) (fun e' => (i_ab_oovv H m' m e' e) * (x_aa U a e' i m'))) + sumn (nob d) (fun m' => sumn (nub d) (fun e' => (i_bb_oovv H m' m e' e) * (x_ab T a e' i m')))).
(** ccpy/cc/ccsd.py, update_t2b, line 124 *)
Definition ccsd_I2B_oooo (d : dims) (H : ints) (T U : amps) : mat4 := fun m n i j =>
  ccsd_X_ab_oooo d H T U m n i j + sumn (nua d) (fun e => sumn (nub d) (fun f => (i_ab_oovv H m n e f) * (x_ab T e f i j))).
(** ccpy/cc/ccsd.py, update_t2b, line 125 *)
Definition ccsd_I2B_vovo (d : dims) (H : ints) (T U : amps) : mat4 := fun a m e i =>
  ccsd_X_ab_vovo d H T U a m e i - sumn (noa d) (fun m' => sumn (nub d) (fun f => (i_ab_oovv H m' m e f) * (x_ab T a f m' i))).
(** ccpy/cc/ccsd.py, update_t2b, line 126 *)
Definition ccsd_I2B_ovoo (d : dims) (H : ints) (T U : amps) : mat4 := fun m b i j =>
  ccsd_X_ab_ovoo d H T U m b i j + sumn (nua d) (fun e => sumn (nub d) (fun f => (i_ab_ovvv H m b e f + 1 / 2 * (ccsd_X_ab_ovvv d H T U m b e f)) * (x_ab T e f i j))).
(** ccpy/cc/ccsd.py, update_t2b, line 127 *)
Definition ccsd_I2B_vooo (d : dims) (H : ints) (T U : amps) : mat4 := fun a m i j =>
  ccsd_X_ab_vooo d H T U a m i j + sumn (nua d) (fun e => sumn (nub d) (fun f => (i_ab_vovv H a m e f + 1 / 2 * (ccsd_X_ab_vovv d H T U a m e f)) * (x_ab T e f i j))).
(** ccpy/cc/ccsd.py, update_t2b, line 129 *)
Definition ccsd_tau_1 (d : dims) (H : ints) (T U : amps) : mat4 := fun a b i j =>
  x_ab T a b i j + (x_a U a i) * (x_b U b j).
(** ccpy/cc/ccsd.py, update_t2b, line 131 *)
Definition ccsd_dT_ab (d : dims) (H : ints) (T U : amps) : mat4 := fun a b i j =>
  (- (sumn (noa d) (fun m => (ccsd_I2B_ovoo d H T U m b i j) * (x_a U a m)))).
(** ccpy/cc/ccsd.py, update_t2b, line 132 *)
Definition ccsd_dT_ab_1 (d : dims) (H : ints) (T U : amps) : mat4 := fun a b i j =>
  ccsd_dT_ab d H T U a b i j - sumn (nob d) (fun m => (ccsd_I2B_vooo d H T U a m i j) * (x_b U b m)).
(** ccpy/cc/ccsd.py, update_t2b, line 133 *)
Definition ccsd_dT_ab_2 (d : dims) (H : ints) (T U : amps) : mat4 := fun a b i j =>
  ccsd_dT_ab_1 d H T U a b i j + sumn (nua d) (fun e => (ccsd_X_ab_vvvo d H T U a b e j) * (x_a U e i)).
(** ccpy/cc/ccsd.py, update_t2b, line 134 *)
Definition ccsd_dT_ab_3 (d : dims) (H : ints) (T U : amps) : mat4 := fun a b i j =>
  ccsd_dT_ab_2 d H T U a b i j + sumn (nub d) (fun e => (ccsd_X_ab_vvov d H T U a b i e) * (x_b U e j)).
(** ccpy/cc/ccsd.py, update_t2b, line 135 *)
Definition ccsd_dT_ab_4 (d : dims) (H : ints) (T U : amps) : mat4 := fun a b i j =>
  ccsd_dT_ab_3 d H T U a b i j + sumn (nua d) (fun e => (ccsd_X_a_vv_1 d H T U a e) * (x_ab T e b i j)).
(** ccpy/cc/ccsd.py, update_t2b, line 136 *)
Definition ccsd_dT_ab_5 (d : dims) (H : ints) (T U : amps) : mat4 := fun a b i j =>
  ccsd_dT_ab_4 d H T U a b i j + sumn (nub d) (fun e => (ccsd_X_b_vv_1 d H T U b e) * (x_ab T a e i j)).
(** ccpy/cc/ccsd.py, update_t2b, line 137 *)
Definition ccsd_dT_ab_6 (d : dims) (H : ints) (T U : amps) : mat4 := fun a b i j =>
  ccsd_dT_ab_5 d H T U a b i j - sumn (noa d) (fun m => (ccsd_X_a_oo d H T U m i) * (x_ab T a b m j)).
(** ccpy/cc/ccsd.py, update_t2b, line 138 *)
Definition ccsd_dT_ab_7 (d : dims) (H : ints) (T U : amps) : mat4 := fun a b i j =>
  ccsd_dT_ab_6 d H T U a b i j - sumn (nob d) (fun m => (ccsd_X_b_oo d H T U m j) * (x_ab T a b i m)).
(** ccpy/cc/ccsd.py, update_t2b, line 139 *)
Definition ccsd_dT_ab_8 (d : dims) (H : ints) (T U : amps) : mat4 := fun a b i j =>
  ccsd_dT_ab_7 d H T U a b i j + sumn (noa d) (fun m => sumn (nua d) (fun e => (ccsd_I2A_voov_1 d H T U a m i e) * (x_ab T e b m j))).
(** ccpy/cc/ccsd.py, update_t2b, line 140 *)
Definition ccsd_dT_ab_9 (d : dims) (H : ints) (T U : amps) : mat4 := fun a b i j =>
  ccsd_dT_ab_8 d H T U a b i j + sumn (nob d) (fun m => sumn (nub d) (fun e => (ccsd_I2B_voov_1 d H T U a m i e) * (x_bb T e b m j))).
(** ccpy/cc/ccsd.py, update_t2b, line 141 *)
Definition ccsd_dT_ab_10 (d : dims) (H : ints) (T U : amps) : mat4 := fun a b i j =>
  ccsd_dT_ab_9 d H T U a b i j + sumn (noa d) (fun m => sumn (nua d) (fun e => (ccsd_X_ab_ovvo d H T U m b e j) * (x_aa U a e i m))).
(** ccpy/cc/ccsd.py, update_t2b, line 142 *)
Definition ccsd_dT_ab_11 (d : dims) (H : ints) (T U : amps) : mat4 := fun a b i j =>
  ccsd_dT_ab_10 d H T U a b i j + sumn (nob d) (fun m => sumn (nub d) (fun e => (ccsd_X_bb_voov d H T U b m j e) * (x_ab T a e i m))).
(** ccpy/cc/ccsd.py, update_t2b, line 143 *)
Definition ccsd_dT_ab_12 (d : dims) (H : ints) (T U : amps) : mat4 := fun a b i j =>
  ccsd_dT_ab_11 d H T U a b i j - sumn (noa d) (fun m => sumn (nub d) (fun e => (ccsd_X_ab_ovov d H T U m b i e) * (x_ab T a e m j))).
(** ccpy/cc/ccsd.py, update_t2b, line 144 *)
Definition ccsd_dT_ab_13 (d : dims) (H : ints) (T U : amps) : mat4 := fun a b i j =>
  ccsd_dT_ab_12 d H T U a b i j - sumn (nob d) (fun m => sumn (nua d) (fun e => (ccsd_I2B_vovo d H T U a m e j) * (x_ab T e b i m))).
(** ccpy/cc/ccsd.py, update_t2b, line 145 *)
Definition ccsd_dT_ab_14 (d : dims) (H : ints) (T U : amps) : mat4 := fun a b i j =>
  ccsd_dT_ab_13 d H T U a b i j + sumn (noa d) (fun m => sumn (nob d) (fun n => (ccsd_I2B_oooo d H T U m n i j) * (x_ab T a b m n))).
(** ccpy/cc/ccsd.py, update_t2b, line 146 *)
Definition ccsd_dT_ab_15 (d : dims) (H : ints) (T U : amps) : mat4 := fun a b i j =>
  ccsd_dT_ab_14 d H T U a b i j + sumn (nua d) (fun e => sumn (nub d) (fun f => (i_ab_vvvv H a b e f) * (ccsd_tau_1 d H T U e f i j))).
(** ccpy/cc/ccsd.py, update_t2b, lines 148-150 *)
Definition ccsd_res_ab (d : dims) (H : ints) (T U : amps) : mat4 := fun a b i j =>
  ccsd_dT_ab_15 d H T U a b i j + i_ab_vvoo H a b i j.
(** ccpy/cc/ccsd.py, update_t2c, line 161 *)
Definition ccsd_I2C_oooo (d : dims) (H : ints) (T U : amps) : mat4 := fun m n i j =>
  ccsd_X_bb_oooo_1 d H T U m n i j + 1 / 2 * (sumn (nub d) (fun e => sumn (nub d) (fun f => (i_bb_oovv H m n e f) * (x_bb T e f i j)))).
(** ccpy/cc/ccsd.py, update_t2c, lines 162-165 *)
Definition ccsd_I2B_ovvo (d : dims) (H : ints) (T U : amps) : mat4 := fun m a e i =>
  ccsd_X_ab_ovvo d H T U m a e i + (sumn (nob d) (fun n => sumn (nub d) (fun f => (i_ab_oovv H m n e f) * (x_bb T a f i n))) + 1 / 2 * (sumn (noa d) (fun n => sumn (nua d) (fun f => (i_aa_oovv H m n e f) * (x_ab U f a n i))))).
(** ccpy/cc/ccsd.py, update_t2c, line 166 *)
Definition ccsd_I2C_voov (d : dims) (H : ints) (T U : amps) : mat4 := fun a m i e =>
  ccsd_X_bb_voov d H T U a m i e + 1 / 2 * (sumn (nob d) (fun n => sumn (nub d) (fun f => (i_bb_oovv H m n e f) * (x_bb T a f i n)))).
(** ccpy/cc/ccsd.py, update_t2c, line 167 *)
Definition ccsd_I2C_vooo (d : dims) (H : ints) (T U : amps) : mat4 := fun a m i j =>
  ccsd_X_bb_vooo_1 d H T U a m i j + 1 / 2 * (sumn (nub d) (fun e => sumn (nub d) (fun f => (i_bb_vovv H a m e f + 1 / 2 * (ccsd_X_bb_vovv d H T U a m e f)) * (x_bb T e f i j)))).
(** ccpy/cc/ccsd.py, update_t2c, line 169 *)
Definition ccsd_tau_2 (d : dims) (H : ints) (T U : amps) : mat4 := fun a b i j =>
  1 / 2 * (x_bb T a b i j) + (x_b U a i) * (x_b U b j).
(** ccpy/cc/ccsd.py, update_t2c, line 171 *)
Definition ccsd_dT_bb (d : dims) (H : ints) (T U : amps) : mat4 := fun a b i j =>
  (-1) / 2 * (sumn (nob d) (fun m => (ccsd_I2C_vooo d H T U a m i j) * (x_b U b m))).
(** ccpy/cc/ccsd.py, update_t2c, line 172 *)
Definition ccsd_dT_bb_1 (d : dims) (H : ints) (T U : amps) : mat4 := fun a b i j =>
  ccsd_dT_bb d H T U a b i j + 1 / 2 * (sumn (nub d) (fun e => (ccsd_X_bb_vvov d H T U a b i e) * (x_b U e j))).
(** ccpy/cc/ccsd.py, update_t2c, line 173 *)
Definition ccsd_dT_bb_2 (d : dims) (H : ints) (T U : amps) : mat4 := fun a b i j =>
  ccsd_dT_bb_1 d H T U a b i j + 1 / 2 * (sumn (nub d) (fun e => (ccsd_X_b_vv_1 d H T U a e) * (x_bb T e b i j))).
(** ccpy/cc/ccsd.py, update_t2c, line 174 *)
Definition ccsd_dT_bb_3 (d : dims) (H : ints) (T U : amps) : mat4 := fun a b i j =>
  ccsd_dT_bb_2 d H T U a b i j - 1 / 2 * (sumn (nob d) (fun m => (ccsd_X_b_oo d H T U m i) * (x_bb T a b m j))).
(** ccpy/cc/ccsd.py, update_t2c, line 175 *)
Definition ccsd_dT_bb_4 (d : dims) (H : ints) (T U : amps) : mat4 := fun a b i j =>
  ccsd_dT_bb_3 d H T U a b i j + sumn (nob d) (fun m => sumn (nub d) (fun e => (ccsd_I2C_voov d H T U a m i e) * (x_bb T e b m j))).
(** ccpy/cc/ccsd.py, update_t2c, line 176 *)
Definition ccsd_dT_bb_5 (d : dims) (H : ints) (T U : amps) : mat4 := fun a b i j =>
  ccsd_dT_bb_4 d H T U a b i j + sumn (noa d) (fun m => sumn (nua d) (fun e => (ccsd_I2B_ovvo d H T U m a e i) * (x_ab U e b m j))).
(** ccpy/cc/ccsd.py, update_t2c, line 177 *)
Definition ccsd_dT_bb_6 (d : dims) (H : ints) (T U : amps) : mat4 := fun a b i j =>
  ccsd_dT_bb_5 d H T U a b i j + 1 / 8 * (sumn (nob d) (fun m => sumn (nob d) (fun n => (ccsd_I2C_oooo d H T U m n i j) * (x_bb T a b m n)))).
(** ccpy/cc/ccsd.py, update_t2c, line 178 *)
Definition ccsd_dT_bb_7 (d : dims) (H : ints) (T U : amps) : mat4 := fun a b i j =>
  ccsd_dT_bb_6 d H T U a b i j + 1 / 4 * (sumn (nub d) (fun e => sumn (nub d) (fun f => (i_bb_vvvv H a b e f) * (ccsd_tau_2 d H T U e f i j)))).
(** ccpy/cc/ccsd.py, update_t2c, lines 180-182 *)
Definition ccsd_res_bb (d : dims) (H : ints) (T U : amps) : mat4 := fun a b i j =>
  ccsd_dT_bb_7 d H T U a b i j + 1 / 4 * (i_bb_vvoo H a b i j).
(** ccpy/hbar/hbar_ccsd.py, build_hbar_ccsd, lines 9-12 *)
Definition hb_H_a_ov (d : dims) (H : ints) (T : amps) : mat2 := fun i a =>
  i_a_ov H i a + (sumn (noa d) (fun m => sumn (nua d) (fun e => (i_aa_oovv H i m a e) * (x_a T e m))) + sumn (nob d) (fun m => sumn (nub d) (fun e => (i_ab_oovv H i m a e) * (x_b T e m)))).
(** ccpy/hbar/hbar_ccsd.py, build_hbar_ccsd, lines 14-20 *)
Definition hb_H_a_oo (d : dims) (H : ints) (T : amps) : mat2 := fun i j =>
  i_a_oo H i j + (sumn (nua d) (fun e => (hb_H_a_ov d H T i e) * (x_a T e j)) + sumn (noa d) (fun m => sumn (nua d) (fun e => (i_aa_ooov H i m j e) * (x_a T e m))) + sumn (nob d) (fun m => sumn (nub d) (fun e => (i_ab_ooov H i m j e) * (x_b T e m))) + 1 / 2 * (sumn (noa d) (fun n => sumn (nua d) (fun e => sumn (nua d) (fun f => (i_aa_oovv H i n e f) * (x_aa T e f j n))))) + sumn (nob d) (fun n => sumn (nua d) (fun e => sumn (nub d) (fun f => (i_ab_oovv H i n e f) * (x_ab T e f j n))))).
(** ccpy/hbar/hbar_ccsd.py, build_hbar_ccsd, lines 22-28 *)
Definition hb_H_a_vv (d : dims) (H : ints) (T : amps) : mat2 := fun a b =>
  i_a_vv H a b + ((- (sumn (noa d) (fun m => (hb_H_a_ov d H T m b) * (x_a T a m)))) + sumn (noa d) (fun m => sumn (nua d) (fun e => (i_aa_vovv H a m b e) * (x_a T e m))) + sumn (nob d) (fun m => sumn (nub d) (fun e => (i_ab_vovv H a m b e) * (x_b T e m))) - 1 / 2 * (sumn (noa d) (fun m => sumn (noa d) (fun n => sumn (nua d) (fun f => (i_aa_oovv H m n b f) * (x_aa T a f m n))))) - sumn (noa d) (fun m => sumn (nob d) (fun n => sumn (nub d) (fun f => (i_ab_oovv H m n b f) * (x_ab T a f m n))))).
(** ccpy/hbar/hbar_ccsd.py, build_hbar_ccsd, lines 30-33 *)
Definition hb_H_b_ov (d : dims) (H : ints) (T : amps) : mat2 := fun i a =>
  i_b_ov H i a + (sumn (nob d) (fun m => sumn (nub d) (fun e => (i_bb_oovv H i m a e) * (x_b T e m))) + sumn (noa d) (fun m => sumn (nua d) (fun e => (i_ab_oovv H m i e a) * (x_a T e m)))).
(** ccpy/hbar/hbar_ccsd.py, build_hbar_ccsd, lines 35-41 *)
Definition hb_H_b_oo (d : dims) (H : ints) (T : amps) : mat2 := fun i j =>
  i_b_oo H i j + (sumn (nub d) (fun e => (hb_H_b_ov d H T i e) * (x_b T e j)) + sumn (nob d) (fun m => sumn (nub d) (fun e => (i_bb_ooov H i m j e) * (x_b T e m))) + sumn (noa d) (fun m => sumn (nua d) (fun e => (i_ab_oovo H m i e j) * (x_a T e m))) + 1 / 2 * (sumn (nob d) (fun n => sumn (nub d) (fun e => sumn (nub d) (fun f => (i_bb_oovv H i n e f) * (x_bb T e f j n))))) + sumn (noa d) (fun n => sumn (nua d) (fun f => sumn (nub d) (fun e => (i_ab_oovv H n i f e) * (x_ab T f e n j))))).
(** ccpy/hbar/hbar_ccsd.py, build_hbar_ccsd, lines 43-49 *)
Definition hb_H_b_vv (d : dims) (H : ints) (T : amps) : mat2 := fun a b =>
  i_b_vv H a b + ((- (sumn (nob d) (fun m => (hb_H_b_ov d H T m b) * (x_b T a m)))) + sumn (nob d) (fun m => sumn (nub d) (fun e => (i_bb_vovv H a m b e) * (x_b T e m))) + sumn (noa d) (fun m => sumn (nua d) (fun e => (i_ab_ovvv H m a e b) * (x_a T e m))) - 1 / 2 * (sumn (nob d) (fun m => sumn (nob d) (fun n => sumn (nub d) (fun f => (i_bb_oovv H m n b f) * (x_bb T a f m n))))) - sumn (noa d) (fun n => sumn (nob d) (fun m => sumn (nua d) (fun f => (i_ab_oovv H n m f b) * (x_ab T f a n m))))).
(** ccpy/hbar/hbar_ccsd.py, build_hbar_ccsd, line 53 *)
Definition hb_tau_aa (d : dims) (H : ints) (T : amps) : mat4 := fun a b i j =>
  1 / 2 * (x_aa T a b i j) + (x_a T a i) * (x_a T b j).
(** ccpy/hbar/hbar_ccsd.py, build_hbar_ccsd, line 54 *)
Definition hb_tau_aa_1 (d : dims) (H : ints) (T : amps) : mat4 := fun a b i j =>
  hb_tau_aa d H T a b i j - hb_tau_aa d H T a b j i.
(** ccpy/hbar/hbar_ccsd.py, build_hbar_ccsd, line 58 *)
Definition hb_tau_bb (d : dims) (H : ints) (T : amps) : mat4 := fun a b i j =>
  1 / 2 * (x_bb T a b i j) + (x_b T a i) * (x_b T b j).
(** ccpy/hbar/hbar_ccsd.py, build_hbar_ccsd, line 59 *)
Definition hb_tau_bb_1 (d : dims) (H : ints) (T : amps) : mat4 := fun a b i j =>
  hb_tau_bb d H T a b i j - hb_tau_bb d H T a b j i.
(** ccpy/hbar/hbar_ccsd.py, build_hbar_ccsd, line 60 *)
Definition hb_tau_ab (d : dims) (H : ints) (T : amps) : mat4 := fun a b i j =>
  x_ab T a b i j + (x_a T a i) * (x_b T b j).
(** ccpy/hbar/hbar_ccsd.py, build_hbar_ccsd, lines 66-70 *)
Definition hb_H_aa_oooo (d : dims) (H : ints) (T : amps) : mat4 := fun m n i j =>
  1 / 2 * (i_aa_oooo H m n i j) + sumn (nua d) (fun e => (i_aa_ooov H n m j e) * (x_a T e i)) + 1 / 4 * (sumn (nua d) (fun e => sumn (nua d) (fun f => (i_aa_oovv H m n e f) * (hb_tau_aa_1 d H T e f i j)))).
(** ccpy/hbar/hbar_ccsd.py, build_hbar_ccsd, line 71 *)
Definition hb_H_aa_oooo_1 (d : dims) (H : ints) (T : amps) : mat4 := fun m n i j =>
  hb_H_aa_oooo d H T m n i j - hb_H_aa_oooo d H T m n j i.
(** ccpy/hbar/hbar_ccsd.py, build_hbar_ccsd, lines 75-79 *)
Definition hb_H_bb_oooo (d : dims) (H : ints) (T : amps) : mat4 := fun m n i j =>
  1 / 2 * (i_bb_oooo H m n i j) + sumn (nub d) (fun e => (i_bb_ooov H n m j e) * (x_b T e i)) + 1 / 4 * (sumn (nub d) (fun e => sumn (nub d) (fun f => (i_bb_oovv H m n e f) * (hb_tau_bb_1 d H T e f i j)))).
(** ccpy/hbar/hbar_ccsd.py, build_hbar_ccsd, line 80 *)
Definition hb_H_bb_oooo_1 (d : dims) (H : ints) (T : amps) : mat4 := fun m n i j =>
  hb_H_bb_oooo d H T m n i j - hb_H_bb_oooo d H T m n j i.
(** ccpy/hbar/hbar_ccsd.py, build_hbar_ccsd, lines 81-86 *)
Definition hb_H_ab_oooo (d : dims) (H : ints) (T : amps) : mat4 := fun m n i j =>
  i_ab_oooo H m n i j + sumn (nua d) (fun e => (i_ab_oovo H m n e j) * (x_a T e i)) + sumn (nub d) (fun e => (i_ab_ooov H m n i e) * (x_b T e j)) + sumn (nua d) (fun e => sumn (nub d) (fun f => (i_ab_oovv H m n e f) * (hb_tau_ab d H T e f i j))).
(** ccpy/hbar/hbar_ccsd.py, build_hbar_ccsd, line 92 *)
Definition hb_H_aa_ooov (d : dims) (H : ints) (T : amps) : mat4 := fun i j k a =>
  i_aa_ooov H i j k a + sumn (nua d) (fun f => (i_aa_oovv H i j f a) * (x_a T f k)).
(** ccpy/hbar/hbar_ccsd.py, build_hbar_ccsd, line 96 *)
Definition hb_H_bb_ooov (d : dims) (H : ints) (T : amps) : mat4 := fun i j k a =>
  i_bb_ooov H i j k a + sumn (nub d) (fun f => (i_bb_oovv H i j f a) * (x_b T f k)).
(** ccpy/hbar/hbar_ccsd.py, build_hbar_ccsd, line 97 *)
Definition hb_H_ab_ooov (d : dims) (H : ints) (T : amps) : mat4 := fun i j k a =>
  i_ab_ooov H i j k a + sumn (nua d) (fun f => (i_ab_oovv H i j f a) * (x_a T f k)).
(** ccpy/hbar/hbar_ccsd.py, build_hbar_ccsd, line 98 *)
Definition hb_H_ab_oovo (d : dims) (H : ints) (T : amps) : mat4 := fun i j a k =>
  i_ab_oovo H i j a k + sumn (nub d) (fun f => (i_ab_oovv H i j a f) * (x_b T f k)).
(** ccpy/hbar/hbar_ccsd.py, build_hbar_ccsd, lines 104-107 *)
Definition hb_Q1 (d : dims) (H : ints) (T : amps) : mat4 := fun a m i j =>
  sumn (noa d) (fun n => sumn (nua d) (fun f => (hb_H_aa_ooov d H T m n j f) * (x_aa T a f i n))) + sumn (nob d) (fun n => sumn (nub d) (fun f => (hb_H_ab_ooov d H T m n j f) * (x_ab T a f i n))).
(** ccpy/hbar/hbar_ccsd.py, build_hbar_ccsd, line 108 *)
Definition hb_Q2 (d : dims) (H : ints) (T : amps) : mat4 := fun a m i f =>
  i_aa_voov H a m i f + 1 / 2 * (sumn (nua d) (fun e => (i_aa_vovv H a m e f) * (x_a T e i))).
(** ccpy/hbar/hbar_ccsd.py, build_hbar_ccsd, line 109 *)
Definition hb_Q2_1 (d : dims) (H : ints) (T : amps) : mat4 := fun a m i j =>
  sumn (nua d) (fun f => (hb_Q2 d H T a m i f) * (x_a T f j)).
(** ccpy/hbar/hbar_ccsd.py, build_hbar_ccsd, line 110 *)
Definition hb_Q1_1 (d : dims) (H : ints) (T : amps) : mat4 := fun a m i j =>
  hb_Q1 d H T a m i j + hb_Q2_1 d H T a m i j.
(** ccpy/hbar/hbar_ccsd.py, build_hbar_ccsd, line 111 *)
Definition hb_Q1_2 (d : dims) (H : ints) (T : amps) : mat4 := fun a m i j =>
  hb_Q1_1 d H T a m i j - hb_Q1_1 d H T a m j i.
(** ccpy/hbar/hbar_ccsd.py, build_hbar_ccsd, lines 112-116 *)
Definition hb_H_aa_vooo (d : dims) (H : ints) (T : amps) : mat4 := fun a m i j =>
  i_aa_vooo H a m i j + hb_Q1_2 d H T a m i j + (sumn (nua d) (fun e => (hb_H_a_ov d H T m e) * (x_aa T a e i j)) - sumn (noa d) (fun n => (hb_H_aa_oooo_1 d H T n m i j) * (x_a T a n)) + 1 / 2 * (sumn (nua d) (fun e => sumn (nua d) (fun f => (i_aa_vovv H a m e f) * (x_aa T e f i j))))).
(** ccpy/hbar/hbar_ccsd.py, build_hbar_ccsd, lines 120-123 *)
Definition hb_Q1_3 (d : dims) (H : ints) (T : amps) : mat4 := fun a m i j =>
  sumn (nob d) (fun n => sumn (nub d) (fun f => (hb_H_bb_ooov d H T m n j f) * (x_bb T a f i n))) + sumn (noa d) (fun n => sumn (nua d) (fun f => (hb_H_ab_oovo d H T n m f j) * (x_ab T f a n i))).
(** ccpy/hbar/hbar_ccsd.py, build_hbar_ccsd, line 124 *)
Definition hb_Q2_2 (d : dims) (H : ints) (T : amps) : mat4 := fun a m i f =>
  i_bb_voov H a m i f + 1 / 2 * (sumn (nub d) (fun e => (i_bb_vovv H a m e f) * (x_b T e i))).
(** ccpy/hbar/hbar_ccsd.py, build_hbar_ccsd, line 125 *)
Definition hb_Q2_3 (d : dims) (H : ints) (T : amps) : mat4 := fun a m i j =>
  sumn (nub d) (fun f => (hb_Q2_2 d H T a m i f) * (x_b T f j)).
(** ccpy/hbar/hbar_ccsd.py, build_hbar_ccsd, line 126 *)
Definition hb_Q1_4 (d : dims) (H : ints) (T : amps) : mat4 := fun a m i j =>
  hb_Q1_3 d H T a m i j + hb_Q2_3 d H T a m i j.
(** ccpy/hbar/hbar_ccsd.py, build_hbar_ccsd, line 127 *)
Definition hb_Q1_5 (d : dims) (H : ints) (T : amps) : mat4 := fun a m i j =>
  hb_Q1_4 d H T a m i j - hb_Q1_4 d H T a m j i.
(** ccpy/hbar/hbar_ccsd.py, build_hbar_ccsd, lines 128-132 *)
Definition hb_H_bb_vooo (d : dims) (H : ints) (T : amps) : mat4 := fun a m i j =>
  i_bb_vooo H a m i j + hb_Q1_5 d H T a m i j + (sumn (nub d) (fun e => (hb_H_b_ov d H T m e) * (x_bb T a e i j)) - sumn (nob d) (fun n => (hb_H_bb_oooo_1 d H T n m i j) * (x_b T a n)) + 1 / 2 * (sumn (nub d) (fun e => sumn (nub d) (fun f => (i_bb_vovv H a m e f) * (x_bb T e f i j))))).
(** ccpy/hbar/hbar_ccsd.py, build_hbar_ccsd, line 133 *)
Definition hb_Q1_6 (d : dims) (H : ints) (T : amps) : mat4 := fun a m i e =>
  i_ab_voov H a m i e + sumn (nua d) (fun f => (i_ab_vovv H a m f e) * (x_a T f i)).
(** ccpy/hbar/hbar_ccsd.py, build_hbar_ccsd, lines 134-143 *)
Definition hb_H_ab_vooo (d : dims) (H : ints) (T : amps) : mat4 := fun a m i j =>
  i_ab_vooo H a m i j + (sumn (nub d) (fun e => (hb_H_b_ov d H T m e) * (x_ab T a e i j)) - sumn (noa d) (fun n => (hb_H_ab_oooo d H T n m i j) * (x_a T a n)) + sumn (nob d) (fun n => sumn (nub d) (fun f => (hb_H_bb_ooov d H T m n j f) * (x_ab T a f i n))) + sumn (noa d) (fun n => sumn (nua d) (fun f => (hb_H_ab_oovo d H T n m f j) * (x_aa T a f i n))) - sumn (noa d) (fun n => sumn (nub d) (fun f => (hb_H_ab_ooov d H T n m i f) * (x_ab T a f n j))) + sumn (nua d) (fun e => (i_ab_vovo H a m e j) * (x_a T e i)) + sumn (nub d) (fun e => (hb_Q1_6 d H T a m i e) * (x_b T e j)) + sumn (nua d) (fun e => sumn (nub d) (fun f => (i_ab_vovv H a m e f) * (x_ab T e f i j)))).
(** ccpy/hbar/hbar_ccsd.py, build_hbar_ccsd, line 144 *)
Definition hb_Q1_7 (d : dims) (H : ints) (T : amps) : mat4 := fun m a j e =>
  i_ab_ovov H m a j e + sumn (nua d) (fun f => (i_ab_ovvv H m a f e) * (x_a T f j)).
(** ccpy/hbar/hbar_ccsd.py, build_hbar_ccsd, lines 145-154 *)
Definition hb_H_ab_ovoo (d : dims) (H : ints) (T : amps) : mat4 := fun m a j i =>
  i_ab_ovoo H m a j i + (sumn (nua d) (fun e => (hb_H_a_ov d H T m e) * (x_ab T e a j i)) - sumn (nob d) (fun n => (hb_H_ab_oooo d H T m n j i) * (x_b T a n)) + sumn (noa d) (fun n => sumn (nua d) (fun f => (hb_H_aa_ooov d H T m n j f) * (x_ab T f a n i))) + sumn (nob d) (fun n => sumn (nub d) (fun f => (hb_H_ab_ooov d H T m n j f) * (x_bb T f a n i))) - sumn (nob d) (fun n => sumn (nua d) (fun f => (hb_H_ab_oovo d H T m n f i) * (x_ab T f a j n))) + sumn (nub d) (fun e => (hb_Q1_7 d H T m a j e) * (x_b T e i)) + sumn (nua d) (fun e => (i_ab_ovvo H m a e i) * (x_a T e j)) + sumn (nua d) (fun f => sumn (nub d) (fun e => (i_ab_ovvv H m a f e) * (x_ab T f e j i)))).
(** ccpy/hbar/hbar_ccsd.py, build_hbar_ccsd, lines 160-166 *)
Definition hb_H_aa_voov (d : dims) (H : ints) (T : amps) : mat4 := fun a m i e =>
  i_aa_voov H a m i e + sumn (nua d) (fun f => (i_aa_vovv H a m f e) * (x_a T f i)) - sumn (noa d) (fun n => (hb_H_aa_ooov d H T n m i e) * (x_a T a n)) + sumn (noa d) (fun n => sumn (nua d) (fun f => (i_aa_oovv H n m f e) * (x_aa T a f i n))) + sumn (nob d) (fun n => sumn (nub d) (fun f => (i_ab_oovv H m n e f) * (x_ab T a f i n))).
(** ccpy/hbar/hbar_ccsd.py, build_hbar_ccsd, lines 170-176 *)
Definition hb_H_bb_voov (d : dims) (H : ints) (T : amps) : mat4 := fun a m i e =>
  i_bb_voov H a m i e + sumn (nub d) (fun f => (i_bb_vovv H a m f e) * (x_b T f i)) - sumn (nob d) (fun n => (hb_H_bb_ooov d H T n m i e) * (x_b T a n)) + sumn (nob d) (fun n => sumn (nub d) (fun f => (i_bb_oovv H n m f e) * (x_bb T a f i n))) + sumn (noa d) (fun n => sumn (nua d) (fun f => (i_ab_oovv H n m f e) * (x_ab T f a n i))).
(** ccpy/hbar/hbar_ccsd.py, build_hbar_ccsd, lines 177-183 *)
Definition hb_H_ab_voov (d : dims) (H : ints) (T : amps) : mat4 := fun a m i e =>
  i_ab_voov H a m i e + sumn (nua d) (fun f => (i_ab_vovv H a m f e) * (x_a T f i)) - sumn (noa d) (fun n => (hb_H_ab_ooov d H T n m i e) * (x_a T a n)) + sumn (noa d) (fun n => sumn (nua d) (fun f => (i_ab_oovv H n m f e) * (x_aa T a f i n))) + sumn (nob d) (fun n => sumn (nub d) (fun f => (i_bb_oovv H n m f e) * (x_ab T a f i n))).
(** ccpy/hbar/hbar_ccsd.py, build_hbar_ccsd, lines 184-190 *)
Definition hb_H_ab_ovvo (d : dims) (H : ints) (T : amps) : mat4 := fun m a e i =>
  i_ab_ovvo H m a e i + sumn (nub d) (fun f => (i_ab_ovvv H m a e f) * (x_b T f i)) - sumn (nob d) (fun n => (hb_H_ab_oovo d H T m n e i) * (x_b T a n)) + sumn (nob d) (fun n => sumn (nub d) (fun f => (i_ab_oovv H m n e f) * (x_bb T a f i n))) + sumn (noa d) (fun n => sumn (nua d) (fun f => (i_aa_oovv H m n e f) * (x_ab T f a n i))).
(** ccpy/hbar/hbar_ccsd.py, build_hbar_ccsd, lines 191-196 *)
Definition hb_H_ab_ovov (d : dims) (H : ints) (T : amps) : mat4 := fun m a i e =>
  i_ab_ovov H m a i e + sumn (nua d) (fun f => (i_ab_ovvv H m a f e) * (x_a T f i)) - sumn (nob d) (fun n => (hb_H_ab_ooov d H T m n i e) * (x_b T a n)) - sumn (nob d) (fun n => sumn (nua d) (fun f => (i_ab_oovv H m n f e) * (x_ab T f a i n))).
(** ccpy/hbar/hbar_ccsd.py, build_hbar_ccsd, lines 197-202 *)
Definition hb_H_ab_vovo (d : dims) (H : ints) (T : amps) : mat4 := fun a m e i =>
  i_ab_vovo H a m e i - sumn (noa d) (fun n => (hb_H_ab_oovo d H T n m e i) * (x_a T a n)) + sumn (nub d) (fun f => (i_ab_vovv H a m e f) * (x_b T f i)) - sumn (noa d) (fun n => sumn (nub d) (fun f => (i_ab_oovv H n m e f) * (x_ab T a f n i))).
(** ccpy/hbar/hbar_ccsd.py, build_hbar_ccsd, line 208 *)
Definition hb_x2a_voov (d : dims) (H : ints) (T : amps) : mat4 := fun a m i e =>
  hb_H_aa_voov d H T a m i e + 1 / 2 * (sumn (noa d) (fun n => (hb_H_aa_ooov d H T n m i e) * (x_a T a n))).
(** ccpy/hbar/hbar_ccsd.py, build_hbar_ccsd, lines 209-218 *)
Definition hb_H_aa_vvov (d : dims) (H : ints) (T : amps) : mat4 := fun a b i e =>
  1 / 2 * (i_aa_vvov H a b i e) - 1 / 2 * (sumn (noa d) (fun m => (hb_H_a_ov d H T m e) * (x_aa T a b i m))) - sumn (noa d) (fun m => (hb_x2a_voov d H T a m i e) * (x_a T b m)) + 1 / 4 * (sumn (noa d) (fun m => sumn (noa d) (fun n => (hb_H_aa_ooov d H T m n i e) * (x_aa T a b m n)))) + 1 / 2 * (sumn (nua d) (fun f => (i_aa_vvvv H a b f e) * (x_a T f i))) + sumn (noa d) (fun n => sumn (nua d) (fun f => (i_aa_vovv H b n e f) * (x_aa T a f i n))) + sumn (nob d) (fun n => sumn (nub d) (fun f => (i_ab_vovv H b n e f) * (x_ab T a f i n))).
(** ccpy/hbar/hbar_ccsd.py, build_hbar_ccsd, line 219 *)
Definition hb_H_aa_vvov_1 (d : dims) (H : ints) (T : amps) : mat4 := fun a b i e =>
  hb_H_aa_vvov d H T a b i e - hb_H_aa_vvov d H T b a i e.
(** ccpy/hbar/hbar_ccsd.py, build_hbar_ccsd, line 223 *)
Definition hb_x2c_voov (d : dims) (H : ints) (T : amps) : mat4 := fun a m i e =>
  hb_H_bb_voov d H T a m i e + 1 / 2 * (sumn (nob d) (fun n => (hb_H_bb_ooov d H T n m i e) * (x_b T a n))).
(** ccpy/hbar/hbar_ccsd.py, build_hbar_ccsd, lines 224-233 *)
Definition hb_H_bb_vvov (d : dims) (H : ints) (T : amps) : mat4 := fun a b i e =>
  1 / 2 * (i_bb_vvov H a b i e) - 1 / 2 * (sumn (nob d) (fun m => (hb_H_b_ov d H T m e) * (x_bb T a b i m))) - sumn (nob d) (fun m => (hb_x2c_voov d H T a m i e) * (x_b T b m)) + 1 / 4 * (sumn (nob d) (fun m => sumn (nob d) (fun n => (hb_H_bb_ooov d H T m n i e) * (x_bb T a b m n)))) + 1 / 2 * (sumn (nub d) (fun f => (i_bb_vvvv H a b f e) * (x_b T f i))) + sumn (nob d) (fun n => sumn (nub d) (fun f => (i_bb_vovv H b n e f) * (x_bb T a f i n))) + sumn (noa d) (fun n => sumn (nua d) (fun f => (i_ab_ovvv H n b f e) * (x_ab T f a n i))).
(** ccpy/hbar/hbar_ccsd.py, build_hbar_ccsd, line 234 *)
Definition hb_H_bb_vvov_1 (d : dims) (H : ints) (T : amps) : mat4 := fun a b i e =>
  hb_H_bb_vvov d H T a b i e - hb_H_bb_vvov d H T b a i e.
(** ccpy/hbar/hbar_ccsd.py, build_hbar_ccsd, line 237 *)
Definition hb_x2b_voov (d : dims) (H : ints) (T : amps) : mat4 := fun a m i e =>
  hb_H_ab_voov d H T a m i e + 1 / 2 * (sumn (noa d) (fun n => (hb_H_ab_ooov d H T n m i e) * (x_a T a n))).
(** ccpy/hbar/hbar_ccsd.py, build_hbar_ccsd, line 238 *)
Definition hb_x2b_ovov (d : dims) (H : ints) (T : amps) : mat4 := fun m a i e =>
  hb_H_ab_ovov d H T m a i e + 1 / 2 * (sumn (nob d) (fun m' => (hb_H_ab_ooov d H T m m' i e) * (x_b T a m'))).
(** ccpy/hbar/hbar_ccsd.py, build_hbar_ccsd, lines 239-250 *)
Definition hb_H_ab_vvov (d : dims) (H : ints) (T : amps) : mat4 := fun a b i e =>
  i_ab_vvov H a b i e - sumn (nob d) (fun m => (hb_H_b_ov d H T m e) * (x_ab T a b i m)) - sumn (nob d) (fun m => (hb_x2b_voov d H T a m i e) * (x_b T b m)) - sumn (noa d) (fun m => (hb_x2b_ovov d H T m b i e) * (x_a T a m)) + sumn (noa d) (fun n => sumn (nob d) (fun m => (hb_H_ab_ooov d H T n m i e) * (x_ab T a b n m))) + sumn (nua d) (fun f => (i_ab_vvvv H a b f e) * (x_a T f i)) + sumn (noa d) (fun m => sumn (nua d) (fun f => (i_ab_ovvv H m b f e) * (x_aa T a f i m))) + sumn (nob d) (fun m => sumn (nub d) (fun f => (i_bb_vovv H b m e f) * (x_ab T a f i m))) - sumn (nob d) (fun m => sumn (nua d) (fun f => (i_ab_vovv H a m f e) * (x_ab T f b i m))).
(** ccpy/hbar/hbar_ccsd.py, build_hbar_ccsd, line 251 *)
Definition hb_x2b_ovvo (d : dims) (H : ints) (T : amps) : mat4 := fun m a e i =>
  hb_H_ab_ovvo d H T m a e i + 1 / 2 * (sumn (nob d) (fun m' => (hb_H_ab_oovo d H T m m' e i) * (x_b T a m'))).
(** ccpy/hbar/hbar_ccsd.py, build_hbar_ccsd, line 252 *)
Definition hb_x2b_vovo (d : dims) (H : ints) (T : amps) : mat4 := fun a m e i =>
  hb_H_ab_vovo d H T a m e i + 1 / 2 * (sumn (noa d) (fun n => (hb_H_ab_oovo d H T n m e i) * (x_a T a n))).
(** ccpy/hbar/hbar_ccsd.py, build_hbar_ccsd, lines 253-264 *)
Definition hb_H_ab_vvvo (d : dims) (H : ints) (T : amps) : mat4 := fun b a e i =>
  i_ab_vvvo H b a e i - sumn (noa d) (fun m => (hb_H_a_ov d H T m e) * (x_ab T b a m i)) - sumn (noa d) (fun m => (hb_x2b_ovvo d H T m a e i) * (x_a T b m)) - sumn (nob d) (fun m => (hb_x2b_vovo d H T b m e i) * (x_b T a m)) + sumn (noa d) (fun n => sumn (nob d) (fun m => (hb_H_ab_oovo d H T n m e i) * (x_ab T b a n m))) + sumn (nub d) (fun f => (i_ab_vvvv H b a e f) * (x_b T f i)) + sumn (nob d) (fun m => sumn (nub d) (fun f => (i_ab_vovv H b m e f) * (x_bb T a f i m))) + sumn (noa d) (fun m => sumn (nua d) (fun f => (i_aa_vovv H b m e f) * (x_ab T f a m i))) - sumn (noa d) (fun m => sumn (nub d) (fun f => (i_ab_ovvv H m a e f) * (x_ab T b f m i))).
(** ccpy/hbar/hbar_ccsd.py, build_hbar_ccsd, lines 270-274 *)
Definition hb_H_aa_vvvv (d : dims) (H : ints) (T : amps) : mat4 := fun a b e f =>
  1 / 2 * (i_aa_vvvv H a b e f) + 1 / 4 * (sumn (noa d) (fun m => sumn (noa d) (fun n => (i_aa_oovv H m n e f) * (hb_tau_aa_1 d H T a b m n)))) - sumn (noa d) (fun m => (i_aa_vovv H a m e f) * (x_a T b m)).
(** ccpy/hbar/hbar_ccsd.py, build_hbar_ccsd, line 275 *)
Definition hb_H_aa_vvvv_1 (d : dims) (H : ints) (T : amps) : mat4 := fun a b e f =>
  hb_H_aa_vvvv d H T a b e f - hb_H_aa_vvvv d H T b a e f.
(** ccpy/hbar/hbar_ccsd.py, build_hbar_ccsd, lines 279-283 *)
Definition hb_H_bb_vvvv (d : dims) (H : ints) (T : amps) : mat4 := fun a b e f =>
  1 / 2 * (i_bb_vvvv H a b e f) + 1 / 4 * (sumn (nob d) (fun m => sumn (nob d) (fun n => (i_bb_oovv H m n e f) * (hb_tau_bb_1 d H T a b m n)))) - sumn (nob d) (fun m => (i_bb_vovv H a m e f) * (x_b T b m)).
(** ccpy/hbar/hbar_ccsd.py, build_hbar_ccsd, line 284 *)
Definition hb_H_bb_vvvv_1 (d : dims) (H : ints) (T : amps) : mat4 := fun a b e f =>
  hb_H_bb_vvvv d H T a b e f - hb_H_bb_vvvv d H T b a e f.
(** ccpy/hbar/hbar_ccsd.py, build_hbar_ccsd, lines 285-290 *)
Definition hb_H_ab_vvvv (d : dims) (H : ints) (T : amps) : mat4 := fun a b e f =>
  i_ab_vvvv H a b e f - sumn (noa d) (fun m => (i_ab_ovvv H m b e f) * (x_a T a m)) - sumn (nob d) (fun m => (i_ab_vovv H a m e f) * (x_b T b m)) + sumn (noa d) (fun m => sumn (nob d) (fun n => (i_ab_oovv H m n e f) * (hb_tau_ab d H T a b m n))).
(** ccpy/hbar/hbar_ccsd.py, build_hbar_ccsd, line 296 *)
Definition hb_H_aa_vovv (d : dims) (H : ints) (T : amps) : mat4 := fun a i b c =>
  i_aa_vovv H a i b c - sumn (noa d) (fun n => (i_aa_oovv H i n c b) * (x_a T a n)).
(** ccpy/hbar/hbar_ccsd.py, build_hbar_ccsd, line 300 *)
Definition hb_H_bb_vovv (d : dims) (H : ints) (T : amps) : mat4 := fun a i b c =>
  i_bb_vovv H a i b c - sumn (nob d) (fun n => (i_bb_oovv H i n c b) * (x_b T a n)).
(** ccpy/hbar/hbar_ccsd.py, build_hbar_ccsd, line 301 *)
Definition hb_H_ab_vovv (d : dims) (H : ints) (T : amps) : mat4 := fun a i b c =>
  i_ab_vovv H a i b c - sumn (noa d) (fun n => (i_ab_oovv H n i b c) * (x_a T a n)).
(** ccpy/hbar/hbar_ccsd.py, build_hbar_ccsd, line 302 *)
Definition hb_H_ab_ovvv (d : dims) (H : ints) (T : amps) : mat4 := fun i a b c =>
  i_ab_ovvv H i a b c - sumn (nob d) (fun n => (i_ab_oovv H i n b c) * (x_b T a n)).
(** hbar_ccsd.py, build_hbar_ccsd, line 299: all blocks when the function returns (those never assigned keep the bare integrals) *)
Definition hbar_ccsd (d : dims) (H : ints) (T : amps) : ints := mkInts (hb_H_a_oo d H T) (hb_H_a_ov d H T) (i_a_vo H) (hb_H_a_vv d H T) (hb_H_b_oo d H T) (hb_H_b_ov d H T) (i_b_vo H) (hb_H_b_vv d H T) (hb_H_aa_oooo_1 d H T) (hb_H_aa_ooov d H T) (i_aa_oovo H) (i_aa_oovv H) (i_aa_ovoo H) (i_aa_ovov H) (i_aa_ovvo H) (i_aa_ovvv H) (hb_H_aa_vooo d H T) (hb_H_aa_voov d H T) (i_aa_vovo H) (hb_H_aa_vovv d H T) (i_aa_vvoo H) (hb_H_aa_vvov_1 d H T) (i_aa_vvvo H) (hb_H_aa_vvvv_1 d H T) (hb_H_ab_oooo d H T) (hb_H_ab_ooov d H T) (hb_H_ab_oovo d H T) (i_ab_oovv H) (hb_H_ab_ovoo d H T) (hb_H_ab_ovov d H T) (hb_H_ab_ovvo d H T) (hb_H_ab_ovvv d H T) (hb_H_ab_vooo d H T) (hb_H_ab_voov d H T) (hb_H_ab_vovo d H T) (hb_H_ab_vovv d H T) (i_ab_vvoo H) (hb_H_ab_vvov d H T) (hb_H_ab_vvvo d H T) (hb_H_ab_vvvv d H T) (hb_H_bb_oooo_1 d H T) (hb_H_bb_ooov d H T) (i_bb_oovo H) (i_bb_oovv H) (i_bb_ovoo H) (i_bb_ovov H) (i_bb_ovvo H) (i_bb_ovvv H) (hb_H_bb_vooo d H T) (hb_H_bb_voov d H T) (i_bb_vovo H) (hb_H_bb_vovv d H T) (i_bb_vvoo H) (hb_H_bb_vvov_1 d H T) (i_bb_vvvo H) (hb_H_bb_vvvv_1 d H T).
(** ccpy/energy/cc_energy.py, get_cc_energy, line 33 *)
Definition en_e1a (d : dims) (H : ints) (T : amps) : R := 
  sumn (noa d) (fun m => sumn (nua d) (fun e => (i_a_ov H m e) * (x_a T e m))).
(** ccpy/energy/cc_energy.py, get_cc_energy, line 34 *)
Definition en_e1b (d : dims) (H : ints) (T : amps) : R := 
  sumn (nob d) (fun m => sumn (nub d) (fun e => (i_b_ov H m e) * (x_b T e m))).
(** ccpy/energy/cc_energy.py, get_cc_energy, line 35 *)
Definition en_e2aa (d : dims) (H : ints) (T : amps) : R := 
  1 / 4 * (sumn (noa d) (fun m => sumn (noa d) (fun n => sumn (nua d) (fun e => sumn (nua d) (fun f => (i_aa_oovv H m n e f) * (x_aa T e f m n)))))).
(** ccpy/energy/cc_energy.py, get_cc_energy, line 36 *)
Definition en_e2ab (d : dims) (H : ints) (T : amps) : R := 
  sumn (noa d) (fun m => sumn (nob d) (fun n => sumn (nua d) (fun e => sumn (nub d) (fun f => (i_ab_oovv H m n e f) * (x_ab T e f m n))))).
(** ccpy/energy/cc_energy.py, get_cc_energy, line 37 *)
Definition en_e2bb (d : dims) (H : ints) (T : amps) : R := 
  1 / 4 * (sumn (nob d) (fun m => sumn (nob d) (fun n => sumn (nub d) (fun e => sumn (nub d) (fun f => (i_bb_oovv H m n e f) * (x_bb T e f m n)))))).
(** ccpy/energy/cc_energy.py, get_cc_energy, line 38 *)
Definition en_e1a1a (d : dims) (H : ints) (T : amps) : R := 
  1 / 2 * (sumn (noa d) (fun m => sumn (noa d) (fun n => sumn (nua d) (fun e => sumn (nua d) (fun f => (i_aa_oovv H m n e f) * (x_a T f n) * (x_a T e m)))))).
(** ccpy/energy/cc_energy.py, get_cc_energy, line 39 *)
Definition en_e1b1b (d : dims) (H : ints) (T : amps) : R := 
  1 / 2 * (sumn (nob d) (fun m => sumn (nob d) (fun n => sumn (nub d) (fun e => sumn (nub d) (fun f => (i_bb_oovv H m n e f) * (x_b T f n) * (x_b T e m)))))).
(** ccpy/energy/cc_energy.py, get_cc_energy, line 40 *)
Definition en_e1a1b (d : dims) (H : ints) (T : amps) : R := 
  sumn (noa d) (fun m => sumn (nob d) (fun n => sumn (nua d) (fun e => sumn (nub d) (fun f => (i_ab_oovv H m n e f) * (x_a T e m) * (x_b T f n))))).
(** ccpy/energy/cc_energy.py, get_cc_energy, line 42 *)
Definition en_Ecorr (d : dims) (H : ints) (T : amps) : R := 
  en_e1a d H T + en_e1b d H T + en_e2aa d H T + en_e2ab d H T + en_e2bb d H T + en_e1a1a d H T + en_e1a1b d H T + en_e1b1b d H T.
(** cc_energy.py, get_cc_energy, line 43 *)
Definition cc_energy (d : dims) (H : ints) (T : amps) : R := en_Ecorr d H T.
