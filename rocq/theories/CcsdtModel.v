(** Generated by tools/gen_ccsdt.py from the source text (symbolic execution of the numpy statements; exact reals).
    Models ccpy/cc/ccsdt.py (update, update_t1a .. update_t3d), ccpy/hbar/hbar_ccs.py (get_pre_ccs_intermediates, get_ccs_intermediates_opt) and
    ccpy/hbar/hbar_ccsd.py (get_ccsd_intermediates), flag_RHF = False. *)
From Coq Require Import Reals Arith.
From Verif Require Import RSum IntegralsModel TensorObjs.
Open Scope R_scope.
(** ccpy/hbar/hbar_ccs.py, get_pre_ccs_intermediates, lines 108-111 *)
Definition ccsdt_X_a_ov (d : dims) (H : ints) (T U : amps) : mat2 := fun m e =>
  i_a_ov H m e + (sumn (noa d) (fun n => sumn (nua d) (fun f => (i_aa_oovv H m n e f) * (x_a T f n))) + sumn (nob d) (fun n => sumn (nub d) (fun f => (i_ab_oovv H m n e f) * (x_b T f n)))).
(** ccpy/hbar/hbar_ccs.py, get_pre_ccs_intermediates, lines 115-118 *)
Definition ccsdt_X_b_ov (d : dims) (H : ints) (T U : amps) : mat2 := fun m e =>
  i_b_ov H m e + (sumn (noa d) (fun n => sumn (nua d) (fun f => (i_ab_oovv H n m f e) * (x_a T f n))) + sumn (nob d) (fun n => sumn (nub d) (fun f => (i_bb_oovv H m n e f) * (x_b T f n)))).
(** ccpy/hbar/hbar_ccs.py, get_pre_ccs_intermediates, lines 119-124 *)
Definition ccsdt_X_a_vv (d : dims) (H : ints) (T U : amps) : mat2 := fun a e =>
  i_a_vv H a e + (sumn (noa d) (fun n => sumn (nua d) (fun f => (i_aa_vovv H a n e f) * (x_a T f n))) + sumn (nob d) (fun n => sumn (nub d) (fun f => (i_ab_vovv H a n e f) * (x_b T f n))) - 1 / 2 * (sumn (noa d) (fun m => sumn (noa d) (fun n => sumn (nua d) (fun f => (i_aa_oovv H m n e f) * (x_aa T a f m n))))) - sumn (noa d) (fun m => sumn (nob d) (fun n => sumn (nub d) (fun f => (i_ab_oovv H m n e f) * (x_ab T a f m n))))).
(** ccpy/hbar/hbar_ccs.py, get_pre_ccs_intermediates, lines 125-131 *)
Definition ccsdt_X_a_oo (d : dims) (H : ints) (T U : amps) : mat2 := fun m i =>
  i_a_oo H m i + (sumn (noa d) (fun n => sumn (nua d) (fun f => (i_aa_ooov H m n i f) * (x_a T f n))) + sumn (nob d) (fun n => sumn (nub d) (fun f => (i_ab_ooov H m n i f) * (x_b T f n))) + sumn (nua d) (fun e => (ccsdt_X_a_ov d H T U m e) * (x_a T e i)) + 1 / 2 * (sumn (noa d) (fun n => sumn (nua d) (fun e => sumn (nua d) (fun f => (i_aa_oovv H m n e f) * (x_aa T e f i n))))) + sumn (nob d) (fun n => sumn (nua d) (fun e => sumn (nub d) (fun f => (i_ab_oovv H m n e f) * (x_ab T e f i n))))).
(** ccpy/hbar/hbar_ccs.py, get_pre_ccs_intermediates, lines 136-141 *)
Definition ccsdt_X_b_vv (d : dims) (H : ints) (T U : amps) : mat2 := fun a e =>
  i_b_vv H a e + (sumn (nob d) (fun n => sumn (nub d) (fun f => (i_bb_vovv H a n e f) * (x_b T f n))) + sumn (noa d) (fun n => sumn (nua d) (fun f => (i_ab_ovvv H n a f e) * (x_a T f n))) - 1 / 2 * (sumn (nob d) (fun m => sumn (nob d) (fun n => sumn (nub d) (fun f => (i_bb_oovv H m n e f) * (x_bb T a f m n))))) - sumn (noa d) (fun n => sumn (nob d) (fun m => sumn (nua d) (fun f => (i_ab_oovv H n m f e) * (x_ab T f a n m))))).
(** ccpy/hbar/hbar_ccs.py, get_pre_ccs_intermediates, lines 142-148 *)
Definition ccsdt_X_b_oo (d : dims) (H : ints) (T U : amps) : mat2 := fun m i =>
  i_b_oo H m i + (sumn (nob d) (fun n => sumn (nub d) (fun f => (i_bb_ooov H m n i f) * (x_b T f n))) + sumn (noa d) (fun n => sumn (nua d) (fun f => (i_ab_oovo H n m f i) * (x_a T f n))) + sumn (nub d) (fun e => (ccsdt_X_b_ov d H T U m e) * (x_b T e i)) + 1 / 2 * (sumn (nob d) (fun n => sumn (nub d) (fun e => sumn (nub d) (fun f => (i_bb_oovv H m n e f) * (x_bb T e f i n))))) + sumn (noa d) (fun n => sumn (nua d) (fun f => sumn (nub d) (fun e => (i_ab_oovv H n m f e) * (x_ab T f e n i))))).
(** ccpy/cc/ccsdt.py, update_t1a, line 57 *)
Definition ccsdt_dT_a (d : dims) (H : ints) (T U : amps) : mat2 := fun a i =>
  (- (sumn (noa d) (fun m => (ccsdt_X_a_oo d H T U m i) * (x_a T a m)))).
(** ccpy/cc/ccsdt.py, update_t1a, line 58 *)
Definition ccsdt_dT_a_1 (d : dims) (H : ints) (T U : amps) : mat2 := fun a i =>
  ccsdt_dT_a d H T U a i + sumn (nua d) (fun e => (ccsdt_X_a_vv d H T U a e) * (x_a T e i)).
(** ccpy/cc/ccsdt.py, update_t1a, line 59 *)
Definition ccsdt_dT_a_2 (d : dims) (H : ints) (T U : amps) : mat2 := fun a i =>
  ccsdt_dT_a_1 d H T U a i + sumn (noa d) (fun m => sumn (nua d) (fun e => (ccsdt_X_a_ov d H T U m e) * (x_aa T a e i m))).
(** ccpy/cc/ccsdt.py, update_t1a, line 60 *)
Definition ccsdt_dT_a_3 (d : dims) (H : ints) (T U : amps) : mat2 := fun a i =>
  ccsdt_dT_a_2 d H T U a i + sumn (nob d) (fun m => sumn (nub d) (fun e => (ccsdt_X_b_ov d H T U m e) * (x_ab T a e i m))).
(** ccpy/cc/ccsdt.py, update_t1a, line 61 *)
Definition ccsdt_dT_a_4 (d : dims) (H : ints) (T U : amps) : mat2 := fun a i =>
  ccsdt_dT_a_3 d H T U a i + sumn (noa d) (fun n => sumn (nua d) (fun f => (i_aa_voov H a n i f) * (x_a T f n))).
(** ccpy/cc/ccsdt.py, update_t1a, line 62 *)
Definition ccsdt_dT_a_5 (d : dims) (H : ints) (T U : amps) : mat2 := fun a i =>
  ccsdt_dT_a_4 d H T U a i + sumn (nob d) (fun n => sumn (nub d) (fun f => (i_ab_voov H a n i f) * (x_b T f n))).
(** ccpy/cc/ccsdt.py, update_t1a, line 63 *)
Definition ccsdt_dT_a_6 (d : dims) (H : ints) (T U : amps) : mat2 := fun a i =>
  ccsdt_dT_a_5 d H T U a i - 1 / 2 * (sumn (noa d) (fun m => sumn (noa d) (fun n => sumn (nua d) (fun f => (i_aa_ooov H m n i f) * (x_aa T a f m n))))).
(** ccpy/cc/ccsdt.py, update_t1a, line 64 *)
Definition ccsdt_dT_a_7 (d : dims) (H : ints) (T U : amps) : mat2 := fun a i =>
  ccsdt_dT_a_6 d H T U a i - sumn (noa d) (fun m => sumn (nob d) (fun n => sumn (nub d) (fun f => (i_ab_ooov H m n i f) * (x_ab T a f m n)))).
(** ccpy/cc/ccsdt.py, update_t1a, line 65 *)
Definition ccsdt_dT_a_8 (d : dims) (H : ints) (T U : amps) : mat2 := fun a i =>
  ccsdt_dT_a_7 d H T U a i + 1 / 2 * (sumn (noa d) (fun n => sumn (nua d) (fun e => sumn (nua d) (fun f => (i_aa_vovv H a n e f) * (x_aa T e f i n))))).
(** ccpy/cc/ccsdt.py, update_t1a, line 66 *)
Definition ccsdt_dT_a_9 (d : dims) (H : ints) (T U : amps) : mat2 := fun a i =>
  ccsdt_dT_a_8 d H T U a i + sumn (nob d) (fun n => sumn (nua d) (fun e => sumn (nub d) (fun f => (i_ab_vovv H a n e f) * (x_ab T e f i n)))).
(** ccpy/cc/ccsdt.py, update_t1a, line 68 *)
Definition ccsdt_dT_a_10 (d : dims) (H : ints) (T U : amps) : mat2 := fun a i =>
  ccsdt_dT_a_9 d H T U a i + 1 / 4 * (sumn (noa d) (fun m => sumn (noa d) (fun n => sumn (nua d) (fun e => sumn (nua d) (fun f => (i_aa_oovv H m n e f) * (x_aaa T a e f i m n)))))).
(** ccpy/cc/ccsdt.py, update_t1a, line 69 *)
Definition ccsdt_dT_a_11 (d : dims) (H : ints) (T U : amps) : mat2 := fun a i =>
  ccsdt_dT_a_10 d H T U a i + sumn (noa d) (fun m => sumn (nob d) (fun n => sumn (nua d) (fun e => sumn (nub d) (fun f => (i_ab_oovv H m n e f) * (x_aab T a e f i m n))))).
(** ccpy/cc/ccsdt.py, update_t1a, line 70 *)
Definition ccsdt_dT_a_12 (d : dims) (H : ints) (T U : amps) : mat2 := fun a i =>
  ccsdt_dT_a_11 d H T U a i + 1 / 4 * (sumn (nob d) (fun m => sumn (nob d) (fun n => sumn (nub d) (fun e => sumn (nub d) (fun f => (i_bb_oovv H m n e f) * (x_abb T a e f i m n)))))).
(** ccpy/cc/ccsdt.py, update_t1a, lines 71-77 *)
Definition ccsdt_res_a (d : dims) (H : ints) (T U : amps) : mat2 := fun a i =>
  ccsdt_dT_a_12 d H T U a i + i_a_vo H a i.
(** ccpy/cc/ccsdt.py, update_t1b, line 84 *)
Definition ccsdt_dT_b (d : dims) (H : ints) (T U : amps) : mat2 := fun a i =>
  (- (sumn (nob d) (fun m => (ccsdt_X_b_oo d H T U m i) * (x_b T a m)))).
(** ccpy/cc/ccsdt.py, update_t1b, line 85 *)
Definition ccsdt_dT_b_1 (d : dims) (H : ints) (T U : amps) : mat2 := fun a i =>
  ccsdt_dT_b d H T U a i + sumn (nub d) (fun e => (ccsdt_X_b_vv d H T U a e) * (x_b T e i)).
(** ccpy/cc/ccsdt.py, update_t1b, line 86 *)
Definition ccsdt_dT_b_2 (d : dims) (H : ints) (T U : amps) : mat2 := fun a i =>
  ccsdt_dT_b_1 d H T U a i + sumn (nob d) (fun n => sumn (nub d) (fun f => (i_bb_voov H a n i f) * (x_b T f n))).
(** ccpy/cc/ccsdt.py, update_t1b, line 87 *)
Definition ccsdt_dT_b_3 (d : dims) (H : ints) (T U : amps) : mat2 := fun a i =>
  ccsdt_dT_b_2 d H T U a i + sumn (noa d) (fun n => sumn (nua d) (fun f => (i_ab_ovvo H n a f i) * (x_a U f n))).
(** ccpy/cc/ccsdt.py, update_t1b, line 88 *)
Definition ccsdt_dT_b_4 (d : dims) (H : ints) (T U : amps) : mat2 := fun a i =>
  ccsdt_dT_b_3 d H T U a i + sumn (noa d) (fun m => sumn (nua d) (fun e => (ccsdt_X_a_ov d H T U m e) * (x_ab T e a m i))).
(** ccpy/cc/ccsdt.py, update_t1b, line 89 *)
Definition ccsdt_dT_b_5 (d : dims) (H : ints) (T U : amps) : mat2 := fun a i =>
  ccsdt_dT_b_4 d H T U a i + sumn (nob d) (fun m => sumn (nub d) (fun e => (ccsdt_X_b_ov d H T U m e) * (x_bb T a e i m))).
(** ccpy/cc/ccsdt.py, update_t1b, line 90 *)
Definition ccsdt_dT_b_6 (d : dims) (H : ints) (T U : amps) : mat2 := fun a i =>
  ccsdt_dT_b_5 d H T U a i - 1 / 2 * (sumn (nob d) (fun m => sumn (nob d) (fun n => sumn (nub d) (fun f => (i_bb_ooov H m n i f) * (x_bb T a f m n))))).
(** ccpy/cc/ccsdt.py, update_t1b, line 91 *)
Definition ccsdt_dT_b_7 (d : dims) (H : ints) (T U : amps) : mat2 := fun a i =>
  ccsdt_dT_b_6 d H T U a i - sumn (noa d) (fun n => sumn (nob d) (fun m => sumn (nua d) (fun f => (i_ab_oovo H n m f i) * (x_ab T f a n m)))).
(** ccpy/cc/ccsdt.py, update_t1b, line 92 *)
Definition ccsdt_dT_b_8 (d : dims) (H : ints) (T U : amps) : mat2 := fun a i =>
  ccsdt_dT_b_7 d H T U a i + 1 / 2 * (sumn (nob d) (fun n => sumn (nub d) (fun e => sumn (nub d) (fun f => (i_bb_vovv H a n e f) * (x_bb T e f i n))))).
(** ccpy/cc/ccsdt.py, update_t1b, line 93 *)
Definition ccsdt_dT_b_9 (d : dims) (H : ints) (T U : amps) : mat2 := fun a i =>
  ccsdt_dT_b_8 d H T U a i + sumn (noa d) (fun n => sumn (nua d) (fun f => sumn (nub d) (fun e => (i_ab_ovvv H n a f e) * (x_ab T f e n i)))).
(** ccpy/cc/ccsdt.py, update_t1b, line 95 *)
Definition ccsdt_dT_b_10 (d : dims) (H : ints) (T U : amps) : mat2 := fun a i =>
  ccsdt_dT_b_9 d H T U a i + 1 / 4 * (sumn (nob d) (fun m => sumn (nob d) (fun n => sumn (nub d) (fun e => sumn (nub d) (fun f => (i_bb_oovv H m n e f) * (x_bbb T a e f i m n)))))).
(** ccpy/cc/ccsdt.py, update_t1b, line 96 *)
Definition ccsdt_dT_b_11 (d : dims) (H : ints) (T U : amps) : mat2 := fun a i =>
  ccsdt_dT_b_10 d H T U a i + 1 / 4 * (sumn (noa d) (fun m => sumn (noa d) (fun n => sumn (nua d) (fun e => sumn (nua d) (fun f => (i_aa_oovv H m n e f) * (x_aab T e f a m n i)))))).
(** ccpy/cc/ccsdt.py, update_t1b, line 97 *)
Definition ccsdt_dT_b_12 (d : dims) (H : ints) (T U : amps) : mat2 := fun a i =>
  ccsdt_dT_b_11 d H T U a i + sumn (noa d) (fun m => sumn (nob d) (fun n => sumn (nua d) (fun e => sumn (nub d) (fun f => (i_ab_oovv H m n e f) * (x_abb T e f a m n i))))).
(** ccpy/cc/ccsdt.py, update_t1b, lines 98-104 *)
Definition ccsdt_res_b (d : dims) (H : ints) (T U : amps) : mat2 := fun a i =>
  ccsdt_dT_b_12 d H T U a i + i_b_vo H a i.
(** ccpy/hbar/hbar_ccs.py, get_ccs_intermediates_opt, line 9 *)
Definition ccsdt_X_a_vv_1 (d : dims) (H : ints) (T U : amps) : mat2 := fun a e =>
  ccsdt_X_a_vv d H T U a e - sumn (noa d) (fun m => (ccsdt_X_a_ov d H T U m e) * (x_a U a m)).
(** ccpy/hbar/hbar_ccs.py, get_ccs_intermediates_opt, line 13 *)
Definition ccsdt_X_b_vv_1 (d : dims) (H : ints) (T U : amps) : mat2 := fun a e =>
  ccsdt_X_b_vv d H T U a e - sumn (nob d) (fun m => (ccsdt_X_b_ov d H T U m e) * (x_b U a m)).
(** ccpy/hbar/hbar_ccs.py, get_ccs_intermediates_opt, line 16 *)
Definition ccsdt_X_aa_ooov (d : dims) (H : ints) (T U : amps) : mat4 := fun m n i e =>
  sumn (nua d) (fun f => (i_aa_oovv H m n f e) * (x_a U f i)).
(** ccpy/hbar/hbar_ccs.py, get_ccs_intermediates_opt, line 17 *)
Definition ccsdt_X_aa_vovv (d : dims) (H : ints) (T U : amps) : mat4 := fun a m e f =>
  (- (sumn (noa d) (fun n => (i_aa_oovv H m n f e) * (x_a U a n)))).
(** ccpy/hbar/hbar_ccs.py, get_ccs_intermediates_opt, line 18 *)
Definition ccsdt_X_aa_oooo (d : dims) (H : ints) (T U : amps) : mat4 := fun m n i j =>
  1 / 2 * (i_aa_oooo H m n i j) + sumn (nua d) (fun e => (i_aa_ooov H n m j e + 1 / 2 * (ccsdt_X_aa_ooov d H T U n m j e)) * (x_a U e i)).
(** ccpy/hbar/hbar_ccs.py, get_ccs_intermediates_opt, line 19 *)
Definition ccsdt_X_aa_oooo_1 (d : dims) (H : ints) (T U : amps) : mat4 := fun m n i j =>
  ccsdt_X_aa_oooo d H T U m n i j - ccsdt_X_aa_oooo d H T U m n j i.
(** ccpy/hbar/hbar_ccs.py, get_ccs_intermediates_opt, lines 20-23 *)
Definition ccsdt_X_aa_voov (d : dims) (H : ints) (T U : amps) : mat4 := fun a m i e =>
  i_aa_voov H a m i e + (sumn (nua d) (fun f => (i_aa_vovv H a m f e + 1 / 2 * (ccsdt_X_aa_vovv d H T U a m f e)) * (x_a U f i)) - sumn (noa d) (fun n => (i_aa_ooov H n m i e + 1 / 2 * (ccsdt_X_aa_ooov d H T U n m i e)) * (x_a U a n))).
(** ccpy/hbar/hbar_ccs.py, get_ccs_intermediates_opt, line 24 *)
Definition ccsdt_L_amie (d : dims) (H : ints) (T U : amps) : mat4 := fun a m i f =>
  i_aa_voov H a m i f + 1 / 2 * (sumn (nua d) (fun e => (i_aa_vovv H a m e f) * (x_a U e i))).
(** ccpy/hbar/hbar_ccs.py, get_ccs_intermediates_opt, line 25 *)
Definition ccsdt_X_mnij (d : dims) (H : ints) (T U : amps) : mat4 := fun m n i j =>
  i_aa_oooo H m n i j + sumn (nua d) (fun e => (ccsdt_X_aa_ooov d H T U m n i e) * (x_a U e j)).
(** ccpy/hbar/hbar_ccs.py, get_ccs_intermediates_opt, lines 26-29 *)
Definition ccsdt_X_aa_vooo (d : dims) (H : ints) (T U : amps) : mat4 := fun a m i j =>
  1 / 2 * (i_aa_vooo H a m i j) + (sumn (nua d) (fun e => (ccsdt_L_amie d H T U a m i e) * (x_a U e j)) - 1 / 4 * (sumn (noa d) (fun m' => (ccsdt_X_mnij d H T U m' m i j) * (x_a U a m')))).
(** ccpy/hbar/hbar_ccs.py, get_ccs_intermediates_opt, line 30 *)
Definition ccsdt_X_aa_vooo_1 (d : dims) (H : ints) (T U : amps) : mat4 := fun a m i j =>
  ccsdt_X_aa_vooo d H T U a m i j - ccsdt_X_aa_vooo d H T U a m j i.
(** ccpy/hbar/hbar_ccs.py, get_ccs_intermediates_opt, line 31 *)
Definition ccsdt_L_amie_1 (d : dims) (H : ints) (T U : amps) : mat4 := fun a n i e =>
  sumn (noa d) (fun m => (i_aa_ooov H m n i e) * (x_a U a m)).
(** ccpy/hbar/hbar_ccs.py, get_ccs_intermediates_opt, line 32 *)
Definition ccsdt_X_aa_vvov (d : dims) (H : ints) (T U : amps) : mat4 := fun a b i e =>
  i_aa_vvov H a b i e + sumn (noa d) (fun n => (ccsdt_L_amie_1 d H T U a n i e) * (x_a U b n)).
(** ccpy/hbar/hbar_ccs.py, get_ccs_intermediates_opt, line 45 *)
Definition ccsdt_X_bb_ooov (d : dims) (H : ints) (T U : amps) : mat4 := fun m n i e =>
  sumn (nub d) (fun f => (i_bb_oovv H m n f e) * (x_b U f i)).
(** ccpy/hbar/hbar_ccs.py, get_ccs_intermediates_opt, line 46 *)
Definition ccsdt_X_bb_oooo (d : dims) (H : ints) (T U : amps) : mat4 := fun m n i j =>
  1 / 2 * (i_bb_oooo H m n i j) + sumn (nub d) (fun e => (i_bb_ooov H n m j e + 1 / 2 * (ccsdt_X_bb_ooov d H T U n m j e)) * (x_b U e i)).
(** ccpy/hbar/hbar_ccs.py, get_ccs_intermediates_opt, line 47 *)
Definition ccsdt_X_bb_oooo_1 (d : dims) (H : ints) (T U : amps) : mat4 := fun m n i j =>
  ccsdt_X_bb_oooo d H T U m n i j - ccsdt_X_bb_oooo d H T U m n j i.
(** ccpy/hbar/hbar_ccs.py, get_ccs_intermediates_opt, line 48 *)
Definition ccsdt_X_bb_vovv (d : dims) (H : ints) (T U : amps) : mat4 := fun a m e f =>
  (- (sumn (nob d) (fun n => (i_bb_oovv H m n f e) * (x_b U a n)))).
(** ccpy/hbar/hbar_ccs.py, get_ccs_intermediates_opt, lines 49-52 *)
Definition ccsdt_X_bb_voov (d : dims) (H : ints) (T U : amps) : mat4 := fun a m i e =>
  i_bb_voov H a m i e + (sumn (nub d) (fun f => (i_bb_vovv H a m f e + 1 / 2 * (ccsdt_X_bb_vovv d H T U a m f e)) * (x_b U f i)) - sumn (nob d) (fun n => (i_bb_ooov H n m i e + 1 / 2 * (ccsdt_X_bb_ooov d H T U n m i e)) * (x_b U a n))).
(** ccpy/hbar/hbar_ccs.py, get_ccs_intermediates_opt, line 53 *)
Definition ccsdt_L_amie_2 (d : dims) (H : ints) (T U : amps) : mat4 := fun a m i f =>
  i_bb_voov H a m i f + 1 / 2 * (sumn (nub d) (fun e => (i_bb_vovv H a m e f) * (x_b U e i))).
(** ccpy/hbar/hbar_ccs.py, get_ccs_intermediates_opt, line 54 *)
Definition ccsdt_X_mnij_1 (d : dims) (H : ints) (T U : amps) : mat4 := fun m n i j =>
  i_bb_oooo H m n i j + sumn (nub d) (fun e => (ccsdt_X_bb_ooov d H T U m n i e) * (x_b U e j)).
(** ccpy/hbar/hbar_ccs.py, get_ccs_intermediates_opt, lines 55-58 *)
Definition ccsdt_X_bb_vooo (d : dims) (H : ints) (T U : amps) : mat4 := fun a m i j =>
  1 / 2 * (i_bb_vooo H a m i j) + (sumn (nub d) (fun e => (ccsdt_L_amie_2 d H T U a m i e) * (x_b U e j)) - 1 / 4 * (sumn (nob d) (fun m' => (ccsdt_X_mnij_1 d H T U m' m i j) * (x_b U a m')))).
(** ccpy/hbar/hbar_ccs.py, get_ccs_intermediates_opt, line 59 *)
Definition ccsdt_X_bb_vooo_1 (d : dims) (H : ints) (T U : amps) : mat4 := fun a m i j =>
  ccsdt_X_bb_vooo d H T U a m i j - ccsdt_X_bb_vooo d H T U a m j i.
(** ccpy/hbar/hbar_ccs.py, get_ccs_intermediates_opt, line 60 *)
Definition ccsdt_L_amie_3 (d : dims) (H : ints) (T U : amps) : mat4 := fun a n i e =>
  sumn (nob d) (fun m => (i_bb_ooov H m n i e) * (x_b U a m)).
(** ccpy/hbar/hbar_ccs.py, get_ccs_intermediates_opt, line 61 *)
Definition ccsdt_X_bb_vvov (d : dims) (H : ints) (T U : amps) : mat4 := fun a b i e =>
  i_bb_vvov H a b i e + sumn (nob d) (fun n => (ccsdt_L_amie_3 d H T U a n i e) * (x_b U b n)).
(** ccpy/hbar/hbar_ccs.py, get_ccs_intermediates_opt, line 67 *)
Definition ccsdt_X_ab_ooov (d : dims) (H : ints) (T U : amps) : mat4 := fun m n i e =>
  sumn (nua d) (fun f => (i_ab_oovv H m n f e) * (x_a U f i)).
(** ccpy/hbar/hbar_ccs.py, get_ccs_intermediates_opt, line 68 *)
Definition ccsdt_X_ab_oovo (d : dims) (H : ints) (T U : amps) : mat4 := fun n m e i =>
  sumn (nub d) (fun f => (i_ab_oovv H n m e f) * (x_b U f i)).
(** ccpy/hbar/hbar_ccs.py, get_ccs_intermediates_opt, lines 69-72 *)
Definition ccsdt_X_ab_oooo (d : dims) (H : ints) (T U : amps) : mat4 := fun m n i j =>
  i_ab_oooo H m n i j + (sumn (nua d) (fun e => (i_ab_oovo H m n e j + 1 / 2 * (ccsdt_X_ab_oovo d H T U m n e j)) * (x_a U e i)) + sumn (nub d) (fun e => (i_ab_ooov H m n i e + 1 / 2 * (ccsdt_X_ab_ooov d H T U m n i e)) * (x_b U e j))).
(** ccpy/hbar/hbar_ccs.py, get_ccs_intermediates_opt, line 73 *)
Definition ccsdt_X_ab_vovv (d : dims) (H : ints) (T U : amps) : mat4 := fun a m e f =>
  (- (sumn (noa d) (fun n => (i_ab_oovv H n m e f) * (x_a U a n)))).
(** ccpy/hbar/hbar_ccs.py, get_ccs_intermediates_opt, line 74 *)
Definition ccsdt_X_ab_ovvv (d : dims) (H : ints) (T U : amps) : mat4 := fun m a e f =>
  (- (sumn (nob d) (fun n => (i_ab_oovv H m n e f) * (x_b U a n)))).
(** ccpy/hbar/hbar_ccs.py, get_ccs_intermediates_opt, lines 75-78 *)
Definition ccsdt_X_ab_voov (d : dims) (H : ints) (T U : amps) : mat4 := fun a m i e =>
  i_ab_voov H a m i e + (sumn (nua d) (fun f => (i_ab_vovv H a m f e + 1 / 2 * (ccsdt_X_ab_vovv d H T U a m f e)) * (x_a U f i)) - sumn (noa d) (fun n => (i_ab_ooov H n m i e + 1 / 2 * (ccsdt_X_ab_ooov d H T U n m i e)) * (x_a U a n))).
(** ccpy/hbar/hbar_ccs.py, get_ccs_intermediates_opt, lines 79-82 *)
Definition ccsdt_X_ab_ovvo (d : dims) (H : ints) (T U : amps) : mat4 := fun m a e i =>
  i_ab_ovvo H m a e i + (sumn (nub d) (fun f => (i_ab_ovvv H m a e f + 1 / 2 * (ccsdt_X_ab_ovvv d H T U m a e f)) * (x_b U f i)) - sumn (nob d) (fun n => (i_ab_oovo H m n e i + 1 / 2 * (ccsdt_X_ab_oovo d H T U m n e i)) * (x_b U a n))).
(** ccpy/hbar/hbar_ccs.py, get_ccs_intermediates_opt, lines 83-86 *)
Definition ccsdt_X_ab_ovov (d : dims) (H : ints) (T U : amps) : mat4 := fun m a i e =>
  i_ab_ovov H m a i e + (sumn (nua d) (fun f => (i_ab_ovvv H m a f e + 1 / 2 * (ccsdt_X_ab_ovvv d H T U m a f e)) * (x_a U f i)) - sumn (nob d) (fun n => (i_ab_ooov H m n i e + 1 / 2 * (ccsdt_X_ab_ooov d H T U m n i e)) * (x_b U a n))).
(** ccpy/hbar/hbar_ccs.py, get_ccs_intermediates_opt, lines 87-90 *)
Definition ccsdt_X_ab_vovo (d : dims) (H : ints) (T U : amps) : mat4 := fun a m e i =>
  i_ab_vovo H a m e i - (sumn (noa d) (fun n => (i_ab_oovo H n m e i + 1 / 2 * (ccsdt_X_ab_oovo d H T U n m e i)) * (x_a U a n)) - sumn (nub d) (fun f => (i_ab_vovv H a m e f + 1 / 2 * (ccsdt_X_ab_vovv d H T U a m e f)) * (x_b U f i))).
(** ccpy/hbar/hbar_ccs.py, get_ccs_intermediates_opt, lines 91-94 *)
Definition ccsdt_X_mnij_2 (d : dims) (H : ints) (T U : amps) : mat4 := fun m n i j =>
  i_ab_oooo H m n i j + (sumn (nub d) (fun f => (i_ab_ooov H m n i f) * (x_b U f j)) + sumn (nua d) (fun e => (i_ab_oovo H m n e j) * (x_a U e i))).
(** ccpy/hbar/hbar_ccs.py, get_ccs_intermediates_opt, line 95 *)
Definition ccsdt_L_mbej (d : dims) (H : ints) (T U : amps) : mat4 := fun m b e j =>
  i_ab_ovvo H m b e j + sumn (nub d) (fun f => (i_ab_ovvv H m b e f) * (x_b U f j)).
(** ccpy/hbar/hbar_ccs.py, get_ccs_intermediates_opt, lines 96-99 *)
Definition ccsdt_X_ab_ovoo (d : dims) (H : ints) (T U : amps) : mat4 := fun m b i j =>
  i_ab_ovoo H m b i j + (sumn (nua d) (fun e => (ccsdt_L_mbej d H T U m b e j) * (x_a U e i)) - sumn (nob d) (fun n => (ccsdt_X_mnij_2 d H T U m n i j) * (x_b U b n))).
(** ccpy/hbar/hbar_ccs.py, get_ccs_intermediates_opt, line 100 *)
Definition ccsdt_L_amie_4 (d : dims) (H : ints) (T U : amps) : mat4 := fun a m i f =>
  sumn (nua d) (fun e => (i_ab_vovv H a m e f + ccsdt_X_ab_vovv d H T U a m e f) * (x_a U e i)).
(** ccpy/hbar/hbar_ccs.py, get_ccs_intermediates_opt, line 101 *)
Definition ccsdt_X_ab_vooo (d : dims) (H : ints) (T U : amps) : mat4 := fun a m i j =>
  i_ab_vooo H a m i j + sumn (nub d) (fun f => (i_ab_voov H a m i f + ccsdt_L_amie_4 d H T U a m i f) * (x_b U f j)).
(** ccpy/hbar/hbar_ccs.py, get_ccs_intermediates_opt, line 102 *)
Definition ccsdt_X_ab_vvvo (d : dims) (H : ints) (T U : amps) : mat4 := fun a b e j =>
  i_ab_vvvo H a b e j - sumn (nob d) (fun n => (i_ab_vovo H a n e j) * (x_b U b n)).
(** ccpy/hbar/hbar_ccs.py, get_ccs_intermediates_opt, line 103 *)
Definition ccsdt_X_ab_vvov (d : dims) (H : ints) (T U : amps) : mat4 := fun a b i e =>
  i_ab_vvov H a b i e - sumn (noa d) (fun m => (i_ab_ovov H m b i e) * (x_a U a m)).
(** ccpy/cc/ccsdt.py, update_t2a, lines 112-115 *)
Definition ccsdt_I2A_voov (d : dims) (H : ints) (T U : amps) : mat4 := fun a m i e =>
  ccsdt_X_aa_voov d H T U a m i e + (1 / 2 * (sumn (noa d) (fun n => sumn (nua d) (fun f => (i_aa_oovv H m n e f) * (x_aa T a f i n)))) + sumn (nob d) (fun n => sumn (nub d) (fun f => (i_ab_oovv H m n e f) * (x_ab T a f i n)))).
(** ccpy/cc/ccsdt.py, update_t2a, line 116 *)
Definition ccsdt_I2A_oooo (d : dims) (H : ints) (T U : amps) : mat4 := fun m n i j =>
  ccsdt_X_aa_oooo_1 d H T U m n i j + 1 / 2 * (sumn (nua d) (fun e => sumn (nua d) (fun f => (i_aa_oovv H m n e f) * (x_aa T e f i j)))).
(** ccpy/cc/ccsdt.py, update_t2a, line 117 *)
Definition ccsdt_I2B_voov (d : dims) (H : ints) (T U : amps) : mat4 := fun a m i e =>
  ccsdt_X_ab_voov d H T U a m i e + 1 / 2 * (sumn (nob d) (fun n => sumn (nub d) (fun f => (i_bb_oovv H m n e f) * (x_ab T a f i n)))).
(** ccpy/cc/ccsdt.py, update_t2a, line 118 *)
Definition ccsdt_I2A_vooo (d : dims) (H : ints) (T U : amps) : mat4 := fun a m i j =>
  ccsdt_X_aa_vooo_1 d H T U a m i j + 1 / 2 * (sumn (nua d) (fun e => sumn (nua d) (fun f => (i_aa_vovv H a m e f + 1 / 2 * (ccsdt_X_aa_vovv d H T U a m e f)) * (x_aa T e f i j)))).
(** ccpy/cc/ccsdt.py, update_t2a, line 120 *)
Definition ccsdt_tau (d : dims) (H : ints) (T U : amps) : mat4 := fun a b i j =>
  1 / 2 * (x_aa T a b i j) + (x_a U a i) * (x_a U b j).
(** ccpy/cc/ccsdt.py, update_t2a, line 122 *)
Definition ccsdt_dT_aa (d : dims) (H : ints) (T U : amps) : mat4 := fun a b i j =>
  (-1) / 2 * (sumn (noa d) (fun m => (ccsdt_I2A_vooo d H T U a m i j) * (x_a U b m))).
(** ccpy/cc/ccsdt.py, update_t2a, line 123 *)
Definition ccsdt_dT_aa_1 (d : dims) (H : ints) (T U : amps) : mat4 := fun a b i j =>
  ccsdt_dT_aa d H T U a b i j + 1 / 2 * (sumn (nua d) (fun e => (ccsdt_X_aa_vvov d H T U a b i e) * (x_a U e j))).
(** ccpy/cc/ccsdt.py, update_t2a, line 124 *)
Definition ccsdt_dT_aa_2 (d : dims) (H : ints) (T U : amps) : mat4 := fun a b i j =>
  ccsdt_dT_aa_1 d H T U a b i j + 1 / 2 * (sumn (nua d) (fun e => (ccsdt_X_a_vv_1 d H T U a e) * (x_aa T e b i j))).
(** ccpy/cc/ccsdt.py, update_t2a, line 125 *)
Definition ccsdt_dT_aa_3 (d : dims) (H : ints) (T U : amps) : mat4 := fun a b i j =>
  ccsdt_dT_aa_2 d H T U a b i j - 1 / 2 * (sumn (noa d) (fun m => (ccsdt_X_a_oo d H T U m i) * (x_aa T a b m j))).
(** ccpy/cc/ccsdt.py, update_t2a, line 126 *)
Definition ccsdt_dT_aa_4 (d : dims) (H : ints) (T U : amps) : mat4 := fun a b i j =>
  ccsdt_dT_aa_3 d H T U a b i j + sumn (noa d) (fun m => sumn (nua d) (fun e => (ccsdt_I2A_voov d H T U a m i e) * (x_aa T e b m j))).
(** ccpy/cc/ccsdt.py, update_t2a, line 127 *)
Definition ccsdt_dT_aa_5 (d : dims) (H : ints) (T U : amps) : mat4 := fun a b i j =>
  ccsdt_dT_aa_4 d H T U a b i j + sumn (nob d) (fun m => sumn (nub d) (fun e => (ccsdt_I2B_voov d H T U a m i e) * (x_ab T b e j m))).
(** ccpy/cc/ccsdt.py, update_t2a, line 128 *)
Definition ccsdt_dT_aa_6 (d : dims) (H : ints) (T U : amps) : mat4 := fun a b i j =>
  ccsdt_dT_aa_5 d H T U a b i j + 1 / 4 * (sumn (nua d) (fun e => sumn (nua d) (fun f => (i_aa_vvvv H a b e f) * (ccsdt_tau d H T U e f i j)))).
(** ccpy/cc/ccsdt.py, update_t2a, line 129 *)
Definition ccsdt_dT_aa_7 (d : dims) (H : ints) (T U : amps) : mat4 := fun a b i j =>
  ccsdt_dT_aa_6 d H T U a b i j + 1 / 8 * (sumn (noa d) (fun m => sumn (noa d) (fun n => (ccsdt_I2A_oooo d H T U m n i j) * (x_aa T a b m n)))).
(** ccpy/cc/ccsdt.py, update_t2a, line 131 *)
Definition ccsdt_dT_aa_8 (d : dims) (H : ints) (T U : amps) : mat4 := fun a b i j =>
  ccsdt_dT_aa_7 d H T U a b i j + 1 / 4 * (sumn (noa d) (fun m => sumn (nua d) (fun e => (ccsdt_X_a_ov d H T U m e) * (x_aaa T a b e i j m)))).
(** ccpy/cc/ccsdt.py, update_t2a, line 132 *)
Definition ccsdt_dT_aa_9 (d : dims) (H : ints) (T U : amps) : mat4 := fun a b i j =>
  ccsdt_dT_aa_8 d H T U a b i j + 1 / 4 * (sumn (nob d) (fun m => sumn (nub d) (fun e => (ccsdt_X_b_ov d H T U m e) * (x_aab T a b e i j m)))).
(** ccpy/cc/ccsdt.py, update_t2a, line 133 *)
Definition ccsdt_dT_aa_10 (d : dims) (H : ints) (T U : amps) : mat4 := fun a b i j =>
  ccsdt_dT_aa_9 d H T U a b i j - 1 / 2 * (sumn (noa d) (fun m => sumn (nob d) (fun n => sumn (nub d) (fun f => (i_ab_ooov H m n i f + ccsdt_X_ab_ooov d H T U m n i f) * (x_aab T a b f m j n))))).
(** ccpy/cc/ccsdt.py, update_t2a, line 134 *)
Definition ccsdt_dT_aa_11 (d : dims) (H : ints) (T U : amps) : mat4 := fun a b i j =>
  ccsdt_dT_aa_10 d H T U a b i j - 1 / 4 * (sumn (noa d) (fun m => sumn (noa d) (fun n => sumn (nua d) (fun f => (i_aa_ooov H m n i f + ccsdt_X_aa_ooov d H T U m n i f) * (x_aaa T a b f m j n))))).
(** ccpy/cc/ccsdt.py, update_t2a, line 135 *)
Definition ccsdt_dT_aa_12 (d : dims) (H : ints) (T U : amps) : mat4 := fun a b i j =>
  ccsdt_dT_aa_11 d H T U a b i j + 1 / 4 * (sumn (noa d) (fun n => sumn (nua d) (fun e => sumn (nua d) (fun f => (i_aa_vovv H a n e f + ccsdt_X_aa_vovv d H T U a n e f) * (x_aaa T e b f i j n))))).
(** ccpy/cc/ccsdt.py, update_t2a, line 136 *)
Definition ccsdt_dT_aa_13 (d : dims) (H : ints) (T U : amps) : mat4 := fun a b i j =>
  ccsdt_dT_aa_12 d H T U a b i j + 1 / 2 * (sumn (nob d) (fun n => sumn (nua d) (fun e => sumn (nub d) (fun f => (i_ab_vovv H a n e f + ccsdt_X_ab_vovv d H T U a n e f) * (x_aab T e b f i j n))))).
(** ccpy/cc/ccsdt.py, update_t2a, lines 137-139 *)
Definition ccsdt_res_aa (d : dims) (H : ints) (T U : amps) : mat4 := fun a b i j =>
  ccsdt_dT_aa_13 d H T U a b i j + 1 / 4 * (i_aa_vvoo H a b i j).
(** ccpy/cc/ccsdt.py, update_t2b, lines 147-150 *)
Definition ccsdt_I2A_voov_1 (d : dims) (H : ints) (T U : amps) : mat4 := fun a m i e =>
  ccsdt_X_aa_voov d H T U a m i e + (sumn (noa d) (fun m' => sumn (nua d) (fun e' => (i_aa_oovv H m' m e' e) * (x_aa U a e' i m'))) + sumn (nob d) (fun m' => sumn (nub d) (fun e' => (i_ab_oovv H m m' e e') * (x_ab T a e' i m')))).
(** ccpy/cc/ccsdt.py, update_t2b, lines 151-154 *)
Definition ccsdt_I2B_voov_1 (d : dims) (H : ints) (T U : amps) : mat4 := fun a m i e =>
  ccsdt_X_ab_voov d H T U a m i e + (sumn (noa d) (fun m' => sumn (nua d) (fun e' => (i_ab_oovv H m' m e' e) * (x_aa U a e' i m'))) + sumn (nob d) (fun m' => sumn (nub d) (fun e' => (i_bb_oovv H m' m e' e) * (x_ab T a e' i m')))).
(** ccpy/cc/ccsdt.py, update_t2b, line 155 *)
Definition ccsdt_I2B_oooo (d : dims) (H : ints) (T U : amps) : mat4 := fun m n i j =>
  ccsdt_X_ab_oooo d H T U m n i j + sumn (nua d) (fun e => sumn (nub d) (fun f => (i_ab_oovv H m n e f) * (x_ab T e f i j))).
(** ccpy/cc/ccsdt.py, update_t2b, line 156 *)
Definition ccsdt_I2B_vovo (d : dims) (H : ints) (T U : amps) : mat4 := fun a m e i =>
  ccsdt_X_ab_vovo d H T U a m e i - sumn (noa d) (fun m' => sumn (nub d) (fun f => (i_ab_oovv H m' m e f) * (x_ab T a f m' i))).
(** ccpy/cc/ccsdt.py, update_t2b, line 157 *)
Definition ccsdt_I2B_ovoo (d : dims) (H : ints) (T U : amps) : mat4 := fun m b i j =>
  ccsdt_X_ab_ovoo d H T U m b i j + sumn (nua d) (fun e => sumn (nub d) (fun f => (i_ab_ovvv H m b e f + 1 / 2 * (ccsdt_X_ab_ovvv d H T U m b e f)) * (x_ab T e f i j))).
(** ccpy/cc/ccsdt.py, update_t2b, line 158 *)
Definition ccsdt_I2B_vooo (d : dims) (H : ints) (T U : amps) : mat4 := fun a m i j =>
  ccsdt_X_ab_vooo d H T U a m i j + sumn (nua d) (fun e => sumn (nub d) (fun f => (i_ab_vovv H a m e f + 1 / 2 * (ccsdt_X_ab_vovv d H T U a m e f)) * (x_ab T e f i j))).
(** ccpy/cc/ccsdt.py, update_t2b, line 160 *)
Definition ccsdt_tau_1 (d : dims) (H : ints) (T U : amps) : mat4 := fun a b i j =>
  x_ab T a b i j + (x_a U a i) * (x_b U b j).
(** ccpy/cc/ccsdt.py, update_t2b, line 162 *)
Definition ccsdt_dT_ab (d : dims) (H : ints) (T U : amps) : mat4 := fun a b i j =>
  (- (sumn (noa d) (fun m => (ccsdt_I2B_ovoo d H T U m b i j) * (x_a U a m)))).
(** ccpy/cc/ccsdt.py, update_t2b, line 163 *)
Definition ccsdt_dT_ab_1 (d : dims) (H : ints) (T U : amps) : mat4 := fun a b i j =>
  ccsdt_dT_ab d H T U a b i j - sumn (nob d) (fun m => (ccsdt_I2B_vooo d H T U a m i j) * (x_b U b m)).
(** ccpy/cc/ccsdt.py, update_t2b, line 164 *)
Definition ccsdt_dT_ab_2 (d : dims) (H : ints) (T U : amps) : mat4 := fun a b i j =>
  ccsdt_dT_ab_1 d H T U a b i j + sumn (nua d) (fun e => (ccsdt_X_ab_vvvo d H T U a b e j) * (x_a U e i)).
(** ccpy/cc/ccsdt.py, update_t2b, line 165 *)
Definition ccsdt_dT_ab_3 (d : dims) (H : ints) (T U : amps) : mat4 := fun a b i j =>
  ccsdt_dT_ab_2 d H T U a b i j + sumn (nub d) (fun e => (ccsdt_X_ab_vvov d H T U a b i e) * (x_b U e j)).
(** ccpy/cc/ccsdt.py, update_t2b, line 166 *)
Definition ccsdt_dT_ab_4 (d : dims) (H : ints) (T U : amps) : mat4 := fun a b i j =>
  ccsdt_dT_ab_3 d H T U a b i j + sumn (nua d) (fun e => (ccsdt_X_a_vv_1 d H T U a e) * (x_ab T e b i j)).
(** ccpy/cc/ccsdt.py, update_t2b, line 167 *)
Definition ccsdt_dT_ab_5 (d : dims) (H : ints) (T U : amps) : mat4 := fun a b i j =>
  ccsdt_dT_ab_4 d H T U a b i j + sumn (nub d) (fun e => (ccsdt_X_b_vv_1 d H T U b e) * (x_ab T a e i j)).
(** ccpy/cc/ccsdt.py, update_t2b, line 168 *)
Definition ccsdt_dT_ab_6 (d : dims) (H : ints) (T U : amps) : mat4 := fun a b i j =>
  ccsdt_dT_ab_5 d H T U a b i j - sumn (noa d) (fun m => (ccsdt_X_a_oo d H T U m i) * (x_ab T a b m j)).
(** ccpy/cc/ccsdt.py, update_t2b, line 169 *)
Definition ccsdt_dT_ab_7 (d : dims) (H : ints) (T U : amps) : mat4 := fun a b i j =>
  ccsdt_dT_ab_6 d H T U a b i j - sumn (nob d) (fun m => (ccsdt_X_b_oo d H T U m j) * (x_ab T a b i m)).
(** ccpy/cc/ccsdt.py, update_t2b, line 170 *)
Definition ccsdt_dT_ab_8 (d : dims) (H : ints) (T U : amps) : mat4 := fun a b i j =>
  ccsdt_dT_ab_7 d H T U a b i j + sumn (noa d) (fun m => sumn (nua d) (fun e => (ccsdt_I2A_voov_1 d H T U a m i e) * (x_ab T e b m j))).
(** ccpy/cc/ccsdt.py, update_t2b, line 171 *)
Definition ccsdt_dT_ab_9 (d : dims) (H : ints) (T U : amps) : mat4 := fun a b i j =>
  ccsdt_dT_ab_8 d H T U a b i j + sumn (nob d) (fun m => sumn (nub d) (fun e => (ccsdt_I2B_voov_1 d H T U a m i e) * (x_bb T e b m j))).
(** ccpy/cc/ccsdt.py, update_t2b, line 172 *)
Definition ccsdt_dT_ab_10 (d : dims) (H : ints) (T U : amps) : mat4 := fun a b i j =>
  ccsdt_dT_ab_9 d H T U a b i j + sumn (noa d) (fun m => sumn (nua d) (fun e => (ccsdt_X_ab_ovvo d H T U m b e j) * (x_aa U a e i m))).
(** ccpy/cc/ccsdt.py, update_t2b, line 173 *)
Definition ccsdt_dT_ab_11 (d : dims) (H : ints) (T U : amps) : mat4 := fun a b i j =>
  ccsdt_dT_ab_10 d H T U a b i j + sumn (nob d) (fun m => sumn (nub d) (fun e => (ccsdt_X_bb_voov d H T U b m j e) * (x_ab T a e i m))).
(** ccpy/cc/ccsdt.py, update_t2b, line 174 *)
Definition ccsdt_dT_ab_12 (d : dims) (H : ints) (T U : amps) : mat4 := fun a b i j =>
  ccsdt_dT_ab_11 d H T U a b i j - sumn (noa d) (fun m => sumn (nub d) (fun e => (ccsdt_X_ab_ovov d H T U m b i e) * (x_ab T a e m j))).
(** ccpy/cc/ccsdt.py, update_t2b, line 175 *)
Definition ccsdt_dT_ab_13 (d : dims) (H : ints) (T U : amps) : mat4 := fun a b i j =>
  ccsdt_dT_ab_12 d H T U a b i j - sumn (nob d) (fun m => sumn (nua d) (fun e => (ccsdt_I2B_vovo d H T U a m e j) * (x_ab T e b i m))).
(** ccpy/cc/ccsdt.py, update_t2b, line 176 *)
Definition ccsdt_dT_ab_14 (d : dims) (H : ints) (T U : amps) : mat4 := fun a b i j =>
  ccsdt_dT_ab_13 d H T U a b i j + sumn (noa d) (fun m => sumn (nob d) (fun n => (ccsdt_I2B_oooo d H T U m n i j) * (x_ab T a b m n))).
(** ccpy/cc/ccsdt.py, update_t2b, line 177 *)
Definition ccsdt_dT_ab_15 (d : dims) (H : ints) (T U : amps) : mat4 := fun a b i j =>
  ccsdt_dT_ab_14 d H T U a b i j + sumn (nua d) (fun e => sumn (nub d) (fun f => (i_ab_vvvv H a b e f) * (ccsdt_tau_1 d H T U e f i j))).
(** ccpy/cc/ccsdt.py, update_t2b, line 179 *)
Definition ccsdt_dT_ab_16 (d : dims) (H : ints) (T U : amps) : mat4 := fun a b i j =>
  ccsdt_dT_ab_15 d H T U a b i j - 1 / 2 * (sumn (noa d) (fun m => sumn (noa d) (fun n => sumn (nua d) (fun f => (i_aa_ooov H m n i f + ccsdt_X_aa_ooov d H T U m n i f) * (x_aab T a f b m n j))))).
(** ccpy/cc/ccsdt.py, update_t2b, line 180 *)
Definition ccsdt_dT_ab_17 (d : dims) (H : ints) (T U : amps) : mat4 := fun a b i j =>
  ccsdt_dT_ab_16 d H T U a b i j - sumn (noa d) (fun n => sumn (nob d) (fun m => sumn (nua d) (fun f => (i_ab_oovo H n m f j + ccsdt_X_ab_oovo d H T U n m f j) * (x_aab T a f b i n m)))).
(** ccpy/cc/ccsdt.py, update_t2b, line 181 *)
Definition ccsdt_dT_ab_18 (d : dims) (H : ints) (T U : amps) : mat4 := fun a b i j =>
  ccsdt_dT_ab_17 d H T U a b i j - 1 / 2 * (sumn (nob d) (fun m => sumn (nob d) (fun n => sumn (nub d) (fun f => (i_bb_ooov H m n j f + ccsdt_X_bb_ooov d H T U m n j f) * (x_abb T a f b i n m))))).
(** ccpy/cc/ccsdt.py, update_t2b, line 182 *)
Definition ccsdt_dT_ab_19 (d : dims) (H : ints) (T U : amps) : mat4 := fun a b i j =>
  ccsdt_dT_ab_18 d H T U a b i j - sumn (noa d) (fun m => sumn (nob d) (fun n => sumn (nub d) (fun f => (i_ab_ooov H m n i f + ccsdt_X_ab_ooov d H T U m n i f) * (x_abb T a f b m n j)))).
(** ccpy/cc/ccsdt.py, update_t2b, line 183 *)
Definition ccsdt_dT_ab_20 (d : dims) (H : ints) (T U : amps) : mat4 := fun a b i j =>
  ccsdt_dT_ab_19 d H T U a b i j + 1 / 2 * (sumn (noa d) (fun n => sumn (nua d) (fun e => sumn (nua d) (fun f => (i_aa_vovv H a n e f + ccsdt_X_aa_vovv d H T U a n e f) * (x_aab T e f b i n j))))).
(** ccpy/cc/ccsdt.py, update_t2b, line 184 *)
Definition ccsdt_dT_ab_21 (d : dims) (H : ints) (T U : amps) : mat4 := fun a b i j =>
  ccsdt_dT_ab_20 d H T U a b i j + sumn (nob d) (fun n => sumn (nua d) (fun e => sumn (nub d) (fun f => (i_ab_vovv H a n e f + ccsdt_X_ab_vovv d H T U a n e f) * (x_abb T e f b i n j)))).
(** ccpy/cc/ccsdt.py, update_t2b, line 185 *)
Definition ccsdt_dT_ab_22 (d : dims) (H : ints) (T U : amps) : mat4 := fun a b i j =>
  ccsdt_dT_ab_21 d H T U a b i j + sumn (noa d) (fun n => sumn (nua d) (fun f => sumn (nub d) (fun e => (i_ab_ovvv H n b f e + ccsdt_X_ab_ovvv d H T U n b f e) * (x_aab T a f e i n j)))).
(** ccpy/cc/ccsdt.py, update_t2b, line 186 *)
Definition ccsdt_dT_ab_23 (d : dims) (H : ints) (T U : amps) : mat4 := fun a b i j =>
  ccsdt_dT_ab_22 d H T U a b i j + 1 / 2 * (sumn (nob d) (fun n => sumn (nub d) (fun e => sumn (nub d) (fun f => (i_bb_vovv H b n e f + ccsdt_X_bb_vovv d H T U b n e f) * (x_abb T a f e i n j))))).
(** ccpy/cc/ccsdt.py, update_t2b, line 187 *)
Definition ccsdt_dT_ab_24 (d : dims) (H : ints) (T U : amps) : mat4 := fun a b i j =>
  ccsdt_dT_ab_23 d H T U a b i j + sumn (noa d) (fun m => sumn (nua d) (fun e => (ccsdt_X_a_ov d H T U m e) * (x_aab T a e b i m j))).
(** ccpy/cc/ccsdt.py, update_t2b, line 188 *)
Definition ccsdt_dT_ab_25 (d : dims) (H : ints) (T U : amps) : mat4 := fun a b i j =>
  ccsdt_dT_ab_24 d H T U a b i j + sumn (nob d) (fun m => sumn (nub d) (fun e => (ccsdt_X_b_ov d H T U m e) * (x_abb T a e b i m j))).
(** ccpy/cc/ccsdt.py, update_t2b, lines 189-191 *)
Definition ccsdt_res_ab (d : dims) (H : ints) (T U : amps) : mat4 := fun a b i j =>
  ccsdt_dT_ab_25 d H T U a b i j + i_ab_vvoo H a b i j.
(** ccpy/cc/ccsdt.py, update_t2c, line 199 *)
Definition ccsdt_I2C_oooo (d : dims) (H : ints) (T U : amps) : mat4 := fun m n i j =>
  ccsdt_X_bb_oooo_1 d H T U m n i j + 1 / 2 * (sumn (nub d) (fun e => sumn (nub d) (fun f => (i_bb_oovv H m n e f) * (x_bb T e f i j)))).
(** ccpy/cc/ccsdt.py, update_t2c, lines 201-204 *)
Definition ccsdt_I2B_ovvo (d : dims) (H : ints) (T U : amps) : mat4 := fun m a e i =>
  ccsdt_X_ab_ovvo d H T U m a e i + (sumn (nob d) (fun n => sumn (nub d) (fun f => (i_ab_oovv H m n e f) * (x_bb T a f i n))) + 1 / 2 * (sumn (noa d) (fun n => sumn (nua d) (fun f => (i_aa_oovv H m n e f) * (x_ab U f a n i))))).
(** ccpy/cc/ccsdt.py, update_t2c, line 205 *)
Definition ccsdt_I2C_voov (d : dims) (H : ints) (T U : amps) : mat4 := fun a m i e =>
  ccsdt_X_bb_voov d H T U a m i e + 1 / 2 * (sumn (nob d) (fun n => sumn (nub d) (fun f => (i_bb_oovv H m n e f) * (x_bb T a f i n)))).
(** ccpy/cc/ccsdt.py, update_t2c, line 206 *)
Definition ccsdt_I2C_vooo (d : dims) (H : ints) (T U : amps) : mat4 := fun a m i j =>
  ccsdt_X_bb_vooo_1 d H T U a m i j + 1 / 2 * (sumn (nub d) (fun e => sumn (nub d) (fun f => (i_bb_vovv H a m e f + 1 / 2 * (ccsdt_X_bb_vovv d H T U a m e f)) * (x_bb T e f i j)))).
(** ccpy/cc/ccsdt.py, update_t2c, line 208 *)
Definition ccsdt_tau_2 (d : dims) (H : ints) (T U : amps) : mat4 := fun a b i j =>
  1 / 2 * (x_bb T a b i j) + (x_b U a i) * (x_b U b j).
(** ccpy/cc/ccsdt.py, update_t2c, line 210 *)
Definition ccsdt_dT_bb (d : dims) (H : ints) (T U : amps) : mat4 := fun a b i j =>
  (-1) / 2 * (sumn (nob d) (fun m => (ccsdt_I2C_vooo d H T U a m i j) * (x_b U b m))).
(** ccpy/cc/ccsdt.py, update_t2c, line 211 *)
Definition ccsdt_dT_bb_1 (d : dims) (H : ints) (T U : amps) : mat4 := fun a b i j =>
  ccsdt_dT_bb d H T U a b i j + 1 / 2 * (sumn (nub d) (fun e => (ccsdt_X_bb_vvov d H T U a b i e) * (x_b U e j))).
(** ccpy/cc/ccsdt.py, update_t2c, line 212 *)
Definition ccsdt_dT_bb_2 (d : dims) (H : ints) (T U : amps) : mat4 := fun a b i j =>
  ccsdt_dT_bb_1 d H T U a b i j + 1 / 2 * (sumn (nub d) (fun e => (ccsdt_X_b_vv_1 d H T U a e) * (x_bb T e b i j))).
(** ccpy/cc/ccsdt.py, update_t2c, line 213 *)
Definition ccsdt_dT_bb_3 (d : dims) (H : ints) (T U : amps) : mat4 := fun a b i j =>
  ccsdt_dT_bb_2 d H T U a b i j - 1 / 2 * (sumn (nob d) (fun m => (ccsdt_X_b_oo d H T U m i) * (x_bb T a b m j))).
(** ccpy/cc/ccsdt.py, update_t2c, line 214 *)
Definition ccsdt_dT_bb_4 (d : dims) (H : ints) (T U : amps) : mat4 := fun a b i j =>
  ccsdt_dT_bb_3 d H T U a b i j + sumn (nob d) (fun m => sumn (nub d) (fun e => (ccsdt_I2C_voov d H T U a m i e) * (x_bb T e b m j))).
(** ccpy/cc/ccsdt.py, update_t2c, line 215 *)
Definition ccsdt_dT_bb_5 (d : dims) (H : ints) (T U : amps) : mat4 := fun a b i j =>
  ccsdt_dT_bb_4 d H T U a b i j + sumn (noa d) (fun m => sumn (nua d) (fun e => (ccsdt_I2B_ovvo d H T U m a e i) * (x_ab U e b m j))).
(** ccpy/cc/ccsdt.py, update_t2c, line 216 *)
Definition ccsdt_dT_bb_6 (d : dims) (H : ints) (T U : amps) : mat4 := fun a b i j =>
  ccsdt_dT_bb_5 d H T U a b i j + 1 / 4 * (sumn (nub d) (fun e => sumn (nub d) (fun f => (i_bb_vvvv H a b e f) * (ccsdt_tau_2 d H T U e f i j)))).
(** ccpy/cc/ccsdt.py, update_t2c, line 217 *)
Definition ccsdt_dT_bb_7 (d : dims) (H : ints) (T U : amps) : mat4 := fun a b i j =>
  ccsdt_dT_bb_6 d H T U a b i j + 1 / 8 * (sumn (nob d) (fun m => sumn (nob d) (fun n => (ccsdt_I2C_oooo d H T U m n i j) * (x_bb T a b m n)))).
(** ccpy/cc/ccsdt.py, update_t2c, line 219 *)
Definition ccsdt_dT_bb_8 (d : dims) (H : ints) (T U : amps) : mat4 := fun a b i j =>
  ccsdt_dT_bb_7 d H T U a b i j + 1 / 4 * (sumn (noa d) (fun m => sumn (nua d) (fun e => (ccsdt_X_a_ov d H T U m e) * (x_abb T e a b m i j)))).
(** ccpy/cc/ccsdt.py, update_t2c, line 220 *)
Definition ccsdt_dT_bb_9 (d : dims) (H : ints) (T U : amps) : mat4 := fun a b i j =>
  ccsdt_dT_bb_8 d H T U a b i j + 1 / 4 * (sumn (nob d) (fun m => sumn (nub d) (fun e => (ccsdt_X_b_ov d H T U m e) * (x_bbb T a b e i j m)))).
(** ccpy/cc/ccsdt.py, update_t2c, line 221 *)
Definition ccsdt_dT_bb_10 (d : dims) (H : ints) (T U : amps) : mat4 := fun a b i j =>
  ccsdt_dT_bb_9 d H T U a b i j + 1 / 4 * (sumn (nob d) (fun n => sumn (nub d) (fun e => sumn (nub d) (fun f => (i_bb_vovv H a n e f + ccsdt_X_bb_vovv d H T U a n e f) * (x_bbb T e b f i j n))))).
(** ccpy/cc/ccsdt.py, update_t2c, line 222 *)
Definition ccsdt_dT_bb_11 (d : dims) (H : ints) (T U : amps) : mat4 := fun a b i j =>
  ccsdt_dT_bb_10 d H T U a b i j + 1 / 2 * (sumn (noa d) (fun n => sumn (nua d) (fun f => sumn (nub d) (fun e => (i_ab_ovvv H n a f e + ccsdt_X_ab_ovvv d H T U n a f e) * (x_abb T f e b n i j))))).
(** ccpy/cc/ccsdt.py, update_t2c, line 223 *)
Definition ccsdt_dT_bb_12 (d : dims) (H : ints) (T U : amps) : mat4 := fun a b i j =>
  ccsdt_dT_bb_11 d H T U a b i j - 1 / 4 * (sumn (nob d) (fun m => sumn (nob d) (fun n => sumn (nub d) (fun f => (i_bb_ooov H m n i f + ccsdt_X_bb_ooov d H T U m n i f) * (x_bbb T a b f m j n))))).
(** ccpy/cc/ccsdt.py, update_t2c, line 224 *)
Definition ccsdt_dT_bb_13 (d : dims) (H : ints) (T U : amps) : mat4 := fun a b i j =>
  ccsdt_dT_bb_12 d H T U a b i j - 1 / 2 * (sumn (noa d) (fun n => sumn (nob d) (fun m => sumn (nua d) (fun f => (i_ab_oovo H n m f i + ccsdt_X_ab_oovo d H T U n m f i) * (x_abb T f a b n m j))))).
(** ccpy/cc/ccsdt.py, update_t2c, lines 225-227 *)
Definition ccsdt_res_bb (d : dims) (H : ints) (T U : amps) : mat4 := fun a b i j =>
  ccsdt_dT_bb_13 d H T U a b i j + 1 / 4 * (i_bb_vvoo H a b i j).
(** ccpy/hbar/hbar_ccsd.py, get_ccsd_intermediates, line 313 *)
Definition ccsdt_tau_aa (d : dims) (H : ints) (T U : amps) : mat4 := fun a b i j =>
  1 / 2 * (x_aa U a b i j) + (x_a U a i) * (x_a U b j).
(** ccpy/hbar/hbar_ccsd.py, get_ccsd_intermediates, line 314 *)
Definition ccsdt_tau_aa_1 (d : dims) (H : ints) (T U : amps) : mat4 := fun a b i j =>
  ccsdt_tau_aa d H T U a b i j - ccsdt_tau_aa d H T U a b j i.
(** ccpy/hbar/hbar_ccsd.py, get_ccsd_intermediates, line 318 *)
Definition ccsdt_tau_bb (d : dims) (H : ints) (T U : amps) : mat4 := fun a b i j =>
  1 / 2 * (x_bb U a b i j) + (x_b U a i) * (x_b U b j).
(** ccpy/hbar/hbar_ccsd.py, get_ccsd_intermediates, line 319 *)
Definition ccsdt_tau_bb_1 (d : dims) (H : ints) (T U : amps) : mat4 := fun a b i j =>
  ccsdt_tau_bb d H T U a b i j - ccsdt_tau_bb d H T U a b j i.
(** ccpy/hbar/hbar_ccsd.py, get_ccsd_intermediates, line 320 *)
Definition ccsdt_tau_ab (d : dims) (H : ints) (T U : amps) : mat4 := fun a b i j =>
  x_ab U a b i j + (x_a U a i) * (x_b U b j).
(** ccpy/hbar/hbar_ccsd.py, get_ccsd_intermediates, line 323 *)
Definition ccsdt_H_aa_vovv (d : dims) (H : ints) (T U : amps) : mat4 := fun a m e f =>
  ccsdt_X_aa_vovv d H T U a m e f + i_aa_vovv H a m e f.
(** ccpy/hbar/hbar_ccsd.py, get_ccsd_intermediates, line 327 *)
Definition ccsdt_H_bb_vovv (d : dims) (H : ints) (T U : amps) : mat4 := fun a m e f =>
  ccsdt_X_bb_vovv d H T U a m e f + i_bb_vovv H a m e f.
(** ccpy/hbar/hbar_ccsd.py, get_ccsd_intermediates, line 328 *)
Definition ccsdt_H_ab_vovv (d : dims) (H : ints) (T U : amps) : mat4 := fun a m e f =>
  ccsdt_X_ab_vovv d H T U a m e f + i_ab_vovv H a m e f.
(** ccpy/hbar/hbar_ccsd.py, get_ccsd_intermediates, line 329 *)
Definition ccsdt_H_ab_ovvv (d : dims) (H : ints) (T U : amps) : mat4 := fun m a e f =>
  ccsdt_X_ab_ovvv d H T U m a e f + i_ab_ovvv H m a e f.
(** ccpy/hbar/hbar_ccsd.py, get_ccsd_intermediates, line 334 *)
Definition ccsdt_H_aa_ooov (d : dims) (H : ints) (T U : amps) : mat4 := fun m n i e =>
  ccsdt_X_aa_ooov d H T U m n i e + i_aa_ooov H m n i e.
(** ccpy/hbar/hbar_ccsd.py, get_ccsd_intermediates, line 338 *)
Definition ccsdt_H_bb_ooov (d : dims) (H : ints) (T U : amps) : mat4 := fun m n i e =>
  ccsdt_X_bb_ooov d H T U m n i e + i_bb_ooov H m n i e.
(** ccpy/hbar/hbar_ccsd.py, get_ccsd_intermediates, line 339 *)
Definition ccsdt_H_ab_ooov (d : dims) (H : ints) (T U : amps) : mat4 := fun m n i e =>
  ccsdt_X_ab_ooov d H T U m n i e + i_ab_ooov H m n i e.
(** ccpy/hbar/hbar_ccsd.py, get_ccsd_intermediates, line 340 *)
Definition ccsdt_H_ab_oovo (d : dims) (H : ints) (T U : amps) : mat4 := fun n m e i =>
  ccsdt_X_ab_oovo d H T U n m e i + i_ab_oovo H n m e i.
(** ccpy/hbar/hbar_ccsd.py, get_ccsd_intermediates, lines 345-349 *)
Definition ccsdt_H_aa_vvvv (d : dims) (H : ints) (T U : amps) : mat4 := fun a b e f =>
  1 / 2 * (i_aa_vvvv H a b e f) + 1 / 4 * (sumn (noa d) (fun m => sumn (noa d) (fun n => (i_aa_oovv H m n e f) * (ccsdt_tau_aa_1 d H T U a b m n)))) - sumn (noa d) (fun m => (i_aa_vovv H a m e f) * (x_a U b m)).
(** ccpy/hbar/hbar_ccsd.py, get_ccsd_intermediates, line 350 *)
Definition ccsdt_H_aa_vvvv_1 (d : dims) (H : ints) (T U : amps) : mat4 := fun a b e f =>
  ccsdt_H_aa_vvvv d H T U a b e f - ccsdt_H_aa_vvvv d H T U b a e f.
(** ccpy/hbar/hbar_ccsd.py, get_ccsd_intermediates, lines 354-358 *)
Definition ccsdt_H_bb_vvvv (d : dims) (H : ints) (T U : amps) : mat4 := fun a b e f =>
  1 / 2 * (i_bb_vvvv H a b e f) + 1 / 4 * (sumn (nob d) (fun m => sumn (nob d) (fun n => (i_bb_oovv H m n e f) * (ccsdt_tau_bb_1 d H T U a b m n)))) - sumn (nob d) (fun m => (i_bb_vovv H a m e f) * (x_b U b m)).
(** ccpy/hbar/hbar_ccsd.py, get_ccsd_intermediates, line 359 *)
Definition ccsdt_H_bb_vvvv_1 (d : dims) (H : ints) (T U : amps) : mat4 := fun a b e f =>
  ccsdt_H_bb_vvvv d H T U a b e f - ccsdt_H_bb_vvvv d H T U b a e f.
(** ccpy/hbar/hbar_ccsd.py, get_ccsd_intermediates, lines 360-365 *)
Definition ccsdt_H_ab_vvvv (d : dims) (H : ints) (T U : amps) : mat4 := fun a b e f =>
  i_ab_vvvv H a b e f - sumn (noa d) (fun m => (i_ab_ovvv H m b e f) * (x_a U a m)) - sumn (nob d) (fun m => (i_ab_vovv H a m e f) * (x_b U b m)) + sumn (noa d) (fun m => sumn (nob d) (fun n => (i_ab_oovv H m n e f) * (ccsdt_tau_ab d H T U a b m n))).
(** ccpy/hbar/hbar_ccsd.py, get_ccsd_intermediates, lines 370-374 *)
Definition ccsdt_H_aa_oooo (d : dims) (H : ints) (T U : amps) : mat4 := fun m n i j =>
  1 / 2 * (i_aa_oooo H m n i j) + sumn (nua d) (fun e => (i_aa_ooov H n m j e) * (x_a U e i)) + 1 / 4 * (sumn (nua d) (fun e => sumn (nua d) (fun f => (i_aa_oovv H m n e f) * (ccsdt_tau_aa_1 d H T U e f i j)))).
(** ccpy/hbar/hbar_ccsd.py, get_ccsd_intermediates, line 375 *)
Definition ccsdt_H_aa_oooo_1 (d : dims) (H : ints) (T U : amps) : mat4 := fun m n i j =>
  ccsdt_H_aa_oooo d H T U m n i j - ccsdt_H_aa_oooo d H T U m n j i.
(** ccpy/hbar/hbar_ccsd.py, get_ccsd_intermediates, lines 379-383 *)
Definition ccsdt_H_bb_oooo (d : dims) (H : ints) (T U : amps) : mat4 := fun m n i j =>
  1 / 2 * (i_bb_oooo H m n i j) + sumn (nub d) (fun e => (i_bb_ooov H n m j e) * (x_b U e i)) + 1 / 4 * (sumn (nub d) (fun e => sumn (nub d) (fun f => (i_bb_oovv H m n e f) * (ccsdt_tau_bb_1 d H T U e f i j)))).
(** ccpy/hbar/hbar_ccsd.py, get_ccsd_intermediates, line 384 *)
Definition ccsdt_H_bb_oooo_1 (d : dims) (H : ints) (T U : amps) : mat4 := fun m n i j =>
  ccsdt_H_bb_oooo d H T U m n i j - ccsdt_H_bb_oooo d H T U m n j i.
(** ccpy/hbar/hbar_ccsd.py, get_ccsd_intermediates, lines 385-390 *)
Definition ccsdt_H_ab_oooo (d : dims) (H : ints) (T U : amps) : mat4 := fun m n i j =>
  i_ab_oooo H m n i j + sumn (nua d) (fun e => (i_ab_oovo H m n e j) * (x_a U e i)) + sumn (nub d) (fun e => (i_ab_ooov H m n i e) * (x_b U e j)) + sumn (nua d) (fun e => sumn (nub d) (fun f => (i_ab_oovv H m n e f) * (ccsdt_tau_ab d H T U e f i j))).
(** ccpy/hbar/hbar_ccsd.py, get_ccsd_intermediates, lines 395-401 *)
Definition ccsdt_H_aa_voov (d : dims) (H : ints) (T U : amps) : mat4 := fun a m i e =>
  i_aa_voov H a m i e + sumn (nua d) (fun f => (i_aa_vovv H a m f e) * (x_a U f i)) - sumn (noa d) (fun n => (ccsdt_H_aa_ooov d H T U n m i e) * (x_a U a n)) + sumn (noa d) (fun n => sumn (nua d) (fun f => (i_aa_oovv H n m f e) * (x_aa U a f i n))) + sumn (nob d) (fun n => sumn (nub d) (fun f => (i_ab_oovv H m n e f) * (x_ab U a f i n))).
(** ccpy/hbar/hbar_ccsd.py, get_ccsd_intermediates, lines 405-411 *)
Definition ccsdt_H_bb_voov (d : dims) (H : ints) (T U : amps) : mat4 := fun a m i e =>
  i_bb_voov H a m i e + sumn (nub d) (fun f => (i_bb_vovv H a m f e) * (x_b U f i)) - sumn (nob d) (fun n => (ccsdt_H_bb_ooov d H T U n m i e) * (x_b U a n)) + sumn (nob d) (fun n => sumn (nub d) (fun f => (i_bb_oovv H n m f e) * (x_bb U a f i n))) + sumn (noa d) (fun n => sumn (nua d) (fun f => (i_ab_oovv H n m f e) * (x_ab U f a n i))).
(** ccpy/hbar/hbar_ccsd.py, get_ccsd_intermediates, lines 412-418 *)
Definition ccsdt_H_ab_voov (d : dims) (H : ints) (T U : amps) : mat4 := fun a m i e =>
  i_ab_voov H a m i e + sumn (nua d) (fun f => (i_ab_vovv H a m f e) * (x_a U f i)) - sumn (noa d) (fun n => (ccsdt_H_ab_ooov d H T U n m i e) * (x_a U a n)) + sumn (noa d) (fun n => sumn (nua d) (fun f => (i_ab_oovv H n m f e) * (x_aa U a f i n))) + sumn (nob d) (fun n => sumn (nub d) (fun f => (i_bb_oovv H n m f e) * (x_ab U a f i n))).
(** ccpy/hbar/hbar_ccsd.py, get_ccsd_intermediates, lines 419-425 *)
Definition ccsdt_H_ab_ovvo (d : dims) (H : ints) (T U : amps) : mat4 := fun m a e i =>
  i_ab_ovvo H m a e i + sumn (nub d) (fun f => (i_ab_ovvv H m a e f) * (x_b U f i)) - sumn (nob d) (fun n => (ccsdt_H_ab_oovo d H T U m n e i) * (x_b U a n)) + sumn (nob d) (fun n => sumn (nub d) (fun f => (i_ab_oovv H m n e f) * (x_bb U a f i n))) + sumn (noa d) (fun n => sumn (nua d) (fun f => (i_aa_oovv H m n e f) * (x_ab U f a n i))).
(** ccpy/hbar/hbar_ccsd.py, get_ccsd_intermediates, lines 426-431 *)
Definition ccsdt_H_ab_ovov (d : dims) (H : ints) (T U : amps) : mat4 := fun m a i e =>
  i_ab_ovov H m a i e + sumn (nua d) (fun f => (i_ab_ovvv H m a f e) * (x_a U f i)) - sumn (nob d) (fun n => (ccsdt_H_ab_ooov d H T U m n i e) * (x_b U a n)) - sumn (nob d) (fun n => sumn (nua d) (fun f => (i_ab_oovv H m n f e) * (x_ab U f a i n))).
(** ccpy/hbar/hbar_ccsd.py, get_ccsd_intermediates, lines 432-437 *)
Definition ccsdt_H_ab_vovo (d : dims) (H : ints) (T U : amps) : mat4 := fun a m e i =>
  i_ab_vovo H a m e i - sumn (noa d) (fun n => (ccsdt_H_ab_oovo d H T U n m e i) * (x_a U a n)) + sumn (nub d) (fun f => (i_ab_vovv H a m e f) * (x_b U f i)) - sumn (noa d) (fun n => sumn (nub d) (fun f => (i_ab_oovv H n m e f) * (x_ab U a f n i))).
(** ccpy/hbar/hbar_ccsd.py, get_ccsd_intermediates, lines 442-445 *)
Definition ccsdt_Q1 (d : dims) (H : ints) (T U : amps) : mat4 := fun a m i j =>
  sumn (noa d) (fun n => sumn (nua d) (fun f => (ccsdt_H_aa_ooov d H T U m n j f) * (x_aa U a f i n))) + sumn (nob d) (fun n => sumn (nub d) (fun f => (ccsdt_H_ab_ooov d H T U m n j f) * (x_ab U a f i n))).
(** ccpy/hbar/hbar_ccsd.py, get_ccsd_intermediates, line 446 *)
Definition ccsdt_Q2 (d : dims) (H : ints) (T U : amps) : mat4 := fun a m i f =>
  i_aa_voov H a m i f + 1 / 2 * (sumn (nua d) (fun e => (i_aa_vovv H a m e f) * (x_a U e i))).
(** ccpy/hbar/hbar_ccsd.py, get_ccsd_intermediates, line 447 *)
Definition ccsdt_Q2_1 (d : dims) (H : ints) (T U : amps) : mat4 := fun a m i j =>
  sumn (nua d) (fun f => (ccsdt_Q2 d H T U a m i f) * (x_a U f j)).
(** ccpy/hbar/hbar_ccsd.py, get_ccsd_intermediates, line 448 *)
Definition ccsdt_Q1_1 (d : dims) (H : ints) (T U : amps) : mat4 := fun a m i j =>
  ccsdt_Q1 d H T U a m i j + ccsdt_Q2_1 d H T U a m i j.
(** ccpy/hbar/hbar_ccsd.py, get_ccsd_intermediates, line 449 *)
Definition ccsdt_Q1_2 (d : dims) (H : ints) (T U : amps) : mat4 := fun a m i j =>
  ccsdt_Q1_1 d H T U a m i j - ccsdt_Q1_1 d H T U a m j i.
(** ccpy/hbar/hbar_ccsd.py, get_ccsd_intermediates, lines 450-454 *)
Definition ccsdt_H_aa_vooo (d : dims) (H : ints) (T U : amps) : mat4 := fun a m i j =>
  i_aa_vooo H a m i j + ccsdt_Q1_2 d H T U a m i j + (sumn (nua d) (fun e => (ccsdt_X_a_ov d H T U m e) * (x_aa U a e i j)) - sumn (noa d) (fun n => (ccsdt_H_aa_oooo_1 d H T U n m i j) * (x_a U a n)) + 1 / 2 * (sumn (nua d) (fun e => sumn (nua d) (fun f => (i_aa_vovv H a m e f) * (x_aa U e f i j))))).
(** ccpy/hbar/hbar_ccsd.py, get_ccsd_intermediates, lines 458-461 *)
Definition ccsdt_Q1_3 (d : dims) (H : ints) (T U : amps) : mat4 := fun a m i j =>
  sumn (nob d) (fun n => sumn (nub d) (fun f => (ccsdt_H_bb_ooov d H T U m n j f) * (x_bb U a f i n))) + sumn (noa d) (fun n => sumn (nua d) (fun f => (ccsdt_H_ab_oovo d H T U n m f j) * (x_ab U f a n i))).
(** ccpy/hbar/hbar_ccsd.py, get_ccsd_intermediates, line 462 *)
Definition ccsdt_Q2_2 (d : dims) (H : ints) (T U : amps) : mat4 := fun a m i f =>
  i_bb_voov H a m i f + 1 / 2 * (sumn (nub d) (fun e => (i_bb_vovv H a m e f) * (x_b U e i))).
(** ccpy/hbar/hbar_ccsd.py, get_ccsd_intermediates, line 463 *)
Definition ccsdt_Q2_3 (d : dims) (H : ints) (T U : amps) : mat4 := fun a m i j =>
  sumn (nub d) (fun f => (ccsdt_Q2_2 d H T U a m i f) * (x_b U f j)).
(** ccpy/hbar/hbar_ccsd.py, get_ccsd_intermediates, line 464 *)
Definition ccsdt_Q1_4 (d : dims) (H : ints) (T U : amps) : mat4 := fun a m i j =>
  ccsdt_Q1_3 d H T U a m i j + ccsdt_Q2_3 d H T U a m i j.
(** ccpy/hbar/hbar_ccsd.py, get_ccsd_intermediates, line 465 *)
Definition ccsdt_Q1_5 (d : dims) (H : ints) (T U : amps) : mat4 := fun a m i j =>
  ccsdt_Q1_4 d H T U a m i j - ccsdt_Q1_4 d H T U a m j i.
(** ccpy/hbar/hbar_ccsd.py, get_ccsd_intermediates, lines 466-470 *)
Definition ccsdt_H_bb_vooo (d : dims) (H : ints) (T U : amps) : mat4 := fun a m i j =>
  i_bb_vooo H a m i j + ccsdt_Q1_5 d H T U a m i j + (sumn (nub d) (fun e => (ccsdt_X_b_ov d H T U m e) * (x_bb U a e i j)) - sumn (nob d) (fun n => (ccsdt_H_bb_oooo_1 d H T U n m i j) * (x_b U a n)) + 1 / 2 * (sumn (nub d) (fun e => sumn (nub d) (fun f => (i_bb_vovv H a m e f) * (x_bb U e f i j))))).
(** ccpy/hbar/hbar_ccsd.py, get_ccsd_intermediates, line 471 *)
Definition ccsdt_Q1_6 (d : dims) (H : ints) (T U : amps) : mat4 := fun a m i e =>
  i_ab_voov H a m i e + sumn (nua d) (fun f => (i_ab_vovv H a m f e) * (x_a U f i)).
(** ccpy/hbar/hbar_ccsd.py, get_ccsd_intermediates, lines 472-481 *)
Definition ccsdt_H_ab_vooo (d : dims) (H : ints) (T U : amps) : mat4 := fun a m i j =>
  i_ab_vooo H a m i j + (sumn (nub d) (fun e => (ccsdt_X_b_ov d H T U m e) * (x_ab U a e i j)) - sumn (noa d) (fun n => (ccsdt_H_ab_oooo d H T U n m i j) * (x_a U a n)) + sumn (nob d) (fun n => sumn (nub d) (fun f => (ccsdt_H_bb_ooov d H T U m n j f) * (x_ab U a f i n))) + sumn (noa d) (fun n => sumn (nua d) (fun f => (ccsdt_H_ab_oovo d H T U n m f j) * (x_aa U a f i n))) - sumn (noa d) (fun n => sumn (nub d) (fun f => (ccsdt_H_ab_ooov d H T U n m i f) * (x_ab U a f n j))) + sumn (nua d) (fun e => (i_ab_vovo H a m e j) * (x_a U e i)) + sumn (nub d) (fun e => (ccsdt_Q1_6 d H T U a m i e) * (x_b U e j)) + sumn (nua d) (fun e => sumn (nub d) (fun f => (i_ab_vovv H a m e f) * (x_ab U e f i j)))).
(** ccpy/hbar/hbar_ccsd.py, get_ccsd_intermediates, line 482 *)
Definition ccsdt_Q1_7 (d : dims) (H : ints) (T U : amps) : mat4 := fun m a j e =>
  i_ab_ovov H m a j e + sumn (nua d) (fun f => (i_ab_ovvv H m a f e) * (x_a U f j)).
(** ccpy/hbar/hbar_ccsd.py, get_ccsd_intermediates, lines 483-492 *)
Definition ccsdt_H_ab_ovoo (d : dims) (H : ints) (T U : amps) : mat4 := fun m a j i =>
  i_ab_ovoo H m a j i + (sumn (nua d) (fun e => (ccsdt_X_a_ov d H T U m e) * (x_ab U e a j i)) - sumn (nob d) (fun n => (ccsdt_H_ab_oooo d H T U m n j i) * (x_b U a n)) + sumn (noa d) (fun n => sumn (nua d) (fun f => (ccsdt_H_aa_ooov d H T U m n j f) * (x_ab U f a n i))) + sumn (nob d) (fun n => sumn (nub d) (fun f => (ccsdt_H_ab_ooov d H T U m n j f) * (x_bb U f a n i))) - sumn (nob d) (fun n => sumn (nua d) (fun f => (ccsdt_H_ab_oovo d H T U m n f i) * (x_ab U f a j n))) + sumn (nub d) (fun e => (ccsdt_Q1_7 d H T U m a j e) * (x_b U e i)) + sumn (nua d) (fun e => (i_ab_ovvo H m a e i) * (x_a U e j)) + sumn (nua d) (fun f => sumn (nub d) (fun e => (i_ab_ovvv H m a f e) * (x_ab U f e j i)))).
(** ccpy/hbar/hbar_ccsd.py, get_ccsd_intermediates, line 497 *)
Definition ccsdt_x2a_voov (d : dims) (H : ints) (T U : amps) : mat4 := fun a m i e =>
  ccsdt_H_aa_voov d H T U a m i e + 1 / 2 * (sumn (noa d) (fun n => (ccsdt_H_aa_ooov d H T U n m i e) * (x_a U a n))).
(** ccpy/hbar/hbar_ccsd.py, get_ccsd_intermediates, lines 498-507 *)
Definition ccsdt_H_aa_vvov (d : dims) (H : ints) (T U : amps) : mat4 := fun a b i e =>
  1 / 2 * (i_aa_vvov H a b i e) - 1 / 2 * (sumn (noa d) (fun m => (ccsdt_X_a_ov d H T U m e) * (x_aa U a b i m))) - sumn (noa d) (fun m => (ccsdt_x2a_voov d H T U a m i e) * (x_a U b m)) + 1 / 4 * (sumn (noa d) (fun m => sumn (noa d) (fun n => (ccsdt_H_aa_ooov d H T U m n i e) * (x_aa U a b m n)))) + 1 / 2 * (sumn (nua d) (fun f => (i_aa_vvvv H a b f e) * (x_a U f i))) + sumn (noa d) (fun n => sumn (nua d) (fun f => (i_aa_vovv H b n e f) * (x_aa U a f i n))) + sumn (nob d) (fun n => sumn (nub d) (fun f => (i_ab_vovv H b n e f) * (x_ab U a f i n))).
(** ccpy/hbar/hbar_ccsd.py, get_ccsd_intermediates, line 508 *)
Definition ccsdt_H_aa_vvov_1 (d : dims) (H : ints) (T U : amps) : mat4 := fun a b i e =>
  ccsdt_H_aa_vvov d H T U a b i e - ccsdt_H_aa_vvov d H T U b a i e.
(** ccpy/hbar/hbar_ccsd.py, get_ccsd_intermediates, line 512 *)
Definition ccsdt_x2c_voov (d : dims) (H : ints) (T U : amps) : mat4 := fun a m i e =>
  ccsdt_H_bb_voov d H T U a m i e + 1 / 2 * (sumn (nob d) (fun n => (ccsdt_H_bb_ooov d H T U n m i e) * (x_b U a n))).
(** ccpy/hbar/hbar_ccsd.py, get_ccsd_intermediates, lines 513-522 *)
Definition ccsdt_H_bb_vvov (d : dims) (H : ints) (T U : amps) : mat4 := fun a b i e =>
  1 / 2 * (i_bb_vvov H a b i e) - 1 / 2 * (sumn (nob d) (fun m => (ccsdt_X_b_ov d H T U m e) * (x_bb U a b i m))) - sumn (nob d) (fun m => (ccsdt_x2c_voov d H T U a m i e) * (x_b U b m)) + 1 / 4 * (sumn (nob d) (fun m => sumn (nob d) (fun n => (ccsdt_H_bb_ooov d H T U m n i e) * (x_bb U a b m n)))) + 1 / 2 * (sumn (nub d) (fun f => (i_bb_vvvv H a b f e) * (x_b U f i))) + sumn (nob d) (fun n => sumn (nub d) (fun f => (i_bb_vovv H b n e f) * (x_bb U a f i n))) + sumn (noa d) (fun n => sumn (nua d) (fun f => (i_ab_ovvv H n b f e) * (x_ab U f a n i))).
(** ccpy/hbar/hbar_ccsd.py, get_ccsd_intermediates, line 523 *)
Definition ccsdt_H_bb_vvov_1 (d : dims) (H : ints) (T U : amps) : mat4 := fun a b i e =>
  ccsdt_H_bb_vvov d H T U a b i e - ccsdt_H_bb_vvov d H T U b a i e.
(** ccpy/hbar/hbar_ccsd.py, get_ccsd_intermediates, line 526 *)
Definition ccsdt_x2b_voov (d : dims) (H : ints) (T U : amps) : mat4 := fun a m i e =>
  ccsdt_H_ab_voov d H T U a m i e + 1 / 2 * (sumn (noa d) (fun n => (ccsdt_H_ab_ooov d H T U n m i e) * (x_a U a n))).
(** ccpy/hbar/hbar_ccsd.py, get_ccsd_intermediates, line 527 *)
Definition ccsdt_x2b_ovov (d : dims) (H : ints) (T U : amps) : mat4 := fun m a i e =>
  ccsdt_H_ab_ovov d H T U m a i e + 1 / 2 * (sumn (nob d) (fun m' => (ccsdt_H_ab_ooov d H T U m m' i e) * (x_b U a m'))).
(** ccpy/hbar/hbar_ccsd.py, get_ccsd_intermediates, lines 528-539 *)
Definition ccsdt_H_ab_vvov (d : dims) (H : ints) (T U : amps) : mat4 := fun a b i e =>
  i_ab_vvov H a b i e - sumn (nob d) (fun m => (ccsdt_X_b_ov d H T U m e) * (x_ab U a b i m)) - sumn (nob d) (fun m => (ccsdt_x2b_voov d H T U a m i e) * (x_b U b m)) - sumn (noa d) (fun m => (ccsdt_x2b_ovov d H T U m b i e) * (x_a U a m)) + sumn (noa d) (fun n => sumn (nob d) (fun m => (ccsdt_H_ab_ooov d H T U n m i e) * (x_ab U a b n m))) + sumn (nua d) (fun f => (i_ab_vvvv H a b f e) * (x_a U f i)) + sumn (noa d) (fun m => sumn (nua d) (fun f => (i_ab_ovvv H m b f e) * (x_aa U a f i m))) + sumn (nob d) (fun m => sumn (nub d) (fun f => (i_bb_vovv H b m e f) * (x_ab U a f i m))) - sumn (nob d) (fun m => sumn (nua d) (fun f => (i_ab_vovv H a m f e) * (x_ab U f b i m))).
(** ccpy/hbar/hbar_ccsd.py, get_ccsd_intermediates, line 540 *)
Definition ccsdt_x2b_ovvo (d : dims) (H : ints) (T U : amps) : mat4 := fun m a e i =>
  ccsdt_H_ab_ovvo d H T U m a e i + 1 / 2 * (sumn (nob d) (fun m' => (ccsdt_H_ab_oovo d H T U m m' e i) * (x_b U a m'))).
(** ccpy/hbar/hbar_ccsd.py, get_ccsd_intermediates, line 541 *)
Definition ccsdt_x2b_vovo (d : dims) (H : ints) (T U : amps) : mat4 := fun a m e i =>
  ccsdt_H_ab_vovo d H T U a m e i + 1 / 2 * (sumn (noa d) (fun n => (ccsdt_H_ab_oovo d H T U n m e i) * (x_a U a n))).
(** ccpy/hbar/hbar_ccsd.py, get_ccsd_intermediates, lines 542-553 *)
Definition ccsdt_H_ab_vvvo (d : dims) (H : ints) (T U : amps) : mat4 := fun b a e i =>
  i_ab_vvvo H b a e i - sumn (noa d) (fun m => (ccsdt_X_a_ov d H T U m e) * (x_ab U b a m i)) - sumn (noa d) (fun m => (ccsdt_x2b_ovvo d H T U m a e i) * (x_a U b m)) - sumn (nob d) (fun m => (ccsdt_x2b_vovo d H T U b m e i) * (x_b U a m)) + sumn (noa d) (fun n => sumn (nob d) (fun m => (ccsdt_H_ab_oovo d H T U n m e i) * (x_ab U b a n m))) + sumn (nub d) (fun f => (i_ab_vvvv H b a e f) * (x_b U f i)) + sumn (nob d) (fun m => sumn (nub d) (fun f => (i_ab_vovv H b m e f) * (x_bb U a f i m))) + sumn (noa d) (fun m => sumn (nua d) (fun f => (i_aa_vovv H b m e f) * (x_ab U f a m i))) - sumn (noa d) (fun m => sumn (nub d) (fun f => (i_ab_ovvv H m a e f) * (x_ab U b f m i))).
(** ccpy/cc/ccsdt.py, update_t3a, line 235 *)
Definition ccsdt_I2A_vvov (d : dims) (H : ints) (T U : amps) : mat4 := fun a b i e =>
  (-1) / 2 * (sumn (noa d) (fun m => sumn (noa d) (fun n => sumn (nua d) (fun f => (i_aa_oovv H m n e f) * (x_aaa T a b f i m n))))).
(** ccpy/cc/ccsdt.py, update_t3a, line 236 *)
Definition ccsdt_I2A_vvov_1 (d : dims) (H : ints) (T U : amps) : mat4 := fun a b i e =>
  ccsdt_I2A_vvov d H T U a b i e - sumn (noa d) (fun m => sumn (nob d) (fun n => sumn (nub d) (fun f => (i_ab_oovv H m n e f) * (x_aab T a b f i m n)))).
(** ccpy/cc/ccsdt.py, update_t3a, line 237 *)
Definition ccsdt_I2A_vvov_2 (d : dims) (H : ints) (T U : amps) : mat4 := fun a b i e =>
  ccsdt_I2A_vvov_1 d H T U a b i e + ccsdt_H_aa_vvov_1 d H T U a b i e.
(** ccpy/cc/ccsdt.py, update_t3a, line 239 *)
Definition ccsdt_I2A_vooo_1 (d : dims) (H : ints) (T U : amps) : mat4 := fun a m i j =>
  1 / 2 * (sumn (noa d) (fun n => sumn (nua d) (fun e => sumn (nua d) (fun f => (i_aa_oovv H m n e f) * (x_aaa T a e f i j n))))).
(** ccpy/cc/ccsdt.py, update_t3a, line 240 *)
Definition ccsdt_I2A_vooo_2 (d : dims) (H : ints) (T U : amps) : mat4 := fun a m i j =>
  ccsdt_I2A_vooo_1 d H T U a m i j + (ccsdt_H_aa_vooo d H T U a m i j + sumn (nob d) (fun n => sumn (nua d) (fun e => sumn (nub d) (fun f => (i_ab_oovv H m n e f) * (x_aab T a e f i j n))))).
(** ccpy/cc/ccsdt.py, update_t3a, line 241 *)
Definition ccsdt_I2A_vooo_3 (d : dims) (H : ints) (T U : amps) : mat4 := fun a m i j =>
  ccsdt_I2A_vooo_2 d H T U a m i j - sumn (nua d) (fun e => (ccsdt_X_a_ov d H T U m e) * (x_aa U a e i j)).
(** ccpy/cc/ccsdt.py, update_t3a, line 244 *)
Definition ccsdt_dT_aaa (d : dims) (H : ints) (T U : amps) : mat6 := fun a b c i j k =>
  (-1) / 4 * (sumn (noa d) (fun m => (ccsdt_I2A_vooo_3 d H T U a m i j) * (x_aa U b c m k))).
(** ccpy/cc/ccsdt.py, update_t3a, line 245 *)
Definition ccsdt_dT_aaa_1 (d : dims) (H : ints) (T U : amps) : mat6 := fun a b c i j k =>
  ccsdt_dT_aaa d H T U a b c i j k + 1 / 4 * (sumn (nua d) (fun e => (ccsdt_I2A_vvov_2 d H T U a b i e) * (x_aa U e c j k))).
(** ccpy/cc/ccsdt.py, update_t3a, line 247 *)
Definition ccsdt_dT_aaa_2 (d : dims) (H : ints) (T U : amps) : mat6 := fun a b c i j k =>
  ccsdt_dT_aaa_1 d H T U a b c i j k - 1 / 12 * (sumn (noa d) (fun m => (ccsdt_X_a_oo d H T U m k) * (x_aaa T a b c i j m))).
(** ccpy/cc/ccsdt.py, update_t3a, line 248 *)
Definition ccsdt_dT_aaa_3 (d : dims) (H : ints) (T U : amps) : mat6 := fun a b c i j k =>
  ccsdt_dT_aaa_2 d H T U a b c i j k + 1 / 12 * (sumn (nua d) (fun e => (ccsdt_X_a_vv_1 d H T U c e) * (x_aaa T a b e i j k))).
(** ccpy/cc/ccsdt.py, update_t3a, line 249 *)
Definition ccsdt_dT_aaa_4 (d : dims) (H : ints) (T U : amps) : mat6 := fun a b c i j k =>
  ccsdt_dT_aaa_3 d H T U a b c i j k + 1 / 24 * (sumn (noa d) (fun m => sumn (noa d) (fun n => (ccsdt_H_aa_oooo_1 d H T U m n i j) * (x_aaa T a b c m n k)))).
(** ccpy/cc/ccsdt.py, update_t3a, line 250 *)
Definition ccsdt_dT_aaa_5 (d : dims) (H : ints) (T U : amps) : mat6 := fun a b c i j k =>
  ccsdt_dT_aaa_4 d H T U a b c i j k + 1 / 24 * (sumn (nua d) (fun e => sumn (nua d) (fun f => (ccsdt_H_aa_vvvv_1 d H T U a b e f) * (x_aaa T e f c i j k)))).
(** ccpy/cc/ccsdt.py, update_t3a, line 251 *)
Definition ccsdt_dT_aaa_6 (d : dims) (H : ints) (T U : amps) : mat6 := fun a b c i j k =>
  ccsdt_dT_aaa_5 d H T U a b c i j k + 1 / 4 * (sumn (noa d) (fun m => sumn (nua d) (fun e => (ccsdt_H_aa_voov d H T U c m k e) * (x_aaa T a b e i j m)))).
(** ccpy/cc/ccsdt.py, update_t3a, line 252 *)
Definition ccsdt_dT_aaa_7 (d : dims) (H : ints) (T U : amps) : mat6 := fun a b c i j k =>
  ccsdt_dT_aaa_6 d H T U a b c i j k + 1 / 4 * (sumn (nob d) (fun m => sumn (nub d) (fun e => (ccsdt_H_ab_voov d H T U c m k e) * (x_aab T a b e i j m)))).
(** ccpy/cc/ccsdt.py, update_t3a, lines 253-259 *)
Definition ccsdt_res_aaa (d : dims) (H : ints) (T U : amps) : mat6 := fun a b c i j k =>
  ccsdt_dT_aaa_7 d H T U a b c i j k.
(** ccpy/cc/ccsdt.py, update_t3b, line 267 *)
Definition ccsdt_I2A_vvov_3 (d : dims) (H : ints) (T U : amps) : mat4 := fun a b i e =>
  (-1) / 2 * (sumn (noa d) (fun m => sumn (noa d) (fun n => sumn (nua d) (fun f => (i_aa_oovv H m n e f) * (x_aaa U a b f i m n))))).
(** ccpy/cc/ccsdt.py, update_t3b, line 268 *)
Definition ccsdt_I2A_vvov_4 (d : dims) (H : ints) (T U : amps) : mat4 := fun a b i e =>
  ccsdt_I2A_vvov_3 d H T U a b i e + (- (sumn (noa d) (fun m => sumn (nob d) (fun n => sumn (nub d) (fun f => (i_ab_oovv H m n e f) * (x_aab T a b f i m n)))))).
(** ccpy/cc/ccsdt.py, update_t3b, line 269 *)
Definition ccsdt_I2A_vvov_5 (d : dims) (H : ints) (T U : amps) : mat4 := fun a b i e =>
  ccsdt_I2A_vvov_4 d H T U a b i e + ccsdt_H_aa_vvov_1 d H T U a b i e.
(** ccpy/cc/ccsdt.py, update_t3b, line 271 *)
Definition ccsdt_I2A_vooo_4 (d : dims) (H : ints) (T U : amps) : mat4 := fun a m i j =>
  1 / 2 * (sumn (noa d) (fun n => sumn (nua d) (fun e => sumn (nua d) (fun f => (i_aa_oovv H m n e f) * (x_aaa U a e f i j n))))).
(** ccpy/cc/ccsdt.py, update_t3b, line 272 *)
Definition ccsdt_I2A_vooo_5 (d : dims) (H : ints) (T U : amps) : mat4 := fun a m i j =>
  ccsdt_I2A_vooo_4 d H T U a m i j + sumn (nob d) (fun n => sumn (nua d) (fun e => sumn (nub d) (fun f => (i_ab_oovv H m n e f) * (x_aab T a e f i j n)))).
(** ccpy/cc/ccsdt.py, update_t3b, line 273 *)
Definition ccsdt_I2A_vooo_6 (d : dims) (H : ints) (T U : amps) : mat4 := fun a m i j =>
  ccsdt_I2A_vooo_5 d H T U a m i j + (- (sumn (nua d) (fun e => (ccsdt_X_a_ov d H T U m e) * (x_aa U a e i j)))).
(** ccpy/cc/ccsdt.py, update_t3b, line 274 *)
Definition ccsdt_I2A_vooo_7 (d : dims) (H : ints) (T U : amps) : mat4 := fun a m i j =>
  ccsdt_I2A_vooo_6 d H T U a m i j + ccsdt_H_aa_vooo d H T U a m i j.
(** ccpy/cc/ccsdt.py, update_t3b, line 276 *)
Definition ccsdt_I2B_vvvo (d : dims) (H : ints) (T U : amps) : mat4 := fun a b e j =>
  (-1) / 2 * (sumn (noa d) (fun m => sumn (noa d) (fun n => sumn (nua d) (fun f => (i_aa_oovv H m n e f) * (x_aab T a f b m n j))))).
(** ccpy/cc/ccsdt.py, update_t3b, line 277 *)
Definition ccsdt_I2B_vvvo_1 (d : dims) (H : ints) (T U : amps) : mat4 := fun a b e j =>
  ccsdt_I2B_vvvo d H T U a b e j + (- (sumn (noa d) (fun m => sumn (nob d) (fun n => sumn (nub d) (fun f => (i_ab_oovv H m n e f) * (x_abb T a f b m n j)))))).
(** ccpy/cc/ccsdt.py, update_t3b, line 278 *)
Definition ccsdt_I2B_vvvo_2 (d : dims) (H : ints) (T U : amps) : mat4 := fun a b e j =>
  ccsdt_I2B_vvvo_1 d H T U a b e j + ccsdt_H_ab_vvvo d H T U a b e j.
(** ccpy/cc/ccsdt.py, update_t3b, line 280 *)
Definition ccsdt_I2B_ovoo_1 (d : dims) (H : ints) (T U : amps) : mat4 := fun m b i j =>
  1 / 2 * (sumn (noa d) (fun n => sumn (nua d) (fun e => sumn (nua d) (fun f => (i_aa_oovv H m n e f) * (x_aab T e f b i n j))))).
(** ccpy/cc/ccsdt.py, update_t3b, line 281 *)
Definition ccsdt_I2B_ovoo_2 (d : dims) (H : ints) (T U : amps) : mat4 := fun m b i j =>
  ccsdt_I2B_ovoo_1 d H T U m b i j + sumn (nob d) (fun n => sumn (nua d) (fun e => sumn (nub d) (fun f => (i_ab_oovv H m n e f) * (x_abb T e f b i n j)))).
(** ccpy/cc/ccsdt.py, update_t3b, line 282 *)
Definition ccsdt_I2B_ovoo_3 (d : dims) (H : ints) (T U : amps) : mat4 := fun m b i j =>
  ccsdt_I2B_ovoo_2 d H T U m b i j + (- (sumn (nua d) (fun e => (ccsdt_X_a_ov d H T U m e) * (x_ab U e b i j)))).
(** ccpy/cc/ccsdt.py, update_t3b, line 283 *)
Definition ccsdt_I2B_ovoo_4 (d : dims) (H : ints) (T U : amps) : mat4 := fun m b i j =>
  ccsdt_I2B_ovoo_3 d H T U m b i j + ccsdt_H_ab_ovoo d H T U m b i j.
(** ccpy/cc/ccsdt.py, update_t3b, line 285 *)
Definition ccsdt_I2B_vvov (d : dims) (H : ints) (T U : amps) : mat4 := fun a b i e =>
  (- (sumn (noa d) (fun n => sumn (nob d) (fun m => sumn (nua d) (fun f => (i_ab_oovv H n m f e) * (x_aab T a f b i n m)))))).
(** ccpy/cc/ccsdt.py, update_t3b, line 286 *)
Definition ccsdt_I2B_vvov_1 (d : dims) (H : ints) (T U : amps) : mat4 := fun a b i e =>
  ccsdt_I2B_vvov d H T U a b i e + (-1) / 2 * (sumn (nob d) (fun n => sumn (nob d) (fun m => sumn (nub d) (fun f => (i_bb_oovv H n m f e) * (x_abb T a f b i n m))))).
(** ccpy/cc/ccsdt.py, update_t3b, line 287 *)
Definition ccsdt_I2B_vvov_2 (d : dims) (H : ints) (T U : amps) : mat4 := fun a b i e =>
  ccsdt_I2B_vvov_1 d H T U a b i e + ccsdt_H_ab_vvov d H T U a b i e.
(** ccpy/cc/ccsdt.py, update_t3b, line 289 *)
Definition ccsdt_I2B_vooo_1 (d : dims) (H : ints) (T U : amps) : mat4 := fun a m i j =>
  sumn (noa d) (fun n => sumn (nua d) (fun f => sumn (nub d) (fun e => (i_ab_oovv H n m f e) * (x_aab T a f e i n j)))).
(** ccpy/cc/ccsdt.py, update_t3b, line 290 *)
Definition ccsdt_I2B_vooo_2 (d : dims) (H : ints) (T U : amps) : mat4 := fun a m i j =>
  ccsdt_I2B_vooo_1 d H T U a m i j + 1 / 2 * (sumn (nob d) (fun n => sumn (nub d) (fun f => sumn (nub d) (fun e => (i_bb_oovv H n m f e) * (x_abb T a f e i n j))))).
(** ccpy/cc/ccsdt.py, update_t3b, line 291 *)
Definition ccsdt_I2B_vooo_3 (d : dims) (H : ints) (T U : amps) : mat4 := fun a m i j =>
  ccsdt_I2B_vooo_2 d H T U a m i j + (- (sumn (nub d) (fun e => (ccsdt_X_b_ov d H T U m e) * (x_ab U a e i j)))).
(** ccpy/cc/ccsdt.py, update_t3b, line 292 *)
Definition ccsdt_I2B_vooo_4 (d : dims) (H : ints) (T U : amps) : mat4 := fun a m i j =>
  ccsdt_I2B_vooo_3 d H T U a m i j + ccsdt_H_ab_vooo d H T U a m i j.
(** ccpy/cc/ccsdt.py, update_t3b, line 295 *)
Definition ccsdt_dT_aab (d : dims) (H : ints) (T U : amps) : mat6 := fun a b c i j k =>
  1 / 2 * (sumn (nua d) (fun e => (ccsdt_I2B_vvvo_2 d H T U b c e k) * (x_aa U a e i j))).
(** ccpy/cc/ccsdt.py, update_t3b, line 296 *)
Definition ccsdt_dT_aab_1 (d : dims) (H : ints) (T U : amps) : mat6 := fun a b c i j k =>
  ccsdt_dT_aab d H T U a b c i j k - 1 / 2 * (sumn (noa d) (fun m => (ccsdt_I2B_ovoo_4 d H T U m c j k) * (x_aa U a b i m))).
(** ccpy/cc/ccsdt.py, update_t3b, line 297 *)
Definition ccsdt_dT_aab_2 (d : dims) (H : ints) (T U : amps) : mat6 := fun a b c i j k =>
  ccsdt_dT_aab_1 d H T U a b c i j k + sumn (nub d) (fun e => (ccsdt_I2B_vvov_2 d H T U a c i e) * (x_ab U b e j k)).
(** ccpy/cc/ccsdt.py, update_t3b, line 298 *)
Definition ccsdt_dT_aab_3 (d : dims) (H : ints) (T U : amps) : mat6 := fun a b c i j k =>
  ccsdt_dT_aab_2 d H T U a b c i j k - sumn (nob d) (fun m => (ccsdt_I2B_vooo_4 d H T U a m i k) * (x_ab U b c j m)).
(** ccpy/cc/ccsdt.py, update_t3b, line 299 *)
Definition ccsdt_dT_aab_4 (d : dims) (H : ints) (T U : amps) : mat6 := fun a b c i j k =>
  ccsdt_dT_aab_3 d H T U a b c i j k + 1 / 2 * (sumn (nua d) (fun e => (ccsdt_I2A_vvov_5 d H T U a b i e) * (x_ab U e c j k))).
(** ccpy/cc/ccsdt.py, update_t3b, line 300 *)
Definition ccsdt_dT_aab_5 (d : dims) (H : ints) (T U : amps) : mat6 := fun a b c i j k =>
  ccsdt_dT_aab_4 d H T U a b c i j k - 1 / 2 * (sumn (noa d) (fun m => (ccsdt_I2A_vooo_7 d H T U a m i j) * (x_ab U b c m k))).
(** ccpy/cc/ccsdt.py, update_t3b, line 302 *)
Definition ccsdt_dT_aab_6 (d : dims) (H : ints) (T U : amps) : mat6 := fun a b c i j k =>
  ccsdt_dT_aab_5 d H T U a b c i j k - 1 / 2 * (sumn (noa d) (fun m => (ccsdt_X_a_oo d H T U m i) * (x_aab T a b c m j k))).
(** ccpy/cc/ccsdt.py, update_t3b, line 303 *)
Definition ccsdt_dT_aab_7 (d : dims) (H : ints) (T U : amps) : mat6 := fun a b c i j k =>
  ccsdt_dT_aab_6 d H T U a b c i j k - 1 / 4 * (sumn (nob d) (fun m => (ccsdt_X_b_oo d H T U m k) * (x_aab T a b c i j m))).
(** ccpy/cc/ccsdt.py, update_t3b, line 304 *)
Definition ccsdt_dT_aab_8 (d : dims) (H : ints) (T U : amps) : mat6 := fun a b c i j k =>
  ccsdt_dT_aab_7 d H T U a b c i j k + 1 / 2 * (sumn (nua d) (fun e => (ccsdt_X_a_vv_1 d H T U a e) * (x_aab T e b c i j k))).
(** ccpy/cc/ccsdt.py, update_t3b, line 305 *)
Definition ccsdt_dT_aab_9 (d : dims) (H : ints) (T U : amps) : mat6 := fun a b c i j k =>
  ccsdt_dT_aab_8 d H T U a b c i j k + 1 / 4 * (sumn (nub d) (fun e => (ccsdt_X_b_vv_1 d H T U c e) * (x_aab T a b e i j k))).
(** ccpy/cc/ccsdt.py, update_t3b, line 306 *)
Definition ccsdt_dT_aab_10 (d : dims) (H : ints) (T U : amps) : mat6 := fun a b c i j k =>
  ccsdt_dT_aab_9 d H T U a b c i j k + 1 / 8 * (sumn (noa d) (fun m => sumn (noa d) (fun n => (ccsdt_H_aa_oooo_1 d H T U m n i j) * (x_aab T a b c m n k)))).
(** ccpy/cc/ccsdt.py, update_t3b, line 307 *)
Definition ccsdt_dT_aab_11 (d : dims) (H : ints) (T U : amps) : mat6 := fun a b c i j k =>
  ccsdt_dT_aab_10 d H T U a b c i j k + 1 / 2 * (sumn (noa d) (fun m => sumn (nob d) (fun n => (ccsdt_H_ab_oooo d H T U m n j k) * (x_aab T a b c i m n)))).
(** ccpy/cc/ccsdt.py, update_t3b, line 308 *)
Definition ccsdt_dT_aab_12 (d : dims) (H : ints) (T U : amps) : mat6 := fun a b c i j k =>
  ccsdt_dT_aab_11 d H T U a b c i j k + 1 / 8 * (sumn (nua d) (fun e => sumn (nua d) (fun f => (ccsdt_H_aa_vvvv_1 d H T U a b e f) * (x_aab T e f c i j k)))).
(** ccpy/cc/ccsdt.py, update_t3b, line 309 *)
Definition ccsdt_dT_aab_13 (d : dims) (H : ints) (T U : amps) : mat6 := fun a b c i j k =>
  ccsdt_dT_aab_12 d H T U a b c i j k + 1 / 2 * (sumn (nua d) (fun e => sumn (nub d) (fun f => (ccsdt_H_ab_vvvv d H T U b c e f) * (x_aab T a e f i j k)))).
(** ccpy/cc/ccsdt.py, update_t3b, line 310 *)
Definition ccsdt_dT_aab_14 (d : dims) (H : ints) (T U : amps) : mat6 := fun a b c i j k =>
  ccsdt_dT_aab_13 d H T U a b c i j k + sumn (noa d) (fun m => sumn (nua d) (fun e => (ccsdt_H_aa_voov d H T U a m i e) * (x_aab T e b c m j k))).
(** ccpy/cc/ccsdt.py, update_t3b, line 311 *)
Definition ccsdt_dT_aab_15 (d : dims) (H : ints) (T U : amps) : mat6 := fun a b c i j k =>
  ccsdt_dT_aab_14 d H T U a b c i j k + sumn (nob d) (fun m => sumn (nub d) (fun e => (ccsdt_H_ab_voov d H T U a m i e) * (x_abb T b e c j m k))).
(** ccpy/cc/ccsdt.py, update_t3b, line 312 *)
Definition ccsdt_dT_aab_16 (d : dims) (H : ints) (T U : amps) : mat6 := fun a b c i j k =>
  ccsdt_dT_aab_15 d H T U a b c i j k + 1 / 4 * (sumn (noa d) (fun m => sumn (nua d) (fun e => (ccsdt_H_ab_ovvo d H T U m c e k) * (x_aaa U a b e i j m)))).
(** ccpy/cc/ccsdt.py, update_t3b, line 313 *)
Definition ccsdt_dT_aab_17 (d : dims) (H : ints) (T U : amps) : mat6 := fun a b c i j k =>
  ccsdt_dT_aab_16 d H T U a b c i j k + 1 / 4 * (sumn (nob d) (fun m => sumn (nub d) (fun e => (ccsdt_H_bb_voov d H T U c m k e) * (x_aab T a b e i j m)))).
(** ccpy/cc/ccsdt.py, update_t3b, line 314 *)
Definition ccsdt_dT_aab_18 (d : dims) (H : ints) (T U : amps) : mat6 := fun a b c i j k =>
  ccsdt_dT_aab_17 d H T U a b c i j k - 1 / 2 * (sumn (nob d) (fun m => sumn (nua d) (fun e => (ccsdt_H_ab_vovo d H T U a m e k) * (x_aab T e b c i j m)))).
(** ccpy/cc/ccsdt.py, update_t3b, line 315 *)
Definition ccsdt_dT_aab_19 (d : dims) (H : ints) (T U : amps) : mat6 := fun a b c i j k =>
  ccsdt_dT_aab_18 d H T U a b c i j k - 1 / 2 * (sumn (noa d) (fun m => sumn (nub d) (fun e => (ccsdt_H_ab_ovov d H T U m c i e) * (x_aab T a b e m j k)))).
(** ccpy/cc/ccsdt.py, update_t3b, lines 316-324 *)
Definition ccsdt_res_aab (d : dims) (H : ints) (T U : amps) : mat6 := fun a b c i j k =>
  ccsdt_dT_aab_19 d H T U a b c i j k.
(** ccpy/cc/ccsdt.py, update_t3c, line 332 *)
Definition ccsdt_I2B_vvvo_3 (d : dims) (H : ints) (T U : amps) : mat4 := fun a b e j =>
  (-1) / 2 * (sumn (noa d) (fun m => sumn (noa d) (fun n => sumn (nua d) (fun f => (i_aa_oovv H m n e f) * (x_aab U a f b m n j))))).
(** ccpy/cc/ccsdt.py, update_t3c, line 333 *)
Definition ccsdt_I2B_vvvo_4 (d : dims) (H : ints) (T U : amps) : mat4 := fun a b e j =>
  ccsdt_I2B_vvvo_3 d H T U a b e j + (- (sumn (noa d) (fun m => sumn (nob d) (fun n => sumn (nub d) (fun f => (i_ab_oovv H m n e f) * (x_abb T a f b m n j)))))).
(** ccpy/cc/ccsdt.py, update_t3c, line 334 *)
Definition ccsdt_I2B_vvvo_5 (d : dims) (H : ints) (T U : amps) : mat4 := fun a b e j =>
  ccsdt_I2B_vvvo_4 d H T U a b e j + ccsdt_H_ab_vvvo d H T U a b e j.
(** ccpy/cc/ccsdt.py, update_t3c, line 336 *)
Definition ccsdt_I2B_ovoo_5 (d : dims) (H : ints) (T U : amps) : mat4 := fun m b i j =>
  1 / 2 * (sumn (noa d) (fun n => sumn (nua d) (fun e => sumn (nua d) (fun f => (i_aa_oovv H m n e f) * (x_aab U e f b i n j))))).
(** ccpy/cc/ccsdt.py, update_t3c, line 337 *)
Definition ccsdt_I2B_ovoo_6 (d : dims) (H : ints) (T U : amps) : mat4 := fun m b i j =>
  ccsdt_I2B_ovoo_5 d H T U m b i j + sumn (nob d) (fun n => sumn (nua d) (fun e => sumn (nub d) (fun f => (i_ab_oovv H m n e f) * (x_abb T e f b i n j)))).
(** ccpy/cc/ccsdt.py, update_t3c, line 338 *)
Definition ccsdt_I2B_ovoo_7 (d : dims) (H : ints) (T U : amps) : mat4 := fun m b i j =>
  ccsdt_I2B_ovoo_6 d H T U m b i j - sumn (nua d) (fun e => (ccsdt_X_a_ov d H T U m e) * (x_ab U e b i j)).
(** ccpy/cc/ccsdt.py, update_t3c, line 339 *)
Definition ccsdt_I2B_ovoo_8 (d : dims) (H : ints) (T U : amps) : mat4 := fun m b i j =>
  ccsdt_I2B_ovoo_7 d H T U m b i j + ccsdt_H_ab_ovoo d H T U m b i j.
(** ccpy/cc/ccsdt.py, update_t3c, line 341 *)
Definition ccsdt_I2B_vvov_3 (d : dims) (H : ints) (T U : amps) : mat4 := fun a b i e =>
  (- (sumn (noa d) (fun n => sumn (nob d) (fun m => sumn (nua d) (fun f => (i_ab_oovv H n m f e) * (x_aab U a f b i n m)))))).
(** ccpy/cc/ccsdt.py, update_t3c, line 342 *)
Definition ccsdt_I2B_vvov_4 (d : dims) (H : ints) (T U : amps) : mat4 := fun a b i e =>
  ccsdt_I2B_vvov_3 d H T U a b i e + (-1) / 2 * (sumn (nob d) (fun n => sumn (nob d) (fun m => sumn (nub d) (fun f => (i_bb_oovv H n m f e) * (x_abb T a f b i n m))))).
(** ccpy/cc/ccsdt.py, update_t3c, line 343 *)
Definition ccsdt_I2B_vvov_5 (d : dims) (H : ints) (T U : amps) : mat4 := fun a b i e =>
  ccsdt_I2B_vvov_4 d H T U a b i e + ccsdt_H_ab_vvov d H T U a b i e.
(** ccpy/cc/ccsdt.py, update_t3c, line 345 *)
Definition ccsdt_I2B_vooo_5 (d : dims) (H : ints) (T U : amps) : mat4 := fun a m i j =>
  sumn (noa d) (fun n => sumn (nua d) (fun f => sumn (nub d) (fun e => (i_ab_oovv H n m f e) * (x_aab U a f e i n j)))).
(** ccpy/cc/ccsdt.py, update_t3c, line 346 *)
Definition ccsdt_I2B_vooo_6 (d : dims) (H : ints) (T U : amps) : mat4 := fun a m i j =>
  ccsdt_I2B_vooo_5 d H T U a m i j + 1 / 2 * (sumn (nob d) (fun n => sumn (nub d) (fun f => sumn (nub d) (fun e => (i_bb_oovv H n m f e) * (x_abb T a f e i n j))))).
(** ccpy/cc/ccsdt.py, update_t3c, line 347 *)
Definition ccsdt_I2B_vooo_7 (d : dims) (H : ints) (T U : amps) : mat4 := fun a m i j =>
  ccsdt_I2B_vooo_6 d H T U a m i j - sumn (nub d) (fun e => (ccsdt_X_b_ov d H T U m e) * (x_ab U a e i j)).
(** ccpy/cc/ccsdt.py, update_t3c, line 348 *)
Definition ccsdt_I2B_vooo_8 (d : dims) (H : ints) (T U : amps) : mat4 := fun a m i j =>
  ccsdt_I2B_vooo_7 d H T U a m i j + ccsdt_H_ab_vooo d H T U a m i j.
(** ccpy/cc/ccsdt.py, update_t3c, line 350 *)
Definition ccsdt_I2C_vvov (d : dims) (H : ints) (T U : amps) : mat4 := fun a b i e =>
  (-1) / 2 * (sumn (nob d) (fun m => sumn (nob d) (fun n => sumn (nub d) (fun f => (i_bb_oovv H m n e f) * (x_bbb T a b f i m n))))).
(** ccpy/cc/ccsdt.py, update_t3c, line 351 *)
Definition ccsdt_I2C_vvov_1 (d : dims) (H : ints) (T U : amps) : mat4 := fun a b i e =>
  ccsdt_I2C_vvov d H T U a b i e + (- (sumn (noa d) (fun n => sumn (nob d) (fun m => sumn (nua d) (fun f => (i_ab_oovv H n m f e) * (x_abb T f a b n i m)))))).
(** ccpy/cc/ccsdt.py, update_t3c, line 352 *)
Definition ccsdt_I2C_vvov_2 (d : dims) (H : ints) (T U : amps) : mat4 := fun a b i e =>
  ccsdt_I2C_vvov_1 d H T U a b i e + ccsdt_H_bb_vvov_1 d H T U a b i e.
(** ccpy/cc/ccsdt.py, update_t3c, line 354 *)
Definition ccsdt_I2C_vooo_1 (d : dims) (H : ints) (T U : amps) : mat4 := fun a m i j =>
  sumn (noa d) (fun n => sumn (nua d) (fun f => sumn (nub d) (fun e => (i_ab_oovv H n m f e) * (x_abb T f a e n i j)))).
(** ccpy/cc/ccsdt.py, update_t3c, line 355 *)
Definition ccsdt_I2C_vooo_2 (d : dims) (H : ints) (T U : amps) : mat4 := fun a m i j =>
  ccsdt_I2C_vooo_1 d H T U a m i j + 1 / 2 * (sumn (nob d) (fun n => sumn (nub d) (fun e => sumn (nub d) (fun f => (i_bb_oovv H m n e f) * (x_bbb T a e f i j n))))).
(** ccpy/cc/ccsdt.py, update_t3c, line 356 *)
Definition ccsdt_I2C_vooo_3 (d : dims) (H : ints) (T U : amps) : mat4 := fun a m i j =>
  ccsdt_I2C_vooo_2 d H T U a m i j - sumn (nub d) (fun e => (ccsdt_X_b_ov d H T U m e) * (x_bb U a e i j)).
(** ccpy/cc/ccsdt.py, update_t3c, line 357 *)
Definition ccsdt_I2C_vooo_4 (d : dims) (H : ints) (T U : amps) : mat4 := fun a m i j =>
  ccsdt_I2C_vooo_3 d H T U a m i j + ccsdt_H_bb_vooo d H T U a m i j.
(** ccpy/cc/ccsdt.py, update_t3c, line 360 *)
Definition ccsdt_dT_abb (d : dims) (H : ints) (T U : amps) : mat6 := fun a b c i j k =>
  1 / 2 * (sumn (nub d) (fun e => (ccsdt_I2B_vvov_5 d H T U a b i e) * (x_bb U e c j k))).
(** ccpy/cc/ccsdt.py, update_t3c, line 361 *)
Definition ccsdt_dT_abb_1 (d : dims) (H : ints) (T U : amps) : mat6 := fun a b c i j k =>
  ccsdt_dT_abb d H T U a b c i j k - 1 / 2 * (sumn (nob d) (fun m => (ccsdt_I2B_vooo_8 d H T U a m i j) * (x_bb U b c m k))).
(** ccpy/cc/ccsdt.py, update_t3c, line 362 *)
Definition ccsdt_dT_abb_2 (d : dims) (H : ints) (T U : amps) : mat6 := fun a b c i j k =>
  ccsdt_dT_abb_1 d H T U a b c i j k + 1 / 2 * (sumn (nub d) (fun e => (ccsdt_I2C_vvov_2 d H T U c b k e) * (x_ab U a e i j))).
(** ccpy/cc/ccsdt.py, update_t3c, line 363 *)
Definition ccsdt_dT_abb_3 (d : dims) (H : ints) (T U : amps) : mat6 := fun a b c i j k =>
  ccsdt_dT_abb_2 d H T U a b c i j k - 1 / 2 * (sumn (nob d) (fun m => (ccsdt_I2C_vooo_4 d H T U c m k j) * (x_ab U a b i m))).
(** ccpy/cc/ccsdt.py, update_t3c, line 364 *)
Definition ccsdt_dT_abb_4 (d : dims) (H : ints) (T U : amps) : mat6 := fun a b c i j k =>
  ccsdt_dT_abb_3 d H T U a b c i j k + sumn (nua d) (fun e => (ccsdt_I2B_vvvo_5 d H T U a b e j) * (x_ab U e c i k)).
(** ccpy/cc/ccsdt.py, update_t3c, line 365 *)
Definition ccsdt_dT_abb_5 (d : dims) (H : ints) (T U : amps) : mat6 := fun a b c i j k =>
  ccsdt_dT_abb_4 d H T U a b c i j k - sumn (noa d) (fun m => (ccsdt_I2B_ovoo_8 d H T U m b i j) * (x_ab U a c m k)).
(** ccpy/cc/ccsdt.py, update_t3c, line 367 *)
Definition ccsdt_dT_abb_6 (d : dims) (H : ints) (T U : amps) : mat6 := fun a b c i j k =>
  ccsdt_dT_abb_5 d H T U a b c i j k - 1 / 4 * (sumn (noa d) (fun m => (ccsdt_X_a_oo d H T U m i) * (x_abb T a b c m j k))).
(** ccpy/cc/ccsdt.py, update_t3c, line 368 *)
Definition ccsdt_dT_abb_7 (d : dims) (H : ints) (T U : amps) : mat6 := fun a b c i j k =>
  ccsdt_dT_abb_6 d H T U a b c i j k - 1 / 2 * (sumn (nob d) (fun m => (ccsdt_X_b_oo d H T U m j) * (x_abb T a b c i m k))).
(** ccpy/cc/ccsdt.py, update_t3c, line 369 *)
Definition ccsdt_dT_abb_8 (d : dims) (H : ints) (T U : amps) : mat6 := fun a b c i j k =>
  ccsdt_dT_abb_7 d H T U a b c i j k + 1 / 4 * (sumn (nua d) (fun e => (ccsdt_X_a_vv_1 d H T U a e) * (x_abb T e b c i j k))).
(** ccpy/cc/ccsdt.py, update_t3c, line 370 *)
Definition ccsdt_dT_abb_9 (d : dims) (H : ints) (T U : amps) : mat6 := fun a b c i j k =>
  ccsdt_dT_abb_8 d H T U a b c i j k + 1 / 2 * (sumn (nub d) (fun e => (ccsdt_X_b_vv_1 d H T U b e) * (x_abb T a e c i j k))).
(** ccpy/cc/ccsdt.py, update_t3c, line 371 *)
Definition ccsdt_dT_abb_10 (d : dims) (H : ints) (T U : amps) : mat6 := fun a b c i j k =>
  ccsdt_dT_abb_9 d H T U a b c i j k + 1 / 8 * (sumn (nob d) (fun m => sumn (nob d) (fun n => (ccsdt_H_bb_oooo_1 d H T U m n j k) * (x_abb T a b c i m n)))).
(** ccpy/cc/ccsdt.py, update_t3c, line 372 *)
Definition ccsdt_dT_abb_11 (d : dims) (H : ints) (T U : amps) : mat6 := fun a b c i j k =>
  ccsdt_dT_abb_10 d H T U a b c i j k + 1 / 2 * (sumn (noa d) (fun m => sumn (nob d) (fun n => (ccsdt_H_ab_oooo d H T U m n i j) * (x_abb T a b c m n k)))).
(** ccpy/cc/ccsdt.py, update_t3c, line 373 *)
Definition ccsdt_dT_abb_12 (d : dims) (H : ints) (T U : amps) : mat6 := fun a b c i j k =>
  ccsdt_dT_abb_11 d H T U a b c i j k + 1 / 8 * (sumn (nub d) (fun e => sumn (nub d) (fun f => (ccsdt_H_bb_vvvv_1 d H T U b c e f) * (x_abb T a e f i j k)))).
(** ccpy/cc/ccsdt.py, update_t3c, line 374 *)
Definition ccsdt_dT_abb_13 (d : dims) (H : ints) (T U : amps) : mat6 := fun a b c i j k =>
  ccsdt_dT_abb_12 d H T U a b c i j k + 1 / 2 * (sumn (nua d) (fun e => sumn (nub d) (fun f => (ccsdt_H_ab_vvvv d H T U a b e f) * (x_abb T e f c i j k)))).
(** ccpy/cc/ccsdt.py, update_t3c, line 375 *)
Definition ccsdt_dT_abb_14 (d : dims) (H : ints) (T U : amps) : mat6 := fun a b c i j k =>
  ccsdt_dT_abb_13 d H T U a b c i j k + 1 / 4 * (sumn (noa d) (fun m => sumn (nua d) (fun e => (ccsdt_H_aa_voov d H T U a m i e) * (x_abb T e b c m j k)))).
(** ccpy/cc/ccsdt.py, update_t3c, line 376 *)
Definition ccsdt_dT_abb_15 (d : dims) (H : ints) (T U : amps) : mat6 := fun a b c i j k =>
  ccsdt_dT_abb_14 d H T U a b c i j k + 1 / 4 * (sumn (nob d) (fun m => sumn (nub d) (fun e => (ccsdt_H_ab_voov d H T U a m i e) * (x_bbb T e b c m j k)))).
(** ccpy/cc/ccsdt.py, update_t3c, line 377 *)
Definition ccsdt_dT_abb_16 (d : dims) (H : ints) (T U : amps) : mat6 := fun a b c i j k =>
  ccsdt_dT_abb_15 d H T U a b c i j k + sumn (noa d) (fun m => sumn (nua d) (fun e => (ccsdt_H_ab_ovvo d H T U m b e j) * (x_aab U a e c i m k))).
(** ccpy/cc/ccsdt.py, update_t3c, line 378 *)
Definition ccsdt_dT_abb_17 (d : dims) (H : ints) (T U : amps) : mat6 := fun a b c i j k =>
  ccsdt_dT_abb_16 d H T U a b c i j k + sumn (nob d) (fun m => sumn (nub d) (fun e => (ccsdt_H_bb_voov d H T U b m j e) * (x_abb T a e c i m k))).
(** ccpy/cc/ccsdt.py, update_t3c, line 379 *)
Definition ccsdt_dT_abb_18 (d : dims) (H : ints) (T U : amps) : mat6 := fun a b c i j k =>
  ccsdt_dT_abb_17 d H T U a b c i j k - 1 / 2 * (sumn (noa d) (fun m => sumn (nub d) (fun e => (ccsdt_H_ab_ovov d H T U m b i e) * (x_abb T a e c m j k)))).
(** ccpy/cc/ccsdt.py, update_t3c, line 380 *)
Definition ccsdt_dT_abb_19 (d : dims) (H : ints) (T U : amps) : mat6 := fun a b c i j k =>
  ccsdt_dT_abb_18 d H T U a b c i j k - 1 / 2 * (sumn (nob d) (fun m => sumn (nua d) (fun e => (ccsdt_H_ab_vovo d H T U a m e j) * (x_abb T e b c i m k)))).
(** ccpy/cc/ccsdt.py, update_t3c, lines 381-389 *)
Definition ccsdt_res_abb (d : dims) (H : ints) (T U : amps) : mat6 := fun a b c i j k =>
  ccsdt_dT_abb_19 d H T U a b c i j k.
(** ccpy/cc/ccsdt.py, update_t3d, line 397 *)
Definition ccsdt_I2C_vvov_3 (d : dims) (H : ints) (T U : amps) : mat4 := fun a b i e =>
  (-1) / 2 * (sumn (nob d) (fun m => sumn (nob d) (fun n => sumn (nub d) (fun f => (i_bb_oovv H m n e f) * (x_bbb T a b f i m n))))).
(** ccpy/cc/ccsdt.py, update_t3d, line 398 *)
Definition ccsdt_I2C_vvov_4 (d : dims) (H : ints) (T U : amps) : mat4 := fun a b i e =>
  ccsdt_I2C_vvov_3 d H T U a b i e - sumn (noa d) (fun n => sumn (nob d) (fun m => sumn (nua d) (fun f => (i_ab_oovv H n m f e) * (x_abb U f a b n i m)))).
(** ccpy/cc/ccsdt.py, update_t3d, line 399 *)
Definition ccsdt_I2C_vvov_5 (d : dims) (H : ints) (T U : amps) : mat4 := fun a b i e =>
  ccsdt_I2C_vvov_4 d H T U a b i e + ccsdt_H_bb_vvov_1 d H T U a b i e.
(** ccpy/cc/ccsdt.py, update_t3d, line 401 *)
Definition ccsdt_I2C_vooo_5 (d : dims) (H : ints) (T U : amps) : mat4 := fun a m i j =>
  1 / 2 * (sumn (nob d) (fun n => sumn (nub d) (fun e => sumn (nub d) (fun f => (i_bb_oovv H m n e f) * (x_bbb T a e f i j n))))).
(** ccpy/cc/ccsdt.py, update_t3d, line 402 *)
Definition ccsdt_I2C_vooo_6 (d : dims) (H : ints) (T U : amps) : mat4 := fun a m i j =>
  ccsdt_I2C_vooo_5 d H T U a m i j + sumn (noa d) (fun n => sumn (nua d) (fun f => sumn (nub d) (fun e => (i_ab_oovv H n m f e) * (x_abb U f a e n i j)))).
(** ccpy/cc/ccsdt.py, update_t3d, line 403 *)
Definition ccsdt_I2C_vooo_7 (d : dims) (H : ints) (T U : amps) : mat4 := fun a m i j =>
  ccsdt_I2C_vooo_6 d H T U a m i j - sumn (nub d) (fun e => (ccsdt_X_b_ov d H T U m e) * (x_bb U a e i j)).
(** ccpy/cc/ccsdt.py, update_t3d, line 404 *)
Definition ccsdt_I2C_vooo_8 (d : dims) (H : ints) (T U : amps) : mat4 := fun a m i j =>
  ccsdt_I2C_vooo_7 d H T U a m i j + ccsdt_H_bb_vooo d H T U a m i j.
(** ccpy/cc/ccsdt.py, update_t3d, line 407 *)
Definition ccsdt_dT_bbb (d : dims) (H : ints) (T U : amps) : mat6 := fun a b c i j k =>
  (-1) / 4 * (sumn (nob d) (fun m => (ccsdt_I2C_vooo_8 d H T U a m i j) * (x_bb U b c m k))).
(** ccpy/cc/ccsdt.py, update_t3d, line 408 *)
Definition ccsdt_dT_bbb_1 (d : dims) (H : ints) (T U : amps) : mat6 := fun a b c i j k =>
  ccsdt_dT_bbb d H T U a b c i j k + 1 / 4 * (sumn (nub d) (fun e => (ccsdt_I2C_vvov_5 d H T U a b i e) * (x_bb U e c j k))).
(** ccpy/cc/ccsdt.py, update_t3d, line 410 *)
Definition ccsdt_dT_bbb_2 (d : dims) (H : ints) (T U : amps) : mat6 := fun a b c i j k =>
  ccsdt_dT_bbb_1 d H T U a b c i j k - 1 / 12 * (sumn (nob d) (fun m => (ccsdt_X_b_oo d H T U m k) * (x_bbb T a b c i j m))).
(** ccpy/cc/ccsdt.py, update_t3d, line 411 *)
Definition ccsdt_dT_bbb_3 (d : dims) (H : ints) (T U : amps) : mat6 := fun a b c i j k =>
  ccsdt_dT_bbb_2 d H T U a b c i j k + 1 / 12 * (sumn (nub d) (fun e => (ccsdt_X_b_vv_1 d H T U c e) * (x_bbb T a b e i j k))).
(** ccpy/cc/ccsdt.py, update_t3d, line 412 *)
Definition ccsdt_dT_bbb_4 (d : dims) (H : ints) (T U : amps) : mat6 := fun a b c i j k =>
  ccsdt_dT_bbb_3 d H T U a b c i j k + 1 / 24 * (sumn (nob d) (fun m => sumn (nob d) (fun n => (ccsdt_H_bb_oooo_1 d H T U m n i j) * (x_bbb T a b c m n k)))).
(** ccpy/cc/ccsdt.py, update_t3d, line 413 *)
Definition ccsdt_dT_bbb_5 (d : dims) (H : ints) (T U : amps) : mat6 := fun a b c i j k =>
  ccsdt_dT_bbb_4 d H T U a b c i j k + 1 / 24 * (sumn (nub d) (fun e => sumn (nub d) (fun f => (ccsdt_H_bb_vvvv_1 d H T U a b e f) * (x_bbb T e f c i j k)))).
(** ccpy/cc/ccsdt.py, update_t3d, line 414 *)
Definition ccsdt_dT_bbb_6 (d : dims) (H : ints) (T U : amps) : mat6 := fun a b c i j k =>
  ccsdt_dT_bbb_5 d H T U a b c i j k + 1 / 4 * (sumn (noa d) (fun m => sumn (nua d) (fun e => (ccsdt_H_ab_ovvo d H T U m a e i) * (x_abb U e b c m j k)))).
(** ccpy/cc/ccsdt.py, update_t3d, line 415 *)
Definition ccsdt_dT_bbb_7 (d : dims) (H : ints) (T U : amps) : mat6 := fun a b c i j k =>
  ccsdt_dT_bbb_6 d H T U a b c i j k + 1 / 4 * (sumn (nob d) (fun m => sumn (nub d) (fun e => (ccsdt_H_bb_voov d H T U a m i e) * (x_bbb T e b c m j k)))).
(** ccpy/cc/ccsdt.py, update_t3d, lines 416-422 *)
Definition ccsdt_res_bbb (d : dims) (H : ints) (T U : amps) : mat6 := fun a b c i j k =>
  ccsdt_dT_bbb_7 d H T U a b c i j k.