(** Generated by tools/gen_sdt_closed.py from the source text (symbolic execution of the numpy statements; exact reals).
    Models with flag_RHF = True: ccpy/cc/ccsdt.py (update), ccpy/hbar/hbar_ccsdt.py build_hbar_ccsdt (rhb3_), ccpy/hbar/hbar_ccs.py, ccpy/hbar/hbar_ccsd.py (rccsdt_), ccpy/eomcc/eomccsdt_intermediates.py and
    ccpy/eomcc/eomccsdt.py HR (reomt_). *)
From Coq Require Import Reals Arith.
From Verif Require Import RSum IntegralsModel TensorObjs.
Open Scope R_scope.
(** ccpy/hbar/hbar_ccs.py, get_pre_ccs_intermediates, lines 108-111 *)
Definition rccsdt_X_a_ov (d : dims) (H : ints) (T U : amps) : mat2 := fun m e =>
  i_a_ov H m e + (sumn (noa d) (fun n => sumn (nua d) (fun f => (i_aa_oovv H m n e f) * (x_a T f n))) + sumn (noa d) (fun n => sumn (nua d) (fun f => (i_ab_oovv H m n e f) * (x_b T f n)))).
(** ccpy/hbar/hbar_ccs.py, get_pre_ccs_intermediates, lines 119-124 *)
Definition rccsdt_X_a_vv (d : dims) (H : ints) (T U : amps) : mat2 := fun a e =>
  i_a_vv H a e + (sumn (noa d) (fun n => sumn (nua d) (fun f => (i_aa_vovv H a n e f) * (x_a T f n))) + sumn (noa d) (fun n => sumn (nua d) (fun f => (i_ab_vovv H a n e f) * (x_b T f n))) - 1 / 2 * (sumn (noa d) (fun m => sumn (noa d) (fun n => sumn (nua d) (fun f => (i_aa_oovv H m n e f) * (x_aa T a f m n))))) - sumn (noa d) (fun m => sumn (noa d) (fun n => sumn (nua d) (fun f => (i_ab_oovv H m n e f) * (x_ab T a f m n))))).
(** ccpy/hbar/hbar_ccs.py, get_pre_ccs_intermediates, lines 125-131 *)
Definition rccsdt_X_a_oo (d : dims) (H : ints) (T U : amps) : mat2 := fun m i =>
  i_a_oo H m i + (sumn (noa d) (fun n => sumn (nua d) (fun f => (i_aa_ooov H m n i f) * (x_a T f n))) + sumn (noa d) (fun n => sumn (nua d) (fun f => (i_ab_ooov H m n i f) * (x_b T f n))) + sumn (nua d) (fun e => (rccsdt_X_a_ov d H T U m e) * (x_a T e i)) + 1 / 2 * (sumn (noa d) (fun n => sumn (nua d) (fun e => sumn (nua d) (fun f => (i_aa_oovv H m n e f) * (x_aa T e f i n))))) + sumn (noa d) (fun n => sumn (nua d) (fun e => sumn (nua d) (fun f => (i_ab_oovv H m n e f) * (x_ab T e f i n))))).
(** ccpy/cc/ccsdt.py, update_t1a, line 57 *)
Definition rccsdt_dT_a (d : dims) (H : ints) (T U : amps) : mat2 := fun a i =>
  (- (sumn (noa d) (fun m => (rccsdt_X_a_oo d H T U m i) * (x_a T a m)))).
(** ccpy/cc/ccsdt.py, update_t1a, line 58 *)
Definition rccsdt_dT_a_1 (d : dims) (H : ints) (T U : amps) : mat2 := fun a i =>
  rccsdt_dT_a d H T U a i + sumn (nua d) (fun e => (rccsdt_X_a_vv d H T U a e) * (x_a T e i)).
(** ccpy/cc/ccsdt.py, update_t1a, line 59 *)
Definition rccsdt_dT_a_2 (d : dims) (H : ints) (T U : amps) : mat2 := fun a i =>
  rccsdt_dT_a_1 d H T U a i + sumn (noa d) (fun m => sumn (nua d) (fun e => (rccsdt_X_a_ov d H T U m e) * (x_aa T a e i m))).
(** ccpy/cc/ccsdt.py, update_t1a, line 60 *)
Definition rccsdt_dT_a_3 (d : dims) (H : ints) (T U : amps) : mat2 := fun a i =>
  rccsdt_dT_a_2 d H T U a i + sumn (noa d) (fun m => sumn (nua d) (fun e => (rccsdt_X_a_ov d H T U m e) * (x_ab T a e i m))).
(** ccpy/cc/ccsdt.py, update_t1a, line 61 *)
Definition rccsdt_dT_a_4 (d : dims) (H : ints) (T U : amps) : mat2 := fun a i =>
  rccsdt_dT_a_3 d H T U a i + sumn (noa d) (fun n => sumn (nua d) (fun f => (i_aa_voov H a n i f) * (x_a T f n))).
(** ccpy/cc/ccsdt.py, update_t1a, line 62 *)
Definition rccsdt_dT_a_5 (d : dims) (H : ints) (T U : amps) : mat2 := fun a i =>
  rccsdt_dT_a_4 d H T U a i + sumn (noa d) (fun n => sumn (nua d) (fun f => (i_ab_voov H a n i f) * (x_b T f n))).
(** ccpy/cc/ccsdt.py, update_t1a, line 63 *)
Definition rccsdt_dT_a_6 (d : dims) (H : ints) (T U : amps) : mat2 := fun a i =>
  rccsdt_dT_a_5 d H T U a i - 1 / 2 * (sumn (noa d) (fun m => sumn (noa d) (fun n => sumn (nua d) (fun f => (i_aa_ooov H m n i f) * (x_aa T a f m n))))).
(** ccpy/cc/ccsdt.py, update_t1a, line 64 *)
Definition rccsdt_dT_a_7 (d : dims) (H : ints) (T U : amps) : mat2 := fun a i =>
  rccsdt_dT_a_6 d H T U a i - sumn (noa d) (fun m => sumn (noa d) (fun n => sumn (nua d) (fun f => (i_ab_ooov H m n i f) * (x_ab T a f m n)))).
(** ccpy/cc/ccsdt.py, update_t1a, line 65 *)
Definition rccsdt_dT_a_8 (d : dims) (H : ints) (T U : amps) : mat2 := fun a i =>
  rccsdt_dT_a_7 d H T U a i + 1 / 2 * (sumn (noa d) (fun n => sumn (nua d) (fun e => sumn (nua d) (fun f => (i_aa_vovv H a n e f) * (x_aa T e f i n))))).
(** ccpy/cc/ccsdt.py, update_t1a, line 66 *)
Definition rccsdt_dT_a_9 (d : dims) (H : ints) (T U : amps) : mat2 := fun a i =>
  rccsdt_dT_a_8 d H T U a i + sumn (noa d) (fun n => sumn (nua d) (fun e => sumn (nua d) (fun f => (i_ab_vovv H a n e f) * (x_ab T e f i n)))).
(** ccpy/cc/ccsdt.py, update_t1a, line 68 *)
Definition rccsdt_dT_a_10 (d : dims) (H : ints) (T U : amps) : mat2 := fun a i =>
  rccsdt_dT_a_9 d H T U a i + 1 / 4 * (sumn (noa d) (fun m => sumn (noa d) (fun n => sumn (nua d) (fun e => sumn (nua d) (fun f => (i_aa_oovv H m n e f) * (x_aaa T a e f i m n)))))).
(** ccpy/cc/ccsdt.py, update_t1a, line 69 *)
Definition rccsdt_dT_a_11 (d : dims) (H : ints) (T U : amps) : mat2 := fun a i =>
  rccsdt_dT_a_10 d H T U a i + sumn (noa d) (fun m => sumn (noa d) (fun n => sumn (nua d) (fun e => sumn (nua d) (fun f => (i_ab_oovv H m n e f) * (x_aab T a e f i m n))))).
(** ccpy/cc/ccsdt.py, update_t1a, line 70 *)
Definition rccsdt_dT_a_12 (d : dims) (H : ints) (T U : amps) : mat2 := fun a i =>
  rccsdt_dT_a_11 d H T U a i + 1 / 4 * (sumn (noa d) (fun m => sumn (noa d) (fun n => sumn (nua d) (fun e => sumn (nua d) (fun f => (i_bb_oovv H m n e f) * (x_abb T a e f i m n)))))).
(** ccpy/cc/ccsdt.py, update_t1a, lines 71-77 *)
Definition rccsdt_res_a (d : dims) (H : ints) (T U : amps) : mat2 := fun a i =>
  rccsdt_dT_a_12 d H T U a i + i_a_vo H a i.
(** ccpy/cc/ccsdt.py, update, line 18 *)
Definition rccsdt_T_b (d : dims) (H : ints) (T U : amps) : mat2 := fun a i =>
  x_a U a i.
(** ccpy/cc/ccsdt.py, update, line 19 *)
Definition rccsdt_dT_b (d : dims) (H : ints) (T U : amps) : mat2 := fun a i =>
  rccsdt_res_a d H T U a i.
(** ccpy/hbar/hbar_ccs.py, get_ccs_intermediates_opt, line 9 *)
Definition rccsdt_X_a_vv_1 (d : dims) (H : ints) (T U : amps) : mat2 := fun a e =>
  rccsdt_X_a_vv d H T U a e - sumn (noa d) (fun m => (rccsdt_X_a_ov d H T U m e) * (x_a U a m)).
(** ccpy/hbar/hbar_ccs.py, get_ccs_intermediates_opt, line 16 *)
Definition rccsdt_X_aa_ooov (d : dims) (H : ints) (T U : amps) : mat4 := fun m n i e =>
  sumn (nua d) (fun f => (i_aa_oovv H m n f e) * (x_a U f i)).
(** ccpy/hbar/hbar_ccs.py, get_ccs_intermediates_opt, line 17 *)
Definition rccsdt_X_aa_vovv (d : dims) (H : ints) (T U : amps) : mat4 := fun a m e f =>
  (- (sumn (noa d) (fun n => (i_aa_oovv H m n f e) * (x_a U a n)))).
(** ccpy/hbar/hbar_ccs.py, get_ccs_intermediates_opt, line 18 *)
Definition rccsdt_X_aa_oooo (d : dims) (H : ints) (T U : amps) : mat4 := fun m n i j =>
  1 / 2 * (i_aa_oooo H m n i j) + sumn (nua d) (fun e => (i_aa_ooov H n m j e + 1 / 2 * (rccsdt_X_aa_ooov d H T U n m j e)) * (x_a U e i)).
(** ccpy/hbar/hbar_ccs.py, get_ccs_intermediates_opt, line 19 *)
Definition rccsdt_X_aa_oooo_1 (d : dims) (H : ints) (T U : amps) : mat4 := fun m n i j =>
  rccsdt_X_aa_oooo d H T U m n i j - rccsdt_X_aa_oooo d H T U m n j i.
(** ccpy/hbar/hbar_ccs.py, get_ccs_intermediates_opt, lines 20-23 *)
Definition rccsdt_X_aa_voov (d : dims) (H : ints) (T U : amps) : mat4 := fun a m i e =>
  i_aa_voov H a m i e + (sumn (nua d) (fun f => (i_aa_vovv H a m f e + 1 / 2 * (rccsdt_X_aa_vovv d H T U a m f e)) * (x_a U f i)) - sumn (noa d) (fun n => (i_aa_ooov H n m i e + 1 / 2 * (rccsdt_X_aa_ooov d H T U n m i e)) * (x_a U a n))).
(** ccpy/hbar/hbar_ccs.py, get_ccs_intermediates_opt, line 24 *)
Definition rccsdt_L_amie (d : dims) (H : ints) (T U : amps) : mat4 := fun a m i f =>
  i_aa_voov H a m i f + 1 / 2 * (sumn (nua d) (fun e => (i_aa_vovv H a m e f) * (x_a U e i))).
(** ccpy/hbar/hbar_ccs.py, get_ccs_intermediates_opt, line 25 *)
Definition rccsdt_X_mnij (d : dims) (H : ints) (T U : amps) : mat4 := fun m n i j =>
  i_aa_oooo H m n i j + sumn (nua d) (fun e => (rccsdt_X_aa_ooov d H T U m n i e) * (x_a U e j)).
(** ccpy/hbar/hbar_ccs.py, get_ccs_intermediates_opt, lines 26-29 *)
Definition rccsdt_X_aa_vooo (d : dims) (H : ints) (T U : amps) : mat4 := fun a m i j =>
  1 / 2 * (i_aa_vooo H a m i j) + (sumn (nua d) (fun e => (rccsdt_L_amie d H T U a m i e) * (x_a U e j)) - 1 / 4 * (sumn (noa d) (fun m' => (rccsdt_X_mnij d H T U m' m i j) * (x_a U a m')))).
(** ccpy/hbar/hbar_ccs.py, get_ccs_intermediates_opt, line 30 *)
Definition rccsdt_X_aa_vooo_1 (d : dims) (H : ints) (T U : amps) : mat4 := fun a m i j =>
  rccsdt_X_aa_vooo d H T U a m i j - rccsdt_X_aa_vooo d H T U a m j i.
(** ccpy/hbar/hbar_ccs.py, get_ccs_intermediates_opt, line 31 *)
Definition rccsdt_L_amie_1 (d : dims) (H : ints) (T U : amps) : mat4 := fun a n i e =>
  sumn (noa d) (fun m => (i_aa_ooov H m n i e) * (x_a U a m)).
(** ccpy/hbar/hbar_ccs.py, get_ccs_intermediates_opt, line 32 *)
Definition rccsdt_X_aa_vvov (d : dims) (H : ints) (T U : amps) : mat4 := fun a b i e =>
  i_aa_vvov H a b i e + sumn (noa d) (fun n => (rccsdt_L_amie_1 d H T U a n i e) * (x_a U b n)).
(** ccpy/hbar/hbar_ccs.py, get_ccs_intermediates_opt, line 67 *)
Definition rccsdt_X_ab_ooov (d : dims) (H : ints) (T U : amps) : mat4 := fun m n i e =>
  sumn (nua d) (fun f => (i_ab_oovv H m n f e) * (x_a U f i)).
(** ccpy/hbar/hbar_ccs.py, get_ccs_intermediates_opt, line 68 *)
Definition rccsdt_X_ab_oovo (d : dims) (H : ints) (T U : amps) : mat4 := fun n m e i =>
  sumn (nua d) (fun f => (i_ab_oovv H n m e f) * (rccsdt_T_b d H T U f i)).
(** ccpy/hbar/hbar_ccs.py, get_ccs_intermediates_opt, lines 69-72 *)
Definition rccsdt_X_ab_oooo (d : dims) (H : ints) (T U : amps) : mat4 := fun m n i j =>
  i_ab_oooo H m n i j + (sumn (nua d) (fun e => (i_ab_oovo H m n e j + 1 / 2 * (rccsdt_X_ab_oovo d H T U m n e j)) * (x_a U e i)) + sumn (nua d) (fun e => (i_ab_ooov H m n i e + 1 / 2 * (rccsdt_X_ab_ooov d H T U m n i e)) * (rccsdt_T_b d H T U e j))).
(** ccpy/hbar/hbar_ccs.py, get_ccs_intermediates_opt, line 73 *)
Definition rccsdt_X_ab_vovv (d : dims) (H : ints) (T U : amps) : mat4 := fun a m e f =>
  (- (sumn (noa d) (fun n => (i_ab_oovv H n m e f) * (x_a U a n)))).
(** ccpy/hbar/hbar_ccs.py, get_ccs_intermediates_opt, line 74 *)
Definition rccsdt_X_ab_ovvv (d : dims) (H : ints) (T U : amps) : mat4 := fun m a e f =>
  (- (sumn (noa d) (fun n => (i_ab_oovv H m n e f) * (rccsdt_T_b d H T U a n)))).
(** ccpy/hbar/hbar_ccs.py, get_ccs_intermediates_opt, lines 75-78 *)
Definition rccsdt_X_ab_voov (d : dims) (H : ints) (T U : amps) : mat4 := fun a m i e =>
  i_ab_voov H a m i e + (sumn (nua d) (fun f => (i_ab_vovv H a m f e + 1 / 2 * (rccsdt_X_ab_vovv d H T U a m f e)) * (x_a U f i)) - sumn (noa d) (fun n => (i_ab_ooov H n m i e + 1 / 2 * (rccsdt_X_ab_ooov d H T U n m i e)) * (x_a U a n))).
(** ccpy/hbar/hbar_ccs.py, get_ccs_intermediates_opt, lines 79-82 *)
Definition rccsdt_X_ab_ovvo (d : dims) (H : ints) (T U : amps) : mat4 := fun m a e i =>
  i_ab_ovvo H m a e i + (sumn (nua d) (fun f => (i_ab_ovvv H m a e f + 1 / 2 * (rccsdt_X_ab_ovvv d H T U m a e f)) * (rccsdt_T_b d H T U f i)) - sumn (noa d) (fun n => (i_ab_oovo H m n e i + 1 / 2 * (rccsdt_X_ab_oovo d H T U m n e i)) * (rccsdt_T_b d H T U a n))).
(** ccpy/hbar/hbar_ccs.py, get_ccs_intermediates_opt, lines 83-86 *)
Definition rccsdt_X_ab_ovov (d : dims) (H : ints) (T U : amps) : mat4 := fun m a i e =>
  i_ab_ovov H m a i e + (sumn (nua d) (fun f => (i_ab_ovvv H m a f e + 1 / 2 * (rccsdt_X_ab_ovvv d H T U m a f e)) * (x_a U f i)) - sumn (noa d) (fun n => (i_ab_ooov H m n i e + 1 / 2 * (rccsdt_X_ab_ooov d H T U m n i e)) * (rccsdt_T_b d H T U a n))).
(** ccpy/hbar/hbar_ccs.py, get_ccs_intermediates_opt, lines 87-90 *)
Definition rccsdt_X_ab_vovo (d : dims) (H : ints) (T U : amps) : mat4 := fun a m e i =>
  i_ab_vovo H a m e i - (sumn (noa d) (fun n => (i_ab_oovo H n m e i + 1 / 2 * (rccsdt_X_ab_oovo d H T U n m e i)) * (x_a U a n)) - sumn (nua d) (fun f => (i_ab_vovv H a m e f + 1 / 2 * (rccsdt_X_ab_vovv d H T U a m e f)) * (rccsdt_T_b d H T U f i))).
(** ccpy/hbar/hbar_ccs.py, get_ccs_intermediates_opt, lines 91-94 *)
Definition rccsdt_X_mnij_1 (d : dims) (H : ints) (T U : amps) : mat4 := fun m n i j =>
  i_ab_oooo H m n i j + (sumn (nua d) (fun f => (i_ab_ooov H m n i f) * (rccsdt_T_b d H T U f j)) + sumn (nua d) (fun e => (i_ab_oovo H m n e j) * (x_a U e i))).
(** ccpy/hbar/hbar_ccs.py, get_ccs_intermediates_opt, line 95 *)
Definition rccsdt_L_mbej (d : dims) (H : ints) (T U : amps) : mat4 := fun m b e j =>
  i_ab_ovvo H m b e j + sumn (nua d) (fun f => (i_ab_ovvv H m b e f) * (rccsdt_T_b d H T U f j)).
(** ccpy/hbar/hbar_ccs.py, get_ccs_intermediates_opt, lines 96-99 *)
Definition rccsdt_X_ab_ovoo (d : dims) (H : ints) (T U : amps) : mat4 := fun m b i j =>
  i_ab_ovoo H m b i j + (sumn (nua d) (fun e => (rccsdt_L_mbej d H T U m b e j) * (x_a U e i)) - sumn (noa d) (fun n => (rccsdt_X_mnij_1 d H T U m n i j) * (rccsdt_T_b d H T U b n))).
(** ccpy/hbar/hbar_ccs.py, get_ccs_intermediates_opt, line 100 *)
Definition rccsdt_L_amie_2 (d : dims) (H : ints) (T U : amps) : mat4 := fun a m i f =>
  sumn (nua d) (fun e => (i_ab_vovv H a m e f + rccsdt_X_ab_vovv d H T U a m e f) * (x_a U e i)).
(** ccpy/hbar/hbar_ccs.py, get_ccs_intermediates_opt, line 101 *)
Definition rccsdt_X_ab_vooo (d : dims) (H : ints) (T U : amps) : mat4 := fun a m i j =>
  i_ab_vooo H a m i j + sumn (nua d) (fun f => (i_ab_voov H a m i f + rccsdt_L_amie_2 d H T U a m i f) * (rccsdt_T_b d H T U f j)).
(** ccpy/hbar/hbar_ccs.py, get_ccs_intermediates_opt, line 102 *)
Definition rccsdt_X_ab_vvvo (d : dims) (H : ints) (T U : amps) : mat4 := fun a b e j =>
  i_ab_vvvo H a b e j - sumn (noa d) (fun n => (i_ab_vovo H a n e j) * (rccsdt_T_b d H T U b n)).
(** ccpy/hbar/hbar_ccs.py, get_ccs_intermediates_opt, line 103 *)
Definition rccsdt_X_ab_vvov (d : dims) (H : ints) (T U : amps) : mat4 := fun a b i e =>
  i_ab_vvov H a b i e - sumn (noa d) (fun m => (i_ab_ovov H m b i e) * (x_a U a m)).
(** ccpy/cc/ccsdt.py, update_t2a, lines 112-115 *)
Definition rccsdt_I2A_voov (d : dims) (H : ints) (T U : amps) : mat4 := fun a m i e =>
  rccsdt_X_aa_voov d H T U a m i e + (1 / 2 * (sumn (noa d) (fun n => sumn (nua d) (fun f => (i_aa_oovv H m n e f) * (x_aa T a f i n)))) + sumn (noa d) (fun n => sumn (nua d) (fun f => (i_ab_oovv H m n e f) * (x_ab T a f i n)))).
(** ccpy/cc/ccsdt.py, update_t2a, line 116 *)
Definition rccsdt_I2A_oooo (d : dims) (H : ints) (T U : amps) : mat4 := fun m n i j =>
  rccsdt_X_aa_oooo_1 d H T U m n i j + 1 / 2 * (sumn (nua d) (fun e => sumn (nua d) (fun f => (i_aa_oovv H m n e f) * (x_aa T e f i j)))).
(** ccpy/cc/ccsdt.py, update_t2a, line 117 *)
Definition rccsdt_I2B_voov (d : dims) (H : ints) (T U : amps) : mat4 := fun a m i e =>
  rccsdt_X_ab_voov d H T U a m i e + 1 / 2 * (sumn (noa d) (fun n => sumn (nua d) (fun f => (i_bb_oovv H m n e f) * (x_ab T a f i n)))).
(** ccpy/cc/ccsdt.py, update_t2a, line 118 *)
Definition rccsdt_I2A_vooo (d : dims) (H : ints) (T U : amps) : mat4 := fun a m i j =>
  rccsdt_X_aa_vooo_1 d H T U a m i j + 1 / 2 * (sumn (nua d) (fun e => sumn (nua d) (fun f => (i_aa_vovv H a m e f + 1 / 2 * (rccsdt_X_aa_vovv d H T U a m e f)) * (x_aa T e f i j)))).
(** ccpy/cc/ccsdt.py, update_t2a, line 120 *)
Definition rccsdt_tau (d : dims) (H : ints) (T U : amps) : mat4 := fun a b i j =>
  1 / 2 * (x_aa T a b i j) + (x_a U a i) * (x_a U b j).
(** ccpy/cc/ccsdt.py, update_t2a, line 122 *)
Definition rccsdt_dT_aa (d : dims) (H : ints) (T U : amps) : mat4 := fun a b i j =>
  (-1) / 2 * (sumn (noa d) (fun m => (rccsdt_I2A_vooo d H T U a m i j) * (x_a U b m))).
(** ccpy/cc/ccsdt.py, update_t2a, line 123 *)
Definition rccsdt_dT_aa_1 (d : dims) (H : ints) (T U : amps) : mat4 := fun a b i j =>
  rccsdt_dT_aa d H T U a b i j + 1 / 2 * (sumn (nua d) (fun e => (rccsdt_X_aa_vvov d H T U a b i e) * (x_a U e j))).
(** ccpy/cc/ccsdt.py, update_t2a, line 124 *)
Definition rccsdt_dT_aa_2 (d : dims) (H : ints) (T U : amps) : mat4 := fun a b i j =>
  rccsdt_dT_aa_1 d H T U a b i j + 1 / 2 * (sumn (nua d) (fun e => (rccsdt_X_a_vv_1 d H T U a e) * (x_aa T e b i j))).
(** ccpy/cc/ccsdt.py, update_t2a, line 125 *)
Definition rccsdt_dT_aa_3 (d : dims) (H : ints) (T U : amps) : mat4 := fun a b i j =>
  rccsdt_dT_aa_2 d H T U a b i j - 1 / 2 * (sumn (noa d) (fun m => (rccsdt_X_a_oo d H T U m i) * (x_aa T a b m j))).
(** ccpy/cc/ccsdt.py, update_t2a, line 126 *)
Definition rccsdt_dT_aa_4 (d : dims) (H : ints) (T U : amps) : mat4 := fun a b i j =>
  rccsdt_dT_aa_3 d H T U a b i j + sumn (noa d) (fun m => sumn (nua d) (fun e => (rccsdt_I2A_voov d H T U a m i e) * (x_aa T e b m j))).
(** ccpy/cc/ccsdt.py, update_t2a, line 127 *)
Definition rccsdt_dT_aa_5 (d : dims) (H : ints) (T U : amps) : mat4 := fun a b i j =>
  rccsdt_dT_aa_4 d H T U a b i j + sumn (noa d) (fun m => sumn (nua d) (fun e => (rccsdt_I2B_voov d H T U a m i e) * (x_ab T b e j m))).
(** ccpy/cc/ccsdt.py, update_t2a, line 128 *)
Definition rccsdt_dT_aa_6 (d : dims) (H : ints) (T U : amps) : mat4 := fun a b i j =>
  rccsdt_dT_aa_5 d H T U a b i j + 1 / 4 * (sumn (nua d) (fun e => sumn (nua d) (fun f => (i_aa_vvvv H a b e f) * (rccsdt_tau d H T U e f i j)))).
(** ccpy/cc/ccsdt.py, update_t2a, line 129 *)
Definition rccsdt_dT_aa_7 (d : dims) (H : ints) (T U : amps) : mat4 := fun a b i j =>
  rccsdt_dT_aa_6 d H T U a b i j + 1 / 8 * (sumn (noa d) (fun m => sumn (noa d) (fun n => (rccsdt_I2A_oooo d H T U m n i j) * (x_aa T a b m n)))).
(** ccpy/cc/ccsdt.py, update_t2a, line 131 *)
Definition rccsdt_dT_aa_8 (d : dims) (H : ints) (T U : amps) : mat4 := fun a b i j =>
  rccsdt_dT_aa_7 d H T U a b i j + 1 / 4 * (sumn (noa d) (fun m => sumn (nua d) (fun e => (rccsdt_X_a_ov d H T U m e) * (x_aaa T a b e i j m)))).
(** ccpy/cc/ccsdt.py, update_t2a, line 132 *)
Definition rccsdt_dT_aa_9 (d : dims) (H : ints) (T U : amps) : mat4 := fun a b i j =>
  rccsdt_dT_aa_8 d H T U a b i j + 1 / 4 * (sumn (noa d) (fun m => sumn (nua d) (fun e => (rccsdt_X_a_ov d H T U m e) * (x_aab T a b e i j m)))).
(** ccpy/cc/ccsdt.py, update_t2a, line 133 *)
Definition rccsdt_dT_aa_10 (d : dims) (H : ints) (T U : amps) : mat4 := fun a b i j =>
  rccsdt_dT_aa_9 d H T U a b i j - 1 / 2 * (sumn (noa d) (fun m => sumn (noa d) (fun n => sumn (nua d) (fun f => (i_ab_ooov H m n i f + rccsdt_X_ab_ooov d H T U m n i f) * (x_aab T a b f m j n))))).
(** ccpy/cc/ccsdt.py, update_t2a, line 134 *)
Definition rccsdt_dT_aa_11 (d : dims) (H : ints) (T U : amps) : mat4 := fun a b i j =>
  rccsdt_dT_aa_10 d H T U a b i j - 1 / 4 * (sumn (noa d) (fun m => sumn (noa d) (fun n => sumn (nua d) (fun f => (i_aa_ooov H m n i f + rccsdt_X_aa_ooov d H T U m n i f) * (x_aaa T a b f m j n))))).
(** ccpy/cc/ccsdt.py, update_t2a, line 135 *)
Definition rccsdt_dT_aa_12 (d : dims) (H : ints) (T U : amps) : mat4 := fun a b i j =>
  rccsdt_dT_aa_11 d H T U a b i j + 1 / 4 * (sumn (noa d) (fun n => sumn (nua d) (fun e => sumn (nua d) (fun f => (i_aa_vovv H a n e f + rccsdt_X_aa_vovv d H T U a n e f) * (x_aaa T e b f i j n))))).
(** ccpy/cc/ccsdt.py, update_t2a, line 136 *)
Definition rccsdt_dT_aa_13 (d : dims) (H : ints) (T U : amps) : mat4 := fun a b i j =>
  rccsdt_dT_aa_12 d H T U a b i j + 1 / 2 * (sumn (noa d) (fun n => sumn (nua d) (fun e => sumn (nua d) (fun f => (i_ab_vovv H a n e f + rccsdt_X_ab_vovv d H T U a n e f) * (x_aab T e b f i j n))))).
(** ccpy/cc/ccsdt.py, update_t2a, lines 137-139 *)
Definition rccsdt_res_aa (d : dims) (H : ints) (T U : amps) : mat4 := fun a b i j =>
  rccsdt_dT_aa_13 d H T U a b i j + 1 / 4 * (i_aa_vvoo H a b i j).
(** ccpy/cc/ccsdt.py, update_t2b, lines 147-150 *)
Definition rccsdt_I2A_voov_1 (d : dims) (H : ints) (T U : amps) : mat4 := fun a m i e =>
  rccsdt_X_aa_voov d H T U a m i e + (sumn (noa d) (fun m' => sumn (nua d) (fun e' => (i_aa_oovv H m' m e' e) * (x_aa U a e' i m'))) + sumn (noa d) (fun m' => sumn (nua d) (fun e' => (i_ab_oovv H m m' e e') * (x_ab T a e' i m')))).
(** ccpy/cc/ccsdt.py, update_t2b, lines 151-154 *)
Definition rccsdt_I2B_voov_1 (d : dims) (H : ints) (T U : amps) : mat4 := fun a m i e =>
  rccsdt_X_ab_voov d H T U a m i e + (sumn (noa d) (fun m' => sumn (nua d) (fun e' => (i_ab_oovv H m' m e' e) * (x_aa U a e' i m'))) + sumn (noa d) (fun m' => sumn (nua d) (fun e' => (i_bb_oovv H m' m e' e) * (x_ab T a e' i m')))).
(** ccpy/cc/ccsdt.py, update_t2b, line 155 *)
Definition rccsdt_I2B_oooo (d : dims) (H : ints) (T U : amps) : mat4 := fun m n i j =>
  rccsdt_X_ab_oooo d H T U m n i j + sumn (nua d) (fun e => sumn (nua d) (fun f => (i_ab_oovv H m n e f) * (x_ab T e f i j))).
(** ccpy/cc/ccsdt.py, update_t2b, line 156 *)
Definition rccsdt_I2B_vovo (d : dims) (H : ints) (T U : amps) : mat4 := fun a m e i =>
  rccsdt_X_ab_vovo d H T U a m e i - sumn (noa d) (fun m' => sumn (nua d) (fun f => (i_ab_oovv H m' m e f) * (x_ab T a f m' i))).
(** ccpy/cc/ccsdt.py, update_t2b, line 157 *)
Definition rccsdt_I2B_ovoo (d : dims) (H : ints) (T U : amps) : mat4 := fun m b i j =>
  rccsdt_X_ab_ovoo d H T U m b i j + sumn (nua d) (fun e => sumn (nua d) (fun f => (i_ab_ovvv H m b e f + 1 / 2 * (rccsdt_X_ab_ovvv d H T U m b e f)) * (x_ab T e f i j))).
(** ccpy/cc/ccsdt.py, update_t2b, line 158 *)
Definition rccsdt_I2B_vooo (d : dims) (H : ints) (T U : amps) : mat4 := fun a m i j =>
  rccsdt_X_ab_vooo d H T U a m i j + sumn (nua d) (fun e => sumn (nua d) (fun f => (i_ab_vovv H a m e f + 1 / 2 * (rccsdt_X_ab_vovv d H T U a m e f)) * (x_ab T e f i j))).
(** ccpy/cc/ccsdt.py, update_t2b, line 160 *)
Definition rccsdt_tau_1 (d : dims) (H : ints) (T U : amps) : mat4 := fun a b i j =>
  x_ab T a b i j + (x_a U a i) * (rccsdt_T_b d H T U b j).
(** ccpy/cc/ccsdt.py, update_t2b, line 162 *)
Definition rccsdt_dT_ab (d : dims) (H : ints) (T U : amps) : mat4 := fun a b i j =>
  (- (sumn (noa d) (fun m => (rccsdt_I2B_ovoo d H T U m b i j) * (x_a U a m)))).
(** ccpy/cc/ccsdt.py, update_t2b, line 163 *)
Definition rccsdt_dT_ab_1 (d : dims) (H : ints) (T U : amps) : mat4 := fun a b i j =>
  rccsdt_dT_ab d H T U a b i j - sumn (noa d) (fun m => (rccsdt_I2B_vooo d H T U a m i j) * (rccsdt_T_b d H T U b m)).
(** ccpy/cc/ccsdt.py, update_t2b, line 164 *)
Definition rccsdt_dT_ab_2 (d : dims) (H : ints) (T U : amps) : mat4 := fun a b i j =>
  rccsdt_dT_ab_1 d H T U a b i j + sumn (nua d) (fun e => (rccsdt_X_ab_vvvo d H T U a b e j) * (x_a U e i)).
(** ccpy/cc/ccsdt.py, update_t2b, line 165 *)
Definition rccsdt_dT_ab_3 (d : dims) (H : ints) (T U : amps) : mat4 := fun a b i j =>
  rccsdt_dT_ab_2 d H T U a b i j + sumn (nua d) (fun e => (rccsdt_X_ab_vvov d H T U a b i e) * (rccsdt_T_b d H T U e j)).
(** ccpy/cc/ccsdt.py, update_t2b, line 166 *)
Definition rccsdt_dT_ab_4 (d : dims) (H : ints) (T U : amps) : mat4 := fun a b i j =>
  rccsdt_dT_ab_3 d H T U a b i j + sumn (nua d) (fun e => (rccsdt_X_a_vv_1 d H T U a e) * (x_ab T e b i j)).
(** ccpy/cc/ccsdt.py, update_t2b, line 167 *)
Definition rccsdt_dT_ab_5 (d : dims) (H : ints) (T U : amps) : mat4 := fun a b i j =>
  rccsdt_dT_ab_4 d H T U a b i j + sumn (nua d) (fun e => (rccsdt_X_a_vv_1 d H T U b e) * (x_ab T a e i j)).
(** ccpy/cc/ccsdt.py, update_t2b, line 168 *)
Definition rccsdt_dT_ab_6 (d : dims) (H : ints) (T U : amps) : mat4 := fun a b i j =>
  rccsdt_dT_ab_5 d H T U a b i j - sumn (noa d) (fun m => (rccsdt_X_a_oo d H T U m i) * (x_ab T a b m j)).
(** ccpy/cc/ccsdt.py, update_t2b, line 169 *)
Definition rccsdt_dT_ab_7 (d : dims) (H : ints) (T U : amps) : mat4 := fun a b i j =>
  rccsdt_dT_ab_6 d H T U a b i j - sumn (noa d) (fun m => (rccsdt_X_a_oo d H T U m j) * (x_ab T a b i m)).
(** ccpy/cc/ccsdt.py, update_t2b, line 170 *)
Definition rccsdt_dT_ab_8 (d : dims) (H : ints) (T U : amps) : mat4 := fun a b i j =>
  rccsdt_dT_ab_7 d H T U a b i j + sumn (noa d) (fun m => sumn (nua d) (fun e => (rccsdt_I2A_voov_1 d H T U a m i e) * (x_ab T e b m j))).
(** ccpy/cc/ccsdt.py, update_t2b, line 171 *)
Definition rccsdt_dT_ab_9 (d : dims) (H : ints) (T U : amps) : mat4 := fun a b i j =>
  rccsdt_dT_ab_8 d H T U a b i j + sumn (noa d) (fun m => sumn (nua d) (fun e => (rccsdt_I2B_voov_1 d H T U a m i e) * (x_bb T e b m j))).
(** ccpy/cc/ccsdt.py, update_t2b, line 172 *)
Definition rccsdt_dT_ab_10 (d : dims) (H : ints) (T U : amps) : mat4 := fun a b i j =>
  rccsdt_dT_ab_9 d H T U a b i j + sumn (noa d) (fun m => sumn (nua d) (fun e => (rccsdt_X_ab_ovvo d H T U m b e j) * (x_aa U a e i m))).
(** ccpy/cc/ccsdt.py, update_t2b, line 173 *)
Definition rccsdt_dT_ab_11 (d : dims) (H : ints) (T U : amps) : mat4 := fun a b i j =>
  rccsdt_dT_ab_10 d H T U a b i j + sumn (noa d) (fun m => sumn (nua d) (fun e => (rccsdt_X_aa_voov d H T U b m j e) * (x_ab T a e i m))).
(** ccpy/cc/ccsdt.py, update_t2b, line 174 *)
Definition rccsdt_dT_ab_12 (d : dims) (H : ints) (T U : amps) : mat4 := fun a b i j =>
  rccsdt_dT_ab_11 d H T U a b i j - sumn (noa d) (fun m => sumn (nua d) (fun e => (rccsdt_X_ab_ovov d H T U m b i e) * (x_ab T a e m j))).
(** ccpy/cc/ccsdt.py, update_t2b, line 175 *)
Definition rccsdt_dT_ab_13 (d : dims) (H : ints) (T U : amps) : mat4 := fun a b i j =>
  rccsdt_dT_ab_12 d H T U a b i j - sumn (noa d) (fun m => sumn (nua d) (fun e => (rccsdt_I2B_vovo d H T U a m e j) * (x_ab T e b i m))).
(** ccpy/cc/ccsdt.py, update_t2b, line 176 *)
Definition rccsdt_dT_ab_14 (d : dims) (H : ints) (T U : amps) : mat4 := fun a b i j =>
  rccsdt_dT_ab_13 d H T U a b i j + sumn (noa d) (fun m => sumn (noa d) (fun n => (rccsdt_I2B_oooo d H T U m n i j) * (x_ab T a b m n))).
(** ccpy/cc/ccsdt.py, update_t2b, line 177 *)
Definition rccsdt_dT_ab_15 (d : dims) (H : ints) (T U : amps) : mat4 := fun a b i j =>
  rccsdt_dT_ab_14 d H T U a b i j + sumn (nua d) (fun e => sumn (nua d) (fun f => (i_ab_vvvv H a b e f) * (rccsdt_tau_1 d H T U e f i j))).
(** ccpy/cc/ccsdt.py, update_t2b, line 179 *)
Definition rccsdt_dT_ab_16 (d : dims) (H : ints) (T U : amps) : mat4 := fun a b i j =>
  rccsdt_dT_ab_15 d H T U a b i j - 1 / 2 * (sumn (noa d) (fun m => sumn (noa d) (fun n => sumn (nua d) (fun f => (i_aa_ooov H m n i f + rccsdt_X_aa_ooov d H T U m n i f) * (x_aab T a f b m n j))))).
(** ccpy/cc/ccsdt.py, update_t2b, line 180 *)
Definition rccsdt_dT_ab_17 (d : dims) (H : ints) (T U : amps) : mat4 := fun a b i j =>
  rccsdt_dT_ab_16 d H T U a b i j - sumn (noa d) (fun n => sumn (noa d) (fun m => sumn (nua d) (fun f => (i_ab_oovo H n m f j + rccsdt_X_ab_oovo d H T U n m f j) * (x_aab T a f b i n m)))).
(** ccpy/cc/ccsdt.py, update_t2b, line 181 *)
Definition rccsdt_dT_ab_18 (d : dims) (H : ints) (T U : amps) : mat4 := fun a b i j =>
  rccsdt_dT_ab_17 d H T U a b i j - 1 / 2 * (sumn (noa d) (fun m => sumn (noa d) (fun n => sumn (nua d) (fun f => (i_bb_ooov H m n j f + rccsdt_X_aa_ooov d H T U m n j f) * (x_abb T a f b i n m))))).
(** ccpy/cc/ccsdt.py, update_t2b, line 182 *)
Definition rccsdt_dT_ab_19 (d : dims) (H : ints) (T U : amps) : mat4 := fun a b i j =>
  rccsdt_dT_ab_18 d H T U a b i j - sumn (noa d) (fun m => sumn (noa d) (fun n => sumn (nua d) (fun f => (i_ab_ooov H m n i f + rccsdt_X_ab_ooov d H T U m n i f) * (x_abb T a f b m n j)))).
(** ccpy/cc/ccsdt.py, update_t2b, line 183 *)
Definition rccsdt_dT_ab_20 (d : dims) (H : ints) (T U : amps) : mat4 := fun a b i j =>
  rccsdt_dT_ab_19 d H T U a b i j + 1 / 2 * (sumn (noa d) (fun n => sumn (nua d) (fun e => sumn (nua d) (fun f => (i_aa_vovv H a n e f + rccsdt_X_aa_vovv d H T U a n e f) * (x_aab T e f b i n j))))).
(** ccpy/cc/ccsdt.py, update_t2b, line 184 *)
Definition rccsdt_dT_ab_21 (d : dims) (H : ints) (T U : amps) : mat4 := fun a b i j =>
  rccsdt_dT_ab_20 d H T U a b i j + sumn (noa d) (fun n => sumn (nua d) (fun e => sumn (nua d) (fun f => (i_ab_vovv H a n e f + rccsdt_X_ab_vovv d H T U a n e f) * (x_abb T e f b i n j)))).
(** ccpy/cc/ccsdt.py, update_t2b, line 185 *)
Definition rccsdt_dT_ab_22 (d : dims) (H : ints) (T U : amps) : mat4 := fun a b i j =>
  rccsdt_dT_ab_21 d H T U a b i j + sumn (noa d) (fun n => sumn (nua d) (fun f => sumn (nua d) (fun e => (i_ab_ovvv H n b f e + rccsdt_X_ab_ovvv d H T U n b f e) * (x_aab T a f e i n j)))).
(** ccpy/cc/ccsdt.py, update_t2b, line 186 *)
Definition rccsdt_dT_ab_23 (d : dims) (H : ints) (T U : amps) : mat4 := fun a b i j =>
  rccsdt_dT_ab_22 d H T U a b i j + 1 / 2 * (sumn (noa d) (fun n => sumn (nua d) (fun e => sumn (nua d) (fun f => (i_bb_vovv H b n e f + rccsdt_X_aa_vovv d H T U b n e f) * (x_abb T a f e i n j))))).
(** ccpy/cc/ccsdt.py, update_t2b, line 187 *)
Definition rccsdt_dT_ab_24 (d : dims) (H : ints) (T U : amps) : mat4 := fun a b i j =>
  rccsdt_dT_ab_23 d H T U a b i j + sumn (noa d) (fun m => sumn (nua d) (fun e => (rccsdt_X_a_ov d H T U m e) * (x_aab T a e b i m j))).
(** ccpy/cc/ccsdt.py, update_t2b, line 188 *)
Definition rccsdt_dT_ab_25 (d : dims) (H : ints) (T U : amps) : mat4 := fun a b i j =>
  rccsdt_dT_ab_24 d H T U a b i j + sumn (noa d) (fun m => sumn (nua d) (fun e => (rccsdt_X_a_ov d H T U m e) * (x_abb T a e b i m j))).
(** ccpy/cc/ccsdt.py, update_t2b, lines 189-191 *)
Definition rccsdt_res_ab (d : dims) (H : ints) (T U : amps) : mat4 := fun a b i j =>
  rccsdt_dT_ab_25 d H T U a b i j + i_ab_vvoo H a b i j.
(** ccpy/cc/ccsdt.py, update, line 30 *)
Definition rccsdt_T_bb (d : dims) (H : ints) (T U : amps) : mat4 := fun a b i j =>
  x_aa U a b i j.
(** ccpy/cc/ccsdt.py, update, line 31 *)
Definition rccsdt_dT_bb (d : dims) (H : ints) (T U : amps) : mat4 := fun a b i j =>
  rccsdt_res_aa d H T U a b i j.
(** ccpy/hbar/hbar_ccsd.py, get_ccsd_intermediates, line 313 *)
Definition rccsdt_tau_aa (d : dims) (H : ints) (T U : amps) : mat4 := fun a b i j =>
  1 / 2 * (x_aa U a b i j) + (x_a U a i) * (x_a U b j).
(** ccpy/hbar/hbar_ccsd.py, get_ccsd_intermediates, line 314 *)
Definition rccsdt_tau_aa_1 (d : dims) (H : ints) (T U : amps) : mat4 := fun a b i j =>
  rccsdt_tau_aa d H T U a b i j - rccsdt_tau_aa d H T U a b j i.
(** ccpy/hbar/hbar_ccsd.py, get_ccsd_intermediates, line 320 *)
Definition rccsdt_tau_ab (d : dims) (H : ints) (T U : amps) : mat4 := fun a b i j =>
  x_ab U a b i j + (x_a U a i) * (rccsdt_T_b d H T U b j).
(** ccpy/hbar/hbar_ccsd.py, get_ccsd_intermediates, line 323 *)
Definition rccsdt_H_aa_vovv (d : dims) (H : ints) (T U : amps) : mat4 := fun a m e f =>
  rccsdt_X_aa_vovv d H T U a m e f + i_aa_vovv H a m e f.
(** ccpy/hbar/hbar_ccsd.py, get_ccsd_intermediates, line 328 *)
Definition rccsdt_H_ab_vovv (d : dims) (H : ints) (T U : amps) : mat4 := fun a m e f =>
  rccsdt_X_ab_vovv d H T U a m e f + i_ab_vovv H a m e f.
(** ccpy/hbar/hbar_ccsd.py, get_ccsd_intermediates, line 329 *)
Definition rccsdt_H_ab_ovvv (d : dims) (H : ints) (T U : amps) : mat4 := fun m a e f =>
  rccsdt_X_ab_ovvv d H T U m a e f + i_ab_ovvv H m a e f.
(** ccpy/hbar/hbar_ccsd.py, get_ccsd_intermediates, line 334 *)
Definition rccsdt_H_aa_ooov (d : dims) (H : ints) (T U : amps) : mat4 := fun m n i e =>
  rccsdt_X_aa_ooov d H T U m n i e + i_aa_ooov H m n i e.
(** ccpy/hbar/hbar_ccsd.py, get_ccsd_intermediates, line 339 *)
Definition rccsdt_H_ab_ooov (d : dims) (H : ints) (T U : amps) : mat4 := fun m n i e =>
  rccsdt_X_ab_ooov d H T U m n i e + i_ab_ooov H m n i e.
(** ccpy/hbar/hbar_ccsd.py, get_ccsd_intermediates, line 340 *)
Definition rccsdt_H_ab_oovo (d : dims) (H : ints) (T U : amps) : mat4 := fun n m e i =>
  rccsdt_X_ab_oovo d H T U n m e i + i_ab_oovo H n m e i.
(** ccpy/hbar/hbar_ccsd.py, get_ccsd_intermediates, lines 345-349 *)
Definition rccsdt_H_aa_vvvv (d : dims) (H : ints) (T U : amps) : mat4 := fun a b e f =>
  1 / 2 * (i_aa_vvvv H a b e f) + 1 / 4 * (sumn (noa d) (fun m => sumn (noa d) (fun n => (i_aa_oovv H m n e f) * (rccsdt_tau_aa_1 d H T U a b m n)))) - sumn (noa d) (fun m => (i_aa_vovv H a m e f) * (x_a U b m)).
(** ccpy/hbar/hbar_ccsd.py, get_ccsd_intermediates, line 350 *)
Definition rccsdt_H_aa_vvvv_1 (d : dims) (H : ints) (T U : amps) : mat4 := fun a b e f =>
  rccsdt_H_aa_vvvv d H T U a b e f - rccsdt_H_aa_vvvv d H T U b a e f.
(** ccpy/hbar/hbar_ccsd.py, get_ccsd_intermediates, lines 360-365 *)
Definition rccsdt_H_ab_vvvv (d : dims) (H : ints) (T U : amps) : mat4 := fun a b e f =>
  i_ab_vvvv H a b e f - sumn (noa d) (fun m => (i_ab_ovvv H m b e f) * (x_a U a m)) - sumn (noa d) (fun m => (i_ab_vovv H a m e f) * (rccsdt_T_b d H T U b m)) + sumn (noa d) (fun m => sumn (noa d) (fun n => (i_ab_oovv H m n e f) * (rccsdt_tau_ab d H T U a b m n))).
(** ccpy/hbar/hbar_ccsd.py, get_ccsd_intermediates, lines 370-374 *)
Definition rccsdt_H_aa_oooo (d : dims) (H : ints) (T U : amps) : mat4 := fun m n i j =>
  1 / 2 * (i_aa_oooo H m n i j) + sumn (nua d) (fun e => (i_aa_ooov H n m j e) * (x_a U e i)) + 1 / 4 * (sumn (nua d) (fun e => sumn (nua d) (fun f => (i_aa_oovv H m n e f) * (rccsdt_tau_aa_1 d H T U e f i j)))).
(** ccpy/hbar/hbar_ccsd.py, get_ccsd_intermediates, line 375 *)
Definition rccsdt_H_aa_oooo_1 (d : dims) (H : ints) (T U : amps) : mat4 := fun m n i j =>
  rccsdt_H_aa_oooo d H T U m n i j - rccsdt_H_aa_oooo d H T U m n j i.
(** ccpy/hbar/hbar_ccsd.py, get_ccsd_intermediates, lines 385-390 *)
Definition rccsdt_H_ab_oooo (d : dims) (H : ints) (T U : amps) : mat4 := fun m n i j =>
  i_ab_oooo H m n i j + sumn (nua d) (fun e => (i_ab_oovo H m n e j) * (x_a U e i)) + sumn (nua d) (fun e => (i_ab_ooov H m n i e) * (rccsdt_T_b d H T U e j)) + sumn (nua d) (fun e => sumn (nua d) (fun f => (i_ab_oovv H m n e f) * (rccsdt_tau_ab d H T U e f i j))).
(** ccpy/hbar/hbar_ccsd.py, get_ccsd_intermediates, lines 395-401 *)
Definition rccsdt_H_aa_voov (d : dims) (H : ints) (T U : amps) : mat4 := fun a m i e =>
  i_aa_voov H a m i e + sumn (nua d) (fun f => (i_aa_vovv H a m f e) * (x_a U f i)) - sumn (noa d) (fun n => (rccsdt_H_aa_ooov d H T U n m i e) * (x_a U a n)) + sumn (noa d) (fun n => sumn (nua d) (fun f => (i_aa_oovv H n m f e) * (x_aa U a f i n))) + sumn (noa d) (fun n => sumn (nua d) (fun f => (i_ab_oovv H m n e f) * (x_ab U a f i n))).
(** ccpy/hbar/hbar_ccsd.py, get_ccsd_intermediates, lines 412-418 *)
Definition rccsdt_H_ab_voov (d : dims) (H : ints) (T U : amps) : mat4 := fun a m i e =>
  i_ab_voov H a m i e + sumn (nua d) (fun f => (i_ab_vovv H a m f e) * (x_a U f i)) - sumn (noa d) (fun n => (rccsdt_H_ab_ooov d H T U n m i e) * (x_a U a n)) + sumn (noa d) (fun n => sumn (nua d) (fun f => (i_ab_oovv H n m f e) * (x_aa U a f i n))) + sumn (noa d) (fun n => sumn (nua d) (fun f => (i_bb_oovv H n m f e) * (x_ab U a f i n))).
(** ccpy/hbar/hbar_ccsd.py, get_ccsd_intermediates, lines 419-425 *)
Definition rccsdt_H_ab_ovvo (d : dims) (H : ints) (T U : amps) : mat4 := fun m a e i =>
  i_ab_ovvo H m a e i + sumn (nua d) (fun f => (i_ab_ovvv H m a e f) * (rccsdt_T_b d H T U f i)) - sumn (noa d) (fun n => (rccsdt_H_ab_oovo d H T U m n e i) * (rccsdt_T_b d H T U a n)) + sumn (noa d) (fun n => sumn (nua d) (fun f => (i_ab_oovv H m n e f) * (rccsdt_T_bb d H T U a f i n))) + sumn (noa d) (fun n => sumn (nua d) (fun f => (i_aa_oovv H m n e f) * (x_ab U f a n i))).
(** ccpy/hbar/hbar_ccsd.py, get_ccsd_intermediates, lines 426-431 *)
Definition rccsdt_H_ab_ovov (d : dims) (H : ints) (T U : amps) : mat4 := fun m a i e =>
  i_ab_ovov H m a i e + sumn (nua d) (fun f => (i_ab_ovvv H m a f e) * (x_a U f i)) - sumn (noa d) (fun n => (rccsdt_H_ab_ooov d H T U m n i e) * (rccsdt_T_b d H T U a n)) - sumn (noa d) (fun n => sumn (nua d) (fun f => (i_ab_oovv H m n f e) * (x_ab U f a i n))).
(** ccpy/hbar/hbar_ccsd.py, get_ccsd_intermediates, lines 432-437 *)
Definition rccsdt_H_ab_vovo (d : dims) (H : ints) (T U : amps) : mat4 := fun a m e i =>
  i_ab_vovo H a m e i - sumn (noa d) (fun n => (rccsdt_H_ab_oovo d H T U n m e i) * (x_a U a n)) + sumn (nua d) (fun f => (i_ab_vovv H a m e f) * (rccsdt_T_b d H T U f i)) - sumn (noa d) (fun n => sumn (nua d) (fun f => (i_ab_oovv H n m e f) * (x_ab U a f n i))).
(** ccpy/hbar/hbar_ccsd.py, get_ccsd_intermediates, lines 442-445 *)
Definition rccsdt_Q1 (d : dims) (H : ints) (T U : amps) : mat4 := fun a m i j =>
  sumn (noa d) (fun n => sumn (nua d) (fun f => (rccsdt_H_aa_ooov d H T U m n j f) * (x_aa U a f i n))) + sumn (noa d) (fun n => sumn (nua d) (fun f => (rccsdt_H_ab_ooov d H T U m n j f) * (x_ab U a f i n))).
(** ccpy/hbar/hbar_ccsd.py, get_ccsd_intermediates, line 446 *)
Definition rccsdt_Q2 (d : dims) (H : ints) (T U : amps) : mat4 := fun a m i f =>
  i_aa_voov H a m i f + 1 / 2 * (sumn (nua d) (fun e => (i_aa_vovv H a m e f) * (x_a U e i))).
(** ccpy/hbar/hbar_ccsd.py, get_ccsd_intermediates, line 447 *)
Definition rccsdt_Q2_1 (d : dims) (H : ints) (T U : amps) : mat4 := fun a m i j =>
  sumn (nua d) (fun f => (rccsdt_Q2 d H T U a m i f) * (x_a U f j)).
(** ccpy/hbar/hbar_ccsd.py, get_ccsd_intermediates, line 448 *)
Definition rccsdt_Q1_1 (d : dims) (H : ints) (T U : amps) : mat4 := fun a m i j =>
  rccsdt_Q1 d H T U a m i j + rccsdt_Q2_1 d H T U a m i j.
(** ccpy/hbar/hbar_ccsd.py, get_ccsd_intermediates, line 449 *)
Definition rccsdt_Q1_2 (d : dims) (H : ints) (T U : amps) : mat4 := fun a m i j =>
  rccsdt_Q1_1 d H T U a m i j - rccsdt_Q1_1 d H T U a m j i.
(** ccpy/hbar/hbar_ccsd.py, get_ccsd_intermediates, lines 450-454 *)
Definition rccsdt_H_aa_vooo (d : dims) (H : ints) (T U : amps) : mat4 := fun a m i j =>
  i_aa_vooo H a m i j + rccsdt_Q1_2 d H T U a m i j + (sumn (nua d) (fun e => (rccsdt_X_a_ov d H T U m e) * (x_aa U a e i j)) - sumn (noa d) (fun n => (rccsdt_H_aa_oooo_1 d H T U n m i j) * (x_a U a n)) + 1 / 2 * (sumn (nua d) (fun e => sumn (nua d) (fun f => (i_aa_vovv H a m e f) * (x_aa U e f i j))))).
(** ccpy/hbar/hbar_ccsd.py, get_ccsd_intermediates, line 471 *)
Definition rccsdt_Q1_3 (d : dims) (H : ints) (T U : amps) : mat4 := fun a m i e =>
  i_ab_voov H a m i e + sumn (nua d) (fun f => (i_ab_vovv H a m f e) * (x_a U f i)).
(** ccpy/hbar/hbar_ccsd.py, get_ccsd_intermediates, lines 472-481 *)
Definition rccsdt_H_ab_vooo (d : dims) (H : ints) (T U : amps) : mat4 := fun a m i j =>
  i_ab_vooo H a m i j + (sumn (nua d) (fun e => (rccsdt_X_a_ov d H T U m e) * (x_ab U a e i j)) - sumn (noa d) (fun n => (rccsdt_H_ab_oooo d H T U n m i j) * (x_a U a n)) + sumn (noa d) (fun n => sumn (nua d) (fun f => (rccsdt_H_aa_ooov d H T U m n j f) * (x_ab U a f i n))) + sumn (noa d) (fun n => sumn (nua d) (fun f => (rccsdt_H_ab_oovo d H T U n m f j) * (x_aa U a f i n))) - sumn (noa d) (fun n => sumn (nua d) (fun f => (rccsdt_H_ab_ooov d H T U n m i f) * (x_ab U a f n j))) + sumn (nua d) (fun e => (i_ab_vovo H a m e j) * (x_a U e i)) + sumn (nua d) (fun e => (rccsdt_Q1_3 d H T U a m i e) * (rccsdt_T_b d H T U e j)) + sumn (nua d) (fun e => sumn (nua d) (fun f => (i_ab_vovv H a m e f) * (x_ab U e f i j)))).
(** ccpy/hbar/hbar_ccsd.py, get_ccsd_intermediates, line 482 *)
Definition rccsdt_Q1_4 (d : dims) (H : ints) (T U : amps) : mat4 := fun m a j e =>
  i_ab_ovov H m a j e + sumn (nua d) (fun f => (i_ab_ovvv H m a f e) * (x_a U f j)).
(** ccpy/hbar/hbar_ccsd.py, get_ccsd_intermediates, lines 483-492 *)
Definition rccsdt_H_ab_ovoo (d : dims) (H : ints) (T U : amps) : mat4 := fun m a j i =>
  i_ab_ovoo H m a j i + (sumn (nua d) (fun e => (rccsdt_X_a_ov d H T U m e) * (x_ab U e a j i)) - sumn (noa d) (fun n => (rccsdt_H_ab_oooo d H T U m n j i) * (rccsdt_T_b d H T U a n)) + sumn (noa d) (fun n => sumn (nua d) (fun f => (rccsdt_H_aa_ooov d H T U m n j f) * (x_ab U f a n i))) + sumn (noa d) (fun n => sumn (nua d) (fun f => (rccsdt_H_ab_ooov d H T U m n j f) * (rccsdt_T_bb d H T U f a n i))) - sumn (noa d) (fun n => sumn (nua d) (fun f => (rccsdt_H_ab_oovo d H T U m n f i) * (x_ab U f a j n))) + sumn (nua d) (fun e => (rccsdt_Q1_4 d H T U m a j e) * (rccsdt_T_b d H T U e i)) + sumn (nua d) (fun e => (i_ab_ovvo H m a e i) * (x_a U e j)) + sumn (nua d) (fun f => sumn (nua d) (fun e => (i_ab_ovvv H m a f e) * (x_ab U f e j i)))).
(** ccpy/hbar/hbar_ccsd.py, get_ccsd_intermediates, line 497 *)
Definition rccsdt_x2a_voov (d : dims) (H : ints) (T U : amps) : mat4 := fun a m i e =>
  rccsdt_H_aa_voov d H T U a m i e + 1 / 2 * (sumn (noa d) (fun n => (rccsdt_H_aa_ooov d H T U n m i e) * (x_a U a n))).
(** ccpy/hbar/hbar_ccsd.py, get_ccsd_intermediates, lines 498-507 *)
Definition rccsdt_H_aa_vvov (d : dims) (H : ints) (T U : amps) : mat4 := fun a b i e =>
  1 / 2 * (i_aa_vvov H a b i e) - 1 / 2 * (sumn (noa d) (fun m => (rccsdt_X_a_ov d H T U m e) * (x_aa U a b i m))) - sumn (noa d) (fun m => (rccsdt_x2a_voov d H T U a m i e) * (x_a U b m)) + 1 / 4 * (sumn (noa d) (fun m => sumn (noa d) (fun n => (rccsdt_H_aa_ooov d H T U m n i e) * (x_aa U a b m n)))) + 1 / 2 * (sumn (nua d) (fun f => (i_aa_vvvv H a b f e) * (x_a U f i))) + sumn (noa d) (fun n => sumn (nua d) (fun f => (i_aa_vovv H b n e f) * (x_aa U a f i n))) + sumn (noa d) (fun n => sumn (nua d) (fun f => (i_ab_vovv H b n e f) * (x_ab U a f i n))).
(** ccpy/hbar/hbar_ccsd.py, get_ccsd_intermediates, line 508 *)
Definition rccsdt_H_aa_vvov_1 (d : dims) (H : ints) (T U : amps) : mat4 := fun a b i e =>
  rccsdt_H_aa_vvov d H T U a b i e - rccsdt_H_aa_vvov d H T U b a i e.
(** ccpy/hbar/hbar_ccsd.py, get_ccsd_intermediates, line 526 *)
Definition rccsdt_x2b_voov (d : dims) (H : ints) (T U : amps) : mat4 := fun a m i e =>
  rccsdt_H_ab_voov d H T U a m i e + 1 / 2 * (sumn (noa d) (fun n => (rccsdt_H_ab_ooov d H T U n m i e) * (x_a U a n))).
(** ccpy/hbar/hbar_ccsd.py, get_ccsd_intermediates, line 527 *)
Definition rccsdt_x2b_ovov (d : dims) (H : ints) (T U : amps) : mat4 := fun m a i e =>
  rccsdt_H_ab_ovov d H T U m a i e + 1 / 2 * (sumn (noa d) (fun m' => (rccsdt_H_ab_ooov d H T U m m' i e) * (rccsdt_T_b d H T U a m'))).
(** ccpy/hbar/hbar_ccsd.py, get_ccsd_intermediates, lines 528-539 *)
Definition rccsdt_H_ab_vvov (d : dims) (H : ints) (T U : amps) : mat4 := fun a b i e =>
  i_ab_vvov H a b i e - sumn (noa d) (fun m => (rccsdt_X_a_ov d H T U m e) * (x_ab U a b i m)) - sumn (noa d) (fun m => (rccsdt_x2b_voov d H T U a m i e) * (rccsdt_T_b d H T U b m)) - sumn (noa d) (fun m => (rccsdt_x2b_ovov d H T U m b i e) * (x_a U a m)) + sumn (noa d) (fun n => sumn (noa d) (fun m => (rccsdt_H_ab_ooov d H T U n m i e) * (x_ab U a b n m))) + sumn (nua d) (fun f => (i_ab_vvvv H a b f e) * (x_a U f i)) + sumn (noa d) (fun m => sumn (nua d) (fun f => (i_ab_ovvv H m b f e) * (x_aa U a f i m))) + sumn (noa d) (fun m => sumn (nua d) (fun f => (i_bb_vovv H b m e f) * (x_ab U a f i m))) - sumn (noa d) (fun m => sumn (nua d) (fun f => (i_ab_vovv H a m f e) * (x_ab U f b i m))).
(** ccpy/hbar/hbar_ccsd.py, get_ccsd_intermediates, line 540 *)
Definition rccsdt_x2b_ovvo (d : dims) (H : ints) (T U : amps) : mat4 := fun m a e i =>
  rccsdt_H_ab_ovvo d H T U m a e i + 1 / 2 * (sumn (noa d) (fun m' => (rccsdt_H_ab_oovo d H T U m m' e i) * (rccsdt_T_b d H T U a m'))).
(** ccpy/hbar/hbar_ccsd.py, get_ccsd_intermediates, line 541 *)
Definition rccsdt_x2b_vovo (d : dims) (H : ints) (T U : amps) : mat4 := fun a m e i =>
  rccsdt_H_ab_vovo d H T U a m e i + 1 / 2 * (sumn (noa d) (fun n => (rccsdt_H_ab_oovo d H T U n m e i) * (x_a U a n))).
(** ccpy/hbar/hbar_ccsd.py, get_ccsd_intermediates, lines 542-553 *)
Definition rccsdt_H_ab_vvvo (d : dims) (H : ints) (T U : amps) : mat4 := fun b a e i =>
  i_ab_vvvo H b a e i - sumn (noa d) (fun m => (rccsdt_X_a_ov d H T U m e) * (x_ab U b a m i)) - sumn (noa d) (fun m => (rccsdt_x2b_ovvo d H T U m a e i) * (x_a U b m)) - sumn (noa d) (fun m => (rccsdt_x2b_vovo d H T U b m e i) * (rccsdt_T_b d H T U a m)) + sumn (noa d) (fun n => sumn (noa d) (fun m => (rccsdt_H_ab_oovo d H T U n m e i) * (x_ab U b a n m))) + sumn (nua d) (fun f => (i_ab_vvvv H b a e f) * (rccsdt_T_b d H T U f i)) + sumn (noa d) (fun m => sumn (nua d) (fun f => (i_ab_vovv H b m e f) * (rccsdt_T_bb d H T U a f i m))) + sumn (noa d) (fun m => sumn (nua d) (fun f => (i_aa_vovv H b m e f) * (x_ab U f a m i))) - sumn (noa d) (fun m => sumn (nua d) (fun f => (i_ab_ovvv H m a e f) * (x_ab U b f m i))).
(** ccpy/cc/ccsdt.py, update_t3a, line 235 *)
Definition rccsdt_I2A_vvov (d : dims) (H : ints) (T U : amps) : mat4 := fun a b i e =>
  (-1) / 2 * (sumn (noa d) (fun m => sumn (noa d) (fun n => sumn (nua d) (fun f => (i_aa_oovv H m n e f) * (x_aaa T a b f i m n))))).
(** ccpy/cc/ccsdt.py, update_t3a, line 236 *)
Definition rccsdt_I2A_vvov_1 (d : dims) (H : ints) (T U : amps) : mat4 := fun a b i e =>
  rccsdt_I2A_vvov d H T U a b i e - sumn (noa d) (fun m => sumn (noa d) (fun n => sumn (nua d) (fun f => (i_ab_oovv H m n e f) * (x_aab T a b f i m n)))).
(** ccpy/cc/ccsdt.py, update_t3a, line 237 *)
Definition rccsdt_I2A_vvov_2 (d : dims) (H : ints) (T U : amps) : mat4 := fun a b i e =>
  rccsdt_I2A_vvov_1 d H T U a b i e + rccsdt_H_aa_vvov_1 d H T U a b i e.
(** ccpy/cc/ccsdt.py, update_t3a, line 239 *)
Definition rccsdt_I2A_vooo_1 (d : dims) (H : ints) (T U : amps) : mat4 := fun a m i j =>
  1 / 2 * (sumn (noa d) (fun n => sumn (nua d) (fun e => sumn (nua d) (fun f => (i_aa_oovv H m n e f) * (x_aaa T a e f i j n))))).
(** ccpy/cc/ccsdt.py, update_t3a, line 240 *)
Definition rccsdt_I2A_vooo_2 (d : dims) (H : ints) (T U : amps) : mat4 := fun a m i j =>
  rccsdt_I2A_vooo_1 d H T U a m i j + (rccsdt_H_aa_vooo d H T U a m i j + sumn (noa d) (fun n => sumn (nua d) (fun e => sumn (nua d) (fun f => (i_ab_oovv H m n e f) * (x_aab T a e f i j n))))).
(** ccpy/cc/ccsdt.py, update_t3a, line 241 *)
Definition rccsdt_I2A_vooo_3 (d : dims) (H : ints) (T U : amps) : mat4 := fun a m i j =>
  rccsdt_I2A_vooo_2 d H T U a m i j - sumn (nua d) (fun e => (rccsdt_X_a_ov d H T U m e) * (x_aa U a e i j)).
(** ccpy/cc/ccsdt.py, update_t3a, line 244 *)
Definition rccsdt_dT_aaa (d : dims) (H : ints) (T U : amps) : mat6 := fun a b c i j k =>
  (-1) / 4 * (sumn (noa d) (fun m => (rccsdt_I2A_vooo_3 d H T U a m i j) * (x_aa U b c m k))).
(** ccpy/cc/ccsdt.py, update_t3a, line 245 *)
Definition rccsdt_dT_aaa_1 (d : dims) (H : ints) (T U : amps) : mat6 := fun a b c i j k =>
  rccsdt_dT_aaa d H T U a b c i j k + 1 / 4 * (sumn (nua d) (fun e => (rccsdt_I2A_vvov_2 d H T U a b i e) * (x_aa U e c j k))).
(** ccpy/cc/ccsdt.py, update_t3a, line 247 *)
Definition rccsdt_dT_aaa_2 (d : dims) (H : ints) (T U : amps) : mat6 := fun a b c i j k =>
  rccsdt_dT_aaa_1 d H T U a b c i j k - 1 / 12 * (sumn (noa d) (fun m => (rccsdt_X_a_oo d H T U m k) * (x_aaa T a b c i j m))).
(** ccpy/cc/ccsdt.py, update_t3a, line 248 *)
Definition rccsdt_dT_aaa_3 (d : dims) (H : ints) (T U : amps) : mat6 := fun a b c i j k =>
  rccsdt_dT_aaa_2 d H T U a b c i j k + 1 / 12 * (sumn (nua d) (fun e => (rccsdt_X_a_vv_1 d H T U c e) * (x_aaa T a b e i j k))).
(** ccpy/cc/ccsdt.py, update_t3a, line 249 *)
Definition rccsdt_dT_aaa_4 (d : dims) (H : ints) (T U : amps) : mat6 := fun a b c i j k =>
  rccsdt_dT_aaa_3 d H T U a b c i j k + 1 / 24 * (sumn (noa d) (fun m => sumn (noa d) (fun n => (rccsdt_H_aa_oooo_1 d H T U m n i j) * (x_aaa T a b c m n k)))).
(** ccpy/cc/ccsdt.py, update_t3a, line 250 *)
Definition rccsdt_dT_aaa_5 (d : dims) (H : ints) (T U : amps) : mat6 := fun a b c i j k =>
  rccsdt_dT_aaa_4 d H T U a b c i j k + 1 / 24 * (sumn (nua d) (fun e => sumn (nua d) (fun f => (rccsdt_H_aa_vvvv_1 d H T U a b e f) * (x_aaa T e f c i j k)))).
(** ccpy/cc/ccsdt.py, update_t3a, line 251 *)
Definition rccsdt_dT_aaa_6 (d : dims) (H : ints) (T U : amps) : mat6 := fun a b c i j k =>
  rccsdt_dT_aaa_5 d H T U a b c i j k + 1 / 4 * (sumn (noa d) (fun m => sumn (nua d) (fun e => (rccsdt_H_aa_voov d H T U c m k e) * (x_aaa T a b e i j m)))).
(** ccpy/cc/ccsdt.py, update_t3a, line 252 *)
Definition rccsdt_dT_aaa_7 (d : dims) (H : ints) (T U : amps) : mat6 := fun a b c i j k =>
  rccsdt_dT_aaa_6 d H T U a b c i j k + 1 / 4 * (sumn (noa d) (fun m => sumn (nua d) (fun e => (rccsdt_H_ab_voov d H T U c m k e) * (x_aab T a b e i j m)))).
(** ccpy/cc/ccsdt.py, update_t3a, lines 253-259 *)
Definition rccsdt_res_aaa (d : dims) (H : ints) (T U : amps) : mat6 := fun a b c i j k =>
  rccsdt_dT_aaa_7 d H T U a b c i j k.
(** ccpy/cc/ccsdt.py, update_t3b, line 267 *)
Definition rccsdt_I2A_vvov_3 (d : dims) (H : ints) (T U : amps) : mat4 := fun a b i e =>
  (-1) / 2 * (sumn (noa d) (fun m => sumn (noa d) (fun n => sumn (nua d) (fun f => (i_aa_oovv H m n e f) * (x_aaa U a b f i m n))))).
(** ccpy/cc/ccsdt.py, update_t3b, line 268 *)
Definition rccsdt_I2A_vvov_4 (d : dims) (H : ints) (T U : amps) : mat4 := fun a b i e =>
  rccsdt_I2A_vvov_3 d H T U a b i e + (- (sumn (noa d) (fun m => sumn (noa d) (fun n => sumn (nua d) (fun f => (i_ab_oovv H m n e f) * (x_aab T a b f i m n)))))).
(** ccpy/cc/ccsdt.py, update_t3b, line 269 *)
Definition rccsdt_I2A_vvov_5 (d : dims) (H : ints) (T U : amps) : mat4 := fun a b i e =>
  rccsdt_I2A_vvov_4 d H T U a b i e + rccsdt_H_aa_vvov_1 d H T U a b i e.
(** ccpy/cc/ccsdt.py, update_t3b, line 271 *)
Definition rccsdt_I2A_vooo_4 (d : dims) (H : ints) (T U : amps) : mat4 := fun a m i j =>
  1 / 2 * (sumn (noa d) (fun n => sumn (nua d) (fun e => sumn (nua d) (fun f => (i_aa_oovv H m n e f) * (x_aaa U a e f i j n))))).
(** ccpy/cc/ccsdt.py, update_t3b, line 272 *)
Definition rccsdt_I2A_vooo_5 (d : dims) (H : ints) (T U : amps) : mat4 := fun a m i j =>
  rccsdt_I2A_vooo_4 d H T U a m i j + sumn (noa d) (fun n => sumn (nua d) (fun e => sumn (nua d) (fun f => (i_ab_oovv H m n e f) * (x_aab T a e f i j n)))).
(** ccpy/cc/ccsdt.py, update_t3b, line 273 *)
Definition rccsdt_I2A_vooo_6 (d : dims) (H : ints) (T U : amps) : mat4 := fun a m i j =>
  rccsdt_I2A_vooo_5 d H T U a m i j + (- (sumn (nua d) (fun e => (rccsdt_X_a_ov d H T U m e) * (x_aa U a e i j)))).
(** ccpy/cc/ccsdt.py, update_t3b, line 274 *)
Definition rccsdt_I2A_vooo_7 (d : dims) (H : ints) (T U : amps) : mat4 := fun a m i j =>
  rccsdt_I2A_vooo_6 d H T U a m i j + rccsdt_H_aa_vooo d H T U a m i j.
(** ccpy/cc/ccsdt.py, update_t3b, line 276 *)
Definition rccsdt_I2B_vvvo (d : dims) (H : ints) (T U : amps) : mat4 := fun a b e j =>
  (-1) / 2 * (sumn (noa d) (fun m => sumn (noa d) (fun n => sumn (nua d) (fun f => (i_aa_oovv H m n e f) * (x_aab T a f b m n j))))).
(** ccpy/cc/ccsdt.py, update_t3b, line 277 *)
Definition rccsdt_I2B_vvvo_1 (d : dims) (H : ints) (T U : amps) : mat4 := fun a b e j =>
  rccsdt_I2B_vvvo d H T U a b e j + (- (sumn (noa d) (fun m => sumn (noa d) (fun n => sumn (nua d) (fun f => (i_ab_oovv H m n e f) * (x_abb T a f b m n j)))))).
(** ccpy/cc/ccsdt.py, update_t3b, line 278 *)
Definition rccsdt_I2B_vvvo_2 (d : dims) (H : ints) (T U : amps) : mat4 := fun a b e j =>
  rccsdt_I2B_vvvo_1 d H T U a b e j + rccsdt_H_ab_vvvo d H T U a b e j.
(** ccpy/cc/ccsdt.py, update_t3b, line 280 *)
Definition rccsdt_I2B_ovoo_1 (d : dims) (H : ints) (T U : amps) : mat4 := fun m b i j =>
  1 / 2 * (sumn (noa d) (fun n => sumn (nua d) (fun e => sumn (nua d) (fun f => (i_aa_oovv H m n e f) * (x_aab T e f b i n j))))).
(** ccpy/cc/ccsdt.py, update_t3b, line 281 *)
Definition rccsdt_I2B_ovoo_2 (d : dims) (H : ints) (T U : amps) : mat4 := fun m b i j =>
  rccsdt_I2B_ovoo_1 d H T U m b i j + sumn (noa d) (fun n => sumn (nua d) (fun e => sumn (nua d) (fun f => (i_ab_oovv H m n e f) * (x_abb T e f b i n j)))).
(** ccpy/cc/ccsdt.py, update_t3b, line 282 *)
Definition rccsdt_I2B_ovoo_3 (d : dims) (H : ints) (T U : amps) : mat4 := fun m b i j =>
  rccsdt_I2B_ovoo_2 d H T U m b i j + (- (sumn (nua d) (fun e => (rccsdt_X_a_ov d H T U m e) * (x_ab U e b i j)))).
(** ccpy/cc/ccsdt.py, update_t3b, line 283 *)
Definition rccsdt_I2B_ovoo_4 (d : dims) (H : ints) (T U : amps) : mat4 := fun m b i j =>
  rccsdt_I2B_ovoo_3 d H T U m b i j + rccsdt_H_ab_ovoo d H T U m b i j.
(** ccpy/cc/ccsdt.py, update_t3b, line 285 *)
Definition rccsdt_I2B_vvov (d : dims) (H : ints) (T U : amps) : mat4 := fun a b i e =>
  (- (sumn (noa d) (fun n => sumn (noa d) (fun m => sumn (nua d) (fun f => (i_ab_oovv H n m f e) * (x_aab T a f b i n m)))))).
(** ccpy/cc/ccsdt.py, update_t3b, line 286 *)
Definition rccsdt_I2B_vvov_1 (d : dims) (H : ints) (T U : amps) : mat4 := fun a b i e =>
  rccsdt_I2B_vvov d H T U a b i e + (-1) / 2 * (sumn (noa d) (fun n => sumn (noa d) (fun m => sumn (nua d) (fun f => (i_bb_oovv H n m f e) * (x_abb T a f b i n m))))).
(** ccpy/cc/ccsdt.py, update_t3b, line 287 *)
Definition rccsdt_I2B_vvov_2 (d : dims) (H : ints) (T U : amps) : mat4 := fun a b i e =>
  rccsdt_I2B_vvov_1 d H T U a b i e + rccsdt_H_ab_vvov d H T U a b i e.
(** ccpy/cc/ccsdt.py, update_t3b, line 289 *)
Definition rccsdt_I2B_vooo_1 (d : dims) (H : ints) (T U : amps) : mat4 := fun a m i j =>
  sumn (noa d) (fun n => sumn (nua d) (fun f => sumn (nua d) (fun e => (i_ab_oovv H n m f e) * (x_aab T a f e i n j)))).
(** ccpy/cc/ccsdt.py, update_t3b, line 290 *)
Definition rccsdt_I2B_vooo_2 (d : dims) (H : ints) (T U : amps) : mat4 := fun a m i j =>
  rccsdt_I2B_vooo_1 d H T U a m i j + 1 / 2 * (sumn (noa d) (fun n => sumn (nua d) (fun f => sumn (nua d) (fun e => (i_bb_oovv H n m f e) * (x_abb T a f e i n j))))).
(** ccpy/cc/ccsdt.py, update_t3b, line 291 *)
Definition rccsdt_I2B_vooo_3 (d : dims) (H : ints) (T U : amps) : mat4 := fun a m i j =>
  rccsdt_I2B_vooo_2 d H T U a m i j + (- (sumn (nua d) (fun e => (rccsdt_X_a_ov d H T U m e) * (x_ab U a e i j)))).
(** ccpy/cc/ccsdt.py, update_t3b, line 292 *)
Definition rccsdt_I2B_vooo_4 (d : dims) (H : ints) (T U : amps) : mat4 := fun a m i j =>
  rccsdt_I2B_vooo_3 d H T U a m i j + rccsdt_H_ab_vooo d H T U a m i j.
(** ccpy/cc/ccsdt.py, update_t3b, line 295 *)
Definition rccsdt_dT_aab (d : dims) (H : ints) (T U : amps) : mat6 := fun a b c i j k =>
  1 / 2 * (sumn (nua d) (fun e => (rccsdt_I2B_vvvo_2 d H T U b c e k) * (x_aa U a e i j))).
(** ccpy/cc/ccsdt.py, update_t3b, line 296 *)
Definition rccsdt_dT_aab_1 (d : dims) (H : ints) (T U : amps) : mat6 := fun a b c i j k =>
  rccsdt_dT_aab d H T U a b c i j k - 1 / 2 * (sumn (noa d) (fun m => (rccsdt_I2B_ovoo_4 d H T U m c j k) * (x_aa U a b i m))).
(** ccpy/cc/ccsdt.py, update_t3b, line 297 *)
Definition rccsdt_dT_aab_2 (d : dims) (H : ints) (T U : amps) : mat6 := fun a b c i j k =>
  rccsdt_dT_aab_1 d H T U a b c i j k + sumn (nua d) (fun e => (rccsdt_I2B_vvov_2 d H T U a c i e) * (x_ab U b e j k)).
(** ccpy/cc/ccsdt.py, update_t3b, line 298 *)
Definition rccsdt_dT_aab_3 (d : dims) (H : ints) (T U : amps) : mat6 := fun a b c i j k =>
  rccsdt_dT_aab_2 d H T U a b c i j k - sumn (noa d) (fun m => (rccsdt_I2B_vooo_4 d H T U a m i k) * (x_ab U b c j m)).
(** ccpy/cc/ccsdt.py, update_t3b, line 299 *)
Definition rccsdt_dT_aab_4 (d : dims) (H : ints) (T U : amps) : mat6 := fun a b c i j k =>
  rccsdt_dT_aab_3 d H T U a b c i j k + 1 / 2 * (sumn (nua d) (fun e => (rccsdt_I2A_vvov_5 d H T U a b i e) * (x_ab U e c j k))).
(** ccpy/cc/ccsdt.py, update_t3b, line 300 *)
Definition rccsdt_dT_aab_5 (d : dims) (H : ints) (T U : amps) : mat6 := fun a b c i j k =>
  rccsdt_dT_aab_4 d H T U a b c i j k - 1 / 2 * (sumn (noa d) (fun m => (rccsdt_I2A_vooo_7 d H T U a m i j) * (x_ab U b c m k))).
(** ccpy/cc/ccsdt.py, update_t3b, line 302 *)
Definition rccsdt_dT_aab_6 (d : dims) (H : ints) (T U : amps) : mat6 := fun a b c i j k =>
  rccsdt_dT_aab_5 d H T U a b c i j k - 1 / 2 * (sumn (noa d) (fun m => (rccsdt_X_a_oo d H T U m i) * (x_aab T a b c m j k))).
(** ccpy/cc/ccsdt.py, update_t3b, line 303 *)
Definition rccsdt_dT_aab_7 (d : dims) (H : ints) (T U : amps) : mat6 := fun a b c i j k =>
  rccsdt_dT_aab_6 d H T U a b c i j k - 1 / 4 * (sumn (noa d) (fun m => (rccsdt_X_a_oo d H T U m k) * (x_aab T a b c i j m))).
(** ccpy/cc/ccsdt.py, update_t3b, line 304 *)
Definition rccsdt_dT_aab_8 (d : dims) (H : ints) (T U : amps) : mat6 := fun a b c i j k =>
  rccsdt_dT_aab_7 d H T U a b c i j k + 1 / 2 * (sumn (nua d) (fun e => (rccsdt_X_a_vv_1 d H T U a e) * (x_aab T e b c i j k))).
(** ccpy/cc/ccsdt.py, update_t3b, line 305 *)
Definition rccsdt_dT_aab_9 (d : dims) (H : ints) (T U : amps) : mat6 := fun a b c i j k =>
  rccsdt_dT_aab_8 d H T U a b c i j k + 1 / 4 * (sumn (nua d) (fun e => (rccsdt_X_a_vv_1 d H T U c e) * (x_aab T a b e i j k))).
(** ccpy/cc/ccsdt.py, update_t3b, line 306 *)
Definition rccsdt_dT_aab_10 (d : dims) (H : ints) (T U : amps) : mat6 := fun a b c i j k =>
  rccsdt_dT_aab_9 d H T U a b c i j k + 1 / 8 * (sumn (noa d) (fun m => sumn (noa d) (fun n => (rccsdt_H_aa_oooo_1 d H T U m n i j) * (x_aab T a b c m n k)))).
(** ccpy/cc/ccsdt.py, update_t3b, line 307 *)
Definition rccsdt_dT_aab_11 (d : dims) (H : ints) (T U : amps) : mat6 := fun a b c i j k =>
  rccsdt_dT_aab_10 d H T U a b c i j k + 1 / 2 * (sumn (noa d) (fun m => sumn (noa d) (fun n => (rccsdt_H_ab_oooo d H T U m n j k) * (x_aab T a b c i m n)))).
(** ccpy/cc/ccsdt.py, update_t3b, line 308 *)
Definition rccsdt_dT_aab_12 (d : dims) (H : ints) (T U : amps) : mat6 := fun a b c i j k =>
  rccsdt_dT_aab_11 d H T U a b c i j k + 1 / 8 * (sumn (nua d) (fun e => sumn (nua d) (fun f => (rccsdt_H_aa_vvvv_1 d H T U a b e f) * (x_aab T e f c i j k)))).
(** ccpy/cc/ccsdt.py, update_t3b, line 309 *)
Definition rccsdt_dT_aab_13 (d : dims) (H : ints) (T U : amps) : mat6 := fun a b c i j k =>
  rccsdt_dT_aab_12 d H T U a b c i j k + 1 / 2 * (sumn (nua d) (fun e => sumn (nua d) (fun f => (rccsdt_H_ab_vvvv d H T U b c e f) * (x_aab T a e f i j k)))).
(** ccpy/cc/ccsdt.py, update_t3b, line 310 *)
Definition rccsdt_dT_aab_14 (d : dims) (H : ints) (T U : amps) : mat6 := fun a b c i j k =>
  rccsdt_dT_aab_13 d H T U a b c i j k + sumn (noa d) (fun m => sumn (nua d) (fun e => (rccsdt_H_aa_voov d H T U a m i e) * (x_aab T e b c m j k))).
(** ccpy/cc/ccsdt.py, update_t3b, line 311 *)
Definition rccsdt_dT_aab_15 (d : dims) (H : ints) (T U : amps) : mat6 := fun a b c i j k =>
  rccsdt_dT_aab_14 d H T U a b c i j k + sumn (noa d) (fun m => sumn (nua d) (fun e => (rccsdt_H_ab_voov d H T U a m i e) * (x_abb T b e c j m k))).
(** ccpy/cc/ccsdt.py, update_t3b, line 312 *)
Definition rccsdt_dT_aab_16 (d : dims) (H : ints) (T U : amps) : mat6 := fun a b c i j k =>
  rccsdt_dT_aab_15 d H T U a b c i j k + 1 / 4 * (sumn (noa d) (fun m => sumn (nua d) (fun e => (rccsdt_H_ab_ovvo d H T U m c e k) * (x_aaa U a b e i j m)))).
(** ccpy/cc/ccsdt.py, update_t3b, line 313 *)
Definition rccsdt_dT_aab_17 (d : dims) (H : ints) (T U : amps) : mat6 := fun a b c i j k =>
  rccsdt_dT_aab_16 d H T U a b c i j k + 1 / 4 * (sumn (noa d) (fun m => sumn (nua d) (fun e => (rccsdt_H_aa_voov d H T U c m k e) * (x_aab T a b e i j m)))).
(** ccpy/cc/ccsdt.py, update_t3b, line 314 *)
Definition rccsdt_dT_aab_18 (d : dims) (H : ints) (T U : amps) : mat6 := fun a b c i j k =>
  rccsdt_dT_aab_17 d H T U a b c i j k - 1 / 2 * (sumn (noa d) (fun m => sumn (nua d) (fun e => (rccsdt_H_ab_vovo d H T U a m e k) * (x_aab T e b c i j m)))).
(** ccpy/cc/ccsdt.py, update_t3b, line 315 *)
Definition rccsdt_dT_aab_19 (d : dims) (H : ints) (T U : amps) : mat6 := fun a b c i j k =>
  rccsdt_dT_aab_18 d H T U a b c i j k - 1 / 2 * (sumn (noa d) (fun m => sumn (nua d) (fun e => (rccsdt_H_ab_ovov d H T U m c i e) * (x_aab T a b e m j k)))).
(** ccpy/cc/ccsdt.py, update_t3b, lines 316-324 *)
Definition rccsdt_res_aab (d : dims) (H : ints) (T U : amps) : mat6 := fun a b c i j k =>
  rccsdt_dT_aab_19 d H T U a b c i j k.
(** ccpy/cc/ccsdt.py, update, line 43 *)
Definition rccsdt_T_abb (d : dims) (H : ints) (T U : amps) : mat6 := fun a b c i j k =>
  x_aab U c b a k j i.
(** ccpy/cc/ccsdt.py, update, line 44 *)
Definition rccsdt_dT_abb (d : dims) (H : ints) (T U : amps) : mat6 := fun a b c i j k =>
  rccsdt_res_aab d H T U c b a k j i.
(** ccpy/cc/ccsdt.py, update, line 45 *)
Definition rccsdt_T_bbb (d : dims) (H : ints) (T U : amps) : mat6 := fun a b c i j k =>
  x_aaa U a b c i j k.
(** ccpy/cc/ccsdt.py, update, line 46 *)
Definition rccsdt_dT_bbb (d : dims) (H : ints) (T U : amps) : mat6 := fun a b c i j k =>
  rccsdt_res_aaa d H T U a b c i j k.
(** ccsdt.py, update, flag_RHF = True: the amplitudes on return, U the amplitudes the loops have written *)
Definition rccsdt_T (d : dims) (H : ints) (T U : amps) : amps := mkAmps (x_a U) (rccsdt_T_b d H T U) (x_aa U) (x_ab U) (rccsdt_T_bb d H T U) (x_aaa U) (x_aab U) (rccsdt_T_abb d H T U) (rccsdt_T_bbb d H T U).
(** ccpy/hbar/hbar_ccsdt.py, build_hbar_ccsdt, lines 8-11 *)
Definition rhb3_H_a_ov (d : dims) (H : ints) (T : amps) : mat2 := fun i a =>
  i_a_ov H i a + (sumn (noa d) (fun m => sumn (nua d) (fun e => (i_aa_oovv H i m a e) * (x_a T e m))) + sumn (noa d) (fun m => sumn (nua d) (fun e => (i_ab_oovv H i m a e) * (x_b T e m)))).
(** ccpy/hbar/hbar_ccsdt.py, build_hbar_ccsdt, lines 13-19 *)
Definition rhb3_H_a_oo (d : dims) (H : ints) (T : amps) : mat2 := fun i j =>
  i_a_oo H i j + (sumn (nua d) (fun e => (rhb3_H_a_ov d H T i e) * (x_a T e j)) + sumn (noa d) (fun m => sumn (nua d) (fun e => (i_aa_ooov H i m j e) * (x_a T e m))) + sumn (noa d) (fun m => sumn (nua d) (fun e => (i_ab_ooov H i m j e) * (x_b T e m))) + 1 / 2 * (sumn (noa d) (fun n => sumn (nua d) (fun e => sumn (nua d) (fun f => (i_aa_oovv H i n e f) * (x_aa T e f j n))))) + sumn (noa d) (fun n => sumn (nua d) (fun e => sumn (nua d) (fun f => (i_ab_oovv H i n e f) * (x_ab T e f j n))))).
(** ccpy/hbar/hbar_ccsdt.py, build_hbar_ccsdt, lines 21-27 *)
Definition rhb3_H_a_vv (d : dims) (H : ints) (T : amps) : mat2 := fun a b =>
  i_a_vv H a b + ((- (sumn (noa d) (fun m => (rhb3_H_a_ov d H T m b) * (x_a T a m)))) + sumn (noa d) (fun m => sumn (nua d) (fun e => (i_aa_vovv H a m b e) * (x_a T e m))) + sumn (noa d) (fun m => sumn (nua d) (fun e => (i_ab_vovv H a m b e) * (x_b T e m))) - 1 / 2 * (sumn (noa d) (fun m => sumn (noa d) (fun n => sumn (nua d) (fun f => (i_aa_oovv H m n b f) * (x_aa T a f m n))))) - sumn (noa d) (fun m => sumn (noa d) (fun n => sumn (nua d) (fun f => (i_ab_oovv H m n b f) * (x_ab T a f m n))))).
(** ccpy/hbar/hbar_ccsdt.py, build_hbar_ccsdt, lines 29-32 *)
Definition rhb3_H_b_ov (d : dims) (H : ints) (T : amps) : mat2 := fun i a =>
  i_b_ov H i a + (sumn (noa d) (fun m => sumn (nua d) (fun e => (i_bb_oovv H i m a e) * (x_b T e m))) + sumn (noa d) (fun m => sumn (nua d) (fun e => (i_ab_oovv H m i e a) * (x_a T e m)))).
(** ccpy/hbar/hbar_ccsdt.py, build_hbar_ccsdt, lines 34-40 *)
Definition rhb3_H_b_oo (d : dims) (H : ints) (T : amps) : mat2 := fun i j =>
  i_b_oo H i j + (sumn (nua d) (fun e => (rhb3_H_b_ov d H T i e) * (x_b T e j)) + sumn (noa d) (fun m => sumn (nua d) (fun e => (i_bb_ooov H i m j e) * (x_b T e m))) + sumn (noa d) (fun m => sumn (nua d) (fun e => (i_ab_oovo H m i e j) * (x_a T e m))) + 1 / 2 * (sumn (noa d) (fun n => sumn (nua d) (fun e => sumn (nua d) (fun f => (i_bb_oovv H i n e f) * (x_bb T e f j n))))) + sumn (noa d) (fun n => sumn (nua d) (fun f => sumn (nua d) (fun e => (i_ab_oovv H n i f e) * (x_ab T f e n j))))).
(** ccpy/hbar/hbar_ccsdt.py, build_hbar_ccsdt, lines 42-48 *)
Definition rhb3_H_b_vv (d : dims) (H : ints) (T : amps) : mat2 := fun a b =>
  i_b_vv H a b + ((- (sumn (noa d) (fun m => (rhb3_H_b_ov d H T m b) * (x_b T a m)))) + sumn (noa d) (fun m => sumn (nua d) (fun e => (i_bb_vovv H a m b e) * (x_b T e m))) + sumn (noa d) (fun m => sumn (nua d) (fun e => (i_ab_ovvv H m a e b) * (x_a T e m))) - 1 / 2 * (sumn (noa d) (fun m => sumn (noa d) (fun n => sumn (nua d) (fun f => (i_bb_oovv H m n b f) * (x_bb T a f m n))))) - sumn (noa d) (fun n => sumn (noa d) (fun m => sumn (nua d) (fun f => (i_ab_oovv H n m f b) * (x_ab T f a n m))))).
(** ccpy/hbar/hbar_ccsdt.py, build_hbar_ccsdt, line 52 *)
Definition rhb3_tau_aa (d : dims) (H : ints) (T : amps) : mat4 := fun a b i j =>
  1 / 2 * (x_aa T a b i j) + (x_a T a i) * (x_a T b j).
(** ccpy/hbar/hbar_ccsdt.py, build_hbar_ccsdt, line 53 *)
Definition rhb3_tau_aa_1 (d : dims) (H : ints) (T : amps) : mat4 := fun a b i j =>
  rhb3_tau_aa d H T a b i j - rhb3_tau_aa d H T a b j i.
(** ccpy/hbar/hbar_ccsdt.py, build_hbar_ccsdt, line 59 *)
Definition rhb3_tau_ab (d : dims) (H : ints) (T : amps) : mat4 := fun a b i j =>
  x_ab T a b i j + (x_a T a i) * (x_b T b j).
(** ccpy/hbar/hbar_ccsdt.py, build_hbar_ccsdt, lines 65-69 *)
Definition rhb3_H_aa_oooo (d : dims) (H : ints) (T : amps) : mat4 := fun m n i j =>
  1 / 2 * (i_aa_oooo H m n i j) + sumn (nua d) (fun e => (i_aa_ooov H n m j e) * (x_a T e i)) + 1 / 4 * (sumn (nua d) (fun e => sumn (nua d) (fun f => (i_aa_oovv H m n e f) * (rhb3_tau_aa_1 d H T e f i j)))).
(** ccpy/hbar/hbar_ccsdt.py, build_hbar_ccsdt, line 70 *)
Definition rhb3_H_aa_oooo_1 (d : dims) (H : ints) (T : amps) : mat4 := fun m n i j =>
  rhb3_H_aa_oooo d H T m n i j - rhb3_H_aa_oooo d H T m n j i.
(** ccpy/hbar/hbar_ccsdt.py, build_hbar_ccsdt, lines 80-85 *)
Definition rhb3_H_ab_oooo (d : dims) (H : ints) (T : amps) : mat4 := fun m n i j =>
  i_ab_oooo H m n i j + sumn (nua d) (fun e => (i_ab_oovo H m n e j) * (x_a T e i)) + sumn (nua d) (fun e => (i_ab_ooov H m n i e) * (x_b T e j)) + sumn (nua d) (fun e => sumn (nua d) (fun f => (i_ab_oovv H m n e f) * (rhb3_tau_ab d H T e f i j))).
(** ccpy/hbar/hbar_ccsdt.py, build_hbar_ccsdt, line 91 *)
Definition rhb3_H_aa_ooov (d : dims) (H : ints) (T : amps) : mat4 := fun i j k a =>
  i_aa_ooov H i j k a + sumn (nua d) (fun f => (i_aa_oovv H i j f a) * (x_a T f k)).
(** ccpy/hbar/hbar_ccsdt.py, build_hbar_ccsdt, line 96 *)
Definition rhb3_H_ab_ooov (d : dims) (H : ints) (T : amps) : mat4 := fun i j k a =>
  i_ab_ooov H i j k a + sumn (nua d) (fun f => (i_ab_oovv H i j f a) * (x_a T f k)).
(** ccpy/hbar/hbar_ccsdt.py, build_hbar_ccsdt, line 97 *)
Definition rhb3_H_ab_oovo (d : dims) (H : ints) (T : amps) : mat4 := fun i j a k =>
  i_ab_oovo H i j a k + sumn (nua d) (fun f => (i_ab_oovv H i j a f) * (x_b T f k)).
(** ccpy/hbar/hbar_ccsdt.py, build_hbar_ccsdt, lines 103-106 *)
Definition rhb3_Q1 (d : dims) (H : ints) (T : amps) : mat4 := fun a m i j =>
  sumn (noa d) (fun n => sumn (nua d) (fun f => (rhb3_H_aa_ooov d H T m n j f) * (x_aa T a f i n))) + sumn (noa d) (fun n => sumn (nua d) (fun f => (rhb3_H_ab_ooov d H T m n j f) * (x_ab T a f i n))).
(** ccpy/hbar/hbar_ccsdt.py, build_hbar_ccsdt, line 107 *)
Definition rhb3_Q2 (d : dims) (H : ints) (T : amps) : mat4 := fun a m i f =>
  i_aa_voov H a m i f + 1 / 2 * (sumn (nua d) (fun e => (i_aa_vovv H a m e f) * (x_a T e i))).
(** ccpy/hbar/hbar_ccsdt.py, build_hbar_ccsdt, line 108 *)
Definition rhb3_Q2_1 (d : dims) (H : ints) (T : amps) : mat4 := fun a m i j =>
  sumn (nua d) (fun f => (rhb3_Q2 d H T a m i f) * (x_a T f j)).
(** ccpy/hbar/hbar_ccsdt.py, build_hbar_ccsdt, line 109 *)
Definition rhb3_Q1_1 (d : dims) (H : ints) (T : amps) : mat4 := fun a m i j =>
  rhb3_Q1 d H T a m i j + rhb3_Q2_1 d H T a m i j.
(** ccpy/hbar/hbar_ccsdt.py, build_hbar_ccsdt, line 110 *)
Definition rhb3_Q1_2 (d : dims) (H : ints) (T : amps) : mat4 := fun a m i j =>
  rhb3_Q1_1 d H T a m i j - rhb3_Q1_1 d H T a m j i.
(** ccpy/hbar/hbar_ccsdt.py, build_hbar_ccsdt, lines 111-117 *)
Definition rhb3_H_aa_vooo (d : dims) (H : ints) (T : amps) : mat4 := fun a m i j =>
  i_aa_vooo H a m i j + rhb3_Q1_2 d H T a m i j + (sumn (nua d) (fun e => (rhb3_H_a_ov d H T m e) * (x_aa T a e i j)) - sumn (noa d) (fun n => (rhb3_H_aa_oooo_1 d H T n m i j) * (x_a T a n)) + 1 / 2 * (sumn (nua d) (fun e => sumn (nua d) (fun f => (i_aa_vovv H a m e f) * (x_aa T e f i j)))) + 1 / 2 * (sumn (noa d) (fun n => sumn (nua d) (fun e => sumn (nua d) (fun f => (i_aa_oovv H m n e f) * (x_aaa T a e f i j n))))) + sumn (noa d) (fun n => sumn (nua d) (fun e => sumn (nua d) (fun f => (i_ab_oovv H m n e f) * (x_aab T a e f i j n))))).
(** ccpy/hbar/hbar_ccsdt.py, build_hbar_ccsdt, line 136 *)
Definition rhb3_Q1_3 (d : dims) (H : ints) (T : amps) : mat4 := fun a m i e =>
  i_ab_voov H a m i e + sumn (nua d) (fun f => (i_ab_vovv H a m f e) * (x_a T f i)).
(** ccpy/hbar/hbar_ccsdt.py, build_hbar_ccsdt, lines 137-148 *)
Definition rhb3_H_ab_vooo (d : dims) (H : ints) (T : amps) : mat4 := fun a m i j =>
  i_ab_vooo H a m i j + (sumn (nua d) (fun e => (rhb3_H_b_ov d H T m e) * (x_ab T a e i j)) - sumn (noa d) (fun n => (rhb3_H_ab_oooo d H T n m i j) * (x_a T a n)) + sumn (noa d) (fun n => sumn (nua d) (fun f => (rhb3_H_aa_ooov d H T m n j f) * (x_ab T a f i n))) + sumn (noa d) (fun n => sumn (nua d) (fun f => (rhb3_H_ab_oovo d H T n m f j) * (x_aa T a f i n))) - sumn (noa d) (fun n => sumn (nua d) (fun f => (rhb3_H_ab_ooov d H T n m i f) * (x_ab T a f n j))) + sumn (nua d) (fun e => (i_ab_vovo H a m e j) * (x_a T e i)) + sumn (nua d) (fun e => (rhb3_Q1_3 d H T a m i e) * (x_b T e j)) + sumn (nua d) (fun e => sumn (nua d) (fun f => (i_ab_vovv H a m e f) * (x_ab T e f i j))) + sumn (noa d) (fun n => sumn (nua d) (fun f => sumn (nua d) (fun e => (i_ab_oovv H n m f e) * (x_aab T a f e i n j)))) + 1 / 2 * (sumn (noa d) (fun n => sumn (nua d) (fun e => sumn (nua d) (fun f => (i_bb_oovv H m n e f) * (x_abb T a e f i j n)))))).
(** ccpy/hbar/hbar_ccsdt.py, build_hbar_ccsdt, line 149 *)
Definition rhb3_Q1_4 (d : dims) (H : ints) (T : amps) : mat4 := fun m a j e =>
  i_ab_ovov H m a j e + sumn (nua d) (fun f => (i_ab_ovvv H m a f e) * (x_a T f j)).
(** ccpy/hbar/hbar_ccsdt.py, build_hbar_ccsdt, lines 150-161 *)
Definition rhb3_H_ab_ovoo (d : dims) (H : ints) (T : amps) : mat4 := fun m a j i =>
  i_ab_ovoo H m a j i + (sumn (nua d) (fun e => (rhb3_H_a_ov d H T m e) * (x_ab T e a j i)) - sumn (noa d) (fun n => (rhb3_H_ab_oooo d H T m n j i) * (x_b T a n)) + sumn (noa d) (fun n => sumn (nua d) (fun f => (rhb3_H_aa_ooov d H T m n j f) * (x_ab T f a n i))) + sumn (noa d) (fun n => sumn (nua d) (fun f => (rhb3_H_ab_ooov d H T m n j f) * (x_bb T f a n i))) - sumn (noa d) (fun n => sumn (nua d) (fun f => (rhb3_H_ab_oovo d H T m n f i) * (x_ab T f a j n))) + sumn (nua d) (fun e => (rhb3_Q1_4 d H T m a j e) * (x_b T e i)) + sumn (nua d) (fun e => (i_ab_ovvo H m a e i) * (x_a T e j)) + sumn (nua d) (fun f => sumn (nua d) (fun e => (i_ab_ovvv H m a f e) * (x_ab T f e j i))) + 1 / 2 * (sumn (noa d) (fun n => sumn (nua d) (fun e => sumn (nua d) (fun f => (i_aa_oovv H m n e f) * (x_aab T e f a j n i))))) + sumn (noa d) (fun n => sumn (nua d) (fun e => sumn (nua d) (fun f => (i_ab_oovv H m n e f) * (x_abb T e f a j n i))))).
(** ccpy/hbar/hbar_ccsdt.py, build_hbar_ccsdt, lines 167-173 *)
Definition rhb3_H_aa_voov (d : dims) (H : ints) (T : amps) : mat4 := fun a m i e =>
  i_aa_voov H a m i e + sumn (nua d) (fun f => (i_aa_vovv H a m f e) * (x_a T f i)) - sumn (noa d) (fun n => (rhb3_H_aa_ooov d H T n m i e) * (x_a T a n)) + sumn (noa d) (fun n => sumn (nua d) (fun f => (i_aa_oovv H n m f e) * (x_aa T a f i n))) + sumn (noa d) (fun n => sumn (nua d) (fun f => (i_ab_oovv H m n e f) * (x_ab T a f i n))).
(** ccpy/hbar/hbar_ccsdt.py, build_hbar_ccsdt, lines 184-190 *)
Definition rhb3_H_ab_voov (d : dims) (H : ints) (T : amps) : mat4 := fun a m i e =>
  i_ab_voov H a m i e + sumn (nua d) (fun f => (i_ab_vovv H a m f e) * (x_a T f i)) - sumn (noa d) (fun n => (rhb3_H_ab_ooov d H T n m i e) * (x_a T a n)) + sumn (noa d) (fun n => sumn (nua d) (fun f => (i_ab_oovv H n m f e) * (x_aa T a f i n))) + sumn (noa d) (fun n => sumn (nua d) (fun f => (i_bb_oovv H n m f e) * (x_ab T a f i n))).
(** ccpy/hbar/hbar_ccsdt.py, build_hbar_ccsdt, lines 191-197 *)
Definition rhb3_H_ab_ovvo (d : dims) (H : ints) (T : amps) : mat4 := fun m a e i =>
  i_ab_ovvo H m a e i + sumn (nua d) (fun f => (i_ab_ovvv H m a e f) * (x_b T f i)) - sumn (noa d) (fun n => (rhb3_H_ab_oovo d H T m n e i) * (x_b T a n)) + sumn (noa d) (fun n => sumn (nua d) (fun f => (i_ab_oovv H m n e f) * (x_bb T a f i n))) + sumn (noa d) (fun n => sumn (nua d) (fun f => (i_aa_oovv H m n e f) * (x_ab T f a n i))).
(** ccpy/hbar/hbar_ccsdt.py, build_hbar_ccsdt, lines 198-203 *)
Definition rhb3_H_ab_ovov (d : dims) (H : ints) (T : amps) : mat4 := fun m a i e =>
  i_ab_ovov H m a i e + sumn (nua d) (fun f => (i_ab_ovvv H m a f e) * (x_a T f i)) - sumn (noa d) (fun n => (rhb3_H_ab_ooov d H T m n i e) * (x_b T a n)) - sumn (noa d) (fun n => sumn (nua d) (fun f => (i_ab_oovv H m n f e) * (x_ab T f a i n))).
(** ccpy/hbar/hbar_ccsdt.py, build_hbar_ccsdt, lines 204-209 *)
Definition rhb3_H_ab_vovo (d : dims) (H : ints) (T : amps) : mat4 := fun a m e i =>
  i_ab_vovo H a m e i - sumn (noa d) (fun n => (rhb3_H_ab_oovo d H T n m e i) * (x_a T a n)) + sumn (nua d) (fun f => (i_ab_vovv H a m e f) * (x_b T f i)) - sumn (noa d) (fun n => sumn (nua d) (fun f => (i_ab_oovv H n m e f) * (x_ab T a f n i))).
(** ccpy/hbar/hbar_ccsdt.py, build_hbar_ccsdt, line 215 *)
Definition rhb3_x2a_voov (d : dims) (H : ints) (T : amps) : mat4 := fun a m i e =>
  rhb3_H_aa_voov d H T a m i e + 1 / 2 * (sumn (noa d) (fun n => (rhb3_H_aa_ooov d H T n m i e) * (x_a T a n))).
(** ccpy/hbar/hbar_ccsdt.py, build_hbar_ccsdt, lines 216-227 *)
Definition rhb3_H_aa_vvov (d : dims) (H : ints) (T : amps) : mat4 := fun a b i e =>
  1 / 2 * (i_aa_vvov H a b i e) - 1 / 2 * (sumn (noa d) (fun m => (rhb3_H_a_ov d H T m e) * (x_aa T a b i m))) - sumn (noa d) (fun m => (rhb3_x2a_voov d H T a m i e) * (x_a T b m)) + 1 / 4 * (sumn (noa d) (fun m => sumn (noa d) (fun n => (rhb3_H_aa_ooov d H T m n i e) * (x_aa T a b m n)))) + 1 / 2 * (sumn (nua d) (fun f => (i_aa_vvvv H a b f e) * (x_a T f i))) + sumn (noa d) (fun n => sumn (nua d) (fun f => (i_aa_vovv H b n e f) * (x_aa T a f i n))) + sumn (noa d) (fun n => sumn (nua d) (fun f => (i_ab_vovv H b n e f) * (x_ab T a f i n))) - 1 / 4 * (sumn (noa d) (fun m => sumn (noa d) (fun n => sumn (nua d) (fun f => (i_aa_oovv H m n e f) * (x_aaa T a b f i m n))))) - 1 / 2 * (sumn (noa d) (fun m => sumn (noa d) (fun n => sumn (nua d) (fun f => (i_ab_oovv H m n e f) * (x_aab T a b f i m n))))).
(** ccpy/hbar/hbar_ccsdt.py, build_hbar_ccsdt, line 228 *)
Definition rhb3_H_aa_vvov_1 (d : dims) (H : ints) (T : amps) : mat4 := fun a b i e =>
  rhb3_H_aa_vvov d H T a b i e - rhb3_H_aa_vvov d H T b a i e.
(** ccpy/hbar/hbar_ccsdt.py, build_hbar_ccsdt, line 248 *)
Definition rhb3_x2b_voov (d : dims) (H : ints) (T : amps) : mat4 := fun a m i e =>
  rhb3_H_ab_voov d H T a m i e + 1 / 2 * (sumn (noa d) (fun n => (rhb3_H_ab_ooov d H T n m i e) * (x_a T a n))).
(** ccpy/hbar/hbar_ccsdt.py, build_hbar_ccsdt, line 249 *)
Definition rhb3_x2b_ovov (d : dims) (H : ints) (T : amps) : mat4 := fun m a i e =>
  rhb3_H_ab_ovov d H T m a i e + 1 / 2 * (sumn (noa d) (fun m' => (rhb3_H_ab_ooov d H T m m' i e) * (x_b T a m'))).
(** ccpy/hbar/hbar_ccsdt.py, build_hbar_ccsdt, lines 250-263 *)
Definition rhb3_H_ab_vvov (d : dims) (H : ints) (T : amps) : mat4 := fun a b i e =>
  i_ab_vvov H a b i e - sumn (noa d) (fun m => (rhb3_H_b_ov d H T m e) * (x_ab T a b i m)) - sumn (noa d) (fun m => (rhb3_x2b_voov d H T a m i e) * (x_b T b m)) - sumn (noa d) (fun m => (rhb3_x2b_ovov d H T m b i e) * (x_a T a m)) + sumn (noa d) (fun n => sumn (noa d) (fun m => (rhb3_H_ab_ooov d H T n m i e) * (x_ab T a b n m))) + sumn (nua d) (fun f => (i_ab_vvvv H a b f e) * (x_a T f i)) + sumn (noa d) (fun m => sumn (nua d) (fun f => (i_ab_ovvv H m b f e) * (x_aa T a f i m))) + sumn (noa d) (fun m => sumn (nua d) (fun f => (i_bb_vovv H b m e f) * (x_ab T a f i m))) - sumn (noa d) (fun m => sumn (nua d) (fun f => (i_ab_vovv H a m f e) * (x_ab T f b i m))) - sumn (noa d) (fun n => sumn (noa d) (fun m => sumn (nua d) (fun f => (i_ab_oovv H n m f e) * (x_aab T a f b i n m)))) - 1 / 2 * (sumn (noa d) (fun m => sumn (noa d) (fun n => sumn (nua d) (fun f => (i_bb_oovv H m n e f) * (x_abb T a f b i n m))))).
(** ccpy/hbar/hbar_ccsdt.py, build_hbar_ccsdt, line 264 *)
Definition rhb3_x2b_ovvo (d : dims) (H : ints) (T : amps) : mat4 := fun m a e i =>
  rhb3_H_ab_ovvo d H T m a e i + 1 / 2 * (sumn (noa d) (fun m' => (rhb3_H_ab_oovo d H T m m' e i) * (x_b T a m'))).
(** ccpy/hbar/hbar_ccsdt.py, build_hbar_ccsdt, line 265 *)
Definition rhb3_x2b_vovo (d : dims) (H : ints) (T : amps) : mat4 := fun a m e i =>
  rhb3_H_ab_vovo d H T a m e i + 1 / 2 * (sumn (noa d) (fun n => (rhb3_H_ab_oovo d H T n m e i) * (x_a T a n))).
(** ccpy/hbar/hbar_ccsdt.py, build_hbar_ccsdt, lines 266-279 *)
Definition rhb3_H_ab_vvvo (d : dims) (H : ints) (T : amps) : mat4 := fun b a e i =>
  i_ab_vvvo H b a e i - sumn (noa d) (fun m => (rhb3_H_a_ov d H T m e) * (x_ab T b a m i)) - sumn (noa d) (fun m => (rhb3_x2b_ovvo d H T m a e i) * (x_a T b m)) - sumn (noa d) (fun m => (rhb3_x2b_vovo d H T b m e i) * (x_b T a m)) + sumn (noa d) (fun n => sumn (noa d) (fun m => (rhb3_H_ab_oovo d H T n m e i) * (x_ab T b a n m))) + sumn (nua d) (fun f => (i_ab_vvvv H b a e f) * (x_b T f i)) + sumn (noa d) (fun m => sumn (nua d) (fun f => (i_ab_vovv H b m e f) * (x_bb T a f i m))) + sumn (noa d) (fun m => sumn (nua d) (fun f => (i_aa_vovv H b m e f) * (x_ab T f a m i))) - sumn (noa d) (fun m => sumn (nua d) (fun f => (i_ab_ovvv H m a e f) * (x_ab T b f m i))) - 1 / 2 * (sumn (noa d) (fun m => sumn (noa d) (fun n => sumn (nua d) (fun f => (i_aa_oovv H m n e f) * (x_aab T b f a m n i))))) - sumn (noa d) (fun m => sumn (noa d) (fun n => sumn (nua d) (fun f => (i_ab_oovv H m n e f) * (x_abb T b f a m n i)))).
(** ccpy/hbar/hbar_ccsdt.py, build_hbar_ccsdt, lines 285-289 *)
Definition rhb3_H_aa_vvvv (d : dims) (H : ints) (T : amps) : mat4 := fun a b e f =>
  1 / 2 * (i_aa_vvvv H a b e f) + 1 / 4 * (sumn (noa d) (fun m => sumn (noa d) (fun n => (i_aa_oovv H m n e f) * (rhb3_tau_aa_1 d H T a b m n)))) - sumn (noa d) (fun m => (i_aa_vovv H a m e f) * (x_a T b m)).
(** ccpy/hbar/hbar_ccsdt.py, build_hbar_ccsdt, line 290 *)
Definition rhb3_H_aa_vvvv_1 (d : dims) (H : ints) (T : amps) : mat4 := fun a b e f =>
  rhb3_H_aa_vvvv d H T a b e f - rhb3_H_aa_vvvv d H T b a e f.
(** ccpy/hbar/hbar_ccsdt.py, build_hbar_ccsdt, lines 300-305 *)
Definition rhb3_H_ab_vvvv (d : dims) (H : ints) (T : amps) : mat4 := fun a b e f =>
  i_ab_vvvv H a b e f - sumn (noa d) (fun m => (i_ab_ovvv H m b e f) * (x_a T a m)) - sumn (noa d) (fun m => (i_ab_vovv H a m e f) * (x_b T b m)) + sumn (noa d) (fun m => sumn (noa d) (fun n => (i_ab_oovv H m n e f) * (rhb3_tau_ab d H T a b m n))).
(** ccpy/hbar/hbar_ccsdt.py, build_hbar_ccsdt, line 311 *)
Definition rhb3_H_aa_vovv (d : dims) (H : ints) (T : amps) : mat4 := fun a i b c =>
  i_aa_vovv H a i b c - sumn (noa d) (fun n => (i_aa_oovv H i n c b) * (x_a T a n)).
(** ccpy/hbar/hbar_ccsdt.py, build_hbar_ccsdt, line 316 *)
Definition rhb3_H_ab_vovv (d : dims) (H : ints) (T : amps) : mat4 := fun a i b c =>
  i_ab_vovv H a i b c - sumn (noa d) (fun n => (i_ab_oovv H n i b c) * (x_a T a n)).
(** ccpy/hbar/hbar_ccsdt.py, build_hbar_ccsdt, line 317 *)
Definition rhb3_H_ab_ovvv (d : dims) (H : ints) (T : amps) : mat4 := fun i a b c =>
  i_ab_ovvv H i a b c - sumn (noa d) (fun n => (i_ab_oovv H i n b c) * (x_b T a n)).
(** hbar_ccsdt.py, build_hbar_ccsdt, RHF_symmetry = True: all blocks when the function returns *)
Definition rhbar_ccsdt (d : dims) (H : ints) (T : amps) : ints := mkInts (rhb3_H_a_oo d H T) (rhb3_H_a_ov d H T) (i_a_vo H) (rhb3_H_a_vv d H T) (rhb3_H_b_oo d H T) (rhb3_H_b_ov d H T) (i_b_vo H) (rhb3_H_b_vv d H T) (rhb3_H_aa_oooo_1 d H T) (rhb3_H_aa_ooov d H T) (i_aa_oovo H) (i_aa_oovv H) (i_aa_ovoo H) (i_aa_ovov H) (i_aa_ovvo H) (i_aa_ovvv H) (rhb3_H_aa_vooo d H T) (rhb3_H_aa_voov d H T) (i_aa_vovo H) (rhb3_H_aa_vovv d H T) (i_aa_vvoo H) (rhb3_H_aa_vvov_1 d H T) (i_aa_vvvo H) (rhb3_H_aa_vvvv_1 d H T) (rhb3_H_ab_oooo d H T) (rhb3_H_ab_ooov d H T) (rhb3_H_ab_oovo d H T) (i_ab_oovv H) (rhb3_H_ab_ovoo d H T) (rhb3_H_ab_ovov d H T) (rhb3_H_ab_ovvo d H T) (rhb3_H_ab_ovvv d H T) (rhb3_H_ab_vooo d H T) (rhb3_H_ab_voov d H T) (rhb3_H_ab_vovo d H T) (rhb3_H_ab_vovv d H T) (i_ab_vvoo H) (rhb3_H_ab_vvov d H T) (rhb3_H_ab_vvvo d H T) (rhb3_H_ab_vvvv d H T) (rhb3_H_aa_oooo_1 d H T) (rhb3_H_aa_ooov d H T) (i_bb_oovo H) (i_bb_oovv H) (i_bb_ovoo H) (i_bb_ovov H) (i_bb_ovvo H) (i_bb_ovvv H) (rhb3_H_aa_vooo d H T) (rhb3_H_aa_voov d H T) (i_bb_vovo H) (rhb3_H_aa_vovv d H T) (i_bb_vvoo H) (rhb3_H_aa_vvov_1 d H T) (i_bb_vvvo H) (rhb3_H_aa_vvvv_1 d H T).
(** ccpy/eomcc/eomccsdt.py, build_HR_1A, line 68 *)
Definition reomt_X1A (d : dims) (H : ints) (T R : amps) : mat2 := fun a i =>
  (- (sumn (noa d) (fun m => (i_a_oo H m i) * (x_a R a m)))).
(** ccpy/eomcc/eomccsdt.py, build_HR_1A, line 69 *)
Definition reomt_X1A_1 (d : dims) (H : ints) (T R : amps) : mat2 := fun a i =>
  reomt_X1A d H T R a i + sumn (nua d) (fun e => (i_a_vv H a e) * (x_a R e i)).
(** ccpy/eomcc/eomccsdt.py, build_HR_1A, line 70 *)
Definition reomt_X1A_2 (d : dims) (H : ints) (T R : amps) : mat2 := fun a i =>
  reomt_X1A_1 d H T R a i + sumn (noa d) (fun m => sumn (nua d) (fun e => (i_aa_voov H a m i e) * (x_a R e m))).
(** ccpy/eomcc/eomccsdt.py, build_HR_1A, line 71 *)
Definition reomt_X1A_3 (d : dims) (H : ints) (T R : amps) : mat2 := fun a i =>
  reomt_X1A_2 d H T R a i + sumn (noa d) (fun m => sumn (nua d) (fun e => (i_ab_voov H a m i e) * (x_b R e m))).
(** ccpy/eomcc/eomccsdt.py, build_HR_1A, line 72 *)
Definition reomt_X1A_4 (d : dims) (H : ints) (T R : amps) : mat2 := fun a i =>
  reomt_X1A_3 d H T R a i - 1 / 2 * (sumn (noa d) (fun m => sumn (noa d) (fun n => sumn (nua d) (fun f => (i_aa_ooov H m n i f) * (x_aa R a f m n))))).
(** ccpy/eomcc/eomccsdt.py, build_HR_1A, line 73 *)
Definition reomt_X1A_5 (d : dims) (H : ints) (T R : amps) : mat2 := fun a i =>
  reomt_X1A_4 d H T R a i - sumn (noa d) (fun m => sumn (noa d) (fun n => sumn (nua d) (fun f => (i_ab_ooov H m n i f) * (x_ab R a f m n)))).
(** ccpy/eomcc/eomccsdt.py, build_HR_1A, line 74 *)
Definition reomt_X1A_6 (d : dims) (H : ints) (T R : amps) : mat2 := fun a i =>
  reomt_X1A_5 d H T R a i + 1 / 2 * (sumn (noa d) (fun n => sumn (nua d) (fun e => sumn (nua d) (fun f => (i_aa_vovv H a n e f) * (x_aa R e f i n))))).
(** ccpy/eomcc/eomccsdt.py, build_HR_1A, line 75 *)
Definition reomt_X1A_7 (d : dims) (H : ints) (T R : amps) : mat2 := fun a i =>
  reomt_X1A_6 d H T R a i + sumn (noa d) (fun n => sumn (nua d) (fun e => sumn (nua d) (fun f => (i_ab_vovv H a n e f) * (x_ab R e f i n)))).
(** ccpy/eomcc/eomccsdt.py, build_HR_1A, line 76 *)
Definition reomt_X1A_8 (d : dims) (H : ints) (T R : amps) : mat2 := fun a i =>
  reomt_X1A_7 d H T R a i + sumn (noa d) (fun m => sumn (nua d) (fun e => (i_a_ov H m e) * (x_aa R a e i m))).
(** ccpy/eomcc/eomccsdt.py, build_HR_1A, line 77 *)
Definition reomt_X1A_9 (d : dims) (H : ints) (T R : amps) : mat2 := fun a i =>
  reomt_X1A_8 d H T R a i + sumn (noa d) (fun m => sumn (nua d) (fun e => (i_b_ov H m e) * (x_ab R a e i m))).
(** ccpy/eomcc/eomccsdt.py, build_HR_1A, line 79 *)
Definition reomt_X1A_10 (d : dims) (H : ints) (T R : amps) : mat2 := fun a i =>
  reomt_X1A_9 d H T R a i + 1 / 4 * (sumn (noa d) (fun m => sumn (noa d) (fun n => sumn (nua d) (fun e => sumn (nua d) (fun f => (i_aa_oovv H m n e f) * (x_aaa R a e f i m n)))))).
(** ccpy/eomcc/eomccsdt.py, build_HR_1A, line 80 *)
Definition reomt_X1A_11 (d : dims) (H : ints) (T R : amps) : mat2 := fun a i =>
  reomt_X1A_10 d H T R a i + sumn (noa d) (fun m => sumn (noa d) (fun n => sumn (nua d) (fun e => sumn (nua d) (fun f => (i_ab_oovv H m n e f) * (x_aab R a e f i m n))))).
(** ccpy/eomcc/eomccsdt.py, build_HR_1A, line 81 *)
Definition reomt_X1A_12 (d : dims) (H : ints) (T R : amps) : mat2 := fun a i =>
  reomt_X1A_11 d H T R a i + 1 / 4 * (sumn (noa d) (fun m => sumn (noa d) (fun n => sumn (nua d) (fun e => sumn (nua d) (fun f => (i_bb_oovv H m n e f) * (x_abb R a e f i m n)))))).
(** ccpy/eomcc/eomccsdt.py, HR, line 39 *)
Definition reomt_dR_b (d : dims) (H : ints) (T R : amps) : mat2 := fun a i =>
  reomt_X1A_12 d H T R a i.
(** ccpy/eomcc/eomccsdt_intermediates.py, get_eomccsd_intermediates, lines 12-15 *)
Definition reomt_X_a_ov (d : dims) (H : ints) (T R : amps) : mat2 := fun m e =>
  sumn (noa d) (fun n => sumn (nua d) (fun f => (i_aa_oovv H m n e f) * (x_a R f n))) + sumn (noa d) (fun n => sumn (nua d) (fun f => (i_ab_oovv H m n e f) * (x_b R f n))).
(** ccpy/eomcc/eomccsdt_intermediates.py, get_eomccsd_intermediates, lines 17-20 *)
Definition reomt_X_b_ov (d : dims) (H : ints) (T R : amps) : mat2 := fun m e =>
  sumn (noa d) (fun n => sumn (nua d) (fun f => (i_ab_oovv H n m f e) * (x_a R f n))) + sumn (noa d) (fun n => sumn (nua d) (fun f => (i_bb_oovv H n m f e) * (x_b R f n))).
(** ccpy/eomcc/eomccsdt_intermediates.py, get_eomccsd_intermediates, lines 22-27 *)
Definition reomt_X_a_oo (d : dims) (H : ints) (T R : amps) : mat2 := fun m j =>
  sumn (noa d) (fun n => sumn (nua d) (fun f => (i_aa_ooov H m n j f) * (x_a R f n))) + sumn (noa d) (fun n => sumn (nua d) (fun f => (i_ab_ooov H m n j f) * (x_b R f n))) + 1 / 2 * (sumn (noa d) (fun n => sumn (nua d) (fun e => sumn (nua d) (fun f => (i_aa_oovv H m n e f) * (x_aa R e f j n))))) + sumn (noa d) (fun n => sumn (nua d) (fun e => sumn (nua d) (fun f => (i_ab_oovv H m n e f) * (x_ab R e f j n)))).
(** ccpy/eomcc/eomccsdt_intermediates.py, get_eomccsd_intermediates, lines 29-34 *)
Definition reomt_X_a_vv (d : dims) (H : ints) (T R : amps) : mat2 := fun b e =>
  sumn (noa d) (fun n => sumn (nua d) (fun f => (i_aa_vovv H b n e f) * (x_a R f n))) + sumn (noa d) (fun n => sumn (nua d) (fun f => (i_ab_vovv H b n e f) * (x_b R f n))) - 1 / 2 * (sumn (noa d) (fun m => sumn (noa d) (fun n => sumn (nua d) (fun f => (i_aa_oovv H m n e f) * (x_aa R b f m n))))) - sumn (noa d) (fun m => sumn (noa d) (fun n => sumn (nua d) (fun f => (i_ab_oovv H m n e f) * (x_ab R b f m n)))).
(** ccpy/eomcc/eomccsdt_intermediates.py, get_eomccsd_intermediates, lines 36-41 *)
Definition reomt_X_b_oo (d : dims) (H : ints) (T R : amps) : mat2 := fun m k =>
  sumn (noa d) (fun n => sumn (nua d) (fun f => (i_ab_oovo H n m f k) * (x_a R f n))) + sumn (noa d) (fun n => sumn (nua d) (fun f => (i_bb_ooov H m n k f) * (x_b R f n))) + sumn (noa d) (fun n => sumn (nua d) (fun f => sumn (nua d) (fun e => (i_ab_oovv H n m f e) * (x_ab R f e n k)))) + 1 / 2 * (sumn (noa d) (fun n => sumn (nua d) (fun e => sumn (nua d) (fun f => (i_bb_oovv H m n e f) * (x_bb R e f k n))))).
(** ccpy/eomcc/eomccsdt_intermediates.py, get_eomccsd_intermediates, lines 43-48 *)
Definition reomt_X_b_vv (d : dims) (H : ints) (T R : amps) : mat2 := fun c e =>
  sumn (noa d) (fun n => sumn (nua d) (fun f => (i_ab_ovvv H n c f e) * (x_a R f n))) + sumn (noa d) (fun n => sumn (nua d) (fun f => (i_bb_vovv H c n e f) * (x_b R f n))) - 1 / 1 * (sumn (noa d) (fun n => sumn (noa d) (fun m => sumn (nua d) (fun f => (i_ab_oovv H n m f e) * (x_ab R f c n m))))) - 1 / 2 * (sumn (noa d) (fun m => sumn (noa d) (fun n => sumn (nua d) (fun f => (i_bb_oovv H m n e f) * (x_bb R f c n m))))).
(** ccpy/eomcc/eomccsdt.py, build_HR_2A, line 104 *)
Definition reomt_X2A (d : dims) (H : ints) (T R : amps) : mat4 := fun a b i j =>
  (-1) / 2 * (sumn (noa d) (fun m => (i_a_oo H m i) * (x_aa R a b m j))).
(** ccpy/eomcc/eomccsdt.py, build_HR_2A, line 105 *)
Definition reomt_X2A_1 (d : dims) (H : ints) (T R : amps) : mat4 := fun a b i j =>
  reomt_X2A d H T R a b i j + 1 / 2 * (sumn (nua d) (fun e => (i_a_vv H a e) * (x_aa R e b i j))).
(** ccpy/eomcc/eomccsdt.py, build_HR_2A, line 106 *)
Definition reomt_X2A_2 (d : dims) (H : ints) (T R : amps) : mat4 := fun a b i j =>
  reomt_X2A_1 d H T R a b i j + 1 / 8 * (sumn (noa d) (fun m => sumn (noa d) (fun n => (i_aa_oooo H m n i j) * (x_aa R a b m n)))).
(** ccpy/eomcc/eomccsdt.py, build_HR_2A, line 107 *)
Definition reomt_X2A_3 (d : dims) (H : ints) (T R : amps) : mat4 := fun a b i j =>
  reomt_X2A_2 d H T R a b i j + 1 / 8 * (sumn (nua d) (fun e => sumn (nua d) (fun f => (i_aa_vvvv H a b e f) * (x_aa R e f i j)))).
(** ccpy/eomcc/eomccsdt.py, build_HR_2A, line 108 *)
Definition reomt_X2A_4 (d : dims) (H : ints) (T R : amps) : mat4 := fun a b i j =>
  reomt_X2A_3 d H T R a b i j + sumn (noa d) (fun m => sumn (nua d) (fun e => (i_aa_voov H a m i e) * (x_aa R e b m j))).
(** ccpy/eomcc/eomccsdt.py, build_HR_2A, line 109 *)
Definition reomt_X2A_5 (d : dims) (H : ints) (T R : amps) : mat4 := fun a b i j =>
  reomt_X2A_4 d H T R a b i j + sumn (noa d) (fun m => sumn (nua d) (fun e => (i_ab_voov H a m i e) * (x_ab R b e j m))).
(** ccpy/eomcc/eomccsdt.py, build_HR_2A, line 110 *)
Definition reomt_X2A_6 (d : dims) (H : ints) (T R : amps) : mat4 := fun a b i j =>
  reomt_X2A_5 d H T R a b i j - 1 / 2 * (sumn (noa d) (fun m => (i_aa_vooo H b m j i) * (x_a R a m))).
(** ccpy/eomcc/eomccsdt.py, build_HR_2A, line 111 *)
Definition reomt_X2A_7 (d : dims) (H : ints) (T R : amps) : mat4 := fun a b i j =>
  reomt_X2A_6 d H T R a b i j + 1 / 2 * (sumn (nua d) (fun e => (i_aa_vvov H b a j e) * (x_a R e i))).
(** ccpy/eomcc/eomccsdt.py, build_HR_2A, line 112 *)
Definition reomt_X2A_8 (d : dims) (H : ints) (T R : amps) : mat4 := fun a b i j =>
  reomt_X2A_7 d H T R a b i j + 1 / 2 * (sumn (nua d) (fun e => (reomt_X_a_vv d H T R b e) * (x_aa T a e i j))).
(** ccpy/eomcc/eomccsdt.py, build_HR_2A, line 113 *)
Definition reomt_X2A_9 (d : dims) (H : ints) (T R : amps) : mat4 := fun a b i j =>
  reomt_X2A_8 d H T R a b i j - 1 / 2 * (sumn (noa d) (fun m => (reomt_X_a_oo d H T R m j) * (x_aa T a b i m))).
(** ccpy/eomcc/eomccsdt.py, build_HR_2A, line 115 *)
Definition reomt_X2A_10 (d : dims) (H : ints) (T R : amps) : mat4 := fun a b i j =>
  reomt_X2A_9 d H T R a b i j + 1 / 4 * (sumn (noa d) (fun m => sumn (nua d) (fun e => (reomt_X_a_ov d H T R m e) * (x_aaa T a b e i j m)))).
(** ccpy/eomcc/eomccsdt.py, build_HR_2A, line 116 *)
Definition reomt_X2A_11 (d : dims) (H : ints) (T R : amps) : mat4 := fun a b i j =>
  reomt_X2A_10 d H T R a b i j + 1 / 4 * (sumn (noa d) (fun m => sumn (nua d) (fun e => (reomt_X_b_ov d H T R m e) * (x_aab T a b e i j m)))).
(** ccpy/eomcc/eomccsdt.py, build_HR_2A, line 118 *)
Definition reomt_X2A_12 (d : dims) (H : ints) (T R : amps) : mat4 := fun a b i j =>
  reomt_X2A_11 d H T R a b i j + 1 / 4 * (sumn (noa d) (fun m => sumn (nua d) (fun e => (i_a_ov H m e) * (x_aaa R a b e i j m)))).
(** ccpy/eomcc/eomccsdt.py, build_HR_2A, line 119 *)
Definition reomt_X2A_13 (d : dims) (H : ints) (T R : amps) : mat4 := fun a b i j =>
  reomt_X2A_12 d H T R a b i j + 1 / 4 * (sumn (noa d) (fun m => sumn (nua d) (fun e => (i_b_ov H m e) * (x_aab R a b e i j m)))).
(** ccpy/eomcc/eomccsdt.py, build_HR_2A, line 120 *)
Definition reomt_X2A_14 (d : dims) (H : ints) (T R : amps) : mat4 := fun a b i j =>
  reomt_X2A_13 d H T R a b i j - 1 / 4 * (sumn (noa d) (fun m => sumn (noa d) (fun n => sumn (nua d) (fun f => (i_aa_ooov H m n j f) * (x_aaa R a b f i m n))))).
(** ccpy/eomcc/eomccsdt.py, build_HR_2A, line 121 *)
Definition reomt_X2A_15 (d : dims) (H : ints) (T R : amps) : mat4 := fun a b i j =>
  reomt_X2A_14 d H T R a b i j - 1 / 2 * (sumn (noa d) (fun m => sumn (noa d) (fun n => sumn (nua d) (fun f => (i_ab_ooov H m n j f) * (x_aab R a b f i m n))))).
(** ccpy/eomcc/eomccsdt.py, build_HR_2A, line 122 *)
Definition reomt_X2A_16 (d : dims) (H : ints) (T R : amps) : mat4 := fun a b i j =>
  reomt_X2A_15 d H T R a b i j + 1 / 4 * (sumn (noa d) (fun n => sumn (nua d) (fun e => sumn (nua d) (fun f => (i_aa_vovv H b n e f) * (x_aaa R a e f i j n))))).
(** ccpy/eomcc/eomccsdt.py, build_HR_2A, line 123 *)
Definition reomt_X2A_17 (d : dims) (H : ints) (T R : amps) : mat4 := fun a b i j =>
  reomt_X2A_16 d H T R a b i j + 1 / 2 * (sumn (noa d) (fun n => sumn (nua d) (fun e => sumn (nua d) (fun f => (i_ab_vovv H b n e f) * (x_aab R a e f i j n))))).
(** ccpy/eomcc/eomccsdt.py, build_HR_2A, line 124 *)
Definition reomt_X2A_18 (d : dims) (H : ints) (T R : amps) : mat4 := fun a b i j =>
  reomt_X2A_17 d H T R a b i j - reomt_X2A_17 d H T R b a i j.
(** ccpy/eomcc/eomccsdt.py, build_HR_2A, line 125 *)
Definition reomt_X2A_19 (d : dims) (H : ints) (T R : amps) : mat4 := fun a b i j =>
  reomt_X2A_18 d H T R a b i j - reomt_X2A_18 d H T R a b j i.
(** ccpy/eomcc/eomccsdt.py, build_HR_2B, line 130 *)
Definition reomt_X2B (d : dims) (H : ints) (T R : amps) : mat4 := fun a b i j =>
  sumn (nua d) (fun e => (i_a_vv H a e) * (x_ab R e b i j)).
(** ccpy/eomcc/eomccsdt.py, build_HR_2B, line 131 *)
Definition reomt_X2B_1 (d : dims) (H : ints) (T R : amps) : mat4 := fun a b i j =>
  reomt_X2B d H T R a b i j + sumn (nua d) (fun e => (i_b_vv H b e) * (x_ab R a e i j)).
(** ccpy/eomcc/eomccsdt.py, build_HR_2B, line 132 *)
Definition reomt_X2B_2 (d : dims) (H : ints) (T R : amps) : mat4 := fun a b i j =>
  reomt_X2B_1 d H T R a b i j - sumn (noa d) (fun m => (i_a_oo H m i) * (x_ab R a b m j)).
(** ccpy/eomcc/eomccsdt.py, build_HR_2B, line 133 *)
Definition reomt_X2B_3 (d : dims) (H : ints) (T R : amps) : mat4 := fun a b i j =>
  reomt_X2B_2 d H T R a b i j - sumn (noa d) (fun m => (i_b_oo H m j) * (x_ab R a b i m)).
(** ccpy/eomcc/eomccsdt.py, build_HR_2B, line 134 *)
Definition reomt_X2B_4 (d : dims) (H : ints) (T R : amps) : mat4 := fun a b i j =>
  reomt_X2B_3 d H T R a b i j + sumn (noa d) (fun m => sumn (noa d) (fun n => (i_ab_oooo H m n i j) * (x_ab R a b m n))).
(** ccpy/eomcc/eomccsdt.py, build_HR_2B, line 135 *)
Definition reomt_X2B_5 (d : dims) (H : ints) (T R : amps) : mat4 := fun a b i j =>
  reomt_X2B_4 d H T R a b i j + sumn (nua d) (fun e => sumn (nua d) (fun f => (i_ab_vvvv H a b e f) * (x_ab R e f i j))).
(** ccpy/eomcc/eomccsdt.py, build_HR_2B, line 136 *)
Definition reomt_X2B_6 (d : dims) (H : ints) (T R : amps) : mat4 := fun a b i j =>
  reomt_X2B_5 d H T R a b i j + sumn (noa d) (fun m => sumn (nua d) (fun e => (i_aa_voov H a m i e) * (x_ab R e b m j))).
(** ccpy/eomcc/eomccsdt.py, build_HR_2B, line 137 *)
Definition reomt_X2B_7 (d : dims) (H : ints) (T R : amps) : mat4 := fun a b i j =>
  reomt_X2B_6 d H T R a b i j + sumn (noa d) (fun m => sumn (nua d) (fun e => (i_ab_voov H a m i e) * (x_bb R e b m j))).
(** ccpy/eomcc/eomccsdt.py, build_HR_2B, line 138 *)
Definition reomt_X2B_8 (d : dims) (H : ints) (T R : amps) : mat4 := fun a b i j =>
  reomt_X2B_7 d H T R a b i j + sumn (noa d) (fun m => sumn (nua d) (fun e => (i_ab_ovvo H m b e j) * (x_aa R a e i m))).
(** ccpy/eomcc/eomccsdt.py, build_HR_2B, line 139 *)
Definition reomt_X2B_9 (d : dims) (H : ints) (T R : amps) : mat4 := fun a b i j =>
  reomt_X2B_8 d H T R a b i j + sumn (noa d) (fun m => sumn (nua d) (fun e => (i_bb_voov H b m j e) * (x_ab R a e i m))).
(** ccpy/eomcc/eomccsdt.py, build_HR_2B, line 140 *)
Definition reomt_X2B_10 (d : dims) (H : ints) (T R : amps) : mat4 := fun a b i j =>
  reomt_X2B_9 d H T R a b i j - sumn (noa d) (fun m => sumn (nua d) (fun e => (i_ab_ovov H m b i e) * (x_ab R a e m j))).
(** ccpy/eomcc/eomccsdt.py, build_HR_2B, line 141 *)
Definition reomt_X2B_11 (d : dims) (H : ints) (T R : amps) : mat4 := fun a b i j =>
  reomt_X2B_10 d H T R a b i j - sumn (noa d) (fun m => sumn (nua d) (fun e => (i_ab_vovo H a m e j) * (x_ab R e b i m))).
(** ccpy/eomcc/eomccsdt.py, build_HR_2B, line 142 *)
Definition reomt_X2B_12 (d : dims) (H : ints) (T R : amps) : mat4 := fun a b i j =>
  reomt_X2B_11 d H T R a b i j + sumn (nua d) (fun e => (i_ab_vvvo H a b e j) * (x_a R e i)).
(** ccpy/eomcc/eomccsdt.py, build_HR_2B, line 143 *)
Definition reomt_X2B_13 (d : dims) (H : ints) (T R : amps) : mat4 := fun a b i j =>
  reomt_X2B_12 d H T R a b i j + sumn (nua d) (fun e => (i_ab_vvov H a b i e) * (x_b R e j)).
(** ccpy/eomcc/eomccsdt.py, build_HR_2B, line 144 *)
Definition reomt_X2B_14 (d : dims) (H : ints) (T R : amps) : mat4 := fun a b i j =>
  reomt_X2B_13 d H T R a b i j - sumn (noa d) (fun m => (i_ab_ovoo H m b i j) * (x_a R a m)).
(** ccpy/eomcc/eomccsdt.py, build_HR_2B, line 145 *)
Definition reomt_X2B_15 (d : dims) (H : ints) (T R : amps) : mat4 := fun a b i j =>
  reomt_X2B_14 d H T R a b i j - sumn (noa d) (fun m => (i_ab_vooo H a m i j) * (x_b R b m)).
(** ccpy/eomcc/eomccsdt.py, build_HR_2B, line 146 *)
Definition reomt_X2B_16 (d : dims) (H : ints) (T R : amps) : mat4 := fun a b i j =>
  reomt_X2B_15 d H T R a b i j + sumn (nua d) (fun e => (reomt_X_a_vv d H T R a e) * (x_ab T e b i j)).
(** ccpy/eomcc/eomccsdt.py, build_HR_2B, line 147 *)
Definition reomt_X2B_17 (d : dims) (H : ints) (T R : amps) : mat4 := fun a b i j =>
  reomt_X2B_16 d H T R a b i j - sumn (noa d) (fun m => (reomt_X_a_oo d H T R m i) * (x_ab T a b m j)).
(** ccpy/eomcc/eomccsdt.py, build_HR_2B, line 148 *)
Definition reomt_X2B_18 (d : dims) (H : ints) (T R : amps) : mat4 := fun a b i j =>
  reomt_X2B_17 d H T R a b i j + sumn (nua d) (fun e => (reomt_X_b_vv d H T R b e) * (x_ab T a e i j)).
(** ccpy/eomcc/eomccsdt.py, build_HR_2B, line 149 *)
Definition reomt_X2B_19 (d : dims) (H : ints) (T R : amps) : mat4 := fun a b i j =>
  reomt_X2B_18 d H T R a b i j - sumn (noa d) (fun m => (reomt_X_b_oo d H T R m j) * (x_ab T a b i m)).
(** ccpy/eomcc/eomccsdt.py, build_HR_2B, line 151 *)
Definition reomt_X2B_20 (d : dims) (H : ints) (T R : amps) : mat4 := fun a b i j =>
  reomt_X2B_19 d H T R a b i j + sumn (noa d) (fun m => sumn (nua d) (fun e => (reomt_X_a_ov d H T R m e) * (x_aab T a e b i m j))).
(** ccpy/eomcc/eomccsdt.py, build_HR_2B, line 152 *)
Definition reomt_X2B_21 (d : dims) (H : ints) (T R : amps) : mat4 := fun a b i j =>
  reomt_X2B_20 d H T R a b i j + sumn (noa d) (fun m => sumn (nua d) (fun e => (reomt_X_b_ov d H T R m e) * (x_abb T a e b i m j))).
(** ccpy/eomcc/eomccsdt.py, build_HR_2B, line 154 *)
Definition reomt_X2B_22 (d : dims) (H : ints) (T R : amps) : mat4 := fun a b i j =>
  reomt_X2B_21 d H T R a b i j + sumn (noa d) (fun m => sumn (nua d) (fun e => (i_a_ov H m e) * (x_aab R a e b i m j))).
(** ccpy/eomcc/eomccsdt.py, build_HR_2B, line 155 *)
Definition reomt_X2B_23 (d : dims) (H : ints) (T R : amps) : mat4 := fun a b i j =>
  reomt_X2B_22 d H T R a b i j + sumn (noa d) (fun m => sumn (nua d) (fun e => (i_b_ov H m e) * (x_abb R a e b i m j))).
(** ccpy/eomcc/eomccsdt.py, build_HR_2B, line 156 *)
Definition reomt_X2B_24 (d : dims) (H : ints) (T R : amps) : mat4 := fun a b i j =>
  reomt_X2B_23 d H T R a b i j - sumn (noa d) (fun n => sumn (noa d) (fun m => sumn (nua d) (fun f => (i_ab_oovo H n m f j) * (x_aab R a f b i n m)))).
(** ccpy/eomcc/eomccsdt.py, build_HR_2B, line 157 *)
Definition reomt_X2B_25 (d : dims) (H : ints) (T R : amps) : mat4 := fun a b i j =>
  reomt_X2B_24 d H T R a b i j - 1 / 2 * (sumn (noa d) (fun m => sumn (noa d) (fun n => sumn (nua d) (fun f => (i_bb_ooov H m n j f) * (x_abb R a b f i m n))))).
(** ccpy/eomcc/eomccsdt.py, build_HR_2B, line 158 *)
Definition reomt_X2B_26 (d : dims) (H : ints) (T R : amps) : mat4 := fun a b i j =>
  reomt_X2B_25 d H T R a b i j - 1 / 2 * (sumn (noa d) (fun m => sumn (noa d) (fun n => sumn (nua d) (fun f => (i_aa_ooov H m n i f) * (x_aab R a f b m n j))))).
(** ccpy/eomcc/eomccsdt.py, build_HR_2B, line 159 *)
Definition reomt_X2B_27 (d : dims) (H : ints) (T R : amps) : mat4 := fun a b i j =>
  reomt_X2B_26 d H T R a b i j - sumn (noa d) (fun m => sumn (noa d) (fun n => sumn (nua d) (fun f => (i_ab_ooov H m n i f) * (x_abb R a b f m j n)))).
(** ccpy/eomcc/eomccsdt.py, build_HR_2B, line 160 *)
Definition reomt_X2B_28 (d : dims) (H : ints) (T R : amps) : mat4 := fun a b i j =>
  reomt_X2B_27 d H T R a b i j + sumn (noa d) (fun n => sumn (nua d) (fun f => sumn (nua d) (fun e => (i_ab_ovvv H n b f e) * (x_aab R a f e i n j)))).
(** ccpy/eomcc/eomccsdt.py, build_HR_2B, line 161 *)
Definition reomt_X2B_29 (d : dims) (H : ints) (T R : amps) : mat4 := fun a b i j =>
  reomt_X2B_28 d H T R a b i j + 1 / 2 * (sumn (noa d) (fun n => sumn (nua d) (fun e => sumn (nua d) (fun f => (i_bb_vovv H b n e f) * (x_abb R a e f i j n))))).
(** ccpy/eomcc/eomccsdt.py, build_HR_2B, line 162 *)
Definition reomt_X2B_30 (d : dims) (H : ints) (T R : amps) : mat4 := fun a b i j =>
  reomt_X2B_29 d H T R a b i j + 1 / 2 * (sumn (noa d) (fun n => sumn (nua d) (fun e => sumn (nua d) (fun f => (i_aa_vovv H a n e f) * (x_aab R e f b i n j))))).
(** ccpy/eomcc/eomccsdt.py, build_HR_2B, line 163 *)
Definition reomt_X2B_31 (d : dims) (H : ints) (T R : amps) : mat4 := fun a b i j =>
  reomt_X2B_30 d H T R a b i j + sumn (noa d) (fun n => sumn (nua d) (fun e => sumn (nua d) (fun f => (i_ab_vovv H a n e f) * (x_abb R e f b i n j)))).
(** ccpy/eomcc/eomccsdt.py, HR, line 48 *)
Definition reomt_dR_bb (d : dims) (H : ints) (T R : amps) : mat4 := fun a b i j =>
  reomt_X2A_19 d H T R a b i j.
(** ccpy/eomcc/eomccsdt_intermediates.py, get_eomccsdt_intermediates, line 61 *)
Definition reomt_X_aa_oovv (d : dims) (H : ints) (T R : amps) : mat4 := fun p q r s =>
  (0 / 1).
(** ccpy/eomcc/eomccsdt_intermediates.py, get_eomccsdt_intermediates, line 62 *)
Definition reomt_X_ab_oovv (d : dims) (H : ints) (T R : amps) : mat4 := fun p q r s =>
  (0 / 1).
(** ccpy/eomcc/eomccsdt_intermediates.py, get_eomccsdt_intermediates, line 63 *)
Definition reomt_X_bb_oovv (d : dims) (H : ints) (T R : amps) : mat4 := fun p q r s =>
  (0 / 1).
(** ccpy/eomcc/eomccsdt_intermediates.py, get_eomccsdt_intermediates, lines 78-85 *)
Definition reomt_X_a_oo_1 (d : dims) (H : ints) (T R : amps) : mat2 := fun m j =>
  sumn (nua d) (fun e => (i_a_ov H m e) * (x_a R e j)) + reomt_X_a_oo d H T R m j.
(** ccpy/eomcc/eomccsdt_intermediates.py, get_eomccsdt_intermediates, lines 86-93 *)
Definition reomt_X_b_oo_1 (d : dims) (H : ints) (T R : amps) : mat2 := fun m k =>
  sumn (nua d) (fun e => (i_b_ov H m e) * (x_b R e k)) + reomt_X_b_oo d H T R m k.
(** ccpy/eomcc/eomccsdt_intermediates.py, get_eomccsdt_intermediates, lines 98-105 *)
Definition reomt_X_a_vv_1 (d : dims) (H : ints) (T R : amps) : mat2 := fun b e =>
  (-1) / 1 * (sumn (noa d) (fun m => (i_a_ov H m e) * (x_a R b m))) + reomt_X_a_vv d H T R b e.
(** ccpy/eomcc/eomccsdt_intermediates.py, get_eomccsdt_intermediates, lines 106-113 *)
Definition reomt_X_b_vv_1 (d : dims) (H : ints) (T R : amps) : mat2 := fun c e =>
  (-1) / 1 * (sumn (noa d) (fun m => (i_b_ov H m e) * (x_b R c m))) + reomt_X_b_vv d H T R c e.
(** ccpy/eomcc/eomccsdt_intermediates.py, get_eomccsdt_intermediates, lines 118-121 *)
Definition reomt_X_aa_oooo (d : dims) (H : ints) (T R : amps) : mat4 := fun m n i j =>
  sumn (nua d) (fun e => (i_aa_ooov H n m j e) * (x_a R e i)) + 1 / 4 * (sumn (nua d) (fun e => sumn (nua d) (fun f => (i_aa_oovv H m n e f) * (x_aa R e f i j)))).
(** ccpy/eomcc/eomccsdt_intermediates.py, get_eomccsdt_intermediates, line 122 *)
Definition reomt_X_aa_oooo_1 (d : dims) (H : ints) (T R : amps) : mat4 := fun m n i j =>
  reomt_X_aa_oooo d H T R m n i j - reomt_X_aa_oooo d H T R m n j i.
(** ccpy/eomcc/eomccsdt_intermediates.py, get_eomccsdt_intermediates, lines 124-128 *)
Definition reomt_X_ab_oooo (d : dims) (H : ints) (T R : amps) : mat4 := fun n m j k =>
  sumn (nua d) (fun e => (i_ab_ooov H n m j e) * (x_b R e k)) + sumn (nua d) (fun e => (i_ab_oovo H n m e k) * (x_a R e j)) + sumn (nua d) (fun e => sumn (nua d) (fun f => (i_ab_oovv H n m e f) * (x_ab R e f j k))).
(** ccpy/eomcc/eomccsdt_intermediates.py, get_eomccsdt_intermediates, lines 130-133 *)
Definition reomt_X_bb_oooo (d : dims) (H : ints) (T R : amps) : mat4 := fun m n i j =>
  sumn (nua d) (fun e => (i_bb_ooov H m n i e) * (x_b R e j)) + 1 / 4 * (sumn (nua d) (fun e => sumn (nua d) (fun f => (i_bb_oovv H m n e f) * (x_bb R e f i j)))).
(** ccpy/eomcc/eomccsdt_intermediates.py, get_eomccsdt_intermediates, line 134 *)
Definition reomt_X_bb_oooo_1 (d : dims) (H : ints) (T R : amps) : mat4 := fun m n i j =>
  reomt_X_bb_oooo d H T R m n i j - reomt_X_bb_oooo d H T R m n j i.
(** ccpy/eomcc/eomccsdt_intermediates.py, get_eomccsdt_intermediates, lines 139-142 *)
Definition reomt_X_aa_vvvv (d : dims) (H : ints) (T R : amps) : mat4 := fun a b e f =>
  (-1) / 1 * (sumn (noa d) (fun m => (i_aa_vovv H a m e f) * (x_a R b m))) + 1 / 4 * (sumn (noa d) (fun m => sumn (noa d) (fun n => (i_aa_oovv H m n e f) * (x_aa R a b m n)))).
(** ccpy/eomcc/eomccsdt_intermediates.py, get_eomccsdt_intermediates, line 143 *)
Definition reomt_X_aa_vvvv_1 (d : dims) (H : ints) (T R : amps) : mat4 := fun a b e f =>
  reomt_X_aa_vvvv d H T R a b e f - reomt_X_aa_vvvv d H T R b a e f.
(** ccpy/eomcc/eomccsdt_intermediates.py, get_eomccsdt_intermediates, lines 145-149 *)
Definition reomt_X_ab_vvvv (d : dims) (H : ints) (T R : amps) : mat4 := fun b c f e =>
  (- (sumn (noa d) (fun m => (i_ab_vovv H b m f e) * (x_b R c m)))) - sumn (noa d) (fun m => (i_ab_ovvv H m c f e) * (x_a R b m)) + sumn (noa d) (fun m => sumn (noa d) (fun n => (i_ab_oovv H m n f e) * (x_ab R b c m n))).
(** ccpy/eomcc/eomccsdt_intermediates.py, get_eomccsdt_intermediates, lines 151-154 *)
Definition reomt_X_bb_vvvv (d : dims) (H : ints) (T R : amps) : mat4 := fun a b e f =>
  (- (sumn (noa d) (fun m => (i_bb_vovv H a m e f) * (x_b R b m)))) + 1 / 4 * (sumn (noa d) (fun m => sumn (noa d) (fun n => (i_bb_oovv H m n e f) * (x_bb R a b m n)))).
(** ccpy/eomcc/eomccsdt_intermediates.py, get_eomccsdt_intermediates, line 155 *)
Definition reomt_X_bb_vvvv_1 (d : dims) (H : ints) (T R : amps) : mat4 := fun a b e f =>
  reomt_X_bb_vvvv d H T R a b e f - reomt_X_bb_vvvv d H T R b a e f.
(** ccpy/eomcc/eomccsdt_intermediates.py, get_eomccsdt_intermediates, lines 160-165 *)
Definition reomt_X_aa_voov (d : dims) (H : ints) (T R : amps) : mat4 := fun b m j e =>
  (-1) / 1 * (sumn (noa d) (fun n => (i_aa_ooov H n m j e) * (x_a R b n))) + sumn (nua d) (fun f => (i_aa_vovv H b m f e) * (x_a R f j)) + sumn (noa d) (fun n => sumn (nua d) (fun f => (i_aa_oovv H m n e f) * (x_aa R f b n j))) + sumn (noa d) (fun n => sumn (nua d) (fun f => (i_ab_oovv H m n e f) * (x_ab R b f j n))).
(** ccpy/eomcc/eomccsdt_intermediates.py, get_eomccsdt_intermediates, lines 167-172 *)
Definition reomt_X_ab_voov (d : dims) (H : ints) (T R : amps) : mat4 := fun b m j e =>
  (-1) / 1 * (sumn (noa d) (fun n => (i_ab_ooov H n m j e) * (x_a R b n))) + sumn (nua d) (fun f => (i_ab_vovv H b m f e) * (x_a R f j)) + sumn (noa d) (fun n => sumn (nua d) (fun f => (i_ab_oovv H n m f e) * (x_aa R f b n j))) + sumn (noa d) (fun n => sumn (nua d) (fun f => (i_bb_oovv H m n e f) * (x_ab R b f j n))).
(** ccpy/eomcc/eomccsdt_intermediates.py, get_eomccsdt_intermediates, lines 174-179 *)
Definition reomt_X_ab_ovvo (d : dims) (H : ints) (T R : amps) : mat4 := fun n c f k =>
  (- (sumn (noa d) (fun m => (i_ab_oovo H n m f k) * (x_b R c m)))) + sumn (nua d) (fun e => (i_ab_ovvv H n c f e) * (x_b R e k)) + sumn (noa d) (fun m => sumn (nua d) (fun e => (i_aa_oovv H m n e f) * (x_ab R e c m k))) + sumn (noa d) (fun m => sumn (nua d) (fun e => (i_ab_oovv H n m f e) * (x_bb R e c m k))).
(** ccpy/eomcc/eomccsdt_intermediates.py, get_eomccsdt_intermediates, lines 181-185 *)
Definition reomt_X_ab_vovo (d : dims) (H : ints) (T R : amps) : mat4 := fun b m f k =>
  sumn (nua d) (fun e => (i_ab_vovv H b m f e) * (x_b R e k)) - sumn (noa d) (fun n => (i_ab_oovo H n m f k) * (x_a R b n)) - sumn (noa d) (fun m' => sumn (nua d) (fun f' => (i_ab_oovv H m' m f f') * (x_ab R b f' m' k))).
(** ccpy/eomcc/eomccsdt_intermediates.py, get_eomccsdt_intermediates, lines 187-191 *)
Definition reomt_X_ab_ovov (d : dims) (H : ints) (T R : amps) : mat4 := fun n c j e =>
  (- (sumn (noa d) (fun m => (i_ab_ooov H n m j e) * (x_b R c m)))) + sumn (nua d) (fun f => (i_ab_ovvv H n c f e) * (x_a R f j)) - sumn (noa d) (fun n' => sumn (nua d) (fun e' => (i_ab_oovv H n n' e' e) * (x_ab R e' c j n'))).
(** ccpy/eomcc/eomccsdt_intermediates.py, get_eomccsdt_intermediates, lines 193-198 *)
Definition reomt_X_bb_voov (d : dims) (H : ints) (T R : amps) : mat4 := fun c n k f =>
  (- (sumn (noa d) (fun m => (i_bb_ooov H m n k f) * (x_b R c m)))) + sumn (nua d) (fun e => (i_bb_vovv H c n e f) * (x_b R e k)) + sumn (noa d) (fun m => sumn (nua d) (fun e => (i_ab_oovv H m n e f) * (x_ab R e c m k))) + sumn (noa d) (fun m => sumn (nua d) (fun e => (i_bb_oovv H m n e f) * (x_bb R e c m k))).
(** ccpy/eomcc/eomccsdt_intermediates.py, get_eomccsdt_intermediates, lines 202-209 *)
Definition reomt_X_aa_vvov (d : dims) (H : ints) (T R : amps) : mat4 := fun b a j e =>
  sumn (noa d) (fun m => (i_aa_voov H a m j e) * (x_a R b m)) + sumn (noa d) (fun m => sumn (nua d) (fun e' => (i_aa_vovv H a m e e') * (x_aa R b e' j m))) + sumn (noa d) (fun m => sumn (nua d) (fun e' => (i_ab_vovv H a m e e') * (x_ab R b e' j m))) + 1 / 2 * (sumn (nua d) (fun e' => (i_aa_vvvv H a b e e') * (x_a R e' j))) + 1 / 4 * (sumn (noa d) (fun n => sumn (noa d) (fun m => (i_aa_ooov H n m j e) * (x_aa R a b m n)))) - 1 / 2 * (sumn (noa d) (fun m => (reomt_X_a_ov d H T R m e) * (x_aa T a b m j))).
(** ccpy/eomcc/eomccsdt_intermediates.py, get_eomccsdt_intermediates, line 210 *)
Definition reomt_X_aa_vvov_1 (d : dims) (H : ints) (T R : amps) : mat4 := fun b a j e =>
  reomt_X_aa_vvov d H T R b a j e - reomt_X_aa_vvov d H T R a b j e.
(** ccpy/eomcc/eomccsdt_intermediates.py, get_eomccsdt_intermediates, lines 212-218 *)
Definition reomt_X_aa_vooo (d : dims) (H : ints) (T R : amps) : mat4 := fun b m j i =>
  (- (sumn (nua d) (fun e => (i_aa_voov H b m i e) * (x_a R e j)))) + sumn (noa d) (fun m' => sumn (nua d) (fun e => (i_aa_ooov H m m' i e) * (x_aa R b e j m'))) + sumn (noa d) (fun m' => sumn (nua d) (fun e => (i_ab_ooov H m m' i e) * (x_ab R b e j m'))) - 1 / 2 * (sumn (noa d) (fun m' => (i_aa_oooo H m m' i j) * (x_a R b m'))) + 1 / 4 * (sumn (nua d) (fun f => sumn (nua d) (fun e => (i_aa_vovv H b m f e) * (x_aa R e f i j)))).
(** ccpy/eomcc/eomccsdt_intermediates.py, get_eomccsdt_intermediates, line 219 *)
Definition reomt_X_aa_vooo_1 (d : dims) (H : ints) (T R : amps) : mat4 := fun b m j i =>
  reomt_X_aa_vooo d H T R b m j i - reomt_X_aa_vooo d H T R b m i j.
(** ccpy/eomcc/eomccsdt_intermediates.py, get_eomccsdt_intermediates, lines 221-230 *)
Definition reomt_X_ab_vvvo (d : dims) (H : ints) (T R : amps) : mat4 := fun b c e k =>
  (- (sumn (noa d) (fun m => (i_ab_ovvo H m c e k) * (x_a R b m)))) - sumn (noa d) (fun m => (i_ab_vovo H b m e k) * (x_b R c m)) + sumn (nua d) (fun e' => (i_ab_vvvv H b c e e') * (x_b R e' k)) + sumn (noa d) (fun m => sumn (noa d) (fun n => (i_ab_oovo H m n e k) * (x_ab R b c m n))) + sumn (noa d) (fun m => sumn (nua d) (fun e' => (i_aa_vovv H b m e e') * (x_ab R e' c m k))) + sumn (noa d) (fun m => sumn (nua d) (fun e' => (i_ab_vovv H b m e e') * (x_bb R e' c m k))) - sumn (noa d) (fun m => sumn (nua d) (fun e' => (i_ab_ovvv H m c e e') * (x_ab R b e' m k))) - sumn (noa d) (fun m => (reomt_X_a_ov d H T R m e) * (x_ab T b c m k)).
(** ccpy/eomcc/eomccsdt_intermediates.py, get_eomccsdt_intermediates, lines 232-240 *)
Definition reomt_X_ab_ovoo (d : dims) (H : ints) (T R : amps) : mat4 := fun n c j k =>
  (- (sumn (noa d) (fun m => (i_ab_oooo H n m j k) * (x_b R c m)))) + sumn (nua d) (fun e => (i_ab_ovov H n c j e) * (x_b R e k)) + sumn (nua d) (fun e => (i_ab_ovvo H n c e k) * (x_a R e j)) + sumn (nua d) (fun e => sumn (nua d) (fun f => (i_ab_ovvv H n c e f) * (x_ab R e f j k))) + sumn (noa d) (fun m => sumn (nua d) (fun e => (i_aa_ooov H n m j e) * (x_ab R e c m k))) + sumn (noa d) (fun m => sumn (nua d) (fun e => (i_ab_ooov H n m j e) * (x_bb R e c m k))) - sumn (noa d) (fun m => sumn (nua d) (fun e => (i_ab_oovo H n m e k) * (x_ab R e c j m))).
(** ccpy/eomcc/eomccsdt_intermediates.py, get_eomccsdt_intermediates, lines 242-251 *)
Definition reomt_X_ab_vvov (d : dims) (H : ints) (T R : amps) : mat4 := fun b c j e =>
  (- (sumn (noa d) (fun m => (i_ab_ovov H m c j e) * (x_a R b m)))) - sumn (noa d) (fun m => (i_ab_voov H b m j e) * (x_b R c m)) + sumn (nua d) (fun e' => (i_ab_vvvv H b c e' e) * (x_a R e' j)) + sumn (noa d) (fun m => sumn (noa d) (fun n => (i_ab_ooov H m n j e) * (x_ab R b c m n))) + sumn (noa d) (fun m => sumn (nua d) (fun e' => (i_ab_ovvv H m c e' e) * (x_aa R b e' j m))) + sumn (noa d) (fun m => sumn (nua d) (fun e' => (i_bb_vovv H c m e e') * (x_ab R b e' j m))) - sumn (noa d) (fun m => sumn (nua d) (fun e' => (i_ab_vovv H b m e' e) * (x_ab R e' c j m))) - sumn (noa d) (fun m => (reomt_X_b_ov d H T R m e) * (x_ab T b c j m)).
(** ccpy/eomcc/eomccsdt_intermediates.py, get_eomccsdt_intermediates, lines 253-261 *)
Definition reomt_X_ab_vooo (d : dims) (H : ints) (T R : amps) : mat4 := fun b n j k =>
  (- (sumn (noa d) (fun m => (i_ab_oooo H m n j k) * (x_a R b m)))) + sumn (nua d) (fun e => (i_ab_voov H b n j e) * (x_b R e k)) + sumn (nua d) (fun e => (i_ab_vovo H b n e k) * (x_a R e j)) + sumn (nua d) (fun e => sumn (nua d) (fun f => (i_ab_vovv H b n e f) * (x_ab R e f j k))) + sumn (noa d) (fun m => sumn (nua d) (fun e => (i_ab_oovo H m n e k) * (x_aa R b e j m))) + sumn (noa d) (fun m => sumn (nua d) (fun e => (i_bb_ooov H n m k e) * (x_ab R b e j m))) - sumn (noa d) (fun n' => sumn (nua d) (fun e => (i_ab_ooov H n' n j e) * (x_ab R b e n' k))).
(** ccpy/eomcc/eomccsdt_intermediates.py, get_eomccsdt_intermediates, lines 263-270 *)
Definition reomt_X_bb_vvov (d : dims) (H : ints) (T R : amps) : mat4 := fun b a j e =>
  sumn (noa d) (fun m => (i_bb_voov H a m j e) * (x_b R b m)) + 1 / 2 * (sumn (nua d) (fun e' => (i_bb_vvvv H a b e e') * (x_b R e' j))) + 1 / 4 * (sumn (noa d) (fun n => sumn (noa d) (fun m => (i_bb_ooov H n m j e) * (x_bb R a b m n)))) + sumn (noa d) (fun m => sumn (nua d) (fun e' => (i_bb_vovv H a m e e') * (x_bb R b e' j m))) + sumn (noa d) (fun m => sumn (nua d) (fun e' => (i_ab_ovvv H m a e' e) * (x_ab R e' b m j))) - 1 / 2 * (sumn (noa d) (fun m => (reomt_X_b_ov d H T R m e) * (x_bb T a b m j))).
(** ccpy/eomcc/eomccsdt_intermediates.py, get_eomccsdt_intermediates, line 271 *)
Definition reomt_X_bb_vvov_1 (d : dims) (H : ints) (T R : amps) : mat4 := fun b a j e =>
  reomt_X_bb_vvov d H T R b a j e - reomt_X_bb_vvov d H T R a b j e.
(** ccpy/eomcc/eomccsdt_intermediates.py, get_eomccsdt_intermediates, lines 273-279 *)
Definition reomt_X_bb_vooo (d : dims) (H : ints) (T R : amps) : mat4 := fun b n j i =>
  (-1) / 2 * (sumn (noa d) (fun m => (i_bb_oooo H n m i j) * (x_b R b m))) - sumn (nua d) (fun e => (i_bb_voov H b n i e) * (x_b R e j)) + 1 / 4 * (sumn (nua d) (fun f => sumn (nua d) (fun e => (i_bb_vovv H b n f e) * (x_bb R e f i j)))) + sumn (noa d) (fun m => sumn (nua d) (fun e => (i_bb_ooov H n m i e) * (x_bb R b e j m))) + sumn (noa d) (fun m => sumn (nua d) (fun e => (i_ab_oovo H m n e i) * (x_ab R e b m j))).
(** ccpy/eomcc/eomccsdt_intermediates.py, get_eomccsdt_intermediates, line 280 *)
Definition reomt_X_bb_vooo_1 (d : dims) (H : ints) (T R : amps) : mat4 := fun b n j i =>
  reomt_X_bb_vooo d H T R b n j i - reomt_X_bb_vooo d H T R b n i j.
(** ccpy/eomcc/eomccsdt_intermediates.py, add_R3_terms, lines 285-288 *)
Definition reomt_X_aa_vvov_2 (d : dims) (H : ints) (T R : amps) : mat4 := fun b a j e =>
  reomt_X_aa_vvov_1 d H T R b a j e + ((-1) / 2 * (sumn (noa d) (fun m => sumn (noa d) (fun n => sumn (nua d) (fun f => (i_aa_oovv H m n e f) * (x_aaa R b a f j m n))))) - sumn (noa d) (fun m => sumn (noa d) (fun n => sumn (nua d) (fun f => (i_ab_oovv H m n e f) * (x_aab R b a f j m n))))).
(** ccpy/eomcc/eomccsdt_intermediates.py, add_R3_terms, lines 290-293 *)
Definition reomt_X_aa_vooo_2 (d : dims) (H : ints) (T R : amps) : mat4 := fun b m j i =>
  reomt_X_aa_vooo_1 d H T R b m j i + (1 / 2 * (sumn (noa d) (fun n => sumn (nua d) (fun e => sumn (nua d) (fun f => (i_aa_oovv H m n e f) * (x_aaa R e f b i n j))))) + sumn (noa d) (fun n => sumn (nua d) (fun e => sumn (nua d) (fun f => (i_ab_oovv H m n e f) * (x_aab R e b f i j n))))).
(** ccpy/eomcc/eomccsdt_intermediates.py, add_R3_terms, lines 295-298 *)
Definition reomt_X_ab_vvvo_1 (d : dims) (H : ints) (T R : amps) : mat4 := fun b c e k =>
  reomt_X_ab_vvvo d H T R b c e k + ((-1) / 2 * (sumn (noa d) (fun m => sumn (noa d) (fun n => sumn (nua d) (fun f => (i_aa_oovv H m n e f) * (x_aab R b f c m n k))))) - sumn (noa d) (fun m => sumn (noa d) (fun n => sumn (nua d) (fun f => (i_ab_oovv H m n e f) * (x_abb R b f c m n k))))).
(** ccpy/eomcc/eomccsdt_intermediates.py, add_R3_terms, lines 300-303 *)
Definition reomt_X_ab_ovoo_1 (d : dims) (H : ints) (T R : amps) : mat4 := fun n c j k =>
  reomt_X_ab_ovoo d H T R n c j k + (1 / 2 * (sumn (noa d) (fun n' => sumn (nua d) (fun e => sumn (nua d) (fun f => (i_aa_oovv H n n' e f) * (x_aab R e f c j n' k))))) + sumn (noa d) (fun n' => sumn (nua d) (fun e => sumn (nua d) (fun f => (i_ab_oovv H n n' e f) * (x_abb R e f c j n' k))))).
(** ccpy/eomcc/eomccsdt_intermediates.py, add_R3_terms, lines 305-308 *)
Definition reomt_X_ab_vvov_1 (d : dims) (H : ints) (T R : amps) : mat4 := fun b c j e =>
  reomt_X_ab_vvov d H T R b c j e + ((- (sumn (noa d) (fun n => sumn (noa d) (fun m => sumn (nua d) (fun f => (i_ab_oovv H n m f e) * (x_aab R b f c j n m)))))) - 1 / 2 * (sumn (noa d) (fun m => sumn (noa d) (fun n => sumn (nua d) (fun f => (i_bb_oovv H m n e f) * (x_abb R b f c j n m)))))).
(** ccpy/eomcc/eomccsdt_intermediates.py, add_R3_terms, lines 310-313 *)
Definition reomt_X_ab_vooo_1 (d : dims) (H : ints) (T R : amps) : mat4 := fun b n j k =>
  reomt_X_ab_vooo d H T R b n j k + (sumn (noa d) (fun n' => sumn (nua d) (fun f => sumn (nua d) (fun e => (i_ab_oovv H n' n f e) * (x_aab R b f e j n' k)))) + 1 / 2 * (sumn (noa d) (fun n' => sumn (nua d) (fun e => sumn (nua d) (fun f => (i_bb_oovv H n n' e f) * (x_abb R b e f j k n')))))).
(** ccpy/eomcc/eomccsdt_intermediates.py, add_R3_terms, lines 315-318 *)
Definition reomt_X_bb_vvov_2 (d : dims) (H : ints) (T R : amps) : mat4 := fun b a j e =>
  reomt_X_bb_vvov_1 d H T R b a j e + ((-1) / 2 * (sumn (noa d) (fun m => sumn (noa d) (fun n => sumn (nua d) (fun f => (i_bb_oovv H m n e f) * (x_bbb R a b f m j n))))) - sumn (noa d) (fun n => sumn (noa d) (fun m => sumn (nua d) (fun f => (i_ab_oovv H n m f e) * (x_abb R f b a n j m))))).
(** ccpy/eomcc/eomccsdt_intermediates.py, add_R3_terms, lines 320-323 *)
Definition reomt_X_bb_vooo_2 (d : dims) (H : ints) (T R : amps) : mat4 := fun b n j i =>
  reomt_X_bb_vooo_1 d H T R b n j i + (1 / 2 * (sumn (noa d) (fun n' => sumn (nua d) (fun e => sumn (nua d) (fun f => (i_bb_oovv H n n' e f) * (x_bbb R b e f j i n'))))) + sumn (noa d) (fun n' => sumn (nua d) (fun f => sumn (nua d) (fun e => (i_ab_oovv H n' n f e) * (x_abb R f e b n' i j))))).
(** ccpy/eomcc/eomccsdt.py, build_HR_3A, line 194 *)
Definition reomt_X3A (d : dims) (H : ints) (T R : amps) : mat6 := fun a b c i j k =>
  1 / 4 * (sumn (nua d) (fun e => (reomt_X_aa_vvov_2 d H T R b a j e) * (x_aa T e c i k))).
(** ccpy/eomcc/eomccsdt.py, build_HR_3A, line 195 *)
Definition reomt_X3A_1 (d : dims) (H : ints) (T R : amps) : mat6 := fun a b c i j k =>
  reomt_X3A d H T R a b c i j k + 1 / 4 * (sumn (nua d) (fun e => (i_aa_vvov H b a j e) * (x_aa R e c i k))).
(** ccpy/eomcc/eomccsdt.py, build_HR_3A, line 196 *)
Definition reomt_X3A_2 (d : dims) (H : ints) (T R : amps) : mat6 := fun a b c i j k =>
  reomt_X3A_1 d H T R a b c i j k - 1 / 4 * (sumn (noa d) (fun m => (reomt_X_aa_vooo_2 d H T R b m j i) * (x_aa T a c m k))).
(** ccpy/eomcc/eomccsdt.py, build_HR_3A, line 197 *)
Definition reomt_X3A_3 (d : dims) (H : ints) (T R : amps) : mat6 := fun a b c i j k =>
  reomt_X3A_2 d H T R a b c i j k - 1 / 4 * (sumn (noa d) (fun m => (i_aa_vooo H b m j i) * (x_aa R a c m k))).
(** ccpy/eomcc/eomccsdt.py, build_HR_3A, line 199 *)
Definition reomt_X3A_4 (d : dims) (H : ints) (T R : amps) : mat6 := fun a b c i j k =>
  reomt_X3A_3 d H T R a b c i j k + 1 / 12 * (sumn (nua d) (fun e => (reomt_X_a_vv_1 d H T R b e) * (x_aaa T a e c i j k))).
(** ccpy/eomcc/eomccsdt.py, build_HR_3A, line 200 *)
Definition reomt_X3A_5 (d : dims) (H : ints) (T R : amps) : mat6 := fun a b c i j k =>
  reomt_X3A_4 d H T R a b c i j k - 1 / 12 * (sumn (noa d) (fun m => (reomt_X_a_oo_1 d H T R m j) * (x_aaa T a b c i m k))).
(** ccpy/eomcc/eomccsdt.py, build_HR_3A, line 201 *)
Definition reomt_X3A_6 (d : dims) (H : ints) (T R : amps) : mat6 := fun a b c i j k =>
  reomt_X3A_5 d H T R a b c i j k + 1 / 24 * (sumn (noa d) (fun m => sumn (noa d) (fun n => (reomt_X_aa_oooo_1 d H T R m n i j) * (x_aaa T a b c m n k)))).
(** ccpy/eomcc/eomccsdt.py, build_HR_3A, line 202 *)
Definition reomt_X3A_7 (d : dims) (H : ints) (T R : amps) : mat6 := fun a b c i j k =>
  reomt_X3A_6 d H T R a b c i j k + 1 / 24 * (sumn (nua d) (fun e => sumn (nua d) (fun f => (reomt_X_aa_vvvv_1 d H T R a b e f) * (x_aaa T e f c i j k)))).
(** ccpy/eomcc/eomccsdt.py, build_HR_3A, line 203 *)
Definition reomt_X3A_8 (d : dims) (H : ints) (T R : amps) : mat6 := fun a b c i j k =>
  reomt_X3A_7 d H T R a b c i j k + 1 / 4 * (sumn (noa d) (fun m => sumn (nua d) (fun e => (reomt_X_aa_voov d H T R b m j e) * (x_aaa T a e c i m k)))).
(** ccpy/eomcc/eomccsdt.py, build_HR_3A, line 204 *)
Definition reomt_X3A_9 (d : dims) (H : ints) (T R : amps) : mat6 := fun a b c i j k =>
  reomt_X3A_8 d H T R a b c i j k + 1 / 4 * (sumn (noa d) (fun m => sumn (nua d) (fun e => (reomt_X_ab_voov d H T R b m j e) * (x_aab T a c e i k m)))).
(** ccpy/eomcc/eomccsdt.py, build_HR_3A, line 206 *)
Definition reomt_X3A_10 (d : dims) (H : ints) (T R : amps) : mat6 := fun a b c i j k =>
  reomt_X3A_9 d H T R a b c i j k - 1 / 12 * (sumn (noa d) (fun m => (i_a_oo H m j) * (x_aaa R a b c i m k))).
(** ccpy/eomcc/eomccsdt.py, build_HR_3A, line 207 *)
Definition reomt_X3A_11 (d : dims) (H : ints) (T R : amps) : mat6 := fun a b c i j k =>
  reomt_X3A_10 d H T R a b c i j k + 1 / 12 * (sumn (nua d) (fun e => (i_a_vv H b e) * (x_aaa R a e c i j k))).
(** ccpy/eomcc/eomccsdt.py, build_HR_3A, line 208 *)
Definition reomt_X3A_12 (d : dims) (H : ints) (T R : amps) : mat6 := fun a b c i j k =>
  reomt_X3A_11 d H T R a b c i j k + 1 / 24 * (sumn (noa d) (fun m => sumn (noa d) (fun n => (i_aa_oooo H m n i j) * (x_aaa R a b c m n k)))).
(** ccpy/eomcc/eomccsdt.py, build_HR_3A, line 209 *)
Definition reomt_X3A_13 (d : dims) (H : ints) (T R : amps) : mat6 := fun a b c i j k =>
  reomt_X3A_12 d H T R a b c i j k + 1 / 24 * (sumn (nua d) (fun e => sumn (nua d) (fun f => (i_aa_vvvv H a b e f) * (x_aaa R e f c i j k)))).
(** ccpy/eomcc/eomccsdt.py, build_HR_3A, line 210 *)
Definition reomt_X3A_14 (d : dims) (H : ints) (T R : amps) : mat6 := fun a b c i j k =>
  reomt_X3A_13 d H T R a b c i j k + 1 / 4 * (sumn (noa d) (fun m => sumn (nua d) (fun e => (i_aa_voov H a m i e) * (x_aaa R e b c m j k)))).
(** ccpy/eomcc/eomccsdt.py, build_HR_3A, line 211 *)
Definition reomt_X3A_15 (d : dims) (H : ints) (T R : amps) : mat6 := fun a b c i j k =>
  reomt_X3A_14 d H T R a b c i j k + 1 / 4 * (sumn (noa d) (fun m => sumn (nua d) (fun e => (i_ab_voov H a m i e) * (x_aab R b c e j k m)))).
(** ccpy/eomcc/eomccsdt.py, build_HR_3A, line 213 *)
Definition reomt_X3A_16 (d : dims) (H : ints) (T R : amps) : mat6 := fun a b c i j k =>
  reomt_X3A_15 d H T R a b c i j k - reomt_X3A_15 d H T R a b c i k j.
(** ccpy/eomcc/eomccsdt.py, build_HR_3A, line 214 *)
Definition reomt_X3A_17 (d : dims) (H : ints) (T R : amps) : mat6 := fun a b c i j k =>
  reomt_X3A_16 d H T R a b c i j k - (reomt_X3A_16 d H T R a b c j i k + reomt_X3A_16 d H T R a b c k j i).
(** ccpy/eomcc/eomccsdt.py, build_HR_3A, line 215 *)
Definition reomt_X3A_18 (d : dims) (H : ints) (T R : amps) : mat6 := fun a b c i j k =>
  reomt_X3A_17 d H T R a b c i j k - reomt_X3A_17 d H T R a c b i j k.
(** ccpy/eomcc/eomccsdt.py, build_HR_3A, line 216 *)
Definition reomt_X3A_19 (d : dims) (H : ints) (T R : amps) : mat6 := fun a b c i j k =>
  reomt_X3A_18 d H T R a b c i j k - (reomt_X3A_18 d H T R b a c i j k + reomt_X3A_18 d H T R c b a i j k).
(** ccpy/eomcc/eomccsdt.py, build_HR_3B, line 222 *)
Definition reomt_X3B (d : dims) (H : ints) (T R : amps) : mat6 := fun a b c i j k =>
  1 / 2 * (sumn (nua d) (fun e => (reomt_X_ab_vvvo_1 d H T R b c e k) * (x_aa T a e i j))).
(** ccpy/eomcc/eomccsdt.py, build_HR_3B, line 223 *)
Definition reomt_X3B_1 (d : dims) (H : ints) (T R : amps) : mat6 := fun a b c i j k =>
  reomt_X3B d H T R a b c i j k + 1 / 2 * (sumn (nua d) (fun e => (i_ab_vvvo H b c e k) * (x_aa R a e i j))).
(** ccpy/eomcc/eomccsdt.py, build_HR_3B, line 225 *)
Definition reomt_X3B_2 (d : dims) (H : ints) (T R : amps) : mat6 := fun a b c i j k =>
  reomt_X3B_1 d H T R a b c i j k - 1 / 2 * (sumn (noa d) (fun n => (reomt_X_ab_ovoo_1 d H T R n c j k) * (x_aa T a b i n))).
(** ccpy/eomcc/eomccsdt.py, build_HR_3B, line 226 *)
Definition reomt_X3B_3 (d : dims) (H : ints) (T R : amps) : mat6 := fun a b c i j k =>
  reomt_X3B_2 d H T R a b c i j k - 1 / 2 * (sumn (noa d) (fun m => (i_ab_ovoo H m c j k) * (x_aa R a b i m))).
(** ccpy/eomcc/eomccsdt.py, build_HR_3B, line 228 *)
Definition reomt_X3B_4 (d : dims) (H : ints) (T R : amps) : mat6 := fun a b c i j k =>
  reomt_X3B_3 d H T R a b c i j k + 1 / 2 * (sumn (nua d) (fun e => (reomt_X_aa_vvov_2 d H T R b a j e) * (x_ab T e c i k))).
(** ccpy/eomcc/eomccsdt.py, build_HR_3B, line 229 *)
Definition reomt_X3B_5 (d : dims) (H : ints) (T R : amps) : mat6 := fun a b c i j k =>
  reomt_X3B_4 d H T R a b c i j k + 1 / 2 * (sumn (nua d) (fun e => (i_aa_vvov H b a j e) * (x_ab R e c i k))).
(** ccpy/eomcc/eomccsdt.py, build_HR_3B, line 231 *)
Definition reomt_X3B_6 (d : dims) (H : ints) (T R : amps) : mat6 := fun a b c i j k =>
  reomt_X3B_5 d H T R a b c i j k - 1 / 2 * (sumn (noa d) (fun n => (reomt_X_aa_vooo_2 d H T R b n j i) * (x_ab T a c n k))).
(** ccpy/eomcc/eomccsdt.py, build_HR_3B, line 232 *)
Definition reomt_X3B_7 (d : dims) (H : ints) (T R : amps) : mat6 := fun a b c i j k =>
  reomt_X3B_6 d H T R a b c i j k - 1 / 2 * (sumn (noa d) (fun n => (i_aa_vooo H b n j i) * (x_ab R a c n k))).
(** ccpy/eomcc/eomccsdt.py, build_HR_3B, line 234 *)
Definition reomt_X3B_8 (d : dims) (H : ints) (T R : amps) : mat6 := fun a b c i j k =>
  reomt_X3B_7 d H T R a b c i j k + sumn (nua d) (fun e => (reomt_X_ab_vvov_1 d H T R b c j e) * (x_ab T a e i k)).
(** ccpy/eomcc/eomccsdt.py, build_HR_3B, line 235 *)
Definition reomt_X3B_9 (d : dims) (H : ints) (T R : amps) : mat6 := fun a b c i j k =>
  reomt_X3B_8 d H T R a b c i j k + sumn (nua d) (fun e => (i_ab_vvov H b c j e) * (x_ab R a e i k)).
(** ccpy/eomcc/eomccsdt.py, build_HR_3B, line 237 *)
Definition reomt_X3B_10 (d : dims) (H : ints) (T R : amps) : mat6 := fun a b c i j k =>
  reomt_X3B_9 d H T R a b c i j k - sumn (noa d) (fun n => (reomt_X_ab_vooo_1 d H T R b n j k) * (x_ab T a c i n)).
(** ccpy/eomcc/eomccsdt.py, build_HR_3B, line 238 *)
Definition reomt_X3B_11 (d : dims) (H : ints) (T R : amps) : mat6 := fun a b c i j k =>
  reomt_X3B_10 d H T R a b c i j k - sumn (noa d) (fun n => (i_ab_vooo H b n j k) * (x_ab R a c i n)).
(** ccpy/eomcc/eomccsdt.py, build_HR_3B, line 241 *)
Definition reomt_X3B_12 (d : dims) (H : ints) (T R : amps) : mat6 := fun a b c i j k =>
  reomt_X3B_11 d H T R a b c i j k + 1 / 2 * (sumn (nua d) (fun e => (reomt_X_a_vv_1 d H T R b e) * (x_aab T a e c i j k))).
(** ccpy/eomcc/eomccsdt.py, build_HR_3B, line 242 *)
Definition reomt_X3B_13 (d : dims) (H : ints) (T R : amps) : mat6 := fun a b c i j k =>
  reomt_X3B_12 d H T R a b c i j k + 1 / 4 * (sumn (nua d) (fun e => (reomt_X_b_vv_1 d H T R c e) * (x_aab T a b e i j k))).
(** ccpy/eomcc/eomccsdt.py, build_HR_3B, line 243 *)
Definition reomt_X3B_14 (d : dims) (H : ints) (T R : amps) : mat6 := fun a b c i j k =>
  reomt_X3B_13 d H T R a b c i j k - 1 / 2 * (sumn (noa d) (fun m => (reomt_X_a_oo_1 d H T R m j) * (x_aab T a b c i m k))).
(** ccpy/eomcc/eomccsdt.py, build_HR_3B, line 244 *)
Definition reomt_X3B_15 (d : dims) (H : ints) (T R : amps) : mat6 := fun a b c i j k =>
  reomt_X3B_14 d H T R a b c i j k - 1 / 4 * (sumn (noa d) (fun m => (reomt_X_b_oo_1 d H T R m k) * (x_aab T a b c i j m))).
(** ccpy/eomcc/eomccsdt.py, build_HR_3B, line 245 *)
Definition reomt_X3B_16 (d : dims) (H : ints) (T R : amps) : mat6 := fun a b c i j k =>
  reomt_X3B_15 d H T R a b c i j k + 1 / 2 * (sumn (noa d) (fun n => sumn (noa d) (fun m => (reomt_X_ab_oooo d H T R n m j k) * (x_aab T a b c i n m)))).
(** ccpy/eomcc/eomccsdt.py, build_HR_3B, line 246 *)
Definition reomt_X3B_17 (d : dims) (H : ints) (T R : amps) : mat6 := fun a b c i j k =>
  reomt_X3B_16 d H T R a b c i j k + 1 / 8 * (sumn (noa d) (fun m => sumn (noa d) (fun n => (reomt_X_aa_oooo_1 d H T R m n i j) * (x_aab T a b c m n k)))).
(** ccpy/eomcc/eomccsdt.py, build_HR_3B, line 247 *)
Definition reomt_X3B_18 (d : dims) (H : ints) (T R : amps) : mat6 := fun a b c i j k =>
  reomt_X3B_17 d H T R a b c i j k + 1 / 2 * (sumn (nua d) (fun f => sumn (nua d) (fun e => (reomt_X_ab_vvvv d H T R b c f e) * (x_aab T a f e i j k)))).
(** ccpy/eomcc/eomccsdt.py, build_HR_3B, line 248 *)
Definition reomt_X3B_19 (d : dims) (H : ints) (T R : amps) : mat6 := fun a b c i j k =>
  reomt_X3B_18 d H T R a b c i j k + 1 / 8 * (sumn (nua d) (fun e => sumn (nua d) (fun f => (reomt_X_aa_vvvv_1 d H T R a b e f) * (x_aab T e f c i j k)))).
(** ccpy/eomcc/eomccsdt.py, build_HR_3B, line 249 *)
Definition reomt_X3B_20 (d : dims) (H : ints) (T R : amps) : mat6 := fun a b c i j k =>
  reomt_X3B_19 d H T R a b c i j k + 1 / 4 * (sumn (noa d) (fun n => sumn (nua d) (fun f => (reomt_X_ab_ovvo d H T R n c f k) * (x_aaa T a b f i j n)))).
(** ccpy/eomcc/eomccsdt.py, build_HR_3B, line 250 *)
Definition reomt_X3B_21 (d : dims) (H : ints) (T R : amps) : mat6 := fun a b c i j k =>
  reomt_X3B_20 d H T R a b c i j k + 1 / 4 * (sumn (noa d) (fun n => sumn (nua d) (fun f => (reomt_X_bb_voov d H T R c n k f) * (x_aab T a b f i j n)))).
(** ccpy/eomcc/eomccsdt.py, build_HR_3B, line 251 *)
Definition reomt_X3B_22 (d : dims) (H : ints) (T R : amps) : mat6 := fun a b c i j k =>
  reomt_X3B_21 d H T R a b c i j k - 1 / 2 * (sumn (noa d) (fun m => sumn (nua d) (fun f => (reomt_X_ab_vovo d H T R b m f k) * (x_aab T a f c i j m)))).
(** ccpy/eomcc/eomccsdt.py, build_HR_3B, line 252 *)
Definition reomt_X3B_23 (d : dims) (H : ints) (T R : amps) : mat6 := fun a b c i j k =>
  reomt_X3B_22 d H T R a b c i j k - 1 / 2 * (sumn (noa d) (fun n => sumn (nua d) (fun e => (reomt_X_ab_ovov d H T R n c j e) * (x_aab T a b e i n k)))).
(** ccpy/eomcc/eomccsdt.py, build_HR_3B, line 253 *)
Definition reomt_X3B_24 (d : dims) (H : ints) (T R : amps) : mat6 := fun a b c i j k =>
  reomt_X3B_23 d H T R a b c i j k + sumn (noa d) (fun m => sumn (nua d) (fun e => (reomt_X_aa_voov d H T R b m j e) * (x_aab T a e c i m k))).
(** ccpy/eomcc/eomccsdt.py, build_HR_3B, line 254 *)
Definition reomt_X3B_25 (d : dims) (H : ints) (T R : amps) : mat6 := fun a b c i j k =>
  reomt_X3B_24 d H T R a b c i j k + sumn (noa d) (fun m => sumn (nua d) (fun e => (reomt_X_ab_voov d H T R b m j e) * (x_abb T a e c i m k))).
(** ccpy/eomcc/eomccsdt.py, build_HR_3B, line 256 *)
Definition reomt_X3B_26 (d : dims) (H : ints) (T R : amps) : mat6 := fun a b c i j k =>
  reomt_X3B_25 d H T R a b c i j k - 1 / 2 * (sumn (noa d) (fun m => (i_a_oo H m j) * (x_aab R a b c i m k))).
(** ccpy/eomcc/eomccsdt.py, build_HR_3B, line 257 *)
Definition reomt_X3B_27 (d : dims) (H : ints) (T R : amps) : mat6 := fun a b c i j k =>
  reomt_X3B_26 d H T R a b c i j k - 1 / 4 * (sumn (noa d) (fun m => (i_b_oo H m k) * (x_aab R a b c i j m))).
(** ccpy/eomcc/eomccsdt.py, build_HR_3B, line 258 *)
Definition reomt_X3B_28 (d : dims) (H : ints) (T R : amps) : mat6 := fun a b c i j k =>
  reomt_X3B_27 d H T R a b c i j k + 1 / 2 * (sumn (nua d) (fun e => (i_a_vv H b e) * (x_aab R a e c i j k))).
(** ccpy/eomcc/eomccsdt.py, build_HR_3B, line 259 *)
Definition reomt_X3B_29 (d : dims) (H : ints) (T R : amps) : mat6 := fun a b c i j k =>
  reomt_X3B_28 d H T R a b c i j k + 1 / 4 * (sumn (nua d) (fun e => (i_b_vv H c e) * (x_aab R a b e i j k))).
(** ccpy/eomcc/eomccsdt.py, build_HR_3B, line 260 *)
Definition reomt_X3B_30 (d : dims) (H : ints) (T R : amps) : mat6 := fun a b c i j k =>
  reomt_X3B_29 d H T R a b c i j k + 1 / 8 * (sumn (noa d) (fun m => sumn (noa d) (fun n => (i_aa_oooo H m n i j) * (x_aab R a b c m n k)))).
(** ccpy/eomcc/eomccsdt.py, build_HR_3B, line 261 *)
Definition reomt_X3B_31 (d : dims) (H : ints) (T R : amps) : mat6 := fun a b c i j k =>
  reomt_X3B_30 d H T R a b c i j k + 1 / 2 * (sumn (noa d) (fun m => sumn (noa d) (fun n => (i_ab_oooo H m n j k) * (x_aab R a b c i m n)))).
(** ccpy/eomcc/eomccsdt.py, build_HR_3B, line 262 *)
Definition reomt_X3B_32 (d : dims) (H : ints) (T R : amps) : mat6 := fun a b c i j k =>
  reomt_X3B_31 d H T R a b c i j k + 1 / 8 * (sumn (nua d) (fun e => sumn (nua d) (fun f => (i_aa_vvvv H a b e f) * (x_aab R e f c i j k)))).
(** ccpy/eomcc/eomccsdt.py, build_HR_3B, line 263 *)
Definition reomt_X3B_33 (d : dims) (H : ints) (T R : amps) : mat6 := fun a b c i j k =>
  reomt_X3B_32 d H T R a b c i j k + 1 / 2 * (sumn (nua d) (fun e => sumn (nua d) (fun f => (i_ab_vvvv H b c e f) * (x_aab R a e f i j k)))).
(** ccpy/eomcc/eomccsdt.py, build_HR_3B, line 264 *)
Definition reomt_X3B_34 (d : dims) (H : ints) (T R : amps) : mat6 := fun a b c i j k =>
  reomt_X3B_33 d H T R a b c i j k + sumn (noa d) (fun m => sumn (nua d) (fun e => (i_aa_voov H a m i e) * (x_aab R e b c m j k))).
(** ccpy/eomcc/eomccsdt.py, build_HR_3B, line 265 *)
Definition reomt_X3B_35 (d : dims) (H : ints) (T R : amps) : mat6 := fun a b c i j k =>
  reomt_X3B_34 d H T R a b c i j k + sumn (noa d) (fun m => sumn (nua d) (fun e => (i_ab_voov H a m i e) * (x_abb R b e c j m k))).
(** ccpy/eomcc/eomccsdt.py, build_HR_3B, line 266 *)
Definition reomt_X3B_36 (d : dims) (H : ints) (T R : amps) : mat6 := fun a b c i j k =>
  reomt_X3B_35 d H T R a b c i j k + 1 / 4 * (sumn (noa d) (fun m => sumn (nua d) (fun e => (i_ab_ovvo H m c e k) * (x_aaa R a b e i j m)))).
(** ccpy/eomcc/eomccsdt.py, build_HR_3B, line 267 *)
Definition reomt_X3B_37 (d : dims) (H : ints) (T R : amps) : mat6 := fun a b c i j k =>
  reomt_X3B_36 d H T R a b c i j k + 1 / 4 * (sumn (noa d) (fun m => sumn (nua d) (fun e => (i_bb_voov H c m k e) * (x_aab R a b e i j m)))).
(** ccpy/eomcc/eomccsdt.py, build_HR_3B, line 268 *)
Definition reomt_X3B_38 (d : dims) (H : ints) (T R : amps) : mat6 := fun a b c i j k =>
  reomt_X3B_37 d H T R a b c i j k - 1 / 2 * (sumn (noa d) (fun m => sumn (nua d) (fun e => (i_ab_vovo H b m e k) * (x_aab R a e c i j m)))).
(** ccpy/eomcc/eomccsdt.py, build_HR_3B, line 269 *)
Definition reomt_X3B_39 (d : dims) (H : ints) (T R : amps) : mat6 := fun a b c i j k =>
  reomt_X3B_38 d H T R a b c i j k - 1 / 2 * (sumn (noa d) (fun m => sumn (nua d) (fun e => (i_ab_ovov H m c j e) * (x_aab R a b e i m k)))).
(** ccpy/eomcc/eomccsdt.py, build_HR_3B, line 270 *)
Definition reomt_X3B_40 (d : dims) (H : ints) (T R : amps) : mat6 := fun a b c i j k =>
  reomt_X3B_39 d H T R a b c i j k - reomt_X3B_39 d H T R b a c i j k.
(** ccpy/eomcc/eomccsdt.py, build_HR_3B, line 271 *)
Definition reomt_X3B_41 (d : dims) (H : ints) (T R : amps) : mat6 := fun a b c i j k =>
  reomt_X3B_40 d H T R a b c i j k - reomt_X3B_40 d H T R a b c j i k.
(** ccpy/eomcc/eomccsdt.py, HR, line 58 *)
Definition reomt_dR_abb (d : dims) (H : ints) (T R : amps) : mat6 := fun a b c i j k =>
  reomt_X3B_41 d H T R c b a k j i.
(** ccpy/eomcc/eomccsdt.py, HR, line 59 *)
Definition reomt_dR_bbb (d : dims) (H : ints) (T R : amps) : mat6 := fun a b c i j k =>
  reomt_X3A_19 d H T R a b c i j k.
(** eomccsdt.py, HR, flag_RHF = True: the vector returned *)
Definition reomt_HR (d : dims) (H : ints) (T R : amps) : amps := mkAmps (reomt_X1A_12 d H T R) (reomt_dR_b d H T R) (reomt_X2A_19 d H T R) (reomt_X2B_31 d H T R) (reomt_dR_bb d H T R) (reomt_X3A_19 d H T R) (reomt_X3B_41 d H T R) (reomt_dR_abb d H T R) (reomt_dR_bbb d H T R).
