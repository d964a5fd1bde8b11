(** Generated by tools/gen_eomsdt.py from the source text (symbolic execution of the numpy statements; exact reals).
    Models ccpy/hbar/hbar_ccsdt.py (build_hbar_ccsdt, RHF_symmetry = False), ccpy/eomcc/eomccsdt_intermediates.py (get_eomccsd_intermediates,
    get_eomccsdt_intermediates, add_R3_terms) and ccpy/eomcc/eomccsdt.py (HR, build_HR_1A .. build_HR_3D, flag_RHF = False). *)
From Coq Require Import Reals Arith.
From Verif Require Import RSum IntegralsModel TensorObjs.
Open Scope R_scope.
(** ccpy/hbar/hbar_ccsdt.py, build_hbar_ccsdt, lines 8-11 *)
Definition hb3_H_a_ov (d : dims) (H : ints) (T : amps) : mat2 := fun i a =>
  i_a_ov H i a + (sumn (noa d) (fun m => sumn (nua d) (fun e => (i_aa_oovv H i m a e) * (x_a T e m))) + sumn (nob d) (fun m => sumn (nub d) (fun e => (i_ab_oovv H i m a e) * (x_b T e m)))).
(** ccpy/hbar/hbar_ccsdt.py, build_hbar_ccsdt, lines 13-19 *)
Definition hb3_H_a_oo (d : dims) (H : ints) (T : amps) : mat2 := fun i j =>
  i_a_oo H i j + (sumn (nua d) (fun e => (hb3_H_a_ov d H T i e) * (x_a T e j)) + sumn (noa d) (fun m => sumn (nua d) (fun e => (i_aa_ooov H i m j e) * (x_a T e m))) + sumn (nob d) (fun m => sumn (nub d) (fun e => (i_ab_ooov H i m j e) * (x_b T e m))) + 1 / 2 * (sumn (noa d) (fun n => sumn (nua d) (fun e => sumn (nua d) (fun f => (i_aa_oovv H i n e f) * (x_aa T e f j n))))) + sumn (nob d) (fun n => sumn (nua d) (fun e => sumn (nub d) (fun f => (i_ab_oovv H i n e f) * (x_ab T e f j n))))).
(** ccpy/hbar/hbar_ccsdt.py, build_hbar_ccsdt, lines 21-27 *)
Definition hb3_H_a_vv (d : dims) (H : ints) (T : amps) : mat2 := fun a b =>
  i_a_vv H a b + ((- (sumn (noa d) (fun m => (hb3_H_a_ov d H T m b) * (x_a T a m)))) + sumn (noa d) (fun m => sumn (nua d) (fun e => (i_aa_vovv H a m b e) * (x_a T e m))) + sumn (nob d) (fun m => sumn (nub d) (fun e => (i_ab_vovv H a m b e) * (x_b T e m))) - 1 / 2 * (sumn (noa d) (fun m => sumn (noa d) (fun n => sumn (nua d) (fun f => (i_aa_oovv H m n b f) * (x_aa T a f m n))))) - sumn (noa d) (fun m => sumn (nob d) (fun n => sumn (nub d) (fun f => (i_ab_oovv H m n b f) * (x_ab T a f m n))))).
(** ccpy/hbar/hbar_ccsdt.py, build_hbar_ccsdt, lines 29-32 *)
Definition hb3_H_b_ov (d : dims) (H : ints) (T : amps) : mat2 := fun i a =>
  i_b_ov H i a + (sumn (nob d) (fun m => sumn (nub d) (fun e => (i_bb_oovv H i m a e) * (x_b T e m))) + sumn (noa d) (fun m => sumn (nua d) (fun e => (i_ab_oovv H m i e a) * (x_a T e m)))).
(** ccpy/hbar/hbar_ccsdt.py, build_hbar_ccsdt, lines 34-40 *)
Definition hb3_H_b_oo (d : dims) (H : ints) (T : amps) : mat2 := fun i j =>
  i_b_oo H i j + (sumn (nub d) (fun e => (hb3_H_b_ov d H T i e) * (x_b T e j)) + sumn (nob d) (fun m => sumn (nub d) (fun e => (i_bb_ooov H i m j e) * (x_b T e m))) + sumn (noa d) (fun m => sumn (nua d) (fun e => (i_ab_oovo H m i e j) * (x_a T e m))) + 1 / 2 * (sumn (nob d) (fun n => sumn (nub d) (fun e => sumn (nub d) (fun f => (i_bb_oovv H i n e f) * (x_bb T e f j n))))) + sumn (noa d) (fun n => sumn (nua d) (fun f => sumn (nub d) (fun e => (i_ab_oovv H n i f e) * (x_ab T f e n j))))).
(** ccpy/hbar/hbar_ccsdt.py, build_hbar_ccsdt, lines 42-48 *)
Definition hb3_H_b_vv (d : dims) (H : ints) (T : amps) : mat2 := fun a b =>
  i_b_vv H a b + ((- (sumn (nob d) (fun m => (hb3_H_b_ov d H T m b) * (x_b T a m)))) + sumn (nob d) (fun m => sumn (nub d) (fun e => (i_bb_vovv H a m b e) * (x_b T e m))) + sumn (noa d) (fun m => sumn (nua d) (fun e => (i_ab_ovvv H m a e b) * (x_a T e m))) - 1 / 2 * (sumn (nob d) (fun m => sumn (nob d) (fun n => sumn (nub d) (fun f => (i_bb_oovv H m n b f) * (x_bb T a f m n))))) - sumn (noa d) (fun n => sumn (nob d) (fun m => sumn (nua d) (fun f => (i_ab_oovv H n m f b) * (x_ab T f a n m))))).
(** ccpy/hbar/hbar_ccsdt.py, build_hbar_ccsdt, line 52 *)
Definition hb3_tau_aa (d : dims) (H : ints) (T : amps) : mat4 := fun a b i j =>
  1 / 2 * (x_aa T a b i j) + (x_a T a i) * (x_a T b j).
(** ccpy/hbar/hbar_ccsdt.py, build_hbar_ccsdt, line 53 *)
Definition hb3_tau_aa_1 (d : dims) (H : ints) (T : amps) : mat4 := fun a b i j =>
  hb3_tau_aa d H T a b i j - hb3_tau_aa d H T a b j i.
(** ccpy/hbar/hbar_ccsdt.py, build_hbar_ccsdt, line 57 *)
Definition hb3_tau_bb (d : dims) (H : ints) (T : amps) : mat4 := fun a b i j =>
  1 / 2 * (x_bb T a b i j) + (x_b T a i) * (x_b T b j).
(** ccpy/hbar/hbar_ccsdt.py, build_hbar_ccsdt, line 58 *)
Definition hb3_tau_bb_1 (d : dims) (H : ints) (T : amps) : mat4 := fun a b i j =>
  hb3_tau_bb d H T a b i j - hb3_tau_bb d H T a b j i.
(** ccpy/hbar/hbar_ccsdt.py, build_hbar_ccsdt, line 59 *)
Definition hb3_tau_ab (d : dims) (H : ints) (T : amps) : mat4 := fun a b i j =>
  x_ab T a b i j + (x_a T a i) * (x_b T b j).
(** ccpy/hbar/hbar_ccsdt.py, build_hbar_ccsdt, lines 65-69 *)
Definition hb3_H_aa_oooo (d : dims) (H : ints) (T : amps) : mat4 := fun m n i j =>
  1 / 2 * (i_aa_oooo H m n i j) + sumn (nua d) (fun e => (i_aa_ooov H n m j e) * (x_a T e i)) + 1 / 4 * (sumn (nua d) (fun e => sumn (nua d) (fun f => (i_aa_oovv H m n e f) * (hb3_tau_aa_1 d H T e f i j)))).
(** ccpy/hbar/hbar_ccsdt.py, build_hbar_ccsdt, line 70 *)
Definition hb3_H_aa_oooo_1 (d : dims) (H : ints) (T : amps) : mat4 := fun m n i j =>
  hb3_H_aa_oooo d H T m n i j - hb3_H_aa_oooo d H T m n j i.
(** ccpy/hbar/hbar_ccsdt.py, build_hbar_ccsdt, lines 74-78 *)
Definition hb3_H_bb_oooo (d : dims) (H : ints) (T : amps) : mat4 := fun m n i j =>
  1 / 2 * (i_bb_oooo H m n i j) + sumn (nub d) (fun e => (i_bb_ooov H n m j e) * (x_b T e i)) + 1 / 4 * (sumn (nub d) (fun e => sumn (nub d) (fun f => (i_bb_oovv H m n e f) * (hb3_tau_bb_1 d H T e f i j)))).
(** ccpy/hbar/hbar_ccsdt.py, build_hbar_ccsdt, line 79 *)
Definition hb3_H_bb_oooo_1 (d : dims) (H : ints) (T : amps) : mat4 := fun m n i j =>
  hb3_H_bb_oooo d H T m n i j - hb3_H_bb_oooo d H T m n j i.
(** ccpy/hbar/hbar_ccsdt.py, build_hbar_ccsdt, lines 80-85 *)
Definition hb3_H_ab_oooo (d : dims) (H : ints) (T : amps) : mat4 := fun m n i j =>
  i_ab_oooo H m n i j + sumn (nua d) (fun e => (i_ab_oovo H m n e j) * (x_a T e i)) + sumn (nub d) (fun e => (i_ab_ooov H m n i e) * (x_b T e j)) + sumn (nua d) (fun e => sumn (nub d) (fun f => (i_ab_oovv H m n e f) * (hb3_tau_ab d H T e f i j))).
(** ccpy/hbar/hbar_ccsdt.py, build_hbar_ccsdt, line 91 *)
Definition hb3_H_aa_ooov (d : dims) (H : ints) (T : amps) : mat4 := fun i j k a =>
  i_aa_ooov H i j k a + sumn (nua d) (fun f => (i_aa_oovv H i j f a) * (x_a T f k)).
(** ccpy/hbar/hbar_ccsdt.py, build_hbar_ccsdt, line 95 *)
Definition hb3_H_bb_ooov (d : dims) (H : ints) (T : amps) : mat4 := fun i j k a =>
  i_bb_ooov H i j k a + sumn (nub d) (fun f => (i_bb_oovv H i j f a) * (x_b T f k)).
(** ccpy/hbar/hbar_ccsdt.py, build_hbar_ccsdt, line 96 *)
Definition hb3_H_ab_ooov (d : dims) (H : ints) (T : amps) : mat4 := fun i j k a =>
  i_ab_ooov H i j k a + sumn (nua d) (fun f => (i_ab_oovv H i j f a) * (x_a T f k)).
(** ccpy/hbar/hbar_ccsdt.py, build_hbar_ccsdt, line 97 *)
Definition hb3_H_ab_oovo (d : dims) (H : ints) (T : amps) : mat4 := fun i j a k =>
  i_ab_oovo H i j a k + sumn (nub d) (fun f => (i_ab_oovv H i j a f) * (x_b T f k)).
(** ccpy/hbar/hbar_ccsdt.py, build_hbar_ccsdt, lines 103-106 *)
Definition hb3_Q1 (d : dims) (H : ints) (T : amps) : mat4 := fun a m i j =>
  sumn (noa d) (fun n => sumn (nua d) (fun f => (hb3_H_aa_ooov d H T m n j f) * (x_aa T a f i n))) + sumn (nob d) (fun n => sumn (nub d) (fun f => (hb3_H_ab_ooov d H T m n j f) * (x_ab T a f i n))).
(** ccpy/hbar/hbar_ccsdt.py, build_hbar_ccsdt, line 107 *)
Definition hb3_Q2 (d : dims) (H : ints) (T : amps) : mat4 := fun a m i f =>
  i_aa_voov H a m i f + 1 / 2 * (sumn (nua d) (fun e => (i_aa_vovv H a m e f) * (x_a T e i))).
(** ccpy/hbar/hbar_ccsdt.py, build_hbar_ccsdt, line 108 *)
Definition hb3_Q2_1 (d : dims) (H : ints) (T : amps) : mat4 := fun a m i j =>
  sumn (nua d) (fun f => (hb3_Q2 d H T a m i f) * (x_a T f j)).
(** ccpy/hbar/hbar_ccsdt.py, build_hbar_ccsdt, line 109 *)
Definition hb3_Q1_1 (d : dims) (H : ints) (T : amps) : mat4 := fun a m i j =>
  hb3_Q1 d H T a m i j + hb3_Q2_1 d H T a m i j.
(** ccpy/hbar/hbar_ccsdt.py, build_hbar_ccsdt, line 110 *)
Definition hb3_Q1_2 (d : dims) (H : ints) (T : amps) : mat4 := fun a m i j =>
  hb3_Q1_1 d H T a m i j - hb3_Q1_1 d H T a m j i.
(** ccpy/hbar/hbar_ccsdt.py, build_hbar_ccsdt, lines 111-117 *)
Definition hb3_H_aa_vooo (d : dims) (H : ints) (T : amps) : mat4 := fun a m i j =>
  i_aa_vooo H a m i j + hb3_Q1_2 d H T a m i j + (sumn (nua d) (fun e => (hb3_H_a_ov d H T m e) * (x_aa T a e i j)) - sumn (noa d) (fun n => (hb3_H_aa_oooo_1 d H T n m i j) * (x_a T a n)) + 1 / 2 * (sumn (nua d) (fun e => sumn (nua d) (fun f => (i_aa_vovv H a m e f) * (x_aa T e f i j)))) + 1 / 2 * (sumn (noa d) (fun n => sumn (nua d) (fun e => sumn (nua d) (fun f => (i_aa_oovv H m n e f) * (x_aaa T a e f i j n))))) + sumn (nob d) (fun n => sumn (nua d) (fun e => sumn (nub d) (fun f => (i_ab_oovv H m n e f) * (x_aab T a e f i j n))))).
(** ccpy/hbar/hbar_ccsdt.py, build_hbar_ccsdt, lines 121-124 *)
Definition hb3_Q1_3 (d : dims) (H : ints) (T : amps) : mat4 := fun a m i j =>
  sumn (nob d) (fun n => sumn (nub d) (fun f => (hb3_H_bb_ooov d H T m n j f) * (x_bb T a f i n))) + sumn (noa d) (fun n => sumn (nua d) (fun f => (hb3_H_ab_oovo d H T n m f j) * (x_ab T f a n i))).
(** ccpy/hbar/hbar_ccsdt.py, build_hbar_ccsdt, line 125 *)
Definition hb3_Q2_2 (d : dims) (H : ints) (T : amps) : mat4 := fun a m i f =>
  i_bb_voov H a m i f + 1 / 2 * (sumn (nub d) (fun e => (i_bb_vovv H a m e f) * (x_b T e i))).
(** ccpy/hbar/hbar_ccsdt.py, build_hbar_ccsdt, line 126 *)
Definition hb3_Q2_3 (d : dims) (H : ints) (T : amps) : mat4 := fun a m i j =>
  sumn (nub d) (fun f => (hb3_Q2_2 d H T a m i f) * (x_b T f j)).
(** ccpy/hbar/hbar_ccsdt.py, build_hbar_ccsdt, line 127 *)
Definition hb3_Q1_4 (d : dims) (H : ints) (T : amps) : mat4 := fun a m i j =>
  hb3_Q1_3 d H T a m i j + hb3_Q2_3 d H T a m i j.
(** ccpy/hbar/hbar_ccsdt.py, build_hbar_ccsdt, line 128 *)
Definition hb3_Q1_5 (d : dims) (H : ints) (T : amps) : mat4 := fun a m i j =>
  hb3_Q1_4 d H T a m i j - hb3_Q1_4 d H T a m j i.
(** ccpy/hbar/hbar_ccsdt.py, build_hbar_ccsdt, lines 129-135 *)
Definition hb3_H_bb_vooo (d : dims) (H : ints) (T : amps) : mat4 := fun a m i j =>
  i_bb_vooo H a m i j + hb3_Q1_5 d H T a m i j + (sumn (nub d) (fun e => (hb3_H_b_ov d H T m e) * (x_bb T a e i j)) - sumn (nob d) (fun n => (hb3_H_bb_oooo_1 d H T n m i j) * (x_b T a n)) + 1 / 2 * (sumn (nub d) (fun e => sumn (nub d) (fun f => (i_bb_vovv H a m e f) * (x_bb T e f i j)))) + 1 / 2 * (sumn (nob d) (fun n => sumn (nub d) (fun e => sumn (nub d) (fun f => (i_bb_oovv H m n e f) * (x_bbb T a e f i j n))))) + sumn (noa d) (fun n => sumn (nua d) (fun f => sumn (nub d) (fun e => (i_ab_oovv H n m f e) * (x_abb T f a e n i j))))).
(** ccpy/hbar/hbar_ccsdt.py, build_hbar_ccsdt, line 136 *)
Definition hb3_Q1_6 (d : dims) (H : ints) (T : amps) : mat4 := fun a m i e =>
  i_ab_voov H a m i e + sumn (nua d) (fun f => (i_ab_vovv H a m f e) * (x_a T f i)).
(** ccpy/hbar/hbar_ccsdt.py, build_hbar_ccsdt, lines 137-148 *)
Definition hb3_H_ab_vooo (d : dims) (H : ints) (T : amps) : mat4 := fun a m i j =>
  i_ab_vooo H a m i j + (sumn (nub d) (fun e => (hb3_H_b_ov d H T m e) * (x_ab T a e i j)) - sumn (noa d) (fun n => (hb3_H_ab_oooo d H T n m i j) * (x_a T a n)) + sumn (nob d) (fun n => sumn (nub d) (fun f => (hb3_H_bb_ooov d H T m n j f) * (x_ab T a f i n))) + sumn (noa d) (fun n => sumn (nua d) (fun f => (hb3_H_ab_oovo d H T n m f j) * (x_aa T a f i n))) - sumn (noa d) (fun n => sumn (nub d) (fun f => (hb3_H_ab_ooov d H T n m i f) * (x_ab T a f n j))) + sumn (nua d) (fun e => (i_ab_vovo H a m e j) * (x_a T e i)) + sumn (nub d) (fun e => (hb3_Q1_6 d H T a m i e) * (x_b T e j)) + sumn (nua d) (fun e => sumn (nub d) (fun f => (i_ab_vovv H a m e f) * (x_ab T e f i j))) + sumn (noa d) (fun n => sumn (nua d) (fun f => sumn (nub d) (fun e => (i_ab_oovv H n m f e) * (x_aab T a f e i n j)))) + 1 / 2 * (sumn (nob d) (fun n => sumn (nub d) (fun e => sumn (nub d) (fun f => (i_bb_oovv H m n e f) * (x_abb T a e f i j n)))))).
(** ccpy/hbar/hbar_ccsdt.py, build_hbar_ccsdt, line 149 *)
Definition hb3_Q1_7 (d : dims) (H : ints) (T : amps) : mat4 := fun m a j e =>
  i_ab_ovov H m a j e + sumn (nua d) (fun f => (i_ab_ovvv H m a f e) * (x_a T f j)).
(** ccpy/hbar/hbar_ccsdt.py, build_hbar_ccsdt, lines 150-161 *)
Definition hb3_H_ab_ovoo (d : dims) (H : ints) (T : amps) : mat4 := fun m a j i =>
  i_ab_ovoo H m a j i + (sumn (nua d) (fun e => (hb3_H_a_ov d H T m e) * (x_ab T e a j i)) - sumn (nob d) (fun n => (hb3_H_ab_oooo d H T m n j i) * (x_b T a n)) + sumn (noa d) (fun n => sumn (nua d) (fun f => (hb3_H_aa_ooov d H T m n j f) * (x_ab T f a n i))) + sumn (nob d) (fun n => sumn (nub d) (fun f => (hb3_H_ab_ooov d H T m n j f) * (x_bb T f a n i))) - sumn (nob d) (fun n => sumn (nua d) (fun f => (hb3_H_ab_oovo d H T m n f i) * (x_ab T f a j n))) + sumn (nub d) (fun e => (hb3_Q1_7 d H T m a j e) * (x_b T e i)) + sumn (nua d) (fun e => (i_ab_ovvo H m a e i) * (x_a T e j)) + sumn (nua d) (fun f => sumn (nub d) (fun e => (i_ab_ovvv H m a f e) * (x_ab T f e j i))) + 1 / 2 * (sumn (noa d) (fun n => sumn (nua d) (fun e => sumn (nua d) (fun f => (i_aa_oovv H m n e f) * (x_aab T e f a j n i))))) + sumn (nob d) (fun n => sumn (nua d) (fun e => sumn (nub d) (fun f => (i_ab_oovv H m n e f) * (x_abb T e f a j n i))))).
(** ccpy/hbar/hbar_ccsdt.py, build_hbar_ccsdt, lines 167-173 *)
Definition hb3_H_aa_voov (d : dims) (H : ints) (T : amps) : mat4 := fun a m i e =>
  i_aa_voov H a m i e + sumn (nua d) (fun f => (i_aa_vovv H a m f e) * (x_a T f i)) - sumn (noa d) (fun n => (hb3_H_aa_ooov d H T n m i e) * (x_a T a n)) + sumn (noa d) (fun n => sumn (nua d) (fun f => (i_aa_oovv H n m f e) * (x_aa T a f i n))) + sumn (nob d) (fun n => sumn (nub d) (fun f => (i_ab_oovv H m n e f) * (x_ab T a f i n))).
(** ccpy/hbar/hbar_ccsdt.py, build_hbar_ccsdt, lines 177-183 *)
Definition hb3_H_bb_voov (d : dims) (H : ints) (T : amps) : mat4 := fun a m i e =>
  i_bb_voov H a m i e + sumn (nub d) (fun f => (i_bb_vovv H a m f e) * (x_b T f i)) - sumn (nob d) (fun n => (hb3_H_bb_ooov d H T n m i e) * (x_b T a n)) + sumn (nob d) (fun n => sumn (nub d) (fun f => (i_bb_oovv H n m f e) * (x_bb T a f i n))) + sumn (noa d) (fun n => sumn (nua d) (fun f => (i_ab_oovv H n m f e) * (x_ab T f a n i))).
(** ccpy/hbar/hbar_ccsdt.py, build_hbar_ccsdt, lines 184-190 *)
Definition hb3_H_ab_voov (d : dims) (H : ints) (T : amps) : mat4 := fun a m i e =>
  i_ab_voov H a m i e + sumn (nua d) (fun f => (i_ab_vovv H a m f e) * (x_a T f i)) - sumn (noa d) (fun n => (hb3_H_ab_ooov d H T n m i e) * (x_a T a n)) + sumn (noa d) (fun n => sumn (nua d) (fun f => (i_ab_oovv H n m f e) * (x_aa T a f i n))) + sumn (nob d) (fun n => sumn (nub d) (fun f => (i_bb_oovv H n m f e) * (x_ab T a f i n))).
(** ccpy/hbar/hbar_ccsdt.py, build_hbar_ccsdt, lines 191-197 *)
Definition hb3_H_ab_ovvo (d : dims) (H : ints) (T : amps) : mat4 := fun m a e i =>
  i_ab_ovvo H m a e i + sumn (nub d) (fun f => (i_ab_ovvv H m a e f) * (x_b T f i)) - sumn (nob d) (fun n => (hb3_H_ab_oovo d H T m n e i) * (x_b T a n)) + sumn (nob d) (fun n => sumn (nub d) (fun f => (i_ab_oovv H m n e f) * (x_bb T a f i n))) + sumn (noa d) (fun n => sumn (nua d) (fun f => (i_aa_oovv H m n e f) * (x_ab T f a n i))).
(** ccpy/hbar/hbar_ccsdt.py, build_hbar_ccsdt, lines 198-203 *)
Definition hb3_H_ab_ovov (d : dims) (H : ints) (T : amps) : mat4 := fun m a i e =>
  i_ab_ovov H m a i e + sumn (nua d) (fun f => (i_ab_ovvv H m a f e) * (x_a T f i)) - sumn (nob d) (fun n => (hb3_H_ab_ooov d H T m n i e) * (x_b T a n)) - sumn (nob d) (fun n => sumn (nua d) (fun f => (i_ab_oovv H m n f e) * (x_ab T f a i n))).
(** ccpy/hbar/hbar_ccsdt.py, build_hbar_ccsdt, lines 204-209 *)
Definition hb3_H_ab_vovo (d : dims) (H : ints) (T : amps) : mat4 := fun a m e i =>
  i_ab_vovo H a m e i - sumn (noa d) (fun n => (hb3_H_ab_oovo d H T n m e i) * (x_a T a n)) + sumn (nub d) (fun f => (i_ab_vovv H a m e f) * (x_b T f i)) - sumn (noa d) (fun n => sumn (nub d) (fun f => (i_ab_oovv H n m e f) * (x_ab T a f n i))).
(** ccpy/hbar/hbar_ccsdt.py, build_hbar_ccsdt, line 215 *)
Definition hb3_x2a_voov (d : dims) (H : ints) (T : amps) : mat4 := fun a m i e =>
  hb3_H_aa_voov d H T a m i e + 1 / 2 * (sumn (noa d) (fun n => (hb3_H_aa_ooov d H T n m i e) * (x_a T a n))).
(** ccpy/hbar/hbar_ccsdt.py, build_hbar_ccsdt, lines 216-227 *)
Definition hb3_H_aa_vvov (d : dims) (H : ints) (T : amps) : mat4 := fun a b i e =>
  1 / 2 * (i_aa_vvov H a b i e) - 1 / 2 * (sumn (noa d) (fun m => (hb3_H_a_ov d H T m e) * (x_aa T a b i m))) - sumn (noa d) (fun m => (hb3_x2a_voov d H T a m i e) * (x_a T b m)) + 1 / 4 * (sumn (noa d) (fun m => sumn (noa d) (fun n => (hb3_H_aa_ooov d H T m n i e) * (x_aa T a b m n)))) + 1 / 2 * (sumn (nua d) (fun f => (i_aa_vvvv H a b f e) * (x_a T f i))) + sumn (noa d) (fun n => sumn (nua d) (fun f => (i_aa_vovv H b n e f) * (x_aa T a f i n))) + sumn (nob d) (fun n => sumn (nub d) (fun f => (i_ab_vovv H b n e f) * (x_ab T a f i n))) - 1 / 4 * (sumn (noa d) (fun m => sumn (noa d) (fun n => sumn (nua d) (fun f => (i_aa_oovv H m n e f) * (x_aaa T a b f i m n))))) - 1 / 2 * (sumn (noa d) (fun m => sumn (nob d) (fun n => sumn (nub d) (fun f => (i_ab_oovv H m n e f) * (x_aab T a b f i m n))))).
(** ccpy/hbar/hbar_ccsdt.py, build_hbar_ccsdt, line 228 *)
Definition hb3_H_aa_vvov_1 (d : dims) (H : ints) (T : amps) : mat4 := fun a b i e =>
  hb3_H_aa_vvov d H T a b i e - hb3_H_aa_vvov d H T b a i e.
(** ccpy/hbar/hbar_ccsdt.py, build_hbar_ccsdt, line 232 *)
Definition hb3_x2c_voov (d : dims) (H : ints) (T : amps) : mat4 := fun a m i e =>
  hb3_H_bb_voov d H T a m i e + 1 / 2 * (sumn (nob d) (fun n => (hb3_H_bb_ooov d H T n m i e) * (x_b T a n))).
(** ccpy/hbar/hbar_ccsdt.py, build_hbar_ccsdt, lines 233-244 *)
Definition hb3_H_bb_vvov (d : dims) (H : ints) (T : amps) : mat4 := fun a b i e =>
  1 / 2 * (i_bb_vvov H a b i e) - 1 / 2 * (sumn (nob d) (fun m => (hb3_H_b_ov d H T m e) * (x_bb T a b i m))) - sumn (nob d) (fun m => (hb3_x2c_voov d H T a m i e) * (x_b T b m)) + 1 / 4 * (sumn (nob d) (fun m => sumn (nob d) (fun n => (hb3_H_bb_ooov d H T m n i e) * (x_bb T a b m n)))) + 1 / 2 * (sumn (nub d) (fun f => (i_bb_vvvv H a b f e) * (x_b T f i))) + sumn (nob d) (fun n => sumn (nub d) (fun f => (i_bb_vovv H b n e f) * (x_bb T a f i n))) + sumn (noa d) (fun n => sumn (nua d) (fun f => (i_ab_ovvv H n b f e) * (x_ab T f a n i))) - 1 / 4 * (sumn (nob d) (fun m => sumn (nob d) (fun n => sumn (nub d) (fun f => (i_bb_oovv H m n e f) * (x_bbb T a b f i m n))))) - 1 / 2 * (sumn (noa d) (fun n => sumn (nob d) (fun m => sumn (nua d) (fun f => (i_ab_oovv H n m f e) * (x_abb T f a b n i m))))).
(** ccpy/hbar/hbar_ccsdt.py, build_hbar_ccsdt, line 245 *)
Definition hb3_H_bb_vvov_1 (d : dims) (H : ints) (T : amps) : mat4 := fun a b i e =>
  hb3_H_bb_vvov d H T a b i e - hb3_H_bb_vvov d H T b a i e.
(** ccpy/hbar/hbar_ccsdt.py, build_hbar_ccsdt, line 248 *)
Definition hb3_x2b_voov (d : dims) (H : ints) (T : amps) : mat4 := fun a m i e =>
  hb3_H_ab_voov d H T a m i e + 1 / 2 * (sumn (noa d) (fun n => (hb3_H_ab_ooov d H T n m i e) * (x_a T a n))).
(** ccpy/hbar/hbar_ccsdt.py, build_hbar_ccsdt, line 249 *)
Definition hb3_x2b_ovov (d : dims) (H : ints) (T : amps) : mat4 := fun m a i e =>
  hb3_H_ab_ovov d H T m a i e + 1 / 2 * (sumn (nob d) (fun m' => (hb3_H_ab_ooov d H T m m' i e) * (x_b T a m'))).
(** ccpy/hbar/hbar_ccsdt.py, build_hbar_ccsdt, lines 250-263 *)
Definition hb3_H_ab_vvov (d : dims) (H : ints) (T : amps) : mat4 := fun a b i e =>
  i_ab_vvov H a b i e - sumn (nob d) (fun m => (hb3_H_b_ov d H T m e) * (x_ab T a b i m)) - sumn (nob d) (fun m => (hb3_x2b_voov d H T a m i e) * (x_b T b m)) - sumn (noa d) (fun m => (hb3_x2b_ovov d H T m b i e) * (x_a T a m)) + sumn (noa d) (fun n => sumn (nob d) (fun m => (hb3_H_ab_ooov d H T n m i e) * (x_ab T a b n m))) + sumn (nua d) (fun f => (i_ab_vvvv H a b f e) * (x_a T f i)) + sumn (noa d) (fun m => sumn (nua d) (fun f => (i_ab_ovvv H m b f e) * (x_aa T a f i m))) + sumn (nob d) (fun m => sumn (nub d) (fun f => (i_bb_vovv H b m e f) * (x_ab T a f i m))) - sumn (nob d) (fun m => sumn (nua d) (fun f => (i_ab_vovv H a m f e) * (x_ab T f b i m))) - sumn (noa d) (fun n => sumn (nob d) (fun m => sumn (nua d) (fun f => (i_ab_oovv H n m f e) * (x_aab T a f b i n m)))) - 1 / 2 * (sumn (nob d) (fun m => sumn (nob d) (fun n => sumn (nub d) (fun f => (i_bb_oovv H m n e f) * (x_abb T a f b i n m))))).
(** ccpy/hbar/hbar_ccsdt.py, build_hbar_ccsdt, line 264 *)
Definition hb3_x2b_ovvo (d : dims) (H : ints) (T : amps) : mat4 := fun m a e i =>
  hb3_H_ab_ovvo d H T m a e i + 1 / 2 * (sumn (nob d) (fun m' => (hb3_H_ab_oovo d H T m m' e i) * (x_b T a m'))).
(** ccpy/hbar/hbar_ccsdt.py, build_hbar_ccsdt, line 265 *)
Definition hb3_x2b_vovo (d : dims) (H : ints) (T : amps) : mat4 := fun a m e i =>
  hb3_H_ab_vovo d H T a m e i + 1 / 2 * (sumn (noa d) (fun n => (hb3_H_ab_oovo d H T n m e i) * (x_a T a n))).
(** ccpy/hbar/hbar_ccsdt.py, build_hbar_ccsdt, lines 266-279 *)
Definition hb3_H_ab_vvvo (d : dims) (H : ints) (T : amps) : mat4 := fun b a e i =>
  i_ab_vvvo H b a e i - sumn (noa d) (fun m => (hb3_H_a_ov d H T m e) * (x_ab T b a m i)) - sumn (noa d) (fun m => (hb3_x2b_ovvo d H T m a e i) * (x_a T b m)) - sumn (nob d) (fun m => (hb3_x2b_vovo d H T b m e i) * (x_b T a m)) + sumn (noa d) (fun n => sumn (nob d) (fun m => (hb3_H_ab_oovo d H T n m e i) * (x_ab T b a n m))) + sumn (nub d) (fun f => (i_ab_vvvv H b a e f) * (x_b T f i)) + sumn (nob d) (fun m => sumn (nub d) (fun f => (i_ab_vovv H b m e f) * (x_bb T a f i m))) + sumn (noa d) (fun m => sumn (nua d) (fun f => (i_aa_vovv H b m e f) * (x_ab T f a m i))) - sumn (noa d) (fun m => sumn (nub d) (fun f => (i_ab_ovvv H m a e f) * (x_ab T b f m i))) - 1 / 2 * (sumn (noa d) (fun m => sumn (noa d) (fun n => sumn (nua d) (fun f => (i_aa_oovv H m n e f) * (x_aab T b f a m n i))))) - sumn (noa d) (fun m => sumn (nob d) (fun n => sumn (nub d) (fun f => (i_ab_oovv H m n e f) * (x_abb T b f a m n i)))).
(** ccpy/hbar/hbar_ccsdt.py, build_hbar_ccsdt, lines 285-289 *)
Definition hb3_H_aa_vvvv (d : dims) (H : ints) (T : amps) : mat4 := fun a b e f =>
  1 / 2 * (i_aa_vvvv H a b e f) + 1 / 4 * (sumn (noa d) (fun m => sumn (noa d) (fun n => (i_aa_oovv H m n e f) * (hb3_tau_aa_1 d H T a b m n)))) - sumn (noa d) (fun m => (i_aa_vovv H a m e f) * (x_a T b m)).
(** ccpy/hbar/hbar_ccsdt.py, build_hbar_ccsdt, line 290 *)
Definition hb3_H_aa_vvvv_1 (d : dims) (H : ints) (T : amps) : mat4 := fun a b e f =>
  hb3_H_aa_vvvv d H T a b e f - hb3_H_aa_vvvv d H T b a e f.
(** ccpy/hbar/hbar_ccsdt.py, build_hbar_ccsdt, lines 294-298 *)
Definition hb3_H_bb_vvvv (d : dims) (H : ints) (T : amps) : mat4 := fun a b e f =>
  1 / 2 * (i_bb_vvvv H a b e f) + 1 / 4 * (sumn (nob d) (fun m => sumn (nob d) (fun n => (i_bb_oovv H m n e f) * (hb3_tau_bb_1 d H T a b m n)))) - sumn (nob d) (fun m => (i_bb_vovv H a m e f) * (x_b T b m)).
(** ccpy/hbar/hbar_ccsdt.py, build_hbar_ccsdt, line 299 *)
Definition hb3_H_bb_vvvv_1 (d : dims) (H : ints) (T : amps) : mat4 := fun a b e f =>
  hb3_H_bb_vvvv d H T a b e f - hb3_H_bb_vvvv d H T b a e f.
(** ccpy/hbar/hbar_ccsdt.py, build_hbar_ccsdt, lines 300-305 *)
Definition hb3_H_ab_vvvv (d : dims) (H : ints) (T : amps) : mat4 := fun a b e f =>
  i_ab_vvvv H a b e f - sumn (noa d) (fun m => (i_ab_ovvv H m b e f) * (x_a T a m)) - sumn (nob d) (fun m => (i_ab_vovv H a m e f) * (x_b T b m)) + sumn (noa d) (fun m => sumn (nob d) (fun n => (i_ab_oovv H m n e f) * (hb3_tau_ab d H T a b m n))).
(** ccpy/hbar/hbar_ccsdt.py, build_hbar_ccsdt, line 311 *)
Definition hb3_H_aa_vovv (d : dims) (H : ints) (T : amps) : mat4 := fun a i b c =>
  i_aa_vovv H a i b c - sumn (noa d) (fun n => (i_aa_oovv H i n c b) * (x_a T a n)).
(** ccpy/hbar/hbar_ccsdt.py, build_hbar_ccsdt, line 315 *)
Definition hb3_H_bb_vovv (d : dims) (H : ints) (T : amps) : mat4 := fun a i b c =>
  i_bb_vovv H a i b c - sumn (nob d) (fun n => (i_bb_oovv H i n c b) * (x_b T a n)).
(** ccpy/hbar/hbar_ccsdt.py, build_hbar_ccsdt, line 316 *)
Definition hb3_H_ab_vovv (d : dims) (H : ints) (T : amps) : mat4 := fun a i b c =>
  i_ab_vovv H a i b c - sumn (noa d) (fun n => (i_ab_oovv H n i b c) * (x_a T a n)).
(** ccpy/hbar/hbar_ccsdt.py, build_hbar_ccsdt, line 317 *)
Definition hb3_H_ab_ovvv (d : dims) (H : ints) (T : amps) : mat4 := fun i a b c =>
  i_ab_ovvv H i a b c - sumn (nob d) (fun n => (i_ab_oovv H i n b c) * (x_b T a n)).
(** hbar_ccsdt.py, build_hbar_ccsdt, line 319: all blocks when the function returns (those never assigned keep the bare integrals) *)
Definition hbar_ccsdt (d : dims) (H : ints) (T : amps) : ints := mkInts (hb3_H_a_oo d H T) (hb3_H_a_ov d H T) (i_a_vo H) (hb3_H_a_vv d H T) (hb3_H_b_oo d H T) (hb3_H_b_ov d H T) (i_b_vo H) (hb3_H_b_vv d H T) (hb3_H_aa_oooo_1 d H T) (hb3_H_aa_ooov d H T) (i_aa_oovo H) (i_aa_oovv H) (i_aa_ovoo H) (i_aa_ovov H) (i_aa_ovvo H) (i_aa_ovvv H) (hb3_H_aa_vooo d H T) (hb3_H_aa_voov d H T) (i_aa_vovo H) (hb3_H_aa_vovv d H T) (i_aa_vvoo H) (hb3_H_aa_vvov_1 d H T) (i_aa_vvvo H) (hb3_H_aa_vvvv_1 d H T) (hb3_H_ab_oooo d H T) (hb3_H_ab_ooov d H T) (hb3_H_ab_oovo d H T) (i_ab_oovv H) (hb3_H_ab_ovoo d H T) (hb3_H_ab_ovov d H T) (hb3_H_ab_ovvo d H T) (hb3_H_ab_ovvv d H T) (hb3_H_ab_vooo d H T) (hb3_H_ab_voov d H T) (hb3_H_ab_vovo d H T) (hb3_H_ab_vovv d H T) (i_ab_vvoo H) (hb3_H_ab_vvov d H T) (hb3_H_ab_vvvo d H T) (hb3_H_ab_vvvv d H T) (hb3_H_bb_oooo_1 d H T) (hb3_H_bb_ooov d H T) (i_bb_oovo H) (i_bb_oovv H) (i_bb_ovoo H) (i_bb_ovov H) (i_bb_ovvo H) (i_bb_ovvv H) (hb3_H_bb_vooo d H T) (hb3_H_bb_voov d H T) (i_bb_vovo H) (hb3_H_bb_vovv d H T) (i_bb_vvoo H) (hb3_H_bb_vvov_1 d H T) (i_bb_vvvo H) (hb3_H_bb_vvvv_1 d H T).
(** ccpy/eomcc/eomccsdt.py, build_HR_1A, line 68 *)
Definition eomt_X1A (d : dims) (H : ints) (T R : amps) : mat2 := fun a i =>
  (- (sumn (noa d) (fun m => (i_a_oo H m i) * (x_a R a m)))).
(** ccpy/eomcc/eomccsdt.py, build_HR_1A, line 69 *)
Definition eomt_X1A_1 (d : dims) (H : ints) (T R : amps) : mat2 := fun a i =>
  eomt_X1A d H T R a i + sumn (nua d) (fun e => (i_a_vv H a e) * (x_a R e i)).
(** ccpy/eomcc/eomccsdt.py, build_HR_1A, line 70 *)
Definition eomt_X1A_2 (d : dims) (H : ints) (T R : amps) : mat2 := fun a i =>
  eomt_X1A_1 d H T R a i + sumn (noa d) (fun m => sumn (nua d) (fun e => (i_aa_voov H a m i e) * (x_a R e m))).
(** ccpy/eomcc/eomccsdt.py, build_HR_1A, line 71 *)
Definition eomt_X1A_3 (d : dims) (H : ints) (T R : amps) : mat2 := fun a i =>
  eomt_X1A_2 d H T R a i + sumn (nob d) (fun m => sumn (nub d) (fun e => (i_ab_voov H a m i e) * (x_b R e m))).
(** ccpy/eomcc/eomccsdt.py, build_HR_1A, line 72 *)
Definition eomt_X1A_4 (d : dims) (H : ints) (T R : amps) : mat2 := fun a i =>
  eomt_X1A_3 d H T R a i - 1 / 2 * (sumn (noa d) (fun m => sumn (noa d) (fun n => sumn (nua d) (fun f => (i_aa_ooov H m n i f) * (x_aa R a f m n))))).
(** ccpy/eomcc/eomccsdt.py, build_HR_1A, line 73 *)
Definition eomt_X1A_5 (d : dims) (H : ints) (T R : amps) : mat2 := fun a i =>
  eomt_X1A_4 d H T R a i - sumn (noa d) (fun m => sumn (nob d) (fun n => sumn (nub d) (fun f => (i_ab_ooov H m n i f) * (x_ab R a f m n)))).
(** ccpy/eomcc/eomccsdt.py, build_HR_1A, line 74 *)
Definition eomt_X1A_6 (d : dims) (H : ints) (T R : amps) : mat2 := fun a i =>
  eomt_X1A_5 d H T R a i + 1 / 2 * (sumn (noa d) (fun n => sumn (nua d) (fun e => sumn (nua d) (fun f => (i_aa_vovv H a n e f) * (x_aa R e f i n))))).
(** ccpy/eomcc/eomccsdt.py, build_HR_1A, line 75 *)
Definition eomt_X1A_7 (d : dims) (H : ints) (T R : amps) : mat2 := fun a i =>
  eomt_X1A_6 d H T R a i + sumn (nob d) (fun n => sumn (nua d) (fun e => sumn (nub d) (fun f => (i_ab_vovv H a n e f) * (x_ab R e f i n)))).
(** ccpy/eomcc/eomccsdt.py, build_HR_1A, line 76 *)
Definition eomt_X1A_8 (d : dims) (H : ints) (T R : amps) : mat2 := fun a i =>
  eomt_X1A_7 d H T R a i + sumn (noa d) (fun m => sumn (nua d) (fun e => (i_a_ov H m e) * (x_aa R a e i m))).
(** ccpy/eomcc/eomccsdt.py, build_HR_1A, line 77 *)
Definition eomt_X1A_9 (d : dims) (H : ints) (T R : amps) : mat2 := fun a i =>
  eomt_X1A_8 d H T R a i + sumn (nob d) (fun m => sumn (nub d) (fun e => (i_b_ov H m e) * (x_ab R a e i m))).
(** ccpy/eomcc/eomccsdt.py, build_HR_1A, line 79 *)
Definition eomt_X1A_10 (d : dims) (H : ints) (T R : amps) : mat2 := fun a i =>
  eomt_X1A_9 d H T R a i + 1 / 4 * (sumn (noa d) (fun m => sumn (noa d) (fun n => sumn (nua d) (fun e => sumn (nua d) (fun f => (i_aa_oovv H m n e f) * (x_aaa R a e f i m n)))))).
(** ccpy/eomcc/eomccsdt.py, build_HR_1A, line 80 *)
Definition eomt_X1A_11 (d : dims) (H : ints) (T R : amps) : mat2 := fun a i =>
  eomt_X1A_10 d H T R a i + sumn (noa d) (fun m => sumn (nob d) (fun n => sumn (nua d) (fun e => sumn (nub d) (fun f => (i_ab_oovv H m n e f) * (x_aab R a e f i m n))))).
(** ccpy/eomcc/eomccsdt.py, build_HR_1A, line 81 *)
Definition eomt_X1A_12 (d : dims) (H : ints) (T R : amps) : mat2 := fun a i =>
  eomt_X1A_11 d H T R a i + 1 / 4 * (sumn (nob d) (fun m => sumn (nob d) (fun n => sumn (nub d) (fun e => sumn (nub d) (fun f => (i_bb_oovv H m n e f) * (x_abb R a e f i m n)))))).
(** ccpy/eomcc/eomccsdt.py, build_HR_1B, line 86 *)
Definition eomt_X1B (d : dims) (H : ints) (T R : amps) : mat2 := fun a i =>
  (- (sumn (nob d) (fun m => (i_b_oo H m i) * (x_b R a m)))).
(** ccpy/eomcc/eomccsdt.py, build_HR_1B, line 87 *)
Definition eomt_X1B_1 (d : dims) (H : ints) (T R : amps) : mat2 := fun a i =>
  eomt_X1B d H T R a i + sumn (nub d) (fun e => (i_b_vv H a e) * (x_b R e i)).
(** ccpy/eomcc/eomccsdt.py, build_HR_1B, line 88 *)
Definition eomt_X1B_2 (d : dims) (H : ints) (T R : amps) : mat2 := fun a i =>
  eomt_X1B_1 d H T R a i + sumn (noa d) (fun m => sumn (nua d) (fun e => (i_ab_ovvo H m a e i) * (x_a R e m))).
(** ccpy/eomcc/eomccsdt.py, build_HR_1B, line 89 *)
Definition eomt_X1B_3 (d : dims) (H : ints) (T R : amps) : mat2 := fun a i =>
  eomt_X1B_2 d H T R a i + sumn (nob d) (fun m => sumn (nub d) (fun e => (i_bb_voov H a m i e) * (x_b R e m))).
(** ccpy/eomcc/eomccsdt.py, build_HR_1B, line 90 *)
Definition eomt_X1B_4 (d : dims) (H : ints) (T R : amps) : mat2 := fun a i =>
  eomt_X1B_3 d H T R a i - sumn (noa d) (fun n => sumn (nob d) (fun m => sumn (nua d) (fun f => (i_ab_oovo H n m f i) * (x_ab R f a n m)))).
(** ccpy/eomcc/eomccsdt.py, build_HR_1B, line 91 *)
Definition eomt_X1B_5 (d : dims) (H : ints) (T R : amps) : mat2 := fun a i =>
  eomt_X1B_4 d H T R a i - 1 / 2 * (sumn (nob d) (fun m => sumn (nob d) (fun n => sumn (nub d) (fun f => (i_bb_ooov H m n i f) * (x_bb R a f m n))))).
(** ccpy/eomcc/eomccsdt.py, build_HR_1B, line 92 *)
Definition eomt_X1B_6 (d : dims) (H : ints) (T R : amps) : mat2 := fun a i =>
  eomt_X1B_5 d H T R a i + sumn (noa d) (fun n => sumn (nua d) (fun f => sumn (nub d) (fun e => (i_ab_ovvv H n a f e) * (x_ab R f e n i)))).
(** ccpy/eomcc/eomccsdt.py, build_HR_1B, line 93 *)
Definition eomt_X1B_7 (d : dims) (H : ints) (T R : amps) : mat2 := fun a i =>
  eomt_X1B_6 d H T R a i + 1 / 2 * (sumn (nob d) (fun n => sumn (nub d) (fun e => sumn (nub d) (fun f => (i_bb_vovv H a n e f) * (x_bb R e f i n))))).
(** ccpy/eomcc/eomccsdt.py, build_HR_1B, line 94 *)
Definition eomt_X1B_8 (d : dims) (H : ints) (T R : amps) : mat2 := fun a i =>
  eomt_X1B_7 d H T R a i + sumn (noa d) (fun m => sumn (nua d) (fun e => (i_a_ov H m e) * (x_ab R e a m i))).
(** ccpy/eomcc/eomccsdt.py, build_HR_1B, line 95 *)
Definition eomt_X1B_9 (d : dims) (H : ints) (T R : amps) : mat2 := fun a i =>
  eomt_X1B_8 d H T R a i + sumn (nob d) (fun m => sumn (nub d) (fun e => (i_b_ov H m e) * (x_bb R a e i m))).
(** ccpy/eomcc/eomccsdt.py, build_HR_1B, line 97 *)
Definition eomt_X1B_10 (d : dims) (H : ints) (T R : amps) : mat2 := fun a i =>
  eomt_X1B_9 d H T R a i + 1 / 4 * (sumn (noa d) (fun m => sumn (noa d) (fun n => sumn (nua d) (fun e => sumn (nua d) (fun f => (i_aa_oovv H m n e f) * (x_aab R e f a m n i)))))).
(** ccpy/eomcc/eomccsdt.py, build_HR_1B, line 98 *)
Definition eomt_X1B_11 (d : dims) (H : ints) (T R : amps) : mat2 := fun a i =>
  eomt_X1B_10 d H T R a i + sumn (noa d) (fun m => sumn (nob d) (fun n => sumn (nua d) (fun e => sumn (nub d) (fun f => (i_ab_oovv H m n e f) * (x_abb R e f a m n i))))).
(** ccpy/eomcc/eomccsdt.py, build_HR_1B, line 99 *)
Definition eomt_X1B_12 (d : dims) (H : ints) (T R : amps) : mat2 := fun a i =>
  eomt_X1B_11 d H T R a i + 1 / 4 * (sumn (nob d) (fun m => sumn (nob d) (fun n => sumn (nub d) (fun e => sumn (nub d) (fun f => (i_bb_oovv H m n e f) * (x_bbb R a e f i m n)))))).
(** ccpy/eomcc/eomccsdt_intermediates.py, get_eomccsd_intermediates, lines 12-15 *)
Definition eomt_X_a_ov (d : dims) (H : ints) (T R : amps) : mat2 := fun m e =>
  sumn (noa d) (fun n => sumn (nua d) (fun f => (i_aa_oovv H m n e f) * (x_a R f n))) + sumn (nob d) (fun n => sumn (nub d) (fun f => (i_ab_oovv H m n e f) * (x_b R f n))).
(** ccpy/eomcc/eomccsdt_intermediates.py, get_eomccsd_intermediates, lines 17-20 *)
Definition eomt_X_b_ov (d : dims) (H : ints) (T R : amps) : mat2 := fun m e =>
  sumn (noa d) (fun n => sumn (nua d) (fun f => (i_ab_oovv H n m f e) * (x_a R f n))) + sumn (nob d) (fun n => sumn (nub d) (fun f => (i_bb_oovv H n m f e) * (x_b R f n))).
(** ccpy/eomcc/eomccsdt_intermediates.py, get_eomccsd_intermediates, lines 22-27 *)
Definition eomt_X_a_oo (d : dims) (H : ints) (T R : amps) : mat2 := fun m j =>
  sumn (noa d) (fun n => sumn (nua d) (fun f => (i_aa_ooov H m n j f) * (x_a R f n))) + sumn (nob d) (fun n => sumn (nub d) (fun f => (i_ab_ooov H m n j f) * (x_b R f n))) + 1 / 2 * (sumn (noa d) (fun n => sumn (nua d) (fun e => sumn (nua d) (fun f => (i_aa_oovv H m n e f) * (x_aa R e f j n))))) + sumn (nob d) (fun n => sumn (nua d) (fun e => sumn (nub d) (fun f => (i_ab_oovv H m n e f) * (x_ab R e f j n)))).
(** ccpy/eomcc/eomccsdt_intermediates.py, get_eomccsd_intermediates, lines 29-34 *)
Definition eomt_X_a_vv (d : dims) (H : ints) (T R : amps) : mat2 := fun b e =>
  sumn (noa d) (fun n => sumn (nua d) (fun f => (i_aa_vovv H b n e f) * (x_a R f n))) + sumn (nob d) (fun n => sumn (nub d) (fun f => (i_ab_vovv H b n e f) * (x_b R f n))) - 1 / 2 * (sumn (noa d) (fun m => sumn (noa d) (fun n => sumn (nua d) (fun f => (i_aa_oovv H m n e f) * (x_aa R b f m n))))) - sumn (noa d) (fun m => sumn (nob d) (fun n => sumn (nub d) (fun f => (i_ab_oovv H m n e f) * (x_ab R b f m n)))).
(** ccpy/eomcc/eomccsdt_intermediates.py, get_eomccsd_intermediates, lines 36-41 *)
Definition eomt_X_b_oo (d : dims) (H : ints) (T R : amps) : mat2 := fun m k =>
  sumn (noa d) (fun n => sumn (nua d) (fun f => (i_ab_oovo H n m f k) * (x_a R f n))) + sumn (nob d) (fun n => sumn (nub d) (fun f => (i_bb_ooov H m n k f) * (x_b R f n))) + sumn (noa d) (fun n => sumn (nua d) (fun f => sumn (nub d) (fun e => (i_ab_oovv H n m f e) * (x_ab R f e n k)))) + 1 / 2 * (sumn (nob d) (fun n => sumn (nub d) (fun e => sumn (nub d) (fun f => (i_bb_oovv H m n e f) * (x_bb R e f k n))))).
(** ccpy/eomcc/eomccsdt_intermediates.py, get_eomccsd_intermediates, lines 43-48 *)
Definition eomt_X_b_vv (d : dims) (H : ints) (T R : amps) : mat2 := fun c e =>
  sumn (noa d) (fun n => sumn (nua d) (fun f => (i_ab_ovvv H n c f e) * (x_a R f n))) + sumn (nob d) (fun n => sumn (nub d) (fun f => (i_bb_vovv H c n e f) * (x_b R f n))) - 1 / 1 * (sumn (noa d) (fun n => sumn (nob d) (fun m => sumn (nua d) (fun f => (i_ab_oovv H n m f e) * (x_ab R f c n m))))) - 1 / 2 * (sumn (nob d) (fun m => sumn (nob d) (fun n => sumn (nub d) (fun f => (i_bb_oovv H m n e f) * (x_bb R f c n m))))).
(** ccpy/eomcc/eomccsdt.py, build_HR_2A, line 104 *)
Definition eomt_X2A (d : dims) (H : ints) (T R : amps) : mat4 := fun a b i j =>
  (-1) / 2 * (sumn (noa d) (fun m => (i_a_oo H m i) * (x_aa R a b m j))).
(** ccpy/eomcc/eomccsdt.py, build_HR_2A, line 105 *)
Definition eomt_X2A_1 (d : dims) (H : ints) (T R : amps) : mat4 := fun a b i j =>
  eomt_X2A d H T R a b i j + 1 / 2 * (sumn (nua d) (fun e => (i_a_vv H a e) * (x_aa R e b i j))).
(** ccpy/eomcc/eomccsdt.py, build_HR_2A, line 106 *)
Definition eomt_X2A_2 (d : dims) (H : ints) (T R : amps) : mat4 := fun a b i j =>
  eomt_X2A_1 d H T R a b i j + 1 / 8 * (sumn (noa d) (fun m => sumn (noa d) (fun n => (i_aa_oooo H m n i j) * (x_aa R a b m n)))).
(** ccpy/eomcc/eomccsdt.py, build_HR_2A, line 107 *)
Definition eomt_X2A_3 (d : dims) (H : ints) (T R : amps) : mat4 := fun a b i j =>
  eomt_X2A_2 d H T R a b i j + 1 / 8 * (sumn (nua d) (fun e => sumn (nua d) (fun f => (i_aa_vvvv H a b e f) * (x_aa R e f i j)))).
(** ccpy/eomcc/eomccsdt.py, build_HR_2A, line 108 *)
Definition eomt_X2A_4 (d : dims) (H : ints) (T R : amps) : mat4 := fun a b i j =>
  eomt_X2A_3 d H T R a b i j + sumn (noa d) (fun m => sumn (nua d) (fun e => (i_aa_voov H a m i e) * (x_aa R e b m j))).
(** ccpy/eomcc/eomccsdt.py, build_HR_2A, line 109 *)
Definition eomt_X2A_5 (d : dims) (H : ints) (T R : amps) : mat4 := fun a b i j =>
  eomt_X2A_4 d H T R a b i j + sumn (nob d) (fun m => sumn (nub d) (fun e => (i_ab_voov H a m i e) * (x_ab R b e j m))).
(** ccpy/eomcc/eomccsdt.py, build_HR_2A, line 110 *)
Definition eomt_X2A_6 (d : dims) (H : ints) (T R : amps) : mat4 := fun a b i j =>
  eomt_X2A_5 d H T R a b i j - 1 / 2 * (sumn (noa d) (fun m => (i_aa_vooo H b m j i) * (x_a R a m))).
(** ccpy/eomcc/eomccsdt.py, build_HR_2A, line 111 *)
Definition eomt_X2A_7 (d : dims) (H : ints) (T R : amps) : mat4 := fun a b i j =>
  eomt_X2A_6 d H T R a b i j + 1 / 2 * (sumn (nua d) (fun e => (i_aa_vvov H b a j e) * (x_a R e i))).
(** ccpy/eomcc/eomccsdt.py, build_HR_2A, line 112 *)
Definition eomt_X2A_8 (d : dims) (H : ints) (T R : amps) : mat4 := fun a b i j =>
  eomt_X2A_7 d H T R a b i j + 1 / 2 * (sumn (nua d) (fun e => (eomt_X_a_vv d H T R b e) * (x_aa T a e i j))).
(** ccpy/eomcc/eomccsdt.py, build_HR_2A, line 113 *)
Definition eomt_X2A_9 (d : dims) (H : ints) (T R : amps) : mat4 := fun a b i j =>
  eomt_X2A_8 d H T R a b i j - 1 / 2 * (sumn (noa d) (fun m => (eomt_X_a_oo d H T R m j) * (x_aa T a b i m))).
(** ccpy/eomcc/eomccsdt.py, build_HR_2A, line 115 *)
Definition eomt_X2A_10 (d : dims) (H : ints) (T R : amps) : mat4 := fun a b i j =>
  eomt_X2A_9 d H T R a b i j + 1 / 4 * (sumn (noa d) (fun m => sumn (nua d) (fun e => (eomt_X_a_ov d H T R m e) * (x_aaa T a b e i j m)))).
(** ccpy/eomcc/eomccsdt.py, build_HR_2A, line 116 *)
Definition eomt_X2A_11 (d : dims) (H : ints) (T R : amps) : mat4 := fun a b i j =>
  eomt_X2A_10 d H T R a b i j + 1 / 4 * (sumn (nob d) (fun m => sumn (nub d) (fun e => (eomt_X_b_ov d H T R m e) * (x_aab T a b e i j m)))).
(** ccpy/eomcc/eomccsdt.py, build_HR_2A, line 118 *)
Definition eomt_X2A_12 (d : dims) (H : ints) (T R : amps) : mat4 := fun a b i j =>
  eomt_X2A_11 d H T R a b i j + 1 / 4 * (sumn (noa d) (fun m => sumn (nua d) (fun e => (i_a_ov H m e) * (x_aaa R a b e i j m)))).
(** ccpy/eomcc/eomccsdt.py, build_HR_2A, line 119 *)
Definition eomt_X2A_13 (d : dims) (H : ints) (T R : amps) : mat4 := fun a b i j =>
  eomt_X2A_12 d H T R a b i j + 1 / 4 * (sumn (nob d) (fun m => sumn (nub d) (fun e => (i_b_ov H m e) * (x_aab R a b e i j m)))).
(** ccpy/eomcc/eomccsdt.py, build_HR_2A, line 120 *)
Definition eomt_X2A_14 (d : dims) (H : ints) (T R : amps) : mat4 := fun a b i j =>
  eomt_X2A_13 d H T R a b i j - 1 / 4 * (sumn (noa d) (fun m => sumn (noa d) (fun n => sumn (nua d) (fun f => (i_aa_ooov H m n j f) * (x_aaa R a b f i m n))))).
(** ccpy/eomcc/eomccsdt.py, build_HR_2A, line 121 *)
Definition eomt_X2A_15 (d : dims) (H : ints) (T R : amps) : mat4 := fun a b i j =>
  eomt_X2A_14 d H T R a b i j - 1 / 2 * (sumn (noa d) (fun m => sumn (nob d) (fun n => sumn (nub d) (fun f => (i_ab_ooov H m n j f) * (x_aab R a b f i m n))))).
(** ccpy/eomcc/eomccsdt.py, build_HR_2A, line 122 *)
Definition eomt_X2A_16 (d : dims) (H : ints) (T R : amps) : mat4 := fun a b i j =>
  eomt_X2A_15 d H T R a b i j + 1 / 4 * (sumn (noa d) (fun n => sumn (nua d) (fun e => sumn (nua d) (fun f => (i_aa_vovv H b n e f) * (x_aaa R a e f i j n))))).
(** ccpy/eomcc/eomccsdt.py, build_HR_2A, line 123 *)
Definition eomt_X2A_17 (d : dims) (H : ints) (T R : amps) : mat4 := fun a b i j =>
  eomt_X2A_16 d H T R a b i j + 1 / 2 * (sumn (nob d) (fun n => sumn (nua d) (fun e => sumn (nub d) (fun f => (i_ab_vovv H b n e f) * (x_aab R a e f i j n))))).
(** ccpy/eomcc/eomccsdt.py, build_HR_2A, line 124 *)
Definition eomt_X2A_18 (d : dims) (H : ints) (T R : amps) : mat4 := fun a b i j =>
  eomt_X2A_17 d H T R a b i j - eomt_X2A_17 d H T R b a i j.
(** ccpy/eomcc/eomccsdt.py, build_HR_2A, line 125 *)
Definition eomt_X2A_19 (d : dims) (H : ints) (T R : amps) : mat4 := fun a b i j =>
  eomt_X2A_18 d H T R a b i j - eomt_X2A_18 d H T R a b j i.
(** ccpy/eomcc/eomccsdt.py, build_HR_2B, line 130 *)
Definition eomt_X2B (d : dims) (H : ints) (T R : amps) : mat4 := fun a b i j =>
  sumn (nua d) (fun e => (i_a_vv H a e) * (x_ab R e b i j)).
(** ccpy/eomcc/eomccsdt.py, build_HR_2B, line 131 *)
Definition eomt_X2B_1 (d : dims) (H : ints) (T R : amps) : mat4 := fun a b i j =>
  eomt_X2B d H T R a b i j + sumn (nub d) (fun e => (i_b_vv H b e) * (x_ab R a e i j)).
(** ccpy/eomcc/eomccsdt.py, build_HR_2B, line 132 *)
Definition eomt_X2B_2 (d : dims) (H : ints) (T R : amps) : mat4 := fun a b i j =>
  eomt_X2B_1 d H T R a b i j - sumn (noa d) (fun m => (i_a_oo H m i) * (x_ab R a b m j)).
(** ccpy/eomcc/eomccsdt.py, build_HR_2B, line 133 *)
Definition eomt_X2B_3 (d : dims) (H : ints) (T R : amps) : mat4 := fun a b i j =>
  eomt_X2B_2 d H T R a b i j - sumn (nob d) (fun m => (i_b_oo H m j) * (x_ab R a b i m)).
(** ccpy/eomcc/eomccsdt.py, build_HR_2B, line 134 *)
Definition eomt_X2B_4 (d : dims) (H : ints) (T R : amps) : mat4 := fun a b i j =>
  eomt_X2B_3 d H T R a b i j + sumn (noa d) (fun m => sumn (nob d) (fun n => (i_ab_oooo H m n i j) * (x_ab R a b m n))).
(** ccpy/eomcc/eomccsdt.py, build_HR_2B, line 135 *)
Definition eomt_X2B_5 (d : dims) (H : ints) (T R : amps) : mat4 := fun a b i j =>
  eomt_X2B_4 d H T R a b i j + sumn (nua d) (fun e => sumn (nub d) (fun f => (i_ab_vvvv H a b e f) * (x_ab R e f i j))).
(** ccpy/eomcc/eomccsdt.py, build_HR_2B, line 136 *)
Definition eomt_X2B_6 (d : dims) (H : ints) (T R : amps) : mat4 := fun a b i j =>
  eomt_X2B_5 d H T R a b i j + sumn (noa d) (fun m => sumn (nua d) (fun e => (i_aa_voov H a m i e) * (x_ab R e b m j))).
(** ccpy/eomcc/eomccsdt.py, build_HR_2B, line 137 *)
Definition eomt_X2B_7 (d : dims) (H : ints) (T R : amps) : mat4 := fun a b i j =>
  eomt_X2B_6 d H T R a b i j + sumn (nob d) (fun m => sumn (nub d) (fun e => (i_ab_voov H a m i e) * (x_bb R e b m j))).
(** ccpy/eomcc/eomccsdt.py, build_HR_2B, line 138 *)
Definition eomt_X2B_8 (d : dims) (H : ints) (T R : amps) : mat4 := fun a b i j =>
  eomt_X2B_7 d H T R a b i j + sumn (noa d) (fun m => sumn (nua d) (fun e => (i_ab_ovvo H m b e j) * (x_aa R a e i m))).
(** ccpy/eomcc/eomccsdt.py, build_HR_2B, line 139 *)
Definition eomt_X2B_9 (d : dims) (H : ints) (T R : amps) : mat4 := fun a b i j =>
  eomt_X2B_8 d H T R a b i j + sumn (nob d) (fun m => sumn (nub d) (fun e => (i_bb_voov H b m j e) * (x_ab R a e i m))).
(** ccpy/eomcc/eomccsdt.py, build_HR_2B, line 140 *)
Definition eomt_X2B_10 (d : dims) (H : ints) (T R : amps) : mat4 := fun a b i j =>
  eomt_X2B_9 d H T R a b i j - sumn (noa d) (fun m => sumn (nub d) (fun e => (i_ab_ovov H m b i e) * (x_ab R a e m j))).
(** ccpy/eomcc/eomccsdt.py, build_HR_2B, line 141 *)
Definition eomt_X2B_11 (d : dims) (H : ints) (T R : amps) : mat4 := fun a b i j =>
  eomt_X2B_10 d H T R a b i j - sumn (nob d) (fun m => sumn (nua d) (fun e => (i_ab_vovo H a m e j) * (x_ab R e b i m))).
(** ccpy/eomcc/eomccsdt.py, build_HR_2B, line 142 *)
Definition eomt_X2B_12 (d : dims) (H : ints) (T R : amps) : mat4 := fun a b i j =>
  eomt_X2B_11 d H T R a b i j + sumn (nua d) (fun e => (i_ab_vvvo H a b e j) * (x_a R e i)).
(** ccpy/eomcc/eomccsdt.py, build_HR_2B, line 143 *)
Definition eomt_X2B_13 (d : dims) (H : ints) (T R : amps) : mat4 := fun a b i j =>
  eomt_X2B_12 d H T R a b i j + sumn (nub d) (fun e => (i_ab_vvov H a b i e) * (x_b R e j)).
(** ccpy/eomcc/eomccsdt.py, build_HR_2B, line 144 *)
Definition eomt_X2B_14 (d : dims) (H : ints) (T R : amps) : mat4 := fun a b i j =>
  eomt_X2B_13 d H T R a b i j - sumn (noa d) (fun m => (i_ab_ovoo H m b i j) * (x_a R a m)).
(** ccpy/eomcc/eomccsdt.py, build_HR_2B, line 145 *)
Definition eomt_X2B_15 (d : dims) (H : ints) (T R : amps) : mat4 := fun a b i j =>
  eomt_X2B_14 d H T R a b i j - sumn (nob d) (fun m => (i_ab_vooo H a m i j) * (x_b R b m)).
(** ccpy/eomcc/eomccsdt.py, build_HR_2B, line 146 *)
Definition eomt_X2B_16 (d : dims) (H : ints) (T R : amps) : mat4 := fun a b i j =>
  eomt_X2B_15 d H T R a b i j + sumn (nua d) (fun e => (eomt_X_a_vv d H T R a e) * (x_ab T e b i j)).
(** ccpy/eomcc/eomccsdt.py, build_HR_2B, line 147 *)
Definition eomt_X2B_17 (d : dims) (H : ints) (T R : amps) : mat4 := fun a b i j =>
  eomt_X2B_16 d H T R a b i j - sumn (noa d) (fun m => (eomt_X_a_oo d H T R m i) * (x_ab T a b m j)).
(** ccpy/eomcc/eomccsdt.py, build_HR_2B, line 148 *)
Definition eomt_X2B_18 (d : dims) (H : ints) (T R : amps) : mat4 := fun a b i j =>
  eomt_X2B_17 d H T R a b i j + sumn (nub d) (fun e => (eomt_X_b_vv d H T R b e) * (x_ab T a e i j)).
(** ccpy/eomcc/eomccsdt.py, build_HR_2B, line 149 *)
Definition eomt_X2B_19 (d : dims) (H : ints) (T R : amps) : mat4 := fun a b i j =>
  eomt_X2B_18 d H T R a b i j - sumn (nob d) (fun m => (eomt_X_b_oo d H T R m j) * (x_ab T a b i m)).
(** ccpy/eomcc/eomccsdt.py, build_HR_2B, line 151 *)
Definition eomt_X2B_20 (d : dims) (H : ints) (T R : amps) : mat4 := fun a b i j =>
  eomt_X2B_19 d H T R a b i j + sumn (noa d) (fun m => sumn (nua d) (fun e => (eomt_X_a_ov d H T R m e) * (x_aab T a e b i m j))).
(** ccpy/eomcc/eomccsdt.py, build_HR_2B, line 152 *)
Definition eomt_X2B_21 (d : dims) (H : ints) (T R : amps) : mat4 := fun a b i j =>
  eomt_X2B_20 d H T R a b i j + sumn (nob d) (fun m => sumn (nub d) (fun e => (eomt_X_b_ov d H T R m e) * (x_abb T a e b i m j))).
(** ccpy/eomcc/eomccsdt.py, build_HR_2B, line 154 *)
Definition eomt_X2B_22 (d : dims) (H : ints) (T R : amps) : mat4 := fun a b i j =>
  eomt_X2B_21 d H T R a b i j + sumn (noa d) (fun m => sumn (nua d) (fun e => (i_a_ov H m e) * (x_aab R a e b i m j))).
(** ccpy/eomcc/eomccsdt.py, build_HR_2B, line 155 *)
Definition eomt_X2B_23 (d : dims) (H : ints) (T R : amps) : mat4 := fun a b i j =>
  eomt_X2B_22 d H T R a b i j + sumn (nob d) (fun m => sumn (nub d) (fun e => (i_b_ov H m e) * (x_abb R a e b i m j))).
(** ccpy/eomcc/eomccsdt.py, build_HR_2B, line 156 *)
Definition eomt_X2B_24 (d : dims) (H : ints) (T R : amps) : mat4 := fun a b i j =>
  eomt_X2B_23 d H T R a b i j - sumn (noa d) (fun n => sumn (nob d) (fun m => sumn (nua d) (fun f => (i_ab_oovo H n m f j) * (x_aab R a f b i n m)))).
(** ccpy/eomcc/eomccsdt.py, build_HR_2B, line 157 *)
Definition eomt_X2B_25 (d : dims) (H : ints) (T R : amps) : mat4 := fun a b i j =>
  eomt_X2B_24 d H T R a b i j - 1 / 2 * (sumn (nob d) (fun m => sumn (nob d) (fun n => sumn (nub d) (fun f => (i_bb_ooov H m n j f) * (x_abb R a b f i m n))))).
(** ccpy/eomcc/eomccsdt.py, build_HR_2B, line 158 *)
Definition eomt_X2B_26 (d : dims) (H : ints) (T R : amps) : mat4 := fun a b i j =>
  eomt_X2B_25 d H T R a b i j - 1 / 2 * (sumn (noa d) (fun m => sumn (noa d) (fun n => sumn (nua d) (fun f => (i_aa_ooov H m n i f) * (x_aab R a f b m n j))))).
(** ccpy/eomcc/eomccsdt.py, build_HR_2B, line 159 *)
Definition eomt_X2B_27 (d : dims) (H : ints) (T R : amps) : mat4 := fun a b i j =>
  eomt_X2B_26 d H T R a b i j - sumn (noa d) (fun m => sumn (nob d) (fun n => sumn (nub d) (fun f => (i_ab_ooov H m n i f) * (x_abb R a b f m j n)))).
(** ccpy/eomcc/eomccsdt.py, build_HR_2B, line 160 *)
Definition eomt_X2B_28 (d : dims) (H : ints) (T R : amps) : mat4 := fun a b i j =>
  eomt_X2B_27 d H T R a b i j + sumn (noa d) (fun n => sumn (nua d) (fun f => sumn (nub d) (fun e => (i_ab_ovvv H n b f e) * (x_aab R a f e i n j)))).
(** ccpy/eomcc/eomccsdt.py, build_HR_2B, line 161 *)
Definition eomt_X2B_29 (d : dims) (H : ints) (T R : amps) : mat4 := fun a b i j =>
  eomt_X2B_28 d H T R a b i j + 1 / 2 * (sumn (nob d) (fun n => sumn (nub d) (fun e => sumn (nub d) (fun f => (i_bb_vovv H b n e f) * (x_abb R a e f i j n))))).
(** ccpy/eomcc/eomccsdt.py, build_HR_2B, line 162 *)
Definition eomt_X2B_30 (d : dims) (H : ints) (T R : amps) : mat4 := fun a b i j =>
  eomt_X2B_29 d H T R a b i j + 1 / 2 * (sumn (noa d) (fun n => sumn (nua d) (fun e => sumn (nua d) (fun f => (i_aa_vovv H a n e f) * (x_aab R e f b i n j))))).
(** ccpy/eomcc/eomccsdt.py, build_HR_2B, line 163 *)
Definition eomt_X2B_31 (d : dims) (H : ints) (T R : amps) : mat4 := fun a b i j =>
  eomt_X2B_30 d H T R a b i j + sumn (nob d) (fun n => sumn (nua d) (fun e => sumn (nub d) (fun f => (i_ab_vovv H a n e f) * (x_abb R e f b i n j)))).
(** ccpy/eomcc/eomccsdt.py, build_HR_2C, line 168 *)
Definition eomt_X2C (d : dims) (H : ints) (T R : amps) : mat4 := fun a b i j =>
  (-1) / 2 * (sumn (nob d) (fun m => (i_b_oo H m i) * (x_bb R a b m j))).
(** ccpy/eomcc/eomccsdt.py, build_HR_2C, line 169 *)
Definition eomt_X2C_1 (d : dims) (H : ints) (T R : amps) : mat4 := fun a b i j =>
  eomt_X2C d H T R a b i j + 1 / 2 * (sumn (nub d) (fun e => (i_b_vv H a e) * (x_bb R e b i j))).
(** ccpy/eomcc/eomccsdt.py, build_HR_2C, line 170 *)
Definition eomt_X2C_2 (d : dims) (H : ints) (T R : amps) : mat4 := fun a b i j =>
  eomt_X2C_1 d H T R a b i j + 1 / 8 * (sumn (nob d) (fun m => sumn (nob d) (fun n => (i_bb_oooo H m n i j) * (x_bb R a b m n)))).
(** ccpy/eomcc/eomccsdt.py, build_HR_2C, line 171 *)
Definition eomt_X2C_3 (d : dims) (H : ints) (T R : amps) : mat4 := fun a b i j =>
  eomt_X2C_2 d H T R a b i j + 1 / 8 * (sumn (nub d) (fun e => sumn (nub d) (fun f => (i_bb_vvvv H a b e f) * (x_bb R e f i j)))).
(** ccpy/eomcc/eomccsdt.py, build_HR_2C, line 172 *)
Definition eomt_X2C_4 (d : dims) (H : ints) (T R : amps) : mat4 := fun a b i j =>
  eomt_X2C_3 d H T R a b i j + sumn (nob d) (fun m => sumn (nub d) (fun e => (i_bb_voov H a m i e) * (x_bb R e b m j))).
(** ccpy/eomcc/eomccsdt.py, build_HR_2C, line 173 *)
Definition eomt_X2C_5 (d : dims) (H : ints) (T R : amps) : mat4 := fun a b i j =>
  eomt_X2C_4 d H T R a b i j + sumn (noa d) (fun m => sumn (nua d) (fun e => (i_ab_ovvo H m a e i) * (x_ab R e b m j))).
(** ccpy/eomcc/eomccsdt.py, build_HR_2C, line 174 *)
Definition eomt_X2C_6 (d : dims) (H : ints) (T R : amps) : mat4 := fun a b i j =>
  eomt_X2C_5 d H T R a b i j - 1 / 2 * (sumn (nob d) (fun m => (i_bb_vooo H b m j i) * (x_b R a m))).
(** ccpy/eomcc/eomccsdt.py, build_HR_2C, line 175 *)
Definition eomt_X2C_7 (d : dims) (H : ints) (T R : amps) : mat4 := fun a b i j =>
  eomt_X2C_6 d H T R a b i j + 1 / 2 * (sumn (nub d) (fun e => (i_bb_vvov H b a j e) * (x_b R e i))).
(** ccpy/eomcc/eomccsdt.py, build_HR_2C, line 176 *)
Definition eomt_X2C_8 (d : dims) (H : ints) (T R : amps) : mat4 := fun a b i j =>
  eomt_X2C_7 d H T R a b i j + 1 / 2 * (sumn (nub d) (fun e => (eomt_X_b_vv d H T R b e) * (x_bb T a e i j))).
(** ccpy/eomcc/eomccsdt.py, build_HR_2C, line 177 *)
Definition eomt_X2C_9 (d : dims) (H : ints) (T R : amps) : mat4 := fun a b i j =>
  eomt_X2C_8 d H T R a b i j - 1 / 2 * (sumn (nob d) (fun m => (eomt_X_b_oo d H T R m j) * (x_bb T a b i m))).
(** ccpy/eomcc/eomccsdt.py, build_HR_2C, line 179 *)
Definition eomt_X2C_10 (d : dims) (H : ints) (T R : amps) : mat4 := fun a b i j =>
  eomt_X2C_9 d H T R a b i j + 1 / 4 * (sumn (noa d) (fun m => sumn (nua d) (fun e => (eomt_X_a_ov d H T R m e) * (x_abb T e a b m i j)))).
(** ccpy/eomcc/eomccsdt.py, build_HR_2C, line 180 *)
Definition eomt_X2C_11 (d : dims) (H : ints) (T R : amps) : mat4 := fun a b i j =>
  eomt_X2C_10 d H T R a b i j + 1 / 4 * (sumn (nob d) (fun m => sumn (nub d) (fun e => (eomt_X_b_ov d H T R m e) * (x_bbb T a b e i j m)))).
(** ccpy/eomcc/eomccsdt.py, build_HR_2C, line 182 *)
Definition eomt_X2C_12 (d : dims) (H : ints) (T R : amps) : mat4 := fun a b i j =>
  eomt_X2C_11 d H T R a b i j + 1 / 4 * (sumn (noa d) (fun m => sumn (nua d) (fun e => (i_a_ov H m e) * (x_abb R e a b m i j)))).
(** ccpy/eomcc/eomccsdt.py, build_HR_2C, line 183 *)
Definition eomt_X2C_13 (d : dims) (H : ints) (T R : amps) : mat4 := fun a b i j =>
  eomt_X2C_12 d H T R a b i j + 1 / 4 * (sumn (nob d) (fun m => sumn (nub d) (fun e => (i_b_ov H m e) * (x_bbb R a b e i j m)))).
(** ccpy/eomcc/eomccsdt.py, build_HR_2C, line 184 *)
Definition eomt_X2C_14 (d : dims) (H : ints) (T R : amps) : mat4 := fun a b i j =>
  eomt_X2C_13 d H T R a b i j - 1 / 4 * (sumn (nob d) (fun m => sumn (nob d) (fun n => sumn (nub d) (fun f => (i_bb_ooov H m n j f) * (x_bbb R a b f i m n))))).
(** ccpy/eomcc/eomccsdt.py, build_HR_2C, line 185 *)
Definition eomt_X2C_15 (d : dims) (H : ints) (T R : amps) : mat4 := fun a b i j =>
  eomt_X2C_14 d H T R a b i j - 1 / 2 * (sumn (noa d) (fun n => sumn (nob d) (fun m => sumn (nua d) (fun f => (i_ab_oovo H n m f j) * (x_abb R f a b n i m))))).
(** ccpy/eomcc/eomccsdt.py, build_HR_2C, line 186 *)
Definition eomt_X2C_16 (d : dims) (H : ints) (T R : amps) : mat4 := fun a b i j =>
  eomt_X2C_15 d H T R a b i j + 1 / 4 * (sumn (nob d) (fun n => sumn (nub d) (fun e => sumn (nub d) (fun f => (i_bb_vovv H b n e f) * (x_bbb R a e f i j n))))).
(** ccpy/eomcc/eomccsdt.py, build_HR_2C, line 187 *)
Definition eomt_X2C_17 (d : dims) (H : ints) (T R : amps) : mat4 := fun a b i j =>
  eomt_X2C_16 d H T R a b i j + 1 / 2 * (sumn (noa d) (fun n => sumn (nua d) (fun f => sumn (nub d) (fun e => (i_ab_ovvv H n b f e) * (x_abb R f a e n i j))))).
(** ccpy/eomcc/eomccsdt.py, build_HR_2C, line 188 *)
Definition eomt_X2C_18 (d : dims) (H : ints) (T R : amps) : mat4 := fun a b i j =>
  eomt_X2C_17 d H T R a b i j - eomt_X2C_17 d H T R b a i j.
(** ccpy/eomcc/eomccsdt.py, build_HR_2C, line 189 *)
Definition eomt_X2C_19 (d : dims) (H : ints) (T R : amps) : mat4 := fun a b i j =>
  eomt_X2C_18 d H T R a b i j - eomt_X2C_18 d H T R a b j i.
(** ccpy/eomcc/eomccsdt_intermediates.py, get_eomccsdt_intermediates, line 61 *)
Definition eomt_X_aa_oovv (d : dims) (H : ints) (T R : amps) : mat4 := fun p q r s =>
  (0 / 1).
(** ccpy/eomcc/eomccsdt_intermediates.py, get_eomccsdt_intermediates, line 62 *)
Definition eomt_X_ab_oovv (d : dims) (H : ints) (T R : amps) : mat4 := fun p q r s =>
  (0 / 1).
(** ccpy/eomcc/eomccsdt_intermediates.py, get_eomccsdt_intermediates, line 63 *)
Definition eomt_X_bb_oovv (d : dims) (H : ints) (T R : amps) : mat4 := fun p q r s =>
  (0 / 1).
(** ccpy/eomcc/eomccsdt_intermediates.py, get_eomccsdt_intermediates, lines 78-85 *)
Definition eomt_X_a_oo_1 (d : dims) (H : ints) (T R : amps) : mat2 := fun m j =>
  sumn (nua d) (fun e => (i_a_ov H m e) * (x_a R e j)) + eomt_X_a_oo d H T R m j.
(** ccpy/eomcc/eomccsdt_intermediates.py, get_eomccsdt_intermediates, lines 86-93 *)
Definition eomt_X_b_oo_1 (d : dims) (H : ints) (T R : amps) : mat2 := fun m k =>
  sumn (nub d) (fun e => (i_b_ov H m e) * (x_b R e k)) + eomt_X_b_oo d H T R m k.
(** ccpy/eomcc/eomccsdt_intermediates.py, get_eomccsdt_intermediates, lines 98-105 *)
Definition eomt_X_a_vv_1 (d : dims) (H : ints) (T R : amps) : mat2 := fun b e =>
  (-1) / 1 * (sumn (noa d) (fun m => (i_a_ov H m e) * (x_a R b m))) + eomt_X_a_vv d H T R b e.
(** ccpy/eomcc/eomccsdt_intermediates.py, get_eomccsdt_intermediates, lines 106-113 *)
Definition eomt_X_b_vv_1 (d : dims) (H : ints) (T R : amps) : mat2 := fun c e =>
  (-1) / 1 * (sumn (nob d) (fun m => (i_b_ov H m e) * (x_b R c m))) + eomt_X_b_vv d H T R c e.
(** ccpy/eomcc/eomccsdt_intermediates.py, get_eomccsdt_intermediates, lines 118-121 *)
Definition eomt_X_aa_oooo (d : dims) (H : ints) (T R : amps) : mat4 := fun m n i j =>
  sumn (nua d) (fun e => (i_aa_ooov H n m j e) * (x_a R e i)) + 1 / 4 * (sumn (nua d) (fun e => sumn (nua d) (fun f => (i_aa_oovv H m n e f) * (x_aa R e f i j)))).
(** ccpy/eomcc/eomccsdt_intermediates.py, get_eomccsdt_intermediates, line 122 *)
Definition eomt_X_aa_oooo_1 (d : dims) (H : ints) (T R : amps) : mat4 := fun m n i j =>
  eomt_X_aa_oooo d H T R m n i j - eomt_X_aa_oooo d H T R m n j i.
(** ccpy/eomcc/eomccsdt_intermediates.py, get_eomccsdt_intermediates, lines 124-128 *)
Definition eomt_X_ab_oooo (d : dims) (H : ints) (T R : amps) : mat4 := fun n m j k =>
  sumn (nub d) (fun e => (i_ab_ooov H n m j e) * (x_b R e k)) + sumn (nua d) (fun e => (i_ab_oovo H n m e k) * (x_a R e j)) + sumn (nua d) (fun e => sumn (nub d) (fun f => (i_ab_oovv H n m e f) * (x_ab R e f j k))).
(** ccpy/eomcc/eomccsdt_intermediates.py, get_eomccsdt_intermediates, lines 130-133 *)
Definition eomt_X_bb_oooo (d : dims) (H : ints) (T R : amps) : mat4 := fun m n i j =>
  sumn (nub d) (fun e => (i_bb_ooov H m n i e) * (x_b R e j)) + 1 / 4 * (sumn (nub d) (fun e => sumn (nub d) (fun f => (i_bb_oovv H m n e f) * (x_bb R e f i j)))).
(** ccpy/eomcc/eomccsdt_intermediates.py, get_eomccsdt_intermediates, line 134 *)
Definition eomt_X_bb_oooo_1 (d : dims) (H : ints) (T R : amps) : mat4 := fun m n i j =>
  eomt_X_bb_oooo d H T R m n i j - eomt_X_bb_oooo d H T R m n j i.
(** ccpy/eomcc/eomccsdt_intermediates.py, get_eomccsdt_intermediates, lines 139-142 *)
Definition eomt_X_aa_vvvv (d : dims) (H : ints) (T R : amps) : mat4 := fun a b e f =>
  (-1) / 1 * (sumn (noa d) (fun m => (i_aa_vovv H a m e f) * (x_a R b m))) + 1 / 4 * (sumn (noa d) (fun m => sumn (noa d) (fun n => (i_aa_oovv H m n e f) * (x_aa R a b m n)))).
(** ccpy/eomcc/eomccsdt_intermediates.py, get_eomccsdt_intermediates, line 143 *)
Definition eomt_X_aa_vvvv_1 (d : dims) (H : ints) (T R : amps) : mat4 := fun a b e f =>
  eomt_X_aa_vvvv d H T R a b e f - eomt_X_aa_vvvv d H T R b a e f.
(** ccpy/eomcc/eomccsdt_intermediates.py, get_eomccsdt_intermediates, lines 145-149 *)
Definition eomt_X_ab_vvvv (d : dims) (H : ints) (T R : amps) : mat4 := fun b c f e =>
  (- (sumn (nob d) (fun m => (i_ab_vovv H b m f e) * (x_b R c m)))) - sumn (noa d) (fun m => (i_ab_ovvv H m c f e) * (x_a R b m)) + sumn (noa d) (fun m => sumn (nob d) (fun n => (i_ab_oovv H m n f e) * (x_ab R b c m n))).
(** ccpy/eomcc/eomccsdt_intermediates.py, get_eomccsdt_intermediates, lines 151-154 *)
Definition eomt_X_bb_vvvv (d : dims) (H : ints) (T R : amps) : mat4 := fun a b e f =>
  (- (sumn (nob d) (fun m => (i_bb_vovv H a m e f) * (x_b R b m)))) + 1 / 4 * (sumn (nob d) (fun m => sumn (nob d) (fun n => (i_bb_oovv H m n e f) * (x_bb R a b m n)))).
(** ccpy/eomcc/eomccsdt_intermediates.py, get_eomccsdt_intermediates, line 155 *)
Definition eomt_X_bb_vvvv_1 (d : dims) (H : ints) (T R : amps) : mat4 := fun a b e f =>
  eomt_X_bb_vvvv d H T R a b e f - eomt_X_bb_vvvv d H T R b a e f.
(** ccpy/eomcc/eomccsdt_intermediates.py, get_eomccsdt_intermediates, lines 160-165 *)
Definition eomt_X_aa_voov (d : dims) (H : ints) (T R : amps) : mat4 := fun b m j e =>
  (-1) / 1 * (sumn (noa d) (fun n => (i_aa_ooov H n m j e) * (x_a R b n))) + sumn (nua d) (fun f => (i_aa_vovv H b m f e) * (x_a R f j)) + sumn (noa d) (fun n => sumn (nua d) (fun f => (i_aa_oovv H m n e f) * (x_aa R f b n j))) + sumn (nob d) (fun n => sumn (nub d) (fun f => (i_ab_oovv H m n e f) * (x_ab R b f j n))).
(** ccpy/eomcc/eomccsdt_intermediates.py, get_eomccsdt_intermediates, lines 167-172 *)
Definition eomt_X_ab_voov (d : dims) (H : ints) (T R : amps) : mat4 := fun b m j e =>
  (-1) / 1 * (sumn (noa d) (fun n => (i_ab_ooov H n m j e) * (x_a R b n))) + sumn (nua d) (fun f => (i_ab_vovv H b m f e) * (x_a R f j)) + sumn (noa d) (fun n => sumn (nua d) (fun f => (i_ab_oovv H n m f e) * (x_aa R f b n j))) + sumn (nob d) (fun n => sumn (nub d) (fun f => (i_bb_oovv H m n e f) * (x_ab R b f j n))).
(** ccpy/eomcc/eomccsdt_intermediates.py, get_eomccsdt_intermediates, lines 174-179 *)
Definition eomt_X_ab_ovvo (d : dims) (H : ints) (T R : amps) : mat4 := fun n c f k =>
  (- (sumn (nob d) (fun m => (i_ab_oovo H n m f k) * (x_b R c m)))) + sumn (nub d) (fun e => (i_ab_ovvv H n c f e) * (x_b R e k)) + sumn (noa d) (fun m => sumn (nua d) (fun e => (i_aa_oovv H m n e f) * (x_ab R e c m k))) + sumn (nob d) (fun m => sumn (nub d) (fun e => (i_ab_oovv H n m f e) * (x_bb R e c m k))).
(** ccpy/eomcc/eomccsdt_intermediates.py, get_eomccsdt_intermediates, lines 181-185 *)
Definition eomt_X_ab_vovo (d : dims) (H : ints) (T R : amps) : mat4 := fun b m f k =>
  sumn (nub d) (fun e => (i_ab_vovv H b m f e) * (x_b R e k)) - sumn (noa d) (fun n => (i_ab_oovo H n m f k) * (x_a R b n)) - sumn (noa d) (fun m' => sumn (nub d) (fun f' => (i_ab_oovv H m' m f f') * (x_ab R b f' m' k))).
(** ccpy/eomcc/eomccsdt_intermediates.py, get_eomccsdt_intermediates, lines 187-191 *)
Definition eomt_X_ab_ovov (d : dims) (H : ints) (T R : amps) : mat4 := fun n c j e =>
  (- (sumn (nob d) (fun m => (i_ab_ooov H n m j e) * (x_b R c m)))) + sumn (nua d) (fun f => (i_ab_ovvv H n c f e) * (x_a R f j)) - sumn (nob d) (fun n' => sumn (nua d) (fun e' => (i_ab_oovv H n n' e' e) * (x_ab R e' c j n'))).
(** ccpy/eomcc/eomccsdt_intermediates.py, get_eomccsdt_intermediates, lines 193-198 *)
Definition eomt_X_bb_voov (d : dims) (H : ints) (T R : amps) : mat4 := fun c n k f =>
  (- (sumn (nob d) (fun m => (i_bb_ooov H m n k f) * (x_b R c m)))) + sumn (nub d) (fun e => (i_bb_vovv H c n e f) * (x_b R e k)) + sumn (noa d) (fun m => sumn (nua d) (fun e => (i_ab_oovv H m n e f) * (x_ab R e c m k))) + sumn (nob d) (fun m => sumn (nub d) (fun e => (i_bb_oovv H m n e f) * (x_bb R e c m k))).
(** ccpy/eomcc/eomccsdt_intermediates.py, get_eomccsdt_intermediates, lines 202-209 *)
Definition eomt_X_aa_vvov (d : dims) (H : ints) (T R : amps) : mat4 := fun b a j e =>
  sumn (noa d) (fun m => (i_aa_voov H a m j e) * (x_a R b m)) + sumn (noa d) (fun m => sumn (nua d) (fun e' => (i_aa_vovv H a m e e') * (x_aa R b e' j m))) + sumn (nob d) (fun m => sumn (nub d) (fun e' => (i_ab_vovv H a m e e') * (x_ab R b e' j m))) + 1 / 2 * (sumn (nua d) (fun e' => (i_aa_vvvv H a b e e') * (x_a R e' j))) + 1 / 4 * (sumn (noa d) (fun n => sumn (noa d) (fun m => (i_aa_ooov H n m j e) * (x_aa R a b m n)))) - 1 / 2 * (sumn (noa d) (fun m => (eomt_X_a_ov d H T R m e) * (x_aa T a b m j))).
(** ccpy/eomcc/eomccsdt_intermediates.py, get_eomccsdt_intermediates, line 210 *)
Definition eomt_X_aa_vvov_1 (d : dims) (H : ints) (T R : amps) : mat4 := fun b a j e =>
  eomt_X_aa_vvov d H T R b a j e - eomt_X_aa_vvov d H T R a b j e.
(** ccpy/eomcc/eomccsdt_intermediates.py, get_eomccsdt_intermediates, lines 212-218 *)
Definition eomt_X_aa_vooo (d : dims) (H : ints) (T R : amps) : mat4 := fun b m j i =>
  (- (sumn (nua d) (fun e => (i_aa_voov H b m i e) * (x_a R e j)))) + sumn (noa d) (fun m' => sumn (nua d) (fun e => (i_aa_ooov H m m' i e) * (x_aa R b e j m'))) + sumn (nob d) (fun m' => sumn (nub d) (fun e => (i_ab_ooov H m m' i e) * (x_ab R b e j m'))) - 1 / 2 * (sumn (noa d) (fun m' => (i_aa_oooo H m m' i j) * (x_a R b m'))) + 1 / 4 * (sumn (nua d) (fun f => sumn (nua d) (fun e => (i_aa_vovv H b m f e) * (x_aa R e f i j)))).
(** ccpy/eomcc/eomccsdt_intermediates.py, get_eomccsdt_intermediates, line 219 *)
Definition eomt_X_aa_vooo_1 (d : dims) (H : ints) (T R : amps) : mat4 := fun b m j i =>
  eomt_X_aa_vooo d H T R b m j i - eomt_X_aa_vooo d H T R b m i j.
(** ccpy/eomcc/eomccsdt_intermediates.py, get_eomccsdt_intermediates, lines 221-230 *)
Definition eomt_X_ab_vvvo (d : dims) (H : ints) (T R : amps) : mat4 := fun b c e k =>
  (- (sumn (noa d) (fun m => (i_ab_ovvo H m c e k) * (x_a R b m)))) - sumn (nob d) (fun m => (i_ab_vovo H b m e k) * (x_b R c m)) + sumn (nub d) (fun e' => (i_ab_vvvv H b c e e') * (x_b R e' k)) + sumn (noa d) (fun m => sumn (nob d) (fun n => (i_ab_oovo H m n e k) * (x_ab R b c m n))) + sumn (noa d) (fun m => sumn (nua d) (fun e' => (i_aa_vovv H b m e e') * (x_ab R e' c m k))) + sumn (nob d) (fun m => sumn (nub d) (fun e' => (i_ab_vovv H b m e e') * (x_bb R e' c m k))) - sumn (noa d) (fun m => sumn (nub d) (fun e' => (i_ab_ovvv H m c e e') * (x_ab R b e' m k))) - sumn (noa d) (fun m => (eomt_X_a_ov d H T R m e) * (x_ab T b c m k)).
(** ccpy/eomcc/eomccsdt_intermediates.py, get_eomccsdt_intermediates, lines 232-240 *)
Definition eomt_X_ab_ovoo (d : dims) (H : ints) (T R : amps) : mat4 := fun n c j k =>
  (- (sumn (nob d) (fun m => (i_ab_oooo H n m j k) * (x_b R c m)))) + sumn (nub d) (fun e => (i_ab_ovov H n c j e) * (x_b R e k)) + sumn (nua d) (fun e => (i_ab_ovvo H n c e k) * (x_a R e j)) + sumn (nua d) (fun e => sumn (nub d) (fun f => (i_ab_ovvv H n c e f) * (x_ab R e f j k))) + sumn (noa d) (fun m => sumn (nua d) (fun e => (i_aa_ooov H n m j e) * (x_ab R e c m k))) + sumn (nob d) (fun m => sumn (nub d) (fun e => (i_ab_ooov H n m j e) * (x_bb R e c m k))) - sumn (nob d) (fun m => sumn (nua d) (fun e => (i_ab_oovo H n m e k) * (x_ab R e c j m))).
(** ccpy/eomcc/eomccsdt_intermediates.py, get_eomccsdt_intermediates, lines 242-251 *)
Definition eomt_X_ab_vvov (d : dims) (H : ints) (T R : amps) : mat4 := fun b c j e =>
  (- (sumn (noa d) (fun m => (i_ab_ovov H m c j e) * (x_a R b m)))) - sumn (nob d) (fun m => (i_ab_voov H b m j e) * (x_b R c m)) + sumn (nua d) (fun e' => (i_ab_vvvv H b c e' e) * (x_a R e' j)) + sumn (noa d) (fun m => sumn (nob d) (fun n => (i_ab_ooov H m n j e) * (x_ab R b c m n))) + sumn (noa d) (fun m => sumn (nua d) (fun e' => (i_ab_ovvv H m c e' e) * (x_aa R b e' j m))) + sumn (nob d) (fun m => sumn (nub d) (fun e' => (i_bb_vovv H c m e e') * (x_ab R b e' j m))) - sumn (nob d) (fun m => sumn (nua d) (fun e' => (i_ab_vovv H b m e' e) * (x_ab R e' c j m))) - sumn (nob d) (fun m => (eomt_X_b_ov d H T R m e) * (x_ab T b c j m)).
(** ccpy/eomcc/eomccsdt_intermediates.py, get_eomccsdt_intermediates, lines 253-261 *)
Definition eomt_X_ab_vooo (d : dims) (H : ints) (T R : amps) : mat4 := fun b n j k =>
  (- (sumn (noa d) (fun m => (i_ab_oooo H m n j k) * (x_a R b m)))) + sumn (nub d) (fun e => (i_ab_voov H b n j e) * (x_b R e k)) + sumn (nua d) (fun e => (i_ab_vovo H b n e k) * (x_a R e j)) + sumn (nua d) (fun e => sumn (nub d) (fun f => (i_ab_vovv H b n e f) * (x_ab R e f j k))) + sumn (noa d) (fun m => sumn (nua d) (fun e => (i_ab_oovo H m n e k) * (x_aa R b e j m))) + sumn (nob d) (fun m => sumn (nub d) (fun e => (i_bb_ooov H n m k e) * (x_ab R b e j m))) - sumn (noa d) (fun n' => sumn (nub d) (fun e => (i_ab_ooov H n' n j e) * (x_ab R b e n' k))).
(** ccpy/eomcc/eomccsdt_intermediates.py, get_eomccsdt_intermediates, lines 263-270 *)
Definition eomt_X_bb_vvov (d : dims) (H : ints) (T R : amps) : mat4 := fun b a j e =>
  sumn (nob d) (fun m => (i_bb_voov H a m j e) * (x_b R b m)) + 1 / 2 * (sumn (nub d) (fun e' => (i_bb_vvvv H a b e e') * (x_b R e' j))) + 1 / 4 * (sumn (nob d) (fun n => sumn (nob d) (fun m => (i_bb_ooov H n m j e) * (x_bb R a b m n)))) + sumn (nob d) (fun m => sumn (nub d) (fun e' => (i_bb_vovv H a m e e') * (x_bb R b e' j m))) + sumn (noa d) (fun m => sumn (nua d) (fun e' => (i_ab_ovvv H m a e' e) * (x_ab R e' b m j))) - 1 / 2 * (sumn (nob d) (fun m => (eomt_X_b_ov d H T R m e) * (x_bb T a b m j))).
(** ccpy/eomcc/eomccsdt_intermediates.py, get_eomccsdt_intermediates, line 271 *)
Definition eomt_X_bb_vvov_1 (d : dims) (H : ints) (T R : amps) : mat4 := fun b a j e =>
  eomt_X_bb_vvov d H T R b a j e - eomt_X_bb_vvov d H T R a b j e.
(** ccpy/eomcc/eomccsdt_intermediates.py, get_eomccsdt_intermediates, lines 273-279 *)
Definition eomt_X_bb_vooo (d : dims) (H : ints) (T R : amps) : mat4 := fun b n j i =>
  (-1) / 2 * (sumn (nob d) (fun m => (i_bb_oooo H n m i j) * (x_b R b m))) - sumn (nub d) (fun e => (i_bb_voov H b n i e) * (x_b R e j)) + 1 / 4 * (sumn (nub d) (fun f => sumn (nub d) (fun e => (i_bb_vovv H b n f e) * (x_bb R e f i j)))) + sumn (nob d) (fun m => sumn (nub d) (fun e => (i_bb_ooov H n m i e) * (x_bb R b e j m))) + sumn (noa d) (fun m => sumn (nua d) (fun e => (i_ab_oovo H m n e i) * (x_ab R e b m j))).
(** ccpy/eomcc/eomccsdt_intermediates.py, get_eomccsdt_intermediates, line 280 *)
Definition eomt_X_bb_vooo_1 (d : dims) (H : ints) (T R : amps) : mat4 := fun b n j i =>
  eomt_X_bb_vooo d H T R b n j i - eomt_X_bb_vooo d H T R b n i j.
(** ccpy/eomcc/eomccsdt_intermediates.py, add_R3_terms, lines 285-288 *)
Definition eomt_X_aa_vvov_2 (d : dims) (H : ints) (T R : amps) : mat4 := fun b a j e =>
  eomt_X_aa_vvov_1 d H T R b a j e + ((-1) / 2 * (sumn (noa d) (fun m => sumn (noa d) (fun n => sumn (nua d) (fun f => (i_aa_oovv H m n e f) * (x_aaa R b a f j m n))))) - sumn (noa d) (fun m => sumn (nob d) (fun n => sumn (nub d) (fun f => (i_ab_oovv H m n e f) * (x_aab R b a f j m n))))).
(** ccpy/eomcc/eomccsdt_intermediates.py, add_R3_terms, lines 290-293 *)
Definition eomt_X_aa_vooo_2 (d : dims) (H : ints) (T R : amps) : mat4 := fun b m j i =>
  eomt_X_aa_vooo_1 d H T R b m j i + (1 / 2 * (sumn (noa d) (fun n => sumn (nua d) (fun e => sumn (nua d) (fun f => (i_aa_oovv H m n e f) * (x_aaa R e f b i n j))))) + sumn (nob d) (fun n => sumn (nua d) (fun e => sumn (nub d) (fun f => (i_ab_oovv H m n e f) * (x_aab R e b f i j n))))).
(** ccpy/eomcc/eomccsdt_intermediates.py, add_R3_terms, lines 295-298 *)
Definition eomt_X_ab_vvvo_1 (d : dims) (H : ints) (T R : amps) : mat4 := fun b c e k =>
  eomt_X_ab_vvvo d H T R b c e k + ((-1) / 2 * (sumn (noa d) (fun m => sumn (noa d) (fun n => sumn (nua d) (fun f => (i_aa_oovv H m n e f) * (x_aab R b f c m n k))))) - sumn (noa d) (fun m => sumn (nob d) (fun n => sumn (nub d) (fun f => (i_ab_oovv H m n e f) * (x_abb R b f c m n k))))).
(** ccpy/eomcc/eomccsdt_intermediates.py, add_R3_terms, lines 300-303 *)
Definition eomt_X_ab_ovoo_1 (d : dims) (H : ints) (T R : amps) : mat4 := fun n c j k =>
  eomt_X_ab_ovoo d H T R n c j k + (1 / 2 * (sumn (noa d) (fun n' => sumn (nua d) (fun e => sumn (nua d) (fun f => (i_aa_oovv H n n' e f) * (x_aab R e f c j n' k))))) + sumn (nob d) (fun n' => sumn (nua d) (fun e => sumn (nub d) (fun f => (i_ab_oovv H n n' e f) * (x_abb R e f c j n' k))))).
(** ccpy/eomcc/eomccsdt_intermediates.py, add_R3_terms, lines 305-308 *)
Definition eomt_X_ab_vvov_1 (d : dims) (H : ints) (T R : amps) : mat4 := fun b c j e =>
  eomt_X_ab_vvov d H T R b c j e + ((- (sumn (noa d) (fun n => sumn (nob d) (fun m => sumn (nua d) (fun f => (i_ab_oovv H n m f e) * (x_aab R b f c j n m)))))) - 1 / 2 * (sumn (nob d) (fun m => sumn (nob d) (fun n => sumn (nub d) (fun f => (i_bb_oovv H m n e f) * (x_abb R b f c j n m)))))).
(** ccpy/eomcc/eomccsdt_intermediates.py, add_R3_terms, lines 310-313 *)
Definition eomt_X_ab_vooo_1 (d : dims) (H : ints) (T R : amps) : mat4 := fun b n j k =>
  eomt_X_ab_vooo d H T R b n j k + (sumn (noa d) (fun n' => sumn (nua d) (fun f => sumn (nub d) (fun e => (i_ab_oovv H n' n f e) * (x_aab R b f e j n' k)))) + 1 / 2 * (sumn (nob d) (fun n' => sumn (nub d) (fun e => sumn (nub d) (fun f => (i_bb_oovv H n n' e f) * (x_abb R b e f j k n')))))).
(** ccpy/eomcc/eomccsdt_intermediates.py, add_R3_terms, lines 315-318 *)
Definition eomt_X_bb_vvov_2 (d : dims) (H : ints) (T R : amps) : mat4 := fun b a j e =>
  eomt_X_bb_vvov_1 d H T R b a j e + ((-1) / 2 * (sumn (nob d) (fun m => sumn (nob d) (fun n => sumn (nub d) (fun f => (i_bb_oovv H m n e f) * (x_bbb R a b f m j n))))) - sumn (noa d) (fun n => sumn (nob d) (fun m => sumn (nua d) (fun f => (i_ab_oovv H n m f e) * (x_abb R f b a n j m))))).
(** ccpy/eomcc/eomccsdt_intermediates.py, add_R3_terms, lines 320-323 *)
Definition eomt_X_bb_vooo_2 (d : dims) (H : ints) (T R : amps) : mat4 := fun b n j i =>
  eomt_X_bb_vooo_1 d H T R b n j i + (1 / 2 * (sumn (nob d) (fun n' => sumn (nub d) (fun e => sumn (nub d) (fun f => (i_bb_oovv H n n' e f) * (x_bbb R b e f j i n'))))) + sumn (noa d) (fun n' => sumn (nua d) (fun f => sumn (nub d) (fun e => (i_ab_oovv H n' n f e) * (x_abb R f e b n' i j))))).
(** ccpy/eomcc/eomccsdt.py, build_HR_3A, line 194 *)
Definition eomt_X3A (d : dims) (H : ints) (T R : amps) : mat6 := fun a b c i j k =>
  1 / 4 * (sumn (nua d) (fun e => (eomt_X_aa_vvov_2 d H T R b a j e) * (x_aa T e c i k))).
(** ccpy/eomcc/eomccsdt.py, build_HR_3A, line 195 *)
Definition eomt_X3A_1 (d : dims) (H : ints) (T R : amps) : mat6 := fun a b c i j k =>
  eomt_X3A d H T R a b c i j k + 1 / 4 * (sumn (nua d) (fun e => (i_aa_vvov H b a j e) * (x_aa R e c i k))).
(** ccpy/eomcc/eomccsdt.py, build_HR_3A, line 196 *)
Definition eomt_X3A_2 (d : dims) (H : ints) (T R : amps) : mat6 := fun a b c i j k =>
  eomt_X3A_1 d H T R a b c i j k - 1 / 4 * (sumn (noa d) (fun m => (eomt_X_aa_vooo_2 d H T R b m j i) * (x_aa T a c m k))).
(** ccpy/eomcc/eomccsdt.py, build_HR_3A, line 197 *)
Definition eomt_X3A_3 (d : dims) (H : ints) (T R : amps) : mat6 := fun a b c i j k =>
  eomt_X3A_2 d H T R a b c i j k - 1 / 4 * (sumn (noa d) (fun m => (i_aa_vooo H b m j i) * (x_aa R a c m k))).
(** ccpy/eomcc/eomccsdt.py, build_HR_3A, line 199 *)
Definition eomt_X3A_4 (d : dims) (H : ints) (T R : amps) : mat6 := fun a b c i j k =>
  eomt_X3A_3 d H T R a b c i j k + 1 / 12 * (sumn (nua d) (fun e => (eomt_X_a_vv_1 d H T R b e) * (x_aaa T a e c i j k))).
(** ccpy/eomcc/eomccsdt.py, build_HR_3A, line 200 *)
Definition eomt_X3A_5 (d : dims) (H : ints) (T R : amps) : mat6 := fun a b c i j k =>
  eomt_X3A_4 d H T R a b c i j k - 1 / 12 * (sumn (noa d) (fun m => (eomt_X_a_oo_1 d H T R m j) * (x_aaa T a b c i m k))).
(** ccpy/eomcc/eomccsdt.py, build_HR_3A, line 201 *)
Definition eomt_X3A_6 (d : dims) (H : ints) (T R : amps) : mat6 := fun a b c i j k =>
  eomt_X3A_5 d H T R a b c i j k + 1 / 24 * (sumn (noa d) (fun m => sumn (noa d) (fun n => (eomt_X_aa_oooo_1 d H T R m n i j) * (x_aaa T a b c m n k)))).
(** ccpy/eomcc/eomccsdt.py, build_HR_3A, line 202 *)
Definition eomt_X3A_7 (d : dims) (H : ints) (T R : amps) : mat6 := fun a b c i j k =>
  eomt_X3A_6 d H T R a b c i j k + 1 / 24 * (sumn (nua d) (fun e => sumn (nua d) (fun f => (eomt_X_aa_vvvv_1 d H T R a b e f) * (x_aaa T e f c i j k)))).
(** ccpy/eomcc/eomccsdt.py, build_HR_3A, line 203 *)
Definition eomt_X3A_8 (d : dims) (H : ints) (T R : amps) : mat6 := fun a b c i j k =>
  eomt_X3A_7 d H T R a b c i j k + 1 / 4 * (sumn (noa d) (fun m => sumn (nua d) (fun e => (eomt_X_aa_voov d H T R b m j e) * (x_aaa T a e c i m k)))).
(** ccpy/eomcc/eomccsdt.py, build_HR_3A, line 204 *)
Definition eomt_X3A_9 (d : dims) (H : ints) (T R : amps) : mat6 := fun a b c i j k =>
  eomt_X3A_8 d H T R a b c i j k + 1 / 4 * (sumn (nob d) (fun m => sumn (nub d) (fun e => (eomt_X_ab_voov d H T R b m j e) * (x_aab T a c e i k m)))).
(** ccpy/eomcc/eomccsdt.py, build_HR_3A, line 206 *)
Definition eomt_X3A_10 (d : dims) (H : ints) (T R : amps) : mat6 := fun a b c i j k =>
  eomt_X3A_9 d H T R a b c i j k - 1 / 12 * (sumn (noa d) (fun m => (i_a_oo H m j) * (x_aaa R a b c i m k))).
(** ccpy/eomcc/eomccsdt.py, build_HR_3A, line 207 *)
Definition eomt_X3A_11 (d : dims) (H : ints) (T R : amps) : mat6 := fun a b c i j k =>
  eomt_X3A_10 d H T R a b c i j k + 1 / 12 * (sumn (nua d) (fun e => (i_a_vv H b e) * (x_aaa R a e c i j k))).
(** ccpy/eomcc/eomccsdt.py, build_HR_3A, line 208 *)
Definition eomt_X3A_12 (d : dims) (H : ints) (T R : amps) : mat6 := fun a b c i j k =>
  eomt_X3A_11 d H T R a b c i j k + 1 / 24 * (sumn (noa d) (fun m => sumn (noa d) (fun n => (i_aa_oooo H m n i j) * (x_aaa R a b c m n k)))).
(** ccpy/eomcc/eomccsdt.py, build_HR_3A, line 209 *)
Definition eomt_X3A_13 (d : dims) (H : ints) (T R : amps) : mat6 := fun a b c i j k =>
  eomt_X3A_12 d H T R a b c i j k + 1 / 24 * (sumn (nua d) (fun e => sumn (nua d) (fun f => (i_aa_vvvv H a b e f) * (x_aaa R e f c i j k)))).
(** ccpy/eomcc/eomccsdt.py, build_HR_3A, line 210 *)
Definition eomt_X3A_14 (d : dims) (H : ints) (T R : amps) : mat6 := fun a b c i j k =>
  eomt_X3A_13 d H T R a b c i j k + 1 / 4 * (sumn (noa d) (fun m => sumn (nua d) (fun e => (i_aa_voov H a m i e) * (x_aaa R e b c m j k)))).
(** ccpy/eomcc/eomccsdt.py, build_HR_3A, line 211 *)
Definition eomt_X3A_15 (d : dims) (H : ints) (T R : amps) : mat6 := fun a b c i j k =>
  eomt_X3A_14 d H T R a b c i j k + 1 / 4 * (sumn (nob d) (fun m => sumn (nub d) (fun e => (i_ab_voov H a m i e) * (x_aab R b c e j k m)))).
(** ccpy/eomcc/eomccsdt.py, build_HR_3A, line 213 *)
Definition eomt_X3A_16 (d : dims) (H : ints) (T R : amps) : mat6 := fun a b c i j k =>
  eomt_X3A_15 d H T R a b c i j k - eomt_X3A_15 d H T R a b c i k j.
(** ccpy/eomcc/eomccsdt.py, build_HR_3A, line 214 *)
Definition eomt_X3A_17 (d : dims) (H : ints) (T R : amps) : mat6 := fun a b c i j k =>
  eomt_X3A_16 d H T R a b c i j k - (eomt_X3A_16 d H T R a b c j i k + eomt_X3A_16 d H T R a b c k j i).
(** ccpy/eomcc/eomccsdt.py, build_HR_3A, line 215 *)
Definition eomt_X3A_18 (d : dims) (H : ints) (T R : amps) : mat6 := fun a b c i j k =>
  eomt_X3A_17 d H T R a b c i j k - eomt_X3A_17 d H T R a c b i j k.
(** ccpy/eomcc/eomccsdt.py, build_HR_3A, line 216 *)
Definition eomt_X3A_19 (d : dims) (H : ints) (T R : amps) : mat6 := fun a b c i j k =>
  eomt_X3A_18 d H T R a b c i j k - (eomt_X3A_18 d H T R b a c i j k + eomt_X3A_18 d H T R c b a i j k).
(** ccpy/eomcc/eomccsdt.py, build_HR_3B, line 222 *)
Definition eomt_X3B (d : dims) (H : ints) (T R : amps) : mat6 := fun a b c i j k =>
  1 / 2 * (sumn (nua d) (fun e => (eomt_X_ab_vvvo_1 d H T R b c e k) * (x_aa T a e i j))).
(** ccpy/eomcc/eomccsdt.py, build_HR_3B, line 223 *)
Definition eomt_X3B_1 (d : dims) (H : ints) (T R : amps) : mat6 := fun a b c i j k =>
  eomt_X3B d H T R a b c i j k + 1 / 2 * (sumn (nua d) (fun e => (i_ab_vvvo H b c e k) * (x_aa R a e i j))).
(** ccpy/eomcc/eomccsdt.py, build_HR_3B, line 225 *)
Definition eomt_X3B_2 (d : dims) (H : ints) (T R : amps) : mat6 := fun a b c i j k =>
  eomt_X3B_1 d H T R a b c i j k - 1 / 2 * (sumn (noa d) (fun n => (eomt_X_ab_ovoo_1 d H T R n c j k) * (x_aa T a b i n))).
(** ccpy/eomcc/eomccsdt.py, build_HR_3B, line 226 *)
Definition eomt_X3B_3 (d : dims) (H : ints) (T R : amps) : mat6 := fun a b c i j k =>
  eomt_X3B_2 d H T R a b c i j k - 1 / 2 * (sumn (noa d) (fun m => (i_ab_ovoo H m c j k) * (x_aa R a b i m))).
(** ccpy/eomcc/eomccsdt.py, build_HR_3B, line 228 *)
Definition eomt_X3B_4 (d : dims) (H : ints) (T R : amps) : mat6 := fun a b c i j k =>
  eomt_X3B_3 d H T R a b c i j k + 1 / 2 * (sumn (nua d) (fun e => (eomt_X_aa_vvov_2 d H T R b a j e) * (x_ab T e c i k))).
(** ccpy/eomcc/eomccsdt.py, build_HR_3B, line 229 *)
Definition eomt_X3B_5 (d : dims) (H : ints) (T R : amps) : mat6 := fun a b c i j k =>
  eomt_X3B_4 d H T R a b c i j k + 1 / 2 * (sumn (nua d) (fun e => (i_aa_vvov H b a j e) * (x_ab R e c i k))).
(** ccpy/eomcc/eomccsdt.py, build_HR_3B, line 231 *)
Definition eomt_X3B_6 (d : dims) (H : ints) (T R : amps) : mat6 := fun a b c i j k =>
  eomt_X3B_5 d H T R a b c i j k - 1 / 2 * (sumn (noa d) (fun n => (eomt_X_aa_vooo_2 d H T R b n j i) * (x_ab T a c n k))).
(** ccpy/eomcc/eomccsdt.py, build_HR_3B, line 232 *)
Definition eomt_X3B_7 (d : dims) (H : ints) (T R : amps) : mat6 := fun a b c i j k =>
  eomt_X3B_6 d H T R a b c i j k - 1 / 2 * (sumn (noa d) (fun n => (i_aa_vooo H b n j i) * (x_ab R a c n k))).
(** ccpy/eomcc/eomccsdt.py, build_HR_3B, line 234 *)
Definition eomt_X3B_8 (d : dims) (H : ints) (T R : amps) : mat6 := fun a b c i j k =>
  eomt_X3B_7 d H T R a b c i j k + sumn (nub d) (fun e => (eomt_X_ab_vvov_1 d H T R b c j e) * (x_ab T a e i k)).
(** ccpy/eomcc/eomccsdt.py, build_HR_3B, line 235 *)
Definition eomt_X3B_9 (d : dims) (H : ints) (T R : amps) : mat6 := fun a b c i j k =>
  eomt_X3B_8 d H T R a b c i j k + sumn (nub d) (fun e => (i_ab_vvov H b c j e) * (x_ab R a e i k)).
(** ccpy/eomcc/eomccsdt.py, build_HR_3B, line 237 *)
Definition eomt_X3B_10 (d : dims) (H : ints) (T R : amps) : mat6 := fun a b c i j k =>
  eomt_X3B_9 d H T R a b c i j k - sumn (nob d) (fun n => (eomt_X_ab_vooo_1 d H T R b n j k) * (x_ab T a c i n)).
(** ccpy/eomcc/eomccsdt.py, build_HR_3B, line 238 *)
Definition eomt_X3B_11 (d : dims) (H : ints) (T R : amps) : mat6 := fun a b c i j k =>
  eomt_X3B_10 d H T R a b c i j k - sumn (nob d) (fun n => (i_ab_vooo H b n j k) * (x_ab R a c i n)).
(** ccpy/eomcc/eomccsdt.py, build_HR_3B, line 241 *)
Definition eomt_X3B_12 (d : dims) (H : ints) (T R : amps) : mat6 := fun a b c i j k =>
  eomt_X3B_11 d H T R a b c i j k + 1 / 2 * (sumn (nua d) (fun e => (eomt_X_a_vv_1 d H T R b e) * (x_aab T a e c i j k))).
(** ccpy/eomcc/eomccsdt.py, build_HR_3B, line 242 *)
Definition eomt_X3B_13 (d : dims) (H : ints) (T R : amps) : mat6 := fun a b c i j k =>
  eomt_X3B_12 d H T R a b c i j k + 1 / 4 * (sumn (nub d) (fun e => (eomt_X_b_vv_1 d H T R c e) * (x_aab T a b e i j k))).
(** ccpy/eomcc/eomccsdt.py, build_HR_3B, line 243 *)
Definition eomt_X3B_14 (d : dims) (H : ints) (T R : amps) : mat6 := fun a b c i j k =>
  eomt_X3B_13 d H T R a b c i j k - 1 / 2 * (sumn (noa d) (fun m => (eomt_X_a_oo_1 d H T R m j) * (x_aab T a b c i m k))).
(** ccpy/eomcc/eomccsdt.py, build_HR_3B, line 244 *)
Definition eomt_X3B_15 (d : dims) (H : ints) (T R : amps) : mat6 := fun a b c i j k =>
  eomt_X3B_14 d H T R a b c i j k - 1 / 4 * (sumn (nob d) (fun m => (eomt_X_b_oo_1 d H T R m k) * (x_aab T a b c i j m))).
(** ccpy/eomcc/eomccsdt.py, build_HR_3B, line 245 *)
Definition eomt_X3B_16 (d : dims) (H : ints) (T R : amps) : mat6 := fun a b c i j k =>
  eomt_X3B_15 d H T R a b c i j k + 1 / 2 * (sumn (noa d) (fun n => sumn (nob d) (fun m => (eomt_X_ab_oooo d H T R n m j k) * (x_aab T a b c i n m)))).
(** ccpy/eomcc/eomccsdt.py, build_HR_3B, line 246 *)
Definition eomt_X3B_17 (d : dims) (H : ints) (T R : amps) : mat6 := fun a b c i j k =>
  eomt_X3B_16 d H T R a b c i j k + 1 / 8 * (sumn (noa d) (fun m => sumn (noa d) (fun n => (eomt_X_aa_oooo_1 d H T R m n i j) * (x_aab T a b c m n k)))).
(** ccpy/eomcc/eomccsdt.py, build_HR_3B, line 247 *)
Definition eomt_X3B_18 (d : dims) (H : ints) (T R : amps) : mat6 := fun a b c i j k =>
  eomt_X3B_17 d H T R a b c i j k + 1 / 2 * (sumn (nua d) (fun f => sumn (nub d) (fun e => (eomt_X_ab_vvvv d H T R b c f e) * (x_aab T a f e i j k)))).
(** ccpy/eomcc/eomccsdt.py, build_HR_3B, line 248 *)
Definition eomt_X3B_19 (d : dims) (H : ints) (T R : amps) : mat6 := fun a b c i j k =>
  eomt_X3B_18 d H T R a b c i j k + 1 / 8 * (sumn (nua d) (fun e => sumn (nua d) (fun f => (eomt_X_aa_vvvv_1 d H T R a b e f) * (x_aab T e f c i j k)))).
(** ccpy/eomcc/eomccsdt.py, build_HR_3B, line 249 *)
Definition eomt_X3B_20 (d : dims) (H : ints) (T R : amps) : mat6 := fun a b c i j k =>
  eomt_X3B_19 d H T R a b c i j k + 1 / 4 * (sumn (noa d) (fun n => sumn (nua d) (fun f => (eomt_X_ab_ovvo d H T R n c f k) * (x_aaa T a b f i j n)))).
(** ccpy/eomcc/eomccsdt.py, build_HR_3B, line 250 *)
Definition eomt_X3B_21 (d : dims) (H : ints) (T R : amps) : mat6 := fun a b c i j k =>
  eomt_X3B_20 d H T R a b c i j k + 1 / 4 * (sumn (nob d) (fun n => sumn (nub d) (fun f => (eomt_X_bb_voov d H T R c n k f) * (x_aab T a b f i j n)))).
(** ccpy/eomcc/eomccsdt.py, build_HR_3B, line 251 *)
Definition eomt_X3B_22 (d : dims) (H : ints) (T R : amps) : mat6 := fun a b c i j k =>
  eomt_X3B_21 d H T R a b c i j k - 1 / 2 * (sumn (nob d) (fun m => sumn (nua d) (fun f => (eomt_X_ab_vovo d H T R b m f k) * (x_aab T a f c i j m)))).
(** ccpy/eomcc/eomccsdt.py, build_HR_3B, line 252 *)
Definition eomt_X3B_23 (d : dims) (H : ints) (T R : amps) : mat6 := fun a b c i j k =>
  eomt_X3B_22 d H T R a b c i j k - 1 / 2 * (sumn (noa d) (fun n => sumn (nub d) (fun e => (eomt_X_ab_ovov d H T R n c j e) * (x_aab T a b e i n k)))).
(** ccpy/eomcc/eomccsdt.py, build_HR_3B, line 253 *)
Definition eomt_X3B_24 (d : dims) (H : ints) (T R : amps) : mat6 := fun a b c i j k =>
  eomt_X3B_23 d H T R a b c i j k + sumn (noa d) (fun m => sumn (nua d) (fun e => (eomt_X_aa_voov d H T R b m j e) * (x_aab T a e c i m k))).
(** ccpy/eomcc/eomccsdt.py, build_HR_3B, line 254 *)
Definition eomt_X3B_25 (d : dims) (H : ints) (T R : amps) : mat6 := fun a b c i j k =>
  eomt_X3B_24 d H T R a b c i j k + sumn (nob d) (fun m => sumn (nub d) (fun e => (eomt_X_ab_voov d H T R b m j e) * (x_abb T a e c i m k))).
(** ccpy/eomcc/eomccsdt.py, build_HR_3B, line 256 *)
Definition eomt_X3B_26 (d : dims) (H : ints) (T R : amps) : mat6 := fun a b c i j k =>
  eomt_X3B_25 d H T R a b c i j k - 1 / 2 * (sumn (noa d) (fun m => (i_a_oo H m j) * (x_aab R a b c i m k))).
(** ccpy/eomcc/eomccsdt.py, build_HR_3B, line 257 *)
Definition eomt_X3B_27 (d : dims) (H : ints) (T R : amps) : mat6 := fun a b c i j k =>
  eomt_X3B_26 d H T R a b c i j k - 1 / 4 * (sumn (nob d) (fun m => (i_b_oo H m k) * (x_aab R a b c i j m))).
(** ccpy/eomcc/eomccsdt.py, build_HR_3B, line 258 *)
Definition eomt_X3B_28 (d : dims) (H : ints) (T R : amps) : mat6 := fun a b c i j k =>
  eomt_X3B_27 d H T R a b c i j k + 1 / 2 * (sumn (nua d) (fun e => (i_a_vv H b e) * (x_aab R a e c i j k))).
(** ccpy/eomcc/eomccsdt.py, build_HR_3B, line 259 *)
Definition eomt_X3B_29 (d : dims) (H : ints) (T R : amps) : mat6 := fun a b c i j k =>
  eomt_X3B_28 d H T R a b c i j k + 1 / 4 * (sumn (nub d) (fun e => (i_b_vv H c e) * (x_aab R a b e i j k))).
(** ccpy/eomcc/eomccsdt.py, build_HR_3B, line 260 *)
Definition eomt_X3B_30 (d : dims) (H : ints) (T R : amps) : mat6 := fun a b c i j k =>
  eomt_X3B_29 d H T R a b c i j k + 1 / 8 * (sumn (noa d) (fun m => sumn (noa d) (fun n => (i_aa_oooo H m n i j) * (x_aab R a b c m n k)))).
(** ccpy/eomcc/eomccsdt.py, build_HR_3B, line 261 *)
Definition eomt_X3B_31 (d : dims) (H : ints) (T R : amps) : mat6 := fun a b c i j k =>
  eomt_X3B_30 d H T R a b c i j k + 1 / 2 * (sumn (noa d) (fun m => sumn (nob d) (fun n => (i_ab_oooo H m n j k) * (x_aab R a b c i m n)))).
(** ccpy/eomcc/eomccsdt.py, build_HR_3B, line 262 *)
Definition eomt_X3B_32 (d : dims) (H : ints) (T R : amps) : mat6 := fun a b c i j k =>
  eomt_X3B_31 d H T R a b c i j k + 1 / 8 * (sumn (nua d) (fun e => sumn (nua d) (fun f => (i_aa_vvvv H a b e f) * (x_aab R e f c i j k)))).
(** ccpy/eomcc/eomccsdt.py, build_HR_3B, line 263 *)
Definition eomt_X3B_33 (d : dims) (H : ints) (T R : amps) : mat6 := fun a b c i j k =>
  eomt_X3B_32 d H T R a b c i j k + 1 / 2 * (sumn (nua d) (fun e => sumn (nub d) (fun f => (i_ab_vvvv H b c e f) * (x_aab R a e f i j k)))).
(** ccpy/eomcc/eomccsdt.py, build_HR_3B, line 264 *)
Definition eomt_X3B_34 (d : dims) (H : ints) (T R : amps) : mat6 := fun a b c i j k =>
  eomt_X3B_33 d H T R a b c i j k + sumn (noa d) (fun m => sumn (nua d) (fun e => (i_aa_voov H a m i e) * (x_aab R e b c m j k))).
(** ccpy/eomcc/eomccsdt.py, build_HR_3B, line 265 *)
Definition eomt_X3B_35 (d : dims) (H : ints) (T R : amps) : mat6 := fun a b c i j k =>
  eomt_X3B_34 d H T R a b c i j k + sumn (nob d) (fun m => sumn (nub d) (fun e => (i_ab_voov H a m i e) * (x_abb R b e c j m k))).
(** ccpy/eomcc/eomccsdt.py, build_HR_3B, line 266 *)
Definition eomt_X3B_36 (d : dims) (H : ints) (T R : amps) : mat6 := fun a b c i j k =>
  eomt_X3B_35 d H T R a b c i j k + 1 / 4 * (sumn (noa d) (fun m => sumn (nua d) (fun e => (i_ab_ovvo H m c e k) * (x_aaa R a b e i j m)))).
(** ccpy/eomcc/eomccsdt.py, build_HR_3B, line 267 *)
Definition eomt_X3B_37 (d : dims) (H : ints) (T R : amps) : mat6 := fun a b c i j k =>
  eomt_X3B_36 d H T R a b c i j k + 1 / 4 * (sumn (nob d) (fun m => sumn (nub d) (fun e => (i_bb_voov H c m k e) * (x_aab R a b e i j m)))).
(** ccpy/eomcc/eomccsdt.py, build_HR_3B, line 268 *)
Definition eomt_X3B_38 (d : dims) (H : ints) (T R : amps) : mat6 := fun a b c i j k =>
  eomt_X3B_37 d H T R a b c i j k - 1 / 2 * (sumn (nob d) (fun m => sumn (nua d) (fun e => (i_ab_vovo H b m e k) * (x_aab R a e c i j m)))).
(** ccpy/eomcc/eomccsdt.py, build_HR_3B, line 269 *)
Definition eomt_X3B_39 (d : dims) (H : ints) (T R : amps) : mat6 := fun a b c i j k =>
  eomt_X3B_38 d H T R a b c i j k - 1 / 2 * (sumn (noa d) (fun m => sumn (nub d) (fun e => (i_ab_ovov H m c j e) * (x_aab R a b e i m k)))).
(** ccpy/eomcc/eomccsdt.py, build_HR_3B, line 270 *)
Definition eomt_X3B_40 (d : dims) (H : ints) (T R : amps) : mat6 := fun a b c i j k =>
  eomt_X3B_39 d H T R a b c i j k - eomt_X3B_39 d H T R b a c i j k.
(** ccpy/eomcc/eomccsdt.py, build_HR_3B, line 271 *)
Definition eomt_X3B_41 (d : dims) (H : ints) (T R : amps) : mat6 := fun a b c i j k =>
  eomt_X3B_40 d H T R a b c i j k - eomt_X3B_40 d H T R a b c j i k.
(** ccpy/eomcc/eomccsdt.py, build_HR_3C, line 277 *)
Definition eomt_X3C (d : dims) (H : ints) (T R : amps) : mat6 := fun c b a k j i =>
  1 / 2 * (sumn (nub d) (fun e => (eomt_X_ab_vvov_1 d H T R c b k e) * (x_bb T a e i j))).
(** ccpy/eomcc/eomccsdt.py, build_HR_3C, line 278 *)
Definition eomt_X3C_1 (d : dims) (H : ints) (T R : amps) : mat6 := fun c b a k j i =>
  eomt_X3C d H T R c b a k j i + 1 / 2 * (sumn (nub d) (fun e => (i_ab_vvov H c b k e) * (x_bb R a e i j))).
(** ccpy/eomcc/eomccsdt.py, build_HR_3C, line 280 *)
Definition eomt_X3C_2 (d : dims) (H : ints) (T R : amps) : mat6 := fun c b a k j i =>
  eomt_X3C_1 d H T R c b a k j i - 1 / 2 * (sumn (nob d) (fun n => (eomt_X_ab_vooo_1 d H T R c n k j) * (x_bb T a b i n))).
(** ccpy/eomcc/eomccsdt.py, build_HR_3C, line 281 *)
Definition eomt_X3C_3 (d : dims) (H : ints) (T R : amps) : mat6 := fun c b a k j i =>
  eomt_X3C_2 d H T R c b a k j i - 1 / 2 * (sumn (nob d) (fun m => (i_ab_vooo H c m k j) * (x_bb R a b i m))).
(** ccpy/eomcc/eomccsdt.py, build_HR_3C, line 283 *)
Definition eomt_X3C_4 (d : dims) (H : ints) (T R : amps) : mat6 := fun c b a k j i =>
  eomt_X3C_3 d H T R c b a k j i + 1 / 2 * (sumn (nub d) (fun e => (eomt_X_bb_vvov_2 d H T R b a j e) * (x_ab T c e k i))).
(** ccpy/eomcc/eomccsdt.py, build_HR_3C, line 284 *)
Definition eomt_X3C_5 (d : dims) (H : ints) (T R : amps) : mat6 := fun c b a k j i =>
  eomt_X3C_4 d H T R c b a k j i + 1 / 2 * (sumn (nub d) (fun e => (i_bb_vvov H b a j e) * (x_ab R c e k i))).
(** ccpy/eomcc/eomccsdt.py, build_HR_3C, line 286 *)
Definition eomt_X3C_6 (d : dims) (H : ints) (T R : amps) : mat6 := fun c b a k j i =>
  eomt_X3C_5 d H T R c b a k j i - 1 / 2 * (sumn (nob d) (fun n => (eomt_X_bb_vooo_2 d H T R b n j i) * (x_ab T c a k n))).
(** ccpy/eomcc/eomccsdt.py, build_HR_3C, line 287 *)
Definition eomt_X3C_7 (d : dims) (H : ints) (T R : amps) : mat6 := fun c b a k j i =>
  eomt_X3C_6 d H T R c b a k j i - 1 / 2 * (sumn (nob d) (fun n => (i_bb_vooo H b n j i) * (x_ab R c a k n))).
(** ccpy/eomcc/eomccsdt.py, build_HR_3C, line 289 *)
Definition eomt_X3C_8 (d : dims) (H : ints) (T R : amps) : mat6 := fun c b a k j i =>
  eomt_X3C_7 d H T R c b a k j i + sumn (nua d) (fun e => (eomt_X_ab_vvvo_1 d H T R c b e j) * (x_ab T e a k i)).
(** ccpy/eomcc/eomccsdt.py, build_HR_3C, line 290 *)
Definition eomt_X3C_9 (d : dims) (H : ints) (T R : amps) : mat6 := fun c b a k j i =>
  eomt_X3C_8 d H T R c b a k j i + sumn (nua d) (fun e => (i_ab_vvvo H c b e j) * (x_ab R e a k i)).
(** ccpy/eomcc/eomccsdt.py, build_HR_3C, line 292 *)
Definition eomt_X3C_10 (d : dims) (H : ints) (T R : amps) : mat6 := fun c b a k j i =>
  eomt_X3C_9 d H T R c b a k j i - sumn (noa d) (fun n => (eomt_X_ab_ovoo_1 d H T R n b k j) * (x_ab T c a n i)).
(** ccpy/eomcc/eomccsdt.py, build_HR_3C, line 293 *)
Definition eomt_X3C_11 (d : dims) (H : ints) (T R : amps) : mat6 := fun c b a k j i =>
  eomt_X3C_10 d H T R c b a k j i - sumn (noa d) (fun n => (i_ab_ovoo H n b k j) * (x_ab R c a n i)).
(** ccpy/eomcc/eomccsdt.py, build_HR_3C, line 295 *)
Definition eomt_X3C_12 (d : dims) (H : ints) (T R : amps) : mat6 := fun c b a k j i =>
  eomt_X3C_11 d H T R c b a k j i + 1 / 2 * (sumn (nub d) (fun e => (eomt_X_b_vv_1 d H T R b e) * (x_abb T c e a k j i))).
(** ccpy/eomcc/eomccsdt.py, build_HR_3C, line 296 *)
Definition eomt_X3C_13 (d : dims) (H : ints) (T R : amps) : mat6 := fun c b a k j i =>
  eomt_X3C_12 d H T R c b a k j i + 1 / 4 * (sumn (nua d) (fun e => (eomt_X_a_vv_1 d H T R c e) * (x_abb T e b a k j i))).
(** ccpy/eomcc/eomccsdt.py, build_HR_3C, line 297 *)
Definition eomt_X3C_14 (d : dims) (H : ints) (T R : amps) : mat6 := fun c b a k j i =>
  eomt_X3C_13 d H T R c b a k j i - 1 / 2 * (sumn (nob d) (fun m => (eomt_X_b_oo_1 d H T R m j) * (x_abb T c b a k m i))).
(** ccpy/eomcc/eomccsdt.py, build_HR_3C, line 298 *)
Definition eomt_X3C_15 (d : dims) (H : ints) (T R : amps) : mat6 := fun c b a k j i =>
  eomt_X3C_14 d H T R c b a k j i - 1 / 4 * (sumn (noa d) (fun m => (eomt_X_a_oo_1 d H T R m k) * (x_abb T c b a m j i))).
(** ccpy/eomcc/eomccsdt.py, build_HR_3C, line 299 *)
Definition eomt_X3C_16 (d : dims) (H : ints) (T R : amps) : mat6 := fun c b a k j i =>
  eomt_X3C_15 d H T R c b a k j i + 1 / 2 * (sumn (noa d) (fun m => sumn (nob d) (fun n => (eomt_X_ab_oooo d H T R m n k j) * (x_abb T c b a m n i)))).
(** ccpy/eomcc/eomccsdt.py, build_HR_3C, line 300 *)
Definition eomt_X3C_17 (d : dims) (H : ints) (T R : amps) : mat6 := fun c b a k j i =>
  eomt_X3C_16 d H T R c b a k j i + 1 / 8 * (sumn (nob d) (fun m => sumn (nob d) (fun n => (eomt_X_bb_oooo_1 d H T R m n i j) * (x_abb T c b a k n m)))).
(** ccpy/eomcc/eomccsdt.py, build_HR_3C, line 301 *)
Definition eomt_X3C_18 (d : dims) (H : ints) (T R : amps) : mat6 := fun c b a k j i =>
  eomt_X3C_17 d H T R c b a k j i + 1 / 2 * (sumn (nua d) (fun e => sumn (nub d) (fun f => (eomt_X_ab_vvvv d H T R c b e f) * (x_abb T e f a k j i)))).
(** ccpy/eomcc/eomccsdt.py, build_HR_3C, line 302 *)
Definition eomt_X3C_19 (d : dims) (H : ints) (T R : amps) : mat6 := fun c b a k j i =>
  eomt_X3C_18 d H T R c b a k j i + 1 / 8 * (sumn (nub d) (fun e => sumn (nub d) (fun f => (eomt_X_bb_vvvv_1 d H T R a b e f) * (x_abb T c f e k j i)))).
(** ccpy/eomcc/eomccsdt.py, build_HR_3C, line 303 *)
Definition eomt_X3C_20 (d : dims) (H : ints) (T R : amps) : mat6 := fun c b a k j i =>
  eomt_X3C_19 d H T R c b a k j i + 1 / 4 * (sumn (nob d) (fun n => sumn (nub d) (fun f => (eomt_X_ab_voov d H T R c n k f) * (x_bbb T a b f i j n)))).
(** ccpy/eomcc/eomccsdt.py, build_HR_3C, line 304 *)
Definition eomt_X3C_21 (d : dims) (H : ints) (T R : amps) : mat6 := fun c b a k j i =>
  eomt_X3C_20 d H T R c b a k j i + 1 / 4 * (sumn (noa d) (fun n => sumn (nua d) (fun f => (eomt_X_aa_voov d H T R c n k f) * (x_abb T f b a n j i)))).
(** ccpy/eomcc/eomccsdt.py, build_HR_3C, line 305 *)
Definition eomt_X3C_22 (d : dims) (H : ints) (T R : amps) : mat6 := fun c b a k j i =>
  eomt_X3C_21 d H T R c b a k j i - 1 / 2 * (sumn (noa d) (fun m => sumn (nub d) (fun f => (eomt_X_ab_ovov d H T R m b k f) * (x_abb T c f a m j i)))).
(** ccpy/eomcc/eomccsdt.py, build_HR_3C, line 306 *)
Definition eomt_X3C_23 (d : dims) (H : ints) (T R : amps) : mat6 := fun c b a k j i =>
  eomt_X3C_22 d H T R c b a k j i - 1 / 2 * (sumn (nob d) (fun n => sumn (nua d) (fun e => (eomt_X_ab_vovo d H T R c n e j) * (x_abb T e b a k n i)))).
(** ccpy/eomcc/eomccsdt.py, build_HR_3C, line 307 *)
Definition eomt_X3C_24 (d : dims) (H : ints) (T R : amps) : mat6 := fun c b a k j i =>
  eomt_X3C_23 d H T R c b a k j i + sumn (nob d) (fun m => sumn (nub d) (fun e => (eomt_X_bb_voov d H T R b m j e) * (x_abb T c e a k m i))).
(** ccpy/eomcc/eomccsdt.py, build_HR_3C, line 308 *)
Definition eomt_X3C_25 (d : dims) (H : ints) (T R : amps) : mat6 := fun c b a k j i =>
  eomt_X3C_24 d H T R c b a k j i + sumn (noa d) (fun m => sumn (nua d) (fun e => (eomt_X_ab_ovvo d H T R m b e j) * (x_aab T c e a k m i))).
(** ccpy/eomcc/eomccsdt.py, build_HR_3C, line 310 *)
Definition eomt_X3C_26 (d : dims) (H : ints) (T R : amps) : mat6 := fun c b a k j i =>
  eomt_X3C_25 d H T R c b a k j i - 1 / 2 * (sumn (nob d) (fun m => (i_b_oo H m j) * (x_abb R c b a k m i))).
(** ccpy/eomcc/eomccsdt.py, build_HR_3C, line 311 *)
Definition eomt_X3C_27 (d : dims) (H : ints) (T R : amps) : mat6 := fun c b a k j i =>
  eomt_X3C_26 d H T R c b a k j i - 1 / 4 * (sumn (noa d) (fun m => (i_a_oo H m k) * (x_abb R c b a m j i))).
(** ccpy/eomcc/eomccsdt.py, build_HR_3C, line 312 *)
Definition eomt_X3C_28 (d : dims) (H : ints) (T R : amps) : mat6 := fun c b a k j i =>
  eomt_X3C_27 d H T R c b a k j i + 1 / 2 * (sumn (nub d) (fun e => (i_b_vv H b e) * (x_abb R c e a k j i))).
(** ccpy/eomcc/eomccsdt.py, build_HR_3C, line 313 *)
Definition eomt_X3C_29 (d : dims) (H : ints) (T R : amps) : mat6 := fun c b a k j i =>
  eomt_X3C_28 d H T R c b a k j i + 1 / 4 * (sumn (nua d) (fun e => (i_a_vv H c e) * (x_abb R e b a k j i))).
(** ccpy/eomcc/eomccsdt.py, build_HR_3C, line 314 *)
Definition eomt_X3C_30 (d : dims) (H : ints) (T R : amps) : mat6 := fun c b a k j i =>
  eomt_X3C_29 d H T R c b a k j i + 1 / 8 * (sumn (nob d) (fun m => sumn (nob d) (fun n => (i_bb_oooo H m n i j) * (x_abb R c b a k n m)))).
(** ccpy/eomcc/eomccsdt.py, build_HR_3C, line 315 *)
Definition eomt_X3C_31 (d : dims) (H : ints) (T R : amps) : mat6 := fun c b a k j i =>
  eomt_X3C_30 d H T R c b a k j i + 1 / 2 * (sumn (noa d) (fun n => sumn (nob d) (fun m => (i_ab_oooo H n m k j) * (x_abb R c b a n m i)))).
(** ccpy/eomcc/eomccsdt.py, build_HR_3C, line 316 *)
Definition eomt_X3C_32 (d : dims) (H : ints) (T R : amps) : mat6 := fun c b a k j i =>
  eomt_X3C_31 d H T R c b a k j i + 1 / 8 * (sumn (nub d) (fun e => sumn (nub d) (fun f => (i_bb_vvvv H a b e f) * (x_abb R c f e k j i)))).
(** ccpy/eomcc/eomccsdt.py, build_HR_3C, line 317 *)
Definition eomt_X3C_33 (d : dims) (H : ints) (T R : amps) : mat6 := fun c b a k j i =>
  eomt_X3C_32 d H T R c b a k j i + 1 / 2 * (sumn (nua d) (fun f => sumn (nub d) (fun e => (i_ab_vvvv H c b f e) * (x_abb R f e a k j i)))).
(** ccpy/eomcc/eomccsdt.py, build_HR_3C, line 318 *)
Definition eomt_X3C_34 (d : dims) (H : ints) (T R : amps) : mat6 := fun c b a k j i =>
  eomt_X3C_33 d H T R c b a k j i + sumn (nob d) (fun m => sumn (nub d) (fun e => (i_bb_voov H a m i e) * (x_abb R c b e k j m))).
(** ccpy/eomcc/eomccsdt.py, build_HR_3C, line 319 *)
Definition eomt_X3C_35 (d : dims) (H : ints) (T R : amps) : mat6 := fun c b a k j i =>
  eomt_X3C_34 d H T R c b a k j i + sumn (noa d) (fun m => sumn (nua d) (fun e => (i_ab_ovvo H m a e i) * (x_aab R c e b k m j))).
(** ccpy/eomcc/eomccsdt.py, build_HR_3C, line 320 *)
Definition eomt_X3C_36 (d : dims) (H : ints) (T R : amps) : mat6 := fun c b a k j i =>
  eomt_X3C_35 d H T R c b a k j i + 1 / 4 * (sumn (nob d) (fun m => sumn (nub d) (fun e => (i_ab_voov H c m k e) * (x_bbb R e b a m j i)))).
(** ccpy/eomcc/eomccsdt.py, build_HR_3C, line 321 *)
Definition eomt_X3C_37 (d : dims) (H : ints) (T R : amps) : mat6 := fun c b a k j i =>
  eomt_X3C_36 d H T R c b a k j i + 1 / 4 * (sumn (noa d) (fun m => sumn (nua d) (fun e => (i_aa_voov H c m k e) * (x_abb R e b a m j i)))).
(** ccpy/eomcc/eomccsdt.py, build_HR_3C, line 322 *)
Definition eomt_X3C_38 (d : dims) (H : ints) (T R : amps) : mat6 := fun c b a k j i =>
  eomt_X3C_37 d H T R c b a k j i - 1 / 2 * (sumn (noa d) (fun m => sumn (nub d) (fun e => (i_ab_ovov H m b k e) * (x_abb R c e a m j i)))).
(** ccpy/eomcc/eomccsdt.py, build_HR_3C, line 323 *)
Definition eomt_X3C_39 (d : dims) (H : ints) (T R : amps) : mat6 := fun c b a k j i =>
  eomt_X3C_38 d H T R c b a k j i - 1 / 2 * (sumn (nob d) (fun m => sumn (nua d) (fun e => (i_ab_vovo H c m e j) * (x_abb R e b a k m i)))).
(** ccpy/eomcc/eomccsdt.py, build_HR_3C, line 324 *)
Definition eomt_X3C_40 (d : dims) (H : ints) (T R : amps) : mat6 := fun c b a k j i =>
  eomt_X3C_39 d H T R c b a k j i - eomt_X3C_39 d H T R c a b k j i.
(** ccpy/eomcc/eomccsdt.py, build_HR_3C, line 325 *)
Definition eomt_X3C_41 (d : dims) (H : ints) (T R : amps) : mat6 := fun c b a k j i =>
  eomt_X3C_40 d H T R c b a k j i - eomt_X3C_40 d H T R c b a k i j.
(** ccpy/eomcc/eomccsdt.py, build_HR_3D, line 330 *)
Definition eomt_X3D (d : dims) (H : ints) (T R : amps) : mat6 := fun a b c i j k =>
  1 / 4 * (sumn (nub d) (fun e => (eomt_X_bb_vvov_2 d H T R b a j e) * (x_bb T e c i k))).
(** ccpy/eomcc/eomccsdt.py, build_HR_3D, line 331 *)
Definition eomt_X3D_1 (d : dims) (H : ints) (T R : amps) : mat6 := fun a b c i j k =>
  eomt_X3D d H T R a b c i j k + 1 / 4 * (sumn (nub d) (fun e => (i_bb_vvov H b a j e) * (x_bb R e c i k))).
(** ccpy/eomcc/eomccsdt.py, build_HR_3D, line 332 *)
Definition eomt_X3D_2 (d : dims) (H : ints) (T R : amps) : mat6 := fun a b c i j k =>
  eomt_X3D_1 d H T R a b c i j k - 1 / 4 * (sumn (nob d) (fun m => (eomt_X_bb_vooo_2 d H T R b m j i) * (x_bb T a c m k))).
(** ccpy/eomcc/eomccsdt.py, build_HR_3D, line 333 *)
Definition eomt_X3D_3 (d : dims) (H : ints) (T R : amps) : mat6 := fun a b c i j k =>
  eomt_X3D_2 d H T R a b c i j k - 1 / 4 * (sumn (nob d) (fun m => (i_bb_vooo H b m j i) * (x_bb R a c m k))).
(** ccpy/eomcc/eomccsdt.py, build_HR_3D, line 335 *)
Definition eomt_X3D_4 (d : dims) (H : ints) (T R : amps) : mat6 := fun a b c i j k =>
  eomt_X3D_3 d H T R a b c i j k + 1 / 12 * (sumn (nub d) (fun e => (eomt_X_b_vv_1 d H T R b e) * (x_bbb T a e c i j k))).
(** ccpy/eomcc/eomccsdt.py, build_HR_3D, line 336 *)
Definition eomt_X3D_5 (d : dims) (H : ints) (T R : amps) : mat6 := fun a b c i j k =>
  eomt_X3D_4 d H T R a b c i j k - 1 / 12 * (sumn (nob d) (fun m => (eomt_X_b_oo_1 d H T R m j) * (x_bbb T a b c i m k))).
(** ccpy/eomcc/eomccsdt.py, build_HR_3D, line 337 *)
Definition eomt_X3D_6 (d : dims) (H : ints) (T R : amps) : mat6 := fun a b c i j k =>
  eomt_X3D_5 d H T R a b c i j k + 1 / 24 * (sumn (nob d) (fun m => sumn (nob d) (fun n => (eomt_X_bb_oooo_1 d H T R m n i j) * (x_bbb T a b c m n k)))).
(** ccpy/eomcc/eomccsdt.py, build_HR_3D, line 338 *)
Definition eomt_X3D_7 (d : dims) (H : ints) (T R : amps) : mat6 := fun a b c i j k =>
  eomt_X3D_6 d H T R a b c i j k + 1 / 24 * (sumn (nub d) (fun e => sumn (nub d) (fun f => (eomt_X_bb_vvvv_1 d H T R a b e f) * (x_bbb T e f c i j k)))).
(** ccpy/eomcc/eomccsdt.py, build_HR_3D, line 339 *)
Definition eomt_X3D_8 (d : dims) (H : ints) (T R : amps) : mat6 := fun a b c i j k =>
  eomt_X3D_7 d H T R a b c i j k + 1 / 4 * (sumn (nob d) (fun m => sumn (nub d) (fun e => (eomt_X_bb_voov d H T R b m j e) * (x_bbb T a e c i m k)))).
(** ccpy/eomcc/eomccsdt.py, build_HR_3D, line 340 *)
Definition eomt_X3D_9 (d : dims) (H : ints) (T R : amps) : mat6 := fun a b c i j k =>
  eomt_X3D_8 d H T R a b c i j k + 1 / 4 * (sumn (noa d) (fun m => sumn (nua d) (fun e => (eomt_X_ab_ovvo d H T R m b e j) * (x_abb T e c a m k i)))).
(** ccpy/eomcc/eomccsdt.py, build_HR_3D, line 342 *)
Definition eomt_X3D_10 (d : dims) (H : ints) (T R : amps) : mat6 := fun a b c i j k =>
  eomt_X3D_9 d H T R a b c i j k - 1 / 12 * (sumn (nob d) (fun m => (i_b_oo H m j) * (x_bbb R a b c i m k))).
(** ccpy/eomcc/eomccsdt.py, build_HR_3D, line 343 *)
Definition eomt_X3D_11 (d : dims) (H : ints) (T R : amps) : mat6 := fun a b c i j k =>
  eomt_X3D_10 d H T R a b c i j k + 1 / 12 * (sumn (nub d) (fun e => (i_b_vv H b e) * (x_bbb R a e c i j k))).
(** ccpy/eomcc/eomccsdt.py, build_HR_3D, line 344 *)
Definition eomt_X3D_12 (d : dims) (H : ints) (T R : amps) : mat6 := fun a b c i j k =>
  eomt_X3D_11 d H T R a b c i j k + 1 / 24 * (sumn (nob d) (fun m => sumn (nob d) (fun n => (i_bb_oooo H m n i j) * (x_bbb R a b c m n k)))).
(** ccpy/eomcc/eomccsdt.py, build_HR_3D, line 345 *)
Definition eomt_X3D_13 (d : dims) (H : ints) (T R : amps) : mat6 := fun a b c i j k =>
  eomt_X3D_12 d H T R a b c i j k + 1 / 24 * (sumn (nub d) (fun e => sumn (nub d) (fun f => (i_bb_vvvv H a b e f) * (x_bbb R e f c i j k)))).
(** ccpy/eomcc/eomccsdt.py, build_HR_3D, line 346 *)
Definition eomt_X3D_14 (d : dims) (H : ints) (T R : amps) : mat6 := fun a b c i j k =>
  eomt_X3D_13 d H T R a b c i j k + 1 / 4 * (sumn (nob d) (fun m => sumn (nub d) (fun e => (i_bb_voov H a m i e) * (x_bbb R e b c m j k)))).
(** ccpy/eomcc/eomccsdt.py, build_HR_3D, line 347 *)
Definition eomt_X3D_15 (d : dims) (H : ints) (T R : amps) : mat6 := fun a b c i j k =>
  eomt_X3D_14 d H T R a b c i j k + 1 / 4 * (sumn (noa d) (fun m => sumn (nua d) (fun e => (i_ab_ovvo H m a e i) * (x_abb R e c b m k j)))).
(** ccpy/eomcc/eomccsdt.py, build_HR_3D, line 349 *)
Definition eomt_X3D_16 (d : dims) (H : ints) (T R : amps) : mat6 := fun a b c i j k =>
  eomt_X3D_15 d H T R a b c i j k - eomt_X3D_15 d H T R a b c i k j.
(** ccpy/eomcc/eomccsdt.py, build_HR_3D, line 350 *)
Definition eomt_X3D_17 (d : dims) (H : ints) (T R : amps) : mat6 := fun a b c i j k =>
  eomt_X3D_16 d H T R a b c i j k - (eomt_X3D_16 d H T R a b c j i k + eomt_X3D_16 d H T R a b c k j i).
(** ccpy/eomcc/eomccsdt.py, build_HR_3D, line 351 *)
Definition eomt_X3D_18 (d : dims) (H : ints) (T R : amps) : mat6 := fun a b c i j k =>
  eomt_X3D_17 d H T R a b c i j k - eomt_X3D_17 d H T R a c b i j k.
(** ccpy/eomcc/eomccsdt.py, build_HR_3D, line 352 *)
Definition eomt_X3D_19 (d : dims) (H : ints) (T R : amps) : mat6 := fun a b c i j k =>
  eomt_X3D_18 d H T R a b c i j k - (eomt_X3D_18 d H T R b a c i j k + eomt_X3D_18 d H T R c b a i j k).
(** eomccsdt.py, HR, lines 34-64: the vector returned *)
Definition eomt_HR (d : dims) (H : ints) (T R : amps) : amps := mkAmps (eomt_X1A_12 d H T R) (eomt_X1B_12 d H T R) (eomt_X2A_19 d H T R) (eomt_X2B_31 d H T R) (eomt_X2C_19 d H T R) (eomt_X3A_19 d H T R) (eomt_X3B_41 d H T R) (eomt_X3C_41 d H T R) (eomt_X3D_19 d H T R).
