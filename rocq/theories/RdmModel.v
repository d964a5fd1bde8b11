(** Generated by tools/gen_rdm.py from the source text (symbolic execution of the numpy statements; exact reals).
    Models ccpy/density/rdm1.py (calc_rdm1): rdm_ for operators of order 2, rdmt_ for order 3 (lines 68-123 included). *)
From Coq Require Import Reals Arith.
From Verif Require Import RSum IntegralsModel TensorObjs.
Open Scope R_scope.
(** the one-body Integral object returned, line 125 *)
Record rdms := mkRdms { g_a_oo : mat2; g_a_ov : mat2; g_a_vo : mat2; g_a_vv : mat2; g_b_oo : mat2; g_b_ov : mat2; g_b_vo : mat2; g_b_vv : mat2 }.
(** ccpy/density/rdm1.py, calc_rdm1, lines 12-16 *)
Definition rdm_rdm1_a_oo (d : dims) (T L : amps) : mat2 := fun i j =>
  (- (sumn (nua d) (fun e => (x_a L e i) * (x_a T e j)))) - 1 / 2 * (sumn (nua d) (fun e => sumn (nua d) (fun f => sumn (noa d) (fun n => (x_aa L e f i n) * (x_aa T e f j n))))) - sumn (nua d) (fun e => sumn (nub d) (fun f => sumn (nob d) (fun n => (x_ab L e f i n) * (x_ab T e f j n)))).
(** ccpy/density/rdm1.py, calc_rdm1, lines 17-21 *)
Definition rdm_rdm1_b_oo (d : dims) (T L : amps) : mat2 := fun i j =>
  (- (sumn (nub d) (fun e => (x_b L e i) * (x_b T e j)))) - 1 / 2 * (sumn (nub d) (fun e => sumn (nub d) (fun f => sumn (nob d) (fun n => (x_bb L e f i n) * (x_bb T e f j n))))) - sumn (nua d) (fun f => sumn (nub d) (fun e => sumn (noa d) (fun n => (x_ab L f e n i) * (x_ab T f e n j)))).
(** ccpy/density/rdm1.py, calc_rdm1, line 23 *)
Definition rdm_rdm1_a_oo_1 (d : dims) (T L : amps) : mat2 := fun i j =>
  rdm_rdm1_a_oo d T L i j + delta i j.
(** ccpy/density/rdm1.py, calc_rdm1, line 24 *)
Definition rdm_rdm1_b_oo_1 (d : dims) (T L : amps) : mat2 := fun i j =>
  rdm_rdm1_b_oo d T L i j + delta i j.
(** ccpy/density/rdm1.py, calc_rdm1, lines 27-31 *)
Definition rdm_rdm1_a_vv (d : dims) (T L : amps) : mat2 := fun a b =>
  sumn (noa d) (fun m => (x_a L b m) * (x_a T a m)) + 1 / 2 * (sumn (nua d) (fun f => sumn (noa d) (fun m => sumn (noa d) (fun n => (x_aa L b f m n) * (x_aa T a f m n))))) + sumn (nub d) (fun f => sumn (noa d) (fun m => sumn (nob d) (fun n => (x_ab L b f m n) * (x_ab T a f m n)))).
(** ccpy/density/rdm1.py, calc_rdm1, lines 32-36 *)
Definition rdm_rdm1_b_vv (d : dims) (T L : amps) : mat2 := fun a b =>
  sumn (nob d) (fun m => (x_b L b m) * (x_b T a m)) + 1 / 2 * (sumn (nub d) (fun f => sumn (nob d) (fun m => sumn (nob d) (fun n => (x_bb L b f m n) * (x_bb T a f m n))))) + sumn (nua d) (fun f => sumn (noa d) (fun n => sumn (nob d) (fun m => (x_ab L f b n m) * (x_ab T f a n m)))).
(** ccpy/density/rdm1.py, calc_rdm1, line 39 *)
Definition rdm_rdm1_a_ov (d : dims) (T L : amps) : mat2 := fun i a =>
  x_a L a i.
(** ccpy/density/rdm1.py, calc_rdm1, line 40 *)
Definition rdm_rdm1_b_ov (d : dims) (T L : amps) : mat2 := fun i a =>
  x_b L a i.
(** ccpy/density/rdm1.py, calc_rdm1, lines 43-51 *)
Definition rdm_rdm1_a_vo (d : dims) (T L : amps) : mat2 := fun a i =>
  sumn (nua d) (fun e => sumn (noa d) (fun m => (x_a L e m) * (x_aa T a e i m))) + sumn (nub d) (fun e => sumn (nob d) (fun m => (x_b L e m) * (x_ab T a e i m))) - sumn (nua d) (fun e => sumn (noa d) (fun m => (x_a L e m) * (x_a T e i) * (x_a T a m))) - 1 / 2 * (sumn (nua d) (fun e => sumn (nua d) (fun f => sumn (noa d) (fun m => sumn (noa d) (fun n => (x_aa L e f m n) * (x_aa T a f m n) * (x_a T e i)))))) - sumn (nua d) (fun e => sumn (nub d) (fun f => sumn (noa d) (fun m => sumn (nob d) (fun n => (x_ab L e f m n) * (x_ab T a f m n) * (x_a T e i))))) - 1 / 2 * (sumn (nua d) (fun e => sumn (nua d) (fun f => sumn (noa d) (fun m => sumn (noa d) (fun n => (x_aa L e f m n) * (x_aa T e f i n) * (x_a T a m)))))) - sumn (nua d) (fun e => sumn (nub d) (fun f => sumn (noa d) (fun m => sumn (nob d) (fun n => (x_ab L e f m n) * (x_ab T e f i n) * (x_a T a m))))).
(** ccpy/density/rdm1.py, calc_rdm1, lines 52-60 *)
Definition rdm_rdm1_b_vo (d : dims) (T L : amps) : mat2 := fun a i =>
  sumn (nub d) (fun e => sumn (nob d) (fun m => (x_b L e m) * (x_bb T a e i m))) + sumn (nua d) (fun e => sumn (noa d) (fun m => (x_a L e m) * (x_ab T e a m i))) - sumn (nub d) (fun e => sumn (nob d) (fun m => (x_b L e m) * (x_b T e i) * (x_b T a m))) - 1 / 2 * (sumn (nub d) (fun e => sumn (nub d) (fun f => sumn (nob d) (fun m => sumn (nob d) (fun n => (x_bb L e f m n) * (x_bb T a f m n) * (x_b T e i)))))) - sumn (nua d) (fun f => sumn (nub d) (fun e => sumn (noa d) (fun n => sumn (nob d) (fun m => (x_ab L f e n m) * (x_ab T f a n m) * (x_b T e i))))) - 1 / 2 * (sumn (nub d) (fun e => sumn (nub d) (fun f => sumn (nob d) (fun m => sumn (nob d) (fun n => (x_bb L e f m n) * (x_bb T e f i n) * (x_b T a m)))))) - sumn (nua d) (fun f => sumn (nub d) (fun e => sumn (noa d) (fun n => sumn (nob d) (fun m => (x_ab L f e n m) * (x_ab T f e n i) * (x_b T a m))))).
(** ccpy/density/rdm1.py, calc_rdm1, line 62 *)
Definition rdm_rdm1_a_vo_1 (d : dims) (T L : amps) : mat2 := fun a i =>
  rdm_rdm1_a_vo d T L a i + x_a T a i.
(** ccpy/density/rdm1.py, calc_rdm1, line 63 *)
Definition rdm_rdm1_b_vo_1 (d : dims) (T L : amps) : mat2 := fun a i =>
  rdm_rdm1_b_vo d T L a i + x_b T a i.
(** ccpy/density/rdm1.py, calc_rdm1, lines 12-16 *)
Definition rdmt_rdm1_a_oo (d : dims) (T L : amps) : mat2 := fun i j =>
  (- (sumn (nua d) (fun e => (x_a L e i) * (x_a T e j)))) - 1 / 2 * (sumn (nua d) (fun e => sumn (nua d) (fun f => sumn (noa d) (fun n => (x_aa L e f i n) * (x_aa T e f j n))))) - sumn (nua d) (fun e => sumn (nub d) (fun f => sumn (nob d) (fun n => (x_ab L e f i n) * (x_ab T e f j n)))).
(** ccpy/density/rdm1.py, calc_rdm1, lines 17-21 *)
Definition rdmt_rdm1_b_oo (d : dims) (T L : amps) : mat2 := fun i j =>
  (- (sumn (nub d) (fun e => (x_b L e i) * (x_b T e j)))) - 1 / 2 * (sumn (nub d) (fun e => sumn (nub d) (fun f => sumn (nob d) (fun n => (x_bb L e f i n) * (x_bb T e f j n))))) - sumn (nua d) (fun f => sumn (nub d) (fun e => sumn (noa d) (fun n => (x_ab L f e n i) * (x_ab T f e n j)))).
(** ccpy/density/rdm1.py, calc_rdm1, line 23 *)
Definition rdmt_rdm1_a_oo_1 (d : dims) (T L : amps) : mat2 := fun i j =>
  rdmt_rdm1_a_oo d T L i j + delta i j.
(** ccpy/density/rdm1.py, calc_rdm1, line 24 *)
Definition rdmt_rdm1_b_oo_1 (d : dims) (T L : amps) : mat2 := fun i j =>
  rdmt_rdm1_b_oo d T L i j + delta i j.
(** ccpy/density/rdm1.py, calc_rdm1, lines 27-31 *)
Definition rdmt_rdm1_a_vv (d : dims) (T L : amps) : mat2 := fun a b =>
  sumn (noa d) (fun m => (x_a L b m) * (x_a T a m)) + 1 / 2 * (sumn (nua d) (fun f => sumn (noa d) (fun m => sumn (noa d) (fun n => (x_aa L b f m n) * (x_aa T a f m n))))) + sumn (nub d) (fun f => sumn (noa d) (fun m => sumn (nob d) (fun n => (x_ab L b f m n) * (x_ab T a f m n)))).
(** ccpy/density/rdm1.py, calc_rdm1, lines 32-36 *)
Definition rdmt_rdm1_b_vv (d : dims) (T L : amps) : mat2 := fun a b =>
  sumn (nob d) (fun m => (x_b L b m) * (x_b T a m)) + 1 / 2 * (sumn (nub d) (fun f => sumn (nob d) (fun m => sumn (nob d) (fun n => (x_bb L b f m n) * (x_bb T a f m n))))) + sumn (nua d) (fun f => sumn (noa d) (fun n => sumn (nob d) (fun m => (x_ab L f b n m) * (x_ab T f a n m)))).
(** ccpy/density/rdm1.py, calc_rdm1, line 39 *)
Definition rdmt_rdm1_a_ov (d : dims) (T L : amps) : mat2 := fun i a =>
  x_a L a i.
(** ccpy/density/rdm1.py, calc_rdm1, line 40 *)
Definition rdmt_rdm1_b_ov (d : dims) (T L : amps) : mat2 := fun i a =>
  x_b L a i.
(** ccpy/density/rdm1.py, calc_rdm1, lines 43-51 *)
Definition rdmt_rdm1_a_vo (d : dims) (T L : amps) : mat2 := fun a i =>
  sumn (nua d) (fun e => sumn (noa d) (fun m => (x_a L e m) * (x_aa T a e i m))) + sumn (nub d) (fun e => sumn (nob d) (fun m => (x_b L e m) * (x_ab T a e i m))) - sumn (nua d) (fun e => sumn (noa d) (fun m => (x_a L e m) * (x_a T e i) * (x_a T a m))) - 1 / 2 * (sumn (nua d) (fun e => sumn (nua d) (fun f => sumn (noa d) (fun m => sumn (noa d) (fun n => (x_aa L e f m n) * (x_aa T a f m n) * (x_a T e i)))))) - sumn (nua d) (fun e => sumn (nub d) (fun f => sumn (noa d) (fun m => sumn (nob d) (fun n => (x_ab L e f m n) * (x_ab T a f m n) * (x_a T e i))))) - 1 / 2 * (sumn (nua d) (fun e => sumn (nua d) (fun f => sumn (noa d) (fun m => sumn (noa d) (fun n => (x_aa L e f m n) * (x_aa T e f i n) * (x_a T a m)))))) - sumn (nua d) (fun e => sumn (nub d) (fun f => sumn (noa d) (fun m => sumn (nob d) (fun n => (x_ab L e f m n) * (x_ab T e f i n) * (x_a T a m))))).
(** ccpy/density/rdm1.py, calc_rdm1, lines 52-60 *)
Definition rdmt_rdm1_b_vo (d : dims) (T L : amps) : mat2 := fun a i =>
  sumn (nub d) (fun e => sumn (nob d) (fun m => (x_b L e m) * (x_bb T a e i m))) + sumn (nua d) (fun e => sumn (noa d) (fun m => (x_a L e m) * (x_ab T e a m i))) - sumn (nub d) (fun e => sumn (nob d) (fun m => (x_b L e m) * (x_b T e i) * (x_b T a m))) - 1 / 2 * (sumn (nub d) (fun e => sumn (nub d) (fun f => sumn (nob d) (fun m => sumn (nob d) (fun n => (x_bb L e f m n) * (x_bb T a f m n) * (x_b T e i)))))) - sumn (nua d) (fun f => sumn (nub d) (fun e => sumn (noa d) (fun n => sumn (nob d) (fun m => (x_ab L f e n m) * (x_ab T f a n m) * (x_b T e i))))) - 1 / 2 * (sumn (nub d) (fun e => sumn (nub d) (fun f => sumn (nob d) (fun m => sumn (nob d) (fun n => (x_bb L e f m n) * (x_bb T e f i n) * (x_b T a m)))))) - sumn (nua d) (fun f => sumn (nub d) (fun e => sumn (noa d) (fun n => sumn (nob d) (fun m => (x_ab L f e n m) * (x_ab T f e n i) * (x_b T a m))))).
(** ccpy/density/rdm1.py, calc_rdm1, line 62 *)
Definition rdmt_rdm1_a_vo_1 (d : dims) (T L : amps) : mat2 := fun a i =>
  rdmt_rdm1_a_vo d T L a i + x_a T a i.
(** ccpy/density/rdm1.py, calc_rdm1, line 63 *)
Definition rdmt_rdm1_b_vo_1 (d : dims) (T L : amps) : mat2 := fun a i =>
  rdmt_rdm1_b_vo d T L a i + x_b T a i.
(** ccpy/density/rdm1.py, calc_rdm1, lines 69-73 *)
Definition rdmt_rdm1_a_oo_2 (d : dims) (T L : amps) : mat2 := fun i j =>
  rdmt_rdm1_a_oo_1 d T L i j + ((-1) / 12 * (sumn (nua d) (fun e => sumn (nua d) (fun f => sumn (nua d) (fun g => sumn (noa d) (fun n => sumn (noa d) (fun o => (x_aaa L e f g i n o) * (x_aaa T e f g j n o))))))) - 1 / 2 * (sumn (nua d) (fun e => sumn (nua d) (fun f => sumn (nub d) (fun g => sumn (noa d) (fun n => sumn (nob d) (fun o => (x_aab L e f g i n o) * (x_aab T e f g j n o))))))) - 1 / 4 * (sumn (nua d) (fun e => sumn (nub d) (fun f => sumn (nub d) (fun g => sumn (nob d) (fun n => sumn (nob d) (fun o => (x_abb L e f g i n o) * (x_abb T e f g j n o)))))))).
(** ccpy/density/rdm1.py, calc_rdm1, lines 74-78 *)
Definition rdmt_rdm1_b_oo_2 (d : dims) (T L : amps) : mat2 := fun i j =>
  rdmt_rdm1_b_oo_1 d T L i j + ((-1) / 12 * (sumn (nub d) (fun e => sumn (nub d) (fun f => sumn (nub d) (fun g => sumn (nob d) (fun o => sumn (nob d) (fun n => (x_bbb L e f g o n i) * (x_bbb T e f g o n j))))))) - 1 / 2 * (sumn (nua d) (fun e => sumn (nub d) (fun f => sumn (nub d) (fun g => sumn (noa d) (fun o => sumn (nob d) (fun n => (x_abb L e f g o n i) * (x_abb T e f g o n j))))))) - 1 / 4 * (sumn (nua d) (fun e => sumn (nua d) (fun f => sumn (nub d) (fun g => sumn (noa d) (fun o => sumn (noa d) (fun n => (x_aab L e f g o n i) * (x_aab T e f g o n j)))))))).
(** ccpy/density/rdm1.py, calc_rdm1, lines 81-85 *)
Definition rdmt_rdm1_a_vv_1 (d : dims) (T L : amps) : mat2 := fun a b =>
  rdmt_rdm1_a_vv d T L a b + (1 / 12 * (sumn (nua d) (fun f => sumn (nua d) (fun g => sumn (noa d) (fun m => sumn (noa d) (fun n => sumn (noa d) (fun o => (x_aaa L b f g m n o) * (x_aaa T a f g m n o))))))) + 1 / 2 * (sumn (nua d) (fun f => sumn (nub d) (fun g => sumn (noa d) (fun m => sumn (noa d) (fun n => sumn (nob d) (fun o => (x_aab L b f g m n o) * (x_aab T a f g m n o))))))) + 1 / 4 * (sumn (nub d) (fun f => sumn (nub d) (fun g => sumn (noa d) (fun m => sumn (nob d) (fun n => sumn (nob d) (fun o => (x_abb L b f g m n o) * (x_abb T a f g m n o)))))))).
(** ccpy/density/rdm1.py, calc_rdm1, lines 86-90 *)
Definition rdmt_rdm1_b_vv_1 (d : dims) (T L : amps) : mat2 := fun a b =>
  rdmt_rdm1_b_vv d T L a b + (1 / 12 * (sumn (nub d) (fun g => sumn (nub d) (fun f => sumn (nob d) (fun m => sumn (nob d) (fun n => sumn (nob d) (fun o => (x_bbb L g f b m n o) * (x_bbb T g f a m n o))))))) + 1 / 2 * (sumn (nua d) (fun g => sumn (nub d) (fun f => sumn (noa d) (fun m => sumn (nob d) (fun n => sumn (nob d) (fun o => (x_abb L g f b m n o) * (x_abb T g f a m n o))))))) + 1 / 4 * (sumn (nua d) (fun g => sumn (nua d) (fun f => sumn (noa d) (fun m => sumn (noa d) (fun n => sumn (nob d) (fun o => (x_aab L g f b m n o) * (x_aab T g f a m n o)))))))).
(** ccpy/density/rdm1.py, calc_rdm1, lines 93-107 *)
Definition rdmt_rdm1_a_vo_2 (d : dims) (T L : amps) : mat2 := fun a i =>
  rdmt_rdm1_a_vo_1 d T L a i + (1 / 4 * (sumn (nua d) (fun e => sumn (nua d) (fun f => sumn (noa d) (fun m => sumn (noa d) (fun n => (x_aa L e f m n) * (x_aaa T a e f i m n)))))) + sumn (nua d) (fun e => sumn (nub d) (fun f => sumn (noa d) (fun m => sumn (nob d) (fun n => (x_ab L e f m n) * (x_aab T a e f i m n))))) + 1 / 4 * (sumn (nub d) (fun e => sumn (nub d) (fun f => sumn (nob d) (fun m => sumn (nob d) (fun n => (x_bb L e f m n) * (x_abb T a e f i m n)))))) - 1 / 4 * (sumn (nua d) (fun e => sumn (nua d) (fun f => sumn (nua d) (fun g => sumn (noa d) (fun m => sumn (noa d) (fun n => sumn (noa d) (fun o => (x_aaa L e f g m n o) * (x_aa T a g m o) * (x_aa T e f i n)))))))) - 1 / 2 * (sumn (nua d) (fun e => sumn (nua d) (fun f => sumn (nub d) (fun g => sumn (noa d) (fun m => sumn (noa d) (fun n => sumn (nob d) (fun o => (x_aab L e f g m n o) * (x_ab T a g m o) * (x_aa T e f i n)))))))) - 1 / 2 * (sumn (nua d) (fun e => sumn (nua d) (fun g => sumn (nub d) (fun f => sumn (noa d) (fun m => sumn (noa d) (fun o => sumn (nob d) (fun n => (x_aab L e g f m o n) * (x_aa T a g m o) * (x_ab T e f i n)))))))) - sumn (nua d) (fun e => sumn (nub d) (fun f => sumn (nub d) (fun g => sumn (noa d) (fun m => sumn (nob d) (fun n => sumn (nob d) (fun o => (x_abb L e f g m n o) * (x_ab T a g m o) * (x_ab T e f i n))))))) - 1 / 12 * (sumn (nua d) (fun e => sumn (nua d) (fun f => sumn (nua d) (fun g => sumn (noa d) (fun m => sumn (noa d) (fun n => sumn (noa d) (fun o => (x_aaa L e f g m n o) * (x_aaa T a f g m n o) * (x_a T e i)))))))) - 1 / 2 * (sumn (nua d) (fun e => sumn (nua d) (fun f => sumn (nub d) (fun g => sumn (noa d) (fun m => sumn (noa d) (fun n => sumn (nob d) (fun o => (x_aab L e f g m n o) * (x_aab T a f g m n o) * (x_a T e i)))))))) - 1 / 4 * (sumn (nua d) (fun e => sumn (nub d) (fun f => sumn (nub d) (fun g => sumn (noa d) (fun m => sumn (nob d) (fun n => sumn (nob d) (fun o => (x_abb L e f g m n o) * (x_abb T a f g m n o) * (x_a T e i)))))))) - 1 / 12 * (sumn (nua d) (fun e => sumn (nua d) (fun f => sumn (nua d) (fun g => sumn (noa d) (fun m => sumn (noa d) (fun n => sumn (noa d) (fun o => (x_aaa L e f g m n o) * (x_aaa T e f g i n o) * (x_a T a m)))))))) - 1 / 2 * (sumn (nua d) (fun e => sumn (nua d) (fun f => sumn (nub d) (fun g => sumn (noa d) (fun m => sumn (noa d) (fun n => sumn (nob d) (fun o => (x_aab L e f g m n o) * (x_aab T e f g i n o) * (x_a T a m)))))))) - 1 / 4 * (sumn (nua d) (fun e => sumn (nub d) (fun f => sumn (nub d) (fun g => sumn (noa d) (fun m => sumn (nob d) (fun n => sumn (nob d) (fun o => (x_abb L e f g m n o) * (x_abb T e f g i n o) * (x_a T a m))))))))).
(** ccpy/density/rdm1.py, calc_rdm1, lines 108-122 *)
Definition rdmt_rdm1_b_vo_2 (d : dims) (T L : amps) : mat2 := fun a i =>
  rdmt_rdm1_b_vo_1 d T L a i + (1 / 4 * (sumn (nub d) (fun e => sumn (nub d) (fun f => sumn (nob d) (fun m => sumn (nob d) (fun n => (x_bb L e f m n) * (x_bbb T a e f i m n)))))) + sumn (nua d) (fun e => sumn (nub d) (fun f => sumn (noa d) (fun m => sumn (nob d) (fun n => (x_ab L e f m n) * (x_abb T e f a m n i))))) + 1 / 4 * (sumn (nua d) (fun e => sumn (nua d) (fun f => sumn (noa d) (fun m => sumn (noa d) (fun n => (x_aa L e f m n) * (x_aab T e f a m n i)))))) - 1 / 4 * (sumn (nub d) (fun e => sumn (nub d) (fun f => sumn (nub d) (fun g => sumn (nob d) (fun m => sumn (nob d) (fun n => sumn (nob d) (fun o => (x_bbb L e f g m n o) * (x_bb T a g m o) * (x_bb T e f i n)))))))) - 1 / 2 * (sumn (nua d) (fun f => sumn (nub d) (fun e => sumn (nub d) (fun g => sumn (noa d) (fun n => sumn (nob d) (fun m => sumn (nob d) (fun o => (x_abb L f e g n m o) * (x_bb T a g m o) * (x_ab T f e n i)))))))) - 1 / 2 * (sumn (nua d) (fun g => sumn (nub d) (fun e => sumn (nub d) (fun f => sumn (noa d) (fun o => sumn (nob d) (fun m => sumn (nob d) (fun n => (x_abb L g e f o m n) * (x_ab T g a o m) * (x_bb T e f i n)))))))) - sumn (nua d) (fun f => sumn (nua d) (fun g => sumn (nub d) (fun e => sumn (noa d) (fun n => sumn (noa d) (fun o => sumn (nob d) (fun m => (x_aab L f g e n o m) * (x_ab T g a o m) * (x_ab T f e n i))))))) - 1 / 12 * (sumn (nub d) (fun e => sumn (nub d) (fun f => sumn (nub d) (fun g => sumn (nob d) (fun m => sumn (nob d) (fun n => sumn (nob d) (fun o => (x_bbb L e f g m n o) * (x_bbb T a f g m n o) * (x_b T e i)))))))) - 1 / 2 * (sumn (nua d) (fun f => sumn (nub d) (fun g => sumn (nub d) (fun e => sumn (noa d) (fun n => sumn (nob d) (fun o => sumn (nob d) (fun m => (x_abb L f g e n o m) * (x_abb T f g a n o m) * (x_b T e i)))))))) - 1 / 4 * (sumn (nua d) (fun f => sumn (nua d) (fun g => sumn (nub d) (fun e => sumn (noa d) (fun n => sumn (noa d) (fun o => sumn (nob d) (fun m => (x_aab L f g e n o m) * (x_aab T f g a n o m) * (x_b T e i)))))))) - 1 / 12 * (sumn (nub d) (fun e => sumn (nub d) (fun f => sumn (nub d) (fun g => sumn (nob d) (fun m => sumn (nob d) (fun n => sumn (nob d) (fun o => (x_bbb L e f g m n o) * (x_bbb T e f g i n o) * (x_b T a m)))))))) - 1 / 2 * (sumn (nua d) (fun f => sumn (nub d) (fun g => sumn (nub d) (fun e => sumn (noa d) (fun n => sumn (nob d) (fun o => sumn (nob d) (fun m => (x_abb L f g e n o m) * (x_abb T f g e n o i) * (x_b T a m)))))))) - 1 / 4 * (sumn (nua d) (fun f => sumn (nua d) (fun g => sumn (nub d) (fun e => sumn (noa d) (fun n => sumn (noa d) (fun o => sumn (nob d) (fun m => (x_aab L f g e n o m) * (x_aab T f g e n o i) * (x_b T a m))))))))).
(** rdm1.py, calc_rdm1, line 125: T.order = L.order = 2 (ccsd), 3 (ccsdt) *)
Definition calc_rdm1_ccsd (d : dims) (T L : amps) : rdms := mkRdms (rdm_rdm1_a_oo_1 d T L) (rdm_rdm1_a_ov d T L) (rdm_rdm1_a_vo_1 d T L) (rdm_rdm1_a_vv d T L) (rdm_rdm1_b_oo_1 d T L) (rdm_rdm1_b_ov d T L) (rdm_rdm1_b_vo_1 d T L) (rdm_rdm1_b_vv d T L).
Definition calc_rdm1_ccsdt (d : dims) (T L : amps) : rdms := mkRdms (rdmt_rdm1_a_oo_2 d T L) (rdmt_rdm1_a_ov d T L) (rdmt_rdm1_a_vo_2 d T L) (rdmt_rdm1_a_vv_1 d T L) (rdmt_rdm1_b_oo_2 d T L) (rdmt_rdm1_b_ov d T L) (rdmt_rdm1_b_vo_2 d T L) (rdmt_rdm1_b_vv_1 d T L).
