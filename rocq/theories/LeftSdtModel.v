(** Generated by tools/gen_left_sdt.py from the source text (symbolic execution of the numpy statements; exact reals).
    Models the left EOMCCSDT vector: ccpy/left/left_cc_intermediates.py (build_left_ccsdt_intermediates), ccpy/left/left_ccsdt.py (LH_fun, flag_RHF = False). *)
From Coq Require Import Reals Arith.
From Verif Require Import RSum IntegralsModel TensorObjs.
Open Scope R_scope.
(** ccpy/left/left_cc_intermediates.py, build_left_ccsdt_intermediates, lines 71-75 *)
Definition leftt_X_a_vo (d : dims) (H : ints) (T L : amps) : mat2 := fun a i =>
  1 / 4 * (sumn (nua d) (fun e => sumn (nua d) (fun f => sumn (noa d) (fun m => sumn (noa d) (fun n => (x_aa L e f m n) * (x_aaa T a e f i m n)))))) + sumn (nua d) (fun e => sumn (nub d) (fun f => sumn (noa d) (fun m => sumn (nob d) (fun n => (x_ab L e f m n) * (x_aab T a e f i m n))))) + 1 / 4 * (sumn (nub d) (fun e => sumn (nub d) (fun f => sumn (nob d) (fun m => sumn (nob d) (fun n => (x_bb L e f m n) * (x_abb T a e f i m n)))))).
(** ccpy/left/left_cc_intermediates.py, build_left_ccsdt_intermediates, lines 77-81 *)
Definition leftt_X_b_vo (d : dims) (H : ints) (T L : amps) : mat2 := fun a i =>
  1 / 4 * (sumn (nua d) (fun e => sumn (nua d) (fun f => sumn (noa d) (fun m => sumn (noa d) (fun n => (x_aa L e f m n) * (x_aab T e f a m n i)))))) + sumn (nua d) (fun e => sumn (nub d) (fun f => sumn (noa d) (fun m => sumn (nob d) (fun n => (x_ab L e f m n) * (x_abb T e f a m n i))))) + 1 / 4 * (sumn (nub d) (fun e => sumn (nub d) (fun f => sumn (nob d) (fun m => sumn (nob d) (fun n => (x_bb L e f m n) * (x_bbb T e f a m n i)))))).
(** ccpy/left/left_cc_intermediates.py, build_left_ccsdt_intermediates, lines 84-87 *)
Definition leftt_X_aa_ooov (d : dims) (H : ints) (T L : amps) : mat4 := fun j i m a =>
  1 / 2 * (sumn (nua d) (fun e => sumn (nua d) (fun f => sumn (noa d) (fun n => (x_aaa L a e f i j n) * (x_aa T e f m n))))) + sumn (nua d) (fun e => sumn (nub d) (fun f => sumn (nob d) (fun n => (x_aab L a e f i j n) * (x_ab T e f m n)))).
(** ccpy/left/left_cc_intermediates.py, build_left_ccsdt_intermediates, lines 89-92 *)
Definition leftt_X_ab_oovo (d : dims) (H : ints) (T L : amps) : mat4 := fun i j a m =>
  sumn (nua d) (fun f => sumn (nub d) (fun e => sumn (noa d) (fun n => (x_aab L a f e i n j) * (x_ab T f e n m)))) + 1 / 2 * (sumn (nub d) (fun f => sumn (nub d) (fun e => sumn (nob d) (fun n => (x_abb L a f e i n j) * (x_bb T f e n m))))).
(** ccpy/left/left_cc_intermediates.py, build_left_ccsdt_intermediates, lines 94-97 *)
Definition leftt_X_ab_ooov (d : dims) (H : ints) (T L : amps) : mat4 := fun j i m a =>
  1 / 2 * (sumn (nua d) (fun e => sumn (nua d) (fun f => sumn (noa d) (fun n => (x_aab L e f a j n i) * (x_aa T e f m n))))) + sumn (nua d) (fun e => sumn (nub d) (fun f => sumn (nob d) (fun n => (x_abb L e f a j n i) * (x_ab T e f m n)))).
(** ccpy/left/left_cc_intermediates.py, build_left_ccsdt_intermediates, lines 99-102 *)
Definition leftt_X_bb_ooov (d : dims) (H : ints) (T L : amps) : mat4 := fun j i m a =>
  1 / 2 * (sumn (nub d) (fun e => sumn (nub d) (fun f => sumn (nob d) (fun n => (x_bbb L a e f i j n) * (x_bb T e f m n))))) + sumn (nua d) (fun f => sumn (nub d) (fun e => sumn (noa d) (fun n => (x_abb L f e a n j i) * (x_ab T f e n m)))).
(** ccpy/left/left_cc_intermediates.py, build_left_ccsdt_intermediates, lines 104-107 *)
Definition leftt_X_aa_vovv (d : dims) (H : ints) (T L : amps) : mat4 := fun e i b a =>
  (-1) / 2 * (sumn (nua d) (fun f => sumn (noa d) (fun m => sumn (noa d) (fun n => (x_aaa L a b f i m n) * (x_aa T e f m n))))) - sumn (nub d) (fun f => sumn (noa d) (fun m => sumn (nob d) (fun n => (x_aab L a b f i m n) * (x_ab T e f m n)))).
(** ccpy/left/left_cc_intermediates.py, build_left_ccsdt_intermediates, lines 109-112 *)
Definition leftt_X_ab_vovv (d : dims) (H : ints) (T L : amps) : mat4 := fun e i b a =>
  (-1) / 2 * (sumn (nua d) (fun f => sumn (noa d) (fun m => sumn (noa d) (fun n => (x_aab L b f a m n i) * (x_aa T e f m n))))) - sumn (nub d) (fun f => sumn (noa d) (fun m => sumn (nob d) (fun n => (x_abb L b f a m n i) * (x_ab T e f m n)))).
(** ccpy/left/left_cc_intermediates.py, build_left_ccsdt_intermediates, lines 114-117 *)
Definition leftt_X_ab_ovvv (d : dims) (H : ints) (T L : amps) : mat4 := fun i e a b =>
  (- (sumn (nua d) (fun f => sumn (noa d) (fun n => sumn (nob d) (fun m => (x_aab L a f b i n m) * (x_ab T f e n m)))))) - 1 / 2 * (sumn (nub d) (fun f => sumn (nob d) (fun n => sumn (nob d) (fun m => (x_abb L a f b i n m) * (x_bb T f e n m))))).
(** ccpy/left/left_cc_intermediates.py, build_left_ccsdt_intermediates, lines 119-122 *)
Definition leftt_X_bb_vovv (d : dims) (H : ints) (T L : amps) : mat4 := fun e i b a =>
  (-1) / 2 * (sumn (nub d) (fun f => sumn (nob d) (fun m => sumn (nob d) (fun n => (x_bbb L a b f i m n) * (x_bb T e f m n))))) - sumn (nua d) (fun f => sumn (noa d) (fun n => sumn (nob d) (fun m => (x_abb L f b a n m i) * (x_ab T f e n m)))).
(** ccpy/left/left_cc_intermediates.py, build_left_ccsdt_intermediates, lines 126-130 *)
Definition leftt_X_a_oo (d : dims) (H : ints) (T L : amps) : mat2 := fun m i =>
  1 / 12 * (sumn (nua d) (fun e => sumn (nua d) (fun f => sumn (nua d) (fun g => sumn (noa d) (fun n => sumn (noa d) (fun o => (x_aaa L e f g m n o) * (x_aaa T e f g i n o))))))) + 1 / 2 * (sumn (nua d) (fun e => sumn (nua d) (fun f => sumn (nub d) (fun g => sumn (noa d) (fun n => sumn (nob d) (fun o => (x_aab L e f g m n o) * (x_aab T e f g i n o))))))) + 1 / 4 * (sumn (nua d) (fun e => sumn (nub d) (fun f => sumn (nub d) (fun g => sumn (nob d) (fun n => sumn (nob d) (fun o => (x_abb L e f g m n o) * (x_abb T e f g i n o))))))).
(** ccpy/left/left_cc_intermediates.py, build_left_ccsdt_intermediates, lines 131-135 *)
Definition leftt_X_b_oo (d : dims) (H : ints) (T L : amps) : mat2 := fun m i =>
  1 / 12 * (sumn (nub d) (fun e => sumn (nub d) (fun f => sumn (nub d) (fun g => sumn (nob d) (fun n => sumn (nob d) (fun o => (x_bbb L e f g m n o) * (x_bbb T e f g i n o))))))) + 1 / 2 * (sumn (nua d) (fun g => sumn (nub d) (fun f => sumn (nub d) (fun e => sumn (noa d) (fun o => sumn (nob d) (fun n => (x_abb L g f e o n m) * (x_abb T g f e o n i))))))) + 1 / 4 * (sumn (nua d) (fun g => sumn (nua d) (fun f => sumn (nub d) (fun e => sumn (noa d) (fun o => sumn (noa d) (fun n => (x_aab L g f e o n m) * (x_aab T g f e o n i))))))).
(** ccpy/left/left_cc_intermediates.py, build_left_ccsdt_intermediates, lines 138-142 *)
Definition leftt_X_a_vv (d : dims) (H : ints) (T L : amps) : mat2 := fun a e =>
  (-1) / 12 * (sumn (nua d) (fun f => sumn (nua d) (fun g => sumn (noa d) (fun m => sumn (noa d) (fun n => sumn (noa d) (fun o => (x_aaa L e f g m n o) * (x_aaa T a f g m n o))))))) - 1 / 2 * (sumn (nua d) (fun f => sumn (nub d) (fun g => sumn (noa d) (fun m => sumn (noa d) (fun n => sumn (nob d) (fun o => (x_aab L e f g m n o) * (x_aab T a f g m n o))))))) - 1 / 4 * (sumn (nub d) (fun f => sumn (nub d) (fun g => sumn (noa d) (fun m => sumn (nob d) (fun n => sumn (nob d) (fun o => (x_abb L e f g m n o) * (x_abb T a f g m n o))))))).
(** ccpy/left/left_cc_intermediates.py, build_left_ccsdt_intermediates, lines 143-147 *)
Definition leftt_X_b_vv (d : dims) (H : ints) (T L : amps) : mat2 := fun a e =>
  (-1) / 12 * (sumn (nub d) (fun f => sumn (nub d) (fun g => sumn (nob d) (fun m => sumn (nob d) (fun n => sumn (nob d) (fun o => (x_bbb L e f g m n o) * (x_bbb T a f g m n o))))))) - 1 / 2 * (sumn (nua d) (fun g => sumn (nub d) (fun f => sumn (noa d) (fun o => sumn (nob d) (fun n => sumn (nob d) (fun m => (x_abb L g f e o n m) * (x_abb T g f a o n m))))))) - 1 / 4 * (sumn (nua d) (fun g => sumn (nua d) (fun f => sumn (noa d) (fun o => sumn (noa d) (fun n => sumn (nob d) (fun m => (x_aab L g f e o n m) * (x_aab T g f a o n m))))))).
(** ccpy/left/left_cc_intermediates.py, build_left_ccsdt_intermediates, lines 149-152 *)
Definition leftt_X_aa_oooo (d : dims) (H : ints) (T L : amps) : mat4 := fun m n i j =>
  1 / 6 * (sumn (nua d) (fun e => sumn (nua d) (fun f => sumn (nua d) (fun g => sumn (noa d) (fun o => (x_aaa L e f g m n o) * (x_aaa T e f g i j o)))))) + 1 / 2 * (sumn (nua d) (fun e => sumn (nua d) (fun f => sumn (nub d) (fun g => sumn (nob d) (fun o => (x_aab L e f g m n o) * (x_aab T e f g i j o)))))).
(** ccpy/left/left_cc_intermediates.py, build_left_ccsdt_intermediates, lines 153-156 *)
Definition leftt_X_ab_oooo (d : dims) (H : ints) (T L : amps) : mat4 := fun m n i j =>
  1 / 2 * (sumn (nua d) (fun e => sumn (nua d) (fun g => sumn (nub d) (fun f => sumn (noa d) (fun o => (x_aab L e g f m o n) * (x_aab T e g f i o j)))))) + 1 / 2 * (sumn (nua d) (fun e => sumn (nub d) (fun g => sumn (nub d) (fun f => sumn (nob d) (fun o => (x_abb L e g f m o n) * (x_abb T e g f i o j)))))).
(** ccpy/left/left_cc_intermediates.py, build_left_ccsdt_intermediates, lines 157-160 *)
Definition leftt_X_bb_oooo (d : dims) (H : ints) (T L : amps) : mat4 := fun m n i j =>
  1 / 6 * (sumn (nub d) (fun e => sumn (nub d) (fun f => sumn (nub d) (fun g => sumn (nob d) (fun o => (x_bbb L e f g m n o) * (x_bbb T e f g i j o)))))) + 1 / 2 * (sumn (nua d) (fun g => sumn (nub d) (fun f => sumn (nub d) (fun e => sumn (noa d) (fun o => (x_abb L g f e o n m) * (x_abb T g f e o j i)))))).
(** ccpy/left/left_cc_intermediates.py, build_left_ccsdt_intermediates, lines 162-165 *)
Definition leftt_X_aa_vvvv (d : dims) (H : ints) (T L : amps) : mat4 := fun a b e f =>
  1 / 6 * (sumn (nua d) (fun g => sumn (noa d) (fun m => sumn (noa d) (fun n => sumn (noa d) (fun o => (x_aaa L e f g m n o) * (x_aaa T a b g m n o)))))) + 1 / 2 * (sumn (nub d) (fun g => sumn (noa d) (fun m => sumn (noa d) (fun n => sumn (nob d) (fun o => (x_aab L e f g m n o) * (x_aab T a b g m n o)))))).
(** ccpy/left/left_cc_intermediates.py, build_left_ccsdt_intermediates, lines 166-169 *)
Definition leftt_X_ab_vvvv (d : dims) (H : ints) (T L : amps) : mat4 := fun a b e f =>
  1 / 2 * (sumn (nua d) (fun g => sumn (noa d) (fun m => sumn (noa d) (fun o => sumn (nob d) (fun n => (x_aab L e g f m o n) * (x_aab T a g b m o n)))))) + 1 / 2 * (sumn (nub d) (fun g => sumn (noa d) (fun m => sumn (nob d) (fun o => sumn (nob d) (fun n => (x_abb L e g f m o n) * (x_abb T a g b m o n)))))).
(** ccpy/left/left_cc_intermediates.py, build_left_ccsdt_intermediates, lines 170-173 *)
Definition leftt_X_bb_vvvv (d : dims) (H : ints) (T L : amps) : mat4 := fun a b e f =>
  1 / 6 * (sumn (nub d) (fun g => sumn (nob d) (fun m => sumn (nob d) (fun n => sumn (nob d) (fun o => (x_bbb L e f g m n o) * (x_bbb T a b g m n o)))))) + 1 / 2 * (sumn (nua d) (fun g => sumn (noa d) (fun o => sumn (nob d) (fun n => sumn (nob d) (fun m => (x_abb L g f e o n m) * (x_abb T g b a o n m)))))).
(** ccpy/left/left_cc_intermediates.py, build_left_ccsdt_intermediates, lines 175-179 *)
Definition leftt_X_aa_voov (d : dims) (H : ints) (T L : amps) : mat4 := fun a m i e =>
  1 / 4 * (sumn (nua d) (fun f => sumn (nua d) (fun g => sumn (noa d) (fun n => sumn (noa d) (fun o => (x_aaa L e f g m n o) * (x_aaa T a f g i n o)))))) + sumn (nua d) (fun f => sumn (nub d) (fun g => sumn (noa d) (fun n => sumn (nob d) (fun o => (x_aab L e f g m n o) * (x_aab T a f g i n o))))) + 1 / 4 * (sumn (nub d) (fun f => sumn (nub d) (fun g => sumn (nob d) (fun n => sumn (nob d) (fun o => (x_abb L e f g m n o) * (x_abb T a f g i n o)))))).
(** ccpy/left/left_cc_intermediates.py, build_left_ccsdt_intermediates, lines 180-184 *)
Definition leftt_X_ab_voov (d : dims) (H : ints) (T L : amps) : mat4 := fun a m i e =>
  1 / 4 * (sumn (nua d) (fun f => sumn (nua d) (fun g => sumn (noa d) (fun n => sumn (noa d) (fun o => (x_aab L f g e n o m) * (x_aaa T a f g i n o)))))) + sumn (nua d) (fun f => sumn (nub d) (fun g => sumn (noa d) (fun n => sumn (nob d) (fun o => (x_abb L f g e n o m) * (x_aab T a f g i n o))))) + 1 / 4 * (sumn (nub d) (fun f => sumn (nub d) (fun g => sumn (nob d) (fun n => sumn (nob d) (fun o => (x_bbb L e f g m n o) * (x_abb T a f g i n o)))))).
(** ccpy/left/left_cc_intermediates.py, build_left_ccsdt_intermediates, lines 185-188 *)
Definition leftt_X_ab_vovo (d : dims) (H : ints) (T L : amps) : mat4 := fun a m e i =>
  (-1) / 2 * (sumn (nua d) (fun g => sumn (nub d) (fun f => sumn (noa d) (fun o => sumn (noa d) (fun n => (x_aab L g e f o n m) * (x_aab T a g f n o i)))))) - 1 / 2 * (sumn (nub d) (fun g => sumn (nub d) (fun f => sumn (noa d) (fun n => sumn (nob d) (fun o => (x_abb L e g f n o m) * (x_abb T a g f n o i)))))).
(** ccpy/left/left_cc_intermediates.py, build_left_ccsdt_intermediates, lines 189-192 *)
Definition leftt_X_ab_ovov (d : dims) (H : ints) (T L : amps) : mat4 := fun m a i e =>
  (-1) / 2 * (sumn (nua d) (fun f => sumn (nua d) (fun g => sumn (noa d) (fun o => sumn (nob d) (fun n => (x_aab L f g e m o n) * (x_aab T f g a i o n)))))) - 1 / 2 * (sumn (nua d) (fun f => sumn (nub d) (fun g => sumn (nob d) (fun o => sumn (nob d) (fun n => (x_abb L f g e m o n) * (x_abb T f g a i o n)))))).
(** ccpy/left/left_cc_intermediates.py, build_left_ccsdt_intermediates, lines 193-197 *)
Definition leftt_X_ab_ovvo (d : dims) (H : ints) (T L : amps) : mat4 := fun m a e i =>
  1 / 4 * (sumn (nua d) (fun f => sumn (nua d) (fun g => sumn (noa d) (fun n => sumn (noa d) (fun o => (x_aaa L e f g m n o) * (x_aab T f g a n o i)))))) + sumn (nua d) (fun f => sumn (nub d) (fun g => sumn (noa d) (fun n => sumn (nob d) (fun o => (x_aab L e f g m n o) * (x_abb T f g a n o i))))) + 1 / 4 * (sumn (nub d) (fun f => sumn (nub d) (fun g => sumn (nob d) (fun n => sumn (nob d) (fun o => (x_abb L e f g m n o) * (x_bbb T f g a n o i)))))).
(** ccpy/left/left_cc_intermediates.py, build_left_ccsdt_intermediates, lines 198-202 *)
Definition leftt_X_bb_voov (d : dims) (H : ints) (T L : amps) : mat4 := fun a m i e =>
  1 / 4 * (sumn (nub d) (fun f => sumn (nub d) (fun g => sumn (nob d) (fun n => sumn (nob d) (fun o => (x_bbb L e f g m n o) * (x_bbb T a f g i n o)))))) + sumn (nua d) (fun g => sumn (nub d) (fun f => sumn (noa d) (fun o => sumn (nob d) (fun n => (x_abb L g f e o n m) * (x_abb T g f a o n i))))) + 1 / 4 * (sumn (nua d) (fun g => sumn (nua d) (fun f => sumn (noa d) (fun o => sumn (noa d) (fun n => (x_aab L g f e o n m) * (x_aab T g f a o n i)))))).
(** ccpy/left/left_ccsdt.py, build_LH_1A, line 128 *)
Definition leftt_LH_a (d : dims) (H : ints) (T L : amps) : mat2 := fun a i =>
  sumn (nua d) (fun e => (i_a_vv H e a) * (x_a L e i)).
(** ccpy/left/left_ccsdt.py, build_LH_1A, line 129 *)
Definition leftt_LH_a_1 (d : dims) (H : ints) (T L : amps) : mat2 := fun a i =>
  leftt_LH_a d H T L a i - sumn (noa d) (fun m => (i_a_oo H i m) * (x_a L a m)).
(** ccpy/left/left_ccsdt.py, build_LH_1A, line 130 *)
Definition leftt_LH_a_2 (d : dims) (H : ints) (T L : amps) : mat2 := fun a i =>
  leftt_LH_a_1 d H T L a i + sumn (nua d) (fun e => sumn (noa d) (fun m => (i_aa_voov H e i m a) * (x_a L e m))).
(** ccpy/left/left_ccsdt.py, build_LH_1A, line 131 *)
Definition leftt_LH_a_3 (d : dims) (H : ints) (T L : amps) : mat2 := fun a i =>
  leftt_LH_a_2 d H T L a i + sumn (nub d) (fun e => sumn (nob d) (fun m => (i_ab_ovvo H i e a m) * (x_b L e m))).
(** ccpy/left/left_ccsdt.py, build_LH_1A, line 134 *)
Definition leftt_LH_a_4 (d : dims) (H : ints) (T L : amps) : mat2 := fun a i =>
  leftt_LH_a_3 d H T L a i + 1 / 2 * (sumn (nua d) (fun f => sumn (nua d) (fun e => sumn (noa d) (fun n => (i_aa_vvov H f e n a) * (x_aa L e f i n))))).
(** ccpy/left/left_ccsdt.py, build_LH_1A, line 135 *)
Definition leftt_LH_a_5 (d : dims) (H : ints) (T L : amps) : mat2 := fun a i =>
  leftt_LH_a_4 d H T L a i + sumn (nua d) (fun e => sumn (nub d) (fun f => sumn (nob d) (fun n => (i_ab_vvvo H e f a n) * (x_ab L e f i n)))).
(** ccpy/left/left_ccsdt.py, build_LH_1A, line 136 *)
Definition leftt_LH_a_6 (d : dims) (H : ints) (T L : amps) : mat2 := fun a i =>
  leftt_LH_a_5 d H T L a i - 1 / 2 * (sumn (nua d) (fun f => sumn (noa d) (fun n => sumn (noa d) (fun m => (i_aa_vooo H f i n m) * (x_aa L a f m n))))).
(** ccpy/left/left_ccsdt.py, build_LH_1A, line 137 *)
Definition leftt_LH_a_7 (d : dims) (H : ints) (T L : amps) : mat2 := fun a i =>
  leftt_LH_a_6 d H T L a i - sumn (nub d) (fun f => sumn (noa d) (fun m => sumn (nob d) (fun n => (i_ab_ovoo H i f m n) * (x_ab L a f m n)))).
(** ccpy/left/left_ccsdt.py, build_LH_1A, line 139 *)
Definition leftt_I1 (d : dims) (H : ints) (T L : amps) : mat2 := fun g e =>
  1 / 4 * (sumn (nua d) (fun f => sumn (noa d) (fun m => sumn (noa d) (fun n => (x_aa L e f m n) * (x_aa T f g n m))))).
(** ccpy/left/left_ccsdt.py, build_LH_1A, line 140 *)
Definition leftt_I2 (d : dims) (H : ints) (T L : amps) : mat2 := fun g f =>
  (-1) / 4 * (sumn (nua d) (fun e => sumn (noa d) (fun m => sumn (noa d) (fun n => (x_aa L e f m n) * (x_aa T e g n m))))).
(** ccpy/left/left_ccsdt.py, build_LH_1A, line 141 *)
Definition leftt_I3 (d : dims) (H : ints) (T L : amps) : mat2 := fun m n =>
  (-1) / 4 * (sumn (nua d) (fun e => sumn (nua d) (fun f => sumn (noa d) (fun o => (x_aa L e f m o) * (x_aa T e f n o))))).
(** ccpy/left/left_ccsdt.py, build_LH_1A, line 142 *)
Definition leftt_I4 (d : dims) (H : ints) (T L : amps) : mat2 := fun o n =>
  1 / 4 * (sumn (nua d) (fun e => sumn (nua d) (fun f => sumn (noa d) (fun m => (x_aa L e f m o) * (x_aa T e f n m))))).
(** ccpy/left/left_ccsdt.py, build_LH_1A, line 143 *)
Definition leftt_LH_a_8 (d : dims) (H : ints) (T L : amps) : mat2 := fun a i =>
  leftt_LH_a_7 d H T L a i + sumn (nua d) (fun g => sumn (nua d) (fun e => (leftt_I1 d H T L g e) * (i_aa_vovv H e i g a))).
(** ccpy/left/left_ccsdt.py, build_LH_1A, line 144 *)
Definition leftt_LH_a_9 (d : dims) (H : ints) (T L : amps) : mat2 := fun a i =>
  leftt_LH_a_8 d H T L a i + sumn (nua d) (fun g => sumn (nua d) (fun f => (leftt_I2 d H T L g f) * (i_aa_vovv H f i g a))).
(** ccpy/left/left_ccsdt.py, build_LH_1A, line 145 *)
Definition leftt_LH_a_10 (d : dims) (H : ints) (T L : amps) : mat2 := fun a i =>
  leftt_LH_a_9 d H T L a i + sumn (noa d) (fun m => sumn (noa d) (fun n => (leftt_I3 d H T L m n) * (i_aa_ooov H n i m a))).
(** ccpy/left/left_ccsdt.py, build_LH_1A, line 146 *)
Definition leftt_LH_a_11 (d : dims) (H : ints) (T L : amps) : mat2 := fun a i =>
  leftt_LH_a_10 d H T L a i + sumn (noa d) (fun o => sumn (noa d) (fun n => (leftt_I4 d H T L o n) * (i_aa_ooov H n i o a))).
(** ccpy/left/left_ccsdt.py, build_LH_1A, line 148 *)
Definition leftt_I1_1 (d : dims) (H : ints) (T L : amps) : mat2 := fun j n =>
  (- (sumn (nua d) (fun a => sumn (nub d) (fun b => sumn (noa d) (fun i => (x_ab L a b i j) * (x_ab T a b i n)))))).
(** ccpy/left/left_ccsdt.py, build_LH_1A, line 149 *)
Definition leftt_I2_1 (d : dims) (H : ints) (T L : amps) : mat2 := fun f b =>
  sumn (nua d) (fun a => sumn (noa d) (fun i => sumn (nob d) (fun j => (x_ab L a b i j) * (x_ab T a f i j)))).
(** ccpy/left/left_ccsdt.py, build_LH_1A, line 150 *)
Definition leftt_I3_1 (d : dims) (H : ints) (T L : amps) : mat2 := fun f a =>
  sumn (nub d) (fun b => sumn (noa d) (fun i => sumn (nob d) (fun j => (x_ab L a b i j) * (x_ab T f b i j)))).
(** ccpy/left/left_ccsdt.py, build_LH_1A, line 151 *)
Definition leftt_I4_1 (d : dims) (H : ints) (T L : amps) : mat2 := fun i n =>
  (- (sumn (nua d) (fun a => sumn (nub d) (fun b => sumn (nob d) (fun j => (x_ab L a b i j) * (x_ab T a b n j)))))).
(** ccpy/left/left_ccsdt.py, build_LH_1A, line 152 *)
Definition leftt_LH_a_12 (d : dims) (H : ints) (T L : amps) : mat2 := fun a i =>
  leftt_LH_a_11 d H T L a i + sumn (nob d) (fun j => sumn (nob d) (fun n => (leftt_I1_1 d H T L j n) * (i_ab_oovo H i n a j))).
(** ccpy/left/left_ccsdt.py, build_LH_1A, line 153 *)
Definition leftt_LH_a_13 (d : dims) (H : ints) (T L : amps) : mat2 := fun a i =>
  leftt_LH_a_12 d H T L a i + sumn (nub d) (fun f => sumn (nub d) (fun b => (leftt_I2_1 d H T L f b) * (i_ab_ovvv H i b a f))).
(** ccpy/left/left_ccsdt.py, build_LH_1A, line 154 *)
Definition leftt_LH_a_14 (d : dims) (H : ints) (T L : amps) : mat2 := fun a i =>
  leftt_LH_a_13 d H T L a i + sumn (nua d) (fun f => sumn (nua d) (fun a' => (leftt_I3_1 d H T L f a') * (i_aa_vovv H a' i f a))).
(** ccpy/left/left_ccsdt.py, build_LH_1A, line 155 *)
Definition leftt_LH_a_15 (d : dims) (H : ints) (T L : amps) : mat2 := fun a i =>
  leftt_LH_a_14 d H T L a i + sumn (noa d) (fun i' => sumn (noa d) (fun n => (leftt_I4_1 d H T L i' n) * (i_aa_ooov H n i i' a))).
(** ccpy/left/left_ccsdt.py, build_LH_1A, line 157 *)
Definition leftt_I1_2 (d : dims) (H : ints) (T L : amps) : mat2 := fun f a =>
  1 / 4 * (sumn (nub d) (fun b => sumn (nob d) (fun i => sumn (nob d) (fun j => (x_bb L a b i j) * (x_bb T f b i j))))).
(** ccpy/left/left_ccsdt.py, build_LH_1A, line 158 *)
Definition leftt_I2_2 (d : dims) (H : ints) (T L : amps) : mat2 := fun f b =>
  (-1) / 4 * (sumn (nub d) (fun a => sumn (nob d) (fun i => sumn (nob d) (fun j => (x_bb L a b i j) * (x_bb T f a i j))))).
(** ccpy/left/left_ccsdt.py, build_LH_1A, line 159 *)
Definition leftt_I3_2 (d : dims) (H : ints) (T L : amps) : mat2 := fun i n =>
  (-1) / 4 * (sumn (nub d) (fun a => sumn (nub d) (fun b => sumn (nob d) (fun j => (x_bb L a b i j) * (x_bb T a b n j))))).
(** ccpy/left/left_ccsdt.py, build_LH_1A, line 160 *)
Definition leftt_I4_2 (d : dims) (H : ints) (T L : amps) : mat2 := fun j n =>
  1 / 4 * (sumn (nub d) (fun a => sumn (nub d) (fun b => sumn (nob d) (fun i => (x_bb L a b i j) * (x_bb T a b n i))))).
(** ccpy/left/left_ccsdt.py, build_LH_1A, line 161 *)
Definition leftt_LH_a_16 (d : dims) (H : ints) (T L : amps) : mat2 := fun a i =>
  leftt_LH_a_15 d H T L a i + sumn (nub d) (fun f => sumn (nub d) (fun a' => (leftt_I1_2 d H T L f a') * (i_ab_ovvv H i a' a f))).
(** ccpy/left/left_ccsdt.py, build_LH_1A, line 162 *)
Definition leftt_LH_a_17 (d : dims) (H : ints) (T L : amps) : mat2 := fun a i =>
  leftt_LH_a_16 d H T L a i + sumn (nub d) (fun f => sumn (nub d) (fun b => (leftt_I2_2 d H T L f b) * (i_ab_ovvv H i b a f))).
(** ccpy/left/left_ccsdt.py, build_LH_1A, line 163 *)
Definition leftt_LH_a_18 (d : dims) (H : ints) (T L : amps) : mat2 := fun a i =>
  leftt_LH_a_17 d H T L a i + sumn (nob d) (fun i' => sumn (nob d) (fun n => (leftt_I3_2 d H T L i' n) * (i_ab_oovo H i n a i'))).
(** ccpy/left/left_ccsdt.py, build_LH_1A, line 164 *)
Definition leftt_LH_a_19 (d : dims) (H : ints) (T L : amps) : mat2 := fun a i =>
  leftt_LH_a_18 d H T L a i + sumn (nob d) (fun j => sumn (nob d) (fun n => (leftt_I4_2 d H T L j n) * (i_ab_oovo H i n a j))).
(** ccpy/left/left_ccsdt.py, build_LH_1A, line 167 *)
Definition leftt_LH_a_20 (d : dims) (H : ints) (T L : amps) : mat2 := fun a i =>
  leftt_LH_a_19 d H T L a i + sumn (nua d) (fun e => sumn (noa d) (fun m => (leftt_X_a_vo d H T L e m) * (i_aa_oovv H i m a e))).
(** ccpy/left/left_ccsdt.py, build_LH_1A, line 168 *)
Definition leftt_LH_a_21 (d : dims) (H : ints) (T L : amps) : mat2 := fun a i =>
  leftt_LH_a_20 d H T L a i + sumn (nub d) (fun e => sumn (nob d) (fun m => (leftt_X_b_vo d H T L e m) * (i_ab_oovv H i m a e))).
(** ccpy/left/left_ccsdt.py, build_LH_1A, lines 171-174 *)
Definition leftt_I1A_vo (d : dims) (H : ints) (T L : amps) : mat2 := fun e m =>
  (-1) / 2 * (sumn (noa d) (fun n => sumn (noa d) (fun o => sumn (nua d) (fun g => (leftt_X_aa_ooov d H T L n o m g) * (x_aa T e g n o))))) - sumn (noa d) (fun n => sumn (nob d) (fun o => sumn (nub d) (fun g => (leftt_X_ab_ooov d H T L n o m g) * (x_ab T e g n o)))).
(** ccpy/left/left_ccsdt.py, build_LH_1A, lines 175-178 *)
Definition leftt_I1B_vo (d : dims) (H : ints) (T L : amps) : mat2 := fun e m =>
  (-1) / 2 * (sumn (nob d) (fun n => sumn (nob d) (fun o => sumn (nub d) (fun g => (leftt_X_bb_ooov d H T L n o m g) * (x_bb T e g n o))))) - sumn (noa d) (fun o => sumn (nob d) (fun n => sumn (nua d) (fun g => (leftt_X_ab_oovo d H T L o n g m) * (x_ab T g e o n)))).
(** ccpy/left/left_ccsdt.py, build_LH_1A, line 179 *)
Definition leftt_LH_a_22 (d : dims) (H : ints) (T L : amps) : mat2 := fun a i =>
  leftt_LH_a_21 d H T L a i + sumn (nua d) (fun e => sumn (noa d) (fun m => (leftt_I1A_vo d H T L e m) * (i_aa_oovv H i m a e))).
(** ccpy/left/left_ccsdt.py, build_LH_1A, line 180 *)
Definition leftt_LH_a_23 (d : dims) (H : ints) (T L : amps) : mat2 := fun a i =>
  leftt_LH_a_22 d H T L a i + sumn (nub d) (fun e => sumn (nob d) (fun m => (leftt_I1B_vo d H T L e m) * (i_ab_oovv H i m a e))).
(** ccpy/left/left_ccsdt.py, build_LH_1A, line 182 *)
Definition leftt_LH_a_24 (d : dims) (H : ints) (T L : amps) : mat2 := fun a i =>
  leftt_LH_a_23 d H T L a i - sumn (noa d) (fun n => sumn (noa d) (fun m => (leftt_X_a_oo d H T L n m) * (i_aa_ooov H m i n a))).
(** ccpy/left/left_ccsdt.py, build_LH_1A, line 183 *)
Definition leftt_LH_a_25 (d : dims) (H : ints) (T L : amps) : mat2 := fun a i =>
  leftt_LH_a_24 d H T L a i - sumn (nob d) (fun n => sumn (nob d) (fun m => (leftt_X_b_oo d H T L n m) * (i_ab_oovo H i m a n))).
(** ccpy/left/left_ccsdt.py, build_LH_1A, line 184 *)
Definition leftt_LH_a_26 (d : dims) (H : ints) (T L : amps) : mat2 := fun a i =>
  leftt_LH_a_25 d H T L a i - sumn (nua d) (fun e => sumn (nua d) (fun f => (leftt_X_a_vv d H T L e f) * (i_aa_vovv H f i e a))).
(** ccpy/left/left_ccsdt.py, build_LH_1A, line 185 *)
Definition leftt_LH_a_27 (d : dims) (H : ints) (T L : amps) : mat2 := fun a i =>
  leftt_LH_a_26 d H T L a i - sumn (nub d) (fun e => sumn (nub d) (fun f => (leftt_X_b_vv d H T L e f) * (i_ab_ovvv H i f a e))).
(** ccpy/left/left_ccsdt.py, build_LH_1A, line 188 *)
Definition leftt_LH_a_28 (d : dims) (H : ints) (T L : amps) : mat2 := fun a i =>
  leftt_LH_a_27 d H T L a i + sumn (nua d) (fun e => (i_a_ov H i e) * (leftt_X_a_vv d H T L e a)).
(** ccpy/left/left_ccsdt.py, build_LH_1A, line 189 *)
Definition leftt_LH_a_29 (d : dims) (H : ints) (T L : amps) : mat2 := fun a i =>
  leftt_LH_a_28 d H T L a i - sumn (noa d) (fun m => (i_a_ov H m a) * (leftt_X_a_oo d H T L i m)).
(** ccpy/left/left_ccsdt.py, build_LH_1A, line 191 *)
Definition leftt_LH_a_30 (d : dims) (H : ints) (T L : amps) : mat2 := fun a i =>
  leftt_LH_a_29 d H T L a i + 1 / 2 * (sumn (noa d) (fun n => sumn (noa d) (fun m => sumn (noa d) (fun o => (leftt_X_aa_ooov d H T L n m o a) * (i_aa_oooo H i o m n))))).
(** ccpy/left/left_ccsdt.py, build_LH_1A, line 192 *)
Definition leftt_LH_a_31 (d : dims) (H : ints) (T L : amps) : mat2 := fun a i =>
  leftt_LH_a_30 d H T L a i + sumn (noa d) (fun m => sumn (nob d) (fun n => sumn (nob d) (fun o => (leftt_X_ab_oovo d H T L m n a o) * (i_ab_oooo H i o m n)))).
(** ccpy/left/left_ccsdt.py, build_LH_1A, line 193 *)
Definition leftt_LH_a_32 (d : dims) (H : ints) (T L : amps) : mat2 := fun a i =>
  leftt_LH_a_31 d H T L a i + sumn (nua d) (fun f => sumn (noa d) (fun m => sumn (nua d) (fun e => (leftt_X_aa_vovv d H T L f m a e) * (i_aa_voov H e i m f)))).
(** ccpy/left/left_ccsdt.py, build_LH_1A, line 194 *)
Definition leftt_LH_a_33 (d : dims) (H : ints) (T L : amps) : mat2 := fun a i =>
  leftt_LH_a_32 d H T L a i + sumn (nua d) (fun f => sumn (nob d) (fun m => sumn (nub d) (fun e => (leftt_X_ab_vovv d H T L f m a e) * (i_ab_ovvo H i e f m)))).
(** ccpy/left/left_ccsdt.py, build_LH_1A, line 195 *)
Definition leftt_LH_a_34 (d : dims) (H : ints) (T L : amps) : mat2 := fun a i =>
  leftt_LH_a_33 d H T L a i + sumn (noa d) (fun m => sumn (nub d) (fun f => sumn (nub d) (fun e => (leftt_X_ab_ovvv d H T L m f a e) * (i_ab_ovov H i e m f)))).
(** ccpy/left/left_ccsdt.py, build_LH_1A, line 197 *)
Definition leftt_LH_a_35 (d : dims) (H : ints) (T L : amps) : mat2 := fun a i =>
  leftt_LH_a_34 d H T L a i - 1 / 2 * (sumn (nua d) (fun g => sumn (nua d) (fun f => sumn (nua d) (fun e => (leftt_X_aa_vovv d H T L g i f e) * (i_aa_vvvv H e f a g))))).
(** ccpy/left/left_ccsdt.py, build_LH_1A, line 198 *)
Definition leftt_LH_a_36 (d : dims) (H : ints) (T L : amps) : mat2 := fun a i =>
  leftt_LH_a_35 d H T L a i - sumn (nub d) (fun g => sumn (nua d) (fun e => sumn (nub d) (fun f => (leftt_X_ab_ovvv d H T L i g e f) * (i_ab_vvvv H e f a g)))).
(** ccpy/left/left_ccsdt.py, build_LH_1A, line 199 *)
Definition leftt_LH_a_37 (d : dims) (H : ints) (T L : amps) : mat2 := fun a i =>
  leftt_LH_a_36 d H T L a i - sumn (noa d) (fun m => sumn (noa d) (fun n => sumn (nua d) (fun e => (leftt_X_aa_ooov d H T L i m n e) * (i_aa_voov H e n m a)))).
(** ccpy/left/left_ccsdt.py, build_LH_1A, line 200 *)
Definition leftt_LH_a_38 (d : dims) (H : ints) (T L : amps) : mat2 := fun a i =>
  leftt_LH_a_37 d H T L a i - sumn (nob d) (fun m => sumn (noa d) (fun n => sumn (nub d) (fun e => (leftt_X_ab_ooov d H T L i m n e) * (i_ab_ovvo H n e a m)))).
(** ccpy/left/left_ccsdt.py, build_LH_1A, line 201 *)
Definition leftt_LH_a_39 (d : dims) (H : ints) (T L : amps) : mat2 := fun a i =>
  leftt_LH_a_38 d H T L a i - sumn (nob d) (fun m => sumn (nua d) (fun e => sumn (nob d) (fun n => (leftt_X_ab_oovo d H T L i m e n) * (i_ab_vovo H e n a m)))).
(** ccpy/left/left_ccsdt.py, build_LH_1A, line 203 *)
Definition leftt_LH_a_40 (d : dims) (H : ints) (T L : amps) : mat2 := fun a i =>
  leftt_LH_a_39 d H T L a i + 1 / 2 * (sumn (noa d) (fun n => sumn (noa d) (fun m => sumn (noa d) (fun o => (i_aa_ooov H n m o a) * (leftt_X_aa_oooo d H T L i o m n))))).
(** ccpy/left/left_ccsdt.py, build_LH_1A, line 204 *)
Definition leftt_LH_a_41 (d : dims) (H : ints) (T L : amps) : mat2 := fun a i =>
  leftt_LH_a_40 d H T L a i + sumn (noa d) (fun m => sumn (nob d) (fun n => sumn (nob d) (fun o => (i_ab_oovo H m n a o) * (leftt_X_ab_oooo d H T L i o m n)))).
(** ccpy/left/left_ccsdt.py, build_LH_1A, line 205 *)
Definition leftt_LH_a_42 (d : dims) (H : ints) (T L : amps) : mat2 := fun a i =>
  leftt_LH_a_41 d H T L a i + sumn (nua d) (fun f => sumn (noa d) (fun m => sumn (nua d) (fun e => (i_aa_vovv H f m a e) * (leftt_X_aa_voov d H T L e i m f)))).
(** ccpy/left/left_ccsdt.py, build_LH_1A, line 206 *)
Definition leftt_LH_a_43 (d : dims) (H : ints) (T L : amps) : mat2 := fun a i =>
  leftt_LH_a_42 d H T L a i + sumn (nua d) (fun f => sumn (nob d) (fun m => sumn (nub d) (fun e => (i_ab_vovv H f m a e) * (leftt_X_ab_ovvo d H T L i e f m)))).
(** ccpy/left/left_ccsdt.py, build_LH_1A, line 207 *)
Definition leftt_LH_a_44 (d : dims) (H : ints) (T L : amps) : mat2 := fun a i =>
  leftt_LH_a_43 d H T L a i + sumn (noa d) (fun m => sumn (nub d) (fun f => sumn (nub d) (fun e => (i_ab_ovvv H m f a e) * (leftt_X_ab_ovov d H T L i e m f)))).
(** ccpy/left/left_ccsdt.py, build_LH_1A, line 209 *)
Definition leftt_LH_a_45 (d : dims) (H : ints) (T L : amps) : mat2 := fun a i =>
  leftt_LH_a_44 d H T L a i - 1 / 2 * (sumn (nua d) (fun g => sumn (nua d) (fun f => sumn (nua d) (fun e => (i_aa_vovv H g i f e) * (leftt_X_aa_vvvv d H T L e f a g))))).
(** ccpy/left/left_ccsdt.py, build_LH_1A, line 210 *)
Definition leftt_LH_a_46 (d : dims) (H : ints) (T L : amps) : mat2 := fun a i =>
  leftt_LH_a_45 d H T L a i - sumn (nub d) (fun g => sumn (nua d) (fun e => sumn (nub d) (fun f => (i_ab_ovvv H i g e f) * (leftt_X_ab_vvvv d H T L e f a g)))).
(** ccpy/left/left_ccsdt.py, build_LH_1A, line 211 *)
Definition leftt_LH_a_47 (d : dims) (H : ints) (T L : amps) : mat2 := fun a i =>
  leftt_LH_a_46 d H T L a i - sumn (noa d) (fun m => sumn (noa d) (fun n => sumn (nua d) (fun e => (i_aa_ooov H i m n e) * (leftt_X_aa_voov d H T L e n m a)))).
(** ccpy/left/left_ccsdt.py, build_LH_1A, line 212 *)
Definition leftt_LH_a_48 (d : dims) (H : ints) (T L : amps) : mat2 := fun a i =>
  leftt_LH_a_47 d H T L a i - sumn (nob d) (fun m => sumn (noa d) (fun n => sumn (nub d) (fun e => (i_ab_ooov H i m n e) * (leftt_X_ab_ovvo d H T L n e a m)))).
(** ccpy/left/left_ccsdt.py, build_LH_1A, line 213 *)
Definition leftt_LH_a_49 (d : dims) (H : ints) (T L : amps) : mat2 := fun a i =>
  leftt_LH_a_48 d H T L a i - sumn (nob d) (fun m => sumn (nua d) (fun e => sumn (nob d) (fun n => (i_ab_oovo H i m e n) * (leftt_X_ab_vovo d H T L e n a m)))).
(** ccpy/left/left_ccsdt.py, build_LH_1B, line 219 *)
Definition leftt_LH_b (d : dims) (H : ints) (T L : amps) : mat2 := fun a i =>
  sumn (nub d) (fun e => (i_b_vv H e a) * (x_b L e i)).
(** ccpy/left/left_ccsdt.py, build_LH_1B, line 220 *)
Definition leftt_LH_b_1 (d : dims) (H : ints) (T L : amps) : mat2 := fun a i =>
  leftt_LH_b d H T L a i - sumn (nob d) (fun m => (i_b_oo H i m) * (x_b L a m)).
(** ccpy/left/left_ccsdt.py, build_LH_1B, line 221 *)
Definition leftt_LH_b_2 (d : dims) (H : ints) (T L : amps) : mat2 := fun a i =>
  leftt_LH_b_1 d H T L a i + sumn (nub d) (fun e => sumn (nob d) (fun m => (i_bb_voov H e i m a) * (x_b L e m))).
(** ccpy/left/left_ccsdt.py, build_LH_1B, line 222 *)
Definition leftt_LH_b_3 (d : dims) (H : ints) (T L : amps) : mat2 := fun a i =>
  leftt_LH_b_2 d H T L a i + sumn (nua d) (fun e => sumn (noa d) (fun m => (i_ab_voov H e i m a) * (x_a L e m))).
(** ccpy/left/left_ccsdt.py, build_LH_1B, line 225 *)
Definition leftt_LH_b_4 (d : dims) (H : ints) (T L : amps) : mat2 := fun a i =>
  leftt_LH_b_3 d H T L a i + 1 / 2 * (sumn (nub d) (fun f => sumn (nub d) (fun e => sumn (nob d) (fun n => (i_bb_vvov H f e n a) * (x_bb L e f i n))))).
(** ccpy/left/left_ccsdt.py, build_LH_1B, line 226 *)
Definition leftt_LH_b_5 (d : dims) (H : ints) (T L : amps) : mat2 := fun a i =>
  leftt_LH_b_4 d H T L a i + sumn (nua d) (fun f => sumn (nub d) (fun e => sumn (noa d) (fun n => (i_ab_vvov H f e n a) * (x_ab L f e n i)))).
(** ccpy/left/left_ccsdt.py, build_LH_1B, line 227 *)
Definition leftt_LH_b_6 (d : dims) (H : ints) (T L : amps) : mat2 := fun a i =>
  leftt_LH_b_5 d H T L a i - 1 / 2 * (sumn (nub d) (fun f => sumn (nob d) (fun n => sumn (nob d) (fun m => (i_bb_vooo H f i n m) * (x_bb L a f m n))))).
(** ccpy/left/left_ccsdt.py, build_LH_1B, line 228 *)
Definition leftt_LH_b_7 (d : dims) (H : ints) (T L : amps) : mat2 := fun a i =>
  leftt_LH_b_6 d H T L a i - sumn (nua d) (fun f => sumn (noa d) (fun n => sumn (nob d) (fun m => (i_ab_vooo H f i n m) * (x_ab L f a n m)))).
(** ccpy/left/left_ccsdt.py, build_LH_1B, line 230 *)
Definition leftt_I1_3 (d : dims) (H : ints) (T L : amps) : mat2 := fun g e =>
  1 / 4 * (sumn (nub d) (fun f => sumn (nob d) (fun m => sumn (nob d) (fun n => (x_bb L e f m n) * (x_bb T f g n m))))).
(** ccpy/left/left_ccsdt.py, build_LH_1B, line 231 *)
Definition leftt_I2_3 (d : dims) (H : ints) (T L : amps) : mat2 := fun g f =>
  (-1) / 4 * (sumn (nub d) (fun e => sumn (nob d) (fun m => sumn (nob d) (fun n => (x_bb L e f m n) * (x_bb T e g n m))))).
(** ccpy/left/left_ccsdt.py, build_LH_1B, line 232 *)
Definition leftt_I3_3 (d : dims) (H : ints) (T L : amps) : mat2 := fun m n =>
  (-1) / 4 * (sumn (nub d) (fun e => sumn (nub d) (fun f => sumn (nob d) (fun o => (x_bb L e f m o) * (x_bb T e f n o))))).
(** ccpy/left/left_ccsdt.py, build_LH_1B, line 233 *)
Definition leftt_I4_3 (d : dims) (H : ints) (T L : amps) : mat2 := fun o n =>
  1 / 4 * (sumn (nub d) (fun e => sumn (nub d) (fun f => sumn (nob d) (fun m => (x_bb L e f m o) * (x_bb T e f n m))))).
(** ccpy/left/left_ccsdt.py, build_LH_1B, line 234 *)
Definition leftt_LH_b_8 (d : dims) (H : ints) (T L : amps) : mat2 := fun a i =>
  leftt_LH_b_7 d H T L a i + sumn (nub d) (fun g => sumn (nub d) (fun e => (leftt_I1_3 d H T L g e) * (i_bb_vovv H e i g a))).
(** ccpy/left/left_ccsdt.py, build_LH_1B, line 235 *)
Definition leftt_LH_b_9 (d : dims) (H : ints) (T L : amps) : mat2 := fun a i =>
  leftt_LH_b_8 d H T L a i + sumn (nub d) (fun g => sumn (nub d) (fun f => (leftt_I2_3 d H T L g f) * (i_bb_vovv H f i g a))).
(** ccpy/left/left_ccsdt.py, build_LH_1B, line 236 *)
Definition leftt_LH_b_10 (d : dims) (H : ints) (T L : amps) : mat2 := fun a i =>
  leftt_LH_b_9 d H T L a i + sumn (nob d) (fun m => sumn (nob d) (fun n => (leftt_I3_3 d H T L m n) * (i_bb_ooov H n i m a))).
(** ccpy/left/left_ccsdt.py, build_LH_1B, line 237 *)
Definition leftt_LH_b_11 (d : dims) (H : ints) (T L : amps) : mat2 := fun a i =>
  leftt_LH_b_10 d H T L a i + sumn (nob d) (fun o => sumn (nob d) (fun n => (leftt_I4_3 d H T L o n) * (i_bb_ooov H n i o a))).
(** ccpy/left/left_ccsdt.py, build_LH_1B, line 239 *)
Definition leftt_I1_4 (d : dims) (H : ints) (T L : amps) : mat2 := fun j n =>
  (- (sumn (nua d) (fun b => sumn (nub d) (fun a => sumn (nob d) (fun i => (x_ab L b a j i) * (x_ab T b a n i)))))).
(** ccpy/left/left_ccsdt.py, build_LH_1B, line 240 *)
Definition leftt_I2_4 (d : dims) (H : ints) (T L : amps) : mat2 := fun f b =>
  sumn (nub d) (fun a => sumn (noa d) (fun j => sumn (nob d) (fun i => (x_ab L b a j i) * (x_ab T f a j i)))).
(** ccpy/left/left_ccsdt.py, build_LH_1B, line 241 *)
Definition leftt_I3_4 (d : dims) (H : ints) (T L : amps) : mat2 := fun f a =>
  sumn (nua d) (fun b => sumn (noa d) (fun j => sumn (nob d) (fun i => (x_ab L b a j i) * (x_ab T b f j i)))).
(** ccpy/left/left_ccsdt.py, build_LH_1B, line 242 *)
Definition leftt_I4_4 (d : dims) (H : ints) (T L : amps) : mat2 := fun i n =>
  (- (sumn (nua d) (fun b => sumn (nub d) (fun a => sumn (noa d) (fun j => (x_ab L b a j i) * (x_ab T b a j n)))))).
(** ccpy/left/left_ccsdt.py, build_LH_1B, line 243 *)
Definition leftt_LH_b_12 (d : dims) (H : ints) (T L : amps) : mat2 := fun a i =>
  leftt_LH_b_11 d H T L a i + sumn (noa d) (fun j => sumn (noa d) (fun n => (leftt_I1_4 d H T L j n) * (i_ab_ooov H n i j a))).
(** ccpy/left/left_ccsdt.py, build_LH_1B, line 244 *)
Definition leftt_LH_b_13 (d : dims) (H : ints) (T L : amps) : mat2 := fun a i =>
  leftt_LH_b_12 d H T L a i + sumn (nua d) (fun f => sumn (nua d) (fun b => (leftt_I2_4 d H T L f b) * (i_ab_vovv H b i f a))).
(** ccpy/left/left_ccsdt.py, build_LH_1B, line 245 *)
Definition leftt_LH_b_14 (d : dims) (H : ints) (T L : amps) : mat2 := fun a i =>
  leftt_LH_b_13 d H T L a i + sumn (nub d) (fun f => sumn (nub d) (fun a' => (leftt_I3_4 d H T L f a') * (i_bb_vovv H a' i f a))).
(** ccpy/left/left_ccsdt.py, build_LH_1B, line 246 *)
Definition leftt_LH_b_15 (d : dims) (H : ints) (T L : amps) : mat2 := fun a i =>
  leftt_LH_b_14 d H T L a i + sumn (nob d) (fun i' => sumn (nob d) (fun n => (leftt_I4_4 d H T L i' n) * (i_bb_ooov H n i i' a))).
(** ccpy/left/left_ccsdt.py, build_LH_1B, line 248 *)
Definition leftt_I1_5 (d : dims) (H : ints) (T L : amps) : mat2 := fun f a =>
  1 / 4 * (sumn (nua d) (fun b => sumn (noa d) (fun i => sumn (noa d) (fun j => (x_aa L a b i j) * (x_aa T f b i j))))).
(** ccpy/left/left_ccsdt.py, build_LH_1B, line 249 *)
Definition leftt_I2_5 (d : dims) (H : ints) (T L : amps) : mat2 := fun f b =>
  (-1) / 4 * (sumn (nua d) (fun a => sumn (noa d) (fun i => sumn (noa d) (fun j => (x_aa L a b i j) * (x_aa T f a i j))))).
(** ccpy/left/left_ccsdt.py, build_LH_1B, line 250 *)
Definition leftt_I3_5 (d : dims) (H : ints) (T L : amps) : mat2 := fun i n =>
  (-1) / 4 * (sumn (nua d) (fun a => sumn (nua d) (fun b => sumn (noa d) (fun j => (x_aa L a b i j) * (x_aa T a b n j))))).
(** ccpy/left/left_ccsdt.py, build_LH_1B, line 251 *)
Definition leftt_I4_5 (d : dims) (H : ints) (T L : amps) : mat2 := fun j n =>
  1 / 4 * (sumn (nua d) (fun a => sumn (nua d) (fun b => sumn (noa d) (fun i => (x_aa L a b i j) * (x_aa T a b n i))))).
(** ccpy/left/left_ccsdt.py, build_LH_1B, line 252 *)
Definition leftt_LH_b_16 (d : dims) (H : ints) (T L : amps) : mat2 := fun a i =>
  leftt_LH_b_15 d H T L a i + sumn (nua d) (fun f => sumn (nua d) (fun a' => (leftt_I1_5 d H T L f a') * (i_ab_vovv H a' i f a))).
(** ccpy/left/left_ccsdt.py, build_LH_1B, line 253 *)
Definition leftt_LH_b_17 (d : dims) (H : ints) (T L : amps) : mat2 := fun a i =>
  leftt_LH_b_16 d H T L a i + sumn (nua d) (fun f => sumn (nua d) (fun b => (leftt_I2_5 d H T L f b) * (i_ab_vovv H b i f a))).
(** ccpy/left/left_ccsdt.py, build_LH_1B, line 254 *)
Definition leftt_LH_b_18 (d : dims) (H : ints) (T L : amps) : mat2 := fun a i =>
  leftt_LH_b_17 d H T L a i + sumn (noa d) (fun i' => sumn (noa d) (fun n => (leftt_I3_5 d H T L i' n) * (i_ab_ooov H n i i' a))).
(** ccpy/left/left_ccsdt.py, build_LH_1B, line 255 *)
Definition leftt_LH_b_19 (d : dims) (H : ints) (T L : amps) : mat2 := fun a i =>
  leftt_LH_b_18 d H T L a i + sumn (noa d) (fun j => sumn (noa d) (fun n => (leftt_I4_5 d H T L j n) * (i_ab_ooov H n i j a))).
(** ccpy/left/left_ccsdt.py, build_LH_1B, line 258 *)
Definition leftt_LH_b_20 (d : dims) (H : ints) (T L : amps) : mat2 := fun a i =>
  leftt_LH_b_19 d H T L a i + sumn (nub d) (fun e => sumn (nob d) (fun m => (leftt_X_b_vo d H T L e m) * (i_bb_oovv H i m a e))).
(** ccpy/left/left_ccsdt.py, build_LH_1B, line 259 *)
Definition leftt_LH_b_21 (d : dims) (H : ints) (T L : amps) : mat2 := fun a i =>
  leftt_LH_b_20 d H T L a i + sumn (nua d) (fun e => sumn (noa d) (fun m => (leftt_X_a_vo d H T L e m) * (i_ab_oovv H m i e a))).
(** ccpy/left/left_ccsdt.py, build_LH_1B, lines 262-265 *)
Definition leftt_I1B_vo_1 (d : dims) (H : ints) (T L : amps) : mat2 := fun e m =>
  (-1) / 2 * (sumn (nob d) (fun n => sumn (nob d) (fun o => sumn (nub d) (fun g => (leftt_X_bb_ooov d H T L n o m g) * (x_bb T e g n o))))) - sumn (noa d) (fun o => sumn (nob d) (fun n => sumn (nua d) (fun g => (leftt_X_ab_oovo d H T L o n g m) * (x_ab T g e o n)))).
(** ccpy/left/left_ccsdt.py, build_LH_1B, lines 266-269 *)
Definition leftt_I1A_vo_1 (d : dims) (H : ints) (T L : amps) : mat2 := fun e m =>
  (-1) / 2 * (sumn (noa d) (fun n => sumn (noa d) (fun o => sumn (nua d) (fun g => (leftt_X_aa_ooov d H T L n o m g) * (x_aa T e g n o))))) - sumn (noa d) (fun n => sumn (nob d) (fun o => sumn (nub d) (fun g => (leftt_X_ab_ooov d H T L n o m g) * (x_ab T e g n o)))).
(** ccpy/left/left_ccsdt.py, build_LH_1B, line 270 *)
Definition leftt_LH_b_22 (d : dims) (H : ints) (T L : amps) : mat2 := fun a i =>
  leftt_LH_b_21 d H T L a i + sumn (nub d) (fun e => sumn (nob d) (fun m => (leftt_I1B_vo_1 d H T L e m) * (i_bb_oovv H i m a e))).
(** ccpy/left/left_ccsdt.py, build_LH_1B, line 271 *)
Definition leftt_LH_b_23 (d : dims) (H : ints) (T L : amps) : mat2 := fun a i =>
  leftt_LH_b_22 d H T L a i + sumn (nua d) (fun e => sumn (noa d) (fun m => (leftt_I1A_vo_1 d H T L e m) * (i_ab_oovv H m i e a))).
(** ccpy/left/left_ccsdt.py, build_LH_1B, line 273 *)
Definition leftt_LH_b_24 (d : dims) (H : ints) (T L : amps) : mat2 := fun a i =>
  leftt_LH_b_23 d H T L a i - sumn (nob d) (fun n => sumn (nob d) (fun m => (leftt_X_b_oo d H T L n m) * (i_bb_ooov H m i n a))).
(** ccpy/left/left_ccsdt.py, build_LH_1B, line 274 *)
Definition leftt_LH_b_25 (d : dims) (H : ints) (T L : amps) : mat2 := fun a i =>
  leftt_LH_b_24 d H T L a i - sumn (noa d) (fun n => sumn (noa d) (fun m => (leftt_X_a_oo d H T L n m) * (i_ab_ooov H m i n a))).
(** ccpy/left/left_ccsdt.py, build_LH_1B, line 275 *)
Definition leftt_LH_b_26 (d : dims) (H : ints) (T L : amps) : mat2 := fun a i =>
  leftt_LH_b_25 d H T L a i - sumn (nub d) (fun e => sumn (nub d) (fun f => (leftt_X_b_vv d H T L e f) * (i_bb_vovv H f i e a))).
(** ccpy/left/left_ccsdt.py, build_LH_1B, line 276 *)
Definition leftt_LH_b_27 (d : dims) (H : ints) (T L : amps) : mat2 := fun a i =>
  leftt_LH_b_26 d H T L a i - sumn (nua d) (fun e => sumn (nua d) (fun f => (leftt_X_a_vv d H T L e f) * (i_ab_vovv H f i e a))).
(** ccpy/left/left_ccsdt.py, build_LH_1B, line 279 *)
Definition leftt_LH_b_28 (d : dims) (H : ints) (T L : amps) : mat2 := fun a i =>
  leftt_LH_b_27 d H T L a i + sumn (nub d) (fun e => (i_b_ov H i e) * (leftt_X_b_vv d H T L e a)).
(** ccpy/left/left_ccsdt.py, build_LH_1B, line 280 *)
Definition leftt_LH_b_29 (d : dims) (H : ints) (T L : amps) : mat2 := fun a i =>
  leftt_LH_b_28 d H T L a i - sumn (nob d) (fun m => (i_b_ov H m a) * (leftt_X_b_oo d H T L i m)).
(** ccpy/left/left_ccsdt.py, build_LH_1B, line 282 *)
Definition leftt_LH_b_30 (d : dims) (H : ints) (T L : amps) : mat2 := fun a i =>
  leftt_LH_b_29 d H T L a i + 1 / 2 * (sumn (nob d) (fun n => sumn (nob d) (fun m => sumn (nob d) (fun o => (leftt_X_bb_ooov d H T L n m o a) * (i_bb_oooo H i o m n))))).
(** ccpy/left/left_ccsdt.py, build_LH_1B, line 283 *)
Definition leftt_LH_b_31 (d : dims) (H : ints) (T L : amps) : mat2 := fun a i =>
  leftt_LH_b_30 d H T L a i + sumn (noa d) (fun n => sumn (nob d) (fun m => sumn (noa d) (fun o => (leftt_X_ab_ooov d H T L n m o a) * (i_ab_oooo H o i n m)))).
(** ccpy/left/left_ccsdt.py, build_LH_1B, line 284 *)
Definition leftt_LH_b_32 (d : dims) (H : ints) (T L : amps) : mat2 := fun a i =>
  leftt_LH_b_31 d H T L a i + sumn (nub d) (fun f => sumn (nob d) (fun m => sumn (nub d) (fun e => (leftt_X_bb_vovv d H T L f m a e) * (i_bb_voov H e i m f)))).
(** ccpy/left/left_ccsdt.py, build_LH_1B, line 285 *)
Definition leftt_LH_b_33 (d : dims) (H : ints) (T L : amps) : mat2 := fun a i =>
  leftt_LH_b_32 d H T L a i + sumn (noa d) (fun m => sumn (nub d) (fun f => sumn (nua d) (fun e => (leftt_X_ab_ovvv d H T L m f e a) * (i_ab_voov H e i m f)))).
(** ccpy/left/left_ccsdt.py, build_LH_1B, line 286 *)
Definition leftt_LH_b_34 (d : dims) (H : ints) (T L : amps) : mat2 := fun a i =>
  leftt_LH_b_33 d H T L a i + sumn (nua d) (fun f => sumn (nob d) (fun m => sumn (nua d) (fun e => (leftt_X_ab_vovv d H T L f m e a) * (i_ab_vovo H e i f m)))).
(** ccpy/left/left_ccsdt.py, build_LH_1B, line 288 *)
Definition leftt_LH_b_35 (d : dims) (H : ints) (T L : amps) : mat2 := fun a i =>
  leftt_LH_b_34 d H T L a i - 1 / 2 * (sumn (nub d) (fun g => sumn (nub d) (fun f => sumn (nub d) (fun e => (leftt_X_bb_vovv d H T L g i f e) * (i_bb_vvvv H e f a g))))).
(** ccpy/left/left_ccsdt.py, build_LH_1B, line 289 *)
Definition leftt_LH_b_36 (d : dims) (H : ints) (T L : amps) : mat2 := fun a i =>
  leftt_LH_b_35 d H T L a i - sumn (nua d) (fun g => sumn (nua d) (fun f => sumn (nub d) (fun e => (leftt_X_ab_vovv d H T L g i f e) * (i_ab_vvvv H f e g a)))).
(** ccpy/left/left_ccsdt.py, build_LH_1B, line 290 *)
Definition leftt_LH_b_37 (d : dims) (H : ints) (T L : amps) : mat2 := fun a i =>
  leftt_LH_b_36 d H T L a i - sumn (nob d) (fun m => sumn (nob d) (fun n => sumn (nub d) (fun e => (leftt_X_bb_ooov d H T L i m n e) * (i_bb_voov H e n m a)))).
(** ccpy/left/left_ccsdt.py, build_LH_1B, line 291 *)
Definition leftt_LH_b_38 (d : dims) (H : ints) (T L : amps) : mat2 := fun a i =>
  leftt_LH_b_37 d H T L a i - sumn (noa d) (fun m => sumn (nua d) (fun e => sumn (nob d) (fun n => (leftt_X_ab_oovo d H T L m i e n) * (i_ab_voov H e n m a)))).
(** ccpy/left/left_ccsdt.py, build_LH_1B, line 292 *)
Definition leftt_LH_b_39 (d : dims) (H : ints) (T L : amps) : mat2 := fun a i =>
  leftt_LH_b_38 d H T L a i - sumn (noa d) (fun m => sumn (noa d) (fun n => sumn (nub d) (fun e => (leftt_X_ab_ooov d H T L m i n e) * (i_ab_ovov H n e m a)))).
(** ccpy/left/left_ccsdt.py, build_LH_1B, line 294 *)
Definition leftt_LH_b_40 (d : dims) (H : ints) (T L : amps) : mat2 := fun a i =>
  leftt_LH_b_39 d H T L a i + 1 / 2 * (sumn (nob d) (fun n => sumn (nob d) (fun m => sumn (nob d) (fun o => (i_bb_ooov H n m o a) * (leftt_X_bb_oooo d H T L i o m n))))).
(** ccpy/left/left_ccsdt.py, build_LH_1B, line 295 *)
Definition leftt_LH_b_41 (d : dims) (H : ints) (T L : amps) : mat2 := fun a i =>
  leftt_LH_b_40 d H T L a i + sumn (noa d) (fun n => sumn (nob d) (fun m => sumn (noa d) (fun o => (i_ab_ooov H n m o a) * (leftt_X_ab_oooo d H T L o i n m)))).
(** ccpy/left/left_ccsdt.py, build_LH_1B, line 296 *)
Definition leftt_LH_b_42 (d : dims) (H : ints) (T L : amps) : mat2 := fun a i =>
  leftt_LH_b_41 d H T L a i + sumn (nub d) (fun f => sumn (nob d) (fun m => sumn (nub d) (fun e => (i_bb_vovv H f m a e) * (leftt_X_bb_voov d H T L e i m f)))).
(** ccpy/left/left_ccsdt.py, build_LH_1B, line 297 *)
Definition leftt_LH_b_43 (d : dims) (H : ints) (T L : amps) : mat2 := fun a i =>
  leftt_LH_b_42 d H T L a i + sumn (noa d) (fun m => sumn (nub d) (fun f => sumn (nua d) (fun e => (i_ab_ovvv H m f e a) * (leftt_X_ab_voov d H T L e i m f)))).
(** ccpy/left/left_ccsdt.py, build_LH_1B, line 298 *)
Definition leftt_LH_b_44 (d : dims) (H : ints) (T L : amps) : mat2 := fun a i =>
  leftt_LH_b_43 d H T L a i + sumn (nua d) (fun f => sumn (nob d) (fun m => sumn (nua d) (fun e => (i_ab_vovv H f m e a) * (leftt_X_ab_vovo d H T L e i f m)))).
(** ccpy/left/left_ccsdt.py, build_LH_1B, line 300 *)
Definition leftt_LH_b_45 (d : dims) (H : ints) (T L : amps) : mat2 := fun a i =>
  leftt_LH_b_44 d H T L a i - 1 / 2 * (sumn (nub d) (fun g => sumn (nub d) (fun f => sumn (nub d) (fun e => (i_bb_vovv H g i f e) * (leftt_X_bb_vvvv d H T L e f a g))))).
(** ccpy/left/left_ccsdt.py, build_LH_1B, line 301 *)
Definition leftt_LH_b_46 (d : dims) (H : ints) (T L : amps) : mat2 := fun a i =>
  leftt_LH_b_45 d H T L a i - sumn (nua d) (fun g => sumn (nua d) (fun f => sumn (nub d) (fun e => (i_ab_vovv H g i f e) * (leftt_X_ab_vvvv d H T L f e g a)))).
(** ccpy/left/left_ccsdt.py, build_LH_1B, line 302 *)
Definition leftt_LH_b_47 (d : dims) (H : ints) (T L : amps) : mat2 := fun a i =>
  leftt_LH_b_46 d H T L a i - sumn (nob d) (fun m => sumn (nob d) (fun n => sumn (nub d) (fun e => (i_bb_ooov H i m n e) * (leftt_X_bb_voov d H T L e n m a)))).
(** ccpy/left/left_ccsdt.py, build_LH_1B, line 303 *)
Definition leftt_LH_b_48 (d : dims) (H : ints) (T L : amps) : mat2 := fun a i =>
  leftt_LH_b_47 d H T L a i - sumn (noa d) (fun m => sumn (nua d) (fun e => sumn (nob d) (fun n => (i_ab_oovo H m i e n) * (leftt_X_ab_voov d H T L e n m a)))).
(** ccpy/left/left_ccsdt.py, build_LH_1B, line 304 *)
Definition leftt_LH_b_49 (d : dims) (H : ints) (T L : amps) : mat2 := fun a i =>
  leftt_LH_b_48 d H T L a i - sumn (noa d) (fun m => sumn (noa d) (fun n => sumn (nub d) (fun e => (i_ab_ooov H m i n e) * (leftt_X_ab_ovov d H T L n e m a)))).
(** ccpy/left/left_ccsdt.py, build_LH_2A, line 311 *)
Definition leftt_LH_aa (d : dims) (H : ints) (T L : amps) : mat4 := fun a b i j =>
  1 / 2 * (sumn (nua d) (fun e => (i_a_vv H e a) * (x_aa L e b i j))).
(** ccpy/left/left_ccsdt.py, build_LH_2A, line 312 *)
Definition leftt_LH_aa_1 (d : dims) (H : ints) (T L : amps) : mat4 := fun a b i j =>
  leftt_LH_aa d H T L a b i j - 1 / 2 * (sumn (noa d) (fun m => (i_a_oo H i m) * (x_aa L a b m j))).
(** ccpy/left/left_ccsdt.py, build_LH_2A, line 314 *)
Definition leftt_LH_aa_2 (d : dims) (H : ints) (T L : amps) : mat4 := fun a b i j =>
  leftt_LH_aa_1 d H T L a b i j + (i_a_ov H j b) * (x_a L a i).
(** ccpy/left/left_ccsdt.py, build_LH_2A, lines 316-319 *)
Definition leftt_I1_6 (d : dims) (H : ints) (T L : amps) : mat2 := fun e a =>
  (-1) / 2 * (sumn (nua d) (fun f => sumn (noa d) (fun m => sumn (noa d) (fun n => (x_aa L a f m n) * (x_aa T e f m n))))) - sumn (nub d) (fun f => sumn (noa d) (fun m => sumn (nob d) (fun n => (x_ab L a f m n) * (x_ab T e f m n)))).
(** ccpy/left/left_ccsdt.py, build_LH_2A, line 320 *)
Definition leftt_LH_aa_3 (d : dims) (H : ints) (T L : amps) : mat4 := fun a b i j =>
  leftt_LH_aa_2 d H T L a b i j + 1 / 2 * (sumn (nua d) (fun e => (leftt_I1_6 d H T L e a) * (i_aa_oovv H i j e b))).
(** ccpy/left/left_ccsdt.py, build_LH_2A, lines 322-325 *)
Definition leftt_I1_7 (d : dims) (H : ints) (T L : amps) : mat2 := fun i m =>
  1 / 2 * (sumn (nua d) (fun e => sumn (nua d) (fun f => sumn (noa d) (fun n => (x_aa L e f i n) * (x_aa T e f m n))))) + sumn (nua d) (fun e => sumn (nub d) (fun f => sumn (nob d) (fun n => (x_ab L e f i n) * (x_ab T e f m n)))).
(** ccpy/left/left_ccsdt.py, build_LH_2A, line 326 *)
Definition leftt_LH_aa_4 (d : dims) (H : ints) (T L : amps) : mat4 := fun a b i j =>
  leftt_LH_aa_3 d H T L a b i j - 1 / 2 * (sumn (noa d) (fun m => (leftt_I1_7 d H T L i m) * (i_aa_oovv H m j a b))).
(** ccpy/left/left_ccsdt.py, build_LH_2A, line 328 *)
Definition leftt_LH_aa_5 (d : dims) (H : ints) (T L : amps) : mat4 := fun a b i j =>
  leftt_LH_aa_4 d H T L a b i j + sumn (nua d) (fun e => sumn (noa d) (fun m => (i_aa_voov H e i m a) * (x_aa L e b m j))).
(** ccpy/left/left_ccsdt.py, build_LH_2A, line 329 *)
Definition leftt_LH_aa_6 (d : dims) (H : ints) (T L : amps) : mat4 := fun a b i j =>
  leftt_LH_aa_5 d H T L a b i j + sumn (nub d) (fun e => sumn (nob d) (fun m => (i_ab_ovvo H i e a m) * (x_ab L b e j m))).
(** ccpy/left/left_ccsdt.py, build_LH_2A, line 331 *)
Definition leftt_LH_aa_7 (d : dims) (H : ints) (T L : amps) : mat4 := fun a b i j =>
  leftt_LH_aa_6 d H T L a b i j + 1 / 8 * (sumn (noa d) (fun m => sumn (noa d) (fun n => (i_aa_oooo H i j m n) * (x_aa L a b m n)))).
(** ccpy/left/left_ccsdt.py, build_LH_2A, line 332 *)
Definition leftt_LH_aa_8 (d : dims) (H : ints) (T L : amps) : mat4 := fun a b i j =>
  leftt_LH_aa_7 d H T L a b i j + 1 / 8 * (sumn (nua d) (fun e => sumn (nua d) (fun f => (i_aa_vvvv H e f a b) * (x_aa L e f i j)))).
(** ccpy/left/left_ccsdt.py, build_LH_2A, line 334 *)
Definition leftt_LH_aa_9 (d : dims) (H : ints) (T L : amps) : mat4 := fun a b i j =>
  leftt_LH_aa_8 d H T L a b i j + 1 / 2 * (sumn (nua d) (fun e => (i_aa_vovv H e j a b) * (x_a L e i))).
(** ccpy/left/left_ccsdt.py, build_LH_2A, line 335 *)
Definition leftt_LH_aa_10 (d : dims) (H : ints) (T L : amps) : mat4 := fun a b i j =>
  leftt_LH_aa_9 d H T L a b i j - 1 / 2 * (sumn (noa d) (fun m => (i_aa_ooov H i j m b) * (x_a L a m))).
(** ccpy/left/left_ccsdt.py, build_LH_2A, line 338 *)
Definition leftt_LH_aa_11 (d : dims) (H : ints) (T L : amps) : mat4 := fun a b i j =>
  leftt_LH_aa_10 d H T L a b i j - sumn (nua d) (fun e => sumn (nua d) (fun f => (leftt_X_aa_vovv d H T L e j f b) * (i_aa_vovv H f i e a))).
(** ccpy/left/left_ccsdt.py, build_LH_2A, line 339 *)
Definition leftt_LH_aa_12 (d : dims) (H : ints) (T L : amps) : mat4 := fun a b i j =>
  leftt_LH_aa_11 d H T L a b i j - sumn (noa d) (fun n => sumn (noa d) (fun m => (leftt_X_aa_ooov d H T L n j m b) * (i_aa_ooov H m i n a))).
(** ccpy/left/left_ccsdt.py, build_LH_2A, line 340 *)
Definition leftt_LH_aa_13 (d : dims) (H : ints) (T L : amps) : mat4 := fun a b i j =>
  leftt_LH_aa_12 d H T L a b i j - 1 / 4 * (sumn (nua d) (fun e => sumn (noa d) (fun n => (leftt_X_aa_vovv d H T L e n a b) * (i_aa_ooov H j i n e)))).
(** ccpy/left/left_ccsdt.py, build_LH_2A, line 341 *)
Definition leftt_LH_aa_14 (d : dims) (H : ints) (T L : amps) : mat4 := fun a b i j =>
  leftt_LH_aa_13 d H T L a b i j - 1 / 4 * (sumn (noa d) (fun n => sumn (nua d) (fun e => (leftt_X_aa_ooov d H T L j i n e) * (i_aa_vovv H e n a b)))).
(** ccpy/left/left_ccsdt.py, build_LH_2A, line 342 *)
Definition leftt_LH_aa_15 (d : dims) (H : ints) (T L : amps) : mat4 := fun a b i j =>
  leftt_LH_aa_14 d H T L a b i j - sumn (nub d) (fun e => sumn (nub d) (fun f => (leftt_X_ab_ovvv d H T L j e b f) * (i_ab_ovvv H i f a e))).
(** ccpy/left/left_ccsdt.py, build_LH_2A, line 343 *)
Definition leftt_LH_aa_16 (d : dims) (H : ints) (T L : amps) : mat4 := fun a b i j =>
  leftt_LH_aa_15 d H T L a b i j - sumn (nob d) (fun n => sumn (nob d) (fun m => (leftt_X_ab_oovo d H T L j n b m) * (i_ab_oovo H i m a n))).
(** ccpy/left/left_ccsdt.py, build_LH_2A, line 346 *)
Definition leftt_LH_aa_17 (d : dims) (H : ints) (T L : amps) : mat4 := fun a b i j =>
  leftt_LH_aa_16 d H T L a b i j + sumn (nua d) (fun e => sumn (noa d) (fun m => (leftt_X_aa_voov d H T L e j m b) * (i_aa_oovv H i m a e))).
(** ccpy/left/left_ccsdt.py, build_LH_2A, line 347 *)
Definition leftt_LH_aa_18 (d : dims) (H : ints) (T L : amps) : mat4 := fun a b i j =>
  leftt_LH_aa_17 d H T L a b i j + sumn (nub d) (fun e => sumn (nob d) (fun m => (leftt_X_ab_ovvo d H T L j e b m) * (i_ab_oovv H i m a e))).
(** ccpy/left/left_ccsdt.py, build_LH_2A, line 348 *)
Definition leftt_LH_aa_19 (d : dims) (H : ints) (T L : amps) : mat4 := fun a b i j =>
  leftt_LH_aa_18 d H T L a b i j + 1 / 8 * (sumn (nua d) (fun e => sumn (nua d) (fun f => (leftt_X_aa_vvvv d H T L e f a b) * (i_aa_oovv H i j e f)))).
(** ccpy/left/left_ccsdt.py, build_LH_2A, line 349 *)
Definition leftt_LH_aa_20 (d : dims) (H : ints) (T L : amps) : mat4 := fun a b i j =>
  leftt_LH_aa_19 d H T L a b i j + 1 / 8 * (sumn (noa d) (fun m => sumn (noa d) (fun n => (leftt_X_aa_oooo d H T L i j m n) * (i_aa_oovv H m n a b)))).
(** ccpy/left/left_ccsdt.py, build_LH_2A, line 352 *)
Definition leftt_LH_aa_21 (d : dims) (H : ints) (T L : amps) : mat4 := fun a b i j =>
  leftt_LH_aa_20 d H T L a b i j + 1 / 2 * (sumn (nua d) (fun e => (leftt_X_a_vv d H T L e a) * (i_aa_oovv H i j e b))).
(** ccpy/left/left_ccsdt.py, build_LH_2A, line 353 *)
Definition leftt_LH_aa_22 (d : dims) (H : ints) (T L : amps) : mat4 := fun a b i j =>
  leftt_LH_aa_21 d H T L a b i j - 1 / 2 * (sumn (noa d) (fun m => (leftt_X_a_oo d H T L i m) * (i_aa_oovv H j m b a))).
(** ccpy/left/left_ccsdt.py, build_LH_2A, line 356 *)
Definition leftt_LH_aa_23 (d : dims) (H : ints) (T L : amps) : mat4 := fun a b i j =>
  leftt_LH_aa_22 d H T L a b i j + 1 / 4 * (sumn (nua d) (fun e => sumn (nua d) (fun f => sumn (noa d) (fun n => (x_aaa L e b f i j n) * (i_aa_vvov H f e n a))))).
(** ccpy/left/left_ccsdt.py, build_LH_2A, line 357 *)
Definition leftt_LH_aa_24 (d : dims) (H : ints) (T L : amps) : mat4 := fun a b i j =>
  leftt_LH_aa_23 d H T L a b i j + 1 / 2 * (sumn (nua d) (fun e => sumn (nub d) (fun f => sumn (nob d) (fun n => (x_aab L e b f i j n) * (i_ab_vvvo H e f a n))))).
(** ccpy/left/left_ccsdt.py, build_LH_2A, line 358 *)
Definition leftt_LH_aa_25 (d : dims) (H : ints) (T L : amps) : mat4 := fun a b i j =>
  leftt_LH_aa_24 d H T L a b i j - 1 / 4 * (sumn (nua d) (fun f => sumn (noa d) (fun m => sumn (noa d) (fun n => (x_aaa L a b f m j n) * (i_aa_vooo H f i n m))))).
(** ccpy/left/left_ccsdt.py, build_LH_2A, line 359 *)
Definition leftt_LH_aa_26 (d : dims) (H : ints) (T L : amps) : mat4 := fun a b i j =>
  leftt_LH_aa_25 d H T L a b i j - 1 / 2 * (sumn (nub d) (fun f => sumn (noa d) (fun m => sumn (nob d) (fun n => (x_aab L a b f m j n) * (i_ab_ovoo H i f m n))))).
(** ccpy/left/left_ccsdt.py, build_LH_2A, line 361 *)
Definition leftt_LH_aa_27 (d : dims) (H : ints) (T L : amps) : mat4 := fun a b i j =>
  leftt_LH_aa_26 d H T L a b i j - (leftt_LH_aa_26 d H T L b a i j + leftt_LH_aa_26 d H T L a b j i - leftt_LH_aa_26 d H T L b a j i).
(** ccpy/left/left_ccsdt.py, build_LH_2B, line 368 *)
Definition leftt_LH_ab (d : dims) (H : ints) (T L : amps) : mat4 := fun a b i j =>
  (- (sumn (noa d) (fun m => (i_ab_ooov H i j m b) * (x_a L a m)))).
(** ccpy/left/left_ccsdt.py, build_LH_2B, line 369 *)
Definition leftt_LH_ab_1 (d : dims) (H : ints) (T L : amps) : mat4 := fun a b i j =>
  leftt_LH_ab d H T L a b i j - sumn (nob d) (fun m => (i_ab_oovo H i j a m) * (x_b L b m)).
(** ccpy/left/left_ccsdt.py, build_LH_2B, line 371 *)
Definition leftt_LH_ab_2 (d : dims) (H : ints) (T L : amps) : mat4 := fun a b i j =>
  leftt_LH_ab_1 d H T L a b i j + sumn (nua d) (fun e => (i_ab_vovv H e j a b) * (x_a L e i)).
(** ccpy/left/left_ccsdt.py, build_LH_2B, line 372 *)
Definition leftt_LH_ab_3 (d : dims) (H : ints) (T L : amps) : mat4 := fun a b i j =>
  leftt_LH_ab_2 d H T L a b i j + sumn (nub d) (fun e => (i_ab_ovvv H i e a b) * (x_b L e j)).
(** ccpy/left/left_ccsdt.py, build_LH_2B, line 374 *)
Definition leftt_LH_ab_4 (d : dims) (H : ints) (T L : amps) : mat4 := fun a b i j =>
  leftt_LH_ab_3 d H T L a b i j + sumn (noa d) (fun m => sumn (nob d) (fun n => (i_ab_oooo H i j m n) * (x_ab L a b m n))).
(** ccpy/left/left_ccsdt.py, build_LH_2B, line 375 *)
Definition leftt_LH_ab_5 (d : dims) (H : ints) (T L : amps) : mat4 := fun a b i j =>
  leftt_LH_ab_4 d H T L a b i j + sumn (nua d) (fun e => sumn (nub d) (fun f => (i_ab_vvvv H e f a b) * (x_ab L e f i j))).
(** ccpy/left/left_ccsdt.py, build_LH_2B, line 377 *)
Definition leftt_LH_ab_6 (d : dims) (H : ints) (T L : amps) : mat4 := fun a b i j =>
  leftt_LH_ab_5 d H T L a b i j + sumn (nua d) (fun e => sumn (noa d) (fun m => (i_ab_voov H e j m b) * (x_aa L a e i m))).
(** ccpy/left/left_ccsdt.py, build_LH_2B, line 378 *)
Definition leftt_LH_ab_7 (d : dims) (H : ints) (T L : amps) : mat4 := fun a b i j =>
  leftt_LH_ab_6 d H T L a b i j + sumn (nua d) (fun e => sumn (noa d) (fun m => (i_aa_voov H e i m a) * (x_ab L e b m j))).
(** ccpy/left/left_ccsdt.py, build_LH_2B, line 379 *)
Definition leftt_LH_ab_8 (d : dims) (H : ints) (T L : amps) : mat4 := fun a b i j =>
  leftt_LH_ab_7 d H T L a b i j + sumn (nub d) (fun e => sumn (nob d) (fun m => (i_bb_voov H e j m b) * (x_ab L a e i m))).
(** ccpy/left/left_ccsdt.py, build_LH_2B, line 380 *)
Definition leftt_LH_ab_9 (d : dims) (H : ints) (T L : amps) : mat4 := fun a b i j =>
  leftt_LH_ab_8 d H T L a b i j + sumn (nub d) (fun e => sumn (nob d) (fun m => (i_ab_ovvo H i e a m) * (x_bb L e b m j))).
(** ccpy/left/left_ccsdt.py, build_LH_2B, line 381 *)
Definition leftt_LH_ab_10 (d : dims) (H : ints) (T L : amps) : mat4 := fun a b i j =>
  leftt_LH_ab_9 d H T L a b i j - sumn (nub d) (fun e => sumn (noa d) (fun m => (i_ab_ovov H i e m b) * (x_ab L a e m j))).
(** ccpy/left/left_ccsdt.py, build_LH_2B, line 382 *)
Definition leftt_LH_ab_11 (d : dims) (H : ints) (T L : amps) : mat4 := fun a b i j =>
  leftt_LH_ab_10 d H T L a b i j - sumn (nua d) (fun e => sumn (nob d) (fun m => (i_ab_vovo H e j a m) * (x_ab L e b i m))).
(** ccpy/left/left_ccsdt.py, build_LH_2B, lines 384-387 *)
Definition leftt_I1_8 (d : dims) (H : ints) (T L : amps) : mat2 := fun e a =>
  (-1) / 2 * (sumn (nua d) (fun f => sumn (noa d) (fun m => sumn (noa d) (fun n => (x_aa L a f m n) * (x_aa T e f m n))))) - sumn (nub d) (fun f => sumn (noa d) (fun m => sumn (nob d) (fun n => (x_ab L a f m n) * (x_ab T e f m n)))).
(** ccpy/left/left_ccsdt.py, build_LH_2B, line 388 *)
Definition leftt_LH_ab_12 (d : dims) (H : ints) (T L : amps) : mat4 := fun a b i j =>
  leftt_LH_ab_11 d H T L a b i j + sumn (nua d) (fun e => (leftt_I1_8 d H T L e a) * (i_ab_oovv H i j e b)).
(** ccpy/left/left_ccsdt.py, build_LH_2B, lines 390-393 *)
Definition leftt_I1_9 (d : dims) (H : ints) (T L : amps) : mat2 := fun i m =>
  1 / 2 * (sumn (nua d) (fun e => sumn (nua d) (fun f => sumn (noa d) (fun n => (x_aa L e f i n) * (x_aa T e f m n))))) + sumn (nua d) (fun e => sumn (nub d) (fun f => sumn (nob d) (fun n => (x_ab L e f i n) * (x_ab T e f m n)))).
(** ccpy/left/left_ccsdt.py, build_LH_2B, line 394 *)
Definition leftt_LH_ab_13 (d : dims) (H : ints) (T L : amps) : mat4 := fun a b i j =>
  leftt_LH_ab_12 d H T L a b i j - sumn (noa d) (fun m => (leftt_I1_9 d H T L i m) * (i_ab_oovv H m j a b)).
(** ccpy/left/left_ccsdt.py, build_LH_2B, lines 396-399 *)
Definition leftt_I1_10 (d : dims) (H : ints) (T L : amps) : mat2 := fun e a =>
  (-1) / 2 * (sumn (nub d) (fun f => sumn (nob d) (fun m => sumn (nob d) (fun n => (x_bb L a f m n) * (x_bb T e f m n))))) - sumn (nua d) (fun f => sumn (noa d) (fun n => sumn (nob d) (fun m => (x_ab L f a n m) * (x_ab T f e n m)))).
(** ccpy/left/left_ccsdt.py, build_LH_2B, line 400 *)
Definition leftt_LH_ab_14 (d : dims) (H : ints) (T L : amps) : mat4 := fun a b i j =>
  leftt_LH_ab_13 d H T L a b i j + sumn (nub d) (fun e => (leftt_I1_10 d H T L e b) * (i_ab_oovv H i j a e)).
(** ccpy/left/left_ccsdt.py, build_LH_2B, lines 402-405 *)
Definition leftt_I1_11 (d : dims) (H : ints) (T L : amps) : mat2 := fun i m =>
  1 / 2 * (sumn (nub d) (fun e => sumn (nub d) (fun f => sumn (nob d) (fun n => (x_bb L e f i n) * (x_bb T e f m n))))) + sumn (nua d) (fun f => sumn (nub d) (fun e => sumn (noa d) (fun n => (x_ab L f e n i) * (x_ab T f e n m)))).
(** ccpy/left/left_ccsdt.py, build_LH_2B, line 406 *)
Definition leftt_LH_ab_15 (d : dims) (H : ints) (T L : amps) : mat4 := fun a b i j =>
  leftt_LH_ab_14 d H T L a b i j - sumn (nob d) (fun m => (leftt_I1_11 d H T L j m) * (i_ab_oovv H i m a b)).
(** ccpy/left/left_ccsdt.py, build_LH_2B, line 408 *)
Definition leftt_LH_ab_16 (d : dims) (H : ints) (T L : amps) : mat4 := fun a b i j =>
  leftt_LH_ab_15 d H T L a b i j + sumn (nua d) (fun e => (i_a_vv H e a) * (x_ab L e b i j)).
(** ccpy/left/left_ccsdt.py, build_LH_2B, line 409 *)
Definition leftt_LH_ab_17 (d : dims) (H : ints) (T L : amps) : mat4 := fun a b i j =>
  leftt_LH_ab_16 d H T L a b i j + sumn (nub d) (fun e => (i_b_vv H e b) * (x_ab L a e i j)).
(** ccpy/left/left_ccsdt.py, build_LH_2B, line 410 *)
Definition leftt_LH_ab_18 (d : dims) (H : ints) (T L : amps) : mat4 := fun a b i j =>
  leftt_LH_ab_17 d H T L a b i j - sumn (noa d) (fun m => (i_a_oo H i m) * (x_ab L a b m j)).
(** ccpy/left/left_ccsdt.py, build_LH_2B, line 411 *)
Definition leftt_LH_ab_19 (d : dims) (H : ints) (T L : amps) : mat4 := fun a b i j =>
  leftt_LH_ab_18 d H T L a b i j - sumn (nob d) (fun m => (i_b_oo H j m) * (x_ab L a b i m)).
(** ccpy/left/left_ccsdt.py, build_LH_2B, line 412 *)
Definition leftt_LH_ab_20 (d : dims) (H : ints) (T L : amps) : mat4 := fun a b i j =>
  leftt_LH_ab_19 d H T L a b i j + (i_b_ov H j b) * (x_a L a i).
(** ccpy/left/left_ccsdt.py, build_LH_2B, line 413 *)
Definition leftt_LH_ab_21 (d : dims) (H : ints) (T L : amps) : mat4 := fun a b i j =>
  leftt_LH_ab_20 d H T L a b i j + (i_a_ov H i a) * (x_b L b j).
(** ccpy/left/left_ccsdt.py, build_LH_2B, line 416 *)
Definition leftt_LH_ab_22 (d : dims) (H : ints) (T L : amps) : mat4 := fun a b i j =>
  leftt_LH_ab_21 d H T L a b i j - sumn (nua d) (fun e => sumn (nua d) (fun f => (leftt_X_ab_vovv d H T L e j f b) * (i_aa_vovv H f i e a))).
(** ccpy/left/left_ccsdt.py, build_LH_2B, line 417 *)
Definition leftt_LH_ab_23 (d : dims) (H : ints) (T L : amps) : mat4 := fun a b i j =>
  leftt_LH_ab_22 d H T L a b i j - sumn (nub d) (fun e => sumn (nub d) (fun f => (leftt_X_bb_vovv d H T L e j f b) * (i_ab_ovvv H i f a e))).
(** ccpy/left/left_ccsdt.py, build_LH_2B, line 418 *)
Definition leftt_LH_ab_24 (d : dims) (H : ints) (T L : amps) : mat4 := fun a b i j =>
  leftt_LH_ab_23 d H T L a b i j - sumn (nua d) (fun e => sumn (nua d) (fun f => (leftt_X_aa_vovv d H T L e i f a) * (i_ab_vovv H f j e b))).
(** ccpy/left/left_ccsdt.py, build_LH_2B, line 419 *)
Definition leftt_LH_ab_25 (d : dims) (H : ints) (T L : amps) : mat4 := fun a b i j =>
  leftt_LH_ab_24 d H T L a b i j - sumn (nub d) (fun e => sumn (nub d) (fun f => (leftt_X_ab_ovvv d H T L i e a f) * (i_bb_vovv H f j e b))).
(** ccpy/left/left_ccsdt.py, build_LH_2B, line 420 *)
Definition leftt_LH_ab_26 (d : dims) (H : ints) (T L : amps) : mat4 := fun a b i j =>
  leftt_LH_ab_25 d H T L a b i j - sumn (noa d) (fun n => sumn (noa d) (fun m => (leftt_X_ab_ooov d H T L n j m b) * (i_aa_ooov H m i n a))).
(** ccpy/left/left_ccsdt.py, build_LH_2B, line 421 *)
Definition leftt_LH_ab_27 (d : dims) (H : ints) (T L : amps) : mat4 := fun a b i j =>
  leftt_LH_ab_26 d H T L a b i j - sumn (nob d) (fun n => sumn (nob d) (fun m => (leftt_X_bb_ooov d H T L n j m b) * (i_ab_oovo H i m a n))).
(** ccpy/left/left_ccsdt.py, build_LH_2B, line 422 *)
Definition leftt_LH_ab_28 (d : dims) (H : ints) (T L : amps) : mat4 := fun a b i j =>
  leftt_LH_ab_27 d H T L a b i j - sumn (noa d) (fun n => sumn (noa d) (fun m => (leftt_X_aa_ooov d H T L n i m a) * (i_ab_ooov H m j n b))).
(** ccpy/left/left_ccsdt.py, build_LH_2B, line 423 *)
Definition leftt_LH_ab_29 (d : dims) (H : ints) (T L : amps) : mat4 := fun a b i j =>
  leftt_LH_ab_28 d H T L a b i j - sumn (nob d) (fun n => sumn (nob d) (fun m => (leftt_X_ab_oovo d H T L i n a m) * (i_bb_ooov H m j n b))).
(** ccpy/left/left_ccsdt.py, build_LH_2B, line 424 *)
Definition leftt_LH_ab_30 (d : dims) (H : ints) (T L : amps) : mat4 := fun a b i j =>
  leftt_LH_ab_29 d H T L a b i j + sumn (nob d) (fun n => sumn (noa d) (fun m => (leftt_X_ab_ooov d H T L i n m b) * (i_ab_oovo H m j a n))).
(** ccpy/left/left_ccsdt.py, build_LH_2B, line 425 *)
Definition leftt_LH_ab_31 (d : dims) (H : ints) (T L : amps) : mat4 := fun a b i j =>
  leftt_LH_ab_30 d H T L a b i j + sumn (nub d) (fun f => sumn (nua d) (fun e => (leftt_X_ab_ovvv d H T L i f e b) * (i_ab_vovv H e j a f))).
(** ccpy/left/left_ccsdt.py, build_LH_2B, line 426 *)
Definition leftt_LH_ab_32 (d : dims) (H : ints) (T L : amps) : mat4 := fun a b i j =>
  leftt_LH_ab_31 d H T L a b i j + sumn (nua d) (fun e => sumn (nub d) (fun f => (leftt_X_ab_vovv d H T L e j a f) * (i_ab_ovvv H i f e b))).
(** ccpy/left/left_ccsdt.py, build_LH_2B, line 427 *)
Definition leftt_LH_ab_33 (d : dims) (H : ints) (T L : amps) : mat4 := fun a b i j =>
  leftt_LH_ab_32 d H T L a b i j + sumn (noa d) (fun m => sumn (nob d) (fun n => (leftt_X_ab_oovo d H T L m j a n) * (i_ab_ooov H i n m b))).
(** ccpy/left/left_ccsdt.py, build_LH_2B, line 428 *)
Definition leftt_LH_ab_34 (d : dims) (H : ints) (T L : amps) : mat4 := fun a b i j =>
  leftt_LH_ab_33 d H T L a b i j - sumn (nua d) (fun e => sumn (nob d) (fun n => (leftt_X_ab_vovv d H T L e n a b) * (i_ab_oovo H i j e n))).
(** ccpy/left/left_ccsdt.py, build_LH_2B, line 429 *)
Definition leftt_LH_ab_35 (d : dims) (H : ints) (T L : amps) : mat4 := fun a b i j =>
  leftt_LH_ab_34 d H T L a b i j - sumn (noa d) (fun m => sumn (nub d) (fun f => (leftt_X_ab_ovvv d H T L m f a b) * (i_ab_ooov H i j m f))).
(** ccpy/left/left_ccsdt.py, build_LH_2B, line 430 *)
Definition leftt_LH_ab_36 (d : dims) (H : ints) (T L : amps) : mat4 := fun a b i j =>
  leftt_LH_ab_35 d H T L a b i j - sumn (noa d) (fun m => sumn (nub d) (fun f => (leftt_X_ab_ooov d H T L i j m f) * (i_ab_ovvv H m f a b))).
(** ccpy/left/left_ccsdt.py, build_LH_2B, line 431 *)
Definition leftt_LH_ab_37 (d : dims) (H : ints) (T L : amps) : mat4 := fun a b i j =>
  leftt_LH_ab_36 d H T L a b i j - sumn (nua d) (fun e => sumn (nob d) (fun n => (leftt_X_ab_oovo d H T L i j e n) * (i_ab_vovv H e n a b))).
(** ccpy/left/left_ccsdt.py, build_LH_2B, lines 434-437 *)
Definition leftt_LH_ab_38 (d : dims) (H : ints) (T L : amps) : mat4 := fun a b i j =>
  leftt_LH_ab_37 d H T L a b i j + (sumn (nua d) (fun e => sumn (noa d) (fun m => (leftt_X_ab_voov d H T L e j m b) * (i_aa_oovv H m i e a))) + sumn (nub d) (fun e => sumn (nob d) (fun m => (leftt_X_bb_voov d H T L e j m b) * (i_ab_oovv H i m a e)))).
(** ccpy/left/left_ccsdt.py, build_LH_2B, lines 438-441 *)
Definition leftt_LH_ab_39 (d : dims) (H : ints) (T L : amps) : mat4 := fun a b i j =>
  leftt_LH_ab_38 d H T L a b i j + (sumn (nua d) (fun e => sumn (noa d) (fun m => (leftt_X_aa_voov d H T L e i m a) * (i_ab_oovv H m j e b))) + sumn (nub d) (fun e => sumn (nob d) (fun m => (leftt_X_ab_ovvo d H T L i e a m) * (i_bb_oovv H m j e b)))).
(** ccpy/left/left_ccsdt.py, build_LH_2B, line 442 *)
Definition leftt_LH_ab_40 (d : dims) (H : ints) (T L : amps) : mat4 := fun a b i j =>
  leftt_LH_ab_39 d H T L a b i j - sumn (nub d) (fun e => sumn (noa d) (fun m => (leftt_X_ab_ovov d H T L i e m b) * (i_ab_oovv H m j a e))).
(** ccpy/left/left_ccsdt.py, build_LH_2B, line 443 *)
Definition leftt_LH_ab_41 (d : dims) (H : ints) (T L : amps) : mat4 := fun a b i j =>
  leftt_LH_ab_40 d H T L a b i j - sumn (nua d) (fun e => sumn (nob d) (fun m => (leftt_X_ab_vovo d H T L e j a m) * (i_ab_oovv H i m e b))).
(** ccpy/left/left_ccsdt.py, build_LH_2B, line 444 *)
Definition leftt_LH_ab_42 (d : dims) (H : ints) (T L : amps) : mat4 := fun a b i j =>
  leftt_LH_ab_41 d H T L a b i j + sumn (nua d) (fun e => sumn (nub d) (fun f => (leftt_X_ab_vvvv d H T L e f a b) * (i_ab_oovv H i j e f))).
(** ccpy/left/left_ccsdt.py, build_LH_2B, line 445 *)
Definition leftt_LH_ab_43 (d : dims) (H : ints) (T L : amps) : mat4 := fun a b i j =>
  leftt_LH_ab_42 d H T L a b i j + sumn (noa d) (fun m => sumn (nob d) (fun n => (leftt_X_ab_oooo d H T L i j m n) * (i_ab_oovv H m n a b))).
(** ccpy/left/left_ccsdt.py, build_LH_2B, line 448 *)
Definition leftt_LH_ab_44 (d : dims) (H : ints) (T L : amps) : mat4 := fun a b i j =>
  leftt_LH_ab_43 d H T L a b i j + sumn (nua d) (fun e => (leftt_X_a_vv d H T L e a) * (i_ab_oovv H i j e b)).
(** ccpy/left/left_ccsdt.py, build_LH_2B, line 449 *)
Definition leftt_LH_ab_45 (d : dims) (H : ints) (T L : amps) : mat4 := fun a b i j =>
  leftt_LH_ab_44 d H T L a b i j + sumn (nub d) (fun e => (leftt_X_b_vv d H T L e b) * (i_ab_oovv H i j a e)).
(** ccpy/left/left_ccsdt.py, build_LH_2B, line 450 *)
Definition leftt_LH_ab_46 (d : dims) (H : ints) (T L : amps) : mat4 := fun a b i j =>
  leftt_LH_ab_45 d H T L a b i j - sumn (noa d) (fun m => (leftt_X_a_oo d H T L i m) * (i_ab_oovv H m j a b)).
(** ccpy/left/left_ccsdt.py, build_LH_2B, line 451 *)
Definition leftt_LH_ab_47 (d : dims) (H : ints) (T L : amps) : mat4 := fun a b i j =>
  leftt_LH_ab_46 d H T L a b i j - sumn (nob d) (fun m => (leftt_X_b_oo d H T L j m) * (i_ab_oovv H i m a b)).
(** ccpy/left/left_ccsdt.py, build_LH_2B, line 454 *)
Definition leftt_LH_ab_48 (d : dims) (H : ints) (T L : amps) : mat4 := fun a b i j =>
  leftt_LH_ab_47 d H T L a b i j - 1 / 2 * (sumn (nua d) (fun f => sumn (noa d) (fun m => sumn (noa d) (fun n => (x_aab L a f b m n j) * (i_aa_vooo H f i n m))))).
(** ccpy/left/left_ccsdt.py, build_LH_2B, line 455 *)
Definition leftt_LH_ab_49 (d : dims) (H : ints) (T L : amps) : mat4 := fun a b i j =>
  leftt_LH_ab_48 d H T L a b i j - sumn (nub d) (fun f => sumn (noa d) (fun m => sumn (nob d) (fun n => (x_abb L a f b m n j) * (i_ab_ovoo H i f m n)))).
(** ccpy/left/left_ccsdt.py, build_LH_2B, line 456 *)
Definition leftt_LH_ab_50 (d : dims) (H : ints) (T L : amps) : mat4 := fun a b i j =>
  leftt_LH_ab_49 d H T L a b i j - sumn (nua d) (fun f => sumn (noa d) (fun n => sumn (nob d) (fun m => (x_aab L a f b i n m) * (i_ab_vooo H f j n m)))).
(** ccpy/left/left_ccsdt.py, build_LH_2B, line 457 *)
Definition leftt_LH_ab_51 (d : dims) (H : ints) (T L : amps) : mat4 := fun a b i j =>
  leftt_LH_ab_50 d H T L a b i j - 1 / 2 * (sumn (nub d) (fun f => sumn (nob d) (fun n => sumn (nob d) (fun m => (x_abb L a f b i n m) * (i_bb_vooo H f j n m))))).
(** ccpy/left/left_ccsdt.py, build_LH_2B, line 459 *)
Definition leftt_LH_ab_52 (d : dims) (H : ints) (T L : amps) : mat4 := fun a b i j =>
  leftt_LH_ab_51 d H T L a b i j + 1 / 2 * (sumn (nua d) (fun e => sumn (nua d) (fun f => sumn (noa d) (fun n => (x_aab L e f b i n j) * (i_aa_vvov H f e n a))))).
(** ccpy/left/left_ccsdt.py, build_LH_2B, line 460 *)
Definition leftt_LH_ab_53 (d : dims) (H : ints) (T L : amps) : mat4 := fun a b i j =>
  leftt_LH_ab_52 d H T L a b i j + sumn (nua d) (fun e => sumn (nub d) (fun f => sumn (nob d) (fun n => (x_abb L e f b i n j) * (i_ab_vvvo H e f a n)))).
(** ccpy/left/left_ccsdt.py, build_LH_2B, line 461 *)
Definition leftt_LH_ab_54 (d : dims) (H : ints) (T L : amps) : mat4 := fun a b i j =>
  leftt_LH_ab_53 d H T L a b i j + sumn (nua d) (fun f => sumn (nub d) (fun e => sumn (noa d) (fun n => (x_aab L a f e i n j) * (i_ab_vvov H f e n b)))).
(** ccpy/left/left_ccsdt.py, build_LH_2B, line 462 *)
Definition leftt_LH_ab_55 (d : dims) (H : ints) (T L : amps) : mat4 := fun a b i j =>
  leftt_LH_ab_54 d H T L a b i j + 1 / 2 * (sumn (nub d) (fun f => sumn (nub d) (fun e => sumn (nob d) (fun n => (x_abb L a f e i n j) * (i_bb_vvov H f e n b))))).
(** ccpy/left/left_ccsdt.py, build_LH_2C, line 468 *)
Definition leftt_LH_bb (d : dims) (H : ints) (T L : amps) : mat4 := fun a b i j =>
  1 / 2 * (sumn (nub d) (fun e => (i_b_vv H e a) * (x_bb L e b i j))).
(** ccpy/left/left_ccsdt.py, build_LH_2C, line 469 *)
Definition leftt_LH_bb_1 (d : dims) (H : ints) (T L : amps) : mat4 := fun a b i j =>
  leftt_LH_bb d H T L a b i j - 1 / 2 * (sumn (nob d) (fun m => (i_b_oo H i m) * (x_bb L a b m j))).
(** ccpy/left/left_ccsdt.py, build_LH_2C, line 471 *)
Definition leftt_LH_bb_2 (d : dims) (H : ints) (T L : amps) : mat4 := fun a b i j =>
  leftt_LH_bb_1 d H T L a b i j + (i_b_ov H j b) * (x_b L a i).
(** ccpy/left/left_ccsdt.py, build_LH_2C, lines 473-476 *)
Definition leftt_I1_12 (d : dims) (H : ints) (T L : amps) : mat2 := fun e a =>
  (-1) / 2 * (sumn (nub d) (fun f => sumn (nob d) (fun m => sumn (nob d) (fun n => (x_bb L a f m n) * (x_bb T e f m n))))) - sumn (nua d) (fun f => sumn (noa d) (fun n => sumn (nob d) (fun m => (x_ab L f a n m) * (x_ab T f e n m)))).
(** ccpy/left/left_ccsdt.py, build_LH_2C, line 477 *)
Definition leftt_LH_bb_3 (d : dims) (H : ints) (T L : amps) : mat4 := fun a b i j =>
  leftt_LH_bb_2 d H T L a b i j + 1 / 2 * (sumn (nub d) (fun e => (leftt_I1_12 d H T L e a) * (i_bb_oovv H i j e b))).
(** ccpy/left/left_ccsdt.py, build_LH_2C, lines 479-482 *)
Definition leftt_I1_13 (d : dims) (H : ints) (T L : amps) : mat2 := fun i m =>
  1 / 2 * (sumn (nub d) (fun e => sumn (nub d) (fun f => sumn (nob d) (fun n => (x_bb L e f i n) * (x_bb T e f m n))))) + sumn (nua d) (fun f => sumn (nub d) (fun e => sumn (noa d) (fun n => (x_ab L f e n i) * (x_ab T f e n m)))).
(** ccpy/left/left_ccsdt.py, build_LH_2C, line 483 *)
Definition leftt_LH_bb_4 (d : dims) (H : ints) (T L : amps) : mat4 := fun a b i j =>
  leftt_LH_bb_3 d H T L a b i j - 1 / 2 * (sumn (nob d) (fun m => (leftt_I1_13 d H T L i m) * (i_bb_oovv H m j a b))).
(** ccpy/left/left_ccsdt.py, build_LH_2C, line 485 *)
Definition leftt_LH_bb_5 (d : dims) (H : ints) (T L : amps) : mat4 := fun a b i j =>
  leftt_LH_bb_4 d H T L a b i j + sumn (nub d) (fun e => sumn (nob d) (fun m => (i_bb_voov H e i m a) * (x_bb L e b m j))).
(** ccpy/left/left_ccsdt.py, build_LH_2C, line 486 *)
Definition leftt_LH_bb_6 (d : dims) (H : ints) (T L : amps) : mat4 := fun a b i j =>
  leftt_LH_bb_5 d H T L a b i j + sumn (nua d) (fun e => sumn (noa d) (fun m => (i_ab_voov H e i m a) * (x_ab L e b m j))).
(** ccpy/left/left_ccsdt.py, build_LH_2C, line 488 *)
Definition leftt_LH_bb_7 (d : dims) (H : ints) (T L : amps) : mat4 := fun a b i j =>
  leftt_LH_bb_6 d H T L a b i j + 1 / 8 * (sumn (nob d) (fun m => sumn (nob d) (fun n => (i_bb_oooo H i j m n) * (x_bb L a b m n)))).
(** ccpy/left/left_ccsdt.py, build_LH_2C, line 489 *)
Definition leftt_LH_bb_8 (d : dims) (H : ints) (T L : amps) : mat4 := fun a b i j =>
  leftt_LH_bb_7 d H T L a b i j + 1 / 8 * (sumn (nub d) (fun e => sumn (nub d) (fun f => (i_bb_vvvv H e f a b) * (x_bb L e f i j)))).
(** ccpy/left/left_ccsdt.py, build_LH_2C, line 491 *)
Definition leftt_LH_bb_9 (d : dims) (H : ints) (T L : amps) : mat4 := fun a b i j =>
  leftt_LH_bb_8 d H T L a b i j + 1 / 2 * (sumn (nub d) (fun e => (i_bb_vovv H e j a b) * (x_b L e i))).
(** ccpy/left/left_ccsdt.py, build_LH_2C, line 492 *)
Definition leftt_LH_bb_10 (d : dims) (H : ints) (T L : amps) : mat4 := fun a b i j =>
  leftt_LH_bb_9 d H T L a b i j - 1 / 2 * (sumn (nob d) (fun m => (i_bb_ooov H i j m b) * (x_b L a m))).
(** ccpy/left/left_ccsdt.py, build_LH_2C, line 495 *)
Definition leftt_LH_bb_11 (d : dims) (H : ints) (T L : amps) : mat4 := fun a b i j =>
  leftt_LH_bb_10 d H T L a b i j - sumn (nub d) (fun e => sumn (nub d) (fun f => (leftt_X_bb_vovv d H T L e j f b) * (i_bb_vovv H f i e a))).
(** ccpy/left/left_ccsdt.py, build_LH_2C, line 496 *)
Definition leftt_LH_bb_12 (d : dims) (H : ints) (T L : amps) : mat4 := fun a b i j =>
  leftt_LH_bb_11 d H T L a b i j - sumn (nob d) (fun n => sumn (nob d) (fun m => (leftt_X_bb_ooov d H T L n j m b) * (i_bb_ooov H m i n a))).
(** ccpy/left/left_ccsdt.py, build_LH_2C, line 497 *)
Definition leftt_LH_bb_13 (d : dims) (H : ints) (T L : amps) : mat4 := fun a b i j =>
  leftt_LH_bb_12 d H T L a b i j - 1 / 4 * (sumn (nub d) (fun e => sumn (nob d) (fun n => (leftt_X_bb_vovv d H T L e n a b) * (i_bb_ooov H j i n e)))).
(** ccpy/left/left_ccsdt.py, build_LH_2C, line 498 *)
Definition leftt_LH_bb_14 (d : dims) (H : ints) (T L : amps) : mat4 := fun a b i j =>
  leftt_LH_bb_13 d H T L a b i j - 1 / 4 * (sumn (nob d) (fun n => sumn (nub d) (fun e => (leftt_X_bb_ooov d H T L j i n e) * (i_bb_vovv H e n a b)))).
(** ccpy/left/left_ccsdt.py, build_LH_2C, line 499 *)
Definition leftt_LH_bb_15 (d : dims) (H : ints) (T L : amps) : mat4 := fun a b i j =>
  leftt_LH_bb_14 d H T L a b i j - sumn (nua d) (fun e => sumn (nua d) (fun f => (leftt_X_ab_vovv d H T L e j f b) * (i_ab_vovv H f i e a))).
(** ccpy/left/left_ccsdt.py, build_LH_2C, line 500 *)
Definition leftt_LH_bb_16 (d : dims) (H : ints) (T L : amps) : mat4 := fun a b i j =>
  leftt_LH_bb_15 d H T L a b i j - sumn (noa d) (fun n => sumn (noa d) (fun m => (leftt_X_ab_ooov d H T L n j m b) * (i_ab_ooov H m i n a))).
(** ccpy/left/left_ccsdt.py, build_LH_2C, line 503 *)
Definition leftt_LH_bb_17 (d : dims) (H : ints) (T L : amps) : mat4 := fun a b i j =>
  leftt_LH_bb_16 d H T L a b i j + sumn (nub d) (fun e => sumn (nob d) (fun m => (leftt_X_bb_voov d H T L e j m b) * (i_bb_oovv H i m a e))).
(** ccpy/left/left_ccsdt.py, build_LH_2C, line 504 *)
Definition leftt_LH_bb_18 (d : dims) (H : ints) (T L : amps) : mat4 := fun a b i j =>
  leftt_LH_bb_17 d H T L a b i j + sumn (nua d) (fun e => sumn (noa d) (fun m => (leftt_X_ab_voov d H T L e j m b) * (i_ab_oovv H m i e a))).
(** ccpy/left/left_ccsdt.py, build_LH_2C, line 505 *)
Definition leftt_LH_bb_19 (d : dims) (H : ints) (T L : amps) : mat4 := fun a b i j =>
  leftt_LH_bb_18 d H T L a b i j + 1 / 8 * (sumn (nub d) (fun e => sumn (nub d) (fun f => (leftt_X_bb_vvvv d H T L e f a b) * (i_bb_oovv H i j e f)))).
(** ccpy/left/left_ccsdt.py, build_LH_2C, line 506 *)
Definition leftt_LH_bb_20 (d : dims) (H : ints) (T L : amps) : mat4 := fun a b i j =>
  leftt_LH_bb_19 d H T L a b i j + 1 / 8 * (sumn (nob d) (fun m => sumn (nob d) (fun n => (leftt_X_bb_oooo d H T L i j m n) * (i_bb_oovv H m n a b)))).
(** ccpy/left/left_ccsdt.py, build_LH_2C, line 509 *)
Definition leftt_LH_bb_21 (d : dims) (H : ints) (T L : amps) : mat4 := fun a b i j =>
  leftt_LH_bb_20 d H T L a b i j + 1 / 2 * (sumn (nub d) (fun e => (leftt_X_b_vv d H T L e a) * (i_bb_oovv H i j e b))).
(** ccpy/left/left_ccsdt.py, build_LH_2C, line 510 *)
Definition leftt_LH_bb_22 (d : dims) (H : ints) (T L : amps) : mat4 := fun a b i j =>
  leftt_LH_bb_21 d H T L a b i j - 1 / 2 * (sumn (nob d) (fun m => (leftt_X_b_oo d H T L i m) * (i_bb_oovv H j m b a))).
(** ccpy/left/left_ccsdt.py, build_LH_2C, line 513 *)
Definition leftt_LH_bb_23 (d : dims) (H : ints) (T L : amps) : mat4 := fun a b i j =>
  leftt_LH_bb_22 d H T L a b i j + 1 / 4 * (sumn (nub d) (fun e => sumn (nub d) (fun f => sumn (nob d) (fun n => (x_bbb L e b f i j n) * (i_bb_vvov H f e n a))))).
(** ccpy/left/left_ccsdt.py, build_LH_2C, line 514 *)
Definition leftt_LH_bb_24 (d : dims) (H : ints) (T L : amps) : mat4 := fun a b i j =>
  leftt_LH_bb_23 d H T L a b i j + 1 / 2 * (sumn (nua d) (fun f => sumn (nub d) (fun e => sumn (noa d) (fun n => (x_abb L f b e n j i) * (i_ab_vvov H f e n a))))).
(** ccpy/left/left_ccsdt.py, build_LH_2C, line 515 *)
Definition leftt_LH_bb_25 (d : dims) (H : ints) (T L : amps) : mat4 := fun a b i j =>
  leftt_LH_bb_24 d H T L a b i j - 1 / 4 * (sumn (nub d) (fun f => sumn (nob d) (fun m => sumn (nob d) (fun n => (x_bbb L a b f m j n) * (i_bb_vooo H f i n m))))).
(** ccpy/left/left_ccsdt.py, build_LH_2C, line 516 *)
Definition leftt_LH_bb_26 (d : dims) (H : ints) (T L : amps) : mat4 := fun a b i j =>
  leftt_LH_bb_25 d H T L a b i j - 1 / 2 * (sumn (nua d) (fun f => sumn (noa d) (fun n => sumn (nob d) (fun m => (x_abb L f b a n j m) * (i_ab_vooo H f i n m))))).
(** ccpy/left/left_ccsdt.py, build_LH_2C, line 518 *)
Definition leftt_LH_bb_27 (d : dims) (H : ints) (T L : amps) : mat4 := fun a b i j =>
  leftt_LH_bb_26 d H T L a b i j - (leftt_LH_bb_26 d H T L b a i j + leftt_LH_bb_26 d H T L a b j i - leftt_LH_bb_26 d H T L b a j i).
(** ccpy/left/left_ccsdt.py, build_LH_3A, line 525 *)
Definition leftt_LH_aaa (d : dims) (H : ints) (T L : amps) : mat6 := fun a b c i j k =>
  1 / 4 * ((x_a L a i) * (i_aa_oovv H j k b c)).
(** ccpy/left/left_ccsdt.py, build_LH_3A, line 528 *)
Definition leftt_LH_aaa_1 (d : dims) (H : ints) (T L : amps) : mat6 := fun a b c i j k =>
  leftt_LH_aaa d H T L a b c i j k + 1 / 4 * ((x_aa L b c j k) * (i_a_ov H i a)).
(** ccpy/left/left_ccsdt.py, build_LH_3A, line 530 *)
Definition leftt_LH_aaa_2 (d : dims) (H : ints) (T L : amps) : mat6 := fun a b c i j k =>
  leftt_LH_aaa_1 d H T L a b c i j k + 1 / 4 * (sumn (nua d) (fun e => (x_aa L e b i j) * (i_aa_vovv H e k a c))).
(** ccpy/left/left_ccsdt.py, build_LH_3A, line 531 *)
Definition leftt_LH_aaa_3 (d : dims) (H : ints) (T L : amps) : mat6 := fun a b c i j k =>
  leftt_LH_aaa_2 d H T L a b c i j k - 1 / 4 * (sumn (noa d) (fun m => (x_aa L a b m j) * (i_aa_ooov H i k m c))).
(** ccpy/left/left_ccsdt.py, build_LH_3A, line 534 *)
Definition leftt_LH_aaa_4 (d : dims) (H : ints) (T L : amps) : mat6 := fun a b c i j k =>
  leftt_LH_aaa_3 d H T L a b c i j k + 1 / 12 * (sumn (nua d) (fun e => (i_a_vv H e a) * (x_aaa L e b c i j k))).
(** ccpy/left/left_ccsdt.py, build_LH_3A, line 535 *)
Definition leftt_LH_aaa_5 (d : dims) (H : ints) (T L : amps) : mat6 := fun a b c i j k =>
  leftt_LH_aaa_4 d H T L a b c i j k - 1 / 12 * (sumn (noa d) (fun m => (i_a_oo H i m) * (x_aaa L a b c m j k))).
(** ccpy/left/left_ccsdt.py, build_LH_3A, line 536 *)
Definition leftt_LH_aaa_6 (d : dims) (H : ints) (T L : amps) : mat6 := fun a b c i j k =>
  leftt_LH_aaa_5 d H T L a b c i j k + 1 / 4 * (sumn (nua d) (fun e => sumn (noa d) (fun m => (i_aa_voov H e i m a) * (x_aaa L e b c m j k)))).
(** ccpy/left/left_ccsdt.py, build_LH_3A, line 537 *)
Definition leftt_LH_aaa_7 (d : dims) (H : ints) (T L : amps) : mat6 := fun a b c i j k =>
  leftt_LH_aaa_6 d H T L a b c i j k + 1 / 4 * (sumn (nub d) (fun e => sumn (nob d) (fun m => (i_ab_ovvo H i e a m) * (x_aab L b c e j k m)))).
(** ccpy/left/left_ccsdt.py, build_LH_3A, line 538 *)
Definition leftt_LH_aaa_8 (d : dims) (H : ints) (T L : amps) : mat6 := fun a b c i j k =>
  leftt_LH_aaa_7 d H T L a b c i j k + 1 / 24 * (sumn (noa d) (fun m => sumn (noa d) (fun n => (i_aa_oooo H i j m n) * (x_aaa L a b c m n k)))).
(** ccpy/left/left_ccsdt.py, build_LH_3A, line 539 *)
Definition leftt_LH_aaa_9 (d : dims) (H : ints) (T L : amps) : mat6 := fun a b c i j k =>
  leftt_LH_aaa_8 d H T L a b c i j k + 1 / 24 * (sumn (nua d) (fun e => sumn (nua d) (fun f => (i_aa_vvvv H e f a b) * (x_aaa L e f c i j k)))).
(** ccpy/left/left_ccsdt.py, build_LH_3A, line 541 *)
Definition leftt_LH_aaa_10 (d : dims) (H : ints) (T L : amps) : mat6 := fun a b c i j k =>
  leftt_LH_aaa_9 d H T L a b c i j k + 1 / 4 * (sumn (nua d) (fun e => (i_aa_oovv H i j e b) * (leftt_X_aa_vovv d H T L e k a c))).
(** ccpy/left/left_ccsdt.py, build_LH_3A, line 542 *)
Definition leftt_LH_aaa_11 (d : dims) (H : ints) (T L : amps) : mat6 := fun a b c i j k =>
  leftt_LH_aaa_10 d H T L a b c i j k - 1 / 4 * (sumn (noa d) (fun m => (i_aa_oovv H m j a b) * (leftt_X_aa_ooov d H T L i k m c))).
(** ccpy/left/left_ccsdt.py, build_LH_3A, line 544 *)
Definition leftt_LH_aaa_12 (d : dims) (H : ints) (T L : amps) : mat6 := fun a b c i j k =>
  leftt_LH_aaa_11 d H T L a b c i j k - leftt_LH_aaa_11 d H T L a b c i k j.
(** ccpy/left/left_ccsdt.py, build_LH_3A, line 545 *)
Definition leftt_LH_aaa_13 (d : dims) (H : ints) (T L : amps) : mat6 := fun a b c i j k =>
  leftt_LH_aaa_12 d H T L a b c i j k - (leftt_LH_aaa_12 d H T L a b c j i k + leftt_LH_aaa_12 d H T L a b c k j i).
(** ccpy/left/left_ccsdt.py, build_LH_3A, line 546 *)
Definition leftt_LH_aaa_14 (d : dims) (H : ints) (T L : amps) : mat6 := fun a b c i j k =>
  leftt_LH_aaa_13 d H T L a b c i j k - leftt_LH_aaa_13 d H T L a c b i j k.
(** ccpy/left/left_ccsdt.py, build_LH_3A, line 547 *)
Definition leftt_LH_aaa_15 (d : dims) (H : ints) (T L : amps) : mat6 := fun a b c i j k =>
  leftt_LH_aaa_14 d H T L a b c i j k - (leftt_LH_aaa_14 d H T L c b a i j k + leftt_LH_aaa_14 d H T L b a c i j k).
(** ccpy/left/left_ccsdt.py, build_LH_3B, line 554 *)
Definition leftt_LH_aab (d : dims) (H : ints) (T L : amps) : mat6 := fun a b c i j k =>
  (x_a L a i) * (i_ab_oovv H j k b c).
(** ccpy/left/left_ccsdt.py, build_LH_3B, line 555 *)
Definition leftt_LH_aab_1 (d : dims) (H : ints) (T L : amps) : mat6 := fun a b c i j k =>
  leftt_LH_aab d H T L a b c i j k + 1 / 4 * ((x_b L c k) * (i_aa_oovv H i j a b)).
(** ccpy/left/left_ccsdt.py, build_LH_3B, line 559 *)
Definition leftt_LH_aab_2 (d : dims) (H : ints) (T L : amps) : mat6 := fun a b c i j k =>
  leftt_LH_aab_1 d H T L a b c i j k + (x_ab L b c j k) * (i_a_ov H i a).
(** ccpy/left/left_ccsdt.py, build_LH_3B, line 560 *)
Definition leftt_LH_aab_3 (d : dims) (H : ints) (T L : amps) : mat6 := fun a b c i j k =>
  leftt_LH_aab_2 d H T L a b c i j k + 1 / 4 * ((x_aa L a b i j) * (i_b_ov H k c)).
(** ccpy/left/left_ccsdt.py, build_LH_3B, line 562 *)
Definition leftt_LH_aab_4 (d : dims) (H : ints) (T L : amps) : mat6 := fun a b c i j k =>
  leftt_LH_aab_3 d H T L a b c i j k + 1 / 2 * (sumn (nua d) (fun e => (i_ab_vovv H e k b c) * (x_aa L a e i j))).
(** ccpy/left/left_ccsdt.py, build_LH_3B, line 563 *)
Definition leftt_LH_aab_5 (d : dims) (H : ints) (T L : amps) : mat6 := fun a b c i j k =>
  leftt_LH_aab_4 d H T L a b c i j k - 1 / 2 * (sumn (noa d) (fun m => (i_ab_ooov H j k m c) * (x_aa L a b i m))).
(** ccpy/left/left_ccsdt.py, build_LH_3B, line 564 *)
Definition leftt_LH_aab_6 (d : dims) (H : ints) (T L : amps) : mat6 := fun a b c i j k =>
  leftt_LH_aab_5 d H T L a b c i j k + sumn (nub d) (fun e => (i_ab_ovvv H i e a c) * (x_ab L b e j k)).
(** ccpy/left/left_ccsdt.py, build_LH_3B, line 565 *)
Definition leftt_LH_aab_7 (d : dims) (H : ints) (T L : amps) : mat6 := fun a b c i j k =>
  leftt_LH_aab_6 d H T L a b c i j k - sumn (nob d) (fun m => (i_ab_oovo H i k a m) * (x_ab L b c j m)).
(** ccpy/left/left_ccsdt.py, build_LH_3B, line 566 *)
Definition leftt_LH_aab_8 (d : dims) (H : ints) (T L : amps) : mat6 := fun a b c i j k =>
  leftt_LH_aab_7 d H T L a b c i j k + 1 / 2 * (sumn (nua d) (fun e => (i_aa_vovv H e i b a) * (x_ab L e c j k))).
(** ccpy/left/left_ccsdt.py, build_LH_3B, line 567 *)
Definition leftt_LH_aab_9 (d : dims) (H : ints) (T L : amps) : mat6 := fun a b c i j k =>
  leftt_LH_aab_8 d H T L a b c i j k - 1 / 2 * (sumn (noa d) (fun m => (i_aa_ooov H j i m a) * (x_ab L b c m k))).
(** ccpy/left/left_ccsdt.py, build_LH_3B, line 569 *)
Definition leftt_LH_aab_10 (d : dims) (H : ints) (T L : amps) : mat6 := fun a b c i j k =>
  leftt_LH_aab_9 d H T L a b c i j k + 1 / 2 * (sumn (nua d) (fun e => (leftt_X_ab_vovv d H T L e k b c) * (i_aa_oovv H i j a e))).
(** ccpy/left/left_ccsdt.py, build_LH_3B, line 570 *)
Definition leftt_LH_aab_11 (d : dims) (H : ints) (T L : amps) : mat6 := fun a b c i j k =>
  leftt_LH_aab_10 d H T L a b c i j k - 1 / 2 * (sumn (noa d) (fun m => (leftt_X_ab_ooov d H T L j k m c) * (i_aa_oovv H i m a b))).
(** ccpy/left/left_ccsdt.py, build_LH_3B, line 571 *)
Definition leftt_LH_aab_12 (d : dims) (H : ints) (T L : amps) : mat6 := fun a b c i j k =>
  leftt_LH_aab_11 d H T L a b c i j k + sumn (nub d) (fun e => (leftt_X_ab_ovvv d H T L i e a c) * (i_ab_oovv H j k b e)).
(** ccpy/left/left_ccsdt.py, build_LH_3B, line 572 *)
Definition leftt_LH_aab_13 (d : dims) (H : ints) (T L : amps) : mat6 := fun a b c i j k =>
  leftt_LH_aab_12 d H T L a b c i j k - sumn (nob d) (fun m => (leftt_X_ab_oovo d H T L i k a m) * (i_ab_oovv H j m b c)).
(** ccpy/left/left_ccsdt.py, build_LH_3B, line 573 *)
Definition leftt_LH_aab_14 (d : dims) (H : ints) (T L : amps) : mat6 := fun a b c i j k =>
  leftt_LH_aab_13 d H T L a b c i j k + 1 / 2 * (sumn (nua d) (fun e => (leftt_X_aa_vovv d H T L e i b a) * (i_ab_oovv H j k e c))).
(** ccpy/left/left_ccsdt.py, build_LH_3B, line 574 *)
Definition leftt_LH_aab_15 (d : dims) (H : ints) (T L : amps) : mat6 := fun a b c i j k =>
  leftt_LH_aab_14 d H T L a b c i j k - 1 / 2 * (sumn (noa d) (fun m => (leftt_X_aa_ooov d H T L j i m a) * (i_ab_oovv H m k b c))).
(** ccpy/left/left_ccsdt.py, build_LH_3B, line 577 *)
Definition leftt_LH_aab_16 (d : dims) (H : ints) (T L : amps) : mat6 := fun a b c i j k =>
  leftt_LH_aab_15 d H T L a b c i j k - 1 / 2 * (sumn (noa d) (fun m => (i_a_oo H i m) * (x_aab L a b c m j k))).
(** ccpy/left/left_ccsdt.py, build_LH_3B, line 578 *)
Definition leftt_LH_aab_17 (d : dims) (H : ints) (T L : amps) : mat6 := fun a b c i j k =>
  leftt_LH_aab_16 d H T L a b c i j k - 1 / 4 * (sumn (nob d) (fun m => (i_b_oo H k m) * (x_aab L a b c i j m))).
(** ccpy/left/left_ccsdt.py, build_LH_3B, line 579 *)
Definition leftt_LH_aab_18 (d : dims) (H : ints) (T L : amps) : mat6 := fun a b c i j k =>
  leftt_LH_aab_17 d H T L a b c i j k + 1 / 2 * (sumn (nua d) (fun e => (i_a_vv H e a) * (x_aab L e b c i j k))).
(** ccpy/left/left_ccsdt.py, build_LH_3B, line 580 *)
Definition leftt_LH_aab_19 (d : dims) (H : ints) (T L : amps) : mat6 := fun a b c i j k =>
  leftt_LH_aab_18 d H T L a b c i j k + 1 / 4 * (sumn (nub d) (fun e => (i_b_vv H e c) * (x_aab L a b e i j k))).
(** ccpy/left/left_ccsdt.py, build_LH_3B, line 581 *)
Definition leftt_LH_aab_20 (d : dims) (H : ints) (T L : amps) : mat6 := fun a b c i j k =>
  leftt_LH_aab_19 d H T L a b c i j k + 1 / 8 * (sumn (noa d) (fun m => sumn (noa d) (fun n => (i_aa_oooo H i j m n) * (x_aab L a b c m n k)))).
(** ccpy/left/left_ccsdt.py, build_LH_3B, line 582 *)
Definition leftt_LH_aab_21 (d : dims) (H : ints) (T L : amps) : mat6 := fun a b c i j k =>
  leftt_LH_aab_20 d H T L a b c i j k + 1 / 2 * (sumn (noa d) (fun m => sumn (nob d) (fun n => (i_ab_oooo H j k m n) * (x_aab L a b c i m n)))).
(** ccpy/left/left_ccsdt.py, build_LH_3B, line 583 *)
Definition leftt_LH_aab_22 (d : dims) (H : ints) (T L : amps) : mat6 := fun a b c i j k =>
  leftt_LH_aab_21 d H T L a b c i j k + 1 / 8 * (sumn (nua d) (fun e => sumn (nua d) (fun f => (i_aa_vvvv H e f a b) * (x_aab L e f c i j k)))).
(** ccpy/left/left_ccsdt.py, build_LH_3B, line 584 *)
Definition leftt_LH_aab_23 (d : dims) (H : ints) (T L : amps) : mat6 := fun a b c i j k =>
  leftt_LH_aab_22 d H T L a b c i j k + 1 / 2 * (sumn (nua d) (fun e => sumn (nub d) (fun f => (i_ab_vvvv H e f b c) * (x_aab L a e f i j k)))).
(** ccpy/left/left_ccsdt.py, build_LH_3B, line 585 *)
Definition leftt_LH_aab_24 (d : dims) (H : ints) (T L : amps) : mat6 := fun a b c i j k =>
  leftt_LH_aab_23 d H T L a b c i j k + sumn (nua d) (fun e => sumn (noa d) (fun m => (i_aa_voov H e i m a) * (x_aab L e b c m j k))).
(** ccpy/left/left_ccsdt.py, build_LH_3B, line 586 *)
Definition leftt_LH_aab_25 (d : dims) (H : ints) (T L : amps) : mat6 := fun a b c i j k =>
  leftt_LH_aab_24 d H T L a b c i j k + sumn (nub d) (fun e => sumn (nob d) (fun m => (i_ab_ovvo H i e a m) * (x_abb L b e c j m k))).
(** ccpy/left/left_ccsdt.py, build_LH_3B, line 587 *)
Definition leftt_LH_aab_26 (d : dims) (H : ints) (T L : amps) : mat6 := fun a b c i j k =>
  leftt_LH_aab_25 d H T L a b c i j k + 1 / 4 * (sumn (nua d) (fun e => sumn (noa d) (fun m => (i_ab_voov H e k m c) * (x_aaa L a b e i j m)))).
(** ccpy/left/left_ccsdt.py, build_LH_3B, line 588 *)
Definition leftt_LH_aab_27 (d : dims) (H : ints) (T L : amps) : mat6 := fun a b c i j k =>
  leftt_LH_aab_26 d H T L a b c i j k + 1 / 4 * (sumn (nub d) (fun e => sumn (nob d) (fun m => (i_bb_voov H e k m c) * (x_aab L a b e i j m)))).
(** ccpy/left/left_ccsdt.py, build_LH_3B, line 589 *)
Definition leftt_LH_aab_28 (d : dims) (H : ints) (T L : amps) : mat6 := fun a b c i j k =>
  leftt_LH_aab_27 d H T L a b c i j k - 1 / 2 * (sumn (nua d) (fun e => sumn (nob d) (fun m => (i_ab_vovo H e k a m) * (x_aab L e b c i j m)))).
(** ccpy/left/left_ccsdt.py, build_LH_3B, line 590 *)
Definition leftt_LH_aab_29 (d : dims) (H : ints) (T L : amps) : mat6 := fun a b c i j k =>
  leftt_LH_aab_28 d H T L a b c i j k - 1 / 2 * (sumn (nub d) (fun e => sumn (noa d) (fun m => (i_ab_ovov H i e m c) * (x_aab L a b e m j k)))).
(** ccpy/left/left_ccsdt.py, build_LH_3B, line 592 *)
Definition leftt_LH_aab_30 (d : dims) (H : ints) (T L : amps) : mat6 := fun a b c i j k =>
  leftt_LH_aab_29 d H T L a b c i j k - leftt_LH_aab_29 d H T L b a c i j k.
(** ccpy/left/left_ccsdt.py, build_LH_3B, line 593 *)
Definition leftt_LH_aab_31 (d : dims) (H : ints) (T L : amps) : mat6 := fun a b c i j k =>
  leftt_LH_aab_30 d H T L a b c i j k - leftt_LH_aab_30 d H T L a b c j i k.
(** ccpy/left/left_ccsdt.py, build_LH_3C, line 600 *)
Definition leftt_LH_abb (d : dims) (H : ints) (T L : amps) : mat6 := fun c b a k j i =>
  (x_b L a i) * (i_ab_oovv H k j c b).
(** ccpy/left/left_ccsdt.py, build_LH_3C, line 601 *)
Definition leftt_LH_abb_1 (d : dims) (H : ints) (T L : amps) : mat6 := fun c b a k j i =>
  leftt_LH_abb d H T L c b a k j i + 1 / 4 * ((x_a L c k) * (i_bb_oovv H i j a b)).
(** ccpy/left/left_ccsdt.py, build_LH_3C, line 604 *)
Definition leftt_LH_abb_2 (d : dims) (H : ints) (T L : amps) : mat6 := fun c b a k j i =>
  leftt_LH_abb_1 d H T L c b a k j i + (x_ab L c b k j) * (i_b_ov H i a).
(** ccpy/left/left_ccsdt.py, build_LH_3C, line 605 *)
Definition leftt_LH_abb_3 (d : dims) (H : ints) (T L : amps) : mat6 := fun c b a k j i =>
  leftt_LH_abb_2 d H T L c b a k j i + 1 / 4 * ((x_bb L a b i j) * (i_a_ov H k c)).
(** ccpy/left/left_ccsdt.py, build_LH_3C, line 607 *)
Definition leftt_LH_abb_4 (d : dims) (H : ints) (T L : amps) : mat6 := fun c b a k j i =>
  leftt_LH_abb_3 d H T L c b a k j i + 1 / 2 * (sumn (nub d) (fun e => (i_ab_ovvv H k e c b) * (x_bb L a e i j))).
(** ccpy/left/left_ccsdt.py, build_LH_3C, line 608 *)
Definition leftt_LH_abb_5 (d : dims) (H : ints) (T L : amps) : mat6 := fun c b a k j i =>
  leftt_LH_abb_4 d H T L c b a k j i - 1 / 2 * (sumn (nob d) (fun m => (i_ab_oovo H k j c m) * (x_bb L a b i m))).
(** ccpy/left/left_ccsdt.py, build_LH_3C, line 609 *)
Definition leftt_LH_abb_6 (d : dims) (H : ints) (T L : amps) : mat6 := fun c b a k j i =>
  leftt_LH_abb_5 d H T L c b a k j i + sumn (nua d) (fun e => (i_ab_vovv H e i c a) * (x_ab L e b k j)).
(** ccpy/left/left_ccsdt.py, build_LH_3C, line 610 *)
Definition leftt_LH_abb_7 (d : dims) (H : ints) (T L : amps) : mat6 := fun c b a k j i =>
  leftt_LH_abb_6 d H T L c b a k j i - sumn (noa d) (fun m => (i_ab_ooov H k i m a) * (x_ab L c b m j)).
(** ccpy/left/left_ccsdt.py, build_LH_3C, line 611 *)
Definition leftt_LH_abb_8 (d : dims) (H : ints) (T L : amps) : mat6 := fun c b a k j i =>
  leftt_LH_abb_7 d H T L c b a k j i + 1 / 2 * (sumn (nub d) (fun e => (i_bb_vovv H e i b a) * (x_ab L c e k j))).
(** ccpy/left/left_ccsdt.py, build_LH_3C, line 612 *)
Definition leftt_LH_abb_9 (d : dims) (H : ints) (T L : amps) : mat6 := fun c b a k j i =>
  leftt_LH_abb_8 d H T L c b a k j i - 1 / 2 * (sumn (nob d) (fun m => (i_bb_ooov H j i m a) * (x_ab L c b k m))).
(** ccpy/left/left_ccsdt.py, build_LH_3C, line 614 *)
Definition leftt_LH_abb_10 (d : dims) (H : ints) (T L : amps) : mat6 := fun c b a k j i =>
  leftt_LH_abb_9 d H T L c b a k j i + 1 / 2 * (sumn (nub d) (fun e => (leftt_X_ab_ovvv d H T L k e c b) * (i_bb_oovv H i j a e))).
(** ccpy/left/left_ccsdt.py, build_LH_3C, line 615 *)
Definition leftt_LH_abb_11 (d : dims) (H : ints) (T L : amps) : mat6 := fun c b a k j i =>
  leftt_LH_abb_10 d H T L c b a k j i - 1 / 2 * (sumn (nob d) (fun m => (leftt_X_ab_oovo d H T L k j c m) * (i_bb_oovv H i m a b))).
(** ccpy/left/left_ccsdt.py, build_LH_3C, line 616 *)
Definition leftt_LH_abb_12 (d : dims) (H : ints) (T L : amps) : mat6 := fun c b a k j i =>
  leftt_LH_abb_11 d H T L c b a k j i + sumn (nua d) (fun e => (leftt_X_ab_vovv d H T L e i c a) * (i_ab_oovv H k j e b)).
(** ccpy/left/left_ccsdt.py, build_LH_3C, line 617 *)
Definition leftt_LH_abb_13 (d : dims) (H : ints) (T L : amps) : mat6 := fun c b a k j i =>
  leftt_LH_abb_12 d H T L c b a k j i - sumn (noa d) (fun m => (leftt_X_ab_ooov d H T L k i m a) * (i_ab_oovv H m j c b)).
(** ccpy/left/left_ccsdt.py, build_LH_3C, line 618 *)
Definition leftt_LH_abb_14 (d : dims) (H : ints) (T L : amps) : mat6 := fun c b a k j i =>
  leftt_LH_abb_13 d H T L c b a k j i + 1 / 2 * (sumn (nub d) (fun e => (leftt_X_bb_vovv d H T L e i b a) * (i_ab_oovv H k j c e))).
(** ccpy/left/left_ccsdt.py, build_LH_3C, line 619 *)
Definition leftt_LH_abb_15 (d : dims) (H : ints) (T L : amps) : mat6 := fun c b a k j i =>
  leftt_LH_abb_14 d H T L c b a k j i - 1 / 2 * (sumn (nob d) (fun m => (leftt_X_bb_ooov d H T L j i m a) * (i_ab_oovv H k m c b))).
(** ccpy/left/left_ccsdt.py, build_LH_3C, line 622 *)
Definition leftt_LH_abb_16 (d : dims) (H : ints) (T L : amps) : mat6 := fun c b a k j i =>
  leftt_LH_abb_15 d H T L c b a k j i - 1 / 2 * (sumn (nob d) (fun m => (i_b_oo H i m) * (x_abb L c b a k j m))).
(** ccpy/left/left_ccsdt.py, build_LH_3C, line 623 *)
Definition leftt_LH_abb_17 (d : dims) (H : ints) (T L : amps) : mat6 := fun c b a k j i =>
  leftt_LH_abb_16 d H T L c b a k j i - 1 / 4 * (sumn (noa d) (fun m => (i_a_oo H k m) * (x_abb L c b a m j i))).
(** ccpy/left/left_ccsdt.py, build_LH_3C, line 624 *)
Definition leftt_LH_abb_18 (d : dims) (H : ints) (T L : amps) : mat6 := fun c b a k j i =>
  leftt_LH_abb_17 d H T L c b a k j i + 1 / 2 * (sumn (nub d) (fun e => (i_b_vv H e a) * (x_abb L c b e k j i))).
(** ccpy/left/left_ccsdt.py, build_LH_3C, line 625 *)
Definition leftt_LH_abb_19 (d : dims) (H : ints) (T L : amps) : mat6 := fun c b a k j i =>
  leftt_LH_abb_18 d H T L c b a k j i + 1 / 4 * (sumn (nua d) (fun e => (i_a_vv H e c) * (x_abb L e b a k j i))).
(** ccpy/left/left_ccsdt.py, build_LH_3C, line 626 *)
Definition leftt_LH_abb_20 (d : dims) (H : ints) (T L : amps) : mat6 := fun c b a k j i =>
  leftt_LH_abb_19 d H T L c b a k j i + 1 / 8 * (sumn (nob d) (fun m => sumn (nob d) (fun n => (i_bb_oooo H i j m n) * (x_abb L c b a k n m)))).
(** ccpy/left/left_ccsdt.py, build_LH_3C, line 627 *)
Definition leftt_LH_abb_21 (d : dims) (H : ints) (T L : amps) : mat6 := fun c b a k j i =>
  leftt_LH_abb_20 d H T L c b a k j i + 1 / 2 * (sumn (noa d) (fun n => sumn (nob d) (fun m => (i_ab_oooo H k j n m) * (x_abb L c b a n m i)))).
(** ccpy/left/left_ccsdt.py, build_LH_3C, line 628 *)
Definition leftt_LH_abb_22 (d : dims) (H : ints) (T L : amps) : mat6 := fun c b a k j i =>
  leftt_LH_abb_21 d H T L c b a k j i + 1 / 8 * (sumn (nub d) (fun e => sumn (nub d) (fun f => (i_bb_vvvv H e f a b) * (x_abb L c f e k j i)))).
(** ccpy/left/left_ccsdt.py, build_LH_3C, line 629 *)
Definition leftt_LH_abb_23 (d : dims) (H : ints) (T L : amps) : mat6 := fun c b a k j i =>
  leftt_LH_abb_22 d H T L c b a k j i + 1 / 2 * (sumn (nua d) (fun f => sumn (nub d) (fun e => (i_ab_vvvv H f e c b) * (x_abb L f e a k j i)))).
(** ccpy/left/left_ccsdt.py, build_LH_3C, line 630 *)
Definition leftt_LH_abb_24 (d : dims) (H : ints) (T L : amps) : mat6 := fun c b a k j i =>
  leftt_LH_abb_23 d H T L c b a k j i + sumn (nub d) (fun e => sumn (nob d) (fun m => (i_bb_voov H e i m a) * (x_abb L c b e k j m))).
(** ccpy/left/left_ccsdt.py, build_LH_3C, line 631 *)
Definition leftt_LH_abb_25 (d : dims) (H : ints) (T L : amps) : mat6 := fun c b a k j i =>
  leftt_LH_abb_24 d H T L c b a k j i + sumn (nua d) (fun e => sumn (noa d) (fun m => (i_ab_voov H e i m a) * (x_aab L c e b k m j))).
(** ccpy/left/left_ccsdt.py, build_LH_3C, line 632 *)
Definition leftt_LH_abb_26 (d : dims) (H : ints) (T L : amps) : mat6 := fun c b a k j i =>
  leftt_LH_abb_25 d H T L c b a k j i + 1 / 4 * (sumn (nub d) (fun e => sumn (nob d) (fun m => (i_ab_ovvo H k e c m) * (x_bbb L a b e i j m)))).
(** ccpy/left/left_ccsdt.py, build_LH_3C, line 633 *)
Definition leftt_LH_abb_27 (d : dims) (H : ints) (T L : amps) : mat6 := fun c b a k j i =>
  leftt_LH_abb_26 d H T L c b a k j i + 1 / 4 * (sumn (nua d) (fun e => sumn (noa d) (fun m => (i_aa_voov H e k m c) * (x_abb L e b a m j i)))).
(** ccpy/left/left_ccsdt.py, build_LH_3C, line 634 *)
Definition leftt_LH_abb_28 (d : dims) (H : ints) (T L : amps) : mat6 := fun c b a k j i =>
  leftt_LH_abb_27 d H T L c b a k j i - 1 / 2 * (sumn (nub d) (fun e => sumn (noa d) (fun m => (i_ab_ovov H k e m a) * (x_abb L c b e m j i)))).
(** ccpy/left/left_ccsdt.py, build_LH_3C, line 635 *)
Definition leftt_LH_abb_29 (d : dims) (H : ints) (T L : amps) : mat6 := fun c b a k j i =>
  leftt_LH_abb_28 d H T L c b a k j i - 1 / 2 * (sumn (nua d) (fun e => sumn (nob d) (fun m => (i_ab_vovo H e i c m) * (x_abb L e b a k j m)))).
(** ccpy/left/left_ccsdt.py, build_LH_3C, line 637 *)
Definition leftt_LH_abb_30 (d : dims) (H : ints) (T L : amps) : mat6 := fun c b a k j i =>
  leftt_LH_abb_29 d H T L c b a k j i - leftt_LH_abb_29 d H T L c a b k j i.
(** ccpy/left/left_ccsdt.py, build_LH_3C, line 638 *)
Definition leftt_LH_abb_31 (d : dims) (H : ints) (T L : amps) : mat6 := fun c b a k j i =>
  leftt_LH_abb_30 d H T L c b a k j i - leftt_LH_abb_30 d H T L c b a k i j.
(** ccpy/left/left_ccsdt.py, build_LH_3D, line 645 *)
Definition leftt_LH_bbb (d : dims) (H : ints) (T L : amps) : mat6 := fun a b c i j k =>
  1 / 4 * ((x_b L a i) * (i_bb_oovv H j k b c)).
(** ccpy/left/left_ccsdt.py, build_LH_3D, line 648 *)
Definition leftt_LH_bbb_1 (d : dims) (H : ints) (T L : amps) : mat6 := fun a b c i j k =>
  leftt_LH_bbb d H T L a b c i j k + 1 / 4 * ((x_bb L b c j k) * (i_b_ov H i a)).
(** ccpy/left/left_ccsdt.py, build_LH_3D, line 650 *)
Definition leftt_LH_bbb_2 (d : dims) (H : ints) (T L : amps) : mat6 := fun a b c i j k =>
  leftt_LH_bbb_1 d H T L a b c i j k + 1 / 4 * (sumn (nub d) (fun e => (x_bb L e b i j) * (i_bb_vovv H e k a c))).
(** ccpy/left/left_ccsdt.py, build_LH_3D, line 651 *)
Definition leftt_LH_bbb_3 (d : dims) (H : ints) (T L : amps) : mat6 := fun a b c i j k =>
  leftt_LH_bbb_2 d H T L a b c i j k - 1 / 4 * (sumn (nob d) (fun m => (x_bb L a b m j) * (i_bb_ooov H i k m c))).
(** ccpy/left/left_ccsdt.py, build_LH_3D, line 654 *)
Definition leftt_LH_bbb_4 (d : dims) (H : ints) (T L : amps) : mat6 := fun a b c i j k =>
  leftt_LH_bbb_3 d H T L a b c i j k + 1 / 12 * (sumn (nub d) (fun e => (i_b_vv H e a) * (x_bbb L e b c i j k))).
(** ccpy/left/left_ccsdt.py, build_LH_3D, line 655 *)
Definition leftt_LH_bbb_5 (d : dims) (H : ints) (T L : amps) : mat6 := fun a b c i j k =>
  leftt_LH_bbb_4 d H T L a b c i j k - 1 / 12 * (sumn (nob d) (fun m => (i_b_oo H i m) * (x_bbb L a b c m j k))).
(** ccpy/left/left_ccsdt.py, build_LH_3D, line 656 *)
Definition leftt_LH_bbb_6 (d : dims) (H : ints) (T L : amps) : mat6 := fun a b c i j k =>
  leftt_LH_bbb_5 d H T L a b c i j k + 1 / 4 * (sumn (nub d) (fun e => sumn (nob d) (fun m => (i_bb_voov H e i m a) * (x_bbb L e b c m j k)))).
(** ccpy/left/left_ccsdt.py, build_LH_3D, line 657 *)
Definition leftt_LH_bbb_7 (d : dims) (H : ints) (T L : amps) : mat6 := fun a b c i j k =>
  leftt_LH_bbb_6 d H T L a b c i j k + 1 / 4 * (sumn (nua d) (fun e => sumn (noa d) (fun m => (i_ab_voov H e i m a) * (x_abb L e c b m k j)))).
(** ccpy/left/left_ccsdt.py, build_LH_3D, line 658 *)
Definition leftt_LH_bbb_8 (d : dims) (H : ints) (T L : amps) : mat6 := fun a b c i j k =>
  leftt_LH_bbb_7 d H T L a b c i j k + 1 / 24 * (sumn (nob d) (fun m => sumn (nob d) (fun n => (i_bb_oooo H i j m n) * (x_bbb L a b c m n k)))).
(** ccpy/left/left_ccsdt.py, build_LH_3D, line 659 *)
Definition leftt_LH_bbb_9 (d : dims) (H : ints) (T L : amps) : mat6 := fun a b c i j k =>
  leftt_LH_bbb_8 d H T L a b c i j k + 1 / 24 * (sumn (nub d) (fun e => sumn (nub d) (fun f => (i_bb_vvvv H e f a b) * (x_bbb L e f c i j k)))).
(** ccpy/left/left_ccsdt.py, build_LH_3D, line 661 *)
Definition leftt_LH_bbb_10 (d : dims) (H : ints) (T L : amps) : mat6 := fun a b c i j k =>
  leftt_LH_bbb_9 d H T L a b c i j k + 1 / 4 * (sumn (nub d) (fun e => (i_bb_oovv H i j e b) * (leftt_X_bb_vovv d H T L e k a c))).
(** ccpy/left/left_ccsdt.py, build_LH_3D, line 662 *)
Definition leftt_LH_bbb_11 (d : dims) (H : ints) (T L : amps) : mat6 := fun a b c i j k =>
  leftt_LH_bbb_10 d H T L a b c i j k - 1 / 4 * (sumn (nob d) (fun m => (i_bb_oovv H m j a b) * (leftt_X_bb_ooov d H T L i k m c))).
(** ccpy/left/left_ccsdt.py, build_LH_3D, line 664 *)
Definition leftt_LH_bbb_12 (d : dims) (H : ints) (T L : amps) : mat6 := fun a b c i j k =>
  leftt_LH_bbb_11 d H T L a b c i j k - leftt_LH_bbb_11 d H T L a b c i k j.
(** ccpy/left/left_ccsdt.py, build_LH_3D, line 665 *)
Definition leftt_LH_bbb_13 (d : dims) (H : ints) (T L : amps) : mat6 := fun a b c i j k =>
  leftt_LH_bbb_12 d H T L a b c i j k - (leftt_LH_bbb_12 d H T L a b c j i k + leftt_LH_bbb_12 d H T L a b c k j i).
(** ccpy/left/left_ccsdt.py, build_LH_3D, line 666 *)
Definition leftt_LH_bbb_14 (d : dims) (H : ints) (T L : amps) : mat6 := fun a b c i j k =>
  leftt_LH_bbb_13 d H T L a b c i j k - leftt_LH_bbb_13 d H T L a c b i j k.
(** ccpy/left/left_ccsdt.py, build_LH_3D, line 667 *)
Definition leftt_LH_bbb_15 (d : dims) (H : ints) (T L : amps) : mat6 := fun a b c i j k =>
  leftt_LH_bbb_14 d H T L a b c i j k - (leftt_LH_bbb_14 d H T L c b a i j k + leftt_LH_bbb_14 d H T L b a c i j k).
(** left_ccsdt.py, LH_fun: the vector returned *)
Definition leftt_LH (d : dims) (H : ints) (T L : amps) : amps := mkAmps (leftt_LH_a_49 d H T L) (leftt_LH_b_49 d H T L) (leftt_LH_aa_27 d H T L) (leftt_LH_ab_55 d H T L) (leftt_LH_bb_27 d H T L) (leftt_LH_aaa_15 d H T L) (leftt_LH_aab_31 d H T L) (leftt_LH_abb_31 d H T L) (leftt_LH_bbb_15 d H T L).
