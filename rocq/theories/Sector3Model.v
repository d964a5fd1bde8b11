(** Generated by tools/gen_sector3.py from the source text (symbolic execution of the numpy statements; exact reals).
    Models the EOM-CC sigma vectors on top of CCSD with three-body operators:
    ccpy/eomcc/ipeom3_intermediates.py, ccpy/eomcc/ipeom3.py (HR, lines 32-44),
    ccpy/eomcc/eaeom3_intermediates.py, ccpy/eomcc/eaeom3.py (HR, lines 28-40),
    ccpy/eomcc/dipeom4_intermediates.py, ccpy/eomcc/dipeom4.py (HR, lines 30-49, flag_RHF = False),
    ccpy/eomcc/deaeom4_intermediates.py, ccpy/eomcc/deaeom4.py (HR, lines 30-49, flag_RHF = False),
    ccpy/eomcc/sfeomcc23_intermediates.py, ccpy/eomcc/sfeomcc23.py (HR, lines 28-56).
    The records hold the arrays of ccpy/models/operators.py, FockOperator (lines 182-274) and SpinFlipOperator (lines 296-338). *)
From Coq Require Import Reals Arith.
From Verif Require Import RSum IntegralsModel TensorObjs.
Open Scope R_scope.
(** ccpy/eomcc/ipeom3.py: blocks of the operator, axes a: o, aa: ovo, ab: oVO, aaa: ovvoo, aab: ovVoO, abb: oVVOO (o, v occupied and unoccupied; capitals beta) *)
Record iptv := mkIpt { ipt_a : mat1; ipt_aa : mat3; ipt_ab : mat3; ipt_aaa : mat5; ipt_aab : mat5; ipt_abb : mat5 }.
(** ccpy/eomcc/ipeom3_intermediates.py, get_ipeom3_intermediates, lines 13-20 *)
Definition iptr_X_aa_ovv (d : dims) (H : ints) (T : amps) (R : iptv) : mat3 := fun i b e =>
  (-1) / 2 * (sumn (noa d) (fun m => sumn (noa d) (fun n => sumn (nua d) (fun f => (i_aa_oovv H m n e f) * (ipt_aaa R i b f m n))))) - sumn (noa d) (fun m => sumn (nob d) (fun n => sumn (nub d) (fun f => (i_ab_oovv H m n e f) * (ipt_aab R i b f m n)))) + sumn (noa d) (fun n => sumn (nua d) (fun f => (i_aa_vovv H b n e f) * (ipt_aa R i f n))) + sumn (nob d) (fun n => sumn (nub d) (fun f => (i_ab_vovv H b n e f) * (ipt_ab R i f n))) + 1 / 2 * (sumn (noa d) (fun n => sumn (noa d) (fun m => (i_aa_ooov H n m i e) * (ipt_aa R n b m)))) + sumn (noa d) (fun m => (i_aa_voov H b m i e) * (ipt_a R m)).
(** ccpy/eomcc/ipeom3_intermediates.py, get_ipeom3_intermediates, lines 22-28 *)
Definition iptr_X_ab_vvo (d : dims) (H : ints) (T : amps) (R : iptv) : mat3 := fun e b j =>
  (-1) / 2 * (sumn (noa d) (fun m => sumn (noa d) (fun n => sumn (nua d) (fun f => (i_aa_oovv H m n e f) * (ipt_aab R m f b n j))))) - sumn (noa d) (fun m => sumn (nob d) (fun n => sumn (nub d) (fun f => (i_ab_oovv H m n e f) * (ipt_abb R m b f j n)))) - sumn (noa d) (fun m => sumn (nub d) (fun f => (i_ab_ovvv H m b e f) * (ipt_ab R m f j))) + sumn (noa d) (fun m => sumn (nob d) (fun n => (i_ab_oovo H m n e j) * (ipt_ab R m b n))) - sumn (noa d) (fun m => (i_ab_ovvo H m b e j) * (ipt_a R m)).
(** ccpy/eomcc/ipeom3_intermediates.py, get_ipeom3_intermediates, lines 30-37 *)
Definition iptr_X_ab_ovv (d : dims) (H : ints) (T : amps) (R : iptv) : mat3 := fun i b e =>
  (- (sumn (noa d) (fun n => sumn (nob d) (fun m => sumn (nua d) (fun f => (i_ab_oovv H n m f e) * (ipt_aab R i f b n m)))))) - 1 / 2 * (sumn (nob d) (fun m => sumn (nob d) (fun n => sumn (nub d) (fun f => (i_bb_oovv H m n e f) * (ipt_abb R i b f m n))))) + sumn (noa d) (fun n => sumn (nua d) (fun f => (i_ab_ovvv H n b f e) * (ipt_aa R i f n))) + sumn (nob d) (fun n => sumn (nub d) (fun f => (i_bb_vovv H b n e f) * (ipt_ab R i f n))) + sumn (noa d) (fun n => sumn (nob d) (fun m => (i_ab_ooov H n m i e) * (ipt_ab R n b m))) - sumn (noa d) (fun m => (i_ab_ovov H m b i e) * (ipt_a R m)).
(** ccpy/eomcc/ipeom3_intermediates.py, get_ipeom3_intermediates, lines 40-46 *)
Definition iptr_X_aa_ooo (d : dims) (H : ints) (T : amps) (R : iptv) : mat3 := fun i m j =>
  1 / 4 * (sumn (noa d) (fun n => sumn (nua d) (fun e => sumn (nua d) (fun f => (i_aa_oovv H m n e f) * (ipt_aaa R i e f j n))))) + 1 / 2 * (sumn (nob d) (fun n => sumn (nua d) (fun e => sumn (nub d) (fun f => (i_ab_oovv H m n e f) * (ipt_aab R i e f j n))))) + sumn (noa d) (fun n => sumn (nua d) (fun f => (i_aa_ooov H m n j f) * (ipt_aa R i f n))) + sumn (nob d) (fun n => sumn (nub d) (fun f => (i_ab_ooov H m n j f) * (ipt_ab R i f n))) - 1 / 2 * (sumn (noa d) (fun n => (i_aa_oooo H m n j i) * (ipt_a R n))).
(** ccpy/eomcc/ipeom3_intermediates.py, get_ipeom3_intermediates, line 47 *)
Definition iptr_X_aa_ooo_1 (d : dims) (H : ints) (T : amps) (R : iptv) : mat3 := fun i m j =>
  iptr_X_aa_ooo d H T R i m j - iptr_X_aa_ooo d H T R j m i.
(** ccpy/eomcc/ipeom3_intermediates.py, get_ipeom3_intermediates, lines 49-56 *)
Definition iptr_X_ab_ooo (d : dims) (H : ints) (T : amps) (R : iptv) : mat3 := fun i m j =>
  sumn (noa d) (fun n => sumn (nua d) (fun f => sumn (nub d) (fun e => (i_ab_oovv H n m f e) * (ipt_aab R i f e n j)))) + 1 / 2 * (sumn (nob d) (fun n => sumn (nub d) (fun e => sumn (nub d) (fun f => (i_bb_oovv H m n e f) * (ipt_abb R i e f j n))))) + sumn (noa d) (fun n => sumn (nua d) (fun f => (i_ab_oovo H n m f j) * (ipt_aa R i f n))) + sumn (nob d) (fun n => sumn (nub d) (fun f => (i_bb_ooov H m n j f) * (ipt_ab R i f n))) - sumn (noa d) (fun n => sumn (nub d) (fun e => (i_ab_ooov H n m i e) * (ipt_ab R n e j))) - sumn (noa d) (fun n => (i_ab_oooo H n m i j) * (ipt_a R n)).
(** ccpy/eomcc/ipeom3.py, build_HR_1A, line 49 *)
Definition iptr_X1A (d : dims) (H : ints) (T : amps) (R : iptv) : mat1 := fun i =>
  (0 / 1) - sumn (noa d) (fun m => (i_a_oo H m i) * (ipt_a R m)).
(** ccpy/eomcc/ipeom3.py, build_HR_1A, line 50 *)
Definition iptr_X1A_1 (d : dims) (H : ints) (T : amps) (R : iptv) : mat1 := fun i =>
  iptr_X1A d H T R i - 1 / 2 * (sumn (noa d) (fun m => sumn (noa d) (fun n => sumn (nua d) (fun f => (i_aa_ooov H m n i f) * (ipt_aa R m f n))))).
(** ccpy/eomcc/ipeom3.py, build_HR_1A, line 51 *)
Definition iptr_X1A_2 (d : dims) (H : ints) (T : amps) (R : iptv) : mat1 := fun i =>
  iptr_X1A_1 d H T R i - sumn (noa d) (fun m => sumn (nob d) (fun n => sumn (nub d) (fun f => (i_ab_ooov H m n i f) * (ipt_ab R m f n)))).
(** ccpy/eomcc/ipeom3.py, build_HR_1A, line 52 *)
Definition iptr_X1A_3 (d : dims) (H : ints) (T : amps) (R : iptv) : mat1 := fun i =>
  iptr_X1A_2 d H T R i + sumn (noa d) (fun m => sumn (nua d) (fun e => (i_a_ov H m e) * (ipt_aa R i e m))).
(** ccpy/eomcc/ipeom3.py, build_HR_1A, line 53 *)
Definition iptr_X1A_4 (d : dims) (H : ints) (T : amps) (R : iptv) : mat1 := fun i =>
  iptr_X1A_3 d H T R i + sumn (nob d) (fun m => sumn (nub d) (fun e => (i_b_ov H m e) * (ipt_ab R i e m))).
(** ccpy/eomcc/ipeom3.py, build_HR_1A, line 55 *)
Definition iptr_X1A_5 (d : dims) (H : ints) (T : amps) (R : iptv) : mat1 := fun i =>
  iptr_X1A_4 d H T R i + 1 / 4 * (sumn (noa d) (fun m => sumn (noa d) (fun n => sumn (nua d) (fun e => sumn (nua d) (fun f => (i_aa_oovv H m n e f) * (ipt_aaa R i e f m n)))))).
(** ccpy/eomcc/ipeom3.py, build_HR_1A, line 56 *)
Definition iptr_X1A_6 (d : dims) (H : ints) (T : amps) (R : iptv) : mat1 := fun i =>
  iptr_X1A_5 d H T R i + sumn (noa d) (fun m => sumn (nob d) (fun n => sumn (nua d) (fun e => sumn (nub d) (fun f => (i_ab_oovv H m n e f) * (ipt_aab R i e f m n))))).
(** ccpy/eomcc/ipeom3.py, build_HR_1A, line 57 *)
Definition iptr_X1A_7 (d : dims) (H : ints) (T : amps) (R : iptv) : mat1 := fun i =>
  iptr_X1A_6 d H T R i + 1 / 4 * (sumn (nob d) (fun m => sumn (nob d) (fun n => sumn (nub d) (fun e => sumn (nub d) (fun f => (i_bb_oovv H m n e f) * (ipt_abb R i e f m n)))))).
(** ccpy/eomcc/ipeom3.py, build_HR_2A, line 62 *)
Definition iptr_X2A (d : dims) (H : ints) (T : amps) (R : iptv) : mat3 := fun i b j =>
  (-1) / 2 * (sumn (noa d) (fun m => (i_aa_vooo H b m j i) * (ipt_a R m))).
(** ccpy/eomcc/ipeom3.py, build_HR_2A, line 63 *)
Definition iptr_X2A_1 (d : dims) (H : ints) (T : amps) (R : iptv) : mat3 := fun i b j =>
  iptr_X2A d H T R i b j + 1 / 2 * (sumn (nua d) (fun e => (i_a_vv H b e) * (ipt_aa R i e j))).
(** ccpy/eomcc/ipeom3.py, build_HR_2A, line 64 *)
Definition iptr_X2A_2 (d : dims) (H : ints) (T : amps) (R : iptv) : mat3 := fun i b j =>
  iptr_X2A_1 d H T R i b j + 1 / 4 * (sumn (noa d) (fun m => sumn (noa d) (fun n => (i_aa_oooo H m n i j) * (ipt_aa R m b n)))).
(** ccpy/eomcc/ipeom3.py, build_HR_2A, lines 65-68 *)
Definition iptr_I1 (d : dims) (H : ints) (T : amps) (R : iptv) : mat1 := fun e =>
  (-1) / 2 * (sumn (noa d) (fun m => sumn (noa d) (fun n => sumn (nua d) (fun f => (i_aa_oovv H m n e f) * (ipt_aa R m f n))))) - sumn (noa d) (fun m => sumn (nob d) (fun n => sumn (nub d) (fun f => (i_ab_oovv H m n e f) * (ipt_ab R m f n)))).
(** ccpy/eomcc/ipeom3.py, build_HR_2A, line 69 *)
Definition iptr_X2A_3 (d : dims) (H : ints) (T : amps) (R : iptv) : mat3 := fun i b j =>
  iptr_X2A_2 d H T R i b j + 1 / 2 * (sumn (nua d) (fun e => (iptr_I1 d H T R e) * (x_aa T e b i j))).
(** ccpy/eomcc/ipeom3.py, build_HR_2A, line 70 *)
Definition iptr_X2A_4 (d : dims) (H : ints) (T : amps) (R : iptv) : mat3 := fun i b j =>
  iptr_X2A_3 d H T R i b j - sumn (noa d) (fun m => (i_a_oo H m i) * (ipt_aa R m b j)).
(** ccpy/eomcc/ipeom3.py, build_HR_2A, line 71 *)
Definition iptr_X2A_5 (d : dims) (H : ints) (T : amps) (R : iptv) : mat3 := fun i b j =>
  iptr_X2A_4 d H T R i b j + sumn (noa d) (fun m => sumn (nua d) (fun e => (i_aa_voov H b m j e) * (ipt_aa R i e m))).
(** ccpy/eomcc/ipeom3.py, build_HR_2A, line 72 *)
Definition iptr_X2A_6 (d : dims) (H : ints) (T : amps) (R : iptv) : mat3 := fun i b j =>
  iptr_X2A_5 d H T R i b j + sumn (nob d) (fun m => sumn (nub d) (fun e => (i_ab_voov H b m j e) * (ipt_ab R i e m))).
(** ccpy/eomcc/ipeom3.py, build_HR_2A, line 74 *)
Definition iptr_X2A_7 (d : dims) (H : ints) (T : amps) (R : iptv) : mat3 := fun i b j =>
  iptr_X2A_6 d H T R i b j + 1 / 2 * (sumn (noa d) (fun m => sumn (nua d) (fun e => (i_a_ov H m e) * (ipt_aaa R i b e j m)))).
(** ccpy/eomcc/ipeom3.py, build_HR_2A, line 75 *)
Definition iptr_X2A_8 (d : dims) (H : ints) (T : amps) (R : iptv) : mat3 := fun i b j =>
  iptr_X2A_7 d H T R i b j + 1 / 2 * (sumn (nob d) (fun m => sumn (nub d) (fun e => (i_b_ov H m e) * (ipt_aab R i b e j m)))).
(** ccpy/eomcc/ipeom3.py, build_HR_2A, line 76 *)
Definition iptr_X2A_9 (d : dims) (H : ints) (T : amps) (R : iptv) : mat3 := fun i b j =>
  iptr_X2A_8 d H T R i b j + 1 / 4 * (sumn (noa d) (fun n => sumn (nua d) (fun e => sumn (nua d) (fun f => (i_aa_vovv H b n e f) * (ipt_aaa R i e f j n))))).
(** ccpy/eomcc/ipeom3.py, build_HR_2A, line 77 *)
Definition iptr_X2A_10 (d : dims) (H : ints) (T : amps) (R : iptv) : mat3 := fun i b j =>
  iptr_X2A_9 d H T R i b j + 1 / 2 * (sumn (nob d) (fun n => sumn (nua d) (fun e => sumn (nub d) (fun f => (i_ab_vovv H b n e f) * (ipt_aab R i e f j n))))).
(** ccpy/eomcc/ipeom3.py, build_HR_2A, line 78 *)
Definition iptr_X2A_11 (d : dims) (H : ints) (T : amps) (R : iptv) : mat3 := fun i b j =>
  iptr_X2A_10 d H T R i b j - 1 / 2 * (sumn (noa d) (fun m => sumn (noa d) (fun n => sumn (nua d) (fun f => (i_aa_ooov H m n j f) * (ipt_aaa R i b f m n))))).
(** ccpy/eomcc/ipeom3.py, build_HR_2A, line 79 *)
Definition iptr_X2A_12 (d : dims) (H : ints) (T : amps) (R : iptv) : mat3 := fun i b j =>
  iptr_X2A_11 d H T R i b j - sumn (noa d) (fun m => sumn (nob d) (fun n => sumn (nub d) (fun f => (i_ab_ooov H m n j f) * (ipt_aab R i b f m n)))).
(** ccpy/eomcc/ipeom3.py, build_HR_2A, line 80 *)
Definition iptr_X2A_13 (d : dims) (H : ints) (T : amps) (R : iptv) : mat3 := fun i b j =>
  iptr_X2A_12 d H T R i b j - iptr_X2A_12 d H T R j b i.
(** ccpy/eomcc/ipeom3.py, build_HR_2B, line 85 *)
Definition iptr_X2B (d : dims) (H : ints) (T : amps) (R : iptv) : mat3 := fun i b j =>
  (-1) / 1 * (sumn (noa d) (fun m => (i_ab_ovoo H m b i j) * (ipt_a R m))).
(** ccpy/eomcc/ipeom3.py, build_HR_2B, line 86 *)
Definition iptr_X2B_1 (d : dims) (H : ints) (T : amps) (R : iptv) : mat3 := fun i b j =>
  iptr_X2B d H T R i b j - sumn (noa d) (fun m => (i_a_oo H m i) * (ipt_ab R m b j)).
(** ccpy/eomcc/ipeom3.py, build_HR_2B, line 87 *)
Definition iptr_X2B_2 (d : dims) (H : ints) (T : amps) (R : iptv) : mat3 := fun i b j =>
  iptr_X2B_1 d H T R i b j - sumn (nob d) (fun m => (i_b_oo H m j) * (ipt_ab R i b m)).
(** ccpy/eomcc/ipeom3.py, build_HR_2B, line 88 *)
Definition iptr_X2B_3 (d : dims) (H : ints) (T : amps) (R : iptv) : mat3 := fun i b j =>
  iptr_X2B_2 d H T R i b j + sumn (nub d) (fun e => (i_b_vv H b e) * (ipt_ab R i e j)).
(** ccpy/eomcc/ipeom3.py, build_HR_2B, line 89 *)
Definition iptr_X2B_4 (d : dims) (H : ints) (T : amps) (R : iptv) : mat3 := fun i b j =>
  iptr_X2B_3 d H T R i b j + sumn (noa d) (fun m => sumn (nob d) (fun n => (i_ab_oooo H m n i j) * (ipt_ab R m b n))).
(** ccpy/eomcc/ipeom3.py, build_HR_2B, line 90 *)
Definition iptr_X2B_5 (d : dims) (H : ints) (T : amps) (R : iptv) : mat3 := fun i b j =>
  iptr_X2B_4 d H T R i b j + sumn (noa d) (fun m => sumn (nua d) (fun e => (i_ab_ovvo H m b e j) * (ipt_aa R i e m))).
(** ccpy/eomcc/ipeom3.py, build_HR_2B, line 91 *)
Definition iptr_X2B_6 (d : dims) (H : ints) (T : amps) (R : iptv) : mat3 := fun i b j =>
  iptr_X2B_5 d H T R i b j + sumn (nob d) (fun m => sumn (nub d) (fun e => (i_bb_voov H b m j e) * (ipt_ab R i e m))).
(** ccpy/eomcc/ipeom3.py, build_HR_2B, line 92 *)
Definition iptr_X2B_7 (d : dims) (H : ints) (T : amps) (R : iptv) : mat3 := fun i b j =>
  iptr_X2B_6 d H T R i b j - sumn (noa d) (fun m => sumn (nub d) (fun e => (i_ab_ovov H m b i e) * (ipt_ab R m e j))).
(** ccpy/eomcc/ipeom3.py, build_HR_2B, lines 93-96 *)
Definition iptr_I1_1 (d : dims) (H : ints) (T : amps) (R : iptv) : mat1 := fun e =>
  (-1) / 2 * (sumn (noa d) (fun m => sumn (noa d) (fun n => sumn (nua d) (fun f => (i_aa_oovv H m n e f) * (ipt_aa R m f n))))) - sumn (noa d) (fun m => sumn (nob d) (fun n => sumn (nub d) (fun f => (i_ab_oovv H m n e f) * (ipt_ab R m f n)))).
(** ccpy/eomcc/ipeom3.py, build_HR_2B, line 97 *)
Definition iptr_X2B_8 (d : dims) (H : ints) (T : amps) (R : iptv) : mat3 := fun i b j =>
  iptr_X2B_7 d H T R i b j + sumn (nua d) (fun e => (iptr_I1_1 d H T R e) * (x_ab T e b i j)).
(** ccpy/eomcc/ipeom3.py, build_HR_2B, line 99 *)
Definition iptr_X2B_9 (d : dims) (H : ints) (T : amps) (R : iptv) : mat3 := fun i b j =>
  iptr_X2B_8 d H T R i b j + sumn (noa d) (fun m => sumn (nua d) (fun e => (i_a_ov H m e) * (ipt_aab R i e b m j))).
(** ccpy/eomcc/ipeom3.py, build_HR_2B, line 100 *)
Definition iptr_X2B_10 (d : dims) (H : ints) (T : amps) (R : iptv) : mat3 := fun i b j =>
  iptr_X2B_9 d H T R i b j + sumn (nob d) (fun m => sumn (nub d) (fun e => (i_b_ov H m e) * (ipt_abb R i b e j m))).
(** ccpy/eomcc/ipeom3.py, build_HR_2B, line 101 *)
Definition iptr_X2B_11 (d : dims) (H : ints) (T : amps) (R : iptv) : mat3 := fun i b j =>
  iptr_X2B_10 d H T R i b j + sumn (noa d) (fun n => sumn (nua d) (fun f => sumn (nub d) (fun e => (i_ab_ovvv H n b f e) * (ipt_aab R i f e n j)))).
(** ccpy/eomcc/ipeom3.py, build_HR_2B, line 102 *)
Definition iptr_X2B_12 (d : dims) (H : ints) (T : amps) (R : iptv) : mat3 := fun i b j =>
  iptr_X2B_11 d H T R i b j + 1 / 2 * (sumn (nob d) (fun n => sumn (nub d) (fun e => sumn (nub d) (fun f => (i_bb_vovv H b n e f) * (ipt_abb R i e f j n))))).
(** ccpy/eomcc/ipeom3.py, build_HR_2B, line 103 *)
Definition iptr_X2B_13 (d : dims) (H : ints) (T : amps) (R : iptv) : mat3 := fun i b j =>
  iptr_X2B_12 d H T R i b j - 1 / 2 * (sumn (noa d) (fun m => sumn (noa d) (fun n => sumn (nua d) (fun f => (i_aa_ooov H m n i f) * (ipt_aab R m f b n j))))).
(** ccpy/eomcc/ipeom3.py, build_HR_2B, line 104 *)
Definition iptr_X2B_14 (d : dims) (H : ints) (T : amps) (R : iptv) : mat3 := fun i b j =>
  iptr_X2B_13 d H T R i b j - sumn (noa d) (fun m => sumn (nob d) (fun n => sumn (nub d) (fun f => (i_ab_ooov H m n i f) * (ipt_abb R m f b n j)))).
(** ccpy/eomcc/ipeom3.py, build_HR_2B, line 105 *)
Definition iptr_X2B_15 (d : dims) (H : ints) (T : amps) (R : iptv) : mat3 := fun i b j =>
  iptr_X2B_14 d H T R i b j - sumn (noa d) (fun n => sumn (nob d) (fun m => sumn (nua d) (fun f => (i_ab_oovo H n m f j) * (ipt_aab R i f b n m)))).
(** ccpy/eomcc/ipeom3.py, build_HR_2B, line 106 *)
Definition iptr_X2B_16 (d : dims) (H : ints) (T : amps) (R : iptv) : mat3 := fun i b j =>
  iptr_X2B_15 d H T R i b j - 1 / 2 * (sumn (nob d) (fun m => sumn (nob d) (fun n => sumn (nub d) (fun f => (i_bb_ooov H m n j f) * (ipt_abb R i f b n m))))).
(** ccpy/eomcc/ipeom3.py, build_HR_3A, line 111 *)
Definition iptr_X3A (d : dims) (H : ints) (T : amps) (R : iptv) : mat5 := fun i b c j k =>
  (-1) / 4 * (sumn (noa d) (fun m => (i_a_oo H m j) * (ipt_aaa R i b c m k))).
(** ccpy/eomcc/ipeom3.py, build_HR_3A, line 112 *)
Definition iptr_X3A_1 (d : dims) (H : ints) (T : amps) (R : iptv) : mat5 := fun i b c j k =>
  iptr_X3A d H T R i b c j k + 1 / 6 * (sumn (nua d) (fun e => (i_a_vv H b e) * (ipt_aaa R i e c j k))).
(** ccpy/eomcc/ipeom3.py, build_HR_3A, line 113 *)
Definition iptr_X3A_2 (d : dims) (H : ints) (T : amps) (R : iptv) : mat5 := fun i b c j k =>
  iptr_X3A_1 d H T R i b c j k + 1 / 8 * (sumn (noa d) (fun m => sumn (noa d) (fun n => (i_aa_oooo H m n j k) * (ipt_aaa R i b c m n)))).
(** ccpy/eomcc/ipeom3.py, build_HR_3A, line 114 *)
Definition iptr_X3A_3 (d : dims) (H : ints) (T : amps) (R : iptv) : mat5 := fun i b c j k =>
  iptr_X3A_2 d H T R i b c j k + 1 / 24 * (sumn (nua d) (fun e => sumn (nua d) (fun f => (i_aa_vvvv H b c e f) * (ipt_aaa R i e f j k)))).
(** ccpy/eomcc/ipeom3.py, build_HR_3A, line 115 *)
Definition iptr_X3A_4 (d : dims) (H : ints) (T : amps) (R : iptv) : mat5 := fun i b c j k =>
  iptr_X3A_3 d H T R i b c j k + 1 / 2 * (sumn (noa d) (fun m => sumn (nua d) (fun e => (i_aa_voov H b m j e) * (ipt_aaa R i e c m k)))).
(** ccpy/eomcc/ipeom3.py, build_HR_3A, line 116 *)
Definition iptr_X3A_5 (d : dims) (H : ints) (T : amps) (R : iptv) : mat5 := fun i b c j k =>
  iptr_X3A_4 d H T R i b c j k + 1 / 2 * (sumn (nob d) (fun m => sumn (nub d) (fun e => (i_ab_voov H b m j e) * (ipt_aab R i c e k m)))).
(** ccpy/eomcc/ipeom3.py, build_HR_3A, line 118 *)
Definition iptr_X3A_6 (d : dims) (H : ints) (T : amps) (R : iptv) : mat5 := fun i b c j k =>
  iptr_X3A_5 d H T R i b c j k - 1 / 2 * (sumn (noa d) (fun m => (i_aa_vooo H c m k j) * (ipt_aa R i b m))).
(** ccpy/eomcc/ipeom3.py, build_HR_3A, line 119 *)
Definition iptr_X3A_7 (d : dims) (H : ints) (T : amps) (R : iptv) : mat5 := fun i b c j k =>
  iptr_X3A_6 d H T R i b c j k + 1 / 4 * (sumn (nua d) (fun e => (i_aa_vvov H c b k e) * (ipt_aa R i e j))).
(** ccpy/eomcc/ipeom3.py, build_HR_3A, line 121 *)
Definition iptr_X3A_8 (d : dims) (H : ints) (T : amps) (R : iptv) : mat5 := fun i b c j k =>
  iptr_X3A_7 d H T R i b c j k - 1 / 4 * (sumn (noa d) (fun m => (iptr_X_aa_ooo_1 d H T R i m j) * (x_aa T b c m k))).
(** ccpy/eomcc/ipeom3.py, build_HR_3A, line 122 *)
Definition iptr_X3A_9 (d : dims) (H : ints) (T : amps) (R : iptv) : mat5 := fun i b c j k =>
  iptr_X3A_8 d H T R i b c j k + 1 / 2 * (sumn (nua d) (fun e => (iptr_X_aa_ovv d H T R i b e) * (x_aa T e c j k))).
(** ccpy/eomcc/ipeom3.py, build_HR_3A, line 123 *)
Definition iptr_X3A_10 (d : dims) (H : ints) (T : amps) (R : iptv) : mat5 := fun i b c j k =>
  iptr_X3A_9 d H T R i b c j k - (iptr_X3A_9 d H T R j b c i k + iptr_X3A_9 d H T R k b c j i).
(** ccpy/eomcc/ipeom3.py, build_HR_3A, line 124 *)
Definition iptr_X3A_11 (d : dims) (H : ints) (T : amps) (R : iptv) : mat5 := fun i b c j k =>
  iptr_X3A_10 d H T R i b c j k - iptr_X3A_10 d H T R i b c k j.
(** ccpy/eomcc/ipeom3.py, build_HR_3A, line 125 *)
Definition iptr_X3A_12 (d : dims) (H : ints) (T : amps) (R : iptv) : mat5 := fun i b c j k =>
  iptr_X3A_11 d H T R i b c j k - iptr_X3A_11 d H T R i c b j k.
(** ccpy/eomcc/ipeom3.py, build_HR_3B, line 130 *)
Definition iptr_X3B (d : dims) (H : ints) (T : amps) (R : iptv) : mat5 := fun i b c j k =>
  (- (sumn (noa d) (fun m => (i_a_oo H m j) * (ipt_aab R i b c m k)))).
(** ccpy/eomcc/ipeom3.py, build_HR_3B, line 131 *)
Definition iptr_X3B_1 (d : dims) (H : ints) (T : amps) (R : iptv) : mat5 := fun i b c j k =>
  iptr_X3B d H T R i b c j k - 1 / 2 * (sumn (nob d) (fun m => (i_b_oo H m k) * (ipt_aab R i b c j m))).
(** ccpy/eomcc/ipeom3.py, build_HR_3B, line 132 *)
Definition iptr_X3B_2 (d : dims) (H : ints) (T : amps) (R : iptv) : mat5 := fun i b c j k =>
  iptr_X3B_1 d H T R i b c j k + 1 / 2 * (sumn (nua d) (fun e => (i_a_vv H b e) * (ipt_aab R i e c j k))).
(** ccpy/eomcc/ipeom3.py, build_HR_3B, line 133 *)
Definition iptr_X3B_3 (d : dims) (H : ints) (T : amps) (R : iptv) : mat5 := fun i b c j k =>
  iptr_X3B_2 d H T R i b c j k + 1 / 2 * (sumn (nub d) (fun e => (i_b_vv H c e) * (ipt_aab R i b e j k))).
(** ccpy/eomcc/ipeom3.py, build_HR_3B, line 134 *)
Definition iptr_X3B_4 (d : dims) (H : ints) (T : amps) (R : iptv) : mat5 := fun i b c j k =>
  iptr_X3B_3 d H T R i b c j k + sumn (noa d) (fun m => sumn (nob d) (fun n => (i_ab_oooo H m n j k) * (ipt_aab R i b c m n))).
(** ccpy/eomcc/ipeom3.py, build_HR_3B, line 135 *)
Definition iptr_X3B_5 (d : dims) (H : ints) (T : amps) (R : iptv) : mat5 := fun i b c j k =>
  iptr_X3B_4 d H T R i b c j k + 1 / 4 * (sumn (noa d) (fun m => sumn (noa d) (fun n => (i_aa_oooo H m n i j) * (ipt_aab R m b c n k)))).
(** ccpy/eomcc/ipeom3.py, build_HR_3B, line 136 *)
Definition iptr_X3B_6 (d : dims) (H : ints) (T : amps) (R : iptv) : mat5 := fun i b c j k =>
  iptr_X3B_5 d H T R i b c j k + 1 / 2 * (sumn (nua d) (fun e => sumn (nub d) (fun f => (i_ab_vvvv H b c e f) * (ipt_aab R i e f j k)))).
(** ccpy/eomcc/ipeom3.py, build_HR_3B, line 137 *)
Definition iptr_X3B_7 (d : dims) (H : ints) (T : amps) (R : iptv) : mat5 := fun i b c j k =>
  iptr_X3B_6 d H T R i b c j k + 1 / 2 * (sumn (noa d) (fun m => sumn (nua d) (fun e => (i_ab_ovvo H m c e k) * (ipt_aaa R i b e j m)))).
(** ccpy/eomcc/ipeom3.py, build_HR_3B, line 138 *)
Definition iptr_X3B_8 (d : dims) (H : ints) (T : amps) (R : iptv) : mat5 := fun i b c j k =>
  iptr_X3B_7 d H T R i b c j k + 1 / 2 * (sumn (nob d) (fun m => sumn (nub d) (fun e => (i_bb_voov H c m k e) * (ipt_aab R i b e j m)))).
(** ccpy/eomcc/ipeom3.py, build_HR_3B, line 139 *)
Definition iptr_X3B_9 (d : dims) (H : ints) (T : amps) (R : iptv) : mat5 := fun i b c j k =>
  iptr_X3B_8 d H T R i b c j k + sumn (noa d) (fun m => sumn (nua d) (fun e => (i_aa_voov H b m j e) * (ipt_aab R i e c m k))).
(** ccpy/eomcc/ipeom3.py, build_HR_3B, line 140 *)
Definition iptr_X3B_10 (d : dims) (H : ints) (T : amps) (R : iptv) : mat5 := fun i b c j k =>
  iptr_X3B_9 d H T R i b c j k + sumn (nob d) (fun m => sumn (nub d) (fun e => (i_ab_voov H b m j e) * (ipt_abb R i e c m k))).
(** ccpy/eomcc/ipeom3.py, build_HR_3B, line 141 *)
Definition iptr_X3B_11 (d : dims) (H : ints) (T : amps) (R : iptv) : mat5 := fun i b c j k =>
  iptr_X3B_10 d H T R i b c j k - sumn (noa d) (fun m => sumn (nub d) (fun e => (i_ab_ovov H m c j e) * (ipt_aab R i b e m k))).
(** ccpy/eomcc/ipeom3.py, build_HR_3B, line 142 *)
Definition iptr_X3B_12 (d : dims) (H : ints) (T : amps) (R : iptv) : mat5 := fun i b c j k =>
  iptr_X3B_11 d H T R i b c j k - 1 / 2 * (sumn (nob d) (fun m => sumn (nua d) (fun e => (i_ab_vovo H b m e k) * (ipt_aab R i e c j m)))).
(** ccpy/eomcc/ipeom3.py, build_HR_3B, line 144 *)
Definition iptr_X3B_13 (d : dims) (H : ints) (T : amps) (R : iptv) : mat5 := fun i b c j k =>
  iptr_X3B_12 d H T R i b c j k - sumn (noa d) (fun m => (i_ab_ovoo H m c j k) * (ipt_aa R i b m)).
(** ccpy/eomcc/ipeom3.py, build_HR_3B, line 145 *)
Definition iptr_X3B_14 (d : dims) (H : ints) (T : amps) (R : iptv) : mat5 := fun i b c j k =>
  iptr_X3B_13 d H T R i b c j k - 1 / 2 * (sumn (noa d) (fun m => (i_aa_vooo H b m j i) * (ipt_ab R m c k))).
(** ccpy/eomcc/ipeom3.py, build_HR_3B, line 146 *)
Definition iptr_X3B_15 (d : dims) (H : ints) (T : amps) (R : iptv) : mat5 := fun i b c j k =>
  iptr_X3B_14 d H T R i b c j k - sumn (nob d) (fun m => (i_ab_vooo H b m j k) * (ipt_ab R i c m)).
(** ccpy/eomcc/ipeom3.py, build_HR_3B, line 147 *)
Definition iptr_X3B_16 (d : dims) (H : ints) (T : amps) (R : iptv) : mat5 := fun i b c j k =>
  iptr_X3B_15 d H T R i b c j k + sumn (nub d) (fun e => (i_ab_vvov H b c j e) * (ipt_ab R i e k)).
(** ccpy/eomcc/ipeom3.py, build_HR_3B, line 148 *)
Definition iptr_X3B_17 (d : dims) (H : ints) (T : amps) (R : iptv) : mat5 := fun i b c j k =>
  iptr_X3B_16 d H T R i b c j k + 1 / 2 * (sumn (nua d) (fun e => (i_ab_vvvo H b c e k) * (ipt_aa R i e j))).
(** ccpy/eomcc/ipeom3.py, build_HR_3B, line 150 *)
Definition iptr_X3B_18 (d : dims) (H : ints) (T : amps) (R : iptv) : mat5 := fun i b c j k =>
  iptr_X3B_17 d H T R i b c j k + 1 / 2 * (sumn (nua d) (fun e => (iptr_X_ab_vvo d H T R e c k) * (x_aa T e b i j))).
(** ccpy/eomcc/ipeom3.py, build_HR_3B, line 151 *)
Definition iptr_X3B_19 (d : dims) (H : ints) (T : amps) (R : iptv) : mat5 := fun i b c j k =>
  iptr_X3B_18 d H T R i b c j k - 1 / 2 * (sumn (noa d) (fun m => (iptr_X_aa_ooo_1 d H T R i m j) * (x_ab T b c m k))).
(** ccpy/eomcc/ipeom3.py, build_HR_3B, line 152 *)
Definition iptr_X3B_20 (d : dims) (H : ints) (T : amps) (R : iptv) : mat5 := fun i b c j k =>
  iptr_X3B_19 d H T R i b c j k - sumn (nob d) (fun m => (iptr_X_ab_ooo d H T R i m k) * (x_ab T b c j m)).
(** ccpy/eomcc/ipeom3.py, build_HR_3B, line 153 *)
Definition iptr_X3B_21 (d : dims) (H : ints) (T : amps) (R : iptv) : mat5 := fun i b c j k =>
  iptr_X3B_20 d H T R i b c j k + sumn (nub d) (fun e => (iptr_X_ab_ovv d H T R i c e) * (x_ab T b e j k)).
(** ccpy/eomcc/ipeom3.py, build_HR_3B, line 154 *)
Definition iptr_X3B_22 (d : dims) (H : ints) (T : amps) (R : iptv) : mat5 := fun i b c j k =>
  iptr_X3B_21 d H T R i b c j k + sumn (nua d) (fun e => (iptr_X_aa_ovv d H T R i b e) * (x_ab T e c j k)).
(** ccpy/eomcc/ipeom3.py, build_HR_3B, line 155 *)
Definition iptr_X3B_23 (d : dims) (H : ints) (T : amps) (R : iptv) : mat5 := fun i b c j k =>
  iptr_X3B_22 d H T R i b c j k - iptr_X3B_22 d H T R j b c i k.
(** ccpy/eomcc/ipeom3.py, build_HR_3C, line 160 *)
Definition iptr_X3C (d : dims) (H : ints) (T : amps) (R : iptv) : mat5 := fun i b c j k =>
  (-1) / 2 * (sumn (nob d) (fun m => (i_b_oo H m j) * (ipt_abb R i b c m k))).
(** ccpy/eomcc/ipeom3.py, build_HR_3C, line 161 *)
Definition iptr_X3C_1 (d : dims) (H : ints) (T : amps) (R : iptv) : mat5 := fun i b c j k =>
  iptr_X3C d H T R i b c j k - 1 / 4 * (sumn (noa d) (fun m => (i_a_oo H m i) * (ipt_abb R m b c j k))).
(** ccpy/eomcc/ipeom3.py, build_HR_3C, line 162 *)
Definition iptr_X3C_2 (d : dims) (H : ints) (T : amps) (R : iptv) : mat5 := fun i b c j k =>
  iptr_X3C_1 d H T R i b c j k + 1 / 2 * (sumn (nub d) (fun e => (i_b_vv H b e) * (ipt_abb R i e c j k))).
(** ccpy/eomcc/ipeom3.py, build_HR_3C, line 163 *)
Definition iptr_X3C_3 (d : dims) (H : ints) (T : amps) (R : iptv) : mat5 := fun i b c j k =>
  iptr_X3C_2 d H T R i b c j k + 1 / 8 * (sumn (nob d) (fun m => sumn (nob d) (fun n => (i_bb_oooo H m n j k) * (ipt_abb R i b c m n)))).
(** ccpy/eomcc/ipeom3.py, build_HR_3C, line 164 *)
Definition iptr_X3C_4 (d : dims) (H : ints) (T : amps) (R : iptv) : mat5 := fun i b c j k =>
  iptr_X3C_3 d H T R i b c j k + 1 / 2 * (sumn (noa d) (fun m => sumn (nob d) (fun n => (i_ab_oooo H m n i j) * (ipt_abb R m b c n k)))).
(** ccpy/eomcc/ipeom3.py, build_HR_3C, line 165 *)
Definition iptr_X3C_5 (d : dims) (H : ints) (T : amps) (R : iptv) : mat5 := fun i b c j k =>
  iptr_X3C_4 d H T R i b c j k + 1 / 8 * (sumn (nub d) (fun e => sumn (nub d) (fun f => (i_bb_vvvv H b c e f) * (ipt_abb R i e f j k)))).
(** ccpy/eomcc/ipeom3.py, build_HR_3C, line 166 *)
Definition iptr_X3C_6 (d : dims) (H : ints) (T : amps) (R : iptv) : mat5 := fun i b c j k =>
  iptr_X3C_5 d H T R i b c j k + sumn (noa d) (fun m => sumn (nua d) (fun e => (i_ab_ovvo H m b e j) * (ipt_aab R i e c m k))).
(** ccpy/eomcc/ipeom3.py, build_HR_3C, line 167 *)
Definition iptr_X3C_7 (d : dims) (H : ints) (T : amps) (R : iptv) : mat5 := fun i b c j k =>
  iptr_X3C_6 d H T R i b c j k + sumn (nob d) (fun m => sumn (nub d) (fun e => (i_bb_voov H b m j e) * (ipt_abb R i e c m k))).
(** ccpy/eomcc/ipeom3.py, build_HR_3C, line 168 *)
Definition iptr_X3C_8 (d : dims) (H : ints) (T : amps) (R : iptv) : mat5 := fun i b c j k =>
  iptr_X3C_7 d H T R i b c j k - 1 / 2 * (sumn (noa d) (fun m => sumn (nub d) (fun e => (i_ab_ovov H m b i e) * (ipt_abb R m e c j k)))).
(** ccpy/eomcc/ipeom3.py, build_HR_3C, line 170 *)
Definition iptr_X3C_9 (d : dims) (H : ints) (T : amps) (R : iptv) : mat5 := fun i b c j k =>
  iptr_X3C_8 d H T R i b c j k - sumn (noa d) (fun m => (i_ab_ovoo H m c i k) * (ipt_ab R m b j)).
(** ccpy/eomcc/ipeom3.py, build_HR_3C, line 171 *)
Definition iptr_X3C_10 (d : dims) (H : ints) (T : amps) (R : iptv) : mat5 := fun i b c j k =>
  iptr_X3C_9 d H T R i b c j k - 1 / 2 * (sumn (nob d) (fun m => (i_bb_vooo H c m k j) * (ipt_ab R i b m))).
(** ccpy/eomcc/ipeom3.py, build_HR_3C, line 172 *)
Definition iptr_X3C_11 (d : dims) (H : ints) (T : amps) (R : iptv) : mat5 := fun i b c j k =>
  iptr_X3C_10 d H T R i b c j k + 1 / 2 * (sumn (nub d) (fun e => (i_bb_vvov H c b k e) * (ipt_ab R i e j))).
(** ccpy/eomcc/ipeom3.py, build_HR_3C, line 174 *)
Definition iptr_X3C_12 (d : dims) (H : ints) (T : amps) (R : iptv) : mat5 := fun i b c j k =>
  iptr_X3C_11 d H T R i b c j k - 1 / 2 * (sumn (nob d) (fun m => (iptr_X_ab_ooo d H T R i m j) * (x_bb T b c m k))).
(** ccpy/eomcc/ipeom3.py, build_HR_3C, line 175 *)
Definition iptr_X3C_13 (d : dims) (H : ints) (T : amps) (R : iptv) : mat5 := fun i b c j k =>
  iptr_X3C_12 d H T R i b c j k + 1 / 2 * (sumn (nub d) (fun e => (iptr_X_ab_ovv d H T R i b e) * (x_bb T e c j k))).
(** ccpy/eomcc/ipeom3.py, build_HR_3C, line 176 *)
Definition iptr_X3C_14 (d : dims) (H : ints) (T : amps) (R : iptv) : mat5 := fun i b c j k =>
  iptr_X3C_13 d H T R i b c j k + sumn (nua d) (fun e => (iptr_X_ab_vvo d H T R e b j) * (x_ab T e c i k)).
(** ccpy/eomcc/ipeom3.py, build_HR_3C, line 177 *)
Definition iptr_X3C_15 (d : dims) (H : ints) (T : amps) (R : iptv) : mat5 := fun i b c j k =>
  iptr_X3C_14 d H T R i b c j k - iptr_X3C_14 d H T R i c b j k.
(** ccpy/eomcc/ipeom3.py, build_HR_3C, line 178 *)
Definition iptr_X3C_16 (d : dims) (H : ints) (T : amps) (R : iptv) : mat5 := fun i b c j k =>
  iptr_X3C_15 d H T R i b c j k - iptr_X3C_15 d H T R i b c k j.
(** ccpy/eomcc/ipeom3.py (HR, lines 32-44): the vector returned *)
Definition ipt_HR (d : dims) (H : ints) (T : amps) (R : iptv) : iptv := mkIpt (iptr_X1A_7 d H T R) (iptr_X2A_13 d H T R) (iptr_X2B_16 d H T R) (iptr_X3A_12 d H T R) (iptr_X3B_23 d H T R) (iptr_X3C_16 d H T R).
(** ccpy/eomcc/eaeom3.py: blocks of the operator, axes a: v, aa: vvo, ab: vVO, aaa: vvvoo, aab: vvVoO, abb: vVVOO (o, v occupied and unoccupied; capitals beta) *)
Record eatv := mkEat { eat_a : mat1; eat_aa : mat3; eat_ab : mat3; eat_aaa : mat5; eat_aab : mat5; eat_abb : mat5 }.
(** ccpy/eomcc/eaeom3_intermediates.py, get_eaeom3_intermediates, lines 13-20 *)
Definition eatr_X_aa_voo (d : dims) (H : ints) (T : amps) (R : eatv) : mat3 := fun a m j =>
  1 / 2 * (sumn (noa d) (fun n => sumn (nua d) (fun e => sumn (nua d) (fun f => (i_aa_oovv H m n e f) * (eat_aaa R a e f j n))))) + sumn (nob d) (fun n => sumn (nua d) (fun e => sumn (nub d) (fun f => (i_ab_oovv H m n e f) * (eat_aab R a e f j n)))) + sumn (noa d) (fun n => sumn (nua d) (fun f => (i_aa_ooov H m n j f) * (eat_aa R a f n))) + sumn (nob d) (fun n => sumn (nub d) (fun f => (i_ab_ooov H m n j f) * (eat_ab R a f n))) + 1 / 2 * (sumn (nua d) (fun e => sumn (nua d) (fun f => (i_aa_vovv H a m e f) * (eat_aa R e f j)))) - sumn (nua d) (fun e => (i_aa_voov H a m j e) * (eat_a R e)).
(** ccpy/eomcc/eaeom3_intermediates.py, get_eaeom3_intermediates, lines 22-28 *)
Definition eatr_X_ab_ovo (d : dims) (H : ints) (T : amps) (R : eatv) : mat3 := fun m b j =>
  1 / 2 * (sumn (noa d) (fun n => sumn (nua d) (fun e => sumn (nua d) (fun f => (i_aa_oovv H m n e f) * (eat_aab R e f b n j))))) + sumn (nob d) (fun n => sumn (nua d) (fun e => sumn (nub d) (fun f => (i_ab_oovv H m n e f) * (eat_abb R e f b n j)))) - sumn (nob d) (fun n => sumn (nua d) (fun e => (i_ab_oovo H m n e j) * (eat_ab R e b n))) + sumn (nua d) (fun e => sumn (nub d) (fun f => (i_ab_ovvv H m b e f) * (eat_ab R e f j))) + sumn (nua d) (fun f => (i_ab_ovvo H m b f j) * (eat_a R f)).
(** ccpy/eomcc/eaeom3_intermediates.py, get_eaeom3_intermediates, lines 30-37 *)
Definition eatr_X_ab_voo (d : dims) (H : ints) (T : amps) (R : eatv) : mat3 := fun a m j =>
  sumn (noa d) (fun n => sumn (nua d) (fun f => sumn (nub d) (fun e => (i_ab_oovv H n m f e) * (eat_aab R a f e n j)))) + 1 / 2 * (sumn (nob d) (fun n => sumn (nub d) (fun e => sumn (nub d) (fun f => (i_bb_oovv H m n e f) * (eat_abb R a e f j n))))) + sumn (noa d) (fun n => sumn (nua d) (fun f => (i_ab_oovo H n m f j) * (eat_aa R a f n))) + sumn (nob d) (fun n => sumn (nub d) (fun f => (i_bb_ooov H m n j f) * (eat_ab R a f n))) + sumn (nua d) (fun e => sumn (nub d) (fun f => (i_ab_vovv H a m e f) * (eat_ab R e f j))) + sumn (nua d) (fun e => (i_ab_vovo H a m e j) * (eat_a R e)).
(** ccpy/eomcc/eaeom3_intermediates.py, get_eaeom3_intermediates, lines 40-46 *)
Definition eatr_X_aa_vvv (d : dims) (H : ints) (T : amps) (R : eatv) : mat3 := fun a b e =>
  (-1) / 4 * (sumn (noa d) (fun m => sumn (noa d) (fun n => sumn (nua d) (fun f => (i_aa_oovv H m n e f) * (eat_aaa R a b f m n))))) - 1 / 2 * (sumn (noa d) (fun m => sumn (nob d) (fun n => sumn (nub d) (fun f => (i_ab_oovv H m n e f) * (eat_aab R a b f m n))))) + sumn (noa d) (fun n => sumn (nua d) (fun f => (i_aa_vovv H b n e f) * (eat_aa R a f n))) + sumn (nob d) (fun n => sumn (nub d) (fun f => (i_ab_vovv H b n e f) * (eat_ab R a f n))) + 1 / 2 * (sumn (nua d) (fun f => (i_aa_vvvv H a b f e) * (eat_a R f))).
(** ccpy/eomcc/eaeom3_intermediates.py, get_eaeom3_intermediates, line 47 *)
Definition eatr_X_aa_vvv_1 (d : dims) (H : ints) (T : amps) (R : eatv) : mat3 := fun a b e =>
  eatr_X_aa_vvv d H T R a b e - eatr_X_aa_vvv d H T R b a e.
(** ccpy/eomcc/eaeom3_intermediates.py, get_eaeom3_intermediates, lines 49-56 *)
Definition eatr_X_ab_vvv (d : dims) (H : ints) (T : amps) (R : eatv) : mat3 := fun a b e =>
  (- (sumn (noa d) (fun n => sumn (nob d) (fun m => sumn (nua d) (fun f => (i_ab_oovv H n m f e) * (eat_aab R a f b n m)))))) - 1 / 2 * (sumn (nob d) (fun m => sumn (nob d) (fun n => sumn (nub d) (fun f => (i_bb_oovv H m n e f) * (eat_abb R a b f m n))))) + sumn (noa d) (fun n => sumn (nua d) (fun f => (i_ab_ovvv H n b f e) * (eat_aa R a f n))) + sumn (nob d) (fun n => sumn (nub d) (fun f => (i_bb_vovv H b n e f) * (eat_ab R a f n))) - sumn (nob d) (fun m => sumn (nua d) (fun f => (i_ab_vovv H a m f e) * (eat_ab R f b m))) + sumn (nua d) (fun f => (i_ab_vvvv H a b f e) * (eat_a R f)).
(** ccpy/eomcc/eaeom3.py, build_HR_1A, line 44 *)
Definition eatr_X1A (d : dims) (H : ints) (T : amps) (R : eatv) : mat1 := fun a =>
  sumn (nua d) (fun e => (i_a_vv H a e) * (eat_a R e)).
(** ccpy/eomcc/eaeom3.py, build_HR_1A, line 45 *)
Definition eatr_X1A_1 (d : dims) (H : ints) (T : amps) (R : eatv) : mat1 := fun a =>
  eatr_X1A d H T R a + 1 / 2 * (sumn (noa d) (fun n => sumn (nua d) (fun e => sumn (nua d) (fun f => (i_aa_vovv H a n e f) * (eat_aa R e f n))))).
(** ccpy/eomcc/eaeom3.py, build_HR_1A, line 46 *)
Definition eatr_X1A_2 (d : dims) (H : ints) (T : amps) (R : eatv) : mat1 := fun a =>
  eatr_X1A_1 d H T R a + sumn (nob d) (fun n => sumn (nua d) (fun e => sumn (nub d) (fun f => (i_ab_vovv H a n e f) * (eat_ab R e f n)))).
(** ccpy/eomcc/eaeom3.py, build_HR_1A, line 47 *)
Definition eatr_X1A_3 (d : dims) (H : ints) (T : amps) (R : eatv) : mat1 := fun a =>
  eatr_X1A_2 d H T R a + sumn (noa d) (fun m => sumn (nua d) (fun e => (i_a_ov H m e) * (eat_aa R a e m))).
(** ccpy/eomcc/eaeom3.py, build_HR_1A, line 48 *)
Definition eatr_X1A_4 (d : dims) (H : ints) (T : amps) (R : eatv) : mat1 := fun a =>
  eatr_X1A_3 d H T R a + sumn (nob d) (fun m => sumn (nub d) (fun e => (i_b_ov H m e) * (eat_ab R a e m))).
(** ccpy/eomcc/eaeom3.py, build_HR_1A, line 50 *)
Definition eatr_X1A_5 (d : dims) (H : ints) (T : amps) (R : eatv) : mat1 := fun a =>
  eatr_X1A_4 d H T R a + 1 / 4 * (sumn (noa d) (fun m => sumn (noa d) (fun n => sumn (nua d) (fun e => sumn (nua d) (fun f => (i_aa_oovv H m n e f) * (eat_aaa R a e f m n)))))).
(** ccpy/eomcc/eaeom3.py, build_HR_1A, line 51 *)
Definition eatr_X1A_6 (d : dims) (H : ints) (T : amps) (R : eatv) : mat1 := fun a =>
  eatr_X1A_5 d H T R a + sumn (noa d) (fun m => sumn (nob d) (fun n => sumn (nua d) (fun e => sumn (nub d) (fun f => (i_ab_oovv H m n e f) * (eat_aab R a e f m n))))).
(** ccpy/eomcc/eaeom3.py, build_HR_1A, line 52 *)
Definition eatr_X1A_7 (d : dims) (H : ints) (T : amps) (R : eatv) : mat1 := fun a =>
  eatr_X1A_6 d H T R a + 1 / 4 * (sumn (nob d) (fun m => sumn (nob d) (fun n => sumn (nub d) (fun e => sumn (nub d) (fun f => (i_bb_oovv H m n e f) * (eat_abb R a e f m n)))))).
(** ccpy/eomcc/eaeom3.py, build_HR_2A, line 57 *)
Definition eatr_X2A (d : dims) (H : ints) (T : amps) (R : eatv) : mat3 := fun a b j =>
  1 / 2 * (sumn (nua d) (fun e => (i_aa_vvov H b a j e) * (eat_a R e))).
(** ccpy/eomcc/eaeom3.py, build_HR_2A, line 58 *)
Definition eatr_X2A_1 (d : dims) (H : ints) (T : amps) (R : eatv) : mat3 := fun a b j =>
  eatr_X2A d H T R a b j - 1 / 2 * (sumn (noa d) (fun m => (i_a_oo H m j) * (eat_aa R a b m))).
(** ccpy/eomcc/eaeom3.py, build_HR_2A, line 59 *)
Definition eatr_X2A_2 (d : dims) (H : ints) (T : amps) (R : eatv) : mat3 := fun a b j =>
  eatr_X2A_1 d H T R a b j + 1 / 4 * (sumn (nua d) (fun e => sumn (nua d) (fun f => (i_aa_vvvv H a b e f) * (eat_aa R e f j)))).
(** ccpy/eomcc/eaeom3.py, build_HR_2A, lines 60-63 *)
Definition eatr_I1 (d : dims) (H : ints) (T : amps) (R : eatv) : mat1 := fun m =>
  1 / 2 * (sumn (noa d) (fun n => sumn (nua d) (fun e => sumn (nua d) (fun f => (i_aa_oovv H m n e f) * (eat_aa R e f n))))) + sumn (nob d) (fun n => sumn (nua d) (fun e => sumn (nub d) (fun f => (i_ab_oovv H m n e f) * (eat_ab R e f n)))).
(** ccpy/eomcc/eaeom3.py, build_HR_2A, line 64 *)
Definition eatr_X2A_3 (d : dims) (H : ints) (T : amps) (R : eatv) : mat3 := fun a b j =>
  eatr_X2A_2 d H T R a b j - 1 / 2 * (sumn (noa d) (fun m => (eatr_I1 d H T R m) * (x_aa T a b m j))).
(** ccpy/eomcc/eaeom3.py, build_HR_2A, line 65 *)
Definition eatr_X2A_4 (d : dims) (H : ints) (T : amps) (R : eatv) : mat3 := fun a b j =>
  eatr_X2A_3 d H T R a b j + sumn (nua d) (fun e => (i_a_vv H a e) * (eat_aa R e b j)).
(** ccpy/eomcc/eaeom3.py, build_HR_2A, line 66 *)
Definition eatr_X2A_5 (d : dims) (H : ints) (T : amps) (R : eatv) : mat3 := fun a b j =>
  eatr_X2A_4 d H T R a b j + sumn (noa d) (fun m => sumn (nua d) (fun e => (i_aa_voov H b m j e) * (eat_aa R a e m))).
(** ccpy/eomcc/eaeom3.py, build_HR_2A, line 67 *)
Definition eatr_X2A_6 (d : dims) (H : ints) (T : amps) (R : eatv) : mat3 := fun a b j =>
  eatr_X2A_5 d H T R a b j + sumn (nob d) (fun m => sumn (nub d) (fun e => (i_ab_voov H b m j e) * (eat_ab R a e m))).
(** ccpy/eomcc/eaeom3.py, build_HR_2A, line 69 *)
Definition eatr_X2A_7 (d : dims) (H : ints) (T : amps) (R : eatv) : mat3 := fun a b j =>
  eatr_X2A_6 d H T R a b j + 1 / 2 * (sumn (noa d) (fun m => sumn (nua d) (fun e => (i_a_ov H m e) * (eat_aaa R a b e j m)))).
(** ccpy/eomcc/eaeom3.py, build_HR_2A, line 70 *)
Definition eatr_X2A_8 (d : dims) (H : ints) (T : amps) (R : eatv) : mat3 := fun a b j =>
  eatr_X2A_7 d H T R a b j + 1 / 2 * (sumn (nob d) (fun m => sumn (nub d) (fun e => (i_b_ov H m e) * (eat_aab R a b e j m)))).
(** ccpy/eomcc/eaeom3.py, build_HR_2A, line 71 *)
Definition eatr_X2A_9 (d : dims) (H : ints) (T : amps) (R : eatv) : mat3 := fun a b j =>
  eatr_X2A_8 d H T R a b j - 1 / 4 * (sumn (noa d) (fun m => sumn (noa d) (fun n => sumn (nua d) (fun f => (i_aa_ooov H m n j f) * (eat_aaa R a b f m n))))).
(** ccpy/eomcc/eaeom3.py, build_HR_2A, line 72 *)
Definition eatr_X2A_10 (d : dims) (H : ints) (T : amps) (R : eatv) : mat3 := fun a b j =>
  eatr_X2A_9 d H T R a b j - 1 / 2 * (sumn (noa d) (fun m => sumn (nob d) (fun n => sumn (nub d) (fun f => (i_ab_ooov H m n j f) * (eat_aab R a b f m n))))).
(** ccpy/eomcc/eaeom3.py, build_HR_2A, line 73 *)
Definition eatr_X2A_11 (d : dims) (H : ints) (T : amps) (R : eatv) : mat3 := fun a b j =>
  eatr_X2A_10 d H T R a b j + 1 / 2 * (sumn (noa d) (fun n => sumn (nua d) (fun e => sumn (nua d) (fun f => (i_aa_vovv H b n e f) * (eat_aaa R a e f j n))))).
(** ccpy/eomcc/eaeom3.py, build_HR_2A, line 74 *)
Definition eatr_X2A_12 (d : dims) (H : ints) (T : amps) (R : eatv) : mat3 := fun a b j =>
  eatr_X2A_11 d H T R a b j + sumn (nob d) (fun n => sumn (nua d) (fun e => sumn (nub d) (fun f => (i_ab_vovv H b n e f) * (eat_aab R a e f j n)))).
(** ccpy/eomcc/eaeom3.py, build_HR_2A, line 75 *)
Definition eatr_X2A_13 (d : dims) (H : ints) (T : amps) (R : eatv) : mat3 := fun a b j =>
  eatr_X2A_12 d H T R a b j - eatr_X2A_12 d H T R b a j.
(** ccpy/eomcc/eaeom3.py, build_HR_2B, line 80 *)
Definition eatr_X2B (d : dims) (H : ints) (T : amps) (R : eatv) : mat3 := fun a b j =>
  sumn (nua d) (fun e => (i_ab_vvvo H a b e j) * (eat_a R e)).
(** ccpy/eomcc/eaeom3.py, build_HR_2B, line 81 *)
Definition eatr_X2B_1 (d : dims) (H : ints) (T : amps) (R : eatv) : mat3 := fun a b j =>
  eatr_X2B d H T R a b j + sumn (nua d) (fun e => (i_a_vv H a e) * (eat_ab R e b j)).
(** ccpy/eomcc/eaeom3.py, build_HR_2B, line 82 *)
Definition eatr_X2B_2 (d : dims) (H : ints) (T : amps) (R : eatv) : mat3 := fun a b j =>
  eatr_X2B_1 d H T R a b j + sumn (nub d) (fun e => (i_b_vv H b e) * (eat_ab R a e j)).
(** ccpy/eomcc/eaeom3.py, build_HR_2B, line 83 *)
Definition eatr_X2B_3 (d : dims) (H : ints) (T : amps) (R : eatv) : mat3 := fun a b j =>
  eatr_X2B_2 d H T R a b j - sumn (nob d) (fun m => (i_b_oo H m j) * (eat_ab R a b m)).
(** ccpy/eomcc/eaeom3.py, build_HR_2B, line 84 *)
Definition eatr_X2B_4 (d : dims) (H : ints) (T : amps) (R : eatv) : mat3 := fun a b j =>
  eatr_X2B_3 d H T R a b j + sumn (noa d) (fun m => sumn (nua d) (fun e => (i_ab_ovvo H m b e j) * (eat_aa R a e m))).
(** ccpy/eomcc/eaeom3.py, build_HR_2B, line 85 *)
Definition eatr_X2B_5 (d : dims) (H : ints) (T : amps) (R : eatv) : mat3 := fun a b j =>
  eatr_X2B_4 d H T R a b j + sumn (nob d) (fun m => sumn (nub d) (fun e => (i_bb_voov H b m j e) * (eat_ab R a e m))).
(** ccpy/eomcc/eaeom3.py, build_HR_2B, line 86 *)
Definition eatr_X2B_6 (d : dims) (H : ints) (T : amps) (R : eatv) : mat3 := fun a b j =>
  eatr_X2B_5 d H T R a b j - sumn (nob d) (fun m => sumn (nua d) (fun e => (i_ab_vovo H a m e j) * (eat_ab R e b m))).
(** ccpy/eomcc/eaeom3.py, build_HR_2B, line 87 *)
Definition eatr_X2B_7 (d : dims) (H : ints) (T : amps) (R : eatv) : mat3 := fun a b j =>
  eatr_X2B_6 d H T R a b j + sumn (nua d) (fun e => sumn (nub d) (fun f => (i_ab_vvvv H a b e f) * (eat_ab R e f j))).
(** ccpy/eomcc/eaeom3.py, build_HR_2B, lines 88-91 *)
Definition eatr_I1_1 (d : dims) (H : ints) (T : amps) (R : eatv) : mat1 := fun m =>
  1 / 2 * (sumn (noa d) (fun n => sumn (nua d) (fun e => sumn (nua d) (fun f => (i_aa_oovv H m n e f) * (eat_aa R e f n))))) + sumn (nob d) (fun n => sumn (nua d) (fun e => sumn (nub d) (fun f => (i_ab_oovv H m n e f) * (eat_ab R e f n)))).
(** ccpy/eomcc/eaeom3.py, build_HR_2B, line 92 *)
Definition eatr_X2B_8 (d : dims) (H : ints) (T : amps) (R : eatv) : mat3 := fun a b j =>
  eatr_X2B_7 d H T R a b j - sumn (noa d) (fun m => (eatr_I1_1 d H T R m) * (x_ab T a b m j)).
(** ccpy/eomcc/eaeom3.py, build_HR_2B, line 94 *)
Definition eatr_X2B_9 (d : dims) (H : ints) (T : amps) (R : eatv) : mat3 := fun a b j =>
  eatr_X2B_8 d H T R a b j + sumn (noa d) (fun m => sumn (nua d) (fun e => (i_a_ov H m e) * (eat_aab R a e b m j))).
(** ccpy/eomcc/eaeom3.py, build_HR_2B, line 95 *)
Definition eatr_X2B_10 (d : dims) (H : ints) (T : amps) (R : eatv) : mat3 := fun a b j =>
  eatr_X2B_9 d H T R a b j + sumn (nob d) (fun m => sumn (nub d) (fun e => (i_b_ov H m e) * (eat_abb R a e b m j))).
(** ccpy/eomcc/eaeom3.py, build_HR_2B, line 96 *)
Definition eatr_X2B_11 (d : dims) (H : ints) (T : amps) (R : eatv) : mat3 := fun a b j =>
  eatr_X2B_10 d H T R a b j - sumn (noa d) (fun n => sumn (nob d) (fun m => sumn (nua d) (fun f => (i_ab_oovo H n m f j) * (eat_aab R a f b n m)))).
(** ccpy/eomcc/eaeom3.py, build_HR_2B, line 97 *)
Definition eatr_X2B_12 (d : dims) (H : ints) (T : amps) (R : eatv) : mat3 := fun a b j =>
  eatr_X2B_11 d H T R a b j - 1 / 2 * (sumn (nob d) (fun m => sumn (nob d) (fun n => sumn (nub d) (fun f => (i_bb_ooov H m n j f) * (eat_abb R a b f m n))))).
(** ccpy/eomcc/eaeom3.py, build_HR_2B, line 98 *)
Definition eatr_X2B_13 (d : dims) (H : ints) (T : amps) (R : eatv) : mat3 := fun a b j =>
  eatr_X2B_12 d H T R a b j + sumn (noa d) (fun n => sumn (nua d) (fun f => sumn (nub d) (fun e => (i_ab_ovvv H n b f e) * (eat_aab R a f e n j)))).
(** ccpy/eomcc/eaeom3.py, build_HR_2B, line 99 *)
Definition eatr_X2B_14 (d : dims) (H : ints) (T : amps) (R : eatv) : mat3 := fun a b j =>
  eatr_X2B_13 d H T R a b j + 1 / 2 * (sumn (nob d) (fun n => sumn (nub d) (fun e => sumn (nub d) (fun f => (i_bb_vovv H b n e f) * (eat_abb R a e f j n))))).
(** ccpy/eomcc/eaeom3.py, build_HR_2B, line 100 *)
Definition eatr_X2B_15 (d : dims) (H : ints) (T : amps) (R : eatv) : mat3 := fun a b j =>
  eatr_X2B_14 d H T R a b j + 1 / 2 * (sumn (noa d) (fun n => sumn (nua d) (fun e => sumn (nua d) (fun f => (i_aa_vovv H a n e f) * (eat_aab R e f b n j))))).
(** ccpy/eomcc/eaeom3.py, build_HR_2B, line 101 *)
Definition eatr_X2B_16 (d : dims) (H : ints) (T : amps) (R : eatv) : mat3 := fun a b j =>
  eatr_X2B_15 d H T R a b j + sumn (nob d) (fun n => sumn (nua d) (fun e => sumn (nub d) (fun f => (i_ab_vovv H a n e f) * (eat_abb R e b f j n)))).
(** ccpy/eomcc/eaeom3.py, build_HR_3A, line 106 *)
Definition eatr_X3A (d : dims) (H : ints) (T : amps) (R : eatv) : mat5 := fun a b c j k =>
  (-1) / 6 * (sumn (noa d) (fun m => (i_a_oo H m j) * (eat_aaa R a b c m k))).
(** ccpy/eomcc/eaeom3.py, build_HR_3A, line 107 *)
Definition eatr_X3A_1 (d : dims) (H : ints) (T : amps) (R : eatv) : mat5 := fun a b c j k =>
  eatr_X3A d H T R a b c j k + 1 / 4 * (sumn (nua d) (fun e => (i_a_vv H b e) * (eat_aaa R a e c j k))).
(** ccpy/eomcc/eaeom3.py, build_HR_3A, line 108 *)
Definition eatr_X3A_2 (d : dims) (H : ints) (T : amps) (R : eatv) : mat5 := fun a b c j k =>
  eatr_X3A_1 d H T R a b c j k + 1 / 8 * (sumn (nua d) (fun e => sumn (nua d) (fun f => (i_aa_vvvv H a b e f) * (eat_aaa R e f c j k)))).
(** ccpy/eomcc/eaeom3.py, build_HR_3A, line 109 *)
Definition eatr_X3A_3 (d : dims) (H : ints) (T : amps) (R : eatv) : mat5 := fun a b c j k =>
  eatr_X3A_2 d H T R a b c j k + 1 / 24 * (sumn (noa d) (fun m => sumn (noa d) (fun n => (i_aa_oooo H m n j k) * (eat_aaa R a b c m n)))).
(** ccpy/eomcc/eaeom3.py, build_HR_3A, line 110 *)
Definition eatr_X3A_4 (d : dims) (H : ints) (T : amps) (R : eatv) : mat5 := fun a b c j k =>
  eatr_X3A_3 d H T R a b c j k + 1 / 2 * (sumn (noa d) (fun m => sumn (nua d) (fun e => (i_aa_voov H c m k e) * (eat_aaa R a b e j m)))).
(** ccpy/eomcc/eaeom3.py, build_HR_3A, line 111 *)
Definition eatr_X3A_5 (d : dims) (H : ints) (T : amps) (R : eatv) : mat5 := fun a b c j k =>
  eatr_X3A_4 d H T R a b c j k + 1 / 2 * (sumn (nob d) (fun m => sumn (nub d) (fun e => (i_ab_voov H c m k e) * (eat_aab R a b e j m)))).
(** ccpy/eomcc/eaeom3.py, build_HR_3A, line 113 *)
Definition eatr_X3A_6 (d : dims) (H : ints) (T : amps) (R : eatv) : mat5 := fun a b c j k =>
  eatr_X3A_5 d H T R a b c j k - 1 / 4 * (sumn (noa d) (fun m => (i_aa_vooo H c m k j) * (eat_aa R a b m))).
(** ccpy/eomcc/eaeom3.py, build_HR_3A, line 114 *)
Definition eatr_X3A_7 (d : dims) (H : ints) (T : amps) (R : eatv) : mat5 := fun a b c j k =>
  eatr_X3A_6 d H T R a b c j k + 1 / 2 * (sumn (nua d) (fun e => (i_aa_vvov H c b k e) * (eat_aa R a e j))).
(** ccpy/eomcc/eaeom3.py, build_HR_3A, line 116 *)
Definition eatr_X3A_8 (d : dims) (H : ints) (T : amps) (R : eatv) : mat5 := fun a b c j k =>
  eatr_X3A_7 d H T R a b c j k - 1 / 2 * (sumn (noa d) (fun m => (eatr_X_aa_voo d H T R a m j) * (x_aa T b c m k))).
(** ccpy/eomcc/eaeom3.py, build_HR_3A, line 117 *)
Definition eatr_X3A_9 (d : dims) (H : ints) (T : amps) (R : eatv) : mat5 := fun a b c j k =>
  eatr_X3A_8 d H T R a b c j k + 1 / 4 * (sumn (nua d) (fun e => (eatr_X_aa_vvv_1 d H T R a b e) * (x_aa T e c j k))).
(** ccpy/eomcc/eaeom3.py, build_HR_3A, line 118 *)
Definition eatr_X3A_10 (d : dims) (H : ints) (T : amps) (R : eatv) : mat5 := fun a b c j k =>
  eatr_X3A_9 d H T R a b c j k - (eatr_X3A_9 d H T R b a c j k + eatr_X3A_9 d H T R c b a j k).
(** ccpy/eomcc/eaeom3.py, build_HR_3A, line 119 *)
Definition eatr_X3A_11 (d : dims) (H : ints) (T : amps) (R : eatv) : mat5 := fun a b c j k =>
  eatr_X3A_10 d H T R a b c j k - eatr_X3A_10 d H T R a c b j k.
(** ccpy/eomcc/eaeom3.py, build_HR_3A, line 120 *)
Definition eatr_X3A_12 (d : dims) (H : ints) (T : amps) (R : eatv) : mat5 := fun a b c j k =>
  eatr_X3A_11 d H T R a b c j k - eatr_X3A_11 d H T R a b c k j.
(** ccpy/eomcc/eaeom3.py, build_HR_3B, line 125 *)
Definition eatr_X3B (d : dims) (H : ints) (T : amps) (R : eatv) : mat5 := fun a b c j k =>
  (-1) / 2 * (sumn (noa d) (fun m => (i_a_oo H m j) * (eat_aab R a b c m k))).
(** ccpy/eomcc/eaeom3.py, build_HR_3B, line 126 *)
Definition eatr_X3B_1 (d : dims) (H : ints) (T : amps) (R : eatv) : mat5 := fun a b c j k =>
  eatr_X3B d H T R a b c j k - 1 / 2 * (sumn (nob d) (fun m => (i_b_oo H m k) * (eat_aab R a b c j m))).
(** ccpy/eomcc/eaeom3.py, build_HR_3B, line 127 *)
Definition eatr_X3B_2 (d : dims) (H : ints) (T : amps) (R : eatv) : mat5 := fun a b c j k =>
  eatr_X3B_1 d H T R a b c j k + 1 / 2 * (sumn (nub d) (fun e => (i_b_vv H c e) * (eat_aab R a b e j k))).
(** ccpy/eomcc/eaeom3.py, build_HR_3B, line 128 *)
Definition eatr_X3B_3 (d : dims) (H : ints) (T : amps) (R : eatv) : mat5 := fun a b c j k =>
  eatr_X3B_2 d H T R a b c j k + sumn (nua d) (fun e => (i_a_vv H b e) * (eat_aab R a e c j k)).
(** ccpy/eomcc/eaeom3.py, build_HR_3B, line 129 *)
Definition eatr_X3B_4 (d : dims) (H : ints) (T : amps) (R : eatv) : mat5 := fun a b c j k =>
  eatr_X3B_3 d H T R a b c j k + 1 / 2 * (sumn (noa d) (fun m => sumn (nob d) (fun n => (i_ab_oooo H m n j k) * (eat_aab R a b c m n)))).
(** ccpy/eomcc/eaeom3.py, build_HR_3B, line 130 *)
Definition eatr_X3B_5 (d : dims) (H : ints) (T : amps) (R : eatv) : mat5 := fun a b c j k =>
  eatr_X3B_4 d H T R a b c j k + 1 / 2 * (sumn (noa d) (fun m => sumn (nua d) (fun e => (i_ab_ovvo H m c e k) * (eat_aaa R a b e j m)))).
(** ccpy/eomcc/eaeom3.py, build_HR_3B, line 131 *)
Definition eatr_X3B_6 (d : dims) (H : ints) (T : amps) (R : eatv) : mat5 := fun a b c j k =>
  eatr_X3B_5 d H T R a b c j k + 1 / 2 * (sumn (nob d) (fun m => sumn (nub d) (fun e => (i_bb_voov H c m k e) * (eat_aab R a b e j m)))).
(** ccpy/eomcc/eaeom3.py, build_HR_3B, line 132 *)
Definition eatr_X3B_7 (d : dims) (H : ints) (T : amps) (R : eatv) : mat5 := fun a b c j k =>
  eatr_X3B_6 d H T R a b c j k + sumn (noa d) (fun m => sumn (nua d) (fun e => (i_aa_voov H b m j e) * (eat_aab R a e c m k))).
(** ccpy/eomcc/eaeom3.py, build_HR_3B, line 133 *)
Definition eatr_X3B_8 (d : dims) (H : ints) (T : amps) (R : eatv) : mat5 := fun a b c j k =>
  eatr_X3B_7 d H T R a b c j k - sumn (nob d) (fun m => sumn (nua d) (fun e => (i_ab_vovo H b m e k) * (eat_aab R a e c j m))).
(** ccpy/eomcc/eaeom3.py, build_HR_3B, line 134 *)
Definition eatr_X3B_9 (d : dims) (H : ints) (T : amps) (R : eatv) : mat5 := fun a b c j k =>
  eatr_X3B_8 d H T R a b c j k - 1 / 2 * (sumn (noa d) (fun m => sumn (nub d) (fun e => (i_ab_ovov H m c j e) * (eat_aab R a b e m k)))).
(** ccpy/eomcc/eaeom3.py, build_HR_3B, line 135 *)
Definition eatr_X3B_10 (d : dims) (H : ints) (T : amps) (R : eatv) : mat5 := fun a b c j k =>
  eatr_X3B_9 d H T R a b c j k + sumn (nob d) (fun m => sumn (nub d) (fun e => (i_ab_voov H b m j e) * (eat_abb R a e c m k))).
(** ccpy/eomcc/eaeom3.py, build_HR_3B, line 136 *)
Definition eatr_X3B_11 (d : dims) (H : ints) (T : amps) (R : eatv) : mat5 := fun a b c j k =>
  eatr_X3B_10 d H T R a b c j k + 1 / 4 * (sumn (nua d) (fun e => sumn (nua d) (fun f => (i_aa_vvvv H a b e f) * (eat_aab R e f c j k)))).
(** ccpy/eomcc/eaeom3.py, build_HR_3B, line 137 *)
Definition eatr_X3B_12 (d : dims) (H : ints) (T : amps) (R : eatv) : mat5 := fun a b c j k =>
  eatr_X3B_11 d H T R a b c j k + sumn (nua d) (fun e => sumn (nub d) (fun f => (i_ab_vvvv H b c e f) * (eat_aab R a e f j k))).
(** ccpy/eomcc/eaeom3.py, build_HR_3B, line 139 *)
Definition eatr_X3B_13 (d : dims) (H : ints) (T : amps) (R : eatv) : mat5 := fun a b c j k =>
  eatr_X3B_12 d H T R a b c j k - 1 / 2 * (sumn (noa d) (fun m => (i_ab_ovoo H m c j k) * (eat_aa R a b m))).
(** ccpy/eomcc/eaeom3.py, build_HR_3B, line 140 *)
Definition eatr_X3B_14 (d : dims) (H : ints) (T : amps) (R : eatv) : mat5 := fun a b c j k =>
  eatr_X3B_13 d H T R a b c j k - sumn (nob d) (fun m => (i_ab_vooo H b m j k) * (eat_ab R a c m)).
(** ccpy/eomcc/eaeom3.py, build_HR_3B, line 141 *)
Definition eatr_X3B_15 (d : dims) (H : ints) (T : amps) (R : eatv) : mat5 := fun a b c j k =>
  eatr_X3B_14 d H T R a b c j k + sumn (nua d) (fun e => (i_ab_vvvo H b c e k) * (eat_aa R a e j)).
(** ccpy/eomcc/eaeom3.py, build_HR_3B, line 142 *)
Definition eatr_X3B_16 (d : dims) (H : ints) (T : amps) (R : eatv) : mat5 := fun a b c j k =>
  eatr_X3B_15 d H T R a b c j k + sumn (nub d) (fun e => (i_ab_vvov H b c j e) * (eat_ab R a e k)).
(** ccpy/eomcc/eaeom3.py, build_HR_3B, line 143 *)
Definition eatr_X3B_17 (d : dims) (H : ints) (T : amps) (R : eatv) : mat5 := fun a b c j k =>
  eatr_X3B_16 d H T R a b c j k + 1 / 2 * (sumn (nua d) (fun e => (i_aa_vvov H b a j e) * (eat_ab R e c k))).
(** ccpy/eomcc/eaeom3.py, build_HR_3B, line 145 *)
Definition eatr_X3B_18 (d : dims) (H : ints) (T : amps) (R : eatv) : mat5 := fun a b c j k =>
  eatr_X3B_17 d H T R a b c j k - 1 / 2 * (sumn (noa d) (fun m => (eatr_X_ab_ovo d H T R m c k) * (x_aa T a b m j))).
(** ccpy/eomcc/eaeom3.py, build_HR_3B, line 146 *)
Definition eatr_X3B_19 (d : dims) (H : ints) (T : amps) (R : eatv) : mat5 := fun a b c j k =>
  eatr_X3B_18 d H T R a b c j k - sumn (noa d) (fun m => (eatr_X_aa_voo d H T R a m j) * (x_ab T b c m k)).
(** ccpy/eomcc/eaeom3.py, build_HR_3B, line 147 *)
Definition eatr_X3B_20 (d : dims) (H : ints) (T : amps) (R : eatv) : mat5 := fun a b c j k =>
  eatr_X3B_19 d H T R a b c j k - sumn (nob d) (fun m => (eatr_X_ab_voo d H T R a m k) * (x_ab T b c j m)).
(** ccpy/eomcc/eaeom3.py, build_HR_3B, line 148 *)
Definition eatr_X3B_21 (d : dims) (H : ints) (T : amps) (R : eatv) : mat5 := fun a b c j k =>
  eatr_X3B_20 d H T R a b c j k + 1 / 2 * (sumn (nua d) (fun e => (eatr_X_aa_vvv_1 d H T R a b e) * (x_ab T e c j k))).
(** ccpy/eomcc/eaeom3.py, build_HR_3B, line 149 *)
Definition eatr_X3B_22 (d : dims) (H : ints) (T : amps) (R : eatv) : mat5 := fun a b c j k =>
  eatr_X3B_21 d H T R a b c j k + sumn (nub d) (fun e => (eatr_X_ab_vvv d H T R a c e) * (x_ab T b e j k)).
(** ccpy/eomcc/eaeom3.py, build_HR_3B, line 150 *)
Definition eatr_X3B_23 (d : dims) (H : ints) (T : amps) (R : eatv) : mat5 := fun a b c j k =>
  eatr_X3B_22 d H T R a b c j k - eatr_X3B_22 d H T R b a c j k.
(** ccpy/eomcc/eaeom3.py, build_HR_3C, line 155 *)
Definition eatr_X3C (d : dims) (H : ints) (T : amps) (R : eatv) : mat5 := fun a b c j k =>
  (-1) / 2 * (sumn (nob d) (fun m => (i_b_oo H m j) * (eat_abb R a b c m k))).
(** ccpy/eomcc/eaeom3.py, build_HR_3C, line 156 *)
Definition eatr_X3C_1 (d : dims) (H : ints) (T : amps) (R : eatv) : mat5 := fun a b c j k =>
  eatr_X3C d H T R a b c j k + 1 / 2 * (sumn (nub d) (fun e => (i_b_vv H b e) * (eat_abb R a e c j k))).
(** ccpy/eomcc/eaeom3.py, build_HR_3C, line 157 *)
Definition eatr_X3C_2 (d : dims) (H : ints) (T : amps) (R : eatv) : mat5 := fun a b c j k =>
  eatr_X3C_1 d H T R a b c j k + 1 / 4 * (sumn (nua d) (fun e => (i_a_vv H a e) * (eat_abb R e b c j k))).
(** ccpy/eomcc/eaeom3.py, build_HR_3C, line 158 *)
Definition eatr_X3C_3 (d : dims) (H : ints) (T : amps) (R : eatv) : mat5 := fun a b c j k =>
  eatr_X3C_2 d H T R a b c j k + 1 / 8 * (sumn (nob d) (fun m => sumn (nob d) (fun n => (i_bb_oooo H m n j k) * (eat_abb R a b c m n)))).
(** ccpy/eomcc/eaeom3.py, build_HR_3C, line 159 *)
Definition eatr_X3C_4 (d : dims) (H : ints) (T : amps) (R : eatv) : mat5 := fun a b c j k =>
  eatr_X3C_3 d H T R a b c j k + sumn (noa d) (fun m => sumn (nua d) (fun e => (i_ab_ovvo H m b e j) * (eat_aab R a e c m k))).
(** ccpy/eomcc/eaeom3.py, build_HR_3C, line 160 *)
Definition eatr_X3C_5 (d : dims) (H : ints) (T : amps) (R : eatv) : mat5 := fun a b c j k =>
  eatr_X3C_4 d H T R a b c j k + sumn (nob d) (fun m => sumn (nub d) (fun e => (i_bb_voov H b m j e) * (eat_abb R a e c m k))).
(** ccpy/eomcc/eaeom3.py, build_HR_3C, line 161 *)
Definition eatr_X3C_6 (d : dims) (H : ints) (T : amps) (R : eatv) : mat5 := fun a b c j k =>
  eatr_X3C_5 d H T R a b c j k - 1 / 2 * (sumn (nob d) (fun m => sumn (nua d) (fun e => (i_ab_vovo H a m e j) * (eat_abb R e b c m k)))).
(** ccpy/eomcc/eaeom3.py, build_HR_3C, line 162 *)
Definition eatr_X3C_7 (d : dims) (H : ints) (T : amps) (R : eatv) : mat5 := fun a b c j k =>
  eatr_X3C_6 d H T R a b c j k + 1 / 2 * (sumn (nua d) (fun e => sumn (nub d) (fun f => (i_ab_vvvv H a b e f) * (eat_abb R e f c j k)))).
(** ccpy/eomcc/eaeom3.py, build_HR_3C, line 163 *)
Definition eatr_X3C_8 (d : dims) (H : ints) (T : amps) (R : eatv) : mat5 := fun a b c j k =>
  eatr_X3C_7 d H T R a b c j k + 1 / 8 * (sumn (nub d) (fun e => sumn (nub d) (fun f => (i_bb_vvvv H b c e f) * (eat_abb R a e f j k)))).
(** ccpy/eomcc/eaeom3.py, build_HR_3C, line 165 *)
Definition eatr_X3C_9 (d : dims) (H : ints) (T : amps) (R : eatv) : mat5 := fun a b c j k =>
  eatr_X3C_8 d H T R a b c j k - 1 / 2 * (sumn (nob d) (fun m => (i_bb_vooo H c m k j) * (eat_ab R a b m))).
(** ccpy/eomcc/eaeom3.py, build_HR_3C, line 166 *)
Definition eatr_X3C_10 (d : dims) (H : ints) (T : amps) (R : eatv) : mat5 := fun a b c j k =>
  eatr_X3C_9 d H T R a b c j k + 1 / 2 * (sumn (nub d) (fun e => (i_bb_vvov H c b k e) * (eat_ab R a e j))).
(** ccpy/eomcc/eaeom3.py, build_HR_3C, line 167 *)
Definition eatr_X3C_11 (d : dims) (H : ints) (T : amps) (R : eatv) : mat5 := fun a b c j k =>
  eatr_X3C_10 d H T R a b c j k + sumn (nua d) (fun e => (i_ab_vvvo H a c e k) * (eat_ab R e b j)).
(** ccpy/eomcc/eaeom3.py, build_HR_3C, line 169 *)
Definition eatr_X3C_12 (d : dims) (H : ints) (T : amps) (R : eatv) : mat5 := fun a b c j k =>
  eatr_X3C_11 d H T R a b c j k - 1 / 2 * (sumn (nob d) (fun m => (eatr_X_ab_voo d H T R a m j) * (x_bb T b c m k))).
(** ccpy/eomcc/eaeom3.py, build_HR_3C, line 170 *)
Definition eatr_X3C_13 (d : dims) (H : ints) (T : amps) (R : eatv) : mat5 := fun a b c j k =>
  eatr_X3C_12 d H T R a b c j k - sumn (noa d) (fun m => (eatr_X_ab_ovo d H T R m c k) * (x_ab T a b m j)).
(** ccpy/eomcc/eaeom3.py, build_HR_3C, line 171 *)
Definition eatr_X3C_14 (d : dims) (H : ints) (T : amps) (R : eatv) : mat5 := fun a b c j k =>
  eatr_X3C_13 d H T R a b c j k + 1 / 2 * (sumn (nub d) (fun e => (eatr_X_ab_vvv d H T R a b e) * (x_bb T e c j k))).
(** ccpy/eomcc/eaeom3.py, build_HR_3C, line 172 *)
Definition eatr_X3C_15 (d : dims) (H : ints) (T : amps) (R : eatv) : mat5 := fun a b c j k =>
  eatr_X3C_14 d H T R a b c j k - eatr_X3C_14 d H T R a c b j k.
(** ccpy/eomcc/eaeom3.py, build_HR_3C, line 173 *)
Definition eatr_X3C_16 (d : dims) (H : ints) (T : amps) (R : eatv) : mat5 := fun a b c j k =>
  eatr_X3C_15 d H T R a b c j k - eatr_X3C_15 d H T R a b c k j.
(** ccpy/eomcc/eaeom3.py (HR, lines 28-40): the vector returned *)
Definition eat_HR (d : dims) (H : ints) (T : amps) (R : eatv) : eatv := mkEat (eatr_X1A_7 d H T R) (eatr_X2A_13 d H T R) (eatr_X2B_16 d H T R) (eatr_X3A_12 d H T R) (eatr_X3B_23 d H T R) (eatr_X3C_16 d H T R).
(** ccpy/eomcc/dipeom4.py: blocks of the operator, axes ab: oO, aba: oOvo, abb: oOVO, abaa: oOvvoo, abab: oOvVoO, abbb: oOVVOO (o, v occupied and unoccupied; capitals beta) *)
Record dipqv := mkDipq { dipq_ab : mat2; dipq_aba : mat4; dipq_abb : mat4; dipq_abaa : mat6; dipq_abab : mat6; dipq_abbb : mat6 }.
(** ccpy/eomcc/dipeom4_intermediates.py, get_dipeom4_intermediates, lines 12-16 *)
Definition dipqr_X_ab_ov (d : dims) (H : ints) (T : amps) (R : dipqv) : mat2 := fun i e =>
  sumn (noa d) (fun m => sumn (nob d) (fun n => (i_ab_ooov H m n i e) * (dipq_ab R m n))) - sumn (noa d) (fun n => sumn (nob d) (fun m => sumn (nua d) (fun f => (i_ab_oovv H n m f e) * (dipq_aba R i m f n)))) - 1 / 2 * (sumn (nob d) (fun n => sumn (nob d) (fun m => sumn (nub d) (fun f => (i_bb_oovv H n m f e) * (dipq_abb R i m f n))))).
(** ccpy/eomcc/dipeom4_intermediates.py, get_dipeom4_intermediates, lines 18-22 *)
Definition dipqr_X_ab_vo (d : dims) (H : ints) (T : amps) (R : dipqv) : mat2 := fun e j =>
  sumn (noa d) (fun m => sumn (nob d) (fun n => (i_ab_oovo H m n e j) * (dipq_ab R m n))) - 1 / 2 * (sumn (noa d) (fun m => sumn (noa d) (fun n => sumn (nua d) (fun f => (i_aa_oovv H m n e f) * (dipq_aba R m j f n))))) - sumn (noa d) (fun m => sumn (nob d) (fun n => sumn (nub d) (fun f => (i_ab_oovv H m n e f) * (dipq_abb R m j f n)))).
(** ccpy/eomcc/dipeom4_intermediates.py, get_dipeom4_intermediates, line 24 *)
Definition dipqr_X_ab_vv (d : dims) (H : ints) (T : amps) (R : dipqv) : mat2 := fun e f =>
  sumn (noa d) (fun m => sumn (nob d) (fun n => (i_ab_oovv H m n e f) * (dipq_ab R m n))).
(** ccpy/eomcc/dipeom4_intermediates.py, get_dipeom4_intermediates, lines 28-37 *)
Definition dipqr_X_aba_oovv (d : dims) (H : ints) (T : amps) (R : dipqv) : mat4 := fun i j c e =>
  sumn (noa d) (fun n => sumn (nua d) (fun f => (i_aa_vovv H c n e f) * (dipq_aba R i j f n))) + sumn (nob d) (fun n => sumn (nub d) (fun f => (i_ab_vovv H c n e f) * (dipq_abb R i j f n))) + sumn (noa d) (fun m => (i_aa_voov H c m i e) * (dipq_ab R m j)) + sumn (noa d) (fun m => sumn (nob d) (fun n => (i_ab_oovo H m n e j) * (dipq_aba R i n c m))) + 1 / 2 * (sumn (noa d) (fun m => sumn (noa d) (fun n => (i_aa_ooov H m n i e) * (dipq_aba R m j c n)))) - sumn (nob d) (fun m => (i_ab_vovo H c m e j) * (dipq_ab R i m)) - 1 / 2 * (sumn (noa d) (fun m => sumn (noa d) (fun n => sumn (nua d) (fun f => (i_aa_oovv H m n e f) * (dipq_abaa R i j c f m n))))) - sumn (noa d) (fun m => sumn (nob d) (fun n => sumn (nub d) (fun f => (i_ab_oovv H m n e f) * (dipq_abab R i j c f m n)))).
(** ccpy/eomcc/dipeom4_intermediates.py, get_dipeom4_intermediates, lines 40-48 *)
Definition dipqr_X_aba_oooo (d : dims) (H : ints) (T : amps) (R : dipqv) : mat4 := fun i j m k =>
  sumn (noa d) (fun n => sumn (nua d) (fun f => (i_aa_ooov H m n k f) * (dipq_aba R i j f n))) + sumn (nob d) (fun n => sumn (nub d) (fun f => (i_ab_ooov H m n k f) * (dipq_abb R i j f n))) - 1 / 2 * (sumn (nob d) (fun n => sumn (nua d) (fun e => (i_ab_oovo H m n e j) * (dipq_aba R i n e k)))) - 1 / 2 * (sumn (noa d) (fun n => (i_aa_oooo H n m i k) * (dipq_ab R n j))) - sumn (nob d) (fun n => (i_ab_oooo H m n k j) * (dipq_ab R i n)) + 1 / 4 * (sumn (noa d) (fun n => sumn (nua d) (fun e => sumn (nua d) (fun f => (i_aa_oovv H m n e f) * (dipq_abaa R i j e f k n))))) + 1 / 2 * (sumn (nob d) (fun n => sumn (nua d) (fun e => sumn (nub d) (fun f => (i_ab_oovv H m n e f) * (dipq_abab R i j e f k n))))).
(** ccpy/eomcc/dipeom4_intermediates.py, get_dipeom4_intermediates, line 50 *)
Definition dipqr_X_aba_oooo_1 (d : dims) (H : ints) (T : amps) (R : dipqv) : mat4 := fun i j m k =>
  dipqr_X_aba_oooo d H T R i j m k - dipqr_X_aba_oooo d H T R k j m i.
(** ccpy/eomcc/dipeom4_intermediates.py, get_dipeom4_intermediates, lines 53-59 *)
Definition dipqr_X_aba_ovvo (d : dims) (H : ints) (T : amps) (R : dipqv) : mat4 := fun i e c k =>
  sumn (noa d) (fun n => sumn (nob d) (fun m => (i_ab_ooov H n m i e) * (dipq_aba R n m c k))) - 1 / 2 * (sumn (nob d) (fun m => sumn (nua d) (fun f => (i_ab_vovv H c m f e) * (dipq_aba R i m f k)))) - sumn (nob d) (fun m => (i_ab_voov H c m k e) * (dipq_ab R i m)) - 1 / 2 * (sumn (noa d) (fun n => sumn (nob d) (fun m => sumn (nua d) (fun f => (i_ab_oovv H n m f e) * (dipq_abaa R i m c f k n))))) - 1 / 4 * (sumn (nob d) (fun m => sumn (nob d) (fun n => sumn (nub d) (fun f => (i_bb_oovv H m n e f) * (dipq_abab R i m c f k n))))).
(** ccpy/eomcc/dipeom4_intermediates.py, get_dipeom4_intermediates, line 61 *)
Definition dipqr_X_aba_ovvo_1 (d : dims) (H : ints) (T : amps) (R : dipqv) : mat4 := fun i e c k =>
  dipqr_X_aba_ovvo d H T R i e c k - dipqr_X_aba_ovvo d H T R k e c i.
(** ccpy/eomcc/dipeom4_intermediates.py, get_dipeom4_intermediates, lines 64-73 *)
Definition dipqr_X_abb_oovv (d : dims) (H : ints) (T : amps) (R : dipqv) : mat4 := fun i j dd e =>
  sumn (noa d) (fun n => sumn (nua d) (fun f => (i_ab_ovvv H n dd f e) * (dipq_aba R i j f n))) + sumn (nob d) (fun n => sumn (nub d) (fun f => (i_bb_vovv H dd n e f) * (dipq_abb R i j f n))) + sumn (nob d) (fun m => (i_bb_voov H dd m j e) * (dipq_ab R i m)) + 1 / 2 * (sumn (nob d) (fun m => sumn (nob d) (fun n => (i_bb_ooov H m n j e) * (dipq_abb R i m dd n)))) + sumn (noa d) (fun n => sumn (nob d) (fun m => (i_ab_ooov H n m i e) * (dipq_abb R n j dd m))) - sumn (noa d) (fun m => (i_ab_ovov H m dd i e) * (dipq_ab R m j)) - sumn (noa d) (fun n => sumn (nob d) (fun m => sumn (nua d) (fun f => (i_ab_oovv H n m f e) * (dipq_abab R i j f dd n m)))) - 1 / 2 * (sumn (nob d) (fun m => sumn (nob d) (fun n => sumn (nub d) (fun f => (i_bb_oovv H m n e f) * (dipq_abbb R i j f dd n m))))).
(** ccpy/eomcc/dipeom4_intermediates.py, get_dipeom4_intermediates, lines 76-84 *)
Definition dipqr_X_abb_oooo (d : dims) (H : ints) (T : amps) (R : dipqv) : mat4 := fun i j m k =>
  sumn (noa d) (fun n => sumn (nua d) (fun f => (i_ab_oovo H n m f k) * (dipq_aba R i j f n))) + sumn (nob d) (fun n => sumn (nub d) (fun f => (i_bb_ooov H m n k f) * (dipq_abb R i j f n))) - sumn (noa d) (fun n => (i_ab_oooo H n m i k) * (dipq_ab R n j)) - 1 / 2 * (sumn (noa d) (fun n => sumn (nub d) (fun e => (i_ab_ooov H n m i e) * (dipq_abb R n j e k)))) - 1 / 2 * (sumn (nob d) (fun n => (i_bb_oooo H n m j k) * (dipq_ab R i n))) + 1 / 2 * (sumn (noa d) (fun n => sumn (nua d) (fun f => sumn (nub d) (fun e => (i_ab_oovv H n m f e) * (dipq_abab R i j f e n k))))) + 1 / 4 * (sumn (nob d) (fun n => sumn (nub d) (fun e => sumn (nub d) (fun f => (i_bb_oovv H m n e f) * (dipq_abbb R i j f e n k))))).
(** ccpy/eomcc/dipeom4_intermediates.py, get_dipeom4_intermediates, line 86 *)
Definition dipqr_X_abb_oooo_1 (d : dims) (H : ints) (T : amps) (R : dipqv) : mat4 := fun i j m k =>
  dipqr_X_abb_oooo d H T R i j m k - dipqr_X_abb_oooo d H T R i k m j.
(** ccpy/eomcc/dipeom4_intermediates.py, get_dipeom4_intermediates, lines 89-95 *)
Definition dipqr_X_abb_vovo (d : dims) (H : ints) (T : amps) (R : dipqv) : mat4 := fun e j dd l =>
  (-1) / 2 * (sumn (noa d) (fun m => sumn (nub d) (fun f => (i_ab_ovvv H m dd e f) * (dipq_abb R m j f l)))) + sumn (noa d) (fun m => sumn (nob d) (fun n => (i_ab_oovo H m n e j) * (dipq_abb R m n dd l))) - sumn (noa d) (fun m => (i_ab_ovvo H m dd e l) * (dipq_ab R m j)) - 1 / 4 * (sumn (noa d) (fun m => sumn (noa d) (fun n => sumn (nua d) (fun f => (i_aa_oovv H m n e f) * (dipq_abab R m j f dd n l))))) - 1 / 2 * (sumn (noa d) (fun m => sumn (nob d) (fun n => sumn (nub d) (fun f => (i_ab_oovv H m n e f) * (dipq_abbb R m j f dd n l))))).
(** ccpy/eomcc/dipeom4_intermediates.py, get_dipeom4_intermediates, line 97 *)
Definition dipqr_X_abb_vovo_1 (d : dims) (H : ints) (T : amps) (R : dipqv) : mat4 := fun e j dd l =>
  dipqr_X_abb_vovo d H T R e j dd l - dipqr_X_abb_vovo d H T R e l dd j.
(** ccpy/eomcc/dipeom4.py, build_HR_2B, line 52 *)
Definition dipqr_x2b (d : dims) (H : ints) (T : amps) (R : dipqv) : mat2 := fun i j =>
  (- (sumn (noa d) (fun m => (i_a_oo H m i) * (dipq_ab R m j)))).
(** ccpy/eomcc/dipeom4.py, build_HR_2B, line 53 *)
Definition dipqr_x2b_1 (d : dims) (H : ints) (T : amps) (R : dipqv) : mat2 := fun i j =>
  dipqr_x2b d H T R i j - sumn (nob d) (fun m => (i_b_oo H m j) * (dipq_ab R i m)).
(** ccpy/eomcc/dipeom4.py, build_HR_2B, line 54 *)
Definition dipqr_x2b_2 (d : dims) (H : ints) (T : amps) (R : dipqv) : mat2 := fun i j =>
  dipqr_x2b_1 d H T R i j + sumn (noa d) (fun m => sumn (nob d) (fun n => (i_ab_oooo H m n i j) * (dipq_ab R m n))).
(** ccpy/eomcc/dipeom4.py, build_HR_2B, line 55 *)
Definition dipqr_x2b_3 (d : dims) (H : ints) (T : amps) (R : dipqv) : mat2 := fun i j =>
  dipqr_x2b_2 d H T R i j + sumn (noa d) (fun m => sumn (nua d) (fun e => (i_a_ov H m e) * (dipq_aba R i j e m))).
(** ccpy/eomcc/dipeom4.py, build_HR_2B, line 56 *)
Definition dipqr_x2b_4 (d : dims) (H : ints) (T : amps) (R : dipqv) : mat2 := fun i j =>
  dipqr_x2b_3 d H T R i j + sumn (nob d) (fun m => sumn (nub d) (fun e => (i_b_ov H m e) * (dipq_abb R i j e m))).
(** ccpy/eomcc/dipeom4.py, build_HR_2B, line 57 *)
Definition dipqr_x2b_5 (d : dims) (H : ints) (T : amps) (R : dipqv) : mat2 := fun i j =>
  dipqr_x2b_4 d H T R i j - sumn (noa d) (fun n => sumn (nob d) (fun m => sumn (nua d) (fun f => (i_ab_oovo H n m f j) * (dipq_aba R i m f n)))).
(** ccpy/eomcc/dipeom4.py, build_HR_2B, line 58 *)
Definition dipqr_x2b_6 (d : dims) (H : ints) (T : amps) (R : dipqv) : mat2 := fun i j =>
  dipqr_x2b_5 d H T R i j - 1 / 2 * (sumn (nob d) (fun m => sumn (nob d) (fun n => sumn (nub d) (fun f => (i_bb_ooov H m n j f) * (dipq_abb R i m f n))))).
(** ccpy/eomcc/dipeom4.py, build_HR_2B, line 59 *)
Definition dipqr_x2b_7 (d : dims) (H : ints) (T : amps) (R : dipqv) : mat2 := fun i j =>
  dipqr_x2b_6 d H T R i j - 1 / 2 * (sumn (noa d) (fun m => sumn (noa d) (fun n => sumn (nua d) (fun f => (i_aa_ooov H m n i f) * (dipq_aba R m j f n))))).
(** ccpy/eomcc/dipeom4.py, build_HR_2B, line 60 *)
Definition dipqr_x2b_8 (d : dims) (H : ints) (T : amps) (R : dipqv) : mat2 := fun i j =>
  dipqr_x2b_7 d H T R i j - sumn (noa d) (fun m => sumn (nob d) (fun n => sumn (nub d) (fun f => (i_ab_ooov H m n i f) * (dipq_abb R m j f n)))).
(** ccpy/eomcc/dipeom4.py, build_HR_2B, line 62 *)
Definition dipqr_x2b_9 (d : dims) (H : ints) (T : amps) (R : dipqv) : mat2 := fun i j =>
  dipqr_x2b_8 d H T R i j + 1 / 4 * (sumn (noa d) (fun m => sumn (noa d) (fun n => sumn (nua d) (fun e => sumn (nua d) (fun f => (i_aa_oovv H m n e f) * (dipq_abaa R i j e f m n)))))).
(** ccpy/eomcc/dipeom4.py, build_HR_2B, line 63 *)
Definition dipqr_x2b_10 (d : dims) (H : ints) (T : amps) (R : dipqv) : mat2 := fun i j =>
  dipqr_x2b_9 d H T R i j + sumn (noa d) (fun m => sumn (nob d) (fun n => sumn (nua d) (fun e => sumn (nub d) (fun f => (i_ab_oovv H m n e f) * (dipq_abab R i j e f m n))))).
(** ccpy/eomcc/dipeom4.py, build_HR_2B, line 64 *)
Definition dipqr_x2b_11 (d : dims) (H : ints) (T : amps) (R : dipqv) : mat2 := fun i j =>
  dipqr_x2b_10 d H T R i j + 1 / 4 * (sumn (nob d) (fun m => sumn (nob d) (fun n => sumn (nub d) (fun e => sumn (nub d) (fun f => (i_bb_oovv H m n e f) * (dipq_abbb R i j e f m n)))))).
(** ccpy/eomcc/dipeom4.py, build_HR_3B, line 68 *)
Definition dipqr_x3b (d : dims) (H : ints) (T : amps) (R : dipqv) : mat4 := fun i j c k =>
  (-1) / 2 * (sumn (noa d) (fun m => (i_aa_vooo H c m k i) * (dipq_ab R m j))).
(** ccpy/eomcc/dipeom4.py, build_HR_3B, line 69 *)
Definition dipqr_x3b_1 (d : dims) (H : ints) (T : amps) (R : dipqv) : mat4 := fun i j c k =>
  dipqr_x3b d H T R i j c k - sumn (nob d) (fun m => (i_ab_vooo H c m k j) * (dipq_ab R i m)).
(** ccpy/eomcc/dipeom4.py, build_HR_3B, line 70 *)
Definition dipqr_x3b_2 (d : dims) (H : ints) (T : amps) (R : dipqv) : mat4 := fun i j c k =>
  dipqr_x3b_1 d H T R i j c k - sumn (noa d) (fun m => (i_a_oo H m k) * (dipq_aba R i j c m)).
(** ccpy/eomcc/dipeom4.py, build_HR_3B, line 71 *)
Definition dipqr_x3b_3 (d : dims) (H : ints) (T : amps) (R : dipqv) : mat4 := fun i j c k =>
  dipqr_x3b_2 d H T R i j c k - 1 / 2 * (sumn (nob d) (fun m => (i_b_oo H m j) * (dipq_aba R i m c k))).
(** ccpy/eomcc/dipeom4.py, build_HR_3B, line 72 *)
Definition dipqr_x3b_4 (d : dims) (H : ints) (T : amps) (R : dipqv) : mat4 := fun i j c k =>
  dipqr_x3b_3 d H T R i j c k + 1 / 2 * (sumn (nua d) (fun e => (i_a_vv H c e) * (dipq_aba R i j e k))).
(** ccpy/eomcc/dipeom4.py, build_HR_3B, line 73 *)
Definition dipqr_x3b_5 (d : dims) (H : ints) (T : amps) (R : dipqv) : mat4 := fun i j c k =>
  dipqr_x3b_4 d H T R i j c k + sumn (noa d) (fun m => sumn (nua d) (fun e => (i_aa_voov H c m k e) * (dipq_aba R i j e m))).
(** ccpy/eomcc/dipeom4.py, build_HR_3B, line 74 *)
Definition dipqr_x3b_6 (d : dims) (H : ints) (T : amps) (R : dipqv) : mat4 := fun i j c k =>
  dipqr_x3b_5 d H T R i j c k + sumn (nob d) (fun m => sumn (nub d) (fun e => (i_ab_voov H c m k e) * (dipq_abb R i j e m))).
(** ccpy/eomcc/dipeom4.py, build_HR_3B, line 75 *)
Definition dipqr_x3b_7 (d : dims) (H : ints) (T : amps) (R : dipqv) : mat4 := fun i j c k =>
  dipqr_x3b_6 d H T R i j c k + sumn (noa d) (fun m => sumn (nob d) (fun n => (i_ab_oooo H m n i j) * (dipq_aba R m n c k))).
(** ccpy/eomcc/dipeom4.py, build_HR_3B, line 76 *)
Definition dipqr_x3b_8 (d : dims) (H : ints) (T : amps) (R : dipqv) : mat4 := fun i j c k =>
  dipqr_x3b_7 d H T R i j c k + 1 / 4 * (sumn (noa d) (fun m => sumn (noa d) (fun n => (i_aa_oooo H m n i k) * (dipq_aba R m j c n)))).
(** ccpy/eomcc/dipeom4.py, build_HR_3B, line 77 *)
Definition dipqr_x3b_9 (d : dims) (H : ints) (T : amps) (R : dipqv) : mat4 := fun i j c k =>
  dipqr_x3b_8 d H T R i j c k - 1 / 2 * (sumn (nob d) (fun m => sumn (nua d) (fun e => (i_ab_vovo H c m e j) * (dipq_aba R i m e k)))).
(** ccpy/eomcc/dipeom4.py, build_HR_3B, line 78 *)
Definition dipqr_x3b_10 (d : dims) (H : ints) (T : amps) (R : dipqv) : mat4 := fun i j c k =>
  dipqr_x3b_9 d H T R i j c k + sumn (nub d) (fun e => (dipqr_X_ab_ov d H T R i e) * (x_ab T c e k j)).
(** ccpy/eomcc/dipeom4.py, build_HR_3B, line 79 *)
Definition dipqr_x3b_11 (d : dims) (H : ints) (T : amps) (R : dipqv) : mat4 := fun i j c k =>
  dipqr_x3b_10 d H T R i j c k + 1 / 2 * (sumn (nua d) (fun e => (dipqr_X_ab_vo d H T R e j) * (x_aa T e c i k))).
(** ccpy/eomcc/dipeom4.py, build_HR_3B, line 81 *)
Definition dipqr_x3b_12 (d : dims) (H : ints) (T : amps) (R : dipqv) : mat4 := fun i j c k =>
  dipqr_x3b_11 d H T R i j c k + 1 / 2 * (sumn (noa d) (fun m => sumn (nua d) (fun e => (i_a_ov H m e) * (dipq_abaa R i j c e k m)))).
(** ccpy/eomcc/dipeom4.py, build_HR_3B, line 82 *)
Definition dipqr_x3b_13 (d : dims) (H : ints) (T : amps) (R : dipqv) : mat4 := fun i j c k =>
  dipqr_x3b_12 d H T R i j c k + 1 / 2 * (sumn (nob d) (fun m => sumn (nub d) (fun e => (i_b_ov H m e) * (dipq_abab R i j c e k m)))).
(** ccpy/eomcc/dipeom4.py, build_HR_3B, line 83 *)
Definition dipqr_x3b_14 (d : dims) (H : ints) (T : amps) (R : dipqv) : mat4 := fun i j c k =>
  dipqr_x3b_13 d H T R i j c k - 1 / 2 * (sumn (noa d) (fun m => sumn (noa d) (fun n => sumn (nua d) (fun f => (i_aa_ooov H m n i f) * (dipq_abaa R m j c f k n))))).
(** ccpy/eomcc/dipeom4.py, build_HR_3B, line 84 *)
Definition dipqr_x3b_15 (d : dims) (H : ints) (T : amps) (R : dipqv) : mat4 := fun i j c k =>
  dipqr_x3b_14 d H T R i j c k - sumn (noa d) (fun m => sumn (nob d) (fun n => sumn (nub d) (fun f => (i_ab_ooov H m n i f) * (dipq_abab R m j c f k n)))).
(** ccpy/eomcc/dipeom4.py, build_HR_3B, line 85 *)
Definition dipqr_x3b_16 (d : dims) (H : ints) (T : amps) (R : dipqv) : mat4 := fun i j c k =>
  dipqr_x3b_15 d H T R i j c k - 1 / 2 * (sumn (noa d) (fun n => sumn (nob d) (fun m => sumn (nua d) (fun f => (i_ab_oovo H n m f j) * (dipq_abaa R i m c f k n))))).
(** ccpy/eomcc/dipeom4.py, build_HR_3B, line 86 *)
Definition dipqr_x3b_17 (d : dims) (H : ints) (T : amps) (R : dipqv) : mat4 := fun i j c k =>
  dipqr_x3b_16 d H T R i j c k - 1 / 4 * (sumn (nob d) (fun m => sumn (nob d) (fun n => sumn (nub d) (fun f => (i_bb_ooov H m n j f) * (dipq_abab R i m c f k n))))).
(** ccpy/eomcc/dipeom4.py, build_HR_3B, line 87 *)
Definition dipqr_x3b_18 (d : dims) (H : ints) (T : amps) (R : dipqv) : mat4 := fun i j c k =>
  dipqr_x3b_17 d H T R i j c k + 1 / 4 * (sumn (noa d) (fun n => sumn (nua d) (fun e => sumn (nua d) (fun f => (i_aa_vovv H c n e f) * (dipq_abaa R i j e f k n))))).
(** ccpy/eomcc/dipeom4.py, build_HR_3B, line 88 *)
Definition dipqr_x3b_19 (d : dims) (H : ints) (T : amps) (R : dipqv) : mat4 := fun i j c k =>
  dipqr_x3b_18 d H T R i j c k + 1 / 2 * (sumn (nob d) (fun n => sumn (nua d) (fun e => sumn (nub d) (fun f => (i_ab_vovv H c n e f) * (dipq_abab R i j e f k n))))).
(** ccpy/eomcc/dipeom4.py, build_HR_3B, line 90 *)
Definition dipqr_x3b_20 (d : dims) (H : ints) (T : amps) (R : dipqv) : mat4 := fun i j c k =>
  dipqr_x3b_19 d H T R i j c k - dipqr_x3b_19 d H T R k j c i.
(** ccpy/eomcc/dipeom4.py, build_HR_3C, line 94 *)
Definition dipqr_x3c (d : dims) (H : ints) (T : amps) (R : dipqv) : mat4 := fun i j c k =>
  (- (sumn (noa d) (fun m => (i_ab_ovoo H m c i k) * (dipq_ab R m j)))).
(** ccpy/eomcc/dipeom4.py, build_HR_3C, line 95 *)
Definition dipqr_x3c_1 (d : dims) (H : ints) (T : amps) (R : dipqv) : mat4 := fun i j c k =>
  dipqr_x3c d H T R i j c k - 1 / 2 * (sumn (nob d) (fun m => (i_bb_vooo H c m k j) * (dipq_ab R i m))).
(** ccpy/eomcc/dipeom4.py, build_HR_3C, line 96 *)
Definition dipqr_x3c_2 (d : dims) (H : ints) (T : amps) (R : dipqv) : mat4 := fun i j c k =>
  dipqr_x3c_1 d H T R i j c k - 1 / 2 * (sumn (noa d) (fun m => (i_a_oo H m i) * (dipq_abb R m j c k))).
(** ccpy/eomcc/dipeom4.py, build_HR_3C, line 97 *)
Definition dipqr_x3c_3 (d : dims) (H : ints) (T : amps) (R : dipqv) : mat4 := fun i j c k =>
  dipqr_x3c_2 d H T R i j c k - sumn (nob d) (fun m => (i_b_oo H m j) * (dipq_abb R i m c k)).
(** ccpy/eomcc/dipeom4.py, build_HR_3C, line 98 *)
Definition dipqr_x3c_4 (d : dims) (H : ints) (T : amps) (R : dipqv) : mat4 := fun i j c k =>
  dipqr_x3c_3 d H T R i j c k + 1 / 2 * (sumn (nub d) (fun e => (i_b_vv H c e) * (dipq_abb R i j e k))).
(** ccpy/eomcc/dipeom4.py, build_HR_3C, line 99 *)
Definition dipqr_x3c_5 (d : dims) (H : ints) (T : amps) (R : dipqv) : mat4 := fun i j c k =>
  dipqr_x3c_4 d H T R i j c k + sumn (noa d) (fun m => sumn (nob d) (fun n => (i_ab_oooo H m n i j) * (dipq_abb R m n c k))).
(** ccpy/eomcc/dipeom4.py, build_HR_3C, line 100 *)
Definition dipqr_x3c_6 (d : dims) (H : ints) (T : amps) (R : dipqv) : mat4 := fun i j c k =>
  dipqr_x3c_5 d H T R i j c k + 1 / 4 * (sumn (nob d) (fun m => sumn (nob d) (fun n => (i_bb_oooo H m n j k) * (dipq_abb R i m c n)))).
(** ccpy/eomcc/dipeom4.py, build_HR_3C, line 101 *)
Definition dipqr_x3c_7 (d : dims) (H : ints) (T : amps) (R : dipqv) : mat4 := fun i j c k =>
  dipqr_x3c_6 d H T R i j c k + sumn (noa d) (fun m => sumn (nua d) (fun e => (i_ab_ovvo H m c e k) * (dipq_aba R i j e m))).
(** ccpy/eomcc/dipeom4.py, build_HR_3C, line 102 *)
Definition dipqr_x3c_8 (d : dims) (H : ints) (T : amps) (R : dipqv) : mat4 := fun i j c k =>
  dipqr_x3c_7 d H T R i j c k + sumn (nob d) (fun m => sumn (nub d) (fun e => (i_bb_voov H c m k e) * (dipq_abb R i j e m))).
(** ccpy/eomcc/dipeom4.py, build_HR_3C, line 103 *)
Definition dipqr_x3c_9 (d : dims) (H : ints) (T : amps) (R : dipqv) : mat4 := fun i j c k =>
  dipqr_x3c_8 d H T R i j c k - 1 / 2 * (sumn (noa d) (fun m => sumn (nub d) (fun e => (i_ab_ovov H m c i e) * (dipq_abb R m j e k)))).
(** ccpy/eomcc/dipeom4.py, build_HR_3C, line 104 *)
Definition dipqr_x3c_10 (d : dims) (H : ints) (T : amps) (R : dipqv) : mat4 := fun i j c k =>
  dipqr_x3c_9 d H T R i j c k + sumn (nua d) (fun e => (dipqr_X_ab_vo d H T R e j) * (x_ab T e c i k)).
(** ccpy/eomcc/dipeom4.py, build_HR_3C, line 105 *)
Definition dipqr_x3c_11 (d : dims) (H : ints) (T : amps) (R : dipqv) : mat4 := fun i j c k =>
  dipqr_x3c_10 d H T R i j c k + 1 / 2 * (sumn (nub d) (fun e => (dipqr_X_ab_ov d H T R i e) * (x_bb T e c j k))).
(** ccpy/eomcc/dipeom4.py, build_HR_3C, line 107 *)
Definition dipqr_x3c_12 (d : dims) (H : ints) (T : amps) (R : dipqv) : mat4 := fun i j c k =>
  dipqr_x3c_11 d H T R i j c k + 1 / 2 * (sumn (noa d) (fun m => sumn (nua d) (fun e => (i_a_ov H m e) * (dipq_abab R i j e c m k)))).
(** ccpy/eomcc/dipeom4.py, build_HR_3C, line 108 *)
Definition dipqr_x3c_13 (d : dims) (H : ints) (T : amps) (R : dipqv) : mat4 := fun i j c k =>
  dipqr_x3c_12 d H T R i j c k + 1 / 2 * (sumn (nob d) (fun m => sumn (nub d) (fun e => (i_b_ov H m e) * (dipq_abbb R i j e c m k)))).
(** ccpy/eomcc/dipeom4.py, build_HR_3C, line 109 *)
Definition dipqr_x3c_14 (d : dims) (H : ints) (T : amps) (R : dipqv) : mat4 := fun i j c k =>
  dipqr_x3c_13 d H T R i j c k + 1 / 2 * (sumn (noa d) (fun n => sumn (nua d) (fun f => sumn (nub d) (fun e => (i_ab_ovvv H n c f e) * (dipq_abab R i j f e n k))))).
(** ccpy/eomcc/dipeom4.py, build_HR_3C, line 110 *)
Definition dipqr_x3c_15 (d : dims) (H : ints) (T : amps) (R : dipqv) : mat4 := fun i j c k =>
  dipqr_x3c_14 d H T R i j c k + 1 / 4 * (sumn (nob d) (fun n => sumn (nub d) (fun e => sumn (nub d) (fun f => (i_bb_vovv H c n e f) * (dipq_abbb R i j e f k n))))).
(** ccpy/eomcc/dipeom4.py, build_HR_3C, line 111 *)
Definition dipqr_x3c_16 (d : dims) (H : ints) (T : amps) (R : dipqv) : mat4 := fun i j c k =>
  dipqr_x3c_15 d H T R i j c k - sumn (noa d) (fun n => sumn (nob d) (fun m => sumn (nua d) (fun f => (i_ab_oovo H n m f k) * (dipq_abab R i j f c n m)))).
(** ccpy/eomcc/dipeom4.py, build_HR_3C, line 112 *)
Definition dipqr_x3c_17 (d : dims) (H : ints) (T : amps) (R : dipqv) : mat4 := fun i j c k =>
  dipqr_x3c_16 d H T R i j c k - 1 / 2 * (sumn (nob d) (fun m => sumn (nob d) (fun n => sumn (nub d) (fun f => (i_bb_ooov H m n k f) * (dipq_abbb R i j c f m n))))).
(** ccpy/eomcc/dipeom4.py, build_HR_3C, line 113 *)
Definition dipqr_x3c_18 (d : dims) (H : ints) (T : amps) (R : dipqv) : mat4 := fun i j c k =>
  dipqr_x3c_17 d H T R i j c k - 1 / 4 * (sumn (noa d) (fun m => sumn (noa d) (fun n => sumn (nua d) (fun f => (i_aa_ooov H m n i f) * (dipq_abab R m j f c n k))))).
(** ccpy/eomcc/dipeom4.py, build_HR_3C, line 114 *)
Definition dipqr_x3c_19 (d : dims) (H : ints) (T : amps) (R : dipqv) : mat4 := fun i j c k =>
  dipqr_x3c_18 d H T R i j c k - 1 / 2 * (sumn (noa d) (fun m => sumn (nob d) (fun n => sumn (nub d) (fun f => (i_ab_ooov H m n i f) * (dipq_abbb R m j f c n k))))).
(** ccpy/eomcc/dipeom4.py, build_HR_3C, line 116 *)
Definition dipqr_x3c_20 (d : dims) (H : ints) (T : amps) (R : dipqv) : mat4 := fun i j c k =>
  dipqr_x3c_19 d H T R i j c k - dipqr_x3c_19 d H T R i k c j.
(** ccpy/eomcc/dipeom4.py, build_HR_4B, line 121 *)
Definition dipqr_x4b (d : dims) (H : ints) (T : amps) (R : dipqv) : mat6 := fun i j c dd k l =>
  (-1) / 2 * (sumn (noa d) (fun m => (i_aa_vooo H c m k l) * (dipq_aba R i j dd m))).
(** ccpy/eomcc/dipeom4.py, build_HR_4B, line 122 *)
Definition dipqr_x4b_1 (d : dims) (H : ints) (T : amps) (R : dipqv) : mat6 := fun i j c dd k l =>
  dipqr_x4b d H T R i j c dd k l - 1 / 2 * (sumn (nob d) (fun m => (i_ab_vooo H c m k j) * (dipq_aba R i m dd l))).
(** ccpy/eomcc/dipeom4.py, build_HR_4B, line 123 *)
Definition dipqr_x4b_2 (d : dims) (H : ints) (T : amps) (R : dipqv) : mat6 := fun i j c dd k l =>
  dipqr_x4b_1 d H T R i j c dd k l + 1 / 4 * (sumn (nua d) (fun e => (i_aa_vvov H c dd k e) * (dipq_aba R i j e l))).
(** ccpy/eomcc/dipeom4.py, build_HR_4B, line 124 *)
Definition dipqr_x4b_3 (d : dims) (H : ints) (T : amps) (R : dipqv) : mat6 := fun i j c dd k l =>
  dipqr_x4b_2 d H T R i j c dd k l + 1 / 2 * (sumn (nua d) (fun e => (dipqr_X_aba_oovv d H T R i j dd e) * (x_aa T c e k l))).
(** ccpy/eomcc/dipeom4.py, build_HR_4B, line 125 *)
Definition dipqr_x4b_4 (d : dims) (H : ints) (T : amps) (R : dipqv) : mat6 := fun i j c dd k l =>
  dipqr_x4b_3 d H T R i j c dd k l - 1 / 4 * (sumn (noa d) (fun m => (dipqr_X_aba_oooo_1 d H T R i j m l) * (x_aa T c dd k m))).
(** ccpy/eomcc/dipeom4.py, build_HR_4B, line 126 *)
Definition dipqr_x4b_5 (d : dims) (H : ints) (T : amps) (R : dipqv) : mat6 := fun i j c dd k l =>
  dipqr_x4b_4 d H T R i j c dd k l + 1 / 2 * (sumn (nub d) (fun e => (dipqr_X_aba_ovvo_1 d H T R i e c k) * (x_ab T dd e l j))).
(** ccpy/eomcc/dipeom4.py, build_HR_4B, line 128 *)
Definition dipqr_x4b_6 (d : dims) (H : ints) (T : amps) (R : dipqv) : mat6 := fun i j c dd k l =>
  dipqr_x4b_5 d H T R i j c dd k l - 1 / 4 * (sumn (noa d) (fun m => (i_a_oo H m l) * (dipq_abaa R i j c dd k m))).
(** ccpy/eomcc/dipeom4.py, build_HR_4B, line 129 *)
Definition dipqr_x4b_7 (d : dims) (H : ints) (T : amps) (R : dipqv) : mat6 := fun i j c dd k l =>
  dipqr_x4b_6 d H T R i j c dd k l - 1 / 12 * (sumn (nob d) (fun m => (i_b_oo H m j) * (dipq_abaa R i m c dd k l))).
(** ccpy/eomcc/dipeom4.py, build_HR_4B, line 130 *)
Definition dipqr_x4b_8 (d : dims) (H : ints) (T : amps) (R : dipqv) : mat6 := fun i j c dd k l =>
  dipqr_x4b_7 d H T R i j c dd k l + 1 / 6 * (sumn (nua d) (fun e => (i_a_vv H dd e) * (dipq_abaa R i j c e k l))).
(** ccpy/eomcc/dipeom4.py, build_HR_4B, line 131 *)
Definition dipqr_x4b_9 (d : dims) (H : ints) (T : amps) (R : dipqv) : mat6 := fun i j c dd k l =>
  dipqr_x4b_8 d H T R i j c dd k l + 1 / 24 * (sumn (nua d) (fun e => sumn (nua d) (fun f => (i_aa_vvvv H c dd e f) * (dipq_abaa R i j e f k l)))).
(** ccpy/eomcc/dipeom4.py, build_HR_4B, line 132 *)
Definition dipqr_x4b_10 (d : dims) (H : ints) (T : amps) (R : dipqv) : mat6 := fun i j c dd k l =>
  dipqr_x4b_9 d H T R i j c dd k l + 1 / 8 * (sumn (noa d) (fun m => sumn (noa d) (fun n => (i_aa_oooo H m n k l) * (dipq_abaa R i j c dd m n)))).
(** ccpy/eomcc/dipeom4.py, build_HR_4B, line 133 *)
Definition dipqr_x4b_11 (d : dims) (H : ints) (T : amps) (R : dipqv) : mat6 := fun i j c dd k l =>
  dipqr_x4b_10 d H T R i j c dd k l + 1 / 4 * (sumn (noa d) (fun m => sumn (nob d) (fun n => (i_ab_oooo H m n i j) * (dipq_abaa R m n c dd k l)))).
(** ccpy/eomcc/dipeom4.py, build_HR_4B, line 134 *)
Definition dipqr_x4b_12 (d : dims) (H : ints) (T : amps) (R : dipqv) : mat6 := fun i j c dd k l =>
  dipqr_x4b_11 d H T R i j c dd k l + 1 / 2 * (sumn (noa d) (fun m => sumn (nua d) (fun e => (i_aa_voov H dd m l e) * (dipq_abaa R i j c e k m)))).
(** ccpy/eomcc/dipeom4.py, build_HR_4B, line 135 *)
Definition dipqr_x4b_13 (d : dims) (H : ints) (T : amps) (R : dipqv) : mat6 := fun i j c dd k l =>
  dipqr_x4b_12 d H T R i j c dd k l + 1 / 2 * (sumn (nob d) (fun m => sumn (nub d) (fun e => (i_ab_voov H dd m l e) * (dipq_abab R i j c e k m)))).
(** ccpy/eomcc/dipeom4.py, build_HR_4B, line 136 *)
Definition dipqr_x4b_14 (d : dims) (H : ints) (T : amps) (R : dipqv) : mat6 := fun i j c dd k l =>
  dipqr_x4b_13 d H T R i j c dd k l - 1 / 6 * (sumn (nob d) (fun m => sumn (nua d) (fun e => (i_ab_vovo H dd m e j) * (dipq_abaa R i m c e k l)))).
(** ccpy/eomcc/dipeom4.py, build_HR_4B, line 138 *)
Definition dipqr_x4b_15 (d : dims) (H : ints) (T : amps) (R : dipqv) : mat6 := fun i j c dd k l =>
  dipqr_x4b_14 d H T R i j c dd k l + 1 / 2 * (sumn (nua d) (fun e => sumn (nub d) (fun f => (dipqr_X_ab_vv d H T R e f) * (x_aa T e dd i l) * (x_ab T c f k j)))).
(** ccpy/eomcc/dipeom4.py, build_HR_4B, line 140 *)
Definition dipqr_x4b_16 (d : dims) (H : ints) (T : amps) (R : dipqv) : mat6 := fun i j c dd k l =>
  dipqr_x4b_15 d H T R i j c dd k l - dipqr_x4b_15 d H T R i j dd c k l.
(** ccpy/eomcc/dipeom4.py, build_HR_4B, line 141 *)
Definition dipqr_x4b_17 (d : dims) (H : ints) (T : amps) (R : dipqv) : mat6 := fun i j c dd k l =>
  dipqr_x4b_16 d H T R i j c dd k l - dipqr_x4b_16 d H T R i j c dd l k.
(** ccpy/eomcc/dipeom4.py, build_HR_4B, line 142 *)
Definition dipqr_x4b_18 (d : dims) (H : ints) (T : amps) (R : dipqv) : mat6 := fun i j c dd k l =>
  dipqr_x4b_17 d H T R i j c dd k l - (dipqr_x4b_17 d H T R k j c dd i l + dipqr_x4b_17 d H T R l j c dd k i).
(** ccpy/eomcc/dipeom4.py, build_HR_4C, line 147 *)
Definition dipqr_x4c (d : dims) (H : ints) (T : amps) (R : dipqv) : mat6 := fun i j c dd k l =>
  (- (sumn (noa d) (fun m => (i_ab_ovoo H m dd k l) * (dipq_aba R i j c m)))).
(** ccpy/eomcc/dipeom4.py, build_HR_4C, line 148 *)
Definition dipqr_x4c_1 (d : dims) (H : ints) (T : amps) (R : dipqv) : mat6 := fun i j c dd k l =>
  dipqr_x4c d H T R i j c dd k l - sumn (nob d) (fun m => (i_ab_vooo H c m k l) * (dipq_abb R i j dd m)).
(** ccpy/eomcc/dipeom4.py, build_HR_4C, line 149 *)
Definition dipqr_x4c_2 (d : dims) (H : ints) (T : amps) (R : dipqv) : mat6 := fun i j c dd k l =>
  dipqr_x4c_1 d H T R i j c dd k l + 1 / 2 * (sumn (nua d) (fun e => (i_ab_vvvo H c dd e l) * (dipq_aba R i j e k))).
(** ccpy/eomcc/dipeom4.py, build_HR_4C, line 150 *)
Definition dipqr_x4c_3 (d : dims) (H : ints) (T : amps) (R : dipqv) : mat6 := fun i j c dd k l =>
  dipqr_x4c_2 d H T R i j c dd k l + 1 / 2 * (sumn (nub d) (fun e => (i_ab_vvov H c dd k e) * (dipq_abb R i j e l))).
(** ccpy/eomcc/dipeom4.py, build_HR_4C, line 151 *)
Definition dipqr_x4c_4 (d : dims) (H : ints) (T : amps) (R : dipqv) : mat6 := fun i j c dd k l =>
  dipqr_x4c_3 d H T R i j c dd k l - 1 / 4 * (sumn (noa d) (fun m => (i_aa_vooo H c m k i) * (dipq_abb R m j dd l))).
(** ccpy/eomcc/dipeom4.py, build_HR_4C, line 152 *)
Definition dipqr_x4c_5 (d : dims) (H : ints) (T : amps) (R : dipqv) : mat6 := fun i j c dd k l =>
  dipqr_x4c_4 d H T R i j c dd k l - 1 / 4 * (sumn (nob d) (fun m => (i_bb_vooo H dd m l j) * (dipq_aba R i m c k))).
(** ccpy/eomcc/dipeom4.py, build_HR_4C, line 153 *)
Definition dipqr_x4c_6 (d : dims) (H : ints) (T : amps) (R : dipqv) : mat6 := fun i j c dd k l =>
  dipqr_x4c_5 d H T R i j c dd k l - 1 / 2 * (sumn (nob d) (fun m => (dipqr_X_abb_oooo_1 d H T R i j m l) * (x_ab T c dd k m))).
(** ccpy/eomcc/dipeom4.py, build_HR_4C, line 154 *)
Definition dipqr_x4c_7 (d : dims) (H : ints) (T : amps) (R : dipqv) : mat6 := fun i j c dd k l =>
  dipqr_x4c_6 d H T R i j c dd k l - 1 / 2 * (sumn (noa d) (fun m => (dipqr_X_aba_oooo_1 d H T R i j m k) * (x_ab T c dd m l))).
(** ccpy/eomcc/dipeom4.py, build_HR_4C, line 155 *)
Definition dipqr_x4c_8 (d : dims) (H : ints) (T : amps) (R : dipqv) : mat6 := fun i j c dd k l =>
  dipqr_x4c_7 d H T R i j c dd k l + sumn (nua d) (fun e => (dipqr_X_aba_oovv d H T R i j c e) * (x_ab T e dd k l)).
(** ccpy/eomcc/dipeom4.py, build_HR_4C, line 156 *)
Definition dipqr_x4c_9 (d : dims) (H : ints) (T : amps) (R : dipqv) : mat6 := fun i j c dd k l =>
  dipqr_x4c_8 d H T R i j c dd k l + sumn (nub d) (fun e => (dipqr_X_abb_oovv d H T R i j dd e) * (x_ab T c e k l)).
(** ccpy/eomcc/dipeom4.py, build_HR_4C, line 157 *)
Definition dipqr_x4c_10 (d : dims) (H : ints) (T : amps) (R : dipqv) : mat6 := fun i j c dd k l =>
  dipqr_x4c_9 d H T R i j c dd k l + 1 / 4 * (sumn (nub d) (fun e => (dipqr_X_aba_ovvo_1 d H T R i e c k) * (x_bb T e dd j l))).
(** ccpy/eomcc/dipeom4.py, build_HR_4C, line 158 *)
Definition dipqr_x4c_11 (d : dims) (H : ints) (T : amps) (R : dipqv) : mat6 := fun i j c dd k l =>
  dipqr_x4c_10 d H T R i j c dd k l + 1 / 4 * (sumn (nua d) (fun e => (dipqr_X_abb_vovo_1 d H T R e j dd l) * (x_aa T e c i k))).
(** ccpy/eomcc/dipeom4.py, build_HR_4C, line 160 *)
Definition dipqr_x4c_12 (d : dims) (H : ints) (T : amps) (R : dipqv) : mat6 := fun i j c dd k l =>
  dipqr_x4c_11 d H T R i j c dd k l - 1 / 2 * (sumn (noa d) (fun m => (i_a_oo H m i) * (dipq_abab R m j c dd k l))).
(** ccpy/eomcc/dipeom4.py, build_HR_4C, line 161 *)
Definition dipqr_x4c_13 (d : dims) (H : ints) (T : amps) (R : dipqv) : mat6 := fun i j c dd k l =>
  dipqr_x4c_12 d H T R i j c dd k l - 1 / 2 * (sumn (nob d) (fun m => (i_b_oo H m j) * (dipq_abab R i m c dd k l))).
(** ccpy/eomcc/dipeom4.py, build_HR_4C, line 162 *)
Definition dipqr_x4c_14 (d : dims) (H : ints) (T : amps) (R : dipqv) : mat6 := fun i j c dd k l =>
  dipqr_x4c_13 d H T R i j c dd k l + 1 / 4 * (sumn (nua d) (fun e => (i_a_vv H c e) * (dipq_abab R i j e dd k l))).
(** ccpy/eomcc/dipeom4.py, build_HR_4C, line 163 *)
Definition dipqr_x4c_15 (d : dims) (H : ints) (T : amps) (R : dipqv) : mat6 := fun i j c dd k l =>
  dipqr_x4c_14 d H T R i j c dd k l + 1 / 4 * (sumn (nub d) (fun e => (i_b_vv H dd e) * (dipq_abab R i j c e k l))).
(** ccpy/eomcc/dipeom4.py, build_HR_4C, line 164 *)
Definition dipqr_x4c_16 (d : dims) (H : ints) (T : amps) (R : dipqv) : mat6 := fun i j c dd k l =>
  dipqr_x4c_15 d H T R i j c dd k l + 1 / 4 * (sumn (nua d) (fun e => sumn (nub d) (fun f => (i_ab_vvvv H c dd e f) * (dipq_abab R i j e f k l)))).
(** ccpy/eomcc/dipeom4.py, build_HR_4C, line 165 *)
Definition dipqr_x4c_17 (d : dims) (H : ints) (T : amps) (R : dipqv) : mat6 := fun i j c dd k l =>
  dipqr_x4c_16 d H T R i j c dd k l + sumn (noa d) (fun m => sumn (nob d) (fun n => (i_ab_oooo H m n k l) * (dipq_abab R i j c dd m n))).
(** ccpy/eomcc/dipeom4.py, build_HR_4C, line 166 *)
Definition dipqr_x4c_18 (d : dims) (H : ints) (T : amps) (R : dipqv) : mat6 := fun i j c dd k l =>
  dipqr_x4c_17 d H T R i j c dd k l + 1 / 8 * (sumn (noa d) (fun m => sumn (noa d) (fun n => (i_aa_oooo H m n i k) * (dipq_abab R m j c dd n l)))).
(** ccpy/eomcc/dipeom4.py, build_HR_4C, line 167 *)
Definition dipqr_x4c_19 (d : dims) (H : ints) (T : amps) (R : dipqv) : mat6 := fun i j c dd k l =>
  dipqr_x4c_18 d H T R i j c dd k l + 1 / 8 * (sumn (nob d) (fun m => sumn (nob d) (fun n => (i_bb_oooo H m n j l) * (dipq_abab R i m c dd k n)))).
(** ccpy/eomcc/dipeom4.py, build_HR_4C, line 168 *)
Definition dipqr_x4c_20 (d : dims) (H : ints) (T : amps) (R : dipqv) : mat6 := fun i j c dd k l =>
  dipqr_x4c_19 d H T R i j c dd k l + 1 / 2 * (sumn (noa d) (fun m => sumn (nua d) (fun e => (i_aa_voov H c m k e) * (dipq_abab R i j e dd m l)))).
(** ccpy/eomcc/dipeom4.py, build_HR_4C, line 169 *)
Definition dipqr_x4c_21 (d : dims) (H : ints) (T : amps) (R : dipqv) : mat6 := fun i j c dd k l =>
  dipqr_x4c_20 d H T R i j c dd k l + 1 / 2 * (sumn (nob d) (fun m => sumn (nub d) (fun e => (i_ab_voov H c m k e) * (dipq_abbb R i j e dd m l)))).
(** ccpy/eomcc/dipeom4.py, build_HR_4C, line 170 *)
Definition dipqr_x4c_22 (d : dims) (H : ints) (T : amps) (R : dipqv) : mat6 := fun i j c dd k l =>
  dipqr_x4c_21 d H T R i j c dd k l + 1 / 2 * (sumn (noa d) (fun m => sumn (nua d) (fun e => (i_ab_ovvo H m dd e l) * (dipq_abaa R i j c e k m)))).
(** ccpy/eomcc/dipeom4.py, build_HR_4C, line 171 *)
Definition dipqr_x4c_23 (d : dims) (H : ints) (T : amps) (R : dipqv) : mat6 := fun i j c dd k l =>
  dipqr_x4c_22 d H T R i j c dd k l + 1 / 2 * (sumn (nob d) (fun m => sumn (nub d) (fun e => (i_bb_voov H dd m l e) * (dipq_abab R i j c e k m)))).
(** ccpy/eomcc/dipeom4.py, build_HR_4C, line 172 *)
Definition dipqr_x4c_24 (d : dims) (H : ints) (T : amps) (R : dipqv) : mat6 := fun i j c dd k l =>
  dipqr_x4c_23 d H T R i j c dd k l - 1 / 2 * (sumn (nob d) (fun m => sumn (nua d) (fun e => (i_ab_vovo H c m e l) * (dipq_abab R i j e dd k m)))).
(** ccpy/eomcc/dipeom4.py, build_HR_4C, line 173 *)
Definition dipqr_x4c_25 (d : dims) (H : ints) (T : amps) (R : dipqv) : mat6 := fun i j c dd k l =>
  dipqr_x4c_24 d H T R i j c dd k l - 1 / 2 * (sumn (noa d) (fun m => sumn (nub d) (fun e => (i_ab_ovov H m dd k e) * (dipq_abab R i j c e m l)))).
(** ccpy/eomcc/dipeom4.py, build_HR_4C, line 175 *)
Definition dipqr_x4c_26 (d : dims) (H : ints) (T : amps) (R : dipqv) : mat6 := fun i j c dd k l =>
  dipqr_x4c_25 d H T R i j c dd k l + 1 / 4 * (sumn (nua d) (fun e => sumn (nub d) (fun f => (dipqr_X_ab_vv d H T R e f) * (x_aa T e c i k) * (x_bb T f dd j l)))).
(** ccpy/eomcc/dipeom4.py, build_HR_4C, line 176 *)
Definition dipqr_x4c_27 (d : dims) (H : ints) (T : amps) (R : dipqv) : mat6 := fun i j c dd k l =>
  dipqr_x4c_26 d H T R i j c dd k l + sumn (nua d) (fun e => sumn (nub d) (fun f => (dipqr_X_ab_vv d H T R e f) * (x_ab T e dd i l) * (x_ab T c f k j))).
(** ccpy/eomcc/dipeom4.py, build_HR_4C, line 178 *)
Definition dipqr_x4c_28 (d : dims) (H : ints) (T : amps) (R : dipqv) : mat6 := fun i j c dd k l =>
  dipqr_x4c_27 d H T R i j c dd k l - dipqr_x4c_27 d H T R k j c dd i l.
(** ccpy/eomcc/dipeom4.py, build_HR_4C, line 179 *)
Definition dipqr_x4c_29 (d : dims) (H : ints) (T : amps) (R : dipqv) : mat6 := fun i j c dd k l =>
  dipqr_x4c_28 d H T R i j c dd k l - dipqr_x4c_28 d H T R i l c dd k j.
(** ccpy/eomcc/dipeom4.py, build_HR_4D, line 184 *)
Definition dipqr_x4d (d : dims) (H : ints) (T : amps) (R : dipqv) : mat6 := fun i j c dd k l =>
  (-1) / 2 * (sumn (nob d) (fun m => (i_bb_vooo H c m k l) * (dipq_abb R i j dd m))).
(** ccpy/eomcc/dipeom4.py, build_HR_4D, line 185 *)
Definition dipqr_x4d_1 (d : dims) (H : ints) (T : amps) (R : dipqv) : mat6 := fun i j c dd k l =>
  dipqr_x4d d H T R i j c dd k l - 1 / 2 * (sumn (noa d) (fun m => (i_ab_ovoo H m c i k) * (dipq_abb R m j dd l))).
(** ccpy/eomcc/dipeom4.py, build_HR_4D, line 186 *)
Definition dipqr_x4d_2 (d : dims) (H : ints) (T : amps) (R : dipqv) : mat6 := fun i j c dd k l =>
  dipqr_x4d_1 d H T R i j c dd k l + 1 / 4 * (sumn (nub d) (fun e => (i_bb_vvov H c dd k e) * (dipq_abb R i j e l))).
(** ccpy/eomcc/dipeom4.py, build_HR_4D, line 187 *)
Definition dipqr_x4d_3 (d : dims) (H : ints) (T : amps) (R : dipqv) : mat6 := fun i j c dd k l =>
  dipqr_x4d_2 d H T R i j c dd k l - 1 / 4 * (sumn (nob d) (fun m => (dipqr_X_abb_oooo_1 d H T R i j m l) * (x_bb T c dd k m))).
(** ccpy/eomcc/dipeom4.py, build_HR_4D, line 188 *)
Definition dipqr_x4d_4 (d : dims) (H : ints) (T : amps) (R : dipqv) : mat6 := fun i j c dd k l =>
  dipqr_x4d_3 d H T R i j c dd k l + 1 / 2 * (sumn (nub d) (fun e => (dipqr_X_abb_oovv d H T R i j dd e) * (x_bb T c e k l))).
(** ccpy/eomcc/dipeom4.py, build_HR_4D, line 189 *)
Definition dipqr_x4d_5 (d : dims) (H : ints) (T : amps) (R : dipqv) : mat6 := fun i j c dd k l =>
  dipqr_x4d_4 d H T R i j c dd k l + 1 / 2 * (sumn (nua d) (fun e => (dipqr_X_abb_vovo_1 d H T R e j c k) * (x_ab T e dd i l))).
(** ccpy/eomcc/dipeom4.py, build_HR_4D, line 191 *)
Definition dipqr_x4d_6 (d : dims) (H : ints) (T : amps) (R : dipqv) : mat6 := fun i j c dd k l =>
  dipqr_x4d_5 d H T R i j c dd k l - 1 / 4 * (sumn (nob d) (fun m => (i_b_oo H m l) * (dipq_abbb R i j c dd k m))).
(** ccpy/eomcc/dipeom4.py, build_HR_4D, line 192 *)
Definition dipqr_x4d_7 (d : dims) (H : ints) (T : amps) (R : dipqv) : mat6 := fun i j c dd k l =>
  dipqr_x4d_6 d H T R i j c dd k l - 1 / 12 * (sumn (noa d) (fun m => (i_a_oo H m i) * (dipq_abbb R m j c dd k l))).
(** ccpy/eomcc/dipeom4.py, build_HR_4D, line 193 *)
Definition dipqr_x4d_8 (d : dims) (H : ints) (T : amps) (R : dipqv) : mat6 := fun i j c dd k l =>
  dipqr_x4d_7 d H T R i j c dd k l + 1 / 6 * (sumn (nub d) (fun e => (i_b_vv H dd e) * (dipq_abbb R i j c e k l))).
(** ccpy/eomcc/dipeom4.py, build_HR_4D, line 194 *)
Definition dipqr_x4d_9 (d : dims) (H : ints) (T : amps) (R : dipqv) : mat6 := fun i j c dd k l =>
  dipqr_x4d_8 d H T R i j c dd k l + 1 / 24 * (sumn (nub d) (fun e => sumn (nub d) (fun f => (i_bb_vvvv H c dd e f) * (dipq_abbb R i j e f k l)))).
(** ccpy/eomcc/dipeom4.py, build_HR_4D, line 195 *)
Definition dipqr_x4d_10 (d : dims) (H : ints) (T : amps) (R : dipqv) : mat6 := fun i j c dd k l =>
  dipqr_x4d_9 d H T R i j c dd k l + 1 / 8 * (sumn (nob d) (fun m => sumn (nob d) (fun n => (i_bb_oooo H m n k l) * (dipq_abbb R i j c dd m n)))).
(** ccpy/eomcc/dipeom4.py, build_HR_4D, line 196 *)
Definition dipqr_x4d_11 (d : dims) (H : ints) (T : amps) (R : dipqv) : mat6 := fun i j c dd k l =>
  dipqr_x4d_10 d H T R i j c dd k l + 1 / 4 * (sumn (noa d) (fun m => sumn (nob d) (fun n => (i_ab_oooo H m n i j) * (dipq_abbb R m n c dd k l)))).
(** ccpy/eomcc/dipeom4.py, build_HR_4D, line 197 *)
Definition dipqr_x4d_12 (d : dims) (H : ints) (T : amps) (R : dipqv) : mat6 := fun i j c dd k l =>
  dipqr_x4d_11 d H T R i j c dd k l + 1 / 2 * (sumn (noa d) (fun m => sumn (nua d) (fun e => (i_ab_ovvo H m dd e l) * (dipq_abab R i j e c m k)))).
(** ccpy/eomcc/dipeom4.py, build_HR_4D, line 198 *)
Definition dipqr_x4d_13 (d : dims) (H : ints) (T : amps) (R : dipqv) : mat6 := fun i j c dd k l =>
  dipqr_x4d_12 d H T R i j c dd k l + 1 / 2 * (sumn (nob d) (fun m => sumn (nub d) (fun e => (i_bb_voov H dd m l e) * (dipq_abbb R i j c e k m)))).
(** ccpy/eomcc/dipeom4.py, build_HR_4D, line 199 *)
Definition dipqr_x4d_14 (d : dims) (H : ints) (T : amps) (R : dipqv) : mat6 := fun i j c dd k l =>
  dipqr_x4d_13 d H T R i j c dd k l - 1 / 6 * (sumn (noa d) (fun m => sumn (nub d) (fun e => (i_ab_ovov H m dd i e) * (dipq_abbb R m j c e k l)))).
(** ccpy/eomcc/dipeom4.py, build_HR_4D, line 201 *)
Definition dipqr_x4d_15 (d : dims) (H : ints) (T : amps) (R : dipqv) : mat6 := fun i j c dd k l =>
  dipqr_x4d_14 d H T R i j c dd k l + 1 / 2 * (sumn (nua d) (fun e => sumn (nub d) (fun f => (dipqr_X_ab_vv d H T R e f) * (x_ab T e dd i l) * (x_bb T f c j k)))).
(** ccpy/eomcc/dipeom4.py, build_HR_4D, line 203 *)
Definition dipqr_x4d_16 (d : dims) (H : ints) (T : amps) (R : dipqv) : mat6 := fun i j c dd k l =>
  dipqr_x4d_15 d H T R i j c dd k l - dipqr_x4d_15 d H T R i j dd c k l.
(** ccpy/eomcc/dipeom4.py, build_HR_4D, line 204 *)
Definition dipqr_x4d_17 (d : dims) (H : ints) (T : amps) (R : dipqv) : mat6 := fun i j c dd k l =>
  dipqr_x4d_16 d H T R i j c dd k l - dipqr_x4d_16 d H T R i j c dd l k.
(** ccpy/eomcc/dipeom4.py, build_HR_4D, line 205 *)
Definition dipqr_x4d_18 (d : dims) (H : ints) (T : amps) (R : dipqv) : mat6 := fun i j c dd k l =>
  dipqr_x4d_17 d H T R i j c dd k l - (dipqr_x4d_17 d H T R i k c dd j l + dipqr_x4d_17 d H T R i l c dd k j).
(** ccpy/eomcc/dipeom4.py (HR, lines 30-49, flag_RHF = False): the vector returned *)
Definition dipq_HR (d : dims) (H : ints) (T : amps) (R : dipqv) : dipqv := mkDipq (dipqr_x2b_11 d H T R) (dipqr_x3b_20 d H T R) (dipqr_x3c_20 d H T R) (dipqr_x4b_18 d H T R) (dipqr_x4c_29 d H T R) (dipqr_x4d_18 d H T R).
(** ccpy/eomcc/deaeom4.py: blocks of the operator, axes ab: vV, aba: vVvo, abb: vVVO, abaa: vVvvoo, abab: vVvVoO, abbb: vVVVOO (o, v occupied and unoccupied; capitals beta) *)
Record deaqv := mkDeaq { deaq_ab : mat2; deaq_aba : mat4; deaq_abb : mat4; deaq_abaa : mat6; deaq_abab : mat6; deaq_abbb : mat6 }.
(** ccpy/eomcc/deaeom4_intermediates.py, get_deaeom4_intermediates, lines 12-16 *)
Definition deaqr_X_ab_ov (d : dims) (H : ints) (T : amps) (R : deaqv) : mat2 := fun m b =>
  sumn (nua d) (fun e => sumn (nub d) (fun f => (i_ab_ovvv H m b e f) * (deaq_ab R e f))) + 1 / 2 * (sumn (noa d) (fun n => sumn (nua d) (fun e => sumn (nua d) (fun f => (i_aa_oovv H m n e f) * (deaq_aba R e b f n))))) + sumn (nob d) (fun n => sumn (nua d) (fun e => sumn (nub d) (fun f => (i_ab_oovv H m n e f) * (deaq_abb R e b f n)))).
(** ccpy/eomcc/deaeom4_intermediates.py, get_deaeom4_intermediates, lines 18-22 *)
Definition deaqr_X_ab_vo (d : dims) (H : ints) (T : amps) (R : deaqv) : mat2 := fun a m =>
  sumn (nua d) (fun e => sumn (nub d) (fun f => (i_ab_vovv H a m e f) * (deaq_ab R e f))) + 1 / 2 * (sumn (nob d) (fun n => sumn (nub d) (fun f => sumn (nub d) (fun e => (i_bb_oovv H n m f e) * (deaq_abb R a e f n))))) + sumn (noa d) (fun n => sumn (nua d) (fun f => sumn (nub d) (fun e => (i_ab_oovv H n m f e) * (deaq_aba R a e f n)))).
(** ccpy/eomcc/deaeom4_intermediates.py, get_deaeom4_intermediates, line 24 *)
Definition deaqr_X_ab_oo (d : dims) (H : ints) (T : amps) (R : deaqv) : mat2 := fun m n =>
  sumn (nua d) (fun e => sumn (nub d) (fun f => (i_ab_oovv H m n e f) * (deaq_ab R e f))).
(** ccpy/eomcc/deaeom4_intermediates.py, get_deaeom4_intermediates, lines 27-44 *)
Definition deaqr_X_aba_vvoo (d : dims) (H : ints) (T : amps) (R : deaqv) : mat4 := fun a b m k =>
  sumn (noa d) (fun n => sumn (nua d) (fun f => (i_aa_ooov H m n k f) * (deaq_aba R a b f n))) + sumn (nob d) (fun n => sumn (nub d) (fun f => (i_ab_ooov H m n k f) * (deaq_abb R a b f n))) + 1 / 2 * (sumn (nua d) (fun e => sumn (nua d) (fun f => (i_aa_vovv H a m e f) * (deaq_aba R e b f k)))) + sumn (nua d) (fun e => sumn (nub d) (fun f => (i_ab_ovvv H m b e f) * (deaq_aba R a f e k))) - sumn (nua d) (fun e => (i_aa_voov H a m k e) * (deaq_ab R e b)) + sumn (nub d) (fun e => (i_ab_ovov H m b k e) * (deaq_ab R a e)) + 1 / 2 * (sumn (noa d) (fun n => sumn (nua d) (fun e => sumn (nua d) (fun f => (i_aa_oovv H m n e f) * (deaq_abaa R a b e f k n))))) + sumn (nob d) (fun n => sumn (nua d) (fun e => sumn (nub d) (fun f => (i_ab_oovv H m n e f) * (deaq_abab R a b e f k n)))).
(** ccpy/eomcc/deaeom4_intermediates.py, get_deaeom4_intermediates, lines 46-61 *)
Definition deaqr_X_aba_vvvv (d : dims) (H : ints) (T : amps) (R : deaqv) : mat4 := fun a b c e =>
  sumn (noa d) (fun n => sumn (nua d) (fun f => (i_aa_vovv H c n e f) * (deaq_aba R a b f n))) + sumn (nob d) (fun n => sumn (nub d) (fun f => (i_ab_vovv H c n e f) * (deaq_abb R a b f n))) - 1 / 2 * (sumn (noa d) (fun m => sumn (nub d) (fun f => (i_ab_ovvv H m b e f) * (deaq_aba R a f c m)))) + sumn (nub d) (fun f => (i_ab_vvvv H c b e f) * (deaq_ab R a f)) + 1 / 2 * (sumn (nua d) (fun f => (i_aa_vvvv H a c f e) * (deaq_ab R f b))) - 1 / 4 * (sumn (noa d) (fun m => sumn (noa d) (fun n => sumn (nua d) (fun f => (i_aa_oovv H m n e f) * (deaq_abaa R a b c f m n))))) - 1 / 2 * (sumn (noa d) (fun m => sumn (nob d) (fun n => sumn (nub d) (fun f => (i_ab_oovv H m n e f) * (deaq_abab R a b c f m n))))).
(** ccpy/eomcc/deaeom4_intermediates.py, get_deaeom4_intermediates, line 62 *)
Definition deaqr_X_aba_vvvv_1 (d : dims) (H : ints) (T : amps) (R : deaqv) : mat4 := fun a b c e =>
  deaqr_X_aba_vvvv d H T R a b c e - deaqr_X_aba_vvvv d H T R c b a e.
(** ccpy/eomcc/deaeom4_intermediates.py, get_deaeom4_intermediates, lines 64-75 *)
Definition deaqr_X_aba_vovo (d : dims) (H : ints) (T : amps) (R : deaqv) : mat4 := fun a m c k =>
  sumn (nua d) (fun e => sumn (nub d) (fun f => (i_ab_vovv H a m e f) * (deaq_aba R e f c k))) - 1 / 2 * (sumn (noa d) (fun n => sumn (nub d) (fun e => (i_ab_ooov H n m k e) * (deaq_aba R a e c n)))) + sumn (nub d) (fun f => (i_ab_voov H c m k f) * (deaq_ab R a f)) + 1 / 4 * (sumn (nob d) (fun n => sumn (nub d) (fun e => sumn (nub d) (fun f => (i_bb_oovv H m n e f) * (deaq_abab R a e c f k n))))) + 1 / 2 * (sumn (noa d) (fun n => sumn (nua d) (fun f => sumn (nub d) (fun e => (i_ab_oovv H n m f e) * (deaq_abaa R a e c f k n))))).
(** ccpy/eomcc/deaeom4_intermediates.py, get_deaeom4_intermediates, line 76 *)
Definition deaqr_X_aba_vovo_1 (d : dims) (H : ints) (T : amps) (R : deaqv) : mat4 := fun a m c k =>
  deaqr_X_aba_vovo d H T R a m c k - deaqr_X_aba_vovo d H T R c m a k.
(** ccpy/eomcc/deaeom4_intermediates.py, get_deaeom4_intermediates, lines 78-95 *)
Definition deaqr_X_abb_vvoo (d : dims) (H : ints) (T : amps) (R : deaqv) : mat4 := fun a b m k =>
  sumn (noa d) (fun n => sumn (nua d) (fun f => (i_ab_oovo H n m f k) * (deaq_aba R a b f n))) + sumn (nob d) (fun n => sumn (nub d) (fun f => (i_bb_ooov H m n k f) * (deaq_abb R a b f n))) + 1 / 2 * (sumn (nub d) (fun e => sumn (nub d) (fun f => (i_bb_vovv H b m e f) * (deaq_abb R a e f k)))) + sumn (nua d) (fun e => sumn (nub d) (fun f => (i_ab_vovv H a m e f) * (deaq_abb R e b f k))) + sumn (nua d) (fun f => (i_ab_vovo H a m f k) * (deaq_ab R f b)) - sumn (nub d) (fun f => (i_bb_voov H b m k f) * (deaq_ab R a f)) + 1 / 2 * (sumn (nob d) (fun n => sumn (nub d) (fun e => sumn (nub d) (fun f => (i_bb_oovv H m n e f) * (deaq_abbb R a b e f k n))))) + sumn (noa d) (fun n => sumn (nua d) (fun f => sumn (nub d) (fun e => (i_ab_oovv H n m f e) * (deaq_abab R a b f e n k)))).
(** ccpy/eomcc/deaeom4_intermediates.py, get_deaeom4_intermediates, lines 97-112 *)
Definition deaqr_X_abb_vvvv (d : dims) (H : ints) (T : amps) (R : deaqv) : mat4 := fun a b c e =>
  sumn (noa d) (fun n => sumn (nua d) (fun f => (i_ab_ovvv H n c f e) * (deaq_aba R a b f n))) + sumn (nob d) (fun n => sumn (nub d) (fun f => (i_bb_vovv H c n e f) * (deaq_abb R a b f n))) - 1 / 2 * (sumn (nob d) (fun n => sumn (nua d) (fun f => (i_ab_vovv H a n f e) * (deaq_abb R f b c n)))) + 1 / 2 * (sumn (nub d) (fun f => (i_bb_vvvv H b c f e) * (deaq_ab R a f))) + sumn (nua d) (fun f => (i_ab_vvvv H a c f e) * (deaq_ab R f b)) - 1 / 4 * (sumn (nob d) (fun m => sumn (nob d) (fun n => sumn (nub d) (fun f => (i_bb_oovv H m n e f) * (deaq_abbb R a b c f m n))))) - 1 / 2 * (sumn (noa d) (fun n => sumn (nob d) (fun m => sumn (nua d) (fun f => (i_ab_oovv H n m f e) * (deaq_abab R a b f c n m))))).
(** ccpy/eomcc/deaeom4_intermediates.py, get_deaeom4_intermediates, line 113 *)
Definition deaqr_X_abb_vvvv_1 (d : dims) (H : ints) (T : amps) (R : deaqv) : mat4 := fun a b c e =>
  deaqr_X_abb_vvvv d H T R a b c e - deaqr_X_abb_vvvv d H T R a c b e.
(** ccpy/eomcc/deaeom4_intermediates.py, get_deaeom4_intermediates, lines 115-126 *)
Definition deaqr_X_abb_ovvo (d : dims) (H : ints) (T : amps) (R : deaqv) : mat4 := fun m b dd l =>
  (-1) / 2 * (sumn (nob d) (fun n => sumn (nua d) (fun e => (i_ab_oovo H m n e l) * (deaq_abb R e b dd n)))) + sumn (nua d) (fun e => sumn (nub d) (fun f => (i_ab_ovvv H m b e f) * (deaq_abb R e f dd l))) + sumn (nua d) (fun e => (i_ab_ovvo H m dd e l) * (deaq_ab R e b)) + 1 / 4 * (sumn (noa d) (fun n => sumn (nua d) (fun e => sumn (nua d) (fun f => (i_aa_oovv H m n e f) * (deaq_abab R e b f dd n l))))) + 1 / 2 * (sumn (nob d) (fun n => sumn (nua d) (fun e => sumn (nub d) (fun f => (i_ab_oovv H m n e f) * (deaq_abbb R e b f dd n l))))).
(** ccpy/eomcc/deaeom4_intermediates.py, get_deaeom4_intermediates, line 127 *)
Definition deaqr_X_abb_ovvo_1 (d : dims) (H : ints) (T : amps) (R : deaqv) : mat4 := fun m b dd l =>
  deaqr_X_abb_ovvo d H T R m b dd l - deaqr_X_abb_ovvo d H T R m dd b l.
(** ccpy/eomcc/deaeom4.py, build_HR_2B, line 52 *)
Definition deaqr_x2b (d : dims) (H : ints) (T : amps) (R : deaqv) : mat2 := fun a b =>
  sumn (nua d) (fun e => (i_a_vv H a e) * (deaq_ab R e b)).
(** ccpy/eomcc/deaeom4.py, build_HR_2B, line 53 *)
Definition deaqr_x2b_1 (d : dims) (H : ints) (T : amps) (R : deaqv) : mat2 := fun a b =>
  deaqr_x2b d H T R a b + sumn (nub d) (fun e => (i_b_vv H b e) * (deaq_ab R a e)).
(** ccpy/eomcc/deaeom4.py, build_HR_2B, line 54 *)
Definition deaqr_x2b_2 (d : dims) (H : ints) (T : amps) (R : deaqv) : mat2 := fun a b =>
  deaqr_x2b_1 d H T R a b + sumn (nua d) (fun e => sumn (nub d) (fun f => (i_ab_vvvv H a b e f) * (deaq_ab R e f))).
(** ccpy/eomcc/deaeom4.py, build_HR_2B, line 55 *)
Definition deaqr_x2b_3 (d : dims) (H : ints) (T : amps) (R : deaqv) : mat2 := fun a b =>
  deaqr_x2b_2 d H T R a b + sumn (noa d) (fun m => sumn (nua d) (fun e => (i_a_ov H m e) * (deaq_aba R a b e m))).
(** ccpy/eomcc/deaeom4.py, build_HR_2B, line 56 *)
Definition deaqr_x2b_4 (d : dims) (H : ints) (T : amps) (R : deaqv) : mat2 := fun a b =>
  deaqr_x2b_3 d H T R a b + sumn (nob d) (fun m => sumn (nub d) (fun e => (i_b_ov H m e) * (deaq_abb R a b e m))).
(** ccpy/eomcc/deaeom4.py, build_HR_2B, line 57 *)
Definition deaqr_x2b_5 (d : dims) (H : ints) (T : amps) (R : deaqv) : mat2 := fun a b =>
  deaqr_x2b_4 d H T R a b + sumn (noa d) (fun n => sumn (nua d) (fun f => sumn (nub d) (fun e => (i_ab_ovvv H n b f e) * (deaq_aba R a e f n)))).
(** ccpy/eomcc/deaeom4.py, build_HR_2B, line 58 *)
Definition deaqr_x2b_6 (d : dims) (H : ints) (T : amps) (R : deaqv) : mat2 := fun a b =>
  deaqr_x2b_5 d H T R a b + 1 / 2 * (sumn (noa d) (fun n => sumn (nua d) (fun e => sumn (nua d) (fun f => (i_aa_vovv H a n e f) * (deaq_aba R e b f n))))).
(** ccpy/eomcc/deaeom4.py, build_HR_2B, line 59 *)
Definition deaqr_x2b_7 (d : dims) (H : ints) (T : amps) (R : deaqv) : mat2 := fun a b =>
  deaqr_x2b_6 d H T R a b + 1 / 2 * (sumn (nob d) (fun n => sumn (nub d) (fun e => sumn (nub d) (fun f => (i_bb_vovv H b n e f) * (deaq_abb R a e f n))))).
(** ccpy/eomcc/deaeom4.py, build_HR_2B, line 60 *)
Definition deaqr_x2b_8 (d : dims) (H : ints) (T : amps) (R : deaqv) : mat2 := fun a b =>
  deaqr_x2b_7 d H T R a b + sumn (nob d) (fun n => sumn (nua d) (fun e => sumn (nub d) (fun f => (i_ab_vovv H a n e f) * (deaq_abb R e b f n)))).
(** ccpy/eomcc/deaeom4.py, build_HR_2B, line 62 *)
Definition deaqr_x2b_9 (d : dims) (H : ints) (T : amps) (R : deaqv) : mat2 := fun a b =>
  deaqr_x2b_8 d H T R a b + 1 / 4 * (sumn (noa d) (fun m => sumn (noa d) (fun n => sumn (nua d) (fun e => sumn (nua d) (fun f => (i_aa_oovv H m n e f) * (deaq_abaa R a b e f m n)))))).
(** ccpy/eomcc/deaeom4.py, build_HR_2B, line 63 *)
Definition deaqr_x2b_10 (d : dims) (H : ints) (T : amps) (R : deaqv) : mat2 := fun a b =>
  deaqr_x2b_9 d H T R a b + sumn (noa d) (fun m => sumn (nob d) (fun n => sumn (nua d) (fun e => sumn (nub d) (fun f => (i_ab_oovv H m n e f) * (deaq_abab R a b e f m n))))).
(** ccpy/eomcc/deaeom4.py, build_HR_2B, line 64 *)
Definition deaqr_x2b_11 (d : dims) (H : ints) (T : amps) (R : deaqv) : mat2 := fun a b =>
  deaqr_x2b_10 d H T R a b + 1 / 4 * (sumn (nob d) (fun m => sumn (nob d) (fun n => sumn (nub d) (fun e => sumn (nub d) (fun f => (i_bb_oovv H m n e f) * (deaq_abbb R a b e f m n)))))).
(** ccpy/eomcc/deaeom4.py, build_HR_3B, line 69 *)
Definition deaqr_x3b (d : dims) (H : ints) (T : amps) (R : deaqv) : mat4 := fun a b c k =>
  1 / 2 * (sumn (nua d) (fun e => (i_aa_vvov H c a k e) * (deaq_ab R e b))).
(** ccpy/eomcc/deaeom4.py, build_HR_3B, line 71 *)
Definition deaqr_x3b_1 (d : dims) (H : ints) (T : amps) (R : deaqv) : mat4 := fun a b c k =>
  deaqr_x3b d H T R a b c k + sumn (nub d) (fun e => (i_ab_vvov H c b k e) * (deaq_ab R a e)).
(** ccpy/eomcc/deaeom4.py, build_HR_3B, line 73 *)
Definition deaqr_x3b_2 (d : dims) (H : ints) (T : amps) (R : deaqv) : mat4 := fun a b c k =>
  deaqr_x3b_1 d H T R a b c k + sumn (nua d) (fun e => (i_a_vv H a e) * (deaq_aba R e b c k)).
(** ccpy/eomcc/deaeom4.py, build_HR_3B, line 75 *)
Definition deaqr_x3b_3 (d : dims) (H : ints) (T : amps) (R : deaqv) : mat4 := fun a b c k =>
  deaqr_x3b_2 d H T R a b c k + 1 / 2 * (sumn (nub d) (fun e => (i_b_vv H b e) * (deaq_aba R a e c k))).
(** ccpy/eomcc/deaeom4.py, build_HR_3B, line 77 *)
Definition deaqr_x3b_4 (d : dims) (H : ints) (T : amps) (R : deaqv) : mat4 := fun a b c k =>
  deaqr_x3b_3 d H T R a b c k + sumn (nua d) (fun e => sumn (nub d) (fun f => (i_ab_vvvv H a b e f) * (deaq_aba R e f c k))).
(** ccpy/eomcc/deaeom4.py, build_HR_3B, line 79 *)
Definition deaqr_x3b_5 (d : dims) (H : ints) (T : amps) (R : deaqv) : mat4 := fun a b c k =>
  deaqr_x3b_4 d H T R a b c k + 1 / 4 * (sumn (nua d) (fun e => sumn (nua d) (fun f => (i_aa_vvvv H a c e f) * (deaq_aba R e b f k)))).
(** ccpy/eomcc/deaeom4.py, build_HR_3B, line 81 *)
Definition deaqr_x3b_6 (d : dims) (H : ints) (T : amps) (R : deaqv) : mat4 := fun a b c k =>
  deaqr_x3b_5 d H T R a b c k + sumn (noa d) (fun m => sumn (nua d) (fun e => (i_aa_voov H c m k e) * (deaq_aba R a b e m))).
(** ccpy/eomcc/deaeom4.py, build_HR_3B, line 83 *)
Definition deaqr_x3b_7 (d : dims) (H : ints) (T : amps) (R : deaqv) : mat4 := fun a b c k =>
  deaqr_x3b_6 d H T R a b c k + sumn (nob d) (fun m => sumn (nub d) (fun e => (i_ab_voov H c m k e) * (deaq_abb R a b e m))).
(** ccpy/eomcc/deaeom4.py, build_HR_3B, line 85 *)
Definition deaqr_x3b_8 (d : dims) (H : ints) (T : amps) (R : deaqv) : mat4 := fun a b c k =>
  deaqr_x3b_7 d H T R a b c k - 1 / 2 * (sumn (noa d) (fun m => sumn (nub d) (fun e => (i_ab_ovov H m b k e) * (deaq_aba R a e c m)))).
(** ccpy/eomcc/deaeom4.py, build_HR_3B, line 87 *)
Definition deaqr_x3b_9 (d : dims) (H : ints) (T : amps) (R : deaqv) : mat4 := fun a b c k =>
  deaqr_x3b_8 d H T R a b c k - 1 / 2 * (sumn (noa d) (fun m => (deaqr_X_ab_ov d H T R m b) * (x_aa T a c m k))).
(** ccpy/eomcc/deaeom4.py, build_HR_3B, line 89 *)
Definition deaqr_x3b_10 (d : dims) (H : ints) (T : amps) (R : deaqv) : mat4 := fun a b c k =>
  deaqr_x3b_9 d H T R a b c k - sumn (nob d) (fun m => (deaqr_X_ab_vo d H T R a m) * (x_ab T c b k m)).
(** ccpy/eomcc/deaeom4.py, build_HR_3B, line 91 *)
Definition deaqr_x3b_11 (d : dims) (H : ints) (T : amps) (R : deaqv) : mat4 := fun a b c k =>
  deaqr_x3b_10 d H T R a b c k - 1 / 2 * (sumn (noa d) (fun m => (i_a_oo H m k) * (deaq_aba R a b c m))).
(** ccpy/eomcc/deaeom4.py, build_HR_3B, line 93 *)
Definition deaqr_x3b_12 (d : dims) (H : ints) (T : amps) (R : deaqv) : mat4 := fun a b c k =>
  deaqr_x3b_11 d H T R a b c k + 1 / 2 * (sumn (noa d) (fun m => sumn (nua d) (fun e => (i_a_ov H m e) * (deaq_abaa R a b c e k m)))).
(** ccpy/eomcc/deaeom4.py, build_HR_3B, line 94 *)
Definition deaqr_x3b_13 (d : dims) (H : ints) (T : amps) (R : deaqv) : mat4 := fun a b c k =>
  deaqr_x3b_12 d H T R a b c k + 1 / 2 * (sumn (nob d) (fun m => sumn (nub d) (fun e => (i_b_ov H m e) * (deaq_abab R a b c e k m)))).
(** ccpy/eomcc/deaeom4.py, build_HR_3B, line 95 *)
Definition deaqr_x3b_14 (d : dims) (H : ints) (T : amps) (R : deaqv) : mat4 := fun a b c k =>
  deaqr_x3b_13 d H T R a b c k - 1 / 4 * (sumn (noa d) (fun m => sumn (noa d) (fun n => sumn (nua d) (fun f => (i_aa_ooov H m n k f) * (deaq_abaa R a b c f m n))))).
(** ccpy/eomcc/deaeom4.py, build_HR_3B, line 96 *)
Definition deaqr_x3b_15 (d : dims) (H : ints) (T : amps) (R : deaqv) : mat4 := fun a b c k =>
  deaqr_x3b_14 d H T R a b c k - 1 / 2 * (sumn (noa d) (fun m => sumn (nob d) (fun n => sumn (nub d) (fun f => (i_ab_ooov H m n k f) * (deaq_abab R a b c f m n))))).
(** ccpy/eomcc/deaeom4.py, build_HR_3B, line 97 *)
Definition deaqr_x3b_16 (d : dims) (H : ints) (T : amps) (R : deaqv) : mat4 := fun a b c k =>
  deaqr_x3b_15 d H T R a b c k + 1 / 2 * (sumn (noa d) (fun n => sumn (nua d) (fun e => sumn (nua d) (fun f => (i_aa_vovv H c n e f) * (deaq_abaa R a b e f k n))))).
(** ccpy/eomcc/deaeom4.py, build_HR_3B, line 98 *)
Definition deaqr_x3b_17 (d : dims) (H : ints) (T : amps) (R : deaqv) : mat4 := fun a b c k =>
  deaqr_x3b_16 d H T R a b c k + sumn (nob d) (fun n => sumn (nua d) (fun e => sumn (nub d) (fun f => (i_ab_vovv H c n e f) * (deaq_abab R a b e f k n)))).
(** ccpy/eomcc/deaeom4.py, build_HR_3B, line 99 *)
Definition deaqr_x3b_18 (d : dims) (H : ints) (T : amps) (R : deaqv) : mat4 := fun a b c k =>
  deaqr_x3b_17 d H T R a b c k + 1 / 2 * (sumn (noa d) (fun n => sumn (nua d) (fun f => sumn (nub d) (fun e => (i_ab_ovvv H n b f e) * (deaq_abaa R a e c f k n))))).
(** ccpy/eomcc/deaeom4.py, build_HR_3B, line 100 *)
Definition deaqr_x3b_19 (d : dims) (H : ints) (T : amps) (R : deaqv) : mat4 := fun a b c k =>
  deaqr_x3b_18 d H T R a b c k + 1 / 4 * (sumn (nob d) (fun n => sumn (nub d) (fun e => sumn (nub d) (fun f => (i_bb_vovv H b n e f) * (deaq_abab R a e c f k n))))).
(** ccpy/eomcc/deaeom4.py, build_HR_3B, line 102 *)
Definition deaqr_x3b_20 (d : dims) (H : ints) (T : amps) (R : deaqv) : mat4 := fun a b c k =>
  deaqr_x3b_19 d H T R a b c k - deaqr_x3b_19 d H T R c b a k.
(** ccpy/eomcc/deaeom4.py, build_HR_3C, line 107 *)
Definition deaqr_x3c (d : dims) (H : ints) (T : amps) (R : deaqv) : mat4 := fun a b c k =>
  sumn (nua d) (fun e => (i_ab_vvvo H a c e k) * (deaq_ab R e b)).
(** ccpy/eomcc/deaeom4.py, build_HR_3C, line 109 *)
Definition deaqr_x3c_1 (d : dims) (H : ints) (T : amps) (R : deaqv) : mat4 := fun a b c k =>
  deaqr_x3c d H T R a b c k + 1 / 2 * (sumn (nub d) (fun e => (i_bb_vvov H c b k e) * (deaq_ab R a e))).
(** ccpy/eomcc/deaeom4.py, build_HR_3C, line 111 *)
Definition deaqr_x3c_2 (d : dims) (H : ints) (T : amps) (R : deaqv) : mat4 := fun a b c k =>
  deaqr_x3c_1 d H T R a b c k + 1 / 2 * (sumn (nua d) (fun e => (i_a_vv H a e) * (deaq_abb R e b c k))).
(** ccpy/eomcc/deaeom4.py, build_HR_3C, line 113 *)
Definition deaqr_x3c_3 (d : dims) (H : ints) (T : amps) (R : deaqv) : mat4 := fun a b c k =>
  deaqr_x3c_2 d H T R a b c k + sumn (nub d) (fun e => (i_b_vv H b e) * (deaq_abb R a e c k)).
(** ccpy/eomcc/deaeom4.py, build_HR_3C, line 115 *)
Definition deaqr_x3c_4 (d : dims) (H : ints) (T : amps) (R : deaqv) : mat4 := fun a b c k =>
  deaqr_x3c_3 d H T R a b c k + sumn (nua d) (fun e => sumn (nub d) (fun f => (i_ab_vvvv H a b e f) * (deaq_abb R e f c k))).
(** ccpy/eomcc/deaeom4.py, build_HR_3C, line 117 *)
Definition deaqr_x3c_5 (d : dims) (H : ints) (T : amps) (R : deaqv) : mat4 := fun a b c k =>
  deaqr_x3c_4 d H T R a b c k + 1 / 4 * (sumn (nub d) (fun e => sumn (nub d) (fun f => (i_bb_vvvv H b c e f) * (deaq_abb R a e f k)))).
(** ccpy/eomcc/deaeom4.py, build_HR_3C, line 119 *)
Definition deaqr_x3c_6 (d : dims) (H : ints) (T : amps) (R : deaqv) : mat4 := fun a b c k =>
  deaqr_x3c_5 d H T R a b c k + sumn (noa d) (fun m => sumn (nua d) (fun e => (i_ab_ovvo H m c e k) * (deaq_aba R a b e m))).
(** ccpy/eomcc/deaeom4.py, build_HR_3C, line 121 *)
Definition deaqr_x3c_7 (d : dims) (H : ints) (T : amps) (R : deaqv) : mat4 := fun a b c k =>
  deaqr_x3c_6 d H T R a b c k + sumn (nob d) (fun m => sumn (nub d) (fun e => (i_bb_voov H c m k e) * (deaq_abb R a b e m))).
(** ccpy/eomcc/deaeom4.py, build_HR_3C, line 123 *)
Definition deaqr_x3c_8 (d : dims) (H : ints) (T : amps) (R : deaqv) : mat4 := fun a b c k =>
  deaqr_x3c_7 d H T R a b c k - 1 / 2 * (sumn (nob d) (fun m => sumn (nua d) (fun e => (i_ab_vovo H a m e k) * (deaq_abb R e b c m)))).
(** ccpy/eomcc/deaeom4.py, build_HR_3C, line 125 *)
Definition deaqr_x3c_9 (d : dims) (H : ints) (T : amps) (R : deaqv) : mat4 := fun a b c k =>
  deaqr_x3c_8 d H T R a b c k - sumn (noa d) (fun m => (deaqr_X_ab_ov d H T R m b) * (x_ab T a c m k)).
(** ccpy/eomcc/deaeom4.py, build_HR_3C, line 127 *)
Definition deaqr_x3c_10 (d : dims) (H : ints) (T : amps) (R : deaqv) : mat4 := fun a b c k =>
  deaqr_x3c_9 d H T R a b c k - 1 / 2 * (sumn (nob d) (fun m => (deaqr_X_ab_vo d H T R a m) * (x_bb T b c m k))).
(** ccpy/eomcc/deaeom4.py, build_HR_3C, line 129 *)
Definition deaqr_x3c_11 (d : dims) (H : ints) (T : amps) (R : deaqv) : mat4 := fun a b c k =>
  deaqr_x3c_10 d H T R a b c k - 1 / 2 * (sumn (nob d) (fun m => (i_b_oo H m k) * (deaq_abb R a b c m))).
(** ccpy/eomcc/deaeom4.py, build_HR_3C, line 131 *)
Definition deaqr_x3c_12 (d : dims) (H : ints) (T : amps) (R : deaqv) : mat4 := fun a b c k =>
  deaqr_x3c_11 d H T R a b c k + 1 / 2 * (sumn (noa d) (fun m => sumn (nua d) (fun e => (i_a_ov H m e) * (deaq_abab R a b e c m k)))).
(** ccpy/eomcc/deaeom4.py, build_HR_3C, line 132 *)
Definition deaqr_x3c_13 (d : dims) (H : ints) (T : amps) (R : deaqv) : mat4 := fun a b c k =>
  deaqr_x3c_12 d H T R a b c k + 1 / 2 * (sumn (nob d) (fun m => sumn (nub d) (fun e => (i_b_ov H m e) * (deaq_abbb R a b e c m k)))).
(** ccpy/eomcc/deaeom4.py, build_HR_3C, line 133 *)
Definition deaqr_x3c_14 (d : dims) (H : ints) (T : amps) (R : deaqv) : mat4 := fun a b c k =>
  deaqr_x3c_13 d H T R a b c k - 1 / 2 * (sumn (noa d) (fun n => sumn (nob d) (fun m => sumn (nua d) (fun f => (i_ab_oovo H n m f k) * (deaq_abab R a b f c n m))))).
(** ccpy/eomcc/deaeom4.py, build_HR_3C, line 134 *)
Definition deaqr_x3c_15 (d : dims) (H : ints) (T : amps) (R : deaqv) : mat4 := fun a b c k =>
  deaqr_x3c_14 d H T R a b c k - 1 / 4 * (sumn (nob d) (fun m => sumn (nob d) (fun n => sumn (nub d) (fun f => (i_bb_ooov H m n k f) * (deaq_abbb R a b c f m n))))).
(** ccpy/eomcc/deaeom4.py, build_HR_3C, line 135 *)
Definition deaqr_x3c_16 (d : dims) (H : ints) (T : amps) (R : deaqv) : mat4 := fun a b c k =>
  deaqr_x3c_15 d H T R a b c k + sumn (noa d) (fun n => sumn (nua d) (fun f => sumn (nub d) (fun e => (i_ab_ovvv H n c f e) * (deaq_abab R a b f e n k)))).
(** ccpy/eomcc/deaeom4.py, build_HR_3C, line 136 *)
Definition deaqr_x3c_17 (d : dims) (H : ints) (T : amps) (R : deaqv) : mat4 := fun a b c k =>
  deaqr_x3c_16 d H T R a b c k + 1 / 2 * (sumn (nob d) (fun n => sumn (nub d) (fun e => sumn (nub d) (fun f => (i_bb_vovv H c n e f) * (deaq_abbb R a b e f k n))))).
(** ccpy/eomcc/deaeom4.py, build_HR_3C, line 137 *)
Definition deaqr_x3c_18 (d : dims) (H : ints) (T : amps) (R : deaqv) : mat4 := fun a b c k =>
  deaqr_x3c_17 d H T R a b c k + 1 / 4 * (sumn (noa d) (fun n => sumn (nua d) (fun e => sumn (nua d) (fun f => (i_aa_vovv H a n e f) * (deaq_abab R e b f c n k))))).
(** ccpy/eomcc/deaeom4.py, build_HR_3C, line 138 *)
Definition deaqr_x3c_19 (d : dims) (H : ints) (T : amps) (R : deaqv) : mat4 := fun a b c k =>
  deaqr_x3c_18 d H T R a b c k + 1 / 2 * (sumn (nob d) (fun n => sumn (nua d) (fun e => sumn (nub d) (fun f => (i_ab_vovv H a n e f) * (deaq_abbb R e b f c n k))))).
(** ccpy/eomcc/deaeom4.py, build_HR_3C, line 140 *)
Definition deaqr_x3c_20 (d : dims) (H : ints) (T : amps) (R : deaqv) : mat4 := fun a b c k =>
  deaqr_x3c_19 d H T R a b c k - deaqr_x3c_19 d H T R a c b k.
(** ccpy/eomcc/deaeom4.py, build_HR_4B, line 146 *)
Definition deaqr_x4b (d : dims) (H : ints) (T : amps) (R : deaqv) : mat6 := fun a b c dd k l =>
  1 / 2 * (sumn (nua d) (fun e => (i_aa_vvov H c dd k e) * (deaq_aba R a b e l))).
(** ccpy/eomcc/deaeom4.py, build_HR_4B, line 148 *)
Definition deaqr_x4b_1 (d : dims) (H : ints) (T : amps) (R : deaqv) : mat6 := fun a b c dd k l =>
  deaqr_x4b d H T R a b c dd k l + 1 / 2 * (sumn (nub d) (fun e => (i_ab_vvov H c b k e) * (deaq_aba R a e dd l))).
(** ccpy/eomcc/deaeom4.py, build_HR_4B, line 150 *)
Definition deaqr_x4b_2 (d : dims) (H : ints) (T : amps) (R : deaqv) : mat6 := fun a b c dd k l =>
  deaqr_x4b_1 d H T R a b c dd k l - 1 / 4 * (sumn (noa d) (fun m => (i_aa_vooo H c m k l) * (deaq_aba R a b dd m))).
(** ccpy/eomcc/deaeom4.py, build_HR_4B, line 152 *)
Definition deaqr_x4b_3 (d : dims) (H : ints) (T : amps) (R : deaqv) : mat6 := fun a b c dd k l =>
  deaqr_x4b_2 d H T R a b c dd k l - 1 / 2 * (sumn (noa d) (fun m => (deaqr_X_aba_vvoo d H T R a b m l) * (x_aa T c dd k m))).
(** ccpy/eomcc/deaeom4.py, build_HR_4B, line 154 *)
Definition deaqr_x4b_4 (d : dims) (H : ints) (T : amps) (R : deaqv) : mat6 := fun a b c dd k l =>
  deaqr_x4b_3 d H T R a b c dd k l + 1 / 4 * (sumn (nua d) (fun e => (deaqr_X_aba_vvvv_1 d H T R a b dd e) * (x_aa T c e k l))).
(** ccpy/eomcc/deaeom4.py, build_HR_4B, line 156 *)
Definition deaqr_x4b_5 (d : dims) (H : ints) (T : amps) (R : deaqv) : mat6 := fun a b c dd k l =>
  deaqr_x4b_4 d H T R a b c dd k l - 1 / 2 * (sumn (nob d) (fun m => (deaqr_X_aba_vovo_1 d H T R a m c k) * (x_ab T dd b l m))).
(** ccpy/eomcc/deaeom4.py, build_HR_4B, line 159 *)
Definition deaqr_x4b_6 (d : dims) (H : ints) (T : amps) (R : deaqv) : mat6 := fun a b c dd k l =>
  deaqr_x4b_5 d H T R a b c dd k l + 1 / 4 * (sumn (nua d) (fun e => (i_a_vv H dd e) * (deaq_abaa R a b c e k l))).
(** ccpy/eomcc/deaeom4.py, build_HR_4B, line 161 *)
Definition deaqr_x4b_7 (d : dims) (H : ints) (T : amps) (R : deaqv) : mat6 := fun a b c dd k l =>
  deaqr_x4b_6 d H T R a b c dd k l + 1 / 12 * (sumn (nub d) (fun e => (i_b_vv H b e) * (deaq_abaa R a e c dd k l))).
(** ccpy/eomcc/deaeom4.py, build_HR_4B, line 163 *)
Definition deaqr_x4b_8 (d : dims) (H : ints) (T : amps) (R : deaqv) : mat6 := fun a b c dd k l =>
  deaqr_x4b_7 d H T R a b c dd k l - 1 / 6 * (sumn (noa d) (fun m => (i_a_oo H m l) * (deaq_abaa R a b c dd k m))).
(** ccpy/eomcc/deaeom4.py, build_HR_4B, line 165 *)
Definition deaqr_x4b_9 (d : dims) (H : ints) (T : amps) (R : deaqv) : mat6 := fun a b c dd k l =>
  deaqr_x4b_8 d H T R a b c dd k l + 1 / 24 * (sumn (noa d) (fun m => sumn (noa d) (fun n => (i_aa_oooo H m n k l) * (deaq_abaa R a b c dd m n)))).
(** ccpy/eomcc/deaeom4.py, build_HR_4B, line 167 *)
Definition deaqr_x4b_10 (d : dims) (H : ints) (T : amps) (R : deaqv) : mat6 := fun a b c dd k l =>
  deaqr_x4b_9 d H T R a b c dd k l + 1 / 8 * (sumn (nua d) (fun e => sumn (nua d) (fun f => (i_aa_vvvv H c dd e f) * (deaq_abaa R a b e f k l)))).
(** ccpy/eomcc/deaeom4.py, build_HR_4B, line 169 *)
Definition deaqr_x4b_11 (d : dims) (H : ints) (T : amps) (R : deaqv) : mat6 := fun a b c dd k l =>
  deaqr_x4b_10 d H T R a b c dd k l + 1 / 4 * (sumn (nua d) (fun e => sumn (nub d) (fun f => (i_ab_vvvv H a b e f) * (deaq_abaa R e f c dd k l)))).
(** ccpy/eomcc/deaeom4.py, build_HR_4B, line 171 *)
Definition deaqr_x4b_12 (d : dims) (H : ints) (T : amps) (R : deaqv) : mat6 := fun a b c dd k l =>
  deaqr_x4b_11 d H T R a b c dd k l + 1 / 2 * (sumn (noa d) (fun m => sumn (nua d) (fun e => (i_aa_voov H dd m l e) * (deaq_abaa R a b c e k m)))).
(** ccpy/eomcc/deaeom4.py, build_HR_4B, line 173 *)
Definition deaqr_x4b_13 (d : dims) (H : ints) (T : amps) (R : deaqv) : mat6 := fun a b c dd k l =>
  deaqr_x4b_12 d H T R a b c dd k l + 1 / 2 * (sumn (nob d) (fun m => sumn (nub d) (fun e => (i_ab_voov H dd m l e) * (deaq_abab R a b c e k m)))).
(** ccpy/eomcc/deaeom4.py, build_HR_4B, line 175 *)
Definition deaqr_x4b_14 (d : dims) (H : ints) (T : amps) (R : deaqv) : mat6 := fun a b c dd k l =>
  deaqr_x4b_13 d H T R a b c dd k l - 1 / 6 * (sumn (noa d) (fun m => sumn (nub d) (fun e => (i_ab_ovov H m b l e) * (deaq_abaa R a e c dd k m)))).
(** ccpy/eomcc/deaeom4.py, build_HR_4B, line 178 *)
Definition deaqr_x4b_15 (d : dims) (H : ints) (T : amps) (R : deaqv) : mat6 := fun a b c dd k l =>
  deaqr_x4b_14 d H T R a b c dd k l + 1 / 2 * (sumn (noa d) (fun m => sumn (nob d) (fun n => (deaqr_X_ab_oo d H T R m n) * (x_aa T a dd m l) * (x_ab T c b k n)))).
(** ccpy/eomcc/deaeom4.py, build_HR_4B, line 180 *)
Definition deaqr_x4b_16 (d : dims) (H : ints) (T : amps) (R : deaqv) : mat6 := fun a b c dd k l =>
  deaqr_x4b_15 d H T R a b c dd k l - deaqr_x4b_15 d H T R a b c dd l k.
(** ccpy/eomcc/deaeom4.py, build_HR_4B, line 181 *)
Definition deaqr_x4b_17 (d : dims) (H : ints) (T : amps) (R : deaqv) : mat6 := fun a b c dd k l =>
  deaqr_x4b_16 d H T R a b c dd k l - deaqr_x4b_16 d H T R a b dd c k l.
(** ccpy/eomcc/deaeom4.py, build_HR_4B, line 182 *)
Definition deaqr_x4b_18 (d : dims) (H : ints) (T : amps) (R : deaqv) : mat6 := fun a b c dd k l =>
  deaqr_x4b_17 d H T R a b c dd k l - (deaqr_x4b_17 d H T R c b a dd k l + deaqr_x4b_17 d H T R dd b c a k l).
(** ccpy/eomcc/deaeom4.py, build_HR_4C, line 188 *)
Definition deaqr_x4c (d : dims) (H : ints) (T : amps) (R : deaqv) : mat6 := fun a b c dd k l =>
  sumn (nua d) (fun e => (i_ab_vvvo H c dd e l) * (deaq_aba R a b e k)).
(** ccpy/eomcc/deaeom4.py, build_HR_4C, line 190 *)
Definition deaqr_x4c_1 (d : dims) (H : ints) (T : amps) (R : deaqv) : mat6 := fun a b c dd k l =>
  deaqr_x4c d H T R a b c dd k l + sumn (nub d) (fun e => (i_ab_vvov H c dd k e) * (deaq_abb R a b e l)).
(** ccpy/eomcc/deaeom4.py, build_HR_4C, line 192 *)
Definition deaqr_x4c_2 (d : dims) (H : ints) (T : amps) (R : deaqv) : mat6 := fun a b c dd k l =>
  deaqr_x4c_1 d H T R a b c dd k l - 1 / 2 * (sumn (noa d) (fun m => (i_ab_ovoo H m dd k l) * (deaq_aba R a b c m))).
(** ccpy/eomcc/deaeom4.py, build_HR_4C, line 194 *)
Definition deaqr_x4c_3 (d : dims) (H : ints) (T : amps) (R : deaqv) : mat6 := fun a b c dd k l =>
  deaqr_x4c_2 d H T R a b c dd k l - 1 / 2 * (sumn (nob d) (fun m => (i_ab_vooo H c m k l) * (deaq_abb R a b dd m))).
(** ccpy/eomcc/deaeom4.py, build_HR_4C, line 196 *)
Definition deaqr_x4c_4 (d : dims) (H : ints) (T : amps) (R : deaqv) : mat6 := fun a b c dd k l =>
  deaqr_x4c_3 d H T R a b c dd k l + 1 / 4 * (sumn (nua d) (fun e => (i_aa_vvov H c a k e) * (deaq_abb R e b dd l))).
(** ccpy/eomcc/deaeom4.py, build_HR_4C, line 198 *)
Definition deaqr_x4c_5 (d : dims) (H : ints) (T : amps) (R : deaqv) : mat6 := fun a b c dd k l =>
  deaqr_x4c_4 d H T R a b c dd k l + 1 / 4 * (sumn (nub d) (fun e => (i_bb_vvov H dd b l e) * (deaq_aba R a e c k))).
(** ccpy/eomcc/deaeom4.py, build_HR_4C, line 200 *)
Definition deaqr_x4c_6 (d : dims) (H : ints) (T : amps) (R : deaqv) : mat6 := fun a b c dd k l =>
  deaqr_x4c_5 d H T R a b c dd k l + 1 / 2 * (sumn (nub d) (fun e => (deaqr_X_abb_vvvv_1 d H T R a b dd e) * (x_ab T c e k l))).
(** ccpy/eomcc/deaeom4.py, build_HR_4C, line 202 *)
Definition deaqr_x4c_7 (d : dims) (H : ints) (T : amps) (R : deaqv) : mat6 := fun a b c dd k l =>
  deaqr_x4c_6 d H T R a b c dd k l + 1 / 2 * (sumn (nua d) (fun e => (deaqr_X_aba_vvvv_1 d H T R a b c e) * (x_ab T e dd k l))).
(** ccpy/eomcc/deaeom4.py, build_HR_4C, line 204 *)
Definition deaqr_x4c_8 (d : dims) (H : ints) (T : amps) (R : deaqv) : mat6 := fun a b c dd k l =>
  deaqr_x4c_7 d H T R a b c dd k l - sumn (noa d) (fun m => (deaqr_X_aba_vvoo d H T R a b m k) * (x_ab T c dd m l)).
(** ccpy/eomcc/deaeom4.py, build_HR_4C, line 206 *)
Definition deaqr_x4c_9 (d : dims) (H : ints) (T : amps) (R : deaqv) : mat6 := fun a b c dd k l =>
  deaqr_x4c_8 d H T R a b c dd k l - sumn (nob d) (fun m => (deaqr_X_abb_vvoo d H T R a b m l) * (x_ab T c dd k m)).
(** ccpy/eomcc/deaeom4.py, build_HR_4C, line 208 *)
Definition deaqr_x4c_10 (d : dims) (H : ints) (T : amps) (R : deaqv) : mat6 := fun a b c dd k l =>
  deaqr_x4c_9 d H T R a b c dd k l - 1 / 4 * (sumn (nob d) (fun m => (deaqr_X_aba_vovo_1 d H T R a m c k) * (x_bb T b dd m l))).
(** ccpy/eomcc/deaeom4.py, build_HR_4C, line 210 *)
Definition deaqr_x4c_11 (d : dims) (H : ints) (T : amps) (R : deaqv) : mat6 := fun a b c dd k l =>
  deaqr_x4c_10 d H T R a b c dd k l - 1 / 4 * (sumn (noa d) (fun m => (deaqr_X_abb_ovvo_1 d H T R m b dd l) * (x_aa T a c m k))).
(** ccpy/eomcc/deaeom4.py, build_HR_4C, line 213 *)
Definition deaqr_x4c_12 (d : dims) (H : ints) (T : amps) (R : deaqv) : mat6 := fun a b c dd k l =>
  deaqr_x4c_11 d H T R a b c dd k l + 1 / 2 * (sumn (nua d) (fun e => (i_a_vv H a e) * (deaq_abab R e b c dd k l))).
(** ccpy/eomcc/deaeom4.py, build_HR_4C, line 215 *)
Definition deaqr_x4c_13 (d : dims) (H : ints) (T : amps) (R : deaqv) : mat6 := fun a b c dd k l =>
  deaqr_x4c_12 d H T R a b c dd k l + 1 / 2 * (sumn (nub d) (fun e => (i_b_vv H b e) * (deaq_abab R a e c dd k l))).
(** ccpy/eomcc/deaeom4.py, build_HR_4C, line 217 *)
Definition deaqr_x4c_14 (d : dims) (H : ints) (T : amps) (R : deaqv) : mat6 := fun a b c dd k l =>
  deaqr_x4c_13 d H T R a b c dd k l - 1 / 4 * (sumn (noa d) (fun m => (i_a_oo H m k) * (deaq_abab R a b c dd m l))).
(** ccpy/eomcc/deaeom4.py, build_HR_4C, line 219 *)
Definition deaqr_x4c_15 (d : dims) (H : ints) (T : amps) (R : deaqv) : mat6 := fun a b c dd k l =>
  deaqr_x4c_14 d H T R a b c dd k l - 1 / 4 * (sumn (nob d) (fun m => (i_b_oo H m l) * (deaq_abab R a b c dd k m))).
(** ccpy/eomcc/deaeom4.py, build_HR_4C, line 221 *)
Definition deaqr_x4c_16 (d : dims) (H : ints) (T : amps) (R : deaqv) : mat6 := fun a b c dd k l =>
  deaqr_x4c_15 d H T R a b c dd k l + 1 / 4 * (sumn (noa d) (fun m => sumn (nob d) (fun n => (i_ab_oooo H m n k l) * (deaq_abab R a b c dd m n)))).
(** ccpy/eomcc/deaeom4.py, build_HR_4C, line 223 *)
Definition deaqr_x4c_17 (d : dims) (H : ints) (T : amps) (R : deaqv) : mat6 := fun a b c dd k l =>
  deaqr_x4c_16 d H T R a b c dd k l + sumn (nua d) (fun e => sumn (nub d) (fun f => (i_ab_vvvv H c dd e f) * (deaq_abab R a b e f k l))).
(** ccpy/eomcc/deaeom4.py, build_HR_4C, line 225 *)
Definition deaqr_x4c_18 (d : dims) (H : ints) (T : amps) (R : deaqv) : mat6 := fun a b c dd k l =>
  deaqr_x4c_17 d H T R a b c dd k l + 1 / 8 * (sumn (nua d) (fun e => sumn (nua d) (fun f => (i_aa_vvvv H a c e f) * (deaq_abab R e b f dd k l)))).
(** ccpy/eomcc/deaeom4.py, build_HR_4C, line 227 *)
Definition deaqr_x4c_19 (d : dims) (H : ints) (T : amps) (R : deaqv) : mat6 := fun a b c dd k l =>
  deaqr_x4c_18 d H T R a b c dd k l + 1 / 8 * (sumn (nub d) (fun e => sumn (nub d) (fun f => (i_bb_vvvv H b dd e f) * (deaq_abab R a e c f k l)))).
(** ccpy/eomcc/deaeom4.py, build_HR_4C, line 229 *)
Definition deaqr_x4c_20 (d : dims) (H : ints) (T : amps) (R : deaqv) : mat6 := fun a b c dd k l =>
  deaqr_x4c_19 d H T R a b c dd k l + 1 / 2 * (sumn (noa d) (fun m => sumn (nua d) (fun e => (i_aa_voov H c m k e) * (deaq_abab R a b e dd m l)))).
(** ccpy/eomcc/deaeom4.py, build_HR_4C, line 231 *)
Definition deaqr_x4c_21 (d : dims) (H : ints) (T : amps) (R : deaqv) : mat6 := fun a b c dd k l =>
  deaqr_x4c_20 d H T R a b c dd k l + 1 / 2 * (sumn (nob d) (fun m => sumn (nub d) (fun e => (i_ab_voov H c m k e) * (deaq_abbb R a b e dd m l)))).
(** ccpy/eomcc/deaeom4.py, build_HR_4C, line 233 *)
Definition deaqr_x4c_22 (d : dims) (H : ints) (T : amps) (R : deaqv) : mat6 := fun a b c dd k l =>
  deaqr_x4c_21 d H T R a b c dd k l + 1 / 2 * (sumn (noa d) (fun m => sumn (nua d) (fun e => (i_ab_ovvo H m dd e l) * (deaq_abaa R a b c e k m)))).
(** ccpy/eomcc/deaeom4.py, build_HR_4C, line 235 *)
Definition deaqr_x4c_23 (d : dims) (H : ints) (T : amps) (R : deaqv) : mat6 := fun a b c dd k l =>
  deaqr_x4c_22 d H T R a b c dd k l + 1 / 2 * (sumn (nob d) (fun m => sumn (nub d) (fun e => (i_bb_voov H dd m l e) * (deaq_abab R a b c e k m)))).
(** ccpy/eomcc/deaeom4.py, build_HR_4C, line 237 *)
Definition deaqr_x4c_24 (d : dims) (H : ints) (T : amps) (R : deaqv) : mat6 := fun a b c dd k l =>
  deaqr_x4c_23 d H T R a b c dd k l - 1 / 2 * (sumn (noa d) (fun m => sumn (nub d) (fun e => (i_ab_ovov H m dd k e) * (deaq_abab R a b c e m l)))).
(** ccpy/eomcc/deaeom4.py, build_HR_4C, line 239 *)
Definition deaqr_x4c_25 (d : dims) (H : ints) (T : amps) (R : deaqv) : mat6 := fun a b c dd k l =>
  deaqr_x4c_24 d H T R a b c dd k l - 1 / 2 * (sumn (nob d) (fun m => sumn (nua d) (fun e => (i_ab_vovo H c m e l) * (deaq_abab R a b e dd k m)))).
(** ccpy/eomcc/deaeom4.py, build_HR_4C, line 242 *)
Definition deaqr_x4c_26 (d : dims) (H : ints) (T : amps) (R : deaqv) : mat6 := fun a b c dd k l =>
  deaqr_x4c_25 d H T R a b c dd k l + 1 / 4 * (sumn (noa d) (fun m => sumn (nob d) (fun n => (deaqr_X_ab_oo d H T R m n) * (x_aa T a c m k) * (x_bb T b dd n l)))).
(** ccpy/eomcc/deaeom4.py, build_HR_4C, line 244 *)
Definition deaqr_x4c_27 (d : dims) (H : ints) (T : amps) (R : deaqv) : mat6 := fun a b c dd k l =>
  deaqr_x4c_26 d H T R a b c dd k l + sumn (noa d) (fun m => sumn (nob d) (fun n => (deaqr_X_ab_oo d H T R m n) * (x_ab T a dd m l) * (x_ab T c b k n))).
(** ccpy/eomcc/deaeom4.py, build_HR_4C, line 246 *)
Definition deaqr_x4c_28 (d : dims) (H : ints) (T : amps) (R : deaqv) : mat6 := fun a b c dd k l =>
  deaqr_x4c_27 d H T R a b c dd k l - deaqr_x4c_27 d H T R c b a dd k l.
(** ccpy/eomcc/deaeom4.py, build_HR_4C, line 247 *)
Definition deaqr_x4c_29 (d : dims) (H : ints) (T : amps) (R : deaqv) : mat6 := fun a b c dd k l =>
  deaqr_x4c_28 d H T R a b c dd k l - deaqr_x4c_28 d H T R a dd c b k l.
(** ccpy/eomcc/deaeom4.py, build_HR_4D, line 253 *)
Definition deaqr_x4d (d : dims) (H : ints) (T : amps) (R : deaqv) : mat6 := fun a b c dd k l =>
  1 / 2 * (sumn (nub d) (fun e => (i_bb_vvov H c dd k e) * (deaq_abb R a b e l))).
(** ccpy/eomcc/deaeom4.py, build_HR_4D, line 255 *)
Definition deaqr_x4d_1 (d : dims) (H : ints) (T : amps) (R : deaqv) : mat6 := fun a b c dd k l =>
  deaqr_x4d d H T R a b c dd k l + 1 / 2 * (sumn (nua d) (fun e => (i_ab_vvvo H a c e k) * (deaq_abb R e b dd l))).
(** ccpy/eomcc/deaeom4.py, build_HR_4D, line 257 *)
Definition deaqr_x4d_2 (d : dims) (H : ints) (T : amps) (R : deaqv) : mat6 := fun a b c dd k l =>
  deaqr_x4d_1 d H T R a b c dd k l - 1 / 4 * (sumn (nob d) (fun m => (i_bb_vooo H c m k l) * (deaq_abb R a b dd m))).
(** ccpy/eomcc/deaeom4.py, build_HR_4D, line 259 *)
Definition deaqr_x4d_3 (d : dims) (H : ints) (T : amps) (R : deaqv) : mat6 := fun a b c dd k l =>
  deaqr_x4d_2 d H T R a b c dd k l + 1 / 4 * (sumn (nub d) (fun e => (deaqr_X_abb_vvvv_1 d H T R a b dd e) * (x_bb T c e k l))).
(** ccpy/eomcc/deaeom4.py, build_HR_4D, line 261 *)
Definition deaqr_x4d_4 (d : dims) (H : ints) (T : amps) (R : deaqv) : mat6 := fun a b c dd k l =>
  deaqr_x4d_3 d H T R a b c dd k l - 1 / 2 * (sumn (nob d) (fun m => (deaqr_X_abb_vvoo d H T R a b m l) * (x_bb T c dd k m))).
(** ccpy/eomcc/deaeom4.py, build_HR_4D, line 263 *)
Definition deaqr_x4d_5 (d : dims) (H : ints) (T : amps) (R : deaqv) : mat6 := fun a b c dd k l =>
  deaqr_x4d_4 d H T R a b c dd k l - 1 / 2 * (sumn (noa d) (fun m => (deaqr_X_abb_ovvo_1 d H T R m b c k) * (x_ab T a dd m l))).
(** ccpy/eomcc/deaeom4.py, build_HR_4D, line 266 *)
Definition deaqr_x4d_6 (d : dims) (H : ints) (T : amps) (R : deaqv) : mat6 := fun a b c dd k l =>
  deaqr_x4d_5 d H T R a b c dd k l + 1 / 4 * (sumn (nub d) (fun e => (i_b_vv H dd e) * (deaq_abbb R a b c e k l))).
(** ccpy/eomcc/deaeom4.py, build_HR_4D, line 268 *)
Definition deaqr_x4d_7 (d : dims) (H : ints) (T : amps) (R : deaqv) : mat6 := fun a b c dd k l =>
  deaqr_x4d_6 d H T R a b c dd k l + 1 / 12 * (sumn (nua d) (fun e => (i_a_vv H a e) * (deaq_abbb R e b c dd k l))).
(** ccpy/eomcc/deaeom4.py, build_HR_4D, line 270 *)
Definition deaqr_x4d_8 (d : dims) (H : ints) (T : amps) (R : deaqv) : mat6 := fun a b c dd k l =>
  deaqr_x4d_7 d H T R a b c dd k l - 1 / 6 * (sumn (nob d) (fun m => (i_b_oo H m l) * (deaq_abbb R a b c dd k m))).
(** ccpy/eomcc/deaeom4.py, build_HR_4D, line 272 *)
Definition deaqr_x4d_9 (d : dims) (H : ints) (T : amps) (R : deaqv) : mat6 := fun a b c dd k l =>
  deaqr_x4d_8 d H T R a b c dd k l + 1 / 24 * (sumn (nob d) (fun m => sumn (nob d) (fun n => (i_bb_oooo H m n k l) * (deaq_abbb R a b c dd m n)))).
(** ccpy/eomcc/deaeom4.py, build_HR_4D, line 274 *)
Definition deaqr_x4d_10 (d : dims) (H : ints) (T : amps) (R : deaqv) : mat6 := fun a b c dd k l =>
  deaqr_x4d_9 d H T R a b c dd k l + 1 / 8 * (sumn (nub d) (fun e => sumn (nub d) (fun f => (i_bb_vvvv H c dd e f) * (deaq_abbb R a b e f k l)))).
(** ccpy/eomcc/deaeom4.py, build_HR_4D, line 276 *)
Definition deaqr_x4d_11 (d : dims) (H : ints) (T : amps) (R : deaqv) : mat6 := fun a b c dd k l =>
  deaqr_x4d_10 d H T R a b c dd k l + 1 / 4 * (sumn (nua d) (fun e => sumn (nub d) (fun f => (i_ab_vvvv H a b e f) * (deaq_abbb R e f c dd k l)))).
(** ccpy/eomcc/deaeom4.py, build_HR_4D, line 278 *)
Definition deaqr_x4d_12 (d : dims) (H : ints) (T : amps) (R : deaqv) : mat6 := fun a b c dd k l =>
  deaqr_x4d_11 d H T R a b c dd k l + 1 / 2 * (sumn (noa d) (fun m => sumn (nua d) (fun e => (i_ab_ovvo H m dd e l) * (deaq_abab R a b e c m k)))).
(** ccpy/eomcc/deaeom4.py, build_HR_4D, line 280 *)
Definition deaqr_x4d_13 (d : dims) (H : ints) (T : amps) (R : deaqv) : mat6 := fun a b c dd k l =>
  deaqr_x4d_12 d H T R a b c dd k l + 1 / 2 * (sumn (nob d) (fun m => sumn (nub d) (fun e => (i_bb_voov H dd m l e) * (deaq_abbb R a b c e k m)))).
(** ccpy/eomcc/deaeom4.py, build_HR_4D, line 282 *)
Definition deaqr_x4d_14 (d : dims) (H : ints) (T : amps) (R : deaqv) : mat6 := fun a b c dd k l =>
  deaqr_x4d_13 d H T R a b c dd k l - 1 / 6 * (sumn (nob d) (fun m => sumn (nua d) (fun e => (i_ab_vovo H a m e l) * (deaq_abbb R e b c dd k m)))).
(** ccpy/eomcc/deaeom4.py, build_HR_4D, line 285 *)
Definition deaqr_x4d_15 (d : dims) (H : ints) (T : amps) (R : deaqv) : mat6 := fun a b c dd k l =>
  deaqr_x4d_14 d H T R a b c dd k l + 1 / 2 * (sumn (noa d) (fun m => sumn (nob d) (fun n => (deaqr_X_ab_oo d H T R m n) * (x_ab T a dd m l) * (x_bb T b c n k)))).
(** ccpy/eomcc/deaeom4.py, build_HR_4D, line 287 *)
Definition deaqr_x4d_16 (d : dims) (H : ints) (T : amps) (R : deaqv) : mat6 := fun a b c dd k l =>
  deaqr_x4d_15 d H T R a b c dd k l - deaqr_x4d_15 d H T R a b c dd l k.
(** ccpy/eomcc/deaeom4.py, build_HR_4D, line 288 *)
Definition deaqr_x4d_17 (d : dims) (H : ints) (T : amps) (R : deaqv) : mat6 := fun a b c dd k l =>
  deaqr_x4d_16 d H T R a b c dd k l - deaqr_x4d_16 d H T R a b dd c k l.
(** ccpy/eomcc/deaeom4.py, build_HR_4D, line 289 *)
Definition deaqr_x4d_18 (d : dims) (H : ints) (T : amps) (R : deaqv) : mat6 := fun a b c dd k l =>
  deaqr_x4d_17 d H T R a b c dd k l - (deaqr_x4d_17 d H T R a c b dd k l + deaqr_x4d_17 d H T R a dd c b k l).
(** ccpy/eomcc/deaeom4.py (HR, lines 30-49, flag_RHF = False): the vector returned *)
Definition deaq_HR (d : dims) (H : ints) (T : amps) (R : deaqv) : deaqv := mkDeaq (deaqr_x2b_11 d H T R) (deaqr_x3b_20 d H T R) (deaqr_x3c_20 d H T R) (deaqr_x4b_18 d H T R) (deaqr_x4c_29 d H T R) (deaqr_x4d_18 d H T R).
(** ccpy/eomcc/sfeomcc23.py: blocks of the operator, axes b: Vo, ab: vVoo, bb: VVOo, aab: vvVooo, abb: vVVoOo, bbb: VVVOOo (o, v occupied and unoccupied; capitals beta) *)
Record sftv := mkSft { sft_b : mat2; sft_ab : mat4; sft_bb : mat4; sft_aab : mat6; sft_abb : mat6; sft_bbb : mat6 }.
(** ccpy/eomcc/sfeomcc23.py, HR, lines 32-36 *)
Definition sftr_x_oo (d : dims) (H : ints) (T : amps) (R : sftv) : mat2 := fun m j =>
  sumn (noa d) (fun n => sumn (nua d) (fun f => sumn (nub d) (fun e => (i_ab_oovv H n m f e) * (sft_ab R f e n j)))) + 1 / 2 * (sumn (nob d) (fun n => sumn (nub d) (fun e => sumn (nub d) (fun f => (i_bb_oovv H m n e f) * (sft_bb R f e n j))))) - sumn (noa d) (fun m' => sumn (nub d) (fun e => (i_ab_ooov H m' m j e) * (sft_b R e m'))).
(** ccpy/eomcc/sfeomcc23.py, HR, lines 38-42 *)
Definition sftr_x_vv (d : dims) (H : ints) (T : amps) (R : sftv) : mat2 := fun b e =>
  (-1) / 2 * (sumn (noa d) (fun m => sumn (noa d) (fun n => sumn (nua d) (fun f => (i_aa_oovv H m n e f) * (sft_ab R f b n m))))) - sumn (noa d) (fun m => sumn (nob d) (fun n => sumn (nub d) (fun f => (i_ab_oovv H m n e f) * (sft_bb R f b n m)))) - sumn (noa d) (fun m => sumn (nub d) (fun e' => (i_ab_ovvv H m b e e') * (sft_b R e' m))).
(** ccpy/eomcc/sfeomcc23_intermediates.py, get_sfeomcc23_intermediates, line 10 *)
Definition sftr_x_ov (d : dims) (H : ints) (T : amps) (R : sftv) : mat2 := fun n e =>
  (- (sumn (noa d) (fun m => sumn (nub d) (fun f => (i_ab_oovv H m n e f) * (sft_b R f m))))).
(** ccpy/eomcc/sfeomcc23_intermediates.py, get_sfeomcc23_intermediates, lines 17-25 *)
Definition sftr_X_ab_ovoo (d : dims) (H : ints) (T : amps) (R : sftv) : mat4 := fun m c j k =>
  1 / 2 * (sumn (nua d) (fun e => (i_a_ov H m e) * (sft_ab R e c j k))) - 1 / 2 * (sumn (noa d) (fun n => (i_aa_oooo H m n j k) * (sft_b R c n))) + sumn (nub d) (fun e => (i_ab_ovov H m c j e) * (sft_b R e k)) + sumn (noa d) (fun n => sumn (nua d) (fun f => (i_aa_ooov H m n j f) * (sft_ab R f c n k))) + sumn (nob d) (fun n => sumn (nub d) (fun f => (i_ab_ooov H m n j f) * (sft_bb R f c n k))) + 1 / 4 * (sumn (noa d) (fun n => sumn (nua d) (fun e => sumn (nua d) (fun f => (i_aa_oovv H m n e f) * (sft_aab R e f c j n k))))) + 1 / 2 * (sumn (nob d) (fun n => sumn (nua d) (fun e => sumn (nub d) (fun f => (i_ab_oovv H m n e f) * (sft_abb R e f c j n k))))).
(** ccpy/eomcc/sfeomcc23_intermediates.py, get_sfeomcc23_intermediates, line 27 *)
Definition sftr_X_ab_ovoo_1 (d : dims) (H : ints) (T : amps) (R : sftv) : mat4 := fun m c j k =>
  sftr_X_ab_ovoo d H T R m c j k - sftr_X_ab_ovoo d H T R m c k j.
(** ccpy/eomcc/sfeomcc23_intermediates.py, get_sfeomcc23_intermediates, lines 30-38 *)
Definition sftr_X_ab_vooo (d : dims) (H : ints) (T : amps) (R : sftv) : mat4 := fun a m i k =>
  1 / 2 * (sumn (nub d) (fun e => (i_b_ov H m e) * (sft_ab R a e i k))) + 1 / 2 * (sumn (nua d) (fun e => (sftr_x_ov d H T R m e) * (x_aa T a e i k))) + sumn (nub d) (fun e => (i_ab_voov H a m i e) * (sft_b R e k)) - sumn (noa d) (fun n => sumn (nub d) (fun e => (i_ab_ooov H n m i e) * (sft_ab R a e n k))) + 1 / 2 * (sumn (nua d) (fun f => sumn (nub d) (fun e => (i_ab_vovv H a m f e) * (sft_ab R f e i k)))) + 1 / 2 * (sumn (noa d) (fun n => sumn (nua d) (fun f => sumn (nub d) (fun e => (i_ab_oovv H n m f e) * (sft_aab R a f e i n k))))) + 1 / 4 * (sumn (nob d) (fun n => sumn (nub d) (fun f => sumn (nub d) (fun e => (i_bb_oovv H n m f e) * (sft_abb R a f e i n k))))).
(** ccpy/eomcc/sfeomcc23_intermediates.py, get_sfeomcc23_intermediates, line 40 *)
Definition sftr_X_ab_vooo_1 (d : dims) (H : ints) (T : amps) (R : sftv) : mat4 := fun a m i k =>
  sftr_X_ab_vooo d H T R a m i k - sftr_X_ab_vooo d H T R a m k i.
(** ccpy/eomcc/sfeomcc23_intermediates.py, get_sfeomcc23_intermediates, lines 43-54 *)
Definition sftr_X_ab_vvvo (d : dims) (H : ints) (T : amps) (R : sftv) : mat4 := fun a c e k =>
  (- (sumn (noa d) (fun m => (i_a_ov H m e) * (sft_ab R a c m k)))) + sumn (nub d) (fun f => (i_ab_vvvv H a c e f) * (sft_b R f k)) + sumn (noa d) (fun m => (i_aa_voov H a m k e) * (sft_b R c m)) + sumn (noa d) (fun n => sumn (nua d) (fun f => (i_aa_vovv H a n e f) * (sft_ab R f c n k))) + sumn (nob d) (fun n => sumn (nub d) (fun f => (i_ab_vovv H a n e f) * (sft_bb R f c n k))) - 1 / 2 * (sumn (noa d) (fun m => sumn (noa d) (fun n => sumn (nua d) (fun f => (i_aa_oovv H m n e f) * (sft_aab R a f c m n k))))) - sumn (noa d) (fun m => sumn (nob d) (fun n => sumn (nub d) (fun f => (i_ab_oovv H m n e f) * (sft_abb R a f c m n k)))) + 1 / 2 * (sumn (noa d) (fun m => sumn (noa d) (fun n => (i_aa_ooov H m n k e) * (sft_ab R a c n m)))).
(** ccpy/eomcc/sfeomcc23_intermediates.py, get_sfeomcc23_intermediates, lines 57-68 *)
Definition sftr_X_bb_ovoo (d : dims) (H : ints) (T : amps) (R : sftv) : mat4 := fun m c j k =>
  sumn (nub d) (fun e => (i_b_ov H m e) * (sft_bb R e c j k)) - sumn (nub d) (fun e => (i_bb_voov H c m j e) * (sft_b R e k)) - sumn (noa d) (fun n => (i_ab_oooo H n m k j) * (sft_b R c n)) + sumn (noa d) (fun n => sumn (nua d) (fun f => (i_ab_oovo H n m f j) * (sft_ab R f c n k))) + sumn (nob d) (fun n => sumn (nub d) (fun f => (i_bb_ooov H m n j f) * (sft_bb R f c n k))) + sumn (noa d) (fun n => sumn (nua d) (fun f => sumn (nub d) (fun e => (i_ab_oovv H n m f e) * (sft_abb R f e c n j k)))) + 1 / 2 * (sumn (nob d) (fun n => sumn (nub d) (fun f => sumn (nub d) (fun e => (i_bb_oovv H n m f e) * (sft_bbb R f e c n j k))))) - sumn (nua d) (fun e => (sftr_x_ov d H T R m e) * (x_ab T e c k j)) + 1 / 2 * (sumn (nub d) (fun f => sumn (nub d) (fun e => (i_bb_vovv H c m f e) * (sft_bb R e f j k)))).
(** ccpy/eomcc/sfeomcc23_intermediates.py, get_sfeomcc23_intermediates, lines 71-79 *)
Definition sftr_X_bb_vvvo (d : dims) (H : ints) (T : amps) (R : sftv) : mat4 := fun b c e k =>
  (-1) / 2 * (sumn (nob d) (fun m => (i_b_ov H m e) * (sft_bb R b c m k))) - sumn (noa d) (fun m => (i_ab_ovov H m b k e) * (sft_b R c m)) + 1 / 2 * (sumn (nub d) (fun f => (i_bb_vvvv H b c e f) * (sft_b R f k))) + sumn (noa d) (fun n => sumn (nua d) (fun f => (i_ab_ovvv H n b f e) * (sft_ab R f c n k))) + sumn (nob d) (fun n => sumn (nub d) (fun f => (i_bb_vovv H b n e f) * (sft_bb R f c n k))) - 1 / 2 * (sumn (noa d) (fun n => sumn (nob d) (fun m => sumn (nua d) (fun f => (i_ab_oovv H n m f e) * (sft_abb R f b c n m k))))) - 1 / 4 * (sumn (nob d) (fun n => sumn (nob d) (fun m => sumn (nub d) (fun f => (i_bb_oovv H n m f e) * (sft_bbb R f b c n m k))))).
(** ccpy/eomcc/sfeomcc23_intermediates.py, get_sfeomcc23_intermediates, line 81 *)
Definition sftr_X_bb_vvvo_1 (d : dims) (H : ints) (T : amps) (R : sftv) : mat4 := fun b c e k =>
  sftr_X_bb_vvvo d H T R b c e k - sftr_X_bb_vvvo d H T R c b e k.
(** ccpy/eomcc/sfeomcc23_intermediates.py, get_sfeomcc23_intermediates, lines 84-92 *)
Definition sftr_X_bb_vvov (d : dims) (H : ints) (T : amps) (R : sftv) : mat4 := fun b c j e =>
  (-1) / 2 * (sumn (noa d) (fun m => (i_a_ov H m e) * (sft_bb R b c j m))) - sumn (noa d) (fun m => (i_ab_ovvo H m b e j) * (sft_b R c m)) - sumn (noa d) (fun m => sumn (nub d) (fun f => (i_ab_ovvv H m b e f) * (sft_bb R f c j m))) + 1 / 2 * (sumn (noa d) (fun m => sumn (nob d) (fun n => (i_ab_oovo H m n e j) * (sft_bb R b c n m)))) - 1 / 4 * (sumn (noa d) (fun m => sumn (noa d) (fun n => sumn (nua d) (fun f => (i_aa_oovv H m n e f) * (sft_abb R f b c n j m))))) - 1 / 2 * (sumn (noa d) (fun m => sumn (nob d) (fun n => sumn (nub d) (fun f => (i_ab_oovv H m n e f) * (sft_bbb R f b c n j m))))).
(** ccpy/eomcc/sfeomcc23_intermediates.py, get_sfeomcc23_intermediates, line 94 *)
Definition sftr_X_bb_vvov_1 (d : dims) (H : ints) (T : amps) (R : sftv) : mat4 := fun b c j e =>
  sftr_X_bb_vvov d H T R b c j e - sftr_X_bb_vvov d H T R c b j e.
(** ccpy/eomcc/sfeomcc23.py, build_HR_1B, line 60 *)
Definition sftr_x1b (d : dims) (H : ints) (T : amps) (R : sftv) : mat2 := fun a i =>
  sumn (nub d) (fun e => (i_b_vv H a e) * (sft_b R e i)).
(** ccpy/eomcc/sfeomcc23.py, build_HR_1B, line 61 *)
Definition sftr_x1b_1 (d : dims) (H : ints) (T : amps) (R : sftv) : mat2 := fun a i =>
  sftr_x1b d H T R a i - sumn (noa d) (fun m => (i_a_oo H m i) * (sft_b R a m)).
(** ccpy/eomcc/sfeomcc23.py, build_HR_1B, line 62 *)
Definition sftr_x1b_2 (d : dims) (H : ints) (T : amps) (R : sftv) : mat2 := fun a i =>
  sftr_x1b_1 d H T R a i - sumn (noa d) (fun m => sumn (nub d) (fun e => (i_ab_ovov H m a i e) * (sft_b R e m))).
(** ccpy/eomcc/sfeomcc23.py, build_HR_1B, line 64 *)
Definition sftr_x1b_3 (d : dims) (H : ints) (T : amps) (R : sftv) : mat2 := fun a i =>
  sftr_x1b_2 d H T R a i + sumn (noa d) (fun m => sumn (nua d) (fun e => (i_a_ov H m e) * (sft_ab R e a m i))).
(** ccpy/eomcc/sfeomcc23.py, build_HR_1B, line 65 *)
Definition sftr_x1b_4 (d : dims) (H : ints) (T : amps) (R : sftv) : mat2 := fun a i =>
  sftr_x1b_3 d H T R a i + sumn (nob d) (fun m => sumn (nub d) (fun e => (i_b_ov H m e) * (sft_bb R e a m i))).
(** ccpy/eomcc/sfeomcc23.py, build_HR_1B, line 66 *)
Definition sftr_x1b_5 (d : dims) (H : ints) (T : amps) (R : sftv) : mat2 := fun a i =>
  sftr_x1b_4 d H T R a i - 1 / 2 * (sumn (noa d) (fun m => sumn (noa d) (fun n => sumn (nua d) (fun f => (i_aa_ooov H m n i f) * (sft_ab R f a n m))))).
(** ccpy/eomcc/sfeomcc23.py, build_HR_1B, line 67 *)
Definition sftr_x1b_6 (d : dims) (H : ints) (T : amps) (R : sftv) : mat2 := fun a i =>
  sftr_x1b_5 d H T R a i - sumn (noa d) (fun m => sumn (nob d) (fun n => sumn (nub d) (fun f => (i_ab_ooov H m n i f) * (sft_bb R f a n m)))).
(** ccpy/eomcc/sfeomcc23.py, build_HR_1B, line 68 *)
Definition sftr_x1b_7 (d : dims) (H : ints) (T : amps) (R : sftv) : mat2 := fun a i =>
  sftr_x1b_6 d H T R a i + 1 / 2 * (sumn (nob d) (fun n => sumn (nub d) (fun e => sumn (nub d) (fun f => (i_bb_vovv H a n e f) * (sft_bb R f e n i))))).
(** ccpy/eomcc/sfeomcc23.py, build_HR_1B, line 69 *)
Definition sftr_x1b_8 (d : dims) (H : ints) (T : amps) (R : sftv) : mat2 := fun a i =>
  sftr_x1b_7 d H T R a i + sumn (noa d) (fun n => sumn (nua d) (fun f => sumn (nub d) (fun e => (i_ab_ovvv H n a f e) * (sft_ab R f e n i)))).
(** ccpy/eomcc/sfeomcc23.py, build_HR_1B, line 71 *)
Definition sftr_x1b_9 (d : dims) (H : ints) (T : amps) (R : sftv) : mat2 := fun a i =>
  sftr_x1b_8 d H T R a i + 1 / 4 * (sumn (noa d) (fun m => sumn (noa d) (fun n => sumn (nua d) (fun e => sumn (nua d) (fun f => (i_aa_oovv H m n e f) * (sft_aab R e f a m n i)))))).
(** ccpy/eomcc/sfeomcc23.py, build_HR_1B, line 72 *)
Definition sftr_x1b_10 (d : dims) (H : ints) (T : amps) (R : sftv) : mat2 := fun a i =>
  sftr_x1b_9 d H T R a i + sumn (noa d) (fun m => sumn (nob d) (fun n => sumn (nua d) (fun e => sumn (nub d) (fun f => (i_ab_oovv H m n e f) * (sft_abb R e f a m n i))))).
(** ccpy/eomcc/sfeomcc23.py, build_HR_1B, line 73 *)
Definition sftr_x1b_11 (d : dims) (H : ints) (T : amps) (R : sftv) : mat2 := fun a i =>
  sftr_x1b_10 d H T R a i + 1 / 4 * (sumn (nob d) (fun m => sumn (nob d) (fun n => sumn (nub d) (fun e => sumn (nub d) (fun f => (i_bb_oovv H m n e f) * (sft_bbb R e f a m n i)))))).
(** ccpy/eomcc/sfeomcc23.py, build_HR_2B, line 78 *)
Definition sftr_x2b (d : dims) (H : ints) (T : amps) (R : sftv) : mat4 := fun a b i j =>
  sumn (nub d) (fun e => (i_ab_vvov H a b i e) * (sft_b R e j)).
(** ccpy/eomcc/sfeomcc23.py, build_HR_2B, line 79 *)
Definition sftr_x2b_1 (d : dims) (H : ints) (T : amps) (R : sftv) : mat4 := fun a b i j =>
  sftr_x2b d H T R a b i j - 1 / 2 * (sumn (noa d) (fun m => (i_aa_vooo H a m i j) * (sft_b R b m))).
(** ccpy/eomcc/sfeomcc23.py, build_HR_2B, line 80 *)
Definition sftr_x2b_2 (d : dims) (H : ints) (T : amps) (R : sftv) : mat4 := fun a b i j =>
  sftr_x2b_1 d H T R a b i j - sumn (noa d) (fun m => (i_a_oo H m i) * (sft_ab R a b m j)).
(** ccpy/eomcc/sfeomcc23.py, build_HR_2B, line 81 *)
Definition sftr_x2b_3 (d : dims) (H : ints) (T : amps) (R : sftv) : mat4 := fun a b i j =>
  sftr_x2b_2 d H T R a b i j + 1 / 2 * (sumn (nub d) (fun e => (i_b_vv H b e) * (sft_ab R a e i j))).
(** ccpy/eomcc/sfeomcc23.py, build_HR_2B, line 82 *)
Definition sftr_x2b_4 (d : dims) (H : ints) (T : amps) (R : sftv) : mat4 := fun a b i j =>
  sftr_x2b_3 d H T R a b i j + 1 / 2 * (sumn (nua d) (fun e => (i_a_vv H a e) * (sft_ab R e b i j))).
(** ccpy/eomcc/sfeomcc23.py, build_HR_2B, line 83 *)
Definition sftr_x2b_5 (d : dims) (H : ints) (T : amps) (R : sftv) : mat4 := fun a b i j =>
  sftr_x2b_4 d H T R a b i j + 1 / 4 * (sumn (noa d) (fun m => sumn (noa d) (fun n => (i_aa_oooo H m n i j) * (sft_ab R a b m n)))).
(** ccpy/eomcc/sfeomcc23.py, build_HR_2B, line 84 *)
Definition sftr_x2b_6 (d : dims) (H : ints) (T : amps) (R : sftv) : mat4 := fun a b i j =>
  sftr_x2b_5 d H T R a b i j + 1 / 2 * (sumn (nua d) (fun e => sumn (nub d) (fun f => (i_ab_vvvv H a b e f) * (sft_ab R e f i j)))).
(** ccpy/eomcc/sfeomcc23.py, build_HR_2B, line 85 *)
Definition sftr_x2b_7 (d : dims) (H : ints) (T : amps) (R : sftv) : mat4 := fun a b i j =>
  sftr_x2b_6 d H T R a b i j + sumn (noa d) (fun m => sumn (nua d) (fun e => (i_aa_voov H a m i e) * (sft_ab R e b m j))).
(** ccpy/eomcc/sfeomcc23.py, build_HR_2B, line 86 *)
Definition sftr_x2b_8 (d : dims) (H : ints) (T : amps) (R : sftv) : mat4 := fun a b i j =>
  sftr_x2b_7 d H T R a b i j + sumn (nob d) (fun m => sumn (nub d) (fun e => (i_ab_voov H a m i e) * (sft_bb R e b m j))).
(** ccpy/eomcc/sfeomcc23.py, build_HR_2B, line 87 *)
Definition sftr_x2b_9 (d : dims) (H : ints) (T : amps) (R : sftv) : mat4 := fun a b i j =>
  sftr_x2b_8 d H T R a b i j - sumn (noa d) (fun m => sumn (nub d) (fun e => (i_ab_ovov H m b i e) * (sft_ab R a e m j))).
(** ccpy/eomcc/sfeomcc23.py, build_HR_2B, line 88 *)
Definition sftr_x2b_10 (d : dims) (H : ints) (T : amps) (R : sftv) : mat4 := fun a b i j =>
  sftr_x2b_9 d H T R a b i j - sumn (nob d) (fun m => (sftr_x_oo d H T R m j) * (x_ab T a b i m)).
(** ccpy/eomcc/sfeomcc23.py, build_HR_2B, line 89 *)
Definition sftr_x2b_11 (d : dims) (H : ints) (T : amps) (R : sftv) : mat4 := fun a b i j =>
  sftr_x2b_10 d H T R a b i j + 1 / 2 * (sumn (nua d) (fun e => (sftr_x_vv d H T R b e) * (x_aa T a e i j))).
(** ccpy/eomcc/sfeomcc23.py, build_HR_2B, line 91 *)
Definition sftr_x2b_12 (d : dims) (H : ints) (T : amps) (R : sftv) : mat4 := fun a b i j =>
  sftr_x2b_11 d H T R a b i j + 1 / 2 * (sumn (noa d) (fun m => sumn (nua d) (fun e => (i_a_ov H m e) * (sft_aab R a e b i m j)))).
(** ccpy/eomcc/sfeomcc23.py, build_HR_2B, line 92 *)
Definition sftr_x2b_13 (d : dims) (H : ints) (T : amps) (R : sftv) : mat4 := fun a b i j =>
  sftr_x2b_12 d H T R a b i j + 1 / 2 * (sumn (nob d) (fun m => sumn (nub d) (fun e => (i_b_ov H m e) * (sft_abb R a e b i m j)))).
(** ccpy/eomcc/sfeomcc23.py, build_HR_2B, line 93 *)
Definition sftr_x2b_14 (d : dims) (H : ints) (T : amps) (R : sftv) : mat4 := fun a b i j =>
  sftr_x2b_13 d H T R a b i j - 1 / 2 * (sumn (noa d) (fun m => sumn (noa d) (fun n => sumn (nua d) (fun f => (i_aa_ooov H m n i f) * (sft_aab R a f b m n j))))).
(** ccpy/eomcc/sfeomcc23.py, build_HR_2B, line 94 *)
Definition sftr_x2b_15 (d : dims) (H : ints) (T : amps) (R : sftv) : mat4 := fun a b i j =>
  sftr_x2b_14 d H T R a b i j - sumn (noa d) (fun m => sumn (nob d) (fun n => sumn (nub d) (fun f => (i_ab_ooov H m n i f) * (sft_abb R a f b m n j)))).
(** ccpy/eomcc/sfeomcc23.py, build_HR_2B, line 95 *)
Definition sftr_x2b_16 (d : dims) (H : ints) (T : amps) (R : sftv) : mat4 := fun a b i j =>
  sftr_x2b_15 d H T R a b i j + 1 / 4 * (sumn (noa d) (fun n => sumn (nua d) (fun e => sumn (nua d) (fun f => (i_aa_vovv H a n e f) * (sft_aab R e f b i n j))))).
(** ccpy/eomcc/sfeomcc23.py, build_HR_2B, line 96 *)
Definition sftr_x2b_17 (d : dims) (H : ints) (T : amps) (R : sftv) : mat4 := fun a b i j =>
  sftr_x2b_16 d H T R a b i j + 1 / 2 * (sumn (nob d) (fun n => sumn (nua d) (fun e => sumn (nub d) (fun f => (i_ab_vovv H a n e f) * (sft_abb R e f b i n j))))).
(** ccpy/eomcc/sfeomcc23.py, build_HR_2B, line 97 *)
Definition sftr_x2b_18 (d : dims) (H : ints) (T : amps) (R : sftv) : mat4 := fun a b i j =>
  sftr_x2b_17 d H T R a b i j + 1 / 2 * (sumn (noa d) (fun n => sumn (nua d) (fun f => sumn (nub d) (fun e => (i_ab_ovvv H n b f e) * (sft_aab R a f e i n j))))).
(** ccpy/eomcc/sfeomcc23.py, build_HR_2B, line 98 *)
Definition sftr_x2b_19 (d : dims) (H : ints) (T : amps) (R : sftv) : mat4 := fun a b i j =>
  sftr_x2b_18 d H T R a b i j + 1 / 4 * (sumn (nob d) (fun n => sumn (nub d) (fun e => sumn (nub d) (fun f => (i_bb_vovv H b n e f) * (sft_abb R a f e i n j))))).
(** ccpy/eomcc/sfeomcc23.py, build_HR_2B, line 100 *)
Definition sftr_x2b_20 (d : dims) (H : ints) (T : amps) (R : sftv) : mat4 := fun a b i j =>
  sftr_x2b_19 d H T R a b i j - sftr_x2b_19 d H T R a b j i.
(** ccpy/eomcc/sfeomcc23.py, build_HR_2C, line 105 *)
Definition sftr_x2c (d : dims) (H : ints) (T : amps) (R : sftv) : mat4 := fun a b i j =>
  1 / 2 * (sumn (nub d) (fun e => (i_bb_vvov H a b i e) * (sft_b R e j))).
(** ccpy/eomcc/sfeomcc23.py, build_HR_2C, line 106 *)
Definition sftr_x2c_1 (d : dims) (H : ints) (T : amps) (R : sftv) : mat4 := fun a b i j =>
  sftr_x2c d H T R a b i j - sumn (noa d) (fun m => (i_ab_ovoo H m a j i) * (sft_b R b m)).
(** ccpy/eomcc/sfeomcc23.py, build_HR_2C, line 107 *)
Definition sftr_x2c_2 (d : dims) (H : ints) (T : amps) (R : sftv) : mat4 := fun a b i j =>
  sftr_x2c_1 d H T R a b i j - 1 / 2 * (sumn (noa d) (fun m => (i_a_oo H m j) * (sft_bb R a b i m))).
(** ccpy/eomcc/sfeomcc23.py, build_HR_2C, line 108 *)
Definition sftr_x2c_3 (d : dims) (H : ints) (T : amps) (R : sftv) : mat4 := fun a b i j =>
  sftr_x2c_2 d H T R a b i j - 1 / 2 * (sumn (nob d) (fun m => (i_b_oo H m i) * (sft_bb R a b m j))).
(** ccpy/eomcc/sfeomcc23.py, build_HR_2C, line 109 *)
Definition sftr_x2c_4 (d : dims) (H : ints) (T : amps) (R : sftv) : mat4 := fun a b i j =>
  sftr_x2c_3 d H T R a b i j + sumn (nub d) (fun e => (i_b_vv H a e) * (sft_bb R e b i j)).
(** ccpy/eomcc/sfeomcc23.py, build_HR_2C, line 110 *)
Definition sftr_x2c_5 (d : dims) (H : ints) (T : amps) (R : sftv) : mat4 := fun a b i j =>
  sftr_x2c_4 d H T R a b i j + 1 / 4 * (sumn (nub d) (fun e => sumn (nub d) (fun f => (i_bb_vvvv H a b e f) * (sft_bb R e f i j)))).
(** ccpy/eomcc/sfeomcc23.py, build_HR_2C, line 111 *)
Definition sftr_x2c_6 (d : dims) (H : ints) (T : amps) (R : sftv) : mat4 := fun a b i j =>
  sftr_x2c_5 d H T R a b i j + 1 / 2 * (sumn (noa d) (fun n => sumn (nob d) (fun m => (i_ab_oooo H n m j i) * (sft_bb R a b m n)))).
(** ccpy/eomcc/sfeomcc23.py, build_HR_2C, line 112 *)
Definition sftr_x2c_7 (d : dims) (H : ints) (T : amps) (R : sftv) : mat4 := fun a b i j =>
  sftr_x2c_6 d H T R a b i j + sumn (nob d) (fun m => sumn (nub d) (fun e => (i_bb_voov H a m i e) * (sft_bb R e b m j))).
(** ccpy/eomcc/sfeomcc23.py, build_HR_2C, line 113 *)
Definition sftr_x2c_8 (d : dims) (H : ints) (T : amps) (R : sftv) : mat4 := fun a b i j =>
  sftr_x2c_7 d H T R a b i j + sumn (noa d) (fun m => sumn (nua d) (fun e => (i_ab_ovvo H m a e i) * (sft_ab R e b m j))).
(** ccpy/eomcc/sfeomcc23.py, build_HR_2C, line 114 *)
Definition sftr_x2c_9 (d : dims) (H : ints) (T : amps) (R : sftv) : mat4 := fun a b i j =>
  sftr_x2c_8 d H T R a b i j - sumn (noa d) (fun m => sumn (nub d) (fun e => (i_ab_ovov H m a j e) * (sft_bb R e b i m))).
(** ccpy/eomcc/sfeomcc23.py, build_HR_2C, line 115 *)
Definition sftr_x2c_10 (d : dims) (H : ints) (T : amps) (R : sftv) : mat4 := fun a b i j =>
  sftr_x2c_9 d H T R a b i j - 1 / 2 * (sumn (nob d) (fun m => (sftr_x_oo d H T R m j) * (x_bb T a b i m))).
(** ccpy/eomcc/sfeomcc23.py, build_HR_2C, line 116 *)
Definition sftr_x2c_11 (d : dims) (H : ints) (T : amps) (R : sftv) : mat4 := fun a b i j =>
  sftr_x2c_10 d H T R a b i j + sumn (nua d) (fun e => (sftr_x_vv d H T R b e) * (x_ab T e a j i)).
(** ccpy/eomcc/sfeomcc23.py, build_HR_2C, line 118 *)
Definition sftr_x2c_12 (d : dims) (H : ints) (T : amps) (R : sftv) : mat4 := fun a b i j =>
  sftr_x2c_11 d H T R a b i j + 1 / 2 * (sumn (noa d) (fun m => sumn (nua d) (fun e => (i_a_ov H m e) * (sft_abb R e a b m i j)))).
(** ccpy/eomcc/sfeomcc23.py, build_HR_2C, line 119 *)
Definition sftr_x2c_13 (d : dims) (H : ints) (T : amps) (R : sftv) : mat4 := fun a b i j =>
  sftr_x2c_12 d H T R a b i j + 1 / 2 * (sumn (nob d) (fun m => sumn (nub d) (fun e => (i_b_ov H m e) * (sft_bbb R e a b m i j)))).
(** ccpy/eomcc/sfeomcc23.py, build_HR_2C, line 120 *)
Definition sftr_x2c_14 (d : dims) (H : ints) (T : amps) (R : sftv) : mat4 := fun a b i j =>
  sftr_x2c_13 d H T R a b i j - 1 / 2 * (sumn (noa d) (fun n => sumn (nob d) (fun m => sumn (nua d) (fun f => (i_ab_oovo H n m f i) * (sft_abb R f a b n m j))))).
(** ccpy/eomcc/sfeomcc23.py, build_HR_2C, line 121 *)
Definition sftr_x2c_15 (d : dims) (H : ints) (T : amps) (R : sftv) : mat4 := fun a b i j =>
  sftr_x2c_14 d H T R a b i j - 1 / 4 * (sumn (nob d) (fun m => sumn (nob d) (fun n => sumn (nub d) (fun f => (i_bb_ooov H m n i f) * (sft_bbb R f a b n m j))))).
(** ccpy/eomcc/sfeomcc23.py, build_HR_2C, line 122 *)
Definition sftr_x2c_16 (d : dims) (H : ints) (T : amps) (R : sftv) : mat4 := fun a b i j =>
  sftr_x2c_15 d H T R a b i j - 1 / 4 * (sumn (noa d) (fun m => sumn (noa d) (fun n => sumn (nua d) (fun f => (i_aa_ooov H m n j f) * (sft_abb R f a b n i m))))).
(** ccpy/eomcc/sfeomcc23.py, build_HR_2C, line 123 *)
Definition sftr_x2c_17 (d : dims) (H : ints) (T : amps) (R : sftv) : mat4 := fun a b i j =>
  sftr_x2c_16 d H T R a b i j - 1 / 2 * (sumn (noa d) (fun m => sumn (nob d) (fun n => sumn (nub d) (fun f => (i_ab_ooov H m n j f) * (sft_bbb R f a b n i m))))).
(** ccpy/eomcc/sfeomcc23.py, build_HR_2C, line 124 *)
Definition sftr_x2c_18 (d : dims) (H : ints) (T : amps) (R : sftv) : mat4 := fun a b i j =>
  sftr_x2c_17 d H T R a b i j + sumn (noa d) (fun n => sumn (nua d) (fun f => sumn (nub d) (fun e => (i_ab_ovvv H n a f e) * (sft_abb R f e b n i j)))).
(** ccpy/eomcc/sfeomcc23.py, build_HR_2C, line 125 *)
Definition sftr_x2c_19 (d : dims) (H : ints) (T : amps) (R : sftv) : mat4 := fun a b i j =>
  sftr_x2c_18 d H T R a b i j + 1 / 2 * (sumn (nob d) (fun n => sumn (nub d) (fun e => sumn (nub d) (fun f => (i_bb_vovv H a n e f) * (sft_bbb R f e b n i j))))).
(** ccpy/eomcc/sfeomcc23.py, build_HR_2C, line 127 *)
Definition sftr_x2c_20 (d : dims) (H : ints) (T : amps) (R : sftv) : mat4 := fun a b i j =>
  sftr_x2c_19 d H T R a b i j - sftr_x2c_19 d H T R b a i j.
(** ccpy/eomcc/sfeomcc23.py, build_HR_3B, line 132 *)
Definition sftr_x3b (d : dims) (H : ints) (T : amps) (R : sftv) : mat6 := fun a b c i j k =>
  (-1) / 2 * (sumn (noa d) (fun m => (i_aa_vooo H a m i j) * (sft_ab R b c m k))).
(** ccpy/eomcc/sfeomcc23.py, build_HR_3B, line 133 *)
Definition sftr_x3b_1 (d : dims) (H : ints) (T : amps) (R : sftv) : mat6 := fun a b c i j k =>
  sftr_x3b d H T R a b c i j k + 1 / 4 * (sumn (nua d) (fun e => (i_aa_vvov H a b i e) * (sft_ab R e c j k))).
(** ccpy/eomcc/sfeomcc23.py, build_HR_3B, line 134 *)
Definition sftr_x3b_2 (d : dims) (H : ints) (T : amps) (R : sftv) : mat6 := fun a b c i j k =>
  sftr_x3b_1 d H T R a b c i j k + 1 / 2 * (sumn (nub d) (fun e => (i_ab_vvov H a c i e) * (sft_ab R b e j k))).
(** ccpy/eomcc/sfeomcc23.py, build_HR_3B, line 136 *)
Definition sftr_x3b_3 (d : dims) (H : ints) (T : amps) (R : sftv) : mat6 := fun a b c i j k =>
  sftr_x3b_2 d H T R a b c i j k - 1 / 4 * (sumn (noa d) (fun m => (sftr_X_ab_ovoo_1 d H T R m c j k) * (x_aa T a b i m))).
(** ccpy/eomcc/sfeomcc23.py, build_HR_3B, line 137 *)
Definition sftr_x3b_4 (d : dims) (H : ints) (T : amps) (R : sftv) : mat6 := fun a b c i j k =>
  sftr_x3b_3 d H T R a b c i j k + 1 / 2 * (sumn (nua d) (fun e => (sftr_X_ab_vvvo d H T R b c e k) * (x_aa T a e i j))).
(** ccpy/eomcc/sfeomcc23.py, build_HR_3B, line 138 *)
Definition sftr_x3b_5 (d : dims) (H : ints) (T : amps) (R : sftv) : mat6 := fun a b c i j k =>
  sftr_x3b_4 d H T R a b c i j k - 1 / 2 * (sumn (nob d) (fun m => (sftr_X_ab_vooo_1 d H T R a m i k) * (x_ab T b c j m))).
(** ccpy/eomcc/sfeomcc23.py, build_HR_3B, line 140 *)
Definition sftr_x3b_6 (d : dims) (H : ints) (T : amps) (R : sftv) : mat6 := fun a b c i j k =>
  sftr_x3b_5 d H T R a b c i j k - 1 / 4 * (sumn (noa d) (fun m => (i_a_oo H m j) * (sft_aab R a b c i m k))).
(** ccpy/eomcc/sfeomcc23.py, build_HR_3B, line 141 *)
Definition sftr_x3b_7 (d : dims) (H : ints) (T : amps) (R : sftv) : mat6 := fun a b c i j k =>
  sftr_x3b_6 d H T R a b c i j k + 1 / 6 * (sumn (nua d) (fun e => (i_a_vv H b e) * (sft_aab R a e c i j k))).
(** ccpy/eomcc/sfeomcc23.py, build_HR_3B, line 142 *)
Definition sftr_x3b_8 (d : dims) (H : ints) (T : amps) (R : sftv) : mat6 := fun a b c i j k =>
  sftr_x3b_7 d H T R a b c i j k + 1 / 12 * (sumn (nub d) (fun e => (i_b_vv H c e) * (sft_aab R a b e i j k))).
(** ccpy/eomcc/sfeomcc23.py, build_HR_3B, line 143 *)
Definition sftr_x3b_9 (d : dims) (H : ints) (T : amps) (R : sftv) : mat6 := fun a b c i j k =>
  sftr_x3b_8 d H T R a b c i j k + 1 / 8 * (sumn (noa d) (fun m => sumn (noa d) (fun n => (i_aa_oooo H m n i j) * (sft_aab R a b c m n k)))).
(** ccpy/eomcc/sfeomcc23.py, build_HR_3B, line 144 *)
Definition sftr_x3b_10 (d : dims) (H : ints) (T : amps) (R : sftv) : mat6 := fun a b c i j k =>
  sftr_x3b_9 d H T R a b c i j k + 1 / 24 * (sumn (nua d) (fun e => sumn (nua d) (fun f => (i_aa_vvvv H a b e f) * (sft_aab R e f c i j k)))).
(** ccpy/eomcc/sfeomcc23.py, build_HR_3B, line 145 *)
Definition sftr_x3b_11 (d : dims) (H : ints) (T : amps) (R : sftv) : mat6 := fun a b c i j k =>
  sftr_x3b_10 d H T R a b c i j k + 1 / 6 * (sumn (nua d) (fun e => sumn (nub d) (fun f => (i_ab_vvvv H b c e f) * (sft_aab R a e f i j k)))).
(** ccpy/eomcc/sfeomcc23.py, build_HR_3B, line 146 *)
Definition sftr_x3b_12 (d : dims) (H : ints) (T : amps) (R : sftv) : mat6 := fun a b c i j k =>
  sftr_x3b_11 d H T R a b c i j k + 1 / 2 * (sumn (noa d) (fun m => sumn (nua d) (fun e => (i_aa_voov H a m i e) * (sft_aab R b e c j m k)))).
(** ccpy/eomcc/sfeomcc23.py, build_HR_3B, line 147 *)
Definition sftr_x3b_13 (d : dims) (H : ints) (T : amps) (R : sftv) : mat6 := fun a b c i j k =>
  sftr_x3b_12 d H T R a b c i j k + 1 / 2 * (sumn (nob d) (fun m => sumn (nub d) (fun e => (i_ab_voov H a m i e) * (sft_abb R b e c j m k)))).
(** ccpy/eomcc/sfeomcc23.py, build_HR_3B, line 148 *)
Definition sftr_x3b_14 (d : dims) (H : ints) (T : amps) (R : sftv) : mat6 := fun a b c i j k =>
  sftr_x3b_13 d H T R a b c i j k - 1 / 6 * (sumn (noa d) (fun m => sumn (nub d) (fun e => (i_ab_ovov H m c i e) * (sft_aab R a b e m j k)))).
(** ccpy/eomcc/sfeomcc23.py, build_HR_3B, line 150 *)
Definition sftr_x3b_15 (d : dims) (H : ints) (T : amps) (R : sftv) : mat6 := fun a b c i j k =>
  sftr_x3b_14 d H T R a b c i j k - sftr_x3b_14 d H T R b a c i j k.
(** ccpy/eomcc/sfeomcc23.py, build_HR_3B, line 151 *)
Definition sftr_x3b_16 (d : dims) (H : ints) (T : amps) (R : sftv) : mat6 := fun a b c i j k =>
  sftr_x3b_15 d H T R a b c i j k - sftr_x3b_15 d H T R a b c i k j.
(** ccpy/eomcc/sfeomcc23.py, build_HR_3B, line 152 *)
Definition sftr_x3b_17 (d : dims) (H : ints) (T : amps) (R : sftv) : mat6 := fun a b c i j k =>
  sftr_x3b_16 d H T R a b c i j k - (sftr_x3b_16 d H T R a b c j i k + sftr_x3b_16 d H T R a b c k j i).
(** ccpy/eomcc/sfeomcc23.py, build_HR_3C, line 157 *)
Definition sftr_x3c (d : dims) (H : ints) (T : amps) (R : sftv) : mat6 := fun a b c i j k =>
  (- (sumn (noa d) (fun m => (i_ab_ovoo H m b i j) * (sft_ab R a c m k)))).
(** ccpy/eomcc/sfeomcc23.py, build_HR_3C, line 158 *)
Definition sftr_x3c_1 (d : dims) (H : ints) (T : amps) (R : sftv) : mat6 := fun a b c i j k =>
  sftr_x3c d H T R a b c i j k - 1 / 4 * (sumn (noa d) (fun m => (i_aa_vooo H a m i k) * (sft_bb R b c j m))).
(** ccpy/eomcc/sfeomcc23.py, build_HR_3C, line 159 *)
Definition sftr_x3c_2 (d : dims) (H : ints) (T : amps) (R : sftv) : mat6 := fun a b c i j k =>
  sftr_x3c_1 d H T R a b c i j k - 1 / 2 * (sumn (nob d) (fun m => (i_ab_vooo H a m i j) * (sft_bb R b c m k))).
(** ccpy/eomcc/sfeomcc23.py, build_HR_3C, line 160 *)
Definition sftr_x3c_3 (d : dims) (H : ints) (T : amps) (R : sftv) : mat6 := fun a b c i j k =>
  sftr_x3c_2 d H T R a b c i j k + sumn (nub d) (fun e => (i_ab_vvov H a b i e) * (sft_bb R e c j k)).
(** ccpy/eomcc/sfeomcc23.py, build_HR_3C, line 161 *)
Definition sftr_x3c_4 (d : dims) (H : ints) (T : amps) (R : sftv) : mat6 := fun a b c i j k =>
  sftr_x3c_3 d H T R a b c i j k + 1 / 2 * (sumn (nua d) (fun e => (i_ab_vvvo H a b e j) * (sft_ab R e c i k))).
(** ccpy/eomcc/sfeomcc23.py, build_HR_3C, line 162 *)
Definition sftr_x3c_5 (d : dims) (H : ints) (T : amps) (R : sftv) : mat6 := fun a b c i j k =>
  sftr_x3c_4 d H T R a b c i j k + 1 / 4 * (sumn (nub d) (fun e => (i_bb_vvov H b c j e) * (sft_ab R a e i k))).
(** ccpy/eomcc/sfeomcc23.py, build_HR_3C, line 164 *)
Definition sftr_x3c_6 (d : dims) (H : ints) (T : amps) (R : sftv) : mat6 := fun a b c i j k =>
  sftr_x3c_5 d H T R a b c i j k - 1 / 2 * (sumn (noa d) (fun m => (sftr_X_ab_ovoo_1 d H T R m c i k) * (x_ab T a b m j))).
(** ccpy/eomcc/sfeomcc23.py, build_HR_3C, line 165 *)
Definition sftr_x3c_7 (d : dims) (H : ints) (T : amps) (R : sftv) : mat6 := fun a b c i j k =>
  sftr_x3c_6 d H T R a b c i j k - sumn (nob d) (fun m => (sftr_X_bb_ovoo d H T R m c j k) * (x_ab T a b i m)).
(** ccpy/eomcc/sfeomcc23.py, build_HR_3C, line 166 *)
Definition sftr_x3c_8 (d : dims) (H : ints) (T : amps) (R : sftv) : mat6 := fun a b c i j k =>
  sftr_x3c_7 d H T R a b c i j k - 1 / 4 * (sumn (nob d) (fun m => (sftr_X_ab_vooo_1 d H T R a m i k) * (x_bb T b c j m))).
(** ccpy/eomcc/sfeomcc23.py, build_HR_3C, line 167 *)
Definition sftr_x3c_9 (d : dims) (H : ints) (T : amps) (R : sftv) : mat6 := fun a b c i j k =>
  sftr_x3c_8 d H T R a b c i j k + sumn (nua d) (fun e => (sftr_X_ab_vvvo d H T R a c e k) * (x_ab T e b i j)).
(** ccpy/eomcc/sfeomcc23.py, build_HR_3C, line 168 *)
Definition sftr_x3c_10 (d : dims) (H : ints) (T : amps) (R : sftv) : mat6 := fun a b c i j k =>
  sftr_x3c_9 d H T R a b c i j k + 1 / 2 * (sumn (nub d) (fun e => (sftr_X_bb_vvvo_1 d H T R b c e k) * (x_ab T a e i j))).
(** ccpy/eomcc/sfeomcc23.py, build_HR_3C, line 169 *)
Definition sftr_x3c_11 (d : dims) (H : ints) (T : amps) (R : sftv) : mat6 := fun a b c i j k =>
  sftr_x3c_10 d H T R a b c i j k + 1 / 4 * (sumn (nua d) (fun e => (sftr_X_bb_vvov_1 d H T R b c j e) * (x_aa T a e i k))).
(** ccpy/eomcc/sfeomcc23.py, build_HR_3C, line 171 *)
Definition sftr_x3c_12 (d : dims) (H : ints) (T : amps) (R : sftv) : mat6 := fun a b c i j k =>
  sftr_x3c_11 d H T R a b c i j k - 1 / 2 * (sumn (noa d) (fun m => (i_a_oo H m i) * (sft_abb R a b c m j k))).
(** ccpy/eomcc/sfeomcc23.py, build_HR_3C, line 172 *)
Definition sftr_x3c_13 (d : dims) (H : ints) (T : amps) (R : sftv) : mat6 := fun a b c i j k =>
  sftr_x3c_12 d H T R a b c i j k - 1 / 4 * (sumn (nob d) (fun m => (i_b_oo H m j) * (sft_abb R a b c i m k))).
(** ccpy/eomcc/sfeomcc23.py, build_HR_3C, line 173 *)
Definition sftr_x3c_14 (d : dims) (H : ints) (T : amps) (R : sftv) : mat6 := fun a b c i j k =>
  sftr_x3c_13 d H T R a b c i j k + 1 / 4 * (sumn (nua d) (fun e => (i_a_vv H a e) * (sft_abb R e b c i j k))).
(** ccpy/eomcc/sfeomcc23.py, build_HR_3C, line 174 *)
Definition sftr_x3c_15 (d : dims) (H : ints) (T : amps) (R : sftv) : mat6 := fun a b c i j k =>
  sftr_x3c_14 d H T R a b c i j k + 1 / 2 * (sumn (nub d) (fun e => (i_b_vv H b e) * (sft_abb R a e c i j k))).
(** ccpy/eomcc/sfeomcc23.py, build_HR_3C, line 175 *)
Definition sftr_x3c_16 (d : dims) (H : ints) (T : amps) (R : sftv) : mat6 := fun a b c i j k =>
  sftr_x3c_15 d H T R a b c i j k + 1 / 8 * (sumn (noa d) (fun m => sumn (noa d) (fun n => (i_aa_oooo H m n i k) * (sft_abb R a b c m j n)))).
(** ccpy/eomcc/sfeomcc23.py, build_HR_3C, line 176 *)
Definition sftr_x3c_17 (d : dims) (H : ints) (T : amps) (R : sftv) : mat6 := fun a b c i j k =>
  sftr_x3c_16 d H T R a b c i j k + 1 / 2 * (sumn (noa d) (fun m => sumn (nob d) (fun n => (i_ab_oooo H m n i j) * (sft_abb R a b c m n k)))).
(** ccpy/eomcc/sfeomcc23.py, build_HR_3C, line 177 *)
Definition sftr_x3c_18 (d : dims) (H : ints) (T : amps) (R : sftv) : mat6 := fun a b c i j k =>
  sftr_x3c_17 d H T R a b c i j k + 1 / 2 * (sumn (nua d) (fun e => sumn (nub d) (fun f => (i_ab_vvvv H a c e f) * (sft_abb R e b f i j k)))).
(** ccpy/eomcc/sfeomcc23.py, build_HR_3C, line 178 *)
Definition sftr_x3c_19 (d : dims) (H : ints) (T : amps) (R : sftv) : mat6 := fun a b c i j k =>
  sftr_x3c_18 d H T R a b c i j k + 1 / 8 * (sumn (nub d) (fun e => sumn (nub d) (fun f => (i_bb_vvvv H b c e f) * (sft_abb R a e f i j k)))).
(** ccpy/eomcc/sfeomcc23.py, build_HR_3C, line 179 *)
Definition sftr_x3c_20 (d : dims) (H : ints) (T : amps) (R : sftv) : mat6 := fun a b c i j k =>
  sftr_x3c_19 d H T R a b c i j k + 1 / 2 * (sumn (noa d) (fun m => sumn (nua d) (fun e => (i_aa_voov H a m i e) * (sft_abb R e b c m j k)))).
(** ccpy/eomcc/sfeomcc23.py, build_HR_3C, line 180 *)
Definition sftr_x3c_21 (d : dims) (H : ints) (T : amps) (R : sftv) : mat6 := fun a b c i j k =>
  sftr_x3c_20 d H T R a b c i j k + 1 / 2 * (sumn (nob d) (fun m => sumn (nub d) (fun e => (i_ab_voov H a m i e) * (sft_bbb R e b c m j k)))).
(** ccpy/eomcc/sfeomcc23.py, build_HR_3C, line 181 *)
Definition sftr_x3c_22 (d : dims) (H : ints) (T : amps) (R : sftv) : mat6 := fun a b c i j k =>
  sftr_x3c_21 d H T R a b c i j k + 1 / 2 * (sumn (noa d) (fun m => sumn (nua d) (fun e => (i_ab_ovvo H m b e j) * (sft_aab R a e c i m k)))).
(** ccpy/eomcc/sfeomcc23.py, build_HR_3C, line 182 *)
Definition sftr_x3c_23 (d : dims) (H : ints) (T : amps) (R : sftv) : mat6 := fun a b c i j k =>
  sftr_x3c_22 d H T R a b c i j k + 1 / 2 * (sumn (nob d) (fun m => sumn (nub d) (fun e => (i_bb_voov H b m j e) * (sft_abb R a e c i m k)))).
(** ccpy/eomcc/sfeomcc23.py, build_HR_3C, line 183 *)
Definition sftr_x3c_24 (d : dims) (H : ints) (T : amps) (R : sftv) : mat6 := fun a b c i j k =>
  sftr_x3c_23 d H T R a b c i j k - 1 / 4 * (sumn (nob d) (fun m => sumn (nua d) (fun e => (i_ab_vovo H a m e j) * (sft_abb R e b c i m k)))).
(** ccpy/eomcc/sfeomcc23.py, build_HR_3C, line 184 *)
Definition sftr_x3c_25 (d : dims) (H : ints) (T : amps) (R : sftv) : mat6 := fun a b c i j k =>
  sftr_x3c_24 d H T R a b c i j k - sumn (noa d) (fun m => sumn (nub d) (fun e => (i_ab_ovov H m b i e) * (sft_abb R a e c m j k))).
(** ccpy/eomcc/sfeomcc23.py, build_HR_3C, line 186 *)
Definition sftr_x3c_26 (d : dims) (H : ints) (T : amps) (R : sftv) : mat6 := fun a b c i j k =>
  sftr_x3c_25 d H T R a b c i j k - sftr_x3c_25 d H T R a c b i j k.
(** ccpy/eomcc/sfeomcc23.py, build_HR_3C, line 187 *)
Definition sftr_x3c_27 (d : dims) (H : ints) (T : amps) (R : sftv) : mat6 := fun a b c i j k =>
  sftr_x3c_26 d H T R a b c i j k - sftr_x3c_26 d H T R a b c k j i.
(** ccpy/eomcc/sfeomcc23.py, build_HR_3D, line 192 *)
Definition sftr_x3d (d : dims) (H : ints) (T : amps) (R : sftv) : mat6 := fun a b c i j k =>
  (-1) / 4 * (sumn (nob d) (fun m => (i_bb_vooo H a m i j) * (sft_bb R b c m k))).
(** ccpy/eomcc/sfeomcc23.py, build_HR_3D, line 193 *)
Definition sftr_x3d_1 (d : dims) (H : ints) (T : amps) (R : sftv) : mat6 := fun a b c i j k =>
  sftr_x3d d H T R a b c i j k - 1 / 2 * (sumn (noa d) (fun m => (i_ab_ovoo H m a k i) * (sft_bb R b c j m))).
(** ccpy/eomcc/sfeomcc23.py, build_HR_3D, line 194 *)
Definition sftr_x3d_2 (d : dims) (H : ints) (T : amps) (R : sftv) : mat6 := fun a b c i j k =>
  sftr_x3d_1 d H T R a b c i j k + 1 / 2 * (sumn (nub d) (fun e => (i_bb_vvov H a b i e) * (sft_bb R e c j k))).
(** ccpy/eomcc/sfeomcc23.py, build_HR_3D, line 196 *)
Definition sftr_x3d_3 (d : dims) (H : ints) (T : amps) (R : sftv) : mat6 := fun a b c i j k =>
  sftr_x3d_2 d H T R a b c i j k - 1 / 2 * (sumn (nob d) (fun m => (sftr_X_bb_ovoo d H T R m c j k) * (x_bb T a b i m))).
(** ccpy/eomcc/sfeomcc23.py, build_HR_3D, line 197 *)
Definition sftr_x3d_4 (d : dims) (H : ints) (T : amps) (R : sftv) : mat6 := fun a b c i j k =>
  sftr_x3d_3 d H T R a b c i j k + 1 / 2 * (sumn (nua d) (fun e => (sftr_X_bb_vvov_1 d H T R b c j e) * (x_ab T e a k i))).
(** ccpy/eomcc/sfeomcc23.py, build_HR_3D, line 198 *)
Definition sftr_x3d_5 (d : dims) (H : ints) (T : amps) (R : sftv) : mat6 := fun a b c i j k =>
  sftr_x3d_4 d H T R a b c i j k + 1 / 4 * (sumn (nub d) (fun e => (sftr_X_bb_vvvo_1 d H T R b c e k) * (x_bb T a e i j))).
(** ccpy/eomcc/sfeomcc23.py, build_HR_3D, line 200 *)
Definition sftr_x3d_6 (d : dims) (H : ints) (T : amps) (R : sftv) : mat6 := fun a b c i j k =>
  sftr_x3d_5 d H T R a b c i j k - 1 / 6 * (sumn (nob d) (fun m => (i_b_oo H m i) * (sft_bbb R a b c m j k))).
(** ccpy/eomcc/sfeomcc23.py, build_HR_3D, line 201 *)
Definition sftr_x3d_7 (d : dims) (H : ints) (T : amps) (R : sftv) : mat6 := fun a b c i j k =>
  sftr_x3d_6 d H T R a b c i j k - 1 / 12 * (sumn (noa d) (fun m => (i_a_oo H m k) * (sft_bbb R a b c i j m))).
(** ccpy/eomcc/sfeomcc23.py, build_HR_3D, line 202 *)
Definition sftr_x3d_8 (d : dims) (H : ints) (T : amps) (R : sftv) : mat6 := fun a b c i j k =>
  sftr_x3d_7 d H T R a b c i j k + 1 / 4 * (sumn (nub d) (fun e => (i_b_vv H c e) * (sft_bbb R a b e i j k))).
(** ccpy/eomcc/sfeomcc23.py, build_HR_3D, line 203 *)
Definition sftr_x3d_9 (d : dims) (H : ints) (T : amps) (R : sftv) : mat6 := fun a b c i j k =>
  sftr_x3d_8 d H T R a b c i j k + 1 / 24 * (sumn (nob d) (fun m => sumn (nob d) (fun n => (i_bb_oooo H m n i j) * (sft_bbb R a b c m n k)))).
(** ccpy/eomcc/sfeomcc23.py, build_HR_3D, line 204 *)
Definition sftr_x3d_10 (d : dims) (H : ints) (T : amps) (R : sftv) : mat6 := fun a b c i j k =>
  sftr_x3d_9 d H T R a b c i j k + 1 / 6 * (sumn (noa d) (fun m => sumn (nob d) (fun n => (i_ab_oooo H m n k j) * (sft_bbb R a b c i n m)))).
(** ccpy/eomcc/sfeomcc23.py, build_HR_3D, line 205 *)
Definition sftr_x3d_11 (d : dims) (H : ints) (T : amps) (R : sftv) : mat6 := fun a b c i j k =>
  sftr_x3d_10 d H T R a b c i j k + 1 / 8 * (sumn (nub d) (fun e => sumn (nub d) (fun f => (i_bb_vvvv H a b e f) * (sft_bbb R e f c i j k)))).
(** ccpy/eomcc/sfeomcc23.py, build_HR_3D, line 206 *)
Definition sftr_x3d_12 (d : dims) (H : ints) (T : amps) (R : sftv) : mat6 := fun a b c i j k =>
  sftr_x3d_11 d H T R a b c i j k + 1 / 2 * (sumn (noa d) (fun m => sumn (nua d) (fun e => (i_ab_ovvo H m a e i) * (sft_abb R e b c m j k)))).
(** ccpy/eomcc/sfeomcc23.py, build_HR_3D, line 207 *)
Definition sftr_x3d_13 (d : dims) (H : ints) (T : amps) (R : sftv) : mat6 := fun a b c i j k =>
  sftr_x3d_12 d H T R a b c i j k + 1 / 2 * (sumn (nob d) (fun m => sumn (nub d) (fun e => (i_bb_voov H a m i e) * (sft_bbb R e b c m j k)))).
(** ccpy/eomcc/sfeomcc23.py, build_HR_3D, line 208 *)
Definition sftr_x3d_14 (d : dims) (H : ints) (T : amps) (R : sftv) : mat6 := fun a b c i j k =>
  sftr_x3d_13 d H T R a b c i j k - 1 / 4 * (sumn (noa d) (fun m => sumn (nub d) (fun e => (i_ab_ovov H m b k e) * (sft_bbb R a e c i j m)))).
(** ccpy/eomcc/sfeomcc23.py, build_HR_3D, line 210 *)
Definition sftr_x3d_15 (d : dims) (H : ints) (T : amps) (R : sftv) : mat6 := fun a b c i j k =>
  sftr_x3d_14 d H T R a b c i j k - sftr_x3d_14 d H T R a b c j i k.
(** ccpy/eomcc/sfeomcc23.py, build_HR_3D, line 211 *)
Definition sftr_x3d_16 (d : dims) (H : ints) (T : amps) (R : sftv) : mat6 := fun a b c i j k =>
  sftr_x3d_15 d H T R a b c i j k - sftr_x3d_15 d H T R a c b i j k.
(** ccpy/eomcc/sfeomcc23.py, build_HR_3D, line 212 *)
Definition sftr_x3d_17 (d : dims) (H : ints) (T : amps) (R : sftv) : mat6 := fun a b c i j k =>
  sftr_x3d_16 d H T R a b c i j k - (sftr_x3d_16 d H T R b a c i j k + sftr_x3d_16 d H T R c b a i j k).
(** ccpy/eomcc/sfeomcc23.py (HR, lines 28-56): the vector returned *)
Definition sft_HR (d : dims) (H : ints) (T : amps) (R : sftv) : sftv := mkSft (sftr_x1b_11 d H T R) (sftr_x2b_20 d H T R) (sftr_x2c_20 d H T R) (sftr_x3b_17 d H T R) (sftr_x3c_27 d H T R) (sftr_x3d_17 d H T R).
