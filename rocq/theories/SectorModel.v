(** Generated by tools/gen_sector.py from the source text (symbolic execution of the numpy statements; exact reals).
    Models the EOM-CC sigma vectors on top of CCSD that remove, attach or spin-flip electrons:
    ccpy/eomcc/ipeom2.py (HR, lines 27-33),
    ccpy/eomcc/eaeom2.py (HR, lines 23-29),
    ccpy/eomcc/sfeomccsd.py (HR, lines 24-46),
    ccpy/eomcc/dipeom3.py (HR, lines 25-36, flag_RHF = False),
    ccpy/eomcc/deaeom2.py (HR, lines 19-23),
    ccpy/eomcc/deaeom3.py (HR, lines 25-36, flag_RHF = False),
    ccpy/eomcc/teaeom2.py (HR, lines 20-24),
    and the left vectors ccpy/left/left_ipeom2.py (LH_fun, lines 35-41), ccpy/left/left_eaeom2.py (LH_fun, lines 18-24).
    The records hold the arrays of ccpy/models/operators.py, FockOperator (lines 182-274) and SpinFlipOperator (lines 296-338). *)
From Coq Require Import Reals Arith.
From Verif Require Import RSum IntegralsModel TensorObjs.
Open Scope R_scope.
(** ccpy/eomcc/ipeom2.py: blocks of the operator, axes a: o, aa: ovo, ab: oVO (o, v occupied and unoccupied; capitals beta) *)
Record ipv := mkIp { ip_a : mat1; ip_aa : mat3; ip_ab : mat3 }.
(** ccpy/eomcc/ipeom2.py, build_HR_1A, line 36 *)
Definition ipr_X1A (d : dims) (H : ints) (T : amps) (R : ipv) : mat1 := fun i =>
  (0 / 1) - sumn (noa d) (fun m => (i_a_oo H m i) * (ip_a R m)).
(** ccpy/eomcc/ipeom2.py, build_HR_1A, line 37 *)
Definition ipr_X1A_1 (d : dims) (H : ints) (T : amps) (R : ipv) : mat1 := fun i =>
  ipr_X1A d H T R i - 1 / 2 * (sumn (noa d) (fun m => sumn (noa d) (fun n => sumn (nua d) (fun f => (i_aa_ooov H m n i f) * (ip_aa R m f n))))).
(** ccpy/eomcc/ipeom2.py, build_HR_1A, line 38 *)
Definition ipr_X1A_2 (d : dims) (H : ints) (T : amps) (R : ipv) : mat1 := fun i =>
  ipr_X1A_1 d H T R i - sumn (noa d) (fun m => sumn (nob d) (fun n => sumn (nub d) (fun f => (i_ab_ooov H m n i f) * (ip_ab R m f n)))).
(** ccpy/eomcc/ipeom2.py, build_HR_1A, line 39 *)
Definition ipr_X1A_3 (d : dims) (H : ints) (T : amps) (R : ipv) : mat1 := fun i =>
  ipr_X1A_2 d H T R i + sumn (noa d) (fun m => sumn (nua d) (fun e => (i_a_ov H m e) * (ip_aa R i e m))).
(** ccpy/eomcc/ipeom2.py, build_HR_1A, line 40 *)
Definition ipr_X1A_4 (d : dims) (H : ints) (T : amps) (R : ipv) : mat1 := fun i =>
  ipr_X1A_3 d H T R i + sumn (nob d) (fun m => sumn (nub d) (fun e => (i_b_ov H m e) * (ip_ab R i e m))).
(** ccpy/eomcc/ipeom2.py, build_HR_2A, line 45 *)
Definition ipr_X2A (d : dims) (H : ints) (T : amps) (R : ipv) : mat3 := fun i b j =>
  (-1) / 2 * (sumn (noa d) (fun m => (i_aa_vooo H b m j i) * (ip_a R m))).
(** ccpy/eomcc/ipeom2.py, build_HR_2A, line 46 *)
Definition ipr_X2A_1 (d : dims) (H : ints) (T : amps) (R : ipv) : mat3 := fun i b j =>
  ipr_X2A d H T R i b j + 1 / 2 * (sumn (nua d) (fun e => (i_a_vv H b e) * (ip_aa R i e j))).
(** ccpy/eomcc/ipeom2.py, build_HR_2A, line 47 *)
Definition ipr_X2A_2 (d : dims) (H : ints) (T : amps) (R : ipv) : mat3 := fun i b j =>
  ipr_X2A_1 d H T R i b j + 1 / 4 * (sumn (noa d) (fun m => sumn (noa d) (fun n => (i_aa_oooo H m n i j) * (ip_aa R m b n)))).
(** ccpy/eomcc/ipeom2.py, build_HR_2A, lines 48-51 *)
Definition ipr_I1 (d : dims) (H : ints) (T : amps) (R : ipv) : mat1 := fun e =>
  (-1) / 2 * (sumn (noa d) (fun m => sumn (noa d) (fun n => sumn (nua d) (fun f => (i_aa_oovv H m n e f) * (ip_aa R m f n))))) - sumn (noa d) (fun m => sumn (nob d) (fun n => sumn (nub d) (fun f => (i_ab_oovv H m n e f) * (ip_ab R m f n)))).
(** ccpy/eomcc/ipeom2.py, build_HR_2A, line 52 *)
Definition ipr_X2A_3 (d : dims) (H : ints) (T : amps) (R : ipv) : mat3 := fun i b j =>
  ipr_X2A_2 d H T R i b j + 1 / 2 * (sumn (nua d) (fun e => (ipr_I1 d H T R e) * (x_aa T e b i j))).
(** ccpy/eomcc/ipeom2.py, build_HR_2A, line 53 *)
Definition ipr_X2A_4 (d : dims) (H : ints) (T : amps) (R : ipv) : mat3 := fun i b j =>
  ipr_X2A_3 d H T R i b j - sumn (noa d) (fun m => (i_a_oo H m i) * (ip_aa R m b j)).
(** ccpy/eomcc/ipeom2.py, build_HR_2A, line 54 *)
Definition ipr_X2A_5 (d : dims) (H : ints) (T : amps) (R : ipv) : mat3 := fun i b j =>
  ipr_X2A_4 d H T R i b j + sumn (noa d) (fun m => sumn (nua d) (fun e => (i_aa_voov H b m j e) * (ip_aa R i e m))).
(** ccpy/eomcc/ipeom2.py, build_HR_2A, line 55 *)
Definition ipr_X2A_6 (d : dims) (H : ints) (T : amps) (R : ipv) : mat3 := fun i b j =>
  ipr_X2A_5 d H T R i b j + sumn (nob d) (fun m => sumn (nub d) (fun e => (i_ab_voov H b m j e) * (ip_ab R i e m))).
(** ccpy/eomcc/ipeom2.py, build_HR_2A, line 56 *)
Definition ipr_X2A_7 (d : dims) (H : ints) (T : amps) (R : ipv) : mat3 := fun i b j =>
  ipr_X2A_6 d H T R i b j - ipr_X2A_6 d H T R j b i.
(** ccpy/eomcc/ipeom2.py, build_HR_2B, line 61 *)
Definition ipr_X2B (d : dims) (H : ints) (T : amps) (R : ipv) : mat3 := fun i b j =>
  (-1) / 1 * (sumn (noa d) (fun m => (i_ab_ovoo H m b i j) * (ip_a R m))).
(** ccpy/eomcc/ipeom2.py, build_HR_2B, line 62 *)
Definition ipr_X2B_1 (d : dims) (H : ints) (T : amps) (R : ipv) : mat3 := fun i b j =>
  ipr_X2B d H T R i b j - sumn (noa d) (fun m => (i_a_oo H m i) * (ip_ab R m b j)).
(** ccpy/eomcc/ipeom2.py, build_HR_2B, line 63 *)
Definition ipr_X2B_2 (d : dims) (H : ints) (T : amps) (R : ipv) : mat3 := fun i b j =>
  ipr_X2B_1 d H T R i b j - sumn (nob d) (fun m => (i_b_oo H m j) * (ip_ab R i b m)).
(** ccpy/eomcc/ipeom2.py, build_HR_2B, line 64 *)
Definition ipr_X2B_3 (d : dims) (H : ints) (T : amps) (R : ipv) : mat3 := fun i b j =>
  ipr_X2B_2 d H T R i b j + sumn (nub d) (fun e => (i_b_vv H b e) * (ip_ab R i e j)).
(** ccpy/eomcc/ipeom2.py, build_HR_2B, line 65 *)
Definition ipr_X2B_4 (d : dims) (H : ints) (T : amps) (R : ipv) : mat3 := fun i b j =>
  ipr_X2B_3 d H T R i b j + sumn (noa d) (fun m => sumn (nob d) (fun n => (i_ab_oooo H m n i j) * (ip_ab R m b n))).
(** ccpy/eomcc/ipeom2.py, build_HR_2B, line 66 *)
Definition ipr_X2B_5 (d : dims) (H : ints) (T : amps) (R : ipv) : mat3 := fun i b j =>
  ipr_X2B_4 d H T R i b j + sumn (noa d) (fun m => sumn (nua d) (fun e => (i_ab_ovvo H m b e j) * (ip_aa R i e m))).
(** ccpy/eomcc/ipeom2.py, build_HR_2B, line 67 *)
Definition ipr_X2B_6 (d : dims) (H : ints) (T : amps) (R : ipv) : mat3 := fun i b j =>
  ipr_X2B_5 d H T R i b j + sumn (nob d) (fun m => sumn (nub d) (fun e => (i_bb_voov H b m j e) * (ip_ab R i e m))).
(** ccpy/eomcc/ipeom2.py, build_HR_2B, line 68 *)
Definition ipr_X2B_7 (d : dims) (H : ints) (T : amps) (R : ipv) : mat3 := fun i b j =>
  ipr_X2B_6 d H T R i b j - sumn (noa d) (fun m => sumn (nub d) (fun e => (i_ab_ovov H m b i e) * (ip_ab R m e j))).
(** ccpy/eomcc/ipeom2.py, build_HR_2B, lines 69-72 *)
Definition ipr_I1_1 (d : dims) (H : ints) (T : amps) (R : ipv) : mat1 := fun e =>
  (-1) / 2 * (sumn (noa d) (fun m => sumn (noa d) (fun n => sumn (nua d) (fun f => (i_aa_oovv H m n e f) * (ip_aa R m f n))))) - sumn (noa d) (fun m => sumn (nob d) (fun n => sumn (nub d) (fun f => (i_ab_oovv H m n e f) * (ip_ab R m f n)))).
(** ccpy/eomcc/ipeom2.py, build_HR_2B, line 73 *)
Definition ipr_X2B_8 (d : dims) (H : ints) (T : amps) (R : ipv) : mat3 := fun i b j =>
  ipr_X2B_7 d H T R i b j + sumn (nua d) (fun e => (ipr_I1_1 d H T R e) * (x_ab T e b i j)).
(** ccpy/eomcc/ipeom2.py (HR, lines 27-33): the vector returned *)
Definition ip_HR (d : dims) (H : ints) (T : amps) (R : ipv) : ipv := mkIp (ipr_X1A_4 d H T R) (ipr_X2A_7 d H T R) (ipr_X2B_8 d H T R).
(** ccpy/eomcc/eaeom2.py: blocks of the operator, axes a: v, aa: vvo, ab: vVO (o, v occupied and unoccupied; capitals beta) *)
Record eav := mkEa { ea_a : mat1; ea_aa : mat3; ea_ab : mat3 }.
(** ccpy/eomcc/eaeom2.py, build_HR_1A, line 34 *)
Definition ear_X1A (d : dims) (H : ints) (T : amps) (R : eav) : mat1 := fun a =>
  sumn (nua d) (fun e => (i_a_vv H a e) * (ea_a R e)).
(** ccpy/eomcc/eaeom2.py, build_HR_1A, line 35 *)
Definition ear_X1A_1 (d : dims) (H : ints) (T : amps) (R : eav) : mat1 := fun a =>
  ear_X1A d H T R a + 1 / 2 * (sumn (noa d) (fun n => sumn (nua d) (fun e => sumn (nua d) (fun f => (i_aa_vovv H a n e f) * (ea_aa R e f n))))).
(** ccpy/eomcc/eaeom2.py, build_HR_1A, line 36 *)
Definition ear_X1A_2 (d : dims) (H : ints) (T : amps) (R : eav) : mat1 := fun a =>
  ear_X1A_1 d H T R a + sumn (nob d) (fun n => sumn (nua d) (fun e => sumn (nub d) (fun f => (i_ab_vovv H a n e f) * (ea_ab R e f n)))).
(** ccpy/eomcc/eaeom2.py, build_HR_1A, line 37 *)
Definition ear_X1A_3 (d : dims) (H : ints) (T : amps) (R : eav) : mat1 := fun a =>
  ear_X1A_2 d H T R a + sumn (noa d) (fun m => sumn (nua d) (fun e => (i_a_ov H m e) * (ea_aa R a e m))).
(** ccpy/eomcc/eaeom2.py, build_HR_1A, line 38 *)
Definition ear_X1A_4 (d : dims) (H : ints) (T : amps) (R : eav) : mat1 := fun a =>
  ear_X1A_3 d H T R a + sumn (nob d) (fun m => sumn (nub d) (fun e => (i_b_ov H m e) * (ea_ab R a e m))).
(** ccpy/eomcc/eaeom2.py, build_HR_2A, line 43 *)
Definition ear_X2A (d : dims) (H : ints) (T : amps) (R : eav) : mat3 := fun a b j =>
  1 / 2 * (sumn (nua d) (fun e => (i_aa_vvov H b a j e) * (ea_a R e))).
(** ccpy/eomcc/eaeom2.py, build_HR_2A, line 44 *)
Definition ear_X2A_1 (d : dims) (H : ints) (T : amps) (R : eav) : mat3 := fun a b j =>
  ear_X2A d H T R a b j - 1 / 2 * (sumn (noa d) (fun m => (i_a_oo H m j) * (ea_aa R a b m))).
(** ccpy/eomcc/eaeom2.py, build_HR_2A, line 45 *)
Definition ear_X2A_2 (d : dims) (H : ints) (T : amps) (R : eav) : mat3 := fun a b j =>
  ear_X2A_1 d H T R a b j + 1 / 4 * (sumn (nua d) (fun e => sumn (nua d) (fun f => (i_aa_vvvv H a b e f) * (ea_aa R e f j)))).
(** ccpy/eomcc/eaeom2.py, build_HR_2A, lines 46-49 *)
Definition ear_I1 (d : dims) (H : ints) (T : amps) (R : eav) : mat1 := fun m =>
  1 / 2 * (sumn (noa d) (fun n => sumn (nua d) (fun e => sumn (nua d) (fun f => (i_aa_oovv H m n e f) * (ea_aa R e f n))))) + sumn (nob d) (fun n => sumn (nua d) (fun e => sumn (nub d) (fun f => (i_ab_oovv H m n e f) * (ea_ab R e f n)))).
(** ccpy/eomcc/eaeom2.py, build_HR_2A, line 50 *)
Definition ear_X2A_3 (d : dims) (H : ints) (T : amps) (R : eav) : mat3 := fun a b j =>
  ear_X2A_2 d H T R a b j - 1 / 2 * (sumn (noa d) (fun m => (ear_I1 d H T R m) * (x_aa T a b m j))).
(** ccpy/eomcc/eaeom2.py, build_HR_2A, line 51 *)
Definition ear_X2A_4 (d : dims) (H : ints) (T : amps) (R : eav) : mat3 := fun a b j =>
  ear_X2A_3 d H T R a b j + sumn (nua d) (fun e => (i_a_vv H a e) * (ea_aa R e b j)).
(** ccpy/eomcc/eaeom2.py, build_HR_2A, line 52 *)
Definition ear_X2A_5 (d : dims) (H : ints) (T : amps) (R : eav) : mat3 := fun a b j =>
  ear_X2A_4 d H T R a b j + sumn (noa d) (fun m => sumn (nua d) (fun e => (i_aa_voov H b m j e) * (ea_aa R a e m))).
(** ccpy/eomcc/eaeom2.py, build_HR_2A, line 53 *)
Definition ear_X2A_6 (d : dims) (H : ints) (T : amps) (R : eav) : mat3 := fun a b j =>
  ear_X2A_5 d H T R a b j + sumn (nob d) (fun m => sumn (nub d) (fun e => (i_ab_voov H b m j e) * (ea_ab R a e m))).
(** ccpy/eomcc/eaeom2.py, build_HR_2A, line 54 *)
Definition ear_X2A_7 (d : dims) (H : ints) (T : amps) (R : eav) : mat3 := fun a b j =>
  ear_X2A_6 d H T R a b j - ear_X2A_6 d H T R b a j.
(** ccpy/eomcc/eaeom2.py, build_HR_2B, line 59 *)
Definition ear_X2B (d : dims) (H : ints) (T : amps) (R : eav) : mat3 := fun a b j =>
  sumn (nua d) (fun e => (i_ab_vvvo H a b e j) * (ea_a R e)).
(** ccpy/eomcc/eaeom2.py, build_HR_2B, line 60 *)
Definition ear_X2B_1 (d : dims) (H : ints) (T : amps) (R : eav) : mat3 := fun a b j =>
  ear_X2B d H T R a b j + sumn (nua d) (fun e => (i_a_vv H a e) * (ea_ab R e b j)).
(** ccpy/eomcc/eaeom2.py, build_HR_2B, line 61 *)
Definition ear_X2B_2 (d : dims) (H : ints) (T : amps) (R : eav) : mat3 := fun a b j =>
  ear_X2B_1 d H T R a b j + sumn (nub d) (fun e => (i_b_vv H b e) * (ea_ab R a e j)).
(** ccpy/eomcc/eaeom2.py, build_HR_2B, line 62 *)
Definition ear_X2B_3 (d : dims) (H : ints) (T : amps) (R : eav) : mat3 := fun a b j =>
  ear_X2B_2 d H T R a b j - sumn (nob d) (fun m => (i_b_oo H m j) * (ea_ab R a b m)).
(** ccpy/eomcc/eaeom2.py, build_HR_2B, line 63 *)
Definition ear_X2B_4 (d : dims) (H : ints) (T : amps) (R : eav) : mat3 := fun a b j =>
  ear_X2B_3 d H T R a b j + sumn (noa d) (fun m => sumn (nua d) (fun e => (i_ab_ovvo H m b e j) * (ea_aa R a e m))).
(** ccpy/eomcc/eaeom2.py, build_HR_2B, line 64 *)
Definition ear_X2B_5 (d : dims) (H : ints) (T : amps) (R : eav) : mat3 := fun a b j =>
  ear_X2B_4 d H T R a b j + sumn (nob d) (fun m => sumn (nub d) (fun e => (i_bb_voov H b m j e) * (ea_ab R a e m))).
(** ccpy/eomcc/eaeom2.py, build_HR_2B, line 65 *)
Definition ear_X2B_6 (d : dims) (H : ints) (T : amps) (R : eav) : mat3 := fun a b j =>
  ear_X2B_5 d H T R a b j - sumn (nob d) (fun m => sumn (nua d) (fun e => (i_ab_vovo H a m e j) * (ea_ab R e b m))).
(** ccpy/eomcc/eaeom2.py, build_HR_2B, line 66 *)
Definition ear_X2B_7 (d : dims) (H : ints) (T : amps) (R : eav) : mat3 := fun a b j =>
  ear_X2B_6 d H T R a b j + sumn (nua d) (fun e => sumn (nub d) (fun f => (i_ab_vvvv H a b e f) * (ea_ab R e f j))).
(** ccpy/eomcc/eaeom2.py, build_HR_2B, lines 67-70 *)
Definition ear_I1_1 (d : dims) (H : ints) (T : amps) (R : eav) : mat1 := fun m =>
  1 / 2 * (sumn (noa d) (fun n => sumn (nua d) (fun e => sumn (nua d) (fun f => (i_aa_oovv H m n e f) * (ea_aa R e f n))))) + sumn (nob d) (fun n => sumn (nua d) (fun e => sumn (nub d) (fun f => (i_ab_oovv H m n e f) * (ea_ab R e f n)))).
(** ccpy/eomcc/eaeom2.py, build_HR_2B, line 71 *)
Definition ear_X2B_8 (d : dims) (H : ints) (T : amps) (R : eav) : mat3 := fun a b j =>
  ear_X2B_7 d H T R a b j - sumn (noa d) (fun m => (ear_I1_1 d H T R m) * (x_ab T a b m j)).
(** ccpy/eomcc/eaeom2.py (HR, lines 23-29): the vector returned *)
Definition ea_HR (d : dims) (H : ints) (T : amps) (R : eav) : eav := mkEa (ear_X1A_4 d H T R) (ear_X2A_7 d H T R) (ear_X2B_8 d H T R).
(** ccpy/eomcc/sfeomccsd.py: blocks of the operator, axes b: Vo, ab: vVoo, bb: VVOo (o, v occupied and unoccupied; capitals beta) *)
Record sfv := mkSf { sf_b : mat2; sf_ab : mat4; sf_bb : mat4 }.
(** ccpy/eomcc/sfeomccsd.py, build_HR_1B, line 50 *)
Definition sfr_x1b (d : dims) (H : ints) (T : amps) (R : sfv) : mat2 := fun a i =>
  sumn (nub d) (fun e => (i_b_vv H a e) * (sf_b R e i)).
(** ccpy/eomcc/sfeomccsd.py, build_HR_1B, line 51 *)
Definition sfr_x1b_1 (d : dims) (H : ints) (T : amps) (R : sfv) : mat2 := fun a i =>
  sfr_x1b d H T R a i - sumn (noa d) (fun m => (i_a_oo H m i) * (sf_b R a m)).
(** ccpy/eomcc/sfeomccsd.py, build_HR_1B, line 52 *)
Definition sfr_x1b_2 (d : dims) (H : ints) (T : amps) (R : sfv) : mat2 := fun a i =>
  sfr_x1b_1 d H T R a i - sumn (noa d) (fun m => sumn (nub d) (fun e => (i_ab_ovov H m a i e) * (sf_b R e m))).
(** ccpy/eomcc/sfeomccsd.py, build_HR_1B, line 54 *)
Definition sfr_x1b_3 (d : dims) (H : ints) (T : amps) (R : sfv) : mat2 := fun a i =>
  sfr_x1b_2 d H T R a i + sumn (noa d) (fun m => sumn (nua d) (fun e => (i_a_ov H m e) * (sf_ab R e a m i))).
(** ccpy/eomcc/sfeomccsd.py, build_HR_1B, line 55 *)
Definition sfr_x1b_4 (d : dims) (H : ints) (T : amps) (R : sfv) : mat2 := fun a i =>
  sfr_x1b_3 d H T R a i + sumn (nob d) (fun m => sumn (nub d) (fun e => (i_b_ov H m e) * (sf_bb R e a m i))).
(** ccpy/eomcc/sfeomccsd.py, build_HR_1B, line 56 *)
Definition sfr_x1b_5 (d : dims) (H : ints) (T : amps) (R : sfv) : mat2 := fun a i =>
  sfr_x1b_4 d H T R a i - 1 / 2 * (sumn (noa d) (fun m => sumn (noa d) (fun n => sumn (nua d) (fun f => (i_aa_ooov H m n i f) * (sf_ab R f a n m))))).
(** ccpy/eomcc/sfeomccsd.py, build_HR_1B, line 57 *)
Definition sfr_x1b_6 (d : dims) (H : ints) (T : amps) (R : sfv) : mat2 := fun a i =>
  sfr_x1b_5 d H T R a i - sumn (noa d) (fun m => sumn (nob d) (fun n => sumn (nub d) (fun f => (i_ab_ooov H m n i f) * (sf_bb R f a n m)))).
(** ccpy/eomcc/sfeomccsd.py, build_HR_1B, line 58 *)
Definition sfr_x1b_7 (d : dims) (H : ints) (T : amps) (R : sfv) : mat2 := fun a i =>
  sfr_x1b_6 d H T R a i + 1 / 2 * (sumn (nob d) (fun n => sumn (nub d) (fun e => sumn (nub d) (fun f => (i_bb_vovv H a n e f) * (sf_bb R f e n i))))).
(** ccpy/eomcc/sfeomccsd.py, build_HR_1B, line 59 *)
Definition sfr_x1b_8 (d : dims) (H : ints) (T : amps) (R : sfv) : mat2 := fun a i =>
  sfr_x1b_7 d H T R a i + sumn (noa d) (fun n => sumn (nua d) (fun f => sumn (nub d) (fun e => (i_ab_ovvv H n a f e) * (sf_ab R f e n i)))).
(** ccpy/eomcc/sfeomccsd.py, HR, lines 30-34 *)
Definition sfr_x_oo (d : dims) (H : ints) (T : amps) (R : sfv) : mat2 := fun m j =>
  sumn (noa d) (fun n => sumn (nua d) (fun f => sumn (nub d) (fun e => (i_ab_oovv H n m f e) * (sf_ab R f e n j)))) + 1 / 2 * (sumn (nob d) (fun n => sumn (nub d) (fun e => sumn (nub d) (fun f => (i_bb_oovv H m n e f) * (sf_bb R f e n j))))) - sumn (noa d) (fun m' => sumn (nub d) (fun e => (i_ab_ooov H m' m j e) * (sf_b R e m'))).
(** ccpy/eomcc/sfeomccsd.py, HR, lines 35-39 *)
Definition sfr_x_vv (d : dims) (H : ints) (T : amps) (R : sfv) : mat2 := fun b e =>
  (-1) / 2 * (sumn (noa d) (fun m => sumn (noa d) (fun n => sumn (nua d) (fun f => (i_aa_oovv H m n e f) * (sf_ab R f b n m))))) - sumn (noa d) (fun m => sumn (nob d) (fun n => sumn (nub d) (fun f => (i_ab_oovv H m n e f) * (sf_bb R f b n m)))) - sumn (noa d) (fun m => sumn (nub d) (fun e' => (i_ab_ovvv H m b e e') * (sf_b R e' m))).
(** ccpy/eomcc/sfeomccsd.py, build_HR_2B, line 64 *)
Definition sfr_x2b (d : dims) (H : ints) (T : amps) (R : sfv) : mat4 := fun a b i j =>
  sumn (nub d) (fun e => (i_ab_vvov H a b i e) * (sf_b R e j)).
(** ccpy/eomcc/sfeomccsd.py, build_HR_2B, line 65 *)
Definition sfr_x2b_1 (d : dims) (H : ints) (T : amps) (R : sfv) : mat4 := fun a b i j =>
  sfr_x2b d H T R a b i j - 1 / 2 * (sumn (noa d) (fun m => (i_aa_vooo H a m i j) * (sf_b R b m))).
(** ccpy/eomcc/sfeomccsd.py, build_HR_2B, line 66 *)
Definition sfr_x2b_2 (d : dims) (H : ints) (T : amps) (R : sfv) : mat4 := fun a b i j =>
  sfr_x2b_1 d H T R a b i j - sumn (noa d) (fun m => (i_a_oo H m i) * (sf_ab R a b m j)).
(** ccpy/eomcc/sfeomccsd.py, build_HR_2B, line 67 *)
Definition sfr_x2b_3 (d : dims) (H : ints) (T : amps) (R : sfv) : mat4 := fun a b i j =>
  sfr_x2b_2 d H T R a b i j + 1 / 2 * (sumn (nub d) (fun e => (i_b_vv H b e) * (sf_ab R a e i j))).
(** ccpy/eomcc/sfeomccsd.py, build_HR_2B, line 68 *)
Definition sfr_x2b_4 (d : dims) (H : ints) (T : amps) (R : sfv) : mat4 := fun a b i j =>
  sfr_x2b_3 d H T R a b i j + 1 / 2 * (sumn (nua d) (fun e => (i_a_vv H a e) * (sf_ab R e b i j))).
(** ccpy/eomcc/sfeomccsd.py, build_HR_2B, line 69 *)
Definition sfr_x2b_5 (d : dims) (H : ints) (T : amps) (R : sfv) : mat4 := fun a b i j =>
  sfr_x2b_4 d H T R a b i j + 1 / 4 * (sumn (noa d) (fun m => sumn (noa d) (fun n => (i_aa_oooo H m n i j) * (sf_ab R a b m n)))).
(** ccpy/eomcc/sfeomccsd.py, build_HR_2B, line 70 *)
Definition sfr_x2b_6 (d : dims) (H : ints) (T : amps) (R : sfv) : mat4 := fun a b i j =>
  sfr_x2b_5 d H T R a b i j + 1 / 2 * (sumn (nua d) (fun e => sumn (nub d) (fun f => (i_ab_vvvv H a b e f) * (sf_ab R e f i j)))).
(** ccpy/eomcc/sfeomccsd.py, build_HR_2B, line 71 *)
Definition sfr_x2b_7 (d : dims) (H : ints) (T : amps) (R : sfv) : mat4 := fun a b i j =>
  sfr_x2b_6 d H T R a b i j + sumn (noa d) (fun m => sumn (nua d) (fun e => (i_aa_voov H a m i e) * (sf_ab R e b m j))).
(** ccpy/eomcc/sfeomccsd.py, build_HR_2B, line 72 *)
Definition sfr_x2b_8 (d : dims) (H : ints) (T : amps) (R : sfv) : mat4 := fun a b i j =>
  sfr_x2b_7 d H T R a b i j + sumn (nob d) (fun m => sumn (nub d) (fun e => (i_ab_voov H a m i e) * (sf_bb R e b m j))).
(** ccpy/eomcc/sfeomccsd.py, build_HR_2B, line 73 *)
Definition sfr_x2b_9 (d : dims) (H : ints) (T : amps) (R : sfv) : mat4 := fun a b i j =>
  sfr_x2b_8 d H T R a b i j - sumn (noa d) (fun m => sumn (nub d) (fun e => (i_ab_ovov H m b i e) * (sf_ab R a e m j))).
(** ccpy/eomcc/sfeomccsd.py, build_HR_2B, line 74 *)
Definition sfr_x2b_10 (d : dims) (H : ints) (T : amps) (R : sfv) : mat4 := fun a b i j =>
  sfr_x2b_9 d H T R a b i j - sumn (nob d) (fun m => (sfr_x_oo d H T R m j) * (x_ab T a b i m)).
(** ccpy/eomcc/sfeomccsd.py, build_HR_2B, line 75 *)
Definition sfr_x2b_11 (d : dims) (H : ints) (T : amps) (R : sfv) : mat4 := fun a b i j =>
  sfr_x2b_10 d H T R a b i j + 1 / 2 * (sumn (nua d) (fun e => (sfr_x_vv d H T R b e) * (x_aa T a e i j))).
(** ccpy/eomcc/sfeomccsd.py, build_HR_2B, line 77 *)
Definition sfr_x2b_12 (d : dims) (H : ints) (T : amps) (R : sfv) : mat4 := fun a b i j =>
  sfr_x2b_11 d H T R a b i j - sfr_x2b_11 d H T R a b j i.
(** ccpy/eomcc/sfeomccsd.py, build_HR_2C, line 82 *)
Definition sfr_x2c (d : dims) (H : ints) (T : amps) (R : sfv) : mat4 := fun a b i j =>
  1 / 2 * (sumn (nub d) (fun e => (i_bb_vvov H a b i e) * (sf_b R e j))).
(** ccpy/eomcc/sfeomccsd.py, build_HR_2C, line 83 *)
Definition sfr_x2c_1 (d : dims) (H : ints) (T : amps) (R : sfv) : mat4 := fun a b i j =>
  sfr_x2c d H T R a b i j - sumn (noa d) (fun m => (i_ab_ovoo H m a j i) * (sf_b R b m)).
(** ccpy/eomcc/sfeomccsd.py, build_HR_2C, line 84 *)
Definition sfr_x2c_2 (d : dims) (H : ints) (T : amps) (R : sfv) : mat4 := fun a b i j =>
  sfr_x2c_1 d H T R a b i j - 1 / 2 * (sumn (noa d) (fun m => (i_a_oo H m j) * (sf_bb R a b i m))).
(** ccpy/eomcc/sfeomccsd.py, build_HR_2C, line 85 *)
Definition sfr_x2c_3 (d : dims) (H : ints) (T : amps) (R : sfv) : mat4 := fun a b i j =>
  sfr_x2c_2 d H T R a b i j - 1 / 2 * (sumn (nob d) (fun m => (i_b_oo H m i) * (sf_bb R a b m j))).
(** ccpy/eomcc/sfeomccsd.py, build_HR_2C, line 86 *)
Definition sfr_x2c_4 (d : dims) (H : ints) (T : amps) (R : sfv) : mat4 := fun a b i j =>
  sfr_x2c_3 d H T R a b i j + sumn (nub d) (fun e => (i_b_vv H a e) * (sf_bb R e b i j)).
(** ccpy/eomcc/sfeomccsd.py, build_HR_2C, line 87 *)
Definition sfr_x2c_5 (d : dims) (H : ints) (T : amps) (R : sfv) : mat4 := fun a b i j =>
  sfr_x2c_4 d H T R a b i j + 1 / 4 * (sumn (nub d) (fun e => sumn (nub d) (fun f => (i_bb_vvvv H a b e f) * (sf_bb R e f i j)))).
(** ccpy/eomcc/sfeomccsd.py, build_HR_2C, line 88 *)
Definition sfr_x2c_6 (d : dims) (H : ints) (T : amps) (R : sfv) : mat4 := fun a b i j =>
  sfr_x2c_5 d H T R a b i j + 1 / 2 * (sumn (noa d) (fun n => sumn (nob d) (fun m => (i_ab_oooo H n m j i) * (sf_bb R a b m n)))).
(** ccpy/eomcc/sfeomccsd.py, build_HR_2C, line 89 *)
Definition sfr_x2c_7 (d : dims) (H : ints) (T : amps) (R : sfv) : mat4 := fun a b i j =>
  sfr_x2c_6 d H T R a b i j + sumn (nob d) (fun m => sumn (nub d) (fun e => (i_bb_voov H a m i e) * (sf_bb R e b m j))).
(** ccpy/eomcc/sfeomccsd.py, build_HR_2C, line 90 *)
Definition sfr_x2c_8 (d : dims) (H : ints) (T : amps) (R : sfv) : mat4 := fun a b i j =>
  sfr_x2c_7 d H T R a b i j + sumn (noa d) (fun m => sumn (nua d) (fun e => (i_ab_ovvo H m a e i) * (sf_ab R e b m j))).
(** ccpy/eomcc/sfeomccsd.py, build_HR_2C, line 91 *)
Definition sfr_x2c_9 (d : dims) (H : ints) (T : amps) (R : sfv) : mat4 := fun a b i j =>
  sfr_x2c_8 d H T R a b i j - sumn (noa d) (fun m => sumn (nub d) (fun e => (i_ab_ovov H m a j e) * (sf_bb R e b i m))).
(** ccpy/eomcc/sfeomccsd.py, build_HR_2C, line 92 *)
Definition sfr_x2c_10 (d : dims) (H : ints) (T : amps) (R : sfv) : mat4 := fun a b i j =>
  sfr_x2c_9 d H T R a b i j - 1 / 2 * (sumn (nob d) (fun m => (sfr_x_oo d H T R m j) * (x_bb T a b i m))).
(** ccpy/eomcc/sfeomccsd.py, build_HR_2C, line 93 *)
Definition sfr_x2c_11 (d : dims) (H : ints) (T : amps) (R : sfv) : mat4 := fun a b i j =>
  sfr_x2c_10 d H T R a b i j + sumn (nua d) (fun e => (sfr_x_vv d H T R b e) * (x_ab T e a j i)).
(** ccpy/eomcc/sfeomccsd.py, build_HR_2C, line 95 *)
Definition sfr_x2c_12 (d : dims) (H : ints) (T : amps) (R : sfv) : mat4 := fun a b i j =>
  sfr_x2c_11 d H T R a b i j - sfr_x2c_11 d H T R b a i j.
(** ccpy/eomcc/sfeomccsd.py (HR, lines 24-46): the vector returned *)
Definition sf_HR (d : dims) (H : ints) (T : amps) (R : sfv) : sfv := mkSf (sfr_x1b_8 d H T R) (sfr_x2b_12 d H T R) (sfr_x2c_12 d H T R).
(** ccpy/eomcc/dipeom3.py: blocks of the operator, axes ab: oO, aba: oOvo, abb: oOVO (o, v occupied and unoccupied; capitals beta) *)
Record dipv := mkDip { dip_ab : mat2; dip_aba : mat4; dip_abb : mat4 }.
(** ccpy/eomcc/dipeom3.py, build_HR_2B, line 39 *)
Definition dipr_x2b (d : dims) (H : ints) (T : amps) (R : dipv) : mat2 := fun i j =>
  (- (sumn (noa d) (fun m => (i_a_oo H m i) * (dip_ab R m j)))).
(** ccpy/eomcc/dipeom3.py, build_HR_2B, line 40 *)
Definition dipr_x2b_1 (d : dims) (H : ints) (T : amps) (R : dipv) : mat2 := fun i j =>
  dipr_x2b d H T R i j - sumn (nob d) (fun m => (i_b_oo H m j) * (dip_ab R i m)).
(** ccpy/eomcc/dipeom3.py, build_HR_2B, line 41 *)
Definition dipr_x2b_2 (d : dims) (H : ints) (T : amps) (R : dipv) : mat2 := fun i j =>
  dipr_x2b_1 d H T R i j + sumn (noa d) (fun m => sumn (nob d) (fun n => (i_ab_oooo H m n i j) * (dip_ab R m n))).
(** ccpy/eomcc/dipeom3.py, build_HR_2B, line 42 *)
Definition dipr_x2b_3 (d : dims) (H : ints) (T : amps) (R : dipv) : mat2 := fun i j =>
  dipr_x2b_2 d H T R i j + sumn (noa d) (fun m => sumn (nua d) (fun e => (i_a_ov H m e) * (dip_aba R i j e m))).
(** ccpy/eomcc/dipeom3.py, build_HR_2B, line 43 *)
Definition dipr_x2b_4 (d : dims) (H : ints) (T : amps) (R : dipv) : mat2 := fun i j =>
  dipr_x2b_3 d H T R i j + sumn (nob d) (fun m => sumn (nub d) (fun e => (i_b_ov H m e) * (dip_abb R i j e m))).
(** ccpy/eomcc/dipeom3.py, build_HR_2B, line 44 *)
Definition dipr_x2b_5 (d : dims) (H : ints) (T : amps) (R : dipv) : mat2 := fun i j =>
  dipr_x2b_4 d H T R i j - sumn (noa d) (fun n => sumn (nob d) (fun m => sumn (nua d) (fun f => (i_ab_oovo H n m f j) * (dip_aba R i m f n)))).
(** ccpy/eomcc/dipeom3.py, build_HR_2B, line 45 *)
Definition dipr_x2b_6 (d : dims) (H : ints) (T : amps) (R : dipv) : mat2 := fun i j =>
  dipr_x2b_5 d H T R i j - 1 / 2 * (sumn (nob d) (fun m => sumn (nob d) (fun n => sumn (nub d) (fun f => (i_bb_ooov H m n j f) * (dip_abb R i m f n))))).
(** ccpy/eomcc/dipeom3.py, build_HR_2B, line 46 *)
Definition dipr_x2b_7 (d : dims) (H : ints) (T : amps) (R : dipv) : mat2 := fun i j =>
  dipr_x2b_6 d H T R i j - 1 / 2 * (sumn (noa d) (fun m => sumn (noa d) (fun n => sumn (nua d) (fun f => (i_aa_ooov H m n i f) * (dip_aba R m j f n))))).
(** ccpy/eomcc/dipeom3.py, build_HR_2B, line 47 *)
Definition dipr_x2b_8 (d : dims) (H : ints) (T : amps) (R : dipv) : mat2 := fun i j =>
  dipr_x2b_7 d H T R i j - sumn (noa d) (fun m => sumn (nob d) (fun n => sumn (nub d) (fun f => (i_ab_ooov H m n i f) * (dip_abb R m j f n)))).
(** ccpy/eomcc/dipeom3.py, build_HR_3B, line 51 *)
Definition dipr_x3b (d : dims) (H : ints) (T : amps) (R : dipv) : mat4 := fun i j c k =>
  (-1) / 2 * (sumn (noa d) (fun m => (i_aa_vooo H c m k i) * (dip_ab R m j))).
(** ccpy/eomcc/dipeom3.py, build_HR_3B, line 52 *)
Definition dipr_x3b_1 (d : dims) (H : ints) (T : amps) (R : dipv) : mat4 := fun i j c k =>
  dipr_x3b d H T R i j c k - sumn (nob d) (fun m => (i_ab_vooo H c m k j) * (dip_ab R i m)).
(** ccpy/eomcc/dipeom3.py, build_HR_3B, line 53 *)
Definition dipr_x3b_2 (d : dims) (H : ints) (T : amps) (R : dipv) : mat4 := fun i j c k =>
  dipr_x3b_1 d H T R i j c k - sumn (noa d) (fun m => (i_a_oo H m k) * (dip_aba R i j c m)).
(** ccpy/eomcc/dipeom3.py, build_HR_3B, line 54 *)
Definition dipr_x3b_3 (d : dims) (H : ints) (T : amps) (R : dipv) : mat4 := fun i j c k =>
  dipr_x3b_2 d H T R i j c k - 1 / 2 * (sumn (nob d) (fun m => (i_b_oo H m j) * (dip_aba R i m c k))).
(** ccpy/eomcc/dipeom3.py, build_HR_3B, line 55 *)
Definition dipr_x3b_4 (d : dims) (H : ints) (T : amps) (R : dipv) : mat4 := fun i j c k =>
  dipr_x3b_3 d H T R i j c k + 1 / 2 * (sumn (nua d) (fun e => (i_a_vv H c e) * (dip_aba R i j e k))).
(** ccpy/eomcc/dipeom3.py, build_HR_3B, line 56 *)
Definition dipr_x3b_5 (d : dims) (H : ints) (T : amps) (R : dipv) : mat4 := fun i j c k =>
  dipr_x3b_4 d H T R i j c k + sumn (noa d) (fun m => sumn (nua d) (fun e => (i_aa_voov H c m k e) * (dip_aba R i j e m))).
(** ccpy/eomcc/dipeom3.py, build_HR_3B, line 57 *)
Definition dipr_x3b_6 (d : dims) (H : ints) (T : amps) (R : dipv) : mat4 := fun i j c k =>
  dipr_x3b_5 d H T R i j c k + sumn (nob d) (fun m => sumn (nub d) (fun e => (i_ab_voov H c m k e) * (dip_abb R i j e m))).
(** ccpy/eomcc/dipeom3.py, build_HR_3B, line 58 *)
Definition dipr_x3b_7 (d : dims) (H : ints) (T : amps) (R : dipv) : mat4 := fun i j c k =>
  dipr_x3b_6 d H T R i j c k + sumn (noa d) (fun m => sumn (nob d) (fun n => (i_ab_oooo H m n i j) * (dip_aba R m n c k))).
(** ccpy/eomcc/dipeom3.py, build_HR_3B, line 59 *)
Definition dipr_x3b_8 (d : dims) (H : ints) (T : amps) (R : dipv) : mat4 := fun i j c k =>
  dipr_x3b_7 d H T R i j c k + 1 / 4 * (sumn (noa d) (fun m => sumn (noa d) (fun n => (i_aa_oooo H m n i k) * (dip_aba R m j c n)))).
(** ccpy/eomcc/dipeom3.py, build_HR_3B, line 60 *)
Definition dipr_x3b_9 (d : dims) (H : ints) (T : amps) (R : dipv) : mat4 := fun i j c k =>
  dipr_x3b_8 d H T R i j c k - 1 / 2 * (sumn (nob d) (fun m => sumn (nua d) (fun e => (i_ab_vovo H c m e j) * (dip_aba R i m e k)))).
(** ccpy/eomcc/dipeom3.py, build_HR_3B, lines 62-66 *)
Definition dipr_x_ov (d : dims) (H : ints) (T : amps) (R : dipv) : mat2 := fun i e =>
  sumn (noa d) (fun m => sumn (nob d) (fun n => (i_ab_ooov H m n i e) * (dip_ab R m n))) - sumn (noa d) (fun n => sumn (nob d) (fun m => sumn (nua d) (fun f => (i_ab_oovv H n m f e) * (dip_aba R i m f n)))) - 1 / 2 * (sumn (nob d) (fun n => sumn (nob d) (fun m => sumn (nub d) (fun f => (i_bb_oovv H n m f e) * (dip_abb R i m f n))))).
(** ccpy/eomcc/dipeom3.py, build_HR_3B, lines 67-71 *)
Definition dipr_x_vo (d : dims) (H : ints) (T : amps) (R : dipv) : mat2 := fun e j =>
  sumn (noa d) (fun m => sumn (nob d) (fun n => (i_ab_oovo H m n e j) * (dip_ab R m n))) - 1 / 2 * (sumn (noa d) (fun m => sumn (noa d) (fun n => sumn (nua d) (fun f => (i_aa_oovv H m n e f) * (dip_aba R m j f n))))) - sumn (noa d) (fun m => sumn (nob d) (fun n => sumn (nub d) (fun f => (i_ab_oovv H m n e f) * (dip_abb R m j f n)))).
(** ccpy/eomcc/dipeom3.py, build_HR_3B, line 73 *)
Definition dipr_x3b_10 (d : dims) (H : ints) (T : amps) (R : dipv) : mat4 := fun i j c k =>
  dipr_x3b_9 d H T R i j c k + sumn (nub d) (fun e => (dipr_x_ov d H T R i e) * (x_ab T c e k j)).
(** ccpy/eomcc/dipeom3.py, build_HR_3B, line 74 *)
Definition dipr_x3b_11 (d : dims) (H : ints) (T : amps) (R : dipv) : mat4 := fun i j c k =>
  dipr_x3b_10 d H T R i j c k + 1 / 2 * (sumn (nua d) (fun e => (dipr_x_vo d H T R e j) * (x_aa T e c i k))).
(** ccpy/eomcc/dipeom3.py, build_HR_3B, line 77 *)
Definition dipr_x3b_12 (d : dims) (H : ints) (T : amps) (R : dipv) : mat4 := fun i j c k =>
  dipr_x3b_11 d H T R i j c k - dipr_x3b_11 d H T R k j c i.
(** ccpy/eomcc/dipeom3.py, build_HR_3C, line 81 *)
Definition dipr_x3c (d : dims) (H : ints) (T : amps) (R : dipv) : mat4 := fun i j c k =>
  (- (sumn (noa d) (fun m => (i_ab_ovoo H m c i k) * (dip_ab R m j)))).
(** ccpy/eomcc/dipeom3.py, build_HR_3C, line 82 *)
Definition dipr_x3c_1 (d : dims) (H : ints) (T : amps) (R : dipv) : mat4 := fun i j c k =>
  dipr_x3c d H T R i j c k - 1 / 2 * (sumn (nob d) (fun m => (i_bb_vooo H c m k j) * (dip_ab R i m))).
(** ccpy/eomcc/dipeom3.py, build_HR_3C, line 83 *)
Definition dipr_x3c_2 (d : dims) (H : ints) (T : amps) (R : dipv) : mat4 := fun i j c k =>
  dipr_x3c_1 d H T R i j c k - 1 / 2 * (sumn (noa d) (fun m => (i_a_oo H m i) * (dip_abb R m j c k))).
(** ccpy/eomcc/dipeom3.py, build_HR_3C, line 84 *)
Definition dipr_x3c_3 (d : dims) (H : ints) (T : amps) (R : dipv) : mat4 := fun i j c k =>
  dipr_x3c_2 d H T R i j c k - sumn (nob d) (fun m => (i_b_oo H m j) * (dip_abb R i m c k)).
(** ccpy/eomcc/dipeom3.py, build_HR_3C, line 85 *)
Definition dipr_x3c_4 (d : dims) (H : ints) (T : amps) (R : dipv) : mat4 := fun i j c k =>
  dipr_x3c_3 d H T R i j c k + 1 / 2 * (sumn (nub d) (fun e => (i_b_vv H c e) * (dip_abb R i j e k))).
(** ccpy/eomcc/dipeom3.py, build_HR_3C, line 86 *)
Definition dipr_x3c_5 (d : dims) (H : ints) (T : amps) (R : dipv) : mat4 := fun i j c k =>
  dipr_x3c_4 d H T R i j c k + sumn (noa d) (fun m => sumn (nob d) (fun n => (i_ab_oooo H m n i j) * (dip_abb R m n c k))).
(** ccpy/eomcc/dipeom3.py, build_HR_3C, line 87 *)
Definition dipr_x3c_6 (d : dims) (H : ints) (T : amps) (R : dipv) : mat4 := fun i j c k =>
  dipr_x3c_5 d H T R i j c k + 1 / 4 * (sumn (nob d) (fun m => sumn (nob d) (fun n => (i_bb_oooo H m n j k) * (dip_abb R i m c n)))).
(** ccpy/eomcc/dipeom3.py, build_HR_3C, line 88 *)
Definition dipr_x3c_7 (d : dims) (H : ints) (T : amps) (R : dipv) : mat4 := fun i j c k =>
  dipr_x3c_6 d H T R i j c k + sumn (noa d) (fun m => sumn (nua d) (fun e => (i_ab_ovvo H m c e k) * (dip_aba R i j e m))).
(** ccpy/eomcc/dipeom3.py, build_HR_3C, line 89 *)
Definition dipr_x3c_8 (d : dims) (H : ints) (T : amps) (R : dipv) : mat4 := fun i j c k =>
  dipr_x3c_7 d H T R i j c k + sumn (nob d) (fun m => sumn (nub d) (fun e => (i_bb_voov H c m k e) * (dip_abb R i j e m))).
(** ccpy/eomcc/dipeom3.py, build_HR_3C, line 90 *)
Definition dipr_x3c_9 (d : dims) (H : ints) (T : amps) (R : dipv) : mat4 := fun i j c k =>
  dipr_x3c_8 d H T R i j c k - 1 / 2 * (sumn (noa d) (fun m => sumn (nub d) (fun e => (i_ab_ovov H m c i e) * (dip_abb R m j e k)))).
(** ccpy/eomcc/dipeom3.py, build_HR_3C, lines 92-96 *)
Definition dipr_x_ov_1 (d : dims) (H : ints) (T : amps) (R : dipv) : mat2 := fun i e =>
  sumn (noa d) (fun m => sumn (nob d) (fun n => (i_ab_ooov H m n i e) * (dip_ab R m n))) - sumn (noa d) (fun n => sumn (nob d) (fun m => sumn (nua d) (fun f => (i_ab_oovv H n m f e) * (dip_aba R i m f n)))) - 1 / 2 * (sumn (nob d) (fun n => sumn (nob d) (fun m => sumn (nub d) (fun f => (i_bb_oovv H n m f e) * (dip_abb R i m f n))))).
(** ccpy/eomcc/dipeom3.py, build_HR_3C, lines 97-101 *)
Definition dipr_x_vo_1 (d : dims) (H : ints) (T : amps) (R : dipv) : mat2 := fun e j =>
  sumn (noa d) (fun m => sumn (nob d) (fun n => (i_ab_oovo H m n e j) * (dip_ab R m n))) - 1 / 2 * (sumn (noa d) (fun m => sumn (noa d) (fun n => sumn (nua d) (fun f => (i_aa_oovv H m n e f) * (dip_aba R m j f n))))) - sumn (noa d) (fun m => sumn (nob d) (fun n => sumn (nub d) (fun f => (i_ab_oovv H m n e f) * (dip_abb R m j f n)))).
(** ccpy/eomcc/dipeom3.py, build_HR_3C, line 103 *)
Definition dipr_x3c_10 (d : dims) (H : ints) (T : amps) (R : dipv) : mat4 := fun i j c k =>
  dipr_x3c_9 d H T R i j c k + sumn (nua d) (fun e => (dipr_x_vo_1 d H T R e j) * (x_ab T e c i k)).
(** ccpy/eomcc/dipeom3.py, build_HR_3C, line 104 *)
Definition dipr_x3c_11 (d : dims) (H : ints) (T : amps) (R : dipv) : mat4 := fun i j c k =>
  dipr_x3c_10 d H T R i j c k + 1 / 2 * (sumn (nub d) (fun e => (dipr_x_ov_1 d H T R i e) * (x_bb T e c j k))).
(** ccpy/eomcc/dipeom3.py, build_HR_3C, line 107 *)
Definition dipr_x3c_12 (d : dims) (H : ints) (T : amps) (R : dipv) : mat4 := fun i j c k =>
  dipr_x3c_11 d H T R i j c k - dipr_x3c_11 d H T R i k c j.
(** ccpy/eomcc/dipeom3.py (HR, lines 25-36, flag_RHF = False): the vector returned *)
Definition dip_HR (d : dims) (H : ints) (T : amps) (R : dipv) : dipv := mkDip (dipr_x2b_8 d H T R) (dipr_x3b_12 d H T R) (dipr_x3c_12 d H T R).
(** ccpy/eomcc/deaeom2.py: blocks of the operator, axes ab: vV (o, v occupied and unoccupied; capitals beta) *)
Record dea2v := mkDea2 { dea2_ab : mat2 }.
(** ccpy/eomcc/deaeom2.py, build_HR_2B, line 26 *)
Definition dea2r_x2b (d : dims) (H : ints) (T : amps) (R : dea2v) : mat2 := fun a b =>
  sumn (nua d) (fun e => (i_a_vv H a e) * (dea2_ab R e b)).
(** ccpy/eomcc/deaeom2.py, build_HR_2B, line 27 *)
Definition dea2r_x2b_1 (d : dims) (H : ints) (T : amps) (R : dea2v) : mat2 := fun a b =>
  dea2r_x2b d H T R a b + sumn (nub d) (fun e => (i_b_vv H b e) * (dea2_ab R a e)).
(** ccpy/eomcc/deaeom2.py, build_HR_2B, line 28 *)
Definition dea2r_x2b_2 (d : dims) (H : ints) (T : amps) (R : dea2v) : mat2 := fun a b =>
  dea2r_x2b_1 d H T R a b + sumn (nua d) (fun e => sumn (nub d) (fun f => (i_ab_vvvv H a b e f) * (dea2_ab R e f))).
(** ccpy/eomcc/deaeom2.py (HR, lines 19-23): the vector returned *)
Definition dea2_HR (d : dims) (H : ints) (T : amps) (R : dea2v) : dea2v := mkDea2 (dea2r_x2b_2 d H T R).
(** ccpy/eomcc/deaeom3.py: blocks of the operator, axes ab: vV, aba: vVvo, abb: vVVO (o, v occupied and unoccupied; capitals beta) *)
Record deav := mkDea { dea_ab : mat2; dea_aba : mat4; dea_abb : mat4 }.
(** ccpy/eomcc/deaeom3.py, build_HR_2B, line 39 *)
Definition dear_x2b (d : dims) (H : ints) (T : amps) (R : deav) : mat2 := fun a b =>
  sumn (nua d) (fun e => (i_a_vv H a e) * (dea_ab R e b)).
(** ccpy/eomcc/deaeom3.py, build_HR_2B, line 40 *)
Definition dear_x2b_1 (d : dims) (H : ints) (T : amps) (R : deav) : mat2 := fun a b =>
  dear_x2b d H T R a b + sumn (nub d) (fun e => (i_b_vv H b e) * (dea_ab R a e)).
(** ccpy/eomcc/deaeom3.py, build_HR_2B, line 41 *)
Definition dear_x2b_2 (d : dims) (H : ints) (T : amps) (R : deav) : mat2 := fun a b =>
  dear_x2b_1 d H T R a b + sumn (nua d) (fun e => sumn (nub d) (fun f => (i_ab_vvvv H a b e f) * (dea_ab R e f))).
(** ccpy/eomcc/deaeom3.py, build_HR_2B, line 42 *)
Definition dear_x2b_3 (d : dims) (H : ints) (T : amps) (R : deav) : mat2 := fun a b =>
  dear_x2b_2 d H T R a b + sumn (noa d) (fun m => sumn (nua d) (fun e => (i_a_ov H m e) * (dea_aba R a b e m))).
(** ccpy/eomcc/deaeom3.py, build_HR_2B, line 43 *)
Definition dear_x2b_4 (d : dims) (H : ints) (T : amps) (R : deav) : mat2 := fun a b =>
  dear_x2b_3 d H T R a b + sumn (nob d) (fun m => sumn (nub d) (fun e => (i_b_ov H m e) * (dea_abb R a b e m))).
(** ccpy/eomcc/deaeom3.py, build_HR_2B, line 44 *)
Definition dear_x2b_5 (d : dims) (H : ints) (T : amps) (R : deav) : mat2 := fun a b =>
  dear_x2b_4 d H T R a b + sumn (noa d) (fun n => sumn (nua d) (fun f => sumn (nub d) (fun e => (i_ab_ovvv H n b f e) * (dea_aba R a e f n)))).
(** ccpy/eomcc/deaeom3.py, build_HR_2B, line 45 *)
Definition dear_x2b_6 (d : dims) (H : ints) (T : amps) (R : deav) : mat2 := fun a b =>
  dear_x2b_5 d H T R a b + 1 / 2 * (sumn (noa d) (fun n => sumn (nua d) (fun e => sumn (nua d) (fun f => (i_aa_vovv H a n e f) * (dea_aba R e b f n))))).
(** ccpy/eomcc/deaeom3.py, build_HR_2B, line 46 *)
Definition dear_x2b_7 (d : dims) (H : ints) (T : amps) (R : deav) : mat2 := fun a b =>
  dear_x2b_6 d H T R a b + 1 / 2 * (sumn (nob d) (fun n => sumn (nub d) (fun e => sumn (nub d) (fun f => (i_bb_vovv H b n e f) * (dea_abb R a e f n))))).
(** ccpy/eomcc/deaeom3.py, build_HR_2B, line 47 *)
Definition dear_x2b_8 (d : dims) (H : ints) (T : amps) (R : deav) : mat2 := fun a b =>
  dear_x2b_7 d H T R a b + sumn (nob d) (fun n => sumn (nua d) (fun e => sumn (nub d) (fun f => (i_ab_vovv H a n e f) * (dea_abb R e b f n)))).
(** ccpy/eomcc/deaeom3.py, build_HR_3B, line 52 *)
Definition dear_x3b (d : dims) (H : ints) (T : amps) (R : deav) : mat4 := fun a b c k =>
  1 / 2 * (sumn (nua d) (fun e => (i_aa_vvov H c a k e) * (dea_ab R e b))).
(** ccpy/eomcc/deaeom3.py, build_HR_3B, line 54 *)
Definition dear_x3b_1 (d : dims) (H : ints) (T : amps) (R : deav) : mat4 := fun a b c k =>
  dear_x3b d H T R a b c k + sumn (nub d) (fun e => (i_ab_vvov H c b k e) * (dea_ab R a e)).
(** ccpy/eomcc/deaeom3.py, build_HR_3B, line 56 *)
Definition dear_x3b_2 (d : dims) (H : ints) (T : amps) (R : deav) : mat4 := fun a b c k =>
  dear_x3b_1 d H T R a b c k + sumn (nua d) (fun e => (i_a_vv H a e) * (dea_aba R e b c k)).
(** ccpy/eomcc/deaeom3.py, build_HR_3B, line 58 *)
Definition dear_x3b_3 (d : dims) (H : ints) (T : amps) (R : deav) : mat4 := fun a b c k =>
  dear_x3b_2 d H T R a b c k + 1 / 2 * (sumn (nub d) (fun e => (i_b_vv H b e) * (dea_aba R a e c k))).
(** ccpy/eomcc/deaeom3.py, build_HR_3B, line 60 *)
Definition dear_x3b_4 (d : dims) (H : ints) (T : amps) (R : deav) : mat4 := fun a b c k =>
  dear_x3b_3 d H T R a b c k + sumn (nua d) (fun e => sumn (nub d) (fun f => (i_ab_vvvv H a b e f) * (dea_aba R e f c k))).
(** ccpy/eomcc/deaeom3.py, build_HR_3B, line 62 *)
Definition dear_x3b_5 (d : dims) (H : ints) (T : amps) (R : deav) : mat4 := fun a b c k =>
  dear_x3b_4 d H T R a b c k + 1 / 4 * (sumn (nua d) (fun e => sumn (nua d) (fun f => (i_aa_vvvv H a c e f) * (dea_aba R e b f k)))).
(** ccpy/eomcc/deaeom3.py, build_HR_3B, line 64 *)
Definition dear_x3b_6 (d : dims) (H : ints) (T : amps) (R : deav) : mat4 := fun a b c k =>
  dear_x3b_5 d H T R a b c k + sumn (noa d) (fun m => sumn (nua d) (fun e => (i_aa_voov H c m k e) * (dea_aba R a b e m))).
(** ccpy/eomcc/deaeom3.py, build_HR_3B, line 66 *)
Definition dear_x3b_7 (d : dims) (H : ints) (T : amps) (R : deav) : mat4 := fun a b c k =>
  dear_x3b_6 d H T R a b c k + sumn (nob d) (fun m => sumn (nub d) (fun e => (i_ab_voov H c m k e) * (dea_abb R a b e m))).
(** ccpy/eomcc/deaeom3.py, build_HR_3B, line 68 *)
Definition dear_x3b_8 (d : dims) (H : ints) (T : amps) (R : deav) : mat4 := fun a b c k =>
  dear_x3b_7 d H T R a b c k - 1 / 2 * (sumn (noa d) (fun m => sumn (nub d) (fun e => (i_ab_ovov H m b k e) * (dea_aba R a e c m)))).
(** ccpy/eomcc/deaeom3.py, build_HR_3B, lines 70-74 *)
Definition dear_x_ov (d : dims) (H : ints) (T : amps) (R : deav) : mat2 := fun m b =>
  sumn (nua d) (fun e => sumn (nub d) (fun f => (i_ab_ovvv H m b e f) * (dea_ab R e f))) + 1 / 2 * (sumn (noa d) (fun n => sumn (nua d) (fun e => sumn (nua d) (fun f => (i_aa_oovv H m n e f) * (dea_aba R e b f n))))) + sumn (nob d) (fun n => sumn (nua d) (fun e => sumn (nub d) (fun f => (i_ab_oovv H m n e f) * (dea_abb R e b f n)))).
(** ccpy/eomcc/deaeom3.py, build_HR_3B, line 75 *)
Definition dear_x3b_9 (d : dims) (H : ints) (T : amps) (R : deav) : mat4 := fun a b c k =>
  dear_x3b_8 d H T R a b c k - 1 / 2 * (sumn (noa d) (fun m => (dear_x_ov d H T R m b) * (x_aa T a c m k))).
(** ccpy/eomcc/deaeom3.py, build_HR_3B, lines 77-81 *)
Definition dear_x_vo (d : dims) (H : ints) (T : amps) (R : deav) : mat2 := fun a m =>
  sumn (nua d) (fun e => sumn (nub d) (fun f => (i_ab_vovv H a m e f) * (dea_ab R e f))) + 1 / 2 * (sumn (nob d) (fun n => sumn (nub d) (fun f => sumn (nub d) (fun e => (i_bb_oovv H n m f e) * (dea_abb R a e f n))))) + sumn (noa d) (fun n => sumn (nua d) (fun f => sumn (nub d) (fun e => (i_ab_oovv H n m f e) * (dea_aba R a e f n)))).
(** ccpy/eomcc/deaeom3.py, build_HR_3B, line 82 *)
Definition dear_x3b_10 (d : dims) (H : ints) (T : amps) (R : deav) : mat4 := fun a b c k =>
  dear_x3b_9 d H T R a b c k - sumn (nob d) (fun m => (dear_x_vo d H T R a m) * (x_ab T c b k m)).
(** ccpy/eomcc/deaeom3.py, build_HR_3B, line 84 *)
Definition dear_x3b_11 (d : dims) (H : ints) (T : amps) (R : deav) : mat4 := fun a b c k =>
  dear_x3b_10 d H T R a b c k - 1 / 2 * (sumn (noa d) (fun m => (i_a_oo H m k) * (dea_aba R a b c m))).
(** ccpy/eomcc/deaeom3.py, build_HR_3B, line 86 *)
Definition dear_x3b_12 (d : dims) (H : ints) (T : amps) (R : deav) : mat4 := fun a b c k =>
  dear_x3b_11 d H T R a b c k - dear_x3b_11 d H T R c b a k.
(** ccpy/eomcc/deaeom3.py, build_HR_3C, line 91 *)
Definition dear_x3c (d : dims) (H : ints) (T : amps) (R : deav) : mat4 := fun a b c k =>
  sumn (nua d) (fun e => (i_ab_vvvo H a c e k) * (dea_ab R e b)).
(** ccpy/eomcc/deaeom3.py, build_HR_3C, line 93 *)
Definition dear_x3c_1 (d : dims) (H : ints) (T : amps) (R : deav) : mat4 := fun a b c k =>
  dear_x3c d H T R a b c k + 1 / 2 * (sumn (nub d) (fun e => (i_bb_vvov H c b k e) * (dea_ab R a e))).
(** ccpy/eomcc/deaeom3.py, build_HR_3C, line 95 *)
Definition dear_x3c_2 (d : dims) (H : ints) (T : amps) (R : deav) : mat4 := fun a b c k =>
  dear_x3c_1 d H T R a b c k + 1 / 2 * (sumn (nua d) (fun e => (i_a_vv H a e) * (dea_abb R e b c k))).
(** ccpy/eomcc/deaeom3.py, build_HR_3C, line 97 *)
Definition dear_x3c_3 (d : dims) (H : ints) (T : amps) (R : deav) : mat4 := fun a b c k =>
  dear_x3c_2 d H T R a b c k + sumn (nub d) (fun e => (i_b_vv H b e) * (dea_abb R a e c k)).
(** ccpy/eomcc/deaeom3.py, build_HR_3C, line 99 *)
Definition dear_x3c_4 (d : dims) (H : ints) (T : amps) (R : deav) : mat4 := fun a b c k =>
  dear_x3c_3 d H T R a b c k + sumn (nua d) (fun e => sumn (nub d) (fun f => (i_ab_vvvv H a b e f) * (dea_abb R e f c k))).
(** ccpy/eomcc/deaeom3.py, build_HR_3C, line 101 *)
Definition dear_x3c_5 (d : dims) (H : ints) (T : amps) (R : deav) : mat4 := fun a b c k =>
  dear_x3c_4 d H T R a b c k + 1 / 4 * (sumn (nub d) (fun e => sumn (nub d) (fun f => (i_bb_vvvv H b c e f) * (dea_abb R a e f k)))).
(** ccpy/eomcc/deaeom3.py, build_HR_3C, line 103 *)
Definition dear_x3c_6 (d : dims) (H : ints) (T : amps) (R : deav) : mat4 := fun a b c k =>
  dear_x3c_5 d H T R a b c k + sumn (noa d) (fun m => sumn (nua d) (fun e => (i_ab_ovvo H m c e k) * (dea_aba R a b e m))).
(** ccpy/eomcc/deaeom3.py, build_HR_3C, line 105 *)
Definition dear_x3c_7 (d : dims) (H : ints) (T : amps) (R : deav) : mat4 := fun a b c k =>
  dear_x3c_6 d H T R a b c k + sumn (nob d) (fun m => sumn (nub d) (fun e => (i_bb_voov H c m k e) * (dea_abb R a b e m))).
(** ccpy/eomcc/deaeom3.py, build_HR_3C, line 107 *)
Definition dear_x3c_8 (d : dims) (H : ints) (T : amps) (R : deav) : mat4 := fun a b c k =>
  dear_x3c_7 d H T R a b c k - 1 / 2 * (sumn (nob d) (fun m => sumn (nua d) (fun e => (i_ab_vovo H a m e k) * (dea_abb R e b c m)))).
(** ccpy/eomcc/deaeom3.py, build_HR_3C, lines 109-113 *)
Definition dear_x_ov_1 (d : dims) (H : ints) (T : amps) (R : deav) : mat2 := fun m b =>
  sumn (nua d) (fun e => sumn (nub d) (fun f => (i_ab_ovvv H m b e f) * (dea_ab R e f))) + 1 / 2 * (sumn (noa d) (fun n => sumn (nua d) (fun e => sumn (nua d) (fun f => (i_aa_oovv H m n e f) * (dea_aba R e b f n))))) + sumn (nob d) (fun n => sumn (nua d) (fun e => sumn (nub d) (fun f => (i_ab_oovv H m n e f) * (dea_abb R e b f n)))).
(** ccpy/eomcc/deaeom3.py, build_HR_3C, line 114 *)
Definition dear_x3c_9 (d : dims) (H : ints) (T : amps) (R : deav) : mat4 := fun a b c k =>
  dear_x3c_8 d H T R a b c k - sumn (noa d) (fun m => (dear_x_ov_1 d H T R m b) * (x_ab T a c m k)).
(** ccpy/eomcc/deaeom3.py, build_HR_3C, lines 116-120 *)
Definition dear_x_vo_1 (d : dims) (H : ints) (T : amps) (R : deav) : mat2 := fun a m =>
  sumn (nua d) (fun e => sumn (nub d) (fun f => (i_ab_vovv H a m e f) * (dea_ab R e f))) + 1 / 2 * (sumn (nob d) (fun n => sumn (nub d) (fun f => sumn (nub d) (fun e => (i_bb_oovv H n m f e) * (dea_abb R a e f n))))) + sumn (noa d) (fun n => sumn (nua d) (fun f => sumn (nub d) (fun e => (i_ab_oovv H n m f e) * (dea_aba R a e f n)))).
(** ccpy/eomcc/deaeom3.py, build_HR_3C, line 121 *)
Definition dear_x3c_10 (d : dims) (H : ints) (T : amps) (R : deav) : mat4 := fun a b c k =>
  dear_x3c_9 d H T R a b c k - 1 / 2 * (sumn (nob d) (fun m => (dear_x_vo_1 d H T R a m) * (x_bb T b c m k))).
(** ccpy/eomcc/deaeom3.py, build_HR_3C, line 123 *)
Definition dear_x3c_11 (d : dims) (H : ints) (T : amps) (R : deav) : mat4 := fun a b c k =>
  dear_x3c_10 d H T R a b c k - 1 / 2 * (sumn (nob d) (fun m => (i_b_oo H m k) * (dea_abb R a b c m))).
(** ccpy/eomcc/deaeom3.py, build_HR_3C, line 125 *)
Definition dear_x3c_12 (d : dims) (H : ints) (T : amps) (R : deav) : mat4 := fun a b c k =>
  dear_x3c_11 d H T R a b c k - dear_x3c_11 d H T R a c b k.
(** ccpy/eomcc/deaeom3.py (HR, lines 25-36, flag_RHF = False): the vector returned *)
Definition dea_HR (d : dims) (H : ints) (T : amps) (R : deav) : deav := mkDea (dear_x2b_8 d H T R) (dear_x3b_12 d H T R) (dear_x3c_12 d H T R).
(** ccpy/eomcc/teaeom2.py: blocks of the operator, axes aab: vvV (o, v occupied and unoccupied; capitals beta) *)
Record teav := mkTea { tea_aab : mat3 }.
(** ccpy/eomcc/teaeom2.py, build_HR_3B, line 26 *)
Definition tear_x3b (d : dims) (H : ints) (T : amps) (R : teav) : mat3 := fun a b c =>
  sumn (nua d) (fun e => (i_a_vv H a e) * (tea_aab R e b c)).
(** ccpy/eomcc/teaeom2.py, build_HR_3B, line 27 *)
Definition tear_x3b_1 (d : dims) (H : ints) (T : amps) (R : teav) : mat3 := fun a b c =>
  tear_x3b d H T R a b c + 1 / 2 * (sumn (nub d) (fun e => (i_b_vv H c e) * (tea_aab R a b e))).
(** ccpy/eomcc/teaeom2.py, build_HR_3B, line 28 *)
Definition tear_x3b_2 (d : dims) (H : ints) (T : amps) (R : teav) : mat3 := fun a b c =>
  tear_x3b_1 d H T R a b c + 1 / 4 * (sumn (nua d) (fun e => sumn (nua d) (fun f => (i_aa_vvvv H a b e f) * (tea_aab R e f c)))).
(** ccpy/eomcc/teaeom2.py, build_HR_3B, line 29 *)
Definition tear_x3b_3 (d : dims) (H : ints) (T : amps) (R : teav) : mat3 := fun a b c =>
  tear_x3b_2 d H T R a b c + sumn (nua d) (fun e => sumn (nub d) (fun f => (i_ab_vvvv H b c e f) * (tea_aab R a e f))).
(** ccpy/eomcc/teaeom2.py, build_HR_3B, line 31 *)
Definition tear_x3b_4 (d : dims) (H : ints) (T : amps) (R : teav) : mat3 := fun a b c =>
  tear_x3b_3 d H T R a b c - tear_x3b_3 d H T R b a c.
(** ccpy/eomcc/teaeom2.py (HR, lines 20-24): the vector returned *)
Definition tea_HR (d : dims) (H : ints) (T : amps) (R : teav) : teav := mkTea (tear_x3b_4 d H T R).
(** ccpy/left/left_ipeom2.py, build_LH_1A, line 45 *)
Definition ipl_LH_a (d : dims) (H : ints) (T : amps) (L : ipv) : mat1 := fun i =>
  (-1) / 1 * (sumn (noa d) (fun m => (ip_a L m) * (i_a_oo H i m))).
(** ccpy/left/left_ipeom2.py, build_LH_1A, line 46 *)
Definition ipl_LH_a_1 (d : dims) (H : ints) (T : amps) (L : ipv) : mat1 := fun i =>
  ipl_LH_a d H T L i - 1 / 2 * (sumn (noa d) (fun m => sumn (nua d) (fun f => sumn (noa d) (fun n => (ip_aa L m f n) * (i_aa_vooo H f i n m))))).
(** ccpy/left/left_ipeom2.py, build_LH_1A, line 47 *)
Definition ipl_LH_a_2 (d : dims) (H : ints) (T : amps) (L : ipv) : mat1 := fun i =>
  ipl_LH_a_1 d H T L i - sumn (noa d) (fun m => sumn (nub d) (fun f => sumn (nob d) (fun n => (ip_ab L m f n) * (i_ab_ovoo H i f m n)))).
(** ccpy/left/left_ipeom2.py, build_LH_2A, line 52 *)
Definition ipl_LH_aa (d : dims) (H : ints) (T : amps) (L : ipv) : mat3 := fun i b j =>
  (ip_a L i) * (i_a_ov H j b).
(** ccpy/left/left_ipeom2.py, build_LH_2A, line 53 *)
Definition ipl_LH_aa_1 (d : dims) (H : ints) (T : amps) (L : ipv) : mat3 := fun i b j =>
  ipl_LH_aa d H T L i b j - 1 / 2 * (sumn (noa d) (fun m => (ip_a L m) * (i_aa_ooov H i j m b))).
(** ccpy/left/left_ipeom2.py, build_LH_2A, line 54 *)
Definition ipl_LH_aa_2 (d : dims) (H : ints) (T : amps) (L : ipv) : mat3 := fun i b j =>
  ipl_LH_aa_1 d H T L i b j + 1 / 2 * (sumn (nua d) (fun e => (ip_aa L i e j) * (i_a_vv H e b))).
(** ccpy/left/left_ipeom2.py, build_LH_2A, line 55 *)
Definition ipl_LH_aa_3 (d : dims) (H : ints) (T : amps) (L : ipv) : mat3 := fun i b j =>
  ipl_LH_aa_2 d H T L i b j - sumn (noa d) (fun m => (ip_aa L i b m) * (i_a_oo H j m)).
(** ccpy/left/left_ipeom2.py, build_LH_2A, line 56 *)
Definition ipl_LH_aa_4 (d : dims) (H : ints) (T : amps) (L : ipv) : mat3 := fun i b j =>
  ipl_LH_aa_3 d H T L i b j + 1 / 4 * (sumn (noa d) (fun m => sumn (noa d) (fun n => (ip_aa L m b n) * (i_aa_oooo H i j m n)))).
(** ccpy/left/left_ipeom2.py, build_LH_2A, line 57 *)
Definition ipl_LH_aa_5 (d : dims) (H : ints) (T : amps) (L : ipv) : mat3 := fun i b j =>
  ipl_LH_aa_4 d H T L i b j + sumn (nua d) (fun e => sumn (noa d) (fun m => (ip_aa L i e m) * (i_aa_voov H e j m b))).
(** ccpy/left/left_ipeom2.py, build_LH_2A, line 58 *)
Definition ipl_LH_aa_6 (d : dims) (H : ints) (T : amps) (L : ipv) : mat3 := fun i b j =>
  ipl_LH_aa_5 d H T L i b j + sumn (nub d) (fun e => sumn (nob d) (fun m => (ip_ab L i e m) * (i_ab_ovvo H j e b m))).
(** ccpy/left/left_ipeom2.py, build_LH_2A, lines 59-62 *)
Definition ipl_I1 (d : dims) (H : ints) (T : amps) (L : ipv) : mat1 := fun e =>
  (-1) / 2 * (sumn (noa d) (fun m => sumn (nua d) (fun f => sumn (noa d) (fun n => (ip_aa L m f n) * (x_aa T e f m n))))) - sumn (noa d) (fun m => sumn (nub d) (fun f => sumn (nob d) (fun n => (ip_ab L m f n) * (x_ab T e f m n)))).
(** ccpy/left/left_ipeom2.py, build_LH_2A, line 63 *)
Definition ipl_LH_aa_7 (d : dims) (H : ints) (T : amps) (L : ipv) : mat3 := fun i b j =>
  ipl_LH_aa_6 d H T L i b j + 1 / 2 * (sumn (nua d) (fun e => (ipl_I1 d H T L e) * (i_aa_oovv H i j e b))).
(** ccpy/left/left_ipeom2.py, build_LH_2A, line 64 *)
Definition ipl_LH_aa_8 (d : dims) (H : ints) (T : amps) (L : ipv) : mat3 := fun i b j =>
  ipl_LH_aa_7 d H T L i b j - ipl_LH_aa_7 d H T L j b i.
(** ccpy/left/left_ipeom2.py, build_LH_2B, line 69 *)
Definition ipl_LH_ab (d : dims) (H : ints) (T : amps) (L : ipv) : mat3 := fun i b j =>
  (ip_a L i) * (i_b_ov H j b).
(** ccpy/left/left_ipeom2.py, build_LH_2B, line 70 *)
Definition ipl_LH_ab_1 (d : dims) (H : ints) (T : amps) (L : ipv) : mat3 := fun i b j =>
  ipl_LH_ab d H T L i b j - sumn (noa d) (fun m => (ip_a L m) * (i_ab_ooov H i j m b)).
(** ccpy/left/left_ipeom2.py, build_LH_2B, line 71 *)
Definition ipl_LH_ab_2 (d : dims) (H : ints) (T : amps) (L : ipv) : mat3 := fun i b j =>
  ipl_LH_ab_1 d H T L i b j - sumn (nob d) (fun m => (ip_ab L i b m) * (i_b_oo H j m)).
(** ccpy/left/left_ipeom2.py, build_LH_2B, line 72 *)
Definition ipl_LH_ab_3 (d : dims) (H : ints) (T : amps) (L : ipv) : mat3 := fun i b j =>
  ipl_LH_ab_2 d H T L i b j - sumn (noa d) (fun m => (ip_ab L m b j) * (i_a_oo H i m)).
(** ccpy/left/left_ipeom2.py, build_LH_2B, line 73 *)
Definition ipl_LH_ab_4 (d : dims) (H : ints) (T : amps) (L : ipv) : mat3 := fun i b j =>
  ipl_LH_ab_3 d H T L i b j + sumn (nub d) (fun e => (ip_ab L i e j) * (i_b_vv H e b)).
(** ccpy/left/left_ipeom2.py, build_LH_2B, line 74 *)
Definition ipl_LH_ab_5 (d : dims) (H : ints) (T : amps) (L : ipv) : mat3 := fun i b j =>
  ipl_LH_ab_4 d H T L i b j + sumn (noa d) (fun m => sumn (nob d) (fun n => (ip_ab L m b n) * (i_ab_oooo H i j m n))).
(** ccpy/left/left_ipeom2.py, build_LH_2B, line 75 *)
Definition ipl_LH_ab_6 (d : dims) (H : ints) (T : amps) (L : ipv) : mat3 := fun i b j =>
  ipl_LH_ab_5 d H T L i b j + sumn (nua d) (fun e => sumn (noa d) (fun m => (ip_aa L i e m) * (i_ab_voov H e j m b))).
(** ccpy/left/left_ipeom2.py, build_LH_2B, line 76 *)
Definition ipl_LH_ab_7 (d : dims) (H : ints) (T : amps) (L : ipv) : mat3 := fun i b j =>
  ipl_LH_ab_6 d H T L i b j + sumn (nub d) (fun e => sumn (nob d) (fun m => (ip_ab L i e m) * (i_bb_voov H e j m b))).
(** ccpy/left/left_ipeom2.py, build_LH_2B, line 77 *)
Definition ipl_LH_ab_8 (d : dims) (H : ints) (T : amps) (L : ipv) : mat3 := fun i b j =>
  ipl_LH_ab_7 d H T L i b j - sumn (noa d) (fun m => sumn (nub d) (fun e => (ip_ab L m e j) * (i_ab_ovov H i e m b))).
(** ccpy/left/left_ipeom2.py, build_LH_2B, lines 78-81 *)
Definition ipl_I1_1 (d : dims) (H : ints) (T : amps) (L : ipv) : mat1 := fun e =>
  (-1) / 2 * (sumn (noa d) (fun m => sumn (nua d) (fun f => sumn (noa d) (fun n => (ip_aa L m f n) * (x_aa T e f m n))))) - sumn (noa d) (fun m => sumn (nub d) (fun f => sumn (nob d) (fun n => (ip_ab L m f n) * (x_ab T e f m n)))).
(** ccpy/left/left_ipeom2.py, build_LH_2B, line 82 *)
Definition ipl_LH_ab_9 (d : dims) (H : ints) (T : amps) (L : ipv) : mat3 := fun i b j =>
  ipl_LH_ab_8 d H T L i b j + sumn (nua d) (fun e => (ipl_I1_1 d H T L e) * (i_ab_oovv H i j e b)).
(** ccpy/left/left_ipeom2.py, LH_fun: the vector returned *)
Definition ip_LH (d : dims) (H : ints) (T : amps) (L : ipv) : ipv := mkIp (ipl_LH_a_2 d H T L) (ipl_LH_aa_8 d H T L) (ipl_LH_ab_9 d H T L).
(** ccpy/left/left_eaeom2.py, build_LH_1A, line 29 *)
Definition eal_LH_a (d : dims) (H : ints) (T : amps) (L : eav) : mat1 := fun a =>
  sumn (nua d) (fun e => (ea_a L e) * (i_a_vv H e a)).
(** ccpy/left/left_eaeom2.py, build_LH_1A, line 30 *)
Definition eal_LH_a_1 (d : dims) (H : ints) (T : amps) (L : eav) : mat1 := fun a =>
  eal_LH_a d H T L a + 1 / 2 * (sumn (nua d) (fun e => sumn (nua d) (fun f => sumn (noa d) (fun n => (ea_aa L e f n) * (i_aa_vvov H f e n a))))).
(** ccpy/left/left_eaeom2.py, build_LH_1A, line 31 *)
Definition eal_LH_a_2 (d : dims) (H : ints) (T : amps) (L : eav) : mat1 := fun a =>
  eal_LH_a_1 d H T L a + sumn (nua d) (fun e => sumn (nub d) (fun f => sumn (nob d) (fun n => (ea_ab L e f n) * (i_ab_vvvo H e f a n)))).
(** ccpy/left/left_eaeom2.py, build_LH_2A, line 36 *)
Definition eal_LH_aa (d : dims) (H : ints) (T : amps) (L : eav) : mat3 := fun a b j =>
  (ea_a L a) * (i_a_ov H j b).
(** ccpy/left/left_eaeom2.py, build_LH_2A, line 37 *)
Definition eal_LH_aa_1 (d : dims) (H : ints) (T : amps) (L : eav) : mat3 := fun a b j =>
  eal_LH_aa d H T L a b j + 1 / 2 * (sumn (nua d) (fun e => (ea_a L e) * (i_aa_vovv H e j a b))).
(** ccpy/left/left_eaeom2.py, build_LH_2A, line 38 *)
Definition eal_LH_aa_2 (d : dims) (H : ints) (T : amps) (L : eav) : mat3 := fun a b j =>
  eal_LH_aa_1 d H T L a b j + sumn (nua d) (fun e => (ea_aa L e b j) * (i_a_vv H e a)).
(** ccpy/left/left_eaeom2.py, build_LH_2A, line 39 *)
Definition eal_LH_aa_3 (d : dims) (H : ints) (T : amps) (L : eav) : mat3 := fun a b j =>
  eal_LH_aa_2 d H T L a b j - 1 / 2 * (sumn (noa d) (fun m => (ea_aa L a b m) * (i_a_oo H j m))).
(** ccpy/left/left_eaeom2.py, build_LH_2A, line 40 *)
Definition eal_LH_aa_4 (d : dims) (H : ints) (T : amps) (L : eav) : mat3 := fun a b j =>
  eal_LH_aa_3 d H T L a b j + sumn (nua d) (fun f => sumn (noa d) (fun n => (ea_aa L a f n) * (i_aa_voov H f j n b))).
(** ccpy/left/left_eaeom2.py, build_LH_2A, line 41 *)
Definition eal_LH_aa_5 (d : dims) (H : ints) (T : amps) (L : eav) : mat3 := fun a b j =>
  eal_LH_aa_4 d H T L a b j + sumn (nub d) (fun f => sumn (nob d) (fun n => (ea_ab L a f n) * (i_ab_ovvo H j f b n))).
(** ccpy/left/left_eaeom2.py, build_LH_2A, line 42 *)
Definition eal_LH_aa_6 (d : dims) (H : ints) (T : amps) (L : eav) : mat3 := fun a b j =>
  eal_LH_aa_5 d H T L a b j + 1 / 4 * (sumn (nua d) (fun e => sumn (nua d) (fun f => (ea_aa L e f j) * (i_aa_vvvv H e f a b)))).
(** ccpy/left/left_eaeom2.py, build_LH_2A, lines 43-46 *)
Definition eal_I1 (d : dims) (H : ints) (T : amps) (L : eav) : mat1 := fun m =>
  1 / 2 * (sumn (nua d) (fun e => sumn (nua d) (fun f => sumn (noa d) (fun n => (ea_aa L e f n) * (x_aa T e f m n))))) + sumn (nua d) (fun e => sumn (nub d) (fun f => sumn (nob d) (fun n => (ea_ab L e f n) * (x_ab T e f m n)))).
(** ccpy/left/left_eaeom2.py, build_LH_2A, line 47 *)
Definition eal_LH_aa_7 (d : dims) (H : ints) (T : amps) (L : eav) : mat3 := fun a b j =>
  eal_LH_aa_6 d H T L a b j - 1 / 2 * (sumn (noa d) (fun m => (i_aa_oovv H m j a b) * (eal_I1 d H T L m))).
(** ccpy/left/left_eaeom2.py, build_LH_2A, line 48 *)
Definition eal_LH_aa_8 (d : dims) (H : ints) (T : amps) (L : eav) : mat3 := fun a b j =>
  eal_LH_aa_7 d H T L a b j - eal_LH_aa_7 d H T L b a j.
(** ccpy/left/left_eaeom2.py, build_LH_2B, line 53 *)
Definition eal_LH_ab (d : dims) (H : ints) (T : amps) (L : eav) : mat3 := fun a b j =>
  (ea_a L a) * (i_b_ov H j b).
(** ccpy/left/left_eaeom2.py, build_LH_2B, line 54 *)
Definition eal_LH_ab_1 (d : dims) (H : ints) (T : amps) (L : eav) : mat3 := fun a b j =>
  eal_LH_ab d H T L a b j + sumn (nua d) (fun e => (ea_a L e) * (i_ab_vovv H e j a b)).
(** ccpy/left/left_eaeom2.py, build_LH_2B, line 55 *)
Definition eal_LH_ab_2 (d : dims) (H : ints) (T : amps) (L : eav) : mat3 := fun a b j =>
  eal_LH_ab_1 d H T L a b j - sumn (nob d) (fun m => (ea_ab L a b m) * (i_b_oo H j m)).
(** ccpy/left/left_eaeom2.py, build_LH_2B, line 56 *)
Definition eal_LH_ab_3 (d : dims) (H : ints) (T : amps) (L : eav) : mat3 := fun a b j =>
  eal_LH_ab_2 d H T L a b j + sumn (nub d) (fun e => (ea_ab L a e j) * (i_b_vv H e b)).
(** ccpy/left/left_eaeom2.py, build_LH_2B, line 57 *)
Definition eal_LH_ab_4 (d : dims) (H : ints) (T : amps) (L : eav) : mat3 := fun a b j =>
  eal_LH_ab_3 d H T L a b j + sumn (nua d) (fun e => (ea_ab L e b j) * (i_a_vv H e a)).
(** ccpy/left/left_eaeom2.py, build_LH_2B, line 58 *)
Definition eal_LH_ab_5 (d : dims) (H : ints) (T : amps) (L : eav) : mat3 := fun a b j =>
  eal_LH_ab_4 d H T L a b j + sumn (nua d) (fun f => sumn (noa d) (fun n => (ea_aa L a f n) * (i_ab_voov H f j n b))).
(** ccpy/left/left_eaeom2.py, build_LH_2B, line 59 *)
Definition eal_LH_ab_6 (d : dims) (H : ints) (T : amps) (L : eav) : mat3 := fun a b j =>
  eal_LH_ab_5 d H T L a b j + sumn (nub d) (fun f => sumn (nob d) (fun n => (ea_ab L a f n) * (i_bb_voov H f j n b))).
(** ccpy/left/left_eaeom2.py, build_LH_2B, line 60 *)
Definition eal_LH_ab_7 (d : dims) (H : ints) (T : amps) (L : eav) : mat3 := fun a b j =>
  eal_LH_ab_6 d H T L a b j - sumn (nua d) (fun e => sumn (nob d) (fun m => (ea_ab L e b m) * (i_ab_vovo H e j a m))).
(** ccpy/left/left_eaeom2.py, build_LH_2B, line 61 *)
Definition eal_LH_ab_8 (d : dims) (H : ints) (T : amps) (L : eav) : mat3 := fun a b j =>
  eal_LH_ab_7 d H T L a b j + sumn (nua d) (fun e => sumn (nub d) (fun f => (ea_ab L e f j) * (i_ab_vvvv H e f a b))).
(** ccpy/left/left_eaeom2.py, build_LH_2B, lines 62-65 *)
Definition eal_I1_1 (d : dims) (H : ints) (T : amps) (L : eav) : mat1 := fun m =>
  1 / 2 * (sumn (nua d) (fun e => sumn (nua d) (fun f => sumn (noa d) (fun n => (ea_aa L e f n) * (x_aa T e f m n))))) + sumn (nua d) (fun e => sumn (nub d) (fun f => sumn (nob d) (fun n => (ea_ab L e f n) * (x_ab T e f m n)))).
(** ccpy/left/left_eaeom2.py, build_LH_2B, line 66 *)
Definition eal_LH_ab_9 (d : dims) (H : ints) (T : amps) (L : eav) : mat3 := fun a b j =>
  eal_LH_ab_8 d H T L a b j - sumn (noa d) (fun m => (i_ab_oovv H m j a b) * (eal_I1_1 d H T L m)).
(** ccpy/left/left_eaeom2.py, LH_fun: the vector returned *)
Definition ea_LH (d : dims) (H : ints) (T : amps) (L : eav) : eav := mkEa (eal_LH_a_2 d H T L) (eal_LH_aa_8 d H T L) (eal_LH_ab_9 d H T L).
