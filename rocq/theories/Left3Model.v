(** Generated by tools/gen_left3.py from the source text (symbolic execution of the numpy statements; exact reals).
    Models the left vectors of IP-EOMCCSD(3h-2p) and EA-EOMCCSD(3p-2h):
    ccpy/left/left_ipeom_intermediates.py, ccpy/left/left_ipeom3.py (LH_fun, lines 23-37),
    ccpy/left/left_eaeom_intermediates.py, ccpy/left/left_eaeom3.py (LH_fun, lines 23-36).
    The records are those of Sector3Model.v. *)
From Coq Require Import Reals Arith.
From Verif Require Import RSum IntegralsModel TensorObjs Sector3Model.
Open Scope R_scope.
(** ccpy/left/left_ipeom_intermediates.py, get_leftipeom3_intermediates, lines 10-13 *)
Definition iptl_X_a_v (d : dims) (H : ints) (T : amps) (L : iptv) : mat1 := fun e =>
  (-1) / 2 * (sumn (noa d) (fun m => sumn (nua d) (fun f => sumn (noa d) (fun n => (ipt_aa L m f n) * (x_aa T e f m n))))) - sumn (noa d) (fun m => sumn (nub d) (fun f => sumn (nob d) (fun n => (ipt_ab L m f n) * (x_ab T e f m n)))).
(** ccpy/left/left_ipeom_intermediates.py, get_leftipeom3_intermediates, lines 16-19 *)
Definition iptl_X_aa_vvo (d : dims) (H : ints) (T : amps) (L : iptv) : mat3 := fun a b j =>
  (-1) / 2 * (sumn (noa d) (fun m => sumn (nua d) (fun f => sumn (noa d) (fun n => (ipt_aaa L m b f j n) * (x_aa T a f m n))))) - sumn (noa d) (fun m => sumn (nub d) (fun f => sumn (nob d) (fun n => (ipt_aab L m b f j n) * (x_ab T a f m n)))).
(** ccpy/left/left_ipeom_intermediates.py, get_leftipeom3_intermediates, lines 22-25 *)
Definition iptl_X_aa_ooo (d : dims) (H : ints) (T : amps) (L : iptv) : mat3 := fun i j k =>
  1 / 2 * (sumn (nua d) (fun e => sumn (nua d) (fun f => sumn (noa d) (fun n => (ipt_aaa L i e f j n) * (x_aa T e f k n))))) + sumn (nua d) (fun e => sumn (nub d) (fun f => sumn (nob d) (fun n => (ipt_aab L i e f j n) * (x_ab T e f k n)))).
(** ccpy/left/left_ipeom_intermediates.py, get_leftipeom3_intermediates, lines 28-31 *)
Definition iptl_X_ab_ooo (d : dims) (H : ints) (T : amps) (L : iptv) : mat3 := fun i j k =>
  sumn (nua d) (fun f => sumn (nub d) (fun e => sumn (noa d) (fun n => (ipt_aab L i f e n j) * (x_ab T f e n k)))) + 1 / 2 * (sumn (nub d) (fun e => sumn (nub d) (fun f => sumn (nob d) (fun n => (ipt_abb L i e f j n) * (x_bb T e f k n))))).
(** ccpy/left/left_ipeom_intermediates.py, get_leftipeom3_intermediates, lines 34-38 *)
Definition iptl_X_ab_vvo (d : dims) (H : ints) (T : amps) (L : iptv) : mat3 := fun a b j =>
  (-1) / 2 * (sumn (noa d) (fun m => sumn (nua d) (fun f => sumn (noa d) (fun n => (ipt_aab L m f b n j) * (x_aa T a f m n))))) - sumn (noa d) (fun m => sumn (nub d) (fun f => sumn (nob d) (fun n => (ipt_abb L m f b n j) * (x_ab T a f m n)))).
(** ccpy/left/left_ipeom_intermediates.py, get_leftipeom3_intermediates, lines 41-44 *)
Definition iptl_X_ab_ovv (d : dims) (H : ints) (T : amps) (L : iptv) : mat3 := fun i c b =>
  (- (sumn (nua d) (fun f => sumn (noa d) (fun n => sumn (nob d) (fun m => (ipt_aab L i f b n m) * (x_ab T f c n m)))))) - 1 / 2 * (sumn (nub d) (fun f => sumn (nob d) (fun n => sumn (nob d) (fun m => (ipt_abb L i f b n m) * (x_bb T f c n m))))).
(** ccpy/left/left_ipeom3.py, build_LH_1A, line 40 *)
Definition iptl_LH_a (d : dims) (H : ints) (T : amps) (L : iptv) : mat1 := fun i =>
  (-1) / 1 * (sumn (noa d) (fun m => (ipt_a L m) * (i_a_oo H i m))).
(** ccpy/left/left_ipeom3.py, build_LH_1A, line 41 *)
Definition iptl_LH_a_1 (d : dims) (H : ints) (T : amps) (L : iptv) : mat1 := fun i =>
  iptl_LH_a d H T L i - 1 / 2 * (sumn (noa d) (fun m => sumn (nua d) (fun f => sumn (noa d) (fun n => (ipt_aa L m f n) * (i_aa_vooo H f i n m))))).
(** ccpy/left/left_ipeom3.py, build_LH_1A, line 42 *)
Definition iptl_LH_a_2 (d : dims) (H : ints) (T : amps) (L : iptv) : mat1 := fun i =>
  iptl_LH_a_1 d H T L i - sumn (noa d) (fun m => sumn (nub d) (fun f => sumn (nob d) (fun n => (ipt_ab L m f n) * (i_ab_ovoo H i f m n)))).
(** ccpy/left/left_ipeom3.py, build_LH_1A, line 44 *)
Definition iptl_LH_a_3 (d : dims) (H : ints) (T : amps) (L : iptv) : mat1 := fun i =>
  iptl_LH_a_2 d H T L i + sumn (nub d) (fun b => sumn (nua d) (fun a => sumn (nob d) (fun j => (i_ab_ovvo H i b a j) * (iptl_X_ab_vvo d H T L a b j)))).
(** ccpy/left/left_ipeom3.py, build_LH_1A, line 45 *)
Definition iptl_LH_a_4 (d : dims) (H : ints) (T : amps) (L : iptv) : mat1 := fun i =>
  iptl_LH_a_3 d H T L i + sumn (nua d) (fun b => sumn (noa d) (fun j => sumn (nua d) (fun a => (i_aa_voov H b i j a) * (iptl_X_aa_vvo d H T L a b j)))).
(** ccpy/left/left_ipeom3.py, build_LH_1A, line 46 *)
Definition iptl_LH_a_5 (d : dims) (H : ints) (T : amps) (L : iptv) : mat1 := fun i =>
  iptl_LH_a_4 d H T L i + 1 / 2 * (sumn (noa d) (fun l => sumn (noa d) (fun j => sumn (noa d) (fun k => (iptl_X_aa_ooo d H T L l j k) * (i_aa_oooo H i k l j))))).
(** ccpy/left/left_ipeom3.py, build_LH_1A, line 47 *)
Definition iptl_LH_a_6 (d : dims) (H : ints) (T : amps) (L : iptv) : mat1 := fun i =>
  iptl_LH_a_5 d H T L i + sumn (noa d) (fun j => sumn (nub d) (fun c => sumn (nub d) (fun b => (iptl_X_ab_ovv d H T L j c b) * (i_ab_ovov H i b j c)))).
(** ccpy/left/left_ipeom3.py, build_LH_1A, line 48 *)
Definition iptl_LH_a_7 (d : dims) (H : ints) (T : amps) (L : iptv) : mat1 := fun i =>
  iptl_LH_a_6 d H T L i + sumn (noa d) (fun l => sumn (nob d) (fun j => sumn (nob d) (fun k => (iptl_X_ab_ooo d H T L l j k) * (i_ab_oooo H i k l j)))).
(** ccpy/left/left_ipeom3.py, build_LH_2A, line 53 *)
Definition iptl_LH_aa (d : dims) (H : ints) (T : amps) (L : iptv) : mat3 := fun i b j =>
  (ipt_a L i) * (i_a_ov H j b).
(** ccpy/left/left_ipeom3.py, build_LH_2A, line 54 *)
Definition iptl_LH_aa_1 (d : dims) (H : ints) (T : amps) (L : iptv) : mat3 := fun i b j =>
  iptl_LH_aa d H T L i b j - 1 / 2 * (sumn (noa d) (fun m => (ipt_a L m) * (i_aa_ooov H i j m b))).
(** ccpy/left/left_ipeom3.py, build_LH_2A, line 55 *)
Definition iptl_LH_aa_2 (d : dims) (H : ints) (T : amps) (L : iptv) : mat3 := fun i b j =>
  iptl_LH_aa_1 d H T L i b j + 1 / 2 * (sumn (nua d) (fun e => (ipt_aa L i e j) * (i_a_vv H e b))).
(** ccpy/left/left_ipeom3.py, build_LH_2A, line 56 *)
Definition iptl_LH_aa_3 (d : dims) (H : ints) (T : amps) (L : iptv) : mat3 := fun i b j =>
  iptl_LH_aa_2 d H T L i b j - sumn (noa d) (fun m => (ipt_aa L i b m) * (i_a_oo H j m)).
(** ccpy/left/left_ipeom3.py, build_LH_2A, line 57 *)
Definition iptl_LH_aa_4 (d : dims) (H : ints) (T : amps) (L : iptv) : mat3 := fun i b j =>
  iptl_LH_aa_3 d H T L i b j + 1 / 4 * (sumn (noa d) (fun m => sumn (noa d) (fun n => (ipt_aa L m b n) * (i_aa_oooo H i j m n)))).
(** ccpy/left/left_ipeom3.py, build_LH_2A, line 58 *)
Definition iptl_LH_aa_5 (d : dims) (H : ints) (T : amps) (L : iptv) : mat3 := fun i b j =>
  iptl_LH_aa_4 d H T L i b j + sumn (nua d) (fun e => sumn (noa d) (fun m => (ipt_aa L i e m) * (i_aa_voov H e j m b))).
(** ccpy/left/left_ipeom3.py, build_LH_2A, line 59 *)
Definition iptl_LH_aa_6 (d : dims) (H : ints) (T : amps) (L : iptv) : mat3 := fun i b j =>
  iptl_LH_aa_5 d H T L i b j + sumn (nub d) (fun e => sumn (nob d) (fun m => (ipt_ab L i e m) * (i_ab_ovvo H j e b m))).
(** ccpy/left/left_ipeom3.py, build_LH_2A, line 60 *)
Definition iptl_LH_aa_7 (d : dims) (H : ints) (T : amps) (L : iptv) : mat3 := fun i b j =>
  iptl_LH_aa_6 d H T L i b j + 1 / 2 * (sumn (nua d) (fun e => (iptl_X_a_v d H T L e) * (i_aa_oovv H i j e b))).
(** ccpy/left/left_ipeom3.py, build_LH_2A, line 62 *)
Definition iptl_LH_aa_8 (d : dims) (H : ints) (T : amps) (L : iptv) : mat3 := fun i b j =>
  iptl_LH_aa_7 d H T L i b j - 1 / 2 * (sumn (nua d) (fun f => sumn (noa d) (fun n => sumn (noa d) (fun m => (i_aa_vooo H f i n m) * (ipt_aaa L m b f j n))))).
(** ccpy/left/left_ipeom3.py, build_LH_2A, line 63 *)
Definition iptl_LH_aa_9 (d : dims) (H : ints) (T : amps) (L : iptv) : mat3 := fun i b j =>
  iptl_LH_aa_8 d H T L i b j - sumn (nub d) (fun f => sumn (noa d) (fun m => sumn (nob d) (fun n => (i_ab_ovoo H i f m n) * (ipt_aab L m b f j n)))).
(** ccpy/left/left_ipeom3.py, build_LH_2A, line 64 *)
Definition iptl_LH_aa_10 (d : dims) (H : ints) (T : amps) (L : iptv) : mat3 := fun i b j =>
  iptl_LH_aa_9 d H T L i b j + 1 / 4 * (sumn (nua d) (fun f => sumn (nua d) (fun e => sumn (noa d) (fun n => (i_aa_vvov H f e n b) * (ipt_aaa L i e f j n))))).
(** ccpy/left/left_ipeom3.py, build_LH_2A, line 65 *)
Definition iptl_LH_aa_11 (d : dims) (H : ints) (T : amps) (L : iptv) : mat3 := fun i b j =>
  iptl_LH_aa_10 d H T L i b j + 1 / 2 * (sumn (nua d) (fun e => sumn (nub d) (fun f => sumn (nob d) (fun n => (i_ab_vvvo H e f b n) * (ipt_aab L i e f j n))))).
(** ccpy/left/left_ipeom3.py, build_LH_2A, line 67 *)
Definition iptl_LH_aa_12 (d : dims) (H : ints) (T : amps) (L : iptv) : mat3 := fun i b j =>
  iptl_LH_aa_11 d H T L i b j + sumn (nua d) (fun f => sumn (nua d) (fun e => (iptl_X_aa_vvo d H T L f e j) * (i_aa_vovv H e i b f))).
(** ccpy/left/left_ipeom3.py, build_LH_2A, line 68 *)
Definition iptl_LH_aa_13 (d : dims) (H : ints) (T : amps) (L : iptv) : mat3 := fun i b j =>
  iptl_LH_aa_12 d H T L i b j - 1 / 2 * (sumn (nua d) (fun f => sumn (noa d) (fun m => (iptl_X_aa_vvo d H T L f b m) * (i_aa_ooov H j i m f)))).
(** ccpy/left/left_ipeom3.py, build_LH_2A, line 69 *)
Definition iptl_LH_aa_14 (d : dims) (H : ints) (T : amps) (L : iptv) : mat3 := fun i b j =>
  iptl_LH_aa_13 d H T L i b j - sumn (noa d) (fun m => sumn (noa d) (fun n => (iptl_X_aa_ooo d H T L i m n) * (i_aa_ooov H n j m b))).
(** ccpy/left/left_ipeom3.py, build_LH_2A, line 70 *)
Definition iptl_LH_aa_15 (d : dims) (H : ints) (T : amps) (L : iptv) : mat3 := fun i b j =>
  iptl_LH_aa_14 d H T L i b j - sumn (nob d) (fun m => sumn (nob d) (fun n => (iptl_X_ab_ooo d H T L i m n) * (i_ab_oovo H j n b m))).
(** ccpy/left/left_ipeom3.py, build_LH_2A, line 71 *)
Definition iptl_LH_aa_16 (d : dims) (H : ints) (T : amps) (L : iptv) : mat3 := fun i b j =>
  iptl_LH_aa_15 d H T L i b j - sumn (nub d) (fun f => sumn (nub d) (fun e => (iptl_X_ab_ovv d H T L i f e) * (i_ab_ovvv H j e b f))).
(** ccpy/left/left_ipeom3.py, build_LH_2A, line 72 *)
Definition iptl_LH_aa_17 (d : dims) (H : ints) (T : amps) (L : iptv) : mat3 := fun i b j =>
  iptl_LH_aa_16 d H T L i b j - iptl_LH_aa_16 d H T L j b i.
(** ccpy/left/left_ipeom3.py, build_LH_2B, line 77 *)
Definition iptl_LH_ab (d : dims) (H : ints) (T : amps) (L : iptv) : mat3 := fun i b j =>
  (ipt_a L i) * (i_b_ov H j b).
(** ccpy/left/left_ipeom3.py, build_LH_2B, line 78 *)
Definition iptl_LH_ab_1 (d : dims) (H : ints) (T : amps) (L : iptv) : mat3 := fun i b j =>
  iptl_LH_ab d H T L i b j - sumn (noa d) (fun m => (ipt_a L m) * (i_ab_ooov H i j m b)).
(** ccpy/left/left_ipeom3.py, build_LH_2B, line 79 *)
Definition iptl_LH_ab_2 (d : dims) (H : ints) (T : amps) (L : iptv) : mat3 := fun i b j =>
  iptl_LH_ab_1 d H T L i b j - sumn (nob d) (fun m => (ipt_ab L i b m) * (i_b_oo H j m)).
(** ccpy/left/left_ipeom3.py, build_LH_2B, line 80 *)
Definition iptl_LH_ab_3 (d : dims) (H : ints) (T : amps) (L : iptv) : mat3 := fun i b j =>
  iptl_LH_ab_2 d H T L i b j - sumn (noa d) (fun m => (ipt_ab L m b j) * (i_a_oo H i m)).
(** ccpy/left/left_ipeom3.py, build_LH_2B, line 81 *)
Definition iptl_LH_ab_4 (d : dims) (H : ints) (T : amps) (L : iptv) : mat3 := fun i b j =>
  iptl_LH_ab_3 d H T L i b j + sumn (nub d) (fun e => (ipt_ab L i e j) * (i_b_vv H e b)).
(** ccpy/left/left_ipeom3.py, build_LH_2B, line 82 *)
Definition iptl_LH_ab_5 (d : dims) (H : ints) (T : amps) (L : iptv) : mat3 := fun i b j =>
  iptl_LH_ab_4 d H T L i b j + sumn (noa d) (fun m => sumn (nob d) (fun n => (ipt_ab L m b n) * (i_ab_oooo H i j m n))).
(** ccpy/left/left_ipeom3.py, build_LH_2B, line 83 *)
Definition iptl_LH_ab_6 (d : dims) (H : ints) (T : amps) (L : iptv) : mat3 := fun i b j =>
  iptl_LH_ab_5 d H T L i b j + sumn (nua d) (fun e => sumn (noa d) (fun m => (ipt_aa L i e m) * (i_ab_voov H e j m b))).
(** ccpy/left/left_ipeom3.py, build_LH_2B, line 84 *)
Definition iptl_LH_ab_7 (d : dims) (H : ints) (T : amps) (L : iptv) : mat3 := fun i b j =>
  iptl_LH_ab_6 d H T L i b j + sumn (nub d) (fun e => sumn (nob d) (fun m => (ipt_ab L i e m) * (i_bb_voov H e j m b))).
(** ccpy/left/left_ipeom3.py, build_LH_2B, line 85 *)
Definition iptl_LH_ab_8 (d : dims) (H : ints) (T : amps) (L : iptv) : mat3 := fun i b j =>
  iptl_LH_ab_7 d H T L i b j - sumn (noa d) (fun m => sumn (nub d) (fun e => (ipt_ab L m e j) * (i_ab_ovov H i e m b))).
(** ccpy/left/left_ipeom3.py, build_LH_2B, line 86 *)
Definition iptl_LH_ab_9 (d : dims) (H : ints) (T : amps) (L : iptv) : mat3 := fun i b j =>
  iptl_LH_ab_8 d H T L i b j + sumn (nua d) (fun e => (iptl_X_a_v d H T L e) * (i_ab_oovv H i j e b)).
(** ccpy/left/left_ipeom3.py, build_LH_2B, line 88 *)
Definition iptl_LH_ab_10 (d : dims) (H : ints) (T : amps) (L : iptv) : mat3 := fun i b j =>
  iptl_LH_ab_9 d H T L i b j - 1 / 2 * (sumn (noa d) (fun m => sumn (nua d) (fun f => sumn (noa d) (fun n => (ipt_aab L m f b n j) * (i_aa_vooo H f i n m))))).
(** ccpy/left/left_ipeom3.py, build_LH_2B, line 89 *)
Definition iptl_LH_ab_11 (d : dims) (H : ints) (T : amps) (L : iptv) : mat3 := fun i b j =>
  iptl_LH_ab_10 d H T L i b j - sumn (noa d) (fun m => sumn (nub d) (fun f => sumn (nob d) (fun n => (ipt_abb L m f b n j) * (i_ab_ovoo H i f m n)))).
(** ccpy/left/left_ipeom3.py, build_LH_2B, line 90 *)
Definition iptl_LH_ab_12 (d : dims) (H : ints) (T : amps) (L : iptv) : mat3 := fun i b j =>
  iptl_LH_ab_11 d H T L i b j + sumn (nua d) (fun f => sumn (nub d) (fun e => sumn (noa d) (fun n => (ipt_aab L i f e n j) * (i_ab_vvov H f e n b)))).
(** ccpy/left/left_ipeom3.py, build_LH_2B, line 91 *)
Definition iptl_LH_ab_13 (d : dims) (H : ints) (T : amps) (L : iptv) : mat3 := fun i b j =>
  iptl_LH_ab_12 d H T L i b j + 1 / 2 * (sumn (nub d) (fun f => sumn (nub d) (fun e => sumn (nob d) (fun n => (ipt_abb L i f e n j) * (i_bb_vvov H f e n b))))).
(** ccpy/left/left_ipeom3.py, build_LH_2B, line 92 *)
Definition iptl_LH_ab_14 (d : dims) (H : ints) (T : amps) (L : iptv) : mat3 := fun i b j =>
  iptl_LH_ab_13 d H T L i b j - sumn (nua d) (fun f => sumn (noa d) (fun n => sumn (nob d) (fun m => (ipt_aab L i f b n m) * (i_ab_vooo H f j n m)))).
(** ccpy/left/left_ipeom3.py, build_LH_2B, line 93 *)
Definition iptl_LH_ab_15 (d : dims) (H : ints) (T : amps) (L : iptv) : mat3 := fun i b j =>
  iptl_LH_ab_14 d H T L i b j - 1 / 2 * (sumn (nub d) (fun f => sumn (nob d) (fun n => sumn (nob d) (fun m => (ipt_abb L i f b n m) * (i_bb_vooo H f j n m))))).
(** ccpy/left/left_ipeom3.py, build_LH_2B, line 95 *)
Definition iptl_LH_ab_16 (d : dims) (H : ints) (T : amps) (L : iptv) : mat3 := fun i b j =>
  iptl_LH_ab_15 d H T L i b j + sumn (nua d) (fun f => sumn (nua d) (fun e => (iptl_X_aa_vvo d H T L f e i) * (i_ab_vovv H e j f b))).
(** ccpy/left/left_ipeom3.py, build_LH_2B, line 96 *)
Definition iptl_LH_ab_17 (d : dims) (H : ints) (T : amps) (L : iptv) : mat3 := fun i b j =>
  iptl_LH_ab_16 d H T L i b j - sumn (nub d) (fun f => sumn (nub d) (fun e => (iptl_X_ab_ovv d H T L i f e) * (i_bb_vovv H e j f b))).
(** ccpy/left/left_ipeom3.py, build_LH_2B, line 97 *)
Definition iptl_LH_ab_18 (d : dims) (H : ints) (T : amps) (L : iptv) : mat3 := fun i b j =>
  iptl_LH_ab_17 d H T L i b j - sumn (nua d) (fun e => sumn (nob d) (fun m => (iptl_X_ab_vvo d H T L e b m) * (i_ab_oovo H i j e m))).
(** ccpy/left/left_ipeom3.py, build_LH_2B, line 98 *)
Definition iptl_LH_ab_19 (d : dims) (H : ints) (T : amps) (L : iptv) : mat3 := fun i b j =>
  iptl_LH_ab_18 d H T L i b j + sumn (nua d) (fun f => sumn (nub d) (fun e => (iptl_X_ab_vvo d H T L f e j) * (i_ab_ovvv H i e f b))).
(** ccpy/left/left_ipeom3.py, build_LH_2B, line 99 *)
Definition iptl_LH_ab_20 (d : dims) (H : ints) (T : amps) (L : iptv) : mat3 := fun i b j =>
  iptl_LH_ab_19 d H T L i b j - sumn (noa d) (fun m => sumn (noa d) (fun n => (iptl_X_aa_ooo d H T L i m n) * (i_ab_ooov H n j m b))).
(** ccpy/left/left_ipeom3.py, build_LH_2B, line 100 *)
Definition iptl_LH_ab_21 (d : dims) (H : ints) (T : amps) (L : iptv) : mat3 := fun i b j =>
  iptl_LH_ab_20 d H T L i b j - sumn (nob d) (fun m => sumn (nob d) (fun n => (iptl_X_ab_ooo d H T L i m n) * (i_bb_ooov H n j m b))).
(** ccpy/left/left_ipeom3.py, build_LH_2B, line 101 *)
Definition iptl_LH_ab_22 (d : dims) (H : ints) (T : amps) (L : iptv) : mat3 := fun i b j =>
  iptl_LH_ab_21 d H T L i b j + sumn (noa d) (fun n => sumn (nob d) (fun m => (iptl_X_ab_ooo d H T L n j m) * (i_ab_ooov H i m n b))).
(** ccpy/left/left_ipeom3.py, build_LH_2B, line 102 *)
Definition iptl_LH_ab_23 (d : dims) (H : ints) (T : amps) (L : iptv) : mat3 := fun i b j =>
  iptl_LH_ab_22 d H T L i b j - sumn (noa d) (fun m => sumn (nub d) (fun e => (iptl_X_ab_ovv d H T L m e b) * (i_ab_ooov H i j m e))).
(** ccpy/left/left_ipeom3.py, build_LH_3A, line 108 *)
Definition iptl_LH_aaa (d : dims) (H : ints) (T : amps) (L : iptv) : mat5 := fun i b c j k =>
  1 / 4 * ((ipt_a L i) * (i_aa_oovv H j k b c)).
(** ccpy/left/left_ipeom3.py, build_LH_3A, line 109 *)
Definition iptl_LH_aaa_1 (d : dims) (H : ints) (T : amps) (L : iptv) : mat5 := fun i b c j k =>
  iptl_LH_aaa d H T L i b c j k + 1 / 2 * ((ipt_aa L i b j) * (i_a_ov H k c)).
(** ccpy/left/left_ipeom3.py, build_LH_3A, line 110 *)
Definition iptl_LH_aaa_2 (d : dims) (H : ints) (T : amps) (L : iptv) : mat5 := fun i b c j k =>
  iptl_LH_aaa_1 d H T L i b c j k + 1 / 4 * (sumn (nua d) (fun e => (ipt_aa L i e j) * (i_aa_vovv H e k b c))).
(** ccpy/left/left_ipeom3.py, build_LH_3A, line 111 *)
Definition iptl_LH_aaa_3 (d : dims) (H : ints) (T : amps) (L : iptv) : mat5 := fun i b c j k =>
  iptl_LH_aaa_2 d H T L i b c j k - 1 / 2 * (sumn (noa d) (fun m => (ipt_aa L m c k) * (i_aa_ooov H i j m b))).
(** ccpy/left/left_ipeom3.py, build_LH_3A, line 113 *)
Definition iptl_LH_aaa_4 (d : dims) (H : ints) (T : amps) (L : iptv) : mat5 := fun i b c j k =>
  iptl_LH_aaa_3 d H T L i b c j k - 1 / 4 * (sumn (noa d) (fun m => (i_a_oo H i m) * (ipt_aaa L m b c j k))).
(** ccpy/left/left_ipeom3.py, build_LH_3A, line 114 *)
Definition iptl_LH_aaa_5 (d : dims) (H : ints) (T : amps) (L : iptv) : mat5 := fun i b c j k =>
  iptl_LH_aaa_4 d H T L i b c j k + 1 / 6 * (sumn (nua d) (fun e => (i_a_vv H e b) * (ipt_aaa L i e c j k))).
(** ccpy/left/left_ipeom3.py, build_LH_3A, line 115 *)
Definition iptl_LH_aaa_6 (d : dims) (H : ints) (T : amps) (L : iptv) : mat5 := fun i b c j k =>
  iptl_LH_aaa_5 d H T L i b c j k + 1 / 8 * (sumn (noa d) (fun m => sumn (noa d) (fun n => (i_aa_oooo H j k m n) * (ipt_aaa L i b c m n)))).
(** ccpy/left/left_ipeom3.py, build_LH_3A, line 116 *)
Definition iptl_LH_aaa_7 (d : dims) (H : ints) (T : amps) (L : iptv) : mat5 := fun i b c j k =>
  iptl_LH_aaa_6 d H T L i b c j k + 1 / 24 * (sumn (nua d) (fun e => sumn (nua d) (fun f => (i_aa_vvvv H e f b c) * (ipt_aaa L i e f j k)))).
(** ccpy/left/left_ipeom3.py, build_LH_3A, line 117 *)
Definition iptl_LH_aaa_8 (d : dims) (H : ints) (T : amps) (L : iptv) : mat5 := fun i b c j k =>
  iptl_LH_aaa_7 d H T L i b c j k + 1 / 2 * (sumn (nua d) (fun e => sumn (noa d) (fun m => (i_aa_voov H e k m c) * (ipt_aaa L i b e j m)))).
(** ccpy/left/left_ipeom3.py, build_LH_3A, line 118 *)
Definition iptl_LH_aaa_9 (d : dims) (H : ints) (T : amps) (L : iptv) : mat5 := fun i b c j k =>
  iptl_LH_aaa_8 d H T L i b c j k + 1 / 2 * (sumn (nub d) (fun e => sumn (nob d) (fun m => (i_ab_ovvo H k e c m) * (ipt_aab L i b e j m)))).
(** ccpy/left/left_ipeom3.py, build_LH_3A, line 120 *)
Definition iptl_LH_aaa_10 (d : dims) (H : ints) (T : amps) (L : iptv) : mat5 := fun i b c j k =>
  iptl_LH_aaa_9 d H T L i b c j k + 1 / 2 * (sumn (nua d) (fun e => (iptl_X_aa_vvo d H T L e c k) * (i_aa_oovv H i j e b))).
(** ccpy/left/left_ipeom3.py, build_LH_3A, line 121 *)
Definition iptl_LH_aaa_11 (d : dims) (H : ints) (T : amps) (L : iptv) : mat5 := fun i b c j k =>
  iptl_LH_aaa_10 d H T L i b c j k - 1 / 4 * (sumn (noa d) (fun m => (iptl_X_aa_ooo d H T L i k m) * (i_aa_oovv H m j c b))).
(** ccpy/left/left_ipeom3.py, build_LH_3A, line 123 *)
Definition iptl_LH_aaa_12 (d : dims) (H : ints) (T : amps) (L : iptv) : mat5 := fun i b c j k =>
  iptl_LH_aaa_11 d H T L i b c j k - (iptl_LH_aaa_11 d H T L j b c i k + iptl_LH_aaa_11 d H T L k b c j i).
(** ccpy/left/left_ipeom3.py, build_LH_3A, line 124 *)
Definition iptl_LH_aaa_13 (d : dims) (H : ints) (T : amps) (L : iptv) : mat5 := fun i b c j k =>
  iptl_LH_aaa_12 d H T L i b c j k - iptl_LH_aaa_12 d H T L i b c k j.
(** ccpy/left/left_ipeom3.py, build_LH_3A, line 125 *)
Definition iptl_LH_aaa_14 (d : dims) (H : ints) (T : amps) (L : iptv) : mat5 := fun i b c j k =>
  iptl_LH_aaa_13 d H T L i b c j k - iptl_LH_aaa_13 d H T L i c b j k.
(** ccpy/left/left_ipeom3.py, build_LH_3B, line 131 *)
Definition iptl_LH_aab (d : dims) (H : ints) (T : amps) (L : iptv) : mat5 := fun i b c j k =>
  (ipt_a L i) * (i_ab_oovv H j k b c).
(** ccpy/left/left_ipeom3.py, build_LH_3B, line 132 *)
Definition iptl_LH_aab_1 (d : dims) (H : ints) (T : amps) (L : iptv) : mat5 := fun i b c j k =>
  iptl_LH_aab d H T L i b c j k + 1 / 2 * ((ipt_aa L i b j) * (i_b_ov H k c)).
(** ccpy/left/left_ipeom3.py, build_LH_3B, line 133 *)
Definition iptl_LH_aab_2 (d : dims) (H : ints) (T : amps) (L : iptv) : mat5 := fun i b c j k =>
  iptl_LH_aab_1 d H T L i b c j k + (ipt_ab L i c k) * (i_a_ov H j b).
(** ccpy/left/left_ipeom3.py, build_LH_3B, line 134 *)
Definition iptl_LH_aab_3 (d : dims) (H : ints) (T : amps) (L : iptv) : mat5 := fun i b c j k =>
  iptl_LH_aab_2 d H T L i b c j k + 1 / 2 * (sumn (nua d) (fun e => (ipt_aa L i e j) * (i_ab_vovv H e k b c))).
(** ccpy/left/left_ipeom3.py, build_LH_3B, line 135 *)
Definition iptl_LH_aab_4 (d : dims) (H : ints) (T : amps) (L : iptv) : mat5 := fun i b c j k =>
  iptl_LH_aab_3 d H T L i b c j k + sumn (nub d) (fun e => (ipt_ab L i e k) * (i_ab_ovvv H j e b c)).
(** ccpy/left/left_ipeom3.py, build_LH_3B, line 136 *)
Definition iptl_LH_aab_5 (d : dims) (H : ints) (T : amps) (L : iptv) : mat5 := fun i b c j k =>
  iptl_LH_aab_4 d H T L i b c j k - sumn (noa d) (fun m => (ipt_aa L m b j) * (i_ab_ooov H i k m c)).
(** ccpy/left/left_ipeom3.py, build_LH_3B, line 137 *)
Definition iptl_LH_aab_6 (d : dims) (H : ints) (T : amps) (L : iptv) : mat5 := fun i b c j k =>
  iptl_LH_aab_5 d H T L i b c j k - 1 / 2 * (sumn (noa d) (fun m => (ipt_ab L m c k) * (i_aa_ooov H i j m b))).
(** ccpy/left/left_ipeom3.py, build_LH_3B, line 138 *)
Definition iptl_LH_aab_7 (d : dims) (H : ints) (T : amps) (L : iptv) : mat5 := fun i b c j k =>
  iptl_LH_aab_6 d H T L i b c j k - sumn (nob d) (fun m => (ipt_ab L i c m) * (i_ab_oovo H j k b m)).
(** ccpy/left/left_ipeom3.py, build_LH_3B, line 140 *)
Definition iptl_LH_aab_8 (d : dims) (H : ints) (T : amps) (L : iptv) : mat5 := fun i b c j k =>
  iptl_LH_aab_7 d H T L i b c j k - sumn (noa d) (fun m => (i_a_oo H i m) * (ipt_aab L m b c j k)).
(** ccpy/left/left_ipeom3.py, build_LH_3B, line 141 *)
Definition iptl_LH_aab_9 (d : dims) (H : ints) (T : amps) (L : iptv) : mat5 := fun i b c j k =>
  iptl_LH_aab_8 d H T L i b c j k - 1 / 2 * (sumn (nob d) (fun m => (i_b_oo H k m) * (ipt_aab L i b c j m))).
(** ccpy/left/left_ipeom3.py, build_LH_3B, line 142 *)
Definition iptl_LH_aab_10 (d : dims) (H : ints) (T : amps) (L : iptv) : mat5 := fun i b c j k =>
  iptl_LH_aab_9 d H T L i b c j k + 1 / 2 * (sumn (nua d) (fun e => (i_a_vv H e b) * (ipt_aab L i e c j k))).
(** ccpy/left/left_ipeom3.py, build_LH_3B, line 143 *)
Definition iptl_LH_aab_11 (d : dims) (H : ints) (T : amps) (L : iptv) : mat5 := fun i b c j k =>
  iptl_LH_aab_10 d H T L i b c j k + 1 / 2 * (sumn (nub d) (fun e => (i_b_vv H e c) * (ipt_aab L i b e j k))).
(** ccpy/left/left_ipeom3.py, build_LH_3B, line 144 *)
Definition iptl_LH_aab_12 (d : dims) (H : ints) (T : amps) (L : iptv) : mat5 := fun i b c j k =>
  iptl_LH_aab_11 d H T L i b c j k + 1 / 4 * (sumn (noa d) (fun m => sumn (noa d) (fun n => (i_aa_oooo H i j m n) * (ipt_aab L m b c n k)))).
(** ccpy/left/left_ipeom3.py, build_LH_3B, line 145 *)
Definition iptl_LH_aab_13 (d : dims) (H : ints) (T : amps) (L : iptv) : mat5 := fun i b c j k =>
  iptl_LH_aab_12 d H T L i b c j k + sumn (noa d) (fun m => sumn (nob d) (fun n => (i_ab_oooo H j k m n) * (ipt_aab L i b c m n))).
(** ccpy/left/left_ipeom3.py, build_LH_3B, line 146 *)
Definition iptl_LH_aab_14 (d : dims) (H : ints) (T : amps) (L : iptv) : mat5 := fun i b c j k =>
  iptl_LH_aab_13 d H T L i b c j k + 1 / 2 * (sumn (nua d) (fun e => sumn (nub d) (fun f => (i_ab_vvvv H e f b c) * (ipt_aab L i e f j k)))).
(** ccpy/left/left_ipeom3.py, build_LH_3B, line 147 *)
Definition iptl_LH_aab_15 (d : dims) (H : ints) (T : amps) (L : iptv) : mat5 := fun i b c j k =>
  iptl_LH_aab_14 d H T L i b c j k + sumn (nua d) (fun e => sumn (noa d) (fun m => (i_aa_voov H e j m b) * (ipt_aab L i e c m k))).
(** ccpy/left/left_ipeom3.py, build_LH_3B, line 148 *)
Definition iptl_LH_aab_16 (d : dims) (H : ints) (T : amps) (L : iptv) : mat5 := fun i b c j k =>
  iptl_LH_aab_15 d H T L i b c j k + sumn (nub d) (fun e => sumn (nob d) (fun m => (i_ab_ovvo H j e b m) * (ipt_abb L i e c m k))).
(** ccpy/left/left_ipeom3.py, build_LH_3B, line 149 *)
Definition iptl_LH_aab_17 (d : dims) (H : ints) (T : amps) (L : iptv) : mat5 := fun i b c j k =>
  iptl_LH_aab_16 d H T L i b c j k + 1 / 2 * (sumn (nua d) (fun e => sumn (noa d) (fun m => (i_ab_voov H e k m c) * (ipt_aaa L i b e j m)))).
(** ccpy/left/left_ipeom3.py, build_LH_3B, line 150 *)
Definition iptl_LH_aab_18 (d : dims) (H : ints) (T : amps) (L : iptv) : mat5 := fun i b c j k =>
  iptl_LH_aab_17 d H T L i b c j k + 1 / 2 * (sumn (nub d) (fun e => sumn (nob d) (fun m => (i_bb_voov H e k m c) * (ipt_aab L i b e j m)))).
(** ccpy/left/left_ipeom3.py, build_LH_3B, line 151 *)
Definition iptl_LH_aab_19 (d : dims) (H : ints) (T : amps) (L : iptv) : mat5 := fun i b c j k =>
  iptl_LH_aab_18 d H T L i b c j k - sumn (nub d) (fun e => sumn (noa d) (fun m => (i_ab_ovov H j e m c) * (ipt_aab L i b e m k))).
(** ccpy/left/left_ipeom3.py, build_LH_3B, line 152 *)
Definition iptl_LH_aab_20 (d : dims) (H : ints) (T : amps) (L : iptv) : mat5 := fun i b c j k =>
  iptl_LH_aab_19 d H T L i b c j k - 1 / 2 * (sumn (nua d) (fun e => sumn (nob d) (fun m => (i_ab_vovo H e k b m) * (ipt_aab L i e c j m)))).
(** ccpy/left/left_ipeom3.py, build_LH_3B, line 154 *)
Definition iptl_LH_aab_21 (d : dims) (H : ints) (T : amps) (L : iptv) : mat5 := fun i b c j k =>
  iptl_LH_aab_20 d H T L i b c j k - 1 / 2 * (sumn (noa d) (fun m => (iptl_X_aa_ooo d H T L i j m) * (i_ab_oovv H m k b c))).
(** ccpy/left/left_ipeom3.py, build_LH_3B, line 155 *)
Definition iptl_LH_aab_22 (d : dims) (H : ints) (T : amps) (L : iptv) : mat5 := fun i b c j k =>
  iptl_LH_aab_21 d H T L i b c j k - sumn (nob d) (fun m => (iptl_X_ab_ooo d H T L i k m) * (i_ab_oovv H j m b c)).
(** ccpy/left/left_ipeom3.py, build_LH_3B, line 156 *)
Definition iptl_LH_aab_23 (d : dims) (H : ints) (T : amps) (L : iptv) : mat5 := fun i b c j k =>
  iptl_LH_aab_22 d H T L i b c j k + sumn (nua d) (fun e => (iptl_X_aa_vvo d H T L e b j) * (i_ab_oovv H i k e c)).
(** ccpy/left/left_ipeom3.py, build_LH_3B, line 157 *)
Definition iptl_LH_aab_24 (d : dims) (H : ints) (T : amps) (L : iptv) : mat5 := fun i b c j k =>
  iptl_LH_aab_23 d H T L i b c j k + 1 / 2 * (sumn (nua d) (fun e => (iptl_X_ab_vvo d H T L e c k) * (i_aa_oovv H i j e b))).
(** ccpy/left/left_ipeom3.py, build_LH_3B, line 158 *)
Definition iptl_LH_aab_25 (d : dims) (H : ints) (T : amps) (L : iptv) : mat5 := fun i b c j k =>
  iptl_LH_aab_24 d H T L i b c j k + sumn (nub d) (fun e => (iptl_X_ab_ovv d H T L i e c) * (i_ab_oovv H j k b e)).
(** ccpy/left/left_ipeom3.py, build_LH_3B, line 160 *)
Definition iptl_LH_aab_26 (d : dims) (H : ints) (T : amps) (L : iptv) : mat5 := fun i b c j k =>
  iptl_LH_aab_25 d H T L i b c j k - iptl_LH_aab_25 d H T L j b c i k.
(** ccpy/left/left_ipeom3.py, build_LH_3C, line 166 *)
Definition iptl_LH_abb (d : dims) (H : ints) (T : amps) (L : iptv) : mat5 := fun i b c j k =>
  1 / 4 * ((ipt_a L i) * (i_bb_oovv H j k b c)).
(** ccpy/left/left_ipeom3.py, build_LH_3C, line 167 *)
Definition iptl_LH_abb_1 (d : dims) (H : ints) (T : amps) (L : iptv) : mat5 := fun i b c j k =>
  iptl_LH_abb d H T L i b c j k + (ipt_ab L i b j) * (i_b_ov H k c).
(** ccpy/left/left_ipeom3.py, build_LH_3C, line 168 *)
Definition iptl_LH_abb_2 (d : dims) (H : ints) (T : amps) (L : iptv) : mat5 := fun i b c j k =>
  iptl_LH_abb_1 d H T L i b c j k + 1 / 2 * (sumn (nub d) (fun e => (ipt_ab L i e j) * (i_bb_vovv H e k b c))).
(** ccpy/left/left_ipeom3.py, build_LH_3C, line 169 *)
Definition iptl_LH_abb_3 (d : dims) (H : ints) (T : amps) (L : iptv) : mat5 := fun i b c j k =>
  iptl_LH_abb_2 d H T L i b c j k - sumn (noa d) (fun m => (ipt_ab L m c k) * (i_ab_ooov H i j m b)).
(** ccpy/left/left_ipeom3.py, build_LH_3C, line 170 *)
Definition iptl_LH_abb_4 (d : dims) (H : ints) (T : amps) (L : iptv) : mat5 := fun i b c j k =>
  iptl_LH_abb_3 d H T L i b c j k - 1 / 2 * (sumn (nob d) (fun m => (ipt_ab L i b m) * (i_bb_ooov H j k m c))).
(** ccpy/left/left_ipeom3.py, build_LH_3C, line 172 *)
Definition iptl_LH_abb_5 (d : dims) (H : ints) (T : amps) (L : iptv) : mat5 := fun i b c j k =>
  iptl_LH_abb_4 d H T L i b c j k - 1 / 4 * (sumn (noa d) (fun m => (i_a_oo H i m) * (ipt_abb L m b c j k))).
(** ccpy/left/left_ipeom3.py, build_LH_3C, line 173 *)
Definition iptl_LH_abb_6 (d : dims) (H : ints) (T : amps) (L : iptv) : mat5 := fun i b c j k =>
  iptl_LH_abb_5 d H T L i b c j k - 1 / 2 * (sumn (nob d) (fun m => (i_b_oo H j m) * (ipt_abb L i b c m k))).
(** ccpy/left/left_ipeom3.py, build_LH_3C, line 174 *)
Definition iptl_LH_abb_7 (d : dims) (H : ints) (T : amps) (L : iptv) : mat5 := fun i b c j k =>
  iptl_LH_abb_6 d H T L i b c j k + 1 / 2 * (sumn (nub d) (fun e => (i_b_vv H e b) * (ipt_abb L i e c j k))).
(** ccpy/left/left_ipeom3.py, build_LH_3C, line 175 *)
Definition iptl_LH_abb_8 (d : dims) (H : ints) (T : amps) (L : iptv) : mat5 := fun i b c j k =>
  iptl_LH_abb_7 d H T L i b c j k + 1 / 8 * (sumn (nob d) (fun m => sumn (nob d) (fun n => (i_bb_oooo H j k m n) * (ipt_abb L i b c m n)))).
(** ccpy/left/left_ipeom3.py, build_LH_3C, line 176 *)
Definition iptl_LH_abb_9 (d : dims) (H : ints) (T : amps) (L : iptv) : mat5 := fun i b c j k =>
  iptl_LH_abb_8 d H T L i b c j k + 1 / 2 * (sumn (noa d) (fun m => sumn (nob d) (fun n => (i_ab_oooo H i j m n) * (ipt_abb L m b c n k)))).
(** ccpy/left/left_ipeom3.py, build_LH_3C, line 177 *)
Definition iptl_LH_abb_10 (d : dims) (H : ints) (T : amps) (L : iptv) : mat5 := fun i b c j k =>
  iptl_LH_abb_9 d H T L i b c j k + 1 / 8 * (sumn (nub d) (fun e => sumn (nub d) (fun f => (i_bb_vvvv H e f b c) * (ipt_abb L i e f j k)))).
(** ccpy/left/left_ipeom3.py, build_LH_3C, line 178 *)
Definition iptl_LH_abb_11 (d : dims) (H : ints) (T : amps) (L : iptv) : mat5 := fun i b c j k =>
  iptl_LH_abb_10 d H T L i b c j k + sumn (nua d) (fun e => sumn (noa d) (fun m => (i_ab_voov H e j m b) * (ipt_aab L i e c m k))).
(** ccpy/left/left_ipeom3.py, build_LH_3C, line 179 *)
Definition iptl_LH_abb_12 (d : dims) (H : ints) (T : amps) (L : iptv) : mat5 := fun i b c j k =>
  iptl_LH_abb_11 d H T L i b c j k + sumn (nub d) (fun e => sumn (nob d) (fun m => (i_bb_voov H e j m b) * (ipt_abb L i e c m k))).
(** ccpy/left/left_ipeom3.py, build_LH_3C, line 180 *)
Definition iptl_LH_abb_13 (d : dims) (H : ints) (T : amps) (L : iptv) : mat5 := fun i b c j k =>
  iptl_LH_abb_12 d H T L i b c j k - 1 / 2 * (sumn (nub d) (fun e => sumn (noa d) (fun m => (i_ab_ovov H i e m b) * (ipt_abb L m e c j k)))).
(** ccpy/left/left_ipeom3.py, build_LH_3C, line 182 *)
Definition iptl_LH_abb_14 (d : dims) (H : ints) (T : amps) (L : iptv) : mat5 := fun i b c j k =>
  iptl_LH_abb_13 d H T L i b c j k - 1 / 2 * (sumn (nob d) (fun m => (iptl_X_ab_ooo d H T L i j m) * (i_bb_oovv H m k b c))).
(** ccpy/left/left_ipeom3.py, build_LH_3C, line 183 *)
Definition iptl_LH_abb_15 (d : dims) (H : ints) (T : amps) (L : iptv) : mat5 := fun i b c j k =>
  iptl_LH_abb_14 d H T L i b c j k + sumn (nua d) (fun e => (iptl_X_ab_vvo d H T L e c k) * (i_ab_oovv H i j e b)).
(** ccpy/left/left_ipeom3.py, build_LH_3C, line 184 *)
Definition iptl_LH_abb_16 (d : dims) (H : ints) (T : amps) (L : iptv) : mat5 := fun i b c j k =>
  iptl_LH_abb_15 d H T L i b c j k + 1 / 2 * (sumn (nub d) (fun e => (iptl_X_ab_ovv d H T L i e c) * (i_bb_oovv H j k b e))).
(** ccpy/left/left_ipeom3.py, build_LH_3C, line 186 *)
Definition iptl_LH_abb_17 (d : dims) (H : ints) (T : amps) (L : iptv) : mat5 := fun i b c j k =>
  iptl_LH_abb_16 d H T L i b c j k - iptl_LH_abb_16 d H T L i c b j k.
(** ccpy/left/left_ipeom3.py, build_LH_3C, line 187 *)
Definition iptl_LH_abb_18 (d : dims) (H : ints) (T : amps) (L : iptv) : mat5 := fun i b c j k =>
  iptl_LH_abb_17 d H T L i b c j k - iptl_LH_abb_17 d H T L i b c k j.
(** ccpy/left/left_ipeom3.py (LH_fun, lines 23-37): the vector returned *)
Definition ipt_LH (d : dims) (H : ints) (T : amps) (L : iptv) : iptv := mkIpt (iptl_LH_a_7 d H T L) (iptl_LH_aa_17 d H T L) (iptl_LH_ab_23 d H T L) (iptl_LH_aaa_14 d H T L) (iptl_LH_aab_26 d H T L) (iptl_LH_abb_18 d H T L).
(** ccpy/left/left_eaeom_intermediates.py, get_lefteaeom3_intermediates, lines 10-13 *)
Definition eatl_X_a_o (d : dims) (H : ints) (T : amps) (L : eatv) : mat1 := fun m =>
  1 / 2 * (sumn (nua d) (fun e => sumn (nua d) (fun f => sumn (noa d) (fun n => (eat_aa L e f n) * (x_aa T e f m n))))) + sumn (nua d) (fun e => sumn (nub d) (fun f => sumn (nob d) (fun n => (eat_ab L e f n) * (x_ab T e f m n)))).
(** ccpy/left/left_eaeom_intermediates.py, get_lefteaeom3_intermediates, lines 16-19 *)
Definition eatl_X_aa_ovo (d : dims) (H : ints) (T : amps) (L : eatv) : mat3 := fun i b j =>
  1 / 2 * (sumn (nua d) (fun e => sumn (nua d) (fun f => sumn (noa d) (fun n => (eat_aaa L e b f j n) * (x_aa T e f i n))))) + sumn (nua d) (fun e => sumn (nub d) (fun f => sumn (nob d) (fun n => (eat_aab L e b f j n) * (x_ab T e f i n)))).
(** ccpy/left/left_eaeom_intermediates.py, get_lefteaeom3_intermediates, lines 22-25 *)
Definition eatl_X_aa_vvv (d : dims) (H : ints) (T : amps) (L : eatv) : mat3 := fun a b e =>
  (-1) / 2 * (sumn (nua d) (fun f => sumn (noa d) (fun m => sumn (noa d) (fun n => (eat_aaa L a e f m n) * (x_aa T b f m n))))) - sumn (nub d) (fun f => sumn (noa d) (fun m => sumn (nob d) (fun n => (eat_aab L a e f m n) * (x_ab T b f m n)))).
(** ccpy/left/left_eaeom_intermediates.py, get_lefteaeom3_intermediates, lines 28-31 *)
Definition eatl_X_ab_vvv (d : dims) (H : ints) (T : amps) (L : eatv) : mat3 := fun a b e =>
  (- (sumn (nua d) (fun f => sumn (noa d) (fun n => sumn (nob d) (fun m => (eat_aab L a f e n m) * (x_ab T f b n m)))))) - 1 / 2 * (sumn (nub d) (fun f => sumn (nob d) (fun n => sumn (nob d) (fun m => (eat_abb L a f e n m) * (x_bb T b f m n))))).
(** ccpy/left/left_eaeom_intermediates.py, get_lefteaeom3_intermediates, lines 34-37 *)
Definition eatl_X_ab_ovo (d : dims) (H : ints) (T : amps) (L : eatv) : mat3 := fun i b j =>
  1 / 2 * (sumn (nua d) (fun e => sumn (nua d) (fun f => sumn (noa d) (fun n => (eat_aab L e f b n j) * (x_aa T e f i n))))) + sumn (nua d) (fun e => sumn (nub d) (fun f => sumn (nob d) (fun n => (eat_abb L e b f j n) * (x_ab T e f i n)))).
(** ccpy/left/left_eaeom_intermediates.py, get_lefteaeom3_intermediates, lines 40-43 *)
Definition eatl_X_ab_voo (d : dims) (H : ints) (T : amps) (L : eatv) : mat3 := fun a k m =>
  sumn (nua d) (fun f => sumn (nub d) (fun e => sumn (noa d) (fun n => (eat_aab L a f e n k) * (x_ab T f e n m)))) + 1 / 2 * (sumn (nub d) (fun f => sumn (nub d) (fun e => sumn (nob d) (fun n => (eat_abb L a f e n k) * (x_bb T f e n m))))).
(** ccpy/left/left_eaeom3.py, build_LH_1A, line 40 *)
Definition eatl_LH_a (d : dims) (H : ints) (T : amps) (L : eatv) : mat1 := fun a =>
  sumn (nua d) (fun e => (eat_a L e) * (i_a_vv H e a)).
(** ccpy/left/left_eaeom3.py, build_LH_1A, line 41 *)
Definition eatl_LH_a_1 (d : dims) (H : ints) (T : amps) (L : eatv) : mat1 := fun a =>
  eatl_LH_a d H T L a + 1 / 2 * (sumn (nua d) (fun e => sumn (nua d) (fun f => sumn (noa d) (fun n => (eat_aa L e f n) * (i_aa_vvov H f e n a))))).
(** ccpy/left/left_eaeom3.py, build_LH_1A, line 42 *)
Definition eatl_LH_a_2 (d : dims) (H : ints) (T : amps) (L : eatv) : mat1 := fun a =>
  eatl_LH_a_1 d H T L a + sumn (nua d) (fun e => sumn (nub d) (fun f => sumn (nob d) (fun n => (eat_ab L e f n) * (i_ab_vvvo H e f a n)))).
(** ccpy/left/left_eaeom3.py, build_LH_1A, line 44 *)
Definition eatl_LH_a_3 (d : dims) (H : ints) (T : amps) (L : eatv) : mat1 := fun a =>
  eatl_LH_a_2 d H T L a - sumn (noa d) (fun m => sumn (nub d) (fun f => sumn (nob d) (fun n => (i_ab_ovvo H m f a n) * (eatl_X_ab_ovo d H T L m f n)))).
(** ccpy/left/left_eaeom3.py, build_LH_1A, line 45 *)
Definition eatl_LH_a_4 (d : dims) (H : ints) (T : amps) (L : eatv) : mat1 := fun a =>
  eatl_LH_a_3 d H T L a - sumn (nua d) (fun f => sumn (noa d) (fun m => sumn (noa d) (fun n => (i_aa_voov H f m n a) * (eatl_X_aa_ovo d H T L m f n)))).
(** ccpy/left/left_eaeom3.py, build_LH_1A, line 46 *)
Definition eatl_LH_a_5 (d : dims) (H : ints) (T : amps) (L : eatv) : mat1 := fun a =>
  eatl_LH_a_4 d H T L a - 1 / 2 * (sumn (nua d) (fun f => sumn (nua d) (fun g => sumn (nua d) (fun e => (eatl_X_aa_vvv d H T L f g e) * (i_aa_vvvv H f e a g))))).
(** ccpy/left/left_eaeom3.py, build_LH_1A, line 47 *)
Definition eatl_LH_a_6 (d : dims) (H : ints) (T : amps) (L : eatv) : mat1 := fun a =>
  eatl_LH_a_5 d H T L a - sumn (nua d) (fun e => sumn (nob d) (fun m => sumn (nob d) (fun n => (i_ab_vovo H e m a n) * (eatl_X_ab_voo d H T L e n m)))).
(** ccpy/left/left_eaeom3.py, build_LH_1A, line 48 *)
Definition eatl_LH_a_7 (d : dims) (H : ints) (T : amps) (L : eatv) : mat1 := fun a =>
  eatl_LH_a_6 d H T L a - sumn (nua d) (fun e => sumn (nub d) (fun f => sumn (nub d) (fun g => (eatl_X_ab_vvv d H T L e f g) * (i_ab_vvvv H e g a f)))).
(** ccpy/left/left_eaeom3.py, build_LH_2A, line 53 *)
Definition eatl_LH_aa (d : dims) (H : ints) (T : amps) (L : eatv) : mat3 := fun a b j =>
  (eat_a L a) * (i_a_ov H j b).
(** ccpy/left/left_eaeom3.py, build_LH_2A, line 54 *)
Definition eatl_LH_aa_1 (d : dims) (H : ints) (T : amps) (L : eatv) : mat3 := fun a b j =>
  eatl_LH_aa d H T L a b j + 1 / 2 * (sumn (nua d) (fun e => (eat_a L e) * (i_aa_vovv H e j a b))).
(** ccpy/left/left_eaeom3.py, build_LH_2A, line 55 *)
Definition eatl_LH_aa_2 (d : dims) (H : ints) (T : amps) (L : eatv) : mat3 := fun a b j =>
  eatl_LH_aa_1 d H T L a b j + sumn (nua d) (fun e => (eat_aa L e b j) * (i_a_vv H e a)).
(** ccpy/left/left_eaeom3.py, build_LH_2A, line 56 *)
Definition eatl_LH_aa_3 (d : dims) (H : ints) (T : amps) (L : eatv) : mat3 := fun a b j =>
  eatl_LH_aa_2 d H T L a b j - 1 / 2 * (sumn (noa d) (fun m => (eat_aa L a b m) * (i_a_oo H j m))).
(** ccpy/left/left_eaeom3.py, build_LH_2A, line 57 *)
Definition eatl_LH_aa_4 (d : dims) (H : ints) (T : amps) (L : eatv) : mat3 := fun a b j =>
  eatl_LH_aa_3 d H T L a b j + sumn (nua d) (fun f => sumn (noa d) (fun n => (eat_aa L a f n) * (i_aa_voov H f j n b))).
(** ccpy/left/left_eaeom3.py, build_LH_2A, line 58 *)
Definition eatl_LH_aa_5 (d : dims) (H : ints) (T : amps) (L : eatv) : mat3 := fun a b j =>
  eatl_LH_aa_4 d H T L a b j + sumn (nub d) (fun f => sumn (nob d) (fun n => (eat_ab L a f n) * (i_ab_ovvo H j f b n))).
(** ccpy/left/left_eaeom3.py, build_LH_2A, line 59 *)
Definition eatl_LH_aa_6 (d : dims) (H : ints) (T : amps) (L : eatv) : mat3 := fun a b j =>
  eatl_LH_aa_5 d H T L a b j + 1 / 4 * (sumn (nua d) (fun e => sumn (nua d) (fun f => (eat_aa L e f j) * (i_aa_vvvv H e f a b)))).
(** ccpy/left/left_eaeom3.py, build_LH_2A, line 60 *)
Definition eatl_LH_aa_7 (d : dims) (H : ints) (T : amps) (L : eatv) : mat3 := fun a b j =>
  eatl_LH_aa_6 d H T L a b j - 1 / 2 * (sumn (noa d) (fun m => (i_aa_oovv H m j a b) * (eatl_X_a_o d H T L m))).
(** ccpy/left/left_eaeom3.py, build_LH_2A, line 62 *)
Definition eatl_LH_aa_8 (d : dims) (H : ints) (T : amps) (L : eatv) : mat3 := fun a b j =>
  eatl_LH_aa_7 d H T L a b j + 1 / 2 * (sumn (nua d) (fun f => sumn (nua d) (fun e => sumn (noa d) (fun n => (i_aa_vvov H f e n a) * (eat_aaa L e b f j n))))).
(** ccpy/left/left_eaeom3.py, build_LH_2A, line 63 *)
Definition eatl_LH_aa_9 (d : dims) (H : ints) (T : amps) (L : eatv) : mat3 := fun a b j =>
  eatl_LH_aa_8 d H T L a b j + sumn (nua d) (fun e => sumn (nub d) (fun f => sumn (nob d) (fun n => (i_ab_vvvo H e f a n) * (eat_aab L e b f j n)))).
(** ccpy/left/left_eaeom3.py, build_LH_2A, line 64 *)
Definition eatl_LH_aa_10 (d : dims) (H : ints) (T : amps) (L : eatv) : mat3 := fun a b j =>
  eatl_LH_aa_9 d H T L a b j - 1 / 4 * (sumn (nua d) (fun f => sumn (noa d) (fun n => sumn (noa d) (fun m => (i_aa_vooo H f j n m) * (eat_aaa L a b f m n))))).
(** ccpy/left/left_eaeom3.py, build_LH_2A, line 65 *)
Definition eatl_LH_aa_11 (d : dims) (H : ints) (T : amps) (L : eatv) : mat3 := fun a b j =>
  eatl_LH_aa_10 d H T L a b j - 1 / 2 * (sumn (nub d) (fun f => sumn (noa d) (fun m => sumn (nob d) (fun n => (i_ab_ovoo H j f m n) * (eat_aab L a b f m n))))).
(** ccpy/left/left_eaeom3.py, build_LH_2A, line 67 *)
Definition eatl_LH_aa_12 (d : dims) (H : ints) (T : amps) (L : eatv) : mat3 := fun a b j =>
  eatl_LH_aa_11 d H T L a b j + sumn (noa d) (fun m => sumn (noa d) (fun n => (eatl_X_aa_ovo d H T L m b n) * (i_aa_ooov H j m n a))).
(** ccpy/left/left_eaeom3.py, build_LH_2A, line 68 *)
Definition eatl_LH_aa_13 (d : dims) (H : ints) (T : amps) (L : eatv) : mat3 := fun a b j =>
  eatl_LH_aa_12 d H T L a b j - sumn (nob d) (fun m => sumn (nob d) (fun n => (eatl_X_ab_voo d H T L a m n) * (i_ab_oovo H j n b m))).
(** ccpy/left/left_eaeom3.py, build_LH_2A, line 69 *)
Definition eatl_LH_aa_14 (d : dims) (H : ints) (T : amps) (L : eatv) : mat3 := fun a b j =>
  eatl_LH_aa_13 d H T L a b j - sumn (nua d) (fun e => sumn (nua d) (fun f => (eatl_X_aa_vvv d H T L a e f) * (i_aa_vovv H f j e b))).
(** ccpy/left/left_eaeom3.py, build_LH_2A, line 70 *)
Definition eatl_LH_aa_15 (d : dims) (H : ints) (T : amps) (L : eatv) : mat3 := fun a b j =>
  eatl_LH_aa_14 d H T L a b j - sumn (nub d) (fun e => sumn (nub d) (fun f => (eatl_X_ab_vvv d H T L a e f) * (i_ab_ovvv H j f b e))).
(** ccpy/left/left_eaeom3.py, build_LH_2A, line 71 *)
Definition eatl_LH_aa_16 (d : dims) (H : ints) (T : amps) (L : eatv) : mat3 := fun a b j =>
  eatl_LH_aa_15 d H T L a b j - 1 / 2 * (sumn (noa d) (fun m => sumn (nua d) (fun e => (eatl_X_aa_ovo d H T L m e j) * (i_aa_vovv H e m b a)))).
(** ccpy/left/left_eaeom3.py, build_LH_2A, line 72 *)
Definition eatl_LH_aa_17 (d : dims) (H : ints) (T : amps) (L : eatv) : mat3 := fun a b j =>
  eatl_LH_aa_16 d H T L a b j - eatl_LH_aa_16 d H T L b a j.
(** ccpy/left/left_eaeom3.py, build_LH_2B, line 77 *)
Definition eatl_LH_ab (d : dims) (H : ints) (T : amps) (L : eatv) : mat3 := fun a b j =>
  (eat_a L a) * (i_b_ov H j b).
(** ccpy/left/left_eaeom3.py, build_LH_2B, line 78 *)
Definition eatl_LH_ab_1 (d : dims) (H : ints) (T : amps) (L : eatv) : mat3 := fun a b j =>
  eatl_LH_ab d H T L a b j + sumn (nua d) (fun e => (eat_a L e) * (i_ab_vovv H e j a b)).
(** ccpy/left/left_eaeom3.py, build_LH_2B, line 79 *)
Definition eatl_LH_ab_2 (d : dims) (H : ints) (T : amps) (L : eatv) : mat3 := fun a b j =>
  eatl_LH_ab_1 d H T L a b j - sumn (nob d) (fun m => (eat_ab L a b m) * (i_b_oo H j m)).
(** ccpy/left/left_eaeom3.py, build_LH_2B, line 80 *)
Definition eatl_LH_ab_3 (d : dims) (H : ints) (T : amps) (L : eatv) : mat3 := fun a b j =>
  eatl_LH_ab_2 d H T L a b j + sumn (nub d) (fun e => (eat_ab L a e j) * (i_b_vv H e b)).
(** ccpy/left/left_eaeom3.py, build_LH_2B, line 81 *)
Definition eatl_LH_ab_4 (d : dims) (H : ints) (T : amps) (L : eatv) : mat3 := fun a b j =>
  eatl_LH_ab_3 d H T L a b j + sumn (nua d) (fun e => (eat_ab L e b j) * (i_a_vv H e a)).
(** ccpy/left/left_eaeom3.py, build_LH_2B, line 82 *)
Definition eatl_LH_ab_5 (d : dims) (H : ints) (T : amps) (L : eatv) : mat3 := fun a b j =>
  eatl_LH_ab_4 d H T L a b j + sumn (nua d) (fun f => sumn (noa d) (fun n => (eat_aa L a f n) * (i_ab_voov H f j n b))).
(** ccpy/left/left_eaeom3.py, build_LH_2B, line 83 *)
Definition eatl_LH_ab_6 (d : dims) (H : ints) (T : amps) (L : eatv) : mat3 := fun a b j =>
  eatl_LH_ab_5 d H T L a b j + sumn (nub d) (fun f => sumn (nob d) (fun n => (eat_ab L a f n) * (i_bb_voov H f j n b))).
(** ccpy/left/left_eaeom3.py, build_LH_2B, line 84 *)
Definition eatl_LH_ab_7 (d : dims) (H : ints) (T : amps) (L : eatv) : mat3 := fun a b j =>
  eatl_LH_ab_6 d H T L a b j - sumn (nua d) (fun e => sumn (nob d) (fun m => (eat_ab L e b m) * (i_ab_vovo H e j a m))).
(** ccpy/left/left_eaeom3.py, build_LH_2B, line 85 *)
Definition eatl_LH_ab_8 (d : dims) (H : ints) (T : amps) (L : eatv) : mat3 := fun a b j =>
  eatl_LH_ab_7 d H T L a b j + sumn (nua d) (fun e => sumn (nub d) (fun f => (eat_ab L e f j) * (i_ab_vvvv H e f a b))).
(** ccpy/left/left_eaeom3.py, build_LH_2B, line 86 *)
Definition eatl_LH_ab_9 (d : dims) (H : ints) (T : amps) (L : eatv) : mat3 := fun a b j =>
  eatl_LH_ab_8 d H T L a b j - sumn (noa d) (fun m => (i_ab_oovv H m j a b) * (eatl_X_a_o d H T L m)).
(** ccpy/left/left_eaeom3.py, build_LH_2B, line 88 *)
Definition eatl_LH_ab_10 (d : dims) (H : ints) (T : amps) (L : eatv) : mat3 := fun a b j =>
  eatl_LH_ab_9 d H T L a b j + 1 / 2 * (sumn (nua d) (fun f => sumn (nua d) (fun e => sumn (noa d) (fun n => (i_aa_vvov H f e n a) * (eat_aab L e f b n j))))).
(** ccpy/left/left_eaeom3.py, build_LH_2B, line 89 *)
Definition eatl_LH_ab_11 (d : dims) (H : ints) (T : amps) (L : eatv) : mat3 := fun a b j =>
  eatl_LH_ab_10 d H T L a b j + sumn (nua d) (fun e => sumn (nub d) (fun f => sumn (nob d) (fun n => (i_ab_vvvo H e f a n) * (eat_abb L e f b n j)))).
(** ccpy/left/left_eaeom3.py, build_LH_2B, line 90 *)
Definition eatl_LH_ab_12 (d : dims) (H : ints) (T : amps) (L : eatv) : mat3 := fun a b j =>
  eatl_LH_ab_11 d H T L a b j + sumn (nua d) (fun f => sumn (nub d) (fun e => sumn (noa d) (fun n => (i_ab_vvov H f e n b) * (eat_aab L a f e n j)))).
(** ccpy/left/left_eaeom3.py, build_LH_2B, line 91 *)
Definition eatl_LH_ab_13 (d : dims) (H : ints) (T : amps) (L : eatv) : mat3 := fun a b j =>
  eatl_LH_ab_12 d H T L a b j + 1 / 2 * (sumn (nub d) (fun f => sumn (nub d) (fun e => sumn (nob d) (fun n => (i_bb_vvov H f e n b) * (eat_abb L a f e n j))))).
(** ccpy/left/left_eaeom3.py, build_LH_2B, line 92 *)
Definition eatl_LH_ab_14 (d : dims) (H : ints) (T : amps) (L : eatv) : mat3 := fun a b j =>
  eatl_LH_ab_13 d H T L a b j - sumn (nua d) (fun f => sumn (noa d) (fun n => sumn (nob d) (fun m => (i_ab_vooo H f j n m) * (eat_aab L a f b n m)))).
(** ccpy/left/left_eaeom3.py, build_LH_2B, line 93 *)
Definition eatl_LH_ab_15 (d : dims) (H : ints) (T : amps) (L : eatv) : mat3 := fun a b j =>
  eatl_LH_ab_14 d H T L a b j - 1 / 2 * (sumn (nub d) (fun f => sumn (nob d) (fun n => sumn (nob d) (fun m => (i_bb_vooo H f j n m) * (eat_abb L a b f m n))))).
(** ccpy/left/left_eaeom3.py, build_LH_2B, line 95 *)
Definition eatl_LH_ab_16 (d : dims) (H : ints) (T : amps) (L : eatv) : mat3 := fun a b j =>
  eatl_LH_ab_15 d H T L a b j + sumn (noa d) (fun m => sumn (noa d) (fun n => (eatl_X_aa_ovo d H T L m a n) * (i_ab_ooov H m j n b))).
(** ccpy/left/left_eaeom3.py, build_LH_2B, line 96 *)
Definition eatl_LH_ab_17 (d : dims) (H : ints) (T : amps) (L : eatv) : mat3 := fun a b j =>
  eatl_LH_ab_16 d H T L a b j - sumn (nob d) (fun m => sumn (nob d) (fun n => (eatl_X_ab_voo d H T L a m n) * (i_bb_ooov H n j m b))).
(** ccpy/left/left_eaeom3.py, build_LH_2B, line 97 *)
Definition eatl_LH_ab_18 (d : dims) (H : ints) (T : amps) (L : eatv) : mat3 := fun a b j =>
  eatl_LH_ab_17 d H T L a b j - sumn (nua d) (fun e => sumn (nua d) (fun f => (eatl_X_aa_vvv d H T L a e f) * (i_ab_vovv H f j e b))).
(** ccpy/left/left_eaeom3.py, build_LH_2B, line 98 *)
Definition eatl_LH_ab_19 (d : dims) (H : ints) (T : amps) (L : eatv) : mat3 := fun a b j =>
  eatl_LH_ab_18 d H T L a b j - sumn (nub d) (fun e => sumn (nub d) (fun f => (eatl_X_ab_vvv d H T L a e f) * (i_bb_vovv H f j e b))).
(** ccpy/left/left_eaeom3.py, build_LH_2B, line 99 *)
Definition eatl_LH_ab_20 (d : dims) (H : ints) (T : amps) (L : eatv) : mat3 := fun a b j =>
  eatl_LH_ab_19 d H T L a b j + sumn (noa d) (fun n => sumn (nob d) (fun m => (eatl_X_ab_ovo d H T L n b m) * (i_ab_oovo H n j a m))).
(** ccpy/left/left_eaeom3.py, build_LH_2B, line 100 *)
Definition eatl_LH_ab_21 (d : dims) (H : ints) (T : amps) (L : eatv) : mat3 := fun a b j =>
  eatl_LH_ab_20 d H T L a b j + sumn (nua d) (fun e => sumn (nub d) (fun f => (eatl_X_ab_vvv d H T L e f b) * (i_ab_vovv H e j a f))).
(** ccpy/left/left_eaeom3.py, build_LH_2B, line 101 *)
Definition eatl_LH_ab_22 (d : dims) (H : ints) (T : amps) (L : eatv) : mat3 := fun a b j =>
  eatl_LH_ab_21 d H T L a b j - sumn (nua d) (fun e => sumn (nob d) (fun n => (eatl_X_ab_voo d H T L e j n) * (i_ab_vovv H e n a b))).
(** ccpy/left/left_eaeom3.py, build_LH_2B, line 102 *)
Definition eatl_LH_ab_23 (d : dims) (H : ints) (T : amps) (L : eatv) : mat3 := fun a b j =>
  eatl_LH_ab_22 d H T L a b j - sumn (noa d) (fun n => sumn (nub d) (fun f => (eatl_X_ab_ovo d H T L n f j) * (i_ab_ovvv H n f a b))).
(** ccpy/left/left_eaeom3.py, build_LH_3A, line 108 *)
Definition eatl_LH_aaa (d : dims) (H : ints) (T : amps) (L : eatv) : mat5 := fun a b c j k =>
  1 / 4 * ((eat_a L a) * (i_aa_oovv H j k b c)).
(** ccpy/left/left_eaeom3.py, build_LH_3A, line 109 *)
Definition eatl_LH_aaa_1 (d : dims) (H : ints) (T : amps) (L : eatv) : mat5 := fun a b c j k =>
  eatl_LH_aaa d H T L a b c j k + 1 / 2 * ((eat_aa L a b j) * (i_a_ov H k c)).
(** ccpy/left/left_eaeom3.py, build_LH_3A, line 110 *)
Definition eatl_LH_aaa_2 (d : dims) (H : ints) (T : amps) (L : eatv) : mat5 := fun a b c j k =>
  eatl_LH_aaa_1 d H T L a b c j k - 1 / 4 * (sumn (noa d) (fun m => (eat_aa L a b m) * (i_aa_ooov H j k m c))).
(** ccpy/left/left_eaeom3.py, build_LH_3A, line 111 *)
Definition eatl_LH_aaa_3 (d : dims) (H : ints) (T : amps) (L : eatv) : mat5 := fun a b c j k =>
  eatl_LH_aaa_2 d H T L a b c j k + 1 / 2 * (sumn (nua d) (fun e => (eat_aa L e c k) * (i_aa_vovv H e j a b))).
(** ccpy/left/left_eaeom3.py, build_LH_3A, line 113 *)
Definition eatl_LH_aaa_4 (d : dims) (H : ints) (T : amps) (L : eatv) : mat5 := fun a b c j k =>
  eatl_LH_aaa_3 d H T L a b c j k - 1 / 6 * (sumn (noa d) (fun m => (i_a_oo H j m) * (eat_aaa L a b c m k))).
(** ccpy/left/left_eaeom3.py, build_LH_3A, line 114 *)
Definition eatl_LH_aaa_5 (d : dims) (H : ints) (T : amps) (L : eatv) : mat5 := fun a b c j k =>
  eatl_LH_aaa_4 d H T L a b c j k + 1 / 4 * (sumn (nua d) (fun e => (i_a_vv H e b) * (eat_aaa L a e c j k))).
(** ccpy/left/left_eaeom3.py, build_LH_3A, line 115 *)
Definition eatl_LH_aaa_6 (d : dims) (H : ints) (T : amps) (L : eatv) : mat5 := fun a b c j k =>
  eatl_LH_aaa_5 d H T L a b c j k + 1 / 24 * (sumn (noa d) (fun m => sumn (noa d) (fun n => (i_aa_oooo H j k m n) * (eat_aaa L a b c m n)))).
(** ccpy/left/left_eaeom3.py, build_LH_3A, line 116 *)
Definition eatl_LH_aaa_7 (d : dims) (H : ints) (T : amps) (L : eatv) : mat5 := fun a b c j k =>
  eatl_LH_aaa_6 d H T L a b c j k + 1 / 8 * (sumn (nua d) (fun e => sumn (nua d) (fun f => (i_aa_vvvv H e f b c) * (eat_aaa L a e f j k)))).
(** ccpy/left/left_eaeom3.py, build_LH_3A, line 117 *)
Definition eatl_LH_aaa_8 (d : dims) (H : ints) (T : amps) (L : eatv) : mat5 := fun a b c j k =>
  eatl_LH_aaa_7 d H T L a b c j k + 1 / 2 * (sumn (nua d) (fun e => sumn (noa d) (fun m => (i_aa_voov H e j m b) * (eat_aaa L a c e k m)))).
(** ccpy/left/left_eaeom3.py, build_LH_3A, line 118 *)
Definition eatl_LH_aaa_9 (d : dims) (H : ints) (T : amps) (L : eatv) : mat5 := fun a b c j k =>
  eatl_LH_aaa_8 d H T L a b c j k + 1 / 2 * (sumn (nub d) (fun e => sumn (nob d) (fun m => (i_ab_ovvo H j e b m) * (eat_aab L a c e k m)))).
(** ccpy/left/left_eaeom3.py, build_LH_3A, line 120 *)
Definition eatl_LH_aaa_10 (d : dims) (H : ints) (T : amps) (L : eatv) : mat5 := fun a b c j k =>
  eatl_LH_aaa_9 d H T L a b c j k - 1 / 2 * (sumn (noa d) (fun m => (eatl_X_aa_ovo d H T L m c k) * (i_aa_oovv H m j a b))).
(** ccpy/left/left_eaeom3.py, build_LH_3A, line 121 *)
Definition eatl_LH_aaa_11 (d : dims) (H : ints) (T : amps) (L : eatv) : mat5 := fun a b c j k =>
  eatl_LH_aaa_10 d H T L a b c j k + 1 / 4 * (sumn (nua d) (fun e => (eatl_X_aa_vvv d H T L a e b) * (i_aa_oovv H j k e c))).
(** ccpy/left/left_eaeom3.py, build_LH_3A, line 122 *)
Definition eatl_LH_aaa_12 (d : dims) (H : ints) (T : amps) (L : eatv) : mat5 := fun a b c j k =>
  eatl_LH_aaa_11 d H T L a b c j k - (eatl_LH_aaa_11 d H T L b a c j k + eatl_LH_aaa_11 d H T L c b a j k).
(** ccpy/left/left_eaeom3.py, build_LH_3A, line 123 *)
Definition eatl_LH_aaa_13 (d : dims) (H : ints) (T : amps) (L : eatv) : mat5 := fun a b c j k =>
  eatl_LH_aaa_12 d H T L a b c j k - eatl_LH_aaa_12 d H T L a c b j k.
(** ccpy/left/left_eaeom3.py, build_LH_3A, line 124 *)
Definition eatl_LH_aaa_14 (d : dims) (H : ints) (T : amps) (L : eatv) : mat5 := fun a b c j k =>
  eatl_LH_aaa_13 d H T L a b c j k - eatl_LH_aaa_13 d H T L a b c k j.
(** ccpy/left/left_eaeom3.py, build_LH_3B, line 130 *)
Definition eatl_LH_aab (d : dims) (H : ints) (T : amps) (L : eatv) : mat5 := fun a b c j k =>
  (eat_a L a) * (i_ab_oovv H j k b c).
(** ccpy/left/left_eaeom3.py, build_LH_3B, line 131 *)
Definition eatl_LH_aab_1 (d : dims) (H : ints) (T : amps) (L : eatv) : mat5 := fun a b c j k =>
  eatl_LH_aab d H T L a b c j k + 1 / 2 * ((eat_aa L a b j) * (i_b_ov H k c)).
(** ccpy/left/left_eaeom3.py, build_LH_3B, line 132 *)
Definition eatl_LH_aab_2 (d : dims) (H : ints) (T : amps) (L : eatv) : mat5 := fun a b c j k =>
  eatl_LH_aab_1 d H T L a b c j k + (eat_ab L a c k) * (i_a_ov H j b).
(** ccpy/left/left_eaeom3.py, build_LH_3B, line 133 *)
Definition eatl_LH_aab_3 (d : dims) (H : ints) (T : amps) (L : eatv) : mat5 := fun a b c j k =>
  eatl_LH_aab_2 d H T L a b c j k - 1 / 2 * (sumn (noa d) (fun m => (eat_aa L a b m) * (i_ab_ooov H j k m c))).
(** ccpy/left/left_eaeom3.py, build_LH_3B, line 134 *)
Definition eatl_LH_aab_4 (d : dims) (H : ints) (T : amps) (L : eatv) : mat5 := fun a b c j k =>
  eatl_LH_aab_3 d H T L a b c j k - sumn (nob d) (fun m => (eat_ab L a c m) * (i_ab_oovo H j k b m)).
(** ccpy/left/left_eaeom3.py, build_LH_3B, line 135 *)
Definition eatl_LH_aab_5 (d : dims) (H : ints) (T : amps) (L : eatv) : mat5 := fun a b c j k =>
  eatl_LH_aab_4 d H T L a b c j k + sumn (nua d) (fun e => (eat_aa L a e j) * (i_ab_vovv H e k b c)).
(** ccpy/left/left_eaeom3.py, build_LH_3B, line 136 *)
Definition eatl_LH_aab_6 (d : dims) (H : ints) (T : amps) (L : eatv) : mat5 := fun a b c j k =>
  eatl_LH_aab_5 d H T L a b c j k + sumn (nub d) (fun e => (eat_ab L a e k) * (i_ab_ovvv H j e b c)).
(** ccpy/left/left_eaeom3.py, build_LH_3B, line 137 *)
Definition eatl_LH_aab_7 (d : dims) (H : ints) (T : amps) (L : eatv) : mat5 := fun a b c j k =>
  eatl_LH_aab_6 d H T L a b c j k + 1 / 2 * (sumn (nua d) (fun e => (eat_ab L e c k) * (i_aa_vovv H e j a b))).
(** ccpy/left/left_eaeom3.py, build_LH_3B, line 139 *)
Definition eatl_LH_aab_8 (d : dims) (H : ints) (T : amps) (L : eatv) : mat5 := fun a b c j k =>
  eatl_LH_aab_7 d H T L a b c j k - 1 / 2 * (sumn (noa d) (fun m => (i_a_oo H j m) * (eat_aab L a b c m k))).
(** ccpy/left/left_eaeom3.py, build_LH_3B, line 140 *)
Definition eatl_LH_aab_9 (d : dims) (H : ints) (T : amps) (L : eatv) : mat5 := fun a b c j k =>
  eatl_LH_aab_8 d H T L a b c j k - 1 / 2 * (sumn (nob d) (fun m => (i_b_oo H k m) * (eat_aab L a b c j m))).
(** ccpy/left/left_eaeom3.py, build_LH_3B, line 141 *)
Definition eatl_LH_aab_10 (d : dims) (H : ints) (T : amps) (L : eatv) : mat5 := fun a b c j k =>
  eatl_LH_aab_9 d H T L a b c j k + sumn (nua d) (fun e => (i_a_vv H e a) * (eat_aab L e b c j k)).
(** ccpy/left/left_eaeom3.py, build_LH_3B, line 142 *)
Definition eatl_LH_aab_11 (d : dims) (H : ints) (T : amps) (L : eatv) : mat5 := fun a b c j k =>
  eatl_LH_aab_10 d H T L a b c j k + 1 / 2 * (sumn (nub d) (fun e => (i_b_vv H e c) * (eat_aab L a b e j k))).
(** ccpy/left/left_eaeom3.py, build_LH_3B, line 143 *)
Definition eatl_LH_aab_12 (d : dims) (H : ints) (T : amps) (L : eatv) : mat5 := fun a b c j k =>
  eatl_LH_aab_11 d H T L a b c j k + 1 / 2 * (sumn (noa d) (fun m => sumn (nob d) (fun n => (i_ab_oooo H j k m n) * (eat_aab L a b c m n)))).
(** ccpy/left/left_eaeom3.py, build_LH_3B, line 144 *)
Definition eatl_LH_aab_13 (d : dims) (H : ints) (T : amps) (L : eatv) : mat5 := fun a b c j k =>
  eatl_LH_aab_12 d H T L a b c j k + 1 / 4 * (sumn (nua d) (fun e => sumn (nua d) (fun f => (i_aa_vvvv H e f a b) * (eat_aab L e f c j k)))).
(** ccpy/left/left_eaeom3.py, build_LH_3B, line 145 *)
Definition eatl_LH_aab_14 (d : dims) (H : ints) (T : amps) (L : eatv) : mat5 := fun a b c j k =>
  eatl_LH_aab_13 d H T L a b c j k + sumn (nua d) (fun e => sumn (nub d) (fun f => (i_ab_vvvv H e f b c) * (eat_aab L a e f j k))).
(** ccpy/left/left_eaeom3.py, build_LH_3B, line 146 *)
Definition eatl_LH_aab_15 (d : dims) (H : ints) (T : amps) (L : eatv) : mat5 := fun a b c j k =>
  eatl_LH_aab_14 d H T L a b c j k + sumn (nua d) (fun e => sumn (noa d) (fun m => (i_aa_voov H e j m b) * (eat_aab L a e c m k))).
(** ccpy/left/left_eaeom3.py, build_LH_3B, line 147 *)
Definition eatl_LH_aab_16 (d : dims) (H : ints) (T : amps) (L : eatv) : mat5 := fun a b c j k =>
  eatl_LH_aab_15 d H T L a b c j k + sumn (nub d) (fun e => sumn (nob d) (fun m => (i_ab_ovvo H j e b m) * (eat_abb L a e c m k))).
(** ccpy/left/left_eaeom3.py, build_LH_3B, line 148 *)
Definition eatl_LH_aab_17 (d : dims) (H : ints) (T : amps) (L : eatv) : mat5 := fun a b c j k =>
  eatl_LH_aab_16 d H T L a b c j k + 1 / 2 * (sumn (nua d) (fun e => sumn (noa d) (fun m => (i_ab_voov H e k m c) * (eat_aaa L a b e j m)))).
(** ccpy/left/left_eaeom3.py, build_LH_3B, line 149 *)
Definition eatl_LH_aab_18 (d : dims) (H : ints) (T : amps) (L : eatv) : mat5 := fun a b c j k =>
  eatl_LH_aab_17 d H T L a b c j k + 1 / 2 * (sumn (nub d) (fun e => sumn (nob d) (fun m => (i_bb_voov H e k m c) * (eat_aab L a b e j m)))).
(** ccpy/left/left_eaeom3.py, build_LH_3B, line 150 *)
Definition eatl_LH_aab_19 (d : dims) (H : ints) (T : amps) (L : eatv) : mat5 := fun a b c j k =>
  eatl_LH_aab_18 d H T L a b c j k - 1 / 2 * (sumn (nub d) (fun e => sumn (noa d) (fun m => (i_ab_ovov H j e m c) * (eat_aab L a b e m k)))).
(** ccpy/left/left_eaeom3.py, build_LH_3B, line 151 *)
Definition eatl_LH_aab_20 (d : dims) (H : ints) (T : amps) (L : eatv) : mat5 := fun a b c j k =>
  eatl_LH_aab_19 d H T L a b c j k - sumn (nua d) (fun e => sumn (nob d) (fun m => (i_ab_vovo H e k b m) * (eat_aab L a e c j m))).
(** ccpy/left/left_eaeom3.py, build_LH_3B, line 153 *)
Definition eatl_LH_aab_21 (d : dims) (H : ints) (T : amps) (L : eatv) : mat5 := fun a b c j k =>
  eatl_LH_aab_20 d H T L a b c j k - sumn (nob d) (fun m => (eatl_X_ab_voo d H T L a k m) * (i_ab_oovv H j m b c)).
(** ccpy/left/left_eaeom3.py, build_LH_3B, line 154 *)
Definition eatl_LH_aab_22 (d : dims) (H : ints) (T : amps) (L : eatv) : mat5 := fun a b c j k =>
  eatl_LH_aab_21 d H T L a b c j k - 1 / 2 * (sumn (noa d) (fun m => (eatl_X_ab_ovo d H T L m c k) * (i_aa_oovv H m j a b))).
(** ccpy/left/left_eaeom3.py, build_LH_3B, line 155 *)
Definition eatl_LH_aab_23 (d : dims) (H : ints) (T : amps) (L : eatv) : mat5 := fun a b c j k =>
  eatl_LH_aab_22 d H T L a b c j k - sumn (noa d) (fun m => (eatl_X_aa_ovo d H T L m b j) * (i_ab_oovv H m k a c)).
(** ccpy/left/left_eaeom3.py, build_LH_3B, line 156 *)
Definition eatl_LH_aab_24 (d : dims) (H : ints) (T : amps) (L : eatv) : mat5 := fun a b c j k =>
  eatl_LH_aab_23 d H T L a b c j k + 1 / 2 * (sumn (nua d) (fun e => (eatl_X_aa_vvv d H T L a e b) * (i_ab_oovv H j k e c))).
(** ccpy/left/left_eaeom3.py, build_LH_3B, line 157 *)
Definition eatl_LH_aab_25 (d : dims) (H : ints) (T : amps) (L : eatv) : mat5 := fun a b c j k =>
  eatl_LH_aab_24 d H T L a b c j k + sumn (nub d) (fun e => (eatl_X_ab_vvv d H T L a e c) * (i_ab_oovv H j k b e)).
(** ccpy/left/left_eaeom3.py, build_LH_3B, line 158 *)
Definition eatl_LH_aab_26 (d : dims) (H : ints) (T : amps) (L : eatv) : mat5 := fun a b c j k =>
  eatl_LH_aab_25 d H T L a b c j k - eatl_LH_aab_25 d H T L b a c j k.
(** ccpy/left/left_eaeom3.py, build_LH_3C, line 164 *)
Definition eatl_LH_abb (d : dims) (H : ints) (T : amps) (L : eatv) : mat5 := fun a b c j k =>
  1 / 4 * ((eat_a L a) * (i_bb_oovv H j k b c)).
(** ccpy/left/left_eaeom3.py, build_LH_3C, line 165 *)
Definition eatl_LH_abb_1 (d : dims) (H : ints) (T : amps) (L : eatv) : mat5 := fun a b c j k =>
  eatl_LH_abb d H T L a b c j k + (eat_ab L a b j) * (i_b_ov H k c).
(** ccpy/left/left_eaeom3.py, build_LH_3C, line 166 *)
Definition eatl_LH_abb_2 (d : dims) (H : ints) (T : amps) (L : eatv) : mat5 := fun a b c j k =>
  eatl_LH_abb_1 d H T L a b c j k - 1 / 2 * (sumn (nob d) (fun m => (eat_ab L a b m) * (i_bb_ooov H j k m c))).
(** ccpy/left/left_eaeom3.py, build_LH_3C, line 167 *)
Definition eatl_LH_abb_3 (d : dims) (H : ints) (T : amps) (L : eatv) : mat5 := fun a b c j k =>
  eatl_LH_abb_2 d H T L a b c j k + 1 / 2 * (sumn (nub d) (fun e => (eat_ab L a e j) * (i_bb_vovv H e k b c))).
(** ccpy/left/left_eaeom3.py, build_LH_3C, line 168 *)
Definition eatl_LH_abb_4 (d : dims) (H : ints) (T : amps) (L : eatv) : mat5 := fun a b c j k =>
  eatl_LH_abb_3 d H T L a b c j k + sumn (nua d) (fun e => (eat_ab L e c k) * (i_ab_vovv H e j a b)).
(** ccpy/left/left_eaeom3.py, build_LH_3C, line 170 *)
Definition eatl_LH_abb_5 (d : dims) (H : ints) (T : amps) (L : eatv) : mat5 := fun a b c j k =>
  eatl_LH_abb_4 d H T L a b c j k - 1 / 2 * (sumn (nob d) (fun m => (i_b_oo H j m) * (eat_abb L a b c m k))).
(** ccpy/left/left_eaeom3.py, build_LH_3C, line 171 *)
Definition eatl_LH_abb_6 (d : dims) (H : ints) (T : amps) (L : eatv) : mat5 := fun a b c j k =>
  eatl_LH_abb_5 d H T L a b c j k + 1 / 2 * (sumn (nub d) (fun e => (i_b_vv H e b) * (eat_abb L a e c j k))).
(** ccpy/left/left_eaeom3.py, build_LH_3C, line 172 *)
Definition eatl_LH_abb_7 (d : dims) (H : ints) (T : amps) (L : eatv) : mat5 := fun a b c j k =>
  eatl_LH_abb_6 d H T L a b c j k + 1 / 4 * (sumn (nua d) (fun e => (i_a_vv H e a) * (eat_abb L e b c j k))).
(** ccpy/left/left_eaeom3.py, build_LH_3C, line 173 *)
Definition eatl_LH_abb_8 (d : dims) (H : ints) (T : amps) (L : eatv) : mat5 := fun a b c j k =>
  eatl_LH_abb_7 d H T L a b c j k + 1 / 8 * (sumn (nob d) (fun m => sumn (nob d) (fun n => (i_bb_oooo H j k m n) * (eat_abb L a b c m n)))).
(** ccpy/left/left_eaeom3.py, build_LH_3C, line 174 *)
Definition eatl_LH_abb_9 (d : dims) (H : ints) (T : amps) (L : eatv) : mat5 := fun a b c j k =>
  eatl_LH_abb_8 d H T L a b c j k + 1 / 2 * (sumn (nua d) (fun e => sumn (nub d) (fun f => (i_ab_vvvv H e f a b) * (eat_abb L e f c j k)))).
(** ccpy/left/left_eaeom3.py, build_LH_3C, line 175 *)
Definition eatl_LH_abb_10 (d : dims) (H : ints) (T : amps) (L : eatv) : mat5 := fun a b c j k =>
  eatl_LH_abb_9 d H T L a b c j k + 1 / 8 * (sumn (nub d) (fun e => sumn (nub d) (fun f => (i_bb_vvvv H e f b c) * (eat_abb L a e f j k)))).
(** ccpy/left/left_eaeom3.py, build_LH_3C, line 176 *)
Definition eatl_LH_abb_11 (d : dims) (H : ints) (T : amps) (L : eatv) : mat5 := fun a b c j k =>
  eatl_LH_abb_10 d H T L a b c j k + sumn (nua d) (fun e => sumn (noa d) (fun m => (i_ab_voov H e j m b) * (eat_aab L a e c m k))).
(** ccpy/left/left_eaeom3.py, build_LH_3C, line 177 *)
Definition eatl_LH_abb_12 (d : dims) (H : ints) (T : amps) (L : eatv) : mat5 := fun a b c j k =>
  eatl_LH_abb_11 d H T L a b c j k + sumn (nub d) (fun e => sumn (nob d) (fun m => (i_bb_voov H e j m b) * (eat_abb L a e c m k))).
(** ccpy/left/left_eaeom3.py, build_LH_3C, line 178 *)
Definition eatl_LH_abb_13 (d : dims) (H : ints) (T : amps) (L : eatv) : mat5 := fun a b c j k =>
  eatl_LH_abb_12 d H T L a b c j k - 1 / 2 * (sumn (nua d) (fun e => sumn (nob d) (fun m => (i_ab_vovo H e j a m) * (eat_abb L e b c m k)))).
(** ccpy/left/left_eaeom3.py, build_LH_3C, line 180 *)
Definition eatl_LH_abb_14 (d : dims) (H : ints) (T : amps) (L : eatv) : mat5 := fun a b c j k =>
  eatl_LH_abb_13 d H T L a b c j k - sumn (noa d) (fun m => (eatl_X_ab_ovo d H T L m c k) * (i_ab_oovv H m j a b)).
(** ccpy/left/left_eaeom3.py, build_LH_3C, line 181 *)
Definition eatl_LH_abb_15 (d : dims) (H : ints) (T : amps) (L : eatv) : mat5 := fun a b c j k =>
  eatl_LH_abb_14 d H T L a b c j k - 1 / 2 * (sumn (nob d) (fun m => (eatl_X_ab_voo d H T L a j m) * (i_bb_oovv H m k b c))).
(** ccpy/left/left_eaeom3.py, build_LH_3C, line 182 *)
Definition eatl_LH_abb_16 (d : dims) (H : ints) (T : amps) (L : eatv) : mat5 := fun a b c j k =>
  eatl_LH_abb_15 d H T L a b c j k + 1 / 2 * (sumn (nub d) (fun e => (eatl_X_ab_vvv d H T L a e b) * (i_bb_oovv H j k e c))).
(** ccpy/left/left_eaeom3.py, build_LH_3C, line 183 *)
Definition eatl_LH_abb_17 (d : dims) (H : ints) (T : amps) (L : eatv) : mat5 := fun a b c j k =>
  eatl_LH_abb_16 d H T L a b c j k - eatl_LH_abb_16 d H T L a c b j k.
(** ccpy/left/left_eaeom3.py, build_LH_3C, line 184 *)
Definition eatl_LH_abb_18 (d : dims) (H : ints) (T : amps) (L : eatv) : mat5 := fun a b c j k =>
  eatl_LH_abb_17 d H T L a b c j k - eatl_LH_abb_17 d H T L a b c k j.
(** ccpy/left/left_eaeom3.py (LH_fun, lines 23-36): the vector returned *)
Definition eat_LH (d : dims) (H : ints) (T : amps) (L : eatv) : eatv := mkEat (eatl_LH_a_7 d H T L) (eatl_LH_aa_17 d H T L) (eatl_LH_ab_23 d H T L) (eatl_LH_aaa_14 d H T L) (eatl_LH_aab_26 d H T L) (eatl_LH_abb_18 d H T L).
