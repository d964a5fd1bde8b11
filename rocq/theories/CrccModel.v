(** Generated by tools/gen_crcc.py from the source text (symbolic execution of the numpy statements; exact reals).
    Models ccpy/moments/crcc23.py (calc_crcc23), ccpy/hbar/diagonal.py (aaa_H3_aaa_diagonal .. bbb_H3_bbb_diagonal) and
    ccpy/lib/fortran/crcc_loops.f90 (crcc23A_opt .. crcc23D_opt).  H0: the Fock operator, H: the similarity-transformed Hamiltonian, T and L: cluster and left amplitudes.
    A dgemm call is the sum over the contracted axis it computes; a reorder_stripe call is the transposition it names (proved in ReorderProps.v). *)
From Coq Require Import Reals Arith List.
From Verif Require Import RSum IntegralsModel TensorObjs.
Import ListNotations.
Open Scope R_scope.
(** ccpy/moments/crcc23.py, calc_crcc23, lines 22-37: the diagonal of the vvvv blocks *)
Definition crcc_h_aa_vvvv (H : ints) : mat2 := fun a b => if Nat.leb a b then i_aa_vvvv H a b a b else i_aa_vvvv H b a b a.
Definition crcc_h_ab_vvvv (H : ints) : mat2 := fun a b => i_ab_vvvv H a b a b.
Definition crcc_h_bb_vvvv (H : ints) : mat2 := fun a b => if Nat.leb a b then i_bb_vvvv H a b a b else i_bb_vvvv H b a b a.
(** ccpy/hbar/diagonal.py, line 30 *)
Definition crcc_d3aaa_v (d : dims) (H0 H : ints) (T L : amps) : mat3 := fun a i b =>
  (- (sumn (noa d) (fun m => (i_aa_oovv H i m a b) * (x_aa T a b i m)))).
(** ccpy/hbar/diagonal.py, line 31 *)
Definition crcc_d3aaa_o (d : dims) (H0 H : ints) (T L : amps) : mat3 := fun a i j =>
  sumn (nua d) (fun e => (i_aa_oovv H i j a e) * (x_aa T a e i j)).
(** ccpy/hbar/diagonal.py, line 51 *)
Definition crcc_d3aab_v (d : dims) (H0 H : ints) (T L : amps) : mat3 := fun a i c =>
  (- (sumn (nob d) (fun m => (i_ab_oovv H i m a c) * (x_ab T a c i m)))).
(** ccpy/hbar/diagonal.py, line 52 *)
Definition crcc_d3aab_o (d : dims) (H0 H : ints) (T L : amps) : mat3 := fun a i k =>
  sumn (nub d) (fun e => (i_ab_oovv H i k a e) * (x_ab T a e i k)).
(** ccpy/hbar/diagonal.py, line 72 *)
Definition crcc_d3abb_v (d : dims) (H0 H : ints) (T L : amps) : mat3 := fun a k c =>
  (- (sumn (noa d) (fun m => (i_ab_oovv H m k a c) * (x_ab T a c m k)))).
(** ccpy/hbar/diagonal.py, line 73 *)
Definition crcc_d3abb_o (d : dims) (H0 H : ints) (T L : amps) : mat3 := fun c i k =>
  sumn (nua d) (fun e => (i_ab_oovv H i k e c) * (x_ab T e c i k)).
(** ccpy/hbar/diagonal.py, line 93 *)
Definition crcc_d3bbb_v (d : dims) (H0 H : ints) (T L : amps) : mat3 := fun a i b =>
  (- (sumn (nob d) (fun m => (i_bb_oovv H i m a b) * (x_bb T a b i m)))).
(** ccpy/hbar/diagonal.py, line 94 *)
Definition crcc_d3bbb_o (d : dims) (H0 H : ints) (T L : amps) : mat3 := fun a i j =>
  sumn (nub d) (fun e => (i_bb_oovv H i j a e) * (x_bb T a e i j)).
(** ccpy/moments/crcc23.py, calc_crcc23, line 40 *)
Definition crcc_I2A_vvov (d : dims) (H0 H : ints) (T L : amps) : mat4 := fun a b i e =>
  i_aa_vvov H a b i e + sumn (noa d) (fun m => (i_a_ov H m e) * (x_aa T a b i m)).
(** ccpy/lib/fortran/crcc_loops.f90, crcc23A_opt, lines 64-70 (array X3A at (a,b,c) for the loop indices i, j, k) *)
Definition crcc_X3aaa (d : dims) (H0 H : ints) (T L : amps) : mat6 := fun a b c i j k =>
  (-1) / 2 * (sumn (noa d) (fun m => (i_aa_vooo H a m i j) * (x_aa T b c m k))) + 1 / 2 * (sumn (noa d) (fun m => (i_aa_vooo H a m k j) * (x_aa T b c m i))) + 1 / 2 * (sumn (noa d) (fun m => (i_aa_vooo H a m i k) * (x_aa T b c m j))) + 1 / 2 * (sumn (nua d) (fun e => (crcc_I2A_vvov d H0 H T L a b i e) * (x_aa T e c j k))) + (-1) / 2 * (sumn (nua d) (fun e => (crcc_I2A_vvov d H0 H T L a b j e) * (x_aa T e c i k))) + (-1) / 2 * (sumn (nua d) (fun e => (crcc_I2A_vvov d H0 H T L a b k e) * (x_aa T e c j i))).
(** ccpy/lib/fortran/crcc_loops.f90, crcc23A_opt, lines 73-79 (array L3A at (a,b,c) for the loop indices i, j, k) *)
Definition crcc_L3aaa (d : dims) (H0 H : ints) (T L : amps) : mat6 := fun a b c i j k =>
  1 / 2 * (sumn (nua d) (fun e => (i_aa_vovv H e i b a) * (x_aa L e c j k))) + (-1) / 2 * (sumn (nua d) (fun e => (i_aa_vovv H e j b a) * (x_aa L e c i k))) + (-1) / 2 * (sumn (nua d) (fun e => (i_aa_vovv H e k b a) * (x_aa L e c j i))) + (-1) / 2 * (sumn (noa d) (fun m => (i_aa_ooov H j i m a) * (x_aa L b c m k))) + 1 / 2 * (sumn (noa d) (fun m => (i_aa_ooov H k i m a) * (x_aa L b c m j))) + 1 / 2 * (sumn (noa d) (fun m => (i_aa_ooov H j k m a) * (x_aa L b c m i))).
(** ccpy/lib/fortran/crcc_loops.f90, crcc23A_opt, lines 85-86 *)
Definition crcc_M_aaa (d : dims) (H0 H : ints) (T L : amps) : mat6 := fun a b c i j k =>
  crcc_X3aaa d H0 H T L a b c i j k + crcc_X3aaa d H0 H T L b c a i j k + crcc_X3aaa d H0 H T L c a b i j k - crcc_X3aaa d H0 H T L a c b i j k - crcc_X3aaa d H0 H T L b a c i j k - crcc_X3aaa d H0 H T L c b a i j k.
(** ccpy/lib/fortran/crcc_loops.f90, crcc23A_opt, lines 88-89 *)
Definition crcc_L2_aaa (d : dims) (H0 H : ints) (T L : amps) : mat6 := fun a b c i j k =>
  crcc_L3aaa d H0 H T L a b c i j k + crcc_L3aaa d H0 H T L b c a i j k + crcc_L3aaa d H0 H T L c a b i j k - crcc_L3aaa d H0 H T L a c b i j k - crcc_L3aaa d H0 H T L b a c i j k - crcc_L3aaa d H0 H T L c b a i j k.
(** ccpy/lib/fortran/crcc_loops.f90, crcc23A_opt, lines 91-109 *)
Definition crcc_L1_aaa (d : dims) (H0 H : ints) (T L : amps) : mat6 := fun a b c i j k =>
  (x_a L c k) * (i_aa_oovv H i j a b) - (x_a L a k) * (i_aa_oovv H i j c b) - (x_a L b k) * (i_aa_oovv H i j a c) - (x_a L c i) * (i_aa_oovv H k j a b) - (x_a L c j) * (i_aa_oovv H i k a b) + (x_a L a i) * (i_aa_oovv H k j c b) + (x_a L b i) * (i_aa_oovv H k j a c) + (x_a L a j) * (i_aa_oovv H i k c b) + (x_a L b j) * (i_aa_oovv H i k a c) + (i_a_ov H k c) * (x_aa L a b i j) - (i_a_ov H k a) * (x_aa L c b i j) - (i_a_ov H k b) * (x_aa L a c i j) - (i_a_ov H i c) * (x_aa L a b k j) - (i_a_ov H j c) * (x_aa L a b i k) + (i_a_ov H i a) * (x_aa L c b k j) + (i_a_ov H i b) * (x_aa L a c k j) + (i_a_ov H j a) * (x_aa L c b i k) + (i_a_ov H j b) * (x_aa L a c i k).
(** ccpy/lib/fortran/crcc_loops.f90, crcc23A_opt, lines 111-111 *)
Definition crcc_L_aaa (d : dims) (H0 H : ints) (T L : amps) : mat6 := fun a b c i j k =>
  crcc_L2_aaa d H0 H T L a b c i j k + crcc_L1_aaa d H0 H T L a b c i j k.
(** ccpy/lib/fortran/crcc_loops.f90, crcc23A_opt, lines 113-114 *)
Definition crcc_DA_aaa (d : dims) (H0 H : ints) (T L : amps) : mat6 := fun a b c i j k =>
  i_a_oo H0 i i + i_a_oo H0 j j + i_a_oo H0 k k - i_a_vv H0 a a - i_a_vv H0 b b - i_a_vv H0 c c.
(** ccpy/lib/fortran/crcc_loops.f90, crcc23A_opt, lines 118-119 *)
Definition crcc_DB_aaa (d : dims) (H0 H : ints) (T L : amps) : mat6 := fun a b c i j k =>
  i_a_oo H i i + i_a_oo H j j + i_a_oo H k k - i_a_vv H a a - i_a_vv H b b - i_a_vv H c c.
(** ccpy/lib/fortran/crcc_loops.f90, crcc23A_opt, lines 123-128 *)
Definition crcc_DC_aaa (d : dims) (H0 H : ints) (T L : amps) : mat6 := fun a b c i j k =>
  crcc_DB_aaa d H0 H T L a b c i j k + ((- (i_aa_voov H a i i a)) - i_aa_voov H b i i b - i_aa_voov H c i i c - i_aa_voov H a j j a - i_aa_voov H b j j b - i_aa_voov H c j j c - i_aa_voov H a k k a - i_aa_voov H b k k b - i_aa_voov H c k k c - i_aa_oooo H j i j i - i_aa_oooo H k i k i - i_aa_oooo H k j k j - crcc_h_aa_vvvv H b a - crcc_h_aa_vvvv H c a - crcc_h_aa_vvvv H c b).
(** ccpy/lib/fortran/crcc_loops.f90, crcc23A_opt, lines 133-139 *)
Definition crcc_DD_aaa (d : dims) (H0 H : ints) (T L : amps) : mat6 := fun a b c i j k =>
  crcc_DC_aaa d H0 H T L a b c i j k + (crcc_d3aaa_o d H0 H T L a i j + crcc_d3aaa_o d H0 H T L a i k + crcc_d3aaa_o d H0 H T L a j k + crcc_d3aaa_o d H0 H T L b i j + crcc_d3aaa_o d H0 H T L b i k + crcc_d3aaa_o d H0 H T L b j k + crcc_d3aaa_o d H0 H T L c i j + crcc_d3aaa_o d H0 H T L c i k + crcc_d3aaa_o d H0 H T L c j k - crcc_d3aaa_v d H0 H T L a i b - crcc_d3aaa_v d H0 H T L a i c - crcc_d3aaa_v d H0 H T L b i c - crcc_d3aaa_v d H0 H T L a j b - crcc_d3aaa_v d H0 H T L a j c - crcc_d3aaa_v d H0 H T L b j c - crcc_d3aaa_v d H0 H T L a k b - crcc_d3aaa_v d H0 H T L a k c - crcc_d3aaa_v d H0 H T L b k c).
(** ccpy/moments/crcc23.py, calc_crcc23, line 54 *)
Definition crcc_I2B_ovoo (d : dims) (H0 H : ints) (T L : amps) : mat4 := fun m c j k =>
  i_ab_ovoo H m c j k - sumn (nua d) (fun e => (i_a_ov H m e) * (x_ab T e c j k)).
(** ccpy/moments/crcc23.py, calc_crcc23, line 55 *)
Definition crcc_I2B_vooo (d : dims) (H0 H : ints) (T L : amps) : mat4 := fun a m i k =>
  i_ab_vooo H a m i k - sumn (nub d) (fun e => (i_b_ov H m e) * (x_ab T a e i k)).
(** ccpy/moments/crcc23.py, calc_crcc23, line 56 *)
Definition crcc_I2A_vooo (d : dims) (H0 H : ints) (T L : amps) : mat4 := fun a m i j =>
  i_aa_vooo H a m i j - sumn (nua d) (fun e => (i_a_ov H m e) * (x_aa T a e i j)).
(** ccpy/lib/fortran/crcc_loops.f90, crcc23B_opt, lines 256-270 (array X3B at (a,b,c) for the loop indices i, j, k) *)
Definition crcc_X3aab (d : dims) (H0 H : ints) (T L : amps) : mat6 := fun a b c i j k =>
  1 / 1 * (sumn (nua d) (fun e => (x_aa T a e i j) * (i_ab_vvvo H b c e k))) + 1 / 2 * (sumn (noa d) (fun m => (x_aa T a b m i) * (crcc_I2B_ovoo d H0 H T L m c j k))) + (-1) / 2 * (sumn (noa d) (fun m => (x_aa T a b m j) * (crcc_I2B_ovoo d H0 H T L m c i k))) + 1 / 1 * (sumn (nub d) (fun e => (x_ab T a e i k) * (i_ab_vvov H b c j e))) + (-1) / 1 * (sumn (nub d) (fun e => (x_ab T a e j k) * (i_ab_vvov H b c i e))) + (-1) / 1 * (sumn (nob d) (fun m => (crcc_I2B_vooo d H0 H T L a m i k) * (x_ab T b c j m))) + 1 / 1 * (sumn (nob d) (fun m => (crcc_I2B_vooo d H0 H T L a m j k) * (x_ab T b c i m))) + 1 / 2 * (sumn (nua d) (fun e => (i_aa_vvov H a b i e) * (x_ab T e c j k))) + (-1) / 2 * (sumn (nua d) (fun e => (i_aa_vvov H a b j e) * (x_ab T e c i k))) + (-1) / 1 * (sumn (noa d) (fun m => (crcc_I2A_vooo d H0 H T L a m i j) * (x_ab T b c m k))).
(** ccpy/lib/fortran/crcc_loops.f90, crcc23B_opt, lines 273-287 (array L3B at (a,b,c) for the loop indices i, j, k) *)
Definition crcc_L3aab (d : dims) (H0 H : ints) (T L : amps) : mat6 := fun a b c i j k =>
  1 / 1 * (sumn (nua d) (fun e => (x_aa L a e i j) * (i_ab_vovv H e k b c))) + 1 / 2 * (sumn (nua d) (fun e => (i_aa_vovv H e i b a) * (x_ab L e c j k))) + (-1) / 2 * (sumn (nua d) (fun e => (i_aa_vovv H e j b a) * (x_ab L e c i k))) + 1 / 1 * (sumn (nub d) (fun e => (x_ab L a e i k) * (i_ab_ovvv H j e b c))) + (-1) / 1 * (sumn (nub d) (fun e => (x_ab L a e j k) * (i_ab_ovvv H i e b c))) + 1 / 2 * (sumn (noa d) (fun m => (x_aa L a b m i) * (i_ab_ooov H j k m c))) + (-1) / 2 * (sumn (noa d) (fun m => (x_aa L a b m j) * (i_ab_ooov H i k m c))) + (-1) / 1 * (sumn (noa d) (fun m => (i_aa_ooov H j i m a) * (x_ab L b c m k))) + (-1) / 1 * (sumn (nob d) (fun m => (i_ab_oovo H i k a m) * (x_ab L b c j m))) + 1 / 1 * (sumn (nob d) (fun m => (i_ab_oovo H j k a m) * (x_ab L b c i m))).
(** ccpy/lib/fortran/crcc_loops.f90, crcc23B_opt, lines 293-293 *)
Definition crcc_M_aab (d : dims) (H0 H : ints) (T L : amps) : mat6 := fun a b c i j k =>
  crcc_X3aab d H0 H T L a b c i j k - crcc_X3aab d H0 H T L b a c i j k.
(** ccpy/lib/fortran/crcc_loops.f90, crcc23B_opt, lines 294-294 *)
Definition crcc_L2_aab (d : dims) (H0 H : ints) (T L : amps) : mat6 := fun a b c i j k =>
  crcc_L3aab d H0 H T L a b c i j k - crcc_L3aab d H0 H T L b a c i j k.
(** ccpy/lib/fortran/crcc_loops.f90, crcc23B_opt, lines 295-304 *)
Definition crcc_L1_aab (d : dims) (H0 H : ints) (T L : amps) : mat6 := fun a b c i j k =>
  (x_a L a i) * (i_ab_oovv H j k b c) - (x_a L a j) * (i_ab_oovv H i k b c) - (x_a L b i) * (i_ab_oovv H j k a c) + (x_a L b j) * (i_ab_oovv H i k a c) + (x_b L c k) * (i_aa_oovv H i j a b) + (x_ab L b c j k) * (i_a_ov H i a) - (x_ab L b c i k) * (i_a_ov H j a) - (x_ab L a c j k) * (i_a_ov H i b) + (x_ab L a c i k) * (i_a_ov H j b) + (x_aa L a b i j) * (i_b_ov H k c).
(** ccpy/lib/fortran/crcc_loops.f90, crcc23B_opt, lines 306-306 *)
Definition crcc_L_aab (d : dims) (H0 H : ints) (T L : amps) : mat6 := fun a b c i j k =>
  crcc_L2_aab d H0 H T L a b c i j k + crcc_L1_aab d H0 H T L a b c i j k.
(** ccpy/lib/fortran/crcc_loops.f90, crcc23B_opt, lines 308-309 *)
Definition crcc_DA_aab (d : dims) (H0 H : ints) (T L : amps) : mat6 := fun a b c i j k =>
  i_a_oo H0 i i + i_a_oo H0 j j + i_b_oo H0 k k - i_a_vv H0 a a - i_a_vv H0 b b - i_b_vv H0 c c.
(** ccpy/lib/fortran/crcc_loops.f90, crcc23B_opt, lines 313-314 *)
Definition crcc_DB_aab (d : dims) (H0 H : ints) (T L : amps) : mat6 := fun a b c i j k =>
  i_a_oo H i i + i_a_oo H j j + i_b_oo H k k - i_a_vv H a a - i_a_vv H b b - i_b_vv H c c.
(** ccpy/lib/fortran/crcc_loops.f90, crcc23B_opt, lines 318-323 *)
Definition crcc_DC_aab (d : dims) (H0 H : ints) (T L : amps) : mat6 := fun a b c i j k =>
  crcc_DB_aab d H0 H T L a b c i j k + ((- (i_aa_voov H a i i a)) - i_aa_voov H b i i b + i_ab_ovov H i c i c - i_aa_voov H a j j a - i_aa_voov H b j j b + i_ab_ovov H j c j c + i_ab_vovo H a k a k + i_ab_vovo H b k b k - i_bb_voov H c k k c - i_aa_oooo H j i j i - i_ab_oooo H i k i k - i_ab_oooo H j k j k - crcc_h_aa_vvvv H b a - crcc_h_ab_vvvv H a c - crcc_h_ab_vvvv H b c).
(** ccpy/lib/fortran/crcc_loops.f90, crcc23B_opt, lines 328-334 *)
Definition crcc_DD_aab (d : dims) (H0 H : ints) (T L : amps) : mat6 := fun a b c i j k =>
  crcc_DC_aab d H0 H T L a b c i j k + (crcc_d3aaa_o d H0 H T L a i j + crcc_d3aab_o d H0 H T L a i k + crcc_d3aab_o d H0 H T L a j k + crcc_d3aaa_o d H0 H T L b i j + crcc_d3aab_o d H0 H T L b i k + crcc_d3aab_o d H0 H T L b j k + crcc_d3abb_o d H0 H T L c i k + crcc_d3abb_o d H0 H T L c j k - crcc_d3aaa_v d H0 H T L a i b - crcc_d3aab_v d H0 H T L a i c - crcc_d3aab_v d H0 H T L b i c - crcc_d3aaa_v d H0 H T L a j b - crcc_d3aab_v d H0 H T L a j c - crcc_d3aab_v d H0 H T L b j c - crcc_d3abb_v d H0 H T L a k c - crcc_d3abb_v d H0 H T L b k c).
(** ccpy/moments/crcc23.py, calc_crcc23, line 79 *)
Definition crcc_I2B_vooo_1 (d : dims) (H0 H : ints) (T L : amps) : mat4 := fun a m i j =>
  i_ab_vooo H a m i j - sumn (nub d) (fun e => (i_b_ov H m e) * (x_ab T a e i j)).
(** ccpy/moments/crcc23.py, calc_crcc23, line 80 *)
Definition crcc_I2C_vooo (d : dims) (H0 H : ints) (T L : amps) : mat4 := fun c m k j =>
  i_bb_vooo H c m k j - sumn (nub d) (fun e => (i_b_ov H m e) * (x_bb T c e k j)).
(** ccpy/moments/crcc23.py, calc_crcc23, line 81 *)
Definition crcc_I2B_ovoo_1 (d : dims) (H0 H : ints) (T L : amps) : mat4 := fun m b i j =>
  i_ab_ovoo H m b i j - sumn (nua d) (fun e => (i_a_ov H m e) * (x_ab T e b i j)).
(** ccpy/lib/fortran/crcc_loops.f90, crcc23C_opt, lines 442-456 (array X3C at (a,b,c) for the loop indices i, j, k) *)
Definition crcc_X3abb (d : dims) (H0 H : ints) (T L : amps) : mat6 := fun a b c i j k =>
  1 / 1 * (sumn (nub d) (fun e => (i_ab_vvov H a b i e) * (x_bb T e c j k))) + (-1) / 2 * (sumn (nob d) (fun m => (crcc_I2B_vooo_1 d H0 H T L a m i j) * (x_bb T b c m k))) + 1 / 2 * (sumn (nob d) (fun m => (crcc_I2B_vooo_1 d H0 H T L a m i k) * (x_bb T b c m j))) + 1 / 2 * (sumn (nub d) (fun e => (x_ab T a e i j) * (i_bb_vvov H c b k e))) + (-1) / 2 * (sumn (nub d) (fun e => (x_ab T a e i k) * (i_bb_vvov H c b j e))) + (-1) / 1 * (sumn (nob d) (fun m => (x_ab T a b i m) * (crcc_I2C_vooo d H0 H T L c m k j))) + 1 / 1 * (sumn (nua d) (fun e => (i_ab_vvvo H a b e j) * (x_ab T e c i k))) + (-1) / 1 * (sumn (nua d) (fun e => (i_ab_vvvo H a b e k) * (x_ab T e c i j))) + (-1) / 1 * (sumn (noa d) (fun m => (x_ab T a b m j) * (crcc_I2B_ovoo_1 d H0 H T L m c i k))) + 1 / 1 * (sumn (noa d) (fun m => (x_ab T a b m k) * (crcc_I2B_ovoo_1 d H0 H T L m c i j))).
(** ccpy/lib/fortran/crcc_loops.f90, crcc23C_opt, lines 460-474 (array L3C at (a,b,c) for the loop indices i, j, k) *)
Definition crcc_L3abb (d : dims) (H0 H : ints) (T L : amps) : mat6 := fun a b c i j k =>
  1 / 1 * (sumn (nub d) (fun e => (i_ab_ovvv H i e a b) * (x_bb L e c j k))) + 1 / 2 * (sumn (nub d) (fun e => (x_ab L a e i j) * (i_bb_vovv H e k b c))) + (-1) / 2 * (sumn (nub d) (fun e => (x_ab L a e i k) * (i_bb_vovv H e j b c))) + 1 / 1 * (sumn (nua d) (fun e => (i_ab_vovv H e j a b) * (x_ab L e c i k))) + (-1) / 1 * (sumn (nua d) (fun e => (i_ab_vovv H e k a b) * (x_ab L e c i j))) + (-1) / 2 * (sumn (nob d) (fun m => (i_ab_oovo H i j a m) * (x_bb L b c m k))) + 1 / 2 * (sumn (nob d) (fun m => (i_ab_oovo H i k a m) * (x_bb L b c m j))) + (-1) / 1 * (sumn (nob d) (fun m => (x_ab L a b i m) * (i_bb_ooov H j k m c))) + (-1) / 1 * (sumn (noa d) (fun m => (x_ab L a b m j) * (i_ab_ooov H i k m c))) + 1 / 1 * (sumn (noa d) (fun m => (x_ab L a b m k) * (i_ab_ooov H i j m c))).
(** ccpy/lib/fortran/crcc_loops.f90, crcc23C_opt, lines 481-481 *)
Definition crcc_M_abb (d : dims) (H0 H : ints) (T L : amps) : mat6 := fun a b c i j k =>
  crcc_X3abb d H0 H T L a b c i j k - crcc_X3abb d H0 H T L a c b i j k.
(** ccpy/lib/fortran/crcc_loops.f90, crcc23C_opt, lines 482-482 *)
Definition crcc_L2_abb (d : dims) (H0 H : ints) (T L : amps) : mat6 := fun a b c i j k =>
  crcc_L3abb d H0 H T L a b c i j k - crcc_L3abb d H0 H T L a c b i j k.
(** ccpy/lib/fortran/crcc_loops.f90, crcc23C_opt, lines 483-492 *)
Definition crcc_L1_abb (d : dims) (H0 H : ints) (T L : amps) : mat6 := fun a b c i j k =>
  (x_b L c k) * (i_ab_oovv H i j a b) - (x_b L b k) * (i_ab_oovv H i j a c) - (x_b L c j) * (i_ab_oovv H i k a b) + (x_b L b j) * (i_ab_oovv H i k a c) + (x_a L a i) * (i_bb_oovv H j k b c) + (i_b_ov H k c) * (x_ab L a b i j) - (i_b_ov H k b) * (x_ab L a c i j) - (i_b_ov H j c) * (x_ab L a b i k) + (i_b_ov H j b) * (x_ab L a c i k) + (i_a_ov H i a) * (x_bb L b c j k).
(** ccpy/lib/fortran/crcc_loops.f90, crcc23C_opt, lines 494-494 *)
Definition crcc_L_abb (d : dims) (H0 H : ints) (T L : amps) : mat6 := fun a b c i j k =>
  crcc_L2_abb d H0 H T L a b c i j k + crcc_L1_abb d H0 H T L a b c i j k.
(** ccpy/lib/fortran/crcc_loops.f90, crcc23C_opt, lines 496-497 *)
Definition crcc_DA_abb (d : dims) (H0 H : ints) (T L : amps) : mat6 := fun a b c i j k =>
  i_a_oo H0 i i + i_b_oo H0 j j + i_b_oo H0 k k - i_a_vv H0 a a - i_b_vv H0 b b - i_b_vv H0 c c.
(** ccpy/lib/fortran/crcc_loops.f90, crcc23C_opt, lines 501-502 *)
Definition crcc_DB_abb (d : dims) (H0 H : ints) (T L : amps) : mat6 := fun a b c i j k =>
  i_a_oo H i i + i_b_oo H j j + i_b_oo H k k - i_a_vv H a a - i_b_vv H b b - i_b_vv H c c.
(** ccpy/lib/fortran/crcc_loops.f90, crcc23C_opt, lines 506-511 *)
Definition crcc_DC_abb (d : dims) (H0 H : ints) (T L : amps) : mat6 := fun a b c i j k =>
  crcc_DB_abb d H0 H T L a b c i j k + ((- (i_aa_voov H a i i a)) + i_ab_ovov H i b i b + i_ab_ovov H i c i c + i_ab_vovo H a j a j - i_bb_voov H b j j b - i_bb_voov H c j j c + i_ab_vovo H a k a k - i_bb_voov H b k k b - i_bb_voov H c k k c - i_ab_oooo H i j i j - i_ab_oooo H i k i k - i_bb_oooo H k j k j - crcc_h_ab_vvvv H a b - crcc_h_ab_vvvv H a c - crcc_h_bb_vvvv H c b).
(** ccpy/lib/fortran/crcc_loops.f90, crcc23C_opt, lines 515-521 *)
Definition crcc_DD_abb (d : dims) (H0 H : ints) (T L : amps) : mat6 := fun a b c i j k =>
  crcc_DC_abb d H0 H T L a b c i j k + (crcc_d3aab_o d H0 H T L a i j + crcc_d3aab_o d H0 H T L a i k + crcc_d3abb_o d H0 H T L b i j + crcc_d3abb_o d H0 H T L b i k + crcc_d3bbb_o d H0 H T L b j k + crcc_d3abb_o d H0 H T L c i j + crcc_d3abb_o d H0 H T L c i k + crcc_d3bbb_o d H0 H T L c j k - crcc_d3aab_v d H0 H T L a i b - crcc_d3aab_v d H0 H T L a i c - crcc_d3abb_v d H0 H T L a j b - crcc_d3abb_v d H0 H T L a j c - crcc_d3bbb_v d H0 H T L b j c - crcc_d3abb_v d H0 H T L a k b - crcc_d3abb_v d H0 H T L a k c - crcc_d3bbb_v d H0 H T L b k c).
(** ccpy/moments/crcc23.py, calc_crcc23, line 99 *)
Definition crcc_I2C_vvov (d : dims) (H0 H : ints) (T L : amps) : mat4 := fun a b i e =>
  i_bb_vvov H a b i e + sumn (nob d) (fun m => (i_b_ov H m e) * (x_bb T a b i m)).
(** ccpy/lib/fortran/crcc_loops.f90, crcc23D_opt, lines 578-584 (array X3D at (a,b,c) for the loop indices i, j, k) *)
Definition crcc_X3bbb (d : dims) (H0 H : ints) (T L : amps) : mat6 := fun a b c i j k =>
  (-1) / 2 * (sumn (nob d) (fun m => (i_bb_vooo H a m i j) * (x_bb T b c m k))) + 1 / 2 * (sumn (nob d) (fun m => (i_bb_vooo H a m k j) * (x_bb T b c m i))) + 1 / 2 * (sumn (nob d) (fun m => (i_bb_vooo H a m i k) * (x_bb T b c m j))) + 1 / 2 * (sumn (nub d) (fun e => (crcc_I2C_vvov d H0 H T L a b i e) * (x_bb T e c j k))) + (-1) / 2 * (sumn (nub d) (fun e => (crcc_I2C_vvov d H0 H T L a b j e) * (x_bb T e c i k))) + (-1) / 2 * (sumn (nub d) (fun e => (crcc_I2C_vvov d H0 H T L a b k e) * (x_bb T e c j i))).
(** ccpy/lib/fortran/crcc_loops.f90, crcc23D_opt, lines 587-593 (array L3D at (a,b,c) for the loop indices i, j, k) *)
Definition crcc_L3bbb (d : dims) (H0 H : ints) (T L : amps) : mat6 := fun a b c i j k =>
  1 / 2 * (sumn (nub d) (fun e => (i_bb_vovv H e i b a) * (x_bb L e c j k))) + (-1) / 2 * (sumn (nub d) (fun e => (i_bb_vovv H e j b a) * (x_bb L e c i k))) + (-1) / 2 * (sumn (nub d) (fun e => (i_bb_vovv H e k b a) * (x_bb L e c j i))) + (-1) / 2 * (sumn (nob d) (fun m => (i_bb_ooov H j i m a) * (x_bb L b c m k))) + 1 / 2 * (sumn (nob d) (fun m => (i_bb_ooov H k i m a) * (x_bb L b c m j))) + 1 / 2 * (sumn (nob d) (fun m => (i_bb_ooov H j k m a) * (x_bb L b c m i))).
(** ccpy/lib/fortran/crcc_loops.f90, crcc23D_opt, lines 599-600 *)
Definition crcc_M_bbb (d : dims) (H0 H : ints) (T L : amps) : mat6 := fun a b c i j k =>
  crcc_X3bbb d H0 H T L a b c i j k + crcc_X3bbb d H0 H T L b c a i j k + crcc_X3bbb d H0 H T L c a b i j k - crcc_X3bbb d H0 H T L a c b i j k - crcc_X3bbb d H0 H T L b a c i j k - crcc_X3bbb d H0 H T L c b a i j k.
(** ccpy/lib/fortran/crcc_loops.f90, crcc23D_opt, lines 602-603 *)
Definition crcc_L2_bbb (d : dims) (H0 H : ints) (T L : amps) : mat6 := fun a b c i j k =>
  crcc_L3bbb d H0 H T L a b c i j k + crcc_L3bbb d H0 H T L b c a i j k + crcc_L3bbb d H0 H T L c a b i j k - crcc_L3bbb d H0 H T L a c b i j k - crcc_L3bbb d H0 H T L b a c i j k - crcc_L3bbb d H0 H T L c b a i j k.
(** ccpy/lib/fortran/crcc_loops.f90, crcc23D_opt, lines 605-623 *)
Definition crcc_L1_bbb (d : dims) (H0 H : ints) (T L : amps) : mat6 := fun a b c i j k =>
  (x_b L c k) * (i_bb_oovv H i j a b) - (x_b L a k) * (i_bb_oovv H i j c b) - (x_b L b k) * (i_bb_oovv H i j a c) - (x_b L c i) * (i_bb_oovv H k j a b) - (x_b L c j) * (i_bb_oovv H i k a b) + (x_b L a i) * (i_bb_oovv H k j c b) + (x_b L b i) * (i_bb_oovv H k j a c) + (x_b L a j) * (i_bb_oovv H i k c b) + (x_b L b j) * (i_bb_oovv H i k a c) + (i_b_ov H k c) * (x_bb L a b i j) - (i_b_ov H k a) * (x_bb L c b i j) - (i_b_ov H k b) * (x_bb L a c i j) - (i_b_ov H i c) * (x_bb L a b k j) - (i_b_ov H j c) * (x_bb L a b i k) + (i_b_ov H i a) * (x_bb L c b k j) + (i_b_ov H i b) * (x_bb L a c k j) + (i_b_ov H j a) * (x_bb L c b i k) + (i_b_ov H j b) * (x_bb L a c i k).
(** ccpy/lib/fortran/crcc_loops.f90, crcc23D_opt, lines 625-625 *)
Definition crcc_L_bbb (d : dims) (H0 H : ints) (T L : amps) : mat6 := fun a b c i j k =>
  crcc_L2_bbb d H0 H T L a b c i j k + crcc_L1_bbb d H0 H T L a b c i j k.
(** ccpy/lib/fortran/crcc_loops.f90, crcc23D_opt, lines 627-628 *)
Definition crcc_DA_bbb (d : dims) (H0 H : ints) (T L : amps) : mat6 := fun a b c i j k =>
  i_b_oo H0 i i + i_b_oo H0 j j + i_b_oo H0 k k - i_b_vv H0 a a - i_b_vv H0 b b - i_b_vv H0 c c.
(** ccpy/lib/fortran/crcc_loops.f90, crcc23D_opt, lines 632-633 *)
Definition crcc_DB_bbb (d : dims) (H0 H : ints) (T L : amps) : mat6 := fun a b c i j k =>
  i_b_oo H i i + i_b_oo H j j + i_b_oo H k k - i_b_vv H a a - i_b_vv H b b - i_b_vv H c c.
(** ccpy/lib/fortran/crcc_loops.f90, crcc23D_opt, lines 637-642 *)
Definition crcc_DC_bbb (d : dims) (H0 H : ints) (T L : amps) : mat6 := fun a b c i j k =>
  crcc_DB_bbb d H0 H T L a b c i j k + ((- (i_bb_voov H a i i a)) - i_bb_voov H b i i b - i_bb_voov H c i i c - i_bb_voov H a j j a - i_bb_voov H b j j b - i_bb_voov H c j j c - i_bb_voov H a k k a - i_bb_voov H b k k b - i_bb_voov H c k k c - i_bb_oooo H j i j i - i_bb_oooo H k i k i - i_bb_oooo H k j k j - crcc_h_bb_vvvv H b a - crcc_h_bb_vvvv H c a - crcc_h_bb_vvvv H c b).
(** ccpy/lib/fortran/crcc_loops.f90, crcc23D_opt, lines 647-653 *)
Definition crcc_DD_bbb (d : dims) (H0 H : ints) (T L : amps) : mat6 := fun a b c i j k =>
  crcc_DC_bbb d H0 H T L a b c i j k + (crcc_d3bbb_o d H0 H T L a i j + crcc_d3bbb_o d H0 H T L a i k + crcc_d3bbb_o d H0 H T L a j k + crcc_d3bbb_o d H0 H T L b i j + crcc_d3bbb_o d H0 H T L b i k + crcc_d3bbb_o d H0 H T L b j k + crcc_d3bbb_o d H0 H T L c i j + crcc_d3bbb_o d H0 H T L c i k + crcc_d3bbb_o d H0 H T L c j k - crcc_d3bbb_v d H0 H T L a i b - crcc_d3bbb_v d H0 H T L a i c - crcc_d3bbb_v d H0 H T L b i c - crcc_d3bbb_v d H0 H T L a j b - crcc_d3bbb_v d H0 H T L a j c - crcc_d3bbb_v d H0 H T L b j c - crcc_d3bbb_v d H0 H T L a k b - crcc_d3bbb_v d H0 H T L a k c - crcc_d3bbb_v d H0 H T L b k c).
(** The accumulators deltaA .. deltaD *)
Definition quad : Type := (R * R * R * R)%type.
Definition quad_add (p q : quad) : quad := let '(a, b, c, e) := p in let '(a', b', c', e') := q in (a + a', b + b', c + c', e + e').
Definition quad_scale (x : R) (p : quad) : quad := let '(a, b, c, e) := p in (x * a, x * b, x * c, x * e).
(** ccpy/lib/fortran/crcc_loops.f90, crcc23A_opt: the do loops over i, j, k, a, b, c (lines 56-83), innermost last *)
Definition crcc_loop_aaa (d : dims) : list (nat * nat * nat * nat * nat * nat) :=
  flat_map (fun i => flat_map (fun j => flat_map (fun k => flat_map (fun a => flat_map (fun b => map (fun c => (a, b, c, i, j, k)) (seq (S b) (nua d - S b))) (seq (S a) (nua d - S a))) (seq 0 (nua d))) (seq (S j) (noa d - S j))) (seq (S i) (noa d - S i))) (seq 0 (noa d)).
(** ccpy/lib/fortran/crcc_loops.f90, crcc23A_opt, lines 12-151 *)
Definition crcc23A_opt (d : dims) (H0 H : ints) (T L : amps) : quad :=
  fold_left (fun s q => let '(a, b, c, i, j, k) := q in let LM := crcc_M_aaa d H0 H T L a b c i j k * crcc_L_aaa d H0 H T L a b c i j k in
    quad_add s (LM / crcc_DA_aaa d H0 H T L a b c i j k, LM / crcc_DB_aaa d H0 H T L a b c i j k, LM / crcc_DC_aaa d H0 H T L a b c i j k, LM / crcc_DD_aaa d H0 H T L a b c i j k)) (crcc_loop_aaa d) (0, 0, 0, 0).
(** ccpy/lib/fortran/crcc_loops.f90, crcc23B_opt: the do loops over i, j, k, a, b, c (lines 248-291), innermost last *)
Definition crcc_loop_aab (d : dims) : list (nat * nat * nat * nat * nat * nat) :=
  flat_map (fun i => flat_map (fun j => flat_map (fun k => flat_map (fun a => flat_map (fun b => map (fun c => (a, b, c, i, j, k)) (seq 0 (nub d))) (seq (S a) (nua d - S a))) (seq 0 (nua d))) (seq 0 (nob d))) (seq (S i) (noa d - S i))) (seq 0 (noa d)).
(** ccpy/lib/fortran/crcc_loops.f90, crcc23B_opt, lines 153-346 *)
Definition crcc23B_opt (d : dims) (H0 H : ints) (T L : amps) : quad :=
  fold_left (fun s q => let '(a, b, c, i, j, k) := q in let LM := crcc_M_aab d H0 H T L a b c i j k * crcc_L_aab d H0 H T L a b c i j k in
    quad_add s (LM / crcc_DA_aab d H0 H T L a b c i j k, LM / crcc_DB_aab d H0 H T L a b c i j k, LM / crcc_DC_aab d H0 H T L a b c i j k, LM / crcc_DD_aab d H0 H T L a b c i j k)) (crcc_loop_aab d) (0, 0, 0, 0).
(** ccpy/lib/fortran/crcc_loops.f90, crcc23C_opt: the do loops over i, j, k, a, b, c (lines 434-479), innermost last *)
Definition crcc_loop_abb (d : dims) : list (nat * nat * nat * nat * nat * nat) :=
  flat_map (fun i => flat_map (fun j => flat_map (fun k => flat_map (fun a => flat_map (fun b => map (fun c => (a, b, c, i, j, k)) (seq (S b) (nub d - S b))) (seq 0 (nub d))) (seq 0 (nua d))) (seq (S j) (nob d - S j))) (seq 0 (nob d))) (seq 0 (noa d)).
(** ccpy/lib/fortran/crcc_loops.f90, crcc23C_opt, lines 348-532 *)
Definition crcc23C_opt (d : dims) (H0 H : ints) (T L : amps) : quad :=
  fold_left (fun s q => let '(a, b, c, i, j, k) := q in let LM := crcc_M_abb d H0 H T L a b c i j k * crcc_L_abb d H0 H T L a b c i j k in
    quad_add s (LM / crcc_DA_abb d H0 H T L a b c i j k, LM / crcc_DB_abb d H0 H T L a b c i j k, LM / crcc_DC_abb d H0 H T L a b c i j k, LM / crcc_DD_abb d H0 H T L a b c i j k)) (crcc_loop_abb d) (0, 0, 0, 0).
(** ccpy/lib/fortran/crcc_loops.f90, crcc23D_opt: the do loops over i, j, k, a, b, c (lines 570-597), innermost last *)
Definition crcc_loop_bbb (d : dims) : list (nat * nat * nat * nat * nat * nat) :=
  flat_map (fun i => flat_map (fun j => flat_map (fun k => flat_map (fun a => flat_map (fun b => map (fun c => (a, b, c, i, j, k)) (seq (S b) (nub d - S b))) (seq (S a) (nub d - S a))) (seq 0 (nub d))) (seq (S j) (nob d - S j))) (seq (S i) (nob d - S i))) (seq 0 (nob d)).
(** ccpy/lib/fortran/crcc_loops.f90, crcc23D_opt, lines 534-665 *)
Definition crcc23D_opt (d : dims) (H0 H : ints) (T L : amps) : quad :=
  fold_left (fun s q => let '(a, b, c, i, j, k) := q in let LM := crcc_M_bbb d H0 H T L a b c i j k * crcc_L_bbb d H0 H T L a b c i j k in
    quad_add s (LM / crcc_DA_bbb d H0 H T L a b c i j k, LM / crcc_DB_bbb d H0 H T L a b c i j k, LM / crcc_DC_bbb d H0 H T L a b c i j k, LM / crcc_DD_bbb d H0 H T L a b c i j k)) (crcc_loop_bbb d) (0, 0, 0, 0).
(** ccpy/moments/crcc23.py, calc_crcc23, lines 75-116: the corrections delta23 *)
Definition calc_crcc23_delta (d : dims) (H0 H : ints) (T L : amps) (use_RHF : bool) : quad :=
  if use_RHF then quad_add (quad_scale 2 (crcc23A_opt d H0 H T L)) (quad_scale 2 (crcc23B_opt d H0 H T L))
  else quad_add (quad_add (quad_add (crcc23A_opt d H0 H T L) (crcc23B_opt d H0 H T L)) (crcc23C_opt d H0 H T L)) (crcc23D_opt d H0 H T L).
(** ccpy/moments/crcc23.py, calc_crcc23, lines 118-156: the total energies Ecrcc23 *)
Definition calc_crcc23 (d : dims) (H0 H : ints) (T L : amps) (reference_energy corr_energy : R) (use_RHF : bool) : quad :=
  let add x := reference_energy + (corr_energy + x) in
  let '(a, b, c, e) := calc_crcc23_delta d H0 H T L use_RHF in (add a, add b, add c, add e).
