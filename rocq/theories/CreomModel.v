(** Generated by tools/gen_creom.py from the source text (symbolic execution of the numpy statements; exact reals).
    Models ccpy/moments/creomcc23.py (calc_creomcc23, get_eomcc23_intermediates) and ccpy/lib/fortran/crcc_loops.f90 (creomcc23A_opt .. creomcc23D_opt).
    H0: the Fock operator, H: the similarity-transformed Hamiltonian, T: cluster amplitudes, Y and L: right and left EOMCC amplitudes. *)
From Coq Require Import Reals Arith List.
From Verif Require Import RSum IntegralsModel TensorObjs CrccModel.
Import ListNotations.
Open Scope R_scope.
(** ccpy/moments/creomcc23.py, get_eomcc23_intermediates, lines 209-212 *)
Definition creom_X_a_ov (d : dims) (H0 H : ints) (T Y L : amps) : mat2 := fun m e =>
  sumn (noa d) (fun n => sumn (nua d) (fun f => (i_aa_oovv H m n e f) * (x_a Y f n))) + sumn (nob d) (fun n => sumn (nub d) (fun f => (i_ab_oovv H m n e f) * (x_b Y f n))).
(** ccpy/moments/creomcc23.py, get_eomcc23_intermediates, lines 214-217 *)
Definition creom_X_b_ov (d : dims) (H0 H : ints) (T Y L : amps) : mat2 := fun m e =>
  sumn (noa d) (fun n => sumn (nua d) (fun f => (i_ab_oovv H n m f e) * (x_a Y f n))) + sumn (nob d) (fun n => sumn (nub d) (fun f => (i_bb_oovv H n m f e) * (x_b Y f n))).
(** ccpy/moments/creomcc23.py, get_eomcc23_intermediates, lines 219-226 *)
Definition creom_X_aa_vvov (d : dims) (H0 H : ints) (T Y L : amps) : mat4 := fun b a j e =>
  sumn (noa d) (fun m => (i_aa_voov H a m j e) * (x_a Y b m)) + sumn (noa d) (fun m => sumn (nua d) (fun e' => (i_aa_vovv H a m e e') * (x_aa Y b e' j m))) + sumn (nob d) (fun m => sumn (nub d) (fun e' => (i_ab_vovv H a m e e') * (x_ab Y b e' j m))) + 1 / 2 * (sumn (nua d) (fun e' => (i_aa_vvvv H a b e e') * (x_a Y e' j))) + 1 / 4 * (sumn (noa d) (fun n => sumn (noa d) (fun m => (i_aa_ooov H n m j e) * (x_aa Y a b m n)))) - 1 / 2 * (sumn (noa d) (fun m => (creom_X_a_ov d H0 H T Y L m e) * (x_aa T a b m j))).
(** ccpy/moments/creomcc23.py, get_eomcc23_intermediates, line 227 *)
Definition creom_X_aa_vvov_1 (d : dims) (H0 H : ints) (T Y L : amps) : mat4 := fun b a j e =>
  creom_X_aa_vvov d H0 H T Y L b a j e - creom_X_aa_vvov d H0 H T Y L a b j e.
(** ccpy/moments/creomcc23.py, get_eomcc23_intermediates, lines 229-235 *)
Definition creom_X_aa_vooo (d : dims) (H0 H : ints) (T Y L : amps) : mat4 := fun b m j i =>
  (- (sumn (nua d) (fun e => (i_aa_voov H b m i e) * (x_a Y e j)))) + sumn (noa d) (fun m' => sumn (nua d) (fun e => (i_aa_ooov H m m' i e) * (x_aa Y b e j m'))) + sumn (nob d) (fun m' => sumn (nub d) (fun e => (i_ab_ooov H m m' i e) * (x_ab Y b e j m'))) - 1 / 2 * (sumn (noa d) (fun m' => (i_aa_oooo H m m' i j) * (x_a Y b m'))) + 1 / 4 * (sumn (nua d) (fun f => sumn (nua d) (fun e => (i_aa_vovv H b m f e) * (x_aa Y e f i j)))).
(** ccpy/moments/creomcc23.py, get_eomcc23_intermediates, line 236 *)
Definition creom_X_aa_vooo_1 (d : dims) (H0 H : ints) (T Y L : amps) : mat4 := fun b m j i =>
  creom_X_aa_vooo d H0 H T Y L b m j i - creom_X_aa_vooo d H0 H T Y L b m i j.
(** ccpy/moments/creomcc23.py, get_eomcc23_intermediates, lines 238-247 *)
Definition creom_X_ab_vvvo (d : dims) (H0 H : ints) (T Y L : amps) : mat4 := fun b c e k =>
  (- (sumn (noa d) (fun m => (i_ab_ovvo H m c e k) * (x_a Y b m)))) - sumn (nob d) (fun m => (i_ab_vovo H b m e k) * (x_b Y c m)) + sumn (nub d) (fun e' => (i_ab_vvvv H b c e e') * (x_b Y e' k)) + sumn (noa d) (fun m => sumn (nob d) (fun n => (i_ab_oovo H m n e k) * (x_ab Y b c m n))) + sumn (noa d) (fun m => sumn (nua d) (fun e' => (i_aa_vovv H b m e e') * (x_ab Y e' c m k))) + sumn (nob d) (fun m => sumn (nub d) (fun e' => (i_ab_vovv H b m e e') * (x_bb Y e' c m k))) - sumn (noa d) (fun m => sumn (nub d) (fun e' => (i_ab_ovvv H m c e e') * (x_ab Y b e' m k))) - sumn (noa d) (fun m => (creom_X_a_ov d H0 H T Y L m e) * (x_ab T b c m k)).
(** ccpy/moments/creomcc23.py, get_eomcc23_intermediates, lines 249-257 *)
Definition creom_X_ab_ovoo (d : dims) (H0 H : ints) (T Y L : amps) : mat4 := fun n c j k =>
  (- (sumn (nob d) (fun m => (i_ab_oooo H n m j k) * (x_b Y c m)))) + sumn (nub d) (fun e => (i_ab_ovov H n c j e) * (x_b Y e k)) + sumn (nua d) (fun e => (i_ab_ovvo H n c e k) * (x_a Y e j)) + sumn (nua d) (fun e => sumn (nub d) (fun f => (i_ab_ovvv H n c e f) * (x_ab Y e f j k))) + sumn (noa d) (fun m => sumn (nua d) (fun e => (i_aa_ooov H n m j e) * (x_ab Y e c m k))) + sumn (nob d) (fun m => sumn (nub d) (fun e => (i_ab_ooov H n m j e) * (x_bb Y e c m k))) - sumn (nob d) (fun m => sumn (nua d) (fun e => (i_ab_oovo H n m e k) * (x_ab Y e c j m))).
(** ccpy/moments/creomcc23.py, get_eomcc23_intermediates, lines 259-268 *)
Definition creom_X_ab_vvov (d : dims) (H0 H : ints) (T Y L : amps) : mat4 := fun b c j e =>
  (- (sumn (noa d) (fun m => (i_ab_ovov H m c j e) * (x_a Y b m)))) - sumn (nob d) (fun m => (i_ab_voov H b m j e) * (x_b Y c m)) + sumn (nua d) (fun e' => (i_ab_vvvv H b c e' e) * (x_a Y e' j)) + sumn (noa d) (fun m => sumn (nob d) (fun n => (i_ab_ooov H m n j e) * (x_ab Y b c m n))) + sumn (noa d) (fun m => sumn (nua d) (fun e' => (i_ab_ovvv H m c e' e) * (x_aa Y b e' j m))) + sumn (nob d) (fun m => sumn (nub d) (fun e' => (i_bb_vovv H c m e e') * (x_ab Y b e' j m))) - sumn (nob d) (fun m => sumn (nua d) (fun e' => (i_ab_vovv H b m e' e) * (x_ab Y e' c j m))) - sumn (nob d) (fun m => (creom_X_b_ov d H0 H T Y L m e) * (x_ab T b c j m)).
(** ccpy/moments/creomcc23.py, get_eomcc23_intermediates, lines 270-278 *)
Definition creom_X_ab_vooo (d : dims) (H0 H : ints) (T Y L : amps) : mat4 := fun b n j k =>
  (- (sumn (noa d) (fun m => (i_ab_oooo H m n j k) * (x_a Y b m)))) + sumn (nub d) (fun e => (i_ab_voov H b n j e) * (x_b Y e k)) + sumn (nua d) (fun e => (i_ab_vovo H b n e k) * (x_a Y e j)) + sumn (nua d) (fun e => sumn (nub d) (fun f => (i_ab_vovv H b n e f) * (x_ab Y e f j k))) + sumn (noa d) (fun m => sumn (nua d) (fun e => (i_ab_oovo H m n e k) * (x_aa Y b e j m))) + sumn (nob d) (fun m => sumn (nub d) (fun e => (i_bb_ooov H n m k e) * (x_ab Y b e j m))) - sumn (noa d) (fun n' => sumn (nub d) (fun e => (i_ab_ooov H n' n j e) * (x_ab Y b e n' k))).
(** ccpy/moments/creomcc23.py, get_eomcc23_intermediates, lines 280-287 *)
Definition creom_X_bb_vvov (d : dims) (H0 H : ints) (T Y L : amps) : mat4 := fun b a j e =>
  sumn (nob d) (fun m => (i_bb_voov H a m j e) * (x_b Y b m)) + 1 / 2 * (sumn (nub d) (fun e' => (i_bb_vvvv H a b e e') * (x_b Y e' j))) + 1 / 4 * (sumn (nob d) (fun n => sumn (nob d) (fun m => (i_bb_ooov H n m j e) * (x_bb Y a b m n)))) + sumn (nob d) (fun m => sumn (nub d) (fun e' => (i_bb_vovv H a m e e') * (x_bb Y b e' j m))) + sumn (noa d) (fun m => sumn (nua d) (fun e' => (i_ab_ovvv H m a e' e) * (x_ab Y e' b m j))) - 1 / 2 * (sumn (nob d) (fun m => (creom_X_b_ov d H0 H T Y L m e) * (x_bb T a b m j))).
(** ccpy/moments/creomcc23.py, get_eomcc23_intermediates, line 288 *)
Definition creom_X_bb_vvov_1 (d : dims) (H0 H : ints) (T Y L : amps) : mat4 := fun b a j e =>
  creom_X_bb_vvov d H0 H T Y L b a j e - creom_X_bb_vvov d H0 H T Y L a b j e.
(** ccpy/moments/creomcc23.py, get_eomcc23_intermediates, lines 290-296 *)
Definition creom_X_bb_vooo (d : dims) (H0 H : ints) (T Y L : amps) : mat4 := fun b n j i =>
  (-1) / 2 * (sumn (nob d) (fun m => (i_bb_oooo H n m i j) * (x_b Y b m))) - sumn (nub d) (fun e => (i_bb_voov H b n i e) * (x_b Y e j)) + 1 / 4 * (sumn (nub d) (fun f => sumn (nub d) (fun e => (i_bb_vovv H b n f e) * (x_bb Y e f i j)))) + sumn (nob d) (fun m => sumn (nub d) (fun e => (i_bb_ooov H n m i e) * (x_bb Y b e j m))) + sumn (noa d) (fun m => sumn (nua d) (fun e => (i_ab_oovo H m n e i) * (x_ab Y e b m j))).
(** ccpy/moments/creomcc23.py, get_eomcc23_intermediates, line 297 *)
Definition creom_X_bb_vooo_1 (d : dims) (H0 H : ints) (T Y L : amps) : mat4 := fun b n j i =>
  creom_X_bb_vooo d H0 H T Y L b n j i - creom_X_bb_vooo d H0 H T Y L b n i j.
(** ccpy/moments/creomcc23.py, calc_creomcc23, line 43 *)
Definition creom_I2A_vvov (d : dims) (H0 H : ints) (T Y L : amps) : mat4 := fun a b i e =>
  i_aa_vvov H a b i e + sumn (noa d) (fun m => (i_a_ov H m e) * (x_aa T a b i m)).
(** ccpy/lib/fortran/crcc_loops.f90, creomcc23A_opt, lines 750-756 (array X3A at (a,b,c) for the loop indices i, j, k) *)
Definition creom_X3aaa (d : dims) (H0 H : ints) (T Y L : amps) : mat6 := fun a b c i j k =>
  (-1) / 2 * (sumn (noa d) (fun m => (i_aa_vooo H a m i j) * (x_aa T b c m k))) + 1 / 2 * (sumn (noa d) (fun m => (i_aa_vooo H a m k j) * (x_aa T b c m i))) + 1 / 2 * (sumn (noa d) (fun m => (i_aa_vooo H a m i k) * (x_aa T b c m j))) + 1 / 2 * (sumn (nua d) (fun e => (creom_I2A_vvov d H0 H T Y L a b i e) * (x_aa T e c j k))) + (-1) / 2 * (sumn (nua d) (fun e => (creom_I2A_vvov d H0 H T Y L a b j e) * (x_aa T e c i k))) + (-1) / 2 * (sumn (nua d) (fun e => (creom_I2A_vvov d H0 H T Y L a b k e) * (x_aa T e c j i))).
(** ccpy/lib/fortran/crcc_loops.f90, creomcc23A_opt, lines 759-765 (array L3A at (a,b,c) for the loop indices i, j, k) *)
Definition creom_L3aaa (d : dims) (H0 H : ints) (T Y L : amps) : mat6 := fun a b c i j k =>
  1 / 2 * (sumn (nua d) (fun e => (i_aa_vovv H e i b a) * (x_aa L e c j k))) + (-1) / 2 * (sumn (nua d) (fun e => (i_aa_vovv H e j b a) * (x_aa L e c i k))) + (-1) / 2 * (sumn (nua d) (fun e => (i_aa_vovv H e k b a) * (x_aa L e c j i))) + (-1) / 2 * (sumn (noa d) (fun m => (i_aa_ooov H j i m a) * (x_aa L b c m k))) + 1 / 2 * (sumn (noa d) (fun m => (i_aa_ooov H k i m a) * (x_aa L b c m j))) + 1 / 2 * (sumn (noa d) (fun m => (i_aa_ooov H j k m a) * (x_aa L b c m i))).
(** ccpy/lib/fortran/crcc_loops.f90, creomcc23A_opt, lines 733-747 (array Y3A at (a,b,c) for the loop indices i, j, k) *)
Definition creom_Y3aaa (d : dims) (H0 H : ints) (T Y L : amps) : mat6 := fun a b c i j k =>
  1 / 2 * (sumn (nua d) (fun e => (creom_X_aa_vvov_1 d H0 H T Y L b a j e) * (x_aa T e c i k))) + (-1) / 2 * (sumn (nua d) (fun e => (creom_X_aa_vvov_1 d H0 H T Y L b a k e) * (x_aa T e c i j))) + (-1) / 2 * (sumn (nua d) (fun e => (creom_X_aa_vvov_1 d H0 H T Y L b a i e) * (x_aa T e c j k))) + 1 / 2 * (sumn (nua d) (fun e => (i_aa_vvov H b a j e) * (x_aa Y e c i k))) + (-1) / 2 * (sumn (nua d) (fun e => (i_aa_vvov H b a k e) * (x_aa Y e c i j))) + (-1) / 2 * (sumn (nua d) (fun e => (i_aa_vvov H b a i e) * (x_aa Y e c j k))) + (-1) / 2 * (sumn (noa d) (fun m => (x_aa T a b m j) * (creom_X_aa_vooo_1 d H0 H T Y L c m k i))) + 1 / 2 * (sumn (noa d) (fun m => (x_aa T a b m i) * (creom_X_aa_vooo_1 d H0 H T Y L c m k j))) + 1 / 2 * (sumn (noa d) (fun m => (x_aa T a b m k) * (creom_X_aa_vooo_1 d H0 H T Y L c m j i))) + (-1) / 2 * (sumn (noa d) (fun m => (x_aa Y a b m j) * (i_aa_vooo H c m k i))) + 1 / 2 * (sumn (noa d) (fun m => (x_aa Y a b m i) * (i_aa_vooo H c m k j))) + 1 / 2 * (sumn (noa d) (fun m => (x_aa Y a b m k) * (i_aa_vooo H c m j i))).
(** ccpy/lib/fortran/crcc_loops.f90, creomcc23A_opt, lines 771-772 *)
Definition creom_M_aaa (d : dims) (H0 H : ints) (T Y L : amps) : mat6 := fun a b c i j k =>
  creom_X3aaa d H0 H T Y L a b c i j k + creom_X3aaa d H0 H T Y L b c a i j k + creom_X3aaa d H0 H T Y L c a b i j k - creom_X3aaa d H0 H T Y L a c b i j k - creom_X3aaa d H0 H T Y L b a c i j k - creom_X3aaa d H0 H T Y L c b a i j k.
(** ccpy/lib/fortran/crcc_loops.f90, creomcc23A_opt, lines 774-775 *)
Definition creom_L2_aaa (d : dims) (H0 H : ints) (T Y L : amps) : mat6 := fun a b c i j k =>
  creom_L3aaa d H0 H T Y L a b c i j k + creom_L3aaa d H0 H T Y L b c a i j k + creom_L3aaa d H0 H T Y L c a b i j k - creom_L3aaa d H0 H T Y L a c b i j k - creom_L3aaa d H0 H T Y L b a c i j k - creom_L3aaa d H0 H T Y L c b a i j k.
(** ccpy/lib/fortran/crcc_loops.f90, creomcc23A_opt, lines 777-795 *)
Definition creom_L1_aaa (d : dims) (H0 H : ints) (T Y L : amps) : mat6 := fun a b c i j k =>
  (x_a L c k) * (i_aa_oovv H i j a b) - (x_a L a k) * (i_aa_oovv H i j c b) - (x_a L b k) * (i_aa_oovv H i j a c) - (x_a L c i) * (i_aa_oovv H k j a b) - (x_a L c j) * (i_aa_oovv H i k a b) + (x_a L a i) * (i_aa_oovv H k j c b) + (x_a L b i) * (i_aa_oovv H k j a c) + (x_a L a j) * (i_aa_oovv H i k c b) + (x_a L b j) * (i_aa_oovv H i k a c) + (i_a_ov H k c) * (x_aa L a b i j) - (i_a_ov H k a) * (x_aa L c b i j) - (i_a_ov H k b) * (x_aa L a c i j) - (i_a_ov H i c) * (x_aa L a b k j) - (i_a_ov H j c) * (x_aa L a b i k) + (i_a_ov H i a) * (x_aa L c b k j) + (i_a_ov H i b) * (x_aa L a c k j) + (i_a_ov H j a) * (x_aa L c b i k) + (i_a_ov H j b) * (x_aa L a c i k).
(** ccpy/lib/fortran/crcc_loops.f90, creomcc23A_opt, lines 797-798 *)
Definition creom_N_aaa (d : dims) (H0 H : ints) (T Y L : amps) : mat6 := fun a b c i j k =>
  creom_Y3aaa d H0 H T Y L a b c i j k + creom_Y3aaa d H0 H T Y L b c a i j k + creom_Y3aaa d H0 H T Y L c a b i j k - creom_Y3aaa d H0 H T Y L a c b i j k - creom_Y3aaa d H0 H T Y L b a c i j k - creom_Y3aaa d H0 H T Y L c b a i j k.
(** ccpy/lib/fortran/crcc_loops.f90, creomcc23A_opt, lines 800-800 *)
Definition creom_L_aaa (d : dims) (H0 H : ints) (T Y L : amps) : mat6 := fun a b c i j k =>
  creom_L2_aaa d H0 H T Y L a b c i j k + creom_L1_aaa d H0 H T Y L a b c i j k.
(** ccpy/lib/fortran/crcc_loops.f90, creomcc23A_opt, lines 803-804 *)
Definition creom_DA_aaa (d : dims) (H0 H : ints) (T Y L : amps) : mat6 := fun a b c i j k =>
  i_a_oo H0 i i + i_a_oo H0 j j + i_a_oo H0 k k - i_a_vv H0 a a - i_a_vv H0 b b - i_a_vv H0 c c.
(** ccpy/lib/fortran/crcc_loops.f90, creomcc23A_opt, lines 809-810 *)
Definition creom_DB_aaa (d : dims) (H0 H : ints) (T Y L : amps) : mat6 := fun a b c i j k =>
  i_a_oo H i i + i_a_oo H j j + i_a_oo H k k - i_a_vv H a a - i_a_vv H b b - i_a_vv H c c.
(** ccpy/lib/fortran/crcc_loops.f90, creomcc23A_opt, lines 815-820 *)
Definition creom_DC_aaa (d : dims) (H0 H : ints) (T Y L : amps) : mat6 := fun a b c i j k =>
  creom_DB_aaa d H0 H T Y L a b c i j k + ((- (i_aa_voov H a i i a)) - i_aa_voov H b i i b - i_aa_voov H c i i c - i_aa_voov H a j j a - i_aa_voov H b j j b - i_aa_voov H c j j c - i_aa_voov H a k k a - i_aa_voov H b k k b - i_aa_voov H c k k c - i_aa_oooo H j i j i - i_aa_oooo H k i k i - i_aa_oooo H k j k j - crcc_h_aa_vvvv H b a - crcc_h_aa_vvvv H c a - crcc_h_aa_vvvv H c b).
(** ccpy/lib/fortran/crcc_loops.f90, creomcc23A_opt, lines 826-832 *)
Definition creom_DD_aaa (d : dims) (H0 H : ints) (T Y L : amps) : mat6 := fun a b c i j k =>
  creom_DC_aaa d H0 H T Y L a b c i j k + (crcc_d3aaa_o d H0 H T L a i j + crcc_d3aaa_o d H0 H T L a i k + crcc_d3aaa_o d H0 H T L a j k + crcc_d3aaa_o d H0 H T L b i j + crcc_d3aaa_o d H0 H T L b i k + crcc_d3aaa_o d H0 H T L b j k + crcc_d3aaa_o d H0 H T L c i j + crcc_d3aaa_o d H0 H T L c i k + crcc_d3aaa_o d H0 H T L c j k - crcc_d3aaa_v d H0 H T L a i b - crcc_d3aaa_v d H0 H T L a i c - crcc_d3aaa_v d H0 H T L b i c - crcc_d3aaa_v d H0 H T L a j b - crcc_d3aaa_v d H0 H T L a j c - crcc_d3aaa_v d H0 H T L b j c - crcc_d3aaa_v d H0 H T L a k b - crcc_d3aaa_v d H0 H T L a k c - crcc_d3aaa_v d H0 H T L b k c).
(** ccpy/moments/creomcc23.py, calc_creomcc23, line 55 *)
Definition creom_I2B_ovoo (d : dims) (H0 H : ints) (T Y L : amps) : mat4 := fun m c j k =>
  i_ab_ovoo H m c j k - sumn (nua d) (fun e => (i_a_ov H m e) * (x_ab T e c j k)).
(** ccpy/moments/creomcc23.py, calc_creomcc23, line 56 *)
Definition creom_I2B_vooo (d : dims) (H0 H : ints) (T Y L : amps) : mat4 := fun a m i k =>
  i_ab_vooo H a m i k - sumn (nub d) (fun e => (i_b_ov H m e) * (x_ab T a e i k)).
(** ccpy/moments/creomcc23.py, calc_creomcc23, line 57 *)
Definition creom_I2A_vooo (d : dims) (H0 H : ints) (T Y L : amps) : mat4 := fun a m i j =>
  i_aa_vooo H a m i j - sumn (nua d) (fun e => (i_a_ov H m e) * (x_aa T a e i j)).
(** ccpy/lib/fortran/crcc_loops.f90, creomcc23B_opt, lines 992-1006 (array X3B at (a,b,c) for the loop indices i, j, k) *)
Definition creom_X3aab (d : dims) (H0 H : ints) (T Y L : amps) : mat6 := fun a b c i j k =>
  1 / 1 * (sumn (nua d) (fun e => (x_aa T a e i j) * (i_ab_vvvo H b c e k))) + 1 / 2 * (sumn (noa d) (fun m => (x_aa T a b m i) * (creom_I2B_ovoo d H0 H T Y L m c j k))) + (-1) / 2 * (sumn (noa d) (fun m => (x_aa T a b m j) * (creom_I2B_ovoo d H0 H T Y L m c i k))) + 1 / 1 * (sumn (nub d) (fun e => (x_ab T a e i k) * (i_ab_vvov H b c j e))) + (-1) / 1 * (sumn (nub d) (fun e => (x_ab T a e j k) * (i_ab_vvov H b c i e))) + (-1) / 1 * (sumn (nob d) (fun m => (creom_I2B_vooo d H0 H T Y L a m i k) * (x_ab T b c j m))) + 1 / 1 * (sumn (nob d) (fun m => (creom_I2B_vooo d H0 H T Y L a m j k) * (x_ab T b c i m))) + 1 / 2 * (sumn (nua d) (fun e => (i_aa_vvov H a b i e) * (x_ab T e c j k))) + (-1) / 2 * (sumn (nua d) (fun e => (i_aa_vvov H a b j e) * (x_ab T e c i k))) + (-1) / 1 * (sumn (noa d) (fun m => (creom_I2A_vooo d H0 H T Y L a m i j) * (x_ab T b c m k))).
(** ccpy/lib/fortran/crcc_loops.f90, creomcc23B_opt, lines 1009-1023 (array L3B at (a,b,c) for the loop indices i, j, k) *)
Definition creom_L3aab (d : dims) (H0 H : ints) (T Y L : amps) : mat6 := fun a b c i j k =>
  1 / 1 * (sumn (nua d) (fun e => (x_aa L a e i j) * (i_ab_vovv H e k b c))) + 1 / 2 * (sumn (nua d) (fun e => (i_aa_vovv H e i b a) * (x_ab L e c j k))) + (-1) / 2 * (sumn (nua d) (fun e => (i_aa_vovv H e j b a) * (x_ab L e c i k))) + 1 / 1 * (sumn (nub d) (fun e => (x_ab L a e i k) * (i_ab_ovvv H j e b c))) + (-1) / 1 * (sumn (nub d) (fun e => (x_ab L a e j k) * (i_ab_ovvv H i e b c))) + 1 / 2 * (sumn (noa d) (fun m => (x_aa L a b m i) * (i_ab_ooov H j k m c))) + (-1) / 2 * (sumn (noa d) (fun m => (x_aa L a b m j) * (i_ab_ooov H i k m c))) + (-1) / 1 * (sumn (noa d) (fun m => (i_aa_ooov H j i m a) * (x_ab L b c m k))) + (-1) / 1 * (sumn (nob d) (fun m => (i_ab_oovo H i k a m) * (x_ab L b c j m))) + 1 / 1 * (sumn (nob d) (fun m => (i_ab_oovo H j k a m) * (x_ab L b c i m))).
(** ccpy/lib/fortran/crcc_loops.f90, creomcc23B_opt, lines 958-988 (array Y3B at (a,b,c) for the loop indices i, j, k) *)
Definition creom_Y3aab (d : dims) (H0 H : ints) (T Y L : amps) : mat6 := fun a b c i j k =>
  1 / 1 * (sumn (nua d) (fun e => (x_aa T a e i j) * (creom_X_ab_vvvo d H0 H T Y L b c e k))) + 1 / 1 * (sumn (nua d) (fun e => (x_aa Y a e i j) * (i_ab_vvvo H b c e k))) + 1 / 2 * (sumn (noa d) (fun m => (x_aa T a b m i) * (creom_X_ab_ovoo d H0 H T Y L m c j k))) + (-1) / 2 * (sumn (noa d) (fun m => (x_aa T a b m j) * (creom_X_ab_ovoo d H0 H T Y L m c i k))) + 1 / 2 * (sumn (noa d) (fun m => (x_aa Y a b m i) * (i_ab_ovoo H m c j k))) + (-1) / 2 * (sumn (noa d) (fun m => (x_aa Y a b m j) * (i_ab_ovoo H m c i k))) + 1 / 2 * (sumn (nua d) (fun e => (creom_X_aa_vvov_1 d H0 H T Y L b a j e) * (x_ab T e c i k))) + (-1) / 2 * (sumn (nua d) (fun e => (creom_X_aa_vvov_1 d H0 H T Y L b a i e) * (x_ab T e c j k))) + 1 / 2 * (sumn (nua d) (fun e => (i_aa_vvov H b a j e) * (x_ab Y e c i k))) + (-1) / 2 * (sumn (nua d) (fun e => (i_aa_vvov H b a i e) * (x_ab Y e c j k))) + (-1) / 1 * (sumn (noa d) (fun m => (creom_X_aa_vooo_1 d H0 H T Y L a m i j) * (x_ab T b c m k))) + (-1) / 1 * (sumn (noa d) (fun m => (i_aa_vooo H a m i j) * (x_ab Y b c m k))) + 1 / 1 * (sumn (nub d) (fun e => (x_ab T a e i k) * (creom_X_ab_vvov d H0 H T Y L b c j e))) + (-1) / 1 * (sumn (nub d) (fun e => (x_ab T a e j k) * (creom_X_ab_vvov d H0 H T Y L b c i e))) + 1 / 1 * (sumn (nub d) (fun e => (x_ab Y a e i k) * (i_ab_vvov H b c j e))) + (-1) / 1 * (sumn (nub d) (fun e => (x_ab Y a e j k) * (i_ab_vvov H b c i e))) + (-1) / 1 * (sumn (nob d) (fun m => (creom_X_ab_vooo d H0 H T Y L a m i k) * (x_ab T b c j m))) + 1 / 1 * (sumn (nob d) (fun m => (creom_X_ab_vooo d H0 H T Y L a m j k) * (x_ab T b c i m))) + (-1) / 1 * (sumn (nob d) (fun m => (i_ab_vooo H a m i k) * (x_ab Y b c j m))) + 1 / 1 * (sumn (nob d) (fun m => (i_ab_vooo H a m j k) * (x_ab Y b c i m))).
(** ccpy/lib/fortran/crcc_loops.f90, creomcc23B_opt, lines 1029-1029 *)
Definition creom_M_aab (d : dims) (H0 H : ints) (T Y L : amps) : mat6 := fun a b c i j k =>
  creom_X3aab d H0 H T Y L a b c i j k - creom_X3aab d H0 H T Y L b a c i j k.
(** ccpy/lib/fortran/crcc_loops.f90, creomcc23B_opt, lines 1030-1030 *)
Definition creom_L2_aab (d : dims) (H0 H : ints) (T Y L : amps) : mat6 := fun a b c i j k =>
  creom_L3aab d H0 H T Y L a b c i j k - creom_L3aab d H0 H T Y L b a c i j k.
(** ccpy/lib/fortran/crcc_loops.f90, creomcc23B_opt, lines 1031-1040 *)
Definition creom_L1_aab (d : dims) (H0 H : ints) (T Y L : amps) : mat6 := fun a b c i j k =>
  (x_a L a i) * (i_ab_oovv H j k b c) - (x_a L a j) * (i_ab_oovv H i k b c) - (x_a L b i) * (i_ab_oovv H j k a c) + (x_a L b j) * (i_ab_oovv H i k a c) + (x_b L c k) * (i_aa_oovv H i j a b) + (x_ab L b c j k) * (i_a_ov H i a) - (x_ab L b c i k) * (i_a_ov H j a) - (x_ab L a c j k) * (i_a_ov H i b) + (x_ab L a c i k) * (i_a_ov H j b) + (x_aa L a b i j) * (i_b_ov H k c).
(** ccpy/lib/fortran/crcc_loops.f90, creomcc23B_opt, lines 1041-1041 *)
Definition creom_N_aab (d : dims) (H0 H : ints) (T Y L : amps) : mat6 := fun a b c i j k =>
  creom_Y3aab d H0 H T Y L a b c i j k - creom_Y3aab d H0 H T Y L b a c i j k.
(** ccpy/lib/fortran/crcc_loops.f90, creomcc23B_opt, lines 1043-1043 *)
Definition creom_L_aab (d : dims) (H0 H : ints) (T Y L : amps) : mat6 := fun a b c i j k =>
  creom_L2_aab d H0 H T Y L a b c i j k + creom_L1_aab d H0 H T Y L a b c i j k.
(** ccpy/lib/fortran/crcc_loops.f90, creomcc23B_opt, lines 1046-1047 *)
Definition creom_DA_aab (d : dims) (H0 H : ints) (T Y L : amps) : mat6 := fun a b c i j k =>
  i_a_oo H0 i i + i_a_oo H0 j j + i_b_oo H0 k k - i_a_vv H0 a a - i_a_vv H0 b b - i_b_vv H0 c c.
(** ccpy/lib/fortran/crcc_loops.f90, creomcc23B_opt, lines 1052-1053 *)
Definition creom_DB_aab (d : dims) (H0 H : ints) (T Y L : amps) : mat6 := fun a b c i j k =>
  i_a_oo H i i + i_a_oo H j j + i_b_oo H k k - i_a_vv H a a - i_a_vv H b b - i_b_vv H c c.
(** ccpy/lib/fortran/crcc_loops.f90, creomcc23B_opt, lines 1058-1063 *)
Definition creom_DC_aab (d : dims) (H0 H : ints) (T Y L : amps) : mat6 := fun a b c i j k =>
  creom_DB_aab d H0 H T Y L a b c i j k + ((- (i_aa_voov H a i i a)) - i_aa_voov H b i i b + i_ab_ovov H i c i c - i_aa_voov H a j j a - i_aa_voov H b j j b + i_ab_ovov H j c j c + i_ab_vovo H a k a k + i_ab_vovo H b k b k - i_bb_voov H c k k c - i_aa_oooo H j i j i - i_ab_oooo H i k i k - i_ab_oooo H j k j k - crcc_h_aa_vvvv H b a - crcc_h_ab_vvvv H a c - crcc_h_ab_vvvv H b c).
(** ccpy/lib/fortran/crcc_loops.f90, creomcc23B_opt, lines 1069-1075 *)
Definition creom_DD_aab (d : dims) (H0 H : ints) (T Y L : amps) : mat6 := fun a b c i j k =>
  creom_DC_aab d H0 H T Y L a b c i j k + (crcc_d3aaa_o d H0 H T L a i j + crcc_d3aab_o d H0 H T L a i k + crcc_d3aab_o d H0 H T L a j k + crcc_d3aaa_o d H0 H T L b i j + crcc_d3aab_o d H0 H T L b i k + crcc_d3aab_o d H0 H T L b j k + crcc_d3abb_o d H0 H T L c i k + crcc_d3abb_o d H0 H T L c j k - crcc_d3aaa_v d H0 H T L a i b - crcc_d3aab_v d H0 H T L a i c - crcc_d3aab_v d H0 H T L b i c - crcc_d3aaa_v d H0 H T L a j b - crcc_d3aab_v d H0 H T L a j c - crcc_d3aab_v d H0 H T L b j c - crcc_d3abb_v d H0 H T L a k c - crcc_d3abb_v d H0 H T L b k c).
(** ccpy/moments/creomcc23.py, calc_creomcc23, line 86 *)
Definition creom_I2B_vooo_1 (d : dims) (H0 H : ints) (T Y L : amps) : mat4 := fun a m i j =>
  i_ab_vooo H a m i j - sumn (nub d) (fun e => (i_b_ov H m e) * (x_ab T a e i j)).
(** ccpy/moments/creomcc23.py, calc_creomcc23, line 87 *)
Definition creom_I2C_vooo (d : dims) (H0 H : ints) (T Y L : amps) : mat4 := fun c m k j =>
  i_bb_vooo H c m k j - sumn (nub d) (fun e => (i_b_ov H m e) * (x_bb T c e k j)).
(** ccpy/moments/creomcc23.py, calc_creomcc23, line 88 *)
Definition creom_I2B_ovoo_1 (d : dims) (H0 H : ints) (T Y L : amps) : mat4 := fun m b i j =>
  i_ab_ovoo H m b i j - sumn (nua d) (fun e => (i_a_ov H m e) * (x_ab T e b i j)).
(** ccpy/lib/fortran/crcc_loops.f90, creomcc23C_opt, lines 1247-1261 (array X3C at (a,b,c) for the loop indices i, j, k) *)
Definition creom_X3abb (d : dims) (H0 H : ints) (T Y L : amps) : mat6 := fun a b c i j k =>
  1 / 1 * (sumn (nub d) (fun e => (i_ab_vvov H a b i e) * (x_bb T e c j k))) + (-1) / 2 * (sumn (nob d) (fun m => (creom_I2B_vooo_1 d H0 H T Y L a m i j) * (x_bb T b c m k))) + 1 / 2 * (sumn (nob d) (fun m => (creom_I2B_vooo_1 d H0 H T Y L a m i k) * (x_bb T b c m j))) + 1 / 2 * (sumn (nub d) (fun e => (x_ab T a e i j) * (i_bb_vvov H c b k e))) + (-1) / 2 * (sumn (nub d) (fun e => (x_ab T a e i k) * (i_bb_vvov H c b j e))) + (-1) / 1 * (sumn (nob d) (fun m => (x_ab T a b i m) * (creom_I2C_vooo d H0 H T Y L c m k j))) + 1 / 1 * (sumn (nua d) (fun e => (i_ab_vvvo H a b e j) * (x_ab T e c i k))) + (-1) / 1 * (sumn (nua d) (fun e => (i_ab_vvvo H a b e k) * (x_ab T e c i j))) + (-1) / 1 * (sumn (noa d) (fun m => (x_ab T a b m j) * (creom_I2B_ovoo_1 d H0 H T Y L m c i k))) + 1 / 1 * (sumn (noa d) (fun m => (x_ab T a b m k) * (creom_I2B_ovoo_1 d H0 H T Y L m c i j))).
(** ccpy/lib/fortran/crcc_loops.f90, creomcc23C_opt, lines 1265-1279 (array L3C at (a,b,c) for the loop indices i, j, k) *)
Definition creom_L3abb (d : dims) (H0 H : ints) (T Y L : amps) : mat6 := fun a b c i j k =>
  1 / 1 * (sumn (nub d) (fun e => (i_ab_ovvv H i e a b) * (x_bb L e c j k))) + 1 / 2 * (sumn (nub d) (fun e => (x_ab L a e i j) * (i_bb_vovv H e k b c))) + (-1) / 2 * (sumn (nub d) (fun e => (x_ab L a e i k) * (i_bb_vovv H e j b c))) + 1 / 1 * (sumn (nua d) (fun e => (i_ab_vovv H e j a b) * (x_ab L e c i k))) + (-1) / 1 * (sumn (nua d) (fun e => (i_ab_vovv H e k a b) * (x_ab L e c i j))) + (-1) / 2 * (sumn (nob d) (fun m => (i_ab_oovo H i j a m) * (x_bb L b c m k))) + 1 / 2 * (sumn (nob d) (fun m => (i_ab_oovo H i k a m) * (x_bb L b c m j))) + (-1) / 1 * (sumn (nob d) (fun m => (x_ab L a b i m) * (i_bb_ooov H j k m c))) + (-1) / 1 * (sumn (noa d) (fun m => (x_ab L a b m j) * (i_ab_ooov H i k m c))) + 1 / 1 * (sumn (noa d) (fun m => (x_ab L a b m k) * (i_ab_ooov H i j m c))).
(** ccpy/lib/fortran/crcc_loops.f90, creomcc23C_opt, lines 1213-1243 (array Y3C at (a,b,c) for the loop indices i, j, k) *)
Definition creom_Y3abb (d : dims) (H0 H : ints) (T Y L : amps) : mat6 := fun a b c i j k =>
  1 / 1 * (sumn (nub d) (fun e => (creom_X_ab_vvov d H0 H T Y L a b i e) * (x_bb T e c j k))) + 1 / 1 * (sumn (nub d) (fun e => (i_ab_vvov H a b i e) * (x_bb Y e c j k))) + (-1) / 2 * (sumn (nob d) (fun m => (creom_X_ab_vooo d H0 H T Y L a m i j) * (x_bb T b c m k))) + 1 / 2 * (sumn (nob d) (fun m => (creom_X_ab_vooo d H0 H T Y L a m i k) * (x_bb T b c m j))) + (-1) / 2 * (sumn (nob d) (fun m => (i_ab_vooo H a m i j) * (x_bb Y b c m k))) + 1 / 2 * (sumn (nob d) (fun m => (i_ab_vooo H a m i k) * (x_bb Y b c m j))) + 1 / 2 * (sumn (nub d) (fun e => (x_ab T a e i k) * (creom_X_bb_vvov_1 d H0 H T Y L b c j e))) + (-1) / 2 * (sumn (nub d) (fun e => (x_ab T a e i j) * (creom_X_bb_vvov_1 d H0 H T Y L b c k e))) + 1 / 2 * (sumn (nub d) (fun e => (x_ab Y a e i k) * (i_bb_vvov H b c j e))) + (-1) / 2 * (sumn (nub d) (fun e => (x_ab Y a e i j) * (i_bb_vvov H b c k e))) + (-1) / 1 * (sumn (nob d) (fun m => (x_ab T a b i m) * (creom_X_bb_vooo_1 d H0 H T Y L c m k j))) + (-1) / 1 * (sumn (nob d) (fun m => (x_ab Y a b i m) * (i_bb_vooo H c m k j))) + 1 / 1 * (sumn (nua d) (fun e => (creom_X_ab_vvvo d H0 H T Y L a b e j) * (x_ab T e c i k))) + (-1) / 1 * (sumn (nua d) (fun e => (creom_X_ab_vvvo d H0 H T Y L a b e k) * (x_ab T e c i j))) + 1 / 1 * (sumn (nua d) (fun e => (i_ab_vvvo H a b e j) * (x_ab Y e c i k))) + (-1) / 1 * (sumn (nua d) (fun e => (i_ab_vvvo H a b e k) * (x_ab Y e c i j))) + (-1) / 1 * (sumn (noa d) (fun m => (x_ab T a b m j) * (creom_X_ab_ovoo d H0 H T Y L m c i k))) + 1 / 1 * (sumn (noa d) (fun m => (x_ab T a b m k) * (creom_X_ab_ovoo d H0 H T Y L m c i j))) + (-1) / 1 * (sumn (noa d) (fun m => (x_ab Y a b m j) * (i_ab_ovoo H m c i k))) + 1 / 1 * (sumn (noa d) (fun m => (x_ab Y a b m k) * (i_ab_ovoo H m c i j))).
(** ccpy/lib/fortran/crcc_loops.f90, creomcc23C_opt, lines 1285-1285 *)
Definition creom_M_abb (d : dims) (H0 H : ints) (T Y L : amps) : mat6 := fun a b c i j k =>
  creom_X3abb d H0 H T Y L a b c i j k - creom_X3abb d H0 H T Y L a c b i j k.
(** ccpy/lib/fortran/crcc_loops.f90, creomcc23C_opt, lines 1286-1286 *)
Definition creom_L2_abb (d : dims) (H0 H : ints) (T Y L : amps) : mat6 := fun a b c i j k =>
  creom_L3abb d H0 H T Y L a b c i j k - creom_L3abb d H0 H T Y L a c b i j k.
(** ccpy/lib/fortran/crcc_loops.f90, creomcc23C_opt, lines 1287-1296 *)
Definition creom_L1_abb (d : dims) (H0 H : ints) (T Y L : amps) : mat6 := fun a b c i j k =>
  (x_b L c k) * (i_ab_oovv H i j a b) - (x_b L b k) * (i_ab_oovv H i j a c) - (x_b L c j) * (i_ab_oovv H i k a b) + (x_b L b j) * (i_ab_oovv H i k a c) + (x_a L a i) * (i_bb_oovv H j k b c) + (i_b_ov H k c) * (x_ab L a b i j) - (i_b_ov H k b) * (x_ab L a c i j) - (i_b_ov H j c) * (x_ab L a b i k) + (i_b_ov H j b) * (x_ab L a c i k) + (i_a_ov H i a) * (x_bb L b c j k).
(** ccpy/lib/fortran/crcc_loops.f90, creomcc23C_opt, lines 1297-1297 *)
Definition creom_N_abb (d : dims) (H0 H : ints) (T Y L : amps) : mat6 := fun a b c i j k =>
  creom_Y3abb d H0 H T Y L a b c i j k - creom_Y3abb d H0 H T Y L a c b i j k.
(** ccpy/lib/fortran/crcc_loops.f90, creomcc23C_opt, lines 1299-1299 *)
Definition creom_L_abb (d : dims) (H0 H : ints) (T Y L : amps) : mat6 := fun a b c i j k =>
  creom_L2_abb d H0 H T Y L a b c i j k + creom_L1_abb d H0 H T Y L a b c i j k.
(** ccpy/lib/fortran/crcc_loops.f90, creomcc23C_opt, lines 1302-1303 *)
Definition creom_DA_abb (d : dims) (H0 H : ints) (T Y L : amps) : mat6 := fun a b c i j k =>
  i_a_oo H0 i i + i_b_oo H0 j j + i_b_oo H0 k k - i_a_vv H0 a a - i_b_vv H0 b b - i_b_vv H0 c c.
(** ccpy/lib/fortran/crcc_loops.f90, creomcc23C_opt, lines 1308-1309 *)
Definition creom_DB_abb (d : dims) (H0 H : ints) (T Y L : amps) : mat6 := fun a b c i j k =>
  i_a_oo H i i + i_b_oo H j j + i_b_oo H k k - i_a_vv H a a - i_b_vv H b b - i_b_vv H c c.
(** ccpy/lib/fortran/crcc_loops.f90, creomcc23C_opt, lines 1314-1319 *)
Definition creom_DC_abb (d : dims) (H0 H : ints) (T Y L : amps) : mat6 := fun a b c i j k =>
  creom_DB_abb d H0 H T Y L a b c i j k + ((- (i_aa_voov H a i i a)) + i_ab_ovov H i b i b + i_ab_ovov H i c i c + i_ab_vovo H a j a j - i_bb_voov H b j j b - i_bb_voov H c j j c + i_ab_vovo H a k a k - i_bb_voov H b k k b - i_bb_voov H c k k c - i_ab_oooo H i j i j - i_ab_oooo H i k i k - i_bb_oooo H k j k j - crcc_h_ab_vvvv H a b - crcc_h_ab_vvvv H a c - crcc_h_bb_vvvv H c b).
(** ccpy/lib/fortran/crcc_loops.f90, creomcc23C_opt, lines 1325-1331 *)
Definition creom_DD_abb (d : dims) (H0 H : ints) (T Y L : amps) : mat6 := fun a b c i j k =>
  creom_DC_abb d H0 H T Y L a b c i j k + (crcc_d3aab_o d H0 H T L a i j + crcc_d3aab_o d H0 H T L a i k + crcc_d3abb_o d H0 H T L b i j + crcc_d3abb_o d H0 H T L b i k + crcc_d3bbb_o d H0 H T L b j k + crcc_d3abb_o d H0 H T L c i j + crcc_d3abb_o d H0 H T L c i k + crcc_d3bbb_o d H0 H T L c j k - crcc_d3aab_v d H0 H T L a i b - crcc_d3aab_v d H0 H T L a i c - crcc_d3abb_v d H0 H T L a j b - crcc_d3abb_v d H0 H T L a j c - crcc_d3bbb_v d H0 H T L b j c - crcc_d3abb_v d H0 H T L a k b - crcc_d3abb_v d H0 H T L a k c - crcc_d3bbb_v d H0 H T L b k c).
(** ccpy/moments/creomcc23.py, calc_creomcc23, line 104 *)
Definition creom_I2C_vvov (d : dims) (H0 H : ints) (T Y L : amps) : mat4 := fun a b i e =>
  i_bb_vvov H a b i e + sumn (nob d) (fun m => (i_b_ov H m e) * (x_bb T a b i m)).
(** ccpy/lib/fortran/crcc_loops.f90, creomcc23D_opt, lines 1424-1430 (array X3D at (a,b,c) for the loop indices i, j, k) *)
Definition creom_X3bbb (d : dims) (H0 H : ints) (T Y L : amps) : mat6 := fun a b c i j k =>
  (-1) / 2 * (sumn (nob d) (fun m => (i_bb_vooo H a m i j) * (x_bb T b c m k))) + 1 / 2 * (sumn (nob d) (fun m => (i_bb_vooo H a m k j) * (x_bb T b c m i))) + 1 / 2 * (sumn (nob d) (fun m => (i_bb_vooo H a m i k) * (x_bb T b c m j))) + 1 / 2 * (sumn (nub d) (fun e => (creom_I2C_vvov d H0 H T Y L a b i e) * (x_bb T e c j k))) + (-1) / 2 * (sumn (nub d) (fun e => (creom_I2C_vvov d H0 H T Y L a b j e) * (x_bb T e c i k))) + (-1) / 2 * (sumn (nub d) (fun e => (creom_I2C_vvov d H0 H T Y L a b k e) * (x_bb T e c j i))).
(** ccpy/lib/fortran/crcc_loops.f90, creomcc23D_opt, lines 1433-1439 (array L3D at (a,b,c) for the loop indices i, j, k) *)
Definition creom_L3bbb (d : dims) (H0 H : ints) (T Y L : amps) : mat6 := fun a b c i j k =>
  1 / 2 * (sumn (nub d) (fun e => (i_bb_vovv H e i b a) * (x_bb L e c j k))) + (-1) / 2 * (sumn (nub d) (fun e => (i_bb_vovv H e j b a) * (x_bb L e c i k))) + (-1) / 2 * (sumn (nub d) (fun e => (i_bb_vovv H e k b a) * (x_bb L e c j i))) + (-1) / 2 * (sumn (nob d) (fun m => (i_bb_ooov H j i m a) * (x_bb L b c m k))) + 1 / 2 * (sumn (nob d) (fun m => (i_bb_ooov H k i m a) * (x_bb L b c m j))) + 1 / 2 * (sumn (nob d) (fun m => (i_bb_ooov H j k m a) * (x_bb L b c m i))).
(** ccpy/lib/fortran/crcc_loops.f90, creomcc23D_opt, lines 1407-1421 (array Y3D at (a,b,c) for the loop indices i, j, k) *)
Definition creom_Y3bbb (d : dims) (H0 H : ints) (T Y L : amps) : mat6 := fun a b c i j k =>
  1 / 2 * (sumn (nub d) (fun e => (creom_X_bb_vvov_1 d H0 H T Y L b a j e) * (x_bb T e c i k))) + (-1) / 2 * (sumn (nub d) (fun e => (creom_X_bb_vvov_1 d H0 H T Y L b a k e) * (x_bb T e c i j))) + (-1) / 2 * (sumn (nub d) (fun e => (creom_X_bb_vvov_1 d H0 H T Y L b a i e) * (x_bb T e c j k))) + 1 / 2 * (sumn (nub d) (fun e => (i_bb_vvov H b a j e) * (x_bb Y e c i k))) + (-1) / 2 * (sumn (nub d) (fun e => (i_bb_vvov H b a k e) * (x_bb Y e c i j))) + (-1) / 2 * (sumn (nub d) (fun e => (i_bb_vvov H b a i e) * (x_bb Y e c j k))) + (-1) / 2 * (sumn (nob d) (fun m => (x_bb T a b m j) * (creom_X_bb_vooo_1 d H0 H T Y L c m k i))) + 1 / 2 * (sumn (nob d) (fun m => (x_bb T a b m i) * (creom_X_bb_vooo_1 d H0 H T Y L c m k j))) + 1 / 2 * (sumn (nob d) (fun m => (x_bb T a b m k) * (creom_X_bb_vooo_1 d H0 H T Y L c m j i))) + (-1) / 2 * (sumn (nob d) (fun m => (x_bb Y a b m j) * (i_bb_vooo H c m k i))) + 1 / 2 * (sumn (nob d) (fun m => (x_bb Y a b m i) * (i_bb_vooo H c m k j))) + 1 / 2 * (sumn (nob d) (fun m => (x_bb Y a b m k) * (i_bb_vooo H c m j i))).
(** ccpy/lib/fortran/crcc_loops.f90, creomcc23D_opt, lines 1445-1446 *)
Definition creom_M_bbb (d : dims) (H0 H : ints) (T Y L : amps) : mat6 := fun a b c i j k =>
  creom_X3bbb d H0 H T Y L a b c i j k + creom_X3bbb d H0 H T Y L b c a i j k + creom_X3bbb d H0 H T Y L c a b i j k - creom_X3bbb d H0 H T Y L a c b i j k - creom_X3bbb d H0 H T Y L b a c i j k - creom_X3bbb d H0 H T Y L c b a i j k.
(** ccpy/lib/fortran/crcc_loops.f90, creomcc23D_opt, lines 1448-1449 *)
Definition creom_L2_bbb (d : dims) (H0 H : ints) (T Y L : amps) : mat6 := fun a b c i j k =>
  creom_L3bbb d H0 H T Y L a b c i j k + creom_L3bbb d H0 H T Y L b c a i j k + creom_L3bbb d H0 H T Y L c a b i j k - creom_L3bbb d H0 H T Y L a c b i j k - creom_L3bbb d H0 H T Y L b a c i j k - creom_L3bbb d H0 H T Y L c b a i j k.
(** ccpy/lib/fortran/crcc_loops.f90, creomcc23D_opt, lines 1451-1469 *)
Definition creom_L1_bbb (d : dims) (H0 H : ints) (T Y L : amps) : mat6 := fun a b c i j k =>
  (x_b L c k) * (i_bb_oovv H i j a b) - (x_b L a k) * (i_bb_oovv H i j c b) - (x_b L b k) * (i_bb_oovv H i j a c) - (x_b L c i) * (i_bb_oovv H k j a b) - (x_b L c j) * (i_bb_oovv H i k a b) + (x_b L a i) * (i_bb_oovv H k j c b) + (x_b L b i) * (i_bb_oovv H k j a c) + (x_b L a j) * (i_bb_oovv H i k c b) + (x_b L b j) * (i_bb_oovv H i k a c) + (i_b_ov H k c) * (x_bb L a b i j) - (i_b_ov H k a) * (x_bb L c b i j) - (i_b_ov H k b) * (x_bb L a c i j) - (i_b_ov H i c) * (x_bb L a b k j) - (i_b_ov H j c) * (x_bb L a b i k) + (i_b_ov H i a) * (x_bb L c b k j) + (i_b_ov H i b) * (x_bb L a c k j) + (i_b_ov H j a) * (x_bb L c b i k) + (i_b_ov H j b) * (x_bb L a c i k).
(** ccpy/lib/fortran/crcc_loops.f90, creomcc23D_opt, lines 1471-1472 *)
Definition creom_N_bbb (d : dims) (H0 H : ints) (T Y L : amps) : mat6 := fun a b c i j k =>
  creom_Y3bbb d H0 H T Y L a b c i j k + creom_Y3bbb d H0 H T Y L b c a i j k + creom_Y3bbb d H0 H T Y L c a b i j k - creom_Y3bbb d H0 H T Y L a c b i j k - creom_Y3bbb d H0 H T Y L b a c i j k - creom_Y3bbb d H0 H T Y L c b a i j k.
(** ccpy/lib/fortran/crcc_loops.f90, creomcc23D_opt, lines 1474-1474 *)
Definition creom_L_bbb (d : dims) (H0 H : ints) (T Y L : amps) : mat6 := fun a b c i j k =>
  creom_L2_bbb d H0 H T Y L a b c i j k + creom_L1_bbb d H0 H T Y L a b c i j k.
(** ccpy/lib/fortran/crcc_loops.f90, creomcc23D_opt, lines 1477-1478 *)
Definition creom_DA_bbb (d : dims) (H0 H : ints) (T Y L : amps) : mat6 := fun a b c i j k =>
  i_b_oo H0 i i + i_b_oo H0 j j + i_b_oo H0 k k - i_b_vv H0 a a - i_b_vv H0 b b - i_b_vv H0 c c.
(** ccpy/lib/fortran/crcc_loops.f90, creomcc23D_opt, lines 1483-1484 *)
Definition creom_DB_bbb (d : dims) (H0 H : ints) (T Y L : amps) : mat6 := fun a b c i j k =>
  i_b_oo H i i + i_b_oo H j j + i_b_oo H k k - i_b_vv H a a - i_b_vv H b b - i_b_vv H c c.
(** ccpy/lib/fortran/crcc_loops.f90, creomcc23D_opt, lines 1489-1494 *)
Definition creom_DC_bbb (d : dims) (H0 H : ints) (T Y L : amps) : mat6 := fun a b c i j k =>
  creom_DB_bbb d H0 H T Y L a b c i j k + ((- (i_bb_voov H a i i a)) - i_bb_voov H b i i b - i_bb_voov H c i i c - i_bb_voov H a j j a - i_bb_voov H b j j b - i_bb_voov H c j j c - i_bb_voov H a k k a - i_bb_voov H b k k b - i_bb_voov H c k k c - i_bb_oooo H j i j i - i_bb_oooo H k i k i - i_bb_oooo H k j k j - crcc_h_bb_vvvv H b a - crcc_h_bb_vvvv H c a - crcc_h_bb_vvvv H c b).
(** ccpy/lib/fortran/crcc_loops.f90, creomcc23D_opt, lines 1500-1506 *)
Definition creom_DD_bbb (d : dims) (H0 H : ints) (T Y L : amps) : mat6 := fun a b c i j k =>
  creom_DC_bbb d H0 H T Y L a b c i j k + (crcc_d3bbb_o d H0 H T L a i j + crcc_d3bbb_o d H0 H T L a i k + crcc_d3bbb_o d H0 H T L a j k + crcc_d3bbb_o d H0 H T L b i j + crcc_d3bbb_o d H0 H T L b i k + crcc_d3bbb_o d H0 H T L b j k + crcc_d3bbb_o d H0 H T L c i j + crcc_d3bbb_o d H0 H T L c i k + crcc_d3bbb_o d H0 H T L c j k - crcc_d3bbb_v d H0 H T L a i b - crcc_d3bbb_v d H0 H T L a i c - crcc_d3bbb_v d H0 H T L b i c - crcc_d3bbb_v d H0 H T L a j b - crcc_d3bbb_v d H0 H T L a j c - crcc_d3bbb_v d H0 H T L b j c - crcc_d3bbb_v d H0 H T L a k b - crcc_d3bbb_v d H0 H T L a k c - crcc_d3bbb_v d H0 H T L b k c).
(** ccpy/lib/fortran/crcc_loops.f90, creomcc23A_opt: the do loops over i, j, k, a, b, c (lines 724-769), innermost last *)
Definition creom_loop_aaa (d : dims) : list (nat * nat * nat * nat * nat * nat) :=
  flat_map (fun i => flat_map (fun j => flat_map (fun k => flat_map (fun a => flat_map (fun b => map (fun c => (a, b, c, i, j, k)) (seq (S b) (nua d - S b))) (seq (S a) (nua d - S a))) (seq 0 (nua d))) (seq (S j) (noa d - S j))) (seq (S i) (noa d - S i))) (seq 0 (noa d)).
(** ccpy/lib/fortran/crcc_loops.f90, creomcc23A_opt, lines 667-842: deltaA .. deltaD and ddeltaA .. ddeltaD *)
Definition creomcc23A_opt (d : dims) (H0 H : ints) (T Y L : amps) (omega r0 : R) : quad * quad :=
  fold_left (fun s q => let '(a, b, c, i, j, k) := q in let LM := (r0 * creom_M_aaa d H0 H T Y L a b c i j k + creom_N_aaa d H0 H T Y L a b c i j k) * creom_L_aaa d H0 H T Y L a b c i j k in
    let LM1 := creom_N_aaa d H0 H T Y L a b c i j k * creom_L_aaa d H0 H T Y L a b c i j k in
    (quad_add (fst s) (LM / (omega + creom_DA_aaa d H0 H T Y L a b c i j k), LM / (omega + creom_DB_aaa d H0 H T Y L a b c i j k), LM / (omega + creom_DC_aaa d H0 H T Y L a b c i j k), LM / (omega + creom_DD_aaa d H0 H T Y L a b c i j k)),
     quad_add (snd s) (LM1 / (omega + creom_DA_aaa d H0 H T Y L a b c i j k), LM1 / (omega + creom_DB_aaa d H0 H T Y L a b c i j k), LM1 / (omega + creom_DC_aaa d H0 H T Y L a b c i j k), LM1 / (omega + creom_DD_aaa d H0 H T Y L a b c i j k)))) (creom_loop_aaa d) ((0, 0, 0, 0), (0, 0, 0, 0)).
(** ccpy/lib/fortran/crcc_loops.f90, creomcc23B_opt: the do loops over i, j, k, a, b, c (lines 949-1027), innermost last *)
Definition creom_loop_aab (d : dims) : list (nat * nat * nat * nat * nat * nat) :=
  flat_map (fun i => flat_map (fun j => flat_map (fun k => flat_map (fun a => flat_map (fun b => map (fun c => (a, b, c, i, j, k)) (seq 0 (nub d))) (seq (S a) (nua d - S a))) (seq 0 (nua d))) (seq 0 (nob d))) (seq (S i) (noa d - S i))) (seq 0 (noa d)).
(** ccpy/lib/fortran/crcc_loops.f90, creomcc23B_opt, lines 844-1085: deltaA .. deltaD and ddeltaA .. ddeltaD *)
Definition creomcc23B_opt (d : dims) (H0 H : ints) (T Y L : amps) (omega r0 : R) : quad * quad :=
  fold_left (fun s q => let '(a, b, c, i, j, k) := q in let LM := (r0 * creom_M_aab d H0 H T Y L a b c i j k + creom_N_aab d H0 H T Y L a b c i j k) * creom_L_aab d H0 H T Y L a b c i j k in
    let LM1 := creom_N_aab d H0 H T Y L a b c i j k * creom_L_aab d H0 H T Y L a b c i j k in
    (quad_add (fst s) (LM / (omega + creom_DA_aab d H0 H T Y L a b c i j k), LM / (omega + creom_DB_aab d H0 H T Y L a b c i j k), LM / (omega + creom_DC_aab d H0 H T Y L a b c i j k), LM / (omega + creom_DD_aab d H0 H T Y L a b c i j k)),
     quad_add (snd s) (LM1 / (omega + creom_DA_aab d H0 H T Y L a b c i j k), LM1 / (omega + creom_DB_aab d H0 H T Y L a b c i j k), LM1 / (omega + creom_DC_aab d H0 H T Y L a b c i j k), LM1 / (omega + creom_DD_aab d H0 H T Y L a b c i j k)))) (creom_loop_aab d) ((0, 0, 0, 0), (0, 0, 0, 0)).
(** ccpy/lib/fortran/crcc_loops.f90, creomcc23C_opt: the do loops over i, j, k, a, b, c (lines 1204-1283), innermost last *)
Definition creom_loop_abb (d : dims) : list (nat * nat * nat * nat * nat * nat) :=
  flat_map (fun i => flat_map (fun j => flat_map (fun k => flat_map (fun a => flat_map (fun b => map (fun c => (a, b, c, i, j, k)) (seq (S b) (nub d - S b))) (seq 0 (nub d))) (seq 0 (nua d))) (seq (S j) (nob d - S j))) (seq 0 (nob d))) (seq 0 (noa d)).
(** ccpy/lib/fortran/crcc_loops.f90, creomcc23C_opt, lines 1087-1341: deltaA .. deltaD and ddeltaA .. ddeltaD *)
Definition creomcc23C_opt (d : dims) (H0 H : ints) (T Y L : amps) (omega r0 : R) : quad * quad :=
  fold_left (fun s q => let '(a, b, c, i, j, k) := q in let LM := (r0 * creom_M_abb d H0 H T Y L a b c i j k + creom_N_abb d H0 H T Y L a b c i j k) * creom_L_abb d H0 H T Y L a b c i j k in
    let LM1 := creom_N_abb d H0 H T Y L a b c i j k * creom_L_abb d H0 H T Y L a b c i j k in
    (quad_add (fst s) (LM / (omega + creom_DA_abb d H0 H T Y L a b c i j k), LM / (omega + creom_DB_abb d H0 H T Y L a b c i j k), LM / (omega + creom_DC_abb d H0 H T Y L a b c i j k), LM / (omega + creom_DD_abb d H0 H T Y L a b c i j k)),
     quad_add (snd s) (LM1 / (omega + creom_DA_abb d H0 H T Y L a b c i j k), LM1 / (omega + creom_DB_abb d H0 H T Y L a b c i j k), LM1 / (omega + creom_DC_abb d H0 H T Y L a b c i j k), LM1 / (omega + creom_DD_abb d H0 H T Y L a b c i j k)))) (creom_loop_abb d) ((0, 0, 0, 0), (0, 0, 0, 0)).
(** ccpy/lib/fortran/crcc_loops.f90, creomcc23D_opt: the do loops over i, j, k, a, b, c (lines 1398-1443), innermost last *)
Definition creom_loop_bbb (d : dims) : list (nat * nat * nat * nat * nat * nat) :=
  flat_map (fun i => flat_map (fun j => flat_map (fun k => flat_map (fun a => flat_map (fun b => map (fun c => (a, b, c, i, j, k)) (seq (S b) (nub d - S b))) (seq (S a) (nub d - S a))) (seq 0 (nub d))) (seq (S j) (nob d - S j))) (seq (S i) (nob d - S i))) (seq 0 (nob d)).
(** ccpy/lib/fortran/crcc_loops.f90, creomcc23D_opt, lines 1343-1517: deltaA .. deltaD and ddeltaA .. ddeltaD *)
Definition creomcc23D_opt (d : dims) (H0 H : ints) (T Y L : amps) (omega r0 : R) : quad * quad :=
  fold_left (fun s q => let '(a, b, c, i, j, k) := q in let LM := (r0 * creom_M_bbb d H0 H T Y L a b c i j k + creom_N_bbb d H0 H T Y L a b c i j k) * creom_L_bbb d H0 H T Y L a b c i j k in
    let LM1 := creom_N_bbb d H0 H T Y L a b c i j k * creom_L_bbb d H0 H T Y L a b c i j k in
    (quad_add (fst s) (LM / (omega + creom_DA_bbb d H0 H T Y L a b c i j k), LM / (omega + creom_DB_bbb d H0 H T Y L a b c i j k), LM / (omega + creom_DC_bbb d H0 H T Y L a b c i j k), LM / (omega + creom_DD_bbb d H0 H T Y L a b c i j k)),
     quad_add (snd s) (LM1 / (omega + creom_DA_bbb d H0 H T Y L a b c i j k), LM1 / (omega + creom_DB_bbb d H0 H T Y L a b c i j k), LM1 / (omega + creom_DC_bbb d H0 H T Y L a b c i j k), LM1 / (omega + creom_DD_bbb d H0 H T Y L a b c i j k)))) (creom_loop_bbb d) ((0, 0, 0, 0), (0, 0, 0, 0)).
Definition both (f : quad -> quad -> quad) (p q : quad * quad) : quad * quad := (f (fst p) (fst q), f (snd p) (snd q)).
(** ccpy/moments/creomcc23.py, calc_creomcc23, lines 75-126: correction_A .. correction_D and dcorrection_A .. dcorrection_D (delta23, ddelta23) *)
Definition calc_creomcc23_delta (d : dims) (H0 H : ints) (T Y L : amps) (omega r0 : R) (use_RHF : bool) : quad * quad :=
  let A := creomcc23A_opt d H0 H T Y L omega r0 in let B := creomcc23B_opt d H0 H T Y L omega r0 in
  let C := creomcc23C_opt d H0 H T Y L omega r0 in let D := creomcc23D_opt d H0 H T Y L omega r0 in
  if use_RHF then both quad_add (both (fun p _ => quad_scale 2 p) A A) (both (fun p _ => quad_scale 2 p) B B)
  else both quad_add (both quad_add (both quad_add A B) C) D.
(** ccpy/moments/creomcc23.py, calc_creomcc23, lines 128-141 and 193: the total energies Ecrcc23 *)
Definition calc_creomcc23 (d : dims) (H0 H : ints) (T Y L : amps) (omega r0 reference_energy corr_energy : R) (use_RHF : bool) : quad :=
  let add x := reference_energy + (corr_energy + omega + x) in
  let '(a, b, c, e) := fst (calc_creomcc23_delta d H0 H T Y L omega r0 use_RHF) in (add a, add b, add c, add e).
