(** Generated by tools/gen_ccsdpt.py from the source text (symbolic execution of the numpy statements; exact reals).
    Models ccpy/moments/crcc23.py (calc_ccsdpt) and ccpy/lib/fortran/ccsdpt_loops.f90 (ccsdptA_opt .. ccsdptD_opt).  H: the bare Hamiltonian with its Fock blocks, T: the cluster
    amplitudes.  A dgemm call is the sum over the contracted axis it computes; a reorder_stripe call is the transposition it names (proved in ReorderProps.v). *)
From Coq Require Import Reals Arith List.
From Verif Require Import RSum IntegralsModel TensorObjs.
Import ListNotations.
Open Scope R_scope.
(** ccpy/lib/fortran/ccsdpt_loops.f90, ccsdptA_opt, lines 43-49 (array X3A at (a,b,c) for the loop indices i, j, k) *)
Definition pt_X3aaa (d : dims) (H : ints) (T : amps) : mat6 := fun a b c i j k =>
  (-1) / 2 * (sumn (noa d) (fun m => (i_aa_vooo H a m i j) * (x_aa T b c m k))) + 1 / 2 * (sumn (noa d) (fun m => (i_aa_vooo H a m k j) * (x_aa T b c m i))) + 1 / 2 * (sumn (noa d) (fun m => (i_aa_vooo H a m i k) * (x_aa T b c m j))) + 1 / 2 * (sumn (nua d) (fun e => (i_aa_vvov H a b i e) * (x_aa T e c j k))) + (-1) / 2 * (sumn (nua d) (fun e => (i_aa_vvov H a b j e) * (x_aa T e c i k))) + (-1) / 2 * (sumn (nua d) (fun e => (i_aa_vvov H a b k e) * (x_aa T e c j i))).
(** ccpy/lib/fortran/ccsdpt_loops.f90, ccsdptA_opt, lines 64-65 *)
Definition pt_M_aaa (d : dims) (H : ints) (T : amps) : mat6 := fun a b c i j k =>
  pt_X3aaa d H T a b c i j k + pt_X3aaa d H T b c a i j k + pt_X3aaa d H T c a b i j k - pt_X3aaa d H T a c b i j k - pt_X3aaa d H T b a c i j k - pt_X3aaa d H T c b a i j k.
(** ccpy/lib/fortran/ccsdpt_loops.f90, ccsdptA_opt, lines 70-90 *)
Definition pt_S_aaa (d : dims) (H : ints) (T : amps) : mat6 := fun a b c i j k =>
  (x_a T c k) * (i_aa_oovv H i j a b) - (x_a T a k) * (i_aa_oovv H i j c b) - (x_a T b k) * (i_aa_oovv H i j a c) - (x_a T c i) * (i_aa_oovv H k j a b) - (x_a T c j) * (i_aa_oovv H i k a b) + (x_a T a i) * (i_aa_oovv H k j c b) + (x_a T b i) * (i_aa_oovv H k j a c) + (x_a T a j) * (i_aa_oovv H i k c b) + (x_a T b j) * (i_aa_oovv H i k a c) + (i_a_ov H k c) * (x_aa T a b i j) - (i_a_ov H k a) * (x_aa T c b i j) - (i_a_ov H k b) * (x_aa T a c i j) - (i_a_ov H i c) * (x_aa T a b k j) - (i_a_ov H j c) * (x_aa T a b i k) + (i_a_ov H i a) * (x_aa T c b k j) + (i_a_ov H i b) * (x_aa T a c k j) + (i_a_ov H j a) * (x_aa T c b i k) + (i_a_ov H j b) * (x_aa T a c i k).
(** ccpy/lib/fortran/ccsdpt_loops.f90, ccsdptA_opt, lines 92-92 *)
Definition pt_L_aaa (d : dims) (H : ints) (T : amps) : mat6 := fun a b c i j k =>
  pt_M_aaa d H T a b c i j k + pt_S_aaa d H T a b c i j k.
(** ccpy/lib/fortran/ccsdpt_loops.f90, ccsdptA_opt, lines 94-95 *)
Definition pt_D_aaa (d : dims) (H : ints) (T : amps) : mat6 := fun a b c i j k =>
  i_a_oo H i i + i_a_oo H j j + i_a_oo H k k - i_a_vv H a a - i_a_vv H b b - i_a_vv H c c.
(** ccpy/lib/fortran/ccsdpt_loops.f90, ccsdptB_opt, lines 166-180 (array X3B at (a,b,c) for the loop indices i, j, k) *)
Definition pt_X3aab (d : dims) (H : ints) (T : amps) : mat6 := fun a b c i j k =>
  1 / 1 * (sumn (nua d) (fun e => (x_aa T a e i j) * (i_ab_vvvo H b c e k))) + 1 / 2 * (sumn (noa d) (fun m => (x_aa T a b m i) * (i_ab_ovoo H m c j k))) + (-1) / 2 * (sumn (noa d) (fun m => (x_aa T a b m j) * (i_ab_ovoo H m c i k))) + 1 / 1 * (sumn (nub d) (fun e => (x_ab T a e i k) * (i_ab_vvov H b c j e))) + (-1) / 1 * (sumn (nub d) (fun e => (x_ab T a e j k) * (i_ab_vvov H b c i e))) + (-1) / 1 * (sumn (nob d) (fun m => (i_ab_vooo H a m i k) * (x_ab T b c j m))) + 1 / 1 * (sumn (nob d) (fun m => (i_ab_vooo H a m j k) * (x_ab T b c i m))) + 1 / 2 * (sumn (nua d) (fun e => (i_aa_vvov H a b i e) * (x_ab T e c j k))) + (-1) / 2 * (sumn (nua d) (fun e => (i_aa_vvov H a b j e) * (x_ab T e c i k))) + (-1) / 1 * (sumn (noa d) (fun m => (i_aa_vooo H a m i j) * (x_ab T b c m k))).
(** ccpy/lib/fortran/ccsdpt_loops.f90, ccsdptB_opt, lines 203-203 *)
Definition pt_M_aab (d : dims) (H : ints) (T : amps) : mat6 := fun a b c i j k =>
  pt_X3aab d H T a b c i j k - pt_X3aab d H T b a c i j k.
(** ccpy/lib/fortran/ccsdpt_loops.f90, ccsdptB_opt, lines 205-216 *)
Definition pt_S_aab (d : dims) (H : ints) (T : amps) : mat6 := fun a b c i j k =>
  (x_a T a i) * (i_ab_oovv H j k b c) - (x_a T a j) * (i_ab_oovv H i k b c) - (x_a T b i) * (i_ab_oovv H j k a c) + (x_a T b j) * (i_ab_oovv H i k a c) + (x_b T c k) * (i_aa_oovv H i j a b) + (x_ab T b c j k) * (i_a_ov H i a) - (x_ab T b c i k) * (i_a_ov H j a) - (x_ab T a c j k) * (i_a_ov H i b) + (x_ab T a c i k) * (i_a_ov H j b) + (x_aa T a b i j) * (i_b_ov H k c).
(** ccpy/lib/fortran/ccsdpt_loops.f90, ccsdptB_opt, lines 218-218 *)
Definition pt_L_aab (d : dims) (H : ints) (T : amps) : mat6 := fun a b c i j k =>
  pt_M_aab d H T a b c i j k + pt_S_aab d H T a b c i j k.
(** ccpy/lib/fortran/ccsdpt_loops.f90, ccsdptB_opt, lines 220-221 *)
Definition pt_D_aab (d : dims) (H : ints) (T : amps) : mat6 := fun a b c i j k =>
  i_a_oo H i i + i_a_oo H j j + i_b_oo H k k - i_a_vv H a a - i_a_vv H b b - i_b_vv H c c.
(** ccpy/lib/fortran/ccsdpt_loops.f90, ccsdptC_opt, lines 297-311 (array X3C at (a,b,c) for the loop indices i, j, k) *)
Definition pt_X3abb (d : dims) (H : ints) (T : amps) : mat6 := fun a b c i j k =>
  1 / 1 * (sumn (nub d) (fun e => (i_ab_vvov H a b i e) * (x_bb T e c j k))) + (-1) / 2 * (sumn (nob d) (fun m => (i_ab_vooo H a m i j) * (x_bb T b c m k))) + 1 / 2 * (sumn (nob d) (fun m => (i_ab_vooo H a m i k) * (x_bb T b c m j))) + 1 / 2 * (sumn (nub d) (fun e => (x_ab T a e i j) * (i_bb_vvov H c b k e))) + (-1) / 2 * (sumn (nub d) (fun e => (x_ab T a e i k) * (i_bb_vvov H c b j e))) + (-1) / 1 * (sumn (nob d) (fun m => (x_ab T a b i m) * (i_bb_vooo H c m k j))) + 1 / 1 * (sumn (nua d) (fun e => (i_ab_vvvo H a b e j) * (x_ab T e c i k))) + (-1) / 1 * (sumn (nua d) (fun e => (i_ab_vvvo H a b e k) * (x_ab T e c i j))) + (-1) / 1 * (sumn (noa d) (fun m => (x_ab T a b m j) * (i_ab_ovoo H m c i k))) + 1 / 1 * (sumn (noa d) (fun m => (x_ab T a b m k) * (i_ab_ovoo H m c i j))).
(** ccpy/lib/fortran/ccsdpt_loops.f90, ccsdptC_opt, lines 335-335 *)
Definition pt_M_abb (d : dims) (H : ints) (T : amps) : mat6 := fun a b c i j k =>
  pt_X3abb d H T a b c i j k - pt_X3abb d H T a c b i j k.
(** ccpy/lib/fortran/ccsdpt_loops.f90, ccsdptC_opt, lines 337-348 *)
Definition pt_S_abb (d : dims) (H : ints) (T : amps) : mat6 := fun a b c i j k =>
  (x_b T c k) * (i_ab_oovv H i j a b) - (x_b T b k) * (i_ab_oovv H i j a c) - (x_b T c j) * (i_ab_oovv H i k a b) + (x_b T b j) * (i_ab_oovv H i k a c) + (x_a T a i) * (i_bb_oovv H j k b c) + (i_b_ov H k c) * (x_ab T a b i j) - (i_b_ov H k b) * (x_ab T a c i j) - (i_b_ov H j c) * (x_ab T a b i k) + (i_b_ov H j b) * (x_ab T a c i k) + (i_a_ov H i a) * (x_bb T b c j k).
(** ccpy/lib/fortran/ccsdpt_loops.f90, ccsdptC_opt, lines 350-350 *)
Definition pt_L_abb (d : dims) (H : ints) (T : amps) : mat6 := fun a b c i j k =>
  pt_M_abb d H T a b c i j k + pt_S_abb d H T a b c i j k.
(** ccpy/lib/fortran/ccsdpt_loops.f90, ccsdptC_opt, lines 352-353 *)
Definition pt_D_abb (d : dims) (H : ints) (T : amps) : mat6 := fun a b c i j k =>
  i_a_oo H i i + i_b_oo H j j + i_b_oo H k k - i_a_vv H a a - i_b_vv H b b - i_b_vv H c c.
(** ccpy/lib/fortran/ccsdpt_loops.f90, ccsdptD_opt, lines 396-402 (array X3D at (a,b,c) for the loop indices i, j, k) *)
Definition pt_X3bbb (d : dims) (H : ints) (T : amps) : mat6 := fun a b c i j k =>
  (-1) / 2 * (sumn (nob d) (fun m => (i_bb_vooo H a m i j) * (x_bb T b c m k))) + 1 / 2 * (sumn (nob d) (fun m => (i_bb_vooo H a m k j) * (x_bb T b c m i))) + 1 / 2 * (sumn (nob d) (fun m => (i_bb_vooo H a m i k) * (x_bb T b c m j))) + 1 / 2 * (sumn (nub d) (fun e => (i_bb_vvov H a b i e) * (x_bb T e c j k))) + (-1) / 2 * (sumn (nub d) (fun e => (i_bb_vvov H a b j e) * (x_bb T e c i k))) + (-1) / 2 * (sumn (nub d) (fun e => (i_bb_vvov H a b k e) * (x_bb T e c j i))).
(** ccpy/lib/fortran/ccsdpt_loops.f90, ccsdptD_opt, lines 417-418 *)
Definition pt_M_bbb (d : dims) (H : ints) (T : amps) : mat6 := fun a b c i j k =>
  pt_X3bbb d H T a b c i j k + pt_X3bbb d H T b c a i j k + pt_X3bbb d H T c a b i j k - pt_X3bbb d H T a c b i j k - pt_X3bbb d H T b a c i j k - pt_X3bbb d H T c b a i j k.
(** ccpy/lib/fortran/ccsdpt_loops.f90, ccsdptD_opt, lines 423-443 *)
Definition pt_S_bbb (d : dims) (H : ints) (T : amps) : mat6 := fun a b c i j k =>
  (x_b T c k) * (i_bb_oovv H i j a b) - (x_b T a k) * (i_bb_oovv H i j c b) - (x_b T b k) * (i_bb_oovv H i j a c) - (x_b T c i) * (i_bb_oovv H k j a b) - (x_b T c j) * (i_bb_oovv H i k a b) + (x_b T a i) * (i_bb_oovv H k j c b) + (x_b T b i) * (i_bb_oovv H k j a c) + (x_b T a j) * (i_bb_oovv H i k c b) + (x_b T b j) * (i_bb_oovv H i k a c) + (i_b_ov H k c) * (x_bb T a b i j) - (i_b_ov H k a) * (x_bb T c b i j) - (i_b_ov H k b) * (x_bb T a c i j) - (i_b_ov H i c) * (x_bb T a b k j) - (i_b_ov H j c) * (x_bb T a b i k) + (i_b_ov H i a) * (x_bb T c b k j) + (i_b_ov H i b) * (x_bb T a c k j) + (i_b_ov H j a) * (x_bb T c b i k) + (i_b_ov H j b) * (x_bb T a c i k).
(** ccpy/lib/fortran/ccsdpt_loops.f90, ccsdptD_opt, lines 445-445 *)
Definition pt_L_bbb (d : dims) (H : ints) (T : amps) : mat6 := fun a b c i j k =>
  pt_M_bbb d H T a b c i j k + pt_S_bbb d H T a b c i j k.
(** ccpy/lib/fortran/ccsdpt_loops.f90, ccsdptD_opt, lines 447-448 *)
Definition pt_D_bbb (d : dims) (H : ints) (T : amps) : mat6 := fun a b c i j k =>
  i_b_oo H i i + i_b_oo H j j + i_b_oo H k k - i_b_vv H a a - i_b_vv H b b - i_b_vv H c c.
(** ccpy/lib/fortran/ccsdpt_loops.f90, ccsdptA_opt: the do loops over i, j, k, a, b, c (lines 35-62), innermost last *)
Definition pt_loop_aaa (d : dims) : list (nat * nat * nat * nat * nat * nat) :=
  flat_map (fun i => flat_map (fun j => flat_map (fun k => flat_map (fun a => flat_map (fun b => map (fun c => (a, b, c, i, j, k)) (seq (S b) (nua d - S b))) (seq (S a) (nua d - S a))) (seq 0 (nua d))) (seq (S j) (noa d - S j))) (seq (S i) (noa d - S i))) (seq 0 (noa d)).
(** ccpy/lib/fortran/ccsdpt_loops.f90, ccsdptA_opt, lines 11-106 *)
Definition ccsdptA_opt (d : dims) (H : ints) (T : amps) : R :=
  fold_left (fun s q => let '(a, b, c, i, j, k) := q in let LM := pt_M_aaa d H T a b c i j k * pt_L_aaa d H T a b c i j k in s + LM / pt_D_aaa d H T a b c i j k) (pt_loop_aaa d) 0.
(** ccpy/lib/fortran/ccsdpt_loops.f90, ccsdptB_opt: the do loops over i, j, k, a, b, c (lines 158-201), innermost last *)
Definition pt_loop_aab (d : dims) : list (nat * nat * nat * nat * nat * nat) :=
  flat_map (fun i => flat_map (fun j => flat_map (fun k => flat_map (fun a => flat_map (fun b => map (fun c => (a, b, c, i, j, k)) (seq 0 (nub d))) (seq (S a) (nua d - S a))) (seq 0 (nua d))) (seq 0 (nob d))) (seq (S i) (noa d - S i))) (seq 0 (noa d)).
(** ccpy/lib/fortran/ccsdpt_loops.f90, ccsdptB_opt, lines 108-231 *)
Definition ccsdptB_opt (d : dims) (H : ints) (T : amps) : R :=
  fold_left (fun s q => let '(a, b, c, i, j, k) := q in let LM := pt_M_aab d H T a b c i j k * pt_L_aab d H T a b c i j k in s + LM / pt_D_aab d H T a b c i j k) (pt_loop_aab d) 0.
(** ccpy/lib/fortran/ccsdpt_loops.f90, ccsdptC_opt: the do loops over i, j, k, a, b, c (lines 289-333), innermost last *)
Definition pt_loop_abb (d : dims) : list (nat * nat * nat * nat * nat * nat) :=
  flat_map (fun i => flat_map (fun j => flat_map (fun k => flat_map (fun a => flat_map (fun b => map (fun c => (a, b, c, i, j, k)) (seq (S b) (nub d - S b))) (seq 0 (nub d))) (seq 0 (nua d))) (seq (S j) (nob d - S j))) (seq 0 (nob d))) (seq 0 (noa d)).
(** ccpy/lib/fortran/ccsdpt_loops.f90, ccsdptC_opt, lines 233-362 *)
Definition ccsdptC_opt (d : dims) (H : ints) (T : amps) : R :=
  fold_left (fun s q => let '(a, b, c, i, j, k) := q in let LM := pt_M_abb d H T a b c i j k * pt_L_abb d H T a b c i j k in s + LM / pt_D_abb d H T a b c i j k) (pt_loop_abb d) 0.
(** ccpy/lib/fortran/ccsdpt_loops.f90, ccsdptD_opt: the do loops over i, j, k, a, b, c (lines 388-415), innermost last *)
Definition pt_loop_bbb (d : dims) : list (nat * nat * nat * nat * nat * nat) :=
  flat_map (fun i => flat_map (fun j => flat_map (fun k => flat_map (fun a => flat_map (fun b => map (fun c => (a, b, c, i, j, k)) (seq (S b) (nub d - S b))) (seq (S a) (nub d - S a))) (seq 0 (nub d))) (seq (S j) (nob d - S j))) (seq (S i) (nob d - S i))) (seq 0 (nob d)).
(** ccpy/lib/fortran/ccsdpt_loops.f90, ccsdptD_opt, lines 364-458 *)
Definition ccsdptD_opt (d : dims) (H : ints) (T : amps) : R :=
  fold_left (fun s q => let '(a, b, c, i, j, k) := q in let LM := pt_M_bbb d H T a b c i j k * pt_L_bbb d H T a b c i j k in s + LM / pt_D_bbb d H T a b c i j k) (pt_loop_bbb d) 0.
(** ccpy/moments/crcc23.py, calc_ccsdpt, lines 180-224: correction_A *)
Definition calc_ccsdpt_delta (d : dims) (H : ints) (T : amps) (use_RHF : bool) : R :=
  if use_RHF then 2 * ccsdptA_opt d H T + 2 * ccsdptB_opt d H T else ccsdptA_opt d H T + ccsdptB_opt d H T + ccsdptC_opt d H T + ccsdptD_opt d H T.
(** ccpy/moments/crcc23.py, calc_ccsdpt, lines 230-234: total_energy_A *)
Definition calc_ccsdpt (d : dims) (H : ints) (T : amps) (reference_energy corr_energy : R) (use_RHF : bool) : R :=
  reference_energy + (corr_energy + calc_ccsdpt_delta d H T use_RHF).
