(** Generated by tools/gen_sfx.py from the source text (symbolic execution of the numpy statements; exact reals).
    Specification vocabulary: the spin-flip (2,3) sigma vector of
    ccpy/eomcc/sfeomcc23_intermediates.py, ccpy/eomcc/sfeomcc23.py with eleven terms changed.  Left out of sfeomcc23_intermediates.py (lines 18, 31, 44, 58, 72, 85):
      0.5 * np.einsum("me,ecjk->mcjk", H.a.ov, R.ab)
      0.5 * np.einsum("me,aeik->amik", H.b.ov, R.ab)
      -np.einsum("me,acmk->acek", H.a.ov, R.ab)
      np.einsum("me,ecjk->mcjk", H.b.ov, R.bb)
      -0.5 * np.einsum("me,bcmk->bcek", H.b.ov, R.bb)
      -0.5 * np.einsum("me,bcjm->bcje", H.a.ov, R.bb)
    added after line 23, 50, 63, 77:
      + 0.5 * np.einsum("mcef,efjk->mcjk", H.ab.ovvv, R.ab)
      - np.einsum("mcef,afmk->acek", H.ab.ovvv, R.ab)
      - np.einsum("nmke,ecjn->mcjk", H.ab.ooov, R.bb)
      + 0.5 * np.einsum("mnke,bcnm->bcek", H.ab.ooov, R.bb)
    and the coefficient 2/12 in sfeomcc23.py line 148 replaced by 3/12.  The other definitions are those of Sector3Model.v under other names *)
From Coq Require Import Reals Arith.
From Verif Require Import RSum IntegralsModel TensorObjs.
Open Scope R_scope.
From Verif Require Import Sector3Model.
(** ccpy/eomcc/sfeomcc23.py, HR, lines 32-36 *)
Definition sfxr_x_oo (d : dims) (H : ints) (T : amps) (R : sftv) : mat2 := fun m j =>
  sumn (noa d) (fun n => sumn (nua d) (fun f => sumn (nub d) (fun e => (i_ab_oovv H n m f e) * (sft_ab R f e n j)))) + 1 / 2 * (sumn (nob d) (fun n => sumn (nub d) (fun e => sumn (nub d) (fun f => (i_bb_oovv H m n e f) * (sft_bb R f e n j))))) - sumn (noa d) (fun m' => sumn (nub d) (fun e => (i_ab_ooov H m' m j e) * (sft_b R e m'))).
(** ccpy/eomcc/sfeomcc23.py, HR, lines 38-42 *)
Definition sfxr_x_vv (d : dims) (H : ints) (T : amps) (R : sftv) : mat2 := fun b e =>
  (-1) / 2 * (sumn (noa d) (fun m => sumn (noa d) (fun n => sumn (nua d) (fun f => (i_aa_oovv H m n e f) * (sft_ab R f b n m))))) - sumn (noa d) (fun m => sumn (nob d) (fun n => sumn (nub d) (fun f => (i_ab_oovv H m n e f) * (sft_bb R f b n m)))) - sumn (noa d) (fun m => sumn (nub d) (fun e' => (i_ab_ovvv H m b e e') * (sft_b R e' m))).
(** ccpy/eomcc/sfeomcc23_intermediates.py, get_sfeomcc23_intermediates, line 10 *)
Definition sfxr_x_ov (d : dims) (H : ints) (T : amps) (R : sftv) : mat2 := fun n e =>
  (- (sumn (noa d) (fun m => sumn (nub d) (fun f => (i_ab_oovv H m n e f) * (sft_b R f m))))).
(** ccpy/eomcc/sfeomcc23_intermediates.py, get_sfeomcc23_intermediates, lines 17-25 *)
Definition sfxr_X_ab_ovoo (d : dims) (H : ints) (T : amps) (R : sftv) : mat4 := fun m c j k =>
  0 / 1 * (sumn (nua d) (fun e => (i_a_ov H m e) * (sft_ab R e c j k))) - 1 / 2 * (sumn (noa d) (fun n => (i_aa_oooo H m n j k) * (sft_b R c n))) + sumn (nub d) (fun e => (i_ab_ovov H m c j e) * (sft_b R e k)) + sumn (noa d) (fun n => sumn (nua d) (fun f => (i_aa_ooov H m n j f) * (sft_ab R f c n k))) + sumn (nob d) (fun n => sumn (nub d) (fun f => (i_ab_ooov H m n j f) * (sft_bb R f c n k))) + 1 / 4 * (sumn (noa d) (fun n => sumn (nua d) (fun e => sumn (nua d) (fun f => (i_aa_oovv H m n e f) * (sft_aab R e f c j n k))))) + 1 / 2 * (sumn (nua d) (fun e => sumn (nub d) (fun f => (i_ab_ovvv H m c e f) * (sft_ab R e f j k)))) + 1 / 2 * (sumn (nob d) (fun n => sumn (nua d) (fun e => sumn (nub d) (fun f => (i_ab_oovv H m n e f) * (sft_abb R e f c j n k))))).
(** ccpy/eomcc/sfeomcc23_intermediates.py, get_sfeomcc23_intermediates, line 27 *)
Definition sfxr_X_ab_ovoo_1 (d : dims) (H : ints) (T : amps) (R : sftv) : mat4 := fun m c j k =>
  sfxr_X_ab_ovoo d H T R m c j k - sfxr_X_ab_ovoo d H T R m c k j.
(** ccpy/eomcc/sfeomcc23_intermediates.py, get_sfeomcc23_intermediates, lines 30-38 *)
Definition sfxr_X_ab_vooo (d : dims) (H : ints) (T : amps) (R : sftv) : mat4 := fun a m i k =>
  0 / 1 * (sumn (nub d) (fun e => (i_b_ov H m e) * (sft_ab R a e i k))) + 1 / 2 * (sumn (nua d) (fun e => (sfxr_x_ov d H T R m e) * (x_aa T a e i k))) + sumn (nub d) (fun e => (i_ab_voov H a m i e) * (sft_b R e k)) - sumn (noa d) (fun n => sumn (nub d) (fun e => (i_ab_ooov H n m i e) * (sft_ab R a e n k))) + 1 / 2 * (sumn (nua d) (fun f => sumn (nub d) (fun e => (i_ab_vovv H a m f e) * (sft_ab R f e i k)))) + 1 / 2 * (sumn (noa d) (fun n => sumn (nua d) (fun f => sumn (nub d) (fun e => (i_ab_oovv H n m f e) * (sft_aab R a f e i n k))))) + 1 / 4 * (sumn (nob d) (fun n => sumn (nub d) (fun f => sumn (nub d) (fun e => (i_bb_oovv H n m f e) * (sft_abb R a f e i n k))))).
(** ccpy/eomcc/sfeomcc23_intermediates.py, get_sfeomcc23_intermediates, line 40 *)
Definition sfxr_X_ab_vooo_1 (d : dims) (H : ints) (T : amps) (R : sftv) : mat4 := fun a m i k =>
  sfxr_X_ab_vooo d H T R a m i k - sfxr_X_ab_vooo d H T R a m k i.
(** ccpy/eomcc/sfeomcc23_intermediates.py, get_sfeomcc23_intermediates, lines 43-54 *)
Definition sfxr_X_ab_vvvo (d : dims) (H : ints) (T : amps) (R : sftv) : mat4 := fun a c e k =>
  0 / 1 * (sumn (noa d) (fun m => (i_a_ov H m e) * (sft_ab R a c m k))) + sumn (nub d) (fun f => (i_ab_vvvv H a c e f) * (sft_b R f k)) + sumn (noa d) (fun m => (i_aa_voov H a m k e) * (sft_b R c m)) + sumn (noa d) (fun n => sumn (nua d) (fun f => (i_aa_vovv H a n e f) * (sft_ab R f c n k))) + sumn (nob d) (fun n => sumn (nub d) (fun f => (i_ab_vovv H a n e f) * (sft_bb R f c n k))) - 1 / 2 * (sumn (noa d) (fun m => sumn (noa d) (fun n => sumn (nua d) (fun f => (i_aa_oovv H m n e f) * (sft_aab R a f c m n k))))) - sumn (noa d) (fun m => sumn (nub d) (fun f => (i_ab_ovvv H m c e f) * (sft_ab R a f m k))) - sumn (noa d) (fun m => sumn (nob d) (fun n => sumn (nub d) (fun f => (i_ab_oovv H m n e f) * (sft_abb R a f c m n k)))) + 1 / 2 * (sumn (noa d) (fun m => sumn (noa d) (fun n => (i_aa_ooov H m n k e) * (sft_ab R a c n m)))).
(** ccpy/eomcc/sfeomcc23_intermediates.py, get_sfeomcc23_intermediates, lines 57-68 *)
Definition sfxr_X_bb_ovoo (d : dims) (H : ints) (T : amps) (R : sftv) : mat4 := fun m c j k =>
  0 / 1 * (sumn (nub d) (fun e => (i_b_ov H m e) * (sft_bb R e c j k))) - sumn (nub d) (fun e => (i_bb_voov H c m j e) * (sft_b R e k)) - sumn (noa d) (fun n => (i_ab_oooo H n m k j) * (sft_b R c n)) + sumn (noa d) (fun n => sumn (nua d) (fun f => (i_ab_oovo H n m f j) * (sft_ab R f c n k))) + sumn (nob d) (fun n => sumn (nub d) (fun f => (i_bb_ooov H m n j f) * (sft_bb R f c n k))) + sumn (noa d) (fun n => sumn (nua d) (fun f => sumn (nub d) (fun e => (i_ab_oovv H n m f e) * (sft_abb R f e c n j k)))) - sumn (noa d) (fun n => sumn (nub d) (fun e => (i_ab_ooov H n m k e) * (sft_bb R e c j n))) + 1 / 2 * (sumn (nob d) (fun n => sumn (nub d) (fun f => sumn (nub d) (fun e => (i_bb_oovv H n m f e) * (sft_bbb R f e c n j k))))) - sumn (nua d) (fun e => (sfxr_x_ov d H T R m e) * (x_ab T e c k j)) + 1 / 2 * (sumn (nub d) (fun f => sumn (nub d) (fun e => (i_bb_vovv H c m f e) * (sft_bb R e f j k)))).
(** ccpy/eomcc/sfeomcc23_intermediates.py, get_sfeomcc23_intermediates, lines 71-79 *)
Definition sfxr_X_bb_vvvo (d : dims) (H : ints) (T : amps) (R : sftv) : mat4 := fun b c e k =>
  0 / 1 * (sumn (nob d) (fun m => (i_b_ov H m e) * (sft_bb R b c m k))) - sumn (noa d) (fun m => (i_ab_ovov H m b k e) * (sft_b R c m)) + 1 / 2 * (sumn (nub d) (fun f => (i_bb_vvvv H b c e f) * (sft_b R f k))) + sumn (noa d) (fun n => sumn (nua d) (fun f => (i_ab_ovvv H n b f e) * (sft_ab R f c n k))) + sumn (nob d) (fun n => sumn (nub d) (fun f => (i_bb_vovv H b n e f) * (sft_bb R f c n k))) - 1 / 2 * (sumn (noa d) (fun n => sumn (nob d) (fun m => sumn (nua d) (fun f => (i_ab_oovv H n m f e) * (sft_abb R f b c n m k))))) + 1 / 2 * (sumn (noa d) (fun m => sumn (nob d) (fun n => (i_ab_ooov H m n k e) * (sft_bb R b c n m)))) - 1 / 4 * (sumn (nob d) (fun n => sumn (nob d) (fun m => sumn (nub d) (fun f => (i_bb_oovv H n m f e) * (sft_bbb R f b c n m k))))).
(** ccpy/eomcc/sfeomcc23_intermediates.py, get_sfeomcc23_intermediates, line 81 *)
Definition sfxr_X_bb_vvvo_1 (d : dims) (H : ints) (T : amps) (R : sftv) : mat4 := fun b c e k =>
  sfxr_X_bb_vvvo d H T R b c e k - sfxr_X_bb_vvvo d H T R c b e k.
(** ccpy/eomcc/sfeomcc23_intermediates.py, get_sfeomcc23_intermediates, lines 84-92 *)
Definition sfxr_X_bb_vvov (d : dims) (H : ints) (T : amps) (R : sftv) : mat4 := fun b c j e =>
  0 / 1 * (sumn (noa d) (fun m => (i_a_ov H m e) * (sft_bb R b c j m))) - sumn (noa d) (fun m => (i_ab_ovvo H m b e j) * (sft_b R c m)) - sumn (noa d) (fun m => sumn (nub d) (fun f => (i_ab_ovvv H m b e f) * (sft_bb R f c j m))) + 1 / 2 * (sumn (noa d) (fun m => sumn (nob d) (fun n => (i_ab_oovo H m n e j) * (sft_bb R b c n m)))) - 1 / 4 * (sumn (noa d) (fun m => sumn (noa d) (fun n => sumn (nua d) (fun f => (i_aa_oovv H m n e f) * (sft_abb R f b c n j m))))) - 1 / 2 * (sumn (noa d) (fun m => sumn (nob d) (fun n => sumn (nub d) (fun f => (i_ab_oovv H m n e f) * (sft_bbb R f b c n j m))))).
(** ccpy/eomcc/sfeomcc23_intermediates.py, get_sfeomcc23_intermediates, line 94 *)
Definition sfxr_X_bb_vvov_1 (d : dims) (H : ints) (T : amps) (R : sftv) : mat4 := fun b c j e =>
  sfxr_X_bb_vvov d H T R b c j e - sfxr_X_bb_vvov d H T R c b j e.
(** ccpy/eomcc/sfeomcc23.py, build_HR_1B, line 60 *)
Definition sfxr_x1b (d : dims) (H : ints) (T : amps) (R : sftv) : mat2 := fun a i =>
  sumn (nub d) (fun e => (i_b_vv H a e) * (sft_b R e i)).
(** ccpy/eomcc/sfeomcc23.py, build_HR_1B, line 61 *)
Definition sfxr_x1b_1 (d : dims) (H : ints) (T : amps) (R : sftv) : mat2 := fun a i =>
  sfxr_x1b d H T R a i - sumn (noa d) (fun m => (i_a_oo H m i) * (sft_b R a m)).
(** ccpy/eomcc/sfeomcc23.py, build_HR_1B, line 62 *)
Definition sfxr_x1b_2 (d : dims) (H : ints) (T : amps) (R : sftv) : mat2 := fun a i =>
  sfxr_x1b_1 d H T R a i - sumn (noa d) (fun m => sumn (nub d) (fun e => (i_ab_ovov H m a i e) * (sft_b R e m))).
(** ccpy/eomcc/sfeomcc23.py, build_HR_1B, line 64 *)
Definition sfxr_x1b_3 (d : dims) (H : ints) (T : amps) (R : sftv) : mat2 := fun a i =>
  sfxr_x1b_2 d H T R a i + sumn (noa d) (fun m => sumn (nua d) (fun e => (i_a_ov H m e) * (sft_ab R e a m i))).
(** ccpy/eomcc/sfeomcc23.py, build_HR_1B, line 65 *)
Definition sfxr_x1b_4 (d : dims) (H : ints) (T : amps) (R : sftv) : mat2 := fun a i =>
  sfxr_x1b_3 d H T R a i + sumn (nob d) (fun m => sumn (nub d) (fun e => (i_b_ov H m e) * (sft_bb R e a m i))).
(** ccpy/eomcc/sfeomcc23.py, build_HR_1B, line 66 *)
Definition sfxr_x1b_5 (d : dims) (H : ints) (T : amps) (R : sftv) : mat2 := fun a i =>
  sfxr_x1b_4 d H T R a i - 1 / 2 * (sumn (noa d) (fun m => sumn (noa d) (fun n => sumn (nua d) (fun f => (i_aa_ooov H m n i f) * (sft_ab R f a n m))))).
(** ccpy/eomcc/sfeomcc23.py, build_HR_1B, line 67 *)
Definition sfxr_x1b_6 (d : dims) (H : ints) (T : amps) (R : sftv) : mat2 := fun a i =>
  sfxr_x1b_5 d H T R a i - sumn (noa d) (fun m => sumn (nob d) (fun n => sumn (nub d) (fun f => (i_ab_ooov H m n i f) * (sft_bb R f a n m)))).
(** ccpy/eomcc/sfeomcc23.py, build_HR_1B, line 68 *)
Definition sfxr_x1b_7 (d : dims) (H : ints) (T : amps) (R : sftv) : mat2 := fun a i =>
  sfxr_x1b_6 d H T R a i + 1 / 2 * (sumn (nob d) (fun n => sumn (nub d) (fun e => sumn (nub d) (fun f => (i_bb_vovv H a n e f) * (sft_bb R f e n i))))).
(** ccpy/eomcc/sfeomcc23.py, build_HR_1B, line 69 *)
Definition sfxr_x1b_8 (d : dims) (H : ints) (T : amps) (R : sftv) : mat2 := fun a i =>
  sfxr_x1b_7 d H T R a i + sumn (noa d) (fun n => sumn (nua d) (fun f => sumn (nub d) (fun e => (i_ab_ovvv H n a f e) * (sft_ab R f e n i)))).
(** ccpy/eomcc/sfeomcc23.py, build_HR_1B, line 71 *)
Definition sfxr_x1b_9 (d : dims) (H : ints) (T : amps) (R : sftv) : mat2 := fun a i =>
  sfxr_x1b_8 d H T R a i + 1 / 4 * (sumn (noa d) (fun m => sumn (noa d) (fun n => sumn (nua d) (fun e => sumn (nua d) (fun f => (i_aa_oovv H m n e f) * (sft_aab R e f a m n i)))))).
(** ccpy/eomcc/sfeomcc23.py, build_HR_1B, line 72 *)
Definition sfxr_x1b_10 (d : dims) (H : ints) (T : amps) (R : sftv) : mat2 := fun a i =>
  sfxr_x1b_9 d H T R a i + sumn (noa d) (fun m => sumn (nob d) (fun n => sumn (nua d) (fun e => sumn (nub d) (fun f => (i_ab_oovv H m n e f) * (sft_abb R e f a m n i))))).
(** ccpy/eomcc/sfeomcc23.py, build_HR_1B, line 73 *)
Definition sfxr_x1b_11 (d : dims) (H : ints) (T : amps) (R : sftv) : mat2 := fun a i =>
  sfxr_x1b_10 d H T R a i + 1 / 4 * (sumn (nob d) (fun m => sumn (nob d) (fun n => sumn (nub d) (fun e => sumn (nub d) (fun f => (i_bb_oovv H m n e f) * (sft_bbb R e f a m n i)))))).
(** ccpy/eomcc/sfeomcc23.py, build_HR_2B, line 78 *)
Definition sfxr_x2b (d : dims) (H : ints) (T : amps) (R : sftv) : mat4 := fun a b i j =>
  sumn (nub d) (fun e => (i_ab_vvov H a b i e) * (sft_b R e j)).
(** ccpy/eomcc/sfeomcc23.py, build_HR_2B, line 79 *)
Definition sfxr_x2b_1 (d : dims) (H : ints) (T : amps) (R : sftv) : mat4 := fun a b i j =>
  sfxr_x2b d H T R a b i j - 1 / 2 * (sumn (noa d) (fun m => (i_aa_vooo H a m i j) * (sft_b R b m))).
(** ccpy/eomcc/sfeomcc23.py, build_HR_2B, line 80 *)
Definition sfxr_x2b_2 (d : dims) (H : ints) (T : amps) (R : sftv) : mat4 := fun a b i j =>
  sfxr_x2b_1 d H T R a b i j - sumn (noa d) (fun m => (i_a_oo H m i) * (sft_ab R a b m j)).
(** ccpy/eomcc/sfeomcc23.py, build_HR_2B, line 81 *)
Definition sfxr_x2b_3 (d : dims) (H : ints) (T : amps) (R : sftv) : mat4 := fun a b i j =>
  sfxr_x2b_2 d H T R a b i j + 1 / 2 * (sumn (nub d) (fun e => (i_b_vv H b e) * (sft_ab R a e i j))).
(** ccpy/eomcc/sfeomcc23.py, build_HR_2B, line 82 *)
Definition sfxr_x2b_4 (d : dims) (H : ints) (T : amps) (R : sftv) : mat4 := fun a b i j =>
  sfxr_x2b_3 d H T R a b i j + 1 / 2 * (sumn (nua d) (fun e => (i_a_vv H a e) * (sft_ab R e b i j))).
(** ccpy/eomcc/sfeomcc23.py, build_HR_2B, line 83 *)
Definition sfxr_x2b_5 (d : dims) (H : ints) (T : amps) (R : sftv) : mat4 := fun a b i j =>
  sfxr_x2b_4 d H T R a b i j + 1 / 4 * (sumn (noa d) (fun m => sumn (noa d) (fun n => (i_aa_oooo H m n i j) * (sft_ab R a b m n)))).
(** ccpy/eomcc/sfeomcc23.py, build_HR_2B, line 84 *)
Definition sfxr_x2b_6 (d : dims) (H : ints) (T : amps) (R : sftv) : mat4 := fun a b i j =>
  sfxr_x2b_5 d H T R a b i j + 1 / 2 * (sumn (nua d) (fun e => sumn (nub d) (fun f => (i_ab_vvvv H a b e f) * (sft_ab R e f i j)))).
(** ccpy/eomcc/sfeomcc23.py, build_HR_2B, line 85 *)
Definition sfxr_x2b_7 (d : dims) (H : ints) (T : amps) (R : sftv) : mat4 := fun a b i j =>
  sfxr_x2b_6 d H T R a b i j + sumn (noa d) (fun m => sumn (nua d) (fun e => (i_aa_voov H a m i e) * (sft_ab R e b m j))).
(** ccpy/eomcc/sfeomcc23.py, build_HR_2B, line 86 *)
Definition sfxr_x2b_8 (d : dims) (H : ints) (T : amps) (R : sftv) : mat4 := fun a b i j =>
  sfxr_x2b_7 d H T R a b i j + sumn (nob d) (fun m => sumn (nub d) (fun e => (i_ab_voov H a m i e) * (sft_bb R e b m j))).
(** ccpy/eomcc/sfeomcc23.py, build_HR_2B, line 87 *)
Definition sfxr_x2b_9 (d : dims) (H : ints) (T : amps) (R : sftv) : mat4 := fun a b i j =>
  sfxr_x2b_8 d H T R a b i j - sumn (noa d) (fun m => sumn (nub d) (fun e => (i_ab_ovov H m b i e) * (sft_ab R a e m j))).
(** ccpy/eomcc/sfeomcc23.py, build_HR_2B, line 88 *)
Definition sfxr_x2b_10 (d : dims) (H : ints) (T : amps) (R : sftv) : mat4 := fun a b i j =>
  sfxr_x2b_9 d H T R a b i j - sumn (nob d) (fun m => (sfxr_x_oo d H T R m j) * (x_ab T a b i m)).
(** ccpy/eomcc/sfeomcc23.py, build_HR_2B, line 89 *)
Definition sfxr_x2b_11 (d : dims) (H : ints) (T : amps) (R : sftv) : mat4 := fun a b i j =>
  sfxr_x2b_10 d H T R a b i j + 1 / 2 * (sumn (nua d) (fun e => (sfxr_x_vv d H T R b e) * (x_aa T a e i j))).
(** ccpy/eomcc/sfeomcc23.py, build_HR_2B, line 91 *)
Definition sfxr_x2b_12 (d : dims) (H : ints) (T : amps) (R : sftv) : mat4 := fun a b i j =>
  sfxr_x2b_11 d H T R a b i j + 1 / 2 * (sumn (noa d) (fun m => sumn (nua d) (fun e => (i_a_ov H m e) * (sft_aab R a e b i m j)))).
(** ccpy/eomcc/sfeomcc23.py, build_HR_2B, line 92 *)
Definition sfxr_x2b_13 (d : dims) (H : ints) (T : amps) (R : sftv) : mat4 := fun a b i j =>
  sfxr_x2b_12 d H T R a b i j + 1 / 2 * (sumn (nob d) (fun m => sumn (nub d) (fun e => (i_b_ov H m e) * (sft_abb R a e b i m j)))).
(** ccpy/eomcc/sfeomcc23.py, build_HR_2B, line 93 *)
Definition sfxr_x2b_14 (d : dims) (H : ints) (T : amps) (R : sftv) : mat4 := fun a b i j =>
  sfxr_x2b_13 d H T R a b i j - 1 / 2 * (sumn (noa d) (fun m => sumn (noa d) (fun n => sumn (nua d) (fun f => (i_aa_ooov H m n i f) * (sft_aab R a f b m n j))))).
(** ccpy/eomcc/sfeomcc23.py, build_HR_2B, line 94 *)
Definition sfxr_x2b_15 (d : dims) (H : ints) (T : amps) (R : sftv) : mat4 := fun a b i j =>
  sfxr_x2b_14 d H T R a b i j - sumn (noa d) (fun m => sumn (nob d) (fun n => sumn (nub d) (fun f => (i_ab_ooov H m n i f) * (sft_abb R a f b m n j)))).
(** ccpy/eomcc/sfeomcc23.py, build_HR_2B, line 95 *)
Definition sfxr_x2b_16 (d : dims) (H : ints) (T : amps) (R : sftv) : mat4 := fun a b i j =>
  sfxr_x2b_15 d H T R a b i j + 1 / 4 * (sumn (noa d) (fun n => sumn (nua d) (fun e => sumn (nua d) (fun f => (i_aa_vovv H a n e f) * (sft_aab R e f b i n j))))).
(** ccpy/eomcc/sfeomcc23.py, build_HR_2B, line 96 *)
Definition sfxr_x2b_17 (d : dims) (H : ints) (T : amps) (R : sftv) : mat4 := fun a b i j =>
  sfxr_x2b_16 d H T R a b i j + 1 / 2 * (sumn (nob d) (fun n => sumn (nua d) (fun e => sumn (nub d) (fun f => (i_ab_vovv H a n e f) * (sft_abb R e f b i n j))))).
(** ccpy/eomcc/sfeomcc23.py, build_HR_2B, line 97 *)
Definition sfxr_x2b_18 (d : dims) (H : ints) (T : amps) (R : sftv) : mat4 := fun a b i j =>
  sfxr_x2b_17 d H T R a b i j + 1 / 2 * (sumn (noa d) (fun n => sumn (nua d) (fun f => sumn (nub d) (fun e => (i_ab_ovvv H n b f e) * (sft_aab R a f e i n j))))).
(** ccpy/eomcc/sfeomcc23.py, build_HR_2B, line 98 *)
Definition sfxr_x2b_19 (d : dims) (H : ints) (T : amps) (R : sftv) : mat4 := fun a b i j =>
  sfxr_x2b_18 d H T R a b i j + 1 / 4 * (sumn (nob d) (fun n => sumn (nub d) (fun e => sumn (nub d) (fun f => (i_bb_vovv H b n e f) * (sft_abb R a f e i n j))))).
(** ccpy/eomcc/sfeomcc23.py, build_HR_2B, line 100 *)
Definition sfxr_x2b_20 (d : dims) (H : ints) (T : amps) (R : sftv) : mat4 := fun a b i j =>
  sfxr_x2b_19 d H T R a b i j - sfxr_x2b_19 d H T R a b j i.
(** ccpy/eomcc/sfeomcc23.py, build_HR_2C, line 105 *)
Definition sfxr_x2c (d : dims) (H : ints) (T : amps) (R : sftv) : mat4 := fun a b i j =>
  1 / 2 * (sumn (nub d) (fun e => (i_bb_vvov H a b i e) * (sft_b R e j))).
(** ccpy/eomcc/sfeomcc23.py, build_HR_2C, line 106 *)
Definition sfxr_x2c_1 (d : dims) (H : ints) (T : amps) (R : sftv) : mat4 := fun a b i j =>
  sfxr_x2c d H T R a b i j - sumn (noa d) (fun m => (i_ab_ovoo H m a j i) * (sft_b R b m)).
(** ccpy/eomcc/sfeomcc23.py, build_HR_2C, line 107 *)
Definition sfxr_x2c_2 (d : dims) (H : ints) (T : amps) (R : sftv) : mat4 := fun a b i j =>
  sfxr_x2c_1 d H T R a b i j - 1 / 2 * (sumn (noa d) (fun m => (i_a_oo H m j) * (sft_bb R a b i m))).
(** ccpy/eomcc/sfeomcc23.py, build_HR_2C, line 108 *)
Definition sfxr_x2c_3 (d : dims) (H : ints) (T : amps) (R : sftv) : mat4 := fun a b i j =>
  sfxr_x2c_2 d H T R a b i j - 1 / 2 * (sumn (nob d) (fun m => (i_b_oo H m i) * (sft_bb R a b m j))).
(** ccpy/eomcc/sfeomcc23.py, build_HR_2C, line 109 *)
Definition sfxr_x2c_4 (d : dims) (H : ints) (T : amps) (R : sftv) : mat4 := fun a b i j =>
  sfxr_x2c_3 d H T R a b i j + sumn (nub d) (fun e => (i_b_vv H a e) * (sft_bb R e b i j)).
(** ccpy/eomcc/sfeomcc23.py, build_HR_2C, line 110 *)
Definition sfxr_x2c_5 (d : dims) (H : ints) (T : amps) (R : sftv) : mat4 := fun a b i j =>
  sfxr_x2c_4 d H T R a b i j + 1 / 4 * (sumn (nub d) (fun e => sumn (nub d) (fun f => (i_bb_vvvv H a b e f) * (sft_bb R e f i j)))).
(** ccpy/eomcc/sfeomcc23.py, build_HR_2C, line 111 *)
Definition sfxr_x2c_6 (d : dims) (H : ints) (T : amps) (R : sftv) : mat4 := fun a b i j =>
  sfxr_x2c_5 d H T R a b i j + 1 / 2 * (sumn (noa d) (fun n => sumn (nob d) (fun m => (i_ab_oooo H n m j i) * (sft_bb R a b m n)))).
(** ccpy/eomcc/sfeomcc23.py, build_HR_2C, line 112 *)
Definition sfxr_x2c_7 (d : dims) (H : ints) (T : amps) (R : sftv) : mat4 := fun a b i j =>
  sfxr_x2c_6 d H T R a b i j + sumn (nob d) (fun m => sumn (nub d) (fun e => (i_bb_voov H a m i e) * (sft_bb R e b m j))).
(** ccpy/eomcc/sfeomcc23.py, build_HR_2C, line 113 *)
Definition sfxr_x2c_8 (d : dims) (H : ints) (T : amps) (R : sftv) : mat4 := fun a b i j =>
  sfxr_x2c_7 d H T R a b i j + sumn (noa d) (fun m => sumn (nua d) (fun e => (i_ab_ovvo H m a e i) * (sft_ab R e b m j))).
(** ccpy/eomcc/sfeomcc23.py, build_HR_2C, line 114 *)
Definition sfxr_x2c_9 (d : dims) (H : ints) (T : amps) (R : sftv) : mat4 := fun a b i j =>
  sfxr_x2c_8 d H T R a b i j - sumn (noa d) (fun m => sumn (nub d) (fun e => (i_ab_ovov H m a j e) * (sft_bb R e b i m))).
(** ccpy/eomcc/sfeomcc23.py, build_HR_2C, line 115 *)
Definition sfxr_x2c_10 (d : dims) (H : ints) (T : amps) (R : sftv) : mat4 := fun a b i j =>
  sfxr_x2c_9 d H T R a b i j - 1 / 2 * (sumn (nob d) (fun m => (sfxr_x_oo d H T R m j) * (x_bb T a b i m))).
(** ccpy/eomcc/sfeomcc23.py, build_HR_2C, line 116 *)
Definition sfxr_x2c_11 (d : dims) (H : ints) (T : amps) (R : sftv) : mat4 := fun a b i j =>
  sfxr_x2c_10 d H T R a b i j + sumn (nua d) (fun e => (sfxr_x_vv d H T R b e) * (x_ab T e a j i)).
(** ccpy/eomcc/sfeomcc23.py, build_HR_2C, line 118 *)
Definition sfxr_x2c_12 (d : dims) (H : ints) (T : amps) (R : sftv) : mat4 := fun a b i j =>
  sfxr_x2c_11 d H T R a b i j + 1 / 2 * (sumn (noa d) (fun m => sumn (nua d) (fun e => (i_a_ov H m e) * (sft_abb R e a b m i j)))).
(** ccpy/eomcc/sfeomcc23.py, build_HR_2C, line 119 *)
Definition sfxr_x2c_13 (d : dims) (H : ints) (T : amps) (R : sftv) : mat4 := fun a b i j =>
  sfxr_x2c_12 d H T R a b i j + 1 / 2 * (sumn (nob d) (fun m => sumn (nub d) (fun e => (i_b_ov H m e) * (sft_bbb R e a b m i j)))).
(** ccpy/eomcc/sfeomcc23.py, build_HR_2C, line 120 *)
Definition sfxr_x2c_14 (d : dims) (H : ints) (T : amps) (R : sftv) : mat4 := fun a b i j =>
  sfxr_x2c_13 d H T R a b i j - 1 / 2 * (sumn (noa d) (fun n => sumn (nob d) (fun m => sumn (nua d) (fun f => (i_ab_oovo H n m f i) * (sft_abb R f a b n m j))))).
(** ccpy/eomcc/sfeomcc23.py, build_HR_2C, line 121 *)
Definition sfxr_x2c_15 (d : dims) (H : ints) (T : amps) (R : sftv) : mat4 := fun a b i j =>
  sfxr_x2c_14 d H T R a b i j - 1 / 4 * (sumn (nob d) (fun m => sumn (nob d) (fun n => sumn (nub d) (fun f => (i_bb_ooov H m n i f) * (sft_bbb R f a b n m j))))).
(** ccpy/eomcc/sfeomcc23.py, build_HR_2C, line 122 *)
Definition sfxr_x2c_16 (d : dims) (H : ints) (T : amps) (R : sftv) : mat4 := fun a b i j =>
  sfxr_x2c_15 d H T R a b i j - 1 / 4 * (sumn (noa d) (fun m => sumn (noa d) (fun n => sumn (nua d) (fun f => (i_aa_ooov H m n j f) * (sft_abb R f a b n i m))))).
(** ccpy/eomcc/sfeomcc23.py, build_HR_2C, line 123 *)
Definition sfxr_x2c_17 (d : dims) (H : ints) (T : amps) (R : sftv) : mat4 := fun a b i j =>
  sfxr_x2c_16 d H T R a b i j - 1 / 2 * (sumn (noa d) (fun m => sumn (nob d) (fun n => sumn (nub d) (fun f => (i_ab_ooov H m n j f) * (sft_bbb R f a b n i m))))).
(** ccpy/eomcc/sfeomcc23.py, build_HR_2C, line 124 *)
Definition sfxr_x2c_18 (d : dims) (H : ints) (T : amps) (R : sftv) : mat4 := fun a b i j =>
  sfxr_x2c_17 d H T R a b i j + sumn (noa d) (fun n => sumn (nua d) (fun f => sumn (nub d) (fun e => (i_ab_ovvv H n a f e) * (sft_abb R f e b n i j)))).
(** ccpy/eomcc/sfeomcc23.py, build_HR_2C, line 125 *)
Definition sfxr_x2c_19 (d : dims) (H : ints) (T : amps) (R : sftv) : mat4 := fun a b i j =>
  sfxr_x2c_18 d H T R a b i j + 1 / 2 * (sumn (nob d) (fun n => sumn (nub d) (fun e => sumn (nub d) (fun f => (i_bb_vovv H a n e f) * (sft_bbb R f e b n i j))))).
(** ccpy/eomcc/sfeomcc23.py, build_HR_2C, line 127 *)
Definition sfxr_x2c_20 (d : dims) (H : ints) (T : amps) (R : sftv) : mat4 := fun a b i j =>
  sfxr_x2c_19 d H T R a b i j - sfxr_x2c_19 d H T R b a i j.
(** ccpy/eomcc/sfeomcc23.py, build_HR_3B, line 132 *)
Definition sfxr_x3b (d : dims) (H : ints) (T : amps) (R : sftv) : mat6 := fun a b c i j k =>
  (-1) / 2 * (sumn (noa d) (fun m => (i_aa_vooo H a m i j) * (sft_ab R b c m k))).
(** ccpy/eomcc/sfeomcc23.py, build_HR_3B, line 133 *)
Definition sfxr_x3b_1 (d : dims) (H : ints) (T : amps) (R : sftv) : mat6 := fun a b c i j k =>
  sfxr_x3b d H T R a b c i j k + 1 / 4 * (sumn (nua d) (fun e => (i_aa_vvov H a b i e) * (sft_ab R e c j k))).
(** ccpy/eomcc/sfeomcc23.py, build_HR_3B, line 134 *)
Definition sfxr_x3b_2 (d : dims) (H : ints) (T : amps) (R : sftv) : mat6 := fun a b c i j k =>
  sfxr_x3b_1 d H T R a b c i j k + 1 / 2 * (sumn (nub d) (fun e => (i_ab_vvov H a c i e) * (sft_ab R b e j k))).
(** ccpy/eomcc/sfeomcc23.py, build_HR_3B, line 136 *)
Definition sfxr_x3b_3 (d : dims) (H : ints) (T : amps) (R : sftv) : mat6 := fun a b c i j k =>
  sfxr_x3b_2 d H T R a b c i j k - 1 / 4 * (sumn (noa d) (fun m => (sfxr_X_ab_ovoo_1 d H T R m c j k) * (x_aa T a b i m))).
(** ccpy/eomcc/sfeomcc23.py, build_HR_3B, line 137 *)
Definition sfxr_x3b_4 (d : dims) (H : ints) (T : amps) (R : sftv) : mat6 := fun a b c i j k =>
  sfxr_x3b_3 d H T R a b c i j k + 1 / 2 * (sumn (nua d) (fun e => (sfxr_X_ab_vvvo d H T R b c e k) * (x_aa T a e i j))).
(** ccpy/eomcc/sfeomcc23.py, build_HR_3B, line 138 *)
Definition sfxr_x3b_5 (d : dims) (H : ints) (T : amps) (R : sftv) : mat6 := fun a b c i j k =>
  sfxr_x3b_4 d H T R a b c i j k - 1 / 2 * (sumn (nob d) (fun m => (sfxr_X_ab_vooo_1 d H T R a m i k) * (x_ab T b c j m))).
(** ccpy/eomcc/sfeomcc23.py, build_HR_3B, line 140 *)
Definition sfxr_x3b_6 (d : dims) (H : ints) (T : amps) (R : sftv) : mat6 := fun a b c i j k =>
  sfxr_x3b_5 d H T R a b c i j k - 1 / 4 * (sumn (noa d) (fun m => (i_a_oo H m j) * (sft_aab R a b c i m k))).
(** ccpy/eomcc/sfeomcc23.py, build_HR_3B, line 141 *)
Definition sfxr_x3b_7 (d : dims) (H : ints) (T : amps) (R : sftv) : mat6 := fun a b c i j k =>
  sfxr_x3b_6 d H T R a b c i j k + 1 / 6 * (sumn (nua d) (fun e => (i_a_vv H b e) * (sft_aab R a e c i j k))).
(** ccpy/eomcc/sfeomcc23.py, build_HR_3B, line 142 *)
Definition sfxr_x3b_8 (d : dims) (H : ints) (T : amps) (R : sftv) : mat6 := fun a b c i j k =>
  sfxr_x3b_7 d H T R a b c i j k + 1 / 12 * (sumn (nub d) (fun e => (i_b_vv H c e) * (sft_aab R a b e i j k))).
(** ccpy/eomcc/sfeomcc23.py, build_HR_3B, line 143 *)
Definition sfxr_x3b_9 (d : dims) (H : ints) (T : amps) (R : sftv) : mat6 := fun a b c i j k =>
  sfxr_x3b_8 d H T R a b c i j k + 1 / 8 * (sumn (noa d) (fun m => sumn (noa d) (fun n => (i_aa_oooo H m n i j) * (sft_aab R a b c m n k)))).
(** ccpy/eomcc/sfeomcc23.py, build_HR_3B, line 144 *)
Definition sfxr_x3b_10 (d : dims) (H : ints) (T : amps) (R : sftv) : mat6 := fun a b c i j k =>
  sfxr_x3b_9 d H T R a b c i j k + 1 / 24 * (sumn (nua d) (fun e => sumn (nua d) (fun f => (i_aa_vvvv H a b e f) * (sft_aab R e f c i j k)))).
(** ccpy/eomcc/sfeomcc23.py, build_HR_3B, line 145 *)
Definition sfxr_x3b_11 (d : dims) (H : ints) (T : amps) (R : sftv) : mat6 := fun a b c i j k =>
  sfxr_x3b_10 d H T R a b c i j k + 1 / 6 * (sumn (nua d) (fun e => sumn (nub d) (fun f => (i_ab_vvvv H b c e f) * (sft_aab R a e f i j k)))).
(** ccpy/eomcc/sfeomcc23.py, build_HR_3B, line 146 *)
Definition sfxr_x3b_12 (d : dims) (H : ints) (T : amps) (R : sftv) : mat6 := fun a b c i j k =>
  sfxr_x3b_11 d H T R a b c i j k + 1 / 2 * (sumn (noa d) (fun m => sumn (nua d) (fun e => (i_aa_voov H a m i e) * (sft_aab R b e c j m k)))).
(** ccpy/eomcc/sfeomcc23.py, build_HR_3B, line 147 *)
Definition sfxr_x3b_13 (d : dims) (H : ints) (T : amps) (R : sftv) : mat6 := fun a b c i j k =>
  sfxr_x3b_12 d H T R a b c i j k + 1 / 2 * (sumn (nob d) (fun m => sumn (nub d) (fun e => (i_ab_voov H a m i e) * (sft_abb R b e c j m k)))).
(** ccpy/eomcc/sfeomcc23.py, build_HR_3B, line 148 *)
Definition sfxr_x3b_14 (d : dims) (H : ints) (T : amps) (R : sftv) : mat6 := fun a b c i j k =>
  sfxr_x3b_13 d H T R a b c i j k - 1 / 4 * (sumn (noa d) (fun m => sumn (nub d) (fun e => (i_ab_ovov H m c i e) * (sft_aab R a b e m j k)))).
(** ccpy/eomcc/sfeomcc23.py, build_HR_3B, line 150 *)
Definition sfxr_x3b_15 (d : dims) (H : ints) (T : amps) (R : sftv) : mat6 := fun a b c i j k =>
  sfxr_x3b_14 d H T R a b c i j k - sfxr_x3b_14 d H T R b a c i j k.
(** ccpy/eomcc/sfeomcc23.py, build_HR_3B, line 151 *)
Definition sfxr_x3b_16 (d : dims) (H : ints) (T : amps) (R : sftv) : mat6 := fun a b c i j k =>
  sfxr_x3b_15 d H T R a b c i j k - sfxr_x3b_15 d H T R a b c i k j.
(** ccpy/eomcc/sfeomcc23.py, build_HR_3B, line 152 *)
Definition sfxr_x3b_17 (d : dims) (H : ints) (T : amps) (R : sftv) : mat6 := fun a b c i j k =>
  sfxr_x3b_16 d H T R a b c i j k - (sfxr_x3b_16 d H T R a b c j i k + sfxr_x3b_16 d H T R a b c k j i).
(** ccpy/eomcc/sfeomcc23.py, build_HR_3C, line 157 *)
Definition sfxr_x3c (d : dims) (H : ints) (T : amps) (R : sftv) : mat6 := fun a b c i j k =>
  (- (sumn (noa d) (fun m => (i_ab_ovoo H m b i j) * (sft_ab R a c m k)))).
(** ccpy/eomcc/sfeomcc23.py, build_HR_3C, line 158 *)
Definition sfxr_x3c_1 (d : dims) (H : ints) (T : amps) (R : sftv) : mat6 := fun a b c i j k =>
  sfxr_x3c d H T R a b c i j k - 1 / 4 * (sumn (noa d) (fun m => (i_aa_vooo H a m i k) * (sft_bb R b c j m))).
(** ccpy/eomcc/sfeomcc23.py, build_HR_3C, line 159 *)
Definition sfxr_x3c_2 (d : dims) (H : ints) (T : amps) (R : sftv) : mat6 := fun a b c i j k =>
  sfxr_x3c_1 d H T R a b c i j k - 1 / 2 * (sumn (nob d) (fun m => (i_ab_vooo H a m i j) * (sft_bb R b c m k))).
(** ccpy/eomcc/sfeomcc23.py, build_HR_3C, line 160 *)
Definition sfxr_x3c_3 (d : dims) (H : ints) (T : amps) (R : sftv) : mat6 := fun a b c i j k =>
  sfxr_x3c_2 d H T R a b c i j k + sumn (nub d) (fun e => (i_ab_vvov H a b i e) * (sft_bb R e c j k)).
(** ccpy/eomcc/sfeomcc23.py, build_HR_3C, line 161 *)
Definition sfxr_x3c_4 (d : dims) (H : ints) (T : amps) (R : sftv) : mat6 := fun a b c i j k =>
  sfxr_x3c_3 d H T R a b c i j k + 1 / 2 * (sumn (nua d) (fun e => (i_ab_vvvo H a b e j) * (sft_ab R e c i k))).
(** ccpy/eomcc/sfeomcc23.py, build_HR_3C, line 162 *)
Definition sfxr_x3c_5 (d : dims) (H : ints) (T : amps) (R : sftv) : mat6 := fun a b c i j k =>
  sfxr_x3c_4 d H T R a b c i j k + 1 / 4 * (sumn (nub d) (fun e => (i_bb_vvov H b c j e) * (sft_ab R a e i k))).
(** ccpy/eomcc/sfeomcc23.py, build_HR_3C, line 164 *)
Definition sfxr_x3c_6 (d : dims) (H : ints) (T : amps) (R : sftv) : mat6 := fun a b c i j k =>
  sfxr_x3c_5 d H T R a b c i j k - 1 / 2 * (sumn (noa d) (fun m => (sfxr_X_ab_ovoo_1 d H T R m c i k) * (x_ab T a b m j))).
(** ccpy/eomcc/sfeomcc23.py, build_HR_3C, line 165 *)
Definition sfxr_x3c_7 (d : dims) (H : ints) (T : amps) (R : sftv) : mat6 := fun a b c i j k =>
  sfxr_x3c_6 d H T R a b c i j k - sumn (nob d) (fun m => (sfxr_X_bb_ovoo d H T R m c j k) * (x_ab T a b i m)).
(** ccpy/eomcc/sfeomcc23.py, build_HR_3C, line 166 *)
Definition sfxr_x3c_8 (d : dims) (H : ints) (T : amps) (R : sftv) : mat6 := fun a b c i j k =>
  sfxr_x3c_7 d H T R a b c i j k - 1 / 4 * (sumn (nob d) (fun m => (sfxr_X_ab_vooo_1 d H T R a m i k) * (x_bb T b c j m))).
(** ccpy/eomcc/sfeomcc23.py, build_HR_3C, line 167 *)
Definition sfxr_x3c_9 (d : dims) (H : ints) (T : amps) (R : sftv) : mat6 := fun a b c i j k =>
  sfxr_x3c_8 d H T R a b c i j k + sumn (nua d) (fun e => (sfxr_X_ab_vvvo d H T R a c e k) * (x_ab T e b i j)).
(** ccpy/eomcc/sfeomcc23.py, build_HR_3C, line 168 *)
Definition sfxr_x3c_10 (d : dims) (H : ints) (T : amps) (R : sftv) : mat6 := fun a b c i j k =>
  sfxr_x3c_9 d H T R a b c i j k + 1 / 2 * (sumn (nub d) (fun e => (sfxr_X_bb_vvvo_1 d H T R b c e k) * (x_ab T a e i j))).
(** ccpy/eomcc/sfeomcc23.py, build_HR_3C, line 169 *)
Definition sfxr_x3c_11 (d : dims) (H : ints) (T : amps) (R : sftv) : mat6 := fun a b c i j k =>
  sfxr_x3c_10 d H T R a b c i j k + 1 / 4 * (sumn (nua d) (fun e => (sfxr_X_bb_vvov_1 d H T R b c j e) * (x_aa T a e i k))).
(** ccpy/eomcc/sfeomcc23.py, build_HR_3C, line 171 *)
Definition sfxr_x3c_12 (d : dims) (H : ints) (T : amps) (R : sftv) : mat6 := fun a b c i j k =>
  sfxr_x3c_11 d H T R a b c i j k - 1 / 2 * (sumn (noa d) (fun m => (i_a_oo H m i) * (sft_abb R a b c m j k))).
(** ccpy/eomcc/sfeomcc23.py, build_HR_3C, line 172 *)
Definition sfxr_x3c_13 (d : dims) (H : ints) (T : amps) (R : sftv) : mat6 := fun a b c i j k =>
  sfxr_x3c_12 d H T R a b c i j k - 1 / 4 * (sumn (nob d) (fun m => (i_b_oo H m j) * (sft_abb R a b c i m k))).
(** ccpy/eomcc/sfeomcc23.py, build_HR_3C, line 173 *)
Definition sfxr_x3c_14 (d : dims) (H : ints) (T : amps) (R : sftv) : mat6 := fun a b c i j k =>
  sfxr_x3c_13 d H T R a b c i j k + 1 / 4 * (sumn (nua d) (fun e => (i_a_vv H a e) * (sft_abb R e b c i j k))).
(** ccpy/eomcc/sfeomcc23.py, build_HR_3C, line 174 *)
Definition sfxr_x3c_15 (d : dims) (H : ints) (T : amps) (R : sftv) : mat6 := fun a b c i j k =>
  sfxr_x3c_14 d H T R a b c i j k + 1 / 2 * (sumn (nub d) (fun e => (i_b_vv H b e) * (sft_abb R a e c i j k))).
(** ccpy/eomcc/sfeomcc23.py, build_HR_3C, line 175 *)
Definition sfxr_x3c_16 (d : dims) (H : ints) (T : amps) (R : sftv) : mat6 := fun a b c i j k =>
  sfxr_x3c_15 d H T R a b c i j k + 1 / 8 * (sumn (noa d) (fun m => sumn (noa d) (fun n => (i_aa_oooo H m n i k) * (sft_abb R a b c m j n)))).
(** ccpy/eomcc/sfeomcc23.py, build_HR_3C, line 176 *)
Definition sfxr_x3c_17 (d : dims) (H : ints) (T : amps) (R : sftv) : mat6 := fun a b c i j k =>
  sfxr_x3c_16 d H T R a b c i j k + 1 / 2 * (sumn (noa d) (fun m => sumn (nob d) (fun n => (i_ab_oooo H m n i j) * (sft_abb R a b c m n k)))).
(** ccpy/eomcc/sfeomcc23.py, build_HR_3C, line 177 *)
Definition sfxr_x3c_18 (d : dims) (H : ints) (T : amps) (R : sftv) : mat6 := fun a b c i j k =>
  sfxr_x3c_17 d H T R a b c i j k + 1 / 2 * (sumn (nua d) (fun e => sumn (nub d) (fun f => (i_ab_vvvv H a c e f) * (sft_abb R e b f i j k)))).
(** ccpy/eomcc/sfeomcc23.py, build_HR_3C, line 178 *)
Definition sfxr_x3c_19 (d : dims) (H : ints) (T : amps) (R : sftv) : mat6 := fun a b c i j k =>
  sfxr_x3c_18 d H T R a b c i j k + 1 / 8 * (sumn (nub d) (fun e => sumn (nub d) (fun f => (i_bb_vvvv H b c e f) * (sft_abb R a e f i j k)))).
(** ccpy/eomcc/sfeomcc23.py, build_HR_3C, line 179 *)
Definition sfxr_x3c_20 (d : dims) (H : ints) (T : amps) (R : sftv) : mat6 := fun a b c i j k =>
  sfxr_x3c_19 d H T R a b c i j k + 1 / 2 * (sumn (noa d) (fun m => sumn (nua d) (fun e => (i_aa_voov H a m i e) * (sft_abb R e b c m j k)))).
(** ccpy/eomcc/sfeomcc23.py, build_HR_3C, line 180 *)
Definition sfxr_x3c_21 (d : dims) (H : ints) (T : amps) (R : sftv) : mat6 := fun a b c i j k =>
  sfxr_x3c_20 d H T R a b c i j k + 1 / 2 * (sumn (nob d) (fun m => sumn (nub d) (fun e => (i_ab_voov H a m i e) * (sft_bbb R e b c m j k)))).
(** ccpy/eomcc/sfeomcc23.py, build_HR_3C, line 181 *)
Definition sfxr_x3c_22 (d : dims) (H : ints) (T : amps) (R : sftv) : mat6 := fun a b c i j k =>
  sfxr_x3c_21 d H T R a b c i j k + 1 / 2 * (sumn (noa d) (fun m => sumn (nua d) (fun e => (i_ab_ovvo H m b e j) * (sft_aab R a e c i m k)))).
(** ccpy/eomcc/sfeomcc23.py, build_HR_3C, line 182 *)
Definition sfxr_x3c_23 (d : dims) (H : ints) (T : amps) (R : sftv) : mat6 := fun a b c i j k =>
  sfxr_x3c_22 d H T R a b c i j k + 1 / 2 * (sumn (nob d) (fun m => sumn (nub d) (fun e => (i_bb_voov H b m j e) * (sft_abb R a e c i m k)))).
(** ccpy/eomcc/sfeomcc23.py, build_HR_3C, line 183 *)
Definition sfxr_x3c_24 (d : dims) (H : ints) (T : amps) (R : sftv) : mat6 := fun a b c i j k =>
  sfxr_x3c_23 d H T R a b c i j k - 1 / 4 * (sumn (nob d) (fun m => sumn (nua d) (fun e => (i_ab_vovo H a m e j) * (sft_abb R e b c i m k)))).
(** ccpy/eomcc/sfeomcc23.py, build_HR_3C, line 184 *)
Definition sfxr_x3c_25 (d : dims) (H : ints) (T : amps) (R : sftv) : mat6 := fun a b c i j k =>
  sfxr_x3c_24 d H T R a b c i j k - sumn (noa d) (fun m => sumn (nub d) (fun e => (i_ab_ovov H m b i e) * (sft_abb R a e c m j k))).
(** ccpy/eomcc/sfeomcc23.py, build_HR_3C, line 186 *)
Definition sfxr_x3c_26 (d : dims) (H : ints) (T : amps) (R : sftv) : mat6 := fun a b c i j k =>
  sfxr_x3c_25 d H T R a b c i j k - sfxr_x3c_25 d H T R a c b i j k.
(** ccpy/eomcc/sfeomcc23.py, build_HR_3C, line 187 *)
Definition sfxr_x3c_27 (d : dims) (H : ints) (T : amps) (R : sftv) : mat6 := fun a b c i j k =>
  sfxr_x3c_26 d H T R a b c i j k - sfxr_x3c_26 d H T R a b c k j i.
(** ccpy/eomcc/sfeomcc23.py, build_HR_3D, line 192 *)
Definition sfxr_x3d (d : dims) (H : ints) (T : amps) (R : sftv) : mat6 := fun a b c i j k =>
  (-1) / 4 * (sumn (nob d) (fun m => (i_bb_vooo H a m i j) * (sft_bb R b c m k))).
(** ccpy/eomcc/sfeomcc23.py, build_HR_3D, line 193 *)
Definition sfxr_x3d_1 (d : dims) (H : ints) (T : amps) (R : sftv) : mat6 := fun a b c i j k =>
  sfxr_x3d d H T R a b c i j k - 1 / 2 * (sumn (noa d) (fun m => (i_ab_ovoo H m a k i) * (sft_bb R b c j m))).
(** ccpy/eomcc/sfeomcc23.py, build_HR_3D, line 194 *)
Definition sfxr_x3d_2 (d : dims) (H : ints) (T : amps) (R : sftv) : mat6 := fun a b c i j k =>
  sfxr_x3d_1 d H T R a b c i j k + 1 / 2 * (sumn (nub d) (fun e => (i_bb_vvov H a b i e) * (sft_bb R e c j k))).
(** ccpy/eomcc/sfeomcc23.py, build_HR_3D, line 196 *)
Definition sfxr_x3d_3 (d : dims) (H : ints) (T : amps) (R : sftv) : mat6 := fun a b c i j k =>
  sfxr_x3d_2 d H T R a b c i j k - 1 / 2 * (sumn (nob d) (fun m => (sfxr_X_bb_ovoo d H T R m c j k) * (x_bb T a b i m))).
(** ccpy/eomcc/sfeomcc23.py, build_HR_3D, line 197 *)
Definition sfxr_x3d_4 (d : dims) (H : ints) (T : amps) (R : sftv) : mat6 := fun a b c i j k =>
  sfxr_x3d_3 d H T R a b c i j k + 1 / 2 * (sumn (nua d) (fun e => (sfxr_X_bb_vvov_1 d H T R b c j e) * (x_ab T e a k i))).
(** ccpy/eomcc/sfeomcc23.py, build_HR_3D, line 198 *)
Definition sfxr_x3d_5 (d : dims) (H : ints) (T : amps) (R : sftv) : mat6 := fun a b c i j k =>
  sfxr_x3d_4 d H T R a b c i j k + 1 / 4 * (sumn (nub d) (fun e => (sfxr_X_bb_vvvo_1 d H T R b c e k) * (x_bb T a e i j))).
(** ccpy/eomcc/sfeomcc23.py, build_HR_3D, line 200 *)
Definition sfxr_x3d_6 (d : dims) (H : ints) (T : amps) (R : sftv) : mat6 := fun a b c i j k =>
  sfxr_x3d_5 d H T R a b c i j k - 1 / 6 * (sumn (nob d) (fun m => (i_b_oo H m i) * (sft_bbb R a b c m j k))).
(** ccpy/eomcc/sfeomcc23.py, build_HR_3D, line 201 *)
Definition sfxr_x3d_7 (d : dims) (H : ints) (T : amps) (R : sftv) : mat6 := fun a b c i j k =>
  sfxr_x3d_6 d H T R a b c i j k - 1 / 12 * (sumn (noa d) (fun m => (i_a_oo H m k) * (sft_bbb R a b c i j m))).
(** ccpy/eomcc/sfeomcc23.py, build_HR_3D, line 202 *)
Definition sfxr_x3d_8 (d : dims) (H : ints) (T : amps) (R : sftv) : mat6 := fun a b c i j k =>
  sfxr_x3d_7 d H T R a b c i j k + 1 / 4 * (sumn (nub d) (fun e => (i_b_vv H c e) * (sft_bbb R a b e i j k))).
(** ccpy/eomcc/sfeomcc23.py, build_HR_3D, line 203 *)
Definition sfxr_x3d_9 (d : dims) (H : ints) (T : amps) (R : sftv) : mat6 := fun a b c i j k =>
  sfxr_x3d_8 d H T R a b c i j k + 1 / 24 * (sumn (nob d) (fun m => sumn (nob d) (fun n => (i_bb_oooo H m n i j) * (sft_bbb R a b c m n k)))).
(** ccpy/eomcc/sfeomcc23.py, build_HR_3D, line 204 *)
Definition sfxr_x3d_10 (d : dims) (H : ints) (T : amps) (R : sftv) : mat6 := fun a b c i j k =>
  sfxr_x3d_9 d H T R a b c i j k + 1 / 6 * (sumn (noa d) (fun m => sumn (nob d) (fun n => (i_ab_oooo H m n k j) * (sft_bbb R a b c i n m)))).
(** ccpy/eomcc/sfeomcc23.py, build_HR_3D, line 205 *)
Definition sfxr_x3d_11 (d : dims) (H : ints) (T : amps) (R : sftv) : mat6 := fun a b c i j k =>
  sfxr_x3d_10 d H T R a b c i j k + 1 / 8 * (sumn (nub d) (fun e => sumn (nub d) (fun f => (i_bb_vvvv H a b e f) * (sft_bbb R e f c i j k)))).
(** ccpy/eomcc/sfeomcc23.py, build_HR_3D, line 206 *)
Definition sfxr_x3d_12 (d : dims) (H : ints) (T : amps) (R : sftv) : mat6 := fun a b c i j k =>
  sfxr_x3d_11 d H T R a b c i j k + 1 / 2 * (sumn (noa d) (fun m => sumn (nua d) (fun e => (i_ab_ovvo H m a e i) * (sft_abb R e b c m j k)))).
(** ccpy/eomcc/sfeomcc23.py, build_HR_3D, line 207 *)
Definition sfxr_x3d_13 (d : dims) (H : ints) (T : amps) (R : sftv) : mat6 := fun a b c i j k =>
  sfxr_x3d_12 d H T R a b c i j k + 1 / 2 * (sumn (nob d) (fun m => sumn (nub d) (fun e => (i_bb_voov H a m i e) * (sft_bbb R e b c m j k)))).
(** ccpy/eomcc/sfeomcc23.py, build_HR_3D, line 208 *)
Definition sfxr_x3d_14 (d : dims) (H : ints) (T : amps) (R : sftv) : mat6 := fun a b c i j k =>
  sfxr_x3d_13 d H T R a b c i j k - 1 / 4 * (sumn (noa d) (fun m => sumn (nub d) (fun e => (i_ab_ovov H m b k e) * (sft_bbb R a e c i j m)))).
(** ccpy/eomcc/sfeomcc23.py, build_HR_3D, line 210 *)
Definition sfxr_x3d_15 (d : dims) (H : ints) (T : amps) (R : sftv) : mat6 := fun a b c i j k =>
  sfxr_x3d_14 d H T R a b c i j k - sfxr_x3d_14 d H T R a b c j i k.
(** ccpy/eomcc/sfeomcc23.py, build_HR_3D, line 211 *)
Definition sfxr_x3d_16 (d : dims) (H : ints) (T : amps) (R : sftv) : mat6 := fun a b c i j k =>
  sfxr_x3d_15 d H T R a b c i j k - sfxr_x3d_15 d H T R a c b i j k.
(** ccpy/eomcc/sfeomcc23.py, build_HR_3D, line 212 *)
Definition sfxr_x3d_17 (d : dims) (H : ints) (T : amps) (R : sftv) : mat6 := fun a b c i j k =>
  sfxr_x3d_16 d H T R a b c i j k - (sfxr_x3d_16 d H T R b a c i j k + sfxr_x3d_16 d H T R c b a i j k).
(** the vector returned *)
Definition sfx_HR (d : dims) (H : ints) (T : amps) (R : sftv) : sftv := mkSft (sfxr_x1b_11 d H T R) (sfxr_x2b_20 d H T R) (sfxr_x2c_20 d H T R) (sfxr_x3b_17 d H T R) (sfxr_x3c_27 d H T R) (sfxr_x3d_17 d H T R).
