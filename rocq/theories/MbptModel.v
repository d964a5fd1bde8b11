(** Many-body perturbation theory: ccpy/lib/fortran/mbpt_loops.f90 (mp2, mp3) and ccpy/mbpt/mbpt.py (calc_mp2, calc_mp3).  Exact reals; Fortran indices start at
    1, the model's at 0.  calc_mp2 and calc_mp3 pass the blocks of the Hamiltonian object by position; H is that object here.
    Emp3 is intent(out) and mp3 never sets it before adding to it (lines 88, 134-267): the model starts it at 0, the value with which the f2py wrapper
    creates an output scalar. *)
From Coq Require Import Reals Arith List.
From Verif Require Import RSum IntegralsModel TensorObjs LoopModel.
Import ListNotations.
Open Scope R_scope.
(** do p = 1,n *)
Definition do1 (n : nat) : list nat := seq 0 n.
(** do p = 1,n1; do q = 1,n2 *)
Definition do2 (n1 n2 : nat) : list (nat * nat) := flat_map (fun p => map (fun q => (p, q)) (seq 0 n2)) (seq 0 n1).
(** do p = 1,n; do q = p+1,n *)
Definition do2_lt (n : nat) : list (nat * nat) := flat_map (fun p => map (fun q => (p, q)) (seq (S p) (n - S p))) (seq 0 n).
(** two of these nested: the first pair outside *)
Definition do4 (l1 l2 : list (nat * nat)) : list (nat * nat * nat * nat) := flat_map (fun x => map (fun y => (fst x, snd x, fst y, snd y)) l2) l1.
(** x = x + f(...) in a loop *)
Definition acc {A : Type} (l : list A) (f : A -> R) (s : R) : R := fold_left (fun s q => s + f q) l s.

(** mbpt_loops.f90, mp2, lines 7-59 *)
Definition mp2 (d : dims) (H : ints) : R :=
  let Emp2 := 0 in
  let Emp2 := acc (do4 (do2_lt (noa d)) (do2_lt (nua d))) (fun '(i, j, a, b) =>
    let denom := i_a_oo H i i + i_a_oo H j j - i_a_vv H a a - i_a_vv H b b in let t_amp := i_aa_vvoo H a b i j / denom in i_aa_oovv H i j a b * t_amp) Emp2 in
  let Emp2 := acc (do4 (do2 (noa d) (nob d)) (do2 (nua d) (nub d))) (fun '(i, j, a, b) =>
    let denom := i_a_oo H i i + i_b_oo H j j - i_a_vv H a a - i_b_vv H b b in let t_amp := i_ab_vvoo H a b i j / denom in i_ab_oovv H i j a b * t_amp) Emp2 in
  acc (do4 (do2_lt (nob d)) (do2_lt (nub d))) (fun '(i, j, a, b) =>
    let denom := i_b_oo H i i + i_b_oo H j j - i_b_vv H a a - i_b_vv H b b in let t_amp := i_bb_vvoo H a b i j / denom in i_bb_oovv H i j a b * t_amp) Emp2.

(** mbpt_loops.f90, mp3, lines 97-109 (t2a_1) and 120-132 (t2c_1, the same with the beta arrays) *)
Definition mp3_t2_body (v : mat4) (fo fv : mat2) (t : mat4) (c : nat * nat * nat * nat) : mat4 :=
  let '(a, b, i, j) := c in
  let denom := fo i i + fo j j - fv a a - fv b b in
  let t := wr4 t a b i j (v a b i j / denom) in
  let t := wr4 t b a i j (- t a b i j) in
  let t := wr4 t a b j i (- t a b i j) in
  wr4 t b a j i (t a b i j).
Definition mp3_t2 (no nu : nat) (v : mat4) (fo fv : mat2) : mat4 :=
  fold_left (mp3_t2_body v fo fv) (do4 (do2_lt nu) (do2_lt no)) (fun _ _ _ _ => 0).
(** mp3, lines 110-119 (t2b_1) *)
Definition mp3_t2b (d : dims) (H : ints) : mat4 :=
  fold_left (fun t c => let '(a, b, i, j) := c in
    let denom := i_a_oo H i i + i_b_oo H j j - i_a_vv H a a - i_b_vv H b b in wr4 t a b i j (i_ab_vvoo H a b i j / denom))
    (do4 (do2 (nua d) (nub d)) (do2 (noa d) (nob d))) (fun _ _ _ _ => 0).
(** The arrays t2a_1, t2b_1, t2c_1, as cluster amplitudes without singles and triples *)
Definition mp3_t (d : dims) (H : ints) : amps :=
  let z6 := fun _ _ _ _ _ _ => 0 in
  mkAmps (fun _ _ => 0) (fun _ _ => 0) (mp3_t2 (noa d) (nua d) (i_aa_vvoo H) (i_a_oo H) (i_a_vv H)) (mp3_t2b d H)
    (mp3_t2 (nob d) (nub d) (i_bb_vvoo H) (i_b_oo H) (i_b_vv H)) z6 z6 z6 z6.
(** mp3, lines 140-169: t_amp before the division *)
Definition mp3_amp_aa (d : dims) (H : ints) (T : amps) (a b i j : nat) : R :=
  let t_amp := 0 in
  let t_amp := acc (do2_lt (noa d)) (fun '(m, n) => i_aa_oooo H m n i j * x_aa T a b m n) t_amp in
  let t_amp := acc (do2_lt (nua d)) (fun '(e, f) => i_aa_vvvv H a b e f * x_aa T e f i j) t_amp in
  let t_amp := acc (do2 (nua d) (noa d)) (fun '(e, m) => i_aa_voov H a m i e * x_aa T e b m j - i_aa_voov H b m i e * x_aa T e a m j
    - i_aa_voov H a m j e * x_aa T e b m i + i_aa_voov H b m j e * x_aa T e a m i) t_amp in
  acc (do2 (nub d) (nob d)) (fun '(e, m) => i_ab_voov H a m i e * x_ab T b e j m - i_ab_voov H b m i e * x_ab T a e j m
    - i_ab_voov H a m j e * x_ab T b e i m + i_ab_voov H b m j e * x_ab T a e i m) t_amp.
(** mp3, lines 181-224 *)
Definition mp3_amp_ab (d : dims) (H : ints) (T : amps) (a b i j : nat) : R :=
  let t_amp := 0 in
  let t_amp := acc (do2 (noa d) (nob d)) (fun '(m, n) => i_ab_oooo H m n i j * x_ab T a b m n) t_amp in
  let t_amp := acc (do2 (nua d) (nub d)) (fun '(e, f) => i_ab_vvvv H a b e f * x_ab T e f i j) t_amp in
  let t_amp := acc (do2 (nua d) (noa d)) (fun '(e, m) => i_aa_voov H a m i e * x_ab T e b m j) t_amp in
  let t_amp := acc (do2 (nub d) (nob d)) (fun '(e, m) => i_bb_voov H b m j e * x_ab T a e i m) t_amp in
  let t_amp := acc (do2 (nua d) (noa d)) (fun '(e, m) => i_ab_ovvo H m b e j * x_aa T a e i m) t_amp in
  let t_amp := acc (do2 (nub d) (nob d)) (fun '(e, m) => i_ab_voov H a m i e * x_bb T b e j m) t_amp in
  let t_amp := acc (do2 (nub d) (noa d)) (fun '(e, m) => - (i_ab_ovov H m b i e * x_ab T a e m j)) t_amp in
  acc (do2 (nua d) (nob d)) (fun '(e, m) => - (i_ab_vovo H a m e j * x_ab T e b i m)) t_amp.
(** mp3, lines 236-265 *)
Definition mp3_amp_bb (d : dims) (H : ints) (T : amps) (a b i j : nat) : R :=
  let t_amp := 0 in
  let t_amp := acc (do2_lt (nob d)) (fun '(m, n) => i_bb_oooo H m n i j * x_bb T a b m n) t_amp in
  let t_amp := acc (do2_lt (nub d)) (fun '(e, f) => i_bb_vvvv H a b e f * x_bb T e f i j) t_amp in
  let t_amp := acc (do2 (nub d) (nob d)) (fun '(e, m) => i_bb_voov H a m i e * x_bb T e b m j - i_bb_voov H b m i e * x_bb T e a m j
    - i_bb_voov H a m j e * x_bb T e b m i + i_bb_voov H b m j e * x_bb T e a m i) t_amp in
  acc (do2 (nua d) (noa d)) (fun '(e, m) => i_ab_ovvo H m a e i * x_ab T e b m j - i_ab_ovvo H m b e i * x_ab T e a m j
    - i_ab_ovvo H m a e j * x_ab T e b m i + i_ab_ovvo H m b e j * x_ab T e a m i) t_amp.
(** mp3, lines 134-271 *)
Definition mp3 (d : dims) (H : ints) : R :=
  let T := mp3_t d H in
  let Emp3 := 0 in
  let Emp3 := acc (do4 (do2_lt (nua d)) (do2_lt (noa d))) (fun '(a, b, i, j) =>
    let denom := i_a_oo H i i + i_a_oo H j j - i_a_vv H a a - i_a_vv H b b in let t_amp := mp3_amp_aa d H T a b i j / denom in i_aa_oovv H i j a b * t_amp) Emp3 in
  let Emp3 := acc (do4 (do2 (nua d) (nub d)) (do2 (noa d) (nob d))) (fun '(a, b, i, j) =>
    let denom := i_a_oo H i i + i_b_oo H j j - i_a_vv H a a - i_b_vv H b b in let t_amp := mp3_amp_ab d H T a b i j / denom in i_ab_oovv H i j a b * t_amp) Emp3 in
  acc (do4 (do2_lt (nub d)) (do2_lt (nob d))) (fun '(a, b, i, j) =>
    let denom := i_b_oo H i i + i_b_oo H j j - i_b_vv H a a - i_b_vv H b b in let t_amp := mp3_amp_bb d H T a b i j / denom in i_bb_oovv H i j a b * t_amp) Emp3.
(** ccpy/mbpt/mbpt.py, calc_mp2, lines 6-24 *)
Definition calc_mp2 (d : dims) (H : ints) : R := mp2 d H.
(** ccpy/mbpt/mbpt.py, calc_mp3, lines 26-52 *)
Definition calc_mp3 (d : dims) (H : ints) : R := let corr_energy2 := mp2 d H in let corr_energy3 := mp3 d H in corr_energy2 + corr_energy3.
