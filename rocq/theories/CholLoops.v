(** Cholesky vectors as the CCSD routines read them, and the two routines of ccpy/lib/fortran/vvvv_contraction.f90 they call.  Exact reals, zero-based
    indices; an OpenMP reduction over resid is modelled as the loop in order (the entries of different pairs are disjoint). *)
From Coq Require Import Reals Arith List Bool.
From Verif Require Import RSum IntegralsModel.
Import ListNotations.
Open Scope R_scope.

(** H.chol: vectors of one spin, split by slices (integrals.py, lines 133-149) *)
Record chol := mkChol { c_a_oo : mat3; c_a_ov : mat3; c_a_vo : mat3; c_a_vv : mat3; c_b_oo : mat3; c_b_ov : mat3; c_b_vo : mat3; c_b_vv : mat3 }.

(** vvvv_contraction.f90, vvvv_t2_sym, lines 22-29: ab_table *)
Definition ab_table (nu : nat) : list (nat * nat) := flat_map (fun a => map (fun b => (a, b)) (seq (S a) (nu - S a))) (seq 0 nu).
(** lines 37-39: batch_ints(f, e) for the pair (a, b), dgemm followed by the subtraction of the transpose *)
Definition batch_ints (nx : nat) (v : mat3) (a b : nat) : mat2 :=
  let g f e := sumn nx (fun x => v x f b * v x e a) in fun f e => g f e - g e f.
(** lines 41-50: the contraction with t2 for the pair (a, b), e over all and f above e *)
Definition pair_sum (nu nx : nat) (v : mat3) (t2 : mat4) (a b j i : nat) : R :=
  sumn nu (fun e => sumn (nu - S e) (fun g => batch_ints nx v a b (S e + g)%nat e * t2 j i (S e + g)%nat e)).
(** vvvv_contraction.f90, vvvv_t2_sym, lines 7-55 (the first axis length no only dimensions the arrays) *)
Definition vvvv_t2_sym (no nu nx : nat) (v : mat3) (t2 : mat4) : mat4 :=
  fold_left (fun (resid : mat4) ab => fun j i b' a' =>
    if ((a' =? fst ab) && (b' =? snd ab))%nat then resid j i b' a' + pair_sum nu nx v t2 (fst ab) (snd ab) j i else resid j i b' a')
    (ab_table nu) (fun _ _ _ _ => 0).
(** vvvv_contraction.f90, vvvv_t2, lines 57-91 *)
Definition vvvv_t2 (nua nub nx : nat) (Ra Rb : mat3) (t2 : mat4) : mat4 :=
  fun j i b a => if ((a <? nua) && (b <? nub))%nat
    then sumn nua (fun e => sumn nub (fun f => sumn nx (fun x => Rb x f b * Ra x e a) * t2 j i f e)) else 0.
