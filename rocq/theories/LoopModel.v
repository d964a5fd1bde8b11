(** Amplitude-update loops of ccpy/lib/fortran/cc_loops2.f90, modelled as sequences of array writes.  Fortran indices start at 1, the model's at 0;
    the loop variables run over the same cells in the same order.  Arrays are total functions; cells outside the loop bounds are never written. *)
From Coq Require Import Reals Arith List Bool.
From Verif Require Import RSum IntegralsModel TensorObjs.
Import ListNotations.
Open Scope R_scope.

Definition wr2 (f : mat2) (a i : nat) (x : R) : mat2 := fun p r => if (p =? a)%nat && (r =? i)%nat then x else f p r.
Definition wr4 (f : mat4) (a b i j : nat) (x : R) : mat4 :=
  fun p q r u => if (p =? a)%nat && (q =? b)%nat && (r =? i)%nat && (u =? j)%nat then x else f p q r u.

(** do i = 1,no; do a = 1,nu *)
Definition loop_ia (no nu : nat) : list (nat * nat) := flat_map (fun i => map (fun a => (i, a)) (seq 0 nu)) (seq 0 no).
(** do i = 1,no; do j = i+1,no; do a = 1,nu; do b = a+1,nu *)
Definition loop_ijab (no nu : nat) : list (nat * nat * nat * nat) :=
  flat_map (fun i => flat_map (fun j => flat_map (fun a => map (fun b => (i, j, a, b)) (seq (S a) (nu - S a))) (seq 0 nu)) (seq (S i) (no - S i))) (seq 0 no).
(** do j = 1,nob; do i = 1,noa; do b = 1,nub; do a = 1,nua *)
Definition loop_jiba (na nb ma mb : nat) : list (nat * nat * nat * nat) :=
  flat_map (fun j => flat_map (fun i => flat_map (fun b => map (fun a => (i, j, a, b)) (seq 0 ma)) (seq 0 mb)) (seq 0 na)) (seq 0 nb).

(** cc_loops2.f90, update_t1a, lines 10-32 (update_t1b, lines 34-55, is the same with the beta arrays): new amplitudes and resid *)
Definition upd_t1_body (X fo fv : mat2) (shift : R) (st : mat2 * mat2) (c : nat * nat) : mat2 * mat2 :=
  let '(t, resid) := st in let '(i, a) := c in
  let denom := fo i i - fv a a in
  let val := X a i / (denom - shift) in
  (wr2 t a i (t a i + val), wr2 resid a i val).
Definition upd_t1 (no nu : nat) (t X fo fv : mat2) (shift : R) : mat2 * mat2 :=
  fold_left (upd_t1_body X fo fv shift) (loop_ia no nu) (t, fun _ _ => 0).

(** cc_loops2.f90, update_t2a, lines 57-93 (update_t2c, lines 122-159, is the same with the beta arrays) *)
Definition upd_t2_body (X : mat4) (fo fv : mat2) (shift : R) (st : mat4 * mat4) (c : nat * nat * nat * nat) : mat4 * mat4 :=
  let '(t, resid) := st in let '(i, j, a, b) := c in
  let denom := fo i i + fo j j - fv a a - fv b b in
  let val := (X b a j i - X a b j i - X b a i j + X a b i j) / (denom - shift) in
  let t1 := wr4 t b a j i (t b a j i + val) in
  let t2 := wr4 t1 a b j i (- t1 b a j i) in
  let t3 := wr4 t2 b a i j (- t2 b a j i) in
  let t4 := wr4 t3 a b i j (t3 b a j i) in
  (t4, wr4 (wr4 (wr4 (wr4 resid b a j i val) a b j i (- val)) b a i j (- val)) a b i j val).
Definition upd_t2 (no nu : nat) (t X : mat4) (fo fv : mat2) (shift : R) : mat4 * mat4 :=
  fold_left (upd_t2_body X fo fv shift) (loop_ijab no nu) (t, fun _ _ _ _ => 0).

(** cc_loops2.f90, update_t2b, lines 95-120 *)
Definition upd_t2b_body (X : mat4) (foa fva fob fvb : mat2) (shift : R) (st : mat4 * mat4) (c : nat * nat * nat * nat) : mat4 * mat4 :=
  let '(t, resid) := st in let '(i, j, a, b) := c in
  let denom := foa i i + fob j j - fva a a - fvb b b in
  let val := X a b i j / (denom - shift) in
  (wr4 t a b i j (t a b i j + val), wr4 resid a b i j val).
Definition upd_t2b (na nb ma mb : nat) (t X : mat4) (foa fva fob fvb : mat2) (shift : R) : mat4 * mat4 :=
  fold_left (upd_t2b_body X foa fva fob fvb shift) (loop_jiba na nb ma mb) (t, fun _ _ _ _ => 0).

(** cc_loops2.f90, update_L1, lines 767-811 (one spin): new amplitudes and the overwritten X *)
Definition upd_l1_body (ho hv : mat2) (omega shift : R) (st : mat2 * mat2) (c : nat * nat) : mat2 * mat2 :=
  let '(l, X) := st in let '(i, a) := c in
  let denom := hv a a - ho i i in
  let val := omega * l a i - X a i in
  (wr2 l a i (l a i + val / (denom - omega + shift)), wr2 X a i (val / (denom - omega + shift))).
Definition upd_l1 (no nu : nat) (l X ho hv : mat2) (omega shift : R) : mat2 * mat2 :=
  fold_left (upd_l1_body ho hv omega shift) (loop_ia no nu) (l, X).

(** cc_loops2.f90, update_L2, lines 839-860 (same spin; lines 876-897 for beta) *)
Definition upd_l2_body (ho hv : mat2) (omega shift : R) (st : mat4 * mat4) (c : nat * nat * nat * nat) : mat4 * mat4 :=
  let '(l, X) := st in let '(i, j, a, b) := c in
  let denom := hv a a + hv b b - ho i i - ho j j in
  let val := omega * l a b i j - X a b i j in
  let l1 := wr4 l a b i j (l a b i j + val / (denom - omega + shift)) in
  let l2 := wr4 l1 b a i j (- l1 a b i j) in
  let l3 := wr4 l2 a b j i (- l2 a b i j) in
  let l4 := wr4 l3 b a j i (l3 a b i j) in
  let X1 := wr4 X a b i j (val / (denom - omega + shift)) in
  let X2 := wr4 X1 b a i j (- X1 a b i j) in
  let X3 := wr4 X2 a b j i (- X2 a b i j) in
  let X4 := wr4 X3 b a j i (X3 a b i j) in
  (l4, X4).
Definition upd_l2 (no nu : nat) (l X : mat4) (ho hv : mat2) (omega shift : R) : mat4 * mat4 :=
  fold_left (upd_l2_body ho hv omega shift) (loop_ijab no nu) (l, X).
(** cc_loops2.f90, update_L2, lines 862-874 *)
Definition upd_l2b_body (hoa hva hob hvb : mat2) (omega shift : R) (st : mat4 * mat4) (c : nat * nat * nat * nat) : mat4 * mat4 :=
  let '(l, X) := st in let '(i, j, a, b) := c in
  let denom := hva a a + hvb b b - hoa i i - hob j j in
  let val := omega * l a b i j - X a b i j in
  (wr4 l a b i j (l a b i j + val / (denom - omega + shift)), wr4 X a b i j (val / (denom - omega + shift))).
Definition upd_l2b (na nb ma mb : nat) (l X : mat4) (hoa hva hob hvb : mat2) (omega shift : R) : mat4 * mat4 :=
  fold_left (upd_l2b_body hoa hva hob hvb omega shift) (loop_jiba na nb ma mb) (l, X).
