(** Model of ccpy/lib/fortran/reorder.f90 and of gen_perm_array (combinatorics.f90 9-25).
    Flat arrays are functions from offsets (Fortran position minus 1); shapes and permutations are lists, l(i) is [at1 l i].
    The parallel outer loops take their iterations in an arbitrary [order].  Simplified: integers are unbounded. *)
From Coq Require Import Ascii String List Arith Bool Reals.
Import ListNotations.
Local Open Scope nat_scope.
Local Open Scope list_scope.

Definition at1 (l : list nat) (i : nat) : nat := nth (i - 1) l 0.
(** gen_perm_array, combinatorics.f90 9-25 *)
Definition gen_perm_array (s : string) : list nat := map (fun c => nat_of_ascii c - 48) (list_ascii_of_string s).
(** stride_a, lines 46-49 *)
Fixpoint strides_from (s : nat) (shape : list nat) : list nat :=
  match shape with [] => [] | d :: r => s :: strides_from (s * d) r end.
Definition strides (shape : list nat) : list nat := strides_from 1 shape.
Definition product (l : list nat) : nat := fold_left Nat.mul l 1.

(** permute_array, lines 394-406: B(permutation(i)) = A(i).  [B0] is the previous content of B. *)
Definition set1 {A} (l : list A) (p : nat) (x : A) : list A := firstn (p - 1) l ++ x :: skipn p l.
Definition permute_array {A} (d : A) (perm : list nat) (a b0 : list A) : list A :=
  fold_left (fun b i => set1 b (at1 perm i) (nth (i - 1) a d)) (seq 1 (length perm)) b0.
(** inverse_permute_array, lines 408-419: B(i) = A(permutation(i)) *)
Definition inverse_permute_array {A} (d : A) (perm : list nat) (a b0 : list A) : list A :=
  fold_left (fun b i => set1 b i (nth (at1 perm i - 1) a d)) (seq 1 (length perm)) b0.

Definition upd {V} (b : nat -> V) (p : nat) (v : V) : nat -> V := fun q => if q =? p then v else b q.

(** Offset in A of the first element of stripe j: the loop over i = 2..rank, lines 73-77, 169-176.  [dims] and [shifts] are indexed by
    permutation(i); without shifts the last term is absent. *)
Definition outer_step (dims shifts str : list nat) (st : nat * nat) (p : nat) : nat * nat :=
  let (jt, off) := st in (jt / at1 dims p, off + (jt mod at1 dims p) * at1 str p + at1 shifts p * at1 str p).
Definition outer_offset (dims shifts str : list nat) (perm : list nat) (j : nat) : nat :=
  snd (fold_left (outer_step dims shifts str) (tl perm) (j, 0)).

(** size_outer, lines 54-57 *)
Definition size_outer (shape perm : list nat) : nat :=
  fold_left (fun s i => if i =? at1 perm 1 then s else s * at1 shape i) (seq 1 (length shape)) 1.

(** reorder_stripe, lines 7-93 *)
Definition reorder_stripe {V} (order : list nat) (shape : list nat) (str : string) (a b : nat -> V) : nat -> V :=
  let perm := gen_perm_array str in
  if list_eq_dec Nat.eq_dec (seq 1 (length shape)) perm then fun q => if q <? product shape then a q else b q
  else
    let st := strides shape in
    let size_inner := at1 shape (at1 perm 1) in
    let stride_inner := at1 st (at1 perm 1) in
    fold_left (fun b j =>
      let off := outer_offset shape (repeat 0 (length shape)) st perm j in
      fold_left (fun b i => upd b (j * size_inner + i) (a (off + i * stride_inner))) (seq 0 size_inner) b)
    order b.

(** reorder_shift, lines 95-200 *)
Definition reorder_shift {V} (order : list nat) (a_shape b_shape b_shifts : list nat) (str : string) (a b : nat -> V) : nat -> V :=
  let perm := gen_perm_array str in
  let new_shape := permute_array 0 perm b_shape (repeat 0 (length perm)) in
  let shifts := permute_array 0 perm b_shifts (repeat 0 (length perm)) in
  let st := strides a_shape in
  let size_inner := at1 new_shape (at1 perm 1) in
  let stride_inner := at1 st (at1 perm 1) in
  fold_left (fun b j =>
    let off := outer_offset new_shape shifts st perm j + at1 shifts (at1 perm 1) * stride_inner in
    fold_left (fun b i => upd b (j * size_inner + i) (a (off + i * stride_inner))) (seq 0 size_inner) b)
  order b.
(** Range of j in reorder_shift and sum_shift: 0..size_outer-1, line 156. *)
Definition size_outer_shift (b_shape : list nat) (perm : list nat) : nat :=
  let new_shape := permute_array 0 perm b_shape (repeat 0 (length perm)) in
  product new_shape / at1 new_shape (at1 perm 1).

Local Open Scope R_scope.
(** sum_stripe, lines 202-288: A is updated. *)
Definition sum_stripe (order : list nat) (shape : list nat) (str : string) (beta : R) (a b : nat -> R) : nat -> R :=
  let perm := gen_perm_array str in
  if list_eq_dec Nat.eq_dec (seq 1 (List.length shape)) perm then fun q => if (q <? product shape)%nat then a q + beta * b q else a q
  else
    let st := strides shape in
    let size_inner := at1 shape (at1 perm 1) in
    let stride_inner := at1 st (at1 perm 1) in
    fold_left (fun a j =>
      let off := outer_offset shape (repeat 0%nat (List.length shape)) st perm j in
      fold_left (fun a i => upd a (off + i * stride_inner)%nat (a (off + i * stride_inner)%nat + beta * b (j * size_inner + i)%nat)) (seq 0 size_inner) a)
    order a.
(** sum_shift, lines 290-392: the permutation is replaced by permute_array(permutation, identity). *)
Definition sum_shift_perm (str : string) : list nat :=
  let tmp := gen_perm_array str in permute_array 0%nat tmp (seq 1 (List.length tmp)) tmp.
Definition sum_shift (order : list nat) (a_shape b_shape b_shifts : list nat) (str : string) (beta : R) (a b : nat -> R) : nat -> R :=
  let perm := sum_shift_perm str in
  let new_shape := permute_array 0%nat perm b_shape (repeat 0%nat (List.length perm)) in
  let shifts := permute_array 0%nat perm b_shifts (repeat 0%nat (List.length perm)) in
  let st := strides a_shape in
  let size_inner := at1 new_shape (at1 perm 1) in
  let stride_inner := at1 st (at1 perm 1) in
  fold_left (fun b j =>
    let off := (outer_offset new_shape shifts st perm j + at1 shifts (at1 perm 1) * stride_inner)%nat in
    fold_left (fun b i => upd b (j * size_inner + i)%nat (b (j * size_inner + i)%nat + beta * a (off + i * stride_inner)%nat)) (seq 0 size_inner) b)
  order b.
Local Close Scope R_scope.

(** reorder_amplitudes, lines 421-460; amplitudes and rows travel together, so the two arrays are one list of pairs.  [eqb] is the
    comparison of the six indices. *)
Section Amplitudes.
Variables (row V : Type) (eqb : row -> row -> bool) (d : row * V).
Definition swap (l : list (row * V)) (i j : nat) : list (row * V) :=
  let x := nth (j - 1) l d in set1 (set1 l j (nth (i - 1) l d)) i x.
Definition reorder_amplitudes (l : list (row * V)) (t : list row) : list (row * V) :=
  fold_left (fun l idet =>
    fold_left (fun l jdet => if eqb (nth (idet - 1) t (fst d)) (fst (nth (jdet - 1) l d)) then swap l idet jdet else l) (seq 1 (length t)) l)
  (seq 1 (length t)) l.
End Amplitudes.
Arguments reorder_amplitudes {row V}. Arguments swap {row V}.

(** reorder4, lines 462-486, and sum4, lines 488-511, on functions of four indices; sizes are those of x. *)
Definition tensor4 V := (list nat -> V).
Definition pick (iorder vec : list nat) : list nat := map (fun p => at1 vec p) iorder.
Definition indices4 (s1 s2 s3 s4 : nat) : list (list nat) :=
  flat_map (fun i => flat_map (fun j => flat_map (fun k => map (fun l => [i; j; k; l]) (seq 1 s4)) (seq 1 s3)) (seq 1 s2)) (seq 1 s1).
Definition idx_eqb (x y : list nat) : bool := if list_eq_dec Nat.eq_dec x y then true else false.
Definition reorder4 {V} (zero : V) (s1 s2 s3 s4 : nat) (x : tensor4 V) (iorder : list nat) : tensor4 V :=
  fold_left (fun y vec => fun u => if idx_eqb u (pick iorder vec) then x vec else y u) (indices4 s1 s2 s3 s4) (fun _ => zero).
Definition sum4 (s1 s2 s3 s4 : nat) (x y : tensor4 R) (iorder : list nat) : tensor4 R :=
  fold_left (fun x vec => fun u => if idx_eqb u vec then (x vec + y (pick iorder vec))%R else x u) (indices4 s1 s2 s3 s4) x.
