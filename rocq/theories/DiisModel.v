(** Model of ccpy/drivers/diis.py.  Amplitude vectors are functions [nat -> R] read on indices < ndim;
    matrices are [nat -> nat -> R].  Simplified: real data type (no conj), exact arithmetic, no HDF5 storage
    (the out-of-core datasets are arrays with the same row assignment). *)
From Coq Require Import Reals Arith Bool List.
From Verif Require Import RSum.
Import ListNotations.
Open Scope R_scope.

Definition vec := nat -> R.
Definition mat := nat -> nat -> R.

(** DIIS object: T_list and T_residuum_list, rows indexed by slot; lines 22-23. *)
Record diis := mkDiis { d_size : nat; d_ndim : nat; d_T : nat -> vec; d_R : nat -> vec }.

(** __init__, lines 7-23. *)
Definition diis_init (size ndim : nat) : diis :=
  {| d_size := size; d_ndim := ndim; d_T := fun _ _ => 0; d_R := fun _ _ => 0 |}.

(** Row assignment [a[k, :] = v]. *)
Definition set_row (a : nat -> vec) (k : nat) (v : vec) : nat -> vec :=
  fun s => if s =? k then v else a s.

(** push, lines 29-31. *)
Definition push (d : diis) (T dT : vec) (iteration : nat) : diis :=
  {| d_size := d_size d; d_ndim := d_ndim d;
     d_T := set_row (d_T d) (iteration mod d_size d) T;
     d_R := set_row (d_R d) (iteration mod d_size d) dT |}.

(** np.dot of two vectors. *)
Definition dot (n : nat) (u v : vec) : R := sumn n (fun p => u p * v p).

(** B matrix of extrapolate, lines 34-40: all entries -1, then the two nested loops write B[i,j] and B[j,i]
    for i <= j < diis_size, then the corner is 0. *)
Definition set_entry (B : mat) (r c : nat) (v : R) : mat :=
  fun i j => if (i =? r) && (j =? c) then v else B i j.
Definition fill_pair (d : diis) (B : mat) (i j : nat) : mat :=
  let v := dot (d_ndim d) (d_R d i) (d_R d j) in
  let B1 := set_entry B i j v in set_entry B1 j i (B1 i j).
Definition build_B (d : diis) : mat :=
  let B0 : mat := fun _ _ => -1 * 1 in
  let B1 := fold_left (fun B i => fold_left (fun B j => fill_pair d B i j) (seq i (d_size d - i)) B)
              (seq 0 (d_size d)) B0 in
  set_entry B1 (d_size d) (d_size d) 0.
(** rhs, lines 42-43. *)
Definition build_rhs (d : diis) : vec := fun i => if i =? d_size d then -1 else 0.

(** solve_gauss, lines 54-70.  Row operation of lines 60-62. *)
Definition row_op (i : nat) (Ab : mat * vec) (j : nat) : mat * vec :=
  let (A, b) := Ab in
  let m := A j i / A i i in
  (fun r c => if r =? j then A r c - m * A i c else A r c,
   fun r => if r =? j then b r - m * b i else b r).
(** Loops of lines 58-62. *)
Definition eliminate_col (n : nat) (Ab : mat * vec) (i : nat) : mat * vec :=
  fold_left (row_op i) (seq (i + 1) (n - (i + 1))) Ab.
Definition eliminate (n : nat) (A : mat) (b : vec) : mat * vec :=
  fold_left (eliminate_col n) (seq 0 (n - 1)) (A, b).
(** [x[k] = v]. *)
Definition set_vec (x : vec) (k : nat) (v : R) : vec := fun i => if i =? k then v else x i.
(** Lines 66-68: one back-substitution step; the dot product runs over columns k+1..n-1. *)
Definition back_step (n : nat) (A : mat) (b : vec) (x : vec) (k : nat) : vec :=
  set_vec x k ((b k - sumn (n - (k + 1)) (fun c => A k (k + 1 + c)%nat * x (k + 1 + c)%nat)) / A k k).
(** The while loop visits k = n-1, ..., 0. *)
Fixpoint back_loop (n : nat) (A : mat) (b : vec) (k : nat) (x : vec) : vec :=
  match k with
  | O => x
  | S k' => back_loop n A b k' (back_step n A b x k')
  end.
Definition solve_gauss (n : nat) (A : mat) (b : vec) : vec :=
  let (A', b') := eliminate n A b in
  let x0 : vec := set_vec (fun _ => 0) (n - 1) (b' (n - 1)%nat / A' (n - 1)%nat (n - 1)%nat) in
  back_loop n A' b' n x0.

(** extrapolate, lines 33-52: the coefficients, and the extrapolated vector. *)
Definition coefficients (d : diis) : vec := solve_gauss (d_size d + 1) (build_B d) (build_rhs d).
Definition extrapolate (d : diis) : vec :=
  let coeff := coefficients d in
  fold_left (fun x i => fun p => x p + coeff i * d_T d i p) (seq 0 (d_size d)) (fun _ => 0).
