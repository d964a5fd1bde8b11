(** Model of the sorting and lookup machinery of the P-space kernels: argsort and argsort_r8_descend
    (ccpy/lib/fortran/ccp3_adaptive_loops.f90 1476-1579; argsort is textually the same in all 18 kernel modules), sort3
    (ccp3_adaptive_loops.f90 1434-1474) and sort4 (ccsdt_p_loops.f90 7937-8007).
    Arrays are lists; a Fortran position p (from 1) is list position p - 1.  Simplified: integers are unbounded. *)
From Coq Require Import List Arith Bool ZArith Reals.
Import ListNotations.

Section Argsort.
(** [before x y] is the test r(x) < r(y) (argsort 1502) or r(x) > r(y) (argsort_r8_descend 1555). *)
Variable before : nat -> nat -> bool.

(** The while loop 1501-1511 with the two tail copies 1513-1519: [l1] is what is left of d(i:left+stepsize-1), [l2] of
    d(j:left+ksize-1); the result is il(k:ksize). *)
Fixpoint merge (l1 l2 : list nat) : list nat :=
  let fix go (l2 : list nat) : list nat :=
    match l1, l2 with
    | [], _ => l2
    | _, [] => l1
    | x :: r1, y :: r2 => if before x y then x :: merge r1 l2 else y :: go r2
    end in
  go l2.

(** Body of the do loop over left, 1496-1520. *)
Definition merge_block (n stepsize : nat) (d : list nat) (left : nat) : list nat :=
  let ksize := Nat.min (stepsize * 2) (n - left + 1) in
  firstn (left - 1) d
  ++ merge (firstn stepsize (skipn (left - 1) d)) (firstn (ksize - stepsize) (skipn (left - 1 + stepsize) d))
  ++ skipn (left - 1 + ksize) d.

(** do left = 1, n-stepsize, stepsize*2 *)
Definition lefts (n stepsize : nat) : list nat :=
  if stepsize <? n then map (fun m => 1 + m * (stepsize * 2)) (seq 0 ((n - stepsize - 1) / (stepsize * 2) + 1)) else [].
Definition pass (n stepsize : nat) (d : list nat) : list nat := fold_left (merge_block n stepsize) (lefts n stepsize) d.

(** do while (stepsize < n), 1494-1522; [fuel] bounds the number of rounds (n suffices). *)
Fixpoint passes (fuel n stepsize : nat) (d : list nat) : list nat :=
  match fuel with
  | O => d
  | S f => if stepsize <? n then passes f n (stepsize * 2) (pass n stepsize d) else d
  end.
Definition argsort_by (n : nat) : list nat :=
  let d := seq 1 n in                                             (* 1487-1489 *)
  if n =? 1 then d else passes n n 1 d.                           (* 1491 *)
End Argsort.

(** argsort, 1476-1526 *)
Definition argsort (r : list nat) : list nat :=
  argsort_by (fun x y => nth (x - 1) r 0 <? nth (y - 1) r 0) (length r).
(** argsort_r8_descend, 1528-1579 *)
Definition argsort_r8_descend (r : list R) : list nat :=
  argsort_by (fun x y => if Rlt_dec (nth (y - 1) r 0%R) (nth (x - 1) r 0%R) then true else false) (length r).

(** a(idx) for an index vector. *)
Definition take {A} (dflt : A) (a : list A) (idx : list nat) : list A := map (fun i => nth (i - 1) a dflt) idx.

(** loc_arr(1,t), loc_arr(2,t). *)
Definition locs := nat -> nat * nat.
Definition set_start (loc : locs) (t v : nat) : locs := fun u => if u =? t then (v, snd (loc u)) else loc u.
Definition set_end (loc : locs) (t v : nat) : locs := fun u => if u =? t then (fst (loc u), v) else loc u.

Section Sort.
Variable row : Type.
Variable dflt : row.
(** idx_table at the entries of a row selected by idims. *)
Variable key : row -> nat.

(** excits = excits(idx,:), sort4 7969-7976. *)
Definition sort_index (rows : list row) : list nat := argsort (map key rows).
Definition sort_rows (rows : list row) : list row := take dflt rows (sort_index rows).

(** Loop 7991-8002 over idet = 1..n3p-1. *)
Definition loc_step (rows : list row) (loc : locs) (idet : nat) : locs :=
  let t1 := key (nth (idet - 1) rows dflt) in
  let t2 := key (nth idet rows dflt) in
  if negb (t1 =? t2) then set_start (set_end loc t1 idet) t2 (idet + 1) else loc.
Definition loc_loop (rows : list row) : locs :=
  fold_left (loc_step rows) (seq 1 (length rows - 1)) (fun _ => (1, 0)).

(** sort4, 7981-8005: [placeholder] tells whether the only row is the row of ones, which makes the routine return early.
    Simplified: with no row at all the source writes loc_arr(2,-1), out of bounds; no caller passes an empty array. *)
Definition loc4 (placeholder : row -> bool) (rows : list row) : locs :=
  match rows with
  | [] => loc_loop rows
  | [r] => if placeholder r then loc_loop rows else set_end (loc_loop rows) (key r) 1
  | _ => set_end (loc_loop rows) (key (last rows dflt)) (length rows)
  end.
(** sort3, 1456-1473: the final end point is recorded only if n3p > 1. *)
Definition loc3 (rows : list row) : locs :=
  if 1 <? length rows then set_end (loc_loop rows) (key (last rows dflt)) (length rows) else loc_loop rows.

(** do jdet = loc_arr(1,idx), loc_arr(2,idx): the positions visited. *)
Definition visited (loc : locs) (t : nat) : list nat := seq (fst (loc t)) (snd (loc t) + 1 - fst (loc t)).
End Sort.
Arguments sort_rows {row}. Arguments sort_index {row}. Arguments loc4 {row}. Arguments loc3 {row}. Arguments loc_loop {row}.
Arguments loc_step {row}.
