(** Model of ccpy/lib/fortran/combinatorics.f90 (27-165). *)
From Coq Require Import List Arith ZArith Reals.
From Verif Require Import ReorderModel.
Import ListNotations.
Local Open Scope Z_scope.

(** do i = 2, pool *)
Definition zloop (pool : Z) : list Z := map Z.of_nat (seq 2 (Z.to_nat pool - 1)).
(** The common opening of binom_i and binom_r, lines 37-42 and 63-68: (n1, pool). *)
Definition binom_setup (m n : Z) : Z * Z :=
  let pool := m - n in if n <? pool then (m - n, n) else (n, pool).
(** binom_i, lines 27-49.  Integer division truncates (Z.quot).  [ok] tells whether an integer can be represented; an overflow, which
    Fortran leaves undefined, is None. *)
Definition binom_i (ok : Z -> bool) (m n : Z) : option Z :=
  let (n1, pool) := binom_setup m n in
  let binom := if pool =? 0 then 1 else n1 + 1 in
  fold_left (fun acc i => match acc with
    | Some b => if ok (b * (n1 + i)) then Some (Z.quot (b * (n1 + i)) i) else None
    | None => None end) (zloop pool) (Some binom).
(** binom_r, lines 51-75: real arithmetic, without rounding. *)
Definition binom_r (m n : Z) : R :=
  let (n1, pool) := binom_setup m n in
  let binom := if pool =? 0 then 1 else n1 + 1 in
  fold_left (fun b i => (b * IZR (n1 + i) / IZR i)%R) (zloop pool) (IZR binom).
(** factorial, lines 77-98 (unbounded integers) *)
Definition factorial (n : Z) : Z := fold_left (fun fac i => fac * i) (zloop n) 1.
(** factorial_combination_1, lines 100-127, without rounding *)
Definition factorial_combination_1 (m n : Z) : R :=
  let (m1, n1) := if n <=? m then (m, n) else (n, m) in
  let c := fold_left (fun c i => (c * IZR i / IZR (i + m1))%R) (map Z.of_nat (seq 1 (Z.to_nat n1))) 1%R in
  (c / IZR (m1 + n1 + 1))%R.
Local Close Scope Z_scope.

(** The loop of next_combination, lines 149-157: the position at which it is left, or 0 when it returns with done.
    inds(i) /= i + nitems - r is written without the subtraction. *)
Fixpoint last_movable (nitems : nat) (inds : list nat) (r i : nat) : nat :=
  match i with
  | 0 => 0
  | S i' => if at1 inds i + r =? i + nitems then last_movable nitems inds r i' else i
  end.
(** next_combination, lines 129-165: the new inds and done.  For r = 0 the loop does not run, i stays 0 and inds(0) is written: None. *)
Definition next_combination (nitems : nat) (inds : list nat) (r : nat) : option (list nat * bool) :=
  match r with
  | 0 => None
  | _ => match last_movable nitems inds r r with
         | 0 => Some (inds, true)
         | i => Some (fold_left (fun l j => set1 l j (at1 l (j - 1) + 1)) (seq (i + 1) (r - i)) (set1 inds i (at1 inds i + 1)), false)
         end
  end.
