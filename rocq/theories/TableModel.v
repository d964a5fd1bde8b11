(** Model of get_index_table, three-index version (ccpy/lib/fortran/ccp3_adaptive_loops.f90 1379-1432; same text in the
    other modules that use sort3) and four-index version (ccsdt_p_loops.f90 7861-7935; same text in the other modules that use
    sort4).  Simplified: the table is a function on index tuples, so writes outside the declared bounds are visible only as
    entries at such tuples. *)
From Coq Require Import List Arith Bool ZArith.
Import ListNotations.
Open Scope Z_scope.

(** do x = lo, hi *)
Definition zrange (lo hi : Z) : list Z := map (fun k => lo + Z.of_nat k) (seq 0 (Z.to_nat (hi - lo + 1))).

(** One loop of a nest: do x = rng(1), rng(2), or do x = prev - rng(1), rng(2). *)
Inductive loop := Abs (rng : Z * Z) | Rel (rng : Z * Z).
Definition loop_range (l : loop) (prev : Z) : list Z :=
  match l with Abs (a, b) => zrange a b | Rel (a, b) => zrange (prev - a) b end.
(** The tuples of a nest in execution order. *)
Fixpoint nest_tuples (ls : list loop) (prev : Z) : list (list Z) :=
  match ls with
  | [] => [[]]
  | l :: r => flat_map (fun x => map (cons x) (nest_tuples r x)) (loop_range l prev)
  end.

Definition table := list Z -> nat.
Definition tuple_eq_dec : forall x y : list Z, {x = y} + {x <> y} := list_eq_dec Z.eq_dec.
(** idx_table(p,q,r) = kout; kout = kout + 1 *)
Definition table_step (st : table * nat) (t : list Z) : table * nat :=
  ((fun u => if tuple_eq_dec u t then snd st else fst st u), S (snd st)).
Definition fill (ls : list loop) : table := fst (fold_left table_step (nest_tuples ls 0) (fun _ => 0%nat, 1%nat)).

(** Branch choice, lines 1390-1429. *)
Definition branch3 (r1 r2 r3 : Z * Z) : list loop :=
  if (0 <? fst r1) && (fst r2 <? 0) && (fst r3 <? 0) then [Abs r1; Rel r2; Rel r3]
  else if (0 <? fst r1) && (0 <? fst r2) && (fst r3 <? 0) then [Abs r1; Abs r2; Rel r3]
  else if (0 <? fst r1) && (fst r2 <? 0) && (0 <? fst r3) then [Abs r1; Rel r2; Abs r3]
  else [Abs r1; Abs r2; Abs r3].
Definition get_index_table3 (r1 r2 r3 : Z * Z) : table := fill (branch3 r1 r2 r3).

(** Branch choice, ccsdt_p_loops.f90 7873-7933. *)
Definition branch4 (r1 r2 r3 r4 : Z * Z) : list loop :=
  if (fst r1 <? 0) && (fst r2 <? 0) && (fst r3 <? 0) && (fst r4 <? 0) then [Abs r1; Rel r2; Rel r3; Rel r4]
  else if (0 <? fst r1) && (fst r2 <? 0) && (fst r3 <? 0) && (0 <? fst r4) then [Abs r1; Rel r2; Rel r3; Abs r4]
  else if (0 <? fst r1) && (fst r2 <? 0) && (0 <? fst r3) && (fst r4 <? 0) then [Abs r1; Rel r2; Abs r3; Rel r4]
  else if (0 <? fst r1) && (fst r2 <? 0) && (0 <? fst r3) && (0 <? fst r4) then [Abs r1; Rel r2; Abs r3; Abs r4]
  else [Abs r1; Abs r2; Abs r3; Abs r4].
Definition get_index_table4 (r1 r2 r3 r4 : Z * Z) : table := fill (branch4 r1 r2 r3 r4).
