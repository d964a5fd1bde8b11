(** Model of read_amplitudes_from_jun, ccpy/utilities/utilities.py 306-407.

    The file is the array of numbers the reader gets from it (for "T" the second record of the Fortran file, for the other types the
    whole file).  An exception is [None].  An amplitude block is named by the spins of its index pairs, true for alpha: X.ab is
    [true; false].  The spin blocks and their shapes are those of ClusterOperator(system, order). *)
From Coq Require Import List Arith ZArith Reals Bool.
Import ListNotations.

Record asys := mkAsys { a_noa : nat; a_nob : nat; a_nua : nat; a_nub : nat }.
Definition no (s : asys) (x : bool) : nat := if x then a_noa s else a_nob s.
Definition nu (s : asys) (x : bool) : nat := if x then a_nua s else a_nub s.
Definition block := list bool.
Definition shape (s : asys) (b : block) : list nat := map (nu s) b ++ map (no s) b.
Definition op := block -> list nat -> R.

(** ClusterOperator: blocks up to the order, and ndim, the number of amplitudes (operators.py 150-190) *)
Definition blocks1 : list block := [[true]; [false]].
Definition blocks2 : list block := [[true; true]; [true; false]; [false; false]].
Definition blocks3 : list block := [[true; true; true]; [true; true; false]; [true; false; false]; [false; false; false]].
Definition blocks (order : nat) : list block :=
  blocks1 ++ (if 2 <=? order then blocks2 else []) ++ (if 3 <=? order then blocks3 else []).
Definition prod (l : list nat) : nat := fold_right Nat.mul 1 l.
Definition ndim (s : asys) (order : nat) : nat := fold_right Nat.add 0 (map (fun b => prod (shape s b)) (blocks order)).

(** Nested loops over range(d) for d in dims, the first one outermost *)
Fixpoint tuples (dims : list nat) : list (list nat) :=
  match dims with
  | [] => [[]]
  | d :: r => flat_map (fun i => map (cons i) (tuples r)) (seq 0 d)
  end.

Definition is_block (x y : block) : bool := if list_eq_dec Bool.bool_dec x y then true else false.
Definition is_idx (x y : list nat) : bool := if list_eq_dec Nat.eq_dec x y then true else false.
Definition set (X : op) (b : block) (i : list nat) (v : R) : op := fun b' i' => if is_block b b' && is_idx i i' then v else X b' i'.
(** every index within the shape, and as many as axes *)
Fixpoint fits (i d : list nat) : bool :=
  match i, d with [], [] => true | x :: i', n :: d' => (x <? n) && fits i' d' | _, _ => false end.
(** amps[k] with Python's negative indices *)
Definition getitem (l : list R) (k : Z) : option R :=
  if (k <? 0)%Z then if (- Z.of_nat (length l) <=? k)%Z then nth_error l (Z.to_nat (Z.of_nat (length l) + k)) else None
  else nth_error l (Z.to_nat k).

(** One statement X.b[i] = sign * amps[n + iroot * reclen] *)
Definition store (s : asys) (file : list R) (off : Z) (w : block * list nat * R) (st : op * nat) : option (op * nat) :=
  let '(b, i, sg) := w in let (X, n) := st in
  match getitem file (Z.of_nat n + off) with
  | None => None
  | Some v => if fits i (shape s b) then Some (set X b i (sg * v)%R, S n) else None
  end.
Fixpoint run (s : asys) (file : list R) (off : Z) (ws : list (block * list nat * R)) (st : op * nat) : option (op * nat) :=
  match ws with
  | [] => Some st
  | w :: r => match store s file off w st with None => None | Some st' => run s file off r st' end
  end.

(** The loops: holes outermost.  T says whether amp_type == "T". *)
Definition loop (s : asys) (b : block) (tgt : list nat -> block * list nat * R) : list (block * list nat * R) :=
  map tgt (tuples (map (no s) b ++ map (nu s) b)).
(** 325-332 *)
Definition singles (s : asys) : list (block * list nat * R) :=
  loop s [true] (fun t => match t with [i; a] => ([true], [a; i], 1%R) | _ => ([], [], 0%R) end) ++
  loop s [false] (fun t => match t with [i; a] => ([false], [a; i], 1%R) | _ => ([], [], 0%R) end).
(** 336-362 *)
Definition doubles (s : asys) (T : bool) : list (block * list nat * R) :=
  loop s [true; true] (fun t => match t with [i; j; a; b] => if T then ([true; true], [a; b; i; j], (-1)%R) else ([true; true], [a; b; i; j], 1%R) | _ => ([], [], 0%R) end) ++
  loop s [true; false] (fun t => match t with [i; j; a; b] => if T then ([false; false], [a; b; i; j], (-1)%R) else ([true; false], [a; b; i; j], 1%R) | _ => ([], [], 0%R) end) ++
  loop s [false; false] (fun t => match t with [i; j; a; b] => if T then ([true; false], [a; b; i; j], (-1)%R) else ([false; false], [a; b; i; j], 1%R) | _ => ([], [], 0%R) end).
(** 366-405 *)
Definition triples (s : asys) (T : bool) : list (block * list nat * R) :=
  loop s [true; true; true] (fun t => match t with [i; j; k; a; b; c] =>
    if T then ([true; true; true], [a; b; c; i; j; k], (-1)%R) else ([true; true; true], [a; b; c; i; j; k], 1%R) | _ => ([], [], 0%R) end) ++
  loop s [true; true; false] (fun t => match t with [i; j; k; a; b; c] =>
    if T then ([false; false; false], [a; b; c; i; j; k], (-1)%R) else ([true; true; false], [a; b; c; i; j; k], 1%R) | _ => ([], [], 0%R) end) ++
  loop s [true; false; false] (fun t => match t with [i; j; k; a; b; c] =>
    if T then ([true; true; false], [a; c; b; i; k; j], (-1)%R) else ([true; false; false], [a; b; c; i; j; k], 1%R) | _ => ([], [], 0%R) end) ++
  loop s [false; false; false] (fun t => match t with [i; j; k; a; b; c] =>
    if T then ([true; false; false], [a; b; c; i; j; k], (-1)%R) else ([false; false; false], [a; b; c; i; j; k], 1%R) | _ => ([], [], 0%R) end).

Inductive amp_type := T_amps | R_amps | other_amps.
(** 306-407; orders above 3 return None (the Python value, no exception), modelled like the exception. *)
Definition read_amplitudes (file : list R) (s : asys) (order : nat) (ty : amp_type) (iroot : Z) : option op :=
  let T := match ty with T_amps => true | _ => false end in
  let iroot := match ty with R_amps => (iroot - 1)%Z | _ => iroot end in
  let off := (iroot * Z.of_nat (ndim s order))%Z in
  let ws := match order with
    | 1 => Some (singles s)
    | 2 => Some (singles s ++ doubles s T)
    | 3 => Some (singles s ++ doubles s T ++ triples s T)
    | _ => None
    end in
  match ws with
  | None => None
  | Some ws => match run s file off ws (fun _ _ => 0%R, 0) with None => None | Some (X, _) => Some X end
  end.
