(** Model of ccpy/utilities/permutations.py and ccpy/utilities/determinants.py. *)
From Coq Require Import ZArith List Arith Bool.
Import ListNotations.

(** Python [sorted] / [list.sort] on integers. Insertion sort: any sorting algorithm
    returns the same list of integers. Used at permutations.py lines 18-19. *)
Fixpoint insert (x : nat) (l : list nat) : list nat :=
  match l with
  | [] => [x]
  | y :: r => if x <=? y then x :: l else y :: insert x r
  end.
Fixpoint sorted (l : list nat) : list nat :=
  match l with
  | [] => []
  | x :: r => insert x (sorted r)
  end.

(** [min(range(i, len(lst)), key=lst.__getitem__)], permutations.py line 9:
    first position at or after [i] holding the smallest value. [rest] are the entries
    after position [pos]; (best, bestval) the running answer. *)
Fixpoint argmin_from (pos best bestval : nat) (rest : list nat) : nat :=
  match rest with
  | [] => best
  | y :: r => if y <? bestval then argmin_from (S pos) pos y r
              else argmin_from (S pos) best bestval r
  end.
Definition argmin (i : nat) (lst : list nat) : nat :=
  argmin_from (S i) i (nth i lst 0) (skipn (S i) lst).

(** lst[k] = v (0 <= k < len). *)
Fixpoint set_nth (k : nat) (v : nat) (l : list nat) : list nat :=
  match l, k with
  | [], _ => []
  | _ :: r, O => v :: r
  | x :: r, S k' => x :: set_nth k' v r
  end.
(** lst[i], lst[mn] = lst[mn], lst[i]; permutations.py line 10. *)
Definition swap (i j : nat) (l : list nat) : list nat :=
  set_nth j (nth i l 0) (set_nth i (nth j l 0) l).

(** Body of the loop, permutations.py lines 7-10 (identical text in determinants.py lines 7-10).
    State: (parity, lst). *)
Definition parity_step (st : Z * list nat) (i : nat) : Z * list nat :=
  let '(parity, lst) := st in
  if nth i lst 0 =? i then (parity, lst)
  else ((- parity)%Z, swap i (argmin i lst) lst).

(** calculate_permutation_parity, permutations.py lines 2-11; also returns the mutated list. *)
Definition calculate_permutation_parity_st (lst : list nat) : Z * list nat :=
  fold_left parity_step (seq 0 (length lst - 1)) (1%Z, lst).
Definition calculate_permutation_parity (lst : list nat) : Z :=
  fst (calculate_permutation_parity_st lst).

(** The while loop of do_lineup_permutation, permutations.py lines 22-35: [f1], [f2] are the
    suffixes starting at positions i, j. [fuel] bounds i+j progress (len f1 + len f2 suffices). *)
Fixpoint common_loop (fuel i j : nat) (f1 f2 : list nat) : list nat * list nat :=
  match fuel with
  | O => ([], [])
  | S n =>
      match f1, f2 with
      | x :: r1, y :: r2 =>
          if x =? y then let '(c1, c2) := common_loop n (S i) (S j) r1 r2 in (i :: c1, j :: c2)
          else if x <? y then common_loop n (S i) j r1 f2
          else common_loop n i (S j) f1 r2
      | _, _ => ([], [])
      end
  end.

(** do_lineup_permutation, permutations.py lines 13-42. *)
Definition do_lineup_permutation (g1 g2 : list nat) : (list nat * list nat) * (Z * Z) :=
  let f1 := sorted g1 in
  let f2 := sorted g2 in
  let '(c1, c2) := common_loop (length f1 + length f2) 0 0 f1 f2 in
  let d1 := filter (fun i => negb (existsb (Nat.eqb i) c1)) (seq 0 (length f1)) in
  let d2 := filter (fun i => negb (existsb (Nat.eqb i) c2)) (seq 0 (length f2)) in
  let p1 := c1 ++ d1 in
  let p2 := c2 ++ d2 in
  ((map (fun i => nth i f1 0) p1, map (fun i => nth i f2 0) p2),
   (calculate_permutation_parity p1, calculate_permutation_parity p2)).

Definition mem (x : nat) (l : list nat) : bool := existsb (Nat.eqb x) l.

(** list(set(A) - set(B)). Python's iteration order of a set is unspecified; the model lists the
    elements in order of last occurrence in A, and no theorem depends on that order. *)
Definition set_minus (A B : list nat) : list nat :=
  filter (fun x => negb (mem x B)) (nodup Nat.eq_dec A).

(** get_excit_rank, get_excits_from, get_excits_to: determinants.py lines 13-22. *)
Definition get_excit_rank (D D0 : list nat) : nat := length (set_minus D D0).
Definition get_excits_from (D D0 : list nat) : list nat := set_minus D0 D.
Definition get_excits_to (D D0 : list nat) : list nat := set_minus D D0.

(** spatial_orb_idx, determinants.py lines 25-29. *)
Definition spatial_orb_idx (x : nat) : nat :=
  if x mod 2 =? 1 then (x + 1) / 2 else x / 2.

Inductive spin := Sa | Sb.

(** get_spincase, determinants.py lines 32-42; failed assertion = None. *)
Definition get_spincase (excits_from excits_to : list nat) : option (list spin) :=
  if length excits_from =? length excits_to then
    let nocc := list_sum (map (fun i => i mod 2) excits_from) in
    let nun := list_sum (map (fun i => i mod 2) excits_to) in
    if nocc =? nun then Some (repeat Sa nocc ++ repeat Sb (length excits_from - nocc)) else None
  else None.
