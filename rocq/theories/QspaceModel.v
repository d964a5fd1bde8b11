(** Model of the enumeration of the triples outside the P space by ccp3{a,b,c,d}_2ba_with_selection_opt
    (ccpy/lib/fortran/ccp3_adaptive_loops.f90 55-59, 72-84, 108-112; 277-281, 303-315, 354-358; 523-527, 542-554, 593-597; 716-720,
    733-745, 768-772).  The ccp3{a..d}_2ba_ijk_with_selection variants (908-1332) build the Q space of one block with the same code. *)
From Coq Require Import List Arith Bool ZArith Reals.
From Verif Require Import SortModel TableModel SelectModel.
Import ListNotations.
Local Open Scope nat_scope.

(** do x = lo, hi *)
Definition upto (lo hi : nat) : list nat := seq lo (S hi - lo).
Section Q.
Variables noa nua nob nub : nat.
(** The loops over i, j, k. *)
Definition occ_loops (s : spincase) : list row :=
  match s with
  | aaa => flat_map (fun i => flat_map (fun j => map (fun k => [i; j; k]) (upto (j + 1) noa)) (upto (i + 1) noa)) (upto 1 noa)
  | aab => flat_map (fun i => flat_map (fun j => map (fun k => [i; j; k]) (upto 1 nob)) (upto (i + 1) noa)) (upto 1 noa)
  | abb => flat_map (fun i => flat_map (fun j => map (fun k => [i; j; k]) (upto (j + 1) nob)) (upto 1 nob)) (upto 1 noa)
  | bbb => flat_map (fun i => flat_map (fun j => map (fun k => [i; j; k]) (upto (j + 1) nob)) (upto (i + 1) nob)) (upto 1 nob)
  end.
(** The loops over a, b, c. *)
Definition vir_loops (s : spincase) : list row :=
  match s with
  | aaa => flat_map (fun a => flat_map (fun b => map (fun c => [a; b; c]) (upto (b + 1) nua)) (upto (a + 1) nua)) (upto 1 nua)
  | aab => flat_map (fun a => flat_map (fun b => map (fun c => [a; b; c]) (upto 1 nub)) (upto (a + 1) nua)) (upto 1 nua)
  | abb => flat_map (fun a => flat_map (fun b => map (fun c => [a; b; c]) (upto (b + 1) nub)) (upto 1 nub)) (upto 1 nua)
  | bbb => flat_map (fun a => flat_map (fun b => map (fun c => [a; b; c]) (upto (b + 1) nub)) (upto (a + 1) nub)) (upto 1 nub)
  end.
(** call get_index_table(idx_table, ...) *)
Definition occ_table (s : spincase) : table :=
  let oa := Z.of_nat noa in let ob := Z.of_nat nob in
  (match s with
   | aaa => get_index_table3 (1, oa - 2) (-1, oa - 1) (-1, oa)
   | aab => get_index_table3 (1, oa - 1) (-1, oa) (1, ob)
   | abb => get_index_table3 (1, ob - 1) (-1, ob) (1, oa)
   | bbb => get_index_table3 (1, ob - 2) (-1, ob - 1) (-1, ob)
   end)%Z.
(** idx_table(i,j,k), for abb idx_table(j,k,i); sort3 is called with (4,5,6), for abb (5,6,4). *)
Definition occ_index (s : spincase) (ijk : row) : nat :=
  occ_table s (map Z.of_nat (match s, ijk with abb, [i; j; k] => [j; k; i] | _, _ => ijk end)).
(** Key of a row in sort3. *)
Definition row_key (s : spincase) (t : row) : nat := occ_index s (skipn 3 t).
(** Set of the (a,b,c) with qspace(a,b,c) = .false. for block (i,j,k). *)
Definition blocked (s : spincase) (rows : list row) (ijk : row) : list row :=
  let sorted := sort_rows [] (row_key s) rows in
  let idx := occ_index s ijk in
  if idx =? 0 then [] else map (firstn 3) (take [] sorted (visited (loc3 [] (row_key s) sorted) idx)).
(** The triples reached by the body of the innermost loop, as rows a b c i j k, in order. *)
Definition candidates (s : spincase) (rows : list row) : list row :=
  flat_map (fun ijk => flat_map (fun abc => if existsb (fun x => if row_eq_dec x abc then true else false) (blocked s rows ijk) then []
                                            else [abc ++ ijk]) (vir_loops s)) (occ_loops s).

(** triples_list(nfill,:) = (/2*a-1, .../), lines 176, 409, 647, 836. *)
Definition spin_row (s : spincase) (t : row) : row :=
  match s, t with
  | aaa, [a; b; c; i; j; k] => [2 * a - 1; 2 * b - 1; 2 * c - 1; 2 * i - 1; 2 * j - 1; 2 * k - 1]
  | aab, [a; b; c; i; j; k] => [2 * a - 1; 2 * b - 1; 2 * c; 2 * i - 1; 2 * j - 1; 2 * k]
  | abb, [a; b; c; i; j; k] => [2 * a - 1; 2 * b; 2 * c; 2 * i - 1; 2 * j; 2 * k]
  | bbb, [a; b; c; i; j; k] => [2 * a; 2 * b; 2 * c; 2 * i; 2 * j; 2 * k]
  | _, _ => t
  end.
(** Order of the calls in calc_ccp3_2ba_with_selection, ccpy/moments/ccp3.py 200-290. *)
Definition spin_cases (use_RHF : bool) : list spincase := if use_RHF then [aaa; aab] else [aaa; aab; abb; bbb].
(** What the four routines offer to the buffer; the value of LM/D of a triple is an arbitrary function [moment]. *)
Definition offered (use_RHF : bool) (P : lists) (moment : spincase -> row -> R) : list (list entry) :=
  map (fun s => map (fun t => (spin_row s t, moment s t)) (candidates s (P s))) (spin_cases use_RHF).
End Q.
