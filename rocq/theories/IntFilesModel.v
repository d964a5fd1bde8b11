(** Model of the integral-file readers and writer: load_integrals_from_fcidump (ccpy/interfaces/fcidump_tools.py 66-114),
    load_onebody_integrals and load_twobody_integrals (ccpy/interfaces/gamess_tools.py 198-273), dumpIntegralstoPGFiles
    (ccpy/utilities/dumping.py 1-25).  A file is the list of its parsed lines (the text-to-number conversion is not modelled, nor is the
    four-line FCIDUMP header); values have an arbitrary type V with a zero; arrays are functions on indices below their dimension.
    None stands for an exception (IndexError, ValueError for a negative dimension, UnboundLocalError for a missing nuclear repulsion). *)
From Coq Require Import ZArith List Bool Arith.
Import ListNotations.
Open Scope Z_scope.

Section Files.
Variables (V : Type) (zero : V).
Definition arr2 := nat -> nat -> V.
Definition arr4 := nat -> nat -> nat -> nat -> V.

(** numpy index x on an axis of length n: -n <= x < n, negative ones count from the end *)
Definition resolve (n : nat) (x : Z) : option nat :=
  if (- Z.of_nat n <=? x) && (x <? Z.of_nat n) then Some (Z.to_nat (if x <? 0 then x + Z.of_nat n else x)) else None.
Definition set2 (a : arr2) (p q : nat) (v : V) : arr2 := fun i j => if ((i =? p) && (j =? q))%nat then v else a i j.
Definition set4 (a : arr4) (p q r s : nat) (v : V) : arr4 :=
  fun i j k l => if ((i =? p) && (j =? q) && (k =? r) && (l =? s))%nat then v else a i j k l.
(** array assignments, with bounds checks *)
Definition write2 (n : nat) (v : V) (a : option arr2) (pq : Z * Z) : option arr2 :=
  match a, resolve n (fst pq), resolve n (snd pq) with Some a, Some p, Some q => Some (set2 a p q v) | _, _, _ => None end.
Definition write4 (n : nat) (v : V) (a : option arr4) (ix : Z * Z * Z * Z) : option arr4 :=
  let '(p, q, r, s) := ix in
  match a, resolve n p, resolve n q, resolve n r, resolve n s with
  | Some a, Some p, Some q, Some r, Some s => Some (set4 a p q r s v)
  | _, _, _, _, _ => None
  end.

(** ** FCIDUMP *)
(** A line: value and four integers, as printed. *)
Record line := mkLine { l_val : V; l_1 : Z; l_2 : Z; l_3 : Z; l_4 : Z }.
Record ints := mkInts { e1 : arr2; e2 : arr4; enn : option V }.
(** system.norbitals of System/UHFSystem (ccpy/models/system.py 126) *)
Definition sys_norbitals (norb_file nfrozen ndelete : Z) : Z := norb_file - nfrozen - ndelete.
(** line 86 *)
Definition fcidump_norb (norb_file nfrozen ndelete : Z) : Z := sys_norbitals norb_file nfrozen ndelete + nfrozen - ndelete.
(** lines 95-107: index order of the eight assignments *)
Definition images (p q r s : Z) : list (Z * Z * Z * Z) :=
  [(p, q, r, s); (r, q, p, s); (p, s, r, q); (r, s, p, q); (q, p, s, r); (q, r, s, p); (s, p, q, r); (s, r, q, p)].
(** lines 93-112 *)
Definition read_line (n : nat) (st : option ints) (l : line) : option ints :=
  match st with
  | None => None
  | Some st =>
      let p := l_1 l - 1 in let q := l_3 l - 1 in let r := l_2 l - 1 in let s := l_4 l - 1 in
      if negb (q =? -1) && negb (s =? -1) then
        match fold_left (write4 n (l_val l)) (images p q r s) (Some (e2 st)) with
        | Some a => Some {| e1 := e1 st; e2 := a; enn := enn st |} | None => None end
      else if (q =? -1) && (s =? -1) && negb (p =? -1) then
        match fold_left (write2 n (l_val l)) [(p, r); (r, p)] (Some (e1 st)) with
        | Some a => Some {| e1 := a; e2 := e2 st; enn := enn st |} | None => None end
      else Some {| e1 := e1 st; e2 := e2 st; enn := Some (l_val l) |}
  end.
Definition empty_ints : ints := {| e1 := fun _ _ => zero; e2 := fun _ _ _ _ => zero; enn := None |}.
Definition read_lines (n : nat) (ls : list line) : option ints := fold_left (read_line n) ls (Some empty_ints).
(** lines 86-114 *)
Definition load_fcidump (norb_file nfrozen ndelete : Z) (ls : list line) : option (arr2 * arr4 * V) :=
  let norb := fcidump_norb norb_file nfrozen ndelete in
  if norb <? 0 then None
  else match read_lines (Z.to_nat norb) ls with
       | Some st => match enn st with Some v => Some (e1 st, e2 st, v) | None => None end
       | None => None
       end.

(** ** onebody.inp / twobody.inp *)
(** dumping.py 3-9: lower triangle row by row (the running number ct is not read back) *)
Definition lower_triangle (n : nat) : list (nat * nat) := flat_map (fun i => map (fun j => (i, j)) (seq 0 (i + 1))) (seq 0 n).
Definition dump_onebody (rnd : V -> V) (n : nat) (a : arr2) : list V := map (fun ij => rnd (a (fst ij) (snd ij))) (lower_triangle n).
(** dumping.py 10-24 *)
Definition dump_twobody (rnd : V -> V) (n : nat) (a : arr4) (nuc : V) : list (Z * Z * Z * Z * V) :=
  flat_map (fun i => flat_map (fun k => flat_map (fun j => map (fun l =>
     (Z.of_nat i + 1, Z.of_nat j + 1, Z.of_nat k + 1, Z.of_nat l + 1, rnd (a i j k l))) (seq 0 n)) (seq 0 n)) (seq 0 n)) (seq 0 n)
  ++ [(0, 0, 0, 0, rnd nuc)].
(** gamess_tools.py 214-228: (array, ct); lines[ct] may not exist *)
Definition load_onebody (n : nat) (lines : list V) : option arr2 :=
  match fold_left (fun st ij => match st with
      | None => None
      | Some (a, ct) => match nth_error lines ct with
          | None => None
          | Some v => let a1 := set2 a (fst ij) (snd ij) v in Some (set2 a1 (snd ij) (fst ij) v, S ct) end
      end) (lower_triangle n) (Some (fun _ _ => zero, 0%nat)) with
  | Some (a, _) => Some a | None => None end.
(** gamess_tools.py 256-270 *)
Definition two_line (n : nat) (st : option (arr4 * option V)) (ln : Z * Z * Z * Z * V) : option (arr4 * option V) :=
  let '(i, j, k, l, v) := ln in
  match st with
  | None => None
  | Some (a, nn) => if i + j + k + l =? 0 then Some (a, Some v)
                    else match write4 n v (Some a) (i - 1, j - 1, k - 1, l - 1) with Some a' => Some (a', nn) | None => None end
  end.
Definition load_twobody (n : nat) (lines : list (Z * Z * Z * Z * V)) : option (V * arr4) :=
  match fold_left (two_line n) lines (Some (fun _ _ _ _ => zero, None)) with
  | Some (a, Some nn) => Some (nn, fun i j a' b => a i a' j b)       (* line 270: iajb->ijab *)
  | _ => None
  end.
End Files.
