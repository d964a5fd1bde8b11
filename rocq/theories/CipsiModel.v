(** Model of the readers of externally generated determinant lists
    (ccpy/utilities/pspace.py, with the helpers of ccpy/utilities/determinants.py).

    A file is a list of lines and a line is the list of the integers on it.  A line holding something
    that is not an integer makes [int] raise; such lines are not modelled.  Symmetry labels are the
    numbers [system.point_group_irrep_to_number] gives them, and [orbital_symmetries] is the list of
    those numbers.  [None] is a Python exception. *)
From Coq Require Import List ZArith NArith Lia Bool.
Import ListNotations.
Local Open Scope Z_scope.

(** The part of [System] the readers use (ccpy/models/system.py l.83-105): numbers of correlated
    occupied and unoccupied orbitals, irreps of the correlated orbitals, number of irreps of the group,
    irrep of the reference. *)
Record sys := mkSys {
  noa : nat; nob : nat; norb : nat;
  osym : list N; nirr : nat; refsym : N }.
(** system.py l.99-105: [nunoccupied_x = norbitals - noccupied_x]. *)
Definition nua (s : sys) : nat := (norb s - noa s)%nat.
Definition nub (s : sys) : nat := (norb s - nob s)%nat.

(** Membership test and [set]: determinants.py l.13-22 work on Python sets. *)
Definition mem (x : Z) (l : list Z) : bool := existsb (Z.eqb x) l.
Fixpoint dedup (l : list Z) : list Z :=
  match l with
  | [] => []
  | x :: r => if mem x r then dedup r else x :: dedup r
  end.
(** [list(set(D) - set(D0))]: the order of a Python set is unspecified; every list made from it is
    sorted (or only summed) before use, so the order chosen here is immaterial. *)
Definition setdiff (D D0 : list Z) : list Z := filter (fun x => negb (mem x D0)) (dedup D).

(** ccpy/utilities/determinants.py l.13-14. *)
Definition get_excit_rank (D D0 : list Z) : nat := length (setdiff D D0).
(** determinants.py l.17-18. *)
Definition get_excits_from (D D0 : list Z) : list Z := setdiff D0 D.
(** determinants.py l.21-22. *)
Definition get_excits_to (D D0 : list Z) : list Z := setdiff D D0.
(** determinants.py l.25-29: [int((x+1)/2)] truncates the float quotient; for odd x it is exact, and for
    even x it is exact, so the integer quotient is the same. *)
Definition spatial_orb_idx (x : Z) : Z :=
  if x mod 2 =? 1 then (x + 1) / 2 else x / 2.

Definition odds (l : list Z) : list Z := filter (fun i => i mod 2 =? 1) l.
Definition evens (l : list Z) : list Z := filter (fun i => i mod 2 =? 0) l.

(** determinants.py l.32-42.  A spin case 'a'*n + 'b'*m is the pair (n, m). *)
Definition get_spincase (from to : list Z) : option (nat * nat) :=
  if negb (Nat.eqb (length from) (length to)) then None
  else let na := length (odds from) in
       let na' := length (odds to) in
       if negb (Nat.eqb na na') then None
       else Some (na, (length from - na)%nat).

(** [list.sort] on integers (insertion sort). *)
Fixpoint insert (x : Z) (l : list Z) : list Z :=
  match l with
  | [] => [x]
  | y :: r => if x <=? y then x :: l else y :: insert x r
  end.
Fixpoint isort (l : list Z) : list Z :=
  match l with [] => [] | x :: r => insert x (isort r) end.

(** pspace.py l.66-69 (and l.217-220): the reference determinant as spin-orbitals. *)
Definition zrange (n : nat) : list Z := map Z.of_nat (seq 1 n).
Definition HF (s : sys) : list Z :=
  isort (map (fun i => 2 * i - 1) (zrange (noa s)) ++ map (fun i => 2 * i) (zrange (nob s))).

(** l.88-92: the shift of each particle index, alpha first. *)
Definition shifts (s : sys) (sc : nat * nat) : list Z :=
  repeat (Z.of_nat (noa s)) (fst sc) ++ repeat (Z.of_nat (nob s)) (snd sc).
Definition zipsub (l sh : list Z) : list Z := map (fun p => fst p - snd p) (combine l sh).

(** Python list indexing with a possibly negative index. *)
Definition pyget {A} (l : list A) (i : Z) : option A :=
  if 0 <=? i then nth_error l (Z.to_nat i)
  else if 0 <=? i + Z.of_nat (length l) then nth_error l (Z.to_nat (i + Z.of_nat (length l)))
  else None.

Fixpoint xorall (s : sys) (acc : N) (l : list Z) : option N :=
  match l with
  | [] => Some acc
  | i :: r => match pyget (osym s) i with
              | None => None
              | Some v => xorall s (N.lxor acc v) r
              end
  end.

(** l.121-196: the irrep of the excitation, with the offsets of the spin case. *)
Definition exc_sym (s : sys) (sc : nat * nat) (unocc occ : list Z) : option N :=
  match xorall s (refsym s) (map (fun i => i - 1) occ) with
  | None => None
  | Some v => xorall s v (map (fun p => fst p - 1 + snd p) (combine unocc (shifts s sc)))
  end.

(** The two results being built: the excitation lists by spin case (number of alphas), and the counts
    by irrep and spin case. *)
Record acc := mkAcc { excs : nat -> list (list Z * list Z); cnt : N -> nat -> nat }.
Definition acc0 : acc := mkAcc (fun _ => []) (fun _ _ => 0%nat).
Definition push (na : nat) (e : list Z * list Z) (a : acc) : acc :=
  mkAcc (fun n => if Nat.eqb n na then excs a n ++ [e] else excs a n) (cnt a).
Definition tally (v : N) (na : nat) (a : acc) : acc :=
  mkAcc (excs a) (fun w n => if N.eqb w v && Nat.eqb n na then S (cnt a w n) else cnt a w n).

(** What one line does: go on with the next line, stop reading, or raise. *)
Inductive ctl := Next (a : acc) | Stop (a : acc) | Raise.

(** pspace.py l.82-196 for rank 3 and l.233-346 for rank 4: one iteration of the loop over lines. *)
Definition indices (s : sys) (det : list Z) : option (nat * list Z * list Z) :=
  let so := get_excits_from det (HF s) in
  let su := get_excits_to det (HF s) in
  match get_spincase so su with
  | None => None
  | Some sc =>
      let idx_occ := map spatial_orb_idx (isort (odds so)) ++ map spatial_orb_idx (isort (evens so)) in
      let idx_un := map spatial_orb_idx (isort (odds su)) ++ map spatial_orb_idx (isort (evens su)) in
      Some (fst sc, zipsub idx_un (shifts s sc), idx_occ)
  end.

Definition outside (lo hi : Z) (l : list Z) : bool :=
  existsb (fun i => hi <? i) l || existsb (fun i => i <? lo) l.

Definition read_line (rank : nat) (s : sys) (line : list Z) (a : acc) : ctl :=
  let det := skipn 2 line in
  if negb (Nat.eqb (get_excit_rank det (HF s)) rank) then Next a
  else match indices s det with
       | None => Raise
       | Some (na, un, occ) =>
           if outside 1 (Z.of_nat (noa s)) occ then Stop a
           else if outside 1 (Z.of_nat (nub s)) un then Stop a
           else let a1 := push na (un, occ) a in
                match exc_sym s (na, (rank - na)%nat) un occ with
                | None => Raise
                | Some v => if (N.to_nat v <? nirr s)%nat then Next (tally v na a1) else Raise
                end
       end.

Fixpoint read_lines (rank : nat) (s : sys) (ls : list (list Z)) (a : acc) : option acc :=
  match ls with
  | [] => Some a
  | l :: r => match read_line rank s l a with
              | Next a' => read_lines rank s r a'
              | Stop a' => Some a'
              | Raise => None
              end
  end.

(** l.209-213 (and l.361-365): a list left empty becomes the (1, 2*rank) array of ones. *)
Definition to_array (rank : nat) (l : list (list Z * list Z)) : list (list Z * list Z) :=
  match l with
  | [] => [(repeat 1 rank, repeat 1 rank)]
  | _ => l
  end.

(** get_triples_pspace_from_cipsi (l.64-214) and get_quadruples_pspace_from_cipsi (l.216-375): the
    excitation arrays (before and after the conversion of l.209-213) and the counts; the printed summary
    is not modelled. *)
Definition read_cipsi (rank : nat) (s : sys) (file : list (list Z)) : option acc :=
  read_lines rank s file acc0.
Definition get_triples_pspace_from_cipsi (s : sys) (file : list (list Z))
  : option ((nat -> list (list Z * list Z)) * (N -> nat -> nat)) :=
  match read_cipsi 3 s file with
  | None => None
  | Some a => Some (fun n => to_array 3 (excs a n), cnt a)
  end.
Definition get_quadruples_pspace_from_cipsi (s : sys) (file : list (list Z))
  : option ((nat -> list (list Z * list Z)) * (N -> nat -> nat)) :=
  match read_cipsi 4 s file with
  | None => None
  | Some a => Some (fun n => to_array 4 (excs a n), cnt a)
  end.

(** ** get_pspace_from_qmc (l.377-497) *)

(** [math.ceil(x / 2)]. *)
Definition ceil2 (x : Z) : Z := (x + 1) / 2.

(** l.395: the reference is the first [nelectrons] spin-orbitals. *)
Definition HFq (s : sys) : list Z := zrange (noa s + nob s).

(** l.378-391, with 1-based absolute spatial orbitals. *)
Definition check_sym (s : sys) (target : option N) (occ un : list Z) : option bool :=
  match target with
  | None => Some true
  | Some t => match xorall s (refsym s) (map (fun i => i - 1) (occ ++ un)) with
              | None => None
              | Some v => Some (N.eqb v t)
              end
  end.

(** [itertools.permutations] of three items. *)
Definition perms3 (l : list Z) : list (list Z) :=
  match l with
  | [x; y; z] => [[x; y; z]; [x; z; y]; [y; x; z]; [y; z; x]; [z; x; y]; [z; y; x]]
  | _ => []
  end.

(** numpy index normalisation along an axis of length [n]: None when out of bounds. *)
Definition npidx (n : nat) (i : Z) : option nat :=
  if (0 <=? i) && (i <? Z.of_nat n) then Some (Z.to_nat i)
  else if (i <? 0) && (0 <=? i + Z.of_nat n) then Some (Z.to_nat (i + Z.of_nat n))
  else None.

Definition tensor6 := nat -> nat -> nat -> nat -> nat -> nat -> bool.
Definition set6 (t : tensor6) (a b c i j k : nat) : tensor6 := fun a' b' c' i' j' k' =>
  if (Nat.eqb a' a && Nat.eqb b' b && Nat.eqb c' c && Nat.eqb i' i && Nat.eqb j' j && Nat.eqb k' k)%bool
  then true else t a' b' c' i' j' k'.

(** l.436-441: mark one ordered pair of permutations; [no], [nu] are the numbers of occupied and
    unoccupied orbitals. *)
Definition mark (s : sys) (target : option N) (p_un p_occ : list Z) (t : tensor6) : option tensor6 :=
  match p_un, p_occ with
  | [a; b; c], [i; j; k] =>
      match check_sym s target [i; j; k] [a; b; c] with
      | None => None
      | Some false => Some t
      | Some true =>
          let no := Z.of_nat (noa s) in
          match npidx (nub s) (a - 1 - no), npidx (nub s) (b - 1 - no), npidx (nub s) (c - 1 - no),
                npidx (noa s) (i - 1), npidx (noa s) (j - 1), npidx (noa s) (k - 1) with
          | Some a', Some b', Some c', Some i', Some j', Some k' => Some (set6 t a' b' c' i' j' k')
          | _, _, _, _, _, _ => None
          end
      end
  | _, _ => None          (* unpacking a list of another length raises *)
  end.

Fixpoint foldo {A B} (f : A -> B -> option B) (l : list A) (b : B) : option B :=
  match l with
  | [] => Some b
  | x :: r => match f x b with None => None | Some b' => foldo f r b' end
  end.

(** l.418-441: one line.  [permutations] of a list that is not of length three is not reached with three
    holes unless the number of particles differs, in which case unpacking raises. *)
Definition qmc_line (s : sys) (target : option N) (thr : Z) (line : list Z) (t : tensor6) : option tensor6 :=
  match line with
  | _ :: pop :: det =>
      if Z.abs pop <? thr then Some t
      else let from := isort (setdiff (HFq s) det) in
           let to := isort (setdiff det (HFq s)) in
           if negb (Nat.eqb (length from) 3) then Some t
           else if negb (Nat.eqb (length to) 3) then None
           else foldo (fun pu t' => foldo (fun po t'' => mark s target pu po t'') (perms3 (map ceil2 from)) t')
                      (perms3 (map ceil2 to)) t
  | _ => None             (* fields[1] raises *)
  end.

Definition allidx (lo hi : nat) : list nat := seq lo (hi - lo).

(** l.447-485: extracting the four lists.  Entries are 1-based. *)
Definition ent (a b c i j k : nat) : list nat := [S a; S b; S c; S i; S j; S k].
Definition pick (t : tensor6) (a b c i j k : nat) : list (list nat) :=
  if t a b c i j k then [ent a b c i j k] else [].
Definition extract_aaa (nu no : nat) (t : tensor6) : list (list nat) :=
  flat_map (fun a => flat_map (fun b => flat_map (fun c =>
  flat_map (fun i => flat_map (fun j => flat_map (fun k => pick t a b c i j k)
    (allidx (S j) no)) (allidx (S i) no)) (allidx 0 no))
    (allidx (S b) nu)) (allidx (S a) nu)) (allidx 0 nu).
Definition extract_aab (nu no : nat) (t : tensor6) : list (list nat) :=
  flat_map (fun a => flat_map (fun b => flat_map (fun c =>
  flat_map (fun i => flat_map (fun j => flat_map (fun k => pick t a b c i j k)
    (allidx 0 no)) (allidx (S i) no)) (allidx 0 no))
    (allidx 0 nu)) (allidx (S a) nu)) (allidx 0 nu).
Definition extract_abb (nu no : nat) (t : tensor6) : list (list nat) :=
  flat_map (fun a => flat_map (fun b => flat_map (fun c =>
  flat_map (fun i => flat_map (fun j => flat_map (fun k => pick t a b c i j k)
    (allidx (S j) no)) (allidx 0 no)) (allidx 0 no))
    (allidx (S b) nu)) (allidx 0 nu)) (allidx 0 nu).
(** l.476-485: the loops for bbb are those of aaa. *)
Definition extract_bbb := extract_aaa.

Definition get_pspace_from_qmc (s : sys) (target : option N) (thr : Z) (file : list (list Z))
  : option (tensor6 * list (list nat) * list (list nat) * list (list nat) * list (list nat)) :=
  if negb (Nat.eqb (noa s) (nob s) && Nat.eqb (nua s) (nub s)) then None        (* the assert of l.403 *)
  else match foldo (qmc_line s target thr) file (fun _ _ _ _ _ _ => false) with
       | None => None
       | Some t => Some (t, extract_aaa (nua s) (noa s) t, extract_aab (nua s) (noa s) t,
                         extract_abb (nua s) (noa s) t, extract_bbb (nua s) (noa s) t)
       end.
