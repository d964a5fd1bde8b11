(** Model of ccpy/models/hilbert.py: determinants, excitations and the Slater-Condon matrix elements.

    Orbital indices are integers; a system is what these classes read of it.  [None] is an exception.
    Bit strings (l.43-59), printing, multiplicity and the irrep label of the objects are not modelled,
    except that the constructors look every orbital up in [orbital_symmetries] and so raise when it is
    outside the system ([in_table]). *)
From Coq Require Import List ZArith Lia Bool Reals.
From Verif Require Import CipsiModel.
Import ListNotations.
Local Open Scope Z_scope.

Record hsys := mkHsys { h_noa : nat; h_nob : nat; h_norb : nat }.
Definition h_nel (s : hsys) : nat := (h_noa s + h_nob s)%nat.

(** Membership, [sorted], and the filters by spin (odd spin-orbitals are alpha) are those of [CipsiModel]. *)
Notation sorted := CipsiModel.isort (only parsing).

(** l.113-118, l.213-218. *)
Definition spin_to_spatial (x : Z) : Z := if x mod 2 =? 1 then x / 2 + 1 else x / 2.

(** Python list indexing of a list of length [n]: negative indices count from the end. *)
Definition in_table (n : nat) (i : Z) : bool := (- Z.of_nat n <=? i) && (i <? Z.of_nat n).

(** Determinant (l.120-136): occupation numbers are 1-based spin-orbitals, [occ_a], [occ_b] 0-based. *)
Record det := mkDet { occupation : list Z; occ_a : list Z; occ_b : list Z }.
Definition Determinant (s : hsys) (oa ob : list Z) : option det :=
  if negb (Nat.eqb (length oa + length ob) (h_nel s)) then None
  else if negb (Nat.eqb (length oa) (h_noa s)) then None
  else if negb (Nat.eqb (length ob) (h_nob s)) then None
  else let occ := sorted (map (fun i => 2 * i - 1) oa ++ map (fun i => 2 * i) ob) in
       (* get_symmetry, l.148-152 *)
       if forallb (fun p => in_table (h_norb s) (spin_to_spatial p - 1)) occ
       then Some (mkDet occ (sorted (map (fun i => i - 1) oa)) (sorted (map (fun i => i - 1) ob)))
       else None.

(** Excitation (l.6-30): the four index lists are stored 0-based, as given (no offset). *)
Record exc := mkExc { to_a : list Z; to_b : list Z; from_a : list Z; from_b : list Z; nperm : Z }.
Definition degree (e : exc) : nat := (length (to_a e) + length (to_b e))%nat.
(** [phase] of l.211: (-1.0)**nperm. *)
Definition phase (e : exc) : R := if Z.even (nperm e) then 1%R else (-1)%R.

Definition Excitation (s : hsys) (pa ha pb hb : list Z) (np : Z) : option exc :=
  if negb (Nat.eqb (length pa) (length ha)) then None
  else if negb (Nat.eqb (length pb) (length hb)) then None
  else let e := mkExc (map (fun a => a - 1) pa) (map (fun a => a - 1) pb)
                      (map (fun i => i - 1) ha) (map (fun i => i - 1) hb) np in
       (* get_symmetry, l.61-83 *)
       if forallb (in_table (h_norb s)) (to_a e ++ to_b e ++ from_a e ++ from_b e) then Some e else None.

(** Position in a list (np.where ... idx[0]); None when absent. *)
Fixpoint index (x : Z) (l : list Z) : option nat :=
  match l with
  | [] => None
  | y :: r => if x =? y then Some 0%nat else option_map S (index x r)
  end.

(** The loops of l.166-176 and l.178-188: [d] is the determinant looped over, [other] the one compared
    with; the state is (list, nperm, number of alphas, number of betas). *)
Fixpoint scan (d other : det) (occ : list Z) (st : list Z * Z * Z * Z) : option (list Z * Z * Z * Z) :=
  match occ with
  | [] => Some st
  | p :: r =>
      let '(l, np, na, nb) := st in
      if mem p (occupation other) then scan d other r st
      else if p mod 2 =? 0 then
             match index (spin_to_spatial p - 1) (occ_b d) with
             | None => None
             | Some i => scan d other r (l ++ [p], np + (Z.of_nat (length (occ_b d)) - Z.of_nat i + 1 + nb), na, nb + 1)
             end
           else
             match index (spin_to_spatial p - 1) (occ_a d) with
             | None => None
             | Some i => scan d other r (l ++ [p], np + (Z.of_nat (length (occ_a d)) - Z.of_nat i + 1 + na), na + 1, nb)
             end
  end.

(** Determinant.get_excitation (l.154-211). *)
Definition get_excitation (s : hsys) (d1 d2 : det) : option exc :=
  match scan d1 d2 (occupation d1) ([], 0, 0, 0) with
  | None => None
  | Some (particles, np1, na1, nb1) =>
      match scan d2 d1 (occupation d2) ([], np1, 0, 0) with
      | None => None
      | Some (holes, np2, na2, nb2) =>
          if negb (na1 =? na2) then None
          else if negb (nb1 =? nb2) then None
          else Excitation s (map spin_to_spatial (odds particles)) (map spin_to_spatial (odds holes))
                            (map spin_to_spatial (evens particles)) (map spin_to_spatial (evens holes)) np2
      end
  end.

(** list.index then assignment (l.101-111); None: ValueError. *)
Fixpoint replace_first (x y : Z) (l : list Z) : option (list Z) :=
  match l with
  | [] => None
  | z :: r => if z =? x then Some (y :: r) else option_map (cons z) (replace_first x y r)
  end.
Fixpoint substitute (f : Z -> Z) (g : Z -> Z) (hs ps : list Z) (occ : list Z) : option (list Z) :=
  match hs, ps with
  | h :: hs, p :: ps => match replace_first (g h) (f p) occ with
                        | None => None
                        | Some occ' => substitute f g hs ps occ'
                        end
  | _, _ => Some occ
  end.

(** Excitation.get_determinant (l.89-111), for the default reference of l.94-95. *)
Definition get_determinant (s : hsys) (e : exc) : option det :=
  let reference := map Z.of_nat (seq 1 (h_nel s)) in
  match substitute (fun a => 2 * (a + 1 + Z.of_nat (h_noa s)) - 1) (fun i => 2 * (i + 1) - 1)
                   (from_a e) (to_a e) reference with
  | None => None
  | Some o1 =>
      match substitute (fun a => 2 * (a + 1 + Z.of_nat (h_nob s))) (fun i => 2 * (i + 1)) (from_b e) (to_b e) o1 with
      | None => None
      | Some o2 => Determinant s (map spin_to_spatial (odds o2)) (map spin_to_spatial (evens o2))
      end
  end.

(** ** slater_eval (l.220-254) *)
Local Open Scope R_scope.
Record hint := mkHint { H_a : Z -> Z -> R; H_b : Z -> Z -> R;
                        H_aa : Z -> Z -> Z -> Z -> R; H_ab : Z -> Z -> Z -> Z -> R; H_bb : Z -> Z -> Z -> Z -> R }.
Fixpoint sum (l : list Z) (f : Z -> R) : R := match l with [] => 0 | x :: r => f x + sum r f end.
(** einsum("ii->", squeeze(...)): numpy's squeeze also removes the two summed axes when there is a single
    occupied orbital, and einsum then raises. *)
Definition trace (l : list Z) (f : Z -> R) : option R :=
  if Nat.eqb (length l) 1 then None else Some (sum l f).

(** Indices outside the arrays raise in numpy and are excluded by the constructor's symmetry lookup. *)
Definition slater_eval (s : hsys) (H : hint) (d1 d2 : det) : option R :=
  match get_excitation s d1 d2 with
  | None => None
  | Some e =>
      let finish v := option_map (fun x => x * phase e) v in
      if (2 <? degree e)%nat then Some 0
      else match to_a e, to_b e, from_a e, from_b e with
           | [a; b], [], [i; j], [] => finish (Some (H_aa H a b i j))
           | [a], [b], [i], [j] => finish (Some (H_ab H a b i j))
           | [], [a; b], [], [i; j] => finish (Some (H_bb H a b i j))
           | [a], [], [i], [] =>
               match trace (occ_a d2) (fun k => H_aa H a k i k), trace (occ_b d2) (fun k => H_ab H a k i k) with
               | Some x, Some y => finish (Some (H_a H a i + x + y))
               | _, _ => None
               end
           | [], [a], [], [i] =>
               match trace (occ_b d2) (fun k => H_bb H a k i k), trace (occ_a d2) (fun k => H_ab H k a k i) with
               | Some x, Some y => finish (Some (H_b H a i + x + y))
               | _, _ => None
               end
           | _, _, _, _ =>
               finish (Some (sum (occ_a d2) (fun i => H_a H i i) + sum (occ_b d2) (fun i => H_b H i i)
                 + / 2 * sum (occ_a d2) (fun i => sum (occ_a d2) (fun j => H_aa H i j i j))
                 + sum (occ_a d2) (fun i => sum (occ_b d2) (fun j => H_ab H i j i j))
                 + / 2 * sum (occ_b d2) (fun i => sum (occ_b d2) (fun j => H_bb H i j i j))))
           end
  end.
