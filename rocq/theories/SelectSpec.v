(** Specification vocabulary for P-space growth and moment selection. *)
From Coq Require Import List Arith NArith Reals.
From Verif Require Import SelectModel.
Import ListNotations.

(** A triple excitation of a given spin case, written with 1-based orbital numbers a b c i j k. *)
Definition triple (t : row) : Prop := length t = 6 /\ forall x, In x t -> 1 <= x.
(** Spin-orbital form: alpha orbital p is 2p-1, beta orbital p is 2p. *)
Definition alpha (p : nat) : nat := 2 * p - 1.
Definition beta (p : nat) : nat := 2 * p.
Definition spin_orbitals (s : spincase) (t : row) : row :=
  match t with
  | [a; b; c; i; j; k] =>
      match s with
      | aaa => [alpha a; alpha b; alpha c; alpha i; alpha j; alpha k]
      | aab => [alpha a; alpha b; beta c; alpha i; alpha j; beta k]
      | abb => [alpha a; beta b; beta c; alpha i; beta j; beta k]
      | bbb => [beta a; beta b; beta c; beta i; beta j; beta k]
      end
  | _ => t
  end.
(** What a selection routine returns: triples, and rows that were never set. *)
Definition selection := list (option (spincase * row)).
Definition rows_of (sel : selection) : list row :=
  map (fun o => match o with Some (s, t) => spin_orbitals s t | None => [0; 0; 0; 0; 0; 0] end) sel.
Definition well_formed (sel : selection) : Prop := forall s t, In (Some (s, t)) sel -> triple t.
(** The selected triples of one spin case, in order. *)
Fixpoint chosen (s : spincase) (sel : selection) : list row :=
  match sel with
  | [] => []
  | Some (s', t) :: r => if spincase_eqb s s' then t :: chosen s r else chosen s r
  | None :: r => chosen s r
  end.
(** Exchange of the two spins: aab excitation (a b C, i j K) gives abb excitation (C a b, K i j). *)
Definition flip (t : row) : row := match t with [a; b; c; i; j; k] => [c; a; b; k; i; j] | _ => t end.
(** What has to be added to the list of a spin case. *)
Definition additions (rhf : bool) (s : spincase) (sel : selection) : list row :=
  match s with
  | aaa => chosen aaa sel
  | aab => chosen aab sel
  | abb => if rhf then map flip (chosen aab sel) else chosen abb sel
  | bbb => if rhf then chosen aaa sel else chosen bbb sel
  end.
(** The list that stands for an empty P space. *)
Definition ones : row := [1; 1; 1; 1; 1; 1].
Definition grow (old add : list row) : list row :=
  match add with
  | [] => old
  | _ => if row_eq_dec (hd [] old) ones then add else old ++ add
  end.
(** The excitations a list stands for. *)
Definition contents (l : list row) : list row := if row_eq_dec (hd [] l) ones then [] else l.

(** Irrep of an excitation: the reference irrep times the irreps of its six orbitals; unoccupied orbital a of spin x is orbital nocc_x + a. *)
Definition row_irrep (y : symdata) (s : spincase) (t : row) : N :=
  let occ := fun p => irrep y (p - 1) in
  let ua := fun p => irrep y (nocc_a y + p - 1) in
  let ub := fun p => irrep y (nocc_b y + p - 1) in
  match t with
  | [a; b; c; i; j; k] =>
      let v := match s with
               | aaa => [ua a; ua b; ua c] | aab => [ua a; ua b; ub c] | abb => [ua a; ub b; ub c] | bbb => [ub a; ub b; ub c]
               end in
      fold_right N.lxor (ref_irrep y) ([occ i; occ j; occ k] ++ v)
  | _ => 0%N
  end.
