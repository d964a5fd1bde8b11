(** Specification for the guess-vector layout: the active excitations listed in lexicographic order, and what it means for an array to
    hold a list of values at them. *)
From Coq Require Import List Arith ZArith Reals Bool.
Import ListNotations.

(** [lo, hi) in increasing order *)
Definition upto (lo hi : nat) : list nat := seq lo (hi - lo).
(** [a; b; i; j] with a < b < nact and o0 <= i < j < no *)
Definition same_spin (nact o0 no : nat) : list (list nat) :=
  flat_map (fun a => flat_map (fun b => flat_map (fun i => map (fun j => [a; b; i; j]) (upto (S i) no)) (upto o0 no)) (upto (S a) nact)) (upto 0 nact).
Definition opp_spin (na nb o0a noa o0b nob : nat) : list (list nat) :=
  flat_map (fun a => flat_map (fun b => flat_map (fun i => map (fun j => [a; b; i; j]) (upto o0b nob)) (upto o0a noa)) (upto 0 nb)) (upto 0 na).
Definition singles (nu no : nat) : list (list nat) := flat_map (fun a => map (fun i => [a; i]) (upto 0 no)) (upto 0 nu).
Definition ones (n : nat) : list (list nat) := map (fun a => [a]) (upto 0 n).
(** 2p-1h and 2h-1p *)
Definition ea_same (nact o0 no : nat) : list (list nat) :=
  flat_map (fun a => flat_map (fun b => map (fun j => [a; b; j]) (upto o0 no)) (upto (S a) nact)) (upto 0 nact).
Definition ea_opp (na nb o0b nob : nat) : list (list nat) :=
  flat_map (fun a => flat_map (fun b => map (fun j => [a; b; j]) (upto o0b nob)) (upto 0 nb)) (upto 0 na).
Definition ip_same (o0 no nact : nat) : list (list nat) :=
  flat_map (fun i => flat_map (fun b => map (fun j => [i; b; j]) (upto (S i) no)) (upto 0 nact)) (upto o0 no).
Definition ip_opp (o0a noa nb o0b nob : nat) : list (list nat) :=
  flat_map (fun i => flat_map (fun b => map (fun j => [i; b; j]) (upto o0b nob)) (upto 0 nb)) (upto o0a noa).

(** [X] holds [v k] at the k-th index list of [l] for which [ok] holds, and [z] everywhere else *)
Definition holds {A : Type} (z : A) (ok : list nat -> bool) (l : list (list nat)) (v : nat -> A) (X : list nat -> A) : Prop :=
  (forall k q, nth_error l k = Some q -> X q = if ok q then v k else z) /\ (forall q, ~ In q l -> X q = z).
(** the same for an array antisymmetric in its first and in its last two indices *)
Definition holds4 {A : Type} (z : A) (opp : A -> A) (ok : list nat -> bool) (l : list (list nat)) (v : nat -> A) (X : list nat -> A) : Prop :=
  (forall k a b i j, nth_error l k = Some [a; b; i; j] ->
     X [a; b; i; j] = (if ok [a; b; i; j] then v k else z) /\
     X [b; a; i; j] = (if ok [a; b; i; j] then opp (v k) else z) /\
     X [a; b; j; i] = (if ok [a; b; i; j] then opp (v k) else z) /\
     X [b; a; j; i] = (if ok [a; b; i; j] then v k else z)) /\
  (forall p q r s, ~ In [Nat.min p q; Nat.max p q; Nat.min r s; Nat.max r s] l -> X [p; q; r; s] = z).
(** in two particle indices (positions 1, 2) and in two hole indices (positions 1, 3) *)
Definition holds_ea {A : Type} (z : A) (opp : A -> A) (ok : list nat -> bool) (l : list (list nat)) (v : nat -> A) (X : list nat -> A) : Prop :=
  (forall k a b j, nth_error l k = Some [a; b; j] ->
     X [a; b; j] = (if ok [a; b; j] then v k else z) /\ X [b; a; j] = (if ok [a; b; j] then opp (v k) else z)) /\
  (forall p q r, ~ In [Nat.min p q; Nat.max p q; r] l -> X [p; q; r] = z).
Definition holds_ip {A : Type} (z : A) (opp : A -> A) (ok : list nat -> bool) (l : list (list nat)) (v : nat -> A) (X : list nat -> A) : Prop :=
  (forall k i b j, nth_error l k = Some [i; b; j] ->
     X [i; b; j] = (if ok [i; b; j] then v k else z) /\ X [j; b; i] = (if ok [i; b; j] then opp (v k) else z)) /\
  (forall p q r, ~ In [Nat.min p r; q; Nat.max p r] l -> X [p; q; r] = z).
Definition yes : list nat -> bool := fun _ => true.
(** pairs of two ranges *)
Definition pairs (o0a noa o0b nob : nat) : list (list nat) := flat_map (fun a => map (fun b => [a; b]) (upto o0b nob)) (upto o0a noa).
(** an index array and an amplitude block describe the same placement: a nonzero index +-p means +- the p-th entry of the vector *)
Definition placed (I : list nat -> Z) (V : nat -> R) (off : nat) (X : list nat -> R) (q : list nat) : Prop :=
  I q <> 0%Z -> X q = (IZR (Z.sgn (I q)) * V (off + Z.to_nat (Z.abs (I q) - 1))%nat)%R.
