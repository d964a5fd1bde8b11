(** Specification vocabulary for C30, C31, C59. *)
From Coq Require Import ZArith List Bool.
Import ListNotations.
Open Scope Z_scope.
(** {a,b} = {c,d} as unordered pairs *)
Definition same_pair (a b c d : Z) : bool := ((a =? c) && (b =? d)) || ((a =? d) && (b =? c)).
(** (ij|kl) and (i'j'|k'l') are the same real two-electron integral *)
Definition same_integral (i j k l i' j' k' l' : Z) : bool :=
  (same_pair i j i' j' && same_pair k l k' l') || (same_pair i j k' l' && same_pair k l i' j').
(** The value carried by the last element of l satisfying f *)
Fixpoint last_such {A V : Type} (f : A -> bool) (val : A -> V) (d : V) (l : list A) : V :=
  match l with
  | [] => d
  | x :: r => last_such f val (if f x then val x else d) r
  end.
