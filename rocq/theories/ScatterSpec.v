(** Specification vocabulary for dense amplitude arrays. *)
From Coq Require Import List Arith Bool Reals.
From Verif Require Import PspaceModel PspaceSpec ScatterModel.
Import ListNotations.

(** Exchange of the entries at positions p and q. *)
Definition swap (p q : nat) (l : list nat) : list nat :=
  map (fun n => nth (if n =? p then q else if n =? q then p else n) l 0) (seq 0 (length l)).

(** [groups]: the axes that carry equivalent (same-spin, same-kind) indices. *)
Definition antisymmetric (rank : nat) (groups : list (list nat)) (X : tensor) : Prop :=
  forall l g p q, length l = rank -> In g groups -> In p g -> In q g -> p <> q -> X (swap p q l) = Ropp (X l).
(** Strictly increasing along each group. *)
Definition ordered_in (groups : list (list nat)) (l : list nat) : Prop :=
  forall g, In g groups -> forall m, S m < length g -> nth (nth m g 0) l 0 < nth (nth (S m) g 0) l 0.
(** No repeated index within a group. *)
Definition distinct_in (groups : list (list nat)) (l : list nat) : Prop :=
  forall g p q, In g groups -> In p g -> In q g -> p <> q -> nth p l 0 <> nth q l 0.

Definition g_aaa := [[0; 1; 2]; [3; 4; 5]].
Definition g_aab := [[0; 1]; [3; 4]].
Definition g_abb := [[1; 2]; [4; 5]].
(** 3p2h arrays have axes (a, b, c, j, k); 3h2p arrays have axes (i, b, c, j, k) while their rows read b, c, i, j, k. *)
Definition g3p2h_aaa := [[0; 1; 2]; [3; 4]].
Definition g3p2h_aab := [[0; 1]].
Definition g3p2h_abb := [[1; 2]; [3; 4]].
Definition g3h2p_aaa := [[1; 2]; [0; 3; 4]].
Definition g3h2p_aab := [[0; 3]].
Definition g3h2p_abb := [[1; 2]; [3; 4]].
Definition lay3h2p (r : list nat) : list nat := match r with [b; c; i; j; k] => [i; b; c; j; k] | _ => r end.

(** [X] is the antisymmetric array whose ordered elements are the listed amplitudes, and zero elsewhere.
    [lay] places a (0-based) row in the array. *)
Definition unfolds (rank : nat) (groups : list (list nat)) (lay : list nat -> list nat)
    (rows : list (list nat)) (amps : list R) (X : tensor) : Prop :=
  antisymmetric rank groups X /\
  (forall n, n < length rows -> X (lay (map pred (nth n rows []))) = nth n amps 0%R) /\
  (forall l, length l = rank -> ordered_in groups l ->
     (forall row, In row rows -> lay (map pred row) <> l) -> X l = 0%R).

(** What zeroing should do: keep an element with pairwise different equivalent indices iff it has enough active holes and
    particles, and leave everything else alone. *)
Definition zeroes_outside (s : orbsys) (n : nat) (ps : list spin) (groups : list (list nat)) (shape : list nat) (T X : tensor) : Prop :=
  (forall l, in_bounds shape l = true -> distinct_in groups l ->
     (in_active_p s n ps ps (map S l) -> X l = T l) /\ (~ in_active_p s n ps ps (map S l) -> X l = 0%R)) /\
  (forall l, in_bounds shape l = false \/ ~ distinct_in groups l -> X l = T l).
