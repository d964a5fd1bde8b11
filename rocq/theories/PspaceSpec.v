(** Specification vocabulary for excitation lists: what a "spin-integrated, ordered excitation" is, how many active
    labels it has and which irrep it belongs to.  Stated on 1-based rows (particles then holes); independent of the loops. *)
From Coq Require Import List Arith NArith Bool Lia.
From Verif Require Import PspaceModel.
Import ListNotations.

Inductive spin := Alpha | Beta.
Definition nocc (s : orbsys) (x : spin) : nat := match x with Alpha => no_a s | Beta => no_b s end.
Definition nunocc (s : orbsys) (x : spin) : nat := match x with Alpha => nu_a s | Beta => nu_b s end.
Definition nact_occ (s : orbsys) (x : spin) : nat := match x with Alpha => nacto_a s | Beta => nacto_b s end.
Definition nact_unocc (s : orbsys) (x : spin) : nat := match x with Alpha => nactu_a s | Beta => nactu_b s end.

(** [labels] are 1-based orbital labels carrying the spins [sp]: in range, and increasing among equal spins. *)
Definition ordered (size : spin -> nat) (sp : list spin) (labels : list nat) : Prop :=
  length labels = length sp /\
  (forall p, p < length sp -> 1 <= nth p labels 0 <= size (nth p sp Alpha)) /\
  (forall p q, p < q < length sp -> nth p sp Alpha = nth q sp Alpha -> nth p labels 0 < nth q labels 0).

(** A row is the particle labels followed by the hole labels. *)
Definition excitation (s : orbsys) (ps hs : list spin) (row : list nat) : Prop :=
  exists part hole, row = part ++ hole /\ ordered (nunocc s) ps part /\ ordered (nocc s) hs hole.

(** Number of labels satisfying a predicate that depends on their spin. *)
Definition count (P : spin -> nat -> bool) (sp : list spin) (labels : list nat) : nat :=
  length (filter (fun z => P (fst z) (snd z)) (combine sp labels)).
(** The active unoccupied orbitals are the first ones, the active occupied orbitals the last ones. *)
Definition active_particles (s : orbsys) (ps : list spin) (row : list nat) : nat :=
  count (fun x a => a <=? nact_unocc s x) ps (firstn (length ps) row).
Definition active_holes (s : orbsys) (ps hs : list spin) (row : list nat) : nat :=
  count (fun x i => nocc s x <? i + nact_occ s x) hs (skipn (length ps) row).

(** Irrep of the excited determinant: the product over the reference, the emptied and the filled spatial orbitals
    (orbital i of a spin is spatial orbital i - 1, particle a is spatial orbital nocc + a - 1). *)
Definition irrep_product (l : list N) : N := fold_right N.lxor 0%N l.
Definition row_irrep (s : orbsys) (ps hs : list spin) (row : list nat) : N :=
  N.lxor (refsym s)
    (N.lxor (irrep_product (map (fun i => osym s (i - 1)) (skipn (length ps) row)))
            (irrep_product (map (fun z => osym s (nocc s (fst z) + snd z - 1)) (combine ps (firstn (length ps) row))))).
Definition matches_target (s : orbsys) (target : option N) (ps hs : list spin) (row : list nat) : Prop :=
  match target with None => True | Some t => row_irrep s ps hs row = t end.

(** [result] lists exactly the rows satisfying [P], once each; the single row of ones stands for "none". *)
Definition lists_exactly (P : list nat -> Prop) (rows : list (list nat)) : Prop :=
  NoDup rows /\ forall row, In row rows <-> P row.
Definition returns_exactly (width : nat) (P : list nat -> Prop) (result : list (list nat)) : Prop :=
  (lists_exactly P result /\ result <> []) \/ ((forall row, ~ P row) /\ result = [repeat 1 width]).

Definition aa := [Alpha; Alpha]. Definition ab := [Alpha; Beta]. Definition bb := [Beta; Beta].
Definition abaa := [Alpha; Beta; Alpha; Alpha]. Definition abab := [Alpha; Beta; Alpha; Beta]. Definition abbb := [Alpha; Beta; Beta; Beta].
Definition aaa := [Alpha; Alpha; Alpha].
Definition aab := [Alpha; Alpha; Beta].
Definition abb := [Alpha; Beta; Beta].
Definition bbb := [Beta; Beta; Beta].

(** Membership in the active-orbital P space (triples: both counts; particle or hole only for 3p2h, 4p2h, 3h2p). *)
Definition in_active_p (s : orbsys) (num_active : nat) (ps hs : list spin) (row : list nat) : Prop :=
  num_active <= active_particles s ps row /\ num_active <= active_holes s ps hs row.

(** Strict lexicographic order on rows. *)
Inductive lex : list nat -> list nat -> Prop :=
| lex_here : forall x y r r', x < y -> lex (x :: r) (y :: r')
| lex_next : forall x r r', lex r r' -> lex (x :: r) (x :: r').
(** Rows in strictly increasing lexicographic order (hence without repetition). *)
Inductive sorted_rows : list (list nat) -> Prop :=
| sorted_nil : sorted_rows []
| sorted_cons : forall x l, (forall y, In y l -> lex x y) -> sorted_rows l -> sorted_rows (x :: l).
(** Every label of the row is an orbital label of its axis: between 1 and the number of orbitals. *)
Definition shape_of (s : orbsys) (ps hs : list spin) : list nat := map (nunocc s) ps ++ map (nocc s) hs.
Definition fits (shape row : list nat) : Prop := Forall2 (fun n x => 1 <= x <= n) shape row.
