(** Specification vocabulary for C04 and C05; independent of SymmetryModel. *)
From Coq Require Import List Arith NArith ZArith String.
Import ListNotations.

(** ** Character tables (textbook), one row of +-1 per irrep.
    Group elements: C2: E C2; Ci: E i; Cs: E sigma; C2v: E C2(z) sigma(xz) sigma(yz);
    C2h: E C2 i sigma_h; D2: E C2(z) C2(y) C2(x); D2h: E C2(z) C2(y) C2(x) i s(xy) s(xz) s(yz). *)
Definition characters (pg : string) : list (string * list Z) :=
  (if String.eqb pg "C1" then [("A", [1])]
  else if String.eqb pg "C2" then [("A", [1; 1]); ("B", [1; -1])]
  else if String.eqb pg "CI" then [("AG", [1; 1]); ("AU", [1; -1])]
  else if String.eqb pg "CS" then [("A'", [1; 1]); ("A""", [1; -1])]
  else if String.eqb pg "C2V" then
    [("A1", [1; 1; 1; 1]); ("A2", [1; 1; -1; -1]); ("B1", [1; -1; 1; -1]); ("B2", [1; -1; -1; 1])]
  else if String.eqb pg "C2H" then
    [("AG", [1; 1; 1; 1]); ("BG", [1; -1; 1; -1]); ("AU", [1; 1; -1; -1]); ("BU", [1; -1; -1; 1])]
  else if String.eqb pg "D2" then
    [("A", [1; 1; 1; 1]); ("B1", [1; 1; -1; -1]); ("B2", [1; -1; 1; -1]); ("B3", [1; -1; -1; 1])]
  else if String.eqb pg "D2H" then
    [("AG", [1; 1; 1; 1; 1; 1; 1; 1]); ("B1G", [1; 1; -1; -1; 1; 1; -1; -1]);
     ("B2G", [1; -1; 1; -1; 1; -1; 1; -1]); ("B3G", [1; -1; -1; 1; 1; -1; -1; 1]);
     ("AU", [1; 1; 1; 1; -1; -1; -1; -1]); ("B1U", [1; 1; -1; -1; -1; -1; 1; 1]);
     ("B2U", [1; -1; 1; -1; -1; 1; -1; 1]); ("B3U", [1; -1; -1; 1; -1; 1; 1; -1])]
  else [])%string%Z.

Fixpoint pointwise (x y : list Z) : list Z :=
  match x, y with u :: x', v :: y' => (u * v)%Z :: pointwise x' y' | _, _ => [] end.

(** [x] times [y] is [z] in the group [pg], by characters. *)
Definition irrep_times (pg x y z : string) : Prop :=
  exists cx cy cz, In (x, cx) (characters pg) /\ In (y, cy) (characters pg) /\ In (z, cz) (characters pg) /\
    pointwise cx cy = cz.

Definition supported : list string := ["C1"; "C2"; "CI"; "CS"; "C2V"; "C2H"; "D2"; "D2H"]%string.

(** ** Excited determinants *)

(** Holes and particles of each spin. *)
Record excit := mkExcit { ha : list nat; pa : list nat; hb : list nat; pb : list nat }.
(** Numbers of holes and particles of each spin. *)
Record class := mkClass { nha : nat; npa : nat; nhb : nat; npb : nat }.

Fixpoint increasing (l : list nat) : Prop :=
  match l with
  | x :: ((y :: _) as r) => x < y /\ increasing r
  | _ => True
  end.
(** [l] is a set of [k] orbitals in [lo, hi), listed in increasing order. *)
Definition orbital_set (lo hi k : nat) (l : list nat) : Prop :=
  List.length l = k /\ increasing l /\ forall x, In x l -> lo <= x < hi.

Definition is_excitation (noa nob norb : nat) (c : class) (e : excit) : Prop :=
  orbital_set 0 noa (nha c) (ha e) /\ orbital_set noa norb (npa c) (pa e) /\
  orbital_set 0 nob (nhb c) (hb e) /\ orbital_set nob norb (npb c) (pb e).

(** Occupied orbitals of one spin after removing holes and adding particles. *)
Definition occupied_after (nocc : nat) (holes parts : list nat) : list nat :=
  filter (fun i => if in_dec Nat.eq_dec i holes then false else true) (seq 0 nocc) ++ parts.

Fixpoint irrep_product (l : list N) : N :=
  match l with [] => 0%N | x :: r => N.lxor x (irrep_product r) end.

(** Irrep of the excited determinant: product over all its occupied spin orbitals. *)
Definition det_irrep (noa nob : nat) (osym : nat -> N) (e : excit) : N :=
  irrep_product (map osym (occupied_after noa (ha e) (pa e) ++ occupied_after nob (hb e) (pb e))).

Fixpoint binomial (n k : nat) : nat :=
  match n, k with
  | _, O => 1
  | O, S _ => 0
  | S n', S k' => binomial n' k' + binomial n' k
  end.
Definition class_size (noa nob norb : nat) (c : class) : nat :=
  binomial noa (nha c) * binomial (norb - noa) (npa c) * binomial nob (nhb c) * binomial (norb - nob) (npb c).

(** [r] is the correct answer for the union of the excitation classes [cs]. *)
Definition correct_counts (noa nob norb : nat) (osym : nat -> N) (nirrep : nat) (cs : list class)
    (r : option (list nat * nat)) : Prop :=
  exists counts total, r = Some (counts, total) /\ List.length counts = nirrep /\
    (forall g, g < nirrep -> exists L,
       NoDup L /\ List.length L = nth g counts 0 /\
       forall e, In e L <-> (exists c, In c cs /\ is_excitation noa nob norb c e)
                            /\ det_irrep noa nob osym e = N.of_nat g) /\
    total = list_sum (map (class_size noa nob norb) cs).
