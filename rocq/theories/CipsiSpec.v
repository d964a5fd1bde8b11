(** What a list of determinants means, independently of the code that reads it. *)
From Coq Require Import List ZArith NArith Bool Sorting.Sorted Permutation.
From Verif Require Import CipsiModel.
Import ListNotations.
Local Open Scope Z_scope.

(** Spin-orbital numbering of the files: spatial orbital p (counted from 1) with alpha spin is 2p-1 and
    with beta spin is 2p. *)
Definition alpha (p : Z) : Z := 2 * p - 1.
Definition beta (p : Z) : Z := 2 * p.

(** A system the package can build: more alpha than beta electrons, as many symmetry labels as orbitals,
    labels that are irreps of an abelian group with 2^g irreps. *)
Definition valid_sys (s : sys) : Prop :=
  (nob s <= noa s)%nat /\ (noa s <= norb s)%nat /\ length (osym s) = norb s /\
  (exists g, nirr s = (2 ^ g)%nat /\
     (forall v, In v (osym s) -> (N.to_nat v < nirr s)%nat) /\ (N.to_nat (refsym s) < nirr s)%nat).

(** A list of distinct spin-orbitals with the electron numbers of the system. *)
Definition electrons (s : sys) (D : list Z) : Prop :=
  NoDup D /\ length (odds D) = noa s /\ length (evens D) = nob s.
(** A determinant: all its spin-orbitals are orbitals of the system. *)
Definition is_det (s : sys) (D : list Z) : Prop :=
  electrons s D /\ (forall x, In x D -> 1 <= x <= 2 * Z.of_nat (norb s)).

Definition within (lo hi : Z) (l : list Z) : Prop := forall x, In x l -> lo <= x <= hi.

(** [e] (particles, holes; alpha ones first, 1-based and counted within the unoccupied or occupied
    orbitals of their spin, strictly increasing) with [na] alpha electrons moved takes the reference
    determinant into [D]. *)
Definition describes (s : sys) (na : nat) (e : list Z * list Z) (D : list Z) : Prop :=
  exists pa pb ha hb,
    e = (pa ++ pb, ha ++ hb) /\
    length pa = na /\ length ha = na /\ length pb = length hb /\
    StronglySorted Z.lt pa /\ StronglySorted Z.lt pb /\ StronglySorted Z.lt ha /\ StronglySorted Z.lt hb /\
    within 1 (Z.of_nat (nua s)) pa /\ within 1 (Z.of_nat (nub s)) pb /\
    within 1 (Z.of_nat (noa s)) ha /\ within 1 (Z.of_nat (nob s)) hb /\
    (forall p, In (alpha p) D <->
       (1 <= p <= Z.of_nat (noa s) /\ ~ In p ha) \/ In (p - Z.of_nat (noa s)) pa) /\
    (forall p, In (beta p) D <->
       (1 <= p <= Z.of_nat (nob s) /\ ~ In p hb) \/ In (p - Z.of_nat (nob s)) pb).

(** The determinants of a file: the first two numbers of a line are an index and a weight. *)
Definition det_of (line : list Z) : list Z := skipn 2 line.

(** [es] lists, in file order, the excitations of the given rank with [na] alpha electrons moved. *)
Inductive listed (s : sys) (rank na : nat) : list (list Z) -> list (list Z * list Z) -> Prop :=
| listed_nil : listed s rank na [] []
| listed_take : forall l r e es, describes s na e (det_of l) -> length (fst e) = rank ->
    listed s rank na r es -> listed s rank na (l :: r) (e :: es)
| listed_skip : forall l r es, (forall e, describes s na e (det_of l) -> length (fst e) <> rank) ->
    listed s rank na r es -> listed s rank na (l :: r) es.

(** Irrep of the excited determinant: that of the reference times those of all orbitals involved. *)
Definition orb_irrep (s : sys) (p : Z) : N := nth (Z.to_nat (p - 1)) (osym s) 0%N.
Definition irrep_of (s : sys) (na : nat) (e : list Z * list Z) : N :=
  let pa := firstn na (fst e) in
  let pb := skipn na (fst e) in
  fold_left N.lxor
    (map (orb_irrep s) (snd e) ++
     map (fun a => orb_irrep s (a + Z.of_nat (noa s))) pa ++
     map (fun a => orb_irrep s (a + Z.of_nat (nob s))) pb) (refsym s).

(** The spin-orbitals occupied in the reference. *)
Definition in_reference (s : sys) (x : Z) : Prop :=
  exists p, (x = alpha p /\ 1 <= p <= Z.of_nat (noa s)) \/ (x = beta p /\ 1 <= p <= Z.of_nat (nob s)).
(** [D] differs from the reference by [rank] spin-orbitals. *)
Definition of_rank (s : sys) (rank : nat) (D : list Z) : Prop :=
  exists l, length l = rank /\ NoDup l /\ forall x, In x l <-> In x D /\ ~ in_reference s x.

(** For walker lists: some determinant of the list with enough walkers (and of the wanted irrep) empties
    and fills the given spatial orbitals, whatever their spins. *)
Definition walkers (line : list Z) : Z := nth 1 line 0.
Definition wanted (target : option N) (v : N) : Prop :=
  match target with None => True | Some t => v = t end.
Definition znat3 (x y z : nat) : list Z := [Z.of_nat x; Z.of_nat y; Z.of_nat z].
Definition covered (s : sys) (target : option N) (thr : Z) (file : list (list Z)) (a b c i j k : nat) : Prop :=
  exists line na e, In line file /\ (thr <= Z.abs (walkers line)) /\ describes s na e (det_of line) /\
    Permutation (znat3 a b c) (fst e) /\ Permutation (znat3 i j k) (snd e) /\
    wanted target (irrep_of s na e).
