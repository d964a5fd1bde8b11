(** The total-spin operator on determinants, in second quantisation. *)
From Coq Require Import List Arith Reals Bool.
From Verif Require Import RSum SpinSqModel.
Import ListNotations.
Local Open Scope R_scope.

(** A determinant says which alpha and which beta orbitals are occupied. *)
Definition occ := (nat -> bool)%type.
Definition state := (occ * occ)%type.
Definition upd (f : occ) (x : nat) (v : bool) : occ := fun q => if (q =? x)%nat then v else f q.
(** occupied orbitals below p *)
Definition cnt (f : occ) (p : nat) : nat := length (filter f (seq 0 p)).
Definition sgn (n : nat) : R := (-1) ^ n.

(** Vectors that are a sign times a determinant, or zero (None).  Alpha orbitals precede beta orbitals; M orbitals of each spin. *)
Definition vec := option (R * state).
Definition creA (p : nat) (v : vec) : vec := match v with
  | Some (c, (fa, fb)) => if fa p then None else Some (c * sgn (cnt fa p), (upd fa p true, fb)) | None => None end.
Definition annA (p : nat) (v : vec) : vec := match v with
  | Some (c, (fa, fb)) => if fa p then Some (c * sgn (cnt fa p), (upd fa p false, fb)) else None | None => None end.
Definition creB (M p : nat) (v : vec) : vec := match v with
  | Some (c, (fa, fb)) => if fb p then None else Some (c * sgn (cnt fa M + cnt fb p), (fa, upd fb p true)) | None => None end.
Definition annB (M p : nat) (v : vec) : vec := match v with
  | Some (c, (fa, fb)) => if fb p then Some (c * sgn (cnt fa M + cnt fb p), (fa, upd fb p false)) else None | None => None end.

(** Inner product *)
Definition same (M : nat) (s t : state) : bool :=
  forallb (fun q => Bool.eqb (fst s q) (fst t q) && Bool.eqb (snd s q) (snd t q)) (seq 0 M).
Definition inner (M : nat) (u v : vec) : R := match u, v with
  | Some (c, s), Some (d, t) => if same M s t then c * d else 0
  | _, _ => 0 end.

(** S+ = sum_p p_alpha+ p_beta;  S^2 = S- S+ + Sz (Sz + 1) *)
Definition Splus (M p : nat) (v : vec) : vec := creA p (annB M p v).
Definition Sz (M : nat) (v : vec) : R := match v with Some (_, (fa, fb)) => (INR (cnt fa M) - INR (cnt fb M)) / 2 | None => 0 end.
Definition S2 (M : nat) (u v : vec) : R :=
  sumn M (fun p => sumn M (fun q => inner M (Splus M p u) (Splus M q v))) + Sz M v * (Sz M v + 1) * inner M u v.

(** The reference determinant: the lowest orbitals. *)
Definition ref (noa nob : nat) : vec := Some (1, (fun q => (q <? noa)%nat, fun q => (q <? nob)%nat)).

(** Excited determinants; a, b are particles and i, j holes.  Only the three orbital counts of [osys] are used. *)
Definition ket_a (s : osys) (k : nat * nat) : vec := let (a, i) := k in creA a (annA i (ref (noa s) (nob s))).
Definition ket_b (s : osys) (k : nat * nat) : vec := let (a, i) := k in creB (M s) a (annB (M s) i (ref (noa s) (nob s))).
Definition ket_sf (s : osys) (k : nat * nat) : vec := let (a, i) := k in creB (M s) a (annA i (ref (noa s) (nob s))).
Definition ket_1h (s : osys) (i : nat) : vec := annA i (ref (noa s) (nob s)).
Definition ket_1p (s : osys) (a : nat) : vec := creA a (ref (noa s) (nob s)).
Definition ket_2p (s : osys) (k : nat * nat) : vec := let (a, b) := k in creA a (creB (M s) b (ref (noa s) (nob s))).
Definition ket_2h (s : osys) (k : nat * nat) : vec := let (i, j) := k in annB (M s) j (annA i (ref (noa s) (nob s))).

(** All pairs (p, q) with p in [p0, p1) and q in [q0, q1), p slowest. *)
Definition all_pairs (p0 p1 q0 q1 : nat) : list (nat * nat) := flat_map (fun p => map (fun q => (p, q)) (seq q0 (q1 - q0))) (seq p0 (p1 - p0)).
(** alpha-to-alpha excitations, then beta-to-beta ones *)
Definition kets_cis (s : osys) : list vec :=
  map (ket_a s) (all_pairs (noa s) (M s) 0 (noa s)) ++ map (ket_b s) (all_pairs (nob s) (M s) 0 (nob s)).
Definition S2_matrix (M : nat) (kets : list vec) : list (list R) := map (fun u => map (S2 M u) kets) kets.
