(** Model of the S^2 matrices of the initial-guess routines: ccpy/eom_guess/s2matrix.py, cis.py, deacis.py and dipcis.py.

    [noa], [nob]: occupied alpha and beta orbitals, [M]: orbitals of either spin, so nunoccupied_alpha = M - noa and
    nunoccupied_beta = M - nob.  Numbers are exact. *)
From Coq Require Import List Arith Reals Bool.
Import ListNotations.
Local Open Scope R_scope.

Record osys := mkOsys { noa : nat; nob : nat; M : nat }.
Definition nua (s : osys) : nat := (M s - noa s)%nat.
Definition nub (s : osys) : nat := (M s - nob s)%nat.

Definition b2r (b : bool) : R := if b then 1 else 0.
Definition eqr (p q : nat) : R := b2r (p =? q)%nat.
(** range(a, b) *)
Definition range (a b : nat) : list nat := seq a (b - a).

(** chi_beta, pi_alpha, s2matrix.py 79-89 (and the copies in the other files) *)
Definition chi_beta (s : osys) (p : nat) : R := b2r (p <? nob s)%nat.
Definition pi_alpha (s : osys) (p : nat) : R := b2r ((noa s <=? p) && (p <? nua s + noa s))%nat.

(** get_sz2, 58-62; Ms is an integer *)
Definition get_sz2 (s : osys) (Ms : R) : R :=
  let Ns := (INR (noa s) + Ms) - (INR (nob s) - Ms) in let sz := Ns / 2 in (sz + 1) * sz.
(** get_sz2_ip, 64-68 *)
Definition get_sz2_ip (s : osys) : R := let sz := ((INR (noa s) - 1) - INR (nob s)) / 2 in (sz + 1) * sz.
(** get_sz2_ea, 70-74 *)
Definition get_sz2_ea (s : osys) : R := let sz := ((INR (noa s) + 1) - INR (nob s)) / 2 in (sz - 1) * sz.

(** Matrices are lists of rows. The loops run over pairs (p, q), the counter ct1 (ct2) numbering them in order. *)
Definition pairs (ps qs : list nat) : list (nat * nat) := flat_map (fun p => map (fun q => (p, q)) qs) ps.
Definition table {A B : Type} (rows : list A) (cols : list B) (f : A -> B -> R) : list (list R) := map (fun k => map (f k) cols) rows.
(** np.concatenate along columns, then along rows *)
Definition hcat (x y : list (list R)) : list (list R) := map (fun r => (fst r ++ snd r)%list) (combine x y).
Definition entry (m : list (list R)) (i j : nat) : R := nth j (nth i m []) 0.

(** alpha singles (a, i), line 97-98; beta singles (a, i), 118-119 *)
Definition singles_a (s : osys) := pairs (range (noa s) (noa s + nua s)) (range 0 (noa s)).
Definition singles_b (s : osys) := pairs (range (nob s) (nob s + nub s)) (range 0 (nob s)).

(** build_s2matrix_cis, 76-142 *)
Definition build_s2matrix_cis (s : osys) : list (list R) :=
  let sz2 := get_sz2 s 0 in
  let Saa := table (singles_a s) (singles_a s) (fun k l : nat * nat => let (a, i) := k in let (b, j) := l in (sz2 + 1 * chi_beta s i) * eqr i j * eqr a b) in
  let Sab := table (singles_a s) (singles_b s) (fun k l : nat * nat => let (a, i) := k in let (b, j) := l in - (1) * eqr i j * eqr a b * chi_beta s i * pi_alpha s a) in
  let Sba := table (singles_b s) (singles_a s) (fun k l : nat * nat => let (a, i) := k in let (b, j) := l in - (1) * eqr i j * eqr a b * chi_beta s i * pi_alpha s a) in
  let Sbb := table (singles_b s) (singles_b s) (fun k l : nat * nat => let (a, i) := k in let (b, j) := l in (sz2 + 1 * pi_alpha s a) * eqr i j * eqr a b) in
  hcat Saa Sab ++ hcat Sba Sbb.

(** build_s2matrix_sfcis, 381-396: the particle a is beta, the hole i alpha *)
Definition singles_sf (s : osys) := pairs (range (nob s) (nob s + nub s)) (range 0 (noa s)).
Definition build_s2matrix_sfcis (s : osys) (Ms : R) : list (list R) :=
  let sz2 := get_sz2 s Ms in
  table (singles_sf s) (singles_sf s) (fun k l : nat * nat => let (a, i) := k in let (b, j) := l in 0 + sz2 * eqr a b * eqr i j + eqr a i * eqr b j).

(** build_s2matrix_1h, 398-416 *)
Definition build_s2matrix_1h (s : osys) : list (list R) :=
  let sz2 := get_sz2_ip s in
  table (range 0 (noa s)) (range 0 (noa s)) (fun i j => 0 + sz2 * eqr i j + chi_beta s i * eqr i j).
(** build_s2matrix_1p, 418-436 *)
Definition build_s2matrix_1p (s : osys) : list (list R) :=
  let sz2 := get_sz2_ea s in
  table (range (noa s) (noa s + nua s)) (range (noa s) (noa s + nua s)) (fun a b => 0 + sz2 * eqr a b + pi_alpha s a * eqr a b).

(** build_s2matrix_2p, deacis.py 116-154, and build_s2matrix_2h, dipcis.py 110-143.  Simplification: all irreps (use_symmetry
    off, every entry of idx_ab is its running number), and the active space is given directly by its numbers of alpha and beta
    orbitals, nact_a and nact_b. *)
Definition pairs_2p (s : osys) (nact_a nact_b : nat) := pairs (range (noa s) (noa s + nact_a)) (range (nob s) (nob s + nact_b)).
Definition build_s2matrix_2p (s : osys) (nact_a nact_b : nat) : list (list R) :=
  let sz2 := get_sz2 s 0 in
  table (pairs_2p s nact_a nact_b) (pairs_2p s nact_a nact_b)
    (fun k l : nat * nat => let (a, b) := k in let (c, d) := l in 0 + (sz2 + 1 * pi_alpha s a) * eqr a c * eqr b d - eqr b c * eqr a d).
Definition pairs_2h (s : osys) (nact_a nact_b : nat) := pairs (range (noa s - nact_a) (noa s)) (range (nob s - nact_b) (nob s)).
Definition build_s2matrix_2h (s : osys) (nact_a nact_b : nat) : list (list R) :=
  table (pairs_2h s nact_a nact_b) (pairs_2h s nact_a nact_b)
    (fun k l : nat * nat => let (i, j) := k in let (m, n) := l in eqr i m * eqr j n - eqr i n * eqr j m).

(** ** cis.py: the same matrix through index arrays *)
(** get_index_arrays, 285-319: [sym] tells whether orbitals p (particle) and h (hole) have the right symmetry; entry 0 means left out *)
Definition idx_a (s : osys) (sym : nat -> nat -> bool) (a i : nat) : nat := if sym (a + noa s)%nat i then S (a * noa s + i) else 0%nat.
Definition idx_b (s : osys) (sym : nat -> nat -> bool) (a i : nat) : nat := if sym (a + nob s)%nat i then S (a * nob s + i) else 0%nat.
(** zeros((n, m)) followed by additions at positions (I, J) *)
Fixpoint accumulated (ups : list (nat * nat * R)) (I J : nat) : R :=
  match ups with
  | [] => 0
  | (x, y, v) :: r => (if (x =? I)%nat && (y =? J)%nat then v else 0) + accumulated r I J
  end.
(** build_s2matrix, 229-283, before the final concatenation *)
Definition cis_aa (s : osys) (sym : nat -> nat -> bool) : list (nat * nat * R) :=
  flat_map (fun k : nat * nat => let (a, i) := k in if (idx_a s sym a i =? 0)%nat then [] else
    let I := (idx_a s sym a i - 1)%nat in [(I, I, get_sz2 s 0 + 1 * chi_beta s i)]) (pairs (range 0 (nua s)) (range 0 (noa s))).
Definition cis_ab (s : osys) (sym : nat -> nat -> bool) : list (nat * nat * R) :=
  flat_map (fun k : nat * nat => let (a, i) := k in if (idx_a s sym a i =? 0)%nat then [] else
    let I := (idx_a s sym a i - 1)%nat in
    if (i <? nob s)%nat then                                                     (* if chi_beta(i) *)
      let jdet := idx_b s sym (a + (noa s - nob s)) i in
      if (jdet =? 0)%nat then [] else [(I, (jdet - 1)%nat, - (1))]
    else []) (pairs (range 0 (nua s)) (range 0 (noa s))).
Definition cis_bb (s : osys) (sym : nat -> nat -> bool) : list (nat * nat * R) :=
  flat_map (fun k : nat * nat => let (a, i) := k in if (idx_b s sym a i =? 0)%nat then [] else
    let I := (idx_b s sym a i - 1)%nat in [(I, I, get_sz2 s 0 + 1 * pi_alpha s (a + nob s))]) (pairs (range 0 (nub s)) (range 0 (nob s))).
(** The concatenated matrix; rows and columns below n1a are alpha *)
Definition build_s2matrix (s : osys) (sym : nat -> nat -> bool) (I J : nat) : R :=
  let n1a := (nua s * noa s)%nat in
  if (I <? n1a)%nat then if (J <? n1a)%nat then accumulated (cis_aa s sym) I J else accumulated (cis_ab s sym) I (J - n1a)
  else if (J <? n1a)%nat then accumulated (cis_ab s sym) J (I - n1a) else accumulated (cis_bb s sym) (I - n1a) (J - n1a).
