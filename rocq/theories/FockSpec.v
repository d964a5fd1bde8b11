(** Second quantisation, from scratch: occupation numbers, creation and annihilation operators, the electronic Hamiltonian, the exponential
    of a cluster operator and projections on excited determinants.  Nothing here refers to the program.

    A determinant is a binary number: bit p says whether spin-orbital p is occupied.  Spatial orbital p gives the spin-orbitals 2p (alpha)
    and 2p+1 (beta).  A state assigns a coefficient to every determinant. *)
From Coq Require Import Reals Arith NArith List.
From Verif Require Import RSum.
Import ListNotations.
Local Open Scope R_scope.

Definition state := N -> R.
(** Number of occupied spin-orbitals in front of p, and the sign that goes with it. *)
Definition in_front (p : nat) (D : N) : nat := length (filter (fun q => N.testbit D (N.of_nat q)) (seq 0 p)).
Definition phase (p : nat) (D : N) : R := (-1) ^ in_front p D.
(** a_p and a_p^+ : the coefficient of D in a_p psi comes from D with p added, that in a_p^+ psi from D with p removed. *)
Definition ann (p : nat) (psi : state) : state := fun D =>
  if N.testbit D (N.of_nat p) then 0 else phase p D * psi (N.setbit D (N.of_nat p)).
Definition cre (p : nat) (psi : state) : state := fun D =>
  if N.testbit D (N.of_nat p) then phase p D * psi (N.clearbit D (N.of_nat p)) else 0.

(** Spin-orbital numbers; [al p] and [be p] for spatial orbital p. *)
Definition al (p : nat) : nat := (2 * p)%nat.
Definition be (p : nat) : nat := (2 * p + 1)%nat.
(** The determinant with the given spin-orbitals occupied. *)
Definition occupied (l : list nat) : N := fold_right (fun p D => N.setbit D (N.of_nat p)) 0%N l.
(** Reference: the na lowest alpha and the nb lowest beta orbitals. *)
Definition reference (na nb : nat) : N := occupied (map al (seq 0 na) ++ map be (seq 0 nb)).
Definition pure (D0 : N) : state := fun D => if N.eqb D D0 then 1 else 0.

(** Integrals: one-electron for either spin, two-electron <pq|rs> for the three spin cases (electron 1 in p and r, electron 2 in q and s). *)
Record integrals := mkIntegrals {
  h_a : nat -> nat -> R; h_b : nat -> nat -> R;
  w_aa : nat -> nat -> nat -> nat -> R; w_ab : nat -> nat -> nat -> nat -> R; w_bb : nat -> nat -> nat -> nat -> R }.
(** H = sum h_pq p^+ q + 1/2 sum <pq|rs> p^+ q^+ s r over n spatial orbitals; the two opposite-spin halves are equal and written once. *)
Definition one_body (n : nat) (h : nat -> nat -> R) (so : nat -> nat) (psi : state) : state := fun D =>
  sumn n (fun p => sumn n (fun q => h p q * cre (so p) (ann (so q) psi) D)).
Definition two_body (n : nat) (w : nat -> nat -> nat -> nat -> R) (s1 s2 : nat -> nat) (psi : state) : state := fun D =>
  sumn n (fun p => sumn n (fun q => sumn n (fun r => sumn n (fun s =>
    w p q r s * cre (s1 p) (cre (s2 q) (ann (s2 s) (ann (s1 r) psi))) D)))).
Definition hamiltonian (n : nat) (I : integrals) (psi : state) : state := fun D =>
  one_body n (h_a I) al psi D + one_body n (h_b I) be psi D
  + / 2 * two_body n (w_aa I) al al psi D + two_body n (w_ab I) al be psi D + / 2 * two_body n (w_bb I) be be psi D.
(** The textbook form for spatial orbitals shared by both spins: 1/2 sum over both spins of either electron. *)
Definition hamiltonian_r (n : nat) (h : nat -> nat -> R) (e : nat -> nat -> nat -> nat -> R) (psi : state) : state := fun D =>
  one_body n h al psi D + one_body n h be psi D
  + / 2 * (two_body n e al al psi D + two_body n e al be psi D + two_body n e be al psi D + two_body n e be be psi D).

(** Partial sums of exp(T) psi = psi + T psi + T^2 psi / 2 + ... *)
Definition power (T : state -> state) (k : nat) (psi : state) : state := Nat.iter k T psi.
Definition expo (T : state -> state) (n : nat) (psi : state) : state := fun D => sumn (S n) (fun k => / INR (fact k) * power T k psi D).
