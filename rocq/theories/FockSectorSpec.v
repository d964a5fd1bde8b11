(** Specification vocabulary for electron-removed, electron-attached and spin-flipped states: the operators R of the equation-of-motion methods in second
    quantisation, and the determinants on which each method solves the Schroedinger equation. *)
From Coq Require Import Reals Arith NArith List.
From Verif Require Import RSum IntegralsModel TensorObjs FockSpec FockCcSpec SectorModel.
Import ListNotations.
Local Open Scope R_scope.

(** Orbitals: [oa i] occupied and [va d a] unoccupied alpha, [ob i] and [vb d a] beta *)
Definition oa (i : nat) : nat := al i.
Definition ob (i : nat) : nat := be i.
Definition va (d : dims) (a : nat) : nat := al (noa d + a).
Definition vb (d : dims) (a : nat) : nat := be (nob d + a).

(** R = sum r_i i + 1/2 sum r_ibj b^+ j i + sum r_ib~j~ b~^+ j~ i *)
Definition ip_op (d : dims) (R : ipv) (psi : state) : state := fun D =>
  sumn (noa d) (fun i => ip_a R i * ann (oa i) psi D)
  + / 2 * sumn (noa d) (fun i => sumn (nua d) (fun b => sumn (noa d) (fun j => ip_aa R i b j * cre (va d b) (ann (oa j) (ann (oa i) psi)) D)))
  + sumn (noa d) (fun i => sumn (nub d) (fun b => sumn (nob d) (fun j => ip_ab R i b j * cre (vb d b) (ann (ob j) (ann (oa i) psi)) D))).
(** R = sum r_a a^+ + 1/2 sum r_abj a^+ b^+ j + sum r_ab~j~ a^+ b~^+ j~ *)
Definition ea_op (d : dims) (R : eav) (psi : state) : state := fun D =>
  sumn (nua d) (fun a => ea_a R a * cre (va d a) psi D)
  + / 2 * sumn (nua d) (fun a => sumn (nua d) (fun b => sumn (noa d) (fun j => ea_aa R a b j * cre (va d a) (cre (va d b) (ann (oa j) psi)) D)))
  + sumn (nua d) (fun a => sumn (nub d) (fun b => sumn (nob d) (fun j => ea_ab R a b j * cre (va d a) (cre (vb d b) (ann (ob j) psi)) D))).
(** R = sum r_a~i a~^+ i + 1/2 sum r_ab~ij a^+ b~^+ j i + 1/2 sum r_a~b~i~j a~^+ b~^+ j i~ *)
Definition sf_op (d : dims) (R : sfv) (psi : state) : state := fun D =>
  sumn (nub d) (fun a => sumn (noa d) (fun i => sf_b R a i * cre (vb d a) (ann (oa i) psi) D))
  + / 2 * sumn (nua d) (fun a => sumn (nub d) (fun b => sumn (noa d) (fun i => sumn (noa d) (fun j =>
      sf_ab R a b i j * cre (va d a) (cre (vb d b) (ann (oa j) (ann (oa i) psi))) D))))
  + / 2 * sumn (nub d) (fun a => sumn (nub d) (fun b => sumn (nob d) (fun i => sumn (noa d) (fun j =>
      sf_bb R a b i j * cre (vb d a) (cre (vb d b) (ann (oa j) (ann (ob i) psi))) D)))).
(** R = sum r_ij~ j~ i + 1/2 sum r_ij~ck c^+ k j~ i + 1/2 sum r_ij~c~k~ c~^+ k~ j~ i *)
Definition dip_op (d : dims) (R : dipv) (psi : state) : state := fun D =>
  sumn (noa d) (fun i => sumn (nob d) (fun j => dip_ab R i j * ann (ob j) (ann (oa i) psi) D))
  + / 2 * sumn (noa d) (fun i => sumn (nob d) (fun j => sumn (nua d) (fun c => sumn (noa d) (fun k =>
      dip_aba R i j c k * cre (va d c) (ann (oa k) (ann (ob j) (ann (oa i) psi))) D))))
  + / 2 * sumn (noa d) (fun i => sumn (nob d) (fun j => sumn (nub d) (fun c => sumn (nob d) (fun k =>
      dip_abb R i j c k * cre (vb d c) (ann (ob k) (ann (ob j) (ann (oa i) psi))) D)))).
(** R = sum r_ab~ a^+ b~^+ *)
Definition dea2_op (d : dims) (R : dea2v) (psi : state) : state := fun D =>
  sumn (nua d) (fun a => sumn (nub d) (fun b => dea2_ab R a b * cre (va d a) (cre (vb d b) psi) D)).
(** R = sum r_ab~ a^+ b~^+ + 1/2 sum r_ab~ck a^+ b~^+ c^+ k + 1/2 sum r_ab~c~k~ a^+ b~^+ c~^+ k~ *)
Definition dea_op (d : dims) (R : deav) (psi : state) : state := fun D =>
  sumn (nua d) (fun a => sumn (nub d) (fun b => dea_ab R a b * cre (va d a) (cre (vb d b) psi) D))
  + / 2 * sumn (nua d) (fun a => sumn (nub d) (fun b => sumn (nua d) (fun c => sumn (noa d) (fun k =>
      dea_aba R a b c k * cre (va d a) (cre (vb d b) (cre (va d c) (ann (oa k) psi))) D))))
  + / 2 * sumn (nua d) (fun a => sumn (nub d) (fun b => sumn (nub d) (fun c => sumn (nob d) (fun k =>
      dea_abb R a b c k * cre (va d a) (cre (vb d b) (cre (vb d c) (ann (ob k) psi))) D)))).
(** R = 1/2 sum r_abc~ a^+ b^+ c~^+ *)
Definition tea_op (d : dims) (R : teav) (psi : state) : state := fun D =>
  / 2 * sumn (nua d) (fun a => sumn (nua d) (fun b => sumn (nub d) (fun c => tea_aab R a b c * cre (va d a) (cre (va d b) (cre (vb d c) psi)) D))).

(** Antisymmetry of the amplitudes in equal-spin holes (particles) *)
Definition ip_anti (R : ipv) : Prop := forall i b j, ip_aa R i b j = - ip_aa R j b i.
Definition ea_anti (R : eav) : Prop := forall a b j, ea_aa R a b j = - ea_aa R b a j.
Definition sf_anti (R : sfv) : Prop := (forall a b i j, sf_ab R a b i j = - sf_ab R a b j i) /\ (forall a b i j, sf_bb R a b i j = - sf_bb R b a i j).
Definition dip_anti (R : dipv) : Prop := (forall i j c k, dip_aba R i j c k = - dip_aba R k j c i) /\ (forall i j c k, dip_abb R i j c k = - dip_abb R i k c j).
Definition dea_anti (R : deav) : Prop := (forall a b c k, dea_aba R a b c k = - dea_aba R c b a k) /\ (forall a b c k, dea_abb R a b c k = - dea_abb R a c b k).
Definition tea_anti (R : teav) : Prop := forall a b c, tea_aab R a b c = - tea_aab R b a c.

(** The eigenvalue equation S = w R, on the ranges of the arrays *)
Definition ip_root (d : dims) (S Y : ipv) (w : R) : Prop :=
  (forall i, (i < noa d)%nat -> ip_a S i = w * ip_a Y i) /\
  (forall i b j, (i < noa d)%nat -> (b < nua d)%nat -> (j < noa d)%nat -> ip_aa S i b j = w * ip_aa Y i b j) /\
  (forall i b j, (i < noa d)%nat -> (b < nub d)%nat -> (j < nob d)%nat -> ip_ab S i b j = w * ip_ab Y i b j).
Definition ea_root (d : dims) (S Y : eav) (w : R) : Prop :=
  (forall a, (a < nua d)%nat -> ea_a S a = w * ea_a Y a) /\
  (forall a b j, (a < nua d)%nat -> (b < nua d)%nat -> (j < noa d)%nat -> ea_aa S a b j = w * ea_aa Y a b j) /\
  (forall a b j, (a < nua d)%nat -> (b < nub d)%nat -> (j < nob d)%nat -> ea_ab S a b j = w * ea_ab Y a b j).
Definition sf_root (d : dims) (S Y : sfv) (w : R) : Prop :=
  (forall a i, (a < nub d)%nat -> (i < noa d)%nat -> sf_b S a i = w * sf_b Y a i) /\
  (forall a b i j, (a < nua d)%nat -> (b < nub d)%nat -> (i < noa d)%nat -> (j < noa d)%nat -> sf_ab S a b i j = w * sf_ab Y a b i j) /\
  (forall a b i j, (a < nub d)%nat -> (b < nub d)%nat -> (i < nob d)%nat -> (j < noa d)%nat -> sf_bb S a b i j = w * sf_bb Y a b i j).
Definition dip_root (d : dims) (S Y : dipv) (w : R) : Prop :=
  (forall i j, (i < noa d)%nat -> (j < nob d)%nat -> dip_ab S i j = w * dip_ab Y i j) /\
  (forall i j c k, (i < noa d)%nat -> (j < nob d)%nat -> (c < nua d)%nat -> (k < noa d)%nat -> dip_aba S i j c k = w * dip_aba Y i j c k) /\
  (forall i j c k, (i < noa d)%nat -> (j < nob d)%nat -> (c < nub d)%nat -> (k < nob d)%nat -> dip_abb S i j c k = w * dip_abb Y i j c k).
Definition dea2_root (d : dims) (S Y : dea2v) (w : R) : Prop :=
  forall a b, (a < nua d)%nat -> (b < nub d)%nat -> dea2_ab S a b = w * dea2_ab Y a b.
Definition dea_root (d : dims) (S Y : deav) (w : R) : Prop :=
  (forall a b, (a < nua d)%nat -> (b < nub d)%nat -> dea_ab S a b = w * dea_ab Y a b) /\
  (forall a b c k, (a < nua d)%nat -> (b < nub d)%nat -> (c < nua d)%nat -> (k < noa d)%nat -> dea_aba S a b c k = w * dea_aba Y a b c k) /\
  (forall a b c k, (a < nua d)%nat -> (b < nub d)%nat -> (c < nub d)%nat -> (k < nob d)%nat -> dea_abb S a b c k = w * dea_abb Y a b c k).
Definition tea_root (d : dims) (S Y : teav) (w : R) : Prop :=
  forall a b c, (a < nua d)%nat -> (b < nua d)%nat -> (c < nub d)%nat -> tea_aab S a b c = w * tea_aab Y a b c.

(** Determinants: taking an electron out of, or putting one into, one of n orbitals of a given spin *)
Definition taken (so : nat -> nat) (n : nat) (D D' : N) : Prop :=
  exists p, (p < n)%nat /\ N.testbit D (N.of_nat (so p)) = true /\ D' = N.clearbit D (N.of_nat (so p)).
Definition put (so : nat -> nat) (n : nat) (D D' : N) : Prop :=
  exists p, (p < n)%nat /\ N.testbit D (N.of_nat (so p)) = false /\ D' = N.setbit D (N.of_nat (so p)).
(** ... and possibly moving another electron *)
Definition or_moved (n : nat) (D D' : N) : Prop := D' = D \/ moved n D D'.
Definition ip_space (n : nat) (D0 D : N) : Prop := exists D1, taken al n D0 D1 /\ or_moved n D1 D.
Definition ea_space (n : nat) (D0 D : N) : Prop := exists D1, put al n D0 D1 /\ or_moved n D1 D.
Definition sf_space (n : nat) (D0 D : N) : Prop := exists D1 D2, taken al n D0 D1 /\ put be n D1 D2 /\ or_moved n D2 D.
Definition dip_space (n : nat) (D0 D : N) : Prop := exists D1 D2, taken al n D0 D1 /\ taken be n D1 D2 /\ or_moved n D2 D.
Definition dea2_space (n : nat) (D0 D : N) : Prop := exists D1, put al n D0 D1 /\ put be n D1 D.
Definition dea_space (n : nat) (D0 D : N) : Prop := exists D1 D2, put al n D0 D1 /\ put be n D1 D2 /\ or_moved n D2 D.
Definition tea_space (n : nat) (D0 D : N) : Prop := exists D1 D2, put al n D0 D1 /\ put al n D1 D2 /\ put be n D2 D.
(** The Schroedinger equation on a set of determinants *)
Definition solves_on (space : N -> Prop) (n : nat) (I : integrals) (E : R) (psi : state) : Prop := forall D, space D -> hamiltonian n I psi D = E * psi D.
