(** Specification vocabulary, generated by tools/gen_sec3fock.py: the operators R of the equation-of-motion methods with three-body (four-body) amplitudes in
    second quantisation, antisymmetry of the amplitudes and the eigenvalue equation. [oa i], [va d a] are the occupied and unoccupied alpha orbitals, [ob i],
    [vb d a] the beta ones. *)
From Coq Require Import Reals Arith NArith List.
From Verif Require Import RSum IntegralsModel TensorObjs FockSpec FockCcSpec FockSectorSpec RankSpec Sector3Model.
Import ListNotations.
Local Open Scope R_scope.

(** IP (3h2p) *)
Definition ipt_op (d : dims) (R : iptv) (psi : state) : state := fun D =>
  sumn (noa d) (fun i => ipt_a R i * ann (oa i) psi D)
  + / 2 * sumn (noa d) (fun i => sumn (nua d) (fun a => sumn (noa d) (fun j => ipt_aa R i a j * cre (va d a) (ann (oa j) (ann (oa i) psi)) D)))
  + sumn (noa d) (fun i => sumn (nub d) (fun a => sumn (nob d) (fun j => ipt_ab R i a j * cre (vb d a) (ann (ob j) (ann (oa i) psi)) D)))
  + / 12 * sumn (noa d) (fun i => sumn (nua d) (fun a => sumn (nua d) (fun b => sumn (noa d) (fun j => sumn (noa d) (fun k => ipt_aaa R i a b j k * cre (va d a) (cre (va d b) (ann (oa k) (ann (oa j) (ann (oa i) psi)))) D)))))
  + / 2 * sumn (noa d) (fun i => sumn (nua d) (fun a => sumn (nub d) (fun b => sumn (noa d) (fun j => sumn (nob d) (fun k => ipt_aab R i a b j k * cre (va d a) (cre (vb d b) (ann (ob k) (ann (oa j) (ann (oa i) psi)))) D)))))
  + / 4 * sumn (noa d) (fun i => sumn (nub d) (fun a => sumn (nub d) (fun b => sumn (nob d) (fun j => sumn (nob d) (fun k => ipt_abb R i a b j k * cre (vb d a) (cre (vb d b) (ann (ob k) (ann (ob j) (ann (oa i) psi)))) D))))).
Definition ipt_anti (R : iptv) : Prop :=
  (forall i a j, ipt_aa R i a j = - ipt_aa R j a i) /\
  (forall i a b j k, ipt_aaa R i a b j k = - ipt_aaa R j a b i k) /\
  (forall i a b j k, ipt_aaa R i a b j k = - ipt_aaa R i a b k j) /\
  (forall i a b j k, ipt_aaa R i a b j k = - ipt_aaa R i b a j k) /\
  (forall i a b j k, ipt_aab R i a b j k = - ipt_aab R j a b i k) /\
  (forall i a b j k, ipt_abb R i a b j k = - ipt_abb R i a b k j) /\
  (forall i a b j k, ipt_abb R i a b j k = - ipt_abb R i b a j k).
Definition ipt_root (d : dims) (S Y : iptv) (w : R) : Prop :=
  (forall i, (i < noa d)%nat -> ipt_a S i = w * ipt_a Y i) /\
  (forall i a j, (i < noa d)%nat -> (a < nua d)%nat -> (j < noa d)%nat -> ipt_aa S i a j = w * ipt_aa Y i a j) /\
  (forall i a j, (i < noa d)%nat -> (a < nub d)%nat -> (j < nob d)%nat -> ipt_ab S i a j = w * ipt_ab Y i a j) /\
  (forall i a b j k, (i < noa d)%nat -> (a < nua d)%nat -> (b < nua d)%nat -> (j < noa d)%nat -> (k < noa d)%nat -> ipt_aaa S i a b j k = w * ipt_aaa Y i a b j k) /\
  (forall i a b j k, (i < noa d)%nat -> (a < nua d)%nat -> (b < nub d)%nat -> (j < noa d)%nat -> (k < nob d)%nat -> ipt_aab S i a b j k = w * ipt_aab Y i a b j k) /\
  (forall i a b j k, (i < noa d)%nat -> (a < nub d)%nat -> (b < nub d)%nat -> (j < nob d)%nat -> (k < nob d)%nat -> ipt_abb S i a b j k = w * ipt_abb Y i a b j k).
Definition ipt_space (d : dims) (n : nat) : N -> Prop := sector d n 1 0 0 0 3.

(** EA (3p2h) *)
Definition eat_op (d : dims) (R : eatv) (psi : state) : state := fun D =>
  sumn (nua d) (fun a => eat_a R a * cre (va d a) psi D)
  + / 2 * sumn (nua d) (fun a => sumn (nua d) (fun b => sumn (noa d) (fun i => eat_aa R a b i * cre (va d a) (cre (va d b) (ann (oa i) psi)) D)))
  + sumn (nua d) (fun a => sumn (nub d) (fun b => sumn (nob d) (fun i => eat_ab R a b i * cre (va d a) (cre (vb d b) (ann (ob i) psi)) D)))
  + / 12 * sumn (nua d) (fun a => sumn (nua d) (fun b => sumn (nua d) (fun c => sumn (noa d) (fun i => sumn (noa d) (fun j => eat_aaa R a b c i j * cre (va d a) (cre (va d b) (cre (va d c) (ann (oa j) (ann (oa i) psi)))) D)))))
  + / 2 * sumn (nua d) (fun a => sumn (nua d) (fun b => sumn (nub d) (fun c => sumn (noa d) (fun i => sumn (nob d) (fun j => eat_aab R a b c i j * cre (va d a) (cre (va d b) (cre (vb d c) (ann (ob j) (ann (oa i) psi)))) D)))))
  + / 4 * sumn (nua d) (fun a => sumn (nub d) (fun b => sumn (nub d) (fun c => sumn (nob d) (fun i => sumn (nob d) (fun j => eat_abb R a b c i j * cre (va d a) (cre (vb d b) (cre (vb d c) (ann (ob j) (ann (ob i) psi)))) D))))).
Definition eat_anti (R : eatv) : Prop :=
  (forall a b i, eat_aa R a b i = - eat_aa R b a i) /\
  (forall a b c i j, eat_aaa R a b c i j = - eat_aaa R a b c j i) /\
  (forall a b c i j, eat_aaa R a b c i j = - eat_aaa R b a c i j) /\
  (forall a b c i j, eat_aaa R a b c i j = - eat_aaa R a c b i j) /\
  (forall a b c i j, eat_aab R a b c i j = - eat_aab R b a c i j) /\
  (forall a b c i j, eat_abb R a b c i j = - eat_abb R a b c j i) /\
  (forall a b c i j, eat_abb R a b c i j = - eat_abb R a c b i j).
Definition eat_root (d : dims) (S Y : eatv) (w : R) : Prop :=
  (forall a, (a < nua d)%nat -> eat_a S a = w * eat_a Y a) /\
  (forall a b i, (a < nua d)%nat -> (b < nua d)%nat -> (i < noa d)%nat -> eat_aa S a b i = w * eat_aa Y a b i) /\
  (forall a b i, (a < nua d)%nat -> (b < nub d)%nat -> (i < nob d)%nat -> eat_ab S a b i = w * eat_ab Y a b i) /\
  (forall a b c i j, (a < nua d)%nat -> (b < nua d)%nat -> (c < nua d)%nat -> (i < noa d)%nat -> (j < noa d)%nat -> eat_aaa S a b c i j = w * eat_aaa Y a b c i j) /\
  (forall a b c i j, (a < nua d)%nat -> (b < nua d)%nat -> (c < nub d)%nat -> (i < noa d)%nat -> (j < nob d)%nat -> eat_aab S a b c i j = w * eat_aab Y a b c i j) /\
  (forall a b c i j, (a < nua d)%nat -> (b < nub d)%nat -> (c < nub d)%nat -> (i < nob d)%nat -> (j < nob d)%nat -> eat_abb S a b c i j = w * eat_abb Y a b c i j).
Definition eat_space (d : dims) (n : nat) : N -> Prop := sector d n 0 1 0 0 2.

(** DIP (4h2p) *)
Definition dipq_op (d : dims) (R : dipqv) (psi : state) : state := fun D =>
  sumn (noa d) (fun i => sumn (nob d) (fun j => dipq_ab R i j * ann (ob j) (ann (oa i) psi) D))
  + / 2 * sumn (noa d) (fun i => sumn (nob d) (fun j => sumn (nua d) (fun a => sumn (noa d) (fun k => dipq_aba R i j a k * cre (va d a) (ann (oa k) (ann (ob j) (ann (oa i) psi))) D))))
  + / 2 * sumn (noa d) (fun i => sumn (nob d) (fun j => sumn (nub d) (fun a => sumn (nob d) (fun k => dipq_abb R i j a k * cre (vb d a) (ann (ob k) (ann (ob j) (ann (oa i) psi))) D))))
  + / 12 * sumn (noa d) (fun i => sumn (nob d) (fun j => sumn (nua d) (fun a => sumn (nua d) (fun b => sumn (noa d) (fun k => sumn (noa d) (fun l => dipq_abaa R i j a b k l * cre (va d a) (cre (va d b) (ann (oa l) (ann (oa k) (ann (ob j) (ann (oa i) psi))))) D))))))
  + / 4 * sumn (noa d) (fun i => sumn (nob d) (fun j => sumn (nua d) (fun a => sumn (nub d) (fun b => sumn (noa d) (fun k => sumn (nob d) (fun l => dipq_abab R i j a b k l * cre (va d a) (cre (vb d b) (ann (ob l) (ann (oa k) (ann (ob j) (ann (oa i) psi))))) D))))))
  + / 12 * sumn (noa d) (fun i => sumn (nob d) (fun j => sumn (nub d) (fun a => sumn (nub d) (fun b => sumn (nob d) (fun k => sumn (nob d) (fun l => dipq_abbb R i j a b k l * cre (vb d a) (cre (vb d b) (ann (ob l) (ann (ob k) (ann (ob j) (ann (oa i) psi))))) D)))))).
Definition dipq_anti (R : dipqv) : Prop :=
  (forall i j a k, dipq_aba R i j a k = - dipq_aba R k j a i) /\
  (forall i j a k, dipq_abb R i j a k = - dipq_abb R i k a j) /\
  (forall i j a b k l, dipq_abaa R i j a b k l = - dipq_abaa R k j a b i l) /\
  (forall i j a b k l, dipq_abaa R i j a b k l = - dipq_abaa R i j a b l k) /\
  (forall i j a b k l, dipq_abaa R i j a b k l = - dipq_abaa R i j b a k l) /\
  (forall i j a b k l, dipq_abab R i j a b k l = - dipq_abab R k j a b i l) /\
  (forall i j a b k l, dipq_abab R i j a b k l = - dipq_abab R i l a b k j) /\
  (forall i j a b k l, dipq_abbb R i j a b k l = - dipq_abbb R i k a b j l) /\
  (forall i j a b k l, dipq_abbb R i j a b k l = - dipq_abbb R i j a b l k) /\
  (forall i j a b k l, dipq_abbb R i j a b k l = - dipq_abbb R i j b a k l).
Definition dipq_root (d : dims) (S Y : dipqv) (w : R) : Prop :=
  (forall i j, (i < noa d)%nat -> (j < nob d)%nat -> dipq_ab S i j = w * dipq_ab Y i j) /\
  (forall i j a k, (i < noa d)%nat -> (j < nob d)%nat -> (a < nua d)%nat -> (k < noa d)%nat -> dipq_aba S i j a k = w * dipq_aba Y i j a k) /\
  (forall i j a k, (i < noa d)%nat -> (j < nob d)%nat -> (a < nub d)%nat -> (k < nob d)%nat -> dipq_abb S i j a k = w * dipq_abb Y i j a k) /\
  (forall i j a b k l, (i < noa d)%nat -> (j < nob d)%nat -> (a < nua d)%nat -> (b < nua d)%nat -> (k < noa d)%nat -> (l < noa d)%nat -> dipq_abaa S i j a b k l = w * dipq_abaa Y i j a b k l) /\
  (forall i j a b k l, (i < noa d)%nat -> (j < nob d)%nat -> (a < nua d)%nat -> (b < nub d)%nat -> (k < noa d)%nat -> (l < nob d)%nat -> dipq_abab S i j a b k l = w * dipq_abab Y i j a b k l) /\
  (forall i j a b k l, (i < noa d)%nat -> (j < nob d)%nat -> (a < nub d)%nat -> (b < nub d)%nat -> (k < nob d)%nat -> (l < nob d)%nat -> dipq_abbb S i j a b k l = w * dipq_abbb Y i j a b k l).
Definition dipq_space (d : dims) (n : nat) : N -> Prop := sector d n 1 0 1 0 4.

(** DEA (4p2h) *)
Definition deaq_op (d : dims) (R : deaqv) (psi : state) : state := fun D =>
  sumn (nua d) (fun a => sumn (nub d) (fun b => deaq_ab R a b * cre (va d a) (cre (vb d b) psi) D))
  + / 2 * sumn (nua d) (fun a => sumn (nub d) (fun b => sumn (nua d) (fun c => sumn (noa d) (fun i => deaq_aba R a b c i * cre (va d a) (cre (vb d b) (cre (va d c) (ann (oa i) psi))) D))))
  + / 2 * sumn (nua d) (fun a => sumn (nub d) (fun b => sumn (nub d) (fun c => sumn (nob d) (fun i => deaq_abb R a b c i * cre (va d a) (cre (vb d b) (cre (vb d c) (ann (ob i) psi))) D))))
  + / 12 * sumn (nua d) (fun a => sumn (nub d) (fun b => sumn (nua d) (fun c => sumn (nua d) (fun e => sumn (noa d) (fun i => sumn (noa d) (fun j => deaq_abaa R a b c e i j * cre (va d a) (cre (vb d b) (cre (va d c) (cre (va d e) (ann (oa j) (ann (oa i) psi))))) D))))))
  + / 4 * sumn (nua d) (fun a => sumn (nub d) (fun b => sumn (nua d) (fun c => sumn (nub d) (fun e => sumn (noa d) (fun i => sumn (nob d) (fun j => deaq_abab R a b c e i j * cre (va d a) (cre (vb d b) (cre (va d c) (cre (vb d e) (ann (ob j) (ann (oa i) psi))))) D))))))
  + / 12 * sumn (nua d) (fun a => sumn (nub d) (fun b => sumn (nub d) (fun c => sumn (nub d) (fun e => sumn (nob d) (fun i => sumn (nob d) (fun j => deaq_abbb R a b c e i j * cre (va d a) (cre (vb d b) (cre (vb d c) (cre (vb d e) (ann (ob j) (ann (ob i) psi))))) D)))))).
Definition deaq_anti (R : deaqv) : Prop :=
  (forall a b c i, deaq_aba R a b c i = - deaq_aba R c b a i) /\
  (forall a b c i, deaq_abb R a b c i = - deaq_abb R a c b i) /\
  (forall a b c e i j, deaq_abaa R a b c e i j = - deaq_abaa R a b c e j i) /\
  (forall a b c e i j, deaq_abaa R a b c e i j = - deaq_abaa R c b a e i j) /\
  (forall a b c e i j, deaq_abaa R a b c e i j = - deaq_abaa R a b e c i j) /\
  (forall a b c e i j, deaq_abab R a b c e i j = - deaq_abab R c b a e i j) /\
  (forall a b c e i j, deaq_abab R a b c e i j = - deaq_abab R a e c b i j) /\
  (forall a b c e i j, deaq_abbb R a b c e i j = - deaq_abbb R a b c e j i) /\
  (forall a b c e i j, deaq_abbb R a b c e i j = - deaq_abbb R a c b e i j) /\
  (forall a b c e i j, deaq_abbb R a b c e i j = - deaq_abbb R a b e c i j).
Definition deaq_root (d : dims) (S Y : deaqv) (w : R) : Prop :=
  (forall a b, (a < nua d)%nat -> (b < nub d)%nat -> deaq_ab S a b = w * deaq_ab Y a b) /\
  (forall a b c i, (a < nua d)%nat -> (b < nub d)%nat -> (c < nua d)%nat -> (i < noa d)%nat -> deaq_aba S a b c i = w * deaq_aba Y a b c i) /\
  (forall a b c i, (a < nua d)%nat -> (b < nub d)%nat -> (c < nub d)%nat -> (i < nob d)%nat -> deaq_abb S a b c i = w * deaq_abb Y a b c i) /\
  (forall a b c e i j, (a < nua d)%nat -> (b < nub d)%nat -> (c < nua d)%nat -> (e < nua d)%nat -> (i < noa d)%nat -> (j < noa d)%nat -> deaq_abaa S a b c e i j = w * deaq_abaa Y a b c e i j) /\
  (forall a b c e i j, (a < nua d)%nat -> (b < nub d)%nat -> (c < nua d)%nat -> (e < nub d)%nat -> (i < noa d)%nat -> (j < nob d)%nat -> deaq_abab S a b c e i j = w * deaq_abab Y a b c e i j) /\
  (forall a b c e i j, (a < nua d)%nat -> (b < nub d)%nat -> (c < nub d)%nat -> (e < nub d)%nat -> (i < nob d)%nat -> (j < nob d)%nat -> deaq_abbb S a b c e i j = w * deaq_abbb Y a b c e i j).
Definition deaq_space (d : dims) (n : nat) : N -> Prop := sector d n 0 1 0 1 2.

(** spin-flip (2,3) *)
Definition sft_op (d : dims) (R : sftv) (psi : state) : state := fun D =>
  sumn (nub d) (fun a => sumn (noa d) (fun i => sft_b R a i * cre (vb d a) (ann (oa i) psi) D))
  + / 2 * sumn (nua d) (fun a => sumn (nub d) (fun b => sumn (noa d) (fun i => sumn (noa d) (fun j => sft_ab R a b i j * cre (va d a) (cre (vb d b) (ann (oa j) (ann (oa i) psi))) D))))
  + / 2 * sumn (nub d) (fun a => sumn (nub d) (fun b => sumn (nob d) (fun i => sumn (noa d) (fun j => sft_bb R a b i j * cre (vb d a) (cre (vb d b) (ann (oa j) (ann (ob i) psi))) D))))
  + / 12 * sumn (nua d) (fun a => sumn (nua d) (fun b => sumn (nub d) (fun c => sumn (noa d) (fun i => sumn (noa d) (fun j => sumn (noa d) (fun k => sft_aab R a b c i j k * cre (va d a) (cre (va d b) (cre (vb d c) (ann (oa k) (ann (oa j) (ann (oa i) psi))))) D))))))
  + / 4 * sumn (nua d) (fun a => sumn (nub d) (fun b => sumn (nub d) (fun c => sumn (noa d) (fun i => sumn (nob d) (fun j => sumn (noa d) (fun k => sft_abb R a b c i j k * cre (va d a) (cre (vb d b) (cre (vb d c) (ann (oa k) (ann (ob j) (ann (oa i) psi))))) D))))))
  + / 12 * sumn (nub d) (fun a => sumn (nub d) (fun b => sumn (nub d) (fun c => sumn (nob d) (fun i => sumn (nob d) (fun j => sumn (noa d) (fun k => sft_bbb R a b c i j k * cre (vb d a) (cre (vb d b) (cre (vb d c) (ann (oa k) (ann (ob j) (ann (ob i) psi))))) D)))))).
Definition sft_anti (R : sftv) : Prop :=
  (forall a b i j, sft_ab R a b i j = - sft_ab R a b j i) /\
  (forall a b i j, sft_bb R a b i j = - sft_bb R b a i j) /\
  (forall a b c i j k, sft_aab R a b c i j k = - sft_aab R a b c j i k) /\
  (forall a b c i j k, sft_aab R a b c i j k = - sft_aab R a b c i k j) /\
  (forall a b c i j k, sft_aab R a b c i j k = - sft_aab R b a c i j k) /\
  (forall a b c i j k, sft_abb R a b c i j k = - sft_abb R a b c k j i) /\
  (forall a b c i j k, sft_abb R a b c i j k = - sft_abb R a c b i j k) /\
  (forall a b c i j k, sft_bbb R a b c i j k = - sft_bbb R a b c j i k) /\
  (forall a b c i j k, sft_bbb R a b c i j k = - sft_bbb R b a c i j k) /\
  (forall a b c i j k, sft_bbb R a b c i j k = - sft_bbb R a c b i j k).
Definition sft_root (d : dims) (S Y : sftv) (w : R) : Prop :=
  (forall a i, (a < nub d)%nat -> (i < noa d)%nat -> sft_b S a i = w * sft_b Y a i) /\
  (forall a b i j, (a < nua d)%nat -> (b < nub d)%nat -> (i < noa d)%nat -> (j < noa d)%nat -> sft_ab S a b i j = w * sft_ab Y a b i j) /\
  (forall a b i j, (a < nub d)%nat -> (b < nub d)%nat -> (i < nob d)%nat -> (j < noa d)%nat -> sft_bb S a b i j = w * sft_bb Y a b i j) /\
  (forall a b c i j k, (a < nua d)%nat -> (b < nua d)%nat -> (c < nub d)%nat -> (i < noa d)%nat -> (j < noa d)%nat -> (k < noa d)%nat -> sft_aab S a b c i j k = w * sft_aab Y a b c i j k) /\
  (forall a b c i j k, (a < nua d)%nat -> (b < nub d)%nat -> (c < nub d)%nat -> (i < noa d)%nat -> (j < nob d)%nat -> (k < noa d)%nat -> sft_abb S a b c i j k = w * sft_abb Y a b c i j k) /\
  (forall a b c i j k, (a < nub d)%nat -> (b < nub d)%nat -> (c < nub d)%nat -> (i < nob d)%nat -> (j < nob d)%nat -> (k < noa d)%nat -> sft_bbb S a b c i j k = w * sft_bbb Y a b c i j k).
Definition sft_space (d : dims) (n : nat) : N -> Prop := sector d n 1 0 0 1 3.
