(** Anticommutation rules of the operators of FockSpec.v and their action on the reference determinant. *)
From Coq Require Import Reals Arith NArith List Bool Lia Lra FunctionalExtensionality.
From Verif Require Import RSum FockSpec.
Import ListNotations.
Local Open Scope R_scope.

Notation bit D p := (N.testbit D (N.of_nat p)).
Notation on D p := (N.setbit D (N.of_nat p)).
Notation off D p := (N.clearbit D (N.of_nat p)).

Lemma bit_on D p q : bit (on D p) q = (Nat.eqb p q || bit D q)%bool.
Proof. rewrite N.setbit_eqb. f_equal. destruct (Nat.eqb_spec p q); [subst; apply N.eqb_refl|]. apply N.eqb_neq. lia. Qed.
Lemma bit_off D p q : bit (off D p) q = (bit D q && negb (Nat.eqb p q))%bool.
Proof. rewrite N.clearbit_eqb. f_equal. f_equal. destruct (Nat.eqb_spec p q); [subst; apply N.eqb_refl|]. apply N.eqb_neq. lia. Qed.
Lemma bits_eq D E : (forall q : nat, bit D q = bit E q) -> D = E.
Proof. intros H. apply N.bits_inj. intros q. rewrite <- (N2Nat.id q). apply H. Qed.
Lemma on_on D p q : on (on D p) q = on (on D q) p.
Proof. apply bits_eq. intros x. rewrite !bit_on. destruct (Nat.eqb p x), (Nat.eqb q x); reflexivity. Qed.
Lemma off_off D p q : off (off D p) q = off (off D q) p.
Proof. apply bits_eq. intros x. rewrite !bit_off. destruct (Nat.eqb p x), (Nat.eqb q x), (bit D x); reflexivity. Qed.
Lemma on_off D p q : p <> q -> on (off D p) q = off (on D q) p.
Proof. intros N. apply bits_eq. intros x. rewrite bit_on, !bit_off, bit_on. destruct (Nat.eqb_spec p x), (Nat.eqb_spec q x), (bit D x); subst; try reflexivity; now contradiction N. Qed.
Lemma on_off_same D p : bit D p = true -> on (off D p) p = D.
Proof. intros H. apply bits_eq. intros x. rewrite bit_on, bit_off. destruct (Nat.eqb_spec p x); subst; [now rewrite H|]. now destruct (bit D x). Qed.
Lemma off_on_same D p : bit D p = false -> off (on D p) p = D.
Proof. intros H. apply bits_eq. intros x. rewrite bit_off, bit_on. destruct (Nat.eqb_spec p x); subst; [now rewrite H|]. now destruct (bit D x). Qed.

(** Counting *)
Lemma front_on D p : bit D p = false -> forall q, in_front q (on D p) = (in_front q D + if Nat.ltb p q then 1 else 0)%nat.
Proof.
  intros H q. unfold in_front. induction q as [|q IH]; [reflexivity|].
  rewrite seq_S, !filter_app, !app_length, IH. cbn [filter]. rewrite bit_on. simpl Nat.add.
  destruct (Nat.eqb_spec p q); [subst; rewrite H|]; cbn [orb].
  - destruct (Nat.ltb_spec q q); [lia|]. destruct (Nat.ltb_spec q (S q)); [cbn; lia|lia].
  - destruct (Nat.ltb_spec p q), (Nat.ltb_spec p (S q)); destruct (bit D q); cbn [length app]; lia.
Qed.
Lemma front_off D p : bit D p = true -> forall q, in_front q D = (in_front q (off D p) + if Nat.ltb p q then 1 else 0)%nat.
Proof. intros H q. rewrite <- (on_off_same D p H) at 1. apply front_on. rewrite bit_off, Nat.eqb_refl. now destruct (bit D p). Qed.
Lemma phase_on D p q : bit D p = false -> phase q (on D p) = (if Nat.ltb p q then -1 else 1) * phase q D.
Proof. intros H. unfold phase. rewrite front_on by exact H. rewrite pow_add. destruct (Nat.ltb p q); simpl; ring. Qed.
Lemma phase_off D p q : bit D p = true -> phase q (off D p) = (if Nat.ltb p q then -1 else 1) * phase q D.
Proof. intros H. unfold phase. rewrite (front_off D p H q). rewrite pow_add. destruct (Nat.ltb p q); simpl; ring. Qed.
Lemma phase_sq p D : phase p D * phase p D = 1.
Proof. unfold phase. rewrite <- pow_add, <- (Rmult_1_l (_ ^ _)). replace (in_front p D + in_front p D)%nat with (2 * in_front p D)%nat by lia. rewrite pow_1_even. ring. Qed.

Lemma ltb_flip p q : p <> q -> Nat.ltb p q = negb (Nat.ltb q p).
Proof. intros N. destruct (Nat.ltb_spec p q), (Nat.ltb_spec q p); try reflexivity; lia. Qed.
Lemma eqb_neq p q : p <> q -> Nat.eqb p q = false. Proof. apply Nat.eqb_neq. Qed.

Lemma ann_ann p q psi D : ann p (ann q psi) D = - ann q (ann p psi) D.
Proof.
  destruct (Nat.eq_dec p q) as [->|NE].
  - unfold ann. destruct (bit D q); [ring|]. rewrite bit_on, Nat.eqb_refl. cbn [orb]. ring.
  - unfold ann. rewrite !bit_on, (eqb_neq p q NE), (eqb_neq q p) by auto. cbn [orb].
    destruct (bit D p) eqn:Bp, (bit D q) eqn:Bq; try ring.
    rewrite (phase_on D p q Bp), (phase_on D q p Bq), (on_on D q p), (ltb_flip p q NE). destruct (Nat.ltb q p); cbn [negb]; ring.
Qed.
Lemma cre_cre p q psi D : cre p (cre q psi) D = - cre q (cre p psi) D.
Proof.
  destruct (Nat.eq_dec p q) as [->|NE].
  - unfold cre. destruct (bit D q); [|ring]. rewrite bit_off, Nat.eqb_refl. cbn [negb]. rewrite andb_false_r. ring.
  - unfold cre. rewrite !bit_off, (eqb_neq p q NE), (eqb_neq q p) by auto. cbn [negb]. rewrite !andb_true_r.
    destruct (bit D p) eqn:Bp, (bit D q) eqn:Bq; try ring.
    rewrite (phase_off D p q Bp), (phase_off D q p Bq), (off_off D q p), (ltb_flip p q NE). destruct (Nat.ltb q p); cbn [negb]; ring.
Qed.
Lemma ann_cre p q psi D : ann p (cre q psi) D = (if Nat.eqb p q then psi D else 0) - cre q (ann p psi) D.
Proof.
  destruct (Nat.eqb_spec p q) as [->|NE].
  - unfold ann, cre. rewrite bit_on, bit_off, Nat.eqb_refl. cbn [orb negb]. rewrite andb_false_r. destruct (bit D q) eqn:B.
    + rewrite on_off_same by exact B. rewrite phase_off by exact B. rewrite Nat.ltb_irrefl.
      replace (phase q D * (1 * phase q D * psi D)) with (phase q D * phase q D * psi D) by ring. rewrite phase_sq. ring.
    + rewrite off_on_same by exact B. rewrite phase_on by exact B. rewrite Nat.ltb_irrefl.
      replace (phase q D * (1 * phase q D * psi D)) with (phase q D * phase q D * psi D) by ring. rewrite phase_sq. ring.
  - unfold ann, cre. rewrite bit_on, bit_off, (eqb_neq p q NE), (eqb_neq q p) by auto. cbn [orb negb]. rewrite andb_true_r.
    destruct (bit D p) eqn:Bp, (bit D q) eqn:Bq; try ring.
    rewrite (phase_on D p q Bp), (phase_off D q p Bq), (on_off D q p) by auto. rewrite (ltb_flip p q NE). destruct (Nat.ltb q p); cbn [negb]; ring.
Qed.
Lemma cre_ann p q psi D : cre p (ann q psi) D = (if Nat.eqb p q then psi D else 0) - ann q (cre p psi) D.
Proof. rewrite ann_cre. rewrite (Nat.eqb_sym q p). destruct (Nat.eqb p q); ring. Qed.

(** The reference *)
Lemma bit_occupied l q : bit (occupied l) q = existsb (Nat.eqb q) l.
Proof.
  induction l as [|p l IH]; cbn [occupied fold_right existsb]; [apply N.bits_0|]. fold (occupied l). rewrite bit_on, IH. now rewrite Nat.eqb_sym.
Qed.
Lemma ref_al na nb p : bit (reference na nb) (al p) = Nat.ltb p na.
Proof.
  unfold reference. rewrite bit_occupied, existsb_app. apply eq_true_iff_eq. rewrite orb_true_iff, !existsb_exists, Nat.ltb_lt. split.
  - intros [(x & H & E)|(x & H & E)]; apply in_map_iff in H as (y & <- & Hy); apply in_seq in Hy; apply Nat.eqb_eq in E; unfold al, be in E; lia.
  - intros H. left. exists (al p). split; [apply in_map, in_seq; lia|apply Nat.eqb_refl].
Qed.
Lemma ref_be na nb p : bit (reference na nb) (be p) = Nat.ltb p nb.
Proof.
  unfold reference. rewrite bit_occupied, existsb_app. apply eq_true_iff_eq. rewrite orb_true_iff, !existsb_exists, Nat.ltb_lt. split.
  - intros [(x & H & E)|(x & H & E)]; apply in_map_iff in H as (y & <- & Hy); apply in_seq in Hy; apply Nat.eqb_eq in E; unfold al, be in E; lia.
  - intros H. right. exists (be p). split; [apply in_map, in_seq; lia|apply Nat.eqb_refl].
Qed.
Lemma pure_ann D0 p : bit D0 p = false -> ann p (pure D0) = fun _ => 0.
Proof.
  intros H. apply functional_extensionality. intros D. unfold ann, pure. destruct (bit D p) eqn:B; [reflexivity|].
  destruct (N.eqb_spec (on D p) D0) as [E|E]; [|ring]. exfalso. rewrite <- E, bit_on, Nat.eqb_refl in H. discriminate.
Qed.
Lemma pure_cre D0 p : bit D0 p = true -> cre p (pure D0) = fun _ => 0.
Proof.
  intros H. apply functional_extensionality. intros D. unfold cre, pure. destruct (bit D p) eqn:B; [|reflexivity].
  destruct (N.eqb_spec (off D p) D0) as [E|E]; [|ring]. exfalso. rewrite <- E, bit_off, Nat.eqb_refl in H. cbn in H. rewrite andb_false_r in H. discriminate.
Qed.
