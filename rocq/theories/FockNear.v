(** States that vanish on the reference and on all singly and doubly excited determinants (proof support). *)
From Coq Require Import Reals Arith NArith List Bool Lia Lra FunctionalExtensionality.
From Verif Require Import RSum TensorObjs FockSpec FockCar FockCcSpec FockExp.
Import ListNotations.
Local Open Scope R_scope.

(** A string of two or four operators picks one determinant *)
Lemma along1_at D i a : bit D i = true -> bit D a = false -> exists s, s * s = 1 /\ forall psi, cre i (ann a psi) D = s * psi (on (off D i) a).
Proof.
  intros Bi Ba. exists (phase i D * phase a (off D i)). split.
  - replace (phase i D * phase a (off D i) * (phase i D * phase a (off D i))) with ((phase i D * phase i D) * (phase a (off D i) * phase a (off D i))) by ring. rewrite !phase_sq. ring.
  - intros psi. unfold cre, ann. rewrite Bi. rewrite bit_off, Ba. cbn [andb]. ring.
Qed.
Lemma along2_at D i j a b : bit D i = true -> bit D j = true -> i <> j -> bit D a = false -> bit D b = false -> a <> b ->
  exists s, s * s = 1 /\ forall psi, cre i (cre j (ann b (ann a psi))) D = s * psi (on (on (off (off D i) j) b) a).
Proof.
  intros Bi Bj Nij Ba Bb Nab. exists (phase i D * phase j (off D i) * (phase b (off (off D i) j) * phase a (on (off (off D i) j) b))). split.
  - set (x := phase i D). set (y := phase j _). set (z := phase b _). set (w := phase a _).
    replace (x * y * (z * w) * (x * y * (z * w))) with ((x * x) * (y * y) * ((z * z) * (w * w))) by ring. unfold x, y, z, w. rewrite !phase_sq. ring.
  - intros psi. unfold cre, ann. rewrite Bi. rewrite bit_off, Bj, (eqb_neq i j Nij). cbn [andb negb]. rewrite !bit_off, Bb. cbn [andb].
    rewrite bit_on, !bit_off, Ba, (eqb_neq b a) by auto. cbn [andb orb]. ring.
Qed.
Lemma unit_cancel s x : s * s = 1 -> s * x = 0 -> x = 0.
Proof. intros Hs Hx. replace x with (s * s * x) by (rewrite Hs; ring). rewrite Rmult_assoc, Hx. ring. Qed.


Section N.
Variables (d : dims) (n : nat) (W : state).
Hypothesis En : (noa d + nua d = n)%nat.
Hypothesis En' : (nob d + nub d = n)%nat.
Notation ref := (reference (noa d) (nob d)).
Notation good D := (W D = 0).
Notation nocc so := (match so with true => noa d | false => nob d end).
Definition sp (b : bool) : nat -> nat := if b then al else be.
Lemma sp_bit b p : bit ref (sp b p) = Nat.ltb p (nocc b). Proof. destruct b; [apply ref_al|apply ref_be]. Qed.
Lemma sp_inj b c p q : sp b p = sp c q -> b = c /\ p = q.
Proof. destruct b, c; cbn [sp]; unfold al, be; intros; (split; [reflexivity || (exfalso; lia)|lia]). Qed.
Lemma good1 b a i : (i < nocc b)%nat -> (a < n - nocc b)%nat -> (along1 ref (nocc b) (sp b) W a i = 0 <-> good (on (off ref (sp b i)) (sp b (nocc b + a)))).
Proof.
  intros Hi Ha. destruct (along1_at ref (sp b i) (sp b (nocc b + a))) as (s & Hs & Hp).
  - rewrite sp_bit. now apply Nat.ltb_lt.
  - rewrite sp_bit. apply Nat.ltb_ge. lia.
  - unfold along1. rewrite !Hp. split; intros Hg; [now apply unit_cancel with (s := s)|rewrite Hg; ring].
Qed.
Lemma good2 b c a a' i i' : (i < nocc b)%nat -> (a < n - nocc b)%nat -> (i' < nocc c)%nat -> (a' < n - nocc c)%nat -> (b = c -> i <> i' /\ a <> a') ->
  (along2 ref (nocc b) (nocc c) (sp b) (sp c) W a a' i i' = 0 <-> good (on (on (off (off ref (sp b i)) (sp c i')) (sp c (nocc c + a'))) (sp b (nocc b + a)))).
Proof.
  intros Hi Ha Hi' Ha' NE. destruct (along2_at ref (sp b i) (sp c i') (sp b (nocc b + a)) (sp c (nocc c + a'))) as (s & Hs & Hp).
  - rewrite sp_bit. now apply Nat.ltb_lt.
  - rewrite sp_bit. now apply Nat.ltb_lt.
  - intros X. apply sp_inj in X as (Q1 & Q2). specialize (NE Q1). lia.
  - rewrite sp_bit. apply Nat.ltb_ge. lia.
  - rewrite sp_bit. apply Nat.ltb_ge. lia.
  - intros X. apply sp_inj in X as (Q1 & Q2). specialize (NE Q1). subst c. lia.
  - unfold along2. rewrite !Hp. split; intros Hg; [now apply unit_cancel with (s := s)|rewrite Hg; ring].
Qed.
Lemma along2_swap b c a a' i i' : along2 ref (nocc b) (nocc c) (sp b) (sp c) W a a' i i' = along2 ref (nocc c) (nocc b) (sp c) (sp b) W a' a i' i.
Proof.
  unfold along2. rewrite cre_cre. transitivity (- cre (sp c i') (cre (sp b i) (fun D => - ann (sp b (nocc b + a)) (ann (sp c (nocc c + a')) W) D)) ref).
  - f_equal. f_equal. f_equal. apply ext_state; intros D. apply ann_ann.
  - replace (cre (sp b i) (fun D => - ann (sp b (nocc b + a)) (ann (sp c (nocc c + a')) W) D)) with (fun D => - cre (sp b i) (ann (sp b (nocc b + a)) (ann (sp c (nocc c + a')) W)) D)
      by (apply ext_state; intros; now rewrite cre_neg). rewrite cre_neg. ring.
Qed.
Lemma along2_same so a a' i : along2 ref (nocc so) (nocc so) (sp so) (sp so) W a a' i i = 0.
Proof. unfold along2. match goal with |- ?x = 0 => assert (X : x = - x) by (apply cre_cre) end. lra. Qed.
Lemma along2_same' so a i i' : along2 ref (nocc so) (nocc so) (sp so) (sp so) W a a i i' = 0.
Proof.
  unfold along2. replace (ann (sp so (nocc so + a)) (ann (sp so (nocc so + a)) W)) with (fun _ : N => 0).
  - unfold cre. destruct (bit _ _); [destruct (bit _ _)|]; ring.
  - apply ext_state; intros D. match goal with |- _ = ?x => assert (X : x = - x) by (apply ann_ann) end. lra.
Qed.
Lemma move_good D D' : moved n D D' -> exists b p q, (p < n)%nat /\ (q < n)%nat /\ bit D (sp b p) = true /\ bit D (sp b q) = false /\ D' = on (off D (sp b p)) (sp b q).
Proof. intros (so & p & q & [->| ->] & Hp & Hq & B1 & B2 & ->); [exists true|exists false]; exists p, q; auto. Qed.
Lemma nocc_le b : (nocc b <= n)%nat. Proof. destruct b; lia. Qed.
Lemma near_good : good ref -> (forall b a i, (i < nocc b)%nat -> (a < n - nocc b)%nat -> along1 ref (nocc b) (sp b) W a i = 0) ->
  (forall b c a a' i i', (i < nocc b)%nat -> (a < n - nocc b)%nat -> (i' < nocc c)%nat -> (a' < n - nocc c)%nat -> along2 ref (nocc b) (nocc c) (sp b) (sp c) W a a' i i' = 0) ->
  forall D, near n ref D -> good D.
Proof.
  intros G0 Z1 Z2.
  assert (G1 : forall b p q, (p < nocc b)%nat -> (nocc b <= q)%nat -> (q < n)%nat -> good (on (off ref (sp b p)) (sp b q))).
  { intros b p q Hp Hq Hn. assert (G := proj1 (good1 b (q - nocc b) p Hp ltac:(lia)) (Z1 b (q - nocc b)%nat p Hp ltac:(lia))).
    now replace (nocc b + (q - nocc b))%nat with q in G by lia. }
  assert (G2 : forall b c p q p' q', (p < nocc b)%nat -> (nocc b <= q)%nat -> (q < n)%nat -> (p' < nocc c)%nat -> (nocc c <= q')%nat -> (q' < n)%nat ->
    (b = c -> p <> p' /\ q <> q') -> good (on (on (off (off ref (sp b p)) (sp c p')) (sp c q')) (sp b q))).
  { intros b c p q p' q' Hp Hq Hn Hp' Hq' Hn' NE.
    assert (G := proj1 (good2 b c (q - nocc b) (q' - nocc c) p p' Hp ltac:(lia) Hp' ltac:(lia) ltac:(intros ->; specialize (NE eq_refl); lia))
      (Z2 b c (q - nocc b)%nat (q' - nocc c)%nat p p' Hp ltac:(lia) Hp' ltac:(lia))).
    replace (nocc b + (q - nocc b))%nat with q in G by lia. now replace (nocc c + (q' - nocc c))%nat with q' in G by lia. }
  intros D [->|[M|(D1 & M & M')]]; [exact G0| |].
  - apply move_good in M as (b & p & q & Hp & Hq & B1 & B2 & ->). rewrite sp_bit in B1, B2. apply Nat.ltb_lt in B1. apply Nat.ltb_ge in B2. now apply G1.
  - apply move_good in M as (b & p & q & Hp & Hq & B1 & B2 & ->). apply move_good in M' as (c & p' & q' & Hp' & Hq' & B1' & B2' & ->).
    rewrite bit_on, bit_off in B1', B2'.
    assert (B1n := B1). assert (B2n := B2). rewrite sp_bit in B1n, B2n. apply Nat.ltb_lt in B1n. apply Nat.ltb_ge in B2n.
    destruct (Nat.eqb_spec (sp b q) (sp c p')) as [Q|Q].
    + apply sp_inj in Q as (<- & <-). rewrite off_on_same by (now rewrite bit_off, B2).
      destruct (Nat.eqb_spec (sp b p) (sp b q')) as [Q'|Q'].
      * rewrite <- Q', on_off_same by exact B1. exact G0.
      * apply Bool.orb_false_elim in B2' as (B3 & B4). cbn [negb] in B4. rewrite andb_true_r, sp_bit in B4. apply Nat.ltb_ge in B4. now apply G1.
    + cbn [Datatypes.orb] in B1'. apply andb_prop in B1' as (B3 & B4). assert (B3n := B3). rewrite sp_bit in B3n. apply Nat.ltb_lt in B3n.
      apply Bool.orb_false_elim in B2' as (B5 & B6). apply Nat.eqb_neq in B5.
      assert (B4' : sp b p <> sp c p') by (intros Q2; rewrite Q2, Nat.eqb_refl in B4; discriminate).
      rewrite <- on_off by auto. 
      destruct (Nat.eqb_spec (sp b p) (sp c q')) as [Q'|Q'].
      * rewrite <- Q'. rewrite (on_on _ (sp b q)), (off_off _ (sp b p)), on_off_same by (rewrite bit_off, B1; cbn [andb]; now rewrite (eqb_neq _ _ (not_eq_sym B4'))).
        apply sp_inj in Q' as (<- & _). now apply G1.
      * cbn [negb] in B6. rewrite andb_true_r, sp_bit in B6. apply Nat.ltb_ge in B6.
        rewrite (on_on _ (sp b q)). apply G2; try assumption. intros <-. split; intros ->; congruence.
Qed.
Lemma moved_ref b p q : (p < nocc b)%nat -> (nocc b <= q)%nat -> (q < n)%nat -> moved n ref (on (off ref (sp b p)) (sp b q)).
Proof.
  intros Hp Hq Hn. assert (L := nocc_le b). exists (sp b), p, q. rewrite !sp_bit. repeat split; try lia; [destruct b; auto|now apply Nat.ltb_lt|now apply Nat.ltb_ge].
Qed.
Lemma near_along1 : (forall D, near n ref D -> good D) -> forall b a i, (i < nocc b)%nat -> (a < n - nocc b)%nat -> along1 ref (nocc b) (sp b) W a i = 0.
Proof. intros G b a i Hi Ha. apply good1; [lia|lia|]. apply G. right; left. apply moved_ref; lia. Qed.
Lemma near_along2 : (forall D, near n ref D -> good D) -> forall b c a a' i i', (i < nocc b)%nat -> (a < n - nocc b)%nat -> (i' < nocc c)%nat -> (a' < n - nocc c)%nat ->
  along2 ref (nocc b) (nocc c) (sp b) (sp c) W a a' i i' = 0.
Proof.
  intros G b c a a' i i' Hi Ha Hi' Ha'.
  assert (K : (b = c -> i <> i' /\ a <> a') -> along2 ref (nocc b) (nocc c) (sp b) (sp c) W a a' i i' = 0).
  { intros NE. apply good2; [lia|lia|lia|lia|exact NE|]. apply G. right; right.
    exists (on (off ref (sp c i')) (sp c (nocc c + a'))). split; [apply moved_ref; lia|].
    assert (L := nocc_le b). assert (N1 : sp b i <> sp c i') by (intros Q; apply sp_inj in Q as (Q1 & Q2); specialize (NE Q1); lia).
    assert (N2 : sp b (nocc b + a) <> sp c (nocc c + a')) by (intros Q; apply sp_inj in Q as (Q1 & Q2); specialize (NE Q1); subst c; lia).
    assert (Bi : bit ref (sp b i) = true) by (rewrite sp_bit; now apply Nat.ltb_lt). assert (Ba : bit ref (sp b (nocc b + a)) = false) by (rewrite sp_bit; apply Nat.ltb_ge; lia).
    assert (Ba' : bit ref (sp c (nocc c + a')) = false) by (rewrite sp_bit; apply Nat.ltb_ge; lia).
    exists (sp b), i, (nocc b + a)%nat. repeat split; try lia; [destruct b; auto| | |].
    - rewrite bit_on, bit_off, Bi. rewrite (eqb_neq _ _ (not_eq_sym N1)). cbn [andb negb]. apply Bool.orb_true_r.
    - rewrite bit_on, bit_off, Ba. rewrite (eqb_neq _ _ (not_eq_sym N2)). reflexivity.
    - f_equal. rewrite <- on_off by (intros Q; rewrite Q in Bi; congruence). now rewrite off_off. }
  destruct (bool_dec b c) as [<-|NEb]; [destruct (Nat.eq_dec i i') as [<-|Ni]; [apply along2_same|]; destruct (Nat.eq_dec a a') as [<-|Na]; [apply along2_same'|]|]; apply K; [auto|congruence].
Qed.
(** All spin cases *)
Definition flat : Prop := W ref = 0 /\
  (forall a i, (a < nua d)%nat -> (i < noa d)%nat -> along1 ref (noa d) al W a i = 0) /\
  (forall a i, (a < nub d)%nat -> (i < nob d)%nat -> along1 ref (nob d) be W a i = 0) /\
  (forall a b i j, (a < nua d)%nat -> (b < nua d)%nat -> (i < noa d)%nat -> (j < noa d)%nat -> along2 ref (noa d) (noa d) al al W a b i j = 0) /\
  (forall a b i j, (a < nua d)%nat -> (b < nub d)%nat -> (i < noa d)%nat -> (j < nob d)%nat -> along2 ref (noa d) (nob d) al be W a b i j = 0) /\
  (forall a b i j, (a < nub d)%nat -> (b < nub d)%nat -> (i < nob d)%nat -> (j < nob d)%nat -> along2 ref (nob d) (nob d) be be W a b i j = 0).
Lemma near_flat : (forall D, near n ref D -> W D = 0) <-> flat.
Proof.
  split.
  - intros G. split; [apply G; now left|]. split; [intros; apply (near_along1 G true); lia|]. split; [intros; apply (near_along1 G false); lia|].
    split; [intros; apply (near_along2 G true true); lia|]. split; [intros; apply (near_along2 G true false); lia|]. intros; apply (near_along2 G false false); lia.
  - intros (Z0 & Za & Zb & Zaa & Zab & Zbb). apply near_good; [exact Z0| |].
    + intros b a i Hi Ha. destruct b; [apply Za|apply Zb]; lia.
    + intros b c a a' i i' Hi Ha Hi' Ha'. destruct b, c; [apply Zaa; lia|apply Zab; lia| |apply Zbb; lia]. rewrite (along2_swap false true). apply Zab; lia.
Qed.
End N.
