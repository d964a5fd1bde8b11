(** Moving the exponential of single excitations through the Hamiltonian: H exp(T1) = exp(T1) H~ with H~ of the same form (proof support). *)
From Coq Require Import Reals Arith NArith List Bool Lia Lra FunctionalExtensionality.
From Verif Require Import RSum IntegralsModel TensorObjs FockSpec FockCar FockWick FockCcSpec FockExp FockLevel FockState FockSector.
Import ListNotations.
Local Open Scope R_scope.

(** * Exponentials *)
Definition dead (X : oper) (m : nat) : Prop := forall psi, power X m psi = fun _ => 0.
Lemma expo_dpow X m psi D : expo X m psi D = sumn (S m) (fun k => dpow X k psi D). Proof. reflexivity. Qed.
Lemma expo_eq X m psi : expo X m psi = fun D => sumn (S m) (fun k => dpow X k psi D). Proof. reflexivity. Qed.
Lemma lin_sub X f g : linear X -> X (fun D => f D - g D) = fun D => X f D - X g D.
Proof. intros L. replace (fun D : N => f D - g D) with (fun D : N => 1 * f D + (-1) * g D) by (apply ext_state; intros; ring). rewrite L. apply ext_state; intros; ring. Qed.
Lemma expo_linear X m : linear X -> linear (expo X m).
Proof. intros L. apply (sum_linear (S m) (fun k => dpow X k)). intros. now apply dpow_linear. Qed.
Lemma commute_expo X Y m : linear X -> commute X Y -> commute X (expo Y m).
Proof.
  intros L C psi. rewrite !expo_eq. rewrite (lin_sum X (S m) (fun k => dpow Y k psi) L). apply ext_state; intros D. apply sumn_ext; intros k _. now rewrite (commute_dpow X Y k L C).
Qed.
Lemma zero_state_lin X : linear X -> X (fun _ => 0) = fun _ => 0. Proof. apply lin_zero. Qed.
(** A commutator that commutes *)
Lemma inter_dpow A X C k psi : linear A -> linear X -> (forall f D, A (X f) D = X (A f) D + C f D) -> commute C X ->
  forall D, A (dpow X (S k) psi) D = dpow X (S k) (A psi) D + dpow X k (C psi) D.
Proof.
  intros LA LX HC CC.
  assert (G : forall k D, A (power X (S k) psi) D = power X (S k) (A psi) D + INR (S k) * power X k (C psi) D).
  { clear k. induction k as [|k IH]; intros D.
    - cbn [power Nat.iter]. rewrite HC. cbn. ring.
    - rewrite (power_S X (S k) psi), HC. replace (A (power X (S k) psi)) with (fun E => power X (S k) (A psi) E + INR (S k) * power X k (C psi) E) by (apply ext_state; intros; now rewrite IH).
      rewrite (lin_add X _ _ LX), (lin_scal X _ _ LX). rewrite <- !power_S. replace (C (power X (S k) psi)) with (power X (S k) (C psi)).
      + rewrite (S_INR (S k)). ring.
      + clear -CC. induction (S k) as [|j IH]; [reflexivity|]. now rewrite !power_S, IH, CC. }
  intros D. unfold dpow at 1. rewrite (lin_scal A _ _ LA), G. unfold dpow. rewrite <- (fact_inv k). rewrite Rmult_plus_distr_l. ring.
Qed.
Lemma inter_expo A X C m psi : linear A -> linear X -> linear C -> (forall f D, A (X f) D = X (A f) D + C f D) -> commute C X -> dead X m ->
  A (expo X m psi) = expo X m (fun D => A psi D + C psi D).
Proof.
  intros LA LX LC HC CC HD. apply ext_state; intros D. rewrite (lin_add _ (A psi) (C psi) (expo_linear X m LX)). rewrite (expo_eq X m psi).
  rewrite (lin_sum A (S m) (fun k => dpow X k psi) LA). rewrite sumn_S_l. rewrite (sumn_ext m _ (fun k => dpow X (S k) (A psi) D + dpow X k (C psi) D)) by (intros; now apply inter_dpow).
  rewrite sumn_plus. rewrite !expo_dpow. rewrite (sumn_S_l m (fun k => dpow X k (A psi) D)).
  cbn [sumn]. replace (dpow X m (C psi) D) with 0 by (unfold dpow; rewrite HD; ring).
  replace (A (dpow X 0 psi) D) with (dpow X 0 (A psi) D); [ring|]. unfold dpow. cbn [power Nat.iter]. now rewrite (lin_scal A _ _ LA).
Qed.
(** exp(X + Y) = exp(X) exp(Y) *)
Lemma sumn_last n f : sumn (S n) f = sumn n f + f n. Proof. reflexivity. Qed.
Lemma sum_tri N (f : nat -> nat -> R) : sumn N (fun k => sumn (S k) (fun i => f i (k - i)%nat)) = sumn N (fun i => sumn (N - i) (fun l => f i l)).
Proof.
  induction N as [|N IH]; [reflexivity|]. rewrite (sumn_last N (fun k => sumn (S k) _)), IH, (sumn_last N (fun i => sumn (S N - i) _)), (sumn_last N (fun i => f i (N - i)%nat)).
  rewrite Nat.sub_diag, Nat.sub_succ_l, Nat.sub_diag by lia. cbn [sumn].
  rewrite (sumn_ext N (fun i => sumn (S N - i) (fun l => f i l)) (fun i => sumn (N - i) (fun l => f i l) + f i (N - i)%nat)).
  - rewrite sumn_plus. ring.
  - intros i Hi. rewrite Nat.sub_succ_l by lia. reflexivity.
Qed.
Lemma expo_add X Y m psi : linear X -> linear Y -> commute X Y -> (forall j l D, (m < j + l)%nat -> dpow X j (dpow Y l psi) D = 0) ->
  expo (fun f D => X f D + Y f D) m psi = expo X m (expo Y m psi).
Proof.
  intros LX LY C HZ. apply ext_state; intros D. rewrite !expo_dpow.
  rewrite (sumn_ext (S m) _ (fun k => sumn (S k) (fun i => dpow X i (dpow Y (k - i) psi) D))) by (intros; now apply binomial).
  rewrite (sum_tri (S m) (fun i l => dpow X i (dpow Y l psi) D)). apply sumn_ext; intros i Hi. rewrite (expo_eq Y m psi). rewrite (lin_sum _ (S m) (fun k => dpow Y k psi) (dpow_linear X i LX)).
  replace (sumn (S m)) with (sumn ((S m - i) + i)) by (f_equal; lia). rewrite sumn_split, (sumn_0 i); [ring|]. intros l Hl. apply HZ. lia.
Qed.
Lemma expo_zero m psi : expo (fun _ _ => 0) m psi = psi.
Proof.
  apply ext_state; intros D. rewrite expo_dpow, sumn_S_l, sumn_0.
  - unfold dpow. cbn. rewrite Rinv_1. ring.
  - intros k _. unfold dpow. rewrite power_S. ring.
Qed.

(** * Single excitations of both spins *)
Section S.
Variables (d : dims) (T : amps) (n m : nat).
Hypothesis En : (noa d + nua d = n)%nat.
Hypothesis En' : (nob d + nub d = n)%nat.
Hypothesis Hm : (noa d + nob d < m)%nat.
Notation occs := (map al (seq 0 (noa d)) ++ map be (seq 0 (nob d))).
Notation ex := (exc (fun q => In q occs)).
Definition ones : oper := fun psi D => X_a d T psi D + X_b d T psi D.
Definition twos : oper := fun psi D => X_aa d T psi D + (X_ab d T psi D + X_bb d T psi D).
Lemma xs_exc : ex (X_a d T) /\ ex (X_b d T) /\ ex (X_aa d T) /\ ex (X_ab d T) /\ ex (X_bb d T).
Proof. clear En En' Hm.
  assert (O := ops_exc d T). inversion O as [|? ? O1 P1]; inversion P1 as [|? ? O2 P2]; inversion P2 as [|? ? O3 P3]; inversion P3 as [|? ? O4 P4]; inversion P4 as [|? ? O5 P5]; subst. tauto.
Qed.
Lemma ones_exc : ex ones. Proof. apply exc_add; apply xs_exc. Qed.
Lemma twos_exc : ex twos. Proof. apply exc_add; [apply xs_exc|]. apply (exc_add _ (X_ab d T) (X_bb d T)); apply xs_exc. Qed.
Lemma sd_split : cluster_sd d T = fun psi D => ones psi D + twos psi D.
Proof. apply functional_extensionality; intros psi. apply ext_state; intros D. rewrite cluster_total. cbn [total]. unfold ones, twos. ring. Qed.
Lemma exc_dead X : ex X -> dead X m.
Proof.
  clear En En'. intros HX psi. apply ext_state; intros D. apply (vanish_power occs (ref_nodup (noa d) (nob d)) X m HX psi).
  assert (L := level_max occs D). rewrite app_length, !map_length, !seq_length in L. lia.
Qed.
Lemma exc_dead2 X Y j l psi D : ex X -> ex Y -> (m < j + l)%nat -> dpow X j (dpow Y l psi) D = 0.
Proof.
  clear En En'. intros HX HY L. unfold dpow at 1. apply Rmult_eq_0_compat_l.
  assert (V : vanish occs (j + l) (power X j (dpow Y l psi))).
  { clear L. induction j as [|j IH]; [cbn [power Nat.iter]; apply vanish_scal, vanish_power; [apply ref_nodup|exact HY]|]. rewrite power_S. apply (vanish_exc _ (ref_nodup (noa d) (nob d)) X HX). exact IH. }
  apply V. assert (Q := level_max occs D). rewrite app_length, !map_length, !seq_length in Q. lia.
Qed.
Lemma sd_expo psi : expo (cluster_sd d T) m psi = expo ones m (expo twos m psi).
Proof.
  clear En En'. rewrite sd_split. assert (E1 := ones_exc). assert (E2 := twos_exc). apply expo_add; [now apply exc_linear in E1|now apply exc_linear in E2|now apply exc_commute with (occ := fun q => In q occs)|].
  intros. now apply exc_dead2.
Qed.
Definition unones : oper := fun psi D => -1 * ones psi D.
Lemma unones_exc : ex unones. Proof. apply exc_scal, ones_exc. Qed.
Lemma ones_back psi : expo unones m (expo ones m psi) = psi.
Proof.
  clear En En'. assert (E1 := ones_exc). assert (E2 := unones_exc). rewrite <- expo_add; [|now apply exc_linear in E2|now apply exc_linear in E1|now apply exc_commute with (occ := fun q => In q occs)|intros; now apply exc_dead2].
  replace (fun f D => unones f D + ones f D) with (fun (_ : state) (_ : N) => 0); [apply expo_zero|].
  apply functional_extensionality; intros f. apply ext_state; intros D. unfold unones. ring.
Qed.

(** * Creation and annihilation operators move through *)
Lemma ann_pair q r s psi D : ann q (cre r (ann s psi)) D = (if Nat.eqb q r then ann s psi D else 0) + cre r (ann s (ann q psi)) D.
Proof.
  rewrite ann_cre. replace (ann q (ann s psi)) with (fun E => - ann s (ann q psi) E) by (apply ext_state; intros; rewrite (ann_ann q s); ring). rewrite cre_neg. ring.
Qed.
Lemma cre_pair p r s psi D : cre p (cre r (ann s psi)) D = - (if Nat.eqb p s then cre r psi D else 0) + cre r (ann s (cre p psi)) D.
Proof.
  rewrite cre_cre. replace (cre p (ann s psi)) with (fun E => (if Nat.eqb p s then psi E else 0) - ann s (cre p psi) E) by (apply ext_state; intros; now rewrite cre_ann).
  rewrite (lin_sub (cre r)) by apply cre_linear. destruct (Nat.eqb p s); [change (fun E : N => psi E) with psi; ring|]. rewrite (lin_zero (cre r)) by apply cre_linear. ring.
Qed.
Lemma ann_single nu no t so q psi D : ann q (single_op nu no t so psi) D =
  single_op nu no t so (ann q psi) D + sumn nu (fun a => sumn no (fun i => t a i * (if Nat.eqb q (so (no + a)%nat) then ann (so i) psi D else 0))).
Proof.
  unfold single_op. rewrite (lin_sum (ann q) nu (fun a D => sumn no (fun i => t a i * cre (so (no + a)%nat) (ann (so i) psi) D)) (ann_linear q)).
  rewrite <- sumn_plus. apply sumn_ext; intros a _. rewrite (lin_sum (ann q) no (fun i D => t a i * cre (so (no + a)%nat) (ann (so i) psi) D) (ann_linear q)).
  rewrite <- sumn_plus. apply sumn_ext; intros i _. rewrite (lin_scal (ann q) _ _ (ann_linear q)), ann_pair. ring.
Qed.
Lemma cre_single nu no t so p psi D : cre p (single_op nu no t so psi) D =
  single_op nu no t so (cre p psi) D + sumn nu (fun a => sumn no (fun i => - t a i * (if Nat.eqb p (so i) then cre (so (no + a)%nat) psi D else 0))).
Proof.
  unfold single_op. rewrite (lin_sum (cre p) nu (fun a D => sumn no (fun i => t a i * cre (so (no + a)%nat) (ann (so i) psi) D)) (cre_linear p)).
  rewrite <- sumn_plus. apply sumn_ext; intros a _. rewrite (lin_sum (cre p) no (fun i D => t a i * cre (so (no + a)%nat) (ann (so i) psi) D) (cre_linear p)).
  rewrite <- sumn_plus. apply sumn_ext; intros i _. rewrite (lin_scal (cre p) _ _ (cre_linear p)), cre_pair. ring.
Qed.
(** Coefficients of the dressing; [sp] = true for alpha *)
Definition sp (s : bool) : nat -> nat := if s then al else be.
Definition no (s : bool) : nat := if s then noa d else nob d.
Definition nu (s : bool) : nat := if s then nua d else nub d.
Definition t1 (s : bool) : nat -> nat -> R := if s then x_a T else x_b T.
Lemma sp_eqb s p q : Nat.eqb (sp s p) (sp s q) = Nat.eqb p q.
Proof. destruct s; unfold sp, al, be; destruct (Nat.eqb_spec p q); try (subst; apply Nat.eqb_refl); apply Nat.eqb_neq; lia. Qed.
Lemma sp_eqb_ne s p q : Nat.eqb (sp s p) (sp (negb s) q) = false. Proof. destruct s; unfold sp, al, be, negb; apply Nat.eqb_neq; lia. Qed.
Lemma sp_occ s p : In (sp s p) occs <-> (p < no s)%nat. Proof. clear En En' Hm. destruct s; [apply occ_al|apply occ_be]. Qed.
Lemma no_nu s : (no s + nu s = n)%nat. Proof. destruct s; assumption. Qed.
Definition lower (s : bool) (p : nat) : oper := fun psi D => if Nat.ltb p (no s) then 0 else sumn (no s) (fun i => t1 s (p - no s) i * ann (sp s i) psi D).
Definition raise (s : bool) (p : nat) : oper := fun psi D => if Nat.ltb p (no s) then sumn (nu s) (fun a => - t1 s a p * cre (sp s (no s + a)) psi D) else 0.
Lemma zero_linear : linear (fun (_ : state) (_ : N) => 0). Proof. intros a f b g. apply ext_state; intros; ring. Qed.
Lemma lower_linear s p : linear (lower s p).
Proof. unfold lower. destruct (Nat.ltb p (no s)); [apply zero_linear|]. apply (sum_linear (no s) (fun i psi D => t1 s (p - no s) i * ann (sp s i) psi D)). intros. apply scal_linear, ann_linear. Qed.
Lemma raise_linear s p : linear (raise s p).
Proof. unfold raise. destruct (Nat.ltb p (no s)); [|apply zero_linear]. apply (sum_linear (nu s) (fun a psi D => - t1 s a p * cre (sp s (no s + a)) psi D)). intros. apply scal_linear, cre_linear. Qed.
Lemma ann_ones s p psi D : (p < n)%nat -> ann (sp s p) (ones psi) D = ones (ann (sp s p) psi) D + lower s p psi D.
Proof.
  intros Hp. unfold ones. rewrite (lin_add (ann (sp s p)) _ _ (ann_linear _)). unfold X_a, X_b. rewrite !ann_single. fold (sp true) (sp false).
  assert (Z : forall s', s' = negb s -> sumn (nu s') (fun a => sumn (no s') (fun i => t1 s' a i * (if Nat.eqb (sp s p) (sp s' (no s' + a)) then ann (sp s' i) psi D else 0))) = 0).
  { intros s' ->. apply sumn_0; intros a _. apply sumn_0; intros i _. rewrite sp_eqb_ne. ring. }
  assert (W : sumn (nu s) (fun a => sumn (no s) (fun i => t1 s a i * (if Nat.eqb (sp s p) (sp s (no s + a)) then ann (sp s i) psi D else 0))) = lower s p psi D).
  { unfold lower. destruct (Nat.ltb_spec p (no s)) as [L|L].
    - apply sumn_0; intros a _. apply sumn_0; intros i _. rewrite sp_eqb. replace (Nat.eqb p (no s + a)) with false by (symmetry; apply Nat.eqb_neq; lia). ring.
    - rewrite <- (sumn_delta_f (nu s) (p - no s) (fun a => sumn (no s) (fun i => t1 s a i * ann (sp s i) psi D))) by (assert (Q := no_nu s); lia).
      apply sumn_ext; intros a _. rewrite sp_eqb. destruct (Nat.eqb_spec a (p - no s)) as [->|NE].
      + replace (Nat.eqb p (no s + (p - no s))) with true by (symmetry; apply Nat.eqb_eq; lia). reflexivity.
      + replace (Nat.eqb p (no s + a)) with false by (symmetry; apply Nat.eqb_neq; lia). apply sumn_0; intros; ring. }
  destruct s; [specialize (Z false eq_refl)|specialize (Z true eq_refl)]; unfold nu, no, t1, sp in *; rewrite W, Z; ring.
Qed.
Lemma cre_ones s p psi D : (p < n)%nat -> cre (sp s p) (ones psi) D = ones (cre (sp s p) psi) D + raise s p psi D.
Proof.
  intros Hp. unfold ones. rewrite (lin_add (cre (sp s p)) _ _ (cre_linear _)). unfold X_a, X_b. rewrite !cre_single. fold (sp true) (sp false).
  assert (Z : forall s', s' = negb s -> sumn (nu s') (fun a => sumn (no s') (fun i => - t1 s' a i * (if Nat.eqb (sp s p) (sp s' i) then cre (sp s' (no s' + a)) psi D else 0))) = 0).
  { intros s' ->. apply sumn_0; intros a _. apply sumn_0; intros i _. rewrite sp_eqb_ne. ring. }
  assert (W : sumn (nu s) (fun a => sumn (no s) (fun i => - t1 s a i * (if Nat.eqb (sp s p) (sp s i) then cre (sp s (no s + a)) psi D else 0))) = raise s p psi D).
  { unfold raise. destruct (Nat.ltb_spec p (no s)) as [L|L].
    - apply sumn_ext; intros a _. rewrite <- (sumn_delta_f (no s) p (fun i => - t1 s a i * cre (sp s (no s + a)) psi D)) by exact L.
      apply sumn_ext; intros i _. rewrite sp_eqb, (Nat.eqb_sym p i). destruct (Nat.eqb i p); ring.
    - apply sumn_0; intros a _. apply sumn_0; intros i Hi. rewrite sp_eqb. replace (Nat.eqb p i) with false by (symmetry; apply Nat.eqb_neq; lia). ring. }
  destruct s; [specialize (Z false eq_refl)|specialize (Z true eq_refl)]; unfold nu, no, t1, sp in *; rewrite W, Z; ring.
Qed.
Lemma lower_ones s p : commute (lower s p) ones.
Proof.
  clear En En' Hm. intros psi. assert (E := ones_exc). assert (L := exc_linear _ _ E). unfold lower. destruct (Nat.ltb p (no s)); [now rewrite (lin_zero ones L)|].
  rewrite (lin_sum ones (no s) (fun i D => t1 s (p - no s) i * ann (sp s i) psi D) L). apply ext_state; intros D. apply sumn_ext; intros i Hi.
  rewrite (lin_scal ones _ _ L). f_equal. rewrite (ann_exc (noa d) (nob d) (sp s i) ones); [reflexivity|now apply sp_occ|exact E].
Qed.
Lemma raise_ones s p : commute (raise s p) ones.
Proof.
  clear En En' Hm. intros psi. assert (E := ones_exc). assert (L := exc_linear _ _ E). unfold raise. destruct (Nat.ltb p (no s)); [|now rewrite (lin_zero ones L)].
  rewrite (lin_sum ones (nu s) (fun a D => - t1 s a p * cre (sp s (no s + a)) psi D) L). apply ext_state; intros D. apply sumn_ext; intros i Hi.
  rewrite (lin_scal ones _ _ L). f_equal. rewrite (cre_exc (noa d) (nob d) (sp s (no s + i)) ones); [reflexivity| |exact E]. intros G. apply sp_occ in G. lia.
Qed.
Definition annd (s : bool) (p : nat) : oper := fun psi D => ann (sp s p) psi D + lower s p psi D.
Definition cred (s : bool) (p : nat) : oper := fun psi D => cre (sp s p) psi D + raise s p psi D.
Lemma annd_linear s p : linear (annd s p). Proof. apply add_linear; [apply ann_linear|apply lower_linear]. Qed.
Lemma cred_linear s p : linear (cred s p). Proof. apply add_linear; [apply cre_linear|apply raise_linear]. Qed.
Notation EX := (expo ones m).
Lemma ann_EX s p psi : (p < n)%nat -> ann (sp s p) (EX psi) = EX (annd s p psi).
Proof.
  intros Hp. apply (inter_expo (ann (sp s p)) ones (lower s p)); [apply ann_linear|apply (exc_linear _ _ ones_exc)|apply lower_linear| |apply lower_ones|apply exc_dead, ones_exc].
  intros. now apply ann_ones.
Qed.
Lemma cre_EX s p psi : (p < n)%nat -> cre (sp s p) (EX psi) = EX (cred s p psi).
Proof.
  intros Hp. apply (inter_expo (cre (sp s p)) ones (raise s p)); [apply cre_linear|apply (exc_linear _ _ ones_exc)|apply raise_linear| |apply raise_ones|apply exc_dead, ones_exc].
  intros. now apply cre_ones.
Qed.

(** * Dressed integrals *)
Definition da (s : bool) (g : nat -> R) (q : nat) : R := g q + sumn (nu s) (fun a => (if Nat.ltb q (no s) then t1 s a q else 0) * g (no s + a)%nat).
Definition dc (s : bool) (g : nat -> R) (p : nat) : R := g p - sumn (no s) (fun i => (if Nat.ltb p (no s) then 0 else t1 s (p - no s)%nat i) * g i).
Lemma sum_halves s f : sumn n f = sumn (no s) f + sumn (nu s) (fun a => f (no s + a)%nat). Proof. rewrite <- (no_nu s). apply sumn_split. Qed.
Lemma axis_a s (L : oper) g psi D : linear L -> sumn n (fun q => g q * L (annd s q psi) D) = sumn n (fun q => da s g q * L (ann (sp s q) psi) D).
Proof.
  intros HL. rewrite (sumn_ext n _ (fun q => g q * L (ann (sp s q) psi) D + g q * L (lower s q psi) D)) by (intros; unfold annd; rewrite (lin_add L _ _ HL); ring).
  rewrite sumn_plus. unfold da. rewrite (sumn_ext n (fun q => (g q + _) * _) (fun q => g q * L (ann (sp s q) psi) D + sumn (nu s) (fun a => (if Nat.ltb q (no s) then t1 s a q else 0) * g (no s + a)%nat) * L (ann (sp s q) psi) D)) by (intros; ring).
  rewrite sumn_plus. f_equal. rewrite !(sum_halves s).
  rewrite (sumn_0 (no s) (fun q => g q * L (lower s q psi) D)).
  2:{ intros q Hq. unfold lower. rewrite (proj2 (Nat.ltb_lt q (no s)) Hq). rewrite (lin_zero L HL). ring. }
  rewrite (sumn_0 (nu s) (fun b => sumn (nu s) _ * _)).
  2:{ intros b _. rewrite sumn_0; [ring|]. intros a _. rewrite (proj2 (Nat.ltb_ge (no s + b) (no s))) by lia. ring. }
  rewrite Rplus_0_l, Rplus_0_r.
  rewrite (sumn_ext (nu s) _ (fun a => sumn (no s) (fun i => t1 s a i * g (no s + a)%nat * L (ann (sp s i) psi) D))).
  - rewrite sumn_swap. apply sumn_ext; intros i Hi. rewrite <- sumn_scal_r. apply sumn_ext; intros a _. rewrite (proj2 (Nat.ltb_lt i (no s)) Hi). ring.
  - intros a _. unfold lower. rewrite (proj2 (Nat.ltb_ge (no s + a) (no s))) by lia. replace (no s + a - no s)%nat with a by lia.
    rewrite (lin_sum L (no s) (fun i D => t1 s a i * ann (sp s i) psi D) HL), <- sumn_scal. apply sumn_ext; intros i _. rewrite (lin_scal L _ _ HL). ring.
Qed.
Lemma axis_c s (L : oper) g psi D : linear L -> sumn n (fun q => g q * L (cred s q psi) D) = sumn n (fun q => dc s g q * L (cre (sp s q) psi) D).
Proof.
  intros HL. rewrite (sumn_ext n _ (fun q => g q * L (cre (sp s q) psi) D + g q * L (raise s q psi) D)) by (intros; unfold cred; rewrite (lin_add L _ _ HL); ring).
  rewrite sumn_plus. unfold dc. rewrite (sumn_ext n (fun q => (g q - _) * _) (fun q => g q * L (cre (sp s q) psi) D + - sumn (no s) (fun i => (if Nat.ltb q (no s) then 0 else t1 s (q - no s)%nat i) * g i) * L (cre (sp s q) psi) D)) by (intros; ring).
  rewrite sumn_plus. f_equal. rewrite !(sum_halves s).
  rewrite (sumn_0 (nu s) (fun a => g (no s + a)%nat * L (raise s (no s + a) psi) D)).
  2:{ intros q Hq. unfold raise. rewrite (proj2 (Nat.ltb_ge (no s + q) (no s))) by lia. rewrite (lin_zero L HL). ring. }
  rewrite (sumn_0 (no s) (fun b => - sumn (no s) _ * _)).
  2:{ intros b Hb. rewrite sumn_0; [ring|]. intros a _. rewrite (proj2 (Nat.ltb_lt b (no s)) Hb). ring. }
  rewrite Rplus_0_l, Rplus_0_r.
  rewrite (sumn_ext (no s) _ (fun i => sumn (nu s) (fun a => - t1 s a i * g i * L (cre (sp s (no s + a)) psi) D))).
  - rewrite sumn_swap. apply sumn_ext; intros a Ha. rewrite (proj2 (Nat.ltb_ge (no s + a) (no s))) by lia. rewrite <- sumn_opp, <- sumn_scal_r. apply sumn_ext; intros i _. replace (no s + a - no s)%nat with a by lia. ring.
  - intros i Hi. unfold raise. rewrite (proj2 (Nat.ltb_lt i (no s)) Hi).
    rewrite (lin_sum L (nu s) (fun a D => - t1 s a i * cre (sp s (no s + a)) psi D) HL), <- sumn_scal. apply sumn_ext; intros a _. rewrite (lin_scal L _ _ HL). ring.
Qed.
Definition d2 (s : bool) (h : nat -> nat -> R) (p q : nat) : R := dc s (fun p => da s (fun q => h p q) q) p.
Definition d4 (s1 s2 : bool) (w : nat -> nat -> nat -> nat -> R) (p q r s : nat) : R :=
  dc s1 (fun p => dc s2 (fun q => da s1 (fun r => da s2 (fun s => w p q r s) s) r) q) p.
Lemma EX_linear : linear EX. Proof. apply expo_linear, (exc_linear _ _ ones_exc). Qed.
Lemma id_linear : linear (fun psi => psi). Proof. intros a f b g. reflexivity. Qed.
Lemma one_EX s h psi : one_body n h (sp s) (EX psi) = EX (one_body n (d2 s h) (sp s) psi).
Proof.
  assert (LE := EX_linear). apply ext_state; intros D. unfold one_body.
  transitivity (sumn n (fun p => sumn n (fun q => h p q * EX (cred s p (annd s q psi)) D))).
  - apply sumn_ext; intros p Hp; apply sumn_ext; intros q Hq. now rewrite ann_EX, cre_EX.
  - rewrite (sumn_ext n _ (fun p => sumn n (fun q => da s (fun q => h p q) q * EX (cred s p (ann (sp s q) psi)) D)))
      by (intros p _; apply (axis_a s (fun f => EX (cred s p f))); apply (comp_linear EX); [exact LE|apply cred_linear]).
    rewrite sumn_swap. rewrite (sumn_ext n _ (fun q => sumn n (fun p => dc s (fun p => da s (fun q => h p q) q) p * EX (cre (sp s p) (ann (sp s q) psi)) D)))
      by (intros q _; apply (axis_c s (fun f => EX f)); exact LE).
    rewrite sumn_swap. rewrite (lin_sum EX n (fun p D => sumn n (fun q => d2 s h p q * cre (sp s p) (ann (sp s q) psi) D)) LE). apply sumn_ext; intros p _.
    rewrite (lin_sum EX n (fun q D => d2 s h p q * cre (sp s p) (ann (sp s q) psi) D) LE). apply sumn_ext; intros q _. now rewrite (lin_scal EX _ _ LE).
Qed.
Lemma two_EX s1 s2 w psi : two_body n w (sp s1) (sp s2) (EX psi) = EX (two_body n (d4 s1 s2 w) (sp s1) (sp s2) psi).
Proof.
  assert (LE := EX_linear). apply ext_state; intros D. unfold two_body.
  transitivity (sumn n (fun p => sumn n (fun q => sumn n (fun r => sumn n (fun s => w p q r s * EX (cred s1 p (cred s2 q (annd s2 s (annd s1 r psi)))) D))))).
  { apply sumn_ext; intros p Hp; apply sumn_ext; intros q Hq; apply sumn_ext; intros r Hr; apply sumn_ext; intros s Hs. now rewrite ann_EX, ann_EX, cre_EX, cre_EX. }
  transitivity (sumn n (fun p => sumn n (fun q => sumn n (fun r => sumn n (fun s => da s2 (fun s => w p q r s) s * EX (cred s1 p (cred s2 q (ann (sp s2 s) (annd s1 r psi)))) D))))).
  { apply sumn_ext; intros p Hp; apply sumn_ext; intros q Hq; apply sumn_ext; intros r Hr. apply (axis_a s2 (fun f => EX (cred s1 p (cred s2 q f)))).
    apply (comp_linear EX); [exact LE|]. apply comp_linear; apply cred_linear. }
  set (w1 := fun p q r s => da s2 (fun s => w p q r s) s).
  transitivity (sumn n (fun p => sumn n (fun q => sumn n (fun r => sumn n (fun s => da s1 (fun r => w1 p q r s) r * EX (cred s1 p (cred s2 q (ann (sp s2 s) (ann (sp s1 r) psi)))) D))))).
  { apply sumn_ext; intros p Hp; apply sumn_ext; intros q Hq. rewrite sumn_swap. etransitivity; [|apply sumn_swap]. apply sumn_ext; intros s Hs. apply (axis_a s1 (fun f => EX (cred s1 p (cred s2 q (ann (sp s2 s) f))))).
    apply (comp_linear EX); [exact LE|]. apply comp_linear; [apply cred_linear|]. apply comp_linear; [apply cred_linear|apply ann_linear]. }
  set (w2 := fun p q r s => da s1 (fun r => w1 p q r s) r).
  transitivity (sumn n (fun p => sumn n (fun q => sumn n (fun r => sumn n (fun s => dc s2 (fun q => w2 p q r s) q * EX (cred s1 p (cre (sp s2 q) (ann (sp s2 s) (ann (sp s1 r) psi)))) D))))).
  { apply sumn_ext; intros p Hp. rewrite sumn_swap. etransitivity; [|apply sumn_swap]. apply sumn_ext; intros r Hr. rewrite sumn_swap. etransitivity; [|apply sumn_swap]. apply sumn_ext; intros s Hs.
    apply (axis_c s2 (fun f => EX (cred s1 p f))). apply (comp_linear EX); [exact LE|apply cred_linear]. }
  set (w3 := fun p q r s => dc s2 (fun q => w2 p q r s) q).
  transitivity (sumn n (fun p => sumn n (fun q => sumn n (fun r => sumn n (fun s => d4 s1 s2 w p q r s * EX (cre (sp s1 p) (cre (sp s2 q) (ann (sp s2 s) (ann (sp s1 r) psi)))) D))))).
  { rewrite sumn_swap. etransitivity; [|apply sumn_swap]. apply sumn_ext; intros q Hq. rewrite sumn_swap. etransitivity; [|apply sumn_swap]. apply sumn_ext; intros r Hr. rewrite sumn_swap. etransitivity; [|apply sumn_swap]. apply sumn_ext; intros s Hs.
    exact (axis_c s1 (fun f => EX f) (fun p => w3 p q r s) _ D LE). }
  rewrite (lin_sum EX n (fun p D => sumn n (fun q => sumn n (fun r => sumn n (fun s => d4 s1 s2 w p q r s * cre (sp s1 p) (cre (sp s2 q) (ann (sp s2 s) (ann (sp s1 r) psi))) D)))) LE). apply sumn_ext; intros p _.
  rewrite (lin_sum EX n (fun q D => sumn n (fun r => sumn n (fun s => d4 s1 s2 w p q r s * cre (sp s1 p) (cre (sp s2 q) (ann (sp s2 s) (ann (sp s1 r) psi))) D))) LE). apply sumn_ext; intros q _.
  rewrite (lin_sum EX n (fun r D => sumn n (fun s => d4 s1 s2 w p q r s * cre (sp s1 p) (cre (sp s2 q) (ann (sp s2 s) (ann (sp s1 r) psi))) D)) LE). apply sumn_ext; intros r _.
  rewrite (lin_sum EX n (fun s D => d4 s1 s2 w p q r s * cre (sp s1 p) (cre (sp s2 q) (ann (sp s2 s) (ann (sp s1 r) psi))) D) LE). apply sumn_ext; intros s _.
  now rewrite (lin_scal EX _ _ LE).
Qed.
Definition dressed (I : integrals) : integrals :=
  mkIntegrals (d2 true (h_a I)) (d2 false (h_b I)) (d4 true true (w_aa I)) (d4 true false (w_ab I)) (d4 false false (w_bb I)).
Lemma ham_EX I psi : hamiltonian n I (EX psi) = EX (hamiltonian n (dressed I) psi).
Proof.
  assert (LE := EX_linear). unfold hamiltonian. cbn [dressed h_a h_b w_aa w_ab w_bb]. apply ext_state; intros D.
  rewrite !(lin_add EX _ _ LE), !(lin_scal EX _ _ LE).
  change al with (sp true). change be with (sp false). rewrite !one_EX, !two_EX. reflexivity.
Qed.
End S.
