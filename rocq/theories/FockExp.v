(** Powers of sums of commuting excitation operators as lists of terms; excitation level (proof support). *)
From Coq Require Import Reals Arith NArith List Bool Lia Lra QArith Qreals ZArith FunctionalExtensionality.
From Verif Require Import RSum TensorObjs TensorAlg TensorSpec FockSpec FockCar FockWick FockArrays FockCcSpec FockTerms.
Import ListNotations.
Local Open Scope R_scope.

(** * Linear operators on states *)
Notation oper := (state -> state).
Definition linear (X : oper) : Prop := forall a f b g, X (fun D => a * f D + b * g D) = fun D => a * X f D + b * X g D.
Lemma ext_state (f g : state) : (forall D, f D = g D) -> f = g. Proof. intros H. now apply functional_extensionality. Qed.
Lemma lin_add X f g : linear X -> X (fun D => f D + g D) = fun D => X f D + X g D.
Proof.
  intros L. replace (fun D => f D + g D) with (fun D => 1 * f D + 1 * g D) by (apply ext_state; intros; ring). rewrite L. apply ext_state; intros; ring.
Qed.
Lemma lin_scal X a f : linear X -> X (fun D => a * f D) = fun D => a * X f D.
Proof.
  intros L. replace (fun D => a * f D) with (fun D => a * f D + 0 * f D) by (apply ext_state; intros; ring). rewrite L. apply ext_state; intros; ring.
Qed.
Lemma lin_zero X : linear X -> X (fun _ => 0) = fun _ => 0.
Proof. intros L. replace (fun _ : N => 0) with (fun D : N => 0 * (fun _ => 0) D) at 1 by (apply ext_state; intros; ring). rewrite lin_scal by exact L. apply ext_state; intros; ring. Qed.
Lemma lin_sum X n (f : nat -> state) : linear X -> X (fun D => sumn n (fun i => f i D)) = fun D => sumn n (fun i => X (f i) D).
Proof. intros L. induction n as [|n IH]; cbn [sumn]; [now apply lin_zero|]. rewrite lin_add by exact L. now rewrite IH. Qed.
Lemma cre_linear p : linear (cre p). Proof. intros a f b g. apply ext_state; intros D. unfold cre. destruct (bit D p); ring. Qed.
Lemma ann_linear p : linear (ann p). Proof. intros a f b g. apply ext_state; intros D. unfold ann. destruct (bit D p); ring. Qed.
Lemma comp_linear X Y : linear X -> linear Y -> linear (fun psi => X (Y psi)).
Proof. intros HX HY a f b g. rewrite HY, HX. reflexivity. Qed.
Lemma add_linear X Y : linear X -> linear Y -> linear (fun psi D => X psi D + Y psi D).
Proof. intros HX HY a f b g. rewrite HY, HX. apply ext_state; intros; ring. Qed.
Lemma scal_linear c X : linear X -> linear (fun psi D => c * X psi D).
Proof. intros HX a f b g. rewrite HX. apply ext_state; intros; ring. Qed.
Lemma sum_linear n (F : nat -> oper) : (forall i, (i < n)%nat -> linear (F i)) -> linear (fun psi D => sumn n (fun i => F i psi D)).
Proof.
  induction n as [|n IH]; intros H; cbn [sumn].
  - intros a f b g. apply ext_state; intros; ring.
  - apply add_linear; [apply IH; intros; apply H; lia|apply H; lia].
Qed.
Lemma power_S X k psi : power X (S k) psi = X (power X k psi). Proof. reflexivity. Qed.
Lemma power_linear X k : linear X -> linear (power X k).
Proof. intros HX. induction k as [|k IH]; [intros a f b g; reflexivity|]. intros a f b g. rewrite !power_S, IH, HX. reflexivity. Qed.

(** * Excitation operators commute *)
Inductive exc (occ : nat -> Prop) : oper -> Prop :=
| exc_pair p q : ~ occ p -> occ q -> exc occ (fun psi => cre p (ann q psi))
| exc_comp X Y : exc occ X -> exc occ Y -> exc occ (fun psi => X (Y psi))
| exc_scal c X : exc occ X -> exc occ (fun psi D => c * X psi D)
| exc_sum n (F : nat -> oper) : (forall i, (i < n)%nat -> exc occ (F i)) -> exc occ (fun psi D => sumn n (fun i => F i psi D))
| exc_add X Y : exc occ X -> exc occ Y -> exc occ (fun psi D => X psi D + Y psi D).
Lemma exc_linear occ X : exc occ X -> linear X.
Proof.
  induction 1 as [p q Hp Hq|X Y _ IX _ IY|c X _ IX|n F _ IF|X Y _ IX _ IY].
  - apply (comp_linear (cre p) (ann q)); [apply cre_linear|apply ann_linear].
  - now apply comp_linear.
  - now apply scal_linear.
  - now apply sum_linear.
  - now apply add_linear.
Qed.
Lemma cre_neg p f : cre p (fun D => - f D) = fun D => - cre p f D.
Proof. apply ext_state; intros D. unfold cre. destruct (bit D p); ring. Qed.
Lemma ann_neg p f : ann p (fun D => - f D) = fun D => - ann p f D.
Proof. apply ext_state; intros D. unfold ann. destruct (bit D p); ring. Qed.
Lemma ann_cre_ne p q psi : p <> q -> ann p (cre q psi) = fun D => - cre q (ann p psi) D.
Proof. intros N. apply ext_state; intros D. rewrite ann_cre, (eqb_neq _ _ N). ring. Qed.
Lemma pairs_commute p q r s psi : q <> r -> s <> p -> cre p (ann q (cre r (ann s psi))) = cre r (ann s (cre p (ann q psi))).
Proof.
  intros N1 N2. rewrite (ann_cre_ne q r) by exact N1. rewrite (ann_cre_ne s p) by exact N2. rewrite !cre_neg. apply ext_state; intros D.
  rewrite (cre_cre p r). replace (ann q (ann s psi)) with (fun D => - ann s (ann q psi) D) by (apply ext_state; intros; rewrite (ann_ann q s); ring).
  rewrite !cre_neg. ring.
Qed.
Definition commute (X Y : oper) : Prop := forall psi, X (Y psi) = Y (X psi).
Lemma exc_commute_pair occ p q Y : ~ occ p -> occ q -> exc occ Y -> commute (fun psi => cre p (ann q psi)) Y.
Proof.
  intros Hp Hq H. assert (L : linear (fun psi => cre p (ann q psi))) by (apply (comp_linear (cre p) (ann q)); [apply cre_linear|apply ann_linear]).
  induction H as [r s Hr Hs|X Y _ IX _ IY|c X _ IX|n F _ IF|X Y _ IX _ IY]; intros psi; unfold commute in *.
  - apply pairs_commute; congruence.
  - rewrite IX, IY. reflexivity.
  - rewrite (lin_scal _ c (X psi) L). now rewrite IX.
  - rewrite (lin_sum _ n (fun i => F i psi) L). apply ext_state; intros D. apply sumn_ext; intros i Hi. now rewrite IF.
  - rewrite (lin_add _ (X psi) (Y psi) L). now rewrite IX, IY.
Qed.
Lemma exc_commute occ X Y : exc occ X -> exc occ Y -> commute X Y.
Proof.
  intros HX HY. assert (L := exc_linear _ _ HY).
  induction HX as [p q Hp Hq|X1 X2 _ I1 _ I2|c X _ IX|n F _ IF|X1 X2 _ I1 _ I2]; intros psi; unfold commute in *.
  - now apply exc_commute_pair with (occ := occ).
  - rewrite I2, I1. reflexivity.
  - rewrite (lin_scal _ c (X psi) L). now rewrite IX.
  - rewrite (lin_sum _ n (fun i => F i psi) L). apply ext_state; intros D. apply sumn_ext; intros i Hi. now rewrite IF.
  - rewrite (lin_add _ (X1 psi) (X2 psi) L). now rewrite I1, I2.
Qed.

(** * Divided powers and the binomial theorem *)
Definition dpow (X : oper) (k : nat) (psi : state) : state := fun D => / INR (fact k) * power X k psi D.
Lemma dpow_linear X k : linear X -> linear (dpow X k).
Proof. intros L. apply scal_linear. now apply power_linear. Qed.
Lemma fact_inv k : / INR (fact (S k)) * INR (S k) = / INR (fact k).
Proof. rewrite fact_simpl, mult_INR. field. split; [apply INR_fact_neq_0|apply not_0_INR; lia]. Qed.
Lemma dpow_S X k psi D : linear X -> INR (S k) * dpow X (S k) psi D = X (dpow X k psi) D.
Proof.
  intros L. unfold dpow. rewrite (lin_scal X _ (power X k psi) L). rewrite power_S, <- (fact_inv k). ring.
Qed.
Lemma commute_dpow X Y k : linear X -> commute X Y -> commute X (dpow Y k).
Proof.
  intros L C psi. unfold dpow. rewrite (lin_scal X _ (power Y k psi) L). apply ext_state; intros D. f_equal. revert D. 
  enough (E : X (power Y k psi) = power Y k (X psi)) by (intros; now rewrite E).
  induction k as [|k IH]; [reflexivity|]. now rewrite !power_S, C, IH.
Qed.
Lemma binomial A B k psi D : linear A -> linear B -> commute A B ->
  dpow (fun f E => A f E + B f E) k psi D = sumn (S k) (fun i => dpow A i (dpow B (k - i) psi) D).
Proof.
  intros LA LB C. assert (CB : commute B A) by (intros f; now rewrite C). revert psi D. induction k as [|k IH]; intros psi D.
  - cbn [sumn Nat.sub]. unfold dpow. cbn. rewrite Rinv_1. ring.
  - apply (Rmult_eq_reg_l (INR (S k))); [|apply not_0_INR; lia]. rewrite dpow_S by (now apply add_linear).
    replace (dpow (fun f E => A f E + B f E) k psi) with (fun E => sumn (S k) (fun i => dpow A i (dpow B (k - i) psi) E)) by (apply ext_state; intros; now rewrite IH).
    rewrite (lin_sum A (S k) (fun i => dpow A i (dpow B (k - i) psi)) LA), (lin_sum B (S k) (fun i => dpow A i (dpow B (k - i) psi)) LB).
    rewrite (sumn_ext (S k) (fun i => A (dpow A i (dpow B (k - i) psi)) D) (fun i => INR (S i) * dpow A (S i) (dpow B (S k - S i) psi) D)) by (intros; rewrite dpow_S by exact LA; reflexivity).
    rewrite (sumn_ext (S k) (fun i => B (dpow A i (dpow B (k - i) psi)) D) (fun i => INR (S k - i) * dpow A i (dpow B (S k - i) psi) D)).
    2:{ intros i Hi. rewrite (commute_dpow B A i LB CB). replace (B (dpow B (k - i) psi)) with (fun E => INR (S k - i) * dpow B (S k - i) psi E).
        - now rewrite (lin_scal _ _ _ (dpow_linear A i LA)).
        - apply ext_state; intros E. replace (S k - i)%nat with (S (k - i)) by lia. now rewrite dpow_S. }
    set (g := fun i => dpow A i (dpow B (S k - i) psi) D).
    change (sumn (S k) (fun i => INR (S i) * g (S i)) + sumn (S k) (fun i => INR (S k - i) * g i) = INR (S k) * sumn (S (S k)) g).
    replace (sumn (S k) (fun i => INR (S i) * g (S i))) with (sumn (S (S k)) (fun i => INR i * g i)) by (rewrite sumn_S_l; cbn [INR]; ring).
    replace (sumn (S k) (fun i => INR (S k - i) * g i)) with (sumn (S (S k)) (fun i => INR (S k - i) * g i)) by (cbn [sumn]; rewrite Nat.sub_diag; cbn [INR]; ring).
    rewrite <- sumn_plus, <- sumn_scal. apply sumn_ext. intros i Hi. rewrite minus_INR by lia. ring.
Qed.

(** * Lists of terms with labels in an interval *)
Definition scale (q : Q) (p : list term) := map (fun t => mkTerm (Qred (q * t_c t)) (t_l t) (t_f t) (t_o t)) p.
Definition unit_term : term := mkTerm 1 [] [] [].
(* X^i / i! for one excitation operator, with labels from z on *)
Fixpoint pows (x : nat -> term) (z i : nat) : list term :=
  match i with O => [unit_term] | S i' => scale (1 # Pos.of_nat i) (pmul [x z] (pows x (z + 4) i')) end.
Fixpoint multi (xs : list (nat -> term)) (z k : nat) : list term :=
  match xs with
  | [] => match k with O => [unit_term] | _ => [] end
  | x :: r => match r with [] => pows x z k | _ => flat_map (fun i => pmul (pows x z i) (multi r (z + 4 * i) (k - i))) (seq 0 (S k)) end
  end.
Definition within (a b : nat) (t : term) : Prop := forall x, In x (tvars t) -> (a <= x < b)%nat.
Lemma within_names a b t x : within a b t -> In x (names (t_l t)) -> (a <= x < b)%nat.
Proof. intros H Hx. apply H. apply in_or_app. now left. Qed.
Lemma apart_within a b c e p q : (b <= c)%nat -> Forall (within a b) p -> Forall (within c e) q -> apart p q = true.
Proof.
  intros L Hp Hq. rewrite Forall_forall in Hp, Hq. unfold apart. apply andb_true_intro.
  split; unfold disjb; apply forallb_forall; intros x Hx; apply negb_true_iff; apply not_true_iff_false; intros M; apply mem_in in M;
    apply in_flat_map in Hx as (t & Ht & Hx), M as (u & Hu & M).
  - apply (within_names a b t x (Hp t Ht)) in Hx. apply (Hq u Hu) in M. lia.
  - apply (within_names c e t x (Hq t Ht)) in Hx. apply (Hp u Hu) in M. lia.
Qed.
Lemma tmul_within a b c e t u : (b <= c)%nat -> (a <= b)%nat -> (c <= e)%nat -> within a b t -> within c e u -> within a e (tmul t u).
Proof.
  intros L L1 L2 Ht Hu x Hx. unfold tvars, tmul in Hx. cbn [t_l t_f t_o] in Hx. unfold names, fvars in Hx. rewrite !map_app, flat_map_app in Hx.
  assert (Hx' : In x (tvars t) \/ In x (tvars u)) by (unfold tvars, names, fvars; rewrite !in_app_iff in *; tauto).
  destruct Hx' as [Hx'|Hx']; [apply Ht in Hx'|apply Hu in Hx']; lia.
Qed.
Lemma pmul_within a b c e p q : (b <= c)%nat -> (a <= b)%nat -> (c <= e)%nat -> Forall (within a b) p -> Forall (within c e) q -> Forall (within a e) (pmul p q).
Proof.
  intros L L1 L2 Hp Hq. rewrite Forall_forall in *. intros t Ht. apply in_flat_map in Ht as (x & Hx & Ht). apply in_map_iff in Ht as (y & <- & Hy).
  apply (tmul_within a b c e); auto.
Qed.
Lemma scale_within a b q p : Forall (within a b) p -> Forall (within a b) (scale q p).
Proof. intros H. rewrite Forall_forall in *. intros t Ht. apply in_map_iff in Ht as (y & <- & Hy). exact (H y Hy). Qed.
Lemma within_mono a b a' b' t : (a' <= a)%nat -> (b <= b')%nat -> within a b t -> within a' b' t.
Proof. intros L1 L2 H x Hx. apply H in Hx. lia. Qed.
Lemma within_unit a b : within a b unit_term. Proof. intros x []. Qed.
Lemma pows_within x : (forall z, within z (z + 4) (x z)) -> forall i z, Forall (within z (z + 4 * i)) (pows x z i).
Proof.
  intros H. induction i as [|i IH]; intros z; cbn [pows]; [constructor; [apply within_unit|constructor]|].
  apply scale_within. apply (pmul_within z (z + 4) (z + 4) (z + 4 * S i)); try lia; [constructor; [apply H|constructor]|].
  replace (z + 4 * S i)%nat with (z + 4 + 4 * i)%nat by lia. apply IH.
Qed.
Lemma multi_within xs : (forall x, In x xs -> forall z, within z (z + 4) (x z)) -> forall z k, Forall (within z (z + 4 * k)) (multi xs z k).
Proof.
  induction xs as [|x xs IH]; intros H z k; cbn [multi].
  - destruct k; [constructor; [apply within_unit|constructor]|constructor].
  - destruct xs as [|y xs]; [apply pows_within; apply H; now left|].
    apply Forall_forall. intros t Ht. apply in_flat_map in Ht as (i & Hi & Ht). apply in_seq in Hi. revert t Ht. apply Forall_forall.
    apply (pmul_within z (z + 4 * i) (z + 4 * i) (z + 4 * k)); try lia; [apply pows_within; apply H; now left|].
    replace (z + 4 * k)%nat with (z + 4 * i + 4 * (k - i))%nat by lia. apply IH. intros; apply H; now right.
Qed.

Section S.
Variables (na nb : nat) (dim : nat -> nat) (ten : nat -> list nat -> R).
Notation ts := (tsem na nb dim ten).
Notation ps := (psem na nb dim ten).
Lemma tsem_linear t v : linear (ts t v).
Proof.
  intros a f b g. apply ext_state; intros D. unfold tsem.
  rewrite (ssum_ext dim (t_l t) _ (fun w => a * (prodf ten (t_f t) w * opsem na nb (t_o t) w f D) + b * (prodf ten (t_f t) w * opsem na nb (t_o t) w g D))).
  - rewrite ssum_plus, !ssum_scal. ring.
  - intros w _ _. rewrite opsem_lin. ring.
Qed.
Lemma psem_app p q v psi D : ps (p ++ q) v psi D = ps p v psi D + ps q v psi D. Proof. apply lsum_app. Qed.
Lemma psem_scale q p v psi D : ps (scale q p) v psi D = Q2R q * ps p v psi D.
Proof.
  unfold psem, scale. rewrite lsum_map, <- lsum_scal. apply lsum_ext. intros t _. unfold tsem. cbn [t_c t_l t_f t_o].
  rewrite (Qeq_eqR _ _ (Qred_correct _)), Q2R_mult. ring.
Qed.
Lemma psem_one t v psi D : ps [t] v psi D = ts t v psi D. Proof. unfold psem. cbn [lsum]. ring. Qed.
Lemma psem_unit v psi D : ps [unit_term] v psi D = psi D.
Proof. rewrite psem_one. unfold tsem, unit_term. cbn [t_c t_l t_f t_o ssum prodf opsem]. rewrite Q1. ring. Qed.
Lemma psem_flat {B} (F : B -> list term) l v psi D : ps (flat_map F l) v psi D = lsum (fun i => ps (F i) v psi D) l.
Proof. apply lsum_flat. Qed.
Lemma lsum_seq f k : lsum f (seq 0 k) = sumn k f.
Proof. induction k as [|k IH]; [reflexivity|]. rewrite seq_S, lsum_app, IH. cbn [lsum sumn Nat.add]. ring. Qed.
Lemma Qinv_nat i : Q2R (1 # Pos.of_nat (S i)) = / INR (S i).
Proof.
  unfold Q2R. cbn [Qnum Qden]. rewrite Rmult_1_l. f_equal. rewrite <- (Nat2Pos.id (S i)) at 2 by lia. now rewrite INR_IPR.
Qed.
(** [x] stands for the operator X, whatever its labels *)
Definition stands (x : nat -> term) (X : oper) : Prop := (forall z, within z (z + 4) (x z)) /\ forall z v psi D, ts (x z) v psi D = X psi D.
Lemma stands_linear x X : stands x X -> linear X.
Proof.
  intros (_ & H). intros a f b g. apply ext_state; intros D. rewrite <- !(H 0%nat (fun _ => 0%nat)). now rewrite tsem_linear.
Qed.
Lemma pows_ok x X : stands x X -> forall i z v psi D, ps (pows x z i) v psi D = dpow X i psi D.
Proof.
  intros HX. assert (L := stands_linear x X HX). destruct HX as (W & E). induction i as [|i IH]; intros z v psi D.
  - cbn [pows]. rewrite psem_unit. unfold dpow. cbn. rewrite Rinv_1. ring.
  - cbn [pows]. rewrite psem_scale, Qinv_nat. rewrite pmul_ok.
    + rewrite psem_one, E. rewrite (functional_extensionality (ps (pows x (z + 4) i) v psi) (dpow X i psi) (IH (z + 4)%nat v psi)). rewrite <- dpow_S by exact L.
      field. apply not_0_INR. lia.
    + apply (apart_within z (z + 4) (z + 4) (z + 4 + 4 * i)); [lia|constructor; [apply W|constructor]|apply pows_within; exact W].
Qed.
Fixpoint total (Xs : list oper) (psi : state) : state := match Xs with [] => fun _ => 0 | X :: r => match r with [] => X psi | _ => fun D => X psi D + total r psi D end end.
Lemma total_linear Xs : Forall linear Xs -> linear (total Xs).
Proof.
  induction Xs as [|X [|Y Xs] IH]; intros H; cbn [total].
  - intros a f b g. apply ext_state; intros; ring.
  - now inversion H.
  - inversion H; subst. apply (add_linear X (total (Y :: Xs))); auto.
Qed.
Lemma total_commute X Xs : linear X -> Forall (commute X) Xs -> commute X (total Xs).
Proof.
  intros L. induction Xs as [|Y [|Z Xs] IH]; intros H psi; cbn [total].
  - now apply lin_zero.
  - inversion H; auto.
  - inversion H as [|? ? H1 H2]; subst. etransitivity; [apply (lin_add X (Y psi) (total (Z :: Xs) psi) L)|]. rewrite H1, (IH H2). reflexivity.
Qed.
Lemma multi_ok xs Xs : Forall2 stands xs Xs -> xs <> [] -> ForallOrdPairs commute Xs -> forall k z v psi D, ps (multi xs z k) v psi D = dpow (total Xs) k psi D.
Proof.
  induction 1 as [|x X xs Xs Hx F IH]; intros NE HC k z v psi D; [contradiction|]. cbn [multi].
  destruct F as [|y Y xs Xs Hy F].
  - cbn [total]. now apply pows_ok.
  - inversion HC as [|? ? HC1 HC2]; subst. rewrite psem_flat, lsum_seq. set (xr := y :: xs) in *. set (Xr := Y :: Xs) in *.
    assert (FF : Forall2 stands xr Xr) by (constructor; assumption).
    assert (LL : Forall linear Xr). { clear -FF. induction FF as [|? ? ? ? H _ I]; constructor; [now apply (stands_linear _ _ H)|exact I]. }
    assert (WW : forall u, In u xr -> forall z, within z (z + 4) (u z)). { clear -FF. induction FF as [|? ? ? ? H _ I]; intros u Hu; [destruct Hu|]. destruct Hu as [<-|Hu]; [apply H|now apply I]. }
    change (total (X :: Xr)) with (fun psi D => X psi D + total Xr psi D). rewrite (binomial X (total Xr)).
    + apply sumn_ext. intros i Hi. rewrite pmul_ok.
      * rewrite (pows_ok x X Hx). f_equal. apply ext_state; intros E. apply IH; [discriminate|exact HC2].
      * apply (apart_within z (z + 4 * i) (z + 4 * i) (z + 4 * i + 4 * (k - i))); [lia|apply pows_within; apply Hx|now apply multi_within].
    + now apply (stands_linear x).
    + now apply total_linear.
    + apply total_commute; [now apply (stands_linear x)|exact HC1].
Qed.

(** * Products restricted to strings that can have a non-zero expectation value *)
Variable K : nat.
Hypothesis dim0 : dim 0%nat = na.
Hypothesis dim2 : dim 2%nat = nb.
Hypothesis tenK : forall i j, ten K [i; j] = if Nat.eqb i j then 1 else 0.
Definition balv (l : list op) : list Z := map (fun c => bal c l) [0; 1; 2; 3]%nat.
Fixpoint anti (a b : list Z) : bool := match a, b with [], [] => true | x :: a, y :: b => Z.eqb (x + y) 0 && anti a b | _, _ => false end.
Definition pmulb (p q : list term) : list term :=
  let qs := map (fun u => (balv (t_o u), u)) q in
  flat_map (fun t => let b := balv (t_o t) in flat_map (fun '(c, u) => if anti b c then [tmul t u] else []) qs) p.
Lemma anti_balanced l r : anti (balv l) (balv r) = balanced (l ++ r).
Proof. unfold balv, balanced. cbn [map anti forallb]. now rewrite !(bal_app na nb dim). Qed.
Lemma okterm_tmul ext t u : okterm ext t = true -> okterm ext u = true -> (forall x, In x (names (t_l t)) -> ~ In x (tvars u)) -> (forall x, In x (names (t_l u)) -> ~ In x (tvars t)) ->
  okterm ext (tmul t u) = true.
Proof.
  intros Ht Hu D1 D2. unfold okterm in *. apply andb_prop in Ht as (Ht & H3), Hu as (Hu & U3). apply andb_prop in Ht as (H1 & H2), Hu as (U1 & U2).
  unfold tmul. cbn [t_l t_f t_o].
  assert (NN : forall x, In x (names (t_l t)) -> ~ In x (names (t_l u))) by (intros x Hx Hy; apply (D1 x Hx); apply in_or_app; now left).
  apply andb_true_intro; split; [apply andb_true_intro; split|].
  - assert (G : forall a b, nodupb a = true -> nodupb b = true -> (forall x, In x a -> ~ In x b) -> nodupb (a ++ b) = true).
    { clear. induction a as [|x a IH]; intros b Ha Hb Hd; cbn in *; [exact Hb|]. apply andb_prop in Ha as (H1 & H2). apply andb_true_intro; split.
      - apply negb_true_iff in H1. apply negb_true_iff. apply not_true_iff_false. intros M. apply mem_in in M. apply in_app_iff in M as [M|M].
        + apply mem_in in M. congruence.
        + apply (Hd x (or_introl eq_refl) M).
      - apply IH; auto. }
    unfold names. rewrite map_app. now apply G.
  - unfold disjb in *. rewrite forallb_forall in *. intros x Hx. specialize (H2 x Hx). specialize (U2 x Hx). apply negb_true_iff in H2, U2. apply negb_true_iff.
    apply not_true_iff_false. intros M. apply mem_in in M. unfold names in M. rewrite map_app in M. apply in_app_iff in M as [M|M]; apply mem_in in M; unfold names in *; congruence.
  - rewrite forallb_app. apply andb_true_intro; split; apply forallb_forall; intros o Ho.
    + rewrite forallb_forall in H3. specialize (H3 o Ho). unfold okop in *. apply andb_prop in H3 as (H4 & H5). rewrite H4. cbn [andb].
      rewrite look_app in H5. rewrite <- app_assoc, look_app. destruct (look (o_x o) (t_l t)); [exact H5|]. rewrite look_app.
      destruct (look (o_x o) (t_l u)) eqn:E; [|exact H5]. exfalso. apply look_in in E. apply (D2 (o_x o)).
      * unfold names. apply in_map_iff. now exists (o_x o, n).
      * apply in_or_app; right. apply in_or_app; right. now apply in_map.
    + rewrite forallb_forall in U3. specialize (U3 o Ho). unfold okop in *. apply andb_prop in U3 as (H4 & H5). rewrite H4. cbn [andb].
      rewrite look_app in H5. rewrite <- app_assoc, look_app, look_app. destruct (look (o_x o) (t_l t)) eqn:E; [|exact H5]. exfalso. apply look_in in E. apply (D1 (o_x o)).
      * unfold names. apply in_map_iff. now exists (o_x o, n).
      * apply in_or_app; right. apply in_or_app; right. now apply in_map.
Qed.
Lemma pmulb_ok ext p q v : ext_ok dim ext v -> forallb (okterm ext) p = true -> forallb (okterm ext) q = true -> apart p q = true ->
  ps (pmulb p q) v (pure (reference na nb)) (reference na nb) = ps p v (ps q v (pure (reference na nb))) (reference na nb).
Proof.
  intros HE Hp Hq HA. rewrite <- pmul_ok by exact HA. unfold psem, pmulb, pmul. rewrite !lsum_flat. apply lsum_ext. intros t Ht. rewrite lsum_flat, !lsum_map. apply lsum_ext. intros u Hu.
  cbn beta iota. rewrite anti_balanced. destruct (balanced (t_o t ++ t_o u)) eqn:B; [cbn [lsum]; ring|]. cbn [lsum]. symmetry.
  apply andb_prop in HA as (H1 & H2). rewrite forallb_forall in Hp, Hq.
  assert (O : okterm ext (tmul t u) = true).
  { apply okterm_tmul; [now apply Hp|now apply Hq| |].
    - intros x Hx C. apply (disjb_ok _ _ H1 x); [apply in_flat_map; now exists t|apply in_flat_map; now exists u].
    - intros x Hx C. apply (disjb_ok _ _ H2 x); [apply in_flat_map; now exists u|apply in_flat_map; now exists t]. }
  change (t_o t ++ t_o u) with (t_o (tmul t u)) in B. set (s := tmul t u) in *. clearbody s.
  unfold tsem. rewrite (ssum_ext dim (t_l s) _ (fun _ => 0)); [rewrite ssum_zero; ring|]. intros w W1 W2.
  rewrite (unbalanced_zero na nb dim dim0 dim2); [ring| |exact B]. now apply (okop_inr dim ext s v).
Qed.
End S.
