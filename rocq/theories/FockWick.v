(** Wick's theorem as a verified program (proof support; nothing here models the code).  A [term] is a rational number times a product of array
    elements times a string of creation and annihilation operators, summed over some of its labels.  [wick] computes the reference expectation value
    of a term as a list of tensor monomials (TensorAlg.v). *)
From Coq Require Import Reals Arith NArith List Bool Lia Lra QArith Qreals ZArith Permutation FunctionalExtensionality.
From Verif Require Import RSum TensorAlg FockSpec FockCar.
Import ListNotations.
Local Open Scope R_scope.

(** Orbital classes: 0 occupied alpha, 1 unoccupied alpha, 2 occupied beta, 3 unoccupied beta *)
Definition orb (na nb c i : nat) : nat :=
  match c with 0 => al i | 1 => al (na + i) | 2 => be i | _ => be (nb + i) end%nat.
Record op := mkOp { o_d : bool; o_c : nat; o_x : nat }.
Definition qann (o : op) : bool := if Nat.even (o_c o) then o_d o else negb (o_d o).
Definition cmatch (o o' : op) : bool := xorb (o_d o) (o_d o') && Nat.eqb (o_c o) (o_c o').

(** Full contractions of a string: sign and pairs of labels *)
Fixpoint picks (o : op) (pre : list op) (s : bool) (r : list op) : list (bool * nat * list op) :=
  match r with
  | [] => []
  | o' :: r' => (if cmatch o o' then [(s, o_x o', rev_append pre r')] else []) ++ picks o (o' :: pre) (negb s) r'
  end.
Fixpoint ev (n : nat) (l : list op) : list (bool * list (nat * nat)) :=
  match n, l with
  | _, [] => [(true, [])]
  | O, _ => []
  | S n, o :: r => if qann o then
      flat_map (fun '(s, y, rest) => map (fun '(s', ds) => (Bool.eqb s s', (o_x o, y) :: ds)) (ev n rest)) (picks o [] true r)
    else []
  end.

Record term := mkTerm { t_c : Q; t_l : list (nat * nat); t_f : list (nat * list nat); t_o : list op }.

Section W.
Variables (na nb : nat) (dim : nat -> nat) (ten : nat -> list nat -> R) (K : nat).
Hypothesis dim0 : dim 0%nat = na.
Hypothesis dim2 : dim 2%nat = nb.
Hypothesis tenK : forall i j, ten K [i; j] = if Nat.eqb i j then 1 else 0.
Notation ref := (reference na nb).
Notation vac := (pure (reference na nb)).

Definition ap (o : op) (v : nat -> nat) (psi : state) : state :=
  if o_d o then cre (orb na nb (o_c o) (v (o_x o))) psi else ann (orb na nb (o_c o) (v (o_x o))) psi.
Fixpoint opsem (l : list op) (v : nat -> nat) (psi : state) : state :=
  match l with [] => psi | o :: r => ap o v (opsem r v psi) end.
Definition inr (v : nat -> nat) (o : op) : Prop := (o_c o < 4)%nat /\ (v (o_x o) < dim (o_c o))%nat.

Lemma ref_bit c i : (c < 4)%nat -> (i < dim c)%nat -> bit ref (orb na nb c i) = Nat.even c.
Proof.
  intros Hc Hi. destruct c as [|[|[|[|c]]]]; cbn [orb Nat.even]; [| | | |lia].
  - rewrite dim0 in Hi. rewrite ref_al. now apply Nat.ltb_lt.
  - rewrite ref_al. apply Nat.ltb_ge. lia.
  - rewrite dim2 in Hi. rewrite ref_be. now apply Nat.ltb_lt.
  - rewrite ref_be. apply Nat.ltb_ge. lia.
Qed.
Lemma orb_inj c i c' i' : (c < 4)%nat -> (c' < 4)%nat -> (i < dim c)%nat -> (i' < dim c')%nat ->
  Nat.eqb (orb na nb c i) (orb na nb c' i') = Nat.eqb c c' && Nat.eqb i i'.
Proof.
  intros Hc Hc' Hi Hi'.
  destruct c as [|[|[|[|c]]]]; [| | | |lia]; (destruct c' as [|[|[|[|c']]]]; [| | | |lia]); cbn [orb Nat.eqb andb]; unfold al, be; rewrite ?dim0, ?dim2 in *.
  all: apply eq_true_iff_eq; rewrite ?Nat.eqb_eq; try (split; [intros; exfalso; lia|discriminate]); try lia.
Qed.
Lemma ap_zero o v : ap o v (fun _ => 0) = fun _ => 0.
Proof. apply functional_extensionality. intros D. unfold ap, cre, ann. destruct (o_d o), (bit D _); ring. Qed.
Lemma ap_lin o v a f b g D : ap o v (fun E => a * f E + b * g E) D = a * ap o v f D + b * ap o v g D.
Proof. unfold ap, cre, ann. destruct (o_d o), (bit D _); ring. Qed.
Lemma ap_scal o v a f D : ap o v (fun E => a * f E) D = a * ap o v f D.
Proof. unfold ap, cre, ann. destruct (o_d o), (bit D _); ring. Qed.
Lemma ap_add o v f g D : ap o v (fun E => f E + g E) D = ap o v f D + ap o v g D.
Proof. unfold ap, cre, ann. destruct (o_d o), (bit D _); ring. Qed.
Lemma ap_ext o v f g : (forall D, f D = g D) -> forall D, ap o v f D = ap o v g D.
Proof. intros H D. now replace f with g by (apply functional_extensionality; intros; now rewrite H). Qed.
Lemma ap_sum o v n (f : nat -> state) D : ap o v (fun E => sumn n (fun i => f i E)) D = sumn n (fun i => ap o v (f i) D).
Proof.
  induction n as [|n IH]; cbn [sumn].
  - now rewrite ap_zero.
  - rewrite ap_add, IH. reflexivity.
Qed.
Lemma opsem_zero l v : opsem l v (fun _ => 0) = fun _ => 0.
Proof. induction l as [|o l IH]; cbn [opsem]; [reflexivity|]. now rewrite IH, ap_zero. Qed.
Lemma opsem_lin l v a f b g : forall D, opsem l v (fun E => a * f E + b * g E) D = a * opsem l v f D + b * opsem l v g D.
Proof.
  induction l as [|o l IH]; cbn [opsem]; intros D; [reflexivity|]. rewrite <- ap_lin. now apply ap_ext.
Qed.
Lemma opsem_scal l v a f : forall D, opsem l v (fun E => a * f E) D = a * opsem l v f D.
Proof. induction l as [|o l IH]; cbn [opsem]; intros D; [reflexivity|]. rewrite <- ap_scal. now apply ap_ext. Qed.
Lemma opsem_add l v f g : forall D, opsem l v (fun E => f E + g E) D = opsem l v f D + opsem l v g D.
Proof. induction l as [|o l IH]; cbn [opsem]; intros D; [reflexivity|]. rewrite <- ap_add. now apply ap_ext. Qed.
Lemma opsem_ext l v f g : (forall D, f D = g D) -> forall D, opsem l v f D = opsem l v g D.
Proof. intros H D. now replace f with g by (apply functional_extensionality; intros; now rewrite H). Qed.
Lemma opsem_sum l v n (f : nat -> state) D : opsem l v (fun E => sumn n (fun i => f i E)) D = sumn n (fun i => opsem l v (f i) D).
Proof.
  induction n as [|n IH]; cbn [sumn].
  - now rewrite opsem_zero.
  - rewrite opsem_add, IH. reflexivity.
Qed.
Lemma opsem_app l r v psi : opsem (l ++ r) v psi = opsem l v (opsem r v psi).
Proof. induction l as [|o l IH]; cbn [opsem app]; [reflexivity|]. now rewrite IH. Qed.
Lemma opsem_agree l v w psi : (forall o, In o l -> v (o_x o) = w (o_x o)) -> opsem l v psi = opsem l w psi.
Proof.
  induction l as [|o l IH]; cbn [opsem]; intros H; [reflexivity|]. rewrite IH by (intros; apply H; now right).
  unfold ap. now rewrite (H o (or_introl eq_refl)).
Qed.

Lemma ap_vac o v : inr v o -> qann o = true -> ap o v vac = fun _ => 0.
Proof.
  intros (Hc & Hi) Hq. assert (B := ref_bit _ _ Hc Hi). unfold ap, qann in *. destruct (Nat.even (o_c o)), (o_d o); try discriminate.
  - now apply pure_cre.
  - now apply pure_ann.
Qed.
Lemma ap_bra o v psi : inr v o -> qann o = false -> ap o v psi ref = 0.
Proof.
  intros (Hc & Hi) Hq. assert (B := ref_bit _ _ Hc Hi). unfold ap, qann, ann, cre in *. destruct (Nat.even (o_c o)), (o_d o); try discriminate; now rewrite B.
Qed.
Lemma ap_ap o o' v psi D : inr v o -> inr v o' ->
  ap o v (ap o' v psi) D = (if cmatch o o' then (if Nat.eqb (v (o_x o)) (v (o_x o')) then 1 else 0) * psi D else 0) - ap o' v (ap o v psi) D.
Proof.
  intros (Hc & Hi) (Hc' & Hi'). assert (J := orb_inj _ _ _ _ Hc Hc' Hi Hi'). unfold ap, cmatch. destruct (o_d o), (o_d o'); cbn [xorb andb].
  - rewrite cre_cre. ring.
  - rewrite cre_ann, J. destruct (Nat.eqb (o_c o) (o_c o')), (Nat.eqb (v (o_x o)) (v (o_x o'))); cbn [andb]; ring.
  - rewrite ann_cre, J. destruct (Nat.eqb (o_c o) (o_c o')), (Nat.eqb (v (o_x o)) (v (o_x o'))); cbn [andb]; ring.
  - rewrite ann_ann. ring.
Qed.

Fixpoint lsum {A} (f : A -> R) (l : list A) : R := match l with [] => 0 | x :: r => f x + lsum f r end.
Lemma lsum_app {A} (f : A -> R) a b : lsum f (a ++ b) = lsum f a + lsum f b.
Proof. induction a as [|x a IH]; cbn; [ring|rewrite IH; ring]. Qed.
Lemma lsum_map {A B} (g : A -> B) (f : B -> R) l : lsum f (map g l) = lsum (fun x => f (g x)) l.
Proof. induction l as [|x l IH]; cbn; [reflexivity|now rewrite IH]. Qed.
Lemma lsum_flat {A B} (g : A -> list B) (f : B -> R) l : lsum f (flat_map g l) = lsum (fun x => lsum f (g x)) l.
Proof. induction l as [|x l IH]; cbn; [reflexivity|now rewrite lsum_app, IH]. Qed.
Lemma lsum_ext {A} (f g : A -> R) l : (forall x, In x l -> f x = g x) -> lsum f l = lsum g l.
Proof. induction l as [|x l IH]; cbn; intros H; [reflexivity|]. rewrite H by auto. rewrite IH by auto. reflexivity. Qed.
Lemma lsum_scal {A} c (f : A -> R) l : lsum (fun x => c * f x) l = c * lsum f l.
Proof. induction l as [|x l IH]; cbn; [ring|rewrite IH; ring]. Qed.
Lemma lsum_zero {A} (f : A -> R) l : (forall x, In x l -> f x = 0) -> lsum f l = 0.
Proof. induction l as [|x l IH]; cbn; intros H; [reflexivity|]. rewrite H, IH by auto. ring. Qed.

Definition dl (v : nat -> nat) (x y : nat) : R := if Nat.eqb (v x) (v y) then 1 else 0.
Fixpoint pdl (v : nat -> nat) (ds : list (nat * nat)) : R := match ds with [] => 1 | (x, y) :: r => dl v x y * pdl v r end.

Lemma sgn_negb s : sgn (negb s) = - sgn s. Proof. destruct s; cbn; ring. Qed.
Lemma sgn_eqb s t : sgn (Bool.eqb s t) = sgn s * sgn t. Proof. destruct s, t; cbn; ring. Qed.

Lemma picks_ok o v D : inr v o -> qann o = true -> forall r pre s, Forall (inr v) r ->
  sgn s * opsem (rev pre) v (ap o v (opsem r v vac)) D =
  lsum (fun '(s', y, rest) => sgn s' * dl v (o_x o) y * opsem rest v vac D) (picks o pre s r).
Proof.
  intros Ho Hq. induction r as [|o' r IH]; intros pre s HF; cbn [picks lsum opsem].
  - rewrite ap_vac by assumption. rewrite opsem_zero. ring.
  - inversion HF as [|? ? H1 H2]; subst. rewrite lsum_app, <- IH by assumption.
    assert (E : opsem (rev pre) v (ap o v (ap o' v (opsem r v vac))) D =
                (if cmatch o o' then dl v (o_x o) (o_x o') * opsem (rev pre) v (opsem r v vac) D else 0) - opsem (rev pre) v (ap o' v (ap o v (opsem r v vac))) D).
    { rewrite (opsem_ext (rev pre) v _ (fun E => (if cmatch o o' then dl v (o_x o) (o_x o') else 0) * opsem r v vac E + (-1) * ap o' v (ap o v (opsem r v vac)) E)).
      - rewrite opsem_lin. destruct (cmatch o o'); ring.
      - intros E. rewrite ap_ap by assumption. unfold dl. destruct (cmatch o o'); ring. }
    rewrite E. cbn [rev]. rewrite opsem_app. cbn [opsem]. rewrite sgn_negb. destruct (cmatch o o'); cbn [lsum].
    + rewrite rev_append_rev, opsem_app. ring.
    + ring.
Qed.
Lemma picks_sub o r : forall pre s s' y rest, In (s', y, rest) (picks o pre s r) -> forall x, In x rest -> In x pre \/ In x r.
Proof.
  induction r as [|o' r IH]; intros pre s s' y rest H x Hx; cbn [picks] in H; [contradiction|]. apply in_app_or in H as [H|H].
  - destruct (cmatch o o'); [|contradiction]. destruct H as [H|[]]. injection H as <- <- <-. rewrite rev_append_rev in Hx.
    apply in_app_or in Hx as [Hx|Hx]; [left; now apply in_rev|right; now right].
  - destruct (IH _ _ _ _ _ H x Hx) as [[<-|G]|G]; [right; now left|now left|right; now right].
Qed.
Lemma picks_len o r : forall pre s s' y rest, In (s', y, rest) (picks o pre s r) -> S (length rest) = (length pre + length r)%nat.
Proof.
  induction r as [|o' r IH]; intros pre s s' y rest H; cbn [picks] in H; [contradiction|]. apply in_app_or in H as [H|H].
  - destruct (cmatch o o'); [|contradiction]. destruct H as [H|[]]. injection H as <- <- <-. rewrite rev_append_rev, app_length, rev_length. cbn [length]. lia.
  - apply IH in H. cbn [length] in *. lia.
Qed.
Theorem ev_ok v : forall n l, (length l <= n)%nat -> Forall (inr v) l ->
  opsem l v vac ref = lsum (fun '(s, ds) => sgn s * pdl v ds) (ev n l).
Proof.
  induction n as [|n IH]; intros [|o r] Hn HF; cbn [length] in Hn; try lia.
  - cbn. unfold pure. rewrite N.eqb_refl. ring.
  - cbn. unfold pure. rewrite N.eqb_refl. ring.
  - inversion HF as [|? ? H1 H2]; subst. cbn [ev]. destruct (qann o) eqn:Q.
    + cbn [opsem]. assert (P := picks_ok o v ref H1 Q r [] true H2). cbn [rev opsem] in P. change (sgn true) with 1 in P. rewrite Rmult_1_l in P. rewrite P.
      rewrite lsum_flat. apply lsum_ext. intros [[s y] rest] Hin. rewrite lsum_map.
      rewrite (IH rest).
      * rewrite <- lsum_scal. apply lsum_ext. intros [s' ds] _. cbn [pdl]. rewrite sgn_eqb. ring.
      * apply picks_len in Hin. cbn [length] in Hin. lia.
      * apply Forall_forall. intros x Hx. destruct (picks_sub _ _ _ _ _ _ _ Hin x Hx) as [[]|G]. rewrite Forall_forall in H2. now apply H2.
    + cbn [opsem lsum]. now apply ap_bra.
Qed.

(** Strings with different numbers of matching operators in some class have no full contraction *)
Definition bal (c : nat) (l : list op) : Z := fold_right (fun o z => if Nat.eqb (o_c o) c then (if o_d o then 1 else -1) + z else z)%Z 0%Z l.
Lemma bal_app c a b : bal c (a ++ b) = (bal c a + bal c b)%Z.
Proof. induction a as [|o a IH]; cbn [bal fold_right app]; [reflexivity|]. fold (bal c (a ++ b)) (bal c a). rewrite IH. destruct (Nat.eqb (o_c o) c); lia. Qed.
Lemma bal_rev c a : bal c (rev a) = bal c a.
Proof. induction a as [|o a IH]; cbn [rev]; [reflexivity|]. rewrite bal_app, IH. cbn [bal fold_right]. fold (bal c a). destruct (Nat.eqb (o_c o) c); lia. Qed.
Lemma picks_bal c o r : forall pre s s' y rest, In (s', y, rest) (picks o pre s r) -> bal c rest = (bal c (rev pre) + bal c (o :: r))%Z.
Proof.
  induction r as [|o' r IH]; intros pre s s' y rest H; cbn [picks] in H; [contradiction|]. apply in_app_or in H as [H|H].
  - unfold cmatch in H. destruct (xorb (o_d o) (o_d o')) eqn:X, (Nat.eqb_spec (o_c o) (o_c o')) as [E|E]; cbn [andb] in H; try contradiction.
    destruct H as [H|[]]. injection H as <- <- <-. rewrite rev_append_rev, bal_app. cbn [bal fold_right]. fold (bal c r). rewrite <- E.
    destruct (Nat.eqb (o_c o) c), (o_d o), (o_d o'); try discriminate X; lia.
  - apply IH in H. rewrite H. cbn [rev]. rewrite bal_app. cbn [bal fold_right]. fold (bal c r). destruct (Nat.eqb (o_c o) c), (Nat.eqb (o_c o') c); lia.
Qed.
Lemma ev_bal c : forall n l, ev n l <> [] -> bal c l = 0%Z.
Proof.
  induction n as [|n IH]; intros [|o r] H; cbn [ev] in H; try reflexivity; [now contradiction H|].
  destruct (qann o); [|now contradiction H].
  destruct (flat_map _ _) as [|z u] eqn:E in H; [now contradiction H|].
  assert (Hin : In z (flat_map (fun '(s, y, rest) => map (fun '(s', ds) => (Bool.eqb s s', (o_x o, y) :: ds)) (ev n rest)) (picks o [] true r))) by (rewrite E; now left).
  apply in_flat_map in Hin as ([[s y] rest] & H1 & H2).
  assert (B : bal c rest = 0%Z). { apply IH. intros G. rewrite G in H2. contradiction. }
  apply (picks_bal c) in H1. cbn [rev bal fold_right] in H1. fold (bal c r) in H1. cbn [bal fold_right]. fold (bal c r). lia.
Qed.
Definition balanced (l : list op) : bool := forallb (fun c => Z.eqb (bal c l) 0) [0; 1; 2; 3]%nat.
Lemma unbalanced_zero l v : Forall (inr v) l -> balanced l = false -> opsem l v vac ref = 0.
Proof.
  intros HF B. rewrite (ev_ok v (length l) l) by auto. destruct (ev (length l) l) as [|z u] eqn:E; [reflexivity|]. exfalso.
  assert (G : forall c, bal c l = 0%Z) by (intros c; apply (ev_bal c (length l)); now rewrite E).
  unfold balanced in B. cbn [forallb] in B. rewrite !G in B. discriminate.
Qed.

(** * Terms *)
Fixpoint ssum (l : list (nat * nat)) (g : (nat -> nat) -> R) (v : nat -> nat) : R :=
  match l with [] => g v | (x, d) :: r => sumn (dim d) (fun i => ssum r g (upd v x i)) end.
Definition tsem (t : term) (v : nat -> nat) (psi : state) : state := fun D =>
  Q2R (t_c t) * ssum (t_l t) (fun w => prodf ten (t_f t) w * opsem (t_o t) w psi D) v.
Definition psem (p : list term) (v : nat -> nat) (psi : state) : state := fun D => lsum (fun t => tsem t v psi D) p.

Lemma ssum_ext l g g' : forall v, (forall w, (forall y, ~ In y (names l) -> w y = v y) -> (forall x d, In (x, d) l -> NoDup (names l) -> (w x < dim d)%nat) -> g w = g' w) ->
  ssum l g v = ssum l g' v.
Proof.
  induction l as [|[x d] l IH]; cbn [ssum]; intros v H; [apply H; auto; intros ? ? []|].
  apply sumn_ext. intros i Hi. apply IH. intros w W1 W2. apply H.
  - intros y Hy. rewrite W1 by (intros G; apply Hy; now right). unfold upd. destruct (Nat.eqb_spec y x) as [->|]; [exfalso; apply Hy; now left|reflexivity].
  - intros x' d' [E|Hin] ND; cbn [names map] in ND; apply NoDup_cons_iff in ND as [N1 N2].
    + injection E as <- <-. rewrite W1 by exact N1. unfold upd. now rewrite Nat.eqb_refl.
    + now apply W2.
Qed.
Lemma ssum_scal l c g : forall v, ssum l (fun w => c * g w) v = c * ssum l g v.
Proof. induction l as [|[x d] l IH]; cbn [ssum]; intros v; [reflexivity|]. rewrite <- sumn_scal. apply sumn_ext. intros; apply IH. Qed.
Lemma ssum_zero l : forall v, ssum l (fun _ => 0) v = 0.
Proof. induction l as [|[x d] l IH]; cbn [ssum]; intros v; [reflexivity|]. apply sumn_0. intros; apply IH. Qed.
Lemma ssum_plus l g h : forall v, ssum l (fun w => g w + h w) v = ssum l g v + ssum l h v.
Proof. induction l as [|[x d] l IH]; cbn [ssum]; intros v; [reflexivity|]. rewrite <- sumn_plus. apply sumn_ext. intros; apply IH. Qed.
Lemma ssum_app l r g : forall v, ssum (l ++ r) g v = ssum l (ssum r g) v.
Proof. induction l as [|[x d] l IH]; cbn [ssum app]; intros v; [reflexivity|]. apply sumn_ext. intros; apply IH. Qed.
Lemma ssum_dsum l fs v : ssum l (prodf ten fs) v = dsum dim ten l fs v.
Proof. revert v. induction l as [|[x d] l IH]; cbn [ssum dsum]; intros v; [reflexivity|]. apply sumn_ext. intros; apply IH. Qed.
Lemma opsem_ssum l r (f : (nat -> nat) -> state) v D : forall u, opsem l v (fun E => ssum r (fun w => f w E) u) D = ssum r (fun w => opsem l v (f w) D) u.
Proof.
  induction r as [|[x d] r IH]; cbn [ssum]; intros u; [reflexivity|]. rewrite opsem_sum. apply sumn_ext. intros; apply IH.
Qed.
Lemma ssum_lsum {A} l (f : A -> (nat -> nat) -> R) p : forall v, ssum l (fun w => lsum (fun x => f x w) p) v = lsum (fun x => ssum l (f x) v) p.
Proof.
  induction p as [|x p IH]; cbn [lsum]; intros v; [apply ssum_zero|]. rewrite ssum_plus, IH. reflexivity.
Qed.
Lemma opsem_lsum {A} l v (f : A -> state) p D : opsem l v (fun E => lsum (fun x => f x E) p) D = lsum (fun x => opsem l v (f x) D) p.
Proof.
  induction p as [|x p IH]; cbn [lsum]; [now rewrite opsem_zero|]. rewrite opsem_add, IH. reflexivity.
Qed.

Definition tvars (t : term) : list nat := names (t_l t) ++ fvars (t_f t) ++ map o_x (t_o t).
Definition tmul (t u : term) : term := mkTerm (Qred (t_c t * t_c u)) (t_l t ++ t_l u) (t_f t ++ t_f u) (t_o t ++ t_o u).
Lemma tsem_agree t v w psi D : (forall y, In y (tvars t) -> ~ In y (names (t_l t)) -> v y = w y) -> tsem t v psi D = tsem t w psi D.
Proof.
  intros H. unfold tsem. f_equal. unfold tvars in H.
  assert (G : forall l v w, (forall y, In y (fvars (t_f t) ++ map o_x (t_o t)) -> ~ In y (names l) -> v y = w y) ->
    ssum l (fun w => prodf ten (t_f t) w * opsem (t_o t) w psi D) v = ssum l (fun w => prodf ten (t_f t) w * opsem (t_o t) w psi D) w).
  { clear H v w. induction l as [|[x d] l IH]; cbn [ssum]; intros v w H.
    - rewrite (prodf_agree ten (t_f t) v w) by (intros; apply H; [apply in_or_app; now left|auto]).
      rewrite (opsem_agree (t_o t) v w) by (intros; apply H; [apply in_or_app; right; now apply in_map|auto]). reflexivity.
    - apply sumn_ext. intros i _. apply IH. intros y Hy Hn. unfold upd. destruct (Nat.eqb_spec y x); [reflexivity|]. apply H; [exact Hy|]. intros [E|E]; [now symmetry in E|contradiction]. }
  apply G. intros y Hy Hn. apply H; [apply in_or_app; now right|exact Hn].
Qed.
Lemma tmul_ok t u v psi D : (forall x, In x (names (t_l t)) -> ~ In x (tvars u)) -> (forall x, In x (names (t_l u)) -> ~ In x (tvars t)) ->
  tsem (tmul t u) v psi D = tsem t v (tsem u v psi) D.
Proof.
  intros H1 H2. unfold tsem at 1. cbn [tmul t_c t_l t_f t_o]. rewrite (Qeq_eqR _ _ (Qred_correct _)), Q2R_mult, ssum_app. unfold tsem at 1. rewrite Rmult_assoc. f_equal.
  rewrite <- ssum_scal. apply ssum_ext. intros w W1 _.
  rewrite (opsem_ext (t_o t) w _ (tsem u w psi)).
  2:{ intros E. apply tsem_agree. intros y Hy Hn. symmetry. apply W1. intros C. now apply (H1 y C). }
  rewrite (opsem_ext (t_o t) w (tsem u w psi) (fun E => Q2R (t_c u) * ssum (t_l u) (fun z => prodf ten (t_f u) z * opsem (t_o u) z psi E) w)) by reflexivity.
  rewrite opsem_scal, (opsem_ssum (t_o t) (t_l u) (fun z E => prodf ten (t_f u) z * opsem (t_o u) z psi E) w D w).
  replace (prodf ten (t_f t) w * (Q2R (t_c u) * ssum (t_l u) (fun z => opsem (t_o t) w (fun E => prodf ten (t_f u) z * opsem (t_o u) z psi E) D) w))
    with (Q2R (t_c u) * (prodf ten (t_f t) w * ssum (t_l u) (fun z => opsem (t_o t) w (fun E => prodf ten (t_f u) z * opsem (t_o u) z psi E) D) w)) by ring.
  f_equal. rewrite <- ssum_scal. apply ssum_ext. intros z Z1 _. rewrite prodf_app, opsem_scal, opsem_app.
  rewrite (prodf_agree ten (t_f t) z w).
  2:{ intros y Hy. apply Z1. intros C. apply (H2 y C). unfold tvars. apply in_or_app. right. apply in_or_app. now left. }
  rewrite (opsem_agree (t_o t) z w).
  2:{ intros o Ho. apply Z1. intros C. apply (H2 _ C). unfold tvars. apply in_or_app. right. apply in_or_app. right. now apply in_map. }
  ring.
Qed.
Definition pmul (p q : list term) : list term := flat_map (fun t => map (tmul t) q) p.
Definition apart (p q : list term) : bool :=
  disjb (flat_map (fun t => names (t_l t)) p) (flat_map tvars q) && disjb (flat_map (fun t => names (t_l t)) q) (flat_map tvars p).
Lemma tsem_ext t v f g : (forall D, f D = g D) -> forall D, tsem t v f D = tsem t v g D.
Proof. intros H D. now replace f with g by (apply functional_extensionality; intros; now rewrite H). Qed.
Lemma psem_ext p v f g : (forall D, f D = g D) -> forall D, psem p v f D = psem p v g D.
Proof. intros H D. now replace f with g by (apply functional_extensionality; intros; now rewrite H). Qed.
Lemma tsem_lsum {A} t v (f : A -> state) p D : tsem t v (fun E => lsum (fun x => f x E) p) D = lsum (fun x => tsem t v (f x) D) p.
Proof.
  unfold tsem. rewrite lsum_scal. f_equal. rewrite <- ssum_lsum. apply ssum_ext. intros w _ _. rewrite opsem_lsum, <- lsum_scal. reflexivity.
Qed.
Lemma pmul_ok p q v psi D : apart p q = true -> psem (pmul p q) v psi D = psem p v (psem q v psi) D.
Proof.
  intros H. apply andb_prop in H as (H1 & H2). unfold psem at 1, pmul. rewrite lsum_flat. unfold psem at 1. apply lsum_ext. intros t Ht. rewrite lsum_map.
  rewrite (tsem_ext t v (psem q v psi) (fun E => lsum (fun u => tsem u v psi E) q)) by reflexivity. rewrite tsem_lsum. apply lsum_ext. intros u Hu.
  apply tmul_ok.
  - intros x Hx C. apply (disjb_ok _ _ H1 x); [apply in_flat_map; now exists t|apply in_flat_map; now exists u].
  - intros x Hx C. apply (disjb_ok _ _ H2 x); [apply in_flat_map; now exists u|apply in_flat_map; now exists t].
Qed.

(** * Deltas *)
Definition one_ren (x y z : nat) : nat := if Nat.eqb z x then y else z.
Definition drop (x : nat) (l : list (nat * nat)) : list (nat * nat) := filter (fun z => negb (Nat.eqb (fst z) x)) l.
Fixpoint look (x : nat) (l : list (nat * nat)) : option nat := match l with [] => None | (y, d) :: r => if Nat.eqb x y then Some d else look x r end.
Definition same_class (ext l : list (nat * nat)) (x y : nat) : bool :=
  match look x (l ++ ext), look y (l ++ ext) with Some a, Some b => Nat.eqb a b | _, _ => false end.
Fixpoint elim (ext : list (nat * nat)) (n : nat) (ds l : list (nat * nat)) (f : list (nat * list nat)) : option (list (nat * nat) * list (nat * list nat)) :=
  match n, ds with
  | _, [] => Some (l, f)
  | O, _ => None
  | S n, (x, y) :: r =>
    if Nat.eqb x y then None else if negb (same_class ext l x y) then None
    else if mem x (names l) then elim ext n (map (fun z => (one_ren x y (fst z), one_ren x y (snd z))) r) (drop x l) (renf (one_ren x y) f)
    else if mem y (names l) then elim ext n (map (fun z => (one_ren y x (fst z), one_ren y x (snd z))) r) (drop y l) (renf (one_ren y x) f)
    else None
  end.
Definition dfs (ds : list (nat * nat)) : list (nat * list nat) := map (fun z => (K, [fst z; snd z])) ds.
Lemma prodf_dfs ds v : prodf ten (dfs ds) v = pdl v ds.
Proof. induction ds as [|[x y] ds IH]; cbn [dfs map prodf pdl fst snd]; [reflexivity|]. fold (dfs ds). rewrite IH, tenK. reflexivity. Qed.

Lemma look_in x l d : look x l = Some d -> In (x, d) l.
Proof. induction l as [|[y e] l IH]; cbn [look]; [discriminate|]. destruct (Nat.eqb_spec x y); [intros E; injection E as ->; subst; now left|intros; right; auto]. Qed.
Lemma look_app x l r : look x (l ++ r) = match look x l with Some d => Some d | None => look x r end.
Proof. induction l as [|[y e] l IH]; cbn [look app]; [reflexivity|]. destruct (Nat.eqb x y); auto. Qed.
Lemma look_none x l : look x l = None -> ~ In x (names l).
Proof. induction l as [|[y e] l IH]; cbn [look names map]; [auto|]. destruct (Nat.eqb_spec x y); [discriminate|]. intros H [G|G]; [now symmetry in G|now apply IH]. Qed.
Lemma look_nodup x l d : NoDup (names l) -> In (x, d) l -> look x l = Some d.
Proof.
  induction l as [|[y e] l IH]; cbn [look names map]; intros ND []; apply NoDup_cons_iff in ND as [N1 N2].
  - injection H as -> ->. now rewrite Nat.eqb_refl.
  - destruct (Nat.eqb_spec x y); [subst; exfalso; apply N1; apply (in_map fst) in H; exact H|now apply IH].
Qed.

Lemma delta_last x y d f : x <> y -> forall l v, ~ In x (names l) -> NoDup (names l) -> (look y l = Some d \/ (look y l = None /\ (v y < dim d)%nat)) ->
  dsum dim ten (l ++ [(x, d)]) ((K, [x; y]) :: f) v = dsum dim ten l (renf (one_ren x y) f) v.
Proof.
  intros N. induction l as [|[z e] l IH]; cbn [dsum app]; intros v Hx ND Hy.
  - cbn [look] in Hy. destruct Hy as [Hy|(_ & Hy)]; [discriminate|].
    rewrite (sumn_ext _ _ (fun i => if Nat.eqb i (v y) then prodf ten f (upd v x i) else 0)).
    + rewrite sumn_delta_f by exact Hy. clear - N. induction f as [|[k ix] f IH]; cbn [prodf renf map fst snd]; [reflexivity|]. fold (renf (one_ren x y) f). rewrite IH. f_equal. f_equal.
      rewrite map_map. apply map_ext. intros z. unfold upd, one_ren. destruct (Nat.eqb z x); reflexivity.
    + intros i _. cbn [prodf map fst snd]. rewrite tenK. unfold upd at 1 2. rewrite Nat.eqb_refl, (eqb_neq y x) by auto. destruct (Nat.eqb i (v y)); ring.
  - cbn [names map fst] in Hx, ND. apply NoDup_cons_iff in ND as [N1 N2]. apply sumn_ext. intros i Hi. apply IH; [intros C; apply Hx; now right|exact N2|].
    cbn [look] in Hy. unfold upd. destruct (Nat.eqb_spec y z) as [->|NE].
    + right. destruct Hy as [Hy|(Hy & _)]; [|discriminate]. injection Hy as ->. split; [|exact Hi]. destruct (look z l) eqn:E; [|reflexivity].
      exfalso. apply N1. apply look_in in E. apply (in_map fst) in E. exact E.
    + exact Hy.
Qed.
Lemma drop_perm x d l : NoDup (names l) -> In (x, d) l -> Permutation l (drop x l ++ [(x, d)]).
Proof.
  induction l as [|[y e] l IH]; cbn [drop filter names map fst]; intros ND []; apply NoDup_cons_iff in ND as [N1 N2].
  - injection H as -> ->. rewrite Nat.eqb_refl. cbn [negb]. fold (drop x l).
    assert (E : drop x l = l). { clear - N1. induction l as [|[y e] l IH]; [reflexivity|]. cbn [drop filter fst]. destruct (Nat.eqb_spec y x) as [->|]; [exfalso; apply N1; now left|]. cbn [negb]. fold (drop x l). rewrite IH; [reflexivity|]. intros C; apply N1; now right. }
    rewrite E. apply Permutation_cons_append.
  - destruct (Nat.eqb_spec y x) as [->|NE]; [exfalso; apply N1; apply (in_map fst) in H; exact H|]. cbn [negb app]. apply perm_skip. now apply IH.
Qed.
Lemma drop_names x l : forall y, In y (names (drop x l)) <-> In y (names l) /\ y <> x.
Proof.
  intros y. unfold names, drop. rewrite !in_map_iff. split.
  - intros (z & <- & H). apply filter_In in H as (H & E). split; [now exists z|]. intros C. rewrite C, Nat.eqb_refl in E. discriminate.
  - intros ((z & <- & H) & N). exists z. split; [reflexivity|]. apply filter_In. split; [exact H|]. now rewrite (eqb_neq _ _ N).
Qed.
Lemma drop_nodup x l : NoDup (names l) -> NoDup (names (drop x l)).
Proof.
  induction l as [|[y e] l IH]; cbn [drop filter names map fst]; intros ND; [constructor|]. apply NoDup_cons_iff in ND as [N1 N2].
  destruct (negb (Nat.eqb y x)); fold (drop x l); [|now apply IH]. cbn [map fst]. constructor; [|now apply IH]. intros C. apply N1. now apply (drop_names x l y).
Qed.
Lemma drop_look x y l : y <> x -> look y (drop x l) = look y l.
Proof.
  intros N. induction l as [|[z e] l IH]; cbn [drop filter look fst]; [reflexivity|]. destruct (Nat.eqb_spec z x) as [->|NE]; cbn [negb]; fold (drop x l).
  - rewrite (eqb_neq y x N). exact IH.
  - cbn [look]. destruct (Nat.eqb y z); auto.
Qed.
Definition ext_ok (ext : list (nat * nat)) (v : nat -> nat) : Prop := forall x d, In (x, d) ext -> (v x < dim d)%nat.
Lemma same_class_sym ext l x y : same_class ext l x y = same_class ext l y x.
Proof. unfold same_class. destruct (look x (l ++ ext)), (look y (l ++ ext)); try reflexivity. apply Nat.eqb_sym. Qed.
Lemma delta_step ext l f v x y : ext_ok ext v -> NoDup (names l) -> x <> y -> same_class ext l x y = true -> In x (names l) ->
  dsum dim ten l ((K, [x; y]) :: f) v = dsum dim ten (drop x l) (renf (one_ren x y) f) v.
Proof.
  intros HE ND N SC Hx. unfold same_class in SC. destruct (look x (l ++ ext)) as [d|] eqn:Lx; [|discriminate]. destruct (look y (l ++ ext)) as [d'|] eqn:Ly; [|discriminate].
  apply Nat.eqb_eq in SC. subst d'. rewrite look_app in Lx. destruct (look x l) as [dx|] eqn:Lxl; [|exfalso; now apply (look_none _ _ Lxl)].
  injection Lx as ->. assert (Hin := look_in _ _ _ Lxl). rewrite (dsum_perm _ _ _ _ _ (drop_perm x d l ND Hin) ND).
  apply delta_last; [exact N|intros C; now apply (drop_names x l) in C as (_ & C)|now apply drop_nodup|].
  rewrite drop_look by auto. rewrite look_app in Ly. destruct (look y l) as [dy|]; [left; exact Ly|right; split; [reflexivity|]]. apply HE. now apply look_in.
Qed.
Lemma dsum_perm_f l fs gs : Permutation fs gs -> forall v, dsum dim ten l fs v = dsum dim ten l gs v.
Proof.
  intros P. assert (E : forall v, prodf ten fs v = prodf ten gs v).
  { intros v. induction P as [|f a b P IH|f g a|a b c P1 IH1 P2 IH2]; cbn [prodf]; try congruence. ring. }
  induction l as [|[x d] l IH]; cbn [dsum]; intros v; [apply E|]. apply sumn_ext. intros; apply IH.
Qed.
Lemma dfs_ren x y r : renf (one_ren x y) (dfs r) = dfs (map (fun z => (one_ren x y (fst z), one_ren x y (snd z))) r).
Proof. unfold renf, dfs. rewrite !map_map. apply map_ext. intros [a b]. reflexivity. Qed.
Lemma renf_app r a b : renf r (a ++ b) = renf r a ++ renf r b. Proof. apply map_app. Qed.
Lemma tenK_sym x y l f v : dsum dim ten l ((K, [x; y]) :: f) v = dsum dim ten l ((K, [y; x]) :: f) v.
Proof.
  revert v. induction l as [|[z d] l IH]; cbn [dsum]; intros v; [|apply sumn_ext; intros; apply IH]. cbn [prodf map fst snd]. rewrite !tenK. now rewrite Nat.eqb_sym.
Qed.
Lemma elim_ok ext v : ext_ok ext v -> forall n ds l f l' f', NoDup (names l) -> elim ext n ds l f = Some (l', f') ->
  dsum dim ten l (dfs ds ++ f) v = dsum dim ten l' f' v.
Proof.
  intros HE. induction n as [|n IH]; intros [|[x y] r] l f l' f' ND H; cbn [elim] in H; try discriminate; try (injection H as <- <-; reflexivity).
  destruct (Nat.eqb_spec x y) as [|N]; [discriminate|]. destruct (same_class ext l x y) eqn:SC; cbn [negb] in H; [|discriminate].
  cbn [dfs map app fst snd]. fold (dfs r). destruct (mem x (names l)) eqn:Mx.
  - apply mem_in in Mx. rewrite (delta_step ext l _ v x y HE ND N SC Mx), renf_app, dfs_ren. apply IH; [now apply drop_nodup|exact H].
  - destruct (mem y (names l)) eqn:My; [|discriminate]. apply mem_in in My. rewrite tenK_sym.
    rewrite same_class_sym in SC. rewrite (delta_step ext l _ v y x HE ND (not_eq_sym N) SC My), renf_app, dfs_ren. apply IH; [now apply drop_nodup|exact H].
Qed.

(** * The expectation value of a term *)
Definition okop (ext l : list (nat * nat)) (o : op) : bool :=
  Nat.ltb (o_c o) 4 && match look (o_x o) (l ++ ext) with Some d => Nat.eqb d (o_c o) | None => false end.
Definition okterm (ext : list (nat * nat)) (t : term) : bool := nodupb (names (t_l t)) && disjb (names ext) (names (t_l t)) && forallb (okop ext (t_l t)) (t_o t).
Lemma okop_inr ext t v w : ext_ok ext v -> okterm ext t = true -> (forall y, ~ In y (names (t_l t)) -> w y = v y) ->
  (forall x d, In (x, d) (t_l t) -> NoDup (names (t_l t)) -> (w x < dim d)%nat) -> Forall (inr w) (t_o t).
Proof.
  intros HE HO W1 W2. apply andb_prop in HO as (HO & H3). apply andb_prop in HO as (H1 & H2). apply Forall_forall. intros o Ho.
  rewrite forallb_forall in H3. specialize (H3 o Ho). apply andb_prop in H3 as (H4 & H5). apply Nat.ltb_lt in H4. split; [exact H4|].
  rewrite look_app in H5. destruct (look (o_x o) (t_l t)) as [d|] eqn:L.
  - apply Nat.eqb_eq in H5. subst d. apply W2; [now apply look_in|now apply nodupb_ok].
  - destruct (look (o_x o) ext) as [d|] eqn:L2; [|discriminate]. apply Nat.eqb_eq in H5. subst d. rewrite W1 by (now apply look_none). apply HE. now apply look_in.
Qed.
Definition wick_mono (ext : list (nat * nat)) (t : term) (c : bool * list (nat * nat)) : option mono :=
  match elim ext (length (snd c)) (snd c) (t_l t) (t_f t) with
  | Some (l, f) => Some (mkMono (if fst c then t_c t else Qopp (t_c t)) l f)
  | None => None
  end.
Definition wick (ext : list (nat * nat)) (t : term) : option (list mono) :=
  if balanced (t_o t) then
    if okterm ext t then seqo (map (wick_mono ext t) (ev (length (t_o t)) (t_o t))) else None
  else if okterm ext t then Some [] else None.
Lemma seqo_pden {A} (f : A -> option mono) (g : A -> R) v p : forall ms, seqo (map f p) = Some ms ->
  (forall x m, In x p -> f x = Some m -> g x = mden dim ten m v) -> lsum g p = pden dim ten ms v.
Proof.
  induction p as [|x p IH]; cbn [map seqo lsum]; intros ms H G; [injection H as <-; reflexivity|].
  destruct (f x) as [m|] eqn:E; [|discriminate]. destruct (seqo (map f p)) as [r|]; [|discriminate]. injection H as <-. cbn [pden].
  rewrite (G x m (or_introl eq_refl) E). f_equal. apply IH; [reflexivity|]. intros y m0 Hy. apply G. now right.
Qed.
Theorem wick_ok ext t v ms : ext_ok ext v -> wick ext t = Some ms -> tsem t v vac ref = pden dim ten ms v.
Proof.
  intros HE H. unfold wick in H. destruct (balanced (t_o t)) eqn:B.
  - destruct (okterm ext t) eqn:O; [|discriminate].
    unfold tsem. rewrite (ssum_ext (t_l t) _ (fun w => lsum (fun c => sgn (fst c) * prodf ten (dfs (snd c) ++ t_f t) w) (ev (length (t_o t)) (t_o t)))).
    + rewrite ssum_lsum, <- lsum_scal. apply (seqo_pden _ _ v _ ms H). intros [s ds] m _ E. unfold wick_mono in E. cbn [fst snd] in *.
      destruct (elim ext (length ds) ds (t_l t) (t_f t)) as [[l f]|] eqn:EE; [|discriminate]. injection E as <-.
      rewrite ssum_scal, ssum_dsum. apply elim_ok with (v := v) in EE; [|exact HE|apply andb_prop in O as (O & _); apply andb_prop in O as (O & _); now apply nodupb_ok].
      rewrite EE. unfold mden. cbn [m_c m_l m_f]. destruct s; [change (sgn true) with 1; ring|]. rewrite Q2R_opp. change (sgn false) with (-1). ring.
    + intros w W1 W2. rewrite (ev_ok w (length (t_o t)) (t_o t)); [|lia|now apply (okop_inr ext t v)]. rewrite <- lsum_scal. apply lsum_ext. intros [s ds] _. cbn [fst snd].
      rewrite prodf_app, prodf_dfs. ring.
  - destruct (okterm ext t) eqn:O; [|discriminate]. injection H as <-. cbn [pden]. unfold tsem.
    rewrite (ssum_ext (t_l t) _ (fun _ => 0)); [rewrite ssum_zero; ring|]. intros w W1 W2. rewrite unbalanced_zero; [ring|now apply (okop_inr ext t v)|exact B].
Qed.
Fixpoint wicks (ext : list (nat * nat)) (p : list term) : option (list mono) :=
  match p with [] => Some [] | t :: r => match wick ext t, wicks ext r with Some a, Some b => Some (a ++ b) | _, _ => None end end.
Lemma wicks_ok ext v : ext_ok ext v -> forall p ms, wicks ext p = Some ms -> psem p v vac ref = pden dim ten ms v.
Proof.
  intros HE. induction p as [|t p IH]; intros ms H; cbn [wicks] in H; [injection H as <-; reflexivity|].
  destruct (wick ext t) as [a|] eqn:E; [|discriminate]. destruct (wicks ext p) as [b|]; [|discriminate]. injection H as <-.
  rewrite pden_app, <- (wick_ok ext t v a HE E), <- (IH b eq_refl). reflexivity.
Qed.
End W.

(** * The checker: the expectation values of a list of terms add up to a tensor expression *)
Definition fock_same (tab : list (list (nat * list nat * bool))) (ext : list (nat * nat)) (p : list term) (e : ex) : bool :=
  match wicks ext p, nf (EOpp e) with
  | Some ms, Some q => match table (fun k => nth k tab []) (fun x => x) [0; 1; 2; 3]%nat (ms ++ q) with Some t => zerot t | None => false end
  | _, _ => false
  end.
Theorem fock_same_sound na nb dim ten K gens n tab ext p e v :
  dim 0%nat = na -> dim 2%nat = nb -> (forall i j, ten K [i; j] = if Nat.eqb i j then 1 else 0) ->
  tab = symtab gens n -> Forall (fun g => okalt ten (fst g) (snd g)) gens ->
  ext_ok dim ext v -> fock_same tab ext p e = true ->
  psem na nb dim ten p v (pure (reference na nb)) (reference na nb) = den dim ten e v.
Proof.
  intros D0 D2 TK Htab Hg HE H. unfold fock_same in H. destruct (wicks ext p) as [ms|] eqn:E1; [|discriminate]. destruct (nf (EOpp e)) as [q|] eqn:E2; [|discriminate].
  destruct (table _ _ _ (ms ++ q)) as [t|] eqn:E3; [|discriminate].
  rewrite (wicks_ok na nb dim ten K D0 D2 TK ext v HE p ms E1).
  assert (G : pden dim ten (ms ++ q) v = 0).
  { subst tab. rewrite Forall_forall in Hg.
    assert (KK : forall k x, In x (nth k (symtab gens n) []) -> okalt ten k x).
    { intros k x Hx. unfold symtab in Hx. destruct (Nat.lt_ge_cases k n) as [Hk|Hk].
      - rewrite (nth_indep _ [] (closure gens 0)) in Hx by (now rewrite map_length, seq_length).
        rewrite map_nth, seq_nth in Hx by exact Hk. now apply (closure_ok ten gens Hg).
      - rewrite nth_overflow in Hx by (rewrite map_length, seq_length; exact Hk). contradiction. }
    rewrite (table_ok dim ten (fun k => nth k (symtab gens n) []) (fun x => x) [0; 1; 2; 3]%nat) with (t := t).
    - now apply zerot_ok.
    - reflexivity.
    - intros k k' pp s Hin. apply (KK _ _ Hin).
    - intros k k' pp s Hin. apply (KK _ _ Hin).
    - exact E3. }
  rewrite pden_app, <- (nf_ok _ _ _ _ E2) in G. cbn [den] in G. lra.
Qed.
