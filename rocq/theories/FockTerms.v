(** The Hamiltonian and the cluster operators of second quantisation as lists of terms (proof support), with the proof that the lists mean what FockSpec.v says. *)
From Coq Require Import Reals Arith NArith List Bool Lia Lra QArith Qreals ZArith FunctionalExtensionality.
From Verif Require Import RSum IntegralsModel TensorObjs TensorAlg TensorSpec FockSpec FockCar FockWick FockArrays FockCcSpec.
Import ListNotations.
Local Open Scope R_scope.

Definition C (c x : nat) : op := mkOp true c x.
Definition A (c x : nat) : op := mkOp false c x.
Definition one_term (q : Q) (z k c1 c2 : nat) : term := mkTerm q [(z, c1); (S z, c2)] [(k, [z; S z])] [C c1 z; A c2 (S z)].
Definition mean_term (q : Q) (z k c1 c2 c3 : nat) (ix : list nat) : term := mkTerm q [(z, c1); (S z, c2); (S (S z), c3)] [(k, ix)] [C c1 z; A c2 (S z)].
Definition two_term (q : Q) (z k c1 c2 c3 c4 : nat) : term :=
  mkTerm q [(z, c1); (S z, c2); (S (S z), c3); (S (S (S z)), c4)] [(k, [z; S z; S (S z); S (S (S z))])] [C c1 z; C c2 (S z); A c4 (S (S (S z))); A c3 (S (S z))].
Definition oc (s x : nat) : nat := (2 * s + x)%nat.       (* class of spin s (0 alpha, 1 beta), x = 0 occupied, 1 unoccupied *)
Definition ov2 : list (nat * nat) := [(0, 0); (0, 1); (1, 0); (1, 1)]%nat.
Definition ov4 : list (nat * nat * (nat * nat)) := list_prod ov2 ov2.
Definition h_terms (z : nat) : list term :=
  flat_map (fun s => map (fun '(x, y) => one_term 1 z (9 + 4 * s + 2 * x + y) (oc s x) (oc s y)) ov2) [0; 1]%nat
  ++ map (fun '(x, y) => mean_term (-1) z (17 + 8 * x + 2 * y) (oc 0 x) (oc 0 y) 0 [z; S (S z); S z; S (S z)]) ov2
  ++ map (fun '(x, y) => mean_term (-1) z (33 + 8 * x + 2 * y) (oc 0 x) (oc 0 y) 2 [z; S (S z); S z; S (S z)]) ov2
  ++ map (fun '(x, y) => mean_term (-1) z (33 + 4 * x + y) (oc 1 x) (oc 1 y) 0 [S (S z); z; S (S z); S z]) ov2
  ++ map (fun '(x, y) => mean_term (-1) z (49 + 8 * x + 2 * y) (oc 1 x) (oc 1 y) 2 [z; S (S z); S z; S (S z)]) ov2
  ++ map (fun '(w, x, (y, u)) => two_term (1 # 4) z (17 + 8 * w + 4 * x + 2 * y + u) (oc 0 w) (oc 0 x) (oc 0 y) (oc 0 u)) ov4
  ++ map (fun '(w, x, (y, u)) => two_term 1 z (33 + 8 * w + 4 * x + 2 * y + u) (oc 0 w) (oc 1 x) (oc 0 y) (oc 1 u)) ov4
  ++ map (fun '(w, x, (y, u)) => two_term (1 # 4) z (49 + 8 * w + 4 * x + 2 * y + u) (oc 1 w) (oc 1 x) (oc 1 y) (oc 1 u)) ov4.
Definition t_terms (z : nat) : list term :=
  [one_term 1 z 0 1 0; one_term 1 z 1 3 2; two_term (1 # 4) z 2 1 1 0 0; two_term 1 z 3 1 3 0 2; two_term (1 # 4) z 4 3 3 2 2].

Section S.
Variables (na nb : nat) (dim : nat -> nat) (ten : nat -> list nat -> R).
Notation O := (orb na nb).
Ltac lab := unfold upd; rewrite ?Nat.eqb_refl; repeat match goal with |- context [Nat.eqb ?a ?b] => replace (Nat.eqb a b) with false by (symmetry; apply Nat.eqb_neq; lia) end; rewrite ?Nat.eqb_refl.
Lemma one_sem q z k c1 c2 v psi D : tsem na nb dim ten (one_term q z k c1 c2) v psi D =
  Q2R q * sumn (dim c1) (fun p => sumn (dim c2) (fun r => ten k [p; r] * cre (O c1 p) (ann (O c2 r) psi) D)).
Proof.
  unfold tsem, one_term. cbn [t_c t_l t_f t_o ssum]. f_equal. apply sumn_ext; intros p _; apply sumn_ext; intros r _.
  cbn [prodf fst snd map opsem ap C A o_d o_c o_x]. unfold ap. cbn [o_d o_c o_x C A]. lab. ring.
Qed.
Lemma mean_sem q z k c1 c2 c3 ix v psi D : tsem na nb dim ten (mean_term q z k c1 c2 c3 ix) v psi D =
  Q2R q * sumn (dim c1) (fun p => sumn (dim c2) (fun r => sumn (dim c3) (fun m => ten k (map (upd (upd (upd v z p) (S z) r) (S (S z)) m) ix)) * cre (O c1 p) (ann (O c2 r) psi) D)).
Proof.
  unfold tsem, mean_term. cbn [t_c t_l t_f t_o ssum]. f_equal. apply sumn_ext; intros p _; apply sumn_ext; intros r _. rewrite <- sumn_scal_r. apply sumn_ext; intros m _.
  cbn [prodf fst snd opsem]. unfold ap. cbn [o_d o_c o_x C A]. set (u := map _ ix). clearbody u. lab. ring.
Qed.
Lemma two_sem q z k c1 c2 c3 c4 v psi D : tsem na nb dim ten (two_term q z k c1 c2 c3 c4) v psi D =
  Q2R q * sumn (dim c1) (fun p => sumn (dim c2) (fun r => sumn (dim c3) (fun s => sumn (dim c4) (fun u =>
    ten k [p; r; s; u] * cre (O c1 p) (cre (O c2 r) (ann (O c4 u) (ann (O c3 s) psi))) D)))).
Proof.
  unfold tsem, two_term. cbn [t_c t_l t_f t_o ssum]. f_equal. apply sumn_ext; intros p _; apply sumn_ext; intros r _; apply sumn_ext; intros s _; apply sumn_ext; intros u _.
  cbn [prodf fst snd map opsem]. unfold ap. cbn [o_d o_c o_x C A]. lab. ring.
Qed.
Lemma mean_ix_p z p r m v : map (upd (upd (upd v z p) (S z) r) (S (S z)) m) [z; S (S z); S z; S (S z)] = [p; m; r; m].
Proof. cbn [map]. lab. reflexivity. Qed.
Lemma mean_ix_q z p r m v : map (upd (upd (upd v z p) (S z) r) (S (S z)) m) [S (S z); z; S (S z); S z] = [m; p; m; r].
Proof. cbn [map]. lab. reflexivity. Qed.
End S.

Notation fdim d := (denv [noa d; nua d; nob d; nub d]).
Notation ften H T := (tenv (fock_arrays H T)).

Lemma Q4 : Q2R (1 # 4) = / 4. Proof. unfold Q2R. cbn. field. Qed.
Lemma Q1 : Q2R 1 = 1. Proof. unfold Q2R. cbn. field. Qed.
Lemma Qm1 : Q2R (-1) = -1. Proof. unfold Q2R. cbn. field. Qed.
Lemma t_sem d H T z v psi D : psem (noa d) (nob d) (fdim d) (ften H T) (t_terms z) v psi D = cluster_sd d T psi D.
Proof.
  unfold psem, t_terms. cbn [lsum]. rewrite !one_sem, !two_sem, Q4, Q1. unfold cluster_sd, single_op, double_op. cbn [denv nth tenv fock_arrays ap2 ap4 orb].
  unfold tenv, denv. cbn [nth fock_arrays ap2 ap4 orb]. ring.
Qed.

(** Splitting sums over all orbitals *)
Lemma split2 o v (f : nat -> nat -> R) : sumn (o + v) (fun p => sumn (o + v) (fun q => f p q)) =
  sumn o (fun p => sumn o (fun q => f p q)) + sumn o (fun p => sumn v (fun q => f p (o + q)%nat))
  + sumn v (fun p => sumn o (fun q => f (o + p)%nat q)) + sumn v (fun p => sumn v (fun q => f (o + p)%nat (o + q)%nat)).
Proof.
  rewrite sumn_split. rewrite (sumn_ext o _ (fun p => sumn o (fun q => f p q) + sumn v (fun q => f p (o + q)%nat))) by (intros; apply sumn_split).
  rewrite (sumn_ext v _ (fun p => sumn o (fun q => f (o + p)%nat q) + sumn v (fun q => f (o + p)%nat (o + q)%nat))) by (intros; apply sumn_split).
  rewrite !sumn_plus. ring.
Qed.
Lemma split4 o v o' v' n (f : nat -> nat -> nat -> nat -> R) : (o + v = n)%nat -> (o' + v' = n)%nat ->
  sumn n (fun p => sumn n (fun q => sumn n (fun r => sumn n (fun s => f p q r s)))) =
  sumn o (fun p => sumn o' (fun q => sumn o (fun r => sumn o' (fun s => f p q r s))))
  + sumn o (fun p => sumn o' (fun q => sumn o (fun r => sumn v' (fun s => f p q r (o' + s)%nat))))
  + sumn o (fun p => sumn o' (fun q => sumn v (fun r => sumn o' (fun s => f p q (o + r)%nat s))))
  + sumn o (fun p => sumn o' (fun q => sumn v (fun r => sumn v' (fun s => f p q (o + r)%nat (o' + s)%nat))))
  + sumn o (fun p => sumn v' (fun q => sumn o (fun r => sumn o' (fun s => f p (o' + q)%nat r s))))
  + sumn o (fun p => sumn v' (fun q => sumn o (fun r => sumn v' (fun s => f p (o' + q)%nat r (o' + s)%nat))))
  + sumn o (fun p => sumn v' (fun q => sumn v (fun r => sumn o' (fun s => f p (o' + q)%nat (o + r)%nat s))))
  + sumn o (fun p => sumn v' (fun q => sumn v (fun r => sumn v' (fun s => f p (o' + q)%nat (o + r)%nat (o' + s)%nat))))
  + sumn v (fun p => sumn o' (fun q => sumn o (fun r => sumn o' (fun s => f (o + p)%nat q r s))))
  + sumn v (fun p => sumn o' (fun q => sumn o (fun r => sumn v' (fun s => f (o + p)%nat q r (o' + s)%nat))))
  + sumn v (fun p => sumn o' (fun q => sumn v (fun r => sumn o' (fun s => f (o + p)%nat q (o + r)%nat s))))
  + sumn v (fun p => sumn o' (fun q => sumn v (fun r => sumn v' (fun s => f (o + p)%nat q (o + r)%nat (o' + s)%nat))))
  + sumn v (fun p => sumn v' (fun q => sumn o (fun r => sumn o' (fun s => f (o + p)%nat (o' + q)%nat r s))))
  + sumn v (fun p => sumn v' (fun q => sumn o (fun r => sumn v' (fun s => f (o + p)%nat (o' + q)%nat r (o' + s)%nat))))
  + sumn v (fun p => sumn v' (fun q => sumn v (fun r => sumn o' (fun s => f (o + p)%nat (o' + q)%nat (o + r)%nat s))))
  + sumn v (fun p => sumn v' (fun q => sumn v (fun r => sumn v' (fun s => f (o + p)%nat (o' + q)%nat (o + r)%nat (o' + s)%nat)))).
Proof.
  intros E E'.
  assert (S : forall g, sumn n g = sumn o g + sumn v (fun i => g (o + i)%nat)) by (intros; rewrite <- E; apply sumn_split).
  assert (S' : forall g, sumn n g = sumn o' g + sumn v' (fun i => g (o' + i)%nat)) by (intros; rewrite <- E'; apply sumn_split).
  assert (S2 : forall g : nat -> nat -> R, sumn n (fun r => sumn n (fun s => g r s)) =
     sumn o (fun r => sumn o' (fun s => g r s)) + sumn o (fun r => sumn v' (fun s => g r (o' + s)%nat))
     + sumn v (fun r => sumn o' (fun s => g (o + r)%nat s)) + sumn v (fun r => sumn v' (fun s => g (o + r)%nat (o' + s)%nat))).
  { intros g. rewrite S, (sumn_ext o _ (fun r => sumn o' (fun s => g r s) + sumn v' (fun s => g r (o' + s)%nat))) by (intros; apply S').
    rewrite (sumn_ext v _ (fun r => sumn o' (fun s => g (o + r)%nat s) + sumn v' (fun s => g (o + r)%nat (o' + s)%nat))) by (intros; apply S').
    rewrite !sumn_plus. ring. }
  rewrite S2.
  rewrite (sumn_ext o (fun r => sumn o' (fun s => sumn n (fun r0 => sumn n (fun s0 => f r s r0 s0)))) _ (fun r _ => sumn_ext o' _ _ (fun s _ => S2 (f r s)))).
  rewrite (sumn_ext o (fun r => sumn v' (fun s => sumn n (fun r0 => sumn n (fun s0 => f r (o' + s)%nat r0 s0)))) _ (fun r _ => sumn_ext v' _ _ (fun s _ => S2 (f r (o' + s)%nat)))).
  rewrite (sumn_ext v (fun r => sumn o' (fun s => sumn n (fun r0 => sumn n (fun s0 => f (o + r)%nat s r0 s0)))) _ (fun r _ => sumn_ext o' _ _ (fun s _ => S2 (f (o + r)%nat s)))).
  rewrite (sumn_ext v (fun r => sumn v' (fun s => sumn n (fun r0 => sumn n (fun s0 => f (o + r)%nat (o' + s)%nat r0 s0)))) _ (fun r _ => sumn_ext v' _ _ (fun s _ => S2 (f (o + r)%nat (o' + s)%nat)))).
  assert (P : forall a b (x1 x2 x3 x4 : nat -> nat -> R), sumn a (fun p => sumn b (fun q => x1 p q + x2 p q + x3 p q + x4 p q)) =
    sumn a (fun p => sumn b (x1 p)) + sumn a (fun p => sumn b (x2 p)) + sumn a (fun p => sumn b (x3 p)) + sumn a (fun p => sumn b (x4 p))).
  { intros. rewrite (sumn_ext a _ (fun p => sumn b (x1 p) + sumn b (x2 p) + sumn b (x3 p) + sumn b (x4 p))) by (intros; now rewrite !sumn_plus). now rewrite !sumn_plus. }
  rewrite !P. ring.
Qed.

(** The antisymmetrised form of an equal-spin two-body operator *)
Lemma anti_two n w so psi D : two_body n w so so psi D =
  / 2 * sumn n (fun p => sumn n (fun q => sumn n (fun r => sumn n (fun s => (w p q r s - w p q s r) * cre (so p) (cre (so q) (ann (so s) (ann (so r) psi))) D)))).
Proof.
  unfold two_body. rewrite <- sumn_scal. apply sumn_ext. intros p _. rewrite <- sumn_scal. apply sumn_ext. intros q _.
  set (G := fun r s => cre (so p) (cre (so q) (ann (so s) (ann (so r) psi))) D).
  assert (AG : forall r s, G s r = - G r s).
  { intros r s. unfold G.
    replace (cre (so q) (ann (so r) (ann (so s) psi))) with (fun E => -1 * cre (so q) (ann (so s) (ann (so r) psi)) E).
    - unfold cre at 1 3. destruct (N.testbit D (N.of_nat (so p))); ring.
    - apply functional_extensionality. intros E. unfold cre. destruct (N.testbit E (N.of_nat (so q))); [rewrite (ann_ann (so r) (so s)); ring|ring]. }
  change (sumn n (fun r => sumn n (fun s => w p q r s * G r s)) = / 2 * sumn n (fun r => sumn n (fun s => (w p q r s - w p q s r) * G r s))).
  assert (E : sumn n (fun r => sumn n (fun s => (w p q r s - w p q s r) * G r s)) =
    sumn n (fun r => sumn n (fun s => w p q r s * G r s)) + sumn n (fun r => sumn n (fun s => w p q s r * G s r))).
  { rewrite <- sumn_plus. apply sumn_ext. intros r _. rewrite <- sumn_plus. apply sumn_ext. intros s _. rewrite (AG r s). ring. }
  rewrite E, (sumn_swap n n (fun r s => w p q s r * G s r)). field.
Qed.
