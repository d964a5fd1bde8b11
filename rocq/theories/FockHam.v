(** The list of Hamiltonian terms is the Hamiltonian (proof support). *)
From Coq Require Import Reals Arith NArith List Bool Lia Lra QArith Qreals ZArith.
From Verif Require Import RSum IntegralsModel TensorObjs TensorAlg TensorSpec FockSpec FockCar FockWick FockArrays FockCcSpec FockTerms.
Import ListNotations.
Local Open Scope R_scope.

Lemma three n m (F X Y G h : nat -> nat -> R) : (forall p q, F p q = h p q + X p q + Y p q) ->
  1 * sumn n (fun p => sumn m (fun q => F p q * G p q)) + -1 * sumn n (fun p => sumn m (fun q => X p q * G p q))
  + -1 * sumn n (fun p => sumn m (fun q => Y p q * G p q)) = sumn n (fun p => sumn m (fun q => h p q * G p q)).
Proof.
  intros E. rewrite <- !sumn_scal, <- !sumn_plus. apply sumn_ext. intros p _. rewrite <- !sumn_scal, <- !sumn_plus. apply sumn_ext. intros q _. rewrite E. ring.
Qed.
Lemma mean_ext a b c (f g : nat -> nat -> nat -> R) (G : nat -> nat -> R) : (forall p r m, f p r m = g p r m) ->
  sumn a (fun p => sumn b (fun r => sumn c (fun m => f p r m) * G p r)) = sumn a (fun p => sumn b (fun r => sumn c (fun m => g p r m) * G p r)).
Proof. intros E. apply sumn_ext; intros p _; apply sumn_ext; intros r _. f_equal. apply sumn_ext; intros m _. apply E. Qed.
Section H.
Variables (d : dims) (I : integrals) (T : amps) (n : nat).
Hypothesis En : (noa d + nua d = n)%nat.
Hypothesis En' : (nob d + nub d = n)%nat.
Notation H := (fock_ints (noa d) (nob d) I).
Notation ps := (psem (noa d) (nob d) (fdim d) (ften H T)).
Notation O := (orb (noa d) (nob d)).

(** The three lists of terms for one block of a one-body operator *)
Lemma blk_a z v psi D x y (h : nat -> nat -> R) : (x < 2)%nat -> (y < 2)%nat ->
  (forall p q, h p q = h_a I (if Nat.eqb x 0 then p else noa d + p)%nat (if Nat.eqb y 0 then q else noa d + q)%nat) ->
  tsem (noa d) (nob d) (fdim d) (ften H T) (one_term 1 z (9 + 2 * x + y) (oc 0 x) (oc 0 y)) v psi D
  + tsem (noa d) (nob d) (fdim d) (ften H T) (mean_term (-1) z (17 + 8 * x + 2 * y) (oc 0 x) (oc 0 y) 0 [z; S (S z); S z; S (S z)]) v psi D
  + tsem (noa d) (nob d) (fdim d) (ften H T) (mean_term (-1) z (33 + 8 * x + 2 * y) (oc 0 x) (oc 0 y) 2 [z; S (S z); S z; S (S z)]) v psi D
  = sumn (fdim d (oc 0 x)) (fun p => sumn (fdim d (oc 0 y)) (fun q => h p q * cre (O (oc 0 x) p) (ann (O (oc 0 y) q) psi) D)).
Proof.
  intros Hx Hy E. rewrite one_sem, !mean_sem, Q1, Qm1.
  rewrite (mean_ext _ _ _ _ (fun p r m => ften H T (17 + 8 * x + 2 * y) [p; m; r; m])) by (intros; now rewrite mean_ix_p).
  rewrite (mean_ext _ _ (fdim d 2) _ (fun p r m => ften H T (33 + 8 * x + 2 * y) [p; m; r; m])) by (intros; now rewrite mean_ix_p).
  apply three. intros p q. rewrite E.
  destruct x as [|[|x]]; [| |lia]; (destruct y as [|[|y]]; [| |lia]); unfold tenv, denv; cbn [Nat.mul Nat.add oc Nat.eqb nth fock_arrays ap2 ap4 fock_ints i_a_oo i_a_ov i_a_vo i_a_vv i_aa_oooo i_aa_oovo i_aa_vooo i_aa_vovo i_ab_oooo i_ab_oovo i_ab_vooo i_ab_vovo]; reflexivity.
Qed.
Lemma blk_b z v psi D x y (h : nat -> nat -> R) : (x < 2)%nat -> (y < 2)%nat ->
  (forall p q, h p q = h_b I (if Nat.eqb x 0 then p else nob d + p)%nat (if Nat.eqb y 0 then q else nob d + q)%nat) ->
  tsem (noa d) (nob d) (fdim d) (ften H T) (one_term 1 z (13 + 2 * x + y) (oc 1 x) (oc 1 y)) v psi D
  + tsem (noa d) (nob d) (fdim d) (ften H T) (mean_term (-1) z (33 + 4 * x + y) (oc 1 x) (oc 1 y) 0 [S (S z); z; S (S z); S z]) v psi D
  + tsem (noa d) (nob d) (fdim d) (ften H T) (mean_term (-1) z (49 + 8 * x + 2 * y) (oc 1 x) (oc 1 y) 2 [z; S (S z); S z; S (S z)]) v psi D
  = sumn (fdim d (oc 1 x)) (fun p => sumn (fdim d (oc 1 y)) (fun q => h p q * cre (O (oc 1 x) p) (ann (O (oc 1 y) q) psi) D)).
Proof.
  intros Hx Hy E. rewrite one_sem, !mean_sem, Q1, Qm1.
  rewrite (mean_ext _ _ (fdim d 0) _ (fun p r m => ften H T (33 + 4 * x + y) [m; p; m; r])) by (intros; now rewrite mean_ix_q).
  rewrite (mean_ext _ _ (fdim d 2) _ (fun p r m => ften H T (49 + 8 * x + 2 * y) [p; m; r; m])) by (intros; now rewrite mean_ix_p).
  apply three. intros p q. rewrite E.
  destruct x as [|[|x]]; [| |lia]; (destruct y as [|[|y]]; [| |lia]); unfold tenv, denv; cbn [Nat.mul Nat.add oc Nat.eqb nth fock_arrays ap2 ap4 fock_ints i_b_oo i_b_ov i_b_vo i_b_vv i_bb_oooo i_bb_oovo i_bb_vooo i_bb_vovo i_ab_oooo i_ab_ooov i_ab_ovoo i_ab_ovov]; reflexivity.
Qed.
Lemma one_a z v psi D :
  ps (map (fun '(x, y) => one_term 1 z (9 + 4 * 0 + 2 * x + y) (oc 0 x) (oc 0 y)) ov2) v psi D
  + ps (map (fun '(x, y) => mean_term (-1) z (17 + 8 * x + 2 * y) (oc 0 x) (oc 0 y) 0 [z; S (S z); S z; S (S z)]) ov2) v psi D
  + ps (map (fun '(x, y) => mean_term (-1) z (33 + 8 * x + 2 * y) (oc 0 x) (oc 0 y) 2 [z; S (S z); S z; S (S z)]) ov2) v psi D
  = one_body n (h_a I) al psi D.
Proof.
  unfold one_body. rewrite <- En, split2. unfold psem. cbn [map ov2 lsum].
  assert (E1 := blk_a z v psi D 0 0 (h_a I) ltac:(lia) ltac:(lia) ltac:(reflexivity)).
  assert (E2 := blk_a z v psi D 0 1 (fun p q => h_a I p (noa d + q)%nat) ltac:(lia) ltac:(lia) ltac:(reflexivity)).
  assert (E3 := blk_a z v psi D 1 0 (fun p q => h_a I (noa d + p)%nat q) ltac:(lia) ltac:(lia) ltac:(reflexivity)).
  assert (E4 := blk_a z v psi D 1 1 (fun p q => h_a I (noa d + p)%nat (noa d + q)%nat) ltac:(lia) ltac:(lia) ltac:(reflexivity)).
  etransitivity; [|exact (f_equal2 Rplus (f_equal2 Rplus (f_equal2 Rplus E1 E2) E3) E4)]. clear. cbn [oc Nat.mul Nat.add]. ring.
Qed.
Lemma one_b z v psi D :
  ps (map (fun '(x, y) => one_term 1 z (9 + 4 * 1 + 2 * x + y) (oc 1 x) (oc 1 y)) ov2) v psi D
  + ps (map (fun '(x, y) => mean_term (-1) z (33 + 4 * x + y) (oc 1 x) (oc 1 y) 0 [S (S z); z; S (S z); S z]) ov2) v psi D
  + ps (map (fun '(x, y) => mean_term (-1) z (49 + 8 * x + 2 * y) (oc 1 x) (oc 1 y) 2 [z; S (S z); S z; S (S z)]) ov2) v psi D
  = one_body n (h_b I) be psi D.
Proof.
  unfold one_body. rewrite <- En', split2. unfold psem. cbn [map ov2 lsum].
  assert (E1 := blk_b z v psi D 0 0 (h_b I) ltac:(lia) ltac:(lia) ltac:(reflexivity)).
  assert (E2 := blk_b z v psi D 0 1 (fun p q => h_b I p (nob d + q)%nat) ltac:(lia) ltac:(lia) ltac:(reflexivity)).
  assert (E3 := blk_b z v psi D 1 0 (fun p q => h_b I (nob d + p)%nat q) ltac:(lia) ltac:(lia) ltac:(reflexivity)).
  assert (E4 := blk_b z v psi D 1 1 (fun p q => h_b I (nob d + p)%nat (nob d + q)%nat) ltac:(lia) ltac:(lia) ltac:(reflexivity)).
  etransitivity; [|exact (f_equal2 Rplus (f_equal2 Rplus (f_equal2 Rplus E1 E2) E3) E4)]. clear. cbn [oc Nat.mul Nat.add]. ring.
Qed.
Ltac blocks := unfold psem; cbn [map ov4 ov2 list_prod app lsum]; rewrite !two_sem; unfold tenv, denv;
  cbn [Nat.mul Nat.add oc nth fock_arrays ap2 ap4 orb fock_ints i_aa_oooo i_aa_ooov i_aa_oovo i_aa_oovv i_aa_ovoo i_aa_ovov i_aa_ovvo i_aa_ovvv i_aa_vooo i_aa_voov i_aa_vovo i_aa_vovv i_aa_vvoo i_aa_vvov i_aa_vvvo i_aa_vvvv
   i_ab_oooo i_ab_ooov i_ab_oovo i_ab_oovv i_ab_ovoo i_ab_ovov i_ab_ovvo i_ab_ovvv i_ab_vooo i_ab_voov i_ab_vovo i_ab_vovv i_ab_vvoo i_ab_vvov i_ab_vvvo i_ab_vvvv
   i_bb_oooo i_bb_ooov i_bb_oovo i_bb_oovv i_bb_ovoo i_bb_ovov i_bb_ovvo i_bb_ovvv i_bb_vooo i_bb_voov i_bb_vovo i_bb_vovv i_bb_vvoo i_bb_vvov i_bb_vvvo i_bb_vvvv].
Lemma two_aa z v psi D :
  ps (map (fun '(w, x, (y, u)) => two_term (1 # 4) z (17 + 8 * w + 4 * x + 2 * y + u) (oc 0 w) (oc 0 x) (oc 0 y) (oc 0 u)) ov4) v psi D
  = / 2 * two_body n (w_aa I) al al psi D.
Proof.
  rewrite anti_two. rewrite (split4 (noa d) (nua d) (noa d) (nua d) n _ En En). blocks. rewrite Q4. unfold anti_aa. field.
Qed.
Lemma two_ab z v psi D :
  ps (map (fun '(w, x, (y, u)) => two_term 1 z (33 + 8 * w + 4 * x + 2 * y + u) (oc 0 w) (oc 1 x) (oc 0 y) (oc 1 u)) ov4) v psi D
  = two_body n (w_ab I) al be psi D.
Proof.
  unfold two_body. rewrite (split4 (noa d) (nua d) (nob d) (nub d) n _ En En'). blocks. rewrite Q1. ring.
Qed.
Lemma two_bb z v psi D :
  ps (map (fun '(w, x, (y, u)) => two_term (1 # 4) z (49 + 8 * w + 4 * x + 2 * y + u) (oc 1 w) (oc 1 x) (oc 1 y) (oc 1 u)) ov4) v psi D
  = / 2 * two_body n (w_bb I) be be psi D.
Proof.
  rewrite anti_two. rewrite (split4 (nob d) (nub d) (nob d) (nub d) n _ En' En'). blocks. rewrite Q4. unfold anti_bb. field.
Qed.
Lemma ps_app p q v psi D : ps (p ++ q) v psi D = ps p v psi D + ps q v psi D.
Proof. apply lsum_app. Qed.
Theorem h_sem z v psi D : ps (h_terms z) v psi D = hamiltonian n I psi D.
Proof.
  unfold h_terms, hamiltonian. cbn [flat_map]. rewrite app_nil_r. rewrite !ps_app.
  rewrite <- (two_aa z v psi D), <- (two_ab z v psi D), <- (two_bb z v psi D), <- (one_a z v psi D), <- (one_b z v psi D). ring.
Qed.
End H.
