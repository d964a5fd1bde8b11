(** The do loops of the CR-CC(2,3) routines as sums over increasing index triples (proof support). *)
From Coq Require Import Reals Arith NArith List Bool Lia Lra.
From Verif Require Import RSum IntegralsModel TensorObjs CrccModel CrccSpec.
Import ListNotations.
Local Open Scope R_scope.
Fixpoint slist {A} (f : A -> R) (l : list A) : R := match l with [] => 0 | q :: r => f q + slist f r end.
Lemma slist_app {A} (f : A -> R) l r : slist f (l ++ r) = slist f l + slist f r.
Proof. induction l as [|q l IH]; cbn; [ring|]. rewrite IH. ring. Qed.
Lemma slist_flat {A B} (f : B -> R) (g : A -> list B) l : slist f (flat_map g l) = slist (fun q => slist f (g q)) l.
Proof. induction l as [|q l IH]; cbn; [reflexivity|]. now rewrite slist_app, IH. Qed.
Lemma slist_map {A B} (f : B -> R) (g : A -> B) l : slist f (map g l) = slist (fun q => f (g q)) l.
Proof. induction l as [|q l IH]; cbn; [reflexivity|]. now rewrite IH. Qed.
Lemma slist_ext {A} (f g : A -> R) l : (forall q, f q = g q) -> slist f l = slist g l.
Proof. intros K. induction l as [|q l IH]; cbn; [reflexivity|]. now rewrite K, IH. Qed.
Lemma slist_seq f n : slist f (seq 0 n) = sumn n f.
Proof. induction n as [|n IH]; [reflexivity|]. rewrite seq_S, slist_app, IH. cbn. ring. Qed.
Lemma slist_from f a n : slist f (seq (S a) (n - S a)) = sumn n (fun q => if Nat.ltb a q then f q else 0).
Proof.
  induction n as [|n IH]; [reflexivity|]. cbn [sumn]. destruct (Nat.ltb a n) eqn:C.
  - apply Nat.ltb_lt in C. replace (S n - S a)%nat with (S (n - S a)) by lia. rewrite seq_S, slist_app, IH. cbn. replace (S (a + (n - S a)))%nat with n by lia. ring.
  - apply Nat.ltb_ge in C. replace (S n - S a)%nat with (n - S a)%nat by lia. rewrite IH. ring.
Qed.
Definition q1 (q : quad) : R := let '(a, _, _, _) := q in a.
Definition q2 (q : quad) : R := let '(_, a, _, _) := q in a.
Definition q3 (q : quad) : R := let '(_, _, a, _) := q in a.
Definition q4 (q : quad) : R := let '(_, _, _, a) := q in a.
Lemma quad_fold {A} (f : A -> quad) l s :
  fold_left (fun s q => quad_add s (f q)) l s = quad_add s (slist (fun q => q1 (f q)) l, slist (fun q => q2 (f q)) l, slist (fun q => q3 (f q)) l, slist (fun q => q4 (f q)) l).
Proof.
  revert s; induction l as [|q l IH]; intros [[[x y] z] w]; cbn [fold_left slist]; [unfold quad_add; now rewrite !Rplus_0_r|].
  rewrite IH.
  destruct (f q) as [[[x' y'] z'] w']. unfold quad_add, q1, q2, q3, q4. now rewrite !Rplus_assoc.
Qed.
(** Sums with the occupied indices outside *)
Lemma lt2_out n m1 (F : nat -> nat -> nat -> R) : sumn m1 (fun x => sum_lt2 n (fun p q => F x p q)) = sum_lt2 n (fun p q => sumn m1 (fun x => F x p q)).
Proof.
  unfold sum_lt2. rewrite sumn_swap. apply sumn_ext; intros p _. rewrite sumn_swap. apply sumn_ext; intros q _. destruct (Nat.ltb p q); [reflexivity|]. now apply sumn_0.
Qed.
Lemma lt3_out n m1 (F : nat -> nat -> nat -> nat -> R) : sumn m1 (fun x => sum_lt3 n (fun p q r => F x p q r)) = sum_lt3 n (fun p q r => sumn m1 (fun x => F x p q r)).
Proof.
  unfold sum_lt3. rewrite sumn_swap. apply sumn_ext; intros p _. rewrite sumn_swap. apply sumn_ext; intros q _. rewrite sumn_swap. apply sumn_ext; intros r _. destruct (Nat.ltb p q); [destruct (Nat.ltb q r); [reflexivity|]|]; now apply sumn_0.
Qed.
Lemma lt2_ext n F G : (forall p q, (p < n)%nat -> (q < n)%nat -> (p < q)%nat -> F p q = G p q) -> sum_lt2 n F = sum_lt2 n G.
Proof. intros K. unfold sum_lt2. apply sumn_ext; intros p Hp. apply sumn_ext; intros q Hq. destruct (Nat.ltb p q) eqn:C; [|reflexivity]. apply Nat.ltb_lt in C. auto. Qed.
Lemma lt3_ext n F G : (forall p q r, (p < n)%nat -> (q < n)%nat -> (r < n)%nat -> (p < q)%nat -> (p < r)%nat -> (q < r)%nat -> F p q r = G p q r) -> sum_lt3 n F = sum_lt3 n G.
Proof.
  intros K. unfold sum_lt3. apply sumn_ext; intros p Hp. apply sumn_ext; intros q Hq. apply sumn_ext; intros r Hr. destruct (Nat.ltb p q) eqn:C; [|reflexivity]. destruct (Nat.ltb q r) eqn:C'; [|reflexivity]. apply Nat.ltb_lt in C, C'. apply K; lia.
Qed.
Lemma ifsum (b : bool) n f : (if b then sumn n f else 0) = sumn n (fun x => if b then f x else 0).
Proof. destruct b; [reflexivity|]. symmetry. now apply sumn_0. Qed.
Lemma lt_swap22 n m F : sum_lt2 n (fun i j => sum_lt2 m (fun a b => F i j a b)) = sum_lt2 m (fun a b => sum_lt2 n (fun i j => F i j a b)).
Proof.
  unfold sum_lt2 at 1 4. rewrite <- (lt2_out m n (fun i a b => sumn n (fun j => if Nat.ltb i j then F i j a b else 0))). apply sumn_ext; intros i _. rewrite <- (lt2_out m n (fun j a b => if Nat.ltb i j then F i j a b else 0)). apply sumn_ext; intros j _.
  destruct (Nat.ltb i j); [reflexivity|]. symmetry. unfold sum_lt2. apply sumn_0; intros. apply sumn_0; intros. now destruct (Nat.ltb _ _).
Qed.
Lemma lt_swap33 n m F : sum_lt3 n (fun i j k => sum_lt3 m (fun a b c => F i j k a b c)) = sum_lt3 m (fun a b c => sum_lt3 n (fun i j k => F i j k a b c)).
Proof.
  unfold sum_lt3 at 1 4. rewrite <- (lt3_out m n (fun i a b c => sumn n (fun j => sumn n (fun k => if Nat.ltb i j then if Nat.ltb j k then F i j k a b c else 0 else 0)))). apply sumn_ext; intros i _.
  rewrite <- (lt3_out m n (fun j a b c => sumn n (fun k => if Nat.ltb i j then if Nat.ltb j k then F i j k a b c else 0 else 0))). apply sumn_ext; intros j _.
  rewrite <- (lt3_out m n (fun k a b c => if Nat.ltb i j then if Nat.ltb j k then F i j k a b c else 0 else 0)). apply sumn_ext; intros k _.
  destruct (Nat.ltb i j); [destruct (Nat.ltb j k); [reflexivity|]|]; symmetry; unfold sum_lt3; apply sumn_0; intros; apply sumn_0; intros; apply sumn_0; intros; repeat destruct (Nat.ltb _ _); reflexivity.
Qed.
Definition f6 (F : mat6) (q : nat * nat * nat * nat * nat * nat) : R := let '(a, b, c, i, j, k) := q in F a b c i j k.
Lemma from3 n (f : nat -> nat -> nat -> R) : sumn n (fun p => sumn n (fun q => if Nat.ltb p q then sumn n (fun r => if Nat.ltb q r then f p q r else 0) else 0)) = sum_lt3 n f.
Proof. unfold sum_lt3. apply sumn_ext; intros p _. apply sumn_ext; intros q _. now rewrite ifsum. Qed.
Lemma loop_aaa d F : slist (f6 F) (crcc_loop_aaa d) = sum_lt3 (nua d) (fun a b c => sum_lt3 (noa d) (fun i j k => F a b c i j k)).
Proof.
  unfold crcc_loop_aaa. rewrite <- lt_swap33, <- from3, slist_flat, slist_seq. apply sumn_ext; intros i _. rewrite slist_flat, slist_from. apply sumn_ext; intros j _. destruct (Nat.ltb i j); [|reflexivity]. rewrite slist_flat, slist_from. apply sumn_ext; intros k _. destruct (Nat.ltb j k); [|reflexivity].
  rewrite <- from3, slist_flat, slist_seq. apply sumn_ext; intros a _. rewrite slist_flat, slist_from. apply sumn_ext; intros b _. destruct (Nat.ltb a b); [|reflexivity]. rewrite slist_map, slist_from. reflexivity.
Qed.
Lemma loop_bbb d F : slist (f6 F) (crcc_loop_bbb d) = sum_lt3 (nub d) (fun a b c => sum_lt3 (nob d) (fun i j k => F a b c i j k)).
Proof.
  unfold crcc_loop_bbb. rewrite <- lt_swap33, <- from3, slist_flat, slist_seq. apply sumn_ext; intros i _. rewrite slist_flat, slist_from. apply sumn_ext; intros j _. destruct (Nat.ltb i j); [|reflexivity]. rewrite slist_flat, slist_from. apply sumn_ext; intros k _. destruct (Nat.ltb j k); [|reflexivity].
  rewrite <- from3, slist_flat, slist_seq. apply sumn_ext; intros a _. rewrite slist_flat, slist_from. apply sumn_ext; intros b _. destruct (Nat.ltb a b); [|reflexivity]. rewrite slist_map, slist_from. reflexivity.
Qed.
Lemma loop_aab d F : slist (f6 F) (crcc_loop_aab d) = sum_lt2 (nua d) (fun a b => sumn (nub d) (fun c => sum_lt2 (noa d) (fun i j => sumn (nob d) (fun k => F a b c i j k)))).
Proof.
  transitivity (sum_lt2 (noa d) (fun i j => sumn (nob d) (fun k => sum_lt2 (nua d) (fun a b => sumn (nub d) (fun c => F a b c i j k))))).
  - unfold crcc_loop_aab. unfold sum_lt2 at 1. rewrite slist_flat, slist_seq. apply sumn_ext; intros i _. rewrite slist_flat, slist_from. apply sumn_ext; intros j _. destruct (Nat.ltb i j); [|reflexivity]. rewrite slist_flat, slist_seq. apply sumn_ext; intros k _.
    unfold sum_lt2. rewrite slist_flat, slist_seq. apply sumn_ext; intros a _. rewrite slist_flat, slist_from. apply sumn_ext; intros b _. destruct (Nat.ltb a b); [|reflexivity]. rewrite slist_map, slist_seq. reflexivity.
  - transitivity (sum_lt2 (noa d) (fun i j => sum_lt2 (nua d) (fun a b => sumn (nub d) (fun c => sumn (nob d) (fun k => F a b c i j k))))).
    + apply lt2_ext; intros i j _ _ _. rewrite lt2_out. apply lt2_ext; intros a b _ _ _. apply sumn_swap.
    + rewrite lt_swap22. apply lt2_ext; intros a b _ _ _. symmetry. apply lt2_out.
Qed.
Lemma loop_abb d F : slist (f6 F) (crcc_loop_abb d) = sumn (nua d) (fun a => sum_lt2 (nub d) (fun b c => sumn (noa d) (fun i => sum_lt2 (nob d) (fun j k => F a b c i j k)))).
Proof.
  transitivity (sumn (noa d) (fun i => sum_lt2 (nob d) (fun j k => sumn (nua d) (fun a => sum_lt2 (nub d) (fun b c => F a b c i j k))))).
  - unfold crcc_loop_abb. rewrite slist_flat, slist_seq. apply sumn_ext; intros i _. unfold sum_lt2 at 1. rewrite slist_flat, slist_seq. apply sumn_ext; intros j _. rewrite slist_flat, slist_from. apply sumn_ext; intros k _. destruct (Nat.ltb j k); [|reflexivity].
    rewrite slist_flat, slist_seq. apply sumn_ext; intros a _. unfold sum_lt2. rewrite slist_flat, slist_seq. apply sumn_ext; intros b _. rewrite slist_map, slist_from. reflexivity.
  - transitivity (sumn (noa d) (fun i => sumn (nua d) (fun a => sum_lt2 (nub d) (fun b c => sum_lt2 (nob d) (fun j k => F a b c i j k))))).
    + apply sumn_ext; intros i _. rewrite <- lt2_out. apply sumn_ext; intros a _. apply lt_swap22.
    + rewrite sumn_swap. apply sumn_ext; intros a _. apply lt2_out.
Qed.
Definition tri4 (d : dims) (F1 F2 F3 F4 : mat6) : R :=
  sum_lt3 (nua d) (fun a b c => sum_lt3 (noa d) (fun i j k => F1 a b c i j k))
  + sum_lt2 (nua d) (fun a b => sumn (nub d) (fun c => sum_lt2 (noa d) (fun i j => sumn (nob d) (fun k => F2 a b c i j k))))
  + sumn (nua d) (fun a => sum_lt2 (nub d) (fun b c => sumn (noa d) (fun i => sum_lt2 (nob d) (fun j k => F3 a b c i j k))))
  + sum_lt3 (nub d) (fun a b c => sum_lt3 (nob d) (fun i j k => F4 a b c i j k)).
Definition mld (M L D : mat6) : mat6 := fun a b c i j k => M a b c i j k * L a b c i j k / D a b c i j k.
Lemma opt_fold (M L DA DB DC DD : mat6) l :
  fold_left (fun s q => let '(a, b, c, i, j, k) := q in let LM := M a b c i j k * L a b c i j k in quad_add s (LM / DA a b c i j k, LM / DB a b c i j k, LM / DC a b c i j k, LM / DD a b c i j k)) l (0, 0, 0, 0)
  = (slist (f6 (mld M L DA)) l, slist (f6 (mld M L DB)) l, slist (f6 (mld M L DC)) l, slist (f6 (mld M L DD)) l).
Proof.
  transitivity (fold_left (fun s q => quad_add s (f6 (mld M L DA) q, f6 (mld M L DB) q, f6 (mld M L DC) q, f6 (mld M L DD) q)) l (0, 0, 0, 0)).
  - generalize ((0, 0, 0, 0) : quad). induction l as [|[[[[[a b] c] i] j] k] l IH]; intros s; cbn [fold_left]; [reflexivity|]. apply IH.
  - rewrite quad_fold. unfold q1, q2, q3, q4, quad_add. now rewrite !Rplus_0_l.
Qed.
Lemma delta_sums d H0 H T L : calc_crcc23_delta d H0 H T L false =
  (tri4 d (mld (crcc_M_aaa d H0 H T L) (crcc_L_aaa d H0 H T L) (crcc_DA_aaa d H0 H T L)) (mld (crcc_M_aab d H0 H T L) (crcc_L_aab d H0 H T L) (crcc_DA_aab d H0 H T L)) (mld (crcc_M_abb d H0 H T L) (crcc_L_abb d H0 H T L) (crcc_DA_abb d H0 H T L)) (mld (crcc_M_bbb d H0 H T L) (crcc_L_bbb d H0 H T L) (crcc_DA_bbb d H0 H T L)),
   tri4 d (mld (crcc_M_aaa d H0 H T L) (crcc_L_aaa d H0 H T L) (crcc_DB_aaa d H0 H T L)) (mld (crcc_M_aab d H0 H T L) (crcc_L_aab d H0 H T L) (crcc_DB_aab d H0 H T L)) (mld (crcc_M_abb d H0 H T L) (crcc_L_abb d H0 H T L) (crcc_DB_abb d H0 H T L)) (mld (crcc_M_bbb d H0 H T L) (crcc_L_bbb d H0 H T L) (crcc_DB_bbb d H0 H T L)),
   tri4 d (mld (crcc_M_aaa d H0 H T L) (crcc_L_aaa d H0 H T L) (crcc_DC_aaa d H0 H T L)) (mld (crcc_M_aab d H0 H T L) (crcc_L_aab d H0 H T L) (crcc_DC_aab d H0 H T L)) (mld (crcc_M_abb d H0 H T L) (crcc_L_abb d H0 H T L) (crcc_DC_abb d H0 H T L)) (mld (crcc_M_bbb d H0 H T L) (crcc_L_bbb d H0 H T L) (crcc_DC_bbb d H0 H T L)),
   tri4 d (mld (crcc_M_aaa d H0 H T L) (crcc_L_aaa d H0 H T L) (crcc_DD_aaa d H0 H T L)) (mld (crcc_M_aab d H0 H T L) (crcc_L_aab d H0 H T L) (crcc_DD_aab d H0 H T L)) (mld (crcc_M_abb d H0 H T L) (crcc_L_abb d H0 H T L) (crcc_DD_abb d H0 H T L)) (mld (crcc_M_bbb d H0 H T L) (crcc_L_bbb d H0 H T L) (crcc_DD_bbb d H0 H T L))).
Proof.
  unfold calc_crcc23_delta, crcc23A_opt, crcc23B_opt, crcc23C_opt, crcc23D_opt. rewrite !opt_fold. unfold tri4. rewrite !loop_aaa, !loop_aab, !loop_abb, !loop_bbb. reflexivity.
Qed.
