(** Finite sums of real numbers (general lemmas, no model content). *)
From Coq Require Import Reals Lra Lia Arith List.
Import ListNotations.
Open Scope R_scope.

(** sum_{i < n} f i *)
Fixpoint sumn (n : nat) (f : nat -> R) : R :=
  match n with O => 0 | S m => sumn m f + f m end.

Lemma sumn_ext : forall n f g, (forall i, (i < n)%nat -> f i = g i) -> sumn n f = sumn n g.
Proof. induction n; intros f g H; cbn; [reflexivity|]. rewrite (IHn f g), H by (intros; try apply H; lia). reflexivity. Qed.
Lemma sumn_0 : forall n f, (forall i, (i < n)%nat -> f i = 0) -> sumn n f = 0.
Proof. induction n; intros f H; cbn; [reflexivity|]. rewrite IHn, H by (intros; try apply H; lia). lra. Qed.
Lemma sumn_const0 : forall n, sumn n (fun _ => 0) = 0.
Proof. intro. now apply sumn_0. Qed.
Lemma sumn_plus : forall n f g, sumn n (fun i => f i + g i) = sumn n f + sumn n g.
Proof. induction n; intros; cbn; [lra|]. rewrite IHn. lra. Qed.
Lemma sumn_minus : forall n f g, sumn n (fun i => f i - g i) = sumn n f - sumn n g.
Proof. induction n; intros; cbn; [lra|]. rewrite IHn. lra. Qed.
Lemma sumn_opp : forall n f, sumn n (fun i => - f i) = - sumn n f.
Proof. induction n; intros; cbn; [lra|]. rewrite IHn. lra. Qed.
Lemma sumn_scal : forall n c f, sumn n (fun i => c * f i) = c * sumn n f.
Proof. induction n; intros; cbn; [lra|]. rewrite IHn. lra. Qed.
Lemma sumn_scal_r : forall n c f, sumn n (fun i => f i * c) = sumn n f * c.
Proof. induction n; intros; cbn; [lra|]. rewrite IHn. lra. Qed.
Lemma sumn_swap : forall n m f, sumn n (fun i => sumn m (fun j => f i j)) = sumn m (fun j => sumn n (fun i => f i j)).
Proof.
  induction n; intros m f; cbn.
  - now rewrite sumn_const0.
  - rewrite IHn. rewrite <- sumn_plus. reflexivity.
Qed.
Lemma sumn_nonneg : forall n f, (forall i, (i < n)%nat -> 0 <= f i) -> 0 <= sumn n f.
Proof.
  induction n; intros f H; cbn; [lra|]. assert (0 <= sumn n f) by (apply IHn; intros; apply H; lia).
  specialize (H n ltac:(lia)). lra.
Qed.
Lemma sumn_le : forall n f g, (forall i, (i < n)%nat -> f i <= g i) -> sumn n f <= sumn n g.
Proof.
  induction n; intros f g H; cbn; [lra|]. assert (sumn n f <= sumn n g) by (apply IHn; intros; apply H; lia).
  specialize (H n ltac:(lia)). lra.
Qed.
Lemma sumn_nonneg_0 : forall n f, (forall i, (i < n)%nat -> 0 <= f i) -> sumn n f = 0 ->
  forall i, (i < n)%nat -> f i = 0.
Proof.
  induction n; intros f H E i Hi; [lia|]. cbn in E.
  assert (0 <= sumn n f) by (apply sumn_nonneg; intros; apply H; lia).
  assert (0 <= f n) by (apply H; lia).
  destruct (Nat.eq_dec i n) as [->|]; [lra|]. apply (IHn f); [intros; apply H; lia|lra|lia].
Qed.
Lemma sumn_split : forall n m f, sumn (n + m) f = sumn n f + sumn m (fun i => f (n + i)%nat).
Proof.
  intros n m f. induction m; cbn.
  - rewrite Nat.add_0_r. lra.
  - rewrite Nat.add_succ_r. cbn. rewrite IHm. lra.
Qed.
Lemma sumn_S_l : forall n f, sumn (S n) f = f 0%nat + sumn n (fun i => f (S i)).
Proof. intros. rewrite (sumn_split 1 n). cbn. lra. Qed.
(** Kronecker delta. *)
Lemma sumn_delta : forall n k v, (k < n)%nat -> sumn n (fun i => if Nat.eqb i k then v else 0) = v.
Proof.
  induction n; intros k v H; [lia|]. cbn. destruct (Nat.eqb_spec n k).
  - subst. rewrite sumn_0; [lra|]. intros i Hi. destruct (Nat.eqb_spec i k); [lia|reflexivity].
  - rewrite IHn by lia. lra.
Qed.
Lemma sumn_delta_f : forall n k f, (k < n)%nat -> sumn n (fun i => if Nat.eqb i k then f i else 0) = f k.
Proof.
  intros n k f H. rewrite <- (sumn_delta n k (f k) H). apply sumn_ext. intros i _.
  destruct (Nat.eqb_spec i k); now subst.
Qed.
(** Product of two sums. *)
Lemma sumn_mult : forall n m f g, sumn n f * sumn m g = sumn n (fun i => sumn m (fun j => f i * g j)).
Proof.
  intros. rewrite <- sumn_scal_r. apply sumn_ext. intros i _. now rewrite sumn_scal.
Qed.
Lemma sumn_Rabs : forall n f, Rabs (sumn n f) <= sumn n (fun i => Rabs (f i)).
Proof.
  induction n; intro f; cbn; [rewrite Rabs_R0; lra|].
  pose proof (Rabs_triang (sumn n f) (f n)). specialize (IHn f). lra.
Qed.
