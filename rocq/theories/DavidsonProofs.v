(** Lemmas for the eigensolvers and Gram-Schmidt. *)
From Coq Require Import Reals Arith Bool List Lia Lra.
From Verif Require Import RSum DiisModel DavidsonModel DavidsonSpec.
Import ListNotations.
Open Scope R_scope.

Lemma dot_inner : forall n u v, dot n u v = inner n u v. Proof. reflexivity. Qed.
Lemma inner_ext : forall n u v u' v', (forall k, (k < n)%nat -> u k = u' k) -> (forall k, (k < n)%nat -> v k = v' k) -> inner n u v = inner n u' v'.
Proof. intros. apply sumn_ext. intros k Hk. now rewrite H, H0. Qed.
Lemma inner_sym : forall n u v, inner n u v = inner n v u. Proof. intros. apply sumn_ext. intros. ring. Qed.
Lemma inner_sub_r : forall n u v w c, inner n u (fun k => v k - c * w k) = inner n u v - c * inner n u w.
Proof.
  intros. unfold inner. rewrite <- sumn_scal, <- sumn_minus. apply sumn_ext. intros. ring.
Qed.
Lemma inner_div_r : forall n u v c, inner n u (fun k => v k / c) = inner n u v / c.
Proof. intros. unfold inner, Rdiv. rewrite <- sumn_scal_r. apply sumn_ext. intros. ring. Qed.
Lemma inner_div_l : forall n u v c, inner n (fun k => u k / c) v = inner n u v / c.
Proof. intros. rewrite inner_sym, inner_div_r, inner_sym. reflexivity. Qed.
Lemma inner_pos : forall n v, 0 <= inner n v v. Proof. intros. apply sumn_nonneg. intros. nra. Qed.
Lemma norm_length : forall n v, norm n v = length_of n v. Proof. reflexivity. Qed.
Lemma norm_sq : forall n v, norm n v * norm n v = inner n v v. Proof. intros. unfold norm. apply sqrt_sqrt. apply inner_pos. Qed.
Lemma norm_ext : forall n u v, (forall k, (k < n)%nat -> u k = v k) -> norm n u = norm n v.
Proof. intros. unfold norm. f_equal. apply (inner_ext n u u v v); assumption. Qed.
Lemma normalise_some : forall n v w, normalise n v = Some w -> norm n v <> 0 /\ w = (fun k => v k / norm n v) /\ inner n w w = 1.
Proof.
  intros n v w. unfold normalise. destruct (Req_EM_T (norm n v) 0) as [|N]; [discriminate|]. intros E. injection E as <-. split; [exact N|]. split; [reflexivity|].
  rewrite inner_div_l, inner_div_r, <- norm_sq. field. exact N.
Qed.
Lemma norm_unit : forall n v, inner n v v = 1 -> norm n v = 1. Proof. intros n v H. unfold norm. change (dot n v v) with (inner n v v). rewrite H. apply sqrt_1. Qed.
Lemma project_unit : forall n b q, inner n b b = 1 -> inner n b (project_out n b q) = 0.
Proof. intros n b q H. unfold project_out. rewrite inner_sub_r, H. change (dot n b q) with (inner n b q). ring. Qed.
Lemma project_other : forall n u b q, inner n u b = 0 -> inner n u (project_out n b q) = inner n u q.
Proof. intros n u b q H. unfold project_out. rewrite inner_sub_r, H. ring. Qed.

(** Projecting out an orthonormal family one by one. *)
Lemma project_family : forall n U m q, orthonormal n m U ->
  let q' := fold_left (fun q k => project_out n (U k) q) (seq 0 m) q in
  (forall i, (i < m)%nat -> inner n (U i) q' = 0) /\ (forall k, (k < n)%nat -> q' k = q k - combination m U (fun p => inner n (U p) q) k).
Proof.
  intros n U m q. induction m as [|m IH]; intros O; cbn zeta.
  - split; [intros; lia|]. intros k Hk. unfold combination. cbn. ring.
  - rewrite seq_S, fold_left_app. cbn [fold_left plus]. destruct IH as (I1 & I2); [intros i j Hi Hj; apply O; lia|].
    set (q1 := fold_left _ (seq 0 m) q) in *. assert (E : inner n (U m) q1 = inner n (U m) q).
    { rewrite (inner_ext n (U m) q1 (U m) (fun k => q k - combination m U (fun p => inner n (U p) q) k)); [|reflexivity|exact I2].
      transitivity (inner n (U m) q - inner n (U m) (combination m U (fun p => inner n (U p) q))).
      - unfold inner. rewrite <- sumn_minus. apply sumn_ext. intros. ring.
      - assert (Z : inner n (U m) (combination m U (fun p => inner n (U p) q)) = 0); [|rewrite Z; ring].
        unfold inner at 1, combination. rewrite (sumn_ext n _ (fun k => sumn m (fun p => inner n (U p) q * (U m k * U p k)))).
        + rewrite sumn_swap. apply sumn_0. intros p Hp. rewrite sumn_scal. change (sumn n (fun k => U m k * U p k)) with (inner n (U m) (U p)).
          rewrite O by lia. replace (m =? p) with false by (symmetry; apply Nat.eqb_neq; lia). ring.
        + intros k Hk. rewrite <- sumn_scal. apply sumn_ext. intros. ring. }
    split.
    + intros i Hi. destruct (Nat.eq_dec i m) as [->|NE].
      * apply project_unit. rewrite O by lia. now rewrite Nat.eqb_refl.
      * rewrite project_other; [apply I1; lia|]. rewrite O by lia. replace (i =? m) with false by (symmetry; apply Nat.eqb_neq; lia). reflexivity.
    + intros k Hk. unfold project_out. change (dot n (U m) q1) with (inner n (U m) q1). rewrite E, I2 by exact Hk. unfold combination. cbn [sumn]. ring.
Qed.
(** The loop over subspace vectors: succeeds when all are non-zero, and orthogonalises when they are orthogonal. *)
Lemma orthogonalise_some : forall n B size q q', orthogonalise n B size q = Some q' -> orthogonal_set n size B ->
  (forall p, (p < size)%nat -> norm n (B p) <> 0) /\ (forall p, (p < size)%nat -> inner n (B p) q' = 0).
Proof.
  intros n B size q q'. unfold orthogonalise. intros E O.
  assert (G : forall m, (m <= size)%nat -> forall q1,
    fold_left (fun acc p => bind acc (fun q => bind (normalise n (B p)) (fun b => Some (project_out n b q)))) (seq 0 m) (Some q) = Some q1 ->
    (forall p, (p < m)%nat -> norm n (B p) <> 0) /\ (forall p, (p < m)%nat -> inner n (B p) q1 = 0)).
  { induction m as [|m IH]; intros Hm q1 E1; [split; intros; lia|]. rewrite seq_S, fold_left_app in E1. cbn [fold_left plus] in E1.
    destruct (fold_left _ (seq 0 m) (Some q)) as [q2|] eqn:E2; [|discriminate E1]. cbn [bind] in E1. destruct (normalise n (B m)) as [b|] eqn:Eb; [|discriminate E1]. cbn [bind] in E1. injection E1 as <-.
    destruct (IH ltac:(lia) q2 eq_refl) as (I1 & I2). destruct (normalise_some _ _ _ Eb) as (Nm & Eq & U). split.
    - intros p Hp. destruct (Nat.eq_dec p m) as [->|]; [exact Nm|]. apply I1. lia.
    - intros p Hp. destruct (Nat.eq_dec p m) as [->|NE].
      + assert (Z : inner n b (project_out n b q2) = 0) by now apply project_unit. rewrite Eq in Z at 1. rewrite inner_div_l in Z.
        apply (Rmult_eq_reg_r (/ norm n (B m))); [|now apply Rinv_neq_0_compat]. rewrite Rmult_0_l. exact Z.
      + rewrite project_other; [apply I2; lia|]. rewrite Eq, inner_div_r, O by lia. unfold Rdiv. ring. }
  apply (G size (Nat.le_refl _) q' E).
Qed.
Lemma linear_sum : forall n H m B a k, linear n H -> (k < n)%nat -> H (lincomb m B a) k = lincomb m (fun p => H (B p)) a k.
Proof.
  intros n H m B a k (L1 & L2) Hk. induction m as [|m IH].
  - unfold lincomb. cbn [sumn]. pose proof (L2 0 (fun _ => 0) (fun _ => 0) k Hk) as Z0. cbv beta in Z0.
    assert (Z1 : forall u v : nat -> R, (forall i, (i < n)%nat -> u i = v i) -> H u k = H v k) by (intros; apply L1; auto).
    rewrite (Z1 (fun _ : nat => 0 * 0 + 0) (fun _ => 0)) in Z0 by (intros; ring). pose proof (L2 (-1) (fun _ => 0) (fun _ => 0) k Hk) as Z2. cbv beta in Z2.
    rewrite (Z1 (fun _ : nat => -1 * 0 + 0) (fun _ => 0)) in Z2 by (intros; ring). lra.
  - assert (Z1 : H (lincomb (S m) B a) k = H (fun i => a m * B m i + lincomb m B a i) k) by (apply L1; [|exact Hk]; intros i Hi; unfold lincomb; cbn [sumn]; ring).
    rewrite Z1, L2, IH by exact Hk. unfold lincomb. cbn [sumn]. ring.
Qed.
