(** C25: the DIIS extrapolation. *)
From Coq Require Import Reals Lra Lia Arith List.
From Verif Require Import RSum DiisModel DiisSpec DiisProofs.
Import ListNotations.
Open Scope R_scope.

(** The elimination without pivoting solves every system whose leading blocks are non-singular. *)
Theorem C25_gauss_solves : forall n A b, (1 <= n)%nat ->
  (forall k, (1 <= k <= n)%nat -> nonsingular_block k A) -> solves n A b (solve_gauss n A b).
Proof.
  intros n A b Hn H. apply gauss_solves; [exact Hn|]. intros k Hk.
  change (eliminate n A b) with (stage n (A, b) (n - 1)). rewrite stage_row by lia. now apply blocks_pivots.
Qed.

(** Linearly independent stored residuals: the coefficients sum to one and the residual combination is the unique
    shortest one among all combinations with coefficients summing to one. *)
Theorem C25_coefficients_sum_to_one : forall d, (1 <= d_size d)%nat ->
  independent (d_size d) (d_ndim d) (d_R d) -> coefficients_sum_to_one (d_size d) (coefficients d).
Proof. intros d Hm Hi. exact (proj2 (coefficients_system d Hm Hi)). Qed.

Theorem C25_minimal_residual : forall d e, (1 <= d_size d)%nat ->
  independent (d_size d) (d_ndim d) (d_R d) -> coefficients_sum_to_one (d_size d) e ->
  let best := combination (d_size d) (coefficients d) (d_R d) in
  norm2 (d_ndim d) best <= norm2 (d_ndim d) (combination (d_size d) e (d_R d)) /\
  (norm2 (d_ndim d) (combination (d_size d) e (d_R d)) = norm2 (d_ndim d) best ->
     forall i, (i < d_size d)%nat -> e i = coefficients d i).
Proof.
  intros d e Hm Hi He best. pose proof (diis_minimal d (coefficients d) e (coefficients_system d Hm Hi) He) as H.
  fold best in H. pose proof (norm2_nonneg (d_ndim d) (combination (d_size d) (fun i => e i - coefficients d i) (d_R d))).
  split; [lra|]. intros K i Hlt.
  assert (Z : e i - coefficients d i = 0); [|lra].
  apply (Hi (fun i => e i - coefficients d i)); [|exact Hlt]. apply norm2_zero. lra.
Qed.

(** What is returned is that combination of the stored amplitude vectors. *)
Theorem C25_extrapolated_vector : forall d p,
  extrapolate d p = combination (d_size d) (coefficients d) (d_T d) p.
Proof. exact extrapolate_form. Qed.

(** A vector stored in every slot is a fixed point. *)
Theorem C25_fixed_point : forall d t, (1 <= d_size d)%nat ->
  independent (d_size d) (d_ndim d) (d_R d) ->
  (forall i p, (i < d_size d)%nat -> (p < d_ndim d)%nat -> d_T d i p = t p) ->
  forall p, (p < d_ndim d)%nat -> extrapolate d p = t p.
Proof.
  intros d t Hm Hi Ht p Hp. rewrite extrapolate_form. unfold combination.
  rewrite (sumn_ext _ _ (fun i => coefficients d i * t p)) by (intros i Hlt; now rewrite Ht).
  rewrite sumn_scal_r. rewrite (proj2 (coefficients_system d Hm Hi)). lra.
Qed.

(** Instance: three slots holding the unit vectors of R^3 as residuals; all hypotheses hold and the coefficients are 1/3. *)
Definition unit_diis : diis :=
  {| d_size := 3; d_ndim := 3; d_T := fun i p => INR i; d_R := fun i p => if i =? p then 1 else 0 |}.
Lemma unit_independent : independent 3 3 (d_R unit_diis).
Proof.
  intros c H i Hi. specialize (H i Hi). unfold combination in H. cbn in H.
  destruct i as [|[|[|i]]]; cbn in H; try lra; lia.
Qed.
Example C25_instance : (1 <= d_size unit_diis)%nat /\ independent (d_size unit_diis) (d_ndim unit_diis) (d_R unit_diis) /\
  forall i, (i < 3)%nat -> coefficients unit_diis i = 1 / 3.
Proof.
  split; [cbn; lia|]. split; [exact unit_independent|].
  destruct (coefficients_system unit_diis) as [H1 H2]; [cbn; lia|exact unit_independent|].
  pose proof (H1 0%nat ltac:(cbn; lia)) as E0. pose proof (H1 1%nat ltac:(cbn; lia)) as E1. pose proof (H1 2%nat ltac:(cbn; lia)) as E2.
  set (c := coefficients unit_diis) in *. clearbody c. unfold gram, dot in *. cbn in *.
  intros i Hi. destruct i as [|[|[|i]]]; try lia; lra.
Qed.
(** Instance of the elimination theorem: a 2 x 2 matrix with an off-diagonal part. *)
Example C25_gauss_instance : let A := fun i j : nat => if i =? j then 2 else 1 in
  forall k, (1 <= k <= 2)%nat -> nonsingular_block k A.
Proof.
  intros A k Hk y Hy c Hc. assert (k = 1 \/ k = 2)%nat as [->| ->] by lia.
  - pose proof (Hy 0%nat ltac:(lia)). unfold A in *. cbn in *. replace c with 0%nat by lia. lra.
  - pose proof (Hy 0%nat ltac:(lia)). pose proof (Hy 1%nat ltac:(lia)). unfold A in *. cbn in *.
    destruct c as [|[|c]]; try lra; lia.
Qed.

Print Assumptions C25_gauss_solves.
Print Assumptions C25_minimal_residual.
Print Assumptions C25_fixed_point.
