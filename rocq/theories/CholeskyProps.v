(** C29: pivoted Cholesky decomposition. *)
From Coq Require Import Reals Arith Bool Lia Lra String Ascii List.
From Verif Require Import Base RSum DiisModel CholeskyModel CholeskySpec CholeskyProofs McdProofs.
Import ListNotations.
Local Open Scope nat_scope.
Open Scope R_scope.

(** * C29 *)
Definition diagonal (A : nat -> nat -> R) : nat -> R := fun i => A i i.

(** The state the loop has reached after k passes; a pass is only made while a column is left and the pivot can be divided by. *)
Inductive passes (N : nat) (A : nat -> nat -> R) : chol -> Prop :=
| passes_start : passes N A (chol_init N (diagonal A))
| passes_more : forall st, passes N A st -> (c_m st < N)%nat -> is_nan N st = false -> passes N A (chol_step N A st).

(** In every reachable state, for a symmetric matrix: the pivot order is a permutation, the tracked diagonal equals the diagonal of
    A - sum L_k L_k^T on the columns not yet used, the rows already used as pivots are reproduced exactly, and the rows of the factor are
    zero on earlier pivots. *)
Theorem C29_tracked_diagonal : forall N A st, symmetric N A -> passes N A st ->
  (c_m st <= N)%nat
  /\ (forall k, (k < N)%nat -> (c_piv st k < N)%nat) /\ (forall k l, (k < N)%nat -> (l < N)%nat -> c_piv st k = c_piv st l -> k = l)
  /\ (forall k, (c_m st <= k)%nat -> (k < N)%nat -> c_d st (c_piv st k) = error A (c_R st) (c_m st) (c_piv st k) (c_piv st k))
  /\ (forall k j, (k < c_m st)%nat -> (j < N)%nat -> error A (c_R st) (c_m st) (c_piv st k) j = 0)
  /\ (forall k l, (l < k)%nat -> (k < c_m st)%nat -> c_R st k (c_piv st l) = 0).
Proof.
  intros N A st HA HP. assert (HI : inv N A st) by (induction HP; [apply inv_init|apply inv_step; assumption]).
  destruct HI as [I1 [B1 B2] I3 I4 I5 I6 I7]. do 5 (split; [assumption|]). assumption.
Qed.

(** Whatever the symmetric matrix: a call that returns gives m <= rank_max vectors; unless rank_max was reached, the reported error is at
    most the tolerance; and the reported error is the trace of the error matrix (or, when no vector was computed, the sum of the absolute values
    of the diagonal). *)
Theorem C29_return : forall N rank_max A tol L m err, symmetric N A ->
  pivoted_chol N rank_max (diagonal A) A tol = CholReturn L m err ->
  (m <= rank_max)%nat /\ (m <= N)%nat /\ (err <= tol \/ m = rank_max)
  /\ (err = sumn N (fun i => error A L m i i) \/ m = 0%nat /\ err = sumn N (fun i => Rabs (A i i))).
Proof.
  intros N rank_max A tol L m err HA HR.
  destruct (loop_return N A HA rank_max tol rank_max _ L m err (inv_init N A) eq_refl HR) as [st (HI & <- & <- & <- & H1 & H2)].
  split; [exact H1|]. split; [apply (i_m N A st HI)|]. split; [exact H2|]. destruct (i_err N A st HI) as [[E M]|E]; [right; auto|left; exact E].
Qed.

(** A positive semidefinite matrix with enough room: the call returns at most N vectors, the error matrix is again positive
    semidefinite and none of its entries exceeds the tolerance. *)
Theorem C29_positive_semidefinite : forall N rank_max A tol, symmetric N A -> positive_semidefinite N A -> 0 <= tol ->
  exists L m err, pivoted_chol N rank_max (diagonal A) A tol = CholReturn L m err
    /\ (m <= N)%nat /\ (m <= rank_max)%nat /\ positive_semidefinite N (error A L m)
    /\ ((N <= rank_max)%nat \/ (m < rank_max)%nat ->
        forall i j, (i < N)%nat -> (j < N)%nat -> 0 <= error A L m i i /\ Rabs (error A L m i j) <= tol).
Proof.
  intros N rank_max A tol HA HP Ht.
  destruct (ploop N A HA tol rank_max _ Ht (pinv_init N A HP)) as [st (PI & HR & HB & HE)]. simpl in HB, HE.
  exists (c_R st), (c_m st), (c_err st). split; [exact HR|]. pose proof (i_m N A st (proj1 PI)) as Hm.
  split; [exact Hm|]. split; [exact HB|]. split; [exact (proj2 PI)|]. intros Hroom.
  assert (He : c_err st <= tol).
  { destruct HE as [HE|HE]; [exact HE|]. assert (Em : c_m st = N) by lia. rewrite (pinv_err_tail N A st PI), Em, Nat.sub_diag. simpl. exact Ht. }
  rewrite (pinv_err N A st PI) in He. destruct PI as [HI HPS].
  assert (Hd : forall i, (i < N)%nat -> error A (c_R st) (c_m st) i i <= tol).
  { intros i Hi. eapply Rle_trans; [|exact He]. rewrite <- (sumn_delta_f N i (fun k => error A (c_R st) (c_m st) k k) Hi).
    apply sumn_le. intros k Hk. pose proof (psd_diag N _ k HPS Hk). destruct (Nat.eqb k i); lra. }
  intros i j Hi Hj. split; [apply (psd_diag N _ i HPS Hi)|]. apply (psd_bound N); auto. apply error_sym; exact HA.
Qed.

(** With rank_max below the rank the routine returns silently with an error above the tolerance: identity matrix, one vector. *)
Definition identity (i j : nat) : R := if Nat.eqb i j then 1 else 0.
Lemma identity_psd : forall N, positive_semidefinite N identity.
Proof.
  intros N x. rewrite (sumn_ext _ _ (fun i => x i * x i)).
  - apply sumn_nonneg. intros i _. apply Rle_0_sqr.
  - intros i Hi. rewrite (sumn_ext _ _ (fun j => if Nat.eqb j i then x i * x j else 0)).
    + rewrite (sumn_delta_f N i (fun j => x i * x j) Hi). reflexivity.
    + intros j Hj. unfold identity. rewrite (Nat.eqb_sym j i). destruct (Nat.eqb i j); ring.
Qed.
Lemma identity_sym : forall N, symmetric N identity.
Proof. intros N i j _ _. unfold identity. rewrite Nat.eqb_sym. reflexivity. Qed.
Theorem C29_rank_limit_refuted : exists N rank_max A tol L m err,
  symmetric N A /\ positive_semidefinite N A /\ 0 <= tol /\ pivoted_chol N rank_max (diagonal A) A tol = CholReturn L m err
  /\ exists i, (i < N)%nat /\ tol < error A L m i i.
Proof.
  destruct (C29_positive_semidefinite 2 1 identity (1 / 4) (identity_sym 2) (identity_psd 2) ltac:(lra)) as [L [m [err (HR & _ & Hm & HP & _)]]].
  exists 2%nat, 1%nat, identity, (1 / 4), L, m, err. split; [apply identity_sym|]. split; [apply identity_psd|]. split; [lra|]. split; [exact HR|].
  destruct (C29_return _ _ _ _ _ _ _ (identity_sym 2) HR) as (_ & _ & HE & _).
  assert (m = 0 \/ m = 1)%nat as [-> | ->] by lia.
  - exists 0%nat. split; [lia|]. rewrite error_0. unfold identity. simpl. lra.
  - assert (HZ : forall i j, (i < 2)%nat -> (j < 2)%nat -> identity i j - L 0%nat i * L 0%nat j = error identity L 1 i j) by (intros; unfold error; simpl; ring).
    pose proof (HZ 0 0 ltac:(lia) ltac:(lia))%nat as Z0. pose proof (HZ 1 1 ltac:(lia) ltac:(lia))%nat as Z1.
    destruct (Rlt_dec (1 / 4) (error identity L 1 0%nat 0%nat)) as [G|G]; [exists 0%nat; split; [lia|exact G]|].
    destruct (Rlt_dec (1 / 4) (error identity L 1 1%nat 1%nat)) as [G1|G1]; [exists 1%nat; split; [lia|exact G1]|]. exfalso.
    pose proof (psd_entry 2 _ 0 1 (error_sym 2 identity L 1 (identity_sym 2)) HP ltac:(lia) ltac:(lia)) as K.
    pose proof (HZ 0 1 ltac:(lia) ltac:(lia))%nat as Z2. rewrite <- Z0, <- Z1, <- Z2 in K. rewrite <- Z0 in G. rewrite <- Z1 in G1.
    unfold identity in *. simpl in *. nra.
Qed.

(** ** The decomposition of the atomic-orbital integrals *)
(** (pq|rs) as a matrix over pairs: row k stands for the pair (k / nao, k mod nao). *)
Definition pair_matrix (nao : nat) (eri : nat -> nat -> nat -> nat -> R) (k l : nat) : R :=
  eri (k / nao)%nat (k mod nao)%nat (l / nao)%nat (l mod nao)%nat.
(** Total number of basis functions in the shells *)
Definition total (sizes : list nat) : nat := fold_right Nat.add 0%nat sizes.

(** The shell found for a basis function j is the one whose functions include j. *)
Theorem C29_shell_lookup : forall sizes j, (forall s, In s sizes -> (0 < s)%nat) -> (j < total sizes)%nat ->
  (shell sizes j < List.length sizes)%nat
  /\ (total (firstn (shell sizes j) sizes) <= j)%nat /\ (j < total (firstn (S (shell sizes j)) sizes))%nat.
Proof. intros sizes j H Hj. exact (shell_spec sizes H j Hj). Qed.
(** The diagonal collected shell by shell and the columns cut out of the shell blocks are those of the pair matrix. *)
Theorem C29_integral_blocks : forall sizes eri k nu, (forall s, In s sizes -> (0 < s)%nat) ->
  (k < total sizes * total sizes)%nat -> (nu < total sizes * total sizes)%nat ->
  diag sizes eri k = pair_matrix (total sizes) eri k k /\ eri_col sizes eri nu k = pair_matrix (total sizes) eri k nu.
Proof. intros sizes eri k nu H Hk Hn. split; [exact (diag_M sizes eri k Hk)|exact (eri_col_M sizes eri H nu k Hn)]. Qed.
(** For positive semidefinite integrals and a nonnegative tolerance the computation after the messages either runs out of its
    cmax * nao rows, which needs cmax <= nao, or returns vectors whose error is positive semidefinite and at most the tolerance in every entry. *)
Theorem C29_integral_decomposition : forall sizes eri tol cmax, let n := total sizes in
  (forall s, In s sizes -> (0 < s)%nat) -> (0 < n)%nat -> (0 < cmax)%nat -> 0 <= tol ->
  symmetric (n * n) (pair_matrix n eri) -> positive_semidefinite (n * n) (pair_matrix n eri) ->
  (mcd_body sizes eri tol cmax = McdIndexError /\ (cmax <= n)%nat)
  \/ exists vecs m, mcd_body sizes eri tol cmax = McdReturn vecs m /\ (m < cmax * n)%nat /\ (m <= n * n)%nat
       /\ positive_semidefinite (n * n) (error (pair_matrix n eri) vecs m)
       /\ forall i j, (i < n * n)%nat -> (j < n * n)%nat -> Rabs (error (pair_matrix n eri) vecs m i j) <= tol.
Proof.
  intros sizes eri tol cmax n Hpos Hn Hc Ht HS HP. change n with (nao sizes) in *. unfold mcd_body.
  destruct (Nat.eqb_spec (nao sizes) 0) as [|_]; [lia|]. unfold nchol_max. destruct (Nat.eqb_spec (cmax * nao sizes) 0) as [Z|_]; [apply Nat.eq_mul_0 in Z; lia|].
  destruct (mloop sizes eri tol cmax Hpos Hn Ht HS (cmax * nao sizes) (mcd_init sizes eri)) as [[E B]|[st (HI & E & D & B)]].
  - apply minv_init; assumption.
  - nia.
  - reflexivity.
  - left. split; [exact E|]. unfold nchol_max in B. nia.
  - right. exists (v_vecs st), (v_n st). split; [exact E|]. split; [exact B|]. pose proof (q_psd sizes eri st HI) as PSD.
    split; [|split; [exact PSD|]].
    + destruct (q_rows sizes eri st HI) as [P (PL & PN & PZ)]. rewrite <- PL. rewrite <- (seq_length (nao sizes * nao sizes) 0).
      apply NoDup_incl_length; [exact PN|]. intros x Hx. destruct (PZ x Hx). apply in_seq. lia.
    + intros i j Hi Hj. apply (psd_bound (nao sizes * nao sizes)); auto; [apply error_sym; exact HS|].
      intros k Hk. destruct (q_nu sizes eri st HI) as [nu (_ & _ & Hmx & _)]. specialize (Hmx k Hk). unfold M, pair_matrix in *. lra.
Qed.
(** The buffer needs one row more than the rank: one basis function, cmax = 1, one vector would do. *)
Theorem C29_buffer_refuted : exists sizes eri cmax, (forall s, In s sizes -> (0 < s)%nat)
  /\ mcd_body sizes eri 0 cmax = McdIndexError
  /\ exists L, forall i j, (i < total sizes * total sizes)%nat -> (j < total sizes * total sizes)%nat ->
       error (pair_matrix (total sizes) eri) L (cmax * total sizes) i j = 0.
Proof.
  exists [1%nat], (fun _ _ _ _ => 1), 1%nat. split; [intros s [<- | []]; lia|]. split.
  - unfold mcd_body. simpl. unfold diag. simpl. rewrite Rabs_R1. destruct (Rlt_dec 0 1) as [|n]; [reflexivity|lra].
  - exists (fun _ _ => 1). intros i j _ _. unfold error, pair_matrix. simpl. ring.
Qed.
(** As the function stands, line 214 applies % to a format string without conversion: every call raises a TypeError. *)
Theorem C29_pyscf_call_refuted : forall sizes eri tol cmax, cholesky_eri_from_pyscf sizes eri tol cmax = McdTypeError.
Proof. intros. reflexivity. Qed.

(** The hypotheses are met: a rank-two matrix on three indices with unequal diagonal and an off-diagonal entry. *)
Definition gram3 : nat -> nat -> R := fun i j => INR (i + 1) * INR (j + 1) + identity i j * (if Nat.eqb i 1 then 3 else 0).
Example C29_instance : symmetric 3 gram3 /\ positive_semidefinite 3 gram3 /\ gram3 0%nat 2%nat <> 0 /\ gram3 1%nat 1%nat = 7
  /\ (forall s, In s [1; 2]%nat -> (0 < s)%nat) /\ shell [1; 2]%nat 2 = 1%nat
  /\ symmetric (3 * 3) (pair_matrix 3 (fun p q r s => INR (p + q + 1) * INR (r + s + 1)))
  /\ positive_semidefinite (3 * 3) (pair_matrix 3 (fun p q r s => INR (p + q + 1) * INR (r + s + 1))).
Proof.
  split.
  { intros i j _ _. unfold gram3, identity. destruct (Nat.eqb_spec i j); [subst; rewrite Nat.eqb_refl; ring|]. destruct (Nat.eqb_spec j i); [lia|]. ring. }
  split.
  { intros x. unfold gram3, identity. simpl.
    match goal with |- 0 <= ?e => replace e with ((x 0%nat + 2 * x 1%nat + 3 * x 2%nat) ^ 2 + 3 * (x 1%nat) ^ 2) by (simpl; ring) end.
    pose proof (pow2_ge_0 (x 0%nat + 2 * x 1%nat + 3 * x 2%nat)). pose proof (pow2_ge_0 (x 1%nat)). lra. }
  split; [unfold gram3, identity; simpl; lra|]. split; [unfold gram3, identity; simpl; lra|].
  split; [intros s [<- | [<- | []]]; lia|]. split; [reflexivity|]. split; [intros i j _ _; unfold pair_matrix; ring|].
  intros x. unfold pair_matrix. rewrite (sumn_ext _ _ (fun i => sumn (3 * 3) (fun j => (x i * INR (i / 3 + i mod 3 + 1)) * (x j * INR (j / 3 + j mod 3 + 1))))).
  - rewrite <- sumn_mult. apply Rle_0_sqr.
  - intros i _. apply sumn_ext. intros j _. ring.
Qed.

Print Assumptions C29_tracked_diagonal. Print Assumptions C29_return. Print Assumptions C29_positive_semidefinite.
Print Assumptions C29_rank_limit_refuted. Print Assumptions C29_shell_lookup. Print Assumptions C29_integral_blocks.
Print Assumptions C29_integral_decomposition. Print Assumptions C29_buffer_refuted. Print Assumptions C29_pyscf_call_refuted.
