(** The derivative of exp(T + tR) |ref> along t (proof support for EOMCC). *)
From Coq Require Import Reals Arith NArith List Bool Lia Lra FunctionalExtensionality.
From Verif Require Import RSum IntegralsModel TensorObjs TensorAlg TensorDeriv TensorSpec CcsdModel CcsdUpdate LeftModel EomModel CcsdProps FockSpec FockCar FockCcSpec FockExp FockLevel FockState FockNear FockProj.
Import ListNotations.
Local Open Scope R_scope.

Notation dl f l := (derivable_pt_lim f 0 l).
Lemma dl_sum n : forall (f : nat -> R -> R) (l : nat -> R), (forall i, (i < n)%nat -> dl (f i) (l i)) -> dl (fun t => sumn n (fun i => f i t)) (sumn n l).
Proof.
  induction n as [|n IH]; intros f l H; cbn [sumn]; [apply derivable_pt_lim_const|].
  apply (derivable_pt_lim_plus (fun t => sumn n (fun i => f i t)) (f n)); [apply IH; intros; apply H; lia|apply H; lia].
Qed.
Lemma dl_scal c f l : dl f l -> dl (fun t => c * f t) (c * l). Proof. intros H. exact (derivable_pt_lim_scal f c 0 l H). Qed.
Lemma dl_add f g l k : dl f l -> dl g k -> dl (fun t => f t + g t) (l + k). Proof. intros H G. exact (derivable_pt_lim_plus f g 0 l k H G). Qed.
Lemma dl_sub f g l k : dl f l -> dl g k -> dl (fun t => f t - g t) (l - k). Proof. intros H G. exact (derivable_pt_lim_minus f g 0 l k H G). Qed.
Lemma dl_mul f g l k : dl f l -> dl g k -> dl (fun t => f t * g t) (l * g 0 + f 0 * k). Proof. intros H G. exact (derivable_pt_lim_mult f g 0 l k H G). Qed.
Lemma dl_ext f g l : (forall t, f t = g t) -> dl f l -> dl g l. Proof. intros E H. now replace g with f by (apply functional_extensionality; exact E). Qed.
Lemma dl_uniq f l k : dl f l -> dl f k -> l = k. Proof. apply uniqueness_limite. Qed.
(** Operators built from sums, factors and single creators and annihilators can be differentiated under *)
Definition smooth (X : oper) : Prop := forall (psi : R -> state) (psi' : state), (forall D, dl (fun t => psi t D) (psi' D)) -> forall D, dl (fun t => X (psi t) D) (X psi' D).
Lemma smooth_cre p : smooth (cre p).
Proof. intros psi psi' H D. unfold cre. destruct (bit D p); [now apply dl_scal|apply derivable_pt_lim_const]. Qed.
Lemma smooth_ann p : smooth (ann p).
Proof. intros psi psi' H D. unfold ann. destruct (bit D p); [apply derivable_pt_lim_const|now apply dl_scal]. Qed.
Lemma smooth_one_body n h so : smooth (one_body n h so).
Proof.
  intros psi psi' H D. unfold one_body. apply (dl_sum n (fun p t => sumn n (fun q => h p q * cre (so p) (ann (so q) (psi t)) D))). intros p _.
  apply (dl_sum n (fun q t => h p q * cre (so p) (ann (so q) (psi t)) D)). intros q _. apply dl_scal. apply (smooth_cre (so p) (fun t => ann (so q) (psi t))). now apply smooth_ann.
Qed.
Lemma smooth_two_body n w s1 s2 : smooth (two_body n w s1 s2).
Proof.
  intros psi psi' H D. unfold two_body.
  apply (dl_sum n (fun p t => sumn n (fun q => sumn n (fun r => sumn n (fun s => w p q r s * cre (s1 p) (cre (s2 q) (ann (s2 s) (ann (s1 r) (psi t)))) D))))). intros p _.
  apply (dl_sum n (fun q t => sumn n (fun r => sumn n (fun s => w p q r s * cre (s1 p) (cre (s2 q) (ann (s2 s) (ann (s1 r) (psi t)))) D)))). intros q _.
  apply (dl_sum n (fun r t => sumn n (fun s => w p q r s * cre (s1 p) (cre (s2 q) (ann (s2 s) (ann (s1 r) (psi t)))) D))). intros r _.
  apply (dl_sum n (fun s t => w p q r s * cre (s1 p) (cre (s2 q) (ann (s2 s) (ann (s1 r) (psi t)))) D)). intros s _. apply dl_scal.
  apply (smooth_cre (s1 p) (fun t => cre (s2 q) (ann (s2 s) (ann (s1 r) (psi t))))). apply (smooth_cre (s2 q) (fun t => ann (s2 s) (ann (s1 r) (psi t)))).
  apply (smooth_ann (s2 s) (fun t => ann (s1 r) (psi t))). now apply smooth_ann.
Qed.
Lemma smooth_hamiltonian n I : smooth (hamiltonian n I).
Proof.
  intros psi psi' H D. unfold hamiltonian. repeat apply dl_add; try apply dl_scal; try (now apply smooth_one_body); now apply smooth_two_body.
Qed.
Lemma smooth_along1 D0 no so a i : forall psi psi', (forall D, dl (fun t => psi t D) (psi' D)) -> dl (fun t => along1 D0 no so (psi t) a i) (along1 D0 no so psi' a i).
Proof. intros psi psi' H. unfold along1. apply (smooth_cre (so i) (fun t => ann (so (no + a)%nat) (psi t))). now apply smooth_ann. Qed.
Lemma smooth_along2 D0 no no' so so' a b i j : forall psi psi', (forall D, dl (fun t => psi t D) (psi' D)) ->
  dl (fun t => along2 D0 no no' so so' (psi t) a b i j) (along2 D0 no no' so so' psi' a b i j).
Proof.
  intros psi psi' H. unfold along2. apply (smooth_cre (so i) (fun t => cre (so' j) (ann (so' (no' + b)%nat) (ann (so (no + a)%nat) (psi t))))).
  apply (smooth_cre (so' j) (fun t => ann (so' (no' + b)%nat) (ann (so (no + a)%nat) (psi t)))). apply (smooth_ann (so' (no' + b)%nat) (fun t => ann (so (no + a)%nat) (psi t))). now apply smooth_ann.
Qed.

Lemma single_line nu no t y s so psi D : single_op nu no (fun a i => t a i + s * y a i) so psi D = single_op nu no t so psi D + s * single_op nu no y so psi D.
Proof.
  unfold single_op. rewrite <- sumn_scal, <- sumn_plus. apply sumn_ext; intros a _. rewrite <- sumn_scal, <- sumn_plus. apply sumn_ext; intros i _. ring.
Qed.
Lemma double_line nu nu' no no' t y s so so' psi D :
  double_op nu nu' no no' (fun a b i j => t a b i j + s * y a b i j) so so' psi D = double_op nu nu' no no' t so so' psi D + s * double_op nu nu' no no' y so so' psi D.
Proof.
  unfold double_op. do 2 (rewrite <- sumn_scal, <- sumn_plus; apply sumn_ext; intros ? _). do 2 (rewrite <- sumn_scal, <- sumn_plus; apply sumn_ext; intros ? _). ring.
Qed.
Lemma cluster_line d T Y t : cluster_sd d (amps_line T Y t) = fun psi D => cluster_sd d T psi D + t * cluster_sd d Y psi D.
Proof.
  apply functional_extensionality; intros psi. apply ext_state; intros D. unfold cluster_sd. cbn [amps_line x_a x_b x_aa x_ab x_bb]. rewrite !single_line, !double_line. ring.
Qed.
Lemma dpow_scal X t k psi : linear X -> dpow (fun f E => t * X f E) k psi = fun D => t ^ k * dpow X k psi D.
Proof.
  intros L. assert (P : forall j, power (fun f E => t * X f E) j psi = fun D => t ^ j * power X j psi D).
  { induction j as [|j IH]; [apply ext_state; intros; cbn; ring|]. rewrite power_S, IH. apply ext_state; intros D. rewrite (lin_scal X _ _ L). cbn [pow]. rewrite power_S. ring. }
  unfold dpow. rewrite P. apply ext_state; intros D. ring.
Qed.
Lemma dl_pow j : dl (fun t => t ^ j) (if Nat.eqb j 1 then 1 else 0).
Proof.
  assert (P := derivable_pt_lim_pow 0 j). destruct j as [|[|j]]; cbn [Nat.eqb].
  - apply derivable_pt_lim_const.
  - cbn in P. replace 1 with (1 * 1) by ring. exact P.
  - replace 0 with (INR (S (S j)) * 0 ^ pred (S (S j))) at 2; [exact P|]. cbn [pred pow]. ring.
Qed.
Lemma dl_dpow A B k psi D : linear A -> linear B -> commute A B ->
  dl (fun t => dpow (fun f E => A f E + t * B f E) (S k) psi D) (B (dpow A k psi) D).
Proof.
  intros LA LB C.
  apply dl_ext with (f := fun t => sumn (S (S k)) (fun i => t ^ (S k - i) * dpow A i (dpow B (S k - i) psi) D)).
  { intros t. rewrite (binomial A (fun f E => t * B f E)); [|exact LA|now apply scal_linear|].
    - apply sumn_ext; intros i _. rewrite dpow_scal by exact LB. now rewrite (lin_scal _ _ _ (dpow_linear A i LA)).
    - intros f. rewrite (lin_scal A _ _ LA). now rewrite C. }
  replace (B (dpow A k psi) D) with (sumn (S (S k)) (fun i => (if Nat.eqb (S k - i) 1 then 1 else 0) * dpow A i (dpow B (S k - i) psi) D)).
  - apply (dl_sum (S (S k)) (fun i t => t ^ (S k - i) * dpow A i (dpow B (S k - i) psi) D)). intros i _.
    apply dl_ext with (f := fun t => dpow A i (dpow B (S k - i) psi) D * t ^ (S k - i)); [intros; ring|]. rewrite Rmult_comm. apply dl_scal. apply dl_pow.
  - assert (CB : commute B A) by (intros f; now rewrite C).
    rewrite (commute_dpow B A k LB CB). cbn [sumn]. replace (S k - k)%nat with 1%nat by lia. replace (S k - S k)%nat with 0%nat by lia. cbn [Nat.eqb].
    rewrite sumn_0.
    + replace (dpow B 1 psi) with (B psi); [ring|]. apply ext_state; intros E. unfold dpow, power. cbn. field.
    + intros i Hi. rewrite (proj2 (Nat.eqb_neq _ _)) by lia. ring.
Qed.
Lemma dl_expo A B m psi D : linear A -> linear B -> commute A B -> dl (fun t => expo (fun f E => A f E + t * B f E) (S m) psi D) (B (expo A m psi) D).
Proof.
  intros LA LB C.
  apply dl_ext with (f := fun t => psi D + sumn (S m) (fun k => dpow (fun f E => A f E + t * B f E) (S k) psi D)).
  { intros t. unfold expo. rewrite (sumn_S_l (S m)). f_equal. cbn. field. }
  replace (B (expo A m psi) D) with (0 + sumn (S m) (fun k => B (dpow A k psi) D)).
  - apply dl_add; [apply derivable_pt_lim_const|]. apply (dl_sum (S m) (fun k t => dpow (fun f E => A f E + t * B f E) (S k) psi D)). intros k _. now apply dl_dpow.
  - rewrite Rplus_0_l. change (expo A m psi) with (fun D => sumn (S m) (fun k => dpow A k psi D)). now rewrite (lin_sum B (S m) (fun k => dpow A k psi) LB).
Qed.
Lemma dl_state d T Y m D : dl (fun t => expo (cluster_sd d (amps_line T Y t)) (S m) (pure (reference (noa d) (nob d))) D)
  (cluster_sd d Y (expo (cluster_sd d T) m (pure (reference (noa d) (nob d)))) D).
Proof.
  apply dl_ext with (f := fun t => expo (fun f E => cluster_sd d T f E + t * cluster_sd d Y f E) (S m) (pure (reference (noa d) (nob d))) D).
  - intros t. now rewrite cluster_line.
  - apply dl_expo; [eapply exc_linear, cluster_exc|eapply exc_linear, cluster_exc|eapply exc_commute; apply cluster_exc].
Qed.
