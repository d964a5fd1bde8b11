(** The right and left EOMCCSD sigma-vector routines are adjoint to each other: for any similarity-transformed Hamiltonian blocks and any
    cluster amplitudes, the bilinear form they define is the same.  Left and right eigenvectors therefore belong to one and the same operator. *)
From Coq Require Import Reals Arith List Lra.
From Verif Require Import RSum IntegralsModel TensorObjs TensorAlg TensorSpec EomModel EomReify.
Import ListNotations.
Open Scope R_scope.

Lemma eom_syms d H T L Y : antisym_ints H -> antisym_amps T -> antisym_amps L -> antisym_amps Y ->
  Forall (fun g => okalt (tenv (eom_arrays d H T L Y)) (fst g) (snd g)) eom_gens.
Proof. intros HH HT HL HY. sym_all. Qed.

Theorem C61_adjoint d H T L Y : antisym_ints H -> antisym_amps T -> antisym_amps L -> antisym_amps Y ->
  dot2 d L (eom_HR d H T Y) = dot2 d (left_LH d H T L) Y.
Proof.
  intros HH HT HL HY.
  change (den (denv [noa d; nua d; nob d; nub d]) (tenv (eom_arrays d H T L Y)) (r_lhs 0) (venv [])
        = den (denv [noa d; nua d; nob d; nub d]) (tenv (eom_arrays d H T L Y)) (r_rhs 0) (venv [])).
  apply (same_tab_sound _ _ eom_gens (length (eom_arrays d H T L Y)) eom_tab (fun x => x) [0; 1; 2; 3]%nat).
  - vm_compute. reflexivity.
  - reflexivity.
  - now apply eom_syms.
  - vm_compute. reflexivity.
Qed.

(** Hence biorthogonality: eigenvectors of the two routines with different eigenvalues are orthogonal *)
Lemma dot2_line d L X Y w : (forall a i, x_a X a i = w * x_a Y a i) -> (forall a i, x_b X a i = w * x_b Y a i) ->
  (forall a b i j, x_aa X a b i j = w * x_aa Y a b i j) -> (forall a b i j, x_ab X a b i j = w * x_ab Y a b i j) ->
  (forall a b i j, x_bb X a b i j = w * x_bb Y a b i j) -> dot2 d L X = w * dot2 d L Y.
Proof.
  intros H1 H2 H3 H4 H5. unfold dot2, sum2, sum4. rewrite !Rmult_plus_distr_l, <- !(Rmult_assoc w (1 / 4)), !(Rmult_comm w (1 / 4)), !Rmult_assoc.
  repeat apply (f_equal2 Rplus); try apply (f_equal2 Rmult eq_refl); rewrite <- sumn_scal; apply sumn_ext; intros ? _;
    repeat (rewrite <- sumn_scal; apply sumn_ext; intros ? _); rewrite ?H1, ?H2, ?H3, ?H4, ?H5; ring.
Qed.
Lemma dot2_sym d L Y : dot2 d L Y = dot2 d Y L.
Proof.
  unfold dot2, sum2, sum4. repeat apply (f_equal2 Rplus); try apply (f_equal2 Rmult eq_refl);
    repeat (apply sumn_ext; intros ? _); ring.
Qed.
(** [X = w Y] in every block below the axis lengths would be enough; total functions are used for brevity *)
Record scaled (w : R) (X Y : amps) : Prop := {
  sc_a : forall a i, x_a X a i = w * x_a Y a i; sc_b : forall a i, x_b X a i = w * x_b Y a i;
  sc_aa : forall a b i j, x_aa X a b i j = w * x_aa Y a b i j; sc_ab : forall a b i j, x_ab X a b i j = w * x_ab Y a b i j;
  sc_bb : forall a b i j, x_bb X a b i j = w * x_bb Y a b i j }.
Theorem C61_biorthogonal d H T L Y w1 w2 : antisym_ints H -> antisym_amps T -> antisym_amps L -> antisym_amps Y ->
  scaled w1 (left_LH d H T L) L -> scaled w2 (eom_HR d H T Y) Y -> w1 <> w2 -> dot2 d L Y = 0.
Proof.
  intros HH HT HL HY [S1 S2 S3 S4 S5] [Q1 Q2 Q3 Q4 Q5] Hw. assert (E := C61_adjoint d H T L Y HH HT HL HY).
  rewrite (dot2_line d L (eom_HR d H T Y) Y w2) in E by assumption. rewrite (dot2_sym d (left_LH d H T L) Y), (dot2_line d Y (left_LH d H T L) L w1), (dot2_sym d Y L) in E by assumption.
  assert ((w2 - w1) * dot2 d L Y = 0) by lra. match goal with G : _ = 0 |- _ => apply Rmult_integral in G as [G|G]; [exfalso; lra|exact G] end.
Qed.

(** The hypotheses hold for the blocks built from any orbital integrals and any antisymmetrised product amplitudes *)
Example C61_instance (h : nat -> nat -> R) (v : nat -> nat -> nat -> nat -> R) (f g : nat -> nat -> R) :
  (forall p q r s, v p q r s = v q p s r) ->
  antisym_ints (rhf_ints (mkDims 2 3 2 3) h v) /\ antisym_amps (prod_amps f g).
Proof. intros Hv. split; [now apply rhf_ints_antisym|apply prod_amps_antisym]. Qed.
(** A sigma vector that is not zero: one occupied and one virtual orbital, f_oo = -1, f_vv = 1, R1 = 1 *)
Example C61_instance_value :
  let d := mkDims 1 1 1 1 in
  let H := rhf_ints d (fun p q => if Nat.eqb p q then (if Nat.eqb p 0 then -1 else 1) else 0) (fun _ _ _ _ => 0) in
  let Z := prod_amps (fun _ _ => 0) (fun _ _ => 0) in
  let Y := prod_amps (fun _ _ => 1) (fun _ _ => 0) in
  dot2 d Y (eom_HR d H Z Y) = 4.
Proof. cbv -[IZR Rplus Rmult Rminus Ropp Rdiv Rinv]. lra. Qed.

Print Assumptions C61_adjoint.
Print Assumptions C61_biorthogonal.
