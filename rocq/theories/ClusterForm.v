(** The program's formulas applied to the coefficients of exp(T) give T. *)
From Coq Require Import Reals List Arith Bool Lra Lia.
From Verif Require Import TensorObjs PspaceSpec ScatterModel ClusterModel ClusterSpec ClusterAlg.
Import ListNotations.
Open Scope R_scope.

Notation Sa a := (Alpha, a).
Notation Sb a := (Beta, a).
Local Opaque cexp.
Section Form.
Variable D : dims.
Variable T : oper.
Hypothesis HT : cluster_op T.
Variable C : ci3.
Hypothesis H_a : forall a i, (a < nua D)%nat -> (i < noa D)%nat -> c_a C [a; i] = cexp T [Sa a] [Sa i].
Hypothesis H_b : forall a i, (a < nub D)%nat -> (i < nob D)%nat -> c_b C [a; i] = cexp T [Sb a] [Sb i].
Hypothesis H_aa : forall a b i j, (a < nua D)%nat -> (b < nua D)%nat -> (i < noa D)%nat -> (j < noa D)%nat -> c_aa C [a; b; i; j] = cexp T [Sa a; Sa b] [Sa i; Sa j].
Hypothesis H_ab : forall a b i j, (a < nua D)%nat -> (b < nub D)%nat -> (i < noa D)%nat -> (j < nob D)%nat -> c_ab C [a; b; i; j] = cexp T [Sa a; Sb b] [Sa i; Sb j].
Hypothesis H_bb : forall a b i j, (a < nub D)%nat -> (b < nub D)%nat -> (i < nob D)%nat -> (j < nob D)%nat -> c_bb C [a; b; i; j] = cexp T [Sb a; Sb b] [Sb i; Sb j].
Hypothesis H_aaa : forall a b c i j k, (a < nua D)%nat -> (b < nua D)%nat -> (c < nua D)%nat -> (i < noa D)%nat -> (j < noa D)%nat -> (k < noa D)%nat -> c_aaa C [a; b; c; i; j; k] = cexp T [Sa a; Sa b; Sa c] [Sa i; Sa j; Sa k].
Hypothesis H_aab : forall a b c i j k, (a < nua D)%nat -> (b < nua D)%nat -> (c < nub D)%nat -> (i < noa D)%nat -> (j < noa D)%nat -> (k < nob D)%nat -> c_aab C [a; b; c; i; j; k] = cexp T [Sa a; Sa b; Sb c] [Sa i; Sa j; Sb k].
Hypothesis H_abb : forall a b c i j k, (a < nua D)%nat -> (b < nub D)%nat -> (c < nub D)%nat -> (i < noa D)%nat -> (j < nob D)%nat -> (k < nob D)%nat -> c_abb C [a; b; c; i; j; k] = cexp T [Sa a; Sb b; Sb c] [Sa i; Sb j; Sb k].
Hypothesis H_bbb : forall a b c i j k, (a < nub D)%nat -> (b < nub D)%nat -> (c < nub D)%nat -> (i < nob D)%nat -> (j < nob D)%nat -> (k < nob D)%nat -> c_bbb C [a; b; c; i; j; k] = cexp T [Sb a; Sb b; Sb c] [Sb i; Sb j; Sb k].

Lemma T0 : T [] [] = 0. Proof. apply HT. Qed.
Lemma P2 : forall x y Q H, T (x :: y :: Q) H = - T (y :: x :: Q) H.
Proof. intros. apply (op_particles T (cl_op T HT) [] x y Q H). Qed.
Lemma P3 : forall z x y Q H, T (z :: x :: y :: Q) H = - T (z :: y :: x :: Q) H.
Proof. intros. apply (op_particles T (cl_op T HT) [z] x y Q H). Qed.
Lemma H2 : forall x y P Q, T P (x :: y :: Q) = - T P (y :: x :: Q).
Proof. intros. apply (op_holes T (cl_op T HT) P [] x y Q). Qed.
Lemma H3 : forall z x y P Q, T P (z :: x :: y :: Q) = - T P (z :: y :: x :: Q).
Proof. intros. apply (op_holes T (cl_op T HT) P [z] x y Q). Qed.
Lemma spin0 : forall P H, (Nat.eqb (count_spin Alpha P) (count_spin Alpha H) && Nat.eqb (count_spin Beta P) (count_spin Beta H))%bool = false -> T P H = 0.
Proof.
  intros P H E. apply Bool.andb_false_iff in E as [E|E]; apply Nat.eqb_neq in E; apply (op_spin T (cl_op T HT)) in E; exact E.
Qed.
Ltac exps := rewrite ?(exp1 T T0), ?(exp2 T T0), ?(exp3 T T0), ?(exp4 T T0).
Ltac spins := repeat match goal with |- context [T ?P ?H] =>
  let e := eval cbv in (Nat.eqb (count_spin Alpha P) (count_spin Alpha H) && Nat.eqb (count_spin Beta P) (count_spin Beta H))%bool in
  lazymatch e with false => rewrite (spin0 P H eq_refl) end end.
Ltac sortp a b := rewrite ?(P2 b a), ?(P3 _ b a).
Ltac sorth i j := rewrite ?(H2 j i), ?(H3 _ j i).
Ltac reads srt := repeat match goal with
  | |- context [c_a C [?a; ?i]] =>
      let E := fresh in eassert (E : c_a C [a; i] = _) by (rewrite (H_a a i) by assumption; rewrite (exp1 T T0); unfold so; reflexivity); rewrite E; clear E
  | |- context [c_b C [?a; ?i]] =>
      let E := fresh in eassert (E : c_b C [a; i] = _) by (rewrite (H_b a i) by assumption; rewrite (exp1 T T0); unfold so; reflexivity); rewrite E; clear E
  | |- context [c_aa C [?a; ?b; ?i; ?j]] =>
      let E := fresh in eassert (E : c_aa C [a; b; i; j] = _) by (rewrite (H_aa a b i j) by assumption; rewrite (exp2 T T0); spins; srt; unfold so; reflexivity); rewrite E; clear E
  | |- context [c_ab C [?a; ?b; ?i; ?j]] =>
      let E := fresh in eassert (E : c_ab C [a; b; i; j] = _) by (rewrite (H_ab a b i j) by assumption; rewrite (exp2 T T0); spins; srt; unfold so; reflexivity); rewrite E; clear E
  | |- context [c_bb C [?a; ?b; ?i; ?j]] =>
      let E := fresh in eassert (E : c_bb C [a; b; i; j] = _) by (rewrite (H_bb a b i j) by assumption; rewrite (exp2 T T0); spins; srt; unfold so; reflexivity); rewrite E; clear E
  | |- context [c_aaa C [?a; ?b; ?c; ?i; ?j; ?k]] =>
      let E := fresh in eassert (E : c_aaa C [a; b; c; i; j; k] = _) by (rewrite (H_aaa a b c i j k) by assumption; rewrite (exp3 T T0); spins; srt; unfold so; reflexivity); rewrite E; clear E
  | |- context [c_aab C [?a; ?b; ?c; ?i; ?j; ?k]] =>
      let E := fresh in eassert (E : c_aab C [a; b; c; i; j; k] = _) by (rewrite (H_aab a b c i j k) by assumption; rewrite (exp3 T T0); spins; srt; unfold so; reflexivity); rewrite E; clear E
  | |- context [c_abb C [?a; ?b; ?c; ?i; ?j; ?k]] =>
      let E := fresh in eassert (E : c_abb C [a; b; c; i; j; k] = _) by (rewrite (H_abb a b c i j k) by assumption; rewrite (exp3 T T0); spins; srt; unfold so; reflexivity); rewrite E; clear E
  | |- context [c_bbb C [?a; ?b; ?c; ?i; ?j; ?k]] =>
      let E := fresh in eassert (E : c_bbb C [a; b; c; i; j; k] = _) by (rewrite (H_bbb a b c i j k) by assumption; rewrite (exp3 T T0); spins; srt; unfold so; reflexivity); rewrite E; clear E
  end.
Lemma form_aa : forall a b i j, (a < nua D)%nat -> (b < nua D)%nat -> (i < noa D)%nat -> (j < noa D)%nat -> f_aa C a b i j = T [Sa a; Sa b] [Sa i; Sa j].
Proof.
  intros. unfold f_aa. let srt := ( sortp (Sa a) (Sa b); sorth (Sa i) (Sa j); sortp (Sa a) (Sa b); sorth (Sa i) (Sa j)) in reads srt. unfold so. ring.
Qed.
Lemma form_ab : forall a b i j, (a < nua D)%nat -> (b < nub D)%nat -> (i < noa D)%nat -> (j < nob D)%nat -> f_ab C a b i j = T [Sa a; Sb b] [Sa i; Sb j].
Proof.
  intros. unfold f_ab. let srt := ( sortp (Sa a) (Sb b); sorth (Sa i) (Sb j); sortp (Sa a) (Sb b); sorth (Sa i) (Sb j)) in reads srt. unfold so. ring.
Qed.
Lemma form_bb : forall a b i j, (a < nub D)%nat -> (b < nub D)%nat -> (i < nob D)%nat -> (j < nob D)%nat -> f_bb C a b i j = T [Sb a; Sb b] [Sb i; Sb j].
Proof.
  intros. unfold f_bb. let srt := ( sortp (Sb a) (Sb b); sorth (Sb i) (Sb j); sortp (Sb a) (Sb b); sorth (Sb i) (Sb j)) in reads srt. unfold so. ring.
Qed.
Lemma form_aaa : forall a b c i j k, (a < nua D)%nat -> (b < nua D)%nat -> (c < nua D)%nat -> (i < noa D)%nat -> (j < noa D)%nat -> (k < noa D)%nat -> f_aaa C a b c i j k = T [Sa a; Sa b; Sa c] [Sa i; Sa j; Sa k].
Proof.
  intros. unfold f_aaa. let srt := ( sortp (Sa a) (Sa b); sortp (Sa a) (Sa c); sortp (Sa b) (Sa c); sorth (Sa i) (Sa j); sorth (Sa i) (Sa k); sorth (Sa j) (Sa k); sortp (Sa a) (Sa b); sortp (Sa a) (Sa c); sortp (Sa b) (Sa c); sorth (Sa i) (Sa j); sorth (Sa i) (Sa k); sorth (Sa j) (Sa k)) in reads srt. unfold so. ring.
Qed.
Lemma form_aab : forall a b c i j k, (a < nua D)%nat -> (b < nua D)%nat -> (c < nub D)%nat -> (i < noa D)%nat -> (j < noa D)%nat -> (k < nob D)%nat -> f_aab C a b c i j k = T [Sa a; Sa b; Sb c] [Sa i; Sa j; Sb k].
Proof.
  intros. unfold f_aab. let srt := ( sortp (Sa a) (Sa b); sortp (Sa a) (Sb c); sortp (Sa b) (Sb c); sorth (Sa i) (Sa j); sorth (Sa i) (Sb k); sorth (Sa j) (Sb k); sortp (Sa a) (Sa b); sortp (Sa a) (Sb c); sortp (Sa b) (Sb c); sorth (Sa i) (Sa j); sorth (Sa i) (Sb k); sorth (Sa j) (Sb k)) in reads srt. unfold so. ring.
Qed.
Lemma form_abb : forall a b c i j k, (a < nua D)%nat -> (b < nub D)%nat -> (c < nub D)%nat -> (i < noa D)%nat -> (j < nob D)%nat -> (k < nob D)%nat -> f_abb C a b c i j k = T [Sa a; Sb b; Sb c] [Sa i; Sb j; Sb k].
Proof.
  intros. unfold f_abb. let srt := ( sortp (Sa a) (Sb b); sortp (Sa a) (Sb c); sortp (Sb b) (Sb c); sorth (Sa i) (Sb j); sorth (Sa i) (Sb k); sorth (Sb j) (Sb k); sortp (Sa a) (Sb b); sortp (Sa a) (Sb c); sortp (Sb b) (Sb c); sorth (Sa i) (Sb j); sorth (Sa i) (Sb k); sorth (Sb j) (Sb k)) in reads srt. unfold so. ring.
Qed.
Lemma form_bbb : forall a b c i j k, (a < nub D)%nat -> (b < nub D)%nat -> (c < nub D)%nat -> (i < nob D)%nat -> (j < nob D)%nat -> (k < nob D)%nat -> f_bbb C a b c i j k = T [Sb a; Sb b; Sb c] [Sb i; Sb j; Sb k].
Proof.
  intros. unfold f_bbb. let srt := ( sortp (Sb a) (Sb b); sortp (Sb a) (Sb c); sortp (Sb b) (Sb c); sorth (Sb i) (Sb j); sorth (Sb i) (Sb k); sorth (Sb j) (Sb k); sortp (Sb a) (Sb b); sortp (Sb a) (Sb c); sortp (Sb b) (Sb c); sorth (Sb i) (Sb j); sorth (Sb i) (Sb k); sorth (Sb j) (Sb k)) in reads srt. unfold so. ring.
Qed.
Lemma form_aaaa : forall a b c d i j k l, (a < nua D)%nat -> (b < nua D)%nat -> (c < nua D)%nat -> (d < nua D)%nat -> (i < noa D)%nat -> (j < noa D)%nat -> (k < noa D)%nat -> (l < noa D)%nat -> f_aaaa C (cexp T [Sa a; Sa b; Sa c; Sa d] [Sa i; Sa j; Sa k; Sa l]) a b c d i j k l = T [Sa a; Sa b; Sa c; Sa d] [Sa i; Sa j; Sa k; Sa l].
Proof.
  intros. unfold f_aaaa. let srt := ( sortp (Sa a) (Sa b); sortp (Sa a) (Sa c); sortp (Sa a) (Sa d); sortp (Sa b) (Sa c); sortp (Sa b) (Sa d); sortp (Sa c) (Sa d); sorth (Sa i) (Sa j); sorth (Sa i) (Sa k); sorth (Sa i) (Sa l); sorth (Sa j) (Sa k); sorth (Sa j) (Sa l); sorth (Sa k) (Sa l); sortp (Sa a) (Sa b); sortp (Sa a) (Sa c); sortp (Sa a) (Sa d); sortp (Sa b) (Sa c); sortp (Sa b) (Sa d); sortp (Sa c) (Sa d); sorth (Sa i) (Sa j); sorth (Sa i) (Sa k); sorth (Sa i) (Sa l); sorth (Sa j) (Sa k); sorth (Sa j) (Sa l); sorth (Sa k) (Sa l)) in reads srt. rewrite (exp4 T T0). spins. unfold so. ring.
Qed.
Lemma form_aaab : forall a b c d i j k l, (a < nua D)%nat -> (b < nua D)%nat -> (c < nua D)%nat -> (d < nub D)%nat -> (i < noa D)%nat -> (j < noa D)%nat -> (k < noa D)%nat -> (l < nob D)%nat -> f_aaab C (cexp T [Sa a; Sa b; Sa c; Sb d] [Sa i; Sa j; Sa k; Sb l]) a b c d i j k l = T [Sa a; Sa b; Sa c; Sb d] [Sa i; Sa j; Sa k; Sb l].
Proof.
  intros. unfold f_aaab. let srt := ( sortp (Sa a) (Sa b); sortp (Sa a) (Sa c); sortp (Sa a) (Sb d); sortp (Sa b) (Sa c); sortp (Sa b) (Sb d); sortp (Sa c) (Sb d); sorth (Sa i) (Sa j); sorth (Sa i) (Sa k); sorth (Sa i) (Sb l); sorth (Sa j) (Sa k); sorth (Sa j) (Sb l); sorth (Sa k) (Sb l); sortp (Sa a) (Sa b); sortp (Sa a) (Sa c); sortp (Sa a) (Sb d); sortp (Sa b) (Sa c); sortp (Sa b) (Sb d); sortp (Sa c) (Sb d); sorth (Sa i) (Sa j); sorth (Sa i) (Sa k); sorth (Sa i) (Sb l); sorth (Sa j) (Sa k); sorth (Sa j) (Sb l); sorth (Sa k) (Sb l)) in reads srt. rewrite (exp4 T T0). spins. unfold so. ring.
Qed.
Lemma form_aabb : forall a b c d i j k l, (a < nua D)%nat -> (b < nua D)%nat -> (c < nub D)%nat -> (d < nub D)%nat -> (i < noa D)%nat -> (j < noa D)%nat -> (k < nob D)%nat -> (l < nob D)%nat -> f_aabb C (cexp T [Sa a; Sa b; Sb c; Sb d] [Sa i; Sa j; Sb k; Sb l]) a b c d i j k l = T [Sa a; Sa b; Sb c; Sb d] [Sa i; Sa j; Sb k; Sb l].
Proof.
  intros. unfold f_aabb. let srt := ( sortp (Sa a) (Sa b); sortp (Sa a) (Sb c); sortp (Sa a) (Sb d); sortp (Sa b) (Sb c); sortp (Sa b) (Sb d); sortp (Sb c) (Sb d); sorth (Sa i) (Sa j); sorth (Sa i) (Sb k); sorth (Sa i) (Sb l); sorth (Sa j) (Sb k); sorth (Sa j) (Sb l); sorth (Sb k) (Sb l); sortp (Sa a) (Sa b); sortp (Sa a) (Sb c); sortp (Sa a) (Sb d); sortp (Sa b) (Sb c); sortp (Sa b) (Sb d); sortp (Sb c) (Sb d); sorth (Sa i) (Sa j); sorth (Sa i) (Sb k); sorth (Sa i) (Sb l); sorth (Sa j) (Sb k); sorth (Sa j) (Sb l); sorth (Sb k) (Sb l)) in reads srt. rewrite (exp4 T T0). spins. unfold so. ring.
Qed.
Lemma form_abbb : forall a b c d i j k l, (a < nua D)%nat -> (b < nub D)%nat -> (c < nub D)%nat -> (d < nub D)%nat -> (i < noa D)%nat -> (j < nob D)%nat -> (k < nob D)%nat -> (l < nob D)%nat -> f_abbb C (cexp T [Sa a; Sb b; Sb c; Sb d] [Sa i; Sb j; Sb k; Sb l]) a b c d i j k l = T [Sa a; Sb b; Sb c; Sb d] [Sa i; Sb j; Sb k; Sb l].
Proof.
  intros. unfold f_abbb. let srt := ( sortp (Sa a) (Sb b); sortp (Sa a) (Sb c); sortp (Sa a) (Sb d); sortp (Sb b) (Sb c); sortp (Sb b) (Sb d); sortp (Sb c) (Sb d); sorth (Sa i) (Sb j); sorth (Sa i) (Sb k); sorth (Sa i) (Sb l); sorth (Sb j) (Sb k); sorth (Sb j) (Sb l); sorth (Sb k) (Sb l); sortp (Sa a) (Sb b); sortp (Sa a) (Sb c); sortp (Sa a) (Sb d); sortp (Sb b) (Sb c); sortp (Sb b) (Sb d); sortp (Sb c) (Sb d); sorth (Sa i) (Sb j); sorth (Sa i) (Sb k); sorth (Sa i) (Sb l); sorth (Sb j) (Sb k); sorth (Sb j) (Sb l); sorth (Sb k) (Sb l)) in reads srt. rewrite (exp4 T T0). spins. unfold so. ring.
Qed.
Lemma form_bbbb : forall a b c d i j k l, (a < nub D)%nat -> (b < nub D)%nat -> (c < nub D)%nat -> (d < nub D)%nat -> (i < nob D)%nat -> (j < nob D)%nat -> (k < nob D)%nat -> (l < nob D)%nat -> f_bbbb C (cexp T [Sb a; Sb b; Sb c; Sb d] [Sb i; Sb j; Sb k; Sb l]) a b c d i j k l = T [Sb a; Sb b; Sb c; Sb d] [Sb i; Sb j; Sb k; Sb l].
Proof.
  intros. unfold f_bbbb. let srt := ( sortp (Sb a) (Sb b); sortp (Sb a) (Sb c); sortp (Sb a) (Sb d); sortp (Sb b) (Sb c); sortp (Sb b) (Sb d); sortp (Sb c) (Sb d); sorth (Sb i) (Sb j); sorth (Sb i) (Sb k); sorth (Sb i) (Sb l); sorth (Sb j) (Sb k); sorth (Sb j) (Sb l); sorth (Sb k) (Sb l); sortp (Sb a) (Sb b); sortp (Sb a) (Sb c); sortp (Sb a) (Sb d); sortp (Sb b) (Sb c); sortp (Sb b) (Sb d); sortp (Sb c) (Sb d); sorth (Sb i) (Sb j); sorth (Sb i) (Sb k); sorth (Sb i) (Sb l); sorth (Sb j) (Sb k); sorth (Sb j) (Sb l); sorth (Sb k) (Sb l)) in reads srt. rewrite (exp4 T T0). spins. unfold so. ring.
Qed.
End Form.
