(** Components of H R exp(T) |ref> (proof support for EOMCC). *)
From Coq Require Import Reals Arith NArith List Bool Lia Lra FunctionalExtensionality.
From Verif Require Import RSum IntegralsModel TensorObjs TensorAlg TensorDeriv TensorSpec CcsdModel CcsdUpdate LeftModel EomModel CcsdProps FockSpec FockCar FockCcSpec FockExp FockLevel FockState FockNear FockProj FockEom.
Import ListNotations.
Local Open Scope R_scope.

Lemma dl_at f l l' : dl f l -> l = l' -> dl f l'. Proof. now intros H <-. Qed.
Ltac dd := first [eassumption|apply dl_add; dd|apply dl_sub; dd|apply dl_mul; dd].
Lemma prod1 E E' x x' r r' : dl E E' -> dl x x' -> dl r r' -> dl (fun t => E t * x t + r t) (E' * x 0 + E 0 * x' + r').
Proof. intros. eapply dl_at; [dd|cbv beta; ring]. Qed.
Lemma prod_ab E E' x x' u u' v v' r r' ru ru' rv rv' : dl E E' -> dl x x' -> dl u u' -> dl v v' -> dl r r' -> dl ru ru' -> dl rv rv' ->
  dl (fun t => E t * (x t + u t * v t) + (r t + (ru t * v t + u t * rv t)))
     (E' * (x 0 + u 0 * v 0) + E 0 * (x' + u' * v 0 + u 0 * v') + (r' + (ru' * v 0 + ru 0 * v' + u' * rv 0 + u 0 * rv'))).
Proof. intros. eapply dl_at; [dd|cbv beta; ring]. Qed.
Lemma prod_aa E E' x x' u u' v v' w w' z z' r r' ru ru' rv rv' rw rw' rz rz' : dl E E' -> dl x x' -> dl u u' -> dl v v' -> dl w w' -> dl z z' ->
  dl r r' -> dl ru ru' -> dl rv rv' -> dl rw rw' -> dl rz rz' ->
  dl (fun t => E t * (x t + u t * v t - w t * z t) + (r t + ((ru t * v t + u t * rv t) - (rw t * z t + w t * rz t))))
     (E' * (x 0 + u 0 * v 0 - w 0 * z 0) + E 0 * (x' + u' * v 0 + u 0 * v' - w' * z 0 - w 0 * z')
      + (r' + ((ru' * v 0 + ru 0 * v' + u' * rv 0 + u 0 * rv') - (rw' * z 0 + rw 0 * z' + w' * rz 0 + w 0 * rz')))).
Proof. intros. eapply dl_at; [dd|cbv beta; ring]. Qed.
Lemma prod_c x x' u u' v v' w w' z z' : dl x x' -> dl u u' -> dl v v' -> dl w w' -> dl z z' ->
  dl (fun t => x t + u t * v t - w t * z t) (x' + u' * v 0 + u 0 * v' - w' * z 0 - w 0 * z').
Proof. intros. eapply dl_at; [dd|cbv beta; ring]. Qed.
Lemma prod_d x x' u u' v v' : dl x x' -> dl u u' -> dl v v' -> dl (fun t => x t + u t * v t) (x' + u' * v 0 + u 0 * v').
Proof. intros. eapply dl_at; [dd|cbv beta; ring]. Qed.
Lemma dl_lin x y : dl (fun t => x + t * y) y.
Proof.
  eapply dl_at; [apply dl_add; [apply derivable_pt_lim_const|apply dl_mul; [apply derivable_pt_lim_id|apply derivable_pt_lim_const]]|unfold id; ring].
Qed.
Lemma amps_line0 T Y : amps_line T Y 0 = T.
Proof.
  destruct T as [xa xb xaa xab xbb xaaa xaab xabb xbbb]. unfold amps_line. cbn [x_a x_b x_aa x_ab x_bb x_aaa x_aab x_abb x_bbb].
  f_equal; repeat (apply functional_extensionality; intros ?); ring.
Qed.
Lemma antisym_line T Y t : antisym_amps T -> antisym_amps Y -> antisym_amps (amps_line T Y t).
Proof.
  intros [T1 T2 T3 T4] [Y1 Y2 Y3 Y4]. constructor; intros a b i j; cbn [amps_line x_aa x_bb].
  - rewrite (T1 a b i j), (Y1 a b i j). ring.
  - rewrite (T2 a b i j), (Y2 a b i j). ring.
  - rewrite (T3 a b i j), (Y3 a b i j). ring.
  - rewrite (T4 a b i j), (Y4 a b i j). ring.
Qed.

Section D.
Variables (d : dims) (I : integrals) (T Y : amps) (n m : nat).
Hypothesis En : (noa d + nua d = n)%nat.
Hypothesis En' : (nob d + nub d = n)%nat.
Hypothesis HI : exchangeable I.
Hypothesis HT : antisym_amps T.
Hypothesis HY : antisym_amps Y.
Hypothesis Hm : (4 <= m)%nat.
Notation H := (fock_ints (noa d) (nob d) I).
Notation ref := (reference (noa d) (nob d)).
Notation psi := (expo (cluster_sd d T) m (pure ref)).
Notation phi := (cluster_sd d Y psi).
Notation T_ t := (amps_line T Y t).
Notation psi_ t := (expo (cluster_sd d (T_ t)) (S m) (pure ref)).
Notation E := (scf_energy (noa d) (nob d) I + cc_energy d H T).
Notation E' := (r0_sum d (hbar_ccsd d H T) Y).
Notation sg := (eom_HR d (hbar_ccsd d H T) T Y).
Notation R0 := (ccsd_resid d H T).
Notation HF := (hamiltonian n I phi).
Notation al1 := (along1 ref (noa d) al).
Notation be1 := (along1 ref (nob d) be).
Notation aa2 := (along2 ref (noa d) (noa d) al al).
Notation ab2 := (along2 ref (noa d) (nob d) al be).
Notation bb2 := (along2 ref (nob d) (nob d) be be).
Let HH : antisym_ints H := fock_ints_antisym _ _ _ HI.
Lemma HT_ t : antisym_amps (T_ t). Proof. now apply antisym_line. Qed.
Lemma Hm1 : (4 <= S m)%nat. Proof. lia. Qed.

Lemma dphi D : dl (fun t => psi_ t D) (phi D). Proof. apply dl_state. Qed.
Lemma dHphi D : dl (fun t => hamiltonian n I (psi_ t) D) (HF D). Proof. apply (smooth_hamiltonian n I (fun t => psi_ t)). exact dphi. Qed.
Lemma dE : dl (fun t => scf_energy (noa d) (nob d) I + cc_energy d H (T_ t)) E'.
Proof. eapply dl_at; [apply dl_add; [apply derivable_pt_lim_const|now apply C62_energy_gradient]|ring]. Qed.
Lemma dR : jacobian d (fun t => ccsd_resid d H (T_ t)) sg. Proof. now apply C62_jacobian. Qed.
Ltac at0 := cbv beta; rewrite ?amps_line0.

Lemma p0 : phi ref = 0.
Proof. apply (dl_uniq _ _ _ (dphi ref)). apply dl_ext with (f := fun _ => 1); [intros t; symmetry; exact (norm d I (T_ t) n (S m) En En' HI (HT_ t) Hm1)|apply derivable_pt_lim_const]. Qed.
Lemma q0 : HF ref = E'.
Proof. apply (dl_uniq _ _ _ (dHphi ref)). apply dl_ext with (2 := dE). intros t. symmetry. exact (energy d I (T_ t) n (S m) En En' HI (HT_ t) Hm1). Qed.
Lemma p1a a i : (a < nua d)%nat -> (i < noa d)%nat -> al1 phi a i = x_a Y a i.
Proof.
  intros Ha Hi. apply (dl_uniq _ _ _ (smooth_along1 ref (noa d) al a i (fun t => psi_ t) phi dphi)).
  apply dl_ext with (2 := dl_lin (x_a T a i) (x_a Y a i)). intros t. symmetry. exact (c1a d I (T_ t) n (S m) En En' HI (HT_ t) Hm1 a i Ha Hi).
Qed.
Lemma q1a a i : (a < nua d)%nat -> (i < noa d)%nat -> al1 HF a i = E' * x_a T a i + E * x_a Y a i + x_a sg a i.
Proof.
  intros Ha Hi. apply (dl_uniq _ _ _ (smooth_along1 ref (noa d) al a i (fun t => hamiltonian n I (psi_ t)) HF dHphi)).
  eapply dl_at; [eapply dl_ext; [intros t; symmetry; exact (h1a d I (T_ t) n (S m) En En' HI (HT_ t) Hm1 a i Ha Hi)|]|].
  - exact (prod1 _ _ (fun t => x_a (T_ t) a i) _ (fun t => x_a (ccsd_resid d H (T_ t)) a i) _ dE (dl_lin _ _) (j_a _ _ _ dR a i)).
  - at0. reflexivity.
Qed.
Lemma p1b a i : (a < nub d)%nat -> (i < nob d)%nat -> be1 phi a i = x_b Y a i.
Proof.
  intros Ha Hi. apply (dl_uniq _ _ _ (smooth_along1 ref (nob d) be a i (fun t => psi_ t) phi dphi)).
  apply dl_ext with (2 := dl_lin (x_b T a i) (x_b Y a i)). intros t. symmetry. exact (c1b d I (T_ t) n (S m) En En' HI (HT_ t) Hm1 a i Ha Hi).
Qed.
Lemma q1b a i : (a < nub d)%nat -> (i < nob d)%nat -> be1 HF a i = E' * x_b T a i + E * x_b Y a i + x_b sg a i.
Proof.
  intros Ha Hi. apply (dl_uniq _ _ _ (smooth_along1 ref (nob d) be a i (fun t => hamiltonian n I (psi_ t)) HF dHphi)).
  eapply dl_at; [eapply dl_ext; [intros t; symmetry; exact (h1b d I (T_ t) n (S m) En En' HI (HT_ t) Hm1 a i Ha Hi)|]|].
  - exact (prod1 _ _ (fun t => x_b (T_ t) a i) _ (fun t => x_b (ccsd_resid d H (T_ t)) a i) _ dE (dl_lin _ _) (j_b _ _ _ dR a i)).
  - at0. reflexivity.
Qed.
Lemma p2aa a b i j : (a < nua d)%nat -> (b < nua d)%nat -> (i < noa d)%nat -> (j < noa d)%nat -> aa2 phi a b i j = x_aa Y a b i j + x_a Y a i * x_a T b j + x_a T a i * x_a Y b j - x_a Y b i * x_a T a j - x_a T b i * x_a Y a j.
Proof.
  intros Ha Hb Hi Hj. apply (dl_uniq _ _ _ (smooth_along2 ref (noa d) (noa d) al al a b i j (fun t => psi_ t) phi dphi)).
  eapply dl_at; [eapply dl_ext; [intros t; symmetry; exact (c2aa d I (T_ t) n (S m) En En' HI (HT_ t) Hm1 a b i j Ha Hb Hi Hj)|]|].
  - exact (prod_c (fun t => x_aa (T_ t) a b i j) _ (fun t => x_a (T_ t) a i) _ (fun t => x_a (T_ t) b j) _ (fun t => x_a (T_ t) b i) _ (fun t => x_a (T_ t) a j) _ (dl_lin _ _) (dl_lin _ _) (dl_lin _ _) (dl_lin _ _) (dl_lin _ _)).
  - at0. reflexivity.
Qed.
Lemma q2aa a b i j : (a < nua d)%nat -> (b < nua d)%nat -> (i < noa d)%nat -> (j < noa d)%nat -> aa2 HF a b i j = E' * (x_aa T a b i j + x_a T a i * x_a T b j - x_a T b i * x_a T a j) + E * (x_aa Y a b i j + x_a Y a i * x_a T b j + x_a T a i * x_a Y b j - x_a Y b i * x_a T a j - x_a T b i * x_a Y a j) + (x_aa sg a b i j + ((x_a sg a i * x_a T b j + x_a R0 a i * x_a Y b j + x_a Y a i * x_a R0 b j + x_a T a i * x_a sg b j) - (x_a sg b i * x_a T a j + x_a R0 b i * x_a Y a j + x_a Y b i * x_a R0 a j + x_a T b i * x_a sg a j))).
Proof.
  intros Ha Hb Hi Hj. apply (dl_uniq _ _ _ (smooth_along2 ref (noa d) (noa d) al al a b i j (fun t => hamiltonian n I (psi_ t)) HF dHphi)).
  eapply dl_at; [eapply dl_ext; [intros t; symmetry; exact (h2aa d I (T_ t) n (S m) En En' HI (HT_ t) Hm1 a b i j Ha Hb Hi Hj)|]|].
  - exact (prod_aa _ _ (fun t => x_aa (T_ t) a b i j) _ (fun t => x_a (T_ t) a i) _ (fun t => x_a (T_ t) b j) _ (fun t => x_a (T_ t) b i) _ (fun t => x_a (T_ t) a j) _ (fun t => x_aa (ccsd_resid d H (T_ t)) a b i j) _ (fun t => x_a (ccsd_resid d H (T_ t)) a i) _ (fun t => x_a (ccsd_resid d H (T_ t)) b j) _ (fun t => x_a (ccsd_resid d H (T_ t)) b i) _ (fun t => x_a (ccsd_resid d H (T_ t)) a j) _ dE (dl_lin _ _) (dl_lin _ _) (dl_lin _ _) (dl_lin _ _) (dl_lin _ _) (j_aa _ _ _ dR a b i j) (j_a _ _ _ dR a i) (j_a _ _ _ dR b j) (j_a _ _ _ dR b i) (j_a _ _ _ dR a j)).
  - at0. reflexivity.
Qed.
Lemma p2bb a b i j : (a < nub d)%nat -> (b < nub d)%nat -> (i < nob d)%nat -> (j < nob d)%nat -> bb2 phi a b i j = x_bb Y a b i j + x_b Y a i * x_b T b j + x_b T a i * x_b Y b j - x_b Y b i * x_b T a j - x_b T b i * x_b Y a j.
Proof.
  intros Ha Hb Hi Hj. apply (dl_uniq _ _ _ (smooth_along2 ref (nob d) (nob d) be be a b i j (fun t => psi_ t) phi dphi)).
  eapply dl_at; [eapply dl_ext; [intros t; symmetry; exact (c2bb d I (T_ t) n (S m) En En' HI (HT_ t) Hm1 a b i j Ha Hb Hi Hj)|]|].
  - exact (prod_c (fun t => x_bb (T_ t) a b i j) _ (fun t => x_b (T_ t) a i) _ (fun t => x_b (T_ t) b j) _ (fun t => x_b (T_ t) b i) _ (fun t => x_b (T_ t) a j) _ (dl_lin _ _) (dl_lin _ _) (dl_lin _ _) (dl_lin _ _) (dl_lin _ _)).
  - at0. reflexivity.
Qed.
Lemma q2bb a b i j : (a < nub d)%nat -> (b < nub d)%nat -> (i < nob d)%nat -> (j < nob d)%nat -> bb2 HF a b i j = E' * (x_bb T a b i j + x_b T a i * x_b T b j - x_b T b i * x_b T a j) + E * (x_bb Y a b i j + x_b Y a i * x_b T b j + x_b T a i * x_b Y b j - x_b Y b i * x_b T a j - x_b T b i * x_b Y a j) + (x_bb sg a b i j + ((x_b sg a i * x_b T b j + x_b R0 a i * x_b Y b j + x_b Y a i * x_b R0 b j + x_b T a i * x_b sg b j) - (x_b sg b i * x_b T a j + x_b R0 b i * x_b Y a j + x_b Y b i * x_b R0 a j + x_b T b i * x_b sg a j))).
Proof.
  intros Ha Hb Hi Hj. apply (dl_uniq _ _ _ (smooth_along2 ref (nob d) (nob d) be be a b i j (fun t => hamiltonian n I (psi_ t)) HF dHphi)).
  eapply dl_at; [eapply dl_ext; [intros t; symmetry; exact (h2bb d I (T_ t) n (S m) En En' HI (HT_ t) Hm1 a b i j Ha Hb Hi Hj)|]|].
  - exact (prod_aa _ _ (fun t => x_bb (T_ t) a b i j) _ (fun t => x_b (T_ t) a i) _ (fun t => x_b (T_ t) b j) _ (fun t => x_b (T_ t) b i) _ (fun t => x_b (T_ t) a j) _ (fun t => x_bb (ccsd_resid d H (T_ t)) a b i j) _ (fun t => x_b (ccsd_resid d H (T_ t)) a i) _ (fun t => x_b (ccsd_resid d H (T_ t)) b j) _ (fun t => x_b (ccsd_resid d H (T_ t)) b i) _ (fun t => x_b (ccsd_resid d H (T_ t)) a j) _ dE (dl_lin _ _) (dl_lin _ _) (dl_lin _ _) (dl_lin _ _) (dl_lin _ _) (j_bb _ _ _ dR a b i j) (j_b _ _ _ dR a i) (j_b _ _ _ dR b j) (j_b _ _ _ dR b i) (j_b _ _ _ dR a j)).
  - at0. reflexivity.
Qed.
Lemma p2ab a b i j : (a < nua d)%nat -> (b < nub d)%nat -> (i < noa d)%nat -> (j < nob d)%nat -> ab2 phi a b i j = x_ab Y a b i j + x_a Y a i * x_b T b j + x_a T a i * x_b Y b j.
Proof.
  intros Ha Hb Hi Hj. apply (dl_uniq _ _ _ (smooth_along2 ref (noa d) (nob d) al be a b i j (fun t => psi_ t) phi dphi)).
  eapply dl_at; [eapply dl_ext; [intros t; symmetry; exact (c2ab d I (T_ t) n (S m) En En' HI (HT_ t) Hm1 a b i j Ha Hb Hi Hj)|]|].
  - exact (prod_d (fun t => x_ab (T_ t) a b i j) _ (fun t => x_a (T_ t) a i) _ (fun t => x_b (T_ t) b j) _ (dl_lin _ _) (dl_lin _ _) (dl_lin _ _)).
  - at0. reflexivity.
Qed.
Lemma q2ab a b i j : (a < nua d)%nat -> (b < nub d)%nat -> (i < noa d)%nat -> (j < nob d)%nat -> ab2 HF a b i j = E' * (x_ab T a b i j + x_a T a i * x_b T b j) + E * (x_ab Y a b i j + x_a Y a i * x_b T b j + x_a T a i * x_b Y b j) + (x_ab sg a b i j + (x_a sg a i * x_b T b j + x_a R0 a i * x_b Y b j + x_a Y a i * x_b R0 b j + x_a T a i * x_b sg b j)).
Proof.
  intros Ha Hb Hi Hj. apply (dl_uniq _ _ _ (smooth_along2 ref (noa d) (nob d) al be a b i j (fun t => hamiltonian n I (psi_ t)) HF dHphi)).
  eapply dl_at; [eapply dl_ext; [intros t; symmetry; exact (h2ab d I (T_ t) n (S m) En En' HI (HT_ t) Hm1 a b i j Ha Hb Hi Hj)|]|].
  - exact (prod_ab _ _ (fun t => x_ab (T_ t) a b i j) _ (fun t => x_a (T_ t) a i) _ (fun t => x_b (T_ t) b j) _ (fun t => x_ab (ccsd_resid d H (T_ t)) a b i j) _ (fun t => x_a (ccsd_resid d H (T_ t)) a i) _ (fun t => x_b (ccsd_resid d H (T_ t)) b j) _ dE (dl_lin _ _) (dl_lin _ _) (dl_lin _ _) (j_ab _ _ _ dR a b i j) (j_a _ _ _ dR a i) (j_b _ _ _ dR b j)).
  - at0. reflexivity.
Qed.

(** (H - E - w)(r0 + R) exp(T) |ref> *)
Variables (r0 w : R).
Notation mix := (fun D => r0 * psi D + phi D).
Definition eom_defect : state := fun D => hamiltonian n I mix D - (E + w) * mix D.
Notation HP := (hamiltonian n I psi).
Lemma eom_split : eom_defect = fun D => r0 * HP D + HF D - (E + w) * (r0 * psi D + phi D).
Proof.
  apply ext_state; intros D. unfold eom_defect. rewrite (lin_add _ (fun D => r0 * psi D) phi (hamiltonian_linear n I)), (lin_scal _ r0 psi (hamiltonian_linear n I)). reflexivity.
Qed.
Lemma e1 no so a i : along1 ref no so eom_defect a i = r0 * along1 ref no so HP a i + along1 ref no so HF a i - (E + w) * (r0 * along1 ref no so psi a i + along1 ref no so phi a i).
Proof. rewrite eom_split. unfold along1, cre, ann. destruct (bit _ _); [destruct (bit _ _)|]; ring. Qed.
Lemma e2 no no' so so' a b i j : along2 ref no no' so so' eom_defect a b i j =
  r0 * along2 ref no no' so so' HP a b i j + along2 ref no no' so so' HF a b i j - (E + w) * (r0 * along2 ref no no' so so' psi a b i j + along2 ref no no' so so' phi a b i j).
Proof. rewrite eom_split. unfold along2, cre, ann. destruct (bit _ _); [destruct (bit _ _); [destruct (bit _ _); [|destruct (bit _ _)]|]|]; ring. Qed.
Hypothesis HR : same_amps d R0 zero_amps.
Notation k := (E' - w * r0).
Notation da a i := (x_a sg a i - w * x_a Y a i).
Notation db a i := (x_b sg a i - w * x_b Y a i).
Lemma v0 : eom_defect ref = k.
Proof. rewrite eom_split, p0, q0. rewrite (norm d I T n m), (energy d I T n m) by assumption. ring. Qed.
Lemma v1a a i : (a < nua d)%nat -> (i < noa d)%nat -> al1 eom_defect a i = k * x_a T a i + da a i.
Proof. intros Ha Hi. rewrite e1, p1a, q1a, (h1a d I T n m), (c1a d I T n m), (sa_a _ _ _ HR) by assumption. cbn [zero_amps x_a]. ring. Qed.
Lemma v1b a i : (a < nub d)%nat -> (i < nob d)%nat -> be1 eom_defect a i = k * x_b T a i + db a i.
Proof. intros Ha Hi. rewrite e1, p1b, q1b, (h1b d I T n m), (c1b d I T n m), (sa_b _ _ _ HR) by assumption. cbn [zero_amps x_b]. ring. Qed.
Lemma v2aa a b i j : (a < nua d)%nat -> (b < nua d)%nat -> (i < noa d)%nat -> (j < noa d)%nat -> aa2 eom_defect a b i j = k * (x_aa T a b i j + x_a T a i * x_a T b j - x_a T b i * x_a T a j) + (x_aa sg a b i j - w * x_aa Y a b i j) + (da a i * x_a T b j + x_a T a i * da b j - da b i * x_a T a j - x_a T b i * da a j).
Proof. intros Ha Hb Hi Hj. rewrite e2, p2aa, q2aa, (h2aa d I T n m), (c2aa d I T n m), (sa_aa _ _ _ HR), !(sa_a _ _ _ HR) by assumption. cbn [zero_amps x_a x_aa]. ring. Qed.
Lemma v2bb a b i j : (a < nub d)%nat -> (b < nub d)%nat -> (i < nob d)%nat -> (j < nob d)%nat -> bb2 eom_defect a b i j = k * (x_bb T a b i j + x_b T a i * x_b T b j - x_b T b i * x_b T a j) + (x_bb sg a b i j - w * x_bb Y a b i j) + (db a i * x_b T b j + x_b T a i * db b j - db b i * x_b T a j - x_b T b i * db a j).
Proof. intros Ha Hb Hi Hj. rewrite e2, p2bb, q2bb, (h2bb d I T n m), (c2bb d I T n m), (sa_bb _ _ _ HR), !(sa_b _ _ _ HR) by assumption. cbn [zero_amps x_b x_bb]. ring. Qed.
Lemma v2ab a b i j : (a < nua d)%nat -> (b < nub d)%nat -> (i < noa d)%nat -> (j < nob d)%nat -> ab2 eom_defect a b i j = k * (x_ab T a b i j + x_a T a i * x_b T b j) + (x_ab sg a b i j - w * x_ab Y a b i j) + (da a i * x_b T b j + x_a T a i * db b j).
Proof. intros Ha Hb Hi Hj. rewrite e2, p2ab, q2ab, (h2ab d I T n m), (c2ab d I T n m), (sa_ab _ _ _ HR), (sa_a _ _ _ HR), (sa_b _ _ _ HR) by assumption. cbn [zero_amps x_a x_b x_ab]. ring. Qed.

Lemma eom_flat : flat d eom_defect <-> same_amps d sg (scale_amps w Y) /\ E' = w * r0.
Proof.
  split.
  - intros (F0 & Fa & Fb & Faa & Fab & Fbb). rewrite v0 in F0.
    assert (Za : forall a i, (a < nua d)%nat -> (i < noa d)%nat -> da a i = 0).
    { intros a i Ha Hi. specialize (Fa a i Ha Hi). rewrite v1a, F0 in Fa by assumption. lra. }
    assert (Zb : forall a i, (a < nub d)%nat -> (i < nob d)%nat -> db a i = 0).
    { intros a i Ha Hi. specialize (Fb a i Ha Hi). rewrite v1b, F0 in Fb by assumption. lra. }
    split; [|lra]. constructor; cbn [scale_amps x_a x_b x_aa x_ab x_bb].
    + intros a i Ha Hi. specialize (Za a i Ha Hi). lra.
    + intros a i Ha Hi. specialize (Zb a i Ha Hi). lra.
    + intros a b i j Ha Hb Hi Hj. specialize (Faa a b i j Ha Hb Hi Hj). rewrite v2aa, F0, !Za in Faa by assumption. lra.
    + intros a b i j Ha Hb Hi Hj. specialize (Fab a b i j Ha Hb Hi Hj). rewrite v2ab, F0, Za, Zb in Fab by assumption. lra.
    + intros a b i j Ha Hb Hi Hj. specialize (Fbb a b i j Ha Hb Hi Hj). rewrite v2bb, F0, !Zb in Fbb by assumption. lra.
  - intros ([Sa Sb Saa Sab Sbb] & K). cbn [scale_amps x_a x_b x_aa x_ab x_bb] in Sa, Sb, Saa, Sab, Sbb. split; [|repeat split].
    + rewrite v0, K. ring.
    + intros. rewrite v1a, Sa, K by assumption. ring.
    + intros. rewrite v1b, Sb, K by assumption. ring.
    + intros. rewrite v2aa, Saa, !Sa, K by assumption. ring.
    + intros. rewrite v2ab, Sab, Sa, Sb, K by assumption. ring.
    + intros. rewrite v2bb, Sbb, !Sb, K by assumption. ring.
Qed.
Lemma eom_solves : solves n I ref (E + w) mix <-> same_amps d sg (scale_amps w Y) /\ E' = w * r0.
Proof.
  rewrite <- eom_flat, <- (near_flat d n eom_defect En En'). unfold solves, eom_defect. split; intros G D HD; specialize (G D HD); [rewrite G; ring|lra].
Qed.
End D.
