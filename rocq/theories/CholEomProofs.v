(** C84: the Cholesky sigma vectors against the dense ones, for any Hbar blocks (proof support). *)
From Coq Require Import Reals Arith List Bool Lra Lia FunctionalExtensionality.
From Verif Require Import RSum IntegralsModel IntegralsSpec TensorObjs TensorAlg TensorSpec TensorClosed RhfProps FockSpec FockCcSpec CcsdModel CcsdProps EomModel CholLoops CholProofs CholEomModel CholEomReify CholEomSpec.
Import ListNotations.
Open Scope R_scope.
Lemma ke_HR_a : same_tab che_tab (fun x => x) [0; 1; 2; 3; 4]%nat (snd p_HR_a) (fst p_HR_a) = true. Proof. vm_compute. reflexivity. Qed.
Lemma kf_HR_a : same_tab chec_tab dfold [0; 1; 4]%nat (snd q_HR_a) (fst q_HR_a) = true. Proof. vm_compute. reflexivity. Qed.
Lemma ke_HR_b : same_tab che_tab (fun x => x) [0; 1; 2; 3; 4]%nat (snd p_HR_b) (fst p_HR_b) = true. Proof. vm_compute. reflexivity. Qed.
Lemma kf_HR_b : same_tab chec_tab dfold [0; 1; 4]%nat (snd q_HR_b) (fst q_HR_b) = true. Proof. vm_compute. reflexivity. Qed.
Lemma ke_HR_aa : same_tab che_tab (fun x => x) [0; 1; 2; 3; 4]%nat (snd p_HR_aa) (fst p_HR_aa) = true. Proof. vm_compute. reflexivity. Qed.
Lemma kf_HR_aa : same_tab chec_tab dfold [0; 1; 4]%nat (snd q_HR_aa) (fst q_HR_aa) = true. Proof. vm_compute. reflexivity. Qed.
Lemma ke_HR_ab : same_tab che_tab (fun x => x) [0; 1; 2; 3; 4]%nat (snd p_HR_ab) (fst p_HR_ab) = true. Proof. vm_compute. reflexivity. Qed.
Lemma kf_HR_ab : same_tab chec_tab dfold [0; 1; 4]%nat (snd q_HR_ab) (fst q_HR_ab) = true. Proof. vm_compute. reflexivity. Qed.
Lemma ke_HR_bb : same_tab che_tab (fun x => x) [0; 1; 2; 3; 4]%nat (snd p_HR_bb) (fst p_HR_bb) = true. Proof. vm_compute. reflexivity. Qed.
Lemma kf_HR_bb : same_tab chec_tab dfold [0; 1; 4]%nat (snd q_HR_bb) (fst q_HR_bb) = true. Proof. vm_compute. reflexivity. Qed.
Lemma ke_LH_a : same_tab che_tab (fun x => x) [0; 1; 2; 3; 4]%nat (snd p_LH_a) (fst p_LH_a) = true. Proof. vm_compute. reflexivity. Qed.
Lemma kf_LH_a : same_tab chec_tab dfold [0; 1; 4]%nat (snd q_LH_a) (fst q_LH_a) = true. Proof. vm_compute. reflexivity. Qed.
Lemma ke_LH_b : same_tab che_tab (fun x => x) [0; 1; 2; 3; 4]%nat (snd p_LH_b) (fst p_LH_b) = true. Proof. vm_compute. reflexivity. Qed.
Lemma kf_LH_b : same_tab chec_tab dfold [0; 1; 4]%nat (snd q_LH_b) (fst q_LH_b) = true. Proof. vm_compute. reflexivity. Qed.
Lemma ke_LH_aa : same_tab che_tab (fun x => x) [0; 1; 2; 3; 4]%nat (snd p_LH_aa) (fst p_LH_aa) = true. Proof. vm_compute. reflexivity. Qed.
Lemma kf_LH_aa : same_tab chec_tab dfold [0; 1; 4]%nat (snd q_LH_aa) (fst q_LH_aa) = true. Proof. vm_compute. reflexivity. Qed.
Lemma ke_LH_ab : same_tab che_tab (fun x => x) [0; 1; 2; 3; 4]%nat (snd p_LH_ab) (fst p_LH_ab) = true. Proof. vm_compute. reflexivity. Qed.
Lemma kf_LH_ab : same_tab chec_tab dfold [0; 1; 4]%nat (snd q_LH_ab) (fst q_LH_ab) = true. Proof. vm_compute. reflexivity. Qed.
Lemma ke_LH_bb : same_tab che_tab (fun x => x) [0; 1; 2; 3; 4]%nat (snd p_LH_bb) (fst p_LH_bb) = true. Proof. vm_compute. reflexivity. Qed.
Lemma kf_LH_bb : same_tab chec_tab dfold [0; 1; 4]%nat (snd q_LH_bb) (fst q_LH_bb) = true. Proof. vm_compute. reflexivity. Qed.

Lemma step_add x y t D : x - y = D -> (x + t) - (y + t) = D. Proof. intros <-. ring. Qed.
Lemma step_base x u v : (x + u) - (x + v) = u - v. Proof. ring. Qed.
(** the four antisymmetrising transpositions remove the difference between the Fortran sum over ordered pairs and the unrestricted one *)
Lemma four_same (f g : mat4) no nu nx v t2 a b i j : (forall j i f e, t2 j i f e = - t2 j i e f) -> (forall j i f e, t2 j i f e = - t2 i j f e) ->
  (forall a b i j, f a b i j - g a b i j = vvvv_t2_sym no nu nx v t2 j i b a - 1 / 4 * full_sum nu nx v t2 a b j i) -> (a < nu)%nat -> (b < nu)%nat ->
  f a b i j - f b a i j - f a b j i + f b a j i = g a b i j - g b a i j - g a b j i + g b a j i.
Proof.
  intros Q1 Q2 D Ha Hb. assert (F := four_full no nu nx v t2 a b i j Q1 Q2 Ha Hb). cbv zeta in F.
  assert (D1 := D a b i j). assert (D2 := D b a i j). assert (D3 := D a b j i). assert (D4 := D b a j i).
  rewrite (full_t2 nu nx v t2 a b i j) in D3 by (intros; apply Q2). rewrite (full_t2 nu nx v t2 b a i j) in D4 by (intros; apply Q2).
  rewrite (full_anti nu nx v t2 a b j i) in D2, D4. lra.
Qed.

Lemma aa_v (T Y : amps) : antisym_amps Y -> forall a b i j, x_aa Y a b i j = - x_aa Y b a i j. Proof. intros HY. exact (fun a b i j => proj1 (proj1 (antisym_anti4 Y HY) a b i j)). Qed.
Lemma aa_o (T Y : amps) : antisym_amps Y -> forall a b i j, x_aa Y a b i j = - x_aa Y a b j i. Proof. intros HY. exact (fun a b i j => proj2 (proj1 (antisym_anti4 Y HY) a b i j)). Qed.
Lemma bb_v (T Y : amps) : antisym_amps Y -> forall a b i j, x_bb Y a b i j = - x_bb Y b a i j. Proof. intros HY. exact (fun a b i j => proj1 (proj2 (antisym_anti4 Y HY) a b i j)). Qed.
Lemma bb_o (T Y : amps) : antisym_amps Y -> forall a b i j, x_bb Y a b i j = - x_bb Y a b j i. Proof. intros HY. exact (fun a b i j => proj2 (proj2 (antisym_anti4 Y HY) a b i j)). Qed.

Section Open.
Variables (d : dims) (nx : nat) (C : chol) (H : ints) (T Y : amps).
Hypotheses (HH : antisym_ints H) (HT : antisym_amps T) (HY : antisym_amps Y).
Let HV := with_vvvv H (vvvv_same (noa d) nx (c_a_vv C) (i_aa_oovv H) (x_aa T)) (vvvv_opp (noa d) (nob d) nx (c_a_vv C) (c_b_vv C) (i_ab_oovv H) (x_ab T)) (vvvv_same (nob d) nx (c_b_vv C) (i_bb_oovv H) (x_bb T)).
Lemma che_syms : Forall (fun g => okalt (tenv (che_arrays d nx C H T Y)) (fst g) (snd g)) che_gens.
Proof. sym_all. Qed.
Lemma es e e' v : same_tab che_tab (fun x => x) [0; 1; 2; 3; 4]%nat e e' = true ->
  den (denv [noa d; nua d; nob d; nub d; nx]) (tenv (che_arrays d nx C H T Y)) e v = den (denv [noa d; nua d; nob d; nub d; nx]) (tenv (che_arrays d nx C H T Y)) e' v.
Proof.
  intros E. apply (same_tab_sound _ _ che_gens (length (che_arrays d nx C H T Y)) che_tab (fun x => x) [0; 1; 2; 3; 4]%nat);
    [vm_compute; reflexivity|reflexivity|exact che_syms|exact E].
Qed.
Lemma of_HR_a a i : cfeom_X1A_9 d nx C H T Y a i = x_a (eom_HR d HV T Y) a i.
Proof. exact (es (snd p_HR_a) (fst p_HR_a) (venv [a; i]) ke_HR_a). Qed.
Lemma o_HR_a a i : x_a (chol_HR d nx C H T Y) a i = x_a (eom_HR d HV T Y) a i.
Proof. exact (of_HR_a a i). Qed.
Lemma of_HR_b a i : cfeom_X1B_9 d nx C H T Y a i = x_b (eom_HR d HV T Y) a i.
Proof. exact (es (snd p_HR_b) (fst p_HR_b) (venv [a; i]) ke_HR_b). Qed.
Lemma o_HR_b a i : x_b (chol_HR d nx C H T Y) a i = x_b (eom_HR d HV T Y) a i.
Proof. exact (of_HR_b a i). Qed.
Lemma of_HR_aa a b i j : cfeom_X2A_12 d nx C H T Y a b i j = x_aa (eom_HR d HV T Y) a b i j.
Proof. exact (es (snd p_HR_aa) (fst p_HR_aa) (venv [a; b; i; j]) ke_HR_aa). Qed.
Lemma o_HR_aa a b i j : (a < nua d)%nat -> (b < nua d)%nat -> x_aa (chol_HR d nx C H T Y) a b i j = x_aa (eom_HR d HV T Y) a b i j.
Proof.
  intros Ha Hb. rewrite <- of_HR_aa. 
  assert (E := four_same (ceom_X2A_10 d nx C H T Y) (cfeom_X2A_10 d nx C H T Y) (noa d) (nua d) nx (ceom_vR d nx C H T Y) (ceom_vT d nx C H T Y) a b i j).
  assert (Q1 : forall j i f e, ceom_vT d nx C H T Y j i f e = - ceom_vT d nx C H T Y j i e f) by (intros; unfold ceom_vT; rewrite (aa_v T Y HY); ring).
  assert (Q2 : forall j i f e, ceom_vT d nx C H T Y j i f e = - ceom_vT d nx C H T Y i j f e) by (intros; unfold ceom_vT; rewrite (aa_o T Y HY); ring).
  specialize (E Q1 Q2). 
  assert (D : forall a b i j, ceom_X2A_10 d nx C H T Y a b i j - cfeom_X2A_10 d nx C H T Y a b i j = vvvv_t2_sym (noa d) (nua d) nx (ceom_vR d nx C H T Y) (ceom_vT d nx C H T Y) j i b a - 1 / 4 * full_sum (nua d) nx (ceom_vR d nx C H T Y) (ceom_vT d nx C H T Y) a b j i).
  { intros. do 6 apply step_add. etransitivity; [apply step_base|reflexivity]. }
  specialize (E D ltac:(congruence) ltac:(congruence)). clear Q1 Q2 D.
  change ((ceom_X2A_10 d nx C H T Y a b i j - ceom_X2A_10 d nx C H T Y b a i j) - (ceom_X2A_10 d nx C H T Y a b j i - ceom_X2A_10 d nx C H T Y b a j i) = (cfeom_X2A_10 d nx C H T Y a b i j - cfeom_X2A_10 d nx C H T Y b a i j) - (cfeom_X2A_10 d nx C H T Y a b j i - cfeom_X2A_10 d nx C H T Y b a j i)).
  lra.
Qed.
Lemma of_HR_ab a b i j : cfeom_X2B_20 d nx C H T Y a b i j = x_ab (eom_HR d HV T Y) a b i j.
Proof. exact (es (snd p_HR_ab) (fst p_HR_ab) (venv [a; b; i; j]) ke_HR_ab). Qed.
Lemma o_HR_ab a b i j : (a < nua d)%nat -> (b < nub d)%nat -> x_ab (chol_HR d nx C H T Y) a b i j = x_ab (eom_HR d HV T Y) a b i j.
Proof.
  intros Ha Hb. rewrite <- of_HR_ab. apply Rminus_diag_uniq.
  change (ceom_X2B_20 d nx C H T Y a b i j - cfeom_X2B_20 d nx C H T Y a b i j = 0). do 14 apply step_add. etransitivity; [apply step_base|].
  rewrite vvvv_t2_entry by congruence. apply Rminus_diag_eq. reflexivity.
Qed.
Lemma of_HR_bb a b i j : cfeom_X2C_12 d nx C H T Y a b i j = x_bb (eom_HR d HV T Y) a b i j.
Proof. exact (es (snd p_HR_bb) (fst p_HR_bb) (venv [a; b; i; j]) ke_HR_bb). Qed.
Lemma o_HR_bb a b i j : (a < nub d)%nat -> (b < nub d)%nat -> x_bb (chol_HR d nx C H T Y) a b i j = x_bb (eom_HR d HV T Y) a b i j.
Proof.
  intros Ha Hb. rewrite <- of_HR_bb. 
  assert (E := four_same (ceom_X2C_10 d nx C H T Y) (cfeom_X2C_10 d nx C H T Y) (nob d) (nub d) nx (ceom_vR_1 d nx C H T Y) (ceom_vT_2 d nx C H T Y) a b i j).
  assert (Q1 : forall j i f e, ceom_vT_2 d nx C H T Y j i f e = - ceom_vT_2 d nx C H T Y j i e f) by (intros; unfold ceom_vT_2; rewrite (bb_v T Y HY); ring).
  assert (Q2 : forall j i f e, ceom_vT_2 d nx C H T Y j i f e = - ceom_vT_2 d nx C H T Y i j f e) by (intros; unfold ceom_vT_2; rewrite (bb_o T Y HY); ring).
  specialize (E Q1 Q2). 
  assert (D : forall a b i j, ceom_X2C_10 d nx C H T Y a b i j - cfeom_X2C_10 d nx C H T Y a b i j = vvvv_t2_sym (nob d) (nub d) nx (ceom_vR_1 d nx C H T Y) (ceom_vT_2 d nx C H T Y) j i b a - 1 / 4 * full_sum (nub d) nx (ceom_vR_1 d nx C H T Y) (ceom_vT_2 d nx C H T Y) a b j i).
  { intros. do 6 apply step_add. etransitivity; [apply step_base|reflexivity]. }
  specialize (E D ltac:(congruence) ltac:(congruence)). clear Q1 Q2 D.
  change ((ceom_X2C_10 d nx C H T Y a b i j - ceom_X2C_10 d nx C H T Y b a i j) - (ceom_X2C_10 d nx C H T Y a b j i - ceom_X2C_10 d nx C H T Y b a j i) = (cfeom_X2C_10 d nx C H T Y a b i j - cfeom_X2C_10 d nx C H T Y b a i j) - (cfeom_X2C_10 d nx C H T Y a b j i - cfeom_X2C_10 d nx C H T Y b a j i)).
  lra.
Qed.
Lemma of_LH_a a i : cfleft_LH_a_11 d nx C H T Y a i = x_a (left_LH d HV T Y) a i.
Proof. exact (es (snd p_LH_a) (fst p_LH_a) (venv [a; i]) ke_LH_a). Qed.
Lemma o_LH_a a i : x_a (chol_LH d nx C H T Y) a i = x_a (left_LH d HV T Y) a i.
Proof. exact (of_LH_a a i). Qed.
Lemma of_LH_b a i : cfleft_LH_b_9 d nx C H T Y a i = x_b (left_LH d HV T Y) a i.
Proof. exact (es (snd p_LH_b) (fst p_LH_b) (venv [a; i]) ke_LH_b). Qed.
Lemma o_LH_b a i : x_b (chol_LH d nx C H T Y) a i = x_b (left_LH d HV T Y) a i.
Proof. exact (of_LH_b a i). Qed.
Lemma of_LH_aa a b i j : cfleft_LH_aa_12 d nx C H T Y a b i j = x_aa (left_LH d HV T Y) a b i j.
Proof. exact (es (snd p_LH_aa) (fst p_LH_aa) (venv [a; b; i; j]) ke_LH_aa). Qed.
Lemma o_LH_aa a b i j : (a < nua d)%nat -> (b < nua d)%nat -> x_aa (chol_LH d nx C H T Y) a b i j = x_aa (left_LH d HV T Y) a b i j.
Proof.
  intros Ha Hb. rewrite <- of_LH_aa. 
  assert (E := four_same (cleft_LH_aa_11 d nx C H T Y) (cfleft_LH_aa_11 d nx C H T Y) (noa d) (nua d) nx (cleft_vR d nx C H T Y) (cleft_vT d nx C H T Y) a b i j).
  assert (Q1 : forall j i f e, cleft_vT d nx C H T Y j i f e = - cleft_vT d nx C H T Y j i e f) by (intros; unfold cleft_vT; rewrite (aa_v T Y HY); ring).
  assert (Q2 : forall j i f e, cleft_vT d nx C H T Y j i f e = - cleft_vT d nx C H T Y i j f e) by (intros; unfold cleft_vT; rewrite (aa_o T Y HY); ring).
  specialize (E Q1 Q2). 
  assert (D : forall a b i j, cleft_LH_aa_11 d nx C H T Y a b i j - cfleft_LH_aa_11 d nx C H T Y a b i j = vvvv_t2_sym (noa d) (nua d) nx (cleft_vR d nx C H T Y) (cleft_vT d nx C H T Y) j i b a - 1 / 4 * full_sum (nua d) nx (cleft_vR d nx C H T Y) (cleft_vT d nx C H T Y) a b j i).
  { intros. do 2 apply step_add. etransitivity; [apply step_base|reflexivity]. }
  specialize (E D ltac:(congruence) ltac:(congruence)). clear Q1 Q2 D.
  change (cleft_LH_aa_11 d nx C H T Y a b i j - (cleft_LH_aa_11 d nx C H T Y b a i j + cleft_LH_aa_11 d nx C H T Y a b j i - cleft_LH_aa_11 d nx C H T Y b a j i) = cfleft_LH_aa_11 d nx C H T Y a b i j - (cfleft_LH_aa_11 d nx C H T Y b a i j + cfleft_LH_aa_11 d nx C H T Y a b j i - cfleft_LH_aa_11 d nx C H T Y b a j i)).
  lra.
Qed.
Lemma of_LH_ab a b i j : cfleft_LH_ab_22 d nx C H T Y a b i j = x_ab (left_LH d HV T Y) a b i j.
Proof. exact (es (snd p_LH_ab) (fst p_LH_ab) (venv [a; b; i; j]) ke_LH_ab). Qed.
Lemma o_LH_ab a b i j : (a < nua d)%nat -> (b < nub d)%nat -> x_ab (chol_LH d nx C H T Y) a b i j = x_ab (left_LH d HV T Y) a b i j.
Proof.
  intros Ha Hb. rewrite <- of_LH_ab. apply Rminus_diag_uniq.
  change (cleft_LH_ab_22 d nx C H T Y a b i j - cfleft_LH_ab_22 d nx C H T Y a b i j = 0). do 16 apply step_add. etransitivity; [apply step_base|].
  rewrite vvvv_t2_entry by congruence. apply Rminus_diag_eq. reflexivity.
Qed.
Lemma of_LH_bb a b i j : cfleft_LH_bb_12 d nx C H T Y a b i j = x_bb (left_LH d HV T Y) a b i j.
Proof. exact (es (snd p_LH_bb) (fst p_LH_bb) (venv [a; b; i; j]) ke_LH_bb). Qed.
Lemma o_LH_bb a b i j : (a < nub d)%nat -> (b < nub d)%nat -> x_bb (chol_LH d nx C H T Y) a b i j = x_bb (left_LH d HV T Y) a b i j.
Proof.
  intros Ha Hb. rewrite <- of_LH_bb. 
  assert (E := four_same (cleft_LH_bb_11 d nx C H T Y) (cfleft_LH_bb_11 d nx C H T Y) (nob d) (nub d) nx (cleft_vR_1 d nx C H T Y) (cleft_vT_2 d nx C H T Y) a b i j).
  assert (Q1 : forall j i f e, cleft_vT_2 d nx C H T Y j i f e = - cleft_vT_2 d nx C H T Y j i e f) by (intros; unfold cleft_vT_2; rewrite (bb_v T Y HY); ring).
  assert (Q2 : forall j i f e, cleft_vT_2 d nx C H T Y j i f e = - cleft_vT_2 d nx C H T Y i j f e) by (intros; unfold cleft_vT_2; rewrite (bb_o T Y HY); ring).
  specialize (E Q1 Q2). 
  assert (D : forall a b i j, cleft_LH_bb_11 d nx C H T Y a b i j - cfleft_LH_bb_11 d nx C H T Y a b i j = vvvv_t2_sym (nob d) (nub d) nx (cleft_vR_1 d nx C H T Y) (cleft_vT_2 d nx C H T Y) j i b a - 1 / 4 * full_sum (nub d) nx (cleft_vR_1 d nx C H T Y) (cleft_vT_2 d nx C H T Y) a b j i).
  { intros. do 2 apply step_add. etransitivity; [apply step_base|reflexivity]. }
  specialize (E D ltac:(congruence) ltac:(congruence)). clear Q1 Q2 D.
  change (cleft_LH_bb_11 d nx C H T Y a b i j - (cleft_LH_bb_11 d nx C H T Y b a i j + cleft_LH_bb_11 d nx C H T Y a b j i - cleft_LH_bb_11 d nx C H T Y b a j i) = cfleft_LH_bb_11 d nx C H T Y a b i j - (cfleft_LH_bb_11 d nx C H T Y b a i j + cfleft_LH_bb_11 d nx C H T Y a b j i - cfleft_LH_bb_11 d nx C H T Y b a j i)).
  lra.
Qed.
End Open.

Section Shut.
Variables (d : dims) (nx : nat) (C : chol) (H : ints) (T Y : amps).
Hypotheses (Hn : noa d = nob d) (Hu : nua d = nub d) (HH : antisym_ints H) (HC : closed_ints H) (HT : antisym_amps T) (HY : antisym_amps Y) (CT : closed_amps T) (CY : closed_amps Y).
Hypothesis K4 : forall x p q, c_b_vv C x p q = c_a_vv C x p q.
Let HV := with_vvvv H (vvvv_same (noa d) nx (c_a_vv C) (i_aa_oovv H) (x_aa T)) (vvvv_opp (noa d) (nob d) nx (c_a_vv C) (c_b_vv C) (i_ab_oovv H) (x_ab T)) (vvvv_same (nob d) nx (c_b_vv C) (i_bb_oovv H) (x_bb T)).
Lemma dfold6 : forall x, denv [noa d; nua d; nob d; nub d; nx] (dfold x) = denv [noa d; nua d; nob d; nub d; nx] x.
Proof. intros [|[|[|[|x]]]]; cbn; congruence. Qed.
Lemma chec_syms : Forall (fun g => okalt (tenv (chec_arrays d nx C H T Y)) (fst g) (snd g)) chec_gens.
Proof. repeat (apply Forall_cons; [first [eapply ok3_id; [reflexivity|reflexivity|exact K4] | sym1]|]). apply Forall_nil. Qed.
Lemma fs e e' v : same_tab chec_tab dfold [0; 1; 4]%nat e e' = true ->
  den (denv [noa d; nua d; nob d; nub d; nx]) (tenv (chec_arrays d nx C H T Y)) e v = den (denv [noa d; nua d; nob d; nub d; nx]) (tenv (chec_arrays d nx C H T Y)) e' v.
Proof.
  intros E. apply (same_tab_sound _ _ chec_gens (length (chec_arrays d nx C H T Y)) chec_tab dfold [0; 1; 4]%nat);
    [vm_compute; reflexivity|exact dfold6|exact chec_syms|exact E].
Qed.
Lemma rf_HR_a a i : cgeom_X1A_9 d nx C H T Y a i = x_a (eom_HR d HV T Y) a i.
Proof. exact (fs (snd q_HR_a) (fst q_HR_a) (venv [a; i]) kf_HR_a). Qed.
Lemma r_HR_a a i : x_a (rchol_HR d nx C H T Y) a i = x_a (eom_HR d HV T Y) a i.
Proof. exact (rf_HR_a a i). Qed.
Lemma rf_HR_b a i : cgeom_dR_b d nx C H T Y a i = x_b (eom_HR d HV T Y) a i.
Proof. exact (fs (snd q_HR_b) (fst q_HR_b) (venv [a; i]) kf_HR_b). Qed.
Lemma r_HR_b a i : x_b (rchol_HR d nx C H T Y) a i = x_b (eom_HR d HV T Y) a i.
Proof. exact (rf_HR_b a i). Qed.
Lemma rf_HR_aa a b i j : cgeom_X2A_12 d nx C H T Y a b i j = x_aa (eom_HR d HV T Y) a b i j.
Proof. exact (fs (snd q_HR_aa) (fst q_HR_aa) (venv [a; b; i; j]) kf_HR_aa). Qed.
Lemma r_HR_aa a b i j : (a < nua d)%nat -> (b < nua d)%nat -> x_aa (rchol_HR d nx C H T Y) a b i j = x_aa (eom_HR d HV T Y) a b i j.
Proof.
  intros Ha Hb. rewrite <- rf_HR_aa. 
  assert (E := four_same (creomc_X2A_10 d nx C H T Y) (cgeom_X2A_10 d nx C H T Y) (noa d) (nua d) nx (creomc_vR d nx C H T Y) (creomc_vT d nx C H T Y) a b i j).
  assert (Q1 : forall j i f e, creomc_vT d nx C H T Y j i f e = - creomc_vT d nx C H T Y j i e f) by (intros; unfold creomc_vT; rewrite (aa_v T Y HY); ring).
  assert (Q2 : forall j i f e, creomc_vT d nx C H T Y j i f e = - creomc_vT d nx C H T Y i j f e) by (intros; unfold creomc_vT; rewrite (aa_o T Y HY); ring).
  specialize (E Q1 Q2). 
  assert (D : forall a b i j, creomc_X2A_10 d nx C H T Y a b i j - cgeom_X2A_10 d nx C H T Y a b i j = vvvv_t2_sym (noa d) (nua d) nx (creomc_vR d nx C H T Y) (creomc_vT d nx C H T Y) j i b a - 1 / 4 * full_sum (nua d) nx (creomc_vR d nx C H T Y) (creomc_vT d nx C H T Y) a b j i).
  { intros. do 6 apply step_add. etransitivity; [apply step_base|reflexivity]. }
  specialize (E D ltac:(congruence) ltac:(congruence)). clear Q1 Q2 D.
  change ((creomc_X2A_10 d nx C H T Y a b i j - creomc_X2A_10 d nx C H T Y b a i j) - (creomc_X2A_10 d nx C H T Y a b j i - creomc_X2A_10 d nx C H T Y b a j i) = (cgeom_X2A_10 d nx C H T Y a b i j - cgeom_X2A_10 d nx C H T Y b a i j) - (cgeom_X2A_10 d nx C H T Y a b j i - cgeom_X2A_10 d nx C H T Y b a j i)).
  lra.
Qed.
Lemma rf_HR_ab a b i j : cgeom_X2B_20 d nx C H T Y a b i j = x_ab (eom_HR d HV T Y) a b i j.
Proof. exact (fs (snd q_HR_ab) (fst q_HR_ab) (venv [a; b; i; j]) kf_HR_ab). Qed.
Lemma r_HR_ab a b i j : (a < nua d)%nat -> (b < nub d)%nat -> x_ab (rchol_HR d nx C H T Y) a b i j = x_ab (eom_HR d HV T Y) a b i j.
Proof.
  intros Ha Hb. rewrite <- rf_HR_ab. apply Rminus_diag_uniq.
  change (creomc_X2B_20 d nx C H T Y a b i j - cgeom_X2B_20 d nx C H T Y a b i j = 0). do 14 apply step_add. etransitivity; [apply step_base|].
  rewrite vvvv_t2_entry by congruence. apply Rminus_diag_eq. reflexivity.
Qed.
Lemma rf_HR_bb a b i j : cgeom_dR_bb d nx C H T Y a b i j = x_bb (eom_HR d HV T Y) a b i j.
Proof. exact (fs (snd q_HR_bb) (fst q_HR_bb) (venv [a; b; i; j]) kf_HR_bb). Qed.
Lemma r_HR_bb a b i j : (a < nub d)%nat -> (b < nub d)%nat -> x_bb (rchol_HR d nx C H T Y) a b i j = x_bb (eom_HR d HV T Y) a b i j.
Proof.
  intros Ha Hb. rewrite <- rf_HR_bb. 
  assert (E := four_same (creomc_X2A_10 d nx C H T Y) (cgeom_X2A_10 d nx C H T Y) (noa d) (nua d) nx (creomc_vR d nx C H T Y) (creomc_vT d nx C H T Y) a b i j).
  assert (Q1 : forall j i f e, creomc_vT d nx C H T Y j i f e = - creomc_vT d nx C H T Y j i e f) by (intros; unfold creomc_vT; rewrite (aa_v T Y HY); ring).
  assert (Q2 : forall j i f e, creomc_vT d nx C H T Y j i f e = - creomc_vT d nx C H T Y i j f e) by (intros; unfold creomc_vT; rewrite (aa_o T Y HY); ring).
  specialize (E Q1 Q2). 
  assert (D : forall a b i j, creomc_X2A_10 d nx C H T Y a b i j - cgeom_X2A_10 d nx C H T Y a b i j = vvvv_t2_sym (noa d) (nua d) nx (creomc_vR d nx C H T Y) (creomc_vT d nx C H T Y) j i b a - 1 / 4 * full_sum (nua d) nx (creomc_vR d nx C H T Y) (creomc_vT d nx C H T Y) a b j i).
  { intros. do 6 apply step_add. etransitivity; [apply step_base|reflexivity]. }
  specialize (E D ltac:(congruence) ltac:(congruence)). clear Q1 Q2 D.
  change ((creomc_X2A_10 d nx C H T Y a b i j - creomc_X2A_10 d nx C H T Y b a i j) - (creomc_X2A_10 d nx C H T Y a b j i - creomc_X2A_10 d nx C H T Y b a j i) = (cgeom_X2A_10 d nx C H T Y a b i j - cgeom_X2A_10 d nx C H T Y b a i j) - (cgeom_X2A_10 d nx C H T Y a b j i - cgeom_X2A_10 d nx C H T Y b a j i)).
  lra.
Qed.
Lemma rf_LH_a a i : cgleft_LH_a_11 d nx C H T Y a i = x_a (left_LH d HV T Y) a i.
Proof. exact (fs (snd q_LH_a) (fst q_LH_a) (venv [a; i]) kf_LH_a). Qed.
Lemma r_LH_a a i : x_a (rchol_LH d nx C H T Y) a i = x_a (left_LH d HV T Y) a i.
Proof. exact (rf_LH_a a i). Qed.
Lemma rf_LH_b a i : cgleft_LH_b d nx C H T Y a i = x_b (left_LH d HV T Y) a i.
Proof. exact (fs (snd q_LH_b) (fst q_LH_b) (venv [a; i]) kf_LH_b). Qed.
Lemma r_LH_b a i : x_b (rchol_LH d nx C H T Y) a i = x_b (left_LH d HV T Y) a i.
Proof. exact (rf_LH_b a i). Qed.
Lemma rf_LH_aa a b i j : cgleft_LH_aa_12 d nx C H T Y a b i j = x_aa (left_LH d HV T Y) a b i j.
Proof. exact (fs (snd q_LH_aa) (fst q_LH_aa) (venv [a; b; i; j]) kf_LH_aa). Qed.
Lemma r_LH_aa a b i j : (a < nua d)%nat -> (b < nua d)%nat -> x_aa (rchol_LH d nx C H T Y) a b i j = x_aa (left_LH d HV T Y) a b i j.
Proof.
  intros Ha Hb. rewrite <- rf_LH_aa. 
  assert (E := four_same (crleft_LH_aa_11 d nx C H T Y) (cgleft_LH_aa_11 d nx C H T Y) (noa d) (nua d) nx (crleft_vR d nx C H T Y) (crleft_vT d nx C H T Y) a b i j).
  assert (Q1 : forall j i f e, crleft_vT d nx C H T Y j i f e = - crleft_vT d nx C H T Y j i e f) by (intros; unfold crleft_vT; rewrite (aa_v T Y HY); ring).
  assert (Q2 : forall j i f e, crleft_vT d nx C H T Y j i f e = - crleft_vT d nx C H T Y i j f e) by (intros; unfold crleft_vT; rewrite (aa_o T Y HY); ring).
  specialize (E Q1 Q2). 
  assert (D : forall a b i j, crleft_LH_aa_11 d nx C H T Y a b i j - cgleft_LH_aa_11 d nx C H T Y a b i j = vvvv_t2_sym (noa d) (nua d) nx (crleft_vR d nx C H T Y) (crleft_vT d nx C H T Y) j i b a - 1 / 4 * full_sum (nua d) nx (crleft_vR d nx C H T Y) (crleft_vT d nx C H T Y) a b j i).
  { intros. do 2 apply step_add. etransitivity; [apply step_base|reflexivity]. }
  specialize (E D ltac:(congruence) ltac:(congruence)). clear Q1 Q2 D.
  change (crleft_LH_aa_11 d nx C H T Y a b i j - (crleft_LH_aa_11 d nx C H T Y b a i j + crleft_LH_aa_11 d nx C H T Y a b j i - crleft_LH_aa_11 d nx C H T Y b a j i) = cgleft_LH_aa_11 d nx C H T Y a b i j - (cgleft_LH_aa_11 d nx C H T Y b a i j + cgleft_LH_aa_11 d nx C H T Y a b j i - cgleft_LH_aa_11 d nx C H T Y b a j i)).
  lra.
Qed.
Lemma rf_LH_ab a b i j : cgleft_LH_ab_22 d nx C H T Y a b i j = x_ab (left_LH d HV T Y) a b i j.
Proof. exact (fs (snd q_LH_ab) (fst q_LH_ab) (venv [a; b; i; j]) kf_LH_ab). Qed.
Lemma r_LH_ab a b i j : (a < nua d)%nat -> (b < nub d)%nat -> x_ab (rchol_LH d nx C H T Y) a b i j = x_ab (left_LH d HV T Y) a b i j.
Proof.
  intros Ha Hb. rewrite <- rf_LH_ab. apply Rminus_diag_uniq.
  change (crleft_LH_ab_22 d nx C H T Y a b i j - cgleft_LH_ab_22 d nx C H T Y a b i j = 0). do 16 apply step_add. etransitivity; [apply step_base|].
  rewrite vvvv_t2_entry by congruence. apply Rminus_diag_eq. reflexivity.
Qed.
Lemma rf_LH_bb a b i j : cgleft_LH_bb d nx C H T Y a b i j = x_bb (left_LH d HV T Y) a b i j.
Proof. exact (fs (snd q_LH_bb) (fst q_LH_bb) (venv [a; b; i; j]) kf_LH_bb). Qed.
Lemma r_LH_bb a b i j : (a < nub d)%nat -> (b < nub d)%nat -> x_bb (rchol_LH d nx C H T Y) a b i j = x_bb (left_LH d HV T Y) a b i j.
Proof.
  intros Ha Hb. rewrite <- rf_LH_bb. 
  assert (E := four_same (crleft_LH_aa_11 d nx C H T Y) (cgleft_LH_aa_11 d nx C H T Y) (noa d) (nua d) nx (crleft_vR d nx C H T Y) (crleft_vT d nx C H T Y) a b i j).
  assert (Q1 : forall j i f e, crleft_vT d nx C H T Y j i f e = - crleft_vT d nx C H T Y j i e f) by (intros; unfold crleft_vT; rewrite (aa_v T Y HY); ring).
  assert (Q2 : forall j i f e, crleft_vT d nx C H T Y j i f e = - crleft_vT d nx C H T Y i j f e) by (intros; unfold crleft_vT; rewrite (aa_o T Y HY); ring).
  specialize (E Q1 Q2). 
  assert (D : forall a b i j, crleft_LH_aa_11 d nx C H T Y a b i j - cgleft_LH_aa_11 d nx C H T Y a b i j = vvvv_t2_sym (noa d) (nua d) nx (crleft_vR d nx C H T Y) (crleft_vT d nx C H T Y) j i b a - 1 / 4 * full_sum (nua d) nx (crleft_vR d nx C H T Y) (crleft_vT d nx C H T Y) a b j i).
  { intros. do 2 apply step_add. etransitivity; [apply step_base|reflexivity]. }
  specialize (E D ltac:(congruence) ltac:(congruence)). clear Q1 Q2 D.
  change (crleft_LH_aa_11 d nx C H T Y a b i j - (crleft_LH_aa_11 d nx C H T Y b a i j + crleft_LH_aa_11 d nx C H T Y a b j i - crleft_LH_aa_11 d nx C H T Y b a j i) = cgleft_LH_aa_11 d nx C H T Y a b i j - (cgleft_LH_aa_11 d nx C H T Y b a i j + cgleft_LH_aa_11 d nx C H T Y a b j i - cgleft_LH_aa_11 d nx C H T Y b a j i)).
  lra.
Qed.
End Shut.
