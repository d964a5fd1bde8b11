(** MP2 and MP3: the tensor algebra (proof support). *)
From Coq Require Import Reals Arith NArith List Bool Lra Lia FunctionalExtensionality.
From Verif Require Import RSum IntegralsModel TensorObjs TensorAlg TensorDeriv TensorSpec CcsdModel CcsdReify CcsdUpdate CcsdProps EomModel EomProps EomsdtProps LeftModel
  FockSpec FockCcSpec CrccSpec CrccLoop Cc2Spec Cc2Proofs MbptModel MbptSpec MbptProofs.
Import ListNotations.
Open Scope R_scope.
Definition m_t := memn [2; 4; 10; 11; 18; 47; 48]%nat.
Definition m_f := memn ([2; 4; 10; 11; 18; 47; 48] ++ [1; 3; 6; 8; 9; 13; 14; 16; 17; 20; 21; 22; 23; 25; 26] ++ seq 28 19 ++ seq 52 14)%nat.
Lemma m_t_ok d H Q k l : tenv (jac_arrays d H zero_amps (doubles_of Q)) k l = if m_t k then 0 else tenv (jac_arrays d H Q (doubles_of Q)) k l.
Proof.
  do 66 (destruct k as [|k]; [cbn; unfold ap2, ap4, no_pairs; first [reflexivity|repeat (destruct l as [|? l]; cbn; try reflexivity)]|]).
  cbn; rewrite ?nth_overflow by (simpl; lia); reflexivity.
Qed.
Lemma m_f_ok d H Q k l : tenv (jac_arrays d (only_fock H) zero_amps (doubles_of Q)) k l = if m_f k then 0 else tenv (jac_arrays d H Q (doubles_of Q)) k l.
Proof.
  do 66 (destruct k as [|k]; [cbn; unfold ap2, ap4, no_pairs; first [reflexivity|repeat (destruct l as [|? l]; cbn; try reflexivity)]|]).
  cbn; rewrite ?nth_overflow by (simpl; lia); reflexivity.
Qed.
Local Open Scope nat_scope.
Definition s2 (k1 k2 : nat) (x y : list nat) (d1 d2 : nat) : ex := ESum 4 d1 (ESum 5 d2 (EMul (ET k1 x) (ET k2 y))).
(** t_amp of mp3: a, b, i, j and the summation variables are p, q, r, s and 4, 5 *)
Definition br_aa (p q r s : nat) : ex :=
  EAdd (EAdd (EAdd (EScale 1 2 (s2 28 49 [4; 5; r; s] [p; q; 4; 5] 0 0)) (EScale 1 2 (s2 41 49 [p; q; 4; 5] [4; 5; r; s] 1 1)))
    (ESum 4 1 (ESum 5 0 (EAdd (ESub (ESub (EMul (ET 22 [p; 5; r; 4]) (ET 49 [4; q; 5; s])) (EMul (ET 22 [q; 5; r; 4]) (ET 49 [4; p; 5; s]))) (EMul (ET 22 [p; 5; s; 4]) (ET 49 [4; q; 5; r]))) (EMul (ET 22 [q; 5; s; 4]) (ET 49 [4; p; 5; r]))))))
    (ESum 4 3 (ESum 5 2 (EAdd (ESub (ESub (EMul (ET 23 [p; 5; r; 4]) (ET 50 [q; 4; s; 5])) (EMul (ET 23 [q; 5; r; 4]) (ET 50 [p; 4; s; 5]))) (EMul (ET 23 [p; 5; s; 4]) (ET 50 [q; 4; r; 5]))) (EMul (ET 23 [q; 5; s; 4]) (ET 50 [p; 4; r; 5]))))).
Definition br_bb (p q r s : nat) : ex :=
  EAdd (EAdd (EAdd (EScale 1 2 (s2 31 51 [4; 5; r; s] [p; q; 4; 5] 2 2)) (EScale 1 2 (s2 45 51 [p; q; 4; 5] [4; 5; r; s] 3 3)))
    (ESum 4 3 (ESum 5 2 (EAdd (ESub (ESub (EMul (ET 25 [p; 5; r; 4]) (ET 51 [4; q; 5; s])) (EMul (ET 25 [q; 5; r; 4]) (ET 51 [4; p; 5; s]))) (EMul (ET 25 [p; 5; s; 4]) (ET 51 [4; q; 5; r]))) (EMul (ET 25 [q; 5; s; 4]) (ET 51 [4; p; 5; r]))))))
    (ESum 4 1 (ESum 5 0 (EAdd (ESub (ESub (EMul (ET 26 [5; p; 4; r]) (ET 50 [4; q; 5; s])) (EMul (ET 26 [5; q; 4; r]) (ET 50 [4; p; 5; s]))) (EMul (ET 26 [5; p; 4; s]) (ET 50 [4; q; 5; r]))) (EMul (ET 26 [5; q; 4; s]) (ET 50 [4; p; 5; r]))))).
Definition br_ab (p q r s : nat) : ex :=
  EAdd (EAdd (EAdd (EAdd (EAdd (EAdd (EAdd (s2 34 50 [4; 5; r; s] [p; q; 4; 5] 0 2) (s2 43 50 [p; q; 4; 5] [4; 5; r; s] 1 3)) (s2 22 50 [p; 5; r; 4] [4; q; 5; s] 1 0)) (s2 25 50 [q; 5; s; 4] [p; 4; r; 5] 3 2))
    (s2 26 49 [5; q; 4; s] [p; 4; r; 5] 1 0)) (s2 23 51 [p; 5; r; 4] [q; 4; s; 5] 3 2)) (ESum 4 3 (ESum 5 0 (EOpp (EMul (ET 35 [5; q; r; 4]) (ET 50 [p; 4; 5; s]))))))
    (ESum 4 1 (ESum 5 2 (EOpp (EMul (ET 36 [p; 5; 4; s]) (ET 50 [4; q; r; 5]))))).
(** The Fock terms *)
Definition s1 (k1 k2 : nat) (x y : list nat) (d1 : nat) : ex := ESum 4 d1 (EMul (ET k1 x) (ET k2 y)).
Definition fk_aa : ex := ESub (ESub (EAdd (s1 7 49 [0; 4] [4; 1; 2; 3] 1) (s1 7 49 [1; 4] [0; 4; 2; 3] 1)) (s1 12 49 [4; 2] [0; 1; 4; 3] 0)) (s1 12 49 [4; 3] [0; 1; 2; 4] 0).
Definition fk_bb : ex := ESub (ESub (EAdd (s1 15 51 [0; 4] [4; 1; 2; 3] 3) (s1 15 51 [1; 4] [0; 4; 2; 3] 3)) (s1 19 51 [4; 2] [0; 1; 4; 3] 2)) (s1 19 51 [4; 3] [0; 1; 2; 4] 2).
Definition fk_ab : ex := ESub (ESub (EAdd (s1 7 50 [0; 4] [4; 1; 2; 3] 1) (s1 15 50 [1; 4] [0; 4; 2; 3] 3)) (s1 12 50 [4; 2] [0; 1; 4; 3] 0)) (s1 19 50 [4; 3] [0; 1; 2; 4] 2).
Definition fk_a : ex := EAdd (s2 0 49 [5; 4] [0; 4; 1; 5] 1 0) (s2 5 50 [5; 4] [0; 4; 1; 5] 3 2).
Definition fk_b : ex := EAdd (s2 5 51 [5; 4] [0; 4; 1; 5] 3 2) (s2 0 50 [5; 4] [4; 0; 5; 1] 1 0).
Definition fk_r0 : ex := EAdd (EAdd
   (EScale 1 4 (ESum 0 1 (ESum 1 1 (ESum 2 0 (ESum 3 0 (EMul (ET 1 [2; 3; 0; 1]) (ET 49 [0; 1; 2; 3])))))))
   (ESum 0 1 (ESum 1 3 (ESum 2 0 (ESum 3 2 (EMul (ET 3 [2; 3; 0; 1]) (ET 50 [0; 1; 2; 3])))))))
   (EScale 1 4 (ESum 0 3 (ESum 1 3 (ESum 2 2 (ESum 3 2 (EMul (ET 6 [2; 3; 0; 1]) (ET 51 [0; 1; 2; 3]))))))).
Local Open Scope R_scope.
Section A.
Variables (d : dims) (H : ints) (Q : amps).
Hypothesis HH : antisym_ints H.
Hypothesis HQ : antisym_amps Q.
Notation P := (doubles_of Q).
Notation de := (jden d H Q P).
Let HP : antisym_amps P.
Proof. destruct HQ. constructor; assumption. Qed.
Let S e1 e2 v := jac_same d H Q P e1 e2 v HH HQ HP.
Let KT e v := kill_map m_t (denv [noa d; nua d; nob d; nub d]) (tenv (jac_arrays d H Q P)) _ (m_t_ok d H Q) e v.
Let KF e v := kill_map m_f (denv [noa d; nua d; nob d; nub d]) (tenv (jac_arrays d H Q P)) _ (m_f_ok d H Q) e v.
Notation sg := (eom_HR d (hbar_ccsd d H zero_amps) zero_amps P).
Notation sf := (eom_HR d (hbar_ccsd d (only_fock H) zero_amps) zero_amps P).
Notation v4 a b i j := (venv [a; b; i; j]).
(** Two-body part of the sigma vector *)
Lemma two e1 e2 v : same_tab jac_tab (fun x => x) [0; 1; 2; 3]%nat (ESub (killz m_t e1) (killz m_f e1)) e2 = true ->
  jden d H zero_amps P e1 v - jden d (only_fock H) zero_amps P e1 v = de e2 v.
Proof. intros E. rewrite KT, KF. exact (S (ESub (killz m_t e1) (killz m_f e1)) e2 v E). Qed.
Lemma fck e1 e2 v : same_tab jac_tab (fun x => x) [0; 1; 2; 3]%nat (killz m_f e1) e2 = true -> jden d (only_fock H) zero_amps P e1 v = de e2 v.
Proof. intros E. rewrite KF. exact (S _ e2 v E). Qed.
Lemma all e1 e2 v : same_tab jac_tab (fun x => x) [0; 1; 2; 3]%nat (killz m_t e1) e2 = true -> jden d H zero_amps P e1 v = de e2 v.
Proof. intros E. rewrite KT. exact (S _ e2 v E). Qed.
Lemma two_aa a b i j : x_aa sg a b i j - x_aa sf a b i j = de (br_aa 0 1 2 3) (v4 a b i j).
Proof. exact (two js_aa (br_aa 0 1 2 3) (v4 a b i j) ltac:(vm_compute; reflexivity)). Qed.
Lemma two_ab a b i j : x_ab sg a b i j - x_ab sf a b i j = de (br_ab 0 1 2 3) (v4 a b i j).
Proof. exact (two js_ab (br_ab 0 1 2 3) (v4 a b i j) ltac:(vm_compute; reflexivity)). Qed.
Lemma two_bb a b i j : x_bb sg a b i j - x_bb sf a b i j = de (br_bb 0 1 2 3) (v4 a b i j).
Proof. exact (two js_bb (br_bb 0 1 2 3) (v4 a b i j) ltac:(vm_compute; reflexivity)). Qed.
Lemma fck_aa a b i j : x_aa sf a b i j = de fk_aa (v4 a b i j).
Proof. exact (fck js_aa fk_aa (v4 a b i j) ltac:(vm_compute; reflexivity)). Qed.
Lemma fck_ab a b i j : x_ab sf a b i j = de fk_ab (v4 a b i j).
Proof. exact (fck js_ab fk_ab (v4 a b i j) ltac:(vm_compute; reflexivity)). Qed.
Lemma fck_bb a b i j : x_bb sf a b i j = de fk_bb (v4 a b i j).
Proof. exact (fck js_bb fk_bb (v4 a b i j) ltac:(vm_compute; reflexivity)). Qed.
Lemma fck_a a i : x_a sf a i = de fk_a (venv [a; i]).
Proof. exact (fck js_a fk_a (venv [a; i]) ltac:(vm_compute; reflexivity)). Qed.
Lemma fck_b a i : x_b sf a i = de fk_b (venv [a; i]).
Proof. exact (fck js_b fk_b (venv [a; i]) ltac:(vm_compute; reflexivity)). Qed.
Lemma r0_all : r0_sum d (hbar_ccsd d H zero_amps) P = de fk_r0 (venv []).
Proof. exact (all (r_r0 0) fk_r0 (venv []) ltac:(vm_compute; reflexivity)). Qed.
Lemma r0_fck : r0_sum d (hbar_ccsd d (only_fock H) zero_amps) P = 0.
Proof. refine (eq_trans (fck (r_r0 0) (EC 0 1) (venv []) ltac:(vm_compute; reflexivity)) _). apply den_zero. Qed.
Notation R0 := (ccsd_resid d H zero_amps).
Notation F0 := (ccsd_resid d (only_fock H) zero_amps).
Lemma res_aa a b i j : x_aa R0 a b i j = i_aa_vvoo H a b i j.
Proof. exact (all jr_aa (ET 42 [0; 1; 2; 3]%nat) (v4 a b i j) ltac:(vm_compute; reflexivity)). Qed.
Lemma res_ab a b i j : x_ab R0 a b i j = i_ab_vvoo H a b i j.
Proof. exact (all jr_ab (ET 44 [0; 1; 2; 3]%nat) (v4 a b i j) ltac:(vm_compute; reflexivity)). Qed.
Lemma res_bb a b i j : x_bb R0 a b i j = i_bb_vvoo H a b i j.
Proof. exact (all jr_bb (ET 46 [0; 1; 2; 3]%nat) (v4 a b i j) ltac:(vm_compute; reflexivity)). Qed.
Lemma ref_aa a b i j : x_aa F0 a b i j = 0.
Proof. refine (eq_trans (fck jr_aa (EC 0 1) (v4 a b i j) ltac:(vm_compute; reflexivity)) _). apply den_zero. Qed.
Lemma ref_ab a b i j : x_ab F0 a b i j = 0.
Proof. refine (eq_trans (fck jr_ab (EC 0 1) (v4 a b i j) ltac:(vm_compute; reflexivity)) _). apply den_zero. Qed.
Lemma ref_bb a b i j : x_bb F0 a b i j = 0.
Proof. refine (eq_trans (fck jr_bb (EC 0 1) (v4 a b i j) ltac:(vm_compute; reflexivity)) _). apply den_zero. Qed.
Lemma ref_a a i : x_a R0 a i - x_a F0 a i = 0.
Proof. refine (eq_trans (two jr_a (EC 0 1) (venv [a; i]) ltac:(vm_compute; reflexivity)) _). apply den_zero. Qed.
Lemma ref_b a i : x_b R0 a i - x_b F0 a i = 0.
Proof. refine (eq_trans (two jr_b (EC 0 1) (venv [a; i]) ltac:(vm_compute; reflexivity)) _). apply den_zero. Qed.
Lemma fo_a a i : x_a F0 a i = i_a_vo H a i.
Proof. exact (fck jr_a (ET 24 [0; 1]%nat) (venv [a; i]) ltac:(vm_compute; reflexivity)). Qed.
Lemma fo_b a i : x_b F0 a i = i_b_vo H a i.
Proof. exact (fck jr_b (ET 27 [0; 1]%nat) (venv [a; i]) ltac:(vm_compute; reflexivity)). Qed.
Lemma en_zero : cc_energy d H zero_amps = 0.
Proof. refine (eq_trans (all (r_en_Ecorr 0) (EC 0 1) (venv []) ltac:(vm_compute; reflexivity)) _). apply den_zero. Qed.
Lemma en_zero_f : cc_energy d (only_fock H) zero_amps = 0.
Proof. refine (eq_trans (fck (r_en_Ecorr 0) (EC 0 1) (venv []) ltac:(vm_compute; reflexivity)) _). apply den_zero. Qed.
(** t_amp of the routine *)
Lemma half2 n f g : (forall p q, f p q = - f q p) -> (forall p q, g p q = - g q p) -> sum_lt2 n (fun p q => f p q * g p q) = / 2 * sumn n (fun p => sumn n (fun q => f p q * g p q)).
Proof.
  intros F G. apply (lt2_half n (fun p q => f p q * g p q)).
  - intros p q. rewrite (F p q), (G p q). ring.
  - intros p. assert (Z := F p p). replace (f p p) with 0 by lra. ring.
Qed.
Lemma amp_aa a b i j : mp3_amp_aa d H P a b i j = de (br_aa 0 1 2 3) (v4 a b i j).
Proof.
  unfold mp3_amp_aa. rewrite !acc_sum, !slist_lt, !slist_do2.
  rewrite (half2 (noa d) (fun m n => i_aa_oooo H m n i j) (fun m n => x_aa P a b m n)), (half2 (nua d) (fun e f => i_aa_vvvv H a b e f) (fun e f => x_aa P e f i j)) by (intros; first [now apply HH|now apply HP]).
  rewrite Rplus_0_l. unfold Rdiv.
  replace (/ 2) with (1 / 2) by lra. reflexivity.
Qed.
Lemma amp_bb a b i j : mp3_amp_bb d H P a b i j = de (br_bb 0 1 2 3) (v4 a b i j).
Proof.
  unfold mp3_amp_bb. rewrite !acc_sum, !slist_lt, !slist_do2.
  rewrite (half2 (nob d) (fun m n => i_bb_oooo H m n i j) (fun m n => x_bb P a b m n)), (half2 (nub d) (fun e f => i_bb_vvvv H a b e f) (fun e f => x_bb P e f i j)) by (intros; first [now apply HH|now apply HP]).
  rewrite Rplus_0_l. replace (/ 2) with (1 / 2) by lra. reflexivity.
Qed.
Lemma amp_ab a b i j : mp3_amp_ab d H P a b i j = de (br_ab 0 1 2 3) (v4 a b i j).
Proof. unfold mp3_amp_ab. rewrite !acc_sum, !slist_do2. rewrite Rplus_0_l. reflexivity. Qed.
Lemma amp_aa_1 a b i j : mp3_amp_aa d H P a b i j = - mp3_amp_aa d H P b a i j.
Proof. rewrite !amp_aa. exact (S (br_aa 0 1 2 3) (EOpp (br_aa 1 0 2 3)) (v4 a b i j) ltac:(vm_compute; reflexivity)). Qed.
Lemma amp_aa_2 a b i j : mp3_amp_aa d H P a b i j = - mp3_amp_aa d H P a b j i.
Proof. rewrite !amp_aa. exact (S (br_aa 0 1 2 3) (EOpp (br_aa 0 1 3 2)) (v4 a b i j) ltac:(vm_compute; reflexivity)). Qed.
Lemma amp_bb_1 a b i j : mp3_amp_bb d H P a b i j = - mp3_amp_bb d H P b a i j.
Proof. rewrite !amp_bb. exact (S (br_bb 0 1 2 3) (EOpp (br_bb 1 0 2 3)) (v4 a b i j) ltac:(vm_compute; reflexivity)). Qed.
Lemma amp_bb_2 a b i j : mp3_amp_bb d H P a b i j = - mp3_amp_bb d H P a b j i.
Proof. rewrite !amp_bb. exact (S (br_bb 0 1 2 3) (EOpp (br_bb 0 1 3 2)) (v4 a b i j) ltac:(vm_compute; reflexivity)). Qed.
End A.
(** A diagonal matrix in a sum *)
Lemma diag_l n (f : nat -> nat -> R) g k : (k < n)%nat -> (forall e, (e < n)%nat -> k <> e -> f k e = 0) -> sumn n (fun e => f k e * g e) = f k k * g k.
Proof.
  intros Hk Z. rewrite <- (sumn_delta_f n k (fun e => f k e * g e) Hk). apply sumn_ext; intros e He. destruct (Nat.eqb_spec e k) as [->|N]; [reflexivity|]. rewrite Z by auto. ring.
Qed.
Lemma diag_r n (f : nat -> nat -> R) g k : (k < n)%nat -> (forall e, (e < n)%nat -> e <> k -> f e k = 0) -> sumn n (fun e => f e k * g e) = f k k * g k.
Proof.
  intros Hk Z. rewrite <- (sumn_delta_f n k (fun e => f e k * g e) Hk). apply sumn_ext; intros e He. destruct (Nat.eqb_spec e k) as [->|N]; [reflexivity|]. rewrite Z by auto. ring.
Qed.
