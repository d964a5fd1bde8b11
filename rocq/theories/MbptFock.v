(** MP2 and MP3: the states of perturbation theory (proof support). *)
From Coq Require Import Reals Arith NArith List Bool Lra Lia FunctionalExtensionality.
From Verif Require Import RSum IntegralsModel TensorObjs TensorAlg TensorDeriv TensorSpec CcsdModel CcsdReify CcsdUpdate CcsdProps EomModel EomProps LeftModel
  FockSpec FockCar FockWick FockCcSpec FockSectorSpec FockExp FockProj FockNear FockEom FockEomProj FockProps FockShift FockSector FockDress CrccSpec CrccHbar CrccLoop PtSpec Cc2Spec Cc2Proofs Cc2Fock MbptModel MbptSpec MbptProofs MbptAlg.
Import ListNotations.
Open Scope R_scope.
Lemma along1_lin D0 no so a i f g x : along1 D0 no so (fun D => f D - x * g D) a i = along1 D0 no so f a i - x * along1 D0 no so g a i.
Proof. unfold along1, cre, ann. destruct (N.testbit _ _); [destruct (N.testbit _ _)|]; ring. Qed.
Lemma along2_lin D0 no no' so so' a b i j f g x : along2 D0 no no' so so' (fun D => f D - x * g D) a b i j = along2 D0 no no' so so' f a b i j - x * along2 D0 no no' so so' g a b i j.
Proof. unfold along2, cre, ann. destruct (N.testbit _ _); [destruct (N.testbit _ _); [destruct (N.testbit _ _); [|destruct (N.testbit _ _)]|]|]; ring. Qed.
Lemma along1_sub D0 no so a i f g : along1 D0 no so (fun D => f D - g D) a i = along1 D0 no so f a i - along1 D0 no so g a i.
Proof. unfold along1, cre, ann. destruct (N.testbit _ _); [destruct (N.testbit _ _)|]; ring. Qed.
Lemma along2_sub D0 no no' so so' a b i j f g : along2 D0 no no' so so' (fun D => f D - g D) a b i j = along2 D0 no no' so so' f a b i j - along2 D0 no no' so so' g a b i j.
Proof. unfold along2, cre, ann. destruct (N.testbit _ _); [destruct (N.testbit _ _); [destruct (N.testbit _ _); [|destruct (N.testbit _ _)]|]|]; ring. Qed.
Lemma along1_add D0 no so a i f g : along1 D0 no so (fun D => f D + g D) a i = along1 D0 no so f a i + along1 D0 no so g a i.
Proof. unfold along1, cre, ann. destruct (N.testbit _ _); [destruct (N.testbit _ _)|]; ring. Qed.
Lemma along2_add D0 no no' so so' a b i j f g : along2 D0 no no' so so' (fun D => f D + g D) a b i j = along2 D0 no no' so so' f a b i j + along2 D0 no no' so so' g a b i j.
Proof. unfold along2, cre, ann. destruct (N.testbit _ _); [destruct (N.testbit _ _); [destruct (N.testbit _ _); [|destruct (N.testbit _ _)]|]|]; ring. Qed.

Section C.
Variables (d : dims) (I : integrals) (n : nat).
Hypothesis En : (noa d + nua d = n)%nat.
Hypothesis En' : (nob d + nub d = n)%nat.
Hypothesis HI : exchangeable I.
Notation H := (fock_ints (noa d) (nob d) I).
Notation FO := (fock_operator (noa d) (nob d) I).
Notation ref := (reference (noa d) (nob d)).
Notation Q := (mp3_t d H).
Notation P := (doubles_of Q).
Notation al1 := (along1 ref (noa d) al).
Notation be1 := (along1 ref (nob d) be).
Notation aa2 := (along2 ref (noa d) (noa d) al al).
Notation ab2 := (along2 ref (noa d) (nob d) al be).
Notation bb2 := (along2 ref (nob d) (nob d) be be).
Notation E := (scf_energy (noa d) (nob d) I).
Let HH : antisym_ints H := fock_ints_antisym _ _ _ HI.
Let HQ : antisym_amps Q := mp3_t_anti d H.
Let HP : antisym_amps P := doubles_anti Q HQ.
Let HF : exchangeable FO := fock_exch (noa d) (nob d) I.
Let M : (4 <= 4)%nat := le_n 4.
Lemma ref4 : expo (cluster_sd d zero_amps) 4 (pure ref) = pure ref.
Proof. now rewrite zero_cluster, expo_zero. Qed.
Lemma scf_fock : scf_energy (noa d) (nob d) FO = order0 d I.
Proof.
  unfold scf_energy, order0. cbn [fock_operator h_a h_b w_aa w_ab w_bb]. unfold no_pairs.
  rewrite !(sumn_0 _ (fun _ => sumn _ (fun _ => _))) by (intros; apply sumn_0; intros; ring). ring.
Qed.
Notation vH := (hamiltonian n I (pure ref)).
Notation vF := (hamiltonian n FO (pure ref)).
Notation psi := (cluster_sd d P (pure ref)).
(** Components of H|ref> and F|ref> *)
Lemma e_H : vH ref = E.
Proof. assert (X := energy d I zero_amps n 4 En En' HI zero_anti M). rewrite ref4, (en_zero d H Q HH HQ) in X. lra. Qed.
Lemma e_F : vF ref = order0 d I.
Proof. assert (X := energy d FO zero_amps n 4 En En' HF zero_anti M). rewrite ref4, only_fock_ints, (en_zero_f d H Q HH HQ), scf_fock in X. lra. Qed.
Ltac zz X := rewrite ref4 in X; cbn [zero_amps x_a x_b x_aa x_ab x_bb] in X.
Lemma h_a1 a i : (a < nua d)%nat -> (i < noa d)%nat -> al1 vH a i - al1 vF a i = 0.
Proof.
  intros Ha Hi. assert (X := h1a d I zero_amps n 4 En En' HI zero_anti M a i Ha Hi). assert (Y := h1a d FO zero_amps n 4 En En' HF zero_anti M a i Ha Hi).
  zz X. zz Y. rewrite only_fock_ints in Y. rewrite X, Y. assert (Z := ref_a d H Q HH HQ a i). lra.
Qed.
Lemma h_b1 a i : (a < nub d)%nat -> (i < nob d)%nat -> be1 vH a i - be1 vF a i = 0.
Proof.
  intros Ha Hi. assert (X := h1b d I zero_amps n 4 En En' HI zero_anti M a i Ha Hi). assert (Y := h1b d FO zero_amps n 4 En En' HF zero_anti M a i Ha Hi).
  zz X. zz Y. rewrite only_fock_ints in Y. rewrite X, Y. assert (Z := ref_b d H Q HH HQ a i). lra.
Qed.
Lemma h_aa a b i j : (a < nua d)%nat -> (b < nua d)%nat -> (i < noa d)%nat -> (j < noa d)%nat -> aa2 vH a b i j = i_aa_vvoo H a b i j.
Proof. intros Ha Hb Hi Hj. assert (X := h2aa d I zero_amps n 4 En En' HI zero_anti M a b i j Ha Hb Hi Hj). zz X. rewrite X, (res_aa d H Q HH HQ). ring. Qed.
Lemma h_ab a b i j : (a < nua d)%nat -> (b < nub d)%nat -> (i < noa d)%nat -> (j < nob d)%nat -> ab2 vH a b i j = i_ab_vvoo H a b i j.
Proof. intros Ha Hb Hi Hj. assert (X := h2ab d I zero_amps n 4 En En' HI zero_anti M a b i j Ha Hb Hi Hj). zz X. rewrite X, (res_ab d H Q HH HQ). ring. Qed.
Lemma h_bb a b i j : (a < nub d)%nat -> (b < nub d)%nat -> (i < nob d)%nat -> (j < nob d)%nat -> bb2 vH a b i j = i_bb_vvoo H a b i j.
Proof. intros Ha Hb Hi Hj. assert (X := h2bb d I zero_amps n 4 En En' HI zero_anti M a b i j Ha Hb Hi Hj). zz X. rewrite X, (res_bb d H Q HH HQ). ring. Qed.
Lemma f_aa a b i j : (a < nua d)%nat -> (b < nua d)%nat -> (i < noa d)%nat -> (j < noa d)%nat -> aa2 vF a b i j = 0.
Proof. intros Ha Hb Hi Hj. assert (X := h2aa d FO zero_amps n 4 En En' HF zero_anti M a b i j Ha Hb Hi Hj). zz X. rewrite only_fock_ints in X. rewrite X, (ref_aa d H Q HH HQ). ring. Qed.
Lemma f_ab a b i j : (a < nua d)%nat -> (b < nub d)%nat -> (i < noa d)%nat -> (j < nob d)%nat -> ab2 vF a b i j = 0.
Proof. intros Ha Hb Hi Hj. assert (X := h2ab d FO zero_amps n 4 En En' HF zero_anti M a b i j Ha Hb Hi Hj). zz X. rewrite only_fock_ints in X. rewrite X, (ref_ab d H Q HH HQ). ring. Qed.
Lemma f_bb a b i j : (a < nub d)%nat -> (b < nub d)%nat -> (i < nob d)%nat -> (j < nob d)%nat -> bb2 vF a b i j = 0.
Proof. intros Ha Hb Hi Hj. assert (X := h2bb d FO zero_amps n 4 En En' HF zero_anti M a b i j Ha Hb Hi Hj). zz X. rewrite only_fock_ints in X. rewrite X, (ref_bb d H Q HH HQ). ring. Qed.
Lemma f_a1 a i : (a < nua d)%nat -> (i < noa d)%nat -> al1 vF a i = i_a_vo H a i.
Proof. intros Ha Hi. assert (Y := h1a d FO zero_amps n 4 En En' HF zero_anti M a i Ha Hi). zz Y. rewrite only_fock_ints in Y. rewrite Y, (fo_a d H Q HH HQ). ring. Qed.
Lemma f_b1 a i : (a < nub d)%nat -> (i < nob d)%nat -> be1 vF a i = i_b_vo H a i.
Proof. intros Ha Hi. assert (Y := h1b d FO zero_amps n 4 En En' HF zero_anti M a i Ha Hi). zz Y. rewrite only_fock_ints in Y. rewrite Y, (fo_b d H Q HH HQ). ring. Qed.
Lemma r_a a i : (a < nua d)%nat -> (i < noa d)%nat -> al1 (pure ref) a i = 0.
Proof. intros Ha Hi. assert (Y := c1a d I zero_amps n 4 En En' HI zero_anti M a i Ha Hi). zz Y. exact Y. Qed.
Lemma r_b a i : (a < nub d)%nat -> (i < nob d)%nat -> be1 (pure ref) a i = 0.
Proof. intros Ha Hi. assert (Y := c1b d I zero_amps n 4 En En' HI zero_anti M a i Ha Hi). zz Y. exact Y. Qed.
Lemma r_aa a b i j : (a < nua d)%nat -> (b < nua d)%nat -> (i < noa d)%nat -> (j < noa d)%nat -> aa2 (pure ref) a b i j = 0.
Proof. intros Ha Hb Hi Hj. assert (X := c2aa d I zero_amps n 4 En En' HI zero_anti M a b i j Ha Hb Hi Hj). zz X. rewrite X. ring. Qed.
Lemma r_ab a b i j : (a < nua d)%nat -> (b < nub d)%nat -> (i < noa d)%nat -> (j < nob d)%nat -> ab2 (pure ref) a b i j = 0.
Proof. intros Ha Hb Hi Hj. assert (X := c2ab d I zero_amps n 4 En En' HI zero_anti M a b i j Ha Hb Hi Hj). zz X. rewrite X. ring. Qed.
Lemma r_bb a b i j : (a < nub d)%nat -> (b < nub d)%nat -> (i < nob d)%nat -> (j < nob d)%nat -> bb2 (pure ref) a b i j = 0.
Proof. intros Ha Hb Hi Hj. assert (X := c2bb d I zero_amps n 4 En En' HI zero_anti M a b i j Ha Hb Hi Hj). zz X. rewrite X. ring. Qed.
(** Components of the first-order state *)
Ltac yy X := rewrite ?ref4, ?only_fock_ints in X; cbn [zero_amps doubles_of x_a x_b x_aa x_ab x_bb] in X.
Lemma p_0 : psi ref = 0.
Proof. assert (X := p0 d I zero_amps P n 4 En En' HI zero_anti HP M). rewrite ref4 in X. exact X. Qed.
Lemma p_a a i : (a < nua d)%nat -> (i < noa d)%nat -> al1 psi a i = 0.
Proof. intros Ha Hi. assert (X := p1a d I zero_amps P n 4 En En' HI zero_anti HP M a i Ha Hi). rewrite ref4 in X. exact X. Qed.
Lemma p_b a i : (a < nub d)%nat -> (i < nob d)%nat -> be1 psi a i = 0.
Proof. intros Ha Hi. assert (X := p1b d I zero_amps P n 4 En En' HI zero_anti HP M a i Ha Hi). rewrite ref4 in X. exact X. Qed.
Lemma p_aa a b i j : (a < nua d)%nat -> (b < nua d)%nat -> (i < noa d)%nat -> (j < noa d)%nat -> aa2 psi a b i j = x_aa Q a b i j.
Proof. intros Ha Hb Hi Hj. assert (X := p2aa d I zero_amps P n 4 En En' HI zero_anti HP M a b i j Ha Hb Hi Hj). rewrite ref4 in X. rewrite X. cbn [zero_amps doubles_of x_a x_aa]. ring. Qed.
Lemma p_ab a b i j : (a < nua d)%nat -> (b < nub d)%nat -> (i < noa d)%nat -> (j < nob d)%nat -> ab2 psi a b i j = x_ab Q a b i j.
Proof. intros Ha Hb Hi Hj. assert (X := p2ab d I zero_amps P n 4 En En' HI zero_anti HP M a b i j Ha Hb Hi Hj). rewrite ref4 in X. rewrite X. cbn [zero_amps doubles_of x_a x_b x_ab]. ring. Qed.
Lemma p_bb a b i j : (a < nub d)%nat -> (b < nub d)%nat -> (i < nob d)%nat -> (j < nob d)%nat -> bb2 psi a b i j = x_bb Q a b i j.
Proof. intros Ha Hb Hi Hj. assert (X := p2bb d I zero_amps P n 4 En En' HI zero_anti HP M a b i j Ha Hb Hi Hj). rewrite ref4 in X. rewrite X. cbn [zero_amps doubles_of x_b x_bb]. ring. Qed.
(** Components of H and F on it *)
Notation wH := (hamiltonian n I psi).
Notation wF := (hamiltonian n FO psi).
Notation sg := (eom_HR d (hbar_ccsd d H zero_amps) zero_amps P).
Notation sf := (eom_HR d (hbar_ccsd d (only_fock H) zero_amps) zero_amps P).
Lemma q_0 : wH ref = jden d H Q P fk_r0 (venv []).
Proof. assert (X := q0 d I zero_amps P n 4 En En' HI zero_anti HP M). rewrite ref4, (r0_all d H Q HH HQ) in X. exact X. Qed.
Lemma qf_0 : wF ref = 0.
Proof. assert (X := q0 d FO zero_amps P n 4 En En' HF zero_anti HP M). rewrite ref4, only_fock_ints, (r0_fck d H Q HH HQ) in X. exact X. Qed.
Lemma qf_a a i : (a < nua d)%nat -> (i < noa d)%nat -> al1 wF a i = x_a sf a i.
Proof. intros Ha Hi. assert (X := q1a d FO zero_amps P n 4 En En' HF zero_anti HP M a i Ha Hi). rewrite ref4, only_fock_ints in X. rewrite X. generalize sf. intros U. cbn [zero_amps doubles_of x_a]. ring. Qed.
Lemma qf_b a i : (a < nub d)%nat -> (i < nob d)%nat -> be1 wF a i = x_b sf a i.
Proof. intros Ha Hi. assert (X := q1b d FO zero_amps P n 4 En En' HF zero_anti HP M a i Ha Hi). rewrite ref4, only_fock_ints in X. rewrite X. generalize sf. intros U. cbn [zero_amps doubles_of x_b]. ring. Qed.
Lemma q_aa a b i j : (a < nua d)%nat -> (b < nua d)%nat -> (i < noa d)%nat -> (j < noa d)%nat -> aa2 wH a b i j = E * x_aa Q a b i j + x_aa sg a b i j.
Proof.
  intros Ha Hb Hi Hj. assert (X := q2aa d I zero_amps P n 4 En En' HI zero_anti HP M a b i j Ha Hb Hi Hj). rewrite ref4, (en_zero d H Q HH HQ) in X. rewrite X.
  generalize sg, (ccsd_resid d H zero_amps). intros U V. cbn [zero_amps doubles_of x_a x_aa]. ring.
Qed.
Lemma q_ab a b i j : (a < nua d)%nat -> (b < nub d)%nat -> (i < noa d)%nat -> (j < nob d)%nat -> ab2 wH a b i j = E * x_ab Q a b i j + x_ab sg a b i j.
Proof.
  intros Ha Hb Hi Hj. assert (X := q2ab d I zero_amps P n 4 En En' HI zero_anti HP M a b i j Ha Hb Hi Hj). rewrite ref4, (en_zero d H Q HH HQ) in X. rewrite X.
  generalize sg, (ccsd_resid d H zero_amps). intros U V. cbn [zero_amps doubles_of x_a x_b x_ab]. ring.
Qed.
Lemma q_bb a b i j : (a < nub d)%nat -> (b < nub d)%nat -> (i < nob d)%nat -> (j < nob d)%nat -> bb2 wH a b i j = E * x_bb Q a b i j + x_bb sg a b i j.
Proof.
  intros Ha Hb Hi Hj. assert (X := q2bb d I zero_amps P n 4 En En' HI zero_anti HP M a b i j Ha Hb Hi Hj). rewrite ref4, (en_zero d H Q HH HQ) in X. rewrite X.
  generalize sg, (ccsd_resid d H zero_amps). intros U V. cbn [zero_amps doubles_of x_b x_bb]. ring.
Qed.
Lemma qf_aa a b i j : (a < nua d)%nat -> (b < nua d)%nat -> (i < noa d)%nat -> (j < noa d)%nat -> aa2 wF a b i j = order0 d I * x_aa Q a b i j + x_aa sf a b i j.
Proof.
  intros Ha Hb Hi Hj. assert (X := q2aa d FO zero_amps P n 4 En En' HF zero_anti HP M a b i j Ha Hb Hi Hj). rewrite ref4, only_fock_ints, (en_zero_f d H Q HH HQ), scf_fock in X. rewrite X.
  generalize sf, (ccsd_resid d (only_fock H) zero_amps). intros U V. cbn [zero_amps doubles_of x_a x_aa]. ring.
Qed.
Lemma qf_ab a b i j : (a < nua d)%nat -> (b < nub d)%nat -> (i < noa d)%nat -> (j < nob d)%nat -> ab2 wF a b i j = order0 d I * x_ab Q a b i j + x_ab sf a b i j.
Proof.
  intros Ha Hb Hi Hj. assert (X := q2ab d FO zero_amps P n 4 En En' HF zero_anti HP M a b i j Ha Hb Hi Hj). rewrite ref4, only_fock_ints, (en_zero_f d H Q HH HQ), scf_fock in X. rewrite X.
  generalize sf, (ccsd_resid d (only_fock H) zero_amps). intros U V. cbn [zero_amps doubles_of x_a x_b x_ab]. ring.
Qed.
Lemma qf_bb a b i j : (a < nub d)%nat -> (b < nub d)%nat -> (i < nob d)%nat -> (j < nob d)%nat -> bb2 wF a b i j = order0 d I * x_bb Q a b i j + x_bb sf a b i j.
Proof.
  intros Ha Hb Hi Hj. assert (X := q2bb d FO zero_amps P n 4 En En' HF zero_anti HP M a b i j Ha Hb Hi Hj). rewrite ref4, only_fock_ints, (en_zero_f d H Q HH HQ), scf_fock in X. rewrite X.
  generalize sf, (ccsd_resid d (only_fock H) zero_amps). intros U V. cbn [zero_amps doubles_of x_b x_bb]. ring.
Qed.
(** The amplitudes of the routine and those of the specification *)
Notation A := (first_order_amps d n I).
Lemma s_aa a b i j : (a < nua d)%nat -> (b < nua d)%nat -> (i < noa d)%nat -> (j < noa d)%nat -> x_aa Q a b i j = i_aa_vvoo H a b i j / (i_a_oo H i i + i_a_oo H j j - i_a_vv H a a - i_a_vv H b b).
Proof. intros Ha Hb Hi Hj. unfold mp3_t. cbn [x_aa]. rewrite t2_srt. apply srt_val; try assumption; apply HH. Qed.
Lemma s_ab a b i j : (a < nua d)%nat -> (b < nub d)%nat -> (i < noa d)%nat -> (j < nob d)%nat -> x_ab Q a b i j = i_ab_vvoo H a b i j / (i_a_oo H i i + i_b_oo H j j - i_a_vv H a a - i_b_vv H b b).
Proof. intros Ha Hb Hi Hj. unfold mp3_t. cbn [x_ab]. now apply t2b_val. Qed.
Lemma s_bb a b i j : (a < nub d)%nat -> (b < nub d)%nat -> (i < nob d)%nat -> (j < nob d)%nat -> x_bb Q a b i j = i_bb_vvoo H a b i j / (i_b_oo H i i + i_b_oo H j j - i_b_vv H a a - i_b_vv H b b).
Proof. intros Ha Hb Hi Hj. unfold mp3_t. cbn [x_bb]. rewrite t2_srt. apply srt_val; try assumption; apply HH. Qed.
Lemma A_aa a b i j : (a < nua d)%nat -> (b < nua d)%nat -> (i < noa d)%nat -> (j < noa d)%nat -> x_aa A a b i j = x_aa Q a b i j.
Proof. intros Ha Hb Hi Hj. rewrite s_aa by assumption. unfold first_order_amps. cbv zeta. cbn [x_aa]. rewrite h_aa by assumption. reflexivity. Qed.
Lemma A_ab a b i j : (a < nua d)%nat -> (b < nub d)%nat -> (i < noa d)%nat -> (j < nob d)%nat -> x_ab A a b i j = x_ab Q a b i j.
Proof. intros Ha Hb Hi Hj. rewrite s_ab by assumption. unfold first_order_amps. cbv zeta. cbn [x_ab]. rewrite h_ab by assumption. reflexivity. Qed.
Lemma A_bb a b i j : (a < nub d)%nat -> (b < nub d)%nat -> (i < nob d)%nat -> (j < nob d)%nat -> x_bb A a b i j = x_bb Q a b i j.
Proof. intros Ha Hb Hi Hj. rewrite s_bb by assumption. unfold first_order_amps. cbv zeta. cbn [x_bb]. rewrite h_bb by assumption. reflexivity. Qed.
Lemma psi_eq : first_order d n I = psi.
Proof.
  apply functional_extensionality; intros D. unfold first_order, cluster_sd, double_op. f_equal; [f_equal; [f_equal|]|].
  - f_equal. do 2 (apply sumn_ext; intros). do 2 (apply sumn_ext; intros). rewrite A_aa by assumption. reflexivity.
  - do 2 (apply sumn_ext; intros). do 2 (apply sumn_ext; intros). rewrite A_ab by assumption. reflexivity.
  - f_equal. do 2 (apply sumn_ext; intros). do 2 (apply sumn_ext; intros). rewrite A_bb by assumption. reflexivity.
Qed.
Lemma o1 : order1 d n I = E - order0 d I.
Proof. unfold order1, fluctuation, unperturbed. now rewrite e_H, e_F. Qed.
(** (W - E1) on the first-order state *)
Notation Wp := (fun D => fluctuation d n I psi D - order1 d n I * psi D).
Lemma w_aa2 a b i j : (a < nua d)%nat -> (b < nua d)%nat -> (i < noa d)%nat -> (j < noa d)%nat -> aa2 Wp a b i j = mp3_amp_aa d H P a b i j.
Proof.
  intros Ha Hb Hi Hj. unfold fluctuation, unperturbed. rewrite along2_lin, along2_sub, q_aa, qf_aa, p_aa, o1, (amp_aa d H Q HH HQ), <- (two_aa d H Q HH HQ) by assumption. ring.
Qed.
Lemma w_ab2 a b i j : (a < nua d)%nat -> (b < nub d)%nat -> (i < noa d)%nat -> (j < nob d)%nat -> ab2 Wp a b i j = mp3_amp_ab d H P a b i j.
Proof.
  intros Ha Hb Hi Hj. unfold fluctuation, unperturbed. rewrite along2_lin, along2_sub, q_ab, qf_ab, p_ab, o1, (amp_ab d H Q), <- (two_ab d H Q HH HQ) by assumption. ring.
Qed.
Lemma w_bb2 a b i j : (a < nub d)%nat -> (b < nub d)%nat -> (i < nob d)%nat -> (j < nob d)%nat -> bb2 Wp a b i j = mp3_amp_bb d H P a b i j.
Proof.
  intros Ha Hb Hi Hj. unfold fluctuation, unperturbed. rewrite along2_lin, along2_sub, q_bb, qf_bb, p_bb, o1, (amp_bb d H Q HH HQ), <- (two_bb d H Q HH HQ) by assumption. ring.
Qed.
(** The sums of the routines *)
Lemma quarter nu no (f g : mat4) : (forall a b i j, f a b i j = - f b a i j) -> (forall a b i j, f a b i j = - f a b j i) ->
  (forall a b i j, g a b i j = - g b a i j) -> (forall a b i j, g a b i j = - g a b j i) ->
  sum_lt2 nu (fun a b => sum_lt2 no (fun i j => f a b i j * g a b i j)) =
  / 4 * sumn nu (fun a => sumn nu (fun b => sumn no (fun i => sumn no (fun j => f a b i j * g a b i j)))).
Proof.
  intros F1 F2 G1 G2. rewrite (lt2_half nu (fun a b => sum_lt2 no (fun i j => f a b i j * g a b i j))).
  - transitivity (/ 2 * sumn nu (fun a => sumn nu (fun b => / 2 * sumn no (fun i => sumn no (fun j => f a b i j * g a b i j))))).
    + f_equal. apply sumn_ext; intros a _. apply sumn_ext; intros b _. apply half2; intros; [apply F2|apply G2].
    + rewrite (sumn_ext nu (fun a => sumn nu (fun b => / 2 * sumn no (fun i => sumn no (fun j => f a b i j * g a b i j)))) (fun a => / 2 * sumn nu (fun b => sumn no (fun i => sumn no (fun j => f a b i j * g a b i j))))) by (intros; apply sumn_scal).
      rewrite sumn_scal. lra.
  - intros p q. apply lt2_ext; intros. rewrite (F1 p q), (G1 p q). ring.
  - intros p. unfold sum_lt2. apply sumn_0; intros i _. apply sumn_0; intros j _. destruct (Nat.ltb i j); [|reflexivity]. assert (Z := F1 p p i j). replace (f p p i j) with 0 by lra. ring.
Qed.
Lemma mp2_sum : mp2 d H = jden d H Q P fk_r0 (venv []).
Proof.
  unfold mp2. cbv zeta. rewrite !acc_sum, !slist_do4, !slist_lt, slist_do2.
  transitivity (/ 4 * sumn (nua d) (fun a => sumn (nua d) (fun b => sumn (noa d) (fun i => sumn (noa d) (fun j => i_aa_oovv H i j a b * x_aa Q a b i j))))
    + sumn (nua d) (fun a => sumn (nub d) (fun b => sumn (noa d) (fun i => sumn (nob d) (fun j => i_ab_oovv H i j a b * x_ab Q a b i j))))
    + / 4 * sumn (nub d) (fun a => sumn (nub d) (fun b => sumn (nob d) (fun i => sumn (nob d) (fun j => i_bb_oovv H i j a b * x_bb Q a b i j))))).
  2: replace (/ 4) with (1 / 4) by lra; reflexivity.
  rewrite Rplus_0_l. f_equal; [f_equal|].
  - rewrite <- (quarter (nua d) (noa d) (fun a b i j => i_aa_oovv H i j a b) (x_aa Q)) by (intros; first [apply HH|apply HQ]).
    rewrite <- (lt_swap22 (noa d) (nua d) (fun i j a b => i_aa_oovv H i j a b * x_aa Q a b i j)). apply lt2_ext; intros i j Hi Hj _. rewrite slist_lt. apply lt2_ext; intros a b Ha Hb _. cbv beta iota. cbn [fst snd]. rewrite s_aa by assumption. reflexivity.
  - transitivity (sumn (noa d) (fun i => sumn (nob d) (fun j => sumn (nua d) (fun a => sumn (nub d) (fun b => i_ab_oovv H i j a b * x_ab Q a b i j))))).
    + apply sumn_ext; intros i Hi. apply sumn_ext; intros j Hj. rewrite slist_do2. apply sumn_ext; intros a Ha. apply sumn_ext; intros b Hb. cbv beta iota. cbn [fst snd]. rewrite s_ab by assumption. reflexivity.
    + exact (sum44_swap (noa d) (nob d) (nua d) (nub d) (fun i j a b => i_ab_oovv H i j a b * x_ab Q a b i j)).
  - rewrite <- (quarter (nub d) (nob d) (fun a b i j => i_bb_oovv H i j a b) (x_bb Q)) by (intros; first [apply HH|apply HQ]).
    rewrite <- (lt_swap22 (nob d) (nub d) (fun i j a b => i_bb_oovv H i j a b * x_bb Q a b i j)). apply lt2_ext; intros i j Hi Hj _. rewrite slist_lt. apply lt2_ext; intros a b Ha Hb _. cbv beta iota. cbn [fst snd]. rewrite s_bb by assumption. reflexivity.
Qed.
Lemma mp2_state : mp2 d H = fluctuation d n I (first_order d n I) ref.
Proof. rewrite psi_eq, mp2_sum. unfold fluctuation, unperturbed. rewrite q_0, qf_0. ring. Qed.
Section Sym.
Hypothesis SY : symmetric_repulsion I.
Lemma sy_aa a b i j : i_aa_oovv H i j a b = i_aa_vvoo H a b i j.
Proof. cbn [fock_ints i_aa_oovv i_aa_vvoo]. unfold anti_aa. rewrite (proj1 SY i j (noa d + a)%nat), (proj1 SY i j (noa d + b)%nat), (proj1 HI (noa d + b)%nat (noa d + a)%nat i j). reflexivity. Qed.
Lemma sy_ab a b i j : i_ab_oovv H i j a b = i_ab_vvoo H a b i j.
Proof. cbn [fock_ints i_ab_oovv i_ab_vvoo]. apply (proj1 (proj2 SY)). Qed.
Lemma sy_bb a b i j : i_bb_oovv H i j a b = i_bb_vvoo H a b i j.
Proof. cbn [fock_ints i_bb_oovv i_bb_vvoo]. unfold anti_bb. rewrite (proj2 (proj2 SY) i j (nob d + a)%nat), (proj2 (proj2 SY) i j (nob d + b)%nat), (proj2 HI (nob d + b)%nat (nob d + a)%nat i j). reflexivity. Qed.
Lemma mp3_sum : mp3 d H =
  / 4 * sumn (nua d) (fun a => sumn (nua d) (fun b => sumn (noa d) (fun i => sumn (noa d) (fun j => x_aa Q a b i j * mp3_amp_aa d H P a b i j))))
  + sumn (nua d) (fun a => sumn (nub d) (fun b => sumn (noa d) (fun i => sumn (nob d) (fun j => x_ab Q a b i j * mp3_amp_ab d H P a b i j))))
  + / 4 * sumn (nub d) (fun a => sumn (nub d) (fun b => sumn (nob d) (fun i => sumn (nob d) (fun j => x_bb Q a b i j * mp3_amp_bb d H P a b i j)))).
Proof.
  unfold mp3. cbv zeta. rewrite !acc_sum, !slist_do4, !slist_lt, slist_do2. rewrite Rplus_0_l. f_equal; [f_equal|].
  - rewrite <- (quarter (nua d) (noa d) (x_aa Q) (mp3_amp_aa d H P)) by (intros; first [apply HQ|apply (amp_aa_1 d H Q HH HQ)|apply (amp_aa_2 d H Q HH HQ)]).
    apply lt2_ext; intros a b Ha Hb _. rewrite slist_lt. apply lt2_ext; intros i j Hi Hj _. cbv beta iota. cbn [fst snd]. rewrite sy_aa, s_aa by assumption. unfold Rdiv. change (mp3_amp_aa d H Q a b i j) with (mp3_amp_aa d H P a b i j). ring.
  - apply sumn_ext; intros a Ha. apply sumn_ext; intros b Hb. rewrite slist_do2. apply sumn_ext; intros i Hi. apply sumn_ext; intros j Hj. cbv beta iota. cbn [fst snd]. rewrite sy_ab, s_ab by assumption. unfold Rdiv. change (mp3_amp_ab d H Q a b i j) with (mp3_amp_ab d H P a b i j). ring.
  - rewrite <- (quarter (nub d) (nob d) (x_bb Q) (mp3_amp_bb d H P)) by (intros; first [apply HQ|apply (amp_bb_1 d H Q HH HQ)|apply (amp_bb_2 d H Q HH HQ)]).
    apply lt2_ext; intros a b Ha Hb _. rewrite slist_lt. apply lt2_ext; intros i j Hi Hj _. cbv beta iota. cbn [fst snd]. rewrite sy_bb, s_bb by assumption. unfold Rdiv. change (mp3_amp_bb d H Q a b i j) with (mp3_amp_bb d H P a b i j). ring.
Qed.
Lemma mp3_state : mp3 d H = first_order_bra d n I (fun D => fluctuation d n I (first_order d n I) D - order1 d n I * first_order d n I D).
Proof.
  rewrite psi_eq, mp3_sum. unfold first_order_bra, left_sd. cbv zeta.
  rewrite (sumn_0 (nua d) (fun a => sumn (noa d) (fun i => x_a A a i * al1 Wp a i))) by (intros; apply sumn_0; intros; unfold first_order_amps; cbv zeta; cbn [x_a]; ring).
  rewrite (sumn_0 (nub d) (fun a => sumn (nob d) (fun i => x_b A a i * be1 Wp a i))) by (intros; apply sumn_0; intros; unfold first_order_amps; cbv zeta; cbn [x_b]; ring).
  match goal with |- ?x + ?y + ?z = _ => transitivity (Wp ref + 0 + 0 + x + y + z - Wp ref); [ring|] end.
  f_equal. f_equal; [f_equal; [f_equal|]|].
  - f_equal. apply sumn_ext; intros a Ha; apply sumn_ext; intros b Hb; apply sumn_ext; intros i Hi; apply sumn_ext; intros j Hj. rewrite A_aa, w_aa2 by assumption. reflexivity.
  - apply sumn_ext; intros a Ha; apply sumn_ext; intros b Hb; apply sumn_ext; intros i Hi; apply sumn_ext; intros j Hj. rewrite A_ab, w_ab2 by assumption. reflexivity.
  - f_equal. apply sumn_ext; intros a Ha; apply sumn_ext; intros b Hb; apply sumn_ext; intros i Hi; apply sumn_ext; intros j Hj. rewrite A_bb, w_bb2 by assumption. reflexivity.
Qed.
End Sym.
Section Canon.
Hypothesis CA : canonical d n I.
Hypothesis GA : gapped d I.
Lemma c_vo_a a i : (a < nua d)%nat -> (i < noa d)%nat -> i_a_vo H a i = 0.
Proof. intros Ha Hi. cbn [fock_ints i_a_vo]. apply CA; lia. Qed.
Lemma c_vo_b a i : (a < nub d)%nat -> (i < nob d)%nat -> i_b_vo H a i = 0.
Proof. intros Ha Hi. cbn [fock_ints i_b_vo]. apply CA; lia. Qed.
Lemma c_ov_a a i : (a < nua d)%nat -> (i < noa d)%nat -> i_a_ov H i a = 0.
Proof. intros Ha Hi. cbn [fock_ints i_a_ov]. apply CA; lia. Qed.
Lemma c_ov_b a i : (a < nub d)%nat -> (i < nob d)%nat -> i_b_ov H i a = 0.
Proof. intros Ha Hi. cbn [fock_ints i_b_ov]. apply CA; lia. Qed.
Lemma sf_a a i : x_a sf a i = 0.
Proof.
  rewrite (fck_a d H Q HH HQ).
  change (sumn (nua d) (fun e => sumn (noa d) (fun m => i_a_ov H m e * x_aa Q a e i m)) + sumn (nub d) (fun e => sumn (nob d) (fun m => i_b_ov H m e * x_ab Q a e i m)) = 0).
  rewrite !(sumn_0 _ (fun e => sumn _ _)); [ring| |]; intros e He; apply sumn_0; intros m Hm; rewrite ?c_ov_a, ?c_ov_b by assumption; ring.
Qed.
Lemma sf_b a i : x_b sf a i = 0.
Proof.
  rewrite (fck_b d H Q HH HQ).
  change (sumn (nub d) (fun e => sumn (nob d) (fun m => i_b_ov H m e * x_bb Q a e i m)) + sumn (nua d) (fun e => sumn (noa d) (fun m => i_a_ov H m e * x_ab Q e a m i)) = 0).
  rewrite !(sumn_0 _ (fun e => sumn _ _)); [ring| |]; intros e He; apply sumn_0; intros m Hm; rewrite ?c_ov_a, ?c_ov_b by assumption; ring.
Qed.
Ltac dg := intros; cbn [fock_ints i_a_oo i_a_vv i_b_oo i_b_vv]; apply CA; lia.
Lemma sf_aa a b i j : (a < nua d)%nat -> (b < nua d)%nat -> (i < noa d)%nat -> (j < noa d)%nat -> x_aa sf a b i j = - i_aa_vvoo H a b i j.
Proof.
  intros Ha Hb Hi Hj. rewrite (fck_aa d H Q HH HQ).
  change (sumn (nua d) (fun e => i_a_vv H a e * x_aa Q e b i j) + sumn (nua d) (fun e => i_a_vv H b e * x_aa Q a e i j) - sumn (noa d) (fun m => i_a_oo H m i * x_aa Q a b m j) - sumn (noa d) (fun m => i_a_oo H m j * x_aa Q a b i m) = - i_aa_vvoo H a b i j).
  rewrite (diag_l (nua d) (i_a_vv H) (fun e => x_aa Q e b i j) a Ha), (diag_l (nua d) (i_a_vv H) (fun e => x_aa Q a e i j) b Hb), (diag_r (noa d) (i_a_oo H) (fun m => x_aa Q a b m j) i Hi), (diag_r (noa d) (i_a_oo H) (fun m => x_aa Q a b i m) j Hj) by dg.
  rewrite s_aa by assumption. field. exact (proj1 GA a b i j Ha Hb Hi Hj).
Qed.
Lemma sf_bb a b i j : (a < nub d)%nat -> (b < nub d)%nat -> (i < nob d)%nat -> (j < nob d)%nat -> x_bb sf a b i j = - i_bb_vvoo H a b i j.
Proof.
  intros Ha Hb Hi Hj. rewrite (fck_bb d H Q HH HQ).
  change (sumn (nub d) (fun e => i_b_vv H a e * x_bb Q e b i j) + sumn (nub d) (fun e => i_b_vv H b e * x_bb Q a e i j) - sumn (nob d) (fun m => i_b_oo H m i * x_bb Q a b m j) - sumn (nob d) (fun m => i_b_oo H m j * x_bb Q a b i m) = - i_bb_vvoo H a b i j).
  rewrite (diag_l (nub d) (i_b_vv H) (fun e => x_bb Q e b i j) a Ha), (diag_l (nub d) (i_b_vv H) (fun e => x_bb Q a e i j) b Hb), (diag_r (nob d) (i_b_oo H) (fun m => x_bb Q a b m j) i Hi), (diag_r (nob d) (i_b_oo H) (fun m => x_bb Q a b i m) j Hj) by dg.
  rewrite s_bb by assumption. field. exact (proj2 (proj2 GA) a b i j Ha Hb Hi Hj).
Qed.
Lemma sf_ab a b i j : (a < nua d)%nat -> (b < nub d)%nat -> (i < noa d)%nat -> (j < nob d)%nat -> x_ab sf a b i j = - i_ab_vvoo H a b i j.
Proof.
  intros Ha Hb Hi Hj. rewrite (fck_ab d H Q HH HQ).
  change (sumn (nua d) (fun e => i_a_vv H a e * x_ab Q e b i j) + sumn (nub d) (fun e => i_b_vv H b e * x_ab Q a e i j) - sumn (noa d) (fun m => i_a_oo H m i * x_ab Q a b m j) - sumn (nob d) (fun m => i_b_oo H m j * x_ab Q a b i m) = - i_ab_vvoo H a b i j).
  rewrite (diag_l (nua d) (i_a_vv H) (fun e => x_ab Q e b i j) a Ha), (diag_l (nub d) (i_b_vv H) (fun e => x_ab Q a e i j) b Hb), (diag_r (noa d) (i_a_oo H) (fun m => x_ab Q a b m j) i Hi), (diag_r (nob d) (i_b_oo H) (fun m => x_ab Q a b i m) j Hj) by dg.
  rewrite s_ab by assumption. field. exact (proj1 (proj2 GA) a b i j Ha Hb Hi Hj).
Qed.
(** The zeroth- and first-order equations *)
Lemma rs0 D : near n ref D -> unperturbed d n I (pure ref) D = order0 d I * pure ref D.
Proof.
  intros HD. apply Rminus_diag_uniq. revert D HD. apply (near_flat d n (fun D => unperturbed d n I (pure ref) D - order0 d I * pure ref D) En En'). unfold unperturbed.
  repeat split; intros; rewrite ?along1_lin, ?along2_lin, ?e_F, ?f_a1, ?f_b1, ?f_aa, ?f_ab, ?f_bb, ?r_a, ?r_b, ?r_aa, ?r_ab, ?r_bb, ?c_vo_a, ?c_vo_b by assumption; try ring.
  unfold pure. rewrite N.eqb_refl. ring.
Qed.
Notation G := (fun D => unperturbed d n I psi D - order0 d I * psi D).
Notation K := (fun D => fluctuation d n I (pure ref) D - order1 d n I * pure ref D).
Lemma rs1 D : near n ref D -> unperturbed d n I (first_order d n I) D - order0 d I * first_order d n I D = order1 d n I * pure ref D - fluctuation d n I (pure ref) D.
Proof.
  rewrite psi_eq. intros HD. cut (G D + K D = 0); [intros X; lra|]. revert D HD. apply (near_flat d n (fun D => G D + K D) En En'). unfold fluctuation, unperturbed.
  split; [|split; [|split; [|split; [|split]]]].
  - rewrite qf_0, p_0, o1, e_H, e_F. unfold pure. rewrite N.eqb_refl. ring.
  - intros a i Ha Hi. rewrite along1_add, !along1_lin, along1_sub, qf_a, p_a, h_a1, r_a, sf_a by assumption. ring.
  - intros a i Ha Hi. rewrite along1_add, !along1_lin, along1_sub, qf_b, p_b, h_b1, r_b, sf_b by assumption. ring.
  - intros a b i j Ha Hb Hi Hj. rewrite along2_add, !along2_lin, along2_sub, qf_aa, p_aa, h_aa, f_aa, r_aa, sf_aa by assumption. ring.
  - intros a b i j Ha Hb Hi Hj. rewrite along2_add, !along2_lin, along2_sub, qf_ab, p_ab, h_ab, f_ab, r_ab, sf_ab by assumption. ring.
  - intros a b i j Ha Hb Hi Hj. rewrite along2_add, !along2_lin, along2_sub, qf_bb, p_bb, h_bb, f_bb, r_bb, sf_bb by assumption. ring.
Qed.
End Canon.
Lemma psi_ref : first_order d n I ref = 0.
Proof. rewrite psi_eq. apply p_0. Qed.
End C.
