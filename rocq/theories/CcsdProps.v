(** CCSD: the similarity-transformed Hamiltonian and the EOMCCSD sigma vector are the Jacobian of the amplitude equations; the correlation-energy
    gradient; the left ground-state equations; fixed points of the iteration. *)
From Coq Require Import Reals Arith List Lra Lia FunctionalExtensionality.
From Verif Require Import RSum IntegralsModel TensorObjs TensorAlg TensorDeriv TensorSpec EomModel LoopModel CcsdModel CcsdUpdate LeftModel LoopProofs IntsFix EomReify EomProps CcsdReify.
Import ListNotations.
Open Scope R_scope.

Notation jden d H T Y := (den (denv [noa d; nua d; nob d; nub d]) (tenv (jac_arrays d H T Y))).
Lemma jac_syms d H T Y : antisym_ints H -> antisym_amps T -> antisym_amps Y ->
  Forall (fun g => okalt (tenv (jac_arrays d H T Y)) (fst g) (snd g)) jac_gens.
Proof. intros HH HT HY. sym_all. Qed.
Lemma jac_line d H T Y t k l : tenv (jac_arrays d H (amps_line T Y t) Y) k l =
  tenv (jac_arrays d H T Y) k l + t * match jac_dm k with Some k' => tenv (jac_arrays d H T Y) k' l | None => 0 end.
Proof.
  do 60 (destruct k as [|k]; [cbn; repeat (destruct l as [|? l]; cbn; try ring)|]).
  all: cbn; rewrite ?nth_overflow by (simpl; lia); ring.
Qed.
Lemma jac_same d H T Y e1 e2 v : antisym_ints H -> antisym_amps T -> antisym_amps Y ->
  same_tab jac_tab (fun x => x) [0; 1; 2; 3]%nat e1 e2 = true -> jden d H T Y e1 v = jden d H T Y e2 v.
Proof.
  intros HH HT HY E. apply (same_tab_sound _ _ jac_gens (length (jac_arrays d H T Y)) jac_tab (fun x => x) [0; 1; 2; 3]%nat);
    [vm_compute; reflexivity|reflexivity|now apply jac_syms|exact E].
Qed.
Lemma jac_deriv d H T Y e1 e2 v : antisym_ints H -> antisym_amps T -> antisym_amps Y ->
  same_tab jac_tab (fun x => x) [0; 1; 2; 3]%nat (oex (dex jac_dm e1)) e2 = true ->
  derivable_pt_lim (fun t => jden d H (amps_line T Y t) Y e1 v) 0 (jden d H T Y e2 v).
Proof.
  intros HH HT HY E. eapply dlim_eq;
  [exact (dex_ok (denv [noa d; nua d; nob d; nub d]) jac_dm (fun t => tenv (jac_arrays d H (amps_line T Y t) Y)) (tenv (jac_arrays d H T Y)) (jac_line d H T Y) e1 v)|].
  now apply jac_same.
Qed.

(** The derivative of every CCSD residual along any direction Y is the EOMCCSD sigma vector of Y built from the CCSD similarity-transformed Hamiltonian *)
Record jacobian (d : dims) (F : R -> amps) (G : amps) : Prop := {
  j_a : forall a i, derivable_pt_lim (fun t => x_a (F t) a i) 0 (x_a G a i);
  j_b : forall a i, derivable_pt_lim (fun t => x_b (F t) a i) 0 (x_b G a i);
  j_aa : forall a b i j, derivable_pt_lim (fun t => x_aa (F t) a b i j) 0 (x_aa G a b i j);
  j_ab : forall a b i j, derivable_pt_lim (fun t => x_ab (F t) a b i j) 0 (x_ab G a b i j);
  j_bb : forall a b i j, derivable_pt_lim (fun t => x_bb (F t) a b i j) 0 (x_bb G a b i j) }.
Theorem C62_jacobian d H T Y : antisym_ints H -> antisym_amps T -> antisym_amps Y ->
  jacobian d (fun t => ccsd_resid d H (amps_line T Y t)) (eom_HR d (hbar_ccsd d H T) T Y).
Proof.
  intros HH HT HY. constructor; intros.
  - apply (jac_deriv d H T Y jr_a js_a (venv [a; i]) HH HT HY). vm_compute. reflexivity.
  - apply (jac_deriv d H T Y jr_b js_b (venv [a; i]) HH HT HY). vm_compute. reflexivity.
  - apply (jac_deriv d H T Y jr_aa js_aa (venv [a; b; i; j]) HH HT HY). vm_compute. reflexivity.
  - apply (jac_deriv d H T Y jr_ab js_ab (venv [a; b; i; j]) HH HT HY). vm_compute. reflexivity.
  - apply (jac_deriv d H T Y jr_bb js_bb (venv [a; b; i; j]) HH HT HY). vm_compute. reflexivity.
Qed.

(** The derivative of the correlation energy along Y is the sum computed by get_r0 (before the division by omega) *)
Theorem C62_energy_gradient d H T Y : antisym_ints H -> antisym_amps T -> antisym_amps Y ->
  derivable_pt_lim (fun t => cc_energy d H (amps_line T Y t)) 0 (r0_sum d (hbar_ccsd d H T) Y).
Proof. intros HH HT HY. apply (jac_deriv d H T Y (r_en_Ecorr 0) (r_r0 0) (venv []) HH HT HY). vm_compute. reflexivity. Qed.

(** The similarity-transformed Hamiltonian keeps the antisymmetry of its same-spin blocks *)
Lemma hbar_primary d H T : antisym_ints H -> antisym_amps T -> primary_antisym (hbar_ccsd d H T).
Proof.
  intros HH HT.
  assert (S12 : forall (r : nat -> nat -> nat -> nat -> nat -> ex) p q r' t,
    same_tab jac_tab (fun x => x) [0; 1; 2; 3]%nat (r 4 0 1 2 3)%nat (EOpp (r 4 1 0 2 3)%nat) = true ->
    jden d H T T (r 4 0 1 2 3)%nat (venv [p; q; r'; t]) = - jden d H T T (r 4 1 0 2 3)%nat (venv [p; q; r'; t])).
  { intros r p q r' t E. now apply (jac_same d H T T _ _ (venv [p; q; r'; t]) HH HT HT) in E. }
  assert (S34 : forall (r : nat -> nat -> nat -> nat -> nat -> ex) p q r' t,
    same_tab jac_tab (fun x => x) [0; 1; 2; 3]%nat (r 4 0 1 2 3)%nat (EOpp (r 4 0 1 3 2)%nat) = true ->
    jden d H T T (r 4 0 1 2 3)%nat (venv [p; q; r'; t]) = - jden d H T T (r 4 0 1 3 2)%nat (venv [p; q; r'; t])).
  { intros r p q r' t E. now apply (jac_same d H T T _ _ (venv [p; q; r'; t]) HH HT HT) in E. }
  destruct HH as []. constructor; intros p q r t; cbn [hbar_ccsd i_aa_oooo i_aa_ooov i_aa_oovv i_aa_vooo i_aa_voov i_aa_vovv i_aa_vvoo i_aa_vvov i_aa_vvvv
    i_bb_oooo i_bb_ooov i_bb_oovv i_bb_vooo i_bb_voov i_bb_vovv i_bb_vvoo i_bb_vvov i_bb_vvvv]; auto.
  - apply (S12 r_hb_H_aa_oooo_1 p q r t). vm_compute. reflexivity.
  - apply (S34 r_hb_H_aa_oooo_1 p q r t). vm_compute. reflexivity.
  - apply (S12 r_hb_H_aa_ooov p q r t). vm_compute. reflexivity.
  - apply (S34 r_hb_H_aa_vooo p q r t). vm_compute. reflexivity.
  - apply (S34 r_hb_H_aa_vovv p q r t). vm_compute. reflexivity.
  - apply (S12 r_hb_H_aa_vvov_1 p q r t). vm_compute. reflexivity.
  - apply (S12 r_hb_H_aa_vvvv_1 p q r t). vm_compute. reflexivity.
  - apply (S34 r_hb_H_aa_vvvv_1 p q r t). vm_compute. reflexivity.
  - apply (S12 r_hb_H_bb_oooo_1 p q r t). vm_compute. reflexivity.
  - apply (S34 r_hb_H_bb_oooo_1 p q r t). vm_compute. reflexivity.
  - apply (S12 r_hb_H_bb_ooov p q r t). vm_compute. reflexivity.
  - apply (S34 r_hb_H_bb_vooo p q r t). vm_compute. reflexivity.
  - apply (S34 r_hb_H_bb_vovv p q r t). vm_compute. reflexivity.
  - apply (S12 r_hb_H_bb_vvov_1 p q r t). vm_compute. reflexivity.
  - apply (S12 r_hb_H_bb_vvvv_1 p q r t). vm_compute. reflexivity.
  - apply (S34 r_hb_H_bb_vvvv_1 p q r t). vm_compute. reflexivity.
Qed.
Lemma adjoint_hbar d H T L Y : antisym_ints H -> antisym_amps T -> antisym_amps L -> antisym_amps Y ->
  dot2 d L (eom_HR d (hbar_ccsd d H T) T Y) = dot2 d (left_LH d (hbar_ccsd d H T) T L) Y.
Proof.
  intros HH HT HL HY.
  exact (C61_adjoint d (fix_ints (hbar_ccsd d H T)) T L Y (fix_ints_antisym _ (hbar_primary d H T HH HT)) HT HL HY).
Qed.

Lemma dot2_deriv d L F G : jacobian d F G -> derivable_pt_lim (fun t => dot2 d L (F t)) 0 (dot2 d L G).
Proof.
  intros [Ja Jb Jaa Jab Jbb]. unfold dot2, sum2, sum4.
  repeat (apply (derivable_pt_lim_plus (fun t => _) (fun t => _)));
    try (apply (derivable_pt_lim_scal (fun t => _)));
    repeat (apply (derivable_sumn _ (fun _ t => _)); intros ?); apply (derivable_pt_lim_scal (fun t => _)); auto.
Qed.

Lemma sum22_swap n1 n2 (g : nat -> nat -> R) : sumn n1 (fun m => sumn n2 (fun e => g m e)) = sumn n2 (fun e => sumn n1 (fun m => g m e)).
Proof. apply sumn_swap. Qed.
Lemma sum44_swap n1 n2 n3 n4 (g : nat -> nat -> nat -> nat -> R) :
  sumn n1 (fun m => sumn n2 (fun n => sumn n3 (fun e => sumn n4 (fun f => g m n e f)))) =
  sumn n3 (fun e => sumn n4 (fun f => sumn n1 (fun m => sumn n2 (fun n => g m n e f)))).
Proof.
  transitivity (sumn n1 (fun m => sumn n3 (fun e => sumn n4 (fun f => sumn n2 (fun n => g m n e f))))).
  - apply sumn_ext. intros m _. rewrite sumn_swap. apply sumn_ext. intros e _. apply sumn_swap.
  - rewrite sumn_swap. apply sumn_ext. intros e _. apply sumn_swap.
Qed.
Definition grad_amps (H : ints) : amps := mkAmps (fun a i => i_a_ov H i a) (fun a i => i_b_ov H i a)
  (fun a b i j => i_aa_oovv H i j a b) (fun a b i j => i_ab_oovv H i j a b) (fun a b i j => i_bb_oovv H i j a b)
  (fun _ _ _ _ _ _ => 0) (fun _ _ _ _ _ _ => 0) (fun _ _ _ _ _ _ => 0) (fun _ _ _ _ _ _ => 0).
Lemma r0_dot d H Y : r0_sum d H Y = dot2 d (grad_amps H) Y.
Proof.
  unfold r0_sum, dot2, sum2, sum4, grad_amps. cbn [x_a x_b x_aa x_ab x_bb].
  repeat apply (f_equal2 Rplus); try apply (f_equal2 Rmult eq_refl); [apply sum22_swap|apply sum22_swap|apply sum44_swap|apply sum44_swap|apply sum44_swap].
Qed.
Lemma dot2_total d H T L Y : dot2 d (left_total d true H T L) Y = dot2 d (left_LH d H T L) Y + dot2 d (grad_amps H) Y.
Proof.
  unfold left_total, grad_amps. generalize (left_LH d H T L). intros Z. unfold dot2, sum2, sum4. cbn [x_a x_b x_aa x_ab x_bb].
  assert (D2 : forall n1 n2 (f g h : nat -> nat -> R), sumn n1 (fun a => sumn n2 (fun i => (f a i + g a i) * h a i)) =
    sumn n1 (fun a => sumn n2 (fun i => f a i * h a i)) + sumn n1 (fun a => sumn n2 (fun i => g a i * h a i))).
  { intros. rewrite <- sumn_plus. apply sumn_ext. intros a _. rewrite <- sumn_plus. apply sumn_ext. intros i _. ring. }
  assert (D4 : forall n1 n2 n3 n4 (f g h : nat -> nat -> nat -> nat -> R),
    sumn n1 (fun a => sumn n2 (fun b => sumn n3 (fun i => sumn n4 (fun j => (f a b i j + g a b i j) * h a b i j)))) =
    sumn n1 (fun a => sumn n2 (fun b => sumn n3 (fun i => sumn n4 (fun j => f a b i j * h a b i j)))) +
    sumn n1 (fun a => sumn n2 (fun b => sumn n3 (fun i => sumn n4 (fun j => g a b i j * h a b i j))))).
  { intros. rewrite <- sumn_plus. apply sumn_ext. intros a _. rewrite <- sumn_plus. apply sumn_ext. intros b _.
    rewrite <- sumn_plus. apply sumn_ext. intros i _. rewrite <- sumn_plus. apply sumn_ext. intros j _. ring. }
  rewrite (D2 _ _ (x_a Z) (fun a i => i_a_ov H i a) (x_a Y)), (D2 _ _ (x_b Z) (fun a i => i_b_ov H i a) (x_b Y)),
    (D4 _ _ _ _ (x_aa Z) (fun a b i j => i_aa_oovv H i j a b) (x_aa Y)), (D4 _ _ _ _ (x_ab Z) (fun a b i j => i_ab_oovv H i j a b) (x_ab Y)),
    (D4 _ _ _ _ (x_bb Z) (fun a b i j => i_bb_oovv H i j a b) (x_bb Y)). ring.
Qed.

(** The Lagrangian E(T) + <L, residual(T)>: its derivative along Y is the contraction of Y with the vector that the left CCSD routine drives to zero *)
Theorem C62_lagrangian d H T L Y : antisym_ints H -> antisym_amps T -> antisym_amps L -> antisym_amps Y ->
  derivable_pt_lim (fun t => cc_energy d H (amps_line T Y t) + dot2 d L (ccsd_resid d H (amps_line T Y t))) 0
                   (dot2 d (left_total d true (hbar_ccsd d H T) T L) Y).
Proof.
  intros HH HT HL HY. eapply dlim_eq.
  - apply (derivable_pt_lim_plus (fun t => cc_energy d H (amps_line T Y t)) (fun t => dot2 d L (ccsd_resid d H (amps_line T Y t)))).
    + now apply C62_energy_gradient.
    + apply dot2_deriv. now apply C62_jacobian.
  - cbv beta. rewrite (adjoint_hbar d H T L Y) by assumption.
    rewrite dot2_total, r0_dot. ring.
Qed.

(** Two vectors of amplitudes with the same entries below the axis lengths *)
Record same_amps (d : dims) (X Y : amps) : Prop := {
  sa_a : forall a i, (a < nua d)%nat -> (i < noa d)%nat -> x_a X a i = x_a Y a i;
  sa_b : forall a i, (a < nub d)%nat -> (i < nob d)%nat -> x_b X a i = x_b Y a i;
  sa_aa : forall a b i j, (a < nua d)%nat -> (b < nua d)%nat -> (i < noa d)%nat -> (j < noa d)%nat -> x_aa X a b i j = x_aa Y a b i j;
  sa_ab : forall a b i j, (a < nua d)%nat -> (b < nub d)%nat -> (i < noa d)%nat -> (j < nob d)%nat -> x_ab X a b i j = x_ab Y a b i j;
  sa_bb : forall a b i j, (a < nub d)%nat -> (b < nub d)%nat -> (i < nob d)%nat -> (j < nob d)%nat -> x_bb X a b i j = x_bb Y a b i j }.
Definition zero_amps : amps := mkAmps (fun _ _ => 0) (fun _ _ => 0) (fun _ _ _ _ => 0) (fun _ _ _ _ => 0) (fun _ _ _ _ => 0)
  (fun _ _ _ _ _ _ => 0) (fun _ _ _ _ _ _ => 0) (fun _ _ _ _ _ _ => 0) (fun _ _ _ _ _ _ => 0).
(** Orbital-energy denominators (with level shift) are not zero *)
Record regular (d : dims) (s : R) (H : ints) : Prop := {
  re_a : forall a i, (a < nua d)%nat -> (i < noa d)%nat -> i_a_oo H i i - i_a_vv H a a - s <> 0;
  re_b : forall a i, (a < nub d)%nat -> (i < nob d)%nat -> i_b_oo H i i - i_b_vv H a a - s <> 0;
  re_aa : forall a b i j, (a < nua d)%nat -> (b < nua d)%nat -> (i < noa d)%nat -> (j < noa d)%nat ->
    i_a_oo H i i + i_a_oo H j j - i_a_vv H a a - i_a_vv H b b - s <> 0;
  re_ab : forall a b i j, (a < nua d)%nat -> (b < nub d)%nat -> (i < noa d)%nat -> (j < nob d)%nat ->
    i_a_oo H i i + i_b_oo H j j - i_a_vv H a a - i_b_vv H b b - s <> 0;
  re_bb : forall a b i j, (a < nub d)%nat -> (b < nub d)%nat -> (i < nob d)%nat -> (j < nob d)%nat ->
    i_b_oo H i i + i_b_oo H j j - i_b_vv H a a - i_b_vv H b b - s <> 0 }.

Lemma upd_t1_fix no nu t X fo fv s : (forall a i, (a < nu)%nat -> (i < no)%nat -> fo i i - fv a a - s <> 0) ->
  (forall a i, (a < nu)%nat -> (i < no)%nat -> fst (upd_t1 no nu t X fo fv s) a i = t a i) <->
  (forall a i, (a < nu)%nat -> (i < no)%nat -> X a i = 0).
Proof.
  intros D. split; intros E a i Ha Hi; specialize (E a i Ha Hi); specialize (D a i Ha Hi);
    assert (G := f_equal fst (upd_t1_in no nu t X fo fv s a i Ha Hi)); cbn [fst] in G.
  - rewrite G in E. apply (Rmult_eq_reg_r (/ (fo i i - fv a a - s))); [|now apply Rinv_neq_0_compat]. unfold Rdiv in E. lra.
  - rewrite G, E. unfold Rdiv. ring.
Qed.
Lemma upd_t1_id no nu t X fo fv s : (forall a i, (a < nu)%nat -> (i < no)%nat -> fst (upd_t1 no nu t X fo fv s) a i = t a i) ->
  fst (upd_t1 no nu t X fo fv s) = t.
Proof.
  intros E. apply functional_extensionality. intros a. apply functional_extensionality. intros i.
  destruct (Nat.lt_ge_cases a nu), (Nat.lt_ge_cases i no); try (now apply E); apply upd_t1_out; lia.
Qed.
Lemma upd_t2_fix no nu t X fo fv s : anti4 t ->
  (forall a b i j, (a < nu)%nat -> (b < nu)%nat -> (i < no)%nat -> (j < no)%nat -> fo i i + fo j j - fv a a - fv b b - s <> 0) ->
  (forall a b i j, (a < nu)%nat -> (b < nu)%nat -> (i < no)%nat -> (j < no)%nat -> fst (upd_t2 no nu t X fo fv s) a b i j = t a b i j) <->
  (forall a b i j, (a < nu)%nat -> (b < nu)%nat -> (i < no)%nat -> (j < no)%nat -> four_term X a b i j = 0).
Proof.
  intros Ht D. split; intros E a b i j Ha Hb Hi Hj; specialize (E a b i j Ha Hb Hi Hj); specialize (D a b i j Ha Hb Hi Hj);
    assert (G := proj1 (upd_t2_ok no nu t X fo fv s a b i j Ht Ha Hb Hi Hj)).
  - rewrite G in E. apply (Rmult_eq_reg_r (/ den2 fo fv s a b i j)); [|now apply Rinv_neq_0_compat]. unfold Rdiv in E. lra.
  - rewrite G, E. unfold Rdiv. ring.
Qed.
Lemma upd_t2_id no nu t X fo fv s :
  (forall a b i j, (a < nu)%nat -> (b < nu)%nat -> (i < no)%nat -> (j < no)%nat -> fst (upd_t2 no nu t X fo fv s) a b i j = t a b i j) ->
  fst (upd_t2 no nu t X fo fv s) = t.
Proof.
  intros E. do 4 (apply functional_extensionality; intros ?).
  match goal with |- fst _ ?a ?b ?i ?j = _ =>
    destruct (Nat.lt_ge_cases a nu), (Nat.lt_ge_cases b nu), (Nat.lt_ge_cases i no), (Nat.lt_ge_cases j no) end; try (now apply E);
    apply upd_t2_out; right; right; lia.
Qed.
Lemma upd_t2b_fix na nb ma mb t X foa fva fob fvb s :
  (forall a b i j, (a < ma)%nat -> (b < mb)%nat -> (i < na)%nat -> (j < nb)%nat -> foa i i + fob j j - fva a a - fvb b b - s <> 0) ->
  (forall a b i j, (a < ma)%nat -> (b < mb)%nat -> (i < na)%nat -> (j < nb)%nat -> fst (upd_t2b na nb ma mb t X foa fva fob fvb s) a b i j = t a b i j) <->
  (forall a b i j, (a < ma)%nat -> (b < mb)%nat -> (i < na)%nat -> (j < nb)%nat -> X a b i j = 0).
Proof.
  intros D. split; intros E a b i j Ha Hb Hi Hj; specialize (E a b i j Ha Hb Hi Hj); specialize (D a b i j Ha Hb Hi Hj);
    assert (G := f_equal fst (upd_t2b_in na nb ma mb t X foa fva fob fvb s a b i j Ha Hb Hi Hj)); cbn [fst] in G.
  - rewrite G in E. apply (Rmult_eq_reg_r (/ (foa i i + fob j j - fva a a - fvb b b - s))); [|now apply Rinv_neq_0_compat]. unfold Rdiv in E. lra.
  - rewrite G, E. unfold Rdiv. ring.
Qed.
Lemma upd_t2b_id na nb ma mb t X foa fva fob fvb s :
  (forall a b i j, (a < ma)%nat -> (b < mb)%nat -> (i < na)%nat -> (j < nb)%nat -> fst (upd_t2b na nb ma mb t X foa fva fob fvb s) a b i j = t a b i j) ->
  fst (upd_t2b na nb ma mb t X foa fva fob fvb s) = t.
Proof.
  intros E. do 4 (apply functional_extensionality; intros ?).
  match goal with |- fst _ ?a ?b ?i ?j = _ =>
    destruct (Nat.lt_ge_cases a ma), (Nat.lt_ge_cases b mb), (Nat.lt_ge_cases i na), (Nat.lt_ge_cases j nb) end; try (now apply E);
    apply upd_t2b_out; lia.
Qed.
Lemma set_a_id T : set_a T (x_a T) = T. Proof. now destruct T. Qed.
Lemma set_b_id T : set_b T (x_b T) = T. Proof. now destruct T. Qed.
Lemma set_aa_id T : set_aa T (x_aa T) = T. Proof. now destruct T. Qed.
Lemma set_ab_id T : set_ab T (x_ab T) = T. Proof. now destruct T. Qed.
Lemma set_bb_id T : set_bb T (x_bb T) = T. Proof. now destruct T. Qed.
Lemma antisym_anti4 T : antisym_amps T -> anti4 (x_aa T) /\ anti4 (x_bb T).
Proof. intros []. split; split; auto. Qed.

(** One iteration leaves the amplitudes unchanged exactly when they solve the CCSD equations *)
Theorem C51_ccsd_fixed_point d s H T : antisym_amps T -> regular d s H ->
  (same_amps d (ccsd_iter d s H T) T <-> same_amps d (ccsd_resid d H T) zero_amps).
Proof.
  intros HT [Da Db Daa Dab Dbb]. destruct (antisym_anti4 T HT) as [Aaa Abb]. split.
  - intros [Ea Eb Eaa Eab Ebb]. cbn [ccsd_iter ccsd_resid zero_amps set_a set_b set_aa set_ab set_bb x_a x_b x_aa x_ab x_bb] in Ea. apply upd_t1_id in Ea as Ia. unfold ccsd_iter in Eb, Eaa, Eab, Ebb. rewrite Ia, set_a_id in Eb, Eaa, Eab, Ebb.
    cbn [ccsd_iter ccsd_resid zero_amps set_a set_b set_aa set_ab set_bb x_a x_b x_aa x_ab x_bb] in Eb. apply upd_t1_id in Eb as Ib. rewrite Ib, set_b_id in Eaa, Eab, Ebb.
    cbn [ccsd_iter ccsd_resid zero_amps set_a set_b set_aa set_ab set_bb x_a x_b x_aa x_ab x_bb] in Eaa. apply upd_t2_id in Eaa as Iaa. rewrite Iaa, set_aa_id in Eab, Ebb.
    cbn [ccsd_iter ccsd_resid zero_amps set_a set_b set_aa set_ab set_bb x_a x_b x_aa x_ab x_bb] in Eab. apply upd_t2b_id in Eab as Iab. rewrite Iab, set_ab_id in Ebb. cbn [ccsd_iter ccsd_resid zero_amps set_a set_b set_aa set_ab set_bb x_a x_b x_aa x_ab x_bb] in Ebb.
    constructor; cbn [ccsd_resid zero_amps x_a x_b x_aa x_ab x_bb].
    + now apply (upd_t1_fix (noa d) (nua d) (x_a T) _ (i_a_oo H) (i_a_vv H) s Da).
    + now apply (upd_t1_fix (nob d) (nub d) (x_b T) _ (i_b_oo H) (i_b_vv H) s Db).
    + now apply (upd_t2_fix (noa d) (nua d) (x_aa T) _ (i_a_oo H) (i_a_vv H) s Aaa Daa).
    + now apply (upd_t2b_fix (noa d) (nob d) (nua d) (nub d) (x_ab T) _ (i_a_oo H) (i_a_vv H) (i_b_oo H) (i_b_vv H) s Dab).
    + now apply (upd_t2_fix (nob d) (nub d) (x_bb T) _ (i_b_oo H) (i_b_vv H) s Abb Dbb).
  - intros [Ea Eb Eaa Eab Ebb]. cbn [ccsd_iter ccsd_resid zero_amps set_a set_b set_aa set_ab set_bb x_a x_b x_aa x_ab x_bb] in Ea, Eb, Eaa, Eab, Ebb.
    assert (Ga := proj2 (upd_t1_fix (noa d) (nua d) (x_a T) (ccsd_res_a d H T T) (i_a_oo H) (i_a_vv H) s Da) Ea). assert (Ia := upd_t1_id _ _ _ _ _ _ _ Ga).
    assert (Gb := proj2 (upd_t1_fix (nob d) (nub d) (x_b T) (ccsd_res_b d H T T) (i_b_oo H) (i_b_vv H) s Db) Eb). assert (Ib := upd_t1_id _ _ _ _ _ _ _ Gb).
    assert (Gaa := proj2 (upd_t2_fix (noa d) (nua d) (x_aa T) (ccsd_res_aa d H T T) (i_a_oo H) (i_a_vv H) s Aaa Daa) Eaa). assert (Iaa := upd_t2_id _ _ _ _ _ _ _ Gaa).
    assert (Gab := proj2 (upd_t2b_fix (noa d) (nob d) (nua d) (nub d) (x_ab T) (ccsd_res_ab d H T T) (i_a_oo H) (i_a_vv H) (i_b_oo H) (i_b_vv H) s Dab) Eab). assert (Iab := upd_t2b_id _ _ _ _ _ _ _ _ _ _ _ Gab).
    assert (Gbb := proj2 (upd_t2_fix (nob d) (nub d) (x_bb T) (ccsd_res_bb d H T T) (i_b_oo H) (i_b_vv H) s Abb Dbb) Ebb). assert (Ibb := upd_t2_id _ _ _ _ _ _ _ Gbb).
    assert (E : ccsd_iter d s H T = T).
    { unfold ccsd_iter. rewrite Ia, set_a_id, Ib, set_b_id, Iaa, set_aa_id, Iab, set_ab_id, Ibb, set_bb_id. reflexivity. }
    rewrite E. constructor; reflexivity.
Qed.

(** The doubles update writes antisymmetric amplitudes whatever it is given *)
Theorem C51_update_antisym no nu t X fo fv s p q r u : p <> q -> r <> u -> (p < nu)%nat -> (q < nu)%nat -> (r < no)%nat -> (u < no)%nat ->
  let f := fst (upd_t2 no nu t X fo fv s) in f p q r u = - f q p r u /\ f p q r u = - f p q u r.
Proof. exact (upd_t2_anti no nu t X fo fv s p q r u). Qed.
(** ... and adds the antisymmetrised residual over the denominator to every entry of antisymmetric amplitudes *)
Theorem C51_update_value no nu t X fo fv s p q r u : (forall a b i j, t a b i j = - t b a i j /\ t a b i j = - t a b j i) ->
  (p < nu)%nat -> (q < nu)%nat -> (r < no)%nat -> (u < no)%nat ->
  fst (upd_t2 no nu t X fo fv s) p q r u =
    t p q r u + (X p q r u - X q p r u - X p q u r + X q p u r) / (fo r r + fo u u - fv p p - fv q q - s).
Proof. intros Ht Hp Hq Hr Hu. exact (proj1 (upd_t2_ok no nu t X fo fv s p q r u Ht Hp Hq Hr Hu)). Qed.

(** Left CCSD: one iteration leaves L unchanged exactly when L solves the left equations of the given root *)
Definition scale_amps (w : R) (L : amps) : amps := mkAmps (fun a i => w * x_a L a i) (fun a i => w * x_b L a i) (fun a b i j => w * x_aa L a b i j)
  (fun a b i j => w * x_ab L a b i j) (fun a b i j => w * x_bb L a b i j)
  (fun _ _ _ _ _ _ => 0) (fun _ _ _ _ _ _ => 0) (fun _ _ _ _ _ _ => 0) (fun _ _ _ _ _ _ => 0).
Record left_regular (d : dims) (w s : R) (H : ints) : Prop := {
  lr_a : forall a i, (a < nua d)%nat -> (i < noa d)%nat -> i_a_vv H a a - i_a_oo H i i - w + s <> 0;
  lr_b : forall a i, (a < nub d)%nat -> (i < nob d)%nat -> i_b_vv H a a - i_b_oo H i i - w + s <> 0;
  lr_aa : forall a b i j, (a < nua d)%nat -> (b < nua d)%nat -> (i < noa d)%nat -> (j < noa d)%nat ->
    i_a_vv H a a + i_a_vv H b b - i_a_oo H i i - i_a_oo H j j - w + s <> 0;
  lr_ab : forall a b i j, (a < nua d)%nat -> (b < nub d)%nat -> (i < noa d)%nat -> (j < nob d)%nat ->
    i_a_vv H a a + i_b_vv H b b - i_a_oo H i i - i_b_oo H j j - w + s <> 0;
  lr_bb : forall a b i j, (a < nub d)%nat -> (b < nub d)%nat -> (i < nob d)%nat -> (j < nob d)%nat ->
    i_b_vv H a a + i_b_vv H b b - i_b_oo H i i - i_b_oo H j j - w + s <> 0 }.
Lemma left_total_anti d g H T L : antisym_ints H -> anti4 (x_aa (left_total d g H T L)) /\ anti4 (x_bb (left_total d g H T L)).
Proof.
  intros HH. assert (A : anti4 (left_LH_aa_11 d H T L)) by (intros a b i j; unfold left_LH_aa_11; split; ring).
  assert (B : anti4 (left_LH_bb_11 d H T L)) by (intros a b i j; unfold left_LH_bb_11; split; ring).
  destruct g; unfold left_total, left_LH; cbn [x_aa x_bb]; [|now split].
  split; intros a b i j.
  - destruct (A a b i j) as [E F]. split; [rewrite E, (ai_aa_oovv_34 H HH i j a b)|rewrite F, (ai_aa_oovv_12 H HH i j a b)]; ring.
  - destruct (B a b i j) as [E F]. split; [rewrite E, (ai_bb_oovv_34 H HH i j a b)|rewrite F, (ai_bb_oovv_12 H HH i j a b)]; ring.
Qed.
Lemma upd_l1_val no nu l X ho hv w s a i : (a < nu)%nat -> (i < no)%nat ->
  fst (upd_l1 no nu l X ho hv w s) a i = l a i + (w * l a i - X a i) / (hv a a - ho i i - w + s).
Proof. intros Ha Hi. exact (f_equal fst (upd_l1_in no nu l X ho hv w s a i Ha Hi)). Qed.
Lemma upd_l2b_val na nb ma mb l X hoa hva hob hvb w s a b i j : (a < ma)%nat -> (b < mb)%nat -> (i < na)%nat -> (j < nb)%nat ->
  fst (upd_l2b na nb ma mb l X hoa hva hob hvb w s) a b i j = l a b i j + (w * l a b i j - X a b i j) / (hva a a + hvb b b - hoa i i - hob j j - w + s).
Proof. intros Ha Hb Hi Hj. exact (f_equal fst (upd_l2b_in na nb ma mb l X hoa hva hob hvb w s a b i j Ha Hb Hi Hj)). Qed.
Lemma fix_div (l v D : R) : D <> 0 -> (l + v / D = l <-> v = 0).
Proof.
  intros HD. split; intros E; [|rewrite E; unfold Rdiv; ring]. apply (Rmult_eq_reg_r (/ D)); [|now apply Rinv_neq_0_compat]. unfold Rdiv in E. lra.
Qed.
Theorem C51_left_fixed_point d w s g H T L : antisym_ints H -> antisym_amps L -> left_regular d w s H ->
  (same_amps d (left_iter d w s g H T L) L <-> same_amps d (left_total d g H T L) (scale_amps w L)).
Proof.
  intros HH HL [Da Db Daa Dab Dbb]. destruct (antisym_anti4 L HL) as [Aaa Abb]. destruct (left_total_anti d g H T L HH) as [Xaa Xbb].
  unfold left_iter. set (X := left_total d g H T L) in *. clearbody X.
  split; intros [Ea Eb Eaa Eab Ebb]; cbn [scale_amps x_a x_b x_aa x_ab x_bb] in *; constructor; cbn [scale_amps x_a x_b x_aa x_ab x_bb]; intros.
  all: try (specialize (Ea a i ltac:(assumption) ltac:(assumption)); specialize (Da a i ltac:(assumption) ltac:(assumption)));
       try (specialize (Eb a i ltac:(assumption) ltac:(assumption)); specialize (Db a i ltac:(assumption) ltac:(assumption)));
       try (specialize (Eaa a b i j ltac:(assumption) ltac:(assumption) ltac:(assumption) ltac:(assumption)); specialize (Daa a b i j ltac:(assumption) ltac:(assumption) ltac:(assumption) ltac:(assumption)));
       try (specialize (Eab a b i j ltac:(assumption) ltac:(assumption) ltac:(assumption) ltac:(assumption)); specialize (Dab a b i j ltac:(assumption) ltac:(assumption) ltac:(assumption) ltac:(assumption)));
       try (specialize (Ebb a b i j ltac:(assumption) ltac:(assumption) ltac:(assumption) ltac:(assumption)); specialize (Dbb a b i j ltac:(assumption) ltac:(assumption) ltac:(assumption) ltac:(assumption))).
  - rewrite upd_l1_val in Ea by assumption. apply (fix_div _ _ _ Da) in Ea. lra.
  - rewrite upd_l1_val in Eb by assumption. apply (fix_div _ _ _ Db) in Eb. lra.
  - rewrite (upd_l2_ok _ _ (x_aa L) (x_aa X) _ _ w s a b i j) in Eaa by assumption. apply (fix_div _ _ _ Daa) in Eaa. lra.
  - rewrite upd_l2b_val in Eab by assumption. apply (fix_div _ _ _ Dab) in Eab. lra.
  - rewrite (upd_l2_ok _ _ (x_bb L) (x_bb X) _ _ w s a b i j) in Ebb by assumption. apply (fix_div _ _ _ Dbb) in Ebb. lra.
  - rewrite upd_l1_val by assumption. apply (fix_div _ _ _ Da). lra.
  - rewrite upd_l1_val by assumption. apply (fix_div _ _ _ Db). lra.
  - rewrite (upd_l2_ok _ _ (x_aa L) (x_aa X) _ _ w s a b i j) by assumption. apply (fix_div _ _ _ Daa). lra.
  - rewrite upd_l2b_val by assumption. apply (fix_div _ _ _ Dab). lra.
  - rewrite (upd_l2_ok _ _ (x_bb L) (x_bb X) _ _ w s a b i j) by assumption. apply (fix_div _ _ _ Dbb). lra.
Qed.
(** A converged ground-state left vector makes the Lagrangian stationary in every direction *)
Lemma dot2_zero d X Y : same_amps d X zero_amps -> dot2 d X Y = 0.
Proof.
  intros [Ea Eb Eaa Eab Ebb]. unfold dot2, sum2, sum4.
  rewrite (sumn_0 (nua d)) by (intros; apply sumn_0; intros; rewrite Ea by assumption; cbn; ring).
  rewrite (sumn_0 (nub d)) by (intros; apply sumn_0; intros; rewrite Eb by assumption; cbn; ring).
  rewrite (sumn_0 (nua d)) by (intros; apply sumn_0; intros; apply sumn_0; intros; apply sumn_0; intros; rewrite Eaa by assumption; cbn; ring).
  rewrite (sumn_0 (nua d)) by (intros; apply sumn_0; intros; apply sumn_0; intros; apply sumn_0; intros; rewrite Eab by assumption; cbn; ring).
  rewrite (sumn_0 (nub d)) by (intros; apply sumn_0; intros; apply sumn_0; intros; apply sumn_0; intros; rewrite Ebb by assumption; cbn; ring).
  ring.
Qed.
Theorem C62_lambda_stationary d s H T L Y : antisym_ints H -> antisym_amps T -> antisym_amps L -> antisym_amps Y ->
  left_regular d 0 s (hbar_ccsd d H T) -> same_amps d (left_iter d 0 s true (hbar_ccsd d H T) T L) L ->
  derivable_pt_lim (fun t => cc_energy d H (amps_line T Y t) + dot2 d L (ccsd_resid d H (amps_line T Y t))) 0 0.
Proof.
  intros HH HT HL HY HR E. eapply dlim_eq; [now apply C62_lagrangian|]. apply dot2_zero.
  change (same_amps d (left_total d true (fix_ints (hbar_ccsd d H T)) T L) zero_amps).
  assert (F : same_amps d (left_total d true (fix_ints (hbar_ccsd d H T)) T L) (scale_amps 0 L)).
  { apply (C51_left_fixed_point d 0 s true (fix_ints (hbar_ccsd d H T)) T L).
    - apply fix_ints_antisym. now apply hbar_primary.
    - exact HL.
    - destruct HR as [Ra Rb Raa Rab Rbb]. constructor; assumption.
    - exact E. }
  destruct F as [Fa Fb Faa Fab Fbb].
  constructor; intros; [rewrite Fa|rewrite Fb|rewrite Faa|rewrite Fab|rewrite Fbb]; try assumption; cbn [scale_amps zero_amps x_a x_b x_aa x_ab x_bb]; ring.
Qed.

(** Instances: an open-shell-sized space with level energies -1 and 1 is regular whatever the two-body integrals; its zero-shift denominators are -2 and -4;
    the hypotheses of the left equations hold for the untransformed Hamiltonian and omega = 1 *)
Definition two_level (d : dims) (v : nat -> nat -> nat -> nat -> R) : ints := rhf_ints d (fun p q => if Nat.eqb p q then (if Nat.ltb p 2 then -1 else 1) else 0) v.
Example C51_instance v : (forall p q r s, v p q r s = v q p s r) ->
  let d := mkDims 2 3 2 3 in regular d 0 (two_level d v) /\ left_regular d 1 0 (two_level d v) /\ antisym_ints (two_level d v) /\ antisym_amps (prod_amps (fun p q => INR (p + 2 * q)) (fun p q => INR (p * q))).
Proof.
  intros Hv d. split; [|split; [|split; [now apply rhf_ints_antisym|apply prod_amps_antisym]]]; constructor; unfold d, two_level, rhf_ints; cbn [nua noa nub nob i_a_oo i_a_vv i_b_oo i_b_vv]; intros;
    repeat match goal with L : (?x < 3)%nat |- _ => destruct x as [|[|[|?]]]; [| | |lia]; clear L | L : (?x < 2)%nat |- _ => destruct x as [|[|?]]; [| |lia]; clear L end; cbn; lra.
Qed.
(** The residual is not trivially zero, and an iteration moves the amplitudes: with all integrals 1 in the 1x1 space the opposite-spin residual at T = 0 is 1 *)
Example C51_instance_value :
  let d := mkDims 1 1 1 1 in let H := rhf_ints d (fun p q => if Nat.eqb p q then (if Nat.eqb p 0 then -1 else 1) else 0) (fun _ _ _ _ => 1) in
  let Z := prod_amps (fun _ _ => 0) (fun _ _ => 0) in
  x_ab (ccsd_resid d H Z) 0%nat 0%nat 0%nat 0%nat = 1 /\ x_ab (ccsd_iter d 0 H Z) 0%nat 0%nat 0%nat 0%nat = - (1 / 4).
Proof. cbv -[IZR Rplus Rmult Rminus Ropp Rdiv Rinv]. split; [lra|field_simplify; lra]. Qed.
(** A direction in which the derivative of the residual is not zero *)
Example C62_instance :
  let d := mkDims 1 1 1 1 in let H := rhf_ints d (fun p q => if Nat.eqb p q then (if Nat.eqb p 0 then -1 else 1) else 0) (fun _ _ _ _ => 1) in
  let Z := prod_amps (fun _ _ => 0) (fun _ _ => 0) in let Y := prod_amps (fun _ _ => 1) (fun _ _ => 0) in
  antisym_ints H /\ antisym_amps Z /\ antisym_amps Y /\ x_a (eom_HR d (hbar_ccsd d H Z) Z Y) 0%nat 0%nat = 3.
Proof. split; [now apply rhf_ints_antisym|split; [apply prod_amps_antisym|split; [apply prod_amps_antisym|]]]. cbv -[IZR Rplus Rmult Rminus Ropp Rdiv Rinv]. lra. Qed.

Print Assumptions C62_jacobian.
Print Assumptions C62_energy_gradient.
Print Assumptions C62_lagrangian.
Print Assumptions C62_lambda_stationary.
Print Assumptions C51_ccsd_fixed_point.
Print Assumptions C51_left_fixed_point.
Print Assumptions C51_update_antisym.
Print Assumptions C51_update_value.
