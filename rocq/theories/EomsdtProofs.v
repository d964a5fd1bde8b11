(** EOMCCSDT: the vector computed by HR is the derivative of the CCSDT residual. *)
From Coq Require Import Reals Arith List Lra Lia FunctionalExtensionality.
From Verif Require Import RSum IntegralsModel TensorObjs TensorAlg TensorDeriv TensorSpec EomModel CcsdUpdate CcsdModel EomProps CcsdProps SdtSpec CcsdtModel CcsdtUpdate EomsdtModel EomsdtNorm EomsdtReify EomsdtSpec.
Import ListNotations.
Open Scope R_scope.

Notation jtden d H T Y := (den (denv [noa d; nua d; nob d; nub d]) (tenv (jt_arrays d H T Y))).
Ltac sym_triples HT HY :=
  destruct HT as (?&?&?&?&?&?&?&?&?&?&?&?); destruct HY as (?&?&?&?&?&?&?&?&?&?&?&?); sym_all.
Lemma jt_syms d H T Y : antisym_ints H -> antisym_amps T -> antisym_amps Y -> triples_anti T -> triples_anti Y ->
  Forall (fun g => okalt (tenv (jt_arrays d H T Y)) (fst g) (snd g)) jt_gens.
Proof. intros HH HT HY HT3 HY3. sym_triples HT3 HY3. Qed.
Lemma jt_line d H T Y t k l : tenv (jt_arrays d H (amps_line T Y t) Y) k l =
  tenv (jt_arrays d H T Y) k l + t * match jt_dm k with Some k' => tenv (jt_arrays d H T Y) k' l | None => 0 end.
Proof.
  do 70 (destruct k as [|k]; [cbn; repeat (destruct l as [|? l]; cbn; try ring)|]).
  all: cbn; rewrite ?nth_overflow by (simpl; lia); ring.
Qed.
Lemma jt_same d H T Y e1 e2 v : antisym_ints H -> antisym_amps T -> antisym_amps Y -> triples_anti T -> triples_anti Y ->
  same_tab jt_tab (fun x => x) [0; 1; 2; 3]%nat e1 e2 = true -> jtden d H T Y e1 v = jtden d H T Y e2 v.
Proof.
  intros HH HT HY HT3 HY3 E. apply (same_tab_sound _ _ jt_gens (length (jt_arrays d H T Y)) jt_tab (fun x => x) [0; 1; 2; 3]%nat);
    [vm_compute; reflexivity|reflexivity|now apply jt_syms|exact E].
Qed.
Lemma jt_deriv d H T Y e1 e2 v : antisym_ints H -> antisym_amps T -> antisym_amps Y -> triples_anti T -> triples_anti Y ->
  same_tab jt_tab (fun x => x) [0; 1; 2; 3]%nat (oex (dex jt_dm e1)) e2 = true ->
  derivable_pt_lim (fun t => jtden d H (amps_line T Y t) Y e1 v) 0 (jtden d H T Y e2 v).
Proof.
  intros HH HT HY HT3 HY3 E. eapply dlim_eq;
  [exact (dex_ok (denv [noa d; nua d; nob d; nub d]) jt_dm (fun t => tenv (jt_arrays d H (amps_line T Y t) Y)) (tenv (jt_arrays d H T Y)) (jt_line d H T Y) e1 v)|].
  now apply jt_same.
Qed.
Definition four_ex (r : nat -> nat -> nat -> nat -> nat -> ex) : ex := (EAdd (ESub (ESub (r 4 0 1 2 3) (r 4 1 0 2 3)) (r 4 0 1 3 2)) (r 4 1 0 3 2))%nat.
Definition dl6 (F : R -> mat6) (G : mat6) := forall a b c i j k, derivable_pt_lim (fun t => F t a b c i j k) 0 (G a b c i j k).
Ltac dlc := first [apply derivable_pt_lim_plus; [dlc|] | apply derivable_pt_lim_minus; [dlc|] | idtac].
Lemma comb3_dl F G : dl6 F G -> dl6 (fun t => comb3 (F t)) (comb3 G).
Proof. intros K a b c i j k. unfold comb3. repeat first [apply (derivable_pt_lim_plus (fun t => _) (fun t => F t _ _ _ _ _ _)) | apply (derivable_pt_lim_minus (fun t => _) (fun t => F t _ _ _ _ _ _)) | apply K]. Qed.
Lemma comb3b_dl F G : dl6 F G -> dl6 (fun t => comb3b (F t)) (comb3b G).
Proof. intros K a b c i j k. unfold comb3b. repeat first [apply (derivable_pt_lim_plus (fun t => _) (fun t => F t _ _ _ _ _ _)) | apply (derivable_pt_lim_minus (fun t => _) (fun t => F t _ _ _ _ _ _)) | apply K]. Qed.
Lemma comb3c_dl F G : dl6 F G -> dl6 (fun t => comb3c (F t)) (comb3c G).
Proof. intros K a b c i j k. unfold comb3c. repeat first [apply (derivable_pt_lim_plus (fun t => _) (fun t => F t _ _ _ _ _ _)) | apply (derivable_pt_lim_minus (fun t => _) (fun t => F t _ _ _ _ _ _)) | apply K]. Qed.
Lemma X3A_fin d H T Y a b c i j k : eomt_X3A_19 d H T Y a b c i j k = comb3 (eomt_X3A_15 d H T Y) a b c i j k.
Proof. unfold eomt_X3A_19, eomt_X3A_18, eomt_X3A_17, eomt_X3A_16. generalize (eomt_X3A_15 d H T Y). intros F. unfold comb3. ring. Qed.
Lemma X3D_fin d H T Y a b c i j k : eomt_X3D_19 d H T Y a b c i j k = comb3 (eomt_X3D_15 d H T Y) a b c i j k.
Proof. unfold eomt_X3D_19, eomt_X3D_18, eomt_X3D_17, eomt_X3D_16. generalize (eomt_X3D_15 d H T Y). intros F. unfold comb3. ring. Qed.
Lemma X3B_fin d H T Y a b c i j k : eomt_X3B_41 d H T Y a b c i j k = comb3b (eomt_X3B_39 d H T Y) a b c i j k.
Proof. unfold eomt_X3B_41, eomt_X3B_40. generalize (eomt_X3B_39 d H T Y). intros F. unfold comb3b. ring. Qed.
Lemma X3C_fin d H T Y a b c i j k : eomt_X3C_41 d H T Y a b c i j k = comb3c (eomt_X3C_39 d H T Y) a b c i j k.
Proof. unfold eomt_X3C_41, eomt_X3C_40. generalize (eomt_X3C_39 d H T Y). intros F. unfold comb3c. ring. Qed.
Lemma jac3 d H T Y : antisym_ints H -> antisym_amps T -> antisym_amps Y -> triples_anti T -> triples_anti Y ->
  jacobian3 (fun t => ccsdt_resid d H (amps_line T Y t)) (eomt_HR d (hbar_ccsdt d H T) T Y).
Proof.
  intros HH HT HY HT3 HY3.
  assert (D := fun e1 e2 v => jt_deriv d H T Y e1 e2 v HH HT HY HT3 HY3).
  constructor; intros; cbn [ccsdt_resid eomt_HR x_a x_b x_aa x_ab x_bb x_aaa x_aab x_abb x_bbb].
  - apply (D (r_ccsdt_res_a 2 0 1) (r_eomt_X1A_12 2 0 1) (venv [a; i]))%nat. vm_compute. reflexivity.
  - apply (D (r_ccsdt_res_b 2 0 1) (r_eomt_X1B_12 2 0 1) (venv [a; i]))%nat. vm_compute. reflexivity.
  - apply (D (four_ex r_ccsdt_res_aa) (r_eomt_X2A_19 4 0 1 2 3) (venv [a; b; i; j]))%nat. vm_compute. reflexivity.
  - apply (D (r_ccsdt_res_ab 4 0 1 2 3) (r_eomt_X2B_31 4 0 1 2 3) (venv [a; b; i; j]))%nat. vm_compute. reflexivity.
  - apply (D (four_ex r_ccsdt_res_bb) (r_eomt_X2C_19 4 0 1 2 3) (venv [a; b; i; j]))%nat. vm_compute. reflexivity.
  - rewrite X3A_fin, <- X3A_norm. revert a b c i j k. apply comb3_dl. intros a b c i j k.
    apply (D (r_ccsdt_res_aaa 6 0 1 2 3 4 5) (r_eomn_X3Af 6 0 1 2 3 4 5) (venv [a; b; c; i; j; k]))%nat. vm_compute. reflexivity.
  - rewrite X3B_fin, <- X3B_norm. revert a b c i j k. apply comb3b_dl. intros a b c i j k.
    apply (D (r_ccsdt_res_aab 6 0 1 2 3 4 5) (r_eomn_X3Bf 6 0 1 2 3 4 5) (venv [a; b; c; i; j; k]))%nat. vm_compute. reflexivity.
  - rewrite X3C_fin, <- X3C_norm. revert a b c i j k. apply comb3c_dl. intros a b c i j k.
    apply (D (r_ccsdt_res_abb 6 0 1 2 3 4 5) (r_eomn_X3Cf 6 0 1 2 3 4 5) (venv [a; b; c; i; j; k]))%nat. vm_compute. reflexivity.
  - rewrite X3D_fin, <- X3D_norm. revert a b c i j k. apply comb3_dl. intros a b c i j k.
    apply (D (r_ccsdt_res_bbb 6 0 1 2 3 4 5) (r_eomn_X3Df 6 0 1 2 3 4 5) (venv [a; b; c; i; j; k]))%nat. vm_compute. reflexivity.
Qed.
