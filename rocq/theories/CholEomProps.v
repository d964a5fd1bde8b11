(** C84: EOMCCSD and left CCSD with Cholesky vectors use the same similarity-transformed Hamiltonian, and give the same sigma vectors, as the dense routines. *)
From Coq Require Import Reals Arith List Bool Lra Lia FunctionalExtensionality.
From Verif Require Import RSum IntegralsModel IntegralsSpec IntegralsProps TensorObjs TensorAlg TensorSpec IntsFix LoopModel CcsdModel CcsdUpdate LeftModel CcsdProps EomModel RhfProps FockSpec FockCcSpec FockProj FockProps FockEom FockEomProps CholLoops CholModel CholUpdate CholProofs CholProps CholEomModel CholEomReify CholHbarProofs CholEomSpec CholEomProofs.
Import ListNotations.
Open Scope R_scope.

Lemma fn2 (f g : mat2) : (forall p q, f p q = g p q) -> f = g. Proof. intros E. extensionality p. extensionality q. apply E. Qed.
Lemma fn4 (f g : mat4) : (forall p q r t, f p q r t = g p q r t) -> f = g. Proof. intros E. extensionality p. extensionality q. extensionality r. extensionality t. apply E. Qed.
(** The sigma-vector routines read the provided blocks only *)
Section Reads.
Variables (A B : ints) (P : provided_equal A B).
Lemma pe_a_oo : i_a_oo A = i_a_oo B. Proof. apply fn2. exact (proj1 P Al Oc Oc ltac:(discriminate)). Qed.
Lemma pe_a_ov : i_a_ov A = i_a_ov B. Proof. apply fn2. exact (proj1 P Al Oc Un ltac:(discriminate)). Qed.
Lemma pe_a_vv : i_a_vv A = i_a_vv B. Proof. apply fn2. exact (proj1 P Al Un Un ltac:(discriminate)). Qed.
Lemma pe_b_oo : i_b_oo A = i_b_oo B. Proof. apply fn2. exact (proj1 P Be Oc Oc ltac:(discriminate)). Qed.
Lemma pe_b_ov : i_b_ov A = i_b_ov B. Proof. apply fn2. exact (proj1 P Be Oc Un ltac:(discriminate)). Qed.
Lemma pe_b_vv : i_b_vv A = i_b_vv B. Proof. apply fn2. exact (proj1 P Be Un Un ltac:(discriminate)). Qed.
Lemma pe_aa_oooo : i_aa_oooo A = i_aa_oooo B. Proof. apply fn4. exact (proj2 P AA Oc Oc Oc Oc eq_refl). Qed.
Lemma pe_aa_ooov : i_aa_ooov A = i_aa_ooov B. Proof. apply fn4. exact (proj2 P AA Oc Oc Oc Un eq_refl). Qed.
Lemma pe_aa_oovv : i_aa_oovv A = i_aa_oovv B. Proof. apply fn4. exact (proj2 P AA Oc Oc Un Un eq_refl). Qed.
Lemma pe_aa_vooo : i_aa_vooo A = i_aa_vooo B. Proof. apply fn4. exact (proj2 P AA Un Oc Oc Oc eq_refl). Qed.
Lemma pe_aa_voov : i_aa_voov A = i_aa_voov B. Proof. apply fn4. exact (proj2 P AA Un Oc Oc Un eq_refl). Qed.
Lemma pe_aa_vovv : i_aa_vovv A = i_aa_vovv B. Proof. apply fn4. exact (proj2 P AA Un Oc Un Un eq_refl). Qed.
Lemma pe_aa_vvov : i_aa_vvov A = i_aa_vvov B. Proof. apply fn4. exact (proj2 P AA Un Un Oc Un eq_refl). Qed.
Lemma pe_ab_oooo : i_ab_oooo A = i_ab_oooo B. Proof. apply fn4. exact (proj2 P AB Oc Oc Oc Oc eq_refl). Qed.
Lemma pe_ab_ooov : i_ab_ooov A = i_ab_ooov B. Proof. apply fn4. exact (proj2 P AB Oc Oc Oc Un eq_refl). Qed.
Lemma pe_ab_oovo : i_ab_oovo A = i_ab_oovo B. Proof. apply fn4. exact (proj2 P AB Oc Oc Un Oc eq_refl). Qed.
Lemma pe_ab_oovv : i_ab_oovv A = i_ab_oovv B. Proof. apply fn4. exact (proj2 P AB Oc Oc Un Un eq_refl). Qed.
Lemma pe_ab_ovoo : i_ab_ovoo A = i_ab_ovoo B. Proof. apply fn4. exact (proj2 P AB Oc Un Oc Oc eq_refl). Qed.
Lemma pe_ab_ovov : i_ab_ovov A = i_ab_ovov B. Proof. apply fn4. exact (proj2 P AB Oc Un Oc Un eq_refl). Qed.
Lemma pe_ab_ovvo : i_ab_ovvo A = i_ab_ovvo B. Proof. apply fn4. exact (proj2 P AB Oc Un Un Oc eq_refl). Qed.
Lemma pe_ab_ovvv : i_ab_ovvv A = i_ab_ovvv B. Proof. apply fn4. exact (proj2 P AB Oc Un Un Un eq_refl). Qed.
Lemma pe_ab_vooo : i_ab_vooo A = i_ab_vooo B. Proof. apply fn4. exact (proj2 P AB Un Oc Oc Oc eq_refl). Qed.
Lemma pe_ab_voov : i_ab_voov A = i_ab_voov B. Proof. apply fn4. exact (proj2 P AB Un Oc Oc Un eq_refl). Qed.
Lemma pe_ab_vovo : i_ab_vovo A = i_ab_vovo B. Proof. apply fn4. exact (proj2 P AB Un Oc Un Oc eq_refl). Qed.
Lemma pe_ab_vovv : i_ab_vovv A = i_ab_vovv B. Proof. apply fn4. exact (proj2 P AB Un Oc Un Un eq_refl). Qed.
Lemma pe_ab_vvov : i_ab_vvov A = i_ab_vvov B. Proof. apply fn4. exact (proj2 P AB Un Un Oc Un eq_refl). Qed.
Lemma pe_ab_vvvo : i_ab_vvvo A = i_ab_vvvo B. Proof. apply fn4. exact (proj2 P AB Un Un Un Oc eq_refl). Qed.
Lemma pe_bb_oooo : i_bb_oooo A = i_bb_oooo B. Proof. apply fn4. exact (proj2 P BB Oc Oc Oc Oc eq_refl). Qed.
Lemma pe_bb_ooov : i_bb_ooov A = i_bb_ooov B. Proof. apply fn4. exact (proj2 P BB Oc Oc Oc Un eq_refl). Qed.
Lemma pe_bb_oovv : i_bb_oovv A = i_bb_oovv B. Proof. apply fn4. exact (proj2 P BB Oc Oc Un Un eq_refl). Qed.
Lemma pe_bb_vooo : i_bb_vooo A = i_bb_vooo B. Proof. apply fn4. exact (proj2 P BB Un Oc Oc Oc eq_refl). Qed.
Lemma pe_bb_voov : i_bb_voov A = i_bb_voov B. Proof. apply fn4. exact (proj2 P BB Un Oc Oc Un eq_refl). Qed.
Lemma pe_bb_vovv : i_bb_vovv A = i_bb_vovv B. Proof. apply fn4. exact (proj2 P BB Un Oc Un Un eq_refl). Qed.
Lemma pe_bb_vvov : i_bb_vvov A = i_bb_vvov B. Proof. apply fn4. exact (proj2 P BB Un Un Oc Un eq_refl). Qed.
Lemma reads (X : Type) (F : ints -> X) : (forall y_a_oo y_a_ov y_a_vo y_a_vv y_b_oo y_b_ov y_b_vo y_b_vv y_aa_oooo y_aa_ooov y_aa_oovo y_aa_oovv y_aa_ovoo y_aa_ovov y_aa_ovvo y_aa_ovvv y_aa_vooo y_aa_voov y_aa_vovo y_aa_vovv y_aa_vvoo y_aa_vvov y_aa_vvvo y_aa_vvvv y_ab_oooo y_ab_ooov y_ab_oovo y_ab_oovv y_ab_ovoo y_ab_ovov y_ab_ovvo y_ab_ovvv y_ab_vooo y_ab_voov y_ab_vovo y_ab_vovv y_ab_vvoo y_ab_vvov y_ab_vvvo y_ab_vvvv y_bb_oooo y_bb_ooov y_bb_oovo y_bb_oovv y_bb_ovoo y_bb_ovov y_bb_ovvo y_bb_ovvv y_bb_vooo y_bb_voov y_bb_vovo y_bb_vovv y_bb_vvoo y_bb_vvov y_bb_vvvo y_bb_vvvv u_a_vo u_b_vo u_aa_oovo u_aa_ovoo u_aa_ovov u_aa_ovvo u_aa_ovvv u_aa_vovo u_aa_vvoo u_aa_vvvo u_aa_vvvv u_ab_vvoo u_ab_vvvv u_bb_oovo u_bb_ovoo u_bb_ovov u_bb_ovvo u_bb_ovvv u_bb_vovo u_bb_vvoo u_bb_vvvo u_bb_vvvv,
  F (mkInts y_a_oo y_a_ov y_a_vo y_a_vv y_b_oo y_b_ov y_b_vo y_b_vv y_aa_oooo y_aa_ooov y_aa_oovo y_aa_oovv y_aa_ovoo y_aa_ovov y_aa_ovvo y_aa_ovvv y_aa_vooo y_aa_voov y_aa_vovo y_aa_vovv y_aa_vvoo y_aa_vvov y_aa_vvvo y_aa_vvvv y_ab_oooo y_ab_ooov y_ab_oovo y_ab_oovv y_ab_ovoo y_ab_ovov y_ab_ovvo y_ab_ovvv y_ab_vooo y_ab_voov y_ab_vovo y_ab_vovv y_ab_vvoo y_ab_vvov y_ab_vvvo y_ab_vvvv y_bb_oooo y_bb_ooov y_bb_oovo y_bb_oovv y_bb_ovoo y_bb_ovov y_bb_ovvo y_bb_ovvv y_bb_vooo y_bb_voov y_bb_vovo y_bb_vovv y_bb_vvoo y_bb_vvov y_bb_vvvo y_bb_vvvv) = F (mkInts y_a_oo y_a_ov u_a_vo y_a_vv y_b_oo y_b_ov u_b_vo y_b_vv y_aa_oooo y_aa_ooov u_aa_oovo y_aa_oovv u_aa_ovoo u_aa_ovov u_aa_ovvo u_aa_ovvv y_aa_vooo y_aa_voov u_aa_vovo y_aa_vovv u_aa_vvoo y_aa_vvov u_aa_vvvo u_aa_vvvv y_ab_oooo y_ab_ooov y_ab_oovo y_ab_oovv y_ab_ovoo y_ab_ovov y_ab_ovvo y_ab_ovvv y_ab_vooo y_ab_voov y_ab_vovo y_ab_vovv u_ab_vvoo y_ab_vvov y_ab_vvvo u_ab_vvvv y_bb_oooo y_bb_ooov u_bb_oovo y_bb_oovv u_bb_ovoo u_bb_ovov u_bb_ovvo u_bb_ovvv y_bb_vooo y_bb_voov u_bb_vovo y_bb_vovv u_bb_vvoo y_bb_vvov u_bb_vvvo u_bb_vvvv)) -> F A = F B.
Proof.
  intros R. assert (QA : A = mkInts (i_a_oo A) (i_a_ov A) (i_a_vo A) (i_a_vv A) (i_b_oo A) (i_b_ov A) (i_b_vo A) (i_b_vv A) (i_aa_oooo A) (i_aa_ooov A) (i_aa_oovo A) (i_aa_oovv A) (i_aa_ovoo A) (i_aa_ovov A) (i_aa_ovvo A) (i_aa_ovvv A) (i_aa_vooo A) (i_aa_voov A) (i_aa_vovo A) (i_aa_vovv A) (i_aa_vvoo A) (i_aa_vvov A) (i_aa_vvvo A) (i_aa_vvvv A) (i_ab_oooo A) (i_ab_ooov A) (i_ab_oovo A) (i_ab_oovv A) (i_ab_ovoo A) (i_ab_ovov A) (i_ab_ovvo A) (i_ab_ovvv A) (i_ab_vooo A) (i_ab_voov A) (i_ab_vovo A) (i_ab_vovv A) (i_ab_vvoo A) (i_ab_vvov A) (i_ab_vvvo A) (i_ab_vvvv A) (i_bb_oooo A) (i_bb_ooov A) (i_bb_oovo A) (i_bb_oovv A) (i_bb_ovoo A) (i_bb_ovov A) (i_bb_ovvo A) (i_bb_ovvv A) (i_bb_vooo A) (i_bb_voov A) (i_bb_vovo A) (i_bb_vovv A) (i_bb_vvoo A) (i_bb_vvov A) (i_bb_vvvo A) (i_bb_vvvv A)) by (destruct A; reflexivity).
  assert (QB : B = mkInts (i_a_oo B) (i_a_ov B) (i_a_vo B) (i_a_vv B) (i_b_oo B) (i_b_ov B) (i_b_vo B) (i_b_vv B) (i_aa_oooo B) (i_aa_ooov B) (i_aa_oovo B) (i_aa_oovv B) (i_aa_ovoo B) (i_aa_ovov B) (i_aa_ovvo B) (i_aa_ovvv B) (i_aa_vooo B) (i_aa_voov B) (i_aa_vovo B) (i_aa_vovv B) (i_aa_vvoo B) (i_aa_vvov B) (i_aa_vvvo B) (i_aa_vvvv B) (i_ab_oooo B) (i_ab_ooov B) (i_ab_oovo B) (i_ab_oovv B) (i_ab_ovoo B) (i_ab_ovov B) (i_ab_ovvo B) (i_ab_ovvv B) (i_ab_vooo B) (i_ab_voov B) (i_ab_vovo B) (i_ab_vovv B) (i_ab_vvoo B) (i_ab_vvov B) (i_ab_vvvo B) (i_ab_vvvv B) (i_bb_oooo B) (i_bb_ooov B) (i_bb_oovo B) (i_bb_oovv B) (i_bb_ovoo B) (i_bb_ovov B) (i_bb_ovvo B) (i_bb_ovvv B) (i_bb_vooo B) (i_bb_voov B) (i_bb_vovo B) (i_bb_vovv B) (i_bb_vvoo B) (i_bb_vvov B) (i_bb_vvvo B) (i_bb_vvvv B)) by (destruct B; reflexivity).
  rewrite QA, QB, <- pe_a_oo, <- pe_a_ov, <- pe_a_vv, <- pe_b_oo, <- pe_b_ov, <- pe_b_vv, <- pe_aa_oooo, <- pe_aa_ooov, <- pe_aa_oovv, <- pe_aa_vooo, <- pe_aa_voov, <- pe_aa_vovv, <- pe_aa_vvov, <- pe_ab_oooo, <- pe_ab_ooov, <- pe_ab_oovo, <- pe_ab_oovv, <- pe_ab_ovoo, <- pe_ab_ovov, <- pe_ab_ovvo, <- pe_ab_ovvv, <- pe_ab_vooo, <- pe_ab_voov, <- pe_ab_vovo, <- pe_ab_vovv, <- pe_ab_vvov, <- pe_ab_vvvo, <- pe_bb_oooo, <- pe_bb_ooov, <- pe_bb_oovv, <- pe_bb_vooo, <- pe_bb_voov, <- pe_bb_vovv, <- pe_bb_vvov. apply R.
Qed.
Lemma reads_HR d nx C T Y : chol_HR d nx C A T Y = chol_HR d nx C B T Y. Proof. apply (reads _ (fun H => chol_HR d nx C H T Y)). reflexivity. Qed.
Lemma reads_LH d nx C T Y : chol_LH d nx C A T Y = chol_LH d nx C B T Y. Proof. apply (reads _ (fun H => chol_LH d nx C H T Y)). reflexivity. Qed.
Lemma reads_rHR d nx C T Y : rchol_HR d nx C A T Y = rchol_HR d nx C B T Y. Proof. apply (reads _ (fun H => rchol_HR d nx C H T Y)). reflexivity. Qed.
Lemma reads_rLH d nx C T Y : rchol_LH d nx C A T Y = rchol_LH d nx C B T Y. Proof. apply (reads _ (fun H => rchol_LH d nx C H T Y)). reflexivity. Qed.
Lemma reads_r0 d Y w : get_r0 d A Y w = get_r0 d B Y w. Proof. apply (reads _ (fun H => get_r0 d H Y w)). reflexivity. Qed.
End Reads.
Lemma pe_sym A B : provided_equal A B -> provided_equal B A.
Proof. intros [P Q]. split; intros; symmetry; auto. Qed.
Lemma pe_trans A B D : provided_equal A B -> provided_equal B D -> provided_equal A D.
Proof.
  intros [P Q] [P' Q']. split; [intros sp x y N p q; now rewrite P, P' by assumption|intros c w x y z E p q r t; now rewrite Q, Q' by assumption].
Qed.
Lemma pe_fix A : provided_equal A (fix_ints A).
Proof. split; [intros [] [] [] N p q; try reflexivity; exfalso; now apply N|intros [] [] [] [] [] E p q r t; try discriminate E; reflexivity]. Qed.

Section C84.
Variables (nx : nat) (e1 : mat2) (L : mat3) (s : sysd).
Let d := sys_dims s.
Let C := chol_of s L.
Let H := fock_ints (s_noa s) (s_nob s) (valence e1 (dense_of nx L) (s_nf s)).

(** Every block the Cholesky routine provides is that of the dense similarity-transformed Hamiltonian, whose vvvv blocks are the products of the dressed
    vectors plus the contribution of the double excitations *)
Theorem C84_hbar T : antisym_amps T ->
  let V := chol_dressed d nx C H T in
  let HB := hbar_ccsd d H T in
  provided_equal (chol_hbar d nx C H T) HB /\
  (forall p q r t, i_aa_vvvv HB p q r t = vvvv_same (noa d) nx (c_a_vv V) (i_aa_oovv H) (x_aa T) p q r t) /\
  (forall p q r t, i_ab_vvvv HB p q r t = vvvv_opp (noa d) (nob d) nx (c_a_vv V) (c_b_vv V) (i_ab_oovv H) (x_ab T) p q r t) /\
  (forall p q r t, i_bb_vvvv HB p q r t = vvvv_same (nob d) nx (c_b_vv V) (i_bb_oovv H) (x_bb T) p q r t).
Proof.
  intros HT V HB. split; [|split; [|split]]; [|exact (op_aa_vvvv nx e1 L s T HT)|exact (op_ab_vvvv nx e1 L s T HT)|exact (op_bb_vvvv nx e1 L s T HT)].
  split.
  - intros [] [] [] N p q; try (exfalso; now apply N); symmetry;
    [exact (op_a_oo nx e1 L s T HT p q)|exact (op_a_ov nx e1 L s T HT p q)|exact (op_a_vv nx e1 L s T HT p q)|exact (op_b_oo nx e1 L s T HT p q)|exact (op_b_ov nx e1 L s T HT p q)|exact (op_b_vv nx e1 L s T HT p q)].
  - intros [] [] [] [] [] E p q r t; try discriminate E; symmetry;
    [exact (op_aa_oooo nx e1 L s T HT p q r t)|exact (op_aa_ooov nx e1 L s T HT p q r t)|exact (op_aa_oovv nx e1 L s T HT p q r t)|exact (op_aa_vooo nx e1 L s T HT p q r t)|exact (op_aa_voov nx e1 L s T HT p q r t)|exact (op_aa_vovv nx e1 L s T HT p q r t)|exact (op_aa_vvov nx e1 L s T HT p q r t)|exact (op_ab_oooo nx e1 L s T HT p q r t)|exact (op_ab_ooov nx e1 L s T HT p q r t)|exact (op_ab_oovo nx e1 L s T HT p q r t)|exact (op_ab_oovv nx e1 L s T HT p q r t)|exact (op_ab_ovoo nx e1 L s T HT p q r t)|exact (op_ab_ovov nx e1 L s T HT p q r t)|exact (op_ab_ovvo nx e1 L s T HT p q r t)|exact (op_ab_ovvv nx e1 L s T HT p q r t)|exact (op_ab_vooo nx e1 L s T HT p q r t)|exact (op_ab_voov nx e1 L s T HT p q r t)|exact (op_ab_vovo nx e1 L s T HT p q r t)|exact (op_ab_vovv nx e1 L s T HT p q r t)|exact (op_ab_vvov nx e1 L s T HT p q r t)|exact (op_ab_vvvo nx e1 L s T HT p q r t)|exact (op_bb_oooo nx e1 L s T HT p q r t)|exact (op_bb_ooov nx e1 L s T HT p q r t)|exact (op_bb_oovv nx e1 L s T HT p q r t)|exact (op_bb_vooo nx e1 L s T HT p q r t)|exact (op_bb_voov nx e1 L s T HT p q r t)|exact (op_bb_vovv nx e1 L s T HT p q r t)|exact (op_bb_vvov nx e1 L s T HT p q r t)].
Qed.
Lemma dense_ints : antisym_ints H. Proof. apply fock_ints_antisym. split; intros; cbn; unfold dense_of; apply sumn_ext; intros; ring. Qed.
Theorem C84_right T Y HB : antisym_amps T -> antisym_amps Y -> provided_equal HB (chol_hbar d nx C H T) ->
  same_amps d (chol_HR d nx (chol_dressed d nx C H T) HB T Y) (eom_HR d (hbar_ccsd d H T) T Y).
Proof.
  intros HT HY P. destruct (C84_hbar T HT) as (B & V1 & V2 & V3). cbv zeta in V1, V2, V3.
  set (V := chol_dressed d nx C H T) in *. set (HD := hbar_ccsd d H T) in *.
  assert (P' : provided_equal HB (fix_ints HD)) by (apply (pe_trans _ _ _ P), (pe_trans _ _ _ B), pe_fix).
  rewrite (reads_HR _ _ P'). apply fn4 in V1. apply fn4 in V2. apply fn4 in V3.
  assert (AH : antisym_ints (fix_ints HD)) by (apply fix_ints_antisym, hbar_primary; [exact dense_ints|exact HT]).
  assert (Oa := o_HR_a d nx V (fix_ints HD) T Y AH HT HY). assert (Ob := o_HR_b d nx V (fix_ints HD) T Y AH HT HY).
  assert (Oaa := o_HR_aa d nx V (fix_ints HD) T Y AH HT HY). assert (Oab := o_HR_ab d nx V (fix_ints HD) T Y AH HT HY). assert (Obb := o_HR_bb d nx V (fix_ints HD) T Y AH HT HY).
  change (i_aa_oovv (fix_ints HD)) with (i_aa_oovv H) in *. change (i_ab_oovv (fix_ints HD)) with (i_ab_oovv H) in *. change (i_bb_oovv (fix_ints HD)) with (i_bb_oovv H) in *.
  rewrite <- V1, <- V2, <- V3 in Oa, Ob, Oaa, Oab, Obb.
  constructor; intros; [apply Oa|apply Ob|apply Oaa|apply Oab|apply Obb]; assumption.
Qed.
Theorem C84_left T Y HB : antisym_amps T -> antisym_amps Y -> provided_equal HB (chol_hbar d nx C H T) ->
  same_amps d (chol_LH d nx (chol_dressed d nx C H T) HB T Y) (left_LH d (hbar_ccsd d H T) T Y).
Proof.
  intros HT HY P. destruct (C84_hbar T HT) as (B & V1 & V2 & V3). cbv zeta in V1, V2, V3.
  set (V := chol_dressed d nx C H T) in *. set (HD := hbar_ccsd d H T) in *.
  assert (P' : provided_equal HB (fix_ints HD)) by (apply (pe_trans _ _ _ P), (pe_trans _ _ _ B), pe_fix).
  rewrite (reads_LH _ _ P'). apply fn4 in V1. apply fn4 in V2. apply fn4 in V3.
  assert (AH : antisym_ints (fix_ints HD)) by (apply fix_ints_antisym, hbar_primary; [exact dense_ints|exact HT]).
  assert (Oa := o_LH_a d nx V (fix_ints HD) T Y AH HT HY). assert (Ob := o_LH_b d nx V (fix_ints HD) T Y AH HT HY).
  assert (Oaa := o_LH_aa d nx V (fix_ints HD) T Y AH HT HY). assert (Oab := o_LH_ab d nx V (fix_ints HD) T Y AH HT HY). assert (Obb := o_LH_bb d nx V (fix_ints HD) T Y AH HT HY).
  change (i_aa_oovv (fix_ints HD)) with (i_aa_oovv H) in *. change (i_ab_oovv (fix_ints HD)) with (i_ab_oovv H) in *. change (i_bb_oovv (fix_ints HD)) with (i_bb_oovv H) in *.
  rewrite <- V1, <- V2, <- V3 in Oa, Ob, Oaa, Oab, Obb.
  constructor; intros; [apply Oa|apply Ob|apply Oaa|apply Oab|apply Obb]; assumption.
Qed.

(** For converged amplitudes an eigenvector of the Cholesky routine is a state that satisfies the Schroedinger equation projected on all determinants within
    double excitations, with the eigenvalue as excitation energy *)
Theorem C84_eomccsd T Y shift w m : (s_noa s <= s_norb s)%nat -> (s_nob s <= s_norb s)%nat -> antisym_amps T -> antisym_amps Y -> (4 <= m)%nat -> w <> 0 ->
  let HB := chol_hbar d nx C H T in
  let h p q := h_a (valence e1 (dense_of nx L) (s_nf s)) p q in
  let e p q r t := dense_of nx L (s_nf s + p)%nat (s_nf s + q)%nat (s_nf s + r)%nat (s_nf s + t)%nat in
  let phi := eom_state d T Y (get_r0 d HB Y w) m in
  regular d shift H -> same_amps d (chol_iter d nx shift C H T) T ->
  (same_amps d (chol_HR d nx (chol_dressed d nx C H T) HB T Y) (scale_amps w Y) <->
   forall D, near (s_norb s) (reference (s_noa s) (s_nob s)) D ->
     hamiltonian_r (s_norb s) h e phi D = (hf_energy_chol nx e1 L s + cc_energy d H T + w - frozen_core_energy e1 (dense_of nx L) s) * phi D).
Proof.
  intros Ha Hb HT HY Hm Hw HB h e phi Rg Fx. assert (Fd := proj1 (C83_fixed_point nx e1 L s shift T HT Rg) Fx).
  assert (Sy : forall p q r t, dense_of nx L p q r t = dense_of nx L q p t r) by (intros; unfold dense_of; apply sumn_ext; intros; ring).
  destruct (C64_eomccsd e1 (dense_of nx L) s T Y shift w m Sy Ha Hb HT HY Hm Hw Rg Fd) as [_ E].
  rewrite C34_hf_energy. unfold phi, HB. rewrite (reads_r0 _ _ (proj1 (C84_hbar T HT))). refine (iff_trans _ E). clear E.
  destruct (C84_right T Y (chol_hbar d nx C H T) HT HY) as [E1 E2 E3 E4 E5]; [split; reflexivity|].
  split; intros [F1 F2 F3 F4 F5]; constructor; intros;
    [rewrite <- E1|rewrite <- E2|rewrite <- E3|rewrite <- E4|rewrite <- E5|rewrite E1|rewrite E2|rewrite E3|rewrite E4|rewrite E5]; auto.
Qed.

Lemma chol_closed : s_noa s = s_nob s -> closed_shell d H.
Proof.
  intros Hn. constructor; [exact Hn|cbn; lia|exact dense_ints|].
  constructor; intros; unfold H; cbn [fock_ints i_a_oo i_a_ov i_a_vo i_a_vv i_b_oo i_b_ov i_b_vo i_b_vv]; try (rewrite ?(fock_same nx e1 L s Hn), ?Hn; reflexivity);
    cbn -[Nat.add valence dense_of anti_aa anti_bb sys_dims]; rewrite ?Hn; try reflexivity; unfold valence; cbn [w_ab]; unfold dense_of; apply sumn_ext; intros; ring.
Qed.
(** Closed shell: with the flag for spin symmetry set, Hbar and the sigma vectors of spin-symmetric amplitudes are the unrestricted dense ones *)
Theorem C84_closed_shell T Y HB : s_noa s = s_nob s -> singlet T -> singlet Y -> provided_equal HB (rchol_hbar d nx C H T) ->
  provided_equal HB (hbar_ccsd d H T) /\
  same_amps d (rchol_HR d nx (rchol_dressed d nx C H T) HB T Y) (eom_HR d (hbar_ccsd d H T) T Y) /\
  same_amps d (rchol_LH d nx (rchol_dressed d nx C H T) HB T Y) (left_LH d (hbar_ccsd d H T) T Y).
Proof.
  intros Hn ST SY P.
  assert (B : provided_equal (rchol_hbar d nx C H T) (hbar_ccsd d H T)).
  { split.
    - intros [] [] [] N p q; try (exfalso; now apply N); symmetry;
      [exact (cl_a_oo nx e1 L s T Hn ST p q)|exact (cl_a_ov nx e1 L s T Hn ST p q)|exact (cl_a_vv nx e1 L s T Hn ST p q)|exact (cl_b_oo nx e1 L s T Hn ST p q)|exact (cl_b_ov nx e1 L s T Hn ST p q)|exact (cl_b_vv nx e1 L s T Hn ST p q)].
    - intros [] [] [] [] [] E p q r t; try discriminate E; symmetry;
      [exact (cl_aa_oooo nx e1 L s T Hn ST p q r t)|exact (cl_aa_ooov nx e1 L s T Hn ST p q r t)|exact (cl_aa_oovv nx e1 L s T Hn ST p q r t)|exact (cl_aa_vooo nx e1 L s T Hn ST p q r t)|exact (cl_aa_voov nx e1 L s T Hn ST p q r t)|exact (cl_aa_vovv nx e1 L s T Hn ST p q r t)|exact (cl_aa_vvov nx e1 L s T Hn ST p q r t)|exact (cl_ab_oooo nx e1 L s T Hn ST p q r t)|exact (cl_ab_ooov nx e1 L s T Hn ST p q r t)|exact (cl_ab_oovo nx e1 L s T Hn ST p q r t)|exact (cl_ab_oovv nx e1 L s T Hn ST p q r t)|exact (cl_ab_ovoo nx e1 L s T Hn ST p q r t)|exact (cl_ab_ovov nx e1 L s T Hn ST p q r t)|exact (cl_ab_ovvo nx e1 L s T Hn ST p q r t)|exact (cl_ab_ovvv nx e1 L s T Hn ST p q r t)|exact (cl_ab_vooo nx e1 L s T Hn ST p q r t)|exact (cl_ab_voov nx e1 L s T Hn ST p q r t)|exact (cl_ab_vovo nx e1 L s T Hn ST p q r t)|exact (cl_ab_vovv nx e1 L s T Hn ST p q r t)|exact (cl_ab_vvov nx e1 L s T Hn ST p q r t)|exact (cl_ab_vvvo nx e1 L s T Hn ST p q r t)|exact (cl_bb_oooo nx e1 L s T Hn ST p q r t)|exact (cl_bb_ooov nx e1 L s T Hn ST p q r t)|exact (cl_bb_oovv nx e1 L s T Hn ST p q r t)|exact (cl_bb_vooo nx e1 L s T Hn ST p q r t)|exact (cl_bb_voov nx e1 L s T Hn ST p q r t)|exact (cl_bb_vovv nx e1 L s T Hn ST p q r t)|exact (cl_bb_vvov nx e1 L s T Hn ST p q r t)]. }
  assert (V1 := cl_aa_vvvv nx e1 L s T Hn ST). assert (V2 := cl_ab_vvvv nx e1 L s T Hn ST). assert (V3 := cl_bb_vvvv nx e1 L s T Hn ST).
  fold d C H in V1, V2, V3. split; [now apply (pe_trans _ _ _ P)|].
  assert (CS : closed_shell d H) by exact (chol_closed Hn).
  set (V := rchol_dressed d nx C H T) in *. set (HD := hbar_ccsd d H T) in *.
  assert (P' : provided_equal HB (fix_ints HD)) by (apply (pe_trans _ _ _ P), (pe_trans _ _ _ B), pe_fix).
  rewrite (reads_rHR _ _ P'), (reads_rLH _ _ P'). apply fn4 in V1. apply fn4 in V2. apply fn4 in V3.
  assert (AH : antisym_ints (fix_ints HD)) by (apply fix_ints_antisym, hbar_primary; [exact dense_ints|exact (sg_anti T ST)]).
  assert (CH : closed_ints (fix_ints HD)) by exact (hbar_closed d H T CS ST).
  assert (K4 : forall x p q, c_b_vv V x p q = c_a_vv V x p q) by reflexivity.
  destruct ST as [HT CT], SY as [HY CY]. assert (Hu : nua d = nub d) by (cbn; lia).
  change (i_aa_oovv H) with (i_aa_oovv (fix_ints HD)) in V1. change (i_ab_oovv H) with (i_ab_oovv (fix_ints HD)) in V2. change (i_bb_oovv H) with (i_bb_oovv (fix_ints HD)) in V3.
  split.
  - assert (Oa := r_HR_a d nx V (fix_ints HD) T Y Hn Hu AH CH HT HY CT CY K4). assert (Ob := r_HR_b d nx V (fix_ints HD) T Y Hn Hu AH CH HT HY CT CY K4).
    assert (Oaa := r_HR_aa d nx V (fix_ints HD) T Y Hn Hu AH CH HT HY CT CY K4). assert (Oab := r_HR_ab d nx V (fix_ints HD) T Y Hn Hu AH CH HT HY CT CY K4). assert (Obb := r_HR_bb d nx V (fix_ints HD) T Y Hn Hu AH CH HT HY CT CY K4).
    rewrite <- V1, <- V2, <- V3 in Oa, Ob, Oaa, Oab, Obb. constructor; intros; [apply Oa|apply Ob|apply Oaa|apply Oab|apply Obb]; assumption.
  - assert (Oa := r_LH_a d nx V (fix_ints HD) T Y Hn Hu AH CH HT HY CT CY K4). assert (Ob := r_LH_b d nx V (fix_ints HD) T Y Hn Hu AH CH HT HY CT CY K4).
    assert (Oaa := r_LH_aa d nx V (fix_ints HD) T Y Hn Hu AH CH HT HY CT CY K4). assert (Oab := r_LH_ab d nx V (fix_ints HD) T Y Hn Hu AH CH HT HY CT CY K4). assert (Obb := r_LH_bb d nx V (fix_ints HD) T Y Hn Hu AH CH HT HY CT CY K4).
    rewrite <- V1, <- V2, <- V3 in Oa, Ob, Oaa, Oab, Obb. constructor; intros; [apply Oa|apply Ob|apply Oaa|apply Oab|apply Obb]; assumption.
Qed.
End C84.

(** The system of C83_instance: converged amplitudes and a sigma vector that is not zero *)
Definition cx_Y : amps := mkAmps (fun _ _ => 1) (fun _ _ => 1) (fun _ _ _ _ => 0) (fun _ _ _ _ => 2) (fun _ _ _ _ => 0)
  (fun _ _ _ _ _ _ => 0) (fun _ _ _ _ _ _ => 0) (fun _ _ _ _ _ _ => 0) (fun _ _ _ _ _ _ => 0).
Example C84_instance : let d := sys_dims cx_sys in let C := chol_of cx_sys cx_L in let H := fock_ints 1 1 (valence cx_e1 (dense_of 1 cx_L) 0) in
  singlet cx_T /\ singlet cx_Y /\ same_amps d (chol_iter d 1 0 C H cx_T) cx_T /\ x_ab (chol_HR d 1 (chol_dressed d 1 C H cx_T) (chol_hbar d 1 C H cx_T) cx_T cx_Y) 0%nat 0%nat 0%nat 0%nat = 5.
Proof.
  cbv zeta. destruct C83_instance as (S & _ & F & _). split; [exact S|]. split; [split; constructor; intros; cbn; ring|]. split; [exact F|].
  cbv -[IZR Rplus Rmult Rminus Ropp Rdiv Rinv]. field_simplify. lra.
Qed.
Print Assumptions C84_eomccsd.
