(** C89: the left vectors of CCSDT and EOMCCSDT (left_ccsdt.py, left_cc_intermediates.py) belong to the same operator as the right ones. *)
From Coq Require Import Reals Arith List Bool Lra Lia QArith Qreals.
From Verif Require Import RSum IntegralsModel TensorObjs TensorAlg TensorDeriv TensorSpec EomModel LeftModel CcsdUpdate CcsdModel EomProps CcsdProps IntsFix SdtSpec CcsdtModel CcsdtUpdate EomsdtModel EomsdtReify EomsdtSpec EomsdtProofs EomsdtFock EomsdtProps LeftSdtModel LeftSdtReify.
Import ListNotations.
Close Scope Q_scope.
Open Scope R_scope.

Definition lt_sum (d : dims) (L Y : amps) : R :=
  sum2 (nua d) (noa d) (fun a i => x_a L a i * x_a Y a i)
  + sum2 (nub d) (nob d) (fun a i => x_b L a i * x_b Y a i)
  + sum4 (nua d) (nua d) (noa d) (noa d) (fun a b i j => x_aa L a b i j * x_aa Y a b i j)
  + sum4 (nua d) (nub d) (noa d) (nob d) (fun a b i j => x_ab L a b i j * x_ab Y a b i j)
  + sum4 (nub d) (nub d) (nob d) (nob d) (fun a b i j => x_bb L a b i j * x_bb Y a b i j)
  + sum6 (nua d) (nua d) (nua d) (noa d) (noa d) (noa d) (fun a b c i j k => x_aaa L a b c i j k * x_aaa Y a b c i j k)
  + sum6 (nua d) (nua d) (nub d) (noa d) (noa d) (nob d) (fun a b c i j k => x_aab L a b c i j k * x_aab Y a b c i j k)
  + sum6 (nua d) (nub d) (nub d) (noa d) (nob d) (nob d) (fun a b c i j k => x_abb L a b c i j k * x_abb Y a b c i j k)
  + sum6 (nub d) (nub d) (nub d) (nob d) (nob d) (nob d) (fun a b c i j k => x_bbb L a b c i j k * x_bbb Y a b c i j k).
Notation ltd d := (den (denv [noa d; nua d; nob d; nub d])).
Lemma ltas_syms L Q : antisym_amps L -> triples_anti L -> Forall (fun g => okalt (tenv (ltas_arrays L Q)) (fst g) (snd g)) ltas_gens.
Proof. intros HT HT3. assert (HY := HT). assert (HY3 := HT3). sym_triples HT3 HY3. Qed.
Lemma lt_halves_r d L Q : antisym_amps L -> triples_anti L -> dot3 d L (lt_asym_r Q) = lt_sum d L Q.
Proof.
  intros HL HL3.
  change (ltd d (tenv (ltas_arrays L Q)) (r_lt_asym_r 0) (venv []) = ltd d (tenv (ltas_arrays L Q)) (r_lt_plain 0) (venv [])).
  apply (same_tab_sound _ _ ltas_gens (length (ltas_arrays L Q)) ltas_tab (fun x => x) [0; 1; 2; 3]%nat);
    [vm_compute; reflexivity|reflexivity|now apply ltas_syms|vm_compute; reflexivity].
Qed.
Lemma lt_halves_l d L Q : antisym_amps L -> triples_anti L -> dot3 d L (lt_asym_l Q) = lt_sum d L Q.
Proof.
  intros HL HL3.
  change (ltd d (tenv (ltas_arrays L Q)) (r_lt_asym_l 0) (venv []) = ltd d (tenv (ltas_arrays L Q)) (r_lt_plain 0) (venv [])).
  apply (same_tab_sound _ _ ltas_gens (length (ltas_arrays L Q)) ltas_tab (fun x => x) [0; 1; 2; 3]%nat);
    [vm_compute; reflexivity|reflexivity|now apply ltas_syms|vm_compute; reflexivity].
Qed.
Lemma dot3_sym d L Y : dot3 d L Y = dot3 d Y L.
Proof. unfold dot3, dot2, sum2, sum4, sum6. repeat apply (f_equal2 Rplus); try apply (f_equal2 Rmult eq_refl); repeat (apply sumn_ext; intros ? _); ring. Qed.
Lemma lt_syms d H T L Y : antisym_ints H -> antisym_amps T -> triples_anti T -> antisym_amps L -> triples_anti L -> antisym_amps Y -> triples_anti Y ->
  Forall (fun g => okalt (tenv (lt_arrays d H T L Y)) (fst g) (snd g)) lt_gens.
Proof. intros HH HT HT3 HL HL3 HY HY3. destruct HL3 as (?&?&?&?&?&?&?&?&?&?&?&?). sym_triples HT3 HY3. Qed.
Lemma lt_sums d H T L Y : antisym_ints H -> antisym_amps T -> triples_anti T -> antisym_amps L -> triples_anti L -> antisym_amps Y -> triples_anti Y ->
  lt_sum d L (lt_pre_r d H T Y) = lt_sum d Y (lt_pre_l d H T L).
Proof.
  intros HH HT HT3 HL HL3 HY HY3.
  change (ltd d (tenv (lt_arrays d H T L Y)) (r_lt_lhs 0) (venv []) = ltd d (tenv (lt_arrays d H T L Y)) (r_lt_rhs 0) (venv [])).
  apply (same_tab_sound _ _ lt_gens (length (lt_arrays d H T L Y)) lt_tab (fun x => x) [0; 1; 2; 3]%nat);
    [vm_compute; reflexivity|reflexivity|now apply lt_syms|vm_compute; reflexivity].
Qed.

(** <L|H R> = <L H|R>, every distinct determinant counted once, for antisymmetric L and R and any dressed Hamiltonian ... *)
Theorem C89_adjoint d H T L Y : antisym_ints H -> antisym_amps T -> triples_anti T -> antisym_amps L -> triples_anti L -> antisym_amps Y -> triples_anti Y ->
  dot3 d L (eomt_HR d H T Y) = dot3 d (leftt_LH d H T L) Y.
Proof.
  intros HH HT HT3 HL HL3 HY HY3. rewrite (dot3_sym d (leftt_LH d H T L)).
  change (dot3 d L (lt_asym_r (lt_pre_r d H T Y)) = dot3 d Y (lt_asym_l (lt_pre_l d H T L))).
  rewrite lt_halves_r, lt_halves_l by assumption. now apply lt_sums.
Qed.

(** The CCSDT similarity-transformed Hamiltonian keeps the antisymmetry of its same-spin blocks *)
Lemma hbar3_primary d H T : antisym_ints H -> antisym_amps T -> triples_anti T -> primary_antisym (hbar_ccsdt d H T).
Proof.
  intros HH HT HT3.
  assert (S12 : forall (r : nat -> nat -> nat -> nat -> nat -> ex) p q r' t,
    same_tab jt_tab (fun x => x) [0; 1; 2; 3]%nat (r 4 0 1 2 3)%nat (EOpp (r 4 1 0 2 3)%nat) = true ->
    jtden d H T T (r 4 0 1 2 3)%nat (venv [p; q; r'; t]) = - jtden d H T T (r 4 1 0 2 3)%nat (venv [p; q; r'; t])).
  { intros r p q r' t E. now apply (jt_same d H T T _ _ (venv [p; q; r'; t]) HH HT HT HT3 HT3) in E. }
  assert (S34 : forall (r : nat -> nat -> nat -> nat -> nat -> ex) p q r' t,
    same_tab jt_tab (fun x => x) [0; 1; 2; 3]%nat (r 4 0 1 2 3)%nat (EOpp (r 4 0 1 3 2)%nat) = true ->
    jtden d H T T (r 4 0 1 2 3)%nat (venv [p; q; r'; t]) = - jtden d H T T (r 4 0 1 3 2)%nat (venv [p; q; r'; t])).
  { intros r p q r' t E. now apply (jt_same d H T T _ _ (venv [p; q; r'; t]) HH HT HT HT3 HT3) in E. }
  destruct HH as []. constructor; intros p q r t; cbn [hbar_ccsdt i_aa_oooo i_aa_ooov i_aa_oovv i_aa_vooo i_aa_voov i_aa_vovv i_aa_vvoo i_aa_vvov i_aa_vvvv
    i_bb_oooo i_bb_ooov i_bb_oovv i_bb_vooo i_bb_voov i_bb_vovv i_bb_vvoo i_bb_vvov i_bb_vvvv]; auto.
  - apply (S12 r_hb3_H_aa_oooo_1 p q r t). vm_compute. reflexivity.
  - apply (S34 r_hb3_H_aa_oooo_1 p q r t). vm_compute. reflexivity.
  - apply (S12 r_hb3_H_aa_ooov p q r t). vm_compute. reflexivity.
  - apply (S34 r_hb3_H_aa_vooo p q r t). vm_compute. reflexivity.
  - apply (S34 r_hb3_H_aa_vovv p q r t). vm_compute. reflexivity.
  - apply (S12 r_hb3_H_aa_vvov_1 p q r t). vm_compute. reflexivity.
  - apply (S12 r_hb3_H_aa_vvvv_1 p q r t). vm_compute. reflexivity.
  - apply (S34 r_hb3_H_aa_vvvv_1 p q r t). vm_compute. reflexivity.
  - apply (S12 r_hb3_H_bb_oooo_1 p q r t). vm_compute. reflexivity.
  - apply (S34 r_hb3_H_bb_oooo_1 p q r t). vm_compute. reflexivity.
  - apply (S12 r_hb3_H_bb_ooov p q r t). vm_compute. reflexivity.
  - apply (S34 r_hb3_H_bb_vooo p q r t). vm_compute. reflexivity.
  - apply (S34 r_hb3_H_bb_vovv p q r t). vm_compute. reflexivity.
  - apply (S12 r_hb3_H_bb_vvov_1 p q r t). vm_compute. reflexivity.
  - apply (S12 r_hb3_H_bb_vvvv_1 p q r t). vm_compute. reflexivity.
  - apply (S34 r_hb3_H_bb_vvvv_1 p q r t). vm_compute. reflexivity.
Qed.
(** ... in particular for the one the program uses *)
Theorem C89_adjoint_hbar d H T L Y : antisym_ints H -> antisym_amps T -> triples_anti T -> antisym_amps L -> triples_anti L -> antisym_amps Y -> triples_anti Y ->
  let HB := hbar_ccsdt d H T in dot3 d L (eomt_HR d HB T Y) = dot3 d (leftt_LH d HB T L) Y.
Proof.
  intros HH HT HT3 HL HL3 HY HY3 HB. change (dot3 d L (eomt_HR d (fix_ints HB) T Y) = dot3 d (leftt_LH d (fix_ints HB) T L) Y).
  apply C89_adjoint; [apply fix_ints_antisym, hbar3_primary|..]; assumption.
Qed.
(** The left vector is antisymmetric *)
Theorem C89_antisymmetric d H T L : antisym_amps (leftt_LH d H T L) /\ triples_anti (leftt_LH d H T L).
Proof.
  change (leftt_LH d H T L) with (lt_asym_l (lt_pre_l d H T L)). generalize (lt_pre_l d H T L). intros Q. split.
  - constructor; intros; cbn [lt_asym_l x_aa x_bb]; ring.
  - unfold triples_anti. repeat split; intros; cbn [lt_asym_l x_aaa x_aab x_abb x_bbb]; ring.
Qed.
Lemma dot3_root d L S Y w : same_amps3 d S (scale3 w Y) -> dot3 d L S = w * dot3 d L Y.
Proof.
  intros (R1 & R2 & R3 & R4 & R5 & R6 & R7 & R8 & R9). unfold dot3, dot2, sum2, sum4, sum6.
  rewrite !Rmult_plus_distr_l, <- !(Rmult_assoc w (1 / _)), !(Rmult_comm w (1 / _)), !Rmult_assoc.
  repeat apply (f_equal2 Rplus); try apply (f_equal2 Rmult eq_refl); repeat (rewrite <- sumn_scal; apply sumn_ext; intros ? ?);
    rewrite ?R1, ?R2, ?R3, ?R4, ?R5, ?R6, ?R7, ?R8, ?R9 by assumption; cbn [scale3 x_a x_b x_aa x_ab x_bb x_aaa x_aab x_abb x_bbb]; ring.
Qed.
(** Left and right EOMCCSDT vectors of different roots are orthogonal *)
Theorem C89_biorthogonal d H T L Y w1 w2 : antisym_ints H -> antisym_amps T -> triples_anti T -> antisym_amps L -> triples_anti L -> antisym_amps Y -> triples_anti Y ->
  let HB := hbar_ccsdt d H T in
  same_amps3 d (leftt_LH d HB T L) (scale3 w1 L) -> same_amps3 d (eomt_HR d HB T Y) (scale3 w2 Y) -> w1 <> w2 -> dot3 d L Y = 0.
Proof.
  intros HH HT HT3 HL HL3 HY HY3 HB R1 R2 Hw. assert (E := C89_adjoint_hbar d H T L Y HH HT HT3 HL HL3 HY HY3). cbn zeta in E. fold HB in E.
  rewrite (dot3_root d L _ Y w2 R2), (dot3_sym d (leftt_LH d HB T L)), (dot3_root d Y _ L w1 R1), (dot3_sym d Y L) in E.
  assert (Z : (w2 - w1) * dot3 d L Y = 0) by lra. apply Rmult_integral in Z as [Z|Z]; [exfalso; lra|exact Z].
Qed.

(** * The ground state *)
(** left_ccsdt.py, update, lines 37-43: the residual of the ground-state left equations *)
Definition leftt_total (d : dims) (H : ints) (T L : amps) : amps :=
  let X := leftt_LH d H T L in
  mkAmps (fun a i => x_a X a i + i_a_ov H i a) (fun a i => x_b X a i + i_b_ov H i a)
    (fun a b i j => x_aa X a b i j + i_aa_oovv H i j a b) (fun a b i j => x_ab X a b i j + i_ab_oovv H i j a b) (fun a b i j => x_bb X a b i j + i_bb_oovv H i j a b)
    (x_aaa X) (x_aab X) (x_abb X) (x_bbb X).
Lemma dot3_total d H T L Y : dot3 d (leftt_total d H T L) Y = dot3 d (leftt_LH d H T L) Y + r0_sum d H Y.
Proof.
  rewrite r0_dot. unfold leftt_total. generalize (leftt_LH d H T L). intros X. cbv zeta.
  unfold dot3. set (t1 := sum6 (nua d) (nua d) (nua d) _ _ _ _). set (t2 := sum6 (nua d) (nua d) (nub d) _ _ _ _). set (t3 := sum6 (nua d) (nub d) (nub d) _ _ _ _). set (t4 := sum6 (nub d) _ _ _ _ _ _).
  cbn [x_aaa x_aab x_abb x_bbb]. fold t1 t2 t3 t4.
  match goal with |- dot2 d ?Z Y + _ + _ + _ + _ = _ => assert (E : dot2 d Z Y = dot2 d X Y + dot2 d (grad_amps H) Y); [|rewrite E; ring] end.
  unfold dot2, sum2, sum4, grad_amps. cbn [x_a x_b x_aa x_ab x_bb].
  assert (D2 : forall n1 n2 (f g h : nat -> nat -> R), sumn n1 (fun a => sumn n2 (fun i => (f a i + g a i) * h a i)) =
    sumn n1 (fun a => sumn n2 (fun i => f a i * h a i)) + sumn n1 (fun a => sumn n2 (fun i => g a i * h a i))).
  { intros. rewrite <- sumn_plus. apply sumn_ext. intros a _. rewrite <- sumn_plus. apply sumn_ext. intros i _. ring. }
  assert (D4 : forall n1 n2 n3 n4 (f g h : nat -> nat -> nat -> nat -> R),
    sumn n1 (fun a => sumn n2 (fun b => sumn n3 (fun i => sumn n4 (fun j => (f a b i j + g a b i j) * h a b i j)))) =
    sumn n1 (fun a => sumn n2 (fun b => sumn n3 (fun i => sumn n4 (fun j => f a b i j * h a b i j)))) +
    sumn n1 (fun a => sumn n2 (fun b => sumn n3 (fun i => sumn n4 (fun j => g a b i j * h a b i j))))).
  { intros. rewrite <- sumn_plus. apply sumn_ext. intros a _. rewrite <- sumn_plus. apply sumn_ext. intros b _.
    rewrite <- sumn_plus. apply sumn_ext. intros i _. rewrite <- sumn_plus. apply sumn_ext. intros j _. ring. }
  rewrite (D2 _ _ (x_a X) (fun a i => i_a_ov H i a) (x_a Y)), (D2 _ _ (x_b X) (fun a i => i_b_ov H i a) (x_b Y)),
    (D4 _ _ _ _ (x_aa X) (fun a b i j => i_aa_oovv H i j a b) (x_aa Y)), (D4 _ _ _ _ (x_ab X) (fun a b i j => i_ab_oovv H i j a b) (x_ab Y)),
    (D4 _ _ _ _ (x_bb X) (fun a b i j => i_bb_oovv H i j a b) (x_bb Y)). ring.
Qed.
Lemma dot3_deriv d L F G : jacobian3 F G -> derivable_pt_lim (fun t => dot3 d L (F t)) 0 (dot3 d L G).
Proof.
  intros []. unfold dot3, dot2, sum2, sum4, sum6.
  repeat (apply (derivable_pt_lim_plus (fun t => _) (fun t => _)));
    try (apply (derivable_pt_lim_scal (fun t => _)));
    repeat (apply (derivable_sumn _ (fun _ t => _)); intros ?); apply (derivable_pt_lim_scal (fun t => _)); auto.
Qed.
(** The Lagrangian E(T) + <L, residual(T)> of CCSDT: its derivative along Y is the contraction of Y with the ground-state left residual *)
Theorem C89_lagrangian d H T L Y : antisym_ints H -> antisym_amps T -> triples_anti T -> antisym_amps L -> triples_anti L -> antisym_amps Y -> triples_anti Y ->
  derivable_pt_lim (fun t => cc_energy d H (amps_line T Y t) + dot3 d L (ccsdt_resid d H (amps_line T Y t))) 0 (dot3 d (leftt_total d (hbar_ccsdt d H T) T L) Y).
Proof.
  intros HH HT HT3 HL HL3 HY HY3. eapply dlim_eq.
  - apply (derivable_pt_lim_plus (fun t => cc_energy d H (amps_line T Y t)) (fun t => dot3 d L (ccsdt_resid d H (amps_line T Y t)))).
    + now apply C85_energy_gradient.
    + apply dot3_deriv. now apply C85_jacobian.
  - cbv beta. rewrite (C89_adjoint_hbar d H T L Y) by assumption. rewrite dot3_total. ring.
Qed.
Lemma dot3_zero d X Y : same_amps3 d X zero_amps -> dot3 d X Y = 0.
Proof.
  intros HX. assert (E : same_amps3 d X (scale3 0 X)).
  { destruct HX as (R1 & R2 & R3 & R4 & R5 & R6 & R7 & R8 & R9).
    unfold same_amps3. cbn [scale3 x_a x_b x_aa x_ab x_bb x_aaa x_aab x_abb x_bbb].
    repeat apply conj; intros; [rewrite R1|rewrite R2|rewrite R3|rewrite R4|rewrite R5|rewrite R6|rewrite R7|rewrite R8|rewrite R9]; try assumption; cbn [zero_amps x_a x_b x_aa x_ab x_bb x_aaa x_aab x_abb x_bbb]; ring. }
  rewrite dot3_sym, (dot3_root d Y X X 0 E). ring.
Qed.
Lemma sumn_sq0 n f : (forall i, (i < n)%nat -> 0 <= f i) -> sumn n f = 0 -> forall i, (i < n)%nat -> f i = 0.
Proof. exact (sumn_nonneg_0 n f). Qed.
Ltac nn := repeat (apply sumn_nonneg; intros ? _); apply Rle_0_sqr.
Lemma dot3_definite d X : dot3 d X X = 0 -> same_amps3 d X zero_amps.
Proof.
  unfold dot3, dot2, sum2, sum4, sum6.
  match goal with |- ?s1 + ?s2 + 1 / 4 * ?s3 + ?s4 + 1 / 4 * ?s5 + 1 / 36 * ?s6 + 1 / 4 * ?s7 + 1 / 4 * ?s8 + 1 / 36 * ?s9 = 0 -> _ =>
    assert (N1 : 0 <= s1) by nn; assert (N2 : 0 <= s2) by nn; assert (N3 : 0 <= s3) by nn; assert (N4 : 0 <= s4) by nn; assert (N5 : 0 <= s5) by nn;
    assert (N6 : 0 <= s6) by nn; assert (N7 : 0 <= s7) by nn; assert (N8 : 0 <= s8) by nn; assert (N9 : 0 <= s9) by nn;
    intros E; assert (E1 : s1 = 0) by lra; assert (E2 : s2 = 0) by lra; assert (E3 : s3 = 0) by lra; assert (E4 : s4 = 0) by lra; assert (E5 : s5 = 0) by lra;
    assert (E6 : s6 = 0) by lra; assert (E7 : s7 = 0) by lra; assert (E8 : s8 = 0) by lra; assert (E9 : s9 = 0) by lra; clear E N1 N2 N3 N4 N5 N6 N7 N8 N9
  end.
  unfold same_amps3. cbn [zero_amps x_a x_b x_aa x_ab x_bb x_aaa x_aab x_abb x_bbb].
  split; [|split; [|split; [|split; [|split; [|split; [|split; [|split]]]]]]]; intros.
  all: apply Rsqr_0_uniq; unfold Rsqr.
  - apply (fun P => sumn_sq0 _ _ P E1 a) in H; [|intros; nn]. now apply (fun P => sumn_sq0 _ _ P H i) in H0; [|intros; nn].
  - apply (fun P => sumn_sq0 _ _ P E2 a) in H; [|intros; nn]. now apply (fun P => sumn_sq0 _ _ P H i) in H0; [|intros; nn].
  - apply (fun P => sumn_sq0 _ _ P E3 a) in H; [|intros; nn]. apply (fun P => sumn_sq0 _ _ P H b) in H0; [|intros; nn]. apply (fun P => sumn_sq0 _ _ P H0 i) in H1; [|intros; nn]. now apply (fun P => sumn_sq0 _ _ P H1 j) in H2; [|intros; nn].
  - apply (fun P => sumn_sq0 _ _ P E4 a) in H; [|intros; nn]. apply (fun P => sumn_sq0 _ _ P H b) in H0; [|intros; nn]. apply (fun P => sumn_sq0 _ _ P H0 i) in H1; [|intros; nn]. now apply (fun P => sumn_sq0 _ _ P H1 j) in H2; [|intros; nn].
  - apply (fun P => sumn_sq0 _ _ P E5 a) in H; [|intros; nn]. apply (fun P => sumn_sq0 _ _ P H b) in H0; [|intros; nn]. apply (fun P => sumn_sq0 _ _ P H0 i) in H1; [|intros; nn]. now apply (fun P => sumn_sq0 _ _ P H1 j) in H2; [|intros; nn].
  - apply (fun P => sumn_sq0 _ _ P E6 a) in H; [|intros; nn]. apply (fun P => sumn_sq0 _ _ P H b) in H0; [|intros; nn]. apply (fun P => sumn_sq0 _ _ P H0 c) in H1; [|intros; nn]. apply (fun P => sumn_sq0 _ _ P H1 i) in H2; [|intros; nn]. apply (fun P => sumn_sq0 _ _ P H2 j) in H3; [|intros; nn]. now apply (fun P => sumn_sq0 _ _ P H3 k) in H4; [|intros; nn].
  - apply (fun P => sumn_sq0 _ _ P E7 a) in H; [|intros; nn]. apply (fun P => sumn_sq0 _ _ P H b) in H0; [|intros; nn]. apply (fun P => sumn_sq0 _ _ P H0 c) in H1; [|intros; nn]. apply (fun P => sumn_sq0 _ _ P H1 i) in H2; [|intros; nn]. apply (fun P => sumn_sq0 _ _ P H2 j) in H3; [|intros; nn]. now apply (fun P => sumn_sq0 _ _ P H3 k) in H4; [|intros; nn].
  - apply (fun P => sumn_sq0 _ _ P E8 a) in H; [|intros; nn]. apply (fun P => sumn_sq0 _ _ P H b) in H0; [|intros; nn]. apply (fun P => sumn_sq0 _ _ P H0 c) in H1; [|intros; nn]. apply (fun P => sumn_sq0 _ _ P H1 i) in H2; [|intros; nn]. apply (fun P => sumn_sq0 _ _ P H2 j) in H3; [|intros; nn]. now apply (fun P => sumn_sq0 _ _ P H3 k) in H4; [|intros; nn].
  - apply (fun P => sumn_sq0 _ _ P E9 a) in H; [|intros; nn]. apply (fun P => sumn_sq0 _ _ P H b) in H0; [|intros; nn]. apply (fun P => sumn_sq0 _ _ P H0 c) in H1; [|intros; nn]. apply (fun P => sumn_sq0 _ _ P H1 i) in H2; [|intros; nn]. apply (fun P => sumn_sq0 _ _ P H2 j) in H3; [|intros; nn]. now apply (fun P => sumn_sq0 _ _ P H3 k) in H4; [|intros; nn].
Qed.
Lemma total_anti d H T L : (forall i j a b, i_aa_oovv H i j a b = - i_aa_oovv H j i a b) -> (forall i j a b, i_aa_oovv H i j a b = - i_aa_oovv H i j b a) ->
  (forall i j a b, i_bb_oovv H i j a b = - i_bb_oovv H j i a b) -> (forall i j a b, i_bb_oovv H i j a b = - i_bb_oovv H i j b a) ->
  antisym_amps (leftt_total d H T L) /\ triples_anti (leftt_total d H T L).
Proof.
  intros A1 A2 A3 A4. destruct (C89_antisymmetric d H T L) as (B & C). split; [|exact C].
  unfold leftt_total. cbv zeta. destruct B. constructor; intros; cbn [x_aa x_bb].
  - rewrite aa_aa_12, A2; ring.
  - rewrite aa_aa_34, A1; ring.
  - rewrite aa_bb_12, A4; ring.
  - rewrite aa_bb_34, A3; ring.
Qed.
(** The ground-state left equations of CCSDT hold exactly when the Lagrangian is stationary in every direction *)
Theorem C89_stationary d H T L : antisym_ints H -> antisym_amps T -> triples_anti T -> antisym_amps L -> triples_anti L ->
  (same_amps3 d (leftt_total d (hbar_ccsdt d H T) T L) zero_amps <->
   forall Y, antisym_amps Y -> triples_anti Y -> derivable_pt_lim (fun t => cc_energy d H (amps_line T Y t) + dot3 d L (ccsdt_resid d H (amps_line T Y t))) 0 0).
Proof.
  intros HH HT HT3 HL HL3. split.
  - intros E Y HY HY3. eapply dlim_eq; [now apply C89_lagrangian|]. now apply dot3_zero.
  - intros S. destruct (hbar3_primary d H T HH HT HT3) as [].
    destruct (total_anti d (hbar_ccsdt d H T) T L pa_aa_oovv_12 pa_aa_oovv_34 pa_bb_oovv_12 pa_bb_oovv_34) as (TA & TT).
    apply dot3_definite.
    exact (uniqueness_limite _ 0 _ _ (C89_lagrangian d H T L _ HH HT HT3 HL HL3 TA TT) (S _ TA TT)).
Qed.

From Verif Require Import FockCcSpec FockProj CcsdtProps.
(** A case: the levels and the vector of C85_instance, as left and as right vector; both sides of the identity are -4 times its squared length, which is not zero *)
Example C89_instance : let H := fock_ints 2 1 I_lev in let HB := hbar_ccsdt d_lev H T_lev in
  antisym_ints H /\ antisym_amps T_lev /\ triples_anti T_lev /\ antisym_amps Y_lev /\ triples_anti Y_lev /\
  dot3 d_lev Y_lev (eomt_HR d_lev HB T_lev Y_lev) = -4 * dot3 d_lev Y_lev Y_lev /\ dot3 d_lev Y_lev Y_lev <> 0 /\ x_aab T_lev 0%nat 1%nat 0%nat 0%nat 1%nat 0%nat = / 2.
Proof.
  destruct C85_instance as (_ & E2 & E3 & E4 & E5 & E6 & _ & E8 & E9 & E10 & _). intros H HB.
  split; [exact (fock_ints_antisym _ _ _ E2)|]. split; [exact E3|]. split; [exact E4|]. split; [exact E5|]. split; [exact E6|]. split; [now apply dot3_root|]. split; [|exact E9].
  intros Z. apply dot3_definite in Z as (Z & _). specialize (Z 0%nat 1%nat ltac:(cbn; lia) ltac:(cbn; lia)). rewrite E10 in Z. change (3 = 0) in Z. lra.
Qed.
Print Assumptions C89_stationary.
