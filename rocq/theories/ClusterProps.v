(** C53: cluster analysis of a CI wave function. *)
From Coq Require Import Reals List Arith Bool Lia Lra.
From Verif Require Import RSum IntegralsModel TensorObjs TensorSpec CcsdModel PspaceSpec ScatterModel ClusterModel ClusterSpec ClusterAlg ClusterForm ClusterLog ClusterProofs.
Import ListNotations.
Open Scope R_scope.

(** Every wave function in intermediate normalisation is the exponential of a cluster operator, through quadruples. *)
Theorem C53_ci_is_exp : forall W, normalised_wf W ->
  exists T, cluster_op T /\ forall P H, (length P <= 4)%nat -> cexp T P H = W P H.
Proof. intros W HW. exists (clog W). split; [now apply clog_cluster|now apply exp_log]. Qed.

(** The cluster operator is unique through quadruples. *)
Theorem C53_unique : forall T T', cluster_op T -> cluster_op T' ->
  (forall P H, (length P <= 4)%nat -> cexp T P H = cexp T' P H) -> forall P H, (length P <= 4)%nat -> T P H = T' P H.
Proof.
  intros T T' HT HT' E.
  assert (Z : T [] [] = 0) by apply HT. assert (Z' : T' [] [] = 0) by apply HT'.
  assert (E1 : forall a i, T [a] [i] = T' [a] [i]).
  { intros a i. generalize (E [a] [i]). rewrite !exp1 by assumption. intros K. apply K. cbn; lia. }
  assert (E2 : forall a b i j, T [a; b] [i; j] = T' [a; b] [i; j]).
  { intros a b i j. generalize (E [a; b] [i; j]). rewrite !exp2 by assumption. intros K. rewrite !E1 in K. eapply Rplus_eq_reg_l. apply K. cbn; lia. }
  assert (E3 : forall a b c i j k, T [a; b; c] [i; j; k] = T' [a; b; c] [i; j; k]).
  { intros a b c i j k. generalize (E [a; b; c] [i; j; k]). rewrite !exp3 by assumption. intros K. rewrite !E2, !E1 in K. eapply Rplus_eq_reg_l. apply K. cbn; lia. }
  assert (E4 : forall a b c d i j k l, T [a; b; c; d] [i; j; k; l] = T' [a; b; c; d] [i; j; k; l]).
  { intros a b c d i j k l. generalize (E [a; b; c; d] [i; j; k; l]). rewrite !exp4 by assumption. intros K. rewrite !E3, !E2, !E1 in K. eapply Rplus_eq_reg_l. apply K. cbn; lia. }
  intros P H L. destruct (Nat.eq_dec (length P) (length H)) as [Q|Q].
  - destruct P as [|a [|b [|c [|e [|]]]]], H as [|i [|j [|k [|m [|]]]]]; cbn in L, Q; try lia; auto. now rewrite Z, Z'.
  - rewrite (anti_length T P H), (anti_length T' P H); try assumption; [reflexivity|apply HT'|apply HT].
Qed.

(** Given the coefficients of exp(T), the analysis returns the amplitudes of T: singles, doubles and triples in all spin cases
    at the determinants with a nonzero coefficient, and the listed quadruples. *)
Theorem C53_returns_T : forall d order T C Q, (order <= 3)%nat -> cluster_op T -> ci_of d (cexp T) C -> quads_of d (cexp T) Q ->
  exists X q, cluster_analyze d order C Q = Some (X, q) /\ amplitudes_of d T C X /\ quadruples_of T Q q.
Proof.
  intros d order T C Q Ho HT HC HQ. unfold cluster_analyze.
  destruct (res_aa d T HT C HC) as (X1 & -> & A1), (res_ab d T HT C HC) as (X2 & -> & A2), (res_bb d T HT C HC) as (X3 & -> & A3).
  destruct (res_aaa d T HT C HC) as (X4 & -> & A4), (res_aab d T HT C HC) as (X5 & -> & A5), (res_abb d T HT C HC) as (X6 & -> & A6), (res_bbb d T HT C HC) as (X7 & -> & A7).
  replace (3 <? order)%nat with false by (symmetry; apply Nat.ltb_ge; lia).
  eexists _, _. split; [reflexivity|]. split.
  - assert (Z : T [] [] = 0) by apply HT.
    constructor; cbn [c_a c_b c_aa c_ab c_bb c_aaa c_aab c_abb c_bbb]; try assumption;
      intros l Hl; [rewrite (of_a _ _ _ HC l Hl)|rewrite (of_b _ _ _ HC l Hl)];
      pose proof (inb_len _ _ Hl) as Ll; cbn [length] in Ll; destruct l as [|a [|i [|]]]; try discriminate Ll;
      unfold block; cbn [length firstn skipn combine]; now apply exp1.
  - destruct HQ as [Q1 Q2 Q3 Q4 Q5]. constructor; cbn [r_aaaa r_aaab r_aabb r_abbb r_bbbb].
    + now apply (res_aaaa d T HT C HC). + now apply (res_aaab d T HT C HC). + now apply (res_aabb d T HT C HC).
    + now apply (res_abbb d T HT C HC). + now apply (res_bbbb d T HT C HC).
Qed.

(** From a CI wave function: when every determinant within doubles that the cluster operator touches is present, the CC energy of
    the analysed amplitudes is the CI energy. *)
Lemma sum4_ext : forall n m p q (f g : nat -> nat -> nat -> nat -> R),
  (forall a b c e, (a < n)%nat -> (b < m)%nat -> (c < p)%nat -> (e < q)%nat -> f a b c e = g a b c e) ->
  sumn n (fun a => sumn m (fun b => sumn p (fun c => sumn q (fun e => f a b c e)))) =
  sumn n (fun a => sumn m (fun b => sumn p (fun c => sumn q (fun e => g a b c e)))).
Proof. intros. repeat (apply sumn_ext; intros). auto. Qed.
Lemma sum4_plus : forall n m p q (f g : nat -> nat -> nat -> nat -> R),
  sumn n (fun a => sumn m (fun b => sumn p (fun c => sumn q (fun e => f a b c e + g a b c e)))) =
  sumn n (fun a => sumn m (fun b => sumn p (fun c => sumn q (fun e => f a b c e)))) +
  sumn n (fun a => sumn m (fun b => sumn p (fun c => sumn q (fun e => g a b c e)))).
Proof.
  intros. rewrite <- sumn_plus. apply sumn_ext. intros. rewrite <- sumn_plus. apply sumn_ext. intros.
  rewrite <- sumn_plus. apply sumn_ext. intros. now rewrite <- sumn_plus.
Qed.
Lemma same_spin : forall no nu (v : mat4) (t : mat2) (t2 : mat4), (forall m n e f, v m n e f = - v n m e f) ->
  1 / 4 * sumn no (fun m => sumn no (fun n => sumn nu (fun e => sumn nu (fun f => v m n e f * (t e m * t f n - t e n * t f m + t2 e f m n))))) =
  1 / 4 * sumn no (fun m => sumn no (fun n => sumn nu (fun e => sumn nu (fun f => v m n e f * t2 e f m n)))) +
  1 / 2 * sumn no (fun m => sumn no (fun n => sumn nu (fun e => sumn nu (fun f => v m n e f * t f n * t e m)))).
Proof.
  intros no nu v t t2 Hv.
  rewrite (sum4_ext _ _ _ _ _ (fun m n e f => v m n e f * t2 e f m n + (v m n e f * t f n * t e m + v n m e f * t f m * t e n))).
  2:{ intros m n e f _ _ _ _. rewrite (Hv n m e f). ring. }
  rewrite !sum4_plus.
  rewrite (sumn_swap no no (fun m n => sumn nu (fun e => sumn nu (fun f => v n m e f * t f m * t e n)))). field.
Qed.
Theorem C53_energy : forall d H order T C Q X q, antisym_ints H -> (order <= 3)%nat -> cluster_op T -> ci_of d (cexp T) C -> quads_of d (cexp T) Q ->
  doubles_present d T C -> cluster_analyze d order C Q = Some (X, q) -> cc_energy d H (as_amps X) = ci_energy d H (as_amps C).
Proof.
  intros d H order T C Q X q HH Ho HT HC HQ (D1 & D2 & D3) E.
  destruct (C53_returns_T d order T C Q Ho HT HC HQ) as (X' & q' & E' & A & _). rewrite E in E'. inversion E'. subst X' q'. clear E'.
  assert (Z : T [] [] = 0) by apply HT.
  assert (V1 : forall a i, (a < nua d)%nat -> (i < noa d)%nat -> c_a C [a; i] = c_a X [a; i]).
  { intros a i Ha Hi. rewrite (am_a _ _ _ _ A), (of_a _ _ _ HC) by mkin. unfold block. cbn [length firstn skipn combine]. now apply exp1. }
  assert (V2 : forall a i, (a < nub d)%nat -> (i < nob d)%nat -> c_b C [a; i] = c_b X [a; i]).
  { intros a i Ha Hi. rewrite (am_b _ _ _ _ A), (of_b _ _ _ HC) by mkin. unfold block. cbn [length firstn skipn combine]. now apply exp1. }
  assert (W1 : forall a b i j, (a < nua d)%nat -> (b < nua d)%nat -> (i < noa d)%nat -> (j < noa d)%nat ->
    c_aa C [a; b; i; j] = c_a X [a; i] * c_a X [b; j] - c_a X [a; j] * c_a X [b; i] + c_aa X [a; b; i; j]).
  { intros a b i j Ha Hb Hi Hj. rewrite (am_aa _ _ _ _ A), D1, (of_aa _ _ _ HC), !(am_a _ _ _ _ A) by mkin. unfold block. cbn [length firstn skipn combine aa]. now apply exp2. }
  assert (W3 : forall a b i j, (a < nub d)%nat -> (b < nub d)%nat -> (i < nob d)%nat -> (j < nob d)%nat ->
    c_bb C [a; b; i; j] = c_b X [a; i] * c_b X [b; j] - c_b X [a; j] * c_b X [b; i] + c_bb X [a; b; i; j]).
  { intros a b i j Ha Hb Hi Hj. rewrite (am_bb _ _ _ _ A), D3, (of_bb _ _ _ HC), !(am_b _ _ _ _ A) by mkin. unfold block. cbn [length firstn skipn combine bb]. now apply exp2. }
  assert (W2 : forall a b i j, (a < nua d)%nat -> (b < nub d)%nat -> (i < noa d)%nat -> (j < nob d)%nat ->
    c_ab C [a; b; i; j] = c_a X [a; i] * c_b X [b; j] + c_ab X [a; b; i; j]).
  { intros a b i j Ha Hb Hi Hj. rewrite (am_ab _ _ _ _ A), D2, (of_ab _ _ _ HC), (am_a _ _ _ _ A), (am_b _ _ _ _ A) by mkin. unfold block. cbn [length firstn skipn combine ab].
    pose proof (exp2 T Z (Alpha, a) (Beta, b) (Alpha, i) (Beta, j)) as K. rewrite (op_spin T (cl_op T HT) (@cons so (Alpha, a) []) (@cons so (Beta, j) []) Alpha) in K by (cbv; discriminate).
    etransitivity; [exact K|]. unfold so. ring. }
  unfold cc_energy, en_Ecorr, ci_energy, en_e1a, en_e1b, en_e2aa, en_e2ab, en_e2bb, en_e1a1a, en_e1b1b, en_e1a1b, as_amps.
  cbn [x_a x_b x_aa x_ab x_bb]. symmetry.
  rewrite (sumn_ext (noa d) (fun m => sumn (nua d) (fun e => i_a_ov H m e * c_a C [e; m])) (fun m => sumn (nua d) (fun e => i_a_ov H m e * c_a X [e; m]))).
  2:{ intros. apply sumn_ext. intros. now rewrite V1. }
  rewrite (sumn_ext (nob d) (fun m => sumn (nub d) (fun e => i_b_ov H m e * c_b C [e; m])) (fun m => sumn (nub d) (fun e => i_b_ov H m e * c_b X [e; m]))).
  2:{ intros. apply sumn_ext. intros. now rewrite V2. }
  rewrite (sum4_ext (noa d) (noa d) (nua d) (nua d) _ (fun m n e f => i_aa_oovv H m n e f * (c_a X [e; m] * c_a X [f; n] - c_a X [e; n] * c_a X [f; m] + c_aa X [e; f; m; n]))).
  2:{ intros. now rewrite W1. }
  rewrite (sum4_ext (nob d) (nob d) (nub d) (nub d) _ (fun m n e f => i_bb_oovv H m n e f * (c_b X [e; m] * c_b X [f; n] - c_b X [e; n] * c_b X [f; m] + c_bb X [e; f; m; n]))).
  2:{ intros. now rewrite W3. }
  rewrite (sum4_ext (noa d) (nob d) (nua d) (nub d) _ (fun m n e f => i_ab_oovv H m n e f * c_ab X [e; f; m; n] + i_ab_oovv H m n e f * c_a X [e; m] * c_b X [f; n])).
  2:{ intros. rewrite W2 by assumption. ring. }
  rewrite sum4_plus.
  rewrite (same_spin (noa d) (nua d) (i_aa_oovv H) (fun e m => c_a X [e; m]) (fun e f m n => c_aa X [e; f; m; n])) by apply HH.
  rewrite (same_spin (nob d) (nub d) (i_bb_oovv H) (fun e m => c_b X [e; m]) (fun e f m n => c_bb X [e; f; m; n])) by apply HH.
  ring.
Qed.

(** Higher orders of the cluster operator are not available. *)
Theorem C53_order4 : forall d order C Q, (3 < order)%nat -> cluster_analyze d order C Q = None.
Proof.
  intros d order C Q Ho. unfold cluster_analyze. apply Nat.ltb_lt in Ho. rewrite Ho.
  destruct (t2_aa d C), (t2_ab d C), (t2_bb d C), (t3_aaa d C), (t3_aab d C), (t3_abb d C), (t3_bbb d C); reflexivity.
Qed.

(** A two-electron, two-orbital operator: unit singles and an opposite-spin double of strength v. *)
Definition sgn (x y : so) : R := match fst x, fst y with Alpha, Beta => 1 | Beta, Alpha => -1 | _, _ => 0 end.
Definition same (x y : so) : R := match fst x, fst y with Alpha, Alpha => 1 | Beta, Beta => 1 | _, _ => 0 end.
Definition T_v (v : R) : oper := fun P H =>
  match P, H with
  | [x], [z] => same x z
  | [x; y], [z; w] => v * sgn x y * sgn z w
  | _, _ => 0
  end.
Lemma T_v_cluster : forall v, cluster_op (T_v v).
Proof.
  intros v. constructor; [|reflexivity]. constructor.
  - intros P x y P' H. destruct P as [|p [|p' P]]; cbn [app]; [destruct P' as [|p P']| |].
    + destruct H as [|z [|w [|]]]; cbn; try ring. unfold sgn. destruct x as ([|], ?), y as ([|], ?); cbn; ring.
    + cbn. ring.
    + cbn. ring.
    + destruct P; cbn; ring.
  - intros P H x y H'. destruct P as [|p [|p' [|]]]; cbn [T_v]; try ring.
    + destruct H as [|h [|h' H]]; cbn; ring.
    + destruct H as [|h [|h' H]]; [destruct H' as [|? H']| |]; cbn; try ring.
      * unfold sgn. destruct x as ([|], ?), y as ([|], ?); cbn; ring.
      * destruct H; cbn; ring.
  - intros P H s N. destruct P as [|([|], a) [|([|], b) [|]]], H as [|([|], i) [|([|], j) [|]]]; unfold T_v, sgn, same; cbn [fst]; try ring; destruct s; cbn in N; lia.
Qed.
Lemma arrays_of : forall d W, ci_of d W (arrays W).
Proof. intros. constructor; intros l _; reflexivity. Qed.
Definition no_quads := mkQuads ([], []) ([], []) ([], []) ([], []) ([], []).
Lemma no_quads_of : forall d W, quads_of d W no_quads.
Proof. intros. constructor; (split; [intros ? []|reflexivity]). Qed.

(** The full claim fails when a determinant is absent from the wave function although its cluster amplitude is not zero:
    here C1 = 1, C2 = 0, T2 = -1; the analysis returns T2 = 0, its exponential has C2 = 1, and the energies differ. *)
Theorem C53_zero_refuted : exists d H T X q, antisym_ints H /\ cluster_op T /\
  cluster_analyze d 3 (arrays (cexp T)) no_quads = Some (X, q) /\
  c_ab X [0; 0; 0; 0]%nat <> block ab T [0; 0; 0; 0]%nat /\
  cc_energy d H (as_amps X) <> ci_energy d H (as_amps (arrays (cexp T))).
Proof.
  set (d := mkDims 1 1 1 1). set (H := rhf_ints d (fun _ _ => 0) (fun _ _ _ _ => 1)).
  destruct (C53_returns_T d 3 (T_v (-1)) (arrays (cexp (T_v (-1)))) no_quads (le_n 3) (T_v_cluster _) (arrays_of _ _) (no_quads_of _ _)) as (X & q & E & A & _).
  assert (K : c_ab (arrays (cexp (T_v (-1)))) [0; 0; 0; 0]%nat = 0).
  { unfold arrays, block. cbn [c_ab length firstn skipn combine ab]. rewrite exp2 by reflexivity. unfold T_v, sgn, same. cbn [fst]. ring. }
  assert (V : c_ab X [0; 0; 0; 0]%nat = 0).
  { rewrite (am_ab _ _ _ _ A) by reflexivity. unfold where_nonzero. rewrite K. destruct (Req_EM_T 0 0); [reflexivity|congruence]. }
  assert (Va : c_a X [0; 0]%nat = 1) by (rewrite (am_a _ _ _ _ A) by reflexivity; reflexivity).
  assert (Vb : c_b X [0; 0]%nat = 1) by (rewrite (am_b _ _ _ _ A) by reflexivity; reflexivity).
  exists d, H, (T_v (-1)), X, q. split; [|split; [|split; [exact E|split]]].
  - apply rhf_ints_antisym. reflexivity.
  - apply T_v_cluster.
  - rewrite V. unfold block, T_v, sgn, same. cbn. lra.
  - unfold cc_energy, en_Ecorr, ci_energy, en_e1a, en_e1b, en_e2aa, en_e2ab, en_e2bb, en_e1a1a, en_e1b1b, en_e1a1b, as_amps.
    cbn [x_a x_b x_aa x_ab x_bb noa nua nob nub d sumn]. rewrite K, V, Va, Vb.
    unfold H, rhf_ints. cbn [i_a_ov i_b_ov i_aa_oovv i_ab_oovv i_bb_oovv]. lra.
Qed.

(** A case in which nothing is lost: v = 1, every coefficient of the four determinants is nonzero, T2 = 1 differs from C2 = 2. *)
Example C53_instance : cluster_op (T_v 1) /\ normalised_wf (cexp (T_v 1)) /\ doubles_present (mkDims 1 1 1 1) (T_v 1) (arrays (cexp (T_v 1))) /\
  c_ab (arrays (cexp (T_v 1))) [0; 0; 0; 0]%nat = 2 /\
  exists X q, cluster_analyze (mkDims 1 1 1 1) 3 (arrays (cexp (T_v 1))) no_quads = Some (X, q) /\ c_ab X [0; 0; 0; 0]%nat = 1.
Proof.
  assert (K : c_ab (arrays (cexp (T_v 1))) [0; 0; 0; 0]%nat = 2).
  { unfold arrays, block. cbn [c_ab length firstn skipn combine ab]. rewrite exp2 by reflexivity. unfold T_v, sgn, same. cbn [fst]. ring. }
  assert (B : forall a b i j, block ab (T_v 1) [a; b; i; j] = 1) by (intros; unfold block, T_v, sgn, same; cbn; ring).
  split; [apply T_v_cluster|]. split; [|split; [|split; [exact K|]]].
  - constructor; [apply cexp_anti, T_v_cluster|now apply exp0].
  - split; [|split]; intros l Hl; pose proof (inb_len _ _ Hl) as Ll; cbn [length nua noa nub nob] in Ll;
      destruct l as [|a [|b [|i [|j [|]]]]]; try discriminate Ll; unfold where_nonzero.
    + destruct (Req_EM_T _ 0); [|reflexivity]. unfold block, T_v, sgn, same. cbn. ring.
    + cbn [nua noa nub nob] in Hl. inb Hl. replace a with 0%nat by lia. replace b with 0%nat by lia. replace i with 0%nat by lia. replace j with 0%nat by lia.
      rewrite K. destruct (Req_EM_T 2 0); [lra|reflexivity].
    + destruct (Req_EM_T _ 0); [|reflexivity]. unfold block, T_v, sgn, same. cbn. ring.
  - destruct (C53_returns_T (mkDims 1 1 1 1) 3 (T_v 1) (arrays (cexp (T_v 1))) no_quads (le_n 3) (T_v_cluster _) (arrays_of _ _) (no_quads_of _ _)) as (X & q & E & A & _).
    exists X, q. split; [exact E|]. rewrite (am_ab _ _ _ _ A) by reflexivity. unfold where_nonzero. rewrite K. destruct (Req_EM_T 2 0); [lra|]. apply B.
Qed.

Print Assumptions C53_ci_is_exp.
Print Assumptions C53_unique.
Print Assumptions C53_returns_T.
Print Assumptions C53_energy.
Print Assumptions C53_order4.
Print Assumptions C53_zero_refuted.
