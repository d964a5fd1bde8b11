(** C35: extrapolation formulas. *)
From Coq Require Import Reals String Lra Lia.
From Verif Require Import ExtrapModel.
Open Scope R_scope.

Lemma div_some : forall x y, y <> 0 -> divR x y = Some (x / y).
Proof. intros x y H. unfold divR. destruct (Req_EM_T y 0); [contradiction|reflexivity]. Qed.
Lemma div_none : forall x y, y = 0 -> divR x y = None.
Proof. intros x y H. unfold divR. destruct (Req_EM_T y 0); [reflexivity|contradiction]. Qed.

(** Energies E 0, E 1, ...: the increments form a geometric progression with ratio r. *)
Definition geometric (E : nat -> R) (r : R) : Prop := forall k, E (S (S k)) - E (S k) = r * (E (S k) - E k).

Lemma geometric_form : forall E r, r <> 1 -> geometric E r -> forall k, E k = E 0%nat + (E 1%nat - E 0%nat) * (1 - r ^ k) / (1 - r).
Proof.
  intros E r Hr G. assert (D : forall k, E (S k) - E k = (E 1%nat - E 0%nat) * r ^ k).
  { induction k as [|k IH]; [simpl; ring|]. rewrite G, IH. simpl. ring. }
  induction k as [|k IH]; [simpl; field; lra|]. replace (E (S k)) with (E k + (E 1%nat - E 0%nat) * r ^ k) by (rewrite <- D; ring). rewrite IH. simpl. field. lra.
Qed.
(** The rational approximant built from the first three energies is the limit of every series with geometric increments. *)
Theorem C35_rational_exact : forall E r, geometric E r -> Rabs r < 1 -> E 0%nat <> 0 -> E 1%nat <> E 0%nat ->
  exists e, goodson_extrapolation (E 0%nat) (E 1%nat) (E 2%nat) "ccr" = Some e /\ Un_cv E e.
Proof.
  intros E r G Hr H0 H1. assert (Hr1 : r <> 1) by (intros ->; rewrite Rabs_R1 in Hr; lra).
  assert (D2 : E 2%nat - E 1%nat = r * (E 1%nat - E 0%nat)) by apply G.
  exists (E 0%nat + (E 1%nat - E 0%nat) / (1 - r)). split.
  - unfold goodson_extrapolation. cbn [String.eqb Ascii.eqb Bool.eqb]. unfold ccr, bindR. rewrite D2. rewrite div_some by exact H0. rewrite div_some by lra.
    replace (r * (E 1%nat - E 0%nat) / (E 1%nat - E 0%nat)) with r by (field; lra). rewrite div_some by lra. f_equal. field. lra.
  - intros eps Heps. set (d := (E 1%nat - E 0%nat) / (1 - r)).
    assert (Hd : 0 < Rabs d + 1) by (pose proof (Rabs_pos d); lra).
    destruct (pow_lt_1_zero r Hr (eps / (Rabs d + 1))) as [N HN]; [apply Rdiv_lt_0_compat; lra|].
    exists N. intros k Hk. unfold R_dist. rewrite (geometric_form E r Hr1 G k).
    replace (E 0%nat + (E 1%nat - E 0%nat) * (1 - r ^ k) / (1 - r) - (E 0%nat + d)) with (- (d * r ^ k)) by (unfold d; field; lra).
    rewrite Rabs_Ropp, Rabs_mult. specialize (HN k Hk). apply Rle_lt_trans with ((Rabs d + 1) * Rabs (r ^ k)); [apply Rmult_le_compat_r; [apply Rabs_pos|lra]|].
    replace eps with ((Rabs d + 1) * (eps / (Rabs d + 1))) by (field; lra). apply Rmult_lt_compat_l; assumption.
Qed.
(** The other two are not: increments -1/2, -1/8, -1/32, ... from -1 have limit -5/3. *)
Theorem C35_others_refuted : exists E r, geometric E r /\ Rabs r < 1 /\ E 0%nat <> 0 /\ E 1%nat <> E 0%nat /\ Un_cv E (-5 / 3)
  /\ goodson_extrapolation (E 0%nat) (E 1%nat) (E 2%nat) "ccq" <> Some (-5 / 3) /\ goodson_extrapolation (E 0%nat) (E 1%nat) (E 2%nat) "cccf" <> Some (-5 / 3).
Proof.
  set (E := fun k : nat => -1 - / 2 * (1 - (/ 4) ^ k) / (1 - / 4)). exists E, (/ 4).
  assert (G : geometric E (/ 4)) by (intros k; unfold E; simpl; field).
  assert (E0 : E 0%nat = -1) by (unfold E; simpl; field). assert (E1 : E 1%nat = -3 / 2) by (unfold E; simpl; field). assert (E2 : E 2%nat = -13 / 8) by (unfold E; simpl; field).
  assert (Hr : Rabs (/ 4) < 1) by (rewrite Rabs_right; lra).
  split; [exact G|]. split; [exact Hr|]. split; [lra|]. split; [lra|]. split; [|split].
  - destruct (C35_rational_exact E (/ 4) G Hr ltac:(lra) ltac:(lra)) as [e [He HU]]. replace (-5 / 3) with e; [exact HU|].
    rewrite E0, E1, E2 in He. unfold goodson_extrapolation in He. cbn [String.eqb Ascii.eqb Bool.eqb] in He. unfold ccr, bindR in He. rewrite !div_some in He by lra. injection He as <-. field.
  - rewrite E0, E1, E2. unfold goodson_extrapolation. cbn [String.eqb Ascii.eqb Bool.eqb]. unfold ccq, bindR. rewrite !div_some by lra. unfold sqrtR.
    replace (1 - 4 * (-13 / 8 - -3 / 2) / (-3 / 2 - -1)) with 0 by field. destruct (Rlt_dec 0 0); [discriminate|]. rewrite sqrt_0. intros H. injection H as H. lra.
  - rewrite E0, E1, E2. unfold goodson_extrapolation. cbn [String.eqb Ascii.eqb Bool.eqb]. unfold cccf, bindR. rewrite !div_some by lra. intros H. injection H as H. lra.
Qed.
(** The quadratic approximant e is a root of y = d2 + (d3 / d2^2) y^2 for y = e - e_ref, and the root between 0 and 2 d2. *)
Theorem C35_quadratic_root : forall e_ref e_ccsd e_ccsdt e, goodson_extrapolation e_ref e_ccsd e_ccsdt "ccq" = Some e ->
  let d2 := e_ccsd - e_ref in let d3 := e_ccsdt - e_ccsd in let y := e - e_ref in
  y = d2 + d3 / d2 ^ 2 * y ^ 2 /\ 0 < y / d2 <= 2.
Proof.
  intros e_ref e_ccsd e_ccsdt e H d2 d3 y. unfold goodson_extrapolation in H. cbn [String.eqb Ascii.eqb Bool.eqb] in H. fold d2 d3 in H. unfold ccq, bindR in H.
  destruct (Req_EM_T d3 0) as [Z3|Z3]; [rewrite div_none in H by exact Z3; discriminate|]. destruct (Req_EM_T d2 0) as [Z2|Z2]; [rewrite div_some in H by exact Z3; rewrite div_none in H by exact Z2; discriminate|].
  rewrite !div_some in H by assumption. unfold sqrtR in H. destruct (Rlt_dec (1 - 4 * d3 / d2) 0) as [|NN]; [discriminate|]. injection H as H.
  set (c := sqrt (1 - 4 * d3 / d2)) in *. assert (Hc : c * c = 1 - 4 * d3 / d2) by (apply sqrt_sqrt; lra). assert (Hc0 : 0 <= c) by apply sqrt_pos.
  assert (Hy : y = / 2 * d2 ^ 2 / d3 * (1 - c)) by (unfold y; lra).
  assert (K : d3 = d2 * (1 - c * c) / 4) by (rewrite Hc; field; exact Z2).
  assert (C1 : 1 - c * c <> 0) by (intros C; apply Z3; rewrite K, C; lra). assert (C2 : 1 + c <> 0) by lra. assert (C3 : 1 - c <> 0) by (intros C; apply C1; replace c with 1 by lra; ring).
  assert (Y : y = 2 * d2 / (1 + c)). { rewrite Hy, K. replace (1 - c * c) with ((1 - c) * (1 + c)) by ring. field. repeat split; assumption. }
  split.
  - rewrite Y, K. field. split; assumption.
  - rewrite Y. replace (2 * d2 / (1 + c) / d2) with (2 / (1 + c)) by (field; split; assumption). split; [apply Rdiv_lt_0_compat; lra|].
    apply Rmult_le_reg_r with (1 + c); [lra|]. replace (2 / (1 + c) * (1 + c)) with 2 by (field; exact C2). lra.
Qed.
(** When each formula has a value. *)
Theorem C35_defined : forall e_ref e_ccsd e_ccsdt,
  let d1 := e_ref in let d2 := e_ccsd - e_ref in let d3 := e_ccsdt - e_ccsd in
  (goodson_extrapolation e_ref e_ccsd e_ccsdt "ccq" <> None <-> d2 <> 0 /\ d3 <> 0 /\ 4 * d3 / d2 <= 1)
  /\ (goodson_extrapolation e_ref e_ccsd e_ccsdt "ccr" <> None <-> d1 <> 0 /\ d2 <> 0 /\ d3 <> d2)
  /\ (goodson_extrapolation e_ref e_ccsd e_ccsdt "cccf" <> None <-> d1 <> 0 /\ d2 <> 0 /\ d3 <> d2 /\ d2 ^ 2 <> d1 * (d2 - d3)).
Proof.
  intros e_ref e_ccsd e_ccsdt d1 d2 d3. unfold goodson_extrapolation. cbn [String.eqb Ascii.eqb Bool.eqb]. fold d2 d3. fold d1. unfold ccq, ccr, cccf, bindR. split; [|split].
  - split.
    + intros H. destruct (Req_EM_T d3 0) as [Z3|Z3]; [rewrite div_none in H by exact Z3; exfalso; apply H; reflexivity|]. rewrite div_some in H by exact Z3.
      destruct (Req_EM_T d2 0) as [Z2|Z2]; [rewrite div_none in H by exact Z2; exfalso; apply H; reflexivity|]. rewrite div_some in H by exact Z2. unfold sqrtR in H.
      destruct (Rlt_dec (1 - 4 * d3 / d2) 0); [exfalso; apply H; reflexivity|]. repeat split; auto; lra.
    + intros (H2 & H3 & H). rewrite !div_some by assumption. unfold sqrtR. destruct (Rlt_dec (1 - 4 * d3 / d2) 0); [lra|discriminate].
  - split.
    + intros H. destruct (Req_EM_T d1 0) as [Z1|Z1]; [rewrite div_none in H by exact Z1; exfalso; apply H; reflexivity|]. rewrite div_some in H by exact Z1.
      destruct (Req_EM_T d2 0) as [Z2|Z2]; [rewrite div_none in H by exact Z2; exfalso; apply H; reflexivity|]. rewrite div_some in H by exact Z2.
      repeat split; auto. intros E. apply H. apply div_none. rewrite E. field. exact Z2.
    + intros (H1 & H2 & H3). rewrite (div_some d2 d1), (div_some d3 d2) by assumption. rewrite div_some; [discriminate|]. intros E. apply H3. apply Rmult_eq_reg_r with (/ d2); [|apply Rinv_neq_0_compat; exact H2].
      rewrite Rinv_r by exact H2. unfold Rdiv in E. lra.
  - assert (K : d2 <> 0 -> (1 - d3 / d2 = 0 <-> d3 = d2)).
    { intros H2. split; intros E; [|rewrite E; field; exact H2]. apply Rmult_eq_reg_r with (/ d2); [|apply Rinv_neq_0_compat; exact H2]. rewrite Rinv_r by exact H2. unfold Rdiv in E. lra. }
    assert (J : d1 <> 0 -> d2 <> 0 -> d3 <> d2 -> (1 - d2 / d1 / (1 - d3 / d2) = 0 <-> d2 ^ 2 = d1 * (d2 - d3))).
    { intros H1 H2 H3. assert (N : d2 - d3 <> 0) by lra. replace (1 - d2 / d1 / (1 - d3 / d2)) with ((d1 * (d2 - d3) - d2 ^ 2) / (d1 * (d2 - d3))) by (field; repeat split; assumption).
      assert (P : d1 * (d2 - d3) <> 0) by (apply Rmult_integral_contrapositive; auto).
      split; intros E; [|rewrite E; field; auto]. apply Rmult_eq_compat_r with (r := d1 * (d2 - d3)) in E. unfold Rdiv in E. rewrite Rmult_assoc, Rinv_l in E by exact P. lra. }
    split.
    + intros H. destruct (Req_EM_T d1 0) as [Z1|Z1]; [rewrite div_none in H by exact Z1; exfalso; apply H; reflexivity|]. rewrite div_some in H by exact Z1.
      destruct (Req_EM_T d2 0) as [Z2|Z2]; [rewrite div_none in H by exact Z2; exfalso; apply H; reflexivity|]. rewrite (div_some d3 d2) in H by exact Z2.
      destruct (Req_EM_T (1 - d3 / d2) 0) as [Z3|Z3]; [rewrite div_none in H by exact Z3; exfalso; apply H; reflexivity|]. rewrite (div_some _ (1 - d3 / d2)) in H by exact Z3.
      assert (N3 : d3 <> d2) by (intros E; apply Z3, K; assumption).
      repeat split; auto. intros E. apply H. apply div_none. apply J; assumption.
    + intros (H1 & H2 & H3 & H4). assert (Z3 : 1 - d3 / d2 <> 0) by (intros E; apply H3, K; assumption). rewrite (div_some d2 d1), (div_some d3 d2) by assumption. rewrite (div_some _ (1 - d3 / d2)) by assumption.
      rewrite div_some; [discriminate|]. intros E. apply H4, J; assumption.
Qed.
(** Without a triples correction the rational formula returns the CCSD energy; the quadratic one has no value and the continued fraction
    another one (whenever it has one and e_ccsd is not e_ref); an unknown name silently gives 0. *)
Theorem C35_no_triples : forall e_ref e_ccsd, e_ref <> 0 -> e_ccsd <> e_ref ->
  goodson_extrapolation e_ref e_ccsd e_ccsd "ccr" = Some e_ccsd /\ goodson_extrapolation e_ref e_ccsd e_ccsd "ccq" = None
  /\ goodson_extrapolation e_ref e_ccsd e_ccsd "cccf" <> Some e_ccsd.
Proof.
  intros x y H0 H1. assert (N : y - x <> 0) by lra. unfold goodson_extrapolation. cbn [String.eqb Ascii.eqb Bool.eqb]. unfold ccq, ccr, cccf, bindR. rewrite !(div_some _ x), !(div_some _ (y - x)) by assumption. split; [|split].
  - replace ((y - y) / (y - x)) with 0 by (field; exact N). rewrite div_some by lra. f_equal. field. exact H0.
  - rewrite div_none by lra. reflexivity.
  - replace ((y - y) / (y - x)) with 0 by (field; exact N). rewrite (div_some _ (1 - 0)) by lra.
    replace ((y - x) / x / (1 - 0)) with ((y - x) / x) by (field; exact H0). destruct (Req_EM_T (1 - (y - x) / x) 0) as [Z|Z]; [rewrite div_none by exact Z; discriminate|].
    rewrite div_some by exact Z. intros E. injection E as E. assert (W : 2 * x - y <> 0) by (intros W; apply Z; replace y with (2 * x) by lra; field; exact H0).
    apply N. assert (E2 : x * x = y * (2 * x - y)). { rewrite <- E at 1. field. split; [exact H0|]. intros W2. apply W. lra. }
    assert (S2 : (y - x) * (y - x) = 0) by lra. destruct (Rmult_integral _ _ S2); assumption.
Qed.
Theorem C35_unknown_name : forall e_ref e_ccsd e_ccsdt name, name <> "ccq"%string -> name <> "ccr"%string -> name <> "cccf"%string ->
  goodson_extrapolation e_ref e_ccsd e_ccsdt name = Some 0.
Proof.
  intros a b c name H1 H2 H3. unfold goodson_extrapolation. apply String.eqb_neq in H1, H2, H3. rewrite H1, H2, H3. reflexivity.
Qed.
Example C35_instance : geometric (fun k => -1 - (1 - (/ 2) ^ k)) (/ 2) /\ goodson_extrapolation (-1) (-3 / 2) (-7 / 4) "ccr" = Some (-2).
Proof.
  split; [intros k; simpl; field|]. unfold goodson_extrapolation. cbn [String.eqb Ascii.eqb Bool.eqb]. unfold ccr, bindR. rewrite !div_some by lra. f_equal. field.
Qed.
Print Assumptions C35_rational_exact. Print Assumptions C35_others_refuted. Print Assumptions C35_quadratic_root. Print Assumptions C35_defined. Print Assumptions C35_no_triples. Print Assumptions C35_unknown_name.
