(** C26: Davidson.  C28: Gram-Schmidt. *)
From Coq Require Import Reals Arith Bool List Lia Lra.
From Verif Require Import RSum DiisModel DavidsonModel DavidsonSpec DavidsonProofs.
Import ListNotations.
Open Scope R_scope.

Lemma below_spec : forall x t, below x t = true <-> x < t.
Proof. intros x t. unfold below. destruct (Rlt_dec x t); split; intros; auto; discriminate. Qed.

Section C26.
Variables (n : nat) (HR : vec -> vec) (update_r : vec -> R -> vec) (eig : R -> nat -> mat -> R * vec) (qr : vec -> vec).
Variables (max_size : nat) (amp econv : R).
Notation next := (dav_next n HR update_r eig qr max_size).
Notation conv := (dav_converged n eig amp econv).
Notation davidson := (davidson n HR update_r eig qr max_size amp econv).

(** States at the beginning of iteration k. *)
Inductive dav_after (b0 : vec) (omega : R) : nat -> dav -> Prop :=
| after_0 : dav_after b0 omega 0 (dav_init HR b0 omega)
| after_S : forall k st st', dav_after b0 omega k st -> conv st = false -> next st = Some st' -> dav_after b0 omega (S k) st'.

Definition Inv (st : dav) : Prop :=
  (1 <= d_sz st <= max_size)%nat /\ (forall p, (p < d_sz st)%nat -> d_S st p = HR (d_B st p)) /\ orthogonal_set n (d_sz st) (d_B st) /\
  (forall p, (1 <= p < d_sz st)%nat -> inner n (d_B st p) (d_B st p) = 1) /\
  (forall i j, (i < d_sz st - 1)%nat -> (j < d_sz st - 1)%nat -> d_G st i j = inner n (d_B st i) (HR (d_B st j))).
Lemma G_gram : forall st, Inv st -> forall i j, (i < d_sz st)%nat -> (j < d_sz st)%nat -> dav_G n st i j = inner n (d_B st i) (HR (d_B st j)).
Proof.
  intros st (S1 & HS & _ & _ & HG) i j Hi Hj. unfold dav_G. destruct (Nat.eqb_spec j (d_sz st - 1)) as [->|Nj]; cbn [andb].
  - replace (i <? d_sz st)%nat with true by (symmetry; apply Nat.ltb_lt; exact Hi). rewrite <- HS by lia. apply inner_sym.
  - destruct (Nat.eqb_spec i (d_sz st - 1)) as [->|Ni]; cbn [andb]; [|apply HG; lia].
    replace (j <? d_sz st)%nat with true by (symmetry; apply Nat.ltb_lt; exact Hj). rewrite <- HS by lia. reflexivity.
Qed.
Lemma row_eq : forall (a : nat -> vec) k v, set_row a k v k = v. Proof. intros. unfold set_row. now rewrite Nat.eqb_refl. Qed.
Lemma row_neq : forall (a : nat -> vec) k v p, p <> k -> set_row a k v p = a p. Proof. intros. unfold set_row. destruct (Nat.eqb_spec p k); [contradiction|reflexivity]. Qed.
Lemma inv_init : forall b0 om, (1 <= max_size)%nat -> Inv (dav_init HR b0 om).
Proof.
  intros b0 om H. unfold Inv, dav_init. cbn [d_sz d_S d_B d_G]. split; [lia|]. split; [intros p Hp; assert (p = 0)%nat by lia; subst; now rewrite !row_eq|].
  split; [intros i j Hi Hj; lia|]. split; [intros; lia|]. intros; lia.
Qed.
Lemma inv_next : forall st st', Inv st -> next st = Some st' -> Inv st'.
Proof.
  intros st st' I E. assert (I' := I). destruct I' as (S1 & HS & HO & HU & _). unfold dav_next in E. destruct (Nat.ltb_spec (d_sz st) max_size) as [L|L].
  - unfold dav_new in E. destruct (normalise n (update_r _ _)) as [q0|]; [|discriminate E]. cbn [bind] in E.
    destruct (orthogonalise n (d_B st) (d_sz st) q0) as [q1|] eqn:E1; [|discriminate E]. cbn [bind] in E. destruct (normalise n q1) as [q|] eqn:E2; [|discriminate E]. cbn [bind] in E. injection E as <-.
    destruct (orthogonalise_some _ _ _ _ _ E1 HO) as (_ & Z). destruct (normalise_some _ _ _ E2) as (_ & Eq & U).
    assert (Zq : forall p, (p < d_sz st)%nat -> inner n (d_B st p) q = 0) by (intros p Hp; rewrite Eq, inner_div_r, Z by exact Hp; unfold Rdiv; ring).
    unfold Inv. cbn [d_sz d_S d_B d_G]. split; [lia|]. split; [|split; [|split]].
    + intros p Hp. destruct (Nat.eq_dec p (d_sz st)) as [->|]; [now rewrite !row_eq|]. rewrite !row_neq by assumption. apply HS. lia.
    + intros i j Hi Hj NE. destruct (Nat.eq_dec i (d_sz st)) as [->|Ni], (Nat.eq_dec j (d_sz st)) as [->|Nj]; rewrite ?row_eq, ?row_neq by assumption; try lia.
      * rewrite inner_sym. apply Zq. lia.
      * apply Zq. lia.
      * apply HO; lia.
    + intros p Hp. destruct (Nat.eq_dec p (d_sz st)) as [->|]; [rewrite !row_eq; exact U|]. rewrite !row_neq by assumption. apply HU. lia.
    + intros i j Hi Hj. rewrite !row_neq by lia. apply G_gram; [exact I|lia|lia].
  - injection E as <-. unfold Inv. cbn [d_sz d_S d_B d_G]. split; [lia|]. split; [intros p Hp; assert (p = 0)%nat by lia; subst; now rewrite !row_eq|].
    split; [intros i j Hi Hj NE; lia|]. split; intros; lia.
Qed.
Lemma inv_after : forall b0 om k st, (1 <= max_size)%nat -> dav_after b0 om k st -> Inv st.
Proof. intros b0 om k st H A. induction A; [now apply inv_init|]. eapply inv_next; eassumption. Qed.

(** Whatever the operator, preconditioner, eigensolver and starting vector: the subspace never outgrows its storage, the stored products and
    the interaction matrix handed to the eigensolver are those of the stored vectors, and the vectors are mutually orthogonal. *)
Theorem C26_subspace : forall b0 om k st, (1 <= max_size)%nat -> dav_after b0 om k st ->
  (1 <= d_sz st <= max_size)%nat /\
  (forall p, (p < d_sz st)%nat -> d_S st p = HR (d_B st p)) /\
  (forall i j, (i < d_sz st)%nat -> (j < d_sz st)%nat -> dav_G n st i j = inner n (d_B st i) (HR (d_B st j))) /\
  orthogonal_set n (d_sz st) (d_B st).
Proof. intros b0 om k st H A. pose proof (inv_after _ _ _ _ H A) as I. pose proof (G_gram _ I) as G. destruct I as (I1 & I2 & I3 & _). auto. Qed.
Theorem C26_orthonormal : forall b0 om k st, (1 <= max_size)%nat -> inner n b0 b0 = 1 -> (forall v, inner n (qr v) (qr v) = 1) -> dav_after b0 om k st ->
  orthonormal n (d_sz st) (d_B st).
Proof.
  intros b0 om k st H U0 UQ A. assert (U : inner n (d_B st 0%nat) (d_B st 0%nat) = 1).
  { induction A as [|k st st' A IH _ E]; [exact U0|]. pose proof (inv_after _ _ _ _ H A) as (S1 & _). unfold dav_next in E. destruct (d_sz st <? max_size)%nat.
    - destruct (dav_new _ _ _ _) as [q|]; [|discriminate E]. injection E as <-. cbn [d_B]. rewrite row_neq by lia. exact IH.
    - injection E as <-. cbn [d_B]. rewrite row_eq. apply UQ. }
  pose proof (inv_after _ _ _ _ H A) as (S1 & _ & HO & HU & _). intros i j Hi Hj. destruct (Nat.eqb_spec i j) as [<-|NE]; [|now apply HO]. destruct i as [|i]; [exact U|]. apply HU. lia.
Qed.

(** What is returned: an element of the subspace of some iteration, and a flag that is true exactly when the residual of the returned
    eigenpair and the last change of the eigenvalue are below the thresholds; without convergence all iterations are used up. *)
Theorem C26_return : forall iters b0 om r w c, (1 <= max_size)%nat -> linear n HR -> davidson iters b0 om = DavReturn r w c ->
  exists k st alpha, (k < iters)%nat /\ dav_after b0 om k st /\ eig (d_omega st) (d_sz st) (dav_G n st) = (w, alpha) /\
    in_span n (d_sz st) (d_B st) r /\
    (c = true <-> length_of n (fun i => HR r i - w * r i) < amp /\ Rabs (w - d_omega st) < econv) /\
    (c = false -> S k = iters).
Proof.
  intros iters b0 om r w c HM LIN. unfold DavidsonModel.davidson.
  assert (G : forall it k st, dav_after b0 om k st -> dav_loop n HR update_r eig qr max_size amp econv it st = DavReturn r w c ->
    exists k' st alpha, (k <= k' < k + it)%nat /\ dav_after b0 om k' st /\ eig (d_omega st) (d_sz st) (dav_G n st) = (w, alpha) /\ in_span n (d_sz st) (d_B st) r /\
    (c = true <-> length_of n (fun i => HR r i - w * r i) < amp /\ Rabs (w - d_omega st) < econv) /\ (c = false -> S k' = k + it)%nat).
  { assert (T : forall k st, dav_after b0 om k st -> r = dav_r n eig st -> w = fst (dav_pair n eig st) -> c = conv st ->
      exists alpha, eig (d_omega st) (d_sz st) (dav_G n st) = (w, alpha) /\ in_span n (d_sz st) (d_B st) r /\
      (c = true <-> length_of n (fun i => HR r i - w * r i) < amp /\ Rabs (w - d_omega st) < econv)).
    { intros k st A -> -> ->. exists (snd (dav_pair n eig st)). split; [unfold dav_pair; now destruct (eig _ _ _)|]. split.
      - exists (snd (dav_pair n eig st)). intros i Hi. unfold dav_r, lincomb, combination. apply sumn_ext. intros. ring.
      - pose proof (inv_after _ _ _ _ HM A) as (_ & HS & _). unfold dav_converged. rewrite andb_true_iff, !below_spec.
        assert (E : norm n (dav_residual n eig st) = length_of n (fun i => HR (dav_r n eig st) i - fst (dav_pair n eig st) * dav_r n eig st i)).
        { apply (norm_ext n (dav_residual n eig st) (fun i => HR (dav_r n eig st) i - fst (dav_pair n eig st) * dav_r n eig st i)). intros i Hi. unfold dav_residual. f_equal. unfold dav_r at 1. rewrite (linear_sum n HR) by assumption.
          unfold lincomb. apply sumn_ext. intros p Hp. now rewrite HS by exact Hp. }
        rewrite E. reflexivity. }
    induction it as [|it IH]; intros k st A E; [discriminate E|]. cbn [dav_loop] in E. destruct (conv st) eqn:C.
    - injection E as <- <- <-. destruct (T k st A eq_refl eq_refl (eq_sym C)) as (al & T1 & T2 & T3). exists k, st, al. split; [lia|]. do 4 (split; [assumption|]). discriminate.
    - destruct (next st) as [st'|] eqn:N; [|discriminate E]. destruct it as [|it].
      + injection E as <- <- <-. destruct (T k st A eq_refl eq_refl (eq_sym C)) as (al & T1 & T2 & T3). exists k, st, al. split; [lia|]. do 4 (split; [assumption|]). lia.
      + destruct (IH (S k) st' (after_S _ _ _ _ _ A C N) E) as (k' & st2 & al & H1 & H2 & H3 & H4 & H5 & H6). exists k', st2, al. split; [lia|]. do 4 (split; [assumption|]). intros F. specialize (H6 F). lia. }
  intros E. destruct (G iters 0%nat _ (after_0 b0 om) E) as (k & st & al & H1 & H2 & H3 & H4 & H5 & H6). exists k, st, al. split; [lia|]. do 4 (split; [assumption|]). intros F. specialize (H6 F). lia.
Qed.
(** With no iterations the routine fails (the vector it returns is never assigned). *)
Theorem C26_no_iterations : forall b0 om, davidson 0 b0 om = DavUnbound. Proof. reflexivity. Qed.
End C26.

(** A 2x2 operator, an exact subspace eigensolver for one vector, subspace of one vector. *)
Definition swap2 (v : vec) : vec := fun i => match i with 0%nat => v 1%nat | 1%nat => v 0%nat | _ => 0 end.
Lemma swap2_linear : linear 2 swap2.
Proof. split; [intros u v H [|[|k]] Hk; cbn; [apply H; lia|apply H; lia|lia]|]. intros c u v [|[|k]] Hk; cbn; ring. Qed.
Definition unit0 : vec := fun i => if i =? 0 then 1 else 0.
Lemma dot2 : forall u v, dot 2 u v = u 0%nat * v 0%nat + u 1%nat * v 1%nat. Proof. intros. unfold dot. cbn. ring. Qed.
Example C26_instance : linear 2 swap2 /\
  exists st, dav_after 2 swap2 (fun v _ => v) (fun _ _ G => (G 0%nat 0%nat, fun _ => 1)) (fun v => v) 2 (1/2) (1/2) unit0 5 1 st /\ d_sz st = 2%nat.
Proof.
  split; [exact swap2_linear|].
  assert (D : forall (c : bool) st, st = dav_init swap2 unit0 5 -> dav_converged 2 (fun _ _ G => (G 0%nat 0%nat, fun _ => 1)) (1/2) (1/2) st = false).
  { intros _ st ->. unfold dav_converged. apply andb_false_iff. right. unfold below, dav_pair. cbn [fst]. destruct (Rlt_dec _ _) as [L|]; [|reflexivity]. exfalso.
    unfold dav_G, dav_init in L. cbn in L. unfold dot, unit0 in L. cbn in L. unfold Rabs in L. destruct (Rcase_abs _) in L; lra. }
  set (eig := fun (_ : R) (_ : nat) (G : mat) => (G 0%nat 0%nat, fun _ : nat => 1)).
  assert (RES : forall k, (k < 2)%nat -> dav_residual 2 eig (dav_init swap2 unit0 5) k = if k =? 1 then 1 else 0).
  { intros [|[|k]] Hk; [| |lia]; unfold dav_residual, dav_r, dav_pair, lincomb, eig, dav_init, dav_G, dot, unit0; cbn; ring. }
  assert (N1 : norm 2 (dav_residual 2 eig (dav_init swap2 unit0 5)) = 1).
  { apply norm_unit. unfold inner. cbn [sumn]. rewrite !RES by lia. cbn. ring. }
  assert (Q : exists q, dav_new 2 (fun v _ => v) eig (dav_init swap2 unit0 5) = Some q).
  { assert (NU : forall v, norm 2 v = 1 -> exists w, normalise 2 v = Some w /\ forall k, w k = v k).
    { intros v H. unfold normalise. rewrite H. destruct (Req_EM_T 1 0); [lra|]. eexists. split; [reflexivity|]. intros k. cbv beta. field. }
    unfold dav_new. destruct (NU _ N1) as (w & -> & W). cbn [bind]. unfold orthogonalise. change (d_sz (dav_init swap2 unit0 5)) with 1%nat. cbn [seq fold_left bind].
    destruct (NU (d_B (dav_init swap2 unit0 5) 0%nat)) as (b & -> & Wb); [apply norm_unit; unfold inner, unit0; cbn; ring|]. cbn [bind].
    destruct (NU (project_out 2 b w)) as (q & -> & _); [|eexists; reflexivity]. apply norm_unit. unfold inner. cbn [sumn]. unfold project_out. rewrite dot2, !Wb, !W, !RES by lia.
    cbn. unfold unit0. cbn. ring. }
  destruct Q as (q & Eq). eexists. split; [eapply after_S; [apply after_0|now apply (D true)|]|].
  - unfold dav_next. cbn [d_sz dav_init Nat.ltb Nat.leb]. fold eig. rewrite Eq. reflexivity.
  - reflexivity.
Qed.

(** * C28 *)
Lemma inner_combination : forall n u m U c, inner n u (combination m U c) = sumn m (fun p => c p * inner n u (U p)).
Proof.
  intros. unfold inner, combination. rewrite (sumn_ext n _ (fun k => sumn m (fun p => c p * (u k * U p k)))).
  - rewrite sumn_swap. apply sumn_ext. intros p Hp. apply sumn_scal.
  - intros k Hk. rewrite <- sumn_scal. apply sumn_ext. intros. ring.
Qed.
Lemma span_mono : forall n m m' U v, (m <= m')%nat -> in_span n m U v -> in_span n m' U v.
Proof.
  intros n m m' U v L (c & H). exists (fun p => if (p <? m)%nat then c p else 0). intros k Hk. rewrite H by exact Hk. unfold combination.
  replace m' with (m + (m' - m))%nat by lia. rewrite sumn_split. rewrite (sumn_0 (m' - m)).
  - rewrite Rplus_0_r. apply sumn_ext. intros p Hp. destruct (Nat.ltb_spec p m); [reflexivity|lia].
  - intros p Hp. destruct (Nat.ltb_spec (m + p) m); [lia|ring].
Qed.
Lemma span_trans : forall n m m' U V v, (forall p, (p < m)%nat -> in_span n m' V (U p)) -> in_span n m U v -> in_span n m' V v.
Proof.
  intros n m m' U V v HU (c & H). revert v c H. induction m as [|m IH]; intros v c H.
  - exists (fun _ => 0). intros k Hk. rewrite H by exact Hk. unfold combination. cbn [sumn]. symmetry. apply sumn_0. intros. ring.
  - destruct (IH ltac:(intros; apply HU; lia) (combination m U c) c) as (d & Hd); [reflexivity|]. destruct (HU m ltac:(lia)) as (e & He).
    exists (fun p => d p + c m * e p). intros k Hk. rewrite H by exact Hk. unfold combination. cbn [sumn]. fold (combination m U c k). rewrite Hd, He by exact Hk. unfold combination.
    rewrite <- sumn_scal, <- sumn_plus. apply sumn_ext. intros. ring.
Qed.
Lemma norm_zero : forall n v, norm n v = 0 -> forall k, (k < n)%nat -> v k = 0.
Proof.
  intros n v H k Hk. assert (Z : inner n v v = 0) by (rewrite <- norm_sq, H; ring). unfold inner in Z.
  pose proof (sumn_nonneg_0 n (fun k => v k * v k) ltac:(intros; nra) Z k Hk) as S. cbv beta in S. nra.
Qed.
Section C28.
Variable n : nat.
(** The columns after j steps. *)
Definition gs_inv (A A' : nat -> vec) (j : nat) : Prop :=
  orthonormal n j A' /\ (forall i, (j <= i)%nat -> A' i = A i) /\
  (forall i, (i < j)%nat -> in_span n (S i) A (A' i)) /\
  (forall i, (i < j)%nat -> exists c, c i <> 0 /\ forall k, (k < n)%nat -> A i k = combination (S i) A' c k).
Lemma gs_step : forall A A' j, gs_inv A A' j ->
  match gs_column n A' j with
  | Some v => gs_inv A (set_row A' j v) (S j)
  | None => in_span n j A (A j)
  end.
Proof.
  intros A A' j (O & K & SP & TR). unfold gs_column. pose proof (project_family n A' j (A' j) O) as PF. cbn zeta in PF. set (q := fold_left _ (seq 0 j) (A' j)) in *.
  destruct PF as (P1 & P2). rewrite (K j (Nat.le_refl j)) in P2.
  destruct (normalise n q) as [v|] eqn:E.
  - destruct (normalise_some _ _ _ E) as (N & Ev & U). assert (V0 : forall i, (i < j)%nat -> inner n (A' i) v = 0) by (intros i Hi; rewrite Ev, inner_div_r, P1 by exact Hi; unfold Rdiv; ring).
    assert (AJ : forall k, (k < n)%nat -> A j k = norm n q * v k + combination j A' (fun p => inner n (A' p) (A j)) k) by (intros k Hk; rewrite Ev, P2 by exact Hk; field; exact N).
    assert (CE : forall m c k, (m <= j)%nat -> combination m (set_row A' j v) c k = combination m A' c k).
    { intros m c k Hm. apply sumn_ext. intros p Hp. rewrite row_neq by lia. reflexivity. }
    repeat split.
    + intros i i' Hi Hi'. destruct (Nat.eq_dec i j) as [->|Ni], (Nat.eq_dec i' j) as [->|Ni']; rewrite ?row_eq, ?row_neq by assumption.
      * rewrite Nat.eqb_refl. exact U.
      * replace (j =? i') with false by (symmetry; apply Nat.eqb_neq; lia). rewrite inner_sym. apply V0. lia.
      * replace (i =? j) with false by (symmetry; apply Nat.eqb_neq; lia). apply V0. lia.
      * apply O; lia.
    + intros i Hi. rewrite row_neq by lia. apply K. lia.
    + intros i Hi. destruct (Nat.eq_dec i j) as [->|Ni]; [|rewrite row_neq by exact Ni; apply SP; lia]. rewrite row_eq.
      assert (Sq : in_span n (S j) A (combination j A' (fun p => inner n (A' p) (A j)))).
      { apply (span_trans n j (S j) A' A); [|eexists; reflexivity]. intros p Hp. apply (span_mono n (S p)); [lia|]. apply SP. lia. }
      destruct Sq as (d & Hd). exists (fun p => ((if p =? j then 1 else 0) - d p) / norm n q). intros k Hk. rewrite Ev, P2 by exact Hk. rewrite Hd by exact Hk. unfold combination.
      rewrite (sumn_ext (S j) (fun p => ((if p =? j then 1 else 0) - d p) / norm n q * A p k) (fun p => (if p =? j then A p k else 0) * / norm n q - (d p * A p k) * / norm n q)).
      * rewrite sumn_minus, !sumn_scal_r, sumn_delta_f by lia. unfold Rdiv. ring.
      * intros p Hp. destruct (p =? j); unfold Rdiv; ring.
    + intros i Hi. destruct (Nat.eq_dec i j) as [->|Ni].
      * exists (fun p => if p =? j then norm n q else inner n (A' p) (A j)). rewrite Nat.eqb_refl. split; [exact N|]. intros k Hk. rewrite AJ by exact Hk. unfold combination. cbn [sumn]. rewrite row_eq, Nat.eqb_refl.
        rewrite Rplus_comm. f_equal. apply sumn_ext. intros p Hp. rewrite row_neq by lia. destruct (Nat.eqb_spec p j); [lia|reflexivity].
      * destruct (TR i ltac:(lia)) as (c & C0 & C1). exists c. split; [exact C0|]. intros k Hk. rewrite CE by lia. now apply C1.
  - unfold normalise in E. destruct (Req_EM_T (norm n q) 0) as [Z|]; [|discriminate E]. pose proof (norm_zero n q Z) as Zq.
    apply (span_trans n j j A' A); [intros p Hp; apply (span_mono n (S p)); [lia|]; apply SP; lia|]. exists (fun p => inner n (A' p) (A j)). intros k Hk. specialize (P2 k Hk). rewrite (Zq k Hk) in P2. lra.
Qed.
Lemma gs_run : forall A m, match gramschmidt n m A with Some A' => gs_inv A A' m | None => exists j, (j < m)%nat /\ in_span n j A (A j) end.
Proof.
  intros A m. unfold gramschmidt. induction m as [|m IH].
  - cbn. repeat split; intros; try lia. intros i j Hi Hj. lia.
  - rewrite seq_S, fold_left_app. cbn [fold_left plus]. destruct (fold_left _ (seq 0 m) (Some A)) as [A'|]; cbn [bind].
    + pose proof (gs_step A A' m IH) as ST. destruct (gs_column n A' m) as [v|]; cbn [bind]; [exact ST|]. exists m. split; [lia|exact ST].
    + destruct IH as (j & Hj & H). exists j. split; [lia|exact H].
Qed.
(** gramschmidt succeeds exactly on linearly independent columns; the result is orthonormal, and every leading set of columns spans the
    same space as before. *)
Theorem C28_gramschmidt : forall m A A', gramschmidt n m A = Some A' ->
  orthonormal n m A' /\
  (forall j, (j < m)%nat -> in_span n (S j) A (A' j)) /\ (forall j, (j < m)%nat -> in_span n (S j) A' (A j)) /\
  (forall j, (m <= j)%nat -> A' j = A j).
Proof.
  intros m A A' E. pose proof (gs_run A m) as H. rewrite E in H. destruct H as (O & K & SP & TR). repeat split; auto.
  intros j Hj. destruct (TR j Hj) as (c & _ & C). now exists c.
Qed.
Theorem C28_defined_iff_independent : forall m A, (exists A', gramschmidt n m A = Some A') <-> independent n m A.
Proof.
  intros m A. pose proof (gs_run A m) as H. split.
  - intros (A' & E). rewrite E in H. destruct H as (O & K & SP & TR). intros c Z.
    assert (G : forall t p, (m <= p + t)%nat -> (p < m)%nat -> c p = 0).
    { induction t as [|t IH]; intros p Ht Hp; [lia|]. destruct (le_lt_dec m (p + t)) as [|Lt]; [now apply IH|].
      assert (Later : forall q, (p < q < m)%nat -> c q = 0) by (intros q Hq; apply IH; lia).
      assert (Zp : forall k, (k < n)%nat -> combination (S p) A c k = 0).
      { intros k Hk. rewrite <- (Z k Hk). unfold combination. replace m with (S p + (m - S p))%nat at 1 by lia. rewrite sumn_split, (sumn_0 (m - S p)); [ring|]. intros q Hq. rewrite Later by lia. ring. }
      assert (I0 : inner n (A' p) (combination (S p) A c) = 0) by (unfold inner; apply sumn_0; intros k Hk; rewrite Zp by exact Hk; ring).
      rewrite inner_combination in I0. cbn [sumn] in I0.
      assert (Lead : forall q, (q <= p)%nat -> exists d, d <> 0 /\ inner n (A' p) (A q) = if q =? p then d else 0).
      { intros q Hq. destruct (TR q ltac:(lia)) as (d & D0 & D1). exists (d q). split; [exact D0|]. rewrite (inner_ext n (A' p) (A q) (A' p) (combination (S q) A' d)); [|reflexivity|exact D1].
        rewrite inner_combination. cbn [sumn]. rewrite (sumn_0 q).
        - rewrite O by lia. destruct (Nat.eqb_spec p q) as [->|NE]; [rewrite Nat.eqb_refl; ring|]. destruct (Nat.eqb_spec q p); [congruence|ring].
        - intros s Hs. rewrite O by lia. destruct (Nat.eqb_spec p s); [lia|ring]. }
      rewrite sumn_0 in I0; [|intros q Hq; destruct (Lead q ltac:(lia)) as (d & _ & ->); destruct (Nat.eqb_spec q p); [lia|ring]].
      destruct (Lead p (Nat.le_refl p)) as (d & D0 & Ed). rewrite Ed, Nat.eqb_refl in I0. assert (c p * d = 0) by lra. apply Rmult_integral in H. tauto. }
    intros p Hp. apply (G m); lia.
  - intros IND. destruct (gramschmidt n m A) as [A'|]; [now exists A'|]. exfalso. destruct H as (j & Hj & (c & C)).
    specialize (IND (fun p => if (p <? j)%nat then c p else if p =? j then -1 else 0)). assert (Z : forall k, (k < n)%nat -> combination m A (fun p => if (p <? j)%nat then c p else if p =? j then -1 else 0) k = 0).
    { intros k Hk. unfold combination. replace m with (S j + (m - S j))%nat by lia. rewrite sumn_split. cbn [sumn]. rewrite (sumn_0 (m - S j)).
      - rewrite (sumn_ext j _ (fun p => c p * A p k)) by (intros p Hp; destruct (Nat.ltb_spec p j); [reflexivity|lia]). fold (combination j A c k). rewrite <- C by exact Hk.
        rewrite Nat.ltb_irrefl, Nat.eqb_refl. ring.
      - intros p Hp. destruct (Nat.ltb_spec (S j + p) j); [lia|]. destruct (Nat.eqb_spec (S j + p) j); [lia|ring]. }
    specialize (IND Z j Hj). cbv beta in IND. rewrite Nat.ltb_irrefl, Nat.eqb_refl in IND. lra.
Qed.
End C28.
Example C28_instance : independent 2 2 (fun p k => if (k <=? p)%nat then 1 else 0).
Proof.
  intros c Z. pose proof (Z 0%nat ltac:(lia)) as Z0. pose proof (Z 1%nat ltac:(lia)) as Z1. unfold combination in *. cbn in *. intros [|[|p]] Hp; [lra|lra|lia].
Qed.

Print Assumptions C26_subspace. Print Assumptions C26_orthonormal. Print Assumptions C26_return. Print Assumptions C26_no_iterations.
Print Assumptions C28_gramschmidt. Print Assumptions C28_defined_iff_independent.
