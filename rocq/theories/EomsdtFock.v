(** EOMCCSDT in second quantisation: components of (H - E - w)(r0 + R) exp(T1 + T2 + T3) |ref> (proof support). *)
From Coq Require Import Reals Arith NArith List Bool Lia Lra FunctionalExtensionality.
From Verif Require Import RSum IntegralsModel TensorObjs TensorDeriv TensorSpec EomModel CcsdModel CcsdUpdate LeftModel CcsdProps FockSpec FockCar FockCcSpec FockExp FockLevel FockState FockProj FockProps FockEom FockEomProj FockSector FockSectorSpec FockFlip RankSpec FockCount
  FockDress FockShift CcsdtModel CcsdtUpdate SdtSpec SdtFlat SdtFock SdtDress SdtState CrccFock CrccHbar EomsdtModel EomsdtSpec EomsdtProofs.
From Verif Require CreomFock.
Import ListNotations.
Local Open Scope R_scope.

(** * Triple excitations are products of excitations *)
Definition triple_op (n1 n2 n3 m1 m2 m3 : nat) (t : mat6) (s1 s2 s3 : nat -> nat) : oper := fun psi D =>
  sumn n1 (fun a => sumn n2 (fun b => sumn n3 (fun c => sumn m1 (fun i => sumn m2 (fun j => sumn m3 (fun k =>
    t a b c i j k * cre (s1 (m1 + a)%nat) (cre (s2 (m2 + b)%nat) (cre (s3 (m3 + c)%nat) (ann (s3 k) (ann (s2 j) (ann (s1 i) psi))))) D)))))).
Lemma three_pairs p q r i j k psi : i <> q -> i <> r -> j <> r ->
  cre p (cre q (cre r (ann k (ann j (ann i psi))))) = cre p (ann i (cre q (ann j (cre r (ann k psi))))).
Proof.
  intros N1 N2 N3. rewrite (ann_cre_ne i q _ N1), (ann_cre_ne j r _ N3). rewrite !cre_neg, !ann_neg, !cre_neg.
  rewrite (ann_cre_ne i r _ N2). rewrite !cre_neg. apply ext_state; intros D. rewrite Ropp_involutive.
  assert (E : ann k (ann j (ann i psi)) = fun F => - ann i (ann j (ann k psi)) F).
  { apply ext_state; intros F. rewrite (ann_ann k j). replace (ann k (ann i psi)) with (fun G => - ann i (ann k psi) G) by (apply ext_state; intros; rewrite (ann_ann k i); ring).
    rewrite ann_neg, Ropp_involutive. rewrite (ann_ann j i). reflexivity. }
  rewrite E, !cre_neg. reflexivity.
Qed.
Section X.
Variables (d : dims).
Notation occs := (map al (seq 0 (noa d)) ++ map be (seq 0 (nob d))).
Notation ex := (exc (fun q => In q occs)).
Lemma triple_exc n1 n2 n3 m1 m2 m3 t s1 s2 s3 : (forall i, (i < m1)%nat -> In (s1 i) occs) -> (forall a, ~ In (s1 (m1 + a)%nat) occs) ->
  (forall i, (i < m2)%nat -> In (s2 i) occs) -> (forall a, ~ In (s2 (m2 + a)%nat) occs) ->
  (forall i, (i < m3)%nat -> In (s3 i) occs) -> (forall a, ~ In (s3 (m3 + a)%nat) occs) -> ex (triple_op n1 n2 n3 m1 m2 m3 t s1 s2 s3).
Proof.
  intros H1 H2 H3 H4 H5 H6.
  set (g := fun a b c i j k (psi : state) => cre (s1 (m1 + a)%nat) (ann (s1 i) (cre (s2 (m2 + b)%nat) (ann (s2 j) (cre (s3 (m3 + c)%nat) (ann (s3 k) psi)))))).
  replace (triple_op n1 n2 n3 m1 m2 m3 t s1 s2 s3) with (fun psi D => sumn n1 (fun a => sumn n2 (fun b => sumn n3 (fun c => sumn m1 (fun i => sumn m2 (fun j => sumn m3 (fun k =>
    t a b c i j k * g a b c i j k psi D))))))).
  - apply (exc_sum _ n1 (fun a psi D => sumn n2 (fun b => sumn n3 (fun c => sumn m1 (fun i => sumn m2 (fun j => sumn m3 (fun k => t a b c i j k * g a b c i j k psi D))))))). intros a _.
    apply (exc_sum _ n2 (fun b psi D => sumn n3 (fun c => sumn m1 (fun i => sumn m2 (fun j => sumn m3 (fun k => t a b c i j k * g a b c i j k psi D)))))). intros b _.
    apply (exc_sum _ n3 (fun c psi D => sumn m1 (fun i => sumn m2 (fun j => sumn m3 (fun k => t a b c i j k * g a b c i j k psi D))))). intros c _.
    apply (exc_sum _ m1 (fun i psi D => sumn m2 (fun j => sumn m3 (fun k => t a b c i j k * g a b c i j k psi D)))). intros i Hi.
    apply (exc_sum _ m2 (fun j psi D => sumn m3 (fun k => t a b c i j k * g a b c i j k psi D))). intros j Hj.
    apply (exc_sum _ m3 (fun k psi D => t a b c i j k * g a b c i j k psi D)). intros k Hk.
    apply (exc_scal _ (t a b c i j k) (g a b c i j k)). unfold g.
    apply (exc_comp _ (fun psi => cre (s1 (m1 + a)%nat) (ann (s1 i) psi)) (fun psi => cre (s2 (m2 + b)%nat) (ann (s2 j) (cre (s3 (m3 + c)%nat) (ann (s3 k) psi))))); [apply exc_pair; auto|].
    apply (exc_comp _ (fun psi => cre (s2 (m2 + b)%nat) (ann (s2 j) psi)) (fun psi => cre (s3 (m3 + c)%nat) (ann (s3 k) psi))); apply exc_pair; auto.
  - apply functional_extensionality; intros psi. apply ext_state; intros D. unfold triple_op, g.
    apply sumn_ext; intros a _; apply sumn_ext; intros b _; apply sumn_ext; intros c _; apply sumn_ext; intros i Hi; apply sumn_ext; intros j Hj; apply sumn_ext; intros k Hk. f_equal.
    rewrite three_pairs; [reflexivity| | |].
    + intros E. apply (H4 b). rewrite <- E. now apply H1.
    + intros E. apply (H6 c). rewrite <- E. now apply H1.
    + intros E. apply (H6 c). rewrite <- E. now apply H3.
Qed.
Lemma triples_eq T : triples d T = fun psi D => (((/ 36 * triple_op (nua d) (nua d) (nua d) (noa d) (noa d) (noa d) (x_aaa T) al al al psi D
   + / 4 * triple_op (nua d) (nua d) (nub d) (noa d) (noa d) (nob d) (x_aab T) al al be psi D)
   + / 4 * triple_op (nua d) (nub d) (nub d) (noa d) (nob d) (nob d) (x_abb T) al be be psi D)
   + / 36 * triple_op (nub d) (nub d) (nub d) (nob d) (nob d) (nob d) (x_bbb T) be be be psi D).
Proof. reflexivity. Qed.
Lemma triples_exc T : ex (triples d T).
Proof.
  assert (A1 : forall i, (i < noa d)%nat -> In (al i) occs) by (intros; now apply occ_al).
  assert (A2 : forall a, ~ In (al (noa d + a)%nat) occs) by (intros a C; apply occ_al in C; lia).
  assert (B1 : forall i, (i < nob d)%nat -> In (be i) occs) by (intros; now apply occ_be).
  assert (B2 : forall a, ~ In (be (nob d + a)%nat) occs) by (intros a C; apply occ_be in C; lia).
  rewrite triples_eq. apply (exc_add _ (fun psi D => _) (fun psi D => _)); [apply (exc_add _ (fun psi D => _) (fun psi D => _)); [apply (exc_add _ (fun psi D => _) (fun psi D => _))|]|];
    apply exc_scal; now apply triple_exc.
Qed.
Lemma sdt_exc T : ex (cluster_sdt d T). Proof. apply (exc_add _ (cluster_sd d T) (triples d T)); [apply cluster_exc|apply triples_exc]. Qed.
Lemma triple_line n1 n2 n3 m1 m2 m3 x y t s1 s2 s3 psi D : triple_op n1 n2 n3 m1 m2 m3 (fun a b c i j k => x a b c i j k + t * y a b c i j k) s1 s2 s3 psi D =
  triple_op n1 n2 n3 m1 m2 m3 x s1 s2 s3 psi D + t * triple_op n1 n2 n3 m1 m2 m3 y s1 s2 s3 psi D.
Proof. unfold triple_op. do 6 (rewrite <- sumn_scal, <- sumn_plus; apply sumn_ext; intros ? _). ring. Qed.
Lemma sdt_line T Y t : cluster_sdt d (amps_line T Y t) = fun psi D => cluster_sdt d T psi D + t * cluster_sdt d Y psi D.
Proof.
  apply functional_extensionality; intros psi. apply ext_state; intros D. unfold cluster_sdt. rewrite cluster_line, !triples_eq. cbn [amps_line x_aaa x_aab x_abb x_bbb]. rewrite !triple_line. ring.
Qed.
Notation ref := (reference (noa d) (nob d)).
Lemma dl_sdt T Y m D : dl (fun t => expo (cluster_sdt d (amps_line T Y t)) (S m) (pure ref) D) (cluster_sdt d Y (expo (cluster_sdt d T) m (pure ref)) D).
Proof.
  apply dl_ext with (f := fun t => expo (fun f E => cluster_sdt d T f E + t * cluster_sdt d Y f E) (S m) (pure ref) D).
  - intros t. now rewrite sdt_line.
  - apply dl_expo; [eapply exc_linear, sdt_exc|eapply exc_linear, sdt_exc|eapply exc_commute; apply sdt_exc].
Qed.
(** Derivative of an excitation operator with varying amplitudes on a varying state *)
Section L.
Variables (psi : R -> state) (psi' : state).
Hypothesis Hp : forall D, dl (fun t => psi t D) (psi' D).
Lemma dl_single nu no so (x : R -> nat -> nat -> R) x' : (forall a i, dl (fun t => x t a i) (x' a i)) ->
  forall D, dl (fun t => single_op nu no (x t) so (psi t) D) (single_op nu no x' so (psi 0) D + single_op nu no (x 0) so psi' D).
Proof.
  intros Hx D. unfold single_op. do 2 (rewrite <- sumn_plus; match goal with |- dl (fun t => sumn ?n (fun a => @?f a t)) _ => apply (dl_sum n f); intros ? _ end).
  apply dl_mul; [apply Hx|]. now apply smooth_cre, smooth_ann.
Qed.
Lemma dl_double n1 n2 m1 m2 s1 s2 (x : R -> nat -> nat -> nat -> nat -> R) x' : (forall a b i j, dl (fun t => x t a b i j) (x' a b i j)) ->
  forall D, dl (fun t => double_op n1 n2 m1 m2 (x t) s1 s2 (psi t) D) (double_op n1 n2 m1 m2 x' s1 s2 (psi 0) D + double_op n1 n2 m1 m2 (x 0) s1 s2 psi' D).
Proof.
  intros Hx D. unfold double_op. do 4 (rewrite <- sumn_plus; match goal with |- dl (fun t => sumn ?n (fun a => @?f a t)) _ => apply (dl_sum n f); intros ? _ end).
  apply dl_mul; [apply Hx|]. do 2 apply smooth_cre. do 2 apply smooth_ann. exact Hp.
Qed.
Lemma dl_triple n1 n2 n3 m1 m2 m3 s1 s2 s3 (x : R -> mat6) x' : (forall a b c i j k, dl (fun t => x t a b c i j k) (x' a b c i j k)) ->
  forall D, dl (fun t => triple_op n1 n2 n3 m1 m2 m3 (x t) s1 s2 s3 (psi t) D) (triple_op n1 n2 n3 m1 m2 m3 x' s1 s2 s3 (psi 0) D + triple_op n1 n2 n3 m1 m2 m3 (x 0) s1 s2 s3 psi' D).
Proof.
  intros Hx D. unfold triple_op. do 6 (rewrite <- sumn_plus; match goal with |- dl (fun t => sumn ?n (fun a => @?f a t)) _ => apply (dl_sum n f); intros ? _ end).
  apply dl_mul; [apply Hx|]. do 3 apply smooth_cre. do 3 apply smooth_ann. exact Hp.
Qed.
Lemma dl_cluster X X' D : jacobian3 X X' -> dl (fun t => cluster_sdt d (X t) (psi t) D) (cluster_sdt d X' (psi 0) D + cluster_sdt d (X 0) psi' D).
Proof.
  intros [J1 J2 J3 J4 J5 J6 J7 J8 J9]. unfold cluster_sdt, cluster_sd. 
  eapply dl_ext; [intros t; rewrite triples_eq; reflexivity|]. rewrite !triples_eq.
  eapply dl_at; [apply dl_add; [apply dl_add; [apply dl_add; [apply dl_add; [apply dl_add|]|]|]|apply dl_add; [apply dl_add; [apply dl_add|]|]]; try (apply dl_scal)|];
   [apply (dl_single _ _ al (fun t => x_a (X t))), J1|apply (dl_single _ _ be (fun t => x_b (X t))), J2|apply (dl_double _ _ _ _ al al (fun t => x_aa (X t))), J3|apply (dl_double _ _ _ _ al be (fun t => x_ab (X t))), J4
   |apply (dl_double _ _ _ _ be be (fun t => x_bb (X t))), J5|apply (dl_triple _ _ _ _ _ _ al al al (fun t => x_aaa (X t))), J6|apply (dl_triple _ _ _ _ _ _ al al be (fun t => x_aab (X t))), J7
   |apply (dl_triple _ _ _ _ _ _ al be be (fun t => x_abb (X t))), J8|apply (dl_triple _ _ _ _ _ _ be be be (fun t => x_bbb (X t))), J9|]. ring.
Qed.
End L.
End X.
(** (H - E) exp(T) |ref> = (X1 + X2 + X3) exp(T) |ref> up to triple excitations, X the residual *)
Section M.
Variables (d : dims) (n : nat).
Hypothesis En : (noa d + nua d = n)%nat.
Hypothesis En' : (nob d + nub d = n)%nat.
Notation ref := (reference (noa d) (nob d)).
Notation occs := (map al (seq 0 (noa d)) ++ map be (seq 0 (nob d))).
Lemma space_level D : sdt_space d n D -> (level occs D < 4)%nat.
Proof. intros (_ & _ & _ & K). rewrite level_empties. lia. Qed.
Lemma sdt_vanish X k f : vanish occs k f -> vanish occs (S k) (cluster_sdt d X f).
Proof. apply vanish_exc; [apply ref_nodup|apply sdt_exc]. Qed.
(** On the states with up to three excited electrons *)
Lemma clus_low T X m D : (noa d + nob d + 1 <= m)%nat -> (level occs D < 4)%nat ->
  cluster_sdt d X (expo (cluster_sdt d T) m (pure ref)) D = expo (ones d T) m (cluster_sdt d X (expo (cluster_sd d (bare T)) m (pure ref))) D.
Proof.
  intros Hm HD. set (phi := expo (cluster_sd d (bare T)) m (pure ref)).
  rewrite <- (commute_expo (cluster_sdt d X) (ones d T) m (sdt_linear d X) (sdt_commute d X _ (ones_exc d T))). unfold phi. rewrite <- (state_EX d T m ltac:(lia)). fold phi.
  set (chi := expo (cluster_sd d T) m (pure ref)). apply Rminus_diag_uniq.
  transitivity (cluster_sdt d X (fun F => expo (cluster_sdt d T) m (pure ref) F - chi F) D); [now rewrite (lin_sub _ _ _ (sdt_linear d X))|].
  apply (sdt_vanish X 3); [|lia]. intros F HF. rewrite (sdt_same d T m Hm) by lia. unfold with3. fold chi. rewrite (tri_vanish d T 0 chi (any_vanish d chi)) by lia. ring.
Qed.
Section A.
Variables (I : integrals) (T : amps) (m : nat).
Hypothesis HI : exchangeable I.
Hypothesis HT : antisym_amps T.
Hypothesis HY : triples_anti T.
Hypothesis Hm : (noa d + nob d + 4 <= m)%nat.
Notation H := (fock_ints (noa d) (nob d) I).
Notation E := (scf_energy (noa d) (nob d) I + cc_energy d H T).
Notation X := (ccsdt_resid d H T).
Notation psi := (expo (cluster_sdt d T) m (pure ref)).
Lemma sdt_split D : sdt_space d n D -> hamiltonian n I psi D = E * psi D + cluster_sdt d X psi D.
Proof.
  intros HD. assert (L := space_level D HD). assert (Hm' : (noa d + nob d < m)%nat) by lia.
  rewrite (cluster_same d X _ (resid_same d I T HI HT HY)). set (X' := ccsdt_resid d _ _).
  rewrite (clus_low T X' m D) by lia. rewrite (sdt_same_H d T I n m) by lia. rewrite (sdt_same d T m) by lia.
  set (phi := expo (cluster_sd d (bare T)) m (pure ref)).
  rewrite (state_EX d T m Hm'). fold phi. rewrite (commute_expo (with3 d T) (ones d T) m (with3_linear d T) (with3_commute d T _ (ones_exc d T))).
  rewrite (ham_EX d T n m En En' Hm' I). assert (LE := EX_linear d T m). set (EX := expo (ones d T) m) in *.
  assert (Z := defect_off d I T n m En En' HI HT HY Hm). assert (Z1 := proj2 (EX_off d T n m En En' Hm' (sdt_space d n) _ ltac:(now apply sector_downward)) Z D HD). clear Z.
  assert (Z : EX (fun D => (hamiltonian n (dressed d T I) (with3 d T phi) D - E * with3 d T phi D) - cluster_sdt d X' phi D) D = 0).
  { rewrite <- Z1. unfold EX. apply (f_equal (fun f => expo (ones d T) m f D)). apply ext_state; intros F. unfold sdt_defect. fold phi. rewrite (energy_shift d I T n m En En') by (assumption || lia). reflexivity. }
  rewrite (lin_sub EX _ _ LE), (lin_sub EX (hamiltonian n (dressed d T I) (with3 d T phi)) _ LE), (lin_scal EX _ _ LE) in Z. lra.
Qed.
End A.
(** Z exp(T) |ref> vanishes up to triple excitations only for Z = 0 *)
Lemma clus_off (T Z : amps) m : antisym_amps T -> antisym_amps Z -> triples_anti Z -> (noa d + nob d + 1 <= m)%nat -> (2 <= m)%nat ->
  (off_on (sdt_space d n) (cluster_sdt d Z (expo (cluster_sdt d T) m (pure ref))) <-> same_amps3 d Z zero_amps).
Proof.
  intros HT HZ HZ3 Hm Hm2. split.
  - intros K.
    assert (K1 : off_on (sdt_space d n) (cluster_sdt d Z (expo (cluster_sd d (bare T)) m (pure ref)))).
    { apply (EX_off d T n m En En' ltac:(lia)); [now apply sector_downward|]. intros D HD. rewrite <- clus_low by (try apply space_level; assumption || lia). now apply K. }
    set (I0 := mkIntegrals (fun _ _ => 0) (fun _ _ => 0) (fun _ _ _ _ => 0) (fun _ _ _ _ => 0) (fun _ _ _ _ => 0)).
    assert (HI : exchangeable I0) by (split; reflexivity).
    assert (F := proj1 (sdt_flat d n _ En En') K1). clear K K1. unfold same_amps3. cbn [zero_amps x_a x_b x_aa x_ab x_bb x_aaa x_aab x_abb x_bbb].
    destruct F as (_ & F1 & F2 & F3 & F4 & F5 & F6 & F7 & F8 & F9).
    assert (L1 : forall a i, (a < nua d)%nat -> (i < noa d)%nat -> x_a Z a i = 0).
    { intros a i Ha Hi. specialize (F1 a i Ha Hi). now rewrite (cx_comp_a d I0 T Z n m En En' HI HT HZ HZ3 Hm2) in F1 by assumption. }
    assert (L2 : forall a i, (a < nub d)%nat -> (i < nob d)%nat -> x_b Z a i = 0).
    { intros a i Ha Hi. specialize (F2 a i Ha Hi). now rewrite (cx_comp_b d I0 T Z n m En En' HI HT HZ HZ3 Hm2) in F2 by assumption. }
    split; [|split; [|split; [|split; [|split; [|split; [|split; [|split; [|]]]]]]]]; [exact L1|exact L2|..].
    + intros a b i j Ha Hb Hi Hj. specialize (F3 a b i j Ha Hb Hi Hj). now rewrite (cx_comp_aa d I0 T Z n m En En' HI HT HZ HZ3 Hm2) in F3 by assumption.
    + intros a b i j Ha Hb Hi Hj. specialize (F4 a b i j Ha Hb Hi Hj). now rewrite (cx_comp_ab d I0 T Z n m En En' HI HT HZ HZ3 Hm2) in F4 by assumption.
    + intros a b i j Ha Hb Hi Hj. specialize (F5 a b i j Ha Hb Hi Hj). now rewrite (cx_comp_bb d I0 T Z n m En En' HI HT HZ HZ3 Hm2) in F5 by assumption.
    + intros a b c i j k Ha Hb Hc Hi Hj Hk. specialize (F6 a b c i j k Ha Hb Hc Hi Hj Hk). rewrite (cx_comp_aaa d I0 T Z n m En En' HI HT HZ HZ3 Hm2), !L1 in F6 by assumption. rewrite <- F6. ring.
    + intros a b c i j k Ha Hb Hc Hi Hj Hk. specialize (F7 a b c i j k Ha Hb Hc Hi Hj Hk). rewrite (cx_comp_aab d I0 T Z n m En En' HI HT HZ HZ3 Hm2), !L1, !L2 in F7 by assumption. rewrite <- F7. ring.
    + intros a b c i j k Ha Hb Hc Hi Hj Hk. specialize (F8 a b c i j k Ha Hb Hc Hi Hj Hk). rewrite (cx_comp_abb d I0 T Z n m En En' HI HT HZ HZ3 Hm2), !L1, !L2 in F8 by assumption. rewrite <- F8. ring.
    + intros a b c i j k Ha Hb Hc Hi Hj Hk. specialize (F9 a b c i j k Ha Hb Hc Hi Hj Hk). rewrite (cx_comp_bbb d I0 T Z n m En En' HI HT HZ HZ3 Hm2), !L2 in F9 by assumption. rewrite <- F9. ring.
  - intros K D HD. rewrite (cluster_same d Z zero_amps K). unfold cluster_sdt, cluster_sd, triples, single_op, double_op. cbn [zero_amps x_a x_b x_aa x_ab x_bb x_aaa x_aab x_abb x_bbb].
    repeat (rewrite sumn_0; [|intros; repeat (apply sumn_0; intros); ring]). ring.
Qed.
End M.

(** * The eigenvalue problem *)
Lemma eomt_anti_d d H T R : antisym_amps (eomt_HR d H T R).
Proof.
  constructor; intros; cbn [eomt_HR x_aa x_bb];
   [unfold eomt_X2A_19, eomt_X2A_18|unfold eomt_X2A_19|unfold eomt_X2C_19, eomt_X2C_18|unfold eomt_X2C_19]; ring.
Qed.
Lemma eomt_anti_t d H T R : triples_anti (eomt_HR d H T R).
Proof.
  unfold triples_anti. cbn [eomt_HR x_aaa x_aab x_abb x_bbb].
  assert (A : forall f : mat6, let g := fun a b c i j k : nat => f a b c i j k - f a b c i k j in let h := fun a b c i j k : nat => g a b c i j k - (g a b c j i k + g a b c k j i) in
    let p := fun a b c i j k : nat => h a b c i j k - h a c b i j k in let q := fun a b c i j k : nat => p a b c i j k - (p b a c i j k + p c b a i j k) in
    forall a b c i j k, q a b c i j k = - q a b c j i k /\ q a b c i j k = - q a b c i k j /\ q a b c i j k = - q b a c i j k /\ q a b c i j k = - q a c b i j k).
  { intros f g h p q a b c i j k. unfold q, p, h, g. repeat split; ring. }
  repeat split; intros a b c i j k.
  - exact (proj1 (A (eomt_X3A_15 d H T R) a b c i j k)).
  - exact (proj1 (proj2 (A (eomt_X3A_15 d H T R) a b c i j k))).
  - exact (proj1 (proj2 (proj2 (A (eomt_X3A_15 d H T R) a b c i j k)))).
  - exact (proj2 (proj2 (proj2 (A (eomt_X3A_15 d H T R) a b c i j k)))).
  - unfold eomt_X3B_41. ring.
  - unfold eomt_X3B_41, eomt_X3B_40. ring.
  - unfold eomt_X3C_41, eomt_X3C_40. ring.
  - unfold eomt_X3C_41, eomt_X3C_40. ring.
  - exact (proj1 (A (eomt_X3D_15 d H T R) a b c i j k)).
  - exact (proj1 (proj2 (A (eomt_X3D_15 d H T R) a b c i j k))).
  - exact (proj1 (proj2 (proj2 (A (eomt_X3D_15 d H T R) a b c i j k)))).
  - exact (proj2 (proj2 (proj2 (A (eomt_X3D_15 d H T R) a b c i j k)))).
Qed.
Lemma triples_anti_line X Y t : triples_anti X -> triples_anti Y -> triples_anti (amps_line X Y t).
Proof.
  intros (A1 & A2 & A3 & A4 & A5 & A6 & A7 & A8 & A9 & A10 & A11 & A12) (B1 & B2 & B3 & B4 & B5 & B6 & B7 & B8 & B9 & B10 & B11 & B12).
  unfold triples_anti. cbn [amps_line x_aaa x_aab x_abb x_bbb]. repeat split; intros a b c i j k.
  - rewrite (A1 a b c i j k), (B1 a b c i j k). ring.
  - rewrite (A2 a b c i j k), (B2 a b c i j k). ring.
  - rewrite (A3 a b c i j k), (B3 a b c i j k). ring.
  - rewrite (A4 a b c i j k), (B4 a b c i j k). ring.
  - rewrite (A5 a b c i j k), (B5 a b c i j k). ring.
  - rewrite (A6 a b c i j k), (B6 a b c i j k). ring.
  - rewrite (A7 a b c i j k), (B7 a b c i j k). ring.
  - rewrite (A8 a b c i j k), (B8 a b c i j k). ring.
  - rewrite (A9 a b c i j k), (B9 a b c i j k). ring.
  - rewrite (A10 a b c i j k), (B10 a b c i j k). ring.
  - rewrite (A11 a b c i j k), (B11 a b c i j k). ring.
  - rewrite (A12 a b c i j k), (B12 a b c i j k). ring.
Qed.
Lemma r0_hbar d H T Y : r0_sum d (hbar_ccsdt d H T) Y = r0_sum d (hbar_ccsd d H T) Y.
Proof. reflexivity. Qed.
Section N.
Variables (d : dims) (I : integrals) (T Y : amps) (n m : nat).
Hypothesis En : (noa d + nua d = n)%nat.
Hypothesis En' : (nob d + nub d = n)%nat.
Hypothesis HI : exchangeable I.
Hypothesis HT : antisym_amps T.
Hypothesis HT3 : triples_anti T.
Hypothesis HY : antisym_amps Y.
Hypothesis HY3 : triples_anti Y.
Hypothesis Hm : (noa d + nob d + 4 <= m)%nat.
Notation H := (fock_ints (noa d) (nob d) I).
Notation ref := (reference (noa d) (nob d)).
Notation occs := (map al (seq 0 (noa d)) ++ map be (seq 0 (nob d))).
Notation psi := (expo (cluster_sdt d T) m (pure ref)).
Notation phi := (cluster_sdt d Y psi).
Notation T_ t := (amps_line T Y t).
Notation psi_ t := (expo (cluster_sdt d (T_ t)) (S m) (pure ref)).
Notation E := (scf_energy (noa d) (nob d) I + cc_energy d H T).
Notation E' := (r0_sum d (hbar_ccsdt d H T) Y).
Notation sg := (eomt_HR d (hbar_ccsdt d H T) T Y).
Hypothesis HR : same_amps3 d (ccsdt_resid d H T) zero_amps.
Lemma psi0 : psi_ 0 = psi.
Proof. rewrite amps_line0. apply (CreomFock.expo_stop d); [apply sdt_exc|lia]. Qed.
(** H R exp(T)|ref> = (E R + E') exp(T)|ref> + (sigma) exp(T)|ref> *)
Lemma eom_H D : sdt_space d n D -> hamiltonian n I phi D = E' * psi D + E * phi D + cluster_sdt d sg psi D.
Proof.
  intros HD. assert (HH := fock_ints_antisym _ _ _ HI : antisym_ints H).
  assert (P : forall F, dl (fun t => psi_ t F) (phi F)) by (intros F; apply dl_sdt).
  assert (L : dl (fun t => hamiltonian n I (psi_ t) D) (hamiltonian n I phi D)) by (apply (smooth_hamiltonian n I (fun t => psi_ t)); exact P).
  apply (dl_uniq _ _ _ L). eapply dl_ext; [intros t; symmetry; apply (sdt_split d n En En' I (T_ t) (S m) HI (antisym_line T Y t HT HY) (triples_anti_line T Y t HT3 HY3) ltac:(lia) D HD)|].
  eapply dl_at; [apply dl_add; [apply dl_mul; [|apply P]|]|].
  - apply dl_add; [apply derivable_pt_lim_const|now apply (C62_energy_gradient d H T Y)].
  - apply (dl_cluster d (fun t => psi_ t) phi P (fun t => ccsdt_resid d H (T_ t)) sg D). now apply jac3.
  - cbv beta. rewrite psi0, amps_line0, <- r0_hbar. rewrite (cluster_same d _ zero_amps HR).
    assert (Z : forall f, cluster_sdt d zero_amps f D = 0).
    { intros f. unfold cluster_sdt, cluster_sd, triples, single_op, double_op. cbn [zero_amps x_a x_b x_aa x_ab x_bb x_aaa x_aab x_abb x_bbb].
      repeat (rewrite sumn_0; [|intros; repeat (apply sumn_0; intros); ring]). ring. }
    rewrite Z. ring.
Qed.
Lemma psi_H D : sdt_space d n D -> hamiltonian n I psi D = E * psi D.
Proof. intros HD. now apply (proj2 (sdt_main d I T n m En En' HI HT HT3 Hm) HR). Qed.
Variables (r0 w : R).
Notation mix := (fun D => r0 * psi D + phi D).
Notation dif := (amps_line sg Y (- w)).
Lemma eom_defect3 D : sdt_space d n D -> hamiltonian n I mix D - (E + w) * mix D = (E' - w * r0) * psi D + cluster_sdt d dif psi D.
Proof.
  intros HD. rewrite (lin_add _ (fun D => r0 * psi D) phi (hamiltonian_linear n I)), (lin_scal _ r0 psi (hamiltonian_linear n I)). rewrite eom_H, psi_H by exact HD. rewrite sdt_line. ring.
Qed.
Lemma ref_norm : psi ref = 1.
Proof. destruct (sdt_ref d T I n m ltac:(lia)) as (-> & _). now destruct (C63_energy d I T n m (conj En En') HI HT ltac:(lia)) as (-> & _). Qed.
Lemma eomt_solves : sdt_space d n ref -> (solves_on (sdt_space d n) n I (E + w) mix <-> same_amps3 d sg (scale3 w Y) /\ E' = w * r0).
Proof.
  intros HD0.
  assert (AD : antisym_amps dif) by (apply antisym_line; [apply eomt_anti_d|exact HY]). assert (AT : triples_anti dif) by (apply triples_anti_line; [apply eomt_anti_t|exact HY3]).
  assert (Q := clus_off d n En En' T dif m HT AD AT ltac:(lia) ltac:(lia)).
  assert (S : same_amps3 d dif zero_amps <-> same_amps3 d sg (scale3 w Y)).
  { unfold same_amps3. cbn [amps_line zero_amps scale3 x_a x_b x_aa x_ab x_bb x_aaa x_aab x_abb x_bbb].
    split; intros (A1 & A2 & A3 & A4 & A5 & A6 & A7 & A8 & A9); repeat match goal with |- _ /\ _ => split end; intros;
    [assert (K := A1 a i)|assert (K := A2 a i)|assert (K := A3 a b i j)|assert (K := A4 a b i j)|assert (K := A5 a b i j)|assert (K := A6 a b c i j k)|assert (K := A7 a b c i j k)|assert (K := A8 a b c i j k)|assert (K := A9 a b c i j k)
    |assert (K := A1 a i)|assert (K := A2 a i)|assert (K := A3 a b i j)|assert (K := A4 a b i j)|assert (K := A5 a b i j)|assert (K := A6 a b c i j k)|assert (K := A7 a b c i j k)|assert (K := A8 a b c i j k)|assert (K := A9 a b c i j k)];
    repeat match type of K with ?P -> _ => specialize (K ltac:(assumption)) end; lra. }
  rewrite <- S, <- Q. split.
  - intros G.
    assert (G0 := eom_defect3 ref HD0). rewrite (G ref HD0), ref_norm in G0. 
    assert (V : cluster_sdt d dif psi ref = 0) by (apply (sdt_vanish d dif 0 psi (any_vanish d psi)); rewrite (ref_level d); lia). rewrite V in G0.
    assert (K : E' = w * r0) by lra. split; [|exact K]. intros D HD. assert (GD := eom_defect3 D HD). rewrite (G D HD), K in GD. lra.
  - intros (G & K) D HD. assert (GD := eom_defect3 D HD). rewrite (G D HD), K in GD. lra.
Qed.
End N.
