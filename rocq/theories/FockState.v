(** From lists of terms to states: the exponential of the cluster operator, and which of its terms can contribute to a projection (proof support). *)
From Coq Require Import Reals Arith NArith List Bool Lia Lra QArith Qreals ZArith FunctionalExtensionality.
From Verif Require Import RSum IntegralsModel TensorObjs TensorAlg TensorSpec FockSpec FockCar FockWick FockArrays FockCcSpec FockTerms FockHam FockExp FockLevel FockCheck.
Import ListNotations.
Local Open Scope R_scope.
Section F.
Variables (d : dims) (I : integrals) (T : amps) (n : nat).
Hypothesis En : (noa d + nua d = n)%nat.
Hypothesis En' : (nob d + nub d = n)%nat.
Notation H := (fock_ints (noa d) (nob d) I).
Notation ts := (tsem (noa d) (nob d) (fdim d) (ften H T)).
Notation ps := (psem (noa d) (nob d) (fdim d) (ften H T)).
Notation ref := (reference (noa d) (nob d)).
Notation vac := (pure ref).
Notation occs := (map al (seq 0 (noa d)) ++ map be (seq 0 (nob d))).
Definition X_a : oper := single_op (nua d) (noa d) (x_a T) al.
Definition X_b : oper := single_op (nub d) (nob d) (x_b T) be.
Definition X_aa : oper := fun psi D => / 4 * double_op (nua d) (nua d) (noa d) (noa d) (x_aa T) al al psi D.
Definition X_ab : oper := double_op (nua d) (nub d) (noa d) (nob d) (x_ab T) al be.
Definition X_bb : oper := fun psi D => / 4 * double_op (nub d) (nub d) (nob d) (nob d) (x_bb T) be be psi D.
Lemma cluster_total : cluster_sd d T = total [X_a; X_b; X_aa; X_ab; X_bb].
Proof. apply functional_extensionality; intros psi. apply ext_state; intros D. unfold cluster_sd. cbn [total]. unfold X_a, X_b, X_aa, X_ab, X_bb. ring. Qed.
Lemma occ_al i : In (al i) occs <-> (i < noa d)%nat.
Proof. clear En En'.
  rewrite in_app_iff, !in_map_iff. split.
  - intros [(x & E & Hx)|(x & E & Hx)]; unfold al, be in E; apply in_seq in Hx; lia.
  - intros Hi. left. exists i. split; [reflexivity|]. apply in_seq. lia.
Qed.
Lemma occ_be i : In (be i) occs <-> (i < nob d)%nat.
Proof. clear En En'.
  rewrite in_app_iff, !in_map_iff. split.
  - intros [(x & E & Hx)|(x & E & Hx)]; unfold al, be in E; apply in_seq in Hx; lia.
  - intros Hi. right. exists i. split; [reflexivity|]. apply in_seq. lia.
Qed.
Notation ex := (exc (fun q => In q occs)).
Lemma single_exc nu no t so : (forall i, (i < no)%nat -> In (so i) occs) -> (forall a, ~ In (so (no + a)%nat) occs) -> ex (single_op nu no t so).
Proof.
  intros H1 H2. unfold single_op. apply (exc_sum _ nu (fun a psi D => sumn no (fun i => t a i * cre (so (no + a)%nat) (ann (so i) psi) D))). intros a _.
  apply (exc_sum _ no (fun i psi D => t a i * cre (so (no + a)%nat) (ann (so i) psi) D)). intros i Hi.
  apply (exc_scal _ (t a i) (fun psi => cre (so (no + a)%nat) (ann (so i) psi))). apply exc_pair; [apply H2|now apply H1].
Qed.
Lemma double_exc nu1 nu2 no1 no2 t s1 s2 : (forall i, (i < no1)%nat -> In (s1 i) occs) -> (forall a, ~ In (s1 (no1 + a)%nat) occs) ->
  (forall i, (i < no2)%nat -> In (s2 i) occs) -> (forall a, ~ In (s2 (no2 + a)%nat) occs) -> ex (double_op nu1 nu2 no1 no2 t s1 s2).
Proof.
  intros H1 H2 H3 H4.
  replace (double_op nu1 nu2 no1 no2 t s1 s2) with (fun psi D => sumn nu1 (fun a => sumn nu2 (fun b => sumn no1 (fun i => sumn no2 (fun j =>
    t a b i j * (cre (s1 (no1 + a)%nat) (ann (s1 i) (cre (s2 (no2 + b)%nat) (ann (s2 j) psi)))) D))))).
  - apply (exc_sum _ nu1 (fun a psi D => sumn nu2 (fun b => sumn no1 (fun i => sumn no2 (fun j => t a b i j * cre (s1 (no1 + a)%nat) (ann (s1 i) (cre (s2 (no2 + b)%nat) (ann (s2 j) psi))) D))))). intros a _.
    apply (exc_sum _ nu2 (fun b psi D => sumn no1 (fun i => sumn no2 (fun j => t a b i j * cre (s1 (no1 + a)%nat) (ann (s1 i) (cre (s2 (no2 + b)%nat) (ann (s2 j) psi))) D)))). intros b _.
    apply (exc_sum _ no1 (fun i psi D => sumn no2 (fun j => t a b i j * cre (s1 (no1 + a)%nat) (ann (s1 i) (cre (s2 (no2 + b)%nat) (ann (s2 j) psi))) D))). intros i Hi.
    apply (exc_sum _ no2 (fun j psi D => t a b i j * cre (s1 (no1 + a)%nat) (ann (s1 i) (cre (s2 (no2 + b)%nat) (ann (s2 j) psi))) D)). intros j Hj.
    apply (exc_scal _ (t a b i j) (fun psi => cre (s1 (no1 + a)%nat) (ann (s1 i) (cre (s2 (no2 + b)%nat) (ann (s2 j) psi))))).
    apply (exc_comp _ (fun psi => cre (s1 (no1 + a)%nat) (ann (s1 i) psi)) (fun psi => cre (s2 (no2 + b)%nat) (ann (s2 j) psi))); apply exc_pair; auto.
  - apply functional_extensionality; intros psi. apply ext_state; intros D. unfold double_op.
    apply sumn_ext; intros a _; apply sumn_ext; intros b _; apply sumn_ext; intros i Hi; apply sumn_ext; intros j Hj. f_equal.
    assert (NE : s1 i <> s2 (no2 + b)%nat) by (intros E; apply (H4 b); rewrite <- E; now apply H1).
    rewrite (ann_cre_ne (s1 i) (s2 (no2 + b)%nat)) by exact NE.
    replace (ann (s1 i) (ann (s2 j) psi)) with (fun E => - ann (s2 j) (ann (s1 i) psi) E) by (apply ext_state; intros; rewrite (ann_ann (s1 i) (s2 j)); ring).
    rewrite !cre_neg. ring.
Qed.
Lemma ops_exc : Forall ex [X_a; X_b; X_aa; X_ab; X_bb].
Proof. clear En En'.
  assert (A1 : forall i, (i < noa d)%nat -> In (al i) occs) by (intros; now apply occ_al).
  assert (A2 : forall a, ~ In (al (noa d + a)%nat) occs) by (intros a C; apply occ_al in C; lia).
  assert (B1 : forall i, (i < nob d)%nat -> In (be i) occs) by (intros; now apply occ_be).
  assert (B2 : forall a, ~ In (be (nob d + a)%nat) occs) by (intros a C; apply occ_be in C; lia).
  repeat apply Forall_cons; try apply Forall_nil.
  - now apply single_exc.
  - now apply single_exc.
  - unfold X_aa. apply exc_scal. now apply double_exc.
  - now apply double_exc.
  - unfold X_bb. apply exc_scal. now apply double_exc.
Qed.
Lemma cluster_exc : ex (cluster_sd d T).
Proof. clear En En'.
  rewrite cluster_total. assert (O := ops_exc). inversion O as [|? ? O1 P1]; inversion P1 as [|? ? O2 P2]; inversion P2 as [|? ? O3 P3]; inversion P3 as [|? ? O4 P4]; inversion P4 as [|? ? O5 P5]; subst.
  cbn [total]. repeat apply exc_add; assumption.
Qed.
Lemma ops_stand : Forall2 (stands (noa d) (nob d) (fdim d) (ften H T)) t_ops [X_a; X_b; X_aa; X_ab; X_bb].
Proof. clear En En'.
  assert (W1 : forall q k c1 c2 z, within z (z + 4) (one_term q z k c1 c2)).
  { intros q k c1 c2 z. intros x Hx. unfold tvars, one_term in Hx. cbn in Hx. repeat (destruct Hx as [<-|Hx]; [lia|]). destruct Hx. }
  assert (W2 : forall q k c1 c2 c3 c4 z, within z (z + 4) (two_term q z k c1 c2 c3 c4)).
  { intros q k c1 c2 c3 c4 z. intros x Hx. unfold tvars, two_term in Hx. cbn in Hx. repeat (destruct Hx as [<-|Hx]; [lia|]). destruct Hx. }
  unfold t_ops. repeat apply Forall2_cons; try apply Forall2_nil; (split; [intros; apply W1 || apply W2|]); intros z v psi D; rewrite ?one_sem, ?two_sem, ?Q1, ?Q4;
    unfold X_a, X_b, X_aa, X_ab, X_bb, single_op, double_op, tenv, denv; cbn [nth fock_arrays ap2 ap4 orb]; ring.
Qed.
Lemma exps_ok k v psi : ps (exps k) v psi = dpow (cluster_sd d T) k psi.
Proof. clear En En'.
  apply ext_state; intros D. rewrite cluster_total. unfold exps. apply multi_ok; [exact ops_stand|discriminate|].
  assert (O := ops_exc). repeat match goal with H : Forall _ (_ :: _) |- _ => inversion H; subst; clear H end.
  repeat constructor; apply exc_commute with (occ := fun q => In q occs); assumption.
Qed.
Lemma h_psem v psi : ps (h_terms 4) v psi = hamiltonian n I psi.
Proof. apply ext_state; intros D. now apply h_sem. Qed.

(** A string applied to a state *)
Notation bra l v psi := (opsem (noa d) (nob d) l v psi ref).
Lemma bra_term l v psi D : ps [mkTerm 1 [] [] l] v psi D = opsem (noa d) (nob d) l v psi D.
Proof. rewrite psem_one. unfold tsem. cbn [t_c t_l t_f t_o ssum prodf]. rewrite Q1. ring. Qed.
Lemma bra_linear l v : linear (opsem (noa d) (nob d) l v).
Proof. intros a f b g. apply ext_state; intros D. apply opsem_lin. Qed.
Lemma vanish_opsem l : forall v k psi, vanish occs (length (filter o_d l) + k) psi -> vanish occs k (opsem (noa d) (nob d) l v psi).
Proof.
  assert (ND := ref_nodup (noa d) (nob d)).
  induction l as [|o l IH]; intros v k psi Hv; cbn [opsem]; [exact Hv|]. unfold ap. cbn [filter] in Hv. destruct (o_d o); cbn [length] in Hv.
  - apply vanish_cre; [exact ND|]. apply IH. now replace (length (filter o_d l) + S k)%nat with (S (length (filter o_d l)) + k)%nat by lia.
  - apply vanish_ann. now apply IH.
Qed.
Lemma ref_level : level occs ref = 0%nat. Proof. apply level_ref. Qed.
(** High powers do not reach the reference *)
Lemma high_bra l v m k : (length (filter o_d l) < k)%nat -> bra l v (dpow (cluster_sd d T) k m) = 0.
Proof.
  intros L. apply (vanish_opsem l v 1); [|rewrite ref_level; lia]. apply vanish_le with (m := k); [lia|]. apply vanish_scal. apply vanish_power; [apply ref_nodup|apply cluster_exc].
Qed.
Lemma high_bra_h l v m k : (length (filter o_d l) + 2 < k)%nat -> bra l v (hamiltonian n I (dpow (cluster_sd d T) k m)) = 0.
Proof.
  intros L. apply (vanish_opsem l v 1); [|rewrite ref_level; lia]. apply vanish_hamiltonian; [apply ref_nodup|].
  apply vanish_le with (m := k); [lia|]. apply vanish_scal. apply vanish_power; [apply ref_nodup|apply cluster_exc].
Qed.
Lemma expo_split X m psi : linear X -> (4 <= m)%nat -> (forall k, (4 < k)%nat -> X (dpow (cluster_sd d T) k psi) ref = 0) ->
  X (expo (cluster_sd d T) m psi) ref = X (dpow (cluster_sd d T) 0 psi) ref + X (dpow (cluster_sd d T) 1 psi) ref + X (dpow (cluster_sd d T) 2 psi) ref
    + X (dpow (cluster_sd d T) 3 psi) ref + X (dpow (cluster_sd d T) 4 psi) ref.
Proof.
  intros L Hm Hz. unfold expo. change (fun D => sumn (S m) (fun k => / INR (fact k) * power (cluster_sd d T) k psi D)) with (fun D => sumn (S m) (fun k => dpow (cluster_sd d T) k psi D)).
  rewrite (lin_sum X (S m) (fun k => dpow (cluster_sd d T) k psi) L). replace (S m) with (5 + (m - 4))%nat by lia. rewrite sumn_split.
  rewrite (sumn_0 (m - 4)) by (intros i Hi; apply Hz; lia). cbn [sumn]. ring.
Qed.
Definition heok (ext : list (nat * nat)) (l : list op) : bool :=
  apart [mkTerm 1 [] [] l] (h_terms 4) && (forallb (okterm ext) (hbra l) && forallb (okterm ext) [mkTerm 1 [] [] l])
  && forallb (fun k => apart (hbra l) (exps k) && apart [mkTerm 1 [] [] l] (exps k) && forallb (okterm ext) (exps k)) [0; 1; 2; 3; 4]%nat.
Lemma heexp_ok ext l v m : ext_ok (fdim d) ext v -> heok ext l = true -> (length (filter o_d l) <= 2)%nat -> (4 <= m)%nat ->
  ps (heexp l) v vac ref = bra l v (hamiltonian n I (expo (cluster_sd d T) m vac)).
Proof.
  intros HE HO HL Hm. unfold heok in HO. apply andb_prop in HO as (HO & HK). apply andb_prop in HO as (HA & HB). apply andb_prop in HB as (HB & _). rewrite forallb_forall in HK.
  assert (Lb : linear (fun psi => opsem (noa d) (nob d) l v (hamiltonian n I psi))) by (apply comp_linear; [apply bra_linear|apply hamiltonian_linear]).
  rewrite (expo_split _ m vac Lb Hm) by (intros k Hk; apply high_bra_h; lia).
  assert (EK : forall k, In k [0; 1; 2; 3; 4]%nat -> ps (pmulb (hbra l) (exps k)) v vac ref = bra l v (hamiltonian n I (dpow (cluster_sd d T) k vac))).
  { intros k Hk. specialize (HK k Hk). apply andb_prop in HK as (HK & K3). apply andb_prop in HK as (K1 & _).
    rewrite (pmulb_ok (noa d) (nob d) (fdim d) (ften H T) eq_refl eq_refl ext); [|exact HE|exact HB|exact K3|exact K1].
    unfold hbra. rewrite pmul_ok by exact HA. rewrite bra_term, h_psem, exps_ok. reflexivity. }
  unfold heexp. cbn [flat_map]. rewrite !psem_app. rewrite !EK by (cbn; tauto). unfold psem at 1. cbn [lsum]. ring.
Qed.
Lemma eexp_ok ext l v m : ext_ok (fdim d) ext v -> heok ext l = true -> (length (filter o_d l) <= 2)%nat -> (4 <= m)%nat ->
  ps (eexp l) v vac ref = bra l v (expo (cluster_sd d T) m vac).
Proof.
  intros HE HO HL Hm. unfold heok in HO. apply andb_prop in HO as (HO & HK). apply andb_prop in HO as (HA & HB). apply andb_prop in HB as (_ & HB). rewrite forallb_forall in HK.
  rewrite (expo_split _ m vac (bra_linear l v) Hm) by (intros k Hk; apply high_bra; lia).
  assert (EK : forall k, In k [0; 1; 2; 3; 4]%nat -> ps (pmulb [mkTerm 1 [] [] l] (exps k)) v vac ref = bra l v (dpow (cluster_sd d T) k vac)).
  { intros k Hk. specialize (HK k Hk). apply andb_prop in HK as (HK & K3). apply andb_prop in HK as (_ & K2).
    rewrite (pmulb_ok (noa d) (nob d) (fdim d) (ften H T) eq_refl eq_refl ext); [|exact HE|exact HB|exact K3|exact K2].
    rewrite bra_term, exps_ok. reflexivity. }
  unfold eexp. cbn [flat_map]. rewrite !psem_app. rewrite !EK by (cbn; tauto). unfold psem at 1. cbn [lsum]. ring.
Qed.
End F.
