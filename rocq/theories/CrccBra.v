(** Generated by tools/gen_crbra.py: moments, left amplitudes and denominators of CR-CC(2,3) as matrix elements of exp(-T) H exp(T) (proof support). *)
From Coq Require Import Reals Arith NArith List Bool Lia Lra FunctionalExtensionality.
From Verif Require Import RSum IntegralsModel TensorObjs TensorSpec IntsFix CcsdModel CcsdUpdate CcsdProps FockSpec FockCar FockArrays FockCcSpec FockHam FockExp FockLevel FockState FockSectorSpec FockFlip FockCount FockDress FockShift
  CcsdtModel CcsdtUpdate SdtSpec SdtFlat SdtFock SdtState HbarSpec HbarBlocks FockProj CrccModel CrccSpec CrccFock CrccHbar CrccPoly CrccDiag CrccKet CrccTrans.
Import ListNotations.
Local Open Scope R_scope.
Section K.
Variables (d : dims) (I : integrals) (T Y : amps) (n m : nat).
Hypothesis En : (noa d + nua d = n)%nat.
Hypothesis En' : (nob d + nub d = n)%nat.
Hypothesis HI : exchangeable I.
Hypothesis HT : antisym_amps T.
Hypothesis HY : triples_anti Y.
Hypothesis Hm : (noa d + nob d + 4 <= m)%nat.
Notation H := (fock_ints (noa d) (nob d) I).
Notation E := (scf_energy (noa d) (nob d) I + cc_energy d H T).
Notation ref := (reference (noa d) (nob d)).
Notation X := (ccsdt_resid d H (t3set T Y)).
Notation X0 := (ccsdt_resid d H (plain T)).
Notation S := (similar d n m I T).
Lemma set_anti : antisym_amps (t3set T Y). Proof. destruct HT. constructor; assumption. Qed.
Lemma set_tri : triples_anti (t3set T Y). Proof. exact HY. Qed.
Lemma plain_anti : antisym_amps (plain T). Proof. destruct HT. constructor; assumption. Qed.
Lemma plain_tri : triples_anti (plain T). Proof. unfold triples_anti, plain. cbn [x_aaa x_aab x_abb x_bbb]. repeat split; intros; ring. Qed.
Lemma plain_none psi D : triples d (plain T) psi D = 0.
Proof. unfold triples, plain. cbn [x_aaa x_aab x_abb x_bbb]. rewrite !zero6sum. ring. Qed.
Lemma plain_with : with3 d (plain T) (pure ref) = pure ref. Proof. apply ext_state; intros D. unfold with3. rewrite plain_none. ring. Qed.
Lemma S_linear : linear S.
Proof. unfold similar. apply (comp_linear (expo (negated (cluster_sd d T)) m) (fun psi => hamiltonian n I (expo (cluster_sd d T) m psi))); [apply unc_linear|]. apply (comp_linear (hamiltonian n I) (expo (cluster_sd d T) m)); [apply hamiltonian_linear|apply expo_linear, (exc_linear _ _ (cluster_exc d T))]. Qed.
Lemma S_ref D : sdt_space d n D -> S (pure ref) D = E * pure ref D + cluster_sdt d X0 (pure ref) D.
Proof. intros HD. assert (Q := similar_with3 d I (plain T) n m En En' HI plain_anti plain_tri Hm D HD). rewrite plain_with in Q. exact Q. Qed.
Lemma S_tri D : sdt_space d n D -> S (triples d Y (pure ref)) D = E * triples d Y (pure ref) D + (cluster_sdt d X (pure ref) D - cluster_sdt d X0 (pure ref) D).
Proof.
  intros HD. assert (Q := similar_with3 d I (t3set T Y) n m En En' HI set_anti set_tri Hm D HD). assert (Q0 := S_ref D HD).
  change (similar d n m I (t3set T Y)) with S in Q. change (with3 d (t3set T Y) (pure ref)) with (fun D => pure ref D + triples d Y (pure ref) D) in Q. change (cc_energy d H (t3set T Y)) with (cc_energy d H T) in Q.
  rewrite (lin_add S _ _ S_linear) in Q. cbv beta in Q. rewrite Q0 in Q. lra.
Qed.
Definition only3 : amps := just3 (x_aaa Y) (x_aab Y) (x_abb Y) (x_bbb Y).
Lemma only3_tri : triples_anti only3. Proof. exact HY. Qed.
Lemma only3_anti : antisym_amps only3. Proof. constructor; intros; cbn; ring. Qed.
Lemma only3_op : triples d Y (pure ref) = cluster_sdt d only3 (pure ref).
Proof.
  apply ext_state; intros D. unfold cluster_sdt, cluster_sd, single_op, double_op. unfold only3 at 1 2 3 4 5. cbn [just3 x_a x_b x_aa x_ab x_bb].
  assert (Z2 : forall n1 n2 F, sumn n1 (fun a => sumn n2 (fun b => 0 * F a b)) = 0) by (intros; repeat (apply sumn_0; intros ? _); ring).
  assert (Z4 : forall n1 n2 n3 n4 F, sumn n1 (fun a => sumn n2 (fun b => sumn n3 (fun c => sumn n4 (fun e => 0 * F a b c e)))) = 0) by (intros; repeat (apply sumn_0; intros ? _); ring).
  rewrite !Z2, !Z4. change (triples d only3) with (triples d Y). ring.
Qed.
Lemma dead_a l a : str (l ++ [(false, va d a)]) (pure ref) ref = 0.
Proof. assert (Q : str (l ++ [(false, va d a)]) (pure ref) = str l (ann (va d a) (pure ref))) by (induction l as [|[[] q] l IH]; [reflexivity|cbn [app str]; now rewrite IH..]). rewrite Q, pure_ann by (unfold va; rewrite ref_al; apply Nat.ltb_ge; lia). now rewrite (lin_zero _ (str_linear l)). Qed.
Lemma dead_b l a : str (l ++ [(false, vb d a)]) (pure ref) ref = 0.
Proof. assert (Q : str (l ++ [(false, vb d a)]) (pure ref) = str l (ann (vb d a) (pure ref))) by (induction l as [|[[] q] l IH]; [reflexivity|cbn [app str]; now rewrite IH..]). rewrite Q, pure_ann by (unfold vb; rewrite ref_be; apply Nat.ltb_ge; lia). now rewrite (lin_zero _ (str_linear l)). Qed.
Lemma flat_of f g : (forall D, sdt_space d n D -> f D = g D) -> forall D, sdt_space d n D -> (fun D => f D - g D) D = 0.
Proof. intros K D HD. cbv beta. rewrite (K D HD). ring. Qed.
Definition Gr : state := fun D => E * pure ref D + cluster_sdt d X0 (pure ref) D.
Definition Gt : state := fun D => E * triples d Y (pure ref) D + (cluster_sdt d X (pure ref) D - cluster_sdt d X0 (pure ref) D).
Lemma str_Gr l : str l Gr ref = E * str l (pure ref) ref + str l (cluster_sdt d X0 (pure ref)) ref.
Proof. unfold Gr. now rewrite (lin_add _ _ _ (str_linear l)), (lin_scal _ _ _ (str_linear l)). Qed.
Lemma str_Gt l : str l Gt ref = E * str l (cluster_sdt d only3 (pure ref)) ref + (str l (cluster_sdt d X (pure ref)) ref - str l (cluster_sdt d X0 (pure ref)) ref).
Proof. unfold Gt. rewrite only3_op. now rewrite (lin_add _ _ _ (str_linear l)), (lin_scal _ _ _ (str_linear l)), (lin_sub _ _ _ (str_linear l)). Qed.
Definition flat_r := proj1 (sdt_flat d n _ En En') (flat_of _ Gr S_ref).
Definition flat_t := proj1 (sdt_flat d n _ En En') (flat_of _ Gt S_tri).
Lemma r_ref : S (pure ref) ref = E.
Proof. destruct flat_r as (Q_ref & Q_a & Q_b & Q_aa & Q_ab & Q_bb & Q_aaa & Q_aab & Q_abb & Q_bbb). cbn [str] in Q_ref. assert (Z : Gr ref = E) by (unfold Gr; rewrite (c0_ref d X0 n En En' (anti_resid_d _ _ _) (anti_resid_t _ _ _)); unfold pure; rewrite N.eqb_refl; ring). lra. Qed.
Lemma t_ref : S (triples d Y (pure ref)) ref = 0.
Proof.
  destruct flat_t as (Q_ref & Q_a & Q_b & Q_aa & Q_ab & Q_bb & Q_aaa & Q_aab & Q_abb & Q_bbb). cbn [str] in Q_ref. assert (Z : Gt ref = 0); [|lra]. unfold Gt. rewrite only3_op.
  rewrite (c0_ref d X0 n En En' (anti_resid_d _ _ _) (anti_resid_t _ _ _)), (c0_ref d X n En En' (anti_resid_d _ _ _) (anti_resid_t _ _ _)), (c0_ref d only3 n En En' only3_anti only3_tri). ring.
Qed.
Lemma r_a a i : (a < nua d)%nat -> (i < noa d)%nat -> str [(true, oa i); (false, va d a)] (S (pure ref)) ref = x_a X0 a i.
Proof.
  intros Ha Hi. destruct flat_r as (Q_ref & Q_a & Q_b & Q_aa & Q_ab & Q_bb & Q_aaa & Q_aab & Q_abb & Q_bbb). specialize (Q_a a i Ha Hi). rewrite str_sub, str_Gr, (dead_a [(true, oa i)] a : str [(true, oa i); (false, va d a)] _ _ = 0), (c0_a d X0 n En En' (anti_resid_d _ _ _) (anti_resid_t _ _ _)) in Q_a by assumption. lra.
Qed.
Lemma t_a a i : (a < nua d)%nat -> (i < noa d)%nat -> str [(true, oa i); (false, va d a)] (S (triples d Y (pure ref))) ref = x_a X a i - x_a X0 a i.
Proof.
  intros Ha Hi. destruct flat_t as (Q_ref & Q_a & Q_b & Q_aa & Q_ab & Q_bb & Q_aaa & Q_aab & Q_abb & Q_bbb). specialize (Q_a a i Ha Hi).
  rewrite str_sub, str_Gt, (c0_a d X0 n En En' (anti_resid_d _ _ _) (anti_resid_t _ _ _)), (c0_a d X n En En' (anti_resid_d _ _ _) (anti_resid_t _ _ _)), (c0_a d only3 n En En' only3_anti only3_tri) in Q_a by assumption.
  change (x_a only3 a i) with 0 in Q_a. lra.
Qed.
Lemma r_b a i : (a < nub d)%nat -> (i < nob d)%nat -> str [(true, ob i); (false, vb d a)] (S (pure ref)) ref = x_b X0 a i.
Proof.
  intros Ha Hi. destruct flat_r as (Q_ref & Q_a & Q_b & Q_aa & Q_ab & Q_bb & Q_aaa & Q_aab & Q_abb & Q_bbb). specialize (Q_b a i Ha Hi). rewrite str_sub, str_Gr, (dead_b [(true, ob i)] a : str [(true, ob i); (false, vb d a)] _ _ = 0), (c0_b d X0 n En En' (anti_resid_d _ _ _) (anti_resid_t _ _ _)) in Q_b by assumption. lra.
Qed.
Lemma t_b a i : (a < nub d)%nat -> (i < nob d)%nat -> str [(true, ob i); (false, vb d a)] (S (triples d Y (pure ref))) ref = x_b X a i - x_b X0 a i.
Proof.
  intros Ha Hi. destruct flat_t as (Q_ref & Q_a & Q_b & Q_aa & Q_ab & Q_bb & Q_aaa & Q_aab & Q_abb & Q_bbb). specialize (Q_b a i Ha Hi).
  rewrite str_sub, str_Gt, (c0_b d X0 n En En' (anti_resid_d _ _ _) (anti_resid_t _ _ _)), (c0_b d X n En En' (anti_resid_d _ _ _) (anti_resid_t _ _ _)), (c0_b d only3 n En En' only3_anti only3_tri) in Q_b by assumption.
  change (x_b only3 a i) with 0 in Q_b. lra.
Qed.
Lemma r_aa a b i j : (a < nua d)%nat -> (b < nua d)%nat -> (i < noa d)%nat -> (j < noa d)%nat -> str [(true, oa i); (true, oa j); (false, va d b); (false, va d a)] (S (pure ref)) ref = x_aa X0 a b i j.
Proof.
  intros Ha Hb Hi Hj. destruct flat_r as (Q_ref & Q_a & Q_b & Q_aa & Q_ab & Q_bb & Q_aaa & Q_aab & Q_abb & Q_bbb). specialize (Q_aa a b i j Ha Hb Hi Hj). rewrite str_sub, str_Gr, (dead_a [(true, oa i); (true, oa j); (false, va d b)] a : str [(true, oa i); (true, oa j); (false, va d b); (false, va d a)] _ _ = 0), (c0_aa d X0 n En En' (anti_resid_d _ _ _) (anti_resid_t _ _ _)) in Q_aa by assumption. lra.
Qed.
Lemma t_aa a b i j : (a < nua d)%nat -> (b < nua d)%nat -> (i < noa d)%nat -> (j < noa d)%nat -> str [(true, oa i); (true, oa j); (false, va d b); (false, va d a)] (S (triples d Y (pure ref))) ref = x_aa X a b i j - x_aa X0 a b i j.
Proof.
  intros Ha Hb Hi Hj. destruct flat_t as (Q_ref & Q_a & Q_b & Q_aa & Q_ab & Q_bb & Q_aaa & Q_aab & Q_abb & Q_bbb). specialize (Q_aa a b i j Ha Hb Hi Hj).
  rewrite str_sub, str_Gt, (c0_aa d X0 n En En' (anti_resid_d _ _ _) (anti_resid_t _ _ _)), (c0_aa d X n En En' (anti_resid_d _ _ _) (anti_resid_t _ _ _)), (c0_aa d only3 n En En' only3_anti only3_tri) in Q_aa by assumption.
  change (x_aa only3 a b i j) with 0 in Q_aa. lra.
Qed.
Lemma r_ab a b i j : (a < nua d)%nat -> (b < nub d)%nat -> (i < noa d)%nat -> (j < nob d)%nat -> str [(true, oa i); (true, ob j); (false, vb d b); (false, va d a)] (S (pure ref)) ref = x_ab X0 a b i j.
Proof.
  intros Ha Hb Hi Hj. destruct flat_r as (Q_ref & Q_a & Q_b & Q_aa & Q_ab & Q_bb & Q_aaa & Q_aab & Q_abb & Q_bbb). specialize (Q_ab a b i j Ha Hb Hi Hj). rewrite str_sub, str_Gr, (dead_a [(true, oa i); (true, ob j); (false, vb d b)] a : str [(true, oa i); (true, ob j); (false, vb d b); (false, va d a)] _ _ = 0), (c0_ab d X0 n En En' (anti_resid_d _ _ _) (anti_resid_t _ _ _)) in Q_ab by assumption. lra.
Qed.
Lemma t_ab a b i j : (a < nua d)%nat -> (b < nub d)%nat -> (i < noa d)%nat -> (j < nob d)%nat -> str [(true, oa i); (true, ob j); (false, vb d b); (false, va d a)] (S (triples d Y (pure ref))) ref = x_ab X a b i j - x_ab X0 a b i j.
Proof.
  intros Ha Hb Hi Hj. destruct flat_t as (Q_ref & Q_a & Q_b & Q_aa & Q_ab & Q_bb & Q_aaa & Q_aab & Q_abb & Q_bbb). specialize (Q_ab a b i j Ha Hb Hi Hj).
  rewrite str_sub, str_Gt, (c0_ab d X0 n En En' (anti_resid_d _ _ _) (anti_resid_t _ _ _)), (c0_ab d X n En En' (anti_resid_d _ _ _) (anti_resid_t _ _ _)), (c0_ab d only3 n En En' only3_anti only3_tri) in Q_ab by assumption.
  change (x_ab only3 a b i j) with 0 in Q_ab. lra.
Qed.
Lemma r_bb a b i j : (a < nub d)%nat -> (b < nub d)%nat -> (i < nob d)%nat -> (j < nob d)%nat -> str [(true, ob i); (true, ob j); (false, vb d b); (false, vb d a)] (S (pure ref)) ref = x_bb X0 a b i j.
Proof.
  intros Ha Hb Hi Hj. destruct flat_r as (Q_ref & Q_a & Q_b & Q_aa & Q_ab & Q_bb & Q_aaa & Q_aab & Q_abb & Q_bbb). specialize (Q_bb a b i j Ha Hb Hi Hj). rewrite str_sub, str_Gr, (dead_b [(true, ob i); (true, ob j); (false, vb d b)] a : str [(true, ob i); (true, ob j); (false, vb d b); (false, vb d a)] _ _ = 0), (c0_bb d X0 n En En' (anti_resid_d _ _ _) (anti_resid_t _ _ _)) in Q_bb by assumption. lra.
Qed.
Lemma t_bb a b i j : (a < nub d)%nat -> (b < nub d)%nat -> (i < nob d)%nat -> (j < nob d)%nat -> str [(true, ob i); (true, ob j); (false, vb d b); (false, vb d a)] (S (triples d Y (pure ref))) ref = x_bb X a b i j - x_bb X0 a b i j.
Proof.
  intros Ha Hb Hi Hj. destruct flat_t as (Q_ref & Q_a & Q_b & Q_aa & Q_ab & Q_bb & Q_aaa & Q_aab & Q_abb & Q_bbb). specialize (Q_bb a b i j Ha Hb Hi Hj).
  rewrite str_sub, str_Gt, (c0_bb d X0 n En En' (anti_resid_d _ _ _) (anti_resid_t _ _ _)), (c0_bb d X n En En' (anti_resid_d _ _ _) (anti_resid_t _ _ _)), (c0_bb d only3 n En En' only3_anti only3_tri) in Q_bb by assumption.
  change (x_bb only3 a b i j) with 0 in Q_bb. lra.
Qed.
Lemma r_aaa a b c i j k : (a < nua d)%nat -> (b < nua d)%nat -> (c < nua d)%nat -> (i < noa d)%nat -> (j < noa d)%nat -> (k < noa d)%nat -> str [(true, oa i); (true, oa j); (true, oa k); (false, va d c); (false, va d b); (false, va d a)] (S (pure ref)) ref = x_aaa X0 a b c i j k.
Proof.
  intros Ha Hb Hc Hi Hj Hk. destruct flat_r as (Q_ref & Q_a & Q_b & Q_aa & Q_ab & Q_bb & Q_aaa & Q_aab & Q_abb & Q_bbb). specialize (Q_aaa a b c i j k Ha Hb Hc Hi Hj Hk). rewrite str_sub, str_Gr, (dead_a [(true, oa i); (true, oa j); (true, oa k); (false, va d c); (false, va d b)] a : str [(true, oa i); (true, oa j); (true, oa k); (false, va d c); (false, va d b); (false, va d a)] _ _ = 0), (c0_aaa d X0 n En En' (anti_resid_d _ _ _) (anti_resid_t _ _ _)) in Q_aaa by assumption. lra.
Qed.
Lemma t_aaa a b c i j k : (a < nua d)%nat -> (b < nua d)%nat -> (c < nua d)%nat -> (i < noa d)%nat -> (j < noa d)%nat -> (k < noa d)%nat -> str [(true, oa i); (true, oa j); (true, oa k); (false, va d c); (false, va d b); (false, va d a)] (S (triples d Y (pure ref))) ref = E * x_aaa Y a b c i j k + (x_aaa X a b c i j k - x_aaa X0 a b c i j k).
Proof.
  intros Ha Hb Hc Hi Hj Hk. destruct flat_t as (Q_ref & Q_a & Q_b & Q_aa & Q_ab & Q_bb & Q_aaa & Q_aab & Q_abb & Q_bbb). specialize (Q_aaa a b c i j k Ha Hb Hc Hi Hj Hk).
  rewrite str_sub, str_Gt, (c0_aaa d X0 n En En' (anti_resid_d _ _ _) (anti_resid_t _ _ _)), (c0_aaa d X n En En' (anti_resid_d _ _ _) (anti_resid_t _ _ _)), (c0_aaa d only3 n En En' only3_anti only3_tri) in Q_aaa by assumption.
  change (x_aaa only3 a b c i j k) with (x_aaa Y a b c i j k) in Q_aaa. lra.
Qed.
Lemma r_aab a b c i j k : (a < nua d)%nat -> (b < nua d)%nat -> (c < nub d)%nat -> (i < noa d)%nat -> (j < noa d)%nat -> (k < nob d)%nat -> str [(true, oa i); (true, oa j); (true, ob k); (false, vb d c); (false, va d b); (false, va d a)] (S (pure ref)) ref = x_aab X0 a b c i j k.
Proof.
  intros Ha Hb Hc Hi Hj Hk. destruct flat_r as (Q_ref & Q_a & Q_b & Q_aa & Q_ab & Q_bb & Q_aaa & Q_aab & Q_abb & Q_bbb). specialize (Q_aab a b c i j k Ha Hb Hc Hi Hj Hk). rewrite str_sub, str_Gr, (dead_a [(true, oa i); (true, oa j); (true, ob k); (false, vb d c); (false, va d b)] a : str [(true, oa i); (true, oa j); (true, ob k); (false, vb d c); (false, va d b); (false, va d a)] _ _ = 0), (c0_aab d X0 n En En' (anti_resid_d _ _ _) (anti_resid_t _ _ _)) in Q_aab by assumption. lra.
Qed.
Lemma t_aab a b c i j k : (a < nua d)%nat -> (b < nua d)%nat -> (c < nub d)%nat -> (i < noa d)%nat -> (j < noa d)%nat -> (k < nob d)%nat -> str [(true, oa i); (true, oa j); (true, ob k); (false, vb d c); (false, va d b); (false, va d a)] (S (triples d Y (pure ref))) ref = E * x_aab Y a b c i j k + (x_aab X a b c i j k - x_aab X0 a b c i j k).
Proof.
  intros Ha Hb Hc Hi Hj Hk. destruct flat_t as (Q_ref & Q_a & Q_b & Q_aa & Q_ab & Q_bb & Q_aaa & Q_aab & Q_abb & Q_bbb). specialize (Q_aab a b c i j k Ha Hb Hc Hi Hj Hk).
  rewrite str_sub, str_Gt, (c0_aab d X0 n En En' (anti_resid_d _ _ _) (anti_resid_t _ _ _)), (c0_aab d X n En En' (anti_resid_d _ _ _) (anti_resid_t _ _ _)), (c0_aab d only3 n En En' only3_anti only3_tri) in Q_aab by assumption.
  change (x_aab only3 a b c i j k) with (x_aab Y a b c i j k) in Q_aab. lra.
Qed.
Lemma r_abb a b c i j k : (a < nua d)%nat -> (b < nub d)%nat -> (c < nub d)%nat -> (i < noa d)%nat -> (j < nob d)%nat -> (k < nob d)%nat -> str [(true, oa i); (true, ob j); (true, ob k); (false, vb d c); (false, vb d b); (false, va d a)] (S (pure ref)) ref = x_abb X0 a b c i j k.
Proof.
  intros Ha Hb Hc Hi Hj Hk. destruct flat_r as (Q_ref & Q_a & Q_b & Q_aa & Q_ab & Q_bb & Q_aaa & Q_aab & Q_abb & Q_bbb). specialize (Q_abb a b c i j k Ha Hb Hc Hi Hj Hk). rewrite str_sub, str_Gr, (dead_a [(true, oa i); (true, ob j); (true, ob k); (false, vb d c); (false, vb d b)] a : str [(true, oa i); (true, ob j); (true, ob k); (false, vb d c); (false, vb d b); (false, va d a)] _ _ = 0), (c0_abb d X0 n En En' (anti_resid_d _ _ _) (anti_resid_t _ _ _)) in Q_abb by assumption. lra.
Qed.
Lemma t_abb a b c i j k : (a < nua d)%nat -> (b < nub d)%nat -> (c < nub d)%nat -> (i < noa d)%nat -> (j < nob d)%nat -> (k < nob d)%nat -> str [(true, oa i); (true, ob j); (true, ob k); (false, vb d c); (false, vb d b); (false, va d a)] (S (triples d Y (pure ref))) ref = E * x_abb Y a b c i j k + (x_abb X a b c i j k - x_abb X0 a b c i j k).
Proof.
  intros Ha Hb Hc Hi Hj Hk. destruct flat_t as (Q_ref & Q_a & Q_b & Q_aa & Q_ab & Q_bb & Q_aaa & Q_aab & Q_abb & Q_bbb). specialize (Q_abb a b c i j k Ha Hb Hc Hi Hj Hk).
  rewrite str_sub, str_Gt, (c0_abb d X0 n En En' (anti_resid_d _ _ _) (anti_resid_t _ _ _)), (c0_abb d X n En En' (anti_resid_d _ _ _) (anti_resid_t _ _ _)), (c0_abb d only3 n En En' only3_anti only3_tri) in Q_abb by assumption.
  change (x_abb only3 a b c i j k) with (x_abb Y a b c i j k) in Q_abb. lra.
Qed.
Lemma r_bbb a b c i j k : (a < nub d)%nat -> (b < nub d)%nat -> (c < nub d)%nat -> (i < nob d)%nat -> (j < nob d)%nat -> (k < nob d)%nat -> str [(true, ob i); (true, ob j); (true, ob k); (false, vb d c); (false, vb d b); (false, vb d a)] (S (pure ref)) ref = x_bbb X0 a b c i j k.
Proof.
  intros Ha Hb Hc Hi Hj Hk. destruct flat_r as (Q_ref & Q_a & Q_b & Q_aa & Q_ab & Q_bb & Q_aaa & Q_aab & Q_abb & Q_bbb). specialize (Q_bbb a b c i j k Ha Hb Hc Hi Hj Hk). rewrite str_sub, str_Gr, (dead_b [(true, ob i); (true, ob j); (true, ob k); (false, vb d c); (false, vb d b)] a : str [(true, ob i); (true, ob j); (true, ob k); (false, vb d c); (false, vb d b); (false, vb d a)] _ _ = 0), (c0_bbb d X0 n En En' (anti_resid_d _ _ _) (anti_resid_t _ _ _)) in Q_bbb by assumption. lra.
Qed.
Lemma t_bbb a b c i j k : (a < nub d)%nat -> (b < nub d)%nat -> (c < nub d)%nat -> (i < nob d)%nat -> (j < nob d)%nat -> (k < nob d)%nat -> str [(true, ob i); (true, ob j); (true, ob k); (false, vb d c); (false, vb d b); (false, vb d a)] (S (triples d Y (pure ref))) ref = E * x_bbb Y a b c i j k + (x_bbb X a b c i j k - x_bbb X0 a b c i j k).
Proof.
  intros Ha Hb Hc Hi Hj Hk. destruct flat_t as (Q_ref & Q_a & Q_b & Q_aa & Q_ab & Q_bb & Q_aaa & Q_aab & Q_abb & Q_bbb). specialize (Q_bbb a b c i j k Ha Hb Hc Hi Hj Hk).
  rewrite str_sub, str_Gt, (c0_bbb d X0 n En En' (anti_resid_d _ _ _) (anti_resid_t _ _ _)), (c0_bbb d X n En En' (anti_resid_d _ _ _) (anti_resid_t _ _ _)), (c0_bbb d only3 n En En' only3_anti only3_tri) in Q_bbb by assumption.
  change (x_bbb only3 a b c i j k) with (x_bbb Y a b c i j k) in Q_bbb. lra.
Qed.
Lemma left_tri L : left_sd d L (S (triples d Y (pure ref))) = left_pair d L X - left_pair d L X0.
Proof.
  unfold left_sd, left_pair. rewrite t_ref, Rplus_0_l.
  assert (S2 : forall n1 n2 x f g h, (forall a i, (a < n1)%nat -> (i < n2)%nat -> f a i = g a i - h a i) -> sumn n1 (fun a => sumn n2 (fun i => x a i * f a i)) = sumn n1 (fun a => sumn n2 (fun i => x a i * g a i)) - sumn n1 (fun a => sumn n2 (fun i => x a i * h a i))).
  { intros n1 n2 x f g h K. rewrite <- sumn_minus. apply sumn_ext; intros a Ha. rewrite <- sumn_minus. apply sumn_ext; intros i Hi. rewrite K by assumption. ring. }
  assert (S4 : forall n1 n2 n3 n4 x f g h, (forall a b i j, (a < n1)%nat -> (b < n2)%nat -> (i < n3)%nat -> (j < n4)%nat -> f a b i j = g a b i j - h a b i j) ->
    sumn n1 (fun a => sumn n2 (fun b => sumn n3 (fun i => sumn n4 (fun j => x a b i j * f a b i j)))) = sumn n1 (fun a => sumn n2 (fun b => sumn n3 (fun i => sumn n4 (fun j => x a b i j * g a b i j)))) - sumn n1 (fun a => sumn n2 (fun b => sumn n3 (fun i => sumn n4 (fun j => x a b i j * h a b i j))))).
  { intros n1 n2 n3 n4 x f g h K. rewrite <- sumn_minus. apply sumn_ext; intros a Ha. rewrite <- sumn_minus. apply sumn_ext; intros b Hb. rewrite <- sumn_minus. apply sumn_ext; intros i Hi. rewrite <- sumn_minus. apply sumn_ext; intros j Hj. rewrite K by assumption. ring. }
  rewrite (S2 (nua d) (noa d) (x_a L) _ (x_a X) (x_a X0)) by exact t_a. rewrite (S2 (nub d) (nob d) (x_b L) _ (x_b X) (x_b X0)) by exact t_b.
  rewrite (S4 (nua d) (nua d) (noa d) (noa d) (x_aa L) _ (x_aa X) (x_aa X0)) by exact t_aa. rewrite (S4 (nua d) (nub d) (noa d) (nob d) (x_ab L) _ (x_ab X) (x_ab X0)) by exact t_ab. rewrite (S4 (nub d) (nub d) (nob d) (nob d) (x_bb L) _ (x_bb X) (x_bb X0)) by exact t_bb.
  field.
Qed.
Lemma pair_same L Z Z' : same_amps3 d Z Z' -> left_pair d L Z = left_pair d L Z'.
Proof.
  intros (B1 & B2 & B3 & B4 & B5 & _). unfold left_pair.
  repeat match goal with |- _ + _ = _ + _ => apply f_equal2 | |- 1 / 4 * _ = 1 / 4 * _ => apply f_equal end; repeat (apply sumn_ext; intros ? ?); apply f_equal; auto.
Qed.
Notation TY := (t3set T Y).
Notation H' := (fock_ints (noa d) (nob d) (dressed d TY I)).
Notation HB' := (hbar_ccsd d H' (bare TY)).
Lemma left_dressed L H0 : antisym_amps L -> left_sd d L (S (triples d Y (pure ref))) = right_pair d Y (crcc_L_aaa d H0 HB' (bare TY) L) (crcc_L_aab d H0 HB' (bare TY) L) (crcc_L_abb d H0 HB' (bare TY) L) (crcc_L_bbb d H0 HB' (bare TY) L).
Proof.
  intros HL. rewrite left_tri, (pair_same L _ _ (resid_same d I TY HI set_anti set_tri)), (pair_same L _ _ (resid_same d I (plain T) HI plain_anti plain_tri)).
  exact (poly_pair d (dressed d TY I) TY L H0 (dressed_exch d TY I HI) set_anti set_tri HL).
Qed.
Lemma agree_TY : ints_agree d (hbar_ccsd d H T) HB'. Proof. exact (hbar_agree d I TY HI set_anti). Qed.
Lemma diff_aaa a b c i j k : (a < nua d)%nat -> (b < nua d)%nat -> (c < nua d)%nat -> (i < noa d)%nat -> (j < noa d)%nat -> (k < noa d)%nat -> x_aaa X a b c i j k - x_aaa X0 a b c i j k = x_aaa (ccsdt_resid d H' (bare TY)) a b c i j k - x_aaa (ccsdt_resid d H' (plain (bare TY))) a b c i j k.
Proof.
  intros. destruct (resid_same d I TY HI set_anti set_tri) as (B1 & B2 & B3 & B4 & B5 & B6 & B7 & B8 & B9). rewrite B6 by assumption. clear B1  B2  B3  B4  B5  B6  B7  B8  B9.
  destruct (resid_same d I (plain T) HI plain_anti plain_tri) as (B1 & B2 & B3 & B4 & B5 & B6 & B7 & B8 & B9). rewrite B6 by assumption. reflexivity.
Qed.
Lemma diff_aab a b c i j k : (a < nua d)%nat -> (b < nua d)%nat -> (c < nub d)%nat -> (i < noa d)%nat -> (j < noa d)%nat -> (k < nob d)%nat -> x_aab X a b c i j k - x_aab X0 a b c i j k = x_aab (ccsdt_resid d H' (bare TY)) a b c i j k - x_aab (ccsdt_resid d H' (plain (bare TY))) a b c i j k.
Proof.
  intros. destruct (resid_same d I TY HI set_anti set_tri) as (B1 & B2 & B3 & B4 & B5 & B6 & B7 & B8 & B9). rewrite B7 by assumption. clear B1  B2  B3  B4  B5  B6  B7  B8  B9.
  destruct (resid_same d I (plain T) HI plain_anti plain_tri) as (B1 & B2 & B3 & B4 & B5 & B6 & B7 & B8 & B9). rewrite B7 by assumption. reflexivity.
Qed.
Lemma diff_abb a b c i j k : (a < nua d)%nat -> (b < nub d)%nat -> (c < nub d)%nat -> (i < noa d)%nat -> (j < nob d)%nat -> (k < nob d)%nat -> x_abb X a b c i j k - x_abb X0 a b c i j k = x_abb (ccsdt_resid d H' (bare TY)) a b c i j k - x_abb (ccsdt_resid d H' (plain (bare TY))) a b c i j k.
Proof.
  intros. destruct (resid_same d I TY HI set_anti set_tri) as (B1 & B2 & B3 & B4 & B5 & B6 & B7 & B8 & B9). rewrite B8 by assumption. clear B1  B2  B3  B4  B5  B6  B7  B8  B9.
  destruct (resid_same d I (plain T) HI plain_anti plain_tri) as (B1 & B2 & B3 & B4 & B5 & B6 & B7 & B8 & B9). rewrite B8 by assumption. reflexivity.
Qed.
Lemma diff_bbb a b c i j k : (a < nub d)%nat -> (b < nub d)%nat -> (c < nub d)%nat -> (i < nob d)%nat -> (j < nob d)%nat -> (k < nob d)%nat -> x_bbb X a b c i j k - x_bbb X0 a b c i j k = x_bbb (ccsdt_resid d H' (bare TY)) a b c i j k - x_bbb (ccsdt_resid d H' (plain (bare TY))) a b c i j k.
Proof.
  intros. destruct (resid_same d I TY HI set_anti set_tri) as (B1 & B2 & B3 & B4 & B5 & B6 & B7 & B8 & B9). rewrite B9 by assumption. clear B1  B2  B3  B4  B5  B6  B7  B8  B9.
  destruct (resid_same d I (plain T) HI plain_anti plain_tri) as (B1 & B2 & B3 & B4 & B5 & B6 & B7 & B8 & B9). rewrite B9 by assumption. reflexivity.
Qed.
End K.
Lemma one_pair_aaa d La Lb Lc Ld a b c i j k : (a < nua d)%nat -> (b < nua d)%nat -> (c < nua d)%nat -> (i < noa d)%nat -> (j < noa d)%nat -> (k < noa d)%nat -> (forall p q r s t u, La p q r s t u = - La q p r s t u) -> (forall p q r s t u, La p q r s t u = - La p r q s t u) -> (forall p q r s t u, La p q r s t u = - La p q r t s u) -> (forall p q r s t u, La p q r s t u = - La p q r s u t) -> right_pair d (one_aaa a b c i j k) La Lb Lc Ld = La a b c i j k.
Proof.
  intros Ha Hb Hc Hi Hj Hk K0 K1 K2 K3. unfold right_pair, one_aaa. cbn [just3 x_aaa x_aab x_abb x_bbb].
  rewrite <- (sum6_aaa (noa d) (nua d) a b c i j k La Ha Hb Hc Hi Hj Hk K0 K1 K2 K3). unfold z6. rewrite !zero6sum. field.
Qed.
Lemma one_pair_aab d La Lb Lc Ld a b c i j k : (a < nua d)%nat -> (b < nua d)%nat -> (c < nub d)%nat -> (i < noa d)%nat -> (j < noa d)%nat -> (k < nob d)%nat -> (forall p q r s t u, Lb p q r s t u = - Lb q p r s t u) -> (forall p q r s t u, Lb p q r s t u = - Lb p q r t s u) -> right_pair d (one_aab a b c i j k) La Lb Lc Ld = Lb a b c i j k.
Proof.
  intros Ha Hb Hc Hi Hj Hk K0 K1. unfold right_pair, one_aab. cbn [just3 x_aaa x_aab x_abb x_bbb].
  rewrite <- (sum6_aab (noa d) (nob d) (nua d) (nub d) a b c i j k Lb Ha Hb Hc Hi Hj Hk K0 K1). unfold z6. rewrite !zero6sum. field.
Qed.
Lemma one_pair_abb d La Lb Lc Ld a b c i j k : (a < nua d)%nat -> (b < nub d)%nat -> (c < nub d)%nat -> (i < noa d)%nat -> (j < nob d)%nat -> (k < nob d)%nat -> (forall p q r s t u, Lc p q r s t u = - Lc p r q s t u) -> (forall p q r s t u, Lc p q r s t u = - Lc p q r s u t) -> right_pair d (one_abb a b c i j k) La Lb Lc Ld = Lc a b c i j k.
Proof.
  intros Ha Hb Hc Hi Hj Hk K0 K1. unfold right_pair, one_abb. cbn [just3 x_aaa x_aab x_abb x_bbb].
  rewrite <- (sum6_abb (noa d) (nob d) (nua d) (nub d) a b c i j k Lc Ha Hb Hc Hi Hj Hk K0 K1). unfold z6. rewrite !zero6sum. field.
Qed.
Lemma one_pair_bbb d La Lb Lc Ld a b c i j k : (a < nub d)%nat -> (b < nub d)%nat -> (c < nub d)%nat -> (i < nob d)%nat -> (j < nob d)%nat -> (k < nob d)%nat -> (forall p q r s t u, Ld p q r s t u = - Ld q p r s t u) -> (forall p q r s t u, Ld p q r s t u = - Ld p r q s t u) -> (forall p q r s t u, Ld p q r s t u = - Ld p q r t s u) -> (forall p q r s t u, Ld p q r s t u = - Ld p q r s u t) -> right_pair d (one_bbb a b c i j k) La Lb Lc Ld = Ld a b c i j k.
Proof.
  intros Ha Hb Hc Hi Hj Hk K0 K1 K2 K3. unfold right_pair, one_bbb. cbn [just3 x_aaa x_aab x_abb x_bbb].
  rewrite <- (sum6_aaa (nob d) (nub d) a b c i j k Ld Ha Hb Hc Hi Hj Hk K0 K1 K2 K3). unfold z6. rewrite !zero6sum. field.
Qed.
Section F.
Variables (d : dims) (I : integrals) (T L : amps) (H0 : ints) (n m : nat).
Hypothesis En : (noa d + nua d = n)%nat.
Hypothesis En' : (nob d + nub d = n)%nat.
Hypothesis HI : exchangeable I.
Hypothesis HT : antisym_amps T.
Hypothesis HL : antisym_amps L.
Hypothesis Hm : (noa d + nob d + 4 <= m)%nat.
Notation H := (fock_ints (noa d) (nob d) I).
Notation HB := (hbar_ccsd d H T).
Notation E := (scf_energy (noa d) (nob d) I + cc_energy d H T).
Notation ref := (reference (noa d) (nob d)).
Notation S := (similar d n m I T).
Lemma hb_primary : primary_antisym HB. Proof. apply hbar_primary; [exact (fock_ints_antisym _ _ _ HI)|exact HT]. Qed.
Lemma f_M_aaa a b c i j k : (a < nua d)%nat -> (b < nua d)%nat -> (c < nua d)%nat -> (i < noa d)%nat -> (j < noa d)%nat -> (k < noa d)%nat -> bra3 d (va d a) (va d b) (va d c) (oa i) (oa j) (oa k) (S (pure ref)) = crcc_M_aaa d H0 HB T L a b c i j k.
Proof.
  intros Ha Hb Hc Hi Hj Hk. change (bra3 d (va d a) (va d b) (va d c) (oa i) (oa j) (oa k) (S (pure ref))) with (str [(true, oa i); (true, oa j); (true, oa k); (false, va d c); (false, va d b); (false, va d a)] (S (pure ref)) ref).
  rewrite (r_aaa d I T n m En En' HI HT Hm a b c i j k) by assumption.
  destruct (resid_same d I (plain T) HI (plain_anti T HT) (plain_tri T)) as (B1 & B2 & B3 & B4 & B5 & B6 & B7 & B8 & B9). rewrite B6 by assumption. clear B1  B2  B3  B4  B5  B6  B7  B8  B9.
  assert (Q := poly_M_aaa d (dressed d (plain T) I) (plain T) L H0 (dressed_exch d (plain T) I HI) (plain_anti T HT) (plain_tri T) HL a b c i j k). change (plain (bare (plain T))) with (bare (plain T)) in Q. rewrite Q; clear Q.
  symmetry. apply tr_M_aaa; try assumption; try reflexivity. exact (hbar_agree d I (plain T) HI (plain_anti T HT)).
Qed.
Lemma f_ket_aaa a b c i j k : (a < nua d)%nat -> (b < nua d)%nat -> (c < nua d)%nat -> (i < noa d)%nat -> (j < noa d)%nat -> (k < noa d)%nat -> ket3 d (va d a) (va d b) (va d c) (oa i) (oa j) (oa k) = triples d (one_aaa a b c i j k) (pure ref).
Proof. intros. apply ext_state; intros D. symmetry. now apply one_aaa_ket. Qed.
Lemma f_L_aaa a b c i j k : (a < nua d)%nat -> (b < nua d)%nat -> (c < nua d)%nat -> (i < noa d)%nat -> (j < noa d)%nat -> (k < noa d)%nat -> left_sd d L (S (ket3 d (va d a) (va d b) (va d c) (oa i) (oa j) (oa k))) = crcc_L_aaa d H0 HB T L a b c i j k.
Proof.
  intros Ha Hb Hc Hi Hj Hk. rewrite f_ket_aaa by assumption. set (Y := one_aaa a b c i j k). assert (HY : triples_anti Y) by apply one_aaa_anti.
  rewrite (left_dressed d I T Y n m En En' HI HT HY Hm L H0 HL).
  transitivity (crcc_L_aaa d H0 (hbar_ccsd d (fock_ints (noa d) (nob d) (dressed d (t3set T Y) I)) (bare (t3set T Y))) (bare (t3set T Y)) L a b c i j k).
  2:{ symmetry. apply tr_L_aaa; try assumption; try reflexivity. exact (agree_TY d I T Y HI HT). }
  assert (HI' := dressed_exch d (t3set T Y) I HI). assert (HT' := set_anti T Y HT).
  apply one_pair_aaa; try assumption.
  - intros p q r s t u. exact (poly_A_aaa0 d (dressed d (t3set T Y) I) (t3set T Y) L H0 HI' HT' HY HL p q r s t u).
  - intros p q r s t u. exact (poly_A_aaa1 d (dressed d (t3set T Y) I) (t3set T Y) L H0 HI' HT' HY HL p q r s t u).
  - intros p q r s t u. exact (poly_A_aaa2 d (dressed d (t3set T Y) I) (t3set T Y) L H0 HI' HT' HY HL p q r s t u).
  - intros p q r s t u. exact (poly_A_aaa3 d (dressed d (t3set T Y) I) (t3set T Y) L H0 HI' HT' HY HL p q r s t u).
Qed.
Lemma f_D_aaa a b c i j k : (a < nua d)%nat -> (b < nua d)%nat -> (c < nua d)%nat -> (i < noa d)%nat -> (j < noa d)%nat -> (k < noa d)%nat -> (a < b)%nat -> (a < c)%nat -> (b < c)%nat -> (i < j)%nat -> (i < k)%nat -> (j < k)%nat ->
  E - bra3 d (va d a) (va d b) (va d c) (oa i) (oa j) (oa k) (S (ket3 d (va d a) (va d b) (va d c) (oa i) (oa j) (oa k))) = crcc_DD_aaa d H0 HB T L a b c i j k.
Proof.
  intros Ha Hb Hc Hi Hj Hk Lab Lac Lbc Lij Lik Ljk. rewrite f_ket_aaa by assumption. set (Y := one_aaa a b c i j k). assert (HY : triples_anti Y) by apply one_aaa_anti.
  change (bra3 d (va d a) (va d b) (va d c) (oa i) (oa j) (oa k) (S (triples d Y (pure ref)))) with (str [(true, oa i); (true, oa j); (true, oa k); (false, va d c); (false, va d b); (false, va d a)] (S (triples d Y (pure ref))) ref).
  rewrite (t_aaa d I T Y n m En En' HI HT HY Hm a b c i j k) by assumption. rewrite (diff_aaa d I T Y HI HT HY a b c i j k) by assumption.
  assert (HI' := dressed_exch d (t3set T Y) I HI). assert (HT' := set_anti T Y HT).
  rewrite (poly_D_aaa d (dressed d (t3set T Y) I) (t3set T Y) L HI' HT' HY HL a b c i j k) by reflexivity.
  rewrite (diag_aaa d H0 _ (bare (t3set T Y)) L a b c i j k); try assumption; [| |exact (bare_anti _ HT')|reflexivity].
  2:{ apply hbar_primary; [exact (fock_ints_antisym _ _ _ HI')|exact (bare_anti _ HT')]. }
  replace (x_aaa Y a b c i j k) with 1.
  - match goal with |- context [crcc_DD_aaa d H0 ?h ?u L a b c i j k] => replace (crcc_DD_aaa d H0 h u L a b c i j k) with (crcc_DD_aaa d H0 HB T L a b c i j k) by (apply tr_DD_aaa; try assumption; try reflexivity; exact (agree_TY d I T Y HI HT)) end. ring.
  - unfold Y, one_aaa. cbn [just3 x_aaa x_aab x_abb x_bbb]. unfold del3, del2, dlt. rewrite !Nat.eqb_refl. rewrite ?(proj2 (Nat.eqb_neq a b)), ?(proj2 (Nat.eqb_neq b a)) by lia. rewrite ?(proj2 (Nat.eqb_neq a c)), ?(proj2 (Nat.eqb_neq c a)) by lia. rewrite ?(proj2 (Nat.eqb_neq b c)), ?(proj2 (Nat.eqb_neq c b)) by lia. rewrite ?(proj2 (Nat.eqb_neq i j)), ?(proj2 (Nat.eqb_neq j i)) by lia. rewrite ?(proj2 (Nat.eqb_neq i k)), ?(proj2 (Nat.eqb_neq k i)) by lia. rewrite ?(proj2 (Nat.eqb_neq j k)), ?(proj2 (Nat.eqb_neq k j)) by lia. ring.
Qed.
Lemma f_M_aab a b c i j k : (a < nua d)%nat -> (b < nua d)%nat -> (c < nub d)%nat -> (i < noa d)%nat -> (j < noa d)%nat -> (k < nob d)%nat -> bra3 d (va d a) (va d b) (vb d c) (oa i) (oa j) (ob k) (S (pure ref)) = crcc_M_aab d H0 HB T L a b c i j k.
Proof.
  intros Ha Hb Hc Hi Hj Hk. change (bra3 d (va d a) (va d b) (vb d c) (oa i) (oa j) (ob k) (S (pure ref))) with (str [(true, oa i); (true, oa j); (true, ob k); (false, vb d c); (false, va d b); (false, va d a)] (S (pure ref)) ref).
  rewrite (r_aab d I T n m En En' HI HT Hm a b c i j k) by assumption.
  destruct (resid_same d I (plain T) HI (plain_anti T HT) (plain_tri T)) as (B1 & B2 & B3 & B4 & B5 & B6 & B7 & B8 & B9). rewrite B7 by assumption. clear B1  B2  B3  B4  B5  B6  B7  B8  B9.
  assert (Q := poly_M_aab d (dressed d (plain T) I) (plain T) L H0 (dressed_exch d (plain T) I HI) (plain_anti T HT) (plain_tri T) HL a b c i j k). change (plain (bare (plain T))) with (bare (plain T)) in Q. rewrite Q; clear Q.
  symmetry. apply tr_M_aab; try assumption; try reflexivity. exact (hbar_agree d I (plain T) HI (plain_anti T HT)).
Qed.
Lemma f_ket_aab a b c i j k : (a < nua d)%nat -> (b < nua d)%nat -> (c < nub d)%nat -> (i < noa d)%nat -> (j < noa d)%nat -> (k < nob d)%nat -> ket3 d (va d a) (va d b) (vb d c) (oa i) (oa j) (ob k) = triples d (one_aab a b c i j k) (pure ref).
Proof. intros. apply ext_state; intros D. symmetry. now apply one_aab_ket. Qed.
Lemma f_L_aab a b c i j k : (a < nua d)%nat -> (b < nua d)%nat -> (c < nub d)%nat -> (i < noa d)%nat -> (j < noa d)%nat -> (k < nob d)%nat -> left_sd d L (S (ket3 d (va d a) (va d b) (vb d c) (oa i) (oa j) (ob k))) = crcc_L_aab d H0 HB T L a b c i j k.
Proof.
  intros Ha Hb Hc Hi Hj Hk. rewrite f_ket_aab by assumption. set (Y := one_aab a b c i j k). assert (HY : triples_anti Y) by apply one_aab_anti.
  rewrite (left_dressed d I T Y n m En En' HI HT HY Hm L H0 HL).
  transitivity (crcc_L_aab d H0 (hbar_ccsd d (fock_ints (noa d) (nob d) (dressed d (t3set T Y) I)) (bare (t3set T Y))) (bare (t3set T Y)) L a b c i j k).
  2:{ symmetry. apply tr_L_aab; try assumption; try reflexivity. exact (agree_TY d I T Y HI HT). }
  assert (HI' := dressed_exch d (t3set T Y) I HI). assert (HT' := set_anti T Y HT).
  apply one_pair_aab; try assumption.
  - intros p q r s t u. exact (poly_A_aab0 d (dressed d (t3set T Y) I) (t3set T Y) L H0 HI' HT' HY HL p q r s t u).
  - intros p q r s t u. exact (poly_A_aab1 d (dressed d (t3set T Y) I) (t3set T Y) L H0 HI' HT' HY HL p q r s t u).
Qed.
Lemma f_D_aab a b c i j k : (a < nua d)%nat -> (b < nua d)%nat -> (c < nub d)%nat -> (i < noa d)%nat -> (j < noa d)%nat -> (k < nob d)%nat -> (a < b)%nat -> (i < j)%nat ->
  E - bra3 d (va d a) (va d b) (vb d c) (oa i) (oa j) (ob k) (S (ket3 d (va d a) (va d b) (vb d c) (oa i) (oa j) (ob k))) = crcc_DD_aab d H0 HB T L a b c i j k.
Proof.
  intros Ha Hb Hc Hi Hj Hk Lab Lij. rewrite f_ket_aab by assumption. set (Y := one_aab a b c i j k). assert (HY : triples_anti Y) by apply one_aab_anti.
  change (bra3 d (va d a) (va d b) (vb d c) (oa i) (oa j) (ob k) (S (triples d Y (pure ref)))) with (str [(true, oa i); (true, oa j); (true, ob k); (false, vb d c); (false, va d b); (false, va d a)] (S (triples d Y (pure ref))) ref).
  rewrite (t_aab d I T Y n m En En' HI HT HY Hm a b c i j k) by assumption. rewrite (diff_aab d I T Y HI HT HY a b c i j k) by assumption.
  assert (HI' := dressed_exch d (t3set T Y) I HI). assert (HT' := set_anti T Y HT).
  rewrite (poly_D_aab d (dressed d (t3set T Y) I) (t3set T Y) L HI' HT' HY HL a b c i j k) by reflexivity.
  rewrite (diag_aab d H0 _ (bare (t3set T Y)) L a b c i j k); try assumption; [| |exact (bare_anti _ HT')|reflexivity].
  2:{ apply hbar_primary; [exact (fock_ints_antisym _ _ _ HI')|exact (bare_anti _ HT')]. }
  replace (x_aab Y a b c i j k) with 1.
  - match goal with |- context [crcc_DD_aab d H0 ?h ?u L a b c i j k] => replace (crcc_DD_aab d H0 h u L a b c i j k) with (crcc_DD_aab d H0 HB T L a b c i j k) by (apply tr_DD_aab; try assumption; try reflexivity; exact (agree_TY d I T Y HI HT)) end. ring.
  - unfold Y, one_aab. cbn [just3 x_aaa x_aab x_abb x_bbb]. unfold del3, del2, dlt. rewrite !Nat.eqb_refl. rewrite ?(proj2 (Nat.eqb_neq a b)), ?(proj2 (Nat.eqb_neq b a)) by lia. rewrite ?(proj2 (Nat.eqb_neq i j)), ?(proj2 (Nat.eqb_neq j i)) by lia. ring.
Qed.
Lemma f_M_abb a b c i j k : (a < nua d)%nat -> (b < nub d)%nat -> (c < nub d)%nat -> (i < noa d)%nat -> (j < nob d)%nat -> (k < nob d)%nat -> bra3 d (va d a) (vb d b) (vb d c) (oa i) (ob j) (ob k) (S (pure ref)) = crcc_M_abb d H0 HB T L a b c i j k.
Proof.
  intros Ha Hb Hc Hi Hj Hk. change (bra3 d (va d a) (vb d b) (vb d c) (oa i) (ob j) (ob k) (S (pure ref))) with (str [(true, oa i); (true, ob j); (true, ob k); (false, vb d c); (false, vb d b); (false, va d a)] (S (pure ref)) ref).
  rewrite (r_abb d I T n m En En' HI HT Hm a b c i j k) by assumption.
  destruct (resid_same d I (plain T) HI (plain_anti T HT) (plain_tri T)) as (B1 & B2 & B3 & B4 & B5 & B6 & B7 & B8 & B9). rewrite B8 by assumption. clear B1  B2  B3  B4  B5  B6  B7  B8  B9.
  assert (Q := poly_M_abb d (dressed d (plain T) I) (plain T) L H0 (dressed_exch d (plain T) I HI) (plain_anti T HT) (plain_tri T) HL a b c i j k). change (plain (bare (plain T))) with (bare (plain T)) in Q. rewrite Q; clear Q.
  symmetry. apply tr_M_abb; try assumption; try reflexivity. exact (hbar_agree d I (plain T) HI (plain_anti T HT)).
Qed.
Lemma f_ket_abb a b c i j k : (a < nua d)%nat -> (b < nub d)%nat -> (c < nub d)%nat -> (i < noa d)%nat -> (j < nob d)%nat -> (k < nob d)%nat -> ket3 d (va d a) (vb d b) (vb d c) (oa i) (ob j) (ob k) = triples d (one_abb a b c i j k) (pure ref).
Proof. intros. apply ext_state; intros D. symmetry. now apply one_abb_ket. Qed.
Lemma f_L_abb a b c i j k : (a < nua d)%nat -> (b < nub d)%nat -> (c < nub d)%nat -> (i < noa d)%nat -> (j < nob d)%nat -> (k < nob d)%nat -> left_sd d L (S (ket3 d (va d a) (vb d b) (vb d c) (oa i) (ob j) (ob k))) = crcc_L_abb d H0 HB T L a b c i j k.
Proof.
  intros Ha Hb Hc Hi Hj Hk. rewrite f_ket_abb by assumption. set (Y := one_abb a b c i j k). assert (HY : triples_anti Y) by apply one_abb_anti.
  rewrite (left_dressed d I T Y n m En En' HI HT HY Hm L H0 HL).
  transitivity (crcc_L_abb d H0 (hbar_ccsd d (fock_ints (noa d) (nob d) (dressed d (t3set T Y) I)) (bare (t3set T Y))) (bare (t3set T Y)) L a b c i j k).
  2:{ symmetry. apply tr_L_abb; try assumption; try reflexivity. exact (agree_TY d I T Y HI HT). }
  assert (HI' := dressed_exch d (t3set T Y) I HI). assert (HT' := set_anti T Y HT).
  apply one_pair_abb; try assumption.
  - intros p q r s t u. exact (poly_A_abb0 d (dressed d (t3set T Y) I) (t3set T Y) L H0 HI' HT' HY HL p q r s t u).
  - intros p q r s t u. exact (poly_A_abb1 d (dressed d (t3set T Y) I) (t3set T Y) L H0 HI' HT' HY HL p q r s t u).
Qed.
Lemma f_D_abb a b c i j k : (a < nua d)%nat -> (b < nub d)%nat -> (c < nub d)%nat -> (i < noa d)%nat -> (j < nob d)%nat -> (k < nob d)%nat -> (b < c)%nat -> (j < k)%nat ->
  E - bra3 d (va d a) (vb d b) (vb d c) (oa i) (ob j) (ob k) (S (ket3 d (va d a) (vb d b) (vb d c) (oa i) (ob j) (ob k))) = crcc_DD_abb d H0 HB T L a b c i j k.
Proof.
  intros Ha Hb Hc Hi Hj Hk Lbc Ljk. rewrite f_ket_abb by assumption. set (Y := one_abb a b c i j k). assert (HY : triples_anti Y) by apply one_abb_anti.
  change (bra3 d (va d a) (vb d b) (vb d c) (oa i) (ob j) (ob k) (S (triples d Y (pure ref)))) with (str [(true, oa i); (true, ob j); (true, ob k); (false, vb d c); (false, vb d b); (false, va d a)] (S (triples d Y (pure ref))) ref).
  rewrite (t_abb d I T Y n m En En' HI HT HY Hm a b c i j k) by assumption. rewrite (diff_abb d I T Y HI HT HY a b c i j k) by assumption.
  assert (HI' := dressed_exch d (t3set T Y) I HI). assert (HT' := set_anti T Y HT).
  rewrite (poly_D_abb d (dressed d (t3set T Y) I) (t3set T Y) L HI' HT' HY HL a b c i j k) by reflexivity.
  rewrite (diag_abb d H0 _ (bare (t3set T Y)) L a b c i j k); try assumption; [| |exact (bare_anti _ HT')|reflexivity].
  2:{ apply hbar_primary; [exact (fock_ints_antisym _ _ _ HI')|exact (bare_anti _ HT')]. }
  replace (x_abb Y a b c i j k) with 1.
  - match goal with |- context [crcc_DD_abb d H0 ?h ?u L a b c i j k] => replace (crcc_DD_abb d H0 h u L a b c i j k) with (crcc_DD_abb d H0 HB T L a b c i j k) by (apply tr_DD_abb; try assumption; try reflexivity; exact (agree_TY d I T Y HI HT)) end. ring.
  - unfold Y, one_abb. cbn [just3 x_aaa x_aab x_abb x_bbb]. unfold del3, del2, dlt. rewrite !Nat.eqb_refl. rewrite ?(proj2 (Nat.eqb_neq b c)), ?(proj2 (Nat.eqb_neq c b)) by lia. rewrite ?(proj2 (Nat.eqb_neq j k)), ?(proj2 (Nat.eqb_neq k j)) by lia. ring.
Qed.
Lemma f_M_bbb a b c i j k : (a < nub d)%nat -> (b < nub d)%nat -> (c < nub d)%nat -> (i < nob d)%nat -> (j < nob d)%nat -> (k < nob d)%nat -> bra3 d (vb d a) (vb d b) (vb d c) (ob i) (ob j) (ob k) (S (pure ref)) = crcc_M_bbb d H0 HB T L a b c i j k.
Proof.
  intros Ha Hb Hc Hi Hj Hk. change (bra3 d (vb d a) (vb d b) (vb d c) (ob i) (ob j) (ob k) (S (pure ref))) with (str [(true, ob i); (true, ob j); (true, ob k); (false, vb d c); (false, vb d b); (false, vb d a)] (S (pure ref)) ref).
  rewrite (r_bbb d I T n m En En' HI HT Hm a b c i j k) by assumption.
  destruct (resid_same d I (plain T) HI (plain_anti T HT) (plain_tri T)) as (B1 & B2 & B3 & B4 & B5 & B6 & B7 & B8 & B9). rewrite B9 by assumption. clear B1  B2  B3  B4  B5  B6  B7  B8  B9.
  assert (Q := poly_M_bbb d (dressed d (plain T) I) (plain T) L H0 (dressed_exch d (plain T) I HI) (plain_anti T HT) (plain_tri T) HL a b c i j k). change (plain (bare (plain T))) with (bare (plain T)) in Q. rewrite Q; clear Q.
  symmetry. apply tr_M_bbb; try assumption; try reflexivity. exact (hbar_agree d I (plain T) HI (plain_anti T HT)).
Qed.
Lemma f_ket_bbb a b c i j k : (a < nub d)%nat -> (b < nub d)%nat -> (c < nub d)%nat -> (i < nob d)%nat -> (j < nob d)%nat -> (k < nob d)%nat -> ket3 d (vb d a) (vb d b) (vb d c) (ob i) (ob j) (ob k) = triples d (one_bbb a b c i j k) (pure ref).
Proof. intros. apply ext_state; intros D. symmetry. now apply one_bbb_ket. Qed.
Lemma f_L_bbb a b c i j k : (a < nub d)%nat -> (b < nub d)%nat -> (c < nub d)%nat -> (i < nob d)%nat -> (j < nob d)%nat -> (k < nob d)%nat -> left_sd d L (S (ket3 d (vb d a) (vb d b) (vb d c) (ob i) (ob j) (ob k))) = crcc_L_bbb d H0 HB T L a b c i j k.
Proof.
  intros Ha Hb Hc Hi Hj Hk. rewrite f_ket_bbb by assumption. set (Y := one_bbb a b c i j k). assert (HY : triples_anti Y) by apply one_bbb_anti.
  rewrite (left_dressed d I T Y n m En En' HI HT HY Hm L H0 HL).
  transitivity (crcc_L_bbb d H0 (hbar_ccsd d (fock_ints (noa d) (nob d) (dressed d (t3set T Y) I)) (bare (t3set T Y))) (bare (t3set T Y)) L a b c i j k).
  2:{ symmetry. apply tr_L_bbb; try assumption; try reflexivity. exact (agree_TY d I T Y HI HT). }
  assert (HI' := dressed_exch d (t3set T Y) I HI). assert (HT' := set_anti T Y HT).
  apply one_pair_bbb; try assumption.
  - intros p q r s t u. exact (poly_A_bbb0 d (dressed d (t3set T Y) I) (t3set T Y) L H0 HI' HT' HY HL p q r s t u).
  - intros p q r s t u. exact (poly_A_bbb1 d (dressed d (t3set T Y) I) (t3set T Y) L H0 HI' HT' HY HL p q r s t u).
  - intros p q r s t u. exact (poly_A_bbb2 d (dressed d (t3set T Y) I) (t3set T Y) L H0 HI' HT' HY HL p q r s t u).
  - intros p q r s t u. exact (poly_A_bbb3 d (dressed d (t3set T Y) I) (t3set T Y) L H0 HI' HT' HY HL p q r s t u).
Qed.
Lemma f_D_bbb a b c i j k : (a < nub d)%nat -> (b < nub d)%nat -> (c < nub d)%nat -> (i < nob d)%nat -> (j < nob d)%nat -> (k < nob d)%nat -> (a < b)%nat -> (a < c)%nat -> (b < c)%nat -> (i < j)%nat -> (i < k)%nat -> (j < k)%nat ->
  E - bra3 d (vb d a) (vb d b) (vb d c) (ob i) (ob j) (ob k) (S (ket3 d (vb d a) (vb d b) (vb d c) (ob i) (ob j) (ob k))) = crcc_DD_bbb d H0 HB T L a b c i j k.
Proof.
  intros Ha Hb Hc Hi Hj Hk Lab Lac Lbc Lij Lik Ljk. rewrite f_ket_bbb by assumption. set (Y := one_bbb a b c i j k). assert (HY : triples_anti Y) by apply one_bbb_anti.
  change (bra3 d (vb d a) (vb d b) (vb d c) (ob i) (ob j) (ob k) (S (triples d Y (pure ref)))) with (str [(true, ob i); (true, ob j); (true, ob k); (false, vb d c); (false, vb d b); (false, vb d a)] (S (triples d Y (pure ref))) ref).
  rewrite (t_bbb d I T Y n m En En' HI HT HY Hm a b c i j k) by assumption. rewrite (diff_bbb d I T Y HI HT HY a b c i j k) by assumption.
  assert (HI' := dressed_exch d (t3set T Y) I HI). assert (HT' := set_anti T Y HT).
  rewrite (poly_D_bbb d (dressed d (t3set T Y) I) (t3set T Y) L HI' HT' HY HL a b c i j k) by reflexivity.
  rewrite (diag_bbb d H0 _ (bare (t3set T Y)) L a b c i j k); try assumption; [| |exact (bare_anti _ HT')|reflexivity].
  2:{ apply hbar_primary; [exact (fock_ints_antisym _ _ _ HI')|exact (bare_anti _ HT')]. }
  replace (x_bbb Y a b c i j k) with 1.
  - match goal with |- context [crcc_DD_bbb d H0 ?h ?u L a b c i j k] => replace (crcc_DD_bbb d H0 h u L a b c i j k) with (crcc_DD_bbb d H0 HB T L a b c i j k) by (apply tr_DD_bbb; try assumption; try reflexivity; exact (agree_TY d I T Y HI HT)) end. ring.
  - unfold Y, one_bbb. cbn [just3 x_aaa x_aab x_abb x_bbb]. unfold del3, del2, dlt. rewrite !Nat.eqb_refl. rewrite ?(proj2 (Nat.eqb_neq a b)), ?(proj2 (Nat.eqb_neq b a)) by lia. rewrite ?(proj2 (Nat.eqb_neq a c)), ?(proj2 (Nat.eqb_neq c a)) by lia. rewrite ?(proj2 (Nat.eqb_neq b c)), ?(proj2 (Nat.eqb_neq c b)) by lia. rewrite ?(proj2 (Nat.eqb_neq i j)), ?(proj2 (Nat.eqb_neq j i)) by lia. rewrite ?(proj2 (Nat.eqb_neq i k)), ?(proj2 (Nat.eqb_neq k i)) by lia. rewrite ?(proj2 (Nat.eqb_neq j k)), ?(proj2 (Nat.eqb_neq k j)) by lia. ring.
Qed.
End F.
