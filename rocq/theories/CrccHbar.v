(** exp(-T) H exp(T) on (1 + T3)|ref>, up to triple excitations: the energy and the CCSDT residual (proof support). *)
From Coq Require Import Reals Arith NArith List Bool Lia Lra QArith Qreals ZArith FunctionalExtensionality.
From Verif Require Import RSum IntegralsModel TensorObjs TensorAlg TensorSpec CcsdModel CcsdUpdate CcsdProps FockSpec FockCar FockWick FockArrays FockCcSpec FockTerms FockExp FockLevel FockState FockNear FockProj FockProps FockSector FockSectorTools FockSectorSpec FockFlip RankSpec FockCount
  FockDress FockShift FockTools3 CcsdtModel CcsdtUpdate SdtSpec SdtFlat SdtFock SdtDress SdtState CrccSpec CrccFock.
Import ListNotations.
Local Open Scope R_scope.
Lemma str_linear l : linear (str l).
Proof. induction l as [|[[] q] l IH]; [intros a f b g; reflexivity| |]; intros a f b g; cbn [str fold_right]; [apply (comp_linear (cre q) (str l)); [apply cre_linear|exact IH]|apply (comp_linear (ann q) (str l)); [apply ann_linear|exact IH]]. Qed.
Lemma str_sub l f g D : str l (fun E => f E - g E) D = str l f D - str l g D.
Proof. now rewrite (lin_sub (str l) f g (str_linear l)). Qed.
Section O.
Variables (d : dims) (T : amps) (n m : nat).
Hypothesis En : (noa d + nua d = n)%nat.
Hypothesis En' : (nob d + nub d = n)%nat.
Notation occs := (map al (seq 0 (noa d)) ++ map be (seq 0 (nob d))).
Lemma pair_off P s f a i : downward d n P -> (a < nu d s)%nat -> (i < no d s)%nat -> off_on P f -> off_on P (cre (sp s (no d s + a)) (ann (sp s i) f)).
Proof.
  intros HP Ha Hi Hf D HD. unfold cre, ann. change (N.testbit D (N.of_nat (sp s (no d s + a)))) with (bit D (sp s (no d s + a))).
  destruct (bit D (sp s (no d s + a))) eqn:B1; [|ring]. change (N.clearbit D (N.of_nat (sp s (no d s + a)))) with (off D (sp s (no d s + a))). fold (bit (off D (sp s (no d s + a))) (sp s i)). rewrite bit_off.
  assert (Q := no_nu d n En En' s).
  assert (NE : sp s (no d s + a) <> sp s i) by (destruct s; unfold sp, al, be; lia). rewrite (eqb_neq _ _ NE). cbn [negb]. rewrite andb_true_r.
  destruct (bit D (sp s i)) eqn:B2; [ring|]. change (N.setbit (off D (sp s (no d s + a))) (N.of_nat (sp s i))) with (on (off D (sp s (no d s + a))) (sp s i)).
  rewrite (Hf _ (HP (sp s) (no d s) a i D ltac:(destruct s; auto) ltac:(lia) Hi HD B1 B2)). ring.
Qed.
Lemma two_pairs p q r s psi : q <> s -> cre p (cre q (ann r (ann s psi))) = cre p (ann s (cre q (ann r psi))).
Proof.
  intros NE. f_equal. rewrite (ann_cre_ne s q) by congruence. transitivity (cre q (fun D => - ann s (ann r psi) D)); [|apply cre_neg].
  f_equal. apply ext_state; intros D. apply ann_ann.
Qed.
Lemma double_off P s1 s2 f t : downward d n P -> off_on P f -> off_on P (double_op (nu d s1) (nu d s2) (no d s1) (no d s2) t (sp s1) (sp s2) f).
Proof.
  intros HP Hf D HD. unfold double_op. apply sumn_0; intros a Ha. apply sumn_0; intros b Hb. apply sumn_0; intros i Hi. apply sumn_0; intros j Hj.
  rewrite two_pairs.
  - rewrite (pair_off P s1 (cre (sp s2 (no d s2 + b)) (ann (sp s2 j) f)) a i HP Ha Hi (pair_off P s2 f b j HP Hb Hj Hf) D HD). ring.
  - destruct s1, s2; unfold sp, al, be, no in *; lia.
Qed.
Lemma cluster_off P f : downward d n P -> off_on P f -> off_on P (cluster_sd d T f).
Proof.
  intros HP Hf D HD. unfold cluster_sd.
  assert (Q0 : forall s t, single_op (nu d s) (no d s) t (sp s) f D = 0).
  { intros s t. unfold single_op. apply sumn_0; intros a Ha. apply sumn_0; intros i Hi. rewrite (pair_off P s f a i HP Ha Hi Hf D HD). ring. }
  assert (Q1 := Q0 true (x_a T)). assert (Q1' := Q0 false (x_b T)). cbn [nu no sp] in Q1, Q1'. rewrite Q1, Q1'.
  assert (Q2 := double_off P true true f (x_aa T) HP Hf D HD). assert (Q3 := double_off P true false f (x_ab T) HP Hf D HD). assert (Q4 := double_off P false false f (x_bb T) HP Hf D HD).
  cbn [nu no sp] in Q2, Q3, Q4. rewrite Q2, Q3, Q4. ring.
Qed.
Hypothesis Hm : (noa d + nob d < m)%nat.
Notation C := (cluster_sd d T).
Notation UC := (negated (cluster_sd d T)).
Lemma unc_exc : exc (fun q => In q occs) UC.
Proof.
  replace UC with (fun psi D => -1 * C psi D); [apply exc_scal, cluster_exc|]. apply functional_extensionality; intros f. apply ext_state; intros D. unfold negated. ring.
Qed.
Lemma sd_back psi : expo UC m (expo C m psi) = psi.
Proof.
  clear En En'. assert (E1 := cluster_exc d T). assert (E2 := unc_exc). rewrite <- expo_add; [|now apply exc_linear in E2|now apply exc_linear in E1|now apply exc_commute with (occ := fun q => In q occs)|intros; now apply (exc_dead2 d m Hm)].
  replace (fun f D => UC f D + C f D) with (fun (_ : state) (_ : N) => 0); [apply expo_zero|].
  apply functional_extensionality; intros f. apply ext_state; intros D. unfold negated. ring.
Qed.
Lemma unc_linear : linear (expo UC m). Proof. apply expo_linear, (exc_linear _ _ unc_exc). Qed.
Lemma unc_off P f : downward d n P -> off_on P f -> off_on P (expo UC m f).
Proof. intros HP Hf. apply expo_off; [|exact Hf]. intros g Hg D HD. unfold negated. rewrite (cluster_off P g HP Hg D HD). ring. Qed.
End O.
Lemma sdt_linear d X : linear (cluster_sdt d X). Proof. apply add_linear; [apply (exc_linear _ _ (cluster_exc d X))|apply tri_linear]. Qed.
Lemma sdt_commute d X Z : exc (fun q => In q (map al (seq 0 (noa d)) ++ map be (seq 0 (nob d)))) Z -> commute (cluster_sdt d X) Z.
Proof.
  intros HZ psi. unfold cluster_sdt. rewrite (lin_add Z _ _ (exc_linear _ _ HZ)). apply ext_state; intros D. rewrite (tri_commute d X Z HZ psi). f_equal.
  now rewrite (exc_commute _ _ _ (cluster_exc d X) HZ psi).
Qed.
Lemma anti_resid_t d H T : triples_anti (ccsdt_resid d H T).
Proof. unfold triples_anti. cbn [ccsdt_resid x_aaa x_aab x_abb x_bbb]. repeat split; intros; unfold comb3, comb3b, comb3c; ring. Qed.
Lemma anti_resid_d d H T : antisym_amps (ccsdt_resid d H T).
Proof. constructor; intros; cbn [ccsdt_resid x_aa x_bb]; unfold four_term; ring. Qed.
Lemma cluster_same d X Y : same_amps3 d X Y -> cluster_sdt d X = cluster_sdt d Y.
Proof.
  intros (A1 & A2 & A3 & A4 & A5 & A6 & A7 & A8 & A9). apply functional_extensionality; intros f. apply ext_state; intros D. unfold cluster_sdt, cluster_sd, triples, single_op, double_op.
  repeat match goal with |- _ + _ = _ + _ => apply f_equal2 | |- / _ * _ = / _ * _ => apply f_equal end; repeat (apply sumn_ext; intros ? ?); f_equal; auto.
Qed.
Section M.
Variables (d : dims) (I : integrals) (T : amps) (n m : nat).
Hypothesis En : (noa d + nua d = n)%nat.
Hypothesis En' : (nob d + nub d = n)%nat.
Hypothesis HI : exchangeable I.
Hypothesis HT : antisym_amps T.
Hypothesis HY : triples_anti T.
Hypothesis Hm : (noa d + nob d + 4 <= m)%nat.
Notation H := (fock_ints (noa d) (nob d) I).
Notation H' := (fock_ints (noa d) (nob d) (dressed d T I)).
Notation E := (scf_energy (noa d) (nob d) I + cc_energy d H T).
Notation ref := (reference (noa d) (nob d)).
Notation X := (ccsdt_resid d H T).
Notation X' := (ccsdt_resid d H' (bare T)).
Notation psi := (expo (cluster_sd d (bare T)) m (pure ref)).
Lemma defect_off : off_on (sdt_space d n) (fun D => sdt_defect d (dressed d T I) T n m D - cluster_sdt d X' psi D).
Proof.
  assert (HI' := dressed_exch d T I HI). assert (AD := anti_resid_d d H' (bare T)). assert (AT := anti_resid_t d H' (bare T)).
  assert (F := sdt_flat d n (fun D => sdt_defect d (dressed d T I) T n m D - cluster_sdt d X' psi D) En En'). refine (proj2 F _). clear F.
  split; [|split; [|split; [|split; [|split; [|split; [|split; [|split; [|split; [|]]]]]]]]]; intros; rewrite str_sub;
   [rewrite (sdt_comp_ref d (dressed d T I) T n m En En' HI' HT HY ltac:(lia)), (cx_comp_ref d (dressed d T I) T X' n m En En' HI' HT AD AT ltac:(lia))
   |rewrite (sdt_comp_a d (dressed d T I) T n m En En' HI' HT HY ltac:(lia)), (cx_comp_a d (dressed d T I) T X' n m En En' HI' HT AD AT ltac:(lia)) by assumption
   |rewrite (sdt_comp_b d (dressed d T I) T n m En En' HI' HT HY ltac:(lia)), (cx_comp_b d (dressed d T I) T X' n m En En' HI' HT AD AT ltac:(lia)) by assumption
   |rewrite (sdt_comp_aa d (dressed d T I) T n m En En' HI' HT HY ltac:(lia)), (cx_comp_aa d (dressed d T I) T X' n m En En' HI' HT AD AT ltac:(lia)) by assumption
   |rewrite (sdt_comp_ab d (dressed d T I) T n m En En' HI' HT HY ltac:(lia)), (cx_comp_ab d (dressed d T I) T X' n m En En' HI' HT AD AT ltac:(lia)) by assumption
   |rewrite (sdt_comp_bb d (dressed d T I) T n m En En' HI' HT HY ltac:(lia)), (cx_comp_bb d (dressed d T I) T X' n m En En' HI' HT AD AT ltac:(lia)) by assumption
   |rewrite (sdt_comp_aaa d (dressed d T I) T n m En En' HI' HT HY ltac:(lia)), (cx_comp_aaa d (dressed d T I) T X' n m En En' HI' HT AD AT ltac:(lia)) by assumption
   |rewrite (sdt_comp_aab d (dressed d T I) T n m En En' HI' HT HY ltac:(lia)), (cx_comp_aab d (dressed d T I) T X' n m En En' HI' HT AD AT ltac:(lia)) by assumption
   |rewrite (sdt_comp_abb d (dressed d T I) T n m En En' HI' HT HY ltac:(lia)), (cx_comp_abb d (dressed d T I) T X' n m En En' HI' HT AD AT ltac:(lia)) by assumption
   |rewrite (sdt_comp_bbb d (dressed d T I) T n m En En' HI' HT HY ltac:(lia)), (cx_comp_bbb d (dressed d T I) T X' n m En En' HI' HT AD AT ltac:(lia)) by assumption]; ring.
Qed.
Lemma resid_same : same_amps3 d X X'.
Proof. repeat split; intros; [now apply sdt_hb_a|now apply sdt_hb_b|now apply sdt_hb_aa|now apply sdt_hb_ab|now apply sdt_hb_bb|now apply sdt_hb_aaa|now apply sdt_hb_aab|now apply sdt_hb_abb|now apply sdt_hb_bbb]. Qed.
(** exp(-T) H exp(T) (1 + T3)|ref> = E (1 + T3)|ref> + (X1 + X2 + X3)|ref> up to triple excitations, X the residual of the CCSDT equations *)
Theorem similar_with3 D : sdt_space d n D -> similar d n m I T (with3 d T (pure ref)) D = E * with3 d T (pure ref) D + cluster_sdt d X (pure ref) D.
Proof.
  intros HD. assert (Hm' : (noa d + nob d < m)%nat) by lia.
  rewrite (cluster_same d X X' resid_same). unfold similar.
  assert (LE := EX_linear d T m). assert (LU := unc_linear d T m). set (EX := expo (ones d T) m) in *. set (U := expo (negated (cluster_sd d T)) m) in *.
  assert (SE : forall f, expo (cluster_sd d T) m f = EX (expo (cluster_sd d (bare T)) m f)) by (intros f; exact (state_EX d T m Hm' f)).
  assert (BK : forall f, U (expo (cluster_sd d T) m f) = f) by (intros f; exact (sd_back d T m Hm' f)).
  rewrite SE. unfold EX at 1. rewrite (ham_EX d T n m En En' Hm' I). fold EX.
  rewrite <- (commute_expo (with3 d T) (cluster_sd d (bare T)) m (with3_linear d T) (with3_commute d T _ (cluster_exc d (bare T)))).
  set (W := with3 d T psi).
  assert (Z := defect_off). set (Z0 := fun D => sdt_defect d (dressed d T I) T n m D - cluster_sdt d X' psi D) in Z.
  assert (EQ : hamiltonian n (dressed d T I) W = fun F => (E * W F + cluster_sdt d X' psi F) + Z0 F).
  { apply ext_state; intros F. unfold Z0, sdt_defect. fold W. rewrite (energy_shift d I T n m En En') by (assumption || lia). ring. }
  rewrite EQ. rewrite (lin_add EX _ _ LE), (lin_add EX _ _ LE), (lin_scal EX _ _ LE), (lin_add U _ _ LU), (lin_add U _ _ LU), (lin_scal U _ _ LU).
  assert (K1 : U (EX W) = with3 d T (pure ref)).
  { unfold W. rewrite (commute_expo (with3 d T) (cluster_sd d (bare T)) m (with3_linear d T) (with3_commute d T _ (cluster_exc d (bare T)))). rewrite <- SE. apply BK. }
  assert (K2 : U (EX (cluster_sdt d X' psi)) = cluster_sdt d X' (pure ref)).
  { rewrite (commute_expo (cluster_sdt d X') (cluster_sd d (bare T)) m (sdt_linear d X') (sdt_commute d X' _ (cluster_exc d (bare T)))). rewrite <- SE. apply BK. }
  rewrite K1, K2. rewrite (unc_off d T n m En En' (sdt_space d n) (EX Z0)); [ring|now apply sector_downward| |exact HD].
  apply (EX_off d T n m En En' Hm' (sdt_space d n) Z0); [now apply sector_downward|exact Z].
Qed.
End M.
