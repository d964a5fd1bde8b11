(** C82: CR-EOMCC(2,3) against second quantisation. *)
From Coq Require Import Reals Arith NArith QArith Qreals List Bool Lia Lra.
From Verif Require Import RSum IntegralsModel TensorObjs TensorAlg TensorSpec TensorClosed IntsFix CcsdModel CcsdUpdate CcsdProps RhfProps FockSpec FockCcSpec FockProps FockSectorSpec QEval SdtSpec
  FockCar FockArrays CcsdtModel CcsdtUpdate SdtFlat SdtFock CcsdtReify FockTerms FockShift CrccTrans CrccModel CrccSpec CrccLoop CrccPoly CrccKet CrccBra CrccProps CrccRhf CrccClosed PtSpec PtProps FockEomProj CreomModel CreomDeriv CreomFock CreomSpec CreomTri.
Import ListNotations.
Local Open Scope R_scope.
Definition mix (r0 : R) (M N : mat6) : mat6 := fun a b c i j k => r0 * M a b c i j k + N a b c i j k.
Definition sh (w : R) (D : mat6) : mat6 := fun a b c i j k => w + D a b c i j k.
Lemma fold_pair {A} (f g : A -> quad) l s : fold_left (fun s q => (quad_add (fst s) (f q), quad_add (snd s) (g q))) l s = (fold_left (fun s q => quad_add s (f q)) l (fst s), fold_left (fun s q => quad_add s (g q)) l (snd s)).
Proof. revert s. induction l as [|q l IH]; intros [s s']; cbn [fold_left]; [reflexivity|]. rewrite IH. reflexivity. Qed.
Lemma opt_pair (M N L DA DB DC DD : mat6) w r0 l :
  fold_left (fun s q => let '(a, b, c, i, j, k) := q in let LM := (r0 * M a b c i j k + N a b c i j k) * L a b c i j k in let LM1 := N a b c i j k * L a b c i j k in
    (quad_add (fst s) (LM / (w + DA a b c i j k), LM / (w + DB a b c i j k), LM / (w + DC a b c i j k), LM / (w + DD a b c i j k)),
     quad_add (snd s) (LM1 / (w + DA a b c i j k), LM1 / (w + DB a b c i j k), LM1 / (w + DC a b c i j k), LM1 / (w + DD a b c i j k)))) l ((0, 0, 0, 0), (0, 0, 0, 0))
  = ((slist (f6 (mld (mix r0 M N) L (sh w DA))) l, slist (f6 (mld (mix r0 M N) L (sh w DB))) l, slist (f6 (mld (mix r0 M N) L (sh w DC))) l, slist (f6 (mld (mix r0 M N) L (sh w DD))) l),
     (slist (f6 (mld N L (sh w DA))) l, slist (f6 (mld N L (sh w DB))) l, slist (f6 (mld N L (sh w DC))) l, slist (f6 (mld N L (sh w DD))) l)).
Proof.
  rewrite <- !opt_fold.
  match goal with |- _ = (fold_left ?F _ _, fold_left ?G _ _) => transitivity (fold_left (fun s q => (F (fst s) q, G (snd s) q)) l (((0, 0, 0, 0), (0, 0, 0, 0)) : quad * quad)) end.
  - generalize (((0, 0, 0, 0), (0, 0, 0, 0)) : quad * quad). induction l as [|[[[[[a b] c] i] j] k] l IH]; intros s; cbn [fold_left]; [reflexivity|]. apply IH.
  - match goal with |- _ = (fold_left ?F _ _, fold_left ?G _ _) => assert (K : forall s, fold_left (fun s q => (F (fst s) q, G (snd s) q)) l s = (fold_left F l (fst s), fold_left G l (snd s))) end.
    { induction l as [|q l IH]; intros [s s']; cbn [fold_left]; [reflexivity|]. rewrite IH. reflexivity. }
    apply K.
Qed.
Lemma pair_sums d H0 H T Y L w r0 : calc_creomcc23_delta d H0 H T Y L w r0 false =
  ((tri4 d (mld (mix r0 (creom_M_aaa d H0 H T Y L) (creom_N_aaa d H0 H T Y L)) (creom_L_aaa d H0 H T Y L) (sh w (creom_DA_aaa d H0 H T Y L))) (mld (mix r0 (creom_M_aab d H0 H T Y L) (creom_N_aab d H0 H T Y L)) (creom_L_aab d H0 H T Y L) (sh w (creom_DA_aab d H0 H T Y L))) (mld (mix r0 (creom_M_abb d H0 H T Y L) (creom_N_abb d H0 H T Y L)) (creom_L_abb d H0 H T Y L) (sh w (creom_DA_abb d H0 H T Y L))) (mld (mix r0 (creom_M_bbb d H0 H T Y L) (creom_N_bbb d H0 H T Y L)) (creom_L_bbb d H0 H T Y L) (sh w (creom_DA_bbb d H0 H T Y L))), tri4 d (mld (mix r0 (creom_M_aaa d H0 H T Y L) (creom_N_aaa d H0 H T Y L)) (creom_L_aaa d H0 H T Y L) (sh w (creom_DB_aaa d H0 H T Y L))) (mld (mix r0 (creom_M_aab d H0 H T Y L) (creom_N_aab d H0 H T Y L)) (creom_L_aab d H0 H T Y L) (sh w (creom_DB_aab d H0 H T Y L))) (mld (mix r0 (creom_M_abb d H0 H T Y L) (creom_N_abb d H0 H T Y L)) (creom_L_abb d H0 H T Y L) (sh w (creom_DB_abb d H0 H T Y L))) (mld (mix r0 (creom_M_bbb d H0 H T Y L) (creom_N_bbb d H0 H T Y L)) (creom_L_bbb d H0 H T Y L) (sh w (creom_DB_bbb d H0 H T Y L))), tri4 d (mld (mix r0 (creom_M_aaa d H0 H T Y L) (creom_N_aaa d H0 H T Y L)) (creom_L_aaa d H0 H T Y L) (sh w (creom_DC_aaa d H0 H T Y L))) (mld (mix r0 (creom_M_aab d H0 H T Y L) (creom_N_aab d H0 H T Y L)) (creom_L_aab d H0 H T Y L) (sh w (creom_DC_aab d H0 H T Y L))) (mld (mix r0 (creom_M_abb d H0 H T Y L) (creom_N_abb d H0 H T Y L)) (creom_L_abb d H0 H T Y L) (sh w (creom_DC_abb d H0 H T Y L))) (mld (mix r0 (creom_M_bbb d H0 H T Y L) (creom_N_bbb d H0 H T Y L)) (creom_L_bbb d H0 H T Y L) (sh w (creom_DC_bbb d H0 H T Y L))), tri4 d (mld (mix r0 (creom_M_aaa d H0 H T Y L) (creom_N_aaa d H0 H T Y L)) (creom_L_aaa d H0 H T Y L) (sh w (creom_DD_aaa d H0 H T Y L))) (mld (mix r0 (creom_M_aab d H0 H T Y L) (creom_N_aab d H0 H T Y L)) (creom_L_aab d H0 H T Y L) (sh w (creom_DD_aab d H0 H T Y L))) (mld (mix r0 (creom_M_abb d H0 H T Y L) (creom_N_abb d H0 H T Y L)) (creom_L_abb d H0 H T Y L) (sh w (creom_DD_abb d H0 H T Y L))) (mld (mix r0 (creom_M_bbb d H0 H T Y L) (creom_N_bbb d H0 H T Y L)) (creom_L_bbb d H0 H T Y L) (sh w (creom_DD_bbb d H0 H T Y L)))),
   (tri4 d (mld (creom_N_aaa d H0 H T Y L) (creom_L_aaa d H0 H T Y L) (sh w (creom_DA_aaa d H0 H T Y L))) (mld (creom_N_aab d H0 H T Y L) (creom_L_aab d H0 H T Y L) (sh w (creom_DA_aab d H0 H T Y L))) (mld (creom_N_abb d H0 H T Y L) (creom_L_abb d H0 H T Y L) (sh w (creom_DA_abb d H0 H T Y L))) (mld (creom_N_bbb d H0 H T Y L) (creom_L_bbb d H0 H T Y L) (sh w (creom_DA_bbb d H0 H T Y L))), tri4 d (mld (creom_N_aaa d H0 H T Y L) (creom_L_aaa d H0 H T Y L) (sh w (creom_DB_aaa d H0 H T Y L))) (mld (creom_N_aab d H0 H T Y L) (creom_L_aab d H0 H T Y L) (sh w (creom_DB_aab d H0 H T Y L))) (mld (creom_N_abb d H0 H T Y L) (creom_L_abb d H0 H T Y L) (sh w (creom_DB_abb d H0 H T Y L))) (mld (creom_N_bbb d H0 H T Y L) (creom_L_bbb d H0 H T Y L) (sh w (creom_DB_bbb d H0 H T Y L))), tri4 d (mld (creom_N_aaa d H0 H T Y L) (creom_L_aaa d H0 H T Y L) (sh w (creom_DC_aaa d H0 H T Y L))) (mld (creom_N_aab d H0 H T Y L) (creom_L_aab d H0 H T Y L) (sh w (creom_DC_aab d H0 H T Y L))) (mld (creom_N_abb d H0 H T Y L) (creom_L_abb d H0 H T Y L) (sh w (creom_DC_abb d H0 H T Y L))) (mld (creom_N_bbb d H0 H T Y L) (creom_L_bbb d H0 H T Y L) (sh w (creom_DC_bbb d H0 H T Y L))), tri4 d (mld (creom_N_aaa d H0 H T Y L) (creom_L_aaa d H0 H T Y L) (sh w (creom_DD_aaa d H0 H T Y L))) (mld (creom_N_aab d H0 H T Y L) (creom_L_aab d H0 H T Y L) (sh w (creom_DD_aab d H0 H T Y L))) (mld (creom_N_abb d H0 H T Y L) (creom_L_abb d H0 H T Y L) (sh w (creom_DD_abb d H0 H T Y L))) (mld (creom_N_bbb d H0 H T Y L) (creom_L_bbb d H0 H T Y L) (sh w (creom_DD_bbb d H0 H T Y L))))).
Proof.
  unfold calc_creomcc23_delta, creomcc23A_opt, creomcc23B_opt, creomcc23C_opt, creomcc23D_opt. rewrite !opt_pair. unfold tri4.
  change (creom_loop_aaa d) with (crcc_loop_aaa d). change (creom_loop_aab d) with (crcc_loop_aab d). change (creom_loop_abb d) with (crcc_loop_abb d). change (creom_loop_bbb d) with (crcc_loop_bbb d).
  rewrite !loop_aaa, !loop_aab, !loop_abb, !loop_bbb. reflexivity.
Qed.
Section V.
Variables (d : dims) (n m : nat) (I : integrals) (T Y L : amps) (H0 : ints).
Hypothesis En : (noa d + nua d = n)%nat.
Hypothesis En' : (nob d + nub d = n)%nat.
Hypothesis HI : exchangeable I.
Hypothesis HT : antisym_amps T.
Hypothesis HY : antisym_amps Y.
Hypothesis HL : antisym_amps L.
Hypothesis Hm : (noa d + nob d + 4 <= m)%nat.
Notation H := (fock_ints (noa d) (nob d) I).
Notation HB := (hbar_ccsd d H T).
Hypothesis HC : same_amps d (ccsd_resid d H T) zero_amps.
Lemma tri_eom r0 X1 X2 X3 X4 D1 D2 D3 D4 den :
  (forall a b c i j k, (a < nua d)%nat -> (b < nua d)%nat -> (c < nua d)%nat -> (i < noa d)%nat -> (j < noa d)%nat -> (k < noa d)%nat -> X1 a b c i j k = eom_moment d n m I T Y r0 (va d a) (va d b) (va d c) (oa i) (oa j) (oa k)) ->
  (forall a b c i j k, (a < nua d)%nat -> (b < nua d)%nat -> (c < nub d)%nat -> (i < noa d)%nat -> (j < noa d)%nat -> (k < nob d)%nat -> X2 a b c i j k = eom_moment d n m I T Y r0 (va d a) (va d b) (vb d c) (oa i) (oa j) (ob k)) ->
  (forall a b c i j k, (a < nua d)%nat -> (b < nub d)%nat -> (c < nub d)%nat -> (i < noa d)%nat -> (j < nob d)%nat -> (k < nob d)%nat -> X3 a b c i j k = eom_moment d n m I T Y r0 (va d a) (vb d b) (vb d c) (oa i) (ob j) (ob k)) ->
  (forall a b c i j k, (a < nub d)%nat -> (b < nub d)%nat -> (c < nub d)%nat -> (i < nob d)%nat -> (j < nob d)%nat -> (k < nob d)%nat -> X4 a b c i j k = eom_moment d n m I T Y r0 (vb d a) (vb d b) (vb d c) (ob i) (ob j) (ob k)) ->
  (forall a b c i j k, (a < nua d)%nat -> (b < nua d)%nat -> (c < nua d)%nat -> (i < noa d)%nat -> (j < noa d)%nat -> (k < noa d)%nat -> (a < b)%nat -> (a < c)%nat -> (b < c)%nat -> (i < j)%nat -> (i < k)%nat -> (j < k)%nat -> D1 a b c i j k = den (va d a) (va d b) (va d c) (oa i) (oa j) (oa k)) ->
  (forall a b c i j k, (a < nua d)%nat -> (b < nua d)%nat -> (c < nub d)%nat -> (i < noa d)%nat -> (j < noa d)%nat -> (k < nob d)%nat -> (a < b)%nat -> (i < j)%nat -> D2 a b c i j k = den (va d a) (va d b) (vb d c) (oa i) (oa j) (ob k)) ->
  (forall a b c i j k, (a < nua d)%nat -> (b < nub d)%nat -> (c < nub d)%nat -> (i < noa d)%nat -> (j < nob d)%nat -> (k < nob d)%nat -> (b < c)%nat -> (j < k)%nat -> D3 a b c i j k = den (va d a) (vb d b) (vb d c) (oa i) (ob j) (ob k)) ->
  (forall a b c i j k, (a < nub d)%nat -> (b < nub d)%nat -> (c < nub d)%nat -> (i < nob d)%nat -> (j < nob d)%nat -> (k < nob d)%nat -> (a < b)%nat -> (a < c)%nat -> (b < c)%nat -> (i < j)%nat -> (i < k)%nat -> (j < k)%nat -> D4 a b c i j k = den (vb d a) (vb d b) (vb d c) (ob i) (ob j) (ob k)) ->
  tri4 d (mld X1 (creom_L_aaa d H0 HB T Y L) D1) (mld X2 (creom_L_aab d H0 HB T Y L) D2) (mld X3 (creom_L_abb d H0 HB T Y L) D3) (mld X4 (creom_L_bbb d H0 HB T Y L) D4) = creom23_sum d n m I T Y L r0 den.
Proof.
  intros M1 M2 M3 M4 K1 K2 K3 K4. unfold tri4, creom23_sum, sum_triples, mld. apply f_equal2; [apply f_equal2; [apply f_equal2|]|].
  - apply lt3_ext; intros a b c Ha Hb Hc ? ? ?. apply lt3_ext; intros i j k Hi Hj Hk ? ? ?. rewrite (M1 a b c i j k), (K1 a b c i j k), (left_aaa d n m I T Y L H0 En En' HI HT HL Hm a b c i j k) by assumption. apply f_equal2; [apply Rmult_comm|reflexivity].
  - apply lt2_ext; intros a b Ha Hb ?. apply sumn_ext; intros c Hc. apply lt2_ext; intros i j Hi Hj ?. apply sumn_ext; intros k Hk. rewrite (M2 a b c i j k), (K2 a b c i j k), (left_aab d n m I T Y L H0 En En' HI HT HL Hm a b c i j k) by assumption. apply f_equal2; [apply Rmult_comm|reflexivity].
  - apply sumn_ext; intros a Ha. apply lt2_ext; intros b c Hb Hc ?. apply sumn_ext; intros i Hi. apply lt2_ext; intros j k Hj Hk ?. rewrite (M3 a b c i j k), (K3 a b c i j k), (left_abb d n m I T Y L H0 En En' HI HT HL Hm a b c i j k) by assumption. apply f_equal2; [apply Rmult_comm|reflexivity].
  - apply lt3_ext; intros a b c Ha Hb Hc ? ? ?. apply lt3_ext; intros i j k Hi Hj Hk ? ? ?. rewrite (M4 a b c i j k), (K4 a b c i j k), (left_bbb d n m I T Y L H0 En En' HI HT HL Hm a b c i j k) by assumption. apply f_equal2; [apply Rmult_comm|reflexivity].
Qed.
Lemma sum_mix r0 D1 D2 D3 D4 den :
  (forall a b c i j k, (a < nua d)%nat -> (b < nua d)%nat -> (c < nua d)%nat -> (i < noa d)%nat -> (j < noa d)%nat -> (k < noa d)%nat -> (a < b)%nat -> (a < c)%nat -> (b < c)%nat -> (i < j)%nat -> (i < k)%nat -> (j < k)%nat -> D1 a b c i j k = den (va d a) (va d b) (va d c) (oa i) (oa j) (oa k)) ->
  (forall a b c i j k, (a < nua d)%nat -> (b < nua d)%nat -> (c < nub d)%nat -> (i < noa d)%nat -> (j < noa d)%nat -> (k < nob d)%nat -> (a < b)%nat -> (i < j)%nat -> D2 a b c i j k = den (va d a) (va d b) (vb d c) (oa i) (oa j) (ob k)) ->
  (forall a b c i j k, (a < nua d)%nat -> (b < nub d)%nat -> (c < nub d)%nat -> (i < noa d)%nat -> (j < nob d)%nat -> (k < nob d)%nat -> (b < c)%nat -> (j < k)%nat -> D3 a b c i j k = den (va d a) (vb d b) (vb d c) (oa i) (ob j) (ob k)) ->
  (forall a b c i j k, (a < nub d)%nat -> (b < nub d)%nat -> (c < nub d)%nat -> (i < nob d)%nat -> (j < nob d)%nat -> (k < nob d)%nat -> (a < b)%nat -> (a < c)%nat -> (b < c)%nat -> (i < j)%nat -> (i < k)%nat -> (j < k)%nat -> D4 a b c i j k = den (vb d a) (vb d b) (vb d c) (ob i) (ob j) (ob k)) ->
  tri4 d (mld (mix r0 (creom_M_aaa d H0 HB T Y L) (creom_N_aaa d H0 HB T Y L)) (creom_L_aaa d H0 HB T Y L) D1) (mld (mix r0 (creom_M_aab d H0 HB T Y L) (creom_N_aab d H0 HB T Y L)) (creom_L_aab d H0 HB T Y L) D2) (mld (mix r0 (creom_M_abb d H0 HB T Y L) (creom_N_abb d H0 HB T Y L)) (creom_L_abb d H0 HB T Y L) D3) (mld (mix r0 (creom_M_bbb d H0 HB T Y L) (creom_N_bbb d H0 HB T Y L)) (creom_L_bbb d H0 HB T Y L) D4) = creom23_sum d n m I T Y L r0 den.
Proof.
  intros K1 K2 K3 K4. apply tri_eom; [..|exact K1|exact K2|exact K3|exact K4]; intros; unfold mix; [now apply mom_aaa|now apply mom_aab|now apply mom_abb|now apply mom_bbb].
Qed.
Lemma sum_one D1 D2 D3 D4 den :
  (forall a b c i j k, (a < nua d)%nat -> (b < nua d)%nat -> (c < nua d)%nat -> (i < noa d)%nat -> (j < noa d)%nat -> (k < noa d)%nat -> (a < b)%nat -> (a < c)%nat -> (b < c)%nat -> (i < j)%nat -> (i < k)%nat -> (j < k)%nat -> D1 a b c i j k = den (va d a) (va d b) (va d c) (oa i) (oa j) (oa k)) ->
  (forall a b c i j k, (a < nua d)%nat -> (b < nua d)%nat -> (c < nub d)%nat -> (i < noa d)%nat -> (j < noa d)%nat -> (k < nob d)%nat -> (a < b)%nat -> (i < j)%nat -> D2 a b c i j k = den (va d a) (va d b) (vb d c) (oa i) (oa j) (ob k)) ->
  (forall a b c i j k, (a < nua d)%nat -> (b < nub d)%nat -> (c < nub d)%nat -> (i < noa d)%nat -> (j < nob d)%nat -> (k < nob d)%nat -> (b < c)%nat -> (j < k)%nat -> D3 a b c i j k = den (va d a) (vb d b) (vb d c) (oa i) (ob j) (ob k)) ->
  (forall a b c i j k, (a < nub d)%nat -> (b < nub d)%nat -> (c < nub d)%nat -> (i < nob d)%nat -> (j < nob d)%nat -> (k < nob d)%nat -> (a < b)%nat -> (a < c)%nat -> (b < c)%nat -> (i < j)%nat -> (i < k)%nat -> (j < k)%nat -> D4 a b c i j k = den (vb d a) (vb d b) (vb d c) (ob i) (ob j) (ob k)) ->
  tri4 d (mld (creom_N_aaa d H0 HB T Y L) (creom_L_aaa d H0 HB T Y L) D1) (mld (creom_N_aab d H0 HB T Y L) (creom_L_aab d H0 HB T Y L) D2) (mld (creom_N_abb d H0 HB T Y L) (creom_L_abb d H0 HB T Y L) D3) (mld (creom_N_bbb d H0 HB T Y L) (creom_L_bbb d H0 HB T Y L) D4) = creom23_sum d n m I T Y L 0 den.
Proof.
  intros K1 K2 K3 K4. apply tri_eom; [..|exact K1|exact K2|exact K3|exact K4]; intros.
  - rewrite <- (mom_aaa d n m I T Y L H0 En En' HI HT HY HL Hm HC 0 a b c i j k) by assumption. ring.
  - rewrite <- (mom_aab d n m I T Y L H0 En En' HI HT HY HL Hm HC 0 a b c i j k) by assumption. ring.
  - rewrite <- (mom_abb d n m I T Y L H0 En En' HI HT HY HL Hm HC 0 a b c i j k) by assumption. ring.
  - rewrite <- (mom_bbb d n m I T Y L H0 En En' HI HT HY HL Hm HC 0 a b c i j k) by assumption. ring.
Qed.
End V.
(** The arrays of EOM moments computed by the program are <K|[exp(-T) H exp(T), R]|ref> for every triply excited determinant K, whatever T is. *)
Theorem C82_moments d n m I T Y L H0 : shape d n -> exchangeable I -> antisym_amps T -> antisym_amps Y -> antisym_amps L -> (noa d + nob d + 4 <= m)%nat ->
  let HB := hbar_ccsd d (fock_ints (noa d) (nob d) I) T in let ref := pure (reference (noa d) (nob d)) in
  (forall a b c i j k, (a < nua d)%nat -> (b < nua d)%nat -> (c < nua d)%nat -> (i < noa d)%nat -> (j < noa d)%nat -> (k < noa d)%nat -> creom_N_aaa d H0 HB T Y L a b c i j k = bra3 d (va d a) (va d b) (va d c) (oa i) (oa j) (oa k) (similar d n m I T (cluster_sd d Y ref)) - bra3 d (va d a) (va d b) (va d c) (oa i) (oa j) (oa k) (cluster_sd d Y (similar d n m I T ref))) /\
  (forall a b c i j k, (a < nua d)%nat -> (b < nua d)%nat -> (c < nub d)%nat -> (i < noa d)%nat -> (j < noa d)%nat -> (k < nob d)%nat -> creom_N_aab d H0 HB T Y L a b c i j k = bra3 d (va d a) (va d b) (vb d c) (oa i) (oa j) (ob k) (similar d n m I T (cluster_sd d Y ref)) - bra3 d (va d a) (va d b) (vb d c) (oa i) (oa j) (ob k) (cluster_sd d Y (similar d n m I T ref))) /\
  (forall a b c i j k, (a < nua d)%nat -> (b < nub d)%nat -> (c < nub d)%nat -> (i < noa d)%nat -> (j < nob d)%nat -> (k < nob d)%nat -> creom_N_abb d H0 HB T Y L a b c i j k = bra3 d (va d a) (vb d b) (vb d c) (oa i) (ob j) (ob k) (similar d n m I T (cluster_sd d Y ref)) - bra3 d (va d a) (vb d b) (vb d c) (oa i) (ob j) (ob k) (cluster_sd d Y (similar d n m I T ref))) /\
  (forall a b c i j k, (a < nub d)%nat -> (b < nub d)%nat -> (c < nub d)%nat -> (i < nob d)%nat -> (j < nob d)%nat -> (k < nob d)%nat -> creom_N_bbb d H0 HB T Y L a b c i j k = bra3 d (vb d a) (vb d b) (vb d c) (ob i) (ob j) (ob k) (similar d n m I T (cluster_sd d Y ref)) - bra3 d (vb d a) (vb d b) (vb d c) (ob i) (ob j) (ob k) (cluster_sd d Y (similar d n m I T ref))).
Proof. intros (En & En') HI HT HY HL Hm HB ref. repeat split; intros a b c i j k Ha Hb Hc Hi Hj Hk; [now apply n_aaa|now apply n_aab|now apply n_abb|now apply n_bbb]. Qed.
(** Where T solves the CCSD equations, r0 times the ground-state moment plus that array is <K|exp(-T) H exp(T) (r0 + R)|ref>. *)
Theorem C82_eom_moments d n m I T Y L H0 r0 : shape d n -> exchangeable I -> antisym_amps T -> antisym_amps Y -> antisym_amps L -> (noa d + nob d + 4 <= m)%nat -> same_amps d (ccsd_resid d (fock_ints (noa d) (nob d) I) T) zero_amps ->
  let HB := hbar_ccsd d (fock_ints (noa d) (nob d) I) T in
  (forall a b c i j k, (a < nua d)%nat -> (b < nua d)%nat -> (c < nua d)%nat -> (i < noa d)%nat -> (j < noa d)%nat -> (k < noa d)%nat -> r0 * creom_M_aaa d H0 HB T Y L a b c i j k + creom_N_aaa d H0 HB T Y L a b c i j k = eom_moment d n m I T Y r0 (va d a) (va d b) (va d c) (oa i) (oa j) (oa k)) /\
  (forall a b c i j k, (a < nua d)%nat -> (b < nua d)%nat -> (c < nub d)%nat -> (i < noa d)%nat -> (j < noa d)%nat -> (k < nob d)%nat -> r0 * creom_M_aab d H0 HB T Y L a b c i j k + creom_N_aab d H0 HB T Y L a b c i j k = eom_moment d n m I T Y r0 (va d a) (va d b) (vb d c) (oa i) (oa j) (ob k)) /\
  (forall a b c i j k, (a < nua d)%nat -> (b < nub d)%nat -> (c < nub d)%nat -> (i < noa d)%nat -> (j < nob d)%nat -> (k < nob d)%nat -> r0 * creom_M_abb d H0 HB T Y L a b c i j k + creom_N_abb d H0 HB T Y L a b c i j k = eom_moment d n m I T Y r0 (va d a) (vb d b) (vb d c) (oa i) (ob j) (ob k)) /\
  (forall a b c i j k, (a < nub d)%nat -> (b < nub d)%nat -> (c < nub d)%nat -> (i < nob d)%nat -> (j < nob d)%nat -> (k < nob d)%nat -> r0 * creom_M_bbb d H0 HB T Y L a b c i j k + creom_N_bbb d H0 HB T Y L a b c i j k = eom_moment d n m I T Y r0 (vb d a) (vb d b) (vb d c) (ob i) (ob j) (ob k)).
Proof. intros (En & En') HI HT HY HL Hm HC HB. repeat split; intros a b c i j k Ha Hb Hc Hi Hj Hk; [now apply mom_aaa|now apply mom_aab|now apply mom_abb|now apply mom_bbb]. Qed.
(** The left triples amplitudes computed by the program are <ref|L exp(-T) H exp(T)|K>. *)
Theorem C82_left d n m I T Y L H0 : shape d n -> exchangeable I -> antisym_amps T -> antisym_amps Y -> antisym_amps L -> (noa d + nob d + 4 <= m)%nat ->
  let HB := hbar_ccsd d (fock_ints (noa d) (nob d) I) T in
  (forall a b c i j k, (a < nua d)%nat -> (b < nua d)%nat -> (c < nua d)%nat -> (i < noa d)%nat -> (j < noa d)%nat -> (k < noa d)%nat -> creom_L_aaa d H0 HB T Y L a b c i j k = adjoint_sd d L (similar d n m I T (ket3 d (va d a) (va d b) (va d c) (oa i) (oa j) (oa k)))) /\
  (forall a b c i j k, (a < nua d)%nat -> (b < nua d)%nat -> (c < nub d)%nat -> (i < noa d)%nat -> (j < noa d)%nat -> (k < nob d)%nat -> creom_L_aab d H0 HB T Y L a b c i j k = adjoint_sd d L (similar d n m I T (ket3 d (va d a) (va d b) (vb d c) (oa i) (oa j) (ob k)))) /\
  (forall a b c i j k, (a < nua d)%nat -> (b < nub d)%nat -> (c < nub d)%nat -> (i < noa d)%nat -> (j < nob d)%nat -> (k < nob d)%nat -> creom_L_abb d H0 HB T Y L a b c i j k = adjoint_sd d L (similar d n m I T (ket3 d (va d a) (vb d b) (vb d c) (oa i) (ob j) (ob k)))) /\
  (forall a b c i j k, (a < nub d)%nat -> (b < nub d)%nat -> (c < nub d)%nat -> (i < nob d)%nat -> (j < nob d)%nat -> (k < nob d)%nat -> creom_L_bbb d H0 HB T Y L a b c i j k = adjoint_sd d L (similar d n m I T (ket3 d (vb d a) (vb d b) (vb d c) (ob i) (ob j) (ob k)))).
Proof. intros (En & En') HI HT HY HL Hm HB. repeat split; intros a b c i j k Ha Hb Hc Hi Hj Hk; [now apply left_aaa|now apply left_aab|now apply left_abb|now apply left_bbb]. Qed.
(** The CR-EOMCC(2,3),D energy returned by the program is E + w plus the sum over all triply excited determinants K of
    <ref|L Hbar|K> <K|Hbar (r0 + R)|ref> / (E + w - <K|Hbar|K>). *)
Theorem C82_correction d n m I T Y L H0 w r0 : shape d n -> exchangeable I -> antisym_amps T -> antisym_amps Y -> antisym_amps L -> (noa d + nob d + 4 <= m)%nat -> same_amps d (ccsd_resid d (fock_ints (noa d) (nob d) I) T) zero_amps ->
  let H := fock_ints (noa d) (nob d) I in let E := scf_energy (noa d) (nob d) I + cc_energy d H T in
  let '(_, _, _, e) := calc_creomcc23 d H0 (hbar_ccsd d H T) T Y L w r0 (scf_energy (noa d) (nob d) I) (cc_energy d H T) false in
  e = E + w + creom23_correction d n m I T Y L r0 (E + w).
Proof.
  intros (En & En') HI HT HY HL Hm HC. cbv zeta. unfold calc_creomcc23. rewrite pair_sums. cbn [fst]. unfold creom23_correction.
  set (E := scf_energy (noa d) (nob d) I + cc_energy d (fock_ints (noa d) (nob d) I) T).
  rewrite (sum_mix d n m I T Y L H0 En En' HI HT HY HL Hm HC r0 _ _ _ _ (fun a b c i j k => E + w - bra3 d a b c i j k (similar d n m I T (ket3 d a b c i j k)))).
  - unfold E. ring.
  - intros. unfold sh. change (creom_DD_aaa d H0 (hbar_ccsd d (fock_ints (noa d) (nob d) I) T) T Y L a b c i j k) with (crcc_DD_aaa d H0 (hbar_ccsd d (fock_ints (noa d) (nob d) I) T) T L a b c i j k). rewrite <- (f_D_aaa d I T L H0 n m En En' HI HT HL Hm a b c i j k) by assumption. unfold E. ring.
  - intros. unfold sh. change (creom_DD_aab d H0 (hbar_ccsd d (fock_ints (noa d) (nob d) I) T) T Y L a b c i j k) with (crcc_DD_aab d H0 (hbar_ccsd d (fock_ints (noa d) (nob d) I) T) T L a b c i j k). rewrite <- (f_D_aab d I T L H0 n m En En' HI HT HL Hm a b c i j k) by assumption. unfold E. ring.
  - intros. unfold sh. change (creom_DD_abb d H0 (hbar_ccsd d (fock_ints (noa d) (nob d) I) T) T Y L a b c i j k) with (crcc_DD_abb d H0 (hbar_ccsd d (fock_ints (noa d) (nob d) I) T) T L a b c i j k). rewrite <- (f_D_abb d I T L H0 n m En En' HI HT HL Hm a b c i j k) by assumption. unfold E. ring.
  - intros. unfold sh. change (creom_DD_bbb d H0 (hbar_ccsd d (fock_ints (noa d) (nob d) I) T) T Y L a b c i j k) with (crcc_DD_bbb d H0 (hbar_ccsd d (fock_ints (noa d) (nob d) I) T) T L a b c i j k). rewrite <- (f_D_bbb d I T L H0 n m En En' HI HT HL Hm a b c i j k) by assumption. unfold E. ring.
Qed.
(** The second set of sums, printed as ddelta, is the same correction without the r0 part of the moment. *)
Theorem C82_ddelta d n m I T Y L H0 w r0 : shape d n -> exchangeable I -> antisym_amps T -> antisym_amps Y -> antisym_amps L -> (noa d + nob d + 4 <= m)%nat -> same_amps d (ccsd_resid d (fock_ints (noa d) (nob d) I) T) zero_amps ->
  let H := fock_ints (noa d) (nob d) I in let E := scf_energy (noa d) (nob d) I + cc_energy d H T in
  let '(_, _, _, e) := snd (calc_creomcc23_delta d H0 (hbar_ccsd d H T) T Y L w r0 false) in e = creom23_correction d n m I T Y L 0 (E + w).
Proof.
  intros (En & En') HI HT HY HL Hm HC. cbv zeta. rewrite pair_sums. cbn [snd]. unfold creom23_correction.
  set (E := scf_energy (noa d) (nob d) I + cc_energy d (fock_ints (noa d) (nob d) I) T).
  rewrite (sum_one d n m I T Y L H0 En En' HI HT HY HL Hm HC _ _ _ _ (fun a b c i j k => E + w - bra3 d a b c i j k (similar d n m I T (ket3 d a b c i j k)))).
  - reflexivity.
  - intros. unfold sh. change (creom_DD_aaa d H0 (hbar_ccsd d (fock_ints (noa d) (nob d) I) T) T Y L a b c i j k) with (crcc_DD_aaa d H0 (hbar_ccsd d (fock_ints (noa d) (nob d) I) T) T L a b c i j k). rewrite <- (f_D_aaa d I T L H0 n m En En' HI HT HL Hm a b c i j k) by assumption. unfold E. ring.
  - intros. unfold sh. change (creom_DD_aab d H0 (hbar_ccsd d (fock_ints (noa d) (nob d) I) T) T Y L a b c i j k) with (crcc_DD_aab d H0 (hbar_ccsd d (fock_ints (noa d) (nob d) I) T) T L a b c i j k). rewrite <- (f_D_aab d I T L H0 n m En En' HI HT HL Hm a b c i j k) by assumption. unfold E. ring.
  - intros. unfold sh. change (creom_DD_abb d H0 (hbar_ccsd d (fock_ints (noa d) (nob d) I) T) T Y L a b c i j k) with (crcc_DD_abb d H0 (hbar_ccsd d (fock_ints (noa d) (nob d) I) T) T L a b c i j k). rewrite <- (f_D_abb d I T L H0 n m En En' HI HT HL Hm a b c i j k) by assumption. unfold E. ring.
  - intros. unfold sh. change (creom_DD_bbb d H0 (hbar_ccsd d (fock_ints (noa d) (nob d) I) T) T Y L a b c i j k) with (crcc_DD_bbb d H0 (hbar_ccsd d (fock_ints (noa d) (nob d) I) T) T L a b c i j k). rewrite <- (f_D_bbb d I T L H0 n m En En' HI HT HL Hm a b c i j k) by assumption. unfold E. ring.
Qed.
(** Variants A and B: the same numerators over w plus differences of diagonal Fock elements, and of diagonal one-body elements of Hbar. *)
Theorem C82_orbital_denominators d n m I T Y L w r0 : shape d n -> exchangeable I -> antisym_amps T -> antisym_amps Y -> antisym_amps L -> (noa d + nob d + 4 <= m)%nat -> same_amps d (ccsd_resid d (fock_ints (noa d) (nob d) I) T) zero_amps ->
  let H := fock_ints (noa d) (nob d) I in let E := scf_energy (noa d) (nob d) I + cc_energy d H T in
  let '(ea, eb, _, _) := calc_creomcc23 d H (hbar_ccsd d H T) T Y L w r0 (scf_energy (noa d) (nob d) I) (cc_energy d H T) false in
  ea = E + w + creom23_sum d n m I T Y L r0 (fun a b c i j k => w + gap (fock_level d I) a b c i j k) /\
  eb = E + w + creom23_sum d n m I T Y L r0 (fun a b c i j k => w + gap (block_level d (hbar_ccsd d H T)) a b c i j k).
Proof.
  intros (En & En') HI HT HY HL Hm HC. cbv zeta. unfold calc_creomcc23. rewrite pair_sums. cbn [fst]. split.
  - rewrite (sum_mix d n m I T Y L _ En En' HI HT HY HL Hm HC r0 _ _ _ _ (fun a b c i j k => w + gap (fock_level d I) a b c i j k)); [ring|..]; intros; unfold sh; apply f_equal; levels; reflexivity.
  - rewrite (sum_mix d n m I T Y L _ En En' HI HT HY HL Hm HC r0 _ _ _ _ (fun a b c i j k => w + gap (block_level d (hbar_ccsd d (fock_ints (noa d) (nob d) I) T)) a b c i j k)); [ring|..]; intros; unfold sh; apply f_equal; levels; reflexivity.
Qed.
Lemma singlet_line T Y t : singlet T -> singlet Y -> singlet (amps_line T Y t).
Proof. intros [TA TC] [YA YC]. split; [now apply antisym_line|]. constructor; intros; cbn [amps_line x_a x_b x_aa x_ab x_bb]; [now rewrite (cx_a T TC), (cx_a Y YC)|now rewrite (cx_aa T TC), (cx_aa Y YC)|now rewrite (cx_ab T TC a), (cx_ab Y YC a)]. Qed.
Section C.
Variables (d : dims) (H : ints) (T Y L : amps).
Hypothesis HH : closed_shell d H.
Hypothesis HT : singlet T.
Hypothesis HY : singlet Y.
Hypothesis HL : singlet L.
Notation HB := (hbar_ccsd d H T).
Lemma flip_N_abb a b c i j k : creom_N_abb d H HB T Y L a b c i j k = creom_N_aab d H HB T Y L b c a j k i.
Proof.
  apply (uniqueness_limite (fun t => creom_M_aab d H (hbar_ccsd d H (amps_line T Y t)) (amps_line T Y t) Y L b c a j k i) 0); [|apply dn_aab; [apply HH|apply HT|apply HY]].
  apply (dlim_fun (fun t => creom_M_abb d H (hbar_ccsd d H (amps_line T Y t)) (amps_line T Y t) Y L a b c i j k)); [intros t|apply dn_abb; [apply HH|apply HT|apply HY]].
  assert (ST := singlet_line T Y t HT HY). destruct (C52_hbar_closed d H _ HH ST) as [En Em HA HC].
  exact (fl_M_abb d H (fix_ints (hbar_ccsd d H (amps_line T Y t))) (amps_line T Y t) L En Em HA HC (sg_anti _ ST) (sg_anti _ HL) (sg_spin _ ST) (sg_spin _ HL) a b c i j k).
Qed.
Lemma flip_N_bbb a b c i j k : creom_N_bbb d H HB T Y L a b c i j k = creom_N_aaa d H HB T Y L a b c i j k.
Proof.
  apply (uniqueness_limite (fun t => creom_M_aaa d H (hbar_ccsd d H (amps_line T Y t)) (amps_line T Y t) Y L a b c i j k) 0); [|apply dn_aaa; [apply HH|apply HT|apply HY]].
  apply (dlim_fun (fun t => creom_M_bbb d H (hbar_ccsd d H (amps_line T Y t)) (amps_line T Y t) Y L a b c i j k)); [intros t|apply dn_bbb; [apply HH|apply HT|apply HY]].
  assert (ST := singlet_line T Y t HT HY). destruct (C52_hbar_closed d H _ HH ST) as [En Em HA HC].
  exact (fl_M_bbb d H (fix_ints (hbar_ccsd d H (amps_line T Y t))) (amps_line T Y t) L En Em HA HC (sg_anti _ ST) (sg_anti _ HL) (sg_spin _ ST) (sg_spin _ HL) a b c i j k).
Qed.
Lemma flip_M_abb a b c i j k : creom_M_abb d H HB T Y L a b c i j k = creom_M_aab d H HB T Y L b c a j k i.
Proof. destruct (C52_hbar_closed d H _ HH HT) as [En Em HA HC]. exact (fl_M_abb d H (fix_ints HB) T L En Em HA HC (sg_anti _ HT) (sg_anti _ HL) (sg_spin _ HT) (sg_spin _ HL) a b c i j k). Qed.
Lemma flip_L_abb a b c i j k : creom_L_abb d H HB T Y L a b c i j k = creom_L_aab d H HB T Y L b c a j k i.
Proof. destruct (C52_hbar_closed d H _ HH HT) as [En Em HA HC]. exact (fl_L_abb d H (fix_ints HB) T L En Em HA HC (sg_anti _ HT) (sg_anti _ HL) (sg_spin _ HT) (sg_spin _ HL) a b c i j k). Qed.
Lemma flip_DA_abb a b c i j k : creom_DA_abb d H HB T Y L a b c i j k = creom_DA_aab d H HB T Y L b c a j k i.
Proof.
  destruct (C52_hbar_closed d H _ HH HT) as [En Em HA HC].
  change (crcc_DA_abb d H (fix_ints HB) T L a b c i j k = crcc_DA_aab d H (fix_ints HB) T L b c a j k i). apply fl_DA_abb; try assumption; try apply HH; try apply HT; try apply HL.
Qed.
Lemma flip_DB_abb a b c i j k : creom_DB_abb d H HB T Y L a b c i j k = creom_DB_aab d H HB T Y L b c a j k i.
Proof.
  destruct (C52_hbar_closed d H _ HH HT) as [En Em HA HC].
  change (crcc_DB_abb d H (fix_ints HB) T L a b c i j k = crcc_DB_aab d H (fix_ints HB) T L b c a j k i). apply fl_DB_abb; try assumption; try apply HH; try apply HT; try apply HL.
Qed.
Lemma flip_DC_abb a b c i j k : creom_DC_abb d H HB T Y L a b c i j k = creom_DC_aab d H HB T Y L b c a j k i.
Proof.
  destruct (C52_hbar_closed d H _ HH HT) as [En Em HA HC].
  change (crcc_DC_abb d H (fix_ints HB) T L a b c i j k = crcc_DC_aab d H (fix_ints HB) T L b c a j k i). apply fl_DC_abb; try assumption; try apply HH; try apply HT; try apply HL.
Qed.
Lemma flip_DD_abb a b c i j k : creom_DD_abb d H HB T Y L a b c i j k = creom_DD_aab d H HB T Y L b c a j k i.
Proof.
  destruct (C52_hbar_closed d H _ HH HT) as [En Em HA HC].
  change (crcc_DD_abb d H (fix_ints HB) T L a b c i j k = crcc_DD_aab d H (fix_ints HB) T L b c a j k i). apply fl_DD_abb; try assumption; try apply HH; try apply HT; try apply HL.
Qed.
Lemma flip_M_bbb a b c i j k : creom_M_bbb d H HB T Y L a b c i j k = creom_M_aaa d H HB T Y L a b c i j k.
Proof. destruct (C52_hbar_closed d H _ HH HT) as [En Em HA HC]. exact (fl_M_bbb d H (fix_ints HB) T L En Em HA HC (sg_anti _ HT) (sg_anti _ HL) (sg_spin _ HT) (sg_spin _ HL) a b c i j k). Qed.
Lemma flip_L_bbb a b c i j k : creom_L_bbb d H HB T Y L a b c i j k = creom_L_aaa d H HB T Y L a b c i j k.
Proof. destruct (C52_hbar_closed d H _ HH HT) as [En Em HA HC]. exact (fl_L_bbb d H (fix_ints HB) T L En Em HA HC (sg_anti _ HT) (sg_anti _ HL) (sg_spin _ HT) (sg_spin _ HL) a b c i j k). Qed.
Lemma flip_DA_bbb a b c i j k : creom_DA_bbb d H HB T Y L a b c i j k = creom_DA_aaa d H HB T Y L a b c i j k.
Proof.
  destruct (C52_hbar_closed d H _ HH HT) as [En Em HA HC].
  change (crcc_DA_bbb d H (fix_ints HB) T L a b c i j k = crcc_DA_aaa d H (fix_ints HB) T L a b c i j k). apply fl_DA_bbb; try assumption; try apply HH; try apply HT; try apply HL.
Qed.
Lemma flip_DB_bbb a b c i j k : creom_DB_bbb d H HB T Y L a b c i j k = creom_DB_aaa d H HB T Y L a b c i j k.
Proof.
  destruct (C52_hbar_closed d H _ HH HT) as [En Em HA HC].
  change (crcc_DB_bbb d H (fix_ints HB) T L a b c i j k = crcc_DB_aaa d H (fix_ints HB) T L a b c i j k). apply fl_DB_bbb; try assumption; try apply HH; try apply HT; try apply HL.
Qed.
Lemma flip_DC_bbb a b c i j k : creom_DC_bbb d H HB T Y L a b c i j k = creom_DC_aaa d H HB T Y L a b c i j k.
Proof.
  destruct (C52_hbar_closed d H _ HH HT) as [En Em HA HC].
  change (crcc_DC_bbb d H (fix_ints HB) T L a b c i j k = crcc_DC_aaa d H (fix_ints HB) T L a b c i j k). apply fl_DC_bbb; try assumption; try apply HH; try apply HT; try apply HL.
Qed.
Lemma flip_DD_bbb a b c i j k : creom_DD_bbb d H HB T Y L a b c i j k = creom_DD_aaa d H HB T Y L a b c i j k.
Proof.
  destruct (C52_hbar_closed d H _ HH HT) as [En Em HA HC].
  change (crcc_DD_bbb d H (fix_ints HB) T L a b c i j k = crcc_DD_aaa d H (fix_ints HB) T L a b c i j k). apply fl_DD_bbb; try assumption; try apply HH; try apply HT; try apply HL.
Qed.
Lemma both_abb w r0 : creomcc23C_opt d H HB T Y L w r0 = creomcc23B_opt d H HB T Y L w r0.
Proof.
  unfold creomcc23B_opt, creomcc23C_opt. rewrite !opt_pair. change (creom_loop_aab d) with (crcc_loop_aab d). change (creom_loop_abb d) with (crcc_loop_abb d). rewrite <- !(re_aab d (cs_occ _ _ HH) (cs_unocc _ _ HH)).
  apply f_equal2; apply quad_eq; apply slist_ext; intros [[[[[a b] c] i] j] k]; unfold f6, mld, mix, sh; rewrite ?flip_M_abb, flip_N_abb, flip_L_abb, ?flip_DA_abb, ?flip_DB_abb, ?flip_DC_abb, ?flip_DD_abb; reflexivity.
Qed.
Lemma both_bbb w r0 : creomcc23D_opt d H HB T Y L w r0 = creomcc23A_opt d H HB T Y L w r0.
Proof.
  unfold creomcc23D_opt, creomcc23A_opt. rewrite !opt_pair. change (creom_loop_aaa d) with (crcc_loop_aaa d). change (creom_loop_bbb d) with (crcc_loop_bbb d). rewrite !(re_bbb d (cs_occ _ _ HH) (cs_unocc _ _ HH)).
  apply f_equal2; apply quad_eq; apply slist_ext; intros [[[[[a b] c] i] j] k]; unfold f6, mld, mix, sh; rewrite ?flip_M_bbb, flip_N_bbb, flip_L_bbb, ?flip_DA_bbb, ?flip_DB_bbb, ?flip_DC_bbb, ?flip_DD_bbb; reflexivity.
Qed.
End C.
(** For a closed-shell Hamiltonian and singlet T, R and L, use_RHF changes none of the corrections. *)
Theorem C82_closed_shell d H T Y L w r0 : closed_shell d H -> singlet T -> singlet Y -> singlet L ->
  calc_creomcc23_delta d H (hbar_ccsd d H T) T Y L w r0 true = calc_creomcc23_delta d H (hbar_ccsd d H T) T Y L w r0 false.
Proof.
  intros HH HT HY HL. unfold calc_creomcc23_delta. rewrite both_abb, both_bbb by assumption.
  destruct (creomcc23A_opt d H (hbar_ccsd d H T) T Y L w r0) as [[[[? ?] ?] ?] [[[? ?] ?] ?]], (creomcc23B_opt d H (hbar_ccsd d H T) T Y L w r0) as [[[[? ?] ?] ?] [[[? ?] ?] ?]].
  unfold both, quad_add, quad_scale. cbn [fst snd]. apply f_equal2; apply quad_eq; ring.
Qed.
(** Two alpha and one beta electron, no correlation in the ground state, a doubly excited root and the repulsion element of C81_instance that excites the third electron. *)
Definition z_amps : qamps := mkQa (fun _ _ => 0%Q) (fun _ _ => 0%Q) (fun _ _ _ _ => 0%Q) (fun _ _ _ _ => 0%Q) (fun _ _ _ _ => 0%Q).
Example C82_instance : let T := reala z_amps in let Y := bare (reala c_amps) in
  shape c_dims 4 /\ exchangeable (real p_ints) /\ antisym_amps T /\ antisym_amps Y /\ same_amps c_dims (ccsd_resid c_dims (fock_ints 2 1 (real p_ints)) T) zero_amps /\
  eom_moment c_dims 4 7 (real p_ints) T Y 3 (va c_dims 0) (va c_dims 1) (vb c_dims 0) (oa 0) (oa 1) (ob 0) = / 2.
Proof.
  intros T Y. destruct C81_instance as (A & HI & _ & HX & V). assert (HY : antisym_amps Y) by now apply bare_anti.
  assert (Q : T = zero_amps).
  { unfold T, reala, zero_amps, z_amps. cbn [qt_a qt_b qt_aa qt_ab qt_bb]. now rewrite QEval.q0. }
  assert (HT : antisym_amps T) by (rewrite Q; constructor; intros; cbn; ring).
  assert (HC : same_amps c_dims (ccsd_resid c_dims (fock_ints 2 1 (real p_ints)) T) zero_amps) by (apply (qres_ok c_dims p_ints z_amps); vm_compute; reflexivity).
  split; [exact A|]. split; [exact HI|]. split; [exact HT|]. split; [exact HY|]. split; [exact HC|].
  assert (M : creom_M_aab c_dims (fock_ints 2 1 (real p_ints)) (hbar_ccsd c_dims (fock_ints 2 1 (real p_ints)) T) T Y Y 0%nat 1%nat 0%nat 0%nat 1%nat 0%nat = 0).
  { change (crcc_M_aab c_dims (fock_ints 2 1 (real p_ints)) (hbar_ccsd c_dims (fock_ints 2 1 (real p_ints)) T) T Y 0%nat 1%nat 0%nat 0%nat 1%nat 0%nat = 0).
    etransitivity; [symmetry; exact (f_M_aab c_dims (real p_ints) T Y (fock_ints 2 1 (real p_ints)) 4 7 eq_refl eq_refl HI HT HY ltac:(cbn; lia) 0%nat 1%nat 0%nat 0%nat 1%nat 0%nat ltac:(cbn; lia) ltac:(cbn; lia) ltac:(cbn; lia) ltac:(cbn; lia) ltac:(cbn; lia) ltac:(cbn; lia))|].
    transitivity (x_aab (ccsdt_resid c_dims (fock_ints 2 1 (real p_ints)) (plain T)) 0%nat 1%nat 0%nat 0%nat 1%nat 0%nat).
    - exact (r_aab c_dims (real p_ints) T 4 7 eq_refl eq_refl HI HT ltac:(cbn; lia) 0%nat 1%nat 0%nat 0%nat 1%nat 0%nat ltac:(cbn; lia) ltac:(cbn; lia) ltac:(cbn; lia) ltac:(cbn; lia) ltac:(cbn; lia) ltac:(cbn; lia)).
    - change (den (fdim c_dims) (tenv (fock_arrays (fock_ints 2 1 (real p_ints)) (reala z_amps))) (e_sdt_aab 0 1 2 3 4 5) (venv [0; 1; 0; 0; 1; 0]%nat) = 0). rewrite (denq_ok (fdim c_dims) _ _ (qarrays_ok 2 1 p_ints z_amps)).
      rewrite (Qeq_eqR _ 0); [apply QEval.q0|]. apply Qeq_bool_eq. vm_compute. reflexivity. }
  etransitivity; [symmetry; exact (mom_aab c_dims 4 7 (real p_ints) T Y Y (fock_ints 2 1 (real p_ints)) eq_refl eq_refl HI HT HY HY ltac:(cbn; lia) HC 3 0%nat 1%nat 0%nat 0%nat 1%nat 0%nat ltac:(cbn; lia) ltac:(cbn; lia) ltac:(cbn; lia) ltac:(cbn; lia) ltac:(cbn; lia) ltac:(cbn; lia))|].
  transitivity (3 * 0 + (bra3 c_dims (va c_dims 0) (va c_dims 1) (vb c_dims 0) (oa 0) (oa 1) (ob 0) (similar c_dims 4 7 (real p_ints) T (cluster_sd c_dims Y (pure (reference 2 1)))) -
    bra3 c_dims (va c_dims 0) (va c_dims 1) (vb c_dims 0) (oa 0) (oa 1) (ob 0) (cluster_sd c_dims Y (similar c_dims 4 7 (real p_ints) T (pure (reference 2 1)))))).
  { apply f_equal2; [exact (f_equal (Rmult 3) M)|exact (n_aab c_dims 4 7 (real p_ints) T Y Y (fock_ints 2 1 (real p_ints)) eq_refl eq_refl HI HT HY HY ltac:(cbn; lia) 0%nat 1%nat 0%nat 0%nat 1%nat 0%nat ltac:(cbn; lia) ltac:(cbn; lia) ltac:(cbn; lia) ltac:(cbn; lia) ltac:(cbn; lia) ltac:(cbn; lia))]. }
  rewrite Q, !similar_zero. unfold Y. rewrite <- !pt_twos. rewrite Rmult_0_r, Rplus_0_l. exact V.
Qed.
Print Assumptions C82_correction. Print Assumptions C82_closed_shell.
