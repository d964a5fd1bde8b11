(** Generated by tools/gen_crket.py: exp(-T) H exp(T) between the reference, single triply excited determinants and the left CCSD state (proof support). *)
From Coq Require Import Reals Arith NArith List Bool Lia Lra FunctionalExtensionality.
From Verif Require Import RSum IntegralsModel TensorObjs TensorSpec IntsFix CcsdModel CcsdUpdate CcsdProps FockSpec FockCar FockArrays FockCcSpec FockHam FockExp FockLevel FockState FockSectorSpec FockFlip FockCount FockDress FockShift
  CcsdtModel CcsdtUpdate SdtSpec SdtFlat SdtFock SdtState CrccModel CrccSpec CrccFock CrccHbar CrccPoly CrccDiag.
Import ListNotations.
Local Open Scope R_scope.
(** * Sums against antisymmetrised deltas *)
Lemma del2_sum n a b (F : nat -> nat -> R) : (a < n)%nat -> (b < n)%nat -> (forall p q, F p q = - F q p) -> sumn n (fun p => sumn n (fun q => del2 a b p q * F p q)) = 2 * F a b.
Proof.
  intros Ha Hb HF. transitivity (F a b - F b a); [|rewrite (HF b a); ring]. rewrite <- (s2a n a b F Ha Hb). apply sumn_ext; intros p _. apply sumn_ext; intros q _. unfold del2. ring.
Qed.
Lemma s3 n a b c F : (a < n)%nat -> (b < n)%nat -> (c < n)%nat -> sumn n (fun p => sumn n (fun q => sumn n (fun r => dlt p a * dlt q b * dlt r c * F p q r))) = F a b c.
Proof.
  intros Ha Hb Hc. rewrite <- (s1 n a (fun p => F p b c) Ha). apply sumn_ext; intros p _. rewrite <- (s2 n n b c (F p) Hb Hc), (Rmult_comm (sumn _ _)), <- sumn_scal. apply sumn_ext; intros q _. rewrite <- sumn_scal. apply sumn_ext; intros r _. ring.
Qed.
Lemma del3_sum n a b c (F : nat -> nat -> nat -> R) : (a < n)%nat -> (b < n)%nat -> (c < n)%nat -> (forall p q r, F p q r = - F q p r) -> (forall p q r, F p q r = - F p r q) ->
  sumn n (fun p => sumn n (fun q => sumn n (fun r => del3 a b c p q r * F p q r))) = 6 * F a b c.
Proof.
  intros Ha Hb Hc F1 F2. transitivity (F a b c + F b c a + F c a b - F b a c - F a c b - F c b a).
  - rewrite <- (s3 n a b c F Ha Hb Hc), <- (s3 n b c a F Hb Hc Ha), <- (s3 n c a b F Hc Ha Hb), <- (s3 n b a c F Hb Ha Hc), <- (s3 n a c b F Ha Hc Hb), <- (s3 n c b a F Hc Hb Ha).
    rewrite <- !sumn_plus, <- !sumn_minus. apply sumn_ext; intros p _. rewrite <- !sumn_plus, <- !sumn_minus. apply sumn_ext; intros q _. rewrite <- !sumn_plus, <- !sumn_minus. apply sumn_ext; intros r _. unfold del3. ring.
  - rewrite (F2 b c a), (F1 b a c), (F1 c a b), (F2 a c b), (F1 c b a), (F2 b c a), (F1 b a c). ring.
Qed.
Lemma sum6_aaa m n a b c i j k (F : mat6) : (a < n)%nat -> (b < n)%nat -> (c < n)%nat -> (i < m)%nat -> (j < m)%nat -> (k < m)%nat -> (forall p q r s t u, F p q r s t u = - F q p r s t u) -> (forall p q r s t u, F p q r s t u = - F p r q s t u) -> (forall p q r s t u, F p q r s t u = - F p q r t s u) -> (forall p q r s t u, F p q r s t u = - F p q r s u t) ->
  / 36 * sumn n (fun p => sumn n (fun q => sumn n (fun r => sumn m (fun s => sumn m (fun t => sumn m (fun u => (del3 a b c p q r * del3 i j k s t u) * F p q r s t u)))))) = F a b c i j k.
Proof.
  intros Ha Hb Hc Hi Hj Hk A1 A2 A3 A4.
  transitivity (/ 36 * (6 * (6 * F a b c i j k))); [apply f_equal|field].
  rewrite <- (del3_sum m i j k (fun s t u => F a b c s t u) Hi Hj Hk) by (intros; first [apply A3|apply A4]).
  rewrite <- (del3_sum n a b c (fun p q r => sumn m (fun s => sumn m (fun t => sumn m (fun u => del3 i j k s t u * F p q r s t u)))) Ha Hb Hc).
  - apply sumn_ext; intros p _. apply sumn_ext; intros q _. apply sumn_ext; intros r _. rewrite <- sumn_scal. apply sumn_ext; intros s _. rewrite <- sumn_scal. apply sumn_ext; intros t _. rewrite <- sumn_scal. apply sumn_ext; intros u _. ring.
  - intros p q r. rewrite <- sumn_opp. apply sumn_ext; intros s _. rewrite <- sumn_opp. apply sumn_ext; intros t _. rewrite <- sumn_opp. apply sumn_ext; intros u _. rewrite (A1 p q r). ring.
  - intros p q r. rewrite <- sumn_opp. apply sumn_ext; intros s _. rewrite <- sumn_opp. apply sumn_ext; intros t _. rewrite <- sumn_opp. apply sumn_ext; intros u _. rewrite (A2 p q r). ring.
Qed.
Lemma sum6_aab m m' n n' a b c i j k (F : mat6) : (a < n)%nat -> (b < n)%nat -> (c < n')%nat -> (i < m)%nat -> (j < m)%nat -> (k < m')%nat -> (forall p q r s t u, F p q r s t u = - F q p r s t u) -> (forall p q r s t u, F p q r s t u = - F p q r t s u) ->
  / 4 * sumn n (fun p => sumn n (fun q => sumn n' (fun r => sumn m (fun s => sumn m (fun t => sumn m' (fun u => (del2 a b p q * dlt r c * (del2 i j s t * dlt u k)) * F p q r s t u)))))) = F a b c i j k.
Proof.
  intros Ha Hb Hc Hi Hj Hk A1 A2.
  transitivity (/ 4 * (2 * (2 * F a b c i j k))); [apply f_equal|field].
  rewrite <- (del2_sum m i j (fun s t => F a b c s t k) Hi Hj) by (intros; apply A2).
  rewrite <- (del2_sum n a b (fun p q => sumn m (fun s => sumn m (fun t => del2 i j s t * F p q c s t k))) Ha Hb).
  - apply sumn_ext; intros p _. apply sumn_ext; intros q _. rewrite <- (s1 n' c (fun r => del2 a b p q * sumn m (fun s => sumn m (fun t => del2 i j s t * F p q r s t k))) Hc). apply sumn_ext; intros r _.
    rewrite <- sumn_scal, <- sumn_scal_r. apply sumn_ext; intros s _. rewrite <- sumn_scal, <- sumn_scal_r. apply sumn_ext; intros t _.
    rewrite <- (s1 m' k (fun u => F p q r s t u) Hk), <- !sumn_scal, <- sumn_scal_r. apply sumn_ext; intros u _. ring.
  - intros p q. rewrite <- sumn_opp. apply sumn_ext; intros s _. rewrite <- sumn_opp. apply sumn_ext; intros t _. rewrite (A1 p q c). ring.
Qed.
Lemma sum6_abb m m' n n' a b c i j k (F : mat6) : (a < n)%nat -> (b < n')%nat -> (c < n')%nat -> (i < m)%nat -> (j < m')%nat -> (k < m')%nat -> (forall p q r s t u, F p q r s t u = - F p r q s t u) -> (forall p q r s t u, F p q r s t u = - F p q r s u t) ->
  / 4 * sumn n (fun p => sumn n' (fun q => sumn n' (fun r => sumn m (fun s => sumn m' (fun t => sumn m' (fun u => (dlt p a * del2 b c q r * (dlt s i * del2 j k t u)) * F p q r s t u)))))) = F a b c i j k.
Proof.
  intros Ha Hb Hc Hi Hj Hk A1 A2.
  transitivity (/ 4 * (2 * (2 * F a b c i j k))); [apply f_equal|field].
  rewrite <- (del2_sum m' j k (fun t u => F a b c i t u) Hj Hk) by (intros; apply A2).
  rewrite <- (del2_sum n' b c (fun q r => sumn m' (fun t => sumn m' (fun u => del2 j k t u * F a q r i t u))) Hb Hc).
  - rewrite <- (s1 n a (fun p => sumn n' (fun q => sumn n' (fun r => del2 b c q r * sumn m' (fun t => sumn m' (fun u => del2 j k t u * F p q r i t u))))) Ha). apply sumn_ext; intros p _.
    rewrite <- sumn_scal_r. apply sumn_ext; intros q _. rewrite <- sumn_scal_r. apply sumn_ext; intros r _.
    rewrite <- (s1 m i (fun s => del2 b c q r * sumn m' (fun t => sumn m' (fun u => del2 j k t u * F p q r s t u))) Hi), <- sumn_scal_r. apply sumn_ext; intros s _.
    rewrite <- sumn_scal, <- sumn_scal_r, <- sumn_scal_r. apply sumn_ext; intros t _. rewrite <- sumn_scal, <- sumn_scal_r, <- sumn_scal_r. apply sumn_ext; intros u _. ring.
  - intros q r. rewrite <- sumn_opp. apply sumn_ext; intros t _. rewrite <- sumn_opp. apply sumn_ext; intros u _. rewrite (A1 a q r). ring.
Qed.
(** * Amplitudes with given triples *)
Definition t3set (T Y : amps) : amps := mkAmps (x_a T) (x_b T) (x_aa T) (x_ab T) (x_bb T) (x_aaa Y) (x_aab Y) (x_abb Y) (x_bbb Y).
Definition z6 : mat6 := fun _ _ _ _ _ _ => 0.
Definition just3 (Y1 Y2 Y3 Y4 : mat6) : amps := mkAmps (fun _ _ => 0) (fun _ _ => 0) (fun _ _ _ _ => 0) (fun _ _ _ _ => 0) (fun _ _ _ _ => 0) Y1 Y2 Y3 Y4.
Definition one_aaa (a b c i j k : nat) : amps := just3 (fun p q r s t u => del3 a b c p q r * del3 i j k s t u) z6 z6 z6.
Lemma one_aaa_anti a b c i j k : triples_anti (one_aaa a b c i j k).
Proof. unfold triples_anti, one_aaa. cbn [just3 x_aaa x_aab x_abb x_bbb]. unfold z6, del3, del2. repeat split; intros; ring. Qed.
Definition one_aab (a b c i j k : nat) : amps := just3 z6 (fun p q r s t u => del2 a b p q * dlt r c * (del2 i j s t * dlt u k)) z6 z6.
Lemma one_aab_anti a b c i j k : triples_anti (one_aab a b c i j k).
Proof. unfold triples_anti, one_aab. cbn [just3 x_aaa x_aab x_abb x_bbb]. unfold z6, del3, del2. repeat split; intros; ring. Qed.
Definition one_abb (a b c i j k : nat) : amps := just3 z6 z6 (fun p q r s t u => dlt p a * del2 b c q r * (dlt s i * del2 j k t u)) z6.
Lemma one_abb_anti a b c i j k : triples_anti (one_abb a b c i j k).
Proof. unfold triples_anti, one_abb. cbn [just3 x_aaa x_aab x_abb x_bbb]. unfold z6, del3, del2. repeat split; intros; ring. Qed.
Definition one_bbb (a b c i j k : nat) : amps := just3 z6 z6 z6 (fun p q r s t u => del3 a b c p q r * del3 i j k s t u).
Lemma one_bbb_anti a b c i j k : triples_anti (one_bbb a b c i j k).
Proof. unfold triples_anti, one_bbb. cbn [just3 x_aaa x_aab x_abb x_bbb]. unfold z6, del3, del2. repeat split; intros; ring. Qed.
Lemma fn_cre2 p q psi : cre p (cre q psi) = fun D => - cre q (cre p psi) D. Proof. apply ext_state; intros D. apply cre_cre. Qed.
Lemma fn_ann2 p q psi : ann p (ann q psi) = fun D => - ann q (ann p psi) D. Proof. apply ext_state; intros D. apply ann_ann. Qed.
Ltac push := repeat first [rewrite cre_neg|rewrite ann_neg].
Lemma zero6sum n1 n2 n3 n4 n5 n6 F : sumn n1 (fun a => sumn n2 (fun b => sumn n3 (fun c => sumn n4 (fun i => sumn n5 (fun j => sumn n6 (fun k => 0 * F a b c i j k)))))) = 0.
Proof. repeat (apply sumn_0; intros ? _). ring. Qed.
Section Z.
Variables (d : dims).
Notation ref := (reference (noa d) (nob d)).
Lemma one_aaa_ket a b c i j k psi D : (a < nua d)%nat -> (b < nua d)%nat -> (c < nua d)%nat -> (i < noa d)%nat -> (j < noa d)%nat -> (k < noa d)%nat -> triples d (one_aaa a b c i j k) psi D = cre (va d a) (cre (va d b) (cre (va d c) (ann (oa k) (ann (oa j) (ann (oa i) psi))))) D.
Proof.
  intros Ha Hb Hc Hi Hj Hk. unfold triples, one_aaa. cbn [just3 x_aaa x_aab x_abb x_bbb].
  assert (Q := sum6_aaa (noa d) (nua d) a b c i j k (fun p q r s t u => cre (va d p) (cre (va d q) (cre (va d r) (ann (oa u) (ann (oa t) (ann (oa s) psi))))) D) Ha Hb Hc Hi Hj Hk). cbv beta in Q.
  rewrite Q; clear Q.
  - unfold z6. rewrite ?zero6sum. ring.
  - intros p q r s t u. rewrite (fn_cre2 (va d p) (va d q)). reflexivity.
  - intros p q r s t u. rewrite (fn_cre2 (va d q) (va d r)). push. reflexivity.
  - intros p q r s t u. rewrite (fn_ann2 (oa t) (oa s)). push. reflexivity.
  - intros p q r s t u. rewrite (fn_ann2 (oa u) (oa t)). push. reflexivity.
Qed.
Lemma one_aab_ket a b c i j k psi D : (a < nua d)%nat -> (b < nua d)%nat -> (c < nub d)%nat -> (i < noa d)%nat -> (j < noa d)%nat -> (k < nob d)%nat -> triples d (one_aab a b c i j k) psi D = cre (va d a) (cre (va d b) (cre (vb d c) (ann (ob k) (ann (oa j) (ann (oa i) psi))))) D.
Proof.
  intros Ha Hb Hc Hi Hj Hk. unfold triples, one_aab. cbn [just3 x_aaa x_aab x_abb x_bbb].
  assert (Q := sum6_aab (noa d) (nob d) (nua d) (nub d) a b c i j k (fun p q r s t u => cre (va d p) (cre (va d q) (cre (vb d r) (ann (ob u) (ann (oa t) (ann (oa s) psi))))) D) Ha Hb Hc Hi Hj Hk). cbv beta in Q.
  rewrite Q; clear Q.
  - unfold z6. rewrite ?zero6sum. ring.
  - intros p q r s t u. rewrite (fn_cre2 (va d p) (va d q)). reflexivity.
  - intros p q r s t u. rewrite (fn_ann2 (oa t) (oa s)). push. reflexivity.
Qed.
Lemma one_abb_ket a b c i j k psi D : (a < nua d)%nat -> (b < nub d)%nat -> (c < nub d)%nat -> (i < noa d)%nat -> (j < nob d)%nat -> (k < nob d)%nat -> triples d (one_abb a b c i j k) psi D = cre (va d a) (cre (vb d b) (cre (vb d c) (ann (ob k) (ann (ob j) (ann (oa i) psi))))) D.
Proof.
  intros Ha Hb Hc Hi Hj Hk. unfold triples, one_abb. cbn [just3 x_aaa x_aab x_abb x_bbb].
  assert (Q := sum6_abb (noa d) (nob d) (nua d) (nub d) a b c i j k (fun p q r s t u => cre (va d p) (cre (vb d q) (cre (vb d r) (ann (ob u) (ann (ob t) (ann (oa s) psi))))) D) Ha Hb Hc Hi Hj Hk). cbv beta in Q.
  rewrite Q; clear Q.
  - unfold z6. rewrite ?zero6sum. ring.
  - intros p q r s t u. rewrite (fn_cre2 (vb d q) (vb d r)). push. reflexivity.
  - intros p q r s t u. rewrite (fn_ann2 (ob u) (ob t)). push. reflexivity.
Qed.
Lemma one_bbb_ket a b c i j k psi D : (a < nub d)%nat -> (b < nub d)%nat -> (c < nub d)%nat -> (i < nob d)%nat -> (j < nob d)%nat -> (k < nob d)%nat -> triples d (one_bbb a b c i j k) psi D = cre (vb d a) (cre (vb d b) (cre (vb d c) (ann (ob k) (ann (ob j) (ann (ob i) psi))))) D.
Proof.
  intros Ha Hb Hc Hi Hj Hk. unfold triples, one_bbb. cbn [just3 x_aaa x_aab x_abb x_bbb].
  assert (Q := sum6_aaa (nob d) (nub d) a b c i j k (fun p q r s t u => cre (vb d p) (cre (vb d q) (cre (vb d r) (ann (ob u) (ann (ob t) (ann (ob s) psi))))) D) Ha Hb Hc Hi Hj Hk). cbv beta in Q.
  rewrite Q; clear Q.
  - unfold z6. rewrite ?zero6sum. ring.
  - intros p q r s t u. rewrite (fn_cre2 (vb d p) (vb d q)). reflexivity.
  - intros p q r s t u. rewrite (fn_cre2 (vb d q) (vb d r)). push. reflexivity.
  - intros p q r s t u. rewrite (fn_ann2 (ob t) (ob s)). push. reflexivity.
  - intros p q r s t u. rewrite (fn_ann2 (ob u) (ob t)). push. reflexivity.
Qed.
End Z.
Section C.
Variables (d : dims) (X : amps) (n : nat).
Hypothesis En : (noa d + nua d = n)%nat.
Hypothesis En' : (nob d + nub d = n)%nat.
Hypothesis HX : antisym_amps X.
Hypothesis HX3 : triples_anti X.
Notation ref := (reference (noa d) (nob d)).
Definition none : integrals := mkIntegrals (fun _ _ => 0) (fun _ _ => 0) (fun _ _ _ _ => 0) (fun _ _ _ _ => 0) (fun _ _ _ _ => 0).
Lemma none_ex : exchangeable none. Proof. split; reflexivity. Qed.
Lemma zero_anti : antisym_amps zero_amps. Proof. constructor; intros; cbn; ring. Qed.
Lemma zero_psi : expo (cluster_sd d (bare zero_amps)) 2 (pure ref) = pure ref.
Proof.
  replace (cluster_sd d (bare zero_amps)) with (fun (_ : state) (_ : N) => 0); [apply expo_zero|]. apply functional_extensionality; intros f. apply ext_state; intros D.
  unfold cluster_sd, single_op, double_op. cbn [bare zero_amps x_a x_b x_aa x_ab x_bb].
  assert (Z2 : forall n1 n2 F, sumn n1 (fun a => sumn n2 (fun b => 0 * F a b)) = 0) by (intros; repeat (apply sumn_0; intros ? _); ring).
  assert (Z4 : forall n1 n2 n3 n4 F, sumn n1 (fun a => sumn n2 (fun b => sumn n3 (fun c => sumn n4 (fun e => 0 * F a b c e)))) = 0) by (intros; repeat (apply sumn_0; intros ? _); ring).
  rewrite !Z2, !Z4. ring.
Qed.
Lemma c0_ref : cluster_sdt d X (pure ref) ref = 0.
Proof. assert (Q := cx_comp_ref d none zero_amps X n 2 En En' none_ex zero_anti HX HX3 (le_n 2)). rewrite zero_psi in Q. exact Q. Qed.
Lemma c0_a a i : (a < nua d)%nat -> (i < noa d)%nat -> str [(true, oa i); (false, va d a)] (cluster_sdt d X (pure ref)) ref = x_a X a i.
Proof.
  intros Ha Hi. assert (Q := cx_comp_a d none zero_amps X n 2 En En' none_ex zero_anti HX HX3 (le_n 2) a i Ha Hi). rewrite zero_psi in Q. rewrite Q. cbn [bare zero_amps x_aa x_ab x_bb]. ring.
Qed.
Lemma c0_b a i : (a < nub d)%nat -> (i < nob d)%nat -> str [(true, ob i); (false, vb d a)] (cluster_sdt d X (pure ref)) ref = x_b X a i.
Proof.
  intros Ha Hi. assert (Q := cx_comp_b d none zero_amps X n 2 En En' none_ex zero_anti HX HX3 (le_n 2) a i Ha Hi). rewrite zero_psi in Q. rewrite Q. cbn [bare zero_amps x_aa x_ab x_bb]. ring.
Qed.
Lemma c0_aa a b i j : (a < nua d)%nat -> (b < nua d)%nat -> (i < noa d)%nat -> (j < noa d)%nat -> str [(true, oa i); (true, oa j); (false, va d b); (false, va d a)] (cluster_sdt d X (pure ref)) ref = x_aa X a b i j.
Proof.
  intros Ha Hb Hi Hj. assert (Q := cx_comp_aa d none zero_amps X n 2 En En' none_ex zero_anti HX HX3 (le_n 2) a b i j Ha Hb Hi Hj). rewrite zero_psi in Q. rewrite Q. cbn [bare zero_amps x_aa x_ab x_bb]. ring.
Qed.
Lemma c0_ab a b i j : (a < nua d)%nat -> (b < nub d)%nat -> (i < noa d)%nat -> (j < nob d)%nat -> str [(true, oa i); (true, ob j); (false, vb d b); (false, va d a)] (cluster_sdt d X (pure ref)) ref = x_ab X a b i j.
Proof.
  intros Ha Hb Hi Hj. assert (Q := cx_comp_ab d none zero_amps X n 2 En En' none_ex zero_anti HX HX3 (le_n 2) a b i j Ha Hb Hi Hj). rewrite zero_psi in Q. rewrite Q. cbn [bare zero_amps x_aa x_ab x_bb]. ring.
Qed.
Lemma c0_bb a b i j : (a < nub d)%nat -> (b < nub d)%nat -> (i < nob d)%nat -> (j < nob d)%nat -> str [(true, ob i); (true, ob j); (false, vb d b); (false, vb d a)] (cluster_sdt d X (pure ref)) ref = x_bb X a b i j.
Proof.
  intros Ha Hb Hi Hj. assert (Q := cx_comp_bb d none zero_amps X n 2 En En' none_ex zero_anti HX HX3 (le_n 2) a b i j Ha Hb Hi Hj). rewrite zero_psi in Q. rewrite Q. cbn [bare zero_amps x_aa x_ab x_bb]. ring.
Qed.
Lemma c0_aaa a b c i j k : (a < nua d)%nat -> (b < nua d)%nat -> (c < nua d)%nat -> (i < noa d)%nat -> (j < noa d)%nat -> (k < noa d)%nat -> str [(true, oa i); (true, oa j); (true, oa k); (false, va d c); (false, va d b); (false, va d a)] (cluster_sdt d X (pure ref)) ref = x_aaa X a b c i j k.
Proof.
  intros Ha Hb Hc Hi Hj Hk. assert (Q := cx_comp_aaa d none zero_amps X n 2 En En' none_ex zero_anti HX HX3 (le_n 2) a b c i j k Ha Hb Hc Hi Hj Hk). rewrite zero_psi in Q. rewrite Q. cbn [bare zero_amps x_aa x_ab x_bb]. ring.
Qed.
Lemma c0_aab a b c i j k : (a < nua d)%nat -> (b < nua d)%nat -> (c < nub d)%nat -> (i < noa d)%nat -> (j < noa d)%nat -> (k < nob d)%nat -> str [(true, oa i); (true, oa j); (true, ob k); (false, vb d c); (false, va d b); (false, va d a)] (cluster_sdt d X (pure ref)) ref = x_aab X a b c i j k.
Proof.
  intros Ha Hb Hc Hi Hj Hk. assert (Q := cx_comp_aab d none zero_amps X n 2 En En' none_ex zero_anti HX HX3 (le_n 2) a b c i j k Ha Hb Hc Hi Hj Hk). rewrite zero_psi in Q. rewrite Q. cbn [bare zero_amps x_aa x_ab x_bb]. ring.
Qed.
Lemma c0_abb a b c i j k : (a < nua d)%nat -> (b < nub d)%nat -> (c < nub d)%nat -> (i < noa d)%nat -> (j < nob d)%nat -> (k < nob d)%nat -> str [(true, oa i); (true, ob j); (true, ob k); (false, vb d c); (false, vb d b); (false, va d a)] (cluster_sdt d X (pure ref)) ref = x_abb X a b c i j k.
Proof.
  intros Ha Hb Hc Hi Hj Hk. assert (Q := cx_comp_abb d none zero_amps X n 2 En En' none_ex zero_anti HX HX3 (le_n 2) a b c i j k Ha Hb Hc Hi Hj Hk). rewrite zero_psi in Q. rewrite Q. cbn [bare zero_amps x_aa x_ab x_bb]. ring.
Qed.
Lemma c0_bbb a b c i j k : (a < nub d)%nat -> (b < nub d)%nat -> (c < nub d)%nat -> (i < nob d)%nat -> (j < nob d)%nat -> (k < nob d)%nat -> str [(true, ob i); (true, ob j); (true, ob k); (false, vb d c); (false, vb d b); (false, vb d a)] (cluster_sdt d X (pure ref)) ref = x_bbb X a b c i j k.
Proof.
  intros Ha Hb Hc Hi Hj Hk. assert (Q := cx_comp_bbb d none zero_amps X n 2 En En' none_ex zero_anti HX HX3 (le_n 2) a b c i j k Ha Hb Hc Hi Hj Hk). rewrite zero_psi in Q. rewrite Q. cbn [bare zero_amps x_aa x_ab x_bb]. ring.
Qed.
End C.
