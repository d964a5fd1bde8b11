S={'a':('nua d','noa d','va d','oa'),'b':('nub d','nob d','vb d','ob')}
CASES=['aaa','aab','abb','bbb']
def ran(b): 
    v="abc";o="ijk"
    return " -> ".join([f"({x} < {S[s][0]})%nat" for x,s in zip(v,b)]+[f"({x} < {S[s][1]})%nat" for x,s in zip(o,b)])
def K(b): return " ".join(f"({S[s][2]} {x})" for x,s in zip("abc",b))+" "+" ".join(f"({S[s][3]} {x})" for x,s in zip("ijk",b))
def order(b):
    # as used in tri_spec
    return {'aaa':"(a < b)%nat -> (a < c)%nat -> (b < c)%nat -> (i < j)%nat -> (i < k)%nat -> (j < k)%nat -> ",'bbb':"(a < b)%nat -> (a < c)%nat -> (b < c)%nat -> (i < j)%nat -> (i < k)%nat -> (j < k)%nat -> ",'aab':"(a < b)%nat -> (i < j)%nat -> ",'abb':"(b < c)%nat -> (j < k)%nat -> "}[b]
st={b:"["+"; ".join([f"(true, {S[s][3]} {x})" for x,s in zip("ijk",b)]+[f"(false, {S[s][2]} {x})" for x,s in reversed(list(zip("abc",b)))])+"]" for b in CASES}
t='''(** CR-EOMCC(2,3): the moments and the left amplitudes of the four spin cases (proof support). *)
From Coq Require Import Reals Arith NArith QArith List Bool Lia Lra FunctionalExtensionality.
From Verif Require Import RSum IntegralsModel TensorObjs TensorAlg TensorSpec TensorClosed IntsFix CcsdModel CcsdUpdate CcsdProps RhfProps FockSpec FockCcSpec FockExp FockLevel FockState FockSectorSpec FockProj FockShift SdtSpec SdtFlat SdtState
  FockEom FockEomProj FockProps CrccModel CrccSpec CrccLoop CrccPoly CrccKet CrccBra CrccProps CrccRhf CrccClosed PtSpec CreomModel CreomDeriv CreomFock CreomSpec.
Import ListNotations.
Local Open Scope R_scope.
Lemma smooth_bra3 d a b c i j k (psi : R -> state) psi' : (forall D, dl (fun t => psi t D) (psi' D)) -> dl (fun t => bra3 d a b c i j k (psi t)) (bra3 d a b c i j k psi').
Proof.
  intros H. unfold bra3. apply (smooth_cre i (fun t => cre j (cre k (ann c (ann b (ann a (psi t))))))). apply (smooth_cre j (fun t => cre k (ann c (ann b (ann a (psi t)))))).
  apply (smooth_cre k (fun t => ann c (ann b (ann a (psi t))))). apply (smooth_ann c (fun t => ann b (ann a (psi t)))). apply (smooth_ann b (fun t => ann a (psi t))). now apply smooth_ann.
Qed.
Lemma bra3_lin d a b c i j k x f y g : bra3 d a b c i j k (fun D => x * f D + y * g D) = x * bra3 d a b c i j k f + y * bra3 d a b c i j k g.
Proof. unfold bra3. now rewrite !(ann_linear _ x f y g), !(ann_linear _ x _ y _), !(cre_linear _ x _ y _). Qed.
Section M.
Variables (d : dims) (n m : nat) (I : integrals) (T Y L : amps) (H0 : ints).
Hypothesis En : (noa d + nua d = n)%nat.
Hypothesis En' : (nob d + nub d = n)%nat.
Hypothesis HI : exchangeable I.
Hypothesis HT : antisym_amps T.
Hypothesis HY : antisym_amps Y.
Hypothesis HL : antisym_amps L.
Hypothesis Hm : (noa d + nob d + 4 <= m)%nat.
Notation H := (fock_ints (noa d) (nob d) I).
Notation HB := (hbar_ccsd d H T).
Notation ref := (pure (reference (noa d) (nob d))).
Notation HR := (similar d n m I T (cluster_sd d Y ref)).
Notation RH := (cluster_sd d Y (similar d n m I T ref)).
Notation E := (scf_energy (noa d) (nob d) I + cc_energy d H T).
Let HH : antisym_ints H := fock_ints_antisym _ _ _ HI.
'''
for b in CASES:
    t+=f'''Lemma n_{b} a b c i j k : {ran(b)} -> creom_N_{b} d H0 HB T Y L a b c i j k = bra3 d {K(b)} HR - bra3 d {K(b)} RH.
Proof.
  intros Ha Hb Hc Hi Hj Hk. apply (uniqueness_limite (fun t => creom_M_{b} d H0 (hbar_ccsd d H (amps_line T Y t)) (amps_line T Y t) Y L a b c i j k) 0); [now apply dn_{b}|].
  eapply dl_ext; [intros t; change (creom_M_{b} d H0 (hbar_ccsd d H (amps_line T Y t)) (amps_line T Y t) Y L a b c i j k) with (crcc_M_{b} d H0 (hbar_ccsd d H (amps_line T Y t)) (amps_line T Y t) L a b c i j k);
    apply (f_M_{b} d I (amps_line T Y t) L H0 n (S m) En En' HI (antisym_line T Y t HT HY) HL ltac:(lia) a b c i j k); assumption|].
  replace (bra3 d {K(b)} HR - bra3 d {K(b)} RH) with (bra3 d {K(b)} (fun D => HR D - RH D)).
  - apply (smooth_bra3 d {K(b)} (fun t => similar d n (S m) I (amps_line T Y t) ref)). intros D. apply d_similar. lia.
  - replace (fun D => HR D - RH D) with (fun D => 1 * HR D + -1 * RH D) by (apply ext_state; intros; ring). rewrite bra3_lin. ring.
Qed.
'''
t+='''Hypothesis HC : same_amps d (ccsd_resid d H T) zero_amps.
Lemma only_sd : cluster_sd d Y ref = cluster_sdt d (plain Y) ref.
Proof. apply ext_state; intros D. unfold cluster_sdt. rewrite plain_none. change (cluster_sd d (plain Y)) with (cluster_sd d Y). ring. Qed.
'''
idx={'aaa':6,'aab':7,'abb':8,'bbb':9}
names="Q_ref & Q_a & Q_b & Q_aa & Q_ab & Q_bb & Q_aaa & Q_aab & Q_abb & Q_bbb"
for b in CASES:
    t+=f'''Lemma rh_{b} a b c i j k : {ran(b)} -> bra3 d {K(b)} RH = 0.
Proof.
  intros Ha Hb Hc Hi Hj Hk. destruct (proj1 (sdt_flat d n _ En En') (no_back_raw d n En En' I T Y m HI HT Hm HC)) as ({names}).
  specialize (Q_{b} a b c i j k Ha Hb Hc Hi Hj Hk). change (bra3 d {K(b)} (fun D => RH D - E * cluster_sd d Y ref D) = 0) in Q_{b}.
  replace (fun D => RH D - E * cluster_sd d Y ref D) with (fun D => 1 * RH D + - E * cluster_sd d Y ref D) in Q_{b} by (apply ext_state; intros; ring). rewrite bra3_lin in Q_{b}.
  assert (Z : bra3 d {K(b)} (cluster_sd d Y ref) = 0) by (rewrite only_sd; exact (c0_{b} d (plain Y) n En En' (plain_anti Y HY) (plain_tri Y) a b c i j k Ha Hb Hc Hi Hj Hk)).
  rewrite Z in Q_{b}. lra.
Qed.
Lemma mom_{b} r0 a b c i j k : {ran(b)} -> r0 * creom_M_{b} d H0 HB T Y L a b c i j k + creom_N_{b} d H0 HB T Y L a b c i j k = eom_moment d n m I T Y r0 {K(b)}.
Proof.
  intros Ha Hb Hc Hi Hj Hk. rewrite n_{b}, rh_{b} by assumption. change (creom_M_{b} d H0 HB T Y L a b c i j k) with (crcc_M_{b} d H0 HB T L a b c i j k).
  rewrite <- (f_M_{b} d I T L H0 n m En En' HI HT HL Hm a b c i j k) by assumption. unfold eom_moment.
  rewrite (lin_add _ (fun D => r0 * ref D) (cluster_sd d Y ref) (S_linear d I T n m)), (lin_scal _ r0 ref (S_linear d I T n m)).
  rewrite <- (Rmult_1_l (bra3 d {K(b)} HR)), Rminus_0_r, <- bra3_lin. f_equal. apply ext_state; intros; ring.
Qed.
Lemma left_{b} a b c i j k : {ran(b)} -> creom_L_{b} d H0 HB T Y L a b c i j k = adjoint_sd d L (similar d n m I T (ket3 d {K(b)})).
Proof.
  intros Ha Hb Hc Hi Hj Hk. change (creom_L_{b} d H0 HB T Y L a b c i j k) with (crcc_L_{b} d H0 HB T L a b c i j k).
  unfold adjoint_sd. rewrite (f_L_{b} d I T L H0 n m En En' HI HT HL Hm a b c i j k) by assumption.
  rewrite (f_ket_{b} d a b c i j k) by assumption. rewrite t_ref by (try assumption; apply one_{b}_anti). ring.
Qed.
'''
t+="End M.\n"
open('./CreomTri.v','w').write(t)
