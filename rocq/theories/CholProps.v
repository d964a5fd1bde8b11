(** C83: CCSD with Cholesky vectors solves the same equations as CCSD with the full two-electron integrals. *)
From Coq Require Import Reals Arith List Bool Lra Lia.
From Verif Require Import RSum IntegralsModel IntegralsSpec IntegralsProps TensorObjs TensorSpec LoopModel LoopProofs CcsdModel CcsdUpdate CcsdProps RhfProps FockSpec FockCcSpec FockProps CholLoops CholModel CholReify CholUpdate CholProofs.
Import ListNotations.
Open Scope R_scope.

(** The Fortran contraction: for an antisymmetric array the entry of a pair a < b is the half of the sum over all e, f; the other entries are 0 *)
Theorem C83_contraction no nu nx (v : mat3) (t2 : mat4) j i b a : (forall f e, t2 j i f e = - t2 j i e f) ->
  vvvv_t2_sym no nu nx v t2 j i b a =
  if ((a <? b) && (b <? nu))%nat then 1 / 2 * sumn nu (fun e => sumn nu (fun f => sumn nx (fun x => v x e a * v x f b - v x e b * v x f a) * t2 j i f e)) else 0.
Proof.
  intros A. rewrite sym_entry. destruct ((a <? b) && (b <? nu))%nat; [|reflexivity]. rewrite pair_full by assumption. f_equal.
  unfold full_sum. apply sumn_ext. intros e _. apply sumn_ext. intros f _. f_equal. apply sumn_ext. intros x _. ring.
Qed.

Section C83.
Variables (nx : nat) (e1 : mat2) (L : mat3) (s : sysd).
Let d := sys_dims s.
Let C := chol_of s L.
Let H := fock_ints (s_noa s) (s_nob s) (valence e1 (dense_of nx L) (s_nf s)).

(** The Hamiltonian of the Cholesky route: its one-body blocks and every two-body block it sets are those of H, the blocks of the dense route *)
Theorem C83_hamiltonian :
  holds H (sort_hamiltonian s (get_hamiltonian e1 (dense_of nx L) s true)) /\
  (forall sp x y, exists f, h_one (get_cholesky_hamiltonian nx e1 L s true) sp x y = Some f /\ forall p q, f p q = int_one H sp x y p q) /\
  (forall c w x y z f, h_two (get_cholesky_hamiltonian nx e1 L s true) c w x y z = Some f -> forall p q r t, f p q r t = int_two H c w x y z p q r t).
Proof.
  assert (A : holds H (sort_hamiltonian s (get_hamiltonian e1 (dense_of nx L) s true))).
  { apply C63_arrays. intros. unfold dense_of. apply sumn_ext. intros. ring. }
  split; [exact A|]. destruct A as [A1 A2]. split.
  - intros sp x y. destruct (C34_one_body nx L e1 s true sp x y) as (g & f & G & F & E). exists g. split; [exact G|]. intros p q.
    destruct (A1 sp x y) as (f' & F' & E'). rewrite F in F'. injection F' as <-. rewrite E. apply E'.
  - intros c w x y z g G p q r t. destruct (C34_blocks nx L e1 s true c w x y z g G) as (f & F & E).
    destruct (A2 c w x y z) as (f' & F' & E'). rewrite F in F'. injection F' as <-. rewrite E. apply E'.
Qed.

(** The residuals of the amplitude equations are those of the dense routine *)
Theorem C83_residual T : antisym_amps T -> same_amps d (chol_resid d nx C H T) (ccsd_resid d H T).
Proof.
  intros HT. destruct (antisym_anti4 T HT) as [Aaa Abb]. constructor; intros; cbn [chol_resid ccsd_resid x_a x_b x_aa x_ab x_bb].
  - exact (full_a nx e1 L s T HT a i).
  - exact (full_b nx e1 L s T HT a i).
  - etransitivity; [|exact (full_aa nx e1 L s T HT a b i j)].
    change (four_term (fun a b i j => ch_dT_aa_5 d nx C H T T a b i j + vvvv_t2_sym (noa d) (nua d) nx (ch_vR d nx C H T T) (ch_vT d nx C H T T) j i b a) a b i j =
      four_term (fun a b i j => ch_dT_aa_5 d nx C H T T a b i j + 1 / 4 * full_sum (nua d) nx (ch_vR d nx C H T T) (ch_vT d nx C H T T) a b j i) a b i j).
    set (v := ch_vR d nx C H T T). set (t2 := ch_vT d nx C H T T). set (A := ch_dT_aa_5 d nx C H T T).
    assert (Q1 : forall j i f e, t2 j i f e = - t2 j i e f) by (intros k l f e; unfold t2, ch_vT; rewrite (proj1 (Aaa e f l k)); ring).
    assert (Q2 : forall j i f e, t2 j i f e = - t2 i j f e) by (intros k l f e; unfold t2, ch_vT; rewrite (proj2 (Aaa e f l k)); ring).
    assert (F := four_full (noa d) (nua d) nx v t2 a b i j Q1 Q2 ltac:(assumption) ltac:(assumption)). cbv zeta in F. unfold four_term.
    rewrite (full_t2 (nua d) nx v t2 a b i j), (full_t2 (nua d) nx v t2 b a i j) by (intros; apply Q2). rewrite (full_anti (nua d) nx v t2 a b j i). lra.
  - etransitivity; [|exact (full_ab nx e1 L s T HT a b i j)].
    change (ch_dT_ab_11 d nx C H T T a b i j + vvvv_t2 (nua d) (nub d) nx (ch_vRa d nx C H T T) (ch_vRb d nx C H T T) (ch_vT_1 d nx C H T T) j i b a = cf_res_ab d nx C H T T a b i j).
    rewrite vvvv_t2_entry by assumption. reflexivity.
  - etransitivity; [|exact (full_bb nx e1 L s T HT a b i j)].
    change (four_term (fun a b i j => ch_dT_bb_5 d nx C H T T a b i j + vvvv_t2_sym (nob d) (nub d) nx (ch_vR_1 d nx C H T T) (ch_vT_2 d nx C H T T) j i b a) a b i j =
      four_term (fun a b i j => ch_dT_bb_5 d nx C H T T a b i j + 1 / 4 * full_sum (nub d) nx (ch_vR_1 d nx C H T T) (ch_vT_2 d nx C H T T) a b j i) a b i j).
    set (v := ch_vR_1 d nx C H T T). set (t2 := ch_vT_2 d nx C H T T). set (A := ch_dT_bb_5 d nx C H T T).
    assert (Q1 : forall j i f e, t2 j i f e = - t2 j i e f) by (intros k l f e; unfold t2, ch_vT_2; rewrite (proj1 (Abb e f l k)); ring).
    assert (Q2 : forall j i f e, t2 j i f e = - t2 i j f e) by (intros k l f e; unfold t2, ch_vT_2; rewrite (proj2 (Abb e f l k)); ring).
    assert (F := four_full (nob d) (nub d) nx v t2 a b i j Q1 Q2 ltac:(assumption) ltac:(assumption)). cbv zeta in F. unfold four_term.
    rewrite (full_t2 (nub d) nx v t2 a b i j), (full_t2 (nub d) nx v t2 b a i j) by (intros; apply Q2). rewrite (full_anti (nub d) nx v t2 a b j i). lra.
Qed.

Lemma chol_fixed sh T : antisym_amps T -> regular d sh H ->
  (same_amps d (chol_iter d nx sh C H T) T <-> same_amps d (chol_resid d nx C H T) zero_amps).
Proof.
  intros HT [Da Db Daa Dab Dbb]. destruct (antisym_anti4 T HT) as [Aaa Abb]. split.
  - intros [Ea Eb Eaa Eab Ebb]. cbn [chol_iter set_a set_b set_aa set_ab set_bb x_a x_b x_aa x_ab x_bb] in Ea. apply upd_t1_id in Ea as Ia. unfold chol_iter in Eb, Eaa, Eab, Ebb. rewrite Ia, set_a_id in Eb, Eaa, Eab, Ebb.
    cbn [chol_iter set_a set_b set_aa set_ab set_bb x_a x_b x_aa x_ab x_bb] in Eb. apply upd_t1_id in Eb as Ib. rewrite Ib, set_b_id in Eaa, Eab, Ebb.
    cbn [chol_iter set_a set_b set_aa set_ab set_bb x_a x_b x_aa x_ab x_bb] in Eaa. apply upd_t2_id in Eaa as Iaa. rewrite Iaa, set_aa_id in Eab, Ebb.
    cbn [chol_iter set_a set_b set_aa set_ab set_bb x_a x_b x_aa x_ab x_bb] in Eab. apply upd_t2b_id in Eab as Iab. rewrite Iab, set_ab_id in Ebb. cbn [chol_iter set_a set_b set_aa set_ab set_bb x_a x_b x_aa x_ab x_bb] in Ebb.
    constructor; cbn [chol_resid zero_amps x_a x_b x_aa x_ab x_bb].
    + now apply (upd_t1_fix (noa d) (nua d) (x_a T) _ (i_a_oo H) (i_a_vv H) sh Da).
    + now apply (upd_t1_fix (nob d) (nub d) (x_b T) _ (i_b_oo H) (i_b_vv H) sh Db).
    + now apply (upd_t2_fix (noa d) (nua d) (x_aa T) _ (i_a_oo H) (i_a_vv H) sh Aaa Daa).
    + now apply (upd_t2b_fix (noa d) (nob d) (nua d) (nub d) (x_ab T) _ (i_a_oo H) (i_a_vv H) (i_b_oo H) (i_b_vv H) sh Dab).
    + now apply (upd_t2_fix (nob d) (nub d) (x_bb T) _ (i_b_oo H) (i_b_vv H) sh Abb Dbb).
  - intros [Ea Eb Eaa Eab Ebb]. cbn [chol_resid zero_amps x_a x_b x_aa x_ab x_bb] in Ea, Eb, Eaa, Eab, Ebb.
    assert (Ga := proj2 (upd_t1_fix (noa d) (nua d) (x_a T) (ch_res_a d nx C H T T) (i_a_oo H) (i_a_vv H) sh Da) Ea). assert (Ia := upd_t1_id _ _ _ _ _ _ _ Ga).
    assert (Gb := proj2 (upd_t1_fix (nob d) (nub d) (x_b T) (ch_res_b d nx C H T T) (i_b_oo H) (i_b_vv H) sh Db) Eb). assert (Ib := upd_t1_id _ _ _ _ _ _ _ Gb).
    assert (Gaa := proj2 (upd_t2_fix (noa d) (nua d) (x_aa T) (ch_res_aa d nx C H T T) (i_a_oo H) (i_a_vv H) sh Aaa Daa) Eaa). assert (Iaa := upd_t2_id _ _ _ _ _ _ _ Gaa).
    assert (Gab := proj2 (upd_t2b_fix (noa d) (nob d) (nua d) (nub d) (x_ab T) (ch_res_ab d nx C H T T) (i_a_oo H) (i_a_vv H) (i_b_oo H) (i_b_vv H) sh Dab) Eab). assert (Iab := upd_t2b_id _ _ _ _ _ _ _ _ _ _ _ Gab).
    assert (Gbb := proj2 (upd_t2_fix (nob d) (nub d) (x_bb T) (ch_res_bb d nx C H T T) (i_b_oo H) (i_b_vv H) sh Abb Dbb) Ebb). assert (Ibb := upd_t2_id _ _ _ _ _ _ _ Gbb).
    assert (E : chol_iter d nx sh C H T = T).
    { unfold chol_iter. rewrite Ia, set_a_id, Ib, set_b_id, Iaa, set_aa_id, Iab, set_ab_id, Ibb, set_bb_id. reflexivity. }
    rewrite E. constructor; reflexivity.
Qed.
(** An iteration of the Cholesky routine leaves the amplitudes unchanged exactly when an iteration of the dense routine does *)
Theorem C83_fixed_point sh T : antisym_amps T -> regular d sh H ->
  (same_amps d (chol_iter d nx sh C H T) T <-> same_amps d (ccsd_iter d sh H T) T).
Proof.
  intros HT HR. rewrite chol_fixed, C51_ccsd_fixed_point by assumption. destruct (C83_residual T HT) as [Ra Rb Raa Rab Rbb].
  split; intros [Ea Eb Eaa Eab Ebb]; constructor; intros;
    [rewrite <- Ra|rewrite <- Rb|rewrite <- Raa|rewrite <- Rab|rewrite <- Rbb|rewrite Ra|rewrite Rb|rewrite Raa|rewrite Rab|rewrite Rbb]; auto.
Qed.
(** ... that is, when exp(T)|reference> satisfies the Schroedinger equation projected on all determinants within double excitations; the energy is that of the
    electronic Hamiltonian with <pq|rs> = sum_x L[x,p,r] L[x,q,s] *)
Theorem C83_ccsd T sh m : (s_noa s <= s_norb s)%nat -> (s_nob s <= s_norb s)%nat -> antisym_amps T -> (4 <= m)%nat ->
  let h p q := h_a (valence e1 (dense_of nx L) (s_nf s)) p q in
  let e p q r t := dense_of nx L (s_nf s + p)%nat (s_nf s + q)%nat (s_nf s + r)%nat (s_nf s + t)%nat in
  let psi := cc_state d T m in
  let ref := reference (s_noa s) (s_nob s) in
  hf_energy_chol nx e1 L s + cc_energy d H T = frozen_core_energy e1 (dense_of nx L) s + hamiltonian_r (s_norb s) h e psi ref /\
  (regular d sh H -> same_amps d (chol_iter d nx sh C H T) T <->
     forall D, near (s_norb s) ref D ->
       hamiltonian_r (s_norb s) h e psi D = (hf_energy_chol nx e1 L s + cc_energy d H T - frozen_core_energy e1 (dense_of nx L) s) * psi D).
Proof.
  intros Ha Hb HT Hm h e psi ref.
  assert (Sy : forall p q r t, dense_of nx L p q r t = dense_of nx L q p t r) by (intros; unfold dense_of; apply sumn_ext; intros; ring).
  destruct (C63_ccsd e1 (dense_of nx L) s T sh m Sy Ha Hb HT Hm) as (_ & En & Fx).
  rewrite C34_hf_energy. split; [exact En|]. intros HR. rewrite C83_fixed_point by assumption. exact (Fx HR).
Qed.

(** Closed shell: the iteration with flag_RHF = True leaves spin-symmetric amplitudes unchanged exactly when the dense unrestricted one does *)
Theorem C83_closed_shell sh T : s_noa s = s_nob s -> singlet T -> regular d sh H ->
  (same_amps d (rchol_iter d nx sh C H T) T <-> same_amps d (ccsd_iter d sh H T) T).
Proof.
  intros Hn HT HR. rewrite C51_ccsd_fixed_point by (try exact (sg_anti T HT); assumption). destruct HR as [Da Db Daa Dab Dbb].
  assert (Hu : nua d = nub d) by (cbn; lia). assert (Hd : noa d = nob d) by exact Hn.
  assert (Ra := rfull_a nx e1 L s T Hn HT). assert (Rb := rfull_b nx e1 L s T Hn HT). assert (Rbb := rfull_bb nx e1 L s T Hn HT).
  assert (Rab : forall a b i j, (a < nua d)%nat -> (b < nub d)%nat -> cr_res_ab d nx C H T T a b i j = ccsd_res_ab d H T T a b i j).
  { intros a b i j Ha Hb. etransitivity; [|exact (rfull_ab nx e1 L s T Hn HT a b i j)].
    change (cr_dT_ab_11 d nx C H T T a b i j + vvvv_t2 (nua d) (nua d) nx (cr_vRa d nx C H T T) (cr_vRb d nx C H T T) (cr_vT_1 d nx C H T T) j i b a = cg_res_ab d nx C H T T a b i j).
    rewrite vvvv_t2_entry by congruence. reflexivity. }
  destruct HT as [HA [Ca Caa Cab]]. destruct (antisym_anti4 T HA) as [Aaa Abb].
  assert (Raa' : forall a b i j, (a < nua d)%nat -> (b < nua d)%nat -> four_term (cr_res_aa d nx C H T T) a b i j = four_term (cg_res_aa d nx C H T T) a b i j).
  { intros.
    change (four_term (fun a b i j => cr_dT_aa_5 d nx C H T T a b i j + vvvv_t2_sym (noa d) (nua d) nx (cr_vR d nx C H T T) (cr_vT d nx C H T T) j i b a) a b i j =
      four_term (fun a b i j => cr_dT_aa_5 d nx C H T T a b i j + 1 / 4 * full_sum (nua d) nx (cr_vR d nx C H T T) (cr_vT d nx C H T T) a b j i) a b i j).
    set (v := cr_vR d nx C H T T). set (t2 := cr_vT d nx C H T T). set (A := cr_dT_aa_5 d nx C H T T).
    assert (Q1 : forall j i f e, t2 j i f e = - t2 j i e f) by (intros k l f e; unfold t2, cr_vT; rewrite (proj1 (Aaa e f l k)); ring).
    assert (Q2 : forall j i f e, t2 j i f e = - t2 i j f e) by (intros k l f e; unfold t2, cr_vT; rewrite (proj2 (Aaa e f l k)); ring).
    assert (F := four_full (noa d) (nua d) nx v t2 a b i j Q1 Q2 ltac:(assumption) ltac:(assumption)). cbv zeta in F. unfold four_term.
    rewrite (full_t2 (nua d) nx v t2 a b i j), (full_t2 (nua d) nx v t2 b a i j) by (intros; apply Q2). rewrite (full_anti (nua d) nx v t2 a b j i). lra. }
  assert (Raa : forall a b i j, (a < nua d)%nat -> (b < nua d)%nat -> four_term (cr_res_aa d nx C H T T) a b i j = four_term (ccsd_res_aa d H T T) a b i j).
  { intros. rewrite Raa' by assumption. exact (rfull_aa nx e1 L s T Hn {| sg_anti := HA; sg_spin := {| cx_a := Ca; cx_aa := Caa; cx_ab := Cab |} |} a b i j). }
  assert (Sb : set_b T (x_a T) = T). { destruct T as [a b aa ab bb aaa aab abb bbb]. cbn in *. unfold set_b. cbn. now rewrite (fun2 b a Ca). }
  assert (Sbb : set_bb T (x_aa T) = T). { destruct T as [a b aa ab bb aaa aab abb bbb]. cbn in *. unfold set_bb. cbn. now rewrite (fun4 bb aa Caa). }
  fold d C H in Ra, Rb, Rbb. change (cg_res_a d nx C H T T) with (cr_res_a d nx C H T T) in Ra, Rb.
  split.
  - intros [Ea Eb Eaa Eab Ebb]. cbn [rchol_iter set_a set_b set_aa set_ab set_bb x_a x_b x_aa x_ab x_bb] in Ea. apply upd_t1_id in Ea as Ia.
    unfold rchol_iter in Eaa, Eab. rewrite Ia, set_a_id, Sb in Eaa, Eab.
    cbn [set_a set_b set_aa set_ab set_bb x_a x_b x_aa x_ab x_bb] in Eaa. apply upd_t2_id in Eaa as Iaa. rewrite Iaa, set_aa_id in Eab.
    cbn [set_a set_b set_aa set_ab set_bb x_a x_b x_aa x_ab x_bb] in Eab.
    assert (Za := proj1 (upd_t1_fix (noa d) (nua d) (x_a T) _ (i_a_oo H) (i_a_vv H) sh Da) Ea).
    assert (Zaa := proj1 (upd_t2_fix (noa d) (nua d) (x_aa T) _ (i_a_oo H) (i_a_vv H) sh Aaa Daa) Eaa).
    assert (Zab := proj1 (upd_t2b_fix (noa d) (nob d) (nua d) (nub d) (x_ab T) _ (i_a_oo H) (i_a_vv H) (i_b_oo H) (i_b_vv H) sh Dab) Eab).
    constructor; cbn [ccsd_resid zero_amps x_a x_b x_aa x_ab x_bb]; intros.
    + rewrite <- Ra. now apply Za. + rewrite <- Rb. apply Za; congruence.
    + rewrite <- Raa by assumption. now apply Zaa. + rewrite <- Rab by assumption. now apply Zab. + rewrite <- Rbb, <- Raa' by congruence. apply Zaa; congruence.
  - intros [Ea Eb Eaa Eab Ebb]. cbn [ccsd_resid zero_amps x_a x_b x_aa x_ab x_bb] in Ea, Eaa, Eab.
    assert (Ga := proj2 (upd_t1_fix (noa d) (nua d) (x_a T) (cr_res_a d nx C H T T) (i_a_oo H) (i_a_vv H) sh Da) (fun a i Ha Hi => eq_trans (Ra a i) (Ea a i Ha Hi))).
    assert (Gaa := proj2 (upd_t2_fix (noa d) (nua d) (x_aa T) (cr_res_aa d nx C H T T) (i_a_oo H) (i_a_vv H) sh Aaa Daa)
       (fun a b i j Ha Hb Hi Hj => eq_trans (Raa a b i j Ha Hb) (Eaa a b i j Ha Hb Hi Hj))).
    assert (Gab := proj2 (upd_t2b_fix (noa d) (nob d) (nua d) (nub d) (x_ab T) (cr_res_ab d nx C H T T) (i_a_oo H) (i_a_vv H) (i_b_oo H) (i_b_vv H) sh Dab)
       (fun a b i j Ha Hb Hi Hj => eq_trans (Rab a b i j Ha Hb) (Eab a b i j Ha Hb Hi Hj))).
    assert (E : rchol_iter d nx sh C H T = T).
    { unfold rchol_iter. rewrite (upd_t1_id _ _ _ _ _ _ _ Ga), set_a_id, Sb, (upd_t2_id _ _ _ _ _ _ _ Gaa), set_aa_id, (upd_t2b_id _ _ _ _ _ _ _ _ _ _ _ Gab), set_ab_id. exact Sbb. }
    rewrite E. constructor; reflexivity.
Qed.
End C83.

(** Two orbitals, one electron of each spin, one Cholesky vector: converged amplitudes with correlation energy -1/2 *)
Definition cx_sys := mkSys 0 1 1 2.
Definition cx_L : mat3 := fun _ p q => if (p =? q)%nat then 0 else 1.
Definition cx_e1 : mat2 := fun p q => if ((p =? 1) && (q =? 1))%nat then 3 / 4 else 0.
Definition cx_T : amps := mkAmps (fun _ _ => 0) (fun _ _ => 0) (fun _ _ _ _ => 0) (fun _ _ _ _ => - (1 / 2)) (fun _ _ _ _ => 0)
  (fun _ _ _ _ _ _ => 0) (fun _ _ _ _ _ _ => 0) (fun _ _ _ _ _ _ => 0) (fun _ _ _ _ _ _ => 0).
Example C83_instance : let H := fock_ints 1 1 (valence cx_e1 (dense_of 1 cx_L) 0) in
  singlet cx_T /\ regular (sys_dims cx_sys) 0 H /\ same_amps (sys_dims cx_sys) (chol_iter (sys_dims cx_sys) 1 0 (chol_of cx_sys cx_L) H cx_T) cx_T /\
  cc_energy (sys_dims cx_sys) H cx_T = - (1 / 2).
Proof.
  assert (Ra : regular (sys_dims cx_sys) 0 (fock_ints 1 1 (valence cx_e1 (dense_of 1 cx_L) 0))).
  { constructor; intros; cbn in *; repeat match goal with H : (_ < 1)%nat |- _ => apply Nat.lt_1_r in H; subst end; cbv -[IZR Rplus Rmult Rminus Ropp Rdiv Rinv]; lra. }
  assert (Sa : antisym_amps cx_T) by (constructor; intros; cbn; try ring).
  split; [split; [exact Sa|constructor; intros; reflexivity]|]. split; [exact Ra|]. split.
  - apply (chol_fixed 1 cx_e1 cx_L cx_sys 0 cx_T Sa Ra).
    constructor; intros; cbn in *; repeat match goal with H : (_ < 1)%nat |- _ => apply Nat.lt_1_r in H; subst end; cbv -[IZR Rplus Rmult Rminus Ropp Rdiv Rinv]; field_simplify; lra.
  - cbv -[IZR Rplus Rmult Rminus Ropp Rdiv Rinv]; field_simplify; lra.
Qed.
Print Assumptions C83_ccsd.
