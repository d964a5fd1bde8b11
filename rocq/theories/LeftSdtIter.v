(** C89, the iteration: what left_ccsdt.py's update leaves unchanged. *)
From Coq Require Import Reals Arith List Bool Lra Lia.
From Verif Require Import RSum IntegralsModel TensorObjs TensorSpec LoopModel LoopProofs LeftModel CcsdUpdate CcsdModel EomProps CcsdProps SdtSpec CcsdtModel CcsdtUpdate SdtLoops CcsdtProps EomsdtModel EomsdtSpec FockCcSpec EomsdtProps LeftSdtModel LeftSdtProps LeftSdtUpdate LeftSdtLoops.
Import ListNotations.
Open Scope R_scope.
(** No denominator of the pass vanishes *)
Record leftt_regular (d : dims) (w s : R) (H : ints) : Prop := {
  ltr_sd : left_regular d w s H;
  ltr_aaa : range6 (nua d) (nua d) (nua d) (noa d) (noa d) (noa d) (fun a b c i j k => - i_a_oo H i i - i_a_oo H j j - i_a_oo H k k + i_a_vv H a a + i_a_vv H b b + i_a_vv H c c - w + s <> 0);
  ltr_aab : range6 (nua d) (nua d) (nub d) (noa d) (noa d) (nob d) (fun a b c i j k => - i_a_oo H i i - i_a_oo H j j - i_b_oo H k k + i_a_vv H a a + i_a_vv H b b + i_b_vv H c c - w + s <> 0);
  ltr_abb : range6 (nua d) (nub d) (nub d) (noa d) (nob d) (nob d) (fun a b c i j k => - i_a_oo H i i - i_b_oo H j j - i_b_oo H k k + i_a_vv H a a + i_b_vv H b b + i_b_vv H c c - w + s <> 0);
  ltr_bbb : range6 (nub d) (nub d) (nub d) (nob d) (nob d) (nob d) (fun a b c i j k => - i_b_oo H i i - i_b_oo H j j - i_b_oo H k k + i_b_vv H a a + i_b_vv H b b + i_b_vv H c c - w + s <> 0) }.
Lemma fix_val (l x v D w : R) : D <> 0 -> x = l + (w * l - v) / D -> (x = l <-> v = w * l).
Proof. intros HD ->. rewrite (fix_div _ _ _ HD). split; lra. Qed.
(** A pass leaves the left vector unchanged exactly when it solves the left equations: with is_ground the ground-state ones (at omega = 0), without it the
    left eigenvalue equations with root omega *)
Theorem C89_fixed_point d w s (g : bool) H T L : antisym_ints H -> antisym_amps T -> triples_anti T -> antisym_amps L -> triples_anti L ->
  let HB := hbar_ccsdt d H T in leftt_regular d w s HB ->
  (same_amps3 d (leftt_iter d w s g HB T L) L <-> same_amps3 d (if g then leftt_total d HB T L else leftt_LH d HB T L) (scale3 w L)).
Proof.
  intros HH HT HT3 HL HL3 HB [[Da Db Daa Dab Dbb] D1 D2 D3 D4]. destruct (antisym_anti4 L HL) as [Aaa Abb].
  assert (A : antisym_amps (if g then leftt_total d HB T L else leftt_LH d HB T L) /\ triples_anti (if g then leftt_total d HB T L else leftt_LH d HB T L)).
  { destruct g; [|exact (C89_antisymmetric d HB T L)]. destruct (hbar3_primary d H T HH HT HT3) as [].
    exact (total_anti d (hbar_ccsdt d H T) T L pa_aa_oovv_12 pa_aa_oovv_34 pa_bb_oovv_12 pa_bb_oovv_34). }
  destruct A as (XA & X3). unfold leftt_iter. cbv zeta. set (X := if g then leftt_total d HB T L else leftt_LH d HB T L) in *. clearbody X HB.
  destruct (antisym_anti4 X XA) as [Xaa Xbb].
  unfold same_amps3. cbn [x_a x_b x_aa x_ab x_bb x_aaa x_aab x_abb x_bbb scale3].
  assert (V1 := fun a i Ha Hi => fix_val _ _ (x_a X a i) _ w (Da a i Ha Hi) (upd_l1_val (noa d) (nua d) (x_a L) (x_a X) (i_a_oo HB) (i_a_vv HB) w s a i Ha Hi)).
  assert (V2 := fun a i Ha Hi => fix_val _ _ (x_b X a i) _ w (Db a i Ha Hi) (upd_l1_val (nob d) (nub d) (x_b L) (x_b X) (i_b_oo HB) (i_b_vv HB) w s a i Ha Hi)).
  assert (V3 : forall a b i j, (a < nua d)%nat -> (b < nua d)%nat -> (i < noa d)%nat -> (j < noa d)%nat ->
    (fst (upd_l2 (noa d) (nua d) (x_aa L) (x_aa X) (i_a_oo HB) (i_a_vv HB) w s) a b i j = x_aa L a b i j <-> x_aa X a b i j = w * x_aa L a b i j)).
  { intros a b i j Ha Hb Hi Hj. refine (fix_val _ _ _ _ w (Daa a b i j Ha Hb Hi Hj) _). now rewrite upd_l2_ok by assumption. }
  assert (V5 : forall a b i j, (a < nub d)%nat -> (b < nub d)%nat -> (i < nob d)%nat -> (j < nob d)%nat ->
    (fst (upd_l2 (nob d) (nub d) (x_bb L) (x_bb X) (i_b_oo HB) (i_b_vv HB) w s) a b i j = x_bb L a b i j <-> x_bb X a b i j = w * x_bb L a b i j)).
  { intros a b i j Ha Hb Hi Hj. refine (fix_val _ _ _ _ w (Dbb a b i j Ha Hb Hi Hj) _). now rewrite upd_l2_ok by assumption. }
  assert (V4 := fun a b i j Ha Hb Hi Hj => fix_val _ _ (x_ab X a b i j) _ w (Dab a b i j Ha Hb Hi Hj)
    (upd_l2b_val (noa d) (nob d) (nua d) (nub d) (x_ab L) (x_ab X) (i_a_oo HB) (i_a_vv HB) (i_b_oo HB) (i_b_vv HB) w s a b i j Ha Hb Hi Hj)).
  assert (V6 := fun a b c i j k Ha Hb Hc Hi Hj Hk => fix_val _ _ (x_aaa X a b c i j k) _ w (D1 a b c i j k Ha Hb Hc Hi Hj Hk)
    (upd_l3_ok (noa d) (nua d) (x_aaa L) (x_aaa X) (i_a_oo HB) (i_a_vv HB) w s (anti_aaa L HL3) (anti_aaa X X3) a b c i j k Ha Hb Hc Hi Hj Hk)).
  assert (V7 := fun a b c i j k Ha Hb Hc Hi Hj Hk => fix_val _ _ (x_aab X a b c i j k) _ w (D2 a b c i j k Ha Hb Hc Hi Hj Hk)
    (upd_l3b_ok (noa d) (nob d) (nua d) (nub d) (x_aab L) (x_aab X) (i_a_oo HB) (i_a_vv HB) (i_b_oo HB) (i_b_vv HB) w s (anti_aab L HL3) (anti_aab X X3) a b c i j k Ha Hb Hc Hi Hj Hk)).
  assert (V8 := fun a b c i j k Ha Hb Hc Hi Hj Hk => fix_val _ _ (x_abb X a b c i j k) _ w (D3 a b c i j k Ha Hb Hc Hi Hj Hk)
    (upd_l3c_ok (noa d) (nob d) (nua d) (nub d) (x_abb L) (x_abb X) (i_a_oo HB) (i_a_vv HB) (i_b_oo HB) (i_b_vv HB) w s (anti_abb L HL3) (anti_abb X X3) a b c i j k Ha Hb Hc Hi Hj Hk)).
  assert (V9 := fun a b c i j k Ha Hb Hc Hi Hj Hk => fix_val _ _ (x_bbb X a b c i j k) _ w (D4 a b c i j k Ha Hb Hc Hi Hj Hk)
    (upd_l3_ok (nob d) (nub d) (x_bbb L) (x_bbb X) (i_b_oo HB) (i_b_vv HB) w s (anti_bbb L HL3) (anti_bbb X X3) a b c i j k Ha Hb Hc Hi Hj Hk)).
  split; intros (E1 & E2 & E3 & E4 & E5 & E6 & E7 & E8 & E9); (split; [|split; [|split; [|split; [|split; [|split; [|split; [|split]]]]]]]); intros.
  - now apply V1, E1. - now apply V2, E2. - now apply V3, E3. - now apply V4, E4. - now apply V5, E5. - now apply V6, E6. - now apply V7, E7. - now apply V8, E8. - now apply V9, E9.
  - now apply V1, E1. - now apply V2, E2. - now apply V3, E3. - now apply V4, E4. - now apply V5, E5. - now apply V6, E6. - now apply V7, E7. - now apply V8, E8. - now apply V9, E9.
Qed.
(** The converged ground-state left vectors are exactly those that make the CCSDT Lagrangian stationary in every direction *)
Theorem C89_lambda_stationary d s H T L : antisym_ints H -> antisym_amps T -> triples_anti T -> antisym_amps L -> triples_anti L -> leftt_regular d 0 s (hbar_ccsdt d H T) ->
  (same_amps3 d (leftt_iter d 0 s true (hbar_ccsdt d H T) T L) L <->
   forall Y, antisym_amps Y -> triples_anti Y -> derivable_pt_lim (fun t => cc_energy d H (amps_line T Y t) + dot3 d L (ccsdt_resid d H (amps_line T Y t))) 0 0).
Proof.
  intros HH HT HT3 HL HL3 HR. rewrite <- (C89_stationary d H T L HH HT HT3 HL HL3). refine (iff_trans (C89_fixed_point d 0 s true H T L HH HT HT3 HL HL3 HR) _).
  cbv zeta. unfold same_amps3. cbn [x_a x_b x_aa x_ab x_bb x_aaa x_aab x_abb x_bbb scale3 zero_amps].
  split; intros (E1 & E2 & E3 & E4 & E5 & E6 & E7 & E8 & E9); (split; [|split; [|split; [|split; [|split; [|split; [|split; [|split]]]]]]]); intros;
    rewrite ?E1, ?E2, ?E3, ?E4, ?E5, ?E6, ?E7, ?E8, ?E9 by assumption; ring.
Qed.
(** Two converged excited-state vectors, a left one and a right one of different roots, are orthogonal *)
Theorem C89_roots_orthogonal d w1 w2 s H T L Y : antisym_ints H -> antisym_amps T -> triples_anti T -> antisym_amps L -> triples_anti L -> antisym_amps Y -> triples_anti Y ->
  let HB := hbar_ccsdt d H T in leftt_regular d w1 s HB ->
  same_amps3 d (leftt_iter d w1 s false HB T L) L -> same_amps3 d (eomt_HR d HB T Y) (scale3 w2 Y) -> w1 <> w2 -> dot3 d L Y = 0.
Proof.
  intros HH HT HT3 HL HL3 HY HY3 HB HR E1 E2 N. apply (C89_fixed_point d w1 s false H T L HH HT HT3 HL HL3 HR) in E1.
  exact (C89_biorthogonal d H T L Y w1 w2 HH HT HT3 HL HL3 HY HY3 E1 E2 N).
Qed.
(** Every input has shifts for which no denominator vanishes: the hypothesis of the theorems above can always be met *)
Lemma diag_bound n (f : mat2) : exists M, 0 <= M /\ forall p, (p < n)%nat -> - M <= f p p <= M.
Proof.
  induction n as [|n (M & M0 & HM)]; [exists 0; split; [lra|intros p Hp; lia]|].
  exists (M + Rabs (f n n)). assert (P := Rabs_pos (f n n)). split; [lra|]. intros p Hp. assert (Q : p = n \/ (p < n)%nat) by lia. destruct Q as [->|Q].
  - assert (B := Rle_abs (f n n)). assert (B' := Rle_abs (- f n n)). rewrite Rabs_Ropp in B'. lra.
  - specialize (HM p Q). lra.
Qed.
Theorem C89_shift_exists d w H : exists s, leftt_regular d w s H.
Proof.
  destruct (diag_bound (noa d) (i_a_oo H)) as (M1 & P1 & B1). destruct (diag_bound (nob d) (i_b_oo H)) as (M2 & P2 & B2).
  destruct (diag_bound (nua d) (i_a_vv H)) as (M3 & P3 & B3). destruct (diag_bound (nub d) (i_b_vv H)) as (M4 & P4 & B4).
  exists (w + 1 + 3 * (M1 + M2 + M3 + M4)).
  Ltac bound B1 B2 B3 B4 := repeat match goal with Hp : (?p < ?n)%nat |- _ => first [generalize (B1 p Hp)|generalize (B2 p Hp)|generalize (B3 p Hp)|generalize (B4 p Hp)]; clear Hp end; intros; lra.
  constructor; [constructor|..]; unfold range6; intros; bound B1 B2 B3 B4.
Qed.
Example C89_iteration_instance : let H := fock_ints 2 1 I_lev in let HB := hbar_ccsdt d_lev H T_lev in
  exists s, leftt_regular d_lev (-4) s HB /\ antisym_ints H /\ antisym_amps Y_lev /\ triples_anti Y_lev /\
  (same_amps3 d_lev (leftt_iter d_lev (-4) s false HB T_lev Y_lev) Y_lev <-> same_amps3 d_lev (leftt_LH d_lev HB T_lev Y_lev) (scale3 (-4) Y_lev)).
Proof.
  intros H HB. destruct (C89_shift_exists d_lev (-4) HB) as (s & Hs). destruct C89_instance as (E1 & E2 & E3 & E4 & E5 & _). exists s.
  split; [exact Hs|]. split; [exact E1|]. split; [exact E4|]. split; [exact E5|]. exact (C89_fixed_point d_lev (-4) s false H T_lev Y_lev E1 E2 E3 E4 E5 Hs).
Qed.
Print Assumptions C89_lambda_stationary.
