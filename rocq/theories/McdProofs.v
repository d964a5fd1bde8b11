(** Lemmas about cholesky_eri_from_pyscf. *)
From Coq Require Import Reals Arith Bool Lia Lra List.
From Verif Require Import Base RSum DiisModel CholeskyModel CholeskySpec CholeskyProofs.
Import ListNotations.
Local Open Scope nat_scope.
Open Scope R_scope.

Section Shells.
Variables (sizes : list nat) (eri : nat -> nat -> nat -> nat -> R).
Notation NB := (nbas sizes). Notation D := (dims sizes). Notation NA := (nao sizes).
Hypothesis Hpos : forall s, In s sizes -> (0 < s)%nat.
Lemma dims_S : forall k, (k < NB)%nat -> D (S k) = (D k + nth k sizes 0)%nat.
Proof.
  unfold dims, nbas. clear Hpos. induction sizes as [|a l IH]; intros k Hk; simpl in Hk; [lia|].
  destruct k; simpl; [lia|]. specialize (IH k ltac:(lia)). cbn [firstn list_sum fold_right] in *. unfold list_sum in *. simpl in *. lia.
Qed.
Lemma dims_all : D NB = NA.
Proof. unfold dims, nbas, nao. rewrite firstn_all. reflexivity. Qed.
Lemma dims_lt : forall a b, (a < b)%nat -> (b <= NB)%nat -> (D a < D b)%nat.
Proof.
  intros a b H. induction H as [|b H IH]; intros HB.
  - rewrite dims_S by lia. assert (0 < nth a sizes 0)%nat by (apply Hpos, nth_In; exact HB). lia.
  - rewrite dims_S by lia. specialize (IH ltac:(lia)). lia.
Qed.
Lemma dims_le : forall a b, (a <= b)%nat -> (b <= NB)%nat -> (D a <= D b)%nat.
Proof. intros a b H HB. assert (a = b \/ a < b)%nat as [-> | L] by lia; [lia|]. pose proof (dims_lt a b L HB). lia. Qed.
(** counting a downward closed set of positions *)
Lemma count_down : forall P n, (forall a b, (a < b)%nat -> (b < n)%nat -> P b = true -> P a = true) ->
  let c := List.length (filter P (seq 0 n)) in
  (c <= n)%nat /\ (forall k, (k < c)%nat -> P k = true) /\ (forall k, (c <= k)%nat -> (k < n)%nat -> P k = false).
Proof.
  intros P n. induction n as [|n IH]; intros H c.
  - unfold c. simpl. repeat split; intros; lia.
  - unfold c. rewrite seq_S, filter_app. simpl. destruct IH as (I1 & I2 & I3); [intros a b L1 L2; apply H; lia|].
    destruct (P n) eqn:E.
    + assert (List.length (filter P (seq 0 n)) = n).
      { destruct (Nat.eq_dec (List.length (filter P (seq 0 n))) n) as [e|e]; [exact e|]. exfalso.
        specialize (I3 (List.length (filter P (seq 0 n))) (Nat.le_refl _) ltac:(lia)). rewrite (H _ n) in I3; [discriminate|lia|lia|exact E]. }
      rewrite app_length, H0. simpl. repeat split; [lia| |intros; lia]. intros k Hk. assert (k = n \/ k < n)%nat as [-> | L] by lia; [exact E|apply I2; lia].
    + rewrite app_nil_r. repeat split; [lia|exact I2|]. intros k K1 K2. assert (k = n \/ k < n)%nat as [-> | L] by lia; [exact E|apply I3; lia].
Qed.
Lemma shell_spec : forall j, (j < NA)%nat -> (shell sizes j < NB)%nat /\ (D (shell sizes j) <= j)%nat /\ (j < D (S (shell sizes j)))%nat.
Proof.
  intros j Hj. unfold shell, searchsorted.
  pose proof (count_down (fun k => D k <? j)%nat (NB + 1)) as C. cbv zeta in C. destruct C as (C1 & C2 & C3).
  { intros a b L1 L2 T. apply Nat.ltb_lt in T. apply Nat.ltb_lt. pose proof (dims_lt a b L1 ltac:(lia)). lia. }
  set (c := List.length _) in *.
  assert (Hc : (c <= NB)%nat).
  { destruct (Nat.le_gt_cases c NB) as [|G]; [assumption|]. specialize (C2 NB G). apply Nat.ltb_lt in C2. rewrite dims_all in C2. lia. }
  assert (Hge : (j <= D c)%nat) by (specialize (C3 c ltac:(lia) ltac:(lia)); apply Nat.ltb_ge in C3; exact C3).
  destruct (Nat.eqb_spec (D c) j) as [E|E]; simpl.
  - assert (c < NB)%nat by (destruct (Nat.eq_dec c NB) as [e|e]; [rewrite e, dims_all in E; lia|lia]).
    pose proof (dims_lt c (S c) ltac:(lia) ltac:(lia)). lia.
  - destruct (Nat.eqb_spec j 0) as [Z|Z]; simpl.
    + exfalso. subst j. destruct c as [|c0]; [apply E; reflexivity|]. specialize (C2 0%nat ltac:(lia)). apply Nat.ltb_lt in C2. lia.
    + assert (0 < c)%nat by (destruct c; [exfalso; unfold dims in Hge; simpl in Hge; lia|lia]).
      specialize (C2 (c - 1)%nat ltac:(lia)). apply Nat.ltb_lt in C2. replace (S (c - 1)) with c by lia. lia.
Qed.
Definition M : nat -> nat -> R := fun k l => eri (k / NA)%nat (k mod NA)%nat (l / NA)%nat (l mod NA)%nat.
Lemma eri_col_M : forall nu k, (nu < NA * NA)%nat -> eri_col sizes eri nu k = M k nu.
Proof.
  intros nu k H. assert (NA <> 0)%nat by (intro Z; rewrite Z in H; lia).
  unfold eri_col, M. f_equal.
  - assert (nu / NA < NA)%nat by (apply Nat.div_lt_upper_bound; lia). destruct (shell_spec _ H1) as (_ & B & _). lia.
  - assert (nu mod NA < NA)%nat by (apply Nat.mod_upper_bound; lia). destruct (shell_spec _ H1) as (_ & B & _). lia.
Qed.
Lemma diag_M : forall k, (k < NA * NA)%nat -> diag sizes eri k = M k k.
Proof.
  intros k Hk. assert (HN : NA <> 0%nat) by (intro Z; rewrite Z in Hk; lia).
  assert (G : forall n, (n <= NB)%nat ->
    flat_map (fun i => map (fun k => eri (D i + k / NA) (k mod NA) (D i + k / NA) (k mod NA)) (seq 0 (nth i sizes 0 * NA)))%nat (seq 0 n)
    = map (fun k => M k k) (seq 0 (D n * NA))).
  { induction n as [|n IH]; intros Hn; [reflexivity|]. rewrite seq_S, flat_map_app, IH by lia. simpl flat_map. rewrite app_nil_r.
    rewrite (dims_S n) by lia. rewrite Nat.mul_add_distr_r, seq_app, map_app. f_equal. simpl.
    rewrite <- (map_id (seq (D n * NA) _)). rewrite <- (Nat.add_0_r (D n * NA)).
    assert (SH : forall a b c, seq (a + b) c = map (fun k => a + k)%nat (seq b c)).
    { intros a b c. revert b. induction c as [|c IHc]; intros b; [reflexivity|]. simpl. f_equal. rewrite <- IHc. f_equal. lia. }
    rewrite SH, !map_map. apply map_ext. intros q. unfold M.
    replace (D n * NA + q)%nat with (q + D n * NA)%nat by lia. rewrite Nat.div_add, Nat.mod_add by exact HN.
    replace (q / NA + D n)%nat with (D n + q / NA)%nat by lia. reflexivity. }
  unfold diag, diag_list. rewrite G by lia. rewrite dims_all.
  rewrite (nth_indep _ 0 ((fun k => M k k) 0%nat)) by (rewrite map_length, seq_length; exact Hk).
  rewrite (map_nth (fun k => M k k)), seq_nth by exact Hk. reflexivity.
Qed.
End Shells.

Section Mcd.
Variables (sizes : list nat) (eri : nat -> nat -> nat -> nat -> R) (tol : R) (cmax : nat).
Hypothesis Hpos : forall s, In s sizes -> (0 < s)%nat.
Hypothesis Hna : (0 < nao sizes)%nat.
Hypothesis Htol : 0 <= tol.
Notation N := (nao sizes * nao sizes)%nat.
Notation MM := (M sizes eri).
Hypothesis HS : symmetric N MM.
Hypothesis HP : positive_semidefinite N MM.
Record minv (st : mcd) : Prop := mkMinv {
  q_psd : positive_semidefinite N (error MM (v_vecs st) (v_n st));
  q_approx : forall k, v_approx st k = sumn (v_n st) (fun x => v_vecs st x k * v_vecs st x k);
  q_nu : exists nu, (nu < N)%nat /\ v_dmax st = error MM (v_vecs st) (v_n st) nu nu
     /\ (forall k, (k < N)%nat -> error MM (v_vecs st) (v_n st) k k <= v_dmax st)
     /\ (forall k, (k < N)%nat -> v_vecs st (v_n st) k = error MM (v_vecs st) (v_n st) nu k / sqrt (v_dmax st));
  q_rows : exists P : list nat, List.length P = v_n st /\ NoDup P /\ forall p, In p P -> (p < N)%nat /\ forall j, (j < N)%nat -> error MM (v_vecs st) (v_n st) p j = 0 }.
Lemma Npos : (0 < N)%nat. Proof. nia. Qed.
Lemma minv_init : minv (mcd_init sizes eri).
Proof.
  constructor; simpl.
  - apply (psd_ext N MM); [|exact HP]. intros. rewrite error_0. reflexivity.
  - reflexivity.
  - exists (argmax N (diag sizes eri)). pose proof (argmax_lt N (diag sizes eri) Npos) as L. split; [exact L|]. split; [|split].
    + rewrite error_0. apply diag_M. exact L.
    + intros k Hk. rewrite error_0, <- diag_M by exact Hk. apply argmax_max. exact Hk.
    + intros k Hk. unfold set_row. simpl. rewrite error_0. f_equal. rewrite (eri_col_M sizes eri Hpos) by exact L. apply HS; assumption.
  - exists []. repeat split; [constructor|contradiction|contradiction].
Qed.
Lemma minv_room : forall st, minv st -> tol < Rabs (v_dmax st) -> (v_n st < N)%nat /\ 0 < v_dmax st.
Proof.
  intros st HI Ht. destruct (q_nu st HI) as [nu (Hn & Hd & _ & _)]. destruct (q_rows st HI) as [P (PL & PN & PZ)].
  pose proof (psd_diag N _ nu (q_psd st HI) Hn) as D. rewrite <- Hd in D. rewrite Rabs_right in Ht by lra. split; [|lra].
  assert (NI : ~ In nu P). { intro K. destruct (PZ nu K) as [_ Z]. rewrite (Z nu Hn) in Hd. lra. }
  assert (Len : (List.length (nu :: P) <= List.length (seq 0 N))%nat).
  { apply NoDup_incl_length; [constructor; assumption|]. intros x [<- | X]; apply in_seq; [lia|]. destruct (PZ x X). lia. }
  rewrite seq_length in Len. simpl in Len. lia.
Qed.
Lemma minv_step : forall st st', minv st -> tol < Rabs (v_dmax st) -> mcd_step sizes eri cmax st = Some st' -> minv st'.
Proof.
  intros st st' HI Ht HStep. destruct (minv_room st HI Ht) as [Hroom Hdpos].
  destruct (q_nu st HI) as [nu0 (Hn & Hd & Hmx & Hv)]. destruct (q_rows st HI) as [P (PL & PN & PZ)].
  set (n := v_n st) in *. set (V := v_vecs st) in *. set (E := error MM V n) in *.
  assert (Es : symmetric N E) by (apply error_sym; exact HS).
  unfold mcd_step in HStep. cbv zeta in HStep. fold n V in HStep.
  set (approx := fun k => v_approx st k + V n k * V n k) in *.
  set (nu := argmax _ _) in HStep. set (dmax := Rabs (diag sizes eri nu - approx nu)) in HStep.
  destruct (Nat.ltb_spec (n + 1) (nchol_max sizes cmax)) as [Hb|]; [|discriminate]. injection HStep as <-.
  set (V' := set_row V (n + 1) _).
  assert (VE : forall k, (k <= n)%nat -> V' k = V k) by (intros k Hk; unfold V', set_row; destruct (Nat.eqb_spec k (n + 1)); [lia|reflexivity]).
  assert (E' : forall i j, error MM V' (n + 1) i j = elim E (V n) i j).
  { intros i j. rewrite Nat.add_1_r, error_S. rewrite (VE n) by lia. unfold elim. f_equal. unfold E. apply error_ext. intros k Hk. rewrite VE by lia. auto. }
  assert (Hvp : forall j, (j < N)%nat -> V n j = pivot_vec E nu0 j) by (intros j Hj; unfold pivot_vec; rewrite <- Hd; apply Hv; exact Hj).
  assert (Epos : 0 < E nu0 nu0) by lra.
  assert (Psd : positive_semidefinite N (error MM V' (n + 1))).
  { eapply psd_ext; [intros i j _ _; symmetry; apply E'|]. apply (elim_psd N E nu0); auto. exact (q_psd st HI). }
  assert (App : forall k, approx k = sumn (n + 1) (fun x => V x k * V x k)).
  { intros k. rewrite Nat.add_1_r. simpl. unfold approx. rewrite (q_approx st HI k). fold n V. reflexivity. }
  assert (Del : forall k, (k < N)%nat -> diag sizes eri k - approx k = error MM V' (n + 1) k k).
  { intros k Hk. rewrite diag_M, App by exact Hk. unfold error. f_equal. apply sumn_ext. intros x Hx. rewrite VE by lia. reflexivity. }
  assert (Lnu : (nu < N)%nat) by (apply argmax_lt, Npos).
  assert (Ddel : forall k, (k < N)%nat -> Rabs (diag sizes eri k - approx k) = error MM V' (n + 1) k k).
  { intros k Hk. rewrite (Del k Hk). apply Rabs_right. pose proof (psd_diag N _ k Psd Hk). lra. }
  constructor; cbn [v_vecs v_n v_approx v_dmax].
  - exact Psd.
  - intros k. rewrite App. apply sumn_ext. intros x Hx. rewrite VE by lia. reflexivity.
  - exists nu. split; [exact Lnu|]. split; [apply Ddel; exact Lnu|]. split.
    + intros k Hk. rewrite <- (Ddel k Hk). unfold dmax, nu. apply (argmax_max N (fun k => Rabs (diag sizes eri k - approx k)) k Hk).
    + intros k Hk. unfold V' at 1. unfold set_row. rewrite Nat.eqb_refl. fold V'. f_equal. unfold error.
      rewrite (eri_col_M sizes eri Hpos) by exact Lnu. rewrite (HS k nu Hk Lnu). f_equal. apply sumn_ext. intros x Hx. rewrite VE by lia. reflexivity.
  - exists (nu0 :: P). simpl. split; [lia|]. split.
    + constructor; [|exact PN]. intro K. destruct (PZ nu0 K) as [_ Z]. rewrite (Z nu0 Hn) in Epos. lra.
    + intros p [<- | Hp].
      * split; [exact Hn|]. intros j Hj. rewrite E'. apply (elim_pivot N E nu0); auto.
      * destruct (PZ p Hp) as [B Z]. split; [exact B|]. intros j Hj. rewrite E'. apply (elim_zero_row N E nu0); auto.
Qed.
Lemma mloop : forall fuel st, minv st -> (0 < fuel)%nat -> (v_n st + fuel = nchol_max sizes cmax)%nat ->
  (mcd_loop sizes eri tol cmax fuel st = McdIndexError /\ (nchol_max sizes cmax <= N)%nat)
  \/ exists st', minv st' /\ mcd_loop sizes eri tol cmax fuel st = McdReturn (v_vecs st') (v_n st') /\ v_dmax st' <= tol /\ (v_n st' < nchol_max sizes cmax)%nat.
Proof.
  induction fuel as [|k IH]; intros st HI HF HN; [lia|]. cbn [mcd_loop].
  destruct (Rlt_dec tol (Rabs (v_dmax st))) as [Lt|Ge].
  - destruct (minv_room st HI Lt) as [Hroom _]. destruct (mcd_step sizes eri cmax st) as [st'|] eqn:ES.
    + pose proof (minv_step st st' HI Lt ES) as HI'.
      assert (Hn : v_n st' = (v_n st + 1)%nat /\ (v_n st + 1 < nchol_max sizes cmax)%nat).
      { unfold mcd_step in ES. cbv zeta in ES. destruct (Nat.ltb_spec (v_n st + 1) (nchol_max sizes cmax)); [|discriminate]. injection ES as <-. split; [reflexivity|assumption]. }
      apply (IH st' HI'); lia.
    + left. split; [reflexivity|]. unfold mcd_step in ES. cbv zeta in ES. destruct (Nat.ltb_spec (v_n st + 1) (nchol_max sizes cmax)); [discriminate|]. lia.
  - right. exists st. split; [exact HI|]. split; [reflexivity|]. split; [|lia]. pose proof (Rle_abs (v_dmax st)). lra.
Qed.
End Mcd.
