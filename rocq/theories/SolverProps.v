(** C22, C23, C24: the Jacobi/DIIS drivers; C55: left eigenvectors; C56: the nonlinear (CC3-type) eigensolver. *)
From Coq Require Import Reals Lra ZArith Lia Arith Bool List.
From Verif Require Import RSum DiisModel DiisSpec DiisProofs SolverModel SolverSpec SolverProofs.
Open Scope R_scope.

(** C22: the convergence contract.  [n] is the number of amplitude updates. *)
Theorem C22_convergence_contract :
  forall W ndim upd (e : vec -> R) opt T0 dT0 (w0 : W) r,
  cc_jacobi W ndim upd e opt T0 dT0 w0 = Some r ->
  exists n before after resid world,
    run upd T0 dT0 w0 n before after resid world /\
    (forall k, (S k < n)%nat \/ (S k = n /\ r_converged r = false) ->
       continues (diis_size opt) ndim k after resid (before (S k))) /\
    (n <= maximum_iterations opt)%nat /\
    let ok := meets ndim (amp_convergence opt) (energy_convergence opt) resid (fun k => e (after k)) (e T0) in
    (r_converged r = true -> (1 <= n)%nat /\ ok (n - 1)%nat /\ (forall k, (S k < n)%nat -> ~ ok k) /\
       r_T r = after (n - 1)%nat /\ r_dT r = resid n /\ r_W r = world n /\ r_energy r = e (after (n - 1)%nat)) /\
    (r_converged r = false -> n = maximum_iterations opt /\ (forall k, (k < n)%nat -> ~ ok k) /\
       r_T r = before n /\ r_dT r = resid n /\ r_W r = world n /\
       r_energy r = match n with O => 0 | S k => e (after k) end).
Proof.
  intros W ndim upd e opt T0 dT0 w0 r E. unfold cc_jacobi in E.
  apply jacobi_spec in E as (Hd & n & Hn & Hok & Hp & Hc).
  eexists n, _, _, _, _. split; [apply (run_holds W ndim upd (fun T _ => e T) None opt T0 dT0 w0 n Hok)|].
  destruct Hc as [(C1 & C2 & C3 & C4)|(C1 & C2 & C3 & C4 & C5)].
  - split; [|split; [exact Hn|]].
    { intros k [Hk|[_ Hk]]; [|congruence]. rewrite before_S by (apply Hok; lia).
      apply mixed_continues; auto. intros; apply Hok; lia. }
    cbv zeta. split; [|congruence]. intros _. split; [lia|]. split; [now apply passes_meets|].
    split; [intros k Hk; now apply passes_not, Hp|]. rewrite C4. repeat split; reflexivity.
  - split; [|split; [exact Hn|]].
    { intros k Hk. assert (k < n)%nat by lia. rewrite before_S by (apply C4; lia).
      apply mixed_continues; auto. intros; apply C4; lia. }
    cbv zeta. split; [congruence|]. intros _. split; [exact C2|]. split; [intros k Hk; now apply passes_not, C3|].
    rewrite C5. cbn [r_T r_dT r_W r_energy]. repeat split; try reflexivity.
    rewrite traj_energy by exact C4. destruct n; reflexivity.
Qed.

(** C23: a converged run returns the energy of the returned amplitudes. *)
Theorem C23_converged_energy :
  forall W ndim upd (e : vec -> R) opt T0 dT0 (w0 : W) r,
  cc_jacobi W ndim upd e opt T0 dT0 w0 = Some r -> r_converged r = true -> r_energy r = e (r_T r).
Proof.
  intros W ndim upd e opt T0 dT0 w0 r E C. apply jacobi_spec in E as (_ & n & _ & _ & _ & [(_ & _ & _ & ->)|(K & _)]).
  - reflexivity.
  - congruence.
Qed.

(** C23: so does an unconverged run of at least one iteration without DIIS, or too short to extrapolate. *)
Theorem C23_unconverged_energy_without_extrapolation :
  forall W ndim upd (e : vec -> R) opt T0 dT0 (w0 : W) r,
  cc_jacobi W ndim upd e opt T0 dT0 w0 = Some r -> (1 <= maximum_iterations opt)%nat ->
  (diis_size opt = -1 \/ Z.of_nat (maximum_iterations opt) <= diis_size opt)%Z -> r_energy r = e (r_T r).
Proof.
  intros W ndim upd e opt T0 dT0 w0 r E Hm Hd.
  apply jacobi_spec in E as (_ & n & _ & _ & _ & [(_ & _ & _ & ->)|(_ & Hn & _ & Hok & ->)]); [reflexivity|].
  cbn [r_energy r_T]. destruct n as [|k]; [lia|]. rewrite traj_energy by exact Hok. rewrite before_S by (apply Hok; lia).
  unfold mixed, do_diis. destruct Hd as [->|Hd]; [reflexivity|].
  destruct (Z.leb_spec (diis_size opt) (Z.of_nat k)); [lia|]. now rewrite andb_false_r.
Qed.

(** C23: no iterations: the initial guess with energy zero, whatever its energy is. *)
Theorem C23_no_iterations :
  forall W ndim upd (e : vec -> R) opt T0 dT0 (w0 : W) r,
  cc_jacobi W ndim upd e opt T0 dT0 w0 = Some r -> maximum_iterations opt = 0%nat ->
  r_T r = T0 /\ r_energy r = 0 /\ r_converged r = false.
Proof.
  intros W ndim upd e opt T0 dT0 w0 r E H. unfold cc_jacobi, jacobi in E. rewrite H in E. cbn [iterate] in E.
  destruct (do_diis opt && (diis_size opt <? 0)%Z); [discriminate|]. injection E as <-. repeat split.
Qed.

(** C23 refuted with DIIS: an unconverged run whose returned energy is not the energy of the returned amplitudes.  The
    update writes k into every amplitude at its k-th call, with the unit vector k mod 2 as residual. *)
Definition demo_upd (T dT : vec) (k : nat) : vec * vec * nat :=
  ((fun _ => INR k), (fun p => if p =? (k mod 2) then 1 else 0), S k).
Definition demo_opt : options := mkOptions (1/2) 1 3 2.
Theorem C23_diis_energy_refuted : exists r,
  cc_jacobi nat 2 demo_upd (fun T => T 0%nat) demo_opt (fun _ => 0) (fun _ => 0) 0%nat = Some r /\
  r_converged r = false /\ r_energy r = 2 /\ r_T r 0%nat = 3 / 2.
Proof.
  assert (N : forall k, norm 2 (fun p => if p =? (k mod 2) then 1 else 0) = 1).
  { intro k. unfold norm. cbn [sumn]. pose proof (Nat.mod_upper_bound k 2 ltac:(lia)).
    destruct (k mod 2) as [|[|m]]; [| |lia]; cbn [Nat.eqb];
      match goal with |- sqrt ?a = 1 => replace a with 1 by lra end; apply sqrt_1. }
  assert (X : forall k e1 e2, exit_test 2 demo_opt (fun p => if p =? (k mod 2) then 1 else 0) e1 e2 = false).
  { intros. unfold exit_test. rewrite N. cbn [amp_convergence demo_opt]. destruct (Rlt_dec 1 (1/2)); [lra|reflexivity]. }
  set (st := {| d_size := 2; d_ndim := 2;
     d_T := set_row (set_row (set_row (fun _ _ => 0) 0 (fun _ => INR 0)) 1 (fun _ => INR 1)) 0 (fun _ => INR 2);
     d_R := set_row (set_row (set_row (fun _ _ => 0) 0 (fun p => if p =? 0 mod 2 then 1 else 0)) 1
              (fun p => if p =? 1 mod 2 then 1 else 0)) 0 (fun p => if p =? 2 mod 2 then 1 else 0) |}).
  exists (mkJR (extrapolate st) (fun p => if p =? 2 mod 2 then 1 else 0) 3%nat (INR 2) 0 false).
  split; [|cbn [r_converged r_energy r_T]; split; [reflexivity|split; [cbn; lra|]]].
  - unfold cc_jacobi, jacobi. cbn [do_diis demo_opt diis_size Z.eqb negb andb Z.ltb Z.compare maximum_iterations].
    cbn [iterate demo_upd j_T j_dT j_W]. rewrite X. unfold advance. cbn [do_diis demo_opt diis_size Z.eqb negb andb].
    cbn [iterate demo_upd j_T j_dT j_W]. cbn [Z.of_nat Z.leb Z.compare Pos.compare Pos.compare_cont].
    cbn [iterate demo_upd j_T j_dT j_W]. rewrite X. unfold advance. cbn [do_diis demo_opt diis_size Z.eqb negb andb].
    cbn [Z.of_nat Z.leb Z.compare Pos.compare Pos.compare_cont Pos.of_succ_nat Pos.succ].
    cbn [iterate demo_upd j_T j_dT j_W]. rewrite X. unfold advance. cbn [do_diis demo_opt diis_size Z.eqb negb andb].
    cbn [Z.of_nat Z.leb Z.compare Pos.compare Pos.compare_cont Pos.of_succ_nat Pos.succ].
    cbn [iterate j_T j_dT j_W j_energy j_lr j_diis]. reflexivity.
  - assert (I : independent 2 2 (d_R st)).
    { intros c H i Hi. pose proof (H 0%nat ltac:(lia)) as H0. pose proof (H 1%nat ltac:(lia)) as H1.
      unfold combination, st, set_row in H0, H1. cbn in H0, H1. destruct i as [|[|i]]; try lra; lia. }
    destruct (coefficients_system st ltac:(cbn; lia) I) as [S1 S2].
    rewrite extrapolate_form. pose proof (S1 0%nat ltac:(cbn; lia)) as E0. pose proof (S1 1%nat ltac:(cbn; lia)) as E1.
    set (c := coefficients st) in *. clearbody c. unfold gram, dot, combination, st, set_row in *. cbn in *. lra.
Qed.

(** C24: the amplitudes entering update k+1 are those leaving update k until diis_size + 1 updates were made; from then
    on they are the extrapolation of a store of diis_size slots that hold exactly the last diis_size pairs. *)
Theorem C24_history_window :
  forall W ndim upd (e : vec -> R) opt T0 dT0 (w0 : W) r,
  cc_jacobi W ndim upd e opt T0 dT0 w0 = Some r ->
  exists n before after resid world,
    run upd T0 dT0 w0 n before after resid world /\
    (r_converged r = true -> r_T r = after (n - 1)%nat) /\ (r_converged r = false -> r_T r = before n) /\
    forall k, (S k < n)%nat \/ (S k = n /\ r_converged r = false) ->
      (diis_size opt = -1 \/ Z.of_nat k < diis_size opt -> before (S k) = after k)%Z /\
      (diis_size opt <> -1 -> diis_size opt <= Z.of_nat k -> 0 < diis_size opt /\
        exists s, d_size s = Z.to_nat (diis_size opt) /\ d_ndim s = ndim /\
          holds_last_pairs (d_size s) k after resid (d_T s) (d_R s) /\ before (S k) = extrapolate s)%Z.
Proof.
  intros W ndim upd e opt T0 dT0 w0 r E. pose proof E as E'.
  apply C22_convergence_contract in E as (n & b & a & rs & w & H1 & H2 & H3 & H4 & H5).
  exists n, b, a, rs, w. split; [exact H1|]. split; [intro C; apply H4; exact C|]. split; [intro C; apply H5; exact C|].
  assert (Hpos : (2 <= n)%nat \/ (1 <= n)%nat /\ r_converged r = false -> diis_size opt <> (-1)%Z -> (0 < diis_size opt)%Z).
  { intros Hn Hd. apply jacobi_spec in E' as ([K|K] & m & Hm & Hok & Hp & Hc); [contradiction|].
    enough (diis_size opt <> 0%Z) by lia. intro Z0.
    assert (Bad : do_diis opt && (diis_size opt =? 0)%Z = true) by (unfold do_diis; rewrite Z0; reflexivity).
    destruct Hc as [(C1 & C2 & C3 & C4)|(C1 & C2 & C3 & C4 & C5)].
    - destruct Hn as [Hn|[_ Hn]]; [|congruence].
      destruct (Nat.le_gt_cases m 1).
      + assert (m = 1)%nat by lia. subst m. apply passes_meets in C3.
        destruct (H4 C1) as (_ & _ & Hx & _). apply (Hx 0%nat); [lia|].
        destruct H1 as (B0 & R0 & W0 & H1). pose proof (H1 0%nat ltac:(lia)) as U. rewrite B0, R0, W0 in U.
        unfold meets in *. cbn [Nat.sub] in C3. unfold en, after, resid, out in C3. cbn [traj init j_T j_dT j_W] in C3.
        rewrite U in C3. cbn [fst snd] in C3. exact C3.
      + destruct (Hok 0%nat ltac:(lia)) as [Hz _]. congruence.
    - destruct (H5 C1) as [Hn' _]. destruct (C4 0%nat ltac:(lia)) as [Hz _]. congruence. }
  intros k Hk. specialize (H2 k Hk). unfold continues in H2. split.
  - intros Hc. destruct H2 as [[_ H2]|[H2 _]]; [exact H2|lia].
  - intros K1 K2. split; [apply Hpos; [destruct Hk as [Hk|[Hk Hf]]; [left; lia|right; split; [lia|exact Hf]]|exact K1]|].
    destruct H2 as [[H2 _]|(_ & s & S1 & S2 & S3 & S4)]; [lia|]. exists s. rewrite S1. auto.
Qed.

(** Instance: the demonstration run of C23 meets the hypotheses with an active extrapolation; and a converging run. *)
Example C22_instance_converged : exists r,
  cc_jacobi unit 1 (fun T _ w => (fun _ => 1, fun _ => 0, w)) (fun T => T 0%nat) (mkOptions 1 (1/2) 2 (-1))
     (fun _ => 3) (fun _ => 0) tt = Some r /\ r_converged r = true /\ r_energy r = 1.
Proof.
  assert (N : norm 1 (fun _ => 0) = 0) by (unfold norm; cbn [sumn]; replace (0 + 0 * 0) with 0 by lra; apply sqrt_0).
  eexists. split; [|split].
  - unfold cc_jacobi, jacobi. cbn [do_diis diis_size Z.eqb Pos.eqb negb andb maximum_iterations]. cbn [iterate].
    unfold exit_test at 1. rewrite N. cbn [amp_convergence energy_convergence j_energy_old].
    destruct (Rlt_dec 0 1); [|lra]. destruct (Rlt_dec (Rabs (1 - 3)) (1/2)) as [H|_].
    { exfalso. rewrite Rabs_left in H; lra. }
    cbn [andb]. unfold advance. cbn [do_diis diis_size Z.eqb Pos.eqb negb andb].
    cbn [iterate]. unfold exit_test at 1. rewrite N. cbn [amp_convergence energy_convergence j_energy_old].
    destruct (Rlt_dec 0 1); [|lra]. destruct (Rlt_dec (Rabs (1 - 1)) (1/2)) as [_|H].
    2:{ exfalso. apply H. replace (1 - 1) with 0 by lra. rewrite Rabs_R0. lra. }
    cbn [andb]. reflexivity.
  - reflexivity.
  - reflexivity.
Qed.

(** C55: after an excited-state left calculation the stored left vector has unit overlap with its right vector, for any
    overlap that scales with its argument. *)
Theorem C55_left_vector_biorthonormal :
  forall W ndim upd omega LR opt L0 LH0 (w0 : W) L reported conv,
  (forall c v, LR (fun p => c * v p) = c * LR v) ->
  run_left W ndim upd omega false LR opt L0 LH0 w0 = Some (L, reported, conv) -> LR L = 1.
Proof.
  intros W ndim upd omega LR opt L0 LH0 w0 L reported conv Hs E. unfold run_left in E.
  destruct (left_cc_jacobi W ndim upd omega false LR opt L0 LH0 w0) as [r|]; [|discriminate].
  destruct (Req_EM_T (LR (r_T r)) 0) as [|Hn]; [discriminate|]. injection E as <- _ _.
  rewrite Hs. field. exact Hn.
Qed.

(** C55: the overlap reported with it is not that of the returned vector: in a run converging after n updates it is the
    overlap computed before update n (zero if n = 1), i.e. that of the vector entering the last update before scaling. *)
Theorem C55_reported_overlap :
  forall W ndim upd omega LR opt L0 LH0 (w0 : W) L reported,
  run_left W ndim upd omega false LR opt L0 LH0 w0 = Some (L, reported, true) ->
  exists n before after resid world,
    run upd L0 LH0 w0 n before after resid world /\ (1 <= n)%nat /\
    (forall p, L p = 1 / LR (after (n - 1)%nat) * after (n - 1)%nat p) /\
    (n = 1%nat -> reported = 0) /\
    (forall k, n = S (S k) -> exists v, continues (diis_size opt) ndim k after resid v /\
       reported = LR v /\ before (S k) = (fun p => 1 / LR v * v p)).
Proof.
  intros W ndim upd omega LR opt L0 LH0 w0 L reported E. unfold run_left in E.
  destruct (left_cc_jacobi W ndim upd omega false LR opt L0 LH0 w0) as [r|] eqn:J; [|discriminate].
  destruct (Req_EM_T (LR (r_T r)) 0) as [|Hn]; [discriminate|]. injection E as <- <- C.
  unfold left_cc_jacobi in J. apply jacobi_spec in J as (Hd & n & Hm & Hok & Hp & Hc).
  destruct Hc as [(C1 & C2 & C3 & C4)|(C1 & _)]; [|congruence].
  eexists n, _, _, _, _. split.
  { apply (run_holds W ndim upd (fun L LH => get_lcc_energy ndim L LH + omega) (Some LR) opt L0 LH0 w0 n Hok). }
  split; [lia|]. rewrite C4. cbn [r_T r_lr]. split; [reflexivity|]. split.
  - intros ->. reflexivity.
  - intros k ->. replace (S (S k) - 1)%nat with (S k) by lia.
    eexists. split; [apply (mixed_continues W ndim upd (fun L LH => get_lcc_energy ndim L LH + omega) (Some LR) opt L0 LH0 w0 k)|].
    + intros; apply Hok; lia.
    + apply Hok; lia.
    + exact Hd.
    + rewrite traj_S by (apply Hok; lia). cbn [j_lr]. split; [reflexivity|]. rewrite before_S by (apply Hok; lia). reflexivity.
Qed.

(** A run that converges in its first iteration: the vector is normalised, the report says 0. *)
Theorem C55_reported_overlap_refuted : exists L reported,
  run_left unit 1 (fun L _ w => (fun _ => 2, fun _ => 0, w)) 0 false (fun v => v 0%nat) (mkOptions 1 1 1 6)
    (fun _ => 1) (fun _ => 0) tt = Some (L, reported, true) /\ L 0%nat = 1 /\ reported = 0.
Proof.
  assert (N : norm 1 (fun _ => 0) = 0) by (unfold norm; cbn [sumn]; replace (0 + 0 * 0) with 0 by lra; apply sqrt_0).
  eexists _, _. split; [|split].
  - unfold run_left, left_cc_jacobi, jacobi.
    cbn [do_diis diis_size Z.eqb Pos.eqb Z.ltb Z.compare negb andb maximum_iterations]. cbn [iterate].
    unfold exit_test at 1. rewrite N. cbn [amp_convergence energy_convergence j_energy_old].
    destruct (Rlt_dec 0 1); [|lra].
    match goal with |- context [Rlt_dec (Rabs ?x) 1] => assert (Z : x = 0) end.
    { unfold get_lcc_energy. cbn [sumn]. replace (0 + 0 * 0) with 0 by lra. rewrite sqrt_0. unfold Rdiv. lra. }
    rewrite Z, Rabs_R0. destruct (Rlt_dec 0 1); [|lra]. cbn [andb r_T r_lr r_converged].
    destruct (Req_EM_T 2 0); [lra|]. reflexivity.
  - cbn beta. lra.
  - reflexivity.
Qed.

(** C56: a converged nonlinear (energy-dependent) eigenvalue calculation returns a unit vector and its Rayleigh quotient;
    the matrix-vector product was evaluated at an energy within the tolerance of the returned one, and the residual at
    that energy is below tolerance. *)
Theorem C56_nonlinear_converged :
  forall ndim sigma upd opt B0 omega0 Rf w,
  nonlinear_diis ndim sigma upd opt B0 omega0 = Some (Rf, w, true) ->
  length2 ndim Rf = 1 /\
  exists w_prev, Rabs (w - w_prev) < energy_convergence opt /\
    w = sumn ndim (fun p => sigma Rf w_prev p * Rf p) /\
    length2 ndim (fun p => sigma Rf w_prev p - w * Rf p) < amp_convergence opt.
Proof.
  intros ndim sigma upd opt B0 omega0 Rf w E. unfold nonlinear_diis in E.
  destruct (diis_size opt <? 0)%Z; [discriminate|]. apply nonlinear_loop_spec in E as (H1 & wp & H2 & H3 & H4).
  split; [exact H1|]. exists wp. auto.
Qed.
(** Instance: the matrix 5 (one amplitude), started at the exact root. *)
Example C56_instance : exists Rf w,
  nonlinear_diis 1 (fun v _ p => 5 * v p) (fun d _ => d) (mkOptions 1 1 3 2) (fun _ => 2) 5 = Some (Rf, w, true) /\ w = 5.
Proof.
  assert (N2 : norm 1 (fun _ => 2) = 2).
  { unfold norm. cbn [sumn]. replace (0 + 2 * 2) with (2 * 2) by lra. apply sqrt_square; lra. }
  assert (W : dot 1 (fun p => 5 * normalised 1 (fun _ => 2) p) (normalised 1 (fun _ => 2)) = 5).
  { unfold dot, normalised. cbn [sumn]. rewrite N2. field. }
  exists (normalised 1 (fun _ => 2)), 5. split; [|reflexivity].
  unfold nonlinear_diis. cbn [diis_size Z.ltb Z.compare maximum_iterations nonlinear_loop n_R n_omega].
  destruct (Req_EM_T (norm 1 (fun _ => 2)) 0) as [H|_]; [lra|]. rewrite W. cbn [amp_convergence energy_convergence].
  assert (Z : norm 1 (fun p => 5 * normalised 1 (fun _ => 2) p - 5 * normalised 1 (fun _ => 2) p) = 0).
  { unfold norm. cbn [sumn]. match goal with |- sqrt ?a = 0 => replace a with 0 by lra end. apply sqrt_0. }
  rewrite Z. replace (5 - 5) with 0 by lra. rewrite Rabs_R0. destruct (Rlt_dec 0 1); [reflexivity|lra].
Qed.

Print Assumptions C22_convergence_contract.
Print Assumptions C23_converged_energy.
Print Assumptions C23_diis_energy_refuted.
Print Assumptions C24_history_window.
Print Assumptions C55_reported_overlap.
Print Assumptions C56_nonlinear_converged.
