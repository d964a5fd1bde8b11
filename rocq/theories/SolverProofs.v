(** Lemmas for C22-C24, C55, C56. *)
From Coq Require Import Reals Lra ZArith Lia Arith Bool List.
From Verif Require Import RSum DiisModel SolverModel SolverSpec.
Open Scope R_scope.

Section Hist.
Variable W : Type.
Variable ndim : nat.
Variable upd : vec -> vec -> W -> vec * vec * W.
Variable energy_of : vec -> vec -> R.
Variable overlap : option (vec -> R).
Variable opt : options.
Variables T0 dT0 : vec.
Variable w0 : W.

Definition init : jstate W :=
  mkJ T0 dT0 w0 0 (energy_of T0 dT0) (diis_init (Z.to_nat (diis_size opt)) ndim) 0.
Definition out (st : jstate W) := upd (j_T st) (j_dT st) (j_W st).
(** State after k full iterations (exit tests ignored). *)
Definition adv (k : nat) (st : jstate W) : jstate W :=
  let '(T, dT, w) := out st in
  match advance W overlap opt k T dT w (energy_of T dT) st with Some s => s | None => st end.
Fixpoint traj (k : nat) : jstate W := match k with O => init | S j => adv j (traj j) end.

Definition before (k : nat) : vec := j_T (traj k).
Definition after (k : nat) : vec := fst (fst (out (traj k))).
Definition resid (k : nat) : vec := match k with O => dT0 | S j => snd (fst (out (traj j))) end.
Definition world (k : nat) : W := match k with O => w0 | S j => snd (out (traj j)) end.
Definition en (k : nat) : R := energy_of (after k) (resid (S k)).
Definition passes (k : nat) : bool :=
  exit_test ndim opt (resid (S k)) (en k) (match k with O => energy_of T0 dT0 | S j => en j end).

(** The store after the push of iteration k and the vector before normalisation. *)
Definition store (k : nat) : diis :=
  if do_diis opt then push (j_diis (traj k)) (after k) (resid (S k)) k else j_diis (traj k).
Definition mixed (k : nat) : vec :=
  if do_diis opt && (diis_size opt <=? Z.of_nat k)%Z then extrapolate (store k) else after k.
(** Iteration k can be completed. *)
Definition ok (k : nat) : Prop :=
  do_diis opt && (diis_size opt =? 0)%Z = false /\
  match overlap with None => True | Some f => f (mixed k) <> 0 end.

Lemma advance_spec : forall k s,
  advance W overlap opt k (after k) (resid (S k)) (world (S k)) (en k) (traj k) = Some s <->
  ok k /\ s = mkJ (match overlap with None => mixed k | Some f => fun p => 1 / f (mixed k) * mixed k p end)
      (resid (S k)) (world (S k)) (en k) (en k) (store k)
      (match overlap with None => j_lr (traj k) | Some f => f (mixed k) end).
Proof.
  intros k s. unfold advance, ok. fold (store k). fold (mixed k).
  destruct (do_diis opt && (diis_size opt =? 0)%Z).
  - split; [discriminate|]. intros [[H _] _]. discriminate.
  - destruct overlap as [f|].
    + destruct (Req_EM_T (f (mixed k)) 0).
      * split; [discriminate|]. intros [[_ H] _]. contradiction.
      * split; [intro H; injection H as <-; auto|]. intros [_ ->]. reflexivity.
    + split; [intro H; injection H as <-; auto|]. intros [_ ->]. reflexivity.
Qed.

Lemma out_form : forall k, out (traj k) = (after k, resid (S k), world (S k)).
Proof. intro k. unfold after, resid, world. destruct (out (traj k)) as [[? ?] ?]. reflexivity. Qed.

Lemma traj_S : forall k, ok k ->
  traj (S k) =
  mkJ (match overlap with None => mixed k | Some f => fun p => 1 / f (mixed k) * mixed k p end)
      (resid (S k)) (world (S k)) (en k) (en k) (store k)
      (match overlap with None => j_lr (traj k) | Some f => f (mixed k) end).
Proof.
  intros k Hk. cbn [traj]. unfold adv. rewrite out_form. fold (en k).
  match goal with |- match ?a with Some s => s | None => _ end = ?r => assert (E : a = Some r) by (now apply advance_spec) end.
  now rewrite E.
Qed.

Lemma traj_dT : forall k, (forall j, (j < k)%nat -> ok j) -> j_dT (traj k) = resid k.
Proof. intros [|k] H; [reflexivity|]. rewrite traj_S by (apply H; lia). reflexivity. Qed.
Lemma traj_W : forall k, (forall j, (j < k)%nat -> ok j) -> j_W (traj k) = world k.
Proof. intros [|k] H; [reflexivity|]. rewrite traj_S by (apply H; lia). reflexivity. Qed.
Lemma traj_old : forall k, (forall j, (j < k)%nat -> ok j) ->
  j_energy_old (traj k) = match k with O => energy_of T0 dT0 | S j => en j end.
Proof. intros [|k] H; [reflexivity|]. rewrite traj_S by (apply H; lia). reflexivity. Qed.
Lemma traj_energy : forall k, (forall j, (j < k)%nat -> ok j) -> j_energy (traj k) = match k with O => 0 | S j => en j end.
Proof. intros [|k] H; [reflexivity|]. rewrite traj_S by (apply H; lia). reflexivity. Qed.
Lemma traj_diis : forall k, (forall j, (j < k)%nat -> ok j) ->
  j_diis (traj k) = match k with O => diis_init (Z.to_nat (diis_size opt)) ndim | S j => store j end.
Proof. intros [|k] H; [reflexivity|]. rewrite traj_S by (apply H; lia). reflexivity. Qed.
Lemma traj_diis_size : forall k, (forall j, (j < k)%nat -> ok j) ->
  d_size (j_diis (traj k)) = Z.to_nat (diis_size opt) /\ d_ndim (j_diis (traj k)) = ndim.
Proof.
  induction k; intro H; [split; reflexivity|]. rewrite traj_S by (apply H; lia). cbn [j_diis]. unfold store.
  destruct (do_diis opt); cbn [push d_size d_ndim]; apply IHk; intros; apply H; lia.
Qed.

(** Slot t mod d holds pair t as long as t is among the last d. *)
Lemma store_slots : forall k, do_diis opt = true -> let d := Z.to_nat (diis_size opt) in (0 < d)%nat ->
  (forall j, (j < k)%nat -> ok j) ->
  forall t, (t <= k < t + d)%nat ->
    d_T (store k) (t mod d) = after t /\ d_R (store k) (t mod d) = resid (S t).
Proof.
  intros k Hd d Hpos. induction k; intros Hok t Ht; unfold store; rewrite Hd; cbn [push d_T d_R];
    rewrite (proj1 (traj_diis_size _ Hok)); fold d; unfold set_row.
  - replace t with 0%nat by lia. now rewrite Nat.eqb_refl.
  - destruct (Nat.eq_dec t (S k)) as [->|Hn]; [now rewrite Nat.eqb_refl|].
    destruct (Nat.eqb_spec (t mod d) (S k mod d)) as [E|E].
    + exfalso. assert (K : ((S k - t) mod d)%nat = 0%nat).
      { pose proof (Nat.div_mod_eq t d). pose proof (Nat.div_mod_eq (S k) d).
        replace (S k - t)%nat with ((S k / d - t / d) * d)%nat by nia. apply Nat.mod_mul. lia. }
      rewrite Nat.mod_small in K by lia. lia.
    + rewrite (traj_diis (S k)) by exact Hok. apply IHk; [intros; apply Hok; lia|lia].
Qed.

Lemma window_slots : forall k, do_diis opt = true -> (0 < diis_size opt)%Z -> (diis_size opt <= Z.of_nat k)%Z ->
  (forall j, (j < k)%nat -> ok j) ->
  holds_last_pairs (Z.to_nat (diis_size opt)) k after resid (d_T (store k)) (d_R (store k)).
Proof.
  intros k Hd H0 Hk Hok. set (d := Z.to_nat (diis_size opt)). assert (Hpos : (0 < d)%nat) by lia.
  exists (fun t => t mod d). split; [|split].
  - intros t Ht. split; [apply Nat.mod_upper_bound; lia|]. apply (store_slots k Hd); auto; fold d; lia.
  - intros t t' Ht Ht' E.
    assert (G : forall a b, (a <= b)%nat -> (b < a + d)%nat -> a mod d = b mod d -> a = b).
    { intros a b H1 H2 H3. pose proof (Nat.div_mod_eq a d). pose proof (Nat.div_mod_eq b d).
      assert (b / d = a / d)%nat by nia. nia. }
    destruct (Nat.le_ge_cases t t'); [apply G; auto; lia|symmetry; apply G; auto; lia].
  - intros s Hs. pose proof (Nat.div_mod_eq k d). pose proof (Nat.mod_upper_bound k d ltac:(lia)).
    destruct (Nat.le_gt_cases s (k mod d)).
    + exists (d * (k / d) + s)%nat. split; [lia|]. rewrite Nat.add_comm, Nat.mul_comm, Nat.mod_add, Nat.mod_small; lia.
    + assert (1 <= k / d)%nat by (apply Nat.div_le_lower_bound; lia).
      exists (d * (k / d - 1) + s)%nat. split; [nia|]. rewrite Nat.add_comm, Nat.mul_comm, Nat.mod_add, Nat.mod_small; lia.
Qed.
End Hist.

Section Run.
Variable W : Type.
Variable ndim : nat.
Variable upd : vec -> vec -> W -> vec * vec * W.
Variable energy_of : vec -> vec -> R.
Variable overlap : option (vec -> R).
Variable opt : options.
Variables T0 dT0 : vec.
Variable w0 : W.
Notation traj' := (traj W ndim upd energy_of overlap opt T0 dT0 w0).
Notation after' := (after W ndim upd energy_of overlap opt T0 dT0 w0).
Notation before' := (before W ndim upd energy_of overlap opt T0 dT0 w0).
Notation resid' := (resid W ndim upd energy_of overlap opt T0 dT0 w0).
Notation world' := (world W ndim upd energy_of overlap opt T0 dT0 w0).
Notation en' := (en W ndim upd energy_of overlap opt T0 dT0 w0).
Notation passes' := (passes W ndim upd energy_of overlap opt T0 dT0 w0).
Notation ok' := (ok W ndim upd energy_of overlap opt T0 dT0 w0).

Lemma iterate_spec : forall fuel k r,
  (forall j, (j < k)%nat -> ok' j) ->
  iterate W ndim upd energy_of overlap opt fuel k (traj' k) = Some r ->
  exists n, (k <= n <= k + fuel)%nat /\ (forall j, (S j < n)%nat -> ok' j) /\
    (forall j, (k <= j)%nat -> (S j < n)%nat -> passes' j = false) /\
    ((r_converged r = true /\ (k < n)%nat /\ passes' (n - 1)%nat = true /\
      r = mkJR (after' (n - 1)%nat) (resid' n) (world' n) (en' (n - 1)%nat) (j_lr (traj' (n - 1)%nat)) true) \/
     (r_converged r = false /\ n = (k + fuel)%nat /\ (forall j, (k <= j < n)%nat -> passes' j = false) /\
      (forall j, (j < n)%nat -> ok' j) /\
      r = mkJR (before' n) (resid' n) (world' n) (j_energy (traj' n)) (j_lr (traj' n)) false)).
Proof.
  induction fuel as [|fuel IH]; intros k r Hk E; cbn [iterate] in E.
  - injection E as <-. exists k. cbn [r_converged]. split; [lia|]. split; [intros; apply Hk; lia|].
    split; [intros; lia|]. right. split; [reflexivity|]. split; [lia|]. split; [intros; lia|]. split; [exact Hk|].
    rewrite traj_dT, traj_W by exact Hk. reflexivity.
  - fold (out W upd (traj' k)) in E. rewrite out_form in E. cbv zeta beta iota in E. fold (en' k) in E.
    assert (Ep : exit_test ndim opt (resid' (S k)) (en' k) (j_energy_old (traj' k)) = passes' k).
    { unfold passes. f_equal. now apply traj_old. }
    rewrite Ep in E. destruct (passes' k) eqn:P.
    + injection E as <-. exists (S k). cbn [r_converged]. split; [lia|]. split; [intros; apply Hk; lia|].
      split; [intros; lia|]. left. replace (S k - 1)%nat with k by lia. repeat split; auto.
    + destruct (advance W overlap opt k (after' k) (resid' (S k)) (world' (S k)) (en' k) (traj' k)) as [s|] eqn:A; [|discriminate].
      apply advance_spec in A as [Hok ->]. rewrite <- traj_S in E by exact Hok.
      assert (Hok' : forall j, (j < S k)%nat -> ok' j).
      { intros j Hj. destruct (Nat.eq_dec j k) as [->|]; [exact Hok|]. apply Hk; lia. }
      destruct (IH (S k) r Hok' E) as (n & Hn & Ho & Hj & Hc).
      exists n. split; [lia|]. split; [exact Ho|]. split.
      { intros j H1 H2. destruct (Nat.eq_dec j k) as [->|]; [exact P|]. apply Hj; lia. }
      destruct Hc as [(C1 & C2 & C3 & C4)|(C1 & C2 & C3 & C4 & C5)]; [left|right].
      * repeat split; auto; lia.
      * split; [exact C1|]. split; [lia|]. split; [|split; [exact C4|exact C5]].
        intros j H1. destruct (Nat.eq_dec j k) as [->|]; [exact P|]. apply C3; lia.
Qed.

Lemma jacobi_spec : forall r,
  jacobi W ndim upd energy_of overlap opt T0 dT0 w0 = Some r ->
  (diis_size opt = -1 \/ 0 <= diis_size opt)%Z /\
  exists n, (n <= maximum_iterations opt)%nat /\ (forall j, (S j < n)%nat -> ok' j) /\
    (forall j, (S j < n)%nat -> passes' j = false) /\
    ((r_converged r = true /\ (0 < n)%nat /\ passes' (n - 1)%nat = true /\
      r = mkJR (after' (n - 1)%nat) (resid' n) (world' n) (en' (n - 1)%nat) (j_lr (traj' (n - 1)%nat)) true) \/
     (r_converged r = false /\ n = maximum_iterations opt /\ (forall j, (j < n)%nat -> passes' j = false) /\
      (forall j, (j < n)%nat -> ok' j) /\
      r = mkJR (before' n) (resid' n) (world' n) (j_energy (traj' n)) (j_lr (traj' n)) false)).
Proof.
  intros r E. unfold jacobi in E. destruct (do_diis opt && (diis_size opt <? 0)%Z) eqn:D; [discriminate|].
  split. { unfold do_diis in D. destruct (Z.eqb_spec (diis_size opt) (-1)); [now left|]. cbn in D. apply Z.ltb_ge in D. now right. }
  change (mkJ T0 dT0 w0 0 (energy_of T0 dT0) (diis_init (Z.to_nat (diis_size opt)) ndim) 0) with (traj' 0) in E.
  destruct (iterate_spec _ 0 r ltac:(intros; lia) E) as (n & Hn & Hb & Hj & Hc).
  exists n. split; [lia|]. split; [exact Hb|]. split; [intros; apply Hj; lia|].
  destruct Hc as [Hc|(C1 & C2 & C3 & C4 & C5)]; [left; exact Hc|right].
  split; [exact C1|]. split; [exact C2|]. split; [intros; apply C3; lia|]. split; [exact C4|exact C5].
Qed.

Lemma passes_meets : forall k, passes' k = true <->
  meets ndim (amp_convergence opt) (energy_convergence opt) resid' en' (energy_of T0 dT0) k.
Proof.
  intro k. unfold passes, exit_test, meets, length2. fold (norm ndim (resid' (S k))).
  rewrite andb_true_iff. destruct (Rlt_dec (norm ndim (resid' (S k))) (amp_convergence opt));
  destruct (Rlt_dec (Rabs (en' k - match k with O => energy_of T0 dT0 | S j => en' j end)) (energy_convergence opt));
  intuition (try discriminate).
Qed.
Lemma passes_not : forall k, passes' k = false ->
  ~ meets ndim (amp_convergence opt) (energy_convergence opt) resid' en' (energy_of T0 dT0) k.
Proof. intros k H K. apply passes_meets in K. congruence. Qed.

Lemma run_holds : forall n, (forall j, (S j < n)%nat -> ok' j) ->
  run upd T0 dT0 w0 n before' after' resid' world'.
Proof.
  intros n Hn. repeat split. intros k Hk.
  etransitivity; [|apply out_form]. unfold out, before.
  rewrite traj_dT, traj_W by (intros; apply Hn; lia). reflexivity.
Qed.

Lemma mixed_continues : forall k, (forall j, (j < k)%nat -> ok' j) -> ok' k ->
  (diis_size opt = -1 \/ 0 <= diis_size opt)%Z ->
  continues (diis_size opt) ndim k after' resid' (mixed W ndim upd energy_of overlap opt T0 dT0 w0 k).
Proof.
  intros k Hok Hk Hd. unfold continues, mixed. destruct Hk as [Hk _]. unfold do_diis in Hk. unfold do_diis at 1.
  destruct (Z.eqb_spec (diis_size opt) (-1)) as [E|E]; cbn [negb andb] in *.
  { left. split; [now left|reflexivity]. }
  destruct (Z.leb_spec (diis_size opt) (Z.of_nat k)); [|left; split; [right; lia|reflexivity]].
  right. split; [split; [exact E|lia]|].
  apply Z.eqb_neq in Hk.
  exists (store W ndim upd energy_of overlap opt T0 dT0 w0 k).
  assert (Ed : do_diis opt = true) by (unfold do_diis; now destruct (Z.eqb_spec (diis_size opt) (-1))).
  pose proof (traj_diis_size W ndim upd energy_of overlap opt T0 dT0 w0 k Hok) as [S1 S2].
  split; [|split; [|split]]; [| |apply window_slots; auto; lia|now rewrite Ed];
    unfold store; rewrite Ed; assumption.
Qed.

Lemma before_S : forall k, ok' k ->
  before' (S k) = match overlap with
    | None => mixed W ndim upd energy_of overlap opt T0 dT0 w0 k
    | Some f => fun p => 1 / f (mixed W ndim upd energy_of overlap opt T0 dT0 w0 k) * mixed W ndim upd energy_of overlap opt T0 dT0 w0 k p
    end.
Proof. intros k Hk. unfold before. now rewrite traj_S. Qed.
End Run.

(** eomcc_nonlinear_diis *)
Lemma norm_scaled : forall n c v, 0 <= c -> norm n (fun p => c * v p) = c * norm n v.
Proof.
  intros n c v Hc. unfold norm. rewrite (sumn_ext _ _ (fun p => (c * c) * (v p * v p))) by (intros; lra).
  rewrite sumn_scal, sqrt_mult_alt by nra. rewrite sqrt_square by exact Hc. reflexivity.
Qed.
Lemma norm_normalised : forall n v, norm n v <> 0 -> norm n (normalised n v) = 1.
Proof.
  intros n v H. assert (0 <= norm n v) by apply sqrt_pos. assert (P : 0 < norm n v) by lra.
  unfold normalised. transitivity (norm n (fun p => / norm n v * v p)).
  - unfold norm at 1 3. f_equal. apply sumn_ext. intros. unfold Rdiv. ring.
  - rewrite norm_scaled; [field; lra|]. left. now apply Rinv_0_lt_compat.
Qed.

Lemma nonlinear_loop_spec : forall ndim sigma upd opt fuel niter st Rf w,
  nonlinear_loop ndim sigma upd opt fuel niter st = Some (Rf, w, true) ->
  norm ndim Rf = 1 /\
  exists w_prev, w = dot ndim (sigma Rf w_prev) Rf /\
    norm ndim (fun p => sigma Rf w_prev p - w * Rf p) < amp_convergence opt /\
    Rabs (w - w_prev) < energy_convergence opt.
Proof.
  induction fuel as [|fuel IH]; intros niter st Rf w E; cbn [nonlinear_loop] in E; [discriminate|].
  destruct (Req_EM_T (norm ndim (n_R st)) 0) as [|Hn]; [discriminate|]. cbv zeta in E.
  match type of E with (if ?c then _ else _) = _ => destruct c eqn:C end.
  - injection E as <- <-. split; [now apply norm_normalised|]. exists (n_omega st). split; [reflexivity|].
    apply andb_true_iff in C as [C1 C2].
    split.
    + match type of C1 with (if ?c then _ else _) = _ => destruct c; [assumption|discriminate] end.
    + match type of C2 with (if ?c then _ else _) = _ => destruct c; [assumption|discriminate] end.
  - destruct (diis_size opt =? 0)%Z; [discriminate|]. now apply IH in E.
Qed.
