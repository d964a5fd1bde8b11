(** C27: block Davidson. *)
From Coq Require Import Reals Arith Bool List Lia Lra.
From Verif Require Import RSum DiisModel DavidsonModel DavidsonSpec DavidsonProofs DavidsonProps.
Import ListNotations.
Open Scope R_scope.

Section C27.
Variables (n : nat) (HR : vec -> vec) (update_r : vec -> R -> vec) (eig : nat -> mat -> nat -> R * vec) (nroot maxit : nat) (amp econv : R).
Notation put := (put_col HR nroot maxit).
Notation root := (blk_root n HR update_r eig nroot maxit amp econv).
Notation iter := (blk_iter n HR update_r eig nroot maxit amp econv).
Notation loop := (blk_loop n HR update_r eig nroot maxit amp econv).
Notation run := (block_davidson n HR update_r eig nroot maxit amp econv).
Notation cols := (max_cols nroot maxit).

(** Roots not yet converged among the first t. *)
Definition open_roots (c : nat -> bool) (t : nat) : nat := length (filter (fun j => negb (c j)) (seq 0 t)).

(** Stored vectors: within the arrays, products up to date, mutually orthogonal. *)
Definition stored (st : blk) (s : nat) : Prop :=
  (s <= cols)%nat /\ (forall p, (p < s)%nat -> b_S st p = HR (b_B st p)) /\ orthogonal_set n s (b_B st).
Definition gram (st : blk) (G : mat) (s : nat) : Prop := forall i j, (i < s)%nat -> (j < s)%nat -> G i j = inner n (b_B st i) (HR (b_B st j)).
Definition flags_ok (st : blk) : Prop := forall j, b_conv st j = true -> length_of n (fun k => HR (b_R st j) k - b_omega st j * b_R st j k) < amp.

(** Filling of the interaction matrix. *)
Lemma G_fill : forall st s0, stored st (b_sz st) -> (b_sz st = s0 + b_add st)%nat -> gram st (b_G st) s0 -> gram st (blk_G n st) (b_sz st).
Proof.
  intros st s0 (_ & HS & _) Es HG. unfold blk_G.
  set (f := fun (G : mat) (p j : nat) => set_entry (set_entry G (b_sz st - j) p (dot n (b_B st (b_sz st - j)%nat) (b_S st p))) p (b_sz st - j) (dot n (b_S st (b_sz st - j)%nat) (b_B st p))).
  change (gram st (fold_left (fun G p => fold_left (fun G j => f G p j) (seq 1 (b_add st)) G) (seq 0 (b_sz st)) (b_G st)) (b_sz st)).
  (* entries are either right or untouched; the touched ones include all with an index >= s0 *)
  assert (E1 : forall G p j i k, (p < b_sz st)%nat -> (1 <= j <= b_add st)%nat -> (i < b_sz st)%nat -> (k < b_sz st)%nat ->
    (G i k = inner n (b_B st i) (HR (b_B st k)) \/ (i = p /\ k = b_sz st - j)%nat \/ (i = b_sz st - j /\ k = p)%nat) -> f G p j i k = inner n (b_B st i) (HR (b_B st k))).
  { intros G p j i k Hp Hj Hi Hk H. unfold f, set_entry. destruct (Nat.eqb_spec i p) as [->|Ni]; cbn [andb].
    - destruct (Nat.eqb_spec k (b_sz st - j)) as [->|Nk]; cbn [andb]; [rewrite <- HS by lia; apply inner_sym|].
      destruct (Nat.eqb_spec p (b_sz st - j)) as [->|Np]; cbn [andb].
      + destruct (Nat.eqb_spec k (b_sz st - j)); [contradiction|]. destruct H as [H|[[_ H]|[_ H]]]; [exact H|contradiction|contradiction].
      + destruct H as [H|[[_ H]|[H _]]]; [exact H|contradiction|contradiction].
    - destruct (Nat.eqb_spec i (b_sz st - j)) as [->|Ni2]; cbn [andb].
      + destruct (Nat.eqb_spec k p) as [->|Nk]; cbn [andb]; [rewrite <- HS by lia; reflexivity|]. destruct H as [H|[[H _]|[_ H]]]; [exact H|contradiction|contradiction].
      + destruct H as [H|[[H _]|[H _]]]; [exact H|contradiction|contradiction]. }
  assert (IN : forall js G p i k, (p < b_sz st)%nat -> (forall j, In j js -> 1 <= j <= b_add st)%nat -> (i < b_sz st)%nat -> (k < b_sz st)%nat ->
    (G i k = inner n (b_B st i) (HR (b_B st k)) \/ exists j, In j js /\ ((i = p /\ k = b_sz st - j)%nat \/ (i = b_sz st - j /\ k = p)%nat)) ->
    fold_left (fun G j => f G p j) js G i k = inner n (b_B st i) (HR (b_B st k))).
  { induction js as [|j js IH]; intros G p i k Hp Hjs Hi Hk H; [destruct H as [H|(j & [] & _)]; exact H|]. cbn [fold_left].
    apply IH; auto; [intros x Hx; apply Hjs; now right|]. destruct H as [H|(x & [->|Hx] & H)].
    - left. apply E1; auto. apply Hjs. now left.
    - left. apply E1; auto. apply Hjs. now left.
    - right. now exists x. }
  assert (OUT : forall ps G i k, (forall p, In p ps -> p < b_sz st)%nat -> (i < b_sz st)%nat -> (k < b_sz st)%nat ->
    (G i k = inner n (b_B st i) (HR (b_B st k)) \/ (In k ps /\ s0 <= i)%nat \/ (In i ps /\ s0 <= k)%nat) ->
    fold_left (fun G p => fold_left (fun G j => f G p j) (seq 1 (b_add st)) G) ps G i k = inner n (b_B st i) (HR (b_B st k))).
  { induction ps as [|p ps IH]; intros G i k Hps Hi Hk H; [destruct H as [H|[[[] _]|[[] _]]]; exact H|]. cbn [fold_left].
    apply IH; auto; [intros x Hx; apply Hps; now right|]. assert (Hp : (p < b_sz st)%nat) by (apply Hps; now left).
    assert (SQ : forall j, In j (seq 1 (b_add st)) -> (1 <= j <= b_add st)%nat) by (intros j Hj; apply in_seq in Hj; lia).
    destruct H as [H|[[[<-|Hx] H]|[[<-|Hx] H]]].
    - left. apply IN; auto.
    - left. apply IN; auto. right. exists (b_sz st - i)%nat. split; [apply in_seq; lia|]. right. lia.
    - right. left. auto.
    - left. apply IN; auto. right. exists (b_sz st - k)%nat. split; [apply in_seq; lia|]. left. lia.
    - right. right. auto. }
  intros i k Hi Hk. apply OUT; auto; [intros p Hp; apply in_seq in Hp; lia|]. destruct (le_lt_dec s0 i) as [Ge|Lt].
  - right. left. split; [apply in_seq; lia|exact Ge].
  - destruct (le_lt_dec s0 k) as [Ge|Lt2]; [right; right; split; [apply in_seq; lia|exact Ge]|]. left. apply HG; assumption.
Qed.

Lemma put_ok : forall c st q st', put c st q = Ok st' -> (c < cols)%nat /\ b_B st' = set_row (b_B st) c q /\ b_S st' = set_row (b_S st) c (HR q) /\
  b_G st' = b_G st /\ b_sz st' = b_sz st /\ b_add st' = (b_add st + 1)%nat /\ b_omega st' = b_omega st /\ b_conv st' = b_conv st /\ b_R st' = b_R st.
Proof. intros c st q st'. unfold put_col. destruct (Nat.ltb_spec c (max_cols nroot maxit)); [|discriminate]. intros E. injection E as <-. cbn. auto 10. Qed.

(** One root.  [linear n HR] is used only for the flags. *)
Lemma root_step : forall old G st j st', root old G st j = Ok st' -> stored st (b_sz st + b_add st) -> gram st (b_G st) (b_sz st) ->
  stored st' (b_sz st' + b_add st') /\ gram st' (b_G st') (b_sz st') /\ (linear n HR -> flags_ok st -> flags_ok st') /\ b_sz st' = b_sz st /\ b_G st' = b_G st /\
  (forall i, i <> j -> b_conv st' i = b_conv st i) /\ (b_conv st j = true -> b_conv st' j = true) /\
  b_add st' = (b_add st + if b_conv st' j then 0 else 1)%nat.
Proof.
  intros old G st j st' E (H1 & H2 & H3) HG. unfold blk_root in E. destruct (b_conv st j) eqn:Cj.
  - injection E as <-. rewrite Cj. repeat split; auto.
  - destruct (eig (b_sz st) G j) as [om alpha] eqn:Ee. destruct (below _ amp && below _ econv) eqn:C.
    + injection E as <-. cbn [b_B b_S b_G b_sz b_add b_omega b_conv b_R]. split; [repeat split; auto|]. split; [exact HG|]. split.
      * intros LIN HF jj Hjj. cbn [b_conv b_R b_omega] in Hjj |- *. unfold set_at in Hjj |- *. destruct (Nat.eq_dec jj j) as [Ej|NE]; [|apply Nat.eqb_neq in NE; rewrite NE in *; now apply HF].
        subst jj. rewrite Nat.eqb_refl.
        apply andb_true_iff in C. destruct C as (C & _). apply below_spec in C. eapply Rle_lt_trans; [|exact C]. right.
        apply (norm_ext n (fun k => HR (lincomb (b_sz st) (b_B st) alpha) k - om * lincomb (b_sz st) (b_B st) alpha k)). intros k Hk. f_equal. rewrite (linear_sum n HR) by assumption.
        unfold lincomb. apply sumn_ext. intros p Hp. now rewrite H2 by lia.
      * split; [reflexivity|]. split; [reflexivity|]. split; [intros i Hi; unfold set_at; destruct (Nat.eqb_spec i j); [contradiction|reflexivity]|]. split; [intros; unfold set_at; now rewrite Nat.eqb_refl|]. unfold set_at. rewrite Nat.eqb_refl. lia.
    + match type of E with rbind (of_opt ?x) _ = _ => destruct x as [q|] eqn:Eq end; [|discriminate E]. cbn [of_opt rbind] in E.
      apply put_ok in E. cbn [b_B b_S b_G b_sz b_add b_omega b_conv b_R] in E. destruct E as (Hc & EB & ES & EG & Es & Ea & Eo & Ec & ER).
      match type of Eq with bind ?x _ = _ => destruct x as [q1|] eqn:E1 end; [|discriminate Eq]. cbn [bind] in Eq.
      destruct (orthogonalise_some _ _ _ _ _ E1 H3) as (_ & Z). destruct (normalise_some _ _ _ Eq) as (_ & Ev & U).
      assert (Zq : forall p, (p < b_sz st + b_add st)%nat -> inner n (b_B st p) q = 0) by (intros p Hp; rewrite Ev, inner_div_r, Z by exact Hp; unfold Rdiv; ring).
      rewrite Es, Ea, Ec, Cj. split; [|split; [|split]].
      * split; [lia|]. rewrite EB, ES. split.
        -- intros p Hp. destruct (Nat.eq_dec p (b_sz st + b_add st)) as [->|]; [now rewrite !row_eq|]. rewrite !row_neq by assumption. apply H2. lia.
        -- intros i k Hi Hk NE. destruct (Nat.eq_dec i (b_sz st + b_add st)) as [->|Ni], (Nat.eq_dec k (b_sz st + b_add st)) as [->|Nk]; rewrite ?row_eq, ?row_neq by assumption; try lia.
           ++ rewrite inner_sym. apply Zq. lia.
           ++ apply Zq. lia.
           ++ apply H3; lia.
      * intros i k Hi Hk. rewrite EG, EB. rewrite !row_neq by lia. now apply HG.
      * intros LIN HF i Hi. rewrite Ec in Hi. rewrite ER, Eo. unfold set_at. destruct (Nat.eqb_spec i j) as [->|NE]; [congruence|]. now apply HF.
      * split; [reflexivity|]. split; [exact EG|]. split; [reflexivity|]. split; [congruence|lia].
Qed.
Lemma iter_step : forall st st' s0, iter st = Ok st' -> stored st (b_sz st) -> (b_sz st = s0 + b_add st)%nat -> gram st (b_G st) s0 ->
  stored st' (b_sz st' + b_add st') /\ gram st' (b_G st') (b_sz st') /\ (linear n HR -> flags_ok st -> flags_ok st') /\ b_sz st' = b_sz st /\
  (forall j, b_conv st j = true -> b_conv st' j = true) /\ b_add st' = open_roots (b_conv st') nroot.
Proof.
  intros st st' s0 E ST Es HG. pose proof (G_fill st s0 ST Es HG) as GF. unfold blk_iter in E.
  set (st1 := {| b_B := b_B st; b_S := b_S st; b_G := blk_G n st; b_sz := b_sz st; b_add := 0; b_omega := b_omega st; b_conv := b_conv st; b_R := b_R st |}) in *.
  assert (G : forall t s, fold_left (fun acc j => rbind acc (fun s => root (b_omega st) (blk_G n st) s j)) (seq 0 t) (Ok st1) = Ok s ->
    stored s (b_sz s + b_add s) /\ gram s (b_G s) (b_sz s) /\ (linear n HR -> flags_ok st -> flags_ok s) /\ b_sz s = b_sz st /\ (forall j, b_conv st j = true -> b_conv s j = true) /\
    (forall j, (t <= j)%nat -> b_conv s j = b_conv st j) /\ b_add s = open_roots (b_conv s) t).
  { induction t as [|t IH]; intros s Es'.
    - cbn in Es'. injection Es' as <-. cbn [st1 b_sz b_add b_G b_conv]. rewrite Nat.add_0_r. repeat split; auto; try apply ST. 
    - rewrite seq_S, fold_left_app in Es'. cbn [fold_left plus] in Es'. destruct (fold_left _ (seq 0 t) (Ok st1)) as [s1| |]; try discriminate Es'. cbn [rbind] in Es'.
      destruct (IH s1 eq_refl) as (I1 & I2 & I3 & I4 & I5 & I6 & I7). destruct (root_step _ _ _ _ _ Es' I1 I2) as (R1 & R2 & R3 & R4 & _ & R6 & R7 & R8).
      split; [exact R1|]. split; [exact R2|]. split; [auto|]. split; [lia|]. split; [|split].
      + intros j Hj. destruct (Nat.eq_dec j t) as [->|NE]; [apply R7; now apply I5|]. rewrite R6 by exact NE. now apply I5.
      + intros j Hj. rewrite R6 by lia. apply I6. lia.
      + unfold open_roots. rewrite seq_S, filter_app, app_length. cbn [plus filter]. rewrite R8, I7. unfold open_roots.
        rewrite (filter_ext_in (fun j => negb (b_conv s j)) (fun j => negb (b_conv s1 j)) (seq 0 t)); [destruct (b_conv s t); cbn; lia|]. intros j Hj. apply in_seq in Hj. rewrite R6 by lia. reflexivity. }
  destruct (G nroot st' E) as (I1 & I2 & I3 & I4 & I5 & _ & I7). do 5 (split; [assumption|]). assumption.
Qed.
Lemma init_ok : forall B0 om st, blk_init HR nroot maxit B0 om = Ok st -> orthogonal_set n nroot B0 ->
  stored st nroot /\ b_sz st = nroot /\ b_add st = nroot /\ (forall j, b_conv st j = false) /\ (forall p, (p < nroot)%nat -> b_B st p = B0 p).
Proof.
  intros B0 om st E O. unfold blk_init in E.
  assert (G : forall t s, (t <= nroot)%nat -> fold_left (fun acc j => rbind acc (fun st => put j st (B0 j))) (seq 0 t) (Ok (blk_empty om B0)) = Ok s ->
    (t <= cols)%nat /\ b_add s = t /\ (forall j, b_conv s j = false) /\ (forall p, (p < t)%nat -> b_B s p = B0 p /\ b_S s p = HR (B0 p))).
  { induction t as [|t IH]; intros s Ht Es.
    - cbn in Es. injection Es as <-. cbn. repeat split; auto; try lia.
    - rewrite seq_S, fold_left_app in Es. cbn [fold_left plus] in Es. destruct (fold_left _ (seq 0 t) _) as [s1| |]; try discriminate Es. cbn [rbind] in Es. apply put_ok in Es.
      destruct Es as (Hc & EB & ES & _ & _ & Ea & _ & Ec & _). destruct (IH s1 ltac:(lia) eq_refl) as (I1 & I2 & I3 & I4). rewrite EB, ES, Ea, Ec. repeat split; auto; try lia.
      + destruct (Nat.eq_dec p t) as [->|]; [now rewrite row_eq|]. rewrite row_neq by assumption. apply I4. lia.
      + destruct (Nat.eq_dec p t) as [->|]; [now rewrite row_eq|]. rewrite row_neq by assumption. apply I4. lia. }
  destruct (fold_left _ (seq 0 nroot) _) as [s| |] eqn:F; try discriminate E. cbn [rbind] in E. injection E as <-. destruct (G nroot s (Nat.le_refl _) F) as (I1 & I2 & I3 & I4).
  cbn [with_size b_sz b_add b_conv b_B b_S]. repeat split; auto.
  - intros p Hp. destruct (I4 p Hp) as (X & Y). cbn [with_size b_B b_S]. rewrite X, Y. reflexivity.
  - intros i j Hi Hj NE. cbn [with_size b_B]. destruct (I4 i Hi) as (-> & _). destruct (I4 j Hj) as (-> & _). now apply O.
  - intros p Hp. now apply I4.
Qed.
Lemma open_mono : forall c c' t, (forall j, c j = true -> c' j = true) -> (open_roots c' t <= open_roots c t)%nat.
Proof.
  intros c c' t H. unfold open_roots. induction (seq 0 t) as [|j l IH]; [cbn; lia|]. cbn [filter]. specialize (H j). destruct (c j); [rewrite H by reflexivity; exact IH|].
  cbn [negb length]. destruct (negb (c' j)); cbn [length]; lia.
Qed.
Lemma all_conv_open : forall st, all_conv nroot st = true -> open_roots (b_conv st) nroot = 0%nat.
Proof.
  intros st H. unfold all_conv in H. rewrite forallb_forall in H. unfold open_roots. rewrite (filter_ext_in _ (fun _ => false)); [induction (seq 0 nroot) as [|a l IHl]; [reflexivity|]; cbn; apply IHl; intros x Hx; apply H; now right|]. intros j Hj. now rewrite H.
Qed.
Lemma loop_ok : forall k st out s0, loop k st = Ok out -> stored st (b_sz st) -> (b_sz st = s0 + b_add st)%nat -> gram st (b_G st) s0 -> (linear n HR -> flags_ok st) ->
  (linear n HR -> flags_ok out) /\ (forall j, b_conv st j = true -> b_conv out j = true) /\
  (open_roots (b_conv out) nroot <> 0 -> b_sz st + open_roots (b_conv out) nroot * k <= cols)%nat.
Proof.
  induction k as [|k IH]; intros st out s0 E ST Es HG HF.
  - cbn in E. injection E as <-. split; [exact HF|]. split; [auto|]. intros _. destruct ST as (L & _). lia.
  - cbn [blk_loop] in E. destruct (iter st) as [st'| |] eqn:EI; try discriminate E. cbn [rbind] in E. destruct (iter_step st st' s0 EI ST Es HG) as (I1 & I2 & I3 & I4 & I5 & I6).
    destruct (all_conv nroot st') eqn:AC.
    + injection E as <-. split; [auto|]. split; [exact I5|]. intros NZ. apply all_conv_open in AC. contradiction.
    + assert (ST' : stored (with_size st' (b_sz st' + b_add st')) (b_sz (with_size st' (b_sz st' + b_add st')))) by exact I1.
      destruct (IH _ out (b_sz st') E ST' eq_refl I2 (fun L => I3 L (HF L))) as (J1 & J2 & J3). split; [exact J1|]. split; [intros j Hj; apply J2; now apply I5|]. intros NZ. specialize (J3 NZ). cbn [with_size b_sz] in J3.
      pose proof (open_mono (b_conv st') (b_conv out) nroot J2) as OM. rewrite I4, I6 in J3. lia.
Qed.

(** Columns needed: every root left open has taken one column per iteration, besides the nroot starting vectors.  So a run that returns
    with u open roots satisfies nroot + u * maxit <= nroot * maxit. *)
Theorem C27_storage : forall B0 om out, orthogonal_set n nroot B0 -> run B0 om = Ok out ->
  let u := open_roots (b_conv out) nroot in (u <> 0 -> nroot + u * maxit <= nroot * maxit)%nat.
Proof.
  intros B0 om out O E u NZ. unfold block_davidson in E. destruct (blk_init HR nroot maxit B0 om) as [st| |] eqn:EI; try discriminate E. cbn [rbind] in E.
  destruct (init_ok _ _ _ EI O) as (I1 & I2 & I3 & I4 & _). rewrite <- I2 in I1.
  destruct (loop_ok maxit st out 0 E I1 ltac:(lia)) as (_ & _ & L); [intros i j Hi; lia|intros _ j Hj; rewrite I4 in Hj; discriminate|]. fold u in L. specialize (L NZ). unfold max_cols in L. lia.
Qed.
(** Hence a run in which no root converges never returns: it fails for want of storage (or on a zero vector). *)
Theorem C27_unconverged_fails : forall B0 om, orthogonal_set n nroot B0 -> (1 <= nroot)%nat ->
  match run B0 om with Ok out => exists j, (j < nroot)%nat /\ b_conv out j = true | _ => True end.
Proof.
  intros B0 om O N1. destruct (run B0 om) as [out| |] eqn:E; try exact I. pose proof (C27_storage B0 om out O E) as S. cbn zeta in S.
  destruct (existsb (b_conv out) (seq 0 nroot)) eqn:X; [apply existsb_exists in X; destruct X as (j & Hj & C); apply in_seq in Hj; exists j; split; [lia|exact C]|]. exfalso.
  assert (U : open_roots (b_conv out) nroot = nroot).
  { unfold open_roots. assert (FT : forall l : list nat, filter (fun _ => true) l = l) by (clear; induction l as [|a l IHl]; cbn; congruence).
    rewrite (filter_ext_in _ (fun _ => true)); [rewrite FT; apply seq_length|].
    intros j Hj. destruct (b_conv out j) eqn:C; [|reflexivity]. assert (existsb (b_conv out) (seq 0 nroot) = true) by (apply existsb_exists; now exists j). congruence. }
  rewrite U in S. specialize (S ltac:(lia)). lia.
Qed.
(** In particular with one root the solver either converges or fails. *)
Theorem C27_single_root : forall B0 om out, nroot = 1%nat -> run B0 om = Ok out -> b_conv out 0%nat = true.
Proof.
  intros B0 om out N1 E. assert (O : orthogonal_set n nroot B0) by (intros i j Hi Hj NE; lia). pose proof (C27_unconverged_fails B0 om O ltac:(lia)) as H. rewrite E in H.
  destruct H as (j & Hj & C). assert (j = 0)%nat by lia. now subst j.
Qed.
(** A root flagged converged comes with a vector whose residual is below the threshold. *)
Theorem C27_flags : forall B0 om out, orthogonal_set n nroot B0 -> linear n HR -> run B0 om = Ok out ->
  forall j, b_conv out j = true -> length_of n (fun k => HR (b_R out j) k - b_omega out j * b_R out j k) < amp.
Proof.
  intros B0 om out O LIN E. unfold block_davidson in E. destruct (blk_init HR nroot maxit B0 om) as [st| |] eqn:EI; try discriminate E. cbn [rbind] in E.
  destruct (init_ok _ _ _ EI O) as (I1 & I2 & I3 & I4 & _). rewrite <- I2 in I1.
  destruct (loop_ok maxit st out 0 E I1 ltac:(lia)) as (F & _ & _); [intros i j Hi; lia|intros _ j Hj; rewrite I4 in Hj; discriminate|]. exact (F LIN).
Qed.
(** States at the beginning of the iterations: storage bound, products, interaction matrix, orthogonality. *)
Inductive blk_after (B0 : nat -> vec) (om : nat -> R) : nat -> blk -> Prop :=
| blk_0 : forall st, blk_init HR nroot maxit B0 om = Ok st -> blk_after B0 om 0 st
| blk_S : forall k st st', blk_after B0 om k st -> iter st = Ok st' -> all_conv nroot st' = false -> blk_after B0 om (S k) (with_size st' (b_sz st' + b_add st')).
Theorem C27_subspace : forall B0 om k st, orthogonal_set n nroot B0 -> blk_after B0 om k st ->
  (b_sz st <= nroot * maxit)%nat /\ (forall p, (p < b_sz st)%nat -> b_S st p = HR (b_B st p)) /\ orthogonal_set n (b_sz st) (b_B st) /\
  (forall i j, (i < b_sz st)%nat -> (j < b_sz st)%nat -> blk_G n st i j = inner n (b_B st i) (HR (b_B st j))).
Proof.
  intros B0 om k st O A.
  assert (G : exists s0, stored st (b_sz st) /\ (b_sz st = s0 + b_add st)%nat /\ gram st (b_G st) s0).
  { induction A as [st EI|k st st' A (s0 & S1 & S2 & S3) EI _].
    - destruct (init_ok _ _ _ EI O) as (I1 & I2 & I3 & I4 & _). exists 0%nat. rewrite I2, I3. repeat split; try apply I1. intros i j Hi; lia.
    - destruct (iter_step st st' s0 EI S1 S2 S3) as (K1 & K2 & _). exists (b_sz st'). repeat split; try apply K1. exact K2. }
  destruct G as (s0 & S1 & S2 & S3). pose proof (G_fill st s0 S1 S2 S3) as GF. destruct S1 as (L & HS & HO). unfold max_cols in L. auto.
Qed.
End C27.

(** The failure happens: one root, one iteration, a vector that is not an eigenvector. *)
Theorem C27_index_error_refuted : exists HR B0 om,
  linear 2 HR /\ orthogonal_set 2 1 B0 /\ inner 2 (B0 0%nat) (B0 0%nat) = 1 /\
  block_davidson 2 HR (fun v _ => v) (fun _ G _ => (G 0%nat 0%nat, fun _ => 1)) 1 1 (1/2) (1/2) B0 om = IndexError.
Proof.
  exists swap2, (fun _ => unit0), (fun _ => 0). split; [exact swap2_linear|]. split; [intros i j Hi Hj NE; lia|]. split; [unfold inner, unit0; cbn; ring|].
  set (eig := fun (_ : nat) (G : mat) (_ : nat) => (G 0%nat 0%nat, fun _ : nat => 1)).
  unfold block_davidson. destruct (blk_init swap2 1 1 (fun _ => unit0) (fun _ => 0)) as [st| |] eqn:EI; [|discriminate EI|discriminate EI]. cbn [rbind].
  unfold blk_init in EI. cbn in EI. injection EI as <-. cbn [blk_loop]. unfold blk_iter. cbn [seq fold_left rbind]. unfold blk_root. cbn [b_conv b_sz b_B b_S b_add b_omega].
  unfold eig at 1. set (G := blk_G 2 _). assert (G00 : G 0%nat 0%nat = 0) by (unfold G, blk_G, set_entry, dot, unit0, swap2; cbn; ring). rewrite G00.
  match goal with |- context [norm 2 ?x] => set (res := x) end. assert (RES : res 0%nat = 0 /\ res 1%nat = 1) by (unfold res, lincomb, set_row, swap2, unit0; cbn; split; ring).
  destruct RES as (R0 & R1). assert (N1 : norm 2 res = 1) by (apply norm_unit; unfold inner; cbn [sumn]; rewrite R0, R1; ring). rewrite N1.
  replace (below 1 (1/2)) with false by (unfold below; destruct (Rlt_dec 1 (1/2)); [lra|reflexivity]). cbn [andb plus].
  assert (NU : forall v, norm 2 v = 1 -> exists w, normalise 2 v = Some w /\ forall k, w k = v k).
  { intros v H. unfold normalise. rewrite H. destruct (Req_EM_T 1 0); [lra|]. eexists. split; [reflexivity|]. intros k. cbv beta. field. }
  unfold orthogonalise. cbn [with_size b_B b_sz b_add plus seq fold_left bind]. match goal with |- context [normalise 2 (?x 0%nat)] => destruct (NU (x 0%nat)) as (b & -> & Wb) end; [apply norm_unit; unfold inner, unit0, set_row; cbn; ring|]. cbn [bind].
  destruct (NU (project_out 2 b res)) as (q & -> & _); [|reflexivity]. apply norm_unit. unfold inner. cbn [sumn]. unfold project_out. rewrite dot2, !Wb, R0, R1. unfold set_row, unit0. cbn. ring.
Qed.
Example C27_instance : orthogonal_set 2 2 (fun p k => if k =? p then 1 else 0) /\ open_roots (fun j => j =? 1) 3 = 2%nat.
Proof. split; [|reflexivity]. intros [|[|i]] [|[|j]] Hi Hj NE; try lia; unfold inner; cbn; ring. Qed.

Print Assumptions C27_storage. Print Assumptions C27_unconverged_fails. Print Assumptions C27_single_root. Print Assumptions C27_flags. Print Assumptions C27_subspace. Print Assumptions C27_index_error_refuted.
