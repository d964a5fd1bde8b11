(** Lemmas for C25. *)
From Coq Require Import Reals Lra Lia Arith Bool List.
From Verif Require Import RSum DiisModel DiisSpec.
Import ListNotations.
Open Scope R_scope.

Definition sol (n k : nat) (A : mat) (b x : vec) : Prop :=
  forall r, (r < k)%nat -> sumn n (fun c => A r c * x c) = b r.

Lemma row_op_sol : forall n k i j A b x, (i < j)%nat ->
  sol n k A b x <-> sol n k (fst (row_op i (A, b) j)) (snd (row_op i (A, b) j)) x.
Proof.
  intros n k i j A b x Hij. cbn. set (m := A j i / A i i).
  assert (E : forall r, sumn n (fun c => (if r =? j then A r c - m * A i c else A r c) * x c) =
     if r =? j then sumn n (fun c => A r c * x c) - m * sumn n (fun c => A i c * x c)
     else sumn n (fun c => A r c * x c)).
  { intro r. destruct (r =? j); [|reflexivity]. rewrite <- sumn_scal, <- sumn_minus.
    apply sumn_ext. intros; lra. }
  split; intros H r Hr.
  - rewrite E. destruct (Nat.eqb_spec r j); [|now apply H]. subst r. rewrite H, (H i) by lia. reflexivity.
  - pose proof (H r Hr) as K. cbv beta in K. rewrite E in K. destruct (Nat.eqb_spec r j); [|exact K]. subst r.
    pose proof (H i ltac:(lia)) as Ki. cbv beta in Ki. rewrite E in Ki. destruct (Nat.eqb_spec i j); [lia|].
    rewrite Ki in K. lra.
Qed.

Lemma fold_row_op_sol : forall n k i l A b x, (forall j, In j l -> (i < j)%nat) ->
  sol n k A b x <-> sol n k (fst (fold_left (row_op i) l (A, b))) (snd (fold_left (row_op i) l (A, b))) x.
Proof.
  induction l as [|j l IH]; intros A b x H; cbn [fold_left]; [reflexivity|].
  rewrite (row_op_sol n k i j A b x) by (apply H; now left).
  destruct (row_op i (A, b) j) as [A' b'] eqn:E. apply IH. intros; apply H; now right.
Qed.

Lemma eliminate_col_sol : forall n k i Ab x,
  sol n k (fst Ab) (snd Ab) x <-> sol n k (fst (eliminate_col n Ab i)) (snd (eliminate_col n Ab i)) x.
Proof.
  intros n k i [A b] x. unfold eliminate_col. apply fold_row_op_sol.
  intros j Hj. apply in_seq in Hj. lia.
Qed.

(** Closed form of one elimination column. *)
Lemma eliminate_col_form : forall i l A b, ~ In i l -> NoDup l ->
  forall r, (In r l -> (forall c, fst (fold_left (row_op i) l (A, b)) r c = A r c - A r i / A i i * A i c) /\
                       snd (fold_left (row_op i) l (A, b)) r = b r - A r i / A i i * b i) /\
            (~ In r l -> (forall c, fst (fold_left (row_op i) l (A, b)) r c = A r c) /\
                         snd (fold_left (row_op i) l (A, b)) r = b r).
Proof.
  induction l as [|j l IH]; intros A b Hi Hn r; cbn [fold_left].
  - split; [intros []|]. intros _. split; reflexivity.
  - inversion Hn; subst. destruct (row_op i (A, b) j) as [A' b'] eqn:E. cbn in E. injection E as <- <-.
    destruct (IH (fun r c => if r =? j then A r c - A j i / A i i * A i c else A r c)
                 (fun r => if r =? j then b r - A j i / A i i * b i else b r)
                 ltac:(intro K; apply Hi; now right) H2 r) as [I1 I2].
    assert (Ej : (i =? j) = false) by (apply Nat.eqb_neq; intro; subst; apply Hi; now left).
    split.
    + intros [<-|Hr].
      * destruct (I2 H1) as [J1 J2]. rewrite Nat.eqb_refl in *. split; [intro c; rewrite J1; reflexivity|exact J2].
      * destruct (I1 Hr) as [J1 J2]. rewrite Ej in *.
        assert (Er : (r =? j) = false) by (apply Nat.eqb_neq; intro; subst; contradiction). rewrite Er in *.
        split; [intro c; rewrite J1; reflexivity|exact J2].
    + intro Hr. destruct (I2 ltac:(intro K; apply Hr; now right)) as [J1 J2].
      assert (Er : (r =? j) = false) by (apply Nat.eqb_neq; intro; subst; apply Hr; now left). rewrite Er in *.
      split; [intro c; rewrite J1; reflexivity|exact J2].
Qed.

Definition stage (n : nat) (Ab : mat * vec) (i : nat) : mat * vec := fold_left (eliminate_col n) (seq 0 i) Ab.
Lemma stage_S : forall n Ab i, stage n Ab (S i) = eliminate_col n (stage n Ab i) i.
Proof. intros. unfold stage. rewrite seq_S, fold_left_app. reflexivity. Qed.

Lemma stage_sol : forall n k i Ab x,
  sol n k (fst Ab) (snd Ab) x <-> sol n k (fst (stage n Ab i)) (snd (stage n Ab i)) x.
Proof.
  induction i; intros Ab x; [reflexivity|]. rewrite stage_S, <- eliminate_col_sol. apply IHi.
Qed.

Lemma col_rows : forall n Ab i r,
  ((i < r < n)%nat -> (forall c, fst (eliminate_col n Ab i) r c = fst Ab r c - fst Ab r i / fst Ab i i * fst Ab i c) /\
     snd (eliminate_col n Ab i) r = snd Ab r - fst Ab r i / fst Ab i i * snd Ab i) /\
  (~ (i < r < n)%nat -> (forall c, fst (eliminate_col n Ab i) r c = fst Ab r c) /\ snd (eliminate_col n Ab i) r = snd Ab r).
Proof.
  intros n [A b] i r. unfold eliminate_col.
  destruct (eliminate_col_form i (seq (i + 1) (n - (i + 1))) A b) with (r := r) as [H1 H2].
  - rewrite in_seq. lia.
  - apply seq_NoDup.
  - split; intro H; [apply H1|apply H2]; rewrite in_seq; lia.
Qed.

(** Row r is final after stage r. *)
Lemma stage_row : forall n Ab i r c, (r <= i)%nat -> fst (stage n Ab i) r c = fst (stage n Ab r) r c.
Proof.
  induction i; intros r c H; [replace r with 0%nat by lia; reflexivity|].
  destruct (Nat.eq_dec r (S i)) as [->|]; [reflexivity|]. rewrite stage_S.
  destruct (col_rows n (stage n Ab i) i r) as [_ K]. destruct K as [K _]; [lia|]. rewrite K. apply IHi. lia.
Qed.

Definition upper (n i : nat) (A : mat) : Prop := forall r c, (c < i)%nat -> (c < r < n)%nat -> A r c = 0.

Lemma stage_upper : forall n Ab i, (forall k, (k < i)%nat -> fst (stage n Ab k) k k <> 0) ->
  upper n i (fst (stage n Ab i)).
Proof.
  induction i; intros H r c Hc Hr; [lia|]. rewrite stage_S.
  assert (U : upper n i (fst (stage n Ab i))) by (apply IHi; intros; apply H; lia).
  destruct (col_rows n (stage n Ab i) i r) as [K1 K2].
  destruct (Nat.eq_dec c i) as [->|].
  - destruct K1 as [K1 _]; [lia|]. rewrite K1. field. apply H. lia.
  - destruct (Nat.lt_ge_cases i r).
    + destruct K1 as [K1 _]; [lia|]. rewrite K1. rewrite (U r c), (U i c) by lia. lra.
    + destruct K2 as [K2 _]; [lia|]. rewrite K2. apply U; lia.
Qed.

(** Back substitution. *)
Lemma back_loop_high : forall n A b k x i, (k <= i)%nat -> back_loop n A b k x i = x i.
Proof.
  induction k; intros x i H; cbn; [reflexivity|]. rewrite IHk by lia. unfold back_step, set_vec.
  destruct (Nat.eqb_spec i k); [lia|reflexivity].
Qed.
Lemma back_loop_row : forall n A b k x r, (k <= n)%nat -> (r < k)%nat -> A r r <> 0 ->
  A r r * back_loop n A b k x r +
  sumn (n - (r + 1)) (fun c => A r (r + 1 + c)%nat * back_loop n A b k x (r + 1 + c)%nat) = b r.
Proof.
  induction k; intros x r Hk Hr Ha; [lia|]. cbn [back_loop].
  destruct (Nat.eq_dec r k) as [->|]; [|apply IHk; auto; lia].
  rewrite back_loop_high by lia.
  rewrite (sumn_ext _ _ (fun c => A k (k + 1 + c)%nat * x (k + 1 + c)%nat)).
  - unfold back_step at 1, set_vec. rewrite Nat.eqb_refl. field. exact Ha.
  - intros c _. rewrite back_loop_high by lia. unfold back_step, set_vec.
    destruct (Nat.eqb_spec (k + 1 + c) k); [lia|reflexivity].
Qed.

Lemma upper_row : forall n A y r, upper n r A -> (r < n)%nat ->
  sumn n (fun c => A r c * y c) = A r r * y r + sumn (n - (r + 1)) (fun c => A r (r + 1 + c)%nat * y (r + 1 + c)%nat).
Proof.
  intros n A y r U H. replace n with (r + (1 + (n - (r + 1))))%nat at 1 by lia.
  rewrite sumn_split, (sumn_0 r).
  - rewrite (sumn_split 1). cbn [sumn]. rewrite Nat.add_0_r.
    rewrite (sumn_ext _ (fun i => A r (r + (1 + i))%nat * y (r + (1 + i))%nat)
      (fun c => A r (r + 1 + c)%nat * y (r + 1 + c)%nat)); [lra|].
    intros i _. now rewrite Nat.add_assoc.
  - intros i Hi. rewrite (U r i) by lia. lra.
Qed.

Lemma gauss_solves : forall n A b, (1 <= n)%nat ->
  (forall k, (k < n)%nat -> fst (eliminate n A b) k k <> 0) -> solves n A b (solve_gauss n A b).
Proof.
  intros n A b Hn Hp.
  change (eliminate n A b) with (stage n (A, b) (n - 1)) in Hp.
  assert (Hp' : forall k, (k < n)%nat -> fst (stage n (A, b) k) k k <> 0).
  { intros k Hk. rewrite <- (stage_row n (A, b) (n - 1) k k) by lia. now apply Hp. }
  unfold solve_gauss. change (eliminate n A b) with (stage n (A, b) (n - 1)).
  change (sol n n (fst (A, b)) (snd (A, b)) (let (A', b') := stage n (A, b) (n - 1) in
     let x0 := set_vec (fun _ => 0) (n - 1) (b' (n - 1)%nat / A' (n - 1)%nat (n - 1)%nat) in back_loop n A' b' n x0)).
  rewrite (stage_sol n n (n - 1)).
  assert (U : upper n (n - 1) (fst (stage n (A, b) (n - 1)))) by (apply stage_upper; intros; apply Hp'; lia).
  destruct (stage n (A, b) (n - 1)) as [A' b'] eqn:E. cbn [fst snd] in *. cbv zeta.
  intros r Hr. rewrite upper_row; [|intros ? ? ? ?; apply U; lia|exact Hr].
  apply back_loop_row; auto.
Qed.

(** A vanishing pivot gives a null vector of the leading block. *)
Lemma stage_fst_indep : forall n A b b' i, fst (stage n (A, b) i) = fst (stage n (A, b') i) ->
  fst (stage n (A, b) (S i)) = fst (stage n (A, b') (S i)).
Proof.
  intros n A b b' i H. rewrite !stage_S. destruct (stage n (A, b) i) as [M v], (stage n (A, b') i) as [M' v'].
  cbn in H. subst M'. unfold eliminate_col. generalize (seq (i + 1) (n - (i + 1))). intro l. revert M v v'.
  induction l as [|j l IH]; intros; cbn [fold_left]; [reflexivity|]. apply IH.
Qed.
Lemma stage_mat_indep : forall n A b b' i, fst (stage n (A, b) i) = fst (stage n (A, b') i).
Proof. induction i; [reflexivity|]. now apply stage_fst_indep. Qed.
Lemma stage_zero : forall n A i r, snd (stage n (A, fun _ => 0) i) r = 0.
Proof.
  induction i; intro r; [reflexivity|]. rewrite stage_S.
  destruct (col_rows n (stage n (A, fun _ => 0) i) i r) as [K1 K2].
  destruct (Nat.lt_ge_cases i r); [destruct (Nat.lt_ge_cases r n)|].
  - destruct K1 as [_ ->]; [lia|]. rewrite !IHi. lra.
  - destruct K2 as [_ ->]; [lia|]. apply IHi.
  - destruct K2 as [_ ->]; [lia|]. apply IHi.
Qed.

Lemma singular_block : forall n A b i, (i < n)%nat ->
  (forall k, (k < i)%nat -> fst (stage n (A, b) k) k k <> 0) -> fst (stage n (A, b) i) i i = 0 ->
  exists y, y i = 1 /\ (forall c, (i < c)%nat -> y c = 0) /\
    forall r, (r <= i)%nat -> sumn n (fun c => A r c * y c) = 0.
Proof.
  intros n A b i Hi Hk H0.
  set (z := (fun _ => 0) : vec).
  assert (Hk' : forall k, (k < i)%nat -> fst (stage n (A, z) k) k k <> 0).
  { intros k H. rewrite (stage_mat_indep n A z b k). now apply Hk. }
  assert (H0' : fst (stage n (A, z) i) i i = 0) by (now rewrite (stage_mat_indep n A z b i)).
  pose proof (stage_upper n (A, z) i Hk') as U.
  set (S := fst (stage n (A, z) i)) in *.
  set (x0 := (fun c => if c =? i then 1 else 0) : vec).
  set (y := back_loop n S z i x0).
  assert (Yi : y i = 1) by (unfold y; rewrite back_loop_high by lia; unfold x0; now rewrite Nat.eqb_refl).
  assert (Yc : forall c, (i < c)%nat -> y c = 0).
  { intros c Hc. unfold y. rewrite back_loop_high by lia. unfold x0. destruct (Nat.eqb_spec c i); [lia|reflexivity]. }
  exists y. split; [exact Yi|]. split; [exact Yc|].
  assert (G : sol n (i + 1) S (snd (stage n (A, z) i)) y).
  { intros r Hr. rewrite stage_zero. rewrite upper_row; [|intros ? ? ? ?; apply U; lia|lia].
    destruct (Nat.eq_dec r i) as [->|].
    - rewrite H0'. rewrite sumn_0; [lra|]. intros c _. rewrite Yc by lia. lra.
    - unfold y. rewrite (back_loop_row n S z i x0 r) by
        (try lia; unfold S; rewrite (stage_row n (A, z) i r r) by lia; apply Hk'; lia). reflexivity. }
  unfold S in G. rewrite <- (stage_sol n (i + 1) i (A, z) y) in G.
  intros r Hr. apply (G r). lia.
Qed.

(** ** The bordered DIIS matrix *)
Lemma dot_sym : forall n u v, dot n u v = dot n v u.
Proof. intros. unfold dot. apply sumn_ext. intros; lra. Qed.

Definition gram (d : diis) (i j : nat) : R := dot (d_ndim d) (d_R d i) (d_R d j).
Lemma gram_sym : forall d i j, gram d i j = gram d j i.
Proof. intros. apply dot_sym. Qed.

Lemma fill_pair_form : forall d B i j r c,
  fill_pair d B i j r c = if ((r =? i) && (c =? j)) || ((r =? j) && (c =? i)) then gram d r c else B r c.
Proof.
  intros. unfold fill_pair, set_entry. fold (gram d i j).
  rewrite !Nat.eqb_refl. cbn [andb].
  destruct (Nat.eqb_spec r i), (Nat.eqb_spec c j), (Nat.eqb_spec r j), (Nat.eqb_spec c i); cbn [andb orb]; subst; auto using gram_sym.
Qed.

Lemma fold_inner_form : forall d i l B r c,
  fold_left (fun B j => fill_pair d B i j) l B r c =
  if existsb (fun j => ((r =? i) && (c =? j)) || ((r =? j) && (c =? i))) l then gram d r c else B r c.
Proof.
  induction l as [|j l IH]; intros B r c; cbn [fold_left existsb]; [reflexivity|].
  rewrite IH, fill_pair_form. destruct (existsb _ l), (((r =? i) && (c =? j)) || ((r =? j) && (c =? i))); reflexivity.
Qed.
Lemma fold_outer_form : forall d m l B r c,
  fold_left (fun B i => fold_left (fun B j => fill_pair d B i j) (seq i (m - i)) B) l B r c =
  if existsb (fun i => existsb (fun j => ((r =? i) && (c =? j)) || ((r =? j) && (c =? i))) (seq i (m - i))) l
  then gram d r c else B r c.
Proof.
  induction l as [|i l IH]; intros B r c; cbn [fold_left existsb]; [reflexivity|].
  rewrite IH, fold_inner_form. destruct (existsb _ l), (existsb _ (seq i (m - i))); reflexivity.
Qed.

Lemma build_B_form : forall d r c, (r <= d_size d)%nat -> (c <= d_size d)%nat ->
  build_B d r c = if (r <? d_size d) && (c <? d_size d) then gram d r c
                  else if (r =? d_size d) && (c =? d_size d) then 0 else -1.
Proof.
  intros d r c Hr Hc. unfold build_B. unfold set_entry at 1. rewrite fold_outer_form.
  set (m := d_size d) in *.
  destruct (Nat.eqb_spec r m); cbn [andb].
  - destruct (Nat.ltb_spec r m); [lia|]. cbn [andb]. destruct (Nat.eqb_spec c m); [reflexivity|].
    match goal with |- (if ?e then _ else _) = _ => destruct e eqn:E end; [|lra].
    apply existsb_exists in E as (i & Hi & E). apply existsb_exists in E as (j & Hj & E).
    apply in_seq in Hi, Hj. apply orb_true_iff in E as [E|E]; apply andb_true_iff in E as [E1 E2];
      apply Nat.eqb_eq in E1, E2; lia.
  - destruct (Nat.ltb_spec r m); [|lia]. cbn [andb].
    match goal with |- (if ?e then _ else _) = _ => destruct e eqn:E end.
    + apply existsb_exists in E as (i & Hi & E). apply existsb_exists in E as (j & Hj & E).
      apply in_seq in Hi, Hj. destruct (Nat.ltb_spec c m); [reflexivity|].
      apply orb_true_iff in E as [E|E]; apply andb_true_iff in E as [E1 E2];
      apply Nat.eqb_eq in E1, E2; lia.
    + destruct (Nat.ltb_spec c m); [|lra]. exfalso.
      assert (K : existsb (fun i => existsb (fun j => ((r =? i) && (c =? j)) || ((r =? j) && (c =? i))) (seq i (m - i))) (seq 0 m) = true).
      { apply existsb_exists. exists (Nat.min r c). split; [apply in_seq; lia|].
        apply existsb_exists. exists (Nat.max r c). split; [apply in_seq; lia|].
        apply orb_true_iff. destruct (Nat.le_gt_cases r c).
        - left. rewrite Nat.min_l, Nat.max_r by lia. now rewrite !Nat.eqb_refl.
        - right. rewrite Nat.min_r, Nat.max_l by lia. now rewrite !Nat.eqb_refl. }
      congruence.
Qed.

Definition system_solved (d : diis) (x : vec) : Prop :=
  (forall r, (r < d_size d)%nat -> sumn (d_size d) (fun c => gram d r c * x c) = x (d_size d)) /\ sumn (d_size d) x = 1.

Lemma bordered_row : forall d x r, (r < d_size d)%nat ->
  sumn (d_size d + 1) (fun c => build_B d r c * x c) = sumn (d_size d) (fun c => gram d r c * x c) - x (d_size d).
Proof.
  intros d x r Hr. rewrite Nat.add_1_r. cbn [sumn].
  rewrite (sumn_ext _ _ (fun c => gram d r c * x c)).
  - rewrite build_B_form by lia. destruct (Nat.ltb_spec r (d_size d)); [|lia].
    rewrite Nat.ltb_irrefl. cbn [andb]. destruct (Nat.eqb_spec r (d_size d)); [lia|]. cbn [andb]. lra.
  - intros c Hc. rewrite build_B_form by lia. destruct (Nat.ltb_spec r (d_size d)); [|lia].
    destruct (Nat.ltb_spec c (d_size d)); [|lia]. reflexivity.
Qed.
Lemma bordered_last : forall d x,
  sumn (d_size d + 1) (fun c => build_B d (d_size d) c * x c) = - sumn (d_size d) x.
Proof.
  intros d x. rewrite Nat.add_1_r. cbn [sumn].
  rewrite (sumn_ext _ _ (fun c => - x c)).
  - rewrite build_B_form by lia. rewrite Nat.ltb_irrefl, Nat.eqb_refl. cbn [andb]. rewrite sumn_opp. lra.
  - intros c Hc. rewrite build_B_form by lia. rewrite Nat.ltb_irrefl. cbn [andb].
    destruct (Nat.eqb_spec c (d_size d)); [lia|]. rewrite Bool.andb_false_r. lra.
Qed.

Lemma solves_bordered : forall d x, solves (d_size d + 1) (build_B d) (build_rhs d) x -> system_solved d x.
Proof.
  intros d x H. split.
  - intros r Hr. specialize (H r ltac:(lia)). rewrite bordered_row in H by exact Hr. unfold build_rhs in H.
    destruct (Nat.eqb_spec r (d_size d)); [lia|]. lra.
  - specialize (H (d_size d) ltac:(lia)). rewrite bordered_last in H. unfold build_rhs in H. rewrite Nat.eqb_refl in H. lra.
Qed.

(** Quadratic form of the Gram matrix. *)
Lemma gram_quad : forall d x y,
  sumn (d_size d) (fun r => y r * sumn (d_size d) (fun c => gram d r c * x c)) =
  sumn (d_ndim d) (fun p => combination (d_size d) y (d_R d) p * combination (d_size d) x (d_R d) p).
Proof.
  intros d x y. unfold combination, gram, dot.
  transitivity (sumn (d_size d) (fun r => sumn (d_size d) (fun c => sumn (d_ndim d) (fun p => (y r * d_R d r p) * (x c * d_R d c p))))).
  - apply sumn_ext. intros r _. rewrite <- sumn_scal. apply sumn_ext. intros c _.
    rewrite <- sumn_scal_r, <- sumn_scal. apply sumn_ext. intros; lra.
  - transitivity (sumn (d_size d) (fun r => sumn (d_ndim d) (fun p => sumn (d_size d) (fun c => (y r * d_R d r p) * (x c * d_R d c p))))).
    + apply sumn_ext. intros. apply sumn_swap.
    + rewrite sumn_swap. apply sumn_ext. intros p _. rewrite sumn_mult. reflexivity.
Qed.

Lemma diis_minimal : forall d x e, system_solved d x -> sumn (d_size d) e = 1 ->
  norm2 (d_ndim d) (combination (d_size d) e (d_R d)) =
  norm2 (d_ndim d) (combination (d_size d) x (d_R d)) +
  norm2 (d_ndim d) (combination (d_size d) (fun i => e i - x i) (d_R d)).
Proof.
  intros d x e [H1 H2] He.
  set (u := combination (d_size d) x (d_R d)). set (w := combination (d_size d) (fun i => e i - x i) (d_R d)).
  assert (E : forall p, combination (d_size d) e (d_R d) p = u p + w p).
  { intro p. unfold u, w, combination. rewrite <- sumn_plus. apply sumn_ext. intros; lra. }
  assert (X : sumn (d_ndim d) (fun p => w p * u p) = 0).
  { unfold u, w. rewrite <- gram_quad.
    rewrite (sumn_ext _ _ (fun r => (e r - x r) * x (d_size d))).
    - rewrite sumn_scal_r, sumn_minus, He, H2. lra.
    - intros r Hr. rewrite H1 by exact Hr. reflexivity. }
  unfold norm2. rewrite (sumn_ext _ _ (fun p => (u p * u p + w p * w p) + 2 * (w p * u p))).
  - rewrite !sumn_plus, sumn_scal, X. lra.
  - intros p _. rewrite E. lra.
Qed.

Lemma norm2_nonneg : forall n v, 0 <= norm2 n v.
Proof. intros. apply sumn_nonneg. intros. nra. Qed.
Lemma norm2_zero : forall n v, norm2 n v = 0 -> forall p, (p < n)%nat -> v p = 0.
Proof.
  intros n v H p Hp. assert (v p * v p = 0) by (apply (sumn_nonneg_0 n (fun p => v p * v p)); auto; intros; nra). nra.
Qed.

(** Linear independence of the residuals makes every pivot non-zero. *)
Lemma pivots_nonzero : forall d, (1 <= d_size d)%nat -> independent (d_size d) (d_ndim d) (d_R d) ->
  forall k, (k < d_size d + 1)%nat -> fst (stage (d_size d + 1) (build_B d, build_rhs d) k) k k <> 0.
Proof.
  intros d Hm Hind.
  assert (Null : forall y, (forall r, (r < d_size d)%nat -> y r * sumn (d_size d) (fun c => gram d r c * y c) = 0) ->
     forall i, (i < d_size d)%nat -> y i = 0).
  { intros y Hy. apply Hind. apply norm2_zero. unfold norm2. rewrite <- gram_quad. now apply sumn_0. }
  assert (Null' : forall y, sumn (d_size d) (fun r => y r * sumn (d_size d) (fun c => gram d r c * y c)) = 0 ->
     forall i, (i < d_size d)%nat -> y i = 0).
  { intros y Hy. apply Hind. apply norm2_zero. unfold norm2. now rewrite <- gram_quad. }
  induction k as [k IH] using lt_wf_ind. intros Hk K.
  destruct (singular_block (d_size d + 1) (build_B d) (build_rhs d) k Hk) as (y & Yk & Yc & Yr); auto.
  { intros j Hj. apply IH; lia. }
  destruct (Nat.eq_dec k (d_size d)) as [->|Hne].
  - assert (Z : forall i, (i < d_size d)%nat -> y i = 0).
    { apply Null'. rewrite (sumn_ext _ _ (fun r => y r * y (d_size d))).
      - rewrite sumn_scal_r. specialize (Yr (d_size d) (le_n _)). rewrite bordered_last in Yr.
        replace (sumn (d_size d) y) with 0 by lra. lra.
      - intros r Hr. specialize (Yr r ltac:(lia)). rewrite bordered_row in Yr by exact Hr. f_equal. lra. }
    specialize (Yr 0%nat ltac:(lia)). rewrite bordered_row in Yr by lia.
    rewrite sumn_0 in Yr; [|intros i Hi; rewrite Z by exact Hi; lra]. lra.
  - assert (Z : y k = 0); [|lra]. apply Null; [|lia].
    intros r Hr. destruct (Nat.le_gt_cases r k).
    + specialize (Yr r H). rewrite bordered_row in Yr by exact Hr. rewrite (Yc (d_size d)) in Yr by lia.
      replace (sumn (d_size d) (fun c => gram d r c * y c)) with 0 by lra. lra.
    + rewrite Yc by lia. lra.
Qed.

Lemma extrapolate_form : forall d p, extrapolate d p = combination (d_size d) (coefficients d) (d_T d) p.
Proof.
  intros d p. unfold extrapolate, combination. generalize (coefficients d). intro c.
  assert (G : forall m, fold_left (fun x i => fun p => x p + c i * d_T d i p) (seq 0 m) (fun _ => 0) p =
      sumn m (fun i => c i * d_T d i p)).
  { induction m; [reflexivity|]. rewrite seq_S, fold_left_app. cbn [fold_left Nat.add sumn]. now rewrite IHm. }
  apply G.
Qed.

(** Non-singular leading blocks: no pivot vanishes. *)
Lemma blocks_pivots : forall n A b, (forall k, (1 <= k <= n)%nat -> nonsingular_block k A) ->
  forall k, (k < n)%nat -> fst (stage n (A, b) k) k k <> 0.
Proof.
  intros n A b H. induction k as [k IH] using lt_wf_ind. intros Hk K.
  destruct (singular_block n A b k Hk) as (y & Yk & Yc & Yr); auto.
  { intros j Hj. apply IH; lia. }
  assert (Z : y k = 0); [|lra].
  apply (H (S k) ltac:(lia) y); [|lia]. intros r Hr.
  rewrite <- (Yr r ltac:(lia)). replace n with (S k + (n - S k))%nat by lia. rewrite sumn_split.
  rewrite (sumn_0 (n - S k)); [lra|]. intros i _. rewrite Yc by lia. lra.
Qed.

Lemma coefficients_system : forall d, (1 <= d_size d)%nat -> independent (d_size d) (d_ndim d) (d_R d) ->
  system_solved d (coefficients d).
Proof.
  intros d Hm Hi. apply solves_bordered. apply gauss_solves; [lia|].
  intros k Hk. change (eliminate (d_size d + 1) (build_B d) (build_rhs d)) with
    (stage (d_size d + 1) (build_B d, build_rhs d) (d_size d + 1 - 1)).
  rewrite stage_row by lia. now apply pivots_nonzero.
Qed.
