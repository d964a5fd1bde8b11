From Coq Require Import List Arith Bool Lia Reals Lra Permutation Sorted.
From Verif Require Import Base SortModel SortSpec.
Import ListNotations.

Section Generic.
Variable before : nat -> nat -> bool.
Definition le (x y : nat) : Prop := before y x = false.
Hypothesis asym : forall x y, before x y = true -> before y x = false.
Hypothesis trans : forall x y z, le x y -> le y z -> le x z.

Lemma merge_nil_r : forall l, merge before l [] = l.
Proof. now destruct l. Qed.
Lemma merge_nil_l : forall l, merge before [] l = l.
Proof. now destruct l. Qed.
Lemma merge_cons : forall x r1 y r2, merge before (x :: r1) (y :: r2) =
  if before x y then x :: merge before r1 (y :: r2) else y :: merge before (x :: r1) r2.
Proof. reflexivity. Qed.

Lemma merge_perm : forall l1 l2, Permutation (l1 ++ l2) (merge before l1 l2).
Proof.
  induction l1 as [|x r1 IH]; intros l2; [rewrite merge_nil_l; apply Permutation_refl|].
  induction l2 as [|y r2 IH2]; [rewrite merge_nil_r, app_nil_r; apply Permutation_refl|].
  rewrite merge_cons. destruct (before x y).
  - cbn [app]. apply perm_skip. apply IH.
  - eapply Permutation_trans; [symmetry; apply Permutation_middle|]. apply perm_skip. apply IH2.
Qed.
Lemma merge_length : forall l1 l2, length (merge before l1 l2) = length l1 + length l2.
Proof. intros. rewrite <- (Permutation_length (merge_perm l1 l2)), app_length. reflexivity. Qed.

Lemma merge_sorted : forall l1 l2, StronglySorted le l1 -> StronglySorted le l2 -> StronglySorted le (merge before l1 l2).
Proof.
  induction l1 as [|x r1 IH]; intros l2 S1 S2; [now rewrite merge_nil_l|].
  induction l2 as [|y r2 IH2]; [now rewrite merge_nil_r|].
  rewrite merge_cons. inversion S1 as [|? ? S1' F1]; inversion S2 as [|? ? S2' F2]; subst.
  destruct (before x y) eqn:B.
  - constructor; [apply IH; auto|]. eapply Permutation_Forall; [apply merge_perm|]. apply Forall_app. split; [exact F1|].
    constructor; [apply asym; exact B|]. eapply Forall_impl; [|exact F2]. intros z Hz. eapply trans; [apply asym; exact B|exact Hz].
  - constructor; [apply IH2; auto|]. eapply Permutation_Forall; [apply merge_perm|]. apply Forall_app. split; [|exact F2].
    constructor; [exact B|]. eapply Forall_impl; [|exact F1]. intros z Hz. eapply trans; [exact B|exact Hz].
Qed.

(** Runs of length w. *)
Definition runs (w : nat) (d : list nat) : Prop := forall m, StronglySorted le (firstn w (skipn (m * w) d)).

Lemma sorted_firstn : forall k l, StronglySorted le l -> StronglySorted le (firstn k l).
Proof.
  induction k as [|k IH]; intros l H; [constructor|]. destruct l as [|x l]; [constructor|]. inversion H; subst. cbn. constructor; [auto|].
  rewrite <- (firstn_skipn k l) in H3. apply Forall_app in H3. tauto.
Qed.

Lemma block_split : forall n w (d : list nat) left, length d = n -> 1 <= left -> left + w <= n ->
  let k := Nat.min (w * 2) (n - left + 1) in
  d = firstn (left - 1) d ++ (firstn w (skipn (left - 1) d) ++ firstn (k - w) (skipn (left - 1 + w) d)) ++ skipn (left - 1 + k) d.
Proof.
  intros n w d left L H1 H2 k.
  assert (E : firstn w (skipn (left - 1) d) ++ firstn (k - w) (skipn (left - 1 + w) d) = firstn k (skipn (left - 1) d)).
  { rewrite <- skipn_skipn.
    rewrite <- (firstn_skipn w (firstn k (skipn (left - 1) d))). rewrite firstn_firstn, skipn_firstn_comm.
    replace (Nat.min w k) with w by lia. reflexivity. }
  rewrite E. rewrite <- skipn_skipn, firstn_skipn, firstn_skipn. reflexivity.
Qed.
Lemma block_perm : forall n w (d : list nat) left, length d = n -> 1 <= left -> left + w <= n -> Permutation d (merge_block before n w d left).
Proof.
  intros n w d left L H1 H2. unfold merge_block. set (k := Nat.min (w * 2) (n - left + 1)).
  rewrite (block_split n w d left L H1 H2) at 1. fold k. apply Permutation_app_head, Permutation_app_tail, merge_perm.
Qed.

Lemma lefts_bound : forall n w left, In left (lefts n w) -> 1 <= left /\ (0 < w -> left + w <= n).
Proof.
  intros n w left. unfold lefts. destruct (w <? n) eqn:E; [|intros []]. apply Nat.ltb_lt in E.
  intros H. apply in_map_iff in H as (m & <- & H). apply in_seq in H. split; [lia|]. intros W.
  assert (m * (w * 2) <= n - w - 1); [|lia].
  assert (m <= (n - w - 1) / (w * 2)) by lia. apply Nat.le_trans with ((n - w - 1) / (w * 2) * (w * 2)); [apply Nat.mul_le_mono_r; lia|].
  rewrite Nat.mul_comm. apply Nat.mul_div_le. lia.
Qed.
Lemma pass_perm : forall n w (d : list nat), 0 < w -> length d = n -> Permutation d (pass before n w d).
Proof.
  intros n w d W L. unfold pass.
  assert (G : forall ls d, (forall left, In left ls -> 1 <= left /\ left + w <= n) -> length d = n ->
    Permutation d (fold_left (merge_block before n w) ls d)).
  { induction ls as [|x ls IH]; intros d' H Ld; [apply Permutation_refl|]. cbn [fold_left].
    destruct (H x (or_introl eq_refl)). pose proof (block_perm n w d' x Ld H0 H1) as P.
    eapply Permutation_trans; [exact P|]. apply IH; [intros; apply H; now right|]. now rewrite <- (Permutation_length P). }
  apply G; [|exact L]. intros left H. destruct (lefts_bound n w left H). auto.
Qed.

Lemma firstn_app_exact : forall A (a b : list A) k, length a = k -> firstn k (a ++ b) = a.
Proof. intros A a b k <-. rewrite firstn_app, Nat.sub_diag, firstn_all. cbn. apply app_nil_r. Qed.
Lemma skipn_app_exact : forall A (a b : list A) k, length a = k -> skipn k (a ++ b) = b.
Proof. intros A a b k <-. rewrite skipn_app, Nat.sub_diag, skipn_all. reflexivity. Qed.

Lemma firstn_S_nth : forall A (d : A) m l, m < length l -> firstn (S m) l = firstn m l ++ [nth m l d].
Proof.
  intros A d. induction m as [|m IH]; intros [|x l] H; cbn in H; try lia; [reflexivity|].
  cbn [firstn nth app]. f_equal. apply IH. lia.
Qed.
(** After [m] blocks: the first m blocks of length 2w are sorted, the rest is untouched. *)
Lemma pass_blocks : forall n w (d : list nat), 0 < w -> length d = n -> runs w d ->
  forall m, m <= length (lefts n w) ->
  let d' := fold_left (merge_block before n w) (firstn m (lefts n w)) d in
  length d' = n /\ (forall j, j < m -> StronglySorted le (firstn (w * 2) (skipn (j * (w * 2)) d'))) /\
  skipn (m * (w * 2)) d' = skipn (m * (w * 2)) d.
Proof.
  intros n w d W L Rn. induction m as [|m IH]; intros Hm d'.
  - subst d'. cbn. split; [exact L|]. split; [intros; lia|reflexivity].
  - destruct IH as (L1 & S1 & K1); [lia|]. set (d1 := fold_left (merge_block before n w) (firstn m (lefts n w)) d) in *.
    assert (Eleft : nth m (lefts n w) 0 = 1 + m * (w * 2)).
    { unfold lefts in *. destruct (w <? n); [|cbn in Hm; lia]. rewrite map_length, seq_length in Hm.
      rewrite nth_indep with (d' := (fun m => 1 + m * (w * 2)) 0) by (rewrite map_length, seq_length; lia).
      rewrite (map_nth (fun m => 1 + m * (w * 2))), seq_nth by lia. f_equal. }
    assert (In_left : In (1 + m * (w * 2)) (lefts n w)) by (rewrite <- Eleft; apply nth_In; lia).
    destruct (lefts_bound n w _ In_left) as (B1 & B2). specialize (B2 W).
    assert (Ed : d' = merge_block before n w d1 (1 + m * (w * 2))).
    { subst d' d1. rewrite (firstn_S_nth _ 0) by lia. rewrite fold_left_app. cbn [fold_left]. now rewrite Eleft. }
    clearbody d'. subst d'. unfold merge_block. replace (1 + m * (w * 2) - 1) with (m * (w * 2)) by lia.
    set (off := m * (w * 2)) in *. set (k := Nat.min (w * 2) (n - (1 + off) + 1)).
    assert (Sm : S m * (w * 2) = w * 2 + off) by (subst off; lia). rewrite Sm.
    assert (Lf : length (firstn off d1) = off) by (rewrite firstn_length; lia).
    assert (LA : length (firstn w (skipn off d1)) = w) by (rewrite firstn_length, skipn_length; lia).
    assert (LB : length (firstn (k - w) (skipn (off + w) d1)) = k - w) by (rewrite firstn_length, skipn_length; lia).
    set (A := firstn w (skipn off d1)) in *. set (Bk := firstn (k - w) (skipn (off + w) d1)) in *.
    assert (LM : length (merge before A Bk) = k) by (rewrite merge_length; lia).
    split; [|split].
    + rewrite !app_length, skipn_length, Lf, LM. lia.
    + intros j Hj. destruct (Nat.eq_dec j m) as [->|N].
      * fold off. rewrite skipn_app_exact by exact Lf.
        assert (SM : StronglySorted le (merge before A Bk)).
        { apply merge_sorted.
          - subst A. replace off with (2 * m * w) in K1 |- * by (subst off; lia). rewrite K1. apply Rn.
          - subst Bk. rewrite <- skipn_skipn, K1, skipn_skipn.
            replace (off + w) with ((2 * m + 1) * w) by (subst off; lia).
            assert (k - w <= w) by lia. rewrite <- (Nat.min_l (k - w) w H), <- firstn_firstn. apply sorted_firstn, Rn. }
        destruct (Nat.le_gt_cases (w * 2) k) as [C|C].
        -- rewrite firstn_app_exact by lia. exact SM.
        -- rewrite firstn_all2; [|rewrite app_length, skipn_length; lia].
           rewrite skipn_all2 by lia. rewrite app_nil_r. exact SM.
      * assert (Hlt : j * (w * 2) + w * 2 <= off) by (subst off; nia).
        specialize (S1 j ltac:(lia)).
        assert (E : firstn (w * 2) (skipn (j * (w * 2)) (firstn off d1 ++ merge before A Bk ++ skipn (off + k) d1))
                  = firstn (w * 2) (skipn (j * (w * 2)) d1)).
        { rewrite skipn_app, firstn_app. replace (w * 2 - length (skipn (j * (w * 2)) (firstn off d1))) with 0
            by (rewrite skipn_length, Lf; lia).
          cbn [firstn]. rewrite app_nil_r, skipn_firstn_comm, firstn_firstn. f_equal. lia. }
        rewrite E. exact S1.
    + destruct (Nat.le_gt_cases (w * 2) k) as [C|C].
      * assert (k = w * 2) by lia. rewrite app_assoc. rewrite skipn_app_exact by (rewrite app_length, Lf, LM; lia).
        replace (off + k) with (off + w * 2) by lia. replace (w * 2 + off) with (off + w * 2) by lia. rewrite <- !skipn_skipn, K1. reflexivity.
      * rewrite !skipn_all2; [reflexivity|lia|]. rewrite !app_length, Lf, LM, skipn_length. lia.
Qed.

Lemma pass_runs : forall n w (d : list nat), 0 < w -> w < n -> length d = n -> runs w d -> runs (w * 2) (pass before n w d).
Proof.
  intros n w d W Wn L Rn m. destruct (pass_blocks n w d W L Rn (length (lefts n w)) (Nat.le_refl _)) as (L1 & S1 & K1).
  rewrite firstn_all in *. fold (pass before n w d) in *.
  destruct (Nat.lt_ge_cases m (length (lefts n w))) as [H|H]; [now apply S1|].
  assert (T : n <= length (lefts n w) * (w * 2) + w).
  { unfold lefts. apply Nat.ltb_lt in Wn as E. rewrite E, map_length, seq_length.
    pose proof (Nat.div_mod (n - w - 1) (w * 2) ltac:(lia)) as D. pose proof (Nat.mod_upper_bound (n - w - 1) (w * 2) ltac:(lia)). nia. }
  set (T0 := length (lefts n w)) in *.
  destruct (Nat.eq_dec m T0) as [->|N].
  - rewrite K1. destruct (Nat.eq_dec w 0); [lia|].
    rewrite firstn_all2; [|rewrite skipn_length; lia].
    replace (T0 * (w * 2)) with (2 * T0 * w) by lia. specialize (Rn (2 * T0)).
    rewrite firstn_all2 in Rn; [exact Rn|]. rewrite skipn_length. lia.
  - rewrite skipn_all2; [rewrite firstn_nil; constructor|]. rewrite L1. nia.
Qed.

Lemma passes_correct : forall n fuel k (d : list nat), length d = n -> runs (2 ^ k) d -> n <= 2 ^ k + fuel ->
  Permutation d (passes before fuel n (2 ^ k) d) /\ StronglySorted le (passes before fuel n (2 ^ k) d).
Proof.
  intros n. induction fuel as [|f IH]; intros k d L Rn F; cbn [passes].
  - split; [apply Permutation_refl|]. specialize (Rn 0). cbn [Nat.mul skipn] in Rn. rewrite firstn_all2 in Rn by lia. exact Rn.
  - destruct (2 ^ k <? n) eqn:E.
    + apply Nat.ltb_lt in E. assert (P0 : 0 < 2 ^ k) by (apply Nat.neq_0_lt_0, Nat.pow_nonzero; lia).
      pose proof (pass_perm n (2 ^ k) d P0 L) as P. pose proof (pass_runs n (2 ^ k) d P0 E L Rn) as R2.
      replace (2 ^ k * 2) with (2 ^ S k) in * by (cbn; lia).
      destruct (IH (S k) (pass before n (2 ^ k) d)) as (Q1 & Q2); auto.
      * now rewrite <- (Permutation_length P).
      * cbn. lia.
      * split; [|exact Q2]. eapply Permutation_trans; eassumption.
    + apply Nat.ltb_ge in E. split; [apply Permutation_refl|]. specialize (Rn 0). cbn [Nat.mul skipn] in Rn. rewrite firstn_all2 in Rn by lia. exact Rn.
Qed.

Theorem argsort_by_correct : forall n, Permutation (seq 1 n) (argsort_by before n) /\ StronglySorted le (argsort_by before n).
Proof.
  intros n. unfold argsort_by. destruct (n =? 1) eqn:E.
  - apply Nat.eqb_eq in E as ->. split; [apply Permutation_refl|]. repeat constructor.
  - apply (passes_correct n n 0).
    + apply seq_length.
    + intros m. rewrite Nat.pow_0_r, Nat.mul_1_r. destruct (skipn m (seq 1 n)); cbn; repeat constructor.
    + cbn. lia.
Qed.
End Generic.

Lemma StronglySorted_nth : forall A (Rel : A -> A -> Prop) l d, StronglySorted Rel l ->
  forall p q, p < q -> q < length l -> Rel (nth p l d) (nth q l d).
Proof.
  induction l as [|x l IH]; intros d S p q H1 H2; [cbn in H2; lia|]. inversion S as [|? ? S' F]; subst. cbn in H2.
  destruct p as [|p], q as [|q]; try lia; cbn [nth].
  - rewrite Forall_forall in F. apply F. apply nth_In. lia.
  - apply IH; auto; lia.
Qed.

Lemma argsort_correct : forall r, index_vector (length r) (argsort r) /\ ascending r (argsort r).
Proof.
  intros r. unfold argsort. set (bf := fun x y => _).
  destruct (argsort_by_correct bf) with (n := length r) as (P & S).
  - subst bf. cbv beta. intros x y H. apply Nat.ltb_lt in H. apply Nat.ltb_ge. lia.
  - subst bf. unfold le. intros x y z H1 H2. apply Nat.ltb_ge in H1, H2. apply Nat.ltb_ge. lia.
  - split; [exact P|]. intros p q H1 H2. pose proof (StronglySorted_nth _ _ _ 0 S p q H1 H2) as K. subst bf. unfold le in K.
    apply Nat.ltb_ge in K. exact K.
Qed.
Lemma argsort_r8_correct : forall r, index_vector (length r) (argsort_r8_descend r) /\ descending r (argsort_r8_descend r).
Proof.
  intros r. unfold argsort_r8_descend. set (bf := fun x y => _).
  assert (B : forall x y, bf x y = false <-> (nth (x - 1) r 0 <= nth (y - 1) r 0)%R).
  { intros. subst bf. cbv beta. destruct (Rlt_dec _ _); split; intros; try lra; try discriminate; reflexivity. }
  destruct (argsort_by_correct bf) with (n := length r) as (P & S).
  - intros x y H. apply B. subst bf. cbv beta in H. destruct (Rlt_dec _ _); [lra|discriminate].
  - unfold le. intros x y z H1 H2. apply B in H1, H2. apply B. lra.
  - split; [exact P|]. intros p q H1 H2. pose proof (StronglySorted_nth _ _ _ 0 S p q H1 H2) as K. apply B in K. exact K.
Qed.

(** ** sort3, sort4 *)
Lemma take_perm : forall A (d : A) l idx, Permutation (seq 1 (length l)) idx -> Permutation l (take d l idx).
Proof.
  intros A d l idx P. unfold take. eapply Permutation_trans; [|apply Permutation_map; exact P].
  assert (E : map (fun i => nth (i - 1) l d) (seq 1 (length l)) = l); [|rewrite E; apply Permutation_refl].
  rewrite <- seq_shift, map_map. etransitivity; [|apply map_nth_seq with (d := d)]. apply map_ext. intros. f_equal. lia.
Qed.

Section Blocks.
Variable row : Type.
Variable dflt : row.
Variable key : row -> nat.

Lemma sort_rows_perm : forall rows, Permutation rows (sort_rows dflt key rows).
Proof. intros. apply take_perm. rewrite <- (map_length key). apply argsort_correct. Qed.
Lemma sort_rows_sorted : forall rows p q, p < q -> q < length rows ->
  key (nth p (sort_rows dflt key rows) dflt) <= key (nth q (sort_rows dflt key rows) dflt).
Proof.
  intros rows p q H1 H2. destruct (argsort_correct (map key rows)) as (P & A). fold (sort_index key rows) in *.
  pose proof (Permutation_length P) as Lp. rewrite seq_length, map_length in Lp.
  unfold sort_rows, take. set (idx := sort_index key rows) in *.
  assert (G : forall m, m < length idx -> key (nth m (map (fun i => nth (i - 1) rows dflt) idx) dflt) = nth (nth m idx 0 - 1) (map key rows) 0).
  { intros m Hm. rewrite nth_indep with (d' := (fun i => nth (i - 1) rows dflt) 0) by (rewrite map_length; lia).
    rewrite (map_nth (fun i => nth (i - 1) rows dflt)). assert (I : In (nth m idx 0) (seq 1 (length (map key rows)))) by (eapply Permutation_in; [symmetry; exact P|apply nth_In; lia]).
    apply in_seq in I. rewrite map_length in I.
    rewrite (nth_indep (map key rows) 0 (key dflt)) by (rewrite map_length; lia). now rewrite map_nth. }
  rewrite !G by lia. apply A; lia.
Qed.

Definition sorted_by (rows : list row) : Prop :=
  forall p q, p < q -> q < length rows -> key (nth p rows dflt) <= key (nth q rows dflt).

(** State of loc_arr after m comparisons, on a sorted list. *)
Lemma loc_loop_inv : forall rows, sorted_by rows -> forall m, m < length rows ->
  let loc := fold_left (loc_step dflt key rows) (seq 1 m) (fun _ => (1, 0)) in
  forall t,
    (forall p, p <= m -> key (nth p rows dflt) = t -> fst (loc t) <= p + 1 /\ (t <> key (nth m rows dflt) -> p + 1 <= snd (loc t))) /\
    (forall p, p <= m -> key (nth p rows dflt) <> t ->
       (fst (loc t) <= p + 1 -> p + 1 <= snd (loc t) -> False) /\ (t = key (nth m rows dflt) -> p + 1 < fst (loc t))) /\
    (snd (loc t) <= m) /\ ((forall p, p <= m -> key (nth p rows dflt) <> t) -> loc t = (1, 0)) /\ 1 <= fst (loc t).
Proof.
  intros rows So. induction m as [|m IH]; intros Hm loc t.
  - subst loc. cbn. repeat split.
    + lia.
    + intros. replace p with 0 in * by lia. congruence.
    + lia.
    + intros. replace p with 0 in * by lia. congruence.
    + lia.
    + lia.
  - assert (Hm' : m < length rows) by lia. specialize (IH Hm').
    assert (E : loc = loc_step dflt key rows (fold_left (loc_step dflt key rows) (seq 1 m) (fun _ => (1, 0))) (S m)).
    { subst loc. rewrite seq_S, fold_left_app. reflexivity. }
    clearbody loc. set (loc0 := fold_left _ (seq 1 m) _) in *. cbv zeta in IH. clearbody loc0.
    unfold loc_step in E. replace (S m - 1) with m in E by lia.
    set (t1 := key (nth m rows dflt)) in *. set (t2 := key (nth (S m) rows dflt)) in *.
    assert (T12 : t1 <= t2) by (apply So; lia).
    assert (Tp : forall p, p <= m -> key (nth p rows dflt) <= t1).
    { intros p Hp. destruct (Nat.eq_dec p m) as [->|]; [reflexivity|]. apply So; lia. }
    destruct (IH t) as (I1 & I2 & I3 & I4 & I5).
    destruct (t1 =? t2) eqn:Q; cbn [negb] in E.
    + apply Nat.eqb_eq in Q. subst loc. rewrite <- Q.
      split; [|split; [|split; [|split]]].
      * intros p Hp Hk. destruct (Nat.eq_dec p (S m)) as [->|].
        -- fold t2 in Hk. destruct (I1 m (Nat.le_refl _) ltac:(fold t1; lia)). split; [lia|intros; congruence].
        -- apply I1; [lia|exact Hk].
      * intros p Hp Hk. destruct (Nat.eq_dec p (S m)) as [->|].
        -- fold t2 in Hk. split; [intros; lia|intros; congruence].
        -- apply I2; [lia|exact Hk].
      * lia.
      * intros H. apply I4. intros p Hp. apply H. lia.
      * exact I5.
    + apply Nat.eqb_neq in Q. assert (T12' : t1 < t2) by lia.
      destruct (IH t2) as (J1 & J2 & J3 & J4 & J5).
      assert (F2 : loc0 t2 = (1, 0)) by (apply J4; intros p Hp; specialize (Tp p Hp); lia).
      assert (Et : loc t = if t =? t2 then (S m + 1, snd (if t =? t1 then (fst (loc0 t), S m) else loc0 t))
                           else if t =? t1 then (fst (loc0 t), S m) else loc0 t).
      { subst loc. unfold set_start, set_end. reflexivity. }
      destruct (t =? t2) eqn:Q2; [apply Nat.eqb_eq in Q2|apply Nat.eqb_neq in Q2].
      * assert (t =? t1 = false) as Q1 by (apply Nat.eqb_neq; lia). rewrite Q1, Q2, F2 in Et. rewrite Q2.
        rewrite Et. cbn [fst snd]. split; [|split; [|split; [|split]]].
        -- intros p Hp Hk. destruct (Nat.eq_dec p (S m)) as [->|]; [split; [lia|intros; congruence]|]. specialize (Tp p ltac:(lia)). lia.
        -- intros p Hp Hk. split; [intros; lia|]. intros _. destruct (Nat.eq_dec p (S m)) as [->|]; [fold t2 in Hk; congruence|lia].
        -- lia.
        -- intros H. exfalso. apply (H (S m)); [lia|]. reflexivity.
        -- lia.
      * destruct (t =? t1) eqn:Q1; [apply Nat.eqb_eq in Q1|apply Nat.eqb_neq in Q1]; rewrite Et; cbn [fst snd].
        -- split; [|split; [|split; [|split]]].
           ++ intros p Hp Hk. destruct (Nat.eq_dec p (S m)) as [->|]; [fold t2 in Hk; lia|].
              destruct (I1 p ltac:(lia) Hk). split; [lia|]. intros. lia.
           ++ intros p Hp Hk. destruct (Nat.eq_dec p (S m)) as [->|]; [split; [intros; lia|intros; lia]|].
              destruct (I2 p ltac:(lia) Hk) as (_ & K). specialize (K Q1). split; [intros; lia|intros; lia].
           ++ lia.
           ++ intros H. exfalso. apply (H m); [lia|]. fold t1. congruence.
           ++ exact I5.
        -- split; [|split; [|split; [|split]]].
           ++ intros p Hp Hk. destruct (Nat.eq_dec p (S m)) as [->|]; [fold t2 in Hk; lia|].
              destruct (I1 p ltac:(lia) Hk) as (K1 & K2). split; [lia|]. intros _. apply K2. congruence.
           ++ intros p Hp Hk. destruct (Nat.eq_dec p (S m)) as [->|]; [split; [intros; lia|intros; congruence]|].
              destruct (I2 p ltac:(lia) Hk) as (K & _). split; [exact K|intros; congruence].
           ++ lia.
           ++ intros H. apply I4. intros p Hp. apply H. lia.
           ++ exact I5.
Qed.

(** The visited positions are those of the rows with the wanted key. *)
Definition delimits (loc : locs) (rows : list row) : Prop := forall t,
  (forall p, p < length rows -> (key (nth p rows dflt) = t <-> fst (loc t) <= p + 1 <= snd (loc t))) /\
  snd (loc t) <= length rows /\ 1 <= fst (loc t).

Lemma last_nth : forall (l : list row), last l dflt = nth (length l - 1) l dflt.
Proof.
  intros [|x l]; [reflexivity|]. destruct (exists_last (l := x :: l)) as (l' & y & ->); [discriminate|].
  rewrite last_last, app_length, app_nth2; cbn [length]; [|lia]. replace (length l' + 1 - 1 - length l') with 0 by lia. reflexivity.
Qed.
Lemma final_delimits : forall rows, sorted_by rows -> 1 <= length rows ->
  delimits (set_end (loc_loop dflt key rows) (key (last rows dflt)) (length rows)) rows.
Proof.
  intros rows So L t. pose proof (loc_loop_inv rows So (length rows - 1) ltac:(lia) t) as H. cbv zeta in H. fold (loc_loop dflt key rows) in H.
  rewrite last_nth. set (loc := loc_loop dflt key rows) in *. destruct H as (I1 & I2 & I3 & I4 & I5).
  unfold set_end. destruct (t =? key (nth (length rows - 1) rows dflt)) eqn:Q; cbn [fst snd]; [apply Nat.eqb_eq in Q|apply Nat.eqb_neq in Q].
  - split; [|lia]. intros p Hp. split.
    + intros Hk. destruct (I1 p ltac:(lia) Hk). lia.
    + intros H. destruct (Nat.eq_dec (key (nth p rows dflt)) t) as [|N]; [assumption|]. destruct (I2 p ltac:(lia) N) as (_ & K). specialize (K Q). lia.
  - split; [|lia]. intros p Hp. split.
    + intros Hk. destruct (I1 p ltac:(lia) Hk) as (K1 & K2). specialize (K2 Q). lia.
    + intros H. destruct (Nat.eq_dec (key (nth p rows dflt)) t) as [|N]; [assumption|]. destruct (I2 p ltac:(lia) N) as (K & _). exfalso. apply K; lia.
Qed.

(** A block of consecutive positions is a filter. *)
Lemma block_filter : forall (P : row -> bool) rows a b, 1 <= a -> b <= length rows ->
  (forall p, p < length rows -> (P (nth p rows dflt) = true <-> a <= p + 1 <= b)) ->
  map (fun j => nth (j - 1) rows dflt) (seq a (b + 1 - a)) = filter P rows.
Proof.
  intros P. induction rows as [|r rows IH] using rev_ind; intros a b Ha Hb H.
  - cbn in Hb. replace (b + 1 - a) with 0 by lia. reflexivity.
  - rewrite app_length in *. cbn [length] in *. rewrite filter_app. cbn [filter].
    assert (Hr : P r = true <-> a <= length rows + 1 <= b).
    { specialize (H (length rows) ltac:(lia)). rewrite app_nth2, Nat.sub_diag in H by lia. exact H. }
    assert (Hrows : forall p, p < length rows -> (P (nth p rows dflt) = true <-> a <= p + 1 <= b)).
    { intros p Hp. specialize (H p ltac:(lia)). rewrite app_nth1 in H by lia. exact H. }
    assert (Ext : forall c k, 1 <= c -> c + k <= length rows + 1 -> map (fun j => nth (j - 1) (rows ++ [r]) dflt) (seq c k) = map (fun j => nth (j - 1) rows dflt) (seq c k)).
    { intros c k Hc Hk. apply map_ext_in. intros j Hj. apply in_seq in Hj. apply app_nth1. lia. }
    destruct (P r) eqn:Pr.
    + destruct (proj1 Hr eq_refl) as (K1 & K2). assert (b = length rows + 1) by lia. subst b.
      replace (length rows + 1 + 1 - a) with (S (length rows + 1 - a)) by lia. rewrite seq_S, map_app. cbn [map].
      replace (a + (length rows + 1 - a) - 1) with (length rows) by lia. rewrite app_nth2, Nat.sub_diag by lia. cbn [nth].
      f_equal. rewrite Ext by lia. replace (length rows + 1 - a) with (length rows + 1 - a) by lia.
      rewrite <- (IH a (length rows)); [reflexivity|lia|lia|]. intros p Hp. rewrite Hrows by lia. lia.
    + assert (~ (a <= length rows + 1 <= b)) by (intros K; apply Hr in K; discriminate).
      rewrite app_nil_r. rewrite <- (IH a (Nat.min b (length rows))); [|lia|lia|intros p Hp; rewrite Hrows by lia; lia].
      destruct (Nat.le_gt_cases b (length rows)).
      * rewrite Nat.min_l by lia. destruct (Nat.le_gt_cases a b); [apply Ext; lia|].
        replace (b + 1 - a) with 0 by lia. reflexivity.
      * replace (b + 1 - a) with 0 by lia. replace (Nat.min b (length rows) + 1 - a) with 0 by lia. reflexivity.
Qed.
Lemma visited_filter : forall loc rows, delimits loc rows ->
  forall t, take dflt rows (visited loc t) = filter (fun r => key r =? t) rows.
Proof.
  intros loc rows D t. destruct (D t) as (H & L & F). unfold take, visited. apply block_filter; auto.
  intros p Hp. rewrite Nat.eqb_eq. now apply H.
Qed.
End Blocks.
