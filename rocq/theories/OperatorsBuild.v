(** Lemmas about the operator constructors: the entries they produce satisfy the layout conditions. *)
From Coq Require Import List Arith Bool Lia.
From Verif Require Import Base OperatorsModel OperatorsSpec OperatorsProofs.
Import ListNotations.

Lemma NoDup_app_intro : forall X (l l' : list X), NoDup l -> NoDup l' ->
  (forall x, In x l -> ~ In x l') -> NoDup (l ++ l').
Proof.
  induction 1; intros H' D; cbn; [assumption|]. constructor.
  - rewrite in_app_iff. intros [K|K]; [contradiction|]. apply (D x); [now left|assumption].
  - apply IHNoDup; [assumption|]. intros; apply D; now right.
Qed.

Lemma NoDup_map_flat_map : forall X Y Z (g : Y -> Z) (f : X -> list Y) l,
  NoDup l -> (forall a, In a l -> NoDup (map g (f a))) ->
  (forall a b z, In a l -> In b l -> In z (map g (f a)) -> In z (map g (f b)) -> a = b) ->
  NoDup (map g (flat_map f l)).
Proof.
  induction 1; intros H1 H2; cbn; [constructor|]. rewrite map_app. apply NoDup_app_intro.
  - apply H1. now left.
  - apply IHNoDup; [intros; apply H1; now right|]. intros; eapply H2; eauto; now right.
  - intros z Hz K. rewrite in_map_iff in K. destruct K as (y & <- & Hy).
    apply in_flat_map in Hy as (b & Hb & Hy).
    assert (x = b) by (eapply (H2 x b (g y)); [now left|now right|assumption|now apply in_map]).
    now subst.
Qed.

Lemma NoDup_flat_map : forall X Y (f : X -> list Y) l,
  NoDup l -> (forall a, In a l -> NoDup (f a)) ->
  (forall a b z, In a l -> In b l -> In z (f a) -> In z (f b) -> a = b) ->
  NoDup (flat_map f l).
Proof.
  intros X Y f l H H1 H2. rewrite <- (map_id (flat_map f l)).
  apply NoDup_map_flat_map; [assumption| |]; intros; rewrite ?map_id in *; eauto.
Qed.

Lemma NoDup_map_inj : forall X Y (f : X -> Y) l,
  (forall a b, In a l -> In b l -> f a = f b -> a = b) -> NoDup l -> NoDup (map f l).
Proof.
  intros X Y f l Hinj H. induction H; cbn; constructor.
  - intro K. apply in_map_iff in K as (y & E & Hy). assert (y = x) by (apply Hinj; [now right|now left|assumption]).
    now subst.
  - apply IHNoDup. intros; apply Hinj; auto; now right.
Qed.

(** ** Slice combinations *)
Lemma count_repeat_same : forall X dec (x : X) n, count_occ dec (repeat x n) x = n.
Proof. induction n; cbn; [reflexivity|]. destruct (dec x x); [now rewrite IHn|congruence]. Qed.
Lemma count_repeat_other : forall X dec (x y : X) n, x <> y -> count_occ dec (repeat y n) x = 0.
Proof. induction n; intro H; cbn; [reflexivity|]. destruct (dec y x); [congruence|auto]. Qed.

Lemma hole_NoDup : forall n, NoDup (get_hole_combinations n).
Proof.
  intro n. unfold get_hole_combinations. apply NoDup_map_inj; [|apply seq_NoDup].
  intros a b _ _ H. apply (f_equal (fun l => count_occ olet_eq_dec l Lo)) in H.
  rewrite !count_occ_app, !count_repeat_same, !count_repeat_other in H by discriminate. lia.
Qed.
Lemma particle_NoDup : forall n, NoDup (get_particle_combinations n).
Proof.
  intro n. unfold get_particle_combinations. apply NoDup_map_inj; [|apply seq_NoDup].
  intros a b _ _ H. apply (f_equal (fun l => count_occ olet_eq_dec l Lv)) in H.
  rewrite !count_occ_app, !count_repeat_same, !count_repeat_other in H by discriminate. lia.
Qed.
Lemma hole_length : forall n l, In l (get_hole_combinations n) -> length l = n.
Proof.
  intros n l H. unfold get_hole_combinations in H. apply in_map_iff in H as (i & <- & Hi). apply in_seq in Hi.
  rewrite app_length, !repeat_length. lia.
Qed.
Lemma particle_length : forall n l, In l (get_particle_combinations n) -> length l = n.
Proof.
  intros n l H. unfold get_particle_combinations in H. apply in_map_iff in H as (i & <- & Hi). apply in_seq in Hi.
  rewrite app_length, !repeat_length. lia.
Qed.

Lemma app_inj_len : forall X (a b c d : list X), length a = length c -> a ++ b = c ++ d -> a = c /\ b = d.
Proof.
  induction a as [|x a IH]; intros b [|y c] d L H; cbn in *; try lia; [auto|].
  injection H as -> H. destruct (IH b c d ltac:(lia) H) as [-> ->]. auto.
Qed.

Lemma active_blocks_NoDup : forall s order sc na, NoDup (map fst (active_blocks s order sc na)).
Proof.
  intros s order sc na. unfold active_blocks.
  set (dbl := sc ++ sc).
  set (nap := count_l La (firstn order dbl)). set (nbp := count_l Lb (firstn order dbl)).
  set (nah := count_l La (firstn order (skipn order dbl))). set (nbh := count_l Lb (firstn order (skipn order dbl))).
  apply NoDup_map_flat_map; [apply particle_NoDup| |].
  - intros pa Hpa. apply NoDup_map_flat_map; [apply particle_NoDup| |].
    + intros pb Hpb. apply NoDup_map_flat_map; [apply hole_NoDup| |].
      * intros ha Hha. apply NoDup_map_flat_map; [apply hole_NoDup| |].
        -- intros hb Hhb. destruct (_ && _); cbn; repeat constructor; tauto.
        -- intros h h' z H1 H2 K1 K2.
           destruct (_ && _) in K1; [|destruct K1]. destruct (_ && _) in K2; [|destruct K2].
           cbn in K1, K2. destruct K1 as [<-|[]]. destruct K2 as [K2|[]].
           apply app_inv_head in K2. apply app_inv_head in K2. now apply app_inv_head in K2.
      * intros h h' z H1 H2 K1 K2.
        apply in_map_iff in K1 as ([z1 d1] & E1 & K1). apply in_flat_map in K1 as (q1 & Hq1 & K1).
        apply in_map_iff in K2 as ([z2 d2] & E2 & K2). apply in_flat_map in K2 as (q2 & Hq2 & K2).
        destruct (_ && _) in K1; [|destruct K1]. destruct (_ && _) in K2; [|destruct K2].
        cbn in K1, K2, E1, E2. subst z1 z2. destruct K1 as [K1|[]]. destruct K2 as [K2|[]].
        injection K1 as K1 _. injection K2 as K2 _. rewrite <- K2 in K1.
        apply app_inv_head in K1. apply app_inv_head in K1.
        apply app_inj_len in K1 as [-> _]; [reflexivity|]. now rewrite !(hole_length nah).
    + intros h h' z H1 H2 K1 K2.
      apply in_map_iff in K1 as ([z1 d1] & E1 & K1). apply in_flat_map in K1 as (q1 & Hq1 & K1). apply in_flat_map in K1 as (r1 & Hr1 & K1).
      apply in_map_iff in K2 as ([z2 d2] & E2 & K2). apply in_flat_map in K2 as (q2 & Hq2 & K2). apply in_flat_map in K2 as (r2 & Hr2 & K2).
      destruct (_ && _) in K1; [|destruct K1]. destruct (_ && _) in K2; [|destruct K2].
      cbn in K1, K2, E1, E2. subst z1 z2. destruct K1 as [K1|[]]. destruct K2 as [K2|[]].
      injection K1 as K1 _. injection K2 as K2 _. rewrite <- K2 in K1.
      apply app_inv_head in K1.
      apply app_inj_len in K1 as [-> _]; [reflexivity|]. now rewrite !(particle_length nbp).
  - intros h h' z H1 H2 K1 K2.
    apply in_map_iff in K1 as ([z1 d1] & E1 & K1). apply in_flat_map in K1 as (q1 & Hq1 & K1). apply in_flat_map in K1 as (r1 & Hr1 & K1). apply in_flat_map in K1 as (t1 & Ht1 & K1).
    apply in_map_iff in K2 as ([z2 d2] & E2 & K2). apply in_flat_map in K2 as (q2 & Hq2 & K2). apply in_flat_map in K2 as (r2 & Hr2 & K2). apply in_flat_map in K2 as (t2 & Ht2 & K2).
    destruct (_ && _) in K1; [|destruct K1]. destruct (_ && _) in K2; [|destruct K2].
    cbn in K1, K2, E1, E2. subst z1 z2. destruct K1 as [K1|[]]. destruct K2 as [K2|[]].
    injection K1 as K1 _. injection K2 as K2 _. rewrite <- K2 in K1.
    apply app_inj_len in K1 as [-> _]; [reflexivity|]. now rewrite !(particle_length nap).
Qed.

Lemma operator_name_length : forall i j, j <= i -> length (get_operator_name i j) = i.
Proof. intros. unfold get_operator_name. rewrite app_length, !repeat_length. lia. Qed.
Lemma operator_name_count : forall i j, j <= i ->
  count_l La (get_operator_name i j) = i - j /\ count_l Lb (get_operator_name i j) = j.
Proof.
  intros. unfold count_l, get_operator_name. rewrite !count_occ_app, !count_repeat_same, !count_repeat_other by discriminate. lia.
Qed.
Lemma operator_name_inj : forall i j i' j', j <= i -> j' <= i' ->
  get_operator_name i j = get_operator_name i' j' -> i = i' /\ j = j'.
Proof.
  intros i j i' j' H H' E. split.
  - rewrite <- (operator_name_length i j H), <- (operator_name_length i' j' H'). now rewrite E.
  - destruct (operator_name_count i j H) as [_ <-]. destruct (operator_name_count i' j' H') as [_ <-]. now rewrite E.
Qed.

Lemma active_blocks_nonempty : forall s i j na, j <= i -> na <= i ->
  active_blocks s i (get_operator_name i j) na <> [].
Proof.
  intros s i j na Hj Hna.
  set (sc := get_operator_name i j).
  assert (L : length sc = i) by now apply operator_name_length.
  destruct (operator_name_count i j Hj) as [Ca Cb]. fold sc in Ca, Cb.
  unfold active_blocks.
  assert (F1 : firstn i (sc ++ sc) = sc) by (rewrite firstn_app, <- L, Nat.sub_diag, firstn_all; cbn; apply app_nil_r).
  assert (F2 : skipn i (sc ++ sc) = sc) by (rewrite skipn_app, <- L, Nat.sub_diag, skipn_all; reflexivity).
  assert (F3 : firstn i sc = sc) by (rewrite <- L; apply firstn_all).
  cbv zeta. rewrite F1, F2, F3, Ca, Cb.
  set (x := (repeat LV (i - j) ++ repeat LV j ++ repeat LO (i - j) ++ repeat LO j : slice)).
  intro E.
  assert (K : In (repeat LV (i - j)) (get_particle_combinations (i - j))).
  { apply in_map_iff. exists 0. split; [|apply in_seq; lia]. cbn. now rewrite Nat.sub_0_r, app_nil_r. }
  assert (K2 : In (repeat LV j) (get_particle_combinations j)).
  { apply in_map_iff. exists 0. split; [|apply in_seq; lia]. cbn. now rewrite Nat.sub_0_r, app_nil_r. }
  assert (K3 : In (repeat LO (i - j)) (get_hole_combinations (i - j))).
  { apply in_map_iff. exists 0. split; [|apply in_seq; lia]. cbn. now rewrite Nat.sub_0_r. }
  assert (K4 : In (repeat LO j) (get_hole_combinations j)).
  { apply in_map_iff. exists 0. split; [|apply in_seq; lia]. cbn. now rewrite Nat.sub_0_r. }
  match type of E with ?L = _ => assert (In (x, map (dims_alpha s) (repeat LV (i - j)) ++ map (dims_beta s) (repeat LV j)
       ++ map (dims_alpha s) (repeat LO (i - j)) ++ map (dims_beta s) (repeat LO j)) L) as G end.
  { apply in_flat_map. exists (repeat LV (i - j)). split; [assumption|].
    apply in_flat_map. exists (repeat LV j). split; [assumption|].
    apply in_flat_map. exists (repeat LO (i - j)). split; [assumption|].
    apply in_flat_map. exists (repeat LO j). split; [assumption|].
    fold x.
    assert (C1 : count_o LO x = i).
    { unfold count_o, x. rewrite !count_occ_app, !count_repeat_same, !count_repeat_other by discriminate. lia. }
    assert (C2 : count_o LV x = i).
    { unfold count_o, x. rewrite !count_occ_app, !count_repeat_same, !count_repeat_other by discriminate. lia. }
    rewrite C1, C2. destruct (Nat.leb_spec na i); [|lia]. now left. }
  rewrite E in G. destruct G.
Qed.

Section Build.
Variable A : Type.
Variable zero : A.
Notation entry := (entry A).
Arguments e_name {A}. Arguments e_attr {A}. Arguments e_dims {A}. Arguments e_ndim {A}.

Lemma make_active_wf : forall s i j na, j <= i -> na <= i ->
  wf_active A (make_active A zero s i (get_operator_name i j) na).
Proof.
  intros s i j na Hj Hna.
  pose proof (active_blocks_NoDup s i (get_operator_name i j) na) as HN.
  pose proof (active_blocks_nonempty s i j na Hj Hna) as HE.
  unfold make_active. set (bl := active_blocks s i (get_operator_name i j) na) in *.
  repeat split; cbn.
  - assumption.
  - destruct bl; [congruence|discriminate].
  - now rewrite !map_length.
  - assert (G : forall l n, fold_left (fun n (b : slice * list nat) => n + prod (snd b)) l n = n + total (map snd l)).
    { induction l as [|b l IH]; intro n; cbn; [lia|]. rewrite IH. unfold total. lia. }
    now rewrite G.
  - intros p Hp.
    assert (Hp' : In (snd p, fst p) bl).
    { clear -Hp. induction bl as [|[u v] l IH]; cbn in *; [destruct Hp|].
      destruct Hp as [<-|Hp]; [now left|right; auto]. }
    assert (G : forall l (d : dict slice (arr A)), NoDup (map fst l) ->
       (forall n, ~ In n (map fst l) -> fold_left (fun d (b : slice * list nat) => upd slice_eq_dec d (fst b) (zeros A zero (snd b))) l d n = d n) /\
       (forall b, In b l -> fold_left (fun d (b : slice * list nat) => upd slice_eq_dec d (fst b) (zeros A zero (snd b))) l d (fst b) = Some (zeros A zero (snd b)))).
    { induction l as [|b l IH]; intros d Hn; cbn; [split; [reflexivity|intros b []]|].
      inversion Hn; subst. destruct (IH (upd slice_eq_dec d (fst b) (zeros A zero (snd b))) H2) as [I1 I2]. split.
      - intros n Hn'. rewrite I1 by tauto. apply upd_other. intro; subst; tauto.
      - intros b' [<-|Hb]; [|now apply I2]. rewrite I1 by assumption. apply upd_same. }
    destruct (G bl (fun _ => None) HN) as [_ G2]. specialize (G2 _ Hp'). cbn in G2.
    exists (zeros A zero (fst p)). split; [assumption|]. split; [reflexivity|]. apply wf_zeros.
Qed.

Lemma dense_entry_ok : forall nm dims, entry_ok A (dense_entry A zero nm dims).
Proof. intros. unfold entry_ok; cbn. repeat split. apply wf_zeros. Qed.
Lemma pspace_entry_ok : forall nm n, 0 < n -> entry_ok A (pspace_entry A zero nm n).
Proof.
  intros nm n H. unfold entry_ok, pspace_entry. destruct n; [lia|]. cbn -[Nat.mul]. repeat split.
  - apply wf_zeros.
  - cbn. lia.
Qed.
Lemma active_entry_ok : forall s i j na, j <= i -> na <= i ->
  entry_ok A (active_entry A zero s i (get_operator_name i j) na).
Proof. intros. unfold entry_ok; cbn. repeat split; now apply make_active_wf. Qed.

Lemma in_list_In : forall i l, in_list i l = true <-> In i l.
Proof.
  intros. unfold in_list. rewrite existsb_exists. split.
  - intros (y & Hy & E). apply Nat.eqb_eq in E. now subst.
  - intro. exists i. split; [assumption|apply Nat.eqb_refl].
Qed.

Definition good_sizes (exc : list nat) := forall n, In n exc -> 0 < n.

(** *** ClusterOperator *)
Lemma cluster_spin_loop_spec : forall s c i nact exc js es,
  (forall j, In j js -> j <= i) -> good_sizes exc ->
  (In i (active_orders c) -> nact <= i) ->
  cluster_spin_loop A zero s c i nact exc js = Some es ->
  map e_name es = map (get_operator_name i) js /\
  Forall (entry_ok A) es /\
  (if in_list i (active_orders c) then Forall (is_act A) es else Forall (fun e => ~ is_act A e) es).
Proof.
  induction js as [|j js IH]; intros es Hj Hg Ha H; cbn in H.
  - injection H as <-. split; [reflexivity|]. split; [constructor|]. destruct (in_list _ _); constructor.
  - destruct (in_list i (active_orders c)) eqn:Eact.
    + assert (Hna : nact <= i) by (apply Ha; now apply in_list_In).
      destruct (cluster_spin_loop A zero s c i nact exc js) as [y|]; [|discriminate]. injection H as <-.
      destruct (IH y ltac:(intros; apply Hj; now right) Hg Ha eq_refl) as (I1 & I2 & I3).
      split; [cbn; now rewrite I1|]. split; constructor; auto.
      * apply active_entry_ok; [apply Hj; now left|assumption].
      * exact I.
    + destruct (in_list i (p_orders c)) eqn:Ep.
      * destruct (nth_error exc j) as [n|] eqn:En; [|discriminate].
        destruct (cluster_spin_loop A zero s c i nact exc js) as [y|]; [|discriminate]. injection H as <-.
        destruct (IH y ltac:(intros; apply Hj; now right) Hg Ha eq_refl) as (I1 & I2 & I3).
        split; [cbn; now rewrite I1|]. split; constructor; auto.
        apply pspace_entry_ok. apply Hg. now apply nth_error_In in En.
      * destruct (cluster_spin_loop A zero s c i nact exc js) as [y|]; [|discriminate]. injection H as <-.
        destruct (IH y ltac:(intros; apply Hj; now right) Hg Ha eq_refl) as (I1 & I2 & I3).
        split; [cbn; now rewrite I1|]. split; constructor; auto.
        apply dense_entry_ok.
Qed.

Lemma aligned_app : forall es es', aligned A es -> aligned A es' ->
  (Exists (is_act A) es -> Forall (is_act A) es') -> aligned A (es ++ es').
Proof.
  induction es as [|e es IH]; intros es' H H' K; cbn; [assumption|].
  destruct H as (H1 & H2 & H3). split; [assumption|]. split.
  - intro Ha. apply Forall_app. split; [auto|]. apply K. now left.
  - apply IH; auto.
Qed.
Lemma aligned_uniform : forall es, Forall (entry_ok A) es ->
  (Forall (is_act A) es \/ Forall (fun e => ~ is_act A e) es) -> aligned A es.
Proof.
  induction es as [|e es IH]; intros H K; cbn; [exact I|]. inversion H; subst.
  split; [assumption|]. destruct K as [K|K]; inversion K; subst; (split; [tauto|]); apply IH; auto.
Qed.

Lemma cluster_order_loop_spec : forall s c n is act_cnt p_cnt es,
  (forall l m, In l (pspace_sizes c) -> In m l -> 0 < m) ->
  (forall i m, In i (active_orders c) -> In m (num_active c) -> m <= i) ->
  (forall i j, 1 <= i < j -> j <= n -> In i (active_orders c) -> In j (active_orders c)) ->
  (forall i, In i is -> 1 <= i <= n) -> 
  (forall pre x suf y, is = pre ++ x :: suf -> In y suf -> x < y) ->
  cluster_order_loop A zero s c is act_cnt p_cnt = Some es ->
  map e_name es = flat_map (fun i => map (get_operator_name i) (seq 0 (i + 1))) is /\
  aligned A es /\
  (forall x, In x is -> (forall y, In y is -> x <= y) -> In x (active_orders c) -> Forall (is_act A) es).
Proof.
  intros s c n. induction is as [|i is IH]; intros act_cnt p_cnt es Hp Ha Hup Hr Hinc H; cbn in H.
  - injection H as <-. cbn. repeat split; auto.
  - destruct (if in_list i (active_orders c) then _ else _) as [[nact act_cnt']|] eqn:E1; [|discriminate].
    destruct (if in_list i (p_orders c) then _ else _) as [[exc p_cnt']|] eqn:E2; [|discriminate].
    destruct (cluster_spin_loop A zero s c i nact exc (seq 0 (i + 1))) as [x|] eqn:E3; [|discriminate].
    destruct (cluster_order_loop A zero s c is act_cnt' p_cnt') as [y|] eqn:E4; [|discriminate].
    injection H as <-.
    assert (Hgood : good_sizes exc).
    { destruct (in_list i (p_orders c)).
      - destruct (nth_error (pspace_sizes c) p_cnt) eqn:En; [|discriminate]. injection E2 as <- _.
        intros m Hm. apply (Hp l); [now apply nth_error_In in En|assumption].
      - injection E2 as <- _. intros m []. }
    assert (Hna : In i (active_orders c) -> nact <= i).
    { intro Hi. assert (Hi' := Hi). apply in_list_In in Hi'. rewrite Hi' in E1.
      destruct (nth_error (num_active c) act_cnt) eqn:En; [|discriminate]. injection E1 as <- _.
      apply Ha; [assumption|]. now apply nth_error_In in En. }
    destruct (cluster_spin_loop_spec s c i nact exc (seq 0 (i + 1)) x) as (S1 & S2 & S3); auto.
    { intros j Hj. apply in_seq in Hj. lia. }
    assert (Hlt : forall y0, In y0 is -> i < y0) by (intros y0 Hy0; apply (Hinc [] i is); auto).
    destruct (IH act_cnt' p_cnt' y Hp Ha Hup) as (I1 & I2 & I3).
    { intros; apply Hr; now right. }
    { intros pre z suf w Ei Hw. apply (Hinc (i :: pre) z suf); [cbn; now rewrite Ei|assumption]. }
    { assumption. }
    assert (Hrest : In i (active_orders c) -> Forall (is_act A) y).
    { intro Hi. destruct is as [|k is'].
      - cbn in E4. injection E4 as <-. constructor.
      - apply (I3 k); [now left| |].
        + intros w [<-|Hw]; [lia|]. assert (k < w); [|lia]. apply (Hinc [i] k is'); auto.
        + apply (Hup i); [|apply Hr; right; now left|assumption].
          split; [apply Hr; now left|apply Hlt; now left]. }
    split; [|split].
    + rewrite map_app, I1, S1. reflexivity.
    + apply aligned_app; [|assumption|].
      * apply aligned_uniform; [assumption|]. destruct (in_list i (active_orders c)); auto.
      * intro Hex. destruct (in_list i (active_orders c)) eqn:Ei.
        -- apply Hrest. now apply in_list_In.
        -- exfalso. apply Exists_exists in Hex as (e & He & Hact). rewrite Forall_forall in S3. now apply (S3 e).
    + intros w Hw Hmin Hact.
      assert (w = i). { destruct Hw as [->|Hw]; [reflexivity|]. specialize (Hmin i (or_introl eq_refl)). specialize (Hlt w Hw). lia. }
      subst w. apply Forall_app. split; [|now apply Hrest].
      apply in_list_In in Hact. rewrite Hact in S3. exact S3.
Qed.

Lemma seq_increasing_split : forall n a pre x suf y, seq a n = pre ++ x :: suf -> In y suf -> x < y.
Proof.
  induction n; intros a pre x suf y H Hy; cbn in H; [destruct pre; discriminate|].
  destruct pre as [|p pre]; cbn in H.
  - injection H as -> <-. apply in_seq in Hy. lia.
  - injection H as -> H. eapply IHn; eauto.
Qed.

Lemma cluster_names_NoDup : forall n,
  NoDup (flat_map (fun i => map (get_operator_name i) (seq 0 (i + 1))) (seq 1 n)).
Proof.
  intro n. apply NoDup_flat_map; [apply seq_NoDup| |].
  - intros i _. apply NoDup_map_inj; [|apply seq_NoDup].
    intros a b Ha Hb E. apply in_seq in Ha, Hb. apply operator_name_inj in E; lia.
  - intros a b z _ _ Ha Hb. apply in_map_iff in Ha as (j & <- & Hj). apply in_map_iff in Hb as (k & E & Hk).
    apply in_seq in Hj, Hk. apply operator_name_inj in E; lia.
Qed.

(** Everything the generic lemmas need, for an operator built by ClusterOperator(...). *)
Lemma cluster_layout : forall s order c o, 1 <= order -> proper_config order c ->
  cluster_operator A zero s order c = Some o ->
  exists es, o = assemble A order es /\ aligned A es /\ NoDup (map e_name es) /\
    (forall e, In e es -> length (e_name e) <= order) /\ es <> [].
Proof.
  intros s order c o Ho (H1 & H2 & H3) H. unfold cluster_operator in H.
  destruct (cluster_order_loop A zero s c (seq 1 order) 0 0) as [es|] eqn:E; [|discriminate].
  injection H as <-. exists es. split; [reflexivity|].
  destruct (cluster_order_loop_spec s c order (seq 1 order) 0 0 es H1 H3 H2) as (N & Al & _); auto.
  { intros i Hi. apply in_seq in Hi. lia. }
  { intros. eapply seq_increasing_split; eauto. }
  split; [assumption|]. split; [rewrite N; apply cluster_names_NoDup|]. split.
  - intros e He. assert (K : In (e_name e) (map e_name es)) by now apply in_map.
    rewrite N in K. apply in_flat_map in K as (i & Hi & K). apply in_map_iff in K as (j & <- & Hj).
    apply in_seq in Hi, Hj. rewrite operator_name_length; lia.
  - intro; subst. destruct order; [lia|]. cbn in N. discriminate.
Qed.

(** The constructor succeeds when the P-space and active arguments are long enough. *)

(** *** FockOperator *)
Lemma fock_add_cases : forall s np nh,
  fock_add s np nh = [] \/
  (exists d, fock_add s np nh = [([La], d)]) \/ (exists d, fock_add s np nh = [([La; Lb], d)]).
Proof.
  intros. unfold fock_add. destruct (if nh <? np then np - nh else nh - np) as [|[|[|n]]]; eauto.
Qed.

Lemma not_act_dense : forall nm dims, ~ is_act A (dense_entry A zero nm dims).
Proof. intros; cbn. tauto. Qed.
Lemma not_act_pspace : forall nm n, ~ is_act A (pspace_entry A zero nm n).
Proof. intros; cbn. tauto. Qed.

Definition plain (e : entry) := entry_ok A e /\ ~ is_act A e.

Lemma fock_add_loop_spec : forall c s i j exc adds es, good_sizes exc ->
  fock_add_loop A zero c s i j exc adds = Some es ->
  map e_name es = map (fun a => fst a ++ get_operator_name i j) adds /\ Forall plain es.
Proof.
  induction adds as [|[sp dim] r IH]; intros es Hg H; cbn in H.
  - injection H as <-. cbn. split; [reflexivity|constructor].
  - destruct (in_list i (p_orders c)).
    + destruct (nth_error exc j) as [n|] eqn:En; [|discriminate].
      destruct (fock_add_loop A zero c s i j exc r) as [y|]; [|discriminate]. injection H as <-.
      destruct (IH y Hg eq_refl) as [I1 I2]. split; [cbn; now rewrite I1|]. constructor; [|assumption].
      split; [|apply not_act_pspace]. apply pspace_entry_ok. apply Hg. now apply nth_error_In in En.
    + destruct (fock_add_loop A zero c s i j exc r) as [y|]; [|discriminate]. injection H as <-.
      destruct (IH y Hg eq_refl) as [I1 I2]. split; [cbn; now rewrite I1|]. constructor; [|assumption].
      split; [apply dense_entry_ok|apply not_act_dense].
Qed.

Lemma fock_spin_loop_spec : forall c s i exc adds js es, good_sizes exc ->
  fock_spin_loop A zero c s i exc adds js = Some es ->
  map e_name es = flat_map (fun j => map (fun a => fst a ++ get_operator_name i j) adds) js /\ Forall plain es.
Proof.
  induction js as [|j js IH]; intros es Hg H; cbn in H.
  - injection H as <-. split; [reflexivity|constructor].
  - destruct (fock_add_loop A zero c s i j exc adds) as [x|] eqn:Ex; [|discriminate].
    destruct (fock_spin_loop A zero c s i exc adds js) as [y|]; [|discriminate]. injection H as <-.
    destruct (IH y Hg eq_refl) as [I1 I2]. destruct (fock_add_loop_spec _ _ _ _ _ _ _ Hg Ex) as [J1 J2].
    split; [cbn; now rewrite map_app, I1, J1|]. apply Forall_app; auto.
Qed.

Lemma fock_order_loop_spec : forall c s adds is p_cnt es,
  (forall l m, In l (pspace_sizes c) -> In m l -> 0 < m) ->
  fock_order_loop A zero c s adds is p_cnt = Some es ->
  map e_name es = flat_map (fun i => flat_map (fun j => map (fun a => fst a ++ get_operator_name i j) adds) (seq 0 (i + 1))) is
  /\ Forall plain es.
Proof.
  induction is as [|i is IH]; intros p_cnt es Hp H; cbn in H.
  - injection H as <-. split; [reflexivity|constructor].
  - destruct (if in_list i (p_orders c) then _ else _) as [[exc p_cnt']|] eqn:E2; [|discriminate].
    assert (Hg : good_sizes exc).
    { destruct (in_list i (p_orders c)).
      - destruct (nth_error (pspace_sizes c) p_cnt) eqn:En; [|discriminate]. injection E2 as <- _.
        intros m Hm. apply (Hp l); [now apply nth_error_In in En|assumption].
      - injection E2 as <- _. intros m []. }
    destruct (fock_spin_loop A zero c s i exc adds (seq 0 (i + 1))) as [x|] eqn:Ex; [|discriminate].
    destruct (fock_order_loop A zero c s adds is p_cnt') as [y|] eqn:Ey; [|discriminate]. injection H as <-.
    destruct (IH _ _ Hp Ey) as [I1 I2]. destruct (fock_spin_loop_spec _ _ _ _ _ _ _ Hg Ex) as [J1 J2].
    split; [cbn; now rewrite map_app, I1, J1|]. apply Forall_app; auto.
Qed.

Lemma aligned_plain : forall es, Forall plain es -> aligned A es.
Proof.
  intros es H. apply aligned_uniform; [|right]; eapply Forall_impl; try eassumption; unfold plain; cbn; tauto.
Qed.

Lemma fock_layout : forall s np nh c o,
  (np = nh + 1 \/ np = nh + 2 \/ nh = np + 1 \/ nh = np + 2) ->
  (forall l m, In l (pspace_sizes c) -> In m l -> 0 < m) ->
  fock_operator A zero s np nh c = Some o ->
  exists order es, o = assemble A order es /\ 1 <= order /\ aligned A es /\ NoDup (map e_name es) /\
    (forall e, In e es -> length (e_name e) <= order) /\ es <> [].
Proof.
  intros s np nh c o Hd Hp H. unfold fock_operator in H.
  destruct (Nat.eqb_spec np nh); [discriminate|].
  destruct (fock_order_loop A zero c s (fock_add s np nh) (seq 1 (Nat.min np nh)) 0) as [es|] eqn:E; [|discriminate].
  injection H as <-.
  set (nd := if nh <? np then np - nh else nh - np).
  assert (Hadds : exists sp d, fock_add s np nh = [(sp, d)] /\ length sp = nd).
  { unfold fock_add. fold nd.
    assert (Hnd : nd = 1 \/ nd = 2) by (unfold nd; destruct (Nat.ltb_spec nh np); lia).
    destruct Hnd as [Hnd|Hnd]; rewrite Hnd; eauto. }
  destruct Hadds as (sp & d & Ea & Lsp). rewrite Ea in *.
  destruct (fock_order_loop_spec _ _ _ _ _ _ Hp E) as [N P].
  assert (N' : map e_name es = flat_map (fun i => map (fun j => sp ++ get_operator_name i j) (seq 0 (i + 1))) (seq 1 (Nat.min np nh))).
  { rewrite N. apply flat_map_ext. intro i. cbn [map fst].
    generalize (seq 0 (i + 1)). induction l as [|k l IHl]; cbn; [reflexivity|]. now f_equal. }
  exists (nd + Nat.min np nh), (dense_entry A zero sp d :: es).
  split; [reflexivity|]. split; [unfold nd; destruct (Nat.ltb_spec nh np); lia|]. split; [|split; [|split]].
  - apply aligned_plain. constructor; [|assumption]. split; [apply dense_entry_ok|apply not_act_dense].
  - cbn. constructor.
    + rewrite N'. intro K. apply in_flat_map in K as (i & Hi & K). apply in_map_iff in K as (j & K & Hj).
      apply in_seq in Hi, Hj. apply (f_equal (@length letter)) in K. rewrite app_length, operator_name_length in K; lia.
    + rewrite N'. apply NoDup_flat_map; [apply seq_NoDup| |].
      * intros i _. apply NoDup_map_inj; [|apply seq_NoDup].
        intros a b Hj Hk K. apply in_seq in Hj, Hk. apply app_inv_head in K. apply operator_name_inj in K; lia.
      * intros a b z _ _ Hj Hk. apply in_map_iff in Hj as (j & <- & Hj). apply in_map_iff in Hk as (k & K & Hk).
        apply in_seq in Hj, Hk. apply app_inv_head in K. apply operator_name_inj in K; lia.
  - intros e [<-|He]; [cbn; lia|].
    assert (K : In (e_name e) (map e_name es)) by now apply in_map.
    rewrite N' in K. apply in_flat_map in K as (i & Hi & K). apply in_map_iff in K as (j & <- & Hj).
    apply in_seq in Hi, Hj. rewrite app_length, operator_name_length; lia.
  - discriminate.
Qed.

(** *** SpinFlipOperator *)
Lemma spinflip_layout : forall s order, order <= 2 ->
  exists es, spinflip_operator A zero s order = assemble A (1 + order) es /\ aligned A es /\ NoDup (map e_name es) /\
    (forall e, In e es -> length (e_name e) <= 1 + order) /\ es <> [].
Proof.
  intros s order H. unfold spinflip_operator. eexists. split; [reflexivity|]. split; [|split; [|split]].
  - apply aligned_plain. apply Forall_forall. intros e He. apply in_map_iff in He as (b & <- & _).
    split; [apply dense_entry_ok|apply not_act_dense].
  - destruct order as [|[|[|]]]; try lia; cbn; repeat constructor; cbn; intuition discriminate.
  - destruct order as [|[|[|]]]; try lia; cbn; intros e He; repeat (destruct He as [<-|He]; [cbn; lia|]); destruct He.
  - destruct order as [|[|[|]]]; try lia; discriminate.
Qed.

(** *** Lengths with empty P-space lists *)
Definition weak_entry (e : entry) : Prop :=
  exists x d, e_attr e = Arr A x /\ e_dims e = [d] /\
    length (data A x) = e_ndim e + count_occ (list_eq_dec Nat.eq_dec) [d] [0].

Lemma weak_pspace : forall nm n, weak_entry (pspace_entry A zero nm n).
Proof.
  intros. unfold weak_entry, pspace_entry. cbn [e_attr e_dims e_ndim]. eexists. eexists. split; [reflexivity|]. split; [reflexivity|].
  destruct n; [reflexivity|]. cbn [Nat.eqb zeros data prod fold_right]. rewrite Nat.mul_1_r, repeat_length.
  cbn [count_occ]. destruct (list_eq_dec Nat.eq_dec [S n] [0]) as [K|K]; [discriminate|lia].
Qed.
Lemma weak_dense : forall nm dims, dims <> [0] -> weak_entry (dense_entry A zero nm dims).
Proof.
  intros. eexists. eexists. split; [reflexivity|]. split; [reflexivity|]. cbn [zeros data e_ndim dense_entry]. rewrite repeat_length.
  cbn [count_occ]. destruct (list_eq_dec Nat.eq_dec dims [0]) as [K|K]; [contradiction|lia].
Qed.

Lemma cluster_spin_weak : forall s c i nact exc js es, active_orders c = [] -> 1 <= i ->
  (forall j, In j js -> j <= i) ->
  cluster_spin_loop A zero s c i nact exc js = Some es ->
  map e_name es = map (get_operator_name i) js /\ Forall weak_entry es.
Proof.
  induction js as [|j js IH]; intros es Hc Hi Hj H; cbn in H.
  - injection H as <-. split; [reflexivity|constructor].
  - rewrite Hc in H. cbn [in_list existsb] in H. destruct (in_list i (p_orders c)).
    + destruct (nth_error exc j) as [n|]; [|discriminate].
      destruct (cluster_spin_loop A zero s c i nact exc js) as [y|]; [|discriminate]. injection H as <-.
      destruct (IH y Hc Hi ltac:(intros; apply Hj; now right) eq_refl) as (I1 & I2).
      split; [cbn; now rewrite I1|]. constructor; [apply weak_pspace|assumption].
    + destruct (cluster_spin_loop A zero s c i nact exc js) as [y|]; [|discriminate]. injection H as <-.
      destruct (IH y Hc Hi ltac:(intros; apply Hj; now right) eq_refl) as (I1 & I2).
      split; [cbn; now rewrite I1|]. constructor; [|assumption]. apply weak_dense.
      intro K. apply (f_equal (@length nat)) in K. unfold get_operator_dimension in K.
      rewrite !app_length, !repeat_length in K. cbn in K. specialize (Hj j (or_introl eq_refl)). lia.
Qed.

Lemma cluster_order_weak : forall s c is act_cnt p_cnt es, active_orders c = [] ->
  (forall i, In i is -> 1 <= i) ->
  cluster_order_loop A zero s c is act_cnt p_cnt = Some es ->
  map e_name es = flat_map (fun i => map (get_operator_name i) (seq 0 (i + 1))) is /\ Forall weak_entry es.
Proof.
  induction is as [|i is IH]; intros act_cnt p_cnt es Hc Hr H; cbn in H.
  - injection H as <-. split; [reflexivity|constructor].
  - destruct (if in_list i (active_orders c) then _ else _) as [[nact act_cnt']|] eqn:E1; [|discriminate].
    destruct (if in_list i (p_orders c) then _ else _) as [[exc p_cnt']|] eqn:E2; [|discriminate].
    destruct (cluster_spin_loop A zero s c i nact exc (seq 0 (i + 1))) as [x|] eqn:E3; [|discriminate].
    destruct (cluster_order_loop A zero s c is act_cnt' p_cnt') as [y|] eqn:E4; [|discriminate].
    injection H as <-.
    destruct (cluster_spin_weak s c i nact exc (seq 0 (i + 1)) x Hc) as (S1 & S2); auto.
    { apply Hr; now left. } { intros j Hj. apply in_seq in Hj. lia. }
    destruct (IH act_cnt' p_cnt' y Hc) as (I1 & I2); auto. { intros; apply Hr; now right. }
    split; [now rewrite map_app, I1, S1|]. apply Forall_app; auto.
Qed.

Lemma weak_gather : forall (es : list entry) (d : dict name (attr A)), Forall weak_entry es ->
  (forall e, In e es -> d (e_name e) = Some (e_attr e)) ->
  exists v, gather A (flatten_attr A) d (map e_name es) = Some v /\
    length v = list_sum (map e_ndim es) + count_occ (list_eq_dec Nat.eq_dec) (flat_map e_dims es) [0].
Proof.
  induction es as [|e es IH]; intros d H L; [exists []; split; reflexivity|].
  inversion H; subst. destruct H2 as (x & dd & Ea & Ed & El).
  destruct (IH d H3 ltac:(intros; apply L; now right)) as (w & Ew & Lw).
  cbn [map gather]. rewrite (L e (or_introl eq_refl)), Ea. cbn [flatten_attr]. rewrite Ew.
  eexists. split; [reflexivity|]. rewrite app_length, Lw, El. cbn [flat_map map]. rewrite count_occ_app, Ed.
  change (list_sum (e_ndim e :: map e_ndim es)) with (e_ndim e + list_sum (map e_ndim es)). lia.
Qed.

Lemma cluster_flatten_length : forall s order c o,
  1 <= order -> active_orders c = [] -> cluster_operator A zero s order c = Some o ->
  exists v, flatten A o = Some v /\ length v = o_ndim A o + count_occ (list_eq_dec Nat.eq_dec) (o_dims A o) [0].
Proof.
  intros s order c o Ho Hc H. unfold cluster_operator in H.
  destruct (cluster_order_loop A zero s c (seq 1 order) 0 0) as [es|] eqn:E; [|discriminate].
  injection H as <-.
  destruct (cluster_order_weak s c (seq 1 order) 0 0 es Hc) as (N & W); auto.
  { intros i Hi. apply in_seq in Hi. lia. }
  assert (ND : NoDup (map e_name es)) by (rewrite N; apply cluster_names_NoDup).
  destruct (weak_gather es (o_attrs A (assemble A order es)) W) as (v & Ev & Lv).
  { intros e He. cbn. destruct (assemble_lookup A es (fun _ => None) ND) as [_ K]. now apply K. }
  exists v. split.
  - unfold flatten, hstack. cbn [o_spin_cases assemble]. destruct (map e_name es) eqn:En; [|exact Ev].
    exfalso. destruct order; [lia|]. cbn in N. discriminate.
  - cbn [o_ndim o_dims assemble]. rewrite fold_ndim. exact Lv.
Qed.

(** *** FockOperator: remaining cases *)
Lemma fock_add_loop_total : forall s i j exc adds,
  exists es, fock_add_loop A zero (mkConfig [] [] [] []) s i j exc adds = Some es.
Proof.
  induction adds as [|[sp d] r IH]; [eexists; reflexivity|].
  destruct IH as (es & E). cbn in *. rewrite E. eexists; reflexivity.
Qed.
Lemma fock_spin_loop_total : forall s i exc adds js,
  exists es, fock_spin_loop A zero (mkConfig [] [] [] []) s i exc adds js = Some es.
Proof.
  induction js as [|j r IH]; [eexists; reflexivity|].
  destruct IH as (es & E). destruct (fock_add_loop_total s i j exc adds) as (x & Ex). cbn [fock_spin_loop]. rewrite E, Ex. eexists; reflexivity.
Qed.
Lemma fock_order_loop_total : forall s adds is p,
  exists es, fock_order_loop A zero (mkConfig [] [] [] []) s adds is p = Some es.
Proof.
  induction is as [|i r IH]; intro p; [eexists; reflexivity|]. cbn [fock_order_loop].
  change (in_list i (p_orders (mkConfig [] [] [] []))) with false. cbv iota beta.
  destruct (IH p) as (es & E). destruct (fock_spin_loop_total s i [] adds (seq 0 (i + 1))) as (x & Ex). rewrite E, Ex. eexists; reflexivity.
Qed.
Lemma fock_defined : forall s np nh, np <> nh ->
  exists o0, fock_operator A zero s np nh (mkConfig [] [] [] []) = Some o0.
Proof.
  intros. unfold fock_operator. destruct (Nat.eqb_spec np nh); [contradiction|].
  destruct (fock_order_loop_total s (fock_add s np nh) (seq 1 (Nat.min np nh)) 0) as (es & E). rewrite E. eexists; reflexivity.
Qed.
Lemma fock_spin_loop_nil : forall c s i exc js, fock_spin_loop A zero c s i exc [] js = Some [].
Proof. induction js; cbn; [reflexivity|]. now rewrite IHjs. Qed.
Lemma fock_order_loop_nil : forall c s is p es, fock_order_loop A zero c s [] is p = Some es -> es = [].
Proof.
  induction is as [|i r IH]; intros p es H; cbn in H; [congruence|].
  destruct (if in_list i (p_orders c) then _ else _) as [[exc p']|]; [|discriminate].
  rewrite fock_spin_loop_nil in H. destruct (fock_order_loop A zero c s [] r p') eqn:E; [|discriminate].
  injection H as <-. cbn. eauto.
Qed.
Lemma fock_triple : forall s np nh c o0, np = nh + 3 \/ nh = np + 3 ->
  fock_operator A zero s np nh c = Some o0 -> o_spin_cases A o0 = [] /\ flatten A o0 = None.
Proof.
  intros s np nh c o0 Hd H. unfold fock_operator in H. destruct (Nat.eqb_spec np nh); [discriminate|].
  assert (Ea : fock_add s np nh = []).
  { unfold fock_add. replace (if nh <? np then np - nh else nh - np) with 3; [reflexivity|].
    destruct (Nat.ltb_spec nh np); lia. }
  rewrite Ea in H. destruct (fock_order_loop A zero c s [] _ 0) as [es|] eqn:E; [|discriminate].
  apply fock_order_loop_nil in E. subst es. injection H as <-. split; reflexivity.
Qed.

(** *** Extending a P space *)
Lemma pspace_op : forall s n0 n1 n2 n3,
  cluster_operator A zero s 3 (mkConfig [3] [[n0; n1; n2; n3]] [] []) =
  Some (assemble A 3
    [dense_entry A zero [La] [nua s; noa s]; dense_entry A zero [Lb] [nub s; nob s];
     dense_entry A zero [La; La] [nua s; nua s; noa s; noa s];
     dense_entry A zero [La; Lb] [nua s; nub s; noa s; nob s];
     dense_entry A zero [Lb; Lb] [nub s; nub s; nob s; nob s];
     pspace_entry A zero [La; La; La] n0; pspace_entry A zero [La; La; Lb] n1;
     pspace_entry A zero [La; Lb; Lb] n2; pspace_entry A zero [Lb; Lb; Lb] n3]).
Proof. reflexivity. Qed.

Lemma extend_one_spec : forall (o : op A) i nm n m x pre suf,
  o_attrs A o nm = Some (Arr A (mkArr A [n] x)) -> n <= m ->
  o_dims A o = pre ++ [n] :: suf -> length pre = i + 5 ->
  exists o', extend_one A zero o i nm m = Some o' /\ o_order A o' = o_order A o /\
    o_spin_cases A o' = o_spin_cases A o /\ o_dims A o' = pre ++ [m] :: suf /\
    o_attrs A o' nm = Some (Arr A (mkArr A [m] (x ++ repeat zero (m - n)))) /\
    (forall nm', nm' <> nm -> o_attrs A o' nm' = o_attrs A o nm') /\
    o_ndim A o' + n = o_ndim A o + m.
Proof.
  intros o i nm n m x pre suf Ha Hm Hd Hl. unfold extend_one. rewrite Ha.
  destruct (Nat.ltb_spec n m).
  - unfold set_dim. rewrite Hd, app_length. cbn [length].
    destruct (Nat.ltb_spec (i + 5) (length pre + S (length suf))); [|lia].
    assert (F1 : firstn (i + 5) (pre ++ [n] :: suf) = pre)
      by (rewrite <- Hl, firstn_app, firstn_all, Nat.sub_diag; cbn; apply app_nil_r).
    assert (F2 : skipn (S (i + 5)) (pre ++ [n] :: suf) = suf).
    { rewrite <- Hl, skipn_app, skipn_all2 by lia. replace (S (length pre) - length pre) with 1 by lia. reflexivity. }
    rewrite F1, F2.
    eexists. split; [reflexivity|]. cbn. repeat split.
    + apply upd_same.
    + intros. now apply upd_other.
    + lia.
  - assert (n = m) by lia. subst m. exists o. rewrite Nat.sub_diag. cbn [repeat]. rewrite app_nil_r.
    repeat split; auto.
Qed.

Lemma shape1 : forall (y : arr A) n, same_shape A (zeros A zero [n]) y ->
  exists x, y = mkArr A [n] x /\ length x = n.
Proof.
  intros [sh x] n (H1 & _ & H3). cbn in H1. subst sh. cbn in H3. exists x. split; [reflexivity|]. rewrite H3. lia.
Qed.

Lemma layout_dense : forall s n0 n1 n2 n3 (o o0 : op A),
  cluster_operator A zero s 3 (mkConfig [3] [[n0; n1; n2; n3]] [] []) = Some o0 ->
  0 < n0 -> 0 < n1 -> 0 < n2 -> 0 < n3 -> same_layout A o0 o ->
  (exists x, o_attrs A o [La; La; La] = Some (Arr A (mkArr A [n0] x)) /\ length x = n0) /\
  (exists x, o_attrs A o [La; La; Lb] = Some (Arr A (mkArr A [n1] x)) /\ length x = n1) /\
  (exists x, o_attrs A o [La; Lb; Lb] = Some (Arr A (mkArr A [n2] x)) /\ length x = n2) /\
  (exists x, o_attrs A o [Lb; Lb; Lb] = Some (Arr A (mkArr A [n3] x)) /\ length x = n3).
Proof.
  intros s n0 n1 n2 n3 o o0 E H0 H1 H2 H3 Ho. rewrite pspace_op in E. injection E as <-.
  destruct n0 as [|n0]; [lia|]. destruct n1 as [|n1]; [lia|]. destruct n2 as [|n2]; [lia|]. destruct n3 as [|n3]; [lia|].
  destruct Ho as (_ & _ & _ & _ & Ho).
  assert (G : forall nm n, In (nm, n) [([La; La; La], S n0); ([La; La; Lb], S n1); ([La; Lb; Lb], S n2); ([Lb; Lb; Lb], S n3)] ->
    exists x, o_attrs A o nm = Some (Arr A (mkArr A [n] x)) /\ length x = n).
  { intros nm n Hin. assert (Hn : In nm (o_spin_cases A (assemble A 3
    [dense_entry A zero [La] [nua s; noa s]; dense_entry A zero [Lb] [nub s; nob s];
     dense_entry A zero [La; La] [nua s; nua s; noa s; noa s];
     dense_entry A zero [La; Lb] [nua s; nub s; noa s; nob s];
     dense_entry A zero [Lb; Lb] [nub s; nub s; nob s; nob s];
     pspace_entry A zero [La; La; La] (S n0); pspace_entry A zero [La; La; Lb] (S n1);
     pspace_entry A zero [La; Lb; Lb] (S n2); pspace_entry A zero [Lb; Lb; Lb] (S n3)]))).
    { cbn in *. intuition congruence. }
    destruct (Ho nm Hn) as (x & y & Ex & Ey & K).
    cbn [In] in Hin.
    assert (Hx : x = Arr A (zeros A zero [n])).
    { repeat (destruct Hin as [Hin|Hin]; [injection Hin as <- <-; cbn in Ex; now injection Ex as <-|]). destruct Hin. }
    subst x. destruct y as [y|y]; [|destruct K]. cbn in K. apply shape1 in K as (x & -> & L). exists x. auto. }
  repeat split; apply G; cbn; tauto.
Qed.

Lemma extend_keeps : forall s n0 n1 n2 n3 m0 m1 m2 m3 (o0 o : op A),
  0 < n0 <= m0 -> 0 < n1 <= m1 -> 0 < n2 <= m2 -> 0 < n3 <= m3 ->
  cluster_operator A zero s 3 (mkConfig [3] [[n0; n1; n2; n3]] [] []) = Some o0 ->
  same_layout A o0 o ->
  exists o' onew,
    extend_pspace_t3_operator A zero o [m0; m1; m2; m3] = Some o' /\
    cluster_operator A zero s 3 (mkConfig [3] [[m0; m1; m2; m3]] [] []) = Some onew /\
    same_layout A onew o' /\
    (forall nm, In nm [[La]; [Lb]; [La; La]; [La; Lb]; [Lb; Lb]] -> o_attrs A o' nm = o_attrs A o nm) /\
    (forall nm n m, In (nm, (n, m)) [([La; La; La], (n0, m0)); ([La; La; Lb], (n1, m1));
                                     ([La; Lb; Lb], (n2, m2)); ([Lb; Lb; Lb], (n3, m3))] ->
       exists x, o_attrs A o nm = Some (Arr A (mkArr A [n] x)) /\
                 o_attrs A o' nm = Some (Arr A (mkArr A [m] (x ++ repeat zero (m - n))))).
Proof.
  intros s n0 n1 n2 n3 m0 m1 m2 m3 o0 o H0 H1 H2 H3 E Ho.
  destruct (layout_dense s n0 n1 n2 n3 o o0 E) as ((x0 & A0 & L0) & (x1 & A1 & L1) & (x2 & A2 & L2) & (x3 & A3 & L3)); try lia; auto.
  rewrite pspace_op in E. injection E as <-.
  destruct Ho as (O1 & O2 & O3 & O4 & O5).
  set (D := [[nua s; noa s]; [nub s; nob s]; [nua s; nua s; noa s; noa s]; [nua s; nub s; noa s; nob s]; [nub s; nub s; nob s; nob s]]).
  assert (Dim : o_dims A o = D ++ [n0] :: [[n1]; [n2]; [n3]]) by (rewrite <- O3; reflexivity).
  unfold extend_pspace_t3_operator. cbn [length Nat.eqb combine seq t3_spincases extend_loop].
  destruct (extend_one_spec o 0 [La; La; La] n0 m0 x0 D [[n1]; [n2]; [n3]] A0 ltac:(lia) Dim eq_refl)
    as (p1 & -> & P11 & P12 & P13 & P14 & P15 & P16).
  destruct (extend_one_spec p1 1 [La; La; Lb] n1 m1 x1 (D ++ [[m0]]) [[n2]; [n3]]) as (p2 & -> & P21 & P22 & P23 & P24 & P25 & P26);
    [rewrite P15 by discriminate; assumption|lia|rewrite P13; reflexivity|reflexivity|].
  destruct (extend_one_spec p2 2 [La; Lb; Lb] n2 m2 x2 (D ++ [[m0]; [m1]]) [[n3]]) as (p3 & -> & P31 & P32 & P33 & P34 & P35 & P36);
    [rewrite P25, P15 by discriminate; assumption|lia|rewrite P23; reflexivity|reflexivity|].
  destruct (extend_one_spec p3 3 [Lb; Lb; Lb] n3 m3 x3 (D ++ [[m0]; [m1]; [m2]]) []) as (p4 & -> & P41 & P42 & P43 & P44 & P45 & P46);
    [rewrite P35, P25, P15 by discriminate; assumption|lia|rewrite P33; reflexivity|reflexivity|].
  exists p4. eexists. split; [reflexivity|]. split; [apply pspace_op|].
  assert (B0 : o_attrs A p4 [La; La; La] = Some (Arr A (mkArr A [m0] (x0 ++ repeat zero (m0 - n0)))))
    by (rewrite P45, P35, P25 by discriminate; assumption).
  assert (B1 : o_attrs A p4 [La; La; Lb] = Some (Arr A (mkArr A [m1] (x1 ++ repeat zero (m1 - n1)))))
    by (rewrite P45, P35 by discriminate; assumption).
  assert (B2 : o_attrs A p4 [La; Lb; Lb] = Some (Arr A (mkArr A [m2] (x2 ++ repeat zero (m2 - n2)))))
    by (rewrite P45 by discriminate; assumption).
  assert (C : forall nm, In nm [[La]; [Lb]; [La; La]; [La; Lb]; [Lb; Lb]] -> o_attrs A p4 nm = o_attrs A o nm).
  { intros nm Hnm. cbn in Hnm. rewrite P45, P35, P25, P15; [reflexivity| | | |];
    intuition (subst; discriminate). }
  split; [|split; [exact C|]].
  - split; [cbn; rewrite P41, P31, P21, P11; exact O1|].
    split; [rewrite P42, P32, P22, P12; exact O2|].
    split; [rewrite P43; reflexivity|]. split.
    + clear -O4 P16 P26 P36 P46. cbn [o_ndim assemble] in *. rewrite fold_ndim in *.
      cbn [map e_ndim dense_entry pspace_entry list_sum fold_right Nat.add] in *. lia.
    + intros nm Hnm.
      assert (Hsp : In nm [[La]; [Lb]; [La; La]; [La; Lb]; [Lb; Lb]] \/ In nm [[La; La; La]; [La; La; Lb]; [La; Lb; Lb]; [Lb; Lb; Lb]]).
      { cbn in Hnm |- *. tauto. }
      destruct Hsp as [Hsp|Hsp].
      * rewrite (C nm Hsp). destruct (O5 nm) as (x & y & Ex & Ey & K); [cbn; cbn in Hsp; tauto|].
        exists x, y. split; [|auto]. cbn in Hsp. rewrite <- Ex.
        repeat (destruct Hsp as [<-|Hsp]; [reflexivity|]). destruct Hsp.
      * assert (Hz : forall n m x, 0 < n <= m -> length x = n ->
          same_kind A (Arr A (if m =? 0 then zeros A zero [1] else zeros A zero [m])) (Arr A (mkArr A [m] (x ++ repeat zero (m - n))))).
        { intros n m x Hn Hx. destruct (Nat.eqb_spec m 0); [lia|]. cbn. repeat split; cbn; rewrite ?app_length, ?repeat_length; lia. }
        cbn in Hsp. destruct Hsp as [<-|[<-|[<-|[<-|[]]]]];
        eexists; eexists; (split; [reflexivity|]); (split; [eassumption|]); eapply Hz; eauto.
  - intros nm n m Hin. cbn [In] in Hin.
    destruct Hin as [Hin|[Hin|[Hin|[Hin|[]]]]]; injection Hin as <- <- <-; eexists; split; eassumption.
Qed.
End Build.
