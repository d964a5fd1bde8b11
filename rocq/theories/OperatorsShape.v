(** C06, what the cluster operator contains: one block per spin case, of the shape its order asks for, with each P-space or active-space
    order using its own list of sizes or number of active indices. *)
From Coq Require Import List Arith Bool Lia Sorted Permutation.
From Verif Require Import Base OperatorsModel OperatorsSpec OperatorsProofs OperatorsBuild.
Import ListNotations.

Section S.
Variable A : Type.
Variable zero : A.

Lemma spin_entries : forall s c i nact exc js es, cluster_spin_loop A zero s c i nact exc js = Some es ->
  map (e_name A) es = map (get_operator_name i) js /\
  forall j, In j js ->
    let nm := get_operator_name i j in
    (In i (active_orders c) -> In (active_entry A zero s i nm nact) es) /\
    (~ In i (active_orders c) -> In i (p_orders c) -> exists n, nth_error exc j = Some n /\ In (pspace_entry A zero nm n) es) /\
    (~ In i (active_orders c) -> ~ In i (p_orders c) -> In (dense_entry A zero nm (get_operator_dimension i j s)) es).
Proof.
  induction js as [|k js IH]; intros es H; cbn [cluster_spin_loop] in H.
  - injection H as <-. split; [reflexivity|]. intros j [].
  - destruct (cluster_spin_loop A zero s c i nact exc js) as [y|] eqn:Ey; [|destruct (if in_list i (active_orders c) then _ else _); discriminate].
    destruct (IH y eq_refl) as (I1 & I2).
    destruct (if in_list i (active_orders c) then _ else _) as [x|] eqn:Ex; [|discriminate]. injection H as <-.
    pose proof (in_list_In i (active_orders c)) as Q1. pose proof (in_list_In i (p_orders c)) as Q2.
    split.
    + cbn [map]. f_equal; [|exact I1]. destruct (in_list i (active_orders c)); [injection Ex as <-; reflexivity|].
      destruct (in_list i (p_orders c)); [destruct (nth_error exc k); [injection Ex as <-; reflexivity|discriminate]|injection Ex as <-; reflexivity].
    + intros j [<-|Hj] nm.
      * destruct (in_list i (active_orders c)); [injection Ex as <-; split; [intros; now left|]; split; intros K; exfalso; apply K; now apply Q1|].
        assert (~ In i (active_orders c)) by (intros K; apply Q1 in K; discriminate).
        destruct (in_list i (p_orders c)).
        -- destruct (nth_error exc k) as [n|]; [|discriminate]. injection Ex as <-. split; [intros; contradiction|]. split.
           ++ intros _ _. exists n. split; [reflexivity|now left].
           ++ intros _ K. exfalso. apply K. now apply Q2.
        -- injection Ex as <-. assert (~ In i (p_orders c)) by (intros K; apply Q2 in K; discriminate).
           split; [intros; contradiction|]. split; [intros; contradiction|]. intros. now left.
      * destruct (I2 j Hj) as (J1 & J2 & J3). split; [intros; right; auto|]. split.
        -- intros K1 K2. destruct (J2 K1 K2) as (n & E & K). exists n. split; [exact E|now right].
        -- intros. right. auto.
Qed.

(** Number of listed orders below i. *)
Definition rank (l : list nat) (i : nat) : nat := length (filter (fun x => in_list x l) (seq 1 (i - 1))).
Lemma rank_S : forall l i, 1 <= i -> rank l (S i) = if in_list i l then S (rank l i) else rank l i.
Proof.
  intros l i H. unfold rank. replace (S i - 1) with (S (i - 1)) by lia. rewrite seq_S, filter_app, app_length. replace (1 + (i - 1)) with i by lia.
  cbn [filter]. destruct (in_list i l); cbn [length]; lia.
Qed.
Lemma order_entries : forall s c m a es, 1 <= a ->
  cluster_order_loop A zero s c (seq a m) (rank (active_orders c) a) (rank (p_orders c) a) = Some es ->
  map (e_name A) es = flat_map (fun i => map (get_operator_name i) (seq 0 (i + 1))) (seq a m) /\
  forall i, a <= i < a + m -> exists nact exc x,
    cluster_spin_loop A zero s c i nact exc (seq 0 (i + 1)) = Some x /\ incl x es /\
    (In i (active_orders c) -> nth_error (num_active c) (rank (active_orders c) i) = Some nact) /\
    (In i (p_orders c) -> nth_error (pspace_sizes c) (rank (p_orders c) i) = Some exc).
Proof.
  intros s c. induction m as [|m IH]; intros a es Ha H; cbn [seq cluster_order_loop] in H.
  - injection H as <-. split; [reflexivity|]. intros; lia.
  - destruct (if in_list a (active_orders c) then _ else _) as [[nact ac']|] eqn:E1; [|discriminate].
    destruct (if in_list a (p_orders c) then _ else _) as [[exc pc']|] eqn:E2; [|discriminate].
    destruct (cluster_spin_loop A zero s c a nact exc (seq 0 (a + 1))) as [x|] eqn:E3; [|discriminate].
    destruct (cluster_order_loop A zero s c (seq (S a) m) ac' pc') as [y|] eqn:E4; [|discriminate]. injection H as <-.
    assert (F1 : ac' = rank (active_orders c) (S a)).
    { rewrite rank_S by lia. destruct (in_list a (active_orders c)); [destruct (nth_error (num_active c) _); [|discriminate]|]; now injection E1. }
    assert (F2 : pc' = rank (p_orders c) (S a)).
    { rewrite rank_S by lia. destruct (in_list a (p_orders c)); [destruct (nth_error (pspace_sizes c) _); [|discriminate]|]; now injection E2. }
    subst ac' pc'. destruct (IH (S a) y ltac:(lia) E4) as (I1 & I2). split.
    + rewrite map_app, I1. cbn [seq flat_map]. f_equal. exact (proj1 (spin_entries _ _ _ _ _ _ _ E3)).
    + intros i Hi. destruct (Nat.eq_dec i a) as [->|N].
      * exists nact, exc, x. split; [exact E3|]. split; [now apply incl_appl|]. split.
        -- intros K. apply in_list_In in K. rewrite K in E1. destruct (nth_error (num_active c) _); [|discriminate]. injection E1 as -> _. reflexivity.
        -- intros K. apply in_list_In in K. rewrite K in E2. destruct (nth_error (pspace_sizes c) _); [|discriminate]. injection E2 as -> _. reflexivity.
      * destruct (I2 i ltac:(lia)) as (na & ex & z & K1 & K2 & K3). exists na, ex, z. split; [exact K1|]. split; [now apply incl_appr|exact K3].
Qed.

(** In a strictly increasing list of orders the rank of the k-th one is k. *)
Lemma rank_nth : forall l, StronglySorted lt l -> (forall x, In x l -> 1 <= x) -> forall k i, nth_error l k = Some i -> rank l i = k.
Proof.
  intros l S P k i E. unfold rank.
  assert (Hk : k < length l) by (apply nth_error_Some; congruence).
  assert (Inc : forall p q, p < q -> q < length l -> nth p l 0 < nth q l 0).
  { clear -S. induction S as [|x l S IH F]; intros p q H1 H2; [cbn in H2; lia|]. cbn in H2. destruct p, q; try lia; cbn [nth].
    - rewrite Forall_forall in F. apply F, nth_In. lia.
    - apply IH; lia. }
  assert (Ei : nth k l 0 = i) by (apply nth_error_nth; exact E).
  transitivity (length (firstn k l)); [|rewrite firstn_length; lia]. apply Nat.le_antisymm; apply NoDup_incl_length.
  - apply NoDup_filter, seq_NoDup.
  - intros x Hx. apply filter_In in Hx as (Hx1 & Hx2). apply in_seq in Hx1. apply in_list_In in Hx2.
    destruct (In_nth l x 0 Hx2) as (p & Hp & <-). assert (p < k).
    { destruct (Nat.lt_ge_cases p k); [assumption|]. destruct (Nat.eq_dec p k); [subst; lia|]. specialize (Inc k p ltac:(lia) Hp). lia. }
    replace (nth p l 0) with (nth p (firstn k l) 0); [apply nth_In; rewrite firstn_length; lia|].
    rewrite <- (firstn_skipn k l) at 2. rewrite app_nth1 by (rewrite firstn_length; lia). reflexivity.
  - assert (ND : NoDup l).
    { clear -S. induction S as [|x l S IH F]; constructor; [|assumption]. intros K. rewrite Forall_forall in F. specialize (F x K). lia. }
    clear -ND. revert k. induction ND as [|x l N ND IH]; intros [|k]; cbn [firstn]; constructor; auto.
    intros K. apply N. rewrite <- (firstn_skipn k l). apply in_or_app. now left.
  - intros x Hx. assert (Hl : In x l) by (rewrite <- (firstn_skipn k l); apply in_or_app; now left). apply filter_In. split; [|now apply in_list_In].
    destruct (In_nth _ _ 0 Hx) as (p & Hp & <-). rewrite firstn_length in Hp. apply in_seq. specialize (P _ Hl).
    assert (nth p (firstn k l) 0 = nth p l 0) as Ep by (rewrite <- (firstn_skipn k l) at 2; rewrite app_nth1 by (rewrite firstn_length; lia); reflexivity).
    specialize (Inc p k ltac:(lia) Hk). lia.
Qed.

Lemma cluster_entries : forall s order c o, cluster_operator A zero s order c = Some o ->
  exists es, map (e_name A) es = flat_map (fun i => map (get_operator_name i) (seq 0 (i + 1))) (seq 1 order) /\
  (forall e, In e es -> o_attrs A o (e_name A e) = Some (e_attr A e)) /\ o_spin_cases A o = map (e_name A) es /\
  forall i, 1 <= i <= order -> exists nact exc x,
    cluster_spin_loop A zero s c i nact exc (seq 0 (i + 1)) = Some x /\ incl x es /\
    (In i (active_orders c) -> nth_error (num_active c) (rank (active_orders c) i) = Some nact) /\
    (In i (p_orders c) -> nth_error (pspace_sizes c) (rank (p_orders c) i) = Some exc).
Proof.
  intros s order c o H. unfold cluster_operator in H.
  destruct (cluster_order_loop A zero s c (seq 1 order) 0 0) as [es|] eqn:E; [|discriminate]. injection H as <-. exists es.
  destruct (order_entries s c order 1 es (Nat.le_refl _) E) as (I1 & I2). split; [exact I1|]. split; [|split; [reflexivity|]].
  - intros e He. cbn. destruct (assemble_lookup A es (fun _ => None)) as (_ & K); [rewrite I1; apply cluster_names_NoDup|]. now apply K.
  - intros i Hi. apply I2. lia.
Qed.

(** ** Statements *)
(** Array of the given shape holding only zeros. *)
Definition zero_array (dims : list nat) (x : arr A) : Prop := shape A x = dims /\ data A x = repeat zero (volume dims).
Lemma zeros_zero : forall dims, zero_array dims (zeros A zero dims).
Proof. intros. split; [reflexivity|]. cbn. f_equal. Qed.

(** Increasing lists of orders from 1 to n. *)
Definition orders_upto (n : nat) (l : list nat) : Prop := StronglySorted lt l /\ forall x, In x l -> 1 <= x <= n.
(** The spin case with i-j alpha and j beta indices. *)
Definition spin_case (i j : nat) : name := repeat La (i - j) ++ repeat Lb j.

Theorem C06_spin_cases : forall s order c o, cluster_operator A zero s order c = Some o ->
  forall nm, In nm (o_spin_cases A o) <-> exists i j, 1 <= i <= order /\ j <= i /\ nm = spin_case i j.
Proof.
  intros s order c o H nm. destruct (cluster_entries s order c o H) as (es & N & _ & -> & _). rewrite N, in_flat_map. split.
  - intros (i & Hi & K). apply in_map_iff in K as (j & <- & Hj). apply in_seq in Hi, Hj. exists i, j. repeat split; lia.
  - intros (i & j & Hi & Hj & ->). exists i. split; [apply in_seq; lia|]. apply in_map_iff. exists j. split; [reflexivity|apply in_seq; lia].
Qed.
Theorem C06_dense_shape : forall s order c o i j, cluster_operator A zero s order c = Some o ->
  1 <= i <= order -> j <= i -> ~ In i (active_orders c) -> ~ In i (p_orders c) ->
  exists x, o_attrs A o (spin_case i j) = Some (Arr A x) /\
    zero_array (repeat (nua s) (i - j) ++ repeat (nub s) j ++ repeat (noa s) (i - j) ++ repeat (nob s) j) x.
Proof.
  intros s order c o i j H Hi Hj N1 N2. destruct (cluster_entries s order c o H) as (es & _ & L & _ & G).
  destruct (G i Hi) as (na & ex & x & E & I & _). destruct (spin_entries _ _ _ _ _ _ _ E) as (_ & K).
  destruct (K j) as (_ & _ & K3); [apply in_seq; lia|]. specialize (K3 N1 N2). apply I, L in K3. cbn [e_name e_attr dense_entry] in K3.
  eexists. split; [exact K3|]. unfold get_operator_dimension. rewrite <- app_assoc. apply zeros_zero.
Qed.
Theorem C06_pspace_shape : forall s order c o i j k, cluster_operator A zero s order c = Some o -> orders_upto order (p_orders c) ->
  1 <= i <= order -> j <= i -> ~ In i (active_orders c) -> nth_error (p_orders c) k = Some i ->
  exists sizes n x, nth_error (pspace_sizes c) k = Some sizes /\ nth_error sizes j = Some n /\
    o_attrs A o (spin_case i j) = Some (Arr A x) /\ zero_array [if n =? 0 then 1 else n] x.
Proof.
  intros s order c o i j k H (So & B) Hi Hj N1 Ek. destruct (cluster_entries s order c o H) as (es & _ & L & _ & G).
  destruct (G i Hi) as (na & ex & x & E & I & _ & P). destruct (spin_entries _ _ _ _ _ _ _ E) as (_ & K).
  assert (Ip : In i (p_orders c)) by (eapply nth_error_In; eassumption). specialize (P Ip). rewrite (rank_nth _ So (fun x h => proj1 (B x h)) k i Ek) in P.
  destruct (K j) as (_ & K2 & _); [apply in_seq; lia|]. destruct (K2 N1 Ip) as (n & En & Hn). apply I, L in Hn. cbn [e_name e_attr pspace_entry] in Hn.
  exists ex, n. eexists. split; [exact P|]. split; [exact En|]. split; [exact Hn|]. destruct (n =? 0); apply zeros_zero.
Qed.

(** Active-space blocks: w is a block of an operator with i-j alpha and j beta indices when it lists, for each spin, some active (V) then
    some inactive (v) unoccupied letters, then inactive (o) then active (O) occupied letters. *)
Definition active_block (i j : nat) (w : slice) (pa pb ha hb : nat) : Prop :=
  pa <= i - j /\ pb <= j /\ ha <= i - j /\ hb <= j /\
  w = (repeat LV pa ++ repeat Lv (i - j - pa)) ++ (repeat LV pb ++ repeat Lv (j - pb))
      ++ (repeat Lo (i - j - ha) ++ repeat LO ha) ++ (repeat Lo (j - hb) ++ repeat LO hb).
Definition block_dims (s : sysdims) (i j pa pb ha hb : nat) : list nat :=
  (repeat (act_ua s) pa ++ repeat (norb s - (noa s + act_ua s)) (i - j - pa)) ++ (repeat (act_ub s) pb ++ repeat (norb s - (nob s + act_ub s)) (j - pb))
  ++ (repeat (noa s - act_oa s) (i - j - ha) ++ repeat (noa s - (noa s - act_oa s)) ha)
  ++ (repeat (nob s - act_ob s) (j - hb) ++ repeat (nob s - (nob s - act_ob s)) hb).

Lemma name_counts : forall i j, j <= i ->
  let dbl := get_operator_name i j ++ get_operator_name i j in
  count_l La (firstn i dbl) = i - j /\ count_l Lb (firstn i dbl) = j /\
  count_l La (firstn i (skipn i dbl)) = i - j /\ count_l Lb (firstn i (skipn i dbl)) = j.
Proof.
  intros i j Hj dbl. assert (Ln : length (get_operator_name i j) = i) by (apply operator_name_length; lia).
  assert (F1 : firstn i dbl = get_operator_name i j) by (subst dbl; rewrite firstn_app, Ln, Nat.sub_diag, firstn_all2 by lia; cbn; apply app_nil_r).
  assert (F2 : firstn i (skipn i dbl) = get_operator_name i j) by (subst dbl; rewrite skipn_app, Ln, Nat.sub_diag, skipn_all2 by lia; cbn [app skipn]; apply firstn_all2; lia).
  rewrite F1, F2. unfold count_l, get_operator_name. rewrite !count_occ_app.
  rewrite !count_repeat_same, !count_repeat_other by discriminate. lia.
Qed.
Lemma map_repeat : forall X Y (f : X -> Y) x n, map f (repeat x n) = repeat (f x) n.
Proof. induction n; cbn; [reflexivity|now rewrite IHn]. Qed.
Lemma in_particles : forall n w, In w (get_particle_combinations n) <-> exists p, p <= n /\ w = repeat LV p ++ repeat Lv (n - p).
Proof.
  intros. unfold get_particle_combinations. rewrite in_map_iff. split.
  - intros (x & <- & H). apply in_seq in H. exists (n - x). split; [lia|]. f_equal. f_equal. lia.
  - intros (p & Hp & ->). exists (n - p). split; [f_equal; f_equal; lia|apply in_seq; lia].
Qed.
Lemma in_holes : forall n w, In w (get_hole_combinations n) <-> exists h, h <= n /\ w = repeat Lo (n - h) ++ repeat LO h.
Proof.
  intros. unfold get_hole_combinations. rewrite in_map_iff. split.
  - intros (x & <- & H). apply in_seq in H. exists (n - x). split; [lia|]. f_equal. f_equal. lia.
  - intros (p & Hp & ->). exists (n - p). split; [f_equal; f_equal; lia|apply in_seq; lia].
Qed.
Lemma in_blocks : forall s i j na b, j <= i -> In b (active_blocks s i (get_operator_name i j) na) <->
  exists pa pb ha hb, active_block i j (fst b) pa pb ha hb /\ na <= ha + hb /\ na <= pa + pb /\ snd b = block_dims s i j pa pb ha hb.
Proof.
  intros s i j na b Hj. unfold active_blocks. destruct (name_counts i j Hj) as (C1 & C2 & C3 & C4). rewrite C1, C2, C3, C4.
  assert (Cnt : forall pa pb ha hb w, w = (repeat LV pa ++ repeat Lv (i - j - pa)) ++ (repeat LV pb ++ repeat Lv (j - pb))
      ++ (repeat Lo (i - j - ha) ++ repeat LO ha) ++ (repeat Lo (j - hb) ++ repeat LO hb) -> count_o LO w = ha + hb /\ count_o LV w = pa + pb).
  { intros. subst w. unfold count_o. rewrite !count_occ_app. rewrite !count_repeat_same, !count_repeat_other by discriminate. lia. }
  assert (Dm : forall pa pb ha hb,
    map (dims_alpha s) (repeat LV pa ++ repeat Lv (i - j - pa)) ++ map (dims_beta s) (repeat LV pb ++ repeat Lv (j - pb))
    ++ map (dims_alpha s) (repeat Lo (i - j - ha) ++ repeat LO ha) ++ map (dims_beta s) (repeat Lo (j - hb) ++ repeat LO hb) = block_dims s i j pa pb ha hb).
  { intros. rewrite !map_app, !map_repeat. cbn [dims_alpha dims_beta]. unfold block_dims.
    replace (noa s + act_ua s - noa s) with (act_ua s) by lia. replace (nob s + act_ub s - nob s) with (act_ub s) by lia. reflexivity. }
  split.
  - intros H. apply in_flat_map in H as (wa & Ha & H). apply in_flat_map in H as (wb & Hb & H). apply in_flat_map in H as (va & Hva & H). apply in_flat_map in H as (vb & Hvb & H).
    apply in_particles in Ha as (pa & Ha & ->), Hb as (pb & Hb & ->). apply in_holes in Hva as (ha & Hva & ->), Hvb as (hb & Hvb & ->).
    destruct (Cnt pa pb ha hb _ eq_refl) as (K1 & K2). rewrite K1, K2 in H.
    destruct ((na <=? ha + hb) && (na <=? pa + pb)) eqn:T; [|destruct H]. destruct H as [<-|[]]. apply andb_prop in T as (T1 & T2). apply Nat.leb_le in T1, T2.
    exists pa, pb, ha, hb. cbn [fst snd]. split; [unfold active_block; auto|]. split; [exact T1|]. split; [exact T2|]. apply Dm.
  - intros (pa & pb & ha & hb & (Ha & Hb & Hva & Hvb & E) & T1 & T2 & D). destruct b as [w d]. cbn [fst snd] in *.
    apply in_flat_map. exists (repeat LV pa ++ repeat Lv (i - j - pa)). split; [apply in_particles; eauto|].
    apply in_flat_map. exists (repeat LV pb ++ repeat Lv (j - pb)). split; [apply in_particles; eauto|].
    apply in_flat_map. exists (repeat Lo (i - j - ha) ++ repeat LO ha). split; [apply in_holes; eauto|].
    apply in_flat_map. exists (repeat Lo (j - hb) ++ repeat LO hb). split; [apply in_holes; eauto|].
    destruct (Cnt pa pb ha hb _ eq_refl) as (K1 & K2). rewrite K1, K2. apply Nat.leb_le in T1, T2. rewrite T1, T2. cbn [andb]. left.
    rewrite Dm, <- E, <- D. reflexivity.
Qed.
Lemma make_active_attr : forall s i j na b, In b (active_blocks s i (get_operator_name i j) na) ->
  a_attrs A (make_active A zero s i (get_operator_name i j) na) (fst b) = Some (zeros A zero (snd b)).
Proof.
  intros s i j na b Hb. pose proof (active_blocks_NoDup s i (get_operator_name i j) na) as HN. unfold make_active. cbn [a_attrs].
  set (bl := active_blocks s i (get_operator_name i j) na) in *. clearbody bl. revert Hb HN.
  assert (G : forall l (d : dict slice (arr A)), NoDup (map fst l) ->
     (forall n, ~ In n (map fst l) -> fold_left (fun d (b : slice * list nat) => upd slice_eq_dec d (fst b) (zeros A zero (snd b))) l d n = d n) /\
     (forall b, In b l -> fold_left (fun d (b : slice * list nat) => upd slice_eq_dec d (fst b) (zeros A zero (snd b))) l d (fst b) = Some (zeros A zero (snd b)))).
  { induction l as [|x l IH]; intros d Hn; cbn; [split; [reflexivity|intros ? []]|].
    inversion Hn; subst. destruct (IH (upd slice_eq_dec d (fst x) (zeros A zero (snd x))) H2) as [I1 I2]. split.
    - intros n Hn'. rewrite I1 by tauto. apply upd_other. intro; subst; tauto.
    - intros b' [<-|Hb]; [|now apply I2]. rewrite I1 by assumption. apply upd_same. }
  intros Hb HN. now apply (proj2 (G bl (fun _ => None) HN)).
Qed.
Theorem C06_active_shape : forall s order c o i j k, cluster_operator A zero s order c = Some o -> orders_upto order (active_orders c) ->
  1 <= i <= order -> j <= i -> nth_error (active_orders c) k = Some i ->
  exists na a, nth_error (num_active c) k = Some na /\ o_attrs A o (spin_case i j) = Some (Act A a) /\
    (forall w, In w (a_slices A a) <-> exists pa pb ha hb, active_block i j w pa pb ha hb /\ na <= ha + hb /\ na <= pa + pb) /\
    (forall w pa pb ha hb, active_block i j w pa pb ha hb -> na <= ha + hb -> na <= pa + pb ->
       exists x, a_attrs A a w = Some x /\ zero_array (block_dims s i j pa pb ha hb) x).
Proof.
  intros s order c o i j k H (So & B) Hi Hj Ek. destruct (cluster_entries s order c o H) as (es & _ & L & _ & G).
  destruct (G i Hi) as (na & ex & x & E & I & P & _). destruct (spin_entries _ _ _ _ _ _ _ E) as (_ & K).
  assert (Ia : In i (active_orders c)) by (eapply nth_error_In; eassumption). specialize (P Ia). rewrite (rank_nth _ So (fun x h => proj1 (B x h)) k i Ek) in P.
  destruct (K j) as (K1 & _); [apply in_seq; lia|]. specialize (K1 Ia). apply I, L in K1. cbn [e_name e_attr active_entry] in K1.
  exists na. eexists. split; [exact P|]. split; [exact K1|]. split.
  - intros w. cbn [a_slices make_active]. rewrite in_map_iff. split.
    + intros (b & <- & Hb). apply in_blocks in Hb as (pa & pb & ha & hb & X1 & X2 & X3 & _); [|exact Hj]. exists pa, pb, ha, hb. auto.
    + intros (pa & pb & ha & hb & X1 & X2 & X3). exists (w, block_dims s i j pa pb ha hb). split; [reflexivity|]. apply in_blocks; [exact Hj|]. exists pa, pb, ha, hb. auto.
  - intros w pa pb ha hb X1 X2 X3. exists (zeros A zero (block_dims s i j pa pb ha hb)). split; [|apply zeros_zero].
    apply (make_active_attr s i j na (w, block_dims s i j pa pb ha hb)). apply in_blocks; [exact Hj|]. exists pa, pb, ha, hb. auto.
Qed.
End S.

(** Two active orders with different numbers of active indices. *)
Definition demo_sys2 : sysdims :=
  {| noa := 2; nob := 2; nua := 2; nub := 2; norb := 4; act_oa := 1; act_ob := 1; act_ua := 1; act_ub := 1 |}.
Example C06_shape_instance : orders_upto 3 [2; 3] /\ exists o, cluster_operator nat 0 demo_sys2 3 (mkConfig [] [] [2; 3] [1; 2]) = Some o.
Proof.
  split; [split; [repeat constructor|intros x [<-|[<-|[]]]; lia]|]. destruct (cluster_operator nat 0 demo_sys2 3 (mkConfig [] [] [2; 3] [1; 2])) eqn:E; [eauto|]. vm_compute in E. discriminate.
Qed.
Print Assumptions C06_spin_cases.
Print Assumptions C06_dense_shape.
Print Assumptions C06_pspace_shape.
Print Assumptions C06_active_shape.
