(** C19: argsort.  C20: index tables and block lookup. *)
From Coq Require Import List Arith Bool ZArith Reals Lia Lra Permutation.
From Verif Require Import SortModel SortSpec SortProofs TableModel TableSpec TableProofs.
Import ListNotations.
Open Scope nat_scope.

(** * C19 *)
Theorem C19_argsort : forall r, index_vector (length r) (argsort r) /\ ascending r (argsort r).
Proof. exact argsort_correct. Qed.
Theorem C19_argsort_descending : forall r, index_vector (length r) (argsort_r8_descend r) /\ descending r (argsort_r8_descend r).
Proof. exact argsort_r8_correct. Qed.
Example C19_instance : argsort [5; 2; 9; 2; 7; 1; 1] = [7; 6; 4; 2; 1; 5; 3].
Proof. reflexivity. Qed.

(** * C20 *)
Open Scope Z_scope.
Lemma zlt_t : forall a b, a < b -> (a <? b) = true. Proof. intros; now apply Z.ltb_lt. Qed.

(** The range of a table: the bounds of an index with a negative first range value are relative to the index before it. *)
Definition range3 (r1 r2 r3 : Z * Z) (t : list Z) : Prop :=
  match t with
  | [p; q; r] =>
      fst r1 <= p <= snd r1 /\
      (if fst r2 <? 0 then p - fst r2 else fst r2) <= q <= snd r2 /\
      (if fst r3 <? 0 then q - fst r3 else fst r3) <= r <= snd r3
  | _ => False
  end.
(** Sign patterns for which the three-index routine has a branch. *)
Definition supported3 (r1 r2 r3 : Z * Z) : Prop := 0 < fst r1 /\ fst r2 <> 0 /\ fst r3 <> 0.

Lemma nest3 : forall l1 l2 l3 t, In t (nest_tuples [l1; l2; l3] 0) <->
  exists p q r, t = [p; q; r] /\ In p (loop_range l1 0) /\ In q (loop_range l2 p) /\ In r (loop_range l3 q).
Proof.
  intros. rewrite in_nest_cons. split.
  - intros (p & u & -> & Hp & H). rewrite in_nest_cons in H. destruct H as (q & u' & -> & Hq & H).
    rewrite in_nest_cons in H. destruct H as (r & u'' & -> & Hr & H). apply in_nest_nil in H as ->. exists p, q, r. auto.
  - intros (p & q & r & -> & Hp & Hq & Hr). exists p, [q; r]. repeat split; auto. rewrite in_nest_cons. exists q, [r]. repeat split; auto.
    rewrite in_nest_cons. exists r, []. repeat split; auto. now apply in_nest_nil.
Qed.
Lemma nest4 : forall l1 l2 l3 l4 t, In t (nest_tuples [l1; l2; l3; l4] 0) <->
  exists p q r s, t = [p; q; r; s] /\ In p (loop_range l1 0) /\ In q (loop_range l2 p) /\ In r (loop_range l3 q) /\ In s (loop_range l4 r).
Proof.
  intros. rewrite in_nest_cons. split.
  - intros (p & u & -> & Hp & H). rewrite in_nest_cons in H. destruct H as (q & u' & -> & Hq & H).
    rewrite in_nest_cons in H. destruct H as (r & u'' & -> & Hr & H). rewrite in_nest_cons in H. destruct H as (s & u3 & -> & Hs & H).
    apply in_nest_nil in H as ->. exists p, q, r, s. auto.
  - intros (p & q & r & s & -> & Hp & Hq & Hr & Hs). exists p, [q; r; s]. repeat split; auto. rewrite in_nest_cons. exists q, [r; s]. repeat split; auto.
    rewrite in_nest_cons. exists r, [s]. repeat split; auto. rewrite in_nest_cons. exists s, []. repeat split; auto. now apply in_nest_nil.
Qed.

Theorem C20_table3_range : forall r1 r2 r3, supported3 r1 r2 r3 -> exists K, numbering (range3 r1 r2 r3) (get_index_table3 r1 r2 r3) K.
Proof.
  intros [a1 b1] [a2 b2] [a3 b3] (S1 & S2 & S3). cbn [fst snd] in *. unfold get_index_table3.
  eexists. eapply numbering_ext; [|reflexivity|apply fill_numbering]. intros t. unfold branch3. cbn [fst snd].
  assert (G : forall l2 l3, In t (nest_tuples [Abs (a1, b1); l2; l3] 0) <->
    match t with [p; q; r] => In p (zrange a1 b1) /\ In q (loop_range l2 p) /\ In r (loop_range l3 q) | _ => False end).
  { intros. rewrite nest3. split.
    - intros (p & q & r & -> & H). exact H.
    - destruct t as [|p [|q [|r [|? ?]]]]; try contradiction. intros H. exists p, q, r. auto. }
  rewrite (zlt_t 0 a1 S1). cbn [andb].
  destruct (Z.ltb_spec a2 0), (Z.ltb_spec a3 0), (Z.ltb_spec 0 a2), (Z.ltb_spec 0 a3); try lia; cbn [andb]; rewrite G; unfold range3; cbn [fst snd loop_range];
    destruct t as [|p [|q [|r [|? ?]]]]; try reflexivity; rewrite !in_zrange;
    repeat match goal with |- context [?a <? ?b] => destruct (Z.ltb_spec a b) end; try lia; reflexivity.
Qed.

(** The tables used by the kernels: ordered triples, an ordered pair with a free index on either side, three free indices;
    with four indices, an ordered triple and a free index, two ordered pairs, an ordered pair and two free indices, and four free
    indices. *)

Theorem C20_ordered_triples : forall n, 0 <= n ->
  numbering (fun t => exists p q r, t = [p; q; r] /\ 1 <= p < q /\ q < r <= n)
    (get_index_table3 (1, n - 2) (-1, n - 1) (-1, n)) (Z.to_nat (triples n)).
Proof.
  intros n Hn. eapply numbering_ext; [| |apply fill_numbering].
  - intros t. cbn [branch3 fst snd Z.ltb Z.compare andb]. rewrite nest3. cbn [loop_range].
    split; intros (p & q & r & -> & H); exists p, q, r; (split; [reflexivity|]); rewrite ?in_zrange in *; lia.
  - cbn [branch3 fst snd Z.ltb Z.compare andb]. rewrite count_triples by (cbn; auto). cbn [nest_tuples length]. lia.
Qed.
Theorem C20_free_then_pair : forall m n, 0 <= m -> 0 <= n ->
  numbering (fun t => exists p q r, t = [p; q; r] /\ 1 <= p <= m /\ 1 <= q < r /\ r <= n)
    (get_index_table3 (1, m) (1, n - 1) (-1, n)) (Z.to_nat (m * pairs n)).
Proof.
  intros m n Hm Hn. eapply numbering_ext; [| |apply fill_numbering].
  - intros t. cbn [branch3 fst snd Z.ltb Z.compare andb]. rewrite nest3. cbn [loop_range].
    split; intros (p & q & r & -> & H); exists p, q, r; (split; [reflexivity|]); rewrite ?in_zrange in *; lia.
  - cbn [branch3 fst snd Z.ltb Z.compare andb]. rewrite count_abs by (cbn; auto). rewrite count_pairs by (cbn; auto). cbn [nest_tuples length].
    pose proof (pairs_nonneg n). rewrite Z2Nat.inj_mul; lia.
Qed.
Theorem C20_pair_then_free : forall m n, 0 <= m -> 0 <= n ->
  numbering (fun t => exists p q r, t = [p; q; r] /\ 1 <= p < q /\ q <= n /\ 1 <= r <= m)
    (get_index_table3 (1, n - 1) (-1, n) (1, m)) (Z.to_nat (pairs n * m)).
Proof.
  intros m n Hm Hn. eapply numbering_ext; [| |apply fill_numbering].
  - intros t. cbn [branch3 fst snd Z.ltb Z.compare andb]. rewrite nest3. cbn [loop_range].
    split; intros (p & q & r & -> & H); exists p, q, r; (split; [reflexivity|]); rewrite ?in_zrange in *; lia.
  - cbn [branch3 fst snd Z.ltb Z.compare andb]. rewrite count_pairs by (cbn; auto). rewrite count_abs by (cbn; auto). cbn [nest_tuples length].
    pose proof (pairs_nonneg n). rewrite Z2Nat.inj_mul; lia.
Qed.
Theorem C20_three_free : forall l m n, 0 <= l -> 0 <= m -> 0 <= n ->
  numbering (fun t => exists p q r, t = [p; q; r] /\ 1 <= p <= l /\ 1 <= q <= m /\ 1 <= r <= n)
    (get_index_table3 (1, l) (1, m) (1, n)) (Z.to_nat (l * m * n)).
Proof.
  intros l m n Hl Hm Hn. eapply numbering_ext; [| |apply fill_numbering].
  - intros t. cbn [branch3 fst snd Z.ltb Z.compare andb]. rewrite nest3. cbn [loop_range].
    split; intros (p & q & r & -> & H); exists p, q, r; (split; [reflexivity|]); rewrite ?in_zrange in *; lia.
  - cbn [branch3 fst snd Z.ltb Z.compare andb]. rewrite !count_abs by (cbn; auto). cbn [nest_tuples length]. rewrite !Z2Nat.inj_mul; lia.
Qed.

Theorem C20_triple_and_free : forall n m, 0 <= n -> 0 <= m ->
  numbering (fun t => exists p q r s, t = [p; q; r; s] /\ 1 <= p < q /\ q < r <= n /\ 1 <= s <= m)
    (get_index_table4 (1, n - 2) (-1, n - 1) (-1, n) (1, m)) (Z.to_nat (triples n * m)).
Proof.
  intros n m Hn Hm. eapply numbering_ext; [| |apply fill_numbering].
  - intros t. cbn [branch4 fst snd Z.ltb Z.compare andb]. rewrite nest4. cbn [loop_range].
    split; intros (p & q & r & s & -> & H); exists p, q, r, s; (split; [reflexivity|]); rewrite ?in_zrange in *; lia.
  - cbn [branch4 fst snd Z.ltb Z.compare andb]. rewrite count_triples, count_abs by (cbn; auto). cbn [nest_tuples length].
    pose proof (triples_nonneg n Hn). rewrite Z2Nat.inj_mul; lia.
Qed.
Theorem C20_two_pairs : forall n m, 0 <= n -> 0 <= m ->
  numbering (fun t => exists p q r s, t = [p; q; r; s] /\ 1 <= p < q /\ q <= n /\ 1 <= r < s /\ s <= m)
    (get_index_table4 (1, n - 1) (-1, n) (1, m - 1) (-1, m)) (Z.to_nat (pairs n * pairs m)).
Proof.
  intros n m Hn Hm. eapply numbering_ext; [| |apply fill_numbering].
  - intros t. cbn [branch4 fst snd Z.ltb Z.compare andb]. rewrite nest4. cbn [loop_range].
    split; intros (p & q & r & s & -> & H); exists p, q, r, s; (split; [reflexivity|]); rewrite ?in_zrange in *; lia.
  - cbn [branch4 fst snd Z.ltb Z.compare andb]. rewrite !count_pairs by (cbn; auto). cbn [nest_tuples length].
    pose proof (pairs_nonneg n). pose proof (pairs_nonneg m). rewrite Z2Nat.inj_mul; lia.
Qed.
Theorem C20_pair_and_two_free : forall n m l, 0 <= n -> 0 <= m -> 0 <= l ->
  numbering (fun t => exists p q r s, t = [p; q; r; s] /\ 1 <= p < q /\ q <= n /\ 1 <= r <= m /\ 1 <= s <= l)
    (get_index_table4 (1, n - 1) (-1, n) (1, m) (1, l)) (Z.to_nat (pairs n * m * l)).
Proof.
  intros n m l Hn Hm Hl. eapply numbering_ext; [| |apply fill_numbering].
  - intros t. cbn [branch4 fst snd Z.ltb Z.compare andb]. rewrite nest4. cbn [loop_range].
    split; intros (p & q & r & s & -> & H); exists p, q, r, s; (split; [reflexivity|]); rewrite ?in_zrange in *; lia.
  - cbn [branch4 fst snd Z.ltb Z.compare andb]. rewrite count_pairs, !count_abs by (cbn; auto). cbn [nest_tuples length].
    pose proof (pairs_nonneg n). rewrite !Z2Nat.inj_mul; lia.
Qed.
Theorem C20_four_free : forall k l m n, 0 <= k -> 0 <= l -> 0 <= m -> 0 <= n ->
  numbering (fun t => exists p q r s, t = [p; q; r; s] /\ 1 <= p <= k /\ 1 <= q <= l /\ 1 <= r <= m /\ 1 <= s <= n)
    (get_index_table4 (1, k) (1, l) (1, m) (1, n)) (Z.to_nat (k * l * m * n)).
Proof.
  intros k l m n Hk Hl Hm Hn. eapply numbering_ext; [| |apply fill_numbering].
  - intros t. cbn [branch4 fst snd Z.ltb Z.compare andb]. rewrite nest4. cbn [loop_range].
    split; intros (p & q & r & s & -> & H); exists p, q, r, s; (split; [reflexivity|]); rewrite ?in_zrange in *; lia.
  - cbn [branch4 fst snd Z.ltb Z.compare andb]. rewrite !count_abs by (cbn; auto). cbn [nest_tuples length].
    assert (0 <= k * l) by nia. assert (0 <= k * l * m) by nia. rewrite !Z2Nat.inj_mul; lia.
Qed.
Example C20_table_instance : get_index_table3 (1, 5 - 2) (-1, 5 - 1) (-1, 5) [2; 3; 5] = 8%nat /\ triples 5 = 10.
Proof. split; reflexivity. Qed.
Close Scope Z_scope.

(** Block lookup.  [rows] are excitations with whatever travels with them (sort4 permutes excitations, amplitudes and residuals with
    one index vector). *)
Section Lookup.
Variables row amp : Type.
Variables (r0 : row) (a0 : amp).
Variable key : row -> nat.
(** The (excitation, amplitude) pairs met by the loop over the block of table entry t. *)
Definition met (loc : locs) (rows : list row) (amps : list amp) (t : nat) : list (row * amp) :=
  map (fun j => (nth (j - 1) rows r0, nth (j - 1) amps a0)) (visited loc t).
End Lookup.
Arguments met {row amp}.

Lemma take_combine : forall A B (a0 : A) (b0 : B) la lb idx, length la = length lb ->
  combine (take a0 la idx) (take b0 lb idx) = take (a0, b0) (combine la lb) idx.
Proof.
  intros. unfold take. induction idx as [|i idx IH]; [reflexivity|]. cbn [map combine]. rewrite IH. f_equal. now rewrite combine_nth.
Qed.
Lemma met_filter : forall row amp (r0 : row) (a0 : amp) key loc rows amps, length rows = length amps -> delimits row r0 key loc rows ->
  forall t, met r0 a0 loc rows amps t = filter (fun x => key (fst x) =? t) (combine rows amps).
Proof.
  intros row amp r0 a0 key loc rows amps L D t.
  pose proof (visited_filter (row * amp) (r0, a0) (fun x => key (fst x)) loc (combine rows amps)) as V.
  unfold met. rewrite <- V.
  - unfold take. apply map_ext. intros j. now rewrite combine_nth.
  - intros u. destruct (D u) as (D1 & D2 & D3). rewrite combine_length, <- L, Nat.min_id. split; [|auto]. intros p Hp. rewrite combine_nth by exact L. now apply D1.
Qed.
Lemma sorted_combine : forall row amp (r0 : row) (a0 : amp) key rows amps, length rows = length amps ->
  Permutation (combine rows amps) (combine (sort_rows r0 key rows) (take a0 amps (sort_index key rows))).
Proof.
  intros. unfold sort_rows. rewrite take_combine by assumption. apply take_perm. rewrite combine_length, <- H, Nat.min_id, <- (map_length key). apply argsort_correct.
Qed.
Lemma sort_length : forall row (r0 : row) key rows, length (sort_rows r0 key rows) = length rows.
Proof. intros. symmetry. apply Permutation_length, sort_rows_perm. Qed.
Lemma Permutation_filter : forall A (f : A -> bool) l l', Permutation l l' -> Permutation (filter f l) (filter f l').
Proof.
  induction 1; cbn; [constructor| | |eapply perm_trans; eassumption].
  - destruct (f x); [now constructor|assumption].
  - destruct (f x), (f y); try apply Permutation_refl; try apply perm_swap.
Qed.

Theorem C20_sort4_blocks : forall row amp (r0 : row) (a0 : amp) key placeholder rows amps,
  length rows = length amps -> rows <> [] -> (forall r, rows = [r] -> placeholder r = false) ->
  let rows' := sort_rows r0 key rows in let amps' := take a0 amps (sort_index key rows) in
  Permutation (combine rows amps) (combine rows' amps') /\
  forall t, Permutation (filter (fun x => key (fst x) =? t) (combine rows amps)) (met r0 a0 (loc4 r0 key placeholder rows') rows' amps' t).
Proof.
  intros row amp r0 a0 key ph rows amps L N1 N2 rows' amps'. pose proof (sorted_combine row amp r0 a0 key rows amps L) as P.
  fold rows' amps' in P. split; [exact P|]. intros t.
  assert (Pr : Permutation rows rows') by apply sort_rows_perm.
  assert (D : delimits row r0 key (loc4 r0 key ph rows') rows').
  { assert (F : delimits row r0 key (set_end (loc_loop r0 key rows') (key (last rows' r0)) (length rows')) rows').
    { apply final_delimits.
      - intros p q H1 H2. apply sort_rows_sorted; [exact H1|]. now rewrite (Permutation_length Pr).
      - rewrite <- (Permutation_length Pr). destruct rows; [congruence|cbn; lia]. }
    unfold loc4. destruct rows' as [|x [|y l]] eqn:E.
    - apply Permutation_sym, Permutation_nil in Pr. congruence.
    - apply Permutation_sym, Permutation_length_1_inv in Pr. rewrite (N2 x Pr). exact F.
    - exact F. }
  rewrite (met_filter row amp r0 a0 key (loc4 r0 key ph rows') rows' amps') by
    (try exact D; rewrite (Permutation_length (Permutation_sym Pr)); unfold amps', take; rewrite map_length;
     unfold sort_index; destruct (argsort_correct (map key rows)) as (Q & _); apply Permutation_length in Q; rewrite seq_length, map_length in Q; exact Q).
  now apply Permutation_filter.
Qed.
Theorem C20_sort3_blocks : forall row (r0 : row) key rows, 2 <= length rows ->
  let rows' := sort_rows r0 key rows in
  Permutation rows rows' /\
  forall t, Permutation (filter (fun x => key x =? t) rows) (take r0 rows' (visited (loc3 r0 key rows') t)).
Proof.
  intros row r0 key rows L rows'. assert (Pr : Permutation rows rows') by apply sort_rows_perm. split; [exact Pr|]. intros t.
  rewrite (visited_filter row r0 key).
  - now apply Permutation_filter.
  - unfold loc3. rewrite <- (Permutation_length Pr). assert (1 <? length rows = true) as -> by (apply Nat.ltb_lt; lia).
    rewrite (Permutation_length Pr). apply final_delimits.
    + intros p q H1 H2. apply sort_rows_sorted; [exact H1|]. now rewrite (Permutation_length Pr).
    + rewrite <- (Permutation_length Pr). lia.
Qed.
(** With one excitation sort3 records no block: the loop over the block of that excitation's entry does nothing. *)
Theorem C20_sort3_single_excitation_refuted : forall row (r0 : row) key r,
  sort_rows r0 key [r] = [r] /\ filter (fun x => key x =? key r) [r] = [r] /\
  forall t, visited (loc3 r0 key [r]) t = [].
Proof. intros. split; [reflexivity|]. split; [cbn; now rewrite Nat.eqb_refl|reflexivity]. Qed.
(** The placeholder list of sort4 gives no block at all. *)
Theorem C20_sort4_placeholder : forall row (r0 : row) key (placeholder : row -> bool) r, placeholder r = true ->
  forall t, visited (loc4 r0 key placeholder (sort_rows r0 key [r])) t = [].
Proof. intros. change (sort_rows r0 key [r]) with [r]. unfold loc4. rewrite H. reflexivity. Qed.
Example C20_lookup_instance :
  let rows := [(3, 1); (1, 2); (3, 4); (2, 5)] in
  met (0, 0) 0 (loc4 (0, 0) fst (fun _ => false) (sort_rows (0, 0) fst rows)) (sort_rows (0, 0) fst rows) (take 0 [10; 20; 30; 40] (sort_index fst rows)) 3
  = [((3, 4), 30); ((3, 1), 10)].
Proof. reflexivity. Qed.

Print Assumptions C19_argsort.
Print Assumptions C19_argsort_descending.
Print Assumptions C20_table3_range.
Print Assumptions C20_ordered_triples.
Print Assumptions C20_two_pairs.
Print Assumptions C20_sort4_blocks.
Print Assumptions C20_sort3_blocks.
