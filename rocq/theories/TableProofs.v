From Coq Require Import List Arith Bool ZArith Lia.
From Verif Require Import Base TableModel TableSpec SymmetryProofs.
Import ListNotations.
Open Scope Z_scope.

Lemma in_zrange : forall a b x, In x (zrange a b) <-> a <= x <= b.
Proof.
  intros. unfold zrange. rewrite in_map_iff. split.
  - intros (k & <- & H). apply in_seq in H. lia.
  - intros H. exists (Z.to_nat (x - a)). split; [lia|]. apply in_seq. lia.
Qed.
Lemma NoDup_zrange : forall a b, NoDup (zrange a b).
Proof. intros. unfold zrange. apply NoDup_map_inj; [intros; lia|apply seq_NoDup]. Qed.
Lemma length_zrange : forall a b, length (zrange a b) = Z.to_nat (b - a + 1).
Proof. intros. unfold zrange. now rewrite map_length, seq_length. Qed.
Lemma zrange_nil : forall a b, b < a -> zrange a b = [].
Proof. intros. unfold zrange. replace (Z.to_nat (b - a + 1)) with 0%nat by lia. reflexivity. Qed.
Lemma zrange_cons : forall a b, a <= b -> zrange a b = a :: zrange (a + 1) b.
Proof.
  intros. unfold zrange. replace (Z.to_nat (b - a + 1)) with (S (Z.to_nat (b - (a + 1) + 1))) by lia.
  cbn [seq map]. f_equal; [lia|]. rewrite <- seq_shift, map_map. apply map_ext. intros. lia.
Qed.

Lemma NoDup_nest : forall ls prev, NoDup (nest_tuples ls prev).
Proof.
  induction ls as [|l r IH]; intros prev; cbn [nest_tuples]; [repeat constructor; intros []|].
  apply NoDup_flat_map.
  - destruct l as [[a b]|[a b]]; apply NoDup_zrange.
  - intros x _. apply NoDup_map_inj; [congruence|apply IH].
  - intros x y z _ _ H1 H2. apply in_map_iff in H1 as (? & <- & _), H2 as (? & E & _). congruence.
Qed.

(** [fill] gives position + 1. *)
Lemma fill_spec : forall l f k, NoDup l ->
  (forall t, ~ In t l -> fst (fold_left table_step l (f, k)) t = f t) /\
  (forall m, (m < length l)%nat -> fst (fold_left table_step l (f, k)) (nth m l []) = (k + m)%nat).
Proof.
  induction l as [|x l IH]; intros f k N; cbn [fold_left].
  - split; [reflexivity|]. cbn. intros; lia.
  - inversion N; subst. unfold table_step at 2 4. cbn [fst snd]. destruct (IH (fun u => if tuple_eq_dec u x then k else f u) (S k) H2) as (I1 & I2). split.
    + intros t Ht. rewrite I1 by (intros K; apply Ht; now right). destruct (tuple_eq_dec t x) as [->|]; [exfalso; apply Ht; now left|reflexivity].
    + intros [|m] Hm; cbn [nth].
      * rewrite I1 by assumption. destruct (tuple_eq_dec x x); [lia|congruence].
      * cbn in Hm. rewrite I2 by lia. lia.
Qed.
Lemma fill_numbering : forall ls, numbering (fun t => In t (nest_tuples ls 0)) (fill ls) (length (nest_tuples ls 0)).
Proof.
  intros ls. unfold fill. set (l := nest_tuples ls 0). assert (N : NoDup l) by apply NoDup_nest.
  destruct (fill_spec l (fun _ => 0%nat) 1%nat N) as (I1 & I2). split; [|split; [|split]].
  - intros t Ht. now apply I1.
  - intros t Ht. destruct (In_nth l t [] Ht) as (m & Hm & <-). rewrite I2 by exact Hm. lia.
  - intros t u Ht Hu E. destruct (In_nth l t [] Ht) as (m & Hm & <-), (In_nth l u [] Hu) as (m' & Hm' & <-).
    rewrite !I2 in E by assumption. f_equal. lia.
  - intros k Hk. exists (nth (k - 1) l []). split; [apply nth_In; lia|]. rewrite I2; lia.
Qed.
Lemma numbering_ext : forall T (P Q : T -> Prop) f K K', (forall t, P t <-> Q t) -> K = K' -> numbering P f K -> numbering Q f K'.
Proof.
  intros T P Q f K K' E -> (A & B & C & D). split; [|split; [|split]].
  - intros t H. apply A. now rewrite E.
  - intros t H. apply B. now rewrite E.
  - intros t u H1 H2. apply C; now rewrite E.
  - intros k H. destruct (D k H) as (t & H1 & H2). exists t. now rewrite <- E.
Qed.

Lemma in_nest_cons : forall l r prev t, In t (nest_tuples (l :: r) prev) <->
  exists x u, t = x :: u /\ In x (loop_range l prev) /\ In u (nest_tuples r x).
Proof.
  intros. cbn [nest_tuples]. rewrite in_flat_map. split.
  - intros (x & H1 & H2). apply in_map_iff in H2 as (u & <- & H2). eauto.
  - intros (x & u & -> & H1 & H2). exists x. split; [assumption|]. now apply in_map.
Qed.
Lemma in_nest_nil : forall prev t, In t (nest_tuples [] prev) <-> t = [].
Proof. intros. cbn. intuition congruence. Qed.

(** Counting. *)
Definition zsum (f : Z -> nat) (l : list Z) : nat := fold_right (fun x n => (f x + n)%nat) 0%nat l.
Lemma length_nest_cons : forall l r prev, length (nest_tuples (l :: r) prev) = zsum (fun x => length (nest_tuples r x)) (loop_range l prev).
Proof.
  intros. cbn [nest_tuples]. induction (loop_range l prev) as [|x xs IH]; [reflexivity|].
  cbn [flat_map zsum fold_right]. now rewrite app_length, map_length, IH.
Qed.
Lemma zsum_cons : forall f x l, zsum f (x :: l) = (f x + zsum f l)%nat.
Proof. reflexivity. Qed.
Lemma zsum_const : forall c l, zsum (fun _ => c) l = (length l * c)%nat.
Proof. induction l; cbn; [reflexivity|]. unfold zsum in IHl. rewrite IHl. reflexivity. Qed.
Lemma zsum_ext : forall f g l, (forall x, In x l -> f x = g x) -> zsum f l = zsum g l.
Proof. induction l as [|x l IH]; intros H; cbn; [reflexivity|]. rewrite (H x (or_introl eq_refl)). f_equal. apply IH. intros. apply H. now right. Qed.
Lemma zsum_scale : forall c f l, zsum (fun x => (f x * c)%nat) l = (zsum f l * c)%nat.
Proof. intros. induction l; cbn; [reflexivity|]. unfold zsum in IHl. rewrite IHl. lia. Qed.

Lemma pairs_step : forall m, pairs (m + 1) = m + pairs m.
Proof.
  intros. unfold pairs. replace ((m + 1) * (m + 1 - 1)) with (m * (m - 1) + m * 2) by ring. rewrite Z.div_add by lia. lia.
Qed.
Lemma even_prod : forall m, exists k, m * (m - 1) = 2 * k.
Proof. intros. destruct (Z.Even_or_Odd m) as [(k & ->)|(k & ->)]; [exists (k * (2 * k - 1))|exists ((2 * k + 1) * k)]; ring. Qed.
Lemma pairs2 : forall m, 2 * pairs m = m * (m - 1).
Proof. intros. destruct (even_prod m) as (k & E). unfold pairs. rewrite E. rewrite (Z.mul_comm 2 k), Z.div_mul; lia. Qed.
Lemma triples_step : forall m, triples (m + 1) = pairs m + triples m.
Proof.
  intros. unfold triples. pose proof (pairs2 m). replace ((m + 1) * (m + 1 - 1) * (m + 1 - 2)) with (m * (m - 1) * (m - 2) + pairs m * 6) by nia.
  rewrite Z.div_add by lia. lia.
Qed.
Lemma pairs_nonneg : forall m, 0 <= pairs m.
Proof. intros. pose proof (pairs2 m). nia. Qed.
Lemma triples_nonneg : forall m, 0 <= m -> 0 <= triples m.
Proof.
  intros m H. unfold triples. apply Z.div_pos; [|lia]. destruct (Z.eq_dec m 0); [subst; cbn; lia|]. destruct (Z.eq_dec m 1); [subst; cbn; lia|].
  repeat apply Z.mul_nonneg_nonneg; lia.
Qed.

Lemma zsum_pairs : forall n c, 0 <= c -> zsum (fun p => Z.to_nat (n - (p + 1) + 1)) (zrange (n - c + 1) (n - 1)) = Z.to_nat (pairs c).
Proof.
  intros n c Hc. pattern c. apply natlike_ind; [| |exact Hc].
  - rewrite zrange_nil by lia. reflexivity.
  - intros x Hx IH. unfold Z.succ. rewrite pairs_step, Z2Nat.inj_add; [|lia|apply pairs_nonneg]. destruct (Z.eq_dec x 0) as [->|N].
    + rewrite zrange_nil by lia. reflexivity.
    + rewrite zrange_cons by lia. rewrite zsum_cons.
      replace (n - (x + 1) + 1 + 1) with (n - x + 1) by lia. rewrite IH. f_equal. f_equal. lia.
Qed.
Lemma zsum_pairs' : forall n a, a <= n + 1 -> zsum (fun p => Z.to_nat (n - (p + 1) + 1)) (zrange a (n - 1)) = Z.to_nat (pairs (n - a + 1)).
Proof. intros n a H. rewrite <- zsum_pairs with (n := n) by lia. do 2 f_equal. lia. Qed.
Lemma zsum_triples : forall n c, 0 <= c -> zsum (fun p => Z.to_nat (pairs (n - (p + 1) + 1))) (zrange (n - c + 1) (n - 2)) = Z.to_nat (triples c).
Proof.
  intros n c Hc. pattern c. apply natlike_ind; [| |exact Hc].
  - rewrite zrange_nil by lia. reflexivity.
  - intros x Hx IH. unfold Z.succ. rewrite triples_step, Z2Nat.inj_add; [|apply pairs_nonneg|now apply triples_nonneg].
    destruct (Z.eq_dec x 0) as [->|N]; [rewrite zrange_nil by lia; reflexivity|]. destruct (Z.eq_dec x 1) as [->|N1]; [rewrite zrange_nil by lia; reflexivity|].
    rewrite zrange_cons by lia. rewrite zsum_cons.
    replace (n - (x + 1) + 1 + 1) with (n - x + 1) by lia. rewrite IH. do 2 f_equal. f_equal. lia.
Qed.

(** Loop shapes. *)
Lemma count_free : forall a b r prev, length (nest_tuples (Abs (a, b) :: r) prev) = zsum (fun x => length (nest_tuples r x)) (zrange a b).
Proof. intros. apply length_nest_cons. Qed.
(** A nest that starts with an absolute loop does not look at the previous index. *)
Definition closed (r : list loop) : Prop := match r with Rel _ :: _ => False | _ => True end.
Lemma closed_prev : forall r, closed r -> forall p q, nest_tuples r p = nest_tuples r q.
Proof. intros [|[?|?] r] H p q; [reflexivity|reflexivity|destruct H]. Qed.
Lemma count_abs : forall n r prev, closed r -> length (nest_tuples (Abs (1, n) :: r) prev) = (Z.to_nat n * length (nest_tuples r 0%Z))%nat.
Proof.
  intros n r prev C. rewrite count_free. rewrite zsum_ext with (g := fun _ => length (nest_tuples r 0)).
  - rewrite zsum_const, length_zrange. f_equal. lia.
  - intros. now rewrite (closed_prev r C x 0).
Qed.
Lemma count_rel : forall n r p, closed r -> length (nest_tuples (Rel (-1, n) :: r) p) = (Z.to_nat (n - (p + 1) + 1) * length (nest_tuples r 0%Z))%nat.
Proof.
  intros n r p C. rewrite length_nest_cons. cbn [loop_range]. rewrite zsum_ext with (g := fun _ => length (nest_tuples r 0)).
  - rewrite zsum_const, length_zrange. f_equal.
  - intros. now rewrite (closed_prev r C x 0).
Qed.
Lemma count_pairs : forall n r prev, 0 <= n -> closed r ->
  length (nest_tuples (Abs (1, n - 1) :: Rel (-1, n) :: r) prev) = (Z.to_nat (pairs n) * length (nest_tuples r 0%Z))%nat.
Proof.
  intros n r prev Hn C. rewrite count_free. rewrite zsum_ext with (g := fun p => (Z.to_nat (n - (p + 1) + 1) * length (nest_tuples r 0%Z))%nat) by (intros; now apply count_rel).
  rewrite zsum_scale, zsum_pairs' by lia. f_equal. f_equal. f_equal. lia.
Qed.
Lemma count_triples : forall n r prev, 0 <= n -> closed r ->
  length (nest_tuples (Abs (1, n - 2) :: Rel (-1, n - 1) :: Rel (-1, n) :: r) prev) = (Z.to_nat (triples n) * length (nest_tuples r 0%Z))%nat.
Proof.
  intros n r prev Hn C. rewrite count_free.
  rewrite zsum_ext with (g := fun p => (Z.to_nat (pairs (n - (p + 1) + 1)) * length (nest_tuples r 0%Z))%nat).
  - rewrite zsum_scale. replace (zrange 1 (n - 2)) with (zrange (n - n + 1) (n - 2)) by (f_equal; lia). now rewrite zsum_triples by lia.
  - intros p Hp. apply in_zrange in Hp. rewrite length_nest_cons. cbn [loop_range].
    rewrite zsum_ext with (g := fun q => (Z.to_nat (n - (q + 1) + 1) * length (nest_tuples r 0%Z))%nat) by (intros; now apply count_rel).
    rewrite zsum_scale, zsum_pairs' by lia. reflexivity.
Qed.
