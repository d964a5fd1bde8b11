(** C38: binomial coefficients.  C39: the combination iterator. *)
From Coq Require Import List Arith ZArith Reals Lia Lra Sorted Factorial.
From Verif Require Import Base ReorderModel ReorderProofs CombinModel CombinSpec.
Import ListNotations.
Local Open Scope nat_scope.

(** * Binomial numbers *)
Lemma choose_0 : forall n, choose n 0 = 1. Proof. destruct n; reflexivity. Qed.
Lemma choose_S : forall n k, choose (S n) (S k) = choose n k + choose n (S k). Proof. reflexivity. Qed.
Lemma choose_big : forall n k, n < k -> choose n k = 0.
Proof. induction n as [|n IH]; intros [|k] H; try lia; [reflexivity|]. rewrite choose_S, !IH by lia. reflexivity. Qed.
Lemma choose_nn : forall n, choose n n = 1.
Proof. induction n as [|n IH]; [reflexivity|]. rewrite choose_S, IH, choose_big by lia. reflexivity. Qed.
Lemma absorb : forall n k, (S k) * choose (S n) (S k) = (S n) * choose n k.
Proof.
  induction n as [|n IH]; intros k.
  - destruct k; [reflexivity|]. rewrite choose_S. rewrite !choose_big by lia. lia.
  - rewrite choose_S. destruct k as [|k].
    + rewrite choose_0. specialize (IH 0). rewrite choose_0 in IH. lia.
    + pose proof (IH k) as I1. pose proof (IH (S k)) as I2. rewrite (choose_S n k) in *. rewrite (choose_S n (S k)) in *. nia.
Qed.
Lemma choose_sym : forall a b, choose (a + b) a = choose (a + b) b.
Proof.
  assert (G : forall n a b, a + b = n -> choose n a = choose n b).
  { induction n as [|n IH]; intros a b E; [assert (a = 0) by lia; assert (b = 0) by lia; now subst|].
    destruct a as [|a]; [assert (b = S n) by lia; subst; rewrite choose_0, choose_nn; reflexivity|].
    destruct b as [|b]; [assert (a = n) by lia; subst; rewrite choose_0, choose_nn; reflexivity|].
    rewrite !choose_S. rewrite (IH a (S b)), (IH (S a) b) by lia. lia. }
  intros a b. now apply G.
Qed.
Lemma choose_pos : forall n k, k <= n -> 1 <= choose n k.
Proof. induction n as [|n IH]; intros [|k] H; try (rewrite ?choose_0; lia). rewrite choose_S. specialize (IH k). lia. Qed.

Lemma zloop_nat : forall p, zloop (Z.of_nat p) = map Z.of_nat (seq 2 (p - 1)). Proof. intros p. unfold zloop. now rewrite Nat2Z.id. Qed.
Lemma setup_nat : forall m n, n <= m -> exists n1 pool, binom_setup (Z.of_nat m) (Z.of_nat n) = (Z.of_nat n1, Z.of_nat pool) /\ n1 + pool = m /\
  pool = Nat.min n (m - n) /\ choose m n = choose m pool.
Proof.
  intros m n H. unfold binom_setup. destruct (Z.ltb_spec (Z.of_nat n) (Z.of_nat m - Z.of_nat n)) as [L|L].
  - exists (m - n), n. split; [f_equal; lia|]. split; [lia|]. split; [lia|reflexivity].
  - exists n, (m - n). split; [f_equal; lia|]. split; [lia|]. split; [lia|]. pose proof (choose_sym n (m - n)) as Y. replace (n + (m - n)) with m in Y by lia. exact Y.
Qed.
(** binom after the steps 2..i is C(n1+i, i). *)
Lemma binom_step : forall n1 i, (Z.of_nat (choose (n1 + i) i) * (Z.of_nat n1 + Z.of_nat (S i)) = Z.of_nat (choose (n1 + S i) (S i)) * Z.of_nat (S i))%Z.
Proof.
  intros n1 i. pose proof (absorb (n1 + i) i) as A. replace (n1 + S i) with (S (n1 + i)) by lia.
  rewrite <- Nat2Z.inj_add, <- !Nat2Z.inj_mul. f_equal. replace (n1 + S i) with (S (n1 + i)) by lia. lia.
Qed.
Lemma choose_mono : forall n1 i j, i <= j -> choose (n1 + i) i <= choose (n1 + j) j.
Proof.
  intros n1 i j H. induction H as [|j H IH]; [lia|]. replace (n1 + S j) with (S (n1 + j)) by lia. rewrite choose_S. lia.
Qed.

(** Every division is exact and the result is C(m,n); the largest integer met is at most min(n, m-n) * C(m,n). *)
Theorem C38_binom_i : forall ok m n, n <= m ->
  (forall z, (0 <= z <= Z.of_nat (Nat.min n (m - n) * choose m n))%Z -> ok z = true) ->
  binom_i ok (Z.of_nat m) (Z.of_nat n) = Some (Z.of_nat (choose m n)).
Proof.
  intros ok m n H OK. destruct (setup_nat m n H) as (n1 & pool & E & S1 & P & C). unfold binom_i. rewrite E, zloop_nat. rewrite <- P in OK. rewrite C in OK |- *.
  destruct pool as [|pool]; [cbn; now rewrite choose_0|].
  replace (Z.of_nat (S pool) =? 0)%Z with false by (symmetry; apply Z.eqb_neq; lia).
  assert (G : forall k, k <= pool -> fold_left (fun acc i => match acc with Some b => if ok (b * (Z.of_nat n1 + i))%Z then Some (Z.quot (b * (Z.of_nat n1 + i)) i) else None | None => None end)
    (map Z.of_nat (seq 2 k)) (Some (Z.of_nat n1 + 1)%Z) = Some (Z.of_nat (choose (n1 + S k) (S k)))).
  { induction k as [|k IH]; intros Hk.
    - cbn [seq map fold_left]. f_equal. pose proof (absorb n1 0) as A. rewrite choose_0 in A. replace (n1 + 1) with (S n1) by lia. lia.
    - rewrite seq_S, map_app, fold_left_app, IH by lia. cbn [map fold_left]. replace (2 + k) with (S (S k)) by lia. rewrite (binom_step n1 (S k)).
      rewrite OK.
      + rewrite Z.quot_mul by lia. reflexivity.
      + pose proof (choose_mono n1 (S (S k)) (S pool) ltac:(lia)). rewrite <- S1. rewrite <- Nat2Z.inj_mul. nia. }
  replace (S pool - 1) with pool by lia. rewrite G by lia. now rewrite <- S1.
Qed.
Theorem C38_binom_r : forall m n, n <= m -> binom_r (Z.of_nat m) (Z.of_nat n) = INR (choose m n).
Proof.
  intros m n H. destruct (setup_nat m n H) as (n1 & pool & E & S1 & P & C). unfold binom_r. rewrite E, zloop_nat, C.
  destruct pool as [|pool]; [cbn; now rewrite choose_0|].
  replace (Z.of_nat (S pool) =? 0)%Z with false by (symmetry; apply Z.eqb_neq; lia).
  assert (G : forall k, fold_left (fun b i => (b * IZR (Z.of_nat n1 + i) / IZR i)%R) (map Z.of_nat (seq 2 k)) (IZR (Z.of_nat n1 + 1)) = INR (choose (n1 + S k) (S k))).
  { induction k as [|k IH].
    - cbn [seq map fold_left]. rewrite INR_IZR_INZ. f_equal. pose proof (absorb n1 0) as A. rewrite choose_0 in A. replace (n1 + 1) with (S n1) by lia. lia.
    - rewrite seq_S, map_app, fold_left_app, IH. cbn [map fold_left]. replace (2 + k) with (S (S k)) by lia. rewrite !INR_IZR_INZ, <- mult_IZR, (binom_step n1 (S k)), mult_IZR.
      field. apply not_0_IZR. lia. }
  replace (S pool - 1) with pool by lia. rewrite G. now rewrite <- S1.
Qed.
(** Outside 0 <= n <= m the functions do not return 0. *)
Theorem C38_out_of_range_refuted : forall ok m n, m < n -> binom_i ok (Z.of_nat m) (Z.of_nat n) = Some (Z.of_nat n + 1)%Z.
Proof.
  intros ok m n H. unfold binom_i, binom_setup. destruct (Z.ltb_spec (Z.of_nat n) (Z.of_nat m - Z.of_nat n)) as [L|L]; [lia|].
  replace (Z.of_nat m - Z.of_nat n =? 0)%Z with false by (symmetry; apply Z.eqb_neq; lia). unfold zloop.
  replace (Z.to_nat (Z.of_nat m - Z.of_nat n)) with 0 by lia. reflexivity.
Qed.
Theorem C38_factorial : forall n, factorial (Z.of_nat n) = Z.of_nat (fact n).
Proof.
  intros n. unfold factorial. rewrite zloop_nat. destruct n as [|n]; [reflexivity|]. replace (S n - 1) with n by lia.
  induction n as [|n IH]; [reflexivity|]. rewrite seq_S, map_app, fold_left_app, IH. cbn [map fold_left]. replace (2 + n) with (S (S n)) by lia.
  change (fact (S (S n))) with (S (S n) * fact (S n)). lia.
Qed.
Theorem C38_factorial_combination : forall m n,
  factorial_combination_1 (Z.of_nat m) (Z.of_nat n) = (INR (fact m) * INR (fact n) / INR (fact (m + n + 1)))%R.
Proof.
  assert (FN : forall k, INR (fact k) <> 0%R) by (intros; apply INR_fact_neq_0).
  assert (G : forall m1 n1, (fold_left (fun c i => (c * IZR i / IZR (i + Z.of_nat m1))%R) (map Z.of_nat (seq 1 (Z.to_nat (Z.of_nat n1)))) 1 / IZR (Z.of_nat m1 + Z.of_nat n1 + 1)
    = INR (fact m1) * INR (fact n1) / INR (fact (m1 + n1 + 1)))%R).
  { intros m1 n1. rewrite Nat2Z.id. assert (K : forall k, fold_left (fun c i => (c * IZR i / IZR (i + Z.of_nat m1))%R) (map Z.of_nat (seq 1 k)) 1%R = (INR (fact m1) * INR (fact k) / INR (fact (m1 + k)))%R).
    { induction k as [|k IH].
      - cbn [seq map fold_left]. rewrite Nat.add_0_r. cbn [fact INR]. field. apply FN.
      - rewrite seq_S, map_app, fold_left_app, IH. cbn [map fold_left]. replace (m1 + S k) with (S (m1 + k)) by lia. change (fact (S (m1 + k))) with (S (m1 + k) * fact (m1 + k)).
        change (fact (S k)) with (S k * fact k). rewrite !mult_INR. replace (Z.of_nat (1 + k) + Z.of_nat m1)%Z with (Z.of_nat (S (m1 + k))) by lia. replace (1 + k) with (S k) by lia. rewrite <- !INR_IZR_INZ.
        field. repeat split; auto. apply not_0_INR. lia. }
    rewrite K. replace (m1 + n1 + 1) with (S (m1 + n1)) by lia. change (fact (S (m1 + n1))) with (S (m1 + n1) * fact (m1 + n1)). rewrite mult_INR.
    replace (Z.of_nat m1 + Z.of_nat n1 + 1)%Z with (Z.of_nat (S (m1 + n1))) by lia. rewrite <- INR_IZR_INZ. field. split; auto. apply not_0_INR. lia. }
  intros m n. unfold factorial_combination_1. destruct (Z.leb_spec (Z.of_nat n) (Z.of_nat m)).
  - apply G.
  - rewrite G. rewrite (Nat.add_comm n m). unfold Rdiv. ring.
Qed.
Example C38_instance : Nat.min 7 3 * choose 10 7 = 360 /\ binom_i (fun z => (z <=? 2147483647)%Z) 10 7 = Some 120%Z /\
  binom_i (fun z => (z <=? 2147483647)%Z) 32 16 = None /\ choose 5 2 = 10.
Proof. repeat split; vm_compute; reflexivity. Qed.

(** * Combinations *)
(** The r-subsets of n-k+1..n in lexicographic order. *)
Fixpoint combs (n k r : nat) : list (list nat) :=
  match r with
  | 0 => [[]]
  | S r' => match k with 0 => [] | S k' => map (cons (n - k')) (combs n k' r') ++ combs n k' r end
  end.
Lemma combs_in : forall n k r c, k <= n -> (In c (combs n k r) <-> length c = r /\ StronglySorted lt c /\ forall x, In x c -> n - k < x <= n).
Proof.
  intros n. induction k as [|k IH]; intros r c Hk.
  - destruct r as [|r]; cbn [combs In].
    + split; [intros [<-|[]]; repeat split; [constructor|contradiction|contradiction]|]. intros (L & _). left. destruct c; [reflexivity|discriminate L].
    + split; [intros []|]. intros (L & _ & B). destruct c as [|x c]; [discriminate L|]. specialize (B x (or_introl eq_refl)). lia.
  - destruct r as [|r]; cbn [combs].
    + cbn [In]. split; [intros [<-|[]]; repeat split; [constructor|contradiction|contradiction]|]. intros (L & _). left. destruct c; [reflexivity|discriminate L].
    + rewrite in_app_iff, in_map_iff. rewrite (IH (S r) c) by lia. split.
      * intros [(d & <- & Hd)|(L & S1 & B)].
        -- apply IH in Hd; [|lia]. destruct Hd as (L & S1 & B). split; [cbn; lia|]. split.
           ++ constructor; [exact S1|]. apply Forall_forall. intros x Hx. apply B in Hx. lia.
           ++ intros x [<-|Hx]; [lia|]. apply B in Hx. lia.
        -- repeat split; auto; specialize (B x); intuition lia.
      * intros (L & S1 & B). destruct c as [|x c]; [discriminate L|]. inversion S1 as [|? ? S2 F]; subst. rewrite Forall_forall in F.
        destruct (Nat.eq_dec x (n - k)) as [->|NE].
        -- left. exists c. split; [reflexivity|]. apply IH; [lia|]. split; [now injection L|]. split; [exact S2|]. intros y Hy. specialize (F y Hy). specialize (B y (or_intror Hy)). lia.
        -- right. split; [exact L|]. split; [exact S1|]. pose proof (B x (or_introl eq_refl)). intros y Hy. specialize (B y Hy). destruct Hy as [<-|Hy]; [lia|]. specialize (F y Hy). lia.
Qed.
Lemma combs_length : forall n k r, length (combs n k r) = choose k r.
Proof. intros n. induction k as [|k IH]; intros [|r]; cbn [combs]; try reflexivity. rewrite app_length, map_length, !IH. reflexivity. Qed.
Lemma lex_cons : forall x c d, lex c d -> lex (x :: c) (x :: d).
Proof. intros x c d (p & H1 & H2 & E & L). exists (S p). cbn [length nth]. repeat split; try lia. intros [|q] Hq; [reflexivity|]. cbn [nth]. apply E. lia. Qed.
Lemma sorted_app : forall (A : Type) (P : A -> A -> Prop) (l m : list A), StronglySorted P l -> StronglySorted P m -> (forall a b, In a l -> In b m -> P a b) -> StronglySorted P (l ++ m).
Proof.
  intros A P l m Hl Hm H. induction Hl as [|a l Hl IH F]; [exact Hm|]. cbn. constructor.
  - apply IH. intros x y Hx Hy. apply H; [now right|exact Hy].
  - apply Forall_app. split; [exact F|]. apply Forall_forall. intros y Hy. apply H; [now left|exact Hy].
Qed.
Lemma combs_sorted : forall n k r, k <= n -> StronglySorted lex (combs n k r).
Proof.
  intros n. induction k as [|k IH]; intros [|r] Hk; cbn [combs]; try (repeat constructor; fail). apply sorted_app; [|apply IH; lia|].
  - assert (I := IH r ltac:(lia)). clear -I. induction I as [|a l I IHl F]; cbn [map]; constructor; [exact IHl|].
    apply Forall_forall. intros y Hy. apply in_map_iff in Hy. destruct Hy as (z & <- & Hz). apply lex_cons. rewrite Forall_forall in F. now apply F.
  - intros a b Ha Hb. apply in_map_iff in Ha. destruct Ha as (c & <- & Hc). apply combs_in in Hb; [|lia]. destruct Hb as (L & _ & B). destruct b as [|y b]; [discriminate L|].
    exists 0. cbn [length nth]. specialize (B y (or_introl eq_refl)). repeat split; try lia.
Qed.

Section Next.
Variables n r : nat.
Hypothesis Hr : 1 <= r <= n.
Notation comb := (combination n r).
Lemma comb_lt : forall c p q, comb c -> p < q -> q < r -> nth p c 0 < nth q c 0.
Proof.
  intros c p q (L & S1 & _) H Hq. rewrite <- L in Hq. clear L. revert p q H Hq. induction S1 as [|x c S1 IH F]; intros p q H Hq; [cbn in Hq; lia|].
  destruct q as [|q]; [lia|]. cbn [length] in Hq. destruct p as [|p]; cbn [nth]; [|apply IH; lia]. rewrite Forall_forall in F. apply F. apply nth_In. lia.
Qed.
Lemma comb_step : forall c p k, comb c -> p + k < r -> nth p c 0 + k <= nth (p + k) c 0.
Proof. intros c p k C. induction k as [|k IH]; intros H; [rewrite !Nat.add_0_r; lia|]. pose proof (comb_lt c (p + k) (p + S k) C ltac:(lia) ltac:(lia)). specialize (IH ltac:(lia)). lia. Qed.
Lemma comb_max : forall c p, comb c -> p < r -> nth p c 0 + r <= S p + n.
Proof.
  intros c p C H. pose proof (comb_step c p (r - 1 - p) C ltac:(lia)) as S1. destruct C as (L & _ & B). specialize (B (nth (p + (r - 1 - p)) c 0)).
  assert (In (nth (p + (r - 1 - p)) c 0) c) by (apply nth_In; lia). specialize (B H0). lia.
Qed.
Lemma comb_intro : forall c, length c = r -> (forall p, S p < r -> nth p c 0 < nth (S p) c 0) -> (forall p, p < r -> 1 <= nth p c 0 <= n) -> comb c.
Proof.
  intros c L H B. split; [exact L|]. split.
  - rewrite <- L in H. clear L B. induction c as [|x c IH]; [constructor|]. assert (S1 : StronglySorted lt c) by (apply IH; intros p Hp; apply (H (S p)); cbn; lia).
    constructor; [exact S1|]. destruct c as [|y c]; [constructor|]. assert (x < y) by (apply (H 0); cbn; lia). inversion S1; subst. constructor; [assumption|].
    rewrite Forall_forall in *. intros z Hz. specialize (H4 z Hz). lia.
  - intros x Hx. apply (In_nth _ _ 0) in Hx. destruct Hx as (p & Hp & <-). apply B. lia.
Qed.
Lemma movable : forall c i, last_movable n c r i <= i /\ (forall j, last_movable n c r i < j <= i -> at1 c j + r = j + n) /\
  (last_movable n c r i <> 0 -> at1 c (last_movable n c r i) + r <> last_movable n c r i + n).
Proof.
  intros c. induction i as [|i (I1 & I2 & I3)]; [cbn; repeat split; lia|]. cbn [last_movable]. destruct (Nat.eqb_spec (at1 c (S i) + r) (S i + n)) as [E|NE].
  - repeat split; [lia| |exact I3]. intros j Hj. destruct (Nat.eq_dec j (S i)) as [->|]; [exact E|]. apply I2. lia.
  - repeat split; [lia| |intros _; exact NE]. intros j Hj. lia.
Qed.
(** The list after the second loop. *)
Lemma tail_fill : forall k i l, 1 <= i -> i + k <= length l ->
  let m := fold_left (fun l j => set1 l j (at1 l (j - 1) + 1)) (seq (i + 1) k) l in
  length m = length l /\ (forall p, p < i -> nth p m 0 = nth p l 0) /\ (forall t, t <= k -> nth (i - 1 + t) m 0 = nth (i - 1) l 0 + t) /\
  (forall p, i + k <= p -> nth p m 0 = nth p l 0).
Proof.
  induction k as [|k IH]; intros i l Hi Hl; cbn zeta.
  - cbn [seq fold_left]. repeat split; auto. intros t Ht. assert (t = 0) by lia. subst. rewrite !Nat.add_0_r. reflexivity.
  - rewrite seq_S, fold_left_app. cbn [fold_left]. destruct (IH i l Hi ltac:(lia)) as (L & P1 & P2 & P3). set (m := fold_left _ (seq (i + 1) k) l) in *.
    assert (NS : forall q, nth q (set1 m (i + 1 + k) (at1 m (i + 1 + k - 1) + 1)) 0 = if q =? i + k then nth (i - 1) l 0 + S k else nth q m 0).
    { intros q. rewrite nth_set1 by lia. replace (i + 1 + k - 1) with (i + k) by lia. destruct (q =? i + k); [|reflexivity]. unfold at1. replace (i + k - 1) with (i - 1 + k) by lia. rewrite P2 by lia. lia. }
    split; [rewrite set1_length by lia; exact L|]. split; [|split].
    + intros p Hp. rewrite NS. destruct (Nat.eqb_spec p (i + k)); [lia|]. now apply P1.
    + intros t Ht. rewrite NS. destruct (Nat.eqb_spec (i - 1 + t) (i + k)); [assert (t = S k) by lia; subst; reflexivity|]. apply P2. lia.
    + intros p Hp. rewrite NS. destruct (Nat.eqb_spec p (i + k)); [lia|]. apply P3. lia.
Qed.
Lemma at1_nth : forall c i, at1 c (S i) = nth i c 0. Proof. intros. unfold at1. now rewrite Nat.sub_1_r. Qed.

Lemma next_unfold : forall c, next_combination n c r = match last_movable n c r r with
         | 0 => Some (c, true)
         | i => Some (fold_left (fun l j => set1 l j (at1 l (j - 1) + 1)) (seq (i + 1) (r - i)) (set1 c i (at1 c i + 1)), false)
         end.
Proof. intros c. unfold next_combination. destruct r; [lia|reflexivity]. Qed.
Lemma next_done : forall c c', comb c -> next_combination n c r = Some (c', true) -> forall d, comb d -> ~ lex c d.
Proof.
  intros c c' C E d D (p & Hp & _ & _ & L). rewrite next_unfold in E.
  destruct (last_movable n c r r) eqn:Em; [|discriminate E]. destruct (movable c r) as (_ & M & _). rewrite Em in M.
  assert (Lc : length c = r) by apply C. specialize (M (S p) ltac:(lia)). rewrite at1_nth in M. pose proof (comb_max d p D ltac:(lia)). lia.
Qed.
Lemma next_step : forall c, comb c -> exists c' b, next_combination n c r = Some (c', b) /\
  (b = false -> comb c' /\ lex c c' /\ forall d, comb d -> lex c d -> c' = d \/ lex c' d).
Proof.
  intros c C. rewrite next_unfold. assert (Lc : length c = r) by apply C.
  destruct (last_movable n c r r) as [|i] eqn:Em; [exists c, true; split; [reflexivity|discriminate]|].
  eexists _, false. split; [reflexivity|]. intros _. destruct (movable c r) as (M1 & M2 & M3). rewrite Em in *. specialize (M3 ltac:(lia)). rewrite at1_nth in *.
  pose proof (comb_max c i C ltac:(lia)) as Mi. set (l := set1 c (S i) (nth i c 0 + 1)).
  assert (Ll : length l = r) by (unfold l; rewrite set1_length; lia). assert (Nl : forall q, nth q l 0 = if q =? i then nth i c 0 + 1 else nth q c 0).
  { intros q. unfold l. rewrite nth_set1 by lia. now rewrite Nat.sub_1_r. }
  destruct (tail_fill (r - S i) (S i) l ltac:(lia) ltac:(lia)) as (L & P1 & P2 & _). set (m := fold_left _ _ l) in *.
  assert (Qlt : forall p, p < i -> nth p m 0 = nth p c 0) by (intros p Hp; rewrite P1, Nl by lia; destruct (Nat.eqb_spec p i); [lia|reflexivity]).
  assert (Qge : forall t, t <= r - S i -> nth (i + t) m 0 = nth i c 0 + 1 + t).
  { intros t Ht. specialize (P2 t Ht). rewrite Nat.sub_1_r in P2. cbn [pred] in P2. rewrite P2, Nl, Nat.eqb_refl. reflexivity. }
  assert (Qi : nth i m 0 = nth i c 0 + 1) by (specialize (Qge 0 ltac:(lia)); rewrite !Nat.add_0_r in Qge; exact Qge).
  assert (CM : comb m).
  { apply comb_intro; [lia| |].
    - intros p Hp. destruct (lt_eq_lt_dec p i) as [[H|H]|H].
      + rewrite Qlt by lia. destruct (Nat.eq_dec (S p) i) as [E|NE]; [rewrite E, Qi|rewrite Qlt by lia; now apply comb_lt; auto].
        pose proof (comb_lt c p i C ltac:(lia) ltac:(lia)). lia.
      + subst p. rewrite Qi. replace (S i) with (i + 1) by lia. rewrite Qge by lia. lia.
      + replace p with (i + (p - i)) by lia. replace (S (i + (p - i))) with (i + S (p - i)) by lia. rewrite !Qge by lia. lia.
    - destruct C as (_ & _ & B). assert (Bn : forall q, q < r -> 1 <= nth q c 0 <= n) by (intros q Hq; apply B; apply nth_In; lia). intros p Hp.
      destruct (le_lt_dec i p) as [H|H]; [|rewrite Qlt by lia; now apply Bn]. replace p with (i + (p - i)) by lia. rewrite Qge by lia. specialize (Bn i ltac:(lia)). lia. }
  split; [exact CM|]. split.
  - exists i. rewrite L, Ll, Lc, Qi. repeat split; try lia. intros q Hq. symmetry. now apply Qlt.
  - intros d D (p & Hp & _ & E & Lp). assert (Ld : length d = r) by apply D. destruct (lt_eq_lt_dec p i) as [[H|H]|H].
    + right. exists p. rewrite L, Ll, Ld. repeat split; try lia; [intros q Hq; rewrite Qlt by lia; now apply E|]. rewrite Qlt by lia. exact Lp.
    + subst p. destruct (Nat.eq_dec (nth i d 0) (nth i c 0 + 1)) as [Ei|Ni].
      * (* pointwise at least m *)
        assert (Pre : forall q, q <= i -> nth q m 0 = nth q d 0).
        { intros q Hq. destruct (Nat.eq_dec q i) as [->|]; [congruence|]. rewrite Qlt by lia. apply E. lia. }
        assert (Ge : forall t, t <= r - S i -> nth (i + t) m 0 <= nth (i + t) d 0).
        { intros t Ht. rewrite Qge by exact Ht. pose proof (comb_step d i t D ltac:(lia)). lia. }
        assert (W : forall k, (forall q, q < k -> nth q m 0 = nth q d 0) \/ exists p, p < k /\ (forall q, q < p -> nth q m 0 = nth q d 0) /\ nth p m 0 <> nth p d 0).
        { induction k as [|k [I|(p & Hpk & Q1 & Q2)]]; [left; lia| |right; exists p; repeat split; auto; lia].
          destruct (Nat.eq_dec (nth k m 0) (nth k d 0)) as [Ek|Nk]; [left; intros q Hq; destruct (Nat.eq_dec q k) as [->|]; [exact Ek|apply I; lia]|right; exists k; repeat split; auto]. }
        destruct (W r) as [A|(p & Hpr & Q1 & Q2)]; [left; apply (list_eq_nth 0); [lia|]; intros q Hq; apply A; lia|]. right. exists p. rewrite L, Ll, Ld. repeat split; try lia; [exact Q1|].
        destruct (le_lt_dec p i) as [Hpi|Hpi]; [exfalso; apply Q2; now apply Pre|]. specialize (Ge (p - i) ltac:(lia)). replace (i + (p - i)) with p in Ge by lia. lia.
      * right. exists i. rewrite L, Ll, Ld. repeat split; try lia. intros q Hq. rewrite Qlt by lia. now apply E.
    + exfalso. specialize (M2 (S p) ltac:(lia)). rewrite at1_nth in M2. pose proof (comb_max d p D ltac:(lia)). lia.
Qed.
End Next.

(** The combinations met from [c] on, calling the routine until it reports the end. *)
Inductive visits (n r : nat) : list nat -> list (list nat) -> Prop :=
| visits_last : forall c c', next_combination n c r = Some (c', true) -> visits n r c [c]
| visits_next : forall c c' vs, next_combination n c r = Some (c', false) -> visits n r c' vs -> visits n r c (c :: vs).
Lemma lex_irrefl : forall c, ~ lex c c. Proof. intros c (p & _ & _ & _ & H). lia. Qed.
Lemma lex_asym : forall c d, lex c d -> ~ lex d c.
Proof.
  intros c d (p & _ & _ & E & H) (q & _ & _ & E' & H'). destruct (lt_eq_lt_dec p q) as [[L|L]|L].
  - rewrite (E' p L) in H. lia.
  - subst. lia.
  - rewrite (E q L) in H'. lia.
Qed.
Theorem C39_visits_all : forall n r, 1 <= r <= n ->
  exists vs, visits n r (seq 1 r) vs /\ StronglySorted lex vs /\ NoDup vs /\ (forall c, In c vs <-> combination n r c) /\ length vs = choose n r.
Proof.
  intros n r Hr. exists (combs n n r).
  assert (IN : forall c, In c (combs n n r) <-> combination n r c).
  { intros c. rewrite combs_in by lia. rewrite Nat.sub_diag. unfold combination. split; intros (L & S1 & B); repeat split; auto; specialize (B x); intuition lia. }
  pose proof (combs_sorted n n r (Nat.le_refl n)) as SS. split; [|split; [exact SS|split; [|split; [exact IN|apply combs_length]]]].
  - assert (RUN : forall suf pre c, combs n n r = pre ++ c :: suf -> visits n r c (c :: suf)).
    { induction suf as [|d suf IH]; intros pre c E.
      - assert (C : combination n r c) by (apply IN; rewrite E; apply in_elt). destruct (next_step n r Hr c C) as (c' & b & Ec & H). destruct b; [now apply visits_last with c'|].
        destruct (H eq_refl) as (C' & L & _). apply IN in C'. rewrite E in C', SS. apply in_app_or in C'. exfalso. destruct C' as [I|[->|[]]]; [|now apply lex_irrefl in L].
        clear -SS I L. induction pre as [|a pre IHp]; [destruct I|]. cbn in SS. inversion SS; subst. destruct I as [->|I]; [|now apply IHp].
        rewrite Forall_forall in H2. apply (lex_asym c c' L). apply H2. apply in_elt.
      - assert (C : combination n r c) by (apply IN; rewrite E; apply in_elt). assert (D : combination n r d) by (apply IN; rewrite E; apply in_or_app; right; right; now left).
        assert (SC : StronglySorted lex (c :: d :: suf)) by (clear -SS E; rewrite E in SS; clear E; induction pre as [|a pre IHp]; [exact SS|]; apply IHp; now inversion SS).
        inversion SC as [|? ? SD F]; subst. rewrite Forall_forall in F. assert (Lcd : lex c d) by (apply F; now left).
        destruct (next_step n r Hr c C) as (c' & b & Ec & H). destruct b; [exfalso; exact (next_done n r Hr c c' C Ec d D Lcd)|].
        destruct (H eq_refl) as (C' & L & Min). assert (c' = d).
        { destruct (Min d D Lcd) as [|Lt]; [assumption|]. exfalso. apply IN in C'. rewrite E in C'. apply in_app_or in C'. destruct C' as [I|[->|[->|I]]].
          - clear -SS E I L. rewrite E in SS. induction pre as [|a pre IHp]; [destruct I|]. cbn in SS. inversion SS; subst. destruct I as [->|I]; [|].
            + rewrite Forall_forall in H2. apply (lex_asym c c' L). apply H2. apply in_elt.
            + assert (G : forall pre, StronglySorted lex (pre ++ c :: d :: suf) -> In c' pre -> lex c' c).
              { clear. induction pre as [|a pre IHp]; intros S I; [destruct I|]. cbn in S. inversion S; subst. destruct I as [->|I]; [|now apply IHp]. rewrite Forall_forall in H2. apply H2. apply in_elt. }
              exact (lex_asym c c' L (G pre H1 I)).
          - now apply lex_irrefl in L.
          - now apply lex_irrefl in Lt.
          - inversion SD as [|? ? _ F2]; subst. rewrite Forall_forall in F2. exact (lex_asym c' d Lt (F2 c' I)). }
        subst c'. eapply visits_next; [exact Ec|]. apply (IH (pre ++ [c])). rewrite <- app_assoc. exact E. }
    destruct (combs n n r) as [|c vs] eqn:E.
    + exfalso. assert (choose n r = 0) by (rewrite <- (combs_length n n r), E; reflexivity). pose proof (choose_pos n r ltac:(lia)). lia.
    + assert (c = seq 1 r); [|subst c; now apply (RUN vs [])].
      assert (C : combination n r c) by (apply IN; now left).
      assert (Q : combination n r (seq 1 r)).
      { apply comb_intro; [exact Hr|apply seq_length| |]; intros p Hp; rewrite !seq_nth by lia; lia. }
      apply IN in Q. destruct Q as [Q|Q]; [exact Q|]. exfalso. inversion SS as [|? ? _ F]; subst. rewrite Forall_forall in F. destruct (F _ Q) as (p & H1 & H2 & _ & L).
      rewrite seq_length in H2. rewrite seq_nth in L by exact H2. destruct (le_lt_dec 1 (nth 0 c 0)) as [P0|P0].
      * pose proof (comb_step n r Hr c 0 p C ltac:(lia)) as H. cbn [plus] in H. lia.
      * destruct C as (Lc & _ & B). specialize (B (nth 0 c 0)). assert (In (nth 0 c 0) c) by (apply nth_In; lia). specialize (B H). lia.
  - clear -SS. induction SS as [|a l SS IH F]; constructor; [|exact IH]. intros I. rewrite Forall_forall in F. exact (lex_irrefl a (F a I)).
Qed.
(** The routine has no meaning for r = 0. *)
Theorem C39_empty_selection : forall n inds, next_combination n inds 0 = None. Proof. reflexivity. Qed.
Example C39_instance : next_combination 5 [1; 4; 5] 3 = Some ([2; 3; 4], false) /\ next_combination 5 [3; 4; 5] 3 = Some ([3; 4; 5], true) /\ lex [1; 4; 5] [2; 3; 4].
Proof. repeat split; try reflexivity. exists 0. cbn. repeat split; try lia. Qed.

Print Assumptions C38_binom_i. Print Assumptions C38_binom_r. Print Assumptions C38_factorial. Print Assumptions C38_factorial_combination.
Print Assumptions C38_out_of_range_refuted. Print Assumptions C39_visits_all. Print Assumptions C39_empty_selection.
