From Coq Require Import ZArith List Arith Bool Permutation Lia.
From Verif Require Import Base PermModel PermSpec.
Import ListNotations.

(** ** Inversions *)
Definition cross (l1 l2 : list nat) : nat := list_sum (map (fun x => smaller x l2) l1).

Lemma list_sum_cons : forall a l, list_sum (a :: l) = a + list_sum l.
Proof. reflexivity. Qed.

Lemma smaller_app : forall x l1 l2, smaller x (l1 ++ l2) = smaller x l1 + smaller x l2.
Proof. intros. unfold smaller. now rewrite filter_app, app_length. Qed.

Lemma smaller_perm : forall x l1 l2, Permutation l1 l2 -> smaller x l1 = smaller x l2.
Proof.
  intros x l1 l2 H. unfold smaller.
  induction H; cbn [filter]; try congruence.
  - destruct (x0 <? x); cbn [length]; lia.
  - destruct (x0 <? x), (y <? x); reflexivity.
Qed.

Lemma inv_app : forall l1 l2, inversions (l1 ++ l2) = inversions l1 + cross l1 l2 + inversions l2.
Proof.
  induction l1; intro l2; cbn [app inversions]; [reflexivity|].
  rewrite IHl1, smaller_app. unfold cross. cbn [map]. rewrite list_sum_cons. lia.
Qed.

Lemma list_sum_perm : forall l1 l2, Permutation l1 l2 -> list_sum l1 = list_sum l2.
Proof. intros l1 l2 H. induction H; rewrite ?list_sum_cons; lia. Qed.

Lemma cross_perm : forall p l1 l2, Permutation l1 l2 -> cross p l1 = cross p l2.
Proof.
  intros. unfold cross. f_equal. apply map_ext. intro. now apply smaller_perm.
Qed.
Lemma cross_perm_l : forall p l1 l2, Permutation l1 l2 -> cross l1 p = cross l2 p.
Proof. intros. unfold cross. apply list_sum_perm. now apply Permutation_map. Qed.

Lemma smaller_cross : forall x m, ~ In x m -> smaller x m + cross m [x] = length m.
Proof.
  intros x m. unfold cross, smaller. induction m as [|a m IH]; intro H; [reflexivity|].
  assert (IH' := IH (fun K => H (or_intror K))).
  assert (a <> x) by (intro; apply H; now left).
  cbn [filter map length] in *. rewrite list_sum_cons.
  destruct (Nat.ltb_spec a x), (Nat.ltb_spec x a); cbn [length]; lia.
Qed.

Lemma inv_swap_core : forall x y m, NoDup (x :: m ++ [y]) ->
  Nat.Odd (inversions (x :: m ++ [y]) + inversions (y :: m ++ [x])).
Proof.
  intros x y m H.
  assert (Hx : ~ In x m). { intro K. inversion H; subst. apply H2. apply in_or_app. tauto. }
  assert (Hxy : x <> y). { intro K. inversion H; subst. apply H2. apply in_or_app. cbn. tauto. }
  assert (Hy : ~ In y m).
  { inversion H; subst. apply NoDup_remove_2 in H3. now rewrite app_nil_r in H3. }
  pose proof (smaller_cross x m Hx) as E1. pose proof (smaller_cross y m Hy) as E2.
  cbn [inversions]. rewrite !inv_app, !smaller_app. cbn [inversions].
  assert (E3 : smaller x [y] + smaller y [x] = 1).
  { unfold smaller. cbn [filter]. destruct (Nat.ltb_spec x y), (Nat.ltb_spec y x); cbn; lia. }
  assert (E4 : forall z, smaller z [] = 0) by reflexivity. rewrite !E4.
  exists (length m + inversions m). lia.
Qed.

Lemma sign_swap : forall p x m y q, NoDup (p ++ x :: m ++ y :: q) ->
  sign (p ++ y :: m ++ x :: q) = (- sign (p ++ x :: m ++ y :: q))%Z.
Proof.
  intros p x m y q H.
  assert (HP : Permutation (x :: m ++ y :: q) (y :: m ++ x :: q)).
  { rewrite <- Permutation_middle. rewrite perm_swap. apply perm_skip.
    now rewrite <- Permutation_middle. }
  assert (HP2 : Permutation (x :: m ++ [y]) (y :: m ++ [x])).
  { rewrite <- Permutation_middle. rewrite perm_swap. apply perm_skip.
    now rewrite <- Permutation_middle. }
  unfold sign. rewrite !inv_app. rewrite (cross_perm p _ _ HP).
  assert (F : forall u v, u :: m ++ v :: q = (u :: m ++ [v]) ++ q).
  { intros. cbn. now rewrite <- app_assoc. }
  rewrite !F, !inv_app. rewrite (cross_perm_l q _ _ HP2).
  assert (HN : NoDup (x :: m ++ [y])).
  { rewrite F in H.
    assert (K : Permutation (p ++ (x :: m ++ [y]) ++ q) ((x :: m ++ [y]) ++ q ++ p)).
    { rewrite app_assoc. rewrite Permutation_app_comm. rewrite (Permutation_app_comm p).
      rewrite app_assoc. rewrite (Permutation_app_comm q). now rewrite <- !app_assoc. }
    apply (Permutation_NoDup K) in H. clear -H.
    remember (x :: m ++ [y]) as l. clear Heql. induction l; [constructor|].
    inversion H; subst. constructor; [|auto]. intro. apply H2. apply in_or_app. tauto. }
  destruct (inv_swap_core x y m HN) as [k Hk].
  set (A := inversions (x :: m ++ [y])) in *. set (B := inversions (y :: m ++ [x])) in *.
  rewrite !Nat.even_add.
  assert (E : Nat.even A = negb (Nat.even B)).
  { assert (G : Nat.even (A + B) = false) by (rewrite Hk, Nat.even_add, Nat.even_mul; reflexivity).
    rewrite Nat.even_add in G. destruct (Nat.even A), (Nat.even B); cbn in *; congruence. }
  rewrite E.
  repeat match goal with |- context [Nat.even ?z] => destruct (Nat.even z) end; reflexivity.
Qed.

(** ** Swapping list entries *)
Lemma set_nth_app : forall p x v q, set_nth (length p) v (p ++ x :: q) = p ++ v :: q.
Proof. induction p; intros; cbn; [reflexivity|]. now rewrite IHp. Qed.

Lemma nth_mid : forall (p : list nat) x q d, nth (length p) (p ++ x :: q) d = x.
Proof. intros. rewrite app_nth2 by lia. now rewrite Nat.sub_diag. Qed.

Lemma swap_decomp : forall p x m y q,
  swap (length p) (length p + S (length m)) (p ++ x :: m ++ y :: q) = p ++ y :: m ++ x :: q.
Proof.
  intros. unfold swap. rewrite nth_mid.
  replace (nth (length p + S (length m)) (p ++ x :: m ++ y :: q) 0) with y.
  2:{ replace (p ++ x :: m ++ y :: q) with ((p ++ x :: m) ++ y :: q) by now rewrite <- app_assoc.
      replace (length p + S (length m)) with (length (p ++ x :: m)) by (rewrite app_length; reflexivity).
      now rewrite nth_mid. }
  rewrite set_nth_app.
  replace (p ++ y :: m ++ y :: q) with ((p ++ y :: m) ++ y :: q) by now rewrite <- app_assoc.
  replace (length p + S (length m)) with (length (p ++ y :: m)) by (rewrite app_length; reflexivity).
  rewrite set_nth_app. now rewrite <- app_assoc.
Qed.

Lemma decomp2 : forall (l : list nat) i j, i < j -> j < length l ->
  exists p x m y q, l = p ++ x :: m ++ y :: q /\ length p = i /\ j = length p + S (length m)
    /\ x = nth i l 0 /\ y = nth j l 0.
Proof.
  intros l i j Hij Hj.
  exists (firstn i l), (nth i l 0), (firstn (j - i - 1) (skipn (S i) l)), (nth j l 0), (skipn (S j) l).
  assert (L1 : length (firstn i l) = i) by (rewrite firstn_length; lia).
  repeat split; auto.
  - rewrite <- (firstn_skipn i l) at 1. f_equal.
    rewrite (firstn_skipn_nth 0) by lia. f_equal.
    rewrite <- (firstn_skipn (j - i - 1) (skipn (S i) l)) at 1. f_equal.
    rewrite skipn_skipn. replace (S i + (j - i - 1)) with j by lia. now apply firstn_skipn_nth.
  - rewrite L1, firstn_length, skipn_length. lia.
Qed.

(** ** argmin *)
Lemma argmin_from_spec : forall rest lst pos best bestval,
  rest = skipn pos lst -> best < pos -> pos <= length lst -> bestval = nth best lst 0 ->
  let r := argmin_from pos best bestval rest in
  (r = best \/ pos <= r < length lst) /\ nth r lst 0 <= bestval /\
  forall k, pos <= k < length lst -> nth r lst 0 <= nth k lst 0.
Proof.
  induction rest as [|y rest IH]; intros lst pos best bestval Hr Hb Hp Hv; cbn [argmin_from].
  - assert (pos = length lst).
    { assert (length (skipn pos lst) = 0) by now rewrite <- Hr. rewrite skipn_length in *. lia. }
    subst. split; [tauto|]. split; [lia|]. intros k Hk; lia.
  - assert (Hlt : pos < length lst).
    { assert (length (skipn pos lst) = S (length rest)) by now rewrite <- Hr.
      rewrite skipn_length in *. lia. }
    rewrite (firstn_skipn_nth 0) in Hr by lia. injection Hr as Hy Hr.
    destruct (Nat.ltb_spec y bestval).
    + destruct (IH lst (S pos) pos y Hr ltac:(lia) ltac:(lia) Hy) as (A & B & C).
      split; [lia|]. split; [lia|]. intros k Hk.
      destruct (Nat.eq_dec k pos); [subst k; lia|]. apply C. lia.
    + destruct (IH lst (S pos) best bestval Hr ltac:(lia) ltac:(lia) Hv) as (A & B & C).
      split; [lia|]. split; [lia|]. intros k Hk.
      destruct (Nat.eq_dec k pos); [subst k; lia|]. apply C. lia.
Qed.

Lemma prefix_nth : forall l i k, firstn i l = seq 0 i -> k < i -> nth k l 0 = k.
Proof.
  intros l i k H Hk. rewrite <- (nth_firstn 0 i l k Hk), H. now rewrite seq_nth.
Qed.

Lemma is_perm_In : forall l x, is_perm l -> (In x l <-> x < length l).
Proof.
  intros l x H. split; intro K.
  - apply (Permutation_in _ H) in K. apply in_seq in K. lia.
  - apply (Permutation_in _ (Permutation_sym H)). apply in_seq. lia.
Qed.

Lemma is_perm_NoDup : forall l, is_perm l -> NoDup l.
Proof. intros l H. apply (Permutation_NoDup (Permutation_sym H)). apply seq_NoDup. Qed.

Lemma suffix_ge : forall l i k, is_perm l -> firstn i l = seq 0 i -> i <= k < length l -> i <= nth k l 0.
Proof.
  intros l i k HP Hf Hk.
  destruct (le_lt_dec i (nth k l 0)) as [|Hc]; [assumption|exfalso].
  pose proof (prefix_nth l i (nth k l 0) Hf Hc) as E.
  pose proof (proj1 (NoDup_nth l 0) (is_perm_NoDup l HP) (nth k l 0) k ltac:(lia) ltac:(lia) E). lia.
Qed.

Lemma argmin_spec : forall l i, is_perm l -> firstn i l = seq 0 i -> i < length l -> nth i l 0 <> i ->
  i < argmin i l < length l /\ nth (argmin i l) l 0 = i.
Proof.
  intros l i HP Hf Hi Hne.
  destruct (argmin_from_spec (skipn (S i) l) l (S i) i (nth i l 0) eq_refl ltac:(lia) ltac:(lia) eq_refl)
    as (A & B & C).
  fold (argmin i l) in A, B, C.
  assert (Hin : In i l) by (apply is_perm_In; assumption).
  apply (In_nth _ _ 0) in Hin as (k & Hk & Ek).
  assert (i < k).
  { destruct (lt_eq_lt_dec k i) as [[Hlt|Heq]|Hgt]; [|subst; congruence|assumption].
    pose proof (prefix_nth l i k Hf Hlt). lia. }
  assert (D := C k ltac:(lia)). rewrite Ek in D.
  pose proof (suffix_ge l i (argmin i l) HP Hf ltac:(lia)).
  assert (E : nth (argmin i l) l 0 = i) by lia.
  split; [|assumption]. split; [|lia]. destruct A as [A|A]; [rewrite A in E; lia|lia].
Qed.

Lemma firstn_S_nth : forall (l : list nat) i, i < length l -> firstn (S i) l = firstn i l ++ [nth i l 0].
Proof.
  induction l; intros i H; cbn in H; [lia|]. destruct i; [reflexivity|].
  cbn [firstn nth app]. f_equal. apply IHl. lia.
Qed.

Lemma parity_loop : forall k (l : list nat), is_perm l -> k <= length l ->
  let '(s, l') := fold_left parity_step (seq 0 k) (1%Z, l) in
  is_perm l' /\ length l' = length l /\ firstn k l' = seq 0 k /\ (s * sign l' = sign l)%Z.
Proof.
  induction k; intros l HP Hk.
  - cbn [seq fold_left]. repeat split; auto. now rewrite Z.mul_1_l.
  - rewrite seq_S, fold_left_app. cbn [fold_left Nat.add].
    specialize (IHk l HP ltac:(lia)).
    destruct (fold_left parity_step (seq 0 k) (1%Z, l)) as [s l'].
    destruct IHk as (P' & L' & F' & S'). unfold parity_step.
    destruct (Nat.eqb_spec (nth k l' 0) k) as [E|E].
    + repeat split; auto. rewrite firstn_S_nth by lia. now rewrite F', E.
    + destruct (argmin_spec l' k P' F' ltac:(lia) E) as ((A1 & A2) & B).
      destruct (decomp2 l' k (argmin k l') A1 A2) as (p & x & m & y & q & El & Lp & Ej & Ex & Ey).
      assert (Esw : swap k (argmin k l') l' = p ++ y :: m ++ x :: q).
      { rewrite Ej. rewrite <- Lp. rewrite El. apply swap_decomp. }
      rewrite Esw.
      assert (PP : Permutation l' (p ++ y :: m ++ x :: q)).
      { rewrite El. apply Permutation_app_head.
        rewrite <- Permutation_middle. rewrite perm_swap. apply perm_skip.
        now rewrite <- Permutation_middle. }
      assert (LL : length (p ++ y :: m ++ x :: q) = length l') by (symmetry; now apply Permutation_length).
      split; [|split; [|split]].
      * unfold is_perm. rewrite LL. rewrite <- PP. exact P'.
      * lia.
      * rewrite firstn_S_nth by (rewrite LL; lia).
        replace (nth k (p ++ y :: m ++ x :: q) 0) with k.
        2:{ rewrite <- Lp. rewrite nth_mid. rewrite Ey. now rewrite B. }
        f_equal. rewrite <- F'. rewrite El. rewrite <- Lp.
        rewrite !firstn_app, !Nat.sub_diag. cbn. reflexivity.
      * rewrite sign_swap by (rewrite <- El; now apply is_perm_NoDup). rewrite <- El.
        rewrite <- S'. ring.
Qed.

Lemma inversions_seq : forall n a, inversions (seq a n) = 0.
Proof.
  induction n; intro a; cbn; [reflexivity|]. rewrite IHn.
  assert (E : smaller a (seq (S a) n) = 0); [|lia].
  unfold smaller. assert (G : forall l, (forall y, In y l -> a < y) -> filter (fun y => y <? a) l = []).
  { induction l as [|z l IHl]; intro H; cbn [filter]; [reflexivity|].
    destruct (Nat.ltb_spec z a). { specialize (H z (or_introl eq_refl)). lia. }
    apply IHl. intros. apply H. now right. }
  rewrite G; [reflexivity|]. intros y Hy. apply in_seq in Hy. lia.
Qed.

Lemma last_fixed : forall l, is_perm l -> firstn (length l - 1) l = seq 0 (length l - 1) -> l = seq 0 (length l).
Proof.
  intros l HP Hf. destruct (length l) as [|n] eqn:E.
  - now apply length_zero_iff_nil in E.
  - replace (S n - 1) with n in Hf by lia.
    rewrite <- (firstn_all l). rewrite E, firstn_S_nth by lia. rewrite Hf, seq_S. do 2 f_equal.
    pose proof (suffix_ge l n n HP Hf ltac:(lia)).
    assert (In (nth n l 0) l) by (apply nth_In; lia).
    apply is_perm_In in H0; [|assumption]. cbn. lia.
Qed.

Lemma parity_correct : forall l, is_perm l ->
  calculate_permutation_parity_st l = (sign l, seq 0 (length l)).
Proof.
  intros l HP. unfold calculate_permutation_parity_st.
  pose proof (parity_loop (length l - 1) l HP ltac:(lia)) as H.
  destruct (fold_left _ _ _) as [s l']. destruct H as (P' & L' & F' & S').
  assert (El : l' = seq 0 (length l)).
  { rewrite <- L'. apply last_fixed; [assumption|]. now rewrite L'. }
  rewrite El in S'. unfold sign at 1 in S'. rewrite inversions_seq in S'. cbn in S'.
  f_equal; [lia|assumption].
Qed.

(** ** Sorting *)
Lemma insert_perm : forall x l, Permutation (insert x l) (x :: l).
Proof.
  induction l as [|y l IH]; cbn [insert]; [reflexivity|]. destruct (x <=? y); [reflexivity|].
  rewrite IH. apply perm_swap.
Qed.
Lemma sorted_perm : forall l, Permutation (sorted l) l.
Proof. induction l; cbn; [constructor|]. rewrite insert_perm. now constructor. Qed.

Lemma insert_increasing : forall x l, ~ In x l -> increasing l -> increasing (insert x l).
Proof.
  induction l as [|y l IH]; intros Hn Hi; cbn [insert increasing].
  - cbn. tauto.
  - destruct (Nat.leb_spec x y).
    + cbn [increasing]. cbn in Hi. split; [|assumption]. intros z [->|Hz].
      * destruct (Nat.eq_dec x z); [subst; exfalso; apply Hn; now left|lia].
      * destruct Hi as [Hi _]. specialize (Hi z Hz). lia.
    + cbn in Hi |- *. destruct Hi as [H1 H2]. split.
      * intros z Hz. apply (Permutation_in _ (insert_perm x l)) in Hz. destruct Hz as [<-|Hz]; [assumption|auto].
      * apply IH; [|assumption]. intro. apply Hn. now right.
Qed.
Lemma sorted_increasing : forall l, NoDup l -> increasing (sorted l).
Proof.
  induction 1; cbn [sorted]; [exact I|]. apply insert_increasing; [|assumption].
  intro K. apply H. now apply (Permutation_in _ (sorted_perm l)).
Qed.

Lemma increasing_filter : forall P l, increasing l -> increasing (filter P l).
Proof.
  induction l as [|x l IH]; cbn [filter increasing]; [tauto|]. intros [H1 H2].
  destruct (P x); [|auto]. cbn. split; [|auto]. intros y Hy. apply filter_In in Hy. now apply H1.
Qed.

(** ** Positions of the elements satisfying a predicate *)
Fixpoint positions (i : nat) (P : nat -> bool) (l : list nat) : list nat :=
  match l with
  | [] => []
  | x :: r => if P x then i :: positions (S i) P r else positions (S i) P r
  end.

Lemma positions_ext : forall P Q l i, (forall x, In x l -> P x = Q x) -> positions i P l = positions i Q l.
Proof.
  induction l; intros i H; cbn [positions]; [reflexivity|].
  rewrite (H a (or_introl eq_refl)), (IHl (S i)); [reflexivity|]. intros; apply H; now right.
Qed.

Lemma positions_none : forall P l i, (forall x, In x l -> P x = false) -> positions i P l = [].
Proof.
  induction l; intros i H; cbn [positions]; [reflexivity|].
  rewrite (H a (or_introl eq_refl)). apply IHl. intros; apply H; now right.
Qed.

Lemma mem_In : forall x l, mem x l = true <-> In x l.
Proof.
  intros. unfold mem. rewrite existsb_exists. split.
  - intros (y & Hy & E). apply Nat.eqb_eq in E. now subst.
  - intro H. exists x. split; [assumption|apply Nat.eqb_refl].
Qed.
Lemma mem_false : forall x l, mem x l = false <-> ~ In x l.
Proof. intros. rewrite <- mem_In. destruct (mem x l); split; congruence. Qed.
Lemma mem_cons_neq : forall x y l, x <> y -> mem x (y :: l) = mem x l.
Proof. intros. unfold mem. cbn. destruct (Nat.eqb_spec x y); [contradiction|reflexivity]. Qed.

Lemma common_loop_spec : forall fuel f1 f2 i j, length f1 + length f2 <= fuel ->
  increasing f1 -> increasing f2 ->
  common_loop fuel i j f1 f2 =
    (positions i (fun x => mem x f2) f1, positions j (fun x => mem x f1) f2).
Proof.
  induction fuel; intros f1 f2 i j Hl H1 H2.
  - destruct f1, f2; cbn in Hl; try lia. reflexivity.
  - destruct f1 as [|x r1]; cbn [common_loop].
    { rewrite (positions_none _ f2); [reflexivity|]. reflexivity. }
    destruct f2 as [|y r2].
    { rewrite (positions_none _ (x :: r1)); reflexivity. }
    cbn [increasing length] in *. destruct H1 as [H1a H1b], H2 as [H2a H2b].
    destruct (Nat.eqb_spec x y) as [->|Hne].
    + rewrite IHfuel by (assumption || lia).
      cbn [positions].
      assert (E : forall l, mem y (y :: l) = true) by (intro; apply mem_In; now left). rewrite !E.
      f_equal; f_equal; apply positions_ext; intros z Hz; symmetry; apply mem_cons_neq.
      * specialize (H1a z Hz). lia.
      * specialize (H2a z Hz). lia.
    + destruct (Nat.ltb_spec x y).
      * rewrite IHfuel by (cbn [increasing length]; (tauto || lia)).
        f_equal.
        -- cbn [positions]. replace (mem x (y :: r2)) with false; [reflexivity|].
           symmetry. apply mem_false. intros [K|K]; [lia|]. specialize (H2a x K). lia.
        -- apply positions_ext. intros z Hz. symmetry. apply mem_cons_neq.
           destruct Hz as [<-|Hz]; [lia|]. specialize (H2a z Hz). lia.
      * rewrite IHfuel by (cbn [increasing length]; (tauto || lia)).
        f_equal.
        -- apply positions_ext. intros z Hz. symmetry. apply mem_cons_neq.
           destruct Hz as [<-|Hz]; [lia|]. specialize (H1a z Hz). lia.
        -- cbn [positions]. replace (mem y (x :: r1)) with false; [reflexivity|].
           symmetry. apply mem_false. intros [K|K]; [lia|]. specialize (H1a y K). lia.
Qed.

Lemma positions_In : forall P l i k, In k (positions i P l) <->
  i <= k < i + length l /\ P (nth (k - i) l 0) = true.
Proof.
  induction l as [|x l IH]; intros i k; cbn [positions length].
  - cbn. split; [tauto|]. intros [H _]. lia.
  - assert (E : In k (positions (S i) P l) <-> S i <= k < i + S (length l) /\ P (nth (k - i) (x :: l) 0) = true).
    { rewrite IH. split; intros [H1 H2]; (split; [lia|]).
      - replace (k - i) with (S (k - S i)) by lia. exact H2.
      - replace (k - i) with (S (k - S i)) in H2 by lia. exact H2. }
    destruct (P x) eqn:Px.
    + cbn [In]. rewrite E. split.
      * intros [<-|[H1 H2]]; [split; [lia|]|split; [lia|assumption]].
        now rewrite Nat.sub_diag.
      * intros [H1 H2]. destruct (Nat.eq_dec i k); [now left|right; split; [lia|assumption]].
    + rewrite E. split; intros [H1 H2]; (split; [|assumption]); try lia.
      destruct (Nat.eq_dec i k); [|lia]. subst. rewrite Nat.sub_diag in H2. cbn in H2. congruence.
Qed.

Lemma positions_not : forall P l i,
  filter (fun k => negb (existsb (Nat.eqb k) (positions i P l))) (seq i (length l))
  = positions i (fun x => negb (P x)) l.
Proof.
  intros P l i.
  assert (G : forall m j Q, (forall k, j <= k < j + length m -> Q k = negb (P (nth (k - j) m 0))) ->
     filter Q (seq j (length m)) = positions j (fun x => negb (P x)) m).
  { induction m as [|x m IH]; intros j Q HQ; [reflexivity|].
    cbn [length seq filter positions].
    rewrite (HQ j) by (cbn; lia). rewrite Nat.sub_diag. cbn [nth].
    assert (T : filter Q (seq (S j) (length m)) = positions (S j) (fun x0 => negb (P x0)) m).
    { apply IH. intros k Hk. rewrite HQ by (cbn; lia). replace (k - j) with (S (k - S j)) by lia. reflexivity. }
    rewrite T. reflexivity. }
  apply G. intros k Hk. f_equal. apply eq_true_iff_eq. fold (mem k (positions i P l)).
  rewrite mem_In, positions_In. tauto.
Qed.

Lemma positions_values : forall P l pre,
  map (fun i => nth i (pre ++ l) 0) (positions (length pre) P l) = filter P l.
Proof.
  induction l as [|x l IH]; intro pre; cbn [positions filter map]; [reflexivity|].
  assert (E : map (fun i => nth i (pre ++ x :: l) 0) (positions (S (length pre)) P l) = filter P l).
  { specialize (IH (pre ++ [x])). rewrite app_length in IH. cbn [length] in IH.
    rewrite Nat.add_1_r in IH. rewrite <- IH. apply map_ext. intro. now rewrite <- app_assoc. }
  destruct (P x); cbn [map]; rewrite E; [|reflexivity]. now rewrite nth_mid.
Qed.

Lemma positions_split_perm : forall P l i,
  Permutation (positions i P l ++ positions i (fun x => negb (P x)) l) (seq i (length l)).
Proof.
  induction l as [|x l IH]; intro i; cbn [positions length seq]; [constructor|].
  destruct (P x); cbn [negb].
  - cbn. apply perm_skip. apply IH.
  - rewrite <- Permutation_middle. apply perm_skip. apply IH.
Qed.

Lemma filter_split_perm : forall (P : nat -> bool) l,
  Permutation (filter P l ++ filter (fun x => negb (P x)) l) l.
Proof.
  induction l as [|x l IH]; cbn [filter]; [constructor|].
  destruct (P x); cbn [negb].
  - cbn. now apply perm_skip.
  - rewrite <- Permutation_middle. now apply perm_skip.
Qed.

Lemma smaller_map : forall f x l, (forall y, In y l -> (f y <? f x) = (y <? x)) ->
  smaller (f x) (map f l) = smaller x l.
Proof.
  unfold smaller. induction l as [|y l IH]; intro H; [reflexivity|].
  cbn [map filter]. rewrite (H y (or_introl eq_refl)).
  assert (E := IH (fun z Hz => H z (or_intror Hz))).
  destruct (y <? x); cbn [length]; lia.
Qed.

Lemma inversions_map : forall f l, (forall x y, In x l -> In y l -> (f y <? f x) = (y <? x)) ->
  inversions (map f l) = inversions l.
Proof.
  induction l as [|x l IH]; intro H; [reflexivity|].
  cbn [map inversions]. rewrite smaller_map, IH; [reflexivity| |].
  - intros; apply H; now right.
  - intros; apply H; [now left|now right].
Qed.

Lemma increasing_nth : forall l i j, increasing l -> i < j < length l -> nth i l 0 < nth j l 0.
Proof.
  induction l as [|x l IH]; intros i j Hi Hj; cbn in *; [lia|]. destruct Hi as [H1 H2].
  destruct j; [lia|]. destruct i.
  - apply H1. apply nth_In. lia.
  - apply IH; [assumption|lia].
Qed.

Lemma increasing_nth_ltb : forall l i j, increasing l -> i < length l -> j < length l ->
  (nth i l 0 <? nth j l 0) = (i <? j).
Proof.
  intros l i j H Hi Hj. destruct (lt_eq_lt_dec i j) as [[C|C]|C].
  - pose proof (increasing_nth l i j H ltac:(lia)).
    destruct (Nat.ltb_spec i j), (Nat.ltb_spec (nth i l 0) (nth j l 0)); lia.
  - subst. now rewrite !Nat.ltb_irrefl.
  - pose proof (increasing_nth l j i H ltac:(lia)).
    destruct (Nat.ltb_spec i j), (Nat.ltb_spec (nth i l 0) (nth j l 0)); lia.
Qed.


Lemma lineup_half : forall f1 f2, increasing f1 ->
  let p1 := positions 0 (fun x => mem x f2) f1 ++ positions 0 (fun x => negb (mem x f2)) f1 in
  let r1 := filter (fun x => mem x f2) f1 ++ filter (fun x => negb (mem x f2)) f1 in
  map (fun i => nth i f1 0) p1 = r1 /\ calculate_permutation_parity p1 = sign r1.
Proof.
  intros f1 f2 Hi p1 r1.
  assert (E1 : map (fun i => nth i f1 0) p1 = r1).
  { unfold p1, r1. rewrite map_app. f_equal; apply (positions_values _ f1 []). }
  split; [assumption|].
  assert (Hp : Permutation p1 (seq 0 (length f1))) by apply positions_split_perm.
  assert (HP : is_perm p1).
  { unfold is_perm. rewrite (Permutation_length Hp), seq_length. assumption. }
  unfold calculate_permutation_parity. rewrite parity_correct by assumption. cbn [fst].
  rewrite <- E1. unfold sign. rewrite inversions_map; [reflexivity|].
  intros x y Hx Hy. apply (Permutation_in _ Hp) in Hx, Hy. apply in_seq in Hx, Hy.
  apply increasing_nth_ltb; [assumption|lia|lia].
Qed.

Lemma lineup_correct : forall g1 g2, NoDup g1 -> NoDup g2 ->
  exists c d1 d2,
    do_lineup_permutation g1 g2 = ((c ++ d1, c ++ d2), (sign (c ++ d1), sign (c ++ d2))) /\
    Permutation (c ++ d1) g1 /\ Permutation (c ++ d2) g2 /\
    (forall x, In x c <-> In x g1 /\ In x g2) /\
    (forall x, ~ (In x d1 /\ In x d2)) /\
    increasing c /\ increasing d1 /\ increasing d2.
Proof.
  intros g1 g2 N1 N2.
  set (f1 := sorted g1). set (f2 := sorted g2).
  assert (I1 : increasing f1) by now apply sorted_increasing.
  assert (I2 : increasing f2) by now apply sorted_increasing.
  assert (P1 : Permutation f1 g1) by apply sorted_perm.
  assert (P2 : Permutation f2 g2) by apply sorted_perm.
  exists (filter (fun x => mem x f2) f1), (filter (fun x => negb (mem x f2)) f1),
         (filter (fun x => negb (mem x f1)) f2).
  assert (Ec : filter (fun x => mem x f2) f1 = filter (fun x => mem x f1) f2).
  { assert (U : forall a b, increasing a -> increasing b -> (forall x, In x a <-> In x b) -> a = b).
    { induction a as [|u a IH]; intros [|v b] Ha Hb Hab.
      - reflexivity.
      - exfalso. apply (in_nil (a:=v)). apply Hab. now left.
      - exfalso. apply (in_nil (a:=u)). apply Hab. now left.
      - cbn in Ha, Hb. destruct Ha as [Ha1 Ha2], Hb as [Hb1 Hb2].
        assert (u = v).
        { destruct (proj1 (Hab u) (or_introl eq_refl)) as [|K1]; [congruence|].
          destruct (proj2 (Hab v) (or_introl eq_refl)) as [|K2]; [congruence|].
          specialize (Ha1 v K2). specialize (Hb1 u K1). lia. }
        subst v. f_equal. apply IH; auto. intro x. split; intro K.
        + destruct (proj1 (Hab x) (or_intror K)) as [->|]; [|assumption]. specialize (Ha1 x K). lia.
        + destruct (proj2 (Hab x) (or_intror K)) as [->|]; [|assumption]. specialize (Hb1 x K). lia. }
    apply U; try now apply increasing_filter.
    intro x. rewrite !filter_In, !mem_In. tauto. }
  split; [|repeat split].
  - unfold do_lineup_permutation. fold f1 f2.
    rewrite common_loop_spec by (assumption || lia).
    rewrite !positions_not.
    destruct (lineup_half f1 f2 I1) as [A1 B1]. destruct (lineup_half f2 f1 I2) as [A2 B2].
    rewrite A1, A2, B1, B2, Ec. reflexivity.
  - rewrite filter_split_perm. assumption.
  - rewrite Ec, filter_split_perm. assumption.
  - apply filter_In in H as [H _]. now apply (Permutation_in _ P1).
  - apply filter_In in H as [_ H]. apply mem_In in H. now apply (Permutation_in _ P2).
  - intros [K1 K2]. apply filter_In. rewrite mem_In.
    split; [now apply (Permutation_in _ (Permutation_sym P1))|now apply (Permutation_in _ (Permutation_sym P2))].
  - intros x [K1 K2]. apply filter_In in K1, K2. destruct K1 as [K1 K1'], K2 as [K2 _].
    apply negb_true_iff in K1'. apply mem_false in K1'. contradiction.
  - now apply increasing_filter.
  - now apply increasing_filter.
  - now apply increasing_filter.
Qed.

(** ** Determinants *)
Lemma set_minus_In : forall A B x, In x (set_minus A B) <-> In x A /\ ~ In x B.
Proof.
  intros. unfold set_minus. rewrite filter_In, nodup_In, negb_true_iff, mem_false. tauto.
Qed.
Lemma set_minus_NoDup : forall A B, NoDup (set_minus A B).
Proof. intros. apply NoDup_filter. apply NoDup_nodup. Qed.

Lemma set_minus_length : forall A B, NoDup A -> NoDup B ->
  length (set_minus A B) + length (filter (fun x => mem x B) A) = length A.
Proof.
  intros A B HA _. unfold set_minus. rewrite nodup_fixed_point by assumption.
  clear HA. induction A as [|a A IH]; cbn [filter length]; [reflexivity|].
  destruct (mem a B); cbn [negb length]; lia.
Qed.

Lemma inter_length : forall A B, NoDup A -> NoDup B ->
  length (filter (fun x => mem x B) A) = length (filter (fun x => mem x A) B).
Proof.
  intros A B HA HB. apply Permutation_length. apply NoDup_Permutation; try now apply NoDup_filter.
  intro x. rewrite !filter_In, !mem_In. tauto.
Qed.

Lemma excit_rank_sym : forall D D0, NoDup D -> NoDup D0 -> length D = length D0 ->
  length (set_minus D D0) = length (set_minus D0 D).
Proof.
  intros D D0 H H0 L. pose proof (set_minus_length D D0 H H0). pose proof (set_minus_length D0 D H0 H).
  pose proof (inter_length D D0 H H0). lia.
Qed.

Lemma spatial_odd : forall k, 1 <= k -> spatial_orb_idx (2 * k - 1) = k.
Proof.
  intros k H. unfold spatial_orb_idx. destruct k; [lia|].
  replace (2 * S k - 1) with (1 + k * 2) by lia.
  rewrite Nat.mod_add by lia. change (1 mod 2 =? 1) with true. cbv iota.
  replace (1 + k * 2 + 1) with (S k * 2) by lia. now rewrite Nat.div_mul.
Qed.
Lemma spatial_even : forall k, spatial_orb_idx (2 * k) = k.
Proof.
  intro k. unfold spatial_orb_idx. replace (2 * k) with (k * 2) by lia.
  rewrite Nat.mod_mul by lia. change (0 =? 1) with false. cbv iota. now rewrite Nat.div_mul.
Qed.

Lemma sum_mod2_odd_count : forall l, list_sum (map (fun i => i mod 2) l) = length (filter Nat.odd l).
Proof.
  induction l as [|x l IH]; [reflexivity|]. cbn [map filter]. rewrite list_sum_cons, IH.
  destruct (Nat.odd x) eqn:E.
  - apply Nat.odd_spec in E as [k ->]. replace (2 * k + 1) with (1 + k * 2) by lia.
    rewrite Nat.mod_add by lia. reflexivity.
  - assert (E' : Nat.even x = true) by (rewrite <- Nat.negb_odd, E; reflexivity).
    apply Nat.even_spec in E' as [k ->]. replace (2 * k) with (k * 2) by lia.
    now rewrite Nat.mod_mul.
Qed.
