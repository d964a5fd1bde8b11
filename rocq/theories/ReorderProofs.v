(** Lemmas for the tensor reorder routines. *)
From Coq Require Import Ascii String List Arith Bool Reals Lia Permutation.
From Verif Require Import Base ReorderModel ReorderSpec.
Import ListNotations.
Local Open Scope nat_scope.
Local Open Scope list_scope.

(** ** Permutations *)
Lemma arrangement_perm : forall n perm, arrangement n perm <-> Permutation (seq 1 n) perm.
Proof.
  intros n perm. split.
  - intros (L & N & B). apply Permutation_sym. apply NoDup_Permutation_bis; [exact N|rewrite seq_length; lia|].
    intros p Hp. apply in_seq. specialize (B p Hp). lia.
  - intros P. split; [|split].
    + rewrite <- (Permutation_length P). apply seq_length.
    + eapply Permutation_NoDup; [exact P|apply seq_NoDup].
    + intros p Hp. apply (Permutation_in _ (Permutation_sym P)) in Hp. apply in_seq in Hp. lia.
Qed.
Lemma at1_in : forall l i, 1 <= i <= length l -> In (at1 l i) l.
Proof. intros. apply nth_In. lia. Qed.
Lemma list_at1 : forall l, l = map (at1 l) (seq 1 (length l)).
Proof.
  intros l. apply (list_eq_nth 0); [now rewrite map_length, seq_length|]. intros i Hi. rewrite (nth_indep (map (at1 l) _) 0 (at1 l 0)) by (rewrite map_length, seq_length; lia).
  rewrite (map_nth (at1 l)), seq_nth by lia. unfold at1. f_equal. lia.
Qed.
Lemma at1_ext : forall l m, length l = length m -> (forall k, 1 <= k <= length m -> at1 l k = at1 m k) -> l = m.
Proof.
  intros l m L H. apply (list_eq_nth 0); [exact L|]. intros i Hi. specialize (H (S i)). unfold at1 in H. rewrite Nat.sub_1_r in H. apply H. lia.
Qed.
Lemma at1_inj : forall n perm i j, arrangement n perm -> 1 <= i <= n -> 1 <= j <= n -> at1 perm i = at1 perm j -> i = j.
Proof.
  intros n perm i j (L & N & _) Hi Hj E. unfold at1 in E. apply (proj1 (NoDup_nth perm 0) N) in E; lia.
Qed.
Lemma at1_onto : forall n perm k, arrangement n perm -> 1 <= k <= n -> exists i, 1 <= i <= n /\ at1 perm i = k.
Proof.
  intros n perm k A Hk. assert (I : In k perm) by (apply arrangement_perm in A; apply (Permutation_in _ A), in_seq; lia).
  apply (In_nth _ _ 0) in I. destruct I as (r & Hr & E). destruct A as (L & _). exists (S r). split; [lia|]. unfold at1. now rewrite Nat.sub_1_r.
Qed.
Lemma sum_perm : forall l m, Permutation l m -> list_sum l = list_sum m.
Proof. unfold list_sum. induction 1; cbn [fold_right] in *; lia. Qed.

Lemma set1_length : forall A (l : list A) p x, 1 <= p <= length l -> length (set1 l p x) = length l.
Proof. intros. unfold set1. rewrite app_length, firstn_length. cbn [length]. rewrite skipn_length. lia. Qed.
Lemma nth_set1 : forall A (l : list A) p x q d, 1 <= p <= length l -> nth q (set1 l p x) d = if q =? p - 1 then x else nth q l d.
Proof.
  intros A l p x q d H. unfold set1. destruct (Nat.eqb_spec q (p - 1)) as [->|N].
  - rewrite app_nth2; rewrite firstn_length, Nat.min_l by lia; [|lia]. now rewrite Nat.sub_diag.
  - destruct (Nat.lt_ge_cases q (p - 1)).
    + rewrite app_nth1 by (rewrite firstn_length; lia). apply nth_firstn. lia.
    + rewrite app_nth2; rewrite firstn_length, Nat.min_l by lia; [|lia].
      destruct (q - (p - 1)) as [|m] eqn:E; [lia|]. cbn [nth]. rewrite nth_skipn. f_equal. lia.
Qed.

(** ** permute_array and its inverse *)
Section Perm.
Variables (A : Type) (d : A).
Lemma permute_spec : forall perm a b0, arrangement (length perm) perm -> length b0 = length perm ->
  length (permute_array d perm a b0) = length perm /\
  forall i, 1 <= i <= length perm -> nth (at1 perm i - 1) (permute_array d perm a b0) d = nth (i - 1) a d.
Proof.
  intros perm a b0 AR L. unfold permute_array.
  assert (G : forall k, k <= length perm -> let b := fold_left (fun b i => set1 b (at1 perm i) (nth (i - 1) a d)) (seq 1 k) b0 in
    length b = length perm /\ forall i, 1 <= i <= k -> nth (at1 perm i - 1) b d = nth (i - 1) a d).
  { induction k as [|k IH]; intros Hk; cbn zeta.
    - split; [exact L|]. intros; lia.
    - rewrite seq_S, fold_left_app. cbn [fold_left]. cbn zeta in IH. destruct IH as (I1 & I2); [lia|]. set (b := fold_left _ _ _) in *.
      assert (B : 1 <= at1 perm (1 + k) <= length perm) by (apply AR; apply at1_in; lia). split; [rewrite set1_length; lia|].
      intros i Hi. rewrite nth_set1 by lia. destruct (Nat.eqb_spec (at1 perm i - 1) (at1 perm (1 + k) - 1)) as [E|N].
      + assert (1 <= at1 perm i <= length perm) by (apply AR; apply at1_in; lia).
        assert (i = 1 + k) as -> by (apply (at1_inj (length perm) perm); auto; lia). reflexivity.
      + apply I2. destruct (Nat.eq_dec i (1 + k)) as [->|]; [congruence|lia]. }
  apply G. lia.
Qed.
Lemma inverse_spec : forall perm a b0, length b0 = length perm ->
  length (inverse_permute_array d perm a b0) = length perm /\
  forall i, 1 <= i <= length perm -> nth (i - 1) (inverse_permute_array d perm a b0) d = nth (at1 perm i - 1) a d.
Proof.
  intros perm a b0 L. unfold inverse_permute_array.
  assert (G : forall k, k <= length perm -> let b := fold_left (fun b i => set1 b i (nth (at1 perm i - 1) a d)) (seq 1 k) b0 in
    length b = length perm /\ forall i, 1 <= i <= k -> nth (i - 1) b d = nth (at1 perm i - 1) a d).
  { induction k as [|k IH]; intros Hk; cbn zeta.
    - split; [exact L|]. intros; lia.
    - rewrite seq_S, fold_left_app. cbn [fold_left]. cbn zeta in IH. destruct IH as (I1 & I2); [lia|]. set (b := fold_left _ _ _) in *.
      split; [rewrite set1_length; lia|]. intros i Hi. rewrite nth_set1 by lia. destruct (Nat.eqb_spec (i - 1) (1 + k - 1)) as [E|N].
      + assert (i = 1 + k) as -> by lia. reflexivity.
      + apply I2. lia. }
  apply G. lia.
Qed.
End Perm.

(** ** Offsets *)
Lemma offset_strides : forall shape x s, length x = length shape ->
  s * offset shape x = list_sum (map (fun k => nth k x 0 * nth k (strides_from s shape) 0) (seq 0 (length shape))).
Proof.
  induction shape as [|d sh IH]; intros [|i x] s L; try discriminate L; cbn [offset length seq map list_sum strides_from fold_right]; [lia|].
  rewrite <- seq_shift, map_map. cbn [nth]. injection L as L. specialize (IH x (s * d) L). unfold list_sum in IH. fold (list_sum) in *.
  transitivity (i * s + s * d * offset sh x); [lia|]. rewrite IH. reflexivity.
Qed.
Lemma offset_sum : forall shape x, length x = length shape ->
  offset shape x = list_sum (map (fun k => at1 x k * at1 (strides shape) k) (seq 1 (length shape))).
Proof.
  intros shape x L. pose proof (offset_strides shape x 1 L) as H. rewrite Nat.mul_1_l in H. rewrite H, <- seq_shift, map_map.
  f_equal. apply map_ext. intros k. unfold at1. cbn. now rewrite Nat.sub_0_r.
Qed.
Lemma offset_bound : forall shape x, in_bounds shape x -> offset shape x < total shape.
Proof. intros shape x H. unfold total. induction H as [|d i sh r H _ IH]; cbn [offset fold_right]; [lia|]. nia. Qed.
Lemma offset_inj : forall shape x y, in_bounds shape x -> in_bounds shape y -> offset shape x = offset shape y -> x = y.
Proof.
  induction shape as [|d sh IH]; intros x y Hx Hy E; inversion Hx; inversion Hy; subst; [reflexivity|]. cbn [offset] in E.
  assert (y0 = y1).
  { assert (E' := f_equal (fun z => z mod d) E). cbn beta in E'. rewrite !(Nat.mul_comm d), !Nat.mod_add, !Nat.mod_small in E' by lia. exact E'. }
  subst. f_equal. apply IH; auto. nia.
Qed.
Lemma offset_onto : forall shape p, p < total shape -> exists x, in_bounds shape x /\ offset shape x = p.
Proof.
  unfold total. induction shape as [|d sh IH]; intros p H; cbn [fold_right] in H.
  - exists []. split; [constructor|]. cbn. lia.
  - assert (d <> 0) by nia. destruct (IH (p / d)) as (x & Hx & E); [apply Nat.div_lt_upper_bound; lia|].
    exists (p mod d :: x). split; [constructor; [now apply Nat.mod_upper_bound|exact Hx]|]. cbn [offset]. rewrite E.
    rewrite (Nat.div_mod p d) at 3 by lia. lia.
Qed.
Lemma in_bounds_length : forall shape x, in_bounds shape x -> length x = length shape.
Proof. intros shape x H. induction H; cbn; congruence. Qed.
Lemma in_bounds_at : forall shape x, in_bounds shape x -> forall k, 1 <= k <= length shape -> at1 x k < at1 shape k.
Proof.
  intros shape x H. induction H as [|d i sh r H _ IH]; intros k Hk; cbn [length] in Hk; [lia|]. unfold at1 in *.
  destruct k as [|[|k]]; [lia|exact H|]. specialize (IH (S k)). cbn [Nat.sub nth] in *. rewrite ?Nat.sub_0_r in *. apply IH. lia.
Qed.
Lemma permuted_bounds : forall perm shape x, in_bounds shape x -> (forall p, In p perm -> 1 <= p <= length shape) ->
  in_bounds (permuted perm shape) (permuted perm x).
Proof.
  intros perm shape x H B. unfold permuted. induction perm as [|p perm IH]; constructor.
  - apply (in_bounds_at shape x H). apply B. now left.
  - apply IH. intros q Hq. apply B. now right.
Qed.
Lemma permuted_at1 : forall perm l k, 1 <= k <= length perm -> at1 (permuted perm l) k = at1 l (at1 perm k).
Proof.
  intros perm l k Hk. unfold permuted. unfold at1 at 1. rewrite (nth_indep _ 0 ((fun p => nth (p - 1) l 0) 0)) by (rewrite map_length; lia).
  rewrite (map_nth (fun p => nth (p - 1) l 0)). reflexivity.
Qed.
(** Offset in the old tensor as a sum over the axes of the new one. *)
Lemma offset_by_perm : forall perm shape x, arrangement (length shape) perm -> length x = length shape ->
  offset shape x = list_sum (map (fun p => at1 x p * at1 (strides shape) p) perm).
Proof.
  intros perm shape x A L. rewrite offset_sum by exact L. apply sum_perm, Permutation_map. now apply arrangement_perm.
Qed.

(** ** The stripe decoder *)
Lemma outer_fold : forall dims shifts str ps ys off, in_bounds (permuted ps dims) ys ->
  snd (fold_left (outer_step dims shifts str) ps (offset (permuted ps dims) ys, off)) =
  off + list_sum (map (fun py => (snd py + at1 shifts (fst py)) * at1 str (fst py)) (combine ps ys)).
Proof.
  intros dims shifts str. induction ps as [|p ps IH]; intros ys off H; inversion H as [|dd y sh r H1 H2]; subst; cbn [permuted map fold_left offset combine list_sum fold_right] in *; [cbn; lia|].
  fold (permuted ps dims) in *. cbn [outer_step]. change (nth (p - 1) dims 0) with (at1 dims p) in *.
  assert (D : (y + at1 dims p * offset (permuted ps dims) r) / at1 dims p = offset (permuted ps dims) r)
    by (rewrite Nat.mul_comm, Nat.div_add, Nat.div_small by lia; lia).
  assert (M : (y + at1 dims p * offset (permuted ps dims) r) mod at1 dims p = y)
    by (rewrite Nat.mul_comm, Nat.mod_add, Nat.mod_small by lia; lia).
  rewrite D, M, IH by exact H2. cbn [fst snd]. unfold list_sum. lia.
Qed.

(** ** Writes at distinct places *)
Section Writes.
Variable V : Type.
Definition apply_writes (ws : list (nat * (V -> V))) (b : nat -> V) : nat -> V :=
  fold_left (fun b w => upd b (fst w) (snd w (b (fst w)))) ws b.
Lemma writes_other : forall ws b q, ~ In q (map fst ws) -> apply_writes ws b q = b q.
Proof.
  induction ws as [|w ws IH]; intros b q H; [reflexivity|]. cbn [apply_writes fold_left]. fold (apply_writes ws). unfold apply_writes in IH.
  change (apply_writes ws (upd b (fst w) (snd w (b (fst w)))) q = b q). unfold apply_writes. rewrite IH by (intros C; apply H; now right).
  unfold upd. destruct (Nat.eqb_spec q (fst w)); [exfalso; apply H; now left|reflexivity].
Qed.
Lemma writes_in : forall ws b q f, NoDup (map fst ws) -> In (q, f) ws -> apply_writes ws b q = f (b q).
Proof.
  induction ws as [|w ws IH]; intros b q f N H; [destruct H|]. cbn [map] in N. inversion N as [|? ? N1 N2]; subst.
  change (apply_writes ws (upd b (fst w) (snd w (b (fst w)))) q = f (b q)). destruct H as [->|H].
  - cbn [fst snd] in *. rewrite writes_other by exact N1. unfold upd. now rewrite Nat.eqb_refl.
  - rewrite (IH _ q f N2 H). unfold upd. destruct (Nat.eqb_spec q (fst w)) as [->|]; [|reflexivity].
    exfalso. apply N1. change (fst w) with (fst (fst w, f)). now apply in_map.
Qed.
Lemma fold_writes : forall (js : list nat) (w : nat -> list (nat * (V -> V))) b,
  fold_left (fun b j => apply_writes (w j) b) js b = apply_writes (flat_map w js) b.
Proof.
  induction js as [|j js IH]; intros w b; [reflexivity|]. cbn [fold_left flat_map]. rewrite IH. unfold apply_writes. now rewrite fold_left_app.
Qed.
End Writes.
Arguments apply_writes {V}.

(** ** Common part of the four routines *)
Lemma total_perm : forall l m, Permutation l m -> total l = total m.
Proof. unfold total. induction 1; cbn [fold_right] in *; nia. Qed.
Lemma product_total : forall l, product l = total l.
Proof.
  intros l. unfold product, total. assert (G : forall s, fold_left Nat.mul l s = s * fold_right Nat.mul 1 l).
  { induction l as [|x l IH]; intros s; cbn [fold_left fold_right]; [lia|]. rewrite IH. lia. }
  rewrite G. lia.
Qed.
Lemma in_bounds_intro : forall shape x, length x = length shape -> (forall k, 1 <= k <= length shape -> at1 x k < at1 shape k) -> in_bounds shape x.
Proof.
  induction shape as [|d sh IH]; intros [|i x] L H; try discriminate L; constructor.
  - apply (H 1). cbn. lia.
  - apply IH; [now injection L|]. intros k Hk. specialize (H (S k)). unfold at1 in *. destruct k as [|k]; [lia|]. cbn [Nat.sub nth length] in *. rewrite ?Nat.sub_0_r in *. apply H. lia.
Qed.
Definition unperm (perm y : list nat) : list nat := permute_array 0 perm y (repeat 0 (length perm)).
Lemma unperm_length : forall perm y, arrangement (length perm) perm -> length (unperm perm y) = length perm.
Proof. intros. apply permute_spec; [assumption|apply repeat_length]. Qed.
Lemma unperm_at : forall perm y i, arrangement (length perm) perm -> 1 <= i <= length perm -> at1 (unperm perm y) (at1 perm i) = at1 y i.
Proof. intros. apply (permute_spec nat 0 perm y (repeat 0 (length perm))); [assumption|apply repeat_length|assumption]. Qed.
Lemma permuted_unperm : forall perm y, arrangement (length perm) perm -> length y = length perm -> permuted perm (unperm perm y) = y.
Proof.
  intros perm y A L. assert (Lp : length (permuted perm (unperm perm y)) = length perm) by (unfold permuted; apply map_length).
  apply at1_ext; [lia|]. intros k Hk.
  rewrite permuted_at1 by lia. apply unperm_at; [assumption|lia].
Qed.
Lemma unperm_permuted : forall perm x, arrangement (length perm) perm -> length x = length perm -> unperm perm (permuted perm x) = x.
Proof.
  intros perm x A L. apply at1_ext; [rewrite unperm_length; auto|]. intros k Hk.
  destruct (at1_onto (length perm) perm k A) as (i & Hi & <-); [lia|]. rewrite unperm_at by assumption.
  now apply permuted_at1.
Qed.
Lemma unperm_bounds : forall perm shape y, arrangement (length perm) perm -> length shape = length perm ->
  in_bounds (permuted perm shape) y -> in_bounds shape (unperm perm y).
Proof.
  intros perm shape y A L H. apply in_bounds_intro; [rewrite unperm_length; auto|]. intros k Hk.
  destruct (at1_onto (length perm) perm k A) as (i & Hi & <-); [lia|]. rewrite unperm_at by assumption.
  rewrite <- permuted_at1 by assumption. apply in_bounds_at; [exact H|]. unfold permuted. now rewrite map_length.
Qed.

Lemma sum_combine : forall x (sh st : nat -> nat) perm y, Forall2 (fun p v => at1 x p = v + sh p) perm y ->
  list_sum (map (fun p => at1 x p * st p) perm) = list_sum (map (fun py => (snd py + sh (fst py)) * st (fst py)) (combine perm y)).
Proof. intros x sh st perm y H. unfold list_sum. induction H as [|p v perm y H _ IH]; cbn [map combine fold_right fst snd]; [reflexivity|]. rewrite H, IH. reflexivity. Qed.

(** Address in A met at stripe j, position i. *)
Definition address (dims shifts st perm : list nat) (j i : nat) : nat :=
  outer_offset dims shifts st perm j + at1 shifts (at1 perm 1) * at1 st (at1 perm 1) + i * at1 st (at1 perm 1).
Lemma address_spec : forall dims shifts shape perm y x, perm <> [] -> arrangement (length shape) perm -> length x = length shape ->
  in_bounds (permuted perm dims) y -> Forall2 (fun p v => at1 x p = v + at1 shifts p) perm y ->
  exists i j, i < at1 dims (at1 perm 1) /\ j < total (permuted (tl perm) dims) /\
    offset (permuted perm dims) y = j * at1 dims (at1 perm 1) + i /\ offset shape x = address dims shifts (strides shape) perm j i.
Proof.
  intros dims shifts shape perm y x NE A L B F. destruct perm as [|p ps]; [congruence|]. cbn [tl]. change (at1 (p :: ps) 1) with p.
  inversion B as [|dd v sh ys H1 H2]; subst. cbn [permuted map] in *. fold (permuted ps dims) in *. exists v, (offset (permuted ps dims) ys).
  split; [exact H1|]. split; [now apply offset_bound|]. split; [cbn [offset permuted map]; fold (permuted ps dims); change (nth (p - 1) dims 0) with (at1 dims p); lia|].
  rewrite (offset_by_perm (p :: ps)) by assumption. rewrite (sum_combine x (at1 shifts) (at1 (strides shape)) (p :: ps) (v :: ys) F).
  unfold address, outer_offset. cbn [tl]. rewrite outer_fold by exact H2. change (at1 (p :: ps) 1) with p.
  unfold list_sum. cbn [combine map fold_right fst snd]. lia.
Qed.
Lemma forall2_permuted : forall perm x y (sh : nat -> nat), length y = length perm ->
  (forall i, 1 <= i <= length perm -> at1 x (at1 perm i) = at1 y i + sh (at1 perm i)) -> Forall2 (fun p v => at1 x p = v + sh p) perm y.
Proof.
  induction perm as [|p perm IH]; intros x [|v y] sh L H; try discriminate L; constructor.
  - apply (H 1). cbn. lia.
  - apply IH; [now injection L|]. intros i Hi. specialize (H (S i)). unfold at1 in *. destruct i as [|i]; [lia|]. cbn [Nat.sub nth length] in *. rewrite ?Nat.sub_0_r in *. apply H. lia.
Qed.
(** Every (j,i) is reached from a multi-index. *)
Lemma address_onto : forall dims perm i j, perm <> [] -> i < at1 dims (at1 perm 1) -> j < total (permuted (tl perm) dims) ->
  exists y, in_bounds (permuted perm dims) y /\ offset (permuted perm dims) y = j * at1 dims (at1 perm 1) + i.
Proof.
  intros dims perm i j NE Hi Hj. destruct perm as [|p ps]; [congruence|]. cbn [tl] in Hj. destruct (offset_onto _ _ Hj) as (ys & B & E).
  exists (i :: ys). change (at1 (p :: ps) 1) with p in *. split; [constructor; [exact Hi|exact B]|]. cbn [permuted map offset]. fold (permuted ps dims). change (nth (p - 1) dims 0) with (at1 dims p). rewrite E. lia.
Qed.
Lemma positions_nodup : forall s order, NoDup order -> NoDup (flat_map (fun j => map (fun i => j * s + i) (seq 0 s)) order).
Proof.
  intros s order N. induction N as [|j l Nj N IH]; [constructor|]. cbn [flat_map].
  assert (G : forall (a b : list nat), NoDup a -> NoDup b -> (forall z, In z a -> ~ In z b) -> NoDup (a ++ b)).
  { induction a as [|z a IHa]; intros b Na Nb D; [exact Nb|]. inversion Na; subst. cbn. constructor.
    - intros C. apply in_app_or in C. destruct C as [C|C]; [auto|]. apply (D z); [now left|exact C].
    - apply IHa; auto. intros w Hw. apply D. now right. }
  apply G; [|exact IH|].
  - apply FinFun.Injective_map_NoDup; [intros x y E; lia|apply seq_NoDup].
  - intros z Hz C. apply in_map_iff in Hz. destruct Hz as (i & <- & Hi). apply in_flat_map in C. destruct C as (j' & Hj' & C). apply in_map_iff in C.
    destruct C as (i' & E & Hi'). apply in_seq in Hi, Hi'. assert (j = j') by nia. subst j'. auto.
Qed.
Lemma size_outer_spec : forall shape perm, perm <> [] -> arrangement (length shape) perm -> size_outer shape perm = total (permuted (tl perm) shape).
Proof.
  intros shape perm NE A. unfold size_outer.
  assert (G : forall l s, fold_left (fun s i => if i =? at1 perm 1 then s else s * at1 shape i) l s = s * total (map (at1 shape) (filter (fun i => negb (i =? at1 perm 1)) l))).
  { unfold total. induction l as [|x l IH]; intros s; cbn [fold_left filter map fold_right]; [lia|]. rewrite IH. destruct (x =? at1 perm 1); cbn [negb map fold_right]; lia. }
  rewrite G, Nat.mul_1_l. apply total_perm. apply Permutation_map. destruct perm as [|p ps]; [congruence|]. cbn [tl]. change (at1 (p :: ps) 1) with p.
  apply arrangement_perm in A. assert (P := A). destruct (proj2 (arrangement_perm _ _) A) as (_ & N & _). inversion N as [|? ? N1 N2]; subst.
  assert (PF : forall l m, Permutation l m -> Permutation (filter (fun i => negb (i =? p)) l) (filter (fun i => negb (i =? p)) m)).
  { induction 1; cbn; [constructor| | |eapply perm_trans; eassumption].
    - destruct (negb (x =? p)); [now constructor|assumption].
    - destruct (negb (x =? p)), (negb (y =? p)); try apply Permutation_refl; apply perm_swap. }
  apply PF in P. cbn [filter] in P. rewrite Nat.eqb_refl in P. cbn [negb] in P. rewrite P. clear - N1.
  induction ps as [|q ps IH]; [constructor|]. cbn [filter]. destruct (Nat.eqb_spec q p) as [->|]; [exfalso; apply N1; now left|]. cbn [negb]. constructor. apply IH. intros C. apply N1. now right.
Qed.

Section Write.
Variable V : Type.
Lemma stripe_writes : forall order s (f : nat -> nat -> nat) (g : nat -> nat -> V -> V) (b : nat -> V),
  fold_left (fun b j => fold_left (fun b i => upd b (f j i) (g j i (b (f j i)))) (seq 0 s) b) order b
  = apply_writes (flat_map (fun j => map (fun i => (f j i, g j i)) (seq 0 s)) order) b.
Proof.
  intros order s f g b. rewrite <- fold_writes. revert b. induction order as [|j order IH]; intros b; [reflexivity|]. cbn [fold_left]. rewrite IH. f_equal.
  unfold apply_writes. generalize (seq 0 s). intros l. revert b. induction l as [|i l IHl]; intros b; [reflexivity|]. cbn [map fold_left fst snd]. apply IHl.
Qed.
Lemma map_fst_stripes : forall order s (f : nat -> nat -> nat) (g : nat -> nat -> V -> V),
  map fst (flat_map (fun j => map (fun i => (f j i, g j i)) (seq 0 s)) order) = flat_map (fun j => map (fun i => f j i) (seq 0 s)) order.
Proof.
  intros. induction order as [|j order IH]; [reflexivity|]. cbn [flat_map]. rewrite map_app, IH, map_map. reflexivity.
Qed.
End Write.
