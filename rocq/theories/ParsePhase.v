(** The phase computed by parse_ci_wavefunction against the phase of second quantisation. *)
From Coq Require Import List Arith ZArith Lia Bool Reals Lra Sorting.Sorted Permutation.
From Verif Require Import CipsiModel CipsiSpec CipsiProofs PermModel PermSpec PermProofs HilbertSpec HilbertPhase ParseModel ParseSpec.
Import ListNotations.
Local Open Scope Z_scope.

Definition below (x : Z) (l : list Z) : nat := length (filter (fun y => y <? x) l).
Definition total (A l : list Z) : nat := list_sum (map (fun x => below x l) A).
Definition above (x : Z) (l : list Z) : nat := length (filter (fun y => x <? y) l).
Fixpoint invz (l : list Z) : nat := match l with [] => 0%nat | x :: r => (below x r + invz r)%nat end.
Fixpoint ninv (l : list Z) : nat := match l with [] => 0%nat | x :: r => Nat.add (above x r) (ninv r) end.
Fixpoint tri (n : nat) : nat := match n with O => 0%nat | S m => (m + tri m)%nat end.

Lemma below_app : forall x l1 l2, below x (l1 ++ l2) = (below x l1 + below x l2)%nat.
Proof. intros. unfold below. now rewrite filter_app, app_length. Qed.
Lemma below_perm : forall x l1 l2, Permutation l1 l2 -> below x l1 = below x l2.
Proof. intros. unfold below. now apply Permutation_length, filter_perm. Qed.
Lemma total_app_l : forall A B l, total (A ++ B) l = (total A l + total B l)%nat.
Proof. intros. unfold total. now rewrite map_app, list_sum_app. Qed.
Lemma total_app_r : forall A l1 l2, total A (l1 ++ l2) = (total A l1 + total A l2)%nat.
Proof. induction A as [|x A IH]; intros; [reflexivity|]. unfold total in *. cbn [map]. cbn [list_sum fold_right]. fold (list_sum (map (fun x => below x (l1 ++ l2)) A)). rewrite IH, below_app. cbn. unfold list_sum. lia. Qed.
Lemma total_perm_r : forall A l1 l2, Permutation l1 l2 -> total A l1 = total A l2.
Proof. intros A l1 l2 P. unfold total. f_equal. apply map_ext. intros. now apply below_perm. Qed.
Lemma total_perm_l : forall A B l, Permutation A B -> total A l = total B l.
Proof.
  intros A B l P. unfold total, list_sum. induction P; cbn [map fold_right]; lia.
Qed.
Lemma total_cons : forall x A l, total (x :: A) l = (below x l + total A l)%nat. Proof. reflexivity. Qed.
Lemma invz_app : forall l1 l2, invz (l1 ++ l2) = (invz l1 + total l1 l2 + invz l2)%nat.
Proof. induction l1 as [|x l1 IH]; intros; [reflexivity|]. cbn [app invz]. rewrite IH, below_app, total_cons. lia. Qed.

(** ** Triangular numbers *)
Lemma tri_add : forall a b, tri (a + b) = (tri a + tri b + a * b)%nat.
Proof. induction a as [|a IH]; intros b; [cbn; lia|]. cbn [Nat.add tri]. rewrite IH. lia. Qed.
Lemma split_cmp : forall x r, ~ In x r -> (below x r + above x r = length r)%nat.
Proof.
  induction r as [|y r IH]; intros H; [reflexivity|]. unfold below, above in *. cbn [filter].
  assert (x <> y) by (intro; apply H; now left). assert (~ In x r) by (intro; apply H; now right). specialize (IH H1).
  destruct (Z.ltb_spec y x), (Z.ltb_spec x y); cbn [length]; lia.
Qed.
Lemma inv_ninv : forall l, NoDup l -> (invz l + ninv l = tri (length l))%nat.
Proof.
  induction 1 as [|x r N ND IH]; [reflexivity|]. cbn [invz ninv length tri]. pose proof (split_cmp x r N). lia.
Qed.
Lemma total_self : forall l, NoDup l -> total l l = tri (length l).
Proof.
  induction 1 as [|x r N ND IH]; [reflexivity|]. rewrite total_cons.
  change (x :: r) with ([x] ++ r). rewrite total_app_r, below_app, IH.
  assert (E0 : below x [x] = 0%nat) by (unfold below; cbn; now rewrite Z.ltb_irrefl).
  assert (E1 : total r [x] = above x r).
  { clear. induction r as [|y r IH]; [reflexivity|]. rewrite total_cons, IH. unfold below, above. cbn [filter]. destruct (x <? y); cbn; lia. }
  pose proof (split_cmp x r N). cbn [length tri app]. lia.
Qed.
Lemma ninv_sorted : forall l, StronglySorted Z.lt l -> invz l = 0%nat.
Proof.
  induction 1 as [|x r S IH F]; [reflexivity|]. cbn. rewrite IH. unfold below. rewrite filter_none; [reflexivity|].
  rewrite Forall_forall in F. intros y Hy. apply F in Hy. apply Z.ltb_ge. lia.
Qed.
Lemma sorted_nodup : forall l, StronglySorted Z.lt l -> NoDup l.
Proof.
  induction 1 as [|x r S IH F]; constructor; [|assumption]. intro H. rewrite Forall_forall in F. apply F in H. lia.
Qed.
Lemma invz_rev : forall l, StronglySorted Z.lt l -> invz (rev l) = tri (length l).
Proof.
  induction 1 as [|x r S IH F]; [reflexivity|]. cbn [rev]. rewrite invz_app, IH. cbn [invz length tri].
  assert (E : total (rev r) [x] = length r).
  { rewrite (total_perm_l _ r) by (symmetry; apply Permutation_rev). rewrite Forall_forall in F. clear - F.
    induction r as [|y r IH]; [reflexivity|]. rewrite total_cons, IH by (intros; apply F; now right).
    assert (L : x < y) by (apply F; now left). unfold below. cbn. apply Z.ltb_lt in L. rewrite L. reflexivity. }
  unfold below. cbn. lia.
Qed.

(** ** The exponent of a string of annihilation operators in any order *)
Lemma drop_nodup_count : forall x z l, NoDup l -> In x l ->
  (below z (drop x l) + (if (x <? z)%Z then 1 else 0) = below z l)%nat.
Proof.
  induction 1 as [|y l N ND IH]; intros H; [contradiction|]. unfold below in *. cbn [drop filter].
  destruct (Z.eqb_spec y x) as [->|E]; cbn [negb].
  - assert (D : drop x l = l).
    { unfold drop. apply filter_all. intros w Hw. apply negb_true_iff, Z.eqb_neq. congruence. }
    unfold drop in D. rewrite D. destruct (x <? z); cbn [length]; lia.
  - destruct H as [H|H]; [congruence|]. specialize (IH H). unfold drop in IH. cbn [filter]. destruct (y <? z); cbn [length]; lia.
Qed.
Lemma drop_In : forall x y l, In y (drop x l) <-> In y l /\ y <> x.
Proof. intros. unfold drop. rewrite filter_In, negb_true_iff, Z.eqb_neq. tauto. Qed.
Lemma annihilate_all_any : forall ps l, NoDup ps -> NoDup l -> (forall q, In q ps -> In q l) ->
  annihilate_all ps l = Some (((-1) ^ expo ps l)%R, filter (fun y => negb (CipsiModel.mem y ps)) l).
Proof.
  induction ps as [|q ps IH]; intros l N Nl H.
  - cbn. rewrite filter_all; auto.
  - inversion N as [|? ? Nq N']; subst. cbn [annihilate_all]. unfold annihilate.
    destruct (in_dec Z.eq_dec q l) as [Hq|Hq]; [|elim Hq; apply H; now left].
    fold (drop q l). rewrite IH; [|assumption|unfold drop; now apply NoDup_filter|].
    + cbn [expo]. rewrite pow_add. do 2 f_equal. unfold drop.
      rewrite filter_comm. clear. induction l as [|y l IH]; cbn; [reflexivity|].
      unfold CipsiModel.mem. cbn [existsb]. destruct (Z.eqb_spec y q) as [->|N]; cbn.
      * rewrite ?Z.eqb_refl. cbn. destruct (negb (existsb _ ps)); cbn; [rewrite Z.eqb_refl; cbn|]; exact IH.
      * destruct (negb (existsb (Z.eqb y) ps)) eqn:E; cbn.
        -- destruct (Z.eqb_spec y q); [congruence|]. cbn. f_equal. exact IH.
        -- exact IH.
    + intros y Hy. apply drop_In. split; [apply H; now right|]. intros ->. contradiction.
Qed.
Lemma expo_total : forall ps l, NoDup ps -> NoDup l -> (forall q, In q ps -> In q l) -> (expo ps l + ninv ps = total ps l)%nat.
Proof.
  induction ps as [|q ps IH]; intros l N Nl H; [reflexivity|]. inversion N as [|? ? Nq N']; subst.
  cbn [expo ninv]. rewrite total_cons. fold (below q l).
  assert (E : (total ps (drop q l) + above q ps = total ps l)%nat).
  { assert (K : In q l) by (apply H; now left). clear - K Nl. induction ps as [|p ps IH]; [reflexivity|].
    rewrite !total_cons. pose proof (drop_nodup_count q p l Nl K). unfold above in *. cbn [filter]. destruct (q <? p); cbn [length]; lia. }
  assert (IH' : (expo ps (drop q l) + ninv ps = total ps (drop q l))%nat).
  { apply IH; [assumption|unfold drop; now apply NoDup_filter|]. intros y Hy. apply drop_In. split; [apply H; now right|]. intros ->. contradiction. }
  lia.
Qed.

(** ** The sorting permutation *)
Lemma position_S : forall x y r, x <> y -> position x (y :: r) = S (position x r).
Proof. intros. cbn. destruct (Z.eqb_spec x y); [contradiction|reflexivity]. Qed.
Lemma argsort_step : forall x r, ~ In x r -> forall L, (forall y, In y L -> In y r) -> StronglySorted Z.le L -> NoDup L ->
  exists L1 L2, L = L1 ++ L2 /\ CipsiModel.insert x L = L1 ++ x :: L2 /\ length L1 = below x L.
Proof.
  intros x r N. induction L as [|y L IH]; intros HL SL NL.
  - exists [], []. auto.
  - inversion SL as [|? ? S' F]; subst. inversion NL as [|? ? Ny NL']; subst. cbn [CipsiModel.insert]. unfold below. cbn [filter].
    assert (x <> y) by (intros ->; apply N, HL; now left). rewrite Forall_forall in F.
    destruct (Z.leb_spec x y).
    + exists [], (y :: L). repeat split. destruct (Z.ltb_spec y x); [lia|]. rewrite filter_none; [reflexivity|].
      intros z Hz. apply F in Hz. apply Z.ltb_ge. lia.
    + destruct IH as (L1 & L2 & E1 & E2 & E3); auto; [intros; apply HL; now right|].
      exists (y :: L1), L2. rewrite E1 at 1. cbn [app]. split; [reflexivity|]. rewrite E2. split; [reflexivity|].
      destruct (Z.ltb_spec y x); [|lia]. cbn [length]. now rewrite E3.
Qed.
Lemma smaller_S : forall n l, smaller (S n) (map S l) = smaller n l.
Proof. intros n l. unfold smaller. induction l as [|m l IH]; [reflexivity|]. cbn [map filter]. change (S m <? S n)%nat with (m <? n)%nat. destruct (m <? n)%nat; cbn [length]; now rewrite IH. Qed.
Lemma inversions_S : forall l, inversions (map S l) = inversions l.
Proof. induction l as [|x l IH]; [reflexivity|]. cbn. rewrite IH. now rewrite smaller_S. Qed.
Lemma inv_insert0 : forall l1 l2, inversions (map S l1 ++ 0%nat :: map S l2) = (length l1 + inversions (l1 ++ l2))%nat.
Proof.
  intros l1 l2. induction l1 as [|x l1 IH]; cbn [map app length Nat.add].
  - cbn [inversions]. rewrite inversions_S. unfold smaller. rewrite (filter_none _ (map S l2)); [reflexivity|]. intros y Hy. reflexivity.
  - cbn [inversions]. rewrite IH. rewrite (smaller_app (S x)).
    assert (E : smaller (S x) (0%nat :: map S l2) = S (smaller (S x) (map S l2))) by reflexivity.
    rewrite E, !smaller_S, (smaller_app x). lia.
Qed.
Lemma argsort_perm : forall l, NoDup l -> is_perm (argsort l) /\ length (argsort l) = length l.
Proof.
  intros l N. unfold argsort.
  assert (L : length (map (fun x => position x l) (CipsiModel.isort l)) = length l) by now rewrite map_length, isort_length.
  split; [|exact L]. unfold is_perm. rewrite L.
  transitivity (map (fun x => position x l) l); [apply Permutation_map; symmetry; apply isort_perm|].
  assert (E : map (fun x => position x l) l = seq 0 (length l)); [|rewrite E; apply Permutation_refl].
  clear L. induction N as [|x r Nx N IH]; [reflexivity|]. cbn [length seq map]. f_equal.
  - cbn. now rewrite Z.eqb_refl.
  - rewrite <- seq_shift, <- IH, map_map. apply map_ext_in. intros y Hy. apply position_S. intros ->. contradiction.
Qed.
Lemma argsort_inv : forall l, NoDup l -> inversions (argsort l) = invz l.
Proof.
  induction 1 as [|x r N ND IH]; [reflexivity|]. unfold argsort in *. cbn [CipsiModel.isort invz].
  destruct (argsort_step x r N (CipsiModel.isort r)) as (L1 & L2 & E1 & E2 & E3);
    [intros; now apply isort_In|apply isort_sorted|now apply isort_NoDup|].
  rewrite E2, map_app. cbn [map]. replace (position x (x :: r)) with 0%nat by (cbn; now rewrite Z.eqb_refl).
  assert (M : forall L, (forall y, In y L -> In y r) -> map (fun y => position y (x :: r)) L = map S (map (fun y => position y r) L)).
  { intros L HL. rewrite map_map. apply map_ext_in. intros y Hy. apply position_S. intros ->. apply N. auto. }
  assert (HL : forall y, In y (L1 ++ L2) -> In y r) by (intros y Hy; rewrite <- E1 in Hy; exact (proj1 (isort_In y r) Hy)).
  rewrite !M by (intros; apply HL, in_or_app; auto). rewrite inv_insert0, map_length, E3, <- map_app, <- E1, IH.
  f_equal. apply below_perm. symmetry. apply isort_perm.
Qed.
Lemma pow_parity : forall n, ((-1) ^ n)%R = IZR (if Nat.even n then 1 else -1).
Proof.
  induction n as [|n IH]; [reflexivity|]. cbn [pow]. rewrite IH, Nat.even_succ, <- Nat.negb_even. destruct (Nat.even n); cbn; lra.
Qed.
Lemma pow_same : forall a b k, (a + b = 2 * k)%nat -> ((-1) ^ a = (-1) ^ b)%R.
Proof.
  intros a b k E. rewrite !pow_parity. do 2 f_equal.
  assert (Nat.even (a + b) = true) by (rewrite E; apply Nat.even_spec; now exists k).
  rewrite Nat.even_add in H. apply eqb_prop in H. now rewrite H.
Qed.
Lemma parity_inv : forall l, NoDup l -> IZR (calculate_permutation_parity (argsort l)) = ((-1) ^ invz l)%R.
Proof.
  intros l N. unfold calculate_permutation_parity. rewrite parity_correct by (now apply argsort_perm). cbn [fst].
  unfold sign. rewrite argsort_inv by assumption. symmetry. apply pow_parity.
Qed.

Lemma nodup_tail : forall (l1 l2 : list Z), NoDup (l1 ++ l2) -> NoDup l2.
Proof. induction l1 as [|x l1 IH]; intros l2 N; [exact N|]. inversion N; subst. now apply IH. Qed.
(** ** The two phases *)
Theorem phases : forall A Ia Ib D H, NoDup A -> StronglySorted Z.lt Ia -> StronglySorted Z.lt Ib -> NoDup (A ++ Ia ++ Ib) ->
  StronglySorted Z.lt D -> StronglySorted Z.lt H ->
  (forall q, In q A -> In q D) -> (forall q, In q (Ia ++ Ib) -> In q H) ->
  Permutation (D ++ Ia ++ Ib) (H ++ A) -> length A = (length Ia + length Ib)%nat ->
  (forall x, In x D /\ ~ In x A <-> In x H /\ ~ In x (Ia ++ Ib)) ->
  IZR (calculate_permutation_parity (argsort (A ++ rev Ia ++ rev Ib))) =
  (element A (Ia ++ Ib) D H * (-1) ^ (total A H + total (Ia ++ Ib) H + length Ia * length Ib))%R.
Proof.
  intros A Ia Ib D H NA SIa SIb N SD SH HA HI P LA M.
  assert (NI : NoDup (Ia ++ Ib)) by (now apply nodup_tail in N).
  pose proof (sorted_nodup D SD) as ND. pose proof (sorted_nodup H SH) as NH.
  assert (PI : Permutation (rev Ia ++ rev Ib) (Ia ++ Ib)).
  { apply Permutation_app; symmetry; apply Permutation_rev. }
  rewrite parity_inv.
  2:{ apply (Permutation_NoDup (l := A ++ Ia ++ Ib)); [|exact N]. apply Permutation_app_head. now symmetry. }
  unfold element. rewrite !annihilate_all_any by assumption.
  destruct (list_eq_dec Z.eq_dec (filter (fun y => negb (CipsiModel.mem y A)) D) (filter (fun y => negb (CipsiModel.mem y (Ia ++ Ib))) H)) as [_|NE].
  - rewrite <- !pow_add.
    pose proof (expo_total A D NA ND HA) as E1. pose proof (expo_total (Ia ++ Ib) H NI NH HI) as E2.
    pose proof (inv_ninv A NA) as E3. pose proof (inv_ninv (Ia ++ Ib) NI) as E4.
    pose proof (total_perm_r A _ _ P) as E5. rewrite !total_app_r in E5. pose proof (total_self A NA) as E6.
    assert (E7 : invz (A ++ rev Ia ++ rev Ib) = (invz A + total A (Ia ++ Ib) + (tri (length Ia) + tri (length Ib) + total Ia Ib))%nat).
    { rewrite invz_app, (total_perm_r A _ _ PI), invz_app, !invz_rev by assumption.
      rewrite (total_perm_l (rev Ia) Ia) by (symmetry; apply Permutation_rev).
      rewrite (total_perm_r Ia (rev Ib) Ib) by (symmetry; apply Permutation_rev). lia. }
    assert (E8 : invz (Ia ++ Ib) = total Ia Ib) by (rewrite invz_app, !ninv_sorted by assumption; lia).
    rewrite total_app_r in E7. rewrite app_length in E4.
    pose proof (tri_add (length Ia) (length Ib)) as E9. rewrite LA in *.
    apply (pow_same _ _ (invz A + total Ia Ib + total A H + total (Ia ++ Ib) H)). lia.
  - elim NE. apply sorted_eq.
    + clear - SD. induction SD as [|x l S IH F]; cbn; [constructor|]. destruct (negb _); [|assumption]. constructor; [assumption|].
      rewrite Forall_forall in *. intros y Hy. apply filter_In in Hy. apply F. tauto.
    + clear - SH. induction SH as [|x l S IH F]; cbn; [constructor|]. destruct (negb _); [|assumption]. constructor; [assumption|].
      rewrite Forall_forall in *. intros y Hy. apply filter_In in Hy. apply F. tauto.
    + intro x. rewrite !filter_In, !negb_true_iff, !mem_not. apply M.
Qed.
