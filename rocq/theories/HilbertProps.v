(** Theorems for C50. *)
From Coq Require Import List ZArith Lia Bool Reals Lra Sorting.Sorted Permutation.
From Verif Require Import CipsiModel CipsiSpec CipsiProofs HilbertModel HilbertSpec HilbertRules HilbertProofs HilbertPhase.
Import ListNotations.
Local Open Scope Z_scope.

Lemma phase_sym : forall s d1 d2 e12 e21, good s d1 -> good s d2 ->
  get_excitation s d1 d2 = Some e12 -> get_excitation s d2 d1 = Some e21 -> phase e12 = phase e21.
Proof.
  intros s d1 d2 e12 e21 G1 G2 E12 E21. rewrite (get_excitation_eq s d1 d2 G1 G2) in E12.
  rewrite (get_excitation_eq s d2 d1 G2 G1) in E21. injection E12 as <-. injection E21 as <-.
  unfold phase. cbn [nperm]. now rewrite Z.add_comm.
Qed.

(** The excitation that takes [d2] to [d1] exists and lists exactly the orbitals, spin by spin and in increasing order,
    that one determinant has and the other lacks; and its phase is the matrix element of the corresponding string of
    creation and annihilation operators between the two determinants (alpha strings before beta strings). *)
Theorem C50_excitation : forall s d1 d2, built s d1 -> built s d2 ->
  exists e, get_excitation s d1 d2 = Some e /\
    (StronglySorted Z.lt (to_a e) /\ forall q, In q (to_a e) <-> In q (occ_a d1) /\ ~ In q (occ_a d2)) /\
    (StronglySorted Z.lt (from_a e) /\ forall q, In q (from_a e) <-> In q (occ_a d2) /\ ~ In q (occ_a d1)) /\
    (StronglySorted Z.lt (to_b e) /\ forall q, In q (to_b e) <-> In q (occ_b d1) /\ ~ In q (occ_b d2)) /\
    (StronglySorted Z.lt (from_b e) /\ forall q, In q (from_b e) <-> In q (occ_b d2) /\ ~ In q (occ_b d1)) /\
    phase e = (element (to_a e) (from_a e) (occ_a d1) (occ_a d2) * element (to_b e) (from_b e) (occ_b d1) (occ_b d2))%R /\
    (phase e = 1 \/ phase e = -1)%R.
Proof.
  intros s d1 d2 B1 B2. apply built_good in B1, B2. pose proof (get_excitation_eq s d1 d2 B1 B2) as E.
  eexists. split; [exact E|]. cbn [to_a to_b from_a from_b].
  destruct (abs_sorted s d1 d2 B1) as [SA1 SB1]. destruct (abs_sorted s d2 d1 B2) as [SA2 SB2].
  split; [split; [assumption|intro; now apply (abs_a_In s)]|]. split; [split; [assumption|intro; now apply (abs_a_In s)]|].
  split; [split; [assumption|intro; now apply (abs_b_In s)]|]. split; [split; [assumption|intro; now apply (abs_b_In s)]|].
  split.
  - now rewrite (phase_element s d1 d2 _ B1 B2 E).
  - unfold phase. destruct (Z.even _); auto.
Qed.

(** ** Matrix elements *)
Definition real_symmetric (H : hint) : Prop := forall p q r t,
  H_a H p q = H_a H q p /\ H_b H p q = H_b H q p /\
  H_aa H p q r t = H_aa H r t p q /\ H_ab H p q r t = H_ab H r t p q /\ H_bb H p q r t = H_bb H r t p q.
Definition antisymmetric (H : hint) : Prop := forall p q r t,
  H_aa H p q r t = (- H_aa H q p r t)%R /\ H_aa H p q r t = (- H_aa H p q t r)%R /\
  H_bb H p q r t = (- H_bb H q p r t)%R /\ H_bb H p q r t = (- H_bb H p q t r)%R.

Lemma len1 : forall (l : list Z) n, length l = n -> n <> 1%nat -> Nat.eqb (length l) 1 = false.
Proof. intros. apply Nat.eqb_neq. lia. Qed.

Lemma single_in : forall (P : Z -> Prop) (a : Z), (forall q, In q [a] <-> P q) -> forall q, q = a <-> P q.
Proof. intros P a H q. rewrite <- (H q). cbn. intuition congruence. Qed.

Lemma no_diff : forall s d1 d2, good s d1 -> good s d2 ->
  (abs_a (diff d1 d2) = [] -> occ_a d1 = occ_a d2) /\ (abs_b (diff d1 d2) = [] -> occ_b d1 = occ_b d2).
Proof.
  intros s d1 d2 G1 G2. split; intro E; apply same_occ.
  - apply (g_sa s d1 G1). - apply (g_sa s d2 G2). - now rewrite (g_la s d1 G1), (g_la s d2 G2).
  - intros x Hx. destruct (in_dec Z.eq_dec x (occ_a d2)) as [H|H]; [assumption|].
    assert (In x (abs_a (diff d1 d2))) as HH by (apply (abs_a_In s); tauto). rewrite E in HH. contradiction.
  - apply (g_sb s d1 G1). - apply (g_sb s d2 G2). - now rewrite (g_lb s d1 G1), (g_lb s d2 G2).
  - intros x Hx. destruct (in_dec Z.eq_dec x (occ_b d2)) as [H|H]; [assumption|].
    assert (In x (abs_b (diff d1 d2))) as HH by (apply (abs_b_In s); tauto). rewrite E in HH. contradiction.
Qed.

(** One orbital exchanged: the sum over the occupied orbitals is the same over either determinant. *)
Lemma sum_exchange : forall (l1 l2 : list Z) a i (f : Z -> R), NoDup l1 -> NoDup l2 ->
  (forall q, q = a <-> In q l1 /\ ~ In q l2) -> (forall q, q = i <-> In q l2 /\ ~ In q l1) -> f a = f i -> sum l1 f = sum l2 f.
Proof.
  intros l1 l2 a i f N1 N2 Ha Hi E. destruct (exchange l1 l2 a i N1 N2 Ha Hi) as [C [P1 P2]].
  rewrite (sum_perm _ _ _ P1), (sum_perm _ _ _ P2). cbn. now rewrite E.
Qed.

Local Open Scope R_scope.
(** The matrix of the Hamiltonian is symmetric, for real symmetric antisymmetrised integrals and any two determinants of a
    system with no or at least two electrons of each spin. *)
Theorem C50_hermitian : forall s H d1 d2, built s d1 -> built s d2 -> h_noa s <> 1%nat -> h_nob s <> 1%nat ->
  real_symmetric H -> antisymmetric H ->
  slater_eval s H d1 d2 = slater_eval s H d2 d1 /\ exists v, slater_eval s H d1 d2 = Some v.
Proof.
  intros s H d1 d2 B1 B2 NA NB RS AS. apply built_good in B1, B2.
  pose proof (get_excitation_eq s d1 d2 B1 B2) as E12. pose proof (get_excitation_eq s d2 d1 B2 B1) as E21.
  pose proof (phase_sym s d1 d2 _ _ B1 B2 E12 E21) as PH.
  unfold slater_eval. rewrite E12, E21. cbv zeta. rewrite <- PH. clear E12 E21.
  set (ph := phase _). clearbody ph. clear PH. unfold degree. cbn [to_a to_b from_a from_b].
  destruct (abs_len s d1 d2 B1 B2) as [La Lb]. rewrite La, Lb.
  pose proof (fun q => abs_a_In s d1 d2 q B1 B2) as A1. pose proof (fun q => abs_a_In s d2 d1 q B2 B1) as A2.
  pose proof (fun q => abs_b_In s d1 d2 q B1 B2) as C1. pose proof (fun q => abs_b_In s d2 d1 q B2 B1) as C2.
  destruct (no_diff s d1 d2 B1 B2) as [DA DB]. destruct (no_diff s d2 d1 B2 B1) as [DA' DB'].
  assert (T1 : forall f, trace (occ_a d1) f = Some (sum (occ_a d1) f)) by (intro f; unfold trace; now rewrite (len1 _ _ (g_la s d1 B1) NA)).
  assert (T2 : forall f, trace (occ_a d2) f = Some (sum (occ_a d2) f)) by (intro f; unfold trace; now rewrite (len1 _ _ (g_la s d2 B2) NA)).
  assert (T3 : forall f, trace (occ_b d1) f = Some (sum (occ_b d1) f)) by (intro f; unfold trace; now rewrite (len1 _ _ (g_lb s d1 B1) NB)).
  assert (T4 : forall f, trace (occ_b d2) f = Some (sum (occ_b d2) f)) by (intro f; unfold trace; now rewrite (len1 _ _ (g_lb s d2 B2) NB)).
  pose proof (SS_NoDup _ (g_sa s d1 B1)) as N1. pose proof (SS_NoDup _ (g_sa s d2 B2)) as N2.
  pose proof (SS_NoDup _ (g_sb s d1 B1)) as N3. pose proof (SS_NoDup _ (g_sb s d2 B2)) as N4.
  destruct (Nat.ltb_spec 2 (length (abs_a (diff d2 d1)) + length (abs_b (diff d2 d1)))) as [BIG|SMALL]; [eauto|].
  set (A := abs_a (diff d1 d2)) in *. set (I := abs_a (diff d2 d1)) in *.
  set (B := abs_b (diff d1 d2)) in *. set (J := abs_b (diff d2 d1)) in *. clearbody A I B J.
  assert (Z0 : forall x p r, H_aa H x x p r = 0) by (intros x p r; destruct (AS x x p r) as [Q _]; lra).
  assert (Z1 : forall x p r, H_bb H x x p r = 0) by (intros x p r; destruct (AS x x p r) as [_ [_ [Q _]]]; lra).
  assert (Z2 : forall x p r, H_aa H p r x x = 0) by (intros x p r; destruct (AS p r x x) as [_ [Q _]]; lra).
  assert (Z3 : forall x p r, H_bb H p r x x = 0) by (intros x p r; destruct (AS p r x x) as [_ [_ [_ Q]]]; lra).
  destruct A as [|a [|a' [|a'' A]]], I as [|i [|i' [|i'' I]]]; cbn [length] in *; try (exfalso; lia);
  destruct B as [|b [|b' [|b'' B]]], J as [|j [|j' [|j'' J]]]; cbn [length] in *; try (exfalso; lia); cbn [option_map].
  - rewrite (DA eq_refl), (DB eq_refl). eauto.
  - rewrite T1, T2, T3, T4. cbn [option_map]. split; [|eauto]. rewrite (DA eq_refl). do 3 f_equal.
    + destruct (RS b j 0%Z 0%Z) as (_ & Q & _). rewrite Q.
      rewrite (sum_exchange (occ_b d2) (occ_b d1) j b); auto.
      * f_equal. apply sum_ext. intros k _. destruct (RS b k j k) as (_ & _ & _ & _ & Q'). exact Q'.
      * apply single_in, C2. * apply single_in, C1. * rewrite Z1, Z3. reflexivity.
    + apply sum_ext. intros k _. destruct (RS k b k j) as (_ & _ & _ & Q' & _). exact Q'.
  - split; [|eauto]. do 2 f_equal. destruct (RS b b' j j') as (_ & _ & _ & _ & Q'). exact Q'.
  - rewrite T1, T2, T3, T4. cbn [option_map]. split; [|eauto]. rewrite (DB eq_refl). do 3 f_equal.
    + destruct (RS a i 0%Z 0%Z) as (Q & _). rewrite Q.
      rewrite (sum_exchange (occ_a d2) (occ_a d1) i a); auto.
      * f_equal. apply sum_ext. intros k _. destruct (RS a k i k) as (_ & _ & Q' & _). exact Q'.
      * apply single_in, A2. * apply single_in, A1. * rewrite Z0, Z2. reflexivity.
    + apply sum_ext. intros k _. destruct (RS a k i k) as (_ & _ & _ & Q' & _). exact Q'.
  - split; [|eauto]. do 2 f_equal. destruct (RS a b i j) as (_ & _ & _ & Q' & _). exact Q'.
  - split; [|eauto]. do 2 f_equal. destruct (RS a a' i i') as (_ & _ & Q' & _). exact Q'.
Qed.

Lemma element_same : forall l, element [] [] l l = 1.
Proof. intro l. unfold element. cbn. destruct (list_eq_dec Z.eq_dec l l) as [E|E]; [lra|congruence]. Qed.

(** The matrix elements are those of the Slater-Condon rules, signs included. *)
Theorem C50_slater_condon : forall s H d1 d2, built s d1 -> built s d2 -> h_noa s <> 1%nat -> h_nob s <> 1%nat ->
  exists v, slater_eval s H d1 d2 = Some v /\ slater_condon H (occ_a d1) (occ_b d1) (occ_a d2) (occ_b d2) v.
Proof.
  intros s H d1 d2 B1 B2 NA NB. apply built_good in B1, B2.
  pose proof (get_excitation_eq s d1 d2 B1 B2) as E12. pose proof (phase_element s d1 d2 _ B1 B2 E12) as PH.
  unfold slater_eval. rewrite E12. cbv zeta. rewrite PH. clear E12 PH. unfold degree. cbn [to_a to_b from_a from_b].
  destruct (abs_len s d1 d2 B1 B2) as [La Lb].
  pose proof (fun q => abs_a_In s d1 d2 q B1 B2) as A1. pose proof (fun q => abs_a_In s d2 d1 q B2 B1) as A2.
  pose proof (fun q => abs_b_In s d1 d2 q B1 B2) as C1. pose proof (fun q => abs_b_In s d2 d1 q B2 B1) as C2.
  destruct (no_diff s d1 d2 B1 B2) as [DA DB].
  assert (T2 : forall f, trace (occ_a d2) f = Some (sum (occ_a d2) f)) by (intro f; unfold trace; now rewrite (len1 _ _ (g_la s d2 B2) NA)).
  assert (T4 : forall f, trace (occ_b d2) f = Some (sum (occ_b d2) f)) by (intro f; unfold trace; now rewrite (len1 _ _ (g_lb s d2 B2) NB)).
  destruct (abs_sorted s d1 d2 B1) as [SA SB]. apply SS_NoDup in SA, SB.
  destruct (Nat.ltb_spec 2 (length (abs_a (diff d1 d2)) + length (abs_b (diff d1 d2)))) as [BIG|SMALL].
  { exists 0. split; [reflexivity|]. eapply sc_more; [exact SA|exact SB|exact A1|exact C1|exact BIG]. }
  set (A := abs_a (diff d1 d2)) in *. set (I := abs_a (diff d2 d1)) in *.
  set (B := abs_b (diff d1 d2)) in *. set (J := abs_b (diff d2 d1)) in *. clearbody A I B J.
  destruct A as [|a [|a' [|a'' A]]], I as [|i [|i' [|i'' I]]]; cbn [length] in *; try (exfalso; lia);
  destruct B as [|b [|b' [|b'' B]]], J as [|j [|j' [|j'' J]]]; cbn [length] in *; try (exfalso; lia); cbn [option_map];
  try rewrite T2, T4; cbn [option_map]; eexists; (split; [reflexivity|]);
  try rewrite (DA eq_refl); try rewrite (DB eq_refl); rewrite ?element_same, ?Rmult_1_l, ?Rmult_1_r; econstructor; assumption.
Qed.
Local Open Scope Z_scope.

(** With a single electron of either spin a matrix element between determinants that differ by one orbital cannot be
    computed: the call raises. *)
Theorem C50_one_electron_raises_refuted : forall s H d1 d2, built s d1 -> built s d2 -> h_noa s = 1%nat \/ h_nob s = 1%nat ->
  (exists a, only [a] (occ_a d1) (occ_a d2)) /\ occ_b d1 = occ_b d2 \/ (exists a, only [a] (occ_b d1) (occ_b d2)) /\ occ_a d1 = occ_a d2 ->
  slater_eval s H d1 d2 = None.
Proof.
  assert (ONE : forall (l : list Z) a, StronglySorted Z.lt l -> (forall q, In q l <-> q = a) -> l = [a]).
  { intros l a S E. apply sorted_eq; [assumption|repeat constructor|]. intro x. rewrite E. cbn. intuition congruence. }
  assert (NIL : forall l : list Z, (forall q, ~ In q l) -> l = []).
  { intros [|x l] E; [reflexivity|]. elim (E x). now left. }
  assert (LEN : forall l : list Z, length l = 1%nat -> exists x, l = [x]).
  { intros [|x [|y l]] E; cbn in E; try lia. eauto. }
  assert (LEN0 : forall l : list Z, length l = 0%nat -> l = []).
  { intros [|x l] E; cbn in E; [reflexivity|lia]. }
  intros s H d1 d2 B1 B2 OR HY. apply built_good in B1, B2.
  pose proof (get_excitation_eq s d1 d2 B1 B2) as E12. unfold slater_eval. rewrite E12. cbv zeta. unfold degree. cbn [to_a to_b from_a from_b].
  destruct (abs_len s d1 d2 B1 B2) as [La Lb].
  pose proof (fun q => abs_a_In s d1 d2 q B1 B2) as A1. pose proof (fun q => abs_b_In s d1 d2 q B1 B2) as C1.
  destruct (abs_sorted s d1 d2 B1) as [SA SB].
  assert (TR : forall f g, match trace (occ_a d2) f, trace (occ_b d2) g with Some x, Some y => Some (x, y) | _, _ => None end = None).
  { intros f g. unfold trace. rewrite (g_la s d2 B2), (g_lb s d2 B2). destruct OR as [-> | ->]; cbn [Nat.eqb]; [reflexivity|].
    destruct (Nat.eqb (h_noa s) 1); reflexivity. }
  destruct HY as [[[a Ha] E] | [[a Ha] E]].
  - assert (abs_a (diff d1 d2) = [a]) as EA by (apply ONE; [assumption|]; intro q; rewrite A1, <- (Ha q); cbn; intuition congruence).
    assert (abs_b (diff d1 d2) = []) as EB by (apply NIL; intros q Hq; apply C1 in Hq; rewrite E in Hq; tauto).
    rewrite EA, EB in *. cbn [length] in La, Lb. symmetry in La, Lb. destruct (LEN _ La) as [i ->]. rewrite (LEN0 _ Lb). cbn [length Nat.add Nat.ltb Nat.leb].
    specialize (TR (fun k => H_aa H a k i k) (fun k => H_ab H a k i k)).
    destruct (trace (occ_a d2) _); [|reflexivity]. destruct (trace (occ_b d2) _); [discriminate|reflexivity].
  - assert (abs_b (diff d1 d2) = [a]) as EA by (apply ONE; [assumption|]; intro q; rewrite C1, <- (Ha q); cbn; intuition congruence).
    assert (abs_a (diff d1 d2) = []) as EB by (apply NIL; intros q Hq; apply A1 in Hq; rewrite E in Hq; tauto).
    rewrite EA, EB in *. cbn [length] in La, Lb. symmetry in La, Lb. destruct (LEN _ Lb) as [i ->]. rewrite (LEN0 _ La). cbn [length Nat.add Nat.ltb Nat.leb].
    specialize (TR (fun k => H_ab H k a k i) (fun k => H_bb H a k i k)).
    destruct (trace (occ_b d2) _); [|reflexivity]. destruct (trace (occ_a d2) _); [discriminate|reflexivity].
Qed.

(** ** Back to a determinant *)
Lemma Some_eq : forall {A} (x y : A), Some x = Some y -> y = x.
Proof. congruence. Qed.
Definition sumZ (l : list Z) : Z := fold_right Z.add 0 l.
Lemma sumZ_perm : forall l l', Permutation l l' -> sumZ l = sumZ l'.
Proof. unfold sumZ. induction 1; cbn [fold_right]; lia. Qed.
Lemma sumZ_app : forall l l', sumZ (l ++ l') = sumZ l + sumZ l'.
Proof. induction l as [|x l IH]; intro l'; [reflexivity|]. cbn [app]. change (x + sumZ (l ++ l') = x + sumZ l + sumZ l'). rewrite IH. lia. Qed.
Lemma sumZ_parity : forall l, sumZ l = sumZ (odds l) + sumZ (evens l).
Proof.
  induction l as [|x l IH]; [reflexivity|]. unfold odds, evens in *. cbn [filter].
  destruct (mod2 x) as [M | M]; rewrite M; [change (0 =? 1) with false; change (0 =? 0) with true|change (1 =? 1) with true; change (1 =? 0) with false];
    cbv iota; unfold sumZ in *; cbn [fold_right]; lia.
Qed.
Lemma sumZ_map : forall c k l, sumZ (map (fun x => c * x + k) l) = c * sumZ l + k * Z.of_nat (length l).
Proof. unfold sumZ. induction l as [|x l IH]; cbn [map fold_right length]; [lia|]. rewrite IH. lia. Qed.

Lemma replace_first_sum : forall x y l l', replace_first x y l = Some l' -> sumZ l' = sumZ l - x + y /\
  (y mod 2 = x mod 2 -> length (odds l') = length (odds l) /\ length (evens l') = length (evens l)).
Proof.
  induction l as [|z l IH]; intros l' E; [discriminate|]. cbn in E. destruct (Z.eqb_spec z x) as [->|N].
  - injection E as <-. unfold sumZ. cbn [fold_right]. split; [lia|]. intro M. unfold odds, evens. cbn [filter]. rewrite M.
    destruct (x mod 2 =? 1), (x mod 2 =? 0); cbn [length]; lia.
  - destruct (replace_first x y l) as [l0|]; [|discriminate]. cbn in E. injection E as <-. destruct (IH l0 eq_refl) as [S L].
    unfold sumZ in *. cbn [fold_right]. split; [lia|]. intro M. destruct (L M) as [L1 L2]. unfold odds, evens in *. cbn [filter].
    destruct (z mod 2 =? 1), (z mod 2 =? 0); cbn [length]; lia.
Qed.
Lemma substitute_sum : forall f g hs ps l l', length hs = length ps -> substitute f g hs ps l = Some l' ->
  sumZ l' = sumZ l - sumZ (map g hs) + sumZ (map f ps) /\
  ((forall x y, f x mod 2 = g y mod 2) -> length (odds l') = length (odds l) /\ length (evens l') = length (evens l)).
Proof.
  induction hs as [|h hs IH]; intros ps l l' L E; destruct ps as [|p ps]; cbn in L; try lia.
  - cbn in E. injection E as <-. unfold sumZ. cbn. split; [lia|auto].
  - cbn [substitute] in E. destruct (replace_first (g h) (f p) l) as [l0|] eqn:R; [|discriminate].
    apply replace_first_sum in R. destruct R as [R RL]. destruct (IH ps l0 l' ltac:(lia) E) as [S SL].
    unfold sumZ in *. cbn [map fold_right]. split; [lia|]. intro M. destruct (SL M), (RL (M p h)). lia.
Qed.

Lemma seq_parity : forall n, length (odds (map Z.of_nat (seq 1 n))) = Nat.div2 (S n) /\ length (evens (map Z.of_nat (seq 1 n))) = Nat.div2 n.
Proof.
  assert (K : forall n, odds (map Z.of_nat (seq 1 (S n))) = odds (map Z.of_nat (seq 1 n)) ++ (if Nat.even n then [Z.of_nat (S n)] else []) /\
                        evens (map Z.of_nat (seq 1 (S n))) = evens (map Z.of_nat (seq 1 n)) ++ (if Nat.even n then [] else [Z.of_nat (S n)])).
  { intro n. rewrite seq_S, map_app. unfold odds, evens. rewrite !filter_app. cbn [map filter]. change (1 + n)%nat with (S n).
    assert (Z.of_nat (S n) mod 2 = if Nat.even n then 1 else 0) as ->.
    { rewrite Zmod_odd. rewrite Nat2Z.inj_succ, Z.odd_succ.
      replace (Z.even (Z.of_nat n)) with (Nat.even n); [reflexivity|].
      clear. induction n as [|n IH]; [reflexivity|]. rewrite Nat2Z.inj_succ, Z.even_succ, <- Z.negb_even, <- IH, Nat.even_succ, Nat.negb_even. reflexivity. }
    destruct (Nat.even n); split; reflexivity. }
  induction n as [|n IH]; [split; reflexivity|]. destruct (K n) as [K1 K2], IH as [I1 I2]. rewrite K1, K2, !app_length, I1, I2.
  assert (Nat.div2 (S n) = Nat.div2 n + (if Nat.even n then 0 else 1))%nat as E.
  { clear. induction n as [n IH] using lt_wf_ind. destruct n as [|[|n]]; try reflexivity. cbn [Nat.div2 Nat.even].
    specialize (IH n ltac:(lia)). cbn in IH |- *. lia. }
  change (Nat.div2 (S (S n))) with (S (Nat.div2 n)). rewrite E. destruct (Nat.even n); cbn [length]; lia.
Qed.

Lemma get_determinant_counts : forall s e d, length (from_a e) = length (to_a e) -> length (from_b e) = length (to_b e) ->
  get_determinant s e = Some d -> h_noa s = Nat.div2 (S (h_nel s)) /\ h_nob s = Nat.div2 (h_nel s) /\
  sumZ (occupation d) = sumZ (map Z.of_nat (seq 1 (h_nel s)))
    - sumZ (map (fun i => 2 * (i + 1) - 1) (from_a e)) - sumZ (map (fun i => 2 * (i + 1)) (from_b e))
    + sumZ (map (fun a => 2 * (a + 1 + Z.of_nat (h_noa s)) - 1) (to_a e)) + sumZ (map (fun a => 2 * (a + 1 + Z.of_nat (h_nob s))) (to_b e)).
Proof.
  intros s e d La Lb E. unfold get_determinant in E.
  destruct (substitute _ _ (from_a e) (to_a e) _) as [o1|] eqn:E1; [|discriminate].
  destruct (substitute _ _ (from_b e) (to_b e) o1) as [o2|] eqn:E2; [|discriminate].
  apply substitute_sum in E1; [|assumption]. apply substitute_sum in E2; [|assumption].
  destruct E1 as [S1 L1], E2 as [S2 L2].
  destruct L1 as [L1 L1']. { intros x y. pose proof (alpha_mod (x + 1 + Z.of_nat (h_noa s))) as Q1. pose proof (alpha_mod (y + 1)) as Q2. unfold alpha in *. congruence. }
  destruct L2 as [L2 L2']. { intros x y. pose proof (beta_mod (x + 1 + Z.of_nat (h_nob s))) as Q1. pose proof (beta_mod (y + 1)) as Q2. unfold beta in *. congruence. }
  destruct (seq_parity (h_nel s)) as [P1 P2].
  unfold Determinant in E. destruct (negb (Nat.eqb _ (h_nel s))) in E; [discriminate|].
  destruct (Nat.eqb_spec (length (map spin_to_spatial (odds o2))) (h_noa s)) as [Ea|Ea]; cbn [negb] in E; [|discriminate].
  destruct (Nat.eqb_spec (length (map spin_to_spatial (evens o2))) (h_nob s)) as [Eb|Eb]; cbn [negb] in E; [|discriminate].
  destruct (forallb _ _) in E; [|discriminate]. apply Some_eq in E. subst d. cbn [occupation].
  rewrite map_length in Ea, Eb. split; [lia|]. split; [lia|].
  rewrite <- (sumZ_perm _ _ (isort_perm _)), sumZ_app, !map_map.
  assert (map (fun x => 2 * spin_to_spatial x - 1) (odds o2) = odds o2) as ->.
  { rewrite <- (map_id (odds o2)) at 2. apply map_ext_in. intros x Hx. apply odds_In in Hx. rewrite sp_eq. symmetry. now apply odd_form. }
  assert (map (fun x => 2 * spin_to_spatial x) (evens o2) = evens o2) as ->.
  { rewrite <- (map_id (evens o2)) at 2. apply map_ext_in. intros x Hx. apply evens_In in Hx. rewrite sp_eq. symmetry. now apply even_form. }
  rewrite <- sumZ_parity. lia.
Qed.

(** The Hartree-Fock determinant: the lowest orbitals of either spin. *)
Definition HF_det (s : hsys) (d : det) : Prop :=
  Determinant s (map Z.of_nat (seq 1 (h_noa s))) (map Z.of_nat (seq 1 (h_nob s))) = Some d.

Lemma seqZ_NoDup : forall n, NoDup (map Z.of_nat (seq 1 n)).
Proof. intro n. apply FinFun.Injective_map_NoDup; [|apply seq_NoDup]. intros a b H. lia. Qed.
Lemma seqZ_In : forall n x, In x (map Z.of_nat (seq 1 n)) <-> 1 <= x <= Z.of_nat n.
Proof.
  intros n x. rewrite in_map_iff. split.
  - intros [i [<- Hi]]. apply in_seq in Hi. lia.
  - intro H. exists (Z.to_nat x). split; [lia|]. apply in_seq. lia.
Qed.
Lemma HF_built : forall s d, (h_noa s <= h_norb s)%nat -> (h_nob s <= h_norb s)%nat -> HF_det s d -> built s d.
Proof.
  intros s d La Lb E. exists (map Z.of_nat (seq 1 (h_noa s))), (map Z.of_nat (seq 1 (h_nob s))).
  split; [exact E|]. split; [apply seqZ_NoDup|]. split; [apply seqZ_NoDup|].
  split; intros p Hp; apply seqZ_In in Hp; lia.
Qed.

Lemma sum_diff : forall d o, sumZ (occupation d) = sumZ (diff d o) + sumZ (filter (fun p => mem p (occupation o)) (occupation d)).
Proof.
  intros d o. unfold diff. induction (occupation d) as [|x l IH]; [reflexivity|]. cbn [filter].
  unfold sumZ in *. destruct (mem x (occupation o)); cbn [negb fold_right]; lia.
Qed.
Lemma sum_common : forall s d o, good s d -> good s o ->
  sumZ (filter (fun p => mem p (occupation o)) (occupation d)) = sumZ (filter (fun p => mem p (occupation d)) (occupation o)).
Proof.
  intros s d o G1 G2. apply sumZ_perm, NoDup_Permutation.
  - apply NoDup_filter, SS_NoDup, (g_sorted s d G1).
  - apply NoDup_filter, SS_NoDup, (g_sorted s o G2).
  - intro x. rewrite !filter_In, !mem_In. tauto.
Qed.

(** Converting a determinant to its excitation from the Hartree-Fock determinant and back never returns the determinant,
    unless it is the Hartree-Fock determinant itself: the particle indices are absolute in the excitation and are shifted
    by the number of occupied orbitals on the way back. *)
Theorem C50_roundtrip_refuted : forall s hf d e, (h_noa s <= h_norb s)%nat -> (h_nob s <= h_norb s)%nat ->
  HF_det s hf -> built s d -> get_excitation s d hf = Some e -> get_determinant s e = Some d -> occupation d = occupation hf.
Proof.
  intros s hf d e La Lb HF B E R. pose proof (HF_built s hf La Lb HF) as BH. apply built_good in B. apply built_good in BH.
  rewrite (get_excitation_eq s d hf B BH) in E. injection E as <-.
  destruct (abs_len s d hf B BH) as [LA LB].
  apply get_determinant_counts in R; cbn [to_a to_b from_a from_b] in *; [|symmetry; assumption|symmetry; assumption].
  destruct R as (Na & Nb & SS).
  (* the reference list is the Hartree-Fock occupation *)
  assert (RO : sumZ (map Z.of_nat (seq 1 (h_nel s))) = sumZ (occupation hf)).
  { apply sumZ_perm, NoDup_Permutation.
    - apply seqZ_NoDup.
    - apply SS_NoDup, (g_sorted s hf BH).
    - intro x. rewrite seqZ_In. unfold HF_det, Determinant in HF. rewrite !map_length, !seq_length in HF.
      change (h_noa s + h_nob s)%nat with (h_nel s) in HF. rewrite !Nat.eqb_refl in HF. cbn [negb] in HF.
      destruct (forallb _ _) in HF; [|discriminate]. apply Some_eq in HF. rewrite HF. cbn [occupation]. rewrite isort_In, in_app_iff, !in_map_iff.
      assert (NE : h_nel s = (h_noa s + h_nob s)%nat) by reflexivity.
      assert (DD : (h_nob s <= h_noa s <= S (h_nob s))%nat).
      { rewrite Na, Nb. generalize (h_nel s). clear. intro n. induction n as [n IH] using lt_wf_ind. destruct n as [|[|n]]; cbn; try lia.
        specialize (IH n ltac:(lia)). cbn in IH. lia. }
      split.
      + intro HX. destruct (mod2 x) as [M | M].
        * right. exists (spatial_orb_idx x). pose proof (even_form x M) as F. unfold beta in F. split; [lia|]. apply seqZ_In. lia.
        * left. exists (spatial_orb_idx x). pose proof (odd_form x M) as F. unfold alpha in F. split; [lia|]. apply seqZ_In. lia.
      + intros [[i [Ei Hi]] | [i [Ei Hi]]]; apply seqZ_In in Hi; lia. }
  rewrite RO, (sum_diff d hf), (sum_diff hf d), (sum_common s d hf B BH) in SS.
  rewrite (sumZ_parity (diff d hf)), (sumZ_parity (diff hf d)) in SS.
  assert (MA : forall l k, sumZ (map (fun a => 2 * (a + 1 + k) - 1) (abs_a l)) = sumZ (odds l) + 2 * k * Z.of_nat (length (abs_a l))).
  { intros l k. unfold abs_a. rewrite map_map, map_length, (map_ext_in _ (fun x => 1 * x + 2 * k)), sumZ_map; [lia|].
    intros x Hx. apply odds_In in Hx. destruct Hx as [_ M]. pose proof (odd_form x M) as F. unfold alpha in F. lia. }
  assert (MB : forall l k, sumZ (map (fun a => 2 * (a + 1 + k)) (abs_b l)) = sumZ (evens l) + 2 * k * Z.of_nat (length (abs_b l))).
  { intros l k. unfold abs_b. rewrite map_map, map_length, (map_ext_in _ (fun x => 1 * x + 2 * k)), sumZ_map; [lia|].
    intros x Hx. apply evens_In in Hx. destruct Hx as [_ M]. pose proof (even_form x M) as F. unfold beta in F. lia. }
  rewrite MA, MB in SS.
  rewrite (map_ext (fun i => 2 * (i + 1) - 1) (fun a => 2 * (a + 1 + 0) - 1)), (map_ext (fun i => 2 * (i + 1)) (fun a => 2 * (a + 1 + 0))), MA, MB in SS by (intro; lia).
  assert (SUM : 2 * Z.of_nat (h_noa s) * Z.of_nat (length (abs_a (diff d hf))) + 2 * Z.of_nat (h_nob s) * Z.of_nat (length (abs_b (diff d hf))) = 0) by lia.
  assert (BA : (length (abs_a (diff d hf)) <= h_noa s)%nat).
  { rewrite <- (g_la s d B). apply NoDup_incl_length; [apply SS_NoDup, (abs_sorted s d hf B)|]. intros x Hx. apply (abs_a_In s d hf) in Hx; tauto. }
  assert (BB : (length (abs_b (diff d hf)) <= h_nob s)%nat).
  { rewrite <- (g_lb s d B). apply NoDup_incl_length; [apply SS_NoDup, (abs_sorted s d hf B)|]. intros x Hx. apply (abs_b_In s d hf) in Hx; tauto. }
  assert (length (abs_a (diff d hf)) = 0)%nat as ZA by nia. assert (length (abs_b (diff d hf)) = 0)%nat as ZB by nia.
  unfold abs_a, abs_b in ZA, ZB. rewrite map_length in ZA, ZB. pose proof (split_parity (diff d hf)) as SP.
  assert (EMPTY : diff d hf = []) by (apply length_zero_iff_nil; rewrite SP, ZA, ZB; reflexivity).
  apply same_occ; [apply (g_sorted s d B)|apply (g_sorted s hf BH)| |].
  - rewrite (split_parity (occupation d)), (split_parity (occupation hf)), (g_len_a s d B), (g_len_b s d B), (g_len_a s hf BH), (g_len_b s hf BH). reflexivity.
  - intros x Hx. destruct (in_dec Z.eq_dec x (occupation hf)) as [H|H]; [assumption|].
    assert (In x (diff d hf)) as HH by (apply diff_In; tauto). rewrite EMPTY in HH. contradiction.
Qed.

(** And with other numbers of alpha and beta electrons than n, n or n + 1, n the conversion of any excitation raises. *)
Theorem C50_open_shell_raises_refuted : forall s e, length (from_a e) = length (to_a e) -> length (from_b e) = length (to_b e) ->
  h_noa s <> h_nob s -> h_noa s <> S (h_nob s) -> get_determinant s e = None.
Proof.
  intros s e La Lb N1 N2. destruct (get_determinant s e) as [d|] eqn:E; [|reflexivity].
  apply get_determinant_counts in E; auto. destruct E as (Na & Nb & _).
  assert (DD : (h_nob s <= h_noa s <= S (h_nob s))%nat).
  { rewrite Na, Nb. generalize (h_nel s). clear. intro n. induction n as [n IH] using lt_wf_ind. destruct n as [|[|n]]; cbn; try lia.
    specialize (IH n ltac:(lia)). cbn in IH. lia. }
  lia.
Qed.

(** ** Instances *)
Definition ex_s : hsys := mkHsys 2 2 5.
Definition ex_d1 : det := mkDet [2; 3; 4; 7] [1; 3] [0; 1].
Definition ex_d2 : det := mkDet [1; 2; 3; 4] [0; 1] [0; 1].
Example C50_instance :
  Determinant ex_s [2; 4] [1; 2] = Some ex_d1 /\ HF_det ex_s ex_d2 /\ built ex_s ex_d1 /\ built ex_s ex_d2 /\
  get_excitation ex_s ex_d1 ex_d2 = Some (mkExc [3] [] [0] [] 5) /\
  get_determinant ex_s (mkExc [3] [] [0] [] 5) = None /\
  get_determinant ex_s (mkExc [1] [] [0] [] 5) = Some ex_d1 /\
  only [3] (occ_a ex_d1) (occ_a ex_d2).
Proof.
  split; [reflexivity|]. split; [reflexivity|].
  split; [exists [2; 4], [1; 2]|split; [exists [1; 2], [1; 2]|]].
  1, 2: repeat split; try reflexivity; repeat constructor; cbn; try lia; cbn in *; intuition (subst; lia).
  split; [reflexivity|]. split; [reflexivity|]. split; [reflexivity|]. intro q. cbn. split; [intros [<- | []]; lia|].
  intros [[<- | [<- | []]] N]; [elim N; auto|auto].
Qed.

Definition ex_H : hint := mkHint (fun p q => IZR (p + q)) (fun p q => IZR (p + q)) (fun p q r t => IZR ((p - q) * (r - t)))
  (fun p q r t => IZR (p * r + q * t)) (fun p q r t => IZR ((p - q) * (r - t))).
Example C50_instance_value : real_symmetric ex_H /\ antisymmetric ex_H /\ slater_eval ex_s ex_H ex_d1 ex_d2 = Some (-2)%R /\
  slater_eval ex_s ex_H ex_d2 ex_d1 = Some (-2)%R.
Proof.
  split; [|split; [|split]].
  - intros p q r t. cbn. repeat split; f_equal; ring.
  - intros p q r t. cbn. repeat split; rewrite <- opp_IZR; f_equal; ring.
  - cbv -[IZR Rplus Rmult Rminus Ropp Rdiv Rinv]. f_equal. lra.
  - cbv -[IZR Rplus Rmult Rminus Ropp Rdiv Rinv]. f_equal. lra.
Qed.

(** Which lists of 1-based orbitals the constructors accept: the right numbers, and every orbital from 1 - norb to norb (indices of the symmetry table
    wrap round below zero, so labels 0, -1, ... are taken although there are no such orbitals) *)
Lemma in_table_iff n i : in_table n (i - 1) = true <-> - Z.of_nat n < i <= Z.of_nat n.
Proof. unfold in_table. rewrite andb_true_iff, Z.leb_le, Z.ltb_lt. lia. Qed.
Lemma spatial_odd i : spin_to_spatial (2 * i - 1) = i.
Proof. unfold spin_to_spatial. assert (M : (2 * i - 1) mod 2 = 1) by (symmetry; apply Z.mod_unique with (q := i - 1); lia). rewrite M, Z.eqb_refl. assert ((2 * i - 1) / 2 = i - 1) by (symmetry; apply Z.div_unique with (r := 1); lia). lia. Qed.
Lemma spatial_even i : spin_to_spatial (2 * i) = i.
Proof. unfold spin_to_spatial. assert (M : (2 * i) mod 2 = 0) by (symmetry; apply Z.mod_unique with (q := i); lia). rewrite M. change (0 =? 1) with false. cbv iota. symmetry. apply Z.div_unique with (r := 0); lia. Qed.
Theorem C50_accepts : forall s oa ob,
  (exists d, Determinant s oa ob = Some d) <->
  (length oa = h_noa s /\ length ob = h_nob s /\ forall i, In i oa \/ In i ob -> - Z.of_nat (h_norb s) < i <= Z.of_nat (h_norb s)).
Proof.
  intros s oa ob. unfold Determinant, h_nel.
  destruct (Nat.eqb_spec (length oa + length ob) (h_noa s + h_nob s)) as [E1|E1]; cbn [negb]; [|split; [intros (? & ?); discriminate|intros (? & ? & _); lia]].
  destruct (Nat.eqb_spec (length oa) (h_noa s)) as [E2|E2]; cbn [negb]; [|split; [intros (? & ?); discriminate|intros (? & ? & _); lia]].
  destruct (Nat.eqb_spec (length ob) (h_nob s)) as [E3|E3]; cbn [negb]; [|split; [intros (? & ?); discriminate|intros (? & ? & _); lia]].
  match goal with |- context [if ?b then _ else _] => destruct b eqn:F end.
  - split; [intros _|intros _; eexists; reflexivity]. split; [exact E2|]. split; [exact E3|]. rewrite forallb_forall in F. intros i [Hi|Hi].
    + apply in_table_iff. rewrite <- (spatial_odd i). apply F. apply isort_In, in_app_iff. left. apply (in_map (fun i => 2 * i - 1)). exact Hi.
    + apply in_table_iff. rewrite <- (spatial_even i). apply F. apply isort_In, in_app_iff. right. apply (in_map (fun i => 2 * i)). exact Hi.
  - split; [intros (? & ?); discriminate|]. intros (_ & _ & A). exfalso. apply Bool.not_true_iff_false in F. apply F. apply forallb_forall. intros p Hp. apply isort_In, in_app_iff in Hp as [Hp|Hp]; apply in_map_iff in Hp as (i & <- & Hi).
    + rewrite spatial_odd. apply in_table_iff. auto.
    + rewrite spatial_even. apply in_table_iff. auto.
Qed.
Theorem C50_excitation_accepts : forall s pa ha pb hb np,
  (exists e, Excitation s pa ha pb hb np = Some e) <->
  (length pa = length ha /\ length pb = length hb /\
   forall i, In i pa \/ In i pb \/ In i ha \/ In i hb -> - Z.of_nat (h_norb s) < i <= Z.of_nat (h_norb s)).
Proof.
  intros s pa ha pb hb np. unfold Excitation.
  destruct (Nat.eqb_spec (length pa) (length ha)) as [E2|E2]; cbn [negb]; [|split; [intros (? & ?); discriminate|intros (? & ? & _); lia]].
  destruct (Nat.eqb_spec (length pb) (length hb)) as [E3|E3]; cbn [negb]; [|split; [intros (? & ?); discriminate|intros (? & ? & _); lia]].
  cbn [to_a to_b from_a from_b].
  match goal with |- context [if ?b then _ else _] => destruct b eqn:F end.
  - split; [intros _|intros _; eexists; reflexivity]. split; [exact E2|]. split; [exact E3|]. rewrite forallb_forall in F. intros i Hi.
    apply in_table_iff. apply F. rewrite !in_app_iff. destruct Hi as [Hi|[Hi|[Hi|Hi]]]; [left|right; left|right; right; left|right; right; right]; apply (in_map (fun a => a - 1)); exact Hi.
  - split; [intros (? & ?); discriminate|]. intros (_ & _ & A). exfalso. apply Bool.not_true_iff_false in F. apply F. apply forallb_forall. intros p Hp. rewrite !in_app_iff in Hp.
    destruct Hp as [Hp|[Hp|[Hp|Hp]]]; apply in_map_iff in Hp as (i & <- & Hi); apply in_table_iff; apply A; tauto.
Qed.
Theorem C50_nonexistent_orbital_refuted : forall s, h_noa s = 1%nat -> h_nob s = 0%nat -> (0 < h_norb s)%nat -> exists d, Determinant s [0] [] = Some d.
Proof. intros s A B N. apply C50_accepts. rewrite A, B. split; [reflexivity|]. split; [reflexivity|]. intros x [[<-|[]]|[]]; lia. Qed.

Print Assumptions C50_excitation.
Print Assumptions C50_hermitian.
Print Assumptions C50_slater_condon.
Print Assumptions C50_one_electron_raises_refuted.
Print Assumptions C50_roundtrip_refuted.
Print Assumptions C50_open_shell_raises_refuted.
Print Assumptions C50_accepts.
Print Assumptions C50_excitation_accepts.
Print Assumptions C50_nonexistent_orbital_refuted.
