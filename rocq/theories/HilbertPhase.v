(** The phase of an excitation, the symmetry of the matrix elements, and the way back to a determinant. *)
From Coq Require Import List ZArith Lia Bool Reals Lra Sorting.Sorted Permutation.
From Verif Require Import CipsiModel CipsiSpec CipsiProofs HilbertModel HilbertSpec HilbertProofs.
Import ListNotations.
Local Open Scope Z_scope.

(** ** Phase *)
Lemma index_count : forall l x i, StronglySorted Z.lt l -> index x l = Some i -> length (filter (fun y => y <? x) l) = i.
Proof.
  induction l as [|y l IH]; intros x i S E; [discriminate|]. inversion S as [|? ? S' F]; subst. rewrite Forall_forall in F.
  cbn in E |- *. destruct (Z.eqb_spec x y) as [->|N].
  - injection E as <-. rewrite Z.ltb_irrefl, filter_none; [reflexivity|]. intros z Hz. apply F in Hz. lia.
  - destruct (index x l) as [j|] eqn:Ej; [|discriminate]. cbn in E. injection E as <-.
    assert (y < x).
    { apply F. clear - Ej. revert j Ej. induction l as [|z l IH]; intros j E; [discriminate|]. cbn in E.
      destruct (Z.eqb_spec x z); [left; congruence|]. destruct (index x l); [|discriminate]. right. eauto. }
    destruct (Z.ltb_spec y x); [|lia]. cbn. f_equal. now apply IH.
Qed.

Definition drop (x : Z) (l : list Z) : list Z := filter (fun y => negb (y =? x)) l.
Lemma drop_sorted : forall x l, StronglySorted Z.lt l -> StronglySorted Z.lt (drop x l).
Proof.
  induction 1 as [|y l S IH F]; cbn; [constructor|]. destruct (negb (y =? x)); [|assumption].
  constructor; [assumption|]. rewrite Forall_forall in *. intros z Hz. apply F. unfold drop in Hz. now apply filter_In in Hz.
Qed.
Lemma drop_length : forall x l, StronglySorted Z.lt l -> In x l -> S (length (drop x l)) = length l.
Proof.
  induction l as [|y l IH]; intros S H; [contradiction|]. inversion S as [|? ? S' F]; subst. rewrite Forall_forall in F.
  cbn. destruct (Z.eqb_spec y x) as [->|N]; cbn.
  - unfold drop. rewrite filter_all; [reflexivity|]. intros z Hz. apply F in Hz. apply negb_true_iff, Z.eqb_neq. lia.
  - f_equal. apply IH; [assumption|]. destruct H; [congruence|assumption].
Qed.
Lemma drop_count : forall x z l, StronglySorted Z.lt l -> In x l -> x < z ->
  S (length (filter (fun y => y <? z) (drop x l))) = length (filter (fun y => y <? z) l).
Proof.
  induction l as [|y l IH]; intros S H L; [contradiction|]. inversion S as [|? ? S' F]; subst. rewrite Forall_forall in F.
  cbn. destruct (Z.eqb_spec y x) as [->|N]; cbn.
  - destruct (Z.ltb_spec x z); [|lia]. cbn. unfold drop. rewrite (filter_all _ l); [reflexivity|].
    intros w Hw. apply F in Hw. apply negb_true_iff, Z.eqb_neq. lia.
  - destruct H as [H | H]; [congruence|]. destruct (y <? z); cbn; [f_equal|]; auto.
Qed.

(** Sign exponent of annihilating a list of orbitals. *)
Fixpoint expo (ps l : list Z) : nat :=
  match ps with [] => 0%nat | q :: r => Nat.add (length (filter (fun y => y <? q) l)) (expo r (drop q l)) end.

Lemma annihilate_all_expo : forall ps l, StronglySorted Z.lt ps -> (forall q, In q ps -> In q l) ->
  annihilate_all ps l = Some (((-1) ^ expo ps l)%R, filter (fun y => negb (mem y ps)) l).
Proof.
  induction ps as [|q ps IH]; intros l S H.
  - cbn. rewrite filter_all; auto.
  - inversion S as [|? ? S' F]; subst. rewrite Forall_forall in F. cbn [annihilate_all]. unfold annihilate.
    destruct (in_dec Z.eq_dec q l) as [Hq|Hq]; [|elim Hq; apply H; now left].
    fold (drop q l). rewrite IH; [|assumption|].
    + cbn [expo]. rewrite pow_add. do 2 f_equal. unfold drop.
      rewrite filter_comm. clear. induction l as [|y l IH]; cbn; [reflexivity|].
      unfold mem. cbn [existsb]. destruct (Z.eqb_spec y q) as [->|N]; cbn.
      * rewrite ?Z.eqb_refl. cbn. destruct (negb (existsb _ ps)); cbn; [rewrite Z.eqb_refl; cbn|]; exact IH.
      * destruct (negb (existsb (Z.eqb y) ps)) eqn:E; cbn.
        -- destruct (Z.eqb_spec y q); [congruence|]. cbn. f_equal. exact IH.
        -- exact IH.
    + intros z Hz. unfold drop. apply filter_In. split; [apply H; now right|].
      apply negb_true_iff, Z.eqb_neq. apply F in Hz. lia.
Qed.

Lemma kpart_drop : forall ps q l n, StronglySorted Z.lt l -> In q l -> (forall x, In x ps -> q < x /\ In x l) ->
  kpart l ps n = kpart (drop q l) ps n.
Proof.
  induction ps as [|x ps IH]; intros q l n S Hq H; [reflexivity|]. cbn [kpart].
  rewrite (IH q l (n + 1)) by (auto; intros; apply H; now right). f_equal.
  destruct (H x (or_introl eq_refl)) as [L Hx].
  destruct (index_In x l Hx) as [i Ei]. rewrite Ei.
  assert (Hx' : In x (drop q l)) by (unfold drop; apply filter_In; split; [assumption|apply negb_true_iff, Z.eqb_neq; lia]).
  destruct (index_In x (drop q l) Hx') as [j Ej]. rewrite Ej.
  apply index_count in Ei; [|assumption]. apply index_count in Ej; [|now apply drop_sorted].
  pose proof (drop_count q x l S Hq L). pose proof (drop_length q l S Hq). lia.
Qed.

Lemma kpart_expo : forall ps l n, StronglySorted Z.lt l -> StronglySorted Z.lt ps -> (forall q, In q ps -> In q l) ->
  exists m, kpart l ps n + Z.of_nat (length ps) * (Z.of_nat (length l) + 1 + n) = Z.of_nat (expo ps l) + 2 * m.
Proof.
  induction ps as [|q ps IH]; intros l n S Sp H; [exists 0; reflexivity|].
  inversion Sp as [|? ? Sp' F]; subst. rewrite Forall_forall in F. cbn [kpart expo length].
  assert (Hq : In q l) by (apply H; now left).
  destruct (index_In q l Hq) as [i Ei]. rewrite Ei. pose proof (index_count l q i S Ei) as Ci. rewrite Ci.
  rewrite (kpart_drop ps q l (n + 1) S Hq (fun x Hx => conj (F x Hx) (H x (or_intror Hx)))).
  destruct (IH (drop q l) (n + 1) (drop_sorted q l S) Sp') as [m Hm].
  { intros x Hx. unfold drop. apply filter_In. split; [apply H; now right|]. apply negb_true_iff, Z.eqb_neq. apply F in Hx. lia. }
  pose proof (drop_length q l S Hq) as HL.
  exists (m + Z.of_nat (length l) + 1 + n - Z.of_nat i).
  rewrite <- HL in *. replace (kpart (drop q l) ps (n + 1)) with (Z.of_nat (expo ps (drop q l)) + 2 * m - Z.of_nat (length ps) * (Z.of_nat (length (drop q l)) + 1 + (n + 1))) by lia.
  rewrite !Nat2Z.inj_succ, Nat2Z.inj_add. ring.
Qed.

Lemma sign_even : forall n : nat, ((-1) ^ n)%R = if Z.even (Z.of_nat n) then 1%R else (-1)%R.
Proof.
  induction n as [|n IH]; [reflexivity|]. rewrite Nat2Z.inj_succ, Z.even_succ, <- Z.negb_even. cbn [pow].
  rewrite IH. destruct (Z.even (Z.of_nat n)); cbn; lra.
Qed.

Lemma abs_sorted : forall s d o, good s d -> StronglySorted Z.lt (abs_a (diff d o)) /\ StronglySorted Z.lt (abs_b (diff d o)).
Proof.
  intros s d o G. assert (SD : forall f : Z -> bool, StronglySorted Z.lt (filter f (diff d o))).
  { assert (SF : forall f (l : list Z), StronglySorted Z.lt l -> StronglySorted Z.lt (filter f l)).
    { intros f l Hl. induction Hl as [|y l Hl IH F]; cbn; [constructor|]. destruct (f y); [|assumption].
      constructor; [assumption|]. rewrite Forall_forall in *. intros z Hz. apply filter_In in Hz. now apply F. }
    intro f. apply SF. apply SF. apply (g_sorted s d G). }
  split.
  - apply sorted_odd; [apply SD|]. intros x Hx. apply odds_In in Hx. tauto.
  - apply sorted_even; [apply SD|]. intros x Hx. apply evens_In in Hx. tauto.
Qed.

Lemma rest_eq : forall l1 l2 P1 P2, StronglySorted Z.lt l1 -> StronglySorted Z.lt l2 ->
  (forall q, In q P1 <-> In q l1 /\ ~ In q l2) -> (forall q, In q P2 <-> In q l2 /\ ~ In q l1) ->
  filter (fun y => negb (mem y P1)) l1 = filter (fun y => negb (mem y P2)) l2.
Proof.
  intros l1 l2 P1 P2 S1 S2 H1 H2.
  assert (SF : forall f (l : list Z), StronglySorted Z.lt l -> StronglySorted Z.lt (filter f l)).
  { intros f l Hl. induction Hl as [|y l Hl IH F]; cbn; [constructor|]. destruct (f y); [|assumption].
    constructor; [assumption|]. rewrite Forall_forall in *. intros z Hz. apply filter_In in Hz. now apply F. }
  apply sorted_eq; try now apply SF. intro x. rewrite !filter_In, !negb_true_iff, !mem_not, H1, H2.
  destruct (in_dec Z.eq_dec x l1), (in_dec Z.eq_dec x l2); tauto.
Qed.

Lemma element_expo : forall l1 l2 P1 P2, StronglySorted Z.lt l1 -> StronglySorted Z.lt l2 ->
  StronglySorted Z.lt P1 -> StronglySorted Z.lt P2 ->
  (forall q, In q P1 <-> In q l1 /\ ~ In q l2) -> (forall q, In q P2 <-> In q l2 /\ ~ In q l1) ->
  element P1 P2 l1 l2 = ((-1) ^ (expo P1 l1 + expo P2 l2))%R.
Proof.
  intros l1 l2 P1 P2 S1 S2 T1 T2 H1 H2. unfold element.
  rewrite !annihilate_all_expo; auto; try (intros q Hq; apply H1 in Hq; tauto); try (intros q Hq; apply H2 in Hq; tauto).
  rewrite (rest_eq l1 l2 P1 P2 S1 S2 H1 H2). destruct (list_eq_dec _ _ _) as [E|E]; [|congruence]. now rewrite pow_add.
Qed.

Lemma phase_element : forall s d1 d2 e, good s d1 -> good s d2 -> get_excitation s d1 d2 = Some e ->
  phase e = (element (to_a e) (from_a e) (occ_a d1) (occ_a d2) * element (to_b e) (from_b e) (occ_b d1) (occ_b d2))%R.
Proof.
  intros s d1 d2 e G1 G2 E. rewrite (get_excitation_eq s d1 d2 G1 G2) in E. injection E as <-.
  cbn [to_a to_b from_a from_b]. destruct (abs_sorted s d1 d2 G1) as [A1 B1]. destruct (abs_sorted s d2 d1 G2) as [A2 B2].
  rewrite (element_expo (occ_a d1) (occ_a d2)), (element_expo (occ_b d1) (occ_b d2));
    try apply (g_sa s); try apply (g_sb s); auto;
    try (intro q; now rewrite (abs_a_In s) by assumption); try (intro q; now rewrite (abs_b_In s) by assumption).
  rewrite <- pow_add, sign_even. unfold phase. cbn [nperm]. unfold K.
  destruct (kpart_expo (abs_a (diff d1 d2)) (occ_a d1) 0) as [m1 M1]; [apply (g_sa s d1 G1)|assumption|intros q Hq; apply (abs_a_In s d1 d2) in Hq; tauto|].
  destruct (kpart_expo (abs_b (diff d1 d2)) (occ_b d1) 0) as [m2 M2]; [apply (g_sb s d1 G1)|assumption|intros q Hq; apply (abs_b_In s d1 d2) in Hq; tauto|].
  destruct (kpart_expo (abs_a (diff d2 d1)) (occ_a d2) 0) as [m3 M3]; [apply (g_sa s d2 G2)|assumption|intros q Hq; apply (abs_a_In s d2 d1) in Hq; tauto|].
  destruct (kpart_expo (abs_b (diff d2 d1)) (occ_b d2) 0) as [m4 M4]; [apply (g_sb s d2 G2)|assumption|intros q Hq; apply (abs_b_In s d2 d1) in Hq; tauto|].
  destruct (abs_len s d1 d2 G1 G2) as [La Lb]. rewrite La in M1. rewrite Lb in M2.
  rewrite (g_la s d1 G1) in M1. rewrite (g_la s d2 G2) in M3. rewrite (g_lb s d1 G1) in M2. rewrite (g_lb s d2 G2) in M4.
  match goal with |- (if Z.even ?a then _ else _) = (if Z.even ?b then _ else _) =>
    assert (Z.even a = Z.even b) as ->; [|reflexivity];
    replace a with (b + 2 * (m1 + m2 + m3 + m4 - Z.of_nat (length (abs_a (diff d2 d1))) * (Z.of_nat (h_noa s) + 1 + 0)
                             - Z.of_nat (length (abs_b (diff d2 d1))) * (Z.of_nat (h_nob s) + 1 + 0))) by lia
  end.
  apply Z.even_add_mul_2.
Qed.
