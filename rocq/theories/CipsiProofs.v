(** Proofs about the determinant-file readers. *)
From Coq Require Import List ZArith NArith Lia Bool Sorting.Sorted Permutation.
From Verif Require Import CipsiModel CipsiSpec.
Import ListNotations.
Local Open Scope Z_scope.

Lemma mem_In : forall x l, mem x l = true <-> In x l.
Proof.
  intros x l. unfold mem. rewrite existsb_exists. split.
  - intros [y [H1 H2]]. apply Z.eqb_eq in H2. now subst.
  - intro H. exists x. split; [assumption|apply Z.eqb_refl].
Qed.
Lemma mem_not : forall x l, mem x l = false <-> ~ In x l.
Proof. intros x l. rewrite <- mem_In. destruct (mem x l); split; congruence. Qed.

Lemma dedup_In : forall x l, In x (dedup l) <-> In x l.
Proof.
  induction l as [|y l IH]; cbn; [tauto|]. destruct (mem y l) eqn:E; cbn; rewrite IH.
  - apply mem_In in E. split; [tauto|]. intros [-> | H]; assumption.
  - tauto.
Qed.
Lemma dedup_NoDup : forall l, NoDup (dedup l).
Proof.
  induction l as [|y l IH]; cbn; [constructor|]. destruct (mem y l) eqn:E; [assumption|].
  constructor; [|assumption]. rewrite dedup_In. now apply mem_not.
Qed.
Lemma dedup_id : forall l, NoDup l -> dedup l = l.
Proof.
  induction 1 as [|y l H1 H2 IH]; cbn; [reflexivity|].
  apply mem_not in H1. now rewrite H1, IH.
Qed.

Lemma setdiff_In : forall x A B, In x (setdiff A B) <-> In x A /\ ~ In x B.
Proof.
  intros. unfold setdiff. rewrite filter_In, dedup_In, negb_true_iff, mem_not. reflexivity.
Qed.
Lemma setdiff_NoDup : forall A B, NoDup (setdiff A B).
Proof. intros. unfold setdiff. apply NoDup_filter, dedup_NoDup. Qed.

(** Two sets with as many elements differ by as many elements. *)
Lemma filter_split : forall {A} (f : A -> bool) l,
  (length (filter f l) + length (filter (fun x => negb (f x)) l))%nat = length l.
Proof.
  induction l as [|x l IH]; cbn; [reflexivity|]. destruct (f x); cbn; lia.
Qed.
Lemma inter_length : forall A B : list Z, NoDup A -> NoDup B ->
  length (filter (fun x => mem x B) A) = length (filter (fun x => mem x A) B).
Proof.
  intros A B HA HB. apply Permutation_length, NoDup_Permutation; try (now apply NoDup_filter).
  intro x. rewrite !filter_In, !mem_In. tauto.
Qed.
Lemma diff_length : forall A B : list Z, NoDup A -> NoDup B -> length A = length B ->
  length (filter (fun x => negb (mem x B)) A) = length (filter (fun x => negb (mem x A)) B).
Proof.
  intros A B HA HB HL. pose proof (filter_split (fun x => mem x B) A).
  pose proof (filter_split (fun x => mem x A) B). pose proof (inter_length A B HA HB). lia.
Qed.
Lemma filter_comm : forall {A} (f g : A -> bool) l, filter f (filter g l) = filter g (filter f l).
Proof.
  induction l as [|x l IH]; cbn; [reflexivity|].
  destruct (g x) eqn:E1, (f x) eqn:E2; cbn; rewrite ?E1, ?E2, IH; reflexivity.
Qed.

(** Insertion sort. *)
Lemma insert_perm : forall x l, Permutation (x :: l) (insert x l).
Proof.
  induction l as [|y l IH]; cbn; [reflexivity|]. destruct (x <=? y); [reflexivity|].
  rewrite perm_swap. now constructor.
Qed.
Lemma isort_perm : forall l, Permutation l (isort l).
Proof.
  induction l as [|x l IH]; cbn; [reflexivity|]. rewrite <- insert_perm. now constructor.
Qed.
Lemma isort_In : forall x l, In x (isort l) <-> In x l.
Proof.
  intros. split; apply Permutation_in; [symmetry|]; apply isort_perm.
Qed.
Lemma isort_length : forall l, length (isort l) = length l.
Proof. intro. symmetry. apply Permutation_length, isort_perm. Qed.
Lemma isort_NoDup : forall l, NoDup l -> NoDup (isort l).
Proof. intros l H. eapply Permutation_NoDup; [apply isort_perm|assumption]. Qed.
Lemma insert_sorted : forall x l, StronglySorted Z.le l -> StronglySorted Z.le (insert x l).
Proof.
  induction l as [|y l IH]; intro H; cbn; [repeat constructor|].
  inversion H as [|? ? H1 H2]; subst. destruct (x <=? y) eqn:E.
  - apply Z.leb_le in E. constructor; [assumption|]. constructor; [assumption|].
    rewrite Forall_forall in *. intros z Hz. specialize (H2 z Hz). lia.
  - apply Z.leb_gt in E. constructor; [now apply IH|].
    rewrite Forall_forall in *. intros z Hz.
    apply (Permutation_in _ (Permutation_sym (insert_perm x l))) in Hz.
    destruct Hz as [<- | Hz]; [lia|now apply H2].
Qed.
Lemma isort_sorted : forall l, StronglySorted Z.le (isort l).
Proof. induction l; cbn; [constructor|now apply insert_sorted]. Qed.
Lemma le_nodup_lt : forall l, StronglySorted Z.le l -> NoDup l -> StronglySorted Z.lt l.
Proof.
  induction l as [|x l IH]; intros H N; [constructor|].
  inversion H as [|? ? H1 H2]; inversion N as [|? ? N1 N2]; subst.
  constructor; [now apply IH|]. rewrite Forall_forall in *. intros z Hz.
  specialize (H2 z Hz). assert (z <> x) by congruence. lia.
Qed.
Lemma isort_lt : forall l, NoDup l -> StronglySorted Z.lt (isort l).
Proof. intros l H. apply le_nodup_lt; [apply isort_sorted|now apply isort_NoDup]. Qed.
Lemma sorted_map : forall (f : Z -> Z) l, StronglySorted Z.lt l ->
  (forall x y, In x l -> In y l -> x < y -> f x < f y) -> StronglySorted Z.lt (map f l).
Proof.
  induction l as [|x l IH]; intros H F; cbn; [constructor|].
  inversion H as [|? ? H1 H2]; subst. constructor.
  - apply IH; [assumption|]. intros; apply F; cbn; tauto.
  - rewrite Forall_forall in *. intros z Hz. apply in_map_iff in Hz. destruct Hz as [y [<- Hy]].
    apply F; cbn; auto.
Qed.
Lemma sorted_eq : forall l1 l2, StronglySorted Z.lt l1 -> StronglySorted Z.lt l2 ->
  (forall x, In x l1 <-> In x l2) -> l1 = l2.
Proof.
  induction l1 as [|x l1 IH]; intros [|y l2] H1 H2 E; auto.
  - exfalso. apply (proj2 (E y)). now left.
  - exfalso. apply (proj1 (E x)). now left.
  - inversion H1 as [|? ? A1 A2]; inversion H2 as [|? ? B1 B2]; subst.
    rewrite Forall_forall in A2, B2.
    assert (x = y).
    { destruct (proj1 (E x) (or_introl eq_refl)) as [<- | Hx]; [reflexivity|].
      destruct (proj2 (E y) (or_introl eq_refl)) as [<- | Hy]; [reflexivity|].
      specialize (A2 _ Hy). specialize (B2 _ Hx). lia. }
    subst y. f_equal. apply IH; auto. intro z. split; intro Hz.
    + destruct (proj1 (E z) (or_intror Hz)) as [<- | H]; [|assumption].
      specialize (A2 _ Hz). lia.
    + destruct (proj2 (E z) (or_intror Hz)) as [<- | H]; [|assumption].
      specialize (B2 _ Hz). lia.
Qed.

(** Spin-orbital arithmetic. *)
Lemma mod2 : forall x, x mod 2 = 0 \/ x mod 2 = 1.
Proof. intro x. assert (H : 0 < 2) by lia. pose proof (Z.mod_pos_bound x 2 H). lia. Qed.
Lemma odd_form : forall x, x mod 2 = 1 -> x = alpha (spatial_orb_idx x).
Proof.
  intros x H. unfold spatial_orb_idx, alpha. rewrite H, Z.eqb_refl.
  assert (x + 1 = (x / 2 + 1) * 2) as -> by (pose proof (Z.div_mod x 2 ltac:(lia)); lia).
  rewrite Z.div_mul by lia. pose proof (Z.div_mod x 2 ltac:(lia)). lia.
Qed.
Lemma even_form : forall x, x mod 2 = 0 -> x = beta (spatial_orb_idx x).
Proof.
  intros x H. unfold spatial_orb_idx, beta. rewrite H. change (0 =? 1) with false. cbv iota. pose proof (Z.div_mod x 2 ltac:(lia)). lia.
Qed.
Lemma alpha_mod : forall p, alpha p mod 2 = 1.
Proof. intro p. unfold alpha. replace (2 * p - 1) with (1 + (p - 1) * 2) by lia. now rewrite Z.mod_add. Qed.
Lemma beta_mod : forall p, beta p mod 2 = 0.
Proof. intro p. unfold beta. rewrite Z.mul_comm. now apply Z.mod_mul. Qed.
Lemma sp_alpha : forall p, spatial_orb_idx (alpha p) = p.
Proof. intro p. pose proof (odd_form _ (alpha_mod p)). unfold alpha in *. lia. Qed.
Lemma sp_beta : forall p, spatial_orb_idx (beta p) = p.
Proof. intro p. pose proof (even_form _ (beta_mod p)). unfold beta in *. lia. Qed.
Lemma odds_In : forall x l, In x (odds l) <-> In x l /\ x mod 2 = 1.
Proof. intros. unfold odds. now rewrite filter_In, Z.eqb_eq. Qed.
Lemma evens_In : forall x l, In x (evens l) <-> In x l /\ x mod 2 = 0.
Proof. intros. unfold evens. now rewrite filter_In, Z.eqb_eq. Qed.

Lemma zrange_In : forall n x, In x (zrange n) <-> 1 <= x <= Z.of_nat n.
Proof.
  intros n x. unfold zrange. rewrite in_map_iff. split.
  - intros [k [<- H]]. apply in_seq in H. lia.
  - intro H. exists (Z.to_nat x). split; [lia|]. apply in_seq. lia.
Qed.
Lemma HF_alpha : forall s p, In (alpha p) (HF s) <-> 1 <= p <= Z.of_nat (noa s).
Proof.
  intros s p. unfold HF. rewrite isort_In, in_app_iff, !in_map_iff. split.
  - intros [[i [E H]] | [i [E H]]]; unfold alpha in E; [|lia].
    apply zrange_In in H. lia.
  - intro H. left. exists p. split; [reflexivity|now apply zrange_In].
Qed.
Lemma HF_beta : forall s p, In (beta p) (HF s) <-> 1 <= p <= Z.of_nat (nob s).
Proof.
  intros s p. unfold HF. rewrite isort_In, in_app_iff, !in_map_iff. split.
  - intros [[i [E H]] | [i [E H]]]; unfold beta in E; [lia|].
    apply zrange_In in H. lia.
  - intro H. right. exists p. split; [reflexivity|now apply zrange_In].
Qed.
Lemma zrange_NoDup : forall n, NoDup (zrange n).
Proof.
  intro n. unfold zrange. apply FinFun.Injective_map_NoDup; [|apply seq_NoDup].
  intros a b H. lia.
Qed.
Lemma NoDup_app' : forall (l1 l2 : list Z), NoDup l1 -> NoDup l2 ->
  (forall x, In x l1 -> ~ In x l2) -> NoDup (l1 ++ l2).
Proof.
  induction 1 as [|x l1 H1 H2 IH]; intros N D; cbn; [assumption|].
  constructor.
  - rewrite in_app_iff. intros [H | H]; [now apply H1|]. eapply D; [now left|exact H].
  - apply IH; [assumption|]. intros y Hy. apply D. now right.
Qed.
Lemma HF_NoDup : forall s, NoDup (HF s).
Proof.
  intro s. unfold HF. apply isort_NoDup, NoDup_app'.
  - apply FinFun.Injective_map_NoDup; [|apply zrange_NoDup]. intros a b H. lia.
  - apply FinFun.Injective_map_NoDup; [|apply zrange_NoDup]. intros a b H. lia.
  - intros x Hx Hy. apply in_map_iff in Hx. apply in_map_iff in Hy.
    destruct Hx as [a [<- _]]. destruct Hy as [b [E _]]. lia.
Qed.
Lemma filter_perm : forall {A} (f : A -> bool) l l', Permutation l l' -> Permutation (filter f l) (filter f l').
Proof.
  intros A f l l' H. induction H; cbn.
  - constructor.
  - destruct (f x); [now constructor|assumption].
  - destruct (f x), (f y); try reflexivity. constructor.
  - etransitivity; eassumption.
Qed.
Lemma filter_all : forall {A} (f : A -> bool) l, (forall x, In x l -> f x = true) -> filter f l = l.
Proof.
  induction l as [|x l IH]; intro H; cbn; [reflexivity|]. rewrite (H x (or_introl eq_refl)), IH; [reflexivity|].
  intros; apply H; now right.
Qed.
Lemma filter_none : forall {A} (f : A -> bool) l, (forall x, In x l -> f x = false) -> filter f l = [].
Proof.
  induction l as [|x l IH]; intro H; cbn; [reflexivity|]. rewrite (H x (or_introl eq_refl)).
  apply IH. intros; apply H; now right.
Qed.
Lemma HF_odds : forall s, length (odds (HF s)) = noa s.
Proof.
  intro s. unfold odds, HF.
  rewrite <- (Permutation_length (filter_perm _ _ _ (isort_perm _))).
  rewrite filter_app, app_length, filter_all, filter_none.
  - cbn. unfold zrange. rewrite !map_length, seq_length. lia.
  - intros x Hx. apply in_map_iff in Hx. destruct Hx as [i [<- _]].
    apply Z.eqb_neq. fold (beta i). rewrite beta_mod. lia.
  - intros x Hx. apply in_map_iff in Hx. destruct Hx as [i [<- _]].
    apply Z.eqb_eq. apply alpha_mod.
Qed.
Lemma HF_evens : forall s, length (evens (HF s)) = nob s.
Proof.
  intro s. unfold evens, HF.
  rewrite <- (Permutation_length (filter_perm _ _ _ (isort_perm _))).
  rewrite filter_app, app_length, filter_none, filter_all.
  - cbn. unfold zrange. rewrite !map_length, seq_length. lia.
  - intros x Hx. apply in_map_iff in Hx. destruct Hx as [i [<- _]].
    apply Z.eqb_eq. apply beta_mod.
  - intros x Hx. apply in_map_iff in Hx. destruct Hx as [i [<- _]].
    apply Z.eqb_neq. fold (alpha i). rewrite alpha_mod. lia.
Qed.

(** Parts of the difference sets by spin. *)
Lemma part_diff : forall f A B, NoDup A -> 
  filter f (setdiff A B) = filter (fun x => negb (mem x (filter f B))) (filter f A).
Proof.
  intros f A B N. unfold setdiff. rewrite (dedup_id A N), filter_comm.
  apply filter_ext_in. intros x Hx. apply filter_In in Hx. f_equal.
  destruct (mem x B) eqn:E1, (mem x (filter f B)) eqn:E2; try reflexivity.
  - apply mem_In in E1. apply mem_not in E2. exfalso. apply E2. now apply filter_In.
  - apply mem_not in E1. apply mem_In in E2. apply filter_In in E2. tauto.
Qed.
Lemma part_length : forall f A B, NoDup A -> NoDup B -> length (filter f A) = length (filter f B) ->
  length (filter f (setdiff A B)) = length (filter f (setdiff B A)).
Proof.
  intros f A B HA HB HL. rewrite !part_diff by assumption.
  apply diff_length; try assumption; now apply NoDup_filter.
Qed.
Lemma split_parity : forall l, length l = (length (odds l) + length (evens l))%nat.
Proof.
  intro l. unfold odds, evens. rewrite <- (filter_split (fun i => i mod 2 =? 1) l). f_equal.
  f_equal. apply filter_ext. intro x. destruct (mod2 x) as [-> | ->]; reflexivity.
Qed.

(** What [indices] computes for a determinant with the right electron numbers. *)
Definition ua (s : sys) D := isort (odds (setdiff D (HF s))).
Definition ub (s : sys) D := isort (evens (setdiff D (HF s))).
Definition oa (s : sys) D := isort (odds (setdiff (HF s) D)).
Definition ob (s : sys) D := isort (evens (setdiff (HF s) D)).

Lemma zipsub_app : forall l1 l2 a b,
  zipsub (map spatial_orb_idx l1 ++ map spatial_orb_idx l2) (repeat a (length l1) ++ repeat b (length l2)) =
  map (fun x => spatial_orb_idx x - a) l1 ++ map (fun x => spatial_orb_idx x - b) l2.
Proof.
  intros l1 l2 a b. unfold zipsub. induction l1 as [|x l1 IH]; cbn.
  - induction l2 as [|y l2 IH]; cbn; [reflexivity|]. now rewrite IH.
  - now rewrite IH.
Qed.

Section ONE.
Variables (s : sys) (D : list Z).
Hypothesis E : electrons s D.

Lemma len_a : length (odds (setdiff D (HF s))) = length (odds (setdiff (HF s) D)).
Proof.
  destruct E as [N [E1 E2]]. apply part_length; [assumption|apply HF_NoDup|].
  fold (odds D) (odds (HF s)). now rewrite HF_odds.
Qed.
Lemma len_b : length (evens (setdiff D (HF s))) = length (evens (setdiff (HF s) D)).
Proof.
  destruct E as [N [E1 E2]]. apply part_length; [assumption|apply HF_NoDup|].
  fold (evens D) (evens (HF s)). now rewrite HF_evens.
Qed.
Lemma len_ab : length (setdiff D (HF s)) = length (setdiff (HF s) D).
Proof. rewrite (split_parity (setdiff D _)), (split_parity (setdiff _ D)), len_a, len_b. reflexivity. Qed.

Definition eun : list Z := map (fun x => spatial_orb_idx x - Z.of_nat (noa s)) (ua s D) ++
                           map (fun x => spatial_orb_idx x - Z.of_nat (nob s)) (ub s D).
Definition eocc : list Z := map spatial_orb_idx (oa s D) ++ map spatial_orb_idx (ob s D).
Definition ena : nat := length (ua s D).

Lemma indices_eq : indices s D = Some (ena, eun, eocc).
Proof.
  unfold indices, get_spincase, get_excits_from, get_excits_to.
  rewrite <- len_ab, Nat.eqb_refl, <- len_a, Nat.eqb_refl. cbn [negb fst].
  unfold eocc, eun, ena, ua, ub, oa, ob, shifts. cbn [fst snd]. rewrite isort_length.
  f_equal. f_equal. f_equal.
  rewrite <- (zipsub_app (isort (odds (setdiff D (HF s)))) (isort (evens (setdiff D (HF s))))).
  do 2 f_equal; f_equal.
  - now rewrite isort_length.
  - rewrite isort_length, (split_parity (setdiff D (HF s))). lia.
Qed.
Lemma rank_eq : get_excit_rank D (HF s) = length eun.
Proof.
  unfold get_excit_rank, eun, ua, ub. rewrite app_length, !map_length, !isort_length.
  apply split_parity.
Qed.

Lemma ua_In : forall p, In (alpha p) (ua s D) <-> In (alpha p) D /\ ~ 1 <= p <= Z.of_nat (noa s).
Proof. intro p. unfold ua. rewrite isort_In, odds_In, setdiff_In, HF_alpha. pose proof (alpha_mod p). tauto. Qed.
Lemma ub_In : forall p, In (beta p) (ub s D) <-> In (beta p) D /\ ~ 1 <= p <= Z.of_nat (nob s).
Proof. intro p. unfold ub. rewrite isort_In, evens_In, setdiff_In, HF_beta. pose proof (beta_mod p). tauto. Qed.
Lemma oa_In : forall p, In (alpha p) (oa s D) <-> 1 <= p <= Z.of_nat (noa s) /\ ~ In (alpha p) D.
Proof. intro p. unfold oa. rewrite isort_In, odds_In, setdiff_In, HF_alpha. pose proof (alpha_mod p). tauto. Qed.
Lemma ob_In : forall p, In (beta p) (ob s D) <-> 1 <= p <= Z.of_nat (nob s) /\ ~ In (beta p) D.
Proof. intro p. unfold ob. rewrite isort_In, evens_In, setdiff_In, HF_beta. pose proof (beta_mod p). tauto. Qed.
End ONE.

Lemma ua_odd : forall s D x, In x (ua s D) -> x mod 2 = 1.
Proof. intros s D x H. unfold ua in H. rewrite isort_In, odds_In in H. tauto. Qed.
Lemma oa_odd : forall s D x, In x (oa s D) -> x mod 2 = 1.
Proof. intros s D x H. unfold oa in H. rewrite isort_In, odds_In in H. tauto. Qed.
Lemma ub_even : forall s D x, In x (ub s D) -> x mod 2 = 0.
Proof. intros s D x H. unfold ub in H. rewrite isort_In, evens_In in H. tauto. Qed.
Lemma ob_even : forall s D x, In x (ob s D) -> x mod 2 = 0.
Proof. intros s D x H. unfold ob in H. rewrite isort_In, evens_In in H. tauto. Qed.

Lemma map_odd_In : forall (l : list Z) c q, (forall x, In x l -> x mod 2 = 1) ->
  (In q (map (fun x => spatial_orb_idx x - c) l) <-> In (alpha (q + c)) l).
Proof.
  intros l c q Ho. rewrite in_map_iff. split.
  - intros [x [<- H]]. replace (spatial_orb_idx x - c + c) with (spatial_orb_idx x) by lia.
    now rewrite <- (odd_form x (Ho x H)).
  - intro H. exists (alpha (q + c)). split; [|assumption]. rewrite sp_alpha. lia.
Qed.
Lemma map_even_In : forall (l : list Z) c q, (forall x, In x l -> x mod 2 = 0) ->
  (In q (map (fun x => spatial_orb_idx x - c) l) <-> In (beta (q + c)) l).
Proof.
  intros l c q Ho. rewrite in_map_iff. split.
  - intros [x [<- H]]. replace (spatial_orb_idx x - c + c) with (spatial_orb_idx x) by lia.
    now rewrite <- (even_form x (Ho x H)).
  - intro H. exists (beta (q + c)). split; [|assumption]. rewrite sp_beta. lia.
Qed.
Lemma map0 : forall l, map spatial_orb_idx l = map (fun x => spatial_orb_idx x - 0) l.
Proof. intro l. apply map_ext. intro. lia. Qed.

Lemma sorted_odd : forall l c, StronglySorted Z.lt l -> (forall x, In x l -> x mod 2 = 1) ->
  StronglySorted Z.lt (map (fun x => spatial_orb_idx x - c) l).
Proof.
  intros l c H Ho. apply sorted_map; [assumption|]. intros x y Hx Hy L.
  rewrite (odd_form x), (odd_form y) in L by auto. unfold alpha in L. lia.
Qed.
Lemma sorted_even : forall l c, StronglySorted Z.lt l -> (forall x, In x l -> x mod 2 = 0) ->
  StronglySorted Z.lt (map (fun x => spatial_orb_idx x - c) l).
Proof.
  intros l c H Ho. apply sorted_map; [assumption|]. intros x y Hx Hy L.
  rewrite (even_form x), (even_form y) in L by auto. unfold beta in L. lia.
Qed.

Lemma describes_eq : forall s D, (noa s <= norb s)%nat -> (nob s <= norb s)%nat -> is_det s D ->
  describes s (ena s D) (eun s D, eocc s D) D.
Proof.
  intros s D V1 V2 [E R]. pose proof E as [N [C1 C2]].
  assert (NU : NoDup (setdiff D (HF s))) by apply setdiff_NoDup.
  assert (NO : NoDup (setdiff (HF s) D)) by apply setdiff_NoDup.
  exists (map (fun x => spatial_orb_idx x - Z.of_nat (noa s)) (ua s D)),
         (map (fun x => spatial_orb_idx x - Z.of_nat (nob s)) (ub s D)),
         (map spatial_orb_idx (oa s D)), (map spatial_orb_idx (ob s D)).
  split; [reflexivity|]. split; [now rewrite map_length|].
  split. { rewrite map_length. unfold ena, ua, oa. rewrite !isort_length. symmetry. now apply len_a. }
  split. { rewrite !map_length. unfold ub, ob. rewrite !isort_length. now apply len_b. }
  rewrite !map0.
  assert (Sa : forall f l, NoDup l -> StronglySorted Z.lt (isort (filter f l))).
  { intros. apply isort_lt. now apply NoDup_filter. }
  split; [apply sorted_odd; [now apply Sa|apply ua_odd]|].
  split; [apply sorted_even; [now apply Sa|apply ub_even]|].
  split; [apply sorted_odd; [now apply Sa|apply oa_odd]|].
  split; [apply sorted_even; [now apply Sa|apply ob_even]|].
  split. { intros q Hq. apply map_odd_In in Hq; [|apply ua_odd]. apply ua_In in Hq.
    destruct Hq as [H1 H2]. apply R in H1. unfold alpha, nua in *. lia. }
  split. { intros q Hq. apply map_even_In in Hq; [|apply ub_even]. apply ub_In in Hq.
    destruct Hq as [H1 H2]. apply R in H1. unfold beta, nub in *. lia. }
  split. { intros q Hq. apply map_odd_In in Hq; [|apply oa_odd]. apply oa_In in Hq. lia. }
  split. { intros q Hq. apply map_even_In in Hq; [|apply ob_even]. apply ob_In in Hq. lia. }
  split; intro p.
  - rewrite !map_odd_In by (apply ua_odd || apply oa_odd). rewrite Z.add_0_r.
    replace (p - Z.of_nat (noa s) + Z.of_nat (noa s)) with p by lia. rewrite ua_In, oa_In.
    destruct (in_dec Z.eq_dec (alpha p) D), (Z_le_dec 1 p), (Z_le_dec p (Z.of_nat (noa s))); tauto.
  - rewrite !map_even_In by (apply ub_even || apply ob_even). rewrite Z.add_0_r.
    replace (p - Z.of_nat (nob s) + Z.of_nat (nob s)) with p by lia. rewrite ub_In, ob_In.
    destruct (in_dec Z.eq_dec (beta p) D), (Z_le_dec 1 p), (Z_le_dec p (Z.of_nat (nob s))); tauto.
Qed.

(** A determinant has one description. *)
Lemma describes_unique : forall s D na na' e e', (noa s <= norb s)%nat -> (nob s <= norb s)%nat ->
  describes s na e D -> describes s na' e' D -> na = na' /\ e = e'.
Proof.
  intros s D na na' e e' V1 V2
    (pa & pb & ha & hb & -> & La & Lh & Lb & S1 & S2 & S3 & S4 & W1 & W2 & W3 & W4 & A & B)
    (pa' & pb' & ha' & hb' & -> & La' & Lh' & Lb' & S1' & S2' & S3' & S4' & W1' & W2' & W3' & W4' & A' & B').
  assert (Qpa : pa = pa').
  { apply sorted_eq; auto. intro x. specialize (A (x + Z.of_nat (noa s))). specialize (A' (x + Z.of_nat (noa s))).
    rewrite A' in A. replace (x + Z.of_nat (noa s) - Z.of_nat (noa s)) with x in A by lia.
    split; intro H.
    - specialize (W1 x H). destruct (proj2 A (or_intror H)) as [[? _] | ?]; [lia|assumption].
    - specialize (W1' x H). destruct (proj1 A (or_intror H)) as [[? _] | ?]; [lia|assumption]. }
  assert (Qpb : pb = pb').
  { apply sorted_eq; auto. intro x. specialize (B (x + Z.of_nat (nob s))). specialize (B' (x + Z.of_nat (nob s))).
    rewrite B' in B. replace (x + Z.of_nat (nob s) - Z.of_nat (nob s)) with x in B by lia.
    split; intro H.
    - specialize (W2 x H). destruct (proj2 B (or_intror H)) as [[? _] | ?]; [lia|assumption].
    - specialize (W2' x H). destruct (proj1 B (or_intror H)) as [[? _] | ?]; [lia|assumption]. }
  subst pa' pb'.
  assert (Qha : ha = ha').
  { apply sorted_eq; auto. intro x. specialize (A x). specialize (A' x). rewrite A' in A.
    assert (NP : 1 <= x <= Z.of_nat (noa s) -> ~ In (x - Z.of_nat (noa s)) pa).
    { intros Hx Hp. specialize (W1 _ Hp). lia. }
    split; intro H.
    - specialize (W3 x H). destruct (in_dec Z.eq_dec x ha'); [assumption|]. exfalso.
      destruct (proj1 A (or_introl (conj W3 n))) as [[_ ?] | ?]; [tauto|]. now apply NP in W3.
    - specialize (W3' x H). destruct (in_dec Z.eq_dec x ha); [assumption|]. exfalso.
      destruct (proj2 A (or_introl (conj W3' n))) as [[_ ?] | ?]; [tauto|]. now apply NP in W3'. }
  assert (Qhb : hb = hb').
  { apply sorted_eq; auto. intro x. specialize (B x). specialize (B' x). rewrite B' in B.
    assert (NP : 1 <= x <= Z.of_nat (nob s) -> ~ In (x - Z.of_nat (nob s)) pb).
    { intros Hx Hp. specialize (W2 _ Hp). lia. }
    split; intro H.
    - specialize (W4 x H). destruct (in_dec Z.eq_dec x hb'); [assumption|]. exfalso.
      destruct (proj1 B (or_introl (conj W4 n))) as [[_ ?] | ?]; [tauto|]. now apply NP in W4.
    - specialize (W4' x H). destruct (in_dec Z.eq_dec x hb); [assumption|]. exfalso.
      destruct (proj2 B (or_introl (conj W4' n))) as [[_ ?] | ?]; [tauto|]. now apply NP in W4'. }
  subst ha' hb'. split; congruence.
Qed.

(** The irrep. *)
Lemma pyget_nth : forall {A} (d : A) l i, 0 <= i < Z.of_nat (length l) -> pyget l i = Some (nth (Z.to_nat i) l d).
Proof.
  intros A d l i H. unfold pyget. assert (0 <=? i = true) as -> by (apply Z.leb_le; lia).
  apply nth_error_nth'. lia.
Qed.
Lemma xorall_eq : forall s l v, (forall i, In i l -> 0 <= i < Z.of_nat (length (osym s))) ->
  xorall s v l = Some (fold_left N.lxor (map (fun i => orb_irrep s (i + 1)) l) v).
Proof.
  induction l as [|i l IH]; intros v H; cbn; [reflexivity|].
  rewrite (pyget_nth 0%N) by (apply H; now left). rewrite IH by (intros; apply H; now right).
  do 3 f_equal. unfold orb_irrep. now replace (i + 1 - 1) with i by lia.
Qed.

Lemma lxor_bound : forall g a b, (N.to_nat a < 2 ^ g)%nat -> (N.to_nat b < 2 ^ g)%nat ->
  (N.to_nat (N.lxor a b) < 2 ^ g)%nat.
Proof.
  intros g a b Ha Hb.
  assert (P : forall x, (N.to_nat x < 2 ^ g)%nat <-> (x < 2 ^ N.of_nat g)%N).
  { intro x. assert (N.to_nat (2 ^ N.of_nat g) = 2 ^ g)%nat as <-.
    { rewrite N2Nat.inj_pow, Nat2N.id. reflexivity. }
    lia. }
  rewrite P in *.
  destruct (N.eq_dec (N.lxor a b) 0) as [-> | NZ].
  - assert (2 ^ N.of_nat g <> 0)%N by (apply N.pow_nonzero; lia). lia.
  - apply N.log2_lt_pow2; [lia|].
    destruct (N.eq_dec a 0) as [-> | Na].
    { rewrite N.lxor_0_l in *. apply N.log2_lt_pow2; lia. }
    destruct (N.eq_dec b 0) as [-> | Nb].
    { rewrite N.lxor_0_r in *. apply N.log2_lt_pow2; lia. }
    pose proof (N.log2_lxor a b) as H.
    assert (N.log2 a < N.of_nat g)%N by (apply N.log2_lt_pow2; lia).
    assert (N.log2 b < N.of_nat g)%N by (apply N.log2_lt_pow2; lia). lia.
Qed.
Lemma fold_bound : forall g l v, (N.to_nat v < 2 ^ g)%nat -> (forall x, In x l -> (N.to_nat x < 2 ^ g)%nat) ->
  (N.to_nat (fold_left N.lxor l v) < 2 ^ g)%nat.
Proof.
  induction l as [|x l IH]; intros v Hv H; cbn; [assumption|].
  apply IH; [apply lxor_bound; [assumption|apply H; now left]|]. intros; apply H; now right.
Qed.
Lemma orb_irrep_bound : forall s p, valid_sys s -> (N.to_nat (orb_irrep s p) < nirr s)%nat.
Proof.
  intros s p (_ & _ & HL & g & Hg & Ho & Hr). unfold orb_irrep.
  destruct (lt_dec (Z.to_nat (p - 1)) (length (osym s))).
  - apply Ho, nth_In. assumption.
  - rewrite nth_overflow by lia. cbn. rewrite Hg. pose proof (Nat.pow_nonzero 2 g). lia.
Qed.

Lemma combine_map2 : forall (pa pb : list Z) (a b : Z),
  map (fun p => fst p - 1 + snd p) (combine (pa ++ pb) (repeat a (length pa) ++ repeat b (length pb))) =
  map (fun x => x - 1 + a) pa ++ map (fun x => x - 1 + b) pb.
Proof.
  intros. induction pa as [|x pa IH]; cbn; [|now rewrite IH].
  induction pb as [|y pb IH]; cbn; [reflexivity|now rewrite IH].
Qed.

Lemma exc_sym_eq : forall s na e D rank, valid_sys s -> describes s na e D -> length (fst e) = rank ->
  exc_sym s (na, (rank - na)%nat) (fst e) (snd e) = Some (irrep_of s na e).
Proof.
  intros s na e D rank (Vab & Va & HL & _)
    (pa & pb & ha & hb & -> & La & Lh & Lb & S1 & S2 & S3 & S4 & W1 & W2 & W3 & W4 & A & B) HR.
  cbn [fst snd] in *. rewrite app_length in HR.
  unfold exc_sym, irrep_of, shifts. cbn [fst snd].
  replace (rank - na)%nat with (length pb) by lia. subst na.
  rewrite combine_map2. rewrite firstn_app, skipn_app, Nat.sub_diag, firstn_all, skipn_all.
  cbn [firstn skipn]. rewrite app_nil_r, app_nil_l.
  rewrite xorall_eq.
  - rewrite xorall_eq.
    + rewrite map_map.
      rewrite (map_ext (fun x => orb_irrep s (x - 1 + 1)) (orb_irrep s)) by (intro; f_equal; lia).
      rewrite fold_left_app. f_equal. f_equal. rewrite map_app, !map_map. f_equal.
      * apply map_ext. intro. f_equal. lia.
      * apply map_ext. intro. f_equal. lia.
    + intros i Hi. rewrite HL. apply in_app_iff in Hi. destruct Hi as [Hi | Hi]; apply in_map_iff in Hi;
        destruct Hi as [x [<- Hx]].
      * specialize (W1 x Hx). unfold nua in W1. lia.
      * specialize (W2 x Hx). unfold nub in W2. lia.
  - intros i Hi. rewrite HL. apply in_map_iff in Hi. destruct Hi as [x [<- Hx]].
    apply in_app_iff in Hx. destruct Hx as [Hx | Hx].
    + specialize (W3 x Hx). lia.
    + specialize (W4 x Hx). lia.
Qed.

Lemma irrep_bound : forall s na e, valid_sys s -> (N.to_nat (irrep_of s na e) < nirr s)%nat.
Proof.
  intros s na e V. pose proof V as (_ & _ & _ & g & Hg & _ & Hr). unfold irrep_of. rewrite Hg.
  apply fold_bound; [now rewrite <- Hg|]. intros x Hx. rewrite <- Hg.
  rewrite !in_app_iff, !in_map_iff in Hx.
  destruct Hx as [[p [<- _]] | [[p [<- _]] | [p [<- _]]]]; now apply orb_irrep_bound.
Qed.

(** One line. *)
Lemma outside_false : forall lo hi l, outside lo hi l = false <-> within lo hi l.
Proof.
  intros lo hi l. unfold outside, within. rewrite orb_false_iff. split.
  - intros [H1 H2] x Hx.
    assert (hi <? x = false).
    { destruct (hi <? x) eqn:E; [|reflexivity].
      assert (existsb (fun i => hi <? i) l = true) by (apply existsb_exists; eauto). congruence. }
    assert (x <? lo = false).
    { destruct (x <? lo) eqn:E; [|reflexivity].
      assert (existsb (fun i => i <? lo) l = true) by (apply existsb_exists; eauto). congruence. }
    lia.
  - intro H. split.
    + destruct (existsb _ l) eqn:E; [|reflexivity]. apply existsb_exists in E.
      destruct E as [x [Hx Hl]]. specialize (H x Hx). lia.
    + destruct (existsb _ l) eqn:E; [|reflexivity]. apply existsb_exists in E.
      destruct E as [x [Hx Hl]]. specialize (H x Hx). lia.
Qed.

Lemma read_line_skip : forall rank s l a, is_det s (det_of l) -> length (eun s (det_of l)) <> rank ->
  read_line rank s l a = Next a.
Proof.
  intros rank s l a [E _] H. unfold read_line. fold (det_of l). rewrite (rank_eq s).
  apply Nat.eqb_neq in H. now rewrite H.
Qed.
Lemma read_line_take : forall rank s l a, valid_sys s -> is_det s (det_of l) ->
  length (eun s (det_of l)) = rank ->
  read_line rank s l a =
    Next (tally (irrep_of s (ena s (det_of l)) (eun s (det_of l), eocc s (det_of l))) (ena s (det_of l))
            (push (ena s (det_of l)) (eun s (det_of l), eocc s (det_of l)) a)).
Proof.
  intros rank s l a V H HR. pose proof V as (Vab & Va & _).
  unfold read_line. fold (det_of l). rewrite (rank_eq s), HR, Nat.eqb_refl. cbn [negb].
  rewrite (indices_eq s _ (proj1 H)).
  assert (DD : describes s (ena s (det_of l)) (eun s (det_of l), eocc s (det_of l)) (det_of l)).
  { apply describes_eq; [assumption|lia|assumption]. }
  pose proof DD as (pa & pb & ha & hb & Ee & La & Lh & Lb & S1 & S2 & S3 & S4 & W1 & W2 & W3 & W4 & A & B).
  injection Ee as Eu Eo.
  assert (outside 1 (Z.of_nat (noa s)) (eocc s (det_of l)) = false) as ->.
  { apply outside_false. rewrite Eo. intros x Hx. apply in_app_iff in Hx. destruct Hx as [Hx | Hx].
    - apply W3 in Hx. lia.
    - apply W4 in Hx. lia. }
  assert (outside 1 (Z.of_nat (nub s)) (eun s (det_of l)) = false) as ->.
  { apply outside_false. rewrite Eu. intros x Hx. apply in_app_iff in Hx. destruct Hx as [Hx | Hx].
    - apply W1 in Hx. unfold nua, nub in *. lia.
    - apply W2 in Hx. lia. }
  pose proof (exc_sym_eq s _ _ _ rank V DD HR) as Hs. cbn [fst snd] in Hs. rewrite Hs.
  assert (N.to_nat (irrep_of s (ena s (det_of l)) (eun s (det_of l), eocc s (det_of l))) <? nirr s = true)%nat as ->.
  { apply Nat.ltb_lt. now apply irrep_bound. }
  reflexivity.
Qed.

Definition counts_ok (s : sys) (a : acc) : Prop :=
  forall v na, cnt a v na = length (filter (fun e => N.eqb (irrep_of s na e) v) (excs a na)).

Lemma read_lines_ok : forall rank s file a, valid_sys s -> Forall (fun l => is_det s (det_of l)) file ->
  counts_ok s a ->
  exists a', read_lines rank s file a = Some a' /\ counts_ok s a' /\
    forall na, exists es, excs a' na = excs a na ++ es /\ listed s rank na file es.
Proof.
  intros rank s file. induction file as [|l r IH]; intros a V F C.
  - exists a. split; [reflexivity|]. split; [assumption|]. intro na. exists []. rewrite app_nil_r.
    split; [reflexivity|constructor].
  - inversion F as [|? ? F1 F2]; subst. cbn [read_lines].
    pose proof V as (Vab & Va & _).
    assert (DD : describes s (ena s (det_of l)) (eun s (det_of l), eocc s (det_of l)) (det_of l)).
    { apply describes_eq; [assumption|lia|assumption]. }
    destruct (Nat.eq_dec (length (eun s (det_of l))) rank) as [HR | HR].
    + rewrite read_line_take by assumption.
      set (na0 := ena s (det_of l)) in *. set (e0 := (eun s (det_of l), eocc s (det_of l))) in *.
      destruct (IH (tally (irrep_of s na0 e0) na0 (push na0 e0 a))) as [a' [R1 [R2 R3]]]; try assumption.
      { intros v na. cbn [cnt excs tally push]. specialize (C v na). destruct (Nat.eqb_spec na na0) as [-> | Hn].
        - rewrite filter_app, app_length. cbn [filter length]. rewrite (N.eqb_sym (irrep_of s na0 e0) v).
          destruct (N.eqb v (irrep_of s na0 e0)); cbn [andb length]; rewrite C; lia.
        - rewrite andb_false_r. assumption. }
      exists a'. split; [assumption|]. split; [assumption|]. intro na. destruct (R3 na) as [es [E1 E2]].
      cbn [excs tally push] in E1. destruct (Nat.eqb_spec na na0) as [-> | Hn].
      * exists (e0 :: es). split; [rewrite E1, <- app_assoc; reflexivity|]. now constructor.
      * exists es. split; [assumption|]. apply listed_skip; [|assumption].
        intros e He. exfalso. apply Hn.
        assert (Vb : (nob s <= norb s)%nat) by lia.
        now destruct (describes_unique s _ _ _ _ _ Va Vb He DD).
    + rewrite read_line_skip by assumption.
      destruct (IH a V F2 C) as [a' [R1 [R2 R3]]].
      exists a'. split; [assumption|]. split; [assumption|]. intro na. destruct (R3 na) as [es [E1 E2]].
      exists es. split; [assumption|]. apply listed_skip; [|assumption].
      intros e He. assert (Vb : (nob s <= norb s)%nat) by lia.
      destruct (describes_unique s _ _ _ _ _ Va Vb He DD) as [_ ->]. assumption.
Qed.
Lemma read_lines_app : forall rank s f1 f2 a a', read_lines rank s f1 a = Some a' ->
  (forall l, In l f1 -> forall b b', read_line rank s l b <> Stop b') ->
  read_lines rank s (f1 ++ f2) a = read_lines rank s f2 a'.
Proof.
  induction f1 as [|l f1 IH]; intros f2 a a' H NS; cbn in *; [now injection H as ->|].
  destruct (read_line rank s l a) as [b | b |] eqn:E.
  - apply IH; [assumption|]. intros; apply NS; now right.
  - exfalso. eapply NS; [now left|exact E].
  - discriminate.
Qed.
