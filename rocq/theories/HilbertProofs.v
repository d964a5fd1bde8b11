(** Proofs about determinants and excitations. *)
From Coq Require Import List ZArith Lia Bool Reals Lra Sorting.Sorted Permutation.
From Verif Require Import CipsiModel CipsiSpec CipsiProofs HilbertModel.
Import ListNotations.
Local Open Scope Z_scope.

Lemma sp_eq : forall x, spin_to_spatial x = spatial_orb_idx x.
Proof.
  intro x. unfold spin_to_spatial, spatial_orb_idx. destruct (mod2 x) as [M | M]; rewrite M.
  - reflexivity.
  - rewrite Z.eqb_refl. pose proof (odd_form x M) as F. unfold spatial_orb_idx in F. rewrite M, Z.eqb_refl in F.
    unfold alpha in F. pose proof (Z.div_mod x 2 ltac:(lia)). lia.
Qed.

(** A determinant object that the constructor can return for distinct orbitals of the system. *)
Definition built (s : hsys) (d : det) : Prop := exists oa ob,
  Determinant s oa ob = Some d /\ NoDup oa /\ NoDup ob /\
  (forall p, In p oa -> 1 <= p <= Z.of_nat (h_norb s)) /\ (forall p, In p ob -> 1 <= p <= Z.of_nat (h_norb s)).

Record good (s : hsys) (d : det) : Prop := mkGood {
  g_len_a : length (odds (occupation d)) = h_noa s;
  g_len_b : length (evens (occupation d)) = h_nob s;
  g_sorted : StronglySorted Z.lt (occupation d);
  g_sa : StronglySorted Z.lt (occ_a d);
  g_sb : StronglySorted Z.lt (occ_b d);
  g_a : forall q, In q (occ_a d) <-> In (alpha (q + 1)) (occupation d);
  g_b : forall q, In q (occ_b d) <-> In (beta (q + 1)) (occupation d);
  g_la : length (occ_a d) = h_noa s;
  g_lb : length (occ_b d) = h_nob s;
  g_range : forall x, In x (occupation d) -> 1 <= x <= 2 * Z.of_nat (h_norb s) }.

Lemma SS_NoDup : forall l, StronglySorted Z.lt l -> NoDup l.
Proof.
  induction 1 as [|x l H IH F]; constructor; [|assumption].
  rewrite Forall_forall in F. intro Hx. specialize (F x Hx). lia.
Qed.

Lemma built_good : forall s d, built s d -> good s d.
Proof.
  intros s d (oa & ob & E & Na & Nb & Ra & Rb). unfold Determinant in E.
  destruct (Nat.eqb_spec (length oa + length ob) (h_nel s)) as [E1|E1]; cbn [negb] in E; [|discriminate].
  destruct (Nat.eqb_spec (length oa) (h_noa s)) as [E2|E2]; cbn [negb] in E; [|discriminate].
  destruct (Nat.eqb_spec (length ob) (h_nob s)) as [E3|E3]; cbn [negb] in E; [|discriminate].
  destruct (forallb _ _) in E; [|discriminate]. injection E as <-.
  assert (ND : NoDup (map (fun i => 2 * i - 1) oa ++ map (fun i => 2 * i) ob)).
  { apply NoDup_app'.
    - apply FinFun.Injective_map_NoDup; [|assumption]. intros a b H. cbv beta in H. lia.
    - apply FinFun.Injective_map_NoDup; [|assumption]. intros a b H. cbv beta in H. lia.
    - intros x Hx Hy. apply in_map_iff in Hx. apply in_map_iff in Hy.
      destruct Hx as [a [<- _]]. destruct Hy as [b [EE _]]. lia. }
  assert (IA : forall p, In (alpha p) (isort (map (fun i => 2 * i - 1) oa ++ map (fun i => 2 * i) ob)) <-> In p oa).
  { intro p. rewrite isort_In, in_app_iff, !in_map_iff. unfold alpha. split.
    - intros [[i [EE H]] | [i [EE H]]]; [|lia]. replace p with i by lia. assumption.
    - intro H. left. exists p. auto. }
  assert (IB : forall p, In (beta p) (isort (map (fun i => 2 * i - 1) oa ++ map (fun i => 2 * i) ob)) <-> In p ob).
  { intro p. rewrite isort_In, in_app_iff, !in_map_iff. unfold beta. split.
    - intros [[i [EE H]] | [i [EE H]]]; [lia|]. replace p with i by lia. assumption.
    - intro H. right. exists p. auto. }
  constructor; cbn [occupation occ_a occ_b].
  - unfold odds. rewrite <- (Permutation_length (filter_perm _ _ _ (isort_perm _))), filter_app, app_length.
    rewrite (filter_all _ (map (fun i => 2 * i - 1) oa)), (filter_none _ (map (fun i => 2 * i) ob)), map_length.
    + cbn. lia.
    + intros x Hx. apply in_map_iff in Hx. destruct Hx as [i [<- _]].
      apply Z.eqb_neq. pose proof (beta_mod i) as HM. unfold beta in HM. rewrite HM. lia.
    + intros x Hx. apply in_map_iff in Hx. destruct Hx as [i [<- _]]. apply Z.eqb_eq. apply alpha_mod.
  - unfold evens. rewrite <- (Permutation_length (filter_perm _ _ _ (isort_perm _))), filter_app, app_length.
    rewrite (filter_none _ (map (fun i => 2 * i - 1) oa)), (filter_all _ (map (fun i => 2 * i) ob)), map_length.
    + cbn. lia.
    + intros x Hx. apply in_map_iff in Hx. destruct Hx as [i [<- _]]. apply Z.eqb_eq. apply beta_mod.
    + intros x Hx. apply in_map_iff in Hx. destruct Hx as [i [<- _]].
      apply Z.eqb_neq. pose proof (alpha_mod i) as HM. unfold alpha in HM. rewrite HM. lia.
  - now apply isort_lt.
  - apply isort_lt, FinFun.Injective_map_NoDup; [|assumption]. intros a b H. cbv beta in H. lia.
  - apply isort_lt, FinFun.Injective_map_NoDup; [|assumption]. intros a b H. cbv beta in H. lia.
  - intro q. rewrite IA, isort_In, in_map_iff. split.
    + intros [i [<- H]]. now replace (i - 1 + 1) with i by lia.
    + intro H. exists (q + 1). split; [lia|assumption].
  - intro q. rewrite IB, isort_In, in_map_iff. split.
    + intros [i [<- H]]. now replace (i - 1 + 1) with i by lia.
    + intro H. exists (q + 1). split; [lia|assumption].
  - now rewrite isort_length, map_length.
  - now rewrite isort_length, map_length.
  - intros x Hx. destruct (mod2 x) as [M | M].
    + rewrite (even_form x M) in *. apply IB, Rb in Hx. unfold beta. lia.
    + rewrite (odd_form x M) in *. apply IA, Ra in Hx. unfold alpha. lia.
Qed.

Lemma index_In : forall x l, In x l -> exists i, index x l = Some i.
Proof.
  induction l as [|y l IH]; intro H; [contradiction|]. cbn. destruct (Z.eqb_spec x y) as [E|E]; [eauto|].
  destruct H as [H | H]; [congruence|]. destruct (IH H) as [i ->]. cbn. eauto.
Qed.

Definition diff (d other : det) : list Z := filter (fun p => negb (mem p (occupation other))) (occupation d).

(** The permutation count of one spin string. *)
Fixpoint kpart (occ ps : list Z) (n : Z) : Z :=
  match ps with
  | [] => 0
  | q :: r => match index q occ with
              | None => 0
              | Some i => Z.of_nat (length occ) - Z.of_nat i + 1 + n
              end + kpart occ r (n + 1)
  end.
Definition abs_a (l : list Z) : list Z := map (fun p => spatial_orb_idx p - 1) (odds l).
Definition abs_b (l : list Z) : list Z := map (fun p => spatial_orb_idx p - 1) (evens l).
Definition K (d : det) (l : list Z) (na nb : Z) : Z := kpart (occ_a d) (abs_a l) na + kpart (occ_b d) (abs_b l) nb.

Lemma some4 : forall (a a' : list Z) (b b' c c' e e' : Z), a = a' -> b = b' -> c = c' -> e = e' -> Some (a, b, c, e) = Some (a', b', c', e').
Proof. intros; subst; reflexivity. Qed.

Lemma scan_ok : forall s d other, good s d -> forall occ, (forall p, In p occ -> In p (occupation d)) ->
  forall l na nb np, scan d other occ (l, np, na, nb) =
    Some (l ++ filter (fun p => negb (mem p (occupation other))) occ,
          np + K d (filter (fun p => negb (mem p (occupation other))) occ) na nb,
          na + Z.of_nat (length (odds (filter (fun p => negb (mem p (occupation other))) occ))),
          nb + Z.of_nat (length (evens (filter (fun p => negb (mem p (occupation other))) occ)))).
Proof.
  intros s d other G. induction occ as [|p occ IH]; intros HI l na nb np.
  - cbn. rewrite app_nil_r. unfold K. cbn. rewrite !Z.add_0_r. reflexivity.
  - assert (HI' : forall q, In q occ -> In q (occupation d)) by (intros; apply HI; now right).
    assert (Hp := HI p (or_introl eq_refl)). cbn [scan filter].
    destruct (mem p (occupation other)) eqn:EM; cbn [negb].
    + apply (IH HI').
    + unfold K, abs_a, abs_b, odds, evens. cbn [filter]. destruct (mod2 p) as [M | M]; rewrite M.
      * change (0 =? 0) with true. change (0 =? 1) with false. cbv iota. cbn [map kpart length].
        destruct (index_In (spin_to_spatial p - 1) (occ_b d)) as [i Ei].
        { apply (g_b s d G). rewrite sp_eq. replace (spatial_orb_idx p - 1 + 1) with (spatial_orb_idx p) by lia.
          now rewrite <- (even_form p M). }
        rewrite Ei. rewrite sp_eq in Ei. rewrite Ei, (IH HI').
        rewrite <- app_assoc. cbn [app]. unfold K, abs_a, abs_b, odds, evens. apply some4; [reflexivity| | |]; lia.
      * change (1 =? 0) with false. change (1 =? 1) with true. cbv iota. cbn [map kpart length].
        destruct (index_In (spin_to_spatial p - 1) (occ_a d)) as [i Ei].
        { apply (g_a s d G). rewrite sp_eq. replace (spatial_orb_idx p - 1 + 1) with (spatial_orb_idx p) by lia.
          now rewrite <- (odd_form p M). }
        rewrite Ei. rewrite sp_eq in Ei. rewrite Ei, (IH HI').
        rewrite <- app_assoc. cbn [app]. unfold K, abs_a, abs_b, odds, evens. apply some4; [reflexivity| | |]; lia.
Qed.

Lemma diff_In : forall d o x, In x (diff d o) <-> In x (occupation d) /\ ~ In x (occupation o).
Proof. intros. unfold diff. now rewrite filter_In, negb_true_iff, mem_not. Qed.

Lemma diff_part_length : forall (f : Z -> bool) d1 d2, NoDup (occupation d1) -> NoDup (occupation d2) ->
  length (filter f (occupation d1)) = length (filter f (occupation d2)) ->
  length (filter f (diff d1 d2)) = length (filter f (diff d2 d1)).
Proof.
  intros f d1 d2 N1 N2 L. pose proof (part_length f (occupation d1) (occupation d2) N1 N2 L) as H.
  unfold setdiff in H. rewrite !dedup_id in H by assumption. exact H.
Qed.

Lemma in_table_ok : forall n x, 0 <= x < Z.of_nat n -> in_table n x = true.
Proof. intros. unfold in_table. lia. Qed.

Lemma abs_range : forall s d o, good s d ->
  forall x, In x (abs_a (diff d o) ++ abs_b (diff d o)) -> 0 <= x < Z.of_nat (h_norb s).
Proof.
  intros s d o G x Hx. apply in_app_iff in Hx. unfold abs_a, abs_b in Hx.
  destruct Hx as [Hx | Hx]; apply in_map_iff in Hx; destruct Hx as [p [<- Hp]];
    [apply odds_In in Hp|apply evens_In in Hp]; destruct Hp as [Hp M]; apply diff_In in Hp;
    destruct Hp as [Hp _]; apply (g_range s d G) in Hp.
  - rewrite (odd_form p M) in Hp. unfold alpha in Hp. lia.
  - rewrite (even_form p M) in Hp. unfold beta in Hp. lia.
Qed.

Lemma get_excitation_eq : forall s d1 d2, good s d1 -> good s d2 ->
  get_excitation s d1 d2 =
    Some (mkExc (abs_a (diff d1 d2)) (abs_b (diff d1 d2)) (abs_a (diff d2 d1)) (abs_b (diff d2 d1))
                (K d1 (diff d1 d2) 0 0 + K d2 (diff d2 d1) 0 0)).
Proof.
  intros s d1 d2 G1 G2.
  pose proof (scan_ok s d1 d2 G1 (occupation d1) ltac:(auto) [] 0 0) as S1.
  pose proof (scan_ok s d2 d1 G2 (occupation d2) ltac:(auto) [] 0 0) as S2.
  fold (diff d1 d2) in S1. fold (diff d2 d1) in S2.
  assert (N1 := SS_NoDup _ (g_sorted s d1 G1)). assert (N2 := SS_NoDup _ (g_sorted s d2 G2)).
  assert (La : length (odds (diff d1 d2)) = length (odds (diff d2 d1))).
  { apply diff_part_length; auto. fold (odds (occupation d1)) (odds (occupation d2)).
    now rewrite (g_len_a s d1 G1), (g_len_a s d2 G2). }
  assert (Lb : length (evens (diff d1 d2)) = length (evens (diff d2 d1))).
  { apply diff_part_length; auto. fold (evens (occupation d1)) (evens (occupation d2)).
    now rewrite (g_len_b s d1 G1), (g_len_b s d2 G2). }
  assert (MA : forall l, map (fun a => a - 1) (map spin_to_spatial (odds l)) = abs_a l).
  { intro l. unfold abs_a. rewrite map_map. apply map_ext. intro. now rewrite sp_eq. }
  assert (MB : forall l, map (fun a => a - 1) (map spin_to_spatial (evens l)) = abs_b l).
  { intro l. unfold abs_b. rewrite map_map. apply map_ext. intro. now rewrite sp_eq. }
  assert (R1 := abs_range s d1 d2 G1). assert (R2 := abs_range s d2 d1 G2).
  unfold get_excitation.
  rewrite S1, S2. cbn [app]. rewrite !Z.add_0_l, La, Lb, !Z.eqb_refl. cbn [negb].
  unfold Excitation. rewrite !map_length, La, Lb, !Nat.eqb_refl. cbn [negb].
  rewrite !MA, !MB. cbn [to_a to_b from_a from_b].
  assert (forallb (in_table (h_norb s)) (abs_a (diff d1 d2) ++ abs_b (diff d1 d2) ++ abs_a (diff d2 d1) ++ abs_b (diff d2 d1)) = true) as ->.
  { apply forallb_forall. intros x Hx. apply in_table_ok. rewrite !in_app_iff in *.
    destruct Hx as [H | [H | [H | H]]]; [apply R1|apply R1|apply R2|apply R2]; apply in_app_iff; tauto. }
  reflexivity.
Qed.

Lemma abs_a_In : forall s d o q, good s d -> good s o -> (In q (abs_a (diff d o)) <-> In q (occ_a d) /\ ~ In q (occ_a o)).
Proof.
  intros s d o q Gd Go. unfold abs_a. rewrite map_odd_In by (intros x H; apply odds_In in H; tauto).
  rewrite odds_In, diff_In, (g_a s d Gd), (g_a s o Go). pose proof (alpha_mod (q + 1)). tauto.
Qed.
Lemma abs_b_In : forall s d o q, good s d -> good s o -> (In q (abs_b (diff d o)) <-> In q (occ_b d) /\ ~ In q (occ_b o)).
Proof.
  intros s d o q Gd Go. unfold abs_b. rewrite map_even_In by (intros x H; apply evens_In in H; tauto).
  rewrite evens_In, diff_In, (g_b s d Gd), (g_b s o Go). pose proof (beta_mod (q + 1)). tauto.
Qed.
Lemma abs_len : forall s d1 d2, good s d1 -> good s d2 ->
  length (abs_a (diff d1 d2)) = length (abs_a (diff d2 d1)) /\ length (abs_b (diff d1 d2)) = length (abs_b (diff d2 d1)).
Proof.
  intros s d1 d2 G1 G2. unfold abs_a, abs_b. rewrite !map_length.
  assert (N1 := SS_NoDup _ (g_sorted s d1 G1)). assert (N2 := SS_NoDup _ (g_sorted s d2 G2)).
  split; apply diff_part_length; auto.
  - fold (odds (occupation d1)) (odds (occupation d2)). now rewrite (g_len_a s d1 G1), (g_len_a s d2 G2).
  - fold (evens (occupation d1)) (evens (occupation d2)). now rewrite (g_len_b s d1 G1), (g_len_b s d2 G2).
Qed.

(** Sums over lists. *)
Local Open Scope R_scope.
Lemma sum_perm : forall l l' f, Permutation l l' -> sum l f = sum l' f.
Proof. intros l l' f H. induction H; cbn; try lra; congruence. Qed.
Lemma sum_ext : forall l f g, (forall x, In x l -> f x = g x) -> sum l f = sum l g.
Proof.
  induction l as [|x l IH]; intros f g H; cbn; [reflexivity|].
  rewrite (H x (or_introl eq_refl)), (IH f g); [reflexivity|]. intros; apply H; now right.
Qed.
Local Open Scope Z_scope.

Lemma same_occ : forall l1 l2, StronglySorted Z.lt l1 -> StronglySorted Z.lt l2 -> length l1 = length l2 ->
  (forall x, In x l1 -> In x l2) -> l1 = l2.
Proof.
  intros l1 l2 S1 S2 L H. apply sorted_eq; auto. intro x. split; [apply H|].
  apply (NoDup_length_incl (SS_NoDup _ S1)); [lia|exact H].
Qed.

(** One orbital exchanged. *)
Lemma exchange : forall (l1 l2 : list Z) a i, NoDup l1 -> NoDup l2 ->
  (forall q, q = a <-> In q l1 /\ ~ In q l2) -> (forall q, q = i <-> In q l2 /\ ~ In q l1) ->
  exists C, Permutation l1 (a :: C) /\ Permutation l2 (i :: C).
Proof.
  intros l1 l2 a i N1 N2 Ha Hi.
  destruct (proj1 (Ha a) eq_refl) as [Ha1 Ha2]. destruct (proj1 (Hi i) eq_refl) as [Hi1 Hi2].
  exists (filter (fun q => negb (q =? i)) l2).
  assert (NF : NoDup (filter (fun q => negb (q =? i)) l2)) by now apply NoDup_filter.
  split; apply NoDup_Permutation; auto.
  - constructor; [|assumption]. rewrite filter_In. tauto.
  - intro q. cbn [In]. rewrite filter_In, negb_true_iff, Z.eqb_neq. specialize (Ha q). specialize (Hi q).
    destruct (in_dec Z.eq_dec q l1), (in_dec Z.eq_dec q l2), (Z.eq_dec q a), (Z.eq_dec q i); subst; tauto || (intuition congruence).
  - constructor; [|assumption]. rewrite filter_In, negb_true_iff, Z.eqb_neq. tauto.
  - intro q. cbn [In]. rewrite filter_In, negb_true_iff, Z.eqb_neq.
    destruct (Z.eq_dec q i); subst; intuition congruence.
Qed.
