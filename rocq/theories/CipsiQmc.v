(** Proofs about the early stop and about walker lists. *)
From Coq Require Import List ZArith NArith Lia Bool Sorting.Sorted Permutation.
From Verif Require Import CipsiModel CipsiSpec CipsiProofs.
Import ListNotations.
Local Open Scope Z_scope.

Lemma in_ref_HF : forall s x, in_reference s x <-> In x (HF s).
Proof.
  intros s x. split.
  - intros [p [[-> H] | [-> H]]]; [now apply HF_alpha|now apply HF_beta].
  - intro H. destruct (mod2 x) as [M | M].
    + rewrite (even_form x M) in *. apply HF_beta in H. eexists. right. eauto.
    + rewrite (odd_form x M) in *. apply HF_alpha in H. eexists. left. eauto.
Qed.
Lemma of_rank_len : forall s rank D, of_rank s rank D -> length (eun s D) = rank.
Proof.
  intros s rank D (l & <- & N & H). rewrite <- rank_eq. unfold get_excit_rank.
  apply Permutation_length, NoDup_Permutation; [apply setdiff_NoDup|assumption|].
  intro x. rewrite setdiff_In, H, in_ref_HF. reflexivity.
Qed.

Lemma read_line_stop : forall rank s l a, valid_sys s -> noa s = nob s -> electrons s (det_of l) ->
  of_rank s rank (det_of l) ->
  (exists x, In x (det_of l) /\ ~ 1 <= x <= 2 * Z.of_nat (norb s)) ->
  read_line rank s l a = Stop a.
Proof.
  intros rank s l a V CS E R [x [Hx NR]]. pose proof V as (Vab & Va & _).
  apply of_rank_len in R.
  unfold read_line. fold (det_of l). rewrite (rank_eq s), R, Nat.eqb_refl. cbn [negb].
  rewrite (indices_eq s _ E).
  assert (exists q, In q (eun s (det_of l)) /\ ~ 1 <= q <= Z.of_nat (nub s)) as [q [Hq Nq]].
  { unfold eun. destruct (mod2 x) as [M | M].
    - exists (spatial_orb_idx x - Z.of_nat (nob s)). rewrite (even_form x M) in Hx, NR. split.
      + apply in_app_iff. right. apply map_even_In; [apply ub_even|].
        replace (spatial_orb_idx x - Z.of_nat (nob s) + Z.of_nat (nob s)) with (spatial_orb_idx x) by lia.
        apply ub_In. split; [assumption|]. unfold beta in NR. lia.
      + unfold beta, nub in *. lia.
    - exists (spatial_orb_idx x - Z.of_nat (noa s)). rewrite (odd_form x M) in Hx, NR. split.
      + apply in_app_iff. left. apply map_odd_In; [apply ua_odd|].
        replace (spatial_orb_idx x - Z.of_nat (noa s) + Z.of_nat (noa s)) with (spatial_orb_idx x) by lia.
        apply ua_In. split; [assumption|]. unfold alpha in NR. lia.
      + unfold alpha, nub in *. lia. }
  destruct (outside 1 (Z.of_nat (noa s)) _); [reflexivity|].
  destruct (outside 1 (Z.of_nat (nub s)) (eun s (det_of l))) eqn:EO; [reflexivity|].
  apply outside_false in EO. specialize (EO q Hq). contradiction.
Qed.

(** Permutations of three. *)
Lemma perm3 : forall (u v w : Z) p, In p (perms3 [u; v; w]) <-> Permutation p [u; v; w].
Proof.
  intros u v w p. split.
  - intro H. cbn in H.
    destruct H as [<- | [<- | [<- | [<- | [<- | [<- | []]]]]]].
    + reflexivity.
    + constructor. constructor.
    + constructor.
    + rewrite perm_swap. apply perm_swap || (etransitivity; [|apply perm_swap]). 
      etransitivity; [apply perm_swap|]. etransitivity; [|apply perm_skip, perm_swap]. reflexivity.
    + etransitivity; [apply perm_swap|]. apply perm_skip. apply perm_swap.
    + etransitivity; [apply perm_swap|]. etransitivity; [apply perm_skip, perm_swap|]. apply perm_swap.
  - intro H.
    assert (L : length p = 3%nat) by (now rewrite (Permutation_length H)).
    destruct p as [|x [|y [|z [|? ?]]]]; try discriminate L. clear L.
    assert (Hx : In x [u; v; w]) by (eapply Permutation_in; [exact H|now left]).
    destruct Hx as [<- | [<- | [<- | []]]].
    + apply Permutation_cons_inv, Permutation_sym, Permutation_length_2_inv in H.
      destruct H as [H | H]; injection H as -> ->; cbn; tauto.
    + assert (H' : Permutation [v; y; z] [v; u; w]) by (rewrite H; apply perm_swap).
      apply Permutation_cons_inv, Permutation_sym, Permutation_length_2_inv in H'.
      destruct H' as [H' | H']; injection H' as -> ->; cbn; tauto.
    + assert (H' : Permutation [w; y; z] [w; u; v]).
      { rewrite H. etransitivity; [apply perm_skip, perm_swap|]. apply perm_swap. }
      apply Permutation_cons_inv, Permutation_sym, Permutation_length_2_inv in H'.
      destruct H' as [H' | H']; injection H' as -> ->; cbn; tauto.
Qed.

(** Products of irreps do not depend on the order. *)
Lemma fold_lxor : forall l v, fold_left N.lxor l v = N.lxor v (fold_right N.lxor 0%N l).
Proof.
  induction l as [|x l IH]; intro v; cbn; [now rewrite N.lxor_0_r|].
  rewrite IH. apply N.lxor_assoc.
Qed.
Lemma fold_right_perm : forall l l', Permutation l l' -> fold_right N.lxor 0%N l = fold_right N.lxor 0%N l'.
Proof.
  induction 1; cbn; try congruence.
  rewrite <- !N.lxor_assoc. f_equal. apply N.lxor_comm.
Qed.
Lemma fold_lxor_perm : forall l l' v, Permutation l l' -> fold_left N.lxor l v = fold_left N.lxor l' v.
Proof. intros. rewrite !fold_lxor. f_equal. now apply fold_right_perm. Qed.

Lemma foldo_hits : forall {A} (f : A -> tensor6 -> option tensor6)
  (hit : A -> nat -> nat -> nat -> nat -> nat -> nat -> Prop) l,
  (forall x, In x l -> forall t, exists t', f x t = Some t' /\
     forall a b c i j k, t' a b c i j k = true <-> t a b c i j k = true \/ hit x a b c i j k) ->
  forall t, exists t', foldo f l t = Some t' /\
     forall a b c i j k, t' a b c i j k = true <->
       t a b c i j k = true \/ exists x, In x l /\ hit x a b c i j k.
Proof.
  induction l as [|x l IH]; intros H t.
  - exists t. split; [reflexivity|]. intros. split; [tauto|]. intros [? | [? [[] _]]]. assumption.
  - destruct (H x (or_introl eq_refl) t) as [t1 [E1 H1]].
    destruct (IH (fun y Hy => H y (or_intror Hy)) t1) as [t2 [E2 H2]].
    exists t2. split; [cbn; now rewrite E1|]. intros. rewrite H2, H1. split.
    + intros [[? | ?] | [y [Hy ?]]]; [tauto|right; exists x; cbn; tauto|right; exists y; cbn; tauto].
    + intros [? | [y [[<- | Hy] ?]]]; [tauto|tauto|right; exists y; tauto].
Qed.

Lemma npidx_in : forall n i, 0 <= i < Z.of_nat n -> npidx n i = Some (Z.to_nat i).
Proof.
  intros n i H. unfold npidx. assert ((0 <=? i) && (i <? Z.of_nat n) = true) as -> by lia. reflexivity.
Qed.

Definition absolute_irrep (s : sys) (occ un : list Z) : N :=
  fold_left N.lxor (map (orb_irrep s) (occ ++ un)) (refsym s).

Lemma check_sym_eq : forall s target occ un, valid_sys s ->
  within 1 (Z.of_nat (norb s)) occ -> within 1 (Z.of_nat (norb s)) un ->
  check_sym s target occ un =
  Some (match target with None => true | Some t => N.eqb (absolute_irrep s occ un) t end).
Proof.
  intros s [t | ] occ un V W1 W2; cbn; [|reflexivity].
  rewrite xorall_eq.
  - unfold absolute_irrep. rewrite map_map. f_equal. f_equal. f_equal.
    apply map_ext. intro. f_equal. lia.
  - destruct V as (_ & _ & -> & _). intros i Hi. apply in_map_iff in Hi. destruct Hi as [x [<- Hx]].
    apply in_app_iff in Hx. destruct Hx as [Hx | Hx]; [apply W1 in Hx|apply W2 in Hx]; lia.
Qed.

Definition hit1 (s : sys) (target : option N) (pu po : list Z) (a b c i j k : nat) : Prop :=
  pu = map (fun x => x + Z.of_nat (noa s)) (znat3 (S a) (S b) (S c)) /\ po = znat3 (S i) (S j) (S k) /\
  wanted target (absolute_irrep s po pu).

Lemma mark_ok : forall s target pu po t, valid_sys s -> noa s = nob s ->
  length pu = 3%nat -> length po = 3%nat ->
  within (Z.of_nat (noa s) + 1) (Z.of_nat (norb s)) pu -> within 1 (Z.of_nat (noa s)) po ->
  exists t', mark s target pu po t = Some t' /\
     forall a b c i j k, t' a b c i j k = true <-> t a b c i j k = true \/ hit1 s target pu po a b c i j k.
Proof.
  intros s target pu po t V CS Lu Lo Wu Wo. pose proof V as (_ & Va & _).
  destruct pu as [|a0 [|b0 [|c0 [|? ?]]]]; try discriminate Lu.
  destruct po as [|i0 [|j0 [|k0 [|? ?]]]]; try discriminate Lo.
  assert (A := Wu a0 ltac:(cbn; tauto)). assert (B := Wu b0 ltac:(cbn; tauto)).
  assert (C := Wu c0 ltac:(cbn; tauto)). assert (I := Wo i0 ltac:(cbn; tauto)).
  assert (J := Wo j0 ltac:(cbn; tauto)). assert (K := Wo k0 ltac:(cbn; tauto)).
  cbn [mark]. rewrite check_sym_eq; [|assumption| |].
  2: { intros x Hx. apply Wo in Hx. lia. }
  2: { intros x Hx. apply Wu in Hx. lia. }
  assert (W : wanted target (absolute_irrep s [i0; j0; k0] [a0; b0; c0]) <->
              match target with None => true | Some t0 => N.eqb (absolute_irrep s [i0; j0; k0] [a0; b0; c0]) t0 end = true).
  { destruct target; cbn; [now rewrite N.eqb_eq|tauto]. }
  destruct (match target with None => true | Some t0 => N.eqb (absolute_irrep s [i0; j0; k0] [a0; b0; c0]) t0 end).
  - rewrite !npidx_in by (unfold nub; lia).
    eexists. split; [reflexivity|]. intros a b c i j k. unfold set6, hit1.
    destruct (Nat.eqb a (Z.to_nat (a0 - 1 - Z.of_nat (noa s))) && Nat.eqb b (Z.to_nat (b0 - 1 - Z.of_nat (noa s))) &&
      Nat.eqb c (Z.to_nat (c0 - 1 - Z.of_nat (noa s))) && Nat.eqb i (Z.to_nat (i0 - 1)) &&
      Nat.eqb j (Z.to_nat (j0 - 1)) && Nat.eqb k (Z.to_nat (k0 - 1)))%bool eqn:EQ.
    + split; [|tauto]. intros _. right. rewrite !andb_true_iff, !Nat.eqb_eq in EQ.
      destruct EQ as [[[[[-> ->] ->] ->] ->] ->].
      split; [|split].
      * unfold znat3. cbn [map]. repeat f_equal; lia.
      * unfold znat3. repeat f_equal; lia.
      * now apply W.
    + split; [tauto|]. intros [H | (H1 & H2 & H3)]; [assumption|]. exfalso.
      unfold znat3 in *. cbn [map] in H1.
      assert (E1 : a0 = Z.of_nat (S a) + Z.of_nat (noa s)) by congruence.
      assert (E2 : b0 = Z.of_nat (S b) + Z.of_nat (noa s)) by congruence.
      assert (E3 : c0 = Z.of_nat (S c) + Z.of_nat (noa s)) by congruence.
      assert (E4 : i0 = Z.of_nat (S i)) by congruence.
      assert (E5 : j0 = Z.of_nat (S j)) by congruence.
      assert (E6 : k0 = Z.of_nat (S k)) by congruence. clear H1 H2.
      rewrite !andb_false_iff, !Nat.eqb_neq in EQ. lia.
  - exists t. split; [reflexivity|]. intros a b c i j k. split; [tauto|]. intros [H | (H1 & H2 & H3)]; [assumption|].
    exfalso. apply W in H3. discriminate.
Qed.

(** The sets of particles and holes. *)
Section QLINE.
Variables (s : sys) (D : list Z).
Hypothesis V : valid_sys s.
Hypothesis CS : noa s = nob s.
Hypothesis DD : is_det s D.

Lemma HFq_In : forall x, In x (HFq s) <-> In x (HF s).
Proof.
  intro x. unfold HFq. rewrite zrange_In. destruct (mod2 x) as [M | M].
  - rewrite (even_form x M). rewrite HF_beta. unfold beta. lia.
  - rewrite (odd_form x M). rewrite HF_alpha. unfold alpha. lia.
Qed.
Lemma from_eq : isort (setdiff (HFq s) D) = isort (setdiff (HF s) D).
Proof.
  apply sorted_eq; try (apply isort_lt, setdiff_NoDup).
  intro x. rewrite !isort_In, !setdiff_In, HFq_In. reflexivity.
Qed.
Lemma to_eq : isort (setdiff D (HFq s)) = isort (setdiff D (HF s)).
Proof.
  apply sorted_eq; try (apply isort_lt, setdiff_NoDup).
  intro x. rewrite !isort_In, !setdiff_In, HFq_In. reflexivity.
Qed.
Lemma ceil2_sp : forall x, ceil2 x = spatial_orb_idx x.
Proof.
  intro x. unfold ceil2. destruct (mod2 x) as [M | M].
  - unfold spatial_orb_idx. rewrite M. change (0 =? 1) with false. cbv iota.
    rewrite (Z.div_mod x 2) at 1 by lia. rewrite M.
    replace (2 * (x / 2) + 0 + 1) with (1 + x / 2 * 2) by lia. rewrite Z.div_add by lia. reflexivity.
  - unfold spatial_orb_idx. now rewrite M.
Qed.
Lemma parity_perm : forall l, Permutation l (odds l ++ evens l).
Proof.
  induction l as [|x l IH]; cbn; [constructor|]. unfold odds, evens in *. cbn.
  destruct (mod2 x) as [-> | ->]; cbn.
  - apply Permutation_cons_app. assumption.
  - now constructor.
Qed.
Lemma spatial_perm : forall l, Permutation (map ceil2 (isort l))
  (map spatial_orb_idx (isort (odds l)) ++ map spatial_orb_idx (isort (evens l))).
Proof.
  intro l. rewrite (map_ext _ _ ceil2_sp), <- map_app. apply Permutation_map.
  rewrite <- (isort_perm l), <- !isort_perm. apply parity_perm.
Qed.
Lemma occ_perm : Permutation (map ceil2 (isort (setdiff (HFq s) D))) (eocc s D).
Proof. rewrite from_eq. apply spatial_perm. Qed.
Lemma un_perm : Permutation (map ceil2 (isort (setdiff D (HFq s)))) (map (fun x => x + Z.of_nat (noa s)) (eun s D)).
Proof.
  rewrite to_eq, spatial_perm. unfold eun, ua, ub. rewrite map_app, !map_map, <- CS.
  assert (Q : forall l, map (fun x => spatial_orb_idx x - Z.of_nat (noa s) + Z.of_nat (noa s)) l = map spatial_orb_idx l).
  { intro l. apply map_ext. intro. lia. }
  now rewrite !Q.
Qed.
Lemma desc : describes s (ena s D) (eun s D, eocc s D) D.
Proof. destruct V as (Vab & Va & _). apply describes_eq; [assumption|lia|assumption]. Qed.
Lemma eun_within : within 1 (Z.of_nat (nub s)) (eun s D).
Proof.
  destruct desc as (pa & pb & ha & hb & Ee & La & Lh & Lb & S1 & S2 & S3 & S4 & W1 & W2 & W3 & W4 & A & B).
  injection Ee as -> _. intros x Hx. apply in_app_iff in Hx. destruct Hx as [Hx | Hx].
  - apply W1 in Hx. unfold nua, nub in *. lia.
  - now apply W2.
Qed.
Lemma eocc_within : within 1 (Z.of_nat (noa s)) (eocc s D).
Proof.
  destruct desc as (pa & pb & ha & hb & Ee & La & Lh & Lb & S1 & S2 & S3 & S4 & W1 & W2 & W3 & W4 & A & B).
  injection Ee as _ ->. intros x Hx. apply in_app_iff in Hx. destruct Hx as [Hx | Hx].
  - now apply W3.
  - apply W4 in Hx. lia.
Qed.
Lemma irrep_absolute : forall po pu, Permutation po (eocc s D) ->
  Permutation pu (map (fun x => x + Z.of_nat (noa s)) (eun s D)) ->
  absolute_irrep s po pu = irrep_of s (ena s D) (eun s D, eocc s D).
Proof.
  intros po pu Po Pu. unfold absolute_irrep, irrep_of. cbn [fst snd].
  apply fold_lxor_perm. rewrite map_app. apply Permutation_app; [now apply Permutation_map|].
  rewrite Pu, map_map, <- CS.
  rewrite <- map_app, firstn_skipn. reflexivity.
Qed.
End QLINE.

Definition hitl (s : sys) (target : option N) (thr : Z) (line : list Z) (a b c i j k : nat) : Prop :=
  thr <= Z.abs (walkers line) /\ exists na e, describes s na e (det_of line) /\
    Permutation (znat3 (S a) (S b) (S c)) (fst e) /\ Permutation (znat3 (S i) (S j) (S k)) (snd e) /\
    wanted target (irrep_of s na e).

Lemma perms_In_len : forall l p, In p (perms3 l) -> length p = 3%nat /\ Permutation p l.
Proof.
  intros [|u [|v [|w [|? ?]]]] p H; try contradiction.
  apply perm3 in H. split; [|assumption]. now rewrite (Permutation_length H).
Qed.
Lemma perms_of_perm : forall l p, length l = 3%nat -> Permutation p l -> In p (perms3 l).
Proof. intros [|u [|v [|w [|? ?]]]] p L H; try discriminate L. now apply perm3. Qed.

Lemma qmc_line_ok : forall s target thr line t, valid_sys s -> noa s = nob s ->
  (2 <= length line)%nat -> is_det s (det_of line) ->
  exists t', qmc_line s target thr line t = Some t' /\
     forall a b c i j k, t' a b c i j k = true <-> t a b c i j k = true \/ hitl s target thr line a b c i j k.
Proof.
  intros s target thr line t V CS L DD. destruct line as [|h [|pop D]]; try (cbn in L; lia).
  unfold hitl. change (walkers (h :: pop :: D)) with pop. change (det_of (h :: pop :: D)) with D in *.
  cbn [qmc_line]. destruct (Z.abs pop <? thr) eqn:EP.
  { exists t. split; [reflexivity|]. intros. split; [tauto|]. intros [? | [? _]]; [assumption|]. lia. }
  pose proof (desc s D V CS DD) as DE. pose proof V as (Vab & Va & _).
  assert (Vb : (nob s <= norb s)%nat) by lia.
  pose proof (occ_perm s D CS) as PO. pose proof (un_perm s D CS) as PU.
  set (fr := isort (setdiff (HFq s) D)) in *. set (to := isort (setdiff D (HFq s))) in *.
  assert (Lf : length fr = length (eocc s D)) by (rewrite <- (Permutation_length PO), map_length; reflexivity).
  assert (Lt : length to = length (eun s D)).
  { rewrite <- (map_length (fun x => x + Z.of_nat (noa s)) (eun s D)), <- (Permutation_length PU), map_length. reflexivity. }
  assert (Luo : length (eun s D) = length (eocc s D)).
  { destruct DE as (pa & pb & ha & hb & Ee & La & Lh & Lb & _). injection Ee as -> ->. rewrite !app_length. lia. }
  destruct (Nat.eqb_spec (length fr) 3) as [E3 | E3]; cbn [negb].
  2: { exists t. split; [reflexivity|]. intros. split; [tauto|].
       intros [? | [_ (na & e & D1 & P1 & P2 & _)]]; [assumption|]. exfalso.
       destruct (describes_unique s D _ _ _ _ Va Vb D1 DE) as [-> ->]. cbn [snd] in P2.
       apply Permutation_length in P2. cbn in P2. lia. }
  assert (Et : length to = 3%nat) by lia. rewrite Et. cbn [Nat.eqb negb].
  assert (WO : forall po, Permutation po (map ceil2 fr) -> within 1 (Z.of_nat (noa s)) po).
  { intros po P x Hx. apply (eocc_within s D V CS DD). rewrite <- PO, <- P. assumption. }
  assert (WU : forall pu, Permutation pu (map ceil2 to) -> within (Z.of_nat (noa s) + 1) (Z.of_nat (norb s)) pu).
  { intros pu P x Hx. apply (Permutation_in x (Permutation_trans P PU)) in Hx. apply in_map_iff in Hx.
    destruct Hx as [y [<- Hy]]. apply (eun_within s D V CS DD) in Hy. unfold nub in Hy. lia. }
  destruct (foldo_hits
    (fun pu t' => foldo (fun po t'' => mark s target pu po t'') (perms3 (map ceil2 fr)) t')
    (fun pu a b c i j k => exists po, In po (perms3 (map ceil2 fr)) /\ hit1 s target pu po a b c i j k)
    (perms3 (map ceil2 to))) with (t := t) as [t' [E1 H1]].
  { intros pu Hpu t0. apply perms_In_len in Hpu. destruct Hpu as [Lpu Ppu].
    apply (foldo_hits (fun po t'' => mark s target pu po t'') (fun po => hit1 s target pu po)).
    intros po Hpo t1. apply perms_In_len in Hpo. destruct Hpo as [Lpo Ppo].
    apply mark_ok; auto. }
  exists t'. split; [exact E1|]. intros a b c i j k. rewrite H1. apply or_iff_compat_l. split.
  - intros (pu & Hpu & po & Hpo & -> & -> & W). apply perms_In_len in Hpu. apply perms_In_len in Hpo.
    destruct Hpu as [_ Ppu]. destruct Hpo as [_ Ppo]. split; [lia|].
    exists (ena s D), (eun s D, eocc s D). split; [exact DE|]. cbn [fst snd].
    rewrite PU in Ppu. rewrite PO in Ppo. split; [|split; [assumption|]].
    + apply (Permutation_map (fun x => x - Z.of_nat (noa s))) in Ppu. rewrite !map_map in Ppu.
      rewrite (map_ext (fun x => x + Z.of_nat (noa s) - Z.of_nat (noa s)) (fun x => x)) in Ppu by (intro; lia).
      rewrite (map_ext (fun x => x + Z.of_nat (noa s) - Z.of_nat (noa s)) (fun x => x)) in Ppu by (intro; lia).
      now rewrite !map_id in Ppu.
    + rewrite (irrep_absolute s D CS) in W by assumption. assumption.
  - intros [_ (na & e & D1 & P1 & P2 & W)].
    destruct (describes_unique s D _ _ _ _ Va Vb D1 DE) as [-> ->]. cbn [fst snd] in P1, P2.
    exists (map (fun x => x + Z.of_nat (noa s)) (znat3 (S a) (S b) (S c))). split.
    { apply perms_of_perm; [now rewrite map_length|]. rewrite PU. now apply Permutation_map. }
    exists (znat3 (S i) (S j) (S k)). split.
    { apply perms_of_perm; [now rewrite map_length|]. now rewrite PO. }
    split; [reflexivity|]. split; [reflexivity|].
    rewrite (irrep_absolute s D CS); [assumption|assumption|]. now apply Permutation_map.
Qed.

(** Extraction. *)
Lemma allidx_In : forall lo hi x, In x (allidx lo hi) <-> (lo <= x < hi)%nat.
Proof. intros. unfold allidx. rewrite in_seq. lia. Qed.
Lemma pick_In : forall t a b c i j k x, In x (pick t a b c i j k) <-> t a b c i j k = true /\ x = ent a b c i j k.
Proof.
  intros. unfold pick. destruct (t a b c i j k); cbn; split; try tauto.
  - intros [<- | []]. tauto.
  - intros [_ ->]. tauto.
  - intros [H _]. discriminate.
Qed.
Lemma aaa_In : forall nu no t a b c i j k, In (ent a b c i j k) (extract_aaa nu no t) <->
  (a < b < c /\ c < nu /\ i < j < k /\ k < no /\ t a b c i j k = true)%nat.
Proof.
  intros. unfold extract_aaa. split.
  - intro H. repeat (apply in_flat_map in H; destruct H as [? [? H]]).
    apply pick_In in H. destruct H as [Ht He]. unfold ent in He. injection He as -> -> -> -> -> ->.
    rewrite !allidx_In in *. repeat split; try lia; assumption.
  - intros (? & ? & ? & ? & ?).
    apply in_flat_map; exists a; split; [apply allidx_In; lia|].
    apply in_flat_map; exists b; split; [apply allidx_In; lia|].
    apply in_flat_map; exists c; split; [apply allidx_In; lia|].
    apply in_flat_map; exists i; split; [apply allidx_In; lia|].
    apply in_flat_map; exists j; split; [apply allidx_In; lia|].
    apply in_flat_map; exists k; split; [apply allidx_In; lia|]. now apply pick_In.
Qed.
Lemma aab_In : forall nu no t a b c i j k, In (ent a b c i j k) (extract_aab nu no t) <->
  (a < b /\ b < nu /\ c < nu /\ i < j /\ j < no /\ k < no /\ t a b c i j k = true)%nat.
Proof.
  intros. unfold extract_aab. split.
  - intro H. repeat (apply in_flat_map in H; destruct H as [? [? H]]).
    apply pick_In in H. destruct H as [Ht He]. unfold ent in He. injection He as -> -> -> -> -> ->.
    rewrite !allidx_In in *. repeat split; try lia; assumption.
  - intros (? & ? & ? & ? & ? & ? & ?).
    apply in_flat_map; exists a; split; [apply allidx_In; lia|].
    apply in_flat_map; exists b; split; [apply allidx_In; lia|].
    apply in_flat_map; exists c; split; [apply allidx_In; lia|].
    apply in_flat_map; exists i; split; [apply allidx_In; lia|].
    apply in_flat_map; exists j; split; [apply allidx_In; lia|].
    apply in_flat_map; exists k; split; [apply allidx_In; lia|]. now apply pick_In.
Qed.
Lemma abb_In : forall nu no t a b c i j k, In (ent a b c i j k) (extract_abb nu no t) <->
  (a < nu /\ b < c /\ c < nu /\ i < no /\ j < k /\ k < no /\ t a b c i j k = true)%nat.
Proof.
  intros. unfold extract_abb. split.
  - intro H. repeat (apply in_flat_map in H; destruct H as [? [? H]]).
    apply pick_In in H. destruct H as [Ht He]. unfold ent in He. injection He as -> -> -> -> -> ->.
    rewrite !allidx_In in *. repeat split; try lia; assumption.
  - intros (? & ? & ? & ? & ? & ? & ?).
    apply in_flat_map; exists a; split; [apply allidx_In; lia|].
    apply in_flat_map; exists b; split; [apply allidx_In; lia|].
    apply in_flat_map; exists c; split; [apply allidx_In; lia|].
    apply in_flat_map; exists i; split; [apply allidx_In; lia|].
    apply in_flat_map; exists j; split; [apply allidx_In; lia|].
    apply in_flat_map; exists k; split; [apply allidx_In; lia|]. now apply pick_In.
Qed.

Lemma covered_iff : forall s target thr file a b c i j k,
  (exists line, In line file /\ hitl s target thr line a b c i j k) <->
  covered s target thr file (S a) (S b) (S c) (S i) (S j) (S k).
Proof.
  intros. unfold hitl, covered. split.
  - intros (l & H & P & na & e & R). exists l, na, e. tauto.
  - intros (l & na & e & H & P & R). exists l. split; [assumption|]. split; [assumption|]. exists na, e. assumption.
Qed.
Lemma covered_range : forall s target thr file a b c i j k, valid_sys s -> noa s = nob s ->
  covered s target thr file a b c i j k ->
  (1 <= a <= nua s /\ 1 <= b <= nua s /\ 1 <= c <= nua s /\ 1 <= i <= noa s /\ 1 <= j <= noa s /\ 1 <= k <= noa s)%nat.
Proof.
  intros s target thr file a b c i j k V CS (l & na & e & H & P & De & P1 & P2 & W).
  destruct De as (pa & pb & ha & hb & -> & La & Lh & Lb & S1 & S2 & S3 & S4 & W1 & W2 & W3 & W4 & A & B).
  cbn [fst snd] in *.
  assert (U : forall x, In (Z.of_nat x) (pa ++ pb) -> (1 <= x <= nua s)%nat).
  { intros x Hx. apply in_app_iff in Hx. destruct Hx as [Hx | Hx]; [apply W1 in Hx|apply W2 in Hx];
      unfold nua, nub in *; lia. }
  assert (O : forall x, In (Z.of_nat x) (ha ++ hb) -> (1 <= x <= noa s)%nat).
  { intros x Hx. apply in_app_iff in Hx. destruct Hx as [Hx | Hx]; [apply W3 in Hx|apply W4 in Hx]; lia. }
  repeat split; try (apply U; eapply Permutation_in; [exact P1|cbn; tauto]);
    try (apply O; eapply Permutation_in; [exact P2|cbn; tauto]).
Qed.
