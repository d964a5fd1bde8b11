(** Lemmas for C04 and C05. *)
From Coq Require Import List Arith NArith Bool Lia Permutation.
From Verif Require Import Base SymmetryModel SymmetrySpec.
Import ListNotations.

Lemma NoDup_app_intro : forall X (l l' : list X), NoDup l -> NoDup l' ->
  (forall x, In x l -> ~ In x l') -> NoDup (l ++ l').
Proof.
  induction 1; intros H' D; cbn; [assumption|]. constructor.
  - rewrite in_app_iff. intros [K|K]; [contradiction|]. apply (D x); [now left|assumption].
  - apply IHNoDup; [assumption|]. intros; apply D; now right.
Qed.
Lemma NoDup_flat_map : forall X Y (f : X -> list Y) l,
  NoDup l -> (forall a, In a l -> NoDup (f a)) ->
  (forall a b z, In a l -> In b l -> In z (f a) -> In z (f b) -> a = b) ->
  NoDup (flat_map f l).
Proof.
  induction 1; intros H1 H2; cbn; [constructor|]. apply NoDup_app_intro.
  - apply H1. now left.
  - apply IHNoDup; [intros; apply H1; now right|]. intros; eapply H2; eauto; now right.
  - intros z Hz K. apply in_flat_map in K as (b & Hb & Hy).
    assert (x = b) by (eapply (H2 x b z); [now left|now right|assumption|assumption]). now subst.
Qed.
Lemma NoDup_map_inj : forall X Y (f : X -> Y) l,
  (forall a b, In a l -> In b l -> f a = f b -> a = b) -> NoDup l -> NoDup (map f l).
Proof.
  intros X Y f l Hinj H. induction H; cbn; constructor.
  - intro K. apply in_map_iff in K as (y & E & Hy). assert (y = x) by (apply Hinj; [now right|now left|assumption]).
    now subst.
  - apply IHNoDup. intros; apply Hinj; auto; now right.
Qed.

(** ** Increasing tuples *)
Fixpoint incs (lo hi k : nat) : list (list nat) :=
  match k with
  | O => [[]]
  | S k' => flat_map (fun i => map (cons i) (incs (i + 1) hi k')) (range lo hi)
  end.

Lemma in_range : forall lo hi x, In x (range lo hi) <-> lo <= x < hi.
Proof. intros. unfold range. rewrite in_seq. lia. Qed.

Lemma incs_spec : forall k lo hi l, In l (incs lo hi k) <-> orbital_set lo hi k l.
Proof.
  induction k; intros lo hi l; cbn [incs].
  - split.
    + intros [<-|[]]. split; [reflexivity|]. split; [exact I|]. intros x [].
    + intros (H & _). destruct l; [now left|discriminate].
  - rewrite in_flat_map. split.
    + intros (i & Hi & H). apply in_range in Hi. apply in_map_iff in H as (l' & <- & H).
      apply IHk in H as (H1 & H2 & H3). split; [cbn; lia|]. split.
      * destruct l' as [|y l']; cbn [increasing]; [exact I|]. split; [|exact H2].
        specialize (H3 y (or_introl eq_refl)). lia.
      * intros x [<-|Hx]; [lia|]. specialize (H3 x Hx). lia.
    + intros (H1 & H2 & H3). destruct l as [|i l]; [discriminate|]. exists i.
      split; [apply in_range; apply H3; now left|]. apply in_map, IHk. split; [cbn in H1; lia|].
      assert (Hinc : increasing l) by (destruct l; [exact I|apply H2]). split; [exact Hinc|].
      assert (G : forall m y, increasing (m :: y) -> forall x, In x y -> m < x).
      { clear. intros m y. revert m. induction y as [|z y IH]; intros m H x Hx; [destruct Hx|].
        cbn [increasing] in H. destruct H as [H H']. destruct Hx as [<-|Hx]; [exact H|].
        specialize (IH z H' x Hx). lia. }
      intros x Hx. specialize (H3 x (or_intror Hx)). specialize (G i l H2 x Hx). lia.
Qed.

Lemma incs_NoDup : forall k lo hi, NoDup (incs lo hi k).
Proof.
  induction k; intros; cbn [incs]; [repeat constructor; intros []|].
  apply NoDup_flat_map; [apply seq_NoDup| |].
  - intros a _. apply NoDup_map_inj; [|apply IHk]. intros; congruence.
  - intros a b z _ _ Ha Hb. apply in_map_iff in Ha as (? & <- & _). apply in_map_iff in Hb as (? & E & _). congruence.
Qed.

Lemma range_cons : forall lo hi, lo < hi -> range lo hi = lo :: range (lo + 1) hi.
Proof.
  intros. unfold range. replace (hi - lo) with (S (hi - (lo + 1))) by lia. cbn. now rewrite Nat.add_1_r.
Qed.
Lemma incs_length : forall k lo hi, length (incs lo hi k) = binomial (hi - lo) k.
Proof.
  induction k; intros lo hi; [destruct (hi - lo); reflexivity|]. cbn [incs].
  remember (hi - lo) as d eqn:Ed. revert lo Ed. induction d; intros lo Ed.
  - unfold range. rewrite <- Ed. reflexivity.
  - rewrite range_cons by lia. cbn [flat_map binomial]. rewrite app_length, map_length, IHk, (IHd (lo + 1)) by lia.
    f_equal. f_equal. lia.
Qed.

(** ** All excitations of a class, in the order of the loops *)
Definition excs (s : symsys) (c : class) : list excit :=
  flat_map (fun x => flat_map (fun y => flat_map (fun u => flat_map (fun v => [mkExcit x u y v])
    (incs (nob s) (norb s) (npb c))) (incs (noa s) (norb s) (npa c)))
    (incs 0 (nob s) (nhb c))) (incs 0 (noa s) (nha c)).

Lemma excs_spec : forall s c e, In e (excs s c) <-> is_excitation (noa s) (nob s) (norb s) c e.
Proof.
  intros s c e. unfold excs, is_excitation. rewrite <- !incs_spec. split.
  - intro H. apply in_flat_map in H as (x & Hx & H). apply in_flat_map in H as (y & Hy & H).
    apply in_flat_map in H as (u & Hu & H). apply in_flat_map in H as (v & Hv & H).
    destruct H as [<-|[]]. cbn. auto.
  - intros (H1 & H2 & H3 & H4). destruct e as [x u y v]; cbn in *.
    apply in_flat_map. exists x. split; [assumption|]. apply in_flat_map. exists y. split; [assumption|].
    apply in_flat_map. exists u. split; [assumption|]. apply in_flat_map. exists v. split; [assumption|now left].
Qed.

Lemma excs_NoDup : forall s c, NoDup (excs s c).
Proof.
  intros. unfold excs.
  apply NoDup_flat_map; [apply incs_NoDup| |].
  - intros x _. apply NoDup_flat_map; [apply incs_NoDup| |].
    + intros y _. apply NoDup_flat_map; [apply incs_NoDup| |].
      * intros u _. apply NoDup_flat_map; [apply incs_NoDup| |].
        -- intros; repeat constructor; intros [].
        -- intros a b z _ _ [<-|[]] [E|[]]. congruence.
      * intros a b z _ _ Ha Hb. apply in_flat_map in Ha as (? & _ & [<-|[]]). apply in_flat_map in Hb as (? & _ & [E|[]]). congruence.
    + intros a b z _ _ Ha Hb. apply in_flat_map in Ha as (? & _ & Ha). apply in_flat_map in Ha as (? & _ & [<-|[]]).
      apply in_flat_map in Hb as (? & _ & Hb). apply in_flat_map in Hb as (? & _ & [E|[]]). congruence.
  - intros a b z _ _ Ha Hb. apply in_flat_map in Ha as (? & _ & Ha). apply in_flat_map in Ha as (? & _ & Ha).
    apply in_flat_map in Ha as (? & _ & [<-|[]]). apply in_flat_map in Hb as (? & _ & Hb).
    apply in_flat_map in Hb as (? & _ & Hb). apply in_flat_map in Hb as (? & _ & [E|[]]). congruence.
Qed.

Lemma flat_map_const_length : forall X Y (f : X -> list Y) n l, (forall x, length (f x) = n) ->
  length (flat_map f l) = length l * n.
Proof. induction l; intro H; cbn; [reflexivity|]. rewrite app_length, H, IHl by assumption. lia. Qed.

Lemma excs_length : forall s c, length (excs s c) = class_size (noa s) (nob s) (norb s) c.
Proof.
  intros. unfold excs, class_size.
  rewrite (flat_map_const_length _ _ _ (binomial (nob s) (nhb c) * (binomial (norb s - noa s) (npa c) * (binomial (norb s - nob s) (npb c) * 1)))).
  { rewrite incs_length, Nat.sub_0_r. lia. }
  intro x. rewrite (flat_map_const_length _ _ _ (binomial (norb s - noa s) (npa c) * (binomial (norb s - nob s) (npb c) * 1))).
  { now rewrite incs_length, Nat.sub_0_r. }
  intro y. rewrite (flat_map_const_length _ _ _ (binomial (norb s - nob s) (npb c) * 1)).
  { now rewrite incs_length. }
  intro u. rewrite (flat_map_const_length _ _ _ 1); [now rewrite incs_length|reflexivity].
Qed.

(** ** Loops as folds *)
Fixpoint foldM {X S} (f : X -> S -> option S) (l : list X) (st : S) : option S :=
  match l with [] => Some st | x :: r => match f x st with None => None | Some st' => foldM f r st' end end.

Lemma foldM_app : forall X S (f : X -> S -> option S) l l' st,
  foldM f (l ++ l') st = match foldM f l st with None => None | Some st' => foldM f l' st' end.
Proof. induction l; intros; cbn; [reflexivity|]. destruct (f a st); [apply IHl|reflexivity]. Qed.

Lemma foldM_flat_map : forall X S (f : X -> S -> option S) (g : nat -> list X) xs st,
  foldM f (flat_map g xs) st = loop xs (fun x => foldM f (g x)) st.
Proof.
  induction xs; intro st; cbn; [reflexivity|]. rewrite foldM_app. destruct (foldM f (g a) st); [apply IHxs|reflexivity].
Qed.
Lemma loop_ext : forall S xs (b1 b2 : nat -> S -> option S) st,
  (forall x st, In x xs -> b1 x st = b2 x st) -> loop xs b1 st = loop xs b2 st.
Proof.
  induction xs; intros b1 b2 st H; cbn; [reflexivity|]. rewrite H by now left.
  destruct (b2 a st); [apply IHxs; intros; apply H; now right|reflexivity].
Qed.
Lemma flat_map_flat_map : forall X Y Z (f : Y -> list Z) (g : X -> list Y) l,
  flat_map f (flat_map g l) = flat_map (fun x => flat_map f (g x)) l.
Proof. induction l; cbn; [reflexivity|]. now rewrite flat_map_app, IHl. Qed.
Lemma flat_map_map : forall X Y Z (f : Y -> list Z) (g : X -> Y) l,
  flat_map f (map g l) = flat_map (fun x => f (g x)) l.
Proof. induction l; cbn; [reflexivity|]. now rewrite IHl. Qed.

Lemma foldM_incs : forall X S (f : X -> S -> option S) (g : list nat -> list X) lo hi k st,
  foldM f (flat_map g (incs lo hi (Datatypes.S k))) st =
  loop (range lo hi) (fun i => foldM f (flat_map (fun l => g (i :: l)) (incs (i + 1) hi k))) st.
Proof.
  intros. cbn [incs]. rewrite flat_map_flat_map, foldM_flat_map. apply loop_ext. intros x st' _.
  now rewrite flat_map_map.
Qed.
Lemma foldM_incs0 : forall X S (f : X -> S -> option S) (g : list nat -> list X) lo hi st,
  foldM f (flat_map g (incs lo hi 0)) st = foldM f (g []) st.
Proof. intros. cbn [incs flat_map]. now rewrite app_nil_r. Qed.

(** ** Counting *)
Lemma bump_nat_spec : forall i l, i < length l ->
  exists l', bump_nat i l = Some l' /\ length l' = length l /\
    forall j, nth j l' 0 = (if j =? i then 1 else 0) + nth j l 0.
Proof.
  induction i; intros [|c l] H; cbn in H; try lia; cbn [bump_nat].
  - eexists. split; [reflexivity|]. split; [reflexivity|]. intros [|j]; reflexivity.
  - destruct (IHi l) as (l' & -> & L & N); [lia|]. eexists. split; [reflexivity|]. split; [cbn; lia|].
    intros [|j]; [reflexivity|]. cbn. apply N.
Qed.

Lemma foldM_bump : forall X (sy : X -> N) (L : list X) l,
  (forall e, In e L -> N.to_nat (sy e) < length l) ->
  exists l', foldM (fun e => bump (sy e)) L l = Some l' /\ length l' = length l /\
    forall j, nth j l' 0 = length (filter (fun e => N.eqb (sy e) (N.of_nat j)) L) + nth j l 0.
Proof.
  induction L as [|e L IH]; intros l H; cbn [foldM].
  - exists l. repeat split; reflexivity.
  - destruct (bump_nat_spec (N.to_nat (sy e)) l) as (l1 & E & L1 & N1); [apply H; now left|].
    unfold bump at 1. rewrite E. destruct (IH l1) as (l2 & E2 & L2 & N2).
    { intros; rewrite L1; apply H; now right. }
    exists l2. split; [exact E2|]. split; [lia|]. intro j. rewrite N2, N1. cbn [filter].
    destruct (N.eqb_spec (sy e) (N.of_nat j)) as [K|K]; destruct (Nat.eqb_spec j (N.to_nat (sy e))); cbn [length]; lia.
Qed.

Lemma sum_nth : forall l, list_sum l = list_sum (map (fun j => nth j l 0) (seq 0 (length l))).
Proof. intro l. now rewrite map_nth_seq. Qed.

Lemma list_sum_cons : forall a l, list_sum (a :: l) = a + list_sum l.
Proof. reflexivity. Qed.
Lemma list_sum_map_add : forall X (f g : X -> nat) l,
  list_sum (map (fun x => f x + g x) l) = list_sum (map f l) + list_sum (map g l).
Proof. induction l; [reflexivity|]. cbn [map]. rewrite !list_sum_cons, IHl. lia. Qed.
Lemma list_sum_single : forall n k v, k < n -> forall lo,
  list_sum (map (fun j => if j =? lo + k then v else 0) (seq lo n)) = v.
Proof.
  induction n; intros k v H lo; [lia|]. cbn [seq map]. rewrite list_sum_cons.
  destruct k.
  - rewrite Nat.add_0_r, Nat.eqb_refl.
    assert (E : list_sum (map (fun j => if j =? lo then v else 0) (seq (S lo) n)) = 0); [|lia].
    assert (G : forall m, lo < m -> list_sum (map (fun j => if j =? lo then v else 0) (seq m n)) = 0).
    { clear. induction n; intros m Hm; [reflexivity|]. cbn [seq map]. rewrite list_sum_cons, IHn by lia.
      destruct (Nat.eqb_spec m lo); lia. }
    apply G. lia.
  - destruct (Nat.eqb_spec lo (lo + S k)); [lia|].
    replace (lo + S k) with (S lo + k) by lia. apply (IHn k v ltac:(lia) (S lo)).
Qed.
Lemma filter_partition : forall X (sy : X -> N) n L, (forall e, In e L -> N.to_nat (sy e) < n) ->
  list_sum (map (fun j => length (filter (fun e => N.eqb (sy e) (N.of_nat j)) L)) (seq 0 n)) = length L.
Proof.
  induction L as [|e L IH]; intro H.
  - cbn. clear. generalize (seq 0 n). induction l; [reflexivity|]. cbn [map]. rewrite list_sum_cons. exact IHl.
  - cbn [length]. rewrite <- IH by (intros; apply H; now right).
    transitivity (list_sum (map (fun j => (if j =? 0 + N.to_nat (sy e) then 1 else 0) +
       length (filter (fun e => N.eqb (sy e) (N.of_nat j)) L)) (seq 0 n))).
    + f_equal. apply map_ext. intro j. cbn [filter Nat.add].
      destruct (N.eqb_spec (sy e) (N.of_nat j)); destruct (Nat.eqb_spec j (N.to_nat (sy e))); cbn [length]; lia.
    + rewrite list_sum_map_add, list_sum_single; [lia|]. apply H; now left.
Qed.

(** ** Irreps *)
Definition syf (s : symsys) (i : nat) : N := nth i (osym s) 0%N.
Definition code_sym (s : symsys) (e : excit) : N :=
  N.lxor (refsym s) (irrep_product (map (syf s) (ha e ++ pa e ++ hb e ++ pb e))).

Lemma irrep_app : forall l l', irrep_product (l ++ l') = N.lxor (irrep_product l) (irrep_product l').
Proof. induction l; intro l'; cbn; [reflexivity|]. now rewrite IHl, N.lxor_assoc. Qed.

Lemma irrep_perm : forall l l', Permutation l l' -> irrep_product l = irrep_product l'.
Proof.
  induction 1; cbn; [reflexivity|congruence| |congruence].
  now rewrite <- !N.lxor_assoc, (N.lxor_comm y x).
Qed.

Lemma filter_holes_product : forall (f : nat -> N) l holes, NoDup l -> NoDup holes -> incl holes l ->
  irrep_product (map f (filter (fun i => if in_dec Nat.eq_dec i holes then false else true) l)) =
  N.lxor (irrep_product (map f l)) (irrep_product (map f holes)).
Proof.
  intros f l holes Hl Hh Hi.
  assert (P : Permutation l (filter (fun i => if in_dec Nat.eq_dec i holes then false else true) l ++ holes)).
  { apply NoDup_Permutation; [assumption| |].
    - apply NoDup_app_intro; [now apply NoDup_filter|assumption|].
      intros x Hx K. apply filter_In in Hx as [_ Hx]. destruct (in_dec Nat.eq_dec x holes); [discriminate|contradiction].
    - intro x. rewrite in_app_iff, filter_In. split.
      + intro Hx. destruct (in_dec Nat.eq_dec x holes); [now right|left; auto].
      + intros [[H _]|H]; [assumption|now apply Hi]. }
  rewrite (irrep_perm _ _ (Permutation_map f P)), map_app, irrep_app, N.lxor_assoc, N.lxor_nilpotent, N.lxor_0_r.
  reflexivity.
Qed.

Lemma increasing_NoDup : forall l, increasing l -> NoDup l.
Proof.
  assert (G : forall y m, increasing (m :: y) -> forall x, In x y -> m < x).
  { induction y as [|z y IH]; intros m H x Hx; [destruct Hx|].
    cbn [increasing] in H. destruct H as [H H']. destruct Hx as [<-|Hx]; [exact H|]. specialize (IH z H' x Hx). lia. }
  induction l as [|a l IH]; intro H; [constructor|]. constructor.
  - intro K. specialize (G l a H a K). lia.
  - apply IH. destruct l; [exact I|]. apply H.
Qed.

Lemma xor4 : forall a b c d e f, N.lxor (N.lxor a b) c = N.lxor (N.lxor a b) c ->
  N.lxor (N.lxor (N.lxor a c) d) (N.lxor (N.lxor b e) f) =
  N.lxor (N.lxor a b) (N.lxor c (N.lxor d (N.lxor e f))).
Proof.
  intros a b c d e f _. apply N.bits_inj. intro n. rewrite !N.lxor_spec.
  destruct (N.testbit a n), (N.testbit b n), (N.testbit c n), (N.testbit d n), (N.testbit e n), (N.testbit f n); reflexivity.
Qed.

Definition good (s : symsys) : Prop :=
  noa s <= norb s /\ nob s <= norb s /\ norb s <= length (osym s) /\
  (exists p, nirrep s = 2 ^ p) /\ (forall x, In x (osym s) -> N.to_nat x < nirrep s) /\
  refsym s = irrep_product (map (syf s) (seq 0 (noa s) ++ seq 0 (nob s))).

Lemma det_irrep_code : forall s c e, good s -> is_excitation (noa s) (nob s) (norb s) c e ->
  det_irrep (noa s) (nob s) (syf s) e = code_sym s e.
Proof.
  intros s c e (_ & _ & _ & _ & _ & R) ((_ & A2 & A3) & _ & (_ & B2 & B3) & _).
  unfold det_irrep, code_sym, occupied_after. rewrite R.
  rewrite !map_app, !irrep_app.
  rewrite !filter_holes_product; auto using seq_NoDup, increasing_NoDup.
  - now apply xor4.
  - intros x Hx. apply in_seq. specialize (B3 x Hx). lia.
  - intros x Hx. apply in_seq. specialize (A3 x Hx). lia.
Qed.

Lemma lxor_lt : forall p a b, (N.to_nat a < 2 ^ p)%nat -> (N.to_nat b < 2 ^ p)%nat -> (N.to_nat (N.lxor a b) < 2 ^ p)%nat.
Proof.
  intros p a b Ha Hb.
  assert (E : forall x, (N.to_nat x < 2 ^ p)%nat <-> (x < 2 ^ N.of_nat p)%N).
  { intro x. change 2%N with (N.of_nat 2). rewrite <- Nat2N.inj_pow. lia. }
  rewrite E in *. destruct (N.eq_dec (N.lxor a b) 0) as [->|K]; [lia|].
  apply N.log2_lt_pow2; [lia|].
  pose proof (N.log2_lxor a b).
  assert (L : forall x, (x < 2 ^ N.of_nat p)%N -> x = 0%N \/ (N.log2 x < N.of_nat p)%N).
  { intros x Hx. destruct (N.eq_dec x 0); [now left|right]. apply N.log2_lt_pow2; lia. }
  destruct (L a Ha) as [->|]; destruct (L b Hb) as [->|].
  - exfalso. apply K. reflexivity.
  - rewrite N.lxor_0_l in *. assumption.
  - rewrite N.lxor_0_r in *. assumption.
  - lia.
Qed.
Lemma irrep_product_lt : forall p l, (forall x, In x l -> N.to_nat x < 2 ^ p) -> N.to_nat (irrep_product l) < 2 ^ p.
Proof.
  induction l as [|x l IH]; intro H; cbn.
  - pose proof (Nat.pow_nonzero 2 p). lia.
  - apply lxor_lt; [apply H; now left|apply IH; intros; apply H; now right].
Qed.

Lemma syf_in : forall s i, good s -> i < norb s -> nth_error (osym s) i = Some (syf s i) /\ N.to_nat (syf s i) < nirrep s.
Proof.
  intros s i (_ & _ & H & _ & H2 & _) Hi. assert (K : i < length (osym s)) by lia. split.
  - unfold syf. now apply nth_error_nth'.
  - apply H2. unfold syf. now apply nth_In.
Qed.
Lemma code_sym_lt : forall s c e, good s -> is_excitation (noa s) (nob s) (norb s) c e -> N.to_nat (code_sym s e) < nirrep s.
Proof.
  intros s c e Hg He. assert (Hg' := Hg). destruct Hg' as (Ha & Hb & _ & (p & Hp) & Hlt & R).
  assert (S : forall i, i < norb s -> N.to_nat (syf s i) < 2 ^ p) by (intros; rewrite <- Hp; now apply syf_in).
  rewrite Hp. unfold code_sym. apply lxor_lt.
  - rewrite R. apply irrep_product_lt. intros x Hx. apply in_map_iff in Hx as (i & <- & Hi).
    apply S. apply in_app_iff in Hi as [Hi|Hi]; apply in_seq in Hi; lia.
  - apply irrep_product_lt. intros x Hx. apply in_map_iff in Hx as (i & <- & Hi). apply S.
    destruct He as ((_ & _ & A) & (_ & _ & B) & (_ & _ & C) & (_ & _ & D)).
    rewrite !in_app_iff in Hi. destruct Hi as [Hi|[Hi|[Hi|Hi]]]; [specialize (A i Hi)|specialize (B i Hi)|specialize (C i Hi)|specialize (D i Hi)]; lia.
Qed.

(** [nest] counts the excitations of class [c]. *)
Definition counts_class (s : symsys) (c : class) (nest : list nat -> option (list nat)) : Prop :=
  forall st, nest st = foldM (fun e => bump (code_sym s e)) (excs s c) st.
Definition counts_classes (s : symsys) (cs : list class) (nest : list nat -> option (list nat)) : Prop :=
  forall st, nest st = foldM (fun e => bump (code_sym s e)) (flat_map (excs s) cs) st.

Lemma counts_one : forall s c nest, counts_class s c nest -> counts_classes s [c] nest.
Proof. intros s c nest H st. cbn. rewrite app_nil_r. apply H. Qed.
Lemma counts_more : forall s c cs n1 n2, counts_class s c n1 -> counts_classes s cs n2 ->
  counts_classes s (c :: cs) (andthen n1 n2).
Proof.
  intros s c cs n1 n2 H1 H2 st. unfold andthen. rewrite H1. cbn [flat_map]. rewrite foldM_app.
  destruct (foldM _ (excs s c) st); [apply H2|reflexivity].
Qed.

Lemma counts_final : forall s cs nest, good s -> NoDup cs -> counts_classes s cs nest ->
  correct_counts (noa s) (nob s) (norb s) (syf s) (nirrep s) cs (finish (nest (zero_counts s))).
Proof.
  intros s cs nest Hg Hcs H. rewrite H.
  assert (Hin : forall e, In e (flat_map (excs s) cs) <-> exists c, In c cs /\ is_excitation (noa s) (nob s) (norb s) c e).
  { intro e. rewrite in_flat_map. split; intros (c & Hc & K); exists c; (split; [assumption|]); now apply excs_spec. }
  assert (Hlt : forall e, In e (flat_map (excs s) cs) -> N.to_nat (code_sym s e) < nirrep s).
  { intros e He. apply Hin in He as (c & _ & He). eapply code_sym_lt; eauto. }
  destruct (foldM_bump excit (code_sym s) (flat_map (excs s) cs) (zero_counts s)) as (l & E & L & Nn).
  { intros e He. unfold zero_counts. rewrite repeat_length. now apply Hlt. }
  unfold zero_counts in L. rewrite repeat_length in L.
  assert (Nn' : forall j, nth j l 0 = length (filter (fun e => N.eqb (code_sym s e) (N.of_nat j)) (flat_map (excs s) cs))).
  { intro j. rewrite Nn. unfold zero_counts. rewrite nth_repeat. lia. }
  rewrite E. cbn [finish]. exists l, (list_sum l). split; [reflexivity|]. split; [exact L|]. split.
  - intros g Hgl. exists (filter (fun e => N.eqb (code_sym s e) (N.of_nat g)) (flat_map (excs s) cs)).
    split; [|split; [now rewrite Nn'|]].
    + apply NoDup_filter. apply NoDup_flat_map; [assumption|intros; apply excs_NoDup|].
      intros c c' z _ _ Hz Hz'. apply excs_spec in Hz, Hz'.
      destruct Hz as ((A1 & _) & (A2 & _) & (A3 & _) & (A4 & _)). destruct Hz' as ((B1 & _) & (B2 & _) & (B3 & _) & (B4 & _)).
      destruct c, c'; cbn in *; congruence.
    + intro e. rewrite filter_In, Hin, N.eqb_eq. split.
      * intros [(c & Hc & He) K]. split; [eauto|]. now rewrite (det_irrep_code s c e Hg He).
      * intros [(c & Hc & He) K]. split; [eauto|]. now rewrite <- (det_irrep_code s c e Hg He).
  - rewrite sum_nth, L.
    rewrite (map_ext _ _ Nn'). rewrite filter_partition by exact Hlt.
    clear. induction cs; [reflexivity|]. cbn [flat_map map]. rewrite list_sum_cons, app_length, IHcs, excs_length. reflexivity.
Qed.

Ltac lxor_ac := apply N.bits_inj; let n := fresh "n" in intro n; rewrite ?N.lxor_spec, ?N.bits_0;
  repeat match goal with |- context [N.testbit ?x n] => destruct (N.testbit x n) end; reflexivity.

Ltac nest := 
  let st := fresh "st" in
  intro st; unfold excs; cbn [nha npa nhb npb];
  repeat (rewrite ?foldM_incs0;
    rewrite foldM_incs; apply loop_ext; let x := fresh "x" in let st := fresh "st" in let Hx := fresh "Hx" in
    intros x st Hx; apply in_range in Hx;
    unfold with_sym at 1; match goal with Hg : good ?s |- _ => rewrite (proj1 (syf_in s x Hg ltac:(lia))) end;
    cbv beta iota);
  rewrite ?foldM_incs0; cbn [foldM];
  match goal with |- bump ?a ?c = match bump ?b ?c with Some y => Some y | None => None end =>
    replace b with a; [destruct (bump a c); reflexivity|unfold code_sym; cbn [ha pa hb pb app map irrep_product]; lxor_ac] end.

Lemma good_bounds : forall s, good s -> noa s <= norb s /\ nob s <= norb s.
Proof. intros s (? & ? & _). auto. Qed.

Lemma singles_a : forall s, good s -> counts_class s (mkClass 1 1 0 0) (singles_nest s (noa s)).
Proof. intros s Hg. destruct (good_bounds s Hg). unfold singles_nest. nest. Qed.
Lemma singles_b : forall s, good s -> counts_class s (mkClass 0 0 1 1) (singles_nest s (nob s)).
Proof. intros s Hg. destruct (good_bounds s Hg). unfold singles_nest. nest. Qed.
Lemma doubles_a : forall s, good s -> counts_class s (mkClass 2 2 0 0) (doubles_same s (noa s)).
Proof. intros s Hg. destruct (good_bounds s Hg). unfold doubles_same. nest. Qed.
Lemma doubles_b : forall s, good s -> counts_class s (mkClass 0 0 2 2) (doubles_same s (nob s)).
Proof. intros s Hg. destruct (good_bounds s Hg). unfold doubles_same. nest. Qed.
Lemma doubles_m : forall s, good s -> counts_class s (mkClass 1 1 1 1) (doubles_mixed s).
Proof. intros s Hg. destruct (good_bounds s Hg). unfold doubles_mixed. nest. Qed.
Lemma triples_a : forall s, good s -> counts_class s (mkClass 3 3 0 0) (triples_same s (noa s)).
Proof. intros s Hg. destruct (good_bounds s Hg). unfold triples_same. nest. Qed.
Lemma triples_b : forall s, good s -> counts_class s (mkClass 0 0 3 3) (triples_same s (nob s)).
Proof. intros s Hg. destruct (good_bounds s Hg). unfold triples_same. nest. Qed.
Lemma triples_ab : forall s, good s -> counts_class s (mkClass 2 2 1 1) (triples_aab s).
Proof. intros s Hg. destruct (good_bounds s Hg). unfold triples_aab. nest. Qed.
Lemma triples_bb : forall s, good s -> counts_class s (mkClass 1 1 2 2) (triples_abb s).
Proof. intros s Hg. destruct (good_bounds s Hg). unfold triples_abb. nest. Qed.
Lemma c1p : forall s, good s -> counts_class s (mkClass 0 1 0 0) (nest_1p s).
Proof. intros s Hg. destruct (good_bounds s Hg). unfold nest_1p. nest. Qed.
Lemma c2p1h_a : forall s, good s -> counts_class s (mkClass 1 2 0 0) (nest_2p1h_a s).
Proof. intros s Hg. destruct (good_bounds s Hg). unfold nest_2p1h_a. nest. Qed.
Lemma c2p1h_b : forall s, good s -> counts_class s (mkClass 0 1 1 1) (nest_2p1h_b s).
Proof. intros s Hg. destruct (good_bounds s Hg). unfold nest_2p1h_b. nest. Qed.
Lemma c3p2h_a : forall s, good s -> counts_class s (mkClass 2 3 0 0) (nest_3p2h_a s).
Proof. intros s Hg. destruct (good_bounds s Hg). unfold nest_3p2h_a. nest. Qed.
Lemma c3p2h_b : forall s, good s -> counts_class s (mkClass 1 2 1 1) (nest_3p2h_b s).
Proof. intros s Hg. destruct (good_bounds s Hg). unfold nest_3p2h_b. nest. Qed.
Lemma c3p2h_c : forall s, good s -> counts_class s (mkClass 0 1 2 2) (nest_3p2h_c s).
Proof. intros s Hg. destruct (good_bounds s Hg). unfold nest_3p2h_c. nest. Qed.
