From Coq Require Import List Arith Bool Lia.
From Verif Require Import Base OperatorsModel OperatorsSpec.
Import ListNotations.

Section Proofs.
Variable A : Type.
Variable zero : A.
Notation arr := (arr A). Notation attr := (attr A). Notation op := (op A). Notation active := (active A).
Notation zeros := (zeros A zero).
Arguments Arr {A}. Arguments Act {A}.
Arguments shape {A}. Arguments data {A}.
Arguments a_slices {A}. Arguments a_dims {A}. Arguments a_attrs {A}. Arguments a_ndim {A}.

Lemma prod_volume : forall d, prod d = volume d.
Proof. induction d; cbn; [reflexivity|]. now rewrite <- IHd. Qed.

Lemma upd_same : forall K V eq (d : dict K V) k v, upd eq d k v k = Some v.
Proof. intros. unfold upd. destruct (eq k k); congruence. Qed.
Lemma upd_other : forall K V eq (d : dict K V) k v x, x <> k -> upd eq d k v x = d x.
Proof. intros. unfold upd. destruct (eq x k); congruence. Qed.

Definition wf (x : arr) := length (data x) = prod (shape x).

Lemma wf_zeros : forall d, wf (zeros d).
Proof. intro. unfold wf. cbn. apply repeat_length. Qed.

Lemma slice_of_length : forall v lo n, lo + n <= length v -> length (slice_of A v lo (n + lo)) = n.
Proof. intros. unfold slice_of. rewrite firstn_length, skipn_length. lia. Qed.

Lemma slice_of_skip : forall v lo n, lo + n <= length v ->
  skipn lo v = slice_of A v lo (n + lo) ++ skipn (lo + n) v.
Proof.
  intros. unfold slice_of. replace (n + lo - lo) with n by lia.
  rewrite <- (firstn_skipn n (skipn lo v)) at 1. f_equal. apply skipn_skipn.
Qed.

(** ** gather *)
Lemma gather_ext : forall K V (f : V -> option (list A)) (d d' : dict K V) keys,
  (forall k, In k keys -> d k = d' k) -> gather A f d keys = gather A f d' keys.
Proof.
  induction keys as [|k r IH]; intro H; cbn; [reflexivity|].
  rewrite (H k (or_introl eq_refl)). rewrite IH; [reflexivity|]. intros; apply H; now right.
Qed.

(** ** ActiveOperator *)
Definition total (dims : list (list nat)) : nat := fold_right (fun d n => prod d + n) 0 dims.

(** Slice arrays of [d] have the shapes [dims], in the order of the slice list. *)
Definition fits (d : dict slice arr) (p : list nat * slice) : Prop :=
  exists x, d (snd p) = Some x /\ shape x = fst p /\ wf x.

Lemma gather_fits_length : forall z d, (forall p, In p z -> fits d p) ->
  exists v, gather A (fun x : arr => Some (data x)) d (map snd z) = Some v /\ length v = total (map fst z).
Proof.
  induction z as [|p z IH]; intros d H; cbn.
  - exists []. split; reflexivity.
  - destruct (H p (or_introl eq_refl)) as (x & E & S & W). rewrite E.
    destruct (IH d) as (v & Ev & Lv); [intros; apply H; now right|].
    rewrite Ev. eexists. split; [reflexivity|]. rewrite app_length, Lv, W, S. reflexivity.
Qed.

Lemma unflatten_active_loop_spec : forall z flat prev d,
  NoDup (map snd z) -> prev + total (map fst z) = length flat ->
  exists d', unflatten_active_loop A z flat prev d = Some d' /\
    (forall n, ~ In n (map snd z) -> d' n = d n) /\
    (forall p, In p z -> fits d' p) /\
    gather A (fun x : arr => Some (data x)) d' (map snd z) = Some (skipn prev flat).
Proof.
  induction z as [|[dims nm] z IH]; intros flat prev d HN HL; cbn [map snd fst] in *.
  - exists d. cbn. repeat split; auto; [intros p []|].
    cbn in HL. replace prev with (length flat) by lia. now rewrite skipn_all.
  - cbn [total fold_right] in HL. fold (total (map fst z)) in HL.
    inversion HN; subst.
    cbn [unflatten_active_loop]. unfold reshape. rewrite slice_of_length by lia. rewrite Nat.eqb_refl.
    set (x := mkArr A dims (slice_of A flat prev (prod dims + prev))).
    destruct (IH flat (prev + prod dims) (upd slice_eq_dec d nm x)) as (d' & E & O & F & G);
      [assumption|lia|].
    exists d'. split; [assumption|]. 
    assert (Enm : d' nm = Some x) by (rewrite O by assumption; apply upd_same).
    split; [|split].
    + intros n Hn. rewrite O by (intro; apply Hn; now right). apply upd_other. intro; subst; apply Hn; now left.
    + intros p [<-|Hp]; [|now apply F]. exists x. cbn. split; [assumption|]. split; [reflexivity|].
      unfold wf. cbn. now rewrite slice_of_length by lia.
    + cbn. rewrite Enm, G. cbn. f_equal. symmetry. apply slice_of_skip. lia.
Qed.

(** Well-formed ActiveOperator. *)
Definition wf_active (a : active) : Prop :=
  NoDup (a_slices a) /\ a_slices a <> [] /\ length (a_dims a) = length (a_slices a) /\
  a_ndim a = total (a_dims a) /\
  forall p, In p (combine (a_dims a) (a_slices a)) -> fits (a_attrs a) p.

Lemma combine_fst : forall X Y (l : list X) (l' : list Y), length l = length l' -> map fst (combine l l') = l.
Proof. induction l; intros [|y l'] H; cbn in *; try lia; [reflexivity|]. f_equal. apply IHl. lia. Qed.
Lemma combine_snd : forall X Y (l : list X) (l' : list Y), length l = length l' -> map snd (combine l l') = l'.
Proof. induction l; intros [|y l'] H; cbn in *; try lia; [reflexivity|]. f_equal. apply IHl. lia. Qed.

Lemma wf_active_flatten : forall a, wf_active a ->
  exists v, flatten_active A a = Some v /\ length v = a_ndim a.
Proof.
  intros a (H1 & H2 & H3 & H4 & H5).
  destruct (gather_fits_length _ _ H5) as (v & E & L).
  rewrite combine_snd in E by assumption. rewrite combine_fst in L by assumption.
  exists v. split; [|congruence]. unfold flatten_active, hstack.
  destruct (a_slices a); [congruence|assumption].
Qed.

Lemma wf_active_unflatten : forall a v, wf_active a -> length v = a_ndim a ->
  exists a', unflatten_active A a v = Some a' /\ wf_active a' /\
    a_slices a' = a_slices a /\ a_dims a' = a_dims a /\ a_ndim a' = a_ndim a /\
    flatten_active A a' = Some v.
Proof.
  intros a v (H1 & H2 & H3 & H4 & H5) L.
  destruct (unflatten_active_loop_spec (combine (a_dims a) (a_slices a)) v 0 (a_attrs a)) as (d' & E & O & F & G).
  - now rewrite combine_snd.
  - rewrite combine_fst by assumption. cbn. congruence.
  - unfold unflatten_active. rewrite E. eexists. split; [reflexivity|]. cbn.
    rewrite combine_snd in G by assumption. cbn in G.
    split; [|repeat split].
    + repeat split; cbn; auto.
    + unfold flatten_active, hstack. cbn. destruct (a_slices a); [congruence|assumption].
Qed.

(** ** Attributes *)
Definition ok_attr (dims : list nat) (x : attr) : Prop :=
  match x with
  | Arr y => shape y = dims /\ wf y
  | Act a => wf_active a
  end.
Definition attr_size (x : attr) : nat :=
  match x with Arr y => prod (shape y) | Act a => a_ndim a end.

(** Same structure. *)
Definition like (x y : attr) : Prop :=
  match x, y with
  | Arr u, Arr v => shape u = shape v
  | Act a, Act b => a_slices a = a_slices b /\ a_dims a = a_dims b /\ a_ndim a = a_ndim b
  | _, _ => False
  end.

Lemma like_size : forall x y, like x y -> attr_size x = attr_size y.
Proof. intros [u|a] [v|b]; cbn; intros H; try contradiction; [congruence|tauto]. Qed.

Lemma ok_flatten : forall dims x, ok_attr dims x ->
  exists v, flatten_attr A x = Some v /\ length v = attr_size x.
Proof.
  intros dims [y|a] H; cbn in *.
  - exists (data y). split; [reflexivity|]. apply H.
  - now apply wf_active_flatten.
Qed.

Definition attrs_total (d : dict name attr) (names : list name) : nat :=
  fold_right (fun n t => (match d n with Some x => attr_size x | None => 0 end) + t) 0 names.

Definition ok_pair (d : dict name attr) (p : list nat * name) : Prop :=
  exists x, d (snd p) = Some x /\ ok_attr (fst p) x.

Lemma gather_ok_length : forall (z : list (list nat * name)) d, (forall p, In p z -> ok_pair d p) ->
  exists v, gather A (flatten_attr A) d (map snd z) = Some v /\ length v = attrs_total d (map snd z).
Proof.
  induction z as [|p z IH]; intros d H; cbn.
  - exists []; split; reflexivity.
  - destruct (H p (or_introl eq_refl)) as (x & E & O). rewrite E.
    destruct (ok_flatten _ _ O) as (v & Ev & Lv). rewrite Ev.
    destruct (IH d) as (w & Ew & Lw); [intros; apply H; now right|]. rewrite Ew.
    eexists; split; [reflexivity|]. rewrite app_length. unfold attrs_total in Lw. lia.
Qed.

Lemma unflatten_loop_spec : forall (z : list (list nat * name)) order flat prev d,
  NoDup (map snd z) -> (forall p, In p z -> length (snd p) <= order) ->
  (forall p, In p z -> ok_pair d p) ->
  prev + attrs_total d (map snd z) = length flat ->
  exists d', unflatten_loop A z order flat prev d = Some d' /\
    (forall n, ~ In n (map snd z) -> d' n = d n) /\
    (forall p, In p z -> exists x y, d (snd p) = Some x /\ d' (snd p) = Some y /\ like x y /\ ok_attr (fst p) y) /\
    gather A (flatten_attr A) d' (map snd z) = Some (skipn prev flat).
Proof.
  induction z as [|[dims nm] z IH]; intros order flat prev d HN Hord Hok HL; cbn [map snd fst] in *.
  - exists d. cbn. repeat split; auto; [intros p []|].
    cbn in HL. replace prev with (length flat) by lia. now rewrite skipn_all.
  - cbn [attrs_total fold_right] in HL. fold (attrs_total d (map snd z)) in HL.
    inversion HN as [|? ? Hnotin HN']; subst.
    destruct (Hok (dims, nm) (or_introl eq_refl)) as (x & E & O). cbn [fst snd] in *.
    rewrite E in HL.
    cbn [unflatten_loop].
    assert (Hlen := Hord (dims, nm) (or_introl eq_refl)). cbn in Hlen.
    destruct (Nat.ltb_spec order (length nm)); [lia|].
    rewrite E.
    assert (Rest : forall y, like x y -> ok_attr dims y ->
       forall chunk, flatten_attr A y = Some chunk -> 
         skipn prev flat = chunk ++ skipn (prev + attr_size x) flat ->
       exists d', unflatten_loop A z order flat (prev + attr_size x) (upd name_eq_dec d nm y) = Some d' /\
         (forall n, ~ In n (nm :: map snd z) -> d' n = d n) /\
         (forall p, In p ((dims, nm) :: z) -> exists x y, d (snd p) = Some x /\ d' (snd p) = Some y /\ like x y /\ ok_attr (fst p) y) /\
         gather A (flatten_attr A) d' (nm :: map snd z) = Some (skipn prev flat)).
    { intros y Hlike Hy chunk Hc Hskip.
      assert (Hd : forall p, In p z -> upd name_eq_dec d nm y (snd p) = d (snd p)).
      { intros p Hp. apply upd_other. intro; subst. apply Hnotin. now apply in_map. }
      destruct (IH order flat (prev + attr_size x) (upd name_eq_dec d nm y)) as (d' & E' & O' & F' & G').
      - assumption.
      - intros; apply Hord; now right.
      - intros p Hp. destruct (Hok p (or_intror Hp)) as (w & Ew & Ow). exists w. now rewrite Hd.
      - assert (attrs_total (upd name_eq_dec d nm y) (map snd z) = attrs_total d (map snd z)); [|lia].
        clear -Hnotin. induction (map snd z) as [|n l IHl]; [reflexivity|]. cbn.
        rewrite upd_other by (intro; subst; apply Hnotin; now left).
        f_equal. apply IHl. intro; apply Hnotin; now right.
      - exists d'. split; [assumption|].
        assert (Enm : d' nm = Some y) by (rewrite O' by assumption; apply upd_same).
        split; [|split].
        + intros n Hn. rewrite O' by (intro; apply Hn; now right).
          apply upd_other. intro; subst; apply Hn; now left.
        + intros p [<-|Hp].
          * cbn. exists x, y. auto.
          * destruct (F' p Hp) as (u & w & Eu & Ew & Lk & Ok). rewrite Hd in Eu by assumption. exists u, w. auto.
        + cbn. rewrite Enm, Hc, G'. f_equal. now symmetry. }
    destruct x as [u|a].
    + cbn [ok_attr attr_size] in *. destruct O as [Hs Hw]. rewrite Hs in *.
      unfold reshape. rewrite slice_of_length by lia. rewrite Nat.eqb_refl.
      refine (Rest (Arr (mkArr A dims (slice_of A flat prev (prod dims + prev)))) _ _ _ eq_refl _).
      * cbn. now rewrite Hs.
      * cbn. split; [reflexivity|]. unfold wf; cbn. now rewrite slice_of_length by lia.
      * cbn. apply slice_of_skip. lia.
    + cbn [ok_attr attr_size] in *.
      replace (slice_of A flat prev (prev + a_ndim a)) with (slice_of A flat prev (a_ndim a + prev)) by (f_equal; lia).
      destruct (wf_active_unflatten a (slice_of A flat prev (a_ndim a + prev)) O) as (a' & Ea & Wa & S1 & S2 & S3 & Fa).
      { rewrite slice_of_length; lia. }
      rewrite Ea.
      refine (Rest (Act a') _ _ _ Fa _).
      * cbn. auto.
      * exact Wa.
      * apply slice_of_skip. lia.
Qed.

(** ** Injectivity of flatten on a given layout *)
Lemma app_inj_length : forall (a b c d : list A), length a = length c -> a ++ b = c ++ d -> a = c /\ b = d.
Proof.
  induction a as [|x a IH]; intros b [|y c] d L H; cbn in *; try lia; [auto|].
  injection H as -> H. destruct (IH b c d ltac:(lia) H) as [-> ->]. auto.
Qed.

Lemma gather_fits_inj : forall (z : list (list nat * slice)) d d' v,
  (forall p, In p z -> fits d p) -> (forall p, In p z -> fits d' p) ->
  gather A (fun x : arr => Some (data x)) d (map snd z) = Some v ->
  gather A (fun x : arr => Some (data x)) d' (map snd z) = Some v ->
  forall s, In s (map snd z) -> d s = d' s.
Proof.
  induction z as [|p z IH]; intros d d' v H H' G G' s Hs; [destruct Hs|].
  cbn in G, G'.
  destruct (H p (or_introl eq_refl)) as ([sx dx] & E & S & W).
  destruct (H' p (or_introl eq_refl)) as ([sy dy] & E' & S' & W').
  rewrite E in G. rewrite E' in G'. cbn in S, S', W, W'. unfold wf in W, W'. cbn in W, W'.
  destruct (gather _ _ d _) as [u|] eqn:Gu; [|discriminate].
  destruct (gather _ _ d' _) as [u'|] eqn:Gu'; [|discriminate].
  cbn in G, G'. injection G as G. injection G' as G'.
  rewrite <- G' in G. apply app_inj_length in G as [-> ->]; [|congruence].
  destruct Hs as [<-|Hs].
  - rewrite E, E'. congruence.
  - eapply (IH d d'); eauto; intros; [apply H|apply H']; now right.
Qed.

Definition same_val (x y : attr) : Prop :=
  match x, y with
  | Arr u, Arr v => u = v
  | Act a, Act b => forall s, In s (a_slices a) -> a_attrs a s = a_attrs b s
  | _, _ => False
  end.

Lemma flatten_attr_inj : forall dims x y v, like x y -> ok_attr dims x -> ok_attr dims y ->
  flatten_attr A x = Some v -> flatten_attr A y = Some v -> same_val x y.
Proof.
  intros dims [u|a] [w|b] v L Ox Oy Fx Fy; cbn in *; try contradiction.
  - destruct u, w; cbn in *. congruence.
  - destruct L as (L1 & L2 & L3). intros s Hs.
    unfold flatten_active, hstack in *.
    destruct Ox as (X1 & X2 & X3 & X4 & X5). destruct Oy as (Y1 & Y2 & Y3 & Y4 & Y5).
    eapply (gather_fits_inj (combine (a_dims a) (a_slices a)) (a_attrs a) (a_attrs b)).
    + exact X5.
    + rewrite L1, L2. exact Y5.
    + rewrite combine_snd by assumption. destruct (a_slices a); [congruence|exact Fx].
    + rewrite combine_snd by assumption. rewrite L1. destruct (a_slices b); [congruence|exact Fy].
    + now rewrite combine_snd.
Qed.

Lemma gather_inj : forall (z : list (list nat * name)) (d d' : dict name attr) v,
  (forall p, In p z -> exists x y, d (snd p) = Some x /\ d' (snd p) = Some y /\ like x y /\ ok_attr (fst p) x /\ ok_attr (fst p) y) ->
  gather A (flatten_attr A) d (map snd z) = Some v ->
  gather A (flatten_attr A) d' (map snd z) = Some v ->
  forall n, In n (map snd z) -> exists x y, d n = Some x /\ d' n = Some y /\ same_val x y.
Proof.
  induction z as [|p z IH]; intros d d' v H G G' n Hn; [destruct Hn|].
  cbn in G, G'.
  destruct (H p (or_introl eq_refl)) as (x & y & E & E' & L & O & O').
  rewrite E in G. rewrite E' in G'.
  destruct (ok_flatten _ _ O) as (fx & Fx & Lx). destruct (ok_flatten _ _ O') as (fy & Fy & Ly).
  rewrite Fx in G. rewrite Fy in G'.
  destruct (gather A (flatten_attr A) d _) as [u|] eqn:Gu; [|discriminate].
  destruct (gather A (flatten_attr A) d' _) as [u'|] eqn:Gu'; [|discriminate].
  injection G as G. injection G' as G'. rewrite <- G' in G.
  apply app_inj_length in G as [-> ->].
  2:{ rewrite Lx, Ly. now apply like_size. }
  destruct Hn as [<-|Hn].
  - exists x, y. repeat split; auto. eapply flatten_attr_inj; eauto.
  - eapply IH; eauto. intros; apply H; now right.
Qed.

(** ** Assembled operators *)
Notation entry := (entry A).
Arguments e_name {A}. Arguments e_attr {A}. Arguments e_dims {A}. Arguments e_ndim {A}.
Arguments o_attrs {A}. Arguments o_dims {A}. Arguments o_ndim {A}. Arguments o_spin_cases {A}. Arguments o_order {A}.

Definition entry_ok (e : entry) : Prop :=
  match e_attr e with
  | Arr y => e_dims e = [shape y] /\ wf y /\ e_ndim e = prod (shape y)
  | Act a => wf_active a /\ e_dims e = a_dims a /\ e_ndim e = a_ndim a
  end.
Definition is_act (e : entry) : Prop := match e_attr e with Arr _ => False | Act _ => True end.

Fixpoint aligned (es : list entry) : Prop :=
  match es with
  | [] => True
  | e :: r => entry_ok e /\ (is_act e -> Forall is_act r) /\ aligned r
  end.

Lemma aligned_ok : forall es, aligned es -> Forall entry_ok es.
Proof. induction es; cbn; intro H; constructor; tauto. Qed.

Definition pair_ok (p : list nat * name) (e : entry) : Prop :=
  snd p = e_name e /\ ok_attr (fst p) (e_attr e).

Lemma dims_nonempty : forall (e : entry), entry_ok e -> 1 <= length (e_dims e).
Proof.
  intros e H. unfold entry_ok in H. destruct (e_attr e).
  - destruct H as (-> & _). cbn. lia.
  - destruct H as ((_ & Hn & HL & _) & -> & _). rewrite HL. destruct (a_slices a); [congruence|cbn; lia].
Qed.

Lemma dims_length : forall (es : list entry), Forall entry_ok es -> length es <= length (flat_map e_dims es).
Proof.
  induction 1; cbn; [lia|]. rewrite app_length. pose proof (dims_nonempty _ H). lia.
Qed.

Lemma pairs_act : forall (es : list entry) ds, Forall entry_ok es -> Forall is_act es -> length es <= length ds ->
  Forall2 pair_ok (combine ds (map e_name es)) es.
Proof.
  induction es as [|e es IH]; intros ds Ho Ha Hl; cbn.
  - destruct ds; constructor.
  - destruct ds as [|d ds]; [cbn in Hl; lia|]. inversion Ho; inversion Ha; subst. cbn. constructor.
    + split; [reflexivity|]. cbn. unfold entry_ok, is_act in *. destruct (e_attr e); [contradiction|]. cbn. tauto.
    + apply IH; auto. cbn in Hl. lia.
Qed.

Lemma pairs_aligned : forall es, aligned es ->
  Forall2 pair_ok (combine (flat_map e_dims es) (map e_name es)) es.
Proof.
  induction es as [|e es IH]; intro H; [constructor|].
  destruct H as (Ho & Hact & Hal).
  pose proof (aligned_ok _ Hal) as Hall.
  destruct (e_attr e) as [y|a] eqn:E.
  - assert (Ho' := Ho). unfold entry_ok in Ho. rewrite E in Ho. destruct Ho as (Hd & Hw & Hn).
    cbn. rewrite Hd. cbn. constructor; [|now apply IH].
    split; [reflexivity|]. cbn. rewrite E. cbn. auto.
  - assert (Ha : is_act e) by (unfold is_act; rewrite E; exact I).
    apply pairs_act; [now constructor|constructor; auto|].
    apply dims_length. now constructor.
Qed.

Lemma assemble_lookup : forall (es : list entry) (d : dict name attr), NoDup (map e_name es) ->
  (forall n, ~ In n (map e_name es) -> fold_left (fun (d : dict name attr) (e : entry) => upd name_eq_dec d (e_name e) (e_attr e)) es d n = d n) /\
  (forall e, In e es -> fold_left (fun (d : dict name attr) (e : entry) => upd name_eq_dec d (e_name e) (e_attr e)) es d (e_name e) = Some (e_attr e)).
Proof.
  induction es as [|e es IH]; intros d HN; cbn.
  - split; [reflexivity|intros e []].
  - inversion HN; subst. destruct (IH (upd name_eq_dec d (e_name e) (e_attr e)) H2) as [I1 I2]. split.
    + intros n Hn. rewrite I1 by tauto. apply upd_other. intro; subst; tauto.
    + intros e' [<-|He]; [|now apply I2]. rewrite I1 by assumption. apply upd_same.
Qed.

Lemma fold_ndim : forall (es : list entry) n, fold_left (fun n e => n + e_ndim e) es n = n + list_sum (map e_ndim es).
Proof.
  induction es; intro n; cbn [fold_left map]; [cbn; lia|]. rewrite IHes. change (list_sum (e_ndim a :: map e_ndim es)) with (e_ndim a + list_sum (map e_ndim es)). lia.
Qed.

Lemma entry_size : forall e, entry_ok e -> attr_size (e_attr e) = e_ndim e.
Proof. intros e H. unfold entry_ok in H. destruct (e_attr e); cbn; symmetry; tauto. Qed.

(** An operator with the layout of an assembled one has well-formed attributes. *)
Lemma same_kind_like : forall x y, same_kind A x y -> like x y.
Proof.
  intros [u|a] [v|b]; cbn; try tauto. unfold same_shape. tauto.
Qed.
Lemma same_kind_ok : forall dims x y, same_kind A x y -> ok_attr dims x -> ok_attr dims y.
Proof.
  intros dims [u|a] [v|b]; cbn; try tauto.
  - unfold same_shape, wf. intros (H1 & H2 & H3) (H4 & H5). rewrite prod_volume, <- H1. split; congruence.
  - intros (H1 & H2 & H3 & H4) (X1 & X2 & X3 & X4 & X5). unfold wf_active. rewrite <- H1, <- H2, <- H3.
    repeat split; auto. intros p Hp. destruct (X5 p Hp) as (u & Eu & Su & Wu).
    destruct (H4 (snd p)) as (u' & v & Eu' & Ev & Hs & Hl & Hr).
    { destruct p. eapply in_combine_r; eauto. }
    exists v. split; [assumption|]. rewrite Eu in Eu'. injection Eu' as <-. split; [congruence|].
    unfold wf. now rewrite prod_volume.
Qed.
Lemma like_kind : forall dims x y, like x y -> ok_attr dims x -> ok_attr dims y -> same_kind A x y.
Proof.
  intros dims [u|a] [v|b]; cbn; try tauto.
  - unfold same_shape, wf. intros. rewrite <- !prod_volume. intuition congruence.
  - intros (H1 & H2 & H3) (X1 & X2 & X3 & X4 & X5) (Y1 & Y2 & Y3 & Y4 & Y5). repeat split; auto.
    intros s Hs.
    assert (exists d, In (d, s) (combine (a_dims a) (a_slices a))) as [d Hd].
    { rewrite <- (combine_snd _ _ (a_dims a) (a_slices a) X3) in Hs. apply in_map_iff in Hs as ((d & s') & Es & Hin).
      cbn in Es. subst. now exists d. }
    destruct (X5 _ Hd) as (u & Eu & Su & Wu). rewrite H1, H2 in Hd. destruct (Y5 _ Hd) as (v & Ev & Sv & Wv).
    cbn in *. exists u, v. unfold same_shape, wf in *. repeat split; rewrite <- ?prod_volume; congruence.
Qed.

Lemma Forall2_in_l : forall X Y (R : X -> Y -> Prop) l l' x, Forall2 R l l' -> In x l -> exists y, In y l' /\ R x y.
Proof.
  induction 1 as [|a b l l' Hab H IH]; intro Hin; [destruct Hin|]. destruct Hin as [->|Hin].
  - exists b. split; [now left|assumption].
  - destruct (IH Hin) as (w & Hw & Rw). exists w. split; [now right|assumption].
Qed.

Section Assembled.
Variables (order : nat) (es : list entry).
Hypothesis Hal : aligned es.
Hypothesis HN : NoDup (map e_name es).
Hypothesis Hlen : forall e, In e es -> length (e_name e) <= order.
Hypothesis Hne : es <> [].
Hypothesis Hord : 1 <= order.
Let o0 := assemble A order es.
Let z := combine (o_dims o0) (o_spin_cases o0).

Lemma z_pairs : Forall2 pair_ok z es.
Proof. apply pairs_aligned. exact Hal. Qed.
Lemma z_names : map snd z = o_spin_cases o0.
Proof.
  change (o_spin_cases o0) with (map e_name es).
  assert (G : forall z0 es0, Forall2 pair_ok z0 es0 -> map snd z0 = map e_name es0).
  { induction 1 as [|p e l l' [H1 H2] H IH]; cbn; [reflexivity|]. now rewrite H1, IH. }
  apply G. exact z_pairs.
Qed.

Lemma o0_ok : forall p, In p z -> ok_pair (o_attrs o0) p.
Proof.
  intros p Hp. destruct (Forall2_in_l _ _ _ _ _ _ z_pairs Hp) as (e & He & En & Ok).
  exists (e_attr e). split; [|assumption]. rewrite En. cbn. now apply assemble_lookup.
Qed.

Lemma o0_total : attrs_total (o_attrs o0) (o_spin_cases o0) = o_ndim o0.
Proof.
  cbn. rewrite fold_ndim. cbn [Nat.add].
  destruct (assemble_lookup es (fun _ => None) HN) as [_ L].
  assert (G : forall l, (forall e, In e l -> In e es) ->
     attrs_total (fold_left (fun (d : dict name attr) (e : entry) => upd name_eq_dec d (e_name e) (e_attr e)) es (fun _ => None)) (map e_name l) = list_sum (map e_ndim l)).
  { induction l as [|e l IHl]; intro H; [reflexivity|].
    cbn [map attrs_total fold_right]. rewrite L by (apply H; now left).
    fold (attrs_total (fold_left (fun (d : dict name attr) (e : entry) => upd name_eq_dec d (e_name e) (e_attr e)) es (fun _ => None)) (map e_name l)).
    rewrite IHl by (intros; apply H; now right).
    rewrite entry_size; [reflexivity|]. eapply Forall_forall; [apply aligned_ok; exact Hal|]. apply H; now left. }
  now apply G.
Qed.

Lemma layout_ok : forall o, same_layout A o0 o ->
  forall p, In p z -> exists x y, o_attrs o0 (snd p) = Some x /\ o_attrs o (snd p) = Some y /\ like x y /\
     ok_attr (fst p) x /\ ok_attr (fst p) y.
Proof.
  intros o (H1 & H2 & H3 & H4 & H5) p Hp.
  destruct (o0_ok p Hp) as (x & Ex & Ox).
  destruct (H5 (snd p)) as (x' & y & Ex' & Ey & K).
  { rewrite <- z_names. now apply in_map. }
  rewrite Ex in Ex'. injection Ex' as <-. exists x, y. repeat split; auto.
  - now apply same_kind_like.
  - eapply same_kind_ok; eauto.
Qed.

Lemma attrs_total_like : forall (names : list name) (d d' : dict name attr),
  (forall n, In n names -> exists x y, d n = Some x /\ d' n = Some y /\ like x y) ->
  attrs_total d' names = attrs_total d names.
Proof.
  induction names as [|n l IHl]; intros d d' H; [reflexivity|]. cbn.
  destruct (H n (or_introl eq_refl)) as (x & y & -> & -> & L). rewrite (like_size _ _ L). f_equal.
  apply IHl. intros; apply H; now right.
Qed.

Lemma flatten_total : forall o, same_layout A o0 o ->
  exists v, flatten A o = Some v /\ length v = o_ndim o0.
Proof.
  intros o Ho.
  destruct (gather_ok_length z (o_attrs o)) as (v & Ev & Lv).
  { intros p Hp. destruct (layout_ok o Ho p Hp) as (x & y & _ & Ey & _ & _ & Oy). now exists y. }
  exists v. split.
  - unfold flatten, hstack. destruct Ho as (_ & H2 & _). rewrite <- H2, <- z_names.
    destruct (map snd z) eqn:E; [|assumption]. exfalso. rewrite z_names in E. cbn in E.
    destruct es; [now apply Hne|discriminate].
  - rewrite Lv, z_names. rewrite <- o0_total. apply attrs_total_like.
    intros n Hn. rewrite <- z_names in Hn. apply in_map_iff in Hn as (p & <- & Hp).
    destruct (layout_ok o Ho p Hp) as (x & y & ? & ? & ? & _). now exists x, y.
Qed.

Lemma unflatten_total : forall o v, same_layout A o0 o -> length v = o_ndim o0 ->
  exists o', unflatten A o v = Some o' /\ same_layout A o0 o' /\ flatten A o' = Some v.
Proof.
  intros o v Ho L.
  assert (Ho' := Ho). destruct Ho' as (H1 & H2 & H3 & H4 & H5).
  assert (Hz : combine (o_dims o) (o_spin_cases o) = z) by (unfold z; now rewrite H2, H3).
  destruct (unflatten_loop_spec z order v 0 (o_attrs o)) as (d' & E & O & F & G).
  - rewrite z_names. exact HN.
  - intros p Hp. destruct (Forall2_in_l _ _ _ _ _ _ z_pairs Hp) as (e & He & -> & _). now apply Hlen.
  - intros p Hp. destruct (layout_ok o Ho p Hp) as (x & y & _ & Ey & _ & _ & Oy). now exists y.
  - rewrite z_names. cbn [Nat.add]. rewrite L, <- o0_total. apply attrs_total_like.
    intros n Hn. rewrite <- z_names in Hn. apply in_map_iff in Hn as (p & <- & Hp).
    destruct (layout_ok o Ho p Hp) as (x & y & ? & ? & ? & _). now exists x, y.
  - unfold unflatten, unflatten_to. cbn [Nat.eqb]. rewrite Hz.
    assert (Eo : o_order o = order) by (rewrite <- H1; reflexivity). rewrite Eo. rewrite E.
    eexists. split; [reflexivity|]. split.
    + repeat split; cbn; auto. intros nm Hnm.
      change (map e_name es) with (o_spin_cases o0) in Hnm.
      rewrite <- z_names in Hnm. apply in_map_iff in Hnm as (p & <- & Hp).
      destruct (layout_ok o Ho p Hp) as (x & y & Ex & Ey & Lxy & Ox & Oy).
      destruct (F p Hp) as (y' & w & Ey' & Ew & Lyw & Ow).
      rewrite Ey in Ey'. injection Ey' as <-. exists x, w. repeat split; auto.
      apply (like_kind (fst p)); auto.
      clear -Lxy Lyw. destruct x, y, w; cbn in *; try tauto; [congruence|]. intuition congruence.
    + unfold flatten, hstack. cbn [o_spin_cases o_attrs]. rewrite <- H2, <- z_names.
      destruct (map snd z) eqn:En; [|exact G]. exfalso. rewrite z_names in En. cbn in En.
      destruct es; [now apply Hne|discriminate].
Qed.

Lemma flatten_inj : forall o o' v, same_layout A o0 o -> same_layout A o0 o' ->
  flatten A o = Some v -> flatten A o' = Some v -> same_amplitudes A o o'.
Proof.
  intros o o' v Ho Ho' F F'.
  assert (E1 : o_spin_cases o = o_spin_cases o0) by (symmetry; apply Ho).
  assert (E2 : o_spin_cases o' = o_spin_cases o0) by (symmetry; apply Ho').
  split; [congruence|].
  unfold flatten, hstack in F, F'. rewrite E1 in F. rewrite E2 in F'. rewrite <- z_names in F, F'.
  assert (Hnil : map snd z <> []).
  { rewrite z_names. cbn. destruct es; [congruence|discriminate]. }
  destruct (map snd z) eqn:En; [congruence|]. rewrite <- En in F, F'.
  intros nm Hnm. rewrite E1, <- z_names in Hnm.
  change (exists x y, o_attrs o nm = Some x /\ o_attrs o' nm = Some y /\ same_val x y).
  eapply (gather_inj z); eauto.
  intros p Hp.
  destruct (layout_ok o Ho p Hp) as (x & y & Ex & Ey & Lxy & Ox & Oy).
  destruct (layout_ok o' Ho' p Hp) as (x' & y' & Ex' & Ey' & Lxy' & Ox' & Oy').
  rewrite Ex in Ex'. injection Ex' as <-. exists y, y'. repeat split; auto.
  clear -Lxy Lxy'. destruct x, y, y'; cbn in *; try tauto; [congruence|]. intuition congruence.
Qed.

Lemma roundtrip : forall o o1, same_layout A o0 o -> same_layout A o0 o1 ->
  exists v o', flatten A o = Some v /\ length v = o_ndim o0 /\ unflatten A o1 v = Some o' /\
    same_layout A o0 o' /\ same_amplitudes A o' o.
Proof.
  intros o o1 Ho Ho1. destruct (flatten_total o Ho) as (v & F & L).
  destruct (unflatten_total o1 v Ho1 L) as (o' & U & Lo' & F').
  exists v, o'. repeat split; auto; try apply Lo'. eapply flatten_inj; eauto. eapply flatten_inj; eauto.
Qed.

Lemma o0_self : same_layout A o0 o0.
Proof.
  repeat split; auto. intros nm Hnm. rewrite <- z_names in Hnm. apply in_map_iff in Hnm as (p & <- & Hp).
  destruct (o0_ok p Hp) as (x & E & O). exists x, x. repeat split; auto.
  apply (like_kind (fst p)); auto. destruct x; cbn; auto.
Qed.
End Assembled.
End Proofs.
