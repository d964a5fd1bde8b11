(** Lemmas for C32-C34. *)
From Coq Require Import Reals List Arith Bool Lia Lra Sorted.
From Verif Require Import RSum SymmetryProofs IntegralsModel IntegralsSpec.
Import ListNotations.
Open Scope R_scope.

(** * Attribute strings *)
Lemma combs_S : forall k x r, combs (S k) (x :: r) = map (cons x) (combs k r) ++ combs (S k) r.
Proof. reflexivity. Qed.
Lemma combs_props : forall l k c, In c (combs k l) -> length c = k /\ incl c l /\ (StronglySorted lt l -> StronglySorted lt c).
Proof.
  induction l as [|x l IH]; intros [|k] c H.
  - destruct H as [<-|[]]. repeat split; [intros y []|constructor].
  - destruct H.
  - destruct H as [<-|[]]. repeat split; [intros y []|constructor].
  - rewrite combs_S in H. apply in_app_or in H. destruct H as [H|H].
    + apply in_map_iff in H. destruct H as [d [<- Hd]]. destruct (IH k d Hd) as (L & I & S). split; [cbn; congruence|]. split.
      * intros y [->|Hy]; [left; reflexivity|right; apply I; exact Hy].
      * intros HS. apply StronglySorted_inv in HS. destruct HS as [HS HF]. constructor; [auto|]. rewrite Forall_forall in *. intros y Hy. apply HF, I, Hy.
    + destruct (IH (S k) c H) as (L & I & S). split; [exact L|]. split; [intros y Hy; right; apply I; exact Hy|].
      intros HS. apply StronglySorted_inv in HS. apply S. tauto.
Qed.
Lemma combs_nodup : forall l k, NoDup l -> NoDup (combs k l).
Proof.
  induction l as [|x l IH]; intros [|k] H.
  - constructor; [intros []|constructor].
  - constructor.
  - constructor; [intros []|constructor].
  - rewrite combs_S. inversion H as [|y m Hx Hl]; subst. apply NoDup_app_intro.
    + apply NoDup_map_inj; [|apply IH; exact Hl]. intros a b _ _ E. injection E as ->. reflexivity.
    + apply IH. exact Hl.
    + intros c H1 H2. apply in_map_iff in H1. destruct H1 as [d [<- _]]. apply combs_props in H2. destruct H2 as (_ & I & _). apply Hx, I. left. reflexivity.
Qed.
Lemma combs_filter : forall f l, In (filter f l) (combs (length (filter f l)) l).
Proof.
  intros f. induction l as [|x l IH]; [left; reflexivity|]. cbn [filter]. destruct (f x).
  - cbn [length]. rewrite combs_S. apply in_or_app. left. apply in_map. exact IH.
  - destruct (filter f l) as [|y r] eqn:E; [left; reflexivity|]. cbn [length] in *. rewrite combs_S. apply in_or_app. right. exact IH.
Qed.
Lemma set_nth_length : forall A (l : list A) k x, length (set_nth l k x) = length l.
Proof. intros A. induction l as [|y l IH]; intros [|k] x; cbn; auto. Qed.
Lemma set_nth_get : forall A (l : list A) k x j d, (k < length l)%nat -> nth j (set_nth l k x) d = if (j =? k)%nat then x else nth j l d.
Proof.
  intros A. induction l as [|y l IH]; intros [|k] x [|j] d H; cbn in *; try lia; try reflexivity. apply IH. lia.
Qed.
Lemma attr_length : forall n c, length (attr_of n c) = n.
Proof.
  intros n c. unfold attr_of. rewrite <- (repeat_length Oc n) at 2. generalize (repeat Oc n). induction c as [|k c IH]; intros l; [reflexivity|].
  cbn. rewrite IH, set_nth_length. reflexivity.
Qed.
Lemma attr_get : forall n c j, (forall k, In k c -> (k < n)%nat) -> (j < n)%nat -> nth j (attr_of n c) Oc = if in_dec Nat.eq_dec j c then Un else Oc.
Proof.
  intros n c j Hc Hj. unfold attr_of.
  assert (G : forall c (l : list ov), (forall k, In k c -> (k < length l)%nat) ->
     nth j (fold_left (fun a k => set_nth a k Un) c l) Oc = if in_dec Nat.eq_dec j c then Un else nth j l Oc).
  { clear. induction c as [|k c IH]; intros l H; [reflexivity|]. cbn [fold_left]. rewrite IH; [|intros m Hm; rewrite set_nth_length; apply H; right; exact Hm].
    rewrite set_nth_get by (apply H; left; reflexivity). destruct (in_dec Nat.eq_dec j c) as [I|I], (in_dec Nat.eq_dec j (k :: c)) as [J|J].
    - reflexivity.
    - exfalso. apply J. right. exact I.
    - destruct J as [->|J]; [rewrite Nat.eqb_refl; reflexivity|contradiction].
    - destruct (Nat.eqb_spec j k) as [->|]; [|reflexivity]. exfalso. apply J. left. reflexivity. }
  rewrite G by (intros k Hk; rewrite repeat_length; apply Hc; exact Hk). destruct (in_dec Nat.eq_dec j c); [reflexivity|]. 
  clear. revert j. induction n as [|n IH]; intros [|j]; cbn; auto.
Qed.
Lemma sorted_same : forall l m, StronglySorted lt l -> StronglySorted lt m -> (forall x, In x l <-> In x m) -> l = m.
Proof.
  induction l as [|x l IH]; intros m Hl Hm H.
  - destruct m as [|y m]; [reflexivity|]. destruct (proj2 (H y) (or_introl eq_refl)).
  - destruct m as [|y m]; [destruct (proj1 (H x) (or_introl eq_refl))|]. apply StronglySorted_inv in Hl, Hm. destruct Hl as [Sl Fl], Hm as [Sm Fm]. rewrite Forall_forall in Fl, Fm.
    assert (x = y).
    { destruct (proj1 (H x) (or_introl eq_refl)) as [E|E]; [auto|]. destruct (proj2 (H y) (or_introl eq_refl)) as [E2|E2]; [auto|]. specialize (Fl _ E2). specialize (Fm _ E). lia. }
    subst y. f_equal. apply IH; auto. intros z. split; intros Hz.
    + destruct (proj1 (H z) (or_intror Hz)) as [->|]; [|assumption]. specialize (Fl _ Hz). lia.
    + destruct (proj2 (H z) (or_intror Hz)) as [->|]; [|assumption]. specialize (Fm _ Hz). lia.
Qed.
Lemma seq_sorted : forall n a, StronglySorted lt (seq a n).
Proof. induction n as [|n IH]; intros a; [constructor|]. cbn. constructor; [apply IH|]. apply Forall_forall. intros x Hx. apply in_seq in Hx. lia. Qed.
Lemma filter_sorted : forall f l, StronglySorted lt l -> StronglySorted lt (filter f l).
Proof.
  intros f. induction l as [|x l IH]; intros H; [constructor|]. apply StronglySorted_inv in H. destruct H as [S F]. cbn. destruct (f x); [|auto].
  constructor; [auto|]. rewrite Forall_forall in *. intros y Hy. apply filter_In in Hy. apply F. tauto.
Qed.
Lemma filter_le : forall (f : nat -> bool) l, (length (filter f l) <= length l)%nat.
Proof. intros f. induction l as [|x l IH]; cbn; [lia|]. destruct (f x); cbn; lia. Qed.
Definition ov_eqb (x y : ov) : bool := match x, y with Oc, Oc | Un, Un => true | _, _ => false end.
Lemma slices_in : forall n a, In a (slices n) <-> length a = n.
Proof.
  intros n a. unfold slices. rewrite in_flat_map. split.
  - intros [i [_ H]]. apply in_map_iff in H. destruct H as [c [<- _]]. apply attr_length.
  - intros H. set (c := filter (fun k => ov_eqb (nth k a Oc) Un) (seq 0 n)). exists (length c). split.
    + apply in_seq. assert (length c <= length (seq 0 n))%nat by apply filter_le. rewrite seq_length in *. lia.
    + apply in_map_iff. exists c. split; [|apply combs_filter].
      apply nth_ext with (d := Oc) (d' := Oc); [rewrite attr_length; auto|]. rewrite attr_length. intros j Hj. rewrite attr_get; [|intros k Hk; apply filter_In in Hk; destruct Hk as [Hk _]; apply in_seq in Hk; lia|exact Hj].
      destruct (in_dec Nat.eq_dec j c) as [I|I].
      * apply filter_In in I. destruct I as [_ I]. destruct (nth j a Oc); [discriminate|reflexivity].
      * destruct (nth j a Oc) eqn:E; [reflexivity|]. exfalso. apply I. apply filter_In. split; [apply in_seq; lia|]. rewrite E. reflexivity.
Qed.
Lemma slices_nodup : forall n, NoDup (slices n).
Proof.
  intros n. unfold slices.
  assert (INJ : forall i c d, In c (combs i (seq 0 n)) -> forall j, In d (combs j (seq 0 n)) -> attr_of n c = attr_of n d -> c = d).
  { intros i c d Hc j Hd E. apply combs_props in Hc, Hd. destruct Hc as (_ & Ic & Sc), Hd as (_ & Id & Sd).
    apply sorted_same; [apply Sc, seq_sorted|apply Sd, seq_sorted|].
    assert (Bc : forall k, In k c -> (k < n)%nat) by (intros k Hk; apply Ic, in_seq in Hk; lia).
    assert (Bd : forall k, In k d -> (k < n)%nat) by (intros k Hk; apply Id, in_seq in Hk; lia).
    intros x. destruct (Nat.lt_ge_cases x n) as [Hx|Hx].
    - pose proof (attr_get n c x Bc Hx) as E1. pose proof (attr_get n d x Bd Hx) as E2. rewrite E in E1. rewrite E1 in E2.
      destruct (in_dec Nat.eq_dec x c), (in_dec Nat.eq_dec x d); try tauto; discriminate.
    - split; intros H; [apply Bc in H|apply Bd in H]; lia. }
  apply NoDup_flat_map; [apply seq_NoDup| |].
  - intros i _. apply NoDup_map_inj; [|apply combs_nodup, seq_NoDup]. intros c d Hc Hd E. eapply INJ; eauto.
  - intros i j z _ _ Hi Hj. apply in_map_iff in Hi, Hj. destruct Hi as [c [<- Hc]], Hj as [d [E Hd]]. pose proof (INJ _ _ _ Hd _ Hc E) as ->.
    apply combs_props in Hc, Hd. destruct Hc as [<- _], Hd as [<- _]. reflexivity.
Qed.

(** * Blocks *)
Lemma sl_split : forall s sp k, (nocc s sp <= s_norb s)%nat -> (k < s_norb s)%nat ->
  exists x p, (p < sl_len s sp x)%nat /\ (sl_start s sp x + p = k)%nat /\ forall y q, (q < sl_len s sp y)%nat -> (sl_start s sp y + q = k)%nat -> y = x /\ q = p.
Proof.
  intros s sp k Hn Hk. destruct (Nat.lt_ge_cases k (nocc s sp)) as [H|H].
  - exists Oc, k. cbn. repeat split; auto; destruct y; cbn in *; auto; lia.
  - exists Un, (k - nocc s sp)%nat. cbn. repeat split; try lia; destruct y; cbn in *; auto; lia.
Qed.
Lemma blocks_split : forall s spins ix, (forall sp, nocc s sp <= s_norb s)%nat -> length ix = length spins -> Forall (fun k => (k < s_norb s)%nat) ix ->
  exists attr pos, length attr = length spins /\ in_shape (map2 (sl_len s) spins attr) pos /\ map2 Nat.add (map2 (sl_start s) spins attr) pos = ix
   /\ forall attr' pos', length attr' = length spins -> in_shape (map2 (sl_len s) spins attr') pos' -> map2 Nat.add (map2 (sl_start s) spins attr') pos' = ix ->
        attr' = attr /\ pos' = pos.
Proof.
  intros s spins ix Hn. revert ix. induction spins as [|sp spins IH]; intros [|k ix] HL HF; try discriminate.
  - exists [], []. repeat split; try constructor.
    + intros. destruct attr'; [reflexivity|discriminate].
    + intros. destruct attr'; [|discriminate]. cbn in H0. inversion H0. reflexivity.
  - inversion HF as [|k' ix' Hk HF']; subst. destruct (IH ix ltac:(cbn in HL; lia) HF') as (attr & pos & La & Sh & E & U).
    destruct (sl_split s sp k (Hn sp) Hk) as (x & p & Hp & Ep & Up). exists (x :: attr), (p :: pos). split; [cbn; congruence|]. split; [constructor; assumption|].
    split; [cbn; rewrite Ep, E; reflexivity|]. intros [|y attr'] pos' La' Sh' E'; [discriminate|]. cbn in Sh'. inversion Sh' as [|n q ns pos'' Hq Sh'']; subst.
    cbn in E'. injection E' as E1 E2. destruct (Up y q Hq E1) as [-> ->]. destruct (U attr' pos'' ltac:(cbn in La'; lia) Sh'' E2) as [-> ->]. auto.
Qed.

(** * Sums *)
Lemma lsum_seq : forall n f, lsum (seq 0 n) f = sumn n f.
Proof.
  assert (G : forall n a f, lsum (seq a n) f = sumn n (fun i => f (a + i)%nat)).
  { induction n as [|n IH]; intros a f; [reflexivity|]. rewrite sumn_S_l. change (lsum (seq a (S n)) f) with (f a + lsum (seq (S a) n) f). rewrite Nat.add_0_r. f_equal. rewrite IH. apply sumn_ext. intros i _. f_equal. lia. }
  intros n f. rewrite G. apply sumn_ext. reflexivity.
Qed.
Lemma lsum_ext : forall l f g, (forall i, f i = g i) -> lsum l f = lsum l g.
Proof. intros l f g H. induction l as [|x l IH]; [reflexivity|]. cbn. rewrite H. f_equal. exact IH. Qed.
Lemma sum_in : forall n m k g, sumn n (fun i => sumn (m + k) (fun j => g i j)) = sumn n (fun i => sumn m (fun j => g i j)) + sumn n (fun i => sumn k (fun j => g i (m + j)%nat)).
Proof. intros. rewrite <- sumn_plus. apply sumn_ext. intros. apply sumn_split. Qed.
Lemma sum_minus2 : forall n m g h, sumn n (fun i => sumn m (fun j => g i j - h i j)) = sumn n (fun i => sumn m (fun j => g i j)) - sumn n (fun i => sumn m (fun j => h i j)).
Proof. intros. rewrite <- sumn_minus. apply sumn_ext. intros. apply sumn_minus. Qed.
