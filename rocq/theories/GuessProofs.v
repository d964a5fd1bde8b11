From Coq Require Import List Arith ZArith Reals Bool Lia.
From Verif Require Import GuessModel GuessSpec.
Import ListNotations.

(** * Folds that store one group of entries per index list *)
Section Core.
  Context {A C : Type}.
  Variables (next : C -> C) (v : C -> A) (cond ok : list nat -> bool).
  Variable W : arr A -> list nat -> A -> arr A.
  Variable K : list nat -> list (list nat).
  Variable E : list nat -> A -> list nat -> A.
  Variable good : list nat -> Prop.
  Hypothesis HW1 : forall X q x key, good q -> ~ In key (K q) -> W X q x key = X key.
  Hypothesis HW2 : forall X q x key, good q -> In key (K q) -> W X q x key = E q x key.
  Hypothesis HD : forall q q' key, good q -> good q' -> In key (K q) -> In key (K q') -> q = q'.
  Definition cstep (st : arr A * C) (q : list nat) : arr A * C :=
    let (X, c) := st in if cond q then ((if ok q then W X q (v c) else X), next c) else (X, c).

  Lemma iter_shift n (c : C) : Nat.iter n next (next c) = next (Nat.iter n next c).
  Proof. induction n as [|n IH]; simpl; [reflexivity|now rewrite IH]. Qed.
  Lemma core_count l : forall X c, snd (fold_left cstep l (X, c)) = Nat.iter (length (filter cond l)) next c.
  Proof.
    induction l as [|q l IH]; intros X c; simpl; [reflexivity|].
    destruct (cond q); simpl; rewrite IH; [|reflexivity].
    apply iter_shift.
  Qed.
  Lemma core_other l key : Forall good l -> (forall q, In q (filter cond l) -> ~ In key (K q)) ->
    forall X c, fst (fold_left cstep l (X, c)) key = X key.
  Proof.
    induction l as [|q l IH]; intros G H X c; simpl; [reflexivity|].
    inversion G as [|? ? g G']; subst. simpl in H. destruct (cond q) eqn:Q.
    - rewrite IH; [|assumption|intros; apply H; now right].
      destruct (ok q); [|reflexivity]. apply HW1; [assumption|apply H; now left].
    - apply IH; assumption.
  Qed.
  Lemma core_at l : Forall good l -> NoDup l -> forall X c k q key, nth_error (filter cond l) k = Some q -> In key (K q) ->
    fst (fold_left cstep l (X, c)) key = if ok q then E q (v (Nat.iter k next c)) key else X key.
  Proof.
    induction l as [|q0 l IH]; intros G N X c k q key Hk Hi; [destruct k; discriminate|].
    inversion G as [|? ? g G']; subst. inversion N as [|? ? n N']; subst. simpl in *. destruct (cond q0) eqn:Q.
    - destruct k as [|k]; simpl in Hk.
      + injection Hk as ->. rewrite core_other; [|assumption|].
        * destruct (ok q); [|reflexivity]. simpl. now apply HW2.
        * intros q' I' Hi'. apply filter_In in I'. destruct I' as [I' _].
          assert (q = q') by (apply (HD q q' key); auto; rewrite Forall_forall in G'; auto). subst. contradiction.
      + rewrite (IH G' N' _ (next c) k q key Hk Hi). rewrite iter_shift. simpl.
        assert (I : In q l) by (apply nth_error_In in Hk; apply filter_In in Hk; tauto).
        destruct (ok q); [reflexivity|]. destruct (ok q0); [|reflexivity]. apply HW1; [assumption|].
        intro Hi'. rewrite Forall_forall in G'. assert (q0 = q) by (apply (HD q0 q key); auto). subst. contradiction.
    - now apply IH.
  Qed.
End Core.

Lemma fold_flat {S B C : Type} (g : S -> C -> S) (L : B -> list C) : forall l st,
  fold_left (fun st x => fold_left g (L x) st) l st = fold_left g (flat_map L l) st.
Proof. induction l as [|x l IH]; intro st; simpl; [reflexivity|]. now rewrite IH, fold_left_app. Qed.
Lemma fold_map {S B C : Type} (g : S -> C -> S) (h : B -> C) : forall l st,
  fold_left (fun st x => g st (h x)) l st = fold_left g (map h l) st.
Proof. induction l as [|x l IH]; intro st; simpl; [reflexivity|now rewrite IH]. Qed.
Lemma fold_ext {S B : Type} (g h : S -> B -> S) : (forall s x, g s x = h s x) -> forall l st, fold_left g l st = fold_left h l st.
Proof. intros H l. induction l as [|x l IH]; intro st; simpl; [reflexivity|now rewrite H, IH]. Qed.
Lemma for_flat {S : Type} (F : nat -> S -> S) (g : S -> list nat -> S) (L : nat -> list (list nat)) l st :
  (forall a st, F a st = fold_left g (L a) st) -> for_ l F st = fold_left g (flat_map L l) st.
Proof. intro H. unfold for_. rewrite <- fold_flat. apply fold_ext. intros; apply H. Qed.
Lemma for_leaf {S : Type} (F : nat -> S -> S) (g : S -> list nat -> S) (h : nat -> list nat) l st :
  (forall a st, F a st = g st (h a)) -> for_ l F st = fold_left g (map h l) st.
Proof. intro H. unfold for_. rewrite <- fold_map. apply fold_ext. intros; apply H. Qed.

(** * Membership, distinctness and filtering of the enumerations *)
Lemma in_upto x lo hi : In x (upto lo hi) <-> lo <= x < hi.
Proof. unfold upto. rewrite in_seq. lia. Qed.
Lemma In_same q nact o0 no : In q (same_spin nact o0 no) <-> exists a b i j, q = [a; b; i; j] /\ a < b < nact /\ o0 <= i < j /\ j < no.
Proof.
  unfold same_spin. rewrite in_flat_map. split.
  - intros (a & Ha & H). rewrite in_flat_map in H. destruct H as (b & Hb & H). rewrite in_flat_map in H. destruct H as (i & Hi & H).
    apply in_map_iff in H. destruct H as (j & <- & Hj). rewrite in_upto in *. exists a, b, i, j. repeat split; lia.
  - intros (a & b & i & j & -> & H1 & H2 & H3). exists a. split; [apply in_upto; lia|]. apply in_flat_map. exists b. split; [apply in_upto; lia|].
    apply in_flat_map. exists i. split; [apply in_upto; lia|]. apply in_map_iff. exists j. split; [reflexivity|apply in_upto; lia].
Qed.
Lemma In_opp q na nb o0a noa o0b nob : In q (opp_spin na nb o0a noa o0b nob) <->
  exists a b i j, q = [a; b; i; j] /\ a < na /\ b < nb /\ o0a <= i < noa /\ o0b <= j < nob.
Proof.
  unfold opp_spin. rewrite in_flat_map. split.
  - intros (a & Ha & H). rewrite in_flat_map in H. destruct H as (b & Hb & H). rewrite in_flat_map in H. destruct H as (i & Hi & H).
    apply in_map_iff in H. destruct H as (j & <- & Hj). rewrite in_upto in *. exists a, b, i, j. repeat split; lia.
  - intros (a & b & i & j & -> & H1 & H2 & H3 & H4). exists a. split; [apply in_upto; lia|]. apply in_flat_map. exists b. split; [apply in_upto; lia|].
    apply in_flat_map. exists i. split; [apply in_upto; lia|]. apply in_map_iff. exists j. split; [reflexivity|apply in_upto; lia].
Qed.
Lemma In_singles q nu no : In q (singles nu no) <-> exists a i, q = [a; i] /\ a < nu /\ i < no.
Proof.
  unfold singles. rewrite in_flat_map. split.
  - intros (a & Ha & H). apply in_map_iff in H. destruct H as (i & <- & Hi). rewrite in_upto in *. exists a, i. repeat split; lia.
  - intros (a & i & -> & H1 & H2). exists a. split; [apply in_upto; lia|]. apply in_map_iff. exists i. split; [reflexivity|apply in_upto; lia].
Qed.
Lemma In_ones q n : In q (ones n) <-> exists a, q = [a] /\ a < n.
Proof.
  unfold ones. rewrite in_map_iff. split.
  - intros (a & <- & Ha). rewrite in_upto in Ha. exists a. split; [reflexivity|lia].
  - intros (a & -> & Ha). exists a. split; [reflexivity|apply in_upto; lia].
Qed.
Ltac in3 H := rewrite in_flat_map in H; destruct H as (?x & ?Hx & H); rewrite in_flat_map in H; destruct H as (?y & ?Hy & H);
  apply in_map_iff in H; destruct H as (?w & <- & ?Hw); rewrite in_upto in *.
Ltac mk3 a b j := apply in_flat_map; exists a; split; [apply in_upto; lia|]; apply in_flat_map; exists b; split; [apply in_upto; lia|];
  apply in_map_iff; exists j; split; [reflexivity|apply in_upto; lia].
Lemma In_ea_same q nact o0 no : In q (ea_same nact o0 no) <-> exists a b j, q = [a; b; j] /\ a < b < nact /\ o0 <= j < no.
Proof.
  split.
  - intro H. unfold ea_same in H. in3 H. exists x, y, w. repeat split; lia.
  - intros (a & b & j & -> & H1 & H2). mk3 a b j.
Qed.
Lemma In_ea_opp q na nb o0 no : In q (ea_opp na nb o0 no) <-> exists a b j, q = [a; b; j] /\ a < na /\ b < nb /\ o0 <= j < no.
Proof.
  split.
  - intro H. unfold ea_opp in H. in3 H. exists x, y, w. repeat split; lia.
  - intros (a & b & j & -> & H1 & H2 & H3). mk3 a b j.
Qed.
Lemma In_ip_same q o0 no nact : In q (ip_same o0 no nact) <-> exists i b j, q = [i; b; j] /\ b < nact /\ o0 <= i < j /\ j < no.
Proof.
  split.
  - intro H. unfold ip_same in H. in3 H. exists x, y, w. repeat split; lia.
  - intros (a & b & j & -> & H1 & H2 & H3). mk3 a b j.
Qed.
Lemma In_ip_opp q o0a noa nb o0b nob : In q (ip_opp o0a noa nb o0b nob) <-> exists i b j, q = [i; b; j] /\ o0a <= i < noa /\ b < nb /\ o0b <= j < nob.
Proof.
  split.
  - intro H. unfold ip_opp in H. in3 H. exists x, y, w. repeat split; lia.
  - intros (a & b & j & -> & H1 & H2 & H3). mk3 a b j.
Qed.

Lemma NoDup_app2 {A : Type} (l1 l2 : list A) : NoDup l1 -> NoDup l2 -> (forall x, In x l1 -> ~ In x l2) -> NoDup (l1 ++ l2).
Proof.
  induction l1 as [|x l IH]; intros N1 N2 D; simpl; [assumption|]. inversion N1; subst. constructor.
  - rewrite in_app_iff. intros [H|H]; [contradiction|]. apply (D x); [now left|assumption].
  - apply IH; [assumption|assumption|]. intros y Hy. apply D. now right.
Qed.
Lemma NoDup_flat {A B : Type} (G : A -> list B) l : NoDup l -> (forall a, NoDup (G a)) ->
  (forall a a' y, In y (G a) -> In y (G a') -> a = a') -> NoDup (flat_map G l).
Proof.
  intros N H1 H2. induction N as [|a l n N IH]; simpl; [constructor|]. apply NoDup_app2; [apply H1|assumption|].
  intros y Hy Hy'. apply in_flat_map in Hy'. destruct Hy' as (a' & I & Hy'). assert (a = a') by (eapply H2; eauto). subst. contradiction.
Qed.
Lemma NoDup_mapi {A B : Type} (g : A -> B) l : (forall x y, g x = g y -> x = y) -> NoDup l -> NoDup (map g l).
Proof.
  intros H N. induction N as [|a l n N IH]; simpl; constructor; [|assumption]. rewrite in_map_iff. intros (x & e & I). apply H in e. subst. contradiction.
Qed.
Ltac nodup := repeat first
  [ apply NoDup_flat; [apply seq_NoDup| |]
  | apply NoDup_mapi; [intros ? ? Heq0; injection Heq0; auto|apply seq_NoDup]
  | intros ? ? ? ?H1 ?H2; repeat rewrite in_flat_map in *;
    repeat match goal with
      | H : exists _, _ |- _ => destruct H
      | H : _ /\ _ |- _ => destruct H
      | H : In _ (flat_map _ _) |- _ => apply in_flat_map in H
      | H : In _ (map _ _) |- _ => apply in_map_iff in H end; subst; congruence
  | intro ].
Lemma ND_same n o m : NoDup (same_spin n o m). Proof. unfold same_spin. nodup. Qed.
Lemma ND_opp a b c d e f : NoDup (opp_spin a b c d e f). Proof. unfold opp_spin. nodup. Qed.
Lemma ND_singles a b : NoDup (singles a b). Proof. unfold singles. nodup. Qed.
Lemma ND_ones a : NoDup (ones a). Proof. unfold ones. nodup. Qed.
Lemma ND_ea_same a b c : NoDup (ea_same a b c). Proof. unfold ea_same. nodup. Qed.
Lemma ND_ea_opp a b c d : NoDup (ea_opp a b c d). Proof. unfold ea_opp. nodup. Qed.
Lemma ND_ip_same a b c : NoDup (ip_same a b c). Proof. unfold ip_same. nodup. Qed.
Lemma ND_ip_opp a b c d e : NoDup (ip_opp a b c d e). Proof. unfold ip_opp. nodup. Qed.

(** filtering *)
Lemma filter_map {A B : Type} f (g : A -> B) l : filter f (map g l) = map g (filter (fun x => f (g x)) l).
Proof. induction l as [|x l IH]; simpl; [reflexivity|]. rewrite IH. destruct (f (g x)); reflexivity. Qed.
Lemma filter_app' {A : Type} (f : A -> bool) l l' : filter f (l ++ l') = filter f l ++ filter f l'.
Proof. induction l as [|x l IH]; simpl; [reflexivity|]. rewrite IH. destruct (f x); reflexivity. Qed.
Lemma filter_flat {A B : Type} f (G : A -> list B) l : filter f (flat_map G l) = flat_map (fun x => filter f (G x)) l.
Proof. induction l as [|x l IH]; simpl; [reflexivity|]. now rewrite filter_app', IH. Qed.
Lemma flat_sel {A B : Type} (c : A -> bool) (G H : A -> list B) l :
  (forall x, In x l -> G x = if c x then H x else []) -> flat_map G l = flat_map H (filter c l).
Proof.
  induction l as [|x l IH]; intro E; simpl; [reflexivity|]. rewrite (E x) by now left.
  rewrite IH by (intros; apply E; now right). destruct (c x); reflexivity.
Qed.
Lemma map_sel {B : Type} (b : bool) (c : nat -> bool) (g : nat -> B) l : map g (filter (fun x => b && c x) l) = if b then map g (filter c l) else [].
Proof. destruct b; [reflexivity|]. simpl. induction l; [reflexivity|assumption]. Qed.
Lemma flat_nil {A B : Type} (l : list A) : flat_map (fun _ => @nil B) l = [].
Proof. induction l; [reflexivity|assumption]. Qed.
Lemma filter_none {A : Type} (f : A -> bool) l : (forall x, In x l -> f x = false) -> filter f l = [].
Proof. induction l as [|x l IH]; intro H; simpl; [reflexivity|]. rewrite H by now left. apply IH. intros; apply H; now right. Qed.
Lemma filter_all {A : Type} (f : A -> bool) l : (forall x, In x l -> f x = true) -> filter f l = l.
Proof. induction l as [|x l IH]; intro H; simpl; [reflexivity|]. rewrite H by now left. f_equal. apply IH. intros; apply H; now right. Qed.
Lemma upto_split lo m hi : lo <= m <= hi -> upto lo hi = upto lo m ++ upto m hi.
Proof. intro H. unfold upto. replace (hi - lo) with ((m - lo) + (hi - m)) by lia. rewrite seq_app. f_equal. f_equal. lia. Qed.
Lemma upto_nil lo hi : hi <= lo -> upto lo hi = [].
Proof. intro H. unfold upto. replace (hi - lo) with 0 by lia. reflexivity. Qed.
Lemma filter_lt n lo hi : n <= hi -> filter (fun x => x <? n) (upto lo hi) = upto lo n.
Proof.
  intro H. destruct (le_lt_dec lo n) as [L|L].
  - rewrite (upto_split lo n hi) by lia. rewrite filter_app', filter_all, filter_none, app_nil_r; [reflexivity| |];
      intros x I; apply in_upto in I; [apply Nat.ltb_ge|apply Nat.ltb_lt]; lia.
  - rewrite (upto_nil lo n) by lia. apply filter_none. intros x I. apply in_upto in I. apply Nat.ltb_ge. lia.
Qed.
Lemma filter_ge o lo hi : lo <= o <= hi -> filter (fun x => o <=? x) (upto lo hi) = upto o hi.
Proof.
  intro H. rewrite (upto_split lo o hi) by lia. rewrite filter_app', filter_none, filter_all; [reflexivity| |];
    intros x I; apply in_upto in I; [apply Nat.leb_le|apply Nat.leb_gt]; lia.
Qed.
Lemma filter_ge_all o lo hi : o <= lo -> filter (fun x => o <=? x) (upto lo hi) = upto lo hi.
Proof. intro H. apply filter_all. intros x I; apply in_upto in I; apply Nat.leb_le; lia. Qed.

Definition c2s (n o : nat) (q : list nat) : bool := match q with [a; b; i; j] => (a <? n) && (b <? n) && (o <=? i) && (o <=? j) | _ => false end.
Definition c2ab (na nb oa ob : nat) (q : list nat) : bool := match q with [a; b; i; j] => (a <? na) && (b <? nb) && (oa <=? i) && (ob <=? j) | _ => false end.
Ltac fl := intros; rewrite ?filter_flat, ?filter_map.
Lemma filter_same n nu o no : n <= nu -> o <= no -> filter (c2s n o) (same_spin nu 0 no) = same_spin n o no.
Proof.
  intros H1 H2. unfold same_spin. rewrite filter_flat.
  rewrite <- (filter_lt n 0 nu H1). apply flat_sel. intros a Ia. apply in_upto in Ia.
  rewrite filter_flat. destruct (a <? n) eqn:Ea.
  - apply Nat.ltb_lt in Ea. rewrite <- (filter_lt n (S a) nu H1). apply flat_sel. intros b Ib. apply in_upto in Ib.
    rewrite filter_flat. destruct (b <? n) eqn:Eb.
    + rewrite <- (filter_ge o 0 no) by lia. apply flat_sel. intros i Ii. apply in_upto in Ii.
      rewrite filter_map. simpl. destruct (o <=? i) eqn:Ei.
      * apply Nat.ltb_lt in Ea. rewrite Ea, Eb. simpl. f_equal. apply Nat.leb_le in Ei. apply filter_ge_all. lia.
      * rewrite filter_none; [reflexivity|]. intros. now rewrite andb_false_r.
    + erewrite flat_map_ext; [apply flat_nil|]. intro i. rewrite filter_map, filter_none; [reflexivity|]. intros. simpl. rewrite Eb. now rewrite andb_false_r.
  - erewrite flat_map_ext; [apply flat_nil|]. intro b. rewrite filter_flat. erewrite flat_map_ext; [apply flat_nil|]. intro i.
    rewrite filter_map, filter_none; [reflexivity|]. intros. simpl. now rewrite Ea.
Qed.
Lemma filter_opp na nua nb nub oa noa ob nob : na <= nua -> nb <= nub -> oa <= noa -> ob <= nob ->
  filter (c2ab na nb oa ob) (opp_spin nua nub 0 noa 0 nob) = opp_spin na nb oa noa ob nob.
Proof.
  intros H1 H2 H3 H4. unfold opp_spin. rewrite filter_flat.
  rewrite <- (filter_lt na 0 nua H1). apply flat_sel. intros a Ia.
  rewrite filter_flat. destruct (a <? na) eqn:Ea.
  - rewrite <- (filter_lt nb 0 nub H2). apply flat_sel. intros b Ib.
    rewrite filter_flat. destruct (b <? nb) eqn:Eb.
    + rewrite <- (filter_ge oa 0 noa) by lia. apply flat_sel. intros i Ii.
      rewrite filter_map. simpl. destruct (oa <=? i) eqn:Ei.
      * rewrite Ea, Eb. simpl. f_equal. apply filter_ge. lia.
      * rewrite filter_none; [reflexivity|]. intros. now rewrite andb_false_r.
    + erewrite flat_map_ext; [apply flat_nil|]. intro i. rewrite filter_map, filter_none; [reflexivity|]. intros. simpl. rewrite Eb. now rewrite andb_false_r.
  - erewrite flat_map_ext; [apply flat_nil|]. intro b. rewrite filter_flat. erewrite flat_map_ext; [apply flat_nil|]. intro i.
    rewrite filter_map, filter_none; [reflexivity|]. intros. simpl. now rewrite Ea.
Qed.
Definition c_ea (na nb o : nat) (q : list nat) : bool := match q with [a; b; j] => (a <? na) && (b <? nb) && (o <=? j) | _ => false end.
Definition c_ip (oa nb ob : nat) (q : list nat) : bool := match q with [i; b; j] => (oa <=? i) && (b <? nb) && (ob <=? j) | _ => false end.
Lemma filter_ea_same n nu o no : n <= nu -> o <= no -> filter (c_ea n n o) (ea_same nu 0 no) = ea_same n o no.
Proof.
  intros H1 H2. unfold ea_same. rewrite filter_flat.
  rewrite <- (filter_lt n 0 nu H1). apply flat_sel. intros a Ia. apply in_upto in Ia.
  rewrite filter_flat. destruct (a <? n) eqn:Ea.
  - rewrite <- (filter_lt n (S a) nu H1). apply flat_sel. intros b Ib. rewrite filter_map. simpl. rewrite Ea. destruct (b <? n) eqn:Eb.
    + simpl. f_equal. apply filter_ge. lia.
    + rewrite filter_none; reflexivity.
  - erewrite flat_map_ext; [apply flat_nil|]. intro b. rewrite filter_map, filter_none; [reflexivity|]. intros. simpl. now rewrite Ea.
Qed.
Lemma filter_ea_opp na nua nb nub o no : na <= nua -> nb <= nub -> o <= no -> filter (c_ea na nb o) (ea_opp nua nub 0 no) = ea_opp na nb o no.
Proof.
  intros H1 H2 H3. unfold ea_opp. rewrite filter_flat.
  rewrite <- (filter_lt na 0 nua H1). apply flat_sel. intros a Ia.
  rewrite filter_flat. destruct (a <? na) eqn:Ea.
  - rewrite <- (filter_lt nb 0 nub H2). apply flat_sel. intros b Ib. rewrite filter_map. simpl. rewrite Ea. destruct (b <? nb) eqn:Eb.
    + simpl. f_equal. apply filter_ge. lia.
    + rewrite filter_none; reflexivity.
  - erewrite flat_map_ext; [apply flat_nil|]. intro b. rewrite filter_map, filter_none; [reflexivity|]. intros. simpl. now rewrite Ea.
Qed.
Lemma filter_ip_same n nu o no : n <= nu -> o <= no -> filter (c_ip o n o) (ip_same 0 no nu) = ip_same o no n.
Proof.
  intros H1 H2. unfold ip_same. rewrite filter_flat.
  rewrite <- (filter_ge o 0 no) by lia. apply flat_sel. intros i Ii.
  rewrite filter_flat. destruct (o <=? i) eqn:Ei.
  - rewrite <- (filter_lt n 0 nu H1). apply flat_sel. intros b Ib. rewrite filter_map. simpl. rewrite Ei. destruct (b <? n) eqn:Eb.
    + simpl. f_equal. apply filter_ge_all. apply Nat.leb_le in Ei. lia.
    + rewrite filter_none; reflexivity.
  - erewrite flat_map_ext; [apply flat_nil|]. intro b. rewrite filter_map, filter_none; [reflexivity|]. intros. simpl. now rewrite Ei.
Qed.
Lemma filter_ip_opp oa noa nb nub ob nob : oa <= noa -> nb <= nub -> ob <= nob ->
  filter (c_ip oa nb ob) (ip_opp 0 noa nub 0 nob) = ip_opp oa noa nb ob nob.
Proof.
  intros H1 H2 H3. unfold ip_opp. rewrite filter_flat.
  rewrite <- (filter_ge oa 0 noa) by lia. apply flat_sel. intros i Ii.
  rewrite filter_flat. destruct (oa <=? i) eqn:Ei.
  - rewrite <- (filter_lt nb 0 nub H2). apply flat_sel. intros b Ib. rewrite filter_map. simpl. rewrite Ei. destruct (b <? nb) eqn:Eb.
    + simpl. f_equal. apply filter_ge. lia.
    + rewrite filter_none; reflexivity.
  - erewrite flat_map_ext; [apply flat_nil|]. intro b. rewrite filter_map, filter_none; [reflexivity|]. intros. simpl. now rewrite Ei.
Qed.

(** * The writers *)
Definition W1 {A : Type} (X : arr A) (q : list nat) (x : A) : arr A := put X q x.
Definition W4 {A : Type} (opp : A -> A) (X : arr A) (q : list nat) (x : A) : arr A := match q with [a; b; i; j] => put4 opp X a b i j x | _ => X end.
Definition Wea {A : Type} (opp : A -> A) (X : arr A) (q : list nat) (x : A) : arr A :=
  match q with [a; b; j] => put (put X [a; b; j] x) [b; a; j] (opp x) | _ => X end.
Definition Wip {A : Type} (opp : A -> A) (X : arr A) (q : list nat) (x : A) : arr A :=
  match q with [i; b; j] => put (put X [i; b; j] x) [j; b; i] (opp x) | _ => X end.
Definition K4 (q : list nat) : list (list nat) := match q with [a; b; i; j] => [[a; b; i; j]; [b; a; i; j]; [a; b; j; i]; [b; a; j; i]] | _ => [] end.
Definition Kea (q : list nat) : list (list nat) := match q with [a; b; j] => [[a; b; j]; [b; a; j]] | _ => [] end.
Definition Kip (q : list nat) : list (list nat) := match q with [i; b; j] => [[i; b; j]; [j; b; i]] | _ => [] end.
Definition same (p q : list nat) : bool := if list_eq_dec Nat.eq_dec p q then true else false.
Definition E4 {A : Type} (opp : A -> A) (q : list nat) (x : A) (key : list nat) : A :=
  match q with [a; b; i; j] => if same key [a; b; i; j] then x else if same key [b; a; j; i] then x else opp x | _ => x end.
Definition Eone {A : Type} (opp : A -> A) (q : list nat) (x : A) (key : list nat) : A := if same key q then x else opp x.
Definition good4 (q : list nat) : Prop := exists a b i j, q = [a; b; i; j] /\ a < b /\ i < j.
Definition goodea (q : list nat) : Prop := exists a b j, q = [a; b; j] /\ a < b.
Definition goodip (q : list nat) : Prop := exists i b j, q = [i; b; j] /\ i < j.
Ltac leq := repeat match goal with
  | |- context [list_eq_dec ?d ?x ?y] => destruct (list_eq_dec d x y) as [?Heq|?Hne] end.
Ltac inj := repeat match goal with H : _ :: _ = _ :: _ |- _ => injection H; clear H; intros; subst end.
Ltac orin := repeat match goal with H : _ \/ _ |- _ => destruct H | H : False |- _ => destruct H end.

Section Holds.
  Context {A C : Type}.
  Variables (z : A) (opp : A -> A) (next : C -> C) (v : C -> A) (cond ok : list nat -> bool) (c : C) (vv : nat -> A).
  Hypothesis Hv : forall k, v (Nat.iter k next c) = vv k.

  Lemma hold1 l : NoDup l -> holds z ok (filter cond l) vv (fst (fold_left (cstep next v cond ok W1) l (zeros z, c))).
  Proof.
    intro N.
    assert (G : Forall (fun _ : list nat => True) l) by (apply Forall_forall; auto).
    split.
    - intros k q Hk.
      rewrite (core_at next v cond ok W1 (fun q => [q]) (fun _ x _ => x) (fun _ => True)) with (k := k) (q := q); auto.
      + now rewrite Hv.
      + intros X q' x key _ Hi. unfold W1, put. destruct (list_eq_dec Nat.eq_dec q' key); [|reflexivity]. exfalso. apply Hi. now left.
      + intros X q' x key _ Hi. unfold W1, put. destruct (list_eq_dec Nat.eq_dec q' key); [reflexivity|]. destruct Hi as [Hi|[]]. contradiction.
      + intros q1 q2 key _ _ [->|[]] [->|[]]. reflexivity.
      + now left.
    - intros q Hq. apply (core_other next v cond ok W1 (fun q => [q]) (fun _ => True)); auto.
      + intros X q' x key _ Hi. unfold W1, put. destruct (list_eq_dec Nat.eq_dec q' key); [|reflexivity]. exfalso. apply Hi. now left.
      + intros q' I [->|[]]. contradiction.
  Qed.

  Lemma W4_out X q x key : good4 q -> ~ In key (K4 q) -> W4 opp X q x key = X key.
  Proof.
    intros (a & b & i & j & -> & H1 & H2) Hi. simpl in *. unfold put4, put. leq; try reflexivity; subst; exfalso; apply Hi; auto.
  Qed.
  Lemma W4_in X q x key : good4 q -> In key (K4 q) -> W4 opp X q x key = E4 opp q x key.
  Proof.
    intros (a & b & i & j & -> & H1 & H2) Hi. simpl in *. unfold put4, put, same. orin; subst key; leq; inj; try reflexivity; try lia; congruence.
  Qed.
  Lemma K4_canon q p1 p2 p3 p4 : good4 q -> In [p1; p2; p3; p4] (K4 q) -> q = [Nat.min p1 p2; Nat.max p1 p2; Nat.min p3 p4; Nat.max p3 p4].
  Proof.
    intros (a & b & i & j & -> & H1 & H2) Hi. simpl in Hi. orin; inj; repeat f_equal; lia.
  Qed.
  Lemma K4_len q key : In key (K4 q) -> exists p1 p2 p3 p4, key = [p1; p2; p3; p4].
  Proof. intro Hi. destruct q as [|a [|b [|i [|j [|]]]]]; simpl in Hi; try contradiction. orin; subst; eauto. Qed.
  Lemma K4_disj q q' key : good4 q -> good4 q' -> In key (K4 q) -> In key (K4 q') -> q = q'.
  Proof.
    intros G G' I I'. destruct (K4_len _ _ I) as (p1 & p2 & p3 & p4 & ->).
    rewrite (K4_canon q p1 p2 p3 p4), (K4_canon q' p1 p2 p3 p4); auto.
  Qed.
  Lemma hold4 l : Forall good4 l -> NoDup l -> holds4 z opp ok (filter cond l) vv (fst (fold_left (cstep next v cond ok (W4 opp)) l (zeros z, c))).
  Proof.
    intros G N. split.
    - intros k a b i j Hk.
      assert (g : good4 [a; b; i; j]) by (rewrite Forall_forall in G; apply G; apply nth_error_In in Hk; apply filter_In in Hk; tauto).
      assert (P : forall key, In key (K4 [a; b; i; j]) ->
        fst (fold_left (cstep next v cond ok (W4 opp)) l (zeros z, c)) key = if ok [a; b; i; j] then E4 opp [a; b; i; j] (vv k) key else z).
      { intros key I. rewrite (core_at next v cond ok (W4 opp) K4 (E4 opp) good4 W4_out W4_in K4_disj l G N _ _ k _ key Hk I). now rewrite Hv. }
      destruct g as (a' & b' & i' & j' & e & H1 & H2). inj.
      repeat split; rewrite P by (simpl; auto); simpl; unfold same; leq; inj; try reflexivity; try lia; congruence.
    - intros p q r s Hi. rewrite (core_other next v cond ok (W4 opp) K4 good4 W4_out l _ G); [reflexivity|].
      intros q' I I'. apply Hi. rewrite <- (K4_canon q' p q r s); auto. rewrite Forall_forall in G. apply G. apply filter_In in I. tauto.
  Qed.

  Lemma Wea_out X q x key : goodea q -> ~ In key (Kea q) -> Wea opp X q x key = X key.
  Proof. intros (a & b & j & -> & H1) Hi. simpl in *. unfold put. leq; try reflexivity; subst; exfalso; apply Hi; auto. Qed.
  Lemma Wea_in X q x key : goodea q -> In key (Kea q) -> Wea opp X q x key = Eone opp q x key.
  Proof. intros (a & b & j & -> & H1) Hi. simpl in *. unfold Eone, put, same. orin; subst key; leq; inj; try reflexivity; try lia; congruence. Qed.
  Lemma Kea_canon q p1 p2 p3 : goodea q -> In [p1; p2; p3] (Kea q) -> q = [Nat.min p1 p2; Nat.max p1 p2; p3].
  Proof. intros (a & b & j & -> & H1) Hi. simpl in Hi. orin; inj; repeat f_equal; lia. Qed.
  Lemma Kea_disj q q' key : goodea q -> goodea q' -> In key (Kea q) -> In key (Kea q') -> q = q'.
  Proof.
    intros G G' I I'. assert (exists p1 p2 p3, key = [p1; p2; p3]) as (p1 & p2 & p3 & ->).
    { destruct q as [|a [|b [|j [|]]]]; simpl in I; try contradiction. orin; subst; eauto. }
    rewrite (Kea_canon q p1 p2 p3), (Kea_canon q' p1 p2 p3); auto.
  Qed.
  Lemma holdea l : Forall goodea l -> NoDup l -> holds_ea z opp ok (filter cond l) vv (fst (fold_left (cstep next v cond ok (Wea opp)) l (zeros z, c))).
  Proof.
    intros G N. split.
    - intros k a b j Hk.
      assert (g : goodea [a; b; j]) by (rewrite Forall_forall in G; apply G; apply nth_error_In in Hk; apply filter_In in Hk; tauto).
      assert (P : forall key, In key (Kea [a; b; j]) ->
        fst (fold_left (cstep next v cond ok (Wea opp)) l (zeros z, c)) key = if ok [a; b; j] then Eone opp [a; b; j] (vv k) key else z).
      { intros key I. rewrite (core_at next v cond ok (Wea opp) Kea (Eone opp) goodea Wea_out Wea_in Kea_disj l G N _ _ k _ key Hk I). now rewrite Hv. }
      destruct g as (a' & b' & j' & e & H1). inj.
      repeat split; rewrite P by (simpl; auto); unfold Eone, same; leq; inj; try reflexivity; try lia; congruence.
    - intros p q r Hi. rewrite (core_other next v cond ok (Wea opp) Kea goodea Wea_out l _ G); [reflexivity|].
      intros q' I I'. apply Hi. rewrite <- (Kea_canon q' p q r); auto. rewrite Forall_forall in G. apply G. apply filter_In in I. tauto.
  Qed.

  Lemma Wip_out X q x key : goodip q -> ~ In key (Kip q) -> Wip opp X q x key = X key.
  Proof. intros (a & b & j & -> & H1) Hi. simpl in *. unfold put. leq; try reflexivity; subst; exfalso; apply Hi; auto. Qed.
  Lemma Wip_in X q x key : goodip q -> In key (Kip q) -> Wip opp X q x key = Eone opp q x key.
  Proof. intros (a & b & j & -> & H1) Hi. simpl in *. unfold Eone, put, same. orin; subst key; leq; inj; try reflexivity; try lia; congruence. Qed.
  Lemma Kip_canon q p1 p2 p3 : goodip q -> In [p1; p2; p3] (Kip q) -> q = [Nat.min p1 p3; p2; Nat.max p1 p3].
  Proof. intros (a & b & j & -> & H1) Hi. simpl in Hi. orin; inj; repeat f_equal; lia. Qed.
  Lemma Kip_disj q q' key : goodip q -> goodip q' -> In key (Kip q) -> In key (Kip q') -> q = q'.
  Proof.
    intros G G' I I'. assert (exists p1 p2 p3, key = [p1; p2; p3]) as (p1 & p2 & p3 & ->).
    { destruct q as [|a [|b [|j [|]]]]; simpl in I; try contradiction. orin; subst; eauto. }
    rewrite (Kip_canon q p1 p2 p3), (Kip_canon q' p1 p2 p3); auto.
  Qed.
  Lemma holdip l : Forall goodip l -> NoDup l -> holds_ip z opp ok (filter cond l) vv (fst (fold_left (cstep next v cond ok (Wip opp)) l (zeros z, c))).
  Proof.
    intros G N. split.
    - intros k a b j Hk.
      assert (g : goodip [a; b; j]) by (rewrite Forall_forall in G; apply G; apply nth_error_In in Hk; apply filter_In in Hk; tauto).
      assert (P : forall key, In key (Kip [a; b; j]) ->
        fst (fold_left (cstep next v cond ok (Wip opp)) l (zeros z, c)) key = if ok [a; b; j] then Eone opp [a; b; j] (vv k) key else z).
      { intros key I. rewrite (core_at next v cond ok (Wip opp) Kip (Eone opp) goodip Wip_out Wip_in Kip_disj l G N _ _ k _ key Hk I). now rewrite Hv. }
      destruct g as (a' & b' & j' & e & H1). inj.
      repeat split; rewrite P by (simpl; auto); unfold Eone, same; leq; inj; try reflexivity; try lia; congruence.
    - intros p q r Hi. rewrite (core_other next v cond ok (Wip opp) Kip goodip Wip_out l _ G); [reflexivity|].
      intros q' I I'. apply Hi. rewrite <- (Kip_canon q' p q r); auto. rewrite Forall_forall in G. apply G. apply filter_In in I. tauto.
  Qed.
End Holds.
Lemma good_same n o m : Forall good4 (same_spin n o m).
Proof. apply Forall_forall. intros q I. apply In_same in I. destruct I as (a & b & i & j & -> & ? & ? & ?). exists a, b, i, j. repeat split; lia. Qed.
Lemma good_ea n o m : Forall goodea (ea_same n o m).
Proof. apply Forall_forall. intros q I. apply In_ea_same in I. destruct I as (a & b & j & -> & ? & ?). exists a, b, j. repeat split; lia. Qed.
Lemma good_ip n o m : Forall goodip (ip_same n o m).
Proof. apply Forall_forall. intros q I. apply In_ip_same in I. destruct I as (a & b & j & -> & ? & ? & ?). exists a, b, j. repeat split; lia. Qed.

(** * The routines *)
Lemma iter_S k c : Nat.iter k S c = c + k.
Proof. induction k as [|k IH]; simpl; [lia|rewrite IH; lia]. Qed.
Lemma iter_Z k c : Nat.iter k (fun x => (x + 1)%Z) c = (c + Z.of_nat k)%Z.
Proof. induction k as [|k IH]; simpl Nat.iter; [lia|rewrite IH; lia]. Qed.
Lemma upS a n : range (a + 1) n = upto (S a) n. Proof. unfold range, upto. now rewrite Nat.add_1_r. Qed.
Definition allc : list nat -> bool := fun _ => true.
Lemma filter_allc l : filter allc l = l. Proof. apply filter_all. reflexivity. Qed.

Lemma scatter_1_fold nu no V st : scatter_1 nu no V st = fold_left (cstep S V allc yes W1) (singles nu no) st.
Proof.
  unfold scatter_1, singles. apply for_flat. intros a st1. change (range 0 no) with (upto 0 no). apply for_leaf. intros i [X c]. reflexivity.
Qed.
Lemma scatter_2s_fold nu no n o V st : scatter_2s nu no n o V st = fold_left (cstep S V (c2s n (no - o)) yes (W4 Ropp)) (same_spin nu 0 no) st.
Proof.
  unfold scatter_2s, same_spin. apply for_flat. intros a st1. rewrite upS. apply for_flat. intros b st2. apply for_flat. intros i st3. rewrite upS.
  apply for_leaf. intros j [X c]. reflexivity.
Qed.
Lemma scatter_2ab_fold nua nub noa nob na nb oa ob V st :
  scatter_2ab nua nub noa nob na nb oa ob V st = fold_left (cstep S V (c2ab na nb (noa - oa) (nob - ob)) yes W1) (opp_spin nua nub 0 noa 0 nob) st.
Proof.
  unfold scatter_2ab, opp_spin. apply for_flat. intros a st1. apply for_flat. intros b st2. apply for_flat. intros i st3.
  change (range 0 nob) with (upto 0 nob). apply for_leaf. intros j [X c]. reflexivity.
Qed.
Lemma scatter_0_fold n V st : scatter_0 n V st = fold_left (cstep S V allc yes W1) (ones n) st.
Proof. unfold scatter_0, ones. change (range 0 n) with (upto 0 n). apply for_leaf. intros a [X c]. reflexivity. Qed.
Lemma scatter_ea_s_fold nu no n o V st : scatter_ea_s nu no n o V st = fold_left (cstep S V (c_ea n n (no - o)) yes (Wea Ropp)) (ea_same nu 0 no) st.
Proof.
  unfold scatter_ea_s, ea_same. apply for_flat. intros a st1. rewrite upS. apply for_flat. intros b st2. change (range 0 no) with (upto 0 no).
  apply for_leaf. intros j [X c]. reflexivity.
Qed.
Lemma scatter_ea_o_fold nua nub nob na nb ob V st :
  scatter_ea_o nua nub nob na nb ob V st = fold_left (cstep S V (c_ea na nb (nob - ob)) yes W1) (ea_opp nua nub 0 nob) st.
Proof.
  unfold scatter_ea_o, ea_opp. apply for_flat. intros a st1. apply for_flat. intros b st2. change (range 0 nob) with (upto 0 nob).
  apply for_leaf. intros j [X c]. reflexivity.
Qed.
Lemma scatter_ip_s_fold no nu o n V st : scatter_ip_s no nu o n V st = fold_left (cstep S V (c_ip (no - o) n (no - o)) yes (Wip Ropp)) (ip_same 0 no nu) st.
Proof.
  unfold scatter_ip_s, ip_same. apply for_flat. intros a st1. apply for_flat. intros b st2. rewrite upS.
  apply for_leaf. intros j [X c]. reflexivity.
Qed.
Lemma scatter_ip_o_fold noa nub nob oa nb ob V st :
  scatter_ip_o noa nub nob oa nb ob V st = fold_left (cstep S V (c_ip (noa - oa) nb (nob - ob)) yes W1) (ip_opp 0 noa nub 0 nob) st.
Proof.
  unfold scatter_ip_o, ip_opp. apply for_flat. intros a st1. apply for_flat. intros b st2. change (range 0 nob) with (upto 0 nob).
  apply for_leaf. intros j [X c]. reflexivity.
Qed.

(** one block of the output and the position after it *)
Lemma blk_1 nu no V off : let r := scatter_1 nu no V (zeros 0%R, off) in
  holds 0%R yes (singles nu no) (fun k => V (off + k)) (fst r) /\ snd r = off + length (singles nu no).
Proof.
  simpl. rewrite scatter_1_fold. split.
  - pose proof (hold1 0%R S V allc yes off (fun k => V (off + k)) (fun k => f_equal V (iter_S k off)) (singles nu no) (ND_singles nu no)) as H.
    now rewrite filter_allc in H.
  - rewrite core_count, iter_S, filter_allc. reflexivity.
Qed.
Lemma blk_0 n V off : let r := scatter_0 n V (zeros 0%R, off) in
  holds 0%R yes (ones n) (fun k => V (off + k)) (fst r) /\ snd r = off + length (ones n).
Proof.
  simpl. rewrite scatter_0_fold. split.
  - pose proof (hold1 0%R S V allc yes off (fun k => V (off + k)) (fun k => f_equal V (iter_S k off)) (ones n) (ND_ones n)) as H.
    now rewrite filter_allc in H.
  - rewrite core_count, iter_S, filter_allc. reflexivity.
Qed.
Lemma blk_2s nu no n o V off : n <= nu -> let r := scatter_2s nu no n o V (zeros 0%R, off) in
  holds4 0%R Ropp yes (same_spin n (no - o) no) (fun k => V (off + k)) (fst r) /\ snd r = off + length (same_spin n (no - o) no).
Proof.
  intro Hn. simpl. rewrite scatter_2s_fold, <- (filter_same n nu (no - o) no Hn) by lia. split.
  - apply hold4; [intro k; now rewrite iter_S|apply good_same|apply ND_same].
  - now rewrite core_count, iter_S.
Qed.
Lemma blk_2ab nua nub noa nob na nb oa ob V off : na <= nua -> nb <= nub -> let r := scatter_2ab nua nub noa nob na nb oa ob V (zeros 0%R, off) in
  holds 0%R yes (opp_spin na nb (noa - oa) noa (nob - ob) nob) (fun k => V (off + k)) (fst r) /\
  snd r = off + length (opp_spin na nb (noa - oa) noa (nob - ob) nob).
Proof.
  intros Ha Hb. simpl. rewrite scatter_2ab_fold, <- (filter_opp na nua nb nub (noa - oa) noa (nob - ob) nob Ha Hb) by lia. split.
  - apply hold1; [intro k; now rewrite iter_S|apply ND_opp].
  - now rewrite core_count, iter_S.
Qed.
Lemma blk_ea_s nu no n o V off : n <= nu -> let r := scatter_ea_s nu no n o V (zeros 0%R, off) in
  holds_ea 0%R Ropp yes (ea_same n (no - o) no) (fun k => V (off + k)) (fst r) /\ snd r = off + length (ea_same n (no - o) no).
Proof.
  intro Hn. simpl. rewrite scatter_ea_s_fold, <- (filter_ea_same n nu (no - o) no Hn) by lia. split.
  - apply holdea; [intro k; now rewrite iter_S|apply good_ea|apply ND_ea_same].
  - now rewrite core_count, iter_S.
Qed.
Lemma blk_ea_o nua nub nob na nb ob V off : na <= nua -> nb <= nub -> let r := scatter_ea_o nua nub nob na nb ob V (zeros 0%R, off) in
  holds 0%R yes (ea_opp na nb (nob - ob) nob) (fun k => V (off + k)) (fst r) /\ snd r = off + length (ea_opp na nb (nob - ob) nob).
Proof.
  intros Ha Hb. simpl. rewrite scatter_ea_o_fold, <- (filter_ea_opp na nua nb nub (nob - ob) nob Ha Hb) by lia. split.
  - apply hold1; [intro k; now rewrite iter_S|apply ND_ea_opp].
  - now rewrite core_count, iter_S.
Qed.
Lemma blk_ip_s no nu o n V off : n <= nu -> let r := scatter_ip_s no nu o n V (zeros 0%R, off) in
  holds_ip 0%R Ropp yes (ip_same (no - o) no n) (fun k => V (off + k)) (fst r) /\ snd r = off + length (ip_same (no - o) no n).
Proof.
  intro Hn. simpl. rewrite scatter_ip_s_fold, <- (filter_ip_same n nu (no - o) no Hn) by lia. split.
  - apply holdip; [intro k; now rewrite iter_S|apply good_ip|apply ND_ip_same].
  - now rewrite core_count, iter_S.
Qed.
Lemma blk_ip_o noa nub nob oa nb ob V off : nb <= nub -> let r := scatter_ip_o noa nub nob oa nb ob V (zeros 0%R, off) in
  holds 0%R yes (ip_opp (noa - oa) noa nb (nob - ob) nob) (fun k => V (off + k)) (fst r) /\
  snd r = off + length (ip_opp (noa - oa) noa nb (nob - ob) nob).
Proof.
  intros Hb. simpl. rewrite scatter_ip_o_fold, <- (filter_ip_opp (noa - oa) noa nb nub (nob - ob) nob) by lia. split.
  - apply hold1; [intro k; now rewrite iter_S|apply ND_ip_opp].
  - now rewrite core_count, iter_S.
Qed.

(** index arrays: position numbers 1, 2, ... *)
Definition pos (k : nat) : Z := (1 + Z.of_nat k)%Z.
Definition inc (x : Z) : Z := (x + 1)%Z.
Definition idv (x : Z) : Z := x.
Lemma Hpos k : idv (Nat.iter k inc 1%Z) = pos k. Proof. unfold idv, inc. now rewrite iter_Z. Qed.
Definition ok2 (no : nat) (sym1 : nat -> nat -> bool) (q : list nat) : bool := match q with [a; i] => sym1 (a + no) i | _ => false end.
Definition ok4 (na nb : nat) (sym2 : nat -> nat -> nat -> nat -> bool) (q : list nat) : bool := match q with [a; b; i; j] => sym2 (a + na) (b + nb) i j | _ => false end.
Definition ok1 (sym : nat -> bool) (q : list nat) : bool := match q with [a] => sym a | _ => false end.
Definition ok3 (na nb nc : nat) (sym2 : nat -> nat -> nat -> bool) (q : list nat) : bool := match q with [a; b; j] => sym2 (a + na) (b + nb) (j + nc) | _ => false end.
Lemma idx_1 nu no sym1 : holds 0%Z (ok2 no sym1) (singles nu no) pos (index_1 nu no sym1).
Proof.
  unfold index_1. rewrite (for_flat _ (cstep inc idv allc (ok2 no sym1) W1) (fun a => map (fun i => [a; i]) (upto 0 no))).
  - rewrite <- (filter_allc (singles nu no)) at 1. apply hold1; [exact Hpos|apply ND_singles].
  - intros a st. change (range 0 no) with (upto 0 no). apply for_leaf. intros i [X c]. reflexivity.
Qed.
Lemma idx_2s no n o sym2 : holds4 0%Z Z.opp (ok4 no no sym2) (same_spin n (no - o) no) pos (index_2s no n o sym2).
Proof.
  unfold index_2s. rewrite (for_flat _ (cstep inc idv allc (ok4 no no sym2) (W4 Z.opp))
    (fun a => flat_map (fun b => flat_map (fun i => map (fun j => [a; b; i; j]) (upto (S i) no)) (upto (no - o) no)) (upto (S a) n))).
  - rewrite <- (filter_allc (same_spin n (no - o) no)) at 1. apply hold4; [exact Hpos|apply good_same|apply ND_same].
  - intros a st. rewrite upS. apply for_flat. intros b st1. apply for_flat. intros i st2. rewrite upS. apply for_leaf. intros j [X c]. reflexivity.
Qed.
Lemma idx_2ab noa nob na nb oa ob sym2 :
  holds 0%Z (ok4 noa nob sym2) (opp_spin na nb (noa - oa) noa (nob - ob) nob) pos (index_2ab noa nob na nb oa ob sym2).
Proof.
  unfold index_2ab. rewrite (for_flat _ (cstep inc idv allc (ok4 noa nob sym2) W1)
    (fun a => flat_map (fun b => flat_map (fun i => map (fun j => [a; b; i; j]) (upto (nob - ob) nob)) (upto (noa - oa) noa)) (upto 0 nb))).
  - rewrite <- (filter_allc (opp_spin na nb (noa - oa) noa (nob - ob) nob)) at 1. apply hold1; [exact Hpos|apply ND_opp].
  - intros a st. apply for_flat. intros b st1. apply for_flat. intros i st2. change (range (nob - ob) nob) with (upto (nob - ob) nob).
    apply for_leaf. intros j [X c]. reflexivity.
Qed.
Lemma idx_0 n ok : holds 0%Z (ok1 ok) (ones n) pos (index_0 n ok).
Proof.
  unfold index_0. change (range 0 n) with (upto 0 n). rewrite (for_leaf _ (cstep inc idv allc (ok1 ok) W1) (fun a => [a])).
  - rewrite <- (filter_allc (ones n)) at 1. apply hold1; [exact Hpos|apply ND_ones].
  - intros a [X c]. reflexivity.
Qed.
Lemma idx_ea_s no n o sym2 : holds_ea 0%Z Z.opp (ok3 no no 0 sym2) (ea_same n (no - o) no) pos (index_ea_s no n o sym2).
Proof.
  unfold index_ea_s. rewrite (for_flat _ (cstep inc idv allc (ok3 no no 0 sym2) (Wea Z.opp))
    (fun a => flat_map (fun b => map (fun j => [a; b; j]) (upto (no - o) no)) (upto (S a) n))).
  - rewrite <- (filter_allc (ea_same n (no - o) no)) at 1. apply holdea; [exact Hpos|apply good_ea|apply ND_ea_same].
  - intros a st. rewrite upS. apply for_flat. intros b st1. change (range (no - o) no) with (upto (no - o) no).
    apply for_leaf. intros j [X c]. simpl. now rewrite Nat.add_0_r.
Qed.
Lemma idx_ea_o noa nob na nb ob sym2 : holds 0%Z (ok3 noa nob 0 sym2) (ea_opp na nb (nob - ob) nob) pos (index_ea_o noa nob na nb ob sym2).
Proof.
  unfold index_ea_o. rewrite (for_flat _ (cstep inc idv allc (ok3 noa nob 0 sym2) W1)
    (fun a => flat_map (fun b => map (fun j => [a; b; j]) (upto (nob - ob) nob)) (upto 0 nb))).
  - rewrite <- (filter_allc (ea_opp na nb (nob - ob) nob)) at 1. apply hold1; [exact Hpos|apply ND_ea_opp].
  - intros a st. apply for_flat. intros b st1. change (range (nob - ob) nob) with (upto (nob - ob) nob).
    apply for_leaf. intros j [X c]. simpl. now rewrite Nat.add_0_r.
Qed.
Lemma idx_ip_s no n o sym2 : holds_ip 0%Z Z.opp (ok3 0 no 0 sym2) (ip_same (no - o) no n) pos (index_ip_s no n o sym2).
Proof.
  unfold index_ip_s. rewrite (for_flat _ (cstep inc idv allc (ok3 0 no 0 sym2) (Wip Z.opp))
    (fun i => flat_map (fun b => map (fun j => [i; b; j]) (upto (S i) no)) (upto 0 n))).
  - rewrite <- (filter_allc (ip_same (no - o) no n)) at 1. apply holdip; [exact Hpos|apply good_ip|apply ND_ip_same].
  - intros i st. apply for_flat. intros b st1. rewrite upS. apply for_leaf. intros j [X c]. simpl. now rewrite !Nat.add_0_r.
Qed.
Lemma idx_ip_o noa nob oa nb ob sym2 : holds 0%Z (ok3 0 nob 0 sym2) (ip_opp (noa - oa) noa nb (nob - ob) nob) pos (index_ip_o noa nob oa nb ob sym2).
Proof.
  unfold index_ip_o. rewrite (for_flat _ (cstep inc idv allc (ok3 0 nob 0 sym2) W1)
    (fun i => flat_map (fun b => map (fun j => [i; b; j]) (upto (nob - ob) nob)) (upto 0 nb))).
  - rewrite <- (filter_allc (ip_opp (noa - oa) noa nb (nob - ob) nob)) at 1. apply hold1; [exact Hpos|apply ND_ip_opp].
  - intros i st. apply for_flat. intros b st1. change (range (nob - ob) nob) with (upto (nob - ob) nob).
    apply for_leaf. intros j [X c]. simpl. now rewrite !Nat.add_0_r.
Qed.

(** * Lengths *)
Lemma len_flat {A B : Type} (G : A -> list B) l : length (flat_map G l) = list_sum (map (fun x => length (G x)) l).
Proof. induction l as [|x l IH]; simpl; [reflexivity|]. now rewrite app_length, IH. Qed.
Lemma len_upto a b : length (upto a b) = b - a. Proof. apply seq_length. Qed.
Lemma sum_const {A : Type} (l : list A) c : list_sum (map (fun _ => c) l) = length l * c.
Proof. induction l as [|x l IH]; simpl; [reflexivity|]. rewrite IH. lia. Qed.
Lemma sum_mul {A : Type} (f : A -> nat) l c : list_sum (map (fun x => f x * c) l) = list_sum (map f l) * c.
Proof. induction l as [|x l IH]; simpl; [reflexivity|]. rewrite IH. lia. Qed.
Lemma sum_ext {A : Type} (f g : A -> nat) l : (forall x, f x = g x) -> list_sum (map f l) = list_sum (map g l).
Proof. intro H. induction l as [|x l IH]; simpl; [reflexivity|]. now rewrite H, IH. Qed.
Lemma tri_aux n : forall m o, 2 * list_sum (map (fun i => o + n + m - S i) (seq o n)) = n * (n - 1) + 2 * n * m.
Proof.
  induction n as [|n IH]; intros m o; [reflexivity|].
  replace (S n) with (n + 1) by lia. rewrite seq_app, map_app, list_sum_app. simpl seq. simpl map at 2.
  assert (E : list_sum (map (fun i => o + (n + 1) + m - S i) (seq o n)) = list_sum (map (fun i => o + n + S m - S i) (seq o n)))
    by (apply sum_ext; intro; lia).
  rewrite E. specialize (IH (S m) o). rewrite Nat.mul_add_distr_l, IH. simpl list_sum. rewrite Nat.add_0_r.
  replace (o + (n + 1) + m - S (o + n)) with m by lia. destruct n; nia.
Qed.
Lemma tri o no : 2 * list_sum (map (fun i => no - S i) (upto o no)) = (no - o) * ((no - o) - 1).
Proof.
  unfold upto. destruct (le_lt_dec o no) as [L|L].
  - pose proof (tri_aux (no - o) 0 o) as H. replace (o + (no - o) + 0) with no in H by lia. nia.
  - replace (no - o) with 0 by lia. reflexivity.
Qed.
Lemma len_singles nu no : length (singles nu no) = nu * no.
Proof. unfold singles. rewrite len_flat. rewrite (sum_ext _ (fun _ => no)) by (intro; rewrite map_length, len_upto; lia). rewrite sum_const, len_upto. lia. Qed.
Lemma len_ones n : length (ones n) = n.
Proof. unfold ones. rewrite map_length, len_upto. lia. Qed.
Lemma len_pairs a b c d : length (pairs a b c d) = (b - a) * (d - c).
Proof. unfold pairs. rewrite len_flat. rewrite (sum_ext _ (fun _ => d - c)) by (intro; rewrite map_length, len_upto; lia). rewrite sum_const, len_upto. lia. Qed.
Lemma len_same n o no : 4 * length (same_spin n o no) = n * (n - 1) * ((no - o) * ((no - o) - 1)).
Proof.
  unfold same_spin. rewrite len_flat.
  set (T := list_sum (map (fun i => no - S i) (upto o no))).
  rewrite (sum_ext _ (fun a => (n - S a) * T)).
  - rewrite sum_mul. pose proof (tri 0 n) as H1. pose proof (tri o no) as H2. rewrite Nat.sub_0_r in H1. fold T in H2. nia.
  - intro a. rewrite len_flat. rewrite (sum_ext _ (fun _ => T)); [rewrite sum_const, len_upto; reflexivity|].
    intro b. rewrite len_flat. apply sum_ext. intro i. now rewrite map_length, len_upto.
Qed.
Lemma len_opp na nb oa noa ob nob : length (opp_spin na nb oa noa ob nob) = na * (nb * ((noa - oa) * (nob - ob))).
Proof.
  unfold opp_spin. rewrite len_flat, (sum_ext _ (fun _ => nb * ((noa - oa) * (nob - ob)))); [rewrite sum_const, len_upto; lia|].
  intro a. rewrite len_flat, (sum_ext _ (fun _ => (noa - oa) * (nob - ob))); [rewrite sum_const, len_upto; lia|].
  intro b. rewrite len_flat, (sum_ext _ (fun _ => nob - ob)); [rewrite sum_const, len_upto; lia|]. intro i. now rewrite map_length, len_upto.
Qed.
Lemma len_ea_same n o no : 2 * length (ea_same n o no) = n * (n - 1) * (no - o).
Proof.
  unfold ea_same. rewrite len_flat. rewrite (sum_ext _ (fun a => (n - S a) * (no - o))).
  - rewrite sum_mul. pose proof (tri 0 n) as H1. rewrite Nat.sub_0_r in H1. nia.
  - intro a. rewrite len_flat, (sum_ext _ (fun _ => no - o)); [rewrite sum_const, len_upto; reflexivity|]. intro b. now rewrite map_length, len_upto.
Qed.
Lemma len_ea_opp na nb o no : length (ea_opp na nb o no) = na * (nb * (no - o)).
Proof.
  unfold ea_opp. rewrite len_flat, (sum_ext _ (fun _ => nb * (no - o))); [rewrite sum_const, len_upto; lia|].
  intro a. rewrite len_flat, (sum_ext _ (fun _ => no - o)); [rewrite sum_const, len_upto; lia|]. intro b. now rewrite map_length, len_upto.
Qed.
Lemma len_ip_same o no n : 2 * length (ip_same o no n) = n * ((no - o) * ((no - o) - 1)).
Proof.
  unfold ip_same. rewrite len_flat. rewrite (sum_ext _ (fun i => (no - S i) * n)).
  - rewrite sum_mul. pose proof (tri o no) as H1. nia.
  - intro i. rewrite len_flat, (sum_ext _ (fun _ => no - S i)); [rewrite sum_const, len_upto; lia|]. intro b. now rewrite map_length, len_upto.
Qed.
Lemma len_ip_opp oa noa nb o no : length (ip_opp oa noa nb o no) = (noa - oa) * (nb * (no - o)).
Proof.
  unfold ip_opp. rewrite len_flat, (sum_ext _ (fun _ => nb * (no - o))); [rewrite sum_const, len_upto; lia|].
  intro a. rewrite len_flat, (sum_ext _ (fun _ => no - o)); [rewrite sum_const, len_upto; lia|]. intro b. now rewrite map_length, len_upto.
Qed.
Lemma div_unique4 a b : 4 * a = b -> b / 4 = a. Proof. intros <-. rewrite Nat.mul_comm. apply Nat.div_mul. lia. Qed.
Lemma div_unique2 a b : 2 * a = b -> b / 2 = a. Proof. intros <-. rewrite Nat.mul_comm. apply Nat.div_mul. lia. Qed.

(** * Index arrays against amplitude blocks *)
Lemma posne k : pos k <> 0%Z. Proof. unfold pos. lia. Qed.
Lemma pos_val V off k : (IZR (Z.sgn (pos k)) * V (off + Z.to_nat (Z.abs (pos k) - 1))%nat)%R = V (off + k).
Proof. unfold pos. rewrite Z.sgn_pos by lia. replace (Z.to_nat (Z.abs (1 + Z.of_nat k) - 1)) with k by lia. ring. Qed.
Lemma neg_val V off k : (IZR (Z.sgn (- pos k)) * V (off + Z.to_nat (Z.abs (- pos k) - 1))%nat)%R = (- V (off + k)%nat)%R.
Proof. unfold pos. rewrite Z.sgn_neg by lia. replace (Z.to_nat (Z.abs (- (1 + Z.of_nat k)) - 1)) with k by lia. simpl. ring. Qed.
Lemma placed1 ok l V off I X q : holds 0%Z ok l pos I -> holds 0%R yes l (fun k => V (off + k)) X -> placed I V off X q.
Proof.
  intros [H1 H2] [G1 G2] N. destruct (in_dec (list_eq_dec Nat.eq_dec) q l) as [I'|I']; [|rewrite H2 in N by assumption; contradiction].
  apply In_nth_error in I'. destruct I' as [k Hk]. specialize (H1 k q Hk). specialize (G1 k q Hk). simpl in G1.
  destruct (ok q); [|contradiction]. rewrite H1, G1. now rewrite pos_val.
Qed.
Lemma minmax p q : Nat.min p q = p /\ Nat.max p q = q \/ Nat.min p q = q /\ Nat.max p q = p. Proof. lia. Qed.
Ltac fin := rewrite ?pos_val, ?neg_val; reflexivity.
Lemma placed4 ok l V off I X p q r s : holds4 0%Z Z.opp ok l pos I -> holds4 0%R Ropp yes l (fun k => V (off + k)) X -> placed I V off X [p; q; r; s].
Proof.
  intros [H1 H2] [G1 G2] N.
  destruct (in_dec (list_eq_dec Nat.eq_dec) [Nat.min p q; Nat.max p q; Nat.min r s; Nat.max r s] l) as [I'|I']; [|rewrite H2 in N by assumption; contradiction].
  apply In_nth_error in I'. destruct I' as [k Hk]. specialize (H1 k _ _ _ _ Hk). specialize (G1 k _ _ _ _ Hk).
  destruct H1 as (A1 & A2 & A3 & A4). destruct G1 as (B1 & B2 & B3 & B4).
  unfold yes in *. cbv beta in *.
  destruct (minmax p q) as [[E1 E2]|[E1 E2]]; destruct (minmax r s) as [[E3 E4]|[E3 E4]]; rewrite E1, E2, E3, E4 in *;
  destruct (ok _); try contradiction; first [rewrite A1, B1; fin|rewrite A2, B2; fin|rewrite A3, B3; fin|rewrite A4, B4; fin].
Qed.
Lemma placed_ea ok l V off I X p q r : holds_ea 0%Z Z.opp ok l pos I -> holds_ea 0%R Ropp yes l (fun k => V (off + k)) X -> placed I V off X [p; q; r].
Proof.
  intros [H1 H2] [G1 G2] N.
  destruct (in_dec (list_eq_dec Nat.eq_dec) [Nat.min p q; Nat.max p q; r] l) as [I'|I']; [|rewrite H2 in N by assumption; contradiction].
  apply In_nth_error in I'. destruct I' as [k Hk]. specialize (H1 k _ _ _ Hk). specialize (G1 k _ _ _ Hk).
  destruct H1 as (A1 & A2). destruct G1 as (B1 & B2). unfold yes in *. cbv beta in *.
  destruct (minmax p q) as [[E1 E2]|[E1 E2]]; rewrite E1, E2 in *;
  destruct (ok _); try contradiction; first [rewrite A1, B1; fin|rewrite A2, B2; fin].
Qed.
Lemma placed_ip ok l V off I X p q r : holds_ip 0%Z Z.opp ok l pos I -> holds_ip 0%R Ropp yes l (fun k => V (off + k)) X -> placed I V off X [p; q; r].
Proof.
  intros [H1 H2] [G1 G2] N.
  destruct (in_dec (list_eq_dec Nat.eq_dec) [Nat.min p r; q; Nat.max p r] l) as [I'|I']; [|rewrite H2 in N by assumption; contradiction].
  apply In_nth_error in I'. destruct I' as [k Hk]. specialize (H1 k _ _ _ Hk). specialize (G1 k _ _ _ Hk).
  destruct H1 as (A1 & A2). destruct G1 as (B1 & B2). unfold yes in *. cbv beta in *.
  destruct (minmax p r) as [[E1 E2]|[E1 E2]]; rewrite E1, E2 in *;
  destruct (ok _); try contradiction; first [rewrite A1, B1; fin|rewrite A2, B2; fin].
Qed.

(** * Pairs *)
Definition ostep (V : nat -> R) (n : nat) (cond : list nat -> bool) (st : option (arr R * nat)) (q : list nat) : option (arr R * nat) :=
  match st with None => None | Some (X, c) => if cond q then if c <? n then Some (put X q (V c), S c) else None else Some (X, c) end.
Lemma ostep_none V n cond l : fold_left (ostep V n cond) l None = None.
Proof. induction l; [reflexivity|assumption]. Qed.
Lemma ostep_fold V n cond l : forall X c, c <= n -> fold_left (ostep V n cond) l (Some (X, c)) =
  if c + length (filter cond l) <=? n then Some (fold_left (cstep S V cond yes W1) l (X, c)) else None.
Proof.
  induction l as [|q l IH]; intros X c Hc; simpl.
  - rewrite Nat.add_0_r. apply Nat.leb_le in Hc. now rewrite Hc.
  - destruct (cond q) eqn:E; simpl; [|apply IH; lia].
    destruct (c <? n) eqn:F.
    + apply Nat.ltb_lt in F. rewrite IH by lia. replace (S c + length (filter cond l)) with (c + S (length (filter cond l))) by lia. reflexivity.
    + rewrite ostep_none. apply Nat.ltb_ge in F. destruct (c + S (length (filter cond l)) <=? n) eqn:D; [|reflexivity]. apply Nat.leb_le in D. lia.
Qed.
Definition cp (f : nat -> nat -> bool) (q : list nat) : bool := match q with [a; b] => f a b | _ => false end.
Lemma pair_loop_fold n1 n2 f V n : pair_loop (range 0 n1) (range 0 n2) f V n =
  if length (filter (cp f) (singles n1 n2)) <=? n then Some (fold_left (cstep S V (cp f) yes W1) (singles n1 n2) (zeros 0%R, 0)) else None.
Proof.
  unfold pair_loop. rewrite (for_flat _ (ostep V n (cp f)) (fun a => map (fun b => [a; b]) (upto 0 n2))).
  - change (flat_map _ (range 0 n1)) with (singles n1 n2). rewrite ostep_fold by lia. reflexivity.
  - intros a st. change (range 0 n2) with (upto 0 n2). apply for_leaf. intros b [[X c]|]; reflexivity.
Qed.
Lemma filter_lt' n lo hi : filter (fun x => x <? n) (upto lo hi) = upto lo (Nat.min n hi).
Proof.
  destruct (le_lt_dec n hi) as [L|L]; [rewrite Nat.min_l by lia; now apply filter_lt|].
  rewrite Nat.min_r by lia. apply filter_all. intros x I. apply in_upto in I. apply Nat.ltb_lt. lia.
Qed.
Lemma filter_2p n nua nub : filter (cp (fun a b => (a <? n) && (b <? n))) (singles nua nub) = pairs 0 (Nat.min n nua) 0 (Nat.min n nub).
Proof.
  unfold singles, pairs. rewrite filter_flat. rewrite <- (filter_lt' n 0 nua). apply flat_sel. intros a Ia. rewrite filter_map. simpl.
  destruct (a <? n); simpl; [now rewrite filter_lt'|]. rewrite filter_none; reflexivity.
Qed.
Lemma filter_2h oa noa ob nob : oa <= noa -> ob <= nob -> filter (cp (fun i j => (oa <=? i) && (ob <=? j))) (singles noa nob) = pairs oa noa ob nob.
Proof.
  intros H1 H2. unfold singles, pairs. rewrite filter_flat. rewrite <- (filter_ge oa 0 noa) by lia. apply flat_sel. intros i Ii. rewrite filter_map. simpl.
  destruct (oa <=? i); simpl; [now rewrite (filter_ge ob) by lia|]. rewrite filter_none; reflexivity.
Qed.
Definition okp (na nb : nat) (sym : nat -> nat -> bool) (q : list nat) : bool := match q with [a; b] => sym (a + na) (b + nb) | _ => false end.
Lemma ND_pairs a b c d : NoDup (pairs a b c d). Proof. unfold pairs. nodup. Qed.
Lemma idx_2p s nactu sym : holds 0%Z (okp (g_noa s) (g_nob s) sym) (pairs 0 (nactu_a s nactu) 0 (nactu_b s nactu)) pos (index_2p s nactu sym).
Proof.
  unfold index_2p. rewrite (for_flat _ (cstep inc idv allc (okp (g_noa s) (g_nob s) sym) W1) (fun a => map (fun b => [a; b]) (upto 0 (nactu_b s nactu)))).
  - rewrite <- (filter_allc (pairs _ _ _ _)) at 1. apply hold1; [exact Hpos|apply ND_pairs].
  - intros a st. apply for_leaf. intros b [X c]. reflexivity.
Qed.
Lemma idx_2h s nacto sym : holds 0%Z (okp 0 0 sym) (pairs (g_noa s - nacto_a s nacto) (g_noa s) (g_nob s - nacto_b s nacto) (g_nob s)) pos (index_2h s nacto sym).
Proof.
  unfold index_2h. rewrite (for_flat _ (cstep inc idv allc (okp 0 0 sym) W1) (fun a => map (fun b => [a; b]) (upto (g_nob s - nacto_b s nacto) (g_nob s)))).
  - rewrite <- (filter_allc (pairs _ _ _ _)) at 1. apply hold1; [exact Hpos|apply ND_pairs].
  - intros a st. apply for_leaf. intros b [X c]. simpl. now rewrite !Nat.add_0_r.
Qed.
Lemma sc_2p s nactu V n : let l := pairs 0 (Nat.min nactu (g_nua s)) 0 (Nat.min nactu (g_nub s)) in
  if length l <=? n then exists X, scatter_2p s nactu V n = Some (X, length l) /\ holds 0%R yes l V X else scatter_2p s nactu V n = None.
Proof.
  simpl. unfold scatter_2p. rewrite pair_loop_fold, filter_2p. destruct (length _ <=? n); [|reflexivity].
  eexists. split.
  - f_equal. rewrite (surjective_pairing (fold_left _ _ _)). f_equal. rewrite core_count, filter_2p, iter_S. reflexivity.
  - rewrite <- filter_2p. apply hold1; [intro k; now rewrite iter_S|apply ND_singles].
Qed.
Lemma sc_2h s nacto V n : let l := pairs (g_noa s - nacto) (g_noa s) (g_nob s - nacto) (g_nob s) in
  if length l <=? n then exists X, scatter_2h s nacto V n = Some (X, length l) /\ holds 0%R yes l V X else scatter_2h s nacto V n = None.
Proof.
  simpl. unfold scatter_2h. rewrite pair_loop_fold, filter_2h by lia. destruct (length _ <=? n); [|reflexivity].
  eexists. split.
  - f_equal. rewrite (surjective_pairing (fold_left _ _ _)). f_equal. rewrite core_count, filter_2h, iter_S by lia. reflexivity.
  - rewrite <- filter_2h by lia. apply hold1; [intro k; now rewrite iter_S|apply ND_singles].
Qed.

(** * Selection of the roots *)
Section Sel.
  Context {E : Type}.
  Variable zero : E -> bool.
  Fixpoint number (i : nat) (om : list E) : list (E * nat) := match om with [] => [] | e :: t => (e, i) :: number (S i) t end.
  Lemma sel om : forall i nroot kout, kout < nroot ->
    select_loop zero om i nroot kout = firstn (nroot - kout) (filter (fun p => negb (zero (fst p))) (number i om)).
  Proof.
    induction om as [|e om IH]; intros i nroot kout H; simpl; [now rewrite firstn_nil|].
    destruct (zero e); simpl; [now apply IH|].
    destruct (nroot - kout) as [|m] eqn:D; [lia|]. simpl. f_equal. change (match nroot with 0 => false | S m' => kout =? m' end) with (S kout =? nroot). destruct (S kout =? nroot) eqn:F.
    - apply Nat.eqb_eq in F. replace m with 0 by lia. reflexivity.
    - apply Nat.eqb_neq in F. rewrite IH by lia. f_equal. lia.
  Qed.
  Lemma len_number om : forall i, length (number i om) = length om.
  Proof. induction om as [|e om IH]; intro i; simpl; [reflexivity|now rewrite IH]. Qed.
  Lemma len_filter {A : Type} (f : A -> bool) l : length (filter f l) <= length l.
  Proof. induction l as [|x l IH]; simpl; [lia|]. destruct (f x); simpl; lia. Qed.
  Lemma sel_roots om nroot : select_roots zero om nroot = firstn nroot (filter (fun p => negb (zero (fst p))) (number 0 om)).
  Proof.
    unfold select_roots. destruct nroot as [|nroot]; [reflexivity|]. simpl Nat.eqb. cbv iota.
    destruct om as [|e om]; [reflexivity|].
    rewrite sel by (simpl; lia). rewrite Nat.sub_0_r.
    pose proof (len_filter (fun p => negb (zero (fst p))) (number 0 (e :: om))) as L. rewrite len_number in L.
    destruct (le_lt_dec (S nroot) (length (e :: om))) as [M|M]; [now rewrite Nat.min_l by lia|].
    rewrite Nat.min_r by lia. rewrite !firstn_all2 by lia. reflexivity.
  Qed.
End Sel.
