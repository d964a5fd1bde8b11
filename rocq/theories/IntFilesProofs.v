From Coq Require Import ZArith List Bool Arith Lia.
From Verif Require Import IntFilesModel IntFilesSpec.
Import ListNotations.
Open Scope Z_scope.

Lemma resolve_in : forall n x, 0 <= x -> x < Z.of_nat n -> resolve n x = Some (Z.to_nat x).
Proof.
  intros n x H1 H2. unfold resolve. destruct (Z.leb_spec (- Z.of_nat n) x); [|lia]. destruct (Z.ltb_spec x (Z.of_nat n)); [|lia].
  destruct (Z.ltb_spec x 0); [lia|reflexivity].
Qed.
Lemma resolve_out : forall n x, Z.of_nat n <= x -> resolve n x = None.
Proof. intros n x H. unfold resolve. destruct (Z.ltb_spec x (Z.of_nat n)); [lia|]. rewrite andb_false_r. reflexivity. Qed.
Lemma resolve_lt : forall n x p, resolve n x = Some p -> (p < n)%nat.
Proof.
  intros n x p H. unfold resolve in H. destruct (Z.leb_spec (- Z.of_nat n) x); [|discriminate]. destruct (Z.ltb_spec x (Z.of_nat n)); [|discriminate].
  injection H as <-. destruct (Z.ltb_spec x 0); lia.
Qed.

Section P.
Variables (V : Type) (zero : V).
Notation arr2 := (arr2 V). Notation arr4 := (arr4 V).
Definition imgs (p q r s : nat) : list (nat * nat * nat * nat) :=
  [(p, q, r, s); (r, q, p, s); (p, s, r, q); (r, s, p, q); (q, p, s, r); (q, r, s, p); (s, p, q, r); (s, r, q, p)].
Definition memb (x : nat * nat * nat * nat) (l : list (nat * nat * nat * nat)) : bool :=
  existsb (fun y => let '(i, j, k, m) := x in let '(p, q, r, s) := y in ((i =? p) && (j =? q) && (k =? r) && (m =? s))%nat) l.
Lemma memb_In : forall x l, memb x l = true <-> In x l.
Proof.
  intros [[[i j] k] m] l. unfold memb. rewrite existsb_exists. split.
  - intros [[[[p q] r] s] [H E]]. rewrite !andb_true_iff, !Nat.eqb_eq in E. destruct E as [[[-> ->] ->] ->]. exact H.
  - intros H. exists (i, j, k, m). split; [exact H|]. rewrite !Nat.eqb_refl. reflexivity.
Qed.
Lemma memb_ext : forall x y l l', (In x l <-> In y l') -> memb x l = memb y l'.
Proof. intros x y l l' H. destruct (memb x l) eqn:E; destruct (memb y l') eqn:F; auto.
  - apply memb_In in E. apply H in E. apply memb_In in E. congruence.
  - apply memb_In in F. apply H in F. apply memb_In in F. congruence.
Qed.
Lemma write4_none : forall n v l, fold_left (write4 V n v) l None = None.
Proof. intros n v. induction l as [|[[[p q] r] s] l IH]; [reflexivity|exact IH]. Qed.
(** the eight assignments *)
Lemma write4_fold : forall n v l a b, fold_left (write4 V n v) l (Some a) = Some b ->
  exists m, Forall2 (fun ix y => let '(p, q, r, s) := ix in let '(p', q', r', s') := y in
      resolve n p = Some p' /\ resolve n q = Some q' /\ resolve n r = Some r' /\ resolve n s = Some s') l m
    /\ forall i j k o, b i j k o = if memb (i, j, k, o) m then v else a i j k o.
Proof.
  intros n v. induction l as [|[[[p q] r] s] l IH]; intros a b H; simpl in H.
  - injection H as <-. exists []. split; [constructor|reflexivity].
  - destruct (resolve n p) as [p'|] eqn:Ep; [|rewrite write4_none in H; discriminate].
    destruct (resolve n q) as [q'|] eqn:Eq; [|rewrite write4_none in H; discriminate].
    destruct (resolve n r) as [r'|] eqn:Er; [|rewrite write4_none in H; discriminate].
    destruct (resolve n s) as [s'|] eqn:Es; [|rewrite write4_none in H; discriminate].
    destruct (IH _ _ H) as [m [F B]]. exists ((p', q', r', s') :: m). split.
    + constructor; [repeat split; assumption|exact F].
    + intros i j k o. rewrite B. unfold memb. simpl. fold (memb (i, j, k, o) m). unfold set4.
      destruct (memb (i, j, k, o) m); [rewrite orb_true_r; reflexivity|rewrite orb_false_r; reflexivity].
Qed.
Lemma write4_ok : forall n v l a, Forall (fun ix => let '(p, q, r, s) := ix in
    0 <= p < Z.of_nat n /\ 0 <= q < Z.of_nat n /\ 0 <= r < Z.of_nat n /\ 0 <= s < Z.of_nat n) l -> exists b, fold_left (write4 V n v) l (Some a) = Some b.
Proof.
  intros n v l. induction l as [|[[[p q] r] s] l IH]; intros a H; [exists a; reflexivity|]. inversion H as [|x y H0 HF]; subst. destruct H0 as (H1 & H2 & H3 & H4). simpl.
  rewrite !resolve_in by lia. apply IH. exact HF.
Qed.
Lemma write4_bad : forall n v l a p q r s, In (p, q, r, s) l -> resolve n p = None \/ resolve n q = None \/ resolve n r = None \/ resolve n s = None ->
  fold_left (write4 V n v) l a = None.
Proof.
  assert (G : forall n v l, fold_left (write4 V n v) l None = None).
  { intros n v. induction l as [|[[[p q] r] s] l IH]; [reflexivity|exact IH]. }
  intros n v l a p q r s H B. revert a. induction l as [|[[[p' q'] r'] s'] l IH]; intros a; [contradiction|]. simpl. destruct H as [E|H].
  - injection E as -> -> -> ->.
    assert (E : write4 V n v a (p, q, r, s) = None).
    { unfold write4. destruct a; [|reflexivity]. destruct B as [B|[B|[B|B]]]; rewrite B; [reflexivity|destruct (resolve n p); reflexivity| |];
        destruct (resolve n p), (resolve n q); try reflexivity; destruct (resolve n r); reflexivity. }
    unfold write4 in E. rewrite E. apply G.
  - apply IH; exact H.
Qed.
(** a two-electron line *)
Definition two_electron (l : line V) : bool := negb (l_3 V l =? 0) && negb (l_4 V l =? 0).
Definition one_electron (l : line V) : bool := (l_3 V l =? 0) && (l_4 V l =? 0) && negb (l_1 V l =? 0).
Lemma m1 : forall x, (x - 1 =? -1) = (x =? 0).
Proof. intros x. destruct (Z.eqb_spec (x - 1) (-1)), (Z.eqb_spec x 0); lia. Qed.
Lemma read_line_eq : forall n st l, read_line V n (Some st) l =
  if two_electron l then
    match fold_left (write4 V n (l_val V l)) (images (l_1 V l - 1) (l_3 V l - 1) (l_2 V l - 1) (l_4 V l - 1)) (Some (e2 V st)) with
    | Some a => Some {| e1 := e1 V st; e2 := a; enn := enn V st |} | None => None end
  else if one_electron l then
    match fold_left (write2 V n (l_val V l)) [(l_1 V l - 1, l_2 V l - 1); (l_2 V l - 1, l_1 V l - 1)] (Some (e1 V st)) with
    | Some a => Some {| e1 := a; e2 := e2 V st; enn := enn V st |} | None => None end
  else Some {| e1 := e1 V st; e2 := e2 V st; enn := Some (l_val V l) |}.
Proof. intros. unfold read_line. cbv zeta. rewrite !m1. reflexivity. Qed.
Lemma two_case : forall n st l st', two_electron l = true -> read_line V n (Some st) l = Some st' ->
  exists p q r s, resolve n (l_1 V l - 1) = Some p /\ resolve n (l_3 V l - 1) = Some q /\ resolve n (l_2 V l - 1) = Some r /\ resolve n (l_4 V l - 1) = Some s
   /\ e1 V st' = e1 V st /\ enn V st' = enn V st
   /\ forall i j k o, e2 V st' i j k o = if memb (i, j, k, o) (imgs p q r s) then l_val V l else e2 V st i j k o.
Proof.
  intros n st l st' HT HR. rewrite read_line_eq, HT in HR.
  set (f := fold_left (write4 V n (l_val V l)) _ _) in HR. destruct f as [a|] eqn:E; [|discriminate]. injection HR as <-. unfold f in E.
  apply write4_fold in E. destruct E as [m [F B]].
  unfold images in F. inversion F as [|x y l1 l2 H0 F0]; subst. destruct y as [[[p q] r] s]. destruct H0 as (Rp & Rq & Rr & Rs).
  exists p, q, r, s. do 4 (split; [assumption|]). split; [reflexivity|]. split; [reflexivity|]. cbn [e2]. intros i j k o. rewrite B.
  replace ((p, q, r, s) :: l2) with (imgs p q r s); [reflexivity|].
  repeat match goal with
  | H : Forall2 _ (_ :: _) ?l |- _ => inversion H; subst; clear H
  | H : Forall2 _ [] ?l |- _ => inversion H; subst; clear H
  end.
  repeat match goal with y : (nat * nat * nat * nat)%type |- _ => destruct y as [[[? ?] ?] ?] end.
  repeat match goal with H : _ /\ _ |- _ => destruct H end.
  unfold imgs. repeat f_equal; congruence.
Qed.
Lemma one_case : forall n st l st', two_electron l = false -> one_electron l = true -> read_line V n (Some st) l = Some st' ->
  exists p r, resolve n (l_1 V l - 1) = Some p /\ resolve n (l_2 V l - 1) = Some r /\ e2 V st' = e2 V st /\ enn V st' = enn V st
   /\ forall i j, e1 V st' i j = if ((i =? p) && (j =? r) || (i =? r) && (j =? p))%nat then l_val V l else e1 V st i j.
Proof.
  intros n st l st' HT HO HR. rewrite read_line_eq, HT, HO in HR. cbn [fold_left] in HR. unfold write2 in HR. cbn [fst snd] in HR.
  destruct (resolve n (l_1 V l - 1)) as [p|] eqn:Ep; [|discriminate]. destruct (resolve n (l_2 V l - 1)) as [r|] eqn:Er; [|discriminate].
  injection HR as <-. exists p, r. do 4 (split; [reflexivity|]). cbn [e1]. intros i j. unfold set2.
  destruct ((i =? p) && (j =? r))%nat, ((i =? r) && (j =? p))%nat; reflexivity.
Qed.
Lemma other_case : forall n st l st', two_electron l = false -> one_electron l = false -> read_line V n (Some st) l = Some st' ->
  e1 V st' = e1 V st /\ e2 V st' = e2 V st /\ enn V st' = Some (l_val V l).
Proof. intros n st l st' HT HO HR. rewrite read_line_eq, HT, HO in HR. injection HR as <-. auto. Qed.

Lemma fold_none : forall n ls, fold_left (read_line V n) ls None = None.
Proof. intros n. induction ls; [reflexivity|exact IHls]. Qed.
Lemma read_ind : forall (n : nat) (P : ints V -> Prop),
  (forall st l st', P st -> read_line V n (Some st) l = Some st' -> P st') ->
  forall ls st st', P st -> fold_left (read_line V n) ls (Some st) = Some st' -> P st'.
Proof.
  intros n P HP. induction ls as [|l ls IH]; intros st st' H0 H.
  - injection H as <-. exact H0.
  - cbn [fold_left] in H. destruct (read_line V n (Some st) l) as [s1|] eqn:E; [|rewrite fold_none in H; discriminate].
    apply (IH s1); [|exact H]. apply (HP st l); assumption.
Qed.

Definition inv8 (a : arr4) : Prop := forall i j k o, a i j k o = a k j i o /\ a i j k o = a i o k j /\ a i j k o = a j i o k.
Lemma memb_inv : forall p q r s i j k o, memb (i, j, k, o) (imgs p q r s) = memb (k, j, i, o) (imgs p q r s)
  /\ memb (i, j, k, o) (imgs p q r s) = memb (i, o, k, j) (imgs p q r s) /\ memb (i, j, k, o) (imgs p q r s) = memb (j, i, o, k) (imgs p q r s).
Proof.
  intros. unfold imgs. repeat split; apply memb_ext; cbn [In]; split; intros H;
  repeat match type of H with _ \/ _ => destruct H as [H|H] end; try contradiction; injection H as <- <- <- <-; auto 12.
Qed.
Lemma inv8_step : forall n st l st', inv8 (e2 V st) -> read_line V n (Some st) l = Some st' -> inv8 (e2 V st').
Proof.
  intros n st l st' HI HR. destruct (two_electron l) eqn:HT.
  - destruct (two_case n st l st' HT HR) as (p & q & r & s & _ & _ & _ & _ & _ & _ & B). intros i j k o. rewrite !B.
    destruct (memb_inv p q r s i j k o) as (M1 & M2 & M3). rewrite <- M1, <- M2, <- M3. destruct (HI i j k o) as (H1 & H2 & H3). rewrite <- H1, <- H2, <- H3. auto.
  - destruct (one_electron l) eqn:HO.
    + destruct (one_case n st l st' HT HO HR) as (p & r & _ & _ & -> & _). exact HI.
    + destruct (other_case n st l st' HT HO HR) as (_ & -> & _). exact HI.
Qed.
Definition sym2 (a : arr2) : Prop := forall i j, a i j = a j i.
Lemma sym2_step : forall n st l st', sym2 (e1 V st) -> read_line V n (Some st) l = Some st' -> sym2 (e1 V st').
Proof.
  intros n st l st' HI HR. destruct (two_electron l) eqn:HT.
  - destruct (two_case n st l st' HT HR) as (p & q & r & s & _ & _ & _ & _ & -> & _ & _). exact HI.
  - destruct (one_electron l) eqn:HO.
    + destruct (one_case n st l st' HT HO HR) as (p & r & _ & _ & _ & _ & B). intros i j. rewrite !B, (HI i j).
      replace ((j =? p) && (i =? r) || (j =? r) && (i =? p))%nat with ((i =? p) && (j =? r) || (i =? r) && (j =? p))%nat; [reflexivity|].
      destruct (i =? p)%nat, (i =? r)%nat, (j =? p)%nat, (j =? r)%nat; reflexivity.
    + destruct (other_case n st l st' HT HO HR) as (-> & _). exact HI.
Qed.
(** membership in the eight images is the equality of integrals *)
Lemma memb_same : forall p q r s i j k o, memb (i, j, k, o) (imgs p q r s)
  = same_integral (Z.of_nat p + 1) (Z.of_nat r + 1) (Z.of_nat q + 1) (Z.of_nat s + 1) (Z.of_nat i + 1) (Z.of_nat k + 1) (Z.of_nat j + 1) (Z.of_nat o + 1).
Proof.
  intros. unfold same_integral, same_pair.
  assert (Z1 : forall a b, (Z.of_nat a + 1 =? Z.of_nat b + 1) = (a =? b)%nat) by (intros a b; destruct (Z.eqb_spec (Z.of_nat a + 1) (Z.of_nat b + 1)), (Nat.eqb_spec a b); lia).
  rewrite !Z1. apply eq_true_iff_eq. rewrite memb_In. rewrite !orb_true_iff, !andb_true_iff, !orb_true_iff, !andb_true_iff, !Nat.eqb_eq.
  unfold imgs. cbn [In]. split; intros H.
  - repeat match type of H with _ \/ _ => destruct H as [H|H] end; try contradiction; injection H as <- <- <- <-; tauto.
  - destruct H as [[[[<- <-]|[<- <-]] [[<- <-]|[<- <-]]]|[[[<- <-]|[<- <-]] [[<- <-]|[<- <-]]]]; auto 12.
Qed.
End P.
