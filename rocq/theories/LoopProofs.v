(** Closed forms of the update loops in LoopModel.v *)
From Coq Require Import Reals Arith List Bool Lia Lra.
From Verif Require Import RSum IntegralsModel TensorObjs LoopModel CcsdModel CcsdUpdate.
Import ListNotations.
Open Scope R_scope.

Lemma fold_untouched {I S A} (get : S -> A) (step : S -> I -> S) l : (forall c, In c l -> forall s, get (step s c) = get s) ->
  forall s, get (fold_left step l s) = get s.
Proof. induction l as [|c l IH]; intros H s; simpl; [reflexivity|]. rewrite IH; [apply H; now left|]. intros x Hx. apply H. now right. Qed.
Lemma fold_once {I S A} (get : S -> A) (step : S -> I -> S) l c0 : (forall c, In c l -> c <> c0 -> forall s, get (step s c) = get s) ->
  NoDup l -> In c0 l -> forall s, exists l1, incl l1 l /\ ~ In c0 l1 /\ get (fold_left step l s) = get (step (fold_left step l1 s) c0).
Proof.
  intros H N Hin s. apply in_split in Hin as (l1 & l2 & ->). exists l1. apply NoDup_remove in N as [N Hn]. split; [|split].
  - intros x Hx. apply in_or_app. now left.
  - intros Hx. apply Hn. apply in_or_app. now left.
  - rewrite fold_left_app. simpl. apply fold_untouched. intros c Hc. apply H; [apply in_or_app; right; now right|].
    intros ->. apply Hn. apply in_or_app. now right.
Qed.

Lemma NoDup_app2 {A} (l m : list A) : NoDup l -> NoDup m -> (forall x, In x l -> ~ In x m) -> NoDup (l ++ m).
Proof.
  induction l as [|x l IH]; intros N M H; simpl; [exact M|]. inversion N as [|? ? Hx Hl]; subst. constructor.
  - intros Hi. apply in_app_or in Hi as [Hi|Hi]; [now apply Hx|]. apply (H x); [now left|exact Hi].
  - apply IH; [exact Hl|exact M|]. intros y Hy. apply H. now right.
Qed.
Lemma NoDup_flat_map {A B} (f : A -> list B) l : NoDup l -> (forall x, In x l -> NoDup (f x)) ->
  (forall x y z, In x l -> In y l -> In z (f x) -> In z (f y) -> x = y) -> NoDup (flat_map f l).
Proof.
  induction l as [|x l IH]; intros N H1 H2; simpl; [constructor|]. inversion N as [|? ? Hx Hl]; subst. apply NoDup_app2; [apply H1; now left| |].
  - apply IH; [exact Hl|intros; apply H1; now right|intros a b c Ha Hb; apply H2; now right].
  - intros z Hz Hz2. apply in_flat_map in Hz2 as (y & Hy & Hz2). apply Hx. rewrite (H2 x y z); auto; [now left|now right].
Qed.

Lemma NoDup_map2 {A B} (f : A -> B) l : (forall x y, f x = f y -> x = y) -> NoDup l -> NoDup (map f l).
Proof.
  intros Hf. induction 1 as [|x l Hx Hl IH]; simpl; constructor; [|exact IH]. intros Hi. apply in_map_iff in Hi as (y & E & Hy).
  apply Hf in E. now subst.
Qed.

Lemma loop_ia_in no nu i a : In (i, a) (loop_ia no nu) <-> (i < no /\ a < nu)%nat.
Proof.
  unfold loop_ia. rewrite in_flat_map. setoid_rewrite in_map_iff. setoid_rewrite in_seq. split.
  - intros (x & Hx & y & E & Hy). injection E as -> ->. lia.
  - intros H. exists i. split; [lia|]. exists a. split; [reflexivity|lia].
Qed.
Lemma loop_ia_nodup no nu : NoDup (loop_ia no nu).
Proof.
  apply NoDup_flat_map; [apply seq_NoDup| |].
  - intros x _. apply NoDup_map2; [intros ? ? E; now injection E|apply seq_NoDup].
  - intros x y z _ _ Hx Hy. apply in_map_iff in Hx as (? & <- & _). apply in_map_iff in Hy as (? & E & _). now injection E.
Qed.
Lemma loop_ijab_in no nu i j a b : In (i, j, a, b) (loop_ijab no nu) <-> (i < j /\ j < no /\ a < b /\ b < nu)%nat.
Proof.
  unfold loop_ijab. rewrite in_flat_map. setoid_rewrite in_flat_map. setoid_rewrite in_flat_map. setoid_rewrite in_map_iff. setoid_rewrite in_seq. split.
  - intros (x & Hx & y & Hy & z & Hz & w & E & Hw). injection E as -> -> -> ->. lia.
  - intros H. exists i. split; [lia|]. exists j. split; [lia|]. exists a. split; [lia|]. exists b. split; [reflexivity|lia].
Qed.
Lemma loop_ijab_nodup no nu : NoDup (loop_ijab no nu).
Proof.
  apply NoDup_flat_map; [apply seq_NoDup| |].
  - intros x _. apply NoDup_flat_map; [apply seq_NoDup| |].
    + intros y _. apply NoDup_flat_map; [apply seq_NoDup| |].
      * intros z _. apply NoDup_map2; [intros ? ? E; now injection E|apply seq_NoDup].
      * intros ? ? ? _ _ Hx Hy. apply in_map_iff in Hx as (? & <- & _). apply in_map_iff in Hy as (? & E & _). now injection E.
    + intros ? ? ? _ _ Hx Hy. apply in_flat_map in Hx as (? & _ & Hx). apply in_flat_map in Hy as (? & _ & Hy).
      apply in_map_iff in Hx as (? & <- & _). apply in_map_iff in Hy as (? & E & _). now injection E.
  - intros ? ? ? _ _ Hx Hy. apply in_flat_map in Hx as (? & _ & Hx). apply in_flat_map in Hy as (? & _ & Hy).
    apply in_flat_map in Hx as (? & _ & Hx). apply in_flat_map in Hy as (? & _ & Hy).
    apply in_map_iff in Hx as (? & <- & _). apply in_map_iff in Hy as (? & E & _). now injection E.
Qed.
Lemma loop_jiba_in na nb ma mb i j a b : In (i, j, a, b) (loop_jiba na nb ma mb) <-> (i < na /\ j < nb /\ a < ma /\ b < mb)%nat.
Proof.
  unfold loop_jiba. rewrite in_flat_map. setoid_rewrite in_flat_map. setoid_rewrite in_flat_map. setoid_rewrite in_map_iff. setoid_rewrite in_seq. split.
  - intros (x & Hx & y & Hy & z & Hz & w & E & Hw). injection E as -> -> -> ->. lia.
  - intros H. exists j. split; [lia|]. exists i. split; [lia|]. exists b. split; [lia|]. exists a. split; [reflexivity|lia].
Qed.
Lemma loop_jiba_nodup na nb ma mb : NoDup (loop_jiba na nb ma mb).
Proof.
  apply NoDup_flat_map; [apply seq_NoDup| |].
  - intros x _. apply NoDup_flat_map; [apply seq_NoDup| |].
    + intros y _. apply NoDup_flat_map; [apply seq_NoDup| |].
      * intros z _. apply NoDup_map2; [intros ? ? E; now injection E|apply seq_NoDup].
      * intros ? ? ? _ _ Hx Hy. apply in_map_iff in Hx as (? & <- & _). apply in_map_iff in Hy as (? & E & _). now injection E.
    + intros ? ? ? _ _ Hx Hy. apply in_flat_map in Hx as (? & _ & Hx). apply in_flat_map in Hy as (? & _ & Hy).
      apply in_map_iff in Hx as (? & <- & _). apply in_map_iff in Hy as (? & E & _). now injection E.
  - intros ? ? ? _ _ Hx Hy. apply in_flat_map in Hx as (? & _ & Hx). apply in_flat_map in Hy as (? & _ & Hy).
    apply in_flat_map in Hx as (? & _ & Hx). apply in_flat_map in Hy as (? & _ & Hy).
    apply in_map_iff in Hx as (? & <- & _). apply in_map_iff in Hy as (? & E & _). now injection E.
Qed.

Lemma wr2_same f a i x : wr2 f a i x a i = x.
Proof. unfold wr2. now rewrite !Nat.eqb_refl. Qed.
Lemma wr2_other f a i x p r : (p, r) <> (a, i) -> wr2 f a i x p r = f p r.
Proof.
  intros H. unfold wr2. destruct (Nat.eqb_spec p a) as [->|]; [|reflexivity]. destruct (Nat.eqb_spec r i) as [->|]; [congruence|reflexivity].
Qed.
Lemma wr4_same f a b i j x : wr4 f a b i j x a b i j = x.
Proof. unfold wr4. now rewrite !Nat.eqb_refl. Qed.
Lemma wr4_other f a b i j x p q r u : (p, q, r, u) <> (a, b, i, j) -> wr4 f a b i j x p q r u = f p q r u.
Proof.
  intros H. unfold wr4. destruct (Nat.eqb_spec p a) as [->|]; [|reflexivity]. destruct (Nat.eqb_spec q b) as [->|]; [|reflexivity].
  destruct (Nat.eqb_spec r i) as [->|]; [|reflexivity]. destruct (Nat.eqb_spec u j) as [->|]; [congruence|reflexivity].
Qed.
Ltac wr := repeat first [rewrite wr2_same | rewrite wr4_same | rewrite wr2_other by congruence | rewrite wr4_other by congruence
                        | rewrite wr4_other by (intros E; injection E; lia) | rewrite wr2_other by (intros E; injection E; lia)].

Ltac neq := let E := fresh in intros E; injection E; intros; subst; first [contradiction | congruence | lia].

(** One visit to cell c0: [get] sees the effect of the body at c0 on a state whose [get] is still the initial one *)
Lemma fold_visit {I S A} (get : S -> A) (step : S -> I -> S) l c0 (f : A -> A) s :
  (forall c, In c l -> c <> c0 -> forall s, get (step s c) = get s) -> (forall s, get (step s c0) = f (get s)) ->
  NoDup l -> In c0 l -> get (fold_left step l s) = f (get s).
Proof.
  intros H1 H2 N Hin. destruct (fold_once get step l c0 H1 N Hin s) as (l1 & Hi & Hn & ->). rewrite H2. f_equal.
  apply fold_untouched. intros c Hc. apply H1; [now apply Hi|]. now intros ->.
Qed.

(** singles *)
Lemma upd_t1_in no nu t X fo fv s a i : (a < nu)%nat -> (i < no)%nat ->
  (fst (upd_t1 no nu t X fo fv s) a i, snd (upd_t1 no nu t X fo fv s) a i) =
  (t a i + X a i / (fo i i - fv a a - s), X a i / (fo i i - fv a a - s)).
Proof.
  intros Ha Hi. unfold upd_t1.
  apply (fold_visit (fun st : mat2 * mat2 => (fst st a i, snd st a i)) (upd_t1_body X fo fv s) (loop_ia no nu) (i, a)
     (fun x => (fst x + X a i / (fo i i - fv a a - s), X a i / (fo i i - fv a a - s))) (t, fun _ _ => 0)).
  - intros [i' a'] _ Hne [t' r']. simpl. now wr.
  - intros [t' r']. simpl. now wr.
  - apply loop_ia_nodup.
  - now apply loop_ia_in.
Qed.
Lemma upd_t1_out no nu t X fo fv s a i : ~ (a < nu /\ i < no)%nat -> fst (upd_t1 no nu t X fo fv s) a i = t a i.
Proof.
  intros H. unfold upd_t1. apply (fold_untouched (fun st : mat2 * mat2 => fst st a i)). intros [i' a'] Hc [t' r'].
  apply loop_ia_in in Hc. simpl. rewrite wr2_other; [reflexivity|neq].
Qed.
Lemma upd_l1_in no nu l X ho hv w s a i : (a < nu)%nat -> (i < no)%nat ->
  (fst (upd_l1 no nu l X ho hv w s) a i, snd (upd_l1 no nu l X ho hv w s) a i) =
  (l a i + (w * l a i - X a i) / (hv a a - ho i i - w + s), (w * l a i - X a i) / (hv a a - ho i i - w + s)).
Proof.
  intros Ha Hi. unfold upd_l1.
  apply (fold_visit (fun st : mat2 * mat2 => (fst st a i, snd st a i)) (upd_l1_body ho hv w s) (loop_ia no nu) (i, a)
     (fun x => (fst x + (w * fst x - snd x) / (hv a a - ho i i - w + s), (w * fst x - snd x) / (hv a a - ho i i - w + s))) (l, X)).
  - intros [i' a'] _ Hne [t' r']. simpl. now wr.
  - intros [t' r']. simpl. now wr.
  - apply loop_ia_nodup.
  - now apply loop_ia_in.
Qed.
Lemma upd_l1_out no nu l X ho hv w s a i : ~ (a < nu /\ i < no)%nat -> fst (upd_l1 no nu l X ho hv w s) a i = l a i.
Proof.
  intros H. unfold upd_l1. apply (fold_untouched (fun st : mat2 * mat2 => fst st a i)). intros [i' a'] Hc [t' r'].
  apply loop_ia_in in Hc. simpl. rewrite wr2_other; [reflexivity|neq].
Qed.

(** opposite-spin doubles *)
Lemma upd_t2b_in na nb ma mb t X foa fva fob fvb s a b i j : (a < ma)%nat -> (b < mb)%nat -> (i < na)%nat -> (j < nb)%nat ->
  (fst (upd_t2b na nb ma mb t X foa fva fob fvb s) a b i j, snd (upd_t2b na nb ma mb t X foa fva fob fvb s) a b i j) =
  (t a b i j + X a b i j / (foa i i + fob j j - fva a a - fvb b b - s), X a b i j / (foa i i + fob j j - fva a a - fvb b b - s)).
Proof.
  intros Ha Hb Hi Hj. unfold upd_t2b.
  apply (fold_visit (fun st : mat4 * mat4 => (fst st a b i j, snd st a b i j)) (upd_t2b_body X foa fva fob fvb s) (loop_jiba na nb ma mb) (i, j, a, b)
     (fun x => (fst x + X a b i j / (foa i i + fob j j - fva a a - fvb b b - s), X a b i j / (foa i i + fob j j - fva a a - fvb b b - s))) (t, fun _ _ _ _ => 0)).
  - intros [[[i' j'] a'] b'] _ Hne [t' r']. simpl. now wr.
  - intros [t' r']. simpl. now wr.
  - apply loop_jiba_nodup.
  - now apply loop_jiba_in.
Qed.
Lemma upd_t2b_out na nb ma mb t X foa fva fob fvb s a b i j : ~ (a < ma /\ b < mb /\ i < na /\ j < nb)%nat ->
  fst (upd_t2b na nb ma mb t X foa fva fob fvb s) a b i j = t a b i j.
Proof.
  intros H. unfold upd_t2b. apply (fold_untouched (fun st : mat4 * mat4 => fst st a b i j)). intros [[[i' j'] a'] b'] Hc [t' r'].
  apply loop_jiba_in in Hc. simpl. rewrite wr4_other; [reflexivity|neq].
Qed.
Lemma upd_l2b_in na nb ma mb l X hoa hva hob hvb w s a b i j : (a < ma)%nat -> (b < mb)%nat -> (i < na)%nat -> (j < nb)%nat ->
  (fst (upd_l2b na nb ma mb l X hoa hva hob hvb w s) a b i j, snd (upd_l2b na nb ma mb l X hoa hva hob hvb w s) a b i j) =
  (l a b i j + (w * l a b i j - X a b i j) / (hva a a + hvb b b - hoa i i - hob j j - w + s),
   (w * l a b i j - X a b i j) / (hva a a + hvb b b - hoa i i - hob j j - w + s)).
Proof.
  intros Ha Hb Hi Hj. unfold upd_l2b.
  apply (fold_visit (fun st : mat4 * mat4 => (fst st a b i j, snd st a b i j)) (upd_l2b_body hoa hva hob hvb w s) (loop_jiba na nb ma mb) (i, j, a, b)
     (fun x => (fst x + (w * fst x - snd x) / (hva a a + hvb b b - hoa i i - hob j j - w + s), (w * fst x - snd x) / (hva a a + hvb b b - hoa i i - hob j j - w + s))) (l, X)).
  - intros [[[i' j'] a'] b'] _ Hne [t' r']. simpl. now wr.
  - intros [t' r']. simpl. now wr.
  - apply loop_jiba_nodup.
  - now apply loop_jiba_in.
Qed.
Lemma upd_l2b_out na nb ma mb l X hoa hva hob hvb w s a b i j : ~ (a < ma /\ b < mb /\ i < na /\ j < nb)%nat ->
  fst (upd_l2b na nb ma mb l X hoa hva hob hvb w s) a b i j = l a b i j.
Proof.
  intros H. unfold upd_l2b. apply (fold_untouched (fun st : mat4 * mat4 => fst st a b i j)). intros [[[i' j'] a'] b'] Hc [t' r'].
  apply loop_jiba_in in Hc. simpl. rewrite wr4_other; [reflexivity|neq].
Qed.

(** same-spin doubles: the four cells of an orbit *)
Definition orbit (f : mat4) (a b i j : nat) : R * R * R * R := (f b a j i, f a b j i, f b a i j, f a b i j).
Lemma upd_t2_orbit no nu t X fo fv s a b i j : (a < b)%nat -> (b < nu)%nat -> (i < j)%nat -> (j < no)%nat ->
  let v := (X b a j i - X a b j i - X b a i j + X a b i j) / (fo i i + fo j j - fv a a - fv b b - s) in
  let n := t b a j i + v in
  orbit (fst (upd_t2 no nu t X fo fv s)) a b i j = (n, - n, - n, n) /\ orbit (snd (upd_t2 no nu t X fo fv s)) a b i j = (v, - v, - v, v).
Proof.
  intros Ha Hb Hi Hj v n.
  assert (E : (orbit (fst (upd_t2 no nu t X fo fv s)) a b i j, orbit (snd (upd_t2 no nu t X fo fv s)) a b i j) = ((n, - n, - n, n), (v, - v, - v, v))).
  { apply (fold_visit (fun st : mat4 * mat4 => (orbit (fst st) a b i j, orbit (snd st) a b i j)) (upd_t2_body X fo fv s) (loop_ijab no nu) (i, j, a, b)
      (fun x => let n := fst (fst (fst (fst x))) + v in ((n, - n, - n, n), (v, - v, - v, v))) (t, fun _ _ _ _ => 0)).
    - intros [[[i' j'] a'] b'] Hc Hne [t' r']. apply loop_ijab_in in Hc. unfold orbit. simpl.
      rewrite !(wr4_other _ _ _ _ _ _ b a j i), !(wr4_other _ _ _ _ _ _ a b j i), !(wr4_other _ _ _ _ _ _ b a i j), !(wr4_other _ _ _ _ _ _ a b i j) by neq. reflexivity.
    - intros [t' r']. unfold orbit. simpl. wr. reflexivity.
    - apply loop_ijab_nodup.
    - apply loop_ijab_in. lia. }
  split; [exact (f_equal fst E)|exact (f_equal snd E)].
Qed.
Lemma upd_t2_out no nu t X fo fv s p q r u : p = q \/ r = u \/ ~ (p < nu /\ q < nu /\ r < no /\ u < no)%nat ->
  fst (upd_t2 no nu t X fo fv s) p q r u = t p q r u /\ snd (upd_t2 no nu t X fo fv s) p q r u = 0.
Proof.
  intros H. unfold upd_t2. split.
  - apply (fold_untouched (fun st : mat4 * mat4 => fst st p q r u)). intros [[[i' j'] a'] b'] Hc [t' r'].
    apply loop_ijab_in in Hc. simpl. rewrite !(wr4_other _ _ _ _ _ _ p q r u) by neq. reflexivity.
  - apply (fold_untouched (fun st : mat4 * mat4 => snd st p q r u)). intros [[[i' j'] a'] b'] Hc [t' r'].
    apply loop_ijab_in in Hc. simpl. rewrite !(wr4_other _ _ _ _ _ _ p q r u) by neq. reflexivity.
Qed.
Definition anti4 (f : mat4) : Prop := forall a b i j, f a b i j = - f b a i j /\ f a b i j = - f a b j i.
Notation asym4 := four_term.
Lemma anti4_diag f a b i j : anti4 f -> a = b \/ i = j -> f a b i j = 0.
Proof. intros H [->| ->]; [destruct (H b b i j)|destruct (H a b j j)]; lra. Qed.
Lemma asym4_anti X : anti4 (asym4 X).
Proof. intros a b i j. unfold four_term. split; ring. Qed.
Definition den2 (fo fv : mat2) (s : R) (a b i j : nat) : R := fo i i + fo j j - fv a a - fv b b - s.
Lemma den2_swap fo fv s a b i j : den2 fo fv s b a i j = den2 fo fv s a b i j /\ den2 fo fv s a b j i = den2 fo fv s a b i j.
Proof. unfold den2. split; ring. Qed.
Theorem upd_t2_ok no nu t X fo fv s p q r u : anti4 t -> (p < nu)%nat -> (q < nu)%nat -> (r < no)%nat -> (u < no)%nat ->
  fst (upd_t2 no nu t X fo fv s) p q r u = t p q r u + asym4 X p q r u / den2 fo fv s p q r u /\
  snd (upd_t2 no nu t X fo fv s) p q r u = asym4 X p q r u / den2 fo fv s p q r u.
Proof.
  intros Ht Hp Hq Hr Hu.
  assert (Z : p = q \/ r = u -> fst (upd_t2 no nu t X fo fv s) p q r u = t p q r u + asym4 X p q r u / den2 fo fv s p q r u /\
     snd (upd_t2 no nu t X fo fv s) p q r u = asym4 X p q r u / den2 fo fv s p q r u).
  { intros Hd. destruct (upd_t2_out no nu t X fo fv s p q r u) as [-> ->]; [tauto|]. rewrite (anti4_diag _ p q r u (asym4_anti X) Hd).
    unfold Rdiv. split; ring. }
  destruct (Nat.eq_dec p q) as [|Npq]; [now apply Z; left|]. destruct (Nat.eq_dec r u) as [|Nru]; [now apply Z; right|].
  assert (L : forall a b i j, (a < b)%nat -> (b < nu)%nat -> (i < j)%nat -> (j < no)%nat ->
    let f := fst (upd_t2 no nu t X fo fv s) in let g := snd (upd_t2 no nu t X fo fv s) in let v := asym4 X a b i j / den2 fo fv s a b i j in
    (f b a j i = t b a j i + v /\ g b a j i = v) /\ (f a b j i = - (t b a j i + v) /\ g a b j i = - v) /\
    (f b a i j = - (t b a j i + v) /\ g b a i j = - v) /\ (f a b i j = t b a j i + v /\ g a b i j = v)).
  { intros a b i j H1 H2 H3 H4 f g v. destruct (upd_t2_orbit no nu t X fo fv s a b i j H1 H2 H3 H4) as [E1 E2].
    fold f in E1. fold g in E2. unfold orbit in E1, E2. injection E1 as -> -> -> ->. injection E2 as -> -> -> ->.
    replace ((X b a j i - X a b j i - X b a i j + X a b i j) / (fo i i + fo j j - fv a a - fv b b - s)) with v
      by (unfold v, four_term, den2, Rdiv; ring). tauto. }
  assert (A := asym4_anti X).
  assert (D1 := fun a b i j => proj1 (den2_swap fo fv s a b i j)). assert (D2 := fun a b i j => proj2 (den2_swap fo fv s a b i j)).
  assert (T1 := fun a b i j => proj1 (Ht a b i j)). assert (T2 := fun a b i j => proj2 (Ht a b i j)).
  assert (A1 := fun a b i j => proj1 (A a b i j)). assert (A2 := fun a b i j => proj2 (A a b i j)).
  destruct (Nat.lt_ge_cases p q) as [Hpq|Hpq], (Nat.lt_ge_cases r u) as [Hru|Hru].
  - destruct (L p q r u) as (_ & _ & _ & -> & ->); try lia. rewrite (T1 q p u r), (T2 p q u r). split; ring.
  - destruct (L p q u r) as (_ & (-> & ->) & _ & _); try lia. rewrite (A2 p q u r), (D2 p q r u), (T1 q p r u). unfold Rdiv. split; ring.
  - destruct (L q p r u) as (_ & _ & (-> & ->) & _); try lia. rewrite (A1 q p r u), (D1 p q r u), (T2 p q u r). unfold Rdiv. split; ring.
  - destruct (L q p u r) as ((-> & ->) & _); try lia. rewrite (A1 q p u r), (A2 p q u r), (D1 p q u r), (D2 p q r u). unfold Rdiv. split; ring.
Qed.
(** Whatever the input amplitudes and intermediates, the written cells come out antisymmetric *)
Theorem upd_t2_anti no nu t X fo fv s p q r u : p <> q -> r <> u -> (p < nu)%nat -> (q < nu)%nat -> (r < no)%nat -> (u < no)%nat ->
  let f := fst (upd_t2 no nu t X fo fv s) in f p q r u = - f q p r u /\ f p q r u = - f p q u r.
Proof.
  intros Npq Nru Hp Hq Hr Hu f. assert (L : forall a b i j, (a < b)%nat -> (b < nu)%nat -> (i < j)%nat -> (j < no)%nat ->
    f a b j i = - f b a j i /\ f b a i j = - f b a j i /\ f a b i j = f b a j i).
  { intros a b i j H1 H2 H3 H4. destruct (upd_t2_orbit no nu t X fo fv s a b i j H1 H2 H3 H4) as [E1 _]. fold f in E1. unfold orbit in E1.
    injection E1 as -> -> -> ->. tauto. }
  destruct (Nat.lt_ge_cases p q) as [Hpq|Hpq], (Nat.lt_ge_cases r u) as [Hru|Hru].
  - destruct (L p q r u) as (E1 & E2 & E3); try lia. split; lra.
  - destruct (L p q u r) as (E1 & E2 & E3); try lia. split; lra.
  - destruct (L q p r u) as (E1 & E2 & E3); try lia. split; lra.
  - destruct (L q p u r) as (E1 & E2 & E3); try lia. split; lra.
Qed.

Lemma upd_l2_orbit no nu l X ho hv w s a b i j : (a < b)%nat -> (b < nu)%nat -> (i < j)%nat -> (j < no)%nat ->
  let v := (w * l a b i j - X a b i j) / (hv a a + hv b b - ho i i - ho j j - w + s) in
  let n := l a b i j + v in
  orbit (fst (upd_l2 no nu l X ho hv w s)) a b i j = (n, - n, - n, n) /\ orbit (snd (upd_l2 no nu l X ho hv w s)) a b i j = (v, - v, - v, v).
Proof.
  intros Ha Hb Hi Hj v n.
  assert (E : (orbit (fst (upd_l2 no nu l X ho hv w s)) a b i j, orbit (snd (upd_l2 no nu l X ho hv w s)) a b i j) = ((n, - n, - n, n), (v, - v, - v, v))).
  { apply (fold_visit (fun st : mat4 * mat4 => (orbit (fst st) a b i j, orbit (snd st) a b i j)) (upd_l2_body ho hv w s) (loop_ijab no nu) (i, j, a, b)
      (fun x => let l0 := snd (fst x) in let v := (w * l0 - snd (snd x)) / (hv a a + hv b b - ho i i - ho j j - w + s) in
                let n := l0 + v in ((n, - n, - n, n), (v, - v, - v, v))) (l, X)).
    - intros [[[i' j'] a'] b'] Hc Hne [t' r']. apply loop_ijab_in in Hc. unfold orbit. simpl.
      rewrite !(wr4_other _ _ _ _ _ _ b a j i), !(wr4_other _ _ _ _ _ _ a b j i), !(wr4_other _ _ _ _ _ _ b a i j), !(wr4_other _ _ _ _ _ _ a b i j) by neq. reflexivity.
    - intros [t' r']. unfold orbit. simpl. wr. reflexivity.
    - apply loop_ijab_nodup.
    - apply loop_ijab_in. lia. }
  split; [exact (f_equal fst E)|exact (f_equal snd E)].
Qed.
Lemma upd_l2_out no nu l X ho hv w s p q r u : p = q \/ r = u \/ ~ (p < nu /\ q < nu /\ r < no /\ u < no)%nat ->
  fst (upd_l2 no nu l X ho hv w s) p q r u = l p q r u.
Proof.
  intros H. unfold upd_l2. apply (fold_untouched (fun st : mat4 * mat4 => fst st p q r u)). intros [[[i' j'] a'] b'] Hc [t' r'].
  apply loop_ijab_in in Hc. simpl. rewrite !(wr4_other _ _ _ _ _ _ p q r u) by neq. reflexivity.
Qed.
Theorem upd_l2_ok no nu l X ho hv w s p q r u : anti4 l -> anti4 X -> (p < nu)%nat -> (q < nu)%nat -> (r < no)%nat -> (u < no)%nat ->
  fst (upd_l2 no nu l X ho hv w s) p q r u = l p q r u + (w * l p q r u - X p q r u) / (hv p p + hv q q - ho r r - ho u u - w + s).
Proof.
  intros Hl HX Hp Hq Hr Hu.
  assert (Z : p = q \/ r = u -> fst (upd_l2 no nu l X ho hv w s) p q r u = l p q r u + (w * l p q r u - X p q r u) / (hv p p + hv q q - ho r r - ho u u - w + s)).
  { intros Hd. rewrite (upd_l2_out no nu l X ho hv w s p q r u) by tauto. rewrite (anti4_diag _ p q r u HX Hd), (anti4_diag _ p q r u Hl Hd). unfold Rdiv. ring. }
  destruct (Nat.eq_dec p q) as [|Npq]; [now apply Z; left|]. destruct (Nat.eq_dec r u) as [|Nru]; [now apply Z; right|]. clear Z.
  assert (T1 := fun a b i j => proj1 (Hl a b i j)). assert (T2 := fun a b i j => proj2 (Hl a b i j)).
  assert (A1 := fun a b i j => proj1 (HX a b i j)). assert (A2 := fun a b i j => proj2 (HX a b i j)).
  set (f := fst (upd_l2 no nu l X ho hv w s)).
  assert (L : forall a b i j, (a < b)%nat -> (b < nu)%nat -> (i < j)%nat -> (j < no)%nat ->
    let n := l a b i j + (w * l a b i j - X a b i j) / (hv a a + hv b b - ho i i - ho j j - w + s) in
    f b a j i = n /\ f a b j i = - n /\ f b a i j = - n /\ f a b i j = n).
  { intros a b i j H1 H2 H3 H4 n. destruct (upd_l2_orbit no nu l X ho hv w s a b i j H1 H2 H3 H4) as [E1 _]. fold f in E1. unfold orbit in E1.
    injection E1 as -> -> -> ->. unfold n. tauto. }
  destruct (Nat.lt_ge_cases p q) as [Hpq|Hpq], (Nat.lt_ge_cases r u) as [Hru|Hru].
  - destruct (L p q r u) as (_ & _ & _ & ->); try lia. reflexivity.
  - destruct (L p q u r) as (_ & -> & _ & _); try lia. rewrite (T2 p q u r), (A2 p q u r).
    replace (hv p p + hv q q - ho u u - ho r r - w + s) with (hv p p + hv q q - ho r r - ho u u - w + s) by ring. unfold Rdiv. ring.
  - destruct (L q p r u) as (_ & _ & -> & _); try lia. rewrite (T1 q p r u), (A1 q p r u).
    replace (hv q q + hv p p - ho r r - ho u u - w + s) with (hv p p + hv q q - ho r r - ho u u - w + s) by ring. unfold Rdiv. ring.
  - destruct (L q p u r) as (-> & _); try lia. rewrite (T1 q p u r), (A1 q p u r), (T2 p q u r), (A2 p q u r).
    replace (hv q q + hv p p - ho u u - ho r r - w + s) with (hv p p + hv q q - ho r r - ho u u - w + s) by ring. unfold Rdiv. ring.
Qed.
