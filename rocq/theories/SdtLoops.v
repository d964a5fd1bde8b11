(** The triples update loops and the fixed points of the CCSDT iteration (proof support). *)
From Coq Require Import Reals Arith List Bool Lia Lra FunctionalExtensionality.
From Verif Require Import RSum IntegralsModel TensorObjs TensorSpec LoopModel CcsdModel CcsdUpdate CcsdProps CcsdtModel CcsdtUpdate SdtSpec.
Import ListNotations.
Local Open Scope R_scope.

(** * Folds whose steps touch one group of cells each *)
Lemma fold_obs {S K A : Type} (step : S -> K -> S) (obs : S -> A) (F : A -> A) k0 l : NoDup l ->
  (forall s k, In k l -> k <> k0 -> obs (step s k) = obs s) -> (forall s, In k0 l -> obs (step s k0) = F (obs s)) ->
  forall s, (In k0 l -> obs (fold_left step l s) = F (obs s)) /\ (~ In k0 l -> obs (fold_left step l s) = obs s).
Proof.
  induction l as [|k l IH]; intros ND H1 H2 s; [split; [intros []|reflexivity]|]. apply NoDup_cons_iff in ND as (Nk & ND).
  specialize (IH ND (fun s' k' Hk => H1 s' k' (or_intror Hk)) (fun s' Hk => H2 s' (or_intror Hk)) (step s k)). destruct IH as (I1 & I2). cbn [fold_left]. split.
  - intros [->|Hin]; [rewrite (I2 Nk); apply H2; now left|]. rewrite (I1 Hin). f_equal. apply H1; [now left|]. intros ->. contradiction.
  - intros Nin. rewrite I2 by (intros C; apply Nin; now right). apply H1; [now left|]. intros ->. apply Nin. now left.
Qed.
Lemma eq6_ok p q : eq6 p q = true <-> p = q.
Proof.
  destruct p as [[[[[a b] c] i] j] k], q as [[[[[a' b'] c'] i'] j'] k']. unfold eq6. rewrite !andb_true_iff, !Nat.eqb_eq. split; [intros (((((-> & ->) & ->) & ->) & ->) & ->); reflexivity|].
  intros E. injection E as -> -> -> -> -> ->. repeat split.
Qed.
Lemma at_wr f p q x : at6 (wr6 f q x) p = if eq6 p q then x else at6 f p.
Proof. destruct p as [[[[[a b] c] i] j] k]. reflexivity. Qed.
Lemma at_wr_eq f p x : at6 (wr6 f p x) p = x. Proof. rewrite at_wr. replace (eq6 p p) with true; [reflexivity|symmetry; now apply eq6_ok]. Qed.
Lemma at_wr_ne f p q x : p <> q -> at6 (wr6 f q x) p = at6 f p. Proof. intros N. rewrite at_wr. destruct (eq6 p q) eqn:E; [apply eq6_ok in E; contradiction|reflexivity]. Qed.
Lemma cell_dec (p q : cell) : {p = q} + {p <> q}.
Proof. destruct (eq6 p q) eqn:E; [left; now apply eq6_ok|right; intros C; apply eq6_ok in C; congruence]. Qed.
Lemma copies_own own L : (forall s q, In (s, q) L -> q = own -> s = true) -> forall u, at6 (fold_left (fun u '(s, q) => wr6 u q (signed s (at6 u own))) L u) own = at6 u own.
Proof.
  induction L as [|[s q] L IH]; intros HL u; [reflexivity|]. cbn [fold_left]. rewrite IH by (intros; eapply HL; [right; eassumption|assumption]).
  destruct (cell_dec own q) as [<-|N]; [rewrite at_wr_eq; rewrite (HL s own) by (auto; now left); reflexivity|now apply at_wr_ne].
Qed.
Lemma copies_at own L p s0 : (forall s q, In (s, q) L -> q = own -> s = true) -> (forall s q, In (s, q) L -> q = p -> s = s0) ->
  forall u, at6 (fold_left (fun u '(s, q) => wr6 u q (signed s (at6 u own))) L u) p = (if existsb (fun x => eq6 p (snd x)) L then signed s0 (at6 u own) else at6 u p).
Proof.
  induction L as [|[s q] L IH]; intros H1 H2 u; [reflexivity|]. cbn [fold_left existsb snd].
  rewrite IH by (intros; first [eapply H1; [right; eassumption|assumption]|eapply H2; [right; eassumption|assumption]]).
  assert (O : at6 (wr6 u q (signed s (at6 u own))) own = at6 u own).
  { destruct (cell_dec own q) as [<-|N]; [rewrite at_wr_eq; rewrite (H1 s own) by (auto; now left); reflexivity|now apply at_wr_ne]. }
  rewrite O. destruct (existsb _ L) eqn:E; [now rewrite orb_true_r|]. rewrite orb_false_r, at_wr. destruct (eq6 p q) eqn:Q; [|reflexivity].
  apply eq6_ok in Q. rewrite (H2 s q) by (auto; now left). reflexivity.
Qed.
Lemma resid_at L p s0 x : (forall s q, In (s, q) L -> q = p -> s = s0) ->
  forall u, at6 (fold_left (fun u '(s, q) => wr6 u q (signed s x)) L u) p = (if existsb (fun x => eq6 p (snd x)) L then signed s0 x else at6 u p).
Proof.
  induction L as [|[s q] L IH]; intros H2 u; [reflexivity|]. cbn [fold_left existsb snd]. rewrite IH by (intros; eapply H2; [right; eassumption|assumption]).
  destruct (existsb _ L) eqn:E; [now rewrite orb_true_r|]. rewrite orb_false_r, at_wr. destruct (eq6 p q) eqn:Q; [|reflexivity].
  apply eq6_ok in Q. rewrite (H2 s q) by (auto; now left). reflexivity.
Qed.
Lemma exists_in p L : existsb (fun x : bool * cell => eq6 p (snd x)) L = true <-> exists s, In (s, p) L.
Proof.
  rewrite existsb_exists. split.
  - intros ([s q] & Hi & E). apply eq6_ok in E. cbn [snd] in E. subst. now exists s.
  - intros (s & Hi). exists (s, p). split; [exact Hi|]. now apply eq6_ok.
Qed.

(** * One loop, abstractly *)
Section L.
Variables (loop : list cell) (own : cell -> cell) (val : cell -> R) (copies res : cell -> list (bool * cell)) (canon : cell -> cell) (sign : cell -> bool).
Hypothesis ND : NoDup loop.
Hypothesis Ho : forall k, In k loop -> canon (own k) = k /\ sign (own k) = true.
Hypothesis Hc : forall k s q, In k loop -> In (s, q) (copies k) -> canon q = k /\ sign q = s.
Hypothesis Hr : forall k s q, In k loop -> In (s, q) (res k) -> canon q = k /\ sign q = s.
Notation step := (fun st k => pass6 (own k) (val k) (copies k) (res k) st).
Notation run t := (fold_left step loop (t, fun _ _ _ _ _ _ => 0)).
Lemma loop_other t p : ~ In (canon p) loop -> at6 (fst (run t)) p = at6 t p /\ at6 (snd (run t)) p = 0.
Proof.
  intros Np. assert (F := fold_obs step (fun st => (at6 (fst st) p, at6 (snd st) p)) (fun x => x) (canon p) loop ND).
  assert (G : forall s k, In k loop -> k <> canon p -> (at6 (fst (step s k)) p, at6 (snd (step s k)) p) = (at6 (fst s) p, at6 (snd s) p)).
  { intros [u r] k Hk Nk. cbn [pass6 fst snd]. assert (E1 : p <> own k) by (intros ->; apply Nk; symmetry; now apply Ho).
    rewrite (copies_at (own k) (copies k) p true), (resid_at (res k) p true).
    - replace (existsb (fun x => eq6 p (snd x)) (copies k)) with false by (symmetry; apply not_true_iff_false; rewrite exists_in; intros (s & C); apply (Hc k) in C as (C & _); auto).
      replace (existsb (fun x => eq6 p (snd x)) (res k)) with false by (symmetry; apply not_true_iff_false; rewrite exists_in; intros (s & C); apply (Hr k) in C as (C & _); auto).
      now rewrite at_wr_ne.
    - intros s q Hin ->. exfalso. apply Hr in Hin as (C & _); auto.
    - intros s q Hin ->. apply Hc in Hin as (_ & <-); auto. now apply Ho.
    - intros s q Hin ->. exfalso. apply Hc in Hin as (C & _); auto. }
  destruct (F G) with (s := (t, fun _ _ _ _ _ _ : nat => 0)) as (_ & E); [intros s C; contradiction|]. specialize (E Np). cbn [fst snd] in E. injection E as -> ->. split; [reflexivity|].
  destruct p as [[[[[? ?] ?] ?] ?] ?]. reflexivity.
Qed.
Lemma loop_own t k p : In k loop -> (p = own k \/ exists s, In (s, p) (copies k)) -> (exists s, In (s, p) (res k)) ->
  at6 (fst (run t)) p = signed (sign p) (at6 t (own k) + val k) /\ at6 (snd (run t)) p = signed (sign p) (val k).
Proof.
  intros Hk Hp Hq.
  assert (Cp : canon p = k) by (destruct Hp as [->|(s & C)]; [now apply Ho|apply (Hc k) in C; [tauto|exact Hk]]).
  assert (F := fold_obs step (fun st => (at6 (fst st) (own k), at6 (fst st) p, at6 (snd st) p))
    (fun x => let '(a, _, _) := x in (a + val k, signed (sign p) (a + val k), signed (sign p) (val k))) k loop ND).
  assert (G : forall s k', In k' loop -> k' <> k -> (at6 (fst (step s k')) (own k), at6 (fst (step s k')) p, at6 (snd (step s k')) p) = (at6 (fst s) (own k), at6 (fst s) p, at6 (snd s) p)).
  { intros [u r] k' Hk' Nk. cbn [pass6 fst snd].
    assert (W : forall q, canon q = k -> q <> own k' /\ (forall s, ~ In (s, q) (copies k')) /\ (forall s, ~ In (s, q) (res k'))).
    { intros q Hq'. split; [intros ->|split; intros s C]; [apply Nk; rewrite <- Hq'; symmetry; now apply Ho|apply Hc in C as (C & _); auto; congruence|apply Hr in C as (C & _); auto; congruence]. }
    assert (K : forall q, canon q = k -> at6 (fold_left (fun u '(s, q) => wr6 u q (signed s (at6 u (own k')))) (copies k') (wr6 u (own k') (at6 u (own k') + val k'))) q = at6 u q).
    { intros q Hq'. destruct (W q Hq') as (W1 & W2 & _). rewrite (copies_at (own k') (copies k') q true).
      - replace (existsb (fun x => eq6 q (snd x)) (copies k')) with false by (symmetry; apply not_true_iff_false; rewrite exists_in; intros (s & C); now apply W2 in C). now apply at_wr_ne.
      - intros s q' Hin ->. apply Hc in Hin as (_ & <-); auto. now apply Ho.
      - intros s q' Hin ->. now apply W2 in Hin. }
    destruct (W p Cp) as (_ & _ & W3). rewrite (K p Cp), (K (own k)) by now apply Ho. rewrite (resid_at (res k') p true) by (intros s q' Hin ->; now apply W3 in Hin).
    replace (existsb (fun x => eq6 p (snd x)) (res k')) with false by (symmetry; apply not_true_iff_false; rewrite exists_in; intros (s & C); now apply W3 in C). reflexivity. }
  assert (G2 : forall s, In k loop -> (at6 (fst (step s k)) (own k), at6 (fst (step s k)) p, at6 (snd (step s k)) p) =
     (let '(a, _, _) := (at6 (fst s) (own k), at6 (fst s) p, at6 (snd s) p) in (a + val k, signed (sign p) (a + val k), signed (sign p) (val k)))).
  { intros [u r] _. cbn [pass6 fst snd].
    assert (O1 : forall s q, In (s, q) (copies k) -> q = own k -> s = true) by (intros s q Hin ->; apply Hc in Hin as (_ & <-); auto; now apply Ho).
    rewrite (copies_own (own k) (copies k) O1), at_wr_eq. rewrite (copies_at (own k) (copies k) p (sign p) O1) by (intros s q Hin ->; apply Hc in Hin as (_ & <-); auto).
    rewrite (resid_at (res k) p (sign p)) by (intros s q Hin ->; apply Hr in Hin as (_ & <-); auto). rewrite at_wr_eq.
    replace (existsb (fun x => eq6 p (snd x)) (res k)) with true by (symmetry; now apply exists_in).
    f_equal. f_equal. destruct (existsb (fun x => eq6 p (snd x)) (copies k)) eqn:E; [reflexivity|]. destruct Hp as [->|C]; [|apply exists_in in C; congruence].
    rewrite at_wr_eq. replace (sign (own k)) with true by (symmetry; now apply Ho). reflexivity. }
  destruct (F G G2) with (s := (t, fun _ _ _ _ _ _ : nat => 0)) as (E & _). specialize (E Hk). cbn [fst snd] in E. injection E as _ -> ->. now split.
Qed.
End L.

(** * The loops of the program *)
Lemma nodup_flat {A B} (f : A -> list B) l : NoDup l -> (forall x, In x l -> NoDup (f x)) -> (forall x y z, In z (f x) -> In z (f y) -> x = y) -> NoDup (flat_map f l).
Proof.
  induction l as [|x l IH]; intros N1 N2 N3; [constructor|]. apply NoDup_cons_iff in N1 as (Nx & N1). cbn [flat_map].
  assert (H2 : NoDup (flat_map f l)) by (apply IH; auto; intros; apply N2; now right). assert (H1 : NoDup (f x)) by (apply N2; now left).
  assert (H3 : forall z, In z (f x) -> ~ In z (flat_map f l)) by (intros z Hz C; apply in_flat_map in C as (y & Hy & C); apply Nx; now rewrite (N3 x y z Hz C)).
  clear - H1 H2 H3. induction (f x) as [|z u IHu]; [exact H2|]. apply NoDup_cons_iff in H1 as (Nz & H1). cbn [app]. constructor.
  - rewrite in_app_iff. intros [C|C]; [contradiction|]. apply (H3 z); [now left|exact C].
  - apply IHu; [exact H1|]. intros y Hy. apply H3. now right.
Qed.
Ltac flat_in := repeat match goal with H : In _ (flat_map _ _) |- _ => apply in_flat_map in H as (? & ? & H) | H : In _ (map _ _) |- _ => apply in_map_iff in H as (? & ? & ?) end.
Ltac nodup6 := repeat (apply nodup_flat; [apply seq_NoDup|intros ? _|intros; flat_in; congruence]);
  (apply FinFun.Injective_map_NoDup; [intros ? ? E; congruence|apply seq_NoDup]).
Lemma loop3_nodup no nu : NoDup (loop3 no nu). Proof. unfold loop3. nodup6. Qed.
Lemma loop3b_nodup na nb ma mb : NoDup (loop3b na nb ma mb). Proof. unfold loop3b. nodup6. Qed.
Lemma loop3c_nodup na nb ma mb : NoDup (loop3c na nb ma mb). Proof. unfold loop3c. nodup6. Qed.
Ltac loop_in := intros; split; [intros H; flat_in; repeat match goal with H : In _ (seq _ _) |- _ => apply in_seq in H end; match goal with E : _ = (_, _) |- _ => injection E as <- <- <- <- <- <- end; lia
  |intros; repeat (apply in_flat_map; eexists; split; [apply in_seq; lia|]); apply in_map_iff; eexists; split; [reflexivity|apply in_seq; lia]].
Lemma loop3_in no nu ii jj kk aa bb cc : In (ii, jj, kk, aa, bb, cc) (loop3 no nu) <-> (ii < jj < kk /\ kk < no /\ aa < bb < cc /\ cc < nu)%nat.
Proof.
  unfold loop3. split.
  - intros H. flat_in. repeat match goal with H : In _ (seq _ _) |- _ => apply in_seq in H end. match goal with E : _ = (_, _) |- _ => injection E as <- <- <- <- <- <- end. lia.
  - intros H. apply in_flat_map. exists ii. split; [apply in_seq; lia|]. apply in_flat_map. exists jj. split; [apply in_seq; lia|]. apply in_flat_map. exists kk. split; [apply in_seq; lia|].
    apply in_flat_map. exists aa. split; [apply in_seq; lia|]. apply in_flat_map. exists bb. split; [apply in_seq; lia|]. apply in_map_iff. exists cc. split; [reflexivity|apply in_seq; lia].
Qed.
Lemma loop3b_in na nb ma mb ii jj kk aa bb cc : In (ii, jj, kk, aa, bb, cc) (loop3b na nb ma mb) <-> (ii < jj < na /\ kk < nb /\ aa < bb < ma /\ cc < mb)%nat.
Proof.
  unfold loop3b. split.
  - intros H. flat_in. repeat match goal with H : In _ (seq _ _) |- _ => apply in_seq in H end. match goal with E : _ = (_, _) |- _ => injection E as <- <- <- <- <- <- end. lia.
  - intros H. apply in_flat_map. exists ii. split; [apply in_seq; lia|]. apply in_flat_map. exists jj. split; [apply in_seq; lia|]. apply in_flat_map. exists kk. split; [apply in_seq; lia|].
    apply in_flat_map. exists aa. split; [apply in_seq; lia|]. apply in_flat_map. exists bb. split; [apply in_seq; lia|]. apply in_map_iff. exists cc. split; [reflexivity|apply in_seq; lia].
Qed.
Lemma loop3c_in na nb ma mb ii jj kk aa bb cc : In (ii, jj, kk, aa, bb, cc) (loop3c na nb ma mb) <-> (ii < na /\ jj < kk < nb /\ aa < ma /\ bb < cc < mb)%nat.
Proof.
  unfold loop3c. split.
  - intros H. flat_in. repeat match goal with H : In _ (seq _ _) |- _ => apply in_seq in H end. match goal with E : _ = (_, _) |- _ => injection E as <- <- <- <- <- <- end. lia.
  - intros H. apply in_flat_map. exists ii. split; [apply in_seq; lia|]. apply in_flat_map. exists jj. split; [apply in_seq; lia|]. apply in_flat_map. exists kk. split; [apply in_seq; lia|].
    apply in_flat_map. exists aa. split; [apply in_seq; lia|]. apply in_flat_map. exists bb. split; [apply in_seq; lia|]. apply in_map_iff. exists cc. split; [reflexivity|apply in_seq; lia].
Qed.
(** Sorting and parity of three (two) numbers *)
Definition lo3 x y z := Nat.min x (Nat.min y z).
Definition hi3 x y z := Nat.max x (Nat.max y z).
Definition mi3 x y z := (x + y + z - lo3 x y z - hi3 x y z)%nat.
Definition odd3 x y z := xorb (x <? y)%nat (xorb (x <? z)%nat (y <? z)%nat).
Definition canon3 (p : cell) : cell := let '(a, b, c, i, j, k) := p in (lo3 i j k, mi3 i j k, hi3 i j k, lo3 a b c, mi3 a b c, hi3 a b c).
Definition sign3 (p : cell) : bool := let '(a, b, c, i, j, k) := p in negb (xorb (odd3 a b c) (odd3 i j k)).
Definition canon3b (p : cell) : cell := let '(a, b, c, i, j, k) := p in (Nat.min i j, Nat.max i j, k, Nat.min a b, Nat.max a b, c).
Definition sign3b (p : cell) : bool := let '(a, b, c, i, j, k) := p in negb (xorb (a <? b)%nat (i <? j)%nat).
Definition canon3c (p : cell) : cell := let '(a, b, c, i, j, k) := p in (i, Nat.min j k, Nat.max j k, a, Nat.min b c, Nat.max b c).
Definition sign3c (p : cell) : bool := let '(a, b, c, i, j, k) := p in negb (xorb (b <? c)%nat (j <? k)%nat).
Lemma sorts x y z : (x < y < z)%nat -> forall p q r, (p, q, r) = (x, y, z) \/ (p, q, r) = (x, z, y) \/ (p, q, r) = (y, x, z) \/ (p, q, r) = (y, z, x) \/ (p, q, r) = (z, x, y) \/ (p, q, r) = (z, y, x) ->
  lo3 p q r = x /\ mi3 p q r = y /\ hi3 p q r = z.
Proof. intros H p q r E. unfold mi3, lo3, hi3. repeat (destruct E as [E|E]; [injection E as -> -> ->; lia|]). injection E as -> -> ->. lia. Qed.
Ltac ltbs := repeat match goal with |- context [(?x <? ?y)%nat] => first [replace (x <? y)%nat with true by (symmetry; apply Nat.ltb_lt; lia)|replace (x <? y)%nat with false by (symmetry; apply Nat.ltb_ge; lia)] end.
Ltac sorted3 x y z p q r Hx := let E := fresh in destruct (sorts x y z Hx p q r) as (-> & -> & ->); [intuition congruence|].
Definition anti6 (t : mat6) : Prop :=
  (forall a b c i j k, t a b c i j k = - t b a c i j k) /\ (forall a b c i j k, t a b c i j k = - t a c b i j k) /\
  (forall a b c i j k, t a b c i j k = - t a b c j i k) /\ (forall a b c i j k, t a b c i j k = - t a b c i k j).
Definition anti6b (t : mat6) : Prop := (forall a b c i j k, t a b c i j k = - t b a c i j k) /\ (forall a b c i j k, t a b c i j k = - t a b c j i k).
Definition anti6c (t : mat6) : Prop := (forall a b c i j k, t a b c i j k = - t a c b i j k) /\ (forall a b c i j k, t a b c i j k = - t a b c i k j).
Lemma three_sorted a b c : a <> b -> a <> c -> b <> c -> exists x y z, (x < y < z)%nat /\
  ((a, b, c) = (z, y, x) \/ (a, b, c) = (z, x, y) \/ (a, b, c) = (y, z, x) \/ (a, b, c) = (y, x, z) \/ (a, b, c) = (x, z, y) \/ (a, b, c) = (x, y, z)).
Proof.
  intros. destruct (Nat.lt_total a b) as [?|[?|?]], (Nat.lt_total a c) as [?|[?|?]], (Nat.lt_total b c) as [?|[?|?]]; try lia;
  [exists a, b, c|exists a, c, b|exists c, a, b|exists b, a, c|exists b, c, a|exists c, b, a]; (split; [lia|auto 10]).
Qed.
Lemma perm3 (g : nat -> nat -> nat -> R) : (forall a b c, g a b c = - g b a c) -> (forall a b c, g a b c = - g a c b) ->
  forall x y z, g z x y = - g z y x /\ g y z x = - g z y x /\ g y x z = g z y x /\ g x z y = g z y x /\ g x y z = - g z y x.
Proof.
  intros A B x y z. repeat split.
  - now rewrite B.
  - now rewrite A.
  - rewrite B, A, !Ropp_involutive. reflexivity.
  - rewrite A, B, !Ropp_involutive. reflexivity.
  - rewrite A, B, A. ring.
Qed.
Definition own3 (q : cell) : cell := let '(ii, jj, kk, aa, bb, cc) := q in (cc, bb, aa, kk, jj, ii).
Definition own3b (q : cell) : cell := let '(ii, jj, kk, aa, bb, cc) := q in (bb, aa, cc, jj, ii, kk).
Definition own3c (q : cell) : cell := let '(ii, jj, kk, aa, bb, cc) := q in (aa, cc, bb, ii, kk, jj).
Definition at_list (f : nat -> nat -> nat -> nat -> nat -> nat -> list (bool * cell)) (p : cell) := let '(a, b, c, i, j, k) := p in f a b c i j k.
Ltac scan Hin tac := unfold copies3, resid3, copies3b, resid3b, copies3c, resid3c in Hin; cbn [In] in Hin; repeat (destruct Hin as [Hin|Hin]; [injection Hin as <- <-; tac|]); destruct Hin.
Ltac can3 := match goal with H1 : (?x < ?y < ?z)%nat, H2 : (?u < ?v < ?w)%nat |- (lo3 ?a ?b ?c, _, _, lo3 ?e ?f ?g, _, _) = (?x, _, _, ?u, _, _) =>
  destruct (sorts x y z H1 a b c ltac:(auto 10)) as (-> & -> & ->); destruct (sorts u v w H2 e f g ltac:(auto 10)) as (-> & -> & ->); reflexivity end.
Ltac fin3 := split; [unfold canon3; can3|unfold sign3, odd3; ltbs; reflexivity].
Lemma c3 no nu k s q : In k (loop3 no nu) -> In (s, q) (at_list copies3 (own3 k)) -> canon3 q = k /\ sign3 q = s.
Proof. destruct k as [[[[[ii jj] kk] aa] bb] cc]. intros Hk Hin. apply loop3_in in Hk as (H1 & _ & H2 & _). cbn [own3 at_list] in Hin. scan Hin fin3. Qed.
Lemma r3 no nu k s q : In k (loop3 no nu) -> In (s, q) (at_list resid3 (own3 k)) -> canon3 q = k /\ sign3 q = s.
Proof. destruct k as [[[[[ii jj] kk] aa] bb] cc]. intros Hk Hin. apply loop3_in in Hk as (H1 & _ & H2 & _). cbn [own3 at_list] in Hin. scan Hin fin3. Qed.
Lemma o3 no nu k : In k (loop3 no nu) -> canon3 (own3 k) = k /\ sign3 (own3 k) = true.
Proof. destruct k as [[[[[ii jj] kk] aa] bb] cc]. intros Hk. apply loop3_in in Hk as (H1 & _ & H2 & _). cbn [own3]. fin3. Qed.
Ltac fin3b := split; [cbn [canon3b canon3c]; repeat match goal with |- context [Nat.min ?x ?y] => first [rewrite (Nat.min_l x y) by lia|rewrite (Nat.min_r x y) by lia] | |- context [Nat.max ?x ?y] => first [rewrite (Nat.max_l x y) by lia|rewrite (Nat.max_r x y) by lia] end; reflexivity
  |unfold sign3b, sign3c; ltbs; reflexivity].
Lemma c3b na nb ma mb k s q : In k (loop3b na nb ma mb) -> In (s, q) (at_list copies3b (own3b k)) -> canon3b q = k /\ sign3b q = s.
Proof. destruct k as [[[[[ii jj] kk] aa] bb] cc]. intros Hk Hin. apply loop3b_in in Hk as (H1 & _ & H2 & _). cbn [own3b at_list] in Hin. scan Hin fin3b. Qed.
Lemma r3b na nb ma mb k s q : In k (loop3b na nb ma mb) -> In (s, q) (at_list resid3b (own3b k)) -> canon3b q = k /\ sign3b q = s.
Proof. destruct k as [[[[[ii jj] kk] aa] bb] cc]. intros Hk Hin. apply loop3b_in in Hk as (H1 & _ & H2 & _). cbn [own3b at_list] in Hin. scan Hin fin3b. Qed.
Lemma o3b na nb ma mb k : In k (loop3b na nb ma mb) -> canon3b (own3b k) = k /\ sign3b (own3b k) = true.
Proof. destruct k as [[[[[ii jj] kk] aa] bb] cc]. intros Hk. apply loop3b_in in Hk as (H1 & _ & H2 & _). cbn [own3b]. fin3b. Qed.
Lemma c3c na nb ma mb k s q : In k (loop3c na nb ma mb) -> In (s, q) (at_list copies3c (own3c k)) -> canon3c q = k /\ sign3c q = s.
Proof. destruct k as [[[[[ii jj] kk] aa] bb] cc]. intros Hk Hin. apply loop3c_in in Hk as (_ & H1 & _ & H2). cbn [own3c at_list] in Hin. scan Hin fin3b. Qed.
Lemma r3c na nb ma mb k s q : In k (loop3c na nb ma mb) -> In (s, q) (at_list resid3c (own3c k)) -> canon3c q = k /\ sign3c q = s.
Proof. destruct k as [[[[[ii jj] kk] aa] bb] cc]. intros Hk Hin. apply loop3c_in in Hk as (_ & H1 & _ & H2). cbn [own3c at_list] in Hin. scan Hin fin3b. Qed.
Lemma o3c na nb ma mb k : In k (loop3c na nb ma mb) -> canon3c (own3c k) = k /\ sign3c (own3c k) = true.
Proof. destruct k as [[[[[ii jj] kk] aa] bb] cc]. intros Hk. apply loop3c_in in Hk as (_ & H1 & _ & H2). cbn [own3c]. fin3b. Qed.

Definition new3 (t X : mat6) (den : nat -> nat -> nat -> nat -> nat -> nat -> R) (comb : mat6 -> mat6) : mat6 := fun a b c i j k => t a b c i j k + comb X a b c i j k / den a b c i j k.
Lemma frac_opp x y : - x / y = - (x / y). Proof. unfold Rdiv. ring. Qed.
Definition inc3 (X : mat6) (den : nat -> nat -> nat -> nat -> nat -> nat -> R) (comb : mat6 -> mat6) : mat6 := fun a b c i j k => comb X a b c i j k / den a b c i j k.
Lemma zero_of_anti x : x = - x -> x = 0. Proof. lra. Qed.
Lemma lo_hi x y z : (x = y \/ x = z \/ y = z)%nat -> ~ (lo3 x y z < mi3 x y z < hi3 x y z)%nat.
Proof. unfold mi3, lo3, hi3. lia. Qed.
Ltac member := repeat (first [left; reflexivity|right]).
Section U.
Variables (no nu : nat) (t X : mat6) (fo fv : mat2) (s : R).
Notation D := (inc3 X (den3 fo fv s) comb3).
Notation G := (new3 t X (den3 fo fv s) comb3).
Lemma run3 : upd_t3 no nu t X fo fv s = fold_left (fun st k => pass6 (own3 k) (at6 D (own3 k)) (at_list copies3 (own3 k)) (at_list resid3 (own3 k)) st) (loop3 no nu) (t, fun _ _ _ _ _ _ => 0).
Proof. unfold upd_t3. f_equal. apply functional_extensionality; intros st. apply functional_extensionality; intros q. destruct q as [[[[[ii jj] kk] aa] bb] cc]. reflexivity. Qed.
Lemma D_anti : anti6 D.
Proof.
  unfold inc3. split; [|split; [|split]]; intros a b c i j k; rewrite <- frac_opp; (f_equal; [unfold comb3; ring|unfold den3; ring]).
Qed.
Lemma D_twice a b c i j k : (a = b \/ a = c \/ b = c \/ i = j \/ i = k \/ j = k)%nat -> D a b c i j k = 0.
Proof.
  destruct D_anti as (A1 & A2 & A3 & A4). set (g := D) in *. clearbody g. intros [->|[->|[->|[->|[->| ->]]]]]; apply zero_of_anti.
  - apply A1.
  - refine (proj2 (proj2 (proj2 (proj2 (perm3 (fun a b c => g a b c i j k) _ _ c b c))))); intros; [apply A1|apply A2].
  - apply A2. - apply A3.
  - refine (proj2 (proj2 (proj2 (proj2 (perm3 (fun i j k => g a b c i j k) _ _ k j k))))); intros; [apply A3|apply A4].
  - apply A4.
Qed.
Lemma upd_t3_out a b c i j k : ~ In (canon3 (a, b, c, i, j, k)) (loop3 no nu) -> fst (upd_t3 no nu t X fo fv s) a b c i j k = t a b c i j k /\ snd (upd_t3 no nu t X fo fv s) a b c i j k = 0.
Proof.
  intros N. rewrite run3. exact (loop_other (loop3 no nu) own3 (fun k => at6 D (own3 k)) (fun k => at_list copies3 (own3 k)) (fun k => at_list resid3 (own3 k)) canon3 sign3 (loop3_nodup no nu) (o3 no nu) (c3 no nu) (r3 no nu) t (a, b, c, i, j, k) N).
Qed.
Lemma resid3_all a b c i j k : map snd (resid3 a b c i j k) = flat_map (fun '(p, q, r) => map (fun '(x, y, z) => (p, q, r, x, y, z)) [(i, j, k); (k, i, j); (j, k, i); (i, k, j); (j, i, k); (k, j, i)]) [(a, b, c); (b, c, a); (c, a, b); (a, c, b); (b, a, c); (c, b, a)].
Proof. reflexivity. Qed.
Lemma copies3_all a b c i j k : (a, b, c, i, j, k) :: map snd (copies3 a b c i j k) = flat_map (fun '(p, q, r) => map (fun '(x, y, z) => (p, q, r, x, y, z)) [(i, j, k); (k, i, j); (j, k, i); (i, k, j); (j, i, k); (k, j, i)]) [(a, b, c); (b, a, c); (a, c, b); (c, b, a); (b, c, a); (c, a, b)].
Proof. reflexivity. Qed.
Definition perms (a b c x y z : nat) : Prop := (a, b, c) = (z, y, x) \/ (a, b, c) = (z, x, y) \/ (a, b, c) = (y, z, x) \/ (a, b, c) = (y, x, z) \/ (a, b, c) = (x, z, y) \/ (a, b, c) = (x, y, z).
Lemma resid3_has a b c i j k x y z u v w : perms a b c x y z -> perms i j k u v w -> exists e, In (e, (a, b, c, i, j, k)) (resid3 z y x w v u).
Proof.
  intros P1 P2. assert (H : In (a, b, c, i, j, k) (map snd (resid3 z y x w v u))).
  { rewrite resid3_all. apply in_flat_map. exists (a, b, c). split.
    - cbn [In]. unfold perms in P1. intuition congruence.
    - change (a, b, c, i, j, k) with ((fun '(x', y', z') => (a, b, c, x', y', z')) (i, j, k)). apply in_map. cbn [In]. unfold perms in P2. intuition congruence. }
  apply in_map_iff in H as ((e & q) & E & H). cbn in E. subst q. now exists e.
Qed.
Lemma copies3_has a b c i j k x y z u v w : perms a b c x y z -> perms i j k u v w -> (a, b, c, i, j, k) = (z, y, x, w, v, u) \/ exists e, In (e, (a, b, c, i, j, k)) (copies3 z y x w v u).
Proof.
  intros P1 P2. assert (H : In (a, b, c, i, j, k) ((z, y, x, w, v, u) :: map snd (copies3 z y x w v u))).
  { rewrite copies3_all. apply in_flat_map. exists (a, b, c). split.
    - cbn [In]. unfold perms in P1. intuition congruence.
    - change (a, b, c, i, j, k) with ((fun '(x', y', z') => (a, b, c, x', y', z')) (i, j, k)). apply in_map. cbn [In]. unfold perms in P2. intuition congruence. }
  destruct H as [H|H]; [left; symmetry; exact H|right].
  apply in_map_iff in H as ((e & q) & E & H). cbn in E. subst q. now exists e.
Qed.
Lemma upd_t3_in a b c i j k x y z u v w : In (u, v, w, x, y, z) (loop3 no nu) -> perms a b c x y z -> perms i j k u v w ->
  fst (upd_t3 no nu t X fo fv s) a b c i j k = signed (sign3 (a, b, c, i, j, k)) (t z y x w v u + D z y x w v u) /\
  snd (upd_t3 no nu t X fo fv s) a b c i j k = signed (sign3 (a, b, c, i, j, k)) (D z y x w v u).
Proof.
  intros Hin P1 P2. rewrite run3. destruct (resid3_has a b c i j k x y z u v w P1 P2) as (e & He).
  apply (loop_own (loop3 no nu) own3 (fun k => at6 D (own3 k)) (fun k => at_list copies3 (own3 k)) (fun k => at_list resid3 (own3 k)) canon3 sign3 (loop3_nodup no nu) (o3 no nu) (c3 no nu) (r3 no nu) t (u, v, w, x, y, z) (a, b, c, i, j, k) Hin).
  - cbn [own3 at_list]. exact (copies3_has a b c i j k x y z u v w P1 P2).
  - cbn [own3 at_list]. now exists e.
Qed.
Lemma signs (g : mat6) x y z u v w a b c i j k : anti6 g -> (x < y < z)%nat -> (u < v < w)%nat ->
  perms a b c x y z -> perms i j k u v w ->
  signed (sign3 (a, b, c, i, j, k)) (g z y x w v u) = g a b c i j k.
Proof.
  intros (A1 & A2 & A3 & A4) L1 L2 P1 P2. unfold perms in P1, P2.
  assert (V := perm3 (fun a b c => g a b c i j k) (fun a b c => A1 a b c i j k) (fun a b c => A2 a b c i j k) x y z). cbv beta in V.
  assert (W := perm3 (fun i j k => g z y x i j k) (fun i j k => A3 z y x i j k) (fun i j k => A4 z y x i j k) u v w). cbv beta in W. clear A1 A2 A3 A4.
  destruct V as (V1 & V2 & V3 & V4 & V5). destruct W as (W1 & W2 & W3 & W4 & W5).
  unfold sign3. repeat match goal with H : _ \/ _ |- _ => destruct H as [H|H] end; injection P1 as -> -> ->; injection P2 as -> -> ->; unfold odd3; ltbs; cbn [xorb negb signed];
  rewrite ?V1, ?V2, ?V3, ?V4, ?V5, ?W1, ?W2, ?W3, ?W4, ?W5; ring.
Qed.
Lemma upd_t3_ok a b c i j k : anti6 t -> (a < nu)%nat -> (b < nu)%nat -> (c < nu)%nat -> (i < no)%nat -> (j < no)%nat -> (k < no)%nat ->
  fst (upd_t3 no nu t X fo fv s) a b c i j k = t a b c i j k + D a b c i j k /\ snd (upd_t3 no nu t X fo fv s) a b c i j k = D a b c i j k.
Proof.
  intros At Ha Hb Hc Hi Hj Hk.
  destruct (Nat.eq_dec a b) as [E1|E1]; [|destruct (Nat.eq_dec a c) as [E2|E2]; [|destruct (Nat.eq_dec b c) as [E3|E3]; [|destruct (Nat.eq_dec i j) as [E4|E4]; [|destruct (Nat.eq_dec i k) as [E5|E5]; [|destruct (Nat.eq_dec j k) as [E6|E6]]]]]];
    try (assert (N := lo_hi a b c ltac:(tauto)) || assert (N := lo_hi i j k ltac:(tauto));
     destruct (upd_t3_out a b c i j k) as (-> & ->); [unfold canon3; rewrite loop3_in; tauto|]; rewrite D_twice by tauto; split; ring).
  destruct (three_sorted a b c E1 E2 E3) as (x & y & z & L1 & P1). destruct (three_sorted i j k E4 E5 E6) as (u & v & w & L2 & P2).
  assert (Hin : In (u, v, w, x, y, z) (loop3 no nu)).
  { apply loop3_in. clear - P1 P2 L1 L2 Ha Hb Hc Hi Hj Hk. unfold perms in P1, P2.
    assert (w < no)%nat by (clear P1; repeat match goal with H : _ \/ _ |- _ => destruct H as [H|H] end; injection P2 as -> -> ->; assumption).
    assert (z < nu)%nat by (clear P2; repeat match goal with H : _ \/ _ |- _ => destruct H as [H|H] end; injection P1 as -> -> ->; assumption). tauto. }
  destruct (upd_t3_in a b c i j k x y z u v w Hin P1 P2) as (-> & ->). split.
  - refine (signs (fun a b c i j k => t a b c i j k + D a b c i j k) x y z u v w a b c i j k _ L1 L2 P1 P2).
    destruct At as (A1 & A2 & A3 & A4). destruct D_anti as (B1 & B2 & B3 & B4). split; [|split; [|split]]; intros a' b' c' i' j' k'.
    + rewrite A1, B1. ring. + rewrite A2, B2. ring. + rewrite A3, B3. ring. + rewrite A4, B4. ring.
  - exact (signs D x y z u v w a b c i j k D_anti L1 L2 P1 P2).
Qed.
End U.
Section V.
Variables (na nb ma mb : nat) (t X : mat6) (foa fva fob fvb : mat2) (s : R).
Notation D := (inc3 X (den3b foa fva fob fvb s) comb3b).
Notation DC := (inc3 X (den3c foa fva fob fvb s) comb3c).
Lemma run3b : upd_t3b na nb ma mb t X foa fva fob fvb s = fold_left (fun st k => pass6 (own3b k) (at6 D (own3b k)) (at_list copies3b (own3b k)) (at_list resid3b (own3b k)) st) (loop3b na nb ma mb) (t, fun _ _ _ _ _ _ => 0).
Proof. unfold upd_t3b. f_equal. apply functional_extensionality; intros st. apply functional_extensionality; intros q. destruct q as [[[[[ii jj] kk] aa] bb] cc]. reflexivity. Qed.
Lemma run3c : upd_t3c na nb ma mb t X foa fva fob fvb s = fold_left (fun st k => pass6 (own3c k) (at6 DC (own3c k)) (at_list copies3c (own3c k)) (at_list resid3c (own3c k)) st) (loop3c na nb ma mb) (t, fun _ _ _ _ _ _ => 0).
Proof. unfold upd_t3c. f_equal. apply functional_extensionality; intros st. apply functional_extensionality; intros q. destruct q as [[[[[ii jj] kk] aa] bb] cc]. reflexivity. Qed.
Lemma D_antib : anti6b D.
Proof. unfold inc3. split; intros a b c i j k; rewrite <- frac_opp; (f_equal; [unfold comb3b; ring|unfold den3b; ring]). Qed.
Lemma D_antic : anti6c DC.
Proof. unfold inc3. split; intros a b c i j k; rewrite <- frac_opp; (f_equal; [unfold comb3c; ring|unfold den3c; ring]). Qed.
Lemma upd_t3b_out a b c i j k : ~ In (canon3b (a, b, c, i, j, k)) (loop3b na nb ma mb) -> fst (upd_t3b na nb ma mb t X foa fva fob fvb s) a b c i j k = t a b c i j k /\ snd (upd_t3b na nb ma mb t X foa fva fob fvb s) a b c i j k = 0.
Proof.
  intros N. rewrite run3b. exact (loop_other (loop3b na nb ma mb) own3b (fun k => at6 D (own3b k)) (fun k => at_list copies3b (own3b k)) (fun k => at_list resid3b (own3b k)) canon3b sign3b (loop3b_nodup na nb ma mb) (o3b na nb ma mb) (c3b na nb ma mb) (r3b na nb ma mb) t (a, b, c, i, j, k) N).
Qed.
Lemma upd_t3c_out a b c i j k : ~ In (canon3c (a, b, c, i, j, k)) (loop3c na nb ma mb) -> fst (upd_t3c na nb ma mb t X foa fva fob fvb s) a b c i j k = t a b c i j k /\ snd (upd_t3c na nb ma mb t X foa fva fob fvb s) a b c i j k = 0.
Proof.
  intros N. rewrite run3c. exact (loop_other (loop3c na nb ma mb) own3c (fun k => at6 DC (own3c k)) (fun k => at_list copies3c (own3c k)) (fun k => at_list resid3c (own3c k)) canon3c sign3c (loop3c_nodup na nb ma mb) (o3c na nb ma mb) (c3c na nb ma mb) (r3c na nb ma mb) t (a, b, c, i, j, k) N).
Qed.
Lemma upd_t3b_in a b c i j k : In (canon3b (a, b, c, i, j, k)) (loop3b na nb ma mb) ->
  fst (upd_t3b na nb ma mb t X foa fva fob fvb s) a b c i j k = signed (sign3b (a, b, c, i, j, k)) (at6 t (own3b (canon3b (a, b, c, i, j, k))) + at6 D (own3b (canon3b (a, b, c, i, j, k)))) /\
  snd (upd_t3b na nb ma mb t X foa fva fob fvb s) a b c i j k = signed (sign3b (a, b, c, i, j, k)) (at6 D (own3b (canon3b (a, b, c, i, j, k)))).
Proof.
  intros Hin. rewrite run3b.
  apply (loop_own (loop3b na nb ma mb) own3b (fun k => at6 D (own3b k)) (fun k => at_list copies3b (own3b k)) (fun k => at_list resid3b (own3b k)) canon3b sign3b (loop3b_nodup na nb ma mb) (o3b na nb ma mb) (c3b na nb ma mb) (r3b na nb ma mb) t (canon3b (a, b, c, i, j, k)) (a, b, c, i, j, k) Hin);
  clear Hin; unfold canon3b, own3b, at_list, copies3b, resid3b; destruct (Nat.le_ge_cases a b) as [L1|L1], (Nat.le_ge_cases i j) as [L2|L2];
  rewrite ?(Nat.min_l _ _ L1), ?(Nat.min_r _ _ L1), ?(Nat.max_l _ _ L1), ?(Nat.max_r _ _ L1), ?(Nat.min_l _ _ L2), ?(Nat.min_r _ _ L2), ?(Nat.max_l _ _ L2), ?(Nat.max_r _ _ L2); cbn [In];
    first [left; reflexivity|right; eexists; member|eexists; member].
Qed.
Lemma upd_t3c_in a b c i j k : In (canon3c (a, b, c, i, j, k)) (loop3c na nb ma mb) ->
  fst (upd_t3c na nb ma mb t X foa fva fob fvb s) a b c i j k = signed (sign3c (a, b, c, i, j, k)) (at6 t (own3c (canon3c (a, b, c, i, j, k))) + at6 DC (own3c (canon3c (a, b, c, i, j, k)))) /\
  snd (upd_t3c na nb ma mb t X foa fva fob fvb s) a b c i j k = signed (sign3c (a, b, c, i, j, k)) (at6 DC (own3c (canon3c (a, b, c, i, j, k)))).
Proof.
  intros Hin. rewrite run3c.
  apply (loop_own (loop3c na nb ma mb) own3c (fun k => at6 DC (own3c k)) (fun k => at_list copies3c (own3c k)) (fun k => at_list resid3c (own3c k)) canon3c sign3c (loop3c_nodup na nb ma mb) (o3c na nb ma mb) (c3c na nb ma mb) (r3c na nb ma mb) t (canon3c (a, b, c, i, j, k)) (a, b, c, i, j, k) Hin);
  clear Hin; unfold canon3c, own3c, at_list, copies3c, resid3c; destruct (Nat.le_ge_cases b c) as [L1|L1], (Nat.le_ge_cases j k) as [L2|L2];
  rewrite ?(Nat.min_l _ _ L1), ?(Nat.min_r _ _ L1), ?(Nat.max_l _ _ L1), ?(Nat.max_r _ _ L1), ?(Nat.min_l _ _ L2), ?(Nat.min_r _ _ L2), ?(Nat.max_l _ _ L2), ?(Nat.max_r _ _ L2); cbn [In];
    first [left; reflexivity|right; eexists; member|eexists; member].
Qed.
Lemma signsb (g : mat6) a b c i j k : anti6b g -> a <> b -> i <> j -> signed (sign3b (a, b, c, i, j, k)) (at6 g (own3b (canon3b (a, b, c, i, j, k)))) = g a b c i j k.
Proof.
  intros (A1 & A2) N1 N2. unfold canon3b, own3b, at6, sign3b. destruct (Nat.le_ge_cases a b) as [L1|L1], (Nat.le_ge_cases i j) as [L2|L2];
  rewrite ?(Nat.min_l _ _ L1), ?(Nat.min_r _ _ L1), ?(Nat.max_l _ _ L1), ?(Nat.max_r _ _ L1), ?(Nat.min_l _ _ L2), ?(Nat.min_r _ _ L2), ?(Nat.max_l _ _ L2), ?(Nat.max_r _ _ L2); ltbs; cbn [xorb negb signed].
  - rewrite A1, A2. ring. - rewrite A1. ring. - rewrite A2. ring. - reflexivity.
Qed.
Lemma signsc (g : mat6) a b c i j k : anti6c g -> b <> c -> j <> k -> signed (sign3c (a, b, c, i, j, k)) (at6 g (own3c (canon3c (a, b, c, i, j, k)))) = g a b c i j k.
Proof.
  intros (A1 & A2) N1 N2. unfold canon3c, own3c, at6, sign3c. destruct (Nat.le_ge_cases b c) as [L1|L1], (Nat.le_ge_cases j k) as [L2|L2];
  rewrite ?(Nat.min_l _ _ L1), ?(Nat.min_r _ _ L1), ?(Nat.max_l _ _ L1), ?(Nat.max_r _ _ L1), ?(Nat.min_l _ _ L2), ?(Nat.min_r _ _ L2), ?(Nat.max_l _ _ L2), ?(Nat.max_r _ _ L2); ltbs; cbn [xorb negb signed].
  - rewrite A1, A2. ring. - rewrite A1. ring. - rewrite A2. ring. - reflexivity.
Qed.
Lemma upd_t3b_ok a b c i j k : anti6b t -> (a < ma)%nat -> (b < ma)%nat -> (c < mb)%nat -> (i < na)%nat -> (j < na)%nat -> (k < nb)%nat ->
  fst (upd_t3b na nb ma mb t X foa fva fob fvb s) a b c i j k = t a b c i j k + D a b c i j k /\ snd (upd_t3b na nb ma mb t X foa fva fob fvb s) a b c i j k = D a b c i j k.
Proof.
  intros At Ha Hb Hc Hi Hj Hk. destruct D_antib as (B1 & B2).
  destruct (Nat.eq_dec a b) as [E1|E1]; [|destruct (Nat.eq_dec i j) as [E2|E2]].
  - destruct (upd_t3b_out a b c i j k) as (-> & ->); [unfold canon3b; rewrite loop3b_in; lia|]. subst b. rewrite (zero_of_anti _ (B1 a a c i j k)). split; ring.
  - destruct (upd_t3b_out a b c i j k) as (-> & ->); [unfold canon3b; rewrite loop3b_in; lia|]. subst j. rewrite (zero_of_anti _ (B2 a b c i i k)). split; ring.
  - destruct (upd_t3b_in a b c i j k) as (-> & ->); [unfold canon3b; rewrite loop3b_in; lia|]. split.
    + refine (signsb (fun a b c i j k => t a b c i j k + D a b c i j k) a b c i j k _ E1 E2). destruct At as (A1 & A2). split; intros a' b' c' i' j' k'.
      * rewrite A1, B1. ring. * rewrite A2, B2. ring.
    + exact (signsb D a b c i j k D_antib E1 E2).
Qed.
Lemma upd_t3c_ok a b c i j k : anti6c t -> (a < ma)%nat -> (b < mb)%nat -> (c < mb)%nat -> (i < na)%nat -> (j < nb)%nat -> (k < nb)%nat ->
  fst (upd_t3c na nb ma mb t X foa fva fob fvb s) a b c i j k = t a b c i j k + DC a b c i j k /\ snd (upd_t3c na nb ma mb t X foa fva fob fvb s) a b c i j k = DC a b c i j k.
Proof.
  intros At Ha Hb Hc Hi Hj Hk. destruct D_antic as (B1 & B2).
  destruct (Nat.eq_dec b c) as [E1|E1]; [|destruct (Nat.eq_dec j k) as [E2|E2]].
  - destruct (upd_t3c_out a b c i j k) as (-> & ->); [unfold canon3c; rewrite loop3c_in; lia|]. subst c. rewrite (zero_of_anti _ (B1 a b b i j k)). split; ring.
  - destruct (upd_t3c_out a b c i j k) as (-> & ->); [unfold canon3c; rewrite loop3c_in; lia|]. subst k. rewrite (zero_of_anti _ (B2 a b c i j j)). split; ring.
  - destruct (upd_t3c_in a b c i j k) as (-> & ->); [unfold canon3c; rewrite loop3c_in; lia|]. split.
    + refine (signsc (fun a b c i j k => t a b c i j k + DC a b c i j k) a b c i j k _ E1 E2). destruct At as (A1 & A2). split; intros a' b' c' i' j' k'.
      * rewrite A1, B1. ring. * rewrite A2, B2. ring.
    + exact (signsc DC a b c i j k D_antic E1 E2).
Qed.
End V.
Lemma frac_zero x y : y <> 0 -> x / y = 0 -> x = 0.
Proof. intros Hy E. replace x with (x / y * y) by (field; exact Hy). rewrite E. ring. Qed.
Ltac fixed6 H Hd := split; intros E a b c i j k Ha Hb Hc Hi Hj Hk; specialize (E a b c i j k Ha Hb Hc Hi Hj Hk);
  [rewrite (proj1 (H a b c i j k Ha Hb Hc Hi Hj Hk)) in E; apply (frac_zero _ _ (Hd a b c i j k Ha Hb Hc Hi Hj Hk)); unfold inc3 in E; lra
  |rewrite (proj1 (H a b c i j k Ha Hb Hc Hi Hj Hk)); unfold inc3; rewrite E; unfold Rdiv; ring].
Definition range6 (n1 n2 n3 n4 n5 n6 : nat) (P : nat -> nat -> nat -> nat -> nat -> nat -> Prop) : Prop :=
  forall a b c i j k, (a < n1)%nat -> (b < n2)%nat -> (c < n3)%nat -> (i < n4)%nat -> (j < n5)%nat -> (k < n6)%nat -> P a b c i j k.
Lemma upd_t3_fix no nu t X fo fv s : anti6 t -> range6 nu nu nu no no no (fun a b c i j k => den3 fo fv s a b c i j k <> 0) ->
  (range6 nu nu nu no no no (fun a b c i j k => fst (upd_t3 no nu t X fo fv s) a b c i j k = t a b c i j k) <->
   range6 nu nu nu no no no (fun a b c i j k => comb3 X a b c i j k = 0)).
Proof. intros At Hd. assert (H := fun a b c i j k => upd_t3_ok no nu t X fo fv s a b c i j k At). unfold range6 in *. fixed6 H Hd. Qed.
Lemma upd_t3b_fix na nb ma mb t X foa fva fob fvb s : anti6b t -> range6 ma ma mb na na nb (fun a b c i j k => den3b foa fva fob fvb s a b c i j k <> 0) ->
  (range6 ma ma mb na na nb (fun a b c i j k => fst (upd_t3b na nb ma mb t X foa fva fob fvb s) a b c i j k = t a b c i j k) <->
   range6 ma ma mb na na nb (fun a b c i j k => comb3b X a b c i j k = 0)).
Proof. intros At Hd. assert (H := fun a b c i j k => upd_t3b_ok na nb ma mb t X foa fva fob fvb s a b c i j k At). unfold range6 in *. fixed6 H Hd. Qed.
Lemma upd_t3c_fix na nb ma mb t X foa fva fob fvb s : anti6c t -> range6 ma mb mb na nb nb (fun a b c i j k => den3c foa fva fob fvb s a b c i j k <> 0) ->
  (range6 ma mb mb na nb nb (fun a b c i j k => fst (upd_t3c na nb ma mb t X foa fva fob fvb s) a b c i j k = t a b c i j k) <->
   range6 ma mb mb na nb nb (fun a b c i j k => comb3c X a b c i j k = 0)).
Proof. intros At Hd. assert (H := fun a b c i j k => upd_t3c_ok na nb ma mb t X foa fva fob fvb s a b c i j k At). unfold range6 in *. fixed6 H Hd. Qed.
Lemma lo_hi_out x y z n : (n <= x \/ n <= y \/ n <= z)%nat -> (n <= hi3 x y z)%nat. Proof. unfold hi3. lia. Qed.
Lemma upd_t3_id no nu t X fo fv s : range6 nu nu nu no no no (fun a b c i j k => fst (upd_t3 no nu t X fo fv s) a b c i j k = t a b c i j k) -> fst (upd_t3 no nu t X fo fv s) = t.
Proof.
  intros E. do 6 (apply functional_extensionality; intros ?).
  match goal with |- fst _ ?a ?b ?c ?i ?j ?k = _ => assert (Q : (a < nu /\ b < nu /\ c < nu /\ i < no /\ j < no /\ k < no)%nat \/ (nu <= a \/ nu <= b \/ nu <= c)%nat \/ (no <= i \/ no <= j \/ no <= k)%nat) by lia end.
  destruct Q as [(?&?&?&?&?&?)|[Q|Q]]; [now apply E|apply upd_t3_out|apply upd_t3_out]; apply lo_hi_out in Q; unfold canon3; rewrite loop3_in; lia.
Qed.
Lemma upd_t3b_id na nb ma mb t X foa fva fob fvb s : range6 ma ma mb na na nb (fun a b c i j k => fst (upd_t3b na nb ma mb t X foa fva fob fvb s) a b c i j k = t a b c i j k) -> fst (upd_t3b na nb ma mb t X foa fva fob fvb s) = t.
Proof.
  intros E. do 6 (apply functional_extensionality; intros ?).
  match goal with |- fst _ ?a ?b ?c ?i ?j ?k = _ => assert (Q : (a < ma /\ b < ma /\ c < mb /\ i < na /\ j < na /\ k < nb)%nat \/ (ma <= a \/ ma <= b \/ mb <= c \/ na <= i \/ na <= j \/ nb <= k)%nat) by lia end.
  destruct Q as [(?&?&?&?&?&?)|Q]; [now apply E|apply upd_t3b_out]; unfold canon3b; rewrite loop3b_in; lia.
Qed.
Lemma upd_t3c_id na nb ma mb t X foa fva fob fvb s : range6 ma mb mb na nb nb (fun a b c i j k => fst (upd_t3c na nb ma mb t X foa fva fob fvb s) a b c i j k = t a b c i j k) -> fst (upd_t3c na nb ma mb t X foa fva fob fvb s) = t.
Proof.
  intros E. do 6 (apply functional_extensionality; intros ?).
  match goal with |- fst _ ?a ?b ?c ?i ?j ?k = _ => assert (Q : (a < ma /\ b < mb /\ c < mb /\ i < na /\ j < nb /\ k < nb)%nat \/ (ma <= a \/ mb <= b \/ mb <= c \/ na <= i \/ nb <= j \/ nb <= k)%nat) by lia end.
  destruct Q as [(?&?&?&?&?&?)|Q]; [now apply E|apply upd_t3c_out]; unfold canon3c; rewrite loop3c_in; lia.
Qed.
