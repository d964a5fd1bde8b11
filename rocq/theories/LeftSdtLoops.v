(** The triples loops of the left CCSDT iteration (proof support). *)
From Coq Require Import Reals Arith List Bool Lia Lra FunctionalExtensionality.
From Verif Require Import RSum IntegralsModel TensorObjs TensorSpec LoopModel CcsdtUpdate SdtLoops LeftSdtUpdate.
Import ListNotations.
Local Open Scope R_scope.
(** * A loop whose increment is read from the arrays it updates *)
Section L.
Variables (loop : list cell) (own : cell -> cell) (val : cell -> R -> R -> R) (copies res : cell -> list (bool * cell)) (canon : cell -> cell) (sign : cell -> bool).
Hypothesis ND : NoDup loop.
Hypothesis Ho : forall k, In k loop -> canon (own k) = k /\ sign (own k) = true.
Hypothesis Hc : forall k s q, In k loop -> In (s, q) (copies k) -> canon q = k /\ sign q = s.
Hypothesis Hr : forall k s q, In k loop -> In (s, q) (res k) -> canon q = k /\ sign q = s.
Notation step := (fun st k => pass6 (own k) (val k (at6 (fst st) (own k)) (at6 (snd st) (own k))) (copies k) (res k) st).
Notation run t x := (fold_left step loop (t, x)).
Lemma step_away u r k p : In k loop -> canon p <> k -> at6 (fst (step (u, r) k)) p = at6 u p /\ at6 (snd (step (u, r) k)) p = at6 r p.
Proof.
  intros Hk Nk. cbn [pass6 fst snd]. assert (E1 : p <> own k) by (intros ->; apply Nk; now apply Ho).
  rewrite (copies_at (own k) (copies k) p true), (resid_at (res k) p true).
  - replace (existsb (fun x => eq6 p (snd x)) (copies k)) with false by (symmetry; apply not_true_iff_false; rewrite exists_in; intros (s & C); apply (Hc k) in C as (C & _); auto).
    replace (existsb (fun x => eq6 p (snd x)) (res k)) with false by (symmetry; apply not_true_iff_false; rewrite exists_in; intros (s & C); apply (Hr k) in C as (C & _); auto).
    now rewrite at_wr_ne.
  - intros s q Hin ->. exfalso. apply Hr in Hin as (C & _); auto.
  - intros s q Hin ->. apply Hc in Hin as (_ & <-); auto. now apply Ho.
  - intros s q Hin ->. exfalso. apply Hc in Hin as (C & _); auto.
Qed.
Lemma read_other t x p : ~ In (canon p) loop -> at6 (fst (run t x)) p = at6 t p /\ at6 (snd (run t x)) p = at6 x p.
Proof.
  intros Np. assert (F := fold_obs step (fun st => (at6 (fst st) p, at6 (snd st) p)) (fun x => x) (canon p) loop ND).
  assert (G : forall s k, In k loop -> k <> canon p -> (at6 (fst (step s k)) p, at6 (snd (step s k)) p) = (at6 (fst s) p, at6 (snd s) p)).
  { intros [u r] k Hk Nk. destruct (step_away u r k p Hk (not_eq_sym Nk)) as (-> & ->). reflexivity. }
  destruct (F G) with (s := (t, x)) as (_ & E); [intros s C; contradiction|]. specialize (E Np). cbn [fst snd] in E. injection E as -> ->. now split.
Qed.
Lemma read_own t x k p : In k loop -> (p = own k \/ exists s, In (s, p) (copies k)) -> (exists s, In (s, p) (res k)) ->
  at6 (fst (run t x)) p = signed (sign p) (at6 t (own k) + val k (at6 t (own k)) (at6 x (own k))) /\ at6 (snd (run t x)) p = signed (sign p) (val k (at6 t (own k)) (at6 x (own k))).
Proof.
  intros Hk Hp Hq.
  assert (Cp : canon p = k) by (destruct Hp as [->|(s & C)]; [now apply Ho|apply (Hc k) in C; [tauto|exact Hk]]).
  assert (Co : canon (own k) = k) by now apply Ho.
  assert (A : forall l, NoDup l -> (forall k', In k' l -> In k' loop) -> forall st, (In k l -> at6 (fst (fold_left step l st)) p = signed (sign p) (at6 (fst st) (own k) + val k (at6 (fst st) (own k)) (at6 (snd st) (own k))) /\
      at6 (snd (fold_left step l st)) p = signed (sign p) (val k (at6 (fst st) (own k)) (at6 (snd st) (own k)))) /\
      (~ In k l -> at6 (fst (fold_left step l st)) p = at6 (fst st) p /\ at6 (snd (fold_left step l st)) p = at6 (snd st) p)).
  { induction l as [|k' l IH]; intros Nl Il [u r]; [split; [intros []|now split]|]. apply NoDup_cons_iff in Nl as (Nk & Nl).
    specialize (IH Nl (fun q Hq' => Il q (or_intror Hq')) (step (u, r) k')). destruct IH as (I1 & I2). assert (Hk' := Il k' (or_introl eq_refl)). cbn [fold_left]. split.
    - intros [->|Hin].
      + destruct (I2 Nk) as (-> & ->). cbn [pass6 fst snd].
        assert (O1 : forall s q, In (s, q) (copies k) -> q = own k -> s = true) by (intros s q Hin ->; apply Hc in Hin as (_ & <-); auto; now apply Ho).
        rewrite (copies_at (own k) (copies k) p (sign p) O1) by (intros s q Hin ->; apply Hc in Hin as (_ & <-); auto).
        rewrite (resid_at (res k) p (sign p)) by (intros s q Hin ->; apply Hr in Hin as (_ & <-); auto). rewrite at_wr_eq.
        replace (existsb (fun x => eq6 p (snd x)) (res k)) with true by (symmetry; now apply exists_in).
        split; [|reflexivity]. destruct (existsb (fun x => eq6 p (snd x)) (copies k)) eqn:E; [reflexivity|]. destruct Hp as [->|C]; [|apply exists_in in C; congruence].
        rewrite at_wr_eq. replace (sign (own k)) with true by (symmetry; now apply Ho). reflexivity.
      + assert (Nkk : canon (own k) <> k') by (rewrite Co; intros ->; contradiction).
        destruct (I1 Hin) as (-> & ->). destruct (step_away u r k' (own k) Hk' Nkk) as (-> & ->). now split.
    - intros Nin. assert (Nkk : canon p <> k') by (rewrite Cp; intros ->; apply Nin; now left). destruct (I2 (fun C => Nin (or_intror C))) as (-> & ->). exact (step_away u r k' p Hk' Nkk). }
  exact (proj1 (A loop ND (fun _ H => H) (t, x)) Hk).
Qed.
End L.

Definition own6 (q : cell) : cell := let '(i, j, k, a, b, c) := q in (a, b, c, i, j, k).
Definition den_l3 (ho hv : mat2) (w s : R) (a b c i j k : nat) : R := - ho i i - ho j j - ho k k + hv a a + hv b b + hv c c - w + s.
Definition den_l3b (hoa hva hob hvb : mat2) (w s : R) (a b c i j k : nat) : R := - hoa i i - hoa j j - hob k k + hva a a + hva b b + hvb c c - w + s.
Definition den_l3c (hoa hva hob hvb : mat2) (w s : R) (a b c i j k : nat) : R := - hoa i i - hob j j - hob k k + hva a a + hvb b b + hvb c c - w + s.
Definition inc_l (l X : mat6) (w : R) (den : nat -> nat -> nat -> nat -> nat -> nat -> R) : mat6 := fun a b c i j k => (w * l a b c i j k - X a b c i j k) / den a b c i j k.
Definition ap6 {A} (f : nat -> nat -> nat -> nat -> nat -> nat -> A) (p : cell) : A := let '(a, b, c, i, j, k) := p in f a b c i j k.
Lemma lc3 no nu k s q : In k (loop3 no nu) -> In (s, q) (at_list copies3 (own6 k)) -> canon3 q = k /\ sign3 q = s.
Proof. destruct k as [[[[[ii jj] kk] aa] bb] cc]. intros Hk Hin. apply loop3_in in Hk as (H1 & _ & H2 & _). cbn [own6 at_list] in Hin. scan Hin fin3. Qed.
Lemma lr3 no nu k s q : In k (loop3 no nu) -> In (s, q) (at_list resid3 (own6 k)) -> canon3 q = k /\ sign3 q = s.
Proof. destruct k as [[[[[ii jj] kk] aa] bb] cc]. intros Hk Hin. apply loop3_in in Hk as (H1 & _ & H2 & _). cbn [own6 at_list] in Hin. scan Hin fin3. Qed.
Lemma lo3' no nu k : In k (loop3 no nu) -> canon3 (own6 k) = k /\ sign3 (own6 k) = true.
Proof. destruct k as [[[[[ii jj] kk] aa] bb] cc]. intros Hk. apply loop3_in in Hk as (H1 & _ & H2 & _). cbn [own6]. fin3. Qed.
Lemma lc3b na nb ma mb k s q : In k (loop3b na nb ma mb) -> In (s, q) (at_list copies3b (own6 k)) -> canon3b q = k /\ sign3b q = s.
Proof. destruct k as [[[[[ii jj] kk] aa] bb] cc]. intros Hk Hin. apply loop3b_in in Hk as (H1 & _ & H2 & _). cbn [own6 at_list] in Hin. scan Hin fin3b. Qed.
Lemma lr3b na nb ma mb k s q : In k (loop3b na nb ma mb) -> In (s, q) (at_list resid3b (own6 k)) -> canon3b q = k /\ sign3b q = s.
Proof. destruct k as [[[[[ii jj] kk] aa] bb] cc]. intros Hk Hin. apply loop3b_in in Hk as (H1 & _ & H2 & _). cbn [own6 at_list] in Hin. scan Hin fin3b. Qed.
Lemma lo3b na nb ma mb k : In k (loop3b na nb ma mb) -> canon3b (own6 k) = k /\ sign3b (own6 k) = true.
Proof. destruct k as [[[[[ii jj] kk] aa] bb] cc]. intros Hk. apply loop3b_in in Hk as (H1 & _ & H2 & _). cbn [own6]. fin3b. Qed.
Lemma lc3c na nb ma mb k s q : In k (loop3c na nb ma mb) -> In (s, q) (at_list copies3c (own6 k)) -> canon3c q = k /\ sign3c q = s.
Proof. destruct k as [[[[[ii jj] kk] aa] bb] cc]. intros Hk Hin. apply loop3c_in in Hk as (_ & H1 & _ & H2). cbn [own6 at_list] in Hin. scan Hin fin3b. Qed.
Lemma lr3c na nb ma mb k s q : In k (loop3c na nb ma mb) -> In (s, q) (at_list resid3c (own6 k)) -> canon3c q = k /\ sign3c q = s.
Proof. destruct k as [[[[[ii jj] kk] aa] bb] cc]. intros Hk Hin. apply loop3c_in in Hk as (_ & H1 & _ & H2). cbn [own6 at_list] in Hin. scan Hin fin3b. Qed.
Lemma lo3c na nb ma mb k : In k (loop3c na nb ma mb) -> canon3c (own6 k) = k /\ sign3c (own6 k) = true.
Proof. destruct k as [[[[[ii jj] kk] aa] bb] cc]. intros Hk. apply loop3c_in in Hk as (_ & H1 & _ & H2). cbn [own6]. fin3b. Qed.
Section A.
Variables (no nu : nat) (l X : mat6) (ho hv : mat2) (w s : R).
Notation D := (inc_l l X w (den_l3 ho hv w s)).
Notation V := (fun (q : cell) (y x : R) => (w * y - x) / ap6 (den_l3 ho hv w s) (own6 q)).
Notation U := (upd_l3 no nu l X ho hv w s).
Lemma lrun3 : U = fold_left (fun st k => pass6 (own6 k) (V k (at6 (fst st) (own6 k)) (at6 (snd st) (own6 k))) (at_list copies3 (own6 k)) (at_list resid3 (own6 k)) st) (loop3 no nu) (l, X).
Proof. unfold upd_l3. f_equal. apply functional_extensionality; intros st. apply functional_extensionality; intros q. destruct q as [[[[[ii jj] kk] aa] bb] cc]. reflexivity. Qed.
Hypothesis Al : anti6 l.
Hypothesis AX : anti6 X.
Lemma ld_anti : anti6 D.
Proof.
  destruct Al as (A1 & A2 & A3 & A4). destruct AX as (B1 & B2 & B3 & B4). unfold inc_l. split; [|split; [|split]]; intros a b c i j k; rewrite <- frac_opp.
  - rewrite (A1 a), (B1 a). f_equal; [ring|unfold den_l3; ring].
  - rewrite (A2 a), (B2 a). f_equal; [ring|unfold den_l3; ring].
  - rewrite (A3 a), (B3 a). f_equal; [ring|unfold den_l3; ring].
  - rewrite (A4 a), (B4 a). f_equal; [ring|unfold den_l3; ring].
Qed.
Lemma anti6_twice (g : mat6) a b c i j k : anti6 g -> (a = b \/ a = c \/ b = c \/ i = j \/ i = k \/ j = k)%nat -> g a b c i j k = 0.
Proof.
  intros (A1 & A2 & A3 & A4). intros [->|[->|[->|[->|[->| ->]]]]]; apply zero_of_anti.
  - apply A1.
  - refine (proj2 (proj2 (proj2 (proj2 (perm3 (fun a b c => g a b c i j k) _ _ c b c))))); intros; [apply A1|apply A2].
  - apply A2. - apply A3.
  - refine (proj2 (proj2 (proj2 (proj2 (perm3 (fun i j k => g a b c i j k) _ _ k j k))))); intros; [apply A3|apply A4].
  - apply A4.
Qed.
Lemma anti6_reverse (g : mat6) x y z u v t : anti6 g -> g x y z u v t = g z y x t v u.
Proof.
  intros (A1 & A2 & A3 & A4). rewrite (A1 x), (A2 y), (A1 y), (A3 z y x u), (A4 z y x v), (A3 z y x v). ring.
Qed.
Lemma perms_rev a b c x y z : perms a b c x y z -> perms a b c z y x. Proof. unfold perms. tauto. Qed.
Lemma upd_l3_out a b c i j k : ~ In (canon3 (a, b, c, i, j, k)) (loop3 no nu) -> fst U a b c i j k = l a b c i j k /\ snd U a b c i j k = X a b c i j k.
Proof.
  intros N. rewrite lrun3. exact (read_other (loop3 no nu) own6 V (fun k => at_list copies3 (own6 k)) (fun k => at_list resid3 (own6 k)) canon3 sign3 (loop3_nodup no nu) (lo3' no nu) (lc3 no nu) (lr3 no nu) l X (a, b, c, i, j, k) N).
Qed.
Lemma upd_l3_ok a b c i j k : (a < nu)%nat -> (b < nu)%nat -> (c < nu)%nat -> (i < no)%nat -> (j < no)%nat -> (k < no)%nat ->
  fst U a b c i j k = l a b c i j k + D a b c i j k.
Proof.
  intros Ha Hb Hc Hi Hj Hk.
  destruct (Nat.eq_dec a b) as [E1|E1]; [|destruct (Nat.eq_dec a c) as [E2|E2]; [|destruct (Nat.eq_dec b c) as [E3|E3]; [|destruct (Nat.eq_dec i j) as [E4|E4]; [|destruct (Nat.eq_dec i k) as [E5|E5]; [|destruct (Nat.eq_dec j k) as [E6|E6]]]]]];
    try (assert (N := lo_hi a b c ltac:(tauto)) || assert (N := lo_hi i j k ltac:(tauto));
     destruct (upd_l3_out a b c i j k) as (-> & _); [unfold canon3; rewrite loop3_in; tauto|]; rewrite (anti6_twice D a b c i j k ld_anti) by tauto; ring).
  destruct (three_sorted a b c E1 E2 E3) as (x & y & z & L1 & P1). destruct (three_sorted i j k E4 E5 E6) as (u & v & t & L2 & P2).
  assert (Hin : In (u, v, t, x, y, z) (loop3 no nu)).
  { apply loop3_in. clear - P1 P2 L1 L2 Ha Hb Hc Hi Hj Hk. unfold perms in P1, P2.
    assert (t < no)%nat by (clear P1; repeat match goal with H : _ \/ _ |- _ => destruct H as [H|H] end; injection P2 as -> -> ->; assumption).
    assert (z < nu)%nat by (clear P2; repeat match goal with H : _ \/ _ |- _ => destruct H as [H|H] end; injection P1 as -> -> ->; assumption). tauto. }
  assert (Q : fst U a b c i j k = signed (sign3 (a, b, c, i, j, k)) (l x y z u v t + D x y z u v t)).
  { rewrite lrun3. destruct (resid3_has a b c i j k z y x t v u (perms_rev _ _ _ _ _ _ P1) (perms_rev _ _ _ _ _ _ P2)) as (e & He).
    refine (proj1 (read_own (loop3 no nu) own6 V (fun k => at_list copies3 (own6 k)) (fun k => at_list resid3 (own6 k)) canon3 sign3 (loop3_nodup no nu) (lo3' no nu) (lc3 no nu) (lr3 no nu) l X (u, v, t, x, y, z) (a, b, c, i, j, k) Hin _ _)).
    - cbn [own6 at_list]. exact (copies3_has a b c i j k z y x t v u (perms_rev _ _ _ _ _ _ P1) (perms_rev _ _ _ _ _ _ P2)).
    - cbn [own6 at_list]. now exists e. }
  rewrite Q. assert (AD := ld_anti). rewrite (anti6_reverse D x y z u v t AD), (anti6_reverse l x y z u v t Al).
  refine (signs (fun a b c i j k => l a b c i j k + D a b c i j k) x y z u v t a b c i j k _ L1 L2 P1 P2).
  destruct Al as (A1 & A2 & A3 & A4). destruct AD as (B1 & B2 & B3 & B4). split; [|split; [|split]]; intros a' b' c' i' j' k'.
  + rewrite A1, B1. ring. + rewrite A2, B2. ring. + rewrite A3, B3. ring. + rewrite A4, B4. ring.
Qed.
End A.
Section B.
Variables (na nb ma mb : nat) (l X : mat6) (hoa hva hob hvb : mat2) (w s : R).
Notation D := (inc_l l X w (den_l3b hoa hva hob hvb w s)).
Notation V := (fun (q : cell) (y x : R) => (w * y - x) / ap6 (den_l3b hoa hva hob hvb w s) (own6 q)).
Notation U := (upd_l3b na nb ma mb l X hoa hva hob hvb w s).
Lemma lrun3b : U = fold_left (fun st k => pass6 (own6 k) (V k (at6 (fst st) (own6 k)) (at6 (snd st) (own6 k))) (at_list copies3b (own6 k)) (at_list resid3b (own6 k)) st) (loop3b na nb ma mb) (l, X).
Proof. unfold upd_l3b. f_equal. apply functional_extensionality; intros st. apply functional_extensionality; intros q. destruct q as [[[[[ii jj] kk] aa] bb] cc]. reflexivity. Qed.
Hypothesis Al : anti6b l.
Hypothesis AX : anti6b X.
Lemma ld_antib : anti6b D.
Proof.
  destruct Al as (A1 & A2). destruct AX as (B1 & B2). unfold inc_l. split; intros a b c i j k; rewrite <- frac_opp.
  - rewrite (A1 a), (B1 a). f_equal; [ring|unfold den_l3b; ring].
  - rewrite (A2 a), (B2 a). f_equal; [ring|unfold den_l3b; ring].
Qed.
Lemma upd_l3b_out a b c i j k : ~ In (canon3b (a, b, c, i, j, k)) (loop3b na nb ma mb) -> fst U a b c i j k = l a b c i j k /\ snd U a b c i j k = X a b c i j k.
Proof.
  intros N. rewrite lrun3b. exact (read_other (loop3b na nb ma mb) own6 V (fun k => at_list copies3b (own6 k)) (fun k => at_list resid3b (own6 k)) canon3b sign3b (loop3b_nodup na nb ma mb) (lo3b na nb ma mb) (lc3b na nb ma mb) (lr3b na nb ma mb) l X (a, b, c, i, j, k) N).
Qed.
Lemma upd_l3b_in a b c i j k : In (canon3b (a, b, c, i, j, k)) (loop3b na nb ma mb) ->
  fst U a b c i j k = signed (sign3b (a, b, c, i, j, k)) (at6 l (own6 (canon3b (a, b, c, i, j, k))) + at6 D (own6 (canon3b (a, b, c, i, j, k)))).
Proof.
  intros Hin. rewrite lrun3b.
  refine (proj1 (read_own (loop3b na nb ma mb) own6 V (fun k => at_list copies3b (own6 k)) (fun k => at_list resid3b (own6 k)) canon3b sign3b (loop3b_nodup na nb ma mb) (lo3b na nb ma mb) (lc3b na nb ma mb) (lr3b na nb ma mb) l X (canon3b (a, b, c, i, j, k)) (a, b, c, i, j, k) Hin _ _));
  clear Hin; unfold canon3b, own6, at_list, copies3b, resid3b; destruct (Nat.le_ge_cases a b) as [L1|L1], (Nat.le_ge_cases i j) as [L2|L2];
  rewrite ?(Nat.min_l _ _ L1), ?(Nat.min_r _ _ L1), ?(Nat.max_l _ _ L1), ?(Nat.max_r _ _ L1), ?(Nat.min_l _ _ L2), ?(Nat.min_r _ _ L2), ?(Nat.max_l _ _ L2), ?(Nat.max_r _ _ L2); cbn [In];
    first [left; reflexivity|right; eexists; member|eexists; member].
Qed.
Lemma lsignsb (g : mat6) a b c i j k : anti6b g -> a <> b -> i <> j -> signed (sign3b (a, b, c, i, j, k)) (at6 g (own6 (canon3b (a, b, c, i, j, k)))) = g a b c i j k.
Proof.
  intros (A1 & A2) N1 N2. unfold canon3b, own6, at6, sign3b. destruct (Nat.le_ge_cases a b) as [L1|L1], (Nat.le_ge_cases i j) as [L2|L2];
  rewrite ?(Nat.min_l _ _ L1), ?(Nat.min_r _ _ L1), ?(Nat.max_l _ _ L1), ?(Nat.max_r _ _ L1), ?(Nat.min_l _ _ L2), ?(Nat.min_r _ _ L2), ?(Nat.max_l _ _ L2), ?(Nat.max_r _ _ L2); ltbs; cbn [xorb negb signed].
  - reflexivity. - rewrite A2. ring. - rewrite A1. ring. - rewrite A1, A2. ring.
Qed.
Lemma upd_l3b_ok a b c i j k : (a < ma)%nat -> (b < ma)%nat -> (c < mb)%nat -> (i < na)%nat -> (j < na)%nat -> (k < nb)%nat -> fst U a b c i j k = l a b c i j k + D a b c i j k.
Proof.
  intros Ha Hb Hc Hi Hj Hk. destruct ld_antib as (B1 & B2).
  destruct (Nat.eq_dec a b) as [E1|E1]; [|destruct (Nat.eq_dec i j) as [E2|E2]].
  - destruct (upd_l3b_out a b c i j k) as (-> & _); [unfold canon3b; rewrite loop3b_in; lia|]. subst b. rewrite (zero_of_anti _ (B1 a a c i j k)). ring.
  - destruct (upd_l3b_out a b c i j k) as (-> & _); [unfold canon3b; rewrite loop3b_in; lia|]. subst j. rewrite (zero_of_anti _ (B2 a b c i i k)). ring.
  - rewrite (upd_l3b_in a b c i j k) by (unfold canon3b; rewrite loop3b_in; lia).
    refine (lsignsb (fun a b c i j k => l a b c i j k + D a b c i j k) a b c i j k _ E1 E2). destruct Al as (A1 & A2). split; intros a' b' c' i' j' k'.
    * rewrite A1, B1. ring. * rewrite A2, B2. ring.
Qed.
End B.
Section C.
Variables (na nb ma mb : nat) (l X : mat6) (hoa hva hob hvb : mat2) (w s : R).
Notation D := (inc_l l X w (den_l3c hoa hva hob hvb w s)).
Notation V := (fun (q : cell) (y x : R) => (w * y - x) / ap6 (den_l3c hoa hva hob hvb w s) (own6 q)).
Notation U := (upd_l3c na nb ma mb l X hoa hva hob hvb w s).
Lemma lrun3c : U = fold_left (fun st k => pass6 (own6 k) (V k (at6 (fst st) (own6 k)) (at6 (snd st) (own6 k))) (at_list copies3c (own6 k)) (at_list resid3c (own6 k)) st) (loop3c na nb ma mb) (l, X).
Proof. unfold upd_l3c. f_equal. apply functional_extensionality; intros st. apply functional_extensionality; intros q. destruct q as [[[[[ii jj] kk] aa] bb] cc]. reflexivity. Qed.
Hypothesis Al : anti6c l.
Hypothesis AX : anti6c X.
Lemma ld_antic : anti6c D.
Proof.
  destruct Al as (A1 & A2). destruct AX as (B1 & B2). unfold inc_l. split; intros a b c i j k; rewrite <- frac_opp.
  - rewrite (A1 a), (B1 a). f_equal; [ring|unfold den_l3c; ring].
  - rewrite (A2 a), (B2 a). f_equal; [ring|unfold den_l3c; ring].
Qed.
Lemma upd_l3c_out a b c i j k : ~ In (canon3c (a, b, c, i, j, k)) (loop3c na nb ma mb) -> fst U a b c i j k = l a b c i j k /\ snd U a b c i j k = X a b c i j k.
Proof.
  intros N. rewrite lrun3c. exact (read_other (loop3c na nb ma mb) own6 V (fun k => at_list copies3c (own6 k)) (fun k => at_list resid3c (own6 k)) canon3c sign3c (loop3c_nodup na nb ma mb) (lo3c na nb ma mb) (lc3c na nb ma mb) (lr3c na nb ma mb) l X (a, b, c, i, j, k) N).
Qed.
Lemma upd_l3c_in a b c i j k : In (canon3c (a, b, c, i, j, k)) (loop3c na nb ma mb) ->
  fst U a b c i j k = signed (sign3c (a, b, c, i, j, k)) (at6 l (own6 (canon3c (a, b, c, i, j, k))) + at6 D (own6 (canon3c (a, b, c, i, j, k)))).
Proof.
  intros Hin. rewrite lrun3c.
  refine (proj1 (read_own (loop3c na nb ma mb) own6 V (fun k => at_list copies3c (own6 k)) (fun k => at_list resid3c (own6 k)) canon3c sign3c (loop3c_nodup na nb ma mb) (lo3c na nb ma mb) (lc3c na nb ma mb) (lr3c na nb ma mb) l X (canon3c (a, b, c, i, j, k)) (a, b, c, i, j, k) Hin _ _));
  clear Hin; unfold canon3c, own6, at_list, copies3c, resid3c; destruct (Nat.le_ge_cases b c) as [L1|L1], (Nat.le_ge_cases j k) as [L2|L2];
  rewrite ?(Nat.min_l _ _ L1), ?(Nat.min_r _ _ L1), ?(Nat.max_l _ _ L1), ?(Nat.max_r _ _ L1), ?(Nat.min_l _ _ L2), ?(Nat.min_r _ _ L2), ?(Nat.max_l _ _ L2), ?(Nat.max_r _ _ L2); cbn [In];
    first [left; reflexivity|right; eexists; member|eexists; member].
Qed.
Lemma lsignsc (g : mat6) a b c i j k : anti6c g -> b <> c -> j <> k -> signed (sign3c (a, b, c, i, j, k)) (at6 g (own6 (canon3c (a, b, c, i, j, k)))) = g a b c i j k.
Proof.
  intros (A1 & A2) N1 N2. unfold canon3c, own6, at6, sign3c. destruct (Nat.le_ge_cases b c) as [L1|L1], (Nat.le_ge_cases j k) as [L2|L2];
  rewrite ?(Nat.min_l _ _ L1), ?(Nat.min_r _ _ L1), ?(Nat.max_l _ _ L1), ?(Nat.max_r _ _ L1), ?(Nat.min_l _ _ L2), ?(Nat.min_r _ _ L2), ?(Nat.max_l _ _ L2), ?(Nat.max_r _ _ L2); ltbs; cbn [xorb negb signed].
  - reflexivity. - rewrite A2. ring. - rewrite A1. ring. - rewrite A1, A2. ring.
Qed.
Lemma upd_l3c_ok a b c i j k : (a < ma)%nat -> (b < mb)%nat -> (c < mb)%nat -> (i < na)%nat -> (j < nb)%nat -> (k < nb)%nat -> fst U a b c i j k = l a b c i j k + D a b c i j k.
Proof.
  intros Ha Hb Hc Hi Hj Hk. destruct ld_antic as (B1 & B2).
  destruct (Nat.eq_dec b c) as [E1|E1]; [|destruct (Nat.eq_dec j k) as [E2|E2]].
  - destruct (upd_l3c_out a b c i j k) as (-> & _); [unfold canon3c; rewrite loop3c_in; lia|]. subst c. rewrite (zero_of_anti _ (B1 a b b i j k)). ring.
  - destruct (upd_l3c_out a b c i j k) as (-> & _); [unfold canon3c; rewrite loop3c_in; lia|]. subst k. rewrite (zero_of_anti _ (B2 a b c i j j)). ring.
  - rewrite (upd_l3c_in a b c i j k) by (unfold canon3c; rewrite loop3c_in; lia).
    refine (lsignsc (fun a b c i j k => l a b c i j k + D a b c i j k) a b c i j k _ E1 E2). destruct Al as (A1 & A2). split; intros a' b' c' i' j' k'.
    * rewrite A1, B1. ring. * rewrite A2, B2. ring.
Qed.
End C.
