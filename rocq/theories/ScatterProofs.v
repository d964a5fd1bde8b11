(** Lemmas for C15, C16, C57. *)
From Coq Require Import List Arith Bool Reals Lia Lra.
From Verif Require Import Base PspaceModel PspaceSpec PspaceProofs ScatterModel ScatterSpec.
Import ListNotations.

Definition hits (W : writes) (l r : list nat) : bool := existsb (fun z : list nat * bool => list_eqb l (fst z)) (W r).
Lemma hits_spec : forall W l r, hits W l r = true <-> exists s, In (l, s) (W r).
Proof.
  intros. unfold hits. rewrite existsb_exists. split.
  - intros ((l', s) & H & E). apply list_eqb_spec in E. cbn in E. subst. eauto.
  - intros (s & H). exists (l, s). split; [exact H|]. now apply list_eqb_spec.
Qed.
Definition sgn (b : bool) (t : R) : R := if b then Ropp t else t.

Section Generic.
Variables (shape : list nat) (W : writes) (rank : nat) (groups : list (list nat)) (G : list nat -> Prop)
          (lay canon : list nat -> list nat) (inv : list nat -> bool).
Hypothesis H_id : forall r, G r -> In (lay r, false) (W r).
Hypothesis H_inv : forall r l s, G r -> In (l, s) (W r) -> s = inv l.
Hypothesis H_canon : forall r l s, G r -> In (l, s) (W r) -> canon l = lay r.
Hypothesis H_swap : forall r l s g p q, G r -> In (l, s) (W r) -> In g groups -> In p g -> In q g -> p <> q ->
  In (swap p q l, negb s) (W r).
Hypothesis H_bounds : forall r l s, G r -> In (l, s) (W r) -> in_bounds shape l = true.
Hypothesis H_inj : forall r r', G r -> G r' -> lay r = lay r' -> r = r'.
Hypothesis H_fix : forall l, length l = rank -> ordered_in groups l -> canon l = l.
Hypothesis H_swapswap : forall l g p q, length l = rank -> In g groups -> In p g -> In q g -> p <> q -> swap p q (swap p q l) = l.

Lemma row_spec : forall L t T,
  (forall l s, In (l, s) L -> s = inv l /\ in_bounds shape l = true) ->
  exists X, fold_left (fun T (z : list nat * bool) => write shape T (fst z) (if snd z then Ropp t else t)) L (Some T) = Some X /\
    forall l, X l = if existsb (fun z : list nat * bool => list_eqb l (fst z)) L then sgn (inv l) t else T l.
Proof.
  induction L as [|(l0, s0) L IH]; intros t T H.
  - exists T. split; reflexivity.
  - cbn [fold_left fst snd]. destruct (H l0 s0 (or_introl eq_refl)) as (E & B). unfold write at 2. rewrite B.
    destruct (IH t (fun l => if list_eqb l l0 then if s0 then Ropp t else t else T l)) as (X & EX & HX); [intros; apply H; now right|].
    exists X. split; [exact EX|]. intros l. rewrite HX. cbn [existsb fst].
    destruct (existsb (fun z : list nat * bool => list_eqb l (fst z)) L); [now rewrite orb_true_r|].
    rewrite orb_false_r. destruct (list_eqb l l0) eqn:F; [|reflexivity]. apply list_eqb_spec in F. subst. reflexivity.
Qed.

Lemma map_S_sub : forall r, map (fun x => x - 1) (map S r) = r.
Proof. intros. rewrite map_map. rewrite <- (map_id r) at 2. apply map_ext. intros; lia. Qed.

Lemma scatter_spec : forall rs amps T, length amps = length rs -> (forall r, In r rs -> G r) -> NoDup rs ->
  exists X, scatter shape W (map (map S) rs) amps (Some T) = Some X /\
    (forall l, (forall r, In r rs -> hits W l r = false) -> X l = T l) /\
    (forall l n, n < length rs -> hits W l (nth n rs []) = true -> X l = sgn (inv l) (nth n amps 0%R)).
Proof.
  induction rs as [|r rs IH]; intros [|t amps] T L HG N; cbn in L; try lia.
  - exists T. split; [reflexivity|]. split; [reflexivity|cbn; intros; lia].
  - cbn [map scatter]. unfold scatter_row. rewrite map_S_sub.
    assert (Gr : G r) by (apply HG; now left).
    destruct (row_spec (W r) t T) as (X1 & E1 & H1).
    { intros l s Hl. split; [now apply (H_inv r)|now apply (H_bounds r l s)]. }
    rewrite E1. inversion N as [|? ? NI NR]; subst.
    destruct (IH amps X1 ltac:(lia)) as (X & EX & HX0 & HX1); [intros; apply HG; now right|assumption|].
    exists X. split; [exact EX|]. split.
    + intros l K. rewrite HX0 by (intros; apply K; now right). rewrite H1.
      specialize (K r (or_introl eq_refl)). unfold hits in K. now rewrite K.
    + intros l [|n] Hn Hl; cbn [nth] in *.
      * rewrite HX0.
        { rewrite H1. unfold hits in Hl. now rewrite Hl. }
        intros r' Hr'. destruct (hits W l r') eqn:F; [|reflexivity]. exfalso.
        apply hits_spec in Hl as (s & Hl), F as (s' & F).
        assert (r = r').
        { apply H_inj; auto; [apply HG; now right|]. rewrite <- (H_canon r l s Gr Hl). apply (H_canon r' l s'); auto. apply HG; now right. }
        now subst.
      * apply HX1; [cbn in Hn; lia|exact Hl].
Qed.

Lemma hits_swap : forall r l g p q, G r -> length l = rank -> In g groups -> In p g -> In q g -> p <> q ->
  hits W (swap p q l) r = hits W l r.
Proof.
  intros r l g p q Gr L Hg Hp Hq N. destruct (hits W l r) eqn:F.
  - apply hits_spec in F as (s & F). apply hits_spec. exists (negb s). now apply (H_swap r l s g).
  - destruct (hits W (swap p q l) r) eqn:F2; [|reflexivity]. apply hits_spec in F2 as (s & F2).
    apply (H_swap r _ s g p q) in F2; auto. rewrite (H_swapswap l g p q) in F2 by assumption.
    assert (hits W l r = true) by (apply hits_spec; eauto). congruence.
Qed.
Lemma inv_swap : forall r l g p q, G r -> hits W l r = true -> In g groups -> In p g -> In q g -> p <> q ->
  inv (swap p q l) = negb (inv l).
Proof.
  intros r l g p q Gr F Hg Hp Hq N. apply hits_spec in F as (s & F).
  rewrite <- (H_inv r l s Gr F). symmetry. apply (H_inv r); [assumption|]. now apply (H_swap r l s g).
Qed.

Theorem generic_unfolds : forall rs amps, length amps = length rs -> (forall r, In r rs -> G r) -> NoDup rs ->
  exists X, scatter shape W (map (map S) rs) amps (Some zero_tensor) = Some X /\
    unfolds rank groups lay (map (map S) rs) amps X.
Proof.
  intros rs amps L HG N. destruct (scatter_spec rs amps zero_tensor L HG N) as (X & EX & H0 & H1).
  exists X. split; [exact EX|].
  assert (D : forall l, (exists n, n < length rs /\ hits W l (nth n rs []) = true) \/ forall r, In r rs -> hits W l r = false).
  { intros l. destruct (existsb (hits W l) rs) eqn:E.
    - left. apply existsb_exists in E as (r & Hr & E). apply In_nth with (d := []) in Hr as (n & Hn & <-). eauto.
    - right. intros r Hr. destruct (hits W l r) eqn:F; [|reflexivity].
      assert (existsb (hits W l) rs = true) by (apply existsb_exists; eauto). congruence. }
  assert (MP : forall r, map pred (map S r) = r).
  { intros r. rewrite map_map. cbn. apply map_id. }
  split; [|split].
  - intros l g p q Ll Hg Hp Hq Npq. destruct (D l) as [(n & Hn & F)|F].
    + assert (Gn : G (nth n rs [])) by (apply HG, nth_In; exact Hn).
      rewrite (H1 (swap p q l) n Hn), (H1 l n Hn F); [|rewrite (hits_swap _ l g); assumption].
      rewrite (inv_swap _ l g p q Gn F) by assumption. unfold sgn. destruct (inv l); cbn [negb]; lra.
    + rewrite (H0 l F), H0; [unfold zero_tensor; lra|]. intros r Hr. rewrite (hits_swap r l g) by auto. auto.
  - rewrite map_length. intros n Hn. rewrite nth_indep with (d' := map S []) by (rewrite map_length; exact Hn).
    rewrite map_nth, MP. assert (Gn : G (nth n rs [])) by (apply HG, nth_In; exact Hn).
    rewrite (H1 _ n Hn).
    + rewrite <- (H_inv _ _ _ Gn (H_id _ Gn)). reflexivity.
    + apply hits_spec. exists false. now apply H_id.
  - intros l Ll O K. rewrite H0; [reflexivity|]. intros r Hr. destruct (hits W l r) eqn:F; [|reflexivity]. exfalso.
    apply hits_spec in F as (s & F). apply (H_canon r) in F; [|auto]. rewrite H_fix in F by assumption.
    apply (K (map S r)); [now apply in_map|]. rewrite MP. congruence.
Qed.
End Generic.

(** ** Canonical order and parity of index lists *)
Definition sort2 (x y : nat) : list nat := if x <=? y then [x; y] else [y; x].
Definition sort3 (x y z : nat) : list nat :=
  if x <=? y then (if y <=? z then [x; y; z] else if x <=? z then [x; z; y] else [z; x; y])
  else (if x <=? z then [y; x; z] else if y <=? z then [y; z; x] else [z; y; x]).
Definition inv2 (x y : nat) : bool := negb (x <=? y).
Definition inv3 (x y z : nat) : bool := xorb (inv2 x y) (xorb (inv2 x z) (inv2 y z)).

Definition canon_aaa (l : list nat) := match l with [a; b; c; i; j; k] => sort3 a b c ++ sort3 i j k | _ => l end.
Definition inv_aaa (l : list nat) := match l with [a; b; c; i; j; k] => xorb (inv3 a b c) (inv3 i j k) | _ => false end.
Definition canon_aab (l : list nat) := match l with [a; b; c; i; j; k] => sort2 a b ++ [c] ++ sort2 i j ++ [k] | _ => l end.
Definition inv_aab (l : list nat) := match l with [a; b; c; i; j; k] => xorb (inv2 a b) (inv2 i j) | _ => false end.
Definition canon_abb (l : list nat) := match l with [a; b; c; i; j; k] => [a] ++ sort2 b c ++ [i] ++ sort2 j k | _ => l end.
Definition inv_abb (l : list nat) := match l with [a; b; c; i; j; k] => xorb (inv2 b c) (inv2 j k) | _ => false end.

Lemma leb_t : forall x y, x < y -> (x <=? y) = true. Proof. intros. apply Nat.leb_le. lia. Qed.
Lemma leb_f : forall x y, x < y -> (y <=? x) = false. Proof. intros. apply Nat.leb_gt. lia. Qed.
Lemma ltb_t : forall x y, x < y -> (x <? y) = true. Proof. intros. apply Nat.ltb_lt. lia. Qed.

Definition Grow (s : orbsys) (ps hs : list spin) (r : list nat) : Prop :=
  exists p h, r = p ++ h /\ ordered0 (nunocc s) ps p /\ ordered0 (nocc s) hs h.

Lemma o3 : forall size x (l : list nat), ordered0 size [x; x; x] l -> exists a b c, l = [a; b; c] /\ a < b /\ b < c /\ c < size x.
Proof.
  intros size x l (L & B & O). destruct l as [|a [|b [|c [|]]]]; cbn in L; try lia. exists a, b, c. split; [reflexivity|].
  pose proof (O 0 1 ltac:(cbn; lia) eq_refl). pose proof (O 1 2 ltac:(cbn; lia) eq_refl). pose proof (B 2 ltac:(cbn; lia)). cbn in *. lia.
Qed.
Lemma o2 : forall size x (l : list nat), ordered0 size [x; x] l -> exists a b, l = [a; b] /\ a < b /\ b < size x.
Proof.
  intros size x l (L & B & O). destruct l as [|a [|b [|]]]; cbn in L; try lia. exists a, b. split; [reflexivity|].
  pose proof (O 0 1 ltac:(cbn; lia) eq_refl). pose proof (B 1 ltac:(cbn; lia)). cbn in *. lia.
Qed.
Lemma o11 : forall size (l : list nat), ordered0 size ab l -> exists a b, l = [a; b] /\ a < size Alpha /\ b < size Beta.
Proof.
  intros size l (L & B & O). destruct l as [|a [|b [|]]]; cbn in L; try lia. exists a, b. split; [reflexivity|].
  pose proof (B 0 ltac:(cbn; lia)). pose proof (B 1 ltac:(cbn; lia)). cbn in *. lia.
Qed.
Lemma o21 : forall size (l : list nat), ordered0 size aab l -> exists a b c, l = [a; b; c] /\ a < b /\ b < size Alpha /\ c < size Beta.
Proof.
  intros size l (L & B & O). destruct l as [|a [|b [|c [|]]]]; cbn in L; try lia. exists a, b, c. split; [reflexivity|].
  pose proof (O 0 1 ltac:(cbn; lia) eq_refl). pose proof (B 1 ltac:(cbn; lia)). pose proof (B 2 ltac:(cbn; lia)). cbn in *. lia.
Qed.
Lemma o12 : forall size (l : list nat), ordered0 size abb l -> exists a b c, l = [a; b; c] /\ a < size Alpha /\ b < c /\ c < size Beta.
Proof.
  intros size l (L & B & O). destruct l as [|a [|b [|c [|]]]]; cbn in L; try lia. exists a, b, c. split; [reflexivity|].
  pose proof (O 1 2 ltac:(cbn; lia) eq_refl). pose proof (B 0 ltac:(cbn; lia)). pose proof (B 2 ltac:(cbn; lia)). cbn in *. lia.
Qed.

Ltac open_row H :=
  let p := fresh "p" in let h := fresh "h" in let Hp := fresh "Hp" in let Hh := fresh "Hh" in
  destruct H as (p & h & -> & Hp & Hh);
  first [apply o3 in Hp as (? & ? & ? & -> & ? & ? & ?) | apply o21 in Hp as (? & ? & ? & -> & ? & ? & ?)
        | apply o12 in Hp as (? & ? & ? & -> & ? & ? & ?) | apply o2 in Hp as (? & ? & -> & ? & ?) | apply o11 in Hp as (? & ? & -> & ? & ?)];
  first [apply o3 in Hh as (? & ? & ? & -> & ? & ? & ?) | apply o21 in Hh as (? & ? & ? & -> & ? & ? & ?)
        | apply o12 in Hh as (? & ? & ? & -> & ? & ? & ?) | apply o2 in Hh as (? & ? & -> & ? & ?) | apply o11 in Hh as (? & ? & -> & ? & ?)];
  cbn [app] in *; cbn [nunocc nocc] in *.
(** All order facts as rewriting rules. *)
Ltac order_rules :=
  repeat match goal with H1 : ?x < ?y, H2 : ?y < ?z |- _ =>
    match goal with H : x < z |- _ => fail 1 | _ => assert (x < z) by lia end end.
Ltac use_rules := repeat match goal with H : ?x < ?y |- _ => rewrite ?(leb_t x y H), ?(leb_f x y H), ?(ltb_t x y H); clear H end.
Ltac each H := repeat (destruct H as [H|H]; [injection H as <- <-| ]); [..|destruct H].
Ltac find_in := repeat first [left; reflexivity | right].
Ltac pick H := repeat (destruct H as [<-|H]); [..|destruct H].

Ltac solve_id := intros ? HG; open_row HG; cbn [app]; find_in.
Ltac solve_inv f := intros ? l s0 HG HI; open_row HG; order_rules; cbv beta iota delta [w_aaa w_aab w_abb w_bbb w3p2h_aaa w3p2h_aab w3p2h_abb w3h2p_aaa w3h2p_aab] in HI;
  each HI; cbv beta iota delta [f inv3 inv2]; use_rules; reflexivity.
Ltac solve_canon f := intros ? l s0 HG HI; open_row HG; order_rules; cbv beta iota delta [w_aaa w_aab w_abb w_bbb w3p2h_aaa w3p2h_aab w3p2h_abb w3h2p_aaa w3h2p_aab] in HI;
  each HI; cbv beta iota delta [f sort3 sort2]; use_rules; reflexivity.
Ltac solve_bounds f := intros ? l s0 HG HI; open_row HG; order_rules; cbv beta iota delta [w_aaa w_aab w_abb w_bbb w3p2h_aaa w3p2h_aab w3p2h_abb w3h2p_aaa w3h2p_aab] in HI;
  each HI; cbv beta iota delta [f]; cbn [in_bounds]; use_rules; reflexivity.
Ltac open_len l Ll :=
  repeat (destruct l as [|? l]; [discriminate Ll|cbn [length] in Ll; apply eq_add_S in Ll]);
  destruct l; [|discriminate Ll].
Ltac solve_ss := intros l g p q Ll Hg Hp Hq N; pick Hg; pick Hp; pick Hq; try (exfalso; apply N; reflexivity);
  (open_len l Ll); reflexivity.
Ltac solve_fix3 f g := let F := fresh "F" in let F' := fresh "F" in
  match goal with O : ordered_in _ _ |- _ =>
    pose proof (O g ltac:(cbn; tauto) 0 ltac:(cbn; lia)) as F; pose proof (O g ltac:(cbn; tauto) 1 ltac:(cbn; lia)) as F'; cbn in F, F' end.
Ltac solve_fix2 f g := let F := fresh "F" in
  match goal with O : ordered_in _ _ |- _ => pose proof (O g ltac:(cbn; tauto) 0 ltac:(cbn; lia)) as F; cbn in F end.
Ltac end_fix f := order_rules; cbv beta iota delta [f sort3 sort2]; use_rules; reflexivity.


(** The write tables are natural in the row: they can be checked once on positions. *)
Definition at_pos (r pi : list nat) : list nat := map (fun x => nth x r 0) pi.
Lemma swap_at : forall p q r pi, (forall x, In x pi -> x < length r) -> p < length pi -> q < length pi ->
  swap p q (at_pos r pi) = at_pos r (swap p q pi).
Proof.
  intros p q r pi H Hp Hq. unfold swap, at_pos. rewrite map_length, map_map. apply map_ext_in. intros n Hn. apply in_seq in Hn.
  set (m := if n =? p then q else if n =? q then p else n).
  assert (m < length pi) by (unfold m; destruct (n =? p); [lia|destruct (n =? q); lia]).
  rewrite nth_indep with (d' := nth 0 r 0) by (rewrite map_length; assumption).
  apply (map_nth (fun x => nth x r 0) pi 0 m).
Qed.
Definition same (z z' : list nat * bool) : bool := list_eqb (fst z) (fst z') && Bool.eqb (snd z) (snd z').
Lemma same_spec : forall z z', same z z' = true -> z = z'.
Proof.
  intros (l, b) (l', b') H. unfold same in H. cbn in H. apply andb_true_iff in H as (H1 & H2).
  apply list_eqb_spec in H1. apply eqb_prop in H2. congruence.
Qed.
Definition closed (rank : nat) (groups : list (list nat)) (table : list (list nat * bool)) : bool :=
  forallb (fun z : list nat * bool => (length (fst z) =? rank) && forallb (fun x => x <? rank) (fst z) &&
    forallb (fun g => forallb (fun p => (p <? rank) && forallb (fun q => (p =? q) || existsb (same (swap p q (fst z), negb (snd z))) table) g) g) groups) table.
Lemma closed_swap : forall rank groups (W : writes) pos,
  (forall r, length r = rank -> W r = map (fun z => (at_pos r (fst z), snd z)) (W pos)) ->
  closed rank groups (W pos) = true ->
  forall r l s g p q, length r = rank -> In (l, s) (W r) -> In g groups -> In p g -> In q g -> p <> q ->
  In (swap p q l, negb s) (W r).
Proof.
  intros rank groups W pos Nat C r l s g p q Lr Hl Hg Hp Hq N. rewrite (Nat r Lr) in *.
  apply in_map_iff in Hl as ((pi, s') & E & Hz). cbn in E. injection E as <- <-.
  unfold closed in C. rewrite forallb_forall in C. pose proof (C _ Hz) as K. cbn [fst snd] in K. cbv beta in K.
  apply andb_true_iff in K as (K & K3). apply andb_true_iff in K as (K1 & K2). apply Nat.eqb_eq in K1.
  rewrite forallb_forall in K2. rewrite forallb_forall in K3. pose proof (K3 g Hg) as K4. rewrite forallb_forall in K4.
  pose proof (K4 p Hp) as K5. cbv beta in K5. apply andb_true_iff in K5 as (P1 & K5). rewrite forallb_forall in K5.
  pose proof (K5 q Hq) as K6. cbv beta in K6. pose proof (K4 q Hq) as K7. cbv beta in K7. apply andb_true_iff in K7 as (Q1 & _).
  apply Nat.ltb_lt in P1, Q1. apply orb_true_iff in K6 as [K6|K6]; [apply Nat.eqb_eq in K6; contradiction|].
  apply existsb_exists in K6 as (z' & Hz' & S). apply same_spec in S. subst z'.
  apply in_map_iff. exists (swap p q pi, negb s'). split; [|exact Hz']. cbn [fst snd]. f_equal. symmetry. apply swap_at; [|lia|lia].
  intros x Hx. specialize (K2 x Hx). apply Nat.ltb_lt in K2. lia.
Qed.
Ltac natural := let r' := fresh "r" in let Lr := fresh "L" in intros r' Lr;
  repeat (destruct r' as [|? r']; [discriminate Lr|cbn [length] in Lr; apply eq_add_S in Lr]);
  destruct r'; [|discriminate Lr]; reflexivity.
Lemma Grow_len : forall s ps hs r, Grow s ps hs r -> length r = length ps + length hs.
Proof. intros s ps hs r (p & h & -> & (L1 & _) & (L2 & _)). rewrite app_length. lia. Qed.


Definition c3p2h_aaa (l : list nat) := match l with [a; b; c; j; k] => sort3 a b c ++ sort2 j k | _ => l end.
Definition i3p2h_aaa (l : list nat) := match l with [a; b; c; j; k] => xorb (inv3 a b c) (inv2 j k) | _ => false end.
Definition c3p2h_aab (l : list nat) := match l with [a; b; c; j; k] => sort2 a b ++ [c; j; k] | _ => l end.
Definition i3p2h_aab (l : list nat) := match l with [a; b; c; j; k] => inv2 a b | _ => false end.
Definition c3p2h_abb (l : list nat) := match l with [a; b; c; j; k] => [a] ++ sort2 b c ++ sort2 j k | _ => l end.
Definition i3p2h_abb (l : list nat) := match l with [a; b; c; j; k] => xorb (inv2 b c) (inv2 j k) | _ => false end.
Definition c3h2p_aaa (l : list nat) := match l with [i; b; c; j; k] => lay3h2p (sort2 b c ++ sort3 i j k) | _ => l end.
Definition i3h2p_aaa (l : list nat) := match l with [i; b; c; j; k] => xorb (inv2 b c) (inv3 i j k) | _ => false end.
Definition c3h2p_aab (l : list nat) := match l with [i; b; c; j; k] => lay3h2p ([b; c] ++ sort2 i j ++ [k]) | _ => l end.
Definition i3h2p_aab (l : list nat) := match l with [i; b; c; j; k] => inv2 i j | _ => false end.

Lemma unfold_aaa : forall s rs amps, length amps = length rs -> (forall r, In r rs -> Grow s aaa aaa r) -> NoDup rs ->
  exists X, scatter (shape_aaa s) w_aaa (map (map S) rs) amps (Some zero_tensor) = Some X /\
    unfolds 6 g_aaa (fun r => r) (map (map S) rs) amps X.
Proof.
  intros s. apply (generic_unfolds (shape_aaa s) w_aaa 6 g_aaa (Grow s aaa aaa) (fun r => r) canon_aaa inv_aaa).
  - solve_id.
  - solve_inv inv_aaa.
  - solve_canon canon_aaa.
  - intros r l s0 gg p q HG. apply Grow_len in HG. revert l s0 gg p q.
    intros l s0 gg p q. apply (closed_swap 6 g_aaa w_aaa [0; 1; 2; 3; 4; 5]); [natural|reflexivity|exact HG].
  - solve_bounds shape_aaa.
  - intros r r' HG HG'. tauto.
  - intros l Ll O. open_len l Ll. solve_fix3 canon_aaa [0; 1; 2]. solve_fix3 canon_aaa [3; 4; 5]. end_fix canon_aaa.
  - solve_ss.
Qed.

Lemma unfold_aab : forall s rs amps, length amps = length rs -> (forall r, In r rs -> Grow s aab aab r) -> NoDup rs ->
  exists X, scatter (shape_aab s) w_aab (map (map S) rs) amps (Some zero_tensor) = Some X /\
    unfolds 6 g_aab (fun r => r) (map (map S) rs) amps X.
Proof.
  intros s. apply (generic_unfolds (shape_aab s) w_aab 6 g_aab (Grow s aab aab) (fun r => r) canon_aab inv_aab).
  - solve_id.
  - solve_inv inv_aab.
  - solve_canon canon_aab.
  - intros r l s0 gg p q HG. apply Grow_len in HG. revert l s0 gg p q.
    intros l s0 gg p q. apply (closed_swap 6 g_aab w_aab [0; 1; 2; 3; 4; 5]); [natural|reflexivity|exact HG].
  - solve_bounds shape_aab.
  - intros r r' HG HG'. tauto.
  - intros l Ll O. open_len l Ll. solve_fix2 canon_aab [0; 1]. solve_fix2 canon_aab [3; 4]. end_fix canon_aab.
  - solve_ss.
Qed.

Lemma unfold_abb : forall s rs amps, length amps = length rs -> (forall r, In r rs -> Grow s abb abb r) -> NoDup rs ->
  exists X, scatter (shape_abb s) w_abb (map (map S) rs) amps (Some zero_tensor) = Some X /\
    unfolds 6 g_abb (fun r => r) (map (map S) rs) amps X.
Proof.
  intros s. apply (generic_unfolds (shape_abb s) w_abb 6 g_abb (Grow s abb abb) (fun r => r) canon_abb inv_abb).
  - solve_id.
  - solve_inv inv_abb.
  - solve_canon canon_abb.
  - intros r l s0 gg p q HG. apply Grow_len in HG. revert l s0 gg p q.
    intros l s0 gg p q. apply (closed_swap 6 g_abb w_abb [0; 1; 2; 3; 4; 5]); [natural|reflexivity|exact HG].
  - solve_bounds shape_abb.
  - intros r r' HG HG'. tauto.
  - intros l Ll O. open_len l Ll. solve_fix2 canon_abb [1; 2]. solve_fix2 canon_abb [4; 5]. end_fix canon_abb.
  - solve_ss.
Qed.

Lemma unfold_bbb : forall s rs amps, length amps = length rs -> (forall r, In r rs -> Grow s bbb bbb r) -> NoDup rs ->
  exists X, scatter (shape_bbb s) w_bbb (map (map S) rs) amps (Some zero_tensor) = Some X /\
    unfolds 6 g_aaa (fun r => r) (map (map S) rs) amps X.
Proof.
  intros s. apply (generic_unfolds (shape_bbb s) w_bbb 6 g_aaa (Grow s bbb bbb) (fun r => r) canon_aaa inv_aaa).
  - solve_id.
  - solve_inv inv_aaa.
  - solve_canon canon_aaa.
  - intros r l s0 gg p q HG. apply Grow_len in HG. revert l s0 gg p q.
    intros l s0 gg p q. apply (closed_swap 6 g_aaa w_bbb [0; 1; 2; 3; 4; 5]); [natural|reflexivity|exact HG].
  - solve_bounds shape_bbb.
  - intros r r' HG HG'. tauto.
  - intros l Ll O. open_len l Ll. solve_fix3 canon_aaa [0; 1; 2]. solve_fix3 canon_aaa [3; 4; 5]. end_fix canon_aaa.
  - solve_ss.
Qed.

Lemma unfold_3p2h_aaa : forall s rs amps, length amps = length rs -> (forall r, In r rs -> Grow s aaa aa r) -> NoDup rs ->
  exists X, scatter (shape3p2h_aaa s) w3p2h_aaa (map (map S) rs) amps (Some zero_tensor) = Some X /\
    unfolds 5 g3p2h_aaa (fun r => r) (map (map S) rs) amps X.
Proof.
  intros s. apply (generic_unfolds (shape3p2h_aaa s) w3p2h_aaa 5 g3p2h_aaa (Grow s aaa aa) (fun r => r) c3p2h_aaa i3p2h_aaa).
  - solve_id.
  - solve_inv i3p2h_aaa.
  - solve_canon c3p2h_aaa.
  - intros r l s0 gg p q HG. apply Grow_len in HG. revert l s0 gg p q.
    intros l s0 gg p q. apply (closed_swap 5 g3p2h_aaa w3p2h_aaa [0; 1; 2; 3; 4]); [natural|reflexivity|exact HG].
  - solve_bounds shape3p2h_aaa.
  - intros r r' HG HG'. tauto.
  - intros l Ll O. open_len l Ll. solve_fix3 c3p2h_aaa [0; 1; 2]. solve_fix2 c3p2h_aaa [3; 4]. end_fix c3p2h_aaa.
  - solve_ss.
Qed.

Lemma unfold_3p2h_aab : forall s rs amps, length amps = length rs -> (forall r, In r rs -> Grow s aab ab r) -> NoDup rs ->
  exists X, scatter (shape3p2h_aab s) w3p2h_aab (map (map S) rs) amps (Some zero_tensor) = Some X /\
    unfolds 5 g3p2h_aab (fun r => r) (map (map S) rs) amps X.
Proof.
  intros s. apply (generic_unfolds (shape3p2h_aab s) w3p2h_aab 5 g3p2h_aab (Grow s aab ab) (fun r => r) c3p2h_aab i3p2h_aab).
  - solve_id.
  - solve_inv i3p2h_aab.
  - solve_canon c3p2h_aab.
  - intros r l s0 gg p q HG. apply Grow_len in HG. revert l s0 gg p q.
    intros l s0 gg p q. apply (closed_swap 5 g3p2h_aab w3p2h_aab [0; 1; 2; 3; 4]); [natural|reflexivity|exact HG].
  - solve_bounds shape3p2h_aab.
  - intros r r' HG HG'. tauto.
  - intros l Ll O. open_len l Ll. solve_fix2 c3p2h_aab [0; 1]. end_fix c3p2h_aab.
  - solve_ss.
Qed.

Lemma unfold_3p2h_abb : forall s rs amps, length amps = length rs -> (forall r, In r rs -> Grow s abb bb r) -> NoDup rs ->
  exists X, scatter (shape3p2h_abb s) w3p2h_abb (map (map S) rs) amps (Some zero_tensor) = Some X /\
    unfolds 5 g3p2h_abb (fun r => r) (map (map S) rs) amps X.
Proof.
  intros s. apply (generic_unfolds (shape3p2h_abb s) w3p2h_abb 5 g3p2h_abb (Grow s abb bb) (fun r => r) c3p2h_abb i3p2h_abb).
  - solve_id.
  - solve_inv i3p2h_abb.
  - solve_canon c3p2h_abb.
  - intros r l s0 gg p q HG. apply Grow_len in HG. revert l s0 gg p q.
    intros l s0 gg p q. apply (closed_swap 5 g3p2h_abb w3p2h_abb [0; 1; 2; 3; 4]); [natural|reflexivity|exact HG].
  - solve_bounds shape3p2h_abb.
  - intros r r' HG HG'. tauto.
  - intros l Ll O. open_len l Ll. solve_fix2 c3p2h_abb [1; 2]. solve_fix2 c3p2h_abb [3; 4]. end_fix c3p2h_abb.
  - solve_ss.
Qed.

Lemma unfold_3h2p_aaa : forall s rs amps, length amps = length rs -> (forall r, In r rs -> Grow s aa aaa r) -> NoDup rs ->
  exists X, scatter (shape3h2p_aaa s) w3h2p_aaa (map (map S) rs) amps (Some zero_tensor) = Some X /\
    unfolds 5 g3h2p_aaa lay3h2p (map (map S) rs) amps X.
Proof.
  intros s. apply (generic_unfolds (shape3h2p_aaa s) w3h2p_aaa 5 g3h2p_aaa (Grow s aa aaa) lay3h2p c3h2p_aaa i3h2p_aaa).
  - solve_id.
  - solve_inv i3h2p_aaa.
  - solve_canon c3h2p_aaa.
  - intros r l s0 gg p q HG. apply Grow_len in HG. revert l s0 gg p q.
    intros l s0 gg p q. apply (closed_swap 5 g3h2p_aaa w3h2p_aaa [0; 1; 2; 3; 4]); [natural|reflexivity|exact HG].
  - solve_bounds shape3h2p_aaa.
  - intros r r' HG HG'. apply Grow_len in HG, HG'. cbn in HG, HG'. open_len r HG. open_len r' HG'. cbn. intros E. injection E as <- <- <- <- <-. reflexivity.
  - intros l Ll O. open_len l Ll. solve_fix2 c3h2p_aaa [1; 2]. solve_fix3 c3h2p_aaa [0; 3; 4]. end_fix c3h2p_aaa.
  - solve_ss.
Qed.

Lemma unfold_3h2p_aab : forall s rs amps, length amps = length rs -> (forall r, In r rs -> Grow s ab aab r) -> NoDup rs ->
  exists X, scatter (shape3h2p_aab s) w3h2p_aab (map (map S) rs) amps (Some zero_tensor) = Some X /\
    unfolds 5 g3h2p_aab lay3h2p (map (map S) rs) amps X.
Proof.
  intros s. apply (generic_unfolds (shape3h2p_aab s) w3h2p_aab 5 g3h2p_aab (Grow s ab aab) lay3h2p c3h2p_aab i3h2p_aab).
  - solve_id.
  - solve_inv i3h2p_aab.
  - solve_canon c3h2p_aab.
  - intros r l s0 gg p q HG. apply Grow_len in HG. revert l s0 gg p q.
    intros l s0 gg p q. apply (closed_swap 5 g3h2p_aab w3h2p_aab [0; 1; 2; 3; 4]); [natural|reflexivity|exact HG].
  - solve_bounds shape3h2p_aab.
  - intros r r' HG HG'. apply Grow_len in HG, HG'. cbn in HG, HG'. open_len r HG. open_len r' HG'. cbn. intros E. injection E as <- <- <- <- <-. reflexivity.
  - intros l Ll O. open_len l Ll. solve_fix2 c3h2p_aab [0; 3]. end_fix c3h2p_aab.
  - solve_ss.
Qed.
