(** C15, C16, C57: dense arrays from excitation lists, zeroing outside the active space. *)
From Coq Require Import List Arith Bool Reals Lia Lra.
From Verif Require Import Base PspaceModel PspaceSpec PspaceProofs PspaceProps ScatterModel ScatterSpec ScatterProofs ScatterZero.
Import ListNotations.

(** ** C15 *)
Lemma rows_Grow : forall s ps hs rows, (forall row, In row rows -> excitation s ps hs row) ->
  exists rs, rows = map (map S) rs /\ forall r, In r rs -> Grow s ps hs r.
Proof.
  intros s ps hs. induction rows as [|r rows IH]; intros H; [exists []; split; [reflexivity|intros ? []]|].
  destruct IH as (rs & -> & G); [intros; apply H; now right|].
  destruct (proj1 (excitation_S _ _ _ _) (H r (or_introl eq_refl))) as (p & h & -> & Hp & Hh).
  exists ((p ++ h) :: rs). split; [reflexivity|]. intros x [<-|K]; [|auto]. now exists p, h.
Qed.
Lemma NoDup_mapmap : forall (rs : list (list nat)), NoDup (map (map S) rs) -> NoDup rs.
Proof. intros. eapply NoDup_map_inv; eassumption. Qed.

(** Every genuine, duplicate-free P space with one amplitude per row is turned into the antisymmetric array with exactly those
    ordered elements (for each spin case; [exists X, ... = Some X]: no index error). *)
Theorem C15_dense_triples : forall s rows amps ps conv groups,
  In (ps, conv, groups)
    [(aaa, convert_t3_aaa s, g_aaa); (aab, convert_t3_aab s, g_aab); (abb, convert_t3_abb s, g_abb); (bbb, convert_t3_bbb s, g_aaa)] ->
  length amps = length rows -> NoDup rows -> rows <> [] -> (forall row, In row rows -> excitation s ps ps row) ->
  exists X, conv rows amps = Some X /\ unfolds 6 groups (fun r => r) rows amps X.
Proof.
  intros s rows amps ps conv groups I L N NE H.
  assert (J : exists shape W, conv = convert_case shape W /\ In (ps, shape, W, groups)
    [(aaa, shape_aaa s, w_aaa, g_aaa); (aab, shape_aab s, w_aab, g_aab); (abb, shape_abb s, w_abb, g_abb); (bbb, shape_bbb s, w_bbb, g_aaa)]).
  { destruct I as [E|[E|[E|[E|[]]]]]; injection E as <- <- <-; eexists; eexists; (split; [reflexivity|cbn; tauto]). }
  clear I. destruct J as (shape & W & -> & I).
  assert (E : convert_case shape W rows amps = scatter shape W rows amps (Some zero_tensor)).
  { unfold convert_case, first_is_placeholder. destruct rows as [|r rows]; [congruence|].
    destruct (list_eqb r (repeat 1 6)) eqn:F; [|reflexivity]. apply list_eqb_spec in F. exfalso. subst r.
    apply (ones_not_excitation s ps); [|apply H; now left].
    destruct I as [E|[E|[E|[E|[]]]]]; injection E as <- <- <- <-; cbn; tauto. }
  rewrite E. clear E NE. destruct (rows_Grow _ _ _ _ H) as (rs & -> & G). rewrite map_length in L. apply NoDup_mapmap in N.
  destruct I as [E|[E|[E|[E|[]]]]]; injection E as <- <- <- <-.
  - now apply unfold_aaa.
  - now apply unfold_aab.
  - now apply unfold_abb.
  - now apply unfold_bbb.
Qed.
(** The empty P space (placeholder) gives the zero array whatever amplitude is attached to the placeholder row. *)
Theorem C15_placeholder : forall s conv rows amps,
  In conv [convert_t3_aaa s; convert_t3_aab s; convert_t3_abb s; convert_t3_bbb s] -> hd_error rows = Some (repeat 1 6) ->
  exists X, conv rows amps = Some X /\ forall l, X l = 0%R.
Proof.
  intros s conv [|r rows] amps I H; [discriminate|]. cbn [hd_error] in H. injection H as ->.
  exists zero_tensor. destruct I as [<-|[<-|[<-|[<-|[]]]]]; split; reflexivity.
Qed.
(** The three clauses of [unfolds] determine every in-range element: the array is unique. *)
Theorem C15_unique : forall groups rows amps X Y, In groups [g_aaa; g_aab; g_abb] -> 
  unfolds 6 groups (fun r => r) rows amps X -> unfolds 6 groups (fun r => r) rows amps Y ->
  forall l, length l = 6 -> X l = Y l.
Proof.
  intros groups rows amps X Y I (AX & LX & ZX) (AY & LY & ZY).
  assert (base : forall l, length l = 6 -> ordered_in groups l -> X l = Y l).
  { intros l Ll O. destruct (in_dec (list_eq_dec Nat.eq_dec) l (map (map pred) rows)) as [K|K].
    - apply in_map_iff in K as (r & <- & K). apply In_nth with (d := []) in K as (n & Hn & <-). now rewrite LX, LY.
    - rewrite ZX, ZY; auto; intros row Hr E; apply K; apply in_map_iff; eauto. }
  assert (rep : forall l g p q, length l = 6 -> In g groups -> In p g -> In q g -> p <> q -> swap p q l = l -> X l = 0%R /\ Y l = 0%R).
  { intros l g p q Ll Hg Hp Hq N E. pose proof (AX l g p q Ll Hg Hp Hq N) as A. pose proof (AY l g p q Ll Hg Hp Hq N) as B.
    rewrite E in A, B. split; lra. }
  assert (step : forall l g p q, length l = 6 -> In g groups -> In p g -> In q g -> p <> q -> X (swap p q l) = Y (swap p q l) -> X l = Y l).
  { intros l g p q Ll Hg Hp Hq N E. rewrite (AX l g p q), (AY l g p q) in E by assumption. lra. }
  intros l Ll. open_len l Ll.
  assert (three : forall (P : nat -> nat -> nat -> Prop),
     (forall x y z, x < y -> y < z -> P x y z) -> (forall y z, P y y z) -> (forall y z, P y z z) ->
     (forall x y z, P y x z -> P x y z) -> (forall x y z, P x z y -> P x y z) -> forall x y z, P x y z).
  { intros P H1 H2 H3 H4 H5.
    assert (Q : forall x y z, x < y -> P x y z).
    { intros x y z A. destruct (lt_eq_lt_dec y z) as [[B|B]|B]; [now apply H1|subst; apply H3|]. apply H5.
      destruct (lt_eq_lt_dec x z) as [[C|C]|C]; [now apply H1|subst; apply H2|]. apply H4. now apply H1. }
    intros x y z. destruct (lt_eq_lt_dec x y) as [[A|A]|A]; [now apply Q|subst; apply H2|]. apply H4. now apply Q. }
  assert (two : forall (P : nat -> nat -> Prop), (forall x y, x < y -> P x y) -> (forall y, P y y) -> (forall x y, P y x -> P x y) -> forall x y, P x y).
  { intros P H1 H2 H3 x y. destruct (lt_eq_lt_dec x y) as [[A|A]|A]; subst; auto. }
  destruct I as [<-|[<-|[<-|[]]]].
  - revert n n0 n1 n2 n3 n4. apply (three (fun a b c => forall i j k, X [a; b; c; i; j; k] = Y [a; b; c; i; j; k])).
    + intros a b c Hab Hbc. apply (three (fun i j k => X [a; b; c; i; j; k] = Y [a; b; c; i; j; k])).
      * intros i j k Hij Hjk. apply base; [reflexivity|]. intros g Hg [|[|m]] Hm; destruct Hg as [<-|[<-|[]]]; cbn in *; lia.
      * intros. destruct (rep [a; b; c; y; y; z] [3; 4; 5] 3 4) as (-> & ->); auto; cbn; tauto.
      * intros. destruct (rep [a; b; c; y; z; z] [3; 4; 5] 4 5) as (-> & ->); auto; cbn; tauto.
      * intros. apply (step _ [3; 4; 5] 3 4); auto; cbn; tauto.
      * intros. apply (step _ [3; 4; 5] 4 5); auto; cbn; tauto.
    + intros y z i j k. destruct (rep [y; y; z; i; j; k] [0; 1; 2] 0 1) as (-> & ->); auto; cbn; tauto.
    + intros y z i j k. destruct (rep [y; z; z; i; j; k] [0; 1; 2] 1 2) as (-> & ->); auto; cbn; tauto.
    + intros x y z H i j k. apply (step _ [0; 1; 2] 0 1); auto; [cbn; tauto|cbn; tauto|cbn; tauto|apply H].
    + intros x y z H i j k. apply (step _ [0; 1; 2] 1 2); auto; [cbn; tauto|cbn; tauto|cbn; tauto|apply H].
  - revert n n0 n1 n2 n3 n4. apply (two (fun a b => forall c i j k, X [a; b; c; i; j; k] = Y [a; b; c; i; j; k])).
    + intros a b Hab c. intros i j k. revert i j k. apply (two (fun i j => forall k, X [a; b; c; i; j; k] = Y [a; b; c; i; j; k])).
      * intros i j Hij k. apply base; [reflexivity|]. intros g Hg [|[|m]] Hm; destruct Hg as [<-|[<-|[]]]; cbn in *; lia.
      * intros y k. destruct (rep [a; b; c; y; y; k] [3; 4] 3 4) as (-> & ->); auto; cbn; tauto.
      * intros x y H k. apply (step _ [3; 4] 3 4); auto; [cbn; tauto|cbn; tauto|cbn; tauto|apply H].
    + intros y c i j k. destruct (rep [y; y; c; i; j; k] [0; 1] 0 1) as (-> & ->); auto; cbn; tauto.
    + intros x y H c i j k. apply (step _ [0; 1] 0 1); auto; [cbn; tauto|cbn; tauto|cbn; tauto|apply H].
  - revert n0 n1. apply (two (fun b c => X [n; b; c; n2; n3; n4] = Y [n; b; c; n2; n3; n4])).
    + intros b c Hbc. revert n3 n4. apply (two (fun j k => X [n; b; c; n2; j; k] = Y [n; b; c; n2; j; k])).
      * intros j k Hjk. apply base; [reflexivity|]. intros g Hg [|[|m]] Hm; destruct Hg as [<-|[<-|[]]]; cbn in *; lia.
      * intros y. destruct (rep [n; b; c; n2; y; y] [4; 5] 4 5) as (-> & ->); auto; cbn; tauto.
      * intros x y H. apply (step _ [4; 5] 4 5); auto; [cbn; tauto|cbn; tauto|cbn; tauto].
    + intros y. destruct (rep [n; y; y; n2; n3; n4] [1; 2] 1 2) as (-> & ->); auto; cbn; tauto.
    + intros x y H. apply (step _ [1; 2] 1 2); auto; [cbn; tauto|cbn; tauto|cbn; tauto].
Qed.
Lemma ex_row : forall s, nu_a s = 3 -> no_a s = 3 -> excitation s aaa aaa [1; 2; 3; 1; 2; 3].
Proof.
  intros s E1 E2. apply excitation_S. exists [0; 1; 2], [0; 1; 2]. split; [reflexivity|]. split; apply c3; cbn; lia.
Qed.
Example C15_instance : exists X, convert_t3_aaa sys0 [[1; 2; 3; 1; 2; 3]] [2%R] = Some X /\
  X [0; 1; 2; 0; 1; 2] = 2%R /\ X [1; 0; 2; 0; 1; 2] = (-2)%R /\ X [1; 2; 0; 2; 1; 0] = (-2)%R /\ X [0; 0; 2; 0; 1; 2] = 0%R.
Proof.
  destruct (C15_dense_triples sys0 [[1; 2; 3; 1; 2; 3]] [2%R] aaa (convert_t3_aaa sys0) g_aaa) as (X & E & A & L & Z).
  - now left.
  - reflexivity.
  - repeat constructor. intros [].
  - discriminate.
  - intros row [<-|[]]. now apply ex_row.
  - exists X. split; [exact E|]. pose proof (L 0 ltac:(cbn; lia)) as L0. cbn in L0.
    assert (A1 : forall l p q, length l = 6 -> In p [0;1;2] -> In q [0;1;2] -> p <> q -> X (swap p q l) = Ropp (X l))
      by (intros; apply (A l [0;1;2]); auto; cbn; tauto).
    assert (A2 : forall l p q, length l = 6 -> In p [3;4;5] -> In q [3;4;5] -> p <> q -> X (swap p q l) = Ropp (X l))
      by (intros; apply (A l [3;4;5]); auto; cbn; tauto).
    split; [exact L0|]. split; [|split].
    + change [1; 0; 2; 0; 1; 2] with (swap 0 1 [0; 1; 2; 0; 1; 2]). rewrite A1, L0 by (cbn; auto; lia). lra.
    + change [1; 2; 0; 2; 1; 0] with (swap 3 5 (swap 1 2 (swap 0 1 [0; 1; 2; 0; 1; 2]))).
      rewrite A2, A1, A1, L0 by (cbn; auto; lia). lra.
    + pose proof (A1 [0; 0; 2; 0; 1; 2] 0 1 eq_refl ltac:(cbn; tauto) ltac:(cbn; tauto) ltac:(lia)) as K.
      change (swap 0 1 [0; 0; 2; 0; 1; 2]) with [0; 0; 2; 0; 1; 2] in K. lra.
Qed.

(** ** C16 *)
Theorem C16_zeroing : forall s n T,
  (exists X, zero_t3aaa s n T = Some X /\ zeroes_outside s n aaa g_aaa (shape_aaa s) T X) /\
  (exists X, zero_t3aab s n T = Some X /\ zeroes_outside s n aab g_aab (shape_aab s) T X) /\
  (exists X, zero_t3abb s n T = Some X /\ zeroes_outside s n abb g_abb (shape_abb s) T X) /\
  (exists X, zero_t3bbb s n T = Some X /\ zeroes_outside s n bbb g_aaa (shape_bbb s) T X).
Proof.
  intros. split; [apply zero_aaa_spec|split; [apply zero_aab_spec|split; [apply zero_abb_spec|apply zero_bbb_spec]]].
Qed.
Lemma active_dec : forall s n ps hs row, in_active_p s n ps hs row \/ ~ in_active_p s n ps hs row.
Proof. intros. unfold in_active_p. lia. Qed.
Lemma distinct_dec : forall groups l, distinct_in groups l \/ ~ distinct_in groups l.
Proof.
  intros. unfold distinct_in.
  destruct (forallb (fun g => forallb (fun p => forallb (fun q => (p =? q) || negb (nth p l 0 =? nth q l 0)) g) g) groups) eqn:E.
  - left. intros g p q Hg Hp Hq N F. rewrite forallb_forall in E. specialize (E g Hg). rewrite forallb_forall in E.
    specialize (E p Hp). rewrite forallb_forall in E. specialize (E q Hq). cbv beta in E.
    apply orb_true_iff in E as [E|E]; [apply Nat.eqb_eq in E; contradiction|].
    apply negb_true_iff, Nat.eqb_neq in E. contradiction.
  - right. intros H. assert (K : forall b, b = true -> b = false -> False) by (intros; congruence). eapply K; [|exact E].
    apply forallb_forall. intros g Hg. apply forallb_forall. intros p Hp. apply forallb_forall. intros q Hq.
    apply orb_true_iff. destruct (Nat.eq_dec p q) as [->|N]; [left; apply Nat.eqb_refl|]. right.
    apply negb_true_iff, Nat.eqb_neq. now apply (H g p q).
Qed.

(** Antisymmetry is preserved and a second application changes nothing. *)
Theorem C16_antisymmetry_and_idempotence : forall s n T ps groups shape Zf,
  In (ps, groups, shape, Zf)
    [(aaa, g_aaa, shape_aaa s, zero_t3aaa s n); (aab, g_aab, shape_aab s, zero_t3aab s n);
     (abb, g_abb, shape_abb s, zero_t3abb s n); (bbb, g_aaa, shape_bbb s, zero_t3bbb s n)] ->
  exists X Y, Zf T = Some X /\ Zf X = Some Y /\ (forall l, Y l = X l) /\
    (antisymmetric 6 groups T -> antisymmetric 6 groups X).
Proof.
  intros s n T ps groups shape Zf I.
  assert (K : exists X Y, Zf T = Some X /\ Zf X = Some Y /\ zeroes_outside s n ps groups shape T X /\ zeroes_outside s n ps groups shape X Y /\
    forall l g p q, length l = 6 -> In g groups -> In p g -> In q g -> p <> q ->
      in_bounds shape (swap p q l) = in_bounds shape l /\ (distinct_in groups (swap p q l) <-> distinct_in groups l) /\
      (in_active_p s n ps ps (map S (swap p q l)) <-> in_active_p s n ps ps (map S l))).
  { destruct I as [E|[E|[E|[E|[]]]]]; injection E as <- <- <- <-.
    - destruct (zero_aaa_spec s n T) as (X & E1 & H1), (zero_aaa_spec s n X) as (Y & E2 & H2). exists X, Y. intuition; now apply (swap_aaa s n l g p q).
    - destruct (zero_aab_spec s n T) as (X & E1 & H1), (zero_aab_spec s n X) as (Y & E2 & H2). exists X, Y. intuition; now apply (swap_aab s n l g p q).
    - destruct (zero_abb_spec s n T) as (X & E1 & H1), (zero_abb_spec s n X) as (Y & E2 & H2). exists X, Y. intuition; now apply (swap_abb s n l g p q).
    - destruct (zero_bbb_spec s n T) as (X & E1 & H1), (zero_bbb_spec s n X) as (Y & E2 & H2). exists X, Y. intuition; now apply (swap_bbb s n l g p q). }
  destruct K as (X & Y & E1 & E2 & (H1 & H1') & (H2 & H2') & SW). exists X, Y. split; [exact E1|split; [exact E2|split]].
  - intros l. destruct (in_bounds shape l) eqn:B; [|apply H2'; auto].
    destruct (distinct_dec groups l) as [D|D]; [|apply H2'; auto].
    destruct (active_dec s n ps ps (map S l)) as [A|A]; [now apply H2|].
    rewrite (proj2 (H2 l B D) A), (proj2 (H1 l B D) A). reflexivity.
  - intros AT l g p q Ll Hg Hp Hq N. destruct (SW l g p q Ll Hg Hp Hq N) as (S1 & S2 & S3).
    pose proof (AT l g p q Ll Hg Hp Hq N) as AE.
    destruct (in_bounds shape l) eqn:B; [|rewrite !H1'; auto].
    destruct (distinct_dec groups l) as [D|D]; [|rewrite !H1'; auto; right; tauto].
    destruct (active_dec s n ps ps (map S l)) as [A|A].
    + rewrite (proj1 (H1 l B D) A), (proj1 (H1 _ S1 (proj2 S2 D)) (proj2 S3 A)). exact AE.
    + rewrite (proj2 (H1 l B D) A), (proj2 (H1 _ S1 (proj2 S2 D)) (fun Q => A (proj1 S3 Q))). lra.
Qed.
(** sys0: three occupied and three unoccupied alpha orbitals, one active of each: with num_act = 1 the triple survives, with
    num_act = 2 it is removed. *)
Example C16_instance : exists X Y, zero_t3aaa sys0 1 (fun _ => 5%R) = Some X /\ X [2; 0; 1; 1; 0; 2] = 5%R /\
  zero_t3aaa sys0 2 (fun _ => 5%R) = Some Y /\ Y [2; 0; 1; 1; 0; 2] = 0%R /\ Y [2; 2; 1; 1; 0; 2] = 5%R.
Proof.
  destruct (zero_aaa_spec sys0 1 (fun _ => 5%R)) as (X & E1 & H1 & _), (zero_aaa_spec sys0 2 (fun _ => 5%R)) as (Y & E2 & H2 & H2').
  exists X, Y. split; [exact E1|].
  assert (D : distinct_in g_aaa [2; 0; 1; 1; 0; 2]) by (apply distinct_aaa; lia).
  split; [apply (H1 [2; 0; 1; 1; 0; 2] eq_refl D); apply cnt_aaa; cbn; lia|]. split; [exact E2|].
  split; [apply (H2 [2; 0; 1; 1; 0; 2] eq_refl D); rewrite cnt_aaa; cbn; lia|]. apply H2'. right. rewrite distinct_aaa. lia.
Qed.

(** ** C57 *)
Theorem C57_dense_3p2h : forall s rows amps ps hs conv groups,
  In (ps, hs, conv, groups)
    [(aaa, aa, unravel_3p2h_aaa s, g3p2h_aaa); (aab, ab, unravel_3p2h_aab s, g3p2h_aab); (abb, bb, unravel_3p2h_abb s, g3p2h_abb)] ->
  length amps = length rows -> NoDup rows -> (forall row, In row rows -> excitation s ps hs row) ->
  exists X, conv true rows amps = Some X /\ unfolds 5 groups (fun r => r) rows amps X.
Proof.
  intros s rows amps ps hs conv groups I L N H.
  destruct (rows_Grow _ _ _ _ H) as (rs & -> & G). rewrite map_length in L. apply NoDup_mapmap in N.
  destruct I as [E|[E|[E|[]]]]; injection E as <- <- <- <-.
  - now apply unfold_3p2h_aaa.
  - now apply unfold_3p2h_aab.
  - now apply unfold_3p2h_abb.
Qed.
Theorem C57_dense_3h2p : forall s rows amps ps hs conv groups,
  In (ps, hs, conv, groups)
    [(aa, aaa, unravel_3h2p_aaa s, g3h2p_aaa); (ab, aab, unravel_3h2p_aab s, g3h2p_aab)] ->
  length amps = length rows -> NoDup rows -> (forall row, In row rows -> excitation s ps hs row) ->
  exists X, conv true rows amps = Some X /\ unfolds 5 groups lay3h2p rows amps X.
Proof.
  intros s rows amps ps hs conv groups I L N H.
  destruct (rows_Grow _ _ _ _ H) as (rs & -> & G). rewrite map_length in L. apply NoDup_mapmap in N.
  destruct I as [E|[E|[]]]; injection E as <- <- <- <-.
  - now apply unfold_3h2p_aaa.
  - now apply unfold_3h2p_aab.
Qed.
(** The abb case of the 3h2p conversion exchanges the alpha hole with a beta hole instead of the two beta holes: for no
    non-zero amplitude and no excitation is the result the antisymmetric array, and it is an index error as soon as the alpha hole
    lies beyond the beta occupied range (or the beta hole beyond the alpha one). *)
Theorem C57_3h2p_abb_refuted : forall s b c i j k t,
  excitation s bb abb [b + 1; c + 1; i + 1; j + 1; k + 1] -> t <> 0%R ->
  (no_b s <= i \/ no_a s <= j -> unravel_3h2p_abb s true [[b + 1; c + 1; i + 1; j + 1; k + 1]] [t] = None) /\
  (i < no_b s -> j < no_a s -> exists X,
     unravel_3h2p_abb s true [[b + 1; c + 1; i + 1; j + 1; k + 1]] [t] = Some X /\
     X [i; b; c; k; j] = 0%R /\ ~ antisymmetric 5 g3h2p_abb X /\
     (i = j -> X [i; b; c; j; k] = Ropp t)).
Proof.
  intros s b c i j k t HE Ht. apply excitation_S in HE as (p & h & E & Hp & Hh).
  apply o2 in Hp as (b' & c' & -> & O1 & O2). apply o12 in Hh as (i' & j' & k' & -> & O3 & O4 & O5).
  cbn [app map] in E. rewrite !Nat.add_1_r in E. injection E as <- <- <- <- <-. cbn [nunocc nocc] in *.
  rewrite !Nat.add_1_r. unfold unravel_3h2p_abb, unravel. cbn [scatter]. unfold scatter_row. cbn [map]. rewrite !Nat.sub_succ, !Nat.sub_0_r.
  cbn [w3h2p_abb fold_left fst snd]. unfold shape3h2p_abb.
  assert (LT : forall x y, x < y -> (x <? y) = true) by (intros; now apply Nat.ltb_lt).
  assert (B1 : in_bounds [no_a s; nu_b s; nu_b s; no_b s; no_b s] [i; b; c; j; k] = true) by (cbn [in_bounds]; rewrite !LT by lia; reflexivity).
  assert (B3 : in_bounds [no_a s; nu_b s; nu_b s; no_b s; no_b s] [i; c; b; j; k] = true) by (cbn [in_bounds]; rewrite !LT by lia; reflexivity).
  split.
  - intros K. assert (B2 : in_bounds [no_a s; nu_b s; nu_b s; no_b s; no_b s] [j; b; c; i; k] = false).
    { apply Bool.not_true_iff_false. rewrite !ib_cons. lia. }
    unfold write. rewrite B1, B2. reflexivity.
  - intros K1 K2.
    assert (B2 : in_bounds [no_a s; nu_b s; nu_b s; no_b s; no_b s] [j; b; c; i; k] = true) by (cbn [in_bounds]; rewrite !LT by lia; reflexivity).
    assert (B4 : in_bounds [no_a s; nu_b s; nu_b s; no_b s; no_b s] [j; c; b; i; k] = true) by (cbn [in_bounds]; rewrite !LT by lia; reflexivity).
    unfold write. rewrite B1, B2, B3, B4. eexists. split; [reflexivity|].
    assert (NE : forall l l', l <> l' -> list_eqb l l' = false).
    { intros l l' Hn. destruct (list_eqb l l') eqn:F; [apply list_eqb_spec in F; contradiction|reflexivity]. }
    assert (Z : (if list_eqb [i; b; c; k; j] [j; c; b; i; k] then t else if list_eqb [i; b; c; k; j] [i; c; b; j; k] then Ropp t
      else if list_eqb [i; b; c; k; j] [j; b; c; i; k] then Ropp t else if list_eqb [i; b; c; k; j] [i; b; c; j; k] then t else zero_tensor [i; b; c; k; j]) = 0%R).
    { rewrite !NE; [reflexivity| | | |]; intros F; injection F; lia. }
    split; [exact Z|].
    assert (V : (if list_eqb [i; b; c; j; k] [j; c; b; i; k] then t else if list_eqb [i; b; c; j; k] [i; c; b; j; k] then Ropp t
      else if list_eqb [i; b; c; j; k] [j; b; c; i; k] then Ropp t else if list_eqb [i; b; c; j; k] [i; b; c; j; k] then t else zero_tensor [i; b; c; j; k])
      = if list_eqb [i; b; c; j; k] [j; b; c; i; k] then Ropp t else t).
    { rewrite (NE [i; b; c; j; k] [j; c; b; i; k]), (NE [i; b; c; j; k] [i; c; b; j; k]) by (intros F; injection F; lia).
      assert (R : list_eqb [i; b; c; j; k] [i; b; c; j; k] = true) by now apply list_eqb_spec. rewrite R. reflexivity. }
    split.
    + intros A. specialize (A [i; b; c; j; k] [3; 4] 3 4 eq_refl ltac:(cbn; tauto) ltac:(cbn; tauto) ltac:(cbn; tauto) ltac:(lia)).
      change (swap 3 4 [i; b; c; j; k]) with [i; b; c; k; j] in A. cbv beta in A. rewrite Z, V in A.
      destruct (list_eqb [i; b; c; j; k] [j; b; c; i; k]); lra.
    + intros <-. rewrite V. assert (R : list_eqb [i; b; c; i; k] [i; b; c; i; k] = true) by now apply list_eqb_spec. now rewrite R.
Qed.
Definition sys1 : orbsys := mkOrb 3 3 2 2 1 1 1 1 (fun _ => 0%N) 0%N.
Example C57_instance : excitation sys1 bb abb [0 + 1; 1 + 1; 0 + 1; 1 + 1; 2 + 1] /\ excitation sys1 aa aaa [1; 2; 1; 2; 3].
Proof.
  split; apply excitation_S.
  - exists [0; 1], [0; 1; 2]. split; [reflexivity|]. split; [|apply c12; cbn; lia].
    split; [reflexivity|]. split; [intros [|[|p]] Hp; cbn in *; lia|intros [|[|p]] [|[|q]] Hp _; cbn in *; lia].
  - exists [0; 1], [0; 1; 2]. split; [reflexivity|]. split; [|apply c3; cbn; lia].
    split; [reflexivity|]. split; [intros [|[|p]] Hp; cbn in *; lia|intros [|[|p]] [|[|q]] Hp _; cbn in *; lia].
Qed.

Print Assumptions C15_dense_triples.
Print Assumptions C15_placeholder.
Print Assumptions C15_unique.
Print Assumptions C16_zeroing.
Print Assumptions C16_antisymmetry_and_idempotence.
Print Assumptions C57_dense_3p2h.
Print Assumptions C57_dense_3h2p.
Print Assumptions C57_3h2p_abb_refuted.
