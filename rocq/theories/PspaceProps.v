(** C13, C14, C21: excitation lists.  Each theorem is followed by a concrete case. *)
From Coq Require Import List Arith NArith Bool Lia.
From Verif Require Import Base PspaceModel PspaceSpec PspaceProofs.
Import ListNotations.

(** ** C13 *)
Definition p_rows (s : orbsys) (n : nat) (t : option N) (ps hs : list spin) (row : list nat) : Prop :=
  excitation s ps hs row /\ in_active_p s n ps hs row /\ matches_target s t ps hs row.

(** The four lists contain each ordered triple that has enough active holes and enough active particles, and the requested
    irrep, exactly once; an empty list is replaced by one row of ones. *)
Theorem C13_active_triples : forall s n t,
  let '(x1, x2, x3, x4) := get_active_triples_pspace s n t in
  returns_exactly 6 (p_rows s n t aaa aaa) x1 /\ returns_exactly 6 (p_rows s n t aab aab) x2 /\
  returns_exactly 6 (p_rows s n t abb abb) x3 /\ returns_exactly 6 (p_rows s n t bbb bbb) x4.
Proof.
  intros s n t. unfold get_active_triples_pspace.
  rewrite active_p_aaa_gen, active_p_aab_gen, active_p_abb_gen, active_p_bbb_gen.
  split; [|split; [|split]]; apply finish_spec; unfold p_rows; apply hole_major_spec; apply cond_p_spec.
Qed.

(** The placeholder is never a triple, so the two readings of the returned list cannot be confused. *)
Lemma ones_not_excitation : forall s ps, In ps [aaa; aab; abb; bbb] -> ~ excitation s ps ps (repeat 1 6).
Proof.
  intros s ps H (p & h & E & Hp & Hh). destruct Hp as (L & _ & I).
  assert (L3 : length p = 3) by (rewrite L; destruct H as [<-|[<-|[<-|[<-|[]]]]]; reflexivity).
  destruct p as [|x [|y [|z [|]]]]; cbn in L3; try lia. cbn in E. injection E as <- <- <- E.
  destruct H as [<-|[<-|[<-|[<-|[]]]]].
  - specialize (I 0 1 ltac:(cbn; lia) eq_refl). cbn in I. lia.
  - specialize (I 0 1 ltac:(cbn; lia) eq_refl). cbn in I. lia.
  - specialize (I 1 2 ltac:(cbn; lia) eq_refl). cbn in I. lia.
  - specialize (I 0 1 ltac:(cbn; lia) eq_refl). cbn in I. lia.
Qed.
Theorem C13_placeholder_unambiguous : forall s n t ps result, In ps [aaa; aab; abb; bbb] ->
  returns_exactly 6 (p_rows s n t ps ps) result ->
  (result = [repeat 1 6] <-> forall row, ~ p_rows s n t ps ps row).
Proof.
  intros s n t ps result I R. split.
  - intros -> row (X1 & X2). destruct R as [((N & M) & _)|(R & _)]; [|now apply (R row); split].
    apply (ones_not_excitation s ps I). apply (proj1 (M (repeat 1 6)) (or_introl eq_refl)).
  - intros K. destruct R as [((N & M) & NE)|(_ & R)]; [|exact R].
    destruct result as [|r l]; [congruence|]. exfalso. apply (K r). apply M. now left.
Qed.

(** The 3p2h, 3h2p (particle/hole active only) and 4p2h lists. *)
Theorem C13_active_3p2h : forall s n t, nacto_a s = nacto_b s -> nactu_a s = nactu_b s ->
  let P ps hs row := excitation s ps hs row /\ n <= active_particles s ps row /\ matches_target s t ps hs row in
  exists x1 x2 x3, get_active_3p2h_pspace s n t = Some (x1, x2, x3) /\
    returns_exactly 5 (P aaa aa) x1 /\ returns_exactly 5 (P aab ab) x2 /\ returns_exactly 5 (P abb bb) x3.
Proof.
  intros s n t E1 E2. cbv zeta. unfold get_active_3p2h_pspace, same_active_sizes. rewrite E1, E2, !Nat.eqb_refl. cbn [andb].
  do 3 eexists. split; [reflexivity|]. rewrite p3p2h_aaa, p3p2h_aab, p3p2h_abb.
  split; [|split]; apply finish_spec; apply particle_major_spec; intros; now apply cond_pp_spec.
Qed.
Theorem C13_active_3h2p : forall s n t, nacto_a s = nacto_b s -> nactu_a s = nactu_b s ->
  let P ps hs row := excitation s ps hs row /\ n <= active_holes s ps hs row /\ matches_target s t ps hs row in
  exists x1 x2 x3, get_active_3h2p_pspace s n t = Some (x1, x2, x3) /\
    returns_exactly 5 (P aa aaa) x1 /\ returns_exactly 5 (P ab aab) x2 /\ returns_exactly 5 (P bb abb) x3.
Proof.
  intros s n t E1 E2. cbv zeta. unfold get_active_3h2p_pspace, same_active_sizes. rewrite E1, E2, !Nat.eqb_refl. cbn [andb].
  do 3 eexists. split; [reflexivity|]. rewrite p3h2p_aaa, p3h2p_aab, p3h2p_abb.
  split; [|split]; apply finish_spec; apply hole_major_spec; intros; now apply cond_h_spec.
Qed.
Theorem C13_active_4p2h : forall s n t, nacto_a s = nacto_b s -> nactu_a s = nactu_b s ->
  let P ps hs row := excitation s ps hs row /\ n <= active_particles s ps row /\ matches_target s t ps hs row in
  exists x1 x2 x3, get_active_4p2h_pspace s n t = Some (x1, x2, x3) /\
    returns_exactly 6 (P abaa aa) x1 /\ returns_exactly 6 (P abab ab) x2 /\ returns_exactly 6 (P abbb bb) x3.
Proof.
  intros s n t E1 E2. cbv zeta. unfold get_active_4p2h_pspace, same_active_sizes. rewrite E1, E2, !Nat.eqb_refl. cbn [andb].
  do 3 eexists. split; [reflexivity|]. rewrite p4p2h_abaa, p4p2h_abab, p4p2h_abbb.
  split; [|split]; apply finish_spec; apply particle_major_spec; intros; now apply cond_pp_spec.
Qed.

Definition sys0 : orbsys := mkOrb 3 2 3 4 1 1 1 1 (fun i => if i =? 1 then 1%N else 0%N) 0%N.
Example C13_instance :
  fst (fst (fst (get_active_triples_pspace sys0 1 None))) = [[1; 2; 3; 1; 2; 3]] /\
  snd (fst (fst (get_active_triples_pspace sys0 2 None))) =
    [[1; 2; 1; 1; 3; 2]; [1; 3; 1; 1; 3; 2]; [1; 2; 1; 2; 3; 2]; [1; 3; 1; 2; 3; 2]] /\
  snd (fst (fst (get_active_triples_pspace sys0 2 (Some 1%N)))) = [[1; 2; 1; 1; 3; 2]; [1; 3; 1; 1; 3; 2]] /\
  length (snd (fst (get_active_triples_pspace sys0 1 None))) = 36 /\
  snd (get_active_triples_pspace sys0 1 None) = [[1; 1; 1; 1; 1; 1]] /\
  snd (match get_active_3p2h_pspace sys0 2 None with Some x => x | None => ([], [], []) end) =
    [[1; 1; 2; 1; 2]; [1; 1; 3; 1; 2]; [1; 1; 4; 1; 2]].
Proof. repeat split; reflexivity. Qed.

(** ** C14 *)
(** A list that begins with the placeholder is read as the empty P space. *)
Definition effective (P : list (list nat)) : list (list nat) :=
  match P with first :: _ => if list_eq_dec Nat.eq_dec first (repeat 1 6) then [] else P | [] => [] end.
Definition q_rows (s : orbsys) (t : option N) (ps : list spin) (P : list (list nat)) (row : list nat) : Prop :=
  excitation s ps ps row /\ matches_target s t ps ps row /\ ~ In row P.

Lemma gen_q_effective : forall s t ps P, Forall (fits (shape_of s ps ps)) (effective P) ->
  exists rows, gen_q s t ps P = Some rows /\ lists_exactly (q_rows s t ps (effective P)) rows.
Proof.
  intros s t ps P F. destruct P as [|r P].
  - destruct (gen_q_spec s t ps [] (Forall_nil _) ltac:(discriminate)) as (rows & E & H). exists rows. split; [exact E|].
    eapply lists_ext; [|exact H]. intros row. unfold q_rows. cbn. tauto.
  - cbn [effective] in *. destruct (list_eq_dec Nat.eq_dec r (repeat 1 6)) as [->|N].
    + destruct (gen_q_placeholder s t ps (repeat 1 6 :: P) eq_refl) as (rows & E & H). exists rows. split; [exact E|].
      eapply lists_ext; [|exact H]. intros row. unfold q_rows. cbn [In]. tauto.
    + destruct (gen_q_spec s t ps (r :: P) F) as (rows & E & H); [cbn [hd_error]; congruence|]. exists rows. split; [exact E|].
      eapply lists_ext; [|exact H]. intros row. unfold q_rows. tauto.
Qed.

(** Whatever in-range P-space lists are passed, the Q space lists every triple of the target irrep that is not in the P
    space once, and nothing else. *)
Theorem C14_qspace_complement : forall s t p1 p2 p3 p4,
  Forall (fits (shape_of s aaa aaa)) (effective p1) -> Forall (fits (shape_of s aab aab)) (effective p2) ->
  Forall (fits (shape_of s abb abb)) (effective p3) -> Forall (fits (shape_of s bbb bbb)) (effective p4) ->
  exists x1 x2 x3 x4, get_triples_qspace s t p1 p2 p3 p4 = Some (x1, x2, x3, x4) /\
    returns_exactly 6 (q_rows s t aaa (effective p1)) x1 /\ returns_exactly 6 (q_rows s t aab (effective p2)) x2 /\
    returns_exactly 6 (q_rows s t abb (effective p3)) x3 /\ returns_exactly 6 (q_rows s t bbb (effective p4)) x4.
Proof.
  intros s t p1 p2 p3 p4 F1 F2 F3 F4. unfold get_triples_qspace. rewrite q_aaa_gen, q_aab_gen, q_abb_gen, q_bbb_gen.
  destruct (gen_q_effective s t _ _ F1) as (r1 & -> & H1). destruct (gen_q_effective s t _ _ F2) as (r2 & -> & H2).
  destruct (gen_q_effective s t _ _ F3) as (r3 & -> & H3). destruct (gen_q_effective s t _ _ F4) as (r4 & -> & H4).
  do 4 eexists. split; [reflexivity|]. split; [|split; [|split]]; now apply finish_spec.
Qed.

(** A label beyond the number of orbitals is an IndexError (shown for each spin case). *)
Theorem C14_out_of_range_label : forall s t p1 p2 p3 p4 ps P row q,
  In (ps, P) [(aaa, p1); (aab, p2); (abb, p3); (bbb, p4)] ->
  In row (effective P) -> length row = 6 -> q < 6 -> nth q (shape_of s ps ps) 0 < nth q row 0 ->
  get_triples_qspace s t p1 p2 p3 p4 = None.
Proof.
  intros s t p1 p2 p3 p4 ps P row q I R L Hq K.
  assert (G : gen_q s t ps P = None).
  { assert (LS : length (shape_of s ps ps) = length row).
    { rewrite L. unfold shape_of. destruct I as [E|[E|[E|[E|[]]]]]; injection E as <- <-; reflexivity. }
    unfold gen_q. destruct P as [|r P]; [destruct R|]. cbn [effective] in R.
    destruct (list_eq_dec Nat.eq_dec r (repeat 1 6)) as [|N]; [destruct R|]. unfold mark_pspace.
    destruct (list_eqb r (repeat 1 6)) eqn:E; [apply list_eqb_spec in E; congruence|].
    rewrite clear_bad; [reflexivity|]. exists row. split; [exact R|]. apply axis_out; [exact LS|]. exists q. split; [lia|exact K]. }
  unfold get_triples_qspace. rewrite q_aaa_gen, q_aab_gen, q_abb_gen, q_bbb_gen.
  destruct I as [E|[E|[E|[E|[]]]]]; injection E as <- <-; rewrite G; [reflexivity| | |];
    repeat match goal with |- context [gen_q ?a ?b ?c ?d] => destruct (gen_q a b c d) end; reflexivity.
Qed.

(** Partition: with a P space made of genuine triples (or the placeholder alone), every triple of the irrep lies in exactly
    one of the two lists. *)
Definition genuine (s : orbsys) (t : option N) (ps : list spin) (P : list (list nat)) : Prop :=
  P = [repeat 1 6] \/ forall row, In row P -> excitation s ps ps row.
Definition partition (s : orbsys) (t : option N) (ps : list spin) (P Q : list (list nat)) : Prop :=
  forall row, excitation s ps ps row -> matches_target s t ps ps row -> (In row P <-> ~ In row Q).

Lemma genuine_effective : forall s t ps P, In ps [aaa; aab; abb; bbb] -> genuine s t ps P ->
  Forall (fits (shape_of s ps ps)) (effective P) /\ forall row, excitation s ps ps row -> (In row P <-> In row (effective P)).
Proof.
  intros s t ps P I [->|G].
  - split; [unfold effective; destruct (list_eq_dec _ _ _); [constructor|congruence]|].
    intros row X. unfold effective. destruct (list_eq_dec _ _ _); [|congruence]. split; [|intros []].
    intros [<-|[]]. now apply (ones_not_excitation s ps I) in X.
  - assert (E : effective P = P).
    { destruct P as [|r P]; [reflexivity|]. cbn [effective]. destruct (list_eq_dec Nat.eq_dec r (repeat 1 6)) as [->|]; [|reflexivity].
      exfalso. apply (ones_not_excitation s ps I). apply G. now left. }
    rewrite E. split; [|tauto]. apply Forall_forall. intros row H. now apply excitation_fits, G.
Qed.
Lemma dec_in : forall (row : list nat) P, In row P \/ ~ In row P.
Proof. intros. destruct (in_dec (list_eq_dec Nat.eq_dec) row P); auto. Qed.
Lemma q_partition : forall s t ps P X, In ps [aaa; aab; abb; bbb] -> genuine s t ps P ->
  returns_exactly 6 (q_rows s t ps (effective P)) X -> partition s t ps P X.
Proof.
  intros s t ps P X I G R row E M. destruct (genuine_effective s t ps P I G) as (_ & EF). rewrite (EF row E).
  destruct R as [((_ & R) & _)|(R & ->)].
  - rewrite R. unfold q_rows. destruct (dec_in row (effective P)); tauto.
  - assert (In row (effective P)) by (destruct (dec_in row (effective P)) as [K|K]; [exact K|exfalso; apply (R row); unfold q_rows; tauto]).
    split; [|tauto]. intros _ [<-|[]]. now apply (ones_not_excitation s ps I) in E.
Qed.
Theorem C14_partition : forall s t p1 p2 p3 p4,
  genuine s t aaa p1 -> genuine s t aab p2 -> genuine s t abb p3 -> genuine s t bbb p4 ->
  exists x1 x2 x3 x4, get_triples_qspace s t p1 p2 p3 p4 = Some (x1, x2, x3, x4) /\
    partition s t aaa p1 x1 /\ partition s t aab p2 x2 /\ partition s t abb p3 x3 /\ partition s t bbb p4 x4.
Proof.
  intros s t p1 p2 p3 p4 G1 G2 G3 G4.
  assert (I1 : In aaa [aaa; aab; abb; bbb]) by (cbn; tauto). assert (I2 : In aab [aaa; aab; abb; bbb]) by (cbn; tauto).
  assert (I3 : In abb [aaa; aab; abb; bbb]) by (cbn; tauto). assert (I4 : In bbb [aaa; aab; abb; bbb]) by (cbn; tauto).
  destruct (C14_qspace_complement s t p1 p2 p3 p4) as (x1 & x2 & x3 & x4 & E & H1 & H2 & H3 & H4);
    [now apply (genuine_effective s t)|now apply (genuine_effective s t)|now apply (genuine_effective s t)|now apply (genuine_effective s t)|].
  exists x1, x2, x3, x4. split; [exact E|]. split; [|split; [|split]]; now apply q_partition.
Qed.

(** The active-orbital P and Q routines split the triples in the same way. *)
Theorem C14_active_partition : forall s n t,
  let '(p1, p2, p3, p4) := get_active_triples_pspace s n t in
  let '(x1, x2, x3, x4) := get_active_triples_qspace s n t in
  partition s t aaa p1 x1 /\ partition s t aab p2 x2 /\ partition s t abb p3 x3 /\ partition s t bbb p4 x4.
Proof.
  intros s n t. unfold get_active_triples_pspace, get_active_triples_qspace.
  assert (G : forall ps P Q, In ps [aaa; aab; abb; bbb] ->
    returns_exactly 6 (fun row => excitation s ps ps row /\ (in_active_p s n ps ps row /\ matches_target s t ps ps row)) P ->
    returns_exactly 6 (fun row => excitation s ps ps row /\ (~ in_active_p s n ps ps row /\ matches_target s t ps ps row)) Q ->
    partition s t ps P Q).
  { intros ps P Q I HP HQ row E M. pose proof (ones_not_excitation s ps I) as NO.
    assert (D : in_active_p s n ps ps row \/ ~ in_active_p s n ps ps row) by (unfold in_active_p; lia).
    assert (A : In row P <-> in_active_p s n ps ps row).
    { destruct HP as [((_ & R) & _)|(R & ->)]; [rewrite R; tauto|]. split.
      - intros [<-|[]]. now apply NO in E.
      - intros K. exfalso. now apply (R row). }
    assert (B : In row Q <-> ~ in_active_p s n ps ps row).
    { destruct HQ as [((_ & R) & _)|(R & ->)]; [rewrite R; tauto|]. split.
      - intros [<-|[]]. now apply NO in E.
      - intros K. exfalso. now apply (R row). }
    rewrite A, B. tauto. }
  rewrite active_p_aaa_gen, active_p_aab_gen, active_p_abb_gen, active_p_bbb_gen.
  rewrite active_q_aaa_gen, active_q_aab_gen, active_q_abb_gen, active_q_bbb_gen.
  split; [|split; [|split]]; (apply G; [cbn; tauto| |]; apply finish_spec; apply hole_major_spec; [apply cond_p_spec|apply cond_q_spec]).
Qed.
(** ... and list nothing else than triples of the target irrep. *)
Theorem C14_active_q_rows : forall s n t,
  let Q ps row := excitation s ps ps row /\ ~ in_active_p s n ps ps row /\ matches_target s t ps ps row in
  let '(x1, x2, x3, x4) := get_active_triples_qspace s n t in
  returns_exactly 6 (Q aaa) x1 /\ returns_exactly 6 (Q aab) x2 /\ returns_exactly 6 (Q abb) x3 /\ returns_exactly 6 (Q bbb) x4.
Proof.
  intros s n t. cbv zeta. unfold get_active_triples_qspace.
  rewrite active_q_aaa_gen, active_q_aab_gen, active_q_abb_gen, active_q_bbb_gen.
  split; [|split; [|split]]; apply finish_spec; apply hole_major_spec; apply cond_q_spec.
Qed.
Example C14_instance :
  genuine sys0 None aaa [[1; 2; 3; 1; 2; 3]] /\ genuine sys0 None bbb [repeat 1 6] /\
  q_aaa sys0 None [[1; 2; 3; 1; 2; 3]] = Some [] /\ q_aaa sys0 None [repeat 1 6] = Some [[1; 2; 3; 1; 2; 3]] /\
  q_aab sys0 (Some 1%N) [[1; 2; 1; 1; 2; 1]] =
    Some [[1;2;2;1;2;1]; [1;2;3;1;2;1]; [1;2;4;1;2;1]; [1;3;1;1;2;1]; [1;3;2;1;2;1]; [1;3;3;1;2;1]; [1;3;4;1;2;1];
          [2;3;1;1;2;1]; [2;3;2;1;2;1]; [2;3;3;1;2;1]; [2;3;4;1;2;1];
          [1;2;1;1;3;2]; [1;2;2;1;3;2]; [1;2;3;1;3;2]; [1;2;4;1;3;2]; [1;3;1;1;3;2]; [1;3;2;1;3;2]; [1;3;3;1;3;2]; [1;3;4;1;3;2];
          [2;3;1;1;3;2]; [2;3;2;1;3;2]; [2;3;3;1;3;2]; [2;3;4;1;3;2];
          [1;2;1;2;3;1]; [1;2;2;2;3;1]; [1;2;3;2;3;1]; [1;2;4;2;3;1]; [1;3;1;2;3;1]; [1;3;2;2;3;1]; [1;3;3;2;3;1]; [1;3;4;2;3;1];
          [2;3;1;2;3;1]; [2;3;2;2;3;1]; [2;3;3;2;3;1]; [2;3;4;2;3;1]].
Proof.
  split; [|split; [now left|split; [reflexivity|split; reflexivity]]].
  right. intros row [<-|[]]. exists [1; 2; 3], [1; 2; 3]. split; [reflexivity|]. split;
  (split; [reflexivity|split; [intros [|[|[|p]]] Hp; cbn in *; lia|
    intros [|[|[|p]]] [|[|[|q]]] Hp _; cbn in *; lia]]).
Qed.

(** ** C21 *)
(** The union of two tables of equally long rows is duplicate free, lexicographically increasing and has exactly the rows
    of the two tables; with the empty Python list as first argument the second table is returned as it is. *)
Theorem C21_union : forall n e1 e2, (forall row, In row (e1 ++ e2) -> length row = n) ->
  sorted_rows (overlap_p_spaces (Some e1) e2) /\ NoDup (overlap_p_spaces (Some e1) e2) /\
  (forall row, In row (overlap_p_spaces (Some e1) e2) <-> In row e1 \/ In row e2) /\
  overlap_p_spaces None e2 = e2.
Proof.
  intros n e1 e2 L. cbn [overlap_p_spaces]. destruct (unique_spec n (e1 ++ e2) L) as (S & M).
  split; [exact S|split; [|split; [|reflexivity]]].
  - clear -S. induction S; constructor; auto. intros K. apply (lex_irrefl x). auto.
  - intros row. rewrite M, in_app_iff. tauto.
Qed.
(** The result does not depend on the order or multiplicity of the input rows. *)
Theorem C21_order_independent : forall n e1 e2 e1' e2',
  (forall row, In row (e1 ++ e2) -> length row = n) -> (forall row, In row e1 \/ In row e2 <-> In row e1' \/ In row e2') ->
  overlap_p_spaces (Some e1) e2 = overlap_p_spaces (Some e1') e2'.
Proof.
  intros n e1 e2 e1' e2' L H.
  assert (L' : forall row, In row (e1' ++ e2') -> length row = n).
  { intros row K. apply L. apply in_app_iff. apply H. now apply in_app_iff. }
  destruct (C21_union n e1 e2 L) as (S1 & _ & M1 & _). destruct (C21_union n e1' e2' L') as (S2 & _ & M2 & _).
  assert (M : forall row, In row (overlap_p_spaces (Some e1) e2) <-> In row (overlap_p_spaces (Some e1') e2')).
  { intros row. now rewrite M1, M2. }
  revert S2 M. generalize (overlap_p_spaces (Some e1') e2'). clear -S1.
  induction S1 as [|x l Hx S IH]; intros [|y l'] S2 M; [reflexivity| | |].
  - exfalso. apply (proj2 (M y)). now left.
  - exfalso. apply (proj1 (M x)). now left.
  - inversion S2; subst. assert (x = y).
    { destruct (proj1 (M x) (or_introl eq_refl)) as [E|E]; [congruence|].
      destruct (proj2 (M y) (or_introl eq_refl)) as [F|F]; [congruence|].
      exfalso. apply (lex_irrefl x). apply (lex_trans x y x); auto. }
    subst y. f_equal. apply IH; [assumption|]. intros row. specialize (M row). cbn in M. split; intros K.
    + destruct (proj1 M (or_intror K)) as [<-|]; [|assumption]. exfalso. now apply (lex_irrefl x), Hx.
    + destruct (proj2 M (or_intror K)) as [<-|]; [|assumption]. exfalso. apply (lex_irrefl x). auto.
Qed.
(** The placeholder counts as a row: uniting an empty P space (its placeholder) with a genuine one leaves the row of ones in
    front, and the Q space computed from that union ignores the whole list, so P and Q overlap. *)
Theorem C21_placeholder_refuted : forall s e2, e2 <> [] -> (forall row, In row e2 -> excitation s aaa aaa row) ->
  hd_error (overlap_p_spaces (Some [repeat 1 6]) e2) = Some (repeat 1 6) /\
  exists q, q_aaa s None (overlap_p_spaces (Some [repeat 1 6]) e2) = Some q /\ forall row, In row e2 -> In row q.
Proof.
  intros s e2 NE X.
  assert (L : forall row, In row ([repeat 1 6] ++ e2) -> length row = 6).
  { intros row [<-|K]; [reflexivity|]. apply X in K as (p & h & -> & (Lp & _) & (Lh & _)). rewrite app_length, Lp, Lh. reflexivity. }
  destruct (C21_union 6 _ _ L) as (S & _ & M & _).
  assert (H : hd_error (overlap_p_spaces (Some [repeat 1 6]) e2) = Some (repeat 1 6)).
  { destruct (overlap_p_spaces (Some [repeat 1 6]) e2) as [|r l] eqn:E.
    - exfalso. apply (proj2 (M (repeat 1 6))). left. now left.
    - cbn [hd_error]. f_equal. inversion S as [|? ? Hr _]; subst.
      destruct (proj2 (M (repeat 1 6)) (or_introl (or_introl eq_refl))) as [K|K]; [exact K|].
      specialize (Hr _ K). destruct (proj1 (M r) (or_introl eq_refl)) as [[R|[]]|R]; [now rewrite <- R|].
      exfalso. apply X in R. pose proof (excitation_fits _ _ _ _ R) as F. clear -Hr F.
      unfold shape_of in F. cbn [map app aaa] in F.
      repeat match goal with H : fits _ _ |- _ => unfold fits in H | H : Forall2 _ (_ :: _) _ |- _ => inversion H; subst; clear H end.
      cbn [repeat] in Hr. repeat match goal with H : lex _ _ |- _ => inversion H; subst; clear H; try lia end. }
  split; [exact H|]. destruct (gen_q_placeholder s None aaa _ H) as (q & E & (_ & Q)). exists q. rewrite q_aaa_gen. split; [exact E|].
  intros row R. apply Q. split; [now apply X|exact I].
Qed.
Example C21_instance :
  overlap_p_spaces (Some [[2; 3]; [1; 4]; [2; 3]]) [[1; 2]; [2; 3]] = [[1; 2]; [1; 4]; [2; 3]] /\
  overlap_p_spaces (Some [repeat 1 6]) [[1; 2; 3; 1; 2; 3]] = [repeat 1 6; [1; 2; 3; 1; 2; 3]].
Proof. split; reflexivity. Qed.

Print Assumptions C13_active_triples.
Print Assumptions C13_placeholder_unambiguous.
Print Assumptions C13_active_3p2h.
Print Assumptions C13_active_3h2p.
Print Assumptions C13_active_4p2h.
Print Assumptions C14_qspace_complement.
Print Assumptions C14_out_of_range_label.
Print Assumptions C14_partition.
Print Assumptions C14_active_partition.
Print Assumptions C14_active_q_rows.
Print Assumptions C21_union.
Print Assumptions C21_order_independent.
Print Assumptions C21_placeholder_refuted.
