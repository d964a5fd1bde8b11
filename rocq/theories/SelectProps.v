(** C17: growing the P space from selected triples. *)
From Coq Require Import List Arith Bool NArith Lia.
From Verif Require Import SelectModel SelectSpec SelectProofs.
Import ListNotations.

(** One addition.  The reading of [grow]: nothing selected leaves the list alone; otherwise the selected triples are put after the old
    list, in the order in which they were selected, the placeholder list being dropped first. *)
Theorem C17_one_addition : forall y rhf sel old n, well_formed sel -> (forall s, old s <> []) ->
  exists new n', add_spinorbital_triples_to_pspace y rhf (rows_of sel) old n = Some (new, n') /\
    (forall s, additions rhf s sel = [] -> new s = old s) /\
    (forall s, additions rhf s sel <> [] -> new s = contents (old s) ++ additions rhf s sel) /\
    (forall x s, n' x s = n x s + length (filter (fun t => N.eqb (row_irrep y s t) x) (additions rhf s sel))).
Proof.
  intros y rhf sel old n W N. destruct (add_correct y rhf sel old n W N) as (new & n' & E & L & C). exists new, n'. split; [exact E|].
  split; [|split].
  - intros s Z. now rewrite L, Z.
  - intros s Z. rewrite L. unfold grow, contents. destruct (additions rhf s sel); [congruence|].
    destruct (row_eq_dec (hd [] (old s)) ones); reflexivity.
  - intros x s. rewrite C. f_equal.
Qed.
(** Without spin symmetry a list receives exactly the selected triples of its spin case. *)
Theorem C17_unrestricted_additions : forall s sel, additions false s sel = chosen s sel.
Proof. now destruct s. Qed.
(** With it only aaa and aab triples are selected; the beta lists receive the spin-flipped triples. *)
Theorem C17_restricted_additions : forall sel,
  additions true bbb sel = additions true aaa sel /\ additions true abb sel = map flip (additions true aab sel).
Proof. intros. split; reflexivity. Qed.

(** A history: any number of additions, one after the other. *)
Fixpoint add_all (y : symdata) (rhf : bool) (sels : list selection) (old : lists) (n : counts) : option (lists * counts) :=
  match sels with
  | [] => Some (old, n)
  | sel :: rest =>
      match add_spinorbital_triples_to_pspace y rhf (rows_of sel) old n with
      | Some (new, n') => add_all y rhf rest new n'
      | None => None
      end
  end.
Definition never_ones (sel : selection) : Prop := forall s, ~ In (Some (s, ones)) sel.

Lemma flip_ones : forall t, flip t = ones -> t = ones.
Proof.
  intros t H. destruct t as [|a [|b [|c [|i [|j [|k [|? ?]]]]]]]; cbn [flip] in H; try exact H.
  unfold ones in *. injection H as -> -> -> -> -> ->. reflexivity.
Qed.
Lemma additions_not_ones : forall rhf s sel, never_ones sel -> ~ In ones (additions rhf s sel).
Proof.
  intros rhf s sel N H. assert (G : forall s, ~ In ones (chosen s sel)) by (intros s' C; exact (N s' (chosen_in _ _ _ C))).
  destruct s; cbn [additions] in H; destruct rhf; try exact (G _ H).
  apply in_map_iff in H. destruct H as (t & Ft & Ht). apply flip_ones in Ft. subst t. exact (G _ Ht).
Qed.
Lemma add_all_correct : forall y rhf sels old n, Forall well_formed sels -> Forall never_ones sels -> (forall s, old s <> []) ->
  exists new n', add_all y rhf sels old n = Some (new, n') /\
    (forall s, new s = grow (old s) (additions rhf s (concat sels))) /\
    (forall x s, n' x s = n x s + length (filter (fun t => N.eqb (row_irrep y s t) x) (additions rhf s (concat sels)))).
Proof.
  induction sels as [|sel sels IH]; intros old n W O N.
  - exists old, n. split; [reflexivity|]. split; intros; cbn [concat];
      assert (Z : additions rhf s [] = []) by (destruct s; cbn; now destruct rhf); rewrite Z; cbn; [reflexivity|lia].
  - inversion W as [|? ? W1 W2]; subst. inversion O as [|? ? O1 O2]; subst.
    destruct (add_correct y rhf sel old n W1 N) as (new1 & n1 & E1 & L1 & C1).
    assert (N1 : forall s, new1 s <> []) by (intros s; rewrite L1; now apply grow_nonempty).
    destruct (IH new1 n1 W2 O2 N1) as (new & n' & E & L & C). exists new, n'. cbn [add_all]. rewrite E1. split; [exact E|]. cbn [concat]. split.
    + intros s. rewrite L, L1, additions_app. assert (H := additions_not_ones rhf s sel O1).
      destruct (additions rhf s sel) as [|t l] eqn:A; [reflexivity|]. unfold grow at 2 3. cbn [app].
      destruct (additions rhf s (concat sels)) as [|u m] eqn:B.
      * cbn [grow]. rewrite app_nil_r. reflexivity.
      * unfold grow. destruct (row_eq_dec (hd [] (old s)) ones) as [Q|Q].
        -- cbn [hd]. destruct (row_eq_dec t ones) as [->|_]; [exfalso; apply H; now left|reflexivity].
        -- destruct (old s) as [|o os] eqn:OS; [exfalso; now apply (N s)|]. cbn [hd app] in *.
           destruct (row_eq_dec o ones); [congruence|]. rewrite <- app_assoc. reflexivity.
    + intros x s. rewrite C, C1, additions_app, filter_app, app_length. unfold with_irrep. lia.
Qed.

(** Any history from an empty P space: the list of a spin case is the placeholder until something of that spin case was selected,
    and from then on it is the concatenation of all that was selected, in the order of selection. *)
Theorem C17_history : forall y rhf sels n, Forall well_formed sels -> Forall never_ones sels ->
  exists new n', add_all y rhf sels (fun _ => [ones]) n = Some (new, n') /\
    (forall s, contents (new s) = flat_map (additions rhf s) sels) /\
    (forall s, flat_map (additions rhf s) sels = [] -> new s = [ones]) /\
    (forall x s, n' x s = n x s + length (filter (fun t => N.eqb (row_irrep y s t) x) (contents (new s)))).
Proof.
  intros y rhf sels n W O. destruct (add_all_correct y rhf sels (fun _ => [ones]) n W O) as (new & n' & E & L & C); [discriminate|].
  assert (FM : forall s, flat_map (additions rhf s) sels = additions rhf s (concat sels)).
  { intros s. clear. induction sels as [|sel sels IH]; [destruct s; cbn; now destruct rhf|]. cbn [flat_map concat]. now rewrite additions_app, IH. }
  assert (NO : forall s, ~ In ones (additions rhf s (concat sels))).
  { intros s. apply additions_not_ones. intros s' H. apply in_concat in H. destruct H as (sel & H1 & H2).
    rewrite Forall_forall in O. exact (O _ H1 _ H2). }
  assert (CT : forall s, contents (new s) = additions rhf s (concat sels)).
  { intros s. rewrite L. unfold grow. specialize (NO s). destruct (additions rhf s (concat sels)) as [|t l].
    - unfold contents. cbn [hd]. destruct (row_eq_dec ones ones); [reflexivity|congruence].
    - cbn [hd]. destruct (row_eq_dec ones ones) as [_|]; [|congruence]. unfold contents. cbn [hd].
      destruct (row_eq_dec t ones) as [->|]; [exfalso; apply NO; now left|reflexivity]. }
  exists new, n'. split; [exact E|]. split; [|split].
  - intros s. now rewrite FM, CT.
  - intros s H. rewrite FM in H. now rewrite L, H.
  - intros x s. now rewrite C, CT.
Qed.
(** What was in a list stays there, in the same place. *)
Theorem C17_prefix : forall y rhf pre post old n mid nm new n', Forall well_formed (pre ++ post) -> Forall never_ones (pre ++ post) ->
  (forall s, old s <> []) ->
  add_all y rhf pre old n = Some (mid, nm) -> add_all y rhf (pre ++ post) old n = Some (new, n') ->
  forall s, exists more, contents (new s) = contents (mid s) ++ more.
Proof.
  intros y rhf pre post old n mid nm new n' W O N E1 E2 s. apply Forall_app in W. apply Forall_app in O. destruct W as (W1 & W2), O as (O1 & O2).
  assert (A : forall p q o m, add_all y rhf (p ++ q) o m = match add_all y rhf p o m with Some (a, b) => add_all y rhf q a b | None => None end).
  { induction p as [|p ps IH]; intros; cbn [app add_all]; [reflexivity|]. destruct (add_spinorbital_triples_to_pspace y rhf (rows_of p) o m) as [[a b]|]; [apply IH|reflexivity]. }
  rewrite A, E1 in E2. destruct (add_all_correct y rhf pre old n W1 O1 N) as (m1 & k1 & F1 & L1 & _). rewrite E1 in F1. injection F1 as <- <-.
  assert (N1 : forall s, mid s <> []) by (intros x; rewrite L1; now apply grow_nonempty).
  destruct (add_all_correct y rhf post mid nm W2 O2 N1) as (m2 & k2 & F2 & L2 & _). rewrite E2 in F2. injection F2 as <- <-.
  rewrite L2. assert (NO : ~ In ones (additions rhf s (concat post))).
  { apply additions_not_ones. intros s' H. apply in_concat in H. destruct H as (sel & H1 & H2). rewrite Forall_forall in O2. exact (O2 _ H1 _ H2). }
  unfold grow. destruct (additions rhf s (concat post)) as [|t l]; [exists []; now rewrite app_nil_r|].
  destruct (row_eq_dec (hd [] (mid s)) ones) as [Q|Q].
  - exists (t :: l). unfold contents at 2. destruct (row_eq_dec (hd [] (mid s)) ones); [|congruence]. cbn [app]. unfold contents. cbn [hd].
    destruct (row_eq_dec t ones) as [->|]; [exfalso; apply NO; now left|reflexivity].
  - exists (t :: l). destruct (mid s) as [|o os] eqn:M; [exfalso; now apply (N1 s)|]. unfold contents. cbn [hd app] in *.
    destruct (row_eq_dec o ones); [congruence|reflexivity].
Qed.
(** Spin-flip invariant of restricted references, for every history of additions from every state that satisfies it. *)
Theorem C17_restricted_invariant : forall y sels old n new n',
  Forall well_formed sels -> Forall never_ones sels -> (forall s, old s <> []) ->
  old bbb = old aaa -> old abb = map flip (old aab) ->
  add_all y true sels old n = Some (new, n') ->
  new bbb = new aaa /\ new abb = map flip (new aab).
Proof.
  intros y sels old n new n' W O N B1 B2 E. destruct (add_all_correct y true sels old n W O N) as (m & k & F & L & _).
  rewrite E in F. injection F as <- <-. rewrite !L. cbn [additions]. rewrite B1, B2. split; [reflexivity|].
  set (add := chosen aab (concat sels)). unfold grow. destruct add as [|t l]; [reflexivity|]. cbn [map].
  specialize (N aab). destruct (old aab) as [|o os]; [congruence|]. cbn [map hd].
  destruct (row_eq_dec o ones) as [->|Q].
  - cbn [flip ones]. destruct (row_eq_dec [1; 1; 1; 1; 1; 1] ones); [reflexivity|unfold ones in *; congruence].
  - destruct (row_eq_dec (flip o) ones) as [Z|_]; [apply flip_ones in Z; congruence|]. now rewrite <- map_cons, map_app, !map_cons.
Qed.
(** The claim for single-selection lists that contain the row (1,1,1,1,1,1) as an excitation would fail: it reads as the placeholder
    and is dropped at the next addition.  No excitation has that form (a < b and i < j, or b < c and j < k). *)
Theorem C17_ones_is_dropped : forall y n, exists new n',
  add_all y false [[Some (aaa, ones)]; [Some (aaa, [1; 2; 3; 1; 2; 3])]] (fun _ => [ones]) n = Some (new, n') /\
  new aaa = [[1; 2; 3; 1; 2; 3]].
Proof. intros. eexists. eexists. split; reflexivity. Qed.

Definition y0 : symdata := {| irrep := fun p => N.of_nat (p mod 4); ref_irrep := 0%N; nocc_a := 3; nocc_b := 3 |}.
Example C17_instance :
  let sels := [[Some (aab, [1; 2; 1; 1; 3; 2]); None]; [Some (aaa, [1; 2; 3; 1; 2; 3]); Some (aab, [1; 3; 1; 2; 3; 1])]] in
  Forall well_formed sels /\ Forall never_ones sels /\
  match add_all y0 true sels (fun _ => [ones]) (fun _ _ => 0) with
  | Some (new, n) => new abb = [[1; 1; 2; 2; 1; 3]; [1; 1; 3; 1; 2; 3]] /\ new bbb = [[1; 2; 3; 1; 2; 3]] /\ n 0%N bbb = 0 /\ n 2%N bbb + n 3%N bbb + n 1%N bbb = 1
  | None => False
  end.
Proof.
  cbn zeta. split; [|split].
  - constructor; [|constructor; [|constructor]]; unfold well_formed; cbn; intros s t H; repeat (destruct H as [H|H]; try discriminate H; try contradiction); try (injection H as <- <-);
      (split; [reflexivity|]); cbn; intros x Hx; repeat (destruct Hx as [<-|Hx]; [lia|]); contradiction.
  - constructor; [|constructor; [|constructor]]; unfold never_ones, ones; cbn; intros s H; repeat (destruct H as [H|H]; try discriminate H; try contradiction).
  - vm_compute. repeat split; reflexivity.
Qed.
Print Assumptions C17_one_addition.
Print Assumptions C17_history.
Print Assumptions C17_prefix.
Print Assumptions C17_restricted_invariant.
