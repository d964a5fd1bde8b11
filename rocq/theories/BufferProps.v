(** C18: moment-based selection of triples. *)
From Coq Require Import List Arith Bool ZArith Reals Lia Lra Permutation.
From Verif Require Import Base SortModel SortSpec SortProofs SortProps SymmetryProofs SelectModel SelectSpec SelectProofs
  BufferSpec BufferProofs QspaceModel QspaceSpec QspaceProofs.
Import ListNotations.
Local Open Scope nat_scope.

(** ** The candidates are the triples outside the P space. *)
Theorem C18_outside_pspace : forall noa nua nob nub s rows, 2 <= length rows ->
  (forall t, In t rows -> excitation_of noa nua nob nub s t) ->
  NoDup (candidates noa nua nob nub s rows) /\
  forall t, In t (candidates noa nua nob nub s rows) <-> excitation_of noa nua nob nub s t /\ ~ In t rows.
Proof.
  intros noa nua nob nub s rows L V. split; [apply candidates_nodup|]. intros t. rewrite in_candidates. split.
  - intros (abc & ijk & -> & Ha & Hi & N). split; [now exists abc, ijk|]. intros C. apply N. rewrite (in_blocked noa nua nob nub); eauto using three_len.
  - intros ((abc & ijk & -> & Ha & Hi) & N). exists abc, ijk. repeat split; auto. intros C. apply N.
    rewrite (in_blocked noa nua nob nub) in C by auto. apply C.
Qed.
Lemma blocked_one : forall noa nob s t ijk, blocked noa nob s [t] ijk = [].
Proof. intros. unfold blocked. destruct (occ_index noa nob s ijk =? 0); reflexivity. Qed.
(** An empty P space is passed as the placeholder list of one row: all triples are candidates. *)
Theorem C18_empty_pspace : forall noa nua nob nub s,
  NoDup (candidates noa nua nob nub s [ones]) /\
  forall t, In t (candidates noa nua nob nub s [ones]) <-> excitation_of noa nua nob nub s t.
Proof.
  intros. split; [apply candidates_nodup|]. intros t. rewrite in_candidates. split.
  - intros (abc & ijk & -> & Ha & Hi & _). now exists abc, ijk.
  - intros (abc & ijk & -> & Ha & Hi). exists abc, ijk. rewrite blocked_one. repeat split; auto.
Qed.
(** A P space with one triple of a spin case is treated as empty: the triple is offered again, and the selection can add it a second time. *)
Theorem C18_single_triple_offered_again_refuted : forall noa nua nob nub s t, excitation_of noa nua nob nub s t ->
  In t (candidates noa nua nob nub s [t]).
Proof.
  intros noa nua nob nub s t (abc & ijk & -> & Ha & Hi). apply in_candidates. exists abc, ijk. rewrite blocked_one. repeat split; auto.
Qed.

(** ** What the buffer does with any candidates *)
Lemma result_from_buffer : forall buf_fact num_add min_thresh streams result, 1 <= buf_fact -> 1 <= num_add -> candidates_ok streams ->
  selection_result buf_fact num_add min_thresh streams result ->
  let b := selection_buffer buf_fact num_add min_thresh streams in
  sound buf_fact num_add min_thresh (concat streams) b /\
  exists s, Permutation (b_entries b) s /\ (forall p q, p < q < length s -> (size (nth q s unset) <= size (nth p s unset))%R) /\
    result = firstn num_add s /\ length result = num_add.
Proof.
  intros F n mt streams result HF Hn (C1 & C2) (idx & P & A & E) b.
  assert (S : sound F n mt (concat streams) b).
  { apply (passes_sound F n mt HF Hn streams [] (start F n)); [now apply start_sound|exact C1|exact C2]. }
  split; [exact S|]. eapply (result_facts F n); eauto. apply (so_len _ _ _ _ _ S).
Qed.
(** Soundness: num_add rows come back; those that were set are different candidates, each with its own moment, above the threshold. *)
Theorem C18_selected_are_candidates : forall buf_fact num_add min_thresh streams result,
  1 <= buf_fact -> 1 <= num_add -> candidates_ok streams -> selection_result buf_fact num_add min_thresh streams result ->
  length result = num_add /\
  (forall e, In e result -> e = unset \/ In e (concat streams) /\ (min_thresh < size e)%R) /\
  (forall p q, p < q < num_add -> fst (nth p result unset) = fst (nth q result unset) -> nth q result unset = unset) /\
  (forall p q, p < q < num_add -> (size (nth q result unset) <= size (nth p result unset))%R).
Proof.
  intros F n mt streams result HF Hn C R. destruct (result_from_buffer _ _ _ _ _ HF Hn C R) as (S & s & P & So & E & L). cbn zeta in *.
  set (b := selection_buffer F n mt streams) in *. destruct S as [SL SF SI SN].
  assert (IN : forall e, In e result -> e = unset \/ In e (concat streams) /\ (mt < size e)%R).
  { intros e He. apply SI. apply (Permutation_in _ (Permutation_sym P)). rewrite E in He. eapply firstn_In; exact He. }
  assert (Ls : n <= length s) by (rewrite E, firstn_length in L; lia).
  split; [exact L|]. split; [exact IN|]. split.
  - intros p q H EF. destruct (IN (nth q result unset)) as [U|(U1 & U2)]; [apply nth_In; lia|exact U|]. exfalso.
    assert (SETq : is_set (nth q result unset) = true).
    { unfold is_set. destruct (row_eq_dec (fst (nth q result unset)) (fst unset)) as [Z|]; [|reflexivity]. exfalso. destruct C as (_ & C2). apply C2.
      rewrite <- Z. now apply in_map. }
    assert (SETp : is_set (nth p result unset) = true) by (unfold is_set in *; rewrite EF; exact SETq).
    pose proof (Permutation_NoDup (Permutation_map fst (Permutation_filter _ is_set _ _ P)) SN) as ND.
    rewrite E, !nth_firstn in * by lia.
    (* split s around p and q *)
    pose proof (firstn_skipn p s) as S1. rewrite (firstn_skipn_nth unset s p) in S1 by lia.
    pose proof (firstn_skipn (q - S p) (skipn (S p) s)) as S2. rewrite (firstn_skipn_nth unset (skipn (S p) s) (q - S p)) in S2 by (rewrite skipn_length; lia).
    rewrite nth_skipn in S2. replace (S p + (q - S p)) with q in S2 by lia. rewrite <- S2 in S1. rewrite <- S1 in ND.
    rewrite filter_app in ND. cbn [filter] in ND. rewrite SETp in ND. rewrite filter_app in ND. cbn [filter] in ND. rewrite SETq in ND.
    rewrite map_app in ND. cbn [map] in ND. apply NoDup_remove_2 in ND. apply ND. apply in_or_app. right. rewrite map_app. apply in_or_app. right. left. now rewrite EF.
  - intros p q H. rewrite E, !nth_firstn by lia. apply So. lia.
Qed.

(** Optimality.  A candidate above the threshold that did not meet a full buffer is returned, or num_add candidates at least as large are,
    if at the start of each spin case the moment in place num_add was the smallest of the first num_add. *)
Theorem C18_largest_kept : forall buf_fact num_add min_thresh streams result,
  1 <= buf_fact -> 1 <= num_add -> candidates_ok streams ->
  (forall pre s post, streams = pre ++ s :: post -> threshold_sound num_add (selection_buffer buf_fact num_add min_thresh pre)) ->
  selection_result buf_fact num_add min_thresh streams result ->
  forall x, In x (concat streams) -> (min_thresh < size x)%R -> ~ In x (dropped buf_fact num_add min_thresh streams) ->
  In x result \/ (length result = num_add /\ forall e, In e result -> (size x <= size e)%R).
Proof.
  intros F n mt streams result HF Hn C T R x Hx Tx Dx. destruct (result_from_buffer _ _ _ _ _ HF Hn C R) as (_ & s & P & So & E & L). cbn zeta in *.
  assert (NU : ~ In unset (concat streams)) by (intros Z; apply (proj2 C); now apply (in_map fst) in Z).
  assert (TS : thresholds_sound F n mt (start F n) streams).
  { assert (G : forall l pre, streams = pre ++ l -> thresholds_sound F n mt (fold_left (spin_case_pass F n mt) pre (start F n)) l).
    { induction l as [|a l IH]; intros pre EQ; [exact I|]. split; [exact (T pre a l EQ)|].
      specialize (IH (pre ++ [a])). rewrite fold_left_app in IH. apply IH. now rewrite <- app_assoc. }
    exact (G streams [] eq_refl). }
  pose proof (passes_good F n mt HF Hn streams [] (start F n) (start_good F n HF Hn) (fun z => z) NU TS) as G. cbn [app] in G.
  change (fold_left (spin_case_pass F n mt) streams (start F n)) with (selection_buffer F n mt streams) in G.
  set (b := selection_buffer F n mt streams) in *. destruct G as [GL GF _ _ _ GK].
  assert (Ls : length s = length (b_entries b)) by (symmetry; now apply Permutation_length).
  destruct (GK x) as [I|B].
  - apply kept_from_spec; auto.
  - apply (Permutation_in _ P) in I. rewrite <- (firstn_skipn n s) in I. apply in_app_or in I. rewrite <- E in I. destruct I as [I|I]; [now left|right].
    split; [exact L|]. intros e He. apply (In_nth _ _ unset) in I. destruct I as (r & Hr & <-). rewrite skipn_length in Hr. rewrite nth_skipn.
    apply (In_nth _ _ unset) in He. destruct He as (p & Hp & <-). rewrite L in Hp. rewrite E, nth_firstn by exact Hp. apply So. lia.
  - right. split; [exact L|]. intros e He. apply (In_nth _ _ unset) in He. destruct He as (p & Hp & <-). rewrite L in Hp. rewrite E, nth_firstn by exact Hp.
    eapply top_sorted with (l := b_entries b) (n := n); eauto. rewrite GL. now apply cap_ge.
Qed.
(** One spin case that fits in the buffer, or several of which all but the last together have fewer than num_add candidates: exact. *)
Theorem C18_exact_when_it_fits : forall buf_fact num_add min_thresh first_cases last_case result,
  1 <= buf_fact -> 1 <= num_add -> candidates_ok (first_cases ++ [last_case]) ->
  length (concat first_cases) < num_add ->
  length (concat (first_cases ++ [last_case])) <= buf_fact * num_add ->
  selection_result buf_fact num_add min_thresh (first_cases ++ [last_case]) result ->
  forall x, In x (concat (first_cases ++ [last_case])) -> (min_thresh < size x)%R ->
  In x result \/ (length result = num_add /\ forall e, In e result -> (size x <= size e)%R).
Proof.
  intros F n mt fc lc result HF Hn C H1 H2 R x Hx Tx. set (streams := fc ++ [lc]) in *.
  assert (NU : ~ In unset (concat streams)) by (intros Z; apply (proj2 C); now apply (in_map fst) in Z).
  assert (NF : ~ In unset (concat fc)) by (intros Z; apply NU; unfold streams; rewrite concat_app; apply in_or_app; now left).
  apply (C18_largest_kept F n mt streams); auto.
  - assert (TS : thresholds_sound F n mt (start F n) streams).
    { apply (small_thresholds F n mt HF Hn fc [] (start F n) lc (start_good F n HF Hn) (fun z => z) NF). cbn [start b_fill]. lia. }
    clear - TS. intros pre s post E. rewrite E in TS. change (threshold_sound n (fold_left (spin_case_pass F n mt) pre (start F n))). revert TS. generalize (start F n).
    clear. induction pre as [|a pre IH]; intros b TS; cbn [app thresholds_sound fold_left] in *; [apply TS|]. apply IH, TS.
  - change (~ In x (dropped_from F n mt (start F n) streams)). rewrite (no_drop_from F n mt HF Hn); [intros []|]. cbn [start b_fill]. lia.
Qed.

(** ** The whole selection, on the candidates that are really offered *)
Lemma spin_row_eq : forall s t, length t = 6 -> spin_row s t = spin_orbitals s t.
Proof. intros s t L. destruct t as [|a [|b [|c [|i [|j [|k [|? ?]]]]]]]; try discriminate L. destruct s; reflexivity. Qed.
Lemma three_pos : forall s na nb t, three_of s na nb t -> forall x, In x t -> 1 <= x.
Proof. intros s na nb t H x Hx. destruct t as [|p [|q [|r [|? ?]]]]; try contradiction. destruct s; cbn in H, Hx; destruct Hx as [<-|[<-|[<-|[]]]]; lia. Qed.
Lemma excitation_triple : forall noa nua nob nub s t, excitation_of noa nua nob nub s t -> triple t.
Proof.
  intros noa nua nob nub s t (abc & ijk & -> & Ha & Hi). split.
  - rewrite app_length, (three_len _ _ _ _ Ha), (three_len _ _ _ _ Hi). reflexivity.
  - intros x Hx. apply in_app_or in Hx. destruct Hx as [Hx|Hx]; [exact (three_pos _ _ _ _ Ha x Hx)|exact (three_pos _ _ _ _ Hi x Hx)].
Qed.
Lemma odd_inj : forall a a', 2 * S a - 1 = 2 * S a' - 1 -> a = a'.
Proof. intros. lia. Qed.
Lemma even_inj : forall a a', 2 * S a = 2 * S a' -> a = a'.
Proof. intros. lia. Qed.
Lemma odd_even : forall a a', 2 * S a - 1 = 2 * S a' -> False.
Proof. intros. lia. Qed.
Lemma cons_eq : forall (x y : nat) l m, x :: l = y :: m -> x = y /\ l = m.
Proof. intros x y l m E. injection E. auto. Qed.
Lemma spin_row_inj : forall s s' t t', triple t -> triple t' -> spin_row s t = spin_row s' t' -> s = s' /\ t = t'.
Proof.
  intros s s' t t' T T' E. destruct (triple_inv t T) as (a & b & c & i & j & k & ->). destruct (triple_inv t' T') as (a' & b' & c' & i' & j' & k' & ->). clear T T'.
  destruct s, s'; cbn [spin_row] in E; apply cons_eq in E; destruct E as [E1 E]; apply cons_eq in E; destruct E as [E2 E]; apply cons_eq in E; destruct E as [E3 E];
    try (exfalso; first [exact (odd_even _ _ E1)|exact (odd_even _ _ (eq_sym E1))|exact (odd_even _ _ E2)|exact (odd_even _ _ (eq_sym E2))|exact (odd_even _ _ E3)|exact (odd_even _ _ (eq_sym E3))]);
    apply cons_eq in E; destruct E as [E4 E]; apply cons_eq in E; destruct E as [E5 E]; apply cons_eq in E; destruct E as [E6 _]; (split; [reflexivity|]);
    repeat match goal with H : 2 * S _ - 1 = 2 * S _ - 1 |- _ => apply odd_inj in H; subst | H : 2 * S _ = 2 * S _ |- _ => apply even_inj in H; subst end; reflexivity.
Qed.
Lemma candidate_triple : forall noa nua nob nub s rows t, In t (candidates noa nua nob nub s rows) -> triple t.
Proof. intros noa nua nob nub s rows t H. apply in_candidates in H. destruct H as (abc & ijk & -> & Ha & Hi & _). eapply excitation_triple. exists abc, ijk. eauto. Qed.
Lemma in_offered : forall noa nua nob nub rhf P m e, In e (concat (offered noa nua nob nub rhf P m)) ->
  exists s t, In s (spin_cases rhf) /\ In t (candidates noa nua nob nub s (P s)) /\ e = (spin_row s t, m s t).
Proof.
  intros noa nua nob nub rhf P m e H. apply in_concat in H. destruct H as (l & Hl & He). unfold offered in Hl. apply in_map_iff in Hl.
  destruct Hl as (s & <- & Hs). apply in_map_iff in He. destruct He as (t & <- & Ht). now exists s, t.
Qed.
Lemma offered_ok : forall noa nua nob nub rhf P m, candidates_ok (offered noa nua nob nub rhf P m).
Proof.
  intros noa nua nob nub rhf P m. split.
  - assert (E : map fst (concat (offered noa nua nob nub rhf P m)) = flat_map (fun s => map (spin_row s) (candidates noa nua nob nub s (P s))) (spin_cases rhf)).
    { unfold offered. generalize (spin_cases rhf). intros l. induction l as [|s l IH]; [reflexivity|]. cbn [map concat flat_map]. etransitivity; [apply map_app|]. f_equal; [now rewrite map_map|exact IH]. }
    rewrite E. apply NoDup_flat_map.
    + destruct rhf; cbn; repeat constructor; cbn; intuition discriminate.
    + intros s _. pose proof (candidates_nodup noa nua nob nub s (P s)) as N. assert (T := candidate_triple noa nua nob nub s (P s)).
      induction N as [|x l Nx N IH]; cbn [map]; constructor.
      * intros C. apply in_map_iff in C. destruct C as (y & Ey & Hy). apply spin_row_inj in Ey; [|apply T; now right|apply T; now left]. destruct Ey as (_ & ->). auto.
      * apply IH. intros t Ht. apply T. now right.
    + intros s s' z _ _ Hz Hz'. apply in_map_iff in Hz. apply in_map_iff in Hz'. destruct Hz as (t & <- & Ht), Hz' as (t' & Et & Ht').
      apply candidate_triple in Ht. apply candidate_triple in Ht'. symmetry. now apply (spin_row_inj s' s t' t).
  - intros C. apply in_map_iff in C. destruct C as (e & Ee & He). apply in_offered in He. destruct He as (s & t & _ & Ht & ->). apply candidate_triple in Ht.
    destruct (triple_inv t Ht) as (a & b & c & i & j & k & ->). cbn [fst unset] in Ee. destruct s; cbn [spin_row] in Ee; injection Ee; lia.
Qed.
(** Every row returned is a never-set row or the spin-orbital form of a triple outside the P space with its moment above the threshold; no
    triple is returned twice.  With restricted references only the aaa and aab cases are met.  [well_formed] is the hypothesis of C17. *)
Theorem C18_selection_adds_new_triples : forall noa nua nob nub rhf (P : lists) moment buf_fact num_add min_thresh result,
  1 <= buf_fact -> 1 <= num_add ->
  (forall s, In s (spin_cases rhf) -> P s = [ones] \/ 2 <= length (P s) /\ forall t, In t (P s) -> excitation_of noa nua nob nub s t) ->
  selection_result buf_fact num_add min_thresh (offered noa nua nob nub rhf P moment) result ->
  exists sel, map fst result = rows_of sel /\ length sel = num_add /\ well_formed sel /\
    (forall s t, In (Some (s, t)) sel -> excitation_of noa nua nob nub s t /\ ~ In t (P s) /\ (rhf = true -> s = aaa \/ s = aab) /\
                                          (min_thresh < Rabs (moment s t))%R) /\
    (forall s, NoDup (chosen s sel)).
Proof.
  intros noa nua nob nub rhf P m F n mt result HF Hn HP R. pose proof (offered_ok noa nua nob nub rhf P m) as OK.
  destruct (C18_selected_are_candidates _ _ _ _ _ HF Hn OK R) as (L & IN & ND & _).
  assert (EX : forall e, In e result -> exists o, fst e = match o with Some (s, t) => spin_orbitals s t | None => [0; 0; 0; 0; 0; 0] end /\
    match o with Some (s, t) => excitation_of noa nua nob nub s t /\ ~ In t (P s) /\ (rhf = true -> s = aaa \/ s = aab) /\ (mt < Rabs (m s t))%R | None => True end).
  { intros e He. destruct (IN e He) as [->|(I & T)]; [exists None; split; [reflexivity|exact I]|].
    apply in_offered in I. destruct I as (s & t & Hs & Ht & ->). exists (Some (s, t)). pose proof (candidate_triple _ _ _ _ _ _ _ Ht) as TR.
    split; [apply spin_row_eq; apply TR|]. assert (RH : rhf = true -> s = aaa \/ s = aab) by (intros ->; cbn in Hs; intuition).
    destruct (HP s Hs) as [E1|(E1 & E2)].
    - rewrite E1 in Ht |- *. apply C18_empty_pspace in Ht. split; [exact Ht|]. split; [|auto]. intros [<-|[]].
      destruct Ht as (abc & ijk & E3 & Ha & Hi). destruct abc as [|p [|q [|r [|? ?]]]]; try contradiction. unfold ones in E3. cbn [app] in E3.
      injection E3 as <- <- <- _. destruct s; cbn in Ha; lia.
    - apply C18_outside_pspace in Ht; auto. destruct Ht as (H1 & H2). auto. }
  clear HP. assert (G : forall l, (forall e, In e l -> In e result) -> NoDup (map fst (filter is_set l)) ->
    exists sel, map fst l = rows_of sel /\ length sel = length l /\ (forall s t, In (Some (s, t)) sel -> In (spin_orbitals s t) (map fst (filter is_set l)) /\
       excitation_of noa nua nob nub s t /\ ~ In t (P s) /\ (rhf = true -> s = aaa \/ s = aab) /\ (mt < Rabs (m s t))%R) /\ (forall s, NoDup (chosen s sel))).
  { induction l as [|e l IH]; intros HI HN.
    - exists []. split; [reflexivity|]. split; [reflexivity|]. split; [intros s t []|intros; constructor].
    - destruct (EX e (HI e (or_introl eq_refl))) as (o & E1 & E2).
      assert (N2 : NoDup (map fst (filter is_set l))) by (cbn [filter] in HN; destruct (is_set e); [now inversion HN|exact HN]).
      destruct (IH (fun z Hz => HI z (or_intror Hz)) N2) as (sel & S1 & S2 & S3 & S4). exists (o :: sel).
      split; [cbn [rows_of map]; fold (rows_of sel); rewrite <- S1, E1; reflexivity|]. split; [cbn [length]; lia|]. split.
      + intros s t [->|H].
        * split; [|exact E2]. assert (SE : is_set e = true).
          { unfold is_set. destruct (row_eq_dec (fst e) (fst unset)) as [Z|]; [|reflexivity]. exfalso. rewrite E1 in Z.
            pose proof (excitation_triple _ _ _ _ _ _ (proj1 E2)) as TR. destruct (triple_inv t TR) as (a & b & c & i & j & k & ->).
            cbn [fst unset] in Z. destruct s; cbn [spin_orbitals] in Z; unfold alpha, beta in Z; injection Z; lia. }
          cbn [filter]. rewrite SE. left. exact E1.
        * destruct (S3 s t H) as (A & B). split; [|exact B]. cbn [filter]. destruct (is_set e); [now right|exact A].
      + intros s. cbn [chosen]. destruct o as [[s' t]|]; [|apply S4]. destruct (spincase_eqb s s') eqn:Es; [|apply S4]. constructor; [|apply S4].
        intros C. apply chosen_in in C. destruct (S3 s t C) as (A & B). assert (s = s') as <- by (destruct s, s'; cbn in Es; congruence).
        cbn [filter] in HN. destruct (is_set e) eqn:SE.
        * cbn [map] in HN. inversion HN as [|? ? N1' N2']; subst. apply N1'. now rewrite E1.
        * unfold is_set in SE. destruct (row_eq_dec (fst e) (fst unset)) as [Z|]; [|discriminate]. rewrite E1 in Z.
          pose proof (excitation_triple _ _ _ _ _ _ (proj1 E2)) as TR. destruct (triple_inv t TR) as (a & b & c & i & j & k & ->).
          cbn [fst unset] in Z. destruct s; cbn [spin_orbitals] in Z; unfold alpha, beta in Z; injection Z; lia. }
  assert (NF : NoDup (map fst (filter is_set result))).
  { destruct (result_from_buffer _ _ _ _ _ HF Hn OK R) as ([_ _ _ SN] & s & Pm & _ & E & _). cbn zeta in *.
    pose proof (Permutation_NoDup (Permutation_map fst (Permutation_filter _ is_set _ _ Pm)) SN) as N0.
    rewrite <- (firstn_skipn n s), <- E, filter_app, map_app in N0. now apply NoDup_app_l in N0. }
  destruct (G result (fun z Hz => Hz) NF) as (sel & S1 & S2 & S3 & S4). exists sel. split; [exact S1|]. split; [lia|]. split; [|split].
  - intros s t H. destruct (S3 s t H) as (_ & H1 & _). eapply excitation_triple; eauto.
  - intros s t H. apply (S3 s t H).
  - exact S4.
Qed.

(** ** Where the selection is not the best one *)
Definition e1 : entry := ([1; 3; 5; 1; 3; 5], 1%R).
Definition e2 : entry := ([1; 3; 7; 1; 3; 5], 2%R).
Definition e5 : entry := ([1; 5; 7; 1; 3; 5], 5%R).
Definition f3 : entry := ([1; 3; 2; 1; 3; 2], 3%R).
Lemma size_of : forall r v, (0 <= v)%R -> size (r, v) = v. Proof. intros. unfold size. cbn [snd]. now apply Rabs_pos_eq. Qed.
Ltac sizes := unfold e1, e2, e5, f3, unset in *; rewrite ?size_of in * by lra.

(** A candidate that arrives at a full buffer is lost, even if it is the largest of all: one triple is asked for, buffer factor 2. *)
Theorem C18_full_buffer_drops_largest_refuted : exists streams x, candidates_ok streams /\ In x (concat streams) /\ (0 < size x)%R /\
  forall result, selection_result 2 1 0 streams result -> forall e, In e result -> (size e < size x)%R.
Proof.
  exists [[e1; e2; e5]], e5. split; [|split; [|split]].
  - split; cbn; [repeat constructor; cbn; intuition discriminate|intuition discriminate].
  - cbn. auto.
  - sizes. lra.
  - intros result (idx & P & A & ->) e He. apply firstn_In in He. apply in_map_iff in He. destruct He as (q & <- & Hq).
    apply in_rev in Hq. apply (Permutation_in _ (Permutation_sym P)) in Hq. apply in_seq in Hq.
    assert (B : Permutation [e1; e2] (b_entries (selection_buffer 2 1 0 [[e1; e2; e5]]))).
    { unfold selection_buffer. cbn [fold_left]. unfold spin_case_pass. cbn [fold_left b_entries b_fill b_min repeat Nat.mul Nat.add].
      assert (O1 : forall m, (m <= 1)%R -> offer 2 1 0 {| b_entries := [unset; unset]; b_fill := 1; b_min := m |} e1 = {| b_entries := [e1; unset]; b_fill := 2; b_min := m |}).
      { intros m Hm. unfold offer. change (Rabs (snd e1)) with (size e1). destruct (Rle_dec (size e1) 0) as [Z|_]; [sizes; lra|]. cbn [b_fill b_min Nat.leb Nat.mul Nat.add b_entries].
        destruct (Rle_dec m (size e1)) as [_|Z]; [reflexivity|]. exfalso. apply Z. sizes. lra. }
      assert (O2 : forall m, (m <= 1)%R -> offer 2 1 0 {| b_entries := [e1; unset]; b_fill := 2; b_min := m |} e2 = {| b_entries := [e1; e2]; b_fill := 3; b_min := m |}).
      { intros m Hm. unfold offer. change (Rabs (snd e2)) with (size e2). destruct (Rle_dec (size e2) 0) as [Z|_]; [sizes; lra|]. cbn [b_fill b_min Nat.leb Nat.mul Nat.add b_entries].
        destruct (Rle_dec m (size e2)) as [_|Z]; [reflexivity|]. exfalso. apply Z. sizes. lra. }
      rewrite O1, O2.
      - unfold offer. change (Rabs (snd e5)) with (size e5). destruct (Rle_dec (size e5) 0) as [Z|_]; [sizes; lra|]. cbn [b_fill Nat.leb Nat.mul Nat.add b_entries]. apply sort_buffer_perm.
      - cbn [Nat.sub nth]. change (size unset <= 1)%R. sizes. lra.
      - cbn [Nat.sub nth]. change (size unset <= 1)%R. sizes. lra. }
    assert (I : In (nth q (b_entries (selection_buffer 2 1 0 [[e1; e2; e5]])) unset) [e1; e2]) by (apply (Permutation_in _ (Permutation_sym B)), nth_In; lia).
    destruct I as [<-|[<-|[]]]; sizes; lra.
Qed.
(** At the start of a spin case the acceptance threshold is entry num_add of a buffer that has not been sorted: candidates larger than
    some that are returned are refused, although the buffer is half empty. *)
Theorem C18_unsorted_threshold_refuted : exists streams x, candidates_ok streams /\ In x (concat streams) /\ (0 < size x)%R /\
  dropped 2 2 0 streams = [] /\
  forall result, selection_result 2 2 0 streams result -> ~ In x result /\ exists e, In e result /\ (size e < size x)%R.
Proof.
  exists [[e1; e5]; [f3]], f3.
  assert (O1 : forall m, (m <= 1)%R -> offer 2 2 0 {| b_entries := [unset; unset; unset; unset]; b_fill := 1; b_min := m |} e1 = {| b_entries := [e1; unset; unset; unset]; b_fill := 2; b_min := m |}).
  { intros m Hm. unfold offer. change (Rabs (snd e1)) with (size e1). destruct (Rle_dec (size e1) 0) as [Z|_]; [sizes; lra|]. cbn [b_fill b_min Nat.leb Nat.mul Nat.add b_entries].
    destruct (Rle_dec m (size e1)) as [_|Z]; [reflexivity|]. exfalso. apply Z. sizes. lra. }
  assert (O2 : forall m, (m <= 1)%R -> offer 2 2 0 {| b_entries := [e1; unset; unset; unset]; b_fill := 2; b_min := m |} e5 = {| b_entries := [e1; e5; unset; unset]; b_fill := 3; b_min := m |}).
  { intros m Hm. unfold offer. change (Rabs (snd e5)) with (size e5). destruct (Rle_dec (size e5) 0) as [Z|_]; [sizes; lra|]. cbn [b_fill b_min Nat.leb Nat.mul Nat.add b_entries].
    destruct (Rle_dec m (size e5)) as [_|Z]; [reflexivity|]. exfalso. apply Z. sizes. lra. }
  assert (O3 : forall m, (m = 5)%R -> offer 2 2 0 {| b_entries := [e1; e5; unset; unset]; b_fill := 3; b_min := m |} f3 = {| b_entries := [e1; e5; unset; unset]; b_fill := 3; b_min := m |}).
  { intros m Hm. unfold offer. change (Rabs (snd f3)) with (size f3). destruct (Rle_dec (size f3) 0) as [Z|_]; [sizes; lra|]. cbn [b_fill b_min Nat.leb Nat.mul Nat.add b_entries].
    destruct (Rle_dec m (size f3)) as [Z|_]; [|reflexivity]. exfalso. sizes. lra. }
  assert (U : size unset = 0%R) by (sizes; lra). assert (V : size e5 = 5%R) by (sizes; lra).
  assert (C : candidates_ok [[e1; e5]; [f3]]) by (split; cbn; [repeat constructor; cbn; intuition discriminate|intuition discriminate]).
  assert (B : b_entries (selection_buffer 2 2 0 [[e1; e5]; [f3]]) = [e1; e5; unset; unset]).
  { unfold selection_buffer. cbn [fold_left]. unfold spin_case_pass. cbn [fold_left b_entries b_fill b_min repeat Nat.mul Nat.add Nat.sub nth].
    change (Rabs (snd unset)) with (size unset). rewrite O1, O2 by (rewrite U; lra). cbn [b_entries b_fill b_min nth].
    change (Rabs (snd e5)) with (size e5). rewrite O3 by exact V. reflexivity. }
  split; [exact C|]. split; [cbn; auto|]. split; [sizes; lra|]. split.
  - unfold dropped. apply (no_drop_from 2 2 0 ltac:(lia) ltac:(lia)). cbn. lia.
  - intros result R. destruct (result_from_buffer 2 2 0 _ _ ltac:(lia) ltac:(lia) C R) as (_ & s & P & So & E & L). cbn zeta in *. rewrite B in P.
    assert (N : ~ In f3 [e1; e5; unset; unset]) by (unfold f3, e1, e5, unset; cbn; intuition discriminate).
    split.
    + intros H. rewrite E in H. apply firstn_In in H. apply (Permutation_in _ (Permutation_sym P)) in H. auto.
    + assert (Ls : length s = 4) by (symmetry; exact (Permutation_length P)).
      exists (nth 1 s unset). split; [rewrite E; destruct s as [|s0 [|s1 s]]; cbn in Ls; try lia; cbn; auto|].
      destruct (Rlt_le_dec (size (nth 1 s unset)) (size f3)) as [|Bd]; [assumption|exfalso].
      assert (Bd0 : (size f3 <= size (nth 0 s unset))%R) by (specialize (So 0 1 ltac:(lia)); lra).
      pose proof (Permutation_length (Permutation_filter _ (at_least 3) _ _ P)) as K.
      assert (K1 : length (filter (at_least 3) [e1; e5; unset; unset]) = 1).
      { cbn [filter]. unfold at_least. sizes. destruct (Rle_dec 3 1); [lra|]. destruct (Rle_dec 3 5); [|lra]. destruct (Rle_dec 3 0); [lra|]. reflexivity. }
      rewrite K1 in K. clear K1. destruct s as [|s0 [|s1 s]]; cbn [length] in Ls; try lia. cbn [nth filter] in *.
      assert (F3 : size f3 = 3%R) by (sizes; lra). rewrite F3 in *.
      assert (A0 : at_least 3 s0 = true) by (unfold at_least; destruct (Rle_dec 3 (size s0)); [reflexivity|lra]).
      assert (A1 : at_least 3 s1 = true) by (unfold at_least; destruct (Rle_dec 3 (size s1)); [reflexivity|lra]).
      rewrite A0, A1 in K. cbn [length] in K. lia.
Qed.

Example C18_candidates_instance :
  candidates 3 4 3 4 aaa [[1; 2; 3; 1; 2; 3]; [1; 2; 4; 1; 2; 3]] = [[1; 3; 4; 1; 2; 3]; [2; 3; 4; 1; 2; 3]].
Proof. reflexivity. Qed.
(** The hypotheses of the exactness theorem and of [selection_result] are met. *)
Example C18_instance : candidates_ok ([[e1]] ++ [[f3; e5]]) /\ length (concat [[e1]]) < 2 /\ length (concat ([[e1]] ++ [[f3; e5]])) <= 2 * 2 /\
  exists result, selection_result 2 2 0 ([[e1]] ++ [[f3; e5]]) result.
Proof.
  split; [split; cbn; [repeat constructor; cbn; intuition discriminate|intuition discriminate]|]. split; [cbn; lia|]. split; [cbn; lia|].
  unfold selection_result. set (l := b_entries _). set (d := argsort_r8_descend (map (fun e => Rabs (snd e)) l)).
  destruct (argsort_r8_correct (map (fun e => Rabs (snd e)) l)) as (P & D). fold d in P, D.
  unfold index_vector in P. rewrite map_length in P.
  assert (Ld : length d = length l) by (rewrite <- (Permutation_length P); apply seq_length).
  assert (B : forall p, p < length d -> 1 <= nth p d 0 <= length l).
  { intros p Hp. assert (In (nth p d 0) (seq 1 (length l))) by (apply (Permutation_in _ (Permutation_sym P)), nth_In; exact Hp). apply in_seq in H. lia. }
  eexists. exists (rev (map pred d)). split; [|split; [|reflexivity]].
  - eapply Permutation_trans; [|apply Permutation_rev]. rewrite <- (Permutation_map pred P). rewrite <- seq_shift, map_map. cbn. now rewrite map_id.
  - intros p q H. rewrite rev_length, map_length in H. rewrite !rev_nth by (rewrite map_length; lia). rewrite map_length.
    assert (Np : forall r, nth r (map pred d) 0 = pred (nth r d 0)) by (intros r; exact (map_nth pred d 0 r)). rewrite !Np.
    assert (G : forall r, 1 <= r <= length l -> nth (r - 1) (map (fun e : entry => Rabs (snd e)) l) 0%R = Rabs (snd (nth (pred r) l unset))).
    { intros r Hr. rewrite (nth_indep _ 0%R (Rabs (snd unset))) by (rewrite map_length; lia). rewrite (map_nth (fun e : entry => Rabs (snd e))). now rewrite Nat.sub_1_r. }
    specialize (D (length d - S q) (length d - S p) ltac:(lia) ltac:(lia)). rewrite !G in D by (apply B; lia). exact D.
Qed.
Print Assumptions C18_outside_pspace.
Print Assumptions C18_selection_adds_new_triples.
Print Assumptions C18_selected_are_candidates.
Print Assumptions C18_largest_kept.
Print Assumptions C18_exact_when_it_fits.
Print Assumptions C18_full_buffer_drops_largest_refuted.
Print Assumptions C18_unsorted_threshold_refuted.
