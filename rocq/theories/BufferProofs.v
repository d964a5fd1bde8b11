(** Lemmas for the moment selection. *)
From Coq Require Import List Arith Bool Reals Lia Lra Permutation.
From Verif Require Import Base SortModel SortSpec SortProofs SortProps SelectModel SelectSpec BufferSpec.
Import ListNotations.
Local Open Scope R_scope.

Lemma entry_eq_dec : forall x y : entry, {x = y} + {x <> y}.
Proof. decide equality; [apply Req_EM_T|apply row_eq_dec]. Qed.
Definition is_set (e : entry) : bool := if row_eq_dec (fst e) (fst unset) then false else true.
Lemma size_unset : size unset = 0. Proof. unfold size, unset. cbn [snd]. apply Rabs_R0. Qed.
Lemma size_pos : forall x, 0 <= size x. Proof. intros. apply Rabs_pos. Qed.

Lemma put_length : forall A (l : list A) p x, (1 <= p <= length l)%nat -> length (put l p x) = length l.
Proof. intros. unfold put. rewrite app_length, firstn_length. cbn [length]. rewrite skipn_length. lia. Qed.
Lemma nth_put : forall A (l : list A) p x q d, (1 <= p <= length l)%nat -> nth q (put l p x) d = if (q =? p - 1)%nat then x else nth q l d.
Proof.
  intros A l p x q d H. unfold put. destruct (Nat.eqb_spec q (p - 1)) as [->|N].
  - rewrite app_nth2; rewrite firstn_length, Nat.min_l by lia; [|lia]. now rewrite Nat.sub_diag.
  - destruct (Nat.lt_ge_cases q (p - 1)).
    + rewrite app_nth1 by (rewrite firstn_length; lia). apply nth_firstn. lia.
    + rewrite app_nth2; rewrite firstn_length, Nat.min_l by lia; [|lia].
      destruct (q - (p - 1))%nat as [|m] eqn:E; [lia|]. cbn [nth]. rewrite nth_skipn. f_equal. lia.
Qed.
Lemma put_split : forall A (l : list A) p d, (1 <= p <= length l)%nat ->
  l = firstn (p - 1) l ++ nth (p - 1) l d :: skipn p l.
Proof.
  intros A l p d H. rewrite <- (firstn_skipn (p - 1) l) at 1. f_equal. rewrite (firstn_skipn_nth d) by lia. f_equal. f_equal. lia.
Qed.

Lemma firstn_In : forall A n (l : list A) x, In x (firstn n l) -> In x l.
Proof. intros A n l x H. rewrite <- (firstn_skipn n l). apply in_or_app. now left. Qed.
Lemma skipn_In : forall A n (l : list A) x, In x (skipn n l) -> In x l.
Proof. intros A n l x H. rewrite <- (firstn_skipn n l). apply in_or_app. now right. Qed.

Lemma NoDup_app_l : forall A (l m : list A), NoDup (l ++ m) -> NoDup l.
Proof.
  induction l as [|x l IH]; intros m N; [constructor|]. inversion N as [|? ? N1 N2]; subst. constructor; [|eauto]. intros C. apply N1, in_or_app. now left.
Qed.

(** Sorting. *)
Lemma sort_buffer_perm : forall l, Permutation l (sort_buffer l).
Proof.
  intros. unfold sort_buffer. apply take_perm. pose proof (proj1 (argsort_r8_correct (map (fun e => Rabs (snd e)) l))) as H.
  unfold index_vector in *. rewrite map_length in H. exact H.
Qed.
Lemma sort_buffer_sorted : forall l p q, (p < q < length l)%nat -> size (nth q (sort_buffer l) unset) <= size (nth p (sort_buffer l) unset).
Proof.
  intros l p q H. unfold sort_buffer. set (m := map (fun e => Rabs (snd e)) l). set (d := argsort_r8_descend m).
  destruct (argsort_r8_correct m) as (P & D). fold d in P, D.
  assert (L : length d = length l) by (rewrite <- (Permutation_length P), seq_length; apply map_length).
  assert (G : forall r, (r < length l)%nat -> size (nth r (take unset l d) unset) = nth (nth r d 0%nat - 1) m 0).
  { intros r Hr. unfold take. rewrite (nth_indep _ unset (nth (0 - 1) l unset)) by (rewrite map_length; lia).
    rewrite (map_nth (fun i => nth (i - 1) l unset)). unfold m.
    assert (In (nth r d 0%nat) (seq 1 (length m))) as I.
    { eapply Permutation_in; [apply Permutation_sym; exact P|]. apply nth_In. lia. }
    apply in_seq in I. unfold m in I. rewrite map_length in I.
    rewrite (nth_indep _ 0 ((fun e => Rabs (snd e)) unset)) by (rewrite map_length; lia).
    rewrite (map_nth (fun e => Rabs (snd e))). reflexivity. }
  rewrite !G by lia. apply D; lia.
Qed.

(** Counting: if the first n entries of l are at least v, so are the first n entries of a descending rearrangement. *)
Definition at_least (v : R) (e : entry) : bool := if Rle_dec v (size e) then true else false.
Lemma filter_all : forall A (f : A -> bool) l, (forall x, In x l -> f x = true) -> filter f l = l.
Proof. induction l; cbn; intros H; [reflexivity|]. rewrite H by auto. f_equal. auto. Qed.
Lemma filter_none : forall A (f : A -> bool) l, (forall x, In x l -> f x = false) -> filter f l = [].
Proof. induction l; cbn; intros H; [reflexivity|]. rewrite H by auto. auto. Qed.
Lemma filter_le : forall A (f : A -> bool) l, (length (filter f l) <= length l)%nat.
Proof. induction l; cbn; [lia|]. destruct (f a); cbn; lia. Qed.
Lemma top_sorted : forall l s v n, Permutation l s -> (n <= length l)%nat ->
  (forall p q, (p < q < length s)%nat -> size (nth q s unset) <= size (nth p s unset)) ->
  (forall q, (q < n)%nat -> v <= size (nth q l unset)) -> forall q, (q < n)%nat -> v <= size (nth q s unset).
Proof.
  intros l s v n P Ln S H q Hq. destruct (Rle_lt_dec v (size (nth q s unset))) as [|B]; [assumption|exfalso].
  assert (LS : length s = length l) by (symmetry; now apply Permutation_length).
  assert (A1 : (n <= length (filter (at_least v) l))%nat).
  { rewrite <- (firstn_skipn n l), filter_app, app_length, (filter_all _ (at_least v) (firstn n l)), firstn_length; [lia|].
    intros x Hx. apply (In_nth _ _ unset) in Hx. destruct Hx as (r & Hr & <-). rewrite firstn_length in Hr. rewrite nth_firstn by lia.
    unfold at_least. destruct (Rle_dec v (size (nth r l unset))) as [|C]; [reflexivity|]. exfalso. apply C, H. lia. }
  rewrite (Permutation_length (Permutation_filter _ (at_least v) _ _ P)) in A1.
  assert (A2 : (length (filter (at_least v) s) <= q)%nat).
  { rewrite <- (firstn_skipn q s), filter_app, app_length, (filter_none _ (at_least v) (skipn q s)).
    - cbn. pose proof (filter_le _ (at_least v) (firstn q s)). rewrite firstn_length in H0. lia.
    - intros x Hx. apply (In_nth _ _ unset) in Hx. destruct Hx as (r & Hr & <-). rewrite skipn_length in Hr. rewrite nth_skipn.
      unfold at_least. destruct (Rle_dec v (size (nth (q + r) s unset))) as [C|]; [|reflexivity]. exfalso.
      destruct r as [|r]; [rewrite Nat.add_0_r in C; lra|]. specialize (S q (q + Datatypes.S r)%nat ltac:(lia)). lra. }
  lia.
Qed.

Section B.
Variables (buf_fact num_add : nat) (min_thresh : R).
Hypothesis F1 : (1 <= buf_fact)%nat.
Hypothesis N1 : (1 <= num_add)%nat.
Let cap := (buf_fact * num_add)%nat.
Lemma cap_ge : (num_add <= cap)%nat. Proof. unfold cap. nia. Qed.
Notation offer := (offer buf_fact num_add min_thresh).
Notation pass := (spin_case_pass buf_fact num_add min_thresh).

(** ** Soundness: the set entries are distinct candidates already met, above the threshold. *)
Record sound (seen : list entry) (b : buffer) : Prop := {
  so_len : length (b_entries b) = cap;
  so_fill : (1 <= b_fill b <= cap + 1)%nat;
  so_in : forall e, In e (b_entries b) -> e = unset \/ In e seen /\ min_thresh < size e;
  so_nodup : NoDup (map fst (filter is_set (b_entries b))) }.
Lemma sound_seen : forall s s' b, sound s b -> incl s s' -> sound s' b.
Proof. intros s s' b [L F I N] H. split; auto. intros e He. destruct (I e He) as [|(? & ?)]; auto. Qed.
Lemma offer_sound : forall seen b x, sound seen b -> fst x <> fst unset -> ~ In (fst x) (map fst seen) -> sound (seen ++ [x]) (offer b x).
Proof.
  intros seen b x S0 U NI. unfold SelectModel.offer. fold cap.
  assert (K : sound (seen ++ [x]) b) by (eapply sound_seen; [exact S0|apply incl_appl, incl_refl]). destruct S0 as [L F I N].
  destruct (Rle_dec (Rabs (snd x)) min_thresh) as [|T]; [exact K|].
  destruct (Nat.leb_spec (b_fill b) cap) as [Le|Gt].
  - destruct (Rle_dec (b_min b) (Rabs (snd x))) as [G|G]; [|exact K]. split; cbn [b_entries b_fill].
    + rewrite put_length; lia.
    + lia.
    + intros e He. unfold put in He. apply in_app_or in He. destruct He as [He|[He|He]].
      * destruct (I e) as [|(? & ?)]; [eapply firstn_In; exact He|auto|]. right. split; [apply in_or_app; auto|auto].
      * subst e. right. split; [apply in_or_app; right; now left|]. unfold size. lra.
      * destruct (I e) as [|(? & ?)]; [eapply skipn_In; exact He|auto|]. right. split; [apply in_or_app; auto|auto].
    + assert (E := put_split _ (b_entries b) (b_fill b) unset ltac:(lia)). unfold put.
      set (A := firstn (b_fill b - 1) (b_entries b)) in *. set (B := skipn (b_fill b) (b_entries b)) in *.
      rewrite E, filter_app, map_app in N. cbn [filter] in N. rewrite filter_app, map_app. cbn [filter].
      assert (S1 : is_set x = true) by (unfold is_set; destruct (row_eq_dec (fst x) (fst unset)); congruence). rewrite S1. cbn [map].
      assert (N' : NoDup (map fst (filter is_set A) ++ map fst (filter is_set B))).
      { destruct (is_set (nth (b_fill b - 1) (b_entries b) unset)); [|exact N]. cbn [map] in N. now apply NoDup_remove_1 in N. }
      eapply Permutation_NoDup; [apply Permutation_middle|]. constructor; [|exact N'].
      rewrite <- map_app. intros C. apply in_map_iff in C. destruct C as (e & Ee & He).
      assert (In e (b_entries b) /\ is_set e = true) as (M1 & M2).
      { apply in_app_or in He. destruct He as [He|He]; apply filter_In in He; destruct He as (He & ?); (split; [|assumption]).
        - eapply firstn_In; exact He.
        - eapply skipn_In; exact He. }
      destruct (I e M1) as [->|(S & _)]; [|apply NI; rewrite <- Ee; now apply in_map].
      unfold is_set in M2. destruct (row_eq_dec (fst unset) (fst unset)); congruence.
  - destruct K as [_ _ I' _]. split; cbn [b_entries b_fill].
    + rewrite <- (Permutation_length (sort_buffer_perm (b_entries b))). exact L.
    + pose proof cap_ge. lia.
    + intros e He. apply I'. eapply Permutation_in; [apply Permutation_sym, sort_buffer_perm|exact He].
    + eapply Permutation_NoDup; [|exact N]. apply Permutation_map, Permutation_filter, sort_buffer_perm.
Qed.
Lemma enter_sound : forall seen b, sound seen b -> sound seen (entering num_add b).
Proof. intros seen b [L F I N]. now split. Qed.
Lemma fold_sound : forall stream seen b, sound seen b -> NoDup (map fst (seen ++ stream)) -> ~ In (fst unset) (map fst stream) ->
  sound (seen ++ stream) (fold_left offer stream b).
Proof.
  induction stream as [|x r IH]; intros seen b S N U; [now rewrite app_nil_r|]. cbn [fold_left].
  replace (seen ++ x :: r) with ((seen ++ [x]) ++ r) in * by (now rewrite <- app_assoc). apply IH.
  - apply offer_sound; [exact S|intros C; apply U; now left|]. rewrite <- app_assoc, map_app in N. cbn [app map] in N. apply NoDup_remove_2 in N.
    intros C. apply N. apply in_or_app. now left.
  - exact N.
  - intros C. apply U. now right.
Qed.
Lemma passes_sound : forall streams seen b, sound seen b -> NoDup (map fst (seen ++ concat streams)) -> ~ In (fst unset) (map fst (concat streams)) ->
  sound (seen ++ concat streams) (fold_left pass streams b).
Proof.
  induction streams as [|s r IH]; intros seen b S N U; cbn [fold_left concat]; [now rewrite app_nil_r|].
  cbn [concat] in N, U. rewrite app_assoc in *. apply IH; [|exact N|].
  - unfold spin_case_pass. change (sound (seen ++ s) (fold_left offer s (entering num_add b))).
    apply fold_sound; [now apply enter_sound| |].
    + rewrite map_app in N. apply NoDup_app_l in N. exact N.
    + intros C. apply U. rewrite map_app. apply in_or_app. now left.
  - intros C. apply U. rewrite map_app. apply in_or_app. now right.
Qed.
Definition start : buffer := {| b_entries := repeat unset cap; b_fill := 1; b_min := 0 |}.
Lemma start_sound : sound [] start.
Proof.
  split; cbn [start b_entries b_fill].
  - apply repeat_length.
  - lia.
  - intros e He. left. now apply repeat_spec in He.
  - rewrite filter_none; [constructor|]. intros e He. apply repeat_spec in He. subst e. unfold is_set. now destruct (row_eq_dec (fst unset) (fst unset)).
Qed.

(** ** Optimality. *)
Definition below_top (b : buffer) (v : R) : Prop := forall q, (q < num_add)%nat -> v <= size (nth q (b_entries b) unset).
Record good (kept : list entry) (b : buffer) : Prop := {
  g_len : length (b_entries b) = cap;
  g_fill : (1 <= b_fill b <= cap + 1)%nat;
  g_free : forall p, (b_fill b <= num_add)%nat -> (b_fill b - 1 <= p < cap)%nat -> nth p (b_entries b) unset = unset;
  g_old : forall p, (b_fill b - 1 <= p < cap)%nat -> below_top b (size (nth p (b_entries b) unset));
  g_min : below_top b (b_min b);
  g_kept : forall x, In x kept -> In x (b_entries b) \/ below_top b (size x) }.
(** The kept candidates of one step. *)
Definition keeps (b : buffer) (x : entry) : list entry :=
  if Rle_dec (size x) min_thresh then [] else if (cap <? b_fill b)%nat then [] else [x].
Lemma offer_good : forall kept b x, good kept b -> ~ In unset kept -> good (kept ++ keeps b x) (offer b x).
Proof.
  intros kept b x [L F Fr O M K] NU. unfold SelectModel.offer, keeps. fold cap. change (Rabs (snd x)) with (size x).
  destruct (Rle_dec (size x) min_thresh) as [|T]; [rewrite app_nil_r; now split|].
  destruct (Nat.leb_spec (b_fill b) cap) as [Le|Gt].
  - rewrite (proj2 (Nat.ltb_ge _ _) Le). destruct (Rle_dec (b_min b) (size x)) as [G|G].
    + set (b' := {| b_entries := put (b_entries b) (b_fill b) x; b_fill := S (b_fill b); b_min := b_min b |}).
      assert (NP : forall q, nth q (b_entries b') unset = if (q =? b_fill b - 1)%nat then x else nth q (b_entries b) unset)
        by (intros q; cbn [b' b_entries]; apply nth_put; lia).
      assert (MT : forall v, below_top b v -> below_top b' v).
      { intros v H q Hq. rewrite NP. destruct (Nat.eqb_spec q (b_fill b - 1)) as [->|]; [|now apply H].
        specialize (H _ Hq). rewrite Fr, size_unset in H by (pose proof cap_ge; lia). pose proof (size_pos x). lra. }
      split.
      * cbn [b' b_entries]. rewrite put_length; lia.
      * cbn [b' b_fill]. lia.
      * intros p Hf Hp. cbn [b' b_fill] in Hf, Hp. rewrite NP. destruct (Nat.eqb_spec p (b_fill b - 1)); [lia|]. apply Fr; lia.
      * intros p Hp. cbn [b' b_fill] in Hp. rewrite NP. destruct (Nat.eqb_spec p (b_fill b - 1)); [lia|]. apply MT, O. lia.
      * apply MT, M.
      * intros z Hz. apply in_app_or in Hz. destruct Hz as [Hz|[<-|[]]].
        -- destruct (K z Hz) as [I|B]; [|right; now apply MT].
           rewrite (put_split _ (b_entries b) (b_fill b) unset) in I by lia. apply in_app_or in I. destruct I as [I|[I|I]].
           ++ left. cbn [b' b_entries]. unfold put. apply in_or_app. now left.
           ++ right. subst z. apply MT, O. lia.
           ++ left. cbn [b' b_entries]. unfold put. apply in_or_app. right. now right.
        -- left. cbn [b' b_entries]. unfold put. apply in_or_app. right. now left.
    + assert (BX : below_top b (size x)) by (intros q Hq; specialize (M q Hq); lra). split; auto.
      intros z Hz. apply in_app_or in Hz. destruct Hz as [Hz|[<-|[]]]; auto.
  - rewrite (proj2 (Nat.ltb_lt _ _) Gt), app_nil_r. set (s := sort_buffer (b_entries b)).
    assert (P : Permutation (b_entries b) s) by apply sort_buffer_perm.
    assert (Ls : length s = cap) by (rewrite <- (Permutation_length P); exact L).
    assert (So : forall p q, (p < q < length s)%nat -> size (nth q s unset) <= size (nth p s unset))
      by (intros p q H; apply sort_buffer_sorted; lia).
    pose proof cap_ge as CG. split; unfold below_top; cbn [b_entries b_fill b_min].
    + exact Ls.
    + lia.
    + intros; lia.
    + intros p Hp q Hq. apply So. lia.
    + intros q Hq. change (size (nth (num_add - 1) s unset) <= size (nth q s unset)).
      destruct (Nat.eq_dec q (num_add - 1)) as [->|]; [apply Rle_refl|apply So; lia].
    + intros z Hz. destruct (K z Hz) as [I|B]; [left; eapply Permutation_in; eassumption|]. right. intros q Hq.
      eapply top_sorted with (l := b_entries b) (n := num_add); eauto. lia.
Qed.
Fixpoint kept_in (b : buffer) (stream : list entry) : list entry :=
  match stream with [] => [] | x :: r => keeps b x ++ kept_in (offer b x) r end.
Lemma fold_good : forall stream kept b, good kept b -> ~ In unset kept -> ~ In unset stream -> good (kept ++ kept_in b stream) (fold_left offer stream b).
Proof.
  induction stream as [|x r IH]; intros kept b G U1 U2; [cbn [kept_in fold_left]; now rewrite app_nil_r|]. cbn [kept_in fold_left]. rewrite app_assoc.
  apply IH; [now apply offer_good| |].
  - intros C. apply in_app_or in C. destruct C as [C|C]; [auto|]. unfold keeps in C. destruct (Rle_dec (size x) min_thresh); [destruct C|].
    destruct (cap <? b_fill b)%nat; [destruct C|]. destruct C as [C|[]]. apply U2. now left.
  - intros C. apply U2. now right.
Qed.
Lemma kept_spec : forall stream b x, In x stream -> min_thresh < size x -> ~ In x (dropped_in buf_fact num_add min_thresh b stream) -> In x (kept_in b stream).
Proof.
  induction stream as [|y r IH]; intros b x I T D; [destruct I|]. cbn [dropped_in kept_in] in *. apply in_or_app.
  destruct I as [->|I].
  - left. unfold keeps. destruct (Rle_dec (size x) min_thresh) as [|_]; [lra|]. fold cap in D. destruct (cap <? b_fill b)%nat; [|now left].
    exfalso. apply D. now left.
  - right. apply IH; auto. intros C. apply D. apply in_or_app. now right.
Qed.
Lemma kept_incl : forall stream b x, In x (kept_in b stream) -> In x stream.
Proof.
  induction stream as [|y r IH]; intros b x H; [destruct H|]. cbn [kept_in] in H. apply in_app_or in H. destruct H as [H|H]; [|right; eauto].
  unfold keeps in H. destruct (Rle_dec (size y) min_thresh); [destruct H|]. destruct (cap <? b_fill b)%nat; [destruct H|]. destruct H as [<-|[]]. now left.
Qed.
Lemma enter_good : forall kept b, good kept b -> threshold_sound num_add b -> good kept (entering num_add b).
Proof. intros kept b [L F Fr O M K] T. split; auto. Qed.
Lemma start_good : good [] start.
Proof.
  assert (Z : forall p, nth p (repeat unset cap) unset = unset).
  { intros p. destruct (nth_in_or_default p (repeat unset cap) unset) as [I|E]; [now apply repeat_spec in I|exact E]. }
  split; cbn [start b_entries b_fill b_min]; unfold below_top; cbn [b_entries].
  - apply repeat_length.
  - lia.
  - intros; apply Z.
  - intros p _ q _. rewrite !Z. apply Rle_refl.
  - intros q _. apply size_pos.
  - intros x [].
Qed.
(** The state at the start of each spin case. *)
Fixpoint thresholds_sound (b : buffer) (streams : list (list entry)) : Prop :=
  match streams with [] => True | s :: r => threshold_sound num_add b /\ thresholds_sound (pass b s) r end.
Fixpoint kept_from (b : buffer) (streams : list (list entry)) : list entry :=
  match streams with [] => [] | s :: r => kept_in (entering num_add b) s ++ kept_from (pass b s) r end.
Lemma passes_good : forall streams kept b, good kept b -> ~ In unset kept -> ~ In unset (concat streams) -> thresholds_sound b streams ->
  good (kept ++ kept_from b streams) (fold_left pass streams b).
Proof.
  induction streams as [|s r IH]; intros kept b G U1 U2 T; cbn [kept_from fold_left]; [now rewrite app_nil_r|].
  destruct T as (T1 & T2). rewrite app_assoc. cbn [concat] in U2. apply IH; auto.
  - unfold spin_case_pass. change (good (kept ++ kept_in (entering num_add b) s) (fold_left offer s (entering num_add b))).
    apply fold_good; [now apply enter_good|auto|]. intros C. apply U2, in_or_app. now left.
  - intros C. apply in_app_or in C. destruct C as [C|C]; [auto|]. apply kept_incl in C. apply U2, in_or_app. now left.
  - intros C. apply U2, in_or_app. now right.
Qed.
Lemma kept_from_spec : forall streams b x, In x (concat streams) -> min_thresh < size x ->
  ~ In x (dropped_from buf_fact num_add min_thresh b streams) -> In x (kept_from b streams).
Proof.
  induction streams as [|s r IH]; intros b x I T D; [destruct I|]. cbn [concat dropped_from kept_from] in *. apply in_or_app.
  apply in_app_or in I. destruct I as [I|I].
  - left. apply kept_spec; auto. intros C. apply D, in_or_app. now left.
  - right. apply IH; auto. intros C. apply D, in_or_app. now right.
Qed.

(** The final selection. *)
Lemma result_facts : forall l result idx, length l = cap ->
  Permutation (seq 0 (length l)) idx ->
  (forall p q, (p < q < length idx)%nat -> Rabs (snd (nth (nth p idx 0%nat) l unset)) <= Rabs (snd (nth (nth q idx 0%nat) l unset))) ->
  result = firstn num_add (map (fun i => nth i l unset) (rev idx)) ->
  exists s, Permutation l s /\ (forall p q, (p < q < length s)%nat -> size (nth q s unset) <= size (nth p s unset)) /\
    result = firstn num_add s /\ length result = num_add.
Proof.
  intros l result idx L P A ->. exists (map (fun i => nth i l unset) (rev idx)).
  assert (Li : length idx = length l) by (rewrite <- (Permutation_length P); apply seq_length).
  assert (PM : Permutation l (map (fun i => nth i l unset) (rev idx))).
  { rewrite <- (Permutation_map (fun i => nth i l unset) (Permutation_trans P (Permutation_rev idx))).
    assert (E : map (fun i => nth i l unset) (seq 0 (length l)) = l).
    { clear. induction l using rev_ind; [reflexivity|]. rewrite app_length. cbn [length]. rewrite Nat.add_1_r, seq_S, map_app. cbn [map].
      rewrite app_nth2, Nat.sub_diag by lia. cbn. f_equal. rewrite <- IHl at 2. apply map_ext_in. intros i Hi. apply in_seq in Hi. apply app_nth1. lia. }
    now rewrite E. }
  split; [exact PM|]. split; [|split; [reflexivity|]].
  - intros p q H. rewrite map_length, rev_length, Li in H.
    assert (G : forall r, (r < length l)%nat -> nth r (map (fun i => nth i l unset) (rev idx)) unset = nth (nth (length idx - S r) idx 0%nat) l unset).
    { intros r Hr. rewrite (nth_indep _ unset (nth 0%nat l unset)) by (rewrite map_length, rev_length; lia).
      rewrite (map_nth (fun i => nth i l unset)). now rewrite rev_nth by lia. }
    rewrite !G by lia. apply A. lia.
  - rewrite firstn_length, <- (Permutation_length PM). pose proof cap_ge. lia.
Qed.

(** Never full. *)
Lemma offer_fill : forall b x, (b_fill b <= cap)%nat -> (b_fill (offer b x) <= S (b_fill b))%nat.
Proof.
  intros b x H. unfold SelectModel.offer. fold cap. destruct (Rle_dec (Rabs (snd x)) min_thresh); [lia|].
  rewrite (proj2 (Nat.leb_le _ _) H). destruct (Rle_dec (b_min b) (Rabs (snd x))); cbn [b_fill]; lia.
Qed.
Lemma no_drop_in : forall stream b, (b_fill b + length stream <= cap + 1)%nat ->
  dropped_in buf_fact num_add min_thresh b stream = [] /\ (b_fill (fold_left offer stream b) <= b_fill b + length stream)%nat.
Proof.
  induction stream as [|x r IH]; intros b H; cbn [dropped_in fold_left length] in *; [split; [reflexivity|lia]|].
  assert (H1 : (b_fill b <= cap)%nat) by lia. pose proof (offer_fill b x H1). fold cap. rewrite (proj2 (Nat.ltb_ge _ _) H1).
  destruct (IH (offer b x)) as (I1 & I2); [lia|]. split; [|lia].
  destruct (Rle_dec (size x) min_thresh); exact I1.
Qed.
Lemma no_drop_from : forall streams b, (b_fill b + length (concat streams) <= cap + 1)%nat ->
  dropped_from buf_fact num_add min_thresh b streams = [].
Proof.
  induction streams as [|s r IH]; intros b H; [reflexivity|]. cbn [dropped_from concat] in *. rewrite app_length in H.
  destruct (no_drop_in s (entering num_add b)) as (D1 & D2); [cbn [entering b_fill]; lia|]. rewrite D1. cbn [app]. apply IH.
  unfold spin_case_pass. change (b_fill (fold_left offer s (entering num_add b)) + length (concat r) <= cap + 1)%nat. cbn [entering b_fill] in D2. lia.
Qed.
Lemma free_threshold : forall kept b, good kept b -> (b_fill b <= num_add)%nat -> threshold_sound num_add b.
Proof.
  intros kept b [L F Fr O M K] H q Hq. rewrite (Fr (num_add - 1)%nat) by (pose proof cap_ge; lia). rewrite size_unset. apply size_pos.
Qed.
Lemma small_thresholds : forall streams kept b last, good kept b -> ~ In unset kept -> ~ In unset (concat streams) ->
  (b_fill b + length (concat streams) <= num_add)%nat -> thresholds_sound b (streams ++ [last]).
Proof.
  induction streams as [|s r IH]; intros kept b z G U1 U2 H; cbn [app thresholds_sound concat] in *.
  - split; [|exact I]. eapply free_threshold; [exact G|]. cbn in H. lia.
  - rewrite app_length in H. assert (T : threshold_sound num_add b) by (eapply free_threshold; [exact G|lia]). split; [exact T|].
    assert (U3 : ~ In unset s) by (intros C; apply U2, in_or_app; now left).
    pose proof (fold_good s kept (entering num_add b) (enter_good _ _ G T) U1 U3) as G2.
    eapply IH; [exact G2| | |].
    + intros C. apply in_app_or in C. destruct C as [C|C]; [auto|]. apply kept_incl in C. auto.
    + intros C. apply U2, in_or_app. now right.
    + pose proof cap_ge. destruct (no_drop_in s (entering num_add b)) as (_ & D2); [cbn [entering b_fill]; lia|].
      unfold spin_case_pass. cbn [entering b_fill] in D2. change (b_fill (fold_left offer s (entering num_add b)) + length (concat r) <= num_add)%nat. lia.
Qed.
End B.
