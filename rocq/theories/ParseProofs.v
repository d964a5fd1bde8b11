(** The loop of parse_ci_wavefunction. *)
From Coq Require Import List Arith ZArith Lia Bool Reals Lra Sorting.Sorted Permutation.
From Verif Require Import CipsiModel CipsiSpec CipsiProofs HilbertSpec HilbertPhase ScatterModel ScatterSpec ParseModel ParseSpec ParsePhase ParseInsert.
Import ListNotations.
Local Open Scope Z_scope.

Notation orbs := electrons_fit.
Lemma HF_sorted : forall s, StronglySorted Z.lt (HF s).
Proof.
  intros s. unfold HF. apply le_nodup_lt; [apply isort_sorted|]. apply (HF_NoDup s).
Qed.

Lemma app_inj_len : forall {A} (a b c d : list A), a ++ b = c ++ d -> length a = length c -> a = c /\ b = d.
Proof.
  induction a as [|x a IH]; intros b [|y c] d E L; cbn in *; try discriminate; [now split|].
  injection E as <- E. destruct (IH b c d E) as (-> & ->); [lia|now split].
Qed.
Section ONE.
Variables (s : sys) (D : list Z).
Hypothesis V : orbs s.
Hypothesis DET : is_det s D.
Hypothesis SD : StronglySorted Z.lt D.
Let DE : electrons s D := proj1 DET.

Lemma ua_sub : forall x, In x (ua s D ++ ub s D) <-> In x D /\ ~ In x (HF s).
Proof.
  intro x. unfold ua, ub. rewrite in_app_iff, !isort_In, odds_In, evens_In, setdiff_In. destruct (mod2 x); intuition lia.
Qed.
Lemma oa_sub : forall x, In x (oa s D ++ ob s D) <-> In x (HF s) /\ ~ In x D.
Proof.
  intro x. unfold oa, ob. rewrite in_app_iff, !isort_In, odds_In, evens_In, setdiff_In. destruct (mod2 x); intuition lia.
Qed.
Lemma sorted_part : forall f A B, StronglySorted Z.lt (isort (filter f (setdiff A B))).
Proof. intros. apply isort_lt, NoDup_filter, setdiff_NoDup. Qed.
Lemma two_parts : forall l1 l2, StronglySorted Z.lt l1 -> StronglySorted Z.lt l2 -> (forall x, In x l1 -> x mod 2 = 1) ->
  (forall x, In x l2 -> x mod 2 = 0) -> NoDup (l1 ++ l2).
Proof.
  intros l1 l2 S1 S2 O E. apply NoDup_app'; [now apply sorted_nodup|now apply sorted_nodup|].
  intros x H1 H2. apply O in H1. apply E in H2. lia.
Qed.
Lemma A_nodup : NoDup (ua s D ++ ub s D).
Proof. apply two_parts; [apply sorted_part|apply sorted_part|apply ua_odd|apply ub_even]. Qed.
Lemma I_nodup : NoDup (oa s D ++ ob s D).
Proof. apply two_parts; [apply sorted_part|apply sorted_part|apply oa_odd|apply ob_even]. Qed.
Lemma lens : length (ua s D ++ ub s D) = (length (oa s D) + length (ob s D))%nat.
Proof.
  rewrite app_length. unfold ua, ub, oa, ob. rewrite !isort_length. rewrite (len_a s D DE), (len_b s D DE). reflexivity.
Qed.
Lemma det_phase : IZR (perm_parity s D) =
  (element (ua s D ++ ub s D) (oa s D ++ ob s D) D (HF s) *
   (-1) ^ (total (ua s D ++ ub s D) (HF s) + total (oa s D ++ ob s D) (HF s) + length (oa s D) * length (ob s D)))%R.
Proof.
  unfold perm_parity, excited_det_spinorb, get_excits_from, get_excits_to.
  fold (ua s D) (ub s D) (oa s D) (ob s D). rewrite app_assoc.
  assert (AI : NoDup ((ua s D ++ ub s D) ++ oa s D ++ ob s D)).
  { apply NoDup_app'; [apply A_nodup|apply I_nodup|]. intros x H1 H2. apply ua_sub in H1. apply oa_sub in H2. tauto. }
  apply phases.
  - apply A_nodup.
  - apply sorted_part.
  - apply sorted_part.
  - exact AI.
  - exact SD.
  - apply HF_sorted.
  - intros q Hq. apply ua_sub in Hq. tauto.
  - intros q Hq. apply oa_sub in Hq. tauto.
  - apply NoDup_Permutation.
    + apply NoDup_app'; [now apply sorted_nodup|apply I_nodup|]. intros x H1 H2. apply oa_sub in H2. tauto.
    + apply NoDup_app'; [apply HF_NoDup|apply A_nodup|]. intros x H1 H2. apply ua_sub in H2. tauto.
    + intro x. rewrite !(in_app_iff D), !(in_app_iff (HF s)), ua_sub, oa_sub.
      destruct (in_dec Z.eq_dec x D), (in_dec Z.eq_dec x (HF s)); tauto.
  - apply lens.
  - intro x. rewrite ua_sub, oa_sub. destruct (in_dec Z.eq_dec x D), (in_dec Z.eq_dec x (HF s)); tauto.
Qed.

(** The excitation of the determinant. *)
Definition upa := map (fun x => spatial_orb_idx x - Z.of_nat (noa s)) (ua s D).
Definition upb := map (fun x => spatial_orb_idx x - Z.of_nat (nob s)) (ub s D).
Definition uha := map spatial_orb_idx (oa s D).
Definition uhb := map spatial_orb_idx (ob s D).
Lemma det_excitation : excitation s upa upb uha uhb.
Proof.
  destruct V as (V1 & V2). destruct (describes_eq s D V2 ltac:(lia) DET) as (pa & pb & ha & hb & E & L1 & L2 & L3 & S1 & S2 & S3 & S4 & W1 & W2 & W3 & W4 & _).
  assert (La : length upa = ena s D) by (unfold upa; now rewrite map_length).
  assert (Lh : length uha = ena s D).
  { unfold uha, ena, ua, oa. rewrite map_length, !isort_length. symmetry. now apply len_a. }
  unfold eun, eocc in E. fold upa upb uha uhb in E. injection E as E1 E2.
  apply app_inj_len in E1 as (<- & <-); [|congruence]. apply app_inj_len in E2 as (<- & <-); [|congruence].
  split; [congruence|]. split; [assumption|]. tauto.
Qed.
Lemma fill_back : filled s upa upb = ua s D ++ ub s D.
Proof.
  unfold filled, upa, upb. rewrite !map_map. f_equal.
  - rewrite <- (map_id (ua s D)) at 2. apply map_ext_in. intros x Hx. apply ua_odd in Hx. rewrite (odd_form x Hx) at 2. f_equal. lia.
  - rewrite <- (map_id (ub s D)) at 2. apply map_ext_in. intros x Hx. apply ub_even in Hx. rewrite (even_form x Hx) at 2. f_equal. lia.
Qed.
Lemma empty_back : emptied uha uhb = oa s D ++ ob s D.
Proof.
  unfold emptied, uha, uhb. rewrite !map_map. f_equal.
  - rewrite <- (map_id (oa s D)) at 2. apply map_ext_in. intros x Hx. apply oa_odd in Hx. symmetry. now apply odd_form.
  - rewrite <- (map_id (ob s D)) at 2. apply map_ext_in. intros x Hx. apply ob_even in Hx. symmetry. now apply even_form.
Qed.
End ONE.

(** ** The element vanishes unless the excitation leads to the determinant. *)
Lemma annihilate_inv : forall ps l sg r, annihilate_all ps l = Some (sg, r) -> forall x, In x l <-> In x ps \/ In x r.
Proof.
  induction ps as [|q ps IH]; intros l sg r E x.
  - cbn in E. injection E as <- <-. cbn. tauto.
  - cbn [annihilate_all] in E. unfold annihilate in E. destruct (in_dec Z.eq_dec q l) as [Hq|]; [|discriminate].
    destruct (annihilate_all ps _) as [(s', l'')|] eqn:F; [|discriminate]. injection E as <- <-.
    specialize (IH _ _ _ F x). rewrite filter_In, negb_true_iff, Z.eqb_neq in IH. cbn [In].
    destruct (Z.eq_dec x q) as [->|N]; [tauto|]. destruct IH as [I1 I2]. split.
    + intro H. destruct (I1 (conj H N)); tauto.
    + intros [[H|H]|H]; [congruence|apply I2; tauto|apply I2; tauto].
Qed.
Lemma annihilate_gone : forall ps l sg r, annihilate_all ps l = Some (sg, r) -> forall x, In x ps -> ~ In x r.
Proof.
  induction ps as [|q ps IH]; intros l sg r E x Hx; [contradiction|].
  cbn [annihilate_all] in E. unfold annihilate in E. destruct (in_dec Z.eq_dec q l) as [Hq|]; [|discriminate].
  destruct (annihilate_all ps _) as [(s', l'')|] eqn:F; [|discriminate]. injection E as <- <-.
  destruct Hx as [->|Hx]; [|now apply (IH _ _ _ F)].
  pose proof (annihilate_inv _ _ _ _ F x) as K. rewrite filter_In, negb_true_iff, Z.eqb_neq in K. tauto.
Qed.
Lemma element_members : forall A I D H, element A I D H <> 0%R ->
  (forall x, In x D <-> In x A \/ (In x H /\ ~ In x I)) /\ (forall x, In x A -> In x D) /\ (forall x, In x I -> In x H) /\
  (forall x, In x A -> In x H -> In x I).
Proof.
  intros A I D H N. unfold element in N. destruct (annihilate_all A D) as [(s1, r1)|] eqn:E1; [|now elim N].
  destruct (annihilate_all I H) as [(s2, r2)|] eqn:E2; [|now elim N].
  destruct (list_eq_dec Z.eq_dec r1 r2) as [->|]; [|now elim N].
  pose proof (annihilate_inv _ _ _ _ E1) as I1. pose proof (annihilate_inv _ _ _ _ E2) as I2.
  pose proof (annihilate_gone _ _ _ _ E1) as G1. pose proof (annihilate_gone _ _ _ _ E2) as G2.
  repeat split.
  - rewrite I1, I2. intros [K|K]; [now left|right]. split; [now right|]. intro L. now apply (G2 x).
  - rewrite I1, I2. intros [K|[[K|K] L]]; [now left|contradiction|now right].
  - intros x Hx. apply I1. now left.
  - intros x Hx. apply I2. now left.
  - intros x Hx Hh. apply I2 in Hh. destruct Hh as [K|K]; [exact K|]. elim (G1 x Hx K).
Qed.

(** ** The excitation that leads to a determinant *)
Lemma mixed_alpha : forall s pa pb p, In (alpha p) (filled s pa pb) <-> In (p - Z.of_nat (noa s)) pa.
Proof.
  intros. unfold filled. rewrite in_app_iff, !in_map_iff. unfold alpha, beta. split.
  - intros [(a & E & Ha)|(a & E & Ha)]; [|lia]. replace (p - Z.of_nat (noa s)) with a by lia. exact Ha.
  - intro Ha. left. exists (p - Z.of_nat (noa s)). split; [lia|exact Ha].
Qed.
Lemma mixed_beta : forall s pa pb p, In (beta p) (filled s pa pb) <-> In (p - Z.of_nat (nob s)) pb.
Proof.
  intros. unfold filled. rewrite in_app_iff, !in_map_iff. unfold alpha, beta. split.
  - intros [(a & E & Ha)|(a & E & Ha)]; [lia|]. replace (p - Z.of_nat (nob s)) with a by lia. exact Ha.
  - intro Ha. right. exists (p - Z.of_nat (nob s)). split; [lia|exact Ha].
Qed.
Lemma emptied_alpha : forall ha hb p, In (alpha p) (emptied ha hb) <-> In p ha.
Proof.
  intros. unfold emptied. rewrite in_app_iff, !in_map_iff. unfold alpha, beta. split.
  - intros [(a & E & Ha)|(a & E & Ha)]; [|lia]. replace p with a by lia. exact Ha.
  - intro Ha. left. exists p. split; [lia|exact Ha].
Qed.
Lemma emptied_beta : forall ha hb p, In (beta p) (emptied ha hb) <-> In p hb.
Proof.
  intros. unfold emptied. rewrite in_app_iff, !in_map_iff. unfold alpha, beta. split.
  - intros [(a & E & Ha)|(a & E & Ha)]; [lia|]. replace p with a by lia. exact Ha.
  - intro Ha. right. exists p. split; [lia|exact Ha].
Qed.
Lemma element_unique : forall s D pa pb ha hb, orbs s -> is_det s D -> excitation s pa pb ha hb ->
  element (filled s pa pb) (emptied ha hb) D (HF s) <> 0%R ->
  pa = upa s D /\ pb = upb s D /\ ha = uha s D /\ hb = uhb s D.
Proof.
  intros s D pa pb ha hb V DET X N. pose proof (element_members _ _ _ _ N) as (M & _).
  destruct X as (L1 & L2 & S1 & S2 & S3 & S4 & W1 & W2 & W3 & W4).
  assert (DS : describes s (length pa) (pa ++ pb, ha ++ hb) D).
  { exists pa, pb, ha, hb. split; [reflexivity|]. split; [reflexivity|]. split; [congruence|]. split; [assumption|].
    do 8 (split; [assumption|]). split; intro p.
    - rewrite M, mixed_alpha, emptied_alpha, HF_alpha. tauto.
    - rewrite M, mixed_beta, emptied_beta, HF_beta. tauto. }
  destruct V as (V1 & V2). pose proof (describes_eq s D V2 ltac:(lia) DET) as DS'.
  destruct (describes_unique s D _ _ _ _ V2 ltac:(lia) DS DS') as (E & E'). injection E' as E1 E2.
  apply app_inj_len in E1 as (-> & ->); [|rewrite map_length; exact E].
  apply app_inj_len in E2 as (-> & ->).
  - now repeat split.
  - rewrite <- L1, !map_length. unfold ua, oa. rewrite !isort_length. apply len_a. apply DET.
Qed.

(** ** One line *)
Definition lrow (s : sys) (l : R * list Z) : list nat := entry (upa s (snd l)) (upb s (snd l)) (uha s (snd l)) (uhb s (snd l)).
Definition lval (s : sys) (c0 : R) (l : R * list Z) : R := (fst l / c0 * IZR (perm_parity s (snd l)))%R.
Definition lrowz (s : sys) (l : R * list Z) : list Z := eun s (snd l) ++ eocc s (snd l).
Definition sel (s : sys) (na nb : nat) (l : R * list Z) : bool :=
  negb (det_eqb (snd l) (HF s)) && (length (upa s (snd l)) =? na)%nat && (length (upb s (snd l)) =? nb)%nat.
Lemma det_eqb_true : forall d d', det_eqb d d' = true <-> d = d'.
Proof. intros. unfold det_eqb. destruct (list_eq_dec Z.eq_dec d d'); split; congruence. Qed.
Lemma entry_S : forall s pa pb ha hb, excitation s pa pb ha hb ->
  map Z.to_nat ((pa ++ pb) ++ ha ++ hb) = map S (entry pa pb ha hb).
Proof.
  intros s pa pb ha hb (_ & _ & _ & _ & _ & _ & W1 & W2 & W3 & W4). unfold entry. rewrite map_map. apply map_ext_in.
  intros x Hx. assert (1 <= x); [|lia]. rewrite !in_app_iff in Hx.
  destruct Hx as [[Hx|Hx]|[Hx|Hx]]; [apply W1 in Hx|apply W2 in Hx|apply W3 in Hx|apply W4 in Hx]; lia.
Qed.
Lemma rank_len : forall s D, get_excit_rank D (HF s) = (length (upa s D) + length (upb s D))%nat.
Proof. intros s D. rewrite rank_eq. unfold eun. now rewrite app_length. Qed.
Lemma rank_pos : forall s D, orbs s -> is_det s D -> StronglySorted Z.lt D -> D <> HF s ->
  (0 < length (upa s D) + length (upb s D))%nat.
Proof.
  intros s D V DET SD N. destruct (length (upa s D) + length (upb s D))%nat as [|n] eqn:E; [|lia]. elim N.
  assert (L : length (ua s D ++ ub s D) = 0%nat) by (rewrite app_length; unfold upa, upb in E; now rewrite !map_length in E).
  apply sorted_eq; [exact SD|apply HF_sorted|]. intro x.
  assert (E1 : ua s D ++ ub s D = []) by now apply length_zero_iff_nil.
  assert (E2 : oa s D ++ ob s D = []).
  { apply length_zero_iff_nil. rewrite app_length, <- (lens s D DET). exact L. }
  pose proof (ua_sub s D x) as U. rewrite E1 in U. pose proof (oa_sub s D x) as O. rewrite E2 in O. cbn in *.
  destruct (in_dec Z.eq_dec x D), (in_dec Z.eq_dec x (HF s)); tauto.
Qed.
Lemma not_outside : forall lo hi l, within lo hi l -> outside lo hi l = false.
Proof.
  intros lo hi l W. unfold outside. apply orb_false_iff. split.
  - destruct (existsb (fun i => hi <? i) l) eqn:E; [|reflexivity]. apply existsb_exists in E as (x & Hx & K). apply W in Hx. apply Z.ltb_lt in K. lia.
  - destruct (existsb (fun i => i <? lo) l) eqn:E; [|reflexivity]. apply existsb_exists in E as (x & Hx & K). apply W in Hx. apply Z.ltb_lt in K. lia.
Qed.
(** What one line does. *)
Lemma line_step : forall s c0 l st, orbs s -> is_det s (snd l) -> StronglySorted Z.lt (snd l) -> c0 <> 0%R ->
  let na := length (upa s (snd l)) in let nb := length (upb s (snd l)) in
  parse_line s (Some c0) l st =
  if det_eqb (snd l) (HF s) then PNext st
  else if (4 <? na + nb)%nat then PNext st
  else if (na + nb =? 4)%nat then PNext (push4 na (lrowz s l) (lval s c0 l) (bump na nb st))
  else match scatter_row (cshape s na nb) (inserts na nb) (Some (p_arr st na nb)) (map S (lrow s l)) (lval s c0 l) with
       | None => PRaise
       | Some t => PNext (set_arr na nb t (bump na nb st))
       end.
Proof.
  intros s c0 (c, D) st V DET SD NZ na nb. cbn [fst snd] in *. unfold parse_line.
  destruct (det_eqb D (HF s)) eqn:E; [reflexivity|].
  assert (N : D <> HF s) by (intro K; apply det_eqb_true in K; congruence).
  pose proof (rank_pos s D V DET SD N) as RP. fold na nb in RP.
  rewrite rank_len. fold na nb. destruct (4 <? na + nb)%nat; [reflexivity|].
  rewrite (indices_eq s D (proj1 DET)).
  pose proof (det_excitation s D V DET) as X. pose proof X as (L1 & L2 & _ & _ & _ & _ & W1 & W2 & W3 & W4). destruct V as (V1 & V2).
  rewrite not_outside.
  2:{ intros x Hx. unfold eocc in Hx. apply in_app_or in Hx as [Hx|Hx]; [now apply W3|]. apply W4 in Hx. lia. }
  rewrite not_outside.
  2:{ intros x Hx. unfold eun in Hx. apply in_app_or in Hx as [Hx|Hx]; [apply W1 in Hx; unfold nua, nub in *; lia|now apply W2]. }
  destruct (Req_EM_T c0 0) as [|_]; [contradiction|]. destruct (na + nb =? 0)%nat eqn:Z0; [apply Nat.eqb_eq in Z0; lia|].
  assert (EN : ena s D = na) by (unfold na, upa; now rewrite map_length). rewrite EN.
  replace (na + nb - na)%nat with nb by lia. fold (lval s c0 (c, D)).
  unfold lrowz, lrow. cbn [fst snd]. rewrite <- (entry_S s) by exact X.
  unfold eun, eocc. fold (upa s D) (upb s D) (uha s D) (uhb s D). unfold lval. cbn [fst snd]. reflexivity.
Qed.

Lemma scatter_none : forall shape W rows amps, scatter shape W rows amps None = None.
Proof.
  induction rows as [|r rows IH]; intros amps; [reflexivity|]. destruct amps as [|t amps]; [reflexivity|]. cbn [scatter].
  assert (scatter_row shape W None r t = None) as ->; [|apply IH].
  unfold scatter_row. generalize (W (map (fun x => (x - 1)%nat) r)). intro L. induction L as [|z L IH']; [reflexivity|exact IH'].
Qed.
Definition filt (s : sys) (na nb : nat) (file : list (R * list Z)) := filter (sel s na nb) file.
Definition spread (s : sys) (c0 : R) (file : list (R * list Z)) (na nb : nat) (T : tensor) : option tensor :=
  scatter (cshape s na nb) (inserts na nb) (map (map S) (map (lrow s) (filt s na nb file))) (map (lval s c0) (filt s na nb file)) (Some T).

Lemma parse_loop : forall s c0 file, orbs s -> c0 <> 0%R ->
  (forall l, In l file -> is_det s (snd l) /\ StronglySorted Z.lt (snd l)) ->
  forall st, (forall na nb, (1 <= na + nb <= 3)%nat -> exists X, spread s c0 file na nb (p_arr st na nb) = Some X) ->
  exists st', parse_lines s (Some c0) file st = Some st' /\
    (forall na nb, (1 <= na + nb <= 3)%nat -> spread s c0 file na nb (p_arr st na nb) = Some (p_arr st' na nb)) /\
    (forall na, (na <= 4)%nat -> p_rows st' na = p_rows st na ++ map (lrowz s) (filt s na (4 - na) file)) /\
    (forall na, (na <= 4)%nat -> p_amps st' na = p_amps st na ++ map (lval s c0) (filt s na (4 - na) file)) /\
    (forall na nb, (1 <= na + nb <= 4)%nat -> p_count st' na nb = (p_count st na nb + length (filt s na nb file))%nat).
Proof.
  intros s c0 file V NZ. induction file as [|l file IH]; intros HD st HS.
  - exists st. split; [reflexivity|]. split; [reflexivity|]. cbn. split; [|split]; intros; rewrite ?app_nil_r; auto.
  - destruct (HD l (or_introl eq_refl)) as (DET & SD). cbn [parse_lines].
    assert (HD' : forall l0, In l0 file -> is_det s (snd l0) /\ StronglySorted Z.lt (snd l0)) by (intros; apply HD; now right).
    specialize (IH HD'). rewrite (line_step s c0 l st V DET SD NZ).
    set (na := length (upa s (snd l))). set (nb := length (upb s (snd l))).
    assert (SEL : forall x y, sel s x y l = negb (det_eqb (snd l) (HF s)) && (na =? x)%nat && (nb =? y)%nat) by reflexivity.
    destruct (det_eqb (snd l) (HF s)) eqn:EH.
    { assert (F : forall x y, filt s x y (l :: file) = filt s x y file) by (intros; unfold filt; cbn [filter]; now rewrite SEL).
      unfold spread in *. setoid_rewrite F. setoid_rewrite F in HS. exact (IH st HS). }
    destruct (4 <? na + nb)%nat eqn:E4.
    { apply Nat.ltb_lt in E4.
      assert (F : forall x y, (x + y <= 4)%nat -> filt s x y (l :: file) = filt s x y file).
      { intros x y K. unfold filt. cbn [filter]. rewrite SEL. cbn [negb andb].
        destruct (Nat.eqb_spec na x), (Nat.eqb_spec nb y); try reflexivity. lia. }
      destruct (IH st) as (st' & E & H1 & H2 & H3 & H4).
      { intros x y K. destruct (HS x y K) as (X & EX). exists X. unfold spread in *. rewrite F in EX by lia. exact EX. }
      exists st'. split; [exact E|]. split; [|split; [|split]].
      - intros x y K. unfold spread in *. rewrite F by lia. now apply H1.
      - intros x K. rewrite F by lia. now apply H2.
      - intros x K. rewrite F by lia. now apply H3.
      - intros x y K. rewrite F by lia. now apply H4. }
    apply Nat.ltb_ge in E4.
    pose proof (rank_pos s (snd l) V DET SD ltac:(intro K; apply det_eqb_true in K; congruence)) as RP. fold na nb in RP.
    assert (F0 : forall x y, (na <> x \/ nb <> y) -> filt s x y (l :: file) = filt s x y file).
    { intros x y K. unfold filt. cbn [filter]. rewrite SEL. cbn [negb andb].
      destruct (Nat.eqb_spec na x), (Nat.eqb_spec nb y); try reflexivity. lia. }
    assert (F1 : filt s na nb (l :: file) = l :: filt s na nb file).
    { unfold filt. cbn [filter]. rewrite SEL, !Nat.eqb_refl. reflexivity. }
    destruct (Nat.eqb_spec (na + nb) 4) as [E|NE].
    + destruct (IH (push4 na (lrowz s l) (lval s c0 l) (bump na nb st))) as (st' & EQ & H1 & H2 & H3 & H4).
      { intros x y K. destruct (HS x y K) as (X & EX). exists X. unfold spread in *. rewrite F0 in EX by lia. exact EX. }
      exists st'. split; [exact EQ|]. cbn [p_arr p_rows p_amps p_count push4 bump] in *. split; [|split; [|split]].
      * intros x y K. unfold spread in *. rewrite F0 by lia. now apply H1.
      * intros x K. rewrite H2 by assumption. destruct (Nat.eqb_spec x na) as [->|N].
        -- replace (4 - na)%nat with nb by lia. rewrite F1. cbn [map]. now rewrite <- app_assoc.
        -- rewrite F0 by lia. reflexivity.
      * intros x K. rewrite H3 by assumption. destruct (Nat.eqb_spec x na) as [->|N].
        -- replace (4 - na)%nat with nb by lia. rewrite F1. cbn [map]. now rewrite <- app_assoc.
        -- rewrite F0 by lia. reflexivity.
      * intros x y K. rewrite H4 by assumption. destruct (Nat.eqb_spec x na) as [->|N], (Nat.eqb_spec y nb) as [->|N']; cbn [andb].
        -- rewrite F1. cbn [length]. lia.
        -- rewrite F0 by lia. reflexivity.
        -- rewrite F0 by lia. reflexivity.
        -- rewrite F0 by lia. reflexivity.
    + assert (R3 : (1 <= na + nb <= 3)%nat) by lia.
      destruct (HS na nb R3) as (X0 & EX0). unfold spread in EX0. rewrite F1 in EX0. cbn [map scatter] in EX0.
      destruct (scatter_row (cshape s na nb) (inserts na nb) (Some (p_arr st na nb)) (map S (lrow s l)) (lval s c0 l)) as [t|] eqn:ET;
        [|rewrite scatter_none in EX0; discriminate].
      destruct (IH (set_arr na nb t (bump na nb st))) as (st' & EQ & H1 & H2 & H3 & H4).
      { intros x y K. cbn [p_arr set_arr]. destruct (Nat.eqb_spec x na) as [->|N], (Nat.eqb_spec y nb) as [->|N']; cbn [andb].
        - exists X0. exact EX0.
        - destruct (HS na y K) as (X & EX). exists X. unfold spread in *. rewrite F0 in EX by lia. exact EX.
        - destruct (HS x nb K) as (X & EX). exists X. unfold spread in *. rewrite F0 in EX by lia. exact EX.
        - destruct (HS x y K) as (X & EX). exists X. unfold spread in *. rewrite F0 in EX by lia. exact EX. }
      exists st'. split; [exact EQ|]. cbn [p_arr p_rows p_amps p_count set_arr bump] in *. split; [|split; [|split]].
      * intros x y K. pose proof (H1 x y K) as H5. destruct (Nat.eqb_spec x na) as [Ex|N], (Nat.eqb_spec y nb) as [Ey|N']; cbn [andb] in H5; try rewrite Ex in *; try rewrite Ey in *.
        -- unfold spread. rewrite F1. cbn [map scatter]. rewrite ET. exact H5.
        -- unfold spread in *. rewrite F0 by lia. exact H5.
        -- unfold spread in *. rewrite F0 by lia. exact H5.
        -- unfold spread in *. rewrite F0 by lia. exact H5.
      * intros x K. rewrite H2 by assumption. rewrite F0 by lia. reflexivity.
      * intros x K. rewrite H3 by assumption. rewrite F0 by lia. reflexivity.
      * intros x y K. rewrite H4 by assumption. destruct (Nat.eqb_spec x na) as [->|N], (Nat.eqb_spec y nb) as [->|N']; cbn [andb].
        -- rewrite F1. cbn [length]. lia.
        -- rewrite F0 by lia. reflexivity.
        -- rewrite F0 by lia. reflexivity.
        -- rewrite F0 by lia. reflexivity.
Qed.
