(** C65: reading a CI wave function. *)
From Coq Require Import List Arith ZArith Lia Bool Reals Lra Sorting.Sorted Permutation.
From Verif Require Import CipsiModel CipsiSpec CipsiProofs HilbertSpec HilbertPhase ScatterModel ScatterSpec ParseModel ParseSpec ParsePhase ParseInsert ParseProofs ParseFinal CipsiQmc.
Import ListNotations.
Local Open Scope Z_scope.

Lemma antisym_fix : forall na nb t, antisymmetric (2 * (na + nb)) (axes na nb) t -> antisymmetric (2 * (na + nb)) (axes na nb) (sign_fix na nb t).
Proof.
  intros na nb t A l g p q L Hg Hp Hq N. specialize (A l g p q L Hg Hp Hq N).
  destruct na as [|[|[|na]]], nb as [|[|[|[|nb]]]]; cbn [sign_fix]; rewrite A; try ring.
Qed.
Lemma HF_no_excitation : forall s, (length (upa s (HF s)) + length (upb s (HF s)) = 0)%nat.
Proof.
  intros s. rewrite <- rank_len. unfold get_excit_rank.
  destruct (setdiff (HF s) (HF s)) as [|x l] eqn:E; [reflexivity|]. exfalso.
  assert (H : In x (setdiff (HF s) (HF s))) by (rewrite E; now left). apply setdiff_In in H. tauto.
Qed.
Lemma zrow_inj : forall (pa pb ha hb pa' pb' ha' hb' : list Z), length pa = length pa' -> length pb = length pb' ->
  length ha = length ha' -> (pa ++ pb) ++ ha ++ hb = (pa' ++ pb') ++ ha' ++ hb' -> pa = pa' /\ pb = pb' /\ ha = ha' /\ hb = hb'.
Proof.
  intros pa pb ha hb pa' pb' ha' hb' La Lb Lc E. apply app_inj_len in E as (E1 & E2); [|rewrite !app_length; lia].
  apply app_inj_len in E1 as (-> & ->); [|assumption]. apply app_inj_len in E2 as (-> & ->); [|assumption]. auto.
Qed.

Theorem C65_amplitudes_general : forall s file c0, electrons_fit s -> wave_function s file -> In (c0, HF s) file -> c0 <> 0%R ->
  exists res, parse_ci_wavefunction s file = Some res /\
    delivers s file c0 (misphase s) (p_arr res) (p_rows res) (p_amps res) (p_count res).
Proof.
  intros s file c0 V WF H0 NZ.
  assert (HS : forall na nb, (1 <= na + nb <= 3)%nat -> exists X, spread s c0 file na nb zero_tensor = Some X /\
    unfolds (2 * (na + nb)) (axes na nb) (fun r => r) (map (map S) (map (lrow s) (filt s na nb file))) (map (lval s c0) (filt s na nb file)) X).
  { intros na nb L. apply inserts_unfolds; [exact L|now rewrite !map_length| |].
    - intros r Hr. now apply (rows_good s file V WF).
    - now apply (rows_nodup s file V WF). }
  destruct (parse_loop s c0 file V NZ (wf_det s file WF) pst0) as (st & E & H1 & H2 & H3 & H4).
  { intros na nb L. destruct (HS na nb L) as (X & EX & _). now exists X. }
  unfold parse_ci_wavefunction. rewrite (find_ref_spec s file c0 WF H0), E.
  eexists. split; [reflexivity|]. cbn [p_arr p_rows p_amps p_count].
  assert (VAL : forall pa pb ha hb, excitation s pa pb ha hb -> (1 <= length pa + length pb)%nat ->
     (exists l, In l (filt s (length pa) (length pb) file) /\ pa = upa s (snd l) /\ pb = upb s (snd l) /\ ha = uha s (snd l) /\ hb = uhb s (snd l)) \/
     ((forall l, In l (filt s (length pa) (length pb) file) -> ~ (pa = upa s (snd l) /\ pb = upb s (snd l) /\ ha = uha s (snd l) /\ hb = uhb s (snd l))) /\
      projection s file c0 pa pb ha hb = 0%R)).
  { intros pa pb ha hb X L.
    assert (DEC : (exists l, In l (filt s (length pa) (length pb) file) /\ pa = upa s (snd l) /\ pb = upb s (snd l) /\ ha = uha s (snd l) /\ hb = uhb s (snd l)) \/
      (forall l, In l (filt s (length pa) (length pb) file) -> ~ (pa = upa s (snd l) /\ pb = upb s (snd l) /\ ha = uha s (snd l) /\ hb = uhb s (snd l)))).
    { induction (filt s (length pa) (length pb) file) as [|l f IH]; [right; intros l []|].
      destruct IH as [(l' & Hl & K)|K]; [left; exists l'; split; [now right|exact K]|].
      destruct (list_eq_dec Z.eq_dec pa (upa s (snd l))), (list_eq_dec Z.eq_dec pb (upb s (snd l))), (list_eq_dec Z.eq_dec ha (uha s (snd l))), (list_eq_dec Z.eq_dec hb (uhb s (snd l)));
        try (left; exists l; split; [now left|auto]; fail); right; intros l' [<-|Hl]; try (now apply K); tauto. }
    destruct DEC as [K|K]; [now left|right]. split; [exact K|]. apply projection_miss; auto. intros l Hl (E1 & E2 & E3 & E4).
    apply (K l); [|auto]. apply filt_In. split; [exact Hl|]. split; [|split; congruence].
    intro EH. pose proof (HF_no_excitation s). rewrite <- EH, <- E1, <- E2 in *. lia. }
  split; [|split].
  - intros na nb L. destruct (HS na nb L) as (X & EX & A & U1 & U2).
    assert (p_arr st na nb = X) as -> by (specialize (H1 na nb L); cbn [p_arr pst0] in H1; congruence).
    split; [now apply antisym_fix|]. intros pa pb ha hb EXC <- <-. rewrite fix_spec by assumption.
    destruct (VAL pa pb ha hb EXC ltac:(lia)) as [(l & Hl & -> & -> & -> & ->)|(K & ->)].
    + rewrite <- (line_value s file c0 V WF l) by (now apply filt_In in Hl). f_equal.
      apply In_nth with (d := (0%R, [])) in Hl as (n & Hn & En).
      specialize (U1 n). rewrite !map_length in U1. specialize (U1 Hn).
      rewrite nth_indep with (d' := map S (lrow s (0%R, []))) in U1 by (rewrite !map_length; exact Hn).
      rewrite map_nth with (d := lrow s (0%R, [])) in U1. rewrite map_nth in U1. rewrite En in U1.
      rewrite nth_indep with (d' := lval s c0 (0%R, [])) in U1 by (rewrite map_length; exact Hn). rewrite map_nth, En in U1.
      rewrite map_map in U1. cbn [Nat.pred] in U1. rewrite map_id in U1. exact U1.
    + rewrite U2; [ring| | |].
      * unfold entry. rewrite map_length, !app_length. destruct EXC as (L1 & L2 & _). lia.
      * now apply (ordered_entry s).
      * intros row Hr. apply in_map_iff in Hr as (r & <- & Hr). apply in_map_iff in Hr as (l & <- & Hl). rewrite map_map. cbn [Nat.pred]. rewrite map_id.
        intro EE. apply (K l Hl). apply filt_In in Hl as (Hl & _ & A1 & A2).
        unfold lrow in EE. apply (entry_inj s) in EE as (-> & -> & -> & ->); auto. apply det_excitation; [exact V|now apply (wf_det s file WF)].
  - intros na L. rewrite H2, H3 by assumption. cbn [p_rows p_amps pst0 app].
    assert (LR : forall l, lrowz s l = (upa s (snd l) ++ upb s (snd l)) ++ uha s (snd l) ++ uhb s (snd l)) by reflexivity.
    assert (UN : forall l l', In l (filt s na (4 - na) file) -> In l' (filt s na (4 - na) file) -> lrowz s l = lrowz s l' -> l = l').
    { intros l l' Hl Hl' EE. apply filt_In in Hl as (Hl & _ & A1 & A2), Hl' as (Hl' & _ & B1 & B2). rewrite !LR in EE.
      destruct (det_excitation s (snd l) V (proj1 (wf_det s file WF l Hl))) as (X1 & X2 & _).
      destruct (det_excitation s (snd l') V (proj1 (wf_det s file WF l' Hl'))) as (Y1 & Y2 & _).
      apply zrow_inj in EE as (E1 & E2 & E3 & E4); try congruence. apply (snd_inj s file WF); auto. now apply (up_inj s file WF). }
    split; [|split; [|split]].
    + apply nodup_map_inj; [exact UN|apply NoDup_filter, (file_nodup s file WF)].
    + destruct (filt s na (4 - na) file) as [|l f]; [reflexivity|]. cbn [map amps_array length]. rewrite !map_length. lia.
    + intros row Hr. apply in_map_iff in Hr as (l & <- & Hl). pose proof Hl as Hl0. apply filt_In in Hl0 as (Hl0 & _ & A1 & A2).
      exists (upa s (snd l)), (upb s (snd l)), (uha s (snd l)), (uhb s (snd l)). split; [apply LR|].
      split; [apply det_excitation; [exact V|now apply (wf_det s file WF)]|auto].
    + intros pa pb ha hb EXC La Lb. subst na. rewrite <- Lb in *. destruct (VAL pa pb ha hb EXC ltac:(lia)) as [(l & Hl & EP1 & EP2 & EP3 & EP4)|(K & PZ)].
      * split.
        -- intros k Hk. rewrite EP1, EP2, EP3, EP4 in Hk. rewrite <- LR in Hk.
           rewrite EP1, EP2, EP3, EP4. rewrite <- (line_value s file c0 V WF l) by (now apply filt_In in Hl).
           rewrite <- EP1, <- EP2. assert (FQ : fixsign (length pa) (length pb) = 1%R) by (rewrite Lb; apply fix_quad; lia). rewrite FQ, Rmult_1_r.
           assert (NEr : exists x r, map (lrowz s) (filt s (length pa) (length pb) file) = x :: r).
           { destruct (filt s (length pa) (length pb) file); [contradiction|]. cbn. eauto. }
           destruct NEr as (x & r & NEr). unfold amps_array. rewrite NEr.
           rewrite <- EP1, <- EP2 in Hk. rewrite nth_error_map in Hk. revert Hk. destruct (nth_error (filt s (length pa) (length pb) file) k) as [l'|] eqn:NE; intro Hk; [|discriminate Hk].
           cbn in Hk. injection Hk as Hk. pose proof (nth_error_In _ _ NE) as Hl'.
           rewrite (nth_error_nth _ _ 0%R (x := lval s c0 l)); [reflexivity|].
           rewrite nth_error_map, NE. cbn. rewrite (UN l' l) by assumption. reflexivity.
        -- intro NI. elim NI. rewrite EP1, EP2, EP3, EP4, <- LR. rewrite <- EP1, <- EP2. now apply in_map.
      * split; [|auto]. intros k Hk. exfalso. apply nth_error_In in Hk. apply in_map_iff in Hk as (l & EE & Hl). apply (K l Hl).
        rewrite LR in EE. apply filt_In in Hl as (Hl & _ & A1 & A2).
        destruct (det_excitation s (snd l) V (proj1 (wf_det s file WF l Hl))) as (X1 & X2 & _). destruct EXC as (Y1 & Y2 & _).
        apply zrow_inj in EE as (-> & -> & -> & ->); auto; congruence.
  - intros na nb L Lr NL HL. rewrite H4 by assumption. cbn [p_count pst0 Nat.add].
    rewrite <- (map_length snd (filt s na nb file)). apply Permutation_length, NoDup_Permutation.
    + apply nodup_map_inj; [|apply NoDup_filter, (file_nodup s file WF)]. intros x y Hx Hy. apply filt_In in Hx as (Hx & _), Hy as (Hy & _). now apply (snd_inj s file WF).
    + exact NL.
    + intro D. rewrite HL. split.
      * intro HD. apply in_map_iff in HD as (l & <- & Hl). apply filt_In in Hl as (Hl & _ & A1 & A2). split; [now apply in_map|].
        destruct (wf_det s file WF l Hl) as (DET & SD). destruct V as (V1 & V2).
        exists (eun s (snd l), eocc s (snd l)). split.
        -- replace na with (ena s (snd l)) by (rewrite <- A1; unfold upa; now rewrite map_length). apply describes_eq; [lia|lia|exact DET].
        -- cbn. unfold eun. rewrite app_length. unfold upa, upb in *. lia.
      * intros (HD & e & De & Le). apply in_map_iff in HD as (l & <- & Hl). apply in_map. apply filt_In. split; [exact Hl|].
        destruct (wf_det s file WF l Hl) as (DET & SD). destruct V as (V1 & V2).
        destruct (describes_unique s (snd l) _ _ _ _ V2 ltac:(lia) De (describes_eq s (snd l) V2 ltac:(lia) DET)) as (E1 & E2).
        subst e. cbn in Le. unfold eun in Le. rewrite app_length in Le. fold (upa s (snd l)) (upb s (snd l)) in Le.
        assert (length (upa s (snd l)) = na) by (rewrite E1; unfold upa; now rewrite map_length).
        split; [|split; lia]. intro EH. pose proof (HF_no_excitation s). rewrite <- EH in *. lia.
Qed.

(** ** The sign *)
Ltac Zify.zify_post_hook ::= Z.div_mod_to_equations.
Lemma count_odd : forall n x, 0 <= x -> below x (map (fun i => 2 * i - 1) (zrange n)) = Z.to_nat (Z.min (Z.of_nat n) (x / 2)).
Proof.
  intros n x Hx. unfold below, zrange. induction n as [|n IH].
  - cbn [seq map filter length]. lia.
  - rewrite seq_S, !map_app, filter_app, app_length, IH. cbn [map filter].
    destruct (Z.ltb_spec (2 * Z.of_nat (1 + n) - 1) x); cbn [length]; lia.
Qed.
Lemma count_even : forall n x, 1 <= x -> below x (map (fun i => 2 * i) (zrange n)) = Z.to_nat (Z.min (Z.of_nat n) ((x - 1) / 2)).
Proof.
  intros n x Hx. unfold below, zrange. induction n as [|n IH].
  - cbn [seq map filter length]. lia.
  - rewrite seq_S, !map_app, filter_app, app_length, IH. cbn [map filter].
    destruct (Z.ltb_spec (2 * Z.of_nat (1 + n)) x); cbn [length]; lia.
Qed.
Lemma reference_below_count : forall s x, 1 <= x -> reference_below s x =
  (Z.to_nat (Z.min (Z.of_nat (noa s)) (x / 2)) + Z.to_nat (Z.min (Z.of_nat (nob s)) ((x - 1) / 2)))%nat.
Proof.
  intros s x Hx. change (reference_below s x) with (below x (HF s)). unfold HF.
  rewrite (below_perm x _ _ (Permutation_sym (isort_perm _))), below_app, count_odd, count_even by lia. reflexivity.
Qed.
Lemma pow_all : forall (f : Z -> nat) e l, (forall x, In x l -> ((-1) ^ f x = e)%R) -> ((-1) ^ list_sum (map f l) = e ^ length l)%R.
Proof.
  intros f e. induction l as [|x l IH]; intros H; [reflexivity|]. cbn [map length pow]. change (list_sum (f x :: map f l)) with (f x + list_sum (map f l))%nat.
  rewrite pow_add, IH by (intros; apply H; now right). now rewrite (H x (or_introl eq_refl)).
Qed.
Lemma misphase_split : forall s pa pb ha hb ea eb ia ib, 
  (forall a, In a pa -> ((-1) ^ reference_below s (alpha (a + Z.of_nat (noa s))) = ea)%R) ->
  (forall a, In a pb -> ((-1) ^ reference_below s (beta (a + Z.of_nat (nob s))) = eb)%R) ->
  (forall i, In i ha -> ((-1) ^ reference_below s (alpha i) = ia)%R) ->
  (forall i, In i hb -> ((-1) ^ reference_below s (beta i) = ib)%R) ->
  misphase s pa pb ha hb = (ea ^ length pa * eb ^ length pb * ia ^ length ha * ib ^ length hb * (-1) ^ length pb)%R.
Proof.
  intros s pa pb ha hb ea eb ia ib H1 H2 H3 H4. unfold misphase, filled, emptied.
  rewrite pow_add, !map_app, !list_sum_app, !pow_add.
  rewrite (pow_all _ ea (map _ pa)), (pow_all _ eb (map _ pb)), (pow_all _ ia (map _ ha)), (pow_all _ ib (map _ hb)).
  - rewrite !map_length. ring.
  - intros x Hx. apply in_map_iff in Hx as (i & <- & Hi). now apply H4.
  - intros x Hx. apply in_map_iff in Hx as (i & <- & Hi). now apply H3.
  - intros x Hx. apply in_map_iff in Hx as (i & <- & Hi). now apply H2.
  - intros x Hx. apply in_map_iff in Hx as (i & <- & Hi). now apply H1.
Qed.
Lemma even_pow : forall n k, n = (2 * k)%nat -> ((-1) ^ n = 1)%R.
Proof. intros n k ->. apply (pow_same _ 0 k). lia. Qed.
Lemma odd_pow : forall n k, n = (2 * k + 1)%nat -> ((-1) ^ n = -1)%R.
Proof. intros n k ->. rewrite (pow_same _ 1 (k + 1)) by lia. ring. Qed.
Lemma one_pow : forall n, (1 ^ n = 1)%R. Proof. apply pow1. Qed.
Lemma m1_sq : forall n, ((-1) ^ n * (-1) ^ n = 1)%R.
Proof. intro n. rewrite <- pow_add. apply (even_pow _ n). lia. Qed.

Lemma misphase_closed : forall s pa pb ha hb, noa s = nob s -> excitation s pa pb ha hb -> misphase s pa pb ha hb = 1%R.
Proof.
  intros s pa pb ha hb C (L1 & L2 & _ & _ & _ & _ & W1 & W2 & W3 & W4).
  rewrite (misphase_split s pa pb ha hb 1 1 1 (-1)).
  - rewrite !one_pow, <- L2, !Rmult_1_l. apply m1_sq.
  - intros a Ha. apply W1 in Ha. rewrite reference_below_count by (unfold alpha; lia). apply (even_pow _ (noa s)). unfold alpha. lia.
  - intros a Ha. apply W2 in Ha. rewrite reference_below_count by (unfold beta; lia). apply (even_pow _ (noa s)). unfold beta. lia.
  - intros i Hi. apply W3 in Hi. rewrite reference_below_count by (unfold alpha; lia). apply (even_pow _ (Z.to_nat (i - 1))). unfold alpha. lia.
  - intros i Hi. apply W4 in Hi. rewrite reference_below_count by (unfold beta; lia). apply (odd_pow _ (Z.to_nat (i - 1))). unfold beta. lia.
Qed.
Lemma misphase_doublet : forall s pa pb ha hb, noa s = S (nob s) -> excitation s pa pb ha hb ->
  misphase s pa pb ha hb = ((-1) ^ (length pa + length pb))%R.
Proof.
  intros s pa pb ha hb C (L1 & L2 & _ & _ & _ & _ & W1 & W2 & W3 & W4).
  rewrite (misphase_split s pa pb ha hb (-1) (-1) 1 (-1)).
  - rewrite !one_pow, <- L2, Rmult_1_r, pow_add. set (e := ((-1) ^ length pb)%R).
    assert (E2 : (e * e = 1)%R) by apply m1_sq. transitivity ((-1) ^ length pa * e * (e * e))%R; [ring|]. rewrite E2. ring.
  - intros a Ha. apply W1 in Ha. rewrite reference_below_count by (unfold alpha; lia). apply (odd_pow _ (nob s)). unfold alpha. lia.
  - intros a Ha. apply W2 in Ha. rewrite reference_below_count by (unfold beta; lia). apply (odd_pow _ (nob s)). unfold beta. lia.
  - intros i Hi. apply W3 in Hi. rewrite reference_below_count by (unfold alpha; lia). apply (even_pow _ (Z.to_nat (i - 1))). unfold alpha. lia.
  - intros i Hi. apply W4 in Hi. rewrite reference_below_count by (unfold beta; lia). apply (odd_pow _ (Z.to_nat (i - 1))). unfold beta. lia.
Qed.
Lemma delivers_ext : forall s file c0 f g arr rows amps count,
  (forall pa pb ha hb, excitation s pa pb ha hb -> f pa pb ha hb = g pa pb ha hb) ->
  delivers s file c0 f arr rows amps count -> delivers s file c0 g arr rows amps count.
Proof.
  intros s file c0 f g arr rows amps count E (A & B & C). split; [|split; [|exact C]].
  - intros na nb L. destruct (A na nb L) as (A1 & A2). split; [exact A1|]. intros. rewrite <- E by assumption. now apply A2.
  - intros na L. destruct (B na L) as (B1 & B2 & B3 & B4). split; [exact B1|]. split; [exact B2|]. split; [exact B3|].
    intros pa pb ha hb X La Lb. rewrite <- E by assumption. now apply B4.
Qed.

(** The sign is right for every closed-shell reference... *)
Theorem C65_closed_shell : forall s file c0, electrons_fit s -> noa s = nob s -> wave_function s file -> In (c0, HF s) file -> c0 <> 0%R ->
  exists res, parse_ci_wavefunction s file = Some res /\
    delivers s file c0 (fun _ _ _ _ => 1%R) (p_arr res) (p_rows res) (p_amps res) (p_count res).
Proof.
  intros s file c0 V C WF H0 NZ. destruct (C65_amplitudes_general s file c0 V WF H0 NZ) as (res & E & D).
  exists res. split; [exact E|]. apply (delivers_ext s file c0 (misphase s)); [intros; now apply misphase_closed|exact D].
Qed.
(** ... all singles and triples have the wrong sign when there is one unpaired electron ... *)
Theorem C65_one_unpaired_electron : forall s file c0, electrons_fit s -> noa s = S (nob s) -> wave_function s file -> In (c0, HF s) file -> c0 <> 0%R ->
  exists res, parse_ci_wavefunction s file = Some res /\
    delivers s file c0 (fun pa pb _ _ => ((-1) ^ (length pa + length pb))%R) (p_arr res) (p_rows res) (p_amps res) (p_count res).
Proof.
  intros s file c0 V C WF H0 NZ. destruct (C65_amplitudes_general s file c0 V WF H0 NZ) as (res & E & D).
  exists res. split; [exact E|]. apply (delivers_ext s file c0 (misphase s)); [intros; now apply misphase_doublet|exact D].
Qed.

(** ** Reference not in the file; unusable lines *)
Lemma find_ref_none : forall s file, (forall c, ~ In (c, HF s) file) -> find_ref s file = None.
Proof.
  induction file as [|(c, D) f IH]; intros H; [reflexivity|]. cbn. destruct (det_eqb D (HF s)) eqn:E.
  - apply det_eqb_true in E. subst. elim (H c). now left.
  - apply IH. intros c' K. apply (H c'). now right.
Qed.
Theorem C65_missing_reference : forall s file, electrons_fit s -> wave_function s file -> (forall c, ~ In (c, HF s) file) ->
  (exists c D e na, In (c, D) file /\ describes s na e D /\ (length (fst e) <= 4)%nat) ->
  parse_ci_wavefunction s file = None.
Proof.
  intros s file V WF NR (c & D & e & na & HI & De & Le). unfold parse_ci_wavefunction. rewrite (find_ref_none s file NR).
  enough (K : forall st, parse_lines s None file st = None) by now rewrite K.
  destruct WF as (WF & _). induction file as [|(c1, D1) f IH]; intro st; [contradiction|]. cbn [parse_lines].
  unfold parse_line. destruct (det_eqb D1 (HF s)) eqn:EH; [apply det_eqb_true in EH; subst; elim (NR c1); now left|].
  destruct (WF c1 D1 (or_introl eq_refl)) as (DET & SD). rewrite rank_len.
  destruct (Nat.ltb_spec 4 (length (upa s D1) + length (upb s D1))) as [L|L].
  - apply IH; [intros c' D' K; exact (WF c' D' (or_intror K))|intros c' K; exact (NR c' (or_intror K))|].
    destruct HI as [HI|HI]; [|exact HI]. exfalso. injection HI as -> ->. destruct V as (V1 & V2).
    destruct (describes_unique s D _ _ _ _ V2 ltac:(lia) De (describes_eq s D V2 ltac:(lia) DET)) as (_ & ->). cbn in Le. unfold eun in Le.
    rewrite app_length in Le. unfold upa, upb in L. lia.
  - rewrite (indices_eq s D1 (proj1 DET)).
    pose proof (det_excitation s D1 V DET) as (L1 & L2 & _ & _ & _ & _ & W1 & W2 & W3 & W4). destruct V as (V1 & V2).
    rewrite not_outside.
    2:{ intros x Hx. unfold eocc in Hx. apply in_app_or in Hx as [Hx|Hx]; [now apply W3|]. apply W4 in Hx. lia. }
    rewrite not_outside; [reflexivity|].
    intros x Hx. unfold eun in Hx. apply in_app_or in Hx as [Hx|Hx]; [apply W1 in Hx; unfold nua, nub in *; lia|now apply W2].
Qed.


Lemma through_valid : forall s c0 pre rest, electrons_fit s -> c0 <> 0%R ->
  (forall l, In l pre -> is_det s (snd l) /\ StronglySorted Z.lt (snd l)) -> forall st,
  parse_lines s (Some c0) (pre ++ rest) st =
  match parse_lines s (Some c0) pre st with Some st' => parse_lines s (Some c0) rest st' | None => None end.
Proof.
  intros s c0 pre rest V NZ. induction pre as [|l pre IH]; intros H st; [reflexivity|]. cbn [app parse_lines].
  destruct (H l (or_introl eq_refl)) as (DET & SD). rewrite (line_step s c0 l st V DET SD NZ).
  assert (H' : forall l0, In l0 pre -> is_det s (snd l0) /\ StronglySorted Z.lt (snd l0)) by (intros; apply H; now right).
  destruct (det_eqb _ _); [now apply IH|]. destruct (_ <? _)%nat; [now apply IH|]. destruct (_ =? 4)%nat; [now apply IH|].
  destruct (scatter_row _ _ _ _ _); [now apply IH|reflexivity].
Qed.
(** A determinant with an orbital the system does not have ends the reading: whatever follows is ignored. *)
Theorem C65_unknown_orbital_ends_reading : forall s pre post c0 c D rank x, electrons_fit s -> noa s = nob s ->
  wave_function s pre -> In (c0, HF s) pre -> c0 <> 0%R ->
  electrons s D -> of_rank s rank D -> (rank <= 4)%nat -> In x D -> 2 * Z.of_nat (norb s) < x ->
  parse_ci_wavefunction s (pre ++ (c, D) :: post) = parse_ci_wavefunction s pre.
Proof.
  intros s pre post c0 c D rank x V C WF H0 NZ EL R LR Hx Bx. unfold parse_ci_wavefunction.
  assert (FR : find_ref s (pre ++ (c, D) :: post) = Some c0).
  { pose proof (find_ref_spec s pre c0 WF H0) as F. clear - F. induction pre as [|(c1, D1) pre IH]; [discriminate|]. cbn in *.
    destruct (det_eqb D1 (HF s)); [exact F|now apply IH]. }
  rewrite FR, (find_ref_spec s pre c0 WF H0). rewrite through_valid by (auto; exact (wf_det s pre WF)).
  destruct (parse_lines s (Some c0) pre pst0) as [st|]; [|reflexivity].
  enough (K : parse_lines s (Some c0) ((c, D) :: post) st = Some st) by now rewrite K.
  cbn [parse_lines]. unfold parse_line.
  destruct V as (V1 & V2).
  assert (NH : ~ In x (HF s)).
  { intro K. destruct (mod2 x) as [M|M].
    - rewrite (even_form x M) in K, Bx. apply HF_beta in K. unfold beta in *. lia.
    - rewrite (odd_form x M) in K, Bx. apply HF_alpha in K. unfold alpha in *. lia. }
  destruct (det_eqb D (HF s)) eqn:EH; [apply det_eqb_true in EH; subst; contradiction|].
  rewrite rank_eq. rewrite (of_rank_len s rank D R). destruct (Nat.ltb_spec 4 rank); [lia|].
  rewrite (indices_eq s D EL). destruct (outside 1 (Z.of_nat (noa s)) (eocc s D)); [reflexivity|].
  assert (O : outside 1 (Z.of_nat (nub s)) (eun s D) = true); [|now rewrite O].
  unfold outside. apply orb_true_iff. left. apply existsb_exists.
  assert (U : In x (ua s D ++ ub s D)) by (apply ua_sub; now split). apply in_app_or in U as [U|U].
  - exists (spatial_orb_idx x - Z.of_nat (noa s)). split; [unfold eun; apply in_or_app; left; apply in_map_iff; now exists x|].
    apply ua_odd in U. apply odd_form in U. unfold alpha, nub in *. apply Z.ltb_lt. lia.
  - exists (spatial_orb_idx x - Z.of_nat (nob s)). split; [unfold eun; apply in_or_app; right; apply in_map_iff; now exists x|].
    apply ub_even in U. apply even_form in U. unfold beta, nub in *. apply Z.ltb_lt. lia.
Qed.

(** ** Concrete wave functions *)
Ltac nodup := repeat (apply NoDup_cons; [cbn; intuition (congruence || lia)|]); apply NoDup_nil.
Ltac sorted := repeat (apply SSorted_cons; [|repeat (apply Forall_cons; [lia|]); apply Forall_nil]); apply SSorted_nil.
Ltac isdet := split; [split; [nodup|split; reflexivity]|intros x Hx; cbn in *; lia].
Ltac exc := split; [reflexivity|]; split; [reflexivity|]; do 4 (split; [sorted|]); do 3 (split; [intros x Hx; cbn in *; lia|]); intros x Hx; cbn in *; lia.
Ltac proj := unfold projection; cbv -[IZR Rplus Rmult Rminus Ropp Rdiv Rinv]; lra.
(** Two electrons in three orbitals: a single of each spin and a double. *)
Definition ex_sys : sys := mkSys 1 1 3 [0%N; 0%N; 0%N] 1 0%N.
Definition ex_file : list (R * list Z) := [((/ 2)%R, [1; 2]); (1%R, [2; 3]); (3%R, [1; 6]); (5%R, [3; 6])].
Lemma ex_wf : wave_function ex_sys ex_file.
Proof.
  split.
  - intros c D H. cbn in H. repeat (destruct H as [H|H]; [injection H as <- <-; split; [isdet|sorted]|]). destruct H.
  - cbn. nodup.
Qed.
Example C65_instance : electrons_fit ex_sys /\ noa ex_sys = nob ex_sys /\ wave_function ex_sys ex_file /\ In ((/ 2)%R, HF ex_sys) ex_file /\
  exists res, parse_ci_wavefunction ex_sys ex_file = Some res /\
    p_arr res 1%nat 0%nat [0; 0]%nat = (-2)%R /\ p_arr res 0%nat 1%nat [1; 0]%nat = 6%R /\ p_arr res 1%nat 1%nat [0; 1; 0; 0]%nat = 10%R.
Proof.
  split; [split; cbn; lia|]. split; [reflexivity|]. split; [apply ex_wf|]. split; [now left|].
  destruct (C65_closed_shell ex_sys ex_file (/ 2)%R) as (res & E & A & _); [split; cbn; lia|reflexivity|apply ex_wf|now left|lra|].
  exists res. split; [exact E|].
  assert (X1 : excitation ex_sys [1] [] [1] []) by exc. assert (X2 : excitation ex_sys [] [2] [] [1]) by exc.
  assert (X3 : excitation ex_sys [1] [2] [1] [1]) by exc.
  split; [|split].
  - destruct (A 1%nat 0%nat ltac:(lia)) as (_ & B). etransitivity; [exact (B [1] [] [1] [] X1 eq_refl eq_refl)|]. proj.
  - destruct (A 0%nat 1%nat ltac:(lia)) as (_ & B). etransitivity; [exact (B [] [2] [] [1] X2 eq_refl eq_refl)|]. proj.
  - destruct (A 1%nat 1%nat ltac:(lia)) as (_ & B). etransitivity; [exact (B [1] [2] [1] [1] X3 eq_refl eq_refl)|]. proj.
Qed.

(** With two unpaired electrons some amplitudes of the same array come out right and others with the wrong sign. *)
Definition open_sys : sys := mkSys 2 0 3 [0%N; 0%N; 0%N] 1 0%N.
Definition open_file : list (R * list Z) := [(1%R, [1; 3]); (1%R, [3; 5]); (1%R, [1; 5])].
Lemma open_wf : wave_function open_sys open_file.
Proof.
  split.
  - intros c D H. cbn in H. repeat (destruct H as [H|H]; [injection H as <- <-; split; [isdet|sorted]|]). destruct H.
  - cbn. nodup.
Qed.
Theorem C65_open_shell_refuted : exists s file c0 res, electrons_fit s /\ wave_function s file /\ In (c0, HF s) file /\ c0 <> 0%R /\
  parse_ci_wavefunction s file = Some res /\
  exists pa pb ha hb, excitation s pa pb ha hb /\ length pa = 1%nat /\ length pb = 0%nat /\
    (exists ha', excitation s pa pb ha' hb /\ p_arr res 1%nat 0%nat (entry pa pb ha' hb) = projection s file c0 pa pb ha' hb /\
       projection s file c0 pa pb ha' hb <> 0%R) /\
    p_arr res 1%nat 0%nat (entry pa pb ha hb) <> projection s file c0 pa pb ha hb.
Proof.
  exists open_sys, open_file, 1%R.
  destruct (C65_amplitudes_general open_sys open_file 1%R) as (res & E & A & _); [split; cbn; lia|apply open_wf|now left|lra|].
  exists res. split; [split; cbn; lia|]. split; [apply open_wf|]. split; [now left|]. split; [lra|]. split; [exact E|].
  assert (X1 : excitation open_sys [1] [] [2] []) by exc. assert (X2 : excitation open_sys [1] [] [1] []) by exc.
  destruct (A 1%nat 0%nat ltac:(lia)) as (_ & B).
  assert (P1 : projection open_sys open_file 1 [1] [] [2] [] = 1%R) by proj.
  assert (P2 : projection open_sys open_file 1 [1] [] [1] [] = (-1)%R) by proj.
  assert (M1 : misphase open_sys [1] [] [2] [] = (-1)%R) by (unfold misphase; cbn; lra).
  assert (M2 : misphase open_sys [1] [] [1] [] = 1%R) by (unfold misphase; cbn; lra).
  exists [1], [], [2], []. split; [exact X1|]. split; [reflexivity|]. split; [reflexivity|]. split.
  - exists [1]. split; [exact X2|]. rewrite (B [1] [] [1] [] X2 eq_refl eq_refl), P2, M2. split; lra.
  - rewrite (B [1] [] [2] [] X1 eq_refl eq_refl), P1, M1. lra.
Qed.

Print Assumptions C65_amplitudes_general.
Print Assumptions C65_closed_shell.
Print Assumptions C65_one_unpaired_electron.
Print Assumptions C65_missing_reference.
Print Assumptions C65_unknown_orbital_ends_reading.
Print Assumptions C65_open_shell_refuted.
