(** From the loop to the amplitudes. *)
From Coq Require Import List Arith ZArith Lia Bool Reals Lra Sorting.Sorted Permutation.
From Verif Require Import CipsiModel CipsiSpec CipsiProofs HilbertSpec HilbertPhase ScatterModel ScatterSpec ParseModel ParseSpec ParsePhase ParseInsert ParseProofs.
Import ListNotations.
Local Open Scope Z_scope.

(** ** Projections *)
Lemma sum_hit : forall (f : R * list Z -> R) file c D, NoDup (map snd file) -> In (c, D) file ->
  (forall l, In l file -> snd l <> D -> f l = 0%R) -> fold_right Rplus 0%R (map f file) = f (c, D).
Proof.
  induction file as [|l file IH]; intros c D N H Z; [contradiction|]. cbn [map fold_right]. inversion N as [|? ? Nl N']; subst.
  destruct H as [->|H].
  - cbn [snd] in Nl. enough (E0 : fold_right Rplus 0%R (map f file) = 0%R) by (rewrite E0; lra).
    assert (K : forall l, In l file -> f l = 0%R).
    { intros l Hl. apply Z; [now right|]. intro E. apply Nl. rewrite <- E. now apply in_map. }
    clear - K. induction file as [|l file IH]; [reflexivity|]. cbn. rewrite (K l (or_introl eq_refl)), IH; [lra|]. intros; apply K; now right.
  - rewrite (IH c D N' H) by (intros; apply Z; [now right|assumption]). rewrite Z; [lra|now left|].
    intro E. apply Nl. rewrite E. now apply (in_map snd) in H.
Qed.
Lemma sum_miss : forall (f : R * list Z -> R) file, (forall l, In l file -> f l = 0%R) -> fold_right Rplus 0%R (map f file) = 0%R.
Proof. induction file as [|l file IH]; intros Z; [reflexivity|]. cbn. rewrite (Z l (or_introl eq_refl)), IH; [lra|]. intros; apply Z; now right. Qed.

(** Equal excitation parts: equal determinants. *)
Lemma same_det : forall s D D', StronglySorted Z.lt D -> StronglySorted Z.lt D' ->
  ua s D ++ ub s D = ua s D' ++ ub s D' -> oa s D ++ ob s D = oa s D' ++ ob s D' -> D = D'.
Proof.
  intros s D D' S S' E1 E2. apply sorted_eq; auto. intro x.
  pose proof (ua_sub s D x) as A. rewrite E1, (ua_sub s D' x) in A. pose proof (oa_sub s D x) as B. rewrite E2, (oa_sub s D' x) in B.
  destruct (in_dec Z.eq_dec x D), (in_dec Z.eq_dec x D'), (in_dec Z.eq_dec x (HF s)); tauto.
Qed.
Section FILE.
Variables (s : sys) (file : list (R * list Z)) (c0 : R).
Hypothesis V : electrons_fit s.
Hypothesis WF : wave_function s file.
Lemma wf_det : forall l, In l file -> is_det s (snd l) /\ StronglySorted Z.lt (snd l).
Proof. intros (c, D) H. exact (proj1 WF c D H). Qed.
Lemma up_inj : forall l l', In l file -> In l' file -> upa s (snd l) = upa s (snd l') -> upb s (snd l) = upb s (snd l') ->
  uha s (snd l) = uha s (snd l') -> uhb s (snd l) = uhb s (snd l') -> snd l = snd l'.
Proof.
  intros l l' H H' E1 E2 E3 E4. apply (same_det s); try (now apply wf_det).
  - rewrite <- !fill_back. now rewrite E1, E2.
  - rewrite <- !empty_back. now rewrite E3, E4.
Qed.
Lemma projection_hit : forall l, In l file ->
  let D := snd l in
  projection s file c0 (upa s D) (upb s D) (uha s D) (uhb s D) =
  (fst l / c0 * element (ua s D ++ ub s D) (oa s D ++ ob s D) D (HF s))%R.
Proof.
  intros (c, D) H. cbn [fst snd]. unfold projection. rewrite (sum_hit _ file c D).
  - cbn [fst snd]. now rewrite fill_back, empty_back.
  - apply WF.
  - exact H.
  - intros l Hl N. destruct (Req_EM_T (element (filled s (upa s D) (upb s D)) (emptied (uha s D) (uhb s D)) (snd l) (HF s)) 0) as [->|NZ]; [lra|].
    exfalso. apply N. destruct (wf_det l Hl) as (DET & SD). destruct (wf_det (c, D) H) as (DET' & SD').
    apply element_unique in NZ as (E1 & E2 & E3 & E4); auto; [|now apply det_excitation].
    symmetry. apply (up_inj (c, D) l); auto.
Qed.
Lemma projection_miss : forall pa pb ha hb, excitation s pa pb ha hb ->
  (forall l, In l file -> ~ (pa = upa s (snd l) /\ pb = upb s (snd l) /\ ha = uha s (snd l) /\ hb = uhb s (snd l))) ->
  projection s file c0 pa pb ha hb = 0%R.
Proof.
  intros pa pb ha hb X K. unfold projection. apply sum_miss. intros l Hl.
  destruct (Req_EM_T (element (filled s pa pb) (emptied ha hb) (snd l) (HF s)) 0) as [->|NZ]; [lra|].
  exfalso. apply (K l Hl). apply element_unique; auto. now apply wf_det.
Qed.
Lemma total_ref : forall l, total l (HF s) = list_sum (map (reference_below s) l).
Proof. reflexivity. Qed.
(** The stored value of a line. *)
Definition fixsign (na nb : nat) : R := ((-1) ^ (nb * (na + 1)))%R.
Lemma line_value : forall l, In l file ->
  let D := snd l in let na := length (upa s D) in let nb := length (upb s D) in
  (lval s c0 l * fixsign na nb = misphase s (upa s D) (upb s D) (uha s D) (uhb s D) * projection s file c0 (upa s D) (upb s D) (uha s D) (uhb s D))%R.
Proof.
  intros l Hl. cbn zeta. rewrite projection_hit by assumption. unfold lval. destruct (wf_det l Hl) as (DET & SD).
  rewrite (det_phase s (snd l) DET SD). unfold misphase, fixsign. rewrite fill_back, empty_back.
  rewrite map_app, list_sum_app, <- !total_ref.
  set (P := element _ _ _ _). set (TA := total (ua s (snd l) ++ ub s (snd l)) (HF s)). set (TI := total (oa s (snd l) ++ ob s (snd l)) (HF s)).
  destruct (det_excitation s (snd l) V DET) as (L1 & L2 & _).
  replace (length (oa s (snd l))) with (length (upa s (snd l))) by (rewrite L1; unfold uha; now rewrite map_length).
  replace (length (ob s (snd l))) with (length (upb s (snd l))) by (rewrite L2; unfold uhb; now rewrite map_length).
  set (na := length (upa s (snd l))). set (nb := length (upb s (snd l))).
  rewrite (pow_same (TA + TI + nb) (TA + TI + na * nb + nb * (na + 1)) (TA + TI + na * nb + nb)) by lia.
  rewrite (pow_add _ (TA + TI + na * nb)). ring.
Qed.
(** ** Rows *)
Lemma excitation_good : forall pa pb ha hb, excitation s pa pb ha hb -> good s (length pa) (length pb) (entry pa pb ha hb).
Proof.
  intros pa pb ha hb (L1 & L2 & S1 & S2 & S3 & S4 & W1 & W2 & W3 & W4).
  set (f := fun x => Z.to_nat (x - 1)).
  exists (map f pa), (map f pb), (map f ha), (map f hb). split; [unfold entry; now rewrite !map_app|].
  assert (K : forall n l, StronglySorted Z.lt l -> within 1 (Z.of_nat n) l -> incr (length l) n (map f l)).
  { intros n l SL W. split; [now rewrite map_length|]. split.
    - induction SL as [|x l SL IH F]; [constructor|]. cbn. constructor; [apply IH; intros y Hy; apply W; now right|].
      rewrite Forall_forall in *. intros y Hy. apply in_map_iff in Hy as (z & <- & Hz). specialize (F z Hz).
      pose proof (W x (or_introl eq_refl)). unfold f. lia.
    - intros y Hy. apply in_map_iff in Hy as (z & <- & Hz). apply W in Hz. unfold f. lia. }
  split; [now apply K|]. split; [now apply K|]. split; [rewrite L1|rewrite L2]; now apply K.
Qed.
Lemma entry_inj : forall pa pb ha hb pa' pb' ha' hb', excitation s pa pb ha hb -> excitation s pa' pb' ha' hb' ->
  length pa = length pa' -> length pb = length pb' -> entry pa pb ha hb = entry pa' pb' ha' hb' ->
  pa = pa' /\ pb = pb' /\ ha = ha' /\ hb = hb'.
Proof.
  intros pa pb ha hb pa' pb' ha' hb' (L1 & L2 & _ & _ & _ & _ & W1 & W2 & W3 & W4) (L1' & L2' & _ & _ & _ & _ & W1' & W2' & W3' & W4') La Lb E.
  unfold entry in E. rewrite !map_app in E.
  apply app_inj_len in E as (E1 & E2); [|rewrite !app_length, !map_length; lia].
  apply app_inj_len in E1 as (E1 & E3); [|now rewrite !map_length].
  apply app_inj_len in E2 as (E2 & E4); [|rewrite !map_length; lia].
  assert (K : forall n n' l l', within 1 n l -> within 1 n' l' -> map (fun x => Z.to_nat (x - 1)) l = map (fun x => Z.to_nat (x - 1)) l' -> l = l').
  { clear. induction l as [|x l IH]; intros [|y l'] W W' E; cbn in E; try discriminate; [reflexivity|]. injection E as E E'.
    pose proof (W x (or_introl eq_refl)). pose proof (W' y (or_introl eq_refl)). f_equal; [lia|].
    apply IH; [intros z Hz; apply W; now right|intros z Hz; apply W'; now right|exact E']. }
  repeat split; eapply K; eauto.
Qed.
Lemma filt_In : forall na nb l, In l (filt s na nb file) <->
  In l file /\ snd l <> HF s /\ length (upa s (snd l)) = na /\ length (upb s (snd l)) = nb.
Proof.
  intros na nb l. unfold filt, sel. rewrite filter_In, !andb_true_iff, negb_true_iff, !Nat.eqb_eq.
  split; intros (H & K).
  - destruct K as ((K & K1) & K2). repeat split; auto. intro E. apply det_eqb_true in E. congruence.
  - destruct K as (K & K1 & K2). repeat split; auto. destruct (det_eqb (snd l) (HF s)) eqn:E; [|reflexivity]. apply det_eqb_true in E. contradiction.
Qed.
Lemma nodup_map_inj : forall {A B} (f : A -> B) l, (forall x y, In x l -> In y l -> f x = f y -> x = y) -> NoDup l -> NoDup (map f l).
Proof.
  intros A B f l I N. induction N as [|x l Nx N IH]; cbn; constructor.
  - intro H. apply in_map_iff in H as (y & E & Hy). apply I in E; [subst; contradiction|now right|now left].
  - apply IH. intros; apply I; auto; now right.
Qed.
Lemma file_nodup : NoDup file.
Proof. destruct WF as (_ & N). exact (NoDup_map_inv snd file N). Qed.
Lemma snd_inj : forall l l', In l file -> In l' file -> snd l = snd l' -> l = l'.
Proof.
  destruct WF as (_ & N). clear - N. induction file as [|x f IH]; intros l l' H H' E; [contradiction|].
  inversion N as [|? ? Nx N']; subst. destruct H as [->|H], H' as [->|H'].
  - reflexivity.
  - elim Nx. rewrite E. now apply in_map.
  - elim Nx. rewrite <- E. now apply in_map.
  - now apply IH.
Qed.
Lemma rows_nodup : forall na nb, NoDup (map (lrow s) (filt s na nb file)).
Proof.
  intros na nb. apply nodup_map_inj; [|apply NoDup_filter, file_nodup].
  intros l l' H H' E. apply filt_In in H as (H & _ & A1 & A2), H' as (H' & _ & B1 & B2).
  apply snd_inj; auto. unfold lrow in E. apply entry_inj in E as (E1 & E2 & E3 & E4); try (apply det_excitation; [exact V|now apply wf_det]); try congruence.
  now apply up_inj.
Qed.
Lemma rows_good : forall na nb r, In r (map (lrow s) (filt s na nb file)) -> good s na nb r.
Proof.
  intros na nb r H. apply in_map_iff in H as (l & <- & H). apply filt_In in H as (H & _ & <- & <-).
  apply excitation_good, det_excitation; [exact V|now apply wf_det].
Qed.
Lemma find_ref_spec : In (c0, HF s) file -> find_ref s file = Some c0.
Proof.
  intro H. destruct WF as (_ & N). clear - N H. induction file as [|(c, D) f IH]; [contradiction|]. cbn [find_ref].
  inversion N as [|? ? Nx N']; subst. destruct (det_eqb D (HF s)) eqn:E.
  - apply det_eqb_true in E. subst. destruct H as [E|H]; [congruence|]. elim Nx. cbn. now apply (in_map snd) in H.
  - destruct H as [H|H]; [|now apply IH]. injection H as -> ->. rewrite (proj2 (det_eqb_true _ _) eq_refl) in E. discriminate.
Qed.
End FILE.

Lemma fix_spec : forall na nb t l, (1 <= na + nb <= 3)%nat -> sign_fix na nb t l = (t l * fixsign na nb)%R.
Proof.
  intros na nb t l L. unfold fixsign. destruct na as [|[|[|[|na]]]], nb as [|[|[|[|nb]]]]; try lia; cbn [sign_fix Nat.add Nat.mul pow]; ring.
Qed.
Lemma fix_quad : forall na, (na <= 4)%nat -> fixsign na (4 - na) = 1%R.
Proof. intros na L. unfold fixsign. destruct na as [|[|[|[|[|na]]]]]; try lia; cbn [Nat.sub Nat.add Nat.mul pow]; ring. Qed.
Lemma ordered_entry : forall s pa pb ha hb, excitation s pa pb ha hb -> ordered_in (axes (length pa) (length pb)) (entry pa pb ha hb).
Proof.
  intros s pa pb ha hb X.
  destruct (excitation_good s pa pb ha hb X) as (pa' & pb' & ha' & hb' & E & (L1 & S1 & _) & (L2 & S2 & _) & (L3 & S3 & _) & (L4 & S4 & _)).
  rewrite E. set (na := length pa) in *. set (nb := length pb) in *. clearbody na nb. clear - L1 L2 L3 L4 S1 S2 S3 S4.
  assert (K : forall l m, StronglySorted lt l -> (S m < length l)%nat -> (nth m l 0 < nth (S m) l 0)%nat).
  { clear. induction l as [|x l IH]; intros m SL L; cbn in L; [lia|]. inversion SL as [|? ? S' F]; subst. destruct m as [|m].
    - cbn. destruct l as [|y l]; cbn in L; [lia|]. rewrite Forall_forall in F. apply F. now left.
    - cbn [nth]. apply IH; [assumption|lia]. }
  assert (G : forall pre l post m n, length l = n -> StronglySorted lt l -> (S m < n)%nat ->
    (nth (nth m (seq (length pre) n) 0) (pre ++ l ++ post) 0 < nth (nth (S m) (seq (length pre) n) 0) (pre ++ l ++ post) 0)%nat).
  { intros pre l post m n Ln SL L. rewrite !seq_nth by lia.
    assert (Q : forall k, (k < n)%nat -> nth (length pre + k) (pre ++ l ++ post) 0%nat = nth k l 0%nat).
    { intros k Hk. rewrite app_nth2 by lia. replace (length pre + k - length pre)%nat with k by lia. apply app_nth1. lia. }
    rewrite !Q by lia. apply K; [assumption|lia]. }
  intros g Hg m Hm. destruct Hg as [<-|[<-|[<-|[<-|[]]]]]; rewrite seq_length in Hm.
  - specialize (G [] pa' (pb' ++ ha' ++ hb') m na L1 S1 Hm). cbn [length app] in G. rewrite <- app_assoc. exact G.
  - specialize (G pa' pb' (ha' ++ hb') m nb L2 S2 Hm). rewrite L1 in G. rewrite <- app_assoc. exact G.
  - specialize (G (pa' ++ pb') ha' hb' m na L3 S3 Hm). rewrite app_length, L1, L2 in G. exact G.
  - specialize (G ((pa' ++ pb') ++ ha') hb' [] m nb L4 S4 Hm). rewrite !app_length, L1, L2, L3, app_nil_r, <- app_assoc in G. exact G.
Qed.
