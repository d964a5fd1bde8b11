(** Determinants counted by electrons: strings that reach them; closed under de-excitation (proof support). *)
From Coq Require Import Reals Arith NArith List Bool Btauto Lia Lra Permutation.
From Verif Require Import RSum IntegralsModel TensorObjs FockSpec FockCar FockCcSpec SectorModel FockSectorSpec FockFlip FockNear RankSpec.
Import ListNotations.
Local Open Scope nat_scope.

Notation cnt f l := (length (filter f l)).
Lemma cnt_ext {A} (f g : A -> bool) l : (forall x, In x l -> f x = g x) -> cnt f l = cnt g l.
Proof. intros H. now rewrite (filter_ext_in f g l H). Qed.
Lemma cnt_app {A} (f : A -> bool) l r : cnt f (l ++ r) = cnt f l + cnt f r.
Proof. now rewrite filter_app, app_length. Qed.
Lemma cnt_map {A B} (h : A -> B) (f : B -> bool) l : cnt f (map h l) = cnt (fun x => f (h x)) l.
Proof. induction l as [|x l IH]; [reflexivity|]. cbn [map filter]. destruct (f (h x)); cbn [length]; now rewrite IH. Qed.
Lemma cnt_neg {A} (f : A -> bool) l : cnt f l + cnt (fun x => negb (f x)) l = length l.
Proof. induction l as [|x l IH]; [reflexivity|]. cbn [filter length]. destruct (f x); cbn [negb length]; lia. Qed.
Lemma cnt_one (f g : nat -> bool) l x : NoDup l -> In x l -> f x = true -> g x = false -> (forall y, In y l -> y <> x -> f y = g y) -> cnt f l = S (cnt g l).
Proof.
  intros ND Hx F G E. induction l as [|y l IH]; [destruct Hx|]. inversion ND as [|? ? N1 N2]; subst. cbn [filter]. destruct Hx as [->|Hx].
  - rewrite F, G. cbn [length]. f_equal. apply cnt_ext. intros z Hz. apply E; [now right|]. intros ->. contradiction.
  - assert (y <> x) by (intros ->; contradiction). rewrite (E y) by (assumption || now left). assert (E' : forall z, In z l -> z <> x -> f z = g z) by (intros; apply E; [now right|assumption]). destruct (g y); cbn [length]; now rewrite IH.
Qed.
Lemma cnt_in (l u : list nat) : NoDup l -> NoDup u -> (forall x, In x l -> In x u) -> cnt (fun x => existsb (Nat.eqb x) l) u = length l.
Proof.
  intros Nl Nu HI. apply Permutation_length. apply NoDup_Permutation; [now apply NoDup_filter|exact Nl|]. intros x. rewrite filter_In, existsb_exists. split.
  - intros (_ & y & Hy & E). apply Nat.eqb_eq in E. now subst.
  - intros Hx. split; [now apply HI|]. exists x. split; [exact Hx|apply Nat.eqb_refl].
Qed.
Lemma bit_flips l : forall D q, NoDup l -> bit (flips D l) q = xorb (bit D q) (existsb (Nat.eqb q) l).
Proof.
  induction l as [|p l IH]; intros D q ND; cbn [flips fold_left existsb]; [now rewrite xorb_false_r|]. inversion ND as [|? ? N1 N2]; subst. fold (flips (flip D p) l). rewrite IH by exact N2.
  rewrite bit_flip. rewrite (Nat.eqb_sym p q). destruct (Nat.eqb_spec q p) as [->|NE]; cbn [Datatypes.orb]; [|now rewrite xorb_false_r].
  replace (existsb (Nat.eqb p) l) with false; [now rewrite xorb_false_r|]. symmetry. apply not_true_iff_false. intros C. apply existsb_exists in C as (y & Hy & E). apply Nat.eqb_eq in E. now subst.
Qed.
Lemma flips_perm D l r : Permutation l r -> flips D l = flips D r.
Proof.
  intros P. apply bits_eq. intros q. revert D. induction P as [|x l r P IH|x y l|l r s P1 I1 P2 I2]; intros D; cbn [flips fold_left].
  - reflexivity.
  - apply IH.
  - f_equal. fold (flips (flip (flip D y) x) l) (flips (flip (flip D x) y) l). f_equal. apply bits_eq. intros z. rewrite !bit_flip. btauto.
  - now rewrite I1.
Qed.

Lemma nodup_app {A} (l r : list A) : NoDup l -> NoDup r -> (forall x, In x l -> ~ In x r) -> NoDup (l ++ r).
Proof.
  induction l as [|x l IH]; intros Hl Hr Hd; [exact Hr|]. inversion Hl as [|? ? N1 N2]; subst. cbn [app]. constructor.
  - rewrite in_app_iff. intros [H|H]; [contradiction|]. apply (Hd x); [now left|exact H].
  - apply IH; auto. intros y Hy. apply Hd. now right.
Qed.
Lemma exb l x : existsb (Nat.eqb x) l = true <-> In x l.
Proof. rewrite existsb_exists. split; [intros (y & Hy & E); apply Nat.eqb_eq in E; now subst|intros H; exists x; split; [exact H|apply Nat.eqb_refl]]. Qed.
Lemma exb_eq l r x y : (In x l <-> In y r) -> existsb (Nat.eqb x) l = existsb (Nat.eqb y) r.
Proof. intros H. destruct (existsb (Nat.eqb x) l) eqn:E, (existsb (Nat.eqb y) r) eqn:F; try reflexivity; [apply exb, H, exb in E|apply exb, H, exb in F]; congruence. Qed.
Lemma seq_shift' s l : seq s l = map (fun a => s + a) (seq 0 l).
Proof. revert s. induction l as [|l IH]; intros s; [reflexivity|]. cbn [seq map]. rewrite Nat.add_0_r. f_equal. rewrite (IH (S s)), (IH 1), map_map. apply map_ext. intros. lia. Qed.
Lemma electrons_split so m k D : electrons so (m + k) D = electrons so m D + cnt (fun a => bit D (so (m + a))) (seq 0 k).
Proof. unfold electrons. rewrite seq_app, cnt_app. f_equal. cbn [Nat.add]. now rewrite seq_shift', cnt_map. Qed.
Lemma electrons_empties so m D : electrons so m D + empties so m D = m.
Proof. unfold electrons, empties. rewrite cnt_neg. apply seq_length. Qed.

Section S.
Variables (d : dims) (n : nat).
Hypothesis En : noa d + nua d = n.
Hypothesis En' : nob d + nub d = n.
Notation ref := (reference (noa d) (nob d)).
(** Lists of holes and particles *)
Definition wf (Ha Pa Hb Pb : list nat) : Prop :=
  (NoDup Ha /\ forall i, In i Ha -> i < noa d) /\ (NoDup Pa /\ forall a, In a Pa -> a < nua d) /\ (NoDup Hb /\ forall i, In i Hb -> i < nob d) /\ (NoDup Pb /\ forall a, In a Pb -> a < nub d).
Definition lst (Ha Pa Hb Pb : list nat) : list nat := map oa Ha ++ map (va d) Pa ++ map ob Hb ++ map (vb d) Pb.
Lemma in_lst Ha Pa Hb Pb q : In q (lst Ha Pa Hb Pb) <-> (exists i, In i Ha /\ q = oa i) \/ (exists a, In a Pa /\ q = va d a) \/ (exists i, In i Hb /\ q = ob i) \/ (exists a, In a Pb /\ q = vb d a).
Proof.
  unfold lst. rewrite !in_app_iff, !in_map_iff. split.
  - intros [(x & <- & Hx)|[(x & <- & Hx)|[(x & <- & Hx)|(x & <- & Hx)]]]; eauto 7.
  - intros [(x & Hx & ->)|[(x & Hx & ->)|[(x & Hx & ->)|(x & Hx & ->)]]]; eauto 7.
Qed.
Lemma nodup_lst Ha Pa Hb Pb : wf Ha Pa Hb Pb -> NoDup (lst Ha Pa Hb Pb).
Proof.
  clear En En'. intros ((A1 & A2) & (B1 & B2) & (C1 & C2) & (D1 & D2)). unfold lst.
  apply nodup_app; [apply FinFun.Injective_map_NoDup; [intros x y; unfold oa, al; lia|assumption]| |].
  - apply nodup_app; [apply FinFun.Injective_map_NoDup; [intros x y; unfold va, al; lia|assumption]| |].
    + apply nodup_app; [apply FinFun.Injective_map_NoDup; [intros x y; unfold ob, be; lia|assumption]|apply FinFun.Injective_map_NoDup; [intros x y; unfold vb, be; lia|assumption]|].
      intros x Hx G. apply in_map_iff in Hx as (y & <- & Hy), G as (z & E & Hz). apply C2 in Hy. unfold ob, vb, be in E. lia.
    + intros x Hx G. rewrite in_app_iff in G. apply in_map_iff in Hx as (y & <- & Hy). destruct G as [G|G]; apply in_map_iff in G as (z & E & Hz); unfold va, ob, vb, al, be in E; lia.
  - intros x Hx G. rewrite !in_app_iff in G. apply in_map_iff in Hx as (y & <- & Hy). apply A2 in Hy. destruct G as [G|[G|G]]; apply in_map_iff in G as (z & E & Hz); unfold oa, va, ob, vb, al, be in E; lia.
Qed.
Lemma bit_Ha Ha Pa Hb Pb i : wf Ha Pa Hb Pb -> i < noa d -> bit (flips ref (lst Ha Pa Hb Pb)) (al i) = negb (existsb (Nat.eqb i) Ha).
Proof.
  clear En En'. intros W Hi. rewrite bit_flips by now apply nodup_lst. rewrite ref_al, (proj2 (Nat.ltb_lt i (noa d)) Hi). rewrite xorb_true_l. f_equal. apply exb_eq. rewrite in_lst. split.
  - intros [(x & Hx & E)|[(x & Hx & E)|[(x & Hx & E)|(x & Hx & E)]]]; unfold oa, ob, va, vb, al, be in E; try lia. now replace i with x by lia.
  - intros Hx. left. now exists i.
Qed.
Lemma bit_Pa Ha Pa Hb Pb a : wf Ha Pa Hb Pb -> bit (flips ref (lst Ha Pa Hb Pb)) (al (noa d + a)) = existsb (Nat.eqb a) Pa.
Proof.
  clear En En'. intros W. assert (W' := W). destruct W' as ((_ & A2) & _). rewrite bit_flips by now apply nodup_lst. rewrite ref_al, (proj2 (Nat.ltb_ge (noa d + a) (noa d))) by lia. rewrite xorb_false_l. apply exb_eq. rewrite in_lst. split.
  - intros [(x & Hx & E)|[(x & Hx & E)|[(x & Hx & E)|(x & Hx & E)]]]; unfold oa, ob, va, vb, al, be in E; try lia; [apply A2 in Hx; lia|]. now replace a with x by lia.
  - intros Hx. right; left. now exists a.
Qed.
Lemma bit_Hb Ha Pa Hb Pb i : wf Ha Pa Hb Pb -> i < nob d -> bit (flips ref (lst Ha Pa Hb Pb)) (be i) = negb (existsb (Nat.eqb i) Hb).
Proof.
  clear En En'. intros W Hi. rewrite bit_flips by now apply nodup_lst. rewrite ref_be, (proj2 (Nat.ltb_lt i (nob d)) Hi). rewrite xorb_true_l. f_equal. apply exb_eq. rewrite in_lst. split.
  - intros [(x & Hx & E)|[(x & Hx & E)|[(x & Hx & E)|(x & Hx & E)]]]; unfold oa, ob, va, vb, al, be in E; try lia. now replace i with x by lia.
  - intros Hx. right; right; left. now exists i.
Qed.
Lemma bit_Pb Ha Pa Hb Pb a : wf Ha Pa Hb Pb -> bit (flips ref (lst Ha Pa Hb Pb)) (be (nob d + a)) = existsb (Nat.eqb a) Pb.
Proof.
  clear En En'. intros W. assert (W' := W). destruct W' as (_ & _ & (_ & A2) & _). rewrite bit_flips by now apply nodup_lst. rewrite ref_be, (proj2 (Nat.ltb_ge (nob d + a) (nob d))) by lia. rewrite xorb_false_l. apply exb_eq. rewrite in_lst. split.
  - intros [(x & Hx & E)|[(x & Hx & E)|[(x & Hx & E)|(x & Hx & E)]]]; unfold oa, ob, va, vb, al, be in E; try lia; [apply A2 in Hx; lia|]. now replace a with x by lia.
  - intros Hx. right; right; right. now exists a.
Qed.
Lemma sector_of ma pa mb pb L Ha Pa Hb Pb : wf Ha Pa Hb Pb -> length Pa + ma = length Ha + pa -> length Pb + mb = length Hb + pb -> length Ha + length Hb <= L ->
  sector d n ma pa mb pb L (flips ref (lst Ha Pa Hb Pb)).
Proof.
  intros W C1 C2 C3. assert (W' := W). destruct W' as ((A1 & A2) & (B1 & B2) & (D1 & D2) & (F1 & F2)).
  assert (EA : empties al (noa d) (flips ref (lst Ha Pa Hb Pb)) = length Ha).
  { unfold empties. rewrite (cnt_ext _ (fun i => existsb (Nat.eqb i) Ha)).
    - apply cnt_in; [exact A1|apply seq_NoDup|]. intros x Hx. apply in_seq. apply A2 in Hx. lia.
    - intros i Hi. apply in_seq in Hi. change (negb (bit (flips ref (lst Ha Pa Hb Pb)) (al i)) = existsb (Nat.eqb i) Ha). rewrite bit_Ha by (assumption || lia). apply negb_involutive. }
  assert (EB : empties be (nob d) (flips ref (lst Ha Pa Hb Pb)) = length Hb).
  { unfold empties. rewrite (cnt_ext _ (fun i => existsb (Nat.eqb i) Hb)).
    - apply cnt_in; [exact D1|apply seq_NoDup|]. intros x Hx. apply in_seq. apply D2 in Hx. lia.
    - intros i Hi. apply in_seq in Hi. change (negb (bit (flips ref (lst Ha Pa Hb Pb)) (be i)) = existsb (Nat.eqb i) Hb). rewrite bit_Hb by (assumption || lia). apply negb_involutive. }
  assert (VA : cnt (fun a => bit (flips ref (lst Ha Pa Hb Pb)) (al (noa d + a))) (seq 0 (nua d)) = length Pa).
  { rewrite (cnt_ext _ (fun i => existsb (Nat.eqb i) Pa)).
    - apply cnt_in; [exact B1|apply seq_NoDup|]. intros x Hx. apply in_seq. apply B2 in Hx. lia.
    - intros i _. now rewrite bit_Pa. }
  assert (VB : cnt (fun a => bit (flips ref (lst Ha Pa Hb Pb)) (be (nob d + a))) (seq 0 (nub d)) = length Pb).
  { rewrite (cnt_ext _ (fun i => existsb (Nat.eqb i) Pb)).
    - apply cnt_in; [exact F1|apply seq_NoDup|]. intros x Hx. apply in_seq. apply F2 in Hx. lia.
    - intros i _. now rewrite bit_Pb. }
  assert (XA := electrons_empties al (noa d) (flips ref (lst Ha Pa Hb Pb))). assert (XB := electrons_empties be (nob d) (flips ref (lst Ha Pa Hb Pb))).
  split; [|split; [|split]].
  - intros q Hq. change (bit (flips ref (lst Ha Pa Hb Pb)) q = true) in Hq. rewrite bit_flips in Hq by now apply nodup_lst.
    destruct (existsb (Nat.eqb q) (lst Ha Pa Hb Pb)) eqn:X.
    + apply exb, in_lst in X as [(x & Hx & ->)|[(x & Hx & ->)|[(x & Hx & ->)|(x & Hx & ->)]]]; [apply A2 in Hx|apply B2 in Hx|apply D2 in Hx|apply F2 in Hx]; unfold oa, ob, va, vb, al, be; lia.
    + rewrite xorb_false_r in Hq. unfold reference in Hq. rewrite bit_occupied in Hq. apply exb in Hq. apply in_app_iff in Hq as [Hq|Hq]; apply in_map_iff in Hq as (x & <- & Hx); apply in_seq in Hx; unfold al, be; lia.
  - rewrite <- En, electrons_split, VA. lia.
  - rewrite <- En', electrons_split, VB. lia.
  - lia.
Qed.
Lemma sector_form ma pa mb pb L D : sector d n ma pa mb pb L D -> exists Ha Pa Hb Pb, wf Ha Pa Hb Pb /\ D = flips ref (lst Ha Pa Hb Pb) /\
  length Pa + ma = length Ha + pa /\ length Pb + mb = length Hb + pb /\ length Ha + length Hb <= L.
Proof.
  intros (C0 & C1 & C2 & C3).
  set (Ha := filter (fun i => negb (bit D (al i))) (seq 0 (noa d))). set (Hb := filter (fun i => negb (bit D (be i))) (seq 0 (nob d))).
  set (Pa := filter (fun a => bit D (al (noa d + a))) (seq 0 (nua d))). set (Pb := filter (fun a => bit D (be (nob d + a))) (seq 0 (nub d))).
  exists Ha, Pa, Hb, Pb.
  assert (W : wf Ha Pa Hb Pb).
  { unfold wf, Ha, Pa, Hb, Pb. repeat split; try (apply NoDup_filter, seq_NoDup); intros x Hx; apply filter_In in Hx as (Hx & _); apply in_seq in Hx; lia. }
  split; [exact W|]. split.
  - assert (FA : forall p, p < n -> bit D (al p) = bit (flips ref (lst Ha Pa Hb Pb)) (al p)).
    { intros p Hp. destruct (Nat.lt_ge_cases p (noa d)) as [Lt|Ge].
      - rewrite bit_Ha by assumption. destruct (bit D (al p)) eqn:B; symmetry.
        + apply negb_true_iff, not_true_iff_false. intros X. apply exb in X. apply filter_In in X as (_ & X). now rewrite B in X.
        + apply negb_false_iff. apply exb, filter_In. split; [apply in_seq; lia|now rewrite B].
      - replace p with (noa d + (p - noa d)) by lia. rewrite bit_Pa by assumption. destruct (bit D (al (noa d + (p - noa d)))) eqn:B; symmetry.
        + apply exb, filter_In. split; [apply in_seq; lia|exact B].
        + apply not_true_iff_false. intros X. apply exb in X. apply filter_In in X as (_ & X). now rewrite B in X. }
    assert (FB : forall p, p < n -> bit D (be p) = bit (flips ref (lst Ha Pa Hb Pb)) (be p)).
    { intros p Hp. destruct (Nat.lt_ge_cases p (nob d)) as [Lt|Ge].
      - rewrite bit_Hb by assumption. destruct (bit D (be p)) eqn:B; symmetry.
        + apply negb_true_iff, not_true_iff_false. intros X. apply exb in X. apply filter_In in X as (_ & X). now rewrite B in X.
        + apply negb_false_iff. apply exb, filter_In. split; [apply in_seq; lia|now rewrite B].
      - replace p with (nob d + (p - nob d)) by lia. rewrite bit_Pb by assumption. destruct (bit D (be (nob d + (p - nob d)))) eqn:B; symmetry.
        + apply exb, filter_In. split; [apply in_seq; lia|exact B].
        + apply not_true_iff_false. intros X. apply exb in X. apply filter_In in X as (_ & X). now rewrite B in X. }
    assert (S := sector_of (length Ha) (length Pa) (length Hb) (length Pb) (length Ha + length Hb) Ha Pa Hb Pb W ltac:(lia) ltac:(lia) ltac:(lia)). destruct S as (S0 & _).
    apply bits_eq. intros q. destruct (Nat.lt_ge_cases q (2 * n)) as [Lt|Ge].
    + assert (Eq := Nat.div_mod q 2 ltac:(lia)). assert (M := Nat.mod_upper_bound q 2 ltac:(lia)). destruct (q mod 2) as [|[|]] eqn:Z; [| |lia].
      * replace q with (al (q / 2)) by (unfold al; lia). apply FA. lia.
      * replace q with (be (q / 2)) by (unfold be; lia). apply FB. lia.
    + assert (G : forall F, confined n F -> bit F q = false) by (intros F HF; apply not_true_iff_false; intros X; apply HF in X; lia). now rewrite (G _ C0), (G _ S0).
  - assert (XA := electrons_empties al (noa d) D). assert (XB := electrons_empties be (nob d) D).
    assert (LA : length Ha = empties al (noa d) D) by reflexivity. assert (LB : length Hb = empties be (nob d) D) by reflexivity.
    rewrite <- En, electrons_split in C1. change (cnt (fun a => bit D (al (noa d + a))) (seq 0 (nua d))) with (length Pa) in C1.
    rewrite <- En', electrons_split in C2. change (cnt (fun a => bit D (be (nob d + a))) (seq 0 (nub d))) with (length Pb) in C2. lia.
Qed.
(** Vanishing on the sector *)
Lemma sector_flat ma pa mb pb L (W : state) : (forall D, sector d n ma pa mb pb L D -> W D = 0%R) <->
  (forall Ha Pa Hb Pb, wf Ha Pa Hb Pb -> length Pa + ma = length Ha + pa -> length Pb + mb = length Hb + pb -> length Ha + length Hb <= L -> W (flips ref (lst Ha Pa Hb Pb)) = 0%R).
Proof.
  split.
  - intros H Ha Pa Hb Pb HW C1 C2 C3. apply H. now apply sector_of.
  - intros H D HD. apply sector_form in HD as (Ha & Pa & Hb & Pb & HW & -> & C1 & C2 & C3). now apply H.
Qed.
(** De-excitation stays in the sector *)
Definition downward (P : N -> Prop) : Prop := forall (so : nat -> nat) k a i D, (so = al /\ k = noa d \/ so = be /\ k = nob d) -> k + a < n -> i < k -> P D -> bit D (so (k + a)) = true -> bit D (so i) = false ->
  P (on (off D (so (k + a))) (so i)).
Lemma sector_downward ma pa mb pb L : downward (sector d n ma pa mb pb L).
Proof.
  intros so k a i D HS Ha Hi (C0 & C1 & C2 & C3) B1 B2. set (D' := on (off D (so (k + a))) (so i)).
  assert (BB : forall q, bit D' q = (Nat.eqb (so i) q || bit D q && negb (Nat.eqb (so (k + a)) q))%bool) by (intros q; unfold D'; now rewrite bit_on, bit_off).
  assert (OTH : forall so' (f : nat -> nat), (forall p q, so p <> so' q) -> forall m, electrons so' m D' = electrons so' m D /\ empties so' m D' = empties so' m D).
  { intros so' _ NE m. unfold electrons, empties.
    assert (Q : forall p, N.testbit D' (N.of_nat (so' p)) = N.testbit D (N.of_nat (so' p))).
    { intros p. change (bit D' (so' p) = bit D (so' p)). rewrite BB, !eqb_neq by apply NE. cbn [negb]. now rewrite andb_true_r. }
    split; apply cnt_ext; intros p _; now rewrite Q. }
  assert (inj : forall p q, so p = so q -> p = q) by (destruct HS as [(-> & _)|(-> & _)]; unfold al, be; intros; lia).
  assert (SAME : electrons so n D' = electrons so n D /\ S (empties so k D') = empties so k D).
  { split.
    - unfold electrons.
      assert (E1 : cnt (fun p => N.testbit D (N.of_nat (so p))) (seq 0 n) = S (cnt (fun p => bit (off D (so (k + a))) (so p)) (seq 0 n))).
      { apply (cnt_one _ _ _ (k + a)); [apply seq_NoDup|apply in_seq; lia|exact B1|rewrite bit_off, Nat.eqb_refl; now rewrite andb_false_r|].
        intros y _ Hy. rewrite bit_off, eqb_neq by (intros X; apply inj in X; congruence). now rewrite andb_true_r. }
      assert (E2 : cnt (fun p => N.testbit D' (N.of_nat (so p))) (seq 0 n) = S (cnt (fun p => bit (off D (so (k + a))) (so p)) (seq 0 n))).
      { apply (cnt_one _ _ _ i); [apply seq_NoDup|apply in_seq; lia| | |].
        - change (bit D' (so i) = true). now rewrite BB, Nat.eqb_refl.
        - rewrite bit_off, B2. reflexivity.
        - intros y _ Hy. change (bit D' (so y) = bit (off D (so (k + a))) (so y)). unfold D'. rewrite bit_on, eqb_neq by (intros X; apply inj in X; congruence). reflexivity. }
      now rewrite E1, E2.
    - unfold empties. symmetry. apply (cnt_one _ _ _ i); [apply seq_NoDup|apply in_seq; lia| | |].
      + now change (negb (bit D (so i)) = true); rewrite B2.
      + change (negb (bit D' (so i)) = false). now rewrite BB, Nat.eqb_refl.
      + intros y Hl Hy. apply in_seq in Hl. change (negb (bit D (so y)) = negb (bit D' (so y))). rewrite BB. rewrite (eqb_neq (so i)) by (intros X; apply inj in X; congruence).
        rewrite (eqb_neq (so (k + a))) by (intros X; apply inj in X; lia). cbn [Datatypes.orb negb]. now rewrite andb_true_r. }
  assert (CC : confined n D').
  { intros q Hq. change (bit D' q = true) in Hq. rewrite BB in Hq. apply Bool.orb_prop in Hq as [Hq|Hq].
    - apply Nat.eqb_eq in Hq. subst q. destruct HS as [(-> & ->)|(-> & ->)]; unfold al, be; lia.
    - apply andb_prop in Hq as (Hq & _). now apply C0. }
  destruct SAME as (S1 & S2). destruct HS as [(-> & ->)|(-> & ->)].
  - destruct (OTH be (fun p => p) ltac:(intros p q; unfold al, be; lia) n) as (O1 & _). destruct (OTH be (fun p => p) ltac:(intros p q; unfold al, be; lia) (nob d)) as (_ & O2).
    split; [exact CC|]. rewrite S1, O1, O2. repeat split; try assumption. lia.
  - destruct (OTH al (fun p => p) ltac:(intros p q; unfold al, be; lia) n) as (O1 & _). destruct (OTH al (fun p => p) ltac:(intros p q; unfold al, be; lia) (noa d)) as (_ & O2).
    split; [exact CC|]. rewrite S1, O1, O2. repeat split; try assumption. lia.
Qed.
End S.
(** From strings to lists of holes and particles, for strings written out *)
Ltac cbcase := rewrite ?bit_flip, ?ref_al, ?ref_be, ?eqb_al, ?eqb_be, ?eqb_ab, ?eqb_ba, ?xorb_false_r in *; repeat match goal with
  | |- context [Nat.ltb ?a ?b] => destruct (Nat.ltb_spec a b)
  | |- context [Nat.eqb ?a ?b] => destruct (Nat.eqb_spec a b) end; cbn [xorb] in *; try reflexivity; try discriminate; try (exfalso; lia); try lia.
Ltac fitstr := let c := fresh "c" in let p := fresh "p" in let G := fresh "G" in intros c p G; cbn [In] in G;
  repeat (destruct G as [G|G]; [injection G as <- <-; unfold oa, ob, va, vb; cbcase|]); destruct G.
Ltac nodups H := cbn [map snd] in H; repeat (apply NoDup_cons_iff in H as [? H]); cbn [In] in *; unfold oa, ob, va, vb, al, be in *.
Ltac wfl := repeat apply conj; repeat first [apply NoDup_cons|apply NoDup_nil]; cbn [In]; try (let x := fresh in intros x; intuition (subst; lia)); intuition lia.
(* goal: str l W ref = 0, from the hypothesis H of sector_flat *)
Ltac down H A B C E := apply str_zero; [fitstr|]; let ND := fresh "ND" in intros ND; etransitivity; [|apply (H A B C E); [nodups ND; unfold wf; wfl|cbn [length]; lia|cbn [length]; lia|cbn [length]; lia]]; f_equal; unfold lst; cbn [map snd app]; feq.
Ltac bounds := repeat match goal with A : forall i : nat, ?x = i \/ @?P i -> i < ?k |- _ =>
  let X := fresh "X" in let Y := fresh "Y" in assert (X : x < k) by (apply A; now left); assert (Y : forall i, P i -> i < k) by (intros; apply A; now right); clear A; cbn beta in Y end.
(* goal: W (flips ref (lst ..)) = 0, from a string component *)
Ltac ups H := let E := fresh "E" in assert (E := H); bounds; rewrite str_zero in E by fitstr; cbn [map snd] in E; etransitivity; [|apply E]; [f_equal; unfold lst; cbn [map snd app]; feq|
  repeat match goal with W : wf _ _ _ _ _ |- _ => destruct W as ((? & ?) & (? & ?) & (? & ?) & (? & ?)) end; repeat match goal with X : NoDup (_ :: _) |- _ => apply NoDup_cons_iff in X as [? X] end;
  cbn [In] in *; cbn [map snd]; repeat apply NoDup_cons; try apply NoDup_nil; cbn [In]; unfold oa, ob, va, vb, al, be; intuition lia].
Section N.
Variables (d : dims) (n : nat).
Hypothesis En : noa d + nua d = n.
Hypothesis En' : nob d + nub d = n.
Notation ref := (reference (noa d) (nob d)).
Lemma near_count (W : state) : (forall D, near n ref D -> W D = 0%R) <-> (forall D, sector d n 0 0 0 0 2 D -> W D = 0%R).
Proof.
  rewrite (near_flat d n W En En'), (sector_flat d n En En'). unfold flat. split.
  - intros (Z0 & Za & Zb & Zaa & Zab & Zbb) Ha Pa Hb Pb HW C1 C2 C3. assert (HW' := HW). destruct HW' as ((_ & A1) & (_ & A2) & (_ & A3) & (_ & A4)).
    destruct Ha as [|i [|j [|? ?]]]; destruct Hb as [|k [|k' [|? ?]]]; cbn [length] in C3; try (exfalso; lia);
      destruct Pa as [|a [|b [|? ?]]]; cbn [length] in C1; try (exfalso; lia); destruct Pb as [|c [|e [|? ?]]]; cbn [length] in C2; try (exfalso; lia); cbn [In] in *.
    + exact Z0.
    + assert (Q := Zb c k ltac:(auto) ltac:(auto)). ups (Q : str [(true, ob k); (false, vb d c)] W ref = 0%R).
    + assert (Q := Zbb c e k k' ltac:(auto) ltac:(auto) ltac:(auto) ltac:(auto)). ups (Q : str [(true, ob k); (true, ob k'); (false, vb d e); (false, vb d c)] W ref = 0%R).
    + assert (Q := Za a i ltac:(auto) ltac:(auto)). ups (Q : str [(true, oa i); (false, va d a)] W ref = 0%R).
    + assert (Q := Zab a c i k ltac:(auto) ltac:(auto) ltac:(auto) ltac:(auto)). ups (Q : str [(true, oa i); (true, ob k); (false, vb d c); (false, va d a)] W ref = 0%R).
    + assert (Q := Zaa a b i j ltac:(auto) ltac:(auto) ltac:(auto) ltac:(auto)). ups (Q : str [(true, oa i); (true, oa j); (false, va d b); (false, va d a)] W ref = 0%R).
  - intros H. split; [apply (H [] [] [] []); [unfold wf; wfl|cbn [length]; lia|cbn [length]; lia|cbn [length]; lia]|]. split; [|split; [|split; [|split]]]; intros.
    + change (str [(true, oa i); (false, va d a)] W ref = 0%R). down H [i] [a] (@nil nat) (@nil nat).
    + change (str [(true, ob i); (false, vb d a)] W ref = 0%R). down H (@nil nat) (@nil nat) [i] [a].
    + change (str [(true, oa i); (true, oa j); (false, va d b); (false, va d a)] W ref = 0%R). down H [i; j] [a; b] (@nil nat) (@nil nat).
    + change (str [(true, oa i); (true, ob j); (false, vb d b); (false, va d a)] W ref = 0%R). down H [i] [a] [j] [b].
    + change (str [(true, ob i); (true, ob j); (false, vb d b); (false, vb d a)] W ref = 0%R). down H (@nil nat) (@nil nat) [i; j] [a; b].
Qed.
End N.
