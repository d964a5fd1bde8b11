(** Lemmas for the enumeration of triples outside the P space. *)
From Coq Require Import List Arith Bool ZArith Lia Permutation.
From Verif Require Import Base SortModel SortSpec SortProofs SortProps TableModel TableSpec TableProofs SymmetryProofs SelectModel QspaceModel QspaceSpec.
Import ListNotations.
Local Open Scope nat_scope.

Lemma in_upto : forall lo hi x, In x (upto lo hi) <-> lo <= x <= hi.
Proof. intros. unfold upto. rewrite in_seq. lia. Qed.
Lemma nest3_in : forall (f : list nat) (g : nat -> list nat) (h : nat -> list nat) t,
  In t (flat_map (fun i => flat_map (fun j => map (fun k => [i; j; k]) (h j)) (g i)) f) <->
  match t with [i; j; k] => In i f /\ In j (g i) /\ In k (h j) | _ => False end.
Proof.
  intros f g h t. rewrite in_flat_map. split.
  - intros (i & Hi & H). apply in_flat_map in H. destruct H as (j & Hj & H). apply in_map_iff in H. destruct H as (k & <- & Hk). auto.
  - destruct t as [|i [|j [|k [|? ?]]]]; try contradiction. intros (Hi & Hj & Hk). exists i. split; [exact Hi|]. apply in_flat_map. exists j.
    split; [exact Hj|]. apply in_map_iff. now exists k.
Qed.
Lemma nest3_nodup : forall (f : list nat) (g : nat -> list nat) (h : nat -> list nat),
  NoDup f -> (forall i, NoDup (g i)) -> (forall j, NoDup (h j)) ->
  NoDup (flat_map (fun i => flat_map (fun j => map (fun k => [i; j; k]) (h j)) (g i)) f).
Proof.
  intros f g h Nf Ng Nh. apply NoDup_flat_map; [exact Nf| |].
  - intros i _. apply NoDup_flat_map; [apply Ng| |].
    + intros j _. apply FinFun.Injective_map_NoDup; [intros x y E; congruence|apply Nh].
    + intros j j' z _ _ Hz Hz'. apply in_map_iff in Hz. apply in_map_iff in Hz'. destruct Hz as (? & <- & _), Hz' as (? & E & _). congruence.
  - intros i i' z _ _ Hz Hz'. apply in_flat_map in Hz. apply in_flat_map in Hz'. destruct Hz as (? & _ & Hz), Hz' as (? & _ & Hz').
    apply in_map_iff in Hz. apply in_map_iff in Hz'. destruct Hz as (? & <- & _), Hz' as (? & E & _). congruence.
Qed.
Lemma seq_nodup_upto : forall lo hi, NoDup (upto lo hi).
Proof. intros. apply seq_NoDup. Qed.

Lemma map_inj : forall x y : list nat, map Z.of_nat x = map Z.of_nat y -> x = y.
Proof.
  induction x as [|a x IH]; intros [|b y] E; cbn [map] in E; try discriminate; [reflexivity|].
  injection E as E1 E2. apply Nat2Z.inj in E1. f_equal; auto.
Qed.

Section Q.
Variables noa nua nob nub : nat.
Lemma occ_in : forall s t, In t (occ_loops noa nob s) <-> three_of s noa nob t.
Proof.
  intros s t. destruct s; cbn [occ_loops]; rewrite nest3_in; unfold three_of; destruct t as [|i [|j [|k [|? ?]]]]; try reflexivity; rewrite !in_upto; lia.
Qed.
Lemma vir_in : forall s t, In t (vir_loops nua nub s) <-> three_of s nua nub t.
Proof.
  intros s t. destruct s; cbn [vir_loops]; rewrite nest3_in; unfold three_of; destruct t as [|i [|j [|k [|? ?]]]]; try reflexivity; rewrite !in_upto; lia.
Qed.
Lemma occ_nodup : forall s, NoDup (occ_loops noa nob s).
Proof. intros []; cbn [occ_loops]; apply nest3_nodup; intros; apply seq_nodup_upto. Qed.
Lemma vir_nodup : forall s, NoDup (vir_loops nua nub s).
Proof. intros []; cbn [vir_loops]; apply nest3_nodup; intros; apply seq_nodup_upto. Qed.
Lemma three_len : forall s na nb t, three_of s na nb t -> length t = 3.
Proof. intros s na nb t H. destruct t as [|i [|j [|k [|? ?]]]]; try contradiction. reflexivity. Qed.

Definition shift (s : spincase) (ijk : row) : row := match s, ijk with abb, [i; j; k] => [j; k; i] | _, _ => ijk end.
Lemma table_numbers : forall s, exists P K, numbering P (occ_table noa nob s) K /\ forall ijk, three_of s noa nob ijk -> P (map Z.of_nat (shift s ijk)).
Proof.
  assert (Z1 : (0 <= Z.of_nat noa)%Z) by lia. assert (Z2 : (0 <= Z.of_nat nob)%Z) by lia.
  intros []; cbn [occ_table].
  - eexists; eexists; split; [exact (C20_ordered_triples (Z.of_nat noa) Z1)|].
    intros [|i [|j [|k [|? ?]]]] H; try contradiction. cbn [shift map three_of] in *. eexists; eexists; eexists; split; [reflexivity|lia].
  - eexists; eexists; split; [exact (C20_pair_then_free (Z.of_nat nob) (Z.of_nat noa) Z2 Z1)|].
    intros [|i [|j [|k [|? ?]]]] H; try contradiction. cbn [shift map three_of] in *. eexists; eexists; eexists; split; [reflexivity|lia].
  - eexists; eexists; split; [exact (C20_pair_then_free (Z.of_nat noa) (Z.of_nat nob) Z1 Z2)|].
    intros [|i [|j [|k [|? ?]]]] H; try contradiction. cbn [shift map three_of] in *. eexists; eexists; eexists; split; [reflexivity|lia].
  - eexists; eexists; split; [exact (C20_ordered_triples (Z.of_nat nob) Z2)|].
    intros [|i [|j [|k [|? ?]]]] H; try contradiction. cbn [shift map three_of] in *. eexists; eexists; eexists; split; [reflexivity|lia].
Qed.
Lemma occ_index_inj : forall s x y, three_of s noa nob x -> occ_index noa nob s x <> 0 /\ (three_of s noa nob y -> occ_index noa nob s x = occ_index noa nob s y -> x = y).
Proof.
  intros s x y Hx. destruct (table_numbers s) as (P & K & (N1 & N2 & N3 & _) & Q). 
  assert (U : forall z, occ_index noa nob s z = occ_table noa nob s (map Z.of_nat (shift s z))) by reflexivity. rewrite !U. split.
  - pose proof (N2 _ (Q _ Hx)) as B. intros C. rewrite C in B. lia.
  - intros Hy E. apply N3 in E; [|now apply Q|now apply Q].
    assert (S : shift s x = shift s y).
    { exact (map_inj _ _ E). }
    destruct x as [|i [|j [|k [|? ?]]]]; try contradiction. destruct y as [|i' [|j' [|k' [|? ?]]]]; try contradiction.
    destruct s; cbn [shift] in S; congruence.
Qed.
Lemma split3 : forall (abc ijk : row), length abc = 3 -> firstn 3 (abc ++ ijk) = abc /\ skipn 3 (abc ++ ijk) = ijk.
Proof. intros abc ijk H. destruct abc as [|a [|b [|c [|? ?]]]]; try discriminate. split; reflexivity. Qed.
Lemma in_blocked : forall s rows ijk abc, 2 <= length rows -> (forall t, In t rows -> excitation_of noa nua nob nub s t) ->
  three_of s noa nob ijk -> (In abc (blocked noa nob s rows ijk) <-> In (abc ++ ijk) rows /\ length abc = 3).
Proof.
  intros s rows ijk abc L V H. unfold blocked. destruct (Nat.eqb_spec (occ_index noa nob s ijk) 0) as [Z|_].
  { exfalso. exact (proj1 (occ_index_inj s ijk ijk H) Z). }
  destruct (C20_sort3_blocks _ [] (row_key noa nob s) rows L) as (_ & B). specialize (B (occ_index noa nob s ijk)). rewrite in_map_iff.
  split.
  - intros (t & <- & Ht). apply (Permutation_in _ (Permutation_sym B)) in Ht. apply filter_In in Ht. destruct Ht as (Ht & E). apply Nat.eqb_eq in E.
    destruct (V t Ht) as (abc' & ijk' & -> & V1 & V2). destruct (split3 abc' ijk' (three_len _ _ _ _ V1)) as (F & K). rewrite F.
    unfold row_key in E. rewrite K in E. apply (proj2 (occ_index_inj s ijk' ijk V2) H) in E. subst ijk'. split; [exact Ht|exact (three_len _ _ _ _ V1)].
  - intros (Ht & La). destruct (split3 abc ijk La) as (F & K). exists (abc ++ ijk). split; [exact F|]. apply (Permutation_in _ B). apply filter_In.
    split; [exact Ht|]. apply Nat.eqb_eq. unfold row_key. now rewrite K.
Qed.
Lemma in_candidates : forall s rows t, In t (candidates noa nua nob nub s rows) <->
  exists abc ijk, t = abc ++ ijk /\ three_of s nua nub abc /\ three_of s noa nob ijk /\ ~ In abc (blocked noa nob s rows ijk).
Proof.
  intros s rows t. unfold candidates. rewrite in_flat_map. split.
  - intros (ijk & Hi & H). apply in_flat_map in H. destruct H as (abc & Ha & H).
    destruct (existsb _ _) eqn:E in H; [destruct H|]. destruct H as [<-|[]]. exists abc, ijk. rewrite <- occ_in, <- vir_in.
    repeat split; auto. intros C. assert (existsb (fun x => if row_eq_dec x abc then true else false) (blocked noa nob s rows ijk) = true) by
      (apply existsb_exists; exists abc; split; [exact C|]; now destruct (row_eq_dec abc abc)). congruence.
  - intros (abc & ijk & -> & Ha & Hi & N). exists ijk. split; [now apply occ_in|]. apply in_flat_map. exists abc. split; [now apply vir_in|].
    destruct (existsb _ _) eqn:E; [|now left]. exfalso. apply existsb_exists in E. destruct E as (x & Hx & E). destruct (row_eq_dec x abc); [subst x; auto|discriminate].
Qed.
Lemma candidates_nodup : forall s rows, NoDup (candidates noa nua nob nub s rows).
Proof.
  intros s rows. unfold candidates. assert (G : forall ijk z, In ijk (occ_loops noa nob s) ->
    In z (flat_map (fun abc => if existsb (fun x => if row_eq_dec x abc then true else false) (blocked noa nob s rows ijk) then [] else [abc ++ ijk]) (vir_loops nua nub s)) ->
    exists abc, length abc = 3 /\ z = abc ++ ijk).
  { intros ijk z Hi H. apply in_flat_map in H. destruct H as (abc & Ha & H). destruct (existsb _ _) in H; [destruct H|]. destruct H as [<-|[]].
    exists abc. split; [|reflexivity]. apply vir_in in Ha. exact (three_len _ _ _ _ Ha). }
  apply NoDup_flat_map; [apply occ_nodup| |].
  - intros ijk Hi. apply NoDup_flat_map; [apply vir_nodup| |].
    + intros abc _. destruct (existsb _ _); repeat constructor. intros [].
    + intros a b z Ha Hb Hz Hz'. destruct (existsb _ _) in Hz; [destruct Hz|]. destruct (existsb _ _) in Hz'; [destruct Hz'|].
      destruct Hz as [<-|[]], Hz' as [E|[]]. apply vir_in in Ha. apply vir_in in Hb.
      destruct (split3 a ijk (three_len _ _ _ _ Ha)) as (E1 & _). destruct (split3 b ijk (three_len _ _ _ _ Hb)) as (E2 & _). now rewrite <- E1, <- E2, E.
  - intros i j z Hi Hj Hz Hz'. destruct (G i z Hi Hz) as (a & La & E1). destruct (G j z Hj Hz') as (b & Lb & E2). subst z.
    destruct (split3 a i La) as (_ & F1). destruct (split3 b j Lb) as (_ & F2). now rewrite <- F1, <- F2, E2.
Qed.
End Q.
