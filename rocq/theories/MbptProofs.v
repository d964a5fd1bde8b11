(** MP2 and MP3: proofs. *)
From Coq Require Import Reals Arith NArith List Bool Lra Lia FunctionalExtensionality.
From Verif Require Import RSum IntegralsModel TensorObjs TensorAlg TensorDeriv TensorSpec LoopModel LoopProofs CcsdModel CcsdReify CcsdUpdate CcsdProps EomModel EomProps EomsdtProps
  FockSpec FockCcSpec FockSectorSpec CrccSpec CrccLoop Cc2Spec Cc2Proofs MbptModel MbptSpec.
Import ListNotations.
Open Scope R_scope.

(** * Loops as sums *)
Lemma acc_sum {A} (l : list A) f : forall s, acc l f s = s + slist f l.
Proof. unfold acc. induction l as [|q l IH]; intros s; cbn [fold_left slist]; [ring|]. rewrite IH. ring. Qed.
Lemma slist_do2 n1 n2 (f : nat * nat -> R) : slist f (do2 n1 n2) = sumn n1 (fun p => sumn n2 (fun q => f (p, q))).
Proof. unfold do2. rewrite slist_flat, slist_seq. apply sumn_ext; intros p _. now rewrite slist_map, slist_seq. Qed.
Lemma slist_lt n (f : nat * nat -> R) : slist f (do2_lt n) = sum_lt2 n (fun p q => f (p, q)).
Proof. unfold do2_lt, sum_lt2. rewrite slist_flat, slist_seq. apply sumn_ext; intros p _. now rewrite slist_map, slist_from. Qed.
Lemma slist_do4 l1 l2 (f : nat * nat * nat * nat -> R) : slist f (do4 l1 l2) = slist (fun x => slist (fun y => f (fst x, snd x, fst y, snd y)) l2) l1.
Proof. unfold do4. rewrite slist_flat. apply slist_ext; intros x. now rewrite slist_map. Qed.
(** Half of the full sum, for a symmetric summand that vanishes on the diagonal *)
Lemma lt2_half n f : (forall p q, f p q = f q p) -> (forall p, f p p = 0) -> sum_lt2 n f = / 2 * sumn n (fun p => sumn n (fun q => f p q)).
Proof.
  intros S Z. assert (A : sumn n (fun p => sumn n (fun q => f p q)) = sum_lt2 n f + sumn n (fun p => sumn n (fun q => if Nat.ltb q p then f p q else 0))).
  { unfold sum_lt2. rewrite <- sumn_plus. apply sumn_ext; intros p _. rewrite <- sumn_plus. apply sumn_ext; intros q _.
    destruct (Nat.ltb_spec p q), (Nat.ltb_spec q p); try lia; try ring. replace q with p by lia. rewrite Z. ring. }
  assert (B : sumn n (fun p => sumn n (fun q => if Nat.ltb q p then f p q else 0)) = sum_lt2 n f).
  { rewrite sumn_swap. unfold sum_lt2. apply sumn_ext; intros p _. apply sumn_ext; intros q _. now rewrite (S q p). }
  rewrite A, B. lra.
Qed.
Lemma do2_in n1 n2 p q : In (p, q) (do2 n1 n2) <-> (p < n1 /\ q < n2)%nat.
Proof.
  unfold do2. rewrite in_flat_map. setoid_rewrite in_map_iff. setoid_rewrite in_seq. split.
  - intros (x & Hx & y & E & Hy). injection E as -> ->. lia.
  - intros G. exists p. split; [lia|]. exists q. split; [reflexivity|lia].
Qed.
Lemma do2_lt_in n p q : In (p, q) (do2_lt n) <-> (p < q /\ q < n)%nat.
Proof.
  unfold do2_lt. rewrite in_flat_map. setoid_rewrite in_map_iff. setoid_rewrite in_seq. split.
  - intros (x & Hx & y & E & Hy). injection E as -> ->. lia.
  - intros G. exists p. split; [lia|]. exists q. split; [reflexivity|lia].
Qed.
Lemma do2_nodup n1 n2 : NoDup (do2 n1 n2).
Proof.
  apply NoDup_flat_map; [apply seq_NoDup| |].
  - intros x _. apply NoDup_map2; [intros ? ? E; now injection E|apply seq_NoDup].
  - intros x y z _ _ Hx Hy. apply in_map_iff in Hx as (? & <- & _). apply in_map_iff in Hy as (? & E & _). now injection E.
Qed.
Lemma do2_lt_nodup n : NoDup (do2_lt n).
Proof.
  apply NoDup_flat_map; [apply seq_NoDup| |].
  - intros x _. apply NoDup_map2; [intros ? ? E; now injection E|apply seq_NoDup].
  - intros x y z _ _ Hx Hy. apply in_map_iff in Hx as (? & <- & _). apply in_map_iff in Hy as (? & E & _). now injection E.
Qed.
Lemma do4_in l1 l2 a b i j : In (a, b, i, j) (do4 l1 l2) <-> In (a, b) l1 /\ In (i, j) l2.
Proof.
  unfold do4. rewrite in_flat_map. setoid_rewrite in_map_iff. split.
  - intros ([p q] & Hx & [r s] & E & Hy). cbn in E. injection E as -> -> -> ->. auto.
  - intros [G K]. exists (a, b). split; [exact G|]. exists (i, j). auto.
Qed.
Lemma do4_nodup l1 l2 : NoDup l1 -> NoDup l2 -> NoDup (do4 l1 l2).
Proof.
  intros N1 N2. apply NoDup_flat_map; [exact N1| |].
  - intros x _. apply NoDup_map2; [|exact N2]. intros [] [] E. cbn in E. now injection E as -> ->.
  - intros [] [] z _ _ Hx Hy. apply in_map_iff in Hx as (? & <- & _). apply in_map_iff in Hy as (? & E & _). cbn in E. congruence.
Qed.

(** * The first-order arrays *)
Lemma t2b_val d H a b i j : (a < nua d)%nat -> (b < nub d)%nat -> (i < noa d)%nat -> (j < nob d)%nat ->
  mp3_t2b d H a b i j = i_ab_vvoo H a b i j / (i_a_oo H i i + i_b_oo H j j - i_a_vv H a a - i_b_vv H b b).
Proof.
  intros. unfold mp3_t2b.
  refine (fold_visit (fun t : mat4 => t a b i j) _ _ (a, b, i, j) (fun _ => _) _ _ _ _ _).
  - intros [[[p q] r] s] _ Hne t. cbv beta iota zeta. apply wr4_other. congruence.
  - intros t. cbv beta iota zeta. apply wr4_same.
  - apply do4_nodup; apply do2_nodup.
  - apply do4_in. rewrite !do2_in. auto.
Qed.
Lemma body_at v fo fv t p q r s a b i j : (p < q)%nat -> (r < s)%nat ->
  mp3_t2_body v fo fv t (p, q, r, s) a b i j =
  if (Nat.eqb (min a b) p && Nat.eqb (max a b) q && Nat.eqb (min i j) r && Nat.eqb (max i j) s)%bool
  then sgn (Bool.eqb (Nat.ltb a b) (Nat.ltb i j)) * (v p q r s / (fo r r + fo s s - fv p p - fv q q)) else t a b i j.
Proof.
  intros Hp Hr. unfold mp3_t2_body. cbv beta iota zeta.
  destruct (Nat.eqb_spec (min a b) p) as [A|A], (Nat.eqb_spec (max a b) q) as [B|B], (Nat.eqb_spec (min i j) r) as [C|C], (Nat.eqb_spec (max i j) s) as [D|D]; cbn [andb];
    try (rewrite !wr4_other by (intros E; injection E; lia); reflexivity).
  assert (X : (a = p /\ b = q) \/ (a = q /\ b = p)) by lia. assert (Y : (i = r /\ j = s) \/ (i = s /\ j = r)) by lia.
  destruct X as [[-> ->]|[-> ->]], Y as [[-> ->]|[-> ->]]; wr;
    repeat match goal with |- context [Nat.ltb ?x ?y] => first [replace (Nat.ltb x y) with true by (symmetry; apply Nat.ltb_lt; lia)|replace (Nat.ltb x y) with false by (symmetry; apply Nat.ltb_ge; lia)] end; cbn [Bool.eqb sgn]; ring.
Qed.
Definition srt (no nu : nat) (v : mat4) (fo fv : mat2) (a b i j : nat) : R :=
  let p := min a b in let q := max a b in let r := min i j in let s := max i j in
  if (Nat.ltb p q && Nat.ltb q nu && Nat.ltb r s && Nat.ltb s no)%bool
  then sgn (Bool.eqb (Nat.ltb a b) (Nat.ltb i j)) * (v p q r s / (fo r r + fo s s - fv p p - fv q q)) else 0.
Lemma t2_srt no nu v fo fv a b i j : mp3_t2 no nu v fo fv a b i j = srt no nu v fo fv a b i j.
Proof.
  unfold mp3_t2, srt. cbv zeta. set (p := min a b). set (q := max a b). set (r := min i j). set (s := max i j).
  destruct (Nat.ltb p q && Nat.ltb q nu && Nat.ltb r s && Nat.ltb s no)%bool eqn:C.
  - apply andb_prop in C as [C C4]. apply andb_prop in C as [C C3]. apply andb_prop in C as [C1 C2]. apply Nat.ltb_lt in C1, C2, C3, C4.
    refine (fold_visit (fun t : mat4 => t a b i j) _ _ (p, q, r, s) (fun _ => _) _ _ _ _ _).
    + intros [[[p' q'] r'] s'] Hin Hne t. apply do4_in in Hin. rewrite !do2_lt_in in Hin. rewrite body_at by lia.
      destruct (Nat.eqb_spec (min a b) p') as [A|], (Nat.eqb_spec (max a b) q') as [B|], (Nat.eqb_spec (min i j) r') as [D|], (Nat.eqb_spec (max i j) s') as [E|]; cbn [andb]; try reflexivity.
      exfalso. apply Hne. subst p q r s. congruence.
    + intros t. rewrite body_at by assumption. subst p q r s. rewrite !Nat.eqb_refl. reflexivity.
    + apply do4_nodup; apply do2_lt_nodup.
    + apply do4_in. rewrite !do2_lt_in. auto.
  - rewrite (fold_untouched (fun t : mat4 => t a b i j)); [reflexivity|]. intros [[[p' q'] r'] s'] Hin t. apply do4_in in Hin. rewrite !do2_lt_in in Hin. rewrite body_at by lia.
    destruct (Nat.eqb_spec (min a b) p') as [A|], (Nat.eqb_spec (max a b) q') as [B|], (Nat.eqb_spec (min i j) r') as [D|], (Nat.eqb_spec (max i j) s') as [E|]; cbn [andb]; try reflexivity.
    exfalso. subst p q r s. rewrite A, B, D, E in C. rewrite !(proj2 (Nat.ltb_lt _ _)) in C by lia. discriminate C.
Qed.
Ltac ltbs := repeat match goal with |- context [Nat.ltb ?x ?y] => first [replace (Nat.ltb x y) with true by (symmetry; apply Nat.ltb_lt; lia)|replace (Nat.ltb x y) with false by (symmetry; apply Nat.ltb_ge; lia)] end.
Lemma srt_swap1 no nu v fo fv a b i j : srt no nu v fo fv a b i j = - srt no nu v fo fv b a i j.
Proof.
  unfold srt. cbv zeta. rewrite (Nat.min_comm b a), (Nat.max_comm b a). destruct (Nat.ltb (min a b) (max a b)) eqn:C; cbn [andb]; [|ring].
  destruct (Nat.ltb (max a b) nu && Nat.ltb (min i j) (max i j) && Nat.ltb (max i j) no)%bool eqn:D; rewrite ?D; cbn [andb]; [|ring].
  apply Nat.ltb_lt in C. destruct (Nat.ltb_spec a b), (Nat.ltb_spec b a), (Nat.ltb i j); try lia; cbn [Bool.eqb sgn]; ring.
Qed.
Lemma srt_swap2 no nu v fo fv a b i j : srt no nu v fo fv a b i j = - srt no nu v fo fv a b j i.
Proof.
  unfold srt. cbv zeta. rewrite (Nat.min_comm j i), (Nat.max_comm j i). destruct (Nat.ltb (min a b) (max a b)) eqn:C0; cbn [andb]; [|ring].
  destruct (Nat.ltb (max a b) nu) eqn:C1; cbn [andb]; [|ring]. destruct (Nat.ltb (min i j) (max i j)) eqn:C; cbn [andb]; [|ring]. destruct (Nat.ltb (max i j) no); cbn [andb]; [|ring].
  apply Nat.ltb_lt in C. destruct (Nat.ltb_spec i j), (Nat.ltb_spec j i), (Nat.ltb a b); try lia; cbn [Bool.eqb sgn]; ring.
Qed.
Lemma srt_val no nu v fo fv a b i j : (forall a b i j, v a b i j = - v b a i j) -> (forall a b i j, v a b i j = - v a b j i) -> (a < nu)%nat -> (b < nu)%nat -> (i < no)%nat -> (j < no)%nat ->
  srt no nu v fo fv a b i j = v a b i j / (fo i i + fo j j - fv a a - fv b b).
Proof.
  intros V1 V2 Ha Hb Hi Hj. unfold srt. cbv zeta. unfold Rdiv.
  destruct (lt_eq_lt_dec a b) as [[L|L]|L].
  - rewrite (Nat.min_l a b), (Nat.max_r a b) by lia. destruct (lt_eq_lt_dec i j) as [[M|M]|M].
    + rewrite (Nat.min_l i j), (Nat.max_r i j) by lia. ltbs. cbn [andb Bool.eqb sgn]. ring.
    + subst j. rewrite Nat.min_id, Nat.max_id. ltbs. cbn [andb]. assert (Z := V2 a b i i). replace (v a b i i) with 0 by lra. ring.
    + rewrite (Nat.min_r i j), (Nat.max_l i j) by lia. ltbs. cbn [andb Bool.eqb sgn]. rewrite (V2 a b i j). replace (fo j j + fo i i - fv a a - fv b b) with (fo i i + fo j j - fv a a - fv b b) by ring. ring.
  - subst b. rewrite Nat.min_id, Nat.max_id. ltbs. cbn [andb]. assert (Z := V1 a a i j). replace (v a a i j) with 0 by lra. ring.
  - rewrite (Nat.min_r a b), (Nat.max_l a b) by lia. destruct (lt_eq_lt_dec i j) as [[M|M]|M].
    + rewrite (Nat.min_l i j), (Nat.max_r i j) by lia. ltbs. cbn [andb Bool.eqb sgn]. rewrite (V1 a b i j). replace (fo i i + fo j j - fv b b - fv a a) with (fo i i + fo j j - fv a a - fv b b) by ring. ring.
    + subst j. rewrite Nat.min_id, Nat.max_id. ltbs. cbn [andb]. assert (Z := V2 a b i i). replace (v a b i i) with 0 by lra. ring.
    + rewrite (Nat.min_r i j), (Nat.max_l i j) by lia. ltbs. cbn [andb Bool.eqb sgn]. rewrite (V1 a b i j), (V2 b a i j). replace (fo j j + fo i i - fv b b - fv a a) with (fo i i + fo j j - fv a a - fv b b) by ring. ring.
Qed.
Lemma mp3_t_anti d H : antisym_amps (mp3_t d H).
Proof.
  constructor; intros; unfold mp3_t; cbn [x_aa x_bb]; rewrite !t2_srt; first [apply srt_swap1|apply srt_swap2].
Qed.
