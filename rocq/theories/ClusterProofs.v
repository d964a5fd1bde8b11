(** Assembly: the loop nests and signed copies, block by block. *)
From Coq Require Import Reals List Arith Bool Lra Lia.
From Verif Require Import TensorObjs PspaceModel PspaceSpec PspaceProofs ScatterModel ScatterSpec ScatterProofs.
From Verif Require Import ClusterModel ClusterSpec ClusterAlg ClusterForm ClusterLog.
Import ListNotations.
Open Scope R_scope.

(** ** What a loop nest of this shape enumerates *)
Lemma in_range0 : forall x lo n, In x (PspaceModel.range lo n) <-> (lo <= x < n)%nat.
Proof. intros. unfold PspaceModel.range. rewrite in_seq. lia. Qed.
Ltac nest_open H :=
  cbn [nest app nth] in H;
  repeat (apply in_flat_map in H as (? & ?Hin & H); cbn [nest app nth] in H);
  destruct H as [<-|[]];
  repeat match goal with K : In _ (PspaceModel.range _ _) |- _ => apply in_range0 in K end.
Ltac nest_close := cbn [nest app nth];
  repeat (apply in_flat_map; eexists; split; [apply in_range0; split; cycle 1; [eassumption|try lia]|cbn [nest app nth]]);
  left; reflexivity.

Lemma in_rows_aa : forall n m r, In r (nest [] [(None, n); (Some 0, n); (None, m); (Some 2, m)]%nat) <->
  exists a b i j, r = [a; b; i; j] /\ (a < b < n)%nat /\ (i < j < m)%nat.
Proof.
  intros n m r. split.
  - intros H. nest_open H. do 4 eexists. split; [reflexivity|lia].
  - intros (a & b & i & j & -> & H1 & H2). cbn [nest app nth].
    apply in_flat_map; exists a; split; [apply in_range0; lia|cbn [nest app nth]].
    apply in_flat_map; exists b; split; [apply in_range0; lia|cbn [nest app nth]].
    apply in_flat_map; exists i; split; [apply in_range0; lia|cbn [nest app nth]].
    apply in_flat_map; exists j; split; [apply in_range0; lia|cbn [nest app nth]].
    now left.
Qed.
Lemma in_rows_ab : forall n n' m m' r, In r (nest [] [(None, n); (None, n'); (None, m); (None, m')]) <->
  exists a b i j, r = [a; b; i; j] /\ (a < n /\ b < n' /\ i < m /\ j < m')%nat.
Proof.
  intros n n' m m' r. split.
  - intros H. nest_open H. do 4 eexists. split; [reflexivity|lia].
  - intros (a & b & i & j & -> & H1). cbn [nest app nth].
    apply in_flat_map; exists a; split; [apply in_range0; lia|cbn [nest app nth]].
    apply in_flat_map; exists b; split; [apply in_range0; lia|cbn [nest app nth]].
    apply in_flat_map; exists i; split; [apply in_range0; lia|cbn [nest app nth]].
    apply in_flat_map; exists j; split; [apply in_range0; lia|cbn [nest app nth]].
    now left.
Qed.
Ltac rows6 := intros; split;
  [ let H := fresh in intros H; nest_open H; do 6 eexists; split; [reflexivity|lia]
  | intros (a & b & c & i & j & k & -> & H1); cbn [nest app nth];
    apply in_flat_map; exists a; split; [apply in_range0; lia|cbn [nest app nth]];
    apply in_flat_map; exists b; split; [apply in_range0; lia|cbn [nest app nth]];
    apply in_flat_map; exists c; split; [apply in_range0; lia|cbn [nest app nth]];
    apply in_flat_map; exists i; split; [apply in_range0; lia|cbn [nest app nth]];
    apply in_flat_map; exists j; split; [apply in_range0; lia|cbn [nest app nth]];
    apply in_flat_map; exists k; split; [apply in_range0; lia|cbn [nest app nth]]; now left].
Lemma in_rows_aaa : forall n m r, In r (nest [] [(None, n); (Some 0, n); (Some 1, n); (None, m); (Some 3, m); (Some 4, m)]%nat) <->
  exists a b c i j k, r = [a; b; c; i; j; k] /\ (a < b /\ b < c /\ c < n /\ i < j /\ j < k /\ k < m)%nat.
Proof. rows6. Qed.
Lemma in_rows_aab : forall n n' m m' r, In r (nest [] [(None, n); (Some 0, n); (None, n'); (None, m); (Some 3, m); (None, m')]%nat) <->
  exists a b c i j k, r = [a; b; c; i; j; k] /\ (a < b /\ b < n /\ c < n' /\ i < j /\ j < m /\ k < m')%nat.
Proof. rows6. Qed.
Lemma in_rows_abb : forall n n' m m' r, In r (nest [] [(None, n); (None, n'); (Some 1, n'); (None, m); (None, m'); (Some 4, m')]%nat) <->
  exists a b c i j k, r = [a; b; c; i; j; k] /\ (a < n /\ b < c /\ c < n' /\ i < m /\ j < k /\ k < m')%nat.
Proof. rows6. Qed.

(** ** From the writes to the whole array *)
Definition g_aa : list (list nat) := [[0; 1]; [2; 3]]%nat.

(** A statement about arrays that is invariant under exchange of equivalent indices, and true when two of them coincide,
    need only be checked on ordered indices. *)
Ltac sw P_swap g p q := apply (P_swap _ g p q); [reflexivity|cbn; tauto|cbn; tauto|cbn; tauto|discriminate|].
Lemma extend_aa : forall (P : list nat -> Prop),
  (forall l g p q, length l = 4%nat -> In g g_aa -> In p g -> In q g -> p <> q -> P (swap p q l) -> P l) ->
  (forall l g p q, length l = 4%nat -> In g g_aa -> In p g -> In q g -> p <> q -> nth p l 0%nat = nth q l 0%nat -> P l) ->
  (forall a b i j, (a < b)%nat -> (i < j)%nat -> P [a; b; i; j]) -> forall a b i j, P [a; b; i; j].
Proof.
  intros P HS HR HO.
  assert (H1 : forall a b i j, (a < b)%nat -> P [a; b; i; j]).
  { intros a b i j L. destruct (Nat.lt_trichotomy i j) as [K|[K|K]]; [now apply HO| |].
    - apply (HR _ [2; 3]%nat 2%nat 3%nat); cbn; auto.
    - sw HS [2; 3]%nat 2%nat 3%nat. now apply HO. }
  intros a b i j. destruct (Nat.lt_trichotomy a b) as [K|[K|K]]; [now apply H1| |].
  - apply (HR _ [0; 1]%nat 0%nat 1%nat); cbn; auto.
  - sw HS [0; 1]%nat 0%nat 1%nat. now apply H1.
Qed.
Lemma extend_aab : forall (P : list nat -> Prop),
  (forall l g p q, length l = 6%nat -> In g g_aab -> In p g -> In q g -> p <> q -> P (swap p q l) -> P l) ->
  (forall l g p q, length l = 6%nat -> In g g_aab -> In p g -> In q g -> p <> q -> nth p l 0%nat = nth q l 0%nat -> P l) ->
  (forall a b c i j k, (a < b)%nat -> (i < j)%nat -> P [a; b; c; i; j; k]) -> forall a b c i j k, P [a; b; c; i; j; k].
Proof.
  intros P HS HR HO.
  assert (H1 : forall a b c i j k, (a < b)%nat -> P [a; b; c; i; j; k]).
  { intros a b c i j k L. destruct (Nat.lt_trichotomy i j) as [K|[K|K]]; [now apply HO| |].
    - apply (HR _ [3; 4]%nat 3%nat 4%nat); cbn; auto.
    - sw HS [3; 4]%nat 3%nat 4%nat. now apply HO. }
  intros a b c i j k. destruct (Nat.lt_trichotomy a b) as [K|[K|K]]; [now apply H1| |].
  - apply (HR _ [0; 1]%nat 0%nat 1%nat); cbn; auto.
  - sw HS [0; 1]%nat 0%nat 1%nat. now apply H1.
Qed.
Lemma extend_abb : forall (P : list nat -> Prop),
  (forall l g p q, length l = 6%nat -> In g g_abb -> In p g -> In q g -> p <> q -> P (swap p q l) -> P l) ->
  (forall l g p q, length l = 6%nat -> In g g_abb -> In p g -> In q g -> p <> q -> nth p l 0%nat = nth q l 0%nat -> P l) ->
  (forall a b c i j k, (b < c)%nat -> (j < k)%nat -> P [a; b; c; i; j; k]) -> forall a b c i j k, P [a; b; c; i; j; k].
Proof.
  intros P HS HR HO.
  assert (H1 : forall a b c i j k, (b < c)%nat -> P [a; b; c; i; j; k]).
  { intros a b c i j k L. destruct (Nat.lt_trichotomy j k) as [K|[K|K]]; [now apply HO| |].
    - apply (HR _ [4; 5]%nat 4%nat 5%nat); cbn; auto.
    - sw HS [4; 5]%nat 4%nat 5%nat. now apply HO. }
  intros a b c i j k. destruct (Nat.lt_trichotomy b c) as [K|[K|K]]; [now apply H1| |].
  - apply (HR _ [1; 2]%nat 1%nat 2%nat); cbn; auto.
  - sw HS [1; 2]%nat 1%nat 2%nat. now apply H1.
Qed.
Lemma extend_aaa : forall (P : list nat -> Prop),
  (forall l g p q, length l = 6%nat -> In g g_aaa -> In p g -> In q g -> p <> q -> P (swap p q l) -> P l) ->
  (forall l g p q, length l = 6%nat -> In g g_aaa -> In p g -> In q g -> p <> q -> nth p l 0%nat = nth q l 0%nat -> P l) ->
  (forall a b c i j k, (a < b)%nat -> (b < c)%nat -> (i < j)%nat -> (j < k)%nat -> P [a; b; c; i; j; k]) -> forall a b c i j k, P [a; b; c; i; j; k].
Proof.
  intros P HS HR HO.
  assert (H1 : forall a b c i j k, (a < b)%nat -> (b < c)%nat -> (i < j)%nat -> P [a; b; c; i; j; k]).
  { intros a b c i j k L1 L2 L.
    destruct (Nat.lt_trichotomy j k) as [K|[K|K]]; [now apply HO| |].
    - apply (HR _ [3; 4; 5]%nat 4%nat 5%nat); cbn; auto.
    - sw HS [3; 4; 5]%nat 4%nat 5%nat. change (P [a; b; c; i; k; j]).
      destruct (Nat.lt_trichotomy i k) as [K'|[K'|K']]; [now apply HO| |].
      + apply (HR _ [3; 4; 5]%nat 3%nat 4%nat); cbn; auto.
      + sw HS [3; 4; 5]%nat 3%nat 4%nat. now apply HO. }
  assert (H2 : forall a b c i j k, (a < b)%nat -> (b < c)%nat -> P [a; b; c; i; j; k]).
  { intros a b c i j k L1 L2. destruct (Nat.lt_trichotomy i j) as [K|[K|K]]; [now apply H1| |].
    - apply (HR _ [3; 4; 5]%nat 3%nat 4%nat); cbn; auto.
    - sw HS [3; 4; 5]%nat 3%nat 4%nat. now apply H1. }
  assert (H3 : forall a b c i j k, (a < b)%nat -> P [a; b; c; i; j; k]).
  { intros a b c i j k L.
    destruct (Nat.lt_trichotomy b c) as [K|[K|K]]; [now apply H2| |].
    - apply (HR _ [0; 1; 2]%nat 1%nat 2%nat); cbn; auto.
    - sw HS [0; 1; 2]%nat 1%nat 2%nat. change (P [a; c; b; i; j; k]).
      destruct (Nat.lt_trichotomy a c) as [K'|[K'|K']]; [now apply H2| |].
      + apply (HR _ [0; 1; 2]%nat 0%nat 1%nat); cbn; auto.
      + sw HS [0; 1; 2]%nat 0%nat 1%nat. now apply H2. }
  intros a b c i j k. destruct (Nat.lt_trichotomy a b) as [K|[K|K]]; [now apply H3| |].
  - apply (HR _ [0; 1; 2]%nat 0%nat 1%nat); cbn; auto.
  - sw HS [0; 1; 2]%nat 0%nat 1%nat. now apply H3.
Qed.

Section Arrays.
Variable rank : nat.
Variable groups : list (list nat).
Variable shape : list nat.
Hypothesis swap_inb : forall l g p q, length l = rank -> In g groups -> In p g -> In q g -> p <> q ->
  in_bounds shape (swap p q l) = in_bounds shape l.
Hypothesis swap_rep : forall l g p q, length l = rank -> In g groups -> In p g -> In q g -> p <> q ->
  nth p l 0%nat = nth q l 0%nat -> swap p q l = l.
Definition anti_in (Y : tensor) : Prop := forall l g p q, length l = rank -> In g groups -> In p g -> In q g -> p <> q ->
  in_bounds shape l = true -> Y (swap p q l) = - Y l.
Variables X Y : tensor.
Hypothesis HX : antisymmetric rank groups X.
Hypothesis HY : anti_in Y.
Lemma eq_swap : forall l g p q, length l = rank -> In g groups -> In p g -> In q g -> p <> q ->
  (in_bounds shape (swap p q l) = true -> X (swap p q l) = Y (swap p q l)) -> (in_bounds shape l = true -> X l = Y l).
Proof.
  intros l g p q L Hg Hp Hq N H B. rewrite (HX l g), (HY l g) in H by assumption. rewrite (swap_inb l g) in H by assumption.
  specialize (H B). lra.
Qed.
Lemma eq_rep : forall l g p q, length l = rank -> In g groups -> In p g -> In q g -> p <> q -> nth p l 0%nat = nth q l 0%nat ->
  (in_bounds shape l = true -> X l = Y l).
Proof.
  intros l g p q L Hg Hp Hq N E B. pose proof (HX l g p q L Hg Hp Hq N) as E1. pose proof (HY l g p q L Hg Hp Hq N B) as E2.
  rewrite (swap_rep l g) in E1, E2 by assumption. lra.
Qed.
End Arrays.

Ltac pickc H := repeat (destruct H as [<-|H]); [..|destruct H].
Ltac solve_inb := intros l g p q Ll Hg Hp Hq N; pick Hg; pick Hp; pick Hq; try (exfalso; apply N; reflexivity);
  (open_len l Ll); cbv [swap map seq length nth Nat.eqb in_bounds]; 
  repeat match goal with |- context [(?x <? ?y)%nat] => destruct (x <? y)%nat end; reflexivity.
Ltac solve_rep := intros l g p q Ll Hg Hp Hq N; pick Hg; pick Hp; pick Hq; try (exfalso; apply N; reflexivity);
  (open_len l Ll); cbv [swap map seq length nth Nat.eqb]; intros E; rewrite ?E; reflexivity.
Lemma inb_aa : forall n m, let shape := [n; n; m; m] in forall l g p q, length l = 4%nat -> In g g_aa -> In p g -> In q g -> p <> q ->
  in_bounds shape (swap p q l) = in_bounds shape l.
Proof. intros n m shape. unfold shape. solve_inb. Qed.
Lemma inb_aaa : forall n m, let shape := [n; n; n; m; m; m] in forall l g p q, length l = 6%nat -> In g g_aaa -> In p g -> In q g -> p <> q ->
  in_bounds shape (swap p q l) = in_bounds shape l.
Proof. intros n m shape. unfold shape. solve_inb. Qed.
Lemma inb_aab : forall n n' m m', let shape := [n; n; n'; m; m; m'] in forall l g p q, length l = 6%nat -> In g g_aab -> In p g -> In q g -> p <> q ->
  in_bounds shape (swap p q l) = in_bounds shape l.
Proof. intros n n' m m' shape. unfold shape. solve_inb. Qed.
Lemma inb_abb : forall n n' m m', let shape := [n; n'; n'; m; m'; m'] in forall l g p q, length l = 6%nat -> In g g_abb -> In p g -> In q g -> p <> q ->
  in_bounds shape (swap p q l) = in_bounds shape l.
Proof. intros n n' m m' shape. unfold shape. solve_inb. Qed.
Lemma rep_aa : forall l g p q, length l = 4%nat -> In g g_aa -> In p g -> In q g -> p <> q -> nth p l 0%nat = nth q l 0%nat -> swap p q l = l.
Proof. solve_rep. Qed.
Lemma rep_aaa : forall l g p q, length l = 6%nat -> In g g_aaa -> In p g -> In q g -> p <> q -> nth p l 0%nat = nth q l 0%nat -> swap p q l = l.
Proof. solve_rep. Qed.
Lemma rep_aab : forall l g p q, length l = 6%nat -> In g g_aab -> In p g -> In q g -> p <> q -> nth p l 0%nat = nth q l 0%nat -> swap p q l = l.
Proof. solve_rep. Qed.
Lemma rep_abb : forall l g p q, length l = 6%nat -> In g g_abb -> In p g -> In q g -> p <> q -> nth p l 0%nat = nth q l 0%nat -> swap p q l = l.
Proof. solve_rep. Qed.

(** Blocks of an antisymmetric operator are antisymmetric arrays. *)
Section Blocks.
Variable O : oper.
Hypothesis HO : antisymmetric_op O.
Lemma p01 : forall x y Q H, O (x :: y :: Q) H = - O (y :: x :: Q) H. Proof. intros. apply (op_particles O HO [] x y Q H). Qed.
Lemma p12 : forall z x y Q H, O (z :: x :: y :: Q) H = - O (z :: y :: x :: Q) H. Proof. intros. apply (op_particles O HO [z] x y Q H). Qed.
Lemma h01 : forall x y P Q, O P (x :: y :: Q) = - O P (y :: x :: Q). Proof. intros. apply (op_holes O HO P [] x y Q). Qed.
Lemma h12 : forall z x y P Q, O P (z :: x :: y :: Q) = - O P (z :: y :: x :: Q). Proof. intros. apply (op_holes O HO P [z] x y Q). Qed.
Lemma p02 : forall x y z Q H, O (x :: y :: z :: Q) H = - O (z :: y :: x :: Q) H.
Proof. intros. rewrite (p01 x y), (p12 y x z), (p01 y z). lra. Qed.
Lemma h02 : forall x y z P Q, O P (x :: y :: z :: Q) = - O P (z :: y :: x :: Q).
Proof. intros. rewrite (h01 x y), (h12 y x z), (h01 y z). lra. Qed.
Ltac solve_blk := intros l g p q Ll Hg Hp Hq N; pick Hg; pick Hp; pick Hq; try (exfalso; apply N; reflexivity);
  (open_len l Ll); cbv [swap map seq length nth Nat.eqb block combine firstn skipn aaa aab abb bbb aa bb];
  first [apply p01|apply p12|apply p02|apply h01|apply h12|apply h02].
Lemma blk_aa : antisymmetric 4 g_aa (block aa O). Proof. solve_blk. Qed.
Lemma blk_bb : antisymmetric 4 g_aa (block bb O). Proof. solve_blk. Qed.
Lemma blk_aaa : antisymmetric 6 g_aaa (block aaa O). Proof. solve_blk. Qed.
Lemma blk_bbb : antisymmetric 6 g_aaa (block bbb O). Proof. solve_blk. Qed.
Lemma blk_aab : antisymmetric 6 g_aab (block aab O). Proof. solve_blk. Qed.
Lemma blk_abb : antisymmetric 6 g_abb (block abb O). Proof. solve_blk. Qed.
End Blocks.

(** ** The signed copies of one row *)
Definition osys (d : dims) : orbsys := mkOrb (noa d) (nob d) (nua d) (nub d) 0 0 0 0 (fun _ => 0%N) 0%N.
Open Scope nat_scope.
Definition canon_aa (l : list nat) := match l with [a; b; i; j] => sort2 a b ++ sort2 i j | _ => l end.
Definition inv_aa (l : list nat) := match l with [a; b; i; j] => xorb (inv2 a b) (inv2 i j) | _ => false end.
Ltac solve_inv' f := intros ? l s0 HG HI; open_row HG; order_rules; cbv beta iota delta [wc_aa wc_bb wc_aaa wc_bbb] in HI;
  each HI; cbv beta iota delta [f inv3 inv2]; use_rules; reflexivity.
Ltac solve_canon' f := intros ? l s0 HG HI; open_row HG; order_rules; cbv beta iota delta [wc_aa wc_bb wc_aaa wc_bbb] in HI;
  each HI; cbv beta iota delta [f sort3 sort2]; use_rules; reflexivity.
Ltac solve_bounds' f := intros ? l s0 HG HI; open_row HG; order_rules; cbv beta iota delta [wc_aa wc_bb wc_aaa wc_bbb] in HI;
  each HI; cbv beta iota delta [f]; cbn [in_bounds nu_a no_a nu_b no_b osys] in *; use_rules; reflexivity.
Lemma un_aa : forall d rs amps, length amps = length rs -> (forall r, In r rs -> Grow (osys d) aa aa r) -> NoDup rs ->
  exists X, scatter (sh_aa d) wc_aa (map (map S) rs) amps (Some zero_tensor) = Some X /\
    unfolds 4 g_aa (fun r => r) (map (map S) rs) amps X.
Proof.
  intros d. apply (generic_unfolds (sh_aa d) wc_aa 4 g_aa (Grow (osys d) aa aa) (fun r => r) canon_aa inv_aa).
  - solve_id.
  - solve_inv' inv_aa.
  - solve_canon' canon_aa.
  - intros r l s0 gg p q HG. apply Grow_len in HG. revert l s0 gg p q.
    intros l s0 gg p q. apply (closed_swap 4 g_aa wc_aa [0; 1; 2; 3]); [natural|reflexivity|exact HG].
  - solve_bounds' sh_aa.
  - intros r r' HG HG'. tauto.
  - intros l Ll O. open_len l Ll. solve_fix2 canon_aa [0; 1]. solve_fix2 canon_aa [2; 3]. end_fix canon_aa.
  - solve_ss.
Qed.
Lemma un_bb : forall d rs amps, length amps = length rs -> (forall r, In r rs -> Grow (osys d) bb bb r) -> NoDup rs ->
  exists X, scatter (sh_bb d) wc_bb (map (map S) rs) amps (Some zero_tensor) = Some X /\
    unfolds 4 g_aa (fun r => r) (map (map S) rs) amps X.
Proof.
  intros d. apply (generic_unfolds (sh_bb d) wc_bb 4 g_aa (Grow (osys d) bb bb) (fun r => r) canon_aa inv_aa).
  - solve_id.
  - solve_inv' inv_aa.
  - solve_canon' canon_aa.
  - intros r l s0 gg p q HG. apply Grow_len in HG. revert l s0 gg p q.
    intros l s0 gg p q. apply (closed_swap 4 g_aa wc_bb [0; 1; 2; 3]); [natural|reflexivity|exact HG].
  - solve_bounds' sh_bb.
  - intros r r' HG HG'. tauto.
  - intros l Ll O. open_len l Ll. solve_fix2 canon_aa [0; 1]. solve_fix2 canon_aa [2; 3]. end_fix canon_aa.
  - solve_ss.
Qed.
Lemma un_aaa : forall d rs amps, length amps = length rs -> (forall r, In r rs -> Grow (osys d) aaa aaa r) -> NoDup rs ->
  exists X, scatter (sh_aaa d) wc_aaa (map (map S) rs) amps (Some zero_tensor) = Some X /\
    unfolds 6 g_aaa (fun r => r) (map (map S) rs) amps X.
Proof.
  intros d. apply (generic_unfolds (sh_aaa d) wc_aaa 6 g_aaa (Grow (osys d) aaa aaa) (fun r => r) canon_aaa inv_aaa).
  - solve_id.
  - solve_inv' inv_aaa.
  - solve_canon' canon_aaa.
  - intros r l s0 gg p q HG. apply Grow_len in HG. revert l s0 gg p q.
    intros l s0 gg p q. apply (closed_swap 6 g_aaa wc_aaa [0; 1; 2; 3; 4; 5]); [natural|reflexivity|exact HG].
  - solve_bounds' sh_aaa.
  - intros r r' HG HG'. tauto.
  - intros l Ll O. open_len l Ll. solve_fix3 canon_aaa [0; 1; 2]. solve_fix3 canon_aaa [3; 4; 5]. end_fix canon_aaa.
  - solve_ss.
Qed.
Lemma un_bbb : forall d rs amps, length amps = length rs -> (forall r, In r rs -> Grow (osys d) bbb bbb r) -> NoDup rs ->
  exists X, scatter (sh_bbb d) wc_bbb (map (map S) rs) amps (Some zero_tensor) = Some X /\
    unfolds 6 g_aaa (fun r => r) (map (map S) rs) amps X.
Proof.
  intros d. apply (generic_unfolds (sh_bbb d) wc_bbb 6 g_aaa (Grow (osys d) bbb bbb) (fun r => r) canon_aaa inv_aaa).
  - solve_id.
  - solve_inv' inv_aaa.
  - solve_canon' canon_aaa.
  - intros r l s0 gg p q HG. apply Grow_len in HG. revert l s0 gg p q.
    intros l s0 gg p q. apply (closed_swap 6 g_aaa wc_bbb [0; 1; 2; 3; 4; 5]); [natural|reflexivity|exact HG].
  - solve_bounds' sh_bbb.
  - intros r r' HG HG'. tauto.
  - intros l Ll O. open_len l Ll. solve_fix3 canon_aaa [0; 1; 2]. solve_fix3 canon_aaa [3; 4; 5]. end_fix canon_aaa.
  - solve_ss.
Qed.
Lemma un_aab : forall d rs amps, length amps = length rs -> (forall r, In r rs -> Grow (osys d) aab aab r) -> NoDup rs ->
  exists X, scatter (sh_aab d) wc_aab (map (map S) rs) amps (Some zero_tensor) = Some X /\
    unfolds 6 g_aab (fun r => r) (map (map S) rs) amps X.
Proof. intros d. exact (unfold_aab (osys d)). Qed.
Lemma un_abb : forall d rs amps, length amps = length rs -> (forall r, In r rs -> Grow (osys d) abb abb r) -> NoDup rs ->
  exists X, scatter (sh_abb d) wc_abb (map (map S) rs) amps (Some zero_tensor) = Some X /\
    unfolds 6 g_abb (fun r => r) (map (map S) rs) amps X.
Proof. intros d. exact (unfold_abb (osys d)). Qed.
Open Scope R_scope.

(** ** Block by block *)
Lemma when_keep : forall c t, when_nonzero c t = if Req_EM_T c 0 then 0 else t.
Proof.
  intros c t. unfold when_nonzero. destruct (Req_EM_T c 0) as [->|N], (Rlt_dec 0 _) as [L|L]; try reflexivity.
  - rewrite Rabs_R0 in L. lra.
  - exfalso. apply L. now apply Rabs_pos_lt.
Qed.
Lemma unf_val : forall rank groups rs value X, unfolds rank groups (fun r => r) (map (map S) rs) (map value rs) X ->
  forall l, In l rs -> X l = value l.
Proof.
  intros rank groups rs value X (_ & H & _) l Hl. apply In_nth with (d := []) in Hl as (n & Hn & <-).
  specialize (H n). rewrite map_length in H. specialize (H Hn).
  rewrite nth_indep with (d' := map S []) in H by (rewrite map_length; exact Hn). rewrite map_nth in H.
  rewrite map_map in H. cbn in H. rewrite map_id in H. rewrite H.
  rewrite nth_indep with (d' := value []) by (rewrite map_length; exact Hn). apply map_nth.
Qed.
Lemma keep_anti : forall rank groups shape c t, anti_in rank groups shape c -> antisymmetric rank groups t ->
  anti_in rank groups shape (where_nonzero c t).
Proof.
  intros rank groups shape c t Hc Ht l g p q L Hg Hp Hq N B. unfold where_nonzero. rewrite (Hc l g), (Ht l g) by assumption.
  destruct (Req_EM_T (- c l) 0), (Req_EM_T (c l) 0); lra.
Qed.
Lemma agree_anti : forall rank groups shape c b, 
  (forall l g p q, length l = rank -> In g groups -> In p g -> In q g -> p <> q -> in_bounds shape (swap p q l) = in_bounds shape l) ->
  agree shape c b -> antisymmetric rank groups b -> anti_in rank groups shape c.
Proof.
  intros rank groups shape c b I A B l g p q L Hg Hp Hq N Bd. rewrite (A l Bd), A by (rewrite (I l g); assumption).
  now apply (B l g).
Qed.
Lemma inb_len : forall sh l, in_bounds sh l = true -> length l = length sh.
Proof. induction sh as [|n sh IH]; destruct l as [|x l]; cbn; intros H; try discriminate; [reflexivity|]. apply andb_true_iff in H as (_ & H). now rewrite (IH l H). Qed.
Ltac inb H := repeat (cbn [in_bounds] in H; apply andb_true_iff in H as (?Hb & H)); repeat match goal with K : (_ <? _)%nat = true |- _ => apply Nat.ltb_lt in K end.
Ltac mkin := cbn [in_bounds]; repeat (apply andb_true_iff; split); try reflexivity; apply Nat.ltb_lt; try assumption; try lia.

Section Main.
Variable d : dims.
Variable T : oper.
Hypothesis HT : cluster_op T.
Variable C : ci3.
Hypothesis HC : ci_of d (cexp T) C.
Lemma ea : antisymmetric_op (cexp T). Proof. apply cexp_anti. apply HT. Qed.
Ltac get H := intros; apply H; mkin.
Lemma G_a : forall a i, (a < nua d)%nat -> (i < noa d)%nat -> c_a C [a; i] = cexp T [Sa a] [Sa i]. Proof. get (of_a _ _ _ HC). Qed.
Lemma G_b : forall a i, (a < nub d)%nat -> (i < nob d)%nat -> c_b C [a; i] = cexp T [Sb a] [Sb i]. Proof. get (of_b _ _ _ HC). Qed.
Lemma G_aa : forall a b i j, (a < nua d)%nat -> (b < nua d)%nat -> (i < noa d)%nat -> (j < noa d)%nat -> c_aa C [a; b; i; j] = cexp T [Sa a; Sa b] [Sa i; Sa j].
Proof. get (of_aa _ _ _ HC). Qed.
Lemma G_ab : forall a b i j, (a < nua d)%nat -> (b < nub d)%nat -> (i < noa d)%nat -> (j < nob d)%nat -> c_ab C [a; b; i; j] = cexp T [Sa a; Sb b] [Sa i; Sb j].
Proof. get (of_ab _ _ _ HC). Qed.
Lemma G_bb : forall a b i j, (a < nub d)%nat -> (b < nub d)%nat -> (i < nob d)%nat -> (j < nob d)%nat -> c_bb C [a; b; i; j] = cexp T [Sb a; Sb b] [Sb i; Sb j].
Proof. get (of_bb _ _ _ HC). Qed.
Lemma G_aaa : forall a b c i j k, (a < nua d)%nat -> (b < nua d)%nat -> (c < nua d)%nat -> (i < noa d)%nat -> (j < noa d)%nat -> (k < noa d)%nat ->
  c_aaa C [a; b; c; i; j; k] = cexp T [Sa a; Sa b; Sa c] [Sa i; Sa j; Sa k]. Proof. get (of_aaa _ _ _ HC). Qed.
Lemma G_aab : forall a b c i j k, (a < nua d)%nat -> (b < nua d)%nat -> (c < nub d)%nat -> (i < noa d)%nat -> (j < noa d)%nat -> (k < nob d)%nat ->
  c_aab C [a; b; c; i; j; k] = cexp T [Sa a; Sa b; Sb c] [Sa i; Sa j; Sb k]. Proof. get (of_aab _ _ _ HC). Qed.
Lemma G_abb : forall a b c i j k, (a < nua d)%nat -> (b < nub d)%nat -> (c < nub d)%nat -> (i < noa d)%nat -> (j < nob d)%nat -> (k < nob d)%nat ->
  c_abb C [a; b; c; i; j; k] = cexp T [Sa a; Sb b; Sb c] [Sa i; Sb j; Sb k]. Proof. get (of_abb _ _ _ HC). Qed.
Lemma G_bbb : forall a b c i j k, (a < nub d)%nat -> (b < nub d)%nat -> (c < nub d)%nat -> (i < nob d)%nat -> (j < nob d)%nat -> (k < nob d)%nat ->
  c_bbb C [a; b; c; i; j; k] = cexp T [Sb a; Sb b; Sb c] [Sb i; Sb j; Sb k]. Proof. get (of_bbb _ _ _ HC). Qed.

Lemma ord2 : forall size x a b, (a < b)%nat -> (b < size x)%nat -> ordered0 size [x; x] [a; b].
Proof.
  intros size x a b H1 H2. split; [reflexivity|split].
  - intros [|[|p]] Hp; cbn in *; lia.
  - intros [|[|p]] [|[|q]] Hp; cbn in *; intros; lia.
Qed.
Lemma ord3 : forall size x a b c, (a < b)%nat -> (b < c)%nat -> (c < size x)%nat -> ordered0 size [x; x; x] [a; b; c].
Proof.
  intros size x a b c H1 H2 H3. split; [reflexivity|split].
  - intros [|[|[|p]]] Hp; cbn in *; lia.
  - intros [|[|[|p]]] [|[|[|q]]] Hp; cbn in *; intros; lia.
Qed.
Lemma ord21 : forall size a b c, (a < b)%nat -> (b < size Alpha)%nat -> (c < size Beta)%nat -> ordered0 size aab [a; b; c].
Proof.
  intros size a b c H1 H2 H3. split; [reflexivity|split].
  - intros [|[|[|p]]] Hp; cbn in *; lia.
  - intros [|[|[|p]]] [|[|[|q]]] Hp; cbn in *; intros; try discriminate; lia.
Qed.
Lemma ord12 : forall size a b c, (a < size Alpha)%nat -> (b < c)%nat -> (c < size Beta)%nat -> ordered0 size abb [a; b; c].
Proof.
  intros size a b c H1 H2 H3. split; [reflexivity|split].
  - intros [|[|[|p]]] Hp; cbn in *; lia.
  - intros [|[|[|p]]] [|[|[|q]]] Hp; cbn in *; intros; try discriminate; lia.
Qed.
Ltac grow_tac := split; [reflexivity|split]; first [apply ord2|apply ord3|apply ord21|apply ord12]; cbn; lia.

Lemma res_aa : exists X, t2_aa d C = Some X /\ agree (sh_aa d) X (where_nonzero (c_aa C) (block aa T)).
Proof.
  unfold t2_aa, analyse_block.
  match goal with |- context [nest [] ?L] => set (rows := nest [] L) end.
  destruct (un_aa d rows (map (val2 (c_aa C) (f_aa C)) rows)) as (X & E & U).
  - now rewrite map_length.
  - intros r Hr. apply in_rows_aa in Hr as (a & b & i & j & -> & Hr). exists [a; b], [i; j]. cbn [nunocc nocc osys nu_a nu_b no_a no_b]. grow_tac.
  - apply nest_NoDup.
  - exists X. split; [exact E|].
    assert (V : forall a b i j, In [a; b; i; j] rows -> in_bounds (sh_aa d) [a; b; i; j] = true -> X [a; b; i; j] = where_nonzero (c_aa C) (block aa T) [a; b; i; j]).
    { intros a b i j Hr Hb. rewrite (unf_val _ _ _ _ _ U _ Hr). unfold val2, where_nonzero. rewrite when_keep.
      unfold sh_aa in Hb. inb Hb. rewrite (form_aa d T HT C G_a G_aa) by assumption. reflexivity. }
    assert (AY : anti_in 4 g_aa (sh_aa d) (where_nonzero (c_aa C) (block aa T))).
    { apply keep_anti; [|apply blk_aa, HT]. apply (agree_anti _ _ _ _ (block aa (cexp T))); [apply inb_aa|apply HC|apply blk_aa, ea]. }
    intros l Hl. pose proof (inb_len _ _ Hl) as Ll. cbn [length sh_aa] in Ll.
    assert (K : forall a b i j, in_bounds (sh_aa d) [a; b; i; j] = true -> X [a; b; i; j] = where_nonzero (c_aa C) (block aa T) [a; b; i; j]).
    { apply (extend_aa (fun l => in_bounds (sh_aa d) l = true -> X l = where_nonzero (c_aa C) (block aa T) l)).
      - apply eq_swap; [apply inb_aa|apply U|exact AY].
      - apply eq_rep; [apply rep_aa|apply U|exact AY].
      - intros a b i j O0 O1 Hb. apply V; [|exact Hb]. unfold sh_aa in Hb. inb Hb. apply in_rows_aa. exists a, b, i, j. split; [reflexivity|lia]. }
    destruct l as [|a [|b [|i [|j [|]]]]]; try discriminate Ll. now apply K.
Qed.

Lemma res_bb : exists X, t2_bb d C = Some X /\ agree (sh_bb d) X (where_nonzero (c_bb C) (block bb T)).
Proof.
  unfold t2_bb, analyse_block.
  match goal with |- context [nest [] ?L] => set (rows := nest [] L) end.
  destruct (un_bb d rows (map (val2 (c_bb C) (f_bb C)) rows)) as (X & E & U).
  - now rewrite map_length.
  - intros r Hr. apply in_rows_aa in Hr as (a & b & i & j & -> & Hr). exists [a; b], [i; j]. cbn [nunocc nocc osys nu_a nu_b no_a no_b]. grow_tac.
  - apply nest_NoDup.
  - exists X. split; [exact E|].
    assert (V : forall a b i j, In [a; b; i; j] rows -> in_bounds (sh_bb d) [a; b; i; j] = true -> X [a; b; i; j] = where_nonzero (c_bb C) (block bb T) [a; b; i; j]).
    { intros a b i j Hr Hb. rewrite (unf_val _ _ _ _ _ U _ Hr). unfold val2, where_nonzero. rewrite when_keep.
      unfold sh_bb in Hb. inb Hb. rewrite (form_bb d T HT C G_b G_bb) by assumption. reflexivity. }
    assert (AY : anti_in 4 g_aa (sh_bb d) (where_nonzero (c_bb C) (block bb T))).
    { apply keep_anti; [|apply blk_bb, HT]. apply (agree_anti _ _ _ _ (block bb (cexp T))); [apply inb_aa|apply HC|apply blk_bb, ea]. }
    intros l Hl. pose proof (inb_len _ _ Hl) as Ll. cbn [length sh_bb] in Ll.
    assert (K : forall a b i j, in_bounds (sh_bb d) [a; b; i; j] = true -> X [a; b; i; j] = where_nonzero (c_bb C) (block bb T) [a; b; i; j]).
    { apply (extend_aa (fun l => in_bounds (sh_bb d) l = true -> X l = where_nonzero (c_bb C) (block bb T) l)).
      - apply eq_swap; [apply inb_aa|apply U|exact AY].
      - apply eq_rep; [apply rep_aa|apply U|exact AY].
      - intros a b i j O0 O1 Hb. apply V; [|exact Hb]. unfold sh_bb in Hb. inb Hb. apply in_rows_aa. exists a, b, i, j. split; [reflexivity|lia]. }
    destruct l as [|a [|b [|i [|j [|]]]]]; try discriminate Ll. now apply K.
Qed.

Lemma res_aaa : exists X, t3_aaa d C = Some X /\ agree (sh_aaa d) X (where_nonzero (c_aaa C) (block aaa T)).
Proof.
  unfold t3_aaa, analyse_block.
  match goal with |- context [nest [] ?L] => set (rows := nest [] L) end.
  destruct (un_aaa d rows (map (val3 (c_aaa C) (f_aaa C)) rows)) as (X & E & U).
  - now rewrite map_length.
  - intros r Hr. apply in_rows_aaa in Hr as (a & b & c & i & j & k & -> & Hr). exists [a; b; c], [i; j; k]. cbn [nunocc nocc osys nu_a nu_b no_a no_b]. grow_tac.
  - apply nest_NoDup.
  - exists X. split; [exact E|].
    assert (V : forall a b c i j k, In [a; b; c; i; j; k] rows -> in_bounds (sh_aaa d) [a; b; c; i; j; k] = true -> X [a; b; c; i; j; k] = where_nonzero (c_aaa C) (block aaa T) [a; b; c; i; j; k]).
    { intros a b c i j k Hr Hb. rewrite (unf_val _ _ _ _ _ U _ Hr). unfold val3, where_nonzero. rewrite when_keep.
      unfold sh_aaa in Hb. inb Hb. rewrite (form_aaa d T HT C G_a G_aa G_aaa) by assumption. reflexivity. }
    assert (AY : anti_in 6 g_aaa (sh_aaa d) (where_nonzero (c_aaa C) (block aaa T))).
    { apply keep_anti; [|apply blk_aaa, HT]. apply (agree_anti _ _ _ _ (block aaa (cexp T))); [apply inb_aaa|apply HC|apply blk_aaa, ea]. }
    intros l Hl. pose proof (inb_len _ _ Hl) as Ll. cbn [length sh_aaa] in Ll.
    assert (K : forall a b c i j k, in_bounds (sh_aaa d) [a; b; c; i; j; k] = true -> X [a; b; c; i; j; k] = where_nonzero (c_aaa C) (block aaa T) [a; b; c; i; j; k]).
    { apply (extend_aaa (fun l => in_bounds (sh_aaa d) l = true -> X l = where_nonzero (c_aaa C) (block aaa T) l)).
      - apply eq_swap; [apply inb_aaa|apply U|exact AY].
      - apply eq_rep; [apply rep_aaa|apply U|exact AY].
      - intros a b c i j k O0 O1 O2 O3 Hb. apply V; [|exact Hb]. unfold sh_aaa in Hb. inb Hb. apply in_rows_aaa. exists a, b, c, i, j, k. split; [reflexivity|lia]. }
    destruct l as [|a [|b [|c [|i [|j [|k [|]]]]]]]; try discriminate Ll. now apply K.
Qed.

Lemma res_aab : exists X, t3_aab d C = Some X /\ agree (sh_aab d) X (where_nonzero (c_aab C) (block aab T)).
Proof.
  unfold t3_aab, analyse_block.
  match goal with |- context [nest [] ?L] => set (rows := nest [] L) end.
  destruct (un_aab d rows (map (val3 (c_aab C) (f_aab C)) rows)) as (X & E & U).
  - now rewrite map_length.
  - intros r Hr. apply in_rows_aab in Hr as (a & b & c & i & j & k & -> & Hr). exists [a; b; c], [i; j; k]. cbn [nunocc nocc osys nu_a nu_b no_a no_b]. grow_tac.
  - apply nest_NoDup.
  - exists X. split; [exact E|].
    assert (V : forall a b c i j k, In [a; b; c; i; j; k] rows -> in_bounds (sh_aab d) [a; b; c; i; j; k] = true -> X [a; b; c; i; j; k] = where_nonzero (c_aab C) (block aab T) [a; b; c; i; j; k]).
    { intros a b c i j k Hr Hb. rewrite (unf_val _ _ _ _ _ U _ Hr). unfold val3, where_nonzero. rewrite when_keep.
      unfold sh_aab in Hb. inb Hb. rewrite (form_aab d T HT C G_a G_b G_aa G_ab G_aab) by assumption. reflexivity. }
    assert (AY : anti_in 6 g_aab (sh_aab d) (where_nonzero (c_aab C) (block aab T))).
    { apply keep_anti; [|apply blk_aab, HT]. apply (agree_anti _ _ _ _ (block aab (cexp T))); [apply inb_aab|apply HC|apply blk_aab, ea]. }
    intros l Hl. pose proof (inb_len _ _ Hl) as Ll. cbn [length sh_aab] in Ll.
    assert (K : forall a b c i j k, in_bounds (sh_aab d) [a; b; c; i; j; k] = true -> X [a; b; c; i; j; k] = where_nonzero (c_aab C) (block aab T) [a; b; c; i; j; k]).
    { apply (extend_aab (fun l => in_bounds (sh_aab d) l = true -> X l = where_nonzero (c_aab C) (block aab T) l)).
      - apply eq_swap; [apply inb_aab|apply U|exact AY].
      - apply eq_rep; [apply rep_aab|apply U|exact AY].
      - intros a b c i j k O0 O1 Hb. apply V; [|exact Hb]. unfold sh_aab in Hb. inb Hb. apply in_rows_aab. exists a, b, c, i, j, k. split; [reflexivity|lia]. }
    destruct l as [|a [|b [|c [|i [|j [|k [|]]]]]]]; try discriminate Ll. now apply K.
Qed.

Lemma res_abb : exists X, t3_abb d C = Some X /\ agree (sh_abb d) X (where_nonzero (c_abb C) (block abb T)).
Proof.
  unfold t3_abb, analyse_block.
  match goal with |- context [nest [] ?L] => set (rows := nest [] L) end.
  destruct (un_abb d rows (map (val3 (c_abb C) (f_abb C)) rows)) as (X & E & U).
  - now rewrite map_length.
  - intros r Hr. apply in_rows_abb in Hr as (a & b & c & i & j & k & -> & Hr). exists [a; b; c], [i; j; k]. cbn [nunocc nocc osys nu_a nu_b no_a no_b]. grow_tac.
  - apply nest_NoDup.
  - exists X. split; [exact E|].
    assert (V : forall a b c i j k, In [a; b; c; i; j; k] rows -> in_bounds (sh_abb d) [a; b; c; i; j; k] = true -> X [a; b; c; i; j; k] = where_nonzero (c_abb C) (block abb T) [a; b; c; i; j; k]).
    { intros a b c i j k Hr Hb. rewrite (unf_val _ _ _ _ _ U _ Hr). unfold val3, where_nonzero. rewrite when_keep.
      unfold sh_abb in Hb. inb Hb. rewrite (form_abb d T HT C G_a G_b G_ab G_bb G_abb) by assumption. reflexivity. }
    assert (AY : anti_in 6 g_abb (sh_abb d) (where_nonzero (c_abb C) (block abb T))).
    { apply keep_anti; [|apply blk_abb, HT]. apply (agree_anti _ _ _ _ (block abb (cexp T))); [apply inb_abb|apply HC|apply blk_abb, ea]. }
    intros l Hl. pose proof (inb_len _ _ Hl) as Ll. cbn [length sh_abb] in Ll.
    assert (K : forall a b c i j k, in_bounds (sh_abb d) [a; b; c; i; j; k] = true -> X [a; b; c; i; j; k] = where_nonzero (c_abb C) (block abb T) [a; b; c; i; j; k]).
    { apply (extend_abb (fun l => in_bounds (sh_abb d) l = true -> X l = where_nonzero (c_abb C) (block abb T) l)).
      - apply eq_swap; [apply inb_abb|apply U|exact AY].
      - apply eq_rep; [apply rep_abb|apply U|exact AY].
      - intros a b c i j k O0 O1 Hb. apply V; [|exact Hb]. unfold sh_abb in Hb. inb Hb. apply in_rows_abb. exists a, b, c, i, j, k. split; [reflexivity|lia]. }
    destruct l as [|a [|b [|c [|i [|j [|k [|]]]]]]]; try discriminate Ll. now apply K.
Qed.

Lemma res_bbb : exists X, t3_bbb d C = Some X /\ agree (sh_bbb d) X (where_nonzero (c_bbb C) (block bbb T)).
Proof.
  unfold t3_bbb, analyse_block.
  match goal with |- context [nest [] ?L] => set (rows := nest [] L) end.
  destruct (un_bbb d rows (map (val3 (c_bbb C) (f_bbb C)) rows)) as (X & E & U).
  - now rewrite map_length.
  - intros r Hr. apply in_rows_aaa in Hr as (a & b & c & i & j & k & -> & Hr). exists [a; b; c], [i; j; k]. cbn [nunocc nocc osys nu_a nu_b no_a no_b]. grow_tac.
  - apply nest_NoDup.
  - exists X. split; [exact E|].
    assert (V : forall a b c i j k, In [a; b; c; i; j; k] rows -> in_bounds (sh_bbb d) [a; b; c; i; j; k] = true -> X [a; b; c; i; j; k] = where_nonzero (c_bbb C) (block bbb T) [a; b; c; i; j; k]).
    { intros a b c i j k Hr Hb. rewrite (unf_val _ _ _ _ _ U _ Hr). unfold val3, where_nonzero. rewrite when_keep.
      unfold sh_bbb in Hb. inb Hb. rewrite (form_bbb d T HT C G_b G_bb G_bbb) by assumption. reflexivity. }
    assert (AY : anti_in 6 g_aaa (sh_bbb d) (where_nonzero (c_bbb C) (block bbb T))).
    { apply keep_anti; [|apply blk_bbb, HT]. apply (agree_anti _ _ _ _ (block bbb (cexp T))); [apply inb_aaa|apply HC|apply blk_bbb, ea]. }
    intros l Hl. pose proof (inb_len _ _ Hl) as Ll. cbn [length sh_bbb] in Ll.
    assert (K : forall a b c i j k, in_bounds (sh_bbb d) [a; b; c; i; j; k] = true -> X [a; b; c; i; j; k] = where_nonzero (c_bbb C) (block bbb T) [a; b; c; i; j; k]).
    { apply (extend_aaa (fun l => in_bounds (sh_bbb d) l = true -> X l = where_nonzero (c_bbb C) (block bbb T) l)).
      - apply eq_swap; [apply inb_aaa|apply U|exact AY].
      - apply eq_rep; [apply rep_aaa|apply U|exact AY].
      - intros a b c i j k O0 O1 O2 O3 Hb. apply V; [|exact Hb]. unfold sh_bbb in Hb. inb Hb. apply in_rows_aaa. exists a, b, c, i, j, k. split; [reflexivity|lia]. }
    destruct l as [|a [|b [|c [|i [|j [|k [|]]]]]]]; try discriminate Ll. now apply K.
Qed.

Lemma res_ab : exists X, t2_ab d C = Some X /\ agree (sh_ab d) X (where_nonzero (c_ab C) (block ab T)).
Proof.
  unfold t2_ab, analyse_block.
  match goal with |- context [nest [] ?L] => set (rows := nest [] L) end.
  assert (N : NoDup rows) by apply nest_NoDup.
  assert (I : forall r, In r rows -> in_bounds (sh_ab d) r = true).
  { intros r Hr. apply in_rows_ab in Hr as (a & b & i & j & -> & Hr). unfold sh_ab. mkin. }
  assert (G : forall rs T0, NoDup rs -> (forall r, In r rs -> In r rows) ->
    exists X, scatter (sh_ab d) wc_ab (map (map S) rs) (map (val2 (c_ab C) (f_ab C)) rs) (Some T0) = Some X /\
      forall l, X l = if existsb (list_eqb l) rs then val2 (c_ab C) (f_ab C) l else T0 l).
  { induction rs as [|r rs IH]; intros T0 Nd Hs; cbn [map scatter].
    - exists T0. split; reflexivity.
    - inversion Nd as [|? ? Nr Nd']; subst. unfold scatter_row at 1. rewrite map_S_sub. unfold wc_ab at 2. cbn [fold_left fst snd].
      unfold write at 1. rewrite (I r) by (apply Hs; now left).
      destruct (IH (fun l => if list_eqb l r then val2 (c_ab C) (f_ab C) r else T0 l) Nd') as (X & E & HX); [intros; apply Hs; now right|].
      exists X. split; [exact E|]. intros l. rewrite HX. cbn [existsb]. destruct (list_eqb l r) eqn:El; [|reflexivity].
      apply list_eqb_spec in El. subst l. cbn [orb]. destruct (existsb _ rs); reflexivity. }
  destruct (G rows zero_tensor N (fun r Hr => Hr)) as (X & E & HX). exists X. split; [exact E|].
  intros l Hl. pose proof (inb_len _ _ Hl) as Ll. cbn [length sh_ab] in Ll.
  destruct l as [|a [|b [|i [|j [|]]]]]; try discriminate Ll. unfold sh_ab in Hl. inb Hl.
  rewrite HX. replace (existsb (list_eqb [a; b; i; j]) rows) with true.
  - unfold val2, where_nonzero. rewrite when_keep. rewrite (form_ab d T HT C G_a G_b G_ab) by assumption. reflexivity.
  - symmetry. apply existsb_exists. exists [a; b; i; j]. split; [|now apply list_eqb_spec]. apply in_rows_ab. exists a, b, i, j. split; [reflexivity|lia].
Qed.

Lemma t4_case : forall sp f q,
  (forall row, In row (fst q) -> row_in_range d sp row -> t4_value f row (block sp (cexp T) (map pred row)) = block sp T (map pred row)) ->
  quads_case d sp (cexp T) q -> t4_list f (fst q) (snd q) = map (fun row => block sp T (map pred row)) (fst q).
Proof.
  intros sp f (rows, amps) H (HR & HA). cbn [fst snd] in *. subst amps. unfold t4_list.
  induction rows as [|r rows IH]; cbn [map combine]; [reflexivity|]. cbn [fst snd]. f_equal.
  - apply H; [now left|apply HR; now left].
  - apply IH; intros; [apply H|apply HR]; try assumption; now right.
Qed.
Lemma res_aaaa : forall q, quads_case d aaaa (cexp T) q -> t4_list (f_aaaa C) (fst q) (snd q) = map (fun row => block aaaa T (map pred row)) (fst q).
Proof.
  intros q. apply t4_case. intros row _ (_ & Hb). unfold t4_value. set (l := map pred row) in *. clearbody l.
  pose proof (inb_len _ _ Hb) as Ll. cbn [length map app aaaa] in Ll.
  destruct l as [|a1 [|a2 [|a3 [|a4 [|i1 [|i2 [|i3 [|i4 [|]]]]]]]]]; try discriminate Ll.
  cbn [map app aaaa usize osize] in Hb. inb Hb.
  exact (form_aaaa d T HT C G_a G_aa G_aaa a1 a2 a3 a4 i1 i2 i3 i4 ltac:(assumption) ltac:(assumption) ltac:(assumption) ltac:(assumption) ltac:(assumption) ltac:(assumption) ltac:(assumption) ltac:(assumption)).
Qed.
Lemma res_aaab : forall q, quads_case d aaab (cexp T) q -> t4_list (f_aaab C) (fst q) (snd q) = map (fun row => block aaab T (map pred row)) (fst q).
Proof.
  intros q. apply t4_case. intros row _ (_ & Hb). unfold t4_value. set (l := map pred row) in *. clearbody l.
  pose proof (inb_len _ _ Hb) as Ll. cbn [length map app aaab] in Ll.
  destruct l as [|a1 [|a2 [|a3 [|a4 [|i1 [|i2 [|i3 [|i4 [|]]]]]]]]]; try discriminate Ll.
  cbn [map app aaab usize osize] in Hb. inb Hb.
  exact (form_aaab d T HT C G_a G_b G_aa G_ab G_aaa G_aab a1 a2 a3 a4 i1 i2 i3 i4 ltac:(assumption) ltac:(assumption) ltac:(assumption) ltac:(assumption) ltac:(assumption) ltac:(assumption) ltac:(assumption) ltac:(assumption)).
Qed.
Lemma res_aabb : forall q, quads_case d aabb (cexp T) q -> t4_list (f_aabb C) (fst q) (snd q) = map (fun row => block aabb T (map pred row)) (fst q).
Proof.
  intros q. apply t4_case. intros row _ (_ & Hb). unfold t4_value. set (l := map pred row) in *. clearbody l.
  pose proof (inb_len _ _ Hb) as Ll. cbn [length map app aabb] in Ll.
  destruct l as [|a1 [|a2 [|a3 [|a4 [|i1 [|i2 [|i3 [|i4 [|]]]]]]]]]; try discriminate Ll.
  cbn [map app aabb usize osize] in Hb. inb Hb.
  exact (form_aabb d T HT C G_a G_b G_aa G_ab G_bb G_aab G_abb a1 a2 a3 a4 i1 i2 i3 i4 ltac:(assumption) ltac:(assumption) ltac:(assumption) ltac:(assumption) ltac:(assumption) ltac:(assumption) ltac:(assumption) ltac:(assumption)).
Qed.
Lemma res_abbb : forall q, quads_case d abbb4 (cexp T) q -> t4_list (f_abbb C) (fst q) (snd q) = map (fun row => block abbb4 T (map pred row)) (fst q).
Proof.
  intros q. apply t4_case. intros row _ (_ & Hb). unfold t4_value. set (l := map pred row) in *. clearbody l.
  pose proof (inb_len _ _ Hb) as Ll. cbn [length map app abbb4] in Ll.
  destruct l as [|a1 [|a2 [|a3 [|a4 [|i1 [|i2 [|i3 [|i4 [|]]]]]]]]]; try discriminate Ll.
  cbn [map app abbb4 usize osize] in Hb. inb Hb.
  exact (form_abbb d T HT C G_a G_b G_ab G_bb G_abb G_bbb a1 a2 a3 a4 i1 i2 i3 i4 ltac:(assumption) ltac:(assumption) ltac:(assumption) ltac:(assumption) ltac:(assumption) ltac:(assumption) ltac:(assumption) ltac:(assumption)).
Qed.
Lemma res_bbbb : forall q, quads_case d bbbb (cexp T) q -> t4_list (f_bbbb C) (fst q) (snd q) = map (fun row => block bbbb T (map pred row)) (fst q).
Proof.
  intros q. apply t4_case. intros row _ (_ & Hb). unfold t4_value. set (l := map pred row) in *. clearbody l.
  pose proof (inb_len _ _ Hb) as Ll. cbn [length map app bbbb] in Ll.
  destruct l as [|a1 [|a2 [|a3 [|a4 [|i1 [|i2 [|i3 [|i4 [|]]]]]]]]]; try discriminate Ll.
  cbn [map app bbbb usize osize] in Hb. inb Hb.
  exact (form_bbbb d T HT C G_b G_bb G_bbb a1 a2 a3 a4 i1 i2 i3 i4 ltac:(assumption) ltac:(assumption) ltac:(assumption) ltac:(assumption) ltac:(assumption) ltac:(assumption) ltac:(assumption) ltac:(assumption)).
Qed.
End Main.
