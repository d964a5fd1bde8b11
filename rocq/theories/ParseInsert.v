(** The assignments of insert_ci_amplitude fill antisymmetric arrays. *)
From Coq Require Import List Arith Bool Reals Lia Lra Sorted.
From Verif Require Import Base CipsiModel PspaceModel PspaceSpec PspaceProofs ScatterModel ScatterSpec ScatterProofs ParseModel ParseSpec.
Import ListNotations.
Local Open Scope nat_scope.

(** Strictly increasing labels below m. *)
Definition incr (n m : nat) (l : list nat) : Prop := length l = n /\ StronglySorted lt l /\ (forall x, In x l -> x < m).
Lemma i0 : forall m l, incr 0 m l -> l = [].
Proof. intros m l (L & _). destruct l; [reflexivity|discriminate]. Qed.
Lemma i1 : forall m l, incr 1 m l -> exists a, l = [a] /\ a < m.
Proof. intros m l (L & _ & B). destruct l as [|a [|]]; try discriminate. exists a. split; [reflexivity|apply B; now left]. Qed.
Lemma i2 : forall m l, incr 2 m l -> exists a b, l = [a; b] /\ a < b /\ b < m.
Proof.
  intros m l (L & S & B). destruct l as [|a [|b [|]]]; try discriminate. exists a, b. split; [reflexivity|].
  split; [|apply B; right; now left]. inversion S as [|? ? _ F]; subst. now inversion F.
Qed.
Lemma i3 : forall m l, incr 3 m l -> exists a b c, l = [a; b; c] /\ a < b /\ b < c /\ c < m.
Proof.
  intros m l (L & S & B). destruct l as [|a [|b [|c [|]]]]; try discriminate. exists a, b, c. split; [reflexivity|].
  inversion S as [|? ? S' F]; subst. inversion S' as [|? ? _ F']; subst. inversion F; subst. inversion F'; subst.
  repeat split; try assumption. apply B. right; right; now left.
Qed.
Definition good (s : sys) (na nb : nat) (r : list nat) : Prop :=
  exists pa pb ha hb, r = (pa ++ pb) ++ ha ++ hb /\
    incr na (nua s) pa /\ incr nb (nub s) pb /\ incr na (noa s) ha /\ incr nb (nob s) hb.
Ltac open_incr H := first [apply i0 in H; subst | apply i1 in H as (? & -> & ?) | apply i2 in H as (? & ? & -> & ? & ?) | apply i3 in H as (? & ? & ? & -> & ? & ? & ?)].
Ltac open_good H := let pa := fresh "pa" in let pb := fresh "pb" in let ha := fresh "ha" in let hb := fresh "hb" in
  let H1 := fresh "H" in let H2 := fresh "H" in let H3 := fresh "H" in let H4 := fresh "H" in
  destruct H as (pa & pb & ha & hb & -> & H1 & H2 & H3 & H4); open_incr H1; open_incr H2; open_incr H3; open_incr H4; cbn [app] in *.
Lemma good_len : forall s na nb r, good s na nb r -> length r = 2 * (na + nb).
Proof. intros s na nb r (pa & pb & ha & hb & -> & (L1 & _) & (L2 & _) & (L3 & _) & (L4 & _)). rewrite !app_length. lia. Qed.
Ltac chain H := order_rules; cbv beta iota delta [ins_a ins_b ins_aa ins_ab ins_bb ins_aaa ins_aab ins_abb ins_bbb] in H; each H.

Definition pc_a (l : list nat) := match l with [x0; x1] => [x0] ++ [x1] | _ => l end.
Definition pi_a (l : list nat) := match l with [x0; x1] => false | _ => false end.
Lemma ins_a_unfolds : forall s rs amps, length amps = length rs -> (forall r, In r rs -> good s 1 0 r) -> NoDup rs ->
  exists X, scatter (cshape s 1 0) ins_a (map (map S) rs) amps (Some zero_tensor) = Some X /\
    unfolds 2 (axes 1 0) (fun r => r) (map (map S) rs) amps X.
Proof.
  intros s. apply (generic_unfolds (cshape s 1 0) ins_a 2 (axes 1 0) (good s 1 0) (fun r => r) pc_a pi_a).
  - intros ? HG. open_good HG. find_in.
  - intros ? l s0 HG HI. open_good HG. chain HI; cbv beta iota delta [pi_a inv3 inv2]; use_rules; reflexivity.
  - intros ? l s0 HG HI. open_good HG. chain HI; cbv beta iota delta [pc_a sort3 sort2]; cbn [app]; use_rules; reflexivity.
  - intros r l s0 gg p q HG. apply good_len in HG. revert l s0 gg p q.
    intros l s0 gg p q. apply (closed_swap 2 (axes 1 0) ins_a [0; 1]); [natural|reflexivity|exact HG].
  - intros ? l s0 HG HI. open_good HG. chain HI; cbv beta iota delta [cshape repeat app]; cbn [in_bounds]; use_rules; reflexivity.
  - intros r r' HG HG'. tauto.
  - intros l Ll O. open_len l Ll. reflexivity.
  - solve_ss.
Qed.
Definition pc_b (l : list nat) := match l with [x0; x1] => [x0] ++ [x1] | _ => l end.
Definition pi_b (l : list nat) := match l with [x0; x1] => false | _ => false end.
Lemma ins_b_unfolds : forall s rs amps, length amps = length rs -> (forall r, In r rs -> good s 0 1 r) -> NoDup rs ->
  exists X, scatter (cshape s 0 1) ins_b (map (map S) rs) amps (Some zero_tensor) = Some X /\
    unfolds 2 (axes 0 1) (fun r => r) (map (map S) rs) amps X.
Proof.
  intros s. apply (generic_unfolds (cshape s 0 1) ins_b 2 (axes 0 1) (good s 0 1) (fun r => r) pc_b pi_b).
  - intros ? HG. open_good HG. find_in.
  - intros ? l s0 HG HI. open_good HG. chain HI; cbv beta iota delta [pi_b inv3 inv2]; use_rules; reflexivity.
  - intros ? l s0 HG HI. open_good HG. chain HI; cbv beta iota delta [pc_b sort3 sort2]; cbn [app]; use_rules; reflexivity.
  - intros r l s0 gg p q HG. apply good_len in HG. revert l s0 gg p q.
    intros l s0 gg p q. apply (closed_swap 2 (axes 0 1) ins_b [0; 1]); [natural|reflexivity|exact HG].
  - intros ? l s0 HG HI. open_good HG. chain HI; cbv beta iota delta [cshape repeat app]; cbn [in_bounds]; use_rules; reflexivity.
  - intros r r' HG HG'. tauto.
  - intros l Ll O. open_len l Ll. reflexivity.
  - solve_ss.
Qed.
Definition pc_aa (l : list nat) := match l with [x0; x1; x2; x3] => sort2 x0 x1 ++ sort2 x2 x3 | _ => l end.
Definition pi_aa (l : list nat) := match l with [x0; x1; x2; x3] => xorb (inv2 x0 x1) (inv2 x2 x3) | _ => false end.
Lemma ins_aa_unfolds : forall s rs amps, length amps = length rs -> (forall r, In r rs -> good s 2 0 r) -> NoDup rs ->
  exists X, scatter (cshape s 2 0) ins_aa (map (map S) rs) amps (Some zero_tensor) = Some X /\
    unfolds 4 (axes 2 0) (fun r => r) (map (map S) rs) amps X.
Proof.
  intros s. apply (generic_unfolds (cshape s 2 0) ins_aa 4 (axes 2 0) (good s 2 0) (fun r => r) pc_aa pi_aa).
  - intros ? HG. open_good HG. find_in.
  - intros ? l s0 HG HI. open_good HG. chain HI; cbv beta iota delta [pi_aa inv3 inv2]; use_rules; reflexivity.
  - intros ? l s0 HG HI. open_good HG. chain HI; cbv beta iota delta [pc_aa sort3 sort2]; cbn [app]; use_rules; reflexivity.
  - intros r l s0 gg p q HG. apply good_len in HG. revert l s0 gg p q.
    intros l s0 gg p q. apply (closed_swap 4 (axes 2 0) ins_aa [0; 1; 2; 3]); [natural|reflexivity|exact HG].
  - intros ? l s0 HG HI. open_good HG. chain HI; cbv beta iota delta [cshape repeat app]; cbn [in_bounds]; use_rules; reflexivity.
  - intros r r' HG HG'. tauto.
  - intros l Ll O. open_len l Ll. solve_fix2 pc_aa [0; 1]. solve_fix2 pc_aa [2; 3]. end_fix pc_aa.
  - solve_ss.
Qed.
Definition pc_ab (l : list nat) := match l with [x0; x1; x2; x3] => [x0] ++ [x1] ++ [x2] ++ [x3] | _ => l end.
Definition pi_ab (l : list nat) := match l with [x0; x1; x2; x3] => false | _ => false end.
Lemma ins_ab_unfolds : forall s rs amps, length amps = length rs -> (forall r, In r rs -> good s 1 1 r) -> NoDup rs ->
  exists X, scatter (cshape s 1 1) ins_ab (map (map S) rs) amps (Some zero_tensor) = Some X /\
    unfolds 4 (axes 1 1) (fun r => r) (map (map S) rs) amps X.
Proof.
  intros s. apply (generic_unfolds (cshape s 1 1) ins_ab 4 (axes 1 1) (good s 1 1) (fun r => r) pc_ab pi_ab).
  - intros ? HG. open_good HG. find_in.
  - intros ? l s0 HG HI. open_good HG. chain HI; cbv beta iota delta [pi_ab inv3 inv2]; use_rules; reflexivity.
  - intros ? l s0 HG HI. open_good HG. chain HI; cbv beta iota delta [pc_ab sort3 sort2]; cbn [app]; use_rules; reflexivity.
  - intros r l s0 gg p q HG. apply good_len in HG. revert l s0 gg p q.
    intros l s0 gg p q. apply (closed_swap 4 (axes 1 1) ins_ab [0; 1; 2; 3]); [natural|reflexivity|exact HG].
  - intros ? l s0 HG HI. open_good HG. chain HI; cbv beta iota delta [cshape repeat app]; cbn [in_bounds]; use_rules; reflexivity.
  - intros r r' HG HG'. tauto.
  - intros l Ll O. open_len l Ll. reflexivity.
  - solve_ss.
Qed.
Definition pc_bb (l : list nat) := match l with [x0; x1; x2; x3] => sort2 x0 x1 ++ sort2 x2 x3 | _ => l end.
Definition pi_bb (l : list nat) := match l with [x0; x1; x2; x3] => xorb (inv2 x0 x1) (inv2 x2 x3) | _ => false end.
Lemma ins_bb_unfolds : forall s rs amps, length amps = length rs -> (forall r, In r rs -> good s 0 2 r) -> NoDup rs ->
  exists X, scatter (cshape s 0 2) ins_bb (map (map S) rs) amps (Some zero_tensor) = Some X /\
    unfolds 4 (axes 0 2) (fun r => r) (map (map S) rs) amps X.
Proof.
  intros s. apply (generic_unfolds (cshape s 0 2) ins_bb 4 (axes 0 2) (good s 0 2) (fun r => r) pc_bb pi_bb).
  - intros ? HG. open_good HG. find_in.
  - intros ? l s0 HG HI. open_good HG. chain HI; cbv beta iota delta [pi_bb inv3 inv2]; use_rules; reflexivity.
  - intros ? l s0 HG HI. open_good HG. chain HI; cbv beta iota delta [pc_bb sort3 sort2]; cbn [app]; use_rules; reflexivity.
  - intros r l s0 gg p q HG. apply good_len in HG. revert l s0 gg p q.
    intros l s0 gg p q. apply (closed_swap 4 (axes 0 2) ins_bb [0; 1; 2; 3]); [natural|reflexivity|exact HG].
  - intros ? l s0 HG HI. open_good HG. chain HI; cbv beta iota delta [cshape repeat app]; cbn [in_bounds]; use_rules; reflexivity.
  - intros r r' HG HG'. tauto.
  - intros l Ll O. open_len l Ll. solve_fix2 pc_bb [0; 1]. solve_fix2 pc_bb [2; 3]. end_fix pc_bb.
  - solve_ss.
Qed.
Definition pc_aaa (l : list nat) := match l with [x0; x1; x2; x3; x4; x5] => sort3 x0 x1 x2 ++ sort3 x3 x4 x5 | _ => l end.
Definition pi_aaa (l : list nat) := match l with [x0; x1; x2; x3; x4; x5] => xorb (inv3 x0 x1 x2) (inv3 x3 x4 x5) | _ => false end.
Lemma ins_aaa_unfolds : forall s rs amps, length amps = length rs -> (forall r, In r rs -> good s 3 0 r) -> NoDup rs ->
  exists X, scatter (cshape s 3 0) ins_aaa (map (map S) rs) amps (Some zero_tensor) = Some X /\
    unfolds 6 (axes 3 0) (fun r => r) (map (map S) rs) amps X.
Proof.
  intros s. apply (generic_unfolds (cshape s 3 0) ins_aaa 6 (axes 3 0) (good s 3 0) (fun r => r) pc_aaa pi_aaa).
  - intros ? HG. open_good HG. find_in.
  - intros ? l s0 HG HI. open_good HG. chain HI; cbv beta iota delta [pi_aaa inv3 inv2]; use_rules; reflexivity.
  - intros ? l s0 HG HI. open_good HG. chain HI; cbv beta iota delta [pc_aaa sort3 sort2]; cbn [app]; use_rules; reflexivity.
  - intros r l s0 gg p q HG. apply good_len in HG. revert l s0 gg p q.
    intros l s0 gg p q. apply (closed_swap 6 (axes 3 0) ins_aaa [0; 1; 2; 3; 4; 5]); [natural|reflexivity|exact HG].
  - intros ? l s0 HG HI. open_good HG. chain HI; cbv beta iota delta [cshape repeat app]; cbn [in_bounds]; use_rules; reflexivity.
  - intros r r' HG HG'. tauto.
  - intros l Ll O. open_len l Ll. solve_fix3 pc_aaa [0; 1; 2]. solve_fix3 pc_aaa [3; 4; 5]. end_fix pc_aaa.
  - solve_ss.
Qed.
Definition pc_aab (l : list nat) := match l with [x0; x1; x2; x3; x4; x5] => sort2 x0 x1 ++ [x2] ++ sort2 x3 x4 ++ [x5] | _ => l end.
Definition pi_aab (l : list nat) := match l with [x0; x1; x2; x3; x4; x5] => xorb (inv2 x0 x1) (inv2 x3 x4) | _ => false end.
Lemma ins_aab_unfolds : forall s rs amps, length amps = length rs -> (forall r, In r rs -> good s 2 1 r) -> NoDup rs ->
  exists X, scatter (cshape s 2 1) ins_aab (map (map S) rs) amps (Some zero_tensor) = Some X /\
    unfolds 6 (axes 2 1) (fun r => r) (map (map S) rs) amps X.
Proof.
  intros s. apply (generic_unfolds (cshape s 2 1) ins_aab 6 (axes 2 1) (good s 2 1) (fun r => r) pc_aab pi_aab).
  - intros ? HG. open_good HG. find_in.
  - intros ? l s0 HG HI. open_good HG. chain HI; cbv beta iota delta [pi_aab inv3 inv2]; use_rules; reflexivity.
  - intros ? l s0 HG HI. open_good HG. chain HI; cbv beta iota delta [pc_aab sort3 sort2]; cbn [app]; use_rules; reflexivity.
  - intros r l s0 gg p q HG. apply good_len in HG. revert l s0 gg p q.
    intros l s0 gg p q. apply (closed_swap 6 (axes 2 1) ins_aab [0; 1; 2; 3; 4; 5]); [natural|reflexivity|exact HG].
  - intros ? l s0 HG HI. open_good HG. chain HI; cbv beta iota delta [cshape repeat app]; cbn [in_bounds]; use_rules; reflexivity.
  - intros r r' HG HG'. tauto.
  - intros l Ll O. open_len l Ll. solve_fix2 pc_aab [0; 1]. solve_fix2 pc_aab [3; 4]. end_fix pc_aab.
  - solve_ss.
Qed.
Definition pc_abb (l : list nat) := match l with [x0; x1; x2; x3; x4; x5] => [x0] ++ sort2 x1 x2 ++ [x3] ++ sort2 x4 x5 | _ => l end.
Definition pi_abb (l : list nat) := match l with [x0; x1; x2; x3; x4; x5] => xorb (inv2 x1 x2) (inv2 x4 x5) | _ => false end.
Lemma ins_abb_unfolds : forall s rs amps, length amps = length rs -> (forall r, In r rs -> good s 1 2 r) -> NoDup rs ->
  exists X, scatter (cshape s 1 2) ins_abb (map (map S) rs) amps (Some zero_tensor) = Some X /\
    unfolds 6 (axes 1 2) (fun r => r) (map (map S) rs) amps X.
Proof.
  intros s. apply (generic_unfolds (cshape s 1 2) ins_abb 6 (axes 1 2) (good s 1 2) (fun r => r) pc_abb pi_abb).
  - intros ? HG. open_good HG. find_in.
  - intros ? l s0 HG HI. open_good HG. chain HI; cbv beta iota delta [pi_abb inv3 inv2]; use_rules; reflexivity.
  - intros ? l s0 HG HI. open_good HG. chain HI; cbv beta iota delta [pc_abb sort3 sort2]; cbn [app]; use_rules; reflexivity.
  - intros r l s0 gg p q HG. apply good_len in HG. revert l s0 gg p q.
    intros l s0 gg p q. apply (closed_swap 6 (axes 1 2) ins_abb [0; 1; 2; 3; 4; 5]); [natural|reflexivity|exact HG].
  - intros ? l s0 HG HI. open_good HG. chain HI; cbv beta iota delta [cshape repeat app]; cbn [in_bounds]; use_rules; reflexivity.
  - intros r r' HG HG'. tauto.
  - intros l Ll O. open_len l Ll. solve_fix2 pc_abb [1; 2]. solve_fix2 pc_abb [4; 5]. end_fix pc_abb.
  - solve_ss.
Qed.
Definition pc_bbb (l : list nat) := match l with [x0; x1; x2; x3; x4; x5] => sort3 x0 x1 x2 ++ sort3 x3 x4 x5 | _ => l end.
Definition pi_bbb (l : list nat) := match l with [x0; x1; x2; x3; x4; x5] => xorb (inv3 x0 x1 x2) (inv3 x3 x4 x5) | _ => false end.
Lemma ins_bbb_unfolds : forall s rs amps, length amps = length rs -> (forall r, In r rs -> good s 0 3 r) -> NoDup rs ->
  exists X, scatter (cshape s 0 3) ins_bbb (map (map S) rs) amps (Some zero_tensor) = Some X /\
    unfolds 6 (axes 0 3) (fun r => r) (map (map S) rs) amps X.
Proof.
  intros s. apply (generic_unfolds (cshape s 0 3) ins_bbb 6 (axes 0 3) (good s 0 3) (fun r => r) pc_bbb pi_bbb).
  - intros ? HG. open_good HG. find_in.
  - intros ? l s0 HG HI. open_good HG. chain HI; cbv beta iota delta [pi_bbb inv3 inv2]; use_rules; reflexivity.
  - intros ? l s0 HG HI. open_good HG. chain HI; cbv beta iota delta [pc_bbb sort3 sort2]; cbn [app]; use_rules; reflexivity.
  - intros r l s0 gg p q HG. apply good_len in HG. revert l s0 gg p q.
    intros l s0 gg p q. apply (closed_swap 6 (axes 0 3) ins_bbb [0; 1; 2; 3; 4; 5]); [natural|reflexivity|exact HG].
  - intros ? l s0 HG HI. open_good HG. chain HI; cbv beta iota delta [cshape repeat app]; cbn [in_bounds]; use_rules; reflexivity.
  - intros r r' HG HG'. tauto.
  - intros l Ll O. open_len l Ll. solve_fix3 pc_bbb [0; 1; 2]. solve_fix3 pc_bbb [3; 4; 5]. end_fix pc_bbb.
  - solve_ss.
Qed.
Lemma inserts_unfolds : forall s na nb rs amps, 1 <= na + nb <= 3 -> length amps = length rs ->
  (forall r, In r rs -> good s na nb r) -> NoDup rs ->
  exists X, scatter (cshape s na nb) (inserts na nb) (map (map S) rs) amps (Some zero_tensor) = Some X /\
    unfolds (2 * (na + nb)) (axes na nb) (fun r => r) (map (map S) rs) amps X.
Proof.
  intros s na nb rs amps L. destruct na as [|[|[|[|na]]]], nb as [|[|[|[|nb]]]]; try lia; cbn [inserts Nat.add Nat.mul].
  - apply ins_b_unfolds.
  - apply ins_bb_unfolds.
  - apply ins_bbb_unfolds.
  - apply ins_a_unfolds.
  - apply ins_ab_unfolds.
  - apply ins_abb_unfolds.
  - apply ins_aa_unfolds.
  - apply ins_aab_unfolds.
  - apply ins_aaa_unfolds.
Qed.
