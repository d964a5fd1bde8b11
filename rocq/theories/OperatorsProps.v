(** Property theorems C06-C09 (amplitude vectors of ccpy/models/operators.py). *)
From Coq Require Import List Arith Bool Lia.
From Verif Require Import Base OperatorsModel OperatorsSpec OperatorsProofs OperatorsBuild.
Import ListNotations.

(** Dimensions used by the concrete instances. *)
Definition demo_sys : sysdims :=
  {| noa := 2; nob := 1; nua := 2; nub := 3; norb := 4; act_oa := 1; act_ob := 1; act_ua := 1; act_ub := 1 |}.
(** CCSDT with dense triples. *)
Definition demo_dense : config := mkConfig [] [] [] [].
(** CC(P) with explicit triples lists. *)
Definition demo_pspace : config := mkConfig [3] [[2; 3; 1; 1]] [] [].
(** CCSDt with one active hole and particle. *)
Definition demo_active : config := mkConfig [] [] [3] [1].

(** ** C06 *)
(** Whatever amplitudes [o] holds (it only has to have the layout of a freshly built cluster operator
    [o0]), flatten succeeds with a vector of length ndim; unflattening that vector into any operator
    [o1] of the same layout restores every amplitude. *)
Theorem C06_roundtrip : forall A (zero : A) s order c o0 o o1,
  1 <= order -> proper_config order c -> cluster_operator A zero s order c = Some o0 ->
  same_layout A o0 o -> same_layout A o0 o1 ->
  exists v o', flatten A o = Some v /\ length v = o_ndim A o0 /\
    unflatten A o1 v = Some o' /\ same_layout A o0 o' /\ same_amplitudes A o' o.
Proof.
  intros A zero s order c o0 o o1 H1 Hc H0 Ho Ho1.
  destruct (cluster_layout A zero s order c o0 H1 Hc H0) as (es & -> & Al & N & L & Ne).
  now apply (roundtrip A order es).
Qed.

(** Every vector of length ndim is the flattening of the operator it is unflattened into. *)
Theorem C06_vector : forall A (zero : A) s order c o0 o v,
  1 <= order -> proper_config order c -> cluster_operator A zero s order c = Some o0 ->
  same_layout A o0 o -> length v = o_ndim A o0 ->
  exists o', unflatten A o v = Some o' /\ same_layout A o0 o' /\ flatten A o' = Some v.
Proof.
  intros A zero s order c o0 o v H1 Hc H0 Ho Lv.
  destruct (cluster_layout A zero s order c o0 H1 Hc H0) as (es & -> & Al & N & L & Ne).
  now apply (unflatten_total A order es).
Qed.

(** The constructor itself produces an operator of its own layout (so the hypotheses are met), with
    one spin case per order and number of beta indices. *)
Theorem C06_constructor : forall A (zero : A) s order c o0,
  1 <= order -> proper_config order c -> cluster_operator A zero s order c = Some o0 ->
  same_layout A o0 o0 /\ NoDup (o_spin_cases A o0).
Proof.
  intros A zero s order c o0 H1 Hc H0.
  destruct (cluster_layout A zero s order c o0 H1 Hc H0) as (es & -> & Al & N & L & Ne).
  split; [|exact N]. now apply (o0_self A order es).
Qed.

Example C06_instance_proper :
  proper_config 3 demo_dense /\ proper_config 3 demo_pspace /\ proper_config 3 demo_active.
Proof.
  unfold proper_config; cbn. repeat split; intros; try tauto; repeat match goal with
   | H : _ \/ _ |- _ => destruct H | H : False |- _ => destruct H end; subst; cbn in *;
   repeat match goal with
   | H : _ \/ _ |- _ => destruct H | H : False |- _ => destruct H end; subst; try lia.
Qed.
Example C06_instance :
  match cluster_operator nat 7 demo_sys 3 demo_dense, cluster_operator nat 7 demo_sys 3 demo_pspace,
        cluster_operator nat 7 demo_sys 3 demo_active with
  | Some x, Some y, Some z =>
      o_ndim nat x = 219 /\ o_ndim nat y = 51 /\ o_ndim nat z = 101 /\
      length (o_spin_cases nat x) = 9 /\ length (o_dims nat z) = 73
  | _, _, _ => False
  end.
Proof. vm_compute. repeat split. Qed.

(** ** C07 *)
(** Number of spin cases whose recorded dimension is (0,). *)
Definition empty_lists (dims : list (list nat)) : nat := count_occ (list_eq_dec Nat.eq_dec) dims [0].

(** For every operator without active orders, whatever P-space sizes are requested: the flattened
    vector has one entry too many for each empty P-space list. *)
Theorem C07_empty_lists_lengthen_the_vector : forall A (zero : A) s order c o,
  1 <= order -> active_orders c = [] -> cluster_operator A zero s order c = Some o ->
  exists v, flatten A o = Some v /\ length v = o_ndim A o + empty_lists (o_dims A o).
Proof. intros; eapply cluster_flatten_length; eauto. Qed.

(** With an empty list the round trip loses data: here restoring the vector of an operator puts the
    amplitudes of the following spin cases one position off. *)
Definition demo_empty : config := mkConfig [3] [[0; 2; 1; 1]] [] [].
Definition set_arr {A} (o : op A) (nm : name) (x : list A) : op A :=
  {| o_order := o_order A o; o_spin_cases := o_spin_cases A o; o_dims := o_dims A o;
     o_attrs := upd name_eq_dec (o_attrs A o) nm (Arr A (mkArr A [length x] x)); o_ndim := o_ndim A o |}.
Theorem C07_empty_list_roundtrip_refuted :
  exists o0 o v o',
    cluster_operator nat 0 demo_sys 3 demo_empty = Some o0 /\
    o = set_arr o0 [La; La; Lb] [5; 6] /\ same_layout nat o0 o /\
    flatten nat o = Some v /\ unflatten nat o0 v = Some o' /\
    o_attrs nat o' [La; La; Lb] = Some (Arr nat (mkArr nat [2] [0; 5])).
Proof.
  destruct (cluster_operator nat 0 demo_sys 3 demo_empty) as [o0|] eqn:E; [|discriminate E].
  exists o0. vm_compute in E. injection E as <-.
  eexists. eexists. eexists. split; [reflexivity|]. split; [reflexivity|]. split; [|split; [reflexivity|split; reflexivity]].
  repeat split. intros nm H. cbn in H.
  repeat (destruct H as [<-|H]; [eexists; eexists; repeat split|]). destruct H.
Qed.

(** An active order followed by an unrestricted one: the recorded dimensions no longer line up with
    the spin cases and restoring a freshly flattened vector raises an exception. *)
Definition small_sys : sysdims :=
  {| noa := 2; nob := 2; nua := 2; nub := 2; norb := 4; act_oa := 1; act_ob := 1; act_ua := 1; act_ub := 1 |}.
Definition shape_of {A} (o : op A) (nm : name) : option (list nat) :=
  match o_attrs A o nm with Some (Arr _ x) => Some (shape A x) | _ => None end.
Theorem C07_active_below_dense_refuted :
  exists s o v, cluster_operator nat 0 s 3 (mkConfig [] [] [2] [1]) = Some o /\
    flatten nat o = Some v /\ length v = o_ndim nat o /\
    (forall o', unflatten nat o v = Some o' -> ~ same_amplitudes nat o' o).
Proof.
  exists small_sys.
  destruct (cluster_operator nat 0 small_sys 3 (mkConfig [] [] [2] [1])) as [o|] eqn:E; [|vm_compute in E; discriminate E].
  assert (G : match cluster_operator nat 0 small_sys 3 (mkConfig [] [] [2] [1]) with
              | Some o => match flatten nat o with
                 | Some v => length v = o_ndim nat o /\
                    match unflatten nat o v with
                    | Some o' => shape_of o' [La; La; La] <> shape_of o [La; La; La]
                    | None => True end
                 | None => False end
              | None => False end).
  { vm_compute. split; [reflexivity|discriminate]. }
  rewrite E in G. destruct (flatten nat o) as [v|] eqn:F; [|destruct G]. destruct G as [G1 G2].
  exists o, v. split; [reflexivity|]. split; [exact F|]. split; [exact G1|].
  intros o' U K. rewrite U in G2. apply G2. destruct K as [Hs K].
  destruct (K [La; La; La]) as (x & y & Ex & Ey & V).
  - rewrite Hs.
    assert (Hn : match cluster_operator nat 0 small_sys 3 (mkConfig [] [] [2] [1]) with
              | Some o => In [La; La; La] (o_spin_cases nat o) | None => False end) by (vm_compute; tauto).
    rewrite E in Hn. exact Hn.
  - unfold shape_of. rewrite Ex, Ey. destruct x, y; cbn in V; try tauto; now subst.
Qed.

(** ** C08 *)
Theorem C08_fock_roundtrip : forall A (zero : A) s np nh c o0 o o1,
  (np = nh + 1 \/ np = nh + 2 \/ nh = np + 1 \/ nh = np + 2) ->
  (forall l n, In l (pspace_sizes c) -> In n l -> 0 < n) ->
  fock_operator A zero s np nh c = Some o0 ->
  same_layout A o0 o -> same_layout A o0 o1 ->
  exists v o', flatten A o = Some v /\ length v = o_ndim A o0 /\
    unflatten A o1 v = Some o' /\ same_layout A o0 o' /\ same_amplitudes A o' o.
Proof.
  intros A zero s np nh c o0 o o1 Hd Hp H0 Ho Ho1.
  destruct (fock_layout A zero s np nh c o0 Hd Hp H0) as (order & es & -> & H1 & Al & N & L & Ne).
  now apply (roundtrip A order es).
Qed.
Theorem C08_fock_vector : forall A (zero : A) s np nh c o0 o v,
  (np = nh + 1 \/ np = nh + 2 \/ nh = np + 1 \/ nh = np + 2) ->
  (forall l n, In l (pspace_sizes c) -> In n l -> 0 < n) ->
  fock_operator A zero s np nh c = Some o0 ->
  same_layout A o0 o -> length v = o_ndim A o0 ->
  exists o', unflatten A o v = Some o' /\ same_layout A o0 o' /\ flatten A o' = Some v.
Proof.
  intros A zero s np nh c o0 o v Hd Hp H0 Ho Lv.
  destruct (fock_layout A zero s np nh c o0 Hd Hp H0) as (order & es & -> & H1 & Al & N & L & Ne).
  now apply (unflatten_total A order es).
Qed.
(** Without P-space lists the FockOperator constructor always succeeds. *)
Theorem C08_fock_defined : forall A (zero : A) s np nh, np <> nh ->
  exists o0, fock_operator A zero s np nh (mkConfig [] [] [] []) = Some o0.
Proof. intros; now apply fock_defined. Qed.
(** Three particles (or holes) more than the other kind: the operator has no spin case at all and
    flatten raises. *)
Theorem C08_triple_attachment_fails : forall A (zero : A) s np nh c o0,
  np = nh + 3 \/ nh = np + 3 -> fock_operator A zero s np nh c = Some o0 ->
  o_spin_cases A o0 = [] /\ flatten A o0 = None.
Proof. intros; eapply fock_triple; eauto. Qed.

Theorem C08_spinflip_roundtrip : forall A (zero : A) s order o o1, order <= 2 ->
  let o0 := spinflip_operator A zero s order in
  same_layout A o0 o -> same_layout A o0 o1 ->
  exists v o', flatten A o = Some v /\ length v = o_ndim A o0 /\
    unflatten A o1 v = Some o' /\ same_layout A o0 o' /\ same_amplitudes A o' o.
Proof.
  intros A zero s order o o1 Hd o0 Ho Ho1.
  destruct (spinflip_layout A zero s order Hd) as (es & E & Al & N & L & Ne).
  unfold o0 in *. rewrite E in *. apply (roundtrip A (1 + order) es); auto.
Qed.
Theorem C08_spinflip_vector : forall A (zero : A) s order o v, order <= 2 ->
  let o0 := spinflip_operator A zero s order in
  same_layout A o0 o -> length v = o_ndim A o0 ->
  exists o', unflatten A o v = Some o' /\ same_layout A o0 o' /\ flatten A o' = Some v.
Proof.
  intros A zero s order o v Hd o0 Ho Lv.
  destruct (spinflip_layout A zero s order Hd) as (es & E & Al & N & L & Ne).
  unfold o0 in *. rewrite E in *. apply (unflatten_total A (1 + order) es); auto; lia.
Qed.
Example C08_instance :
  match fock_operator nat 0 demo_sys 2 1 demo_dense, fock_operator nat 0 demo_sys 2 4 demo_dense with
  | Some x, Some y => o_ndim nat x = 16 /\ o_ndim nat y = 90
  | _, _ => False
  end /\ o_ndim nat (spinflip_operator nat 0 demo_sys 1) = 48
  /\ fock_operator nat 0 demo_sys 4 1 demo_dense <> None.
Proof. vm_compute. repeat split; discriminate. Qed.

(** ** C09 *)
(** [o] is any order-3 operator with P-space triples lists of positive sizes n0..n3 (as built, then
    filled with arbitrary amplitudes); extending to lists of sizes m0..m3 >= n0..n3. *)
Theorem C09_extend_keeps_amplitudes : forall A (zero : A) s n0 n1 n2 n3 m0 m1 m2 m3 o0 o,
  0 < n0 <= m0 -> 0 < n1 <= m1 -> 0 < n2 <= m2 -> 0 < n3 <= m3 ->
  cluster_operator A zero s 3 (mkConfig [3] [[n0; n1; n2; n3]] [] []) = Some o0 ->
  same_layout A o0 o ->
  exists o' onew,
    extend_pspace_t3_operator A zero o [m0; m1; m2; m3] = Some o' /\
    cluster_operator A zero s 3 (mkConfig [3] [[m0; m1; m2; m3]] [] []) = Some onew /\
    same_layout A onew o' /\
    (forall nm, In nm [[La]; [Lb]; [La; La]; [La; Lb]; [Lb; Lb]] -> o_attrs A o' nm = o_attrs A o nm) /\
    (forall nm n m, In (nm, (n, m)) [([La; La; La], (n0, m0)); ([La; La; Lb], (n1, m1));
                                     ([La; Lb; Lb], (n2, m2)); ([Lb; Lb; Lb], (n3, m3))] ->
       exists x, o_attrs A o nm = Some (Arr A (mkArr A [n] x)) /\
                 o_attrs A o' nm = Some (Arr A (mkArr A [m] (x ++ repeat zero (m - n))))).
Proof. intros; eapply extend_keeps; eauto. Qed.
Example C09_instance :
  exists o0, cluster_operator nat 0 demo_sys 3 demo_pspace = Some o0 /\
    match extend_pspace_t3_operator nat 0 (set_arr o0 [La; La; La] [8; 9]) [4; 3; 2; 1] with
    | Some o' => o_attrs nat o' [La; La; La] = Some (Arr nat (mkArr nat [4] [8; 9; 0; 0])) /\ o_ndim nat o' = 54
    | None => False
    end.
Proof. eexists. split; [reflexivity|]. vm_compute. split; reflexivity. Qed.

Print Assumptions C06_roundtrip.
Print Assumptions C06_vector.
Print Assumptions C06_constructor.
Print Assumptions C07_empty_lists_lengthen_the_vector.
Print Assumptions C07_empty_list_roundtrip_refuted.
Print Assumptions C07_active_below_dense_refuted.
Print Assumptions C08_fock_roundtrip.
Print Assumptions C08_fock_vector.
Print Assumptions C08_fock_defined.
Print Assumptions C08_triple_attachment_fails.
Print Assumptions C08_spinflip_roundtrip.
Print Assumptions C08_spinflip_vector.
Print Assumptions C09_extend_keeps_amplitudes.
