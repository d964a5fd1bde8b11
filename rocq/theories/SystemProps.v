(** C01, C02, C03: System bookkeeping. *)
From Coq Require Import ZArith NArith List Lia.
From Verif Require Import Base SystemModel SystemSpec SystemProofs.
Import ListNotations.
Open Scope Z_scope.

(** C01, consistent parity: all counts are non-negative and add up. *)
Theorem C01_electron_accounting :
  forall nelec norb mult nfrozen ndelete nact_o nact_u,
    valid_input nelec norb mult nfrozen ndelete ->
    Z.Odd (nelec + mult) ->
    let s := make_system nelec norb mult nfrozen ndelete nact_o nact_u in
    0 <= noccupied_alpha s /\ 0 <= noccupied_beta s /\
    0 <= nunoccupied_alpha s /\ 0 <= nunoccupied_beta s /\
    noccupied_alpha s + nunoccupied_alpha s = norb - nfrozen - ndelete /\
    noccupied_beta s + nunoccupied_beta s = norb - nfrozen - ndelete /\
    noccupied_alpha s - noccupied_beta s = mult - 1 /\
    noccupied_alpha s + noccupied_beta s = nelec - 2 * nfrozen.
Proof.
  intros nelec norb mult nfrozen ndelete nact_o nact_u Hv Hodd s.
  pose proof (system_counts nelec norb mult nfrozen ndelete nact_o nact_u Hv) as H. cbv zeta in H; fold s in H.
  assert (E : Z.even (nelec + mult) = false).
  { rewrite <- Z.negb_odd. apply Bool.negb_false_iff. now apply Z.odd_spec. }
  rewrite E in H. clearbody s. lia.
Qed.

(** C01, inconsistent parity: no error is raised and exactly one electron disappears. *)
Theorem C01_inconsistent_parity_drops_electron :
  forall nelec norb mult nfrozen ndelete nact_o nact_u,
    valid_input nelec norb mult nfrozen ndelete ->
    Z.Even (nelec + mult) ->
    let s := make_system nelec norb mult nfrozen ndelete nact_o nact_u in
    noccupied_alpha s - noccupied_beta s = mult - 1 /\
    noccupied_alpha s + noccupied_beta s = nelec - 2 * nfrozen - 1.
Proof.
  intros nelec norb mult nfrozen ndelete nact_o nact_u Hv Hev s.
  pose proof (system_counts nelec norb mult nfrozen ndelete nact_o nact_u Hv) as H. cbv zeta in H; fold s in H.
  assert (E : Z.even (nelec + mult) = true) by now apply Z.even_spec.
  rewrite E in H. clearbody s. lia.
Qed.

(** Water, 6-31G, one frozen core orbital; and a methylene triplet. *)
Example C01_instance :
  valid_input 10 13 1 1 0 /\ Z.Odd (10 + 1) /\
  noccupied_alpha (make_system 10 13 1 1 0 0 0) = 4 /\
  nunoccupied_beta (make_system 8 13 3 1 1 0 0) = 9.
Proof. repeat split; try (now vm_compute); try (unfold valid_input; lia). exists 5. lia. Qed.
Example C01_instance_parity : valid_input 10 13 2 0 0 /\ Z.Even (10 + 2) /\
  noccupied_alpha (make_system 10 13 2 0 0 0 0) = 5 /\ noccupied_beta (make_system 10 13 2 0 0 0 0) = 4.
Proof. repeat split; try (now vm_compute); try (unfold valid_input; lia). exists 6. lia. Qed.

(** C02: the reference irrep is the product over the singly occupied orbitals. *)
Theorem C02_reference_symmetry :
  forall nelec norb mult nfrozen ndelete nact_o nact_u irreps,
    valid_input nelec norb mult nfrozen ndelete ->
    length irreps = Z.to_nat norb ->
    let s := make_system nelec norb mult nfrozen ndelete nact_o nact_u in
    reference_symmetry s None irreps =
      Some (irrep_product
              (segment (Z.to_nat (nfrozen + noccupied_beta s)) (Z.to_nat (mult - 1)) irreps)).
Proof. exact system_reference_symmetry. Qed.

(** C02, closed shells: totally symmetric. *)
Theorem C02_closed_shell_totally_symmetric :
  forall nelec norb nfrozen ndelete nact_o nact_u irreps,
    valid_input nelec norb 1 nfrozen ndelete ->
    length irreps = Z.to_nat norb ->
    reference_symmetry (make_system nelec norb 1 nfrozen ndelete nact_o nact_u) None irreps = Some 0%N.
Proof.
  intros. rewrite (system_reference_symmetry nelec norb 1 nfrozen ndelete nact_o nact_u irreps) by assumption.
  reflexivity.
Qed.

Example C02_instance :
  valid_input 8 6 3 1 0 /\ length [0; 0; 2; 0; 3; 1]%N = Z.to_nat 6 /\
  reference_symmetry (make_system 8 6 3 1 0 0 0) None [0; 0; 2; 0; 3; 1]%N = Some 3%N.
Proof. repeat split; try (now vm_compute); unfold valid_input; lia. Qed.

(** C03, alpha: core/active/virtual partition, any sizes. *)
Theorem C03_active_space_partition_alpha :
  forall nelec norb mult nfrozen ndelete no0 nu0 nact_o nact_u,
    valid_input nelec norb mult nfrozen ndelete -> 0 <= nact_o -> 0 <= nact_u ->
    let s := make_system nelec norb mult nfrozen ndelete no0 nu0 in
    let t := set_active_space s nact_o nact_u in
    0 <= num_core_alpha t /\ 0 <= num_act_occupied_alpha t /\
    0 <= num_act_unoccupied_alpha t /\ 0 <= num_virt_alpha t /\
    num_core_alpha t + num_act_occupied_alpha t = noccupied_alpha s /\
    num_act_unoccupied_alpha t + num_virt_alpha t = nunoccupied_alpha s.
Proof.
  intros nelec norb mult nfrozen ndelete no0 nu0 nact_o nact_u Hv Ho Hu s.
  pose proof (system_counts nelec norb mult nfrozen ndelete no0 nu0 Hv) as H. cbv zeta in H; fold s in H.
  assert (Hm : s_multiplicity s = mult) by reflexivity. unfold valid_input in Hv.
  clearbody s. apply active_alpha; lia.
Qed.

(** C03, beta: the occupied side is always right; the unoccupied side is right exactly for
    singlets or when all alpha unoccupied orbitals are requested active. *)
Theorem C03_active_space_partition_beta :
  forall nelec norb mult nfrozen ndelete no0 nu0 nact_o nact_u,
    valid_input nelec norb mult nfrozen ndelete -> 0 <= nact_o -> 0 <= nact_u ->
    let s := make_system nelec norb mult nfrozen ndelete no0 nu0 in
    let t := set_active_space s nact_o nact_u in
    num_core_beta t + num_act_occupied_beta t = noccupied_beta s /\
    0 <= num_core_beta t /\ 0 <= num_act_occupied_beta t /\
    0 <= num_act_unoccupied_beta t /\ 0 <= num_virt_beta t /\
    (num_act_unoccupied_beta t + num_virt_beta t = nunoccupied_beta s <->
       mult = 1 \/ nunoccupied_alpha s <= nact_u).
Proof.
  intros nelec norb mult nfrozen ndelete no0 nu0 nact_o nact_u Hv Ho Hu s.
  pose proof (system_counts nelec norb mult nfrozen ndelete no0 nu0 Hv) as H. cbv zeta in H; fold s in H.
  assert (Hm : s_multiplicity s = mult) by reflexivity. unfold valid_input in Hv.
  clearbody s. intro t.
  pose proof (active_beta s nact_o nact_u) as K. fold t in K. cbn zeta in K. rewrite Hm in K.
  assert (K2 := K ltac:(lia) ltac:(lia) ltac:(lia) ltac:(lia) Ho Hu). tauto.
Qed.

(** C03, the defect: a triplet with 2 of 4 alpha unoccupied orbitals active loses two beta orbitals. *)
Theorem C03_beta_virtuals_refuted :
  exists nelec norb mult nact_o nact_u,
    valid_input nelec norb mult 0 0 /\ Z.Odd (nelec + mult) /\
    let t := make_system nelec norb mult 0 0 nact_o nact_u in
    num_act_unoccupied_beta t + num_virt_beta t < nunoccupied_beta t.
Proof. exists 8, 9, 3, 1, 1. repeat split; try (unfold valid_input; lia); try (exists 5; lia). Qed.

(** C03, full active space: everything is active. *)
Theorem C03_full_active_space :
  forall nelec norb mult nfrozen ndelete no0 nu0,
    valid_input nelec norb mult nfrozen ndelete ->
    let s := make_system nelec norb mult nfrozen ndelete no0 nu0 in
    let t := set_full_active_space s in
    num_core_alpha t = 0 /\ num_core_beta t = 0 /\ num_virt_alpha t = 0 /\ num_virt_beta t = 0 /\
    num_act_occupied_alpha t = noccupied_alpha s /\ num_act_occupied_beta t = noccupied_beta s /\
    num_act_unoccupied_alpha t = nunoccupied_alpha s /\
    num_act_unoccupied_beta t = nunoccupied_beta s.
Proof.
  intros nelec norb mult nfrozen ndelete no0 nu0 Hv s.
  pose proof (system_counts nelec norb mult nfrozen ndelete no0 nu0 Hv) as H. cbv zeta in H; fold s in H.
  assert (Hm : s_multiplicity s = mult) by reflexivity. unfold valid_input in Hv.
  clearbody s. apply full_active; lia.
Qed.

(** C03: the active window is the same for both spins: core orbitals of alpha and beta coincide, and so do the last active
    orbitals (counted from the first correlated orbital). *)
Theorem C03_same_window_for_both_spins :
  forall nelec norb mult nfrozen ndelete no0 nu0 nact_o nact_u,
    valid_input nelec norb mult nfrozen ndelete -> Z.Odd (nelec + mult) -> 0 <= nact_o -> 0 <= nact_u ->
    let s := make_system nelec norb mult nfrozen ndelete no0 nu0 in
    let t := set_active_space s nact_o nact_u in
    num_core_alpha t = num_core_beta t /\
    noccupied_alpha s + num_act_unoccupied_alpha t = noccupied_beta s + num_act_unoccupied_beta t.
Proof.
  intros nelec norb mult nfrozen ndelete no0 nu0 nact_o nact_u Hv (k & Hk) Ho Hu s.
  assert (E1 : noccupied_alpha s = Z.quot (nelec - 2 * nfrozen + mult - 1) 2) by reflexivity.
  assert (E2 : noccupied_beta s = Z.quot (nelec - 2 * nfrozen - mult + 1) 2) by reflexivity.
  assert (E3 : nunoccupied_alpha s = norb - nfrozen - ndelete - noccupied_alpha s) by reflexivity.
  assert (E4 : nunoccupied_beta s = norb - nfrozen - ndelete - noccupied_beta s) by reflexivity.
  assert (Hm : s_multiplicity s = mult) by reflexivity. unfold valid_input in Hv. clearbody s.
  replace (nelec - 2 * nfrozen + mult - 1) with ((k - nfrozen) * 2) in E1 by lia.
  replace (nelec - 2 * nfrozen - mult + 1) with ((k - nfrozen - mult + 1) * 2) in E2 by lia.
  rewrite Z.quot_mul in E1, E2 by lia. unfold set_active_space. cbn. rewrite Hm. lia.
Qed.
(** Orbital p of the correlated space carries the irrep of orbital nfrozen + p of the full list. *)
Theorem C02_orbital_symmetries :
  forall A (d : A) nelec norb mult nfrozen ndelete no0 nu0 irreps p,
    valid_input nelec norb mult nfrozen ndelete ->
    let s := make_system nelec norb mult nfrozen ndelete no0 nu0 in
    nth p (orbital_symmetries s irreps) d = nth (Z.to_nat nfrozen + p) irreps d.
Proof.
  intros A d nelec norb mult nfrozen ndelete no0 nu0 irreps p Hv s. unfold orbital_symmetries. change (s_nfrozen s) with nfrozen. clear s.
  generalize (Z.to_nat nfrozen) as m. intros m. revert irreps. induction m as [|m IH]; intros l; [reflexivity|].
  destruct l; [destruct p; reflexivity|]. apply IH.
Qed.

Example C03_instance : valid_input 10 13 1 1 0 /\
  num_virt_beta (make_system 10 13 1 1 0 2 3) = 5 /\ num_core_alpha (make_system 10 13 1 1 0 2 3) = 2.
Proof. repeat split; unfold valid_input; lia. Qed.

Print Assumptions C01_electron_accounting.
Print Assumptions C01_inconsistent_parity_drops_electron.
Print Assumptions C02_reference_symmetry.
Print Assumptions C02_closed_shell_totally_symmetric.
Print Assumptions C03_active_space_partition_alpha.
Print Assumptions C03_active_space_partition_beta.
Print Assumptions C03_beta_virtuals_refuted.
Print Assumptions C03_full_active_space.
Print Assumptions C03_same_window_for_both_spins.
Print Assumptions C02_orbital_symmetries.
