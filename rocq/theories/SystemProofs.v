From Coq Require Import ZArith NArith List Lia.
From Verif Require Import Base SystemModel SystemSpec.
Import ListNotations.
Open Scope Z_scope.

Lemma int_half_even : forall k, int_half (2 * k) = k.
Proof. intro k. unfold int_half. rewrite Z.mul_comm. apply Z.quot_mul. lia. Qed.

Lemma int_half_odd_pos : forall k, 0 <= k -> int_half (2 * k + 1) = k.
Proof.
  intros k H. unfold int_half. rewrite Z.quot_div_nonneg by lia.
  replace (2 * k + 1) with (1 + k * 2) by lia. rewrite Z.div_add by lia. reflexivity.
Qed.

Lemma parity_cases : forall x, (exists k, x = 2 * k) \/ (exists k, x = 2 * k + 1).
Proof. intro x. destruct (Z.Even_or_Odd x) as [[k H]|[k H]]; eauto. Qed.

Lemma system_counts :
  forall nelec norb mult nfrozen ndelete no nu,
    valid_input nelec norb mult nfrozen ndelete ->
    let s := make_system nelec norb mult nfrozen ndelete no nu in
    0 <= noccupied_alpha s /\ 0 <= noccupied_beta s /\
    0 <= nunoccupied_alpha s /\ 0 <= nunoccupied_beta s /\
    noccupied_alpha s + nunoccupied_alpha s = norb - nfrozen - ndelete /\
    noccupied_beta s + nunoccupied_beta s = norb - nfrozen - ndelete /\
    noccupied_alpha s - noccupied_beta s = mult - 1 /\
    noccupied_alpha s + noccupied_beta s =
      nelec - 2 * nfrozen - (if Z.even (nelec + mult) then 1 else 0).
Proof.
  intros nelec norb mult nfrozen ndelete no nu (H1 & H2 & H3 & H4 & H5).
  cbn [make_system set_active_space noccupied_alpha noccupied_beta nunoccupied_alpha nunoccupied_beta].
  destruct (parity_cases (nelec - 2 * nfrozen + mult - 1)) as [[k Hk]|[k Hk]].
  - replace (nelec - 2 * nfrozen - mult + 1) with (2 * (k - (mult - 1))) by lia.
    rewrite Hk, !int_half_even.
    replace (nelec + mult) with (1 + 2 * (k + nfrozen)) by lia.
    rewrite Z.even_add_mul_2. change (Z.even 1) with false. lia.
  - replace (nelec - 2 * nfrozen - mult + 1) with (2 * (k - (mult - 1)) + 1) by lia.
    rewrite Hk, !int_half_odd_pos by lia.
    replace (nelec + mult) with (0 + 2 * (k + nfrozen + 1)) by lia.
    rewrite Z.even_add_mul_2. change (Z.even 0) with true. lia.
Qed.

Lemma xor_times_2 : forall irr sym, xor_times 2 irr sym = sym.
Proof. intros. cbn. now rewrite N.lxor_assoc, N.lxor_nilpotent, N.lxor_0_r. Qed.

Lemma ref_sym_loop_double : forall n m occ irr sym,
  (n <= m)%nat -> (m <= length irr)%nat ->
  ref_sym_loop m (repeat 2%nat n ++ occ) irr sym = ref_sym_loop (m - n) occ (skipn n irr) sym.
Proof.
  induction n; intros m occ irr sym H1 H2.
  - cbn. now rewrite Nat.sub_0_r.
  - destruct m; [lia|]. destruct irr as [|x irr]; [cbn in H2; lia|].
    cbn [repeat app ref_sym_loop skipn Nat.sub]. rewrite xor_times_2. apply IHn; cbn in H2; lia.
Qed.

Lemma ref_sym_loop_single : forall n occ irr sym,
  (n <= length irr)%nat ->
  ref_sym_loop n (repeat 1%nat n ++ occ) irr sym = Some (N.lxor sym (irrep_product (firstn n irr))).
Proof.
  induction n; intros occ irr sym H.
  - cbn. now rewrite N.lxor_0_r.
  - destruct irr as [|x irr]; [cbn in H; lia|].
    cbn [repeat app ref_sym_loop xor_times firstn irrep_product].
    rewrite IHn by (cbn in H; lia). now rewrite N.lxor_assoc.
Qed.

Lemma system_reference_symmetry :
  forall nelec norb mult nfrozen ndelete no nu irreps,
    valid_input nelec norb mult nfrozen ndelete ->
    length irreps = Z.to_nat norb ->
    let s := make_system nelec norb mult nfrozen ndelete no nu in
    reference_symmetry s None irreps =
      Some (irrep_product (segment (Z.to_nat (nfrozen + noccupied_beta s)) (Z.to_nat (mult - 1)) irreps)).
Proof.
  intros nelec norb mult nfrozen ndelete no nu irreps Hv Hl s.
  pose proof (system_counts nelec norb mult nfrozen ndelete no nu Hv) as Hc. fold s in Hc.
  destruct Hv as (H1 & H2 & H3 & H4 & H5).
  assert (Hf : s_nfrozen s = nfrozen) by reflexivity.
  assert (Ho : norbitals s = norb - nfrozen - ndelete) by reflexivity.
  clearbody s. destruct Hc as (c1 & c2 & c3 & c4 & c5 & c6 & c7 & c8).
  unfold reference_symmetry, default_mo_occupation, py_repeat.
  rewrite !app_length, !repeat_length.
  destruct (Z.eqb_spec (Z.of_nat (Z.to_nat (s_nfrozen s) +
     (Z.to_nat (noccupied_beta s) + (Z.to_nat (noccupied_alpha s - noccupied_beta s) +
      Z.to_nat (norbitals s - noccupied_alpha s))))) (norbitals s + s_nfrozen s)) as [E|E]; [|lia].
  rewrite Hf, c7. clear E.
  rewrite ref_sym_loop_double by lia.
  rewrite ref_sym_loop_double.
  2: lia. 2: rewrite skipn_length; lia.
  replace (Z.to_nat (nfrozen + noccupied_alpha s) - Z.to_nat nfrozen - Z.to_nat (noccupied_beta s))%nat
    with (Z.to_nat (mult - 1)) by lia.
  rewrite ref_sym_loop_single.
  2: rewrite !skipn_length; lia.
  rewrite N.lxor_0_l. unfold segment. f_equal. f_equal. f_equal.
  rewrite skipn_skipn. f_equal. lia.
Qed.

Lemma active_alpha : forall s nact_o nact_u,
  0 <= noccupied_alpha s -> 0 <= nunoccupied_alpha s -> 1 <= s_multiplicity s ->
  0 <= nact_o -> 0 <= nact_u ->
  let t := set_active_space s nact_o nact_u in
  0 <= num_core_alpha t /\ 0 <= num_act_occupied_alpha t /\
  0 <= num_act_unoccupied_alpha t /\ 0 <= num_virt_alpha t /\
  num_core_alpha t + num_act_occupied_alpha t = noccupied_alpha s /\
  num_act_unoccupied_alpha t + num_virt_alpha t = nunoccupied_alpha s.
Proof. intros. cbn in *. lia. Qed.

Lemma active_beta : forall s nact_o nact_u,
  0 <= noccupied_beta s -> 0 <= nunoccupied_alpha s -> 1 <= s_multiplicity s ->
  nunoccupied_beta s = nunoccupied_alpha s + (s_multiplicity s - 1) ->
  0 <= nact_o -> 0 <= nact_u ->
  let t := set_active_space s nact_o nact_u in
  0 <= num_core_beta t /\ 0 <= num_act_occupied_beta t /\
  0 <= num_act_unoccupied_beta t /\ 0 <= num_virt_beta t /\
  num_core_beta t + num_act_occupied_beta t = noccupied_beta s /\
  (num_act_unoccupied_beta t + num_virt_beta t = nunoccupied_beta s <->
   s_multiplicity s = 1 \/ nunoccupied_alpha s <= nact_u) .
Proof. intros. cbn in *. lia. Qed.

Lemma full_active : forall s,
  0 <= noccupied_alpha s -> 0 <= nunoccupied_alpha s -> 1 <= s_multiplicity s ->
  noccupied_beta s <= noccupied_alpha s -> nunoccupied_alpha s <= nunoccupied_beta s ->
  let t := set_full_active_space s in
  num_core_alpha t = 0 /\ num_core_beta t = 0 /\ num_virt_alpha t = 0 /\ num_virt_beta t = 0 /\
  num_act_occupied_alpha t = noccupied_alpha s /\ num_act_occupied_beta t = noccupied_beta s /\
  num_act_unoccupied_alpha t = nunoccupied_alpha s /\ num_act_unoccupied_beta t = nunoccupied_beta s.
Proof. intros. cbn in *. lia. Qed.
