(** C10, C11, C12: permutation parity, lineup permutation, determinant differences. *)
From Coq Require Import ZArith List Arith Bool Permutation Lia.
From Verif Require Import Base PermModel PermSpec PermProofs.
Import ListNotations.

(** C10: for a permutation of 0..n-1 the returned parity is (-1)^(number of inversions);
    as a side effect the argument list is sorted into the identity. *)
Theorem C10_parity_is_sign : forall lst, is_perm lst ->
  calculate_permutation_parity lst = sign lst.
Proof. intros. unfold calculate_permutation_parity. now rewrite parity_correct. Qed.

Theorem C10_argument_is_sorted_in_place : forall lst, is_perm lst ->
  snd (calculate_permutation_parity_st lst) = seq 0 (length lst).
Proof. intros. now rewrite parity_correct. Qed.

(** C10, antisymmetry: exchanging two entries of a permutation flips the reported parity. *)
Theorem C10_exchange_flips_parity : forall p x m y q,
  is_perm (p ++ x :: m ++ y :: q) ->
  calculate_permutation_parity (p ++ y :: m ++ x :: q)
  = (- calculate_permutation_parity (p ++ x :: m ++ y :: q))%Z.
Proof.
  intros p x m y q H.
  assert (PP : Permutation (p ++ x :: m ++ y :: q) (p ++ y :: m ++ x :: q)).
  { apply Permutation_app_head. rewrite <- Permutation_middle. rewrite perm_swap. apply perm_skip.
    now rewrite <- Permutation_middle. }
  rewrite !C10_parity_is_sign; [|assumption|].
  - apply sign_swap. now apply is_perm_NoDup.
  - unfold is_perm. rewrite <- (Permutation_length PP). rewrite <- PP. exact H.
Qed.

Example C10_instance : is_perm [3; 0; 2; 4; 1] /\ calculate_permutation_parity [3; 0; 2; 4; 1] = (-1)%Z
  /\ inversions [3; 0; 2; 4; 1] = 5.
Proof.
  split; [|split; reflexivity]. unfold is_perm. cbn.
  apply NoDup_Permutation; [repeat constructor; cbn; lia..|]. intro x. cbn. lia.
Qed.

(** C11: both results start with the sorted common indices (same positions in both), followed by the
    sorted remaining ones; each is a rearrangement of its input; each phase is the sign of the
    rearrangement of the sorted list. *)
Theorem C11_lineup : forall g1 g2, NoDup g1 -> NoDup g2 ->
  exists c d1 d2,
    do_lineup_permutation g1 g2 = ((c ++ d1, c ++ d2), (sign (c ++ d1), sign (c ++ d2))) /\
    Permutation (c ++ d1) g1 /\ Permutation (c ++ d2) g2 /\
    (forall x, In x c <-> In x g1 /\ In x g2) /\
    (forall x, ~ (In x d1 /\ In x d2)) /\
    increasing c /\ increasing d1 /\ increasing d2.
Proof. exact lineup_correct. Qed.

Example C11_instance : do_lineup_permutation [5; 1; 3] [4; 3; 7; 5] = (([3; 5; 1], [3; 5; 4; 7]), (1%Z, (-1)%Z))
  /\ NoDup [5; 1; 3] /\ NoDup [4; 3; 7; 5].
Proof. split; [vm_compute; reflexivity|]. split; repeat constructor; cbn; lia. Qed.

(** C12: holes and particles are the set differences; as many holes as particles as the rank;
    applying the excitation to the reference gives the determinant back. *)
Theorem C12_holes_and_particles : forall D D0 x,
  (In x (get_excits_from D D0) <-> In x D0 /\ ~ In x D) /\
  (In x (get_excits_to D D0) <-> In x D /\ ~ In x D0) /\
  (In x D <-> (In x D0 /\ ~ In x (get_excits_from D D0)) \/ In x (get_excits_to D D0)).
Proof.
  intros. unfold get_excits_from, get_excits_to. rewrite !set_minus_In.
  destruct (in_dec Nat.eq_dec x D), (in_dec Nat.eq_dec x D0); tauto.
Qed.

Theorem C12_rank : forall D D0, NoDup D -> NoDup D0 -> length D = length D0 ->
  NoDup (get_excits_from D D0) /\ NoDup (get_excits_to D D0) /\
  length (get_excits_from D D0) = get_excit_rank D D0 /\
  length (get_excits_to D D0) = get_excit_rank D D0 /\
  get_excit_rank D D0 = get_excit_rank D0 D /\
  (get_excit_rank D D0 = 0 <-> (forall x, In x D <-> In x D0)).
Proof.
  intros D D0 H H0 L. unfold get_excits_from, get_excits_to, get_excit_rank.
  split; [apply set_minus_NoDup|]. split; [apply set_minus_NoDup|].
  split; [now apply excit_rank_sym|]. split; [reflexivity|]. split; [now apply excit_rank_sym|].
  split; intro E.
  - assert (E2 : length (set_minus D0 D) = 0) by (rewrite <- (excit_rank_sym D D0); assumption).
    apply length_zero_iff_nil in E, E2. intro x.
    assert (A := set_minus_In D D0 x). assert (B := set_minus_In D0 D x). rewrite E in A. rewrite E2 in B. cbn in A, B.
    destruct (in_dec Nat.eq_dec x D), (in_dec Nat.eq_dec x D0); tauto.
  - destruct (set_minus D D0) as [|y l] eqn:F; [reflexivity|].
    assert (K : In y (set_minus D D0)) by (rewrite F; now left).
    apply set_minus_In in K. rewrite E in K. tauto.
Qed.

(** C12, spin string: alpha (odd) first; defined exactly when spin is conserved. *)
Theorem C12_spincase : forall from to,
  length from = length to ->
  (length (filter Nat.odd from) = length (filter Nat.odd to) ->
     get_spincase from to = Some (repeat Sa (length (filter Nat.odd from))
                                  ++ repeat Sb (length (filter (fun x => negb (Nat.odd x)) from)))) /\
  (length (filter Nat.odd from) <> length (filter Nat.odd to) -> get_spincase from to = None).
Proof.
  intros from to L. unfold get_spincase. rewrite L, Nat.eqb_refl, <- L, !sum_mod2_odd_count. split; intro H.
  - rewrite H, Nat.eqb_refl, <- H. do 3 f_equal.
    pose proof (Permutation_length (filter_split_perm Nat.odd from)) as E. rewrite app_length in E. lia.
  - destruct (Nat.eqb_spec (length (filter Nat.odd from)) (length (filter Nat.odd to))); [contradiction|reflexivity].
Qed.

(** C12, spin-orbital numbering: 2k-1 is alpha orbital k, 2k is beta orbital k. *)
Theorem C12_spatial_orbital : forall k, 1 <= k ->
  spatial_orb_idx (2 * k - 1) = k /\ spatial_orb_idx (2 * k) = k.
Proof. intros. split; [now apply spatial_odd|apply spatial_even]. Qed.

Example C12_instance :
  let D := [1; 2; 3; 6; 7; 9] in let D0 := [1; 2; 3; 4; 5; 6] in
  NoDup D /\ NoDup D0 /\ length D = length D0 /\ get_excit_rank D D0 = 2 /\
  get_excits_from D D0 = [4; 5] /\ get_excits_to D D0 = [7; 9] /\
  get_spincase [4; 5] [7; 9] = None /\ get_spincase [3; 5; 2] [7; 9; 8] = Some [Sa; Sa; Sb].
Proof. cbv zeta. repeat split; try reflexivity; repeat constructor; cbn; lia. Qed.

Print Assumptions C10_parity_is_sign.
Print Assumptions C10_argument_is_sorted_in_place.
Print Assumptions C10_exchange_flips_parity.
Print Assumptions C11_lineup.
Print Assumptions C12_holes_and_particles.
Print Assumptions C12_rank.
Print Assumptions C12_spincase.
Print Assumptions C12_spatial_orbital.
