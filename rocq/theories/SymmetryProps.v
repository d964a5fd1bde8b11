(** C04 and C05: point-group products and irrep-resolved excitation counts. *)
From Coq Require Import List Arith NArith ZArith Bool Lia String.
From Verif Require Import Base SymmetryModel SymmetrySpec SymmetryProofs.
Import ListNotations.

(** ** C04 *)
(** In every supported group the irreps are numbered 0..n-1 (n a power of two) without repetition of names;
    the bitwise xor of two irrep numbers is the number of the irrep whose characters are the product of the
    characters, it is the only such irrep, and it is the entry of the stored product table. *)
Theorem C04_xor_is_irrep_product : forall pg, In pg supported ->
  exists irreps table,
    get_pg_irreps pg = Some irreps /\ sym_table pg = Some table /\
    NoDup (map fst irreps) /\
    map snd irreps = map N.of_nat (seq 0 (List.length irreps)) /\
    (exists p, List.length irreps = 2 ^ p) /\
    (forall x, In x (map fst irreps) <-> In x (map fst (characters pg))) /\
    forall x nx y ny, In (x, nx) irreps -> In (y, ny) irreps ->
      nth (N.to_nat ny) (nth (N.to_nat nx) table []) 99%N = N.lxor nx ny /\
      exists z, In (z, N.lxor nx ny) irreps /\ irrep_times pg x y z /\
        forall z', irrep_times pg x y z' -> z' = z.
Proof.
  assert (D : forall pg irreps table,
    get_pg_irreps pg = Some irreps -> sym_table pg = Some table ->
    forallb (fun p => forallb (fun q =>
      N.eqb (nth (N.to_nat (snd q)) (nth (N.to_nat (snd p)) table []) 99%N) (N.lxor (snd p) (snd q)) &&
      match find (fun r => N.eqb (snd r) (N.lxor (snd p) (snd q))) irreps with
      | None => false
      | Some r =>
          forallb (fun cx => forallb (fun cy => forallb (fun cz =>
             implb (String.eqb (fst cx) (fst p) && String.eqb (fst cy) (fst q))
                   (Bool.eqb (String.eqb (fst cz) (fst r))
                             (if list_eq_dec Z.eq_dec (pointwise (snd cx) (snd cy)) (snd cz) then true else false)))
             (characters pg)) (characters pg)) (characters pg)
      end) irreps) irreps = true ->
    (forall x, In x (map fst irreps) <-> In x (map fst (characters pg))) ->
    forall x nx y ny, In (x, nx) irreps -> In (y, ny) irreps ->
      nth (N.to_nat ny) (nth (N.to_nat nx) table []) 99%N = N.lxor nx ny /\
      exists z, In (z, N.lxor nx ny) irreps /\ irrep_times pg x y z /\
        forall z', irrep_times pg x y z' -> z' = z).
  { intros pg irreps table _ _ H Hn x nx y ny Hx Hy.
    rewrite forallb_forall in H. specialize (H _ Hx). rewrite forallb_forall in H. specialize (H _ Hy).
    apply andb_true_iff in H as [H1 H2]. cbn [fst snd] in *. apply N.eqb_eq in H1. split; [exact H1|].
    destruct (find _ irreps) as [[z nz]|] eqn:F; [|discriminate]. apply find_some in F as [F1 F2].
    cbn in F2. apply N.eqb_eq in F2. subst nz. exists z. split; [exact F1|].
    assert (G : forall u v w cu cv cw, u = x -> v = y -> In (u, cu) (characters pg) -> In (v, cv) (characters pg) ->
       In (w, cw) (characters pg) -> (pointwise cu cv = cw <-> w = z)).
    { intros u v w cu cv cw -> -> Hu Hv Hw. rewrite forallb_forall in H2. specialize (H2 _ Hu).
      rewrite forallb_forall in H2. specialize (H2 _ Hv). rewrite forallb_forall in H2. specialize (H2 _ Hw).
      cbn [fst snd] in H2. rewrite !String.eqb_refl in H2. cbn [andb implb] in H2.
      apply eqb_prop in H2. destruct (String.eqb_spec w z), (list_eq_dec Z.eq_dec (pointwise cu cv) cw); intuition congruence. }
    assert (L : forall u, In u (map fst irreps) -> exists cu, In (u, cu) (characters pg)).
    { intros u Hu. apply Hn in Hu. apply in_map_iff in Hu as ([? cu] & <- & Hu). eauto. }
    split.
    - destruct (L x) as [cx Hcx]; [now apply (in_map fst) in Hx|]. destruct (L y) as [cy Hcy]; [now apply (in_map fst) in Hy|].
      destruct (L z) as [cz Hcz]; [now apply (in_map fst) in F1|]. exists cx, cy, cz. repeat split; auto.
      now apply (G x y z cx cy cz).
    - intros z' (cx & cy & cz & Hcx & Hcy & Hcz & E). eapply (G x y z' cx cy cz); eauto. }
  intros pg H. cbn in H.
  Ltac group_case D g :=
    eexists; eexists; split; [reflexivity|]; split; [reflexivity|];
    assert (Hn : forall x, In x (map fst (match get_pg_irreps g with Some l => l | None => [] end)) <-> In x (map fst (characters g)))
      by (intro x; cbn; tauto);
    split; [cbn; repeat constructor; cbn; intuition discriminate|]; split; [reflexivity|];
    split; [first [now exists 0|now exists 1|now exists 2|now exists 3]|];
    split; [exact Hn|]; eapply (D g); [reflexivity|reflexivity|vm_compute; reflexivity|exact Hn].
  destruct H as [<-|H]; [group_case D "C1"%string|].
  destruct H as [<-|H]; [group_case D "C2"%string|].
  destruct H as [<-|H]; [group_case D "CI"%string|].
  destruct H as [<-|H]; [group_case D "CS"%string|].
  destruct H as [<-|H]; [group_case D "C2V"%string|].
  destruct H as [<-|H]; [group_case D "C2H"%string|].
  destruct H as [<-|H]; [group_case D "D2"%string|].
  destruct H as [<-|H]; [group_case D "D2H"%string|].
  destruct H.
Qed.

(** Group laws of the product used throughout the code, for irreps of any such group. *)
Theorem C04_group_laws : forall pg irreps, get_pg_irreps pg = Some irreps ->
  let irr := fun n => In n (map snd irreps) in
  (forall m n, irr m -> irr n -> irr (N.lxor m n)) /\ irr 0%N /\
  (forall m n k, N.lxor (N.lxor m n) k = N.lxor m (N.lxor n k)) /\
  (forall m n, N.lxor m n = N.lxor n m) /\ (forall n, N.lxor 0 n = n) /\ (forall n, N.lxor n n = 0%N).
Proof.
  intros pg irreps H irr.
  split; [|split; [|split; [|split; [|split]]]]; intros;
    try (apply N.lxor_assoc || apply N.lxor_comm || reflexivity || apply N.lxor_nilpotent).
  - unfold irr in *. unfold get_pg_irreps in H.
    repeat match type of H with (if ?b then _ else _) = _ => destruct b end; try discriminate;
    injection H as <-; cbn in *; intuition (subst; cbn; tauto).
  - unfold irr in *. unfold get_pg_irreps in H.
    repeat match type of H with (if ?b then _ else _) = _ => destruct b end; try discriminate;
    injection H as <-; cbn in *; tauto.
Qed.
Example C04_instance : exists irreps, get_pg_irreps "D2H" = Some irreps /\
  In ("B1G"%string, 1%N) irreps /\ In ("B2U"%string, 6%N) irreps /\ irrep_times "D2H" "B1G" "B2U" "B3U" /\ N.lxor 1 6 = 7%N.
Proof.
  eexists. split; [reflexivity|]. cbn. split; [tauto|]. split; [tauto|]. split; [|reflexivity].
  eexists. eexists. eexists. cbn. split; [right; left; reflexivity|].
  split; [right; right; right; right; right; right; left; reflexivity|].
  split; [right; right; right; right; right; right; right; left; reflexivity|reflexivity].
Qed.

(** ** C05 *)
(** Inputs produced by a System with a supported point group: enough orbital symmetries, each an irrep of the
    group, and the reference irrep equal to the product over the occupied spin orbitals (C02). *)
Definition valid_sym (s : symsys) : Prop :=
  noa s <= norb s /\ nob s <= norb s /\ norb s <= List.length (osym s) /\
  (exists p, nirrep s = 2 ^ p) /\ (forall x, In x (osym s) -> N.to_nat x < nirrep s) /\
  refsym s = irrep_product (map (fun i => nth i (osym s) 0%N) (seq 0 (noa s) ++ seq 0 (nob s))).
Definition orb_irrep (s : symsys) (i : nat) : N := nth i (osym s) 0%N.

Theorem C05_count_singles : forall s, valid_sym s ->
  correct_counts (noa s) (nob s) (norb s) (orb_irrep s) (nirrep s)
    [mkClass 1 1 0 0; mkClass 0 0 1 1] (count_singles s).
Proof.
  intros s H. change (good s) in H. apply (counts_final s _ (andthen (singles_nest s (noa s)) (singles_nest s (nob s)))); auto.
  - repeat constructor; cbn; intuition discriminate.
  - apply counts_more; [now apply singles_a|]. now apply counts_one, singles_b.
Qed.
Theorem C05_count_doubles : forall s, valid_sym s ->
  correct_counts (noa s) (nob s) (norb s) (orb_irrep s) (nirrep s)
    [mkClass 2 2 0 0; mkClass 1 1 1 1; mkClass 0 0 2 2] (count_doubles s).
Proof.
  intros s H. change (good s) in H.
  apply (counts_final s _ (andthen (doubles_same s (noa s)) (andthen (doubles_mixed s) (doubles_same s (nob s))))); auto.
  - repeat constructor; cbn; intuition discriminate.
  - apply counts_more; [now apply doubles_a|]. apply counts_more; [now apply doubles_m|]. now apply counts_one, doubles_b.
Qed.
Theorem C05_count_triples : forall s, valid_sym s ->
  correct_counts (noa s) (nob s) (norb s) (orb_irrep s) (nirrep s)
    [mkClass 3 3 0 0; mkClass 2 2 1 1; mkClass 1 1 2 2; mkClass 0 0 3 3] (count_triples s).
Proof.
  intros s H. change (good s) in H.
  apply (counts_final s _ (andthen (triples_same s (noa s)) (andthen (triples_aab s) (andthen (triples_abb s) (triples_same s (nob s)))))); auto.
  - repeat constructor; cbn; intuition discriminate.
  - apply counts_more; [now apply triples_a|]. apply counts_more; [now apply triples_ab|].
    apply counts_more; [now apply triples_bb|]. now apply counts_one, triples_b.
Qed.
Theorem C05_count_1p : forall s, valid_sym s ->
  correct_counts (noa s) (nob s) (norb s) (orb_irrep s) (nirrep s) [mkClass 0 1 0 0] (count_1p s).
Proof.
  intros s H. change (good s) in H. apply (counts_final s _ (nest_1p s)); auto.
  - repeat constructor; cbn; intuition discriminate.
  - now apply counts_one, c1p.
Qed.
Theorem C05_count_2p1h : forall s, valid_sym s ->
  correct_counts (noa s) (nob s) (norb s) (orb_irrep s) (nirrep s)
    [mkClass 1 2 0 0; mkClass 0 1 1 1] (count_2p1h s).
Proof.
  intros s H. change (good s) in H. apply (counts_final s _ (andthen (nest_2p1h_a s) (nest_2p1h_b s))); auto.
  - repeat constructor; cbn; intuition discriminate.
  - apply counts_more; [now apply c2p1h_a|]. now apply counts_one, c2p1h_b.
Qed.
Theorem C05_count_3p2h : forall s, valid_sym s ->
  correct_counts (noa s) (nob s) (norb s) (orb_irrep s) (nirrep s)
    [mkClass 2 3 0 0; mkClass 1 2 1 1; mkClass 0 1 2 2] (count_3p2h s).
Proof.
  intros s H. change (good s) in H.
  apply (counts_final s _ (andthen (nest_3p2h_a s) (andthen (nest_3p2h_b s) (nest_3p2h_c s)))); auto.
  - repeat constructor; cbn; intuition discriminate.
  - apply counts_more; [now apply c3p2h_a|]. apply counts_more; [now apply c3p2h_b|]. now apply counts_one, c3p2h_c.
Qed.
(** Six orbitals of C2v labels, two alpha and one beta electron. *)
Definition demo_sym : symsys := mkSymsys 2 1 5 [0; 2; 0; 3; 2; 1]%N 4 2%N.
Example C05_instance : valid_sym demo_sym /\ count_singles demo_sym = Some ([4; 2; 3; 1], 10) /\
  count_triples demo_sym = Some ([3; 4; 2; 3], 12) /\ count_3p2h demo_sym = Some ([5; 8; 5; 7], 25).
Proof.
  split; [|vm_compute; repeat split].
  split; [cbn; lia|]. split; [cbn; lia|]. split; [cbn; lia|]. split; [exists 2; reflexivity|]. split; [|reflexivity].
  intros x H. cbn in H. intuition (subst; vm_compute; lia).
Qed.

Print Assumptions C04_xor_is_irrep_product.
Print Assumptions C04_group_laws.
Print Assumptions C05_count_singles.
Print Assumptions C05_count_doubles.
Print Assumptions C05_count_triples.
Print Assumptions C05_count_1p.
Print Assumptions C05_count_2p1h.
Print Assumptions C05_count_3p2h.
