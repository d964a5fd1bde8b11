(** C45: layout of the initial-guess vectors. *)
From Coq Require Import List Arith ZArith Reals Bool Lia Lra Sorted.
From Verif Require Import GuessModel GuessSpec GuessProofs.
Import ListNotations.

(** A guess vector of the active-space singles-and-doubles problem is spread over the five amplitude blocks in lexicographic order of the
    active excitations: alpha singles, beta singles, then the three doubles blocks.  All the entries of the vector and no others are
    used, equal-spin blocks are filled antisymmetrically, and amplitudes outside the active space stay zero. *)
Theorem C45_cisd_layout s nacto nactu V :
  let oa := nacto_a s nacto in let ob := nacto_b s nacto in let ua := nactu_a s nactu in let ub := nactu_b s nactu in
  let L1 := singles (g_nua s) (g_noa s) in let L2 := singles (g_nub s) (g_nob s) in
  let L3 := same_spin ua (g_noa s - oa) (g_noa s) in
  let L4 := opp_spin ua ub (g_noa s - oa) (g_noa s) (g_nob s - ob) (g_nob s) in
  let L5 := same_spin ub (g_nob s - ob) (g_nob s) in
  let o1 := length L1 in let o2 := o1 + length L2 in let o3 := o2 + length L3 in let o4 := o3 + length L4 in
  let (X, n) := scatter s nacto nactu V in
  holds 0%R yes L1 V (v_a X) /\ holds 0%R yes L2 (fun k => V (o1 + k)) (v_b X) /\
  holds4 0%R Ropp yes L3 (fun k => V (o2 + k)) (v_aa X) /\ holds 0%R yes L4 (fun k => V (o3 + k)) (v_ab X) /\
  holds4 0%R Ropp yes L5 (fun k => V (o4 + k)) (v_bb X) /\ n = o4 + length L5.
Proof.
  cbv zeta. unfold scatter.
  pose proof (blk_1 (g_nua s) (g_noa s) V 0) as B1. destruct (scatter_1 (g_nua s) (g_noa s) V (zeros 0%R, 0)) as [x1 o1]. cbn [fst snd] in B1. destruct B1 as [B1 E1].
  simpl in E1. subst o1.
  pose proof (blk_1 (g_nub s) (g_nob s) V (length (singles (g_nua s) (g_noa s)))) as B2. destruct (scatter_1 _ _ V (zeros 0%R, length _)) as [x2 o2].
  cbn [fst snd] in B2. destruct B2 as [B2 E2]. subst o2.
  match goal with |- context [scatter_2s ?a ?b ?c ?d V (zeros 0%R, ?o)] => pose proof (blk_2s a b c d V o) as B3; destruct (scatter_2s a b c d V (zeros 0%R, o)) as [x3 o3] end.
  cbn [fst snd] in B3. destruct B3 as [B3 E3]; [unfold nactu_a; lia|]. subst o3.
  match goal with |- context [scatter_2ab ?a ?b ?c ?d ?e ?f ?g ?h V (zeros 0%R, ?o)] =>
    pose proof (blk_2ab a b c d e f g h V o) as B4; destruct (scatter_2ab a b c d e f g h V (zeros 0%R, o)) as [x4 o4] end.
  cbn [fst snd] in B4. destruct B4 as [B4 E4]; [unfold nactu_a; lia|unfold nactu_b; lia|]. subst o4.
  match goal with |- context [scatter_2s ?a ?b ?c ?d V (zeros 0%R, ?o)] => pose proof (blk_2s a b c d V o) as B5; destruct (scatter_2s a b c d V (zeros 0%R, o)) as [x5 o5] end.
  cbn [fst snd] in B5. destruct B5 as [B5 E5]; [unfold nactu_b; lia|]. subst o5.
  cbn [v_a v_b v_aa v_ab v_bb]. exact (conj B1 (conj B2 (conj B3 (conj B4 (conj B5 eq_refl))))).
Qed.

(** The active excitations listed are exactly the ones inside the active space. *)
Theorem C45_active_excitations :
  (forall a b i j n o no, In [a; b; i; j] (same_spin n o no) <-> (a < b < n /\ o <= i < j /\ j < no)) /\
  (forall a b i j na nb oa noa ob nob, In [a; b; i; j] (opp_spin na nb oa noa ob nob) <-> (a < na /\ b < nb /\ oa <= i < noa /\ ob <= j < nob)) /\
  (forall a i nu no, In [a; i] (singles nu no) <-> (a < nu /\ i < no)) /\
  (forall n o no, NoDup (same_spin n o no)) /\ (forall na nb oa noa ob nob, NoDup (opp_spin na nb oa noa ob nob)) /\ (forall nu no, NoDup (singles nu no)).
Proof.
  repeat apply conj; intros.
  - rewrite In_same. split; [intros (a' & b' & i' & j' & e & H); injection e as -> -> -> ->; tauto|intro; exists a, b, i, j; tauto].
  - rewrite In_opp. split; [intros (a' & b' & i' & j' & e & H); injection e as -> -> -> ->; tauto|intro; exists a, b, i, j; tauto].
  - rewrite In_singles. split; [intros (a' & i' & e & H); injection e as -> ->; tauto|intro; exists a, i; tauto].
  - apply ND_same.
  - apply ND_opp.
  - apply ND_singles.
Qed.

(** The number of entries read is the dimension of the matrix that was diagonalised, so no entry is left over and none is missing. *)
Theorem C45_cisd_dimension s nacto nactu V : snd (scatter s nacto nactu V) = ndim_cisd s nacto nactu.
Proof.
  pose proof (C45_cisd_layout s nacto nactu V) as H. cbv zeta in H. destruct (scatter s nacto nactu V) as [X n]. cbn [snd].
  destruct H as (_ & _ & _ & _ & _ & ->). rewrite !len_singles, len_opp. unfold ndim_cisd. cbv zeta.
  pose proof (len_same (nactu_a s nactu) (g_noa s - nacto_a s nacto) (g_noa s)) as A. pose proof (len_same (nactu_b s nactu) (g_nob s - nacto_b s nacto) (g_nob s)) as B.
  replace (g_noa s - (g_noa s - nacto_a s nacto)) with (nacto_a s nacto) in * by (unfold nacto_a; lia).
  replace (g_nob s - (g_nob s - nacto_b s nacto)) with (nacto_b s nacto) in * by (unfold nacto_b; lia).
  assert (QA : 4 * _ = nacto_a s nacto * (nacto_a s nacto - 1) * nactu_a s nactu * (nactu_a s nactu - 1)) by (etransitivity; [exact A|ring]); rewrite (div_unique4 _ _ QA).
  assert (QB : 4 * _ = nacto_b s nacto * (nacto_b s nacto - 1) * nactu_b s nactu * (nactu_b s nactu - 1)) by (etransitivity; [exact B|ring]); rewrite (div_unique4 _ _ QB). lia.
Qed.

(** The index arrays that place the matrix elements and the scattering agree: whenever the index array of a block holds +p or -p at an
    excitation (symmetry-allowed), the amplitude there is plus or minus the p-th entry of that block of the vector. *)
Theorem C45_cisd_indices s nacto nactu V sym1 sym2 :
  let I := get_index_arrays s nacto nactu sym1 sym2 in let X := fst (scatter s nacto nactu V) in
  let oa := nacto_a s nacto in let ob := nacto_b s nacto in let ua := nactu_a s nactu in let ub := nactu_b s nactu in
  let o1 := g_nua s * g_noa s in let o2 := o1 + g_nub s * g_nob s in let o3 := o2 + oa * (oa - 1) * ua * (ua - 1) / 4 in let o4 := o3 + oa * ob * ua * ub in
  (forall a i, placed (i_a I) V 0 (v_a X) [a; i]) /\ (forall a i, placed (i_b I) V o1 (v_b X) [a; i]) /\
  (forall a b i j, placed (i_aa I) V o2 (v_aa X) [a; b; i; j]) /\ (forall a b i j, placed (i_ab I) V o3 (v_ab X) [a; b; i; j]) /\
  (forall a b i j, placed (i_bb I) V o4 (v_bb X) [a; b; i; j]).
Proof.
  cbv zeta. pose proof (C45_cisd_layout s nacto nactu V) as H. cbv zeta in H. destruct (scatter s nacto nactu V) as [X n]. cbn [fst].
  destruct H as (H1 & H2 & H3 & H4 & H5 & _). rewrite !len_singles, ?len_opp in *.
  pose proof (len_same (nactu_a s nactu) (g_noa s - nacto_a s nacto) (g_noa s)) as A.
  replace (g_noa s - (g_noa s - nacto_a s nacto)) with (nacto_a s nacto) in * by (unfold nacto_a; lia).
  replace (g_nob s - (g_nob s - nacto_b s nacto)) with (nacto_b s nacto) in * by (unfold nacto_b; lia).
  assert (QA : 4 * _ = nacto_a s nacto * (nacto_a s nacto - 1) * nactu_a s nactu * (nactu_a s nactu - 1)) by (etransitivity; [exact A|ring]); rewrite (div_unique4 _ _ QA).
  unfold get_index_arrays. cbn [i_a i_b i_aa i_ab i_bb].
  replace (nacto_a s nacto * nacto_b s nacto * nactu_a s nactu * nactu_b s nactu) with (nactu_a s nactu * (nactu_b s nactu * (nacto_a s nacto * nacto_b s nacto))) by lia.
  repeat apply conj; intros.
  - eapply placed1; [apply idx_1|exact H1].
  - eapply placed1; [apply idx_1|exact H2].
  - eapply placed4; [apply idx_2s|exact H3].
  - eapply placed1; [apply idx_2ab|exact H4].
  - eapply placed4; [apply idx_2s|exact H5].
Qed.

(** The index arrays hold +-1, +-2, ... at the symmetry-allowed active excitations in the same order, and zero at the others. *)
Theorem C45_cisd_index_arrays s nacto nactu sym1 sym2 :
  let I := get_index_arrays s nacto nactu sym1 sym2 in
  let oa := nacto_a s nacto in let ob := nacto_b s nacto in let ua := nactu_a s nactu in let ub := nactu_b s nactu in
  let p k := (1 + Z.of_nat k)%Z in
  let ok2 no q := match q with [a; i] => sym1 (a + no) i | _ => false end in
  let ok4 na nb q := match q with [a; b; i; j] => sym2 (a + na) (b + nb) i j | _ => false end in
  holds 0%Z (ok2 (g_noa s)) (singles (g_nua s) (g_noa s)) p (i_a I) /\ holds 0%Z (ok2 (g_nob s)) (singles (g_nub s) (g_nob s)) p (i_b I) /\
  holds4 0%Z Z.opp (ok4 (g_noa s) (g_noa s)) (same_spin ua (g_noa s - oa) (g_noa s)) p (i_aa I) /\
  holds 0%Z (ok4 (g_noa s) (g_nob s)) (opp_spin ua ub (g_noa s - oa) (g_noa s) (g_nob s - ob) (g_nob s)) p (i_ab I) /\
  holds4 0%Z Z.opp (ok4 (g_nob s) (g_nob s)) (same_spin ub (g_nob s - ob) (g_nob s)) p (i_bb I).
Proof.
  cbv zeta. unfold get_index_arrays. cbn [i_a i_b i_aa i_ab i_bb]. repeat apply conj.
  - exact (proj1 (idx_1 (g_nua s) (g_noa s) sym1)).
  - exact (proj2 (idx_1 (g_nua s) (g_noa s) sym1)).
  - exact (proj1 (idx_1 (g_nub s) (g_nob s) sym1)).
  - exact (proj2 (idx_1 (g_nub s) (g_nob s) sym1)).
  - exact (proj1 (idx_2s (g_noa s) (nactu_a s nactu) (nacto_a s nacto) sym2)).
  - exact (proj2 (idx_2s (g_noa s) (nactu_a s nactu) (nacto_a s nacto) sym2)).
  - exact (proj1 (idx_2ab (g_noa s) (g_nob s) (nactu_a s nactu) (nactu_b s nactu) (nacto_a s nacto) (nacto_b s nacto) sym2)).
  - exact (proj2 (idx_2ab (g_noa s) (g_nob s) (nactu_a s nactu) (nactu_b s nactu) (nacto_a s nacto) (nacto_b s nacto) sym2)).
  - exact (proj1 (idx_2s (g_nob s) (nactu_b s nactu) (nacto_b s nacto) sym2)).
  - exact (proj2 (idx_2s (g_nob s) (nactu_b s nactu) (nacto_b s nacto) sym2)).
Qed.

(** Electron attachment (2p-1h): the same statements. *)
Theorem C45_attached s nacto nactu V sym1 sym2 :
  let oa := nacto_a s nacto in let ob := nacto_b s nacto in let ua := nactu_a s nactu in let ub := nactu_b s nactu in
  let L2 := ea_same ua (g_noa s - oa) (g_noa s) in let L3 := ea_opp ua ub (g_nob s - ob) (g_nob s) in
  let o1 := g_nua s in let o2 := o1 + length L2 in let I := get_index_ea s nacto nactu sym1 sym2 in
  let (X, n) := scatter_ea s nacto nactu V in
  holds 0%R yes (ones (g_nua s)) V (w_a X) /\ holds_ea 0%R Ropp yes L2 (fun k => V (o1 + k)) (w_aa X) /\
  holds 0%R yes L3 (fun k => V (o2 + k)) (w_ab X) /\ n = ndim_ea s nacto nactu /\ n = o2 + length L3 /\
  (forall a, placed (j_a I) V 0 (w_a X) [a]) /\ (forall a b j, placed (j_aa I) V o1 (w_aa X) [a; b; j]) /\ (forall a b j, placed (j_ab I) V o2 (w_ab X) [a; b; j]).
Proof.
  cbv zeta. unfold scatter_ea.
  pose proof (blk_0 (g_nua s) V 0) as B1. destruct (scatter_0 (g_nua s) V (zeros 0%R, 0)) as [x1 o1]. cbn [fst snd] in B1. destruct B1 as [B1 E1].
  rewrite len_ones in E1. simpl in E1. subst o1.
  match goal with |- context [scatter_ea_s ?a ?b ?c ?d V (zeros 0%R, ?o)] => pose proof (blk_ea_s a b c d V o) as B2; destruct (scatter_ea_s a b c d V (zeros 0%R, o)) as [x2 o2] end.
  cbn [fst snd] in B2. destruct B2 as [B2 E2]; [unfold nactu_a; lia|]. subst o2.
  match goal with |- context [scatter_ea_o ?a ?b ?c ?d ?e ?f V (zeros 0%R, ?o)] => pose proof (blk_ea_o a b c d e f V o) as B3; destruct (scatter_ea_o a b c d e f V (zeros 0%R, o)) as [x3 o3] end.
  cbn [fst snd] in B3. destruct B3 as [B3 E3]; [unfold nactu_a; lia|unfold nactu_b; lia|]. subst o3.
  cbn [w_a w_aa w_ab].
  assert (D : g_nua s + length (ea_same (nactu_a s nactu) (g_noa s - nacto_a s nacto) (g_noa s)) + length (ea_opp (nactu_a s nactu) (nactu_b s nactu) (g_nob s - nacto_b s nacto) (g_nob s)) = ndim_ea s nacto nactu).
  { unfold ndim_ea. cbv zeta. rewrite len_ea_opp. pose proof (len_ea_same (nactu_a s nactu) (g_noa s - nacto_a s nacto) (g_noa s)) as A.
    replace (g_noa s - (g_noa s - nacto_a s nacto)) with (nacto_a s nacto) in * by (unfold nacto_a; lia).
    replace (g_nob s - (g_nob s - nacto_b s nacto)) with (nacto_b s nacto) in * by (unfold nacto_b; lia).
    assert (QA : 2 * _ = nacto_a s nacto * nactu_a s nactu * (nactu_a s nactu - 1)) by (etransitivity; [exact A|ring]); rewrite (div_unique2 _ _ QA). lia. }
  refine (conj B1 (conj B2 (conj B3 (conj D (conj eq_refl (conj _ (conj _ _))))))); intros; unfold get_index_ea; cbn [j_a j_aa j_ab].
  - eapply placed1; [apply idx_0|exact B1].
  - eapply placed_ea; [apply idx_ea_s|exact B2].
  - eapply placed1; [apply idx_ea_o|exact B3].
Qed.

(** Ionization (2h-1p). *)
Theorem C45_ionized s nacto nactu V sym1 sym2 :
  let oa := nacto_a s nacto in let ob := nacto_b s nacto in let ua := nactu_a s nactu in let ub := nactu_b s nactu in
  let L2 := ip_same (g_noa s - oa) (g_noa s) ua in let L3 := ip_opp (g_noa s - oa) (g_noa s) ub (g_nob s - ob) (g_nob s) in
  let o1 := g_noa s in let o2 := o1 + length L2 in let I := get_index_ip s nacto nactu sym1 sym2 in
  let (X, n) := scatter_ip s nacto nactu V in
  holds 0%R yes (ones (g_noa s)) V (w_a X) /\ holds_ip 0%R Ropp yes L2 (fun k => V (o1 + k)) (w_aa X) /\
  holds 0%R yes L3 (fun k => V (o2 + k)) (w_ab X) /\ n = ndim_ip s nacto nactu /\ n = o2 + length L3 /\
  (forall i, placed (j_a I) V 0 (w_a X) [i]) /\ (forall i b j, placed (j_aa I) V o1 (w_aa X) [i; b; j]) /\ (forall i b j, placed (j_ab I) V o2 (w_ab X) [i; b; j]).
Proof.
  cbv zeta. unfold scatter_ip.
  pose proof (blk_0 (g_noa s) V 0) as B1. destruct (scatter_0 (g_noa s) V (zeros 0%R, 0)) as [x1 o1]. cbn [fst snd] in B1. destruct B1 as [B1 E1].
  rewrite len_ones in E1. simpl in E1. subst o1.
  match goal with |- context [scatter_ip_s ?a ?b ?c ?d V (zeros 0%R, ?o)] => pose proof (blk_ip_s a b c d V o) as B2; destruct (scatter_ip_s a b c d V (zeros 0%R, o)) as [x2 o2] end.
  cbn [fst snd] in B2. destruct B2 as [B2 E2]; [unfold nactu_a; lia|]. subst o2.
  match goal with |- context [scatter_ip_o ?a ?b ?c ?d ?e ?f V (zeros 0%R, ?o)] => pose proof (blk_ip_o a b c d e f V o) as B3; destruct (scatter_ip_o a b c d e f V (zeros 0%R, o)) as [x3 o3] end.
  cbn [fst snd] in B3. destruct B3 as [B3 E3]; [unfold nactu_b; lia|]. subst o3.
  cbn [w_a w_aa w_ab].
  assert (D : g_noa s + length (ip_same (g_noa s - nacto_a s nacto) (g_noa s) (nactu_a s nactu)) + length (ip_opp (g_noa s - nacto_a s nacto) (g_noa s) (nactu_b s nactu) (g_nob s - nacto_b s nacto) (g_nob s)) = ndim_ip s nacto nactu).
  { unfold ndim_ip. cbv zeta. rewrite len_ip_opp. pose proof (len_ip_same (g_noa s - nacto_a s nacto) (g_noa s) (nactu_a s nactu)) as A.
    replace (g_noa s - (g_noa s - nacto_a s nacto)) with (nacto_a s nacto) in * by (unfold nacto_a; lia).
    replace (g_nob s - (g_nob s - nacto_b s nacto)) with (nacto_b s nacto) in * by (unfold nacto_b; lia).
    assert (QA : 2 * _ = nactu_a s nactu * nacto_a s nacto * (nacto_a s nacto - 1)) by (etransitivity; [exact A|ring]); rewrite (div_unique2 _ _ QA). lia. }
  refine (conj B1 (conj B2 (conj B3 (conj D (conj eq_refl (conj _ (conj _ _))))))); intros; unfold get_index_ip; cbn [j_a j_aa j_ab].
  - eapply placed1; [apply idx_0|exact B1].
  - eapply placed_ip; [apply idx_ip_s|exact B2].
  - eapply placed1; [apply idx_ip_o|exact B3].
Qed.
Theorem C45_ea_ip_excitations :
  (forall a b j n o no, In [a; b; j] (ea_same n o no) <-> (a < b < n /\ o <= j < no)) /\
  (forall a b j na nb o no, In [a; b; j] (ea_opp na nb o no) <-> (a < na /\ b < nb /\ o <= j < no)) /\
  (forall i b j o no n, In [i; b; j] (ip_same o no n) <-> (b < n /\ o <= i < j /\ j < no)) /\
  (forall i b j oa noa nb ob nob, In [i; b; j] (ip_opp oa noa nb ob nob) <-> (oa <= i < noa /\ b < nb /\ ob <= j < nob)).
Proof.
  repeat apply conj; intros.
  - rewrite In_ea_same. split; [intros (a' & b' & j' & e & H); injection e as -> -> ->; tauto|intro; exists a, b, j; tauto].
  - rewrite In_ea_opp. split; [intros (a' & b' & j' & e & H); injection e as -> -> ->; tauto|intro; exists a, b, j; tauto].
  - rewrite In_ip_same. split; [intros (a' & b' & j' & e & H); injection e as -> -> ->; tauto|intro; exists i, b, j; tauto].
  - rewrite In_ip_opp. split; [intros (a' & b' & j' & e & H); injection e as -> -> ->; tauto|intro; exists i, b, j; tauto].
Qed.

(** Two particles, two holes: for a singlet reference the routine agrees with the index array and uses the whole vector. *)
Theorem C45_two_particles s nactu V sym : g_mult s = 1 ->
  exists X, scatter_2p s nactu V (ndim_2p s nactu) = Some (X, ndim_2p s nactu) /\
    (forall a b, placed (index_2p s nactu sym) V 0 X [a; b]) /\
    (forall k a b, nth_error (pairs 0 (nactu_a s nactu) 0 (nactu_b s nactu)) k = Some [a; b] -> X [a; b] = V k) /\
    (forall a b, ~ (a < nactu /\ b < nactu /\ a < g_nua s /\ b < g_nub s) -> X [a; b] = 0%R).
Proof.
  intro M. pose proof (sc_2p s nactu V (ndim_2p s nactu)) as H. cbv zeta in H.
  assert (E : pairs 0 (Nat.min nactu (g_nua s)) 0 (Nat.min nactu (g_nub s)) = pairs 0 (nactu_a s nactu) 0 (nactu_b s nactu))
    by (unfold nactu_a, nactu_b; rewrite M; now rewrite Nat.sub_diag, Nat.add_0_r).
  rewrite E in H. assert (L : length (pairs 0 (nactu_a s nactu) 0 (nactu_b s nactu)) = ndim_2p s nactu) by (rewrite len_pairs; unfold ndim_2p; lia).
  rewrite L, Nat.leb_refl in H. destruct H as (X & H1 & H2). exists X. repeat split; [assumption| | |].
  - intros a b. eapply placed1; [apply idx_2p|exact H2].
  - intros k a b Hk. apply (proj1 H2 k _ Hk).
  - intros a b N. apply (proj2 H2). intro I. apply N. rewrite <- E in I. unfold pairs in I. apply in_flat_map in I. destruct I as (x & I1 & I2).
    apply in_map_iff in I2. destruct I2 as (y & e & I2). injection e as -> ->. rewrite in_upto in *. lia.
Qed.
Theorem C45_two_holes s nacto V sym : g_mult s = 1 ->
  exists X, scatter_2h s nacto V (ndim_2h s nacto) = Some (X, ndim_2h s nacto) /\
    (forall i j, placed (index_2h s nacto sym) V 0 X [i; j]) /\
    (forall k i j, nth_error (pairs (g_noa s - nacto_a s nacto) (g_noa s) (g_nob s - nacto_b s nacto) (g_nob s)) k = Some [i; j] -> X [i; j] = V k) /\
    (forall i j, ~ (g_noa s - nacto <= i < g_noa s /\ g_nob s - nacto <= j < g_nob s) -> X [i; j] = 0%R).
Proof.
  intro M. pose proof (sc_2h s nacto V (ndim_2h s nacto)) as H. cbv zeta in H.
  assert (E : pairs (g_noa s - nacto) (g_noa s) (g_nob s - nacto) (g_nob s) = pairs (g_noa s - nacto_a s nacto) (g_noa s) (g_nob s - nacto_b s nacto) (g_nob s))
    by (f_equal; unfold nacto_a, nacto_b; rewrite ?M; lia).
  rewrite E in H. assert (L : length (pairs (g_noa s - nacto_a s nacto) (g_noa s) (g_nob s - nacto_b s nacto) (g_nob s)) = ndim_2h s nacto)
    by (rewrite len_pairs; unfold ndim_2h; f_equal; unfold nacto_a, nacto_b; lia).
  rewrite L, Nat.leb_refl in H. destruct H as (X & H1 & H2). exists X. repeat split; [assumption| | |].
  - intros a b. eapply placed1; [apply idx_2h|exact H2].
  - intros k a b Hk. apply (proj1 H2 k _ Hk).
  - intros a b N. apply (proj2 H2). intro I. apply N. rewrite <- E in I. unfold pairs in I. apply in_flat_map in I. destruct I as (x & I1 & I2).
    apply in_map_iff in I2. destruct I2 as (y & e & I2). injection e as -> ->. rewrite in_upto in *. lia.
Qed.
(** For open-shell references it does not: the scattering ignores the enlarged active space of the matrix, so entries land on the wrong
    pairs (and some of the vector is not used at all). *)
Theorem C45_two_particles_refuted : exists s nactu V X n a b p, g_mult s = 3 /\ g_noa s = g_nob s + 2 /\ g_nub s = g_nua s + 2 /\
  scatter_2p s nactu V (ndim_2p s nactu) = Some (X, n) /\ n < ndim_2p s nactu /\
  index_2p s nactu (fun _ _ => true) [a; b] = p /\ (0 < p)%Z /\ X [a; b] <> V (Z.to_nat (p - 1)).
Proof.
  exists (mkGsys 3 1 2 4 3), 2, INR. eexists. exists 4, 1, 0, 5%Z.
  repeat apply conj; try reflexivity; try (vm_compute; lia).
  vm_compute. lra.
Qed.
Theorem C45_two_holes_refuted : exists s nacto V X n i j p, g_mult s = 3 /\ g_noa s = g_nob s + 2 /\ g_nub s = g_nua s + 2 /\
  scatter_2h s nacto V (ndim_2h s nacto) = Some (X, n) /\ n < ndim_2h s nacto /\
  index_2h s nacto (fun _ _ => true) [i; j] = p /\ (0 < p)%Z /\ X [i; j] <> V (Z.to_nat (p - 1)).
Proof.
  exists (mkGsys 4 2 2 4 3), 1, INR. eexists. exists 1, 3, 1, 3%Z.
  repeat apply conj; try reflexivity; try (vm_compute; lia).
  vm_compute. lra.
Qed.

(** Roots kept for an irrep: the first ones, up to the requested number, among those whose eigenvalue is not exactly zero, in the order
    of the sorted spectrum. *)
Theorem C45_selection {E : Type} (zero : E -> bool) om nroot :
  let kept := select_roots zero om nroot in
  (forall m e i, nth_error kept m = Some (e, i) -> nth_error om i = Some e /\ zero e = false) /\
  (forall m m' e i e' i', nth_error kept m = Some (e, i) -> nth_error kept m' = Some (e', i') -> m < m' -> i < i') /\
  length kept = Nat.min nroot (length (filter (fun e => negb (zero e)) om)) /\
  (forall i e, nth_error om i = Some e -> zero e = false -> ~ In i (map snd kept) -> length kept = nroot /\ forall i', In i' (map snd kept) -> i' < i).
Proof.
  cbv zeta. rewrite sel_roots. set (f := fun p : E * nat => negb (zero (fst p))).
  assert (NI : forall (om : list E) b i e, In (e, i) (number b om) <-> b <= i /\ nth_error om (i - b) = Some e).
  { clear. induction om as [|x om IH]; intros b i e; simpl; [split; [tauto|intros [_ H]; destruct (i - b); discriminate]|].
    rewrite IH. destruct (Nat.eq_dec i b) as [->|N].
    - rewrite Nat.sub_diag. simpl. split; [intros [H|[H _]]; [injection H as ->; split; [lia|reflexivity]|lia]|intros [_ H]; injection H as ->; now left].
    - split; [intros [H|[H1 H2]]; [injection H as -> ->; lia|]|intros [H1 H2]; right].
      + split; [lia|]. replace (i - b) with (S (i - S b)) by lia. assumption.
      + split; [lia|]. replace (i - b) with (S (i - S b)) in H2 by lia. assumption. }
  assert (SS : forall (om : list E) b, StronglySorted (fun p q => snd p < snd q) (filter f (number b om))).
  { clear - NI. induction om as [|x om IH]; intro b; simpl; [constructor|]. destruct (f (x, b)); [|apply IH]. constructor; [apply IH|].
    apply Forall_forall. intros [e i] I. apply filter_In in I. destruct I as [I _]. apply NI in I. simpl. lia. }
  assert (LN : forall (om : list E) b, length (filter f (number b om)) = length (filter (fun e => negb (zero e)) om)).
  { clear. induction om as [|x om IH]; intro b; simpl; [reflexivity|]. unfold f at 1. simpl. destruct (negb (zero x)); simpl; now rewrite IH. }
  assert (FI : forall (l : list (E * nat)) n x, In x (firstn n l) -> In x l)
    by (clear; intros l n x I; rewrite <- (firstn_skipn n l); apply in_or_app; now left).
  assert (SO : forall (l : list (E * nat)), StronglySorted (fun p q => snd p < snd q) l -> forall m m' p q,
     nth_error l m = Some p -> nth_error l m' = Some q -> m < m' -> snd p < snd q).
  { clear. intros l H. induction H as [|x l H IH F]; intros m m' p q E1 E2 L; [destruct m; discriminate|].
    destruct m' as [|m']; [lia|]. destruct m as [|m]; simpl in *.
    - injection E1 as ->. rewrite Forall_forall in F. apply F. eapply nth_error_In; eauto.
    - eapply IH; eauto. lia. }
  assert (FN : forall (l : list (E * nat)) n m p, nth_error (firstn n l) m = Some p -> nth_error l m = Some p).
  { clear. induction l as [|x l IH]; intros [|n] [|m] p H; simpl in *; try discriminate; [assumption|]. eapply IH; eauto. }
  repeat apply conj.
  - intros m e i H. apply nth_error_In in H. apply FI in H. apply filter_In in H. destruct H as [H1 H2]. apply NI in H1. rewrite Nat.sub_0_r in H1.
    unfold f in H2. simpl in H2. split; [tauto|]. now apply negb_true_iff.
  - intros m m' e i e' i' H1 H2 L. apply FN in H1. apply FN in H2. apply (SO _ (SS om 0) m m' _ _ H1 H2 L).
  - now rewrite firstn_length, LN.
  - intros i e H1 H2 N. set (l := filter f (number 0 om)) in *.
    assert (I : In (e, i) l) by (apply filter_In; split; [apply NI; split; [lia|now rewrite Nat.sub_0_r]|unfold f; simpl; now rewrite H2]).
    apply In_nth_error in I. destruct I as [m Hm].
    assert (L : nroot <= m).
    { destruct (le_lt_dec nroot m) as [?|L]; [assumption|]. exfalso. apply N. change i with (snd (e, i)). apply in_map.
      rewrite <- (firstn_skipn nroot l) in Hm. assert (Lm : m < length l) by (apply nth_error_Some; rewrite firstn_skipn in Hm; now rewrite Hm).
      rewrite nth_error_app1 in Hm by (rewrite firstn_length; lia). eapply nth_error_In; eauto. }
    assert (Lm : m < length l) by (apply nth_error_Some; now rewrite Hm).
    split; [rewrite firstn_length; lia|]. intros i' Hi'. apply in_map_iff in Hi'. destruct Hi' as ([e' i''] & <- & Hi').
    apply In_nth_error in Hi'. destruct Hi' as [m' Hm']. assert (L' : m' < length (firstn nroot l)) by (apply nth_error_Some; now rewrite Hm').
    rewrite firstn_length in L'. apply FN in Hm'. apply (SO l (SS om 0) m' m _ _ Hm' Hm). lia.
Qed.
(** With the symmetry labels switched off every requested irrep repeats the same roots: asking for two irreps returns duplicates. *)
Theorem C45_no_symmetry_repeats {E I : Type} (zero : E -> bool) (eig : option I -> list E) ir1 ir2 n :
  run_irreps zero eig false [(ir1, n); (ir2, n)] =
  let r := map (fun p => (p, None)) (select_roots zero (eig None) n) in r ++ r.
Proof. simpl. now rewrite app_nil_r. Qed.

(** Instances: a triplet reference with three alpha and one beta electrons. *)
Definition g3 : gsys := mkGsys 3 1 2 4 3.
Example C45_instance : ndim_cisd g3 1 2 = snd (scatter g3 1 2 INR) /\ ndim_cisd g3 1 2 = 37 /\
  nth_error (same_spin 2 0 3) 1 = Some [0; 1; 0; 2] /\ v_aa (fst (scatter g3 1 2 INR)) [1; 0; 0; 2] = (- INR 11)%R /\
  i_aa (get_index_arrays g3 1 2 (fun _ _ => true) (fun _ _ _ _ => true)) [1; 0; 0; 2] = (-2)%Z.
Proof. repeat apply conj; vm_compute; reflexivity. Qed.
Example C45_instance_selection : select_roots (fun e => Z.eqb e 0) [-3; 0; 0; 1; 2; 5]%Z 3 = [((-3)%Z, 0); (1%Z, 3); (2%Z, 4)].
Proof. reflexivity. Qed.

Print Assumptions C45_cisd_layout.
Print Assumptions C45_cisd_dimension.
Print Assumptions C45_cisd_indices.
Print Assumptions C45_cisd_index_arrays.
Print Assumptions C45_attached.
Print Assumptions C45_ionized.
Print Assumptions C45_two_particles_refuted.
Print Assumptions C45_selection.
