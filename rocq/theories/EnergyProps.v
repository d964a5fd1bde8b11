(** C42, C43: reduced excitation levels; left-right overlaps with triples as lists or as dense arrays. *)
From Coq Require Import List Arith Bool Reals Lia Lra.
From Verif Require Import RSum Base IntegralsModel TensorObjs PspaceModel PspaceSpec PspaceProofs PspaceProps ScatterModel ScatterSpec ScatterProofs ScatterZero ScatterProps EnergyModel EnergyProofs.
Import ListNotations.
Open Scope R_scope.

(** ** C42 *)
Lemma sumn_nonneg n f : (forall i, 0 <= f i) -> 0 <= sumn n f.
Proof. intros H. induction n; cbn; [lra|]. specialize (H n). lra. Qed.
Lemma sq_nonneg x : 0 <= x * x.
Proof. destruct (Rle_or_lt 0 x); [|replace (x * x) with (- x * - x) by ring]; apply Rmult_le_pos; lra. Qed.
Ltac nonneg := repeat first [apply sq_nonneg | apply sumn_nonneg; intro | apply Rplus_le_le_0_compat | apply Rmult_le_pos; [lra|]].
Lemma rel_1_nonneg d Y : 0 <= rel_1 d Y. Proof. unfold rel_1. nonneg. Qed.
Lemma rel_2_nonneg d Y : 0 <= rel_2 d Y. Proof. unfold rel_2. nonneg. Qed.
Lemma rel_ea_1_nonneg d Y : 0 <= rel_ea_1 d Y. Proof. unfold rel_ea_1. nonneg. Qed.
Lemma rel_ea_2_nonneg d Y : 0 <= rel_ea_2 d Y. Proof. unfold rel_ea_2. nonneg. Qed.
Lemma rel_ip_1_nonneg d Y : 0 <= rel_ip_1 d Y. Proof. unfold rel_ip_1. nonneg. Qed.
Lemma rel_ip_2_nonneg d Y : 0 <= rel_ip_2 d Y. Proof. unfold rel_ip_2. nonneg. Qed.
Lemma quot_bounds a b c : 0 <= a -> 0 <= b -> 0 <= c -> a + b + c <> 0 -> 0 <= (b + 2 * c) / (a + b + c) <= 2.
Proof.
  intros Ha Hb Hc Hn. assert (0 < a + b + c) by lra. split.
  - apply Rmult_le_pos; [lra|]. apply Rlt_le, Rinv_0_lt_compat. assumption.
  - apply (Rmult_le_reg_r (a + b + c)); [assumption|]. unfold Rdiv. rewrite Rmult_assoc, Rinv_l by assumption. lra.
Qed.
Lemma quot_ge1 b c : 0 <= b -> 0 <= c -> b + c <> 0 -> 1 <= (b + 2 * c) / (b + c) <= 2.
Proof.
  intros Hb Hc Hn. assert (0 < b + c) by lra. split; apply (Rmult_le_reg_r (b + c)); try assumption; unfold Rdiv; rewrite Rmult_assoc, Rinv_l by assumption; lra.
Qed.
(** A vector with a non-zero amplitude has a non-zero norm *)
Lemma sumn_pos n f k : (forall i, 0 <= f i) -> (k < n)%nat -> 0 < f k -> 0 < sumn n f.
Proof.
  intros H. induction n; intros Hk P; [lia|]. cbn. assert (0 <= sumn n f) by now apply sumn_nonneg. destruct (Nat.eq_dec k n) as [->|].
  - lra.
  - specialize (IHn ltac:(lia) P). specialize (H n). lra.
Qed.
Lemma sq_pos x : x <> 0 -> 0 < x * x.
Proof. intros H. assert (K := sq_nonneg x). destruct K as [K|K]; [exact K|]. symmetry in K. apply Rmult_integral in K. tauto. Qed.
Inductive nonzero_amp (d : dims) (Y : amps) : Prop :=
| nz_a a i : (a < nua d)%nat -> (i < noa d)%nat -> x_a Y a i <> 0 -> nonzero_amp d Y
| nz_b a i : (a < nub d)%nat -> (i < nob d)%nat -> x_b Y a i <> 0 -> nonzero_amp d Y
| nz_aa a b i j : (a < nua d)%nat -> (b < nua d)%nat -> (i < noa d)%nat -> (j < noa d)%nat -> x_aa Y a b i j <> 0 -> nonzero_amp d Y
| nz_ab a b i j : (a < nua d)%nat -> (b < nub d)%nat -> (i < noa d)%nat -> (j < nob d)%nat -> x_ab Y a b i j <> 0 -> nonzero_amp d Y
| nz_bb a b i j : (a < nub d)%nat -> (b < nub d)%nat -> (i < nob d)%nat -> (j < nob d)%nat -> x_bb Y a b i j <> 0 -> nonzero_amp d Y.
Ltac posi x := apply (sumn_pos _ _ x); [intro; nonneg|assumption|cbv beta].
Lemma rel_pos d Y : nonzero_amp d Y -> 0 < rel_1 d Y + rel_2 d Y.
Proof.
  intros [a i Ha Hi N|a i Ha Hi N|a b i j Ha Hb Hi Hj N|a b i j Ha Hb Hi Hj N|a b i j Ha Hb Hi Hj N].
  - assert (0 < sumn (nua d) (fun a => sumn (noa d) (fun i => x_a Y a i * x_a Y a i))) by (posi a; posi i; now apply sq_pos).
    assert (K := rel_2_nonneg d Y). unfold rel_1. assert (0 <= sumn (nub d) (fun a => sumn (nob d) (fun i => x_b Y a i * x_b Y a i))) by nonneg. lra.
  - assert (0 < sumn (nub d) (fun a => sumn (nob d) (fun i => x_b Y a i * x_b Y a i))) by (posi a; posi i; now apply sq_pos).
    assert (K := rel_2_nonneg d Y). unfold rel_1. assert (0 <= sumn (nua d) (fun a => sumn (noa d) (fun i => x_a Y a i * x_a Y a i))) by nonneg. lra.
  - assert (P : 0 < sumn (nua d) (fun a => sumn (nua d) (fun b => sumn (noa d) (fun i => sumn (noa d) (fun j => x_aa Y a b i j * x_aa Y a b i j))))) by (posi a; posi b; posi i; posi j; now apply sq_pos).
    assert (K := rel_1_nonneg d Y). unfold rel_2. match goal with |- 0 < _ + (_ * ?x + ?y + _ * ?z) => assert (0 <= y) by nonneg; assert (0 <= z) by nonneg; lra end.
  - assert (P : 0 < sumn (nua d) (fun a => sumn (nub d) (fun b => sumn (noa d) (fun i => sumn (nob d) (fun j => x_ab Y a b i j * x_ab Y a b i j))))) by (posi a; posi b; posi i; posi j; now apply sq_pos).
    assert (K := rel_1_nonneg d Y). unfold rel_2. match goal with |- 0 < _ + (_ * ?x + ?y + _ * ?z) => assert (0 <= x) by nonneg; assert (0 <= z) by nonneg; lra end.
  - assert (P : 0 < sumn (nub d) (fun a => sumn (nub d) (fun b => sumn (nob d) (fun i => sumn (nob d) (fun j => x_bb Y a b i j * x_bb Y a b i j))))) by (posi a; posi b; posi i; posi j; now apply sq_pos).
    assert (K := rel_1_nonneg d Y). unfold rel_2. match goal with |- 0 < _ + (_ * ?x + ?y + _ * ?z) => assert (0 <= x) by nonneg; assert (0 <= y) by nonneg; lra end.
Qed.
Theorem C42_rel_bounds d Y r0 : nonzero_amp d Y \/ r0 <> 0 -> 0 <= get_rel d Y r0 <= 2.
Proof.
  intros H. unfold get_rel. assert (A := rel_1_nonneg d Y). assert (B := rel_2_nonneg d Y). assert (C : 0 <= r0 ^ 2) by (replace (r0 ^ 2) with (r0 * r0) by ring; apply sq_nonneg).
  apply quot_bounds; try assumption. destruct H as [H|H].
  - apply rel_pos in H. lra.
  - assert (0 < r0 ^ 2) by (replace (r0 ^ 2) with (r0 * r0) by ring; now apply sq_pos). lra.
Qed.
(** The limiting values: pure reference 0, pure singles 1, pure doubles 2 *)
Theorem C42_rel_limits d Y r0 : r0 ^ 2 + rel_1 d Y + rel_2 d Y <> 0 ->
  (get_rel d Y r0 = 0 <-> rel_1 d Y = 0 /\ rel_2 d Y = 0) /\ (get_rel d Y r0 = 2 <-> r0 = 0 /\ rel_1 d Y = 0) /\
  (rel_2 d Y = 0 -> r0 = 0 -> get_rel d Y r0 = 1).
Proof.
  intros H. unfold get_rel. assert (A := rel_1_nonneg d Y). assert (B := rel_2_nonneg d Y). assert (C : 0 <= r0 ^ 2) by (replace (r0 ^ 2) with (r0 * r0) by ring; apply sq_nonneg).
  assert (D : forall x, (rel_1 d Y + 2 * rel_2 d Y) / (r0 ^ 2 + rel_1 d Y + rel_2 d Y) = x <-> rel_1 d Y + 2 * rel_2 d Y = x * (r0 ^ 2 + rel_1 d Y + rel_2 d Y)).
  { intros x. split; intros E; [rewrite <- E; field; exact H|rewrite E; field; exact H]. }
  rewrite !D. split; [|split].
  - split; [intros E; lra|intros [-> ->]; ring].
  - split; [|intros [-> ->]; ring]. intros E. assert (r0 ^ 2 = 0 /\ rel_1 d Y = 0) as [E1 E2] by lra. split; [|exact E2].
    replace (r0 ^ 2) with (r0 * r0) in E1 by ring. apply Rmult_integral in E1. tauto.
  - intros -> ->. ring.
Qed.
Theorem C42_rel_ea_bounds d Y : rel_ea_1 d Y + rel_ea_2 d Y <> 0 -> 1 <= get_rel_ea d Y <= 2.
Proof. intros H. apply quot_ge1; auto using rel_ea_1_nonneg, rel_ea_2_nonneg. Qed.
Theorem C42_rel_ip_bounds d Y : rel_ip_1 d Y + rel_ip_2 d Y <> 0 -> 1 <= get_rel_ip d Y <= 2.
Proof. intros H. apply quot_ge1; auto using rel_ip_1_nonneg, rel_ip_2_nonneg. Qed.
(** The level does not depend on the normalisation of the state *)
Definition scale_state (c : R) (Y : amps) : amps := mkAmps (fun a i => c * x_a Y a i) (fun a i => c * x_b Y a i) (fun a b i j => c * x_aa Y a b i j)
  (fun a b i j => c * x_ab Y a b i j) (fun a b i j => c * x_bb Y a b i j) (x_aaa Y) (x_aab Y) (x_abb Y) (x_bbb Y).
Theorem C42_rel_scale_invariant d Y r0 c : c <> 0 -> r0 ^ 2 + rel_1 d Y + rel_2 d Y <> 0 -> get_rel d (scale_state c Y) (c * r0) = get_rel d Y r0.
Proof.
  intros Hc H. unfold get_rel.
  assert (E1 : rel_1 d (scale_state c Y) = c ^ 2 * rel_1 d Y).
  { unfold rel_1, scale_state. cbn [x_a x_b]. rewrite Rmult_plus_distr_l. f_equal; rewrite <- sumn_scal; apply sumn_ext; intros; rewrite <- sumn_scal; apply sumn_ext; intros; ring. }
  assert (E2 : rel_2 d (scale_state c Y) = c ^ 2 * rel_2 d Y).
  { unfold rel_2, scale_state. cbn [x_aa x_ab x_bb]. rewrite !Rmult_plus_distr_l, <- !(Rmult_assoc (c ^ 2) (1 / 4)), !(Rmult_comm (c ^ 2) (1 / 4)), !Rmult_assoc. repeat apply (f_equal2 Rplus); try apply (f_equal2 Rmult eq_refl);
      repeat (rewrite <- sumn_scal; apply sumn_ext; intros); ring. }
  rewrite E1, E2. clear E1 E2. generalize dependent (rel_1 d Y). generalize dependent (rel_2 d Y). intros w u H. assert (Hc2 : c ^ 2 <> 0) by now apply pow_nonzero.
  replace ((c * r0) ^ 2 + c ^ 2 * u + c ^ 2 * w) with (c ^ 2 * (r0 ^ 2 + u + w)) by ring.
  replace (c ^ 2 * u + 2 * (c ^ 2 * w)) with (c ^ 2 * (u + 2 * w)) by ring.
  field. split; assumption.
Qed.
Example C42_instance : nonzero_amp (mkDims 1 1 1 1) (mkAmps (fun _ _ => 1) (fun _ _ => 1) (fun _ _ _ _ => 0) (fun _ _ _ _ => 1) (fun _ _ _ _ => 0) (fun _ _ _ _ _ _ => 0) (fun _ _ _ _ _ _ => 0) (fun _ _ _ _ _ _ => 0) (fun _ _ _ _ _ _ => 0))
  /\ get_rel (mkDims 1 1 1 1) (mkAmps (fun _ _ => 1) (fun _ _ => 1) (fun _ _ _ _ => 0) (fun _ _ _ _ => 1) (fun _ _ _ _ => 0) (fun _ _ _ _ _ _ => 0) (fun _ _ _ _ _ _ => 0) (fun _ _ _ _ _ _ => 0) (fun _ _ _ _ _ _ => 0)) 1 = 1.
Proof. split; [apply (nz_a _ _ 0 0); cbn; lia || lra|]. unfold get_rel, rel_1, rel_2. cbn [sumn nua noa nub nob x_a x_b x_aa x_ab x_bb]. field. Qed.

(** ** C43 *)
Definition t6 (X : tensor) : mat6 := fun a b c i j k => X [a; b; c; i; j; k].
Definition t5 (X : tensor) : mat5 := fun a b c j k => X [a; b; c; j; k].
Definition dims_of (s : orbsys) : dims := mkDims (no_a s) (nu_a s) (no_b s) (nu_b s).
(** The dense operator belonging to a P-space operator: same singles and doubles, the given arrays as triples *)
Definition dense_amps (Y : amps) (Xaaa Xaab Xabb Xbbb : tensor) : amps :=
  mkAmps (x_a Y) (x_b Y) (x_aa Y) (x_ab Y) (x_bb Y) (t6 Xaaa) (t6 Xaab) (t6 Xabb) (t6 Xbbb).
Definition dense_fock (Y : fock) (Xaaa Xaab Xabb : tensor) : fock := mkFock (q_a Y) (q_aa Y) (q_ab Y) (t5 Xaaa) (t5 Xaab) (t5 Xabb).
(** A spin case of a P space: distinct genuine excitations, one amplitude of each vector per row - or the placeholder row of an empty
    case, on which one of the two vectors is zero *)
Definition pcase (s : orbsys) (ps : list spin) (rows : list (list nat)) (xs ys : list R) : Prop :=
  (rows <> [] /\ NoDup rows /\ (forall row, In row rows -> excitation s ps ps row) /\ length xs = length rows /\ length ys = length rows)
  \/ (rows = [repeat 1%nat 6] /\ exists x y, xs = [x] /\ ys = [y] /\ x * y = 0).
Lemma lsum_full6 n1 n2 n3 m1 m2 m3 (X Y : tensor) : lsum (all_idx [n1; n2; n3; m1; m2; m3]) (fun l => X l * Y l) = full6 n1 n2 n3 m1 m2 m3 (t6 X) (t6 Y).
Proof. unfold full6, t6. repeat (rewrite lsum_all; apply sumn_ext; intros). cbn. ring. Qed.
Lemma lsum_full5 n1 n2 n3 m1 m2 (X Y : tensor) : lsum (all_idx [n1; n2; n3; m1; m2]) (fun l => X l * Y l) = full5 n1 n2 n3 m1 m2 (t5 X) (t5 Y).
Proof. unfold full5, t5. repeat (rewrite lsum_all; apply sumn_ext; intros). cbn. ring. Qed.
Lemma full6_zero n1 n2 n3 m1 m2 m3 (X Y : mat6) : (forall a b c i j k, X a b c i j k = 0) -> full6 n1 n2 n3 m1 m2 m3 X Y = 0.
Proof. intros H. unfold full6. do 6 (apply sumn_0; intros). rewrite H. ring. Qed.
Lemma full5_zero n1 n2 n3 m1 m2 (X Y : mat5) : (forall a b c i j, X a b c i j = 0) -> full5 n1 n2 n3 m1 m2 X Y = 0.
Proof. intros H. unfold full5. do 5 (apply sumn_0; intros). rewrite H. ring. Qed.
Lemma case_overlap s ps shape W m rows xs ys X Y : In ps [aaa; aab; abb; bbb] -> same_dense shape W m s ps ps -> pcase s ps rows xs ys ->
  convert_case shape W rows xs = Some X -> convert_case shape W rows ys = Some Y ->
  exists q, np_dot ys xs = Some q /\ lsum (all_idx shape) (fun l => X l * Y l) = INR m * q.
Proof.
  intros I SD [(NE & N & H & L1 & L2)|(-> & x & y & -> & -> & Z)] EX EY.
  - assert (E : forall zs, convert_case shape W rows zs = scatter shape W rows zs (Some zero_tensor)).
    { intros zs. unfold convert_case, first_is_placeholder. destruct rows as [|r rows]; [congruence|].
      destruct (list_eqb r (repeat 1%nat 6)) eqn:F; [|reflexivity]. apply list_eqb_spec in F. exfalso. subst r.
      apply (ones_not_excitation s ps); [exact I|apply H; now left]. }
    rewrite E in EX, EY. destruct (rows_Grow _ _ _ _ H) as (rs & -> & G). rewrite map_length in L1, L2. apply NoDup_mapmap in N.
    exact (SD rs xs ys X Y L1 L2 G N EX EY).
  - cbn in EX, EY. injection EX as <-. injection EY as <-. exists 0. split; [cbn; f_equal; lra|].
    rewrite Rmult_0_r. unfold zero_tensor. induction (all_idx shape); cbn; [reflexivity|]. rewrite IHl. ring.
Qed.
Theorem C43_overlap s d Raaa Raab Rabb Rbbb Y L Yaaa Yaab Yabb Ybbb Laaa Laab Labb Lbbb : d = dims_of s ->
  pcase s aaa Raaa (p_aaa Y) (p_aaa L) -> pcase s aab Raab (p_aab Y) (p_aab L) -> pcase s abb Rabb (p_abb Y) (p_abb L) -> pcase s bbb Rbbb (p_bbb Y) (p_bbb L) ->
  convert_t3_aaa s Raaa (p_aaa Y) = Some Yaaa -> convert_t3_aab s Raab (p_aab Y) = Some Yaab -> convert_t3_abb s Rabb (p_abb Y) = Some Yabb -> convert_t3_bbb s Rbbb (p_bbb Y) = Some Ybbb ->
  convert_t3_aaa s Raaa (p_aaa L) = Some Laaa -> convert_t3_aab s Raab (p_aab L) = Some Laab -> convert_t3_abb s Rabb (p_abb L) = Some Labb -> convert_t3_bbb s Rbbb (p_bbb L) = Some Lbbb ->
  get_LR_p d Y L = Some (get_LR_dense d (dense_amps (p_sd Y) Yaaa Yaab Yabb Ybbb) (dense_amps (p_sd L) Laaa Laab Labb Lbbb)).
Proof.
  intros -> P1 P2 P3 P4 Y1 Y2 Y3 Y4 L1 L2 L3 L4.
  destruct (case_overlap s aaa _ _ 36 _ _ _ _ _ ltac:(cbn; tauto) (dd_aaa s) P1 Y1 L1) as (q1 & E1 & F1).
  destruct (case_overlap s aab _ _ 4 _ _ _ _ _ ltac:(cbn; tauto) (dd_aab s) P2 Y2 L2) as (q2 & E2 & F2).
  destruct (case_overlap s abb _ _ 4 _ _ _ _ _ ltac:(cbn; tauto) (dd_abb s) P3 Y3 L3) as (q3 & E3 & F3).
  destruct (case_overlap s bbb _ _ 36 _ _ _ _ _ ltac:(cbn; tauto) (dd_bbb s) P4 Y4 L4) as (q4 & E4 & F4).
  unfold shape_aaa, shape_aab, shape_abb, shape_bbb in *. rewrite lsum_full6 in F1, F2, F3, F4.
  unfold get_LR_p. rewrite E1, E2, E3, E4. cbn [oplus]. f_equal.
  unfold get_LR_dense, dense_amps. cbn [x_aaa x_aab x_abb x_bbb nua nub noa nob dims_of]. rewrite F1, F2, F3, F4.
  change (lr_sd (dims_of s) (mkAmps (x_a (p_sd Y)) (x_b (p_sd Y)) (x_aa (p_sd Y)) (x_ab (p_sd Y)) (x_bb (p_sd Y)) (t6 Yaaa) (t6 Yaab) (t6 Yabb) (t6 Ybbb)) (mkAmps (x_a (p_sd L)) (x_b (p_sd L)) (x_aa (p_sd L)) (x_ab (p_sd L)) (x_bb (p_sd L)) (t6 Laaa) (t6 Laab) (t6 Labb) (t6 Lbbb))) with (lr_sd (dims_of s) (p_sd Y) (p_sd L)).
  replace (INR 36) with 36 by (rewrite INR_IZR_INZ; reflexivity). replace (INR 4) with 4 by (rewrite INR_IZR_INZ; reflexivity). lra.
Qed.
(** Lists of different lengths raise instead of giving a wrong number *)
Theorem C43_misaligned_raises d Y L : length (p_aaa Y) <> length (p_aaa L) \/ length (p_aab Y) <> length (p_aab L) \/ length (p_abb Y) <> length (p_abb L) \/ length (p_bbb Y) <> length (p_bbb L) -> get_LR_p d Y L = None.
Proof.
  assert (K : forall x y, length y <> length x -> np_dot x y = None).
  { induction x as [|a x IH]; intros [|b y] H; cbn in *; try congruence. now rewrite IH by lia. }
  unfold get_LR_p. intros [H|[H|[H|H]]]; rewrite (K _ _ H); cbn; [reflexivity| | |]; repeat (match goal with |- context [np_dot ?x ?y] => destruct (np_dot x y) end; cbn; try reflexivity).
Qed.
(** Electron-attached and ionised states: [do_*] flags of the conversion are false for empty cases *)
Definition fcase (s : orbsys) (ps hs : list spin) (go : bool) (rows : list (list nat)) (xs ys : list R) : Prop :=
  if go then NoDup rows /\ (forall row, In row rows -> excitation s ps hs row) /\ length xs = length rows /\ length ys = length rows
  else np_dot ys xs = Some 0.
Lemma fcase_overlap s ps hs shape W m go rows xs ys X Y : same_dense shape W m s ps hs -> fcase s ps hs go rows xs ys ->
  unravel shape W go rows xs = Some X -> unravel shape W go rows ys = Some Y ->
  exists q, np_dot ys xs = Some q /\ lsum (all_idx shape) (fun l => X l * Y l) = INR m * q.
Proof.
  intros SD. destruct go; cbn [fcase unravel].
  - intros (N & H & L1 & L2) EX EY. destruct (rows_Grow _ _ _ _ H) as (rs & -> & G). rewrite map_length in L1, L2. apply NoDup_mapmap in N.
    exact (SD rs xs ys X Y L1 L2 G N EX EY).
  - intros Z EX EY. injection EX as <-. injection EY as <-. exists 0. split; [exact Z|].
    rewrite Rmult_0_r. unfold zero_tensor. induction (all_idx shape); cbn; [reflexivity|]. rewrite IHl. ring.
Qed.
Theorem C43_overlap_ea s d Y L g1 g2 g3 Raaa Raab Rabb Yaaa Yaab Yabb Laaa Laab Labb : d = dims_of s ->
  fcase s aaa aa g1 Raaa (f_aaa Y) (f_aaa L) -> fcase s aab ab g2 Raab (f_aab Y) (f_aab L) -> fcase s abb bb g3 Rabb (f_abb Y) (f_abb L) ->
  unravel_3p2h_aaa s g1 Raaa (f_aaa Y) = Some Yaaa -> unravel_3p2h_aab s g2 Raab (f_aab Y) = Some Yaab -> unravel_3p2h_abb s g3 Rabb (f_abb Y) = Some Yabb ->
  unravel_3p2h_aaa s g1 Raaa (f_aaa L) = Some Laaa -> unravel_3p2h_aab s g2 Raab (f_aab L) = Some Laab -> unravel_3p2h_abb s g3 Rabb (f_abb L) = Some Labb ->
  get_LR_ea_p d Y L = Some (get_LR_ea_dense d (dense_fock (f_sd Y) Yaaa Yaab Yabb) (dense_fock (f_sd L) Laaa Laab Labb)).
Proof.
  intros -> P1 P2 P3 Y1 Y2 Y3 L1 L2 L3.
  destruct (fcase_overlap s _ _ _ _ 12 _ _ _ _ _ _ (dd_3p2h_aaa s) P1 Y1 L1) as (q1 & E1 & F1).
  destruct (fcase_overlap s _ _ _ _ 2 _ _ _ _ _ _ (dd_3p2h_aab s) P2 Y2 L2) as (q2 & E2 & F2).
  destruct (fcase_overlap s _ _ _ _ 4 _ _ _ _ _ _ (dd_3p2h_abb s) P3 Y3 L3) as (q3 & E3 & F3).
  unfold shape3p2h_aaa, shape3p2h_aab, shape3p2h_abb in *. rewrite lsum_full5 in F1, F2, F3.
  unfold get_LR_ea_p. rewrite E1, E2, E3. cbn [oplus]. f_equal.
  unfold get_LR_ea_dense. cbn [dense_fock q_aaa q_aab q_abb nua nub noa nob dims_of]. rewrite F1, F2, F3.
  change (lr_ea_sd (dims_of s) (dense_fock (f_sd Y) Yaaa Yaab Yabb) (dense_fock (f_sd L) Laaa Laab Labb)) with (lr_ea_sd (dims_of s) (f_sd Y) (f_sd L)).
  replace (INR 12) with 12 by (rewrite INR_IZR_INZ; reflexivity). replace (INR 4) with 4 by (rewrite INR_IZR_INZ; reflexivity). replace (INR 2) with 2 by (rewrite INR_IZR_INZ; reflexivity). lra.
Qed.
(** Ionised states: as long as there are no excitations with one alpha and two beta holes (whose conversion is broken, C57) *)
Theorem C43_overlap_ip s d Y L g1 g2 Raaa Raab Rabb Yaaa Yaab Yabb Laaa Laab Labb : d = dims_of s ->
  fcase s aa aaa g1 Raaa (f_aaa Y) (f_aaa L) -> fcase s ab aab g2 Raab (f_aab Y) (f_aab L) -> fcase s bb abb false Rabb (f_abb Y) (f_abb L) ->
  unravel_3h2p_aaa s g1 Raaa (f_aaa Y) = Some Yaaa -> unravel_3h2p_aab s g2 Raab (f_aab Y) = Some Yaab -> unravel_3h2p_abb s false Rabb (f_abb Y) = Some Yabb ->
  unravel_3h2p_aaa s g1 Raaa (f_aaa L) = Some Laaa -> unravel_3h2p_aab s g2 Raab (f_aab L) = Some Laab -> unravel_3h2p_abb s false Rabb (f_abb L) = Some Labb ->
  get_LR_ip_p d Y L = Some (get_LR_ip_dense d (dense_fock (f_sd Y) Yaaa Yaab Yabb) (dense_fock (f_sd L) Laaa Laab Labb)).
Proof.
  intros -> P1 P2 P3 Y1 Y2 Y3 L1 L2 L3.
  destruct (fcase_overlap s _ _ _ _ 12 _ _ _ _ _ _ (dd_3h2p_aaa s) P1 Y1 L1) as (q1 & E1 & F1).
  destruct (fcase_overlap s _ _ _ _ 2 _ _ _ _ _ _ (dd_3h2p_aab s) P2 Y2 L2) as (q2 & E2 & F2).
  unfold shape3h2p_aaa, shape3h2p_aab in *. rewrite lsum_full5 in F1, F2. cbn [fcase] in P3.
  cbn in Y3, L3. injection Y3 as <-. injection L3 as <-.
  unfold get_LR_ip_p. rewrite E1, E2, P3. cbn [oplus]. f_equal.
  unfold get_LR_ip_dense. cbn [dense_fock q_aaa q_aab q_abb nua nub noa nob dims_of]. rewrite F1, F2, full5_zero by reflexivity.
  change (lr_ip_sd (dims_of s) (dense_fock (f_sd Y) Yaaa Yaab zero_tensor) (dense_fock (f_sd L) Laaa Laab zero_tensor)) with (lr_ip_sd (dims_of s) (f_sd Y) (f_sd L)).
  replace (INR 12) with 12 by (rewrite INR_IZR_INZ; reflexivity). replace (INR 2) with 2 by (rewrite INR_IZR_INZ; reflexivity). lra.
Qed.
(** With such an excitation whose alpha hole has the number of the lower beta hole, half of the overlap is lost *)
Definition fz : fock := mkFock (fun _ => 0) (fun _ _ _ => 0) (fun _ _ _ => 0) (fun _ _ _ _ _ => 0) (fun _ _ _ _ _ => 0) (fun _ _ _ _ _ => 0).
Definition sys2 : orbsys := mkOrb 2 2 2 2 0 0 0 0 (fun _ => 0%N) 0%N.
Theorem C43_ip_abb_refuted : let Y := mkFplist fz [] [] [1] in let row := [1; 2; 1; 1; 2]%nat in
  excitation sys2 bb abb row /\ get_LR_ip_p (dims_of sys2) Y Y = Some 1 /\
  exists X, unravel_3h2p_abb sys2 true [row] [1] = Some X /\
    get_LR_ip_dense (dims_of sys2) (dense_fock fz zero_tensor zero_tensor X) (dense_fock fz zero_tensor zero_tensor X) = 1 / 2.
Proof.
  cbv zeta. split; [|split].
  - apply excitation_S. exists [0; 1]%nat, [0; 0; 1]%nat. split; [reflexivity|]. split; [|apply c12; cbn; lia].
    split; [reflexivity|]. split; [intros [|[|p]] Hp; cbn in *; lia|intros [|[|p]] [|[|q]] Hp _; cbn in *; lia].
  - cbn -[Rplus Rmult]. f_equal. unfold lr_ip_sd, dims_of. cbn [sumn nua noa nub nob no_a no_b nu_a nu_b sys2 fz q_a q_aa q_ab f_sd]. lra.
  - unfold unravel_3h2p_abb, unravel. cbn [scatter]. unfold scatter_row, write. cbn [map w3h2p_abb fold_left fst snd shape3h2p_abb sys2 no_a nu_a no_b nu_b in_bounds Nat.sub Nat.ltb Nat.leb andb].
    eexists. split; [reflexivity|]. unfold get_LR_ip_dense, lr_ip_sd, full5, dense_fock, dims_of, t5, zero_tensor.
    cbn [sumn nua noa nub nob no_a no_b nu_a nu_b sys2 fz q_a q_aa q_ab q_aaa q_aab q_abb list_eqb Nat.eqb andb]. lra.
Qed.
(** Two alpha triples in a system with three occupied and four unoccupied alpha orbitals: hypotheses met, overlap 23 *)
Definition sys3 : orbsys := mkOrb 3 2 4 2 0 0 0 0 (fun _ => 0%N) 0%N.
Definition za : amps := mkAmps (fun _ _ => 0) (fun _ _ => 0) (fun _ _ _ _ => 0) (fun _ _ _ _ => 0) (fun _ _ _ _ => 0) (fun _ _ _ _ _ _ => 0) (fun _ _ _ _ _ _ => 0) (fun _ _ _ _ _ _ => 0) (fun _ _ _ _ _ _ => 0).
Lemma sumn_zero n : sumn n (fun _ => 0) = 0. Proof. now apply sumn_0. Qed.
Example C43_instance : pcase sys3 aaa [[1; 2; 3; 1; 2; 3]; [1; 3; 4; 1; 2; 3]]%nat [2; 3] [4; 5] /\ pcase sys3 bbb [repeat 1%nat 6] [7] [0] /\
  get_LR_p (dims_of sys3) (mkPlist za [2; 3] [0] [0] [7]) (mkPlist za [4; 5] [0] [0] [0]) = Some 23.
Proof.
  split; [|split].
  - left. split; [discriminate|]. split; [repeat constructor; cbn; intuition discriminate|]. split; [|split; reflexivity].
    intros row [<-|[<-|[]]]; apply excitation_S; [exists [0; 1; 2]%nat, [0; 1; 2]%nat|exists [0; 2; 3]%nat, [0; 1; 2]%nat]; (split; [reflexivity|split; apply c3; cbn; lia]).
  - right. split; [reflexivity|]. exists 7, 0. repeat split. ring.
  - unfold get_LR_p, lr_sd. cbn [np_dot oplus p_aaa p_aab p_abb p_bbb p_sd x_a x_b x_aa x_ab x_bb za]. f_equal.
    rewrite !Rmult_0_l. repeat rewrite ?sumn_zero. lra.
Qed.

Print Assumptions C42_rel_bounds.
Print Assumptions C42_rel_limits.
Print Assumptions C42_rel_ea_bounds.
Print Assumptions C42_rel_ip_bounds.
Print Assumptions C42_rel_scale_invariant.
Print Assumptions C43_overlap.
Print Assumptions C43_misaligned_raises.
Print Assumptions C43_overlap_ea.
Print Assumptions C43_overlap_ip.
Print Assumptions C43_ip_abb_refuted.
