(** C32 (Hartree-Fock energy, Fock matrix), C33 (antisymmetrised integrals and blocks), C34 (Cholesky route), C60 (re-normal-ordering). *)
From Coq Require Import Reals List Arith Bool Lia Lra.
From Verif Require Import RSum IntegralsModel IntegralsSpec IntegralsProofs.
Import ListNotations.
Open Scope R_scope.

(** * C32 *)
(** E = 1/2 sum over occupied spin orbitals of z_ii + f_ii, for any integrals (no symmetry assumed). *)
Theorem C32_half_trace : forall e1 e2 s,
  let f := build_f {| o_a := e1; o_b := e1 |} (build_v e2) s in
  hf_energy e1 e2 s = / 2 * (sumn (s_noa s + s_nf s) (fun i => e1 i i + o_a f i i) + sumn (s_nob s + s_nf s) (fun i => e1 i i + o_b f i i)).
Proof.
  intros e1 e2 s f. unfold hf_energy, hf_sum, f, build_f, build_v. cbn [o_a o_b t_aa t_ab t_bb].
  set (na := (s_noa s + s_nf s)%nat). set (nb := (s_nob s + s_nf s)%nat).
  rewrite !sumn_plus. rewrite (sumn_ext na (fun i => sumn na (fun i0 => e2 i i0 i i0 - e2 i i0 i0 i)) (fun i => sumn na (fun j => e2 i j i j) - sumn na (fun j => e2 i j j i))) by (intros; apply sumn_minus).
  rewrite (sumn_ext nb (fun i => sumn nb (fun i0 => e2 i i0 i i0 - e2 i i0 i0 i)) (fun i => sumn nb (fun j => e2 i j i j) - sumn nb (fun j => e2 i j j i))) by (intros; apply sumn_minus).
  rewrite !sumn_minus. rewrite (sumn_swap nb na (fun i j => e2 j i j i)). lra.
Qed.
(** The routine that sums over lists of occupied orbitals gives the same energy from the (unsorted, bare) Hamiltonian when nothing is frozen. *)
Theorem C32_unsorted : forall e1 e2 s, s_nf s = 0%nat ->
  hf_unsorted (get_hamiltonian e1 e2 s false) (seq 0 (s_noa s)) (seq 0 (s_nob s)) = hf_energy e1 e2 s.
Proof.
  intros e1 e2 s H. unfold hf_unsorted, get_hamiltonian, keep_correlated, hf_energy, hf_sum, build_v, corr2, corr4. cbn [fst snd o_a o_b t_aa t_ab t_bb].
  rewrite H, !Nat.add_0_r. cbn [Nat.add].
  rewrite !lsum_seq.
  rewrite (sumn_ext _ (fun i => lsum (seq 0 (s_noa s)) (fun j => e2 i j i j - e2 i j j i)) (fun i => sumn (s_noa s) (fun j => e2 i j i j) - sumn (s_noa s) (fun j => e2 i j j i))) by (intros; rewrite lsum_seq; apply sumn_minus).
  rewrite (sumn_ext _ (fun i => lsum (seq 0 (s_nob s)) (fun j => e2 i j i j - e2 i j j i)) (fun i => sumn (s_nob s) (fun j => e2 i j i j) - sumn (s_nob s) (fun j => e2 i j j i))) by (intros; rewrite lsum_seq; apply sumn_minus).
  rewrite (sumn_ext _ (fun i => lsum (seq 0 (s_nob s)) (fun j => e2 i j i j)) (fun i => sumn (s_nob s) (fun j => e2 i j i j))) by (intros; apply lsum_seq).
  rewrite !sumn_minus. reflexivity.
Qed.
(** From the sorted, normal-ordered Hamiltonian: sum of Fock diagonals minus the double-counted interaction. *)
Theorem C32_sorted : forall e1 e2 s fa fb vaa vab vbb, s_nf s = 0%nat -> 
  let H := sort_hamiltonian s (get_hamiltonian e1 e2 s true) in
  h_one H Al Oc Oc = Some fa -> h_one H Be Oc Oc = Some fb ->
  h_two H AA Oc Oc Oc Oc = Some vaa -> h_two H AB Oc Oc Oc Oc = Some vab -> h_two H BB Oc Oc Oc Oc = Some vbb ->
  hf_energy e1 e2 s = sumn (s_noa s) (fun i => fa i i) + sumn (s_nob s) (fun i => fb i i)
    - / 2 * sumn (s_noa s) (fun i => sumn (s_noa s) (fun j => vaa i j i j))
    - sumn (s_noa s) (fun i => sumn (s_nob s) (fun j => vab i j i j))
    - / 2 * sumn (s_nob s) (fun i => sumn (s_nob s) (fun j => vbb i j i j)).
Proof.
  intros e1 e2 s fa fb vaa vab vbb H0 H E1 E2 E3 E4 E5. cbn in E1, E2, E3, E4, E5. injection E1 as <-. injection E2 as <-. injection E3 as <-. injection E4 as <-. injection E5 as <-.
  rewrite C32_half_trace. unfold blk2, blk4, corr2, corr4, build_f, build_v. cbn [case_spins sl_start o_a o_b t_aa t_ab t_bb pick1 pick2 fst snd]. rewrite H0, !Nat.add_0_r. cbn [Nat.add].
  set (na := s_noa s). set (nb := s_nob s). rewrite !sumn_plus. rewrite (sumn_swap nb na (fun i j => e2 j i j i)). lra.
Qed.
(** With a frozen core and exchange-symmetric integrals: the energy is that of the core plus half the sum over the correlated occupied
    orbitals of the Fock matrix of the core alone and the full Fock matrix. *)
Theorem C32_frozen_core : forall e1 e2 s, exchange_symmetric e2 ->
  let z := {| o_a := e1; o_b := e1 |} in
  let f := build_f z (build_v e2) s in let fc := build_f z (build_v e2) (core_only s) in
  hf_energy e1 e2 s = frozen_core_energy e1 e2 s
    + / 2 * (sumn (s_noa s) (fun i => corr2 s (o_a fc) i i + corr2 s (o_a f) i i) + sumn (s_nob s) (fun i => corr2 s (o_b fc) i i + corr2 s (o_b f) i i)).
Proof.
  intros e1 e2 s HS z f fc.
  assert (FC : frozen_core_energy e1 e2 s = hf_energy e1 e2 (core_only s)).
  { unfold frozen_core_energy, hf_energy, core_only. cbn. destruct (Nat.eqb_spec (s_nf s) 0) as [->|]; [|reflexivity]. unfold hf_sum. cbn. lra. }
  rewrite FC. unfold hf_energy, hf_sum, f, fc, corr2, build_f, build_v, z, core_only. cbn [o_a o_b t_aa t_ab t_bb s_noa s_nob s_nf Nat.add].
  set (c := s_nf s). set (a := s_noa s). set (b := s_nob s). rewrite !(Nat.add_comm a c), !(Nat.add_comm b c).
  rewrite !sumn_plus. rewrite !sum_minus2. rewrite !(sum_in _ c a), !(sum_in _ c b). rewrite !(sumn_split c a), !(sumn_split c b).
  assert (X1 : forall n, sumn c (fun i => sumn n (fun j => e2 i (c + j)%nat i (c + j)%nat)) = sumn n (fun i => sumn c (fun j => e2 (c + i)%nat j (c + i)%nat j))).
  { intros n. rewrite sumn_swap. apply sumn_ext. intros i _. apply sumn_ext. intros j _. apply HS. }
  assert (X2 : forall n, sumn c (fun i => sumn n (fun j => e2 i (c + j)%nat (c + j)%nat i)) = sumn n (fun i => sumn c (fun j => e2 (c + i)%nat j j (c + i)%nat))).
  { intros n. rewrite sumn_swap. apply sumn_ext. intros i _. apply sumn_ext. intros j _. apply HS. }
  rewrite !X1, !X2.
  assert (X3 : forall m n, sumn m (fun i => sumn c (fun j => e2 j (n + i)%nat j (n + i)%nat)) = sumn m (fun i => sumn c (fun j => e2 (n + i)%nat j (n + i)%nat j))).
  { intros m n. apply sumn_ext. intros i _. apply sumn_ext. intros j _. apply HS. }
  rewrite !X3.
  rewrite (sumn_swap b a (fun i j => e2 (c + j)%nat (c + i)%nat (c + j)%nat (c + i)%nat)).
  lra.
Qed.
(** calc_g_matrix adds what the correlated occupied orbitals contribute to the Fock matrix: full Fock matrix minus Fock matrix of the core. *)
Theorem C32_g_matrix : forall e1 e2 s no sp x y,
  let z := {| o_a := e1; o_b := e1 |} in
  let f := build_f z (build_v e2) s in let fc := build_f z (build_v e2) (core_only s) in
  exists G, g_matrix s (sort_hamiltonian s (get_hamiltonian e1 e2 s no)) = Some G
   /\ forall p q, G sp x y p q = blk2 s sp x y (corr2 s (pick1 f sp)) p q - blk2 s sp x y (corr2 s (pick1 fc sp)) p q.
Proof.
  intros e1 e2 s no sp x y z f fc. eexists. split; [reflexivity|].
  assert (ST : forall n (g : nat -> R), sumn (n + s_nf s) g = sumn (s_nf s) g + sumn n (fun i => g (s_nf s + i)%nat)) by (intros; rewrite Nat.add_comm; apply sumn_split).
  intros p q. unfold f, fc, z, blk2, blk4, corr2, corr4, build_f, build_v, core_only, pick1.
  destruct sp, x, y; cbn [s_noa s_nob s_nf Nat.add o_a o_b t_aa t_ab t_bb sl_start nocc pick2 snd get_hamiltonian keep_correlated case_spins]; unfold corr4, build_v; cbn [t_aa t_ab t_bb]; rewrite !ST; lra.
Qed.
(** On a Cholesky Hamiltonian it fails: the oovo block it reads is never set. *)
Theorem C32_g_matrix_cholesky_refuted : forall nx e1 L s no, g_matrix s (get_cholesky_hamiltonian nx e1 L s no) = None.
Proof. reflexivity. Qed.

(** * C33 *)
Theorem C33_antisymmetric : forall e2,
  ket_antisymmetric (t_aa (build_v e2)) /\ ket_antisymmetric (t_bb (build_v e2))
  /\ (exchange_symmetric e2 -> bra_antisymmetric (t_aa (build_v e2)) /\ bra_antisymmetric (t_bb (build_v e2)) /\ exchange_symmetric (t_ab (build_v e2))).
Proof.
  intros e2. split; [|split].
  - intros p q r s. cbn. lra.
  - intros p q r s. cbn. lra.
  - intros H. split; [|split; [|exact H]]; intros p q r s; cbn; rewrite (H p q r s), (H p q s r); lra.
Qed.
(** Without the exchange symmetry of the bare integrals the bra antisymmetry fails. *)
Theorem C33_exchange_needed_refuted : exists e2, ~ bra_antisymmetric (t_aa (build_v e2)).
Proof.
  exists (fun p q r s => if (p =? 0)%nat && (r =? 0)%nat then 1 else 0). intros H. specialize (H 0 1 0 1)%nat. cbn in H. lra.
Qed.
(** UHF orbitals: any coefficients, exchange-symmetric atomic-orbital integrals. *)
Theorem C33_uhf_antisymmetric : forall n ca cb v,
  ket_antisymmetric (t_aa (uhf_v n ca cb v)) /\ ket_antisymmetric (t_bb (uhf_v n ca cb v))
  /\ (exchange_symmetric v -> bra_antisymmetric (t_aa (uhf_v n ca cb v)) /\ bra_antisymmetric (t_bb (uhf_v n ca cb v))).
Proof.
  intros n ca cb v. split; [|split].
  - intros p q r s. cbn. lra.
  - intros p q r s. cbn. lra.
  - intros H. assert (X : forall c, exchange_symmetric (trans4 n v c c c c)).
    { intros c p q r s. unfold trans4. rewrite sumn_swap. apply sumn_ext. intros i _. apply sumn_ext. intros j _. rewrite sumn_swap. apply sumn_ext. intros k _. apply sumn_ext. intros l _.
      rewrite (H j i l k). ring. }
    split; intros p q r s; cbn; rewrite (X _ p q r s), (X _ p q s r); lra.
Qed.
(** The antisymmetry survives in the correlated matrices of the Hamiltonian object. *)
Theorem C33_hamiltonian_antisymmetric : forall e1 e2 s no, exchange_symmetric e2 ->
  let v := snd (get_hamiltonian e1 e2 s no) in
  bra_antisymmetric (t_aa v) /\ ket_antisymmetric (t_aa v) /\ bra_antisymmetric (t_bb v) /\ ket_antisymmetric (t_bb v)
  /\ forall p q r t, t_ab v p q r t = e2 (s_nf s + p)%nat (s_nf s + q)%nat (s_nf s + r)%nat (s_nf s + t)%nat
     /\ t_aa v p q r t = t_ab v p q r t - t_ab v p q t r /\ t_bb v p q r t = t_ab v p q r t - t_ab v p q t r.
Proof.
  intros e1 e2 s no H v. destruct (C33_antisymmetric e2) as (K1 & K2 & B). destruct (B H) as (B1 & B2 & _).
  split; [intros p q r t; apply B1|]. split; [intros p q r t; apply K1|]. split; [intros p q r t; apply B2|]. split; [intros p q r t; apply K2|].
  intros. repeat split.
Qed.
(** The attribute names of an n-index object are all strings over o, v of length n, each once. *)
Theorem C33_block_names : forall n, NoDup (slices n) /\ forall a, In a (slices n) <-> length a = n.
Proof. intros n. split; [apply slices_nodup|apply slices_in]. Qed.
(** Every element of the full array is in exactly one block, at exactly one position. *)
Theorem C33_partition : forall s name ix, (s_noa s <= s_norb s)%nat -> (s_nob s <= s_norb s)%nat ->
  length ix = (2 * length name)%nat -> Forall (fun k => (k < s_norb s)%nat) ix ->
  exists! ap, In (fst ap) (slices (2 * length name)) /\ in_shape (fst (block s name (fun l => l) (fst ap))) (snd ap)
    /\ forall (V : Set) (matrix : list nat -> V), snd (block s name matrix (fst ap)) (snd ap) = matrix ix.
Proof.
  intros s name ix Ha Hb HL HF. assert (LN : length (name ++ name) = (2 * length name)%nat) by (rewrite app_length; lia).
  destruct (blocks_split s (name ++ name) ix) as (attr & pos & La & Sh & E & U); [intros []; assumption|lia|exact HF|].
  exists (attr, pos). split.
  - cbn [fst snd block]. split; [apply slices_in; lia|]. split; [exact Sh|]. intros V M. rewrite E. reflexivity.
  - intros [attr' pos'] (H1 & H2 & H3). cbn [fst snd block] in *. apply slices_in in H1. destruct (U attr' pos') as [-> ->]; [lia|exact H2|exact (H3 _ (fun l => l))|reflexivity].
Qed.
(** ... and the four-letter blocks of the sorted Hamiltonian are those of this general construction. *)
Theorem C33_sorted_blocks : forall s (H : one * two) c w x y z p q r t,
  exists b, h_two (sort_hamiltonian s H) c w x y z = Some b
   /\ b p q r t = snd (block s (let (u, v) := case_spins c in [u; v]) (fun l => match l with [i; j; k; m] => pick2 (snd H) c i j k m | _ => 0 end) [w; x; y; z]) [p; q; r; t].
Proof. intros. eexists. split; [reflexivity|]. destruct c; reflexivity. Qed.

(** * C34 *)
Section C34.
Variables (nx : nat) (L : mat3) (e1 : mat2) (s : sysd).
Let e2 := dense_of nx L.
Let zz := {| o_a := e1; o_b := e1 |}.
Theorem C34_fock : forall p q,
  o_a (build_f_chol nx e1 L s) p q = o_a (build_f zz (build_v e2) s) p q /\ o_b (build_f_chol nx e1 L s) p q = o_b (build_f zz (build_v e2) s) p q.
Proof.
  intros p q. unfold build_f_chol, build_f, build_v, e2, zz, dense_of. cbn [o_a o_b t_aa t_ab t_bb].
  set (na := (s_noa s + s_nf s)%nat). set (nb := (s_nob s + s_nf s)%nat).
  assert (C : forall m, sumn nx (fun x => L x p q * sumn m (fun i => L x i i)) = sumn m (fun i => sumn nx (fun x => L x p q * L x i i))).
  { intros m. rewrite sumn_swap. apply sumn_ext. intros x _. symmetry. apply sumn_scal. }
  assert (X : forall m, sumn nx (fun x => sumn m (fun i => L x p i * L x i q)) = sumn m (fun i => sumn nx (fun x => L x p i * L x i q))) by (intros; apply sumn_swap).
  rewrite !sumn_minus, !C, !X. split; [lra|].
  rewrite (sumn_ext nx (fun x => sumn na (fun i => L x i i) * L x p q) (fun x => sumn na (fun i => L x i i * L x p q))) by (intros; symmetry; apply sumn_scal_r).
  rewrite (sumn_swap nx na). lra.
Qed.
Theorem C34_hf_energy : hf_energy_chol nx e1 L s = hf_energy e1 e2 s.
Proof.
  unfold hf_energy_chol, hf_energy, hf_sum, e2, dense_of. rewrite !(Nat.add_comm (s_nf s)). rewrite !sum_minus2. lra.
Qed.
(** Every two-body block the Cholesky Hamiltonian sets, and all one-body blocks, equal those of the dense Hamiltonian. *)
Theorem C34_blocks : forall no c w x y z g, h_two (get_cholesky_hamiltonian nx e1 L s no) c w x y z = Some g ->
  exists d, h_two (sort_hamiltonian s (get_hamiltonian e1 e2 s no)) c w x y z = Some d /\ forall p q r t, g p q r t = d p q r t.
Proof.
  intros no c w x y z g H. eexists. split; [reflexivity|]. intros p q r t.
  destruct c, w, x, y, z; cbn in H; try discriminate; injection H as <-; unfold chol_blk, blk4, corr4, build_v, e2, dense_of; cbn [case_spins sl_start nocc pick2 snd get_hamiltonian keep_correlated t_aa t_ab t_bb build_v];
  unfold corr4; cbn [t_aa t_ab t_bb build_v]; try reflexivity; f_equal; try (apply sumn_ext; intros; ring).
  all: apply f_equal; apply sumn_ext; intros; ring.
Qed.
Theorem C34_one_body : forall no sp x y, exists g d, h_one (get_cholesky_hamiltonian nx e1 L s no) sp x y = Some g
  /\ h_one (sort_hamiltonian s (get_hamiltonian e1 e2 s no)) sp x y = Some d /\ forall p q, g p q = d p q.
Proof.
  intros no sp x y. eexists. eexists. split; [reflexivity|]. split; [reflexivity|]. intros p q. unfold blk2, corr2.
  destruct no, sp; cbn [pick1 fst get_hamiltonian keep_correlated o_a o_b]; unfold corr2; try reflexivity; apply C34_fock.
Qed.
(** Which blocks are set: those with at most two unoccupied indices that the list names, none of vovv, vvov, vvvv. *)
Theorem C34_blocks_set : forall no c w x y z, h_two (get_cholesky_hamiltonian nx e1 L s no) c w x y z <> None <->
  match c with
  | AB => In [w; x; y; z] [[Oc;Oc;Oc;Oc]; [Oc;Oc;Oc;Un]; [Oc;Oc;Un;Oc]; [Un;Oc;Oc;Oc]; [Oc;Un;Oc;Oc]; [Un;Oc;Oc;Un]; [Oc;Un;Un;Oc]; [Un;Oc;Un;Oc]; [Oc;Un;Oc;Un]; [Oc;Oc;Un;Un]; [Un;Un;Oc;Oc]]
  | _ => In [w; x; y; z] [[Oc;Oc;Oc;Oc]; [Oc;Oc;Oc;Un]; [Un;Oc;Oc;Oc]; [Un;Oc;Oc;Un]; [Oc;Oc;Un;Un]; [Un;Un;Oc;Oc]]
  end.
Proof.
  intros no c w x y z. split; destruct c, w, x, y, z; cbn; intros H; try (exfalso; apply H; reflexivity); try discriminate; auto 15;
  repeat (destruct H as [H|H]; [discriminate|]); contradiction.
Qed.
(** The batches replace the vvvv blocks: V_ef(a,b) is the element <ab||ef> (<ef||ab> for the transposed ones) of the dense block. *)
Theorem C34_batches : forall no vaa vab vbb,
  let H := sort_hamiltonian s (get_hamiltonian e1 e2 s no) in
  let A := chol_blk s L Al Un Un in let B := chol_blk s L Be Un Un in
  h_two H AA Un Un Un Un = Some vaa -> h_two H AB Un Un Un Un = Some vab -> h_two H BB Un Un Un Un = Some vbb ->
  forall a b e f, batch_same nx A a b e f = vaa a b e f /\ batch_same nx B a b e f = vbb a b e f
    /\ batch_ab nx A B a b e f = vab a b e f /\ batch3_ab nx A B a b e f = vab a b e f
    /\ batch_same_herm nx A a b e f = vaa e f a b /\ batch_same_herm nx B a b e f = vbb e f a b
    /\ batch3_ab_herm nx A B a b e f = vab e f a b /\ batch_ab_herm nx A B a b e f = vab e f a b.
Proof.
  intros no vaa vab vbb H A B E1 E2 E3 a b e f. cbn in E1, E2, E3. injection E1 as <-. injection E2 as <-. injection E3 as <-.
  unfold batch_same, batch_ab, batch3_ab, batch_same_herm, batch3_ab_herm, batch_ab_herm, A, B, chol_blk, blk4, corr4, build_v, e2, dense_of. cbn [case_spins sl_start nocc].
  repeat split; try reflexivity; unfold Rminus; apply (f_equal2 Rplus); try reflexivity; apply (f_equal Ropp); apply sumn_ext; intros; ring.
Qed.
End C34.

(** * C60 *)
(** shift_normal_order raises on every call: H.aa[:, occ, :, occ] with a list has three axes, not the four its einsum names. *)
Theorem C60_shift_normal_order_refuted : forall oa ob oap obp, shift_normal_order_runs oa ob oap obp = None.
Proof.
  assert (N24 : forall o, einsum_axes 4 (index_ndim 4 [Slice; IntList o; Slice; IntList o]) = None).
  { intros o. unfold index_ndim. cbn [length Nat.ltb Nat.leb list_lengths flat_map app filter]. destruct (Nat.eqb_spec (length o) 1) as [->|]; [reflexivity|].
    cbn [negb filter forallb]. rewrite Nat.eqb_refl. reflexivity. }
  assert (F : forall l, fold_left (fun a b : option unit => match a with Some _ => b | None => None end) l None = None) by (induction l; auto).
  intros oa ob oap obp. unfold shift_normal_order_runs, shift_calls, seq_opt. rewrite !N24.
  destruct oap as [|x oap]; [destruct obp as [|y obp]|]; cbn [app fold_left]; try reflexivity; apply F.
Qed.

(** * Instances *)
Definition sys2 : sysd := mkSys 1 1 1 3.
Definition ex_L : mat3 := fun x p q => INR (x + p + q + p * q).
Example C32_instance : exchange_symmetric (dense_of 2 ex_L) /\ frozen_core_energy (fun _ _ => 1) (dense_of 2 ex_L) sys2 = 3 /\ hf_energy (fun _ _ => 1) (dense_of 2 ex_L) sys2 <> 0.
Proof.
  split.
  - intros p q r t. unfold dense_of. apply sumn_ext. intros. ring.
  - split; unfold frozen_core_energy, hf_energy, hf_sum, sys2, dense_of, ex_L; cbn; lra.
Qed.
Example C33_instance : (s_noa sys2 <= s_norb sys2)%nat /\ length (slices 4) = 16%nat /\ In [Oc; Un; Oc; Un] (slices 4)
  /\ fst (block sys2 [Al; Be] (fun l => l) [Oc; Un; Oc; Un]) = [1; 2; 1; 2]%nat /\ snd (block sys2 [Al; Be] (fun l => l) [Oc; Un; Oc; Un]) [0; 1; 0; 0]%nat = [0; 2; 0; 1]%nat.
Proof. vm_compute. repeat split; auto 20. Qed.
Example C34_instance : exists g, h_two (get_cholesky_hamiltonian 2 (fun _ _ => 1) ex_L sys2 true) AA Un Un Oc Oc = Some g /\ g 0%nat 1%nat 0%nat 0%nat = 0.
Proof. eexists. split; [reflexivity|]. unfold chol_blk, ex_L, sys2. cbn. lra. Qed.
Print Assumptions C32_half_trace. Print Assumptions C32_unsorted. Print Assumptions C32_sorted. Print Assumptions C32_frozen_core. Print Assumptions C32_g_matrix.
Print Assumptions C32_g_matrix_cholesky_refuted. Print Assumptions C33_antisymmetric. Print Assumptions C33_exchange_needed_refuted. Print Assumptions C33_uhf_antisymmetric.
Print Assumptions C33_hamiltonian_antisymmetric. Print Assumptions C33_block_names. Print Assumptions C33_partition. Print Assumptions C33_sorted_blocks.
Print Assumptions C34_fock. Print Assumptions C34_hf_energy. Print Assumptions C34_blocks. Print Assumptions C34_one_body. Print Assumptions C34_blocks_set. Print Assumptions C34_batches.
Print Assumptions C60_shift_normal_order_refuted.
