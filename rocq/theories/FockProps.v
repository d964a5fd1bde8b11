(** CCSD against second quantisation: the energy, the residual and the fixed points of the program's CCSD are those of the projected Schroedinger
    equation (H - E) exp(T) |ref> for the electronic Hamiltonian of FockSpec.v. *)
From Coq Require Import Reals Arith NArith List Bool Lia Lra FunctionalExtensionality.
From Verif Require Import RSum IntegralsModel TensorObjs TensorSpec CcsdModel CcsdUpdate CcsdProps FockSpec FockCar FockCcSpec FockExp FockLevel FockState FockNear FockProj.
Import ListNotations.
Local Open Scope R_scope.

(** exp(T) |ref> for amplitudes T (its series has at most noa + nob + 1 terms, C63_terminates) *)
Notation cc_state d T m := (expo (cluster_sd d T) m (pure (reference (noa d) (nob d)))).
Notation cc_ref d := (reference (noa d) (nob d)).
Definition shape (d : dims) (n : nat) : Prop := (noa d + nua d = n)%nat /\ (nob d + nub d = n)%nat.

Theorem C63_terminates d T m D : (noa d + nob d <= m)%nat -> cc_state d T m D = cc_state d T (noa d + nob d) D.
Proof.
  intros Hm. unfold expo. replace (S m) with (S (noa d + nob d) + (m - (noa d + nob d)))%nat by lia. rewrite sumn_split.
  rewrite (sumn_0 (m - (noa d + nob d))); [ring|]. intros k _.
  rewrite (vanish_power (map al (seq 0 (noa d)) ++ map be (seq 0 (nob d))) (ref_nodup (noa d) (nob d)) (cluster_sd d T) _ (cluster_exc d T)); [ring|].
  assert (L := level_max (map al (seq 0 (noa d)) ++ map be (seq 0 (nob d))) D). rewrite app_length, !map_length, !seq_length in L. lia.
Qed.

(** The reference component of H exp(T) |ref> is the reference energy plus the correlation energy the program reports *)
Theorem C63_energy d I T n m : shape d n -> exchangeable I -> antisym_amps T -> (4 <= m)%nat ->
  cc_state d T m (cc_ref d) = 1 /\
  hamiltonian n I (cc_state d T m) (cc_ref d) = scf_energy (noa d) (nob d) I + cc_energy d (fock_ints (noa d) (nob d) I) T.
Proof. intros (E1 & E2) HI HT Hm. split; [now apply norm with (I := I) (n := n)|now apply energy]. Qed.

(** The residual arrays are the components of (H - E) exp(T) |ref> along the excited determinants, less the products of lower ones *)
Theorem C63_residual d I T n m : shape d n -> exchangeable I -> antisym_amps T -> (4 <= m)%nat ->
  let H := fock_ints (noa d) (nob d) I in
  let E := scf_energy (noa d) (nob d) I + cc_energy d H T in
  let W := fun D => hamiltonian n I (cc_state d T m) D - E * cc_state d T m D in
  let r := ccsd_resid d H T in
  (forall a i, (a < nua d)%nat -> (i < noa d)%nat -> x_a r a i = along1 (cc_ref d) (noa d) al W a i) /\
  (forall a i, (a < nub d)%nat -> (i < nob d)%nat -> x_b r a i = along1 (cc_ref d) (nob d) be W a i) /\
  (forall a b i j, (a < nua d)%nat -> (b < nua d)%nat -> (i < noa d)%nat -> (j < noa d)%nat ->
    x_aa r a b i j = along2 (cc_ref d) (noa d) (noa d) al al W a b i j
      - (x_a T a i * x_a r b j - x_a T a j * x_a r b i - x_a T b i * x_a r a j + x_a T b j * x_a r a i)) /\
  (forall a b i j, (a < nua d)%nat -> (b < nub d)%nat -> (i < noa d)%nat -> (j < nob d)%nat ->
    x_ab r a b i j = along2 (cc_ref d) (noa d) (nob d) al be W a b i j - (x_a T a i * x_b r b j + x_b T b j * x_a r a i)) /\
  (forall a b i j, (a < nub d)%nat -> (b < nub d)%nat -> (i < nob d)%nat -> (j < nob d)%nat ->
    x_bb r a b i j = along2 (cc_ref d) (nob d) (nob d) be be W a b i j
      - (x_b T a i * x_b r b j - x_b T a j * x_b r b i - x_b T b i * x_b r a j + x_b T b j * x_b r a i)).
Proof.
  intros (E1 & E2) HI HT Hm H E W r.
  change W with (defect d I T n m).
  repeat split; intros; rewrite ?lin1, ?lin2.
  - rewrite (h1a d I T n m), (c1a d I T n m) by assumption. unfold E, r, H. ring.
  - rewrite (h1b d I T n m), (c1b d I T n m) by assumption. unfold E, r, H. ring.
  - rewrite (h2aa d I T n m), (c2aa d I T n m) by assumption. unfold E, r, H. ring.
  - rewrite (h2ab d I T n m), (c2ab d I T n m) by assumption. unfold E, r, H. ring.
  - rewrite (h2bb d I T n m), (c2bb d I T n m) by assumption. unfold E, r, H. ring.
Qed.

(** The residual vanishes exactly when exp(T) |ref> solves the Schroedinger equation on the reference and on all singly and doubly excited determinants,
    for some energy, which then is the energy of C63_energy *)
Theorem C63_schroedinger d I T n m : shape d n -> exchangeable I -> antisym_amps T -> (4 <= m)%nat ->
  (same_amps d (ccsd_resid d (fock_ints (noa d) (nob d) I) T) zero_amps <-> exists E, solves n I (cc_ref d) E (cc_state d T m)).
Proof.
  intros (E1 & E2) HI HT Hm. split.
  - intros Z. exists (scf_energy (noa d) (nob d) I + cc_energy d (fock_ints (noa d) (nob d) I) T). now apply solves_zero.
  - intros (E & S). assert (Q := S (cc_ref d) (or_introl eq_refl)). rewrite (norm d I T n m) in Q by assumption. rewrite (energy d I T n m) in Q by assumption. rewrite Rmult_1_r in Q. subst E.
    now apply solves_zero with (n := n) (m := m).
Qed.

(** One iteration of the program leaves the amplitudes unchanged exactly when they solve that equation *)
Theorem C63_fixed_point d I T n m s : shape d n -> exchangeable I -> antisym_amps T -> (4 <= m)%nat -> regular d s (fock_ints (noa d) (nob d) I) ->
  (same_amps d (ccsd_iter d s (fock_ints (noa d) (nob d) I) T) T <-> exists E, solves n I (cc_ref d) E (cc_state d T m)).
Proof. intros Hd HI HT Hm HR. rewrite C51_ccsd_fixed_point by assumption. now apply C63_schroedinger. Qed.

(** For spatial orbitals shared by both spins [hamiltonian] is the textbook operator *)
Theorem C63_textbook n h e : (forall p q r s, e p q r s = e q p s r) -> hamiltonian_r n h e = hamiltonian n (mkIntegrals h h e e e).
Proof.
  intros He. apply functional_extensionality; intros psi. apply ext_state; intros D. unfold hamiltonian_r, hamiltonian. cbn [h_a h_b w_aa w_ab w_bb].
  assert (S : two_body n e be al psi D = two_body n e al be psi D).
  { unfold two_body. rewrite sumn_swap. apply sumn_ext; intros q _. apply sumn_ext; intros p _. rewrite sumn_swap. apply sumn_ext; intros s _. apply sumn_ext; intros r _.
    rewrite (He p q r s). f_equal. rewrite cre_cre.
    replace (ann (al s) (ann (be r) psi)) with (fun F => - ann (be r) (ann (al s) psi) F) by (apply ext_state; intros; rewrite (ann_ann (al s) (be r)); ring).
    replace (cre (be p) (fun F => - ann (be r) (ann (al s) psi) F)) with (fun F => - cre (be p) (ann (be r) (ann (al s) psi)) F) by (apply ext_state; intros; now rewrite cre_neg).
    rewrite cre_neg. ring. }
  rewrite S. lra.
Qed.

(** What the program builds from the integrals of the molecule (frozen core included) are the arrays of these theorems *)
Definition sys_dims (s : sysd) : dims := mkDims (s_noa s) (s_norb s - s_noa s) (s_nob s) (s_norb s - s_nob s).
Theorem C63_arrays e1 e2 s : (forall p q r t, e2 p q r t = e2 q p t r) ->
  holds (fock_ints (s_noa s) (s_nob s) (valence e1 e2 (s_nf s))) (sort_hamiltonian s (get_hamiltonian e1 e2 s true)).
Proof.
  intros He.
  assert (FA : forall p q, corr2 s (o_a (build_f {| o_a := e1; o_b := e1 |} (build_v e2) s)) p q = fock_a (s_noa s) (s_nob s) (valence e1 e2 (s_nf s)) p q).
  { intros p q. unfold corr2, build_f, build_v, fock_a, valence. cbn [o_a t_aa t_ab h_a w_aa w_ab].
    rewrite (Nat.add_comm (s_noa s)), (Nat.add_comm (s_nob s)), !sumn_split, !sumn_minus. rewrite sumn_scal. ring. }
  assert (FB : forall p q, corr2 s (o_b (build_f {| o_a := e1; o_b := e1 |} (build_v e2) s)) p q = fock_b (s_noa s) (s_nob s) (valence e1 e2 (s_nf s)) p q).
  { intros p q. unfold corr2, build_f, build_v, fock_b, valence. cbn [o_b t_bb t_ab h_b w_bb w_ab].
    rewrite (Nat.add_comm (s_noa s)), (Nat.add_comm (s_nob s)), !sumn_split, !sumn_minus. rewrite sumn_scal.
    rewrite (sumn_ext (s_nf s) (fun i => e2 i (s_nf s + p)%nat i (s_nf s + q)%nat) (fun i => e2 (s_nf s + p)%nat i (s_nf s + q)%nat i)) by (intros; apply He). ring. }
  split.
  - intros sp x y. cbn [sort_hamiltonian h_one]. eexists. split; [reflexivity|]. intros p q. unfold get_hamiltonian, keep_correlated, blk2. cbn [fst].
    destruct sp, x, y; cbn [pick1 o_a o_b sl_start nocc int_one fock_ints i_a_oo i_a_ov i_a_vo i_a_vv i_b_oo i_b_ov i_b_vo i_b_vv]; rewrite ?FA, ?FB; reflexivity.
  - intros c w x y z. cbn [sort_hamiltonian h_two]. eexists. split; [reflexivity|]. intros p q r t. destruct c, w, x, y, z; reflexivity.
Qed.
Theorem C63_reference_energy e1 e2 s : (forall p q r t, e2 p q r t = e2 q p t r) ->
  hf_energy e1 e2 s = frozen_core_energy e1 e2 s + scf_energy (s_noa s) (s_nob s) (valence e1 e2 (s_nf s)).
Proof.
  intros He. unfold hf_energy. assert (F : frozen_core_energy e1 e2 s = hf_sum e1 e2 (s_nf s) (s_nf s)).
  { unfold frozen_core_energy. destruct (Nat.eqb_spec (s_nf s) 0) as [->|]; [unfold hf_sum; cbn [sumn]; lra|reflexivity]. }
  rewrite F. clear F. unfold hf_sum, scf_energy, valence. cbn [h_a h_b w_aa w_ab w_bb]. set (nf := s_nf s).
  rewrite (Nat.add_comm (s_noa s)), (Nat.add_comm (s_nob s)), !sumn_split.
  assert (S2 : forall na nb (f : nat -> nat -> R), sumn na (fun i => sumn (nf + nb) (fun j => f i j)) = sumn na (fun i => sumn nf (fun j => f i j)) + sumn na (fun i => sumn nb (fun j => f i (nf + j)%nat))).
  { intros. rewrite <- sumn_plus. apply sumn_ext; intros i _. apply sumn_split. }
  rewrite !S2. rewrite !sumn_plus.
  assert (M2 : forall na nb (f g : nat -> nat -> R), sumn na (fun i => sumn nb (fun j => f i j - g i j)) = sumn na (fun i => sumn nb (fun j => f i j)) - sumn na (fun i => sumn nb (fun j => g i j))).
  { intros. rewrite <- sumn_minus. apply sumn_ext; intros i _. apply sumn_minus. }
  rewrite !M2.
  assert (M3 : forall na (f : nat -> nat -> R), sumn na (fun i => sumn nf (fun j => 2 * f i j)) = 2 * sumn na (fun i => sumn nf (fun j => f i j))).
  { intros. rewrite <- sumn_scal. apply sumn_ext; intros i _. apply sumn_scal. }
  rewrite !(M3 _ (fun i j => e2 (nf + i)%nat j (nf + i)%nat j)).
  assert (X1 : forall na, sumn nf (fun i => sumn na (fun j => e2 i (nf + j)%nat i (nf + j)%nat)) = sumn na (fun i => sumn nf (fun j => e2 (nf + i)%nat j (nf + i)%nat j))).
  { intros. rewrite sumn_swap. apply sumn_ext; intros i _. apply sumn_ext; intros j _. apply He. }
  assert (X2 : forall na, sumn nf (fun i => sumn na (fun j => e2 i (nf + j)%nat (nf + j)%nat i)) = sumn na (fun i => sumn nf (fun j => e2 (nf + i)%nat j j (nf + i)%nat))).
  { intros. rewrite sumn_swap. apply sumn_ext; intros i _. apply sumn_ext; intros j _. apply He. }
  rewrite !X1, !X2. lra.
Qed.

(** The whole chain: molecular integrals, frozen core, the program's arrays, one CCSD iteration, total energy *)
Theorem C63_ccsd e1 e2 s T shift m : (forall p q r t, e2 p q r t = e2 q p t r) -> (s_noa s <= s_norb s)%nat -> (s_nob s <= s_norb s)%nat ->
  antisym_amps T -> (4 <= m)%nat ->
  let d := sys_dims s in
  let H := fock_ints (s_noa s) (s_nob s) (valence e1 e2 (s_nf s)) in
  let h p q := h_a (valence e1 e2 (s_nf s)) p q in
  let e p q r t := e2 (s_nf s + p)%nat (s_nf s + q)%nat (s_nf s + r)%nat (s_nf s + t)%nat in
  let psi := cc_state d T m in
  let ref := reference (s_noa s) (s_nob s) in
  holds H (sort_hamiltonian s (get_hamiltonian e1 e2 s true)) /\
  hf_energy e1 e2 s + cc_energy d H T = frozen_core_energy e1 e2 s + hamiltonian_r (s_norb s) h e psi ref /\
  (regular d shift H -> same_amps d (ccsd_iter d shift H T) T <->
     forall D, near (s_norb s) ref D ->
       hamiltonian_r (s_norb s) h e psi D = (hf_energy e1 e2 s + cc_energy d H T - frozen_core_energy e1 e2 s) * psi D).
Proof.
  intros He Ha Hb HT Hm d H h e psi ref.
  assert (Hd : shape d (s_norb s)) by (split; cbn [d sys_dims noa nua nob nub]; lia).
  assert (HX : exchangeable (valence e1 e2 (s_nf s))) by (split; intros; apply He).
  assert (HR : hamiltonian_r (s_norb s) h e = hamiltonian (s_norb s) (valence e1 e2 (s_nf s))).
  { rewrite C63_textbook by (intros; apply He). reflexivity. }
  assert (EN : hamiltonian (s_norb s) (valence e1 e2 (s_nf s)) psi ref = scf_energy (s_noa s) (s_nob s) (valence e1 e2 (s_nf s)) + cc_energy d H T) by exact (proj2 (C63_energy d _ T _ m Hd HX HT Hm)).
  split; [now apply C63_arrays|]. assert (ER := C63_reference_energy e1 e2 s He). rewrite HR. split; [rewrite EN, ER; ring|].
  intros Rg. rewrite ER. replace (frozen_core_energy e1 e2 s + scf_energy (s_noa s) (s_nob s) (valence e1 e2 (s_nf s)) + cc_energy d H T - frozen_core_energy e1 e2 s)
    with (scf_energy (s_noa s) (s_nob s) (valence e1 e2 (s_nf s)) + cc_energy d H T) by ring.
  assert (FP : same_amps d (ccsd_iter d shift H T) T <-> exists E, solves (s_norb s) (valence e1 e2 (s_nf s)) ref E psi) by exact (C63_fixed_point d _ T (s_norb s) m shift Hd HX HT Hm Rg).
  rewrite FP. split.
  - intros (E & Sv) D HD. assert (Q := Sv ref (or_introl eq_refl)). assert (N1 := proj1 (C63_energy d _ T _ m Hd HX HT Hm)).
    change (cc_state d T m (cc_ref d)) with (psi ref) in N1. change (cc_state d T m) with psi in Q, Sv. rewrite N1, EN in Q. rewrite Rmult_1_r in Q. rewrite Q. now apply Sv.
  - intros Sv. eexists. exact Sv.
Qed.

(** A case: two electrons in two orbitals that only exchange as a pair; t = -1/2 solves the equations *)
Definition ex_ints : integrals :=
  let h p q := if ((p =? 1) && (q =? 1))%nat then 3 / 2 else 0 in
  let w p q r s := if ((p =? q) && (r =? s) && negb (p =? r))%nat then 2 else 0 in
  mkIntegrals h h (fun _ _ _ _ => 0) w (fun _ _ _ _ => 0).
Definition ex_amps : amps := mkAmps (fun _ _ => 0) (fun _ _ => 0) (fun _ _ _ _ => 0) (fun _ _ _ _ => - / 2) (fun _ _ _ _ => 0)
  (fun _ _ _ _ _ _ => 0) (fun _ _ _ _ _ _ => 0) (fun _ _ _ _ _ _ => 0) (fun _ _ _ _ _ _ => 0).
Definition ex_dims : dims := mkDims 1 1 1 1.
Example C63_instance : shape ex_dims 2 /\ exchangeable ex_ints /\ antisym_amps ex_amps /\ regular ex_dims 0 (fock_ints 1 1 ex_ints) /\
  same_amps ex_dims (ccsd_resid ex_dims (fock_ints 1 1 ex_ints) ex_amps) zero_amps /\
  cc_state ex_dims ex_amps 4 (occupied [2; 3]%nat) <> 0 /\ cc_energy ex_dims (fock_ints 1 1 ex_ints) ex_amps = - 1.
Proof.
  split; [split; reflexivity|]. split; [split; intros; cbn; ring|]. split; [constructor; intros; cbn; ring|].
  split; [|split].
  - constructor; intros; cbn in *; repeat match goal with H : (_ < 1)%nat |- _ => apply Nat.lt_1_r in H; subst end; cbv -[IZR Rplus Rmult Rminus Ropp Rdiv Rinv]; apply Rlt_not_eq; lra.
  - constructor; intros; cbn [ex_dims noa nua nob nub] in *; repeat match goal with H : (_ < 1)%nat |- _ => apply Nat.lt_1_r in H; subst end;
      cbn [ccsd_resid zero_amps x_a x_b x_aa x_ab x_bb]; unfold four_term; cbv -[IZR Rplus Rmult Rminus Ropp Rdiv Rinv]; field_simplify; lra.
  - split.
    + cbv -[IZR Rplus Rmult Rminus Ropp Rdiv Rinv]. intros Q. field_simplify in Q. lra.
    + cbv -[IZR Rplus Rmult Rminus Ropp Rdiv Rinv]; field_simplify; lra.
Qed.

Print Assumptions C63_terminates.
Print Assumptions C63_energy.
Print Assumptions C63_residual.
Print Assumptions C63_schroedinger.
Print Assumptions C63_fixed_point.
Print Assumptions C63_textbook.
Print Assumptions C63_arrays.
Print Assumptions C63_reference_energy.
Print Assumptions C63_ccsd.
