(** C87: MP2 and MP3 (mbpt.py, mbpt_loops.f90). *)
From Coq Require Import Reals Arith NArith List Bool Lra Lia.
From Verif Require Import RSum IntegralsModel TensorObjs TensorSpec CcsdModel FockSpec FockCcSpec FockExp FockProj FockProps CrccSpec PtSpec Cc2Spec MbptModel MbptSpec MbptFock.
Import ListNotations.
Open Scope R_scope.

(** For canonical orbitals the reference is an eigenvector of the Fock operator with the sum of the occupied orbital energies as its eigenvalue, and the first-order
    state solves (F - E0)|psi1> = (E1 - W)|ref>, with no component along the reference *)
Theorem C87_zeroth_order d n I : shape d n -> exchangeable I -> canonical d n I ->
  let ref := reference (noa d) (nob d) in
  forall D, near n ref D -> unperturbed d n I (pure ref) D = order0 d I * pure ref D.
Proof. intros (E1 & E2) HI CA ref. exact (rs0 d I n E1 E2 HI CA). Qed.
Theorem C87_first_order d n I : shape d n -> exchangeable I -> canonical d n I -> gapped d I ->
  let ref := reference (noa d) (nob d) in let psi1 := first_order d n I in
  psi1 ref = 0 /\
  forall D, near n ref D -> unperturbed d n I psi1 D - order0 d I * psi1 D = order1 d n I * pure ref D - fluctuation d n I (pure ref) D.
Proof. intros (E1 & E2) HI CA GA ref psi1. split; [exact (psi_ref d I n E1 E2 HI)|exact (rs1 d I n E1 E2 HI CA GA)]. Qed.

(** calc_mp2 is <ref|W|psi1> *)
Theorem C87_mp2 d n I : shape d n -> exchangeable I ->
  calc_mp2 d (fock_ints (noa d) (nob d) I) = fluctuation d n I (first_order d n I) (reference (noa d) (nob d)).
Proof. intros (E1 & E2) HI. exact (mp2_state d I n E1 E2 HI). Qed.
(** calc_mp3 is <ref|W|psi1> + <psi1|W - E1|psi1> *)
Theorem C87_mp3 d n I : shape d n -> exchangeable I -> symmetric_repulsion I ->
  let psi1 := first_order d n I in
  calc_mp3 d (fock_ints (noa d) (nob d) I) =
    fluctuation d n I psi1 (reference (noa d) (nob d)) + first_order_bra d n I (fun D => fluctuation d n I psi1 D - order1 d n I * psi1 D).
Proof. intros (E1 & E2) HI SY psi1. unfold calc_mp3. cbv zeta. f_equal; [exact (mp2_state d I n E1 E2 HI)|exact (mp3_state d I n E1 E2 HI SY)]. Qed.

(** * A case: two alpha and two beta electrons in four orbitals.  Orbital energies -1, -1, 1, 1; <01|23> = <23|01> = 1, <23|23> = -2 and their exchanges:
    the second-order energy is -1 and the third-order energy -1/2. *)
Definition v_mp (p q r s : nat) : R :=
  match p, q, r, s with
  | 0, 1, 2, 3 | 1, 0, 3, 2 | 2, 3, 0, 1 | 3, 2, 1, 0 => 1%R
  | 2, 3, 2, 3 | 3, 2, 3, 2 => (-2)%R | _, _, _, _ => 0%R end%nat.
Definition f_mp (p q : nat) : R := match p, q with 0, 0 | 1, 1 => (-1)%R | 2, 2 | 3, 3 => 1%R | _, _ => 0%R end%nat.
Definition I_mp : integrals := mkIntegrals f_mp f_mp v_mp v_mp v_mp.
Definition d_mp := mkDims 2 2 2 2.
Lemma v_mp_exch p q r s : v_mp p q r s = v_mp q p s r.
Proof. destruct p as [|[|[|[|p]]]], q as [|[|[|[|q]]]], r as [|[|[|[|r]]]], s as [|[|[|[|s]]]]; reflexivity. Qed.
Lemma v_mp_sym p q r s : v_mp p q r s = v_mp r s p q.
Proof. destruct p as [|[|[|[|p]]]], q as [|[|[|[|q]]]], r as [|[|[|[|r]]]], s as [|[|[|[|s]]]]; reflexivity. Qed.
Lemma mp_fock p q : (p < 4)%nat -> (q < 4)%nat -> fock_a 2 2 I_mp p q = f_mp p q /\ fock_b 2 2 I_mp p q = f_mp p q.
Proof.
  intros Hp Hq. unfold fock_a, fock_b. do 4 (destruct p as [|p]; [do 4 (destruct q as [|q]; [cbn; split; ring|]); lia|]). lia.
Qed.
Lemma mp_f : (fock_a 2 2 I_mp 0 0 = -1 /\ fock_a 2 2 I_mp 1 1 = -1 /\ fock_a 2 2 I_mp 2 2 = 1 /\ fock_a 2 2 I_mp 3 3 = 1) /\
  (fock_b 2 2 I_mp 0 0 = -1 /\ fock_b 2 2 I_mp 1 1 = -1 /\ fock_b 2 2 I_mp 2 2 = 1 /\ fock_b 2 2 I_mp 3 3 = 1).
Proof. repeat split; first [refine (proj1 (mp_fock _ _ _ _)); lia|refine (proj2 (mp_fock _ _ _ _)); lia]. Qed.
Ltac mp_f := destruct mp_f as [(Fa0 & Fa1 & Fa2 & Fa3) (Fb0 & Fb1 & Fb2 & Fb3)]; rewrite ?Fa0, ?Fa1, ?Fa2, ?Fa3, ?Fb0, ?Fb1, ?Fb2, ?Fb3.
Example C87_instance : shape d_mp 4 /\ exchangeable I_mp /\ symmetric_repulsion I_mp /\ canonical d_mp 4 I_mp /\ gapped d_mp I_mp /\
  calc_mp2 d_mp (fock_ints 2 2 I_mp) = -1 /\ calc_mp3 d_mp (fock_ints 2 2 I_mp) = -3 / 2.
Proof.
  split; [split; reflexivity|]. split; [split; exact v_mp_exch|]. split; [split; [|split]; exact v_mp_sym|].
  split; [intros p q Hp Hq N; cbn [d_mp noa nob]; destruct (mp_fock p q Hp Hq) as [-> ->]; do 4 (destruct p as [|p]; [do 4 (destruct q as [|q]; [first [now elim N|split; reflexivity]|]); lia|]); lia|].
  split.
  { unfold gapped. cbn [d_mp noa nua nob nub]. cbv zeta. split; [|split]; intros a b i j Ha Hb Hi Hj;
    (destruct a as [|[|]]; [| |lia]); (destruct b as [|[|]]; [| |lia]); (destruct i as [|[|]]; [| |lia]); (destruct j as [|[|]]; [| |lia]); 
    cbn [Nat.add]; mp_f; intros X; lra. }
  assert (Z : calc_mp2 d_mp (fock_ints 2 2 I_mp) = -1).
  { unfold calc_mp2, mp2. cbn. mp_f. unfold anti_aa, anti_bb. cbn. replace (-1 + -1 - 1 - 1) with (-4) by ring. lra. }
  split; [exact Z|]. unfold calc_mp3. cbv zeta. change (mp2 d_mp (fock_ints 2 2 I_mp)) with (calc_mp2 d_mp (fock_ints 2 2 I_mp)). rewrite Z.
  unfold mp3, mp3_amp_aa, mp3_amp_ab, mp3_amp_bb. unfold mp3_t, mp3_t2, mp3_t2b. cbn [acc d_mp noa nob nua nub do4 do2 do2_lt fold_left flat_map seq map app fst snd Nat.sub x_aa x_ab x_bb mp3_t2_body].
  cbn. mp_f. unfold anti_aa, anti_bb. cbn. replace (-1 + -1 - 1 - 1) with (-4) by ring. lra.
Qed.
Print Assumptions C87_mp3.
Print Assumptions C87_first_order.
