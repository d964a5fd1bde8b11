(** Generated by tools/gen_secfock.py: components of (H - E - w) R exp(T) |ref> for the DEA2 operator (proof support). *)
From Coq Require Import Reals Arith NArith List Bool Lia Lra QArith Qreals ZArith FunctionalExtensionality.
From Verif Require Import RSum IntegralsModel TensorObjs TensorAlg TensorSpec CcsdModel CcsdUpdate CcsdReify CcsdProps FockSpec FockCar FockWick FockArrays FockCcSpec FockTerms FockHam FockExp FockLevel FockCheck FockState FockNear FockProj FockSector FockSectorTools SectorModel FockSectorSpec FockFlip FockSpaces SectorDea2Reify.
Import ListNotations.
Local Open Scope nat_scope.
Definition dea2_rts : list term := [mkTerm (1 # 1) [(40, 1); (41, 3)] [(66, [40; 41])] [C 1 40; C 3 41]].
Definition dea2_own : list (nat * (nat * list nat * bool)) := [].
Definition dea2_gens := fock_gens ++ dea2_own.
Definition dea2_tab := Eval vm_compute in symtab dea2_gens 67.
Definition dea2_rt e := retag (to_sector 1) e.
Lemma dea2_htab : dea2_tab = symtab dea2_gens 67. Proof. vm_compute. reflexivity. Qed.
Lemma dea2_rtok : rtok dea2_rts 0 = true. Proof. vm_compute. reflexivity. Qed.
Definition dea2_bra_ab : list op := [A 3 1; A 1 0].
Definition dea2_ext_ab : list (nat * nat) := [(0, 1); (1, 3)].
Definition dea2_c_ab := (ET 66 [0; 1]).
Definition dea2_d_ab := EAdd (EMul f_en dea2_c_ab) (dea2_rt (s_dea2_ab 10 0 1)).
Lemma dea2_bk_ab : braok dea2_ext_ab dea2_bra_ab = true. Proof. vm_compute. reflexivity. Qed.
Lemma dea2_kc_ab : fock_same dea2_tab dea2_ext_ab (eek dea2_bra_ab dea2_rts) dea2_c_ab = true. Proof. vm_compute. reflexivity. Qed.
Lemma dea2_kd_ab : fock_same dea2_tab dea2_ext_ab (hek dea2_bra_ab dea2_rts) dea2_d_ab = true. Proof. vm_compute. reflexivity. Qed.
Local Open Scope R_scope.
Section P.
Variables (d : dims) (I : integrals) (T : amps) (Y : dea2v) (n m : nat).
Hypothesis En : (noa d + nua d = n)%nat.
Hypothesis En' : (nob d + nub d = n)%nat.
Hypothesis HI : exchangeable I.
Hypothesis HT : antisym_amps T.
Hypothesis Hm : (3 <= m)%nat.
Notation H := (fock_ints (noa d) (nob d) I).
Notation ref := (reference (noa d) (nob d)).
Notation psi := (expo (cluster_sd d T) m (pure ref)).
Notation E := (scf_energy (noa d) (nob d) I + cc_energy d H T).
Notation Rs := [ap2 (dea2_ab Y)].
Notation ten := (tenv (fock_arrays H T ++ Rs)).
Notation dn e v := (den (fdim d) ten e v).
Notation X := (ccsd_resid d H T).
Notation Z := (dea2_HR d (hbar_ccsd d H T) T Y).
Definition dea2_defect (w : R) : state := fun D => hamiltonian n I (dea2_op d Y psi) D - (E + w) * dea2_op d Y psi D.
Lemma dea2_op_ok v phi : psem (noa d) (nob d) (fdim d) ten dea2_rts v phi = dea2_op d Y phi.
Proof.
  apply ext_state; intros D. unfold psem, dea2_rts, dea2_op. cbn [lsum]. unfold tsem. cbn [t_c t_l t_f t_o]. rewrite ?Q1, ?half, ?Rmult_1_l, Rplus_0_r, ?Rplus_assoc.
  repeat match goal with |- _ + _ = _ + _ => apply f_equal2 | |- / 2 * _ = / 2 * _ => apply f_equal end; cbn [ssum]; repeat (apply sumn_ext; intros ? _); cbn [prodf]; rewrite Rmult_1_r; reflexivity.
Qed.
Lemma dea2_syms : Forall (fun g => okalt ten (fst g) (snd g)) dea2_gens.
Proof.
  apply sector_syms; [exact (fock_ints_antisym _ _ _ HI)|exact HT|].
  apply Forall_nil.
Qed.
Lemma dea2_rt_ok e v : dn (dea2_rt e) v = den (fdim d) (tenv (jac_arrays d H T T ++ Rs)) e v.
Proof. apply (retag_sector d H T Rs). cbn [length]. lia. Qed.
Lemma dea2_comp_ab w a b : (a < nua d)%nat -> (b < nub d)%nat ->
  str [(false, vb d b); (false, va d a)] (dea2_defect w) ref = (dea2_ab Z a b - w * dea2_ab Y a b).
Proof.
  intros Ha Hb.
  assert (Q0_ : dn (dea2_rt (s_dea2_ab 10 0 1)) (venv [a; b]) = dea2_ab Z a b) by (rewrite dea2_rt_ok; reflexivity).
  change (opsem (noa d) (nob d) dea2_bra_ab (venv [a; b]) (dea2_defect w) ref = (dea2_ab Z a b - w * dea2_ab Y a b)). unfold dea2_defect. rewrite <- (dea2_op_ok (venv [a; b])).
  rewrite (defect_ok d I T n Rs dea2_rts 0 En En' dea2_rtok dea2_gens dea2_tab dea2_htab dea2_syms dea2_ext_ab dea2_bra_ab (venv [a; b]) m dea2_d_ab dea2_c_ab (E + w));
    [|now apply ext2|exact dea2_bk_ab|cbn; lia|exact Hm|exact dea2_kd_ab|exact dea2_kc_ab].
  change (dn dea2_c_ab (venv [a; b])) with (dea2_ab Y a b).
  change (dn dea2_d_ab (venv [a; b])) with (dn f_en (venv [a; b]) * (dea2_ab Y a b) + (dn (dea2_rt (s_dea2_ab 10 0 1)) (venv [a; b]))).
  rewrite sector_en, Q0_. ring.
Qed.
Lemma dea2_solves w : same_amps d X zero_amps -> (solves_on (dea2_space n ref) n I (E + w) (dea2_op d Y psi) <-> dea2_root d Z Y w).
Proof.
  intros [Za Zb _ _ _]. cbn [zero_amps x_a x_b] in Za, Zb.
  assert (F := dea2_flat d n (dea2_defect w) En En').
  transitivity (forall D, dea2_space n ref D -> dea2_defect w D = 0); [unfold solves_on, dea2_defect; split; intros G D HD; specialize (G D HD); [rewrite G; ring|lra]|]. rewrite F. clear F. unfold dea2_root. split.
  - intros F a b Ha Hb. specialize (F a b Ha Hb). rewrite dea2_comp_ab in F by assumption. lra.
  - intros G a b Ha Hb. rewrite dea2_comp_ab, G by assumption. ring.
Qed.
End P.
