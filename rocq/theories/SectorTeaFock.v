(** Generated by tools/gen_secfock.py: components of (H - E - w) R exp(T) |ref> for the TEA operator (proof support). *)
From Coq Require Import Reals Arith NArith List Bool Lia Lra QArith Qreals ZArith FunctionalExtensionality.
From Verif Require Import RSum IntegralsModel TensorObjs TensorAlg TensorSpec CcsdModel CcsdUpdate CcsdReify CcsdProps FockSpec FockCar FockWick FockArrays FockCcSpec FockTerms FockHam FockExp FockLevel FockCheck FockState FockNear FockProj FockSector FockSectorTools SectorModel FockSectorSpec FockFlip FockSpaces SectorTeaReify.
Import ListNotations.
Local Open Scope nat_scope.
Definition tea_rts : list term := [mkTerm (1 # 2) [(40, 1); (41, 1); (42, 3)] [(66, [40; 41; 42])] [C 1 40; C 1 41; C 3 42]].
Definition tea_own : list (nat * (nat * list nat * bool)) := [(66, (66, [1; 0; 2], false))].
Definition tea_gens := fock_gens ++ tea_own.
Definition tea_tab := Eval vm_compute in symtab tea_gens 67.
Definition tea_rt e := retag (to_sector 1) e.
Lemma tea_htab : tea_tab = symtab tea_gens 67. Proof. vm_compute. reflexivity. Qed.
Lemma tea_rtok : rtok tea_rts 0 = true. Proof. vm_compute. reflexivity. Qed.
Definition tea_bra_aab : list op := [A 3 2; A 1 1; A 1 0].
Definition tea_ext_aab : list (nat * nat) := [(0, 1); (1, 1); (2, 3)].
Definition tea_c_aab := (ET 66 [0; 1; 2]).
Definition tea_d_aab := EAdd (EMul f_en tea_c_aab) (tea_rt (s_tea_aab 10 0 1 2)).
Lemma tea_bk_aab : braok tea_ext_aab tea_bra_aab = true. Proof. vm_compute. reflexivity. Qed.
Lemma tea_kc_aab : fock_same tea_tab tea_ext_aab (eek tea_bra_aab tea_rts) tea_c_aab = true. Proof. vm_compute. reflexivity. Qed.
Lemma tea_kd_aab : fock_same tea_tab tea_ext_aab (hek tea_bra_aab tea_rts) tea_d_aab = true. Proof. vm_compute. reflexivity. Qed.
Local Open Scope R_scope.
Section P.
Variables (d : dims) (I : integrals) (T : amps) (Y : teav) (n m : nat).
Hypothesis En : (noa d + nua d = n)%nat.
Hypothesis En' : (nob d + nub d = n)%nat.
Hypothesis HI : exchangeable I.
Hypothesis HT : antisym_amps T.
Hypothesis HY : tea_anti Y.
Hypothesis Hm : (3 <= m)%nat.
Notation H := (fock_ints (noa d) (nob d) I).
Notation ref := (reference (noa d) (nob d)).
Notation psi := (expo (cluster_sd d T) m (pure ref)).
Notation E := (scf_energy (noa d) (nob d) I + cc_energy d H T).
Notation Rs := [ap3 (tea_aab Y)].
Notation ten := (tenv (fock_arrays H T ++ Rs)).
Notation dn e v := (den (fdim d) ten e v).
Notation X := (ccsd_resid d H T).
Notation Z := (tea_HR d (hbar_ccsd d H T) T Y).
Definition tea_defect (w : R) : state := fun D => hamiltonian n I (tea_op d Y psi) D - (E + w) * tea_op d Y psi D.
Lemma tea_op_ok v phi : psem (noa d) (nob d) (fdim d) ten tea_rts v phi = tea_op d Y phi.
Proof.
  apply ext_state; intros D. unfold psem, tea_rts, tea_op. cbn [lsum]. unfold tsem. cbn [t_c t_l t_f t_o]. rewrite ?Q1, ?half, ?Rmult_1_l, Rplus_0_r, ?Rplus_assoc.
  repeat match goal with |- _ + _ = _ + _ => apply f_equal2 | |- / 2 * _ = / 2 * _ => apply f_equal end; cbn [ssum]; repeat (apply sumn_ext; intros ? _); cbn [prodf]; rewrite Rmult_1_r; reflexivity.
Qed.
Lemma tea_syms : Forall (fun g => okalt ten (fst g) (snd g)) tea_gens.
Proof.
  apply sector_syms; [exact (fock_ints_antisym _ _ _ HI)|exact HT|].
  apply Forall_cons; [okswap HY|apply Forall_nil].
Qed.
Lemma tea_rt_ok e v : dn (tea_rt e) v = den (fdim d) (tenv (jac_arrays d H T T ++ Rs)) e v.
Proof. apply (retag_sector d H T Rs). cbn [length]. lia. Qed.
Lemma tea_comp_aab w a b c : (a < nua d)%nat -> (b < nua d)%nat -> (c < nub d)%nat ->
  str [(false, vb d c); (false, va d b); (false, va d a)] (tea_defect w) ref = (tea_aab Z a b c - w * tea_aab Y a b c).
Proof.
  intros Ha Hb Hc.
  assert (Q0_ : dn (tea_rt (s_tea_aab 10 0 1 2)) (venv [a; b; c]) = tea_aab Z a b c) by (rewrite tea_rt_ok; reflexivity).
  change (opsem (noa d) (nob d) tea_bra_aab (venv [a; b; c]) (tea_defect w) ref = (tea_aab Z a b c - w * tea_aab Y a b c)). unfold tea_defect. rewrite <- (tea_op_ok (venv [a; b; c])).
  rewrite (defect_ok d I T n Rs tea_rts 0 En En' tea_rtok tea_gens tea_tab tea_htab tea_syms tea_ext_aab tea_bra_aab (venv [a; b; c]) m tea_d_aab tea_c_aab (E + w));
    [|now apply ext_3|exact tea_bk_aab|cbn; lia|exact Hm|exact tea_kd_aab|exact tea_kc_aab].
  change (dn tea_c_aab (venv [a; b; c])) with (tea_aab Y a b c).
  change (dn tea_d_aab (venv [a; b; c])) with (dn f_en (venv [a; b; c]) * (tea_aab Y a b c) + (dn (tea_rt (s_tea_aab 10 0 1 2)) (venv [a; b; c]))).
  rewrite sector_en, Q0_. ring.
Qed.
Lemma tea_solves w : same_amps d X zero_amps -> (solves_on (tea_space n ref) n I (E + w) (tea_op d Y psi) <-> tea_root d Z Y w).
Proof.
  intros [Za Zb _ _ _]. cbn [zero_amps x_a x_b] in Za, Zb.
  assert (F := tea_flat d n (tea_defect w) En En').
  transitivity (forall D, tea_space n ref D -> tea_defect w D = 0); [unfold solves_on, tea_defect; split; intros G D HD; specialize (G D HD); [rewrite G; ring|lra]|]. rewrite F. clear F. unfold tea_root. split.
  - intros F a b c Ha Hb Hc. specialize (F a b c Ha Hb Hc). rewrite tea_comp_aab in F by assumption. lra.
  - intros G a b c Ha Hb Hc. rewrite tea_comp_aab, G by assumption. ring.
Qed.
End P.
