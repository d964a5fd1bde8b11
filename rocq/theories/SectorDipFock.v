(** Generated by tools/gen_secfock.py: components of (H - E - w) R exp(T) |ref> for the DIP operator (proof support). *)
From Coq Require Import Reals Arith NArith List Bool Lia Lra QArith Qreals ZArith FunctionalExtensionality.
From Verif Require Import RSum IntegralsModel TensorObjs TensorAlg TensorSpec CcsdModel CcsdUpdate CcsdReify CcsdProps FockSpec FockCar FockWick FockArrays FockCcSpec FockTerms FockHam FockExp FockLevel FockCheck FockState FockNear FockProj FockSector FockSectorTools SectorModel FockSectorSpec FockFlip FockSpaces SectorDipReify.
Import ListNotations.
Local Open Scope nat_scope.
Definition dip_rts : list term := [mkTerm (1 # 1) [(40, 0); (41, 2)] [(66, [40; 41])] [A 2 41; A 0 40]; mkTerm (1 # 2) [(40, 0); (41, 2); (42, 1); (43, 0)] [(67, [40; 41; 42; 43])] [C 1 42; A 0 43; A 2 41; A 0 40]; mkTerm (1 # 2) [(40, 0); (41, 2); (42, 3); (43, 2)] [(68, [40; 41; 42; 43])] [C 3 42; A 2 43; A 2 41; A 0 40]].
Definition dip_own : list (nat * (nat * list nat * bool)) := [(67, (67, [3; 1; 2; 0], false)); (68, (68, [0; 3; 2; 1], false))].
Definition dip_gens := fock_gens ++ dip_own.
Definition dip_tab := Eval vm_compute in symtab dip_gens 69.
Definition dip_rt e := retag (to_sector 3) e.
Lemma dip_htab : dip_tab = symtab dip_gens 69. Proof. vm_compute. reflexivity. Qed.
Lemma dip_rtok : rtok dip_rts 2 = true. Proof. vm_compute. reflexivity. Qed.
Definition dip_bra_ab : list op := [C 0 0; C 2 1].
Definition dip_ext_ab : list (nat * nat) := [(0, 0); (1, 2)].
Definition dip_c_ab := (ET 66 [0; 1]).
Definition dip_d_ab := EAdd (EMul f_en dip_c_ab) (dip_rt (s_dip_ab 10 0 1)).
Lemma dip_bk_ab : braok dip_ext_ab dip_bra_ab = true. Proof. vm_compute. reflexivity. Qed.
Lemma dip_kc_ab : fock_same dip_tab dip_ext_ab (eek dip_bra_ab dip_rts) dip_c_ab = true. Proof. vm_compute. reflexivity. Qed.
Lemma dip_kd_ab : fock_same dip_tab dip_ext_ab (hek dip_bra_ab dip_rts) dip_d_ab = true. Proof. vm_compute. reflexivity. Qed.
Definition dip_bra_aba : list op := [C 0 0; C 2 1; C 0 3; A 1 2].
Definition dip_ext_aba : list (nat * nat) := [(0, 0); (1, 2); (2, 1); (3, 0)].
Definition dip_c_aba := (ESub (EAdd (ET 67 [0; 1; 2; 3]) (EMul (ET 0 [2; 3]) (ET 66 [0; 1]))) (EMul (ET 0 [2; 0]) (ET 66 [3; 1]))).
Definition dip_d_aba := EAdd (EMul f_en dip_c_aba) (ESub (EAdd (ESub (EAdd (dip_rt (s_dip_aba 10 0 1 2 3)) (EMul (ET 0 [2; 3]) (dip_rt (s_dip_ab 10 0 1)))) (EMul (ET 0 [2; 0]) (dip_rt (s_dip_ab 10 3 1)))) (EMul (ra 2 3) (ET 66 [0; 1]))) (EMul (ra 2 0) (ET 66 [3; 1]))).
Lemma dip_bk_aba : braok dip_ext_aba dip_bra_aba = true. Proof. vm_compute. reflexivity. Qed.
Lemma dip_kc_aba : fock_same dip_tab dip_ext_aba (eek dip_bra_aba dip_rts) dip_c_aba = true. Proof. vm_compute. reflexivity. Qed.
Lemma dip_kd_aba : fock_same dip_tab dip_ext_aba (hek dip_bra_aba dip_rts) dip_d_aba = true. Proof. vm_compute. reflexivity. Qed.
Definition dip_bra_abb : list op := [C 0 0; C 2 1; C 2 3; A 3 2].
Definition dip_ext_abb : list (nat * nat) := [(0, 0); (1, 2); (2, 3); (3, 2)].
Definition dip_c_abb := (ESub (EAdd (ET 68 [0; 1; 2; 3]) (EMul (ET 1 [2; 3]) (ET 66 [0; 1]))) (EMul (ET 1 [2; 1]) (ET 66 [0; 3]))).
Definition dip_d_abb := EAdd (EMul f_en dip_c_abb) (ESub (EAdd (ESub (EAdd (dip_rt (s_dip_abb 10 0 1 2 3)) (EMul (ET 1 [2; 3]) (dip_rt (s_dip_ab 10 0 1)))) (EMul (ET 1 [2; 1]) (dip_rt (s_dip_ab 10 0 3)))) (EMul (rb 2 3) (ET 66 [0; 1]))) (EMul (rb 2 1) (ET 66 [0; 3]))).
Lemma dip_bk_abb : braok dip_ext_abb dip_bra_abb = true. Proof. vm_compute. reflexivity. Qed.
Lemma dip_kc_abb : fock_same dip_tab dip_ext_abb (eek dip_bra_abb dip_rts) dip_c_abb = true. Proof. vm_compute. reflexivity. Qed.
Lemma dip_kd_abb : fock_same dip_tab dip_ext_abb (hek dip_bra_abb dip_rts) dip_d_abb = true. Proof. vm_compute. reflexivity. Qed.
Local Open Scope R_scope.
Section P.
Variables (d : dims) (I : integrals) (T : amps) (Y : dipv) (n m : nat).
Hypothesis En : (noa d + nua d = n)%nat.
Hypothesis En' : (nob d + nub d = n)%nat.
Hypothesis HI : exchangeable I.
Hypothesis HT : antisym_amps T.
Hypothesis HY : dip_anti Y.
Hypothesis Hm : (3 <= m)%nat.
Notation H := (fock_ints (noa d) (nob d) I).
Notation ref := (reference (noa d) (nob d)).
Notation psi := (expo (cluster_sd d T) m (pure ref)).
Notation E := (scf_energy (noa d) (nob d) I + cc_energy d H T).
Notation Rs := [ap2 (dip_ab Y); ap4 (dip_aba Y); ap4 (dip_abb Y)].
Notation ten := (tenv (fock_arrays H T ++ Rs)).
Notation dn e v := (den (fdim d) ten e v).
Notation X := (ccsd_resid d H T).
Notation Z := (dip_HR d (hbar_ccsd d H T) T Y).
Definition dip_defect (w : R) : state := fun D => hamiltonian n I (dip_op d Y psi) D - (E + w) * dip_op d Y psi D.
Lemma dip_op_ok v phi : psem (noa d) (nob d) (fdim d) ten dip_rts v phi = dip_op d Y phi.
Proof.
  apply ext_state; intros D. unfold psem, dip_rts, dip_op. cbn [lsum]. unfold tsem. cbn [t_c t_l t_f t_o]. rewrite ?Q1, ?half, ?Rmult_1_l, Rplus_0_r, ?Rplus_assoc.
  repeat match goal with |- _ + _ = _ + _ => apply f_equal2 | |- / 2 * _ = / 2 * _ => apply f_equal end; cbn [ssum]; repeat (apply sumn_ext; intros ? _); cbn [prodf]; rewrite Rmult_1_r; reflexivity.
Qed.
Lemma dip_syms : Forall (fun g => okalt ten (fst g) (snd g)) dip_gens.
Proof.
  apply sector_syms; [exact (fock_ints_antisym _ _ _ HI)|exact HT|].
  destruct HY as (A1 & A2). apply Forall_cons; [okswap A1|apply Forall_cons; [okswap A2|apply Forall_nil]].
Qed.
Lemma dip_rt_ok e v : dn (dip_rt e) v = den (fdim d) (tenv (jac_arrays d H T T ++ Rs)) e v.
Proof. apply (retag_sector d H T Rs). cbn [length]. lia. Qed.
Lemma dip_comp_ab w i j : (i < noa d)%nat -> (j < nob d)%nat ->
  str [(true, oa i); (true, ob j)] (dip_defect w) ref = (dip_ab Z i j - w * dip_ab Y i j).
Proof.
  intros Hi Hj.
  assert (Q0_ : dn (dip_rt (s_dip_ab 10 0 1)) (venv [i; j]) = dip_ab Z i j) by (rewrite dip_rt_ok; reflexivity).
  change (opsem (noa d) (nob d) dip_bra_ab (venv [i; j]) (dip_defect w) ref = (dip_ab Z i j - w * dip_ab Y i j)). unfold dip_defect. rewrite <- (dip_op_ok (venv [i; j])).
  rewrite (defect_ok d I T n Rs dip_rts 2 En En' dip_rtok dip_gens dip_tab dip_htab dip_syms dip_ext_ab dip_bra_ab (venv [i; j]) m dip_d_ab dip_c_ab (E + w));
    [|now apply ext2|exact dip_bk_ab|cbn; lia|exact Hm|exact dip_kd_ab|exact dip_kc_ab].
  change (dn dip_c_ab (venv [i; j])) with (dip_ab Y i j).
  change (dn dip_d_ab (venv [i; j])) with (dn f_en (venv [i; j]) * (dip_ab Y i j) + (dn (dip_rt (s_dip_ab 10 0 1)) (venv [i; j]))).
  rewrite sector_en, Q0_. ring.
Qed.
Lemma dip_comp_aba w i j a k : (i < noa d)%nat -> (j < nob d)%nat -> (a < nua d)%nat -> (k < noa d)%nat ->
  str [(true, oa i); (true, ob j); (true, oa k); (false, va d a)] (dip_defect w) ref = (dip_aba Z i j a k - w * dip_aba Y i j a k) + x_a T a k * (dip_ab Z i j - w * dip_ab Y i j) - x_a T a i * (dip_ab Z k j - w * dip_ab Y k j) + x_a X a k * dip_ab Y i j - x_a X a i * dip_ab Y k j.
Proof.
  intros Hi Hj Ha Hk.
  assert (Q0_ : dn (dip_rt (s_dip_aba 10 0 1 2 3)) (venv [i; j; a; k]) = dip_aba Z i j a k) by (rewrite dip_rt_ok; reflexivity).
  assert (Q1_ : dn (dip_rt (s_dip_ab 10 0 1)) (venv [i; j; a; k]) = dip_ab Z i j) by (rewrite dip_rt_ok; reflexivity).
  assert (Q2_ : dn (rt (r_ccsd_res_a 10 2 3)) (venv [i; j; a; k]) = x_a X a k) by (rewrite sector_rt by (vm_compute; reflexivity); reflexivity).
  assert (Q3_ : dn (dip_rt (s_dip_ab 10 3 1)) (venv [i; j; a; k]) = dip_ab Z k j) by (rewrite dip_rt_ok; reflexivity).
  assert (Q4_ : dn (rt (r_ccsd_res_a 10 2 0)) (venv [i; j; a; k]) = x_a X a i) by (rewrite sector_rt by (vm_compute; reflexivity); reflexivity).
  change (opsem (noa d) (nob d) dip_bra_aba (venv [i; j; a; k]) (dip_defect w) ref = (dip_aba Z i j a k - w * dip_aba Y i j a k) + x_a T a k * (dip_ab Z i j - w * dip_ab Y i j) - x_a T a i * (dip_ab Z k j - w * dip_ab Y k j) + x_a X a k * dip_ab Y i j - x_a X a i * dip_ab Y k j). unfold dip_defect. rewrite <- (dip_op_ok (venv [i; j; a; k])).
  rewrite (defect_ok d I T n Rs dip_rts 2 En En' dip_rtok dip_gens dip_tab dip_htab dip_syms dip_ext_aba dip_bra_aba (venv [i; j; a; k]) m dip_d_aba dip_c_aba (E + w));
    [|now apply ext4|exact dip_bk_aba|cbn; lia|exact Hm|exact dip_kd_aba|exact dip_kc_aba].
  change (dn dip_c_aba (venv [i; j; a; k])) with (dip_aba Y i j a k + x_a T a k * dip_ab Y i j - x_a T a i * dip_ab Y k j).
  change (dn dip_d_aba (venv [i; j; a; k])) with (dn f_en (venv [i; j; a; k]) * (dip_aba Y i j a k + x_a T a k * dip_ab Y i j - x_a T a i * dip_ab Y k j) + (dn (dip_rt (s_dip_aba 10 0 1 2 3)) (venv [i; j; a; k]) + x_a T a k * dn (dip_rt (s_dip_ab 10 0 1)) (venv [i; j; a; k]) - x_a T a i * dn (dip_rt (s_dip_ab 10 3 1)) (venv [i; j; a; k]) + dn (rt (r_ccsd_res_a 10 2 3)) (venv [i; j; a; k]) * dip_ab Y i j - dn (rt (r_ccsd_res_a 10 2 0)) (venv [i; j; a; k]) * dip_ab Y k j)).
  rewrite sector_en, Q0_, Q1_, Q2_, Q3_, Q4_. ring.
Qed.
Lemma dip_comp_abb w i j a k : (i < noa d)%nat -> (j < nob d)%nat -> (a < nub d)%nat -> (k < nob d)%nat ->
  str [(true, oa i); (true, ob j); (true, ob k); (false, vb d a)] (dip_defect w) ref = (dip_abb Z i j a k - w * dip_abb Y i j a k) + x_b T a k * (dip_ab Z i j - w * dip_ab Y i j) - x_b T a j * (dip_ab Z i k - w * dip_ab Y i k) + x_b X a k * dip_ab Y i j - x_b X a j * dip_ab Y i k.
Proof.
  intros Hi Hj Ha Hk.
  assert (Q0_ : dn (dip_rt (s_dip_abb 10 0 1 2 3)) (venv [i; j; a; k]) = dip_abb Z i j a k) by (rewrite dip_rt_ok; reflexivity).
  assert (Q1_ : dn (dip_rt (s_dip_ab 10 0 1)) (venv [i; j; a; k]) = dip_ab Z i j) by (rewrite dip_rt_ok; reflexivity).
  assert (Q2_ : dn (rt (r_ccsd_res_b 10 2 3)) (venv [i; j; a; k]) = x_b X a k) by (rewrite sector_rt by (vm_compute; reflexivity); reflexivity).
  assert (Q3_ : dn (dip_rt (s_dip_ab 10 0 3)) (venv [i; j; a; k]) = dip_ab Z i k) by (rewrite dip_rt_ok; reflexivity).
  assert (Q4_ : dn (rt (r_ccsd_res_b 10 2 1)) (venv [i; j; a; k]) = x_b X a j) by (rewrite sector_rt by (vm_compute; reflexivity); reflexivity).
  change (opsem (noa d) (nob d) dip_bra_abb (venv [i; j; a; k]) (dip_defect w) ref = (dip_abb Z i j a k - w * dip_abb Y i j a k) + x_b T a k * (dip_ab Z i j - w * dip_ab Y i j) - x_b T a j * (dip_ab Z i k - w * dip_ab Y i k) + x_b X a k * dip_ab Y i j - x_b X a j * dip_ab Y i k). unfold dip_defect. rewrite <- (dip_op_ok (venv [i; j; a; k])).
  rewrite (defect_ok d I T n Rs dip_rts 2 En En' dip_rtok dip_gens dip_tab dip_htab dip_syms dip_ext_abb dip_bra_abb (venv [i; j; a; k]) m dip_d_abb dip_c_abb (E + w));
    [|now apply ext4|exact dip_bk_abb|cbn; lia|exact Hm|exact dip_kd_abb|exact dip_kc_abb].
  change (dn dip_c_abb (venv [i; j; a; k])) with (dip_abb Y i j a k + x_b T a k * dip_ab Y i j - x_b T a j * dip_ab Y i k).
  change (dn dip_d_abb (venv [i; j; a; k])) with (dn f_en (venv [i; j; a; k]) * (dip_abb Y i j a k + x_b T a k * dip_ab Y i j - x_b T a j * dip_ab Y i k) + (dn (dip_rt (s_dip_abb 10 0 1 2 3)) (venv [i; j; a; k]) + x_b T a k * dn (dip_rt (s_dip_ab 10 0 1)) (venv [i; j; a; k]) - x_b T a j * dn (dip_rt (s_dip_ab 10 0 3)) (venv [i; j; a; k]) + dn (rt (r_ccsd_res_b 10 2 3)) (venv [i; j; a; k]) * dip_ab Y i j - dn (rt (r_ccsd_res_b 10 2 1)) (venv [i; j; a; k]) * dip_ab Y i k)).
  rewrite sector_en, Q0_, Q1_, Q2_, Q3_, Q4_. ring.
Qed.
Lemma dip_solves w : same_amps d X zero_amps -> (solves_on (dip_space n ref) n I (E + w) (dip_op d Y psi) <-> dip_root d Z Y w).
Proof.
  intros [Za Zb _ _ _]. cbn [zero_amps x_a x_b] in Za, Zb.
  assert (F := dip_flat d n (dip_defect w) En En').
  transitivity (forall D, dip_space n ref D -> dip_defect w D = 0); [unfold solves_on, dip_defect; split; intros G D HD; specialize (G D HD); [rewrite G; ring|lra]|]. rewrite F. clear F. unfold dip_root. split.
  - intros (F0 & F1 & F2).
    assert (L : forall i j, (i < noa d)%nat -> (j < nob d)%nat -> dip_ab Z i j = w * dip_ab Y i j).
    { intros i j Hi Hj. specialize (F0 i j Hi Hj). rewrite dip_comp_ab in F0 by assumption. lra. }
    split; [exact L|split].
    + intros i j a k Hi Hj Ha Hk. specialize (F1 i j a k Hi Hj Ha Hk). rewrite dip_comp_aba, ?Za, ?Zb, !L in F1 by assumption. lra.
    + intros i j a k Hi Hj Ha Hk. specialize (F2 i j a k Hi Hj Ha Hk). rewrite dip_comp_abb, ?Za, ?Zb, !L in F2 by assumption. lra.
  - intros (G0 & G1 & G2). split; [|split].
    + intros i j Hi Hj. rewrite dip_comp_ab, G0 by assumption. ring.
    + intros i j a k Hi Hj Ha Hk. rewrite dip_comp_aba, G1, ?Za, ?Zb, !G0 by assumption. ring.
    + intros i j a k Hi Hj Ha Hk. rewrite dip_comp_abb, G2, ?Za, ?Zb, !G0 by assumption. ring.
Qed.
End P.
