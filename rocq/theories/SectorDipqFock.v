(** Generated by tools/gen_sec3fock.py: components of (H - E - w) R exp(T2) |ref> for the DIP (4h2p) operator (proof support). *)
From Coq Require Import Reals Arith NArith List Bool Lia Lra QArith Qreals ZArith FunctionalExtensionality.
From Verif Require Import RSum IntegralsModel TensorObjs TensorAlg TensorSpec CcsdModel CcsdUpdate CcsdReify CcsdProps FockSpec FockCar FockWick FockArrays FockCcSpec FockTerms FockHam FockExp FockLevel FockCheck FockState FockNear FockProj FockSector FockSectorTools
  FockFast FockSectorSpec FockFlip RankSpec FockShift FockSector3 FockTools3 Sector3Model Sector3Spec FockSpaces3 SectorDipqReify.
Import ListNotations.
Local Open Scope nat_scope.
Definition dipq_rts : list term := [mkTerm (1 # 1) [(40, 0); (41, 2)] [(66, [40; 41])] [A 2 41; A 0 40]; mkTerm (1 # 2) [(40, 0); (41, 2); (42, 1); (43, 0)] [(67, [40; 41; 42; 43])] [C 1 42; A 0 43; A 2 41; A 0 40]; mkTerm (1 # 2) [(40, 0); (41, 2); (42, 3); (43, 2)] [(68, [40; 41; 42; 43])] [C 3 42; A 2 43; A 2 41; A 0 40]; mkTerm (1 # 12) [(40, 0); (41, 2); (42, 1); (43, 1); (44, 0); (45, 0)] [(69, [40; 41; 42; 43; 44; 45])] [C 1 42; C 1 43; A 0 45; A 0 44; A 2 41; A 0 40]; mkTerm (1 # 4) [(40, 0); (41, 2); (42, 1); (43, 3); (44, 0); (45, 2)] [(70, [40; 41; 42; 43; 44; 45])] [C 1 42; C 3 43; A 2 45; A 0 44; A 2 41; A 0 40]; mkTerm (1 # 12) [(40, 0); (41, 2); (42, 3); (43, 3); (44, 2); (45, 2)] [(71, [40; 41; 42; 43; 44; 45])] [C 3 42; C 3 43; A 2 45; A 2 44; A 2 41; A 0 40]].
Definition dipq_own : list (nat * (nat * list nat * bool)) := [(67, (67, [3; 1; 2; 0], false)); (68, (68, [0; 3; 2; 1], false)); (69, (69, [4; 1; 2; 3; 0; 5], false)); (69, (69, [0; 1; 2; 3; 5; 4], false)); (69, (69, [0; 1; 3; 2; 4; 5], false)); (70, (70, [4; 1; 2; 3; 0; 5], false)); (70, (70, [0; 5; 2; 3; 4; 1], false)); (71, (71, [0; 4; 2; 3; 1; 5], false)); (71, (71, [0; 1; 2; 3; 5; 4], false)); (71, (71, [0; 1; 3; 2; 4; 5], false))].
Definition dipq_gens := fock_gens ++ dipq_own.
Definition dipq_tab := Eval vm_compute in symtab dipq_gens 72.
Definition dipq_rt e := retag (to_sector 6) e.
Lemma dipq_htab : dipq_tab = symtab dipq_gens 72. Proof. vm_compute. reflexivity. Qed.
Lemma dipq_rtok : rtok dipq_rts 2 = true. Proof. vm_compute. reflexivity. Qed.
Definition dipq_bra_ab : list op := [C 0 0; C 2 1].
Definition dipq_ext_ab : list (nat * nat) := [(0, 0); (1, 2)].
Definition dipq_c_ab := (ET 66 [0; 1]).
Definition dipq_d_ab := EAdd (EMul f_en dipq_c_ab) (EAdd (dipq_rt (s_dipq_ab 10 0 1))
  (EC 0 1)).
Lemma dipq_bk_ab : braok dipq_ext_ab dipq_bra_ab = true. Proof. vm_compute. reflexivity. Qed.
Lemma dipq_kc_ab : fock_fast dipq_tab dipq_ext_ab (eek2 dipq_bra_ab dipq_rts) dipq_c_ab = true. Proof. vm_compute. reflexivity. Qed.
Lemma dipq_kd_ab : fock_fast dipq_tab dipq_ext_ab (hek2 dipq_bra_ab dipq_rts) (kill dipq_d_ab) = true. Proof. vm_compute. reflexivity. Qed.
Definition dipq_bra_aba : list op := [C 0 0; C 2 1; C 0 3; A 1 2].
Definition dipq_ext_aba : list (nat * nat) := [(0, 0); (1, 2); (2, 1); (3, 0)].
Definition dipq_c_aba := (ET 67 [0; 1; 2; 3]).
Definition dipq_d_aba := EAdd (EMul f_en dipq_c_aba) (EAdd (dipq_rt (s_dipq_aba 10 0 1 2 3))
  (EAdd (EMul (ET 66 [0; 1]) (rt (r_ccsd_res_a 10 2 3)))
   (EOpp (EMul (ET 66 [3; 1]) (rt (r_ccsd_res_a 10 2 0)))))).
Lemma dipq_bk_aba : braok dipq_ext_aba dipq_bra_aba = true. Proof. vm_compute. reflexivity. Qed.
Lemma dipq_kc_aba : fock_fast dipq_tab dipq_ext_aba (eek2 dipq_bra_aba dipq_rts) dipq_c_aba = true. Proof. vm_compute. reflexivity. Qed.
Lemma dipq_kd_aba : fock_fast dipq_tab dipq_ext_aba (hek2 dipq_bra_aba dipq_rts) (kill dipq_d_aba) = true. Proof. vm_compute. reflexivity. Qed.
Definition dipq_bra_abb : list op := [C 0 0; C 2 1; C 2 3; A 3 2].
Definition dipq_ext_abb : list (nat * nat) := [(0, 0); (1, 2); (2, 3); (3, 2)].
Definition dipq_c_abb := (ET 68 [0; 1; 2; 3]).
Definition dipq_d_abb := EAdd (EMul f_en dipq_c_abb) (EAdd (dipq_rt (s_dipq_abb 10 0 1 2 3))
  (EAdd (EMul (ET 66 [0; 1]) (rt (r_ccsd_res_b 10 2 3)))
   (EOpp (EMul (ET 66 [0; 3]) (rt (r_ccsd_res_b 10 2 1)))))).
Lemma dipq_bk_abb : braok dipq_ext_abb dipq_bra_abb = true. Proof. vm_compute. reflexivity. Qed.
Lemma dipq_kc_abb : fock_fast dipq_tab dipq_ext_abb (eek2 dipq_bra_abb dipq_rts) dipq_c_abb = true. Proof. vm_compute. reflexivity. Qed.
Lemma dipq_kd_abb : fock_fast dipq_tab dipq_ext_abb (hek2 dipq_bra_abb dipq_rts) (kill dipq_d_abb) = true. Proof. vm_compute. reflexivity. Qed.
Definition dipq_bra_abaa : list op := [C 0 0; C 2 1; C 0 4; C 0 5; A 1 3; A 1 2].
Definition dipq_ext_abaa : list (nat * nat) := [(0, 0); (1, 2); (2, 1); (3, 1); (4, 0); (5, 0)].
Definition dipq_c_abaa := (EAdd (EAdd (EAdd (EMul (ET 2 [2; 3; 0; 4]) (ET 66 [5; 1]))
   (EOpp (EMul (ET 2 [2; 3; 0; 5]) (ET 66 [4; 1]))))
   (EMul (ET 2 [2; 3; 4; 5]) (ET 66 [0; 1])))
   (ET 69 [0; 1; 2; 3; 4; 5])).
Definition dipq_d_abaa := EAdd (EMul f_en dipq_c_abaa) (EAdd (EAdd (EAdd (EAdd (EMul (ET 2 [2; 3; 0; 4]) (dipq_rt (s_dipq_ab 10 5 1)))
   (EOpp (EMul (ET 2 [2; 3; 0; 5]) (dipq_rt (s_dipq_ab 10 4 1)))))
   (EMul (ET 2 [2; 3; 4; 5]) (dipq_rt (s_dipq_ab 10 0 1))))
   (dipq_rt (s_dipq_abaa 10 0 1 2 3 4 5)))
  (EAdd (EAdd (EAdd (EAdd (EAdd (EAdd (EAdd (EAdd (EMul (ET 66 [0; 1]) (rt (r_resid_aa 10 2 3 4 5)))
   (EOpp (EMul (ET 66 [4; 1]) (rt (r_resid_aa 10 2 3 0 5)))))
   (EMul (ET 66 [5; 1]) (rt (r_resid_aa 10 2 3 0 4))))
   (EOpp (EMul (ET 67 [0; 1; 3; 4]) (rt (r_ccsd_res_a 10 2 5)))))
   (EMul (ET 67 [0; 1; 2; 4]) (rt (r_ccsd_res_a 10 3 5))))
   (EMul (ET 67 [0; 1; 3; 5]) (rt (r_ccsd_res_a 10 2 4))))
   (EOpp (EMul (ET 67 [0; 1; 2; 5]) (rt (r_ccsd_res_a 10 3 4)))))
   (EOpp (EMul (ET 67 [4; 1; 3; 5]) (rt (r_ccsd_res_a 10 2 0)))))
   (EMul (ET 67 [4; 1; 2; 5]) (rt (r_ccsd_res_a 10 3 0))))).
Lemma dipq_bk_abaa : braok dipq_ext_abaa dipq_bra_abaa = true. Proof. vm_compute. reflexivity. Qed.
Lemma dipq_kc_abaa : fock_fast dipq_tab dipq_ext_abaa (eek2 dipq_bra_abaa dipq_rts) dipq_c_abaa = true. Proof. vm_compute. reflexivity. Qed.
Lemma dipq_kd_abaa : fock_fast dipq_tab dipq_ext_abaa (hek2 dipq_bra_abaa dipq_rts) (kill dipq_d_abaa) = true. Proof. vm_compute. reflexivity. Qed.
Definition dipq_bra_abab : list op := [C 0 0; C 2 1; C 0 4; C 2 5; A 3 3; A 1 2].
Definition dipq_ext_abab : list (nat * nat) := [(0, 0); (1, 2); (2, 1); (3, 3); (4, 0); (5, 2)].
Definition dipq_c_abab := (EAdd (EAdd (EAdd (EAdd (EMul (ET 3 [2; 3; 0; 1]) (ET 66 [4; 5]))
   (EOpp (EMul (ET 3 [2; 3; 0; 5]) (ET 66 [4; 1]))))
   (EOpp (EMul (ET 3 [2; 3; 4; 1]) (ET 66 [0; 5]))))
   (EMul (ET 3 [2; 3; 4; 5]) (ET 66 [0; 1])))
   (ET 70 [0; 1; 2; 3; 4; 5])).
Definition dipq_d_abab := EAdd (EMul f_en dipq_c_abab) (EAdd (EAdd (EAdd (EAdd (EAdd (EMul (ET 3 [2; 3; 0; 1]) (dipq_rt (s_dipq_ab 10 4 5)))
   (EOpp (EMul (ET 3 [2; 3; 0; 5]) (dipq_rt (s_dipq_ab 10 4 1)))))
   (EOpp (EMul (ET 3 [2; 3; 4; 1]) (dipq_rt (s_dipq_ab 10 0 5)))))
   (EMul (ET 3 [2; 3; 4; 5]) (dipq_rt (s_dipq_ab 10 0 1))))
   (dipq_rt (s_dipq_abab 10 0 1 2 3 4 5)))
  (EAdd (EAdd (EAdd (EAdd (EAdd (EAdd (EAdd (EMul (ET 66 [0; 1]) (rt (r_ccsd_res_ab 10 2 3 4 5)))
   (EOpp (EMul (ET 66 [0; 5]) (rt (r_ccsd_res_ab 10 2 3 4 1)))))
   (EOpp (EMul (ET 66 [4; 1]) (rt (r_ccsd_res_ab 10 2 3 0 5)))))
   (EMul (ET 66 [4; 5]) (rt (r_ccsd_res_ab 10 2 3 0 1))))
   (EMul (ET 67 [0; 1; 2; 4]) (rt (r_ccsd_res_b 10 3 5))))
   (EOpp (EMul (ET 67 [0; 5; 2; 4]) (rt (r_ccsd_res_b 10 3 1)))))
   (EMul (ET 68 [0; 1; 3; 5]) (rt (r_ccsd_res_a 10 2 4))))
   (EOpp (EMul (ET 68 [4; 1; 3; 5]) (rt (r_ccsd_res_a 10 2 0)))))).
Lemma dipq_bk_abab : braok dipq_ext_abab dipq_bra_abab = true. Proof. vm_compute. reflexivity. Qed.
Lemma dipq_kc_abab : fock_fast dipq_tab dipq_ext_abab (eek2 dipq_bra_abab dipq_rts) dipq_c_abab = true. Proof. vm_compute. reflexivity. Qed.
Lemma dipq_kd_abab : fock_fast dipq_tab dipq_ext_abab (hek2 dipq_bra_abab dipq_rts) (kill dipq_d_abab) = true. Proof. vm_compute. reflexivity. Qed.
Definition dipq_bra_abbb : list op := [C 0 0; C 2 1; C 2 4; C 2 5; A 3 3; A 3 2].
Definition dipq_ext_abbb : list (nat * nat) := [(0, 0); (1, 2); (2, 3); (3, 3); (4, 2); (5, 2)].
Definition dipq_c_abbb := (EAdd (EAdd (EAdd (EMul (ET 4 [2; 3; 1; 4]) (ET 66 [0; 5]))
   (EOpp (EMul (ET 4 [2; 3; 1; 5]) (ET 66 [0; 4]))))
   (EMul (ET 4 [2; 3; 4; 5]) (ET 66 [0; 1])))
   (ET 71 [0; 1; 2; 3; 4; 5])).
Definition dipq_d_abbb := EAdd (EMul f_en dipq_c_abbb) (EAdd (EAdd (EAdd (EAdd (EMul (ET 4 [2; 3; 1; 4]) (dipq_rt (s_dipq_ab 10 0 5)))
   (EOpp (EMul (ET 4 [2; 3; 1; 5]) (dipq_rt (s_dipq_ab 10 0 4)))))
   (EMul (ET 4 [2; 3; 4; 5]) (dipq_rt (s_dipq_ab 10 0 1))))
   (dipq_rt (s_dipq_abbb 10 0 1 2 3 4 5)))
  (EAdd (EAdd (EAdd (EAdd (EAdd (EAdd (EAdd (EAdd (EMul (ET 66 [0; 1]) (rt (r_resid_bb 10 2 3 4 5)))
   (EOpp (EMul (ET 66 [0; 4]) (rt (r_resid_bb 10 2 3 1 5)))))
   (EMul (ET 66 [0; 5]) (rt (r_resid_bb 10 2 3 1 4))))
   (EOpp (EMul (ET 68 [0; 1; 3; 4]) (rt (r_ccsd_res_b 10 2 5)))))
   (EMul (ET 68 [0; 1; 2; 4]) (rt (r_ccsd_res_b 10 3 5))))
   (EMul (ET 68 [0; 1; 3; 5]) (rt (r_ccsd_res_b 10 2 4))))
   (EOpp (EMul (ET 68 [0; 1; 2; 5]) (rt (r_ccsd_res_b 10 3 4)))))
   (EOpp (EMul (ET 68 [0; 4; 3; 5]) (rt (r_ccsd_res_b 10 2 1)))))
   (EMul (ET 68 [0; 4; 2; 5]) (rt (r_ccsd_res_b 10 3 1))))).
Lemma dipq_bk_abbb : braok dipq_ext_abbb dipq_bra_abbb = true. Proof. vm_compute. reflexivity. Qed.
Lemma dipq_kc_abbb : fock_fast dipq_tab dipq_ext_abbb (eek2 dipq_bra_abbb dipq_rts) dipq_c_abbb = true. Proof. vm_compute. reflexivity. Qed.
Lemma dipq_kd_abbb : fock_fast dipq_tab dipq_ext_abbb (hek2 dipq_bra_abbb dipq_rts) (kill dipq_d_abbb) = true. Proof. vm_compute. reflexivity. Qed.
Local Open Scope R_scope.
Section P.
Variables (d : dims) (I : integrals) (T0 : amps) (Y : dipqv) (n m : nat).
Hypothesis En : (noa d + nua d = n)%nat.
Hypothesis En' : (nob d + nub d = n)%nat.
Hypothesis HI : exchangeable I.
Hypothesis HT : antisym_amps T0.
Hypothesis HY : dipq_anti Y.
Hypothesis Hm : (2 <= m)%nat.
Notation T := (bare T0).
Notation H := (fock_ints (noa d) (nob d) I).
Notation ref := (reference (noa d) (nob d)).
Notation psi := (expo (cluster_sd d T) m (pure ref)).
Notation E := (scf_energy (noa d) (nob d) I + cc_energy d H T).
Notation Rs := [ap2 (dipq_ab Y); ap4 (dipq_aba Y); ap4 (dipq_abb Y); ap6 (dipq_abaa Y); ap6 (dipq_abab Y); ap6 (dipq_abbb Y)].
Notation ten := (tenv (fock_arrays H T ++ Rs)).
Notation dn e v := (den (fdim d) ten e v).
Notation X := (ccsd_resid d H T).
Notation Z := (dipq_HR d (hbar_ccsd d H T) T Y).
Definition dipq_defect (w : R) : state := fun D => hamiltonian n I (dipq_op d Y psi) D - (E + w) * dipq_op d Y psi D.
Lemma dipq_op_ok v phi : psem (noa d) (nob d) (fdim d) ten dipq_rts v phi = dipq_op d Y phi.
Proof. opok dipq_rts dipq_op. Qed.
Lemma dipq_syms : Forall (fun g => okalt ten (fst g) (snd g)) dipq_gens.
Proof.
  apply sector_syms; [exact (fock_ints_antisym _ _ _ HI)|exact (bare_anti _ HT)|]. destruct HY as (A0 & A1 & A2 & A3 & A4 & A5 & A6 & A7 & A8 & A9).
  apply Forall_cons; [okswap6 A0|]. apply Forall_cons; [okswap6 A1|]. apply Forall_cons; [okswap6 A2|]. apply Forall_cons; [okswap6 A3|]. apply Forall_cons; [okswap6 A4|]. apply Forall_cons; [okswap6 A5|]. apply Forall_cons; [okswap6 A6|]. apply Forall_cons; [okswap6 A7|]. apply Forall_cons; [okswap6 A8|]. apply Forall_cons; [okswap6 A9|]. apply Forall_nil.
Qed.
Lemma dipq_rt_ok e v : dn (dipq_rt e) v = den (fdim d) (tenv (jac_arrays d H T T ++ Rs)) e v.
Proof. apply (retag_sector d H T Rs). cbn [length]. lia. Qed.
Lemma dipq_comp_ab w i j : (i < noa d)%nat -> (j < nob d)%nat ->
  str [(true, oa i); (true, ob j)] (dipq_defect w) ref = (dipq_ab Z i j - w * dipq_ab Y i j) + 0.
Proof.
  intros Hi Hj.
  assert (Q0_ : dn (dipq_rt (s_dipq_ab 10 0 1)) (venv [i; j]) = dipq_ab Z i j) by (rewrite dipq_rt_ok; reflexivity).
  change (opsem (noa d) (nob d) dipq_bra_ab (venv [i; j]) (dipq_defect w) ref = (dipq_ab Z i j - w * dipq_ab Y i j) + 0). unfold dipq_defect. rewrite <- (dipq_op_ok (venv [i; j])).
  rewrite (defect2_ok d I T0 n Rs dipq_rts 2 En En' dipq_rtok dipq_own dipq_syms dipq_tab dipq_htab dipq_ext_ab dipq_bra_ab (venv [i; j]) m dipq_d_ab dipq_c_ab (E + w));
    [|extv|exact dipq_bk_ab|cbn; lia|exact Hm|exact dipq_kd_ab|exact dipq_kc_ab].
  change (dn dipq_c_ab (venv [i; j])) with (dipq_ab Y i j).
  change (dn dipq_d_ab (venv [i; j])) with (dn f_en (venv [i; j]) * (dipq_ab Y i j) + ((dn (dipq_rt (s_dipq_ab 10 0 1)) (venv [i; j])) + dn (EC 0 1) (venv [i; j]))).
  rewrite sector_en, den_zero, Q0_. ring.
Qed.
Lemma dipq_comp_aba w i j a k : (i < noa d)%nat -> (j < nob d)%nat -> (a < nua d)%nat -> (k < noa d)%nat ->
  str [(true, oa i); (true, ob j); (true, oa k); (false, va d a)] (dipq_defect w) ref = (dipq_aba Z i j a k - w * dipq_aba Y i j a k) + ((dipq_ab Y i j * x_a X a k) + (- (dipq_ab Y k j * x_a X a i))).
Proof.
  intros Hi Hj Ha Hk.
  assert (Q0_ : dn (dipq_rt (s_dipq_aba 10 0 1 2 3)) (venv [i; j; a; k]) = dipq_aba Z i j a k) by (rewrite dipq_rt_ok; reflexivity).
  assert (Q1_ : dn (rt (r_ccsd_res_a 10 2 3)) (venv [i; j; a; k]) = x_a X a k) by (rewrite sector_rt by (vm_compute; reflexivity); reflexivity).
  assert (Q2_ : dn (rt (r_ccsd_res_a 10 2 0)) (venv [i; j; a; k]) = x_a X a i) by (rewrite sector_rt by (vm_compute; reflexivity); reflexivity).
  change (opsem (noa d) (nob d) dipq_bra_aba (venv [i; j; a; k]) (dipq_defect w) ref = (dipq_aba Z i j a k - w * dipq_aba Y i j a k) + ((dipq_ab Y i j * x_a X a k) + (- (dipq_ab Y k j * x_a X a i)))). unfold dipq_defect. rewrite <- (dipq_op_ok (venv [i; j; a; k])).
  rewrite (defect2_ok d I T0 n Rs dipq_rts 2 En En' dipq_rtok dipq_own dipq_syms dipq_tab dipq_htab dipq_ext_aba dipq_bra_aba (venv [i; j; a; k]) m dipq_d_aba dipq_c_aba (E + w));
    [|extv|exact dipq_bk_aba|cbn; lia|exact Hm|exact dipq_kd_aba|exact dipq_kc_aba].
  change (dn dipq_c_aba (venv [i; j; a; k])) with (dipq_aba Y i j a k).
  change (dn dipq_d_aba (venv [i; j; a; k])) with (dn f_en (venv [i; j; a; k]) * (dipq_aba Y i j a k) + ((dn (dipq_rt (s_dipq_aba 10 0 1 2 3)) (venv [i; j; a; k])) + ((dipq_ab Y i j * (dn (rt (r_ccsd_res_a 10 2 3)) (venv [i; j; a; k]))) + (- (dipq_ab Y k j * (dn (rt (r_ccsd_res_a 10 2 0)) (venv [i; j; a; k]))))))).
  rewrite sector_en, Q0_, Q1_, Q2_. ring.
Qed.
Lemma dipq_comp_abb w i j a k : (i < noa d)%nat -> (j < nob d)%nat -> (a < nub d)%nat -> (k < nob d)%nat ->
  str [(true, oa i); (true, ob j); (true, ob k); (false, vb d a)] (dipq_defect w) ref = (dipq_abb Z i j a k - w * dipq_abb Y i j a k) + ((dipq_ab Y i j * x_b X a k) + (- (dipq_ab Y i k * x_b X a j))).
Proof.
  intros Hi Hj Ha Hk.
  assert (Q0_ : dn (dipq_rt (s_dipq_abb 10 0 1 2 3)) (venv [i; j; a; k]) = dipq_abb Z i j a k) by (rewrite dipq_rt_ok; reflexivity).
  assert (Q1_ : dn (rt (r_ccsd_res_b 10 2 3)) (venv [i; j; a; k]) = x_b X a k) by (rewrite sector_rt by (vm_compute; reflexivity); reflexivity).
  assert (Q2_ : dn (rt (r_ccsd_res_b 10 2 1)) (venv [i; j; a; k]) = x_b X a j) by (rewrite sector_rt by (vm_compute; reflexivity); reflexivity).
  change (opsem (noa d) (nob d) dipq_bra_abb (venv [i; j; a; k]) (dipq_defect w) ref = (dipq_abb Z i j a k - w * dipq_abb Y i j a k) + ((dipq_ab Y i j * x_b X a k) + (- (dipq_ab Y i k * x_b X a j)))). unfold dipq_defect. rewrite <- (dipq_op_ok (venv [i; j; a; k])).
  rewrite (defect2_ok d I T0 n Rs dipq_rts 2 En En' dipq_rtok dipq_own dipq_syms dipq_tab dipq_htab dipq_ext_abb dipq_bra_abb (venv [i; j; a; k]) m dipq_d_abb dipq_c_abb (E + w));
    [|extv|exact dipq_bk_abb|cbn; lia|exact Hm|exact dipq_kd_abb|exact dipq_kc_abb].
  change (dn dipq_c_abb (venv [i; j; a; k])) with (dipq_abb Y i j a k).
  change (dn dipq_d_abb (venv [i; j; a; k])) with (dn f_en (venv [i; j; a; k]) * (dipq_abb Y i j a k) + ((dn (dipq_rt (s_dipq_abb 10 0 1 2 3)) (venv [i; j; a; k])) + ((dipq_ab Y i j * (dn (rt (r_ccsd_res_b 10 2 3)) (venv [i; j; a; k]))) + (- (dipq_ab Y i k * (dn (rt (r_ccsd_res_b 10 2 1)) (venv [i; j; a; k]))))))).
  rewrite sector_en, Q0_, Q1_, Q2_. ring.
Qed.
Lemma dipq_comp_abaa w i j a b k l : (i < noa d)%nat -> (j < nob d)%nat -> (a < nua d)%nat -> (b < nua d)%nat -> (k < noa d)%nat -> (l < noa d)%nat ->
  str [(true, oa i); (true, ob j); (true, oa k); (true, oa l); (false, va d b); (false, va d a)] (dipq_defect w) ref = ((((x_aa T a b i k * (dipq_ab Z l j - w * dipq_ab Y l j)) + (- (x_aa T a b i l * (dipq_ab Z k j - w * dipq_ab Y k j)))) + (x_aa T a b k l * (dipq_ab Z i j - w * dipq_ab Y i j))) + (dipq_abaa Z i j a b k l - w * dipq_abaa Y i j a b k l)) + (((((((((dipq_ab Y i j * x_aa X a b k l) + (- (dipq_ab Y k j * x_aa X a b i l))) + (dipq_ab Y l j * x_aa X a b i k)) + (- (dipq_aba Y i j b k * x_a X a l))) + (dipq_aba Y i j a k * x_a X b l)) + (dipq_aba Y i j b l * x_a X a k)) + (- (dipq_aba Y i j a l * x_a X b k))) + (- (dipq_aba Y k j b l * x_a X a i))) + (dipq_aba Y k j a l * x_a X b i)).
Proof.
  intros Hi Hj Ha Hb Hk Hl.
  assert (Q0_ : dn (dipq_rt (s_dipq_ab 10 5 1)) (venv [i; j; a; b; k; l]) = dipq_ab Z l j) by (rewrite dipq_rt_ok; reflexivity).
  assert (Q1_ : dn (dipq_rt (s_dipq_ab 10 4 1)) (venv [i; j; a; b; k; l]) = dipq_ab Z k j) by (rewrite dipq_rt_ok; reflexivity).
  assert (Q2_ : dn (dipq_rt (s_dipq_ab 10 0 1)) (venv [i; j; a; b; k; l]) = dipq_ab Z i j) by (rewrite dipq_rt_ok; reflexivity).
  assert (Q3_ : dn (dipq_rt (s_dipq_abaa 10 0 1 2 3 4 5)) (venv [i; j; a; b; k; l]) = dipq_abaa Z i j a b k l) by (rewrite dipq_rt_ok; reflexivity).
  assert (Q4_ : dn (rt (r_resid_aa 10 2 3 4 5)) (venv [i; j; a; b; k; l]) = x_aa X a b k l) by (rewrite sector_rt by (vm_compute; reflexivity); reflexivity).
  assert (Q5_ : dn (rt (r_resid_aa 10 2 3 0 5)) (venv [i; j; a; b; k; l]) = x_aa X a b i l) by (rewrite sector_rt by (vm_compute; reflexivity); reflexivity).
  assert (Q6_ : dn (rt (r_resid_aa 10 2 3 0 4)) (venv [i; j; a; b; k; l]) = x_aa X a b i k) by (rewrite sector_rt by (vm_compute; reflexivity); reflexivity).
  assert (Q7_ : dn (rt (r_ccsd_res_a 10 2 5)) (venv [i; j; a; b; k; l]) = x_a X a l) by (rewrite sector_rt by (vm_compute; reflexivity); reflexivity).
  assert (Q8_ : dn (rt (r_ccsd_res_a 10 3 5)) (venv [i; j; a; b; k; l]) = x_a X b l) by (rewrite sector_rt by (vm_compute; reflexivity); reflexivity).
  assert (Q9_ : dn (rt (r_ccsd_res_a 10 2 4)) (venv [i; j; a; b; k; l]) = x_a X a k) by (rewrite sector_rt by (vm_compute; reflexivity); reflexivity).
  assert (Q10_ : dn (rt (r_ccsd_res_a 10 3 4)) (venv [i; j; a; b; k; l]) = x_a X b k) by (rewrite sector_rt by (vm_compute; reflexivity); reflexivity).
  assert (Q11_ : dn (rt (r_ccsd_res_a 10 2 0)) (venv [i; j; a; b; k; l]) = x_a X a i) by (rewrite sector_rt by (vm_compute; reflexivity); reflexivity).
  assert (Q12_ : dn (rt (r_ccsd_res_a 10 3 0)) (venv [i; j; a; b; k; l]) = x_a X b i) by (rewrite sector_rt by (vm_compute; reflexivity); reflexivity).
  change (opsem (noa d) (nob d) dipq_bra_abaa (venv [i; j; a; b; k; l]) (dipq_defect w) ref = ((((x_aa T a b i k * (dipq_ab Z l j - w * dipq_ab Y l j)) + (- (x_aa T a b i l * (dipq_ab Z k j - w * dipq_ab Y k j)))) + (x_aa T a b k l * (dipq_ab Z i j - w * dipq_ab Y i j))) + (dipq_abaa Z i j a b k l - w * dipq_abaa Y i j a b k l)) + (((((((((dipq_ab Y i j * x_aa X a b k l) + (- (dipq_ab Y k j * x_aa X a b i l))) + (dipq_ab Y l j * x_aa X a b i k)) + (- (dipq_aba Y i j b k * x_a X a l))) + (dipq_aba Y i j a k * x_a X b l)) + (dipq_aba Y i j b l * x_a X a k)) + (- (dipq_aba Y i j a l * x_a X b k))) + (- (dipq_aba Y k j b l * x_a X a i))) + (dipq_aba Y k j a l * x_a X b i))). unfold dipq_defect. rewrite <- (dipq_op_ok (venv [i; j; a; b; k; l])).
  rewrite (defect2_ok d I T0 n Rs dipq_rts 2 En En' dipq_rtok dipq_own dipq_syms dipq_tab dipq_htab dipq_ext_abaa dipq_bra_abaa (venv [i; j; a; b; k; l]) m dipq_d_abaa dipq_c_abaa (E + w));
    [|extv|exact dipq_bk_abaa|cbn; lia|exact Hm|exact dipq_kd_abaa|exact dipq_kc_abaa].
  change (dn dipq_c_abaa (venv [i; j; a; b; k; l])) with (((((x_aa T a b i k * dipq_ab Y l j) + (- (x_aa T a b i l * dipq_ab Y k j))) + (x_aa T a b k l * dipq_ab Y i j)) + dipq_abaa Y i j a b k l)).
  change (dn dipq_d_abaa (venv [i; j; a; b; k; l])) with (dn f_en (venv [i; j; a; b; k; l]) * (((((x_aa T a b i k * dipq_ab Y l j) + (- (x_aa T a b i l * dipq_ab Y k j))) + (x_aa T a b k l * dipq_ab Y i j)) + dipq_abaa Y i j a b k l)) + (((((x_aa T a b i k * (dn (dipq_rt (s_dipq_ab 10 5 1)) (venv [i; j; a; b; k; l]))) + (- (x_aa T a b i l * (dn (dipq_rt (s_dipq_ab 10 4 1)) (venv [i; j; a; b; k; l]))))) + (x_aa T a b k l * (dn (dipq_rt (s_dipq_ab 10 0 1)) (venv [i; j; a; b; k; l])))) + (dn (dipq_rt (s_dipq_abaa 10 0 1 2 3 4 5)) (venv [i; j; a; b; k; l]))) + (((((((((dipq_ab Y i j * (dn (rt (r_resid_aa 10 2 3 4 5)) (venv [i; j; a; b; k; l]))) + (- (dipq_ab Y k j * (dn (rt (r_resid_aa 10 2 3 0 5)) (venv [i; j; a; b; k; l]))))) + (dipq_ab Y l j * (dn (rt (r_resid_aa 10 2 3 0 4)) (venv [i; j; a; b; k; l])))) + (- (dipq_aba Y i j b k * (dn (rt (r_ccsd_res_a 10 2 5)) (venv [i; j; a; b; k; l]))))) + (dipq_aba Y i j a k * (dn (rt (r_ccsd_res_a 10 3 5)) (venv [i; j; a; b; k; l])))) + (dipq_aba Y i j b l * (dn (rt (r_ccsd_res_a 10 2 4)) (venv [i; j; a; b; k; l])))) + (- (dipq_aba Y i j a l * (dn (rt (r_ccsd_res_a 10 3 4)) (venv [i; j; a; b; k; l]))))) + (- (dipq_aba Y k j b l * (dn (rt (r_ccsd_res_a 10 2 0)) (venv [i; j; a; b; k; l]))))) + (dipq_aba Y k j a l * (dn (rt (r_ccsd_res_a 10 3 0)) (venv [i; j; a; b; k; l])))))).
  rewrite sector_en, Q0_, Q1_, Q2_, Q3_, Q4_, Q5_, Q6_, Q7_, Q8_, Q9_, Q10_, Q11_, Q12_. ring.
Qed.
Lemma dipq_comp_abab w i j a b k l : (i < noa d)%nat -> (j < nob d)%nat -> (a < nua d)%nat -> (b < nub d)%nat -> (k < noa d)%nat -> (l < nob d)%nat ->
  str [(true, oa i); (true, ob j); (true, oa k); (true, ob l); (false, vb d b); (false, va d a)] (dipq_defect w) ref = (((((x_ab T a b i j * (dipq_ab Z k l - w * dipq_ab Y k l)) + (- (x_ab T a b i l * (dipq_ab Z k j - w * dipq_ab Y k j)))) + (- (x_ab T a b k j * (dipq_ab Z i l - w * dipq_ab Y i l)))) + (x_ab T a b k l * (dipq_ab Z i j - w * dipq_ab Y i j))) + (dipq_abab Z i j a b k l - w * dipq_abab Y i j a b k l)) + ((((((((dipq_ab Y i j * x_ab X a b k l) + (- (dipq_ab Y i l * x_ab X a b k j))) + (- (dipq_ab Y k j * x_ab X a b i l))) + (dipq_ab Y k l * x_ab X a b i j)) + (dipq_aba Y i j a k * x_b X b l)) + (- (dipq_aba Y i l a k * x_b X b j))) + (dipq_abb Y i j b l * x_a X a k)) + (- (dipq_abb Y k j b l * x_a X a i))).
Proof.
  intros Hi Hj Ha Hb Hk Hl.
  assert (Q0_ : dn (dipq_rt (s_dipq_ab 10 4 5)) (venv [i; j; a; b; k; l]) = dipq_ab Z k l) by (rewrite dipq_rt_ok; reflexivity).
  assert (Q1_ : dn (dipq_rt (s_dipq_ab 10 4 1)) (venv [i; j; a; b; k; l]) = dipq_ab Z k j) by (rewrite dipq_rt_ok; reflexivity).
  assert (Q2_ : dn (dipq_rt (s_dipq_ab 10 0 5)) (venv [i; j; a; b; k; l]) = dipq_ab Z i l) by (rewrite dipq_rt_ok; reflexivity).
  assert (Q3_ : dn (dipq_rt (s_dipq_ab 10 0 1)) (venv [i; j; a; b; k; l]) = dipq_ab Z i j) by (rewrite dipq_rt_ok; reflexivity).
  assert (Q4_ : dn (dipq_rt (s_dipq_abab 10 0 1 2 3 4 5)) (venv [i; j; a; b; k; l]) = dipq_abab Z i j a b k l) by (rewrite dipq_rt_ok; reflexivity).
  assert (Q5_ : dn (rt (r_ccsd_res_ab 10 2 3 4 5)) (venv [i; j; a; b; k; l]) = x_ab X a b k l) by (rewrite sector_rt by (vm_compute; reflexivity); reflexivity).
  assert (Q6_ : dn (rt (r_ccsd_res_ab 10 2 3 4 1)) (venv [i; j; a; b; k; l]) = x_ab X a b k j) by (rewrite sector_rt by (vm_compute; reflexivity); reflexivity).
  assert (Q7_ : dn (rt (r_ccsd_res_ab 10 2 3 0 5)) (venv [i; j; a; b; k; l]) = x_ab X a b i l) by (rewrite sector_rt by (vm_compute; reflexivity); reflexivity).
  assert (Q8_ : dn (rt (r_ccsd_res_ab 10 2 3 0 1)) (venv [i; j; a; b; k; l]) = x_ab X a b i j) by (rewrite sector_rt by (vm_compute; reflexivity); reflexivity).
  assert (Q9_ : dn (rt (r_ccsd_res_b 10 3 5)) (venv [i; j; a; b; k; l]) = x_b X b l) by (rewrite sector_rt by (vm_compute; reflexivity); reflexivity).
  assert (Q10_ : dn (rt (r_ccsd_res_b 10 3 1)) (venv [i; j; a; b; k; l]) = x_b X b j) by (rewrite sector_rt by (vm_compute; reflexivity); reflexivity).
  assert (Q11_ : dn (rt (r_ccsd_res_a 10 2 4)) (venv [i; j; a; b; k; l]) = x_a X a k) by (rewrite sector_rt by (vm_compute; reflexivity); reflexivity).
  assert (Q12_ : dn (rt (r_ccsd_res_a 10 2 0)) (venv [i; j; a; b; k; l]) = x_a X a i) by (rewrite sector_rt by (vm_compute; reflexivity); reflexivity).
  change (opsem (noa d) (nob d) dipq_bra_abab (venv [i; j; a; b; k; l]) (dipq_defect w) ref = (((((x_ab T a b i j * (dipq_ab Z k l - w * dipq_ab Y k l)) + (- (x_ab T a b i l * (dipq_ab Z k j - w * dipq_ab Y k j)))) + (- (x_ab T a b k j * (dipq_ab Z i l - w * dipq_ab Y i l)))) + (x_ab T a b k l * (dipq_ab Z i j - w * dipq_ab Y i j))) + (dipq_abab Z i j a b k l - w * dipq_abab Y i j a b k l)) + ((((((((dipq_ab Y i j * x_ab X a b k l) + (- (dipq_ab Y i l * x_ab X a b k j))) + (- (dipq_ab Y k j * x_ab X a b i l))) + (dipq_ab Y k l * x_ab X a b i j)) + (dipq_aba Y i j a k * x_b X b l)) + (- (dipq_aba Y i l a k * x_b X b j))) + (dipq_abb Y i j b l * x_a X a k)) + (- (dipq_abb Y k j b l * x_a X a i)))). unfold dipq_defect. rewrite <- (dipq_op_ok (venv [i; j; a; b; k; l])).
  rewrite (defect2_ok d I T0 n Rs dipq_rts 2 En En' dipq_rtok dipq_own dipq_syms dipq_tab dipq_htab dipq_ext_abab dipq_bra_abab (venv [i; j; a; b; k; l]) m dipq_d_abab dipq_c_abab (E + w));
    [|extv|exact dipq_bk_abab|cbn; lia|exact Hm|exact dipq_kd_abab|exact dipq_kc_abab].
  change (dn dipq_c_abab (venv [i; j; a; b; k; l])) with ((((((x_ab T a b i j * dipq_ab Y k l) + (- (x_ab T a b i l * dipq_ab Y k j))) + (- (x_ab T a b k j * dipq_ab Y i l))) + (x_ab T a b k l * dipq_ab Y i j)) + dipq_abab Y i j a b k l)).
  change (dn dipq_d_abab (venv [i; j; a; b; k; l])) with (dn f_en (venv [i; j; a; b; k; l]) * ((((((x_ab T a b i j * dipq_ab Y k l) + (- (x_ab T a b i l * dipq_ab Y k j))) + (- (x_ab T a b k j * dipq_ab Y i l))) + (x_ab T a b k l * dipq_ab Y i j)) + dipq_abab Y i j a b k l)) + ((((((x_ab T a b i j * (dn (dipq_rt (s_dipq_ab 10 4 5)) (venv [i; j; a; b; k; l]))) + (- (x_ab T a b i l * (dn (dipq_rt (s_dipq_ab 10 4 1)) (venv [i; j; a; b; k; l]))))) + (- (x_ab T a b k j * (dn (dipq_rt (s_dipq_ab 10 0 5)) (venv [i; j; a; b; k; l]))))) + (x_ab T a b k l * (dn (dipq_rt (s_dipq_ab 10 0 1)) (venv [i; j; a; b; k; l])))) + (dn (dipq_rt (s_dipq_abab 10 0 1 2 3 4 5)) (venv [i; j; a; b; k; l]))) + ((((((((dipq_ab Y i j * (dn (rt (r_ccsd_res_ab 10 2 3 4 5)) (venv [i; j; a; b; k; l]))) + (- (dipq_ab Y i l * (dn (rt (r_ccsd_res_ab 10 2 3 4 1)) (venv [i; j; a; b; k; l]))))) + (- (dipq_ab Y k j * (dn (rt (r_ccsd_res_ab 10 2 3 0 5)) (venv [i; j; a; b; k; l]))))) + (dipq_ab Y k l * (dn (rt (r_ccsd_res_ab 10 2 3 0 1)) (venv [i; j; a; b; k; l])))) + (dipq_aba Y i j a k * (dn (rt (r_ccsd_res_b 10 3 5)) (venv [i; j; a; b; k; l])))) + (- (dipq_aba Y i l a k * (dn (rt (r_ccsd_res_b 10 3 1)) (venv [i; j; a; b; k; l]))))) + (dipq_abb Y i j b l * (dn (rt (r_ccsd_res_a 10 2 4)) (venv [i; j; a; b; k; l])))) + (- (dipq_abb Y k j b l * (dn (rt (r_ccsd_res_a 10 2 0)) (venv [i; j; a; b; k; l]))))))).
  rewrite sector_en, Q0_, Q1_, Q2_, Q3_, Q4_, Q5_, Q6_, Q7_, Q8_, Q9_, Q10_, Q11_, Q12_. ring.
Qed.
Lemma dipq_comp_abbb w i j a b k l : (i < noa d)%nat -> (j < nob d)%nat -> (a < nub d)%nat -> (b < nub d)%nat -> (k < nob d)%nat -> (l < nob d)%nat ->
  str [(true, oa i); (true, ob j); (true, ob k); (true, ob l); (false, vb d b); (false, vb d a)] (dipq_defect w) ref = ((((x_bb T a b j k * (dipq_ab Z i l - w * dipq_ab Y i l)) + (- (x_bb T a b j l * (dipq_ab Z i k - w * dipq_ab Y i k)))) + (x_bb T a b k l * (dipq_ab Z i j - w * dipq_ab Y i j))) + (dipq_abbb Z i j a b k l - w * dipq_abbb Y i j a b k l)) + (((((((((dipq_ab Y i j * x_bb X a b k l) + (- (dipq_ab Y i k * x_bb X a b j l))) + (dipq_ab Y i l * x_bb X a b j k)) + (- (dipq_abb Y i j b k * x_b X a l))) + (dipq_abb Y i j a k * x_b X b l)) + (dipq_abb Y i j b l * x_b X a k)) + (- (dipq_abb Y i j a l * x_b X b k))) + (- (dipq_abb Y i k b l * x_b X a j))) + (dipq_abb Y i k a l * x_b X b j)).
Proof.
  intros Hi Hj Ha Hb Hk Hl.
  assert (Q0_ : dn (dipq_rt (s_dipq_ab 10 0 5)) (venv [i; j; a; b; k; l]) = dipq_ab Z i l) by (rewrite dipq_rt_ok; reflexivity).
  assert (Q1_ : dn (dipq_rt (s_dipq_ab 10 0 4)) (venv [i; j; a; b; k; l]) = dipq_ab Z i k) by (rewrite dipq_rt_ok; reflexivity).
  assert (Q2_ : dn (dipq_rt (s_dipq_ab 10 0 1)) (venv [i; j; a; b; k; l]) = dipq_ab Z i j) by (rewrite dipq_rt_ok; reflexivity).
  assert (Q3_ : dn (dipq_rt (s_dipq_abbb 10 0 1 2 3 4 5)) (venv [i; j; a; b; k; l]) = dipq_abbb Z i j a b k l) by (rewrite dipq_rt_ok; reflexivity).
  assert (Q4_ : dn (rt (r_resid_bb 10 2 3 4 5)) (venv [i; j; a; b; k; l]) = x_bb X a b k l) by (rewrite sector_rt by (vm_compute; reflexivity); reflexivity).
  assert (Q5_ : dn (rt (r_resid_bb 10 2 3 1 5)) (venv [i; j; a; b; k; l]) = x_bb X a b j l) by (rewrite sector_rt by (vm_compute; reflexivity); reflexivity).
  assert (Q6_ : dn (rt (r_resid_bb 10 2 3 1 4)) (venv [i; j; a; b; k; l]) = x_bb X a b j k) by (rewrite sector_rt by (vm_compute; reflexivity); reflexivity).
  assert (Q7_ : dn (rt (r_ccsd_res_b 10 2 5)) (venv [i; j; a; b; k; l]) = x_b X a l) by (rewrite sector_rt by (vm_compute; reflexivity); reflexivity).
  assert (Q8_ : dn (rt (r_ccsd_res_b 10 3 5)) (venv [i; j; a; b; k; l]) = x_b X b l) by (rewrite sector_rt by (vm_compute; reflexivity); reflexivity).
  assert (Q9_ : dn (rt (r_ccsd_res_b 10 2 4)) (venv [i; j; a; b; k; l]) = x_b X a k) by (rewrite sector_rt by (vm_compute; reflexivity); reflexivity).
  assert (Q10_ : dn (rt (r_ccsd_res_b 10 3 4)) (venv [i; j; a; b; k; l]) = x_b X b k) by (rewrite sector_rt by (vm_compute; reflexivity); reflexivity).
  assert (Q11_ : dn (rt (r_ccsd_res_b 10 2 1)) (venv [i; j; a; b; k; l]) = x_b X a j) by (rewrite sector_rt by (vm_compute; reflexivity); reflexivity).
  assert (Q12_ : dn (rt (r_ccsd_res_b 10 3 1)) (venv [i; j; a; b; k; l]) = x_b X b j) by (rewrite sector_rt by (vm_compute; reflexivity); reflexivity).
  change (opsem (noa d) (nob d) dipq_bra_abbb (venv [i; j; a; b; k; l]) (dipq_defect w) ref = ((((x_bb T a b j k * (dipq_ab Z i l - w * dipq_ab Y i l)) + (- (x_bb T a b j l * (dipq_ab Z i k - w * dipq_ab Y i k)))) + (x_bb T a b k l * (dipq_ab Z i j - w * dipq_ab Y i j))) + (dipq_abbb Z i j a b k l - w * dipq_abbb Y i j a b k l)) + (((((((((dipq_ab Y i j * x_bb X a b k l) + (- (dipq_ab Y i k * x_bb X a b j l))) + (dipq_ab Y i l * x_bb X a b j k)) + (- (dipq_abb Y i j b k * x_b X a l))) + (dipq_abb Y i j a k * x_b X b l)) + (dipq_abb Y i j b l * x_b X a k)) + (- (dipq_abb Y i j a l * x_b X b k))) + (- (dipq_abb Y i k b l * x_b X a j))) + (dipq_abb Y i k a l * x_b X b j))). unfold dipq_defect. rewrite <- (dipq_op_ok (venv [i; j; a; b; k; l])).
  rewrite (defect2_ok d I T0 n Rs dipq_rts 2 En En' dipq_rtok dipq_own dipq_syms dipq_tab dipq_htab dipq_ext_abbb dipq_bra_abbb (venv [i; j; a; b; k; l]) m dipq_d_abbb dipq_c_abbb (E + w));
    [|extv|exact dipq_bk_abbb|cbn; lia|exact Hm|exact dipq_kd_abbb|exact dipq_kc_abbb].
  change (dn dipq_c_abbb (venv [i; j; a; b; k; l])) with (((((x_bb T a b j k * dipq_ab Y i l) + (- (x_bb T a b j l * dipq_ab Y i k))) + (x_bb T a b k l * dipq_ab Y i j)) + dipq_abbb Y i j a b k l)).
  change (dn dipq_d_abbb (venv [i; j; a; b; k; l])) with (dn f_en (venv [i; j; a; b; k; l]) * (((((x_bb T a b j k * dipq_ab Y i l) + (- (x_bb T a b j l * dipq_ab Y i k))) + (x_bb T a b k l * dipq_ab Y i j)) + dipq_abbb Y i j a b k l)) + (((((x_bb T a b j k * (dn (dipq_rt (s_dipq_ab 10 0 5)) (venv [i; j; a; b; k; l]))) + (- (x_bb T a b j l * (dn (dipq_rt (s_dipq_ab 10 0 4)) (venv [i; j; a; b; k; l]))))) + (x_bb T a b k l * (dn (dipq_rt (s_dipq_ab 10 0 1)) (venv [i; j; a; b; k; l])))) + (dn (dipq_rt (s_dipq_abbb 10 0 1 2 3 4 5)) (venv [i; j; a; b; k; l]))) + (((((((((dipq_ab Y i j * (dn (rt (r_resid_bb 10 2 3 4 5)) (venv [i; j; a; b; k; l]))) + (- (dipq_ab Y i k * (dn (rt (r_resid_bb 10 2 3 1 5)) (venv [i; j; a; b; k; l]))))) + (dipq_ab Y i l * (dn (rt (r_resid_bb 10 2 3 1 4)) (venv [i; j; a; b; k; l])))) + (- (dipq_abb Y i j b k * (dn (rt (r_ccsd_res_b 10 2 5)) (venv [i; j; a; b; k; l]))))) + (dipq_abb Y i j a k * (dn (rt (r_ccsd_res_b 10 3 5)) (venv [i; j; a; b; k; l])))) + (dipq_abb Y i j b l * (dn (rt (r_ccsd_res_b 10 2 4)) (venv [i; j; a; b; k; l])))) + (- (dipq_abb Y i j a l * (dn (rt (r_ccsd_res_b 10 3 4)) (venv [i; j; a; b; k; l]))))) + (- (dipq_abb Y i k b l * (dn (rt (r_ccsd_res_b 10 2 1)) (venv [i; j; a; b; k; l]))))) + (dipq_abb Y i k a l * (dn (rt (r_ccsd_res_b 10 3 1)) (venv [i; j; a; b; k; l])))))).
  rewrite sector_en, Q0_, Q1_, Q2_, Q3_, Q4_, Q5_, Q6_, Q7_, Q8_, Q9_, Q10_, Q11_, Q12_. ring.
Qed.
Lemma dipq_solves w : same_amps d X zero_amps -> (solves_on (dipq_space d n) n I (E + w) (dipq_op d Y psi) <-> dipq_root d Z Y w).
Proof.
  intros [Za Zb Zaa Zab Zbb]. cbn [zero_amps x_a x_b x_aa x_ab x_bb] in Za, Zb, Zaa, Zab, Zbb.
  assert (F := dipq_flat d n (dipq_defect w) En En').
  transitivity (forall D, dipq_space d n D -> dipq_defect w D = 0); [unfold solves_on, dipq_defect; split; intros G D HD; specialize (G D HD); [rewrite G; ring|lra]|]. rewrite F. clear F. unfold dipq_root. split.
  - intros (F0 & F1 & F2 & F3 & F4 & F5).
    assert (L0 : forall i j, (i < noa d)%nat -> (j < nob d)%nat -> dipq_ab Z i j - w * dipq_ab Y i j = 0).
    { intros i j Hi Hj. specialize (F0 i j Hi Hj). rewrite dipq_comp_ab in F0 by assumption. rewrite <- F0. ring. }
    assert (L1 : forall i j a k, (i < noa d)%nat -> (j < nob d)%nat -> (a < nua d)%nat -> (k < noa d)%nat -> dipq_aba Z i j a k - w * dipq_aba Y i j a k = 0).
    { intros i j a k Hi Hj Ha Hk. specialize (F1 i j a k Hi Hj Ha Hk). rewrite dipq_comp_aba, !Za in F1 by assumption. rewrite <- F1. ring. }
    assert (L2 : forall i j a k, (i < noa d)%nat -> (j < nob d)%nat -> (a < nub d)%nat -> (k < nob d)%nat -> dipq_abb Z i j a k - w * dipq_abb Y i j a k = 0).
    { intros i j a k Hi Hj Ha Hk. specialize (F2 i j a k Hi Hj Ha Hk). rewrite dipq_comp_abb, !Zb in F2 by assumption. rewrite <- F2. ring. }
    assert (L3 : forall i j a b k l, (i < noa d)%nat -> (j < nob d)%nat -> (a < nua d)%nat -> (b < nua d)%nat -> (k < noa d)%nat -> (l < noa d)%nat -> dipq_abaa Z i j a b k l - w * dipq_abaa Y i j a b k l = 0).
    { intros i j a b k l Hi Hj Ha Hb Hk Hl. specialize (F3 i j a b k l Hi Hj Ha Hb Hk Hl). rewrite dipq_comp_abaa, !Za, !Zaa, !L0 in F3 by assumption. rewrite <- F3. ring. }
    assert (L4 : forall i j a b k l, (i < noa d)%nat -> (j < nob d)%nat -> (a < nua d)%nat -> (b < nub d)%nat -> (k < noa d)%nat -> (l < nob d)%nat -> dipq_abab Z i j a b k l - w * dipq_abab Y i j a b k l = 0).
    { intros i j a b k l Hi Hj Ha Hb Hk Hl. specialize (F4 i j a b k l Hi Hj Ha Hb Hk Hl). rewrite dipq_comp_abab, !Za, !Zb, !Zab, !L0 in F4 by assumption. rewrite <- F4. ring. }
    assert (L5 : forall i j a b k l, (i < noa d)%nat -> (j < nob d)%nat -> (a < nub d)%nat -> (b < nub d)%nat -> (k < nob d)%nat -> (l < nob d)%nat -> dipq_abbb Z i j a b k l - w * dipq_abbb Y i j a b k l = 0).
    { intros i j a b k l Hi Hj Ha Hb Hk Hl. specialize (F5 i j a b k l Hi Hj Ha Hb Hk Hl). rewrite dipq_comp_abbb, !Zb, !Zbb, !L0 in F5 by assumption. rewrite <- F5. ring. }
    split; [|split; [|split; [|split; [|split; [|]]]]]; intros; apply Rminus_diag_uniq; auto.
  - intros (G0 & G1 & G2 & G3 & G4 & G5).
    assert (L0 : forall i j, (i < noa d)%nat -> (j < nob d)%nat -> dipq_ab Z i j - w * dipq_ab Y i j = 0) by (intros; rewrite G0 by assumption; ring).
    assert (L1 : forall i j a k, (i < noa d)%nat -> (j < nob d)%nat -> (a < nua d)%nat -> (k < noa d)%nat -> dipq_aba Z i j a k - w * dipq_aba Y i j a k = 0) by (intros; rewrite G1 by assumption; ring).
    assert (L2 : forall i j a k, (i < noa d)%nat -> (j < nob d)%nat -> (a < nub d)%nat -> (k < nob d)%nat -> dipq_abb Z i j a k - w * dipq_abb Y i j a k = 0) by (intros; rewrite G2 by assumption; ring).
    assert (L3 : forall i j a b k l, (i < noa d)%nat -> (j < nob d)%nat -> (a < nua d)%nat -> (b < nua d)%nat -> (k < noa d)%nat -> (l < noa d)%nat -> dipq_abaa Z i j a b k l - w * dipq_abaa Y i j a b k l = 0) by (intros; rewrite G3 by assumption; ring).
    assert (L4 : forall i j a b k l, (i < noa d)%nat -> (j < nob d)%nat -> (a < nua d)%nat -> (b < nub d)%nat -> (k < noa d)%nat -> (l < nob d)%nat -> dipq_abab Z i j a b k l - w * dipq_abab Y i j a b k l = 0) by (intros; rewrite G4 by assumption; ring).
    assert (L5 : forall i j a b k l, (i < noa d)%nat -> (j < nob d)%nat -> (a < nub d)%nat -> (b < nub d)%nat -> (k < nob d)%nat -> (l < nob d)%nat -> dipq_abbb Z i j a b k l - w * dipq_abbb Y i j a b k l = 0) by (intros; rewrite G5 by assumption; ring).
    split; [|split; [|split; [|split; [|split; [|]]]]].
    + intros i j Hi Hj. rewrite dipq_comp_ab, !L0 by assumption. ring.
    + intros i j a k Hi Hj Ha Hk. rewrite dipq_comp_aba, !Za, !L1 by assumption. ring.
    + intros i j a k Hi Hj Ha Hk. rewrite dipq_comp_abb, !Zb, !L2 by assumption. ring.
    + intros i j a b k l Hi Hj Ha Hb Hk Hl. rewrite dipq_comp_abaa, !Za, !Zaa, !L0, !L3 by assumption. ring.
    + intros i j a b k l Hi Hj Ha Hb Hk Hl. rewrite dipq_comp_abab, !Za, !Zb, !Zab, !L0, !L4 by assumption. ring.
    + intros i j a b k l Hi Hj Ha Hb Hk Hl. rewrite dipq_comp_abbb, !Zb, !Zbb, !L0, !L5 by assumption. ring.
Qed.
End P.
