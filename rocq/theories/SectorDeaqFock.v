(** Generated by tools/gen_sec3fock.py: components of (H - E - w) R exp(T2) |ref> for the DEA (4p2h) operator (proof support). *)
From Coq Require Import Reals Arith NArith List Bool Lia Lra QArith Qreals ZArith FunctionalExtensionality.
From Verif Require Import RSum IntegralsModel TensorObjs TensorAlg TensorSpec CcsdModel CcsdUpdate CcsdReify CcsdProps FockSpec FockCar FockWick FockArrays FockCcSpec FockTerms FockHam FockExp FockLevel FockCheck FockState FockNear FockProj FockSector FockSectorTools
  FockFast FockSectorSpec FockFlip RankSpec FockShift FockSector3 FockTools3 Sector3Model Sector3Spec FockSpaces3 SectorDeaqReify.
Import ListNotations.
Local Open Scope nat_scope.
Definition deaq_rts : list term := [mkTerm (1 # 1) [(40, 1); (41, 3)] [(66, [40; 41])] [C 1 40; C 3 41]; mkTerm (1 # 2) [(40, 1); (41, 3); (42, 1); (43, 0)] [(67, [40; 41; 42; 43])] [C 1 40; C 3 41; C 1 42; A 0 43]; mkTerm (1 # 2) [(40, 1); (41, 3); (42, 3); (43, 2)] [(68, [40; 41; 42; 43])] [C 1 40; C 3 41; C 3 42; A 2 43]; mkTerm (1 # 12) [(40, 1); (41, 3); (42, 1); (43, 1); (44, 0); (45, 0)] [(69, [40; 41; 42; 43; 44; 45])] [C 1 40; C 3 41; C 1 42; C 1 43; A 0 45; A 0 44]; mkTerm (1 # 4) [(40, 1); (41, 3); (42, 1); (43, 3); (44, 0); (45, 2)] [(70, [40; 41; 42; 43; 44; 45])] [C 1 40; C 3 41; C 1 42; C 3 43; A 2 45; A 0 44]; mkTerm (1 # 12) [(40, 1); (41, 3); (42, 3); (43, 3); (44, 2); (45, 2)] [(71, [40; 41; 42; 43; 44; 45])] [C 1 40; C 3 41; C 3 42; C 3 43; A 2 45; A 2 44]].
Definition deaq_own : list (nat * (nat * list nat * bool)) := [(67, (67, [2; 1; 0; 3], false)); (68, (68, [0; 2; 1; 3], false)); (69, (69, [0; 1; 2; 3; 5; 4], false)); (69, (69, [2; 1; 0; 3; 4; 5], false)); (69, (69, [0; 1; 3; 2; 4; 5], false)); (70, (70, [2; 1; 0; 3; 4; 5], false)); (70, (70, [0; 3; 2; 1; 4; 5], false)); (71, (71, [0; 1; 2; 3; 5; 4], false)); (71, (71, [0; 2; 1; 3; 4; 5], false)); (71, (71, [0; 1; 3; 2; 4; 5], false))].
Definition deaq_gens := fock_gens ++ deaq_own.
Definition deaq_tab := Eval vm_compute in symtab deaq_gens 72.
Definition deaq_rt e := retag (to_sector 6) e.
Lemma deaq_htab : deaq_tab = symtab deaq_gens 72. Proof. vm_compute. reflexivity. Qed.
Lemma deaq_rtok : rtok deaq_rts 0 = true. Proof. vm_compute. reflexivity. Qed.
Definition deaq_bra_ab : list op := [A 3 1; A 1 0].
Definition deaq_ext_ab : list (nat * nat) := [(0, 1); (1, 3)].
Definition deaq_c_ab := (ET 66 [0; 1]).
Definition deaq_d_ab := EAdd (EMul f_en deaq_c_ab) (EAdd (deaq_rt (s_deaq_ab 10 0 1))
  (EC 0 1)).
Lemma deaq_bk_ab : braok deaq_ext_ab deaq_bra_ab = true. Proof. vm_compute. reflexivity. Qed.
Lemma deaq_kc_ab : fock_fast deaq_tab deaq_ext_ab (eek2 deaq_bra_ab deaq_rts) deaq_c_ab = true. Proof. vm_compute. reflexivity. Qed.
Lemma deaq_kd_ab : fock_fast deaq_tab deaq_ext_ab (hek2 deaq_bra_ab deaq_rts) (kill deaq_d_ab) = true. Proof. vm_compute. reflexivity. Qed.
Definition deaq_bra_aba : list op := [C 0 3; A 1 2; A 3 1; A 1 0].
Definition deaq_ext_aba : list (nat * nat) := [(0, 1); (1, 3); (2, 1); (3, 0)].
Definition deaq_c_aba := (ET 67 [0; 1; 2; 3]).
Definition deaq_d_aba := EAdd (EMul f_en deaq_c_aba) (EAdd (deaq_rt (s_deaq_aba 10 0 1 2 3))
  (EAdd (EOpp (EMul (ET 66 [2; 1]) (rt (r_ccsd_res_a 10 0 3))))
   (EMul (ET 66 [0; 1]) (rt (r_ccsd_res_a 10 2 3))))).
Lemma deaq_bk_aba : braok deaq_ext_aba deaq_bra_aba = true. Proof. vm_compute. reflexivity. Qed.
Lemma deaq_kc_aba : fock_fast deaq_tab deaq_ext_aba (eek2 deaq_bra_aba deaq_rts) deaq_c_aba = true. Proof. vm_compute. reflexivity. Qed.
Lemma deaq_kd_aba : fock_fast deaq_tab deaq_ext_aba (hek2 deaq_bra_aba deaq_rts) (kill deaq_d_aba) = true. Proof. vm_compute. reflexivity. Qed.
Definition deaq_bra_abb : list op := [C 2 3; A 3 2; A 3 1; A 1 0].
Definition deaq_ext_abb : list (nat * nat) := [(0, 1); (1, 3); (2, 3); (3, 2)].
Definition deaq_c_abb := (ET 68 [0; 1; 2; 3]).
Definition deaq_d_abb := EAdd (EMul f_en deaq_c_abb) (EAdd (deaq_rt (s_deaq_abb 10 0 1 2 3))
  (EAdd (EOpp (EMul (ET 66 [0; 2]) (rt (r_ccsd_res_b 10 1 3))))
   (EMul (ET 66 [0; 1]) (rt (r_ccsd_res_b 10 2 3))))).
Lemma deaq_bk_abb : braok deaq_ext_abb deaq_bra_abb = true. Proof. vm_compute. reflexivity. Qed.
Lemma deaq_kc_abb : fock_fast deaq_tab deaq_ext_abb (eek2 deaq_bra_abb deaq_rts) deaq_c_abb = true. Proof. vm_compute. reflexivity. Qed.
Lemma deaq_kd_abb : fock_fast deaq_tab deaq_ext_abb (hek2 deaq_bra_abb deaq_rts) (kill deaq_d_abb) = true. Proof. vm_compute. reflexivity. Qed.
Definition deaq_bra_abaa : list op := [C 0 4; C 0 5; A 1 3; A 1 2; A 3 1; A 1 0].
Definition deaq_ext_abaa : list (nat * nat) := [(0, 1); (1, 3); (2, 1); (3, 1); (4, 0); (5, 0)].
Definition deaq_c_abaa := (EAdd (EAdd (EAdd (EMul (ET 2 [2; 3; 4; 5]) (ET 66 [0; 1]))
   (EOpp (EMul (ET 2 [0; 3; 4; 5]) (ET 66 [2; 1]))))
   (EMul (ET 2 [0; 2; 4; 5]) (ET 66 [3; 1])))
   (ET 69 [0; 1; 2; 3; 4; 5])).
Definition deaq_d_abaa := EAdd (EMul f_en deaq_c_abaa) (EAdd (EAdd (EAdd (EAdd (EMul (ET 2 [2; 3; 4; 5]) (deaq_rt (s_deaq_ab 10 0 1)))
   (EOpp (EMul (ET 2 [0; 3; 4; 5]) (deaq_rt (s_deaq_ab 10 2 1)))))
   (EMul (ET 2 [0; 2; 4; 5]) (deaq_rt (s_deaq_ab 10 3 1))))
   (deaq_rt (s_deaq_abaa 10 0 1 2 3 4 5)))
  (EAdd (EAdd (EAdd (EAdd (EAdd (EAdd (EAdd (EAdd (EMul (ET 66 [3; 1]) (rt (r_resid_aa 10 0 2 4 5)))
   (EOpp (EMul (ET 66 [2; 1]) (rt (r_resid_aa 10 0 3 4 5)))))
   (EMul (ET 66 [0; 1]) (rt (r_resid_aa 10 2 3 4 5))))
   (EMul (ET 67 [2; 1; 3; 4]) (rt (r_ccsd_res_a 10 0 5))))
   (EOpp (EMul (ET 67 [0; 1; 3; 4]) (rt (r_ccsd_res_a 10 2 5)))))
   (EMul (ET 67 [0; 1; 2; 4]) (rt (r_ccsd_res_a 10 3 5))))
   (EOpp (EMul (ET 67 [2; 1; 3; 5]) (rt (r_ccsd_res_a 10 0 4)))))
   (EMul (ET 67 [0; 1; 3; 5]) (rt (r_ccsd_res_a 10 2 4))))
   (EOpp (EMul (ET 67 [0; 1; 2; 5]) (rt (r_ccsd_res_a 10 3 4)))))).
Lemma deaq_bk_abaa : braok deaq_ext_abaa deaq_bra_abaa = true. Proof. vm_compute. reflexivity. Qed.
Lemma deaq_kc_abaa : fock_fast deaq_tab deaq_ext_abaa (eek2 deaq_bra_abaa deaq_rts) deaq_c_abaa = true. Proof. vm_compute. reflexivity. Qed.
Lemma deaq_kd_abaa : fock_fast deaq_tab deaq_ext_abaa (hek2 deaq_bra_abaa deaq_rts) (kill deaq_d_abaa) = true. Proof. vm_compute. reflexivity. Qed.
Definition deaq_bra_abab : list op := [C 0 4; C 2 5; A 3 3; A 1 2; A 3 1; A 1 0].
Definition deaq_ext_abab : list (nat * nat) := [(0, 1); (1, 3); (2, 1); (3, 3); (4, 0); (5, 2)].
Definition deaq_c_abab := (EAdd (EAdd (EAdd (EAdd (EMul (ET 3 [2; 3; 4; 5]) (ET 66 [0; 1]))
   (EOpp (EMul (ET 3 [0; 3; 4; 5]) (ET 66 [2; 1]))))
   (EOpp (EMul (ET 3 [2; 1; 4; 5]) (ET 66 [0; 3]))))
   (EMul (ET 3 [0; 1; 4; 5]) (ET 66 [2; 3])))
   (ET 70 [0; 1; 2; 3; 4; 5])).
Definition deaq_d_abab := EAdd (EMul f_en deaq_c_abab) (EAdd (EAdd (EAdd (EAdd (EAdd (EMul (ET 3 [2; 3; 4; 5]) (deaq_rt (s_deaq_ab 10 0 1)))
   (EOpp (EMul (ET 3 [0; 3; 4; 5]) (deaq_rt (s_deaq_ab 10 2 1)))))
   (EOpp (EMul (ET 3 [2; 1; 4; 5]) (deaq_rt (s_deaq_ab 10 0 3)))))
   (EMul (ET 3 [0; 1; 4; 5]) (deaq_rt (s_deaq_ab 10 2 3))))
   (deaq_rt (s_deaq_abab 10 0 1 2 3 4 5)))
  (EAdd (EAdd (EAdd (EAdd (EAdd (EAdd (EAdd (EMul (ET 66 [2; 3]) (rt (r_ccsd_res_ab 10 0 1 4 5)))
   (EOpp (EMul (ET 66 [0; 3]) (rt (r_ccsd_res_ab 10 2 1 4 5)))))
   (EOpp (EMul (ET 66 [2; 1]) (rt (r_ccsd_res_ab 10 0 3 4 5)))))
   (EMul (ET 66 [0; 1]) (rt (r_ccsd_res_ab 10 2 3 4 5))))
   (EOpp (EMul (ET 67 [0; 3; 2; 4]) (rt (r_ccsd_res_b 10 1 5)))))
   (EMul (ET 67 [0; 1; 2; 4]) (rt (r_ccsd_res_b 10 3 5))))
   (EOpp (EMul (ET 68 [2; 1; 3; 5]) (rt (r_ccsd_res_a 10 0 4)))))
   (EMul (ET 68 [0; 1; 3; 5]) (rt (r_ccsd_res_a 10 2 4))))).
Lemma deaq_bk_abab : braok deaq_ext_abab deaq_bra_abab = true. Proof. vm_compute. reflexivity. Qed.
Lemma deaq_kc_abab : fock_fast deaq_tab deaq_ext_abab (eek2 deaq_bra_abab deaq_rts) deaq_c_abab = true. Proof. vm_compute. reflexivity. Qed.
Lemma deaq_kd_abab : fock_fast deaq_tab deaq_ext_abab (hek2 deaq_bra_abab deaq_rts) (kill deaq_d_abab) = true. Proof. vm_compute. reflexivity. Qed.
Definition deaq_bra_abbb : list op := [C 2 4; C 2 5; A 3 3; A 3 2; A 3 1; A 1 0].
Definition deaq_ext_abbb : list (nat * nat) := [(0, 1); (1, 3); (2, 3); (3, 3); (4, 2); (5, 2)].
Definition deaq_c_abbb := (EAdd (EAdd (EAdd (EMul (ET 4 [2; 3; 4; 5]) (ET 66 [0; 1]))
   (EOpp (EMul (ET 4 [1; 3; 4; 5]) (ET 66 [0; 2]))))
   (EMul (ET 4 [1; 2; 4; 5]) (ET 66 [0; 3])))
   (ET 71 [0; 1; 2; 3; 4; 5])).
Definition deaq_d_abbb := EAdd (EMul f_en deaq_c_abbb) (EAdd (EAdd (EAdd (EAdd (EMul (ET 4 [2; 3; 4; 5]) (deaq_rt (s_deaq_ab 10 0 1)))
   (EOpp (EMul (ET 4 [1; 3; 4; 5]) (deaq_rt (s_deaq_ab 10 0 2)))))
   (EMul (ET 4 [1; 2; 4; 5]) (deaq_rt (s_deaq_ab 10 0 3))))
   (deaq_rt (s_deaq_abbb 10 0 1 2 3 4 5)))
  (EAdd (EAdd (EAdd (EAdd (EAdd (EAdd (EAdd (EAdd (EMul (ET 66 [0; 3]) (rt (r_resid_bb 10 1 2 4 5)))
   (EOpp (EMul (ET 66 [0; 2]) (rt (r_resid_bb 10 1 3 4 5)))))
   (EMul (ET 66 [0; 1]) (rt (r_resid_bb 10 2 3 4 5))))
   (EMul (ET 68 [0; 2; 3; 4]) (rt (r_ccsd_res_b 10 1 5))))
   (EOpp (EMul (ET 68 [0; 1; 3; 4]) (rt (r_ccsd_res_b 10 2 5)))))
   (EMul (ET 68 [0; 1; 2; 4]) (rt (r_ccsd_res_b 10 3 5))))
   (EOpp (EMul (ET 68 [0; 2; 3; 5]) (rt (r_ccsd_res_b 10 1 4)))))
   (EMul (ET 68 [0; 1; 3; 5]) (rt (r_ccsd_res_b 10 2 4))))
   (EOpp (EMul (ET 68 [0; 1; 2; 5]) (rt (r_ccsd_res_b 10 3 4)))))).
Lemma deaq_bk_abbb : braok deaq_ext_abbb deaq_bra_abbb = true. Proof. vm_compute. reflexivity. Qed.
Lemma deaq_kc_abbb : fock_fast deaq_tab deaq_ext_abbb (eek2 deaq_bra_abbb deaq_rts) deaq_c_abbb = true. Proof. vm_compute. reflexivity. Qed.
Lemma deaq_kd_abbb : fock_fast deaq_tab deaq_ext_abbb (hek2 deaq_bra_abbb deaq_rts) (kill deaq_d_abbb) = true. Proof. vm_compute. reflexivity. Qed.
Local Open Scope R_scope.
Section P.
Variables (d : dims) (I : integrals) (T0 : amps) (Y : deaqv) (n m : nat).
Hypothesis En : (noa d + nua d = n)%nat.
Hypothesis En' : (nob d + nub d = n)%nat.
Hypothesis HI : exchangeable I.
Hypothesis HT : antisym_amps T0.
Hypothesis HY : deaq_anti Y.
Hypothesis Hm : (2 <= m)%nat.
Notation T := (bare T0).
Notation H := (fock_ints (noa d) (nob d) I).
Notation ref := (reference (noa d) (nob d)).
Notation psi := (expo (cluster_sd d T) m (pure ref)).
Notation E := (scf_energy (noa d) (nob d) I + cc_energy d H T).
Notation Rs := [ap2 (deaq_ab Y); ap4 (deaq_aba Y); ap4 (deaq_abb Y); ap6 (deaq_abaa Y); ap6 (deaq_abab Y); ap6 (deaq_abbb Y)].
Notation ten := (tenv (fock_arrays H T ++ Rs)).
Notation dn e v := (den (fdim d) ten e v).
Notation X := (ccsd_resid d H T).
Notation Z := (deaq_HR d (hbar_ccsd d H T) T Y).
Definition deaq_defect (w : R) : state := fun D => hamiltonian n I (deaq_op d Y psi) D - (E + w) * deaq_op d Y psi D.
Lemma deaq_op_ok v phi : psem (noa d) (nob d) (fdim d) ten deaq_rts v phi = deaq_op d Y phi.
Proof. opok deaq_rts deaq_op. Qed.
Lemma deaq_syms : Forall (fun g => okalt ten (fst g) (snd g)) deaq_gens.
Proof.
  apply sector_syms; [exact (fock_ints_antisym _ _ _ HI)|exact (bare_anti _ HT)|]. destruct HY as (A0 & A1 & A2 & A3 & A4 & A5 & A6 & A7 & A8 & A9).
  apply Forall_cons; [okswap6 A0|]. apply Forall_cons; [okswap6 A1|]. apply Forall_cons; [okswap6 A2|]. apply Forall_cons; [okswap6 A3|]. apply Forall_cons; [okswap6 A4|]. apply Forall_cons; [okswap6 A5|]. apply Forall_cons; [okswap6 A6|]. apply Forall_cons; [okswap6 A7|]. apply Forall_cons; [okswap6 A8|]. apply Forall_cons; [okswap6 A9|]. apply Forall_nil.
Qed.
Lemma deaq_rt_ok e v : dn (deaq_rt e) v = den (fdim d) (tenv (jac_arrays d H T T ++ Rs)) e v.
Proof. apply (retag_sector d H T Rs). cbn [length]. lia. Qed.
Lemma deaq_comp_ab w a b : (a < nua d)%nat -> (b < nub d)%nat ->
  str [(false, vb d b); (false, va d a)] (deaq_defect w) ref = (deaq_ab Z a b - w * deaq_ab Y a b) + 0.
Proof.
  intros Ha Hb.
  assert (Q0_ : dn (deaq_rt (s_deaq_ab 10 0 1)) (venv [a; b]) = deaq_ab Z a b) by (rewrite deaq_rt_ok; reflexivity).
  change (opsem (noa d) (nob d) deaq_bra_ab (venv [a; b]) (deaq_defect w) ref = (deaq_ab Z a b - w * deaq_ab Y a b) + 0). unfold deaq_defect. rewrite <- (deaq_op_ok (venv [a; b])).
  rewrite (defect2_ok d I T0 n Rs deaq_rts 0 En En' deaq_rtok deaq_own deaq_syms deaq_tab deaq_htab deaq_ext_ab deaq_bra_ab (venv [a; b]) m deaq_d_ab deaq_c_ab (E + w));
    [|extv|exact deaq_bk_ab|cbn; lia|exact Hm|exact deaq_kd_ab|exact deaq_kc_ab].
  change (dn deaq_c_ab (venv [a; b])) with (deaq_ab Y a b).
  change (dn deaq_d_ab (venv [a; b])) with (dn f_en (venv [a; b]) * (deaq_ab Y a b) + ((dn (deaq_rt (s_deaq_ab 10 0 1)) (venv [a; b])) + dn (EC 0 1) (venv [a; b]))).
  rewrite sector_en, den_zero, Q0_. ring.
Qed.
Lemma deaq_comp_aba w a b c i : (a < nua d)%nat -> (b < nub d)%nat -> (c < nua d)%nat -> (i < noa d)%nat ->
  str [(true, oa i); (false, va d c); (false, vb d b); (false, va d a)] (deaq_defect w) ref = (deaq_aba Z a b c i - w * deaq_aba Y a b c i) + ((- (deaq_ab Y c b * x_a X a i)) + (deaq_ab Y a b * x_a X c i)).
Proof.
  intros Ha Hb Hc Hi.
  assert (Q0_ : dn (deaq_rt (s_deaq_aba 10 0 1 2 3)) (venv [a; b; c; i]) = deaq_aba Z a b c i) by (rewrite deaq_rt_ok; reflexivity).
  assert (Q1_ : dn (rt (r_ccsd_res_a 10 0 3)) (venv [a; b; c; i]) = x_a X a i) by (rewrite sector_rt by (vm_compute; reflexivity); reflexivity).
  assert (Q2_ : dn (rt (r_ccsd_res_a 10 2 3)) (venv [a; b; c; i]) = x_a X c i) by (rewrite sector_rt by (vm_compute; reflexivity); reflexivity).
  change (opsem (noa d) (nob d) deaq_bra_aba (venv [a; b; c; i]) (deaq_defect w) ref = (deaq_aba Z a b c i - w * deaq_aba Y a b c i) + ((- (deaq_ab Y c b * x_a X a i)) + (deaq_ab Y a b * x_a X c i))). unfold deaq_defect. rewrite <- (deaq_op_ok (venv [a; b; c; i])).
  rewrite (defect2_ok d I T0 n Rs deaq_rts 0 En En' deaq_rtok deaq_own deaq_syms deaq_tab deaq_htab deaq_ext_aba deaq_bra_aba (venv [a; b; c; i]) m deaq_d_aba deaq_c_aba (E + w));
    [|extv|exact deaq_bk_aba|cbn; lia|exact Hm|exact deaq_kd_aba|exact deaq_kc_aba].
  change (dn deaq_c_aba (venv [a; b; c; i])) with (deaq_aba Y a b c i).
  change (dn deaq_d_aba (venv [a; b; c; i])) with (dn f_en (venv [a; b; c; i]) * (deaq_aba Y a b c i) + ((dn (deaq_rt (s_deaq_aba 10 0 1 2 3)) (venv [a; b; c; i])) + ((- (deaq_ab Y c b * (dn (rt (r_ccsd_res_a 10 0 3)) (venv [a; b; c; i])))) + (deaq_ab Y a b * (dn (rt (r_ccsd_res_a 10 2 3)) (venv [a; b; c; i])))))).
  rewrite sector_en, Q0_, Q1_, Q2_. ring.
Qed.
Lemma deaq_comp_abb w a b c i : (a < nua d)%nat -> (b < nub d)%nat -> (c < nub d)%nat -> (i < nob d)%nat ->
  str [(true, ob i); (false, vb d c); (false, vb d b); (false, va d a)] (deaq_defect w) ref = (deaq_abb Z a b c i - w * deaq_abb Y a b c i) + ((- (deaq_ab Y a c * x_b X b i)) + (deaq_ab Y a b * x_b X c i)).
Proof.
  intros Ha Hb Hc Hi.
  assert (Q0_ : dn (deaq_rt (s_deaq_abb 10 0 1 2 3)) (venv [a; b; c; i]) = deaq_abb Z a b c i) by (rewrite deaq_rt_ok; reflexivity).
  assert (Q1_ : dn (rt (r_ccsd_res_b 10 1 3)) (venv [a; b; c; i]) = x_b X b i) by (rewrite sector_rt by (vm_compute; reflexivity); reflexivity).
  assert (Q2_ : dn (rt (r_ccsd_res_b 10 2 3)) (venv [a; b; c; i]) = x_b X c i) by (rewrite sector_rt by (vm_compute; reflexivity); reflexivity).
  change (opsem (noa d) (nob d) deaq_bra_abb (venv [a; b; c; i]) (deaq_defect w) ref = (deaq_abb Z a b c i - w * deaq_abb Y a b c i) + ((- (deaq_ab Y a c * x_b X b i)) + (deaq_ab Y a b * x_b X c i))). unfold deaq_defect. rewrite <- (deaq_op_ok (venv [a; b; c; i])).
  rewrite (defect2_ok d I T0 n Rs deaq_rts 0 En En' deaq_rtok deaq_own deaq_syms deaq_tab deaq_htab deaq_ext_abb deaq_bra_abb (venv [a; b; c; i]) m deaq_d_abb deaq_c_abb (E + w));
    [|extv|exact deaq_bk_abb|cbn; lia|exact Hm|exact deaq_kd_abb|exact deaq_kc_abb].
  change (dn deaq_c_abb (venv [a; b; c; i])) with (deaq_abb Y a b c i).
  change (dn deaq_d_abb (venv [a; b; c; i])) with (dn f_en (venv [a; b; c; i]) * (deaq_abb Y a b c i) + ((dn (deaq_rt (s_deaq_abb 10 0 1 2 3)) (venv [a; b; c; i])) + ((- (deaq_ab Y a c * (dn (rt (r_ccsd_res_b 10 1 3)) (venv [a; b; c; i])))) + (deaq_ab Y a b * (dn (rt (r_ccsd_res_b 10 2 3)) (venv [a; b; c; i])))))).
  rewrite sector_en, Q0_, Q1_, Q2_. ring.
Qed.
Lemma deaq_comp_abaa w a b c e i j : (a < nua d)%nat -> (b < nub d)%nat -> (c < nua d)%nat -> (e < nua d)%nat -> (i < noa d)%nat -> (j < noa d)%nat ->
  str [(true, oa i); (true, oa j); (false, va d e); (false, va d c); (false, vb d b); (false, va d a)] (deaq_defect w) ref = ((((x_aa T c e i j * (deaq_ab Z a b - w * deaq_ab Y a b)) + (- (x_aa T a e i j * (deaq_ab Z c b - w * deaq_ab Y c b)))) + (x_aa T a c i j * (deaq_ab Z e b - w * deaq_ab Y e b))) + (deaq_abaa Z a b c e i j - w * deaq_abaa Y a b c e i j)) + (((((((((deaq_ab Y e b * x_aa X a c i j) + (- (deaq_ab Y c b * x_aa X a e i j))) + (deaq_ab Y a b * x_aa X c e i j)) + (deaq_aba Y c b e i * x_a X a j)) + (- (deaq_aba Y a b e i * x_a X c j))) + (deaq_aba Y a b c i * x_a X e j)) + (- (deaq_aba Y c b e j * x_a X a i))) + (deaq_aba Y a b e j * x_a X c i)) + (- (deaq_aba Y a b c j * x_a X e i))).
Proof.
  intros Ha Hb Hc He Hi Hj.
  assert (Q0_ : dn (deaq_rt (s_deaq_ab 10 0 1)) (venv [a; b; c; e; i; j]) = deaq_ab Z a b) by (rewrite deaq_rt_ok; reflexivity).
  assert (Q1_ : dn (deaq_rt (s_deaq_ab 10 2 1)) (venv [a; b; c; e; i; j]) = deaq_ab Z c b) by (rewrite deaq_rt_ok; reflexivity).
  assert (Q2_ : dn (deaq_rt (s_deaq_ab 10 3 1)) (venv [a; b; c; e; i; j]) = deaq_ab Z e b) by (rewrite deaq_rt_ok; reflexivity).
  assert (Q3_ : dn (deaq_rt (s_deaq_abaa 10 0 1 2 3 4 5)) (venv [a; b; c; e; i; j]) = deaq_abaa Z a b c e i j) by (rewrite deaq_rt_ok; reflexivity).
  assert (Q4_ : dn (rt (r_resid_aa 10 0 2 4 5)) (venv [a; b; c; e; i; j]) = x_aa X a c i j) by (rewrite sector_rt by (vm_compute; reflexivity); reflexivity).
  assert (Q5_ : dn (rt (r_resid_aa 10 0 3 4 5)) (venv [a; b; c; e; i; j]) = x_aa X a e i j) by (rewrite sector_rt by (vm_compute; reflexivity); reflexivity).
  assert (Q6_ : dn (rt (r_resid_aa 10 2 3 4 5)) (venv [a; b; c; e; i; j]) = x_aa X c e i j) by (rewrite sector_rt by (vm_compute; reflexivity); reflexivity).
  assert (Q7_ : dn (rt (r_ccsd_res_a 10 0 5)) (venv [a; b; c; e; i; j]) = x_a X a j) by (rewrite sector_rt by (vm_compute; reflexivity); reflexivity).
  assert (Q8_ : dn (rt (r_ccsd_res_a 10 2 5)) (venv [a; b; c; e; i; j]) = x_a X c j) by (rewrite sector_rt by (vm_compute; reflexivity); reflexivity).
  assert (Q9_ : dn (rt (r_ccsd_res_a 10 3 5)) (venv [a; b; c; e; i; j]) = x_a X e j) by (rewrite sector_rt by (vm_compute; reflexivity); reflexivity).
  assert (Q10_ : dn (rt (r_ccsd_res_a 10 0 4)) (venv [a; b; c; e; i; j]) = x_a X a i) by (rewrite sector_rt by (vm_compute; reflexivity); reflexivity).
  assert (Q11_ : dn (rt (r_ccsd_res_a 10 2 4)) (venv [a; b; c; e; i; j]) = x_a X c i) by (rewrite sector_rt by (vm_compute; reflexivity); reflexivity).
  assert (Q12_ : dn (rt (r_ccsd_res_a 10 3 4)) (venv [a; b; c; e; i; j]) = x_a X e i) by (rewrite sector_rt by (vm_compute; reflexivity); reflexivity).
  change (opsem (noa d) (nob d) deaq_bra_abaa (venv [a; b; c; e; i; j]) (deaq_defect w) ref = ((((x_aa T c e i j * (deaq_ab Z a b - w * deaq_ab Y a b)) + (- (x_aa T a e i j * (deaq_ab Z c b - w * deaq_ab Y c b)))) + (x_aa T a c i j * (deaq_ab Z e b - w * deaq_ab Y e b))) + (deaq_abaa Z a b c e i j - w * deaq_abaa Y a b c e i j)) + (((((((((deaq_ab Y e b * x_aa X a c i j) + (- (deaq_ab Y c b * x_aa X a e i j))) + (deaq_ab Y a b * x_aa X c e i j)) + (deaq_aba Y c b e i * x_a X a j)) + (- (deaq_aba Y a b e i * x_a X c j))) + (deaq_aba Y a b c i * x_a X e j)) + (- (deaq_aba Y c b e j * x_a X a i))) + (deaq_aba Y a b e j * x_a X c i)) + (- (deaq_aba Y a b c j * x_a X e i)))). unfold deaq_defect. rewrite <- (deaq_op_ok (venv [a; b; c; e; i; j])).
  rewrite (defect2_ok d I T0 n Rs deaq_rts 0 En En' deaq_rtok deaq_own deaq_syms deaq_tab deaq_htab deaq_ext_abaa deaq_bra_abaa (venv [a; b; c; e; i; j]) m deaq_d_abaa deaq_c_abaa (E + w));
    [|extv|exact deaq_bk_abaa|cbn; lia|exact Hm|exact deaq_kd_abaa|exact deaq_kc_abaa].
  change (dn deaq_c_abaa (venv [a; b; c; e; i; j])) with (((((x_aa T c e i j * deaq_ab Y a b) + (- (x_aa T a e i j * deaq_ab Y c b))) + (x_aa T a c i j * deaq_ab Y e b)) + deaq_abaa Y a b c e i j)).
  change (dn deaq_d_abaa (venv [a; b; c; e; i; j])) with (dn f_en (venv [a; b; c; e; i; j]) * (((((x_aa T c e i j * deaq_ab Y a b) + (- (x_aa T a e i j * deaq_ab Y c b))) + (x_aa T a c i j * deaq_ab Y e b)) + deaq_abaa Y a b c e i j)) + (((((x_aa T c e i j * (dn (deaq_rt (s_deaq_ab 10 0 1)) (venv [a; b; c; e; i; j]))) + (- (x_aa T a e i j * (dn (deaq_rt (s_deaq_ab 10 2 1)) (venv [a; b; c; e; i; j]))))) + (x_aa T a c i j * (dn (deaq_rt (s_deaq_ab 10 3 1)) (venv [a; b; c; e; i; j])))) + (dn (deaq_rt (s_deaq_abaa 10 0 1 2 3 4 5)) (venv [a; b; c; e; i; j]))) + (((((((((deaq_ab Y e b * (dn (rt (r_resid_aa 10 0 2 4 5)) (venv [a; b; c; e; i; j]))) + (- (deaq_ab Y c b * (dn (rt (r_resid_aa 10 0 3 4 5)) (venv [a; b; c; e; i; j]))))) + (deaq_ab Y a b * (dn (rt (r_resid_aa 10 2 3 4 5)) (venv [a; b; c; e; i; j])))) + (deaq_aba Y c b e i * (dn (rt (r_ccsd_res_a 10 0 5)) (venv [a; b; c; e; i; j])))) + (- (deaq_aba Y a b e i * (dn (rt (r_ccsd_res_a 10 2 5)) (venv [a; b; c; e; i; j]))))) + (deaq_aba Y a b c i * (dn (rt (r_ccsd_res_a 10 3 5)) (venv [a; b; c; e; i; j])))) + (- (deaq_aba Y c b e j * (dn (rt (r_ccsd_res_a 10 0 4)) (venv [a; b; c; e; i; j]))))) + (deaq_aba Y a b e j * (dn (rt (r_ccsd_res_a 10 2 4)) (venv [a; b; c; e; i; j])))) + (- (deaq_aba Y a b c j * (dn (rt (r_ccsd_res_a 10 3 4)) (venv [a; b; c; e; i; j]))))))).
  rewrite sector_en, Q0_, Q1_, Q2_, Q3_, Q4_, Q5_, Q6_, Q7_, Q8_, Q9_, Q10_, Q11_, Q12_. ring.
Qed.
Lemma deaq_comp_abab w a b c e i j : (a < nua d)%nat -> (b < nub d)%nat -> (c < nua d)%nat -> (e < nub d)%nat -> (i < noa d)%nat -> (j < nob d)%nat ->
  str [(true, oa i); (true, ob j); (false, vb d e); (false, va d c); (false, vb d b); (false, va d a)] (deaq_defect w) ref = (((((x_ab T c e i j * (deaq_ab Z a b - w * deaq_ab Y a b)) + (- (x_ab T a e i j * (deaq_ab Z c b - w * deaq_ab Y c b)))) + (- (x_ab T c b i j * (deaq_ab Z a e - w * deaq_ab Y a e)))) + (x_ab T a b i j * (deaq_ab Z c e - w * deaq_ab Y c e))) + (deaq_abab Z a b c e i j - w * deaq_abab Y a b c e i j)) + ((((((((deaq_ab Y c e * x_ab X a b i j) + (- (deaq_ab Y a e * x_ab X c b i j))) + (- (deaq_ab Y c b * x_ab X a e i j))) + (deaq_ab Y a b * x_ab X c e i j)) + (- (deaq_aba Y a e c i * x_b X b j))) + (deaq_aba Y a b c i * x_b X e j)) + (- (deaq_abb Y c b e j * x_a X a i))) + (deaq_abb Y a b e j * x_a X c i)).
Proof.
  intros Ha Hb Hc He Hi Hj.
  assert (Q0_ : dn (deaq_rt (s_deaq_ab 10 0 1)) (venv [a; b; c; e; i; j]) = deaq_ab Z a b) by (rewrite deaq_rt_ok; reflexivity).
  assert (Q1_ : dn (deaq_rt (s_deaq_ab 10 2 1)) (venv [a; b; c; e; i; j]) = deaq_ab Z c b) by (rewrite deaq_rt_ok; reflexivity).
  assert (Q2_ : dn (deaq_rt (s_deaq_ab 10 0 3)) (venv [a; b; c; e; i; j]) = deaq_ab Z a e) by (rewrite deaq_rt_ok; reflexivity).
  assert (Q3_ : dn (deaq_rt (s_deaq_ab 10 2 3)) (venv [a; b; c; e; i; j]) = deaq_ab Z c e) by (rewrite deaq_rt_ok; reflexivity).
  assert (Q4_ : dn (deaq_rt (s_deaq_abab 10 0 1 2 3 4 5)) (venv [a; b; c; e; i; j]) = deaq_abab Z a b c e i j) by (rewrite deaq_rt_ok; reflexivity).
  assert (Q5_ : dn (rt (r_ccsd_res_ab 10 0 1 4 5)) (venv [a; b; c; e; i; j]) = x_ab X a b i j) by (rewrite sector_rt by (vm_compute; reflexivity); reflexivity).
  assert (Q6_ : dn (rt (r_ccsd_res_ab 10 2 1 4 5)) (venv [a; b; c; e; i; j]) = x_ab X c b i j) by (rewrite sector_rt by (vm_compute; reflexivity); reflexivity).
  assert (Q7_ : dn (rt (r_ccsd_res_ab 10 0 3 4 5)) (venv [a; b; c; e; i; j]) = x_ab X a e i j) by (rewrite sector_rt by (vm_compute; reflexivity); reflexivity).
  assert (Q8_ : dn (rt (r_ccsd_res_ab 10 2 3 4 5)) (venv [a; b; c; e; i; j]) = x_ab X c e i j) by (rewrite sector_rt by (vm_compute; reflexivity); reflexivity).
  assert (Q9_ : dn (rt (r_ccsd_res_b 10 1 5)) (venv [a; b; c; e; i; j]) = x_b X b j) by (rewrite sector_rt by (vm_compute; reflexivity); reflexivity).
  assert (Q10_ : dn (rt (r_ccsd_res_b 10 3 5)) (venv [a; b; c; e; i; j]) = x_b X e j) by (rewrite sector_rt by (vm_compute; reflexivity); reflexivity).
  assert (Q11_ : dn (rt (r_ccsd_res_a 10 0 4)) (venv [a; b; c; e; i; j]) = x_a X a i) by (rewrite sector_rt by (vm_compute; reflexivity); reflexivity).
  assert (Q12_ : dn (rt (r_ccsd_res_a 10 2 4)) (venv [a; b; c; e; i; j]) = x_a X c i) by (rewrite sector_rt by (vm_compute; reflexivity); reflexivity).
  change (opsem (noa d) (nob d) deaq_bra_abab (venv [a; b; c; e; i; j]) (deaq_defect w) ref = (((((x_ab T c e i j * (deaq_ab Z a b - w * deaq_ab Y a b)) + (- (x_ab T a e i j * (deaq_ab Z c b - w * deaq_ab Y c b)))) + (- (x_ab T c b i j * (deaq_ab Z a e - w * deaq_ab Y a e)))) + (x_ab T a b i j * (deaq_ab Z c e - w * deaq_ab Y c e))) + (deaq_abab Z a b c e i j - w * deaq_abab Y a b c e i j)) + ((((((((deaq_ab Y c e * x_ab X a b i j) + (- (deaq_ab Y a e * x_ab X c b i j))) + (- (deaq_ab Y c b * x_ab X a e i j))) + (deaq_ab Y a b * x_ab X c e i j)) + (- (deaq_aba Y a e c i * x_b X b j))) + (deaq_aba Y a b c i * x_b X e j)) + (- (deaq_abb Y c b e j * x_a X a i))) + (deaq_abb Y a b e j * x_a X c i))). unfold deaq_defect. rewrite <- (deaq_op_ok (venv [a; b; c; e; i; j])).
  rewrite (defect2_ok d I T0 n Rs deaq_rts 0 En En' deaq_rtok deaq_own deaq_syms deaq_tab deaq_htab deaq_ext_abab deaq_bra_abab (venv [a; b; c; e; i; j]) m deaq_d_abab deaq_c_abab (E + w));
    [|extv|exact deaq_bk_abab|cbn; lia|exact Hm|exact deaq_kd_abab|exact deaq_kc_abab].
  change (dn deaq_c_abab (venv [a; b; c; e; i; j])) with ((((((x_ab T c e i j * deaq_ab Y a b) + (- (x_ab T a e i j * deaq_ab Y c b))) + (- (x_ab T c b i j * deaq_ab Y a e))) + (x_ab T a b i j * deaq_ab Y c e)) + deaq_abab Y a b c e i j)).
  change (dn deaq_d_abab (venv [a; b; c; e; i; j])) with (dn f_en (venv [a; b; c; e; i; j]) * ((((((x_ab T c e i j * deaq_ab Y a b) + (- (x_ab T a e i j * deaq_ab Y c b))) + (- (x_ab T c b i j * deaq_ab Y a e))) + (x_ab T a b i j * deaq_ab Y c e)) + deaq_abab Y a b c e i j)) + ((((((x_ab T c e i j * (dn (deaq_rt (s_deaq_ab 10 0 1)) (venv [a; b; c; e; i; j]))) + (- (x_ab T a e i j * (dn (deaq_rt (s_deaq_ab 10 2 1)) (venv [a; b; c; e; i; j]))))) + (- (x_ab T c b i j * (dn (deaq_rt (s_deaq_ab 10 0 3)) (venv [a; b; c; e; i; j]))))) + (x_ab T a b i j * (dn (deaq_rt (s_deaq_ab 10 2 3)) (venv [a; b; c; e; i; j])))) + (dn (deaq_rt (s_deaq_abab 10 0 1 2 3 4 5)) (venv [a; b; c; e; i; j]))) + ((((((((deaq_ab Y c e * (dn (rt (r_ccsd_res_ab 10 0 1 4 5)) (venv [a; b; c; e; i; j]))) + (- (deaq_ab Y a e * (dn (rt (r_ccsd_res_ab 10 2 1 4 5)) (venv [a; b; c; e; i; j]))))) + (- (deaq_ab Y c b * (dn (rt (r_ccsd_res_ab 10 0 3 4 5)) (venv [a; b; c; e; i; j]))))) + (deaq_ab Y a b * (dn (rt (r_ccsd_res_ab 10 2 3 4 5)) (venv [a; b; c; e; i; j])))) + (- (deaq_aba Y a e c i * (dn (rt (r_ccsd_res_b 10 1 5)) (venv [a; b; c; e; i; j]))))) + (deaq_aba Y a b c i * (dn (rt (r_ccsd_res_b 10 3 5)) (venv [a; b; c; e; i; j])))) + (- (deaq_abb Y c b e j * (dn (rt (r_ccsd_res_a 10 0 4)) (venv [a; b; c; e; i; j]))))) + (deaq_abb Y a b e j * (dn (rt (r_ccsd_res_a 10 2 4)) (venv [a; b; c; e; i; j])))))).
  rewrite sector_en, Q0_, Q1_, Q2_, Q3_, Q4_, Q5_, Q6_, Q7_, Q8_, Q9_, Q10_, Q11_, Q12_. ring.
Qed.
Lemma deaq_comp_abbb w a b c e i j : (a < nua d)%nat -> (b < nub d)%nat -> (c < nub d)%nat -> (e < nub d)%nat -> (i < nob d)%nat -> (j < nob d)%nat ->
  str [(true, ob i); (true, ob j); (false, vb d e); (false, vb d c); (false, vb d b); (false, va d a)] (deaq_defect w) ref = ((((x_bb T c e i j * (deaq_ab Z a b - w * deaq_ab Y a b)) + (- (x_bb T b e i j * (deaq_ab Z a c - w * deaq_ab Y a c)))) + (x_bb T b c i j * (deaq_ab Z a e - w * deaq_ab Y a e))) + (deaq_abbb Z a b c e i j - w * deaq_abbb Y a b c e i j)) + (((((((((deaq_ab Y a e * x_bb X b c i j) + (- (deaq_ab Y a c * x_bb X b e i j))) + (deaq_ab Y a b * x_bb X c e i j)) + (deaq_abb Y a c e i * x_b X b j)) + (- (deaq_abb Y a b e i * x_b X c j))) + (deaq_abb Y a b c i * x_b X e j)) + (- (deaq_abb Y a c e j * x_b X b i))) + (deaq_abb Y a b e j * x_b X c i)) + (- (deaq_abb Y a b c j * x_b X e i))).
Proof.
  intros Ha Hb Hc He Hi Hj.
  assert (Q0_ : dn (deaq_rt (s_deaq_ab 10 0 1)) (venv [a; b; c; e; i; j]) = deaq_ab Z a b) by (rewrite deaq_rt_ok; reflexivity).
  assert (Q1_ : dn (deaq_rt (s_deaq_ab 10 0 2)) (venv [a; b; c; e; i; j]) = deaq_ab Z a c) by (rewrite deaq_rt_ok; reflexivity).
  assert (Q2_ : dn (deaq_rt (s_deaq_ab 10 0 3)) (venv [a; b; c; e; i; j]) = deaq_ab Z a e) by (rewrite deaq_rt_ok; reflexivity).
  assert (Q3_ : dn (deaq_rt (s_deaq_abbb 10 0 1 2 3 4 5)) (venv [a; b; c; e; i; j]) = deaq_abbb Z a b c e i j) by (rewrite deaq_rt_ok; reflexivity).
  assert (Q4_ : dn (rt (r_resid_bb 10 1 2 4 5)) (venv [a; b; c; e; i; j]) = x_bb X b c i j) by (rewrite sector_rt by (vm_compute; reflexivity); reflexivity).
  assert (Q5_ : dn (rt (r_resid_bb 10 1 3 4 5)) (venv [a; b; c; e; i; j]) = x_bb X b e i j) by (rewrite sector_rt by (vm_compute; reflexivity); reflexivity).
  assert (Q6_ : dn (rt (r_resid_bb 10 2 3 4 5)) (venv [a; b; c; e; i; j]) = x_bb X c e i j) by (rewrite sector_rt by (vm_compute; reflexivity); reflexivity).
  assert (Q7_ : dn (rt (r_ccsd_res_b 10 1 5)) (venv [a; b; c; e; i; j]) = x_b X b j) by (rewrite sector_rt by (vm_compute; reflexivity); reflexivity).
  assert (Q8_ : dn (rt (r_ccsd_res_b 10 2 5)) (venv [a; b; c; e; i; j]) = x_b X c j) by (rewrite sector_rt by (vm_compute; reflexivity); reflexivity).
  assert (Q9_ : dn (rt (r_ccsd_res_b 10 3 5)) (venv [a; b; c; e; i; j]) = x_b X e j) by (rewrite sector_rt by (vm_compute; reflexivity); reflexivity).
  assert (Q10_ : dn (rt (r_ccsd_res_b 10 1 4)) (venv [a; b; c; e; i; j]) = x_b X b i) by (rewrite sector_rt by (vm_compute; reflexivity); reflexivity).
  assert (Q11_ : dn (rt (r_ccsd_res_b 10 2 4)) (venv [a; b; c; e; i; j]) = x_b X c i) by (rewrite sector_rt by (vm_compute; reflexivity); reflexivity).
  assert (Q12_ : dn (rt (r_ccsd_res_b 10 3 4)) (venv [a; b; c; e; i; j]) = x_b X e i) by (rewrite sector_rt by (vm_compute; reflexivity); reflexivity).
  change (opsem (noa d) (nob d) deaq_bra_abbb (venv [a; b; c; e; i; j]) (deaq_defect w) ref = ((((x_bb T c e i j * (deaq_ab Z a b - w * deaq_ab Y a b)) + (- (x_bb T b e i j * (deaq_ab Z a c - w * deaq_ab Y a c)))) + (x_bb T b c i j * (deaq_ab Z a e - w * deaq_ab Y a e))) + (deaq_abbb Z a b c e i j - w * deaq_abbb Y a b c e i j)) + (((((((((deaq_ab Y a e * x_bb X b c i j) + (- (deaq_ab Y a c * x_bb X b e i j))) + (deaq_ab Y a b * x_bb X c e i j)) + (deaq_abb Y a c e i * x_b X b j)) + (- (deaq_abb Y a b e i * x_b X c j))) + (deaq_abb Y a b c i * x_b X e j)) + (- (deaq_abb Y a c e j * x_b X b i))) + (deaq_abb Y a b e j * x_b X c i)) + (- (deaq_abb Y a b c j * x_b X e i)))). unfold deaq_defect. rewrite <- (deaq_op_ok (venv [a; b; c; e; i; j])).
  rewrite (defect2_ok d I T0 n Rs deaq_rts 0 En En' deaq_rtok deaq_own deaq_syms deaq_tab deaq_htab deaq_ext_abbb deaq_bra_abbb (venv [a; b; c; e; i; j]) m deaq_d_abbb deaq_c_abbb (E + w));
    [|extv|exact deaq_bk_abbb|cbn; lia|exact Hm|exact deaq_kd_abbb|exact deaq_kc_abbb].
  change (dn deaq_c_abbb (venv [a; b; c; e; i; j])) with (((((x_bb T c e i j * deaq_ab Y a b) + (- (x_bb T b e i j * deaq_ab Y a c))) + (x_bb T b c i j * deaq_ab Y a e)) + deaq_abbb Y a b c e i j)).
  change (dn deaq_d_abbb (venv [a; b; c; e; i; j])) with (dn f_en (venv [a; b; c; e; i; j]) * (((((x_bb T c e i j * deaq_ab Y a b) + (- (x_bb T b e i j * deaq_ab Y a c))) + (x_bb T b c i j * deaq_ab Y a e)) + deaq_abbb Y a b c e i j)) + (((((x_bb T c e i j * (dn (deaq_rt (s_deaq_ab 10 0 1)) (venv [a; b; c; e; i; j]))) + (- (x_bb T b e i j * (dn (deaq_rt (s_deaq_ab 10 0 2)) (venv [a; b; c; e; i; j]))))) + (x_bb T b c i j * (dn (deaq_rt (s_deaq_ab 10 0 3)) (venv [a; b; c; e; i; j])))) + (dn (deaq_rt (s_deaq_abbb 10 0 1 2 3 4 5)) (venv [a; b; c; e; i; j]))) + (((((((((deaq_ab Y a e * (dn (rt (r_resid_bb 10 1 2 4 5)) (venv [a; b; c; e; i; j]))) + (- (deaq_ab Y a c * (dn (rt (r_resid_bb 10 1 3 4 5)) (venv [a; b; c; e; i; j]))))) + (deaq_ab Y a b * (dn (rt (r_resid_bb 10 2 3 4 5)) (venv [a; b; c; e; i; j])))) + (deaq_abb Y a c e i * (dn (rt (r_ccsd_res_b 10 1 5)) (venv [a; b; c; e; i; j])))) + (- (deaq_abb Y a b e i * (dn (rt (r_ccsd_res_b 10 2 5)) (venv [a; b; c; e; i; j]))))) + (deaq_abb Y a b c i * (dn (rt (r_ccsd_res_b 10 3 5)) (venv [a; b; c; e; i; j])))) + (- (deaq_abb Y a c e j * (dn (rt (r_ccsd_res_b 10 1 4)) (venv [a; b; c; e; i; j]))))) + (deaq_abb Y a b e j * (dn (rt (r_ccsd_res_b 10 2 4)) (venv [a; b; c; e; i; j])))) + (- (deaq_abb Y a b c j * (dn (rt (r_ccsd_res_b 10 3 4)) (venv [a; b; c; e; i; j]))))))).
  rewrite sector_en, Q0_, Q1_, Q2_, Q3_, Q4_, Q5_, Q6_, Q7_, Q8_, Q9_, Q10_, Q11_, Q12_. ring.
Qed.
Lemma deaq_solves w : same_amps d X zero_amps -> (solves_on (deaq_space d n) n I (E + w) (deaq_op d Y psi) <-> deaq_root d Z Y w).
Proof.
  intros [Za Zb Zaa Zab Zbb]. cbn [zero_amps x_a x_b x_aa x_ab x_bb] in Za, Zb, Zaa, Zab, Zbb.
  assert (F := deaq_flat d n (deaq_defect w) En En').
  transitivity (forall D, deaq_space d n D -> deaq_defect w D = 0); [unfold solves_on, deaq_defect; split; intros G D HD; specialize (G D HD); [rewrite G; ring|lra]|]. rewrite F. clear F. unfold deaq_root. split.
  - intros (F0 & F1 & F2 & F3 & F4 & F5).
    assert (L0 : forall a b, (a < nua d)%nat -> (b < nub d)%nat -> deaq_ab Z a b - w * deaq_ab Y a b = 0).
    { intros a b Ha Hb. specialize (F0 a b Ha Hb). rewrite deaq_comp_ab in F0 by assumption. rewrite <- F0. ring. }
    assert (L1 : forall a b c i, (a < nua d)%nat -> (b < nub d)%nat -> (c < nua d)%nat -> (i < noa d)%nat -> deaq_aba Z a b c i - w * deaq_aba Y a b c i = 0).
    { intros a b c i Ha Hb Hc Hi. specialize (F1 a b c i Ha Hb Hc Hi). rewrite deaq_comp_aba, !Za in F1 by assumption. rewrite <- F1. ring. }
    assert (L2 : forall a b c i, (a < nua d)%nat -> (b < nub d)%nat -> (c < nub d)%nat -> (i < nob d)%nat -> deaq_abb Z a b c i - w * deaq_abb Y a b c i = 0).
    { intros a b c i Ha Hb Hc Hi. specialize (F2 a b c i Ha Hb Hc Hi). rewrite deaq_comp_abb, !Zb in F2 by assumption. rewrite <- F2. ring. }
    assert (L3 : forall a b c e i j, (a < nua d)%nat -> (b < nub d)%nat -> (c < nua d)%nat -> (e < nua d)%nat -> (i < noa d)%nat -> (j < noa d)%nat -> deaq_abaa Z a b c e i j - w * deaq_abaa Y a b c e i j = 0).
    { intros a b c e i j Ha Hb Hc He Hi Hj. specialize (F3 a b c e i j Ha Hb Hc He Hi Hj). rewrite deaq_comp_abaa, !Za, !Zaa, !L0 in F3 by assumption. rewrite <- F3. ring. }
    assert (L4 : forall a b c e i j, (a < nua d)%nat -> (b < nub d)%nat -> (c < nua d)%nat -> (e < nub d)%nat -> (i < noa d)%nat -> (j < nob d)%nat -> deaq_abab Z a b c e i j - w * deaq_abab Y a b c e i j = 0).
    { intros a b c e i j Ha Hb Hc He Hi Hj. specialize (F4 a b c e i j Ha Hb Hc He Hi Hj). rewrite deaq_comp_abab, !Za, !Zb, !Zab, !L0 in F4 by assumption. rewrite <- F4. ring. }
    assert (L5 : forall a b c e i j, (a < nua d)%nat -> (b < nub d)%nat -> (c < nub d)%nat -> (e < nub d)%nat -> (i < nob d)%nat -> (j < nob d)%nat -> deaq_abbb Z a b c e i j - w * deaq_abbb Y a b c e i j = 0).
    { intros a b c e i j Ha Hb Hc He Hi Hj. specialize (F5 a b c e i j Ha Hb Hc He Hi Hj). rewrite deaq_comp_abbb, !Zb, !Zbb, !L0 in F5 by assumption. rewrite <- F5. ring. }
    split; [|split; [|split; [|split; [|split; [|]]]]]; intros; apply Rminus_diag_uniq; auto.
  - intros (G0 & G1 & G2 & G3 & G4 & G5).
    assert (L0 : forall a b, (a < nua d)%nat -> (b < nub d)%nat -> deaq_ab Z a b - w * deaq_ab Y a b = 0) by (intros; rewrite G0 by assumption; ring).
    assert (L1 : forall a b c i, (a < nua d)%nat -> (b < nub d)%nat -> (c < nua d)%nat -> (i < noa d)%nat -> deaq_aba Z a b c i - w * deaq_aba Y a b c i = 0) by (intros; rewrite G1 by assumption; ring).
    assert (L2 : forall a b c i, (a < nua d)%nat -> (b < nub d)%nat -> (c < nub d)%nat -> (i < nob d)%nat -> deaq_abb Z a b c i - w * deaq_abb Y a b c i = 0) by (intros; rewrite G2 by assumption; ring).
    assert (L3 : forall a b c e i j, (a < nua d)%nat -> (b < nub d)%nat -> (c < nua d)%nat -> (e < nua d)%nat -> (i < noa d)%nat -> (j < noa d)%nat -> deaq_abaa Z a b c e i j - w * deaq_abaa Y a b c e i j = 0) by (intros; rewrite G3 by assumption; ring).
    assert (L4 : forall a b c e i j, (a < nua d)%nat -> (b < nub d)%nat -> (c < nua d)%nat -> (e < nub d)%nat -> (i < noa d)%nat -> (j < nob d)%nat -> deaq_abab Z a b c e i j - w * deaq_abab Y a b c e i j = 0) by (intros; rewrite G4 by assumption; ring).
    assert (L5 : forall a b c e i j, (a < nua d)%nat -> (b < nub d)%nat -> (c < nub d)%nat -> (e < nub d)%nat -> (i < nob d)%nat -> (j < nob d)%nat -> deaq_abbb Z a b c e i j - w * deaq_abbb Y a b c e i j = 0) by (intros; rewrite G5 by assumption; ring).
    split; [|split; [|split; [|split; [|split; [|]]]]].
    + intros a b Ha Hb. rewrite deaq_comp_ab, !L0 by assumption. ring.
    + intros a b c i Ha Hb Hc Hi. rewrite deaq_comp_aba, !Za, !L1 by assumption. ring.
    + intros a b c i Ha Hb Hc Hi. rewrite deaq_comp_abb, !Zb, !L2 by assumption. ring.
    + intros a b c e i j Ha Hb Hc He Hi Hj. rewrite deaq_comp_abaa, !Za, !Zaa, !L0, !L3 by assumption. ring.
    + intros a b c e i j Ha Hb Hc He Hi Hj. rewrite deaq_comp_abab, !Za, !Zb, !Zab, !L0, !L4 by assumption. ring.
    + intros a b c e i j Ha Hb Hc He Hi Hj. rewrite deaq_comp_abbb, !Zb, !Zbb, !L0, !L5 by assumption. ring.
Qed.
End P.
