(** Generated by tools/gen_sfx.py: components of (H - E - w) R exp(T2) |ref> for the spin-flip (2,3) operator (proof support). *)
From Coq Require Import Reals Arith NArith List Bool Lia Lra QArith Qreals ZArith FunctionalExtensionality.
From Verif Require Import RSum IntegralsModel TensorObjs TensorAlg TensorSpec CcsdModel CcsdUpdate CcsdReify CcsdProps FockSpec FockCar FockWick FockArrays FockCcSpec FockTerms FockHam FockExp FockLevel FockCheck FockState FockNear FockProj FockSector FockSectorTools
  FockFast FockSectorSpec FockFlip RankSpec FockShift FockSector3 FockTools3 Sector3Model Sector3Spec FockSpaces3 SpinFlip3Fixed SectorSfxReify.
Import ListNotations.
Local Open Scope nat_scope.
Definition sft_rts : list term := [mkTerm (1 # 1) [(40, 3); (41, 0)] [(66, [40; 41])] [C 3 40; A 0 41]; mkTerm (1 # 2) [(40, 1); (41, 3); (42, 0); (43, 0)] [(67, [40; 41; 42; 43])] [C 1 40; C 3 41; A 0 43; A 0 42]; mkTerm (1 # 2) [(40, 3); (41, 3); (42, 2); (43, 0)] [(68, [40; 41; 42; 43])] [C 3 40; C 3 41; A 0 43; A 2 42]; mkTerm (1 # 12) [(40, 1); (41, 1); (42, 3); (43, 0); (44, 0); (45, 0)] [(69, [40; 41; 42; 43; 44; 45])] [C 1 40; C 1 41; C 3 42; A 0 45; A 0 44; A 0 43]; mkTerm (1 # 4) [(40, 1); (41, 3); (42, 3); (43, 0); (44, 2); (45, 0)] [(70, [40; 41; 42; 43; 44; 45])] [C 1 40; C 3 41; C 3 42; A 0 45; A 2 44; A 0 43]; mkTerm (1 # 12) [(40, 3); (41, 3); (42, 3); (43, 2); (44, 2); (45, 0)] [(71, [40; 41; 42; 43; 44; 45])] [C 3 40; C 3 41; C 3 42; A 0 45; A 2 44; A 2 43]].
Definition sft_own : list (nat * (nat * list nat * bool)) := [(67, (67, [0; 1; 3; 2], false)); (68, (68, [1; 0; 2; 3], false)); (69, (69, [0; 1; 2; 4; 3; 5], false)); (69, (69, [0; 1; 2; 3; 5; 4], false)); (69, (69, [1; 0; 2; 3; 4; 5], false)); (70, (70, [0; 1; 2; 5; 4; 3], false)); (70, (70, [0; 2; 1; 3; 4; 5], false)); (71, (71, [0; 1; 2; 4; 3; 5], false)); (71, (71, [1; 0; 2; 3; 4; 5], false)); (71, (71, [0; 2; 1; 3; 4; 5], false))].
Definition sft_gens := fock_gens ++ sft_own.
Definition sft_tab := Eval vm_compute in symtab sft_gens 72.
Definition sft_rt e := retag (to_sector 6) e.
Lemma sft_htab : sft_tab = symtab sft_gens 72. Proof. vm_compute. reflexivity. Qed.
Lemma sft_rtok : rtok sft_rts 1 = true. Proof. vm_compute. reflexivity. Qed.
Definition sft_bra_b : list op := [C 0 1; A 3 0].
Definition sft_ext_b : list (nat * nat) := [(0, 3); (1, 0)].
Definition sft_c_b := (ET 66 [0; 1]).
Definition sft_d_b := EAdd (EMul f_en sft_c_b) (EAdd (sft_rt (s_sfx_b 10 0 1))
  (EC 0 1)).
Lemma sft_bk_b : braok sft_ext_b sft_bra_b = true. Proof. vm_compute. reflexivity. Qed.
Lemma sft_kc_b : fock_fast sft_tab sft_ext_b (eek2 sft_bra_b sft_rts) sft_c_b = true. Proof. vm_compute. reflexivity. Qed.
Lemma sft_kd_b : fock_fast sft_tab sft_ext_b (hek2 sft_bra_b sft_rts) (kill sft_d_b) = true. Proof. vm_compute. reflexivity. Qed.
Definition sft_bra_ab : list op := [C 0 2; C 0 3; A 3 1; A 1 0].
Definition sft_ext_ab : list (nat * nat) := [(0, 1); (1, 3); (2, 0); (3, 0)].
Definition sft_c_ab := (ET 67 [0; 1; 2; 3]).
Definition sft_d_ab := EAdd (EMul f_en sft_c_ab) (EAdd (sft_rt (s_sfx_ab 10 0 1 2 3))
  (EAdd (EOpp (EMul (ET 66 [1; 2]) (rt (r_ccsd_res_a 10 0 3))))
   (EMul (ET 66 [1; 3]) (rt (r_ccsd_res_a 10 0 2))))).
Lemma sft_bk_ab : braok sft_ext_ab sft_bra_ab = true. Proof. vm_compute. reflexivity. Qed.
Lemma sft_kc_ab : fock_fast sft_tab sft_ext_ab (eek2 sft_bra_ab sft_rts) sft_c_ab = true. Proof. vm_compute. reflexivity. Qed.
Lemma sft_kd_ab : fock_fast sft_tab sft_ext_ab (hek2 sft_bra_ab sft_rts) (kill sft_d_ab) = true. Proof. vm_compute. reflexivity. Qed.
Definition sft_bra_bb : list op := [C 2 2; C 0 3; A 3 1; A 3 0].
Definition sft_ext_bb : list (nat * nat) := [(0, 3); (1, 3); (2, 2); (3, 0)].
Definition sft_c_bb := (ET 68 [0; 1; 2; 3]).
Definition sft_d_bb := EAdd (EMul f_en sft_c_bb) (EAdd (sft_rt (s_sfx_bb 10 0 1 2 3))
  (EAdd (EMul (ET 66 [1; 3]) (rt (r_ccsd_res_b 10 0 2)))
   (EOpp (EMul (ET 66 [0; 3]) (rt (r_ccsd_res_b 10 1 2)))))).
Lemma sft_bk_bb : braok sft_ext_bb sft_bra_bb = true. Proof. vm_compute. reflexivity. Qed.
Lemma sft_kc_bb : fock_fast sft_tab sft_ext_bb (eek2 sft_bra_bb sft_rts) sft_c_bb = true. Proof. vm_compute. reflexivity. Qed.
Lemma sft_kd_bb : fock_fast sft_tab sft_ext_bb (hek2 sft_bra_bb sft_rts) (kill sft_d_bb) = true. Proof. vm_compute. reflexivity. Qed.
Definition sft_bra_aab : list op := [C 0 3; C 0 4; C 0 5; A 3 2; A 1 1; A 1 0].
Definition sft_ext_aab : list (nat * nat) := [(0, 1); (1, 1); (2, 3); (3, 0); (4, 0); (5, 0)].
Definition sft_c_aab := (EAdd (EAdd (EAdd (EMul (ET 2 [0; 1; 3; 4]) (ET 66 [2; 5]))
   (EOpp (EMul (ET 2 [0; 1; 3; 5]) (ET 66 [2; 4]))))
   (EMul (ET 2 [0; 1; 4; 5]) (ET 66 [2; 3])))
   (ET 69 [0; 1; 2; 3; 4; 5])).
Definition sft_d_aab := EAdd (EMul f_en sft_c_aab) (EAdd (EAdd (EAdd (EAdd (EMul (ET 2 [0; 1; 3; 4]) (sft_rt (s_sfx_b 10 2 5)))
   (EOpp (EMul (ET 2 [0; 1; 3; 5]) (sft_rt (s_sfx_b 10 2 4)))))
   (EMul (ET 2 [0; 1; 4; 5]) (sft_rt (s_sfx_b 10 2 3))))
   (sft_rt (s_sfx_aab 10 0 1 2 3 4 5)))
  (EAdd (EAdd (EAdd (EAdd (EAdd (EAdd (EAdd (EAdd (EMul (ET 66 [2; 3]) (rt (r_resid_aa 10 0 1 4 5)))
   (EOpp (EMul (ET 66 [2; 4]) (rt (r_resid_aa 10 0 1 3 5)))))
   (EMul (ET 66 [2; 5]) (rt (r_resid_aa 10 0 1 3 4))))
   (EMul (ET 67 [1; 2; 3; 4]) (rt (r_ccsd_res_a 10 0 5))))
   (EOpp (EMul (ET 67 [0; 2; 3; 4]) (rt (r_ccsd_res_a 10 1 5)))))
   (EOpp (EMul (ET 67 [1; 2; 3; 5]) (rt (r_ccsd_res_a 10 0 4)))))
   (EMul (ET 67 [0; 2; 3; 5]) (rt (r_ccsd_res_a 10 1 4))))
   (EMul (ET 67 [1; 2; 4; 5]) (rt (r_ccsd_res_a 10 0 3))))
   (EOpp (EMul (ET 67 [0; 2; 4; 5]) (rt (r_ccsd_res_a 10 1 3)))))).
Lemma sft_bk_aab : braok sft_ext_aab sft_bra_aab = true. Proof. vm_compute. reflexivity. Qed.
Lemma sft_kc_aab : fock_fast sft_tab sft_ext_aab (eek2 sft_bra_aab sft_rts) sft_c_aab = true. Proof. vm_compute. reflexivity. Qed.
Lemma sft_kd_aab : fock_fast sft_tab sft_ext_aab (hek2 sft_bra_aab sft_rts) (kill sft_d_aab) = true. Proof. vm_compute. reflexivity. Qed.
Definition sft_bra_abb : list op := [C 0 3; C 2 4; C 0 5; A 3 2; A 3 1; A 1 0].
Definition sft_ext_abb : list (nat * nat) := [(0, 1); (1, 3); (2, 3); (3, 0); (4, 2); (5, 0)].
Definition sft_c_abb := (EAdd (EAdd (EAdd (EAdd (EOpp (EMul (ET 3 [0; 2; 3; 4]) (ET 66 [1; 5])))
   (EMul (ET 3 [0; 1; 3; 4]) (ET 66 [2; 5])))
   (EMul (ET 3 [0; 2; 5; 4]) (ET 66 [1; 3])))
   (EOpp (EMul (ET 3 [0; 1; 5; 4]) (ET 66 [2; 3]))))
   (ET 70 [0; 1; 2; 3; 4; 5])).
Definition sft_d_abb := EAdd (EMul f_en sft_c_abb) (EAdd (EAdd (EAdd (EAdd (EAdd (EOpp (EMul (ET 3 [0; 2; 3; 4]) (sft_rt (s_sfx_b 10 1 5))))
   (EMul (ET 3 [0; 1; 3; 4]) (sft_rt (s_sfx_b 10 2 5))))
   (EMul (ET 3 [0; 2; 5; 4]) (sft_rt (s_sfx_b 10 1 3))))
   (EOpp (EMul (ET 3 [0; 1; 5; 4]) (sft_rt (s_sfx_b 10 2 3)))))
   (sft_rt (s_sfx_abb 10 0 1 2 3 4 5)))
  (EAdd (EAdd (EAdd (EAdd (EAdd (EAdd (EAdd (EOpp (EMul (ET 66 [2; 3]) (rt (r_ccsd_res_ab 10 0 1 5 4))))
   (EMul (ET 66 [1; 3]) (rt (r_ccsd_res_ab 10 0 2 5 4))))
   (EMul (ET 66 [2; 5]) (rt (r_ccsd_res_ab 10 0 1 3 4))))
   (EOpp (EMul (ET 66 [1; 5]) (rt (r_ccsd_res_ab 10 0 2 3 4)))))
   (EMul (ET 67 [0; 2; 3; 5]) (rt (r_ccsd_res_b 10 1 4))))
   (EOpp (EMul (ET 67 [0; 1; 3; 5]) (rt (r_ccsd_res_b 10 2 4)))))
   (EOpp (EMul (ET 68 [1; 2; 4; 3]) (rt (r_ccsd_res_a 10 0 5)))))
   (EMul (ET 68 [1; 2; 4; 5]) (rt (r_ccsd_res_a 10 0 3))))).
Lemma sft_bk_abb : braok sft_ext_abb sft_bra_abb = true. Proof. vm_compute. reflexivity. Qed.
Lemma sft_kc_abb : fock_fast sft_tab sft_ext_abb (eek2 sft_bra_abb sft_rts) sft_c_abb = true. Proof. vm_compute. reflexivity. Qed.
Lemma sft_kd_abb : fock_fast sft_tab sft_ext_abb (hek2 sft_bra_abb sft_rts) (kill sft_d_abb) = true. Proof. vm_compute. reflexivity. Qed.
Definition sft_bra_bbb : list op := [C 2 3; C 2 4; C 0 5; A 3 2; A 3 1; A 3 0].
Definition sft_ext_bbb : list (nat * nat) := [(0, 3); (1, 3); (2, 3); (3, 2); (4, 2); (5, 0)].
Definition sft_c_bbb := (EAdd (EAdd (EAdd (EMul (ET 4 [1; 2; 3; 4]) (ET 66 [0; 5]))
   (EOpp (EMul (ET 4 [0; 2; 3; 4]) (ET 66 [1; 5]))))
   (EMul (ET 4 [0; 1; 3; 4]) (ET 66 [2; 5])))
   (ET 71 [0; 1; 2; 3; 4; 5])).
Definition sft_d_bbb := EAdd (EMul f_en sft_c_bbb) (EAdd (EAdd (EAdd (EAdd (EMul (ET 4 [1; 2; 3; 4]) (sft_rt (s_sfx_b 10 0 5)))
   (EOpp (EMul (ET 4 [0; 2; 3; 4]) (sft_rt (s_sfx_b 10 1 5)))))
   (EMul (ET 4 [0; 1; 3; 4]) (sft_rt (s_sfx_b 10 2 5))))
   (sft_rt (s_sfx_bbb 10 0 1 2 3 4 5)))
  (EAdd (EAdd (EAdd (EAdd (EAdd (EAdd (EAdd (EAdd (EMul (ET 66 [2; 5]) (rt (r_resid_bb 10 0 1 3 4)))
   (EOpp (EMul (ET 66 [1; 5]) (rt (r_resid_bb 10 0 2 3 4)))))
   (EMul (ET 66 [0; 5]) (rt (r_resid_bb 10 1 2 3 4))))
   (EOpp (EMul (ET 68 [1; 2; 3; 5]) (rt (r_ccsd_res_b 10 0 4)))))
   (EMul (ET 68 [0; 2; 3; 5]) (rt (r_ccsd_res_b 10 1 4))))
   (EOpp (EMul (ET 68 [0; 1; 3; 5]) (rt (r_ccsd_res_b 10 2 4)))))
   (EMul (ET 68 [1; 2; 4; 5]) (rt (r_ccsd_res_b 10 0 3))))
   (EOpp (EMul (ET 68 [0; 2; 4; 5]) (rt (r_ccsd_res_b 10 1 3)))))
   (EMul (ET 68 [0; 1; 4; 5]) (rt (r_ccsd_res_b 10 2 3))))).
Lemma sft_bk_bbb : braok sft_ext_bbb sft_bra_bbb = true. Proof. vm_compute. reflexivity. Qed.
Lemma sft_kc_bbb : fock_fast sft_tab sft_ext_bbb (eek2 sft_bra_bbb sft_rts) sft_c_bbb = true. Proof. vm_compute. reflexivity. Qed.
Lemma sft_kd_bbb : fock_fast sft_tab sft_ext_bbb (hek2 sft_bra_bbb sft_rts) (kill sft_d_bbb) = true. Proof. vm_compute. reflexivity. Qed.
Local Open Scope R_scope.
Section P.
Variables (d : dims) (I : integrals) (T0 : amps) (Y : sftv) (n m : nat).
Hypothesis En : (noa d + nua d = n)%nat.
Hypothesis En' : (nob d + nub d = n)%nat.
Hypothesis HI : exchangeable I.
Hypothesis HT : antisym_amps T0.
Hypothesis HY : sft_anti Y.
Hypothesis Hm : (2 <= m)%nat.
Notation T := (bare T0).
Notation H := (fock_ints (noa d) (nob d) I).
Notation ref := (reference (noa d) (nob d)).
Notation psi := (expo (cluster_sd d T) m (pure ref)).
Notation E := (scf_energy (noa d) (nob d) I + cc_energy d H T).
Notation Rs := [ap2 (sft_b Y); ap4 (sft_ab Y); ap4 (sft_bb Y); ap6 (sft_aab Y); ap6 (sft_abb Y); ap6 (sft_bbb Y)].
Notation ten := (tenv (fock_arrays H T ++ Rs)).
Notation dn e v := (den (fdim d) ten e v).
Notation X := (ccsd_resid d H T).
Notation Z := (sfx_HR d (hbar_ccsd d H T) T Y).
Definition sft_defect (w : R) : state := fun D => hamiltonian n I (sft_op d Y psi) D - (E + w) * sft_op d Y psi D.
Lemma sft_op_ok v phi : psem (noa d) (nob d) (fdim d) ten sft_rts v phi = sft_op d Y phi.
Proof. opok sft_rts sft_op. Qed.
Lemma sft_syms : Forall (fun g => okalt ten (fst g) (snd g)) sft_gens.
Proof.
  apply sector_syms; [exact (fock_ints_antisym _ _ _ HI)|exact (bare_anti _ HT)|]. destruct HY as (A0 & A1 & A2 & A3 & A4 & A5 & A6 & A7 & A8 & A9).
  apply Forall_cons; [okswap6 A0|]. apply Forall_cons; [okswap6 A1|]. apply Forall_cons; [okswap6 A2|]. apply Forall_cons; [okswap6 A3|]. apply Forall_cons; [okswap6 A4|]. apply Forall_cons; [okswap6 A5|]. apply Forall_cons; [okswap6 A6|]. apply Forall_cons; [okswap6 A7|]. apply Forall_cons; [okswap6 A8|]. apply Forall_cons; [okswap6 A9|]. apply Forall_nil.
Qed.
Lemma sft_rt_ok e v : dn (sft_rt e) v = den (fdim d) (tenv (jac_arrays d H T T ++ Rs)) e v.
Proof. apply (retag_sector d H T Rs). cbn [length]. lia. Qed.
Lemma sft_comp_b w a i : (a < nub d)%nat -> (i < noa d)%nat ->
  str [(true, oa i); (false, vb d a)] (sft_defect w) ref = (sft_b Z a i - w * sft_b Y a i) + 0.
Proof.
  intros Ha Hi.
  assert (Q0_ : dn (sft_rt (s_sfx_b 10 0 1)) (venv [a; i]) = sft_b Z a i) by (rewrite sft_rt_ok; reflexivity).
  change (opsem (noa d) (nob d) sft_bra_b (venv [a; i]) (sft_defect w) ref = (sft_b Z a i - w * sft_b Y a i) + 0). unfold sft_defect. rewrite <- (sft_op_ok (venv [a; i])).
  rewrite (defect2_ok d I T0 n Rs sft_rts 1 En En' sft_rtok sft_own sft_syms sft_tab sft_htab sft_ext_b sft_bra_b (venv [a; i]) m sft_d_b sft_c_b (E + w));
    [|extv|exact sft_bk_b|cbn; lia|exact Hm|exact sft_kd_b|exact sft_kc_b].
  change (dn sft_c_b (venv [a; i])) with (sft_b Y a i).
  change (dn sft_d_b (venv [a; i])) with (dn f_en (venv [a; i]) * (sft_b Y a i) + ((dn (sft_rt (s_sfx_b 10 0 1)) (venv [a; i])) + dn (EC 0 1) (venv [a; i]))).
  rewrite sector_en, den_zero, Q0_. ring.
Qed.
Lemma sft_comp_ab w a b i j : (a < nua d)%nat -> (b < nub d)%nat -> (i < noa d)%nat -> (j < noa d)%nat ->
  str [(true, oa i); (true, oa j); (false, vb d b); (false, va d a)] (sft_defect w) ref = (sft_ab Z a b i j - w * sft_ab Y a b i j) + ((- (sft_b Y b i * x_a X a j)) + (sft_b Y b j * x_a X a i)).
Proof.
  intros Ha Hb Hi Hj.
  assert (Q0_ : dn (sft_rt (s_sfx_ab 10 0 1 2 3)) (venv [a; b; i; j]) = sft_ab Z a b i j) by (rewrite sft_rt_ok; reflexivity).
  assert (Q1_ : dn (rt (r_ccsd_res_a 10 0 3)) (venv [a; b; i; j]) = x_a X a j) by (rewrite sector_rt by (vm_compute; reflexivity); reflexivity).
  assert (Q2_ : dn (rt (r_ccsd_res_a 10 0 2)) (venv [a; b; i; j]) = x_a X a i) by (rewrite sector_rt by (vm_compute; reflexivity); reflexivity).
  change (opsem (noa d) (nob d) sft_bra_ab (venv [a; b; i; j]) (sft_defect w) ref = (sft_ab Z a b i j - w * sft_ab Y a b i j) + ((- (sft_b Y b i * x_a X a j)) + (sft_b Y b j * x_a X a i))). unfold sft_defect. rewrite <- (sft_op_ok (venv [a; b; i; j])).
  rewrite (defect2_ok d I T0 n Rs sft_rts 1 En En' sft_rtok sft_own sft_syms sft_tab sft_htab sft_ext_ab sft_bra_ab (venv [a; b; i; j]) m sft_d_ab sft_c_ab (E + w));
    [|extv|exact sft_bk_ab|cbn; lia|exact Hm|exact sft_kd_ab|exact sft_kc_ab].
  change (dn sft_c_ab (venv [a; b; i; j])) with (sft_ab Y a b i j).
  change (dn sft_d_ab (venv [a; b; i; j])) with (dn f_en (venv [a; b; i; j]) * (sft_ab Y a b i j) + ((dn (sft_rt (s_sfx_ab 10 0 1 2 3)) (venv [a; b; i; j])) + ((- (sft_b Y b i * (dn (rt (r_ccsd_res_a 10 0 3)) (venv [a; b; i; j])))) + (sft_b Y b j * (dn (rt (r_ccsd_res_a 10 0 2)) (venv [a; b; i; j])))))).
  rewrite sector_en, Q0_, Q1_, Q2_. ring.
Qed.
Lemma sft_comp_bb w a b i j : (a < nub d)%nat -> (b < nub d)%nat -> (i < nob d)%nat -> (j < noa d)%nat ->
  str [(true, ob i); (true, oa j); (false, vb d b); (false, vb d a)] (sft_defect w) ref = (sft_bb Z a b i j - w * sft_bb Y a b i j) + ((sft_b Y b j * x_b X a i) + (- (sft_b Y a j * x_b X b i))).
Proof.
  intros Ha Hb Hi Hj.
  assert (Q0_ : dn (sft_rt (s_sfx_bb 10 0 1 2 3)) (venv [a; b; i; j]) = sft_bb Z a b i j) by (rewrite sft_rt_ok; reflexivity).
  assert (Q1_ : dn (rt (r_ccsd_res_b 10 0 2)) (venv [a; b; i; j]) = x_b X a i) by (rewrite sector_rt by (vm_compute; reflexivity); reflexivity).
  assert (Q2_ : dn (rt (r_ccsd_res_b 10 1 2)) (venv [a; b; i; j]) = x_b X b i) by (rewrite sector_rt by (vm_compute; reflexivity); reflexivity).
  change (opsem (noa d) (nob d) sft_bra_bb (venv [a; b; i; j]) (sft_defect w) ref = (sft_bb Z a b i j - w * sft_bb Y a b i j) + ((sft_b Y b j * x_b X a i) + (- (sft_b Y a j * x_b X b i)))). unfold sft_defect. rewrite <- (sft_op_ok (venv [a; b; i; j])).
  rewrite (defect2_ok d I T0 n Rs sft_rts 1 En En' sft_rtok sft_own sft_syms sft_tab sft_htab sft_ext_bb sft_bra_bb (venv [a; b; i; j]) m sft_d_bb sft_c_bb (E + w));
    [|extv|exact sft_bk_bb|cbn; lia|exact Hm|exact sft_kd_bb|exact sft_kc_bb].
  change (dn sft_c_bb (venv [a; b; i; j])) with (sft_bb Y a b i j).
  change (dn sft_d_bb (venv [a; b; i; j])) with (dn f_en (venv [a; b; i; j]) * (sft_bb Y a b i j) + ((dn (sft_rt (s_sfx_bb 10 0 1 2 3)) (venv [a; b; i; j])) + ((sft_b Y b j * (dn (rt (r_ccsd_res_b 10 0 2)) (venv [a; b; i; j]))) + (- (sft_b Y a j * (dn (rt (r_ccsd_res_b 10 1 2)) (venv [a; b; i; j]))))))).
  rewrite sector_en, Q0_, Q1_, Q2_. ring.
Qed.
Lemma sft_comp_aab w a b c i j k : (a < nua d)%nat -> (b < nua d)%nat -> (c < nub d)%nat -> (i < noa d)%nat -> (j < noa d)%nat -> (k < noa d)%nat ->
  str [(true, oa i); (true, oa j); (true, oa k); (false, vb d c); (false, va d b); (false, va d a)] (sft_defect w) ref = ((((x_aa T a b i j * (sft_b Z c k - w * sft_b Y c k)) + (- (x_aa T a b i k * (sft_b Z c j - w * sft_b Y c j)))) + (x_aa T a b j k * (sft_b Z c i - w * sft_b Y c i))) + (sft_aab Z a b c i j k - w * sft_aab Y a b c i j k)) + (((((((((sft_b Y c i * x_aa X a b j k) + (- (sft_b Y c j * x_aa X a b i k))) + (sft_b Y c k * x_aa X a b i j)) + (sft_ab Y b c i j * x_a X a k)) + (- (sft_ab Y a c i j * x_a X b k))) + (- (sft_ab Y b c i k * x_a X a j))) + (sft_ab Y a c i k * x_a X b j)) + (sft_ab Y b c j k * x_a X a i)) + (- (sft_ab Y a c j k * x_a X b i))).
Proof.
  intros Ha Hb Hc Hi Hj Hk.
  assert (Q0_ : dn (sft_rt (s_sfx_b 10 2 5)) (venv [a; b; c; i; j; k]) = sft_b Z c k) by (rewrite sft_rt_ok; reflexivity).
  assert (Q1_ : dn (sft_rt (s_sfx_b 10 2 4)) (venv [a; b; c; i; j; k]) = sft_b Z c j) by (rewrite sft_rt_ok; reflexivity).
  assert (Q2_ : dn (sft_rt (s_sfx_b 10 2 3)) (venv [a; b; c; i; j; k]) = sft_b Z c i) by (rewrite sft_rt_ok; reflexivity).
  assert (Q3_ : dn (sft_rt (s_sfx_aab 10 0 1 2 3 4 5)) (venv [a; b; c; i; j; k]) = sft_aab Z a b c i j k) by (rewrite sft_rt_ok; reflexivity).
  assert (Q4_ : dn (rt (r_resid_aa 10 0 1 4 5)) (venv [a; b; c; i; j; k]) = x_aa X a b j k) by (rewrite sector_rt by (vm_compute; reflexivity); reflexivity).
  assert (Q5_ : dn (rt (r_resid_aa 10 0 1 3 5)) (venv [a; b; c; i; j; k]) = x_aa X a b i k) by (rewrite sector_rt by (vm_compute; reflexivity); reflexivity).
  assert (Q6_ : dn (rt (r_resid_aa 10 0 1 3 4)) (venv [a; b; c; i; j; k]) = x_aa X a b i j) by (rewrite sector_rt by (vm_compute; reflexivity); reflexivity).
  assert (Q7_ : dn (rt (r_ccsd_res_a 10 0 5)) (venv [a; b; c; i; j; k]) = x_a X a k) by (rewrite sector_rt by (vm_compute; reflexivity); reflexivity).
  assert (Q8_ : dn (rt (r_ccsd_res_a 10 1 5)) (venv [a; b; c; i; j; k]) = x_a X b k) by (rewrite sector_rt by (vm_compute; reflexivity); reflexivity).
  assert (Q9_ : dn (rt (r_ccsd_res_a 10 0 4)) (venv [a; b; c; i; j; k]) = x_a X a j) by (rewrite sector_rt by (vm_compute; reflexivity); reflexivity).
  assert (Q10_ : dn (rt (r_ccsd_res_a 10 1 4)) (venv [a; b; c; i; j; k]) = x_a X b j) by (rewrite sector_rt by (vm_compute; reflexivity); reflexivity).
  assert (Q11_ : dn (rt (r_ccsd_res_a 10 0 3)) (venv [a; b; c; i; j; k]) = x_a X a i) by (rewrite sector_rt by (vm_compute; reflexivity); reflexivity).
  assert (Q12_ : dn (rt (r_ccsd_res_a 10 1 3)) (venv [a; b; c; i; j; k]) = x_a X b i) by (rewrite sector_rt by (vm_compute; reflexivity); reflexivity).
  change (opsem (noa d) (nob d) sft_bra_aab (venv [a; b; c; i; j; k]) (sft_defect w) ref = ((((x_aa T a b i j * (sft_b Z c k - w * sft_b Y c k)) + (- (x_aa T a b i k * (sft_b Z c j - w * sft_b Y c j)))) + (x_aa T a b j k * (sft_b Z c i - w * sft_b Y c i))) + (sft_aab Z a b c i j k - w * sft_aab Y a b c i j k)) + (((((((((sft_b Y c i * x_aa X a b j k) + (- (sft_b Y c j * x_aa X a b i k))) + (sft_b Y c k * x_aa X a b i j)) + (sft_ab Y b c i j * x_a X a k)) + (- (sft_ab Y a c i j * x_a X b k))) + (- (sft_ab Y b c i k * x_a X a j))) + (sft_ab Y a c i k * x_a X b j)) + (sft_ab Y b c j k * x_a X a i)) + (- (sft_ab Y a c j k * x_a X b i)))). unfold sft_defect. rewrite <- (sft_op_ok (venv [a; b; c; i; j; k])).
  rewrite (defect2_ok d I T0 n Rs sft_rts 1 En En' sft_rtok sft_own sft_syms sft_tab sft_htab sft_ext_aab sft_bra_aab (venv [a; b; c; i; j; k]) m sft_d_aab sft_c_aab (E + w));
    [|extv|exact sft_bk_aab|cbn; lia|exact Hm|exact sft_kd_aab|exact sft_kc_aab].
  change (dn sft_c_aab (venv [a; b; c; i; j; k])) with (((((x_aa T a b i j * sft_b Y c k) + (- (x_aa T a b i k * sft_b Y c j))) + (x_aa T a b j k * sft_b Y c i)) + sft_aab Y a b c i j k)).
  change (dn sft_d_aab (venv [a; b; c; i; j; k])) with (dn f_en (venv [a; b; c; i; j; k]) * (((((x_aa T a b i j * sft_b Y c k) + (- (x_aa T a b i k * sft_b Y c j))) + (x_aa T a b j k * sft_b Y c i)) + sft_aab Y a b c i j k)) + (((((x_aa T a b i j * (dn (sft_rt (s_sfx_b 10 2 5)) (venv [a; b; c; i; j; k]))) + (- (x_aa T a b i k * (dn (sft_rt (s_sfx_b 10 2 4)) (venv [a; b; c; i; j; k]))))) + (x_aa T a b j k * (dn (sft_rt (s_sfx_b 10 2 3)) (venv [a; b; c; i; j; k])))) + (dn (sft_rt (s_sfx_aab 10 0 1 2 3 4 5)) (venv [a; b; c; i; j; k]))) + (((((((((sft_b Y c i * (dn (rt (r_resid_aa 10 0 1 4 5)) (venv [a; b; c; i; j; k]))) + (- (sft_b Y c j * (dn (rt (r_resid_aa 10 0 1 3 5)) (venv [a; b; c; i; j; k]))))) + (sft_b Y c k * (dn (rt (r_resid_aa 10 0 1 3 4)) (venv [a; b; c; i; j; k])))) + (sft_ab Y b c i j * (dn (rt (r_ccsd_res_a 10 0 5)) (venv [a; b; c; i; j; k])))) + (- (sft_ab Y a c i j * (dn (rt (r_ccsd_res_a 10 1 5)) (venv [a; b; c; i; j; k]))))) + (- (sft_ab Y b c i k * (dn (rt (r_ccsd_res_a 10 0 4)) (venv [a; b; c; i; j; k]))))) + (sft_ab Y a c i k * (dn (rt (r_ccsd_res_a 10 1 4)) (venv [a; b; c; i; j; k])))) + (sft_ab Y b c j k * (dn (rt (r_ccsd_res_a 10 0 3)) (venv [a; b; c; i; j; k])))) + (- (sft_ab Y a c j k * (dn (rt (r_ccsd_res_a 10 1 3)) (venv [a; b; c; i; j; k]))))))).
  rewrite sector_en, Q0_, Q1_, Q2_, Q3_, Q4_, Q5_, Q6_, Q7_, Q8_, Q9_, Q10_, Q11_, Q12_. ring.
Qed.
Lemma sft_comp_abb w a b c i j k : (a < nua d)%nat -> (b < nub d)%nat -> (c < nub d)%nat -> (i < noa d)%nat -> (j < nob d)%nat -> (k < noa d)%nat ->
  str [(true, oa i); (true, ob j); (true, oa k); (false, vb d c); (false, vb d b); (false, va d a)] (sft_defect w) ref = (((((- (x_ab T a c i j * (sft_b Z b k - w * sft_b Y b k))) + (x_ab T a b i j * (sft_b Z c k - w * sft_b Y c k))) + (x_ab T a c k j * (sft_b Z b i - w * sft_b Y b i))) + (- (x_ab T a b k j * (sft_b Z c i - w * sft_b Y c i)))) + (sft_abb Z a b c i j k - w * sft_abb Y a b c i j k)) + ((((((((- (sft_b Y c i * x_ab X a b k j)) + (sft_b Y b i * x_ab X a c k j)) + (sft_b Y c k * x_ab X a b i j)) + (- (sft_b Y b k * x_ab X a c i j))) + (sft_ab Y a c i k * x_b X b j)) + (- (sft_ab Y a b i k * x_b X c j))) + (- (sft_bb Y b c j i * x_a X a k))) + (sft_bb Y b c j k * x_a X a i)).
Proof.
  intros Ha Hb Hc Hi Hj Hk.
  assert (Q0_ : dn (sft_rt (s_sfx_b 10 1 5)) (venv [a; b; c; i; j; k]) = sft_b Z b k) by (rewrite sft_rt_ok; reflexivity).
  assert (Q1_ : dn (sft_rt (s_sfx_b 10 2 5)) (venv [a; b; c; i; j; k]) = sft_b Z c k) by (rewrite sft_rt_ok; reflexivity).
  assert (Q2_ : dn (sft_rt (s_sfx_b 10 1 3)) (venv [a; b; c; i; j; k]) = sft_b Z b i) by (rewrite sft_rt_ok; reflexivity).
  assert (Q3_ : dn (sft_rt (s_sfx_b 10 2 3)) (venv [a; b; c; i; j; k]) = sft_b Z c i) by (rewrite sft_rt_ok; reflexivity).
  assert (Q4_ : dn (sft_rt (s_sfx_abb 10 0 1 2 3 4 5)) (venv [a; b; c; i; j; k]) = sft_abb Z a b c i j k) by (rewrite sft_rt_ok; reflexivity).
  assert (Q5_ : dn (rt (r_ccsd_res_ab 10 0 1 5 4)) (venv [a; b; c; i; j; k]) = x_ab X a b k j) by (rewrite sector_rt by (vm_compute; reflexivity); reflexivity).
  assert (Q6_ : dn (rt (r_ccsd_res_ab 10 0 2 5 4)) (venv [a; b; c; i; j; k]) = x_ab X a c k j) by (rewrite sector_rt by (vm_compute; reflexivity); reflexivity).
  assert (Q7_ : dn (rt (r_ccsd_res_ab 10 0 1 3 4)) (venv [a; b; c; i; j; k]) = x_ab X a b i j) by (rewrite sector_rt by (vm_compute; reflexivity); reflexivity).
  assert (Q8_ : dn (rt (r_ccsd_res_ab 10 0 2 3 4)) (venv [a; b; c; i; j; k]) = x_ab X a c i j) by (rewrite sector_rt by (vm_compute; reflexivity); reflexivity).
  assert (Q9_ : dn (rt (r_ccsd_res_b 10 1 4)) (venv [a; b; c; i; j; k]) = x_b X b j) by (rewrite sector_rt by (vm_compute; reflexivity); reflexivity).
  assert (Q10_ : dn (rt (r_ccsd_res_b 10 2 4)) (venv [a; b; c; i; j; k]) = x_b X c j) by (rewrite sector_rt by (vm_compute; reflexivity); reflexivity).
  assert (Q11_ : dn (rt (r_ccsd_res_a 10 0 5)) (venv [a; b; c; i; j; k]) = x_a X a k) by (rewrite sector_rt by (vm_compute; reflexivity); reflexivity).
  assert (Q12_ : dn (rt (r_ccsd_res_a 10 0 3)) (venv [a; b; c; i; j; k]) = x_a X a i) by (rewrite sector_rt by (vm_compute; reflexivity); reflexivity).
  change (opsem (noa d) (nob d) sft_bra_abb (venv [a; b; c; i; j; k]) (sft_defect w) ref = (((((- (x_ab T a c i j * (sft_b Z b k - w * sft_b Y b k))) + (x_ab T a b i j * (sft_b Z c k - w * sft_b Y c k))) + (x_ab T a c k j * (sft_b Z b i - w * sft_b Y b i))) + (- (x_ab T a b k j * (sft_b Z c i - w * sft_b Y c i)))) + (sft_abb Z a b c i j k - w * sft_abb Y a b c i j k)) + ((((((((- (sft_b Y c i * x_ab X a b k j)) + (sft_b Y b i * x_ab X a c k j)) + (sft_b Y c k * x_ab X a b i j)) + (- (sft_b Y b k * x_ab X a c i j))) + (sft_ab Y a c i k * x_b X b j)) + (- (sft_ab Y a b i k * x_b X c j))) + (- (sft_bb Y b c j i * x_a X a k))) + (sft_bb Y b c j k * x_a X a i))). unfold sft_defect. rewrite <- (sft_op_ok (venv [a; b; c; i; j; k])).
  rewrite (defect2_ok d I T0 n Rs sft_rts 1 En En' sft_rtok sft_own sft_syms sft_tab sft_htab sft_ext_abb sft_bra_abb (venv [a; b; c; i; j; k]) m sft_d_abb sft_c_abb (E + w));
    [|extv|exact sft_bk_abb|cbn; lia|exact Hm|exact sft_kd_abb|exact sft_kc_abb].
  change (dn sft_c_abb (venv [a; b; c; i; j; k])) with ((((((- (x_ab T a c i j * sft_b Y b k)) + (x_ab T a b i j * sft_b Y c k)) + (x_ab T a c k j * sft_b Y b i)) + (- (x_ab T a b k j * sft_b Y c i))) + sft_abb Y a b c i j k)).
  change (dn sft_d_abb (venv [a; b; c; i; j; k])) with (dn f_en (venv [a; b; c; i; j; k]) * ((((((- (x_ab T a c i j * sft_b Y b k)) + (x_ab T a b i j * sft_b Y c k)) + (x_ab T a c k j * sft_b Y b i)) + (- (x_ab T a b k j * sft_b Y c i))) + sft_abb Y a b c i j k)) + ((((((- (x_ab T a c i j * (dn (sft_rt (s_sfx_b 10 1 5)) (venv [a; b; c; i; j; k])))) + (x_ab T a b i j * (dn (sft_rt (s_sfx_b 10 2 5)) (venv [a; b; c; i; j; k])))) + (x_ab T a c k j * (dn (sft_rt (s_sfx_b 10 1 3)) (venv [a; b; c; i; j; k])))) + (- (x_ab T a b k j * (dn (sft_rt (s_sfx_b 10 2 3)) (venv [a; b; c; i; j; k]))))) + (dn (sft_rt (s_sfx_abb 10 0 1 2 3 4 5)) (venv [a; b; c; i; j; k]))) + ((((((((- (sft_b Y c i * (dn (rt (r_ccsd_res_ab 10 0 1 5 4)) (venv [a; b; c; i; j; k])))) + (sft_b Y b i * (dn (rt (r_ccsd_res_ab 10 0 2 5 4)) (venv [a; b; c; i; j; k])))) + (sft_b Y c k * (dn (rt (r_ccsd_res_ab 10 0 1 3 4)) (venv [a; b; c; i; j; k])))) + (- (sft_b Y b k * (dn (rt (r_ccsd_res_ab 10 0 2 3 4)) (venv [a; b; c; i; j; k]))))) + (sft_ab Y a c i k * (dn (rt (r_ccsd_res_b 10 1 4)) (venv [a; b; c; i; j; k])))) + (- (sft_ab Y a b i k * (dn (rt (r_ccsd_res_b 10 2 4)) (venv [a; b; c; i; j; k]))))) + (- (sft_bb Y b c j i * (dn (rt (r_ccsd_res_a 10 0 5)) (venv [a; b; c; i; j; k]))))) + (sft_bb Y b c j k * (dn (rt (r_ccsd_res_a 10 0 3)) (venv [a; b; c; i; j; k])))))).
  rewrite sector_en, Q0_, Q1_, Q2_, Q3_, Q4_, Q5_, Q6_, Q7_, Q8_, Q9_, Q10_, Q11_, Q12_. ring.
Qed.
Lemma sft_comp_bbb w a b c i j k : (a < nub d)%nat -> (b < nub d)%nat -> (c < nub d)%nat -> (i < nob d)%nat -> (j < nob d)%nat -> (k < noa d)%nat ->
  str [(true, ob i); (true, ob j); (true, oa k); (false, vb d c); (false, vb d b); (false, vb d a)] (sft_defect w) ref = ((((x_bb T b c i j * (sft_b Z a k - w * sft_b Y a k)) + (- (x_bb T a c i j * (sft_b Z b k - w * sft_b Y b k)))) + (x_bb T a b i j * (sft_b Z c k - w * sft_b Y c k))) + (sft_bbb Z a b c i j k - w * sft_bbb Y a b c i j k)) + (((((((((sft_b Y c k * x_bb X a b i j) + (- (sft_b Y b k * x_bb X a c i j))) + (sft_b Y a k * x_bb X b c i j)) + (- (sft_bb Y b c i k * x_b X a j))) + (sft_bb Y a c i k * x_b X b j)) + (- (sft_bb Y a b i k * x_b X c j))) + (sft_bb Y b c j k * x_b X a i)) + (- (sft_bb Y a c j k * x_b X b i))) + (sft_bb Y a b j k * x_b X c i)).
Proof.
  intros Ha Hb Hc Hi Hj Hk.
  assert (Q0_ : dn (sft_rt (s_sfx_b 10 0 5)) (venv [a; b; c; i; j; k]) = sft_b Z a k) by (rewrite sft_rt_ok; reflexivity).
  assert (Q1_ : dn (sft_rt (s_sfx_b 10 1 5)) (venv [a; b; c; i; j; k]) = sft_b Z b k) by (rewrite sft_rt_ok; reflexivity).
  assert (Q2_ : dn (sft_rt (s_sfx_b 10 2 5)) (venv [a; b; c; i; j; k]) = sft_b Z c k) by (rewrite sft_rt_ok; reflexivity).
  assert (Q3_ : dn (sft_rt (s_sfx_bbb 10 0 1 2 3 4 5)) (venv [a; b; c; i; j; k]) = sft_bbb Z a b c i j k) by (rewrite sft_rt_ok; reflexivity).
  assert (Q4_ : dn (rt (r_resid_bb 10 0 1 3 4)) (venv [a; b; c; i; j; k]) = x_bb X a b i j) by (rewrite sector_rt by (vm_compute; reflexivity); reflexivity).
  assert (Q5_ : dn (rt (r_resid_bb 10 0 2 3 4)) (venv [a; b; c; i; j; k]) = x_bb X a c i j) by (rewrite sector_rt by (vm_compute; reflexivity); reflexivity).
  assert (Q6_ : dn (rt (r_resid_bb 10 1 2 3 4)) (venv [a; b; c; i; j; k]) = x_bb X b c i j) by (rewrite sector_rt by (vm_compute; reflexivity); reflexivity).
  assert (Q7_ : dn (rt (r_ccsd_res_b 10 0 4)) (venv [a; b; c; i; j; k]) = x_b X a j) by (rewrite sector_rt by (vm_compute; reflexivity); reflexivity).
  assert (Q8_ : dn (rt (r_ccsd_res_b 10 1 4)) (venv [a; b; c; i; j; k]) = x_b X b j) by (rewrite sector_rt by (vm_compute; reflexivity); reflexivity).
  assert (Q9_ : dn (rt (r_ccsd_res_b 10 2 4)) (venv [a; b; c; i; j; k]) = x_b X c j) by (rewrite sector_rt by (vm_compute; reflexivity); reflexivity).
  assert (Q10_ : dn (rt (r_ccsd_res_b 10 0 3)) (venv [a; b; c; i; j; k]) = x_b X a i) by (rewrite sector_rt by (vm_compute; reflexivity); reflexivity).
  assert (Q11_ : dn (rt (r_ccsd_res_b 10 1 3)) (venv [a; b; c; i; j; k]) = x_b X b i) by (rewrite sector_rt by (vm_compute; reflexivity); reflexivity).
  assert (Q12_ : dn (rt (r_ccsd_res_b 10 2 3)) (venv [a; b; c; i; j; k]) = x_b X c i) by (rewrite sector_rt by (vm_compute; reflexivity); reflexivity).
  change (opsem (noa d) (nob d) sft_bra_bbb (venv [a; b; c; i; j; k]) (sft_defect w) ref = ((((x_bb T b c i j * (sft_b Z a k - w * sft_b Y a k)) + (- (x_bb T a c i j * (sft_b Z b k - w * sft_b Y b k)))) + (x_bb T a b i j * (sft_b Z c k - w * sft_b Y c k))) + (sft_bbb Z a b c i j k - w * sft_bbb Y a b c i j k)) + (((((((((sft_b Y c k * x_bb X a b i j) + (- (sft_b Y b k * x_bb X a c i j))) + (sft_b Y a k * x_bb X b c i j)) + (- (sft_bb Y b c i k * x_b X a j))) + (sft_bb Y a c i k * x_b X b j)) + (- (sft_bb Y a b i k * x_b X c j))) + (sft_bb Y b c j k * x_b X a i)) + (- (sft_bb Y a c j k * x_b X b i))) + (sft_bb Y a b j k * x_b X c i))). unfold sft_defect. rewrite <- (sft_op_ok (venv [a; b; c; i; j; k])).
  rewrite (defect2_ok d I T0 n Rs sft_rts 1 En En' sft_rtok sft_own sft_syms sft_tab sft_htab sft_ext_bbb sft_bra_bbb (venv [a; b; c; i; j; k]) m sft_d_bbb sft_c_bbb (E + w));
    [|extv|exact sft_bk_bbb|cbn; lia|exact Hm|exact sft_kd_bbb|exact sft_kc_bbb].
  change (dn sft_c_bbb (venv [a; b; c; i; j; k])) with (((((x_bb T b c i j * sft_b Y a k) + (- (x_bb T a c i j * sft_b Y b k))) + (x_bb T a b i j * sft_b Y c k)) + sft_bbb Y a b c i j k)).
  change (dn sft_d_bbb (venv [a; b; c; i; j; k])) with (dn f_en (venv [a; b; c; i; j; k]) * (((((x_bb T b c i j * sft_b Y a k) + (- (x_bb T a c i j * sft_b Y b k))) + (x_bb T a b i j * sft_b Y c k)) + sft_bbb Y a b c i j k)) + (((((x_bb T b c i j * (dn (sft_rt (s_sfx_b 10 0 5)) (venv [a; b; c; i; j; k]))) + (- (x_bb T a c i j * (dn (sft_rt (s_sfx_b 10 1 5)) (venv [a; b; c; i; j; k]))))) + (x_bb T a b i j * (dn (sft_rt (s_sfx_b 10 2 5)) (venv [a; b; c; i; j; k])))) + (dn (sft_rt (s_sfx_bbb 10 0 1 2 3 4 5)) (venv [a; b; c; i; j; k]))) + (((((((((sft_b Y c k * (dn (rt (r_resid_bb 10 0 1 3 4)) (venv [a; b; c; i; j; k]))) + (- (sft_b Y b k * (dn (rt (r_resid_bb 10 0 2 3 4)) (venv [a; b; c; i; j; k]))))) + (sft_b Y a k * (dn (rt (r_resid_bb 10 1 2 3 4)) (venv [a; b; c; i; j; k])))) + (- (sft_bb Y b c i k * (dn (rt (r_ccsd_res_b 10 0 4)) (venv [a; b; c; i; j; k]))))) + (sft_bb Y a c i k * (dn (rt (r_ccsd_res_b 10 1 4)) (venv [a; b; c; i; j; k])))) + (- (sft_bb Y a b i k * (dn (rt (r_ccsd_res_b 10 2 4)) (venv [a; b; c; i; j; k]))))) + (sft_bb Y b c j k * (dn (rt (r_ccsd_res_b 10 0 3)) (venv [a; b; c; i; j; k])))) + (- (sft_bb Y a c j k * (dn (rt (r_ccsd_res_b 10 1 3)) (venv [a; b; c; i; j; k]))))) + (sft_bb Y a b j k * (dn (rt (r_ccsd_res_b 10 2 3)) (venv [a; b; c; i; j; k])))))).
  rewrite sector_en, Q0_, Q1_, Q2_, Q3_, Q4_, Q5_, Q6_, Q7_, Q8_, Q9_, Q10_, Q11_, Q12_. ring.
Qed.
Lemma sft_solves w : same_amps d X zero_amps -> (solves_on (sft_space d n) n I (E + w) (sft_op d Y psi) <-> sft_root d Z Y w).
Proof.
  intros [Za Zb Zaa Zab Zbb]. cbn [zero_amps x_a x_b x_aa x_ab x_bb] in Za, Zb, Zaa, Zab, Zbb.
  assert (F := sft_flat d n (sft_defect w) En En').
  transitivity (forall D, sft_space d n D -> sft_defect w D = 0); [unfold solves_on, sft_defect; split; intros G D HD; specialize (G D HD); [rewrite G; ring|lra]|]. rewrite F. clear F. unfold sft_root. split.
  - intros (F0 & F1 & F2 & F3 & F4 & F5).
    assert (L0 : forall a i, (a < nub d)%nat -> (i < noa d)%nat -> sft_b Z a i - w * sft_b Y a i = 0).
    { intros a i Ha Hi. specialize (F0 a i Ha Hi). rewrite sft_comp_b in F0 by assumption. rewrite <- F0. ring. }
    assert (L1 : forall a b i j, (a < nua d)%nat -> (b < nub d)%nat -> (i < noa d)%nat -> (j < noa d)%nat -> sft_ab Z a b i j - w * sft_ab Y a b i j = 0).
    { intros a b i j Ha Hb Hi Hj. specialize (F1 a b i j Ha Hb Hi Hj). rewrite sft_comp_ab, !Za in F1 by assumption. rewrite <- F1. ring. }
    assert (L2 : forall a b i j, (a < nub d)%nat -> (b < nub d)%nat -> (i < nob d)%nat -> (j < noa d)%nat -> sft_bb Z a b i j - w * sft_bb Y a b i j = 0).
    { intros a b i j Ha Hb Hi Hj. specialize (F2 a b i j Ha Hb Hi Hj). rewrite sft_comp_bb, !Zb in F2 by assumption. rewrite <- F2. ring. }
    assert (L3 : forall a b c i j k, (a < nua d)%nat -> (b < nua d)%nat -> (c < nub d)%nat -> (i < noa d)%nat -> (j < noa d)%nat -> (k < noa d)%nat -> sft_aab Z a b c i j k - w * sft_aab Y a b c i j k = 0).
    { intros a b c i j k Ha Hb Hc Hi Hj Hk. specialize (F3 a b c i j k Ha Hb Hc Hi Hj Hk). rewrite sft_comp_aab, !Za, !Zaa, !L0 in F3 by assumption. rewrite <- F3. ring. }
    assert (L4 : forall a b c i j k, (a < nua d)%nat -> (b < nub d)%nat -> (c < nub d)%nat -> (i < noa d)%nat -> (j < nob d)%nat -> (k < noa d)%nat -> sft_abb Z a b c i j k - w * sft_abb Y a b c i j k = 0).
    { intros a b c i j k Ha Hb Hc Hi Hj Hk. specialize (F4 a b c i j k Ha Hb Hc Hi Hj Hk). rewrite sft_comp_abb, !Za, !Zb, !Zab, !L0 in F4 by assumption. rewrite <- F4. ring. }
    assert (L5 : forall a b c i j k, (a < nub d)%nat -> (b < nub d)%nat -> (c < nub d)%nat -> (i < nob d)%nat -> (j < nob d)%nat -> (k < noa d)%nat -> sft_bbb Z a b c i j k - w * sft_bbb Y a b c i j k = 0).
    { intros a b c i j k Ha Hb Hc Hi Hj Hk. specialize (F5 a b c i j k Ha Hb Hc Hi Hj Hk). rewrite sft_comp_bbb, !Zb, !Zbb, !L0 in F5 by assumption. rewrite <- F5. ring. }
    split; [|split; [|split; [|split; [|split; [|]]]]]; intros; apply Rminus_diag_uniq; auto.
  - intros (G0 & G1 & G2 & G3 & G4 & G5).
    assert (L0 : forall a i, (a < nub d)%nat -> (i < noa d)%nat -> sft_b Z a i - w * sft_b Y a i = 0) by (intros; rewrite G0 by assumption; ring).
    assert (L1 : forall a b i j, (a < nua d)%nat -> (b < nub d)%nat -> (i < noa d)%nat -> (j < noa d)%nat -> sft_ab Z a b i j - w * sft_ab Y a b i j = 0) by (intros; rewrite G1 by assumption; ring).
    assert (L2 : forall a b i j, (a < nub d)%nat -> (b < nub d)%nat -> (i < nob d)%nat -> (j < noa d)%nat -> sft_bb Z a b i j - w * sft_bb Y a b i j = 0) by (intros; rewrite G2 by assumption; ring).
    assert (L3 : forall a b c i j k, (a < nua d)%nat -> (b < nua d)%nat -> (c < nub d)%nat -> (i < noa d)%nat -> (j < noa d)%nat -> (k < noa d)%nat -> sft_aab Z a b c i j k - w * sft_aab Y a b c i j k = 0) by (intros; rewrite G3 by assumption; ring).
    assert (L4 : forall a b c i j k, (a < nua d)%nat -> (b < nub d)%nat -> (c < nub d)%nat -> (i < noa d)%nat -> (j < nob d)%nat -> (k < noa d)%nat -> sft_abb Z a b c i j k - w * sft_abb Y a b c i j k = 0) by (intros; rewrite G4 by assumption; ring).
    assert (L5 : forall a b c i j k, (a < nub d)%nat -> (b < nub d)%nat -> (c < nub d)%nat -> (i < nob d)%nat -> (j < nob d)%nat -> (k < noa d)%nat -> sft_bbb Z a b c i j k - w * sft_bbb Y a b c i j k = 0) by (intros; rewrite G5 by assumption; ring).
    split; [|split; [|split; [|split; [|split; [|]]]]].
    + intros a i Ha Hi. rewrite sft_comp_b, !L0 by assumption. ring.
    + intros a b i j Ha Hb Hi Hj. rewrite sft_comp_ab, !Za, !L1 by assumption. ring.
    + intros a b i j Ha Hb Hi Hj. rewrite sft_comp_bb, !Zb, !L2 by assumption. ring.
    + intros a b c i j k Ha Hb Hc Hi Hj Hk. rewrite sft_comp_aab, !Za, !Zaa, !L0, !L3 by assumption. ring.
    + intros a b c i j k Ha Hb Hc Hi Hj Hk. rewrite sft_comp_abb, !Za, !Zb, !Zab, !L0, !L4 by assumption. ring.
    + intros a b c i j k Ha Hb Hc Hi Hj Hk. rewrite sft_comp_bbb, !Zb, !Zbb, !L0, !L5 by assumption. ring.
Qed.
End P.
