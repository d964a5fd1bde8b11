(** Generated by tools/gen_sec3fock.py: components of (H - E - w) R exp(T2) |ref> for the EA (3p2h) operator (proof support). *)
From Coq Require Import Reals Arith NArith List Bool Lia Lra QArith Qreals ZArith FunctionalExtensionality.
From Verif Require Import RSum IntegralsModel TensorObjs TensorAlg TensorSpec CcsdModel CcsdUpdate CcsdReify CcsdProps FockSpec FockCar FockWick FockArrays FockCcSpec FockTerms FockHam FockExp FockLevel FockCheck FockState FockNear FockProj FockSector FockSectorTools
  FockFast FockSectorSpec FockFlip RankSpec FockShift FockSector3 FockTools3 Sector3Model Sector3Spec FockSpaces3 SectorEatReify.
Import ListNotations.
Local Open Scope nat_scope.
Definition eat_rts : list term := [mkTerm (1 # 1) [(40, 1)] [(66, [40])] [C 1 40]; mkTerm (1 # 2) [(40, 1); (41, 1); (42, 0)] [(67, [40; 41; 42])] [C 1 40; C 1 41; A 0 42]; mkTerm (1 # 1) [(40, 1); (41, 3); (42, 2)] [(68, [40; 41; 42])] [C 1 40; C 3 41; A 2 42]; mkTerm (1 # 12) [(40, 1); (41, 1); (42, 1); (43, 0); (44, 0)] [(69, [40; 41; 42; 43; 44])] [C 1 40; C 1 41; C 1 42; A 0 44; A 0 43]; mkTerm (1 # 2) [(40, 1); (41, 1); (42, 3); (43, 0); (44, 2)] [(70, [40; 41; 42; 43; 44])] [C 1 40; C 1 41; C 3 42; A 2 44; A 0 43]; mkTerm (1 # 4) [(40, 1); (41, 3); (42, 3); (43, 2); (44, 2)] [(71, [40; 41; 42; 43; 44])] [C 1 40; C 3 41; C 3 42; A 2 44; A 2 43]].
Definition eat_own : list (nat * (nat * list nat * bool)) := [(67, (67, [1; 0; 2], false)); (69, (69, [0; 1; 2; 4; 3], false)); (69, (69, [1; 0; 2; 3; 4], false)); (69, (69, [0; 2; 1; 3; 4], false)); (70, (70, [1; 0; 2; 3; 4], false)); (71, (71, [0; 1; 2; 4; 3], false)); (71, (71, [0; 2; 1; 3; 4], false))].
Definition eat_gens := fock_gens ++ eat_own.
Definition eat_tab := Eval vm_compute in symtab eat_gens 72.
Definition eat_rt e := retag (to_sector 6) e.
Lemma eat_htab : eat_tab = symtab eat_gens 72. Proof. vm_compute. reflexivity. Qed.
Lemma eat_rtok : rtok eat_rts 0 = true. Proof. vm_compute. reflexivity. Qed.
Definition eat_bra_a : list op := [A 1 0].
Definition eat_ext_a : list (nat * nat) := [(0, 1)].
Definition eat_c_a := (ET 66 [0]).
Definition eat_d_a := EAdd (EMul f_en eat_c_a) (EAdd (eat_rt (s_eat_a 10 0))
  (EC 0 1)).
Lemma eat_bk_a : braok eat_ext_a eat_bra_a = true. Proof. vm_compute. reflexivity. Qed.
Lemma eat_kc_a : fock_fast eat_tab eat_ext_a (eek2 eat_bra_a eat_rts) eat_c_a = true. Proof. vm_compute. reflexivity. Qed.
Lemma eat_kd_a : fock_fast eat_tab eat_ext_a (hek2 eat_bra_a eat_rts) (kill eat_d_a) = true. Proof. vm_compute. reflexivity. Qed.
Definition eat_bra_aa : list op := [C 0 2; A 1 1; A 1 0].
Definition eat_ext_aa : list (nat * nat) := [(0, 1); (1, 1); (2, 0)].
Definition eat_c_aa := (ET 67 [0; 1; 2]).
Definition eat_d_aa := EAdd (EMul f_en eat_c_aa) (EAdd (eat_rt (s_eat_aa 10 0 1 2))
  (EAdd (EOpp (EMul (ET 66 [1]) (rt (r_ccsd_res_a 10 0 2))))
   (EMul (ET 66 [0]) (rt (r_ccsd_res_a 10 1 2))))).
Lemma eat_bk_aa : braok eat_ext_aa eat_bra_aa = true. Proof. vm_compute. reflexivity. Qed.
Lemma eat_kc_aa : fock_fast eat_tab eat_ext_aa (eek2 eat_bra_aa eat_rts) eat_c_aa = true. Proof. vm_compute. reflexivity. Qed.
Lemma eat_kd_aa : fock_fast eat_tab eat_ext_aa (hek2 eat_bra_aa eat_rts) (kill eat_d_aa) = true. Proof. vm_compute. reflexivity. Qed.
Definition eat_bra_ab : list op := [C 2 2; A 3 1; A 1 0].
Definition eat_ext_ab : list (nat * nat) := [(0, 1); (1, 3); (2, 2)].
Definition eat_c_ab := (ET 68 [0; 1; 2]).
Definition eat_d_ab := EAdd (EMul f_en eat_c_ab) (EAdd (eat_rt (s_eat_ab 10 0 1 2))
  (EMul (ET 66 [0]) (rt (r_ccsd_res_b 10 1 2)))).
Lemma eat_bk_ab : braok eat_ext_ab eat_bra_ab = true. Proof. vm_compute. reflexivity. Qed.
Lemma eat_kc_ab : fock_fast eat_tab eat_ext_ab (eek2 eat_bra_ab eat_rts) eat_c_ab = true. Proof. vm_compute. reflexivity. Qed.
Lemma eat_kd_ab : fock_fast eat_tab eat_ext_ab (hek2 eat_bra_ab eat_rts) (kill eat_d_ab) = true. Proof. vm_compute. reflexivity. Qed.
Definition eat_bra_aaa : list op := [C 0 3; C 0 4; A 1 2; A 1 1; A 1 0].
Definition eat_ext_aaa : list (nat * nat) := [(0, 1); (1, 1); (2, 1); (3, 0); (4, 0)].
Definition eat_c_aaa := (EAdd (EAdd (EAdd (EMul (ET 2 [1; 2; 3; 4]) (ET 66 [0]))
   (EOpp (EMul (ET 2 [0; 2; 3; 4]) (ET 66 [1]))))
   (EMul (ET 2 [0; 1; 3; 4]) (ET 66 [2])))
   (ET 69 [0; 1; 2; 3; 4])).
Definition eat_d_aaa := EAdd (EMul f_en eat_c_aaa) (EAdd (EAdd (EAdd (EAdd (EMul (ET 2 [1; 2; 3; 4]) (eat_rt (s_eat_a 10 0)))
   (EOpp (EMul (ET 2 [0; 2; 3; 4]) (eat_rt (s_eat_a 10 1)))))
   (EMul (ET 2 [0; 1; 3; 4]) (eat_rt (s_eat_a 10 2))))
   (eat_rt (s_eat_aaa 10 0 1 2 3 4)))
  (EAdd (EAdd (EAdd (EAdd (EAdd (EAdd (EAdd (EAdd (EMul (ET 66 [2]) (rt (r_resid_aa 10 0 1 3 4)))
   (EOpp (EMul (ET 66 [1]) (rt (r_resid_aa 10 0 2 3 4)))))
   (EMul (ET 66 [0]) (rt (r_resid_aa 10 1 2 3 4))))
   (EMul (ET 67 [1; 2; 3]) (rt (r_ccsd_res_a 10 0 4))))
   (EOpp (EMul (ET 67 [0; 2; 3]) (rt (r_ccsd_res_a 10 1 4)))))
   (EMul (ET 67 [0; 1; 3]) (rt (r_ccsd_res_a 10 2 4))))
   (EOpp (EMul (ET 67 [1; 2; 4]) (rt (r_ccsd_res_a 10 0 3)))))
   (EMul (ET 67 [0; 2; 4]) (rt (r_ccsd_res_a 10 1 3))))
   (EOpp (EMul (ET 67 [0; 1; 4]) (rt (r_ccsd_res_a 10 2 3)))))).
Lemma eat_bk_aaa : braok eat_ext_aaa eat_bra_aaa = true. Proof. vm_compute. reflexivity. Qed.
Lemma eat_kc_aaa : fock_fast eat_tab eat_ext_aaa (eek2 eat_bra_aaa eat_rts) eat_c_aaa = true. Proof. vm_compute. reflexivity. Qed.
Lemma eat_kd_aaa : fock_fast eat_tab eat_ext_aaa (hek2 eat_bra_aaa eat_rts) (kill eat_d_aaa) = true. Proof. vm_compute. reflexivity. Qed.
Definition eat_bra_aab : list op := [C 0 3; C 2 4; A 3 2; A 1 1; A 1 0].
Definition eat_ext_aab : list (nat * nat) := [(0, 1); (1, 1); (2, 3); (3, 0); (4, 2)].
Definition eat_c_aab := (EAdd (EAdd (EMul (ET 3 [1; 2; 3; 4]) (ET 66 [0]))
   (EOpp (EMul (ET 3 [0; 2; 3; 4]) (ET 66 [1]))))
   (ET 70 [0; 1; 2; 3; 4])).
Definition eat_d_aab := EAdd (EMul f_en eat_c_aab) (EAdd (EAdd (EAdd (EMul (ET 3 [1; 2; 3; 4]) (eat_rt (s_eat_a 10 0)))
   (EOpp (EMul (ET 3 [0; 2; 3; 4]) (eat_rt (s_eat_a 10 1)))))
   (eat_rt (s_eat_aab 10 0 1 2 3 4)))
  (EAdd (EAdd (EAdd (EAdd (EOpp (EMul (ET 66 [1]) (rt (r_ccsd_res_ab 10 0 2 3 4))))
   (EMul (ET 66 [0]) (rt (r_ccsd_res_ab 10 1 2 3 4))))
   (EMul (ET 67 [0; 1; 3]) (rt (r_ccsd_res_b 10 2 4))))
   (EOpp (EMul (ET 68 [1; 2; 4]) (rt (r_ccsd_res_a 10 0 3)))))
   (EMul (ET 68 [0; 2; 4]) (rt (r_ccsd_res_a 10 1 3))))).
Lemma eat_bk_aab : braok eat_ext_aab eat_bra_aab = true. Proof. vm_compute. reflexivity. Qed.
Lemma eat_kc_aab : fock_fast eat_tab eat_ext_aab (eek2 eat_bra_aab eat_rts) eat_c_aab = true. Proof. vm_compute. reflexivity. Qed.
Lemma eat_kd_aab : fock_fast eat_tab eat_ext_aab (hek2 eat_bra_aab eat_rts) (kill eat_d_aab) = true. Proof. vm_compute. reflexivity. Qed.
Definition eat_bra_abb : list op := [C 2 3; C 2 4; A 3 2; A 3 1; A 1 0].
Definition eat_ext_abb : list (nat * nat) := [(0, 1); (1, 3); (2, 3); (3, 2); (4, 2)].
Definition eat_c_abb := (EAdd (EMul (ET 4 [1; 2; 3; 4]) (ET 66 [0]))
   (ET 71 [0; 1; 2; 3; 4])).
Definition eat_d_abb := EAdd (EMul f_en eat_c_abb) (EAdd (EAdd (EMul (ET 4 [1; 2; 3; 4]) (eat_rt (s_eat_a 10 0)))
   (eat_rt (s_eat_abb 10 0 1 2 3 4)))
  (EAdd (EAdd (EAdd (EAdd (EMul (ET 66 [0]) (rt (r_resid_bb 10 1 2 3 4)))
   (EOpp (EMul (ET 68 [0; 2; 3]) (rt (r_ccsd_res_b 10 1 4)))))
   (EMul (ET 68 [0; 1; 3]) (rt (r_ccsd_res_b 10 2 4))))
   (EMul (ET 68 [0; 2; 4]) (rt (r_ccsd_res_b 10 1 3))))
   (EOpp (EMul (ET 68 [0; 1; 4]) (rt (r_ccsd_res_b 10 2 3)))))).
Lemma eat_bk_abb : braok eat_ext_abb eat_bra_abb = true. Proof. vm_compute. reflexivity. Qed.
Lemma eat_kc_abb : fock_fast eat_tab eat_ext_abb (eek2 eat_bra_abb eat_rts) eat_c_abb = true. Proof. vm_compute. reflexivity. Qed.
Lemma eat_kd_abb : fock_fast eat_tab eat_ext_abb (hek2 eat_bra_abb eat_rts) (kill eat_d_abb) = true. Proof. vm_compute. reflexivity. Qed.
Local Open Scope R_scope.
Section P.
Variables (d : dims) (I : integrals) (T0 : amps) (Y : eatv) (n m : nat).
Hypothesis En : (noa d + nua d = n)%nat.
Hypothesis En' : (nob d + nub d = n)%nat.
Hypothesis HI : exchangeable I.
Hypothesis HT : antisym_amps T0.
Hypothesis HY : eat_anti Y.
Hypothesis Hm : (2 <= m)%nat.
Notation T := (bare T0).
Notation H := (fock_ints (noa d) (nob d) I).
Notation ref := (reference (noa d) (nob d)).
Notation psi := (expo (cluster_sd d T) m (pure ref)).
Notation E := (scf_energy (noa d) (nob d) I + cc_energy d H T).
Notation Rs := [ap1 (eat_a Y); ap3 (eat_aa Y); ap3 (eat_ab Y); ap5 (eat_aaa Y); ap5 (eat_aab Y); ap5 (eat_abb Y)].
Notation ten := (tenv (fock_arrays H T ++ Rs)).
Notation dn e v := (den (fdim d) ten e v).
Notation X := (ccsd_resid d H T).
Notation Z := (eat_HR d (hbar_ccsd d H T) T Y).
Definition eat_defect (w : R) : state := fun D => hamiltonian n I (eat_op d Y psi) D - (E + w) * eat_op d Y psi D.
Lemma eat_op_ok v phi : psem (noa d) (nob d) (fdim d) ten eat_rts v phi = eat_op d Y phi.
Proof. opok eat_rts eat_op. Qed.
Lemma eat_syms : Forall (fun g => okalt ten (fst g) (snd g)) eat_gens.
Proof.
  apply sector_syms; [exact (fock_ints_antisym _ _ _ HI)|exact (bare_anti _ HT)|]. destruct HY as (A0 & A1 & A2 & A3 & A4 & A5 & A6).
  apply Forall_cons; [okswap6 A0|]. apply Forall_cons; [okswap6 A1|]. apply Forall_cons; [okswap6 A2|]. apply Forall_cons; [okswap6 A3|]. apply Forall_cons; [okswap6 A4|]. apply Forall_cons; [okswap6 A5|]. apply Forall_cons; [okswap6 A6|]. apply Forall_nil.
Qed.
Lemma eat_rt_ok e v : dn (eat_rt e) v = den (fdim d) (tenv (jac_arrays d H T T ++ Rs)) e v.
Proof. apply (retag_sector d H T Rs). cbn [length]. lia. Qed.
Lemma eat_comp_a w a : (a < nua d)%nat ->
  str [(false, va d a)] (eat_defect w) ref = (eat_a Z a - w * eat_a Y a) + 0.
Proof.
  intros Ha.
  assert (Q0_ : dn (eat_rt (s_eat_a 10 0)) (venv [a]) = eat_a Z a) by (rewrite eat_rt_ok; reflexivity).
  change (opsem (noa d) (nob d) eat_bra_a (venv [a]) (eat_defect w) ref = (eat_a Z a - w * eat_a Y a) + 0). unfold eat_defect. rewrite <- (eat_op_ok (venv [a])).
  rewrite (defect2_ok d I T0 n Rs eat_rts 0 En En' eat_rtok eat_own eat_syms eat_tab eat_htab eat_ext_a eat_bra_a (venv [a]) m eat_d_a eat_c_a (E + w));
    [|extv|exact eat_bk_a|cbn; lia|exact Hm|exact eat_kd_a|exact eat_kc_a].
  change (dn eat_c_a (venv [a])) with (eat_a Y a).
  change (dn eat_d_a (venv [a])) with (dn f_en (venv [a]) * (eat_a Y a) + ((dn (eat_rt (s_eat_a 10 0)) (venv [a])) + dn (EC 0 1) (venv [a]))).
  rewrite sector_en, den_zero, Q0_. ring.
Qed.
Lemma eat_comp_aa w a b i : (a < nua d)%nat -> (b < nua d)%nat -> (i < noa d)%nat ->
  str [(true, oa i); (false, va d b); (false, va d a)] (eat_defect w) ref = (eat_aa Z a b i - w * eat_aa Y a b i) + ((- (eat_a Y b * x_a X a i)) + (eat_a Y a * x_a X b i)).
Proof.
  intros Ha Hb Hi.
  assert (Q0_ : dn (eat_rt (s_eat_aa 10 0 1 2)) (venv [a; b; i]) = eat_aa Z a b i) by (rewrite eat_rt_ok; reflexivity).
  assert (Q1_ : dn (rt (r_ccsd_res_a 10 0 2)) (venv [a; b; i]) = x_a X a i) by (rewrite sector_rt by (vm_compute; reflexivity); reflexivity).
  assert (Q2_ : dn (rt (r_ccsd_res_a 10 1 2)) (venv [a; b; i]) = x_a X b i) by (rewrite sector_rt by (vm_compute; reflexivity); reflexivity).
  change (opsem (noa d) (nob d) eat_bra_aa (venv [a; b; i]) (eat_defect w) ref = (eat_aa Z a b i - w * eat_aa Y a b i) + ((- (eat_a Y b * x_a X a i)) + (eat_a Y a * x_a X b i))). unfold eat_defect. rewrite <- (eat_op_ok (venv [a; b; i])).
  rewrite (defect2_ok d I T0 n Rs eat_rts 0 En En' eat_rtok eat_own eat_syms eat_tab eat_htab eat_ext_aa eat_bra_aa (venv [a; b; i]) m eat_d_aa eat_c_aa (E + w));
    [|extv|exact eat_bk_aa|cbn; lia|exact Hm|exact eat_kd_aa|exact eat_kc_aa].
  change (dn eat_c_aa (venv [a; b; i])) with (eat_aa Y a b i).
  change (dn eat_d_aa (venv [a; b; i])) with (dn f_en (venv [a; b; i]) * (eat_aa Y a b i) + ((dn (eat_rt (s_eat_aa 10 0 1 2)) (venv [a; b; i])) + ((- (eat_a Y b * (dn (rt (r_ccsd_res_a 10 0 2)) (venv [a; b; i])))) + (eat_a Y a * (dn (rt (r_ccsd_res_a 10 1 2)) (venv [a; b; i])))))).
  rewrite sector_en, Q0_, Q1_, Q2_. ring.
Qed.
Lemma eat_comp_ab w a b i : (a < nua d)%nat -> (b < nub d)%nat -> (i < nob d)%nat ->
  str [(true, ob i); (false, vb d b); (false, va d a)] (eat_defect w) ref = (eat_ab Z a b i - w * eat_ab Y a b i) + (eat_a Y a * x_b X b i).
Proof.
  intros Ha Hb Hi.
  assert (Q0_ : dn (eat_rt (s_eat_ab 10 0 1 2)) (venv [a; b; i]) = eat_ab Z a b i) by (rewrite eat_rt_ok; reflexivity).
  assert (Q1_ : dn (rt (r_ccsd_res_b 10 1 2)) (venv [a; b; i]) = x_b X b i) by (rewrite sector_rt by (vm_compute; reflexivity); reflexivity).
  change (opsem (noa d) (nob d) eat_bra_ab (venv [a; b; i]) (eat_defect w) ref = (eat_ab Z a b i - w * eat_ab Y a b i) + (eat_a Y a * x_b X b i)). unfold eat_defect. rewrite <- (eat_op_ok (venv [a; b; i])).
  rewrite (defect2_ok d I T0 n Rs eat_rts 0 En En' eat_rtok eat_own eat_syms eat_tab eat_htab eat_ext_ab eat_bra_ab (venv [a; b; i]) m eat_d_ab eat_c_ab (E + w));
    [|extv|exact eat_bk_ab|cbn; lia|exact Hm|exact eat_kd_ab|exact eat_kc_ab].
  change (dn eat_c_ab (venv [a; b; i])) with (eat_ab Y a b i).
  change (dn eat_d_ab (venv [a; b; i])) with (dn f_en (venv [a; b; i]) * (eat_ab Y a b i) + ((dn (eat_rt (s_eat_ab 10 0 1 2)) (venv [a; b; i])) + (eat_a Y a * (dn (rt (r_ccsd_res_b 10 1 2)) (venv [a; b; i]))))).
  rewrite sector_en, Q0_, Q1_. ring.
Qed.
Lemma eat_comp_aaa w a b c i j : (a < nua d)%nat -> (b < nua d)%nat -> (c < nua d)%nat -> (i < noa d)%nat -> (j < noa d)%nat ->
  str [(true, oa i); (true, oa j); (false, va d c); (false, va d b); (false, va d a)] (eat_defect w) ref = ((((x_aa T b c i j * (eat_a Z a - w * eat_a Y a)) + (- (x_aa T a c i j * (eat_a Z b - w * eat_a Y b)))) + (x_aa T a b i j * (eat_a Z c - w * eat_a Y c))) + (eat_aaa Z a b c i j - w * eat_aaa Y a b c i j)) + (((((((((eat_a Y c * x_aa X a b i j) + (- (eat_a Y b * x_aa X a c i j))) + (eat_a Y a * x_aa X b c i j)) + (eat_aa Y b c i * x_a X a j)) + (- (eat_aa Y a c i * x_a X b j))) + (eat_aa Y a b i * x_a X c j)) + (- (eat_aa Y b c j * x_a X a i))) + (eat_aa Y a c j * x_a X b i)) + (- (eat_aa Y a b j * x_a X c i))).
Proof.
  intros Ha Hb Hc Hi Hj.
  assert (Q0_ : dn (eat_rt (s_eat_a 10 0)) (venv [a; b; c; i; j]) = eat_a Z a) by (rewrite eat_rt_ok; reflexivity).
  assert (Q1_ : dn (eat_rt (s_eat_a 10 1)) (venv [a; b; c; i; j]) = eat_a Z b) by (rewrite eat_rt_ok; reflexivity).
  assert (Q2_ : dn (eat_rt (s_eat_a 10 2)) (venv [a; b; c; i; j]) = eat_a Z c) by (rewrite eat_rt_ok; reflexivity).
  assert (Q3_ : dn (eat_rt (s_eat_aaa 10 0 1 2 3 4)) (venv [a; b; c; i; j]) = eat_aaa Z a b c i j) by (rewrite eat_rt_ok; reflexivity).
  assert (Q4_ : dn (rt (r_resid_aa 10 0 1 3 4)) (venv [a; b; c; i; j]) = x_aa X a b i j) by (rewrite sector_rt by (vm_compute; reflexivity); reflexivity).
  assert (Q5_ : dn (rt (r_resid_aa 10 0 2 3 4)) (venv [a; b; c; i; j]) = x_aa X a c i j) by (rewrite sector_rt by (vm_compute; reflexivity); reflexivity).
  assert (Q6_ : dn (rt (r_resid_aa 10 1 2 3 4)) (venv [a; b; c; i; j]) = x_aa X b c i j) by (rewrite sector_rt by (vm_compute; reflexivity); reflexivity).
  assert (Q7_ : dn (rt (r_ccsd_res_a 10 0 4)) (venv [a; b; c; i; j]) = x_a X a j) by (rewrite sector_rt by (vm_compute; reflexivity); reflexivity).
  assert (Q8_ : dn (rt (r_ccsd_res_a 10 1 4)) (venv [a; b; c; i; j]) = x_a X b j) by (rewrite sector_rt by (vm_compute; reflexivity); reflexivity).
  assert (Q9_ : dn (rt (r_ccsd_res_a 10 2 4)) (venv [a; b; c; i; j]) = x_a X c j) by (rewrite sector_rt by (vm_compute; reflexivity); reflexivity).
  assert (Q10_ : dn (rt (r_ccsd_res_a 10 0 3)) (venv [a; b; c; i; j]) = x_a X a i) by (rewrite sector_rt by (vm_compute; reflexivity); reflexivity).
  assert (Q11_ : dn (rt (r_ccsd_res_a 10 1 3)) (venv [a; b; c; i; j]) = x_a X b i) by (rewrite sector_rt by (vm_compute; reflexivity); reflexivity).
  assert (Q12_ : dn (rt (r_ccsd_res_a 10 2 3)) (venv [a; b; c; i; j]) = x_a X c i) by (rewrite sector_rt by (vm_compute; reflexivity); reflexivity).
  change (opsem (noa d) (nob d) eat_bra_aaa (venv [a; b; c; i; j]) (eat_defect w) ref = ((((x_aa T b c i j * (eat_a Z a - w * eat_a Y a)) + (- (x_aa T a c i j * (eat_a Z b - w * eat_a Y b)))) + (x_aa T a b i j * (eat_a Z c - w * eat_a Y c))) + (eat_aaa Z a b c i j - w * eat_aaa Y a b c i j)) + (((((((((eat_a Y c * x_aa X a b i j) + (- (eat_a Y b * x_aa X a c i j))) + (eat_a Y a * x_aa X b c i j)) + (eat_aa Y b c i * x_a X a j)) + (- (eat_aa Y a c i * x_a X b j))) + (eat_aa Y a b i * x_a X c j)) + (- (eat_aa Y b c j * x_a X a i))) + (eat_aa Y a c j * x_a X b i)) + (- (eat_aa Y a b j * x_a X c i)))). unfold eat_defect. rewrite <- (eat_op_ok (venv [a; b; c; i; j])).
  rewrite (defect2_ok d I T0 n Rs eat_rts 0 En En' eat_rtok eat_own eat_syms eat_tab eat_htab eat_ext_aaa eat_bra_aaa (venv [a; b; c; i; j]) m eat_d_aaa eat_c_aaa (E + w));
    [|extv|exact eat_bk_aaa|cbn; lia|exact Hm|exact eat_kd_aaa|exact eat_kc_aaa].
  change (dn eat_c_aaa (venv [a; b; c; i; j])) with (((((x_aa T b c i j * eat_a Y a) + (- (x_aa T a c i j * eat_a Y b))) + (x_aa T a b i j * eat_a Y c)) + eat_aaa Y a b c i j)).
  change (dn eat_d_aaa (venv [a; b; c; i; j])) with (dn f_en (venv [a; b; c; i; j]) * (((((x_aa T b c i j * eat_a Y a) + (- (x_aa T a c i j * eat_a Y b))) + (x_aa T a b i j * eat_a Y c)) + eat_aaa Y a b c i j)) + (((((x_aa T b c i j * (dn (eat_rt (s_eat_a 10 0)) (venv [a; b; c; i; j]))) + (- (x_aa T a c i j * (dn (eat_rt (s_eat_a 10 1)) (venv [a; b; c; i; j]))))) + (x_aa T a b i j * (dn (eat_rt (s_eat_a 10 2)) (venv [a; b; c; i; j])))) + (dn (eat_rt (s_eat_aaa 10 0 1 2 3 4)) (venv [a; b; c; i; j]))) + (((((((((eat_a Y c * (dn (rt (r_resid_aa 10 0 1 3 4)) (venv [a; b; c; i; j]))) + (- (eat_a Y b * (dn (rt (r_resid_aa 10 0 2 3 4)) (venv [a; b; c; i; j]))))) + (eat_a Y a * (dn (rt (r_resid_aa 10 1 2 3 4)) (venv [a; b; c; i; j])))) + (eat_aa Y b c i * (dn (rt (r_ccsd_res_a 10 0 4)) (venv [a; b; c; i; j])))) + (- (eat_aa Y a c i * (dn (rt (r_ccsd_res_a 10 1 4)) (venv [a; b; c; i; j]))))) + (eat_aa Y a b i * (dn (rt (r_ccsd_res_a 10 2 4)) (venv [a; b; c; i; j])))) + (- (eat_aa Y b c j * (dn (rt (r_ccsd_res_a 10 0 3)) (venv [a; b; c; i; j]))))) + (eat_aa Y a c j * (dn (rt (r_ccsd_res_a 10 1 3)) (venv [a; b; c; i; j])))) + (- (eat_aa Y a b j * (dn (rt (r_ccsd_res_a 10 2 3)) (venv [a; b; c; i; j]))))))).
  rewrite sector_en, Q0_, Q1_, Q2_, Q3_, Q4_, Q5_, Q6_, Q7_, Q8_, Q9_, Q10_, Q11_, Q12_. ring.
Qed.
Lemma eat_comp_aab w a b c i j : (a < nua d)%nat -> (b < nua d)%nat -> (c < nub d)%nat -> (i < noa d)%nat -> (j < nob d)%nat ->
  str [(true, oa i); (true, ob j); (false, vb d c); (false, va d b); (false, va d a)] (eat_defect w) ref = (((x_ab T b c i j * (eat_a Z a - w * eat_a Y a)) + (- (x_ab T a c i j * (eat_a Z b - w * eat_a Y b)))) + (eat_aab Z a b c i j - w * eat_aab Y a b c i j)) + (((((- (eat_a Y b * x_ab X a c i j)) + (eat_a Y a * x_ab X b c i j)) + (eat_aa Y a b i * x_b X c j)) + (- (eat_ab Y b c j * x_a X a i))) + (eat_ab Y a c j * x_a X b i)).
Proof.
  intros Ha Hb Hc Hi Hj.
  assert (Q0_ : dn (eat_rt (s_eat_a 10 0)) (venv [a; b; c; i; j]) = eat_a Z a) by (rewrite eat_rt_ok; reflexivity).
  assert (Q1_ : dn (eat_rt (s_eat_a 10 1)) (venv [a; b; c; i; j]) = eat_a Z b) by (rewrite eat_rt_ok; reflexivity).
  assert (Q2_ : dn (eat_rt (s_eat_aab 10 0 1 2 3 4)) (venv [a; b; c; i; j]) = eat_aab Z a b c i j) by (rewrite eat_rt_ok; reflexivity).
  assert (Q3_ : dn (rt (r_ccsd_res_ab 10 0 2 3 4)) (venv [a; b; c; i; j]) = x_ab X a c i j) by (rewrite sector_rt by (vm_compute; reflexivity); reflexivity).
  assert (Q4_ : dn (rt (r_ccsd_res_ab 10 1 2 3 4)) (venv [a; b; c; i; j]) = x_ab X b c i j) by (rewrite sector_rt by (vm_compute; reflexivity); reflexivity).
  assert (Q5_ : dn (rt (r_ccsd_res_b 10 2 4)) (venv [a; b; c; i; j]) = x_b X c j) by (rewrite sector_rt by (vm_compute; reflexivity); reflexivity).
  assert (Q6_ : dn (rt (r_ccsd_res_a 10 0 3)) (venv [a; b; c; i; j]) = x_a X a i) by (rewrite sector_rt by (vm_compute; reflexivity); reflexivity).
  assert (Q7_ : dn (rt (r_ccsd_res_a 10 1 3)) (venv [a; b; c; i; j]) = x_a X b i) by (rewrite sector_rt by (vm_compute; reflexivity); reflexivity).
  change (opsem (noa d) (nob d) eat_bra_aab (venv [a; b; c; i; j]) (eat_defect w) ref = (((x_ab T b c i j * (eat_a Z a - w * eat_a Y a)) + (- (x_ab T a c i j * (eat_a Z b - w * eat_a Y b)))) + (eat_aab Z a b c i j - w * eat_aab Y a b c i j)) + (((((- (eat_a Y b * x_ab X a c i j)) + (eat_a Y a * x_ab X b c i j)) + (eat_aa Y a b i * x_b X c j)) + (- (eat_ab Y b c j * x_a X a i))) + (eat_ab Y a c j * x_a X b i))). unfold eat_defect. rewrite <- (eat_op_ok (venv [a; b; c; i; j])).
  rewrite (defect2_ok d I T0 n Rs eat_rts 0 En En' eat_rtok eat_own eat_syms eat_tab eat_htab eat_ext_aab eat_bra_aab (venv [a; b; c; i; j]) m eat_d_aab eat_c_aab (E + w));
    [|extv|exact eat_bk_aab|cbn; lia|exact Hm|exact eat_kd_aab|exact eat_kc_aab].
  change (dn eat_c_aab (venv [a; b; c; i; j])) with ((((x_ab T b c i j * eat_a Y a) + (- (x_ab T a c i j * eat_a Y b))) + eat_aab Y a b c i j)).
  change (dn eat_d_aab (venv [a; b; c; i; j])) with (dn f_en (venv [a; b; c; i; j]) * ((((x_ab T b c i j * eat_a Y a) + (- (x_ab T a c i j * eat_a Y b))) + eat_aab Y a b c i j)) + ((((x_ab T b c i j * (dn (eat_rt (s_eat_a 10 0)) (venv [a; b; c; i; j]))) + (- (x_ab T a c i j * (dn (eat_rt (s_eat_a 10 1)) (venv [a; b; c; i; j]))))) + (dn (eat_rt (s_eat_aab 10 0 1 2 3 4)) (venv [a; b; c; i; j]))) + (((((- (eat_a Y b * (dn (rt (r_ccsd_res_ab 10 0 2 3 4)) (venv [a; b; c; i; j])))) + (eat_a Y a * (dn (rt (r_ccsd_res_ab 10 1 2 3 4)) (venv [a; b; c; i; j])))) + (eat_aa Y a b i * (dn (rt (r_ccsd_res_b 10 2 4)) (venv [a; b; c; i; j])))) + (- (eat_ab Y b c j * (dn (rt (r_ccsd_res_a 10 0 3)) (venv [a; b; c; i; j]))))) + (eat_ab Y a c j * (dn (rt (r_ccsd_res_a 10 1 3)) (venv [a; b; c; i; j])))))).
  rewrite sector_en, Q0_, Q1_, Q2_, Q3_, Q4_, Q5_, Q6_, Q7_. ring.
Qed.
Lemma eat_comp_abb w a b c i j : (a < nua d)%nat -> (b < nub d)%nat -> (c < nub d)%nat -> (i < nob d)%nat -> (j < nob d)%nat ->
  str [(true, ob i); (true, ob j); (false, vb d c); (false, vb d b); (false, va d a)] (eat_defect w) ref = ((x_bb T b c i j * (eat_a Z a - w * eat_a Y a)) + (eat_abb Z a b c i j - w * eat_abb Y a b c i j)) + (((((eat_a Y a * x_bb X b c i j) + (- (eat_ab Y a c i * x_b X b j))) + (eat_ab Y a b i * x_b X c j)) + (eat_ab Y a c j * x_b X b i)) + (- (eat_ab Y a b j * x_b X c i))).
Proof.
  intros Ha Hb Hc Hi Hj.
  assert (Q0_ : dn (eat_rt (s_eat_a 10 0)) (venv [a; b; c; i; j]) = eat_a Z a) by (rewrite eat_rt_ok; reflexivity).
  assert (Q1_ : dn (eat_rt (s_eat_abb 10 0 1 2 3 4)) (venv [a; b; c; i; j]) = eat_abb Z a b c i j) by (rewrite eat_rt_ok; reflexivity).
  assert (Q2_ : dn (rt (r_resid_bb 10 1 2 3 4)) (venv [a; b; c; i; j]) = x_bb X b c i j) by (rewrite sector_rt by (vm_compute; reflexivity); reflexivity).
  assert (Q3_ : dn (rt (r_ccsd_res_b 10 1 4)) (venv [a; b; c; i; j]) = x_b X b j) by (rewrite sector_rt by (vm_compute; reflexivity); reflexivity).
  assert (Q4_ : dn (rt (r_ccsd_res_b 10 2 4)) (venv [a; b; c; i; j]) = x_b X c j) by (rewrite sector_rt by (vm_compute; reflexivity); reflexivity).
  assert (Q5_ : dn (rt (r_ccsd_res_b 10 1 3)) (venv [a; b; c; i; j]) = x_b X b i) by (rewrite sector_rt by (vm_compute; reflexivity); reflexivity).
  assert (Q6_ : dn (rt (r_ccsd_res_b 10 2 3)) (venv [a; b; c; i; j]) = x_b X c i) by (rewrite sector_rt by (vm_compute; reflexivity); reflexivity).
  change (opsem (noa d) (nob d) eat_bra_abb (venv [a; b; c; i; j]) (eat_defect w) ref = ((x_bb T b c i j * (eat_a Z a - w * eat_a Y a)) + (eat_abb Z a b c i j - w * eat_abb Y a b c i j)) + (((((eat_a Y a * x_bb X b c i j) + (- (eat_ab Y a c i * x_b X b j))) + (eat_ab Y a b i * x_b X c j)) + (eat_ab Y a c j * x_b X b i)) + (- (eat_ab Y a b j * x_b X c i)))). unfold eat_defect. rewrite <- (eat_op_ok (venv [a; b; c; i; j])).
  rewrite (defect2_ok d I T0 n Rs eat_rts 0 En En' eat_rtok eat_own eat_syms eat_tab eat_htab eat_ext_abb eat_bra_abb (venv [a; b; c; i; j]) m eat_d_abb eat_c_abb (E + w));
    [|extv|exact eat_bk_abb|cbn; lia|exact Hm|exact eat_kd_abb|exact eat_kc_abb].
  change (dn eat_c_abb (venv [a; b; c; i; j])) with (((x_bb T b c i j * eat_a Y a) + eat_abb Y a b c i j)).
  change (dn eat_d_abb (venv [a; b; c; i; j])) with (dn f_en (venv [a; b; c; i; j]) * (((x_bb T b c i j * eat_a Y a) + eat_abb Y a b c i j)) + (((x_bb T b c i j * (dn (eat_rt (s_eat_a 10 0)) (venv [a; b; c; i; j]))) + (dn (eat_rt (s_eat_abb 10 0 1 2 3 4)) (venv [a; b; c; i; j]))) + (((((eat_a Y a * (dn (rt (r_resid_bb 10 1 2 3 4)) (venv [a; b; c; i; j]))) + (- (eat_ab Y a c i * (dn (rt (r_ccsd_res_b 10 1 4)) (venv [a; b; c; i; j]))))) + (eat_ab Y a b i * (dn (rt (r_ccsd_res_b 10 2 4)) (venv [a; b; c; i; j])))) + (eat_ab Y a c j * (dn (rt (r_ccsd_res_b 10 1 3)) (venv [a; b; c; i; j])))) + (- (eat_ab Y a b j * (dn (rt (r_ccsd_res_b 10 2 3)) (venv [a; b; c; i; j]))))))).
  rewrite sector_en, Q0_, Q1_, Q2_, Q3_, Q4_, Q5_, Q6_. ring.
Qed.
Lemma eat_solves w : same_amps d X zero_amps -> (solves_on (eat_space d n) n I (E + w) (eat_op d Y psi) <-> eat_root d Z Y w).
Proof.
  intros [Za Zb Zaa Zab Zbb]. cbn [zero_amps x_a x_b x_aa x_ab x_bb] in Za, Zb, Zaa, Zab, Zbb.
  assert (F := eat_flat d n (eat_defect w) En En').
  transitivity (forall D, eat_space d n D -> eat_defect w D = 0); [unfold solves_on, eat_defect; split; intros G D HD; specialize (G D HD); [rewrite G; ring|lra]|]. rewrite F. clear F. unfold eat_root. split.
  - intros (F0 & F1 & F2 & F3 & F4 & F5).
    assert (L0 : forall a, (a < nua d)%nat -> eat_a Z a - w * eat_a Y a = 0).
    { intros a Ha. specialize (F0 a Ha). rewrite eat_comp_a in F0 by assumption. rewrite <- F0. ring. }
    assert (L1 : forall a b i, (a < nua d)%nat -> (b < nua d)%nat -> (i < noa d)%nat -> eat_aa Z a b i - w * eat_aa Y a b i = 0).
    { intros a b i Ha Hb Hi. specialize (F1 a b i Ha Hb Hi). rewrite eat_comp_aa, !Za in F1 by assumption. rewrite <- F1. ring. }
    assert (L2 : forall a b i, (a < nua d)%nat -> (b < nub d)%nat -> (i < nob d)%nat -> eat_ab Z a b i - w * eat_ab Y a b i = 0).
    { intros a b i Ha Hb Hi. specialize (F2 a b i Ha Hb Hi). rewrite eat_comp_ab, !Zb in F2 by assumption. rewrite <- F2. ring. }
    assert (L3 : forall a b c i j, (a < nua d)%nat -> (b < nua d)%nat -> (c < nua d)%nat -> (i < noa d)%nat -> (j < noa d)%nat -> eat_aaa Z a b c i j - w * eat_aaa Y a b c i j = 0).
    { intros a b c i j Ha Hb Hc Hi Hj. specialize (F3 a b c i j Ha Hb Hc Hi Hj). rewrite eat_comp_aaa, !Za, !Zaa, !L0 in F3 by assumption. rewrite <- F3. ring. }
    assert (L4 : forall a b c i j, (a < nua d)%nat -> (b < nua d)%nat -> (c < nub d)%nat -> (i < noa d)%nat -> (j < nob d)%nat -> eat_aab Z a b c i j - w * eat_aab Y a b c i j = 0).
    { intros a b c i j Ha Hb Hc Hi Hj. specialize (F4 a b c i j Ha Hb Hc Hi Hj). rewrite eat_comp_aab, !Za, !Zb, !Zab, !L0 in F4 by assumption. rewrite <- F4. ring. }
    assert (L5 : forall a b c i j, (a < nua d)%nat -> (b < nub d)%nat -> (c < nub d)%nat -> (i < nob d)%nat -> (j < nob d)%nat -> eat_abb Z a b c i j - w * eat_abb Y a b c i j = 0).
    { intros a b c i j Ha Hb Hc Hi Hj. specialize (F5 a b c i j Ha Hb Hc Hi Hj). rewrite eat_comp_abb, !Zb, !Zbb, !L0 in F5 by assumption. rewrite <- F5. ring. }
    split; [|split; [|split; [|split; [|split; [|]]]]]; intros; apply Rminus_diag_uniq; auto.
  - intros (G0 & G1 & G2 & G3 & G4 & G5).
    assert (L0 : forall a, (a < nua d)%nat -> eat_a Z a - w * eat_a Y a = 0) by (intros; rewrite G0 by assumption; ring).
    assert (L1 : forall a b i, (a < nua d)%nat -> (b < nua d)%nat -> (i < noa d)%nat -> eat_aa Z a b i - w * eat_aa Y a b i = 0) by (intros; rewrite G1 by assumption; ring).
    assert (L2 : forall a b i, (a < nua d)%nat -> (b < nub d)%nat -> (i < nob d)%nat -> eat_ab Z a b i - w * eat_ab Y a b i = 0) by (intros; rewrite G2 by assumption; ring).
    assert (L3 : forall a b c i j, (a < nua d)%nat -> (b < nua d)%nat -> (c < nua d)%nat -> (i < noa d)%nat -> (j < noa d)%nat -> eat_aaa Z a b c i j - w * eat_aaa Y a b c i j = 0) by (intros; rewrite G3 by assumption; ring).
    assert (L4 : forall a b c i j, (a < nua d)%nat -> (b < nua d)%nat -> (c < nub d)%nat -> (i < noa d)%nat -> (j < nob d)%nat -> eat_aab Z a b c i j - w * eat_aab Y a b c i j = 0) by (intros; rewrite G4 by assumption; ring).
    assert (L5 : forall a b c i j, (a < nua d)%nat -> (b < nub d)%nat -> (c < nub d)%nat -> (i < nob d)%nat -> (j < nob d)%nat -> eat_abb Z a b c i j - w * eat_abb Y a b c i j = 0) by (intros; rewrite G5 by assumption; ring).
    split; [|split; [|split; [|split; [|split; [|]]]]].
    + intros a Ha. rewrite eat_comp_a, !L0 by assumption. ring.
    + intros a b i Ha Hb Hi. rewrite eat_comp_aa, !Za, !L1 by assumption. ring.
    + intros a b i Ha Hb Hi. rewrite eat_comp_ab, !Zb, !L2 by assumption. ring.
    + intros a b c i j Ha Hb Hc Hi Hj. rewrite eat_comp_aaa, !Za, !Zaa, !L0, !L3 by assumption. ring.
    + intros a b c i j Ha Hb Hc Hi Hj. rewrite eat_comp_aab, !Za, !Zb, !Zab, !L0, !L4 by assumption. ring.
    + intros a b c i j Ha Hb Hc Hi Hj. rewrite eat_comp_abb, !Zb, !Zbb, !L0, !L5 by assumption. ring.
Qed.
End P.
