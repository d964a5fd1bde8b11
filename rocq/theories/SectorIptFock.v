(** Generated by tools/gen_sec3fock.py: components of (H - E - w) R exp(T2) |ref> for the IP (3h2p) operator (proof support). *)
From Coq Require Import Reals Arith NArith List Bool Lia Lra QArith Qreals ZArith FunctionalExtensionality.
From Verif Require Import RSum IntegralsModel TensorObjs TensorAlg TensorSpec CcsdModel CcsdUpdate CcsdReify CcsdProps FockSpec FockCar FockWick FockArrays FockCcSpec FockTerms FockHam FockExp FockLevel FockCheck FockState FockNear FockProj FockSector FockSectorTools
  FockFast FockSectorSpec FockFlip RankSpec FockShift FockSector3 FockTools3 Sector3Model Sector3Spec FockSpaces3 SectorIptReify.
Import ListNotations.
Local Open Scope nat_scope.
Definition ipt_rts : list term := [mkTerm (1 # 1) [(40, 0)] [(66, [40])] [A 0 40]; mkTerm (1 # 2) [(40, 0); (41, 1); (42, 0)] [(67, [40; 41; 42])] [C 1 41; A 0 42; A 0 40]; mkTerm (1 # 1) [(40, 0); (41, 3); (42, 2)] [(68, [40; 41; 42])] [C 3 41; A 2 42; A 0 40]; mkTerm (1 # 12) [(40, 0); (41, 1); (42, 1); (43, 0); (44, 0)] [(69, [40; 41; 42; 43; 44])] [C 1 41; C 1 42; A 0 44; A 0 43; A 0 40]; mkTerm (1 # 2) [(40, 0); (41, 1); (42, 3); (43, 0); (44, 2)] [(70, [40; 41; 42; 43; 44])] [C 1 41; C 3 42; A 2 44; A 0 43; A 0 40]; mkTerm (1 # 4) [(40, 0); (41, 3); (42, 3); (43, 2); (44, 2)] [(71, [40; 41; 42; 43; 44])] [C 3 41; C 3 42; A 2 44; A 2 43; A 0 40]].
Definition ipt_own : list (nat * (nat * list nat * bool)) := [(67, (67, [2; 1; 0], false)); (69, (69, [3; 1; 2; 0; 4], false)); (69, (69, [0; 1; 2; 4; 3], false)); (69, (69, [0; 2; 1; 3; 4], false)); (70, (70, [3; 1; 2; 0; 4], false)); (71, (71, [0; 1; 2; 4; 3], false)); (71, (71, [0; 2; 1; 3; 4], false))].
Definition ipt_gens := fock_gens ++ ipt_own.
Definition ipt_tab := Eval vm_compute in symtab ipt_gens 72.
Definition ipt_rt e := retag (to_sector 6) e.
Lemma ipt_htab : ipt_tab = symtab ipt_gens 72. Proof. vm_compute. reflexivity. Qed.
Lemma ipt_rtok : rtok ipt_rts 1 = true. Proof. vm_compute. reflexivity. Qed.
Definition ipt_bra_a : list op := [C 0 0].
Definition ipt_ext_a : list (nat * nat) := [(0, 0)].
Definition ipt_c_a := (ET 66 [0]).
Definition ipt_d_a := EAdd (EMul f_en ipt_c_a) (EAdd (ipt_rt (s_ipt_a 10 0))
  (EC 0 1)).
Lemma ipt_bk_a : braok ipt_ext_a ipt_bra_a = true. Proof. vm_compute. reflexivity. Qed.
Lemma ipt_kc_a : fock_fast ipt_tab ipt_ext_a (eek2 ipt_bra_a ipt_rts) ipt_c_a = true. Proof. vm_compute. reflexivity. Qed.
Lemma ipt_kd_a : fock_fast ipt_tab ipt_ext_a (hek2 ipt_bra_a ipt_rts) (kill ipt_d_a) = true. Proof. vm_compute. reflexivity. Qed.
Definition ipt_bra_aa : list op := [C 0 0; C 0 2; A 1 1].
Definition ipt_ext_aa : list (nat * nat) := [(0, 0); (1, 1); (2, 0)].
Definition ipt_c_aa := (ET 67 [0; 1; 2]).
Definition ipt_d_aa := EAdd (EMul f_en ipt_c_aa) (EAdd (ipt_rt (s_ipt_aa 10 0 1 2))
  (EAdd (EMul (ET 66 [0]) (rt (r_ccsd_res_a 10 1 2)))
   (EOpp (EMul (ET 66 [2]) (rt (r_ccsd_res_a 10 1 0)))))).
Lemma ipt_bk_aa : braok ipt_ext_aa ipt_bra_aa = true. Proof. vm_compute. reflexivity. Qed.
Lemma ipt_kc_aa : fock_fast ipt_tab ipt_ext_aa (eek2 ipt_bra_aa ipt_rts) ipt_c_aa = true. Proof. vm_compute. reflexivity. Qed.
Lemma ipt_kd_aa : fock_fast ipt_tab ipt_ext_aa (hek2 ipt_bra_aa ipt_rts) (kill ipt_d_aa) = true. Proof. vm_compute. reflexivity. Qed.
Definition ipt_bra_ab : list op := [C 0 0; C 2 2; A 3 1].
Definition ipt_ext_ab : list (nat * nat) := [(0, 0); (1, 3); (2, 2)].
Definition ipt_c_ab := (ET 68 [0; 1; 2]).
Definition ipt_d_ab := EAdd (EMul f_en ipt_c_ab) (EAdd (ipt_rt (s_ipt_ab 10 0 1 2))
  (EMul (ET 66 [0]) (rt (r_ccsd_res_b 10 1 2)))).
Lemma ipt_bk_ab : braok ipt_ext_ab ipt_bra_ab = true. Proof. vm_compute. reflexivity. Qed.
Lemma ipt_kc_ab : fock_fast ipt_tab ipt_ext_ab (eek2 ipt_bra_ab ipt_rts) ipt_c_ab = true. Proof. vm_compute. reflexivity. Qed.
Lemma ipt_kd_ab : fock_fast ipt_tab ipt_ext_ab (hek2 ipt_bra_ab ipt_rts) (kill ipt_d_ab) = true. Proof. vm_compute. reflexivity. Qed.
Definition ipt_bra_aaa : list op := [C 0 0; C 0 3; C 0 4; A 1 2; A 1 1].
Definition ipt_ext_aaa : list (nat * nat) := [(0, 0); (1, 1); (2, 1); (3, 0); (4, 0)].
Definition ipt_c_aaa := (EAdd (EAdd (EAdd (EMul (ET 2 [1; 2; 0; 3]) (ET 66 [4]))
   (EOpp (EMul (ET 2 [1; 2; 0; 4]) (ET 66 [3]))))
   (EMul (ET 2 [1; 2; 3; 4]) (ET 66 [0])))
   (ET 69 [0; 1; 2; 3; 4])).
Definition ipt_d_aaa := EAdd (EMul f_en ipt_c_aaa) (EAdd (EAdd (EAdd (EAdd (EMul (ET 2 [1; 2; 0; 3]) (ipt_rt (s_ipt_a 10 4)))
   (EOpp (EMul (ET 2 [1; 2; 0; 4]) (ipt_rt (s_ipt_a 10 3)))))
   (EMul (ET 2 [1; 2; 3; 4]) (ipt_rt (s_ipt_a 10 0))))
   (ipt_rt (s_ipt_aaa 10 0 1 2 3 4)))
  (EAdd (EAdd (EAdd (EAdd (EAdd (EAdd (EAdd (EAdd (EMul (ET 66 [0]) (rt (r_resid_aa 10 1 2 3 4)))
   (EOpp (EMul (ET 66 [3]) (rt (r_resid_aa 10 1 2 0 4)))))
   (EMul (ET 66 [4]) (rt (r_resid_aa 10 1 2 0 3))))
   (EOpp (EMul (ET 67 [0; 2; 3]) (rt (r_ccsd_res_a 10 1 4)))))
   (EMul (ET 67 [0; 1; 3]) (rt (r_ccsd_res_a 10 2 4))))
   (EMul (ET 67 [0; 2; 4]) (rt (r_ccsd_res_a 10 1 3))))
   (EOpp (EMul (ET 67 [0; 1; 4]) (rt (r_ccsd_res_a 10 2 3)))))
   (EOpp (EMul (ET 67 [3; 2; 4]) (rt (r_ccsd_res_a 10 1 0)))))
   (EMul (ET 67 [3; 1; 4]) (rt (r_ccsd_res_a 10 2 0))))).
Lemma ipt_bk_aaa : braok ipt_ext_aaa ipt_bra_aaa = true. Proof. vm_compute. reflexivity. Qed.
Lemma ipt_kc_aaa : fock_fast ipt_tab ipt_ext_aaa (eek2 ipt_bra_aaa ipt_rts) ipt_c_aaa = true. Proof. vm_compute. reflexivity. Qed.
Lemma ipt_kd_aaa : fock_fast ipt_tab ipt_ext_aaa (hek2 ipt_bra_aaa ipt_rts) (kill ipt_d_aaa) = true. Proof. vm_compute. reflexivity. Qed.
Definition ipt_bra_aab : list op := [C 0 0; C 0 3; C 2 4; A 3 2; A 1 1].
Definition ipt_ext_aab : list (nat * nat) := [(0, 0); (1, 1); (2, 3); (3, 0); (4, 2)].
Definition ipt_c_aab := (EAdd (EAdd (EOpp (EMul (ET 3 [1; 2; 0; 4]) (ET 66 [3])))
   (EMul (ET 3 [1; 2; 3; 4]) (ET 66 [0])))
   (ET 70 [0; 1; 2; 3; 4])).
Definition ipt_d_aab := EAdd (EMul f_en ipt_c_aab) (EAdd (EAdd (EAdd (EOpp (EMul (ET 3 [1; 2; 0; 4]) (ipt_rt (s_ipt_a 10 3))))
   (EMul (ET 3 [1; 2; 3; 4]) (ipt_rt (s_ipt_a 10 0))))
   (ipt_rt (s_ipt_aab 10 0 1 2 3 4)))
  (EAdd (EAdd (EAdd (EAdd (EMul (ET 66 [0]) (rt (r_ccsd_res_ab 10 1 2 3 4)))
   (EOpp (EMul (ET 66 [3]) (rt (r_ccsd_res_ab 10 1 2 0 4)))))
   (EMul (ET 67 [0; 1; 3]) (rt (r_ccsd_res_b 10 2 4))))
   (EMul (ET 68 [0; 2; 4]) (rt (r_ccsd_res_a 10 1 3))))
   (EOpp (EMul (ET 68 [3; 2; 4]) (rt (r_ccsd_res_a 10 1 0)))))).
Lemma ipt_bk_aab : braok ipt_ext_aab ipt_bra_aab = true. Proof. vm_compute. reflexivity. Qed.
Lemma ipt_kc_aab : fock_fast ipt_tab ipt_ext_aab (eek2 ipt_bra_aab ipt_rts) ipt_c_aab = true. Proof. vm_compute. reflexivity. Qed.
Lemma ipt_kd_aab : fock_fast ipt_tab ipt_ext_aab (hek2 ipt_bra_aab ipt_rts) (kill ipt_d_aab) = true. Proof. vm_compute. reflexivity. Qed.
Definition ipt_bra_abb : list op := [C 0 0; C 2 3; C 2 4; A 3 2; A 3 1].
Definition ipt_ext_abb : list (nat * nat) := [(0, 0); (1, 3); (2, 3); (3, 2); (4, 2)].
Definition ipt_c_abb := (EAdd (EMul (ET 4 [1; 2; 3; 4]) (ET 66 [0]))
   (ET 71 [0; 1; 2; 3; 4])).
Definition ipt_d_abb := EAdd (EMul f_en ipt_c_abb) (EAdd (EAdd (EMul (ET 4 [1; 2; 3; 4]) (ipt_rt (s_ipt_a 10 0)))
   (ipt_rt (s_ipt_abb 10 0 1 2 3 4)))
  (EAdd (EAdd (EAdd (EAdd (EMul (ET 66 [0]) (rt (r_resid_bb 10 1 2 3 4)))
   (EOpp (EMul (ET 68 [0; 2; 3]) (rt (r_ccsd_res_b 10 1 4)))))
   (EMul (ET 68 [0; 1; 3]) (rt (r_ccsd_res_b 10 2 4))))
   (EMul (ET 68 [0; 2; 4]) (rt (r_ccsd_res_b 10 1 3))))
   (EOpp (EMul (ET 68 [0; 1; 4]) (rt (r_ccsd_res_b 10 2 3)))))).
Lemma ipt_bk_abb : braok ipt_ext_abb ipt_bra_abb = true. Proof. vm_compute. reflexivity. Qed.
Lemma ipt_kc_abb : fock_fast ipt_tab ipt_ext_abb (eek2 ipt_bra_abb ipt_rts) ipt_c_abb = true. Proof. vm_compute. reflexivity. Qed.
Lemma ipt_kd_abb : fock_fast ipt_tab ipt_ext_abb (hek2 ipt_bra_abb ipt_rts) (kill ipt_d_abb) = true. Proof. vm_compute. reflexivity. Qed.
Local Open Scope R_scope.
Section P.
Variables (d : dims) (I : integrals) (T0 : amps) (Y : iptv) (n m : nat).
Hypothesis En : (noa d + nua d = n)%nat.
Hypothesis En' : (nob d + nub d = n)%nat.
Hypothesis HI : exchangeable I.
Hypothesis HT : antisym_amps T0.
Hypothesis HY : ipt_anti Y.
Hypothesis Hm : (2 <= m)%nat.
Notation T := (bare T0).
Notation H := (fock_ints (noa d) (nob d) I).
Notation ref := (reference (noa d) (nob d)).
Notation psi := (expo (cluster_sd d T) m (pure ref)).
Notation E := (scf_energy (noa d) (nob d) I + cc_energy d H T).
Notation Rs := [ap1 (ipt_a Y); ap3 (ipt_aa Y); ap3 (ipt_ab Y); ap5 (ipt_aaa Y); ap5 (ipt_aab Y); ap5 (ipt_abb Y)].
Notation ten := (tenv (fock_arrays H T ++ Rs)).
Notation dn e v := (den (fdim d) ten e v).
Notation X := (ccsd_resid d H T).
Notation Z := (ipt_HR d (hbar_ccsd d H T) T Y).
Definition ipt_defect (w : R) : state := fun D => hamiltonian n I (ipt_op d Y psi) D - (E + w) * ipt_op d Y psi D.
Lemma ipt_op_ok v phi : psem (noa d) (nob d) (fdim d) ten ipt_rts v phi = ipt_op d Y phi.
Proof. opok ipt_rts ipt_op. Qed.
Lemma ipt_syms : Forall (fun g => okalt ten (fst g) (snd g)) ipt_gens.
Proof.
  apply sector_syms; [exact (fock_ints_antisym _ _ _ HI)|exact (bare_anti _ HT)|]. destruct HY as (A0 & A1 & A2 & A3 & A4 & A5 & A6).
  apply Forall_cons; [okswap6 A0|]. apply Forall_cons; [okswap6 A1|]. apply Forall_cons; [okswap6 A2|]. apply Forall_cons; [okswap6 A3|]. apply Forall_cons; [okswap6 A4|]. apply Forall_cons; [okswap6 A5|]. apply Forall_cons; [okswap6 A6|]. apply Forall_nil.
Qed.
Lemma ipt_rt_ok e v : dn (ipt_rt e) v = den (fdim d) (tenv (jac_arrays d H T T ++ Rs)) e v.
Proof. apply (retag_sector d H T Rs). cbn [length]. lia. Qed.
Lemma ipt_comp_a w i : (i < noa d)%nat ->
  str [(true, oa i)] (ipt_defect w) ref = (ipt_a Z i - w * ipt_a Y i) + 0.
Proof.
  intros Hi.
  assert (Q0_ : dn (ipt_rt (s_ipt_a 10 0)) (venv [i]) = ipt_a Z i) by (rewrite ipt_rt_ok; reflexivity).
  change (opsem (noa d) (nob d) ipt_bra_a (venv [i]) (ipt_defect w) ref = (ipt_a Z i - w * ipt_a Y i) + 0). unfold ipt_defect. rewrite <- (ipt_op_ok (venv [i])).
  rewrite (defect2_ok d I T0 n Rs ipt_rts 1 En En' ipt_rtok ipt_own ipt_syms ipt_tab ipt_htab ipt_ext_a ipt_bra_a (venv [i]) m ipt_d_a ipt_c_a (E + w));
    [|extv|exact ipt_bk_a|cbn; lia|exact Hm|exact ipt_kd_a|exact ipt_kc_a].
  change (dn ipt_c_a (venv [i])) with (ipt_a Y i).
  change (dn ipt_d_a (venv [i])) with (dn f_en (venv [i]) * (ipt_a Y i) + ((dn (ipt_rt (s_ipt_a 10 0)) (venv [i])) + dn (EC 0 1) (venv [i]))).
  rewrite sector_en, den_zero, Q0_. ring.
Qed.
Lemma ipt_comp_aa w i a j : (i < noa d)%nat -> (a < nua d)%nat -> (j < noa d)%nat ->
  str [(true, oa i); (true, oa j); (false, va d a)] (ipt_defect w) ref = (ipt_aa Z i a j - w * ipt_aa Y i a j) + ((ipt_a Y i * x_a X a j) + (- (ipt_a Y j * x_a X a i))).
Proof.
  intros Hi Ha Hj.
  assert (Q0_ : dn (ipt_rt (s_ipt_aa 10 0 1 2)) (venv [i; a; j]) = ipt_aa Z i a j) by (rewrite ipt_rt_ok; reflexivity).
  assert (Q1_ : dn (rt (r_ccsd_res_a 10 1 2)) (venv [i; a; j]) = x_a X a j) by (rewrite sector_rt by (vm_compute; reflexivity); reflexivity).
  assert (Q2_ : dn (rt (r_ccsd_res_a 10 1 0)) (venv [i; a; j]) = x_a X a i) by (rewrite sector_rt by (vm_compute; reflexivity); reflexivity).
  change (opsem (noa d) (nob d) ipt_bra_aa (venv [i; a; j]) (ipt_defect w) ref = (ipt_aa Z i a j - w * ipt_aa Y i a j) + ((ipt_a Y i * x_a X a j) + (- (ipt_a Y j * x_a X a i)))). unfold ipt_defect. rewrite <- (ipt_op_ok (venv [i; a; j])).
  rewrite (defect2_ok d I T0 n Rs ipt_rts 1 En En' ipt_rtok ipt_own ipt_syms ipt_tab ipt_htab ipt_ext_aa ipt_bra_aa (venv [i; a; j]) m ipt_d_aa ipt_c_aa (E + w));
    [|extv|exact ipt_bk_aa|cbn; lia|exact Hm|exact ipt_kd_aa|exact ipt_kc_aa].
  change (dn ipt_c_aa (venv [i; a; j])) with (ipt_aa Y i a j).
  change (dn ipt_d_aa (venv [i; a; j])) with (dn f_en (venv [i; a; j]) * (ipt_aa Y i a j) + ((dn (ipt_rt (s_ipt_aa 10 0 1 2)) (venv [i; a; j])) + ((ipt_a Y i * (dn (rt (r_ccsd_res_a 10 1 2)) (venv [i; a; j]))) + (- (ipt_a Y j * (dn (rt (r_ccsd_res_a 10 1 0)) (venv [i; a; j]))))))).
  rewrite sector_en, Q0_, Q1_, Q2_. ring.
Qed.
Lemma ipt_comp_ab w i a j : (i < noa d)%nat -> (a < nub d)%nat -> (j < nob d)%nat ->
  str [(true, oa i); (true, ob j); (false, vb d a)] (ipt_defect w) ref = (ipt_ab Z i a j - w * ipt_ab Y i a j) + (ipt_a Y i * x_b X a j).
Proof.
  intros Hi Ha Hj.
  assert (Q0_ : dn (ipt_rt (s_ipt_ab 10 0 1 2)) (venv [i; a; j]) = ipt_ab Z i a j) by (rewrite ipt_rt_ok; reflexivity).
  assert (Q1_ : dn (rt (r_ccsd_res_b 10 1 2)) (venv [i; a; j]) = x_b X a j) by (rewrite sector_rt by (vm_compute; reflexivity); reflexivity).
  change (opsem (noa d) (nob d) ipt_bra_ab (venv [i; a; j]) (ipt_defect w) ref = (ipt_ab Z i a j - w * ipt_ab Y i a j) + (ipt_a Y i * x_b X a j)). unfold ipt_defect. rewrite <- (ipt_op_ok (venv [i; a; j])).
  rewrite (defect2_ok d I T0 n Rs ipt_rts 1 En En' ipt_rtok ipt_own ipt_syms ipt_tab ipt_htab ipt_ext_ab ipt_bra_ab (venv [i; a; j]) m ipt_d_ab ipt_c_ab (E + w));
    [|extv|exact ipt_bk_ab|cbn; lia|exact Hm|exact ipt_kd_ab|exact ipt_kc_ab].
  change (dn ipt_c_ab (venv [i; a; j])) with (ipt_ab Y i a j).
  change (dn ipt_d_ab (venv [i; a; j])) with (dn f_en (venv [i; a; j]) * (ipt_ab Y i a j) + ((dn (ipt_rt (s_ipt_ab 10 0 1 2)) (venv [i; a; j])) + (ipt_a Y i * (dn (rt (r_ccsd_res_b 10 1 2)) (venv [i; a; j]))))).
  rewrite sector_en, Q0_, Q1_. ring.
Qed.
Lemma ipt_comp_aaa w i a b j k : (i < noa d)%nat -> (a < nua d)%nat -> (b < nua d)%nat -> (j < noa d)%nat -> (k < noa d)%nat ->
  str [(true, oa i); (true, oa j); (true, oa k); (false, va d b); (false, va d a)] (ipt_defect w) ref = ((((x_aa T a b i j * (ipt_a Z k - w * ipt_a Y k)) + (- (x_aa T a b i k * (ipt_a Z j - w * ipt_a Y j)))) + (x_aa T a b j k * (ipt_a Z i - w * ipt_a Y i))) + (ipt_aaa Z i a b j k - w * ipt_aaa Y i a b j k)) + (((((((((ipt_a Y i * x_aa X a b j k) + (- (ipt_a Y j * x_aa X a b i k))) + (ipt_a Y k * x_aa X a b i j)) + (- (ipt_aa Y i b j * x_a X a k))) + (ipt_aa Y i a j * x_a X b k)) + (ipt_aa Y i b k * x_a X a j)) + (- (ipt_aa Y i a k * x_a X b j))) + (- (ipt_aa Y j b k * x_a X a i))) + (ipt_aa Y j a k * x_a X b i)).
Proof.
  intros Hi Ha Hb Hj Hk.
  assert (Q0_ : dn (ipt_rt (s_ipt_a 10 4)) (venv [i; a; b; j; k]) = ipt_a Z k) by (rewrite ipt_rt_ok; reflexivity).
  assert (Q1_ : dn (ipt_rt (s_ipt_a 10 3)) (venv [i; a; b; j; k]) = ipt_a Z j) by (rewrite ipt_rt_ok; reflexivity).
  assert (Q2_ : dn (ipt_rt (s_ipt_a 10 0)) (venv [i; a; b; j; k]) = ipt_a Z i) by (rewrite ipt_rt_ok; reflexivity).
  assert (Q3_ : dn (ipt_rt (s_ipt_aaa 10 0 1 2 3 4)) (venv [i; a; b; j; k]) = ipt_aaa Z i a b j k) by (rewrite ipt_rt_ok; reflexivity).
  assert (Q4_ : dn (rt (r_resid_aa 10 1 2 3 4)) (venv [i; a; b; j; k]) = x_aa X a b j k) by (rewrite sector_rt by (vm_compute; reflexivity); reflexivity).
  assert (Q5_ : dn (rt (r_resid_aa 10 1 2 0 4)) (venv [i; a; b; j; k]) = x_aa X a b i k) by (rewrite sector_rt by (vm_compute; reflexivity); reflexivity).
  assert (Q6_ : dn (rt (r_resid_aa 10 1 2 0 3)) (venv [i; a; b; j; k]) = x_aa X a b i j) by (rewrite sector_rt by (vm_compute; reflexivity); reflexivity).
  assert (Q7_ : dn (rt (r_ccsd_res_a 10 1 4)) (venv [i; a; b; j; k]) = x_a X a k) by (rewrite sector_rt by (vm_compute; reflexivity); reflexivity).
  assert (Q8_ : dn (rt (r_ccsd_res_a 10 2 4)) (venv [i; a; b; j; k]) = x_a X b k) by (rewrite sector_rt by (vm_compute; reflexivity); reflexivity).
  assert (Q9_ : dn (rt (r_ccsd_res_a 10 1 3)) (venv [i; a; b; j; k]) = x_a X a j) by (rewrite sector_rt by (vm_compute; reflexivity); reflexivity).
  assert (Q10_ : dn (rt (r_ccsd_res_a 10 2 3)) (venv [i; a; b; j; k]) = x_a X b j) by (rewrite sector_rt by (vm_compute; reflexivity); reflexivity).
  assert (Q11_ : dn (rt (r_ccsd_res_a 10 1 0)) (venv [i; a; b; j; k]) = x_a X a i) by (rewrite sector_rt by (vm_compute; reflexivity); reflexivity).
  assert (Q12_ : dn (rt (r_ccsd_res_a 10 2 0)) (venv [i; a; b; j; k]) = x_a X b i) by (rewrite sector_rt by (vm_compute; reflexivity); reflexivity).
  change (opsem (noa d) (nob d) ipt_bra_aaa (venv [i; a; b; j; k]) (ipt_defect w) ref = ((((x_aa T a b i j * (ipt_a Z k - w * ipt_a Y k)) + (- (x_aa T a b i k * (ipt_a Z j - w * ipt_a Y j)))) + (x_aa T a b j k * (ipt_a Z i - w * ipt_a Y i))) + (ipt_aaa Z i a b j k - w * ipt_aaa Y i a b j k)) + (((((((((ipt_a Y i * x_aa X a b j k) + (- (ipt_a Y j * x_aa X a b i k))) + (ipt_a Y k * x_aa X a b i j)) + (- (ipt_aa Y i b j * x_a X a k))) + (ipt_aa Y i a j * x_a X b k)) + (ipt_aa Y i b k * x_a X a j)) + (- (ipt_aa Y i a k * x_a X b j))) + (- (ipt_aa Y j b k * x_a X a i))) + (ipt_aa Y j a k * x_a X b i))). unfold ipt_defect. rewrite <- (ipt_op_ok (venv [i; a; b; j; k])).
  rewrite (defect2_ok d I T0 n Rs ipt_rts 1 En En' ipt_rtok ipt_own ipt_syms ipt_tab ipt_htab ipt_ext_aaa ipt_bra_aaa (venv [i; a; b; j; k]) m ipt_d_aaa ipt_c_aaa (E + w));
    [|extv|exact ipt_bk_aaa|cbn; lia|exact Hm|exact ipt_kd_aaa|exact ipt_kc_aaa].
  change (dn ipt_c_aaa (venv [i; a; b; j; k])) with (((((x_aa T a b i j * ipt_a Y k) + (- (x_aa T a b i k * ipt_a Y j))) + (x_aa T a b j k * ipt_a Y i)) + ipt_aaa Y i a b j k)).
  change (dn ipt_d_aaa (venv [i; a; b; j; k])) with (dn f_en (venv [i; a; b; j; k]) * (((((x_aa T a b i j * ipt_a Y k) + (- (x_aa T a b i k * ipt_a Y j))) + (x_aa T a b j k * ipt_a Y i)) + ipt_aaa Y i a b j k)) + (((((x_aa T a b i j * (dn (ipt_rt (s_ipt_a 10 4)) (venv [i; a; b; j; k]))) + (- (x_aa T a b i k * (dn (ipt_rt (s_ipt_a 10 3)) (venv [i; a; b; j; k]))))) + (x_aa T a b j k * (dn (ipt_rt (s_ipt_a 10 0)) (venv [i; a; b; j; k])))) + (dn (ipt_rt (s_ipt_aaa 10 0 1 2 3 4)) (venv [i; a; b; j; k]))) + (((((((((ipt_a Y i * (dn (rt (r_resid_aa 10 1 2 3 4)) (venv [i; a; b; j; k]))) + (- (ipt_a Y j * (dn (rt (r_resid_aa 10 1 2 0 4)) (venv [i; a; b; j; k]))))) + (ipt_a Y k * (dn (rt (r_resid_aa 10 1 2 0 3)) (venv [i; a; b; j; k])))) + (- (ipt_aa Y i b j * (dn (rt (r_ccsd_res_a 10 1 4)) (venv [i; a; b; j; k]))))) + (ipt_aa Y i a j * (dn (rt (r_ccsd_res_a 10 2 4)) (venv [i; a; b; j; k])))) + (ipt_aa Y i b k * (dn (rt (r_ccsd_res_a 10 1 3)) (venv [i; a; b; j; k])))) + (- (ipt_aa Y i a k * (dn (rt (r_ccsd_res_a 10 2 3)) (venv [i; a; b; j; k]))))) + (- (ipt_aa Y j b k * (dn (rt (r_ccsd_res_a 10 1 0)) (venv [i; a; b; j; k]))))) + (ipt_aa Y j a k * (dn (rt (r_ccsd_res_a 10 2 0)) (venv [i; a; b; j; k])))))).
  rewrite sector_en, Q0_, Q1_, Q2_, Q3_, Q4_, Q5_, Q6_, Q7_, Q8_, Q9_, Q10_, Q11_, Q12_. ring.
Qed.
Lemma ipt_comp_aab w i a b j k : (i < noa d)%nat -> (a < nua d)%nat -> (b < nub d)%nat -> (j < noa d)%nat -> (k < nob d)%nat ->
  str [(true, oa i); (true, oa j); (true, ob k); (false, vb d b); (false, va d a)] (ipt_defect w) ref = (((- (x_ab T a b i k * (ipt_a Z j - w * ipt_a Y j))) + (x_ab T a b j k * (ipt_a Z i - w * ipt_a Y i))) + (ipt_aab Z i a b j k - w * ipt_aab Y i a b j k)) + (((((ipt_a Y i * x_ab X a b j k) + (- (ipt_a Y j * x_ab X a b i k))) + (ipt_aa Y i a j * x_b X b k)) + (ipt_ab Y i b k * x_a X a j)) + (- (ipt_ab Y j b k * x_a X a i))).
Proof.
  intros Hi Ha Hb Hj Hk.
  assert (Q0_ : dn (ipt_rt (s_ipt_a 10 3)) (venv [i; a; b; j; k]) = ipt_a Z j) by (rewrite ipt_rt_ok; reflexivity).
  assert (Q1_ : dn (ipt_rt (s_ipt_a 10 0)) (venv [i; a; b; j; k]) = ipt_a Z i) by (rewrite ipt_rt_ok; reflexivity).
  assert (Q2_ : dn (ipt_rt (s_ipt_aab 10 0 1 2 3 4)) (venv [i; a; b; j; k]) = ipt_aab Z i a b j k) by (rewrite ipt_rt_ok; reflexivity).
  assert (Q3_ : dn (rt (r_ccsd_res_ab 10 1 2 3 4)) (venv [i; a; b; j; k]) = x_ab X a b j k) by (rewrite sector_rt by (vm_compute; reflexivity); reflexivity).
  assert (Q4_ : dn (rt (r_ccsd_res_ab 10 1 2 0 4)) (venv [i; a; b; j; k]) = x_ab X a b i k) by (rewrite sector_rt by (vm_compute; reflexivity); reflexivity).
  assert (Q5_ : dn (rt (r_ccsd_res_b 10 2 4)) (venv [i; a; b; j; k]) = x_b X b k) by (rewrite sector_rt by (vm_compute; reflexivity); reflexivity).
  assert (Q6_ : dn (rt (r_ccsd_res_a 10 1 3)) (venv [i; a; b; j; k]) = x_a X a j) by (rewrite sector_rt by (vm_compute; reflexivity); reflexivity).
  assert (Q7_ : dn (rt (r_ccsd_res_a 10 1 0)) (venv [i; a; b; j; k]) = x_a X a i) by (rewrite sector_rt by (vm_compute; reflexivity); reflexivity).
  change (opsem (noa d) (nob d) ipt_bra_aab (venv [i; a; b; j; k]) (ipt_defect w) ref = (((- (x_ab T a b i k * (ipt_a Z j - w * ipt_a Y j))) + (x_ab T a b j k * (ipt_a Z i - w * ipt_a Y i))) + (ipt_aab Z i a b j k - w * ipt_aab Y i a b j k)) + (((((ipt_a Y i * x_ab X a b j k) + (- (ipt_a Y j * x_ab X a b i k))) + (ipt_aa Y i a j * x_b X b k)) + (ipt_ab Y i b k * x_a X a j)) + (- (ipt_ab Y j b k * x_a X a i)))). unfold ipt_defect. rewrite <- (ipt_op_ok (venv [i; a; b; j; k])).
  rewrite (defect2_ok d I T0 n Rs ipt_rts 1 En En' ipt_rtok ipt_own ipt_syms ipt_tab ipt_htab ipt_ext_aab ipt_bra_aab (venv [i; a; b; j; k]) m ipt_d_aab ipt_c_aab (E + w));
    [|extv|exact ipt_bk_aab|cbn; lia|exact Hm|exact ipt_kd_aab|exact ipt_kc_aab].
  change (dn ipt_c_aab (venv [i; a; b; j; k])) with ((((- (x_ab T a b i k * ipt_a Y j)) + (x_ab T a b j k * ipt_a Y i)) + ipt_aab Y i a b j k)).
  change (dn ipt_d_aab (venv [i; a; b; j; k])) with (dn f_en (venv [i; a; b; j; k]) * ((((- (x_ab T a b i k * ipt_a Y j)) + (x_ab T a b j k * ipt_a Y i)) + ipt_aab Y i a b j k)) + ((((- (x_ab T a b i k * (dn (ipt_rt (s_ipt_a 10 3)) (venv [i; a; b; j; k])))) + (x_ab T a b j k * (dn (ipt_rt (s_ipt_a 10 0)) (venv [i; a; b; j; k])))) + (dn (ipt_rt (s_ipt_aab 10 0 1 2 3 4)) (venv [i; a; b; j; k]))) + (((((ipt_a Y i * (dn (rt (r_ccsd_res_ab 10 1 2 3 4)) (venv [i; a; b; j; k]))) + (- (ipt_a Y j * (dn (rt (r_ccsd_res_ab 10 1 2 0 4)) (venv [i; a; b; j; k]))))) + (ipt_aa Y i a j * (dn (rt (r_ccsd_res_b 10 2 4)) (venv [i; a; b; j; k])))) + (ipt_ab Y i b k * (dn (rt (r_ccsd_res_a 10 1 3)) (venv [i; a; b; j; k])))) + (- (ipt_ab Y j b k * (dn (rt (r_ccsd_res_a 10 1 0)) (venv [i; a; b; j; k]))))))).
  rewrite sector_en, Q0_, Q1_, Q2_, Q3_, Q4_, Q5_, Q6_, Q7_. ring.
Qed.
Lemma ipt_comp_abb w i a b j k : (i < noa d)%nat -> (a < nub d)%nat -> (b < nub d)%nat -> (j < nob d)%nat -> (k < nob d)%nat ->
  str [(true, oa i); (true, ob j); (true, ob k); (false, vb d b); (false, vb d a)] (ipt_defect w) ref = ((x_bb T a b j k * (ipt_a Z i - w * ipt_a Y i)) + (ipt_abb Z i a b j k - w * ipt_abb Y i a b j k)) + (((((ipt_a Y i * x_bb X a b j k) + (- (ipt_ab Y i b j * x_b X a k))) + (ipt_ab Y i a j * x_b X b k)) + (ipt_ab Y i b k * x_b X a j)) + (- (ipt_ab Y i a k * x_b X b j))).
Proof.
  intros Hi Ha Hb Hj Hk.
  assert (Q0_ : dn (ipt_rt (s_ipt_a 10 0)) (venv [i; a; b; j; k]) = ipt_a Z i) by (rewrite ipt_rt_ok; reflexivity).
  assert (Q1_ : dn (ipt_rt (s_ipt_abb 10 0 1 2 3 4)) (venv [i; a; b; j; k]) = ipt_abb Z i a b j k) by (rewrite ipt_rt_ok; reflexivity).
  assert (Q2_ : dn (rt (r_resid_bb 10 1 2 3 4)) (venv [i; a; b; j; k]) = x_bb X a b j k) by (rewrite sector_rt by (vm_compute; reflexivity); reflexivity).
  assert (Q3_ : dn (rt (r_ccsd_res_b 10 1 4)) (venv [i; a; b; j; k]) = x_b X a k) by (rewrite sector_rt by (vm_compute; reflexivity); reflexivity).
  assert (Q4_ : dn (rt (r_ccsd_res_b 10 2 4)) (venv [i; a; b; j; k]) = x_b X b k) by (rewrite sector_rt by (vm_compute; reflexivity); reflexivity).
  assert (Q5_ : dn (rt (r_ccsd_res_b 10 1 3)) (venv [i; a; b; j; k]) = x_b X a j) by (rewrite sector_rt by (vm_compute; reflexivity); reflexivity).
  assert (Q6_ : dn (rt (r_ccsd_res_b 10 2 3)) (venv [i; a; b; j; k]) = x_b X b j) by (rewrite sector_rt by (vm_compute; reflexivity); reflexivity).
  change (opsem (noa d) (nob d) ipt_bra_abb (venv [i; a; b; j; k]) (ipt_defect w) ref = ((x_bb T a b j k * (ipt_a Z i - w * ipt_a Y i)) + (ipt_abb Z i a b j k - w * ipt_abb Y i a b j k)) + (((((ipt_a Y i * x_bb X a b j k) + (- (ipt_ab Y i b j * x_b X a k))) + (ipt_ab Y i a j * x_b X b k)) + (ipt_ab Y i b k * x_b X a j)) + (- (ipt_ab Y i a k * x_b X b j)))). unfold ipt_defect. rewrite <- (ipt_op_ok (venv [i; a; b; j; k])).
  rewrite (defect2_ok d I T0 n Rs ipt_rts 1 En En' ipt_rtok ipt_own ipt_syms ipt_tab ipt_htab ipt_ext_abb ipt_bra_abb (venv [i; a; b; j; k]) m ipt_d_abb ipt_c_abb (E + w));
    [|extv|exact ipt_bk_abb|cbn; lia|exact Hm|exact ipt_kd_abb|exact ipt_kc_abb].
  change (dn ipt_c_abb (venv [i; a; b; j; k])) with (((x_bb T a b j k * ipt_a Y i) + ipt_abb Y i a b j k)).
  change (dn ipt_d_abb (venv [i; a; b; j; k])) with (dn f_en (venv [i; a; b; j; k]) * (((x_bb T a b j k * ipt_a Y i) + ipt_abb Y i a b j k)) + (((x_bb T a b j k * (dn (ipt_rt (s_ipt_a 10 0)) (venv [i; a; b; j; k]))) + (dn (ipt_rt (s_ipt_abb 10 0 1 2 3 4)) (venv [i; a; b; j; k]))) + (((((ipt_a Y i * (dn (rt (r_resid_bb 10 1 2 3 4)) (venv [i; a; b; j; k]))) + (- (ipt_ab Y i b j * (dn (rt (r_ccsd_res_b 10 1 4)) (venv [i; a; b; j; k]))))) + (ipt_ab Y i a j * (dn (rt (r_ccsd_res_b 10 2 4)) (venv [i; a; b; j; k])))) + (ipt_ab Y i b k * (dn (rt (r_ccsd_res_b 10 1 3)) (venv [i; a; b; j; k])))) + (- (ipt_ab Y i a k * (dn (rt (r_ccsd_res_b 10 2 3)) (venv [i; a; b; j; k]))))))).
  rewrite sector_en, Q0_, Q1_, Q2_, Q3_, Q4_, Q5_, Q6_. ring.
Qed.
Lemma ipt_solves w : same_amps d X zero_amps -> (solves_on (ipt_space d n) n I (E + w) (ipt_op d Y psi) <-> ipt_root d Z Y w).
Proof.
  intros [Za Zb Zaa Zab Zbb]. cbn [zero_amps x_a x_b x_aa x_ab x_bb] in Za, Zb, Zaa, Zab, Zbb.
  assert (F := ipt_flat d n (ipt_defect w) En En').
  transitivity (forall D, ipt_space d n D -> ipt_defect w D = 0); [unfold solves_on, ipt_defect; split; intros G D HD; specialize (G D HD); [rewrite G; ring|lra]|]. rewrite F. clear F. unfold ipt_root. split.
  - intros (F0 & F1 & F2 & F3 & F4 & F5).
    assert (L0 : forall i, (i < noa d)%nat -> ipt_a Z i - w * ipt_a Y i = 0).
    { intros i Hi. specialize (F0 i Hi). rewrite ipt_comp_a in F0 by assumption. rewrite <- F0. ring. }
    assert (L1 : forall i a j, (i < noa d)%nat -> (a < nua d)%nat -> (j < noa d)%nat -> ipt_aa Z i a j - w * ipt_aa Y i a j = 0).
    { intros i a j Hi Ha Hj. specialize (F1 i a j Hi Ha Hj). rewrite ipt_comp_aa, !Za in F1 by assumption. rewrite <- F1. ring. }
    assert (L2 : forall i a j, (i < noa d)%nat -> (a < nub d)%nat -> (j < nob d)%nat -> ipt_ab Z i a j - w * ipt_ab Y i a j = 0).
    { intros i a j Hi Ha Hj. specialize (F2 i a j Hi Ha Hj). rewrite ipt_comp_ab, !Zb in F2 by assumption. rewrite <- F2. ring. }
    assert (L3 : forall i a b j k, (i < noa d)%nat -> (a < nua d)%nat -> (b < nua d)%nat -> (j < noa d)%nat -> (k < noa d)%nat -> ipt_aaa Z i a b j k - w * ipt_aaa Y i a b j k = 0).
    { intros i a b j k Hi Ha Hb Hj Hk. specialize (F3 i a b j k Hi Ha Hb Hj Hk). rewrite ipt_comp_aaa, !Za, !Zaa, !L0 in F3 by assumption. rewrite <- F3. ring. }
    assert (L4 : forall i a b j k, (i < noa d)%nat -> (a < nua d)%nat -> (b < nub d)%nat -> (j < noa d)%nat -> (k < nob d)%nat -> ipt_aab Z i a b j k - w * ipt_aab Y i a b j k = 0).
    { intros i a b j k Hi Ha Hb Hj Hk. specialize (F4 i a b j k Hi Ha Hb Hj Hk). rewrite ipt_comp_aab, !Za, !Zb, !Zab, !L0 in F4 by assumption. rewrite <- F4. ring. }
    assert (L5 : forall i a b j k, (i < noa d)%nat -> (a < nub d)%nat -> (b < nub d)%nat -> (j < nob d)%nat -> (k < nob d)%nat -> ipt_abb Z i a b j k - w * ipt_abb Y i a b j k = 0).
    { intros i a b j k Hi Ha Hb Hj Hk. specialize (F5 i a b j k Hi Ha Hb Hj Hk). rewrite ipt_comp_abb, !Zb, !Zbb, !L0 in F5 by assumption. rewrite <- F5. ring. }
    split; [|split; [|split; [|split; [|split; [|]]]]]; intros; apply Rminus_diag_uniq; auto.
  - intros (G0 & G1 & G2 & G3 & G4 & G5).
    assert (L0 : forall i, (i < noa d)%nat -> ipt_a Z i - w * ipt_a Y i = 0) by (intros; rewrite G0 by assumption; ring).
    assert (L1 : forall i a j, (i < noa d)%nat -> (a < nua d)%nat -> (j < noa d)%nat -> ipt_aa Z i a j - w * ipt_aa Y i a j = 0) by (intros; rewrite G1 by assumption; ring).
    assert (L2 : forall i a j, (i < noa d)%nat -> (a < nub d)%nat -> (j < nob d)%nat -> ipt_ab Z i a j - w * ipt_ab Y i a j = 0) by (intros; rewrite G2 by assumption; ring).
    assert (L3 : forall i a b j k, (i < noa d)%nat -> (a < nua d)%nat -> (b < nua d)%nat -> (j < noa d)%nat -> (k < noa d)%nat -> ipt_aaa Z i a b j k - w * ipt_aaa Y i a b j k = 0) by (intros; rewrite G3 by assumption; ring).
    assert (L4 : forall i a b j k, (i < noa d)%nat -> (a < nua d)%nat -> (b < nub d)%nat -> (j < noa d)%nat -> (k < nob d)%nat -> ipt_aab Z i a b j k - w * ipt_aab Y i a b j k = 0) by (intros; rewrite G4 by assumption; ring).
    assert (L5 : forall i a b j k, (i < noa d)%nat -> (a < nub d)%nat -> (b < nub d)%nat -> (j < nob d)%nat -> (k < nob d)%nat -> ipt_abb Z i a b j k - w * ipt_abb Y i a b j k = 0) by (intros; rewrite G5 by assumption; ring).
    split; [|split; [|split; [|split; [|split; [|]]]]].
    + intros i Hi. rewrite ipt_comp_a, !L0 by assumption. ring.
    + intros i a j Hi Ha Hj. rewrite ipt_comp_aa, !Za, !L1 by assumption. ring.
    + intros i a j Hi Ha Hj. rewrite ipt_comp_ab, !Zb, !L2 by assumption. ring.
    + intros i a b j k Hi Ha Hb Hj Hk. rewrite ipt_comp_aaa, !Za, !Zaa, !L0, !L3 by assumption. ring.
    + intros i a b j k Hi Ha Hb Hj Hk. rewrite ipt_comp_aab, !Za, !Zb, !Zab, !L0, !L4 by assumption. ring.
    + intros i a b j k Hi Ha Hb Hj Hk. rewrite ipt_comp_abb, !Zb, !Zbb, !L0, !L5 by assumption. ring.
Qed.
End P.
