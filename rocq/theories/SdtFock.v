(** Generated by tools/gen_sdt.py: components of (H - E) (1 + T3) exp(T2) |ref> (proof support). *)
From Coq Require Import Reals Arith NArith List Bool Lia Lra QArith Qreals ZArith FunctionalExtensionality.
From Verif Require Import RSum IntegralsModel TensorObjs TensorAlg TensorSpec CcsdModel CcsdUpdate CcsdReify CcsdProps FockSpec FockCar FockWick FockArrays FockCcSpec FockTerms FockHam FockExp FockLevel FockCheck FockState FockNear FockProj FockSector FockSectorTools
  FockFast FockSectorSpec FockFlip RankSpec FockDress FockShift FockSector3 FockTools3 CcsdtModel CcsdtUpdate CcsdtReify SdtSpec SdtFlat.
Import ListNotations.
Local Open Scope nat_scope.
Definition sdt_rts : list term := [mkTerm 1 [] [] []; mkTerm (1 # 36) [(40, 1); (41, 1); (42, 1); (43, 0); (44, 0); (45, 0)] [(5, [40; 41; 42; 43; 44; 45])] [C 1 40; C 1 41; C 1 42; A 0 45; A 0 44; A 0 43]; mkTerm (1 # 4) [(40, 1); (41, 1); (42, 3); (43, 0); (44, 0); (45, 2)] [(6, [40; 41; 42; 43; 44; 45])] [C 1 40; C 1 41; C 3 42; A 2 45; A 0 44; A 0 43]; mkTerm (1 # 4) [(40, 1); (41, 3); (42, 3); (43, 0); (44, 2); (45, 2)] [(7, [40; 41; 42; 43; 44; 45])] [C 1 40; C 3 41; C 3 42; A 2 45; A 2 44; A 0 43]; mkTerm (1 # 36) [(40, 3); (41, 3); (42, 3); (43, 2); (44, 2); (45, 2)] [(8, [40; 41; 42; 43; 44; 45])] [C 3 40; C 3 41; C 3 42; A 2 45; A 2 44; A 2 43]].
Definition sdt_own : list (nat * (nat * list nat * bool)) := [(5, (5, [0; 1; 2; 4; 3; 5], false)); (5, (5, [0; 1; 2; 3; 5; 4], false)); (5, (5, [1; 0; 2; 3; 4; 5], false)); (5, (5, [0; 2; 1; 3; 4; 5], false)); (6, (6, [0; 1; 2; 4; 3; 5], false)); (6, (6, [1; 0; 2; 3; 4; 5], false)); (7, (7, [0; 1; 2; 3; 5; 4], false)); (7, (7, [0; 2; 1; 3; 4; 5], false)); (8, (8, [0; 1; 2; 4; 3; 5], false)); (8, (8, [0; 1; 2; 3; 5; 4], false)); (8, (8, [1; 0; 2; 3; 4; 5], false)); (8, (8, [0; 2; 1; 3; 4; 5], false))].
Definition sdt_gens := fock_gens ++ sdt_own.
Definition sdt_tab := Eval vm_compute in symtab sdt_gens 66.
Lemma sdt_htab : sdt_tab = symtab sdt_gens 66. Proof. vm_compute. reflexivity. Qed.
Lemma sdt_rtok : rtok sdt_rts 0 = true. Proof. vm_compute. reflexivity. Qed.
Definition e_sdt_a (p0 p1 : nat) : ex := (r_ccsdt_res_a 10 p0 p1).
Definition e_sdt_b (p0 p1 : nat) : ex := (r_ccsdt_res_b 10 p0 p1).
Definition e_sdt_aa (p0 p1 p2 p3 : nat) : ex := (EAdd (ESub (ESub (r_ccsdt_res_aa 10 p0 p1 p2 p3) (r_ccsdt_res_aa 10 p1 p0 p2 p3)) (r_ccsdt_res_aa 10 p0 p1 p3 p2)) (r_ccsdt_res_aa 10 p1 p0 p3 p2)).
Definition e_sdt_ab (p0 p1 p2 p3 : nat) : ex := (r_ccsdt_res_ab 10 p0 p1 p2 p3).
Definition e_sdt_bb (p0 p1 p2 p3 : nat) : ex := (EAdd (ESub (ESub (r_ccsdt_res_bb 10 p0 p1 p2 p3) (r_ccsdt_res_bb 10 p1 p0 p2 p3)) (r_ccsdt_res_bb 10 p0 p1 p3 p2)) (r_ccsdt_res_bb 10 p1 p0 p3 p2)).
Definition e_sdt_aaa (p0 p1 p2 p3 p4 p5 : nat) : ex := (EAdd (ESub (EAdd (ESub (ESub (EAdd (EAdd (ESub (EAdd (ESub (ESub (EAdd (ESub (EAdd (ESub (EAdd (EAdd (ESub (ESub (EAdd (ESub (EAdd (EAdd (ESub (ESub (EAdd (ESub (EAdd (EAdd (ESub (EAdd (ESub (EAdd (ESub (ESub (r_ccsdt_res_aaa 10 p0 p1 p2 p3 p4 p5) (r_ccsdt_res_aaa 10 p1 p0 p2 p3 p4 p5)) (r_ccsdt_res_aaa 10 p0 p2 p1 p3 p4 p5)) (r_ccsdt_res_aaa 10 p1 p2 p0 p3 p4 p5)) (r_ccsdt_res_aaa 10 p2 p1 p0 p3 p4 p5)) (r_ccsdt_res_aaa 10 p2 p0 p1 p3 p4 p5)) (r_ccsdt_res_aaa 10 p0 p1 p2 p4 p3 p5)) (r_ccsdt_res_aaa 10 p1 p0 p2 p4 p3 p5)) (r_ccsdt_res_aaa 10 p0 p2 p1 p4 p3 p5)) (r_ccsdt_res_aaa 10 p1 p2 p0 p4 p3 p5)) (r_ccsdt_res_aaa 10 p2 p1 p0 p4 p3 p5)) (r_ccsdt_res_aaa 10 p2 p0 p1 p4 p3 p5)) (r_ccsdt_res_aaa 10 p0 p1 p2 p3 p5 p4)) (r_ccsdt_res_aaa 10 p1 p0 p2 p3 p5 p4)) (r_ccsdt_res_aaa 10 p0 p2 p1 p3 p5 p4)) (r_ccsdt_res_aaa 10 p1 p2 p0 p3 p5 p4)) (r_ccsdt_res_aaa 10 p2 p1 p0 p3 p5 p4)) (r_ccsdt_res_aaa 10 p2 p0 p1 p3 p5 p4)) (r_ccsdt_res_aaa 10 p0 p1 p2 p5 p4 p3)) (r_ccsdt_res_aaa 10 p1 p0 p2 p5 p4 p3)) (r_ccsdt_res_aaa 10 p0 p2 p1 p5 p4 p3)) (r_ccsdt_res_aaa 10 p1 p2 p0 p5 p4 p3)) (r_ccsdt_res_aaa 10 p2 p1 p0 p5 p4 p3)) (r_ccsdt_res_aaa 10 p2 p0 p1 p5 p4 p3)) (r_ccsdt_res_aaa 10 p0 p1 p2 p4 p5 p3)) (r_ccsdt_res_aaa 10 p1 p0 p2 p4 p5 p3)) (r_ccsdt_res_aaa 10 p0 p2 p1 p4 p5 p3)) (r_ccsdt_res_aaa 10 p1 p2 p0 p4 p5 p3)) (r_ccsdt_res_aaa 10 p2 p1 p0 p4 p5 p3)) (r_ccsdt_res_aaa 10 p2 p0 p1 p4 p5 p3)) (r_ccsdt_res_aaa 10 p0 p1 p2 p5 p3 p4)) (r_ccsdt_res_aaa 10 p1 p0 p2 p5 p3 p4)) (r_ccsdt_res_aaa 10 p0 p2 p1 p5 p3 p4)) (r_ccsdt_res_aaa 10 p1 p2 p0 p5 p3 p4)) (r_ccsdt_res_aaa 10 p2 p1 p0 p5 p3 p4)) (r_ccsdt_res_aaa 10 p2 p0 p1 p5 p3 p4)).
Definition e_sdt_aab (p0 p1 p2 p3 p4 p5 : nat) : ex := (EAdd (ESub (ESub (r_ccsdt_res_aab 10 p0 p1 p2 p3 p4 p5) (r_ccsdt_res_aab 10 p1 p0 p2 p3 p4 p5)) (r_ccsdt_res_aab 10 p0 p1 p2 p4 p3 p5)) (r_ccsdt_res_aab 10 p1 p0 p2 p4 p3 p5)).
Definition e_sdt_abb (p0 p1 p2 p3 p4 p5 : nat) : ex := (EAdd (ESub (ESub (r_ccsdt_res_abb 10 p0 p1 p2 p3 p4 p5) (r_ccsdt_res_abb 10 p0 p2 p1 p3 p4 p5)) (r_ccsdt_res_abb 10 p0 p1 p2 p3 p5 p4)) (r_ccsdt_res_abb 10 p0 p2 p1 p3 p5 p4)).
Definition e_sdt_bbb (p0 p1 p2 p3 p4 p5 : nat) : ex := (EAdd (ESub (EAdd (ESub (ESub (EAdd (EAdd (ESub (EAdd (ESub (ESub (EAdd (ESub (EAdd (ESub (EAdd (EAdd (ESub (ESub (EAdd (ESub (EAdd (EAdd (ESub (ESub (EAdd (ESub (EAdd (EAdd (ESub (EAdd (ESub (EAdd (ESub (ESub (r_ccsdt_res_bbb 10 p0 p1 p2 p3 p4 p5) (r_ccsdt_res_bbb 10 p1 p0 p2 p3 p4 p5)) (r_ccsdt_res_bbb 10 p0 p2 p1 p3 p4 p5)) (r_ccsdt_res_bbb 10 p1 p2 p0 p3 p4 p5)) (r_ccsdt_res_bbb 10 p2 p1 p0 p3 p4 p5)) (r_ccsdt_res_bbb 10 p2 p0 p1 p3 p4 p5)) (r_ccsdt_res_bbb 10 p0 p1 p2 p4 p3 p5)) (r_ccsdt_res_bbb 10 p1 p0 p2 p4 p3 p5)) (r_ccsdt_res_bbb 10 p0 p2 p1 p4 p3 p5)) (r_ccsdt_res_bbb 10 p1 p2 p0 p4 p3 p5)) (r_ccsdt_res_bbb 10 p2 p1 p0 p4 p3 p5)) (r_ccsdt_res_bbb 10 p2 p0 p1 p4 p3 p5)) (r_ccsdt_res_bbb 10 p0 p1 p2 p3 p5 p4)) (r_ccsdt_res_bbb 10 p1 p0 p2 p3 p5 p4)) (r_ccsdt_res_bbb 10 p0 p2 p1 p3 p5 p4)) (r_ccsdt_res_bbb 10 p1 p2 p0 p3 p5 p4)) (r_ccsdt_res_bbb 10 p2 p1 p0 p3 p5 p4)) (r_ccsdt_res_bbb 10 p2 p0 p1 p3 p5 p4)) (r_ccsdt_res_bbb 10 p0 p1 p2 p5 p4 p3)) (r_ccsdt_res_bbb 10 p1 p0 p2 p5 p4 p3)) (r_ccsdt_res_bbb 10 p0 p2 p1 p5 p4 p3)) (r_ccsdt_res_bbb 10 p1 p2 p0 p5 p4 p3)) (r_ccsdt_res_bbb 10 p2 p1 p0 p5 p4 p3)) (r_ccsdt_res_bbb 10 p2 p0 p1 p5 p4 p3)) (r_ccsdt_res_bbb 10 p0 p1 p2 p4 p5 p3)) (r_ccsdt_res_bbb 10 p1 p0 p2 p4 p5 p3)) (r_ccsdt_res_bbb 10 p0 p2 p1 p4 p5 p3)) (r_ccsdt_res_bbb 10 p1 p2 p0 p4 p5 p3)) (r_ccsdt_res_bbb 10 p2 p1 p0 p4 p5 p3)) (r_ccsdt_res_bbb 10 p2 p0 p1 p4 p5 p3)) (r_ccsdt_res_bbb 10 p0 p1 p2 p5 p3 p4)) (r_ccsdt_res_bbb 10 p1 p0 p2 p5 p3 p4)) (r_ccsdt_res_bbb 10 p0 p2 p1 p5 p3 p4)) (r_ccsdt_res_bbb 10 p1 p2 p0 p5 p3 p4)) (r_ccsdt_res_bbb 10 p2 p1 p0 p5 p3 p4)) (r_ccsdt_res_bbb 10 p2 p0 p1 p5 p3 p4)).
Definition sdt_bra_ref : list op := [].
Definition sdt_ext_ref : list (nat * nat) := [].
Definition sdt_c_ref := (EC 1 1).
Definition sdt_d_ref := EAdd (EMul f_en sdt_c_ref) (EC 0 1).
Lemma sdt_bk_ref : braok sdt_ext_ref sdt_bra_ref = true. Proof. vm_compute. reflexivity. Qed.
Lemma sdt_kc_ref : fock_fast sdt_tab sdt_ext_ref (eek2 sdt_bra_ref sdt_rts) sdt_c_ref = true. Proof. vm_compute. reflexivity. Qed.
Lemma sdt_kd_ref : fock_fast sdt_tab sdt_ext_ref (hek2 sdt_bra_ref sdt_rts) (kill sdt_d_ref) = true. Proof. vm_compute. reflexivity. Qed.
Definition sdt_bra_a : list op := [C 0 1; A 1 0].
Definition sdt_ext_a : list (nat * nat) := [(0, 1); (1, 0)].
Definition sdt_c_a := (EC 0 1).
Definition sdt_d_a := EAdd (EMul f_en sdt_c_a) (e_sdt_a 0 1).
Lemma sdt_bk_a : braok sdt_ext_a sdt_bra_a = true. Proof. vm_compute. reflexivity. Qed.
Lemma sdt_kc_a : fock_fast sdt_tab sdt_ext_a (eek2 sdt_bra_a sdt_rts) sdt_c_a = true. Proof. vm_compute. reflexivity. Qed.
Lemma sdt_kd_a : fock_fast sdt_tab sdt_ext_a (hek2 sdt_bra_a sdt_rts) (kill sdt_d_a) = true. Proof. vm_compute. reflexivity. Qed.
Definition sdt_bra_b : list op := [C 2 1; A 3 0].
Definition sdt_ext_b : list (nat * nat) := [(0, 3); (1, 2)].
Definition sdt_c_b := (EC 0 1).
Definition sdt_d_b := EAdd (EMul f_en sdt_c_b) (e_sdt_b 0 1).
Lemma sdt_bk_b : braok sdt_ext_b sdt_bra_b = true. Proof. vm_compute. reflexivity. Qed.
Lemma sdt_kc_b : fock_fast sdt_tab sdt_ext_b (eek2 sdt_bra_b sdt_rts) sdt_c_b = true. Proof. vm_compute. reflexivity. Qed.
Lemma sdt_kd_b : fock_fast sdt_tab sdt_ext_b (hek2 sdt_bra_b sdt_rts) (kill sdt_d_b) = true. Proof. vm_compute. reflexivity. Qed.
Definition sdt_bra_aa : list op := [C 0 2; C 0 3; A 1 1; A 1 0].
Definition sdt_ext_aa : list (nat * nat) := [(0, 1); (1, 1); (2, 0); (3, 0)].
Definition sdt_c_aa := (ET 2 [0; 1; 2; 3]).
Definition sdt_d_aa := EAdd (EMul f_en sdt_c_aa) (e_sdt_aa 0 1 2 3).
Lemma sdt_bk_aa : braok sdt_ext_aa sdt_bra_aa = true. Proof. vm_compute. reflexivity. Qed.
Lemma sdt_kc_aa : fock_fast sdt_tab sdt_ext_aa (eek2 sdt_bra_aa sdt_rts) sdt_c_aa = true. Proof. vm_compute. reflexivity. Qed.
Lemma sdt_kd_aa : fock_fast sdt_tab sdt_ext_aa (hek2 sdt_bra_aa sdt_rts) (kill sdt_d_aa) = true. Proof. vm_compute. reflexivity. Qed.
Definition sdt_bra_ab : list op := [C 0 2; C 2 3; A 3 1; A 1 0].
Definition sdt_ext_ab : list (nat * nat) := [(0, 1); (1, 3); (2, 0); (3, 2)].
Definition sdt_c_ab := (ET 3 [0; 1; 2; 3]).
Definition sdt_d_ab := EAdd (EMul f_en sdt_c_ab) (e_sdt_ab 0 1 2 3).
Lemma sdt_bk_ab : braok sdt_ext_ab sdt_bra_ab = true. Proof. vm_compute. reflexivity. Qed.
Lemma sdt_kc_ab : fock_fast sdt_tab sdt_ext_ab (eek2 sdt_bra_ab sdt_rts) sdt_c_ab = true. Proof. vm_compute. reflexivity. Qed.
Lemma sdt_kd_ab : fock_fast sdt_tab sdt_ext_ab (hek2 sdt_bra_ab sdt_rts) (kill sdt_d_ab) = true. Proof. vm_compute. reflexivity. Qed.
Definition sdt_bra_bb : list op := [C 2 2; C 2 3; A 3 1; A 3 0].
Definition sdt_ext_bb : list (nat * nat) := [(0, 3); (1, 3); (2, 2); (3, 2)].
Definition sdt_c_bb := (ET 4 [0; 1; 2; 3]).
Definition sdt_d_bb := EAdd (EMul f_en sdt_c_bb) (e_sdt_bb 0 1 2 3).
Lemma sdt_bk_bb : braok sdt_ext_bb sdt_bra_bb = true. Proof. vm_compute. reflexivity. Qed.
Lemma sdt_kc_bb : fock_fast sdt_tab sdt_ext_bb (eek2 sdt_bra_bb sdt_rts) sdt_c_bb = true. Proof. vm_compute. reflexivity. Qed.
Lemma sdt_kd_bb : fock_fast sdt_tab sdt_ext_bb (hek2 sdt_bra_bb sdt_rts) (kill sdt_d_bb) = true. Proof. vm_compute. reflexivity. Qed.
Definition sdt_bra_aaa : list op := [C 0 3; C 0 4; C 0 5; A 1 2; A 1 1; A 1 0].
Definition sdt_ext_aaa : list (nat * nat) := [(0, 1); (1, 1); (2, 1); (3, 0); (4, 0); (5, 0)].
Definition sdt_c_aaa := (ET 5 [0; 1; 2; 3; 4; 5]).
Definition sdt_d_aaa := EAdd (EMul f_en sdt_c_aaa) (EAdd (EAdd (EAdd (EAdd (EAdd (EAdd (EAdd (EAdd (EAdd (EMul (ET 2 [1; 2; 3; 4]) (e_sdt_a 0 5)) (EOpp (EMul (ET 2 [0; 2; 3; 4]) (e_sdt_a 1 5)))) (EMul (ET 2 [0; 1; 3; 4]) (e_sdt_a 2 5))) (EOpp (EMul (ET 2 [1; 2; 3; 5]) (e_sdt_a 0 4)))) (EMul (ET 2 [0; 2; 3; 5]) (e_sdt_a 1 4))) (EOpp (EMul (ET 2 [0; 1; 3; 5]) (e_sdt_a 2 4)))) (EMul (ET 2 [1; 2; 4; 5]) (e_sdt_a 0 3))) (EOpp (EMul (ET 2 [0; 2; 4; 5]) (e_sdt_a 1 3)))) (EMul (ET 2 [0; 1; 4; 5]) (e_sdt_a 2 3))) (e_sdt_aaa 0 1 2 3 4 5)).
Lemma sdt_bk_aaa : braok sdt_ext_aaa sdt_bra_aaa = true. Proof. vm_compute. reflexivity. Qed.
Lemma sdt_kc_aaa : fock_fast sdt_tab sdt_ext_aaa (eek2 sdt_bra_aaa sdt_rts) sdt_c_aaa = true. Proof. vm_compute. reflexivity. Qed.
Lemma sdt_kd_aaa : fock_fast sdt_tab sdt_ext_aaa (hek2 sdt_bra_aaa sdt_rts) (kill sdt_d_aaa) = true. Proof. vm_compute. reflexivity. Qed.
Definition sdt_bra_aab : list op := [C 0 3; C 0 4; C 2 5; A 3 2; A 1 1; A 1 0].
Definition sdt_ext_aab : list (nat * nat) := [(0, 1); (1, 1); (2, 3); (3, 0); (4, 0); (5, 2)].
Definition sdt_c_aab := (ET 6 [0; 1; 2; 3; 4; 5]).
Definition sdt_d_aab := EAdd (EMul f_en sdt_c_aab) (EAdd (EAdd (EAdd (EAdd (EAdd (EOpp (EMul (ET 3 [1; 2; 3; 5]) (e_sdt_a 0 4))) (EMul (ET 3 [0; 2; 3; 5]) (e_sdt_a 1 4))) (EMul (ET 3 [1; 2; 4; 5]) (e_sdt_a 0 3))) (EOpp (EMul (ET 3 [0; 2; 4; 5]) (e_sdt_a 1 3)))) (EMul (ET 2 [0; 1; 3; 4]) (e_sdt_b 2 5))) (e_sdt_aab 0 1 2 3 4 5)).
Lemma sdt_bk_aab : braok sdt_ext_aab sdt_bra_aab = true. Proof. vm_compute. reflexivity. Qed.
Lemma sdt_kc_aab : fock_fast sdt_tab sdt_ext_aab (eek2 sdt_bra_aab sdt_rts) sdt_c_aab = true. Proof. vm_compute. reflexivity. Qed.
Lemma sdt_kd_aab : fock_fast sdt_tab sdt_ext_aab (hek2 sdt_bra_aab sdt_rts) (kill sdt_d_aab) = true. Proof. vm_compute. reflexivity. Qed.
Definition sdt_bra_abb : list op := [C 0 3; C 2 4; C 2 5; A 3 2; A 3 1; A 1 0].
Definition sdt_ext_abb : list (nat * nat) := [(0, 1); (1, 3); (2, 3); (3, 0); (4, 2); (5, 2)].
Definition sdt_c_abb := (ET 7 [0; 1; 2; 3; 4; 5]).
Definition sdt_d_abb := EAdd (EMul f_en sdt_c_abb) (EAdd (EAdd (EAdd (EAdd (EAdd (EMul (ET 4 [1; 2; 4; 5]) (e_sdt_a 0 3)) (EOpp (EMul (ET 3 [0; 2; 3; 4]) (e_sdt_b 1 5)))) (EMul (ET 3 [0; 1; 3; 4]) (e_sdt_b 2 5))) (EMul (ET 3 [0; 2; 3; 5]) (e_sdt_b 1 4))) (EOpp (EMul (ET 3 [0; 1; 3; 5]) (e_sdt_b 2 4)))) (e_sdt_abb 0 1 2 3 4 5)).
Lemma sdt_bk_abb : braok sdt_ext_abb sdt_bra_abb = true. Proof. vm_compute. reflexivity. Qed.
Lemma sdt_kc_abb : fock_fast sdt_tab sdt_ext_abb (eek2 sdt_bra_abb sdt_rts) sdt_c_abb = true. Proof. vm_compute. reflexivity. Qed.
Lemma sdt_kd_abb : fock_fast sdt_tab sdt_ext_abb (hek2 sdt_bra_abb sdt_rts) (kill sdt_d_abb) = true. Proof. vm_compute. reflexivity. Qed.
Definition sdt_bra_bbb : list op := [C 2 3; C 2 4; C 2 5; A 3 2; A 3 1; A 3 0].
Definition sdt_ext_bbb : list (nat * nat) := [(0, 3); (1, 3); (2, 3); (3, 2); (4, 2); (5, 2)].
Definition sdt_c_bbb := (ET 8 [0; 1; 2; 3; 4; 5]).
Definition sdt_d_bbb := EAdd (EMul f_en sdt_c_bbb) (EAdd (EAdd (EAdd (EAdd (EAdd (EAdd (EAdd (EAdd (EAdd (EMul (ET 4 [1; 2; 3; 4]) (e_sdt_b 0 5)) (EOpp (EMul (ET 4 [0; 2; 3; 4]) (e_sdt_b 1 5)))) (EMul (ET 4 [0; 1; 3; 4]) (e_sdt_b 2 5))) (EOpp (EMul (ET 4 [1; 2; 3; 5]) (e_sdt_b 0 4)))) (EMul (ET 4 [0; 2; 3; 5]) (e_sdt_b 1 4))) (EOpp (EMul (ET 4 [0; 1; 3; 5]) (e_sdt_b 2 4)))) (EMul (ET 4 [1; 2; 4; 5]) (e_sdt_b 0 3))) (EOpp (EMul (ET 4 [0; 2; 4; 5]) (e_sdt_b 1 3)))) (EMul (ET 4 [0; 1; 4; 5]) (e_sdt_b 2 3))) (e_sdt_bbb 0 1 2 3 4 5)).
Lemma sdt_bk_bbb : braok sdt_ext_bbb sdt_bra_bbb = true. Proof. vm_compute. reflexivity. Qed.
Lemma sdt_kc_bbb : fock_fast sdt_tab sdt_ext_bbb (eek2 sdt_bra_bbb sdt_rts) sdt_c_bbb = true. Proof. vm_compute. reflexivity. Qed.
Lemma sdt_kd_bbb : fock_fast sdt_tab sdt_ext_bbb (hek2 sdt_bra_bbb sdt_rts) (kill sdt_d_bbb) = true. Proof. vm_compute. reflexivity. Qed.
Local Open Scope R_scope.
Lemma half36 : Q2R (1 # 36) = / 36. Proof. unfold Q2R. cbn [Qnum Qden]. lra. Qed.
Section P.
Variables (d : dims) (I : integrals) (T0 : amps) (n m : nat).
Hypothesis En : (noa d + nua d = n)%nat.
Hypothesis En' : (nob d + nub d = n)%nat.
Hypothesis HI : exchangeable I.
Hypothesis HT : antisym_amps T0.
Hypothesis HY : triples_anti T0.
Hypothesis Hm : (2 <= m)%nat.
Notation T := (bare T0).
Notation H := (fock_ints (noa d) (nob d) I).
Notation ref := (reference (noa d) (nob d)).
Notation psi := (expo (cluster_sd d T) m (pure ref)).
Notation E := (scf_energy (noa d) (nob d) I + cc_energy d H T).
Notation ten := (tenv (fock_arrays H T ++ [])).
Notation dn e v := (den (fdim d) ten e v).
Notation X := (ccsdt_resid d H T).
Definition with3 (A : amps) (phi : state) : state := fun D => phi D + triples d A phi D.
Definition sdt_defect : state := fun D => hamiltonian n I (with3 T0 psi) D - E * with3 T0 psi D.
Lemma sdt_op_ok v phi : psem (noa d) (nob d) (fdim d) ten sdt_rts v phi = with3 T0 phi.
Proof.
  apply ext_state; intros D. unfold psem, sdt_rts, with3, triples. cbn [lsum]. unfold tsem. cbn [t_c t_l t_f t_o].
  rewrite !half36, !fourth, Q1, Rplus_0_r. cbn [ssum prodf opsem fold_right]. rewrite !Rmult_1_l, !Rplus_assoc.
  repeat match goal with |- _ + _ = _ + _ => apply f_equal2 | |- / _ * _ = / _ * _ => apply f_equal end; [reflexivity|..]; repeat (apply sumn_ext; intros ? _); cbn [prodf]; rewrite Rmult_1_r; reflexivity.
Qed.
Lemma sdt_syms : Forall (fun g => okalt ten (fst g) (snd g)) sdt_gens.
Proof.
  apply sector_syms; [exact (fock_ints_antisym _ _ _ HI)|exact (bare_anti _ HT)|]. destruct HY as (A0 & A1 & A2 & A3 & A4 & A5 & A6 & A7 & A8 & A9 & A10 & A11).
  apply Forall_cons; [okswap6 A0|]. apply Forall_cons; [okswap6 A1|]. apply Forall_cons; [okswap6 A2|]. apply Forall_cons; [okswap6 A3|]. apply Forall_cons; [okswap6 A4|]. apply Forall_cons; [okswap6 A5|]. apply Forall_cons; [okswap6 A6|]. apply Forall_cons; [okswap6 A7|]. apply Forall_cons; [okswap6 A8|]. apply Forall_cons; [okswap6 A9|]. apply Forall_cons; [okswap6 A10|]. apply Forall_cons; [okswap6 A11|]. apply Forall_nil.
Qed.
Lemma sdt_comp_ref : str [] sdt_defect ref = 0.
Proof.
  change (opsem (noa d) (nob d) sdt_bra_ref (venv []) sdt_defect ref = 0). unfold sdt_defect. rewrite <- (sdt_op_ok (venv [])).
  rewrite (defect2_ok d I T0 n [] sdt_rts 0 En En' sdt_rtok sdt_own sdt_syms sdt_tab sdt_htab sdt_ext_ref sdt_bra_ref (venv []) m sdt_d_ref sdt_c_ref E);
    [|extv|exact sdt_bk_ref|cbn; lia|exact Hm|exact sdt_kd_ref|exact sdt_kc_ref].
  change (dn sdt_d_ref (venv [])) with (dn f_en (venv []) * dn sdt_c_ref (venv []) + dn (EC 0 1) (venv [])). rewrite sector_en, den_zero. ring.
Qed.
Lemma sdt_comp_a a i : (a < nua d)%nat -> (i < noa d)%nat -> str [(true, oa i); (false, va d a)] sdt_defect ref = x_a X a i.
Proof.
  intros Ha Hi.
  change (opsem (noa d) (nob d) sdt_bra_a (venv [a; i]) sdt_defect ref = x_a X a i). unfold sdt_defect. rewrite <- (sdt_op_ok (venv [a; i])).
  rewrite (defect2_ok d I T0 n [] sdt_rts 0 En En' sdt_rtok sdt_own sdt_syms sdt_tab sdt_htab sdt_ext_a sdt_bra_a (venv [a; i]) m sdt_d_a sdt_c_a E);
    [|extv|exact sdt_bk_a|cbn; lia|exact Hm|exact sdt_kd_a|exact sdt_kc_a].
  change (dn sdt_d_a (venv [a; i])) with (dn f_en (venv [a; i]) * dn sdt_c_a (venv [a; i]) + x_a X a i). rewrite sector_en. ring.
Qed.
Lemma sdt_comp_b a i : (a < nub d)%nat -> (i < nob d)%nat -> str [(true, ob i); (false, vb d a)] sdt_defect ref = x_b X a i.
Proof.
  intros Ha Hi.
  change (opsem (noa d) (nob d) sdt_bra_b (venv [a; i]) sdt_defect ref = x_b X a i). unfold sdt_defect. rewrite <- (sdt_op_ok (venv [a; i])).
  rewrite (defect2_ok d I T0 n [] sdt_rts 0 En En' sdt_rtok sdt_own sdt_syms sdt_tab sdt_htab sdt_ext_b sdt_bra_b (venv [a; i]) m sdt_d_b sdt_c_b E);
    [|extv|exact sdt_bk_b|cbn; lia|exact Hm|exact sdt_kd_b|exact sdt_kc_b].
  change (dn sdt_d_b (venv [a; i])) with (dn f_en (venv [a; i]) * dn sdt_c_b (venv [a; i]) + x_b X a i). rewrite sector_en. ring.
Qed.
Lemma sdt_comp_aa a b i j : (a < nua d)%nat -> (b < nua d)%nat -> (i < noa d)%nat -> (j < noa d)%nat -> str [(true, oa i); (true, oa j); (false, va d b); (false, va d a)] sdt_defect ref = x_aa X a b i j.
Proof.
  intros Ha Hb Hi Hj.
  change (opsem (noa d) (nob d) sdt_bra_aa (venv [a; b; i; j]) sdt_defect ref = x_aa X a b i j). unfold sdt_defect. rewrite <- (sdt_op_ok (venv [a; b; i; j])).
  rewrite (defect2_ok d I T0 n [] sdt_rts 0 En En' sdt_rtok sdt_own sdt_syms sdt_tab sdt_htab sdt_ext_aa sdt_bra_aa (venv [a; b; i; j]) m sdt_d_aa sdt_c_aa E);
    [|extv|exact sdt_bk_aa|cbn; lia|exact Hm|exact sdt_kd_aa|exact sdt_kc_aa].
  change (dn sdt_d_aa (venv [a; b; i; j])) with (dn f_en (venv [a; b; i; j]) * dn sdt_c_aa (venv [a; b; i; j]) + x_aa X a b i j). rewrite sector_en. ring.
Qed.
Lemma sdt_comp_ab a b i j : (a < nua d)%nat -> (b < nub d)%nat -> (i < noa d)%nat -> (j < nob d)%nat -> str [(true, oa i); (true, ob j); (false, vb d b); (false, va d a)] sdt_defect ref = x_ab X a b i j.
Proof.
  intros Ha Hb Hi Hj.
  change (opsem (noa d) (nob d) sdt_bra_ab (venv [a; b; i; j]) sdt_defect ref = x_ab X a b i j). unfold sdt_defect. rewrite <- (sdt_op_ok (venv [a; b; i; j])).
  rewrite (defect2_ok d I T0 n [] sdt_rts 0 En En' sdt_rtok sdt_own sdt_syms sdt_tab sdt_htab sdt_ext_ab sdt_bra_ab (venv [a; b; i; j]) m sdt_d_ab sdt_c_ab E);
    [|extv|exact sdt_bk_ab|cbn; lia|exact Hm|exact sdt_kd_ab|exact sdt_kc_ab].
  change (dn sdt_d_ab (venv [a; b; i; j])) with (dn f_en (venv [a; b; i; j]) * dn sdt_c_ab (venv [a; b; i; j]) + x_ab X a b i j). rewrite sector_en. ring.
Qed.
Lemma sdt_comp_bb a b i j : (a < nub d)%nat -> (b < nub d)%nat -> (i < nob d)%nat -> (j < nob d)%nat -> str [(true, ob i); (true, ob j); (false, vb d b); (false, vb d a)] sdt_defect ref = x_bb X a b i j.
Proof.
  intros Ha Hb Hi Hj.
  change (opsem (noa d) (nob d) sdt_bra_bb (venv [a; b; i; j]) sdt_defect ref = x_bb X a b i j). unfold sdt_defect. rewrite <- (sdt_op_ok (venv [a; b; i; j])).
  rewrite (defect2_ok d I T0 n [] sdt_rts 0 En En' sdt_rtok sdt_own sdt_syms sdt_tab sdt_htab sdt_ext_bb sdt_bra_bb (venv [a; b; i; j]) m sdt_d_bb sdt_c_bb E);
    [|extv|exact sdt_bk_bb|cbn; lia|exact Hm|exact sdt_kd_bb|exact sdt_kc_bb].
  change (dn sdt_d_bb (venv [a; b; i; j])) with (dn f_en (venv [a; b; i; j]) * dn sdt_c_bb (venv [a; b; i; j]) + x_bb X a b i j). rewrite sector_en. ring.
Qed.
Lemma sdt_comp_aaa a b c i j k : (a < nua d)%nat -> (b < nua d)%nat -> (c < nua d)%nat -> (i < noa d)%nat -> (j < noa d)%nat -> (k < noa d)%nat -> str [(true, oa i); (true, oa j); (true, oa k); (false, va d c); (false, va d b); (false, va d a)] sdt_defect ref = ((((((((((x_aa T b c i j * x_a X a k) + (- (x_aa T a c i j * x_a X b k))) + (x_aa T a b i j * x_a X c k)) + (- (x_aa T b c i k * x_a X a j))) + (x_aa T a c i k * x_a X b j)) + (- (x_aa T a b i k * x_a X c j))) + (x_aa T b c j k * x_a X a i)) + (- (x_aa T a c j k * x_a X b i))) + (x_aa T a b j k * x_a X c i)) + x_aaa X a b c i j k).
Proof.
  intros Ha Hb Hc Hi Hj Hk.
  change (opsem (noa d) (nob d) sdt_bra_aaa (venv [a; b; c; i; j; k]) sdt_defect ref = ((((((((((x_aa T b c i j * x_a X a k) + (- (x_aa T a c i j * x_a X b k))) + (x_aa T a b i j * x_a X c k)) + (- (x_aa T b c i k * x_a X a j))) + (x_aa T a c i k * x_a X b j)) + (- (x_aa T a b i k * x_a X c j))) + (x_aa T b c j k * x_a X a i)) + (- (x_aa T a c j k * x_a X b i))) + (x_aa T a b j k * x_a X c i)) + x_aaa X a b c i j k)). unfold sdt_defect. rewrite <- (sdt_op_ok (venv [a; b; c; i; j; k])).
  rewrite (defect2_ok d I T0 n [] sdt_rts 0 En En' sdt_rtok sdt_own sdt_syms sdt_tab sdt_htab sdt_ext_aaa sdt_bra_aaa (venv [a; b; c; i; j; k]) m sdt_d_aaa sdt_c_aaa E);
    [|extv|exact sdt_bk_aaa|cbn; lia|exact Hm|exact sdt_kd_aaa|exact sdt_kc_aaa].
  change (dn sdt_d_aaa (venv [a; b; c; i; j; k])) with (dn f_en (venv [a; b; c; i; j; k]) * dn sdt_c_aaa (venv [a; b; c; i; j; k]) + ((((((((((x_aa T b c i j * x_a X a k) + (- (x_aa T a c i j * x_a X b k))) + (x_aa T a b i j * x_a X c k)) + (- (x_aa T b c i k * x_a X a j))) + (x_aa T a c i k * x_a X b j)) + (- (x_aa T a b i k * x_a X c j))) + (x_aa T b c j k * x_a X a i)) + (- (x_aa T a c j k * x_a X b i))) + (x_aa T a b j k * x_a X c i)) + x_aaa X a b c i j k)). rewrite sector_en. ring.
Qed.
Lemma sdt_comp_aab a b c i j k : (a < nua d)%nat -> (b < nua d)%nat -> (c < nub d)%nat -> (i < noa d)%nat -> (j < noa d)%nat -> (k < nob d)%nat -> str [(true, oa i); (true, oa j); (true, ob k); (false, vb d c); (false, va d b); (false, va d a)] sdt_defect ref = ((((((- (x_ab T b c i k * x_a X a j)) + (x_ab T a c i k * x_a X b j)) + (x_ab T b c j k * x_a X a i)) + (- (x_ab T a c j k * x_a X b i))) + (x_aa T a b i j * x_b X c k)) + x_aab X a b c i j k).
Proof.
  intros Ha Hb Hc Hi Hj Hk.
  change (opsem (noa d) (nob d) sdt_bra_aab (venv [a; b; c; i; j; k]) sdt_defect ref = ((((((- (x_ab T b c i k * x_a X a j)) + (x_ab T a c i k * x_a X b j)) + (x_ab T b c j k * x_a X a i)) + (- (x_ab T a c j k * x_a X b i))) + (x_aa T a b i j * x_b X c k)) + x_aab X a b c i j k)). unfold sdt_defect. rewrite <- (sdt_op_ok (venv [a; b; c; i; j; k])).
  rewrite (defect2_ok d I T0 n [] sdt_rts 0 En En' sdt_rtok sdt_own sdt_syms sdt_tab sdt_htab sdt_ext_aab sdt_bra_aab (venv [a; b; c; i; j; k]) m sdt_d_aab sdt_c_aab E);
    [|extv|exact sdt_bk_aab|cbn; lia|exact Hm|exact sdt_kd_aab|exact sdt_kc_aab].
  change (dn sdt_d_aab (venv [a; b; c; i; j; k])) with (dn f_en (venv [a; b; c; i; j; k]) * dn sdt_c_aab (venv [a; b; c; i; j; k]) + ((((((- (x_ab T b c i k * x_a X a j)) + (x_ab T a c i k * x_a X b j)) + (x_ab T b c j k * x_a X a i)) + (- (x_ab T a c j k * x_a X b i))) + (x_aa T a b i j * x_b X c k)) + x_aab X a b c i j k)). rewrite sector_en. ring.
Qed.
Lemma sdt_comp_abb a b c i j k : (a < nua d)%nat -> (b < nub d)%nat -> (c < nub d)%nat -> (i < noa d)%nat -> (j < nob d)%nat -> (k < nob d)%nat -> str [(true, oa i); (true, ob j); (true, ob k); (false, vb d c); (false, vb d b); (false, va d a)] sdt_defect ref = ((((((x_bb T b c j k * x_a X a i) + (- (x_ab T a c i j * x_b X b k))) + (x_ab T a b i j * x_b X c k)) + (x_ab T a c i k * x_b X b j)) + (- (x_ab T a b i k * x_b X c j))) + x_abb X a b c i j k).
Proof.
  intros Ha Hb Hc Hi Hj Hk.
  change (opsem (noa d) (nob d) sdt_bra_abb (venv [a; b; c; i; j; k]) sdt_defect ref = ((((((x_bb T b c j k * x_a X a i) + (- (x_ab T a c i j * x_b X b k))) + (x_ab T a b i j * x_b X c k)) + (x_ab T a c i k * x_b X b j)) + (- (x_ab T a b i k * x_b X c j))) + x_abb X a b c i j k)). unfold sdt_defect. rewrite <- (sdt_op_ok (venv [a; b; c; i; j; k])).
  rewrite (defect2_ok d I T0 n [] sdt_rts 0 En En' sdt_rtok sdt_own sdt_syms sdt_tab sdt_htab sdt_ext_abb sdt_bra_abb (venv [a; b; c; i; j; k]) m sdt_d_abb sdt_c_abb E);
    [|extv|exact sdt_bk_abb|cbn; lia|exact Hm|exact sdt_kd_abb|exact sdt_kc_abb].
  change (dn sdt_d_abb (venv [a; b; c; i; j; k])) with (dn f_en (venv [a; b; c; i; j; k]) * dn sdt_c_abb (venv [a; b; c; i; j; k]) + ((((((x_bb T b c j k * x_a X a i) + (- (x_ab T a c i j * x_b X b k))) + (x_ab T a b i j * x_b X c k)) + (x_ab T a c i k * x_b X b j)) + (- (x_ab T a b i k * x_b X c j))) + x_abb X a b c i j k)). rewrite sector_en. ring.
Qed.
Lemma sdt_comp_bbb a b c i j k : (a < nub d)%nat -> (b < nub d)%nat -> (c < nub d)%nat -> (i < nob d)%nat -> (j < nob d)%nat -> (k < nob d)%nat -> str [(true, ob i); (true, ob j); (true, ob k); (false, vb d c); (false, vb d b); (false, vb d a)] sdt_defect ref = ((((((((((x_bb T b c i j * x_b X a k) + (- (x_bb T a c i j * x_b X b k))) + (x_bb T a b i j * x_b X c k)) + (- (x_bb T b c i k * x_b X a j))) + (x_bb T a c i k * x_b X b j)) + (- (x_bb T a b i k * x_b X c j))) + (x_bb T b c j k * x_b X a i)) + (- (x_bb T a c j k * x_b X b i))) + (x_bb T a b j k * x_b X c i)) + x_bbb X a b c i j k).
Proof.
  intros Ha Hb Hc Hi Hj Hk.
  change (opsem (noa d) (nob d) sdt_bra_bbb (venv [a; b; c; i; j; k]) sdt_defect ref = ((((((((((x_bb T b c i j * x_b X a k) + (- (x_bb T a c i j * x_b X b k))) + (x_bb T a b i j * x_b X c k)) + (- (x_bb T b c i k * x_b X a j))) + (x_bb T a c i k * x_b X b j)) + (- (x_bb T a b i k * x_b X c j))) + (x_bb T b c j k * x_b X a i)) + (- (x_bb T a c j k * x_b X b i))) + (x_bb T a b j k * x_b X c i)) + x_bbb X a b c i j k)). unfold sdt_defect. rewrite <- (sdt_op_ok (venv [a; b; c; i; j; k])).
  rewrite (defect2_ok d I T0 n [] sdt_rts 0 En En' sdt_rtok sdt_own sdt_syms sdt_tab sdt_htab sdt_ext_bbb sdt_bra_bbb (venv [a; b; c; i; j; k]) m sdt_d_bbb sdt_c_bbb E);
    [|extv|exact sdt_bk_bbb|cbn; lia|exact Hm|exact sdt_kd_bbb|exact sdt_kc_bbb].
  change (dn sdt_d_bbb (venv [a; b; c; i; j; k])) with (dn f_en (venv [a; b; c; i; j; k]) * dn sdt_c_bbb (venv [a; b; c; i; j; k]) + ((((((((((x_bb T b c i j * x_b X a k) + (- (x_bb T a c i j * x_b X b k))) + (x_bb T a b i j * x_b X c k)) + (- (x_bb T b c i k * x_b X a j))) + (x_bb T a c i k * x_b X b j)) + (- (x_bb T a b i k * x_b X c j))) + (x_bb T b c j k * x_b X a i)) + (- (x_bb T a c j k * x_b X b i))) + (x_bb T a b j k * x_b X c i)) + x_bbb X a b c i j k)). rewrite sector_en. ring.
Qed.
Lemma sdt_solves : solves_on (sdt_space d n) n I E (with3 T0 psi) <-> same_amps3 d X zero_amps.
Proof.
  assert (F := sdt_flat d n sdt_defect En En').
  transitivity (forall D, sdt_space d n D -> sdt_defect D = 0); [unfold solves_on, sdt_defect; split; intros G D HD; specialize (G D HD); [rewrite G; ring|lra]|]. rewrite F. clear F. unfold same_amps3. cbn [zero_amps x_a x_b x_aa x_ab x_bb x_aaa x_aab x_abb x_bbb]. split.
  - intros (F0 & F1 & F2 & F3 & F4 & F5 & F6 & F7 & F8 & F9).
    assert (L1 : forall a i, (a < nua d)%nat -> (i < noa d)%nat -> x_a X a i = 0).
    { intros a i Ha Hi. specialize (F1 a i Ha Hi). rewrite sdt_comp_a in F1 by assumption. rewrite <- F1. ring. }
    assert (L2 : forall a i, (a < nub d)%nat -> (i < nob d)%nat -> x_b X a i = 0).
    { intros a i Ha Hi. specialize (F2 a i Ha Hi). rewrite sdt_comp_b in F2 by assumption. rewrite <- F2. ring. }
    assert (L3 : forall a b i j, (a < nua d)%nat -> (b < nua d)%nat -> (i < noa d)%nat -> (j < noa d)%nat -> x_aa X a b i j = 0).
    { intros a b i j Ha Hb Hi Hj. specialize (F3 a b i j Ha Hb Hi Hj). rewrite sdt_comp_aa in F3 by assumption. rewrite <- F3. ring. }
    assert (L4 : forall a b i j, (a < nua d)%nat -> (b < nub d)%nat -> (i < noa d)%nat -> (j < nob d)%nat -> x_ab X a b i j = 0).
    { intros a b i j Ha Hb Hi Hj. specialize (F4 a b i j Ha Hb Hi Hj). rewrite sdt_comp_ab in F4 by assumption. rewrite <- F4. ring. }
    assert (L5 : forall a b i j, (a < nub d)%nat -> (b < nub d)%nat -> (i < nob d)%nat -> (j < nob d)%nat -> x_bb X a b i j = 0).
    { intros a b i j Ha Hb Hi Hj. specialize (F5 a b i j Ha Hb Hi Hj). rewrite sdt_comp_bb in F5 by assumption. rewrite <- F5. ring. }
    assert (L6 : forall a b c i j k, (a < nua d)%nat -> (b < nua d)%nat -> (c < nua d)%nat -> (i < noa d)%nat -> (j < noa d)%nat -> (k < noa d)%nat -> x_aaa X a b c i j k = 0).
    { intros a b c i j k Ha Hb Hc Hi Hj Hk. specialize (F6 a b c i j k Ha Hb Hc Hi Hj Hk). rewrite sdt_comp_aaa, !L1 in F6 by assumption. rewrite <- F6. ring. }
    assert (L7 : forall a b c i j k, (a < nua d)%nat -> (b < nua d)%nat -> (c < nub d)%nat -> (i < noa d)%nat -> (j < noa d)%nat -> (k < nob d)%nat -> x_aab X a b c i j k = 0).
    { intros a b c i j k Ha Hb Hc Hi Hj Hk. specialize (F7 a b c i j k Ha Hb Hc Hi Hj Hk). rewrite sdt_comp_aab, !L1, !L2 in F7 by assumption. rewrite <- F7. ring. }
    assert (L8 : forall a b c i j k, (a < nua d)%nat -> (b < nub d)%nat -> (c < nub d)%nat -> (i < noa d)%nat -> (j < nob d)%nat -> (k < nob d)%nat -> x_abb X a b c i j k = 0).
    { intros a b c i j k Ha Hb Hc Hi Hj Hk. specialize (F8 a b c i j k Ha Hb Hc Hi Hj Hk). rewrite sdt_comp_abb, !L1, !L2 in F8 by assumption. rewrite <- F8. ring. }
    assert (L9 : forall a b c i j k, (a < nub d)%nat -> (b < nub d)%nat -> (c < nub d)%nat -> (i < nob d)%nat -> (j < nob d)%nat -> (k < nob d)%nat -> x_bbb X a b c i j k = 0).
    { intros a b c i j k Ha Hb Hc Hi Hj Hk. specialize (F9 a b c i j k Ha Hb Hc Hi Hj Hk). rewrite sdt_comp_bbb, !L2 in F9 by assumption. rewrite <- F9. ring. }
    split; [|split; [|split; [|split; [|split; [|split; [|split; [|split; [|]]]]]]]]; intros; auto.
  - intros (L1 & L2 & L3 & L4 & L5 & L6 & L7 & L8 & L9).
    split; [|split; [|split; [|split; [|split; [|split; [|split; [|split; [|split; [|]]]]]]]]].
    + apply sdt_comp_ref.
    + intros a i Ha Hi. rewrite sdt_comp_a, !L1 by assumption. ring.
    + intros a i Ha Hi. rewrite sdt_comp_b, !L2 by assumption. ring.
    + intros a b i j Ha Hb Hi Hj. rewrite sdt_comp_aa, !L3 by assumption. ring.
    + intros a b i j Ha Hb Hi Hj. rewrite sdt_comp_ab, !L4 by assumption. ring.
    + intros a b i j Ha Hb Hi Hj. rewrite sdt_comp_bb, !L5 by assumption. ring.
    + intros a b c i j k Ha Hb Hc Hi Hj Hk. rewrite sdt_comp_aaa, !L1, !L6 by assumption. ring.
    + intros a b c i j k Ha Hb Hc Hi Hj Hk. rewrite sdt_comp_aab, !L1, !L2, !L7 by assumption. ring.
    + intros a b c i j k Ha Hb Hc Hi Hj Hk. rewrite sdt_comp_abb, !L1, !L2, !L8 by assumption. ring.
    + intros a b c i j k Ha Hb Hc Hi Hj Hk. rewrite sdt_comp_bbb, !L2, !L9 by assumption. ring.
Qed.
End P.
