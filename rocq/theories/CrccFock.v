(** Generated by tools/gen_crfock.py: components of (X1 + X2 + X3) exp(T2) |ref> for antisymmetric X (proof support). *)
From Coq Require Import Reals Arith NArith List Bool Lia Lra QArith Qreals ZArith FunctionalExtensionality.
From Verif Require Import RSum IntegralsModel TensorObjs TensorAlg TensorSpec CcsdModel CcsdUpdate CcsdReify CcsdProps FockSpec FockCar FockWick FockArrays FockCcSpec FockTerms FockHam FockExp FockLevel FockCheck FockState FockNear FockProj FockSector FockSectorTools
  FockFast FockSectorSpec FockFlip RankSpec FockDress FockShift FockSector3 FockTools3 CcsdtModel CcsdtUpdate CcsdtReify SdtSpec SdtFlat SdtFock.
Import ListNotations.
Local Open Scope nat_scope.
Definition cx_rts : list term := [mkTerm 1 [(40, 1); (41, 0)] [(66, [40; 41])] [C 1 40; A 0 41];
  mkTerm 1 [(40, 3); (41, 2)] [(67, [40; 41])] [C 3 40; A 2 41];
  mkTerm (1 # 4) [(40, 1); (41, 1); (42, 0); (43, 0)] [(68, [40; 41; 42; 43])] [C 1 40; C 1 41; A 0 43; A 0 42];
  mkTerm 1 [(40, 1); (41, 3); (42, 0); (43, 2)] [(69, [40; 41; 42; 43])] [C 1 40; C 3 41; A 2 43; A 0 42];
  mkTerm (1 # 4) [(40, 3); (41, 3); (42, 2); (43, 2)] [(70, [40; 41; 42; 43])] [C 3 40; C 3 41; A 2 43; A 2 42];
  mkTerm (1 # 36) [(40, 1); (41, 1); (42, 1); (43, 0); (44, 0); (45, 0)] [(71, [40; 41; 42; 43; 44; 45])] [C 1 40; C 1 41; C 1 42; A 0 45; A 0 44; A 0 43];
  mkTerm (1 # 4) [(40, 1); (41, 1); (42, 3); (43, 0); (44, 0); (45, 2)] [(72, [40; 41; 42; 43; 44; 45])] [C 1 40; C 1 41; C 3 42; A 2 45; A 0 44; A 0 43];
  mkTerm (1 # 4) [(40, 1); (41, 3); (42, 3); (43, 0); (44, 2); (45, 2)] [(73, [40; 41; 42; 43; 44; 45])] [C 1 40; C 3 41; C 3 42; A 2 45; A 2 44; A 0 43];
  mkTerm (1 # 36) [(40, 3); (41, 3); (42, 3); (43, 2); (44, 2); (45, 2)] [(74, [40; 41; 42; 43; 44; 45])] [C 3 40; C 3 41; C 3 42; A 2 45; A 2 44; A 2 43]].
Definition cx_own : list (nat * (nat * list nat * bool)) := [(68, (68, [0; 1; 3; 2], false)); (68, (68, [1; 0; 2; 3], false)); (70, (70, [0; 1; 3; 2], false)); (70, (70, [1; 0; 2; 3], false)); (71, (71, [0; 1; 2; 4; 3; 5], false)); (71, (71, [0; 1; 2; 3; 5; 4], false)); (71, (71, [1; 0; 2; 3; 4; 5], false)); (71, (71, [0; 2; 1; 3; 4; 5], false)); (72, (72, [0; 1; 2; 4; 3; 5], false)); (72, (72, [1; 0; 2; 3; 4; 5], false)); (73, (73, [0; 1; 2; 3; 5; 4], false)); (73, (73, [0; 2; 1; 3; 4; 5], false)); (74, (74, [0; 1; 2; 4; 3; 5], false)); (74, (74, [0; 1; 2; 3; 5; 4], false)); (74, (74, [1; 0; 2; 3; 4; 5], false)); (74, (74, [0; 2; 1; 3; 4; 5], false))].
Definition cx_gens := fock_gens ++ cx_own.
Definition cx_tab := Eval vm_compute in symtab cx_gens 75.
Lemma cx_htab : cx_tab = symtab cx_gens 75. Proof. vm_compute. reflexivity. Qed.
Lemma cx_rtok : rtok cx_rts 1 = true. Proof. vm_compute. reflexivity. Qed.
Definition cx_c_ref : ex := (EC 0 1).
Lemma cx_k_ref : fock_fast cx_tab sdt_ext_ref (eek2 sdt_bra_ref cx_rts) cx_c_ref = true. Proof. vm_compute. reflexivity. Qed.
Definition cx_c_a : ex := (ET 66 [0; 1]).
Lemma cx_k_a : fock_fast cx_tab sdt_ext_a (eek2 sdt_bra_a cx_rts) cx_c_a = true. Proof. vm_compute. reflexivity. Qed.
Definition cx_c_b : ex := (ET 67 [0; 1]).
Lemma cx_k_b : fock_fast cx_tab sdt_ext_b (eek2 sdt_bra_b cx_rts) cx_c_b = true. Proof. vm_compute. reflexivity. Qed.
Definition cx_c_aa : ex := (ET 68 [0; 1; 2; 3]).
Lemma cx_k_aa : fock_fast cx_tab sdt_ext_aa (eek2 sdt_bra_aa cx_rts) cx_c_aa = true. Proof. vm_compute. reflexivity. Qed.
Definition cx_c_ab : ex := (ET 69 [0; 1; 2; 3]).
Lemma cx_k_ab : fock_fast cx_tab sdt_ext_ab (eek2 sdt_bra_ab cx_rts) cx_c_ab = true. Proof. vm_compute. reflexivity. Qed.
Definition cx_c_bb : ex := (ET 70 [0; 1; 2; 3]).
Lemma cx_k_bb : fock_fast cx_tab sdt_ext_bb (eek2 sdt_bra_bb cx_rts) cx_c_bb = true. Proof. vm_compute. reflexivity. Qed.
Definition cx_c_aaa : ex := (EAdd (EAdd (EAdd (EAdd (EAdd (EAdd (EAdd (EAdd (EAdd (EMul (ET 2 [1; 2; 3; 4]) (ET 66 [0; 5])) (EOpp (EMul (ET 2 [0; 2; 3; 4]) (ET 66 [1; 5])))) (EMul (ET 2 [0; 1; 3; 4]) (ET 66 [2; 5]))) (EOpp (EMul (ET 2 [1; 2; 3; 5]) (ET 66 [0; 4])))) (EMul (ET 2 [0; 2; 3; 5]) (ET 66 [1; 4]))) (EOpp (EMul (ET 2 [0; 1; 3; 5]) (ET 66 [2; 4])))) (EMul (ET 2 [1; 2; 4; 5]) (ET 66 [0; 3]))) (EOpp (EMul (ET 2 [0; 2; 4; 5]) (ET 66 [1; 3])))) (EMul (ET 2 [0; 1; 4; 5]) (ET 66 [2; 3]))) (ET 71 [0; 1; 2; 3; 4; 5])).
Lemma cx_k_aaa : fock_fast cx_tab sdt_ext_aaa (eek2 sdt_bra_aaa cx_rts) cx_c_aaa = true. Proof. vm_compute. reflexivity. Qed.
Definition cx_c_aab : ex := (EAdd (EAdd (EAdd (EAdd (EAdd (EOpp (EMul (ET 3 [1; 2; 3; 5]) (ET 66 [0; 4]))) (EMul (ET 3 [0; 2; 3; 5]) (ET 66 [1; 4]))) (EMul (ET 3 [1; 2; 4; 5]) (ET 66 [0; 3]))) (EOpp (EMul (ET 3 [0; 2; 4; 5]) (ET 66 [1; 3])))) (EMul (ET 2 [0; 1; 3; 4]) (ET 67 [2; 5]))) (ET 72 [0; 1; 2; 3; 4; 5])).
Lemma cx_k_aab : fock_fast cx_tab sdt_ext_aab (eek2 sdt_bra_aab cx_rts) cx_c_aab = true. Proof. vm_compute. reflexivity. Qed.
Definition cx_c_abb : ex := (EAdd (EAdd (EAdd (EAdd (EAdd (EMul (ET 4 [1; 2; 4; 5]) (ET 66 [0; 3])) (EOpp (EMul (ET 3 [0; 2; 3; 4]) (ET 67 [1; 5])))) (EMul (ET 3 [0; 1; 3; 4]) (ET 67 [2; 5]))) (EMul (ET 3 [0; 2; 3; 5]) (ET 67 [1; 4]))) (EOpp (EMul (ET 3 [0; 1; 3; 5]) (ET 67 [2; 4])))) (ET 73 [0; 1; 2; 3; 4; 5])).
Lemma cx_k_abb : fock_fast cx_tab sdt_ext_abb (eek2 sdt_bra_abb cx_rts) cx_c_abb = true. Proof. vm_compute. reflexivity. Qed.
Definition cx_c_bbb : ex := (EAdd (EAdd (EAdd (EAdd (EAdd (EAdd (EAdd (EAdd (EAdd (EMul (ET 4 [1; 2; 3; 4]) (ET 67 [0; 5])) (EOpp (EMul (ET 4 [0; 2; 3; 4]) (ET 67 [1; 5])))) (EMul (ET 4 [0; 1; 3; 4]) (ET 67 [2; 5]))) (EOpp (EMul (ET 4 [1; 2; 3; 5]) (ET 67 [0; 4])))) (EMul (ET 4 [0; 2; 3; 5]) (ET 67 [1; 4]))) (EOpp (EMul (ET 4 [0; 1; 3; 5]) (ET 67 [2; 4])))) (EMul (ET 4 [1; 2; 4; 5]) (ET 67 [0; 3]))) (EOpp (EMul (ET 4 [0; 2; 4; 5]) (ET 67 [1; 3])))) (EMul (ET 4 [0; 1; 4; 5]) (ET 67 [2; 3]))) (ET 74 [0; 1; 2; 3; 4; 5])).
Lemma cx_k_bbb : fock_fast cx_tab sdt_ext_bbb (eek2 sdt_bra_bbb cx_rts) cx_c_bbb = true. Proof. vm_compute. reflexivity. Qed.
Local Open Scope R_scope.
Section P.
Variables (d : dims) (I : integrals) (T0 X : amps) (n m : nat).
Hypothesis En : (noa d + nua d = n)%nat.
Hypothesis En' : (nob d + nub d = n)%nat.
Hypothesis HI : exchangeable I.
Hypothesis HT : antisym_amps T0.
Hypothesis HX : antisym_amps X.
Hypothesis HX3 : triples_anti X.
Hypothesis Hm : (2 <= m)%nat.
Notation T := (bare T0).
Notation H := (fock_ints (noa d) (nob d) I).
Notation ref := (reference (noa d) (nob d)).
Notation psi := (expo (cluster_sd d T) m (pure ref)).
Notation XS := [ap2 (x_a X); ap2 (x_b X); ap4 (x_aa X); ap4 (x_ab X); ap4 (x_bb X); ap6 (x_aaa X); ap6 (x_aab X); ap6 (x_abb X); ap6 (x_bbb X)].
Notation ten := (tenv (fock_arrays H T ++ XS)).
Notation dn e v := (den (fdim d) ten e v).
Lemma cx_op_ok v phi : psem (noa d) (nob d) (fdim d) ten cx_rts v phi = cluster_sdt d X phi.
Proof.
  apply ext_state; intros D. unfold psem, cx_rts, cluster_sdt, cluster_sd, triples, single_op, double_op. cbn [lsum]. unfold tsem. cbn [t_c t_l t_f t_o].
  rewrite !half36, !fourth, Q1, Rplus_0_r. rewrite !Rmult_1_l, !Rplus_assoc.
  repeat match goal with |- _ + _ = _ + _ => apply f_equal2 | |- / _ * _ = / _ * _ => apply f_equal end; cbn [ssum]; repeat (apply sumn_ext; intros ? _); cbn [prodf]; rewrite Rmult_1_r; reflexivity.
Qed.
Lemma cx_syms : Forall (fun g => okalt ten (fst g) (snd g)) cx_gens.
Proof.
  apply sector_syms; [exact (fock_ints_antisym _ _ _ HI)|exact (bare_anti _ HT)|]. destruct HX3 as (A0 & A1 & A2 & A3 & A4 & A5 & A6 & A7 & A8 & A9 & A10 & A11). destruct HX as [Z0 Z1 Z2 Z3].
  apply Forall_cons; [okswap Z1|]. apply Forall_cons; [okswap Z0|]. apply Forall_cons; [okswap Z3|]. apply Forall_cons; [okswap Z2|]. apply Forall_cons; [okswap6 A0|]. apply Forall_cons; [okswap6 A1|]. apply Forall_cons; [okswap6 A2|]. apply Forall_cons; [okswap6 A3|]. apply Forall_cons; [okswap6 A4|]. apply Forall_cons; [okswap6 A5|]. apply Forall_cons; [okswap6 A6|]. apply Forall_cons; [okswap6 A7|]. apply Forall_cons; [okswap6 A8|]. apply Forall_cons; [okswap6 A9|]. apply Forall_cons; [okswap6 A10|]. apply Forall_cons; [okswap6 A11|]. apply Forall_nil.
Qed.
Lemma cx_comp_ref  : str [] (cluster_sdt d X psi) ref = 0.
Proof.
  change (opsem (noa d) (nob d) sdt_bra_ref (venv []) (cluster_sdt d X psi) ref = 0). rewrite <- (cx_op_ok (venv [])).
  rewrite <- (eek2_ok d I T0 n XS cx_rts 1 En En' cx_rtok sdt_ext_ref sdt_bra_ref (venv []) m); [|extv|exact sdt_bk_ref|cbn; lia|exact Hm].
  rewrite (fock_fast_sound (noa d) (nob d) (fdim d) ten cx_gens 75 cx_tab sdt_ext_ref _ cx_c_ref (venv [])); [|reflexivity|reflexivity|exact cx_htab|exact cx_syms|extv|exact cx_k_ref].
  change (dn (EC 0 1) (venv []) = 0). apply den_zero.
Qed.
Lemma cx_comp_a a i : (a < nua d)%nat -> (i < noa d)%nat -> str [(true, oa i); (false, va d a)] (cluster_sdt d X psi) ref = x_a X a i.
Proof.
  intros Ha Hi.
  change (opsem (noa d) (nob d) sdt_bra_a (venv [a; i]) (cluster_sdt d X psi) ref = x_a X a i). rewrite <- (cx_op_ok (venv [a; i])).
  rewrite <- (eek2_ok d I T0 n XS cx_rts 1 En En' cx_rtok sdt_ext_a sdt_bra_a (venv [a; i]) m); [|extv|exact sdt_bk_a|cbn; lia|exact Hm].
  rewrite (fock_fast_sound (noa d) (nob d) (fdim d) ten cx_gens 75 cx_tab sdt_ext_a _ cx_c_a (venv [a; i])); [|reflexivity|reflexivity|exact cx_htab|exact cx_syms|extv|exact cx_k_a].
  reflexivity.
Qed.
Lemma cx_comp_b a i : (a < nub d)%nat -> (i < nob d)%nat -> str [(true, ob i); (false, vb d a)] (cluster_sdt d X psi) ref = x_b X a i.
Proof.
  intros Ha Hi.
  change (opsem (noa d) (nob d) sdt_bra_b (venv [a; i]) (cluster_sdt d X psi) ref = x_b X a i). rewrite <- (cx_op_ok (venv [a; i])).
  rewrite <- (eek2_ok d I T0 n XS cx_rts 1 En En' cx_rtok sdt_ext_b sdt_bra_b (venv [a; i]) m); [|extv|exact sdt_bk_b|cbn; lia|exact Hm].
  rewrite (fock_fast_sound (noa d) (nob d) (fdim d) ten cx_gens 75 cx_tab sdt_ext_b _ cx_c_b (venv [a; i])); [|reflexivity|reflexivity|exact cx_htab|exact cx_syms|extv|exact cx_k_b].
  reflexivity.
Qed.
Lemma cx_comp_aa a b i j : (a < nua d)%nat -> (b < nua d)%nat -> (i < noa d)%nat -> (j < noa d)%nat -> str [(true, oa i); (true, oa j); (false, va d b); (false, va d a)] (cluster_sdt d X psi) ref = x_aa X a b i j.
Proof.
  intros Ha Hb Hi Hj.
  change (opsem (noa d) (nob d) sdt_bra_aa (venv [a; b; i; j]) (cluster_sdt d X psi) ref = x_aa X a b i j). rewrite <- (cx_op_ok (venv [a; b; i; j])).
  rewrite <- (eek2_ok d I T0 n XS cx_rts 1 En En' cx_rtok sdt_ext_aa sdt_bra_aa (venv [a; b; i; j]) m); [|extv|exact sdt_bk_aa|cbn; lia|exact Hm].
  rewrite (fock_fast_sound (noa d) (nob d) (fdim d) ten cx_gens 75 cx_tab sdt_ext_aa _ cx_c_aa (venv [a; b; i; j])); [|reflexivity|reflexivity|exact cx_htab|exact cx_syms|extv|exact cx_k_aa].
  reflexivity.
Qed.
Lemma cx_comp_ab a b i j : (a < nua d)%nat -> (b < nub d)%nat -> (i < noa d)%nat -> (j < nob d)%nat -> str [(true, oa i); (true, ob j); (false, vb d b); (false, va d a)] (cluster_sdt d X psi) ref = x_ab X a b i j.
Proof.
  intros Ha Hb Hi Hj.
  change (opsem (noa d) (nob d) sdt_bra_ab (venv [a; b; i; j]) (cluster_sdt d X psi) ref = x_ab X a b i j). rewrite <- (cx_op_ok (venv [a; b; i; j])).
  rewrite <- (eek2_ok d I T0 n XS cx_rts 1 En En' cx_rtok sdt_ext_ab sdt_bra_ab (venv [a; b; i; j]) m); [|extv|exact sdt_bk_ab|cbn; lia|exact Hm].
  rewrite (fock_fast_sound (noa d) (nob d) (fdim d) ten cx_gens 75 cx_tab sdt_ext_ab _ cx_c_ab (venv [a; b; i; j])); [|reflexivity|reflexivity|exact cx_htab|exact cx_syms|extv|exact cx_k_ab].
  reflexivity.
Qed.
Lemma cx_comp_bb a b i j : (a < nub d)%nat -> (b < nub d)%nat -> (i < nob d)%nat -> (j < nob d)%nat -> str [(true, ob i); (true, ob j); (false, vb d b); (false, vb d a)] (cluster_sdt d X psi) ref = x_bb X a b i j.
Proof.
  intros Ha Hb Hi Hj.
  change (opsem (noa d) (nob d) sdt_bra_bb (venv [a; b; i; j]) (cluster_sdt d X psi) ref = x_bb X a b i j). rewrite <- (cx_op_ok (venv [a; b; i; j])).
  rewrite <- (eek2_ok d I T0 n XS cx_rts 1 En En' cx_rtok sdt_ext_bb sdt_bra_bb (venv [a; b; i; j]) m); [|extv|exact sdt_bk_bb|cbn; lia|exact Hm].
  rewrite (fock_fast_sound (noa d) (nob d) (fdim d) ten cx_gens 75 cx_tab sdt_ext_bb _ cx_c_bb (venv [a; b; i; j])); [|reflexivity|reflexivity|exact cx_htab|exact cx_syms|extv|exact cx_k_bb].
  reflexivity.
Qed.
Lemma cx_comp_aaa a b c i j k : (a < nua d)%nat -> (b < nua d)%nat -> (c < nua d)%nat -> (i < noa d)%nat -> (j < noa d)%nat -> (k < noa d)%nat -> str [(true, oa i); (true, oa j); (true, oa k); (false, va d c); (false, va d b); (false, va d a)] (cluster_sdt d X psi) ref = ((((((((((x_aa T b c i j * x_a X a k) + (- (x_aa T a c i j * x_a X b k))) + (x_aa T a b i j * x_a X c k)) + (- (x_aa T b c i k * x_a X a j))) + (x_aa T a c i k * x_a X b j)) + (- (x_aa T a b i k * x_a X c j))) + (x_aa T b c j k * x_a X a i)) + (- (x_aa T a c j k * x_a X b i))) + (x_aa T a b j k * x_a X c i)) + x_aaa X a b c i j k).
Proof.
  intros Ha Hb Hc Hi Hj Hk.
  change (opsem (noa d) (nob d) sdt_bra_aaa (venv [a; b; c; i; j; k]) (cluster_sdt d X psi) ref = ((((((((((x_aa T b c i j * x_a X a k) + (- (x_aa T a c i j * x_a X b k))) + (x_aa T a b i j * x_a X c k)) + (- (x_aa T b c i k * x_a X a j))) + (x_aa T a c i k * x_a X b j)) + (- (x_aa T a b i k * x_a X c j))) + (x_aa T b c j k * x_a X a i)) + (- (x_aa T a c j k * x_a X b i))) + (x_aa T a b j k * x_a X c i)) + x_aaa X a b c i j k)). rewrite <- (cx_op_ok (venv [a; b; c; i; j; k])).
  rewrite <- (eek2_ok d I T0 n XS cx_rts 1 En En' cx_rtok sdt_ext_aaa sdt_bra_aaa (venv [a; b; c; i; j; k]) m); [|extv|exact sdt_bk_aaa|cbn; lia|exact Hm].
  rewrite (fock_fast_sound (noa d) (nob d) (fdim d) ten cx_gens 75 cx_tab sdt_ext_aaa _ cx_c_aaa (venv [a; b; c; i; j; k])); [|reflexivity|reflexivity|exact cx_htab|exact cx_syms|extv|exact cx_k_aaa].
  reflexivity.
Qed.
Lemma cx_comp_aab a b c i j k : (a < nua d)%nat -> (b < nua d)%nat -> (c < nub d)%nat -> (i < noa d)%nat -> (j < noa d)%nat -> (k < nob d)%nat -> str [(true, oa i); (true, oa j); (true, ob k); (false, vb d c); (false, va d b); (false, va d a)] (cluster_sdt d X psi) ref = ((((((- (x_ab T b c i k * x_a X a j)) + (x_ab T a c i k * x_a X b j)) + (x_ab T b c j k * x_a X a i)) + (- (x_ab T a c j k * x_a X b i))) + (x_aa T a b i j * x_b X c k)) + x_aab X a b c i j k).
Proof.
  intros Ha Hb Hc Hi Hj Hk.
  change (opsem (noa d) (nob d) sdt_bra_aab (venv [a; b; c; i; j; k]) (cluster_sdt d X psi) ref = ((((((- (x_ab T b c i k * x_a X a j)) + (x_ab T a c i k * x_a X b j)) + (x_ab T b c j k * x_a X a i)) + (- (x_ab T a c j k * x_a X b i))) + (x_aa T a b i j * x_b X c k)) + x_aab X a b c i j k)). rewrite <- (cx_op_ok (venv [a; b; c; i; j; k])).
  rewrite <- (eek2_ok d I T0 n XS cx_rts 1 En En' cx_rtok sdt_ext_aab sdt_bra_aab (venv [a; b; c; i; j; k]) m); [|extv|exact sdt_bk_aab|cbn; lia|exact Hm].
  rewrite (fock_fast_sound (noa d) (nob d) (fdim d) ten cx_gens 75 cx_tab sdt_ext_aab _ cx_c_aab (venv [a; b; c; i; j; k])); [|reflexivity|reflexivity|exact cx_htab|exact cx_syms|extv|exact cx_k_aab].
  reflexivity.
Qed.
Lemma cx_comp_abb a b c i j k : (a < nua d)%nat -> (b < nub d)%nat -> (c < nub d)%nat -> (i < noa d)%nat -> (j < nob d)%nat -> (k < nob d)%nat -> str [(true, oa i); (true, ob j); (true, ob k); (false, vb d c); (false, vb d b); (false, va d a)] (cluster_sdt d X psi) ref = ((((((x_bb T b c j k * x_a X a i) + (- (x_ab T a c i j * x_b X b k))) + (x_ab T a b i j * x_b X c k)) + (x_ab T a c i k * x_b X b j)) + (- (x_ab T a b i k * x_b X c j))) + x_abb X a b c i j k).
Proof.
  intros Ha Hb Hc Hi Hj Hk.
  change (opsem (noa d) (nob d) sdt_bra_abb (venv [a; b; c; i; j; k]) (cluster_sdt d X psi) ref = ((((((x_bb T b c j k * x_a X a i) + (- (x_ab T a c i j * x_b X b k))) + (x_ab T a b i j * x_b X c k)) + (x_ab T a c i k * x_b X b j)) + (- (x_ab T a b i k * x_b X c j))) + x_abb X a b c i j k)). rewrite <- (cx_op_ok (venv [a; b; c; i; j; k])).
  rewrite <- (eek2_ok d I T0 n XS cx_rts 1 En En' cx_rtok sdt_ext_abb sdt_bra_abb (venv [a; b; c; i; j; k]) m); [|extv|exact sdt_bk_abb|cbn; lia|exact Hm].
  rewrite (fock_fast_sound (noa d) (nob d) (fdim d) ten cx_gens 75 cx_tab sdt_ext_abb _ cx_c_abb (venv [a; b; c; i; j; k])); [|reflexivity|reflexivity|exact cx_htab|exact cx_syms|extv|exact cx_k_abb].
  reflexivity.
Qed.
Lemma cx_comp_bbb a b c i j k : (a < nub d)%nat -> (b < nub d)%nat -> (c < nub d)%nat -> (i < nob d)%nat -> (j < nob d)%nat -> (k < nob d)%nat -> str [(true, ob i); (true, ob j); (true, ob k); (false, vb d c); (false, vb d b); (false, vb d a)] (cluster_sdt d X psi) ref = ((((((((((x_bb T b c i j * x_b X a k) + (- (x_bb T a c i j * x_b X b k))) + (x_bb T a b i j * x_b X c k)) + (- (x_bb T b c i k * x_b X a j))) + (x_bb T a c i k * x_b X b j)) + (- (x_bb T a b i k * x_b X c j))) + (x_bb T b c j k * x_b X a i)) + (- (x_bb T a c j k * x_b X b i))) + (x_bb T a b j k * x_b X c i)) + x_bbb X a b c i j k).
Proof.
  intros Ha Hb Hc Hi Hj Hk.
  change (opsem (noa d) (nob d) sdt_bra_bbb (venv [a; b; c; i; j; k]) (cluster_sdt d X psi) ref = ((((((((((x_bb T b c i j * x_b X a k) + (- (x_bb T a c i j * x_b X b k))) + (x_bb T a b i j * x_b X c k)) + (- (x_bb T b c i k * x_b X a j))) + (x_bb T a c i k * x_b X b j)) + (- (x_bb T a b i k * x_b X c j))) + (x_bb T b c j k * x_b X a i)) + (- (x_bb T a c j k * x_b X b i))) + (x_bb T a b j k * x_b X c i)) + x_bbb X a b c i j k)). rewrite <- (cx_op_ok (venv [a; b; c; i; j; k])).
  rewrite <- (eek2_ok d I T0 n XS cx_rts 1 En En' cx_rtok sdt_ext_bbb sdt_bra_bbb (venv [a; b; c; i; j; k]) m); [|extv|exact sdt_bk_bbb|cbn; lia|exact Hm].
  rewrite (fock_fast_sound (noa d) (nob d) (fdim d) ten cx_gens 75 cx_tab sdt_ext_bbb _ cx_c_bbb (venv [a; b; c; i; j; k])); [|reflexivity|reflexivity|exact cx_htab|exact cx_syms|extv|exact cx_k_bbb].
  reflexivity.
Qed.
End P.
