(** Generated by tools/gen_secfock.py: components of (H - E - w) R exp(T) |ref> for the DEA operator (proof support). *)
From Coq Require Import Reals Arith NArith List Bool Lia Lra QArith Qreals ZArith FunctionalExtensionality.
From Verif Require Import RSum IntegralsModel TensorObjs TensorAlg TensorSpec CcsdModel CcsdUpdate CcsdReify CcsdProps FockSpec FockCar FockWick FockArrays FockCcSpec FockTerms FockHam FockExp FockLevel FockCheck FockState FockNear FockProj FockSector FockSectorTools SectorModel FockSectorSpec FockFlip FockSpaces SectorDeaReify.
Import ListNotations.
Local Open Scope nat_scope.
Definition dea_rts : list term := [mkTerm (1 # 1) [(40, 1); (41, 3)] [(66, [40; 41])] [C 1 40; C 3 41]; mkTerm (1 # 2) [(40, 1); (41, 3); (42, 1); (43, 0)] [(67, [40; 41; 42; 43])] [C 1 40; C 3 41; C 1 42; A 0 43]; mkTerm (1 # 2) [(40, 1); (41, 3); (42, 3); (43, 2)] [(68, [40; 41; 42; 43])] [C 1 40; C 3 41; C 3 42; A 2 43]].
Definition dea_own : list (nat * (nat * list nat * bool)) := [(67, (67, [2; 1; 0; 3], false)); (68, (68, [0; 2; 1; 3], false))].
Definition dea_gens := fock_gens ++ dea_own.
Definition dea_tab := Eval vm_compute in symtab dea_gens 69.
Definition dea_rt e := retag (to_sector 3) e.
Lemma dea_htab : dea_tab = symtab dea_gens 69. Proof. vm_compute. reflexivity. Qed.
Lemma dea_rtok : rtok dea_rts 0 = true. Proof. vm_compute. reflexivity. Qed.
Definition dea_bra_ab : list op := [A 3 1; A 1 0].
Definition dea_ext_ab : list (nat * nat) := [(0, 1); (1, 3)].
Definition dea_c_ab := (ET 66 [0; 1]).
Definition dea_d_ab := EAdd (EMul f_en dea_c_ab) (dea_rt (s_dea_ab 10 0 1)).
Lemma dea_bk_ab : braok dea_ext_ab dea_bra_ab = true. Proof. vm_compute. reflexivity. Qed.
Lemma dea_kc_ab : fock_same dea_tab dea_ext_ab (eek dea_bra_ab dea_rts) dea_c_ab = true. Proof. vm_compute. reflexivity. Qed.
Lemma dea_kd_ab : fock_same dea_tab dea_ext_ab (hek dea_bra_ab dea_rts) dea_d_ab = true. Proof. vm_compute. reflexivity. Qed.
Definition dea_bra_aba : list op := [C 0 3; A 1 2; A 3 1; A 1 0].
Definition dea_ext_aba : list (nat * nat) := [(0, 1); (1, 3); (2, 1); (3, 0)].
Definition dea_c_aba := (ESub (EAdd (ET 67 [0; 1; 2; 3]) (EMul (ET 0 [2; 3]) (ET 66 [0; 1]))) (EMul (ET 0 [0; 3]) (ET 66 [2; 1]))).
Definition dea_d_aba := EAdd (EMul f_en dea_c_aba) (ESub (EAdd (ESub (EAdd (dea_rt (s_dea_aba 10 0 1 2 3)) (EMul (ET 0 [2; 3]) (dea_rt (s_dea_ab 10 0 1)))) (EMul (ET 0 [0; 3]) (dea_rt (s_dea_ab 10 2 1)))) (EMul (ra 2 3) (ET 66 [0; 1]))) (EMul (ra 0 3) (ET 66 [2; 1]))).
Lemma dea_bk_aba : braok dea_ext_aba dea_bra_aba = true. Proof. vm_compute. reflexivity. Qed.
Lemma dea_kc_aba : fock_same dea_tab dea_ext_aba (eek dea_bra_aba dea_rts) dea_c_aba = true. Proof. vm_compute. reflexivity. Qed.
Lemma dea_kd_aba : fock_same dea_tab dea_ext_aba (hek dea_bra_aba dea_rts) dea_d_aba = true. Proof. vm_compute. reflexivity. Qed.
Definition dea_bra_abb : list op := [C 2 3; A 3 2; A 3 1; A 1 0].
Definition dea_ext_abb : list (nat * nat) := [(0, 1); (1, 3); (2, 3); (3, 2)].
Definition dea_c_abb := (ESub (EAdd (ET 68 [0; 1; 2; 3]) (EMul (ET 1 [2; 3]) (ET 66 [0; 1]))) (EMul (ET 1 [1; 3]) (ET 66 [0; 2]))).
Definition dea_d_abb := EAdd (EMul f_en dea_c_abb) (ESub (EAdd (ESub (EAdd (dea_rt (s_dea_abb 10 0 1 2 3)) (EMul (ET 1 [2; 3]) (dea_rt (s_dea_ab 10 0 1)))) (EMul (ET 1 [1; 3]) (dea_rt (s_dea_ab 10 0 2)))) (EMul (rb 2 3) (ET 66 [0; 1]))) (EMul (rb 1 3) (ET 66 [0; 2]))).
Lemma dea_bk_abb : braok dea_ext_abb dea_bra_abb = true. Proof. vm_compute. reflexivity. Qed.
Lemma dea_kc_abb : fock_same dea_tab dea_ext_abb (eek dea_bra_abb dea_rts) dea_c_abb = true. Proof. vm_compute. reflexivity. Qed.
Lemma dea_kd_abb : fock_same dea_tab dea_ext_abb (hek dea_bra_abb dea_rts) dea_d_abb = true. Proof. vm_compute. reflexivity. Qed.
Local Open Scope R_scope.
Section P.
Variables (d : dims) (I : integrals) (T : amps) (Y : deav) (n m : nat).
Hypothesis En : (noa d + nua d = n)%nat.
Hypothesis En' : (nob d + nub d = n)%nat.
Hypothesis HI : exchangeable I.
Hypothesis HT : antisym_amps T.
Hypothesis HY : dea_anti Y.
Hypothesis Hm : (3 <= m)%nat.
Notation H := (fock_ints (noa d) (nob d) I).
Notation ref := (reference (noa d) (nob d)).
Notation psi := (expo (cluster_sd d T) m (pure ref)).
Notation E := (scf_energy (noa d) (nob d) I + cc_energy d H T).
Notation Rs := [ap2 (dea_ab Y); ap4 (dea_aba Y); ap4 (dea_abb Y)].
Notation ten := (tenv (fock_arrays H T ++ Rs)).
Notation dn e v := (den (fdim d) ten e v).
Notation X := (ccsd_resid d H T).
Notation Z := (dea_HR d (hbar_ccsd d H T) T Y).
Definition dea_defect (w : R) : state := fun D => hamiltonian n I (dea_op d Y psi) D - (E + w) * dea_op d Y psi D.
Lemma dea_op_ok v phi : psem (noa d) (nob d) (fdim d) ten dea_rts v phi = dea_op d Y phi.
Proof.
  apply ext_state; intros D. unfold psem, dea_rts, dea_op. cbn [lsum]. unfold tsem. cbn [t_c t_l t_f t_o]. rewrite ?Q1, ?half, ?Rmult_1_l, Rplus_0_r, ?Rplus_assoc.
  repeat match goal with |- _ + _ = _ + _ => apply f_equal2 | |- / 2 * _ = / 2 * _ => apply f_equal end; cbn [ssum]; repeat (apply sumn_ext; intros ? _); cbn [prodf]; rewrite Rmult_1_r; reflexivity.
Qed.
Lemma dea_syms : Forall (fun g => okalt ten (fst g) (snd g)) dea_gens.
Proof.
  apply sector_syms; [exact (fock_ints_antisym _ _ _ HI)|exact HT|].
  destruct HY as (A1 & A2). apply Forall_cons; [okswap A1|apply Forall_cons; [okswap A2|apply Forall_nil]].
Qed.
Lemma dea_rt_ok e v : dn (dea_rt e) v = den (fdim d) (tenv (jac_arrays d H T T ++ Rs)) e v.
Proof. apply (retag_sector d H T Rs). cbn [length]. lia. Qed.
Lemma dea_comp_ab w a b : (a < nua d)%nat -> (b < nub d)%nat ->
  str [(false, vb d b); (false, va d a)] (dea_defect w) ref = (dea_ab Z a b - w * dea_ab Y a b).
Proof.
  intros Ha Hb.
  assert (Q0_ : dn (dea_rt (s_dea_ab 10 0 1)) (venv [a; b]) = dea_ab Z a b) by (rewrite dea_rt_ok; reflexivity).
  change (opsem (noa d) (nob d) dea_bra_ab (venv [a; b]) (dea_defect w) ref = (dea_ab Z a b - w * dea_ab Y a b)). unfold dea_defect. rewrite <- (dea_op_ok (venv [a; b])).
  rewrite (defect_ok d I T n Rs dea_rts 0 En En' dea_rtok dea_gens dea_tab dea_htab dea_syms dea_ext_ab dea_bra_ab (venv [a; b]) m dea_d_ab dea_c_ab (E + w));
    [|now apply ext2|exact dea_bk_ab|cbn; lia|exact Hm|exact dea_kd_ab|exact dea_kc_ab].
  change (dn dea_c_ab (venv [a; b])) with (dea_ab Y a b).
  change (dn dea_d_ab (venv [a; b])) with (dn f_en (venv [a; b]) * (dea_ab Y a b) + (dn (dea_rt (s_dea_ab 10 0 1)) (venv [a; b]))).
  rewrite sector_en, Q0_. ring.
Qed.
Lemma dea_comp_aba w a b c i : (a < nua d)%nat -> (b < nub d)%nat -> (c < nua d)%nat -> (i < noa d)%nat ->
  str [(true, oa i); (false, va d c); (false, vb d b); (false, va d a)] (dea_defect w) ref = (dea_aba Z a b c i - w * dea_aba Y a b c i) + x_a T c i * (dea_ab Z a b - w * dea_ab Y a b) - x_a T a i * (dea_ab Z c b - w * dea_ab Y c b) + x_a X c i * dea_ab Y a b - x_a X a i * dea_ab Y c b.
Proof.
  intros Ha Hb Hc Hi.
  assert (Q0_ : dn (dea_rt (s_dea_aba 10 0 1 2 3)) (venv [a; b; c; i]) = dea_aba Z a b c i) by (rewrite dea_rt_ok; reflexivity).
  assert (Q1_ : dn (dea_rt (s_dea_ab 10 0 1)) (venv [a; b; c; i]) = dea_ab Z a b) by (rewrite dea_rt_ok; reflexivity).
  assert (Q2_ : dn (rt (r_ccsd_res_a 10 2 3)) (venv [a; b; c; i]) = x_a X c i) by (rewrite sector_rt by (vm_compute; reflexivity); reflexivity).
  assert (Q3_ : dn (dea_rt (s_dea_ab 10 2 1)) (venv [a; b; c; i]) = dea_ab Z c b) by (rewrite dea_rt_ok; reflexivity).
  assert (Q4_ : dn (rt (r_ccsd_res_a 10 0 3)) (venv [a; b; c; i]) = x_a X a i) by (rewrite sector_rt by (vm_compute; reflexivity); reflexivity).
  change (opsem (noa d) (nob d) dea_bra_aba (venv [a; b; c; i]) (dea_defect w) ref = (dea_aba Z a b c i - w * dea_aba Y a b c i) + x_a T c i * (dea_ab Z a b - w * dea_ab Y a b) - x_a T a i * (dea_ab Z c b - w * dea_ab Y c b) + x_a X c i * dea_ab Y a b - x_a X a i * dea_ab Y c b). unfold dea_defect. rewrite <- (dea_op_ok (venv [a; b; c; i])).
  rewrite (defect_ok d I T n Rs dea_rts 0 En En' dea_rtok dea_gens dea_tab dea_htab dea_syms dea_ext_aba dea_bra_aba (venv [a; b; c; i]) m dea_d_aba dea_c_aba (E + w));
    [|now apply ext4|exact dea_bk_aba|cbn; lia|exact Hm|exact dea_kd_aba|exact dea_kc_aba].
  change (dn dea_c_aba (venv [a; b; c; i])) with (dea_aba Y a b c i + x_a T c i * dea_ab Y a b - x_a T a i * dea_ab Y c b).
  change (dn dea_d_aba (venv [a; b; c; i])) with (dn f_en (venv [a; b; c; i]) * (dea_aba Y a b c i + x_a T c i * dea_ab Y a b - x_a T a i * dea_ab Y c b) + (dn (dea_rt (s_dea_aba 10 0 1 2 3)) (venv [a; b; c; i]) + x_a T c i * dn (dea_rt (s_dea_ab 10 0 1)) (venv [a; b; c; i]) - x_a T a i * dn (dea_rt (s_dea_ab 10 2 1)) (venv [a; b; c; i]) + dn (rt (r_ccsd_res_a 10 2 3)) (venv [a; b; c; i]) * dea_ab Y a b - dn (rt (r_ccsd_res_a 10 0 3)) (venv [a; b; c; i]) * dea_ab Y c b)).
  rewrite sector_en, Q0_, Q1_, Q2_, Q3_, Q4_. ring.
Qed.
Lemma dea_comp_abb w a b c i : (a < nua d)%nat -> (b < nub d)%nat -> (c < nub d)%nat -> (i < nob d)%nat ->
  str [(true, ob i); (false, vb d c); (false, vb d b); (false, va d a)] (dea_defect w) ref = (dea_abb Z a b c i - w * dea_abb Y a b c i) + x_b T c i * (dea_ab Z a b - w * dea_ab Y a b) - x_b T b i * (dea_ab Z a c - w * dea_ab Y a c) + x_b X c i * dea_ab Y a b - x_b X b i * dea_ab Y a c.
Proof.
  intros Ha Hb Hc Hi.
  assert (Q0_ : dn (dea_rt (s_dea_abb 10 0 1 2 3)) (venv [a; b; c; i]) = dea_abb Z a b c i) by (rewrite dea_rt_ok; reflexivity).
  assert (Q1_ : dn (dea_rt (s_dea_ab 10 0 1)) (venv [a; b; c; i]) = dea_ab Z a b) by (rewrite dea_rt_ok; reflexivity).
  assert (Q2_ : dn (rt (r_ccsd_res_b 10 2 3)) (venv [a; b; c; i]) = x_b X c i) by (rewrite sector_rt by (vm_compute; reflexivity); reflexivity).
  assert (Q3_ : dn (dea_rt (s_dea_ab 10 0 2)) (venv [a; b; c; i]) = dea_ab Z a c) by (rewrite dea_rt_ok; reflexivity).
  assert (Q4_ : dn (rt (r_ccsd_res_b 10 1 3)) (venv [a; b; c; i]) = x_b X b i) by (rewrite sector_rt by (vm_compute; reflexivity); reflexivity).
  change (opsem (noa d) (nob d) dea_bra_abb (venv [a; b; c; i]) (dea_defect w) ref = (dea_abb Z a b c i - w * dea_abb Y a b c i) + x_b T c i * (dea_ab Z a b - w * dea_ab Y a b) - x_b T b i * (dea_ab Z a c - w * dea_ab Y a c) + x_b X c i * dea_ab Y a b - x_b X b i * dea_ab Y a c). unfold dea_defect. rewrite <- (dea_op_ok (venv [a; b; c; i])).
  rewrite (defect_ok d I T n Rs dea_rts 0 En En' dea_rtok dea_gens dea_tab dea_htab dea_syms dea_ext_abb dea_bra_abb (venv [a; b; c; i]) m dea_d_abb dea_c_abb (E + w));
    [|now apply ext4|exact dea_bk_abb|cbn; lia|exact Hm|exact dea_kd_abb|exact dea_kc_abb].
  change (dn dea_c_abb (venv [a; b; c; i])) with (dea_abb Y a b c i + x_b T c i * dea_ab Y a b - x_b T b i * dea_ab Y a c).
  change (dn dea_d_abb (venv [a; b; c; i])) with (dn f_en (venv [a; b; c; i]) * (dea_abb Y a b c i + x_b T c i * dea_ab Y a b - x_b T b i * dea_ab Y a c) + (dn (dea_rt (s_dea_abb 10 0 1 2 3)) (venv [a; b; c; i]) + x_b T c i * dn (dea_rt (s_dea_ab 10 0 1)) (venv [a; b; c; i]) - x_b T b i * dn (dea_rt (s_dea_ab 10 0 2)) (venv [a; b; c; i]) + dn (rt (r_ccsd_res_b 10 2 3)) (venv [a; b; c; i]) * dea_ab Y a b - dn (rt (r_ccsd_res_b 10 1 3)) (venv [a; b; c; i]) * dea_ab Y a c)).
  rewrite sector_en, Q0_, Q1_, Q2_, Q3_, Q4_. ring.
Qed.
Lemma dea_solves w : same_amps d X zero_amps -> (solves_on (dea_space n ref) n I (E + w) (dea_op d Y psi) <-> dea_root d Z Y w).
Proof.
  intros [Za Zb _ _ _]. cbn [zero_amps x_a x_b] in Za, Zb.
  assert (F := dea_flat d n (dea_defect w) En En').
  transitivity (forall D, dea_space n ref D -> dea_defect w D = 0); [unfold solves_on, dea_defect; split; intros G D HD; specialize (G D HD); [rewrite G; ring|lra]|]. rewrite F. clear F. unfold dea_root. split.
  - intros (F0 & F1 & F2).
    assert (L : forall a b, (a < nua d)%nat -> (b < nub d)%nat -> dea_ab Z a b = w * dea_ab Y a b).
    { intros a b Ha Hb. specialize (F0 a b Ha Hb). rewrite dea_comp_ab in F0 by assumption. lra. }
    split; [exact L|split].
    + intros a b c i Ha Hb Hc Hi. specialize (F1 a b c i Ha Hb Hc Hi). rewrite dea_comp_aba, ?Za, ?Zb, !L in F1 by assumption. lra.
    + intros a b c i Ha Hb Hc Hi. specialize (F2 a b c i Ha Hb Hc Hi). rewrite dea_comp_abb, ?Za, ?Zb, !L in F2 by assumption. lra.
  - intros (G0 & G1 & G2). split; [|split].
    + intros a b Ha Hb. rewrite dea_comp_ab, G0 by assumption. ring.
    + intros a b c i Ha Hb Hc Hi. rewrite dea_comp_aba, G1, ?Za, ?Zb, !G0 by assumption. ring.
    + intros a b c i Ha Hb Hc Hi. rewrite dea_comp_abb, G2, ?Za, ?Zb, !G0 by assumption. ring.
Qed.
End P.
