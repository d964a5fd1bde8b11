(** Generated by tools/gen_secfock.py: components of (H - E - w) R exp(T) |ref> for the EA operator (proof support). *)
From Coq Require Import Reals Arith NArith List Bool Lia Lra QArith Qreals ZArith FunctionalExtensionality.
From Verif Require Import RSum IntegralsModel TensorObjs TensorAlg TensorSpec CcsdModel CcsdUpdate CcsdReify CcsdProps FockSpec FockCar FockWick FockArrays FockCcSpec FockTerms FockHam FockExp FockLevel FockCheck FockState FockNear FockProj FockSector FockSectorTools SectorModel FockSectorSpec FockFlip FockSpaces SectorEaReify.
Import ListNotations.
Local Open Scope nat_scope.
Definition ea_rts : list term := [mkTerm (1 # 1) [(40, 1)] [(66, [40])] [C 1 40]; mkTerm (1 # 2) [(40, 1); (41, 1); (42, 0)] [(67, [40; 41; 42])] [C 1 40; C 1 41; A 0 42]; mkTerm (1 # 1) [(40, 1); (41, 3); (42, 2)] [(68, [40; 41; 42])] [C 1 40; C 3 41; A 2 42]].
Definition ea_own : list (nat * (nat * list nat * bool)) := [(67, (67, [1; 0; 2], false))].
Definition ea_gens := fock_gens ++ ea_own.
Definition ea_tab := Eval vm_compute in symtab ea_gens 69.
Definition ea_rt e := retag (to_sector 3) e.
Lemma ea_htab : ea_tab = symtab ea_gens 69. Proof. vm_compute. reflexivity. Qed.
Lemma ea_rtok : rtok ea_rts 0 = true. Proof. vm_compute. reflexivity. Qed.
Definition ea_bra_a : list op := [A 1 0].
Definition ea_ext_a : list (nat * nat) := [(0, 1)].
Definition ea_c_a := (ET 66 [0]).
Definition ea_d_a := EAdd (EMul f_en ea_c_a) (ea_rt (s_ea_a 10 0)).
Lemma ea_bk_a : braok ea_ext_a ea_bra_a = true. Proof. vm_compute. reflexivity. Qed.
Lemma ea_kc_a : fock_same ea_tab ea_ext_a (eek ea_bra_a ea_rts) ea_c_a = true. Proof. vm_compute. reflexivity. Qed.
Lemma ea_kd_a : fock_same ea_tab ea_ext_a (hek ea_bra_a ea_rts) ea_d_a = true. Proof. vm_compute. reflexivity. Qed.
Definition ea_bra_aa : list op := [C 0 2; A 1 1; A 1 0].
Definition ea_ext_aa : list (nat * nat) := [(0, 1); (1, 1); (2, 0)].
Definition ea_c_aa := (ESub (EAdd (ET 67 [0; 1; 2]) (EMul (ET 0 [1; 2]) (ET 66 [0]))) (EMul (ET 0 [0; 2]) (ET 66 [1]))).
Definition ea_d_aa := EAdd (EMul f_en ea_c_aa) (ESub (EAdd (ESub (EAdd (ea_rt (s_ea_aa 10 0 1 2)) (EMul (ET 0 [1; 2]) (ea_rt (s_ea_a 10 0)))) (EMul (ET 0 [0; 2]) (ea_rt (s_ea_a 10 1)))) (EMul (ra 1 2) (ET 66 [0]))) (EMul (ra 0 2) (ET 66 [1]))).
Lemma ea_bk_aa : braok ea_ext_aa ea_bra_aa = true. Proof. vm_compute. reflexivity. Qed.
Lemma ea_kc_aa : fock_same ea_tab ea_ext_aa (eek ea_bra_aa ea_rts) ea_c_aa = true. Proof. vm_compute. reflexivity. Qed.
Lemma ea_kd_aa : fock_same ea_tab ea_ext_aa (hek ea_bra_aa ea_rts) ea_d_aa = true. Proof. vm_compute. reflexivity. Qed.
Definition ea_bra_ab : list op := [C 2 2; A 3 1; A 1 0].
Definition ea_ext_ab : list (nat * nat) := [(0, 1); (1, 3); (2, 2)].
Definition ea_c_ab := (EAdd (ET 68 [0; 1; 2]) (EMul (ET 1 [1; 2]) (ET 66 [0]))).
Definition ea_d_ab := EAdd (EMul f_en ea_c_ab) (EAdd (EAdd (ea_rt (s_ea_ab 10 0 1 2)) (EMul (ET 1 [1; 2]) (ea_rt (s_ea_a 10 0)))) (EMul (rb 1 2) (ET 66 [0]))).
Lemma ea_bk_ab : braok ea_ext_ab ea_bra_ab = true. Proof. vm_compute. reflexivity. Qed.
Lemma ea_kc_ab : fock_same ea_tab ea_ext_ab (eek ea_bra_ab ea_rts) ea_c_ab = true. Proof. vm_compute. reflexivity. Qed.
Lemma ea_kd_ab : fock_same ea_tab ea_ext_ab (hek ea_bra_ab ea_rts) ea_d_ab = true. Proof. vm_compute. reflexivity. Qed.
Local Open Scope R_scope.
Section P.
Variables (d : dims) (I : integrals) (T : amps) (Y : eav) (n m : nat).
Hypothesis En : (noa d + nua d = n)%nat.
Hypothesis En' : (nob d + nub d = n)%nat.
Hypothesis HI : exchangeable I.
Hypothesis HT : antisym_amps T.
Hypothesis HY : ea_anti Y.
Hypothesis Hm : (3 <= m)%nat.
Notation H := (fock_ints (noa d) (nob d) I).
Notation ref := (reference (noa d) (nob d)).
Notation psi := (expo (cluster_sd d T) m (pure ref)).
Notation E := (scf_energy (noa d) (nob d) I + cc_energy d H T).
Notation Rs := [ap1 (ea_a Y); ap3 (ea_aa Y); ap3 (ea_ab Y)].
Notation ten := (tenv (fock_arrays H T ++ Rs)).
Notation dn e v := (den (fdim d) ten e v).
Notation X := (ccsd_resid d H T).
Notation Z := (ea_HR d (hbar_ccsd d H T) T Y).
Definition ea_defect (w : R) : state := fun D => hamiltonian n I (ea_op d Y psi) D - (E + w) * ea_op d Y psi D.
Lemma ea_op_ok v phi : psem (noa d) (nob d) (fdim d) ten ea_rts v phi = ea_op d Y phi.
Proof.
  apply ext_state; intros D. unfold psem, ea_rts, ea_op. cbn [lsum]. unfold tsem. cbn [t_c t_l t_f t_o]. rewrite ?Q1, ?half, ?Rmult_1_l, Rplus_0_r, ?Rplus_assoc.
  repeat match goal with |- _ + _ = _ + _ => apply f_equal2 | |- / 2 * _ = / 2 * _ => apply f_equal end; cbn [ssum]; repeat (apply sumn_ext; intros ? _); cbn [prodf]; rewrite Rmult_1_r; reflexivity.
Qed.
Lemma ea_syms : Forall (fun g => okalt ten (fst g) (snd g)) ea_gens.
Proof.
  apply sector_syms; [exact (fock_ints_antisym _ _ _ HI)|exact HT|].
  apply Forall_cons; [okswap HY|apply Forall_nil].
Qed.
Lemma ea_rt_ok e v : dn (ea_rt e) v = den (fdim d) (tenv (jac_arrays d H T T ++ Rs)) e v.
Proof. apply (retag_sector d H T Rs). cbn [length]. lia. Qed.
Lemma ea_comp_a w a : (a < nua d)%nat ->
  str [(false, va d a)] (ea_defect w) ref = (ea_a Z a - w * ea_a Y a).
Proof.
  intros Ha.
  assert (Q0_ : dn (ea_rt (s_ea_a 10 0)) (venv [a]) = ea_a Z a) by (rewrite ea_rt_ok; reflexivity).
  change (opsem (noa d) (nob d) ea_bra_a (venv [a]) (ea_defect w) ref = (ea_a Z a - w * ea_a Y a)). unfold ea_defect. rewrite <- (ea_op_ok (venv [a])).
  rewrite (defect_ok d I T n Rs ea_rts 0 En En' ea_rtok ea_gens ea_tab ea_htab ea_syms ea_ext_a ea_bra_a (venv [a]) m ea_d_a ea_c_a (E + w));
    [|now apply ext_1|exact ea_bk_a|cbn; lia|exact Hm|exact ea_kd_a|exact ea_kc_a].
  change (dn ea_c_a (venv [a])) with (ea_a Y a).
  change (dn ea_d_a (venv [a])) with (dn f_en (venv [a]) * (ea_a Y a) + (dn (ea_rt (s_ea_a 10 0)) (venv [a]))).
  rewrite sector_en, Q0_. ring.
Qed.
Lemma ea_comp_aa w a b i : (a < nua d)%nat -> (b < nua d)%nat -> (i < noa d)%nat ->
  str [(true, oa i); (false, va d b); (false, va d a)] (ea_defect w) ref = (ea_aa Z a b i - w * ea_aa Y a b i) + x_a T b i * (ea_a Z a - w * ea_a Y a) - x_a T a i * (ea_a Z b - w * ea_a Y b) + x_a X b i * ea_a Y a - x_a X a i * ea_a Y b.
Proof.
  intros Ha Hb Hi.
  assert (Q0_ : dn (ea_rt (s_ea_aa 10 0 1 2)) (venv [a; b; i]) = ea_aa Z a b i) by (rewrite ea_rt_ok; reflexivity).
  assert (Q1_ : dn (ea_rt (s_ea_a 10 0)) (venv [a; b; i]) = ea_a Z a) by (rewrite ea_rt_ok; reflexivity).
  assert (Q2_ : dn (rt (r_ccsd_res_a 10 1 2)) (venv [a; b; i]) = x_a X b i) by (rewrite sector_rt by (vm_compute; reflexivity); reflexivity).
  assert (Q3_ : dn (ea_rt (s_ea_a 10 1)) (venv [a; b; i]) = ea_a Z b) by (rewrite ea_rt_ok; reflexivity).
  assert (Q4_ : dn (rt (r_ccsd_res_a 10 0 2)) (venv [a; b; i]) = x_a X a i) by (rewrite sector_rt by (vm_compute; reflexivity); reflexivity).
  change (opsem (noa d) (nob d) ea_bra_aa (venv [a; b; i]) (ea_defect w) ref = (ea_aa Z a b i - w * ea_aa Y a b i) + x_a T b i * (ea_a Z a - w * ea_a Y a) - x_a T a i * (ea_a Z b - w * ea_a Y b) + x_a X b i * ea_a Y a - x_a X a i * ea_a Y b). unfold ea_defect. rewrite <- (ea_op_ok (venv [a; b; i])).
  rewrite (defect_ok d I T n Rs ea_rts 0 En En' ea_rtok ea_gens ea_tab ea_htab ea_syms ea_ext_aa ea_bra_aa (venv [a; b; i]) m ea_d_aa ea_c_aa (E + w));
    [|now apply ext_3|exact ea_bk_aa|cbn; lia|exact Hm|exact ea_kd_aa|exact ea_kc_aa].
  change (dn ea_c_aa (venv [a; b; i])) with (ea_aa Y a b i + x_a T b i * ea_a Y a - x_a T a i * ea_a Y b).
  change (dn ea_d_aa (venv [a; b; i])) with (dn f_en (venv [a; b; i]) * (ea_aa Y a b i + x_a T b i * ea_a Y a - x_a T a i * ea_a Y b) + (dn (ea_rt (s_ea_aa 10 0 1 2)) (venv [a; b; i]) + x_a T b i * dn (ea_rt (s_ea_a 10 0)) (venv [a; b; i]) - x_a T a i * dn (ea_rt (s_ea_a 10 1)) (venv [a; b; i]) + dn (rt (r_ccsd_res_a 10 1 2)) (venv [a; b; i]) * ea_a Y a - dn (rt (r_ccsd_res_a 10 0 2)) (venv [a; b; i]) * ea_a Y b)).
  rewrite sector_en, Q0_, Q1_, Q2_, Q3_, Q4_. ring.
Qed.
Lemma ea_comp_ab w a b i : (a < nua d)%nat -> (b < nub d)%nat -> (i < nob d)%nat ->
  str [(true, ob i); (false, vb d b); (false, va d a)] (ea_defect w) ref = (ea_ab Z a b i - w * ea_ab Y a b i) + x_b T b i * (ea_a Z a - w * ea_a Y a) + x_b X b i * ea_a Y a.
Proof.
  intros Ha Hb Hi.
  assert (Q0_ : dn (ea_rt (s_ea_ab 10 0 1 2)) (venv [a; b; i]) = ea_ab Z a b i) by (rewrite ea_rt_ok; reflexivity).
  assert (Q1_ : dn (ea_rt (s_ea_a 10 0)) (venv [a; b; i]) = ea_a Z a) by (rewrite ea_rt_ok; reflexivity).
  assert (Q2_ : dn (rt (r_ccsd_res_b 10 1 2)) (venv [a; b; i]) = x_b X b i) by (rewrite sector_rt by (vm_compute; reflexivity); reflexivity).
  change (opsem (noa d) (nob d) ea_bra_ab (venv [a; b; i]) (ea_defect w) ref = (ea_ab Z a b i - w * ea_ab Y a b i) + x_b T b i * (ea_a Z a - w * ea_a Y a) + x_b X b i * ea_a Y a). unfold ea_defect. rewrite <- (ea_op_ok (venv [a; b; i])).
  rewrite (defect_ok d I T n Rs ea_rts 0 En En' ea_rtok ea_gens ea_tab ea_htab ea_syms ea_ext_ab ea_bra_ab (venv [a; b; i]) m ea_d_ab ea_c_ab (E + w));
    [|now apply ext_3|exact ea_bk_ab|cbn; lia|exact Hm|exact ea_kd_ab|exact ea_kc_ab].
  change (dn ea_c_ab (venv [a; b; i])) with (ea_ab Y a b i + x_b T b i * ea_a Y a).
  change (dn ea_d_ab (venv [a; b; i])) with (dn f_en (venv [a; b; i]) * (ea_ab Y a b i + x_b T b i * ea_a Y a) + (dn (ea_rt (s_ea_ab 10 0 1 2)) (venv [a; b; i]) + x_b T b i * dn (ea_rt (s_ea_a 10 0)) (venv [a; b; i]) + dn (rt (r_ccsd_res_b 10 1 2)) (venv [a; b; i]) * ea_a Y a)).
  rewrite sector_en, Q0_, Q1_, Q2_. ring.
Qed.
Lemma ea_solves w : same_amps d X zero_amps -> (solves_on (ea_space n ref) n I (E + w) (ea_op d Y psi) <-> ea_root d Z Y w).
Proof.
  intros [Za Zb _ _ _]. cbn [zero_amps x_a x_b] in Za, Zb.
  assert (F := ea_flat d n (ea_defect w) En En').
  transitivity (forall D, ea_space n ref D -> ea_defect w D = 0); [unfold solves_on, ea_defect; split; intros G D HD; specialize (G D HD); [rewrite G; ring|lra]|]. rewrite F. clear F. unfold ea_root. split.
  - intros (F0 & F1 & F2).
    assert (L : forall a, (a < nua d)%nat -> ea_a Z a = w * ea_a Y a).
    { intros a Ha. specialize (F0 a Ha). rewrite ea_comp_a in F0 by assumption. lra. }
    split; [exact L|split].
    + intros a b i Ha Hb Hi. specialize (F1 a b i Ha Hb Hi). rewrite ea_comp_aa, ?Za, ?Zb, !L in F1 by assumption. lra.
    + intros a b i Ha Hb Hi. specialize (F2 a b i Ha Hb Hi). rewrite ea_comp_ab, ?Za, ?Zb, !L in F2 by assumption. lra.
  - intros (G0 & G1 & G2). split; [|split].
    + intros a Ha. rewrite ea_comp_a, G0 by assumption. ring.
    + intros a b i Ha Hb Hi. rewrite ea_comp_aa, G1, ?Za, ?Zb, !G0 by assumption. ring.
    + intros a b i Ha Hb Hi. rewrite ea_comp_ab, G2, ?Za, ?Zb, !G0 by assumption. ring.
Qed.
End P.
