(** Generated by tools/gen_secfock.py: components of (H - E - w) R exp(T) |ref> for the IP operator (proof support). *)
From Coq Require Import Reals Arith NArith List Bool Lia Lra QArith Qreals ZArith FunctionalExtensionality.
From Verif Require Import RSum IntegralsModel TensorObjs TensorAlg TensorSpec CcsdModel CcsdUpdate CcsdReify CcsdProps FockSpec FockCar FockWick FockArrays FockCcSpec FockTerms FockHam FockExp FockLevel FockCheck FockState FockNear FockProj FockSector FockSectorTools SectorModel FockSectorSpec FockFlip FockSpaces SectorIpReify.
Import ListNotations.
Local Open Scope nat_scope.
Definition ip_rts : list term := [mkTerm (1 # 1) [(40, 0)] [(66, [40])] [A 0 40]; mkTerm (1 # 2) [(40, 0); (41, 1); (42, 0)] [(67, [40; 41; 42])] [C 1 41; A 0 42; A 0 40]; mkTerm (1 # 1) [(40, 0); (41, 3); (42, 2)] [(68, [40; 41; 42])] [C 3 41; A 2 42; A 0 40]].
Definition ip_own : list (nat * (nat * list nat * bool)) := [(67, (67, [2; 1; 0], false))].
Definition ip_gens := fock_gens ++ ip_own.
Definition ip_tab := Eval vm_compute in symtab ip_gens 69.
Definition ip_rt e := retag (to_sector 3) e.
Lemma ip_htab : ip_tab = symtab ip_gens 69. Proof. vm_compute. reflexivity. Qed.
Lemma ip_rtok : rtok ip_rts 1 = true. Proof. vm_compute. reflexivity. Qed.
Definition ip_bra_a : list op := [C 0 0].
Definition ip_ext_a : list (nat * nat) := [(0, 0)].
Definition ip_c_a := (ET 66 [0]).
Definition ip_d_a := EAdd (EMul f_en ip_c_a) (ip_rt (s_ip_a 10 0)).
Lemma ip_bk_a : braok ip_ext_a ip_bra_a = true. Proof. vm_compute. reflexivity. Qed.
Lemma ip_kc_a : fock_same ip_tab ip_ext_a (eek ip_bra_a ip_rts) ip_c_a = true. Proof. vm_compute. reflexivity. Qed.
Lemma ip_kd_a : fock_same ip_tab ip_ext_a (hek ip_bra_a ip_rts) ip_d_a = true. Proof. vm_compute. reflexivity. Qed.
Definition ip_bra_aa : list op := [C 0 0; C 0 2; A 1 1].
Definition ip_ext_aa : list (nat * nat) := [(0, 0); (1, 1); (2, 0)].
Definition ip_c_aa := (ESub (EAdd (ET 67 [0; 1; 2]) (EMul (ET 0 [1; 2]) (ET 66 [0]))) (EMul (ET 0 [1; 0]) (ET 66 [2]))).
Definition ip_d_aa := EAdd (EMul f_en ip_c_aa) (ESub (EAdd (ESub (EAdd (ip_rt (s_ip_aa 10 0 1 2)) (EMul (ET 0 [1; 2]) (ip_rt (s_ip_a 10 0)))) (EMul (ET 0 [1; 0]) (ip_rt (s_ip_a 10 2)))) (EMul (ra 1 2) (ET 66 [0]))) (EMul (ra 1 0) (ET 66 [2]))).
Lemma ip_bk_aa : braok ip_ext_aa ip_bra_aa = true. Proof. vm_compute. reflexivity. Qed.
Lemma ip_kc_aa : fock_same ip_tab ip_ext_aa (eek ip_bra_aa ip_rts) ip_c_aa = true. Proof. vm_compute. reflexivity. Qed.
Lemma ip_kd_aa : fock_same ip_tab ip_ext_aa (hek ip_bra_aa ip_rts) ip_d_aa = true. Proof. vm_compute. reflexivity. Qed.
Definition ip_bra_ab : list op := [C 0 0; C 2 2; A 3 1].
Definition ip_ext_ab : list (nat * nat) := [(0, 0); (1, 3); (2, 2)].
Definition ip_c_ab := (EAdd (ET 68 [0; 1; 2]) (EMul (ET 1 [1; 2]) (ET 66 [0]))).
Definition ip_d_ab := EAdd (EMul f_en ip_c_ab) (EAdd (EAdd (ip_rt (s_ip_ab 10 0 1 2)) (EMul (ET 1 [1; 2]) (ip_rt (s_ip_a 10 0)))) (EMul (rb 1 2) (ET 66 [0]))).
Lemma ip_bk_ab : braok ip_ext_ab ip_bra_ab = true. Proof. vm_compute. reflexivity. Qed.
Lemma ip_kc_ab : fock_same ip_tab ip_ext_ab (eek ip_bra_ab ip_rts) ip_c_ab = true. Proof. vm_compute. reflexivity. Qed.
Lemma ip_kd_ab : fock_same ip_tab ip_ext_ab (hek ip_bra_ab ip_rts) ip_d_ab = true. Proof. vm_compute. reflexivity. Qed.
Local Open Scope R_scope.
Section P.
Variables (d : dims) (I : integrals) (T : amps) (Y : ipv) (n m : nat).
Hypothesis En : (noa d + nua d = n)%nat.
Hypothesis En' : (nob d + nub d = n)%nat.
Hypothesis HI : exchangeable I.
Hypothesis HT : antisym_amps T.
Hypothesis HY : ip_anti Y.
Hypothesis Hm : (3 <= m)%nat.
Notation H := (fock_ints (noa d) (nob d) I).
Notation ref := (reference (noa d) (nob d)).
Notation psi := (expo (cluster_sd d T) m (pure ref)).
Notation E := (scf_energy (noa d) (nob d) I + cc_energy d H T).
Notation Rs := [ap1 (ip_a Y); ap3 (ip_aa Y); ap3 (ip_ab Y)].
Notation ten := (tenv (fock_arrays H T ++ Rs)).
Notation dn e v := (den (fdim d) ten e v).
Notation X := (ccsd_resid d H T).
Notation Z := (ip_HR d (hbar_ccsd d H T) T Y).
Definition ip_defect (w : R) : state := fun D => hamiltonian n I (ip_op d Y psi) D - (E + w) * ip_op d Y psi D.
Lemma ip_op_ok v phi : psem (noa d) (nob d) (fdim d) ten ip_rts v phi = ip_op d Y phi.
Proof.
  apply ext_state; intros D. unfold psem, ip_rts, ip_op. cbn [lsum]. unfold tsem. cbn [t_c t_l t_f t_o]. rewrite ?Q1, ?half, ?Rmult_1_l, Rplus_0_r, ?Rplus_assoc.
  repeat match goal with |- _ + _ = _ + _ => apply f_equal2 | |- / 2 * _ = / 2 * _ => apply f_equal end; cbn [ssum]; repeat (apply sumn_ext; intros ? _); cbn [prodf]; rewrite Rmult_1_r; reflexivity.
Qed.
Lemma ip_syms : Forall (fun g => okalt ten (fst g) (snd g)) ip_gens.
Proof.
  apply sector_syms; [exact (fock_ints_antisym _ _ _ HI)|exact HT|].
  apply Forall_cons; [okswap HY|apply Forall_nil].
Qed.
Lemma ip_rt_ok e v : dn (ip_rt e) v = den (fdim d) (tenv (jac_arrays d H T T ++ Rs)) e v.
Proof. apply (retag_sector d H T Rs). cbn [length]. lia. Qed.
Lemma ip_comp_a w i : (i < noa d)%nat ->
  str [(true, oa i)] (ip_defect w) ref = (ip_a Z i - w * ip_a Y i).
Proof.
  intros Hi.
  assert (Q0_ : dn (ip_rt (s_ip_a 10 0)) (venv [i]) = ip_a Z i) by (rewrite ip_rt_ok; reflexivity).
  change (opsem (noa d) (nob d) ip_bra_a (venv [i]) (ip_defect w) ref = (ip_a Z i - w * ip_a Y i)). unfold ip_defect. rewrite <- (ip_op_ok (venv [i])).
  rewrite (defect_ok d I T n Rs ip_rts 1 En En' ip_rtok ip_gens ip_tab ip_htab ip_syms ip_ext_a ip_bra_a (venv [i]) m ip_d_a ip_c_a (E + w));
    [|now apply ext_1|exact ip_bk_a|cbn; lia|exact Hm|exact ip_kd_a|exact ip_kc_a].
  change (dn ip_c_a (venv [i])) with (ip_a Y i).
  change (dn ip_d_a (venv [i])) with (dn f_en (venv [i]) * (ip_a Y i) + (dn (ip_rt (s_ip_a 10 0)) (venv [i]))).
  rewrite sector_en, Q0_. ring.
Qed.
Lemma ip_comp_aa w i a j : (i < noa d)%nat -> (a < nua d)%nat -> (j < noa d)%nat ->
  str [(true, oa i); (true, oa j); (false, va d a)] (ip_defect w) ref = (ip_aa Z i a j - w * ip_aa Y i a j) + x_a T a j * (ip_a Z i - w * ip_a Y i) - x_a T a i * (ip_a Z j - w * ip_a Y j) + x_a X a j * ip_a Y i - x_a X a i * ip_a Y j.
Proof.
  intros Hi Ha Hj.
  assert (Q0_ : dn (ip_rt (s_ip_aa 10 0 1 2)) (venv [i; a; j]) = ip_aa Z i a j) by (rewrite ip_rt_ok; reflexivity).
  assert (Q1_ : dn (ip_rt (s_ip_a 10 0)) (venv [i; a; j]) = ip_a Z i) by (rewrite ip_rt_ok; reflexivity).
  assert (Q2_ : dn (rt (r_ccsd_res_a 10 1 2)) (venv [i; a; j]) = x_a X a j) by (rewrite sector_rt by (vm_compute; reflexivity); reflexivity).
  assert (Q3_ : dn (ip_rt (s_ip_a 10 2)) (venv [i; a; j]) = ip_a Z j) by (rewrite ip_rt_ok; reflexivity).
  assert (Q4_ : dn (rt (r_ccsd_res_a 10 1 0)) (venv [i; a; j]) = x_a X a i) by (rewrite sector_rt by (vm_compute; reflexivity); reflexivity).
  change (opsem (noa d) (nob d) ip_bra_aa (venv [i; a; j]) (ip_defect w) ref = (ip_aa Z i a j - w * ip_aa Y i a j) + x_a T a j * (ip_a Z i - w * ip_a Y i) - x_a T a i * (ip_a Z j - w * ip_a Y j) + x_a X a j * ip_a Y i - x_a X a i * ip_a Y j). unfold ip_defect. rewrite <- (ip_op_ok (venv [i; a; j])).
  rewrite (defect_ok d I T n Rs ip_rts 1 En En' ip_rtok ip_gens ip_tab ip_htab ip_syms ip_ext_aa ip_bra_aa (venv [i; a; j]) m ip_d_aa ip_c_aa (E + w));
    [|now apply ext_3|exact ip_bk_aa|cbn; lia|exact Hm|exact ip_kd_aa|exact ip_kc_aa].
  change (dn ip_c_aa (venv [i; a; j])) with (ip_aa Y i a j + x_a T a j * ip_a Y i - x_a T a i * ip_a Y j).
  change (dn ip_d_aa (venv [i; a; j])) with (dn f_en (venv [i; a; j]) * (ip_aa Y i a j + x_a T a j * ip_a Y i - x_a T a i * ip_a Y j) + (dn (ip_rt (s_ip_aa 10 0 1 2)) (venv [i; a; j]) + x_a T a j * dn (ip_rt (s_ip_a 10 0)) (venv [i; a; j]) - x_a T a i * dn (ip_rt (s_ip_a 10 2)) (venv [i; a; j]) + dn (rt (r_ccsd_res_a 10 1 2)) (venv [i; a; j]) * ip_a Y i - dn (rt (r_ccsd_res_a 10 1 0)) (venv [i; a; j]) * ip_a Y j)).
  rewrite sector_en, Q0_, Q1_, Q2_, Q3_, Q4_. ring.
Qed.
Lemma ip_comp_ab w i a j : (i < noa d)%nat -> (a < nub d)%nat -> (j < nob d)%nat ->
  str [(true, oa i); (true, ob j); (false, vb d a)] (ip_defect w) ref = (ip_ab Z i a j - w * ip_ab Y i a j) + x_b T a j * (ip_a Z i - w * ip_a Y i) + x_b X a j * ip_a Y i.
Proof.
  intros Hi Ha Hj.
  assert (Q0_ : dn (ip_rt (s_ip_ab 10 0 1 2)) (venv [i; a; j]) = ip_ab Z i a j) by (rewrite ip_rt_ok; reflexivity).
  assert (Q1_ : dn (ip_rt (s_ip_a 10 0)) (venv [i; a; j]) = ip_a Z i) by (rewrite ip_rt_ok; reflexivity).
  assert (Q2_ : dn (rt (r_ccsd_res_b 10 1 2)) (venv [i; a; j]) = x_b X a j) by (rewrite sector_rt by (vm_compute; reflexivity); reflexivity).
  change (opsem (noa d) (nob d) ip_bra_ab (venv [i; a; j]) (ip_defect w) ref = (ip_ab Z i a j - w * ip_ab Y i a j) + x_b T a j * (ip_a Z i - w * ip_a Y i) + x_b X a j * ip_a Y i). unfold ip_defect. rewrite <- (ip_op_ok (venv [i; a; j])).
  rewrite (defect_ok d I T n Rs ip_rts 1 En En' ip_rtok ip_gens ip_tab ip_htab ip_syms ip_ext_ab ip_bra_ab (venv [i; a; j]) m ip_d_ab ip_c_ab (E + w));
    [|now apply ext_3|exact ip_bk_ab|cbn; lia|exact Hm|exact ip_kd_ab|exact ip_kc_ab].
  change (dn ip_c_ab (venv [i; a; j])) with (ip_ab Y i a j + x_b T a j * ip_a Y i).
  change (dn ip_d_ab (venv [i; a; j])) with (dn f_en (venv [i; a; j]) * (ip_ab Y i a j + x_b T a j * ip_a Y i) + (dn (ip_rt (s_ip_ab 10 0 1 2)) (venv [i; a; j]) + x_b T a j * dn (ip_rt (s_ip_a 10 0)) (venv [i; a; j]) + dn (rt (r_ccsd_res_b 10 1 2)) (venv [i; a; j]) * ip_a Y i)).
  rewrite sector_en, Q0_, Q1_, Q2_. ring.
Qed.
Lemma ip_solves w : same_amps d X zero_amps -> (solves_on (ip_space n ref) n I (E + w) (ip_op d Y psi) <-> ip_root d Z Y w).
Proof.
  intros [Za Zb _ _ _]. cbn [zero_amps x_a x_b] in Za, Zb.
  assert (F := ip_flat d n (ip_defect w) En En').
  transitivity (forall D, ip_space n ref D -> ip_defect w D = 0); [unfold solves_on, ip_defect; split; intros G D HD; specialize (G D HD); [rewrite G; ring|lra]|]. rewrite F. clear F. unfold ip_root. split.
  - intros (F0 & F1 & F2).
    assert (L : forall i, (i < noa d)%nat -> ip_a Z i = w * ip_a Y i).
    { intros i Hi. specialize (F0 i Hi). rewrite ip_comp_a in F0 by assumption. lra. }
    split; [exact L|split].
    + intros i a j Hi Ha Hj. specialize (F1 i a j Hi Ha Hj). rewrite ip_comp_aa, ?Za, ?Zb, !L in F1 by assumption. lra.
    + intros i a j Hi Ha Hj. specialize (F2 i a j Hi Ha Hj). rewrite ip_comp_ab, ?Za, ?Zb, !L in F2 by assumption. lra.
  - intros (G0 & G1 & G2). split; [|split].
    + intros i Hi. rewrite ip_comp_a, G0 by assumption. ring.
    + intros i a j Hi Ha Hj. rewrite ip_comp_aa, G1, ?Za, ?Zb, !G0 by assumption. ring.
    + intros i a j Hi Ha Hj. rewrite ip_comp_ab, G2, ?Za, ?Zb, !G0 by assumption. ring.
Qed.
End P.
