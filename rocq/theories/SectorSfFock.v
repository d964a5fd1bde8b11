(** Generated by tools/gen_secfock.py: components of (H - E - w) R exp(T) |ref> for the SF operator (proof support). *)
From Coq Require Import Reals Arith NArith List Bool Lia Lra QArith Qreals ZArith FunctionalExtensionality.
From Verif Require Import RSum IntegralsModel TensorObjs TensorAlg TensorSpec CcsdModel CcsdUpdate CcsdReify CcsdProps FockSpec FockCar FockWick FockArrays FockCcSpec FockTerms FockHam FockExp FockLevel FockCheck FockState FockNear FockProj FockSector FockSectorTools SectorModel FockSectorSpec FockFlip FockSpaces SectorSfReify.
Import ListNotations.
Local Open Scope nat_scope.
Definition sf_rts : list term := [mkTerm (1 # 1) [(40, 3); (41, 0)] [(66, [40; 41])] [C 3 40; A 0 41]; mkTerm (1 # 2) [(40, 1); (41, 3); (42, 0); (43, 0)] [(67, [40; 41; 42; 43])] [C 1 40; C 3 41; A 0 43; A 0 42]; mkTerm (1 # 2) [(40, 3); (41, 3); (42, 2); (43, 0)] [(68, [40; 41; 42; 43])] [C 3 40; C 3 41; A 0 43; A 2 42]].
Definition sf_own : list (nat * (nat * list nat * bool)) := [(67, (67, [0; 1; 3; 2], false)); (68, (68, [1; 0; 2; 3], false))].
Definition sf_gens := fock_gens ++ sf_own.
Definition sf_tab := Eval vm_compute in symtab sf_gens 69.
Definition sf_rt e := retag (to_sector 3) e.
Lemma sf_htab : sf_tab = symtab sf_gens 69. Proof. vm_compute. reflexivity. Qed.
Lemma sf_rtok : rtok sf_rts 1 = true. Proof. vm_compute. reflexivity. Qed.
Definition sf_bra_b : list op := [C 0 1; A 3 0].
Definition sf_ext_b : list (nat * nat) := [(0, 3); (1, 0)].
Definition sf_c_b := (ET 66 [0; 1]).
Definition sf_d_b := EAdd (EMul f_en sf_c_b) (sf_rt (s_sf_b 10 0 1)).
Lemma sf_bk_b : braok sf_ext_b sf_bra_b = true. Proof. vm_compute. reflexivity. Qed.
Lemma sf_kc_b : fock_same sf_tab sf_ext_b (eek sf_bra_b sf_rts) sf_c_b = true. Proof. vm_compute. reflexivity. Qed.
Lemma sf_kd_b : fock_same sf_tab sf_ext_b (hek sf_bra_b sf_rts) sf_d_b = true. Proof. vm_compute. reflexivity. Qed.
Definition sf_bra_ab : list op := [C 0 2; C 0 3; A 3 1; A 1 0].
Definition sf_ext_ab : list (nat * nat) := [(0, 1); (1, 3); (2, 0); (3, 0)].
Definition sf_c_ab := (ESub (EAdd (ET 67 [0; 1; 2; 3]) (EMul (ET 0 [0; 2]) (ET 66 [1; 3]))) (EMul (ET 0 [0; 3]) (ET 66 [1; 2]))).
Definition sf_d_ab := EAdd (EMul f_en sf_c_ab) (ESub (EAdd (ESub (EAdd (sf_rt (s_sf_ab 10 0 1 2 3)) (EMul (ET 0 [0; 2]) (sf_rt (s_sf_b 10 1 3)))) (EMul (ET 0 [0; 3]) (sf_rt (s_sf_b 10 1 2)))) (EMul (ra 0 2) (ET 66 [1; 3]))) (EMul (ra 0 3) (ET 66 [1; 2]))).
Lemma sf_bk_ab : braok sf_ext_ab sf_bra_ab = true. Proof. vm_compute. reflexivity. Qed.
Lemma sf_kc_ab : fock_same sf_tab sf_ext_ab (eek sf_bra_ab sf_rts) sf_c_ab = true. Proof. vm_compute. reflexivity. Qed.
Lemma sf_kd_ab : fock_same sf_tab sf_ext_ab (hek sf_bra_ab sf_rts) sf_d_ab = true. Proof. vm_compute. reflexivity. Qed.
Definition sf_bra_bb : list op := [C 2 2; C 0 3; A 3 1; A 3 0].
Definition sf_ext_bb : list (nat * nat) := [(0, 3); (1, 3); (2, 2); (3, 0)].
Definition sf_c_bb := (ESub (EAdd (ET 68 [0; 1; 2; 3]) (EMul (ET 1 [0; 2]) (ET 66 [1; 3]))) (EMul (ET 1 [1; 2]) (ET 66 [0; 3]))).
Definition sf_d_bb := EAdd (EMul f_en sf_c_bb) (ESub (EAdd (ESub (EAdd (sf_rt (s_sf_bb 10 0 1 2 3)) (EMul (ET 1 [0; 2]) (sf_rt (s_sf_b 10 1 3)))) (EMul (ET 1 [1; 2]) (sf_rt (s_sf_b 10 0 3)))) (EMul (rb 0 2) (ET 66 [1; 3]))) (EMul (rb 1 2) (ET 66 [0; 3]))).
Lemma sf_bk_bb : braok sf_ext_bb sf_bra_bb = true. Proof. vm_compute. reflexivity. Qed.
Lemma sf_kc_bb : fock_same sf_tab sf_ext_bb (eek sf_bra_bb sf_rts) sf_c_bb = true. Proof. vm_compute. reflexivity. Qed.
Lemma sf_kd_bb : fock_same sf_tab sf_ext_bb (hek sf_bra_bb sf_rts) sf_d_bb = true. Proof. vm_compute. reflexivity. Qed.
Local Open Scope R_scope.
Section P.
Variables (d : dims) (I : integrals) (T : amps) (Y : sfv) (n m : nat).
Hypothesis En : (noa d + nua d = n)%nat.
Hypothesis En' : (nob d + nub d = n)%nat.
Hypothesis HI : exchangeable I.
Hypothesis HT : antisym_amps T.
Hypothesis HY : sf_anti Y.
Hypothesis Hm : (3 <= m)%nat.
Notation H := (fock_ints (noa d) (nob d) I).
Notation ref := (reference (noa d) (nob d)).
Notation psi := (expo (cluster_sd d T) m (pure ref)).
Notation E := (scf_energy (noa d) (nob d) I + cc_energy d H T).
Notation Rs := [ap2 (sf_b Y); ap4 (sf_ab Y); ap4 (sf_bb Y)].
Notation ten := (tenv (fock_arrays H T ++ Rs)).
Notation dn e v := (den (fdim d) ten e v).
Notation X := (ccsd_resid d H T).
Notation Z := (sf_HR d (hbar_ccsd d H T) T Y).
Definition sf_defect (w : R) : state := fun D => hamiltonian n I (sf_op d Y psi) D - (E + w) * sf_op d Y psi D.
Lemma sf_op_ok v phi : psem (noa d) (nob d) (fdim d) ten sf_rts v phi = sf_op d Y phi.
Proof.
  apply ext_state; intros D. unfold psem, sf_rts, sf_op. cbn [lsum]. unfold tsem. cbn [t_c t_l t_f t_o]. rewrite ?Q1, ?half, ?Rmult_1_l, Rplus_0_r, ?Rplus_assoc.
  repeat match goal with |- _ + _ = _ + _ => apply f_equal2 | |- / 2 * _ = / 2 * _ => apply f_equal end; cbn [ssum]; repeat (apply sumn_ext; intros ? _); cbn [prodf]; rewrite Rmult_1_r; reflexivity.
Qed.
Lemma sf_syms : Forall (fun g => okalt ten (fst g) (snd g)) sf_gens.
Proof.
  apply sector_syms; [exact (fock_ints_antisym _ _ _ HI)|exact HT|].
  destruct HY as (A1 & A2). apply Forall_cons; [okswap A1|apply Forall_cons; [okswap A2|apply Forall_nil]].
Qed.
Lemma sf_rt_ok e v : dn (sf_rt e) v = den (fdim d) (tenv (jac_arrays d H T T ++ Rs)) e v.
Proof. apply (retag_sector d H T Rs). cbn [length]. lia. Qed.
Lemma sf_comp_b w a i : (a < nub d)%nat -> (i < noa d)%nat ->
  str [(true, oa i); (false, vb d a)] (sf_defect w) ref = (sf_b Z a i - w * sf_b Y a i).
Proof.
  intros Ha Hi.
  assert (Q0_ : dn (sf_rt (s_sf_b 10 0 1)) (venv [a; i]) = sf_b Z a i) by (rewrite sf_rt_ok; reflexivity).
  change (opsem (noa d) (nob d) sf_bra_b (venv [a; i]) (sf_defect w) ref = (sf_b Z a i - w * sf_b Y a i)). unfold sf_defect. rewrite <- (sf_op_ok (venv [a; i])).
  rewrite (defect_ok d I T n Rs sf_rts 1 En En' sf_rtok sf_gens sf_tab sf_htab sf_syms sf_ext_b sf_bra_b (venv [a; i]) m sf_d_b sf_c_b (E + w));
    [|now apply ext2|exact sf_bk_b|cbn; lia|exact Hm|exact sf_kd_b|exact sf_kc_b].
  change (dn sf_c_b (venv [a; i])) with (sf_b Y a i).
  change (dn sf_d_b (venv [a; i])) with (dn f_en (venv [a; i]) * (sf_b Y a i) + (dn (sf_rt (s_sf_b 10 0 1)) (venv [a; i]))).
  rewrite sector_en, Q0_. ring.
Qed.
Lemma sf_comp_ab w a b i j : (a < nua d)%nat -> (b < nub d)%nat -> (i < noa d)%nat -> (j < noa d)%nat ->
  str [(true, oa i); (true, oa j); (false, vb d b); (false, va d a)] (sf_defect w) ref = (sf_ab Z a b i j - w * sf_ab Y a b i j) + x_a T a i * (sf_b Z b j - w * sf_b Y b j) - x_a T a j * (sf_b Z b i - w * sf_b Y b i) + x_a X a i * sf_b Y b j - x_a X a j * sf_b Y b i.
Proof.
  intros Ha Hb Hi Hj.
  assert (Q0_ : dn (sf_rt (s_sf_ab 10 0 1 2 3)) (venv [a; b; i; j]) = sf_ab Z a b i j) by (rewrite sf_rt_ok; reflexivity).
  assert (Q1_ : dn (sf_rt (s_sf_b 10 1 3)) (venv [a; b; i; j]) = sf_b Z b j) by (rewrite sf_rt_ok; reflexivity).
  assert (Q2_ : dn (rt (r_ccsd_res_a 10 0 2)) (venv [a; b; i; j]) = x_a X a i) by (rewrite sector_rt by (vm_compute; reflexivity); reflexivity).
  assert (Q3_ : dn (sf_rt (s_sf_b 10 1 2)) (venv [a; b; i; j]) = sf_b Z b i) by (rewrite sf_rt_ok; reflexivity).
  assert (Q4_ : dn (rt (r_ccsd_res_a 10 0 3)) (venv [a; b; i; j]) = x_a X a j) by (rewrite sector_rt by (vm_compute; reflexivity); reflexivity).
  change (opsem (noa d) (nob d) sf_bra_ab (venv [a; b; i; j]) (sf_defect w) ref = (sf_ab Z a b i j - w * sf_ab Y a b i j) + x_a T a i * (sf_b Z b j - w * sf_b Y b j) - x_a T a j * (sf_b Z b i - w * sf_b Y b i) + x_a X a i * sf_b Y b j - x_a X a j * sf_b Y b i). unfold sf_defect. rewrite <- (sf_op_ok (venv [a; b; i; j])).
  rewrite (defect_ok d I T n Rs sf_rts 1 En En' sf_rtok sf_gens sf_tab sf_htab sf_syms sf_ext_ab sf_bra_ab (venv [a; b; i; j]) m sf_d_ab sf_c_ab (E + w));
    [|now apply ext4|exact sf_bk_ab|cbn; lia|exact Hm|exact sf_kd_ab|exact sf_kc_ab].
  change (dn sf_c_ab (venv [a; b; i; j])) with (sf_ab Y a b i j + x_a T a i * sf_b Y b j - x_a T a j * sf_b Y b i).
  change (dn sf_d_ab (venv [a; b; i; j])) with (dn f_en (venv [a; b; i; j]) * (sf_ab Y a b i j + x_a T a i * sf_b Y b j - x_a T a j * sf_b Y b i) + (dn (sf_rt (s_sf_ab 10 0 1 2 3)) (venv [a; b; i; j]) + x_a T a i * dn (sf_rt (s_sf_b 10 1 3)) (venv [a; b; i; j]) - x_a T a j * dn (sf_rt (s_sf_b 10 1 2)) (venv [a; b; i; j]) + dn (rt (r_ccsd_res_a 10 0 2)) (venv [a; b; i; j]) * sf_b Y b j - dn (rt (r_ccsd_res_a 10 0 3)) (venv [a; b; i; j]) * sf_b Y b i)).
  rewrite sector_en, Q0_, Q1_, Q2_, Q3_, Q4_. ring.
Qed.
Lemma sf_comp_bb w a b i j : (a < nub d)%nat -> (b < nub d)%nat -> (i < nob d)%nat -> (j < noa d)%nat ->
  str [(true, ob i); (true, oa j); (false, vb d b); (false, vb d a)] (sf_defect w) ref = (sf_bb Z a b i j - w * sf_bb Y a b i j) + x_b T a i * (sf_b Z b j - w * sf_b Y b j) - x_b T b i * (sf_b Z a j - w * sf_b Y a j) + x_b X a i * sf_b Y b j - x_b X b i * sf_b Y a j.
Proof.
  intros Ha Hb Hi Hj.
  assert (Q0_ : dn (sf_rt (s_sf_bb 10 0 1 2 3)) (venv [a; b; i; j]) = sf_bb Z a b i j) by (rewrite sf_rt_ok; reflexivity).
  assert (Q1_ : dn (sf_rt (s_sf_b 10 1 3)) (venv [a; b; i; j]) = sf_b Z b j) by (rewrite sf_rt_ok; reflexivity).
  assert (Q2_ : dn (rt (r_ccsd_res_b 10 0 2)) (venv [a; b; i; j]) = x_b X a i) by (rewrite sector_rt by (vm_compute; reflexivity); reflexivity).
  assert (Q3_ : dn (sf_rt (s_sf_b 10 0 3)) (venv [a; b; i; j]) = sf_b Z a j) by (rewrite sf_rt_ok; reflexivity).
  assert (Q4_ : dn (rt (r_ccsd_res_b 10 1 2)) (venv [a; b; i; j]) = x_b X b i) by (rewrite sector_rt by (vm_compute; reflexivity); reflexivity).
  change (opsem (noa d) (nob d) sf_bra_bb (venv [a; b; i; j]) (sf_defect w) ref = (sf_bb Z a b i j - w * sf_bb Y a b i j) + x_b T a i * (sf_b Z b j - w * sf_b Y b j) - x_b T b i * (sf_b Z a j - w * sf_b Y a j) + x_b X a i * sf_b Y b j - x_b X b i * sf_b Y a j). unfold sf_defect. rewrite <- (sf_op_ok (venv [a; b; i; j])).
  rewrite (defect_ok d I T n Rs sf_rts 1 En En' sf_rtok sf_gens sf_tab sf_htab sf_syms sf_ext_bb sf_bra_bb (venv [a; b; i; j]) m sf_d_bb sf_c_bb (E + w));
    [|now apply ext4|exact sf_bk_bb|cbn; lia|exact Hm|exact sf_kd_bb|exact sf_kc_bb].
  change (dn sf_c_bb (venv [a; b; i; j])) with (sf_bb Y a b i j + x_b T a i * sf_b Y b j - x_b T b i * sf_b Y a j).
  change (dn sf_d_bb (venv [a; b; i; j])) with (dn f_en (venv [a; b; i; j]) * (sf_bb Y a b i j + x_b T a i * sf_b Y b j - x_b T b i * sf_b Y a j) + (dn (sf_rt (s_sf_bb 10 0 1 2 3)) (venv [a; b; i; j]) + x_b T a i * dn (sf_rt (s_sf_b 10 1 3)) (venv [a; b; i; j]) - x_b T b i * dn (sf_rt (s_sf_b 10 0 3)) (venv [a; b; i; j]) + dn (rt (r_ccsd_res_b 10 0 2)) (venv [a; b; i; j]) * sf_b Y b j - dn (rt (r_ccsd_res_b 10 1 2)) (venv [a; b; i; j]) * sf_b Y a j)).
  rewrite sector_en, Q0_, Q1_, Q2_, Q3_, Q4_. ring.
Qed.
Lemma sf_solves w : same_amps d X zero_amps -> (solves_on (sf_space n ref) n I (E + w) (sf_op d Y psi) <-> sf_root d Z Y w).
Proof.
  intros [Za Zb _ _ _]. cbn [zero_amps x_a x_b] in Za, Zb.
  assert (F := sf_flat d n (sf_defect w) En En').
  transitivity (forall D, sf_space n ref D -> sf_defect w D = 0); [unfold solves_on, sf_defect; split; intros G D HD; specialize (G D HD); [rewrite G; ring|lra]|]. rewrite F. clear F. unfold sf_root. split.
  - intros (F0 & F1 & F2).
    assert (L : forall a i, (a < nub d)%nat -> (i < noa d)%nat -> sf_b Z a i = w * sf_b Y a i).
    { intros a i Ha Hi. specialize (F0 a i Ha Hi). rewrite sf_comp_b in F0 by assumption. lra. }
    split; [exact L|split].
    + intros a b i j Ha Hb Hi Hj. specialize (F1 a b i j Ha Hb Hi Hj). rewrite sf_comp_ab, ?Za, ?Zb, !L in F1 by assumption. lra.
    + intros a b i j Ha Hb Hi Hj. specialize (F2 a b i j Ha Hb Hi Hj). rewrite sf_comp_bb, ?Za, ?Zb, !L in F2 by assumption. lra.
  - intros (G0 & G1 & G2). split; [|split].
    + intros a i Ha Hi. rewrite sf_comp_b, G0 by assumption. ring.
    + intros a b i j Ha Hb Hi Hj. rewrite sf_comp_ab, G1, ?Za, ?Zb, !G0 by assumption. ring.
    + intros a b i j Ha Hb Hi Hj. rewrite sf_comp_bb, G2, ?Za, ?Zb, !G0 by assumption. ring.
Qed.
End P.
