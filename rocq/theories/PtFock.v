(** Generated by tools/gen_ccsdpt.py: the CCSD(T) moments against second quantisation (proof support). *)
From Coq Require Import Reals Arith NArith List Bool Lia Lra QArith Qreals ZArith FunctionalExtensionality.
From Verif Require Import RSum IntegralsModel TensorObjs TensorAlg TensorSpec CcsdModel CcsdUpdate CcsdReify FockSpec FockCar FockWick FockArrays FockCcSpec FockTerms FockHam FockExp FockLevel FockCheck FockState FockNear FockProj FockSector FockSectorTools
  FockFast FockSectorSpec FockFlip RankSpec FockDress FockShift FockSector3 FockTools3 CcsdtModel CcsdtUpdate SdtSpec SdtFlat SdtFock PtModel.
Import ListNotations.
Local Open Scope nat_scope.
Definition k_pt_X3aaa (z a b c i j k : nat) : ex := (EAdd (EAdd (EAdd (EAdd (EAdd (EScale (-1) 2 (ESum (0 + z) 0 (EMul (ET 25 [a; (0 + z); i; j]) (ET 2 [b; c; (0 + z); k])))) (EScale (1) 2 (ESum (0 + z) 0 (EMul (ET 25 [a; (0 + z); k; j]) (ET 2 [b; c; (0 + z); i]))))) (EScale (1) 2 (ESum (0 + z) 0 (EMul (ET 25 [a; (0 + z); i; k]) (ET 2 [b; c; (0 + z); j]))))) (EScale (1) 2 (ESum (0 + z) 1 (EMul (ET 30 [a; b; i; (0 + z)]) (ET 2 [(0 + z); c; j; k]))))) (EScale (-1) 2 (ESum (0 + z) 1 (EMul (ET 30 [a; b; j; (0 + z)]) (ET 2 [(0 + z); c; i; k]))))) (EScale (-1) 2 (ESum (0 + z) 1 (EMul (ET 30 [a; b; k; (0 + z)]) (ET 2 [(0 + z); c; j; i]))))).
Definition k_pt_M_aaa (z a b c i j k : nat) : ex := (ESub (ESub (ESub (EAdd (EAdd (k_pt_X3aaa (0 + z) a b c i j k) (k_pt_X3aaa (0 + z) b c a i j k)) (k_pt_X3aaa (0 + z) c a b i j k)) (k_pt_X3aaa (0 + z) a c b i j k)) (k_pt_X3aaa (0 + z) b a c i j k)) (k_pt_X3aaa (0 + z) c b a i j k)).
Definition k_pt_S_aaa (z a b c i j k : nat) : ex := (EAdd (EAdd (EAdd (EAdd (ESub (ESub (ESub (ESub (EAdd (EAdd (EAdd (EAdd (EAdd (ESub (ESub (ESub (ESub (EMul (ET 0 [c; k]) (ET 20 [i; j; a; b])) (EMul (ET 0 [a; k]) (ET 20 [i; j; c; b]))) (EMul (ET 0 [b; k]) (ET 20 [i; j; a; c]))) (EMul (ET 0 [c; i]) (ET 20 [k; j; a; b]))) (EMul (ET 0 [c; j]) (ET 20 [i; k; a; b]))) (EMul (ET 0 [a; i]) (ET 20 [k; j; c; b]))) (EMul (ET 0 [b; i]) (ET 20 [k; j; a; c]))) (EMul (ET 0 [a; j]) (ET 20 [i; k; c; b]))) (EMul (ET 0 [b; j]) (ET 20 [i; k; a; c]))) (EMul (ET 10 [k; c]) (ET 2 [a; b; i; j]))) (EMul (ET 10 [k; a]) (ET 2 [c; b; i; j]))) (EMul (ET 10 [k; b]) (ET 2 [a; c; i; j]))) (EMul (ET 10 [i; c]) (ET 2 [a; b; k; j]))) (EMul (ET 10 [j; c]) (ET 2 [a; b; i; k]))) (EMul (ET 10 [i; a]) (ET 2 [c; b; k; j]))) (EMul (ET 10 [i; b]) (ET 2 [a; c; k; j]))) (EMul (ET 10 [j; a]) (ET 2 [c; b; i; k]))) (EMul (ET 10 [j; b]) (ET 2 [a; c; i; k]))).
Definition k_pt_L_aaa (z a b c i j k : nat) : ex := (EAdd (k_pt_M_aaa (0 + z) a b c i j k) (k_pt_S_aaa (0 + z) a b c i j k)).
Definition k_pt_X3aab (z a b c i j k : nat) : ex := (EAdd (EAdd (EAdd (EAdd (EAdd (EAdd (EAdd (EAdd (EAdd (EScale (1) 1 (ESum (0 + z) 1 (EMul (ET 2 [a; (0 + z); i; j]) (ET 47 [b; c; (0 + z); k])))) (EScale (1) 2 (ESum (0 + z) 0 (EMul (ET 2 [a; b; (0 + z); i]) (ET 37 [(0 + z); c; j; k]))))) (EScale (-1) 2 (ESum (0 + z) 0 (EMul (ET 2 [a; b; (0 + z); j]) (ET 37 [(0 + z); c; i; k]))))) (EScale (1) 1 (ESum (0 + z) 3 (EMul (ET 3 [a; (0 + z); i; k]) (ET 46 [b; c; j; (0 + z)]))))) (EScale (-1) 1 (ESum (0 + z) 3 (EMul (ET 3 [a; (0 + z); j; k]) (ET 46 [b; c; i; (0 + z)]))))) (EScale (-1) 1 (ESum (0 + z) 2 (EMul (ET 41 [a; (0 + z); i; k]) (ET 3 [b; c; j; (0 + z)]))))) (EScale (1) 1 (ESum (0 + z) 2 (EMul (ET 41 [a; (0 + z); j; k]) (ET 3 [b; c; i; (0 + z)]))))) (EScale (1) 2 (ESum (0 + z) 1 (EMul (ET 30 [a; b; i; (0 + z)]) (ET 3 [(0 + z); c; j; k]))))) (EScale (-1) 2 (ESum (0 + z) 1 (EMul (ET 30 [a; b; j; (0 + z)]) (ET 3 [(0 + z); c; i; k]))))) (EScale (-1) 1 (ESum (0 + z) 0 (EMul (ET 25 [a; (0 + z); i; j]) (ET 3 [b; c; (0 + z); k]))))).
Definition k_pt_M_aab (z a b c i j k : nat) : ex := (ESub (k_pt_X3aab (0 + z) a b c i j k) (k_pt_X3aab (0 + z) b a c i j k)).
Definition k_pt_S_aab (z a b c i j k : nat) : ex := (EAdd (EAdd (ESub (ESub (EAdd (EAdd (EAdd (ESub (ESub (EMul (ET 0 [a; i]) (ET 36 [j; k; b; c])) (EMul (ET 0 [a; j]) (ET 36 [i; k; b; c]))) (EMul (ET 0 [b; i]) (ET 36 [j; k; a; c]))) (EMul (ET 0 [b; j]) (ET 36 [i; k; a; c]))) (EMul (ET 1 [c; k]) (ET 20 [i; j; a; b]))) (EMul (ET 3 [b; c; j; k]) (ET 10 [i; a]))) (EMul (ET 3 [b; c; i; k]) (ET 10 [j; a]))) (EMul (ET 3 [a; c; j; k]) (ET 10 [i; b]))) (EMul (ET 3 [a; c; i; k]) (ET 10 [j; b]))) (EMul (ET 2 [a; b; i; j]) (ET 14 [k; c]))).
Definition k_pt_L_aab (z a b c i j k : nat) : ex := (EAdd (k_pt_M_aab (0 + z) a b c i j k) (k_pt_S_aab (0 + z) a b c i j k)).
Definition k_pt_X3abb (z a b c i j k : nat) : ex := (EAdd (EAdd (EAdd (EAdd (EAdd (EAdd (EAdd (EAdd (EAdd (EScale (1) 1 (ESum (0 + z) 3 (EMul (ET 46 [a; b; i; (0 + z)]) (ET 4 [(0 + z); c; j; k])))) (EScale (-1) 2 (ESum (0 + z) 2 (EMul (ET 41 [a; (0 + z); i; j]) (ET 4 [b; c; (0 + z); k]))))) (EScale (1) 2 (ESum (0 + z) 2 (EMul (ET 41 [a; (0 + z); i; k]) (ET 4 [b; c; (0 + z); j]))))) (EScale (1) 2 (ESum (0 + z) 3 (EMul (ET 3 [a; (0 + z); i; j]) (ET 62 [c; b; k; (0 + z)]))))) (EScale (-1) 2 (ESum (0 + z) 3 (EMul (ET 3 [a; (0 + z); i; k]) (ET 62 [c; b; j; (0 + z)]))))) (EScale (-1) 1 (ESum (0 + z) 2 (EMul (ET 3 [a; b; i; (0 + z)]) (ET 57 [c; (0 + z); k; j]))))) (EScale (1) 1 (ESum (0 + z) 1 (EMul (ET 47 [a; b; (0 + z); j]) (ET 3 [(0 + z); c; i; k]))))) (EScale (-1) 1 (ESum (0 + z) 1 (EMul (ET 47 [a; b; (0 + z); k]) (ET 3 [(0 + z); c; i; j]))))) (EScale (-1) 1 (ESum (0 + z) 0 (EMul (ET 3 [a; b; (0 + z); j]) (ET 37 [(0 + z); c; i; k]))))) (EScale (1) 1 (ESum (0 + z) 0 (EMul (ET 3 [a; b; (0 + z); k]) (ET 37 [(0 + z); c; i; j]))))).
Definition k_pt_M_abb (z a b c i j k : nat) : ex := (ESub (k_pt_X3abb (0 + z) a b c i j k) (k_pt_X3abb (0 + z) a c b i j k)).
Definition k_pt_S_abb (z a b c i j k : nat) : ex := (EAdd (EAdd (ESub (ESub (EAdd (EAdd (EAdd (ESub (ESub (EMul (ET 1 [c; k]) (ET 36 [i; j; a; b])) (EMul (ET 1 [b; k]) (ET 36 [i; j; a; c]))) (EMul (ET 1 [c; j]) (ET 36 [i; k; a; b]))) (EMul (ET 1 [b; j]) (ET 36 [i; k; a; c]))) (EMul (ET 0 [a; i]) (ET 52 [j; k; b; c]))) (EMul (ET 14 [k; c]) (ET 3 [a; b; i; j]))) (EMul (ET 14 [k; b]) (ET 3 [a; c; i; j]))) (EMul (ET 14 [j; c]) (ET 3 [a; b; i; k]))) (EMul (ET 14 [j; b]) (ET 3 [a; c; i; k]))) (EMul (ET 10 [i; a]) (ET 4 [b; c; j; k]))).
Definition k_pt_L_abb (z a b c i j k : nat) : ex := (EAdd (k_pt_M_abb (0 + z) a b c i j k) (k_pt_S_abb (0 + z) a b c i j k)).
Definition k_pt_X3bbb (z a b c i j k : nat) : ex := (EAdd (EAdd (EAdd (EAdd (EAdd (EScale (-1) 2 (ESum (0 + z) 2 (EMul (ET 57 [a; (0 + z); i; j]) (ET 4 [b; c; (0 + z); k])))) (EScale (1) 2 (ESum (0 + z) 2 (EMul (ET 57 [a; (0 + z); k; j]) (ET 4 [b; c; (0 + z); i]))))) (EScale (1) 2 (ESum (0 + z) 2 (EMul (ET 57 [a; (0 + z); i; k]) (ET 4 [b; c; (0 + z); j]))))) (EScale (1) 2 (ESum (0 + z) 3 (EMul (ET 62 [a; b; i; (0 + z)]) (ET 4 [(0 + z); c; j; k]))))) (EScale (-1) 2 (ESum (0 + z) 3 (EMul (ET 62 [a; b; j; (0 + z)]) (ET 4 [(0 + z); c; i; k]))))) (EScale (-1) 2 (ESum (0 + z) 3 (EMul (ET 62 [a; b; k; (0 + z)]) (ET 4 [(0 + z); c; j; i]))))).
Definition k_pt_M_bbb (z a b c i j k : nat) : ex := (ESub (ESub (ESub (EAdd (EAdd (k_pt_X3bbb (0 + z) a b c i j k) (k_pt_X3bbb (0 + z) b c a i j k)) (k_pt_X3bbb (0 + z) c a b i j k)) (k_pt_X3bbb (0 + z) a c b i j k)) (k_pt_X3bbb (0 + z) b a c i j k)) (k_pt_X3bbb (0 + z) c b a i j k)).
Definition k_pt_S_bbb (z a b c i j k : nat) : ex := (EAdd (EAdd (EAdd (EAdd (ESub (ESub (ESub (ESub (EAdd (EAdd (EAdd (EAdd (EAdd (ESub (ESub (ESub (ESub (EMul (ET 1 [c; k]) (ET 52 [i; j; a; b])) (EMul (ET 1 [a; k]) (ET 52 [i; j; c; b]))) (EMul (ET 1 [b; k]) (ET 52 [i; j; a; c]))) (EMul (ET 1 [c; i]) (ET 52 [k; j; a; b]))) (EMul (ET 1 [c; j]) (ET 52 [i; k; a; b]))) (EMul (ET 1 [a; i]) (ET 52 [k; j; c; b]))) (EMul (ET 1 [b; i]) (ET 52 [k; j; a; c]))) (EMul (ET 1 [a; j]) (ET 52 [i; k; c; b]))) (EMul (ET 1 [b; j]) (ET 52 [i; k; a; c]))) (EMul (ET 14 [k; c]) (ET 4 [a; b; i; j]))) (EMul (ET 14 [k; a]) (ET 4 [c; b; i; j]))) (EMul (ET 14 [k; b]) (ET 4 [a; c; i; j]))) (EMul (ET 14 [i; c]) (ET 4 [a; b; k; j]))) (EMul (ET 14 [j; c]) (ET 4 [a; b; i; k]))) (EMul (ET 14 [i; a]) (ET 4 [c; b; k; j]))) (EMul (ET 14 [i; b]) (ET 4 [a; c; k; j]))) (EMul (ET 14 [j; a]) (ET 4 [c; b; i; k]))) (EMul (ET 14 [j; b]) (ET 4 [a; c; i; k]))).
Definition k_pt_L_bbb (z a b c i j k : nat) : ex := (EAdd (k_pt_M_bbb (0 + z) a b c i j k) (k_pt_S_bbb (0 + z) a b c i j k)).
Definition pt_ht (l : list op) : list term := pmulb (pmul [mkTerm 1 [] [] l] hno) (exps2 1).
Definition pt_th (l : list op) : list term := pmulb [mkTerm 1 [] [] l] (pmul (exps2 1) hno).
Lemma th_within : Forall (within 8 40) (pmul (exps2 1) hno). Proof. apply withinb_ok. vm_compute. reflexivity. Qed.
Lemma th_okterm : forallb (okterm []) (pmul (exps2 1) hno) = true. Proof. vm_compute. reflexivity. Qed.
Lemma th_apart : apart (exps2 1) hno = true. Proof. vm_compute. reflexivity. Qed.
Definition pt_tab := Eval vm_compute in symtab fock_gens 66.
Lemma pt_htab : pt_tab = symtab fock_gens 66. Proof. vm_compute. reflexivity. Qed.
Local Open Scope R_scope.
Section F.
Variables (d : dims) (I : integrals) (T0 : amps) (n : nat).
Hypothesis En : (noa d + nua d = n)%nat.
Hypothesis En' : (nob d + nub d = n)%nat.
Hypothesis HI : exchangeable I.
Hypothesis HT : antisym_amps T0.
Notation T := (bare T0).
Notation H := (fock_ints (noa d) (nob d) I).
Notation ten := (tenv (fock_arrays H T ++ [])).
Notation ps := (psem (noa d) (nob d) (fdim d) ten).
Notation ref := (reference (noa d) (nob d)).
Notation vac := (pure ref).
Notation bra l v psi := (opsem (noa d) (nob d) l v psi ref).
Notation Ts := (cluster_sd d T).
Notation dn e v := (den (fdim d) ten e v).
Lemma pt_syms : Forall (fun g => okalt ten (fst g) (snd g)) (fock_gens ++ []).
Proof. apply sector_syms; [exact (fock_ints_antisym _ _ _ HI)|exact (bare_anti _ HT)|apply Forall_nil]. Qed.
Lemma pt_syms0 : Forall (fun g => okalt ten (fst g) (snd g)) fock_gens.
Proof. generalize pt_syms. now rewrite app_nil_r. Qed.
Lemma dpow1 psi : dpow Ts 1 psi = Ts psi.
Proof. apply ext_state; intros D. change (/ 1 * Ts psi D = Ts psi D). field. Qed.
Lemma pt_ht_ok ext l v : ext_ok (fdim d) ext v -> braok ext l = true -> ps (pt_ht l) v vac ref = bra l v (hamiltonian n I (Ts vac)).
Proof.
  intros HE HB. assert (B := HB). apply andb_prop in B as (B & _). apply andb_prop in B as (B1 & B2). unfold pt_ht.
  rewrite (pmulb_ok (noa d) (nob d) (fdim d) ten eq_refl eq_refl ext).
  - rewrite pmul_ok by (apply (apart_within 0 6 8 12); [lia|eapply bra_within; eassumption|exact hno_within]).
    rewrite (ps_exps2 d I T0 [] 1 v vac) by lia. rewrite (ps_hno d I T0 n [] En En' [] pt_syms), dpow1. rewrite psem_one. unfold tsem. cbn [t_c t_l t_f t_o ssum prodf]. rewrite Q1. ring.
  - exact HE.
  - apply (pmul_okterm ext 0 6 8 12); [lia|eapply bra_within; eassumption|exact hno_within|cbn [forallb]; now rewrite B2|].
    apply (oktests_ext ext _ 8 12); [exact B1|lia|exact hno_within|exact hno_okterm].
  - apply (oktests_ext ext _ 12 40); [exact B1|lia|apply exps2_within; lia|apply exps2_okterm; lia].
  - apply (apart_within 0 12 12 40); [lia| |apply exps2_within; lia]. apply (pmul_within 0 6 8 12); try lia; [eapply bra_within; eassumption|exact hno_within].
Qed.
Lemma pt_th_ok ext l v : ext_ok (fdim d) ext v -> braok ext l = true -> ps (pt_th l) v vac ref = bra l v (Ts (hamiltonian n I vac)).
Proof.
  intros HE HB. assert (B := HB). apply andb_prop in B as (B & _). apply andb_prop in B as (B1 & B2). unfold pt_th.
  rewrite (pmulb_ok (noa d) (nob d) (fdim d) ten eq_refl eq_refl ext).
  - rewrite psem_one. unfold tsem. cbn [t_c t_l t_f t_o ssum prodf]. rewrite Q1.
    replace (ps (pmul (exps2 1) hno) v vac) with (Ts (hamiltonian n I vac)); [ring|]. apply ext_state; intros D. rewrite (pmul_ok _ _ _ _ _ _ _ _ _ th_apart), (ps_exps2 d I T0 [] 1 v) by lia. now rewrite (ps_hno d I T0 n [] En En' [] pt_syms), dpow1.
  - exact HE.
  - cbn [forallb]. now rewrite B2.
  - apply (oktests_ext ext _ 8 40); [exact B1|lia|exact th_within|exact th_okterm].
  - apply (apart_within 0 6 8 40); [lia|eapply bra_within; eassumption|exact th_within].
Qed.
Local Open Scope nat_scope.
Definition pt_f_aaa : ex := (EAdd (EAdd (EAdd (EAdd (EAdd (EAdd (EAdd (EAdd (EMul (ET 2 [1; 2; 4; 5]) (ET 11 [0; 3])) (EOpp (EMul (ET 2 [1; 2; 3; 5]) (ET 11 [0; 4])))) (EMul (ET 2 [1; 2; 3; 4]) (ET 11 [0; 5]))) (EOpp (EMul (ET 2 [0; 2; 4; 5]) (ET 11 [1; 3])))) (EMul (ET 2 [0; 2; 3; 5]) (ET 11 [1; 4]))) (EOpp (EMul (ET 2 [0; 2; 3; 4]) (ET 11 [1; 5])))) (EMul (ET 2 [0; 1; 4; 5]) (ET 11 [2; 3]))) (EOpp (EMul (ET 2 [0; 1; 3; 5]) (ET 11 [2; 4])))) (EMul (ET 2 [0; 1; 3; 4]) (ET 11 [2; 5]))).
Definition pt_g_aaa : ex := EAdd (k_pt_M_aaa 6 0 1 2 3 4 5) pt_f_aaa.
Lemma pt_k1_aaa : fock_fast pt_tab sdt_ext_aaa (pt_ht sdt_bra_aaa) pt_g_aaa = true. Proof. vm_compute. reflexivity. Qed.
Lemma pt_k2_aaa : fock_fast pt_tab sdt_ext_aaa (pt_th sdt_bra_aaa) pt_f_aaa = true. Proof. vm_compute. reflexivity. Qed.
Lemma pt_comm_aaa a b c i j k : (a < nua d)%nat -> (b < nua d)%nat -> (c < nua d)%nat -> (i < noa d)%nat -> (j < noa d)%nat -> (k < noa d)%nat ->
  (str [(true, oa i); (true, oa j); (true, oa k); (false, va d c); (false, va d b); (false, va d a)] (hamiltonian n I (Ts vac)) ref - str [(true, oa i); (true, oa j); (true, oa k); (false, va d c); (false, va d b); (false, va d a)] (Ts (hamiltonian n I vac)) ref = pt_M_aaa d H T a b c i j k)%R.
Proof.
  intros Ha Hb Hc Hi Hj Hk. set (v := venv [a; b; c; i; j; k]).
  assert (HE : ext_ok (fdim d) sdt_ext_aaa v) by (unfold v; extv).
  change (bra sdt_bra_aaa v (hamiltonian n I (Ts vac)) - bra sdt_bra_aaa v (Ts (hamiltonian n I vac)) = pt_M_aaa d H T a b c i j k)%R.
  rewrite <- (pt_ht_ok sdt_ext_aaa sdt_bra_aaa v HE sdt_bk_aaa), <- (pt_th_ok sdt_ext_aaa sdt_bra_aaa v HE sdt_bk_aaa).
  rewrite (fock_fast_sound (noa d) (nob d) (fdim d) ten fock_gens 66 pt_tab sdt_ext_aaa _ pt_g_aaa v eq_refl eq_refl pt_htab pt_syms0 HE pt_k1_aaa).
  rewrite (fock_fast_sound (noa d) (nob d) (fdim d) ten fock_gens 66 pt_tab sdt_ext_aaa _ pt_f_aaa v eq_refl eq_refl pt_htab pt_syms0 HE pt_k2_aaa).
  change (dn pt_g_aaa v) with (pt_M_aaa d H T a b c i j k + dn pt_f_aaa v)%R. ring.
Qed.
Definition pt_f_aab : ex := (EAdd (EAdd (EAdd (EAdd (EMul (ET 3 [1; 2; 4; 5]) (ET 11 [0; 3])) (EOpp (EMul (ET 3 [1; 2; 3; 5]) (ET 11 [0; 4])))) (EOpp (EMul (ET 3 [0; 2; 4; 5]) (ET 11 [1; 3])))) (EMul (ET 3 [0; 2; 3; 5]) (ET 11 [1; 4]))) (EMul (ET 2 [0; 1; 3; 4]) (ET 15 [2; 5]))).
Definition pt_g_aab : ex := EAdd (k_pt_M_aab 6 0 1 2 3 4 5) pt_f_aab.
Lemma pt_k1_aab : fock_fast pt_tab sdt_ext_aab (pt_ht sdt_bra_aab) pt_g_aab = true. Proof. vm_compute. reflexivity. Qed.
Lemma pt_k2_aab : fock_fast pt_tab sdt_ext_aab (pt_th sdt_bra_aab) pt_f_aab = true. Proof. vm_compute. reflexivity. Qed.
Lemma pt_comm_aab a b c i j k : (a < nua d)%nat -> (b < nua d)%nat -> (c < nub d)%nat -> (i < noa d)%nat -> (j < noa d)%nat -> (k < nob d)%nat ->
  (str [(true, oa i); (true, oa j); (true, ob k); (false, vb d c); (false, va d b); (false, va d a)] (hamiltonian n I (Ts vac)) ref - str [(true, oa i); (true, oa j); (true, ob k); (false, vb d c); (false, va d b); (false, va d a)] (Ts (hamiltonian n I vac)) ref = pt_M_aab d H T a b c i j k)%R.
Proof.
  intros Ha Hb Hc Hi Hj Hk. set (v := venv [a; b; c; i; j; k]).
  assert (HE : ext_ok (fdim d) sdt_ext_aab v) by (unfold v; extv).
  change (bra sdt_bra_aab v (hamiltonian n I (Ts vac)) - bra sdt_bra_aab v (Ts (hamiltonian n I vac)) = pt_M_aab d H T a b c i j k)%R.
  rewrite <- (pt_ht_ok sdt_ext_aab sdt_bra_aab v HE sdt_bk_aab), <- (pt_th_ok sdt_ext_aab sdt_bra_aab v HE sdt_bk_aab).
  rewrite (fock_fast_sound (noa d) (nob d) (fdim d) ten fock_gens 66 pt_tab sdt_ext_aab _ pt_g_aab v eq_refl eq_refl pt_htab pt_syms0 HE pt_k1_aab).
  rewrite (fock_fast_sound (noa d) (nob d) (fdim d) ten fock_gens 66 pt_tab sdt_ext_aab _ pt_f_aab v eq_refl eq_refl pt_htab pt_syms0 HE pt_k2_aab).
  change (dn pt_g_aab v) with (pt_M_aab d H T a b c i j k + dn pt_f_aab v)%R. ring.
Qed.
Definition pt_f_abb : ex := (EAdd (EAdd (EAdd (EAdd (EMul (ET 4 [1; 2; 4; 5]) (ET 11 [0; 3])) (EMul (ET 3 [0; 2; 3; 5]) (ET 15 [1; 4]))) (EOpp (EMul (ET 3 [0; 2; 3; 4]) (ET 15 [1; 5])))) (EOpp (EMul (ET 3 [0; 1; 3; 5]) (ET 15 [2; 4])))) (EMul (ET 3 [0; 1; 3; 4]) (ET 15 [2; 5]))).
Definition pt_g_abb : ex := EAdd (k_pt_M_abb 6 0 1 2 3 4 5) pt_f_abb.
Lemma pt_k1_abb : fock_fast pt_tab sdt_ext_abb (pt_ht sdt_bra_abb) pt_g_abb = true. Proof. vm_compute. reflexivity. Qed.
Lemma pt_k2_abb : fock_fast pt_tab sdt_ext_abb (pt_th sdt_bra_abb) pt_f_abb = true. Proof. vm_compute. reflexivity. Qed.
Lemma pt_comm_abb a b c i j k : (a < nua d)%nat -> (b < nub d)%nat -> (c < nub d)%nat -> (i < noa d)%nat -> (j < nob d)%nat -> (k < nob d)%nat ->
  (str [(true, oa i); (true, ob j); (true, ob k); (false, vb d c); (false, vb d b); (false, va d a)] (hamiltonian n I (Ts vac)) ref - str [(true, oa i); (true, ob j); (true, ob k); (false, vb d c); (false, vb d b); (false, va d a)] (Ts (hamiltonian n I vac)) ref = pt_M_abb d H T a b c i j k)%R.
Proof.
  intros Ha Hb Hc Hi Hj Hk. set (v := venv [a; b; c; i; j; k]).
  assert (HE : ext_ok (fdim d) sdt_ext_abb v) by (unfold v; extv).
  change (bra sdt_bra_abb v (hamiltonian n I (Ts vac)) - bra sdt_bra_abb v (Ts (hamiltonian n I vac)) = pt_M_abb d H T a b c i j k)%R.
  rewrite <- (pt_ht_ok sdt_ext_abb sdt_bra_abb v HE sdt_bk_abb), <- (pt_th_ok sdt_ext_abb sdt_bra_abb v HE sdt_bk_abb).
  rewrite (fock_fast_sound (noa d) (nob d) (fdim d) ten fock_gens 66 pt_tab sdt_ext_abb _ pt_g_abb v eq_refl eq_refl pt_htab pt_syms0 HE pt_k1_abb).
  rewrite (fock_fast_sound (noa d) (nob d) (fdim d) ten fock_gens 66 pt_tab sdt_ext_abb _ pt_f_abb v eq_refl eq_refl pt_htab pt_syms0 HE pt_k2_abb).
  change (dn pt_g_abb v) with (pt_M_abb d H T a b c i j k + dn pt_f_abb v)%R. ring.
Qed.
Definition pt_f_bbb : ex := (EAdd (EAdd (EAdd (EAdd (EAdd (EAdd (EAdd (EAdd (EMul (ET 4 [1; 2; 4; 5]) (ET 15 [0; 3])) (EOpp (EMul (ET 4 [1; 2; 3; 5]) (ET 15 [0; 4])))) (EMul (ET 4 [1; 2; 3; 4]) (ET 15 [0; 5]))) (EOpp (EMul (ET 4 [0; 2; 4; 5]) (ET 15 [1; 3])))) (EMul (ET 4 [0; 2; 3; 5]) (ET 15 [1; 4]))) (EOpp (EMul (ET 4 [0; 2; 3; 4]) (ET 15 [1; 5])))) (EMul (ET 4 [0; 1; 4; 5]) (ET 15 [2; 3]))) (EOpp (EMul (ET 4 [0; 1; 3; 5]) (ET 15 [2; 4])))) (EMul (ET 4 [0; 1; 3; 4]) (ET 15 [2; 5]))).
Definition pt_g_bbb : ex := EAdd (k_pt_M_bbb 6 0 1 2 3 4 5) pt_f_bbb.
Lemma pt_k1_bbb : fock_fast pt_tab sdt_ext_bbb (pt_ht sdt_bra_bbb) pt_g_bbb = true. Proof. vm_compute. reflexivity. Qed.
Lemma pt_k2_bbb : fock_fast pt_tab sdt_ext_bbb (pt_th sdt_bra_bbb) pt_f_bbb = true. Proof. vm_compute. reflexivity. Qed.
Lemma pt_comm_bbb a b c i j k : (a < nub d)%nat -> (b < nub d)%nat -> (c < nub d)%nat -> (i < nob d)%nat -> (j < nob d)%nat -> (k < nob d)%nat ->
  (str [(true, ob i); (true, ob j); (true, ob k); (false, vb d c); (false, vb d b); (false, vb d a)] (hamiltonian n I (Ts vac)) ref - str [(true, ob i); (true, ob j); (true, ob k); (false, vb d c); (false, vb d b); (false, vb d a)] (Ts (hamiltonian n I vac)) ref = pt_M_bbb d H T a b c i j k)%R.
Proof.
  intros Ha Hb Hc Hi Hj Hk. set (v := venv [a; b; c; i; j; k]).
  assert (HE : ext_ok (fdim d) sdt_ext_bbb v) by (unfold v; extv).
  change (bra sdt_bra_bbb v (hamiltonian n I (Ts vac)) - bra sdt_bra_bbb v (Ts (hamiltonian n I vac)) = pt_M_bbb d H T a b c i j k)%R.
  rewrite <- (pt_ht_ok sdt_ext_bbb sdt_bra_bbb v HE sdt_bk_bbb), <- (pt_th_ok sdt_ext_bbb sdt_bra_bbb v HE sdt_bk_bbb).
  rewrite (fock_fast_sound (noa d) (nob d) (fdim d) ten fock_gens 66 pt_tab sdt_ext_bbb _ pt_g_bbb v eq_refl eq_refl pt_htab pt_syms0 HE pt_k1_bbb).
  rewrite (fock_fast_sound (noa d) (nob d) (fdim d) ten fock_gens 66 pt_tab sdt_ext_bbb _ pt_f_bbb v eq_refl eq_refl pt_htab pt_syms0 HE pt_k2_bbb).
  change (dn pt_g_bbb v) with (pt_M_bbb d H T a b c i j k + dn pt_f_bbb v)%R. ring.
Qed.
End F.
