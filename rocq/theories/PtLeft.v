(** Generated by tools/gen_ccsdpt.py: the left states of CCSD(T) against those of CR-CC(2,3) at T = 0 (proof support). *)
From Coq Require Import Reals Arith NArith List Bool Lia Lra QArith Qreals ZArith FunctionalExtensionality.
From Verif Require Import RSum IntegralsModel TensorObjs TensorAlg TensorSpec FockSpec FockArrays FockCcSpec FockTerms FockHam FockExp FockLevel FockCheck FockState FockNear FockProj FockSector FockSectorTools FockSector3 CcsdModel CcsdUpdate CcsdProps FockDress FockShift FockTools3 SdtFock CrccModel CrccReify CrccPoly PtModel PtSpec.
Import ListNotations.
Local Open Scope nat_scope.
Definition w_pt_X3aaa (z a b c i j k : nat) : ex := (EAdd (EAdd (EAdd (EAdd (EAdd (EScale (-1) 2 (ESum (0 + z) 0 (EMul (ET 25 [a; (0 + z); i; j]) (ET 68 [b; c; (0 + z); k])))) (EScale (1) 2 (ESum (0 + z) 0 (EMul (ET 25 [a; (0 + z); k; j]) (ET 68 [b; c; (0 + z); i]))))) (EScale (1) 2 (ESum (0 + z) 0 (EMul (ET 25 [a; (0 + z); i; k]) (ET 68 [b; c; (0 + z); j]))))) (EScale (1) 2 (ESum (0 + z) 1 (EMul (ET 30 [a; b; i; (0 + z)]) (ET 68 [(0 + z); c; j; k]))))) (EScale (-1) 2 (ESum (0 + z) 1 (EMul (ET 30 [a; b; j; (0 + z)]) (ET 68 [(0 + z); c; i; k]))))) (EScale (-1) 2 (ESum (0 + z) 1 (EMul (ET 30 [a; b; k; (0 + z)]) (ET 68 [(0 + z); c; j; i]))))).
Definition w_pt_M_aaa (z a b c i j k : nat) : ex := (ESub (ESub (ESub (EAdd (EAdd (w_pt_X3aaa (0 + z) a b c i j k) (w_pt_X3aaa (0 + z) b c a i j k)) (w_pt_X3aaa (0 + z) c a b i j k)) (w_pt_X3aaa (0 + z) a c b i j k)) (w_pt_X3aaa (0 + z) b a c i j k)) (w_pt_X3aaa (0 + z) c b a i j k)).
Definition w_pt_S_aaa (z a b c i j k : nat) : ex := (EAdd (EAdd (EAdd (EAdd (ESub (ESub (ESub (ESub (EAdd (EAdd (EAdd (EAdd (EAdd (ESub (ESub (ESub (ESub (EMul (ET 66 [c; k]) (ET 20 [i; j; a; b])) (EMul (ET 66 [a; k]) (ET 20 [i; j; c; b]))) (EMul (ET 66 [b; k]) (ET 20 [i; j; a; c]))) (EMul (ET 66 [c; i]) (ET 20 [k; j; a; b]))) (EMul (ET 66 [c; j]) (ET 20 [i; k; a; b]))) (EMul (ET 66 [a; i]) (ET 20 [k; j; c; b]))) (EMul (ET 66 [b; i]) (ET 20 [k; j; a; c]))) (EMul (ET 66 [a; j]) (ET 20 [i; k; c; b]))) (EMul (ET 66 [b; j]) (ET 20 [i; k; a; c]))) (EMul (ET 10 [k; c]) (ET 68 [a; b; i; j]))) (EMul (ET 10 [k; a]) (ET 68 [c; b; i; j]))) (EMul (ET 10 [k; b]) (ET 68 [a; c; i; j]))) (EMul (ET 10 [i; c]) (ET 68 [a; b; k; j]))) (EMul (ET 10 [j; c]) (ET 68 [a; b; i; k]))) (EMul (ET 10 [i; a]) (ET 68 [c; b; k; j]))) (EMul (ET 10 [i; b]) (ET 68 [a; c; k; j]))) (EMul (ET 10 [j; a]) (ET 68 [c; b; i; k]))) (EMul (ET 10 [j; b]) (ET 68 [a; c; i; k]))).
Definition w_pt_L_aaa (z a b c i j k : nat) : ex := (EAdd (w_pt_M_aaa (0 + z) a b c i j k) (w_pt_S_aaa (0 + z) a b c i j k)).
Definition w_pt_X3aab (z a b c i j k : nat) : ex := (EAdd (EAdd (EAdd (EAdd (EAdd (EAdd (EAdd (EAdd (EAdd (EScale (1) 1 (ESum (0 + z) 1 (EMul (ET 68 [a; (0 + z); i; j]) (ET 47 [b; c; (0 + z); k])))) (EScale (1) 2 (ESum (0 + z) 0 (EMul (ET 68 [a; b; (0 + z); i]) (ET 37 [(0 + z); c; j; k]))))) (EScale (-1) 2 (ESum (0 + z) 0 (EMul (ET 68 [a; b; (0 + z); j]) (ET 37 [(0 + z); c; i; k]))))) (EScale (1) 1 (ESum (0 + z) 3 (EMul (ET 69 [a; (0 + z); i; k]) (ET 46 [b; c; j; (0 + z)]))))) (EScale (-1) 1 (ESum (0 + z) 3 (EMul (ET 69 [a; (0 + z); j; k]) (ET 46 [b; c; i; (0 + z)]))))) (EScale (-1) 1 (ESum (0 + z) 2 (EMul (ET 41 [a; (0 + z); i; k]) (ET 69 [b; c; j; (0 + z)]))))) (EScale (1) 1 (ESum (0 + z) 2 (EMul (ET 41 [a; (0 + z); j; k]) (ET 69 [b; c; i; (0 + z)]))))) (EScale (1) 2 (ESum (0 + z) 1 (EMul (ET 30 [a; b; i; (0 + z)]) (ET 69 [(0 + z); c; j; k]))))) (EScale (-1) 2 (ESum (0 + z) 1 (EMul (ET 30 [a; b; j; (0 + z)]) (ET 69 [(0 + z); c; i; k]))))) (EScale (-1) 1 (ESum (0 + z) 0 (EMul (ET 25 [a; (0 + z); i; j]) (ET 69 [b; c; (0 + z); k]))))).
Definition w_pt_M_aab (z a b c i j k : nat) : ex := (ESub (w_pt_X3aab (0 + z) a b c i j k) (w_pt_X3aab (0 + z) b a c i j k)).
Definition w_pt_S_aab (z a b c i j k : nat) : ex := (EAdd (EAdd (ESub (ESub (EAdd (EAdd (EAdd (ESub (ESub (EMul (ET 66 [a; i]) (ET 36 [j; k; b; c])) (EMul (ET 66 [a; j]) (ET 36 [i; k; b; c]))) (EMul (ET 66 [b; i]) (ET 36 [j; k; a; c]))) (EMul (ET 66 [b; j]) (ET 36 [i; k; a; c]))) (EMul (ET 67 [c; k]) (ET 20 [i; j; a; b]))) (EMul (ET 69 [b; c; j; k]) (ET 10 [i; a]))) (EMul (ET 69 [b; c; i; k]) (ET 10 [j; a]))) (EMul (ET 69 [a; c; j; k]) (ET 10 [i; b]))) (EMul (ET 69 [a; c; i; k]) (ET 10 [j; b]))) (EMul (ET 68 [a; b; i; j]) (ET 14 [k; c]))).
Definition w_pt_L_aab (z a b c i j k : nat) : ex := (EAdd (w_pt_M_aab (0 + z) a b c i j k) (w_pt_S_aab (0 + z) a b c i j k)).
Definition w_pt_X3abb (z a b c i j k : nat) : ex := (EAdd (EAdd (EAdd (EAdd (EAdd (EAdd (EAdd (EAdd (EAdd (EScale (1) 1 (ESum (0 + z) 3 (EMul (ET 46 [a; b; i; (0 + z)]) (ET 70 [(0 + z); c; j; k])))) (EScale (-1) 2 (ESum (0 + z) 2 (EMul (ET 41 [a; (0 + z); i; j]) (ET 70 [b; c; (0 + z); k]))))) (EScale (1) 2 (ESum (0 + z) 2 (EMul (ET 41 [a; (0 + z); i; k]) (ET 70 [b; c; (0 + z); j]))))) (EScale (1) 2 (ESum (0 + z) 3 (EMul (ET 69 [a; (0 + z); i; j]) (ET 62 [c; b; k; (0 + z)]))))) (EScale (-1) 2 (ESum (0 + z) 3 (EMul (ET 69 [a; (0 + z); i; k]) (ET 62 [c; b; j; (0 + z)]))))) (EScale (-1) 1 (ESum (0 + z) 2 (EMul (ET 69 [a; b; i; (0 + z)]) (ET 57 [c; (0 + z); k; j]))))) (EScale (1) 1 (ESum (0 + z) 1 (EMul (ET 47 [a; b; (0 + z); j]) (ET 69 [(0 + z); c; i; k]))))) (EScale (-1) 1 (ESum (0 + z) 1 (EMul (ET 47 [a; b; (0 + z); k]) (ET 69 [(0 + z); c; i; j]))))) (EScale (-1) 1 (ESum (0 + z) 0 (EMul (ET 69 [a; b; (0 + z); j]) (ET 37 [(0 + z); c; i; k]))))) (EScale (1) 1 (ESum (0 + z) 0 (EMul (ET 69 [a; b; (0 + z); k]) (ET 37 [(0 + z); c; i; j]))))).
Definition w_pt_M_abb (z a b c i j k : nat) : ex := (ESub (w_pt_X3abb (0 + z) a b c i j k) (w_pt_X3abb (0 + z) a c b i j k)).
Definition w_pt_S_abb (z a b c i j k : nat) : ex := (EAdd (EAdd (ESub (ESub (EAdd (EAdd (EAdd (ESub (ESub (EMul (ET 67 [c; k]) (ET 36 [i; j; a; b])) (EMul (ET 67 [b; k]) (ET 36 [i; j; a; c]))) (EMul (ET 67 [c; j]) (ET 36 [i; k; a; b]))) (EMul (ET 67 [b; j]) (ET 36 [i; k; a; c]))) (EMul (ET 66 [a; i]) (ET 52 [j; k; b; c]))) (EMul (ET 14 [k; c]) (ET 69 [a; b; i; j]))) (EMul (ET 14 [k; b]) (ET 69 [a; c; i; j]))) (EMul (ET 14 [j; c]) (ET 69 [a; b; i; k]))) (EMul (ET 14 [j; b]) (ET 69 [a; c; i; k]))) (EMul (ET 10 [i; a]) (ET 70 [b; c; j; k]))).
Definition w_pt_L_abb (z a b c i j k : nat) : ex := (EAdd (w_pt_M_abb (0 + z) a b c i j k) (w_pt_S_abb (0 + z) a b c i j k)).
Definition w_pt_X3bbb (z a b c i j k : nat) : ex := (EAdd (EAdd (EAdd (EAdd (EAdd (EScale (-1) 2 (ESum (0 + z) 2 (EMul (ET 57 [a; (0 + z); i; j]) (ET 70 [b; c; (0 + z); k])))) (EScale (1) 2 (ESum (0 + z) 2 (EMul (ET 57 [a; (0 + z); k; j]) (ET 70 [b; c; (0 + z); i]))))) (EScale (1) 2 (ESum (0 + z) 2 (EMul (ET 57 [a; (0 + z); i; k]) (ET 70 [b; c; (0 + z); j]))))) (EScale (1) 2 (ESum (0 + z) 3 (EMul (ET 62 [a; b; i; (0 + z)]) (ET 70 [(0 + z); c; j; k]))))) (EScale (-1) 2 (ESum (0 + z) 3 (EMul (ET 62 [a; b; j; (0 + z)]) (ET 70 [(0 + z); c; i; k]))))) (EScale (-1) 2 (ESum (0 + z) 3 (EMul (ET 62 [a; b; k; (0 + z)]) (ET 70 [(0 + z); c; j; i]))))).
Definition w_pt_M_bbb (z a b c i j k : nat) : ex := (ESub (ESub (ESub (EAdd (EAdd (w_pt_X3bbb (0 + z) a b c i j k) (w_pt_X3bbb (0 + z) b c a i j k)) (w_pt_X3bbb (0 + z) c a b i j k)) (w_pt_X3bbb (0 + z) a c b i j k)) (w_pt_X3bbb (0 + z) b a c i j k)) (w_pt_X3bbb (0 + z) c b a i j k)).
Definition w_pt_S_bbb (z a b c i j k : nat) : ex := (EAdd (EAdd (EAdd (EAdd (ESub (ESub (ESub (ESub (EAdd (EAdd (EAdd (EAdd (EAdd (ESub (ESub (ESub (ESub (EMul (ET 67 [c; k]) (ET 52 [i; j; a; b])) (EMul (ET 67 [a; k]) (ET 52 [i; j; c; b]))) (EMul (ET 67 [b; k]) (ET 52 [i; j; a; c]))) (EMul (ET 67 [c; i]) (ET 52 [k; j; a; b]))) (EMul (ET 67 [c; j]) (ET 52 [i; k; a; b]))) (EMul (ET 67 [a; i]) (ET 52 [k; j; c; b]))) (EMul (ET 67 [b; i]) (ET 52 [k; j; a; c]))) (EMul (ET 67 [a; j]) (ET 52 [i; k; c; b]))) (EMul (ET 67 [b; j]) (ET 52 [i; k; a; c]))) (EMul (ET 14 [k; c]) (ET 70 [a; b; i; j]))) (EMul (ET 14 [k; a]) (ET 70 [c; b; i; j]))) (EMul (ET 14 [k; b]) (ET 70 [a; c; i; j]))) (EMul (ET 14 [i; c]) (ET 70 [a; b; k; j]))) (EMul (ET 14 [j; c]) (ET 70 [a; b; i; k]))) (EMul (ET 14 [i; a]) (ET 70 [c; b; k; j]))) (EMul (ET 14 [i; b]) (ET 70 [a; c; k; j]))) (EMul (ET 14 [j; a]) (ET 70 [c; b; i; k]))) (EMul (ET 14 [j; b]) (ET 70 [a; c; i; k]))).
Definition w_pt_L_bbb (z a b c i j k : nat) : ex := (EAdd (w_pt_M_bbb (0 + z) a b c i j k) (w_pt_S_bbb (0 + z) a b c i j k)).
Definition ptl_own : list (nat * (nat * list nat * bool)) := [(68, (68, [0; 1; 3; 2], false)); (68, (68, [1; 0; 2; 3], false)); (70, (70, [0; 1; 3; 2], false)); (70, (70, [1; 0; 2; 3], false)); (25, (19, [2; 3; 0; 1], true)); (30, (24, [2; 3; 0; 1], true)); (41, (35, [2; 3; 0; 1], true)); (37, (34, [2; 3; 0; 1], true)); (46, (40, [2; 3; 0; 1], true)); (47, (44, [2; 3; 0; 1], true)); (57, (51, [2; 3; 0; 1], true)); (62, (56, [2; 3; 0; 1], true))].
Definition ptl_gens := fock_gens ++ ptl_own.
Definition ptl_tab := Eval vm_compute in symtab ptl_gens 71.
Lemma ptl_htab : ptl_tab = symtab ptl_gens 71. Proof. vm_compute. reflexivity. Qed.
Definition no_t (k : nat) : bool := k <? 9.
Definition no_tl (k : nat) : bool := (k <? 9) || (66 <=? k).
Local Open Scope R_scope.
Section P.
Variables (d : dims) (I : integrals) (L : amps) (H0 : ints).
Hypothesis HI : exchangeable I.
Hypothesis HS : symmetric_repulsion I.
Hypothesis HL : antisym_amps L.
Notation H := (fock_ints (noa d) (nob d) I).
Notation LS := [ap2 (x_a L); ap2 (x_b L); ap4 (x_aa L); ap4 (x_ab L); ap4 (x_bb L)].
Notation ten := (tenv (fock_arrays H zero_amps ++ LS)).
Notation dn e v := (den (fdim d) ten e v).
Lemma tr_aa p q r s : anti_aa I p q r s = anti_aa I r s p q.
Proof. destruct HS as (S1 & _). destruct HI as (X1 & _). unfold anti_aa. now rewrite (S1 p q r s), (S1 p q s r), (X1 s r p q). Qed.
Lemma tr_bb p q r s : anti_bb I p q r s = anti_bb I r s p q.
Proof. destruct HS as (_ & _ & S3). destruct HI as (_ & X2). unfold anti_bb. now rewrite (S3 p q r s), (S3 p q s r), (X2 s r p q). Qed.
Lemma tr_ab p q r s : w_ab I p q r s = w_ab I r s p q.
Proof. apply HS. Qed.
Ltac oktr H := split; [intros ix Hx; cbn [length] in Hx; destruct ix as [|? [|? [|? [|? [|? ix]]]]]; try discriminate; cbn -[Rmult IZR]; rewrite H; cbn [sgn]; ring|cbn [In length]; intros; lia].
Lemma ptl_syms : Forall (fun g => okalt ten (fst g) (snd g)) ptl_gens.
Proof.
  apply sector_syms; [exact (fock_ints_antisym _ _ _ HI)|constructor; intros; cbn; ring|]. destruct HL as [Z0 Z1 Z2 Z3].
  apply Forall_cons; [okswap Z1|]. apply Forall_cons; [okswap Z0|]. apply Forall_cons; [okswap Z3|]. apply Forall_cons; [okswap Z2|].
  apply Forall_cons; [oktr tr_aa|]. apply Forall_cons; [oktr tr_aa|]. apply Forall_cons; [oktr tr_ab|]. apply Forall_cons; [oktr tr_ab|]. apply Forall_cons; [oktr tr_ab|]. apply Forall_cons; [oktr tr_ab|]. apply Forall_cons; [oktr tr_bb|]. apply Forall_cons; [oktr tr_bb|]. apply Forall_nil.
Qed.
Lemma ptl_st a b : same_tab ptl_tab (fun x => x) [0; 1; 2; 3]%nat a b = true -> forall v, dn a v = dn b v.
Proof. intros K v. exact (same_tab_sound (fdim d) ten ptl_gens 71 ptl_tab (fun x => x) _ a b ptl_htab (fun _ => eq_refl) ptl_syms K v). Qed.
Lemma ptl_zero k ix : no_t k = true -> ten k ix = 0.
Proof.
  destruct k as [|[|[|[|[|[|[|[|[|k]]]]]]]]]; intros E; try discriminate E; unfold tenv; cbn [nth app fock_arrays zero_amps x_a x_b x_aa x_ab x_bb x_aaa x_aab x_abb x_bbb];
    do 7 (destruct ix as [|? ix]; [reflexivity|]); reflexivity.
Qed.
Lemma ptl_k e v : dn (killp no_t e) v = dn e v.
Proof. apply killp_ok; [apply ptl_zero|reflexivity]. Qed.
Lemma ptl_aaa a b c i j k : crcc_L_aaa d H0 (hbar_ccsd d H zero_amps) zero_amps L a b c i j k = pt_L_aaa d H L a b c i j k.
Proof.
  change (dn (k_crcc_L_aaa 10 0 1 2 3 4 5) (venv [a; b; c; i; j; k]) = dn (w_pt_L_aaa 10 0 1 2 3 4 5) (venv [a; b; c; i; j; k])). rewrite <- (ptl_k (k_crcc_L_aaa 10 0 1 2 3 4 5)). apply ptl_st. vm_compute. reflexivity.
Qed.
Lemma ptl_aab a b c i j k : crcc_L_aab d H0 (hbar_ccsd d H zero_amps) zero_amps L a b c i j k = pt_L_aab d H L a b c i j k.
Proof.
  change (dn (k_crcc_L_aab 10 0 1 2 3 4 5) (venv [a; b; c; i; j; k]) = dn (w_pt_L_aab 10 0 1 2 3 4 5) (venv [a; b; c; i; j; k])). rewrite <- (ptl_k (k_crcc_L_aab 10 0 1 2 3 4 5)). apply ptl_st. vm_compute. reflexivity.
Qed.
Lemma ptl_abb a b c i j k : crcc_L_abb d H0 (hbar_ccsd d H zero_amps) zero_amps L a b c i j k = pt_L_abb d H L a b c i j k.
Proof.
  change (dn (k_crcc_L_abb 10 0 1 2 3 4 5) (venv [a; b; c; i; j; k]) = dn (w_pt_L_abb 10 0 1 2 3 4 5) (venv [a; b; c; i; j; k])). rewrite <- (ptl_k (k_crcc_L_abb 10 0 1 2 3 4 5)). apply ptl_st. vm_compute. reflexivity.
Qed.
Lemma ptl_bbb a b c i j k : crcc_L_bbb d H0 (hbar_ccsd d H zero_amps) zero_amps L a b c i j k = pt_L_bbb d H L a b c i j k.
Proof.
  change (dn (k_crcc_L_bbb 10 0 1 2 3 4 5) (venv [a; b; c; i; j; k]) = dn (w_pt_L_bbb 10 0 1 2 3 4 5) (venv [a; b; c; i; j; k])). rewrite <- (ptl_k (k_crcc_L_bbb 10 0 1 2 3 4 5)). apply ptl_st. vm_compute. reflexivity.
Qed.
End P.
Section Z.
Variables (d : dims) (I : integrals) (H0 : ints).
Notation H := (fock_ints (noa d) (nob d) I).
Notation LS := [ap2 (x_a zero_amps); ap2 (x_b zero_amps); ap4 (x_aa zero_amps); ap4 (x_ab zero_amps); ap4 (x_bb zero_amps)].
Notation ten := (tenv (fock_arrays H zero_amps ++ LS)).
Lemma ptz_zero k ix : no_tl k = true -> ten k ix = 0.
Proof.
  intros E. destruct (Nat.ltb k 9) eqn:L.
  - exact (ptl_zero d I zero_amps k ix L).
  - unfold no_tl in E. rewrite L in E. cbn [orb] in E. apply Nat.leb_le in E. replace k with (66 + (k - 66))%nat by lia. set (j := (k - 66)%nat). clearbody j.
    unfold tenv. cbn [nth app fock_arrays Nat.add zero_amps x_a x_b x_aa x_ab x_bb]. do 5 (destruct j as [|j]; [do 5 (destruct ix as [|? ix]; [reflexivity|]); reflexivity|]). now destruct j.
Qed.
Lemma ptz_aaa a b c i j k : crcc_L_aaa d H0 (hbar_ccsd d H zero_amps) zero_amps zero_amps a b c i j k = 0.
Proof.
  change (den (fdim d) ten (k_crcc_L_aaa 10 0 1 2 3 4 5) (venv [a; b; c; i; j; k]) = 0). rewrite <- (killp_ok (fdim d) ten ten no_tl) by (apply ptz_zero || reflexivity). apply isz_ok. vm_compute. reflexivity.
Qed.
Lemma ptz_aab a b c i j k : crcc_L_aab d H0 (hbar_ccsd d H zero_amps) zero_amps zero_amps a b c i j k = 0.
Proof.
  change (den (fdim d) ten (k_crcc_L_aab 10 0 1 2 3 4 5) (venv [a; b; c; i; j; k]) = 0). rewrite <- (killp_ok (fdim d) ten ten no_tl) by (apply ptz_zero || reflexivity). apply isz_ok. vm_compute. reflexivity.
Qed.
Lemma ptz_abb a b c i j k : crcc_L_abb d H0 (hbar_ccsd d H zero_amps) zero_amps zero_amps a b c i j k = 0.
Proof.
  change (den (fdim d) ten (k_crcc_L_abb 10 0 1 2 3 4 5) (venv [a; b; c; i; j; k]) = 0). rewrite <- (killp_ok (fdim d) ten ten no_tl) by (apply ptz_zero || reflexivity). apply isz_ok. vm_compute. reflexivity.
Qed.
Lemma ptz_bbb a b c i j k : crcc_L_bbb d H0 (hbar_ccsd d H zero_amps) zero_amps zero_amps a b c i j k = 0.
Proof.
  change (den (fdim d) ten (k_crcc_L_bbb 10 0 1 2 3 4 5) (venv [a; b; c; i; j; k]) = 0). rewrite <- (killp_ok (fdim d) ten ten no_tl) by (apply ptz_zero || reflexivity). apply isz_ok. vm_compute. reflexivity.
Qed.
End Z.
