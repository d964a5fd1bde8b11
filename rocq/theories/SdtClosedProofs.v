(** C90: the closed-shell shortcut (flag_RHF) of CCSDT, of its similarity-transformed Hamiltonian and of the right EOMCCSDT vector gives the numbers of the
    unrestricted program. *)
From Coq Require Import Reals Arith List Bool Lra Lia FunctionalExtensionality.
From Verif Require Import RSum IntegralsModel TensorObjs TensorAlg TensorClosed TensorSpec CcsdModel CcsdUpdate CcsdProps IntsFix SdtSpec SdtLoops CcsdtModel CcsdtUpdate CcsdtProps EomProps RhfProps
  EomsdtModel EomsdtReify EomsdtProofs LeftSdtProps FockCcSpec FockSpec FockProj SdtClosedModel SdtClosedReify.
Import ListNotations.
Local Open Scope R_scope.

(** Singles, doubles and triples of a closed-shell singlet: antisymmetric within each spin, the same when the two spins are exchanged *)
Record singlet3 (T : amps) : Prop := { s3_sd : singlet T; s3_anti : triples_anti T; s3_spin : closed_triples T }.

Notation scden d H T Y := (den (denv [noa d; nua d; nob d; nub d]) (tenv (sc_arrays d H T Y))).
Lemma sc_syms d H T Y : antisym_ints H -> closed_ints H -> antisym_amps T -> antisym_amps Y -> triples_anti T -> triples_anti Y -> closed_amps T -> closed_amps Y -> closed_triples T -> closed_triples Y ->
  Forall (fun g => okalt (tenv (sc_arrays d H T Y)) (fst g) (snd g)) sc_gens.
Proof.
  intros HH CH HT HY HT3 HY3 CT CY [? ?] [? ?]. destruct HT3 as (?&?&?&?&?&?&?&?&?&?&?&?). destruct HY3 as (?&?&?&?&?&?&?&?&?&?&?&?). sym_all.
Qed.
Lemma sc_same d H T Y : closed_shell d H -> singlet3 T -> singlet3 Y -> forall e1 e2 v,
  same_tab sc_tab dfold [0; 1]%nat e1 e2 = true -> scden d H T Y e1 v = scden d H T Y e2 v.
Proof.
  intros [En Em HH CH] [[HT CT] HT3 CT3] [[HY CY] HY3 CY3] e1 e2 v E. apply (same_tab_sound _ _ sc_gens (length (sc_arrays d H T Y)) sc_tab dfold [0; 1]%nat);
    [vm_compute; reflexivity|now apply dfold_ok|now apply sc_syms|exact E].
Qed.
Lemma fun6 (f g : mat6) : (forall a b c i j k, f a b c i j k = g a b c i j k) -> f = g.
Proof. intros E. apply functional_extensionality; intros a; apply functional_extensionality; intros b; apply functional_extensionality; intros c;
  apply functional_extensionality; intros i; apply functional_extensionality; intros j; apply functional_extensionality; intros k; apply E. Qed.
Definition e4t (X : nat -> nat -> nat -> nat -> nat -> ex) (z a b i j : nat) : ex := EAdd (ESub (ESub (X z a b i j) (X z b a i j)) (X z a b j i)) (X z b a j i).
Definition e3b (X : nat -> nat -> nat -> nat -> nat -> nat -> nat -> ex) (z a b c i j k : nat) : ex := EAdd (ESub (ESub (X z a b c i j k) (X z b a c i j k)) (X z a b c j i k)) (X z b a c j i k).
Definition e3c (X : nat -> nat -> nat -> nat -> nat -> nat -> nat -> ex) (z a b c i j k : nat) : ex := EAdd (ESub (ESub (X z a b c i j k) (X z a c b i j k)) (X z a b c i k j)) (X z a c b i k j).
(** Antisymmetrised in the first and third particle and hole only *)
Definition e3s (X : nat -> nat -> nat -> nat -> nat -> nat -> nat -> ex) (z a b c i j k : nat) : ex := EAdd (ESub (ESub (X z a b c i j k) (X z c b a i j k)) (X z a b c k j i)) (X z c b a k j i).
Definition outer3 (X : mat6) : mat6 := fun a b c i j k => X a b c i j k - X c b a i j k - X a b c k j i + X c b a k j i.
Lemma outer3_comb X a b c i j k : comb3 X a b c i j k = 1 / 4 * comb3 (outer3 X) a b c i j k.
Proof. unfold comb3, outer3. field. Qed.

(** * The transformed Hamiltonian *)
Section Hbar3.
Variables (d : dims) (H : ints) (T : amps).
Hypothesis HH : closed_shell d H.
Hypothesis HT : singlet3 T.
Lemma h3e_a_oo : rhb3_H_a_oo d H T = hb3_H_a_oo d H T. Proof. apply fun2. intros a i. apply (sc_same d H T T HH HT HT (r_rhb3_H_a_oo 2 0 1)%nat (r_hb3_H_a_oo 2 0 1)%nat (venv [a; i])); vm_compute; reflexivity. Qed.
Lemma h3e_a_ov : rhb3_H_a_ov d H T = hb3_H_a_ov d H T. Proof. apply fun2. intros a i. apply (sc_same d H T T HH HT HT (r_rhb3_H_a_ov 2 0 1)%nat (r_hb3_H_a_ov 2 0 1)%nat (venv [a; i])); vm_compute; reflexivity. Qed.
Lemma h3e_a_vv : rhb3_H_a_vv d H T = hb3_H_a_vv d H T. Proof. apply fun2. intros a i. apply (sc_same d H T T HH HT HT (r_rhb3_H_a_vv 2 0 1)%nat (r_hb3_H_a_vv 2 0 1)%nat (venv [a; i])); vm_compute; reflexivity. Qed.
Lemma h3e_b_oo : rhb3_H_b_oo d H T = hb3_H_b_oo d H T. Proof. apply fun2. intros a i. apply (sc_same d H T T HH HT HT (r_rhb3_H_b_oo 2 0 1)%nat (r_hb3_H_b_oo 2 0 1)%nat (venv [a; i])); vm_compute; reflexivity. Qed.
Lemma h3e_b_ov : rhb3_H_b_ov d H T = hb3_H_b_ov d H T. Proof. apply fun2. intros a i. apply (sc_same d H T T HH HT HT (r_rhb3_H_b_ov 2 0 1)%nat (r_hb3_H_b_ov 2 0 1)%nat (venv [a; i])); vm_compute; reflexivity. Qed.
Lemma h3e_b_vv : rhb3_H_b_vv d H T = hb3_H_b_vv d H T. Proof. apply fun2. intros a i. apply (sc_same d H T T HH HT HT (r_rhb3_H_b_vv 2 0 1)%nat (r_hb3_H_b_vv 2 0 1)%nat (venv [a; i])); vm_compute; reflexivity. Qed.
Lemma h3e_aa_oooo : rhb3_H_aa_oooo_1 d H T = hb3_H_aa_oooo_1 d H T. Proof. apply fun4. intros a b i j. apply (sc_same d H T T HH HT HT (r_rhb3_H_aa_oooo_1 4 0 1 2 3)%nat (r_hb3_H_aa_oooo_1 4 0 1 2 3)%nat (venv [a; b; i; j])); vm_compute; reflexivity. Qed.
Lemma h3e_aa_ooov : rhb3_H_aa_ooov d H T = hb3_H_aa_ooov d H T. Proof. apply fun4. intros a b i j. apply (sc_same d H T T HH HT HT (r_rhb3_H_aa_ooov 4 0 1 2 3)%nat (r_hb3_H_aa_ooov 4 0 1 2 3)%nat (venv [a; b; i; j])); vm_compute; reflexivity. Qed.
Lemma h3e_aa_vooo : rhb3_H_aa_vooo d H T = hb3_H_aa_vooo d H T. Proof. apply fun4. intros a b i j. apply (sc_same d H T T HH HT HT (r_rhb3_H_aa_vooo 4 0 1 2 3)%nat (r_hb3_H_aa_vooo 4 0 1 2 3)%nat (venv [a; b; i; j])); vm_compute; reflexivity. Qed.
Lemma h3e_aa_voov : rhb3_H_aa_voov d H T = hb3_H_aa_voov d H T. Proof. apply fun4. intros a b i j. apply (sc_same d H T T HH HT HT (r_rhb3_H_aa_voov 4 0 1 2 3)%nat (r_hb3_H_aa_voov 4 0 1 2 3)%nat (venv [a; b; i; j])); vm_compute; reflexivity. Qed.
Lemma h3e_aa_vovv : rhb3_H_aa_vovv d H T = hb3_H_aa_vovv d H T. Proof. apply fun4. intros a b i j. apply (sc_same d H T T HH HT HT (r_rhb3_H_aa_vovv 4 0 1 2 3)%nat (r_hb3_H_aa_vovv 4 0 1 2 3)%nat (venv [a; b; i; j])); vm_compute; reflexivity. Qed.
Lemma h3e_aa_vvov : rhb3_H_aa_vvov_1 d H T = hb3_H_aa_vvov_1 d H T. Proof. apply fun4. intros a b i j. apply (sc_same d H T T HH HT HT (r_rhb3_H_aa_vvov_1 4 0 1 2 3)%nat (r_hb3_H_aa_vvov_1 4 0 1 2 3)%nat (venv [a; b; i; j])); vm_compute; reflexivity. Qed.
Lemma h3e_aa_vvvv : rhb3_H_aa_vvvv_1 d H T = hb3_H_aa_vvvv_1 d H T. Proof. apply fun4. intros a b i j. apply (sc_same d H T T HH HT HT (r_rhb3_H_aa_vvvv_1 4 0 1 2 3)%nat (r_hb3_H_aa_vvvv_1 4 0 1 2 3)%nat (venv [a; b; i; j])); vm_compute; reflexivity. Qed.
Lemma h3e_ab_oooo : rhb3_H_ab_oooo d H T = hb3_H_ab_oooo d H T. Proof. apply fun4. intros a b i j. apply (sc_same d H T T HH HT HT (r_rhb3_H_ab_oooo 4 0 1 2 3)%nat (r_hb3_H_ab_oooo 4 0 1 2 3)%nat (venv [a; b; i; j])); vm_compute; reflexivity. Qed.
Lemma h3e_ab_ooov : rhb3_H_ab_ooov d H T = hb3_H_ab_ooov d H T. Proof. apply fun4. intros a b i j. apply (sc_same d H T T HH HT HT (r_rhb3_H_ab_ooov 4 0 1 2 3)%nat (r_hb3_H_ab_ooov 4 0 1 2 3)%nat (venv [a; b; i; j])); vm_compute; reflexivity. Qed.
Lemma h3e_ab_oovo : rhb3_H_ab_oovo d H T = hb3_H_ab_oovo d H T. Proof. apply fun4. intros a b i j. apply (sc_same d H T T HH HT HT (r_rhb3_H_ab_oovo 4 0 1 2 3)%nat (r_hb3_H_ab_oovo 4 0 1 2 3)%nat (venv [a; b; i; j])); vm_compute; reflexivity. Qed.
Lemma h3e_ab_ovoo : rhb3_H_ab_ovoo d H T = hb3_H_ab_ovoo d H T. Proof. apply fun4. intros a b i j. apply (sc_same d H T T HH HT HT (r_rhb3_H_ab_ovoo 4 0 1 2 3)%nat (r_hb3_H_ab_ovoo 4 0 1 2 3)%nat (venv [a; b; i; j])); vm_compute; reflexivity. Qed.
Lemma h3e_ab_ovov : rhb3_H_ab_ovov d H T = hb3_H_ab_ovov d H T. Proof. apply fun4. intros a b i j. apply (sc_same d H T T HH HT HT (r_rhb3_H_ab_ovov 4 0 1 2 3)%nat (r_hb3_H_ab_ovov 4 0 1 2 3)%nat (venv [a; b; i; j])); vm_compute; reflexivity. Qed.
Lemma h3e_ab_ovvo : rhb3_H_ab_ovvo d H T = hb3_H_ab_ovvo d H T. Proof. apply fun4. intros a b i j. apply (sc_same d H T T HH HT HT (r_rhb3_H_ab_ovvo 4 0 1 2 3)%nat (r_hb3_H_ab_ovvo 4 0 1 2 3)%nat (venv [a; b; i; j])); vm_compute; reflexivity. Qed.
Lemma h3e_ab_ovvv : rhb3_H_ab_ovvv d H T = hb3_H_ab_ovvv d H T. Proof. apply fun4. intros a b i j. apply (sc_same d H T T HH HT HT (r_rhb3_H_ab_ovvv 4 0 1 2 3)%nat (r_hb3_H_ab_ovvv 4 0 1 2 3)%nat (venv [a; b; i; j])); vm_compute; reflexivity. Qed.
Lemma h3e_ab_vooo : rhb3_H_ab_vooo d H T = hb3_H_ab_vooo d H T. Proof. apply fun4. intros a b i j. apply (sc_same d H T T HH HT HT (r_rhb3_H_ab_vooo 4 0 1 2 3)%nat (r_hb3_H_ab_vooo 4 0 1 2 3)%nat (venv [a; b; i; j])); vm_compute; reflexivity. Qed.
Lemma h3e_ab_voov : rhb3_H_ab_voov d H T = hb3_H_ab_voov d H T. Proof. apply fun4. intros a b i j. apply (sc_same d H T T HH HT HT (r_rhb3_H_ab_voov 4 0 1 2 3)%nat (r_hb3_H_ab_voov 4 0 1 2 3)%nat (venv [a; b; i; j])); vm_compute; reflexivity. Qed.
Lemma h3e_ab_vovo : rhb3_H_ab_vovo d H T = hb3_H_ab_vovo d H T. Proof. apply fun4. intros a b i j. apply (sc_same d H T T HH HT HT (r_rhb3_H_ab_vovo 4 0 1 2 3)%nat (r_hb3_H_ab_vovo 4 0 1 2 3)%nat (venv [a; b; i; j])); vm_compute; reflexivity. Qed.
Lemma h3e_ab_vovv : rhb3_H_ab_vovv d H T = hb3_H_ab_vovv d H T. Proof. apply fun4. intros a b i j. apply (sc_same d H T T HH HT HT (r_rhb3_H_ab_vovv 4 0 1 2 3)%nat (r_hb3_H_ab_vovv 4 0 1 2 3)%nat (venv [a; b; i; j])); vm_compute; reflexivity. Qed.
Lemma h3e_ab_vvov : rhb3_H_ab_vvov d H T = hb3_H_ab_vvov d H T. Proof. apply fun4. intros a b i j. apply (sc_same d H T T HH HT HT (r_rhb3_H_ab_vvov 4 0 1 2 3)%nat (r_hb3_H_ab_vvov 4 0 1 2 3)%nat (venv [a; b; i; j])); vm_compute; reflexivity. Qed.
Lemma h3e_ab_vvvo : rhb3_H_ab_vvvo d H T = hb3_H_ab_vvvo d H T. Proof. apply fun4. intros a b i j. apply (sc_same d H T T HH HT HT (r_rhb3_H_ab_vvvo 4 0 1 2 3)%nat (r_hb3_H_ab_vvvo 4 0 1 2 3)%nat (venv [a; b; i; j])); vm_compute; reflexivity. Qed.
Lemma h3e_ab_vvvv : rhb3_H_ab_vvvv d H T = hb3_H_ab_vvvv d H T. Proof. apply fun4. intros a b i j. apply (sc_same d H T T HH HT HT (r_rhb3_H_ab_vvvv 4 0 1 2 3)%nat (r_hb3_H_ab_vvvv 4 0 1 2 3)%nat (venv [a; b; i; j])); vm_compute; reflexivity. Qed.
Lemma h3e_bb_oooo : rhb3_H_aa_oooo_1 d H T = hb3_H_bb_oooo_1 d H T. Proof. apply fun4. intros a b i j. apply (sc_same d H T T HH HT HT (r_rhb3_H_aa_oooo_1 4 0 1 2 3)%nat (r_hb3_H_bb_oooo_1 4 0 1 2 3)%nat (venv [a; b; i; j])); vm_compute; reflexivity. Qed.
Lemma h3e_bb_ooov : rhb3_H_aa_ooov d H T = hb3_H_bb_ooov d H T. Proof. apply fun4. intros a b i j. apply (sc_same d H T T HH HT HT (r_rhb3_H_aa_ooov 4 0 1 2 3)%nat (r_hb3_H_bb_ooov 4 0 1 2 3)%nat (venv [a; b; i; j])); vm_compute; reflexivity. Qed.
Lemma h3e_bb_vooo : rhb3_H_aa_vooo d H T = hb3_H_bb_vooo d H T. Proof. apply fun4. intros a b i j. apply (sc_same d H T T HH HT HT (r_rhb3_H_aa_vooo 4 0 1 2 3)%nat (r_hb3_H_bb_vooo 4 0 1 2 3)%nat (venv [a; b; i; j])); vm_compute; reflexivity. Qed.
Lemma h3e_bb_voov : rhb3_H_aa_voov d H T = hb3_H_bb_voov d H T. Proof. apply fun4. intros a b i j. apply (sc_same d H T T HH HT HT (r_rhb3_H_aa_voov 4 0 1 2 3)%nat (r_hb3_H_bb_voov 4 0 1 2 3)%nat (venv [a; b; i; j])); vm_compute; reflexivity. Qed.
Lemma h3e_bb_vovv : rhb3_H_aa_vovv d H T = hb3_H_bb_vovv d H T. Proof. apply fun4. intros a b i j. apply (sc_same d H T T HH HT HT (r_rhb3_H_aa_vovv 4 0 1 2 3)%nat (r_hb3_H_bb_vovv 4 0 1 2 3)%nat (venv [a; b; i; j])); vm_compute; reflexivity. Qed.
Lemma h3e_bb_vvov : rhb3_H_aa_vvov_1 d H T = hb3_H_bb_vvov_1 d H T. Proof. apply fun4. intros a b i j. apply (sc_same d H T T HH HT HT (r_rhb3_H_aa_vvov_1 4 0 1 2 3)%nat (r_hb3_H_bb_vvov_1 4 0 1 2 3)%nat (venv [a; b; i; j])); vm_compute; reflexivity. Qed.
Lemma h3e_bb_vvvv : rhb3_H_aa_vvvv_1 d H T = hb3_H_bb_vvvv_1 d H T. Proof. apply fun4. intros a b i j. apply (sc_same d H T T HH HT HT (r_rhb3_H_aa_vvvv_1 4 0 1 2 3)%nat (r_hb3_H_bb_vvvv_1 4 0 1 2 3)%nat (venv [a; b; i; j])); vm_compute; reflexivity. Qed.
Lemma h3c_a_oo a i : hb3_H_b_oo d H T a i = hb3_H_a_oo d H T a i. Proof. apply (sc_same d H T T HH HT HT (r_hb3_H_b_oo 2 0 1)%nat (r_hb3_H_a_oo 2 0 1)%nat (venv [a; i])); vm_compute; reflexivity. Qed.
Lemma h3c_a_ov a i : hb3_H_b_ov d H T a i = hb3_H_a_ov d H T a i. Proof. apply (sc_same d H T T HH HT HT (r_hb3_H_b_ov 2 0 1)%nat (r_hb3_H_a_ov 2 0 1)%nat (venv [a; i])); vm_compute; reflexivity. Qed.
Lemma h3c_a_vv a i : hb3_H_b_vv d H T a i = hb3_H_a_vv d H T a i. Proof. apply (sc_same d H T T HH HT HT (r_hb3_H_b_vv 2 0 1)%nat (r_hb3_H_a_vv 2 0 1)%nat (venv [a; i])); vm_compute; reflexivity. Qed.
Lemma h3c_aa_oooo a b i j : hb3_H_bb_oooo_1 d H T a b i j = hb3_H_aa_oooo_1 d H T a b i j. Proof. apply (sc_same d H T T HH HT HT (r_hb3_H_bb_oooo_1 4 0 1 2 3)%nat (r_hb3_H_aa_oooo_1 4 0 1 2 3)%nat (venv [a; b; i; j])); vm_compute; reflexivity. Qed.
Lemma h3c_ab_oooo a b i j : hb3_H_ab_oooo d H T a b i j = hb3_H_ab_oooo d H T b a j i. Proof. apply (sc_same d H T T HH HT HT (r_hb3_H_ab_oooo 4 0 1 2 3)%nat (r_hb3_H_ab_oooo 4 1 0 3 2)%nat (venv [a; b; i; j])); vm_compute; reflexivity. Qed.
Lemma h3c_aa_ooov a b i j : hb3_H_bb_ooov d H T a b i j = hb3_H_aa_ooov d H T a b i j. Proof. apply (sc_same d H T T HH HT HT (r_hb3_H_bb_ooov 4 0 1 2 3)%nat (r_hb3_H_aa_ooov 4 0 1 2 3)%nat (venv [a; b; i; j])); vm_compute; reflexivity. Qed.
Lemma h3c_ab_ooov a b i j : hb3_H_ab_ooov d H T a b i j = hb3_H_ab_oovo d H T b a j i. Proof. apply (sc_same d H T T HH HT HT (r_hb3_H_ab_ooov 4 0 1 2 3)%nat (r_hb3_H_ab_oovo 4 1 0 3 2)%nat (venv [a; b; i; j])); vm_compute; reflexivity. Qed.
Lemma h3c_ab_oovo a b i j : hb3_H_ab_oovo d H T a b i j = hb3_H_ab_ooov d H T b a j i. Proof. apply (sc_same d H T T HH HT HT (r_hb3_H_ab_oovo 4 0 1 2 3)%nat (r_hb3_H_ab_ooov 4 1 0 3 2)%nat (venv [a; b; i; j])); vm_compute; reflexivity. Qed.
Lemma h3c_ab_ovoo a b i j : hb3_H_ab_ovoo d H T a b i j = hb3_H_ab_vooo d H T b a j i. Proof. apply (sc_same d H T T HH HT HT (r_hb3_H_ab_ovoo 4 0 1 2 3)%nat (r_hb3_H_ab_vooo 4 1 0 3 2)%nat (venv [a; b; i; j])); vm_compute; reflexivity. Qed.
Lemma h3c_ab_ovov a b i j : hb3_H_ab_ovov d H T a b i j = hb3_H_ab_vovo d H T b a j i. Proof. apply (sc_same d H T T HH HT HT (r_hb3_H_ab_ovov 4 0 1 2 3)%nat (r_hb3_H_ab_vovo 4 1 0 3 2)%nat (venv [a; b; i; j])); vm_compute; reflexivity. Qed.
Lemma h3c_ab_ovvo a b i j : hb3_H_ab_ovvo d H T a b i j = hb3_H_ab_voov d H T b a j i. Proof. apply (sc_same d H T T HH HT HT (r_hb3_H_ab_ovvo 4 0 1 2 3)%nat (r_hb3_H_ab_voov 4 1 0 3 2)%nat (venv [a; b; i; j])); vm_compute; reflexivity. Qed.
Lemma h3c_ab_ovvv a b i j : hb3_H_ab_ovvv d H T a b i j = hb3_H_ab_vovv d H T b a j i. Proof. apply (sc_same d H T T HH HT HT (r_hb3_H_ab_ovvv 4 0 1 2 3)%nat (r_hb3_H_ab_vovv 4 1 0 3 2)%nat (venv [a; b; i; j])); vm_compute; reflexivity. Qed.
Lemma h3c_aa_vooo a b i j : hb3_H_bb_vooo d H T a b i j = hb3_H_aa_vooo d H T a b i j. Proof. apply (sc_same d H T T HH HT HT (r_hb3_H_bb_vooo 4 0 1 2 3)%nat (r_hb3_H_aa_vooo 4 0 1 2 3)%nat (venv [a; b; i; j])); vm_compute; reflexivity. Qed.
Lemma h3c_ab_vooo a b i j : hb3_H_ab_vooo d H T a b i j = hb3_H_ab_ovoo d H T b a j i. Proof. apply (sc_same d H T T HH HT HT (r_hb3_H_ab_vooo 4 0 1 2 3)%nat (r_hb3_H_ab_ovoo 4 1 0 3 2)%nat (venv [a; b; i; j])); vm_compute; reflexivity. Qed.
Lemma h3c_aa_voov a b i j : hb3_H_bb_voov d H T a b i j = hb3_H_aa_voov d H T a b i j. Proof. apply (sc_same d H T T HH HT HT (r_hb3_H_bb_voov 4 0 1 2 3)%nat (r_hb3_H_aa_voov 4 0 1 2 3)%nat (venv [a; b; i; j])); vm_compute; reflexivity. Qed.
Lemma h3c_ab_voov a b i j : hb3_H_ab_voov d H T a b i j = hb3_H_ab_ovvo d H T b a j i. Proof. apply (sc_same d H T T HH HT HT (r_hb3_H_ab_voov 4 0 1 2 3)%nat (r_hb3_H_ab_ovvo 4 1 0 3 2)%nat (venv [a; b; i; j])); vm_compute; reflexivity. Qed.
Lemma h3c_ab_vovo a b i j : hb3_H_ab_vovo d H T a b i j = hb3_H_ab_ovov d H T b a j i. Proof. apply (sc_same d H T T HH HT HT (r_hb3_H_ab_vovo 4 0 1 2 3)%nat (r_hb3_H_ab_ovov 4 1 0 3 2)%nat (venv [a; b; i; j])); vm_compute; reflexivity. Qed.
Lemma h3c_aa_vovv a b i j : hb3_H_bb_vovv d H T a b i j = hb3_H_aa_vovv d H T a b i j. Proof. apply (sc_same d H T T HH HT HT (r_hb3_H_bb_vovv 4 0 1 2 3)%nat (r_hb3_H_aa_vovv 4 0 1 2 3)%nat (venv [a; b; i; j])); vm_compute; reflexivity. Qed.
Lemma h3c_ab_vovv a b i j : hb3_H_ab_vovv d H T a b i j = hb3_H_ab_ovvv d H T b a j i. Proof. apply (sc_same d H T T HH HT HT (r_hb3_H_ab_vovv 4 0 1 2 3)%nat (r_hb3_H_ab_ovvv 4 1 0 3 2)%nat (venv [a; b; i; j])); vm_compute; reflexivity. Qed.
Lemma h3c_aa_vvov a b i j : hb3_H_bb_vvov_1 d H T a b i j = hb3_H_aa_vvov_1 d H T a b i j. Proof. apply (sc_same d H T T HH HT HT (r_hb3_H_bb_vvov_1 4 0 1 2 3)%nat (r_hb3_H_aa_vvov_1 4 0 1 2 3)%nat (venv [a; b; i; j])); vm_compute; reflexivity. Qed.
Lemma h3c_ab_vvov a b i j : hb3_H_ab_vvov d H T a b i j = hb3_H_ab_vvvo d H T b a j i. Proof. apply (sc_same d H T T HH HT HT (r_hb3_H_ab_vvov 4 0 1 2 3)%nat (r_hb3_H_ab_vvvo 4 1 0 3 2)%nat (venv [a; b; i; j])); vm_compute; reflexivity. Qed.
Lemma h3c_ab_vvvo a b i j : hb3_H_ab_vvvo d H T a b i j = hb3_H_ab_vvov d H T b a j i. Proof. apply (sc_same d H T T HH HT HT (r_hb3_H_ab_vvvo 4 0 1 2 3)%nat (r_hb3_H_ab_vvov 4 1 0 3 2)%nat (venv [a; b; i; j])); vm_compute; reflexivity. Qed.
Lemma h3c_aa_vvvv a b i j : hb3_H_bb_vvvv_1 d H T a b i j = hb3_H_aa_vvvv_1 d H T a b i j. Proof. apply (sc_same d H T T HH HT HT (r_hb3_H_bb_vvvv_1 4 0 1 2 3)%nat (r_hb3_H_aa_vvvv_1 4 0 1 2 3)%nat (venv [a; b; i; j])); vm_compute; reflexivity. Qed.
Lemma h3c_ab_vvvv a b i j : hb3_H_ab_vvvv d H T a b i j = hb3_H_ab_vvvv d H T b a j i. Proof. apply (sc_same d H T T HH HT HT (r_hb3_H_ab_vvvv 4 0 1 2 3)%nat (r_hb3_H_ab_vvvv 4 1 0 3 2)%nat (venv [a; b; i; j])); vm_compute; reflexivity. Qed.
Lemma hbar3_eq : rhbar_ccsdt d H T = hbar_ccsdt d H T.
Proof. unfold rhbar_ccsdt, hbar_ccsdt. rewrite <- h3e_bb_oooo, <- h3e_bb_ooov, <- h3e_bb_vooo, <- h3e_bb_voov, <- h3e_bb_vovv, <- h3e_bb_vvov, <- h3e_bb_vvvv, h3e_a_oo, h3e_a_ov, h3e_a_vv, h3e_b_oo, h3e_b_ov, h3e_b_vv, h3e_aa_oooo, h3e_aa_ooov, h3e_aa_vooo, h3e_aa_voov, h3e_aa_vovv, h3e_aa_vvov, h3e_aa_vvvv, h3e_ab_oooo, h3e_ab_ooov, h3e_ab_oovo, h3e_ab_ovoo, h3e_ab_ovov, h3e_ab_ovvo, h3e_ab_ovvv, h3e_ab_vooo, h3e_ab_voov, h3e_ab_vovo, h3e_ab_vovv, h3e_ab_vvov, h3e_ab_vvvo, h3e_ab_vvvv. f_equal. Qed.
Lemma hbar3_closed : closed_ints (fix_ints (hbar_ccsdt d H T)).
Proof.
  constructor; intros; cbn [fix_ints hbar_ccsdt i_a_oo i_a_ov i_a_vo i_a_vv i_b_oo i_b_ov i_b_vo i_b_vv i_aa_oooo i_aa_ooov i_aa_oovo i_aa_oovv i_aa_ovoo i_aa_ovov i_aa_ovvo i_aa_ovvv i_aa_vooo i_aa_voov i_aa_vovo i_aa_vovv i_aa_vvoo i_aa_vvov i_aa_vvvo i_aa_vvvv i_ab_oooo i_ab_ooov i_ab_oovo i_ab_oovv i_ab_ovoo i_ab_ovov i_ab_ovvo i_ab_ovvv i_ab_vooo i_ab_voov i_ab_vovo i_ab_vovv i_ab_vvoo i_ab_vvov i_ab_vvvo i_ab_vvvv i_bb_oooo i_bb_ooov i_bb_oovo i_bb_oovv i_bb_ovoo i_bb_ovov i_bb_ovvo i_bb_ovvv i_bb_vooo i_bb_voov i_bb_vovo i_bb_vovv i_bb_vvoo i_bb_vvov i_bb_vvvo i_bb_vvvv].
  - apply h3c_a_oo.
  - apply h3c_a_ov.
  - apply (ci_a_vo H (cs_spin d H HH)).
  - apply h3c_a_vv.
  - apply h3c_aa_oooo.
  - apply h3c_ab_oooo.
  - apply h3c_aa_ooov.
  - apply h3c_ab_ooov.
  - now rewrite h3c_aa_ooov.
  - apply h3c_ab_oovo.
  - apply (ci_aa_oovv H (cs_spin d H HH)).
  - apply (ci_ab_oovv H (cs_spin d H HH)).
  - now rewrite h3c_aa_vooo.
  - apply h3c_ab_ovoo.
  - now rewrite h3c_aa_voov.
  - apply h3c_ab_ovov.
  - now rewrite h3c_aa_voov.
  - apply h3c_ab_ovvo.
  - now rewrite h3c_aa_vovv.
  - apply h3c_ab_ovvv.
  - apply h3c_aa_vooo.
  - apply h3c_ab_vooo.
  - apply h3c_aa_voov.
  - apply h3c_ab_voov.
  - now rewrite h3c_aa_voov.
  - apply h3c_ab_vovo.
  - apply h3c_aa_vovv.
  - apply h3c_ab_vovv.
  - apply (ci_aa_vvoo H (cs_spin d H HH)).
  - apply (ci_ab_vvoo H (cs_spin d H HH)).
  - apply h3c_aa_vvov.
  - apply h3c_ab_vvov.
  - now rewrite h3c_aa_vvov.
  - apply h3c_ab_vvvo.
  - apply h3c_aa_vvvv.
  - apply h3c_ab_vvvv.
Qed.
End Hbar3.

(** * Blocks of the right vector and of the residual *)
Section Blocks.
Variables (d : dims) (H : ints) (T Y : amps).
Hypothesis HH : closed_shell d H.
Hypothesis HT : singlet3 T.
Hypothesis HY : singlet3 Y.
Lemma hr_a a i : reomt_X1A_12 d H T Y a i = eomt_X1A_12 d H T Y a i. Proof. apply (sc_same d H T Y HH HT HY (r_reomt_X1A_12 2 0 1)%nat (r_eomt_X1A_12 2 0 1)%nat (venv [a; i])); vm_compute; reflexivity. Qed.
Lemma hr_aa a b i j : reomt_X2A_17 d H T Y a b i j = eomt_X2A_17 d H T Y a b i j. Proof. apply (sc_same d H T Y HH HT HY (r_reomt_X2A_17 4 0 1 2 3)%nat (r_eomt_X2A_17 4 0 1 2 3)%nat (venv [a; b; i; j])); vm_compute; reflexivity. Qed.
Lemma hr_ab a b i j : reomt_X2B_31 d H T Y a b i j = eomt_X2B_31 d H T Y a b i j. Proof. apply (sc_same d H T Y HH HT HY (r_reomt_X2B_31 4 0 1 2 3)%nat (r_eomt_X2B_31 4 0 1 2 3)%nat (venv [a; b; i; j])); vm_compute; reflexivity. Qed.
Lemma hr_aaa a b c i j k : reomt_X3A_15 d H T Y a b c i j k = eomt_X3A_15 d H T Y a b c i j k. Proof. apply (sc_same d H T Y HH HT HY (r_reomt_X3A_15 6 0 1 2 3 4 5)%nat (r_eomt_X3A_15 6 0 1 2 3 4 5)%nat (venv [a; b; c; i; j; k])); vm_compute; reflexivity. Qed.
Lemma hr_aab a b c i j k : reomt_X3B_41 d H T Y a b c i j k = eomt_X3B_41 d H T Y a b c i j k. Proof. apply (sc_same d H T Y HH HT HY (r_reomt_X3B_41 6 0 1 2 3 4 5)%nat (r_eomt_X3B_41 6 0 1 2 3 4 5)%nat (venv [a; b; c; i; j; k])); vm_compute; reflexivity. Qed.
Lemma hs_b a i : eomt_X1B_12 d H T Y a i = eomt_X1A_12 d H T Y a i. Proof. apply (sc_same d H T Y HH HT HY (r_eomt_X1B_12 2 0 1)%nat (r_eomt_X1A_12 2 0 1)%nat (venv [a; i])); vm_compute; reflexivity. Qed.
Lemma hs_bb a b i j : eomt_X2C_17 d H T Y a b i j = eomt_X2A_17 d H T Y a b i j. Proof. apply (sc_same d H T Y HH HT HY (r_eomt_X2C_17 4 0 1 2 3)%nat (r_eomt_X2A_17 4 0 1 2 3)%nat (venv [a; b; i; j])); vm_compute; reflexivity. Qed.
Lemma hs_bbb a b c i j k : eomt_X3D_15 d H T Y a b c i j k = eomt_X3A_15 d H T Y a b c i j k. Proof. apply (sc_same d H T Y HH HT HY (r_eomt_X3D_15 6 0 1 2 3 4 5)%nat (r_eomt_X3A_15 6 0 1 2 3 4 5)%nat (venv [a; b; c; i; j; k])); vm_compute; reflexivity. Qed.
Lemma hs_ab a b i j : eomt_X2B_31 d H T Y a b i j = eomt_X2B_31 d H T Y b a j i. Proof. apply (sc_same d H T Y HH HT HY (r_eomt_X2B_31 4 0 1 2 3)%nat (r_eomt_X2B_31 4 1 0 3 2)%nat (venv [a; b; i; j])); vm_compute; reflexivity. Qed.
Lemma hs_abb a b c i j k : eomt_X3C_41 d H T Y a b c i j k = eomt_X3B_41 d H T Y c b a k j i. Proof. apply (sc_same d H T Y HH HT HY (r_eomt_X3C_41 6 0 1 2 3 4 5)%nat (r_eomt_X3B_41 6 2 1 0 5 4 3)%nat (venv [a; b; c; i; j; k])); vm_compute; reflexivity. Qed.
Lemma cr_a a i : rccsdt_res_a d H T T a i = ccsdt_res_a d H T T a i. Proof. apply (sc_same d H T Y HH HT HY (r_rccsdt_res_a 2 0 1)%nat (r_ccsdt_res_a 2 0 1)%nat (venv [a; i])); vm_compute; reflexivity. Qed.
Lemma cr_aa a b i j : rccsdt_res_aa d H T T a b i j = ccsdt_res_aa d H T T a b i j. Proof. apply (sc_same d H T Y HH HT HY (r_rccsdt_res_aa 4 0 1 2 3)%nat (r_ccsdt_res_aa 4 0 1 2 3)%nat (venv [a; b; i; j])); vm_compute; reflexivity. Qed.
Lemma cr_ab a b i j : rccsdt_res_ab d H T T a b i j = ccsdt_res_ab d H T T a b i j. Proof. apply (sc_same d H T Y HH HT HY (r_rccsdt_res_ab 4 0 1 2 3)%nat (r_ccsdt_res_ab 4 0 1 2 3)%nat (venv [a; b; i; j])); vm_compute; reflexivity. Qed.
Lemma cr_aaa a b c i j k : rccsdt_res_aaa d H T T a b c i j k = ccsdt_res_aaa d H T T a b c i j k. Proof. apply (sc_same d H T Y HH HT HY (r_rccsdt_res_aaa 6 0 1 2 3 4 5)%nat (r_ccsdt_res_aaa 6 0 1 2 3 4 5)%nat (venv [a; b; c; i; j; k])); vm_compute; reflexivity. Qed.
Lemma cr_aab a b c i j k : rccsdt_res_aab d H T T a b c i j k = ccsdt_res_aab d H T T a b c i j k. Proof. apply (sc_same d H T Y HH HT HY (r_rccsdt_res_aab 6 0 1 2 3 4 5)%nat (r_ccsdt_res_aab 6 0 1 2 3 4 5)%nat (venv [a; b; c; i; j; k])); vm_compute; reflexivity. Qed.
Lemma cs_b a i : ccsdt_res_b d H T T a i = ccsdt_res_a d H T T a i. Proof. apply (sc_same d H T Y HH HT HY (r_ccsdt_res_b 2 0 1)%nat (r_ccsdt_res_a 2 0 1)%nat (venv [a; i])); vm_compute; reflexivity. Qed.
Lemma cs_ab a b i j : ccsdt_res_ab d H T T a b i j = ccsdt_res_ab d H T T b a j i. Proof. apply (sc_same d H T Y HH HT HY (r_ccsdt_res_ab 4 0 1 2 3)%nat (r_ccsdt_res_ab 4 1 0 3 2)%nat (venv [a; b; i; j])); vm_compute; reflexivity. Qed.
Lemma cs_bb a b i j : four_term (ccsdt_res_bb d H T T) a b i j = four_term (ccsdt_res_aa d H T T) a b i j. Proof. apply (sc_same d H T Y HH HT HY (e4t r_ccsdt_res_bb 4 0 1 2 3)%nat (e4t r_ccsdt_res_aa 4 0 1 2 3)%nat (venv [a; b; i; j])); vm_compute; reflexivity. Qed.
Lemma cs_outer a b c i j k : outer3 (ccsdt_res_bbb d H T T) a b c i j k = outer3 (ccsdt_res_aaa d H T T) a b c i j k. Proof. apply (sc_same d H T Y HH HT HY (e3s r_ccsdt_res_bbb 6 0 1 2 3 4 5)%nat (e3s r_ccsdt_res_aaa 6 0 1 2 3 4 5)%nat (venv [a; b; c; i; j; k])); vm_compute; reflexivity. Qed.
Lemma cs_bbb a b c i j k : comb3 (ccsdt_res_bbb d H T T) a b c i j k = comb3 (ccsdt_res_aaa d H T T) a b c i j k.
Proof. rewrite outer3_comb, (outer3_comb (ccsdt_res_aaa d H T T)). now rewrite (fun6 _ _ cs_outer). Qed.
Lemma cs_abb a b c i j k : comb3c (ccsdt_res_abb d H T T) a b c i j k = comb3b (ccsdt_res_aab d H T T) b c a j k i. Proof. apply (sc_same d H T Y HH HT HY (e3c r_ccsdt_res_abb 6 0 1 2 3 4 5)%nat (e3b r_ccsdt_res_aab 6 1 2 0 4 5 3)%nat (venv [a; b; c; i; j; k])); vm_compute; reflexivity. Qed.
End Blocks.
