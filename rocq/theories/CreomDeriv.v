(** The second part of the CR-EOMCC(2,3) moments is the derivative of the CR-CC(2,3) moments along the right EOMCCSD amplitudes (proof support). *)
From Coq Require Import Reals Arith List Lra Lia.
From Verif Require Import RSum FockEomProj IntegralsModel TensorObjs TensorAlg TensorDeriv TensorSpec IntsFix CcsdModel CcsdProps EomProps CrccModel CreomModel CreomDir CreomBlocks CreomChain.
Import ListNotations.
Local Open Scope R_scope.
(** The product rule, for arrays that are merely differentiable *)
Section Deriv.
Variables (dim : nat -> nat) (dm : nat -> option nat) (ten : R -> nat -> list nat -> R) (ten0 : nat -> list nat -> R).
Hypothesis at0 : forall k l, ten 0 k l = ten0 k l.
Hypothesis moves : forall k l, derivable_pt_lim (fun t => ten t k l) 0 (match dm k with Some k' => ten0 k' l | None => 0 end).
Lemma dexd_ok e : forall v, derivable_pt_lim (fun t => den dim (ten t) e v) 0 (den dim ten0 (oex (dex dm e)) v).
Proof.
  assert (E0 : forall e v, den dim (ten 0) e v = den dim ten0 e v) by (intros; apply den_agree; intros; apply at0).
  induction e as [n p|k ix|a IHa b IHb|a IHa b IHb|a IHa|a IHa b IHb|n p a IHa|y c a IHa]; intros v; cbn [dex den].
  - eapply dlim_eq; [apply derivable_pt_lim_const|symmetry; apply den_zero].
  - eapply dlim_eq; [apply moves|]. destruct (dm k); [reflexivity|symmetry; apply den_zero].
  - eapply dlim_eq; [apply (derivable_pt_lim_plus (fun t => den dim (ten t) a v) (fun t => den dim (ten t) b v)); [apply IHa|apply IHb]|].
    destruct (dex dm a), (dex dm b); cbn [oex]; rewrite ?den_zero; try reflexivity; ring.
  - eapply dlim_eq; [apply (derivable_pt_lim_minus (fun t => den dim (ten t) a v) (fun t => den dim (ten t) b v)); [apply IHa|apply IHb]|].
    destruct (dex dm a), (dex dm b); cbn [oex]; rewrite ?den_zero; try reflexivity; cbn [den]; ring.
  - eapply dlim_eq; [apply (derivable_pt_lim_opp (fun t => den dim (ten t) a v)); apply IHa|].
    destruct (dex dm a); cbn [oex]; rewrite ?den_zero; try reflexivity; ring.
  - eapply dlim_eq; [apply (derivable_pt_lim_mult (fun t => den dim (ten t) a v) (fun t => den dim (ten t) b v)); [apply IHa|apply IHb]|].
    cbv beta. rewrite !E0. destruct (dex dm a), (dex dm b); cbn [oex]; rewrite ?den_zero; cbn [den]; ring.
  - eapply dlim_eq; [apply (derivable_pt_lim_scal (fun t => den dim (ten t) a v)); apply IHa|].
    destruct (dex dm a); cbn [oex]; rewrite ?den_zero; [reflexivity|ring].
  - eapply dlim_eq; [apply (derivable_sumn (dim c) (fun i t => den dim (ten t) a (upd v y i))); intros i; apply IHa|].
    destruct (dex dm a); cbn [oex]; rewrite ?den_zero; [reflexivity|]. rewrite (sumn_ext _ _ (fun _ => 0)); [apply sumn_const0|intros; apply den_zero].
Qed.
End Deriv.
Lemma dlim_fun (f g : R -> R) x l : (forall t, f t = g t) -> derivable_pt_lim f x l -> derivable_pt_lim g x l.
Proof. intros E H eps He. destruct (H eps He) as [dd Hd]. exists dd. intros h H1 H2. rewrite <- !E. now apply Hd. Qed.
Lemma dlim_line (a b : R) : derivable_pt_lim (fun t => a + t * b) 0 b.
Proof. intros eps He. exists (mkposreal 1 Rlt_0_1). intros h Hh _. replace ((a + (0 + h) * b - (a + 0 * b)) / h - b) with 0 by (field; exact Hh). now rewrite Rabs_R0. Qed.
Section N.
Variables (d : dims) (H0 H : ints) (T Y L : amps).
Hypothesis HH : antisym_ints H.
Hypothesis HT : antisym_amps T.
Hypothesis HY : antisym_amps Y.
Notation hb t := (hbar_ccsd d H (amps_line T Y t)).
Notation h0 := (hbar_ccsd d H T).
Notation G := (creom_dir d H0 h0 T Y L).
Lemma prim t : primary_antisym (hb t).
Proof. apply hbar_primary; [exact HH|now apply antisym_line]. Qed.
Lemma g_aa_vooo p q r s : creom_G_aa_vooo d H0 h0 T Y L p q r s = - creom_G_aa_vooo d H0 h0 T Y L p q s r.
Proof.
  eapply uniqueness_limite; [apply (dg_aa_vooo d H0 H T Y L HH HT HY)|].
  eapply dlim_fun; [|apply derivable_pt_lim_opp, (dg_aa_vooo d H0 H T Y L HH HT HY)].
  intros t. unfold opp_fct. now rewrite (pa_aa_vooo_34 _ (prim t) p q r s).
Qed.
Lemma g_bb_vooo p q r s : creom_G_bb_vooo d H0 h0 T Y L p q r s = - creom_G_bb_vooo d H0 h0 T Y L p q s r.
Proof.
  eapply uniqueness_limite; [apply (dg_bb_vooo d H0 H T Y L HH HT HY)|].
  eapply dlim_fun; [|apply derivable_pt_lim_opp, (dg_bb_vooo d H0 H T Y L HH HT HY)].
  intros t. unfold opp_fct. now rewrite (pa_bb_vooo_34 _ (prim t) p q r s).
Qed.
Lemma g_aa_vvov p q r s : creom_G_aa_vvov d H0 h0 T Y L p q r s = - creom_G_aa_vvov d H0 h0 T Y L q p r s.
Proof.
  eapply uniqueness_limite; [apply (dg_aa_vvov d H0 H T Y L HH HT HY)|].
  eapply dlim_fun; [|apply derivable_pt_lim_opp, (dg_aa_vvov d H0 H T Y L HH HT HY)].
  intros t. unfold opp_fct. now rewrite (pa_aa_vvov_12 _ (prim t) p q r s).
Qed.
Lemma g_bb_vvov p q r s : creom_G_bb_vvov d H0 h0 T Y L p q r s = - creom_G_bb_vvov d H0 h0 T Y L q p r s.
Proof.
  eapply uniqueness_limite; [apply (dg_bb_vvov d H0 H T Y L HH HT HY)|].
  eapply dlim_fun; [|apply derivable_pt_lim_opp, (dg_bb_vvov d H0 H T Y L HH HT HY)].
  intros t. unfold opp_fct. now rewrite (pa_bb_vvov_12 _ (prim t) p q r s).
Qed.
Lemma cp_syms : Forall (fun g => okalt (tenv (cp_arrays d h0 G T Y)) (fst g) (snd g)) cp_gens.
Proof.
  assert (P : primary_antisym h0) by (apply hbar_primary; assumption).
  assert (A1 : forall p q r s, i_aa_vooo G p q r s = - i_aa_vooo G p q s r) by exact g_aa_vooo.
  assert (A2 : forall p q r s, i_bb_vooo G p q r s = - i_bb_vooo G p q s r) by exact g_bb_vooo.
  assert (A3 : forall p q r s, i_aa_vvov G p q r s = - i_aa_vvov G q p r s) by exact g_aa_vvov.
  assert (A4 : forall p q r s, i_bb_vvov G p q r s = - i_bb_vvov G q p r s) by exact g_bb_vvov.
  pose proof (pa_aa_vooo_34 _ P) as B1. pose proof (pa_bb_vooo_34 _ P) as B2. pose proof (pa_aa_vvov_12 _ P) as B3. pose proof (pa_bb_vvov_12 _ P) as B4.
  pose proof (aa_aa_12 _ HT) as C1. pose proof (aa_aa_34 _ HT) as C2. pose proof (aa_bb_12 _ HT) as C3. pose proof (aa_bb_34 _ HT) as C4.
  pose proof (aa_aa_12 _ HY) as D1. pose proof (aa_aa_34 _ HY) as D2. pose proof (aa_bb_12 _ HY) as D3. pose proof (aa_bb_34 _ HY) as D4.
  generalize dependent G. generalize dependent h0. intros h _ B1 B2 B3 B4 G A1 A2 A3 A4. unfold cp_gens.
  repeat (apply Forall_cons; [cbn [fst snd]; first [eapply ok4_12; [reflexivity|reflexivity|assumption] | eapply ok4_34; [reflexivity|reflexivity|assumption]]|]). apply Forall_nil.
Qed.
Lemma cp_at0 k l : tenv (cp_arrays d (hb 0) G (amps_line T Y 0) Y) k l = tenv (cp_arrays d h0 G T Y) k l.
Proof. now rewrite amps_line0. Qed.
Lemma cp_moves k l : derivable_pt_lim (fun t => tenv (cp_arrays d (hb t) G (amps_line T Y t) Y) k l) 0
  (match cp_dm k with Some k' => tenv (cp_arrays d h0 G T Y) k' l | None => 0 end).
Proof.
  pose proof (dg_a_ov d H0 H T Y L HH HT HY) as G1. pose proof (dg_b_ov d H0 H T Y L HH HT HY) as G2.
  pose proof (dg_aa_vooo d H0 H T Y L HH HT HY) as G3. pose proof (dg_aa_vvov d H0 H T Y L HH HT HY) as G4.
  pose proof (dg_bb_vooo d H0 H T Y L HH HT HY) as G5. pose proof (dg_bb_vvov d H0 H T Y L HH HT HY) as G6.
  pose proof (dg_ab_ovoo d H0 H T Y L HH HT HY) as G7. pose proof (dg_ab_vooo d H0 H T Y L HH HT HY) as G8.
  pose proof (dg_ab_vvvo d H0 H T Y L HH HT HY) as G9. pose proof (dg_ab_vvov d H0 H T Y L HH HT HY) as G10.
  do 30 (destruct k as [|k]; [cbn [tenv nth cp_arrays cp_dm ap2 ap4]; repeat (destruct l as [|? l]; cbn [ap2 ap4]; try apply derivable_pt_lim_const);
    first [apply derivable_pt_lim_const | apply dlim_line | apply G1 | apply G2 | apply G3 | apply G4 | apply G5 | apply G6 | apply G7 | apply G8 | apply G9 | apply G10]|]).
  cbn. apply (dlim_fun (fun _ => 0)); [intros t; destruct k; reflexivity|apply derivable_pt_lim_const].
Qed.
Lemma cp_deriv e1 e2 v : same_tab cp_tab (fun x => x) [0; 1; 2; 3]%nat (oex (dex cp_dm e1)) e2 = true ->
  derivable_pt_lim (fun t => den (denv [noa d; nua d; nob d; nub d]) (tenv (cp_arrays d (hb t) G (amps_line T Y t) Y)) e1 v) 0
    (den (denv [noa d; nua d; nob d; nub d]) (tenv (cp_arrays d h0 G T Y)) e2 v).
Proof.
  intros E. eapply dlim_eq;
  [exact (dexd_ok (denv [noa d; nua d; nob d; nub d]) cp_dm (fun t => tenv (cp_arrays d (hb t) G (amps_line T Y t) Y)) (tenv (cp_arrays d h0 G T Y)) cp_at0 cp_moves e1 v)|].
  apply (same_tab_sound _ _ cp_gens 30 cp_tab (fun x => x) [0; 1; 2; 3]%nat); [vm_compute; reflexivity|reflexivity|apply cp_syms|exact E].
Qed.
Lemma dn_aaa a b c i j k : derivable_pt_lim (fun t => creom_M_aaa d H0 (hb t) (amps_line T Y t) Y L a b c i j k) 0 (creom_N_aaa d H0 h0 T Y L a b c i j k).
Proof. rewrite cn_aaa. apply (cp_deriv cpm_aaa cpn_aaa (venv [a; b; c; i; j; k])). vm_compute. reflexivity. Qed.
Lemma dn_aab a b c i j k : derivable_pt_lim (fun t => creom_M_aab d H0 (hb t) (amps_line T Y t) Y L a b c i j k) 0 (creom_N_aab d H0 h0 T Y L a b c i j k).
Proof. rewrite cn_aab. apply (cp_deriv cpm_aab cpn_aab (venv [a; b; c; i; j; k])). vm_compute. reflexivity. Qed.
Lemma dn_abb a b c i j k : derivable_pt_lim (fun t => creom_M_abb d H0 (hb t) (amps_line T Y t) Y L a b c i j k) 0 (creom_N_abb d H0 h0 T Y L a b c i j k).
Proof. rewrite cn_abb. apply (cp_deriv cpm_abb cpn_abb (venv [a; b; c; i; j; k])). vm_compute. reflexivity. Qed.
Lemma dn_bbb a b c i j k : derivable_pt_lim (fun t => creom_M_bbb d H0 (hb t) (amps_line T Y t) Y L a b c i j k) 0 (creom_N_bbb d H0 h0 T Y L a b c i j k).
Proof. rewrite cn_bbb. apply (cp_deriv cpm_bbb cpn_bbb (venv [a; b; c; i; j; k])). vm_compute. reflexivity. Qed.
End N.
