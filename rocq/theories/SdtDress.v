(** The residual of CCSDT computed from (H, T) and from (dressed H, T without T1) (proof support). *)
From Coq Require Import Reals Arith NArith List Bool Lia Lra QArith Qreals ZArith.
From Verif Require Import RSum IntegralsModel TensorObjs TensorAlg TensorSpec CcsdModel CcsdUpdate CcsdReify CcsdProps FockSpec FockCar FockWick FockArrays FockCcSpec FockTerms FockCheck FockState FockProj FockSector FockSectorTools FockDress FockShift FockSector3 FockTools3 HbarDress
  CcsdtModel CcsdtUpdate CcsdtReify SdtSpec SdtFock.
Import ListNotations.
Local Open Scope nat_scope.
Definition ax3 (k : nat) : option (list nat) :=
  match k with 5 => Some [1; 1; 1; 0; 0; 0] | 6 => Some [1; 1; 3; 0; 0; 2] | 7 => Some [1; 3; 3; 0; 2; 2] | 8 => Some [3; 3; 3; 2; 2; 2] | _ => if k <? 66 then axes k else Some [] end.
Definition hcheck3 (G : list (nat * nat)) (e : ex) : bool := typed ax3 40 G (kill e) && same_tab sdt_tab (fun x => x) [0; 1; 2; 3] e (inst 40 (kill e)).
Section B.
Variables (d : dims) (I : integrals) (T : amps).
Hypothesis (HI : exchangeable I) (HT : antisym_amps T) (HY : triples_anti T).
Notation H := (fock_ints (noa d) (nob d) I).
Notation H' := (fock_ints (noa d) (nob d) (dressed d T I)).
Lemma sdt_syms' : Forall (fun g => okalt (ften H T) (fst g) (snd g)) sdt_gens.
Proof.
  assert (K := sector_syms H T [] sdt_own (fock_ints_antisym _ _ _ HI) HT). rewrite app_nil_r in K. apply K. clear K. destruct HY as (A0 & A1 & A2 & A3 & A4 & A5 & A6 & A7 & A8 & A9 & A10 & A11).
  apply Forall_cons; [okswap6 A0|]. apply Forall_cons; [okswap6 A1|]. apply Forall_cons; [okswap6 A2|]. apply Forall_cons; [okswap6 A3|]. apply Forall_cons; [okswap6 A4|]. apply Forall_cons; [okswap6 A5|]. apply Forall_cons; [okswap6 A6|]. apply Forall_cons; [okswap6 A7|]. apply Forall_cons; [okswap6 A8|]. apply Forall_cons; [okswap6 A9|]. apply Forall_cons; [okswap6 A10|]. apply Forall_cons; [okswap6 A11|]. apply Forall_nil.
Qed.
Lemma inr6 dim v z ix a b c e f g : inrange dim v z ix [a; b; c; e; f; g] -> exists p q r s t u, ix = [p; q; r; s; t; u].
Proof. intros K. do 6 (inversion K as [|? ? ? ? ? K']; subst; clear K; rename K' into K). inversion K; subst. do 6 eexists. reflexivity. Qed.
Lemma sub3_ok k cs z v ix : ax3 k = Some cs -> inrange (fdim d) v z ix cs -> den (fdim d) (ften H T) (sub k z ix) v = ften H' (bare T) k (map v ix).
Proof.
  intros E Hx. unfold ax3 in E. do 5 (destruct k as [|k]; [now apply (sub_ok d I T _ cs)|]).
  do 4 (destruct k as [|k]; [injection E as <-; apply inr6 in Hx as (? & ? & ? & ? & ? & ? & ->); cbv [sub Nat.ltb Nat.leb]; reflexivity|]).
  destruct (Nat.ltb_spec (S (S (S (S (S (S (S (S (S k))))))))) 66) as [L|L]; [now apply (sub_ok d I T _ cs)|]. injection E as <-. inversion Hx; subst. unfold sub.
  replace (S (S (S (S (S (S (S (S (S k)))))))) <? 2) with false by (symmetry; apply Nat.ltb_ge; lia). replace (S (S (S (S (S (S (S (S (S k)))))))) <? 9) with false by (symmetry; apply Nat.ltb_ge; lia). 
  rewrite den_zero. unfold tenv. rewrite nth_overflow by (cbn [length fock_arrays]; lia). reflexivity.
Qed.
Lemma hcheck3_ok G e v : hcheck3 G e = true -> ranged (fdim d) G v -> den (fdim d) (ften H T) e v = den (fdim d) (ften H' (bare T)) e v.
Proof.
  intros K HR. apply andb_prop in K as (K1 & K2).
  rewrite (same_tab_sound (fdim d) (ften H T) sdt_gens 66 sdt_tab (fun x => x) [0; 1; 2; 3] _ _ sdt_htab (fun _ => eq_refl) sdt_syms' K2 v).
  rewrite (inst_den (fdim d) (ften H T) (ften H' (bare T)) ax3 40 (kill e)) with (G := G); [|intros k cs E u ix Hx| |exact K1|exact HR].
  - apply kill_ok. intros k ix Hk. destruct k as [|[|k]]; [| |lia]; unfold tenv; cbn [nth fock_arrays ap2 bare x_a x_b]; (destruct ix as [|? [|? [|]]]; reflexivity).
  - now apply (sub3_ok k cs).
  - intros k L. unfold ax3. do 9 (destruct k as [|k]; [lia|]). replace (_ <? 66) with false by (symmetry; apply Nat.ltb_ge; lia). discriminate.
Qed.
Ltac rng := let x := fresh "x" in let c := fresh "c" in let E := fresh "E" in intros x c E; do 6 (destruct x as [|x]; [try discriminate E; cbv [lookc Nat.eqb] in E; injection E as <-; assumption|]); discriminate E.
Lemma sdt_hb_a a i : (a < nua d) -> (i < noa d) -> x_a (ccsdt_resid d H T) a i = x_a (ccsdt_resid d H' (bare T)) a i.
Proof. intros. apply (hcheck3_ok [(0, 1); (1, 0)] (e_sdt_a 0 1) (venv [a; i])); [vm_compute; reflexivity|rng]. Qed.
Lemma sdt_hb_b a i : (a < nub d) -> (i < nob d) -> x_b (ccsdt_resid d H T) a i = x_b (ccsdt_resid d H' (bare T)) a i.
Proof. intros. apply (hcheck3_ok [(0, 3); (1, 2)] (e_sdt_b 0 1) (venv [a; i])); [vm_compute; reflexivity|rng]. Qed.
Lemma sdt_hb_aa a b i j : (a < nua d) -> (b < nua d) -> (i < noa d) -> (j < noa d) -> x_aa (ccsdt_resid d H T) a b i j = x_aa (ccsdt_resid d H' (bare T)) a b i j.
Proof. intros. apply (hcheck3_ok [(0, 1); (1, 1); (2, 0); (3, 0)] (e_sdt_aa 0 1 2 3) (venv [a; b; i; j])); [vm_compute; reflexivity|rng]. Qed.
Lemma sdt_hb_ab a b i j : (a < nua d) -> (b < nub d) -> (i < noa d) -> (j < nob d) -> x_ab (ccsdt_resid d H T) a b i j = x_ab (ccsdt_resid d H' (bare T)) a b i j.
Proof. intros. apply (hcheck3_ok [(0, 1); (1, 3); (2, 0); (3, 2)] (e_sdt_ab 0 1 2 3) (venv [a; b; i; j])); [vm_compute; reflexivity|rng]. Qed.
Lemma sdt_hb_bb a b i j : (a < nub d) -> (b < nub d) -> (i < nob d) -> (j < nob d) -> x_bb (ccsdt_resid d H T) a b i j = x_bb (ccsdt_resid d H' (bare T)) a b i j.
Proof. intros. apply (hcheck3_ok [(0, 3); (1, 3); (2, 2); (3, 2)] (e_sdt_bb 0 1 2 3) (venv [a; b; i; j])); [vm_compute; reflexivity|rng]. Qed.
Lemma sdt_raw_aaa a b c i j k : (a < nua d) -> (b < nua d) -> (c < nua d) -> (i < noa d) -> (j < noa d) -> (k < noa d) -> ccsdt_res_aaa d H T T a b c i j k = ccsdt_res_aaa d H' (bare T) (bare T) a b c i j k.
Proof. intros. apply (hcheck3_ok [(0, 1); (1, 1); (2, 1); (3, 0); (4, 0); (5, 0)] (r_ccsdt_res_aaa 10 0 1 2 3 4 5) (venv [a; b; c; i; j; k])); [vm_compute; reflexivity|rng]. Qed.
Lemma sdt_hb_aaa a b c i j k : (a < nua d) -> (b < nua d) -> (c < nua d) -> (i < noa d) -> (j < noa d) -> (k < noa d) -> x_aaa (ccsdt_resid d H T) a b c i j k = x_aaa (ccsdt_resid d H' (bare T)) a b c i j k.
Proof. intros. cbn [ccsdt_resid x_aaa]. unfold comb3. rewrite !sdt_raw_aaa by assumption. reflexivity. Qed.
Lemma sdt_raw_aab a b c i j k : (a < nua d) -> (b < nua d) -> (c < nub d) -> (i < noa d) -> (j < noa d) -> (k < nob d) -> ccsdt_res_aab d H T T a b c i j k = ccsdt_res_aab d H' (bare T) (bare T) a b c i j k.
Proof. intros. apply (hcheck3_ok [(0, 1); (1, 1); (2, 3); (3, 0); (4, 0); (5, 2)] (r_ccsdt_res_aab 10 0 1 2 3 4 5) (venv [a; b; c; i; j; k])); [vm_compute; reflexivity|rng]. Qed.
Lemma sdt_hb_aab a b c i j k : (a < nua d) -> (b < nua d) -> (c < nub d) -> (i < noa d) -> (j < noa d) -> (k < nob d) -> x_aab (ccsdt_resid d H T) a b c i j k = x_aab (ccsdt_resid d H' (bare T)) a b c i j k.
Proof. intros. cbn [ccsdt_resid x_aab]. unfold comb3b. rewrite !sdt_raw_aab by assumption. reflexivity. Qed.
Lemma sdt_raw_abb a b c i j k : (a < nua d) -> (b < nub d) -> (c < nub d) -> (i < noa d) -> (j < nob d) -> (k < nob d) -> ccsdt_res_abb d H T T a b c i j k = ccsdt_res_abb d H' (bare T) (bare T) a b c i j k.
Proof. intros. apply (hcheck3_ok [(0, 1); (1, 3); (2, 3); (3, 0); (4, 2); (5, 2)] (r_ccsdt_res_abb 10 0 1 2 3 4 5) (venv [a; b; c; i; j; k])); [vm_compute; reflexivity|rng]. Qed.
Lemma sdt_hb_abb a b c i j k : (a < nua d) -> (b < nub d) -> (c < nub d) -> (i < noa d) -> (j < nob d) -> (k < nob d) -> x_abb (ccsdt_resid d H T) a b c i j k = x_abb (ccsdt_resid d H' (bare T)) a b c i j k.
Proof. intros. cbn [ccsdt_resid x_abb]. unfold comb3c. rewrite !sdt_raw_abb by assumption. reflexivity. Qed.
Lemma sdt_raw_bbb a b c i j k : (a < nub d) -> (b < nub d) -> (c < nub d) -> (i < nob d) -> (j < nob d) -> (k < nob d) -> ccsdt_res_bbb d H T T a b c i j k = ccsdt_res_bbb d H' (bare T) (bare T) a b c i j k.
Proof. intros. apply (hcheck3_ok [(0, 3); (1, 3); (2, 3); (3, 2); (4, 2); (5, 2)] (r_ccsdt_res_bbb 10 0 1 2 3 4 5) (venv [a; b; c; i; j; k])); [vm_compute; reflexivity|rng]. Qed.
Lemma sdt_hb_bbb a b c i j k : (a < nub d) -> (b < nub d) -> (c < nub d) -> (i < nob d) -> (j < nob d) -> (k < nob d) -> x_bbb (ccsdt_resid d H T) a b c i j k = x_bbb (ccsdt_resid d H' (bare T)) a b c i j k.
Proof. intros. cbn [ccsdt_resid x_bbb]. unfold comb3. rewrite !sdt_raw_bbb by assumption. reflexivity. Qed.
Lemma sdt_resid_shift : same_amps3 d (ccsdt_resid d H T) zero_amps <-> same_amps3 d (ccsdt_resid d H' (bare T)) zero_amps.
Proof.
  unfold same_amps3. split; intros (G1 & G2 & G3 & G4 & G5 & G6 & G7 & G8 & G9); repeat match goal with |- _ /\ _ => split end; intros;
  [rewrite <- sdt_hb_a|rewrite <- sdt_hb_b|rewrite <- sdt_hb_aa|rewrite <- sdt_hb_ab|rewrite <- sdt_hb_bb|rewrite <- sdt_hb_aaa|rewrite <- sdt_hb_aab|rewrite <- sdt_hb_abb|rewrite <- sdt_hb_bbb
  |rewrite sdt_hb_a|rewrite sdt_hb_b|rewrite sdt_hb_aa|rewrite sdt_hb_ab|rewrite sdt_hb_bb|rewrite sdt_hb_aaa|rewrite sdt_hb_aab|rewrite sdt_hb_abb|rewrite sdt_hb_bbb]; auto.
Qed.
End B.
