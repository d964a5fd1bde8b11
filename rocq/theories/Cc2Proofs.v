(** CC2: proofs. *)
From Coq Require Import Reals Arith NArith List Bool Lra Lia FunctionalExtensionality.
From Verif Require Import RSum IntegralsModel TensorObjs TensorAlg TensorDeriv TensorSpec TensorClosed LoopModel LoopProofs CcsdModel CcsdUpdate CcsdProps RhfProps SdtSpec CcsdtModel CcsdtUpdate FockSector3 EomsdtProofs EomsdtProps
  FockSpec FockCcSpec Cc2Model Cc2Reify Cc2Update Cc2Spec.
Import ListNotations.
Open Scope R_scope.

(** Replacing some arrays by zero *)
Lemma kill_map z dim ten ten' : (forall k ix, ten' k ix = if z k : bool then 0 else ten k ix) -> forall e v, den dim ten' e v = den dim ten (killz z e) v.
Proof.
  intros Z. induction e as [n d|k ix|a IHa b IHb|a IHa b IHb|a IHa|a IHa b IHb|n d a IHa|x d a IHa]; intros v; cbn [killz]; cbv zeta.
  - reflexivity.
  - cbn [den]. rewrite Z. destruct (z k); [now rewrite den_zero|reflexivity].
  - destruct (isz (killz z a)) eqn:A; [|destruct (isz (killz z b)) eqn:B]; cbn [den]; rewrite ?IHa, ?IHb.
    + rewrite (isz_ok dim ten _ v A). ring.
    + rewrite (isz_ok dim ten _ v B). ring.
    + reflexivity.
  - destruct (isz (killz z b)) eqn:B; [|destruct (isz (killz z a)) eqn:A]; cbn [den]; rewrite ?IHa, ?IHb.
    + rewrite (isz_ok dim ten _ v B). ring.
    + rewrite (isz_ok dim ten _ v A). ring.
    + reflexivity.
  - destruct (isz (killz z a)) eqn:A; [rewrite den_zero|]; cbn [den]; rewrite ?IHa; [rewrite (isz_ok dim ten _ v A)|]; ring.
  - destruct (isz (killz z b)) eqn:B; [rewrite den_zero|destruct (isz (killz z a)) eqn:A; [rewrite den_zero|]]; cbn [den]; rewrite ?IHa, ?IHb; [rewrite (isz_ok dim ten _ v B)|rewrite (isz_ok dim ten _ v A)|]; ring.
  - destruct (isz (killz z a)) eqn:A; [rewrite den_zero|]; cbn [den]; rewrite ?IHa; [rewrite (isz_ok dim ten _ v A)|]; ring.
  - destruct (isz (killz z a)) eqn:A; [rewrite den_zero|]; cbn [den].
    + apply sumn_0; intros i _. rewrite IHa. now apply isz_ok.
    + apply sumn_ext; intros i _. apply IHa.
Qed.

(** The amplitudes without triples; no CC2 routine reads the triples *)
Definition flat3 (T : amps) : amps := mkAmps (x_a T) (x_b T) (x_aa T) (x_ab T) (x_bb T) no_triples no_triples no_triples no_triples.
Lemma flat3_anti T : antisym_amps T -> antisym_amps (flat3 T).
Proof. intros []. constructor; assumption. Qed.
Lemma flat3_triples T : triples_anti (flat3 T).
Proof. unfold triples_anti, flat3, no_triples. cbn [x_aaa x_aab x_abb x_bbb]. repeat split; intros; ring. Qed.
Lemma flat3_closed T : closed_amps T -> closed_amps (flat3 T).
Proof. intros []. constructor; assumption. Qed.

Notation j2den d H T Y := (den (denv [noa d; nua d; nob d; nub d]) (tenv (j2_arrays d H T Y))).
Lemma j2_syms d H T Y : antisym_ints H -> antisym_amps T -> antisym_amps Y -> triples_anti T ->
  Forall (fun g => okalt (tenv (j2_arrays d H T Y)) (fst g) (snd g)) j2_gens.
Proof. intros HH HT HY HT3. destruct HT3 as (?&?&?&?&?&?&?&?&?&?&?&?). sym_all. Qed.
Lemma j2_line d H T Y t k l : tenv (j2_arrays d H (amps_line (flat3 T) (flat3 Y) t) (flat3 Y)) k l =
  tenv (j2_arrays d H (flat3 T) (flat3 Y)) k l + t * match j2_dm k with Some k' => tenv (j2_arrays d H (flat3 T) (flat3 Y)) k' l | None => 0 end.
Proof.
  do 70 (destruct k as [|k]; [cbn; unfold no_triples; repeat (destruct l as [|? l]; cbn; try ring)|]).
  cbn; rewrite ?nth_overflow by (simpl; lia); ring.
Qed.
Lemma j2_same d H T Y e1 e2 v : antisym_ints H -> antisym_amps T -> antisym_amps Y ->
  same_tab j2_tab (fun x => x) [0; 1; 2; 3]%nat e1 e2 = true -> j2den d H (flat3 T) (flat3 Y) e1 v = j2den d H (flat3 T) (flat3 Y) e2 v.
Proof.
  intros HH HT HY E. apply (same_tab_sound _ _ j2_gens (length (j2_arrays d H (flat3 T) (flat3 Y))) j2_tab (fun x => x) [0; 1; 2; 3]%nat);
    [vm_compute; reflexivity|reflexivity|apply j2_syms; auto using flat3_anti, flat3_triples|exact E].
Qed.
Lemma j2_deriv d H T Y e1 e2 v : antisym_ints H -> antisym_amps T -> antisym_amps Y ->
  same_tab j2_tab (fun x => x) [0; 1; 2; 3]%nat (oex (dex j2_dm e1)) e2 = true ->
  derivable_pt_lim (fun t => j2den d H (amps_line (flat3 T) (flat3 Y) t) (flat3 Y) e1 v) 0 (j2den d H (flat3 T) (flat3 Y) e2 v).
Proof.
  intros HH HT HY E. eapply dlim_eq;
  [exact (dex_ok (denv [noa d; nua d; nob d; nub d]) j2_dm (fun t => tenv (j2_arrays d H (amps_line (flat3 T) (flat3 Y) t) (flat3 Y))) (tenv (j2_arrays d H (flat3 T) (flat3 Y))) (j2_line d H T Y) e1 v)|].
  now apply j2_same.
Qed.

(** * EOMCC2 *)
Lemma cc2_jac d H T Y : antisym_ints H -> antisym_amps T -> antisym_amps Y ->
  jacobian d (fun t => cc2_resid d H (amps_line T Y t))
    (singles_doubles (eom2_HR d (hbar_cc2 d H T) T Y) (eom2_HR d (plain_fock H (hbar_cc2 d H T)) T Y)).
Proof.
  intros HH HT HY. assert (D := fun e1 e2 v => j2_deriv d H T Y e1 e2 v HH HT HY).
  constructor; intros.
  - exact (D (r_cc2_res_a 2 0 1) (r_eom2_X1A_9 2 0 1) (venv [a; i]) ltac:(vm_compute; reflexivity))%nat.
  - exact (D (r_cc2_res_b 2 0 1) (r_eom2_X1B_9 2 0 1) (venv [a; i]) ltac:(vm_compute; reflexivity))%nat.
  - exact (D (r_cc2f_aa 4 0 1 2 3) (r_eomf_X2A_5 4 0 1 2 3) (venv [a; b; i; j]) ltac:(vm_compute; reflexivity))%nat.
  - exact (D (r_cc2_res_ab 4 0 1 2 3) (r_eomf_X2B_7 4 0 1 2 3) (venv [a; b; i; j]) ltac:(vm_compute; reflexivity))%nat.
  - exact (D (r_cc2f_bb 4 0 1 2 3) (r_eomf_X2C_5 4 0 1 2 3) (venv [a; b; i; j]) ltac:(vm_compute; reflexivity))%nat.
Qed.

(** * The residual in terms of the CCSD residual *)
Definition memn (l : list nat) (k : nat) : bool := existsb (Nat.eqb k) l.
Definition z_s := memn (49 :: 50 :: 51 :: 52 :: [10; 11; 18])%nat.
Definition z_d := memn ([49; 50; 51; 52] ++ [2; 4] ++ [1; 3; 6; 8; 9; 13; 14; 16; 17; 20; 21; 22; 23; 25; 26] ++ seq 28 21 ++ seq 58 12)%nat.
(** K has the one-body blocks of H and no two-body ones *)
Definition only_fock (H : ints) : ints := mkInts (i_a_oo H) (i_a_ov H) (i_a_vo H) (i_a_vv H) (i_b_oo H) (i_b_ov H) (i_b_vo H) (i_b_vv H)
  no_pairs no_pairs no_pairs no_pairs no_pairs no_pairs no_pairs no_pairs no_pairs no_pairs no_pairs no_pairs no_pairs no_pairs no_pairs no_pairs
  no_pairs no_pairs no_pairs no_pairs no_pairs no_pairs no_pairs no_pairs no_pairs no_pairs no_pairs no_pairs no_pairs no_pairs no_pairs no_pairs
  no_pairs no_pairs no_pairs no_pairs no_pairs no_pairs no_pairs no_pairs no_pairs no_pairs no_pairs no_pairs no_pairs no_pairs no_pairs no_pairs.
Lemma z_s_ok d H T Y k l : tenv (j2_arrays d H (singles_of T) (flat3 Y)) k l = if z_s k then 0 else tenv (j2_arrays d H (flat3 T) (flat3 Y)) k l.
Proof.
  do 70 (destruct k as [|k]; [cbn; unfold ap4, ap6, no_pairs, no_triples; first [reflexivity|repeat (destruct l as [|? l]; cbn; try reflexivity)]|]).
  cbn; rewrite ?nth_overflow by (simpl; lia); reflexivity.
Qed.
Lemma z_d_ok d H T Y k l : tenv (j2_arrays d (only_fock H) (doubles_of T) (flat3 Y)) k l = if z_d k then 0 else tenv (j2_arrays d H (flat3 T) (flat3 Y)) k l.
Proof.
  do 70 (destruct k as [|k]; [cbn; unfold ap2, ap4, ap6, no_pairs, no_triples; first [reflexivity|repeat (destruct l as [|? l]; cbn; try reflexivity)]|]).
  cbn; rewrite ?nth_overflow by (simpl; lia); reflexivity.
Qed.
Definition spl (e : ex) : ex := EAdd (killz z_s e) (killz z_d e).
Lemma spl_ok d H T Y e v : j2den d H (flat3 T) (flat3 Y) (spl e) v = j2den d H (singles_of T) (flat3 Y) e v + j2den d (only_fock H) (doubles_of T) (flat3 Y) e v.
Proof.
  unfold spl. cbn [den]. rewrite (kill_map z_s _ (tenv (j2_arrays d H (flat3 T) (flat3 Y))) _ (z_s_ok d H T Y) e v),
    (kill_map z_d _ (tenv (j2_arrays d H (flat3 T) (flat3 Y))) _ (z_d_ok d H T Y) e v). reflexivity.
Qed.
Section Res.
Variables (d : dims) (H : ints) (T : amps).
Hypothesis HH : antisym_ints H.
Hypothesis HT : antisym_amps T.
Let S e1 e2 v := j2_same d H T T e1 e2 v HH HT HT.
Lemma cc2_a a i : x_a (cc2_resid d H T) a i = x_a (ccsd_resid d H T) a i.
Proof. exact (S (r_cc2_res_a 2 0 1) (r_ccsd_res_a 2 0 1) (venv [a; i]) ltac:(vm_compute; reflexivity))%nat. Qed.
Lemma cc2_b a i : x_b (cc2_resid d H T) a i = x_b (ccsd_resid d H T) a i.
Proof. exact (S (r_cc2_res_b 2 0 1) (r_ccsd_res_b 2 0 1) (venv [a; i]) ltac:(vm_compute; reflexivity))%nat. Qed.
Lemma cc2_aa a b i j : x_aa (cc2_resid d H T) a b i j = x_aa (ccsd_resid d H (singles_of T)) a b i j + x_aa (ccsd_resid d (only_fock H) (doubles_of T)) a b i j.
Proof. refine (eq_trans _ (spl_ok d H T T (r_ccsdf_aa 4 0 1 2 3) (venv [a; b; i; j])))%nat. exact (S (r_cc2f_aa 4 0 1 2 3) (spl (r_ccsdf_aa 4 0 1 2 3)) (venv [a; b; i; j]) ltac:(vm_compute; reflexivity))%nat. Qed.
Lemma cc2_bb a b i j : x_bb (cc2_resid d H T) a b i j = x_bb (ccsd_resid d H (singles_of T)) a b i j + x_bb (ccsd_resid d (only_fock H) (doubles_of T)) a b i j.
Proof. refine (eq_trans _ (spl_ok d H T T (r_ccsdf_bb 4 0 1 2 3) (venv [a; b; i; j])))%nat. exact (S (r_cc2f_bb 4 0 1 2 3) (spl (r_ccsdf_bb 4 0 1 2 3)) (venv [a; b; i; j]) ltac:(vm_compute; reflexivity))%nat. Qed.
Lemma cc2_ab a b i j : x_ab (cc2_resid d H T) a b i j = x_ab (ccsd_resid d H (singles_of T)) a b i j + x_ab (ccsd_resid d (only_fock H) (doubles_of T)) a b i j.
Proof. refine (eq_trans _ (spl_ok d H T T (r_ccsd_res_ab 4 0 1 2 3) (venv [a; b; i; j])))%nat. exact (S (r_cc2_res_ab 4 0 1 2 3) (spl (r_ccsd_res_ab 4 0 1 2 3)) (venv [a; b; i; j]) ltac:(vm_compute; reflexivity))%nat. Qed.
(** CCSDT without triples *)
Definition z_t := memn [49; 50; 51; 52]%nat.
Lemma z_t_ok k ix : z_t k = true -> tenv (j2_arrays d H (flat3 T) (flat3 T)) k ix = 0.
Proof.
  intros Z. do 53 (destruct k as [|k]; [first [discriminate Z|cbn; unfold ap6, no_triples; repeat (destruct ix as [|? ix]; cbn; try reflexivity)]|]).
  unfold z_t, memn in Z. cbn in Z. discriminate Z.
Qed.
Let K e v := killz_ok z_t (denv [noa d; nua d; nob d; nub d]) (tenv (j2_arrays d H (flat3 T) (flat3 T))) e z_t_ok v.
Lemma sdt_a a i : x_a (ccsdt_resid d H (flat3 T)) a i = x_a (ccsd_resid d H T) a i.
Proof. refine (eq_trans (eq_sym (K (r_ccsdt_res_a 2 0 1) (venv [a; i]))) _)%nat. exact (S (killz z_t (r_ccsdt_res_a 2 0 1)) (r_ccsd_res_a 2 0 1) (venv [a; i]) ltac:(vm_compute; reflexivity))%nat. Qed.
Lemma sdt_b a i : x_b (ccsdt_resid d H (flat3 T)) a i = x_b (ccsd_resid d H T) a i.
Proof. refine (eq_trans (eq_sym (K (r_ccsdt_res_b 2 0 1) (venv [a; i]))) _)%nat. exact (S (killz z_t (r_ccsdt_res_b 2 0 1)) (r_ccsd_res_b 2 0 1) (venv [a; i]) ltac:(vm_compute; reflexivity))%nat. Qed.
Lemma sdt_aa a b i j : x_aa (ccsdt_resid d H (flat3 T)) a b i j = x_aa (ccsd_resid d H T) a b i j.
Proof. refine (eq_trans (eq_sym (K (r_ccsdtf_aa 4 0 1 2 3) (venv [a; b; i; j]))) _)%nat. exact (S (killz z_t (r_ccsdtf_aa 4 0 1 2 3)) (r_ccsdf_aa 4 0 1 2 3) (venv [a; b; i; j]) ltac:(vm_compute; reflexivity))%nat. Qed.
Lemma sdt_bb a b i j : x_bb (ccsdt_resid d H (flat3 T)) a b i j = x_bb (ccsd_resid d H T) a b i j.
Proof. refine (eq_trans (eq_sym (K (r_ccsdtf_bb 4 0 1 2 3) (venv [a; b; i; j]))) _)%nat. exact (S (killz z_t (r_ccsdtf_bb 4 0 1 2 3)) (r_ccsdf_bb 4 0 1 2 3) (venv [a; b; i; j]) ltac:(vm_compute; reflexivity))%nat. Qed.
Lemma sdt_ab a b i j : x_ab (ccsdt_resid d H (flat3 T)) a b i j = x_ab (ccsd_resid d H T) a b i j.
Proof. refine (eq_trans (eq_sym (K (r_ccsdt_res_ab 4 0 1 2 3) (venv [a; b; i; j]))) _)%nat. exact (S (killz z_t (r_ccsdt_res_ab 4 0 1 2 3)) (r_ccsd_res_ab 4 0 1 2 3) (venv [a; b; i; j]) ltac:(vm_compute; reflexivity))%nat. Qed.
End Res.
